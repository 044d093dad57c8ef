#!/usr/bin/env python3
"""Writes rocq/theories/ExampleData.v from the test data of /repo, as text."""
import re, sys
from fractions import Fraction
SRC = "/repo/mlx9064x-test-data/src/mlx90640_example_data.rs"
text = open(SRC).read().split("\n")

def find(name):
    for i, l in enumerate(text):
        if re.match(r"pub const %s\b" % name, l):
            j = i
            while not text[j].rstrip().endswith(";"):
                j += 1
            return i + 1, j + 1, "\n".join(text[i:j + 1])
    raise SystemExit("no " + name)

def raw_bytes(name):
    a, b, body = find(name)
    v = [int(x, 16) for x in re.findall(r"\\x([0-9A-Fa-f]{2})", body)]
    return a, b, v

def words(name, coq, out):
    a, b, v = raw_bytes(name)
    w = [v[2 * i] * 256 + v[2 * i + 1] for i in range(len(v) // 2)]
    out.append("(** mlx90640_example_data.rs %d-%d [%s], as words *)" % (a, b, name))
    out.append("Definition %s : list Z := [" % coq)
    rows = ["  " + "; ".join("0x%04x" % x for x in w[i:i + 12]) for i in range(0, len(w), 12)]
    out.append(";\n".join(rows) + "].")
    out.append("")

def decimals(name, coq, exp, out):
    a, b, body = find(name)
    body = body.split("=", 1)[1]
    v = [Fraction(x) for x in re.findall(r"-?\d+(?:\.\d+)?(?:[eE]-?\d+)?", re.sub(r"f32", "", body.replace("_", "")))]
    ints = []
    for x in v:
        y = x * 10 ** exp
        assert y.denominator == 1, (name, x)
        ints.append(int(y))
    out.append("(** mlx90640_example_data.rs %d-%d [%s], times 10^%d *)" % (a, b, name, exp))
    out.append("Definition %s : list Z := [" % coq)
    rows = ["  " + "; ".join(str(x) for x in ints[i:i + 14]) for i in range(0, len(ints), 14)]
    out.append(";\n".join(rows) + "].")
    out.append("")
    return len(ints)

out = ["(** * ExampleData: the recorded frames and expected results of",
       "    mlx9064x-test-data/src/mlx90640_example_data.rs.  Generated by",
       "    tools/gen_example_data.py; used by Conformance. *)",
       "From Verif Require Import Base.", ""]
words("EEPROM_DATA", "ex_eeprom_words", out)
words("FRAME_0_DATA", "ex_frame0_words", out)
words("FRAME_1_DATA", "ex_frame1_words", out)
for n, c, e in [("ALPHA_PIXELS", "ex_alpha_pixels", 19), ("OFFSET_REFERENCE_PIXELS", "ex_offset_pixels", 0),
                ("K_TA_PIXELS", "ex_k_ta_pixels", 8), ("K_V_PIXELS", "ex_k_v_pixels", 6),
                ("TEMPERATURES", "ex_temperatures", 3)]:
    k = decimals(n, c, e, out)
    assert k == 768, (n, k)
open(sys.argv[1], "w").write("\n".join(out))
