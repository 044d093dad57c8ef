(** * SpecEeprom: bit fields and words of an EEPROM dump, written with division
    and remainder only. *)
From Verif Require Import Base SpecRegister.

(** Two's complement value of an [n]-bit field, and the signed [n]-bit field at
    bit [lo] of a word. *)
Definition sext (n v : Z) : Z := if v <? 2 ^ (n - 1) then v else v - 2 ^ n.
Definition sbits (w lo n : Z) : Z := sext n (bits w lo n).

(** Byte [j] and big-endian word number [i] of a dump (the word at EEPROM
    address 0x2400 + i). *)
Definition byte_at (data : list Z) (j : nat) : Z := nth j data 0.
Definition ee_word (data : list Z) (i : nat) : Z :=
  256 * byte_at data (2 * i) + byte_at data (2 * i + 1).

(** Representable as a signed 16-bit integer. *)
Definition fits (z : Z) : Prop := -32768 <= z <= 32767.
