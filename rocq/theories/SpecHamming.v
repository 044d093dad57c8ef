(** * SpecHamming: the code of the table in hamming.rs 12-88, as equations on bits. *)
From Verif Require Import Base SpecRegister.

(** Data bits covered by each parity bit, transcribed from the table. *)
Definition P0_covers : list Z := [10; 8; 6; 4; 3; 1; 0].
Definition P1_covers : list Z := [10; 9; 6; 5; 3; 2; 0].
Definition P2_covers : list Z := [10; 9; 8; 7; 3; 2; 1].
Definition P3_covers : list Z := [10; 9; 8; 7; 6; 5; 4].
Definition P4_covers : list Z := [14; 13; 12; 11; 10; 9; 8; 7; 6; 5; 4; 3; 2; 1; 0].

Definition parity_of (w : Z) (l : list Z) : bool := fold_right (fun i acc => xorb (bit w i) acc) false l.

Definition is_codeword (c : Z) : Prop :=
  word c /\
  bit c 11 = parity_of c P0_covers /\
  bit c 12 = parity_of c P1_covers /\
  bit c 13 = parity_of c P2_covers /\
  bit c 14 = parity_of c P3_covers /\
  bit c 15 = parity_of c P4_covers.

Definition positions : list Z := [0; 1; 2; 3; 4; 5; 6; 7; 8; 9; 10; 11; 12; 13; 14; 15].

(** Number of the sixteen bit positions in which two words differ. *)
Definition distance (a b : Z) : nat :=
  length (filter (fun i => xorb (bit a i) (bit b i)) positions).

(** The eleven data bits of a word. *)
Definition data_of (c : Z) : Z := c mod 2048.
