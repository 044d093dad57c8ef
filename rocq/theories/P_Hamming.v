(** * Properties C06-C09: the Hamming code of the MLX90641 EEPROM. *)
From Verif Require Import Base Register SpecRegister Hamming SpecHamming HammingFacts.

(** ** C06 *)
Theorem C06_encoding : forall w, word w ->
  (w < 2048 -> exists c, add_checksum w = Ok c /\ is_codeword c /\ data_of c = w) /\
  (2048 <= w -> add_checksum w = Err (OtherError "Value given to add_checksum already has a checksum")).
Proof.
  intros w Hw. split; intros H.
  - exists (encode w). assert (Hd : data w) by (split; [apply Hw|exact H]).
    split; [apply add_checksum_data; exact Hd|]. apply encode_codeword. exact Hd.
  - apply add_checksum_big; assumption.
Qed.
Print Assumptions C06_encoding.

(** The parity equations determine the codeword, so [add_checksum] is the only
    function with that property. *)
Theorem C06_encoding_unique : forall c, is_codeword c -> add_checksum (data_of c) = Ok c.
Proof.
  intros c Hc. apply codeword_encode in Hc. destruct Hc as [_ Hc]. rewrite Hc at 2.
  apply add_checksum_data. apply data_of_range.
Qed.
Print Assumptions C06_encoding_unique.

Theorem C06_even_parity : forall c, is_codeword c -> Nat.Even (length (filter (bit c) positions)).
Proof.
  intros c Hc. destruct Hc as (Hw & _ & _ & _ & _ & H15).
  assert (Hodd : forall l, Nat.even (length (filter (bit c) l)) = negb (parity_of c l)).
  { induction l as [|i l IH]; [reflexivity|]. cbn [filter parity_of fold_right].
    fold (parity_of c l). destruct (bit c i); cbn [length].
    - rewrite Nat.even_succ, <- Nat.negb_even, IH. destruct (parity_of c l); reflexivity.
    - rewrite IH, xorb_false_l. reflexivity. }
  apply Nat.even_spec. rewrite Hodd.
  assert (Hp : parity_of c positions = false).
  { unfold positions, parity_of. unfold P4_covers, parity_of in H15. cbn [fold_right] in H15 |- *.
    rewrite H15.
    generalize (bit c 0) (bit c 1) (bit c 2) (bit c 3) (bit c 4) (bit c 5) (bit c 6) (bit c 7)
      (bit c 8) (bit c 9) (bit c 10) (bit c 11) (bit c 12) (bit c 13) (bit c 14).
    intros. rewrite !xorb_false_r.
    repeat (rewrite <- ?xorb_assoc).
    repeat match goal with |- context [xorb (xorb ?a ?b) ?b] => rewrite (xorb_assoc a b b), xorb_nilpotent, xorb_false_r end.
    rewrite ?xorb_nilpotent. reflexivity. }
  rewrite Hp. reflexivity.
Qed.
Print Assumptions C06_even_parity.

Theorem C06_minimum_distance : forall a b, is_codeword a -> is_codeword b -> a <> b ->
  (4 <= distance a b)%nat.
Proof. exact codeword_distance. Qed.
Print Assumptions C06_minimum_distance.

(** ** C07 *)
Theorem C07_single_error_correction : forall c w, is_codeword c -> word w -> (distance w c <= 1)%nat ->
  validate_checksum w = Ok (data_of c).
Proof. exact validate_within_one. Qed.
Print Assumptions C07_single_error_correction.

(** ** C08 *)
Theorem C08_double_error_detection : forall c w, is_codeword c -> word w -> distance w c = 2%nat ->
  validate_checksum w = Err (Checksum w).
Proof. exact validate_two_flips. Qed.
Print Assumptions C08_double_error_detection.

(** ** C09 *)
Theorem C09_bounded_distance_decoding : forall w d, word w ->
  validate_checksum w = Ok d <-> exists c, is_codeword c /\ data_of c = d /\ (distance w c <= 1)%nat.
Proof. exact validate_iff. Qed.
Print Assumptions C09_bounded_distance_decoding.

Theorem C09_only_checksum_errors : forall w, word w ->
  (forall c, is_codeword c -> (2 <= distance w c)%nat) <-> validate_checksum w = Err (Checksum w).
Proof.
  intros w Hw. split.
  - intros H. destruct (validate_outcome w Hw) as [(d & _ & Hd & Hdist)|He]; [|exact He].
    specialize (H _ (proj1 (encode_codeword d Hd))). lia.
  - intros He c Hc. destruct (Nat.le_gt_cases 2 (distance w c)) as [|Hlt]; [assumption|].
    rewrite (validate_within_one c w Hc Hw) in He by lia. discriminate.
Qed.
Print Assumptions C09_only_checksum_errors.

(** Concrete: a codeword, one and two flips of it. *)
Example C06_C09_example : add_checksum 0x2A5 = Ok 0x6AA5 /\ is_codeword 0x6AA5 /\
  distance 0x6AA4 0x6AA5 = 1%nat /\ validate_checksum 0x6AA4 = Ok 0x2A5 /\
  distance 0xEAA4 0x6AA5 = 2%nat /\ validate_checksum 0xEAA4 = Err (Checksum 0xEAA4).
Proof. split; [reflexivity|]. split; [unfold is_codeword, word; repeat split; lia|]. repeat split. Qed.
