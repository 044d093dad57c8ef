(** * BitFacts: lemmas about machine words and masked fields. *)
From Verif Require Import Base Register.
From Coq Require Export ZifyBool ZifyNat.

Definition mask_at (lo n : Z) : Z := Z.shiftl (Z.ones n) lo.

Lemma testbit_mask_at lo n i : 0 <= lo -> 0 <= n -> 0 <= i ->
  Z.testbit (mask_at lo n) i = (lo <=? i) && (i <? lo + n).
Proof.
  intros Hlo Hn Hi. unfold mask_at. rewrite Z.shiftl_spec by lia.
  destruct (Z.leb_spec lo i).
  - rewrite Z.testbit_ones by lia. lia.
  - rewrite Z.testbit_neg_r by lia. reflexivity.
Qed.

Lemma word_testbit_high w i : word w -> 16 <= i -> Z.testbit w i = false.
Proof.
  intros [H0 H1] Hi. destruct (Z.eq_dec w 0) as [->|]; [apply Z.bits_0|].
  apply Z.bits_above_log2; [lia|].
  apply Z.log2_lt_pow2; [lia|]. apply Z.lt_le_trans with 65536; [lia|].
  change 65536 with (2 ^ 16). apply Z.pow_le_mono_r; lia.
Qed.

Lemma small_testbit_high v n i : 0 <= v < 2 ^ n -> 0 <= n <= i -> Z.testbit v i = false.
Proof.
  intros [H0 H1] Hi. destruct (Z.eq_dec v 0) as [->|]; [apply Z.bits_0|].
  apply Z.bits_above_log2; [lia|].
  apply Z.log2_lt_pow2; [lia|]. apply Z.lt_le_trans with (2 ^ n); [lia|].
  apply Z.pow_le_mono_r; lia.
Qed.

Lemma bits_word w : 0 <= w -> (forall i, 16 <= i -> Z.testbit w i = false) -> word w.
Proof.
  intros H0 Hb. split; [assumption|].
  destruct (Z.eq_dec w 0) as [->|]; [lia|].
  change 65536 with (2 ^ 16). apply Z.log2_lt_pow2; [lia|].
  destruct (Z.lt_ge_cases (Z.log2 w) 16) as [|Hge]; [assumption|].
  pose proof (Hb _ Hge) as Hf. rewrite Z.bit_log2 in Hf by lia. discriminate.
Qed.

Lemma bits_lt_pow2 w n : 0 <= n -> 0 <= w -> (forall i, n <= i -> Z.testbit w i = false) -> w < 2 ^ n.
Proof.
  intros Hn H0 Hb.
  destruct (Z.eq_dec w 0) as [->|]; [apply Z.pow_pos_nonneg; lia|].
  apply Z.log2_lt_pow2; [lia|].
  destruct (Z.lt_ge_cases (Z.log2 w) n) as [|Hge]; [assumption|].
  pose proof (Hb _ Hge) as Hf. rewrite Z.bit_log2 in Hf by lia. discriminate.
Qed.

Lemma testbit_65535 i : 0 <= i -> Z.testbit 65535 i = (i <? 16).
Proof. intros Hi. change 65535 with (Z.ones 16). apply Z.testbit_ones_nonneg; lia. Qed.

Lemma testbit_not16 m i : 0 <= i -> Z.testbit (not16 m) i = xorb (i <? 16) (Z.testbit m i).
Proof. intros Hi. unfold not16. rewrite Z.lxor_spec, testbit_65535 by lia. reflexivity. Qed.

(** Word equality by the sixteen bits. *)
Lemma word_ext a b : word a -> word b -> (forall i, 0 <= i < 16 -> Z.testbit a i = Z.testbit b i) -> a = b.
Proof.
  intros Ha Hb H. apply Z.bits_inj'. intros i Hi.
  destruct (Z.lt_ge_cases i 16) as [|Hge]; [apply H; lia|].
  rewrite !word_testbit_high by assumption. reflexivity.
Qed.

Lemma word_land a b : word a -> 0 <= b -> word (Z.land a b).
Proof.
  intros Ha Hb. apply bits_word.
  - apply Z.land_nonneg. left. apply Ha.
  - intros i Hi. rewrite Z.land_spec, (word_testbit_high a) by assumption. reflexivity.
Qed.
Lemma word_land_r a b : 0 <= a -> word b -> word (Z.land a b).
Proof. intros. rewrite Z.land_comm. apply word_land; assumption. Qed.
Lemma word_lor a b : word a -> word b -> word (Z.lor a b).
Proof.
  intros Ha Hb. apply bits_word.
  - apply Z.lor_nonneg. split; [apply Ha|apply Hb].
  - intros i Hi. rewrite Z.lor_spec, !word_testbit_high by assumption. reflexivity.
Qed.
Lemma word_lxor a b : word a -> word b -> word (Z.lxor a b).
Proof.
  intros Ha Hb. apply bits_word.
  - apply Z.lxor_nonneg. split; intros _; [apply Hb|apply Ha].
  - intros i Hi. rewrite Z.lxor_spec, !word_testbit_high by assumption. reflexivity.
Qed.
Lemma not16_nonneg m : 0 <= m -> 0 <= not16 m.
Proof. intros. apply Z.lxor_nonneg. lia. Qed.
Lemma word_not16 m : word m -> word (not16 m).
Proof. intros. apply word_lxor; [unfold word; lia|assumption]. Qed.

(** ** Single-bit flags *)
Lemma flag_spec k w : 0 <= k -> 0 <= w -> flag (2 ^ k) w = Z.testbit w k.
Proof.
  intros Hk Hw. unfold flag.
  assert (Hl : Z.land w (2 ^ k) = if Z.testbit w k then 2 ^ k else 0).
  { apply Z.bits_inj'. intros i Hi. rewrite Z.land_spec, Z.pow2_bits_eqb by lia.
    destruct (Z.eqb_spec k i) as [->|Hne].
    - destruct (Z.testbit w i) eqn:Hb; simpl.
      + rewrite Z.pow2_bits_true by lia. reflexivity.
      + rewrite Z.bits_0. reflexivity.
    - rewrite andb_false_r. destruct (Z.testbit w k).
      + rewrite Z.pow2_bits_false by lia. reflexivity.
      + rewrite Z.bits_0. reflexivity. }
  rewrite Hl. pose proof (Z.pow_pos_nonneg 2 k ltac:(lia) Hk).
  destruct (Z.testbit w k); lia.
Qed.

Lemma testbit_put_flag k w b i : 0 <= k -> 0 <= i < 16 ->
  Z.testbit (put_flag (2 ^ k) w b) i = if i =? k then b else Z.testbit w i.
Proof.
  intros Hk Hi. unfold put_flag. destruct b.
  - rewrite Z.lor_spec, Z.pow2_bits_eqb by lia.
    destruct (Z.eqb_spec k i), (Z.eqb_spec i k); subst; try lia; rewrite ?orb_true_r, ?orb_false_r; reflexivity.
  - rewrite Z.land_spec, testbit_not16, Z.pow2_bits_eqb by lia.
    destruct (Z.eqb_spec k i), (Z.eqb_spec i k); try lia;
      replace (i <? 16) with true by lia; simpl; rewrite ?andb_true_r, ?andb_false_r; reflexivity.
Qed.

Lemma word_put_flag k w b : 0 <= k < 16 -> word w -> word (put_flag (2 ^ k) w b).
Proof.
  intros Hk Hw. assert (0 < 2 ^ k < 65536).
  { split; [apply Z.pow_pos_nonneg; lia|].
    change 65536 with (2 ^ 16). apply Z.pow_lt_mono_r; lia. }
  unfold put_flag. destruct b.
  - apply word_lor; [assumption|unfold word; lia].
  - apply word_land; [assumption|apply not16_nonneg; lia].
Qed.

(** ** Multi-bit fields *)
Lemma field_nonneg m tz w : 0 <= w -> 0 <= field m tz w.
Proof. intros. apply Z.shiftr_nonneg. apply Z.land_nonneg. auto. Qed.

Lemma testbit_field lo n w i : 0 <= lo -> 0 <= n -> 0 <= i ->
  Z.testbit (field (mask_at lo n) lo w) i = (i <? n) && Z.testbit w (i + lo).
Proof.
  intros Hlo Hn Hi. unfold field.
  rewrite Z.shiftr_spec, Z.land_spec, testbit_mask_at by lia.
  replace ((lo <=? i + lo) && (i + lo <? lo + n)) with (i <? n) by lia. apply andb_comm.
Qed.

Lemma field_div_mod lo n w : 0 <= lo -> 0 <= n ->
  field (mask_at lo n) lo w = (w / 2 ^ lo) mod 2 ^ n.
Proof.
  intros Hlo Hn. apply Z.bits_inj'. intros i Hi. rewrite testbit_field by lia.
  destruct (Z.ltb_spec i n).
  - rewrite Z.mod_pow2_bits_low, Z.div_pow2_bits by lia. reflexivity.
  - rewrite Z.mod_pow2_bits_high by lia. reflexivity.
Qed.

Lemma testbit_put_field lo n w v i : 0 <= lo -> 0 <= n -> 0 <= v < 2 ^ n -> 0 <= i < 16 ->
  Z.testbit (put_field (mask_at lo n) lo w v) i =
  if (lo <=? i) && (i <? lo + n) then Z.testbit v (i - lo) else Z.testbit w i.
Proof.
  intros Hlo Hn Hv Hi. unfold put_field.
  rewrite Z.lor_spec, Z.land_spec, testbit_not16, testbit_mask_at, Z.shiftl_spec by lia.
  replace (i <? 16) with true by lia.
  destruct (Z.leb_spec lo i), (Z.ltb_spec i (lo + n)); simpl; rewrite ?andb_false_r, ?andb_true_r; simpl; auto.
  - rewrite (small_testbit_high v n) by lia. apply orb_false_r.
  - rewrite (Z.testbit_neg_r v) by lia. apply orb_false_r.
  - rewrite (Z.testbit_neg_r v) by lia. apply orb_false_r.
Qed.

Lemma word_put_field lo n w v : 0 <= lo -> 0 <= n -> lo + n <= 16 -> 0 <= v < 2 ^ n -> word w ->
  word (put_field (mask_at lo n) lo w v).
Proof.
  intros Hlo Hn Hs Hv Hw. unfold put_field. apply word_lor.
  - apply word_land; [assumption|]. apply not16_nonneg. apply Z.shiftl_nonneg.
    rewrite Z.ones_equiv. pose proof (Z.pow_pos_nonneg 2 n ltac:(lia) Hn). lia.
  - apply bits_word; [apply Z.shiftl_nonneg; lia|].
    intros i Hi. rewrite Z.shiftl_spec by lia. apply (small_testbit_high v n); lia.
Qed.

(** ** Bytes and words *)
Lemma be16_word hi lo : byte hi -> byte lo -> word (be16 hi lo).
Proof. unfold byte, word, be16. lia. Qed.

Lemma to_be_bytes_be16 hi lo : byte hi -> byte lo -> to_be_bytes (be16 hi lo) = [hi; lo].
Proof.
  unfold byte, be16, to_be_bytes. intros Hh Hl. f_equal; [|f_equal].
  - rewrite Z.add_comm, Z_div_plus by lia. rewrite Z.div_small by lia. lia.
  - rewrite Z.add_comm, Z_mod_plus_full. apply Z.mod_small. lia.
Qed.

Lemma word_bytes w : word w -> exists hi lo, byte hi /\ byte lo /\ w = be16 hi lo /\ to_be_bytes w = [hi; lo].
Proof.
  intros Hw. exists (w / 256), (w mod 256). unfold byte, word, be16, to_be_bytes in *.
  repeat split; try (apply Z.mod_pos_bound; lia); try (apply Z.div_pos; lia);
    try (apply Z.div_lt_upper_bound; lia).
  rewrite Z.mul_comm. apply Z.div_mod. lia.
Qed.

Lemma register_from_to_be {E} w : word w -> register_from_slice (E := E) (to_be_bytes w) = Ok w.
Proof.
  intros Hw. destruct (word_bytes w Hw) as (hi & lo & _ & _ & -> & ->). reflexivity.
Qed.

Lemma is_bit_set_spec w k : 0 <= w -> 0 <= k -> is_bit_set w k = Z.testbit w k.
Proof.
  intros Hw Hk. unfold is_bit_set. rewrite Z.shiftl_1_l. apply (flag_spec k w Hk Hw).
Qed.
