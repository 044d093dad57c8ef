(** * FieldFacts: the bit-field helpers of both EEPROM decoders. *)
From Verif Require Import Base FloatOps Register Bus Camera SpecRegister SpecEeprom ParseFacts Ee640.

Lemma bits_range w lo n : 0 <= n -> 0 <= bits w lo n < 2 ^ n.
Proof. intros. unfold bits. apply Z.mod_pos_bound, Z.pow_pos_nonneg; lia. Qed.

Lemma bits_bits w lo n lo' n' : 0 <= lo -> 0 <= lo' -> 0 <= n' -> lo' + n' <= n ->
  bits (bits w lo n) lo' n' = bits w (lo + lo') n'.
Proof.
  intros Hlo Hlo' Hn' Hn. unfold bits. rewrite Z.pow_add_r by lia.
  rewrite <- Z.div_div by (try apply Z.pow_nonzero; try apply Z.pow_pos_nonneg; lia).
  set (x := w / 2 ^ lo).
  replace (2 ^ n) with (2 ^ lo' * 2 ^ (n - lo')) by (rewrite <- Z.pow_add_r by lia; f_equal; lia).
  rewrite Z.rem_mul_r by (try apply Z.pow_nonzero; try apply Z.pow_pos_nonneg; lia).
  rewrite Z.add_comm, Z.mul_comm, Z.div_add_l by (apply Z.pow_nonzero; lia).
  rewrite (Z.div_small (x mod 2 ^ lo')) by (apply Z.mod_pos_bound, Z.pow_pos_nonneg; lia).
  rewrite Z.add_0_r.
  replace (2 ^ (n - lo')) with (2 ^ n' * 2 ^ (n - lo' - n'))
    by (rewrite <- Z.pow_add_r by lia; f_equal; lia).
  rewrite Z.rem_mul_r by (try apply Z.pow_nonzero; try apply Z.pow_pos_nonneg; lia).
  rewrite Z.mul_comm, Z.mod_add by (apply Z.pow_nonzero; lia).
  apply Z.mod_mod. apply Z.pow_nonzero; lia.
Qed.

Lemma sbits_bits w lo n lo' n' : 0 <= lo -> 0 <= lo' -> 0 <= n' -> lo' + n' <= n ->
  sbits (bits w lo n) lo' n' = sbits w (lo + lo') n'.
Proof. intros. unfold sbits. rewrite bits_bits by assumption. reflexivity. Qed.

Lemma sext_range n v : 1 <= n -> 0 <= v < 2 ^ n -> - 2 ^ (n - 1) <= sext n v < 2 ^ (n - 1).
Proof.
  intros Hn Hv. unfold sext. assert (2 ^ n = 2 * 2 ^ (n - 1)).
  { replace n with (Z.succ (n - 1)) at 1 by lia. apply Z.pow_succ_r. lia. }
  destruct (Z.ltb_spec v (2 ^ (n - 1))); lia.
Qed.

Lemma sbits_range w lo n : 1 <= n -> - 2 ^ (n - 1) <= sbits w lo n < 2 ^ (n - 1).
Proof. intros. apply sext_range; [assumption|]. apply bits_range; lia. Qed.

Lemma sbits_16 w : word w -> sbits w 0 16 = sext 16 w.
Proof.
  unfold word. intros. unfold sbits, bits. change (2 ^ 0) with 1. rewrite Z.div_1_r.
  rewrite Z.mod_small by (change (2 ^ 16) with 65536; lia). reflexivity.
Qed.

(** Sweeps over the 256 bytes. *)
Definition all_bytes : list Z := map Z.of_nat (seq 0 256).
Lemma byte_sweep (P : Z -> bool) : forallb P all_bytes = true -> forall b, byte b -> P b = true.
Proof.
  intros H b Hb. rewrite forallb_forall in H. apply H. unfold all_bytes, byte in *.
  apply in_map_iff. exists (Z.to_nat b). split; [lia|]. apply in_seq. lia.
Qed.

Lemma u8_to_i4s_spec b : byte b -> u8_to_i4s b = (sbits b 4 4, sbits b 0 4).
Proof.
  intros Hb.
  pose proof (byte_sweep (fun b => (fst (u8_to_i4s b) =? sbits b 4 4) && (snd (u8_to_i4s b) =? sbits b 0 4))
                eq_refl b Hb) as H.
  apply andb_prop in H. destruct H as [H1 H2]. apply Z.eqb_eq in H1, H2.
  destruct (u8_to_i4s b). cbn [fst snd] in *. congruence.
Qed.

Lemma u4s_spec b : byte b ->
  Z.shiftr (Z.land b 0xF0) 4 = bits b 4 4 /\ Z.land b 0xF = bits b 0 4.
Proof.
  intros Hb.
  pose proof (byte_sweep (fun b => (Z.shiftr (Z.land b 0xF0) 4 =? bits b 4 4) && (Z.land b 0xF =? bits b 0 4))
                eq_refl b Hb) as H.
  apply andb_prop in H. destruct H as [H1 H2]. apply Z.eqb_eq in H1, H2. auto.
Qed.

Lemma six_bit_spec b : byte b -> sar (i8_of_u8 b) 2 = sbits b 2 6 /\ Z.land b 0x03 = bits b 0 2.
Proof.
  intros Hb.
  pose proof (byte_sweep (fun b => (sar (i8_of_u8 b) 2 =? sbits b 2 6) && (Z.land b 0x03 =? bits b 0 2))
                eq_refl b Hb) as H.
  apply andb_prop in H. destruct H as [H1 H2]. apply Z.eqb_eq in H1, H2. auto.
Qed.

Lemma offset_remainder_spec b : byte b -> sar (i8_of_u8 (Z.land b 0xFC)) 2 = sbits b 2 6.
Proof.
  intros Hb.
  pose proof (byte_sweep (fun b => sar (i8_of_u8 (Z.land b 0xFC)) 2 =? sbits b 2 6) eq_refl b Hb) as H.
  apply Z.eqb_eq in H. exact H.
Qed.

Lemma k_ta_remainder_spec b : byte b -> sar (shl8 (i8_of_u8 (Z.land b 0x0E)) 4) 5 = sbits b 1 3.
Proof.
  intros Hb.
  pose proof (byte_sweep (fun b => sar (shl8 (i8_of_u8 (Z.land b 0x0E)) 4) 5 =? sbits b 1 3) eq_refl b Hb) as H.
  apply Z.eqb_eq in H. exact H.
Qed.

Lemma outlier_bit_spec b : byte b -> is_bit_set b 0 = bit b 0.
Proof.
  intros Hb.
  pose proof (byte_sweep (fun b => Bool.eqb (is_bit_set b 0) (bit b 0)) eq_refl b Hb) as H.
  apply eqb_prop in H. exact H.
Qed.

Lemma i16_of_u16_mod w : (i16_of_u16 w) mod 65536 = w mod 65536.
Proof.
  unfold i16_of_u16. destruct (w <? 32768); [reflexivity|].
  rewrite <- (Z.mod_add (w - 65536) 1 65536) by lia. f_equal. lia.
Qed.

(** Shifting left then arithmetically right extracts a signed field. *)
Lemma shl_sar num w n m : 1 <= n -> 0 <= m -> n + m <= 16 -> num mod 65536 = w mod 65536 ->
  sar (shl16 num (16 - n - m)) (16 - n) = sbits w m n.
Proof.
  intros Hn Hm Hnm Hmod. unfold sar, shl16.
  assert (E : wrap16 (num * 2 ^ (16 - n - m)) = wrap16 (bits w 0 (n + m) * 2 ^ (16 - n - m))).
  { apply wrap16_eq. unfold bits. change (2 ^ 0) with 1. rewrite Z.div_1_r.
    rewrite <- Z.mul_mod_idemp_l, Hmod, Z.mul_mod_idemp_l by lia.
    rewrite (Z.div_mod w (2 ^ (n + m))) at 1 by (apply Z.pow_nonzero; lia).
    replace ((2 ^ (n + m) * (w / 2 ^ (n + m)) + w mod 2 ^ (n + m)) * 2 ^ (16 - n - m))
      with (w mod 2 ^ (n + m) * 2 ^ (16 - n - m) + (w / 2 ^ (n + m)) * (2 ^ (n + m) * 2 ^ (16 - n - m)))
      by ring.
    rewrite <- Z.pow_add_r by lia. replace (n + m + (16 - n - m)) with 16 by lia.
    change (2 ^ 16) with 65536. apply Z.mod_add. lia. }
  rewrite E. pose proof (bits_range w 0 (n + m) ltac:(lia)) as Hv.
  assert (Hb : bits w m n = bits w 0 (n + m) / 2 ^ m).
  { replace (bits w m n) with (bits (bits w 0 (n + m)) m n) by (rewrite bits_bits by lia; f_equal; lia).
    unfold bits at 1.
    rewrite Z.mod_small; [reflexivity|]. split.
    - apply Z.div_pos; [lia|apply Z.pow_pos_nonneg; lia].
    - apply Z.div_lt_upper_bound; [apply Z.pow_pos_nonneg; lia|].
      rewrite <- Z.pow_add_r by lia. replace (m + n) with (n + m) by lia. lia. }
  unfold sbits, sext. rewrite Hb. set (v := bits w 0 (n + m)) in *.
  set (k := 16 - n - m) in *.
  assert (Hk : 0 <= k) by (unfold k; lia).
  assert (P16 : 2 ^ (n + m) * 2 ^ k = 65536).
  { rewrite <- Z.pow_add_r by lia. unfold k. replace (n + m + (16 - n - m)) with 16 by lia. reflexivity. }
  assert (Pk : 0 < 2 ^ k) by (apply Z.pow_pos_nonneg; lia).
  assert (Pm : 0 < 2 ^ m) by (apply Z.pow_pos_nonneg; lia).
  assert (P1 : 2 ^ (n + m) = 2 * (2 ^ m * 2 ^ (n - 1))).
  { rewrite <- Z.pow_add_r, <- Z.pow_succ_r by lia. f_equal. lia. }
  assert (Pn : 2 ^ n = 2 * 2 ^ (n - 1)) by (rewrite <- Z.pow_succ_r by lia; f_equal; lia).
  assert (Hd : forall x, x * 2 ^ k / 2 ^ (16 - n) = x / 2 ^ m).
  { intros x. replace (16 - n) with (m + k) by (unfold k; lia). rewrite Z.pow_add_r by lia.
    apply Z.div_mul_cancel_r; lia. }
  destruct (Z.ltb_spec (v / 2 ^ m) (2 ^ (n - 1))) as [Hs|Hs].
  - assert (Hlt : v < 2 ^ m * 2 ^ (n - 1)).
    { destruct (Z.lt_ge_cases v (2 ^ m * 2 ^ (n - 1))) as [H|H]; [exact H|].
      apply Z.div_le_lower_bound in H; lia. }
    rewrite wrap16_id; [apply Hd|]. unfold fits. nia.
  - assert (Hge : 2 ^ m * 2 ^ (n - 1) <= v).
    { apply Z.le_trans with (2 ^ m * (v / 2 ^ m)); [nia|]. apply Z.mul_div_le. lia. }
    replace (wrap16 (v * 2 ^ k)) with ((v - 2 ^ (n + m)) * 2 ^ k).
    + rewrite Hd. replace (v - 2 ^ (n + m)) with (v + (- 2 ^ n) * 2 ^ m)
        by (rewrite P1, Pn; ring).
      rewrite Z.div_add by lia. lia.
    + rewrite <- (wrap16_id ((v - 2 ^ (n + m)) * 2 ^ k)).
      * apply wrap16_eq. rewrite Z.mul_sub_distr_r, P16.
        rewrite <- (Z.mod_add (v * 2 ^ k - 65536) 1 65536) by lia. f_equal. lia.
      * unfold fits. nia.
Qed.

Lemma i16_from_bits_spec hi lo rest n : byte hi -> byte lo -> 1 <= n <= 16 ->
  i16_from_bits (hi :: lo :: rest) n = Ok (sbits (be16 hi lo) 0 n).
Proof.
  intros Hh Hl Hn. unfold i16_from_bits. cbn [bind].
  destruct (Z.leb_spec 1 n); [|lia]. destruct (Z.leb_spec n 16); [|lia]. cbn [andb].
  f_equal. rewrite <- (shl_sar (i16_of_u16 (be16 hi lo)) (be16 hi lo) n 0) by
    (try lia; apply i16_of_u16_mod).
  rewrite Z.sub_0_r. reflexivity.
Qed.

(** A single byte is first sign-extended to 16 bits. *)
Lemma i16_from_bits_byte b n : byte b -> 1 <= n <= 16 ->
  i16_from_bits [b] n = Ok (sbits (sext 8 b) 0 n).
Proof.
  intros Hb Hn. unfold i16_from_bits. cbn [bind].
  destruct (Z.leb_spec 1 n); [|lia]. destruct (Z.leb_spec n 16); [|lia]. cbn [andb].
  f_equal. rewrite <- (shl_sar (i8_of_u8 b) (sext 8 b) n 0) by (try lia; reflexivity).
  rewrite Z.sub_0_r. reflexivity.
Qed.

Lemma alpha_remainder_spec w : word w ->
  sar (shl16 (i16_of_u16 (be16 (Z.land (bits w 8 8) 0x03) (bits w 0 8))) 6) 10 = sbits w 4 6.
Proof.
  intros Hw. destruct (six_bit_spec (bits w 8 8)) as [_ E]; [apply bits_range; lia|]. rewrite E.
  rewrite bits_bits by lia.
  assert (Hv : be16 (bits w (8 + 0) 2) (bits w 0 8) = bits w 0 10).
  { unfold be16, bits. change (8 + 0) with 8. change (2 ^ 0) with 1. rewrite Z.div_1_r.
    change (2 ^ 8) with 256. change (2 ^ 2) with 4. change (2 ^ 10) with (256 * 4).
    rewrite Z.rem_mul_r by lia. lia. }
  rewrite Hv.
  replace 6 with (16 - 6 - 4) at 1 by reflexivity. replace 10 with (16 - 6) at 2 by reflexivity.
  rewrite (shl_sar _ (bits w 0 10)) by (try lia; apply i16_of_u16_mod).
  rewrite sbits_bits by lia. reflexivity.
Qed.

Section Parsers.
Context (data : list Z) (Hb : Forall byte data).
Notation W := (ee_word data).

Lemma reads_u4s i : (2 * i + 1 < length data)%nat ->
  reads data (2 * i) word_to_u4s (2 * (i + 1)) False
    (bits (W i) 12 4, bits (W i) 8 4, bits (W i) 4 4, bits (W i) 0 4).
Proof.
  intros H. unfold word_to_u4s.
  eapply reads_step; [apply reads_u8_hi; [assumption|lia]|].
  eapply reads_step; [apply reads_u8_lo; [assumption|lia]|]. cbv beta.
  destruct (u4s_spec (bits (W i) 8 8)) as [E1 E2]; [apply bits_range; lia|].
  destruct (u4s_spec (bits (W i) 0 8)) as [E3 E4]; [apply bits_range; lia|].
  rewrite E1, E2, E3, E4, !bits_bits by lia. apply reads_pret.
Qed.

Lemma reads_i4s i : (2 * i + 1 < length data)%nat ->
  reads data (2 * i) word_to_i4s (2 * (i + 1)) False
    (sbits (W i) 12 4, sbits (W i) 8 4, sbits (W i) 4 4, sbits (W i) 0 4).
Proof.
  intros H. unfold word_to_i4s.
  eapply reads_step; [apply reads_u8_hi; [assumption|lia]|].
  eapply reads_step; [apply reads_u8_lo; [assumption|lia]|]. cbv beta.
  rewrite !u8_to_i4s_spec by (apply bits_range; lia). rewrite !sbits_bits by lia. apply reads_pret.
Qed.

Lemma reads_6_10 i : (2 * i + 1 < length data)%nat ->
  reads data (2 * i) word_6_10_split (2 * (i + 1)) False
    (sbits (W i) 10 6, [bits (W i) 8 2; bits (W i) 0 8]).
Proof.
  intros H. unfold word_6_10_split.
  eapply reads_step; [apply reads_u8_hi; [assumption|lia]|].
  eapply reads_step; [apply reads_u8_lo; [assumption|lia]|]. cbv beta zeta.
  destruct (six_bit_spec (bits (W i) 8 8)) as [E1 E2]; [apply bits_range; lia|].
  rewrite E1, E2, sbits_bits, bits_bits by lia. apply reads_pret.
Qed.
End Parsers.

Lemma ten_bits w : be16 (bits w 8 2) (bits w 0 8) = bits w 0 10.
Proof.
  unfold be16, bits. change (2 ^ 0) with 1. rewrite Z.div_1_r.
  change (2 ^ 8) with 256. change (2 ^ 2) with 4. change (2 ^ 10) with (256 * 4).
  rewrite Z.rem_mul_r by lia. lia.
Qed.

Lemma ten_bits_signed w : i16_from_bits [bits w 8 2; bits w 0 8] 10 = Ok (sbits w 0 10).
Proof.
  rewrite i16_from_bits_spec; try lia.
  - rewrite ten_bits, sbits_bits by lia. reflexivity.
  - pose proof (bits_range w 8 2 ltac:(lia)) as H. unfold byte. change (2 ^ 2) with 4 in H. lia.
  - pose proof (bits_range w 0 8 ltac:(lia)) as H. exact H.
Qed.
