(** * P_Ee640Real: the values the MLX90640 decoder computes in IEEE binary32
    (C40, C42, C43, C44).

    [is_val x r]: the binary32 number [x] is finite and its value is exactly the
    real number [r].  [l] is whatever the mathematical library computes for
    [powi], [powf] and [exp2] of a non-integer: none of it is used. *)
From Verif Require Import Base FloatOps Register Bus Camera Cam640 SpecRegister SpecEeprom
  ParseFacts FieldFacts RangeFacts Spec640 Ee640 Ee640Facts Ee640Closed Ee640Local Dumps
  B32 B32Facts P_Ee640.
From Flocq Require Import Core BinarySingleNaN.
From Coq Require Import Reals Lra.
Open Scope Z_scope.

(** ** Exact scaling *)
Lemma bpow_pos n : 0 <= n -> bpow radix2 n = IZR (2 ^ n).
Proof. intros H. destruct n as [|n|n]; [reflexivity|reflexivity|lia]. Qed.

Lemma scaled_bpow z n : 0 <= n -> scaled z n = (IZR z * bpow radix2 (- n))%R.
Proof. intros H. unfold scaled. rewrite bpow_opp, bpow_pos by exact H. reflexivity. Qed.

Lemma val_shift l x z n : is_val x (IZR z) -> Z.abs z <= 2 ^ 24 -> 0 <= n <= 127 ->
  is_val (b_div x (b_exp2 l (b_ofZ n))) (scaled z n).
Proof.
  intros Hx Hz Hn. rewrite scaled_bpow by lia.
  apply b_scale_exact; [exact Hx|exact Hz|apply b_exp2_ofZ; lia|lia].
Qed.

Lemma val_pow2 x z n k : k = 2 ^ n -> is_val x (IZR z) -> Z.abs z <= 2 ^ 24 -> 0 <= n <= 24 ->
  is_val (b_div x (b_ofZ k)) (scaled z n).
Proof.
  intros -> Hx Hz Hn. rewrite scaled_bpow by lia.
  apply b_scale_exact; [exact Hx|exact Hz| |lia].
  rewrite bpow_pos by lia. apply b_ofZ_correct.
  assert (0 < 2 ^ n) by (apply Z.pow_pos_nonneg; lia).
  assert (2 ^ n <= 2 ^ 24) by (apply Z.pow_le_mono_r; lia). lia.
Qed.

Lemma val_ofZ16 z : -65536 <= z <= 65536 -> is_val (b_ofZ z) (IZR z).
Proof. intros H. apply b_ofZ_correct. lia. Qed.

Lemma shifted_range z : -32768 <= shifted z <= 32767.
Proof. unfold shifted. pose proof (Z.mod_pos_bound (z + 32768) 65536 ltac:(lia)). lia. Qed.

Lemma sbits_small w lo n : 1 <= n <= 16 -> -32768 <= sbits w lo n <= 32767.
Proof.
  intros H. pose proof (sbits_range w lo n ltac:(lia)) as B.
  assert (2 ^ (n - 1) <= 2 ^ 15) by (apply Z.pow_le_mono_r; lia). change (2 ^ 15) with 32768 in *. lia.
Qed.

Lemma nibble w lo : 0 <= bits w lo 4 <= 15.
Proof. pose proof (bits_range w lo 4 ltac:(lia)) as B. change (2 ^ 4) with 16 in B. lia. Qed.

Section Values.
Context (l : libm) (p : profile) (data : list Z) (c : calib (B32 l)).
Hypothesis (Hd : full_dump data) (Hc : from_data640 (B32 l) p data = Ok c).
Notation ee := (ee_word data).

Lemma decoded_b32 : c = decoded640 (B32 l) data.
Proof. exact (decoded_is (B32 l) p data c Hd Hc). Qed.

(** ** C40 Sensitivity and K_Ta of the pixels *)
Lemma alpha_in_16_bits sp r col : (r < 24)%nat -> (col < 32)%nat -> ~ failed ee r col ->
  exists x, nth_error (alpha_pixels _ c sp) (32 * r + col) = Some x /\
    is_val x (scaled (shifted (average ee alpha_block + row_term ee alpha_block r + column_term ee alpha_block col)
                      + shifted (remainder_term ee alpha_block r col)) (extra_field ee alpha_block + 30)).
Proof.
  intros Hr Hcol Hf. rewrite decoded_b32. cbn [alpha_pixels decoded640]. rewrite px_at by assumption.
  destruct (pixel_index r col Hr Hcol) as (_ & E1 & E2). unfold px. rewrite E1, E2.
  destruct (Z.eqb_spec (pixel_word ee r col) 0) as [Hz|_]; [contradiction|].
  cbn [px_alpha]. eexists. split; [reflexivity|]. rewrite bulk_sum.
  cbn [fdiv fadd fofZ fexp2 B32].
  set (a := shifted _). set (b := shifted _).
  pose proof (shifted_range (average ee alpha_block + row_term ee alpha_block r + column_term ee alpha_block col)) as Ra.
  pose proof (shifted_range (remainder_term ee alpha_block r col)) as Rb. fold a in Ra. fold b in Rb.
  pose proof (nibble (ee alpha_block) 12) as Rn. fold (extra_field ee alpha_block) in Rn.
  apply val_shift; [|lia|lia].
  rewrite plus_IZR. apply b_add_exact with (m := a + b) (e := 0); try lia.
  - apply val_ofZ16. lia.
  - apply val_ofZ16. lia.
  - rewrite plus_IZR. simpl bpow. ring.
Qed.

Lemma k_ta_in_16_bits sp r col : (r < 24)%nat -> (col < 32)%nat -> ~ failed ee r col ->
  exists x, nth_error (k_ta_pixels _ c sp) (32 * r + col) = Some x /\
    is_val x (scaled (shifted (kta_sum ee r col)) (kta_scale_1 ee)).
Proof.
  intros Hr Hcol Hf. rewrite decoded_b32. cbn [k_ta_pixels decoded640]. rewrite px_at by assumption.
  destruct (pixel_index r col Hr Hcol) as (_ & E1 & E2). unfold px. rewrite E1, E2.
  destruct (Z.eqb_spec (pixel_word ee r col) 0) as [Hz|_]; [contradiction|].
  cbn [px_k_ta]. eexists. split; [reflexivity|].
  cbn [fdiv fofZ fexp2 B32].
  replace (wrap16 (kta_average ee r col + shifted (kta_term ee r col))) with (shifted (kta_sum ee r col))
    by (unfold kta_sum; change shifted with wrap16; rewrite wrap16_add_r; reflexivity).
  pose proof (shifted_range (kta_sum ee r col)) as R.
  pose proof (nibble (ee 0x38%nat) 4) as Rn.
  apply val_shift; [apply val_ofZ16; lia|lia|unfold kta_scale_1; lia].
Qed.

(** No 16-bit sum of the decoder overflows for this pixel. *)
Lemma no_pixel_overflow r col : (r < 24)%nat -> (col < 32)%nat ->
  p = Debug \/ ~ pixel_overflows ee r col -> ~ pixel_overflows ee r col.
Proof.
  intros Hr Hcol [Hp|H]; [|exact H]. intros Ho.
  apply (no_overflow_debug (B32 l) p data c Hd Hc Hp). exists r, col. auto.
Qed.
End Values.

Lemma not_not_fits z : ~ ~ fits z -> fits z.
Proof.
  intros H. destruct (in_i16 z) eqn:E; [apply in_i16_spec; exact E|].
  exfalso. apply H. intros F. apply in_i16_spec in F. congruence.
Qed.

(** For every EEPROM: the sums are 16-bit sums, everything after them is exact. *)
Theorem C40_alpha : forall l p data (c : calib (B32 l)), full_dump data ->
  from_data640 (B32 l) p data = Ok c ->
  forall sp r col, (r < 24)%nat -> (col < 32)%nat -> ~ failed (ee_word data) r col ->
  let ee := ee_word data in
  exists x, nth_error (alpha_pixels _ c sp) (32 * r + col) = Some x /\
    is_val x (scaled (shifted (average ee alpha_block + row_term ee alpha_block r + column_term ee alpha_block col)
                      + shifted (remainder_term ee alpha_block r col)) (extra_field ee alpha_block + 30)).
Proof. intros l p data c Hd Hc sp r col Hr Hcol Hf ee. apply (alpha_in_16_bits l p); assumption. Qed.
Print Assumptions C40_alpha.

(** The documented formula, when no term and no sum leaves 16 bits (with
    overflow checks the sums cannot). *)
Theorem C40_alpha_exact : forall l p data (c : calib (B32 l)), full_dump data ->
  from_data640 (B32 l) p data = Ok c ->
  forall sp r col, (r < 24)%nat -> (col < 32)%nat -> ~ failed (ee_word data) r col ->
  terms_fit (ee_word data) alpha_block r col ->
  p = Debug \/ ~ pixel_overflows (ee_word data) r col ->
  exists x, nth_error (alpha_pixels _ c sp) (32 * r + col) = Some x /\
    is_val x (scaled (pixel_sum (ee_word data) alpha_block r col) (extra_field (ee_word data) alpha_block + 30)).
Proof.
  intros l p data c Hd Hc sp r col Hr Hcol Hf (T1 & T2 & T3) Hp.
  destruct (C40_alpha l p data c Hd Hc sp r col Hr Hcol Hf) as (x & Hx & Hv).
  exists x. split; [exact Hx|].
  pose proof (no_pixel_overflow l p data c Hd Hc r col Hr Hcol Hp) as Hn.
  unfold pixel_overflows, block_overflows in Hn.
  rewrite (shifted_id (row_term _ alpha_block r) T1), (shifted_id (column_term _ alpha_block col) T2) in Hn.
  rewrite (shifted_id (remainder_term _ _ _ _) T3), shifted_id in Hv; [exact Hv|].
  apply not_not_fits. intros Hov. apply Hn. right. left. right. exact Hov.
Qed.
Print Assumptions C40_alpha_exact.

Theorem C40_k_ta : forall l p data (c : calib (B32 l)), full_dump data ->
  from_data640 (B32 l) p data = Ok c ->
  forall sp r col, (r < 24)%nat -> (col < 32)%nat -> ~ failed (ee_word data) r col ->
  exists x, nth_error (k_ta_pixels _ c sp) (32 * r + col) = Some x /\
    is_val x (scaled (shifted (kta_sum (ee_word data) r col)) (kta_scale_1 (ee_word data))).
Proof. intros l p data c Hd Hc sp r col Hr Hcol Hf. apply (k_ta_in_16_bits l p); assumption. Qed.
Print Assumptions C40_k_ta.

(** The documented formula, when the scaled remainder fits in 16 bits and the
    sum does not overflow. *)
Theorem C40_k_ta_exact : forall l p data (c : calib (B32 l)), full_dump data ->
  from_data640 (B32 l) p data = Ok c ->
  forall sp r col, (r < 24)%nat -> (col < 32)%nat -> ~ failed (ee_word data) r col ->
  fits (kta_term (ee_word data) r col) ->
  p = Debug \/ ~ pixel_overflows (ee_word data) r col ->
  exists x, nth_error (k_ta_pixels _ c sp) (32 * r + col) = Some x /\
    is_val x (scaled (kta_sum (ee_word data) r col) (kta_scale_1 (ee_word data))).
Proof.
  intros l p data c Hd Hc sp r col Hr Hcol Hf T Hp.
  destruct (C40_k_ta l p data c Hd Hc sp r col Hr Hcol Hf) as (x & Hx & Hv).
  exists x. split; [exact Hx|].
  pose proof (no_pixel_overflow l p data c Hd Hc r col Hr Hcol Hp) as Hn.
  unfold pixel_overflows in Hn. rewrite (shifted_id (kta_term _ _ _)) in Hn by exact T.
  rewrite shifted_id in Hv; [exact Hv|].
  apply not_not_fits. intros Hov. apply Hn. right. right. split; [exact Hf|]. right. exact Hov.
Qed.
Print Assumptions C40_k_ta_exact.

(** The two-step scaling fits whenever the second scale is below 14. *)
Theorem C40_k_ta_term_fits : forall (ee : nat -> Z) r col, kta_scale_2 ee <= 13 -> fits (kta_term ee r col).
Proof.
  intros ee r col H. unfold kta_term, fits, kta_remainder.
  pose proof (sbits_range (pixel_word ee r col) 1 3 ltac:(lia)) as B. change (2 ^ (3 - 1)) with 4 in B.
  pose proof (nibble (ee 0x38%nat) 0) as Rn. fold (kta_scale_2 ee) in Rn.
  assert (2 ^ kta_scale_2 ee <= 2 ^ 13) by (apply Z.pow_le_mono_r; lia). change (2 ^ 13) with 8192 in *.
  assert (0 < 2 ^ kta_scale_2 ee) by (apply Z.pow_pos_nonneg; lia). nia.
Qed.
Print Assumptions C40_k_ta_term_fits.

(** The datasheet's worked example, pixel (12, 16): alpha = 17348 / 2^37 =
    1.262233126908541e-7 and K_Ta = 84 / 2^14 = 0.005126953125. *)
Example C40_datasheet :
  let ee := ee_word datasheet640 in
  ~ failed ee 11 15 /\ terms_fit ee alpha_block 11 15 /\ fits (kta_term ee 11 15) /\
  pixel_sum ee alpha_block 11 15 = 17348 /\ extra_field ee alpha_block + 30 = 37 /\
  kta_sum ee 11 15 = 84 /\ kta_scale_1 ee = 14.
Proof.
  cbv zeta. split; [unfold failed; vm_compute; discriminate|].
  split; [unfold terms_fit, fits; vm_compute; repeat split; discriminate|].
  split; [unfold fits; vm_compute; split; discriminate|].
  vm_compute. repeat split.
Qed.

(** ** C42 Single parameters *)
Theorem C42_integer_parameters : forall FO p data (c : calib FO), full_dump data ->
  from_data640 FO p data = Ok c ->
  let ee := ee_word data in
  k_v_dd _ c = sbits (ee 0x33%nat) 8 8 * 32 /\
  v_dd_25 _ c = (bits (ee 0x33%nat) 0 8 - 256) * 32 - 8192 /\
  cal_resolution _ c = doc_resolution (bits (ee 0x38%nat) 12 2) /\
  corner_temperatures _ c = [-40; 0; doc_corner_3 ee; doc_corner_4 ee] /\
  offset_reference_cp _ c Zero = sbits (ee 0x3A%nat) 0 10 /\
  offset_reference_cp _ c One = sbits (ee 0x3A%nat) 0 10 + sbits (ee 0x3A%nat) 10 6 /\
  cal_emissivity _ c = None.
Proof.
  intros FO p data c Hd Hc ee. rewrite (decoded_is FO p data c Hd Hc).
  cbn [k_v_dd v_dd_25 cal_resolution corner_temperatures offset_reference_cp cal_emissivity decoded640].
  split.
  { apply wrap16_id. pose proof (sbits_range (ee 0x33%nat) 8 8 ltac:(lia)) as B.
    change (2 ^ (8 - 1)) with 128 in B. change (2 ^ 5) with 32. unfold fits. fold ee. lia. }
  split; [reflexivity|]. split; [reflexivity|].
  split.
  { unfold corners, corner_2, corner_3, temperature_step, doc_corner_4, doc_corner_3, doc_corner_step.
    fold ee.
    assert (E2 : bits (ee 63%nat) 4 4 * (bits (ee 63%nat) 12 2 * 10) = bits (ee 63%nat) 4 4 * (10 * bits (ee 63%nat) 12 2)) by ring.
    assert (E3 : bits (ee 63%nat) 8 4 * (bits (ee 63%nat) 12 2 * 10) + bits (ee 63%nat) 4 4 * (bits (ee 63%nat) 12 2 * 10)
                 = bits (ee 63%nat) 4 4 * (10 * bits (ee 63%nat) 12 2) + bits (ee 63%nat) 8 4 * (10 * bits (ee 63%nat) 12 2)) by ring.
    exact (f_equal2 (fun a b => [-40; 0; a; b]) E2 E3). }
  split; [reflexivity|]. split; [|reflexivity].
  apply wrap16_id. unfold ee.
  pose proof (sbits_range (ee_word data 0x3A) 0 10 ltac:(lia)) as B1. change (2 ^ (10 - 1)) with 512 in B1.
  pose proof (sbits_range (ee_word data 0x3A) 10 6 ltac:(lia)) as B2. change (2 ^ (6 - 1)) with 32 in B2.
  unfold fits. lia.
Qed.
Print Assumptions C42_integer_parameters.

Theorem C42_scalar_parameters : forall l p data (c : calib (B32 l)), full_dump data ->
  from_data640 (B32 l) p data = Ok c ->
  let ee := ee_word data in
  is_val (k_v_ptat _ c) (scaled (sbits (ee 0x32%nat) 10 6) 12) /\
  is_val (k_t_ptat _ c) (scaled (sbits (ee 0x32%nat) 0 10) 3) /\
  is_val (v_ptat_25 _ c) (IZR (sext 16 (ee 0x31%nat))) /\
  is_val (cal_gain _ c) (IZR (sext 16 (ee 0x30%nat))) /\
  is_val (k_s_ta _ c) (scaled (sbits (ee 0x3C%nat) 8 8) 13) /\
  is_val (alpha_cp _ c Zero) (doc_alpha_cp_0 ee) /\
  is_val (alpha_cp _ c One) (doc_alpha_cp_1 ee) /\
  (forall sp, is_val (k_v_cp _ c sp) (scaled (sbits (ee 0x3B%nat) 8 8) (kv_scale ee))) /\
  (forall sp, is_val (k_ta_cp _ c sp) (scaled (sbits (ee 0x3B%nat) 0 8) (kta_scale_1 ee))).
Proof.
  intros l p data c Hd Hc. rewrite (decoded_b32 l p data c Hd Hc).
  cbn [k_v_ptat k_t_ptat v_ptat_25 cal_gain k_s_ta alpha_cp k_v_cp k_ta_cp decoded640]. cbv zeta.
  set (ee := ee_word data).
  assert (S16 : forall w, -32768 <= sext 16 (ee w) <= 32767).
  { intros w. unfold sext. pose proof (ee_word_word data (proj1 Hd) w) as Hw. unfold word in Hw. fold ee in Hw.
    change (2 ^ (16 - 1)) with 32768. change (2 ^ 16) with 65536. destruct (Z.ltb_spec (ee w) 32768); lia. }
  assert (Hcp : is_val (alpha_cp0 (B32 l) data) (doc_alpha_cp_0 ee)).
  { unfold alpha_cp0, doc_alpha_cp_0. cbn [fdiv fofZ fexp2 B32]. fold ee.
    pose proof (bits_range (ee 0x39%nat) 0 10 ltac:(lia)) as B. change (2 ^ 10) with 1024 in B.
    pose proof (nibble (ee alpha_block) 12) as Rn. fold (extra_field ee alpha_block) in Rn.
    apply val_shift; [apply val_ofZ16; lia|lia|lia]. }
  split.
  { pose proof (sbits_small (ee 0x32%nat) 10 6 ltac:(lia)) as B.
    apply (val_pow2 _ _ 12); [reflexivity|apply val_ofZ16; lia|lia|lia]. }
  split.
  { pose proof (sbits_small (ee 0x32%nat) 0 10 ltac:(lia)) as B.
    apply (val_pow2 _ _ 3); [reflexivity|apply val_ofZ16; lia|lia|lia]. }
  split; [apply val_ofZ16; specialize (S16 0x31%nat); lia|].
  split; [apply val_ofZ16; specialize (S16 0x30%nat); lia|].
  split.
  { pose proof (sbits_small (ee 0x3C%nat) 8 8 ltac:(lia)) as B.
    apply val_shift; [apply val_ofZ16; lia|lia|lia]. }
  split; [exact Hcp|].
  split.
  { unfold alpha_cp1, doc_alpha_cp_1. cbn [fmul fadd fdiv fofZ fexp2 B32]. fold ee.
    set (x := sbits (ee 0x39%nat) 10 6).
    pose proof (sbits_range (ee 0x39%nat) 10 6 ltac:(lia)) as B. change (2 ^ (6 - 1)) with 32 in B. fold x in B.
    assert (Hone : is_val (b_ofZ 1) 1) by (apply (val_ofZ16 1); lia).
    assert (Hx : is_val (b_div (b_ofZ x) (b_exp2 l (b_ofZ 7))) (scaled x 7))
      by (apply val_shift; [apply val_ofZ16; lia|lia|lia]).
    assert (Hs : (1 + scaled x 7 = IZR (128 + x) * bpow radix2 (-7))%R).
    { rewrite scaled_bpow by lia. change (-7) with (Z.opp 7). rewrite plus_IZR, !bpow_opp, !(bpow_pos 7) by lia.
      change (2 ^ 7) with 128. field. }
    pose proof (b_add_exact _ _ _ _ (128 + x) (-7) Hone Hx Hs ltac:(lia) ltac:(lia)) as Hsum.
    pose proof (bits_range (ee 0x39%nat) 0 10 ltac:(lia)) as Ba. change (2 ^ 10) with 1024 in Ba.
    pose proof (nibble (ee alpha_block) 12) as Rn. fold (extra_field ee alpha_block) in Rn.
    apply (b_mul_exact _ _ _ _ (bits (ee 0x39%nat) 0 10 * (128 + x)) (- (extra_field ee alpha_block + 27) - 7) Hcp Hsum).
    - rewrite Hs. unfold doc_alpha_cp_0. rewrite scaled_bpow by lia. rewrite mult_IZR.
      replace (- (extra_field ee alpha_block + 27) - 7) with (- (extra_field ee alpha_block + 27) + (-7)) by lia.
      rewrite bpow_plus. ring.
    - change (2 ^ 24) with 16777216. nia.
    - lia. }
  split.
  { intros _. unfold kv_value. cbn [fdiv fofZ fexp2 B32]. fold ee.
    pose proof (sbits_small (ee 0x3B%nat) 8 8 ltac:(lia)) as B.
    pose proof (nibble (ee 0x38%nat) 8) as Rn. fold (kv_scale ee) in Rn.
    apply val_shift; [apply val_ofZ16; lia|lia|lia]. }
  { intros _. cbn [fdiv fofZ fexp2 B32].
    pose proof (sbits_small (ee 0x3B%nat) 0 8 ltac:(lia)) as B.
    pose proof (nibble (ee 0x38%nat) 4) as Rn.
    apply val_shift; [apply val_ofZ16; lia|lia|unfold kta_scale_1; lia]. }
Qed.
Print Assumptions C42_scalar_parameters.

(** K_s_To of the four ranges. *)
Theorem C42_k_s_to : forall l p data (c : calib (B32 l)), full_dump data ->
  from_data640 (B32 l) p data = Ok c ->
  let ee := ee_word data in
  exists k1 k2 k3 k4, k_s_to _ c = [k1; k2; k3; k4] /\
    is_val k1 (scaled (sbits (ee 0x3D%nat) 0 8) (ksto_scale ee)) /\
    is_val k2 (scaled (sbits (ee 0x3D%nat) 8 8) (ksto_scale ee)) /\
    is_val k3 (scaled (sbits (ee 0x3E%nat) 0 8) (ksto_scale ee)) /\
    is_val k4 (scaled (sbits (ee 0x3E%nat) 8 8) (ksto_scale ee)).
Proof.
  intros l p data c Hd Hc. rewrite (decoded_b32 l p data c Hd Hc). cbn [k_s_to decoded640]. cbv zeta.
  unfold ksto. cbn [map]. do 4 eexists. split; [reflexivity|].
  cbn [fdiv fofZ fexp2 B32]. set (ee := ee_word data).
  pose proof (nibble (ee 0x3F%nat) 0) as Rn.
  assert (H : forall w lo, is_val (b_div (b_ofZ (sbits (ee w) lo 8)) (b_exp2 l (b_ofZ (bits (ee 0x3F%nat) 0 4 + 8))))
                                  (scaled (sbits (ee w) lo 8) (ksto_scale ee))).
  { intros w lo. pose proof (sbits_small (ee w) lo 8 ltac:(lia)) as B.
    apply val_shift; [apply val_ofZ16; lia|lia|unfold ksto_scale; lia]. }
  auto.
Qed.
Print Assumptions C42_k_s_to.

(** TGC: absent when the field is 0, otherwise field / 2^5. *)
Theorem C42_tgc : forall l p data (c : calib (B32 l)), full_dump data ->
  from_data640 (B32 l) p data = Ok c ->
  let field := sbits (ee_word data 0x3C) 0 8 in
  (temperature_gradient_coefficient _ c = None <-> field = 0) /\
  (field <> 0 -> exists x, temperature_gradient_coefficient _ c = Some x /\ is_val x (scaled field 5)).
Proof.
  intros l p data c Hd Hc. rewrite (decoded_b32 l p data c Hd Hc).
  cbn [temperature_gradient_coefficient decoded640]. cbv zeta.
  set (f := sbits (ee_word data 0x3C) 0 8).
  pose proof (sbits_small (ee_word data 0x3C) 0 8 ltac:(lia)) as B. fold f in B.
  destruct (Z.eqb_spec f 0) as [Hz|Hz].
  - split; [tauto|contradiction].
  - split; [split; [discriminate|contradiction]|]. intros _. eexists. split; [reflexivity|].
    cbn [fdiv fofZ fexp2 B32]. apply val_shift; [apply val_ofZ16; lia|lia|lia].
Qed.
Print Assumptions C42_tgc.

(** K_V of every pixel, by parity of row and column. *)
Theorem C42_k_v_pixels : forall l p data (c : calib (B32 l)), full_dump data ->
  from_data640 (B32 l) p data = Ok c ->
  forall sp, length (k_v_pixels _ c sp) = 768%nat /\
  forall r col, (r < 24)%nat -> (col < 32)%nat ->
  exists x, nth_error (k_v_pixels _ c sp) (32 * r + col) = Some x /\
    is_val x (scaled (kv_average (ee_word data) r col) (kv_scale (ee_word data))).
Proof.
  intros l p data c Hd Hc sp. rewrite (decoded_b32 l p data c Hd Hc). cbn [k_v_pixels decoded640].
  destruct (C54_k_v_iterator f32
    (kv_value (B32 l) data (sbits (ee_word data 52) 12 4)) (kv_value (B32 l) data (sbits (ee_word data 52) 8 4))
    (kv_value (B32 l) data (sbits (ee_word data 52) 4 4)) (kv_value (B32 l) data (sbits (ee_word data 52) 0 4))) as [Hl Hn].
  split; [exact Hl|]. intros r col Hr Hcol. eexists. split; [apply Hn; assumption|].
  unfold by_parity, kv_average, kv_value. cbn [fdiv fofZ fexp2 B32].
  pose proof (nibble (ee_word data 0x38) 8) as Rn. fold (kv_scale (ee_word data)) in Rn.
  assert (H : forall lo, is_val (b_div (b_ofZ (sbits (ee_word data 52) lo 4)) (b_exp2 l (b_ofZ (kv_scale (ee_word data)))))
                                (scaled (sbits (ee_word data 52) lo 4) (kv_scale (ee_word data)))).
  { intros lo. pose proof (sbits_small (ee_word data 52) lo 4 ltac:(lia)) as B.
    apply val_shift; [apply val_ofZ16; lia|lia|lia]. }
  destruct (Nat.even r), (Nat.even col); apply H.
Qed.
Print Assumptions C42_k_v_pixels.

(** ** C43 Interleave compensation *)
Lemma chess_values l data : let ee := ee_word data in
  is_val (chess1 (B32 l) data) (il_chess_1 ee) /\ is_val (chess2 (B32 l) data) (il_chess_2 ee) /\
  is_val (chess3 (B32 l) data) (il_chess_3 ee).
Proof.
  cbv zeta. unfold chess1, chess2, chess3, il_chess_1, il_chess_2, il_chess_3. cbn [fdiv fofZ B32].
  set (w := ee_word data 0x35).
  pose proof (sbits_small w 0 6 ltac:(lia)). pose proof (sbits_small w 6 5 ltac:(lia)).
  pose proof (sbits_small w 11 5 ltac:(lia)).
  split; [apply (val_pow2 _ _ 4)|split; [apply (val_pow2 _ _ 1)|apply (val_pow2 _ _ 3)]];
    (reflexivity || lia || (apply val_ofZ16; lia)).
Qed.

(** Sums of the constants in eighths. *)
Lemma chess_sums l data : let ee := ee_word data in
  is_val (b_add (chess2 (B32 l) data) (chess3 (B32 l) data)) (il_chess_2 ee + il_chess_3 ee) /\
  is_val (b_sub (chess2 (B32 l) data) (chess3 (B32 l) data)) (il_chess_2 ee - il_chess_3 ee).
Proof.
  cbv zeta. destruct (chess_values l data) as (_ & H2 & H3).
  set (w := ee_word data 0x35).
  pose proof (sbits_range w 6 5 ltac:(lia)) as B1. pose proof (sbits_range w 11 5 ltac:(lia)) as B2.
  change (2 ^ (5 - 1)) with 16 in *.
  split.
  - apply (b_add_exact _ _ _ _ (4 * sbits w 6 5 + sbits w 11 5) (-3) H2 H3); try lia.
    unfold il_chess_2, il_chess_3. fold w. rewrite plus_IZR, mult_IZR. change (-3) with (Z.opp 3). rewrite bpow_opp, bpow_pos by lia.
    change (2 ^ 3) with 8. field.
  - apply (b_sub_exact _ _ _ _ (4 * sbits w 6 5 - sbits w 11 5) (-3) H2 H3); try lia.
    unfold il_chess_2, il_chess_3. fold w. rewrite minus_IZR, mult_IZR. change (-3) with (Z.opp 3). rewrite bpow_opp, bpow_pos by lia.
    change (2 ^ 3) with 8. field.
Qed.

(** Which of the six constants pixel [i] gets, from the datasheet's numbers. *)
Definition pattern_class (i : nat) : nat :=
  (Nat.modulo (Nat.div i WIDTH640) 2 * 3 + match Nat.modulo i 4 with 1 => 1 | 3 => 2 | _ => 0 end)%nat.

Lemma pattern_class_spec i : (i < 768)%nat ->
  il_pattern (Z.of_nat i + 1) = (if Nat.leb 3 (pattern_class i) then 1 else 0) /\
  conversion_pattern (Z.of_nat i + 1) = nth (pattern_class i) [0; -1; 1; 0; 1; -1] 7.
Proof.
  intros H.
  assert (Hall : forallb (fun i => (il_pattern (Z.of_nat i + 1) =? (if Nat.leb 3 (pattern_class i) then 1 else 0))
     && (conversion_pattern (Z.of_nat i + 1) =? nth (pattern_class i) [0; -1; 1; 0; 1; -1] 7)) (seq 0 768) = true)
    by (vm_compute; reflexivity).
  rewrite forallb_forall in Hall. specialize (Hall i ltac:(apply in_seq; lia)).
  apply andb_prop in Hall. destruct Hall as [H1 H2]. apply Z.eqb_eq in H1. apply Z.eqb_eq in H2. auto.
Qed.

Lemma pattern_class_lt i : (pattern_class i < 6)%nat.
Proof.
  unfold pattern_class. pose proof (Nat.mod_upper_bound (i / WIDTH640) 2 ltac:(lia)).
  destruct (i mod 4)%nat as [|[|[|[|]]]]; lia.
Qed.

Theorem C43_interleave_pixels : forall l p data (c : calib (B32 l)), full_dump data ->
  from_data640 (B32 l) p data = Ok c ->
  length (access_pattern_compensation_pixels _ c Interleave) = 768%nat /\
  forall i, (i < 768)%nat ->
  exists x, nth_error (access_pattern_compensation_pixels _ c Interleave) i = Some (Some x) /\
    is_val x (il_compensation (ee_word data) (Z.of_nat i + 1)).
Proof.
  intros l p data c Hd Hc. rewrite (decoded_b32 l p data c Hd Hc).
  cbn [access_pattern_compensation_pixels decoded640]. unfold access_pattern_compensation640.
  rewrite map_length, seq_length. split; [reflexivity|]. intros i Hi.
  change (exists x : f32, nth_error (map (fun i => nth_error (chess_patterns (B32 l) data) (pattern_class i))
             (seq 0 768)) i = Some (Some x) /\ is_val x (il_compensation (ee_word data) (Z.of_nat i + 1))).
  rewrite nth_error_map_seq by exact Hi.
  destruct (pattern_class_spec i Hi) as [Ep Ec]. unfold il_compensation. rewrite Ep, Ec.
  pose proof (pattern_class_lt i) as Hk. destruct (chess_values l data) as (_ & H2 & H3).
  destruct (chess_sums l data) as [Ha Hs].
  set (a := il_chess_3 (ee_word data)) in *. set (b := il_chess_2 (ee_word data)) in *.
  assert (Hval : forall x r r', is_val x r -> r' = r -> is_val x r') by (intros; subst; assumption).
  destruct (pattern_class i) as [|[|[|[|[|[|k]]]]]]; try lia;
    cbn [nth_error nth Nat.leb chess_patterns]; eexists; (split; [reflexivity|]).
  - eapply Hval; [apply b_neg_exact; exact H3|]. ring.
  - eapply Hval; [exact Hs|]. ring.
  - eapply Hval; [apply b_neg_exact; exact Ha|]. ring.
  - eapply Hval; [exact H3|]. ring.
  - eapply Hval; [apply b_neg_exact; exact Hs|]. ring.
  - eapply Hval; [exact Ha|]. ring.
Qed.
Print Assumptions C43_interleave_pixels.

(** No compensation in chess mode, and only subpage 1 of the compensation pixels
    has one in interleaved mode. *)
Theorem C43_chess_and_compensation_pixels : forall l p data (c : calib (B32 l)), full_dump data ->
  from_data640 (B32 l) p data = Ok c ->
  access_pattern_compensation_pixels _ c Chess = repeat None 768 /\
  (forall sp, access_pattern_compensation_cp _ c sp Chess = None) /\
  access_pattern_compensation_cp _ c Zero Interleave = None /\
  exists x, access_pattern_compensation_cp _ c One Interleave = Some x /\ is_val x (il_chess_1 (ee_word data)).
Proof.
  intros l p data c Hd Hc. rewrite (decoded_b32 l p data c Hd Hc).
  cbn [access_pattern_compensation_pixels access_pattern_compensation_cp decoded640].
  split; [reflexivity|]. split; [intros []; reflexivity|]. split; [reflexivity|].
  eexists. split; [reflexivity|]. apply (chess_values l data).
Qed.
Print Assumptions C43_chess_and_compensation_pixels.

(** The datasheet does not say how [int] rounds negative numbers; only pixel 2
    would change if it truncated. *)
Definition conversion_pattern_truncated (n : Z) : Z :=
  (Z.quot (n - 3) 4 - Z.quot (n - 2) 4 + Z.quot n 4 - Z.quot (n - 1) 4) * (1 - 2 * il_pattern n).
Theorem C43_rounding_of_int : forall n, 1 <= n <= 768 ->
  (conversion_pattern_truncated n = conversion_pattern n <-> n <> 2).
Proof.
  intros n Hn.
  destruct (Z.eq_dec n 2) as [->|H2]; [split; [vm_compute; discriminate|intros H; contradiction]|].
  split; [intros _; exact H2|intros _].
  destruct (Z.eq_dec n 1) as [->|H1]; [reflexivity|].
  unfold conversion_pattern_truncated, conversion_pattern.
  rewrite !Z.quot_div_nonneg by lia. reflexivity.
Qed.
Print Assumptions C43_rounding_of_int.

(** The rustdoc of mlx90640/eeprom.rs 582-592 gives a simplification for pixels
    numbered from 0.  Its conversion pattern is the datasheet's for every pixel; its
    IL pattern (the parity of the number) is the datasheet's (the parity of the row)
    only for every second pixel.  The code follows the datasheet (C43_interleave_pixels). *)
Theorem C43_rustdoc_simplification : forall i, 0 <= i ->
  conversion_pattern (i + 1) = i mod 2 * (i mod 4 - 2) * (1 - (i / 32) mod 2 * 2) /\
  il_pattern (i + 1) = (i / 32) mod 2 /\
  (il_pattern (i + 1) = i mod 2 <-> (i / 32) mod 2 = (i mod 32) mod 2).
Proof.
  intros i Hi.
  assert (El : il_pattern (i + 1) = (i / 32) mod 2).
  { unfold il_pattern. replace (i + 1 - 1) with i by lia. pose proof (Z.div_mod (i / 32) 2 ltac:(lia)). lia. }
  split; [|split; [exact El|]].
  - unfold conversion_pattern. rewrite El. replace (1 - 2 * ((i / 32) mod 2)) with (1 - (i / 32) mod 2 * 2) by lia.
    f_equal. replace (i + 1 - 3) with (i - 2) by lia. replace (i + 1 - 2) with (i - 1) by lia. replace (i + 1 - 1) with i by lia.
    assert (E : i = 4 * (i / 4) + i mod 4) by (apply Z.div_mod; lia). pose proof (Z.mod_pos_bound i 4 ltac:(lia)) as B.
    assert (E2 : i mod 2 = (i mod 4) mod 2).
    { rewrite E at 1. replace (4 * (i / 4) + i mod 4) with (i mod 4 + (2 * (i / 4)) * 2) by lia. apply Z.mod_add. lia. }
    rewrite E2. remember (i mod 4) as t eqn:Et. remember (i / 4) as q eqn:Eq. clear Et Eq E2.
    assert (Ht : t = 0 \/ t = 1 \/ t = 2 \/ t = 3) by (clear - B; lia). subst i.
    assert (D : forall r, -4 <= r < 8 -> (4 * q + r) / 4 = q + r / 4).
    { intros r _. rewrite Z.mul_comm, Z.div_add_l by lia. reflexivity. }
    replace (4 * q + t - 2) with (4 * q + (t - 2)) by lia. replace (4 * q + t - 1) with (4 * q + (t - 1)) by lia.
    replace (4 * q + t + 1) with (4 * q + (t + 1)) by lia. rewrite !D by lia.
    destruct Ht as [-> | [-> | [-> | ->]]]; cbn; lia.
  - rewrite El. assert (E2 : i mod 2 = (i mod 32) mod 2).
    { rewrite (Z.div_mod i 32) at 1 by lia. replace (32 * (i / 32) + i mod 32) with (i mod 32 + (16 * (i / 32)) * 2) by lia. apply Z.mod_add. lia. }
    rewrite E2. reflexivity.
Qed.
Print Assumptions C43_rustdoc_simplification.

Example C43_values :
  map (fun n => (il_pattern n, conversion_pattern n)) [1; 2; 3; 4; 33; 34; 35; 36]
  = [(0, 0); (0, -1); (0, 0); (0, 1); (1, 0); (1, 1); (1, 0); (1, -1)].
Proof. reflexivity. Qed.

(** ** C44 Deviations from the datasheet *)

(** alpha_PTAT: an integer division. *)
Theorem C44_alpha_ptat : forall l p data (c : calib (B32 l)), full_dump data ->
  from_data640 (B32 l) p data = Ok c ->
  is_val (alpha_ptat _ c) (IZR (extra_field (ee_word data) offset_block / 4 + 8)) /\
  (is_val (alpha_ptat _ c) (doc_alpha_ptat (ee_word data)) <->
   extra_field (ee_word data) offset_block mod 4 = 0).
Proof.
  intros l p data c Hd Hc. rewrite (decoded_b32 l p data c Hd Hc). cbn [alpha_ptat decoded640].
  set (f := extra_field (ee_word data) offset_block).
  pose proof (nibble (ee_word data offset_block) 12) as Rn. fold (extra_field (ee_word data) offset_block) in Rn.
  fold f in Rn.
  assert (0 <= f / 4 <= 3) by (split; [apply Z.div_pos; lia|]; assert (f / 4 < 4) by (apply Z.div_lt_upper_bound; lia); lia).
  assert (Hv : is_val (@fofZ (B32 l) (f / 4 + 8)) (IZR (f / 4 + 8))) by (apply val_ofZ16; lia).
  split; [exact Hv|]. unfold doc_alpha_ptat. fold f.
  pose proof (Z.div_mod f 4 ltac:(lia)) as E.
  assert (Er : (IZR f = 4 * IZR (f / 4) + IZR (f mod 4))%R) by (rewrite <- mult_IZR, <- plus_IZR, <- E; reflexivity).
  split.
  - intros [_ Hb]. destruct Hv as [_ Hv]. rewrite Hv in Hb. rewrite plus_IZR in Hb. apply eq_IZR. lra.
  - intros Hm. rewrite Hm in Er. replace (IZR f / 4 + 8)%R with (IZR (f / 4 + 8)); [exact Hv|].
    rewrite plus_IZR. lra.
Qed.
Print Assumptions C44_alpha_ptat.

(** The documented sensitivity: the average is an unsigned word. *)
Definition doc_alpha (ee : nat -> Z) (r col : nat) : R :=
  scaled (ee (alpha_block + 1)%nat + row_term ee alpha_block r + column_term ee alpha_block col
          + remainder_term ee alpha_block r col) (extra_field ee alpha_block + 30).

(** The decoder takes it as signed: where nothing else goes wrong, the documented
    value is decoded exactly when the word is below 0x8000. *)
Theorem C44_average_sensitivity : forall l p data (c : calib (B32 l)), full_dump data ->
  from_data640 (B32 l) p data = Ok c ->
  forall sp r col, (r < 24)%nat -> (col < 32)%nat -> ~ failed (ee_word data) r col ->
  terms_fit (ee_word data) alpha_block r col ->
  p = Debug \/ ~ pixel_overflows (ee_word data) r col ->
  exists x, nth_error (alpha_pixels _ c sp) (32 * r + col) = Some x /\
    (is_val x (doc_alpha (ee_word data) r col) <-> ee_word data (alpha_block + 1) < 0x8000).
Proof.
  intros l p data c Hd Hc sp r col Hr Hcol Hf T Hp.
  destruct (C40_alpha_exact l p data c Hd Hc sp r col Hr Hcol Hf T Hp) as (x & Hx & Hv).
  exists x. split; [exact Hx|].
  pose proof (ee_word_word data (proj1 Hd) (alpha_block + 1)) as Hw. unfold word in Hw.
  unfold pixel_sum, average, sext in Hv. change (2 ^ (16 - 1)) with 32768 in Hv. change (2 ^ 16) with 65536 in Hv.
  unfold doc_alpha. change 0x8000 with 32768.
  destruct (Z.ltb_spec (ee_word data (alpha_block + 1)) 32768) as [Hlt|Hge].
  - split; [intros _; exact Hlt|intros _; exact Hv].
  - split; [|lia]. intros [_ Hv']. destruct Hv as [_ Hv]. rewrite Hv in Hv'. exfalso.
    unfold scaled in Hv'.
    pose proof (nibble (ee_word data alpha_block) 12) as Rn. fold (extra_field (ee_word data) alpha_block) in Rn.
    assert (Hp2 : IZR (2 ^ (extra_field (ee_word data) alpha_block + 30)) <> 0%R).
    { apply not_0_IZR. apply Z.pow_nonzero; lia. }
    apply (f_equal (fun v => v * IZR (2 ^ (extra_field (ee_word data) alpha_block + 30)))%R) in Hv'.
    unfold Rdiv in Hv'. rewrite !Rmult_assoc, !Rinv_l, !Rmult_1_r in Hv' by exact Hp2.
    apply eq_IZR in Hv'. lia.
Qed.
Print Assumptions C44_average_sensitivity.

Example C44_datasheet_agrees :
  extra_field (ee_word datasheet640) offset_block = 4 /\ ee_word datasheet640 (alpha_block + 1) = 0x2F44.
Proof. vm_compute. split; reflexivity. Qed.
