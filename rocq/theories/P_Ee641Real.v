(** * P_Ee641Real: the values the MLX90641 decoder computes in IEEE binary32 (C48).

    [is_val x r]: the binary32 number [x] is finite and its value is exactly the
    real number [r]; [scaled z n] is z / 2^n; [RN] rounds a real to binary32. *)
From Verif Require Import Base FloatOps Register Bus Camera Cam641 Hamming SpecRegister SpecHamming
  HammingFacts SpecEeprom ParseFacts FieldFacts SpecRange RangeFacts Spec640 Spec641 Ee641 Ee641Facts Ee641Closed
  Ee641Words B32 B32Facts P_Ee640 P_Ee640Real P_Ee641 Dumps.
From Flocq Require Import Core BinarySingleNaN Relative Mult_error.
From Coq Require Import Reals Lra.
Open Scope Z_scope.

(** ** Rounded operations *)
Lemma b_div_rounded x y a b : is_val x a -> is_val y b -> b <> 0%R -> (Rabs (RN (a / b)) < bpow radix2 128)%R ->
  is_val (b_div x y) (RN (a / b)).
Proof.
  intros [Fx Hx] [Fy Hy] Hb Hr. subst a b.
  pose proof (Bdiv_correct 24 128 _ _ mode_NE x y Hb) as H.
  rewrite Rlt_bool_true in H by exact Hr.
  destruct H as (H1 & H2 & _). rewrite Fx in H2. split; [exact H2|exact H1].
Qed.

Lemma b_mul_rounded x y a b : is_val x a -> is_val y b -> (Rabs (RN (a * b)) < bpow radix2 128)%R ->
  is_val (b_mul x y) (RN (a * b)).
Proof.
  intros [Fx Hx] [Fy Hy] Hr. subst a b.
  pose proof (Bmult_correct 24 128 _ _ mode_NE x y) as H.
  rewrite Rlt_bool_true in H by exact Hr.
  destruct H as (H1 & H2 & _). rewrite Fx, Fy in H2. split; [exact H2|exact H1].
Qed.

Lemma b_add_rounded x y a b : is_val x a -> is_val y b -> (Rabs (RN (a + b)) < bpow radix2 128)%R ->
  is_val (b_add x y) (RN (a + b)).
Proof.
  intros [Fx Hx] [Fy Hy] Hr. subst a b.
  pose proof (Bplus_correct 24 128 _ _ mode_NE x y Fx Fy) as H.
  rewrite Rlt_bool_true in H by exact Hr.
  destruct H as (H1 & H2 & _). split; [exact H2|exact H1].
Qed.

Lemma RN_bounded r n : -149 <= n <= 127 -> (Rabs r <= bpow radix2 n)%R -> (Rabs (RN r) < bpow radix2 128)%R.
Proof.
  intros Hn H. apply Rle_lt_trans with (bpow radix2 n); [|apply bpow_lt; lia].
  apply abs_round_le_generic; [apply (fexp_correct 24 128); exact prec24|apply valid_rnd_round_mode|apply bpow_format; lia|exact H].
Qed.

Lemma RN_relative r : (bpow radix2 (-126) <= Rabs r)%R ->
  exists eps, (Rabs eps <= bpow radix2 (-24))%R /\ RN r = (r * (1 + eps))%R.
Proof.
  intros H. destruct (relative_error_N_FLT_ex radix2 (-149) 24 ltac:(lia) (fun z => negb (Z.even z)) r H) as (eps & He & Er).
  exists eps. split; [|exact Er].
  eapply Rle_trans; [exact He|]. change (/ 2)%R with (bpow radix2 (-1)). rewrite <- bpow_plus. apply Rle_refl.
Qed.

(** Dividing a rounded integer by a power of two rounds nothing. *)
Lemma RN_scale z n : 0 <= n <= 100 ->
  RN (RN (IZR z) * bpow radix2 (- n)) = (RN (IZR z) * bpow radix2 (- n))%R.
Proof.
  intros Hn. apply round_generic; [apply valid_rnd_round_mode|].
  destruct (Z.eq_dec z 0) as [->|Hz].
  - rewrite round_0 by apply valid_rnd_round_mode. rewrite Rmult_0_l. apply generic_format_0.
  - change (SpecFloat.fexp 24 128) with (FLT_exp (-149) 24).
    apply mult_bpow_exact_FLT.
    + apply generic_format_round; [apply (fexp_correct 24 128); exact prec24|apply valid_rnd_round_mode].
    + assert (Hm : (bpow radix2 0 <= Rabs (RN (IZR z)))%R).
      { apply abs_round_ge_generic; [apply (fexp_correct 24 128); exact prec24|apply valid_rnd_round_mode|apply bpow_format; lia|].
        rewrite <- abs_IZR. change (bpow radix2 0) with (IZR 1). apply IZR_le. lia. }
      pose proof (mag_gt_bpow radix2 _ 0 Hm). 
      change (round radix2 (FLT_exp (-149) 24) (round_mode mode_NE) (IZR z)) with (RN (IZR z)). lia.
Qed.

Lemma div_inf_zero x : is_finite x = true -> is_val (b_div x (B754_infinity false)) 0%R.
Proof. intros H. destruct x; try discriminate H; split; reflexivity. Qed.

Lemma exp2_big l n : 128 <= n <= 2 ^ 24 -> b_exp2 l (b_ofZ n) = B754_infinity false.
Proof.
  intros H. assert (Hv : is_val (b_ofZ n) (IZR n)) by (apply b_ofZ_correct; lia).
  pose proof (b_toZ_val _ _ Hv) as E. destruct Hv as [Fx _]. unfold b_exp2. rewrite E.
  destruct (Z.leb_spec 128 n); [|lia]. destruct (b_ofZ n); try discriminate; reflexivity.
Qed.

Lemma signed11_small data dw i : full_dump data -> corrected data dw -> In i reading_order ->
  -1024 <= signed11 dw i <= 1023.
Proof.
  intros Hd Hw Hi. unfold signed11. pose proof (dw_range data dw Hd Hw i Hi) as R.
  pose proof (sext_range 11 (dw i) ltac:(lia) R) as B. change (2 ^ (11 - 1)) with 1024 in B. lia.
Qed.

(** ** C48 Single parameters *)
Theorem C48_scalar_parameters : forall l p data dw (c : calib (B32 l)), full_dump data -> corrected data dw ->
  from_data641 (B32 l) p data = Ok c ->
  is_val (k_s_ta _ c) (scaled (signed11 dw 0x22) 15) /\
  (exists x, cal_emissivity _ c = Some x /\ is_val x (scaled (signed11 dw 0x23) 9)) /\
  is_val (cal_gain _ c) (IZR (stored16 dw 0x24)) /\
  is_val (v_ptat_25 _ c) (IZR (stored16 dw 0x28)) /\
  is_val (k_t_ptat _ c) (scaled (signed11 dw 0x2A) 3) /\
  is_val (k_v_ptat _ c) (scaled (signed11 dw 0x2B) 12) /\
  is_val (alpha_ptat _ c) (scaled (dw 0x2C%nat) 7) /\
  (forall sp, is_val (k_ta_cp _ c sp) (scaled (sbits (dw 0x31%nat) 0 6) (bits (dw 0x31%nat) 6 5))) /\
  (forall sp, is_val (k_v_cp _ c sp) (scaled (sbits (dw 0x32%nat) 0 6) (bits (dw 0x32%nat) 6 5))) /\
  (exists x, temperature_gradient_coefficient _ c = Some x /\ is_val x (scaled (sbits (dw 0x33%nat) 0 9) 6)).
Proof.
  intros l p data dw c Hd Hw Hc. rewrite (decoded_is641 (B32 l) p data Hd c Hc). unfold decoded641, record641.
  cbn [k_s_ta cal_emissivity cal_gain v_ptat_25 k_t_ptat k_v_ptat alpha_ptat k_ta_cp k_v_cp temperature_gradient_coefficient].
  unfold cp_constant. pose proof (dword_corrected data dw Hd Hw) as E. unfold signed11.
  rewrite (E 0x22%nat), (E 0x23%nat), (E 0x2A%nat), (E 0x2B%nat), (E 0x2C%nat), (E 0x31%nat), (E 0x32%nat), (E 0x33%nat) by used.
  cbn [fdiv fofZ fexp2 B32].
  pose proof (signed11_small data dw 0x22 Hd Hw ltac:(used)) as R22.
  pose proof (signed11_small data dw 0x23 Hd Hw ltac:(used)) as R23.
  pose proof (signed11_small data dw 0x2A Hd Hw ltac:(used)) as R2A.
  pose proof (signed11_small data dw 0x2B Hd Hw ltac:(used)) as R2B.
  pose proof (dw_range data dw Hd Hw 0x2C ltac:(used)) as R2C.
  unfold signed11 in *.
  assert (S : forall w lo n, 1 <= n <= 16 -> Z.abs (sbits w lo n) <= 65536)
    by (intros w lo n Hn; pose proof (sbits_small w lo n Hn); lia).
  assert (B5 : forall w lo, 0 <= bits w lo 5 <= 127)
    by (intros w lo; pose proof (bits_range w lo 5 ltac:(lia)) as B; change (2 ^ 5) with 32 in B; lia).
  split; [apply val_shift; [apply val_ofZ16| |]; lia|].
  split; [eexists; split; [reflexivity|]; apply val_shift; [apply val_ofZ16| |]; lia|].
  split. { rewrite (pair_stored data dw Hd Hw 0x24) by used.
           pose proof (stored16_range data dw 0x24 Hd Hw ltac:(used) ltac:(used)). apply val_ofZ16. lia. }
  split. { rewrite (pair_stored data dw Hd Hw 0x28) by used.
           pose proof (stored16_range data dw 0x28 Hd Hw ltac:(used) ltac:(used)). apply val_ofZ16. lia. }
  split; [apply val_pow2; [reflexivity|apply val_ofZ16|..]; lia|].
  split; [apply val_pow2; [reflexivity|apply val_ofZ16|..]; lia|].
  split; [apply val_pow2; [reflexivity|apply val_ofZ16|..]; lia|].
  pose proof (S (dw 0x31%nat) 0 6 ltac:(lia)). pose proof (S (dw 0x32%nat) 0 6 ltac:(lia)).
  pose proof (S (dw 0x33%nat) 0 9 ltac:(lia)).
  split; [intros _; apply val_shift; [apply val_ofZ16; lia|lia|apply B5]|].
  split; [intros _; apply val_shift; [apply val_ofZ16; lia|lia|apply B5]|].
  eexists. split; [reflexivity|]. apply val_pow2; [reflexivity|apply val_ofZ16; lia|lia|lia].
Qed.
Print Assumptions C48_scalar_parameters.

(** Sensitivity of the compensation pixel and slopes K_sTo: the exponent is a
    whole 11-bit word; up to 127 the value is the documented one. *)
Theorem C48_alpha_cp : forall l p data dw (c : calib (B32 l)), full_dump data -> corrected data dw ->
  from_data641 (B32 l) p data = Ok c -> forall sp,
  (dw 0x2E%nat <= 127 -> is_val (alpha_cp _ c sp) (scaled (dw 0x2D%nat) (dw 0x2E%nat))) /\
  (128 <= dw 0x2E%nat -> is_val (alpha_cp _ c sp) 0).
Proof.
  intros l p data dw c Hd Hw Hc sp. rewrite (decoded_is641 (B32 l) p data Hd c Hc). unfold decoded641, record641.
  cbn [alpha_cp]. pose proof (dword_corrected data dw Hd Hw) as E.
  rewrite (E 0x2D%nat), (E 0x2E%nat) by used. cbn [fdiv fofZ fexp2 B32].
  pose proof (dw_range data dw Hd Hw 0x2D ltac:(used)) as R1. pose proof (dw_range data dw Hd Hw 0x2E ltac:(used)) as R2.
  split; intros H.
  - apply val_shift; [apply val_ofZ16; lia|lia|lia].
  - rewrite exp2_big by lia. apply div_inf_zero. apply (val_ofZ16 (dw 0x2D%nat)). lia.
Qed.
Print Assumptions C48_alpha_cp.

Theorem C48_k_s_to : forall l p data dw (c : calib (B32 l)), full_dump data -> corrected data dw ->
  from_data641 (B32 l) p data = Ok c -> dw 0x34%nat <= 127 ->
  Forall2 (fun x w => is_val x (scaled (signed11 dw w) (dw 0x34%nat)))
    (k_s_to _ c) [0x35; 0x36; 0x37; 0x38; 0x39; 0x3B; 0x3D; 0x3F]%nat.
Proof.
  intros l p data dw c Hd Hw Hc H. rewrite (decoded_is641 (B32 l) p data Hd c Hc). unfold decoded641, record641.
  cbn [k_s_to]. unfold ksto641, ksto_words. pose proof (dword_corrected data dw Hd Hw) as E.
  rewrite (E 0x34%nat) by used.
  pose proof (dw_range data dw Hd Hw 0x34 ltac:(used)) as R.
  cbn [fdiv fofZ fexp2 B32 map].
  assert (V : forall i, In i reading_order ->
    is_val (b_div (b_ofZ (signed11 (dword data) i)) (b_exp2 l (b_ofZ (dw 0x34%nat)))) (scaled (signed11 dw i) (dw 0x34%nat))).
  { intros i Hi. unfold signed11 at 1. rewrite (E i Hi).
    pose proof (signed11_small data dw i Hd Hw Hi) as B. fold (signed11 dw i).
    apply val_shift; [apply val_ofZ16; lia|lia|lia]. }
  constructor; [apply V; used|]. constructor; [apply V; used|]. constructor; [apply V; used|].
  constructor; [apply V; used|]. constructor; [apply V; used|]. constructor; [apply V; used|].
  constructor; [apply V; used|]. constructor; [apply V; used|]. constructor.
Qed.
Print Assumptions C48_k_s_to.

(** ** C48 K_Ta and K_V of the pixels *)

(** (raw * 2^scale2 + average) / 2^scale1 *)
Definition kta_num (dw : nat -> Z) (i : nat) : Z := kta_raw dw i * 2 ^ kta_scale_2_641 dw + kta_average641 dw.
Definition kv_num (dw : nat -> Z) (i : nat) : Z := kv_raw dw i * 2 ^ kv_scale_2_641 dw + kv_average641 dw.

Lemma scale_fn_val l raw avg s1 s2 : -32 <= raw <= 31 -> -1024 <= avg <= 1023 -> 0 <= s1 <= 63 -> 0 <= s2 <= 31 ->
  is_val (scale_fn (B32 l) raw avg (b_exp2 l (b_ofZ s1)) (b_exp2 l (b_ofZ s2)))
    (RN (IZR (raw * 2 ^ s2 + avg)) / IZR (2 ^ s1)).
Proof.
  intros Hr Ha H1 H2. unfold scale_fn. cbn [fdiv fadd fmul fofZ B32].
  assert (P2 : 0 < 2 ^ s2) by (apply Z.pow_pos_nonneg; lia).
  assert (L2 : 2 ^ s2 <= 2 ^ 31) by (apply Z.pow_le_mono_r; lia). change (2 ^ 31) with 2147483648 in L2.
  assert (Vm : is_val (b_mul (b_ofZ raw) (b_exp2 l (b_ofZ s2))) (IZR raw * bpow radix2 s2)).
  { apply b_mul_exact with (m := raw) (e := s2); [apply val_ofZ16; lia|apply b_exp2_ofZ; lia|reflexivity|lia|lia]. }
  assert (Es : (IZR raw * bpow radix2 s2 + IZR avg = IZR (raw * 2 ^ s2 + avg))%R).
  { rewrite plus_IZR, mult_IZR, bpow_pos by lia. reflexivity. }
  assert (Vs : is_val (b_add (b_mul (b_ofZ raw) (b_exp2 l (b_ofZ s2))) (b_ofZ avg)) (RN (IZR (raw * 2 ^ s2 + avg)))).
  { rewrite <- Es. apply b_add_rounded; [exact Vm|apply val_ofZ16; lia|].
    rewrite Es. apply (RN_bounded _ 37 ltac:(lia)). rewrite <- abs_IZR, bpow_pos by lia. apply IZR_le.
    change (2 ^ 37) with 137438953472. nia. }
  assert (Ed : (RN (IZR (raw * 2 ^ s2 + avg)) / IZR (2 ^ s1) = RN (IZR (raw * 2 ^ s2 + avg)) * bpow radix2 (- s1))%R).
  { rewrite bpow_opp, bpow_pos by lia. reflexivity. }
  rewrite Ed.
  pose proof (RN_scale (raw * 2 ^ s2 + avg) s1 ltac:(lia)) as ER.
  rewrite <- ER.
  assert (Eq : (RN (IZR (raw * 2 ^ s2 + avg)) * bpow radix2 (- s1) = RN (IZR (raw * 2 ^ s2 + avg)) / bpow radix2 s1)%R).
  { rewrite bpow_opp. reflexivity. }
  rewrite Eq. apply b_div_rounded; [exact Vs|apply b_exp2_ofZ; lia|apply Rgt_not_eq, bpow_gt_0|].
  rewrite <- Eq. apply (RN_bounded _ 37 ltac:(lia)).
  rewrite Rabs_mult, (Rabs_pos_eq (bpow _ _)) by apply bpow_ge_0.
  rewrite <- (Rmult_1_r (bpow radix2 37)). apply Rmult_le_compat; [apply Rabs_pos|apply bpow_ge_0| |].
  - apply abs_round_le_generic; [apply (fexp_correct 24 128); exact prec24|apply valid_rnd_round_mode|apply bpow_format; lia|].
    rewrite <- abs_IZR, bpow_pos by lia. apply IZR_le. change (2 ^ 37) with 137438953472. nia.
  - change 1%R with (bpow radix2 0). apply bpow_le. lia.
Qed.

Lemma RN_int z : Z.abs z <= 2 ^ 24 -> RN (IZR z) = IZR z.
Proof.
  intros H. pose proof (dyadic_round z 0 H ltac:(lia)) as E. change (bpow radix2 0) with 1%R in E.
  rewrite Rmult_1_r in E. exact E.
Qed.

(** The only rounding is that of the sum. *)
Theorem C48_k_ta_and_k_v : forall l p data dw (c : calib (B32 l)), full_dump data -> corrected data dw ->
  from_data641 (B32 l) p data = Ok c ->
  forall sp i, (i < 192)%nat -> ~ failed641 dw i ->
  exists x y, nth_error (k_ta_pixels _ c sp) i = Some x /\ nth_error (k_v_pixels _ c sp) i = Some y /\
    is_val x (RN (IZR (kta_num dw i)) / IZR (2 ^ kta_scale_1_641 dw)) /\
    is_val y (RN (IZR (kv_num dw i)) / IZR (2 ^ kv_scale_1_641 dw)).
Proof.
  intros l p data dw c Hd Hw Hc sp i Hi Hf. rewrite (decoded_is641 (B32 l) p data Hd c Hc). unfold decoded641, record641.
  cbn [k_ta_pixels k_v_pixels]. rewrite !px641_at by exact Hi.
  eexists. eexists. split; [reflexivity|]. split; [reflexivity|].
  assert (Ef : failedb data i = false).
  { destruct (failedb data i) eqn:E; [|reflexivity]. apply (failedb_iff data dw Hd Hw i Hi) in E. contradiction. }
  unfold pixel_value. rewrite Ef. cbn [q_k_ta q_k_v].
  pose proof (dword_corrected data dw Hd Hw) as E.
  unfold kta_num, kv_num, kta_raw, kv_raw, kta_average641, kv_average641, kta_scale_1_641, kta_scale_2_641,
    kv_scale_1_641, kv_scale_2_641.
  pose proof (signed11_small data dw 0x15 Hd Hw ltac:(used)) as R15.
  pose proof (signed11_small data dw 0x17 Hd Hw ltac:(used)) as R17.
  unfold signed11 in *.
  rewrite (E (constants_word i) (used_constants i Hi)), (E 0x15%nat), (E 0x16%nat), (E 0x17%nat), (E 0x18%nat) by used.
  pose proof (sbits_range (dw (constants_word i)) 5 6 ltac:(lia)) as B6. change (2 ^ (6 - 1)) with 32 in B6.
  pose proof (sbits_range (dw (constants_word i)) 0 5 ltac:(lia)) as B5. change (2 ^ (5 - 1)) with 16 in B5.
  assert (C6 : forall w lo, 0 <= bits w lo 6 <= 63)
    by (intros w lo; pose proof (bits_range w lo 6 ltac:(lia)) as B; change (2 ^ 6) with 64 in B; lia).
  assert (C5 : forall w lo, 0 <= bits w lo 5 <= 31)
    by (intros w lo; pose proof (bits_range w lo 5 ltac:(lia)) as B; change (2 ^ 5) with 32 in B; lia).
  cbn [fexp2 fofZ B32].
  split; apply scale_fn_val; first [apply C6|apply C5|lia].
Qed.
Print Assumptions C48_k_ta_and_k_v.

(** Exactly the documented quotients when the sums have at most 24 bits, as for
    every second scale up to 18. *)
Theorem C48_k_ta_and_k_v_exact : forall l p data dw (c : calib (B32 l)), full_dump data -> corrected data dw ->
  from_data641 (B32 l) p data = Ok c ->
  forall sp i, (i < 192)%nat -> ~ failed641 dw i ->
  exists x y, nth_error (k_ta_pixels _ c sp) i = Some x /\ nth_error (k_v_pixels _ c sp) i = Some y /\
    (kta_scale_2_641 dw <= 18 -> is_val x (scaled (kta_num dw i) (kta_scale_1_641 dw))) /\
    (kv_scale_2_641 dw <= 18 -> is_val y (scaled (kv_num dw i) (kv_scale_1_641 dw))).
Proof.
  intros l p data dw c Hd Hw Hc sp i Hi Hf.
  destruct (C48_k_ta_and_k_v l p data dw c Hd Hw Hc sp i Hi Hf) as (x & y & Ex & Ey & Vx & Vy).
  exists x, y. split; [exact Ex|]. split; [exact Ey|].
  assert (Hs : forall raw avg s, -32 <= raw <= 31 -> -1024 <= avg <= 1023 -> 0 <= s <= 18 ->
    Z.abs (raw * 2 ^ s + avg) <= 2 ^ 24).
  { intros raw avg s Hr Ha Hs. assert (0 < 2 ^ s) by (apply Z.pow_pos_nonneg; lia).
    assert (2 ^ s <= 2 ^ 18) by (apply Z.pow_le_mono_r; lia). change (2 ^ 18) with 262144 in *.
    change (2 ^ 24) with 16777216. nia. }
  pose proof (signed11_small data dw 0x15 Hd Hw ltac:(used)) as R15.
  pose proof (signed11_small data dw 0x17 Hd Hw ltac:(used)) as R17.
  pose proof (sbits_range (dw (constants_word i)) 5 6 ltac:(lia)) as B6. change (2 ^ (6 - 1)) with 32 in B6.
  pose proof (sbits_range (dw (constants_word i)) 0 5 ltac:(lia)) as B5. change (2 ^ (5 - 1)) with 16 in B5.
  pose proof (bits_range (dw 0x16%nat) 0 5 ltac:(lia)) as C1. pose proof (bits_range (dw 0x18%nat) 0 5 ltac:(lia)) as C2.
  split; intros H.
  - rewrite RN_int in Vx; [exact Vx|]. apply Hs; [unfold kta_raw; lia|exact R15|].
    unfold kta_scale_2_641 in *. lia.
  - rewrite RN_int in Vy; [exact Vy|]. apply Hs; [unfold kv_raw; lia|exact R17|].
    unfold kv_scale_2_641 in *. lia.
Qed.
Print Assumptions C48_k_ta_and_k_v_exact.

(** ** C48 Sensitivity of the pixels *)

(** raw / 2047 * maximum of the rows / 2^scale, one maximum for 32 pixels *)
Definition doc_alpha641 (dw : nat -> Z) (i : nat) : R :=
  (IZR (alpha_raw dw i) / 2047 * scaled (row_max dw (i / 32)) (alpha_scale dw (i / 32)))%R.

Lemma alpha_group data dw i : full_dump data -> corrected data dw -> (i < 192)%nat ->
  row_max (dword data) (i / 32) = row_max dw (i / 32) /\
  alpha_scale (dword data) (i / 32) = alpha_scale dw (i / 32) /\
  0 <= row_max dw (i / 32) < 2048 /\ 20 <= alpha_scale dw (i / 32) <= 83.
Proof.
  intros Hd Hw Hi. assert (Hg : (i / 32 < 6)%nat) by (apply Nat.div_lt_upper_bound; lia).
  set (g := (i / 32)%nat) in *.
  assert (H1 : In (0x1C + g)%nat reading_order) by (do 6 (destruct g as [|g]; [used|]); lia).
  assert (H2 : In (0x19 + g / 2)%nat reading_order) by (do 6 (destruct g as [|g]; [used|]); lia).
  unfold row_max, alpha_scale.
  rewrite (dword_corrected data dw Hd Hw _ H1), (dword_corrected data dw Hd Hw _ H2).
  split; [reflexivity|]. split; [reflexivity|]. split; [exact (dw_range data dw Hd Hw _ H1)|].
  pose proof (bits_range (dw (0x19 + g / 2)%nat) 5 6 ltac:(lia)) as B6. change (2 ^ 6) with 64 in B6.
  pose proof (bits_range (dw (0x19 + g / 2)%nat) 0 5 ltac:(lia)) as B5. change (2 ^ 5) with 32 in B5.
  destruct (Nat.even g); lia.
Qed.

(** Exact for a zero or full-scale value, otherwise within two roundings. *)
Theorem C48_alpha : forall l p data dw (c : calib (B32 l)), full_dump data -> corrected data dw ->
  from_data641 (B32 l) p data = Ok c ->
  forall sp i, (i < 192)%nat -> ~ failed641 dw i ->
  exists x, nth_error (alpha_pixels _ c sp) i = Some x /\ is_finite x = true /\
    (Rabs (B2R x - doc_alpha641 dw i) <= doc_alpha641 dw i / 8388607)%R /\
    (alpha_raw dw i = 2047 -> is_val x (doc_alpha641 dw i)).
Proof.
  intros l p data dw c Hd Hw Hc sp i Hi Hf. rewrite (decoded_is641 (B32 l) p data Hd c Hc). unfold decoded641, record641.
  cbn [alpha_pixels]. rewrite px641_at by exact Hi.
  eexists. split; [reflexivity|].
  assert (Ef : failedb data i = false).
  { destruct (failedb data i) eqn:E; [|reflexivity]. apply (failedb_iff data dw Hd Hw i Hi) in E. contradiction. }
  unfold pixel_value. rewrite Ef. cbn [q_alpha]. unfold reference_of.
  destruct (alpha_group data dw i Hd Hw Hi) as (E1 & E2 & Rm & Rs). rewrite E1, E2.
  rewrite (dword_corrected data dw Hd Hw _ (used_alpha i Hi)).
  pose proof (dw_range data dw Hd Hw _ (used_alpha i Hi)) as Ra. unfold doc_alpha641. fold (alpha_raw dw i) in *.
  set (a := alpha_raw dw i) in *. set (m := row_max dw (i / 32)) in *. set (s := alpha_scale dw (i / 32)) in *.
  cbn [fmul fdiv fofZ fexp2 B32].
  assert (V1 : is_val (b_ofZ 2047) 2047%R) by (apply val_ofZ16; lia).
  assert (Va : is_val (b_ofZ a) (IZR a)) by (apply val_ofZ16; lia).
  assert (Vr : is_val (b_div (b_ofZ m) (b_exp2 l (b_ofZ s))) (scaled m s))
    by (apply val_shift; [apply val_ofZ16; lia|lia|lia]).
  assert (Hbp : forall n, 0 < n -> (bpow radix2 (- n) = / IZR (2 ^ n))%R)
    by (intros n Hn; rewrite bpow_opp, bpow_pos by lia; reflexivity).
  assert (Ps : (0 < IZR (2 ^ s))%R) by (apply IZR_lt; apply Z.pow_pos_nonneg; lia).
  assert (Hm0 : (0 <= scaled m s)%R).
  { unfold scaled. apply Rmult_le_pos; [apply IZR_le; lia|]. left. apply Rinv_0_lt_compat, Ps. }
  assert (Hm1 : (scaled m s <= 1)%R).
  { unfold scaled. apply Rmult_le_reg_r with (IZR (2 ^ s)); [exact Ps|].
    unfold Rdiv. rewrite Rmult_assoc, Rinv_l, Rmult_1_r, Rmult_1_l by (apply Rgt_not_eq, Ps).
    apply IZR_le. assert (2 ^ 20 <= 2 ^ s) by (apply Z.pow_le_mono_r; lia). change (2 ^ 20) with 1048576 in *. lia. }
  destruct (Z.eq_dec a 0) as [Ea|Ha].
  { (* raw 0 *)
    rewrite Ea in *.
    assert (Vq : is_val (b_div (b_ofZ 0) (b_ofZ 2047)) 0%R).
    { replace 0%R with (0 / 2047)%R by (unfold Rdiv; ring).
      apply b_div_exact with (m := 0) (e := 0); [exact Va|exact V1|lra|unfold Rdiv; ring|lia|lia]. }
    assert (Vx : is_val (b_mul (b_div (b_ofZ 0) (b_ofZ 2047)) (b_div (b_ofZ m) (b_exp2 l (b_ofZ s)))) 0%R).
    { replace 0%R with (0 * scaled m s)%R by ring.
      apply b_mul_exact with (m := 0) (e := 0); [exact Vq|exact Vr|ring|lia|lia]. }
    destruct Vx as [Fx Hx]. split; [exact Fx|]. rewrite Hx. split; [|lia].
    replace (0 - 0 / 2047 * scaled m s)%R with 0%R by (unfold Rdiv; ring). rewrite Rabs_R0.
    unfold Rdiv. rewrite !Rmult_0_l. apply Rle_refl. }
  destruct (Z.eq_dec a 2047) as [Ea|Ha'].
  { (* full scale *)
    rewrite Ea in *.
    assert (Vq : is_val (b_div (b_ofZ 2047) (b_ofZ 2047)) (2047 / 2047)%R).
    { apply b_div_exact with (m := 1) (e := 0); [exact Va|exact V1|lra| |lia|lia].
      change (bpow radix2 0) with 1%R. lra. }
    assert (Vx : is_val (b_mul (b_div (b_ofZ 2047) (b_ofZ 2047)) (b_div (b_ofZ m) (b_exp2 l (b_ofZ s))))
                        (2047 / 2047 * scaled m s)%R).
    { apply b_mul_exact with (m := m) (e := - s); [exact Vq|exact Vr| |lia|lia].
      rewrite scaled_bpow by lia. field. }
    destruct Vx as [Fx Hx]. split; [exact Fx|]. split; [|intros _; split; [exact Fx|exact Hx]].
    rewrite Hx, Rminus_diag_eq, Rabs_R0 by reflexivity. apply Rmult_le_pos; [|lra].
    apply Rmult_le_pos; [lra|exact Hm0]. }
  assert (Hq : (/ 2047 <= IZR a / 2047 <= 1)%R).
  { assert (1 <= IZR a)%R by (apply IZR_le; lia). assert (IZR a <= 2047)%R by (apply IZR_le; lia). lra. }
  destruct (RN_relative (IZR a / 2047)) as (e1 & He1 & Eq1).
  { rewrite Rabs_pos_eq by lra. change (-126) with (Z.opp 126). rewrite (Hbp 126) by lia. apply Rle_trans with (/ 2047)%R; [|lra].
    apply Rinv_le; [lra|]. apply IZR_le. vm_compute. discriminate. }
  assert (Vq : is_val (b_div (b_ofZ a) (b_ofZ 2047)) (RN (IZR a / 2047))).
  { apply b_div_rounded; [exact Va|exact V1|lra|]. apply (RN_bounded _ 0 ltac:(lia)).
    rewrite Rabs_pos_eq by lra. change (bpow radix2 0) with 1%R. lra. }
  change (bpow radix2 (-24)) with (/ 16777216)%R in He1. apply Rabs_le_inv in He1.
  destruct (Z.eq_dec m 0) as [Em|Hm].
  { (* row maximum 0 *)
    assert (Es : scaled m s = 0%R) by (unfold scaled; rewrite Em; unfold Rdiv; ring).
    assert (Vx : is_val (b_mul (b_div (b_ofZ a) (b_ofZ 2047)) (b_div (b_ofZ m) (b_exp2 l (b_ofZ s)))) 0%R).
    { replace 0%R with (RN (IZR a / 2047) * scaled m s)%R by (rewrite Es; ring).
      apply b_mul_exact with (m := 0) (e := 0); [exact Vq|exact Vr|rewrite Es; ring|lia|lia]. }
    destruct Vx as [Fx Hx]. split; [exact Fx|]. rewrite Hx, Es. split; [|intros H; contradiction].
    rewrite !Rmult_0_r, Rminus_0_r, Rabs_R0. unfold Rdiv. rewrite Rmult_0_l. apply Rle_refl. }
  assert (Hms : (bpow radix2 (-83) <= scaled m s)%R).
  { rewrite scaled_bpow by lia. apply Rle_trans with (1 * bpow radix2 (- s))%R.
    - rewrite Rmult_1_l. apply bpow_le. lia.
    - apply Rmult_le_compat_r; [apply bpow_ge_0|]. apply IZR_le. lia. }
  assert (Hp1 : (/ 4096 <= IZR a / 2047 * (1 + e1) <= 2)%R) by (split; nra).
  assert (Hprod : (bpow radix2 (-126) <= IZR a / 2047 * (1 + e1) * scaled m s <= 2)%R).
  { split.
    - apply Rle_trans with (bpow radix2 (-12) * bpow radix2 (-83))%R; [rewrite <- bpow_plus; apply bpow_le; lia|].
      apply Rmult_le_compat; [apply bpow_ge_0|apply bpow_ge_0| |exact Hms].
      change (bpow radix2 (-12)) with (/ 4096)%R. lra.
    - apply Rle_trans with (2 * 1)%R; [|lra]. apply Rmult_le_compat; lra. }
  destruct (RN_relative (RN (IZR a / 2047) * scaled m s)) as (e2 & He2 & Eq2).
  { rewrite Eq1. pose proof (bpow_ge_0 radix2 (-126)). rewrite Rabs_pos_eq by lra. apply Hprod. }
  change (bpow radix2 (-24)) with (/ 16777216)%R in He2. apply Rabs_le_inv in He2.
  assert (Vx : is_val (b_mul (b_div (b_ofZ a) (b_ofZ 2047)) (b_div (b_ofZ m) (b_exp2 l (b_ofZ s))))
                      (RN (RN (IZR a / 2047) * scaled m s))).
  { apply b_mul_rounded; [exact Vq|exact Vr|]. apply (RN_bounded _ 1 ltac:(lia)).
    rewrite Eq1. pose proof (bpow_ge_0 radix2 (-126)). rewrite Rabs_pos_eq by lra. change (bpow radix2 1) with 2%R. lra. }
  destruct Vx as [Fx Hx]. split; [exact Fx|]. split; [|intros H; contradiction].
  rewrite Hx, Eq2, Eq1. set (d := (IZR a / 2047 * scaled m s)%R).
  replace (IZR a / 2047 * (1 + e1) * scaled m s * (1 + e2) - d)%R with (d * (e1 + e2 + e1 * e2))%R by (unfold d; ring).
  assert (Hd0 : (0 <= d)%R) by (unfold d; apply Rmult_le_pos; lra).
  rewrite Rabs_mult, (Rabs_pos_eq d) by exact Hd0. unfold Rdiv. apply Rmult_le_compat_l; [exact Hd0|].
  apply Rabs_le. assert (- (/ 16777216 * / 16777216) <= e1 * e2 <= / 16777216 * / 16777216)%R by (split; nra). lra.
Qed.
Print Assumptions C48_alpha.

(** The datasheet's example meets the hypotheses (see also C48_datasheet): the
    scales are in range. *)
Example C48_datasheet_scales :
  dw641 0x2E%nat <= 127 /\ dw641 0x34%nat <= 127 /\ kta_scale_2_641 dw641 <= 18 /\ kv_scale_2_641 dw641 <= 18 /\
  alpha_raw dw641 0 <> 0 /\ row_max dw641 0 <> 0.
Proof. vm_compute. repeat split; discriminate. Qed.
