(** * P_Accuracy: C72 -- the binary32 ambient temperature is close to the exact one. *)
From Verif Require Import Base FloatOps Register Bus Camera Cam640 Cam641 Calc Driver SpecRegister SpecEeprom SpecHamming ParseFacts
  SpecDriver DriverFacts StepFacts SpecCall P_Image P_Bus P_Frames SeenFacts P_Seen P_Calc Dumps Ee641Words
  SpecCamera SpecImage ImageFacts B32 B32Facts BoundFacts FiniteFacts FrameRateFacts
  FieldFacts Spec640 Ee640 Ee640Facts Ee640Closed P_Ee640 P_Ee640Real Spec641 Ee641 Ee641Closed Ee641Facts P_Ee641 P_Ee641Real P_Usable
  AccuracyFacts SpecAccuracy P_Finite Driver.
From Coq Require Import Reals Lra.
From Flocq Require Import Core BinarySingleNaN.
Open Scope R_scope.

(** ** The computation *)
Section Ambient.
Context (l : libm) (fa fk ft fv : f32) (a k t v : R) (ptat vbe n kd : Z).
Hypothesis (Va : is_val fa a) (Vk : is_val fk k) (Vt : is_val ft t) (Vv : is_val fv v).
Hypothesis (Hptat : (0 < ptat <= 32768)%Z) (Hvbe : (0 <= vbe <= 32768)%Z) (Hn : (Z.abs n <= 32768)%Z)
  (Hkd : (0 < Z.abs kd <= 65536)%Z).
Hypothesis (Ba : 8 <= a <= 16) (Bk : Rabs k <= 1) (Bt : 1 / 8 <= Rabs t <= 128) (Bv : Rabs v <= 65536).
Let dv : R := IZR n / IZR kd.
Hypothesis (Bkd : Rabs (k * dv) <= 1 / 2).

Let P : R := IZR ptat.
Let W : R := IZR vbe.
Fact HP : 1 <= P <= 32768.
Proof. unfold P. split; apply IZR_le; lia. Qed.
Fact HW : 0 <= W <= 32768.
Proof. unfold W. split; apply IZR_le; lia. Qed.

Let D : R := P * a + W.
Fact HPa : 8 * P <= P * a <= 16 * P.
Proof. pose proof HP. split; nra. Qed.

Let fD : f32 := b_add (b_mul (b_ofZ ptat) fa) (b_ofZ vbe).
Fact near_D : near fD D ((21 / 10) * u * D).
Proof.
  pose proof HP. pose proof HW. pose proof HPa.
  assert (Vp : is_val (b_ofZ ptat) P) by (apply b_ofZ_correct; lia).
  assert (Vw : is_val (b_ofZ vbe) W) by (apply b_ofZ_correct; lia).
  assert (N1 : near (b_mul (b_ofZ ptat) fa) (P * a) ((101 / 100) * u * (P * a))).
  { apply (near_mul_at _ _ _ _ 0 (P * a)); [apply Vp|apply Va| | | |].
    - destruct Vp as [_ ->], Va as [_ ->]. rewrite Rminus_diag_eq by reflexivity. rewrite Rabs_R0. lra.
    - rewrite Rabs_pos_eq; lra.
    - lra.
    - lra. }
  unfold fD, D. eapply (near_add _ _ _ _ _ _ (P * a + W)); [exact N1|apply near_val; exact Vw| | |].
  - rewrite Rabs_pos_eq; lra.
  - lra.
  - lra.
Qed.

Let art : R := P / D * 262144.
Fact HD : 8 * P <= D <= 557056.
Proof. pose proof HP. pose proof HW. pose proof HPa. unfold D. lra. Qed.
Fact HPD : 0 <= P / D <= 1 / 8.
Proof.
  pose proof HP. pose proof HD. split.
  - apply Rmult_le_pos; [lra|]. apply Rlt_le, Rinv_0_lt_compat. lra.
  - apply Rmult_le_reg_r with D; [lra|]. unfold Rdiv. rewrite Rmult_assoc, Rinv_l by lra. lra.
Qed.

Let fart : f32 := b_mul (b_div (b_ofZ ptat) fD) (b_exp2 l (b_ofZ 18)).
Fact near_art : near fart art (32768 * (43 / 10) * u).
Proof.
  pose proof HP. pose proof HD. pose proof HPD.
  assert (Vp : is_val (b_ofZ ptat) P) by (apply b_ofZ_correct; lia).
  assert (V18 : is_val (b_exp2 l (b_ofZ 18)) 262144) by (apply (b_exp2_ofZ l 18); lia).
  assert (N1 : near (b_div (b_ofZ ptat) fD) (P / D) (1 / 8 * (32 / 10) * u)).
  { apply (near_div _ _ _ _ 0 ((21 / 10) * u * D) (1 / 8) D (1 / 8 * (2101 / 1000) * u));
      [apply near_val; exact Vp|exact near_D| | | | | | |]; try lra.
    - rewrite Rabs_pos_eq; lra.
    - rewrite Rabs_pos_eq; lra. }
  unfold fart, art. eapply (near_mul _ _ _ _ _ 0 (1 / 8) 262144 32768); [exact N1|apply near_val; exact V18| | | | |]; try lra.
  - rewrite Rabs_pos_eq; lra.
  - rewrite Rabs_pos_eq; lra.
  - rewrite Rabs_pos_eq; lra.
Qed.
Fact Hart : 0 <= art <= 32768.
Proof. pose proof HPD. unfold art. lra. Qed.

(** Influence of the supply voltage. *)
Let fdv : f32 := b_div (b_ofZ n) (b_ofZ kd).
Fact HKD : 1 <= Rabs (IZR kd) <= 65536.
Proof. rewrite <- abs_IZR. split; apply IZR_le; lia. Qed.
Fact near_dv : near fdv dv (u * Rabs dv + tiny).
Proof.
  pose proof HKD as K.
  assert (N0 : IZR kd <> 0) by (intros E; rewrite E, Rabs_R0 in K; lra).
  assert (Vn : is_val (b_ofZ n) (IZR n)) by (apply b_ofZ_correct; lia).
  assert (Vd : is_val (b_ofZ kd) (IZR kd)) by (apply b_ofZ_correct; lia).
  apply (near_div _ _ _ _ 0 0 (Rabs dv) 1 0); [apply near_val; exact Vn|apply near_val; exact Vd| | | | | | |]; try lra.
  - fold dv. lra.
  - fold dv. unfold dv, Rdiv. rewrite Rabs_mult, Rabs_inv.
    assert (Rabs (IZR n) <= 32768) by (rewrite <- abs_IZR; apply IZR_le; lia).
    assert (/ Rabs (IZR kd) <= 1) by (rewrite <- Rinv_1; apply Rinv_le; lra).
    assert (Rabs (IZR n) * / Rabs (IZR kd) <= 32768 * 1).
    { apply Rmult_le_compat; [apply Rabs_pos| |assumption|assumption]. apply Rlt_le, Rinv_0_lt_compat. lra. }
    lra.
Qed.

Let fden : f32 := b_add (b_ofZ 1) (b_mul fk fdv).
Fact near_den : near fden (1 + k * dv) ((26 / 10) * u).
Proof.
  assert (V1 : is_val (b_ofZ 1) 1) by (apply (b_ofZ_correct 1); lia).
  destruct near_dv as [Fd Ed].
  assert (N1 : near (b_mul fk fdv) (k * dv) ((101 / 100) * u)).
  { apply (near_mul_at _ _ _ _ (u * (1 / 2) + tiny) (1 / 2)); [apply Vk|exact Fd| |exact Bkd|lra|lra].
    destruct Vk as [_ ->]. replace (k * B2R fdv - k * dv) with (k * (B2R fdv - dv)) by ring. rewrite Rabs_mult.
    apply Rle_trans with (Rabs k * (u * Rabs dv + tiny)).
    - apply Rmult_le_compat_l; [apply Rabs_pos|exact Ed].
    - rewrite Rmult_plus_distr_l. rewrite Rabs_mult in Bkd.
      assert (Rabs k * tiny <= 1 * tiny) by (apply Rmult_le_compat_r; lra).
      replace (Rabs k * (u * Rabs dv)) with (u * (Rabs k * Rabs dv)) by ring. lra. }
  unfold fden. eapply (near_add _ _ _ _ 0 _ (3 / 2)); [apply near_val; exact V1|exact N1| |lra|lra].
  apply Rabs_le.
  assert (-(1/2) <= k * dv <= 1 / 2) by (pose proof (Rle_abs (- (k * dv))) as A; rewrite Rabs_Ropp in A; pose proof (Rle_abs (k * dv)); lra).
  lra.
Qed.
Fact Hden : 1 / 2 <= 1 + k * dv <= 3 / 2.
Proof. pose proof (Rle_abs (- (k * dv))) as A. rewrite Rabs_Ropp in A. pose proof (Rle_abs (k * dv)). lra. Qed.

Let q : R := art / (1 + k * dv).
Fact Hq : 0 <= q <= 65536.
Proof.
  pose proof Hden. pose proof Hart. unfold q. split.
  - apply Rmult_le_pos; [lra|]. apply Rlt_le, Rinv_0_lt_compat. lra.
  - apply Rmult_le_reg_r with (1 + k * dv); [lra|]. unfold Rdiv. rewrite Rmult_assoc, Rinv_l by lra. lra.
Qed.
Fact near_q : near (b_div fart fden) q (65536 * (106 / 10) * u).
Proof.
  pose proof Hden. pose proof Hart. pose proof Hq as Q. unfold q in *.
  eapply (near_div _ _ _ _ _ _ 65536 (1 / 2) (65536 * (951 / 100) * u)); [exact near_art|exact near_den| | | | | | |]; try lra.
  - rewrite Rabs_pos_eq; lra.
  - rewrite Rabs_pos_eq; lra.
Qed.

Fact Habs_v : - 65536 <= v <= 65536.
Proof. pose proof (Rle_abs v). pose proof (Rle_abs (- v)) as A. rewrite Rabs_Ropp in A. lra. Qed.
Fact near_diff : near (b_sub (b_div fart fden) fv) (q - v) (65536 * (127 / 10) * u).
Proof.
  pose proof Hq. pose proof Habs_v.
  eapply (near_sub _ _ _ _ _ 0 131072); [exact near_q|apply near_val; exact Vv| | |]; try lra.
  apply Rabs_le. lra.
Qed.

Lemma ambient_near :
  near (b_add (b_div (b_sub (b_div fart fden) fv) ft) (b_ofZ 25)) ((q - v) / t + 25) (2 / 25 / Rabs t).
Proof.
  pose proof Hq. pose proof Habs_v.
  assert (V25 : is_val (b_ofZ 25) 25) by (apply (b_ofZ_correct 25); lia).
  set (T := / Rabs t).
  assert (HT : 1 / 128 <= T <= 8).
  { unfold T. split.
    - apply Rmult_le_reg_r with (Rabs t); [lra|]. rewrite Rinv_l by lra. lra.
    - apply Rmult_le_reg_r with (Rabs t); [lra|]. rewrite Rinv_l by lra. lra. }
  assert (HTt : T * Rabs t = 1) by (unfold T; apply Rinv_l; lra).
  assert (Hd : Rabs ((q - v) / t) <= 131072 * T).
  { unfold Rdiv. rewrite Rabs_mult, Rabs_inv. fold T. apply Rmult_le_compat_r; [lra|]. apply Rabs_le. lra. }
  assert (N1 : near (b_div (b_sub (b_div fart fden) fv) ft) ((q - v) / t) (65536 * (148 / 10) * u * T)).
  { apply (near_div _ _ _ _ (65536 * (127 / 10) * u) 0 (131072 * T) (Rabs t) (65536 * (127 / 10) * u * T));
      [exact near_diff|apply near_val; exact Vt|lra|lra|exact Hd| |lra|lra|lra].
    rewrite Rminus_0_r. replace (65536 * (127 / 10) * u * T * Rabs t) with (65536 * (127 / 10) * u * (T * Rabs t)) by ring.
    rewrite HTt. lra. }
  unfold Rdiv at 2. fold T.
  eapply (near_add _ _ _ _ _ 0 (131072 * T + 25)); [exact N1|apply near_val; exact V25| | |]; try lra.
  eapply Rle_trans; [apply Rabs_triang|]. rewrite (Rabs_pos_eq 25) by lra. lra.
Qed.
End Ambient.

(** ** Calibration data with known constants *)
Record carries {l : libm} (c : calib (B32 l)) (k : ptat_constants) : Prop := {
  ca_alpha : is_val (alpha_ptat _ c) (pc_alpha k);
  ca_k_v : is_val (k_v_ptat _ c) (pc_k_v k);
  ca_k_t : is_val (k_t_ptat _ c) (pc_k_t k);
  ca_v_25 : is_val (v_ptat_25 _ c) (pc_v_25 k);
  ca_vdd_25 : v_dd_25 _ c = pc_vdd_25 k;
  ca_k_vdd : k_v_dd _ c = pc_k_vdd k
}.

Lemma doc_t_a_near l (c : calib (B32 l)) k lay mem : carries c k ->
  8 <= pc_alpha k <= 16 -> Rabs (pc_k_v k) <= 1 -> 1 / 8 <= Rabs (pc_k_t k) <= 128 -> Rabs (pc_v_25 k) <= 65536 ->
  (0 < Z.abs (pc_k_vdd k) <= 65536)%Z ->
  (forall a, word (mem a)) -> plausible_frame k lay mem ->
  near (doc_t_a c lay mem) (exact_t_a k lay mem) (2 / 25 / Rabs (pc_k_t k)).
Proof.
  intros [Va Vk Vt Vv Ev Ek] Ba Bk Bt Bv Bd Hm [Hp Hb Hv Hi].
  unfold doc_t_a, doc_v_ptat_art, doc_delta_v, exact_t_a, exact_v_ptat_art, exact_delta_v in *.
  unfold reading, SpecImage.ram in *. rewrite Ev, Ek. cbn [B32 fadd fsub fmul fdiv fofZ fexp2].
  assert (Sp := signed_abs _ (Hm (lay_ptat lay))). assert (Sb := signed_abs _ (Hm (lay_vbe lay))).
  apply lt_IZR in Hp. apply le_IZR in Hb.
  rewrite <- minus_IZR in *. destruct Hv as [Hv1 Hv2]. apply le_IZR in Hv1. apply le_IZR in Hv2.
  assert (Ew : wrap16 (signed (mem (lay_vdd lay)) - pc_vdd_25 k) = (signed (mem (lay_vdd lay)) - pc_vdd_25 k)%Z).
  { unfold wrap16. rewrite Z.mod_small by (clear - Hv1 Hv2; lia). ring. }
  rewrite Ew.
  apply (ambient_near l (alpha_ptat _ c) (k_v_ptat _ c) (k_t_ptat _ c) (v_ptat_25 _ c)
           (pc_alpha k) (pc_k_v k) (pc_k_t k) (pc_v_25 k)); try assumption.
  - clear - Hp Sp. lia.
  - clear - Hb Sb. lia.
  - clear - Hv1 Hv2. lia.
Qed.

Lemma abs_between x b : - b <= x <= b -> Rabs x <= b.
Proof. intros H. apply Rabs_le. lra. Qed.

(** A nonzero integer divided by 8. *)
Lemma eighth z m : (z <> 0)%Z -> (Z.abs z <= m)%Z -> 1 / 8 <= Rabs (IZR z / 8) <= IZR m / 8.
Proof.
  intros Hz Hm. unfold Rdiv at 2 3. rewrite Rabs_mult, (Rabs_pos_eq (/ 8)) by lra. rewrite <- abs_IZR.
  assert (1 <= IZR (Z.abs z)) by (apply IZR_le; lia). assert (IZR (Z.abs z) <= IZR m) by (apply IZR_le; lia). lra.
Qed.

Theorem C72_constants_640 : forall l p data (c : calib (B32 l)), full_dump data ->
  from_data640 (B32 l) p data = Ok c ->
  (bits (ee_word data 0x10) 12 4 mod 4 = 0)%Z -> carries c (ptat_640 (ee_word data)).
Proof.
  intros l p data c Hd Hc Hm.
  destruct (C42_integer_parameters _ p data c Hd Hc) as (E1 & E2 & _).
  destruct (C42_scalar_parameters l p data c Hd Hc) as (V1 & V2 & V3 & _).
  destruct (C44_alpha_ptat l p data c Hd Hc) as [_ Ha].
  constructor; cbn [ptat_640 pc_alpha pc_k_v pc_k_t pc_v_25 pc_vdd_25 pc_k_vdd].
  - apply Ha. exact Hm.
  - exact V1.
  - exact V2.
  - exact V3.
  - exact E2.
  - exact E1.
Qed.

Theorem C72_constants_641 : forall l p data dw (c : calib (B32 l)), full_dump data -> corrected data dw ->
  from_data641 (B32 l) p data = Ok c ->
  (dw 0x29%nat < 32)%Z -> carries c (ptat_641 dw).
Proof.
  intros l p data dw c Hd Hw Hc Hm.
  destruct (C48_integer_parameters _ p data dw c Hd Hw Hc) as (E1 & E2 & _).
  destruct (C48_scalar_parameters l p data dw c Hd Hw Hc) as (_ & _ & _ & V3 & V2 & V1 & Va & _).
  constructor; cbn [ptat_641 pc_alpha pc_k_v pc_k_t pc_v_25 pc_vdd_25 pc_k_vdd].
  - exact Va.
  - exact V1.
  - exact V2.
  - pose proof (C48_split_values data dw 0x28%nat Hd Hw ltac:(used) ltac:(used) Hm) as S.
    change (0x28 + 1)%nat with 0x29%nat in S. rewrite <- S. exact V3.
  - exact E2.
  - exact E1.
Qed.

(** ** From [new] to ambient_temperature() *)
(** After any history, the ambient temperature of every image computed by a
    driver is within 0.08 / |K_T_PTAT| degrees of the exact value for the words
    the camera delivered, if those are plausible. *)
Definition ambient_accurate {l} p {B ER EW} (bs : bus B ER EW) (k : ptat_constants) lay (d0 : driver (FO := B32 l)) : Prop :=
  forall ops o dest r d' dest',
    let d := run p bs d0 ops in
    destination o = Some dest -> step p bs d o = (r, d', dest') -> computed o r ->
    exists raw sp pre frame post t,
      trace (d_bus d') = trace (d_bus d) ++ pre ++ frame ++ post /\
      asks (d_address d) o raw sp pre /\
      completed (d_address d) (frame_reads lay sp (d_access_pattern d)) frame /\
      acknowledges (d_address d) o pre post r /\
      drv_ambient_temperature d' = Some t /\
      forall mem, (forall x, word (mem x)) -> Forall (shows mem) frame -> plausible_frame k lay mem ->
        is_finite t = true /\ Rabs (B2R t - exact_t_a k lay mem) <= 2 / 25 / Rabs (pc_k_t k).

Lemma some_inj {A} (x y : A) : Some x = Some y -> x = y.
Proof. intros E. injection E. exact (fun e => e). Qed.

Lemma ambient_from_calibration {l} p {B ER EW} (bs : bus B ER EW) k lay (d0 : driver (FO := B32 l)) :
  usable d0 lay -> Forall byte (d_pixel_buffer d0) -> carries (d_calibration d0) k ->
  8 <= pc_alpha k <= 16 -> Rabs (pc_k_v k) <= 1 -> 1 / 8 <= Rabs (pc_k_t k) <= 128 -> Rabs (pc_v_25 k) <= 65536 ->
  (0 < Z.abs (pc_k_vdd k) <= 65536)%Z ->
  ambient_accurate p bs k lay d0.
Proof.
  intros Hu Hb Hk B1 B2 B3 B4 B5 ops o dest r d' dest' d Ho Hs Hc.
  destruct (run_usable p bs lay d0 ops Hu Hb) as [Hu' _]. fold d in Hu'.
  destruct (run_later p bs lay d0 ops (usable_wf _ _ Hu)) as (_ & ((_ & K2 & _) & _) & _). fold d in K2.
  destruct (C55_image_values p bs lay d o dest r d' dest' Hu' Ho Hs Hc) as (raw & sp & pre & frame & post & Et & Ha & Hf & Hk' & Hv).
  assert (Et' : exists t, d_ambient d' = Some t).
  { destruct (C55_every_image_is_documented p bs lay d0 ops o dest r d' dest' Hu Hb Ho Hs Hc)
      as (mem & _ & _ & _ & _ & _ & _ & _ & _ & _ & _ & _ & E & _). eexists. exact E. }
  destruct Et' as [t Ea].
  exists raw, sp, pre, frame, post, t. split; [exact Et|]. split; [exact Ha|]. split; [exact Hf|]. split; [exact Hk'|].
  split; [exact Ea|]. intros mem Hm Hsh Hpl. destruct (Hv mem Hm Hsh) as [E _].
  rewrite K2 in E.
  pose proof (doc_t_a_near l _ k lay mem Hk B1 B2 B3 B4 B5 Hm Hpl) as N.
  assert (E3 : t = doc_t_a (d_calibration d0) lay mem) by (apply some_inj; rewrite <- Ea; exact E).
  rewrite E3. exact N.
Qed.

Lemma ptat_640_bounds data : full_dump data ->
  let k := ptat_640 (ee_word data) in
  8 <= pc_alpha k <= 16 /\ Rabs (pc_k_v k) <= 1 /\ Rabs (pc_v_25 k) <= 65536.
Proof.
  intros Hd. cbn [ptat_640 pc_alpha pc_k_v pc_k_t pc_v_25 pc_vdd_25 pc_k_vdd].
  pose proof (bits_range (ee_word data 0x10) 12 4 ltac:(lia)) as R1. change (2 ^ 4)%Z with 16%Z in R1.
  pose proof (sbits_range (ee_word data 0x32) 10 6 ltac:(lia)) as R2. change (2 ^ (6 - 1))%Z with 32%Z in R2.
  pose proof (ee_word_word data (proj1 Hd) 0x31) as Hw. unfold word in Hw.
  pose proof (sext_range 16 (ee_word data 0x31) ltac:(lia) ltac:(clear - Hw; lia)) as R3. change (2 ^ (16 - 1))%Z with 32768%Z in R3.
  split; [|split].
  - assert (0 <= IZR (bits (ee_word data 0x10) 12 4) <= 16) by (split; apply IZR_le; clear - R1; lia). lra.
  - apply abs_between. assert (-32 <= IZR (sbits (ee_word data 0x32) 10 6) <= 32) by (split; apply IZR_le; clear - R2; lia). lra.
  - apply abs_between. assert (-32768 <= IZR (sext 16 (ee_word data 0x31)) <= 32768) by (split; apply IZR_le; clear - R3; lia). lra.
Qed.

Theorem C72_ambient_640 : forall l p B ER EW (bs : bus B ER EW) w a (d0 : driver (FO := B32 l)) w',
  new bs (calib640_from_i2c (B32 l) p bs) 24 1536 w a = (Ok d0, w') ->
  exists data rest, trace (d_bus d0) = trace w ++ EvRead a [0x24; 0x00]%Z data None :: rest /\
  let ee := ee_word data in
  (* alpha_PTAT is a whole number (otherwise see C44), K_T_PTAT and K_V_DD are not zero *)
  (bits (ee 0x10%nat) 12 4 mod 4 = 0 -> sbits (ee 0x32%nat) 0 10 <> 0 -> sbits (ee 0x33%nat) 8 8 <> 0 ->
   ambient_accurate p bs (ptat_640 ee) layout640 d0)%Z.
Proof.
  intros l p B ER EW bs w a d0 w' H. apply C29_new_640 in H. destruct H as (evs & Ht & H).
  remember (Ok d0) as r eqn:E. destruct H as [| | | |data c evs r Hl Hb Hc H]; try discriminate E.
  destruct H as [v d1 Hv Hf|]; [|discriminate E]. injection E as ->.
  pose proof (full_of_exact data Hb Hl) as Hd. destruct (C62_calibration_640 _ p data c Hd Hc) as [H1 H2].
  destruct (fresh_usable layout640 24 1536 a c v w' d0 H1 H2 ltac:(vm_compute; lia) ltac:(vm_compute; lia) Hf) as [Hu Hby].
  destruct Hf as (Ew & Ea & Ec & _).
  exists data. eexists. split; [rewrite Ew; exact Ht|]. cbv zeta. intros Hm Hkt Hkd.
  destruct (ptat_640_bounds data Hd) as (B1 & B2 & B3).
  apply ambient_from_calibration; try assumption.
  - rewrite Ec. apply (C72_constants_640 l p data c Hd Hc Hm).
  - cbn [ptat_640 pc_k_t]. pose proof (sbits_range (ee_word data 0x32) 0 10 ltac:(lia)) as R. change (2 ^ (10 - 1))%Z with 512%Z in R.
    pose proof (eighth _ 1024 Hkt ltac:(clear - R; lia)) as B4. lra.
  - cbn [ptat_640 pc_k_vdd]. pose proof (sbits_range (ee_word data 0x33) 8 8 ltac:(lia)) as R. change (2 ^ (8 - 1))%Z with 128%Z in R.
    clear - R Hkd. lia.
Qed.
Print Assumptions C72_ambient_640.

Theorem C72_ambient_641 : forall l p B ER EW (bs : bus B ER EW) w a (d0 : driver (FO := B32 l)) w',
  new bs (calib641_from_i2c (B32 l) p bs) 12 384 w a = (Ok d0, w') ->
  exists data rest, trace (d_bus d0) = trace w ++ EvRead a [0x24; 0x00]%Z data None :: rest /\
  forall dw, corrected data dw ->
  (* alpha_PTAT is at least 8, K_T_PTAT and K_V_DD are not zero, the low half of V_PTAT_25 has 5 bits *)
  (1024 <= dw 0x2C%nat -> dw 0x29%nat < 32 -> sext 11 (dw 0x2A%nat) <> 0 -> sext 11 (dw 0x27%nat) <> 0 ->
   ambient_accurate p bs (ptat_641 dw) layout641 d0)%Z.
Proof.
  intros l p B ER EW bs w a d0 w' H. apply C29_new_641 in H. destruct H as (evs & Ht & H).
  remember (Ok d0) as r eqn:E. destruct H as [| | | |data c evs r Hl Hb Hc H]; try discriminate E.
  destruct H as [v d1 Hv Hf|]; [|discriminate E]. injection E as ->.
  pose proof (full_of_exact data Hb Hl) as Hd. destruct (C62_calibration_641 _ p data c Hd Hc) as [H1 H2].
  destruct (fresh_usable layout641 12 384 a c v w' d0 H1 H2 ltac:(vm_compute; lia) ltac:(vm_compute; lia) Hf) as [Hu Hby].
  destruct Hf as (Ew & Ea & Ec & _).
  exists data. eexists. split; [rewrite Ew; exact Ht|]. intros dw Hw Ha Hlow Hkt Hkd.
  pose proof (dw_range data dw Hd Hw 0x2C ltac:(used)) as R1.
  pose proof (dw_range data dw Hd Hw 0x28 ltac:(used)) as R2.
  pose proof (dw_range data dw Hd Hw 0x29 ltac:(used)) as R3.
  pose proof (signed11_small data dw 0x2A Hd Hw ltac:(used)) as R4.
  pose proof (signed11_small data dw 0x2B Hd Hw ltac:(used)) as R5.
  pose proof (signed11_small data dw 0x27 Hd Hw ltac:(used)) as R6. unfold signed11 in R4, R5, R6.
  apply ambient_from_calibration; try assumption.
  - rewrite Ec. apply (C72_constants_641 l p data dw c Hd Hw Hc Hlow).
  - cbn [ptat_641 pc_alpha]. assert (1024 <= IZR (dw 0x2C%nat) <= 2048) by (split; apply IZR_le; clear - R1 Ha; lia). lra.
  - cbn [ptat_641 pc_k_v]. apply abs_between.
    assert (-1024 <= IZR (sext 11 (dw 0x2B%nat)) <= 1024) by (split; apply IZR_le; clear - R5; lia). lra.
  - cbn [ptat_641 pc_k_t]. pose proof (eighth _ 1024 Hkt ltac:(clear - R4; lia)) as B4. lra.
  - cbn [ptat_641 pc_v_25]. apply abs_between.
    assert (0 <= IZR (32 * dw 0x28%nat + dw 0x29%nat) <= 65536) by (split; apply IZR_le; clear - R2 R3 Hlow; lia). lra.
  - cbn [ptat_641 pc_k_vdd]. clear - R6 Hkd. lia.
Qed.
Print Assumptions C72_ambient_641.

(** ** Concrete case: the worked example of the MLX90640 datasheet (11.2.2.1-3), on
    the camera of C67_concrete.  The exact ambient temperature is 39.184, and the
    tolerance 0.08 / 42.25 is less than 0.002. *)
Definition sample_ee (i : nat) : Z := sample_mem (0x2400 + Z.of_nat i).
Example C72_concrete :
  let k := ptat_640 sample_ee in
  (bits (sample_ee 0x10%nat) 12 4 mod 4 = 0 /\ sbits (sample_ee 0x32%nat) 0 10 = 338 /\ sbits (sample_ee 0x33%nat) 8 8 <> 0)%Z /\
  plausible_frame k layout640 sample_mem /\
  39.184 <= exact_t_a k layout640 sample_mem <= 39.185 /\ 2 / 25 / Rabs (pc_k_t k) <= 0.002.
Proof.
  cbv zeta. split; [vm_compute; repeat split; discriminate|].
  assert (Ek : ptat_640 sample_ee = {| pc_alpha := IZR 4 / 4 + 8; pc_k_v := IZR 22%Z / 4096; pc_k_t := IZR 338 / 8;
                                       pc_v_25 := IZR 12273; pc_vdd_25 := -13056; pc_k_vdd := -3168 |})
    by (vm_compute; reflexivity).
  rewrite Ek.
  assert (E1 : signed (sample_mem (lay_vdd layout640)) = (-13115)%Z) by (vm_compute; reflexivity).
  assert (E2 : signed (sample_mem (lay_ptat layout640)) = 1711%Z) by (vm_compute; reflexivity).
  assert (E3 : signed (sample_mem (lay_vbe layout640)) = 19442%Z) by (vm_compute; reflexivity).
  split.
  - constructor; unfold exact_delta_v, reading; rewrite ?E1, ?E2, ?E3; cbn [pc_vdd_25 pc_k_vdd pc_k_v]; try lra.
    apply Rabs_le. lra.
  - unfold exact_t_a, exact_v_ptat_art, exact_delta_v, reading. rewrite E1, E2, E3.
    cbn [pc_alpha pc_k_v pc_k_t pc_v_25 pc_vdd_25 pc_k_vdd]. rewrite (Rabs_pos_eq (338 / 8)) by lra. split; [|lra].
    replace (1 + 22 / 4096 * ((-13115 - -13056) / -3168)) with (1 + 22 / 4096 * (59 / 3168)) by lra.
    split.
    + apply Rmult_le_reg_r with (34841 * (1 + 22 / 4096 * (59 / 3168))); [lra|]. field_simplify; lra.
    + apply Rmult_le_reg_r with (34841 * (1 + 22 / 4096 * (59 / 3168))); [lra|]. field_simplify; lra.
Qed.

(** The hypothesis on alpha_PTAT is needed: on the same camera with the fraction
    bits of alpha_PTAT set to 1 (alpha_PTAT = 9.25), the reported ambient
    temperature is unchanged, more than 3 degrees above the exact one. *)
Definition fraction_mem (a : Z) : Z := if (a =? 0x2410)%Z then Z.lor (sample_mem a) 0x1000 else sample_mem a.
Definition fraction_bus : bus unit unit unit := {|
  dev_write_read := fun b _ wb buf => (b, mem_bytes fraction_mem (256 * nth 0 wb 0%Z + nth 1 wb 0%Z) (length buf), None);
  dev_write := fun b _ _ => (b, None) |}.
Definition fraction_check : bool :=
  match new fraction_bus (calib640_from_i2c (B32 any_lib) Debug fraction_bus) 24 1536 (Build_world tt []) 0x33 with
  | (Ok d, _) =>
      match step Debug fraction_bus d (OpGenerateRawSubpage (FO := B32 any_lib) Zero (repeat (b_ofZ 0) 768)) with
      | (Ok OutUnit, d', _) => match d_ambient d' with Some t => P_Finite.between (b_ofZ 39) t (b_ofZ 40) | None => false end
      | _ => false
      end
  | _ => false
  end.
Theorem C72_refuted_for_fractional_alpha :
  let k := ptat_640 (fun i => fraction_mem (0x2400 + Z.of_nat i)) in
  fraction_check = true /\ pc_alpha k = 9.25 /\ plausible_frame k layout640 fraction_mem /\
  exact_t_a k layout640 fraction_mem < 36.
Proof.
  cbv zeta. split; [vm_compute; reflexivity|].
  set (ee := fun i => fraction_mem (0x2400 + Z.of_nat i)).
  assert (Ek : ptat_640 ee = {| pc_alpha := IZR 5 / 4 + 8; pc_k_v := IZR 22%Z / 4096; pc_k_t := IZR 338 / 8;
                                pc_v_25 := IZR 12273; pc_vdd_25 := -13056; pc_k_vdd := -3168 |})
    by (vm_compute; reflexivity).
  rewrite Ek.
  assert (E1 : signed (fraction_mem (lay_vdd layout640)) = (-13115)%Z) by (vm_compute; reflexivity).
  assert (E2 : signed (fraction_mem (lay_ptat layout640)) = 1711%Z) by (vm_compute; reflexivity).
  assert (E3 : signed (fraction_mem (lay_vbe layout640)) = 19442%Z) by (vm_compute; reflexivity).
  cbn [pc_alpha]. split; [lra|]. split.
  - constructor; unfold exact_delta_v, reading; rewrite ?E1, ?E2, ?E3; cbn [pc_vdd_25 pc_k_vdd pc_k_v]; try lra.
    apply Rabs_le. lra.
  - unfold exact_t_a, exact_v_ptat_art, exact_delta_v, reading. rewrite E1, E2, E3.
    cbn [pc_alpha pc_k_v pc_k_t pc_v_25 pc_vdd_25 pc_k_vdd].
    replace (1 + 22 / 4096 * ((-13115 - -13056) / -3168)) with (1 + 22 / 4096 * (59 / 3168)) by lra.
    apply Rmult_lt_reg_r with (35268.75 * (1 + 22 / 4096 * (59 / 3168))); [lra|]. field_simplify; lra.
Qed.
Print Assumptions C72_refuted_for_fractional_alpha.
