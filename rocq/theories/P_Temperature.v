(** * P_Temperature: C74 -- the binary32 object temperatures are close to the exact ones. *)
From Verif Require Import Base FloatOps Register Bus Camera Cam640 Cam641 Calc Driver SpecRegister SpecEeprom SpecHamming ParseFacts
  SpecDriver DriverFacts StepFacts SpecCall P_Image P_Bus P_Frames SeenFacts P_Seen P_Calc Dumps Ee641Words
  SpecCamera SpecImage ImageFacts B32 B32Facts RealOps BoundFacts FiniteFacts FrameRateFacts
  FieldFacts Spec640 Ee640 Ee640Facts Ee640Closed P_Ee640 P_Ee640Real Spec641 Ee641 Ee641Closed Ee641Facts P_Ee641 P_Ee641Real P_Usable
  SpecFinite AccuracyFacts SpecAccuracy P_Finite P_Accuracy P_PixelAccuracy RealFacts SpecPhysics SpecTemperature ObjectFacts Driver.
From Coq Require Import Reals Lra.
From Flocq Require Import Core BinarySingleNaN.
Open Scope R_scope.

(** The sensitivities are numbers (always so for decoded calibration data: C74_decoded_640, C74_decoded_641). *)
Record sensible {l : libm} (c : calib (B32 l)) (lay : layout) : Prop := {
  sn_alpha : forall sp i, is_finite (nth i (alpha_pixels _ c sp) (b_ofZ 0)) = true;
  sn_alpha_cp : forall sp, is_finite (alpha_cp _ c sp) = true;
  sn_k_s_ta : is_finite (k_s_ta _ c) = true;
  sn_k_s_to : is_finite (nth (lay_basic_range lay) (k_s_to _ c) (b_ofZ 0)) = true
}.

Lemma self_val x : is_finite x = true -> is_val x (B2R x).
Proof. intros H. split; [exact H|reflexivity]. Qed.

Lemma Rpower_nonpos x y : ~ 0 < x -> Rpower x y = 1.
Proof.
  intros H. unfold Rpower, ln. destruct (Rlt_dec 0 x) as [L|L]; [contradiction|]. rewrite Rmult_0_r. apply exp_0.
Qed.

Section Pixels.
Context {l : libm} (m : camera RealOps) (c : calib (B32 l)) (k : ptat_constants) (lay : layout)
  (s : settings (FO := B32 l)) (sp : subpage) (mem : Z -> Z).
Hypothesis (Hl : accurate_powers l).
Hypothesis (Hc : well_calibrated c k) (Hsn : sensible c lay) (Hm : forall a, word (mem a)) (Hp : plausible_frame k lay mem).
Hypothesis (Fe : is_finite (set_emissivity s) = true) (Fr : within (set_correction s) 3).
Hypothesis (Frf : forall t, set_reflected s = Some t -> is_finite t = true).
Hypothesis (Hsh : (lay_self_heating lay = 8 \/ lay_self_heating lay = 5)%Z).
Let cr := exactly m c.
Let sr := settings_exactly s.
Hypothesis (Hw : working_frame cr lay sr mem).
Let eT : R := 2 / 25 / Rabs (pc_k_t k).

Fact eT_is : ambient_tolerance cr = eT.
Proof. unfold ambient_tolerance. unfold cr. rewrite (kt_real m c k Hc). reflexivity. Qed.
Fact ta_near : near (doc_t_a c lay mem) (doc_t_a cr lay mem) eT.
Proof. exact (near_ta m c k lay mem Hc Hm Hp). Qed.
Fact BeT : 6 / 10000 <= eT <= 2 / 25.
Proof. exact (eT_bounds c k Hc). Qed.
Fact BTa : Rabs (doc_t_a cr lay mem - 25) <= 128.
Proof. apply (wf_ambient _ _ _ _ Hw). Qed.

Let fr : f32 := match set_reflected s with Some t => t | None => b_sub (doc_t_a c lay mem) (b_ofZ (lay_self_heating lay)) end.
Let Tr : R := match set_reflected sr with Some t => t | None => doc_t_a cr lay mem - IZR (lay_self_heating lay) end.
Fact tr_near : near fr Tr (102 / 100 * eT).
Proof.
  pose proof BeT as B. unfold fr, Tr, sr, settings_exactly. cbn [set_reflected].
  destruct (set_reflected s) as [t|] eqn:E; cbn [option_map].
  - eapply near_weaken; [apply near_val, self_val, (Frf t eq_refl)|lra].
  - assert (B8 : 5 <= IZR (lay_self_heating lay) <= 8) by (destruct Hsh as [->| ->]; lra).
    assert (V : is_val (b_ofZ (lay_self_heating lay)) (IZR (lay_self_heating lay))) by (apply b_ofZ_correct; destruct Hsh as [->| ->]; clear; lia).
    pose proof (abs_split _ _ BTa) as BT.
    eapply (near_sub _ _ _ _ _ 0 200); [exact ta_near|apply near_val; exact V|apply Rabs_le; lra|lra|lra].
Qed.

Context (i : nat).
Let kst : R := B2R (nth (lay_basic_range lay) (k_s_to _ c) (b_ofZ 0)).
Hypothesis (Hwp : working_pixel cr lay sr sp mem kst i).

Fact tar_near : near (doc_t_ar c lay s mem) (doc_t_ar cr lay sr mem) (background_tolerance cr lay sr mem).
Proof.
  pose proof (wp_reflected _ _ _ _ _ _ _ Hwp) as BK. pose proof (wp_emissivity _ _ _ _ _ _ _ Hwp) as Be.
  unfold reflected_kelvin in BK. fold Tr in BK.
  change (set_emissivity sr) with (B2R (set_emissivity s)) in Be.
  assert (V1 : is_val (b_ofZ 1) 1) by (apply (b_ofZ_correct 1); lia).
  pose proof (near_ta4 l _ _ _ Hl ta_near BeT BTa) as N4.
  pose proof (near_background l _ _ _ _ _ _ _ Hl ta_near BeT BTa tr_near BK (self_val _ Fe) Be) as NB.
  unfold doc_t_ar, background_tolerance. rewrite eT_is.
  cbn [B32 RealOps feqb fofZ fadd fsub fdiv fpowi f_273_15].
  change (set_emissivity sr) with (B2R (set_emissivity s)).
  unfold b_eqb. rewrite (Beqb_correct _ _ _ _ Fe (proj1 V1)), (proj2 V1).
  replace (27315 / 100) with 273.15 by lra. rewrite !powerRZ4.
  destruct (Req_EM_T (B2R (set_emissivity s)) 1) as [E|E].
  - rewrite Req_bool_true by exact E. eapply near_weaken; [exact N4|]. unfold ambient_kelvin.
    assert (0 <= (doc_t_a cr lay mem + 273.15) ^ 3 * eT).
    { pose proof BeT. pose proof (abs_split _ _ BTa). apply Rmult_le_pos; [apply pow_le; lra|lra]. }
    lra.
  - rewrite Req_bool_false by exact E. unfold reflected_kelvin, ambient_kelvin. fold Tr.
    change (match set_reflected sr with Some t => t | None => doc_t_a cr lay mem - IZR (lay_self_heating lay) end) with Tr.
    exact NB.
Qed.

Let A : R := SpecImage.doc_alpha cr lay sp mem i.
Fact alpha_near : snear (SpecImage.doc_alpha c lay sp mem i) A 1 (14 / 10 * Rabs (k_s_ta _ cr) * eT + 7 * u).
Proof.
  pose proof (wp_alpha _ _ _ _ _ _ _ Hwp) as BA. pose proof (wp_k_s_ta _ _ _ _ _ _ _ Hwp) as B1.
  pose proof (wp_k_s_ta_effect _ _ _ _ _ _ _ Hwp) as B2. pose proof (wp_alpha_cp _ _ _ _ _ _ _ Hwp) as B3.
  unfold A. unfold SpecImage.doc_alpha in *.
  change (k_s_ta _ cr) with (B2R (k_s_ta _ c)) in *.
  change (alpha_pixels _ cr sp) with (map B2R (alpha_pixels _ c sp)) in *.
  change (@fofZ RealOps 0) with 0 in *. change (@fofZ (B32 l) 0) with (b_ofZ 0). rewrite nth_map_B2R in *.
  change (temperature_gradient_coefficient _ cr) with (option_map B2R (temperature_gradient_coefficient _ c)) in *.
  change (alpha_cp _ cr sp) with (B2R (alpha_cp _ c sp)) in *.
  cbn [B32 RealOps fadd fsub fmul fofZ] in *.
  destruct (temperature_gradient_coefficient _ c) as [g|] eqn:Eg; cbn [option_map] in *.
  - apply (near_alpha_cp _ _ _ _ _ (B2R (k_s_ta _ c)) (doc_t_a cr lay mem) eT); try assumption.
    + apply (sn_alpha _ _ Hsn).
    + apply (sn_alpha_cp _ _ Hsn).
    + apply (ord_tgc _ (wl_ordinary _ _ Hc) g Eg).
    + apply self_val, (sn_k_s_ta _ _ Hsn).
    + exact ta_near.
    + exact BeT.
    + exact BTa.
    + apply (B3 _ eq_refl).
  - apply (near_alpha_plain _ _ _ (B2R (k_s_ta _ c)) (doc_t_a cr lay mem) eT); try assumption.
    + apply (sn_alpha _ _ Hsn).
    + apply self_val, (sn_k_s_ta _ _ Hsn).
    + exact ta_near.
    + exact BeT.
    + exact BTa.
Qed.

Lemma near_temperature :
  working_coefficients cr lay sr mem (nth i (k_v_pixels _ cr sp) 0) (nth i (k_ta_pixels _ cr sp) 0) ->
  (temperature_gradient_coefficient _ c <> None -> working_coefficients cr lay sr mem (k_v_cp _ cr sp) (k_ta_cp _ cr sp)) ->
  near (doc_t_o c lay s sp mem (nth (lay_basic_range lay) (k_s_to _ c) (b_ofZ 0)) i) (doc_t_o cr lay sr sp mem kst i)
    (temperature_tolerance cr lay sr sp mem kst i).
Proof.
  intros Hpx Hcp.
  pose proof (near_pixel m c k lay s sp mem Hc Hm Hp Fe Fr Hw i Hpx Hcp) as NV. fold cr sr in NV.
  pose proof alpha_near as NA. pose proof tar_near as NR. pose proof BeT as Be.
  destruct Hwp as [W1 W2 W3 W4 W5 W6 W7 W8 W9 W10 W11 W12 W13]. fold A in W5.
  set (V := doc_v_ir cr lay sr sp mem i : R) in *. set (Rr := doc_t_ar cr lay sr mem : R) in *.
  set (tol := pixel_tolerance cr sr sp i : R) in *. set (eR := background_tolerance cr lay sr mem : R) in *.
  assert (PA : 0 < A) by lra.
  unfold uncorrected_kelvin in W9, W10. 
  assert (Ex : signal cr lay sr sp mem i = V / A) by reflexivity.
  assert (Eu : uncorrected4 cr lay sr sp mem i = V / A + Rr) by reflexivity.
  unfold temperature_tolerance. unfold radiation_tolerance in W12, W13 |- *. fold A V Rr tol eR in W12, W13 |- *.
  rewrite Ex in W8, W12, W13 |- *. rewrite Eu in W7, W8, W9, W10, W12.
  set (x := V / A) in *. assert (EV : V = x * A) by (unfold x; field; lra).
  set (w := Rpower (x + Rr) (1 / 4)) in *.
  assert (P4 : 0 < x + Rr) by (pose proof (pow_lt 150 4 ltac:(lra)); lra).
  assert (Ew : w ^ 4 = x + Rr) by (apply root4_pow; exact P4).
  assert (Pw : 0 < w) by apply root4_pos.
  assert (Hww : 150 <= w <= 1000).
  { rewrite <- Ew in W7. split.
    - destruct (Rle_or_lt 150 w) as [L|L]; [exact L|]. pose proof (pow4_lt w 150 ltac:(lra) L). lra.
    - destruct (Rle_or_lt w 1000) as [L|L]; [exact L|]. pose proof (pow4_lt 1000 w ltac:(lra) L). lra. }
  set (g := 1 + kst * (w - 273.15)).
  assert (Bg : 3 / 4 <= g <= 5 / 4) by (pose proof (abs_split _ _ W10); unfold g; lra).
  assert (Eo : doc_t_o cr lay sr sp mem kst i = Rpower (x / g + Rr) (1 / 4) - 273.15).
  { change (doc_t_o cr lay sr sp mem kst i) with (per_pixel_temperature (FO := RealOps) V A Rr kst).
    rewrite temperature_R by assumption. unfold sensitivity_at, estimate. fold x w. fold g.
    replace (V / (A * g)) with (x / g) by (unfold x; field; lra). reflexivity. }
  unfold object_kelvin in W11, W13 |- *. rewrite Eo in W11, W13 |- *.
  set (T := Rpower (x / g + Rr) (1 / 4)) in *.
  replace (T - 273.15 + 273.15) with T in W11, W13 |- * by ring.
  assert (ET : T ^ 4 = x / g + Rr).
  { apply root4_pow. destruct (Rlt_dec 0 (x / g + Rr)) as [L|L]; [exact L|exfalso].
    unfold T in W11. rewrite Rpower_nonpos in W11 by exact L. lra. }
  unfold sensitivity_tolerance in W12, W13 |- *. rewrite eT_is in W12, W13 |- *.
  set (ks := Rabs (k_s_ta _ cr)) in *.
  assert (Pks : 0 <= ks) by apply Rabs_pos.
  assert (Bke : 0 <= ks * eT <= 1 / 64 * (2 / 25)) by (split; [apply Rmult_le_pos; lra|apply Rmult_le_compat; lra]).
  set (n := Rabs x + Rabs Rr) in *.
  assert (Pn : 0 <= n) by (unfold n; pose proof (Rabs_pos x); pose proof (Rabs_pos Rr); lra).
  set (D := tol / A + eR + 2 * n * (3 / 2 * ks * eT + 1 / 1000000)) in *.
  assert (Nv : snear (doc_v_ir c lay s sp mem i) A x (tol / A)).
  { destruct NV as [F H]. split; [exact F|]. rewrite <- EV. replace (tol / A * A) with tol by (field; lra). exact H. }
  change (doc_t_o c lay s sp mem (nth (lay_basic_range lay) (k_s_to _ c) (b_ofZ 0)) i) with
    (per_pixel_temperature (FO := B32 l) (doc_v_ir c lay s sp mem i) (SpecImage.doc_alpha c lay sp mem i) (doc_t_ar c lay s mem)
       (nth (lay_basic_range lay) (k_s_to _ c) (b_ofZ 0))).
  unfold per_pixel_temperature. cbn [B32 fadd fsub fmul fdiv fofZ fpowi fpowf].
  apply (near_object l _ _ _ _ A x Rr kst w g (14 / 10 * ks * eT + 7 * u) (tol / A) eR D); try assumption.
  - lra.
  - apply self_val, (sn_k_s_to _ _ Hsn).
  - rewrite Ew. exact W8.
  - reflexivity.
  - unfold D. fold n. rewrite (Rmult_comm 2 n), (Rmult_assoc n 2).
    assert (n * (2 * (14 / 10 * ks * eT + 7 * u) + 8 * u) <= n * (2 * (3 / 2 * ks * eT + 1 / 1000000))) by (apply Rmult_le_compat_l; lra).
    lra.
  - rewrite Ew. exact W12.
Qed.
End Pixels.

(** ** Temperature images *)
(** Every temperature stored by [generate_image_subpage_to] is within its tolerance
    of the documented formula evaluated over the reals on the same calibration data,
    settings and frame, if the library's powers and roots are accurate. *)
Theorem C74_temperatures_accurate : forall l m p B ER EW (bs : bus B ER EW) lay (d : driver (FO := B32 l)) k sp dest d' dest' evs mem,
  accurate_powers l ->
  usable d lay -> well_calibrated (d_calibration d) k -> sensible (d_calibration d) lay ->
  (exists cal cur, d_resolution_correction d = resolution_correction _ (cam _ (d_calibration d)) cal cur) ->
  is_finite (d_emissivity d) = true -> (forall t, d_reflected d = Some t -> is_finite t = true) ->
  step p bs d (OpGenerateSubpage sp dest) = (Ok OutUnit, d', dest') ->
  trace (d_bus d') = trace (d_bus d) ++ evs ->
  (forall a, word (mem a)) -> Forall (shows mem) evs ->
  let c := exactly m (d_calibration d) in
  let s := settings_exactly (settings_of d) in
  let kst := nth (lay_basic_range lay) (k_s_to _ c) 0 in
  plausible_frame k lay mem -> working_frame c lay s mem ->
  forall i, (i < length dest)%nat -> measured lay sp (d_access_pattern d) i = true ->
  working_coefficients c lay s mem (nth i (k_v_pixels _ c sp) 0) (nth i (k_ta_pixels _ c sp) 0) ->
  (temperature_gradient_coefficient _ c <> None -> working_coefficients c lay s mem (k_v_cp _ c sp) (k_ta_cp _ c sp)) ->
  working_pixel c lay s sp mem kst i ->
  exists x, nth_error dest' i = Some x /\ is_finite x = true /\
    Rabs (B2R x - doc_t_o c lay s sp mem kst i) <= temperature_tolerance c lay s sp mem kst i.
Proof.
  intros l m p B ER EW bs lay d k sp dest d' dest' evs mem Hlib Hu Hcal Hsn (cal & cur & Hres) Fe Frf H Ht Hm Hs c s kst Hp Hw i Hi Hmi Hpx Hcp Hwp.
  destruct (C55_image_values p bs lay d (OpGenerateSubpage sp dest) dest _ d' dest' Hu eq_refl H) as (raw & sp' & pre & frame & post & Et & Hask & _ & Hack & Hv).
  { split; [discriminate|exact I]. }
  inversion Hask; subst. inversion Hack; subst.
  rewrite Ht in Et. apply app_inv_head in Et. subst evs. cbn [app] in Hs. rewrite app_nil_r in Hs.
  destruct (Hv mem Hm Hs) as [_ [Hl Himg]].
  destruct (nth_error dest i) as [old|] eqn:En; [|apply nth_error_None in En; clear - En Hi; lia].
  specialize (Himg i old En). cbn [set_pattern settings_of] in Himg. rewrite Hmi in Himg.
  eexists. split; [exact Himg|]. unfold doc_pixel.
  assert (Ek : kst = B2R (nth (lay_basic_range lay) (k_s_to _ (d_calibration d)) (b_ofZ 0))).
  { unfold kst, c. change (k_s_to _ (exactly m (d_calibration d))) with (map B2R (k_s_to _ (d_calibration d))). apply nth_map_B2R. }
  rewrite Ek in Hwp |- *.
  apply (near_temperature m (d_calibration d) k lay (settings_of d) _ mem); try assumption.
  - cbn [set_correction settings_of]. rewrite Hres. destruct Hu as [Hd _]. inversion Hd as [E|E]; cbn [resolution_correction]; apply correction_small.
  - destruct Hu as [Hd _]. inversion Hd; [left|right]; reflexivity.
  - intros Hn. apply Hcp. unfold c, exactly. cbn [temperature_gradient_coefficient].
    destruct (temperature_gradient_coefficient _ (d_calibration d)); [discriminate|]. exfalso. apply Hn. reflexivity.
Qed.
Print Assumptions C74_temperatures_accurate.

(** ** Decoded calibration data is sensible *)
Theorem C74_decoded_640 : forall l p data (c : calib (B32 l)), full_dump data ->
  from_data640 (B32 l) p data = Ok c -> sensible c layout640.
Proof.
  intros l p data c Hd Hc.
  destruct (C62_calibration_640 _ p data c Hd Hc) as [_ (_ & L2 & _)].
  change (lay_pixels layout640) with 768%nat in *.
  destruct (C42_scalar_parameters l p data c Hd Hc) as (_ & _ & _ & _ & V1 & V2 & V3 & _).
  destruct (C42_k_s_to l p data c Hd Hc) as (k1 & k2 & k3 & k4 & E & _ & V4 & _).
  assert (Hs : forall i, (i < 768)%nat -> exists r col, (i = 32 * r + col)%nat /\ (r < 24)%nat /\ (col < 32)%nat).
  { apply rows_cols. intros r col Hr Hcol. exists r, col. auto. }
  constructor.
  - intros sp. apply (nth_cases (fun x => is_finite x = true) _ (b_ofZ 0) 768); [|apply L2|reflexivity].
    intros i Hi. destruct (Hs i Hi) as (r & col & -> & Hr & Hcol).
    destruct (failed_dec (ee_word data) r col) as [Hf|Hf].
    + destruct (C41_failed_pixel_values _ p data c Hd Hc sp r col Hr Hcol Hf) as (_ & Ea & _).
      eexists. split; [exact Ea|]. cbn [B32 fofZ].
      match goal with |- is_finite (b_ofZ (shifted ?z)) = true =>
        pose proof (shifted_range z) as B; exact (proj1 (b_ofZ_correct (shifted z) ltac:(clear - B; lia))) end.
    + destruct (C40_alpha l p data c Hd Hc sp r col Hr Hcol Hf) as (x & Ea & V). exists x. split; [exact Ea|apply V].
  - intros [|]; [apply V2|apply V3].
  - apply V1.
  - rewrite E. apply V4.
Qed.
Print Assumptions C74_decoded_640.

Theorem C74_decoded_641 : forall l p data dw (c : calib (B32 l)), full_dump data -> corrected data dw ->
  from_data641 (B32 l) p data = Ok c -> sensible c layout641.
Proof.
  intros l p data dw c Hd Hw Hc.
  destruct (C62_calibration_641 _ p data c Hd Hc) as [_ (_ & L2 & _)].
  change (lay_pixels layout641) with 192%nat in *.
  destruct (C48_scalar_parameters l p data dw c Hd Hw Hc) as (V1 & _).
  constructor.
  - intros sp. apply (nth_cases (fun x => is_finite x = true) _ (b_ofZ 0) 192); [|apply L2|reflexivity].
    intros i Hi. destruct (failed641_dec dw i) as [Hf|Hf].
    + destruct (C51_failed_pixel_values _ p data dw c Hd Hw Hc sp i Hi Hf) as (_ & Ea & _).
      eexists. split; [exact Ea|reflexivity].
    + destruct (C48_alpha l p data dw c Hd Hw Hc sp i Hi Hf) as (x & Ea & V & _). exists x. split; [exact Ea|exact V].
  - intros sp. destruct (C48_alpha_cp l p data dw c Hd Hw Hc sp) as [H1 H2].
    destruct (Z_le_gt_dec (dw 0x2E%nat) 127) as [L|L]; [apply (H1 L)|apply H2; lia].
  - apply V1.
  - destruct (Z_le_gt_dec (dw 0x34%nat) 127) as [L|L].
    + pose proof (C48_k_s_to l p data dw c Hd Hw Hc L) as H.
      inversion H as [|? ? ? ? _ H1 E1]; subst. inversion H1 as [|? ? ? ? _ H2 E2]; subst.
      inversion H2 as [|? ? ? ? V _]; subst. apply V.
    + rewrite (decoded_is641 (B32 l) p data Hd c Hc). unfold decoded641, record641.
      cbn [k_s_to]. unfold ksto641, ksto_words. pose proof (dword_corrected data dw Hd Hw) as E.
      rewrite (E 0x34%nat) by used.
      pose proof (dw_range data dw Hd Hw 0x34 ltac:(used)) as B.
      cbn [fdiv fofZ fexp2 B32 map lay_basic_range layout641 nth]. rewrite exp2_big by (clear - B L; lia).
      apply div_inf_zero. unfold signed11. rewrite (E 0x37%nat) by used. fold (signed11 dw 0x37).
      pose proof (signed11_small data dw 0x37 Hd Hw ltac:(used)) as B'.
      apply (val_ofZ16 (signed11 dw 0x37)). clear - B'. lia.
Qed.
Print Assumptions C74_decoded_641.

(** ** A library that meets [accurate_powers]: the one that rounds the exact power *)
Definition b_ofR (r : R) : f32 :=
  binary_normalize 24 128 _ _ mode_NE (Ztrunc (scaled_mantissa radix2 b32_fexp (RN r))) (cexp radix2 b32_fexp (RN r)) false.
Definition rounding_lib : libm := {|
  lm_exp2 := fun x => b_ofR (Rpower 2 (B2R x));
  lm_powi := fun x n => b_ofR (powerRZ (B2R x) n);
  lm_powf := fun x y => b_ofR (Rpower (B2R x) (B2R y))
|}.

Lemma b_ofR_correct r : Rabs r <= 1267650600228229401496703205376 -> is_val (b_ofR r) (RN r).
Proof.
  intros H. pose proof (RN_small r H) as S. unfold b_ofR. set (v := RN r) in *.
  assert (G : generic_format radix2 b32_fexp v) by (apply generic_format_round; [apply fexp_correct; reflexivity|apply valid_rnd_round_mode]).
  pose proof (binary_normalize_correct 24 128 prec24 emax128 mode_NE (Ztrunc (scaled_mantissa radix2 b32_fexp v)) (cexp radix2 b32_fexp v) false) as C.
  cbv zeta in C. assert (Ev : F2R (Float radix2 (Ztrunc (scaled_mantissa radix2 b32_fexp v)) (cexp radix2 b32_fexp v)) = v) by (symmetry; exact G).
  rewrite Ev in C. rewrite (round_generic radix2 b32_fexp (round_mode mode_NE) v G) in C. rewrite S in C.
  destruct C as (C1 & C2 & _). split; assumption.
Qed.

Lemma RN_relative r : bpow radix2 (-126) <= Rabs r -> Rabs (RN r - r) <= u * Rabs r.
Proof.
  intros H. pose proof (Relative.relative_error_N_FLT radix2 (-149) 24 ltac:(reflexivity) (fun z => negb (Z.even z)) r H) as E.
  change (round radix2 (FLT_exp (-149) 24) (Znearest (fun z : Z => negb (Z.even z))) r) with (RN r) in E.
  replace (/ 2 * bpow radix2 (- (24) + 1)) with u in E; [exact E|].
  replace (bpow radix2 (- (24) + 1)) with (/ 8388608) by reflexivity. lra.
Qed.

Lemma quarter_val l : B2R (@f_quarter (B32 l)) = 1 / 4.
Proof.
  cbn [B32 f_quarter].
  assert (V : is_val (b_div (b_ofZ 1) (b_ofZ 4)) (1 / 4)).
  { apply (b_div_exact _ _ 1 4 1 (-2)); [apply (b_ofZ_correct 1); lia|apply (b_ofZ_correct 4); lia|lra| |lia|lia].
    replace (bpow radix2 (-2)) with (/ 4) by reflexivity. lra. }
  apply V.
Qed.

Theorem C74_library : accurate_powers rounding_lib.
Proof.
  assert (B100 : bpow radix2 100 = 1267650600228229401496703205376) by reflexivity.
  assert (Hr : forall r, bpow radix2 (-126) <= Rabs r <= bpow radix2 100 ->
    is_finite (b_ofR r) = true /\ Rabs (B2R (b_ofR r) - r) <= / 4194304 * Rabs r).
  { intros r [L1 L2]. rewrite B100 in L2. destruct (b_ofR_correct r L2) as [Fi E]. split; [exact Fi|].
    rewrite E. pose proof (RN_relative r L1). pose proof (Rabs_pos r). lra. }
  constructor.
  - intros x n _ _ H. apply (Hr (powerRZ (B2R x) n)). exact H.
  - intros x Fx Px. cbn [lm_powf rounding_lib]. rewrite quarter_val.
    set (r := Rpower (B2R x) (1 / 4)).
    assert (Pr : 0 < r) by apply exp_pos.
    replace (/ 4194304 * r) with (/ 4194304 * Rabs r) by (rewrite Rabs_pos_eq by lra; reflexivity). apply Hr. rewrite Rabs_pos_eq by lra.
    assert (E4 : r ^ 4 = B2R x) by (apply root4_pow; exact Px).
    assert (Lo : bpow radix2 (-149) <= B2R x).
    { rewrite <- (Rabs_pos_eq (B2R x)) by lra. apply (abs_B2R_ge_emin 24 128 x).
      destruct x; try discriminate; cbn [B2R] in Px; [lra|reflexivity]. }
    assert (Hi : B2R x < bpow radix2 128).
    { pose proof (abs_B2R_lt_emax 24 128 x) as B. pose proof (Rle_abs (B2R x)). lra. }
    rewrite <- E4 in Lo, Hi. split.
    + destruct (Rle_or_lt (bpow radix2 (-126)) r) as [L|L]; [exact L|exfalso].
      pose proof (pow4_lt r (bpow radix2 (-38)) ltac:(lra)) as H.
      assert (r < bpow radix2 (-38)) by (eapply Rlt_trans; [exact L|apply bpow_lt; lia]).
      specialize (H H0). apply (Rlt_irrefl (bpow radix2 (-38) ^ 4)).
      apply Rle_lt_trans with (r ^ 4); [|exact H]. eapply Rle_trans; [|exact Lo].
      replace (bpow radix2 (-38) ^ 4) with (bpow radix2 (-152)).
      * apply bpow_le. lia.
      * cbn [pow]. rewrite Rmult_1_r, <- !bpow_plus. reflexivity.
    + destruct (Rle_or_lt r (bpow radix2 100)) as [L|L]; [exact L|exfalso].
      pose proof (pow4_lt (bpow radix2 32) r ltac:(apply bpow_ge_0)) as H.
      assert (bpow radix2 32 < r) by (eapply Rlt_trans; [|exact L]; apply bpow_lt; lia).
      specialize (H H0). replace (bpow radix2 32 ^ 4) with (bpow radix2 128) in H.
      * lra.
      * cbn [pow]. rewrite Rmult_1_r, <- !bpow_plus. reflexivity.
Qed.
Print Assumptions C74_library.

(** ** Concrete case: the pixel of C73_concrete, at about 80 degrees: its tolerance is less than 0.03 degrees *)
Lemma pow3_le x y : 0 <= x -> x <= y -> x ^ 3 <= y ^ 3.
Proof. intros Hx H. apply pow_incr. split; assumption. Qed.

(** [mem]: a frame of the same conditions in which the pixel's raw value is [z]. *)
Lemma C74_concrete_at : forall l m (c : calib (B32 l)) mem z,
  from_data640 (B32 l) Debug datasheet640 = Ok c ->
  (forall a, In a [lay_vdd layout640; lay_ptat layout640; lay_vbe layout640; lay_gain layout640; lay_cp layout640 Zero] -> mem a = sample_mem a) ->
  SpecImage.ram mem (lay_address layout640 Zero 367) = z -> (609 <= z <= 610)%Z ->
  let cr := exactly m c in
  let s := settings_exactly (sample_settings l) in
  let i := 367%nat in
  let kst := nth (lay_basic_range layout640) (k_s_to _ cr) 0 in
  working_pixel cr layout640 s Zero mem kst i /\
  79.8 <= doc_t_o cr layout640 s Zero mem kst i <= 80.5 /\
  temperature_tolerance cr layout640 s Zero mem kst i <= 0.03.
Proof.
  intros l m c mem z Hc Hsame Hz Bz cr s i kst. pose proof datasheet640_full as Hd.
  destruct (C73_concrete l m c Hc) as (Hw & Hpl & Hwf & _ & _ & Htol). fold cr s i in Hw, Hpl, Hwf, Htol.
  set (k := ptat_640 (ee_word datasheet640)) in *.
  assert (Ek : k = ptat_640 sample_ee) by (vm_compute; reflexivity).
  destruct C72_concrete as (_ & _ & Hta & Het). cbv zeta in Hta, Het. rewrite <- Ek in Hta, Het.
  assert (Eta : doc_t_a cr layout640 sample_mem = exact_t_a k layout640 sample_mem) by (apply (exact_ta m c k); assumption).
  rewrite <- Eta in Hta. clear Eta.
  assert (Eta : doc_t_a cr layout640 mem = doc_t_a cr layout640 sample_mem).
  { unfold doc_t_a, doc_v_ptat_art, doc_delta_v, SpecImage.ram.
    rewrite !Hsame by (cbn [In]; tauto). reflexivity. }
  rewrite <- Eta in Hta. clear Eta.
  assert (Pkt : Rabs (k_t_ptat _ cr) = 338 / 8).
  { change (k_t_ptat _ cr) with (B2R (k_t_ptat _ c)).
    rewrite (proj2 (ca_k_t _ _ (wl_carries _ _ Hw))). replace (pc_k_t k) with (338 / 8) by reflexivity. apply Rabs_pos_eq. lra. }
  assert (Edv : doc_delta_v cr layout640 mem = 59 / 3168).
  { transitivity (doc_delta_v cr layout640 sample_mem); [unfold doc_delta_v, SpecImage.ram; rewrite !Hsame by (cbn [In]; tauto); reflexivity|].
    unfold cr. rewrite (exact_dv m c k) by assumption. unfold exact_delta_v, reading.
    replace (signed (sample_mem (lay_vdd layout640))) with (-13115)%Z by (vm_compute; reflexivity).
    replace (pc_vdd_25 k) with (-13056)%Z by (vm_compute; reflexivity).
    replace (pc_k_vdd k) with (-3168)%Z by (vm_compute; reflexivity). lra. }
  assert (Evd : doc_v_dd cr layout640 s mem - 33 / 10 = 59 / 3168).
  { unfold s, cr. rewrite volts. fold cr. rewrite Edv. cbn [set_correction sample_settings].
    rewrite (proj2 (b_ofZ_correct 1 ltac:(clear; lia))). lra. }
  assert (Ee : set_emissivity s = 1).
  { change (set_emissivity s) with (B2R (b_ofZ 1)). apply (proj2 (b_ofZ_correct 1 ltac:(clear; lia))). }
  destruct (C42_scalar_parameters l Debug datasheet640 c Hd Hc) as (_ & _ & _ & Vg & Vks & Vac & _ & Ekv & Ekta).
  specialize (Ekv Zero). specialize (Ekta Zero).
  assert (Pg : cal_gain _ cr = 6383) by (change (cal_gain _ cr) with (B2R (cal_gain _ c)); rewrite (proj2 Vg); reflexivity).
  assert (Pks : k_s_ta _ cr = -16 / 8192) by (change (k_s_ta _ cr) with (B2R (k_s_ta _ c)); rewrite (proj2 Vks); reflexivity).
  assert (Pac : alpha_cp _ cr Zero = 70 / 17179869184) by (change (alpha_cp _ cr Zero) with (B2R (alpha_cp _ c Zero)); rewrite (proj2 Vac); reflexivity).
  assert (Pkv : k_v_cp _ cr Zero = 4 / 8) by (change (k_v_cp _ cr Zero) with (B2R (k_v_cp _ c Zero)); rewrite (proj2 Ekv); reflexivity).
  assert (Pkta : k_ta_cp _ cr Zero = 75 / 16384) by (change (k_ta_cp _ cr Zero) with (B2R (k_ta_cp _ c Zero)); rewrite (proj2 Ekta); reflexivity).
  assert (Hnf : ~ failed (ee_word datasheet640) 11 15) by (unfold failed; vm_compute; discriminate).
  assert (Pkvp : nth i (k_v_pixels _ cr Zero) 0 = 4 / 8).
  { change (k_v_pixels _ cr Zero) with (map B2R (k_v_pixels _ c Zero)). rewrite nth_map_B2R.
    destruct (C42_k_v_pixels l Debug datasheet640 c Hd Hc Zero) as [_ H].
    destruct (H 11%nat 15%nat ltac:(clear; lia) ltac:(clear; lia)) as (x & E & V).
    change (32 * 11 + 15)%nat with i in E. rewrite (nth_error_nth _ _ _ E), (proj2 V). reflexivity. }
  assert (Pktap : nth i (k_ta_pixels _ cr Zero) 0 = 84 / 16384).
  { change (k_ta_pixels _ cr Zero) with (map B2R (k_ta_pixels _ c Zero)). rewrite nth_map_B2R.
    destruct (C40_k_ta l Debug datasheet640 c Hd Hc Zero 11 15 ltac:(clear; lia) ltac:(clear; lia) Hnf) as (x & E & V).
    change (32 * 11 + 15)%nat with i in E. rewrite (nth_error_nth _ _ _ E), (proj2 V). reflexivity. }
  assert (Pap : nth i (alpha_pixels _ cr Zero) 0 = 17348 / 137438953472).
  { change (alpha_pixels _ cr Zero) with (map B2R (alpha_pixels _ c Zero)). rewrite nth_map_B2R.
    destruct (C40_alpha l Debug datasheet640 c Hd Hc Zero 11 15 ltac:(clear; lia) ltac:(clear; lia) Hnf) as (x & E & V).
    change (32 * 11 + 15)%nat with i in E. rewrite (nth_error_nth _ _ _ E), (proj2 V). reflexivity. }
  assert (Po : nth i (offset_reference_pixels _ cr Zero) 0%Z = (-75)%Z).
  { change (offset_reference_pixels _ cr Zero) with (offset_reference_pixels _ c Zero).
    pose proof (C39_offset _ Debug datasheet640 c Hd Hc Zero 11 15 ltac:(clear; lia) ltac:(clear; lia) Hnf) as E.
    change (32 * 11 + 15)%nat with i in E. rewrite (nth_error_nth _ _ _ E). reflexivity. }
  assert (Poc : offset_reference_cp _ cr Zero = (-75)%Z).
  { change (offset_reference_cp _ cr Zero) with (offset_reference_cp _ c Zero).
    destruct (C42_integer_parameters _ Debug datasheet640 c Hd Hc) as (_ & _ & _ & _ & E & _). rewrite E. reflexivity. }
  assert (Ptgc : temperature_gradient_coefficient _ cr = Some 1).
  { change (temperature_gradient_coefficient _ cr) with (option_map B2R (temperature_gradient_coefficient _ c)).
    destruct (C42_tgc l Debug datasheet640 c Hd Hc) as [_ H].
    destruct (H ltac:(vm_compute; discriminate)) as (g & Eg & Vg'). rewrite Eg. cbn [option_map]. rewrite (proj2 Vg').
    replace (scaled (sbits (ee_word datasheet640 60) 0 8) 5) with (32 / 32) by reflexivity. f_equal. lra. }
  assert (Pkst : kst = -105 / 131072).
  { unfold kst. change (k_s_to _ cr) with (map B2R (k_s_to _ c)).
    destruct (C42_k_s_to l Debug datasheet640 c Hd Hc) as (k1 & k2 & k3 & k4 & E & _ & V & _). rewrite E.
    cbn [map nth lay_basic_range layout640]. rewrite (proj2 V). reflexivity. }
  destruct (C43_chess_and_compensation_pixels l Debug datasheet640 c Hd Hc) as (Eap & Eac & _).
  assert (Pap' : nth i (access_pattern_compensation_pixels _ cr Chess) None = None).
  { change (access_pattern_compensation_pixels _ cr Chess) with (map (option_map B2R) (access_pattern_compensation_pixels _ c Chess)).
    rewrite (map_nth (option_map B2R) _ None i). rewrite Eap, nth_repeat. reflexivity. }
  assert (Pac' : access_pattern_compensation_cp _ cr Zero Chess = None).
  { change (access_pattern_compensation_cp _ cr Zero Chess) with (option_map B2R (access_pattern_compensation_cp _ c Zero Chess)).
    rewrite Eac. reflexivity. }
  set (ta := doc_t_a cr layout640 mem : R) in *.
  (* V_ir *)
  assert (EG : doc_gain cr layout640 mem = 6383 / 6273).
  { unfold doc_gain. rewrite Pg. cbn [RealOps fdiv fofZ].
    replace (SpecImage.ram mem (lay_gain layout640)) with 6273%Z by (unfold SpecImage.ram; rewrite Hsame by (cbn [In]; tauto); vm_compute; reflexivity). reflexivity. }
  set (V := doc_v_ir cr layout640 s Zero mem i : R).
  assert (EV : V = (IZR z * (6383 / 6273) + 75 * (1 + 84 / 16384 * (ta - 25)) * (1 + 4 / 8 * (59 / 3168)))
                 - (-54 * (6383 / 6273) + 75 * (1 + 75 / 16384 * (ta - 25)) * (1 + 4 / 8 * (59 / 3168)))).
  { unfold V, doc_v_ir. rewrite Ptgc. unfold doc_compensated.
    change (set_pattern s) with Chess. change (@fofZ RealOps 0) with 0. rewrite Po, Poc, Pkvp, Pktap, Pkv, Pkta, Pap', Pac', EG, Ee.
    change (@f_3_3 RealOps) with (33 / 10). fold ta. cbn [RealOps fadd fsub fmul fdiv fofZ]. rewrite Evd.
    change (lay_address layout640 Zero i) with (lay_address layout640 Zero 367). rewrite Hz.
    replace (SpecImage.ram mem (lay_cp layout640 Zero)) with (-54)%Z by (unfold SpecImage.ram; rewrite Hsame by (cbn [In]; tauto); vm_compute; reflexivity). lra. }
  set (A := SpecImage.doc_alpha cr layout640 Zero mem i : R).
  assert (EA : A = (17348 / 137438953472 - 70 / 17179869184 * 1) * (1 + -16 / 8192 * (ta - 25))).
  { unfold A, SpecImage.doc_alpha. rewrite Ptgc. change (@fofZ RealOps 0) with 0. rewrite Pap, Pac, Pks. reflexivity. }
  set (Rr := doc_t_ar cr layout640 s mem : R).
  assert (ER : Rr = (ta + 273.15) ^ 4).
  { unfold Rr, doc_t_ar. rewrite Ee. cbn [RealOps feqb fofZ fpowi f_273_15 fadd]. fold ta.
    destruct (Req_EM_T 1 1) as [_|N]; [|contradiction]. rewrite powerRZ4. replace (27315 / 100) with 273.15 by lra. reflexivity. }
  assert (BZ : 609 <= IZR z <= 610) by (split; apply IZR_le; apply Bz).
  assert (BV : 675.21 <= V <= 676.24) by (rewrite EV; lra).
  assert (BA : 11876 / 100000000000 <= A <= 11878 / 100000000000) by (rewrite EA; lra).
  assert (BR : 9516000000 <= Rr <= 9517000000).
  { rewrite ER. split.
    - apply Rle_trans with (312.33 ^ 4); [lra|apply pow_incr; lra].
    - apply Rle_trans with (312.335 ^ 4); [apply pow_incr; lra|lra]. }
  set (x := signal cr layout640 s Zero mem i : R).
  assert (Ex : x = V / A) by reflexivity.
  assert (PA : 0 < A) by lra.
  assert (Ext : x * A = V) by (rewrite Ex; field; lra).
  assert (Bx : 5684000000 <= x <= 5694600000) by (split; apply Rmult_le_reg_r with A; try assumption; rewrite Ext; lra).
  set (w4 := uncorrected4 cr layout640 s Zero mem i : R).
  assert (Ew4 : w4 = x + Rr) by reflexivity.
  set (w := uncorrected_kelvin cr layout640 s Zero mem i : R).
  assert (Pw : 0 < w) by apply root4_pos.
  assert (Ew : w ^ 4 = w4) by (apply root4_pow; rewrite Ew4; lra).
  assert (Bw : 351 <= w <= 352).
  { split.
    - destruct (Rle_or_lt 351 w) as [L|L]; [exact L|]. pose proof (pow4_lt w 351 ltac:(lra) L). lra.
    - destruct (Rle_or_lt w 352) as [L|L]; [exact L|]. pose proof (pow4_lt 352 w ltac:(lra) L). lra. }
  set (g := 1 + kst * (w - 273.15)).
  assert (Bg : 0.9365 <= g <= 0.938) by (unfold g; rewrite Pkst; lra).
  assert (Eo : doc_t_o cr layout640 s Zero mem kst i = Rpower (x / g + Rr) (1 / 4) - 273.15).
  { change (doc_t_o cr layout640 s Zero mem kst i) with (per_pixel_temperature (FO := RealOps) V A Rr kst).
    rewrite temperature_R; [|assumption|rewrite <- Ex; lra]. unfold sensitivity_at, estimate. rewrite <- Ex.
    change (Rpower (x + Rr) (1 / 4)) with w. fold g.
    replace (V / (A * g)) with (x / g); [reflexivity|]. rewrite Ex. field. lra. }
  set (T := Rpower (x / g + Rr) (1 / 4)) in *.
  assert (Pg' : 0 < g) by lra.
  set (xg := x / g) in *. assert (Exg : xg * g = x) by (unfold xg; field; lra).
  assert (Bxg : 6059000000 <= xg <= 6081000000) by (split; apply Rmult_le_reg_r with g; try assumption; rewrite Exg; lra).
  assert (PT : 0 < T) by apply root4_pos.
  assert (ET : T ^ 4 = xg + Rr) by (apply root4_pow; lra).
  assert (BT : 353.2 <= T <= 353.5).
  { split.
    - destruct (Rle_or_lt 353.2 T) as [L|L]; [exact L|]. pose proof (pow4_lt T 353.2 ltac:(lra) L). lra.
    - destruct (Rle_or_lt T 353.5) as [L|L]; [exact L|]. pose proof (pow4_lt 353.5 T ltac:(lra) L). lra. }
  assert (EoK : object_kelvin cr layout640 s Zero mem kst i = T) by (unfold object_kelvin; rewrite Eo; ring).
  assert (Eat : ambient_tolerance cr = 2 / 25 / (338 / 8)) by (unfold ambient_tolerance; rewrite Pkt; reflexivity).
  assert (Ptol : 0 <= pixel_tolerance cr s Zero i).
  { unfold pixel_tolerance, tolerance. rewrite Ptgc, Ee, Pkt, Po, Poc, Pktap, Pkta.
    rewrite (Rabs_left (-75)), (Rabs_pos_eq (84 / 16384)), (Rabs_pos_eq (75 / 16384)), Rabs_R1 by lra. lra. }
  assert (BT3 : 44000000 <= T ^ 3 <= 44300000).
  { split.
    - apply Rle_trans with (353.1 ^ 3); [lra|apply pow_incr; lra].
    - apply Rle_trans with (353.7 ^ 3); [apply pow_incr; lra|lra]. }
  assert (BD : 0 <= radiation_tolerance cr layout640 s Zero mem i <= 1250000).
  { unfold radiation_tolerance. fold A. fold x. fold Rr. unfold background_tolerance, sensitivity_tolerance.
    rewrite Ee, Eat, Pks. destruct (Req_EM_T 1 1) as [_|N]; [|contradiction]. unfold ambient_kelvin. fold ta.
    rewrite (Rabs_left (-16 / 8192)), (Rabs_pos_eq x), (Rabs_pos_eq Rr) by lra.
    assert (B3 : 0 <= (ta + 273.15) ^ 3 <= 30500000).
    { split; [apply pow_le; lra|]. apply Rle_trans with (312.335 ^ 3); [apply pow_incr; lra|lra]. }
    assert (Bt : 0 <= pixel_tolerance cr s Zero i / A <= 675000).
    { set (tol := pixel_tolerance cr s Zero i) in *. assert (Eq : tol / A * A = tol) by (field; lra).
      split; apply Rmult_le_reg_r with A; try assumption; rewrite Eq; lra. }
    set (y3 := (ta + 273.15) ^ 3) in *. set (y1 := pixel_tolerance cr s Zero i / A) in *. lra. }
  split; [|split].
  - constructor.
    + unfold reflected_kelvin. change (set_reflected s) with (@None R). fold ta.
      replace (IZR (lay_self_heating layout640)) with 8 by reflexivity. lra.
    + rewrite Ee. lra.
    + rewrite Pks. apply Rabs_le. lra.
    + fold ta. rewrite Pks. apply Rabs_le. lra.
    + fold A. lra.
    + intros tgc Et. rewrite Ptgc in Et. apply some_inj in Et. subst tgc. rewrite Pac, Pap.
      rewrite !Rabs_pos_eq by lra. lra.
    + fold w4. rewrite Ew4. lra.
    + fold w4 x. rewrite Ew4, Rabs_pos_eq by lra. lra.
    + fold w. rewrite Pkst, Rabs_left by lra. lra.
    + fold w. rewrite Pkst. apply Rabs_le. lra.
    + rewrite EoK. lra.
    + fold w4. rewrite Ew4. lra.
    + rewrite EoK, ET. lra.
  - rewrite Eo. lra.
  - unfold temperature_tolerance. rewrite EoK. set (D := radiation_tolerance cr layout640 s Zero mem i) in *.
    assert (P3 : 0 < T ^ 3) by lra. set (t3 := T ^ 3) in *.
    assert (D / t3 <= 0.029); [|lra]. apply Rmult_le_reg_r with t3; [exact P3|].
    replace (D / t3 * t3) with D by (field; lra). lra.
Qed.

Example C74_concrete : forall l m (c : calib (B32 l)),
  from_data640 (B32 l) Debug datasheet640 = Ok c ->
  let cr := exactly m c in
  let s := settings_exactly (sample_settings l) in
  let i := 367%nat in
  let kst := nth (lay_basic_range layout640) (k_s_to _ cr) 0 in
  working_pixel cr layout640 s Zero sample_mem kst i /\
  79.8 <= doc_t_o cr layout640 s Zero sample_mem kst i <= 80.5 /\
  temperature_tolerance cr layout640 s Zero sample_mem kst i <= 0.03.
Proof.
  intros l m c Hc. apply (C74_concrete_at l m c sample_mem 609 Hc); [reflexivity|vm_compute; reflexivity|clear; lia].
Qed.
