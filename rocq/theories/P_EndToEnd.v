(** * P_EndToEnd: C75 -- accuracy of every image of a driver, from [new] on. *)
From Verif Require Import Base FloatOps Register Bus Camera Cam640 Cam641 Calc Driver SpecRegister SpecEeprom SpecHamming ParseFacts
  SpecDriver DriverFacts StepFacts SpecCall P_Image P_Bus P_Frames SeenFacts P_Seen P_Calc Dumps Ee641Words
  SpecCamera SpecImage ImageFacts B32 B32Facts RealOps BoundFacts FiniteFacts FrameRateFacts
  FieldFacts Spec640 Ee640 Ee640Facts Ee640Closed P_Ee640 P_Ee640Real Spec641 Ee641 Ee641Closed Ee641Facts P_Ee641 P_Ee641Real P_Usable
  SpecFinite AccuracyFacts SpecAccuracy P_Finite P_Accuracy P_PixelAccuracy RealFacts SpecPhysics SpecTemperature ObjectFacts P_Temperature Driver.
From Coq Require Import Reals Lra.
From Flocq Require Import Core BinarySingleNaN.
Open Scope R_scope.

(** ** The resolution correction always belongs to some resolution *)
Section Correction.
Context {FO : FloatOps} (p : profile) {B ER EW : Type} (bs : bus B ER EW).
Notation driver := (driver (FO := FO) (B := B) (ER := ER) (EW := EW)).

Definition has_correction (d : driver) : Prop :=
  exists cur, d_resolution_correction d =
    resolution_correction _ (cam _ (d_calibration d)) (cal_resolution _ (d_calibration d)) cur.

Lemma correction_same (d d' : driver) : has_correction d -> d_resolution_correction d' = d_resolution_correction d ->
  d_calibration d' = d_calibration d -> has_correction d'.
Proof. intros [cur E] E1 E2. exists cur. rewrite E1, E2. exact E. Qed.

Lemma prim_correction (d d' : driver) : prim bs d d' -> has_correction d -> has_correction d'.
Proof.
  intros H Hc.
  destruct H as [d r d' H|d r d' H|v d r d' Hv H|v d r d' Hv H|sp d r d' H|d t|d t|d t];
    try (apply (correction_same d); [exact Hc|reflexivity|reflexivity]).
  - unfold status_register_ in H. destruct (read_register bs (d_address d) STATUS_ADDRESS (d_bus d)) as [r0 w0].
    inversion H; subst. apply (correction_same d); [exact Hc|reflexivity|reflexivity].
  - unfold control_register_ in H.
    destruct (read_register bs (d_address d) CONTROL_ADDRESS (d_bus d)) as [r0 w0] eqn:Hr. apply read_register_spec in Hr.
    destruct Hr as [(v & -> & Hv & _)|(e & x & -> & Hx & _)]; cbn [bindS] in H.
    + rewrite update_control_register_spec in H by exact Hv. inversion H; subst. eexists. reflexivity.
    + inversion H; subst. apply (correction_same d); [exact Hc|reflexivity|reflexivity].
  - unfold set_status_register in H. destruct (write_register bs (d_address d) STATUS_ADDRESS v (d_bus d)) as [r0 w0].
    inversion H; subst. apply (correction_same d); [exact Hc|reflexivity|reflexivity].
  - unfold set_control_register in H. rewrite update_control_register_spec in H by exact Hv. cbn [bindS] in H.
    destruct (write_register bs _ CONTROL_ADDRESS v _) as [r0 w0] in H. inversion H; subst. eexists. reflexivity.
  - unfold drv_read_ram in H.
    destruct (read_ram bs (cam _ (d_calibration d)) (d_height d) (d_address d) (d_access_pattern d) sp
               (d_pixel_buffer d) (d_bus d)) as [[r0 buf'] w'].
    inversion H; subst. apply (correction_same d); [exact Hc|reflexivity|reflexivity].
Qed.

Lemma run_correction (d : driver) ops : has_correction d -> has_correction (run p bs d ops).
Proof. apply (prims_inv bs has_correction prim_correction). apply run_prims. Qed.
End Correction.

(** ** Every image is accurate *)
(** After any history, for every call that computes an image: each pixel of the
    subpage is within its tolerance of the documented formula over the reals (on the
    decoded calibration data, the settings in effect and the words the camera
    delivered), if these are in the working range. *)
Definition images_accurate {l} (m : camera RealOps) p {B ER EW} (bs : bus B ER EW) (k : ptat_constants) lay (d0 : driver (FO := B32 l)) : Prop :=
  forall ops o dest r d' dest',
    let d := run p bs d0 ops in
    destination o = Some dest -> step p bs d o = (r, d', dest') -> computed o r ->
    is_finite (effective_emissivity d) = true ->
    exists raw sp pre frame post,
      trace (d_bus d') = trace (d_bus d) ++ pre ++ frame ++ post /\
      asks (d_address d) o raw sp pre /\
      completed (d_address d) (frame_reads lay sp (d_access_pattern d)) frame /\
      acknowledges (d_address d) o pre post r /\
      forall mem, (forall x, word (mem x)) -> Forall (shows mem) frame ->
      let c := exactly m (d_calibration d0) in
      let s := settings_exactly (settings_of d) in
      let kst := nth (lay_basic_range lay) (k_s_to _ c) 0 in
      plausible_frame k lay mem -> working_frame c lay s mem ->
      forall i, (i < length dest)%nat -> measured lay sp (d_access_pattern d) i = true ->
      working_coefficients c lay s mem (nth i (k_v_pixels _ c sp) 0) (nth i (k_ta_pixels _ c sp) 0) ->
      (temperature_gradient_coefficient _ c <> None -> working_coefficients c lay s mem (k_v_cp _ c sp) (k_ta_cp _ c sp)) ->
      exists x, nth_error dest' i = Some x /\
      if raw then
        is_finite x = true /\ Rabs (B2R x - doc_v_ir c lay s sp mem i) <= pixel_tolerance c s sp i
      else
        accurate_powers l -> (forall t, reflected_temperature d = Some t -> is_finite t = true) ->
        working_pixel c lay s sp mem kst i ->
        is_finite x = true /\ Rabs (B2R x - doc_t_o c lay s sp mem kst i) <= temperature_tolerance c lay s sp mem kst i.

Lemma images_from_calibration {l} m p {B ER EW} (bs : bus B ER EW) k lay (d0 : driver (FO := B32 l)) :
  usable d0 lay -> Forall byte (d_pixel_buffer d0) -> has_correction d0 ->
  well_calibrated (d_calibration d0) k -> sensible (d_calibration d0) lay ->
  images_accurate m p bs k lay d0.
Proof.
  intros Hu Hb Hrc Hcal Hsn ops o dest r d' dest' d Ho Hs Hc Fe.
  destruct (run_usable p bs lay d0 ops Hu Hb) as [Hu' _]. fold d in Hu'.
  destruct (run_later p bs lay d0 ops (usable_wf _ _ Hu)) as (_ & ((_ & K2 & _) & _) & _). fold d in K2.
  destruct (run_correction p bs d0 ops Hrc) as [cur Hres]. fold d in Hres.
  destruct (C55_image_values p bs lay d o dest r d' dest' Hu' Ho Hs Hc) as (raw & sp & pre & frame & post & Et & Ha & Hf & Hk' & Hv).
  exists raw, sp, pre, frame, post. split; [exact Et|]. split; [exact Ha|]. split; [exact Hf|]. split; [exact Hk'|].
  intros mem Hm Hsh. cbv zeta. intros Hpl Hwf i Hi Hmi Hpx Hcp.
  destruct (Hv mem Hm Hsh) as [_ [Hl Himg]]. rewrite K2 in Himg.
  destruct (nth_error dest i) as [old|] eqn:En; [|apply nth_error_None in En; clear - En Hi; lia].
  specialize (Himg i old En). cbn [set_pattern settings_of] in Himg. rewrite Hmi in Himg.
  eexists. split; [exact Himg|]. unfold doc_pixel.
  assert (Hw3 : within (set_correction (settings_of d)) 3).
  { cbn [set_correction settings_of]. rewrite Hres. destruct Hu' as [Hd _]. inversion Hd as [E|E]; cbn [resolution_correction]; apply correction_small. }
  assert (Hcp' : temperature_gradient_coefficient _ (d_calibration d0) <> None ->
    working_coefficients (exactly m (d_calibration d0)) lay (settings_exactly (settings_of d)) mem
      (k_v_cp _ (exactly m (d_calibration d0)) sp) (k_ta_cp _ (exactly m (d_calibration d0)) sp)).
  { intros Hn. apply Hcp. unfold exactly. cbn [temperature_gradient_coefficient].
    destruct (temperature_gradient_coefficient _ (d_calibration d0)); [discriminate|]. exfalso. apply Hn. reflexivity. }
  destruct raw.
  - apply (near_pixel m (d_calibration d0) k lay (settings_of d) _ mem); assumption.
  - intros Hlib Frf Hwp.
    assert (Ek : nth (lay_basic_range lay) (k_s_to _ (exactly m (d_calibration d0))) 0 =
                 B2R (nth (lay_basic_range lay) (k_s_to _ (d_calibration d0)) (b_ofZ 0))).
    { change (k_s_to _ (exactly m (d_calibration d0))) with (map B2R (k_s_to _ (d_calibration d0))). apply nth_map_B2R. }
    rewrite Ek in Hwp |- *.
    apply (near_temperature m (d_calibration d0) k lay (settings_of d) _ mem); try assumption.
    destruct Hu as [Hd _]. inversion Hd; [left|right]; reflexivity.
Qed.

(** ** The decoded constants of the MLX90640, any alpha_PTAT *)
(** The decoder rounds alpha_PTAT down to a whole number (C44); everything else is as in [ptat_640]. *)
Definition decoded_ptat_640 (ee : nat -> Z) : ptat_constants := {|
  pc_alpha := IZR (bits (ee 0x10%nat) 12 4 / 4 + 8);
  pc_k_v := pc_k_v (ptat_640 ee); pc_k_t := pc_k_t (ptat_640 ee); pc_v_25 := pc_v_25 (ptat_640 ee);
  pc_vdd_25 := pc_vdd_25 (ptat_640 ee); pc_k_vdd := pc_k_vdd (ptat_640 ee)
|}.

Lemma decoded_640 l p data (c : calib (B32 l)) : full_dump data -> from_data640 (B32 l) p data = Ok c ->
  (8 <= Z.abs (sbits (ee_word data 0x32) 0 10))%Z -> (sbits (ee_word data 0x33) 8 8 <> 0)%Z ->
  well_calibrated c (decoded_ptat_640 (ee_word data)).
Proof.
  intros Hd Hc Ht Hk.
  destruct (ptat_640_bounds data Hd) as (_ & B2 & B3).
  destruct (C42_integer_parameters _ p data c Hd Hc) as (E1 & E2 & _).
  destruct (C42_scalar_parameters l p data c Hd Hc) as (V1 & V2 & V3 & _).
  destruct (C44_alpha_ptat l p data c Hd Hc) as [Va _].
  constructor; try assumption.
  - apply (C67_decoded_640 l p data c Hd Hc Hk).
  - constructor; cbn [decoded_ptat_640 ptat_640 pc_alpha pc_k_v pc_k_t pc_v_25 pc_vdd_25 pc_k_vdd]; assumption.
  - rewrite (decoded_is (B32 l) p data c Hd Hc). reflexivity.
  - cbn [decoded_ptat_640 pc_alpha].
    pose proof (bits_range (ee_word data 0x10) 12 4 ltac:(lia)) as R1. change (2 ^ 4)%Z with 16%Z in R1.
    set (f := bits (ee_word data 0x10) 12 4) in *.
    assert (0 <= f / 4 <= 3)%Z by (split; [apply Z.div_pos; lia|]; assert (f / 4 < 4)%Z by (apply Z.div_lt_upper_bound; lia); lia).
    split; apply IZR_le; lia.
  - cbn [decoded_ptat_640 ptat_640 pc_k_t]. apply (eighths _ 1 128).
    pose proof (sbits_range (ee_word data 0x32) 0 10 ltac:(lia)) as R. change (2 ^ (10 - 1))%Z with 512%Z in R. clear - R Ht. lia.
Qed.

Theorem C75_images_640 : forall l m p B ER EW (bs : bus B ER EW) w a (d0 : driver (FO := B32 l)) w',
  new bs (calib640_from_i2c (B32 l) p bs) 24 1536 w a = (Ok d0, w') ->
  exists data rest, trace (d_bus d0) = trace w ++ EvRead a [0x24; 0x00]%Z data None :: rest /\
  let ee := ee_word data in
  (* |K_T_PTAT| at least 1, K_V_DD not zero *)
  (8 <= Z.abs (sbits (ee 0x32%nat) 0 10) -> sbits (ee 0x33%nat) 8 8 <> 0 ->
   images_accurate m p bs (decoded_ptat_640 ee) layout640 d0)%Z.
Proof.
  intros l m p B ER EW bs w a d0 w' H. apply C29_new_640 in H. destruct H as (evs & Ht & H).
  remember (Ok d0) as r eqn:E. destruct H as [| | | |data c evs r Hl Hb Hc H]; try discriminate E.
  destruct H as [v d1 Hv Hf|]; [|discriminate E]. injection E as ->.
  pose proof (full_of_exact data Hb Hl) as Hd. destruct (C62_calibration_640 _ p data c Hd Hc) as [H1 H2].
  destruct (fresh_usable layout640 24 1536 a c v w' d0 H1 H2 ltac:(vm_compute; lia) ltac:(vm_compute; lia) Hf) as [Hu Hby].
  destruct Hf as (Ew & Ea & Ec & _ & _ & _ & _ & _ & _ & Er).
  exists data. eexists. split; [rewrite Ew; exact Ht|]. cbv zeta. intros Hkt Hkd.
  apply images_from_calibration; try assumption.
  - eexists. rewrite Ec. exact Er.
  - rewrite Ec. apply (decoded_640 l p data c Hd Hc Hkt Hkd).
  - rewrite Ec. apply (C74_decoded_640 l p data c Hd Hc).
Qed.
Print Assumptions C75_images_640.

Theorem C75_images_641 : forall l m p B ER EW (bs : bus B ER EW) w a (d0 : driver (FO := B32 l)) w',
  new bs (calib641_from_i2c (B32 l) p bs) 12 384 w a = (Ok d0, w') ->
  exists data rest, trace (d_bus d0) = trace w ++ EvRead a [0x24; 0x00]%Z data None :: rest /\
  forall dw, corrected data dw ->
  (* alpha_PTAT at least 8, |K_T_PTAT| at least 1, K_V_DD not zero, the low half of V_PTAT_25 has 5 bits *)
  (1024 <= dw 0x2C%nat -> dw 0x29%nat < 32 -> 8 <= Z.abs (sext 11 (dw 0x2A%nat)) -> sext 11 (dw 0x27%nat) <> 0 ->
   images_accurate m p bs (ptat_641 dw) layout641 d0)%Z.
Proof.
  intros l m p B ER EW bs w a d0 w' H. apply C29_new_641 in H. destruct H as (evs & Ht & H).
  remember (Ok d0) as r eqn:E. destruct H as [| | | |data c evs r Hl Hb Hc H]; try discriminate E.
  destruct H as [v d1 Hv Hf|]; [|discriminate E]. injection E as ->.
  pose proof (full_of_exact data Hb Hl) as Hd. destruct (C62_calibration_641 _ p data c Hd Hc) as [H1 H2].
  destruct (fresh_usable layout641 12 384 a c v w' d0 H1 H2 ltac:(vm_compute; lia) ltac:(vm_compute; lia) Hf) as [Hu Hby].
  destruct Hf as (Ew & Ea & Ec & _ & _ & _ & _ & _ & _ & Er).
  exists data. eexists. split; [rewrite Ew; exact Ht|]. intros dw Hw Ha Hlow Hkt Hkd.
  apply images_from_calibration; try assumption.
  - eexists. rewrite Ec. exact Er.
  - rewrite Ec. apply (C73_decoded_641 l p data dw c Hd Hw Hc Ha Hlow Hkt Hkd).
  - rewrite Ec. apply (C74_decoded_641 l p data dw c Hd Hw Hc).
Qed.
Print Assumptions C75_images_641.

(** ** C72 for any alpha_PTAT: accurate with respect to the rounded constant, which
    makes every reading too warm when K_T_PTAT is positive *)
Theorem C72_ambient_640_any_alpha : forall l p B ER EW (bs : bus B ER EW) w a (d0 : driver (FO := B32 l)) w',
  new bs (calib640_from_i2c (B32 l) p bs) 24 1536 w a = (Ok d0, w') ->
  exists data rest, trace (d_bus d0) = trace w ++ EvRead a [0x24; 0x00]%Z data None :: rest /\
  let ee := ee_word data in
  (* K_T_PTAT and K_V_DD are not zero *)
  (sbits (ee 0x32%nat) 0 10 <> 0 -> sbits (ee 0x33%nat) 8 8 <> 0 ->
   ambient_accurate p bs (decoded_ptat_640 ee) layout640 d0)%Z.
Proof.
  intros l p B ER EW bs w a d0 w' H. apply C29_new_640 in H. destruct H as (evs & Ht & H).
  remember (Ok d0) as r eqn:E. destruct H as [| | | |data c evs r Hl Hb Hc H]; try discriminate E.
  destruct H as [v d1 Hv Hf|]; [|discriminate E]. injection E as ->.
  pose proof (full_of_exact data Hb Hl) as Hd. destruct (C62_calibration_640 _ p data c Hd Hc) as [H1 H2].
  destruct (fresh_usable layout640 24 1536 a c v w' d0 H1 H2 ltac:(vm_compute; lia) ltac:(vm_compute; lia) Hf) as [Hu Hby].
  destruct Hf as (Ew & Ea & Ec & _).
  exists data. eexists. split; [rewrite Ew; exact Ht|]. cbv zeta. intros Hkt Hkd.
  destruct (ptat_640_bounds data Hd) as (B1 & B2 & B3).
  destruct (C42_integer_parameters _ p data c Hd Hc) as (E1 & E2 & _).
  destruct (C42_scalar_parameters l p data c Hd Hc) as (V1 & V2 & V3 & _).
  destruct (C44_alpha_ptat l p data c Hd Hc) as [Va _].
  apply ambient_from_calibration; try assumption.
  - rewrite Ec. constructor; cbn [decoded_ptat_640 ptat_640 pc_alpha pc_k_v pc_k_t pc_v_25 pc_vdd_25 pc_k_vdd]; assumption.
  - cbn [decoded_ptat_640 pc_alpha].
    pose proof (bits_range (ee_word data 0x10) 12 4 ltac:(lia)) as R1. change (2 ^ 4)%Z with 16%Z in R1.
    set (f := bits (ee_word data 0x10) 12 4) in *.
    assert (0 <= f / 4 <= 3)%Z by (split; [apply Z.div_pos; lia|]; assert (f / 4 < 4)%Z by (apply Z.div_lt_upper_bound; lia); lia).
    split; apply IZR_le; lia.
  - cbn [decoded_ptat_640 ptat_640 pc_k_t]. pose proof (sbits_range (ee_word data 0x32) 0 10 ltac:(lia)) as R. change (2 ^ (10 - 1))%Z with 512%Z in R.
    pose proof (eighth _ 1024 Hkt ltac:(clear - R; lia)) as B4. lra.
  - cbn [decoded_ptat_640 ptat_640 pc_k_vdd]. pose proof (sbits_range (ee_word data 0x33) 8 8 ltac:(lia)) as R. change (2 ^ (8 - 1))%Z with 128%Z in R.
    clear - R Hkd. lia.
Qed.
Print Assumptions C72_ambient_640_any_alpha.

Theorem C72_fraction_reads_warmer : forall ee mem,
  let k := ptat_640 ee in let kd := decoded_ptat_640 ee in
  0 < pc_k_t k -> plausible_frame k layout640 mem ->
  (bits (ee 0x10%nat) 12 4 mod 4 = 0)%Z /\ exact_t_a kd layout640 mem = exact_t_a k layout640 mem \/
  (bits (ee 0x10%nat) 12 4 mod 4 <> 0)%Z /\ exact_t_a k layout640 mem < exact_t_a kd layout640 mem.
Proof.
  intros ee mem k kd Ht [Hp Hb Hv Hi].
  set (f := bits (ee 0x10%nat) 12 4).
  pose proof (bits_range (ee 0x10%nat) 12 4 ltac:(lia)) as R1. fold f in R1. change (2 ^ 4)%Z with 16%Z in R1.
  pose proof (Z.div_mod f 4 ltac:(lia)) as Ef. pose proof (Z.mod_pos_bound f 4 ltac:(lia)) as Bf.
  assert (Er : IZR f = 4 * IZR (f / 4) + IZR (f mod 4)) by (rewrite <- mult_IZR, <- plus_IZR, <- Ef; reflexivity).
  assert (Pq : 0 <= IZR (f / 4)) by (apply IZR_le, Z.div_pos; lia).
  unfold exact_t_a, exact_v_ptat_art. change (exact_delta_v kd layout640 mem) with (exact_delta_v k layout640 mem).
  change (pc_k_v kd) with (pc_k_v k). change (pc_v_25 kd) with (pc_v_25 k). change (pc_k_t kd) with (pc_k_t k).
  change (pc_alpha kd) with (IZR (f / 4 + 8)). change (pc_alpha k) with (IZR f / 4 + 8).
  rewrite plus_IZR.
  set (P := reading mem (lay_ptat layout640)) in *. set (V := reading mem (lay_vbe layout640)) in *.
  apply abs_split in Hi. set (y := pc_k_v k * exact_delta_v k layout640 mem) in *.
  destruct (Z.eq_dec (f mod 4) 0) as [E|E]; [left|right]; (split; [exact E|]).
  - replace (IZR f / 4 + 8) with (IZR (f / 4) + 8); [reflexivity|]. rewrite Er, E. field.
  - assert (Hlt : IZR (f / 4) + 8 < IZR f / 4 + 8).
    { rewrite Er. assert (1 <= IZR (f mod 4)) by (apply IZR_le; lia). lra. }
    set (q1 := IZR (f / 4) + 8) in *. set (q2 := IZR f / 4 + 8) in *.
    assert (Pq1 : 0 < P * q1) by (apply Rmult_lt_0_compat; unfold q1; lra).
    assert (P12 : P * q1 < P * q2) by (apply Rmult_lt_compat_l; assumption).
    assert (H1 : / (P * q2 + V) < / (P * q1 + V)) by (apply Rinv_lt_contravar; [apply Rmult_lt_0_compat; lra|lra]).
    assert (H2 : P / (P * q2 + V) * 262144 < P / (P * q1 + V) * 262144).
    { apply Rmult_lt_compat_r; [lra|]. unfold Rdiv. apply Rmult_lt_compat_l; assumption. }
    apply Rplus_lt_compat_r. unfold Rdiv at 1 4. apply Rmult_lt_compat_r; [apply Rinv_0_lt_compat; exact Ht|].
    unfold Rminus. apply Rplus_lt_compat_r. unfold Rdiv at 1 3. apply Rmult_lt_compat_r; [apply Rinv_0_lt_compat; lra|exact H2].
Qed.
Print Assumptions C72_fraction_reads_warmer.

(** ** Concrete case: the camera of C67_concrete is created and its EEPROM meets the hypotheses of C75_images_640 *)
Example C75_concrete :
  match new sample_bus (calib640_from_i2c (B32 any_lib) Debug sample_bus) 24 1536 (Build_world tt []) 0x33 with
  | (Ok d, _) =>
      match trace (d_bus d) with
      | EvRead _ [0x24; 0x00]%Z data None :: _ =>
          (Z.leb 8 (Z.abs (sbits (ee_word data 0x32) 0 10))) && negb (Z.eqb (sbits (ee_word data 0x33) 8 8) 0) &&
          Z.eqb (bits (ee_word data 0x10) 12 4) 4
      | _ => false
      end
  | _ => false
  end = true.
Proof. vm_compute. reflexivity. Qed.
