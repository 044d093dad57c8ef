(** * P_Steady: C108 for the driver -- two images of the same scene, in f32 arithmetic, rounding included. *)
From Verif Require Import Base FloatOps Register Bus Camera Cam640 Cam641 Calc Driver SpecRegister SpecEeprom SpecHamming ParseFacts
  SpecDriver DriverFacts StepFacts SpecCall P_Image P_Bus P_Frames
  SpecCamera SpecImage B32 RealOps Ee640 Ee641 Spec641 Ee641Facts
  SpecAccuracy AccuracyFacts P_Accuracy P_PixelAccuracy RealFacts SpecPhysics P_Physics SpecTemperature ObjectFacts P_Temperature P_EndToEnd P_Noise Dumps SpecFinite P_Finite P_Ee640 Driver.
From Coq Require Import Reals Lra Psatz.
From Flocq Require Import Core BinarySingleNaN.
Open Scope R_scope.

(** ** How far apart two images may be *)
Section Bound.
Context (c : calib RealOps) (lay : layout) (s : settings (FO := RealOps)) (sp : subpage) (mem mem' : Z -> Z) (i : nat).
(** Change of the pixel's raw value in the raw image. *)
Definition signal_change : R :=
  IZR (ram mem' (lay_address lay sp i) - ram mem (lay_address lay sp i)) * doc_gain c lay mem / set_emissivity s.
(** What it does to the temperature of an object of at least [cold] kelvin. *)
Definition temperature_change (cold : R) : R :=
  Rabs signal_change / (3 * doc_alpha c lay sp mem i * cold ^ 3) *
  (1 + Rabs (slope c lay * signal c lay s sp mem i) / (3 * cold ^ 3)).
End Bound.

Lemma working_object (c : calib RealOps) lay s sp mem i : working_pixel c lay s sp mem (slope c lay) i ->
  let eps := set_emissivity s in
  let alpha := doc_alpha c lay sp mem i : R in
  let t0 := uncorrected_kelvin c lay s sp mem i - 273.15 in
  let t := doc_t_o c lay s sp mem (slope c lay) i : R in
  0 < eps /\ 0 < alpha /\
  explains_signal alpha eps (doc_v_ir c lay s sp mem i) (reflected c lay s mem) (doc_t_a c lay mem) t0 /\
  3 / 4 * alpha <= sensitivity_at alpha (slope c lay) t0 /\
  explains_signal (sensitivity_at alpha (slope c lay) t0) eps (doc_v_ir c lay s sp mem i) (reflected c lay s mem) (doc_t_a c lay mem) t /\
  kelvin t0 = uncorrected_kelvin c lay s sp mem i /\ kelvin t = object_kelvin c lay s sp mem (slope c lay) i.
Proof.
  intros [W1 W2 W3 W4 W5 W6 W7 W8 W9 W10 W11 W12 W13] eps alpha t0 t.
  assert (Pe : 0 < eps) by (unfold eps; lra). assert (Pa : 0 < alpha) by (unfold alpha; lra).
  assert (P4 : 0 < uncorrected4 c lay s sp mem i) by (pose proof (pow_lt 150 4 ltac:(lra)); lra).
  set (v := doc_v_ir c lay s sp mem i : R) in *. set (ta := doc_t_a c lay mem : R) in *. set (tr := reflected c lay s mem) in *.
  assert (Eu : uncorrected4 c lay s sp mem i = v / alpha + t_ar (FO := RealOps) ta tr eps) by reflexivity.
  assert (Pu := P4). rewrite Eu in Pu.
  assert (Hsens : 3 / 4 * alpha <= sensitivity_at alpha (slope c lay) t0).
  { unfold sensitivity_at, t0. pose proof (abs_split _ _ W10) as W. nra. }
  assert (Ps : 0 < sensitivity_at alpha (slope c lay) t0) by lra.
  assert (Et : t = Rpower (v / sensitivity_at alpha (slope c lay) t0 + t_ar (FO := RealOps) ta tr eps) (1 / 4) - 273.15).
  { change t with (per_pixel_temperature (FO := RealOps) v alpha (t_ar (FO := RealOps) ta tr eps) (slope c lay)).
    rewrite temperature_R by assumption. reflexivity. }
  split; [exact Pe|]. split; [exact Pa|]. split.
  { apply explains_root; [exact Pa|lra|exact Pu|reflexivity]. }
  split; [exact Hsens|]. split.
  { apply explains_root; [exact Ps|lra| |exact Et].
    destruct (Rlt_dec 0 (v / sensitivity_at alpha (slope c lay) t0 + t_ar (FO := RealOps) ta tr eps)) as [L|L]; [exact L|exfalso].
    unfold object_kelvin in W11. fold t in W11. rewrite Et in W11. rewrite Rpower_nonpos in W11 by exact L. lra. }
  split; [unfold kelvin, t0; ring|reflexivity].
Qed.

Lemma working_change (c : calib RealOps) lay s sp mem mem' i cold :
  same_conditions lay sp mem mem' ->
  working_pixel c lay s sp mem (slope c lay) i -> working_pixel c lay s sp mem' (slope c lay) i ->
  0 < cold ->
  cold <= uncorrected_kelvin c lay s sp mem i -> cold <= uncorrected_kelvin c lay s sp mem' i ->
  cold <= object_kelvin c lay s sp mem (slope c lay) i -> cold <= object_kelvin c lay s sp mem' (slope c lay) i ->
  Rabs (doc_t_o c lay s sp mem' (slope c lay) i - doc_t_o c lay s sp mem (slope c lay) i)
  <= temperature_change c lay s sp mem mem' i cold.
Proof.
  intros Hs Hw Hw' Hc U U' O O'.
  destruct (working_object _ _ _ _ _ _ Hw) as (Pe & Pa & E0 & S0 & E & K0 & K).
  destruct (working_object _ _ _ _ _ _ Hw') as (_ & _ & E0' & S0' & E' & K0' & K').
  destruct (C108_frames c lay s sp mem mem' i Hs (Rgt_not_eq _ _ Pe)) as [_ H].
  assert (Ea : doc_alpha c lay sp mem' i = doc_alpha c lay sp mem i /\ reflected c lay s mem' = reflected c lay s mem /\
    doc_t_a c lay mem' = doc_t_a c lay mem).
  { pose proof (same_ambient c lay sp mem mem' Hs) as Eta. unfold doc_alpha, reflected. rewrite Eta. repeat split. }
  destruct Ea as (Ea & Er & Et). rewrite Ea in S0'. rewrite Ea, Er, Et in E0', E'.
  rewrite <- K0 in U. rewrite <- K0' in U'. rewrite <- K in O. rewrite <- K' in O'.
  assert (P1 : 0 < sensitivity_at (doc_alpha c lay sp mem i) (slope c lay) (uncorrected_kelvin c lay s sp mem i - 273.15))
    by (eapply Rlt_le_trans; [|exact S0]; apply Rmult_lt_0_compat; [lra|exact Pa]).
  assert (P1' : 0 < sensitivity_at (doc_alpha c lay sp mem i) (slope c lay) (uncorrected_kelvin c lay s sp mem' i - 273.15))
    by (eapply Rlt_le_trans; [|exact S0']; apply Rmult_lt_0_compat; [lra|exact Pa]).
  eapply Rle_trans; [exact (H _ _ _ _ cold cold Pe Pa E0 E0' P1 P1' E E' Hc U U' Hc O O')|].
  unfold noise_bound, temperature_change.
  change (IZR (ram mem' (lay_address lay sp i) - ram mem (lay_address lay sp i)) * doc_gain c lay mem / set_emissivity s)
    with (signal_change c lay s sp mem mem' i).
  unfold signal. set (alpha := doc_alpha c lay sp mem i : R) in *. set (v := doc_v_ir c lay s sp mem i : R) in *.
  set (sens := sensitivity_at alpha (slope c lay) (uncorrected_kelvin c lay s sp mem i - 273.15)) in *.
  set (sens' := sensitivity_at alpha (slope c lay) (uncorrected_kelvin c lay s sp mem' i - 273.15)) in *.
  pose proof (pow_lt cold 3 Hc) as P3.
  replace (slope c lay * (v / alpha)) with (slope c lay * v * / alpha) by (field; lra).
  rewrite (Rabs_mult (slope c lay * v)), (Rabs_pos_eq (/ alpha)) by (left; apply Rinv_0_lt_compat; exact Pa).
  set (kv := Rabs (slope c lay * v)). assert (Pkv : 0 <= kv) by apply Rabs_pos.
  set (dv := Rabs (signal_change c lay s sp mem mem' i)). assert (Pdv : 0 <= dv) by apply Rabs_pos.
  clearbody kv dv sens sens' alpha.
  assert (Q : 0 < 3 * alpha * cold ^ 3) by (apply Rmult_lt_0_compat; lra).
  assert (D : forall x, 3 / 4 * alpha <= x -> / (4 * x * cold ^ 3) <= / (3 * alpha * cold ^ 3)).
  { intros x Hx. apply Rinv_le_contravar; [exact Q|]. apply Rmult_le_compat_r; lra. }
  assert (I : 0 < / (3 * alpha * cold ^ 3)) by (apply Rinv_0_lt_compat; exact Q).
  assert (N : forall x, 3 / 4 * alpha <= x -> 0 < / (4 * x * cold ^ 3)).
  { intros x Hx. apply Rinv_0_lt_compat. apply Rmult_lt_0_compat; [lra|exact P3]. }
  replace (dv / (3 * alpha * cold ^ 3) * (1 + kv * / alpha / (3 * cold ^ 3)))
    with (dv * (1 + kv * / (3 * alpha * cold ^ 3)) * / (3 * alpha * cold ^ 3)) by (field; lra).
  unfold Rdiv. pose proof (D sens S0) as D1. pose proof (D sens' S0') as D2. pose proof (N sens S0) as N1. pose proof (N sens' S0') as N2.
  apply Rmult_le_compat; [|lra| |exact D2].
  - apply Rmult_le_pos; [exact Pdv|]. pose proof (Rmult_le_pos _ _ Pkv (Rlt_le _ _ N1)). lra.
  - apply Rmult_le_compat_l; [exact Pdv|]. apply Rplus_le_compat_l. apply Rmult_le_compat_l; [exact Pkv|exact D1].
Qed.

(** ** Any two images of a driver *)
(** Two calls at any two points of a driver's life (after the histories [ops] and [ops']) that compute an image, with
    the same emissivity, reflected temperature, resolution and access pattern in effect.  If both are raw images or both
    temperatures, of the same subpage, and the frames are of the same conditions, then a pixel's values differ by at most
    what its raw words say, plus the rounding tolerances. *)
Definition images_steady {l} (m : camera RealOps) p {B ER EW} (bs : bus B ER EW) (k : ptat_constants) lay (d0 : driver (FO := B32 l)) : Prop :=
  forall ops ops' o o' dest dest' r r' e e' out out',
    let d := run p bs d0 ops in
    let d' := run p bs d0 ops' in
    destination o = Some dest -> step p bs d o = (r, e, out) -> computed o r ->
    destination o' = Some dest' -> step p bs d' o' = (r', e', out') -> computed o' r' ->
    settings_of d' = settings_of d -> is_finite (effective_emissivity d) = true ->
    exists raw sp pre frame post raw' sp' pre' frame' post',
      (trace (d_bus e) = trace (d_bus d) ++ pre ++ frame ++ post /\ asks (d_address d) o raw sp pre /\
       completed (d_address d) (frame_reads lay sp (d_access_pattern d)) frame /\ acknowledges (d_address d) o pre post r) /\
      (trace (d_bus e') = trace (d_bus d') ++ pre' ++ frame' ++ post' /\ asks (d_address d') o' raw' sp' pre' /\
       completed (d_address d') (frame_reads lay sp' (d_access_pattern d')) frame' /\ acknowledges (d_address d') o' pre' post' r') /\
      (raw' = raw -> sp' = sp ->
       forall mem mem', (forall x, word (mem x)) -> (forall x, word (mem' x)) -> Forall (shows mem) frame -> Forall (shows mem') frame' ->
       let c := exactly m (d_calibration d0) in
       let s := settings_exactly (settings_of d) in
       let kst := slope c lay in
       same_conditions lay sp mem mem' ->
       plausible_frame k lay mem -> working_frame c lay s mem ->
       forall i, (i < length dest)%nat -> (i < length dest')%nat -> measured lay sp (d_access_pattern d) i = true ->
       working_coefficients c lay s mem (nth i (k_v_pixels _ c sp) 0) (nth i (k_ta_pixels _ c sp) 0) ->
       (temperature_gradient_coefficient _ c <> None -> working_coefficients c lay s mem (k_v_cp _ c sp) (k_ta_cp _ c sp)) ->
       exists x x', nth_error out i = Some x /\ nth_error out' i = Some x' /\
       if raw then
         is_finite x = true /\ is_finite x' = true /\
         Rabs (B2R x' - B2R x) <= Rabs (signal_change c lay s sp mem mem' i) + 2 * pixel_tolerance c s sp i
       else
         accurate_powers l -> (forall t, reflected_temperature d = Some t -> is_finite t = true) ->
         working_pixel c lay s sp mem kst i -> working_pixel c lay s sp mem' kst i ->
         is_finite x = true /\ is_finite x' = true /\
         forall cold, 0 < cold ->
         cold <= uncorrected_kelvin c lay s sp mem i -> cold <= uncorrected_kelvin c lay s sp mem' i ->
         cold <= object_kelvin c lay s sp mem kst i -> cold <= object_kelvin c lay s sp mem' kst i ->
         Rabs (B2R x' - B2R x) <= temperature_change c lay s sp mem mem' i cold
           + temperature_tolerance c lay s sp mem kst i + temperature_tolerance c lay s sp mem' kst i).

Lemma three_steps (x x' y y' t t' b : R) : Rabs (x - y) <= t -> Rabs (x' - y') <= t' -> Rabs (y' - y) <= b -> Rabs (x' - x) <= b + t + t'.
Proof.
  intros H H' D. apply abs_split in H. apply abs_split in H'. apply abs_split in D. apply Rabs_le. lra.
Qed.

(** What decides whether a frame and its coefficients are in the working range is the same in both frames. *)
Lemma conditions_frame (c : calib RealOps) lay s sp k mem mem' : same_conditions lay sp mem mem' ->
  (plausible_frame k lay mem -> plausible_frame k lay mem') /\
  (working_frame c lay s mem -> working_frame c lay s mem') /\
  (forall kv kta, working_coefficients c lay s mem kv kta -> working_coefficients c lay s mem' kv kta).
Proof.
  intros Hs. pose proof (same_ambient c lay sp mem mem' Hs) as Eta. destruct Hs as (A1 & A2 & A3 & A4 & A5).
  assert (Ev : doc_v_dd c lay s mem' = doc_v_dd c lay s mem)
    by (unfold doc_v_dd, doc_delta_v, ram; rewrite A1; reflexivity).
  assert (Eg : doc_gain c lay mem' = doc_gain c lay mem) by (unfold doc_gain, ram; rewrite A4; reflexivity).
  split; [|split].
  - intros [P1 P2 P3 P4]. split; unfold exact_delta_v, reading in *; rewrite ?A1, ?A2, ?A3; assumption.
  - intros [P1 P2 P3 P4 P5]. split; rewrite ?Eta, ?Ev, ?Eg, ?A4; assumption.
  - intros kv kta [P1 P2 P3 P4]. split; rewrite ?Eta, ?Ev; assumption.
Qed.

Lemma steady_of_accurate {l} m p {B ER EW} (bs : bus B ER EW) k lay (d0 : driver (FO := B32 l)) :
  images_accurate m p bs k lay d0 -> images_steady m p bs k lay d0.
Proof.
  intros H ops ops' o o' dest dest' r r' e e' out out' d d' Ho Hs Hc Ho' Hs' Hc' Eset Fe.
  assert (Fe' : is_finite (effective_emissivity d') = true).
  { unfold effective_emissivity. pose proof (f_equal (fun s => set_emissivity s) Eset) as E1. cbn [settings_of set_emissivity] in E1. rewrite E1. exact Fe. }
  assert (Erf : reflected_temperature d' = reflected_temperature d) by exact (f_equal (fun s => set_reflected s) Eset).
  assert (Eap : d_access_pattern d' = d_access_pattern d) by exact (f_equal (fun s => set_pattern s) Eset).
  destruct (H ops o dest r e out Ho Hs Hc Fe) as (raw & sp & pre & frame & post & T1 & T2 & T3 & T4 & HV).
  destruct (H ops' o' dest' r' e' out' Ho' Hs' Hc' Fe') as (raw' & sp' & pre' & frame' & post' & T1' & T2' & T3' & T4' & HV').
  exists raw, sp, pre, frame, post, raw', sp', pre', frame', post'.
  split; [repeat split; assumption|]. split; [repeat split; assumption|].
  intros -> -> mem mem' Hm Hm' Sh Sh' c s kst Hcond Hpl Hwf i Hi Hi' Hmi Hpx Hcp.
  specialize (HV mem Hm Sh). specialize (HV' mem' Hm' Sh'). cbv zeta in HV, HV'. fold d d' in HV, HV'. rewrite Eset in HV'. fold c s in HV, HV'.
  destruct (conditions_frame c lay s sp k mem mem' Hcond) as (C1 & C2 & C3).
  destruct (HV Hpl Hwf i Hi Hmi Hpx Hcp) as (x & Hx & X).
  rewrite Eap in HV'.
  destruct (HV' (C1 Hpl) (C2 Hwf) i Hi' Hmi (C3 _ _ Hpx) (fun n => C3 _ _ (Hcp n))) as (x' & Hx' & X').
  exists x, x'. split; [exact Hx|]. split; [exact Hx'|]. destruct raw.
  - destruct X as [F1 X], X' as [F2 X']. split; [exact F1|]. split; [exact F2|].
    rewrite <- (Rabs_pos_eq 2) at 1 by lra.
    assert (Hn : set_emissivity s <> 0).
    { destruct Hwf as [_ _ _ _ [W _]]. intros E. rewrite E, Rabs_R0 in W. lra. }
    pose proof (signal_differs c lay s sp mem mem' i Hcond Hn) as D. rewrite (Rabs_pos_eq 2) by lra.
    apply Rle_trans with (Rabs (signal_change c lay s sp mem mem' i) + pixel_tolerance c s sp i + pixel_tolerance c s sp i); [|lra].
    apply (three_steps _ _ (doc_v_ir c lay s sp mem i) (doc_v_ir c lay s sp mem' i)); [exact X|exact X'|].
    unfold signal_change. rewrite <- D. right. reflexivity.
  - intros Hl Frf Hw Hw'. rewrite Erf in X'.
    destruct (X Hl Frf Hw) as [F1 Y]. destruct (X' Hl Frf Hw') as [F2 Y']. split; [exact F1|]. split; [exact F2|].
    intros cold P0 P1 P2 P3 P4.
    apply (three_steps _ _ (doc_t_o c lay s sp mem kst i) (doc_t_o c lay s sp mem' kst i)); [exact Y|exact Y'|].
    apply (working_change c lay s sp mem mem' i cold Hcond Hw Hw' P0 P1 P2 P3 P4).
Qed.

Theorem C108_images_640 : forall l m p B ER EW (bs : bus B ER EW) w a (d0 : driver (FO := B32 l)) w',
  new bs (calib640_from_i2c (B32 l) p bs) 24 1536 w a = (Ok d0, w') ->
  exists data rest, trace (d_bus d0) = trace w ++ EvRead a [0x24; 0x00]%Z data None :: rest /\
  let ee := ee_word data in
  (* |K_T_PTAT| at least 1, K_V_DD not zero *)
  (8 <= Z.abs (sbits (ee 0x32%nat) 0 10) -> sbits (ee 0x33%nat) 8 8 <> 0 ->
   images_steady m p bs (decoded_ptat_640 ee) layout640 d0)%Z.
Proof.
  intros l m p B ER EW bs w a d0 w' Hn. destruct (C75_images_640 l m p B ER EW bs w a d0 w' Hn) as (data & rest & Et & H).
  exists data, rest. split; [exact Et|]. intros ee H1 H2. apply steady_of_accurate. exact (H H1 H2).
Qed.
Print Assumptions C108_images_640.

Theorem C108_images_641 : forall l m p B ER EW (bs : bus B ER EW) w a (d0 : driver (FO := B32 l)) w',
  new bs (calib641_from_i2c (B32 l) p bs) 12 384 w a = (Ok d0, w') ->
  exists data rest, trace (d_bus d0) = trace w ++ EvRead a [0x24; 0x00]%Z data None :: rest /\
  forall dw, corrected data dw ->
  (* alpha_PTAT at least 8, |K_T_PTAT| at least 1, K_V_DD not zero, the low half of V_PTAT_25 has 5 bits *)
  (1024 <= dw 0x2C%nat -> dw 0x29%nat < 32 -> 8 <= Z.abs (sext 11 (dw 0x2A%nat)) -> sext 11 (dw 0x27%nat) <> 0 ->
   images_steady m p bs (ptat_641 dw) layout641 d0)%Z.
Proof.
  intros l m p B ER EW bs w a d0 w' Hn. destruct (C75_images_641 l m p B ER EW bs w a d0 w' Hn) as (data & rest & Et & H).
  exists data, rest. split; [exact Et|]. intros dw Hd H1 H2 H3 H4. apply steady_of_accurate. exact (H dw Hd H1 H2 H3 H4).
Qed.
Print Assumptions C108_images_641.

(** ** Concrete case: the datasheet's camera, its frame, and one in which the pixel of C74_concrete reads one count more *)
Definition noisy_mem (a : Z) : Z := (if a =? lay_address layout640 Zero 367 then sample_mem a + 1 else sample_mem a)%Z.

Example C108_images_concrete : forall l m (c : calib (B32 l)),
  from_data640 (B32 l) Debug datasheet640 = Ok c ->
  let cr := exactly m c in
  let s := settings_exactly (sample_settings l) in
  let k := ptat_640 (ee_word datasheet640) in
  let i := 367%nat in
  same_conditions layout640 Zero sample_mem noisy_mem /\
  plausible_frame k layout640 sample_mem /\ working_frame cr layout640 s sample_mem /\
  working_coefficients cr layout640 s sample_mem (nth i (k_v_pixels _ cr Zero) 0) (nth i (k_ta_pixels _ cr Zero) 0) /\
  working_coefficients cr layout640 s sample_mem (k_v_cp _ cr Zero) (k_ta_cp _ cr Zero) /\
  working_pixel cr layout640 s Zero sample_mem (slope cr layout640) i /\
  working_pixel cr layout640 s Zero noisy_mem (slope cr layout640) i /\
  temperature_tolerance cr layout640 s Zero sample_mem (slope cr layout640) i <= 0.03 /\
  temperature_tolerance cr layout640 s Zero noisy_mem (slope cr layout640) i <= 0.03.
Proof.
  intros l m c Hc cr s k i.
  assert (Hs : same_conditions layout640 Zero sample_mem noisy_mem) by (vm_compute; repeat split).
  destruct (C73_concrete l m c Hc) as (_ & Hpl & Hwf & H4 & H5 & _).
  destruct (C74_concrete l m c Hc) as (W & _ & T).
  destruct (C74_concrete_at l m c noisy_mem 610 Hc) as (W' & _ & T').
  { intros a Ha. cbn [In] in Ha. repeat (destruct Ha as [<-|Ha]; [vm_compute; reflexivity|]). destruct Ha. }
  { vm_compute. reflexivity. } { clear. lia. }
  split; [exact Hs|]. split; [exact Hpl|]. split; [exact Hwf|]. split; [exact H4|]. split; [exact H5|].
  split; [exact W|]. split; [exact W'|]. split; [exact T|exact T'].
Qed.
