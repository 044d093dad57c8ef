(** * P_Indep: C64 -- what images do not depend on. *)
From Verif Require Import Base FloatOps Register Bus Camera Cam640 Cam641 Calc Driver SpecCamera SpecImage SpecCall
  SpecDriver StepFacts Demo P_Image SpecIndep.

Section Low.
Context {FO : FloatOps} (p : profile) (c c' : calib FO) (H : agree c c').

Lemma delta_v_agree E v : delta_v p (E := E) c' v = delta_v p c v.
Proof. unfold delta_v. rewrite (ag_k_v_dd _ _ H), (ag_v_dd_25 _ _ H). reflexivity. Qed.
Lemma common_agree E rc e r : common_new p (E := E) rc e c' r = common_new p rc e c r.
Proof.
  unfold common_new, v_dd, v_ptat_art, ambient_temperature.
  rewrite delta_v_agree, (ag_v_dd_0 _ _ H), (ag_alpha_ptat _ _ H), (ag_k_v_ptat _ _ H), (ag_v_ptat_25 _ _ H),
    (ag_k_t_ptat _ _ H), (ag_gain _ _ H). reflexivity.
Qed.
Lemma cp_agree cm r sp ap : compensation_pixel_term c' cm r sp ap = compensation_pixel_term c cm r sp ap.
Proof.
  unfold compensation_pixel_term. rewrite (ag_tgc _ _ H), (ag_offset_cp _ _ H), (ag_k_v_cp _ _ H), (ag_k_ta_cp _ _ H),
    (ag_pattern_cp _ _ H). reflexivity.
Qed.
Lemma acp_agree sp : alpha_compensation_pixel c' sp = alpha_compensation_pixel c sp.
Proof. unfold alpha_compensation_pixel. rewrite (ag_tgc _ _ H), (ag_alpha_cp _ _ H). reflexivity. Qed.

(** The functions of the low-level interface. *)
Theorem C64_low_level : forall E emissivity t_r correction pixel_data ram sp ap mask dest t_a,
  raw_pixels_to_ir_data p (E := E) c' emissivity correction pixel_data ram sp ap mask dest =
    raw_pixels_to_ir_data p c emissivity correction pixel_data ram sp ap mask dest /\
  raw_ir_to_temperatures (E := E) c' emissivity t_a t_r sp mask dest =
    raw_ir_to_temperatures c emissivity t_a t_r sp mask dest /\
  raw_pixels_to_temperatures p (E := E) c' emissivity t_r correction pixel_data ram sp ap mask dest =
    raw_pixels_to_temperatures p c emissivity t_r correction pixel_data ram sp ap mask dest.
Proof.
  intros. unfold raw_pixels_to_ir_data, raw_ir_to_temperatures, raw_pixels_to_temperatures,
    sensitivity_correction_coefficient.
  rewrite common_agree, acp_agree, (ag_offset _ _ H), (ag_k_v _ _ H), (ag_k_ta _ _ H), (ag_alpha _ _ H), (ag_pattern _ _ H),
    (ag_cam _ _ H), (ag_k_s_to _ _ H), (ag_k_s_ta _ _ H).
  split; [|split]; [|reflexivity|]; destruct (common_new p correction emissivity c ram); cbn [bind]; try reflexivity;
    rewrite cp_agree; reflexivity.
Qed.
End Low.
Print Assumptions C64_low_level.

Section Calls.
Context {FO : FloatOps} (p : profile) {B ER EW : Type} (bs : bus B ER EW).
Notation driver := (driver (FO := FO) (B := B) (ER := ER) (EW := EW)).
Notation op := (op (FO := FO)).
Notation err := (error ER EW).
Implicit Types d : driver.

(** The same call on the driver with the other calibration. *)
Definition carried {A} (c' : calib FO) (r : A * driver) : A * driver := (fst r, recalibrated c' (snd r)).
Definition carriedi {A} (c' : calib FO) (r : A * driver * list (F FO)) : A * driver * list (F FO) :=
  (fst (fst r), recalibrated c' (snd (fst r)), snd r).
Definition fine c' d : Prop := agree (d_calibration d) c'.
(** Methods that commute with the change of calibration and keep the calibration. *)
Definition blind {A} (f : driver -> m A) : Prop := forall c' d, fine c' d ->
  f (recalibrated c' d) = carried c' (f d) /\ d_calibration (snd (f d)) = d_calibration d.
Definition blindi {A} (f : driver -> mi A) : Prop := forall c' d, fine c' d ->
  f (recalibrated c' d) = carriedi c' (f d) /\ d_calibration (snd (fst (f d))) = d_calibration d.

Lemma blind_ret {A} (r : res err A) : blind (fun d => (r, d)).
Proof. intros c' d _. split; reflexivity. Qed.
Lemma blind_bindS {A A'} (f : driver -> m A) (k : A -> driver -> m A') :
  blind f -> (forall a, blind (k a)) -> blind (fun d => bindS (f d) k).
Proof.
  intros Hf Hk c' d Hd. destruct (Hf c' d Hd) as [E1 E2]. unfold bindS at 1. rewrite E1.
  unfold bindS. destruct (f d) as [r d1]. cbn [carried fst snd] in *.
  destruct r as [a|e| |]; try (split; [reflexivity|exact E2]).
  assert (Hd1 : fine c' d1) by (unfold fine; rewrite E2; exact Hd).
  destruct (Hk a c' d1 Hd1) as [E3 E4]. split; [exact E3|congruence].
Qed.

Lemma blind_status : blind (status_register_ bs).
Proof.
  intros c' d Hd. unfold status_register_. cbn [recalibrated d_address d_bus].
  destruct (read_register bs (d_address d) STATUS_ADDRESS (d_bus d)). split; reflexivity.
Qed.
Lemma blind_set_status v : blind (set_status_register bs v).
Proof.
  intros c' d Hd. unfold set_status_register. cbn [recalibrated d_address d_bus].
  destruct (write_register bs (d_address d) STATUS_ADDRESS v (d_bus d)). split; reflexivity.
Qed.
Lemma blind_update v : blind (update_control_register (B := B) (ER := ER) (EW := EW) v).
Proof.
  intros c' d Hd. unfold update_control_register. cbn [recalibrated d_calibration d_access_pattern].
  rewrite (ag_cam _ _ Hd), (ag_resolution _ _ Hd).
  destruct (ctl_resolution v) as [r|e| |]; try (split; reflexivity).
  destruct (ctl_access_pattern v) as [ap|e| |]; split; reflexivity.
Qed.
Lemma blind_control : blind (control_register_ bs).
Proof.
  intros c' d Hd. unfold control_register_. cbn [recalibrated d_address d_bus].
  destruct (read_register bs (d_address d) CONTROL_ADDRESS (d_bus d)) as [r w].
  apply (blind_bindS (fun d1 => (r, with_bus d1 w))); [|intros a|exact Hd].
  - intros c1 d1 _. split; reflexivity.
  - apply blind_bindS; [apply blind_update|intros; apply blind_ret].
Qed.
Lemma blind_set_control v : blind (set_control_register bs v).
Proof.
  apply blind_bindS; [apply blind_update|]. intros _ c' d Hd. cbn [recalibrated d_address d_bus].
  destruct (write_register bs (d_address d) CONTROL_ADDRESS v (d_bus d)). split; reflexivity.
Qed.
Lemma blind_set_field {V} rd wr (getter : Z -> res err V) setter eqb v :
  blind rd -> (forall x, blind (wr x)) -> blind (set_field rd wr getter setter eqb v).
Proof.
  intros Hg Hs. apply blind_bindS; [exact Hg|]. intros x.
  apply blind_bindS; [apply blind_ret|]. intros old. destruct (eqb old v); [apply blind_ret|apply Hs].
Qed.
Lemma blind_read_ram sp : blind (drv_read_ram bs sp).
Proof.
  intros c' d Hd. unfold drv_read_ram. cbn [recalibrated d_calibration d_height d_address d_access_pattern d_pixel_buffer d_bus].
  rewrite (ag_cam _ _ Hd).
  destruct (read_ram bs _ _ _ _ _ _ _) as [[r buf] w]. split; reflexivity.
Qed.
Lemma blind_poll fuel : forall s, blind (poll bs fuel s).
Proof.
  induction fuel as [|n IH]; intros s; cbn [poll]; destruct (new_data s); try apply blind_ret.
  apply blind_bindS; [apply blind_status|]. intros v. apply IH.
Qed.
Lemma blind_lift {A} (g : A -> out (FO := FO)) (f : driver -> m A) : blind f -> blindi (fun d => lift g (f d)).
Proof.
  intros Hf c' d Hd. destruct (Hf c' d Hd) as [E1 E2]. unfold lift. rewrite E1. destruct (f d) as [r d1]. split; [reflexivity|exact E2].
Qed.
Lemma blind_lifti {A} (g : A -> out (FO := FO)) (f : driver -> mi A) : blindi f -> blindi (fun d => lifti g (f d)).
Proof.
  intros Hf c' d Hd. destruct (Hf c' d Hd) as [E1 E2]. unfold lifti. rewrite E1. destruct (f d) as [[r d1] dest]. split; [reflexivity|exact E2].
Qed.
Lemma blindi_ret {A} (r : res err A) dest : blindi (fun d => (r, d, dest)).
Proof. intros c' d _. split; reflexivity. Qed.
Lemma blindi_fail {A A'} (r : res err A) dest : blindi (fun d => fail_image (A' := A') r d dest).
Proof. destruct r; apply blindi_ret. Qed.
Lemma blindi_then {A A'} (f : driver -> m A) (k : res err A -> driver -> mi A') :
  blind f -> (forall r, blindi (k r)) -> blindi (fun d => let '(r, d) := f d in k r d).
Proof.
  intros Hf Hk c' d Hd. destruct (Hf c' d Hd) as [E1 E2]. rewrite E1. destruct (f d) as [r d1]. cbn [carried fst snd] in *.
  assert (Hd1 : fine c' d1) by (unfold fine; rewrite E2; exact Hd).
  destruct (Hk r c' d1 Hd1) as [E3 E4]. split; [exact E3|congruence].
Qed.
Lemma blindi_store {A} (r : driver -> res err (F FO * list (F FO))) dest (k : driver -> list (F FO) -> mi A) :
  (forall c' d, fine c' d -> r (recalibrated c' d) = r d) -> (forall dst, blindi (fun d => k d dst)) ->
  blindi (fun d => store_image (r d) d dest k).
Proof.
  intros Hr Hk c' d Hd. rewrite (Hr c' d Hd). unfold store_image.
  destruct (r d) as [[t dst]|e| |]; try (split; reflexivity).
  change (with_ambient (recalibrated c' d) (Some t)) with (recalibrated c' (with_ambient d (Some t))).
  apply (Hk dst c' (with_ambient d (Some t))). exact Hd.
Qed.
Lemma calc_ir_agree ram sp dest c' d : fine c' d -> calc_ir p (recalibrated c' d) ram sp dest = calc_ir p d ram sp dest.
Proof.
  intros Hd. unfold calc_ir.
  cbn [recalibrated d_calibration d_emissivity d_resolution_correction d_pixel_buffer d_access_pattern].
  rewrite (ag_cam _ _ Hd). apply (C64_low_level p _ _ Hd err _ None _ _ _ _ _ _ _ (fofZ 0)).
Qed.
Lemma calc_temperatures_agree ram sp dest c' d : fine c' d ->
  calc_temperatures p (recalibrated c' d) ram sp dest = calc_temperatures p d ram sp dest.
Proof.
  intros Hd. unfold calc_temperatures.
  cbn [recalibrated d_calibration d_emissivity d_resolution_correction d_pixel_buffer d_access_pattern d_reflected].
  rewrite (ag_cam _ _ Hd). apply (C64_low_level p _ _ Hd err _ _ _ _ _ _ _ _ _ (fofZ 0)).
Qed.
Lemma blindi_subpage sp dest : blindi (generate_image_subpage_to p bs sp dest).
Proof.
  apply blindi_then; [apply blind_read_ram|]. intros [ram|e| |]; try apply blindi_fail; try apply blindi_ret.
  apply (blindi_store (fun d => calc_temperatures p d ram sp dest)); [intros; apply calc_temperatures_agree; assumption|].
  intros. apply blindi_ret.
Qed.
Lemma blindi_raw sp dest : blindi (generate_raw_image_subpage_to p bs sp dest).
Proof.
  apply blindi_then; [apply blind_read_ram|]. intros [ram|e| |]; try apply blindi_ret.
  apply (blindi_store (fun d => calc_ir p d ram sp dest)); [intros; apply calc_ir_agree; assumption|].
  intros. apply blindi_ret.
Qed.
Lemma blindi_if_ready dest : blindi (generate_image_if_ready p bs dest).
Proof.
  apply blindi_then; [apply blind_status|]. intros [v|e| |]; try apply blindi_ret.
  destruct (new_data v); [|apply blindi_ret].
  destruct (last_updated_subpage v) as [sp|e| |]; try apply blindi_ret.
  apply blindi_then; [apply blind_read_ram|]. intros [ram|e| |]; try apply blindi_ret.
  apply (blindi_store (fun d => calc_temperatures p d ram sp dest)); [intros; apply calc_temperatures_agree; assumption|].
  intros dst. apply (blindi_then (set_status_register bs (reset_new_data v)) (fun r3 d => (do _ <- r3; Ok true, d, dst)));
    [apply blind_set_status|]. intros r. apply blindi_ret.
Qed.

Lemma step_blind o : blindi (fun d => step p bs d o).
Proof.
  assert (Hset : forall V (g : Z -> res err V) st eqb v, blindi (fun d => lift U (set_control_field bs g st eqb v d))).
  { intros. apply blind_lift. apply (blind_set_field (control_register_ bs) (set_control_register bs));
      [apply blind_control|apply blind_set_control]. }
  assert (Hget : forall V (f : V -> out) (g : Z -> res err V), blindi (fun d => lift f (bindS (control_register_ bs d) (fun r d => (g r, d))))).
  { intros. apply (blind_lift f (fun d => bindS (control_register_ bs d) (fun r d => (g r, d)))).
    apply blind_bindS; [apply blind_control|intros; apply blind_ret]. }
  destruct o; cbn [step]; try apply Hset; try apply blindi_ret;
    try apply (Hget _ _ (fun r => Ok _)); try apply (Hget _ _ (fun r => _)).
  - apply blind_lift. apply blind_bindS; [apply blind_status|intros; apply blind_ret].
  - apply blind_lift. apply blind_bindS; [apply blind_status|].
    intros v. destruct (new_data v); apply blind_ret.
  - apply blind_lift. apply blind_bindS; [apply blind_status|]. intros. apply blind_set_status.
  - apply blind_lift. apply blind_bindS; [apply blind_status|intros; apply blind_ret].
  - apply blind_lift. apply (blind_set_field (status_register_ bs) (set_status_register bs));
      [apply blind_status|apply blind_set_status].
  - intros c' d Hd. split; reflexivity.
  - intros c' d Hd. split; reflexivity.
  - intros c' d Hd. split; [|reflexivity]. unfold use_default_emissivity, carriedi.
    cbn [recalibrated d_calibration fst snd]. rewrite (ag_emissivity _ _ Hd). reflexivity.
  - intros c' d Hd. split; reflexivity.
  - intros c' d Hd. split; reflexivity.
  - intros c' d Hd. split; reflexivity.
  - intros c' d Hd. split; [|reflexivity]. unfold drv_height, carriedi. cbn [recalibrated d_calibration fst snd].
    rewrite (ag_cam _ _ Hd). reflexivity.
  - intros c' d Hd. split; [|reflexivity]. unfold drv_width, carriedi. cbn [recalibrated d_calibration fst snd].
    rewrite (ag_cam _ _ Hd). reflexivity.
  - apply blind_lifti, blindi_raw.
  - apply blind_lifti, blindi_subpage.
  - apply blind_lifti. unfold generate_image_to. apply (blindi_then (last_measured_subpage bs)).
    + apply blind_bindS; [apply blind_status|intros; apply blind_ret].
    + intros [sp|e| |]; try apply blindi_ret. apply blindi_subpage.
  - apply blind_lifti, blindi_if_ready.
  - apply blind_lift. apply blind_bindS; [apply blind_status|]. intros v.
    apply blind_bindS; [apply blind_set_status|]. intros _. apply blind_poll.
Qed.

(** A call returns the same, leaves the same image and makes the same transactions. *)
Theorem C64_calls : forall c' d o r d1 dest1, agree (d_calibration d) c' ->
  step p bs d o = (r, d1, dest1) ->
  step p bs (recalibrated c' d) o = (r, recalibrated c' d1, dest1).
Proof. intros c' d o r d1 dest1 H E. destruct (step_blind o c' d H) as [E1 _]. rewrite E1, E. reflexivity. Qed.
Print Assumptions C64_calls.

(** So does every history of calls. *)
Theorem C64_histories : forall c' d ops, agree (d_calibration d) c' ->
  run p bs (recalibrated c' d) ops = recalibrated c' (run p bs d ops) /\
  forall o, step_out p bs (run p bs (recalibrated c' d) ops) o = step_out p bs (run p bs d ops) o /\
            snd (step p bs (run p bs (recalibrated c' d) ops) o) = snd (step p bs (run p bs d ops) o).
Proof.
  intros c' d ops H.
  assert (G : run p bs (recalibrated c' d) ops = recalibrated c' (run p bs d ops) /\
              d_calibration (run p bs d ops) = d_calibration d).
  { revert d H. induction ops as [|o ops IH]; intros d H; [split; reflexivity|]. unfold run in *. cbn [fold_left].
    destruct (step_blind o c' d H) as [E1 E2].
    assert (E3 : step_state p bs (recalibrated c' d) o = recalibrated c' (step_state p bs d o)).
    { unfold step_state. rewrite E1. reflexivity. }
    rewrite E3. destruct (IH (step_state p bs d o)) as [E4 E5].
    - unfold step_state. rewrite E2. exact H.
    - split; [exact E4|]. rewrite E5. exact E2. }
  destruct G as [G1 G2]. split; [exact G1|]. intros o. rewrite G1.
  destruct (step_blind o c' (run p bs d ops)) as [E _]; [unfold fine; rewrite G2; exact H|].
  unfold step_out. rewrite E. split; reflexivity.
Qed.
Print Assumptions C64_histories.

(** And so does construction. *)
Theorem C64_construction : forall (c c' : calib FO) height num_bytes w a, agree c c' ->
  new_with_calibration bs height num_bytes w a c' =
    (match fst (new_with_calibration bs height num_bytes w a c) with
     | Ok d => Ok (recalibrated c' d) | Err e => Err e | Panic => Panic | Diverge => Diverge end,
     snd (new_with_calibration bs height num_bytes w a c)).
Proof.
  intros c c' height num_bytes w a H. unfold new_with_calibration.
  destruct (read_register bs a CONTROL_ADDRESS w) as [r w'].
  destruct r as [v|e| |]; try reflexivity. cbn [bind fst snd].
  destruct (ctl_resolution v) as [x|e| |]; try reflexivity. cbn [bind].
  destruct (ctl_access_pattern v) as [ap|e| |]; try reflexivity. cbn [bind].
  rewrite (ag_cam _ _ H), (ag_resolution _ _ H), (ag_emissivity _ _ H). reflexivity.
Qed.
Print Assumptions C64_construction.
End Calls.

(** ** "[failed_pixels]: these pixels should be skipped during temperature calculations" *)
Definition with_flags {FO : FloatOps} (flags : list bool) (c : calib FO) : calib FO := {|
  cam := cam _ c; k_v_dd := k_v_dd _ c; v_dd_25 := v_dd_25 _ c; cal_resolution := cal_resolution _ c;
  v_dd_0 := v_dd_0 _ c; k_v_ptat := k_v_ptat _ c; k_t_ptat := k_t_ptat _ c; v_ptat_25 := v_ptat_25 _ c;
  alpha_ptat := alpha_ptat _ c; cal_gain := cal_gain _ c; k_s_ta := k_s_ta _ c;
  corner_temperatures := corner_temperatures _ c; k_s_to := k_s_to _ c; alpha_correction := alpha_correction _ c;
  cal_emissivity := cal_emissivity _ c; offset_reference_pixels := offset_reference_pixels _ c;
  offset_reference_cp := offset_reference_cp _ c; alpha_pixels := alpha_pixels _ c; alpha_cp := alpha_cp _ c;
  k_v_pixels := k_v_pixels _ c; k_v_cp := k_v_cp _ c; k_ta_pixels := k_ta_pixels _ c; k_ta_cp := k_ta_cp _ c;
  temperature_gradient_coefficient := temperature_gradient_coefficient _ c;
  access_pattern_compensation_pixels := access_pattern_compensation_pixels _ c;
  access_pattern_compensation_cp := access_pattern_compensation_cp _ c;
  failed_pixels := flags; outlier_pixels := flags |}.

(** Marking any set of pixels as failed and outliers changes no image. *)
Theorem C64_refuted_failed_pixels_are_skipped : forall FO p B ER EW (bs : bus B ER EW) (d : driver (FO := FO)) flags o r d1 dest1,
  step p bs d o = (r, d1, dest1) ->
  exists d2, step p bs (recalibrated (with_flags flags (d_calibration d)) d) o = (r, d2, dest1).
Proof.
  intros FO p B ER EW bs d flags o r d1 dest1 E. eexists.
  eapply (C64_calls p bs); [constructor; reflexivity|exact E].
Qed.
Print Assumptions C64_refuted_failed_pixels_are_skipped.

(** All pixels of this camera are marked as failed, yet a frame overwrites the whole destination. *)
Example C64_concrete :
  match demo_driver 12 384 demo641 0x0009 0x0901 with
  | Some d =>
      let d' := recalibrated (with_flags (repeat true 192) (d_calibration d)) d in
      let '(r, _, dest') := generate_image_if_ready Debug (toy_bus never never) (repeat (-1000 : F ZFO) 192) d' in
      r = Ok true /\ forallb (fun v => negb (v =? -1000)) dest' = true /\ length dest' = 192%nat
  | None => False
  end.
Proof. vm_compute. repeat split. Qed.

(** The hypothesis holds between calibrations that really differ. *)
Example C64_agree_concrete :
  agree demo641 (with_flags (repeat true 192) demo641) /\ failed_pixels _ demo641 <> repeat true 192.
Proof. split; [constructor; reflexivity|discriminate]. Qed.
