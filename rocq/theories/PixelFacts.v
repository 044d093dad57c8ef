(** * PixelFacts: calibrations that differ in one pixel only. *)
From Verif Require Import Base FloatOps Register Bus Camera Calc CalcFacts SpecReplay SpecIndep SpecWear Driver.

(** ** One pixel's calibration values matter for that pixel only *)
Lemma but_refl {A} k (l : list A) : but k l l.
Proof. split; reflexivity. Qed.
Lemma but_zip {A C} k (l l' : list A) (r r' : list C) : but k l l' -> but k r r' -> but k (zip l r) (zip l' r').
Proof.
  intros [L1 N1] [L2 N2]. split.
  - unfold zip. rewrite !combine_length, L1, L2. reflexivity.
  - intros i Hi. rewrite !nth_error_zip, (N1 i Hi), (N2 i Hi). reflexivity.
Qed.
Lemma but_masked {A X} k (f : A -> X -> A) dest dest' items items' mask : but k dest dest' -> but k items items' ->
  but k (masked_for_each f dest items mask) (masked_for_each f dest' items' mask).
Proof.
  intros [L1 N1] [L2 N2]. split; [rewrite !mfe_length; exact L1|].
  intros i Hi. rewrite !mfe_nth, (N1 i Hi), (N2 i Hi). reflexivity.
Qed.

Section Low.
Context {FO : FloatOps} (p : profile) (k : nat) (c c' : calib FO) (H : agree_but k c c').

Lemma delta_v_but E v : delta_v p (E := E) c' v = delta_v p c v.
Proof. unfold delta_v. rewrite (ab_k_v_dd _ _ _ H), (ab_v_dd_25 _ _ _ H). reflexivity. Qed.
Lemma common_but E rc e r : common_new p (E := E) rc e c' r = common_new p rc e c r.
Proof.
  unfold common_new, v_dd, v_ptat_art, ambient_temperature.
  rewrite delta_v_but, (ab_v_dd_0 _ _ _ H), (ab_alpha_ptat _ _ _ H), (ab_k_v_ptat _ _ _ H), (ab_v_ptat_25 _ _ _ H),
    (ab_k_t_ptat _ _ _ H), (ab_gain _ _ _ H). reflexivity.
Qed.
Lemma cp_but cm r sp ap : compensation_pixel_term c' cm r sp ap = compensation_pixel_term c cm r sp ap.
Proof.
  unfold compensation_pixel_term. rewrite (ab_tgc _ _ _ H), (ab_offset_cp _ _ _ H), (ab_k_v_cp _ _ _ H), (ab_k_ta_cp _ _ _ H),
    (ab_pattern_cp _ _ _ H). reflexivity.
Qed.
Lemma acp_but sp : alpha_compensation_pixel c' sp = alpha_compensation_pixel c sp.
Proof. unfold alpha_compensation_pixel. rewrite (ab_tgc _ _ _ H), (ab_alpha_cp _ _ _ H). reflexivity. Qed.
Lemma scc_but t : sensitivity_correction_coefficient c' t = sensitivity_correction_coefficient c t.
Proof. unfold sensitivity_correction_coefficient. rewrite (ab_k_s_ta _ _ _ H). reflexivity. Qed.

(** The two results: the same ambient temperature, and values that are equal except perhaps at [k]. *)
Definition res_but {E} (x y : res E (F FO * list (F FO))) : Prop :=
  match x, y with
  | Ok (t, l), Ok (t', l') => t' = t /\ but k l l'
  | Err e, Err e' => e' = e
  | Panic, Panic => True
  | Diverge, Diverge => True
  | _, _ => False
  end.
Lemma raw_ir_but E emissivity correction pixel_data ram sp ap mask dest dest' : but k dest dest' ->
  res_but (raw_pixels_to_ir_data p (E := E) c emissivity correction pixel_data ram sp ap mask dest)
          (raw_pixels_to_ir_data p c' emissivity correction pixel_data ram sp ap mask dest').
Proof.
  intros Hd. unfold raw_pixels_to_ir_data. rewrite common_but.
  destruct (common_new p correction emissivity c ram) as [cm|e| |]; cbn [bind res_but]; [|reflexivity|exact I|exact I].
  split; [reflexivity|]. rewrite cp_but. apply but_masked; [exact Hd|].
  repeat apply but_zip; try apply H; [apply but_refl|]. rewrite (ab_pattern _ _ _ H). apply but_refl.
Qed.
Lemma raw_temperatures_but E emissivity t_r correction pixel_data ram sp ap mask dest dest' : but k dest dest' ->
  res_but (raw_pixels_to_temperatures p (E := E) c emissivity t_r correction pixel_data ram sp ap mask dest)
          (raw_pixels_to_temperatures p c' emissivity t_r correction pixel_data ram sp ap mask dest').
Proof.
  intros Hd. unfold raw_pixels_to_temperatures. rewrite common_but.
  destruct (common_new p correction emissivity c ram) as [cm|e| |]; cbn [bind res_but]; [|reflexivity|exact I|exact I].
  rewrite (ab_cam _ _ _ H), (ab_k_s_to _ _ _ H).
  destruct (nth_error (k_s_to FO c) (BASIC_TEMPERATURE_RANGE FO (cam FO c))) as [ks|]; cbn [unwrap bind res_but]; [|exact I].
  split; [reflexivity|]. rewrite cp_but, acp_but, scc_but. apply but_masked; [exact Hd|].
  repeat apply but_zip; try apply H; [apply but_refl|]. rewrite (ab_pattern _ _ _ H). apply but_refl.
Qed.
Lemma raw_ir_to_temperatures_but E emissivity t_a t_r sp mask dest dest' : but k dest dest' ->
  match raw_ir_to_temperatures (E := E) c emissivity t_a t_r sp mask dest,
        raw_ir_to_temperatures (E := E) c' emissivity t_a t_r sp mask dest' with
  | Ok l, Ok l' => but k l l'
  | Panic, Panic => True
  | _, _ => False
  end.
Proof.
  intros Hd. unfold raw_ir_to_temperatures. rewrite (ab_cam _ _ _ H), (ab_k_s_to _ _ _ H).
  destruct (nth_error (k_s_to FO c) (BASIC_TEMPERATURE_RANGE FO (cam FO c))) as [ks|]; cbn [unwrap bind]; [|exact I].
  rewrite acp_but, scc_but. apply but_masked; [exact Hd|apply H].
Qed.
End Low.

Section Calls.
Context {FO : FloatOps} (p : profile) {B ER EW : Type} (bs : bus B ER EW) (k : nat).
Notation driver := (driver (FO := FO) (B := B) (ER := ER) (EW := EW)).
Notation op := (op (FO := FO)).
Notation err := (error ER EW).
Notation res_but := (res_but k).
Implicit Types d : driver.

Definition carried {A} (c' : calib FO) (r : A * driver) : A * driver := (fst r, recalibrated c' (snd r)).
Definition fine c' d : Prop := agree_but k (d_calibration d) c'.
(** Methods that commute with the change of calibration and keep the calibration. *)
Definition blind {A} (f : driver -> m A) : Prop := forall c' d, fine c' d ->
  f (recalibrated c' d) = carried c' (f d) /\ d_calibration (snd (f d)) = d_calibration d.
Definition blindi {A} (f : driver -> mi A) : Prop := forall c' d r d1 dest, fine c' d -> f d = (r, d1, dest) ->
  d_calibration d1 = d_calibration d /\
  exists dest', f (recalibrated c' d) = (r, recalibrated c' d1, dest') /\ but k dest dest'.

Lemma blind_ret {A} (r : res err A) : blind (fun d => (r, d)).
Proof. intros c' d _. split; reflexivity. Qed.
Lemma blind_bindS {A A'} (f : driver -> m A) (h : A -> driver -> m A') :
  blind f -> (forall a, blind (h a)) -> blind (fun d => bindS (f d) h).
Proof.
  intros Hf Hk c' d Hd. destruct (Hf c' d Hd) as [E1 E2]. unfold bindS at 1. rewrite E1.
  unfold bindS. destruct (f d) as [r d1]. cbn [carried fst snd] in *.
  destruct r as [a|e| |]; try (split; [reflexivity|exact E2]).
  assert (Hd1 : fine c' d1) by (unfold fine; rewrite E2; exact Hd).
  destruct (Hk a c' d1 Hd1) as [E3 E4]. split; [exact E3|congruence].
Qed.

Lemma blind_status : blind (status_register_ bs).
Proof.
  intros c' d Hd. unfold status_register_. cbn [recalibrated d_address d_bus].
  destruct (read_register bs (d_address d) STATUS_ADDRESS (d_bus d)). split; reflexivity.
Qed.
Lemma blind_set_status v : blind (set_status_register bs v).
Proof.
  intros c' d Hd. unfold set_status_register. cbn [recalibrated d_address d_bus].
  destruct (write_register bs (d_address d) STATUS_ADDRESS v (d_bus d)). split; reflexivity.
Qed.
Lemma blind_update v : blind (update_control_register (B := B) (ER := ER) (EW := EW) v).
Proof.
  intros c' d Hd. unfold update_control_register. cbn [recalibrated d_calibration d_access_pattern].
  rewrite (ab_cam _ _ _ Hd), (ab_resolution _ _ _ Hd).
  destruct (ctl_resolution v) as [r|e| |]; try (split; reflexivity).
  destruct (ctl_access_pattern v) as [ap|e| |]; split; reflexivity.
Qed.
Lemma blind_control : blind (control_register_ bs).
Proof.
  intros c' d Hd. unfold control_register_. cbn [recalibrated d_address d_bus].
  destruct (read_register bs (d_address d) CONTROL_ADDRESS (d_bus d)) as [r w].
  apply (blind_bindS (fun d1 => (r, with_bus d1 w))); [|intros a|exact Hd].
  - intros c1 d1 _. split; reflexivity.
  - apply blind_bindS; [apply blind_update|intros; apply blind_ret].
Qed.
Lemma blind_set_control v : blind (set_control_register bs v).
Proof.
  apply blind_bindS; [apply blind_update|]. intros _ c' d Hd. cbn [recalibrated d_address d_bus].
  destruct (write_register bs (d_address d) CONTROL_ADDRESS v (d_bus d)). split; reflexivity.
Qed.
Lemma blind_set_field {V} rd wr (getter : Z -> res err V) setter eqb v :
  blind rd -> (forall x, blind (wr x)) -> blind (set_field rd wr getter setter eqb v).
Proof.
  intros Hg Hs. apply blind_bindS; [exact Hg|]. intros x.
  apply blind_bindS; [apply blind_ret|]. intros old. destruct (eqb old v); [apply blind_ret|apply Hs].
Qed.
Lemma blind_read_ram sp : blind (drv_read_ram bs sp).
Proof.
  intros c' d Hd. unfold drv_read_ram. cbn [recalibrated d_calibration d_height d_address d_access_pattern d_pixel_buffer d_bus].
  rewrite (ab_cam _ _ _ Hd).
  destruct (read_ram bs _ _ _ _ _ _ _) as [[r buf] w]. split; reflexivity.
Qed.
Lemma blind_poll fuel : forall s, blind (poll bs fuel s).
Proof.
  induction fuel as [|n IH]; intros s; cbn [poll]; destruct (new_data s); try apply blind_ret.
  apply blind_bindS; [apply blind_status|]. intros v. apply IH.
Qed.
Lemma blind_lift {A} (g : A -> out (FO := FO)) (f : driver -> m A) : blind f -> blindi (fun d => lift g (f d)).
Proof.
  intros Hf c' d r d2 dest Hd H. destruct (Hf c' d Hd) as [E1 E2]. unfold lift in *. rewrite E1.
  destruct (f d) as [r0 d1]. apply pair_equal_spec in H. destruct H as [H <-]. apply pair_equal_spec in H. destruct H as [<- <-].
  split; [exact E2|]. eexists. split; [reflexivity|apply but_refl].
Qed.
Lemma blind_lifti {A} (g : A -> out (FO := FO)) (f : driver -> mi A) : blindi f -> blindi (fun d => lifti g (f d)).
Proof.
  intros Hf c' d r d2 dest Hd H. unfold lifti in *. destruct (f d) as [[r0 d1] dst] eqn:E.
  destruct (Hf c' d r0 d1 dst Hd E) as (E2 & dest' & E1 & Hb). rewrite E1.
  apply pair_equal_spec in H. destruct H as [H <-]. apply pair_equal_spec in H. destruct H as [<- <-].
  split; [exact E2|]. exists dest'. split; [reflexivity|exact Hb].
Qed.
Lemma blindi_const {A} (r : driver -> res err A) (g : driver -> driver) dest :
  (forall c' d, fine c' d -> r (recalibrated c' d) = r d) ->
  (forall c' d, fine c' d -> g (recalibrated c' d) = recalibrated c' (g d) /\ d_calibration (g d) = d_calibration d) ->
  blindi (fun d => (r d, g d, dest)).
Proof.
  intros Hr Hg c' d r0 d1 dst Hd H. apply pair_equal_spec in H. destruct H as [H <-]. apply pair_equal_spec in H. destruct H as [<- <-].
  destruct (Hg c' d Hd) as [E1 E2]. split; [exact E2|]. exists dest. split; [|apply but_refl]. rewrite (Hr c' d Hd), E1. reflexivity.
Qed.
Lemma blindi_ret {A} (r : res err A) dest : blindi (fun d => (r, d, dest)).
Proof. apply blindi_const; intros; [reflexivity|split; reflexivity]. Qed.
Lemma blindi_fail {A A'} (r : res err A) dest : blindi (fun d => fail_image (A' := A') r d dest).
Proof. destruct r; apply blindi_ret. Qed.
Lemma blindi_then {A A'} (f : driver -> m A) (h : res err A -> driver -> mi A') :
  blind f -> (forall r, blindi (h r)) -> blindi (fun d => let '(r, d) := f d in h r d).
Proof.
  intros Hf Hk c' d r0 d2 dst Hd H. destruct (Hf c' d Hd) as [E1 E2]. rewrite E1. destruct (f d) as [r d1]. cbn [carried fst snd] in *.
  assert (Hd1 : fine c' d1) by (unfold fine; rewrite E2; exact Hd).
  destruct (Hk r c' d1 _ _ _ Hd1 H) as [E3 E4]. split; [congruence|exact E4].
Qed.
(** The computed image may differ at position [k]; what follows only passes it on. *)
Definition passes {A} (h : driver -> list (F FO) -> mi A) : Prop :=
  forall c' d l l' r d1 dest, fine c' d -> but k l l' -> h d l = (r, d1, dest) ->
  d_calibration d1 = d_calibration d /\ exists dest', h (recalibrated c' d) l' = (r, recalibrated c' d1, dest') /\ but k dest dest'.
Lemma blindi_store {A} (f : driver -> res err (F FO * list (F FO))) dest (h : driver -> list (F FO) -> mi A) :
  (forall c' d, fine c' d -> res_but (f d) (f (recalibrated c' d))) -> passes h ->
  blindi (fun d => store_image (f d) d dest h).
Proof.
  intros Hr Hk c' d r d1 dst Hd H. specialize (Hr c' d Hd). unfold store_image in *.
  destruct (f d) as [[t l]|e| |], (f (recalibrated c' d)) as [[t' l']|e'| |]; cbn [res_but] in Hr; try contradiction.
  - destruct Hr as [-> Hb].
    change (with_ambient (recalibrated c' d) (Some t)) with (recalibrated c' (with_ambient d (Some t))).
    exact (Hk c' (with_ambient d (Some t)) l l' r d1 dst Hd Hb H).
  - subst e'. apply (blindi_ret (Err e) dest c' d r d1 dst Hd H).
  - apply (blindi_ret Panic dest c' d r d1 dst Hd H).
  - apply (blindi_ret Diverge dest c' d r d1 dst Hd H).
Qed.
Lemma passes_ret {A} (x : res err A) : passes (fun d l => (x, d, l)).
Proof.
  intros c' d l l' r d1 dest Hd Hb H. apply pair_equal_spec in H. destruct H as [H <-]. apply pair_equal_spec in H. destruct H as [<- <-].
  split; [reflexivity|]. exists l'. split; [reflexivity|exact Hb].
Qed.
Lemma passes_then {A A'} (f : driver -> m A) (g : res err A -> res err A') : blind f ->
  passes (fun d l => let '(r, d) := f d in (g r, d, l)).
Proof.
  intros Hf c' d l l' r0 d2 dest Hd Hb H. destruct (Hf c' d Hd) as [E1 E2]. rewrite E1. destruct (f d) as [r d1]. cbn [carried fst snd] in *.
  apply pair_equal_spec in H. destruct H as [H <-]. apply pair_equal_spec in H. destruct H as [<- <-].
  split; [exact E2|]. exists l'. split; [reflexivity|exact Hb].
Qed.
Lemma calc_ir_but ram sp dest c' d : fine c' d -> res_but (calc_ir p d ram sp dest) (calc_ir p (recalibrated c' d) ram sp dest).
Proof.
  intros Hd. unfold calc_ir.
  cbn [recalibrated d_calibration d_emissivity d_resolution_correction d_pixel_buffer d_access_pattern].
  rewrite (ab_cam _ _ _ Hd). apply raw_ir_but; [exact Hd|apply but_refl].
Qed.
Lemma calc_temperatures_but ram sp dest c' d : fine c' d ->
  res_but (calc_temperatures p d ram sp dest) (calc_temperatures p (recalibrated c' d) ram sp dest).
Proof.
  intros Hd. unfold calc_temperatures.
  cbn [recalibrated d_calibration d_emissivity d_resolution_correction d_pixel_buffer d_access_pattern d_reflected].
  rewrite (ab_cam _ _ _ Hd). apply raw_temperatures_but; [exact Hd|apply but_refl].
Qed.
Lemma blindi_subpage sp dest : blindi (generate_image_subpage_to p bs sp dest).
Proof.
  apply blindi_then; [apply blind_read_ram|]. intros [ram|e| |]; try apply blindi_fail; try apply blindi_ret.
  apply (blindi_store (fun d => calc_temperatures p d ram sp dest)); [intros; apply calc_temperatures_but; assumption|].
  apply passes_ret.
Qed.
Lemma blindi_raw sp dest : blindi (generate_raw_image_subpage_to p bs sp dest).
Proof.
  apply blindi_then; [apply blind_read_ram|]. intros [ram|e| |]; try apply blindi_ret.
  apply (blindi_store (fun d => calc_ir p d ram sp dest)); [intros; apply calc_ir_but; assumption|].
  apply passes_ret.
Qed.
Lemma blindi_if_ready dest : blindi (generate_image_if_ready p bs dest).
Proof.
  apply blindi_then; [apply blind_status|]. intros [v|e| |]; try apply blindi_ret.
  destruct (new_data v); [|apply blindi_ret].
  destruct (last_updated_subpage v) as [sp|e| |]; try apply blindi_ret.
  apply blindi_then; [apply blind_read_ram|]. intros [ram|e| |]; try apply blindi_ret.
  apply (blindi_store (fun d => calc_temperatures p d ram sp dest)); [intros; apply calc_temperatures_but; assumption|].
  apply (passes_then (set_status_register bs (reset_new_data v)) (fun r3 => do _ <- r3; Ok true)). apply blind_set_status.
Qed.

Lemma step_blind o : blindi (fun d => step p bs d o).
Proof.
  assert (Hset : forall V (g : Z -> res err V) st eqb v, blindi (fun d => lift U (set_control_field bs g st eqb v d))).
  { intros. apply blind_lift. apply (blind_set_field (control_register_ bs) (set_control_register bs));
      [apply blind_control|apply blind_set_control]. }
  assert (Hget : forall V (f : V -> out) (g : Z -> res err V), blindi (fun d => lift f (bindS (control_register_ bs d) (fun r d => (g r, d))))).
  { intros. apply (blind_lift f (fun d => bindS (control_register_ bs d) (fun r d => (g r, d)))).
    apply blind_bindS; [apply blind_control|intros; apply blind_ret]. }
  destruct o; cbn [step]; try apply Hset; try apply blindi_ret;
    try apply (Hget _ _ (fun r => Ok _)); try apply (Hget _ _ (fun r => _)).
  - apply blind_lift. apply blind_bindS; [apply blind_status|intros; apply blind_ret].
  - apply blind_lift. apply blind_bindS; [apply blind_status|].
    intros v. destruct (new_data v); apply blind_ret.
  - apply blind_lift. apply blind_bindS; [apply blind_status|]. intros. apply blind_set_status.
  - apply blind_lift. apply blind_bindS; [apply blind_status|intros; apply blind_ret].
  - apply blind_lift. apply (blind_set_field (status_register_ bs) (set_status_register bs));
      [apply blind_status|apply blind_set_status].
  - apply (blindi_const (fun d => Ok (OutFloat (effective_emissivity d))) (fun d => d)); intros; try split; reflexivity.
  - apply (blindi_const (fun d => Ok OutUnit) (fun d => override_emissivity v d)); intros; try split; reflexivity.
  - apply (blindi_const (fun d => Ok OutUnit) (fun d => use_default_emissivity d)); [reflexivity|].
    intros c' d Hd. split; [|reflexivity]. unfold use_default_emissivity.
    cbn [recalibrated d_calibration]. rewrite (ab_emissivity _ _ _ Hd). reflexivity.
  - apply (blindi_const (fun d => Ok (OutOptFloat (reflected_temperature d))) (fun d => d)); intros; try split; reflexivity.
  - apply (blindi_const (fun d => Ok OutUnit) (fun d => set_reflected_temperature v d)); intros; try split; reflexivity.
  - apply (blindi_const (fun d => Ok (OutOptFloat (drv_ambient_temperature d))) (fun d => d)); intros; try split; reflexivity.
  - apply (blindi_const (fun d => Ok (OutNat (drv_height d))) (fun d => d)); [|intros; split; reflexivity].
    intros c' d Hd. unfold drv_height. cbn [recalibrated d_calibration]. rewrite (ab_cam _ _ _ Hd). reflexivity.
  - apply (blindi_const (fun d => Ok (OutNat (drv_width d))) (fun d => d)); [|intros; split; reflexivity].
    intros c' d Hd. unfold drv_width. cbn [recalibrated d_calibration]. rewrite (ab_cam _ _ _ Hd). reflexivity.
  - apply blind_lifti, blindi_raw.
  - apply blind_lifti, blindi_subpage.
  - apply blind_lifti. unfold generate_image_to. apply (blindi_then (last_measured_subpage bs)).
    + apply blind_bindS; [apply blind_status|intros; apply blind_ret].
    + intros [sp|e| |]; try apply blindi_ret. apply blindi_subpage.
  - apply blind_lifti, blindi_if_ready.
  - apply blind_lift. apply blind_bindS; [apply blind_status|]. intros v.
    apply blind_bindS; [apply blind_set_status|]. intros _. apply blind_poll.
Qed.

End Calls.
