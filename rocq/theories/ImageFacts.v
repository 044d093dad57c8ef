(** * ImageFacts: the calculations produce the documented pixel values. *)
From Verif Require Import Base FloatOps Register Bus Camera Cam640 Cam641 Calc CalcFacts Driver
  BitFacts SpecRegister RegisterFacts SpecCamera CameraFacts SpecDriver DriverFacts StepFacts SpecImage SpecCall.

Lemma wrap16_small z : in_i16 z = true -> wrap16 z = z.
Proof.
  unfold in_i16, wrap16. intros H. apply andb_prop in H. destruct H as [H1 H2].
  apply Z.leb_le in H1. apply Z.leb_le in H2. rewrite Z.mod_small by lia. lia.
Qed.
Lemma chk_i16_ok {E} p z v : chk_i16 (E := E) p z = Ok v -> v = wrap16 z.
Proof.
  unfold chk_i16. destruct (in_i16 z) eqn:H.
  - intros E0. injection E0 as <-. symmetry. apply wrap16_small, H.
  - destruct p; [discriminate|]. intros E0. injection E0 as <-. reflexivity.
Qed.

Section Facts.
Context {FO : FloatOps} (p : profile).
Notation F := (F FO).
Context (c : calib FO) (lay : layout) (s : settings (FO := FO)) (sp : subpage) (mem : Z -> Z).
Context (ram : ram_data) (Hram : ram_shown mem lay sp ram).

Lemma common_doc {E} k : common_new (E := E) p (set_correction s) (set_emissivity s) c ram = Ok k ->
  c_gain k = doc_gain c lay mem /\ c_v_dd k = doc_v_dd c lay s mem /\ c_emissivity k = set_emissivity s /\
  c_t_a k = doc_t_a c lay mem.
Proof.
  destruct Hram as (H1 & H2 & H3 & H4 & H5).
  unfold common_new, delta_v. destruct (chk_i16 p (v_dd_pixel ram - v_dd_25 FO c)) as [dv| | |] eqn:Hdv;
    try discriminate. apply chk_i16_ok in Hdv. cbn [bind]. intros Hk. injection Hk as <-.
  cbn [c_gain c_v_dd c_emissivity c_t_a].
  unfold doc_gain, doc_v_dd, doc_t_a, doc_delta_v, doc_v_ptat_art, v_dd, v_ptat_art, ambient_temperature, SpecImage.ram.
  rewrite <- H1, <- H2, <- H3, <- H4. subst dv. auto.
Qed.

Lemma v_ir_doc {E} k x off kv kta amc :
  common_new (E := E) p (set_correction s) (set_emissivity s) c ram = Ok k ->
  per_pixel_v_ir x k off kv kta amc = doc_compensated c lay s mem x off kv kta amc.
Proof.
  intros Hk. apply common_doc in Hk. destruct Hk as (A1 & A2 & A3 & A4).
  unfold per_pixel_v_ir, doc_compensated. rewrite A1, A2, A3, A4. reflexivity.
Qed.

(** Pixel words of the buffer. *)
Lemma pixel_word_signed buf i x :
  nth_error (chunks2 buf) i = Some x -> 256 * nth (2 * i) buf 0 + nth (2 * i + 1) buf 0 = mem (lay_address lay sp i) ->
  pixel_word x = SpecImage.ram mem (lay_address lay sp i).
Proof.
  rewrite chunks2_nth. destruct (Nat.ltb (2 * i + 1) (length buf)); [|discriminate].
  intros H Hm. injection H as <-. unfold pixel_word, SpecImage.ram, be16. cbn [fst snd].
  rewrite <- Hm. rewrite (Z.mul_comm 256). reflexivity.
Qed.

Lemma nth_error_nth_some {A} (l : list A) i d : (i < length l)%nat -> nth_error l i = Some (nth i l d).
Proof. intros. apply nth_error_nth'. assumption. Qed.

Lemma ir_pixel {E} buf mask dest t dest' i v0 :
  complete c lay ->
  raw_pixels_to_ir_data (E := E) p c (set_emissivity s) (set_correction s) buf ram sp (set_pattern s) mask dest
    = Ok (t, dest') ->
  t = doc_t_a c lay mem /\ length dest' = length dest /\
  ((i < lay_pixels lay)%nat -> (2 * lay_pixels lay <= length buf)%nat -> nth i mask false = true ->
   256 * nth (2 * i) buf 0 + nth (2 * i + 1) buf 0 = mem (lay_address lay sp i) ->
   nth_error dest i = Some v0 -> nth_error dest' i = Some (doc_v_ir c lay s sp mem i)) /\
  (nth i mask false = false \/ (lay_pixels lay <= i)%nat -> nth_error dest' i = nth_error dest i).
Proof.
  intros (L1 & L2 & L3 & L4 & L5 & L6). unfold raw_pixels_to_ir_data.
  destruct (common_new p (set_correction s) (set_emissivity s) c ram) as [k| | |] eqn:Hk; try discriminate.
  pose proof (fun x off kv kta amc => v_ir_doc k x off kv kta amc Hk) as Hv.
  pose proof (common_doc k Hk) as (_ & _ & _ & Ht). cbn [bind].
  set (f := fun (_ : F) _ => _). intros H. injection H as H0 H1. subst t dest'.
  split; [exact Ht|]. split; [apply mfe_length|].
  split.
  - intros Hi Hb Hm Hw Hd. rewrite mfe_nth, Hd, !nth_error_zip.
    assert (Hc : exists x, nth_error (chunks2 buf) i = Some x).
    { destruct (nth_error (chunks2 buf) i) eqn:E0; [eauto|]. apply nth_error_None in E0.
      rewrite chunks2_length in E0. exfalso.
      assert (lay_pixels lay <= length buf / 2)%nat by (apply Nat.div_le_lower_bound; lia). lia. }
    destruct Hc as [x Hx]. rewrite Hx.
    rewrite (nth_error_nth_some (offset_reference_pixels FO c sp) i 0) by (rewrite L1; exact Hi).
    rewrite (nth_error_nth_some (k_v_pixels FO c sp) i (fofZ 0)) by (rewrite L3; exact Hi).
    rewrite (nth_error_nth_some (k_ta_pixels FO c sp) i (fofZ 0)) by (rewrite L4; exact Hi).
    rewrite (nth_error_nth_some (access_pattern_compensation_pixels FO c (set_pattern s)) i None) by (rewrite L5; exact Hi).
    rewrite Hm. f_equal. unfold f, doc_v_ir, compensation_pixel_term.
    rewrite (pixel_word_signed buf i x Hx Hw).
    destruct (temperature_gradient_coefficient FO c); rewrite !Hv; [|reflexivity].
     destruct Hram as (_ & _ & _ & _ & H5). rewrite H5. reflexivity.
  - intros Hor. rewrite mfe_nth. destruct (nth_error dest i) as [d|]; [|reflexivity].
    destruct (nth_error (zip _ _) i) as [x|] eqn:Ez; [|reflexivity].
    destruct Hor as [Hm|Hge]; [rewrite Hm; reflexivity|].
    rewrite nth_error_zip in Ez.
    assert (E5 : nth_error (access_pattern_compensation_pixels FO c (set_pattern s)) i = None)
      by (apply nth_error_None; rewrite L5; exact Hge).
    rewrite E5 in Ez. destruct (nth_error (zip _ _) i); discriminate.
Qed.

(** The two constants that the documentation gives for each camera. *)
Lemma documented_constants (cm : camera FO) l : documented cm l ->
  BASIC_TEMPERATURE_RANGE _ cm = lay_basic_range l /\ SELF_HEATING _ cm = fofZ (lay_self_heating l).
Proof. intros []; split; reflexivity. Qed.
Lemma t_o_pixel {E} buf mask dest t dest' i v0 :
  documented (cam _ c) lay -> complete c lay ->
  raw_pixels_to_temperatures (E := E) p c (set_emissivity s) (set_reflected s) (set_correction s) buf ram sp
    (set_pattern s) mask dest = Ok (t, dest') ->
  t = doc_t_a c lay mem /\ length dest' = length dest /\
  ((i < lay_pixels lay)%nat -> (2 * lay_pixels lay <= length buf)%nat -> nth i mask false = true ->
   256 * nth (2 * i) buf 0 + nth (2 * i + 1) buf 0 = mem (lay_address lay sp i) ->
   nth_error dest i = Some v0 -> nth_error dest' i = Some (doc_pixel c lay s sp mem false i)) /\
  (nth i mask false = false \/ (lay_pixels lay <= i)%nat -> nth_error dest' i = nth_error dest i).
Proof.
  intros Hcam (L1 & L2 & L3 & L4 & L5 & L6). unfold raw_pixels_to_temperatures.
  destruct (documented_constants (cam _ c) lay Hcam) as [Hbasic Hself]. rewrite Hbasic, Hself.
  destruct (common_new p (set_correction s) (set_emissivity s) c ram) as [k| | |] eqn:Hk; try discriminate.
  pose proof (fun x off kv kta amc => v_ir_doc k x off kv kta amc Hk) as Hv.
  pose proof (common_doc k Hk) as (_ & _ & _ & Ht). cbn [bind].
  rewrite (nth_error_nth_some (k_s_to FO c) _ (fofZ 0) L6). cbn [unwrap bind].
  set (f := fun (_ : F) _ => _). intros H. injection H as H0 H1. subst t dest'.
  split; [exact Ht|]. split; [apply mfe_length|].
  split.
  - intros Hi Hb Hm Hw Hd. rewrite mfe_nth, Hd, !nth_error_zip.
    assert (Hc : exists x, nth_error (chunks2 buf) i = Some x).
    { destruct (nth_error (chunks2 buf) i) eqn:E0; [eauto|]. apply nth_error_None in E0.
      rewrite chunks2_length in E0. exfalso.
      assert (lay_pixels lay <= length buf / 2)%nat by (apply Nat.div_le_lower_bound; lia). lia. }
    destruct Hc as [x Hx]. rewrite Hx.
    rewrite (nth_error_nth_some (offset_reference_pixels FO c sp) i 0) by (rewrite L1; exact Hi).
    rewrite (nth_error_nth_some (k_v_pixels FO c sp) i (fofZ 0)) by (rewrite L3; exact Hi).
    rewrite (nth_error_nth_some (k_ta_pixels FO c sp) i (fofZ 0)) by (rewrite L4; exact Hi).
    rewrite (nth_error_nth_some (alpha_pixels FO c sp) i (fofZ 0)) by (rewrite L2; exact Hi).
    rewrite (nth_error_nth_some (access_pattern_compensation_pixels FO c (set_pattern s)) i None) by (rewrite L5; exact Hi).
    rewrite Hm. f_equal. unfold f, doc_pixel, doc_t_o, per_pixel_temperature.
    assert (Ev : match compensation_pixel_term c k ram sp (set_pattern s) with
       | Some o => fsub (per_pixel_v_ir (pixel_word x) k (nth i (offset_reference_pixels FO c sp) 0)
            (nth i (k_v_pixels FO c sp) (fofZ 0)) (nth i (k_ta_pixels FO c sp) (fofZ 0))
            (nth i (access_pattern_compensation_pixels FO c (set_pattern s)) None)) o
       | None => per_pixel_v_ir (pixel_word x) k (nth i (offset_reference_pixels FO c sp) 0)
            (nth i (k_v_pixels FO c sp) (fofZ 0)) (nth i (k_ta_pixels FO c sp) (fofZ 0))
            (nth i (access_pattern_compensation_pixels FO c (set_pattern s)) None)
       end = doc_v_ir c lay s sp mem i).
    { unfold doc_v_ir, compensation_pixel_term. rewrite (pixel_word_signed buf i x Hx Hw).
      destruct (temperature_gradient_coefficient FO c); rewrite !Hv; [|reflexivity].
       destruct Hram as (_ & _ & _ & _ & H5). rewrite H5. reflexivity. }
    rewrite Ev.
    assert (Ea : compensated_alpha (alpha_compensation_pixel c sp) (nth i (alpha_pixels FO c sp) (fofZ 0))
                   (sensitivity_correction_coefficient c (c_t_a k)) = doc_alpha c lay sp mem i).
    { unfold compensated_alpha, alpha_compensation_pixel, doc_alpha, sensitivity_correction_coefficient.
      rewrite Ht. destruct (temperature_gradient_coefficient FO c); reflexivity. }
    rewrite Ea.
    assert (Et : t_ar (c_t_a k) (unwrap_or (set_reflected s) (fsub (c_t_a k) (fofZ (lay_self_heating lay))))
                   (set_emissivity s) = doc_t_ar c lay s mem).
    { unfold t_ar, doc_t_ar, unwrap_or. rewrite Ht. destruct (set_reflected s); reflexivity. }
    rewrite Et. reflexivity.
  - intros Hor. rewrite mfe_nth. destruct (nth_error dest i) as [d|]; [|reflexivity].
    destruct (nth_error (zip _ _) i) as [x|] eqn:Ez; [|reflexivity].
    destruct Hor as [Hm|Hge]; [rewrite Hm; reflexivity|].
    rewrite nth_error_zip in Ez.
    assert (E5 : nth_error (access_pattern_compensation_pixels FO c (set_pattern s)) i = None)
      by (apply nth_error_None; rewrite L5; exact Hge).
    rewrite E5 in Ez. destruct (nth_error (zip _ _) i); discriminate.
Qed.
End Facts.

(** ** Membership *)
Lemma mask_doc {FO : FloatOps} (c : camera FO) lay sp ap i : documented c lay ->
  nth i (pixels_in_subpage _ c sp ap) false = measured lay sp ap i.
Proof.
  intros Hd. unfold measured. destruct Hd.
  - change (pixels_in_subpage FO (Mlx90640 FO) sp ap) with (pixels_in_subpage640 sp ap).
    change (lay_pixels layout640) with 768%nat. change (lay_width layout640) with 32%nat.
    unfold pixels_in_subpage640. rewrite pixels_in_subpage640_map. cbn [fst].
    destruct (Nat.ltb_spec i 768).
    + rewrite nth_map_seq by assumption. rewrite <- px640_spec.
      * cbn [andb]. f_equal. rewrite (Nat.div_mod i 32) at 1 by lia. lia.
      * apply Nat.div_lt_upper_bound; lia.
      * apply Nat.mod_upper_bound. lia.
    + apply nth_overflow. rewrite map_length, seq_length. assumption.
  - change (pixels_in_subpage FO (Mlx90641 FO) sp ap) with (repeat true 192).
    change (lay_pixels layout641) with 192%nat. cbn [lay_in_subpage layout641]. rewrite andb_true_r.
    destruct (Nat.ltb_spec i 192).
    + eapply repeat_spec. apply nth_In. rewrite repeat_length. assumption.
    + apply nth_overflow. rewrite repeat_length. assumption.
Qed.

Lemma measured_transferred {FO : FloatOps} (c : camera FO) lay sp ap i : documented c lay ->
  measured lay sp ap i = true ->
  (i < lay_pixels lay)%nat /\ lay_transferred lay sp ap (i / lay_width lay) (i mod lay_width lay) = true.
Proof.
  intros Hd H. unfold measured in H. apply andb_prop in H. destruct H as [H1 H2].
  apply Nat.ltb_lt in H1. split; [exact H1|].
  destruct Hd; [destruct ap|]; cbn [lay_in_subpage lay_transferred layout640 layout641] in *; auto.
Qed.

(** ** Whole images *)
Section Gen.
Context {FO : FloatOps} (p : profile) {B ER EW : Type} (bs : bus B ER EW).
Notation driver := (driver (FO := FO) (B := B) (ER := ER) (EW := EW)).
Implicit Types d : driver.

Lemma calc_pixels raw lay d ram sp mem buf0 dest t dest' :
  documented (cam _ (d_calibration d)) lay -> complete (d_calibration d) lay ->
  (2 * lay_pixels lay <= length (d_pixel_buffer d))%nat ->
  ram_shown mem lay sp ram -> pixels_shown mem lay sp (d_access_pattern d) buf0 (d_pixel_buffer d) ->
  calc (ER := ER) (EW := EW) p raw d ram sp dest = Ok (t, dest') ->
  t = doc_t_a (d_calibration d) lay mem /\
  image_stored (d_calibration d) lay (settings_of d) sp mem raw dest dest'.
Proof.
  intros Hdoc Hc Hb Hram Hpx H.
  assert (G : forall i, t = doc_t_a (d_calibration d) lay mem /\ length dest' = length dest /\
    ((i < lay_pixels lay)%nat -> nth i (pixels_in_subpage _ (cam _ (d_calibration d)) sp (d_access_pattern d)) false = true ->
     256 * nth (2 * i) (d_pixel_buffer d) 0 + nth (2 * i + 1) (d_pixel_buffer d) 0 = mem (lay_address lay sp i) ->
     forall v0, nth_error dest i = Some v0 ->
     nth_error dest' i = Some (doc_pixel (d_calibration d) lay (settings_of d) sp mem raw i)) /\
    (nth i (pixels_in_subpage _ (cam _ (d_calibration d)) sp (d_access_pattern d)) false = false \/ (lay_pixels lay <= i)%nat ->
     nth_error dest' i = nth_error dest i)).
  { intros i. destruct raw; cbn [calc] in H.
    - pose proof (fun v0 => ir_pixel p (d_calibration d) lay (settings_of d) sp mem ram Hram _ _ _ _ _ i v0 Hc H) as G.
      destruct (G (fofZ 0)) as (G1 & G2 & _ & G4).
      split; [exact G1|]. split; [exact G2|]. split; [|exact G4].
      intros Hi Hm Hw v0 Hv. destruct (G v0) as (_ & _ & G3 & _). apply G3; assumption.
    - pose proof (fun v0 => t_o_pixel p (d_calibration d) lay (settings_of d) sp mem ram Hram _ _ _ _ _ i v0 Hdoc Hc H) as G.
      destruct (G (fofZ 0)) as (G1 & G2 & _ & G4).
      split; [exact G1|]. split; [exact G2|]. split; [|exact G4].
      intros Hi Hm Hw v0 Hv. destruct (G v0) as (_ & _ & G3 & _). apply G3; assumption. }
  split; [apply (G 0%nat)|]. split; [apply (G 0%nat)|].
  intros i v Hv. destruct (G i) as (_ & _ & G3 & G4).
  rewrite (mask_doc _ lay) in G3, G4 by exact Hdoc. cbn [settings_of set_pattern].
  destruct (measured lay sp (d_access_pattern d) i) eqn:Em.
  - destruct (measured_transferred _ lay sp _ i Hdoc Em) as [Hi Htr].
    apply (G3 Hi eq_refl) with (v0 := v); [|exact Hv].
    assert (Hw : (0 < lay_width lay)%nat) by (destruct Hdoc; cbn; lia).
    specialize (Hpx (i / lay_width lay)%nat (i mod lay_width lay)%nat).
    cbn zeta in Hpx. rewrite Htr in Hpx.
    replace (i / lay_width lay * lay_width lay + i mod lay_width lay)%nat with i in Hpx
      by (rewrite (Nat.mul_comm (i / lay_width lay)), <- Nat.div_mod by lia; reflexivity).
    apply Hpx.
    + apply Nat.div_lt_upper_bound; [lia|]. unfold lay_pixels in Hi. lia.
    + apply Nat.mod_upper_bound. lia.
  - rewrite G4 by (left; reflexivity). exact Hv.
Qed.

(** Reading a frame, then calculating. *)
Lemma frame_pixels raw lay d sp mem ram d1 evs dest t dest' :
  wf d lay -> complete (d_calibration d) lay -> (2 * lay_pixels lay <= length (d_pixel_buffer d))%nat ->
  (forall a, word (mem a)) ->
  drv_read_ram bs sp d = (Ok ram, d1) -> trace (d_bus d1) = trace (d_bus d) ++ evs -> Forall (shows mem) evs ->
  calc (ER := ER) (EW := EW) p raw d1 ram sp dest = Ok (t, dest') ->
  t = doc_t_a (d_calibration d) lay mem /\
  image_stored (d_calibration d) lay (settings_of d) sp mem raw dest dest'.
Proof.
  intros [Hd Hh] Hc Hb Hm Hr Ht Hsh H. unfold drv_read_ram in Hr.
  destruct (read_ram bs (cam _ (d_calibration d)) (d_height d) (d_address d) (d_access_pattern d) sp
             (d_pixel_buffer d) (d_bus d)) as [[r0 buf'] w'] eqn:Hrr.
  injection Hr as -> <-. cbn [d_bus with_bus] in Ht.
  pose proof (read_ram_spec bs _ lay _ _ _ _ _ _ _ _ _ Hd Hh Hrr) as (Hlen & _).
  destruct (read_ram_shows bs mem _ lay _ _ _ _ _ _ _ _ _ _ Hd Hh Hm Hrr Ht Hsh) as (Hram & Hpx & _).
  eapply (calc_pixels raw lay (with_bus (with_buffer d buf') w') ram sp mem (d_pixel_buffer d)); try eassumption.
  cbn [d_pixel_buffer with_bus with_buffer]. rewrite Hlen. exact Hb.
Qed.
End Gen.

(** ** Outcomes of an image call *)
Section Outcome.
Context {FO : FloatOps} (p : profile) {B ER EW : Type} (bs : bus B ER EW).
Notation driver := (driver (FO := FO) (B := B) (ER := ER) (EW := EW)).
Notation op := (op (FO := FO)).
Notation event := (event ER EW).
Implicit Types d : driver.

Inductive outcome (lay : layout) d (o : op) (dest : list (F FO))
  : list event -> res (error ER EW) (out (FO := FO)) -> driver -> list (F FO) -> Prop :=
| out_status_failed x e w : (o = OpGenerateImage dest \/ o = OpGenerateIfReady dest) ->
    read_fails (d_address d) status_reg e x ->
    outcome lay d o dest [x] (Err (I2cWriteReadError e)) (with_bus d w) dest
| out_no_data v w : o = OpGenerateIfReady dest -> word v -> bit v 3 = false ->
    outcome lay d o dest [reads_word (d_address d) status_reg v] (Ok (OutBool false)) (with_bus d w) dest
| out_frame_failed raw sp pre evs r buf w : asks (d_address d) o raw sp pre -> frame_failed lay d sp r evs ->
    length buf = length (d_pixel_buffer d) ->
    outcome lay d o dest (pre ++ evs) r (after_frame d buf w) dest
| out_panic raw sp pre evs ram buf w w0 : asks (d_address d) o raw sp pre ->
    completed (d_address d) (frame_reads lay sp (d_access_pattern d)) evs ->
    length buf = length (d_pixel_buffer d) ->
    drv_read_ram bs sp (with_bus d w0) = (Ok ram, after_frame d buf w) ->
    calc (ER := ER) (EW := EW) p raw (after_frame d buf w) ram sp dest = Panic ->
    trace w = trace w0 ++ evs ->
    outcome lay d o dest (pre ++ evs) Panic (after_frame d buf w) dest
| out_computed raw sp pre evs post ram buf w0 w w1 t dest' r : asks (d_address d) o raw sp pre ->
    completed (d_address d) (frame_reads lay sp (d_access_pattern d)) evs ->
    length buf = length (d_pixel_buffer d) -> trace w = trace w0 ++ evs ->
    drv_read_ram bs sp (with_bus d w0) = (Ok ram, after_frame d buf w) ->
    calc (ER := ER) (EW := EW) p raw (after_frame d buf w) ram sp dest = Ok (t, dest') ->
    acknowledges (d_address d) o pre post r ->
    outcome lay d o dest (pre ++ evs ++ post) r (with_bus (with_ambient (after_frame d buf w) (Some t)) w1) dest'.

Lemma with_bus_id d : with_bus d (d_bus d) = d.
Proof. destruct d; reflexivity. Qed.

Lemma frame_failed_map lay d sp {A A'} (f : A -> A') r evs :
  frame_failed (FO := FO) (B := B) (ER := ER) (EW := EW) lay d sp r evs ->
  frame_failed lay d sp (bind r (fun a => Ok (f a))) evs.
Proof. intros [(e & -> & H)|(-> & H)]; [left; exists e; auto|right; auto]. Qed.

(** The subpage calls, after the transactions [pre]. *)
Lemma gen_outcome lay d o raw sp pre dest w0 r d' dest' :
  wf d lay -> asks (d_address d) o raw sp pre ->
  acknowledges (d_address d) o pre [] (Ok OutUnit) ->
  trace w0 = trace (d_bus d) ++ pre ->
  gen p bs raw sp dest (with_bus d w0) = (r, d', dest') ->
  exists evs, trace (d_bus d') = trace (d_bus d) ++ evs /\
    outcome lay d o dest evs (bind r (fun a => Ok (U a))) d' dest'.
Proof.
  intros Hwf Ha Hk Ht0 H.
  apply (gen_spec p bs raw lay) in H; [|exact Hwf].
  destruct H as (w' & buf' & evs & Hl & Ht & H). cbn zeta in H.
  change (after_frame (with_bus d w0) buf' w') with (after_frame d buf' w') in H.
  change (d_pixel_buffer (with_bus d w0)) with (d_pixel_buffer d) in Hl.
  change (d_bus (with_bus d w0)) with w0 in Ht.
  exists (pre ++ evs).
  destruct H as [(-> & -> & Hf)|(ram & Hr & Hc & [(t & Hcalc & -> & ->)|(Hcalc & -> & -> & ->)])].
  - split; [cbn [d_bus after_frame with_bus]; rewrite Ht, Ht0, app_assoc; reflexivity|].
    eapply out_frame_failed; [exact Ha|apply frame_failed_map; exact Hf|exact Hl].
  - split; [cbn [d_bus after_frame with_bus with_ambient]; rewrite Ht, Ht0, app_assoc; reflexivity|].
    cbn [bind]. rewrite <- (app_nil_r evs).
    change (with_ambient (after_frame d buf' w') (Some t))
      with (with_bus (with_ambient (after_frame d buf' w') (Some t)) w').
    eapply out_computed; try eassumption.
  - split; [cbn [d_bus after_frame with_bus]; rewrite Ht, Ht0, app_assoc; reflexivity|].
    cbn [bind]. eapply out_panic; try eassumption.
Qed.

Lemma image_outcome lay d o dest r d' dest' : wf d lay -> destination o = Some dest ->
  step p bs d o = (r, d', dest') ->
  exists evs, trace (d_bus d') = trace (d_bus d) ++ evs /\ outcome lay d o dest evs r d' dest'.
Proof.
  intros Hwf Ho H.
  destruct o; try discriminate; cbn [destination] in Ho; injection Ho as ->; cbn [step] in H;
    apply lifti_inv in H; destruct H as (r0 & H & ->).
  - rewrite <- (with_bus_id d) in H at 1.
    apply (gen_outcome lay d (OpGenerateRawSubpage sp dest) true sp [] dest (d_bus d)); try assumption; try constructor.
    rewrite app_nil_r. reflexivity.
  - rewrite <- (with_bus_id d) in H at 1.
    apply (gen_outcome lay d (OpGenerateSubpage sp dest) false sp [] dest (d_bus d)); try assumption; try constructor.
    rewrite app_nil_r. reflexivity.
  - apply (generate_image_to_spec p bs lay) in H; [|exact Hwf].
    destruct H as (w0 & [(e & x & -> & Hx & Ht & -> & ->)|(v & Hv & Ht & Hs & H)]).
    + exists [x]. split; [exact Ht|]. apply out_status_failed; auto.
    + eapply gen_outcome; try eassumption; constructor. exact Hv.
  - apply (if_ready_spec p bs lay) in H; [|exact Hwf].
    destruct H as (w0 & [(e & x & -> & Hx & Ht & -> & ->)|(v & Hv & Ht & Hs & H)]).
    + exists [x]. split; [exact Ht|]. apply out_status_failed; auto.
    + destruct H as [(Hn & -> & -> & ->)|(Hn & w1 & buf' & evs & Hl & Ht1 & H)].
      * eexists. split; [exact Ht|]. apply out_no_data; auto.
      * assert (Ha : asks (ER := ER) (EW := EW) (d_address d) (OpGenerateIfReady dest) false (s_subpage (status_doc v))
                      [reads_word (d_address d) status_reg v]) by (constructor; assumption).
        cbn zeta in H.
        destruct H as [(-> & -> & Hf)|(ram & Hr & Hc & [(t & w2 & e & Hcalc & Ht2 & -> & ->)|(Hcalc & -> & -> & ->)])].
        -- eexists. split; [|eapply out_frame_failed; [exact Ha|apply frame_failed_map; exact Hf|exact Hl]].
           cbn [d_bus after_frame with_bus]. rewrite Ht1, Ht, app_assoc. reflexivity.
        -- eexists. split; [|eapply out_computed; try eassumption].
           ++ cbn [d_bus after_frame with_bus]. rewrite Ht2, Ht1, Ht, <- !app_assoc. reflexivity.
           ++ pose proof (reset_new_data_spec v Hv) as ((Hw & Hrest) & Hst).
              assert (Hb : bit (reset_new_data v) 3 = false)
                by (change (s_new_data (status_doc (reset_new_data v)) = false); rewrite Hst; reflexivity).
              replace (bind (match e with None => Ok true | Some e0 => Err (I2cWriteError e0) end) (fun a => Ok (OutBool a)))
                with (match e with None => Ok (OutBool true) | Some e0 => Err (I2cWriteError e0) end : res (error ER EW) (out (FO := FO)))
                by (destruct e; reflexivity).
              constructor; auto. intros i Hi Hne. apply Hrest; lia.
        -- eexists. split; [|eapply out_panic; try eassumption].
           cbn [d_bus after_frame with_bus]. rewrite Ht1, Ht, app_assoc. reflexivity.
Qed.
End Outcome.
