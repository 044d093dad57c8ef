(** * C28, and concrete cases for C20-C26 and C55. *)
From Verif Require Import Base FloatOps Register Bus Camera Cam640 Cam641 Ee640 Ee641 Calc CalcFacts Driver
  BitFacts SpecRegister RegisterFacts SpecCamera CameraFacts SpecDriver DriverFacts StepFacts Demo
  SpecImage SpecCall ImageFacts P_Bus P_Image P_Frames.

(** The drivers of the examples meet the hypotheses of C20-C26 and C55. *)
Lemma demo_calib_complete (c : camera ZFO) lay n : documented c lay -> n = lay_pixels lay ->
  (lay_basic_range lay < 4)%nat -> complete (demo_calib c n) lay.
Proof.
  intros Hd -> Hb. unfold complete, demo_calib.
  cbn [cam offset_reference_pixels alpha_pixels k_v_pixels k_ta_pixels access_pattern_compensation_pixels k_s_to length].
  repeat split; intros; try apply repeat_length. exact Hb.
Qed.
Lemma demo641_usable status control :
  match demo_driver 12 384 demo641 status control with
  | Some d => usable d layout641
  | None => True
  end.
Proof.
  unfold demo_driver. destruct (new_with_calibration _ _ _ _ _ _) as [r w'] eqn:E.
  destruct r as [d| | |]; try exact I.
  apply C29_new_with_calibration in E. destruct E as (evs & _ & H). inversion H as [v d0 Hv Hf|]; subst.
  destruct Hf as (_ & _ & Hc & Hh & Hb & _). unfold usable. rewrite Hc, Hh, Hb.
  split; [constructor|]. split; [cbn; lia|]. split; [|rewrite repeat_length; cbn; lia].
  apply demo_calib_complete; [constructor|reflexivity|cbn; lia].
Qed.
Lemma demo640_usable status control :
  match demo_driver 24 1536 demo640 status control with
  | Some d => usable d layout640
  | None => True
  end.
Proof.
  unfold demo_driver. destruct (new_with_calibration _ _ _ _ _ _) as [r w'] eqn:E.
  destruct r as [d| | |]; try exact I.
  apply C29_new_with_calibration in E. destruct E as (evs & _ & H). inversion H as [v d0 Hv Hf|]; subst.
  destruct Hf as (_ & _ & Hc & Hh & Hb & _). unfold usable. rewrite Hc, Hh, Hb.
  split; [constructor|]. split; [cbn [d_height lay_height layout640]; lia|]. split; [|rewrite repeat_length; vm_compute; lia].
  apply demo_calib_complete; [constructor|reflexivity|cbn; lia].
Qed.

Definition no_pixels : list (F ZFO) := [].
Definition blank : list (F ZFO) := repeat (0 : F ZFO) 192.

(** C20 *)
Example C20_concrete :
  match demo_driver 12 384 demo641 0x0000 0x0901 with
  | Some d =>
      let '(r, d', dest') := generate_image_if_ready Debug (toy_bus never never) blank d in
      r = Ok false /\ dest' = blank /\
      trace (d_bus d') = trace (d_bus d) ++ [reads_word 0x33 status_reg 0x0000]
  | None => False
  end.
Proof. vm_compute. repeat split. Qed.

(** C21, C23, C55: a frame is ready; the destination has only 5 elements. *)
Example C21_concrete :
  match demo_driver 12 384 demo641 0x0009 0x0901 with
  | Some d =>
      let '(r, d', dest') := generate_image_if_ready Debug (toy_bus never never) (firstn 5 blank) d in
      r = Ok true /\ length dest' = 5%nat /\ dest' <> firstn 5 blank /\ d_ambient d' <> None /\
      nth_error (trace (d_bus d')) 1 = Some (reads_word 0x33 status_reg 0x0009) /\
      skipn 13 (trace (d_bus d')) = [writes_word 0x33 status_reg 0x0001 None]
  | None => False
  end.
Proof. vm_compute. repeat split; discriminate. Qed.

(** C22: a read in the middle of the frame fails; then only the final write fails. *)
Example C22_concrete :
  match demo_driver 12 384 demo641 0x0008 0x0901 with
  | Some d =>
      let '(r, d', dest') := generate_image_if_ready Debug (toy_bus never (at_clock 5)) blank d in
      r = Err (I2cWriteReadError "nack"%string) /\ dest' = blank /\ d_ambient d' = None
  | None => False
  end.
Proof. vm_compute. repeat split. Qed.

Theorem C22_refuted_for_the_final_write :
  match demo_driver 12 384 demo641 0x0008 0x0901 with
  | Some d =>
      let '(r, d', dest') := generate_image_if_ready Debug (toy_bus never (at_clock 13)) blank d in
      r = Err (I2cWriteError "nack"%string) /\ dest' <> blank /\ d_ambient d = None /\ d_ambient d' <> None
  | None => False
  end.
Proof. vm_compute. repeat split; discriminate. Qed.
Print Assumptions C22_refuted_for_the_final_write.

(** C24-C26: a history with
    two frames, a failed read and overrides in between. *)
Example C24_concrete :
  match demo_driver 12 384 demo641 0x0008 0x0901 with
  | Some d =>
      let d1 := run Debug (toy_bus (at_clock 20) (at_clock 14)) d
        [OpGenerateSubpage Zero blank; OpDataAvailable; OpOverrideEmissivity (3 : F ZFO); OpSetReflectedTemperature (Some (20 : F ZFO));
         OpSetReflectedTemperature (None : option (F ZFO)); OpGenerateIfReady no_pixels; OpUseDefaultEmissivity; OpOverrideEmissivity (2 : F ZFO)] in
      d_ambient d1 <> None /\ d_emissivity d1 = 2 /\ d_reflected d1 = None
  | None => False
  end.
Proof. vm_compute. repeat split; discriminate. Qed.

(** ** C28 *)
(** Frame 1 is ready.  Frame 2 completes during the last transaction of the frame
    read.  The call returns the image of frame 1 (the same as without frame 2),
    and afterwards frame 2 is neither returned nor flagged: the next call reports
    that there is no new data. *)
Theorem C28_a_frame_can_be_lost :
  match demo_driver 12 384 demo641 0x0008 0x0901 with
  | Some d =>
      let '(r, d1, dest1) := generate_image_if_ready Debug (toy_bus (at_clock 13) never) blank d in
      let '(r', _, dest1') := generate_image_if_ready Debug (toy_bus never never) blank d in
      let '(r2, d2, dest2) := generate_image_if_ready Debug (toy_bus (at_clock 13) never) dest1 d1 in
      toy_frames (dev (d_bus d)) = 1 /\ toy_frames (dev (d_bus d1)) = 2 /\
      r = Ok true /\ r' = Ok true /\ dest1 = dest1' /\
      bit (toy_status (dev (d_bus d1))) 3 = false /\
      r2 = Ok false /\ dest2 = dest1
  | None => False
  end.
Proof. vm_compute. repeat split. Qed.
Print Assumptions C28_a_frame_can_be_lost.

(** In general: whatever the camera did since the status read, the acknowledge
    writes a cleared flag, and nothing is read after the frame (C21). On a camera
    whose status register holds what is written to it, the flag is then clear. *)
Theorem C28_flag_is_cleared_blindly : forall FO p B ER EW (bs : bus B ER EW) (flag : B -> bool) lay (d : driver (FO := FO)) dest d' dest',
  usable d lay ->
  (forall b i2c hi lo b', dev_write bs b i2c (status_reg ++ [hi; lo]) = (b', None) -> flag b' = bit (256 * hi + lo) 3) ->
  generate_image_if_ready p bs dest d = (Ok true, d', dest') ->
  flag (dev (d_bus d')) = false.
Proof.
  intros FO p B ER EW bs flag lay d dest d' dest' Hu Hf H.
  unfold generate_image_if_ready in H.
  destruct (status_register_ bs d) as [r0 d0] eqn:Hs. destruct r0 as [v|e| |]; try discriminate.
  pose proof (status_word bs d v d0 Hs) as Hv.
  destruct (new_data v); [|discriminate].
  destruct (last_updated_subpage v) as [sp|e| |]; try discriminate.
  destruct (drv_read_ram bs sp d0) as [r2 d1]. destruct r2 as [ram|e| |]; try discriminate.
  destruct (calc_temperatures p d1 ram sp dest) as [[t dst]|e| |]; try discriminate. cbn [store_image] in H.
  unfold set_status_register, write_register, bus_write in H. rewrite status_bytes in H.
  cbn [d_bus d_address with_ambient] in H.
  destruct (dev_write bs (dev (d_bus d1)) (d_address d1) (status_reg ++ to_be_bytes (reset_new_data v))) as [b e] eqn:E.
  destruct e as [e|]; cbn [bind] in H; [discriminate|]. injection H as <- _. cbn [d_bus with_bus dev].
  apply Hf in E. rewrite E, <- Z_div_mod_eq_full.
  pose proof (reset_new_data_spec v Hv) as (_ & Hst).
  change (s_new_data (status_doc (reset_new_data v)) = false). rewrite Hst. reflexivity.
Qed.
Print Assumptions C28_flag_is_cleared_blindly.
