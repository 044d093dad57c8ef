(** * Properties C31-C33, C35: the calculations shared by both cameras, for every
    float arithmetic. *)
From Verif Require Import Base FloatOps Register Bus Camera Cam640 Cam641 Ee640 Ee641 Calc CalcFacts Driver
  BitFacts SpecRegister RegisterFacts SpecCamera CameraFacts SpecDriver DriverFacts StepFacts Demo
  SpecImage SpecCall ImageFacts SeenFacts P_Bus P_Image P_Frames P_ImageDemo P_Seen.

Section Calc.
Context {FO : FloatOps} (p : profile) {E : Type}.
Notation F := (F FO).
Implicit Types (c : calib FO) (dest : list F).

(** ** C31 *)
(** Converting to IR data and then to temperatures. *)
Definition two_pass c (em : F) (tr : option F) (rc : F) px ram sp ap mask dest : res E (F * list F) :=
  do (ta, ir) <- raw_pixels_to_ir_data p c em rc px ram sp ap mask dest;
  do temperatures <- raw_ir_to_temperatures c em ta tr sp mask ir;
  Ok (ta, temperatures).

(** The pixels of the mask have a sensitivity value iff they have all others. *)
Definition lists_agree c (px : list Z) sp ap (mask : list bool) : Prop :=
  forall i, nth i mask false = true ->
    (i < length (alpha_pixels _ c sp) <->
     2 * i + 1 < length px /\ i < length (offset_reference_pixels _ c sp) /\ i < length (k_v_pixels _ c sp) /\
     i < length (k_ta_pixels _ c sp) /\ i < length (access_pattern_compensation_pixels _ c ap))%nat.

Theorem C31_one_pass_is_two_passes : forall c em tr rc px ram sp ap mask dest,
  lists_agree c px sp ap mask ->
  raw_pixels_to_temperatures p c em tr rc px ram sp ap mask dest = two_pass c em tr rc px ram sp ap mask dest.
Proof.
  intros c em tr rc px ram sp ap mask dest Hl. unfold two_pass, raw_pixels_to_temperatures, raw_pixels_to_ir_data.
  destruct (common_new p rc em c ram) as [common| | |]; cbn [bind]; try reflexivity.
  unfold raw_ir_to_temperatures.
  destruct (nth_error (k_s_to FO c) (BASIC_TEMPERATURE_RANGE FO (cam FO c))) as [kst|]; cbn [unwrap bind]; [|reflexivity].
  do 2 f_equal. apply nth_error_ext. intros i. rewrite !mfe_nth, !nth_error_zip.
  destruct (nth_error dest i) as [v|]; [|reflexivity].
  destruct (nth i mask false) eqn:Em.
  2:{ destruct (nth_error (chunks2 px) i), (nth_error (offset_reference_pixels FO c sp) i), (nth_error (k_v_pixels FO c sp) i),
        (nth_error (k_ta_pixels FO c sp) i), (nth_error (access_pattern_compensation_pixels FO c ap) i),
        (nth_error (alpha_pixels FO c sp) i); reflexivity. }
  specialize (Hl i Em).
  assert (S : forall A (l : list A), nth_error l i <> None <-> (i < length l)%nat) by (intros; apply nth_error_Some).
  assert (Sx : (2 * i + 1 < length px)%nat <-> nth_error (chunks2 px) i <> None).
  { rewrite chunks2_nth. destruct (Nat.ltb_spec (2 * i + 1) (length px)); split; intros; try congruence; lia. }
  rewrite <- !S, Sx in Hl.
  destruct (nth_error (chunks2 px) i), (nth_error (offset_reference_pixels FO c sp) i), (nth_error (k_v_pixels FO c sp) i),
    (nth_error (k_ta_pixels FO c sp) i), (nth_error (access_pattern_compensation_pixels FO c ap) i) as [o|],
    (nth_error (alpha_pixels FO c sp) i) as [al|]; try reflexivity; exfalso; intuition congruence.
Qed.

(** In particular for calibration data with a value for every pixel and a pixel
    buffer of the size of the image (what every driver has). *)
Theorem C31_whole_image : forall c lay em tr rc px ram sp ap mask dest,
  complete c lay -> length px = (2 * lay_pixels lay)%nat ->
  raw_pixels_to_temperatures p c em tr rc px ram sp ap mask dest = two_pass c em tr rc px ram sp ap mask dest.
Proof.
  intros c lay em tr rc px ram sp ap mask dest (H1 & H2 & H3 & H4 & H5 & _) Hp.
  apply C31_one_pass_is_two_passes. intros i _. rewrite H1, H2, H3, H4, H5, Hp. lia.
Qed.

(** ** C32 *)
Theorem C32_ignored_when_emissivity_is_one : forall c em tr1 tr2 rc px ram sp ap mask dest ta,
  feqb em (fofZ 1) = true ->
  raw_pixels_to_temperatures (E := E) p c em tr1 rc px ram sp ap mask dest =
  raw_pixels_to_temperatures p c em tr2 rc px ram sp ap mask dest /\
  raw_ir_to_temperatures (E := E) c em ta tr1 sp mask dest = raw_ir_to_temperatures c em ta tr2 sp mask dest.
Proof.
  intros c em tr1 tr2 rc px ram sp ap mask dest ta He.
  unfold raw_pixels_to_temperatures, raw_ir_to_temperatures, t_ar. rewrite He. split; reflexivity.
Qed.

Theorem C32_default : forall c em rc px ram sp ap mask dest r,
  raw_pixels_to_temperatures (E := E) p c em None rc px ram sp ap mask dest = r ->
  match r with
  | Ok (ta, dest') =>
      raw_pixels_to_temperatures (E := E) p c em (Some (fsub ta (SELF_HEATING _ (cam _ c)))) rc px ram sp ap mask dest = r
  | _ => forall t, raw_pixels_to_temperatures (E := E) p c em (Some t) rc px ram sp ap mask dest = r
  end.
Proof.
  intros c em rc px ram sp ap mask dest r. unfold raw_pixels_to_temperatures.
  destruct (common_new p rc em c ram) as [common|e| |]; cbn [bind]; try (intros <-; reflexivity).
  destruct (nth_error (k_s_to FO c) (BASIC_TEMPERATURE_RANGE FO (cam FO c))) as [kst|]; cbn [unwrap bind]; intros <-; reflexivity.
Qed.
Theorem C32_default_ir : forall c em ta sp mask dest,
  raw_ir_to_temperatures (E := E) c em ta None sp mask dest =
  raw_ir_to_temperatures c em ta (Some (fsub ta (SELF_HEATING _ (cam _ c)))) sp mask dest.
Proof. reflexivity. Qed.
Theorem C32_self_heating : SELF_HEATING _ (Mlx90640 FO) = fofZ 8 /\ SELF_HEATING _ (Mlx90641 FO) = fofZ 5.
Proof. split; reflexivity. Qed.

(** ** C33 *)
(** Pixel [i] of two calls on pixel buffers with the same two bytes for that
    pixel (and anything elsewhere), into two destinations: if the pixel is
    selected, both store the same value, otherwise both leave it. *)
Theorem C33_pixels_are_independent : forall c em tr rc px1 px2 ram sp ap mask1 mask2 dest1 dest2 t1 out1 t2 out2 i v1 v2,
  nth_error (chunks2 px1) i = nth_error (chunks2 px2) i -> nth i mask1 false = nth i mask2 false ->
  nth_error dest1 i = Some v1 -> nth_error dest2 i = Some v2 ->
  raw_pixels_to_temperatures (E := E) p c em tr rc px1 ram sp ap mask1 dest1 = Ok (t1, out1) ->
  raw_pixels_to_temperatures (E := E) p c em tr rc px2 ram sp ap mask2 dest2 = Ok (t2, out2) ->
  t1 = t2 /\ (nth_error out1 i = nth_error out2 i \/ nth_error out1 i = Some v1 /\ nth_error out2 i = Some v2) /\
  (nth i mask1 false = false -> nth_error out1 i = Some v1 /\ nth_error out2 i = Some v2) /\
  (forall lay, nth i mask1 false = true -> complete c lay -> (i < lay_pixels lay)%nat -> (2 * i + 1 < length px1)%nat ->
     nth_error out1 i = nth_error out2 i).
Proof.
  intros c em tr rc px1 px2 ram sp ap mask1 mask2 dest1 dest2 t1 out1 t2 out2 i v1 v2 Hpx Hmask Hd1 Hd2.
  unfold raw_pixels_to_temperatures. destruct (common_new p rc em c ram) as [common| | |]; cbn [bind]; try discriminate.
  destruct (nth_error (k_s_to FO c) (BASIC_TEMPERATURE_RANGE FO (cam FO c))) as [kst|]; cbn [unwrap bind]; [|discriminate].
  intros H1 H2. injection H1 as <- <-. injection H2 as <- <-. split; [reflexivity|].
  rewrite !mfe_nth, Hd1, Hd2, !nth_error_zip, Hpx, Hmask.
  split; [|split].
  2:{ intros ->. split; repeat match goal with |- match ?x with _ => _ end = _ => destruct x | |- context [match nth_error ?l ?j with _ => _ end] => destruct (nth_error l j) end; reflexivity. }
  2:{ intros lay -> (C1 & C2 & C3 & C4 & C5 & _) Hi Hx.
      rewrite (nth_error_nth' (offset_reference_pixels FO c sp) 0), (nth_error_nth' (alpha_pixels FO c sp) (fofZ 0)),
        (nth_error_nth' (k_v_pixels FO c sp) (fofZ 0)), (nth_error_nth' (k_ta_pixels FO c sp) (fofZ 0)),
        (nth_error_nth' (access_pattern_compensation_pixels FO c ap) None) by (rewrite ?C1, ?C2, ?C3, ?C4, ?C5; exact Hi).
      rewrite <- Hpx, chunks2_nth. apply Nat.ltb_lt in Hx. rewrite Hx. reflexivity. }
  destruct (nth_error (chunks2 px2) i), (nth_error (offset_reference_pixels FO c sp) i), (nth_error (k_v_pixels FO c sp) i),
    (nth_error (k_ta_pixels FO c sp) i), (nth_error (alpha_pixels FO c sp) i), (nth_error (access_pattern_compensation_pixels FO c ap) i);
    try (right; split; reflexivity); destruct (nth i mask2 false); [left|right; split]; reflexivity.
Qed.
Theorem C33_pixels_are_independent_ir : forall c em rc px1 px2 ram sp ap mask1 mask2 dest1 dest2 t1 out1 t2 out2 i v1 v2,
  nth_error (chunks2 px1) i = nth_error (chunks2 px2) i -> nth i mask1 false = nth i mask2 false ->
  nth_error dest1 i = Some v1 -> nth_error dest2 i = Some v2 ->
  raw_pixels_to_ir_data (E := E) p c em rc px1 ram sp ap mask1 dest1 = Ok (t1, out1) ->
  raw_pixels_to_ir_data (E := E) p c em rc px2 ram sp ap mask2 dest2 = Ok (t2, out2) ->
  t1 = t2 /\ (nth_error out1 i = nth_error out2 i \/ nth_error out1 i = Some v1 /\ nth_error out2 i = Some v2) /\
  (nth i mask1 false = false -> nth_error out1 i = Some v1 /\ nth_error out2 i = Some v2) /\
  (forall lay, nth i mask1 false = true -> complete c lay -> (i < lay_pixels lay)%nat -> (2 * i + 1 < length px1)%nat ->
     nth_error out1 i = nth_error out2 i).
Proof.
  intros c em rc px1 px2 ram sp ap mask1 mask2 dest1 dest2 t1 out1 t2 out2 i v1 v2 Hpx Hmask Hd1 Hd2.
  unfold raw_pixels_to_ir_data. destruct (common_new p rc em c ram) as [common| | |]; cbn [bind]; try discriminate.
  intros H1 H2. injection H1 as <- <-. injection H2 as <- <-. split; [reflexivity|].
  rewrite !mfe_nth, Hd1, Hd2, !nth_error_zip, Hpx, Hmask.
  split; [|split].
  2:{ intros ->. split; repeat match goal with |- match ?x with _ => _ end = _ => destruct x | |- context [match nth_error ?l ?j with _ => _ end] => destruct (nth_error l j) end; reflexivity. }
  2:{ intros lay -> (C1 & C2 & C3 & C4 & C5 & _) Hi Hx.
      rewrite (nth_error_nth' (offset_reference_pixels FO c sp) 0),
        (nth_error_nth' (k_v_pixels FO c sp) (fofZ 0)), (nth_error_nth' (k_ta_pixels FO c sp) (fofZ 0)),
        (nth_error_nth' (access_pattern_compensation_pixels FO c ap) None) by (rewrite ?C1, ?C2, ?C3, ?C4, ?C5; exact Hi).
      rewrite <- Hpx, chunks2_nth. apply Nat.ltb_lt in Hx. rewrite Hx. reflexivity. }
  destruct (nth_error (chunks2 px2) i), (nth_error (offset_reference_pixels FO c sp) i), (nth_error (k_v_pixels FO c sp) i),
    (nth_error (k_ta_pixels FO c sp) i), (nth_error (access_pattern_compensation_pixels FO c ap) i);
    try (right; split; reflexivity); destruct (nth i mask2 false); [left|right; split]; reflexivity.
Qed.
End Calc.
Print Assumptions C31_one_pass_is_two_passes.
Print Assumptions C31_whole_image.
Print Assumptions C32_ignored_when_emissivity_is_one.
Print Assumptions C32_default.
Print Assumptions C32_default_ir.
Print Assumptions C32_self_heating.
Print Assumptions C33_pixels_are_independent.
Print Assumptions C33_pixels_are_independent_ir.

(** ** C35 *)
(** The supply voltage difference is computed in 16 bits. *)
Definition fits (z : Z) : Prop := -32768 <= z <= 32767.
Lemma in_i16_fits z : in_i16 z = true <-> fits z.
Proof.
  unfold in_i16, fits. rewrite andb_true_iff, !Z.leb_le. tauto.
Qed.

Theorem C35_delta_v : forall {FO : FloatOps} {E} p (c : calib FO) v,
  (delta_v (E := E) p c v = Panic <-> p = Debug /\ ~ fits (v - v_dd_25 _ c)) /\
  (fits (v - v_dd_25 _ c) -> delta_v (E := E) p c v = Ok (fdiv (fofZ (v - v_dd_25 _ c)) (fofZ (k_v_dd _ c)))) /\
  (p = Release -> exists z, delta_v (E := E) p c v = Ok (fdiv (fofZ z) (fofZ (k_v_dd _ c))) /\
                   fits z /\ (z - (v - v_dd_25 _ c)) mod 65536 = 0).
Proof.
  intros FO E p c v. unfold delta_v, chk_i16. pose proof (in_i16_fits (v - v_dd_25 FO c)) as Hf.
  destruct (in_i16 (v - v_dd_25 FO c)).
  - assert (Hx : fits (v - v_dd_25 FO c)) by (apply Hf; reflexivity).
    split; [|split].
    + split; [discriminate|]. intros [_ H]. contradiction.
    + reflexivity.
    + intros _. eexists. split; [reflexivity|]. split; [exact Hx|]. rewrite Z.sub_diag. reflexivity.
  - assert (Hx : ~ fits (v - v_dd_25 FO c)) by (intros H; apply Hf in H; discriminate).
    split; [|split].
    + destruct p; cbn [bind]; split; try discriminate; auto. intros [H _]. discriminate.
    + intros H. contradiction.
    + intros ->. eexists. split; [reflexivity|]. unfold wrap16, fits.
      set (d := v - v_dd_25 FO c). pose proof (Z.mod_pos_bound (d + 32768) 65536 ltac:(lia)).
      split; [lia|]. rewrite (Z.mod_eq (d + 32768) 65536) by lia.
      replace (d + 32768 - 65536 * ((d + 32768) / 65536) - 32768 - d) with (- ((d + 32768) / 65536) * 65536) by ring.
      apply Z.mod_mul. lia.
Qed.
Print Assumptions C35_delta_v.

(** Reachable for every calibration whose reference voltage is not zero (true of
    every MLX90640, see C42): some reading overflows. *)
Theorem C35_some_reading_overflows : forall {FO : FloatOps} (c : calib FO),
  fits (v_dd_25 _ c) -> v_dd_25 _ c <> 0 -> exists v, fits v /\ ~ fits (v - v_dd_25 _ c).
Proof.
  intros FO c H Hn. unfold fits in *.
  destruct (Z_lt_ge_dec (v_dd_25 _ c) 0); [exists 32767|exists (-32768)]; lia.
Qed.
Print Assumptions C35_some_reading_overflows.

Section Panics.
Context {FO : FloatOps} (p : profile) {B ER EW : Type} (bs : bus B ER EW).
Notation driver := (driver (FO := FO) (B := B) (ER := ER) (EW := EW)).
Notation op := (op (FO := FO)).
Implicit Types d : driver.

(** During the call the frame of a subpage was read completely, and the memory
    contents delivered in it satisfy [P]. *)
Definition frame_delivered (P : (Z -> Z) -> Prop) lay d d' (o : op) : Prop :=
  exists mem raw sp pre frame post,
    trace (d_bus d') = trace (d_bus d) ++ pre ++ frame ++ post /\
    asks (d_address d) o raw sp pre /\
    completed (d_address d) (frame_reads lay sp (d_access_pattern d)) frame /\
    (forall a, word (mem a)) /\ Forall (shows mem) frame /\ P mem.

Definition voltage_fits lay d (mem : Z -> Z) : Prop :=
  fits (signed (mem (lay_vdd lay)) - v_dd_25 _ (d_calibration d)).

Lemma calc_panic raw d ram sp dest lay : documented (cam _ (d_calibration d)) lay -> complete (d_calibration d) lay ->
  (calc (ER := ER) (EW := EW) p raw d ram sp dest = Panic <->
   p = Debug /\ ~ fits (v_dd_pixel ram - v_dd_25 _ (d_calibration d))).
Proof.
  intros Hdoc (_ & _ & _ & _ & _ & Hk). rewrite <- (proj1 (documented_constants _ _ Hdoc)) in Hk.
  assert (E : calc (ER := ER) (EW := EW) p raw d ram sp dest = Panic <->
              delta_v (E := error ER EW) p (d_calibration d) (v_dd_pixel ram) = Panic).
  { destruct raw; cbn [calc]; unfold calc_ir, calc_temperatures, raw_pixels_to_ir_data, raw_pixels_to_temperatures, common_new.
    - destruct (delta_v (E := error ER EW) p (d_calibration d) (v_dd_pixel ram)); cbn [bind]; split; congruence.
    - rewrite (nth_error_nth' _ (fofZ 0) Hk).
      destruct (delta_v (E := error ER EW) p (d_calibration d) (v_dd_pixel ram)); cbn [bind unwrap]; split; congruence. }
  rewrite E. apply (proj1 (C35_delta_v p (d_calibration d) (v_dd_pixel ram))).
Qed.

Theorem C35_image_call : forall lay d o dest r d' dest',
  usable d lay -> Forall byte (d_pixel_buffer d) -> destination o = Some dest ->
  step p bs d o = (r, d', dest') ->
  match r with
  | Panic => p = Debug /\ frame_delivered (fun mem => ~ voltage_fits lay d mem) lay d d' o
  | Ok OutUnit | Ok (OutBool true) | Err (I2cWriteError _) =>
      frame_delivered (fun mem => p = Debug -> voltage_fits lay d mem) lay d d' o
  | Ok (OutBool false) | Err (I2cWriteReadError _) => True
  | _ => False
  end.
Proof.
  intros lay d o dest r d' dest' Hu Hb Ho H.
  destruct (image_outcome p bs lay d o dest r d' dest' (usable_wf _ _ Hu) Ho H) as (evs & Ht & Hout).
  destruct (prims_fine bs _ _ (step_prims p bs d o r d' dest' H) Hb) as (_ & evs' & Ht' & Hf).
  rewrite Ht in Ht'. apply app_inv_head in Ht'. subst evs'.
  assert (G : forall sp (frame : list (event ER EW)), completed (d_address d) (frame_reads lay sp (d_access_pattern d)) frame ->
    Forall event_bytes frame -> (forall a, word (seen frame a)) /\ Forall (shows (seen frame)) frame).
  { intros sp frame Hcm Hfr. split; [intros a; apply seen_word, Hfr|].
    destruct Hu as (Hd & _). destruct (frame_reads_proper _ lay sp (d_access_pattern d) Hd) as [Hp Hap].
    eapply seen_shows; [exact Hcm|exact Hfr|exact Hp|exact Hap]. }
  assert (R : forall sp (w0 w : world B ER EW) ram buf evs, drv_read_ram bs sp (with_bus d w0) = (Ok ram, after_frame d buf w) ->
    trace w = trace w0 ++ evs -> (forall a, word (seen evs a)) -> Forall (shows (seen evs)) evs ->
    v_dd_pixel ram = signed (seen evs (lay_vdd lay))).
  { intros sp w0 w ram buf evs0 Hr Hw Hm Hs. unfold drv_read_ram in Hr.
    destruct (read_ram bs (cam _ (d_calibration (with_bus d w0))) (d_height (with_bus d w0)) (d_address (with_bus d w0))
      (d_access_pattern (with_bus d w0)) sp (d_pixel_buffer (with_bus d w0)) (d_bus (with_bus d w0))) as [[r0 buf'] w'] eqn:Hrr.
    assert (w' = w) as -> by (apply (f_equal (fun x => d_bus (snd x))) in Hr; exact Hr).
    assert (r0 = Ok ram) as -> by (apply (f_equal fst) in Hr; exact Hr). clear Hr.
    cbn [d_calibration d_height d_address d_access_pattern d_pixel_buffer d_bus with_bus] in Hrr.
    destruct Hu as (Hd & Hh & _).
    destruct (read_ram_shows bs (seen evs0) _ lay _ _ _ _ _ _ _ _ _ _ Hd Hh Hm Hrr Hw Hs) as ((_ & _ & Hv & _) & _).
    exact Hv. }
  destruct Hout as [x e w _ Hx|v w _ _ _|raw sp pre evs r buf w Ha Hfl _|raw sp pre evs ram buf w w0 Ha Hcm _ Hr Hcalc Hw
    |raw sp pre evs post ram buf w0 w w1 t dest' r Ha Hcm Hl Hw Hr Hcalc Hk]; try exact I.
  - destruct Hfl as [(e & -> & _)|(-> & Hsmall & _)]; [exact I|]. exfalso.
    destruct Hu as (Hd & _ & _ & Hbuf). destruct Hd; [change (2 * lay_pixels layout640)%nat with 1536%nat in Hbuf
                        |change (2 * lay_pixels layout641)%nat with 384%nat in Hbuf];
    cbn [lay_bytes layout640 layout641] in *; destruct (d_access_pattern d), sp; lia.
  - apply Forall_app in Hf. destruct Hf as [_ Hf]. destruct (G sp evs Hcm Hf) as [Hm Hs].
    apply (calc_panic raw (after_frame d buf w) ram sp dest lay) in Hcalc; [|apply Hu|apply Hu].
    destruct Hcalc as [Hp Hov]. split; [exact Hp|].
    exists (seen evs), raw, sp, pre, evs, []. rewrite app_nil_r. split; [exact Ht|].
    split; [exact Ha|]. split; [exact Hcm|]. split; [exact Hm|]. split; [exact Hs|].
    unfold voltage_fits. rewrite <- (R sp w0 w ram buf evs) by assumption. exact Hov.
  - apply Forall_app in Hf. destruct Hf as [_ Hf]. apply Forall_app in Hf. destruct Hf as [Hf _].
    destruct (G sp evs Hcm Hf) as [Hm Hs].
    assert (Q : frame_delivered (fun mem => p = Debug -> voltage_fits lay d mem) lay d
       (with_bus (with_ambient (after_frame d buf w) (Some t)) w1) o).
    { exists (seen evs), raw, sp, pre, evs, post. split; [exact Ht|].
      split; [exact Ha|]. split; [exact Hcm|]. split; [exact Hm|]. split; [exact Hs|].
      intros Hp. unfold voltage_fits. rewrite <- (R sp w0 w ram buf evs) by assumption.
      apply in_i16_fits. destruct (in_i16 _) eqn:E; [reflexivity|exfalso].
      assert (Hn : calc (ER := ER) (EW := EW) p raw (after_frame d buf w) ram sp dest = Panic).
      { apply (calc_panic raw (after_frame d buf w) ram sp dest lay); [apply Hu|apply Hu|]. split; [exact Hp|].
        intros Hfit. apply in_i16_fits in Hfit. change (d_calibration (after_frame d buf w)) with (d_calibration d) in Hfit. congruence. }
      congruence. }
    destruct Hk as [| | |v v' dest0 err]; try exact Q. destruct err; exact Q.
Qed.

(** ** C32 for drivers *)
(** With emissivity 1 an image call does the same whatever reflected temperature
    is set (and leaves that setting alone). *)
Theorem C32_driver_ignores_reflected : forall d t o,
  feqb (d_emissivity d) (fofZ 1) = true -> destination o <> None ->
  step p bs (with_reflected d t) o =
  let '(r, d', dest') := step p bs d o in (r, with_reflected d' t, dest').
Proof.
  intros d t o He Ho.
  assert (HR : forall sp d0, drv_read_ram bs sp (with_reflected d0 t) =
    let '(r, d') := drv_read_ram bs sp d0 in (r, with_reflected d' t)).
  { intros sp d0. unfold drv_read_ram.
    change (d_pixel_buffer (with_reflected d0 t)) with (d_pixel_buffer d0).
    cbn [d_calibration d_height d_address d_access_pattern d_bus with_reflected].
    destruct (read_ram bs (cam FO (d_calibration d0)) (d_height d0) (d_address d0) (d_access_pattern d0) sp (d_pixel_buffer d0) (d_bus d0))
      as [[r0 b0] w0]. reflexivity. }
  assert (HE : forall sp d0 r1 d1, drv_read_ram bs sp d0 = (r1, d1) -> d_emissivity d1 = d_emissivity d0).
  { intros sp d0 r1 d1. unfold drv_read_ram.
    destruct (read_ram bs (cam FO (d_calibration d0)) (d_height d0) (d_address d0) (d_access_pattern d0) sp (d_pixel_buffer d0) (d_bus d0))
      as [[r0 b0] w0]. intros E. injection E as _ <-. reflexivity. }
  assert (HS : forall d0, status_register_ bs (with_reflected d0 t) = let '(r, d') := status_register_ bs d0 in (r, with_reflected d' t)).
  { intros d0. unfold status_register_. cbn [d_address d_bus with_reflected].
    destruct (read_register bs (d_address d0) STATUS_ADDRESS (d_bus d0)). reflexivity. }
  assert (HSE : forall d0 r1 d1, status_register_ bs d0 = (r1, d1) -> d_emissivity d1 = d_emissivity d0).
  { intros d0 r1 d1. unfold status_register_.
    destruct (read_register bs (d_address d0) STATUS_ADDRESS (d_bus d0)). intros E. injection E as _ <-. reflexivity. }
  assert (HC : forall d0 ram sp dest, feqb (d_emissivity d0) (fofZ 1) = true ->
    calc_temperatures (ER := ER) (EW := EW) p (with_reflected d0 t) ram sp dest = calc_temperatures p d0 ram sp dest).
  { intros d0 ram sp dest H0. unfold calc_temperatures. cbn [d_calibration d_emissivity d_reflected d_resolution_correction
      d_pixel_buffer d_access_pattern with_reflected].
    refine (proj1 (C32_ignored_when_emissivity_is_one p _ _ _ _ _ _ _ _ _ _ _ (fofZ 0) _)). exact H0. }
  assert (HG : forall sp dest d0, feqb (d_emissivity d0) (fofZ 1) = true ->
    generate_image_subpage_to p bs sp dest (with_reflected d0 t) =
    let '(r, d', dest') := generate_image_subpage_to p bs sp dest d0 in (r, with_reflected d' t, dest')).
  { intros sp dest d0 H0. unfold generate_image_subpage_to. rewrite HR.
    destruct (drv_read_ram bs sp d0) as [r1 d1] eqn:E1. apply HE in E1.
    destruct r1 as [ram|e| |]; try reflexivity. rewrite HC by (rewrite E1; exact H0).
    destruct (calc_temperatures p d1 ram sp dest) as [[ta dest']|e| |]; reflexivity. }
  assert (HL : forall A (f : A -> out (FO := FO)) (x : mi (FO := FO) (B := B) (ER := ER) (EW := EW) A),
    lifti f (let '(r, d', dest') := x in (r, with_reflected d' t, dest')) =
    let '(r, d', dest') := lifti f x in (r, with_reflected d' t, dest')).
  { intros A f [[r0 d0] dest0]. unfold lifti. destruct r0; reflexivity. }
  destruct o; cbn [destination] in Ho; try congruence; cbn [step].
  - rewrite <- HL. f_equal. unfold generate_raw_image_subpage_to. rewrite HR.
    destruct (drv_read_ram bs sp d) as [r1 d1]. destruct r1 as [ram|e| |]; try reflexivity.
    change (calc_ir (ER := ER) (EW := EW) p (with_reflected d1 t) ram sp dest) with (calc_ir (ER := ER) (EW := EW) p d1 ram sp dest).
    destruct (calc_ir p d1 ram sp dest) as [[ta dest']|e| |]; reflexivity.
  - rewrite HG by exact He. apply HL.
  - rewrite <- HL. f_equal. unfold generate_image_to, last_measured_subpage. rewrite HS.
    destruct (status_register_ bs d) as [r1 d1] eqn:E1. apply HSE in E1. unfold bindS.
    destruct r1 as [st|e| |]; try reflexivity. cbn [pure].
    destruct (last_updated_subpage st) as [sp|e| |]; try reflexivity. apply HG. rewrite E1. exact He.
  - rewrite <- HL. f_equal. unfold generate_image_if_ready. rewrite HS.
    destruct (status_register_ bs d) as [r1 d1] eqn:E1. apply HSE in E1.
    destruct r1 as [st|e| |]; try reflexivity.
    destruct (new_data st); [|reflexivity].
    destruct (last_updated_subpage st) as [sp|e| |]; try reflexivity.
    rewrite HR. destruct (drv_read_ram bs sp d1) as [r2 d2] eqn:E2. apply HE in E2.
    destruct r2 as [ram|e| |]; try reflexivity. rewrite HC by (rewrite E2, E1; exact He).
    destruct (calc_temperatures p d2 ram sp dest) as [[ta dest']|e| |]; try reflexivity.
    cbn [store_image]. unfold set_status_register. cbn [d_address d_bus with_reflected with_ambient].
    destruct (write_register bs (d_address d2) STATUS_ADDRESS (reset_new_data st) (d_bus d2)). reflexivity.
Qed.
End Panics.
Print Assumptions C35_image_call.
Print Assumptions C32_driver_ignores_reflected.

(** ** Concrete cases *)
(** The demo calibrations are complete, so C31, C33 and C35 apply to them. *)
Example demo_complete : complete demo640 layout640 /\ complete demo641 layout641.
Proof.
  split; (split; [intros; vm_compute; reflexivity|]); (split; [intros; vm_compute; reflexivity|]);
    (split; [intros; vm_compute; reflexivity|]); (split; [intros; vm_compute; reflexivity|]);
    (split; [intros; vm_compute; reflexivity|]); vm_compute; lia.
Qed.
(** A frame whose supply voltage reading (-13115) minus the reference (here 20000)
    overflows: with overflow checks the call panics, without them it computes an image. *)
Example C35_concrete :
  match demo_driver 12 384 (demo_calib_v 20000 (Mlx90641 ZFO) 192) 0x0008 0x0901 with
  | Some d =>
      fst (fst (step Debug (toy_bus never never) d (OpGenerateImage (repeat (0 : F ZFO) 192)))) = Panic /\
      fst (fst (step Release (toy_bus never never) d (OpGenerateImage (repeat (0 : F ZFO) 192)))) = Ok OutUnit
  | None => False
  end.
Proof. vm_compute. split; reflexivity. Qed.
(** Emissivity 1 and any reflected temperature: 192 pixels, the same image; with
    emissivity 2 the reflected temperature matters. *)
Example C32_concrete :
  match demo_driver 12 384 demo641 0x0008 0x0901 with
  | Some d =>
      let image d := snd (step Debug (toy_bus never never) d (OpGenerateImage (repeat (0 : F ZFO) 192))) in
      image d = image (with_reflected d (Some (40 : F ZFO))) /\
      image (with_emissivity d (2 : F ZFO)) <> image (with_emissivity (with_reflected d (Some (40 : F ZFO))) (2 : F ZFO))
  | None => False
  end.
Proof. vm_compute. split; [reflexivity|discriminate]. Qed.
