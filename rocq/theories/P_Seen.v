(** * C14 and C55: the data delivered during a frame always are the contents of
    some memory, so the conditional statements of C14 and C55 ("if the bus
    delivered the words of [mem] ...") apply to every completed frame. *)
From Verif Require Import Base FloatOps Register Bus Camera Cam640 Cam641 Ee640 Ee641 Calc CalcFacts Driver
  BitFacts SpecRegister RegisterFacts SpecCamera CameraFacts SpecDriver DriverFacts StepFacts Demo
  SpecImage SpecCall ImageFacts SeenFacts P_Bus P_Image P_Frames P_ImageDemo.

Section Seen.
Context {FO : FloatOps} (p : profile) {B ER EW : Type} (bs : bus B ER EW).
Notation driver := (driver (FO := FO) (B := B) (ER := ER) (EW := EW)).
Notation W := (world B ER EW).
Implicit Types d : driver.

Theorem C14_transcript_always_shows_a_memory :
  forall (c : camera FO) lay height i2c ap sp buf (w : W) ram buf' w',
  documented c lay -> (lay_height lay <= height)%nat -> Forall byte buf ->
  read_ram bs c height i2c ap sp buf w = (Ok ram, buf', w') ->
  exists mem evs, (forall a, word (mem a)) /\ trace w' = trace w ++ evs /\ Forall (shows mem) evs.
Proof. apply frame_shows_some_memory. Qed.

(** The pixel buffer of a driver always holds bytes, and so does every delivered data item. *)
Definition fine d d' : Prop := Forall byte (d_pixel_buffer d) ->
  Forall byte (d_pixel_buffer d') /\ grew (d_bus d) (d_bus d').
Lemma fine_trans a b c : fine a b -> fine b c -> fine a c.
Proof.
  intros H1 H2 Hb. destruct (H1 Hb) as [Hb1 (e1 & T1 & F1)]. destruct (H2 Hb1) as [Hb2 (e2 & T2 & F2)].
  split; [exact Hb2|]. exists (e1 ++ e2). rewrite T2, T1, app_assoc. split; [reflexivity|apply Forall_app; auto].
Qed.
Lemma word_bytes v : word v -> Forall byte [v / 256; v mod 256].
Proof.
  intros Hv. unfold word in Hv. repeat constructor; unfold byte.
  - apply Z.div_pos; lia.
  - apply Z.div_lt_upper_bound; lia.
  - apply Z.mod_pos_bound; lia.
  - apply Z.mod_pos_bound; lia.
Qed.
Lemma read_register_bytes i2c a (w : W) r w' : read_register bs i2c a w = (r, w') -> grew w w'.
Proof.
  unfold read_register. destruct (write_read bs i2c (to_be_bytes a) [0; 0] w) as [[data e] w0] eqn:E.
  apply write_read_bytes in E; [|apply zero_bytes]. destruct E as (_ & x & Ht & Hx). intros H.
  assert (w' = w0) as -> by (destruct e; injection H; auto).
  eapply grew_one; [apply grew_refl|exact Ht|exact Hx].
Qed.
Lemma prim_fine d d' : prim bs d d' -> fine d d'.
Proof.
  intros H. destruct H as [d r d' H|d r d' H|v d r d' Hv H|v d r d' Hv H|sp d r d' H|d t|d t|d t]; intros Hb;
    try (split; [exact Hb|apply grew_refl]).
  - unfold status_register_ in H. destruct (read_register bs (d_address d) STATUS_ADDRESS (d_bus d)) as [r0 w0] eqn:E.
    apply read_register_bytes in E. injection H as _ <-. split; [exact Hb|exact E].
  - unfold control_register_ in H. destruct (read_register bs (d_address d) CONTROL_ADDRESS (d_bus d)) as [r0 w0] eqn:E.
    apply read_register_bytes in E.
    unfold bindS in H. destruct r0 as [v| | |]; try (injection H as _ <-; split; [exact Hb|exact E]).
    unfold update_control_register in H.
    destruct (ctl_resolution v) in H; cbn [bind] in H; try (injection H as _ <-; split; [exact Hb|exact E]).
    destruct (ctl_access_pattern v) in H; cbn [bind] in H; injection H as _ <-; split; try exact Hb; exact E.
  - apply set_status_register_spec in H. destruct H as (w' & e & -> & Ht & _). split; [exact Hb|].
    eapply grew_one; [apply grew_refl|exact Ht|exact I].
  - apply set_control_register_spec in H; [|exact Hv]. destruct H as (w' & e & -> & Ht & _). split; [exact Hb|].
    eapply grew_one; [apply grew_refl|exact Ht|exact I].
  - unfold drv_read_ram in H.
    destruct (read_ram bs (cam _ (d_calibration d)) (d_height d) (d_address d) (d_access_pattern d) sp
      (d_pixel_buffer d) (d_bus d)) as [[r0 buf'] w'] eqn:E.
    apply read_ram_bytes in E; [|exact Hb]. injection H as _ <-. exact E.
Qed.
Lemma prims_fine d d' : prims bs d d' -> fine d d'.
Proof.
  apply (prims_rel bs fine); [|exact fine_trans|exact prim_fine].
  intros x Hb. split; [exact Hb|apply grew_refl].
Qed.

(** C55 without a hypothesis about the data: after any history of a driver, a
    call that computes an image delivers the documented values for the memory
    contents the camera showed in the frame read. *)
Theorem C55_every_image_is_documented : forall lay d0 ops o dest r d' dest',
  usable d0 lay -> Forall byte (d_pixel_buffer d0) ->
  let d := run p bs d0 ops in
  destination o = Some dest -> step p bs d o = (r, d', dest') -> computed o r ->
  exists mem raw sp pre frame post,
    trace (d_bus d') = trace (d_bus d) ++ pre ++ frame ++ post /\
    asks (d_address d) o raw sp pre /\
    completed (d_address d) (frame_reads lay sp (d_access_pattern d)) frame /\
    acknowledges (d_address d) o pre post r /\
    (forall a, word (mem a)) /\ Forall (shows mem) frame /\
    d_ambient d' = Some (doc_t_a (d_calibration d) lay mem) /\
    image_stored (d_calibration d) lay (settings_of d) sp mem raw dest dest'.
Proof.
  intros lay d0 ops o dest r d' dest' Hu Hb d Ho H Hc.
  assert (Hu' : usable d lay) by (apply usable_run; exact Hu).
  assert (Hb' : Forall byte (d_pixel_buffer d)) by (apply (prims_fine _ _ (run_prims p bs ops d0)); exact Hb).
  clearbody d. clear d0 ops Hu Hb.
  destruct (C55_image_values p bs lay d o dest r d' dest' Hu' Ho H Hc)
    as (raw & sp & pre & frame & post & Ht & Ha & Hcm & Hk & Hv).
  destruct (prims_fine _ _ (step_prims p bs d o r d' dest' H) Hb') as (_ & evs & Ht' & Hf).
  rewrite Ht in Ht'. apply app_inv_head in Ht'. subst evs.
  apply Forall_app in Hf. destruct Hf as [_ Hf]. apply Forall_app in Hf. destruct Hf as [Hf _].
  assert (Hm : forall a, word (seen frame a)) by (intros a; apply seen_word, Hf).
  assert (Hs : Forall (shows (seen frame)) frame).
  { destruct Hu' as (Hd & _). destruct (frame_reads_proper _ lay sp (d_access_pattern d) Hd) as [Hp Hap].
    eapply seen_shows; [exact Hcm|exact Hf|exact Hp|exact Hap]. }
  exists (seen frame), raw, sp, pre, frame, post. destruct (Hv _ Hm Hs) as [V1 V2]. auto 12.
Qed.
End Seen.
Print Assumptions C14_transcript_always_shows_a_memory.
Print Assumptions C55_every_image_is_documented.
