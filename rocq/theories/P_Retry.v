(** * Property C82: a call that failed in a read leaves nothing behind. *)
From Verif Require Import Base FloatOps Register Bus Camera Calc BitFacts SpecCamera CameraFacts SpecRegister SpecDriver DriverFacts
  SpecImage SpecCall ImageFacts StepFacts P_Image P_Frames P_Seen SpecReplay SpecRetry RetryFacts Demo P_ImageDemo P_Replay Driver.

Section Theorems.
Context {FO : FloatOps} (p : profile) {B ER EW : Type} (bs : bus B ER EW).
Notation driver := (driver (FO := FO) (B := B) (ER := ER) (EW := EW)).
Notation err := (error ER EW).
Notation m := (m (FO := FO) (B := B) (ER := ER) (EW := EW)).
Notation op := (op (FO := FO)).
Implicit Types d : driver.

(** What is in the pixel buffer is never seen: neither in a result nor in a destination nor on the bus. *)
Theorem C82_buffer_is_not_seen : forall lay d1 d2 ops, fills bs ->
  usable d1 lay -> Forall byte (d_pixel_buffer d1) -> alike d1 d2 ->
  outcomes p bs d2 ops = outcomes p bs d1 ops /\ alike (run p bs d1 ops) (run p bs d2 ops).
Proof.
  intros lay d1 d2 ops Hf Hu Hb Ha. pose proof (alike_rel lay d1 d2 Ha Hb (usable_wf _ _ Hu)) as Hr. clear Hu Hb Ha.
  assert (G : outcomes p bs d2 ops = outcomes p bs d1 ops /\ rel lay (run p bs d1 ops) (run p bs d2 ops)).
  { revert d1 d2 Hr. induction ops as [|o ops IH]; intros d1 d2 Hr; [split; [reflexivity|exact Hr]|].
    pose proof (blind_step p bs Hf lay o d1 d2 Hr) as [E1 E2]. cbn [outcomes run fold_left]. unfold step_state.
    destruct (step p bs d1 o) as [[r1 d1'] dest1], (step p bs d2 o) as [[r2 d2'] dest2].
    cbn [view fst snd] in *. apply pair_equal_spec in E1. destruct E1 as [-> ->].
    destruct (IH d1' d2' E2) as [I1 I2]. split; [rewrite I1; reflexivity|exact I2]. }
  destruct G as [G1 G2]. split; [exact G1|eapply rel_alike; exact G2].
Qed.

(** ** Calls that fail in a read *)
Definition quiet {A} (M : driver -> m A) : Prop :=
  forall d e d', M d = (Err (I2cWriteReadError e), d') -> exists w, d' = with_bus d w.
Definition noerr {A} (r : res err A) : Prop := forall e, r <> Err e.

Lemma noerr_unwrap {A} (x : option A) : noerr (unwrap x).
Proof. intros e. destruct x; discriminate. Qed.
Lemma noerr_unwrap_res {E A} (x : res E A) : noerr (unwrap_res x).
Proof. intros e. destruct x; discriminate. Qed.
Lemma with_bus_twice d w1 w2 : with_bus (with_bus d w1) w2 = with_bus d w2.
Proof. reflexivity. Qed.

Lemma quiet_status_then {A} (K : Z -> driver -> m A) : (forall v, quiet (K v)) ->
  quiet (fun d => bindS (status_register_ bs d) K).
Proof.
  intros HK d e d' H. unfold bindS in H. destruct (status_register_ bs d) as [r0 d0] eqn:E. apply status_register_spec in E.
  destruct E as (w' & -> & [(v & -> & _)|(e0 & x & -> & _)]).
  - destruct (HK v _ _ _ H) as [w ->]. exists w. reflexivity.
  - apply pair_equal_spec in H. destruct H as [_ <-]. exists w'. reflexivity.
Qed.
Lemma quiet_control_then {A} (K : Z -> driver -> m A) : (forall v d e, fst (K v d) <> Err (I2cWriteReadError e)) ->
  quiet (fun d => bindS (control_register_ bs d) K).
Proof.
  intros HK d e d' H. unfold bindS in H. destruct (control_register_ bs d) as [r0 d0] eqn:E. apply control_register_spec in E.
  destruct E as (w' & [(v & -> & _)|(e0 & x & -> & _ & -> & _)]).
  - exfalso. apply (HK v d0 e). rewrite H. reflexivity.
  - apply pair_equal_spec in H. destruct H as [_ <-]. exists w'. reflexivity.
Qed.
Lemma quiet_never {A} (M : driver -> m A) : (forall d e, fst (M d) <> Err (I2cWriteReadError e)) -> quiet M.
Proof. intros H d e d' E. exfalso. apply (H d e). rewrite E. reflexivity. Qed.

Lemma wreg_never reg v i2c w e : fst (write_register bs i2c reg v w) <> Err (I2cWriteReadError e).
Proof. unfold write_register. destruct (bus_write bs i2c _ w) as [[x|] w']; discriminate. Qed.
Lemma write_status_never v d e : fst (set_status_register bs v d) <> Err (I2cWriteReadError e).
Proof.
  unfold set_status_register. pose proof (wreg_never STATUS_ADDRESS v (d_address d) (d_bus d) e) as H.
  destruct (write_register bs (d_address d) STATUS_ADDRESS v (d_bus d)) as [r w']. exact H.
Qed.
Lemma write_control_never v d e : fst (set_control_register bs v d) <> Err (I2cWriteReadError e).
Proof.
  unfold set_control_register, bindS, update_control_register.
  pose proof (noerr_unwrap_res (resolution_from_raw (field CT_RESOLUTION_MASK 10 v))) as N1. fold (ctl_resolution (E := err) v) in N1.
  pose proof (noerr_unwrap (access_pattern_try_from (field CT_ACCESS_PATTERN_MASK 12 v))) as N2. fold (ctl_access_pattern (E := err) v) in N2.
  destruct (ctl_resolution v) as [x|x| |]; [|exfalso; exact (N1 x eq_refl)|discriminate|discriminate].
  destruct (ctl_access_pattern v) as [y|y| |]; [|exfalso; exact (N2 y eq_refl)|discriminate|discriminate].
  match goal with |- context [write_register bs ?a ?r ?v ?w] => pose proof (wreg_never r v a w e) as H; destruct (write_register bs a r v w) as [r0 w'] end.
  exact H.
Qed.

Lemma quiet_control_get {A} (f : Z -> res err A) : (forall v, noerr (f v)) ->
  quiet (fun d => bindS (control_register_ bs d) (fun r d => (f r, d))).
Proof. intros Hf. apply quiet_control_then. intros v d e. apply Hf. Qed.
Lemma quiet_control_field {V} (getter : Z -> res err V) setter eqb v : (forall v, noerr (getter v)) ->
  quiet (set_control_field bs getter setter eqb v).
Proof.
  intros Hg. apply (quiet_control_then (fun current d => bindS (getter current, d) (fun old d =>
    if negb (eqb old v) then set_control_register bs (setter current v) d else (Ok tt, d)))).
  intros w d e. unfold bindS. specialize (Hg w). destruct (getter w) as [old|x| |]; [|exfalso; exact (Hg x eq_refl)|discriminate|discriminate].
  destruct (negb (eqb old v)); [apply write_control_never|discriminate].
Qed.
Lemma quiet_poll fuel : forall status, quiet (poll bs fuel status).
Proof.
  induction fuel as [|fuel IH]; intros status d e d'; cbn [poll]; destruct (new_data status); try discriminate.
  apply (quiet_status_then (fun s => poll bs fuel s)). exact IH.
Qed.
Lemma quiet_synchronize fuel : quiet (synchronize bs fuel).
Proof.
  apply quiet_status_then. intros v d e d' H. unfold bindS in H.
  destruct (set_status_register bs (set_start_measurement (set_overwrite_enabled (reset_new_data v) true)) d) as [r0 d0] eqn:E.
  pose proof (write_status_never (set_start_measurement (set_overwrite_enabled (reset_new_data v) true)) d e) as N. rewrite E in N.
  apply set_status_register_spec in E. destruct E as (w' & x & -> & _ & ->).
  destruct x as [x|].
  - exfalso. apply N. apply pair_equal_spec in H. destruct H as [H _]. exact H.
  - apply quiet_poll in H. destruct H as [w ->]. exists w. reflexivity.
Qed.

Lemma quiet_lift {A} (f : A -> out) (M : driver -> m A) d e d' dest : quiet M ->
  lift f (M d) = (Err (I2cWriteReadError e), d', dest) -> dest = [] /\ exists w, d' = with_bus d w.
Proof.
  intros HM H. unfold lift in H. destruct (M d) as [r d1] eqn:E. apply pair_equal_spec in H. destruct H as [H <-].
  apply pair_equal_spec in H. destruct H as [H <-]. split; [reflexivity|].
  destruct r as [a|x| |]; try discriminate. cbn [bind] in H. injection H as ->. eapply HM. exact E.
Qed.

(** The destination a call was given ([[]] if it takes none). *)
Definition given (o : op) : list (F FO) := match destination o with Some dest => dest | None => [] end.

Lemma failed_read lay d o e d' dest' : usable d lay -> step p bs d o = (Err (I2cWriteReadError e), d', dest') ->
  dest' = given o /\ exists buf w, length buf = length (d_pixel_buffer d) /\ d' = with_bus (with_buffer d buf) w.
Proof.
  intros Hu H.
  assert (N : (dest' = [] /\ exists w, d' = with_bus d w) -> destination o = None ->
    dest' = given o /\ exists buf w, length buf = length (d_pixel_buffer d) /\ d' = with_bus (with_buffer d buf) w).
  { intros [-> [w ->]] Ho. unfold given. rewrite Ho. split; [reflexivity|]. exists (d_pixel_buffer d), w.
    split; [reflexivity|]. destruct d. reflexivity. }
  destruct (destination o) as [dest|] eqn:Ho.
  - clear N. unfold given. rewrite Ho.
    destruct (image_outcome p bs lay d o dest _ d' dest' (usable_wf _ _ Hu) Ho H) as (evs & _ & Hout).
    remember (Err (I2cWriteReadError e)) as r eqn:Er.
    destruct Hout as [x e0 w _ _|v w _ _ _|raw sp pre evs r buf w Ha Hf Hl|raw sp pre evs ram buf w w0 Ha Hcm _ Hr _
      |raw sp pre evs post ram buf w0 w w1 t dest' r Ha Hcm Hl Hw Hr Hcalc Hk].
    + split; [reflexivity|]. exists (d_pixel_buffer d), w. split; [reflexivity|]. destruct d. reflexivity.
    + discriminate Er.
    + split; [reflexivity|]. exists buf, w. split; [exact Hl|reflexivity].
    + discriminate Er.
    + exfalso. destruct Hk as [| | |v v' dest0 x _ _ _ _]; try discriminate Er. destruct x; discriminate Er.
  - apply N; [|reflexivity]. clear N.
    destruct o; try discriminate Ho; cbn [step] in H;
      try (exfalso; apply pair_equal_spec in H; destruct H as [H _]; apply pair_equal_spec in H; destruct H as [H _]; discriminate H);
      (eapply quiet_lift; [|exact H]).
    + apply quiet_status_then. intros v. apply quiet_never. intros d0 e0. apply noerr_unwrap.
    + apply quiet_status_then. intros v. apply quiet_never. intros d0 e0. destruct (new_data v); [|discriminate].
      unfold pure. cbn [fst]. unfold last_updated_subpage. destruct (subpage_try_from _); discriminate.
    + apply quiet_status_then. intros v. apply quiet_never. intros d0 e0. apply write_status_never.
    + apply quiet_status_then. intros v. apply quiet_never. discriminate.
    + apply quiet_status_then. intros w0. apply quiet_never. intros d0 e0. unfold bindS, total.
      destruct (negb _); [apply write_status_never|discriminate].
    + apply (quiet_control_get (total use_subpages)). discriminate.
    + apply quiet_control_field. discriminate.
    + apply (quiet_control_get (total data_hold)). discriminate.
    + apply quiet_control_field. discriminate.
    + apply (quiet_control_get (total subpage_repeat)). discriminate.
    + apply quiet_control_field. discriminate.
    + apply (quiet_control_get ctl_subpage). intros w. apply noerr_unwrap.
    + apply quiet_control_field. intros w. apply noerr_unwrap.
    + apply (quiet_control_get ctl_frame_rate). intros w. apply noerr_unwrap_res.
    + apply quiet_control_field. intros w. apply noerr_unwrap_res.
    + apply (quiet_control_get ctl_resolution). intros w. apply noerr_unwrap_res.
    + apply quiet_control_field. intros w. apply noerr_unwrap_res.
    + apply (quiet_control_get ctl_access_pattern). intros w. apply noerr_unwrap.
    + apply quiet_control_field. intros w. apply noerr_unwrap.
    + apply quiet_synchronize.
Qed.

(** A call that failed in a read leaves its destination untouched, and whatever is called afterwards
    does and returns what it would, with the camera as it now is, had that call not been made. *)
Theorem C82_failed_read_leaves_nothing : forall lay d o e d' dest' ops, fills bs ->
  usable d lay -> Forall byte (d_pixel_buffer d) ->
  step p bs d o = (Err (I2cWriteReadError e), d', dest') ->
  let without := connect d (d_bus d') in
  dest' = given o /\ outcomes p bs d' ops = outcomes p bs without ops /\
  alike (run p bs without ops) (run p bs d' ops).
Proof.
  intros lay d o e d' dest' ops Hf Hu Hb H without.
  destruct (failed_read lay d o e d' dest' Hu H) as (-> & buf & w & Hl & ->).
  split; [reflexivity|]. apply (C82_buffer_is_not_seen lay); [exact Hf|exact Hu|exact Hb|].
  unfold alike. cbn. repeat split. exact Hl.
Qed.

(** Failing any number of times. *)
Theorem C82_failed_reads_leave_nothing : forall lay tries d ops, fills bs ->
  usable d lay -> Forall byte (d_pixel_buffer d) ->
  Forall (fun x => exists e, fst x = Err (I2cWriteReadError e)) (outcomes p bs d tries) ->
  let d' := run p bs d tries in
  let without := connect d (d_bus d') in
  map snd (outcomes p bs d tries) = map given tries /\
  outcomes p bs d' ops = outcomes p bs without ops /\
  alike (run p bs without ops) (run p bs d' ops).
Proof.
  intros lay tries d ops Hf Hu Hb Hall d' without.
  assert (G : map snd (outcomes p bs d tries) = map given tries /\
    exists buf w, length buf = length (d_pixel_buffer d) /\ d' = with_bus (with_buffer d buf) w).
  { unfold d'. clear d' without ops. revert d Hu Hb Hall. induction tries as [|o tries IH]; intros d Hu Hb Hall.
    - split; [reflexivity|]. exists (d_pixel_buffer d), (d_bus d). split; [reflexivity|]. destruct d. reflexivity.
    - cbn [outcomes run fold_left] in *.
      destruct (step p bs d o) as [[r d1] dest1] eqn:E.
      assert (Es : step_state p bs d o = d1) by (unfold step_state; rewrite E; reflexivity). rewrite Es. clear Es. inversion Hall as [|x l [e Hx] Hall']; subst. cbn [fst] in Hx. subst r.
      destruct (failed_read lay d o e d1 dest1 Hu E) as (-> & buf & w & Hl & ->).
      assert (Hu1 : usable (with_bus (with_buffer d buf) w) lay).
      { destruct Hu as (U1 & U2 & U3 & U4). unfold usable. cbn [d_calibration d_height d_pixel_buffer with_bus with_buffer]. rewrite Hl. auto. }
      pose proof (proj1 (prims_fine bs _ _ (step_prims p bs d o _ _ _ E) Hb)) as Hb1.
      destruct (IH _ Hu1 Hb1 Hall') as (E1 & buf' & w' & Hl' & E2). split; [cbn [map snd]; rewrite E1; reflexivity|].
      exists buf', w'. split; [rewrite Hl'; exact Hl|]. unfold run in E2. rewrite E2. reflexivity. }
  destruct G as (G1 & buf & w & Hl & G2). split; [exact G1|]. unfold without. rewrite G2 in *.
  apply (C82_buffer_is_not_seen lay); [exact Hf|exact Hu|exact Hb|]. unfold alike. cbn. repeat split. exact Hl.
Qed.
End Theorems.
Print Assumptions C82_buffer_is_not_seen.
Print Assumptions C82_failed_read_leaves_nothing.
Print Assumptions C82_failed_reads_leave_nothing.

(** ** Concrete case *)
Lemma toy_fills schedule fails : fills (toy_bus schedule fails).
Proof.
  intros b a wb buf1 buf2 Hl. cbn [toy_bus dev_write_read]. rewrite Hl. split; [reflexivity|]. split; [reflexivity|].
  intros _. split; [reflexivity|]. apply CameraFacts.mem_bytes_length.
Qed.
(** Two attempts at an image fail in the middle of the frame; the third succeeds. *)
Definition attempt : op (FO := ZFO) := OpGenerateSubpage (FO := ZFO) Zero (repeat (0 : F ZFO) 4).
Example C82_concrete :
  match demo_driver 12 384 demo641 0x0009 0x0901 with
  | Some d =>
      let bs := toy_bus (at_clock 3) (fun n => Nat.eqb n 5 || Nat.eqb n 9) in
      usable d layout641 /\ all_bytes (d_pixel_buffer d) = true /\
      map fst (outcomes Debug bs d [attempt; attempt]) =
        [Err (I2cWriteReadError "nack"%string); Err (I2cWriteReadError "nack"%string)] /\
      let d' := run Debug bs d [attempt; attempt] in
      d_pixel_buffer d' <> d_pixel_buffer d /\
      map fst (outcomes Debug bs d' [attempt]) = [Ok OutUnit]
  | None => False
  end.
Proof.
  pose proof (demo641_usable 0x0009 0x0901) as Hu.
  destruct (demo_driver 12 384 demo641 0x0009 0x0901) as [d|] eqn:E; [|discriminate E].
  split; [exact Hu|]. clear Hu.
  assert (G : match demo_driver 12 384 demo641 0x0009 0x0901 with
    | Some d => let bs := toy_bus (at_clock 3) (fun n => Nat.eqb n 5 || Nat.eqb n 9) in
      all_bytes (d_pixel_buffer d) = true /\
      map fst (outcomes Debug bs d [attempt; attempt]) =
        [Err (I2cWriteReadError "nack"%string); Err (I2cWriteReadError "nack"%string)] /\
      let d' := run Debug bs d [attempt; attempt] in
      d_pixel_buffer d' <> d_pixel_buffer d /\
      map fst (outcomes Debug bs d' [attempt]) = [Ok OutUnit]
    | None => False end).
  { vm_compute. split; [reflexivity|]. split; [reflexivity|]. split; [discriminate|reflexivity]. }
  rewrite E in G. exact G.
Qed.
