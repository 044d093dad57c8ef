(** * Property C107: a program stopped, or a cable pulled, in the middle of anything. *)
From Verif Require Import Base FloatOps Register Bus Camera Cam640 Cam641 Calc CalcFacts
  BitFacts SpecRegister RegisterFacts SpecCamera CameraFacts SpecDriver DriverFacts StepFacts
  SpecImage SpecCall ImageFacts Mock SpecMock P_Bus P_Image TraceFacts SpecHold HoldFacts P_Hold SpecReplay StrategyFacts P_Replay Demo P_Frames P_Sync SpecCrash CrashFacts Driver.

Section Crash.
Context {FO : FloatOps} (p : profile) {B B0 ER EW : Type} (bs : bus B ER EW) (bs0 : bus B0 ER EW).
Notation driver := (driver (FO := FO) (B := B) (ER := ER) (EW := EW)).
Notation op := (op (FO := FO)).
Notation event := (event ER EW).
Implicit Types d : driver.

Lemma connect_onto {B1 B2} (d : Driver.driver (FO := FO) (B := B1) (ER := ER) (EW := EW)) (w : world B2 ER EW) : connect d w = onto d w.
Proof. reflexivity. Qed.
Lemma core_connect {B1 B2} (d : Driver.driver (FO := FO) (B := B1) (ER := ER) (EW := EW)) (w : world B2 ER EW) : core (connect d w) = core d.
Proof. reflexivity. Qed.

(** One call on the bus that will be cut off, next to the same call on the whole bus. *)
Lemma call_cut d (o : op) n z tr r d1 dest rc dc destc : Forall byte (d_pixel_buffer d) ->
  step p bs d o = (r, d1, dest) ->
  step p (cut bs bs0) (connect d (Build_world (dev (d_bus d), n, z) tr)) o = (rc, dc, destc) ->
  Forall byte (d_pixel_buffer d1) /\
  exists evs, trace (d_bus d1) = trace (d_bus d) ++ evs /\
  (((length evs <= n)%nat /\ rc = r /\ destc = dest /\
      dc = connect d1 (Build_world (dev (d_bus d1), (n - length evs)%nat, z) (tr ++ evs))) \/
   ((n < length evs)%nat /\ exists b' z', dev (d_bus dc) = (b', O, z') /\ Forall byte (d_pixel_buffer dc) /\
      performed bs (dev (d_bus d)) (firstn n evs) b' /\ performed bs b' (skipn n evs) (dev (d_bus d1)))).
Proof.
  intros Hb H Hc.
  pose proof (um_step p (ER := ER) (EW := EW) o (core d) Hb) as Hu.
  assert (E1 : lifted (fun B bs x => seen (step p bs x o)) (core d) B bs (Build_world (dev (d_bus d)) (trace (d_bus d))) =
    (((r, dest), core d1), d_bus d1)).
  { unfold lifted. rewrite onto_core. replace (Build_world (dev (d_bus d)) (trace (d_bus d))) with (d_bus d) by (destruct (d_bus d); reflexivity).
    rewrite onto_self. unfold seen. rewrite H. reflexivity. }
  assert (E2 : lifted (fun B bs x => seen (step p bs x o)) (core d) _ (cut bs bs0) (Build_world (dev (d_bus d), n, z) tr) =
    (((rc, destc), core dc), d_bus dc)).
  { unfold lifted. rewrite onto_core, <- connect_onto. unfold seen. rewrite Hc. reflexivity. }
  destruct (uniform_replay _ _ _ _ Hu _ _ _ _ _ E1) as ((_ & Hb1) & _).
  destruct (uniform_replay _ _ _ _ Hu _ _ _ _ _ E2) as ((_ & Hbc) & _).
  split; [exact Hb1|].
  destruct (uniform_cut bs bs0 _ _ _ _ Hu _ _ _ _ _ _ _ _ _ E2 E1) as (evs & Ht & HH).
  exists evs. split; [exact Ht|]. destruct HH as [(Hl & Ex & Ew)|(Hl & b' & z' & Ez & Hp1 & Hp2)]; [left|right].
  - split; [exact Hl|]. apply pair_equal_spec in Ex. destruct Ex as [Ex Ec]. apply pair_equal_spec in Ex. destruct Ex as [-> ->].
    split; [reflexivity|]. split; [reflexivity|].
    rewrite <- (onto_self dc), Ew, <- (onto_core dc), Ec. reflexivity.
  - split; [exact Hl|]. exists b', z'. repeat split; assumption.
Qed.

(** After that nothing changes the camera. *)
Lemma run_dead (dc : Driver.driver (FO := FO) (B := B * nat * B0) (ER := ER) (EW := EW)) (ops : list op) b z : Forall byte (d_pixel_buffer dc) -> dev (d_bus dc) = (b, O, z) ->
  fst (fst (dev (d_bus (run p (cut bs bs0) dc ops)))) = b.
Proof.
  intros Hb Hd. pose proof (outcomes_um p (ER := ER) (EW := EW) ops (core dc) Hb) as Hu.
  assert (E : lifted (fun B bs x => (outcomes p bs x ops, run p bs x ops)) (core dc) _ (cut bs bs0) (Build_world (b, O, z) (trace (d_bus dc))) =
    ((outcomes p (cut bs bs0) dc ops, core (run p (cut bs bs0) dc ops)), d_bus (run p (cut bs bs0) dc ops))).
  { unfold lifted. rewrite onto_core, <- Hd.
    replace (Build_world (dev (d_bus dc)) (trace (d_bus dc))) with (d_bus dc) by (destruct (d_bus dc); reflexivity).
    rewrite onto_self. reflexivity. }
  destruct (uniform_dead bs bs0 _ _ _ _ Hu _ _ _ _ _ E) as (z' & Ez). rewrite Ez. reflexivity.
Qed.

Lemma run_cut : forall (ops : list op) d n z tr, Forall byte (d_pixel_buffer d) ->
  let dc := connect d (Build_world (dev (d_bus d), n, z) tr) in
  let left := fst (fst (dev (d_bus (run p (cut bs bs0) dc ops)))) in
  exists k made, (k <= length ops)%nat /\ made_by p bs d k ops made /\ (length made <= n)%nat /\
  firstn k (outcomes p (cut bs bs0) dc ops) = outcomes p bs d (firstn k ops) /\
  let dk := run p bs d (firstn k ops) in
  (k = length ops /\ left = dev (d_bus dk) \/
   exists (o : op) rest evs, skipn k ops = o :: rest /\
     trace (d_bus (run p bs dk [o])) = trace (d_bus dk) ++ evs /\ (n < length made + length evs)%nat /\
     performed bs (dev (d_bus dk)) (firstn (n - length made) evs) left /\
     performed bs left (skipn (n - length made) evs) (dev (d_bus (run p bs dk [o])))).
Proof.
  induction ops as [|o ops IH]; intros d n z tr Hb dc left.
  - exists O, []. split; [apply Nat.le_refl|]. split; [unfold made_by; cbn; rewrite app_nil_r; reflexivity|].
    split; [apply Nat.le_0_l|]. split; [reflexivity|]. left. split; reflexivity.
  - destruct (step p bs d o) as [[r d1] dest] eqn:E1. destruct (step p (cut bs bs0) dc o) as [[rc dc1] destc] eqn:E2.
    destruct (call_cut d o n z tr _ _ _ _ _ _ Hb E1 E2) as (Hb1 & evs & Ht & [(Hl & -> & -> & Edc)|(Hl & b' & z' & Ez & Hbc & Hp1 & Hp2)]).
    + destruct (IH d1 (n - length evs)%nat z (tr ++ evs) Hb1) as (k & made & Hk & Hm & Hml & Ho & HH).
      rewrite <- Edc in Ho, HH.
      assert (R1 : forall l, run p bs d (o :: l) = run p bs d1 l).
      { intros l. unfold run. cbn [fold_left]. unfold step_state at 2. rewrite E1. reflexivity. }
      assert (R2 : forall l, run p (cut bs bs0) dc (o :: l) = run p (cut bs bs0) dc1 l).
      { intros l. unfold run. cbn [fold_left]. unfold step_state at 2. rewrite E2. reflexivity. }
      exists (S k), (evs ++ made). cbn [firstn length skipn]. split; [lia|].
      split; [unfold made_by in *; cbn [firstn]; rewrite R1, Hm, Ht, app_assoc; reflexivity|].
      rewrite app_length. split; [lia|]. split.
      { cbn [outcomes]. rewrite E2, E1. cbn [firstn]. rewrite Ho. reflexivity. }
      cbv zeta. rewrite R1. unfold left. rewrite R2. cbv zeta in HH.
      destruct HH as [[-> Hleft]|(o' & rest & evs' & Hs & Ht' & Hn & Hp1 & Hp2)]; [left|right].
      * split; [reflexivity|exact Hleft].
      * exists o', rest, evs'. split; [exact Hs|]. split; [exact Ht'|]. split; [lia|].
        replace (n - (length evs + length made))%nat with (n - length evs - length made)%nat by lia. auto.
    + exists O, []. split; [apply Nat.le_0_l|]. split; [unfold made_by; cbn; rewrite app_nil_r; reflexivity|].
      split; [apply Nat.le_0_l|]. split; [reflexivity|]. right. exists o, ops, evs. cbn [skipn firstn length].
      assert (R2 : run p (cut bs bs0) dc (o :: ops) = run p (cut bs bs0) dc1 ops).
      { unfold run. cbn [fold_left]. unfold step_state at 2. rewrite E2. reflexivity. }
      assert (R1 : run p bs (run p bs d []) [o] = d1).
      { unfold run. cbn [fold_left]. unfold step_state. rewrite E1. reflexivity. }
      unfold left. rewrite R2, R1, (run_dead dc1 ops b' z' Hbc Ez), Nat.sub_0_r.
      split; [reflexivity|]. split; [exact Ht|]. split; [exact Hl|]. split; [exact Hp1|exact Hp2].
Qed.

(** The camera can be reached for [n] transactions.  Some number [k] of calls is completed, with the same results
    as if nothing were to happen; the camera is left as after these calls if that is all of them, and otherwise
    in the middle of the next call, having seen the first of its transactions but not all.  Whatever the program does after that, and
    whatever answers it gets, makes no difference to the camera. *)
Theorem C107_where_it_stops : forall d (n : nat) (z : B0) (ops : list op), Forall byte (d_pixel_buffer d) ->
  exists k made, (k <= length ops)%nat /\ made_by p bs d k ops made /\ (length made <= n)%nat /\
  firstn k (outcomes p (cut bs bs0) (doomed d n z) ops) = outcomes p bs d (firstn k ops) /\
  let dk := run p bs d (firstn k ops) in
  let left := camera_left p bs bs0 d n z ops in
  (k = length ops /\ left = dev (d_bus dk) \/
   exists (o : op) rest evs, skipn k ops = o :: rest /\
     trace (d_bus (run p bs dk [o])) = trace (d_bus dk) ++ evs /\ (n < length made + length evs)%nat /\
     performed bs (dev (d_bus dk)) (firstn (n - length made) evs) left /\
     performed bs left (skipn (n - length made) evs) (dev (d_bus (run p bs dk [o])))).
Proof. intros d n z ops Hb. exact (run_cut ops d n z [] Hb). Qed.

(** Of a call that was interrupted the camera has seen nothing but reads; only [synchronize] may have made its write. *)
Theorem C107_interrupted_call : forall lay d (o : op) r d' dest (evs : list event) (m : nat), usable d lay ->
  step p bs d o = (r, d', dest) -> trace (d_bus d') = trace (d_bus d) ++ evs -> (m < length evs)%nat ->
  (forall fuel, o <> OpSynchronize fuel) -> Forall is_read (firstn m evs).
Proof.
  intros lay d o r d' dest evs m Hu H Ht Hm Hn.
  destruct (step_shape p bs lay d o r d' dest (usable_wf _ _ Hu) H) as (evs' & Ht' & Hs).
  rewrite Ht in Ht'. apply app_inv_head in Ht'. subst evs'.
  destruct Hs as [Hr|(pre & a & bytes & err & post & -> & Hp & _ & [->|[(fuel & ->) _]])].
  - rewrite <- (firstn_skipn m evs) in Hr. apply Forall_app in Hr. apply Hr.
  - rewrite app_length in Hm. cbn [length] in Hm. rewrite firstn_app.
    replace (m - length pre)%nat with O by lia. cbn [firstn]. rewrite app_nil_r.
    rewrite <- (firstn_skipn m pre) in Hp. apply Forall_app in Hp. apply Hp.
  - exfalso. exact (Hn fuel eq_refl).
Qed.

(** ** The settings *)
Section Settings.
Context (ctl : B -> Z) (Hctl : control_register_is bs ctl).

Lemma reads_keep_control : forall (evs : list event) b b', performed bs b evs b' -> Forall is_read evs -> ctl b' = ctl b.
Proof.
  intros evs b b' H. induction H as [b|b i2c wb buf b1 out e evs b2 Hd _ IH|b i2c bytes b1 e evs b2 Hd _ IH]; intros Hr.
  - reflexivity.
  - inversion Hr; subst. rewrite IH by assumption. eapply ctl_kept_by_reads; [exact Hctl|exact Hd].
  - inversion Hr as [|? ? Hx _]; subst. contradiction.
Qed.

Lemma call_is_atomic lay d (o : op) r d' dest evs m b : wf d lay -> step p bs d o = (r, d', dest) ->
  trace (d_bus d') = trace (d_bus d) ++ evs ->
  performed bs (dev (d_bus d)) (firstn m evs) b -> performed bs b (skipn m evs) (dev (d_bus d')) ->
  ctl b = ctl (dev (d_bus d)) \/ ctl b = ctl (dev (d_bus d')).
Proof.
  intros Hwf H Ht Hp1 Hp2.
  destruct (step_shape p bs lay d o r d' dest Hwf H) as (evs' & Ht' & Hs).
  rewrite Ht in Ht'. apply app_inv_head in Ht'. subst evs'.
  destruct Hs as [Hr|(pre & a & bytes & err & post & -> & Hpre & Hpost & _)].
  - left. apply (reads_keep_control _ _ _ Hp1). rewrite <- (firstn_skipn m evs) in Hr. apply Forall_app in Hr. apply Hr.
  - destruct (Nat.le_gt_cases m (length pre)) as [Hm|Hm].
    + left. apply (reads_keep_control _ _ _ Hp1). rewrite firstn_app.
      replace (m - length pre)%nat with O by lia. cbn [firstn]. rewrite app_nil_r.
      rewrite <- (firstn_skipn m pre) in Hpre. apply Forall_app in Hpre. apply Hpre.
    + right. symmetry. apply (reads_keep_control _ _ _ Hp2). rewrite skipn_app, skipn_all2 by lia. cbn [app].
      destruct (m - length pre)%nat as [|j] eqn:Ej; [lia|]. cbn [skipn].
      rewrite <- (firstn_skipn j post) in Hpost. apply Forall_app in Hpost. apply Hpost.
Qed.

Lemma made_more d (ops : list op) j k ej ek : made_by p bs d j ops ej -> made_by p bs d k ops ek -> (j <= k)%nat ->
  (length ej <= length ek)%nat.
Proof.
  unfold made_by. intros Hj Hk Hle.
  assert (Hm : moved bs (d_bus (run p bs d (firstn j ops))) (d_bus (run p bs d (firstn k ops)))).
  { replace (firstn k ops) with (firstn j ops ++ skipn j (firstn k ops)).
    - unfold run. rewrite fold_left_app. apply prims_moved. apply run_prims.
    - rewrite <- (firstn_skipn j (firstn k ops)) at 2. rewrite firstn_firstn, Nat.min_l by exact Hle. reflexivity. }
  destruct Hm as (evs & Ht & _). rewrite Hk, Hj, <- app_assoc in Ht. apply app_inv_head in Ht. subst ek.
  rewrite app_length. lia.
Qed.

(** However far the program gets, the control register is left as a whole number of calls leaves it: all those that
    were completed, and perhaps the one that was interrupted.  No call takes effect by halves. *)
Theorem C107_settings : forall lay d (n : nat) (z : B0) (ops : list op), usable d lay -> Forall byte (d_pixel_buffer d) ->
  exists k, (k <= length ops)%nat /\
    ctl (camera_left p bs bs0 d n z ops) = ctl (dev (d_bus (run p bs d (firstn k ops)))) /\
    (forall j evs, (j <= length ops)%nat -> made_by p bs d j ops evs -> (length evs <= n)%nat -> (j <= k)%nat) /\
    (forall j evs, (j < k)%nat -> made_by p bs d j ops evs -> (length evs <= n)%nat).
Proof.
  intros lay d n z ops Hu Hb.
  destruct (C107_where_it_stops d n z ops Hb) as (k & made & Hk & Hm & Hml & _ & HH). cbv zeta in HH.
  destruct HH as [[-> Hl]|(o & rest & evs & Hs & Ht & Hn & Hp1 & Hp2)].
  - exists (length ops). split; [exact Hk|]. split; [rewrite Hl; reflexivity|]. split; [auto|].
    intros j evs Hj Hmj. pose proof (made_more d ops j _ _ _ Hmj Hm (Nat.lt_le_incl _ _ Hj)). lia.
  - assert (Hk1 : (S k <= length ops)%nat).
    { assert (L : length (skipn k ops) = S (length rest)) by (rewrite Hs; reflexivity). rewrite skipn_length in L. lia. }
    assert (Hrun : run p bs d (firstn (S k) ops) = run p bs (run p bs d (firstn k ops)) [o]).
    { replace (firstn (S k) ops) with (firstn k ops ++ [o]).
      - unfold run. rewrite fold_left_app. reflexivity.
      - rewrite <- (firstn_skipn k ops) at 2. rewrite Hs, firstn_app, firstn_firstn, Nat.min_r by lia.
        rewrite firstn_length, Nat.min_l by lia. replace (S k - k)%nat with 1%nat by lia. reflexivity. }
    assert (Hms : made_by p bs d (S k) ops (made ++ evs)).
    { unfold made_by in *. rewrite Hrun, Ht, Hm, app_assoc. reflexivity. }
    destruct (step p bs (run p bs d (firstn k ops)) o) as [[r d1] dest] eqn:E.
    assert (E1 : run p bs (run p bs d (firstn k ops)) [o] = d1).
    { unfold run at 1. cbn [fold_left]. unfold step_state. rewrite E. reflexivity. }
    rewrite E1 in Ht, Hp2, Hrun.
    pose proof (usable_wf _ _ (P_Frames.usable_run p bs lay (firstn k ops) d Hu)) as Hwf.
    assert (Hnot : forall j ej, made_by p bs d j ops ej -> (length ej <= n)%nat -> (j <= k)%nat).
    { intros j ej Hj Hl. destruct (Nat.le_gt_cases j k) as [Hle|Hgt]; [exact Hle|]. exfalso.
      pose proof (made_more d ops _ _ _ _ Hms Hj Hgt) as L. rewrite app_length in L. lia. }
    destruct (call_is_atomic lay _ o r d1 dest evs _ _ Hwf E Ht Hp1 Hp2) as [Ec|Ec].
    + exists k. split; [exact Hk|]. split; [exact Ec|]. split; [intros j ej _; apply Hnot|].
      intros j ej Hj Hmj. pose proof (made_more d ops _ _ _ _ Hmj Hm (Nat.lt_le_incl _ _ Hj)). lia.
    + exists (S k). split; [exact Hk1|]. split; [rewrite Hrun; exact Ec|]. split.
      * intros j ej _ Hmj Hl. specialize (Hnot j ej Hmj Hl). lia.
      * intros j ej Hj Hmj. pose proof (made_more d ops j k _ _ Hmj Hm ltac:(lia)). lia.
Qed.

Lemma fresh_of height num_bytes w a (c : calib FO) d w' : new_with_calibration bs height num_bytes w a c = (Ok d, w') ->
  exists v, fresh_driver height num_bytes a c v w' d.
Proof.
  intros H. apply C29_new_with_calibration in H. destruct H as (evs & _ & H).
  refine (match H in constructed _ _ _ _ _ _ r return match r with Ok d => exists v, fresh_driver height num_bytes a c v w' d | _ => True end with
    | con_ok _ _ _ _ _ v _ _ Hf => ex_intro _ v Hf | con_failed _ _ _ _ _ _ _ _ => I end).
Qed.

(** A new program then finds the camera as it was: the driver it makes has the settings the old one had after that
    many calls.  (What was never sent to the camera, the emissivity and the reflected temperature, is back to the defaults.) *)
Theorem C107_restart : forall lay height num_bytes w a (c : calib FO) d w' (n : nat) (z : B0) (ops : list op) k evs tr d2 w2,
  documented (cam _ c) lay -> (lay_height lay <= height)%nat ->
  new_with_calibration bs height num_bytes w a c = (Ok d, w') ->
  made_by p bs d k ops evs -> (forall x, In x evs -> ~ failed_control_write x) ->
  ctl (camera_left p bs bs0 d n z ops) = ctl (dev (d_bus (run p bs d (firstn k ops)))) ->
  new_with_calibration bs height num_bytes (Build_world (camera_left p bs bs0 d n z ops) tr) a c = (Ok d2, w2) ->
  let dk := run p bs d (firstn k ops) in
  d_access_pattern d2 = d_access_pattern dk /\ d_resolution_correction d2 = d_resolution_correction dk /\
  d_address d2 = d_address dk /\ d_calibration d2 = d_calibration dk /\ d_height d2 = d_height dk /\
  ctl (dev (d_bus d2)) = ctl (dev (d_bus dk)) /\
  d_reflected d2 = None /\ d_ambient d2 = None /\ d_emissivity d2 = d_emissivity d.
Proof.
  intros lay height num_bytes w a c d w' n z ops k evs tr d2 w2 Hd Hh Hnew Hm Hnf Hc Hnew2 dk.
  destruct (new_agree bs ctl Hctl _ _ _ _ _ _ _ Hnew) as [_ Hb1].
  unfold made_by in Hm. rewrite Hb1 in Hm.
  destruct (C19_cached_settings FO p B ER EW bs ctl height num_bytes w a c lay d w' (firstn k ops) evs Hctl Hd Hh Hnew Hm Hnf) as [A1 A2].
  fold dk in A1, A2, Hc.
  pose proof (C19_cached_settings FO p B ER EW bs ctl height num_bytes _ a c lay d2 w2 [] [] Hctl Hd Hh Hnew2) as A.
  destruct (new_agree bs ctl Hctl _ _ _ _ _ _ _ Hnew2) as [_ Hb2].
  cbn [run fold_left] in A. rewrite Hb2, app_nil_r in A. destruct (A eq_refl ltac:(intros x [])) as [A3 A4].
  assert (Ek : ctl (dev w2) = ctl (camera_left p bs bs0 d n z ops)).
  { assert (K : forall w0 r, new_with_calibration bs height num_bytes w0 a c = (r, w2) -> ctl (dev w2) = ctl (dev w0)).
    { intros w0 r H0. unfold new_with_calibration in H0. destruct (read_register bs a CONTROL_ADDRESS w0) as [r0 w1] eqn:E.
      pose proof (control_read_dev bs ctl Hctl _ _ _ _ E) as [Ek _]. injection H0 as _ <-. exact Ek. }
    exact (K _ _ Hnew2). }
  destruct (fresh_of _ _ _ _ _ _ _ Hnew) as (v & F1 & F2 & F3 & F4 & F5 & F6 & F7 & F8 & _).
  destruct (fresh_of _ _ _ _ _ _ _ Hnew2) as (v2 & G1 & G2 & G3 & G4 & G5 & G6 & G7 & G8 & _).
  assert (Hwf : wf d lay) by (unfold wf; rewrite F3, F4; auto).
  destruct (run_later p bs lay d (firstn k ops) Hwf) as (_ & ((K1 & K2 & K3 & _) & _) & _). fold dk in K1, K2, K3.
  split; [rewrite A1, A3, Ek, Hc; reflexivity|]. split; [rewrite A2, A4, Ek, Hc; reflexivity|].
  split; [rewrite K1, F2, G2; reflexivity|]. split; [rewrite K2, F3, G3; reflexivity|].
  split; [rewrite K3, F4, G4; reflexivity|]. split; [rewrite Hb2, Ek, Hc; reflexivity|].
  split; [exact G7|]. split; [exact G6|]. unfold effective_emissivity in F8, G8. rewrite F8, G8. reflexivity.
Qed.
End Settings.

(** ** The frame *)
Lemma reads_keep_flag a flag : keeps_flag bs a flag ->
  forall (evs : list event) b b', performed bs b evs b' -> Forall is_read evs -> Forall (own a) evs -> flag b = true -> flag b' = true.
Proof.
  intros Hk evs b b' H. induction H as [b|b i2c wb buf b1 out e evs b2 Hd _ IH|b i2c bytes b1 e evs b2 Hd _ IH]; intros Hr Ho Hf.
  - exact Hf.
  - inversion Hr; inversion Ho as [|? ? Ha Ho']; subst. cbn in Ha. subst i2c. apply IH; try assumption.
    eapply (kf_reads _ _ _ Hk); eassumption.
  - inversion Hr as [|? ? Hx _]; subst. contradiction.
Qed.

(** If the program is stopped anywhere in [generate_image_if_ready] before its last transaction, a frame that was
    flagged as new still is: nothing is acknowledged before it has been read completely. *)
Theorem C107_frame_stays_flagged : forall lay flag d dest rest (n : nat) (z : B0) r d' dest' (evs : list event),
  usable d lay -> Forall byte (d_pixel_buffer d) -> keeps_flag bs (d_address d) flag ->
  flag (dev (d_bus d)) = true ->
  step p bs d (OpGenerateIfReady dest) = (r, d', dest') -> trace (d_bus d') = trace (d_bus d) ++ evs -> (n < length evs)%nat ->
  flag (camera_left p bs bs0 d n z (OpGenerateIfReady dest :: rest)) = true.
Proof.
  intros lay flag d dest rest n z r d' dest' evs Hu Hb Hk Hf H Ht Hn.
  destruct (step p (cut bs bs0) (doomed d n z) (OpGenerateIfReady dest)) as [[rc dc] destc] eqn:Ec.
  destruct (call_cut d (OpGenerateIfReady dest) n z [] _ _ _ _ _ _ Hb H Ec) as (_ & evs' & Ht' & HH).
  rewrite Ht in Ht'. apply app_inv_head in Ht'. subst evs'.
  destruct HH as [(Hl & _)|(_ & b' & z' & Ez & Hbc & Hp1 & _)]; [lia|].
  assert (E : camera_left p bs bs0 d n z (OpGenerateIfReady dest :: rest) = b').
  { unfold camera_left, run. cbn [fold_left]. unfold step_state at 2. rewrite Ec. cbn [fst snd].
    exact (run_dead dc rest b' z' Hbc Ez). }
  rewrite E. destruct (step_transcript p bs lay d _ _ _ _ Hu H) as (evs' & Ht' & _ & Ho & _).
  rewrite Ht in Ht'. apply app_inv_head in Ht'. subst evs'.
  apply (reads_keep_flag _ _ Hk _ _ _ Hp1); [| |exact Hf].
  - apply (C107_interrupted_call lay d _ _ _ _ _ n Hu H Ht Hn). discriminate.
  - rewrite <- (firstn_skipn n evs) in Ho. apply Forall_app in Ho. apply Ho.
Qed.

(** And whoever asks next, with whatever driver for that camera, is not told that there is no new data. *)
Theorem C107_frame_is_offered_again : forall flag d2 dest r d' dest',
  keeps_flag bs (d_address d2) flag -> flag (dev (d_bus d2)) = true ->
  step p bs d2 (OpGenerateIfReady dest) = (r, d', dest') -> r <> Ok (OutBool false).
Proof.
  intros flag d2 dest r d' dest' Hk Hf H. cbn [step] in H. apply lifti_inv in H. destruct H as (r0 & H & ->).
  unfold generate_image_if_ready in H. destruct (status_register_ bs d2) as [r1 d1] eqn:E.
  destruct (status_performed bs _ _ _ E) as (x & Hp & _ & [(w & -> & Hw & ->)|(e & -> & _)]);
    [|unfold fail_image in H; injection H as <- _ _; discriminate].
  assert (Hbit : bit w 3 = true).
  { unfold reads_word in Hp. inversion Hp as [|? ? ? buf b2 out e ? ? Hd Hp' Ee|]; subst.
    assert (Hl : length buf = 2%nat).
    { match goal with H : clip buf out = _ |- _ => apply (f_equal (@length Z)) in H; rewrite clip_length in H; exact H end. }
    destruct (kf_shown _ _ _ Hk _ _ _ _ Hl Hd Hf) as (w' & -> & Hw' & Hb').
    match goal with H : clip buf _ = _ |- _ => rewrite clip_full in H; [apply two_words in H; subst w'; exact Hb'| |] end.
    - rewrite Hl. reflexivity.
    - unfold word in Hw'. repeat constructor; unfold byte; Z.to_euclidean_division_equations; lia. }
  rewrite (new_data_doc w Hw), Hbit in H.
  assert (G : r0 <> Ok false); [|destruct r0 as [[|]| | |]; cbn [bind]; try discriminate; congruence].
  unfold fail_image, store_image in H. intros ->.
  destruct (last_updated_subpage w) as [sp| | |]; try discriminate.
  destruct (drv_read_ram bs sp d1) as [[ram| | |] d3]; try discriminate.
  destruct (calc_temperatures p d3 ram sp dest) as [[t dest1]| | |]; try discriminate.
  destruct (set_status_register bs (reset_new_data w) _) as [[u| | |] d4]; discriminate.
Qed.
End Crash.

(** ** Concrete cases *)
(** The cameras of the examples meet the hypotheses. *)
Lemma busy_keeps_flag a : keeps_flag busy_bus a (fun t => bit (busy_mem t 0x8000) 3).
Proof.
  assert (E : forall t, bit (busy_mem t 0x8000) 3 = Z.testbit (toy_status t) 3).
  { intros t. unfold busy_mem, toy_mem. cbn [Z.eqb Pos.eqb]. apply bit_mod. lia. }
  constructor.
  - intros b wb buf b' out e H _. cbn [dev_write_read busy_bus] in H. injection H as <- _ _. rewrite E.
    cbn [busy_tick toy_status]. rewrite Z.lor_spec. apply orb_true_r.
  - intros b buf b' out Hl H Hf. cbn [dev_write_read busy_bus] in H. injection H as _ <-. rewrite Hl.
    exists (busy_mem b 0x8000). split; [reflexivity|]. split; [unfold busy_mem, word; apply Z.mod_pos_bound; reflexivity|exact Hf].
Qed.

(** Nothing answers any more. *)
Definition nobody : bus unit string string := {|
  dev_write_read := fun z _ _ buf => (z, [], Some "gone"%string);
  dev_write := fun z _ _ => (z, Some "gone"%string) |}.
Definition three_settings : list (op (FO := ZFO)) :=
  [OpSetFrameRate FR_SixtyFour; OpSetResolution Res16; OpSetDataHold true].
Definition left_after (n : nat) : option Z :=
  match demo_driver 24 1536 demo640 0x0008 0x1901 with
  | Some d => Some (toy_control (camera_left Debug (toy_bus never never) nobody d n tt three_settings))
  | None => None
  end.
(** Three settings, six transactions: cut off after 0 to 6 of them the camera is left with the first 0, 0, 1, 1, 2, 2, 3. *)
Example C107_concrete :
  map left_after [0; 1; 2; 3; 4; 5; 6]%nat =
  map Some [0x1901; 0x1901; 0x1B81; 0x1B81; 0x1381; 0x1381; 0x1385].
Proof. vm_compute. reflexivity. Qed.

(** [generate_image_if_ready] cut off after all but the last transaction: the flag is still set, and a new driver gets the frame. *)
Definition interrupted (n : nat) : option (bool * bool) :=
  match demo_driver 24 1536 demo640 0x0008 0x1901 with
  | Some d =>
      let left := camera_left Debug (toy_bus never never) nobody d n tt [OpGenerateIfReady (repeat (0 : F ZFO) 768)] in
      match new_with_calibration (toy_bus never never) 24 1536 (Build_world left []) 0x33 demo640 with
      | (Ok d2, _) =>
          match step_out Debug (toy_bus never never) d2 (OpGenerateIfReady (repeat (0 : F ZFO) 768)) with
          | Ok (OutBool got) => Some (Z.testbit (toy_status left) 3, got)
          | _ => None
          end
      | _ => None
      end
  | None => None
  end.
Example C107_frame_concrete :
  map interrupted [0; 4; 7; 8]%nat = map Some [(true, true); (true, true); (true, true); (false, false)].
Proof. vm_compute. reflexivity. Qed.

Print Assumptions C107_where_it_stops.
Print Assumptions C107_interrupted_call.
Print Assumptions C107_settings.
Print Assumptions C107_restart.
Print Assumptions C107_frame_stays_flagged.
Print Assumptions C107_frame_is_offered_again.
