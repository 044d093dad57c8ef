(** * CrashFacts: computations on a bus that is cut off. *)
From Verif Require Import Base FloatOps Register Bus Camera Cam640 Cam641 Calc CalcFacts
  BitFacts SpecRegister RegisterFacts SpecCamera CameraFacts SpecDriver DriverFacts StepFacts
  SpecImage SpecCall ImageFacts Mock SpecMock P_Bus P_Image TraceFacts SpecHold HoldFacts P_Hold SpecReplay StrategyFacts P_Replay SpecCrash Driver.

Section Uniform.
Context {B B0 ER EW : Type} (bs : bus B ER EW) (bs0 : bus B0 ER EW).

Lemma uniform_moved a X (Q : X -> Prop) (f : comp X) : uniform a Q f ->
  forall w x w', f _ bs w = (x, w') -> moved bs w w'.
Proof.
  induction 1 as [x Hx|wb buf k Hb _ IH|bytes k _ IH|f g E _ IH]; intros w x0 w0 H0.
  - injection H0 as _ <-. apply moved_refl.
  - destruct (write_read bs a wb buf w) as [[data e] w1] eqn:E. eapply moved_trans; [eapply write_read_moved; exact E|].
    assert (Hd : Forall byte data /\ length data = length buf).
    { unfold write_read in E. destruct (dev_write_read bs (dev w) a wb buf) as [[b out] e0]. injection E as <- _ _.
      split; [apply clip_bytes; exact Hb|apply clip_length]. }
    exact (IH _ _ (proj1 Hd) (proj2 Hd) _ _ _ H0).
  - destruct (bus_write bs a bytes w) as [e w1] eqn:E. eapply moved_trans; [eapply bus_write_moved; exact E|].
    exact (IH _ _ _ _ H0).
  - rewrite <- E in H0. eapply IH. exact H0.
Qed.

(** Once cut off, the camera stays as it is. *)
Lemma uniform_dead a X (Q : X -> Prop) (f : comp X) : uniform a Q f ->
  forall b z tr x w', f _ (cut bs bs0) (Build_world (b, O, z) tr) = (x, w') -> exists z', dev w' = (b, O, z').
Proof.
  induction 1 as [x Hx|wb buf k Hb _ IH|bytes k _ IH|f g E _ IH]; intros b z tr x0 w0 H0.
  - injection H0 as <- <-. eexists. reflexivity.
  - unfold write_read in H0. cbn [cut dev_write_read dev] in H0.
    destruct (dev_write_read bs0 z a wb buf) as [[z1 out] e].
    exact (IH _ _ (clip_bytes buf out Hb) (clip_length buf out) _ _ _ _ _ H0).
  - unfold bus_write in H0. cbn [cut dev_write dev] in H0. destruct (dev_write bs0 z a bytes) as [z1 e].
    exact (IH _ _ _ _ _ _ H0).
  - rewrite <- E in H0. eapply IH. exact H0.
Qed.

Lemma uniform_cut a X (Q : X -> Prop) (f : comp X) : uniform a Q f ->
  forall b n z tr tr2 x w' y wy,
  f _ (cut bs bs0) (Build_world (b, n, z) tr) = (x, w') -> f _ bs (Build_world b tr2) = (y, wy) ->
  exists evs, trace wy = tr2 ++ evs /\
  (((length evs <= n)%nat /\ x = y /\ w' = Build_world (dev wy, (n - length evs)%nat, z) (tr ++ evs)) \/
   ((n < length evs)%nat /\ exists b' z', dev w' = (b', O, z') /\
      performed bs b (firstn n evs) b' /\ performed bs b' (skipn n evs) (dev wy))).
Proof.
  induction 1 as [x Hx|wb buf k Hb Hk IH|bytes k Hk IH|f g E _ IH]; intros b n z tr tr2 x0 w0 y wy H0 H1.
  - injection H0 as <- <-. injection H1 as <- <-. exists []. rewrite app_nil_r. split; [reflexivity|]. left.
    split; [apply Nat.le_0_l|]. split; [reflexivity|]. cbn [dev length]. rewrite Nat.sub_0_r, app_nil_r. reflexivity.
  - assert (Hu : uniform a Q (fun B bs w => let '(data, e, w') := write_read bs a wb buf w in k data e B bs w'))
      by (apply u_read; assumption).
    destruct n as [|n].
    + destruct (uniform_dead _ _ _ _ Hu _ _ _ _ _ H0) as (z' & Ez).
      destruct (uniform_moved _ _ _ _ Hu _ _ _ H1) as (evs & Ht & Hp). cbn [trace dev] in Ht, Hp.
      exists evs. split; [exact Ht|]. right. split.
      * destruct evs as [|ev evs]; [|cbn [length]; lia]. exfalso.
        unfold write_read in H1. cbn [dev trace] in H1. destruct (dev_write_read bs b a wb buf) as [[b1 out] e].
        destruct (uniform_moved _ _ _ _ (Hk (clip buf out) e (clip_bytes buf out Hb) (clip_length buf out)) _ _ _ H1) as (evs' & Ht' & _).
        cbn [trace] in Ht'. rewrite Ht, <- app_assoc in Ht'. apply app_inv_head in Ht'. discriminate.
      * exists b, z'. split; [exact Ez|]. split; [constructor|exact Hp].
    + unfold write_read in H0, H1. cbn [cut dev_write_read dev trace] in H0, H1.
      destruct (dev_write_read bs b a wb buf) as [[b1 out] e] eqn:Ed.
      destruct (IH _ _ (clip_bytes buf out Hb) (clip_length buf out) _ _ _ _ _ _ _ _ _ H0 H1) as (evs & Ht & HH).
      exists (EvRead a wb (clip buf out) e :: evs). split; [rewrite Ht, <- app_assoc; reflexivity|].
      destruct HH as [(Hl & -> & ->)|(Hl & b' & z' & Ez & Hp1 & Hp2)]; [left|right].
      * cbn [length]. split; [lia|]. split; [reflexivity|]. rewrite <- app_assoc. reflexivity.
      * cbn [length]. split; [lia|]. exists b', z'. split; [exact Ez|]. cbn [firstn skipn]. split; [|exact Hp2].
        econstructor; [exact Ed|exact Hp1].
  - assert (Hu : uniform a Q (fun B bs w => let '(e, w') := bus_write bs a bytes w in k e B bs w'))
      by (apply u_write; assumption).
    destruct n as [|n].
    + destruct (uniform_dead _ _ _ _ Hu _ _ _ _ _ H0) as (z' & Ez).
      destruct (uniform_moved _ _ _ _ Hu _ _ _ H1) as (evs & Ht & Hp). cbn [trace dev] in Ht, Hp.
      exists evs. split; [exact Ht|]. right. split.
      * destruct evs as [|ev evs]; [|cbn [length]; lia]. exfalso.
        unfold bus_write in H1. cbn [dev trace] in H1. destruct (dev_write bs b a bytes) as [b1 e].
        destruct (uniform_moved _ _ _ _ (Hk e) _ _ _ H1) as (evs' & Ht' & _).
        cbn [trace] in Ht'. rewrite Ht, <- app_assoc in Ht'. apply app_inv_head in Ht'. discriminate.
      * exists b, z'. split; [exact Ez|]. split; [constructor|exact Hp].
    + unfold bus_write in H0, H1. cbn [cut dev_write dev trace] in H0, H1.
      destruct (dev_write bs b a bytes) as [b1 e] eqn:Ed.
      destruct (IH _ _ _ _ _ _ _ _ _ _ H0 H1) as (evs & Ht & HH).
      exists (EvWrite a bytes e :: evs). split; [rewrite Ht, <- app_assoc; reflexivity|].
      destruct HH as [(Hl & -> & ->)|(Hl & b' & z' & Ez & Hp1 & Hp2)]; [left|right].
      * cbn [length]. split; [lia|]. split; [reflexivity|]. rewrite <- app_assoc. reflexivity.
      * cbn [length]. split; [lia|]. exists b', z'. split; [exact Ez|]. cbn [firstn skipn]. split; [|exact Hp2].
        econstructor; [exact Ed|exact Hp1].
  - rewrite <- E in H0, H1. eapply IH; eassumption.
Qed.
End Uniform.

(** ** Where in a call the write is *)
Section Shape.
Context {FO : FloatOps} (p : profile) {B ER EW : Type} (bs : bus B ER EW).
Notation driver := (driver (FO := FO) (B := B) (ER := ER) (EW := EW)).
Notation op := (op (FO := FO)).
Notation event := (event ER EW).
Implicit Types d : driver.

Definition shape (o : op) (evs : list event) : Prop :=
  Forall is_read evs \/
  exists pre a bytes err post, evs = pre ++ EvWrite a bytes err :: post /\ Forall is_read pre /\ Forall is_read post /\
    (post = [] \/ (exists fuel, o = OpSynchronize fuel) /\ firstn 2 bytes = status_reg).

Lemma setter_shape {V} o i2c reg lo n (value : Z -> V) v evs r :
  setter_run (ER := ER) (EW := EW) i2c reg lo n value v evs r -> shape o evs.
Proof.
  intros H. destruct H as [x e (data & -> & _)|w _ _|w w' err Hw _ Ho _].
  - left. repeat constructor.
  - left. repeat constructor.
  - right. exists [reads_word i2c reg w]. do 3 eexists. exists []. split; [reflexivity|]. split; [repeat constructor|]. split; [constructor|auto].
Qed.
Lemma is_setter_shape {V} o (call : driver -> m unit) reg lo n (value : Z -> V) v d r d' :
  is_setter call reg lo n value v -> call d = (r, d') -> exists evs, trace (d_bus d') = trace (d_bus d) ++ evs /\ shape o evs.
Proof. intros Hs H. destruct (Hs d r d' H) as (evs & Ht & Hr). exists evs. split; [exact Ht|eapply setter_shape; exact Hr]. Qed.

Lemma step_shape lay d (o : op) r d' dest : wf d lay -> step p bs d o = (r, d', dest) ->
  exists evs, trace (d_bus d') = trace (d_bus d) ++ evs /\ shape o evs.
Proof.
  intros Hwf H.
  assert (Hreads : (exists evs, trace (d_bus d') = trace (d_bus d) ++ evs /\ Forall is_read evs) ->
    exists evs, trace (d_bus d') = trace (d_bus d) ++ evs /\ shape o evs).
  { intros (evs & Ht & Hr). exists evs. split; [exact Ht|left; exact Hr]. }
  destruct (destination o) as [dst|] eqn:Ho.
  { destruct (image_outcome p bs lay d o dst r d' dest Hwf Ho H) as (evs & Ht & Hout).
    exists evs. split; [exact Ht|].
    destruct Hout as [x e w _ Hx|v w _ _ _|raw sp pre evs r buf w Ha Hf _|raw sp pre evs ram buf w w0 Ha Hcm _ Hr _
      |raw sp pre evs post ram buf w0 w w1 t dest r Ha Hcm Hl Hw Hr Hcalc Hk].
    - destruct Hx as (data & -> & _). left. repeat constructor.
    - left. repeat constructor.
    - left. apply Forall_app. split; [eapply asks_reads; exact Ha|eapply failed_reads; exact Hf].
    - left. apply Forall_app. split; [eapply asks_reads; exact Ha|eapply reads_only; exact Hcm].
    - assert (Hpre : Forall is_read pre) by (eapply asks_reads; exact Ha).
      assert (Hfr : Forall is_read evs) by (eapply reads_only; exact Hcm).
      destruct Hk as [| | |v v' dst0 err Hv Hv' Hb Hbits];
        try (left; rewrite app_nil_r; apply Forall_app; split; [exact Hpre|exact Hfr]).
      right. rewrite app_assoc. do 4 eexists. exists []. split; [reflexivity|]. split; [|split; [constructor|auto]].
      apply Forall_app. split; [exact Hpre|exact Hfr]. }
  destruct (C18_setters FO B ER EW bs) as (S1 & S2 & S3 & S4 & S5 & S6 & S7 & S8).
  assert (St : forall A (k : Z -> driver -> m A) r, (forall v d1 r1 d1', k v d1 = (r1, d1') -> d1' = d1) ->
    bindS (status_register_ bs d) k = (r, d') -> exists evs, trace (d_bus d') = trace (d_bus d) ++ evs /\ Forall is_read evs).
  { intros A k r1 Hk H1. unfold bindS in H1. destruct (status_register_ bs d) as [r0 d0] eqn:E.
    apply status_reads_only in E. destruct E as (evs & Ht & Hr). exists evs. split; [|exact Hr].
    destruct r0; try (injection H1 as _ <-; exact Ht). apply Hk in H1. subst d'. exact Ht. }
  assert (Ct : forall A (k : Z -> driver -> m A) r, (forall v d1 r1 d1', k v d1 = (r1, d1') -> d1' = d1) ->
    bindS (control_register_ bs d) k = (r, d') -> exists evs, trace (d_bus d') = trace (d_bus d) ++ evs /\ Forall is_read evs).
  { intros A k r1 Hk H1. unfold bindS in H1. destruct (control_register_ bs d) as [r0 d0] eqn:E.
    apply control_reads_only in E. destruct E as (evs & Ht & Hr). exists evs. split; [|exact Hr].
    destruct r0; try (injection H1 as _ <-; exact Ht). apply Hk in H1. subst d'. exact Ht. }
  destruct o; try discriminate; cbn [step] in H;
    try (apply lift_inv in H; destruct H as (r0 & H & _ & _));
    try (injection H as _ <- _; apply Hreads; exists []; rewrite app_nil_r; split; [reflexivity|constructor]);
    try (apply Hreads; eapply St; [|exact H]; intros v0 ? ? ? E; cbn in E;
         first [injection E as _ <-; reflexivity
               |destruct (new_data v0); injection E as _ <-; reflexivity]);
    try (apply Hreads; eapply Ct; [|exact H]; intros v0 ? ? ? E; cbn in E; injection E as _ <-; reflexivity).
  - unfold reset_data_available, bindS in H. destruct (status_register_ bs d) as [r1 d1] eqn:E.
    apply status_register_spec in E. destruct E as (w' & -> & [(v & -> & Hv & Ht)|(e & x & -> & (data & -> & _) & Ht)]).
    + apply set_status_register_spec in H. destruct H as (w2 & e & -> & Ht2 & _).
      cbn [d_bus d_address with_bus] in *. rewrite Ht, <- app_assoc in Ht2.
      eexists. split; [exact Ht2|]. right. exists [reads_word (d_address d) status_reg v]. do 3 eexists. exists [].
      split; [reflexivity|]. split; [repeat constructor|]. split; [constructor|auto].
    + injection H as _ <-. apply Hreads. eexists. split; [exact Ht|]. repeat constructor.
  - eapply is_setter_shape; [apply S1|exact H].
  - eapply is_setter_shape; [apply S2|exact H].
  - eapply is_setter_shape; [apply S3|exact H].
  - eapply is_setter_shape; [apply S4|exact H].
  - eapply is_setter_shape; [apply S5|exact H].
  - eapply is_setter_shape; [apply S6|exact H].
  - eapply is_setter_shape; [apply S7|exact H].
  - eapply is_setter_shape; [apply S8|exact H].
  - apply C27_synchronize in H. destruct H as (w' & evs & -> & Ht & Hs). exists evs. split; [exact Ht|].
    destruct Hs as [x e (data & -> & _)|v v' e Hv (Hv' & B3 & B4 & B5 & Hbits)|v v' polls r1 Hv (Hv' & B3 & B4 & B5 & Hbits) Hp].
    + left. repeat constructor.
    + right. exists [reads_word (d_address d) status_reg v]. do 3 eexists. exists [].
      split; [reflexivity|]. split; [repeat constructor|]. split; [constructor|auto].
    + right. exists [reads_word (d_address d) status_reg v]. do 3 eexists. exists polls.
      split; [reflexivity|]. split; [repeat constructor|]. split; [eapply poll_reads; exact Hp|]. right. split; [eauto|reflexivity].
Qed.
End Shape.
