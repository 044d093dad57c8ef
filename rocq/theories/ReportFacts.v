(** * ReportFacts: a failing transaction is the last one of its call and its error is returned. *)
From Verif Require Import Base FloatOps Register Bus Camera Cam640 Cam641 Calc CalcFacts Driver
  BitFacts SpecRegister RegisterFacts SpecCamera CameraFacts SpecDriver DriverFacts StepFacts
  SpecImage SpecCall ImageFacts P_Bus P_Image.

(** The transactions [evs] of a call that returned [r]: all succeeded and [r] is
    no bus error, or exactly the last one failed and [r] is its error. *)
Inductive reported {ER EW A} : list (event ER EW) -> res (error ER EW) A -> Prop :=
| rep_none evs r : Forall succeeded evs ->
    (forall e, r <> Err (I2cWriteReadError e)) -> (forall e, r <> Err (I2cWriteError e)) -> reported evs r
| rep_read evs i2c wb data e : Forall succeeded evs ->
    reported (evs ++ [EvRead i2c wb data (Some e)]) (Err (I2cWriteReadError e))
| rep_write evs i2c bytes e : Forall succeeded evs ->
    reported (evs ++ [EvWrite i2c bytes (Some e)]) (Err (I2cWriteError e)).

Section Report.
Context {FO : FloatOps} (p : profile) {B ER EW : Type} (bs : bus B ER EW).
Notation driver := (driver (FO := FO) (B := B) (ER := ER) (EW := EW)).
Notation op := (op (FO := FO)).
Notation event := (event ER EW).
Notation err := (error ER EW).
Implicit Types d : driver.

Lemma reported_map {A A'} (f : A -> A') (evs : list event) (r : res err A) :
  reported evs r -> reported evs (bind r (fun a => Ok (f a))).
Proof.
  intros [evs0 r0 H1 H2 H3|evs0 i2c wb data e H|evs0 i2c bytes e H].
  - apply rep_none; [exact H1| |]; intros e E; destruct r0; cbn [bind] in E; try discriminate;
      injection E as ->; [eapply H2|eapply H3]; reflexivity.
  - apply (rep_read evs0). exact H.
  - apply (rep_write evs0). exact H.
Qed.
Lemma reported_ok {A} (evs : list event) (a : A) : Forall succeeded evs -> reported evs (Ok a).
Proof. intros H. apply rep_none; [exact H| |]; discriminate. Qed.
Lemma reported_panic {A} (evs : list event) : Forall succeeded evs -> reported (A := A) evs Panic.
Proof. intros H. apply rep_none; [exact H| |]; discriminate. Qed.

Notation m := (m (FO := FO) (B := B) (ER := ER) (EW := EW)).
Definition rep_after {A} (d : driver) (x : m A) : Prop :=
  exists evs, trace (d_bus (snd x)) = trace (d_bus d) ++ evs /\ reported evs (fst x).

Lemma status_read_rep {A} (k : Z -> driver -> m A) d :
  (forall v d1, word v -> exists a, k v d1 = (Ok a, d1)) -> rep_after d (bindS (status_register_ bs d) k).
Proof.
  intros Hk. unfold rep_after, bindS. destruct (status_register_ bs d) as [r0 d0] eqn:E.
  apply status_register_spec in E. destruct E as (w' & -> & [(v & -> & Hv & Ht)|(e & x & -> & (data & -> & _) & Ht)]).
  - destruct (Hk v (with_bus d w') Hv) as [a ->]. cbn [fst snd]. eexists. split; [exact Ht|].
    apply reported_ok. repeat constructor.
  - cbn [fst snd]. eexists. split; [exact Ht|]. apply (rep_read []). constructor.
Qed.
Lemma control_read_rep {A} (k : Z -> driver -> m A) d :
  (forall v d1, word v -> exists a, k v d1 = (Ok a, d1)) -> rep_after d (bindS (control_register_ bs d) k).
Proof.
  intros Hk. unfold rep_after, bindS. destruct (control_register_ bs d) as [r0 d0] eqn:E.
  apply control_register_spec in E. destruct E as (w' & [(v & -> & Hv & -> & Ht)|(e & x & -> & (data & -> & _) & -> & Ht)]).
  - destruct (Hk v (recached (with_bus d w') v) Hv) as [a ->]. cbn [fst snd]. eexists. split; [exact Ht|].
    apply reported_ok. repeat constructor.
  - cbn [fst snd]. eexists. split; [exact Ht|]. apply (rep_read []). constructor.
Qed.
Lemma setter_rep {V} (call : driver -> m unit) reg lo n (value : Z -> V) v d :
  is_setter call reg lo n value v -> rep_after d (call d).
Proof.
  intros Hs. destruct (call d) as [r d'] eqn:E. destruct (Hs d r d' E) as (evs & Ht & Hr).
  exists evs. split; [exact Ht|]. cbn [fst].
  destruct Hr as [x e (data & -> & _)|w _ _|w w' err _ _ _ _].
  - apply (rep_read []). constructor.
  - apply reported_ok. repeat constructor.
  - destruct err as [e|].
    + apply (rep_write [reads_word (d_address d) reg w]). repeat constructor.
    + apply reported_ok. repeat constructor.
Qed.
Lemma reset_rep d : rep_after d (reset_data_available bs d).
Proof.
  unfold rep_after, reset_data_available, bindS. destruct (status_register_ bs d) as [r0 d0] eqn:E.
  apply status_register_spec in E. destruct E as (w' & -> & [(v & -> & Hv & Ht)|(e & x & -> & (data & -> & _) & Ht)]).
  - destruct (set_status_register bs (reset_new_data v) (with_bus d w')) as [r1 d1] eqn:E.
    apply set_status_register_spec in E. destruct E as (w2 & e & -> & Ht2 & ->).
    cbn [d_bus d_address with_bus fst snd] in *. rewrite Ht, <- app_assoc in Ht2.
    eexists. split; [exact Ht2|]. destruct e as [e|].
    + apply (rep_write [reads_word (d_address d) status_reg v]). repeat constructor.
    + apply reported_ok. repeat constructor.
  - cbn [fst snd]. eexists. split; [exact Ht|]. apply (rep_read []). constructor.
Qed.
Lemma sync_rep fuel d : rep_after d (synchronize bs fuel d).
Proof.
  destruct (synchronize bs fuel d) as [r d'] eqn:E. apply C27_synchronize in E.
  destruct E as (w' & evs & -> & Ht & Hs). exists evs. split; [exact Ht|]. cbn [fst].
  destruct Hs as [x e (data & -> & _)|v v' e _ _|v v' polls r1 _ _ Hp].
  - apply (rep_read []). constructor.
  - apply (rep_write [reads_word (d_address d) status_reg v]). repeat constructor.
  - assert (G : forall waits : list event, Forall (not_ready (d_address d)) waits -> Forall succeeded waits).
    { intros waits H. eapply Forall_impl; [|exact H]. intros x (x0 & _ & _ & ->). reflexivity. }
    destruct Hp as [waits x Hw (x0 & _ & _ & ->) _|waits x e Hw (data & -> & _) _|waits Hw _].
    + apply reported_ok. do 2 (constructor; [reflexivity|]). apply Forall_app. split; [auto|repeat constructor].
    + change (reads_word (d_address d) status_reg v :: writes_word (d_address d) status_reg v' None :: waits ++ [EvRead (d_address d) status_reg data (Some e)])
        with ((reads_word (d_address d) status_reg v :: writes_word (d_address d) status_reg v' None :: waits) ++ [EvRead (EW := EW) (d_address d) status_reg data (Some e)]).
      apply rep_read. do 2 (constructor; [reflexivity|]). auto.
    + apply rep_none; try discriminate. do 2 (constructor; [reflexivity|]). auto.
Qed.

Lemma good_succeeded i2c reads evs : Forall2 (good_read (ER := ER) (EW := EW) i2c) reads evs -> Forall succeeded evs.
Proof. induction 1 as [|rd ev reads evs (data & -> & _) _ IH]; constructor; [reflexivity|exact IH]. Qed.
Lemma frame_failed_rep lay d sp {A} (pre : list event) (r : res err A) evs : Forall succeeded pre ->
  frame_failed lay d sp r evs -> reported (pre ++ evs) r.
Proof.
  intros Hp [(e & -> & pre0 & rd & post & good & bad & _ & -> & Hg & data & -> & _)|(-> & _ & pre0 & rd & post & _ & Hg)].
  - rewrite app_assoc. apply rep_read. apply Forall_app. split; [exact Hp|eapply good_succeeded; exact Hg].
  - apply reported_panic. apply Forall_app. split; [exact Hp|eapply good_succeeded; exact Hg].
Qed.

Lemma step_reported lay d o r d' dest : wf d lay -> step p bs d o = (r, d', dest) ->
  exists evs, trace (d_bus d') = trace (d_bus d) ++ evs /\ reported evs r.
Proof.
  intros Hwf H.
  destruct (destination o) as [dst|] eqn:Ho.
  { destruct (image_outcome p bs lay d o dst r d' dest Hwf Ho H) as (evs & Ht & Hout).
    exists evs. split; [exact Ht|].
    destruct Hout as [x e w _ Hx|v w _ _ _|raw sp pre evs r buf w Ha Hf _|raw sp pre evs ram buf w w0 Ha Hcm _ Hr _
      |raw sp pre evs post ram buf w0 w w1 t dest r Ha Hcm Hl Hw Hr Hcalc Hk].
    - destruct Hx as (data & -> & _). apply (rep_read []). constructor.
    - apply reported_ok. repeat constructor.
    - eapply frame_failed_rep; [eapply asks_reads; exact Ha|exact Hf].
    - apply reported_panic, Forall_app. split; [eapply asks_reads; exact Ha|eapply good_succeeded; exact Hcm].
    - assert (Hpre : Forall succeeded pre) by (eapply asks_reads; exact Ha).
      assert (Hfr : Forall succeeded evs) by (eapply good_succeeded; exact Hcm).
      destruct Hk as [| | |v v' dst0 err Hv Hv' Hb Hbits];
        try (rewrite app_nil_r; apply reported_ok, Forall_app; split; [exact Hpre|exact Hfr]).
      destruct err as [e|].
      + rewrite app_assoc. apply rep_write. apply Forall_app. auto.
      + apply reported_ok. apply Forall_app. split; [exact Hpre|]. apply Forall_app. split; [exact Hfr|repeat constructor]. }
  destruct (C18_setters FO B ER EW bs) as (S1 & S2 & S3 & S4 & S5 & S6 & S7 & S8).
  assert (G : forall A (f : A -> out (FO := FO)) (x : m A), rep_after d x -> lift f x = (r, d', dest) ->
    exists evs, trace (d_bus d') = trace (d_bus d) ++ evs /\ reported evs r).
  { intros A f x (evs & Ht & Hr) E. destruct x as [r0 d0]. unfold lift in E. injection E as <- <- <-.
    exists evs. split; [exact Ht|]. cbn [fst] in Hr. apply (reported_map f) in Hr. exact Hr. }
  assert (Gpure : forall o, (Ok o, d, []) = (r, d', dest) -> exists evs, trace (d_bus d') = trace (d_bus d) ++ evs /\ reported evs r).
  { intros x E. injection E as <- <- <-. exists []. rewrite app_nil_r. split; [reflexivity|]. apply reported_ok. constructor. }
  destruct o; try discriminate; cbn [step] in H;
    try (injection H as <- <- <-; exists []; rewrite app_nil_r; split; [reflexivity|]; apply reported_ok; constructor);
    (eapply G; [|exact H]); clear G Gpure H;
    try (eapply setter_rep; first [apply S1|apply S2|apply S3|apply S4|apply S5|apply S6|apply S7|apply S8]);
    try apply reset_rep; try apply sync_rep;
    try (apply status_read_rep; intros v d1 Hv; cbn [pure];
         rewrite ?last_updated_subpage_doc by exact Hv; try destruct (new_data v); cbn [bind pure]; eexists; reflexivity);
    try (apply control_read_rep; intros v d1 Hv; unfold pure;
         rewrite ?ctl_subpage_doc, ?ctl_frame_rate_doc, ?ctl_resolution_doc, ?ctl_access_pattern_doc by exact Hv;
         eexists; reflexivity).
Qed.
End Report.
