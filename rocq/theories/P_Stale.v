(** * C92: a camera whose settings change behind the driver's back. *)
From Verif Require Import Base FloatOps Register Bus Camera Cam640 Cam641 Ee640 Ee641 Calc CalcFacts Driver
  BitFacts SpecRegister RegisterFacts SpecCamera CameraFacts SpecDriver DriverFacts StepFacts Demo
  SpecImage SpecCall ImageFacts P_Bus P_Image P_Frames P_ImageDemo HoldFacts P_Hold SpecStale.

Lemma last_seen_unique {ER EW} i2c (evs : list (event ER EW)) u v : last_seen i2c evs u -> last_seen i2c evs v -> u = v.
Proof.
  intros [Hu (b1 & x1 & a1 & E1 & C1 & N1)] [Hv (b2 & x2 & a2 & E2 & C2 & N2)].
  assert (Same : forall x, conveys i2c u x -> conveys (ER := ER) (EW := EW) i2c v x -> u = v).
  { intros x H1 H2. assert (E : [u / 256; u mod 256] = [v / 256; v mod 256]).
    { destruct H1 as [-> | [e ->]], H2 as [H|[e' H]]; try discriminate H; unfold reads_word, writes_word, control_reg in H; cbn [app] in H; congruence. }
    rewrite (Z_div_mod_eq_full u 256), (Z_div_mod_eq_full v 256). congruence. }
  rewrite E1 in E2. clear E1 evs. revert b2 E2. induction b1 as [|y b1 IH]; intros b2 E2.
  - destruct b2 as [|z b2].
    + injection E2 as <- <-. apply (Same x1); assumption.
    + exfalso. cbn [app] in E2. injection E2 as <- ->. apply (N1 v x2); [apply in_or_app; right; left; reflexivity|exact C2].
  - destruct b2 as [|z b2].
    + exfalso. cbn [app] in E2. injection E2 as <- <-. apply (N2 u x1); [apply in_or_app; right; left; reflexivity|exact C1].
    + cbn [app] in E2. injection E2 as _ E2. eapply IH. exact E2.
Qed.

Section Stale.
Context {FO : FloatOps} (p : profile) {B ER EW : Type} (bs : bus B ER EW).
Notation driver := (driver (FO := FO) (B := B) (ER := ER) (EW := EW)).
Notation op := (op (FO := FO)).
Notation event := (event ER EW).
Notation W := (world B ER EW).
Implicit Types (d : driver) (evs : list event).

Lemma conveys_about i2c v (x : event) : conveys i2c v x -> about_control x.
Proof. intros [-> | [e ->]]; reflexivity. Qed.
Lemma quiet_nothing i2c evs : Forall (fun x => ~ about_control x) evs -> nothing_seen i2c evs.
Proof. intros H u y Hy Hc. rewrite Forall_forall in H. exact (H y Hy (conveys_about _ _ _ Hc)). Qed.
Lemma status_read_quiet a v : ~ about_control (reads_word (ER := ER) (EW := EW) a status_reg v).
Proof. intros H. discriminate H. Qed.
Lemma status_write_quiet a v e : ~ about_control (writes_word (ER := ER) (EW := EW) a status_reg v e).
Proof. intros H. discriminate H. Qed.
Lemma fails_quiet a e (x : event) : read_fails a status_reg e x -> ~ about_control x.
Proof. intros (data & -> & _) H. discriminate H. Qed.
Lemma fails_conveys_not a e (x : event) i2c u : read_fails a control_reg e x -> ~ conveys i2c u x.
Proof. intros (data & -> & _) [H|[e' H]]; discriminate H. Qed.
Lemma frame_read_quiet rd a data e : in_range rd -> ~ about_control (EvRead (ER := ER) (EW := EW) a [fst rd / 256; fst rd mod 256] data e).
Proof.
  intros (H1 & H2 & _) E. cbn [about_control] in E. injection E as E _.
  assert (fst rd / 256 < 0x80) by (apply Z.div_lt_upper_bound; [lia|]; pose proof (Z.div_pos (Z.of_nat (snd rd)) 2); lia). lia.
Qed.
Lemma good_quiet a reads evs : Forall in_range reads -> Forall2 (good_read a) reads evs -> Forall (fun x => ~ about_control x) evs.
Proof.
  intros Hr H. induction H as [|rd x reads evs (data & -> & _) _ IH]; [constructor|]. inversion Hr; subst.
  constructor; [apply frame_read_quiet; assumption|apply IH; assumption].
Qed.
Lemma aborted_quiet a reads e evs : Forall in_range reads -> aborted a reads e evs -> Forall (fun x => ~ about_control x) evs.
Proof.
  intros Hr (pre & rd & post & good & bad & -> & -> & Hg & (data & -> & _)). apply Forall_app in Hr. destruct Hr as [R1 R2].
  apply Forall_app. split; [apply (good_quiet a pre); assumption|]. inversion R2; subst. constructor; [apply frame_read_quiet; assumption|constructor].
Qed.
Lemma cut_quiet a reads evs : Forall in_range reads -> cut_short a reads evs -> Forall (fun x => ~ about_control x) evs.
Proof.
  intros Hr (pre & rd & post & -> & Hg). apply Forall_app in Hr. destruct Hr as [R1 _]. apply (good_quiet a pre); assumption.
Qed.
Lemma lay_in_range (c : camera FO) lay sp ap : documented c lay -> Forall in_range (lay_reads lay sp ap).
Proof. intros Hd. pose proof (frame_in_range c lay sp ap Hd) as H. apply Forall_app in H. exact (proj1 H). Qed.

(** What the transactions [evs] tell the driver. *)
Definition told (d : driver) (evs : list event) (d' : driver) : Prop :=
  trace (d_bus d') = trace (d_bus d) ++ evs /\ d_calibration d' = d_calibration d /\ d_address d' = d_address d /\
  ((nothing_seen (d_address d) evs /\ d_access_pattern d' = d_access_pattern d /\ d_resolution_correction d' = d_resolution_correction d) \/
   (exists v, last_seen (d_address d) evs v /\ uses d' v)).

Lemma told_refl d : told d [] d.
Proof. split; [rewrite app_nil_r; reflexivity|]. split; [reflexivity|]. split; [reflexivity|]. left. split; [intros u y []|auto]. Qed.
Lemma told_trans d evs d1 evs' d2 : told d evs d1 -> told d1 evs' d2 -> told d (evs ++ evs') d2.
Proof.
  intros (T1 & C1 & A1 & H1) (T2 & C2 & A2 & H2). split; [rewrite T2, T1, app_assoc; reflexivity|].
  split; [congruence|]. split; [congruence|]. rewrite A1 in H2.
  destruct H2 as [(N2 & P2 & R2)|(v & L & U)].
  - destruct H1 as [(N1 & P1 & R1)|(v & [Hv (b & x & a & E & Hc & Hn)] & [U1 U2])].
    + left. split; [|split; congruence]. intros u y Hy. apply in_app_or in Hy. destruct Hy; [apply N1|apply N2]; assumption.
    + right. exists v. split.
      * split; [exact Hv|]. exists b, x, (a ++ evs'). split; [rewrite E, <- app_assoc; reflexivity|]. split; [exact Hc|].
        intros u y Hy. apply in_app_or in Hy. destruct Hy; [apply Hn|apply N2]; assumption.
      * split; [congruence|]. rewrite R2, C2. exact U2.
  - right. exists v. split; [|exact U]. destruct L as [Hv (b & x & a & E & Hc & Hn)].
    split; [exact Hv|]. exists (evs ++ b), x, a. split; [rewrite E, <- app_assoc; reflexivity|]. split; assumption.
Qed.
Lemma told_quiet d evs d' : trace (d_bus d') = trace (d_bus d) ++ evs -> Forall (fun x => ~ about_control x) evs ->
  d_calibration d' = d_calibration d -> d_address d' = d_address d ->
  d_access_pattern d' = d_access_pattern d -> d_resolution_correction d' = d_resolution_correction d -> told d evs d'.
Proof. intros T Q C A P R. split; [exact T|]. split; [exact C|]. split; [exact A|]. left. split; [apply quiet_nothing; exact Q|auto]. Qed.

Lemma prim_told lay d d' : wf d lay -> prim bs d d' -> exists evs, told d evs d'.
Proof.
  intros Hwf H. destruct H as [d r d' H|d r d' H|v d r d' Hv H|v d r d' Hv H|sp d r d' H|d t|d t|d t].
  - apply status_register_spec in H. destruct H as (w' & -> & [(v & _ & Hv & Ht)|(e & x & _ & Hx & Ht)]);
      eexists; (apply told_quiet; [exact Ht| |reflexivity..]); (constructor; [|constructor]).
    + apply status_read_quiet.
    + eapply fails_quiet. exact Hx.
  - apply control_register_spec in H. destruct H as (w' & [(v & _ & Hv & -> & Ht)|(e & x & _ & Hx & -> & Ht)]).
    + eexists. split; [exact Ht|]. split; [reflexivity|]. split; [reflexivity|]. right. exists v. split.
      * split; [exact Hv|]. exists [], (reads_word (d_address d) control_reg v), []. split; [reflexivity|]. split; [left; reflexivity|].
        intros u y [].
      * split; reflexivity.
    + eexists. split; [exact Ht|]. split; [reflexivity|]. split; [reflexivity|]. left. split; [|auto].
      intros u y [<-|[]]. eapply fails_conveys_not. exact Hx.
  - apply set_status_register_spec in H. destruct H as (w' & e & -> & Ht & _).
    eexists; (apply told_quiet; [exact Ht| |reflexivity..]). constructor; [apply status_write_quiet|constructor].
  - apply set_control_register_spec in H; [|exact Hv]. destruct H as (w' & e & -> & Ht & _).
    eexists. split; [exact Ht|]. split; [reflexivity|]. split; [reflexivity|]. right. exists v. split.
    + split; [exact Hv|]. exists [], (writes_word (d_address d) control_reg v e), []. split; [reflexivity|].
      split; [right; eexists; reflexivity|]. intros u y [].
    + split; reflexivity.
  - apply (drv_read_ram_spec bs lay) in H; [|exact Hwf]. destruct H as (w' & buf' & evs & -> & _ & Ht & H).
    exists evs. apply told_quiet; [exact Ht| |reflexivity..]. destruct Hwf as [Hd _].
    destruct r as [x|[e|e|e]| |]; try contradiction.
    + eapply good_quiet; [eapply frame_in_range; exact Hd|exact H].
    + eapply aborted_quiet; [eapply frame_in_range; exact Hd|exact H].
    + destruct H as [_ H]. eapply cut_quiet; [eapply lay_in_range; exact Hd|exact H].
  - exists []. apply told_quiet; [rewrite app_nil_r; reflexivity|constructor|reflexivity..].
  - exists []. apply told_quiet; [rewrite app_nil_r; reflexivity|constructor|reflexivity..].
  - exists []. apply told_quiet; [rewrite app_nil_r; reflexivity|constructor|reflexivity..].
Qed.
Lemma prims_told lay d d' : wf d lay -> prims bs d d' -> exists evs, told d evs d'.
Proof.
  intros Hwf H. revert Hwf. induction H as [d|d d1 d2 H1 H2 IH]; intros Hwf; [exists []; apply told_refl|].
  destruct (prim_told lay d d1 Hwf H1) as [e1 T1].
  destruct IH as [e2 T2].
  { destruct (prim_later bs lay d d1 Hwf H1) as (evs & (Hs & _) & _). eapply same_config_wf; eassumption. }
  exists (e1 ++ e2). eapply told_trans; eassumption.
Qed.

(** Any bus, any camera, any history from the construction on, failures included: the
    settings used for images are those of the last control word read or sent. *)
Theorem C92_settings_last_seen : forall height num_bytes w a (c : calib FO) lay d w' ops evs,
  documented (cam _ c) lay -> (lay_height lay <= height)%nat ->
  new_with_calibration bs height num_bytes w a c = (Ok d, w') ->
  trace (d_bus (run p bs d ops)) = trace w ++ evs ->
  exists v, last_seen a evs v /\ uses (run p bs d ops) v.
Proof.
  intros height num_bytes w a c lay d w' ops evs Hd Hh Hnew Ht.
  apply C29_new_with_calibration in Hnew. destruct Hnew as (ev0 & Ht0 & Hc).
  inversion Hc as [v d0 Hv Hfr|]; subst. destruct Hfr as (Hb & Ha & Hcal & Hhe & _ & _ & _ & _ & Hap & Hrc).
  assert (Hwf : wf d lay) by (unfold wf; rewrite Hcal, Hhe; auto).
  destruct (prims_told lay d _ Hwf (run_prims p bs ops d)) as (evs' & T & C & A & H).
  rewrite Hb, Ht0, <- app_assoc in T. rewrite Ht in T. apply app_inv_head in T. subst evs.
  assert (U : uses d v) by (unfold uses; rewrite Hcal; auto).
  rewrite Ha in *. destruct H as [(N & P & R)|(u & [Hu (b & x & e & E & Hx & Hn)] & Uu)].
  - exists v. split.
    + split; [exact Hv|]. exists [], (reads_word a control_reg v), evs'. split; [reflexivity|]. split; [left; reflexivity|exact N].
    + destruct U as [U1 U2]. split; [congruence|]. rewrite R, C. exact U2.
  - exists u. split; [|exact Uu]. split; [exact Hu|].
    exists (reads_word a control_reg v :: b), x, e. split; [rewrite E; reflexivity|]. split; assumption.
Qed.

(** Calls that are not about the control register do not learn of a change in it: they
    neither read nor write it, and keep the settings.  In particular no number of images
    does. *)
Lemma setter_quiet {V} (call : driver -> m unit) lo n (value : Z -> V) v d r d' :
  is_setter call status_reg lo n value v -> call d = (r, d') ->
  exists evs, trace (d_bus d') = trace (d_bus d) ++ evs /\ Forall (fun x => ~ about_control x) evs.
Proof.
  intros Hs H. destruct (Hs d r d' H) as (evs & Ht & Hrun). exists evs. split; [exact Ht|].
  destruct Hrun as [x e Hx|w _ _|w w' err _ _ _ _].
  - constructor; [eapply fails_quiet; exact Hx|constructor].
  - constructor; [apply status_read_quiet|constructor].
  - constructor; [apply status_read_quiet|]. constructor; [apply status_write_quiet|constructor].
Qed.
Lemma status_read_after {A} (k : Z -> driver -> m A) d r d' :
  (forall v d1 r1 d1', k v d1 = (r1, d1') -> d1' = d1) ->
  bindS (status_register_ bs d) k = (r, d') ->
  exists evs, trace (d_bus d') = trace (d_bus d) ++ evs /\ Forall (fun x => ~ about_control x) evs.
Proof.
  intros Hk H. unfold bindS in H. destruct (status_register_ bs d) as [r0 d0] eqn:E.
  apply status_register_spec in E. destruct E as (w' & -> & [(v & -> & Hv & Ht)|(e & x & -> & Hx & Ht)]).
  - apply Hk in H. subst d'. eexists. split; [exact Ht|]. constructor; [apply status_read_quiet|constructor].
  - injection H as _ <-. eexists. split; [exact Ht|]. constructor; [eapply fails_quiet; exact Hx|constructor].
Qed.
Lemma asks_quiet a (o : op) raw sp evs : asks a o raw sp evs -> Forall (fun x => ~ about_control x) evs.
Proof. intros H. destruct H; repeat constructor; apply status_read_quiet. Qed.
Lemma acks_quiet a (o : op) pre post r : acknowledges a o pre post r -> Forall (fun x : event => ~ about_control x) post.
Proof. intros H. destruct H; repeat constructor; apply status_write_quiet. Qed.
Lemma poll_quiet a fuel evs r : poll_run a fuel evs r -> Forall (fun x => ~ about_control x) evs.
Proof.
  intros H. assert (W : forall waits : list event, Forall (not_ready a) waits -> Forall (fun x => ~ about_control x) waits).
  { intros waits Hw. eapply Forall_impl; [|exact Hw]. intros x (v & _ & _ & ->). apply status_read_quiet. }
  destruct H as [waits x Hw Hx Hl|waits x e Hw Hx Hl|waits Hw Hl]; [| |exact (W _ Hw)]; apply Forall_app; (split; [exact (W _ Hw)|]);
    (constructor; [|constructor]).
  - destruct Hx as (v & _ & _ & ->). apply status_read_quiet.
  - eapply fails_quiet. exact Hx.
Qed.
Theorem C92_unnoticed : forall lay d o r d' dest,
  usable d lay -> ~ consults o -> step p bs d o = (r, d', dest) ->
  d_access_pattern d' = d_access_pattern d /\ d_resolution_correction d' = d_resolution_correction d /\
  exists evs, trace (d_bus d') = trace (d_bus d) ++ evs /\ Forall (fun x => ~ about_control x) evs.
Proof.
  intros lay d o r d' dest Hu Hn H.
  assert (Hev : exists evs, trace (d_bus d') = trace (d_bus d) ++ evs /\ Forall (fun x => ~ about_control x) evs).
  { destruct (destination o) as [dst|] eqn:Ho.
    { destruct (image_outcome p bs lay d o dst r d' dest (usable_wf _ _ Hu) Ho H) as (evs & Ht & Hout).
      exists evs. split; [exact Ht|]. destruct Hu as (Hd & _).
      destruct Hout as [x e w Hx Hf|v w -> _ _|raw sp pre evs r buf w Ha Hf _|raw sp pre evs ram buf w w0 Ha Hcm _ Hr _
        |raw sp pre evs post ram buf w0 w w1 t dest r Ha Hcm Hl Hw Hr Hcalc Hk].
      - constructor; [eapply fails_quiet; exact Hf|constructor].
      - constructor; [apply status_read_quiet|constructor].
      - apply Forall_app. split; [eapply asks_quiet; exact Ha|].
        destruct Hf as [(e & -> & Hab)|(-> & Hs & Hc)].
        + eapply aborted_quiet; [eapply frame_in_range; exact Hd|exact Hab].
        + eapply cut_quiet; [eapply lay_in_range; exact Hd|exact Hc].
      - apply Forall_app. split; [eapply asks_quiet; exact Ha|]. eapply good_quiet; [eapply frame_in_range; exact Hd|exact Hcm].
      - apply Forall_app. split; [eapply asks_quiet; exact Ha|]. apply Forall_app.
        split; [eapply good_quiet; [eapply frame_in_range; exact Hd|exact Hcm]|]. eapply acks_quiet. exact Hk. }
    destruct (C18_setters FO B ER EW bs) as (S1 & _).
    destruct o; try discriminate; cbn [consults] in Hn; try (exfalso; exact (Hn I)); cbn [step] in H;
      try (apply lift_inv in H; destruct H as (r0 & H & _ & _));
      try (injection H as _ <- _; exists []; rewrite app_nil_r; split; [reflexivity|constructor]);
      try (eapply status_read_after; [|exact H]; intros v0 ? ? ? E; cbn in E;
           first [injection E as _ <-; reflexivity
                 |destruct (new_data v0); injection E as _ <-; reflexivity]).
    - unfold reset_data_available, bindS in H. destruct (status_register_ bs d) as [r1 d1] eqn:E.
      apply status_register_spec in E. destruct E as (w' & -> & [(v & -> & Hv & Ht)|(e & x & -> & Hx & Ht)]).
      + apply set_status_register_spec in H. destruct H as (w2 & e & -> & Ht2 & _).
        cbn [d_bus d_address with_bus] in *. rewrite Ht, <- app_assoc in Ht2.
        eexists. split; [exact Ht2|]. constructor; [apply status_read_quiet|]. constructor; [apply status_write_quiet|constructor].
      + injection H as _ <-. eexists. split; [exact Ht|]. constructor; [eapply fails_quiet; exact Hx|constructor].
    - eapply setter_quiet; [apply S1|exact H].
    - apply C27_synchronize in H. destruct H as (w' & evs & -> & Ht & Hs). exists evs. split; [exact Ht|].
      destruct Hs as [x e Hx|v v' e Hv _|v v' polls r1 Hv _ Hp].
      + constructor; [eapply fails_quiet; exact Hx|constructor].
      + constructor; [apply status_read_quiet|]. constructor; [apply status_write_quiet|constructor].
      + constructor; [apply status_read_quiet|]. constructor; [apply status_write_quiet|]. eapply poll_quiet. exact Hp. }
  destruct Hev as (evs & Ht & Hq).
  destruct (prims_told lay d d' (usable_wf _ _ Hu) (step_prims p bs _ _ _ _ _ H)) as (evs' & Ht' & _ & _ & [(_ & P & R)|(v & [_ (b & x & e & E & Hx & _)] & _)]).
  - eauto.
  - exfalso. rewrite Ht in Ht'. apply app_inv_head in Ht'. subst evs' evs. apply Forall_app in Hq. destruct Hq as [_ Hq].
    inversion Hq as [|? ? Hq1 _]; subst. apply Hq1. eapply conveys_about. exact Hx.
Qed.

Lemma unnoticed_run lay d ops : usable d lay -> Forall (fun o => ~ consults o) ops ->
  usable (run p bs d ops) lay /\
  d_access_pattern (run p bs d ops) = d_access_pattern d /\ d_resolution_correction (run p bs d ops) = d_resolution_correction d.
Proof.
  revert d. induction ops as [|o ops IH]; intros d Hu Hf; [auto|]. inversion Hf as [|? ? Ho Hf']; subst.
  change (run p bs d (o :: ops)) with (run p bs (step_state p bs d o) ops).
  destruct (step p bs d o) as [[r d1] dest] eqn:E. assert (Es : step_state p bs d o = d1) by (unfold step_state; rewrite E; reflexivity).
  rewrite Es. assert (Hu1 : usable d1 lay) by (eapply usable_step; eassumption).
  destruct (C92_unnoticed lay d o r d1 dest Hu Ho E) as (P & R & _).
  destruct (IH d1 Hu1 Hf') as (U & P2 & R2). split; [exact U|]. split; congruence.
Qed.

(** One call about the control register is enough: if it succeeds, or fails in writing,
    the settings are those of the register as it read (or wrote) it in this very call,
    whatever the driver thought before and whatever happened to the camera. *)
Theorem C92_noticed : forall lay d o r d' dest,
  usable d lay -> consults o -> step p bs d o = (r, d', dest) ->
  exists evs, trace (d_bus d') = trace (d_bus d) ++ evs /\
    ((exists e x, r = Err (I2cWriteReadError e) /\ evs = [x] /\ read_fails (d_address d) control_reg e x) \/
     ((exists out, r = Ok out) \/ (exists e, r = Err (I2cWriteError e))) /\
     exists v, last_seen (d_address d) evs v /\ uses d' v).
Proof.
  intros lay d o r d' dest Hu Hc H.
  destruct (prims_told lay d d' (usable_wf _ _ Hu) (step_prims p bs _ _ _ _ _ H)) as (evs & Ht & _ & _ & HT).
  exists evs. split; [exact Ht|].
  assert (Read : forall A (k : Z -> driver -> m A) (f : A -> out (FO := FO)) x,
    (forall v d1, word v -> exists a, k v d1 = (Ok a, d1)) -> bindS (control_register_ bs d) k = (x, d') -> r = bind x (fun a => Ok (f a)) ->
    ((exists e x, r = Err (I2cWriteReadError e) /\ evs = [x] /\ read_fails (d_address d) control_reg e x) \/
     ((exists out, r = Ok out) /\ exists v, word v /\ evs = [reads_word (d_address d) control_reg v]))).
  { intros A k f x Hk E Er. unfold bindS in E. destruct (control_register_ bs d) as [r0 d0] eqn:Ec.
    apply control_register_spec in Ec. destruct Ec as (w' & [(v & -> & Hv & -> & Ht2)|(e & y & -> & Hx & -> & Ht2)]).
    - destruct (Hk v (recached (with_bus d w') v) Hv) as [a Ea]. rewrite Ea in E.
      assert (recached (with_bus d w') v = d') by congruence. subst d'. assert (x = Ok a) by congruence. subst x.
      change (trace (d_bus (recached (with_bus d w') v))) with (trace w') in Ht. rewrite Ht2 in Ht. apply app_inv_head in Ht.
      right. split; [eexists; exact Er|]. exists v. auto.
    - assert (with_bus d w' = d') by congruence. subst d'. assert (x = Err (I2cWriteReadError e)) by congruence. subst x.
      change (trace (d_bus (with_bus d w'))) with (trace w') in Ht. rewrite Ht2 in Ht. apply app_inv_head in Ht.
      left. exists e, y. auto. }
  assert (Set_ : forall V (call : driver -> m unit) lo n (value : Z -> V) v x,
    is_setter call control_reg lo n value v -> call d = (x, d') -> r = bind x (fun _ => Ok OutUnit) ->
    ((exists e x, r = Err (I2cWriteReadError e) /\ evs = [x] /\ read_fails (d_address d) control_reg e x) \/
     (((exists out, r = Ok out) \/ (exists e, r = Err (I2cWriteError e))) /\ exists v rest, word v /\ evs = reads_word (d_address d) control_reg v :: rest))).
  { intros V call lo n value v x Hs E Er. destruct (Hs d x d' E) as (evs2 & Ht2 & Hrun). rewrite Ht in Ht2. apply app_inv_head in Ht2. subst evs2.
    destruct Hrun as [y e Hx|w Hw _|w w' err Hw _ _ _].
    - left. exists e, y. auto.
    - right. split; [left; eexists; exact Er|]. exists w, []. auto.
    - right. split; [destruct err; [right|left]; eexists; exact Er|]. exists w. eexists. split; [exact Hw|reflexivity]. }
  assert (Fin : forall v rest, word v -> evs = reads_word (d_address d) control_reg v :: rest -> exists v, last_seen (d_address d) evs v /\ uses d' v).
  { intros v rest Hv E. destruct HT as [(N & _)|HT]; [|exact HT]. exfalso. apply (N v (reads_word (d_address d) control_reg v)); [rewrite E; left; reflexivity|left; reflexivity]. }
  destruct (C18_setters FO B ER EW bs) as (_ & S2 & S3 & S4 & S5 & S6 & S7 & S8).
  destruct o; cbn [consults] in Hc; try contradiction; cbn [step] in H;
    apply lift_inv in H; destruct H as (r0 & H & Er & _).
  all: try (match type of H with _ = (_, _) => idtac end;
    first [ destruct (Set_ _ _ _ _ _ _ _ (S2 _) H Er) as [D|(D & v1 & rest & Hv & E)]
          | destruct (Set_ _ _ _ _ _ _ _ (S3 _) H Er) as [D|(D & v1 & rest & Hv & E)]
          | destruct (Set_ _ _ _ _ _ _ _ (S4 _) H Er) as [D|(D & v1 & rest & Hv & E)]
          | destruct (Set_ _ _ _ _ _ _ _ (S5 _) H Er) as [D|(D & v1 & rest & Hv & E)]
          | destruct (Set_ _ _ _ _ _ _ _ (S6 _) H Er) as [D|(D & v1 & rest & Hv & E)]
          | destruct (Set_ _ _ _ _ _ _ _ (S7 _) H Er) as [D|(D & v1 & rest & Hv & E)]
          | destruct (Set_ _ _ _ _ _ _ _ (S8 _) H Er) as [D|(D & v1 & rest & Hv & E)]];
    [left; exact D|right; split; [exact D|eapply Fin; eassumption]]).
  all: match type of Er with _ = bind _ ?f => idtac end.
  all: edestruct (fun k f => Read _ k f r0) as [D|(D & v1 & Hv & E)]; [|exact H|exact Er|left; exact D|right; split; [left; exact D|eapply Fin; eassumption]].
  all: intros v0 d1 Hv0; cbn beta.
  all: try (eexists; reflexivity).
  - rewrite ctl_subpage_doc by exact Hv0. eexists. reflexivity.
  - rewrite ctl_frame_rate_doc by exact Hv0. eexists. reflexivity.
  - rewrite ctl_resolution_doc by exact Hv0. eexists. reflexivity.
  - rewrite ctl_access_pattern_doc by exact Hv0. eexists. reflexivity.
Qed.

(** What this means for the picture: after any calls that are not about the control
    register, an image is still computed with pattern and resolution of the control word
    [v] the driver knew before, also if the camera has meanwhile been reset, or
    reconfigured by another program. *)
Theorem C92_stale_image : forall lay d v ops o dest r d' dest' evs sp mem,
  usable d lay -> uses d v -> Forall (fun o => ~ consults o) ops ->
  let d1 := run p bs d ops in
  destination o = Some dest -> step p bs d1 o = (r, d', dest') -> computed o r ->
  trace (d_bus d') = trace (d_bus d1) ++ evs -> stores o (d_address d1) evs sp ->
  (forall a, word (mem a)) -> Forall (shows mem) evs ->
  image_stored (d_calibration d1) lay
    {| set_emissivity := d_emissivity d1; set_reflected := d_reflected d1;
       set_correction := resolution_correction _ (cam _ (d_calibration d)) (cal_resolution _ (d_calibration d)) (c_resolution (control_doc v));
       set_pattern := c_access_pattern (control_doc v) |} sp mem (is_raw o) dest dest'.
Proof.
  intros lay d v ops o dest r d' dest' evs sp mem Hu [U1 U2] Hf d1 Ho H Hc Ht Hst Hm Hs.
  destruct (unnoticed_run lay d ops Hu Hf) as (Hu1 & P & R). fold d1 in Hu1, P, R.
  destruct (C55_image_of_transcript p bs lay d1 o dest r d' dest' evs sp mem Hu1 Ho H Hc Ht Hst Hm Hs) as [_ Hi].
  unfold settings_of in Hi. rewrite P, R, U1, U2 in Hi. exact Hi.
Qed.
End Stale.
Print Assumptions C92_settings_last_seen.
Print Assumptions C92_unnoticed.
Print Assumptions C92_noticed.
Print Assumptions C92_stale_image.

(** A camera set to the chess pattern is switched to interleaved rows by someone else:
    the image call succeeds but updates the 384 pixels of a chess board instead of the
    first, third, ... row; after one call of [access_pattern] it updates those rows. *)
Definition elsewhere (control : Z) (d : Driver.driver (FO := ZFO) (B := toy) (ER := string) (EW := string)) :=
  with_bus d (Build_world {| toy_clock := 5; toy_status := 0x0008; toy_control := control; toy_frames := 7 |} []).
Definition changed_at (before after : list Z) : list nat :=
  filter (fun i => negb (nth i before 0 =? nth i after 0)) (seq 0 (length before)).
Example C92_concrete :
  match demo_driver 24 1536 demo640 0x0008 0x1901 with
  | Some d =>
      let d := elsewhere 0x0901 d in
      let '(r1, _, picture1) := step (FO := ZFO) Release (toy_bus never never) d (OpGenerateSubpage (FO := ZFO) Zero (repeat (-1) 768)) in
      let '(r2, d2, _) := step (FO := ZFO) Release (toy_bus never never) d OpAccessPattern in
      let '(r3, _, picture3) := step (FO := ZFO) Release (toy_bus never never) d2 (OpGenerateSubpage (FO := ZFO) Zero (repeat (-1) 768)) in
      r1 = Ok OutUnit /\ r2 = Ok (OutAccessPattern Interleave) /\ r3 = Ok OutUnit /\
      length (changed_at (repeat (-1) 768) picture1) = 384%nat /\ length (changed_at (repeat (-1) 768) picture3) = 384%nat /\
      firstn 3 (changed_at (repeat (-1) 768) picture1) = [0; 2; 4]%nat /\ firstn 3 (changed_at (repeat (-1) 768) picture3) = [0; 1; 2]%nat
  | None => False
  end.
Proof. vm_compute. repeat split; reflexivity. Qed.
