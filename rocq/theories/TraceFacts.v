(** * TraceFacts: the ghost trace is what the device did; writes are read-modify-write. *)
From Verif Require Import Base FloatOps Register Bus Camera Cam640 Cam641 Calc CalcFacts Driver
  BitFacts SpecRegister RegisterFacts SpecCamera CameraFacts SpecDriver DriverFacts StepFacts
  SpecImage SpecCall ImageFacts Mock SpecMock P_Bus P_Image.

Section Performed.
Context {B ER EW : Type} (bs : bus B ER EW).
Notation W := (world B ER EW).

(** The device, started in [b], performs the transactions [evs] and ends in [b']. *)
Inductive performed : B -> list (event ER EW) -> B -> Prop :=
| perf_nil b : performed b [] b
| perf_read b i2c wb buf b1 out e evs b2 : dev_write_read bs b i2c wb buf = (b1, out, e) ->
    performed b1 evs b2 -> performed b (EvRead i2c wb (clip buf out) e :: evs) b2
| perf_write b i2c bytes b1 e evs b2 : dev_write bs b i2c bytes = (b1, e) ->
    performed b1 evs b2 -> performed b (EvWrite i2c bytes e :: evs) b2.

Lemma performed_app b1 e1 b2 e2 b3 : performed b1 e1 b2 -> performed b2 e2 b3 -> performed b1 (e1 ++ e2) b3.
Proof. induction 1; intros H2; cbn [app]; [exact H2| |]; econstructor; eauto. Qed.
Lemma performed_split e1 : forall b1 e2 b3, performed b1 (e1 ++ e2) b3 ->
  exists b2, performed b1 e1 b2 /\ performed b2 e2 b3.
Proof.
  induction e1 as [|x e1 IH]; intros b1 e2 b3 H; cbn [app] in H.
  - exists b1. split; [constructor|exact H].
  - inversion H; subst; match goal with H : performed _ (e1 ++ e2) _ |- _ => destruct (IH _ _ _ H) as (b2' & H1 & H2) end;
      exists b2'; (split; [econstructor; eassumption|exact H2]).
Qed.

Definition moved (w w' : W) : Prop := exists evs, trace w' = trace w ++ evs /\ performed (dev w) evs (dev w').
Lemma moved_refl w : moved w w.
Proof. exists []. rewrite app_nil_r. split; [reflexivity|constructor]. Qed.
Lemma moved_trans a b c : moved a b -> moved b c -> moved a c.
Proof.
  intros (e1 & T1 & P1) (e2 & T2 & P2). exists (e1 ++ e2). rewrite T2, T1, app_assoc.
  split; [reflexivity|eapply performed_app; eassumption].
Qed.

Lemma write_read_moved i2c wb buf w data e w' : write_read bs i2c wb buf w = (data, e, w') -> moved w w'.
Proof.
  unfold write_read. destruct (dev_write_read bs (dev w) i2c wb buf) as [[b out] e0] eqn:H.
  intros E. injection E as _ _ <-. eexists. split; [reflexivity|]. econstructor; [exact H|constructor].
Qed.
Lemma bus_write_moved i2c bytes w e w' : bus_write bs i2c bytes w = (e, w') -> moved w w'.
Proof.
  unfold bus_write. destruct (dev_write bs (dev w) i2c bytes) as [b e0] eqn:H.
  intros E. injection E as _ <-. eexists. split; [reflexivity|]. econstructor; [exact H|constructor].
Qed.
Lemma read_register_moved i2c a w r w' : read_register bs i2c a w = (r, w') -> moved w w'.
Proof.
  unfold read_register. destruct (write_read bs i2c (to_be_bytes a) [0; 0] w) as [[data e] w0] eqn:H.
  apply write_read_moved in H. intros E. assert (w' = w0) as -> by (destruct e; injection E; auto). exact H.
Qed.
Lemma write_register_moved i2c a v w r w' : write_register bs i2c a v w = (r, w') -> moved w w'.
Proof.
  unfold write_register. destruct (bus_write bs i2c (to_be_bytes a ++ to_be_bytes v) w) as [e w0] eqn:H.
  apply bus_write_moved in H. intros E. assert (w' = w0) as -> by (destruct e; injection E; auto). exact H.
Qed.
Lemma read_ram_value_moved i2c a w r w' : read_ram_value bs i2c a w = (r, w') -> moved w w'.
Proof.
  unfold read_ram_value. destruct (write_read bs i2c (to_be_bytes a) [0; 0] w) as [[data e] w0] eqn:H.
  apply write_read_moved in H. intros E. assert (w' = w0) as -> by (destruct e; injection E; auto). exact H.
Qed.
Lemma read_ranges_moved i2c rs : forall buf w r buf' w',
  read_ranges bs i2c rs buf w = (r, buf', w') -> moved w w'.
Proof.
  induction rs as [|rg rs IH]; intros buf w r buf' w' H; cbn [read_ranges] in H.
  - injection H as _ _ <-. apply moved_refl.
  - destruct (Nat.ltb (length buf) (buffer_offset rg + range_length rg)); [injection H as _ _ <-; apply moved_refl|].
    destruct (write_read bs i2c (to_be_bytes (start_address rg))
      (firstn (range_length rg) (skipn (buffer_offset rg) buf)) w) as [[data e] w0] eqn:Hw.
    apply write_read_moved in Hw.
    destruct e as [e|]; [injection H as _ _ <-; exact Hw|]. eapply moved_trans; [exact Hw|eapply IH; exact H].
Qed.
Lemma read_ram_moved {FO : FloatOps} (c : camera FO) height i2c ap sp buf w r buf' w' :
  read_ram bs c height i2c ap sp buf w = (r, buf', w') -> moved w w'.
Proof.
  unfold read_ram. intros H.
  destruct (Nat.ltb height (length (pixel_ranges _ c sp ap))); [injection H as _ _ <-; apply moved_refl|].
  destruct (read_ranges bs i2c (pixel_ranges _ c sp ap) buf w) as [[r0 buf0] w0] eqn:Hr.
  apply read_ranges_moved in Hr.
  destruct r0 as [u| | |]; try (injection H as _ _ <-; exact Hr).
  destruct (ram_data_from_i2c bs c i2c sp w0) as [r2 w2] eqn:Hd. injection H as _ _ <-.
  eapply moved_trans; [exact Hr|]. clear Hr. unfold ram_data_from_i2c, bindS in Hd.
  repeat match type of Hd with
  | context [let '(_, _) := read_ram_value bs i2c ?a ?w0 in _] =>
      let Hr := fresh "Hr" in let rr := fresh "r" in let ww := fresh "w" in
      destruct (read_ram_value bs i2c a w0) as [rr ww] eqn:Hr; apply read_ram_value_moved in Hr;
      destruct rr as [?|?| |]
  end; injection Hd as _ <-; repeat (eapply moved_trans; [eassumption|]); apply moved_refl.
Qed.
End Performed.

Section Driver.
Context {FO : FloatOps} (p : profile) {B ER EW : Type} (bs : bus B ER EW).
Notation driver := (driver (FO := FO) (B := B) (ER := ER) (EW := EW)).
Notation op := (op (FO := FO)).
Notation event := (event ER EW).
Implicit Types d : driver.

Lemma prim_moved d d' : prim bs d d' -> moved bs (d_bus d) (d_bus d').
Proof.
  intros H. destruct H as [d r d' H|d r d' H|v d r d' Hv H|v d r d' Hv H|sp d r d' H|d t|d t|d t];
    try apply moved_refl.
  - unfold status_register_ in H. destruct (read_register bs (d_address d) STATUS_ADDRESS (d_bus d)) as [r0 w0] eqn:E.
    apply read_register_moved in E. injection H as _ <-. exact E.
  - unfold control_register_ in H. destruct (read_register bs (d_address d) CONTROL_ADDRESS (d_bus d)) as [r0 w0] eqn:E.
    apply read_register_moved in E.
    unfold bindS in H. destruct r0 as [v| | |]; try (injection H as _ <-; exact E).
    unfold update_control_register in H.
    destruct (ctl_resolution v) in H; cbn [bind] in H; try (injection H as _ <-; exact E).
    destruct (ctl_access_pattern v) in H; cbn [bind] in H; injection H as _ <-; exact E.
  - unfold set_status_register in H.
    destruct (write_register bs (d_address d) STATUS_ADDRESS v (d_bus d)) as [r0 w0] eqn:E.
    apply write_register_moved in E. injection H as _ <-. exact E.
  - unfold set_control_register, bindS in H. rewrite update_control_register_spec in H by assumption.
    cbn [d_address d_bus recached with_cache] in H.
    destruct (write_register bs (d_address d) CONTROL_ADDRESS v (d_bus d)) as [r0 w0] eqn:E.
    apply write_register_moved in E. injection H as _ <-. exact E.
  - unfold drv_read_ram in H.
    destruct (read_ram bs (cam _ (d_calibration d)) (d_height d) (d_address d) (d_access_pattern d) sp
      (d_pixel_buffer d) (d_bus d)) as [[r0 buf'] w'] eqn:E.
    apply read_ram_moved in E. injection H as _ <-. exact E.
Qed.
Lemma prims_moved d d' : prims bs d d' -> moved bs (d_bus d) (d_bus d').
Proof.
  apply (prims_rel bs (fun d d' => moved bs (d_bus d) (d_bus d'))).
  - intros x. apply moved_refl.
  - intros a b c. apply moved_trans.
  - apply prim_moved.
Qed.

(** ** Read-modify-write *)
Lemma rmw_reads i2c (evs : list event) : Forall is_read evs -> read_modify_write i2c evs.
Proof.
  intros H before x after -> Hx. exfalso. apply Hx. apply Forall_app in H. destruct H as [_ H].
  inversion H. assumption.
Qed.
Lemma rmw_one i2c reg v v' err (mid post : list event) :
  Forall is_read mid -> Forall is_read post -> reg = status_reg \/ reg = control_reg -> word v -> word v' ->
  (forall i, 0 <= i < 16 -> ~ changeable reg i -> bit v' i = bit v i) ->
  read_modify_write i2c (reads_word i2c reg v :: mid ++ writes_word i2c reg v' err :: post).
Proof.
  intros Hm Hp Hr Hv Hv' Hb before x after E Hx.
  assert (H : before = reads_word i2c reg v :: mid /\ x = writes_word i2c reg v' err).
  { destruct before as [|y before]; cbn [app] in E.
    - injection E as <- _. exfalso. apply Hx. exact I.
    - injection E as <- E. clear Hb. revert before E. induction Hm as [|z mid Hz Hm IH]; intros before E; cbn [app] in E.
      + destruct before as [|y before]; cbn [app] in E; [injection E as <- _; auto|].
        injection E as _ E. subst post. apply Forall_app in Hp. destruct Hp as [_ Hp]. inversion Hp. contradiction.
      + destruct before as [|y before]; cbn [app] in E; [injection E as <- _; contradiction|].
        injection E as <- E. destruct (IH before E) as [E1 ->]. injection E1 as ->. auto. }
  destruct H as [-> ->]. exists [], v, mid, reg, v', err. auto 10.
Qed.

Lemma setter_rmw {V} i2c reg lo n (value : Z -> V) v evs r :
  reg = status_reg \/ reg = control_reg ->
  (forall i, lo <= i < lo + n -> changeable reg i) ->
  setter_run (ER := ER) (EW := EW) i2c reg lo n value v evs r -> read_modify_write i2c evs.
Proof.
  intros Hr Hc H. destruct H as [x e (data & -> & _)|w _ _|w w' err Hw _ Ho _].
  - apply rmw_reads. repeat constructor.
  - apply rmw_reads. repeat constructor.
  - apply (rmw_one i2c reg w w' err [] []); [constructor|constructor|exact Hr|exact Hw|apply Ho|].
    intros i Hi Hn. apply Ho; [exact Hi|]. intros Hl. apply Hn, Hc, Hl.
Qed.


Lemma status_reads_only d r d' : status_register_ bs d = (r, d') ->
  exists evs, trace (d_bus d') = trace (d_bus d) ++ evs /\ Forall is_read evs.
Proof.
  intros H. apply status_register_spec in H.
  destruct H as (w' & -> & [(v & _ & _ & Ht)|(e & x & _ & (data & -> & _) & Ht)]);
    eexists; (split; [exact Ht|]); repeat constructor.
Qed.
Lemma control_reads_only d r d' : control_register_ bs d = (r, d') ->
  exists evs, trace (d_bus d') = trace (d_bus d) ++ evs /\ Forall is_read evs.
Proof.
  intros H. apply control_register_spec in H.
  destruct H as (w' & [(v & _ & _ & -> & Ht)|(e & x & _ & (data & -> & _) & -> & Ht)]);
    eexists; (split; [exact Ht|]); repeat constructor.
Qed.
Definition rmw_after d d' : Prop :=
  exists evs, trace (d_bus d') = trace (d_bus d) ++ evs /\ read_modify_write (d_address d) evs.
Lemma rmw_nil d d' : trace (d_bus d') = trace (d_bus d) -> rmw_after d d'.
Proof. intros H. exists []. rewrite app_nil_r. split; [exact H|]. apply rmw_reads. constructor. Qed.
Lemma status_read_rmw {A} (k : Z -> driver -> m A) d r d' :
  (forall v d1 r1 d1', k v d1 = (r1, d1') -> d1' = d1) ->
  bindS (status_register_ bs d) k = (r, d') -> rmw_after d d'.
Proof.
  intros Hk H. unfold bindS in H. destruct (status_register_ bs d) as [r0 d0] eqn:E.
  apply status_reads_only in E. destruct E as (evs & Ht & Hr). exists evs. split; [|apply rmw_reads; exact Hr].
  destruct r0; try (injection H as _ <-; exact Ht). apply Hk in H. subst d'. exact Ht.
Qed.
Lemma control_read_rmw {A} (k : Z -> driver -> m A) d r d' :
  (forall v d1 r1 d1', k v d1 = (r1, d1') -> d1' = d1) ->
  bindS (control_register_ bs d) k = (r, d') -> rmw_after d d'.
Proof.
  intros Hk H. unfold bindS in H. destruct (control_register_ bs d) as [r0 d0] eqn:E.
  apply control_reads_only in E. destruct E as (evs & Ht & Hr). exists evs. split; [|apply rmw_reads; exact Hr].
  destruct r0; try (injection H as _ <-; exact Ht). apply Hk in H. subst d'. exact Ht.
Qed.
Lemma is_setter_rmw {V} (call : driver -> m unit) reg lo n (value : Z -> V) v d r d' :
  is_setter call reg lo n value v -> reg = status_reg \/ reg = control_reg ->
  (forall i, lo <= i < lo + n -> changeable reg i) ->
  call d = (r, d') -> rmw_after d d'.
Proof.
  intros Hs Hr Hc H. destruct (Hs d r d' H) as (evs & Ht & Hrun). exists evs. split; [exact Ht|].
  eapply setter_rmw; eassumption.
Qed.

Lemma poll_reads i2c n (evs : list event) r : poll_run i2c n evs r -> Forall is_read evs.
Proof.
  assert (G : forall waits : list event, Forall (not_ready i2c) waits -> Forall is_read waits).
  { intros waits H. eapply Forall_impl; [|exact H]. intros x (v & _ & _ & ->). exact I. }
  intros [waits x Hw (v & _ & _ & ->) _|waits x e Hw (data & -> & _) _|waits Hw _].
  - apply Forall_app. split; [auto|repeat constructor].
  - apply Forall_app. split; [auto|repeat constructor].
  - auto.
Qed.

Lemma step_rmw lay d o r d' dest : wf d lay -> step p bs d o = (r, d', dest) -> rmw_after d d'.
Proof.
  intros Hwf H.
  destruct (destination o) as [dst|] eqn:Ho.
  { destruct (image_outcome p bs lay d o dst r d' dest Hwf Ho H) as (evs & Ht & Hout).
    exists evs. split; [exact Ht|].
    destruct Hout as [x e w _ Hx|v w _ _ _|raw sp pre evs r buf w Ha Hf _|raw sp pre evs ram buf w w0 Ha Hcm _ Hr _
      |raw sp pre evs post ram buf w0 w w1 t dest r Ha Hcm Hl Hw Hr Hcalc Hk].
    - destruct Hx as (data & -> & _). apply rmw_reads. repeat constructor.
    - apply rmw_reads. repeat constructor.
    - apply rmw_reads, Forall_app. split; [eapply asks_reads; exact Ha|eapply failed_reads; exact Hf].
    - apply rmw_reads, Forall_app. split; [eapply asks_reads; exact Ha|eapply reads_only; exact Hcm].
    - assert (Hpre : Forall is_read pre) by (eapply asks_reads; exact Ha).
      assert (Hfr : Forall is_read evs) by (eapply reads_only; exact Hcm).
      destruct Hk as [| | |v v' dst0 err Hv Hv' Hb Hbits];
        try (apply rmw_reads; rewrite app_nil_r; apply Forall_app; split; [exact Hpre|exact Hfr]).
      apply (rmw_one (d_address d) status_reg v v' err evs []); auto.
      intros i Hi Hn. apply Hbits; [exact Hi|]. intros ->. apply Hn. left. auto. }
  destruct (C18_setters FO B ER EW bs) as (S1 & S2 & S3 & S4 & S5 & S6 & S7 & S8).
  destruct o; try discriminate; cbn [step] in H;
    try (apply lift_inv in H; destruct H as (r0 & H & _ & _));
    try (injection H as _ <- _; apply rmw_nil; reflexivity);
    try (eapply status_read_rmw; [|exact H]; intros v0 ? ? ? E; cbn in E;
         first [injection E as _ <-; reflexivity
               |destruct (new_data v0); injection E as _ <-; reflexivity]);
    try (eapply control_read_rmw; [|exact H]; intros v0 ? ? ? E; cbn in E; injection E as _ <-; reflexivity).
  - (* reset_data_available *)
    unfold reset_data_available, bindS in H. destruct (status_register_ bs d) as [r1 d1] eqn:E.
    apply status_register_spec in E. destruct E as (w' & -> & [(v & -> & Hv & Ht)|(e & x & -> & (data & -> & _) & Ht)]).
    + apply set_status_register_spec in H. destruct H as (w2 & e & -> & Ht2 & _).
      cbn [d_bus d_address with_bus] in *. rewrite Ht, <- app_assoc in Ht2.
      eexists. split; [exact Ht2|]. destruct (reset_new_data_spec v Hv) as [Hoc _].
      apply (rmw_one (d_address d) status_reg v _ e [] []); auto; [apply Hoc|].
      intros i Hi Hn. apply Hoc; [exact Hi|]. intros Hl. apply Hn. left. split; [reflexivity|]. lia.
    + injection H as _ <-. eexists. split; [exact Ht|]. apply rmw_reads. repeat constructor.
  - eapply (is_setter_rmw _ status_reg); [apply S1|auto| |exact H]. intros i Hi. left. split; [reflexivity|lia].
  - eapply (is_setter_rmw _ control_reg); [apply S2|auto| |exact H]. intros i Hi. right. split; [reflexivity|lia].
  - eapply (is_setter_rmw _ control_reg); [apply S3|auto| |exact H]. intros i Hi. right. split; [reflexivity|lia].
  - eapply (is_setter_rmw _ control_reg); [apply S4|auto| |exact H]. intros i Hi. right. split; [reflexivity|lia].
  - eapply (is_setter_rmw _ control_reg); [apply S5|auto| |exact H]. intros i Hi. right. split; [reflexivity|lia].
  - eapply (is_setter_rmw _ control_reg); [apply S6|auto| |exact H]. intros i Hi. right. split; [reflexivity|lia].
  - eapply (is_setter_rmw _ control_reg); [apply S7|auto| |exact H]. intros i Hi. right. split; [reflexivity|lia].
  - eapply (is_setter_rmw _ control_reg); [apply S8|auto| |exact H]. intros i Hi. right. split; [reflexivity|lia].
  - (* synchronize *)
    apply C27_synchronize in H. destruct H as (w' & evs & -> & Ht & Hs). exists evs. split; [exact Ht|].
    destruct Hs as [x e (data & -> & _)|v v' e Hv (Hv' & B3 & B4 & B5 & Hbits)|v v' polls r1 Hv (Hv' & B3 & B4 & B5 & Hbits) Hp].
    + apply rmw_reads. repeat constructor.
    + apply (rmw_one (d_address d) status_reg v v' (Some e) [] []); auto.
      intros i Hi Hn. apply Hbits; [exact Hi| | |]; intros ->; apply Hn; left; auto.
    + apply (rmw_one (d_address d) status_reg v v' None [] polls); auto.
      * eapply poll_reads; exact Hp.
      * intros i Hi Hn. apply Hbits; [exact Hi| | |]; intros ->; apply Hn; left; auto.
Qed.
End Driver.
