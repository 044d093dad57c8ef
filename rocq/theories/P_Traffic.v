(** * Property C84: the bus traffic of every call is bounded. *)
From Verif Require Import Base FloatOps Register Bus Camera Cam640 Cam641 Ee640 Ee641 Calc CalcFacts Driver
  BitFacts SpecRegister RegisterFacts SpecCamera CameraFacts SpecDriver DriverFacts StepFacts Demo
  SpecImage SpecCall ImageFacts Mock SpecMock P_Bus P_Image P_Frames P_ImageDemo TraceFacts SpecTraffic.

Section Traffic.
Context {FO : FloatOps} (p : profile) {B ER EW : Type} (bs : bus B ER EW).
Notation driver := (driver (FO := FO) (B := B) (ER := ER) (EW := EW)).
Notation op := (op (FO := FO)).
Notation event := (event ER EW).
Implicit Types d : driver.

Lemma traffic_app (e1 e2 : list event) : traffic (e1 ++ e2) = plus2 (traffic e1) (traffic e2).
Proof.
  unfold traffic, plus2. cbn [fst snd]. rewrite app_length, Nat2Z.inj_add. f_equal.
  induction e1 as [|x e1 IH]; [reflexivity|]. cbn [app fold_right]. rewrite IH. clear. lia.
Qed.
Lemma wire_pos (x : event) : 0 <= wire x.
Proof. destruct x; cbn [wire]; lia. Qed.
Lemma traffic_prefix (e1 e2 : list event) : within2 (traffic e1) (traffic (e1 ++ e2)).
Proof.
  rewrite traffic_app. unfold within2, plus2, traffic. cbn [fst snd].
  assert (0 <= fold_right (fun x n => wire x + n) 0 e2).
  { induction e2 as [|x e2 IH]; [reflexivity|]. cbn [fold_right]. pose proof (wire_pos x). lia. }
  lia.
Qed.
Lemma wire_word_read a reg v : (reg = status_reg \/ reg = control_reg) -> wire (reads_word (ER := ER) (EW := EW) a reg v) = 6.
Proof. intros [-> | ->]; reflexivity. Qed.
Lemma wire_word_write a reg v e : (reg = status_reg \/ reg = control_reg) -> wire (writes_word (ER := ER) (EW := EW) a reg v e) = 5.
Proof. intros [-> | ->]; reflexivity. Qed.
Lemma wire_fails a reg e (x : event) : (reg = status_reg \/ reg = control_reg) -> read_fails a reg e x -> wire x = 6.
Proof.
  intros Hr (data & -> & Hl). cbn [wire]. rewrite Hl. destruct Hr as [-> | ->]; reflexivity.
Qed.

Lemma tr_read a reg v : (reg = status_reg \/ reg = control_reg) -> traffic [reads_word (ER := ER) (EW := EW) a reg v] = (1, 6).
Proof. intros [-> | ->]; reflexivity. Qed.
Lemma tr_rw a reg v v' e : (reg = status_reg \/ reg = control_reg) ->
  traffic [reads_word (ER := ER) (EW := EW) a reg v; writes_word a reg v' e] = (2, 11).
Proof. intros [-> | ->]; reflexivity. Qed.
Lemma tr_fails a reg e (x : event) : (reg = status_reg \/ reg = control_reg) -> read_fails a reg e x -> traffic [x] = (1, 6).
Proof. intros Hr Hx. unfold traffic. cbn [length fold_right]. rewrite (wire_fails _ _ _ _ Hr Hx). reflexivity. Qed.

(** The traffic of a list of reads is determined by the reads. *)
Definition reads_wire (reads : list (Z * nat)) : Z * Z :=
  (Z.of_nat (length reads), fold_right (fun rd n => 4 + Z.of_nat (snd rd) + n) 0 reads).
Lemma good_traffic a reads (evs : list event) : Forall2 (good_read a) reads evs -> traffic evs = reads_wire reads.
Proof.
  intros H. unfold traffic, reads_wire. induction H as [|rd x reads evs (data & -> & Hl) H IH]; [reflexivity|].
  injection IH as IH1 IH2. cbn [length fold_right wire]. rewrite IH2, Hl. f_equal. lia.
Qed.
Lemma frame_wire (c : camera FO) lay sp ap : documented c lay -> reads_wire (frame_reads lay sp ap) = frame_traffic lay ap.
Proof. intros Hd. destruct Hd, sp, ap; vm_compute; reflexivity. Qed.
Lemma reads_wire_app r1 r2 : reads_wire (r1 ++ r2) = plus2 (reads_wire r1) (reads_wire r2).
Proof.
  unfold reads_wire, plus2. cbn [fst snd]. rewrite app_length, Nat2Z.inj_add. f_equal.
  induction r1 as [|x r1 IH]; [reflexivity|]. cbn [app fold_right]. rewrite IH. clear. lia.
Qed.
Lemma reads_wire_pos r : 0 <= fst (reads_wire r) /\ 0 <= snd (reads_wire r).
Proof.
  unfold reads_wire. cbn [fst snd]. split; [lia|]. induction r as [|x r IH]; [reflexivity|]. cbn [fold_right]. lia.
Qed.
Lemma aborted_traffic a reads e (evs : list event) : aborted a reads e evs -> within2 (traffic evs) (reads_wire reads).
Proof.
  intros (pre & rd & post & good & bad & -> & -> & Hg & (data & -> & Hl)).
  rewrite traffic_app, (good_traffic _ _ _ Hg), reads_wire_app. unfold traffic. cbn [length fold_right wire].
  change (rd :: post) with ([rd] ++ post). rewrite reads_wire_app. pose proof (reads_wire_pos post) as [P1 P2].
  unfold within2, plus2, reads_wire in *. cbn [fst snd length fold_right] in *. rewrite Hl. lia.
Qed.

Lemma within2_refl x : within2 x x.
Proof. split; apply Z.le_refl. Qed.


(** ** One call *)
Lemma bytes_fit (c : camera FO) lay sp ap : documented c lay -> (lay_bytes lay sp ap <= 2 * lay_pixels lay)%nat.
Proof. intros Hd. apply Nat.leb_le. destruct Hd, sp, ap; vm_compute; reflexivity. Qed.

Lemma asks_traffic a (o : op) raw sp (pre : list event) : asks a o raw sp pre ->
  match o with OpGenerateImage _ | OpGenerateIfReady _ => traffic pre = (1, 6) | _ => traffic pre = (0, 0) end.
Proof. intros H. destruct H; reflexivity. Qed.
Lemma acks_traffic a (o : op) (pre post : list event) r : acknowledges a o pre post r ->
  match o with OpGenerateIfReady _ => traffic post = (1, 5) | _ => traffic post = (0, 0) end.
Proof. intros H. destruct H; reflexivity. Qed.
Lemma asks_budget lay ap (o : op) a raw sp (pre : list event) : asks a o raw sp pre ->
  within2 (plus2 (traffic pre) (frame_traffic lay ap)) (budget lay ap o).
Proof.
  intros H. destruct H; cbn [budget]; unfold within2, plus2; cbn [fst snd]; try (cbn [traffic length fold_right fst snd]; lia);
    rewrite ?wire_word_read by auto; unfold traffic; cbn [fst snd length fold_right]; rewrite ?wire_word_read by auto; lia.
Qed.

Definition traffic_after d d' (lim : Z * Z) : Prop :=
  exists evs, trace (d_bus d') = trace (d_bus d) ++ evs /\ within2 (traffic evs) lim.
Definition one_after d d' : Prop :=
  exists x, trace (d_bus d') = trace (d_bus d) ++ [x] /\ is_read x /\ wire x = 6.
Lemma exact_traffic d d' : one_after d d' -> traffic_after d d' (1, 6).
Proof.
  intros (x & Ht & _ & Hw). exists [x]. split; [exact Ht|]. unfold traffic, within2. cbn [length fold_right fst snd]. lia.
Qed.
Lemma status_read_traffic {A} (k : Z -> driver -> m A) d r d' :
  (forall v d1 r1 d1', k v d1 = (r1, d1') -> d1' = d1) ->
  bindS (status_register_ bs d) k = (r, d') -> one_after d d'.
Proof.
  intros Hk H. unfold bindS in H. destruct (status_register_ bs d) as [r0 d0] eqn:E.
  apply status_register_spec in E. destruct E as (w' & -> & [(v & -> & Hv & Ht)|(e & x & -> & Hx & Ht)]).
  - apply Hk in H. subst d'. eexists. split; [exact Ht|]. split; [exact I|reflexivity].
  - injection H as _ <-. eexists. split; [exact Ht|].
    split; [destruct Hx as (data & -> & _); exact I|]. exact (wire_fails _ _ _ _ (or_introl eq_refl) Hx).
Qed.
Lemma control_read_traffic {A} (k : Z -> driver -> m A) d r d' :
  (forall v d1 r1 d1', k v d1 = (r1, d1') -> d1' = d1) ->
  bindS (control_register_ bs d) k = (r, d') -> one_after d d'.
Proof.
  intros Hk H. unfold bindS in H. destruct (control_register_ bs d) as [r0 d0] eqn:E.
  apply control_register_spec in E. destruct E as (w' & [(v & -> & Hv & -> & Ht)|(e & x & -> & Hx & -> & Ht)]).
  - apply Hk in H. subst d'. eexists. split; [exact Ht|]. split; [exact I|reflexivity].
  - injection H as _ <-. eexists. split; [exact Ht|].
    split; [destruct Hx as (data & -> & _); exact I|]. exact (wire_fails _ _ _ _ (or_intror eq_refl) Hx).
Qed.
Lemma is_setter_traffic {V} (call : driver -> m unit) reg lo n (value : Z -> V) v d r d' :
  is_setter call reg lo n value v -> reg = status_reg \/ reg = control_reg ->
  call d = (r, d') -> traffic_after d d' (2, 11).
Proof.
  intros Hs Hr H. destruct (Hs d r d' H) as (evs & Ht & Hrun). exists evs. split; [exact Ht|].
  destruct Hrun as [x e Hx|w _ _|w w' err _ _ _ _].
  - rewrite (tr_fails _ _ _ _ Hr Hx). split; cbn [fst snd]; lia.
  - rewrite (tr_read _ _ _ Hr). split; cbn [fst snd]; lia.
  - rewrite (tr_rw _ _ _ _ _ Hr). split; cbn [fst snd]; lia.
Qed.
Lemma poll_traffic i2c fuel (polls : list event) r : poll_run i2c fuel polls r ->
  within2 (traffic polls) (Z.of_nat fuel, 6 * Z.of_nat fuel).
Proof.
  intros H.
  assert (W : forall waits : list event, Forall (not_ready i2c) waits -> traffic waits = (Z.of_nat (length waits), 6 * Z.of_nat (length waits))).
  { intros waits Hw. unfold traffic. f_equal. induction Hw as [|x ws (v & Hv & _ & ->) Hw IH]; [reflexivity|].
    cbn [fold_right length]. rewrite (wire_word_read _ _ _ (or_introl eq_refl)), IH. lia. }
  destruct H as [waits x Hw Hx Hl|waits x e Hw Hx Hl|waits Hw Hl].
  - assert (Hx6 : wire x = 6) by (destruct Hx as (v & Hv & _ & ->); reflexivity).
    rewrite traffic_app, (W _ Hw). unfold traffic, within2, plus2. cbn [fst snd length fold_right].
    rewrite Hx6. lia.
  - rewrite traffic_app, (W _ Hw). unfold traffic, within2, plus2. cbn [fst snd length fold_right].
    rewrite (wire_fails _ _ _ _ (or_introl eq_refl) Hx). lia.
  - rewrite (W _ Hw), Hl. apply within2_refl.
Qed.

(** C84, one call: never more than its budget, whatever fails. *)
Theorem C84_call_traffic : forall lay d o r d' dest,
  usable d lay -> step p bs d o = (r, d', dest) ->
  exists evs, trace (d_bus d') = trace (d_bus d) ++ evs /\ within2 (traffic evs) (budget lay (d_access_pattern d) o).
Proof.
  intros lay d o r d' dest Hu H.
  destruct (destination o) as [dst|] eqn:Ho.
  { destruct (image_outcome p bs lay d o dst r d' dest (usable_wf _ _ Hu) Ho H) as (evs & Ht & Hout).
    exists evs. split; [exact Ht|]. destruct Hu as (Hd & _ & _ & Hbuf).
    assert (Hf0 : 0 <= fst (frame_traffic lay (d_access_pattern d)) /\ 0 <= snd (frame_traffic lay (d_access_pattern d))).
    { rewrite <- (frame_wire _ lay Zero (d_access_pattern d) Hd). apply reads_wire_pos. }
    destruct Hout as [x e w Hx Hf|v w -> _ _|raw sp pre evs r buf w Ha Hf _|raw sp pre evs ram buf w w0 Ha Hcm _ Hr _
      |raw sp pre evs post ram buf w0 w w1 t dest r Ha Hcm Hl Hw Hr Hcalc Hk].
    - rewrite (tr_fails _ _ _ _ (or_introl eq_refl) Hf).
      destruct Hx as [-> | ->]; unfold within2; cbn [budget]; unfold plus2; cbn [fst snd]; lia.
    - rewrite (tr_read _ _ _ (or_introl eq_refl)). unfold within2; cbn [budget]; unfold plus2; cbn [fst snd]; lia.
    - pose proof (asks_budget lay (d_access_pattern d) _ _ _ _ _ Ha) as Hb. rewrite traffic_app.
      destruct Hf as [(e & -> & Hab)|(-> & Hs & _)].
      + apply aborted_traffic in Hab. rewrite (frame_wire _ _ _ _ Hd) in Hab.
        unfold within2, plus2 in *. cbn [fst snd] in *. lia.
      + exfalso. pose proof (bytes_fit _ lay sp (d_access_pattern d) Hd) as Hby. lia.
    - pose proof (asks_budget lay (d_access_pattern d) _ _ _ _ _ Ha) as Hb. rewrite traffic_app.
      unfold completed in Hcm. rewrite (good_traffic _ _ _ Hcm), (frame_wire _ _ _ _ Hd). exact Hb.
    - pose proof (asks_traffic _ _ _ _ _ Ha) as H1. pose proof (acks_traffic _ _ _ _ _ Hk) as H2.
      rewrite !traffic_app. unfold completed in Hcm. rewrite (good_traffic _ _ _ Hcm), (frame_wire _ _ _ _ Hd).
      destruct o; try discriminate; rewrite H1, H2; unfold within2; cbn [budget]; unfold plus2; cbn [fst snd]; lia. }
  destruct (C18_setters FO B ER EW bs) as (S1 & S2 & S3 & S4 & S5 & S6 & S7 & S8).
  change (traffic_after d d' (budget lay (d_access_pattern d) o)).
  destruct o; try discriminate; cbn [step] in H; cbn [budget];
    try (apply lift_inv in H; destruct H as (r0 & H & _ & _));
    try (injection H as _ <- _; exists []; rewrite app_nil_r; split; [reflexivity|apply within2_refl]);
    try (apply exact_traffic; eapply status_read_traffic; [|exact H]; intros v0 ? ? ? E; cbn in E;
         first [injection E as _ <-; reflexivity
               |destruct (new_data v0); injection E as _ <-; reflexivity]);
    try (apply exact_traffic; eapply control_read_traffic; [|exact H]; intros v0 ? ? ? E; cbn in E; injection E as _ <-; reflexivity).
  - (* reset_data_available *)
    unfold reset_data_available, bindS in H. destruct (status_register_ bs d) as [r1 d1] eqn:E.
    apply status_register_spec in E. destruct E as (w' & -> & [(v & -> & Hv & Ht)|(e & x & -> & Hx & Ht)]).
    + apply set_status_register_spec in H. destruct H as (w2 & e & -> & Ht2 & _).
      cbn [d_bus d_address with_bus] in *. rewrite Ht, <- app_assoc in Ht2.
      eexists. split; [exact Ht2|]. cbn [app]. rewrite (tr_rw _ _ _ _ _ (or_introl eq_refl)). apply within2_refl.
    + injection H as _ <-. eexists. split; [exact Ht|]. rewrite (tr_fails _ _ _ _ (or_introl eq_refl) Hx).
      split; cbn [fst snd]; lia.
  - eapply (is_setter_traffic _ status_reg); [apply S1|auto|exact H].
  - eapply (is_setter_traffic _ control_reg); [apply S2|auto|exact H].
  - eapply (is_setter_traffic _ control_reg); [apply S3|auto|exact H].
  - eapply (is_setter_traffic _ control_reg); [apply S4|auto|exact H].
  - eapply (is_setter_traffic _ control_reg); [apply S5|auto|exact H].
  - eapply (is_setter_traffic _ control_reg); [apply S6|auto|exact H].
  - eapply (is_setter_traffic _ control_reg); [apply S7|auto|exact H].
  - eapply (is_setter_traffic _ control_reg); [apply S8|auto|exact H].
  - (* synchronize *)
    apply C27_synchronize in H. destruct H as (w' & evs & -> & Ht & Hs). exists evs. split; [exact Ht|].
    destruct Hs as [x e Hx|v v' e Hv _|v v' polls r1 Hv _ Hp].
    + rewrite (tr_fails _ _ _ _ (or_introl eq_refl) Hx). split; cbn [fst snd]; lia.
    + rewrite (tr_rw _ _ _ _ _ (or_introl eq_refl)). split; cbn [fst snd]; lia.
    + apply poll_traffic in Hp. change (reads_word (d_address d) status_reg v :: writes_word (d_address d) status_reg v' None :: polls)
        with ([reads_word (d_address d) status_reg v; writes_word (d_address d) status_reg v' None] ++ polls).
      rewrite traffic_app, (tr_rw _ _ _ _ _ (or_introl eq_refl)). unfold within2, plus2 in *. cbn [fst snd] in *. lia.
Qed.

(** C84: an image that is computed costs exactly its budget; a call that reads one register always does
    exactly that; a call about settings the driver keeps itself does not touch the bus. *)
Theorem C84_image_traffic_is_exact : forall lay d o r d' dest,
  usable d lay -> step p bs d o = (r, d', dest) -> computed o r ->
  exists evs, trace (d_bus d') = trace (d_bus d) ++ evs /\ traffic evs = budget lay (d_access_pattern d) o.
Proof.
  intros lay d o r d' dest Hu H Hc. destruct (destination o) as [dst|] eqn:Ho; [|destruct Hc as [Hc _]; congruence].
  destruct (C55_image_values p bs lay d o dst r d' dest Hu Ho H Hc) as (raw & sp & pre & frame & post & Et & Ha & Hf & Hk & _).
  eexists. split; [exact Et|]. rewrite !traffic_app. unfold completed in Hf.
  destruct Hu as (Hd & _). rewrite (good_traffic _ _ _ Hf), (frame_wire _ _ _ _ Hd).
  pose proof (asks_traffic _ _ _ _ _ Ha) as H1. pose proof (acks_traffic _ _ _ _ _ Hk) as H2.
  destruct o; try discriminate; rewrite H1, H2; unfold plus2; cbn [budget fst snd]; unfold plus2; cbn [fst snd];
    first [destruct (frame_traffic lay (d_access_pattern d)); cbn [fst snd]; f_equal; lia|f_equal; lia].
Qed.
Theorem C84_one_read : forall d o r d' dest,
  one_read o -> step p bs d o = (r, d', dest) ->
  exists x, trace (d_bus d') = trace (d_bus d) ++ [x] /\ is_read x /\ wire x = 6.
Proof.
  intros d o r d' dest Ho H.
  change (one_after d d').
  destruct o; try contradiction; cbn [step] in H;
    apply lift_inv in H; destruct H as (r0 & H & _ & _);
    first [eapply status_read_traffic; [|exact H]; intros v0 ? ? ? E; cbn in E;
         first [injection E as _ <-; reflexivity
               |destruct (new_data v0); injection E as _ <-; reflexivity]
     | eapply control_read_traffic; [|exact H]; intros v0 ? ? ? E; cbn in E; injection E as _ <-; reflexivity].
Qed.

(** C84, a history: never more than the sum. *)
Theorem C84_history_traffic : forall lay ops d,
  usable d lay ->
  exists evs, trace (d_bus (run p bs d ops)) = trace (d_bus d) ++ evs /\
    within2 (traffic evs) (fold_right (fun o n => plus2 (worst lay o) n) (0, 0) ops).
Proof.
  intros lay ops. induction ops as [|o ops IH]; intros d Hu.
  - exists []. rewrite app_nil_r. split; [reflexivity|apply within2_refl].
  - cbn [run fold_left]. destruct (step p bs d o) as [[r d'] dest] eqn:E.
    assert (Es : step_state p bs d o = d') by (unfold step_state; rewrite E; reflexivity). rewrite Es.
    destruct (C84_call_traffic lay d o r d' dest Hu E) as (e1 & T1 & B1).
    destruct (IH d' (usable_step p bs lay d o r d' dest Hu E)) as (e2 & T2 & B2). unfold run in T2.
    exists (e1 ++ e2). split; [rewrite T2, T1, app_assoc; reflexivity|].
    rewrite traffic_app. cbn [fold_right].
    assert (W : within2 (budget lay (d_access_pattern d) o) (worst lay o)).
    { unfold within2, worst. cbn [fst snd]. destruct (d_access_pattern d); lia. }
    unfold within2, plus2 in *. cbn [fst snd] in *. lia.
Qed.
End Traffic.

(** C84, construction: at most two transactions; exactly the EEPROM dump and the control register if it
    succeeds. *)
Lemma constructed_traffic {FO : FloatOps} {B ER EW} height num_bytes a (c : calib FO) (w' : world B ER EW) evs r :
  constructed height num_bytes a c w' evs r -> traffic evs = (1, 6).
Proof.
  intros H. destruct H as [v d Hv _|x e Hx]; [apply tr_read; auto|].
  exact (tr_fails _ _ _ _ (or_intror eq_refl) Hx).
Qed.
Lemma constructed_new_traffic {FO : FloatOps} {B ER EW} from_data height num_bytes a (w' : world B ER EW) evs r :
  constructed_new (FO := FO) from_data height num_bytes a w' evs r ->
  within2 (traffic evs) (2, 1674) /\ (forall d, r = Ok d -> traffic evs = (2, 1674)).
Proof.
  assert (D : forall data (e : option ER), length data = 1664%nat -> wire (EW := EW) (EvRead a [0x24; 0x00] data e) = 1668).
  { intros data e Hl. cbn [wire]. rewrite Hl. reflexivity. }
  intros H. destruct H as [data e Hl|data l Hl _ _|data Hl _ _|data Hl _ _|data c evs r Hl _ _ H];
    try (split; [|discriminate]; unfold within2, traffic; cbn [fst snd length fold_right]; rewrite D by assumption; lia).
  apply constructed_traffic in H.
  assert (E : traffic (EvRead a [36; 0] data None :: evs) = (2, 1674)).
  { change (EvRead a [36; 0] data None :: evs) with ([EvRead a [36; 0] data None] ++ evs). rewrite traffic_app, H.
    unfold plus2, traffic. cbn [fst snd length fold_right]. rewrite D by assumption. reflexivity. }
  rewrite E. split; [apply within2_refl|auto].
Qed.
Theorem C84_construction_traffic : forall FO p B ER EW (bs : bus B ER EW) w a r w',
  new bs (calib640_from_i2c FO p bs) 24 1536 w a = (r, w') \/ new bs (calib641_from_i2c FO p bs) 12 384 w a = (r, w') ->
  exists evs, trace w' = trace w ++ evs /\ within2 (traffic evs) (2, 1674) /\ (forall d, r = Ok d -> traffic evs = (2, 1674)).
Proof.
  intros FO p B ER EW bs w a r w' [H|H]; [apply C29_new_640 in H|apply C29_new_641 in H];
    destruct H as (evs & Ht & H); exists evs; (split; [exact Ht|]); eapply constructed_new_traffic; exact H.
Qed.

(** ** Concrete cases *)
(** A ready frame of an MLX90641: 13 transactions, 449 bytes; not ready: one; with the bus failing at the
    fifth transaction of the frame: six. *)
Example C84_concrete :
  match demo_driver 12 384 demo641 0x0009 0x0901 with
  | Some d =>
      let cost bs o := traffic (skipn (length (trace (d_bus d))) (trace (d_bus (step_state Debug bs d o)))) in
      cost (toy_bus never never) (OpGenerateIfReady blank) = (13, 449) /\
      cost (toy_bus never never) (OpGenerateImage blank) = (12, 444) /\
      cost (toy_bus never (at_clock 6)) (OpGenerateIfReady blank) = (6, 346) /\
      cost (toy_bus never never) OpHeight = (0, 0) /\
      cost (toy_bus never never) (OpSetFrameRate FR_SixtyFour) = (2, 11) /\
      budget (FO := ZFO) layout641 Interleave (OpGenerateIfReady blank) = (13, 449)
  | None => False
  end.
Proof. vm_compute. repeat split. Qed.
(** An MLX90640 frame in chess pattern. *)
Example C84_concrete_640 :
  match demo_driver 24 1536 demo640 0x0009 0x1901 with
  | Some d =>
      let cost bs o := traffic (skipn (length (trace (d_bus d))) (trace (d_bus (step_state Debug bs d o)))) in
      cost (toy_bus never never) (OpGenerateSubpage Zero []) = (6, 1570) /\ frame_traffic layout640 Chess = (6, 1570)
  | None => False
  end.
Proof. vm_compute. repeat split. Qed.

Print Assumptions C84_call_traffic.
Print Assumptions C84_image_traffic_is_exact.
Print Assumptions C84_one_read.
Print Assumptions C84_history_traffic.
Print Assumptions C84_construction_traffic.
