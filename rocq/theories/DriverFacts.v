(** * DriverFacts: what each driver primitive does to the trace and the state. *)
From Verif Require Import Base FloatOps Register Bus Camera Cam640 Cam641 Calc CalcFacts Driver
  BitFacts SpecRegister RegisterFacts SpecCamera CameraFacts SpecDriver.

Section RegisterIO.
Context {B ER EW : Type} (bs : bus B ER EW).
Notation W := (world B ER EW).

Lemma clip2_bytes out : exists hi lo, clip [0; 0] out = [hi; lo] /\ byte hi /\ byte lo.
Proof.
  destruct out as [|a [|b out]]; cbn [clip length map app skipn firstn].
  - exists 0, 0. split; [reflexivity|]. unfold byte; lia.
  - exists (a mod 256), 0. split; [reflexivity|]. unfold byte. split; [apply Z.mod_pos_bound; lia|lia].
  - exists (a mod 256), (b mod 256). split; [reflexivity|].
    split; apply Z.mod_pos_bound; lia.
Qed.

Lemma read_register_spec i2c a (w : W) r w' : read_register bs i2c a w = (r, w') ->
  (exists v, r = Ok v /\ word v /\ trace w' = trace w ++ [reads_word i2c (to_be_bytes a) v]) \/
  (exists e x, r = Err (I2cWriteReadError e) /\ read_fails i2c (to_be_bytes a) e x /\
               trace w' = trace w ++ [x]).
Proof.
  unfold read_register, write_read.
  destruct (dev_write_read bs (dev w) i2c (to_be_bytes a) [0; 0]) as [[b out] e].
  destruct (clip2_bytes out) as (hi & lo & Hc & Hh & Hl). rewrite Hc. destruct e as [e|]; intros H.
  - injection H as <- <-. right. eexists e, _. split; [reflexivity|]. split; [|reflexivity].
    exists [hi; lo]. split; reflexivity.
  - cbn [register_from_slice] in H. injection H as <- <-. left. exists (be16 hi lo).
    split; [reflexivity|]. split; [apply be16_word; assumption|].
    unfold reads_word. fold (to_be_bytes (be16 hi lo)). rewrite to_be_bytes_be16 by assumption. reflexivity.
Qed.

Lemma write_register_spec i2c a v (w : W) r w' : write_register bs i2c a v w = (r, w') ->
  exists err, trace w' = trace w ++ [writes_word i2c (to_be_bytes a) v err] /\
    r = match err with None => Ok tt | Some e => Err (I2cWriteError e) end.
Proof.
  unfold write_register, bus_write.
  destruct (dev_write bs (dev w) i2c (to_be_bytes a ++ to_be_bytes v)) as [b e]. intros H.
  exists e. destruct e; injection H as <- <-; split; reflexivity.
Qed.
End RegisterIO.

Lemma status_bytes : to_be_bytes STATUS_ADDRESS = status_reg.
Proof. reflexivity. Qed.
Lemma control_bytes : to_be_bytes CONTROL_ADDRESS = control_reg.
Proof. reflexivity. Qed.

Section Driver.
Context {FO : FloatOps} (p : profile) {B ER EW : Type} (bs : bus B ER EW).
Notation driver := (driver (FO := FO) (B := B) (ER := ER) (EW := EW)).
Notation err := (error ER EW).
Implicit Types d : driver.

(** Resolution correction and access pattern of a control word. *)
Definition correction_of d (w : Z) : F FO :=
  resolution_correction _ (cam _ (d_calibration d)) (cal_resolution _ (d_calibration d))
    (c_resolution (control_doc w)).
Definition pattern_of (w : Z) : access_pattern := c_access_pattern (control_doc w).
(** Cache refreshed from the control word [w]. *)
Definition recached d (w : Z) : driver := with_cache d (correction_of d w) (pattern_of w).

Lemma status_register_spec d r d' : status_register_ bs d = (r, d') ->
  exists w', d' = with_bus d w' /\
  ((exists v, r = Ok v /\ word v /\ trace w' = trace (d_bus d) ++ [reads_word (d_address d) status_reg v]) \/
   (exists e x, r = Err (I2cWriteReadError e) /\ read_fails (d_address d) status_reg e x /\
                trace w' = trace (d_bus d) ++ [x])).
Proof.
  unfold status_register_. destruct (read_register bs (d_address d) STATUS_ADDRESS (d_bus d)) as [r0 w'] eqn:H.
  intros E. injection E as <- <-. exists w'. split; [reflexivity|].
  apply read_register_spec in H. exact H.
Qed.

Lemma set_status_register_spec v d r d' : set_status_register bs v d = (r, d') ->
  exists w' e, d' = with_bus d w' /\
    trace w' = trace (d_bus d) ++ [writes_word (d_address d) status_reg v e] /\
    r = match e with None => Ok tt | Some e => Err (I2cWriteError e) end.
Proof.
  unfold set_status_register.
  destruct (write_register bs (d_address d) STATUS_ADDRESS v (d_bus d)) as [r0 w'] eqn:H.
  intros E. injection E as <- <-. apply write_register_spec in H. destruct H as (e & Ht & Hr).
  exists w', e. auto.
Qed.

Lemma update_control_register_spec v d : word v ->
  update_control_register v d = (Ok tt, recached d v).
Proof.
  intros Hv. unfold update_control_register.
  rewrite ctl_resolution_doc, ctl_access_pattern_doc by assumption. reflexivity.
Qed.

Lemma control_register_spec d r d' : control_register_ bs d = (r, d') ->
  exists w',
  ((exists v, r = Ok v /\ word v /\ d' = recached (with_bus d w') v /\
              trace w' = trace (d_bus d) ++ [reads_word (d_address d) control_reg v]) \/
   (exists e x, r = Err (I2cWriteReadError e) /\ read_fails (d_address d) control_reg e x /\
                d' = with_bus d w' /\ trace w' = trace (d_bus d) ++ [x])).
Proof.
  unfold control_register_. destruct (read_register bs (d_address d) CONTROL_ADDRESS (d_bus d)) as [r0 w'] eqn:H.
  apply read_register_spec in H. unfold bindS. intros E. exists w'.
  destruct H as [(v & -> & Hv & Ht)|(e & x & -> & Hx & Ht)].
  - rewrite update_control_register_spec in E by assumption. injection E as <- <-.
    left. exists v. auto.
  - injection E as <- <-. right. exists e, x. auto.
Qed.

Lemma set_control_register_spec v d r d' : word v -> set_control_register bs v d = (r, d') ->
  exists w' e, d' = with_bus (recached d v) w' /\
    trace w' = trace (d_bus d) ++ [writes_word (d_address d) control_reg v e] /\
    r = match e with None => Ok tt | Some e => Err (I2cWriteError e) end.
Proof.
  intros Hv. unfold set_control_register, bindS. rewrite update_control_register_spec by assumption.
  cbn [d_address d_bus recached with_cache].
  destruct (write_register bs (d_address d) CONTROL_ADDRESS v (d_bus d)) as [r0 w'] eqn:H.
  intros E. injection E as <- <-. apply write_register_spec in H. destruct H as (e & Ht & Hr).
  exists w', e. auto.
Qed.

(** Field setters. *)
Lemma eqb_cases {V} (eqb : V -> V -> bool) : (forall a b, eqb a b = true <-> a = b) ->
  forall a b, (eqb a b = true /\ a = b) \/ (eqb a b = false /\ a <> b).
Proof.
  intros H a b. destruct (eqb a b) eqn:E; [left|right]; (split; [reflexivity|]).
  - apply H. exact E.
  - intros Hab. apply H in Hab. congruence.
Qed.

Lemma set_status_field_spec {V} (getter : Z -> res err V) setter eqb lo n (value : Z -> V) v d r d' :
  (forall a b, eqb a b = true <-> a = b) ->
  (forall w, word w -> getter w = Ok (value w)) ->
  (forall w v, word w -> only_changes lo n w (setter w v) /\ value (setter w v) = v) ->
  set_status_field bs getter setter eqb v d = (r, d') ->
  exists w' evs, d' = with_bus d w' /\ trace w' = trace (d_bus d) ++ evs /\
    setter_run (d_address d) status_reg lo n value v evs r.
Proof.
  intros Heqb Hget Hset H. unfold set_status_field, set_field, bindS in H.
  destruct (status_register_ bs d) as [r0 d0] eqn:Hs. apply status_register_spec in Hs.
  destruct Hs as (w0 & -> & [(x & -> & Hx & Ht)|(e & x & -> & Hx & Ht)]).
  - rewrite Hget in H by assumption.
    destruct (eqb_cases eqb Heqb (value x) v) as [[Ee Eq]|[Ee Ne]]; rewrite Ee in H; cbn [negb] in H.
    + injection H as <- <-. exists w0, [reads_word (d_address d) status_reg x].
      split; [reflexivity|]. split; [exact Ht|]. constructor; assumption.
    + apply set_status_register_spec in H. destruct H as (w1 & e & -> & Ht1 & ->).
      cbn [d_address d_bus with_bus] in Ht1. rewrite Ht, <- app_assoc in Ht1.
      exists w1. eexists. split; [reflexivity|]. split; [exact Ht1|].
      destruct (Hset x v Hx) as [Ho Hv]. constructor; assumption.
  - injection H as <- <-. exists w0, [x]. split; [reflexivity|]. split; [exact Ht|].
    constructor; assumption.
Qed.

Lemma set_control_field_spec {V} (getter : Z -> res err V) setter eqb lo n (value : Z -> V) v d r d' :
  (forall a b, eqb a b = true <-> a = b) ->
  (forall w, word w -> getter w = Ok (value w)) ->
  (forall w v, word w -> only_changes lo n w (setter w v) /\ value (setter w v) = v) ->
  set_control_field bs getter setter eqb v d = (r, d') ->
  exists w' evs, trace w' = trace (d_bus d) ++ evs /\
    setter_run (d_address d) control_reg lo n value v evs r /\
    match evs with
    | [EvRead _ _ _ (Some _)] => d' = with_bus d w'
    | [EvRead _ _ [hi; lo] None] => d' = with_bus (recached d (be16 hi lo)) w'
    | [EvRead _ _ _ None; EvWrite _ [_; _; hi; lo] _] => d' = with_bus (recached d (be16 hi lo)) w'
    | _ => False
    end.
Proof.
  intros Heqb Hget Hset H. unfold set_control_field, set_field, bindS in H.
  destruct (control_register_ bs d) as [r0 d0] eqn:Hs. apply control_register_spec in Hs.
  assert (Hbe : forall z, word z -> be16 (z / 256) (z mod 256) = z).
  { intros z _. unfold be16. rewrite Z.mul_comm. symmetry. apply Z_div_mod_eq_full. }
  destruct Hs as (w0 & [(x & -> & Hx & -> & Ht)|(e & x & -> & Hx & -> & Ht)]).
  - rewrite Hget in H by assumption.
    destruct (eqb_cases eqb Heqb (value x) v) as [[Ee Eq]|[Ee Ne]]; rewrite Ee in H; cbn [negb] in H.
    + injection H as <- <-. exists w0, [reads_word (d_address d) control_reg x].
      split; [exact Ht|]. split; [constructor; assumption|]. unfold reads_word.
      rewrite Hbe by assumption. exact eq_refl.
    + destruct (Hset x v Hx) as [Ho Hv].
      apply set_control_register_spec in H; [|apply Ho]. destruct H as (w1 & e & -> & Ht1 & ->).
      cbn [d_address d_bus with_bus recached with_cache] in Ht1. rewrite Ht, <- app_assoc in Ht1.
      exists w1. eexists. split; [exact Ht1|]. split; [constructor; assumption|].
      unfold reads_word, writes_word. cbn [app control_reg].
      rewrite Hbe by apply Ho. exact eq_refl.
  - injection H as <- <-. exists w0, [x]. split; [exact Ht|]. split; [constructor; assumption|].
    destruct Hx as (data & -> & Hl).
    destruct data as [|b0 [|b1 [|]]]; try discriminate. exact eq_refl.
Qed.

(** Frame reads by the driver. *)
Definition wf d (lay : layout) : Prop :=
  documented (cam _ (d_calibration d)) lay /\ (lay_height lay <= d_height d)%nat.

Lemma drv_read_ram_spec lay sp d r d' : wf d lay -> drv_read_ram bs sp d = (r, d') ->
  exists w' buf' evs, d' = with_bus (with_buffer d buf') w' /\
  length buf' = length (d_pixel_buffer d) /\ trace w' = trace (d_bus d) ++ evs /\
  match r with
  | Ok _ => completed (d_address d) (frame_reads lay sp (d_access_pattern d)) evs
  | Err (I2cWriteReadError e) => aborted (d_address d) (frame_reads lay sp (d_access_pattern d)) e evs
  | Panic => (length (d_pixel_buffer d) < lay_bytes lay sp (d_access_pattern d))%nat /\
             cut_short (d_address d) (lay_reads lay sp (d_access_pattern d)) evs
  | _ => False
  end.
Proof.
  intros [Hd Hh] H. unfold drv_read_ram in H.
  destruct (read_ram bs (cam _ (d_calibration d)) (d_height d) (d_address d) (d_access_pattern d) sp
             (d_pixel_buffer d) (d_bus d)) as [[r0 buf'] w'] eqn:Hr.
  injection H as <- <-. apply (read_ram_spec bs _ lay) in Hr; [|assumption|assumption].
  destruct Hr as (Hl & evs & Ht & Hr). exists w', buf', evs. repeat split; try assumption.
  destruct r0 as [ram|[e|e|e]| |]; try exact Hr. apply Hr.
Qed.
End Driver.

(** ** Image methods *)
Section Image.
Context {FO : FloatOps} (p : profile) {B ER EW : Type} (bs : bus B ER EW).
Notation driver := (driver (FO := FO) (B := B) (ER := ER) (EW := EW)).
Notation err := (error ER EW).
Notation event := (event ER EW).
Implicit Types d : driver.

(** Both kinds of image at once. *)
Definition calc (raw : bool) d (ram : ram_data) (sp : subpage) (dest : list (F FO)) : res err (F FO * list (F FO)) :=
  if raw then calc_ir p d ram sp dest else calc_temperatures p d ram sp dest.
Definition gen (raw : bool) (sp : subpage) (dest : list (F FO)) d :=
  if raw then generate_raw_image_subpage_to p bs sp dest d else generate_image_subpage_to p bs sp dest d.

Lemma calc_cases raw d ram sp dest :
  (exists t dest', calc raw d ram sp dest = Ok (t, dest')) \/ calc raw d ram sp dest = Panic.
Proof. destruct raw; [apply ir_data_cases|apply temperatures_cases]. Qed.

(** A frame read that did not deliver: result and transactions. *)
Definition frame_failed (lay : layout) d sp {A} (r : res err A) (evs : list event) : Prop :=
  (exists e, r = Err (I2cWriteReadError e) /\
     aborted (d_address d) (frame_reads lay sp (d_access_pattern d)) e evs) \/
  (r = Panic /\ (length (d_pixel_buffer d) < lay_bytes lay sp (d_access_pattern d))%nat /\
     cut_short (d_address d) (lay_reads lay sp (d_access_pattern d)) evs).

Definition after_frame d buf' w' : driver := with_bus (with_buffer d buf') w'.

Lemma frame_cases lay sp d r d1 : wf d lay -> drv_read_ram bs sp d = (r, d1) ->
  exists w' buf' evs, d1 = after_frame d buf' w' /\
    length buf' = length (d_pixel_buffer d) /\ trace w' = trace (d_bus d) ++ evs /\
    ((exists ram, r = Ok ram /\ completed (d_address d) (frame_reads lay sp (d_access_pattern d)) evs) \/
     frame_failed lay d sp r evs).
Proof.
  intros Hwf H. apply (drv_read_ram_spec bs lay) in H; [|exact Hwf].
  destruct H as (w' & buf' & evs & -> & Hl & Ht & H). exists w', buf', evs.
  split; [reflexivity|]. split; [exact Hl|]. split; [exact Ht|].
  destruct r as [ram|[e|e|e]| |]; try (exfalso; exact H).
  - left. exists ram. auto.
  - right. left. exists e. auto.
  - right. right. destruct H. auto.
Qed.

Lemma gen_spec raw lay sp dest d r d' dest' : wf d lay -> gen raw sp dest d = (r, d', dest') ->
  exists w' buf' evs, length buf' = length (d_pixel_buffer d) /\ trace w' = trace (d_bus d) ++ evs /\
  let d1 := after_frame d buf' w' in
  (dest' = dest /\ d' = d1 /\ frame_failed lay d sp r evs) \/
  (exists ram, drv_read_ram bs sp d = (Ok ram, d1) /\
     completed (d_address d) (frame_reads lay sp (d_access_pattern d)) evs /\
     ((exists t, calc raw d1 ram sp dest = Ok (t, dest') /\ r = Ok tt /\ d' = with_ambient d1 (Some t)) \/
      (calc raw d1 ram sp dest = Panic /\ r = Panic /\ dest' = dest /\ d' = d1))).
Proof.
  intros Hwf H.
  assert (H' : (let '(r, d) := drv_read_ram bs sp d in
    match r with
    | Ok ram => store_image (calc raw d ram sp dest) d dest (fun d dest => (Ok tt, d, dest))
    | _ => fail_image r d dest
    end) = (r, d', dest')) by (destruct raw; exact H).
  clear H. destruct (drv_read_ram bs sp d) as [r0 d1] eqn:Hr.
  destruct (frame_cases lay sp d r0 d1 Hwf Hr) as (w' & buf' & evs & Hd1 & Hl & Ht & Hc).
  exists w', buf', evs. split; [exact Hl|]. split; [exact Ht|]. cbn zeta. rewrite <- Hd1.
  destruct Hc as [(ram & -> & Hc)|Hf].
  - right. exists ram. split; [reflexivity|]. split; [exact Hc|].
    destruct (calc_cases raw d1 ram sp dest) as [(t & dest2 & E)|E]; rewrite E in H'; cbn [store_image] in H'.
    + left. exists t. injection H' as <- <- <-. auto.
    + right. injection H' as <- <- <-. auto.
  - left. destruct Hf as [(e & -> & Ha)|(-> & Hb & Ha)]; cbn [fail_image] in H'; injection H' as <- <- <-;
      (split; [reflexivity|]; split; [reflexivity|]).
    + left. exists e. auto.
    + right. auto.
Qed.

(** [generate_image_to] *)
Lemma generate_image_to_spec lay dest d r d' dest' : wf d lay -> generate_image_to p bs dest d = (r, d', dest') ->
  exists w0,
  (exists e x, r = Err (I2cWriteReadError e) /\ read_fails (d_address d) status_reg e x /\
     trace w0 = trace (d_bus d) ++ [x] /\ d' = with_bus d w0 /\ dest' = dest) \/
  (exists v, word v /\ trace w0 = trace (d_bus d) ++ [reads_word (d_address d) status_reg v] /\
     status_register_ bs d = (Ok v, with_bus d w0) /\
     gen false (s_subpage (status_doc v)) dest (with_bus d w0) = (r, d', dest')).
Proof.
  intros Hwf H. unfold generate_image_to, last_measured_subpage in H.
  destruct (status_register_ bs d) as [r0 d0] eqn:Hs. pose proof Hs as Hs'.
  apply status_register_spec in Hs. destruct Hs as (w0 & -> & [(v & -> & Hv & Ht)|(e & x & -> & Hx & Ht)]); exists w0.
  - right. exists v. unfold bindS, pure in H. rewrite last_updated_subpage_doc in H by assumption.
    cbn [status_doc s_subpage]. split; [exact Hv|]. split; [exact Ht|]. split; [reflexivity|exact H].
  - left. cbn [bindS fail_image] in H. injection H as <- <- <-. exists e, x. auto.
Qed.

(** [generate_image_if_ready] *)
Lemma if_ready_spec lay dest d r d' dest' : wf d lay -> generate_image_if_ready p bs dest d = (r, d', dest') ->
  exists w0,
  (exists e x, r = Err (I2cWriteReadError e) /\ read_fails (d_address d) status_reg e x /\
     trace w0 = trace (d_bus d) ++ [x] /\ d' = with_bus d w0 /\ dest' = dest) \/
  (exists v, word v /\ trace w0 = trace (d_bus d) ++ [reads_word (d_address d) status_reg v] /\
     status_register_ bs d = (Ok v, with_bus d w0) /\
     ((s_new_data (status_doc v) = false /\ r = Ok false /\ d' = with_bus d w0 /\ dest' = dest) \/
      (s_new_data (status_doc v) = true /\
       exists w1 buf' evs, length buf' = length (d_pixel_buffer d) /\ trace w1 = trace w0 ++ evs /\
       let sp := s_subpage (status_doc v) in
       let d1 := after_frame d buf' w1 in
       (dest' = dest /\ d' = d1 /\ frame_failed lay d sp r evs) \/
       (exists ram, drv_read_ram bs sp (with_bus d w0) = (Ok ram, d1) /\
          completed (d_address d) (frame_reads lay sp (d_access_pattern d)) evs /\
          ((exists t w2 e, calc false d1 ram sp dest = Ok (t, dest') /\
              trace w2 = trace w1 ++ [writes_word (d_address d) status_reg (reset_new_data v) e] /\
              r = match e with None => Ok true | Some e => Err (I2cWriteError e) end /\
              d' = with_bus (with_ambient d1 (Some t)) w2) \/
           (calc false d1 ram sp dest = Panic /\ r = Panic /\ dest' = dest /\ d' = d1)))))).
Proof.
  intros Hwf H. unfold generate_image_if_ready in H.
  destruct (status_register_ bs d) as [r0 d0] eqn:Hs. pose proof Hs as Hs'.
  apply status_register_spec in Hs. destruct Hs as (w0 & -> & [(v & -> & Hv & Ht)|(e & x & -> & Hx & Ht)]); exists w0.
  2:{ left. cbn [fail_image] in H. injection H as <- <- <-. exists e, x. auto. }
  right. exists v. split; [exact Hv|]. split; [exact Ht|]. split; [reflexivity|].
  assert (Hnd : new_data v = s_new_data (status_doc v)).
  { pose proof (status_getters_doc (E := unit) v Hv) as Hg. unfold status_getters in Hg.
    rewrite last_updated_subpage_doc in Hg by assumption. cbn [bind] in Hg. injection Hg as H1 _ _. exact H1. }
  rewrite Hnd in H. destruct (s_new_data (status_doc v)).
  2:{ left. injection H as <- <- <-. auto. }
  right. split; [reflexivity|]. rewrite last_updated_subpage_doc in H by assumption.
  cbn [status_doc s_subpage].
  destruct (drv_read_ram bs (doc_subpage (bits v 0 1)) (with_bus d w0)) as [r2 d1] eqn:Hr.
  assert (Hwf0 : wf (with_bus d w0) lay) by exact Hwf.
  destruct (frame_cases lay _ _ r2 d1 Hwf0 Hr) as (w1 & buf' & evs & Hd1 & Hl & Ht1 & Hc).
  cbn [d_bus d_address d_pixel_buffer d_access_pattern with_bus] in Hl, Ht1, Hc.
  change (after_frame (with_bus d w0) buf' w1) with (after_frame d buf' w1) in Hd1.
  exists w1, buf', evs. split; [exact Hl|]. split; [exact Ht1|]. cbn zeta. rewrite <- Hd1.
  destruct Hc as [(ram & -> & Hc)|Hf].
  - right. exists ram. split; [reflexivity|]. split; [exact Hc|].
    destruct (calc_cases false d1 ram (doc_subpage (bits v 0 1)) dest) as [(t & dest2 & E)|E]; rewrite E;
      cbn [calc] in E; rewrite E in H; cbn [store_image] in H.
    + left. destruct (set_status_register bs (reset_new_data v) (with_ambient d1 (Some t))) as [r3 d3] eqn:Hw.
      apply set_status_register_spec in Hw. destruct Hw as (w2 & e & -> & Ht2 & ->).
      injection H as <- <- <-. exists t, w2, e. split; [reflexivity|]. split.
      * rewrite Hd1 in Ht2. exact Ht2.
      * split; [destruct e; reflexivity|reflexivity].
    + right. injection H as <- <- <-. auto.
  - left. destruct Hf as [(e & -> & Ha)|(-> & Hb & Ha)]; cbn [fail_image] in H; injection H as <- <- <-;
      (split; [reflexivity|]; split; [reflexivity|]).
    + left. exists e. auto.
    + right. auto.
Qed.
End Image.
