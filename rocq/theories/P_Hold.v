(** * Property C83: with data hold enabled and overwriting disabled, every image is of the one frame
    the camera holds. *)
From Verif Require Import Base FloatOps Register Bus Camera Cam640 Cam641 Calc CalcFacts Driver
  BitFacts SpecRegister RegisterFacts SpecCamera CameraFacts SpecDriver DriverFacts StepFacts Demo
  SpecImage SpecCall ImageFacts Mock SpecMock P_Bus P_Image P_Frames P_ImageDemo SeenFacts TraceFacts SpecHold HoldFacts.

Section Hold.
Context {FO : FloatOps} (p : profile) {B ER EW : Type} (bs : bus B ER EW).
Notation driver := (driver (FO := FO) (B := B) (ER := ER) (EW := EW)).
Notation op := (op (FO := FO)).
Notation event := (event ER EW).
Implicit Types d : driver.

(** Every call changes only the register bits it is documented to change: each of its writes is the
    word it read from that register a moment ago with nothing else altered. *)
Theorem C83_call_changes_only_its_bits : forall lay d o r d' dest,
  usable d lay -> step p bs d o = (r, d', dest) ->
  exists evs, trace (d_bus d') = trace (d_bus d) ++ evs /\ rmw_within (alters o) (d_address d) evs.
Proof.
  intros lay d o r d' dest Hu H. exact (step_within p bs lay d o r d' dest (usable_wf _ _ Hu) H).
Qed.

Section Camera.
Context (contents : B -> Z -> Z).
Notation holding := (holding contents).
Notation same_ram := (same_ram contents).
Notation hold_on := (hold_on contents).
Notation overwrite_on := (overwrite_on contents).

Lemma legal_own lay a (evs : list event) : Forall (legal a (ram_last lay)) evs -> Forall (own a) evs.
Proof. intros H. eapply Forall_impl; [|exact H]. intros x Hx. destruct Hx; reflexivity. Qed.

(** The transcript of a call: what it did to the device. *)
Lemma step_transcript lay d o r d' dest : usable d lay -> step p bs d o = (r, d', dest) ->
  exists evs, trace (d_bus d') = trace (d_bus d) ++ evs /\ performed bs (dev (d_bus d)) evs (dev (d_bus d')) /\
    Forall (own (d_address d)) evs /\ d_address d' = d_address d.
Proof.
  intros Hu H. pose proof (step_prims p bs _ _ _ _ _ H) as Hpr.
  destruct (prims_moved bs _ _ Hpr) as (evs & Ht & Hp). exists evs. split; [exact Ht|]. split; [exact Hp|].
  destruct (prims_later bs lay _ _ (usable_wf _ _ Hu) Hpr) as (evs' & [Hc Ht'] & Hl).
  rewrite Ht in Ht'. apply app_inv_head in Ht'. subst evs'. split; [eapply legal_own; exact Hl|apply Hc].
Qed.

Lemma held_step lay d o r d' dest :
  usable d lay -> honours_hold contents bs (d_address d) -> holding (dev (d_bus d)) -> leaves_held o ->
  step p bs d o = (r, d', dest) ->
  holding (dev (d_bus d')) /\ same_ram (dev (d_bus d)) (dev (d_bus d')).
Proof.
  intros Hu Hcam Hh Ho H.
  destruct (step_transcript lay d o r d' dest Hu H) as (evs & Ht & Hp & Hown & _).
  destruct (C83_call_changes_only_its_bits lay d o r d' dest Hu H) as (evs' & Ht' & Hw).
  rewrite Ht in Ht'. apply app_inv_head in Ht'. subst evs'.
  destruct (C18_setters FO B ER EW bs) as (S1 & _ & S3 & _).
  destruct o;
    try (eapply (held_transcript bs contents (d_address d) Hcam (alters _)); [exact Hp|exact Hown|exact Hw| | |exact Hh];
         cbn [alters]; unfold status_reg, control_reg; try tauto; intros [E1 E2]; first [discriminate|lia]);
    cbn [leaves_held] in Ho; try contradiction.
  - cbn [step] in H. apply lift_inv in H. destruct H as (r0 & H & _ & _).
    destruct (S1 _ _ _ _ H) as (evs' & Ht' & Hs). rewrite Ht in Ht'. apply app_inv_head in Ht'. subst evs'.
    subst. eapply overwrite_setter_held; eassumption.
  - cbn [step] in H. apply lift_inv in H. destruct H as (r0 & H & _ & _).
    destruct (S3 _ _ _ _ H) as (evs' & Ht' & Hs). rewrite Ht in Ht'. apply app_inv_head in Ht'. subst evs'.
    subst. eapply hold_setter_held; eassumption.
Qed.

(** No history of calls that leave the mode alone ends it or lets RAM change. *)
Theorem C83_held_history : forall lay d ops,
  usable d lay -> honours_hold contents bs (d_address d) -> holding (dev (d_bus d)) -> Forall leaves_held ops ->
  holding (dev (d_bus (run p bs d ops))) /\ same_ram (dev (d_bus d)) (dev (d_bus (run p bs d ops))).
Proof.
  intros lay d ops. revert d. induction ops as [|o ops IH]; intros d Hu Hcam Hh Ho.
  - split; [exact Hh|]. intros x _. reflexivity.
  - cbn [run fold_left]. inversion Ho as [|? ? Ho1 Ho2]; subst.
    destruct (step p bs d o) as [[r d'] dest] eqn:E.
    assert (Es : step_state p bs d o = d') by (unfold step_state; rewrite E; reflexivity). rewrite Es.
    destruct (held_step lay d o r d' dest Hu Hcam Hh Ho1 E) as [H1 H2].
    destruct (step_transcript lay d o r d' dest Hu E) as (_ & _ & _ & _ & Ha).
    destruct (IH d' (usable_step p bs lay d o r d' dest Hu E) ltac:(rewrite Ha; exact Hcam) H1 Ho2) as [H3 H4].
    split; [exact H3|]. eapply same_ram_trans; eassumption.
Qed.

Lemma frame_in_range (c : camera FO) lay sp ap : documented c lay -> Forall in_range (frame_reads lay sp ap).
Proof.
  intros Hd. rewrite Forall_forall. intros rd Hin.
  assert (G : forallb (fun rd => (0x0400 <=? fst rd) && (fst rd + Z.of_nat (snd rd) / 2 <=? 0x0800) && Nat.even (snd rd))
                (frame_reads lay sp ap) = true) by (destruct Hd, sp, ap; vm_compute; reflexivity).
  rewrite forallb_forall in G. specialize (G rd Hin).
  apply andb_prop in G. destruct G as [G G3]. apply andb_prop in G. destruct G as [G1 G2].
  apply Z.leb_le in G1, G2. unfold in_range. auto.
Qed.
Lemma run_kept lay d ops : usable d lay ->
  d_address (run p bs d ops) = d_address d /\ d_calibration (run p bs d ops) = d_calibration d.
Proof.
  intros Hu. destruct (run_later p bs lay d ops (usable_wf _ _ Hu)) as (evs & [Hc _] & _).
  destruct Hc as (H1 & H2 & _). split; assumption.
Qed.

(** Whatever the camera measures meanwhile and however many calls are made, every image computed while
    data is held is the documented image of the memory at the moment the hold began. *)
Theorem C83_held_images : forall lay d ops o dest r d' dest',
  usable d lay -> honours_hold contents bs (d_address d) -> holding (dev (d_bus d)) -> Forall leaves_held ops ->
  destination o = Some dest -> step p bs (run p bs d ops) o = (r, d', dest') -> computed o r ->
  exists raw sp pre frame post,
    trace (d_bus d') = trace (d_bus (run p bs d ops)) ++ pre ++ frame ++ post /\
    asks (d_address d) o raw sp pre /\
    d_ambient d' = Some (doc_t_a (d_calibration d) lay (contents (dev (d_bus d)))) /\
    image_stored (d_calibration d) lay (settings_of (run p bs d ops)) sp (contents (dev (d_bus d))) raw dest dest'.
Proof.
  intros lay d ops o dest r d' dest' Hu Hcam Hh Hops Ho H Hc.
  destruct (C83_held_history lay d ops Hu Hcam Hh Hops) as [Hh1 Hs1].
  destruct (run_kept lay d ops Hu) as [Ea Ec].
  pose proof (usable_run p bs lay ops d Hu) as Hu1.
  set (d1 := run p bs d ops) in *.
  destruct (C55_image_values p bs lay d1 o dest r d' dest' Hu1 Ho H Hc)
    as (raw & sp & pre & frame & post & Et & Hask & Hf & Hk & Hv).
  destruct (step_transcript lay d1 o r d' dest' Hu1 H) as (evs & Ht & Hp & Hown & _).
  rewrite Et in Ht. apply app_inv_head in Ht. subst evs.
  apply performed_split in Hp. destruct Hp as (b1 & Hp1 & Hp2). apply performed_split in Hp2. destruct Hp2 as (b2 & Hp2 & _).
  apply Forall_app in Hown. destruct Hown as [Ow1 _].
  rewrite Ea, Ec in *.
  assert (Hr1 : Forall is_read pre) by (eapply asks_reads; exact Hask).
  destruct (held_transcript bs contents (d_address d) Hcam (fun _ _ => False) pre _ _ Hp1 Ow1
    (within_reads _ _ _ Hr1) (fun x => x) (fun x => x) Hh1) as [Hh2 Hs2].
  assert (Hin : Forall in_range (frame_reads lay sp (d_access_pattern d1))).
  { destruct Hu as [Hd _]. eapply frame_in_range. exact Hd. }
  assert (Hsh : Forall (shows (contents (dev (d_bus d)))) frame).
  { eapply (shows_same contents (d_address d)); [eapply same_ram_trans; [exact Hs1|exact Hs2]| |exact Hf|exact Hin].
    eapply (held_reads_show bs contents (d_address d) Hcam); eassumption. }
  destruct (Hv _ (hh_word _ _ _ Hcam (dev (d_bus d))) Hsh) as [V1 V2].
  exists raw, sp, pre, frame, post. auto.
Qed.

(** Two such images of the same subpage, taken with the same settings at any two moments of the hold,
    agree in every pixel, and so do the ambient temperatures. *)
Theorem C83_same_image : forall lay d ops1 o1 dest1 r1 d1 dest1' evs1 ops2 o2 dest2 r2 d2 dest2' evs2 sp,
  usable d lay -> honours_hold contents bs (d_address d) -> holding (dev (d_bus d)) ->
  Forall leaves_held ops1 -> Forall leaves_held ops2 ->
  destination o1 = Some dest1 -> step p bs (run p bs d ops1) o1 = (r1, d1, dest1') -> computed o1 r1 ->
  destination o2 = Some dest2 -> step p bs (run p bs d ops2) o2 = (r2, d2, dest2') -> computed o2 r2 ->
  trace (d_bus d1) = trace (d_bus (run p bs d ops1)) ++ evs1 -> stores o1 (d_address d) evs1 sp ->
  trace (d_bus d2) = trace (d_bus (run p bs d ops2)) ++ evs2 -> stores o2 (d_address d) evs2 sp ->
  is_raw o1 = is_raw o2 -> settings_of (run p bs d ops1) = settings_of (run p bs d ops2) ->
  d_ambient d1 = d_ambient d2 /\
  forall i, measured lay sp (d_access_pattern (run p bs d ops1)) i = true ->
    (i < length dest1)%nat -> (i < length dest2)%nat -> nth_error dest1' i = nth_error dest2' i.
Proof.
  intros lay d ops1 o1 dest1 r1 d1 dest1' evs1 ops2 o2 dest2 r2 d2 dest2' evs2 sp
    Hu Hcam Hh Hl1 Hl2 Ho1 H1 Hc1 Ho2 H2 Hc2 Ht1 Hs1 Ht2 Hs2 Hraw Hset.
  assert (Q : forall (o : op) raw sp0 (pre rest : list event), asks (d_address d) o raw sp0 pre -> stores o (d_address d) (pre ++ rest) sp ->
    sp0 = sp /\ raw = is_raw o).
  { intros o raw sp0 pre rest Ha Hst.
    destruct Ha as [s dst|s dst|v dst Hw|v dst Hw Hb]; cbn [stores] in Hst; subst; auto;
      destruct Hst as (v0 & rest0 & Hv0 & E & ->); injection E as E1 E2 _;
      (replace v0 with v; [split; reflexivity|]);
      rewrite (Z_div_mod_eq_full v0 256), (Z_div_mod_eq_full v 256), E1, E2; reflexivity. }
  destruct (C83_held_images lay d ops1 o1 dest1 r1 d1 dest1' Hu Hcam Hh Hl1 Ho1 H1 Hc1)
    as (raw1 & sp1 & pre1 & fr1 & po1 & T1 & A1 & V1 & [L1 I1]).
  destruct (C83_held_images lay d ops2 o2 dest2 r2 d2 dest2' Hu Hcam Hh Hl2 Ho2 H2 Hc2)
    as (raw2 & sp2 & pre2 & fr2 & po2 & T2 & A2 & V2 & [L2 I2]).
  rewrite T1 in Ht1. apply app_inv_head in Ht1. subst evs1. rewrite T2 in Ht2. apply app_inv_head in Ht2. subst evs2.
  destruct (Q _ _ _ _ _ A1 Hs1) as [-> ->]. destruct (Q _ _ _ _ _ A2 Hs2) as [-> ->].
  split; [rewrite V1, V2; reflexivity|].
  intros i Hm Hi1 Hi2.
  destruct (nth_error dest1 i) as [v1|] eqn:N1; [|apply nth_error_None in N1; clear - N1 Hi1; lia].
  destruct (nth_error dest2 i) as [v2|] eqn:N2; [|apply nth_error_None in N2; clear - N2 Hi2; lia].
  rewrite (I1 i v1 N1), (I2 i v2 N2), <- Hset, Hraw. cbn [set_pattern settings_of]. rewrite Hm. reflexivity.
Qed.

(** Entering the mode: [set_data_hold(true)], then any calls that leave that flag alone, then
    [set_overwrite_enabled(false)]. *)
Lemma hold_kept_step lay d o r d' dest :
  usable d lay -> honours_hold contents bs (d_address d) -> leaves_hold_on o -> step p bs d o = (r, d', dest) ->
  hold_on (dev (d_bus d)) = true -> hold_on (dev (d_bus d')) = true.
Proof.
  intros Hu Hcam Ho H Hb.
  destruct (step_transcript lay d o r d' dest Hu H) as (evs & Ht & Hp & Hown & _).
  destruct (C83_call_changes_only_its_bits lay d o r d' dest Hu H) as (evs' & Ht' & Hw).
  rewrite Ht in Ht'. apply app_inv_head in Ht'. subst evs'.
  destruct (C18_setters FO B ER EW bs) as (S1 & _ & S3 & _).
  destruct o;
    try (destruct (bits_kept bs contents (d_address d) Hcam (alters _) evs _ _ Hp Hown Hw) as [K _];
         rewrite K; [exact Hb|]; cbn [alters]; unfold status_reg, control_reg; try tauto; intros [E1 E2]; first [discriminate|lia]).
  cbn [leaves_hold_on] in Ho. cbn [step] in H. apply lift_inv in H. destruct H as (r0 & H & _ & _).
  destruct (S3 _ _ _ _ H) as (evs' & Ht' & Hs). rewrite Ht in Ht'. apply app_inv_head in Ht'. subst evs'. subst.
  eapply (control_set_kept bs contents (d_address d) Hcam true evs); [exact Hp|exact Hown| |exact Hb].
  intros x Hx. destruct (setter_writes _ _ _ _ _ _ _ _ Hs x Hx) as [|(w & err & -> & E)]; [left; assumption|].
  right. exists control_reg, w, err. split; [reflexivity|left; split; [reflexivity|exact E]].
Qed.
Theorem C83_entering : forall lay d d1 ops d2 x1 x2,
  usable d lay -> honours_hold contents bs (d_address d) ->
  step p bs d (OpSetDataHold true) = (Ok OutUnit, d1, x1) ->
  Forall leaves_hold_on ops ->
  step p bs (run p bs d1 ops) (OpSetOverwriteEnabled false) = (Ok OutUnit, d2, x2) ->
  holding (dev (d_bus d2)).
Proof.
  intros lay d d1 ops d2 x1 x2 Hu Hcam H1 Hops H2.
  destruct (C18_setters FO B ER EW bs) as (S1 & _ & S3 & _).
  destruct (step_transcript lay d _ _ d1 x1 Hu H1) as (evs & Ht & Hp & Hown & Ea).
  pose proof (usable_step p bs lay d _ _ d1 x1 Hu H1) as Hu1.
  assert (Hb1 : hold_on (dev (d_bus d1)) = true).
  { cbn [step] in H1. apply lift_inv in H1. destruct H1 as (r0 & H1 & Er & _).
    destruct (S3 _ _ _ _ H1) as (evs' & Ht' & Hs). rewrite Ht in Ht'. apply app_inv_head in Ht'. subst evs'.
    eapply (hold_setter_ok bs contents (d_address d) Hcam); [exact Hs|exact Hp|]. destruct r0 as [[]| | |]; cbn in Er; congruence. }
  rewrite <- Ea in Hcam. clear H1 Ht Hp Hown Ea evs.
  assert (Hr : forall ops0 d0, usable d0 lay -> honours_hold contents bs (d_address d0) -> Forall leaves_hold_on ops0 ->
    hold_on (dev (d_bus d0)) = true ->
    hold_on (dev (d_bus (run p bs d0 ops0))) = true /\ d_address (run p bs d0 ops0) = d_address d0).
  { induction ops0 as [|o ops0 IH]; intros d0 Hu0 Hc0 Hf Hb0; [auto|].
    inversion Hf as [|? ? Hf1 Hf2]; subst. cbn [run fold_left].
    destruct (step p bs d0 o) as [[r d'] dest] eqn:E.
    assert (Es : step_state p bs d0 o = d') by (unfold step_state; rewrite E; reflexivity). rewrite Es.
    destruct (step_transcript lay d0 o r d' dest Hu0 E) as (_ & _ & _ & _ & Ha).
    destruct (IH d' (usable_step p bs lay d0 o r d' dest Hu0 E) ltac:(rewrite Ha; exact Hc0) Hf2
      (hold_kept_step lay d0 o r d' dest Hu0 Hc0 Hf1 E Hb0)) as [K1 K2].
    split; [exact K1|]. rewrite <- Ha. exact K2. }
  destruct (Hr ops d1 Hu1 Hcam Hops Hb1) as [Hb2 Ea2]. rewrite <- Ea2 in Hcam.
  pose proof (usable_run p bs lay ops d1 Hu1) as Hu2. set (d3 := run p bs d1 ops) in *.
  split; [exact (hold_kept_step lay d3 (OpSetOverwriteEnabled false) _ d2 x2 Hu2 Hcam I H2 Hb2)|].
  destruct (step_transcript lay d3 _ _ d2 x2 Hu2 H2) as (evs & Ht & Hp & Hown & _).
  cbn [step] in H2. apply lift_inv in H2. destruct H2 as (r0 & H2 & Er & _).
  destruct (S1 _ _ _ _ H2) as (evs' & Ht' & Hs). rewrite Ht in Ht'. apply app_inv_head in Ht'. subst evs'.
  eapply (overwrite_setter_ok bs contents (d_address d3) Hcam); [exact Hs|exact Hp|]. destruct r0 as [[]| | |]; cbn in Er; congruence.
Qed.
End Camera.
End Hold.

(** ** Concrete cases *)
(** A camera with the mode: a new frame is finished at every single transaction, and goes to RAM
    unless data is held.  All of RAM shows the number of the frame it holds, except gain and supply
    voltage. *)
Definition holds (t : toy) : bool := Z.testbit (toy_control t) 2 && negb (Z.testbit (toy_status t) 4).
Definition busy_tick (t : toy) : toy :=
  {| toy_clock := S (toy_clock t); toy_status := Z.lor (toy_status t) 8; toy_control := toy_control t;
     toy_frames := if holds t then toy_frames t else toy_frames t + 1 |}.
Definition busy_mem (t : toy) (x : Z) : Z := toy_mem t x mod 65536.
Definition busy_bus : bus toy string string := {|
  dev_write_read := fun t _ wb buf => (busy_tick t, mem_bytes (busy_mem t) (256 * nth 0 wb 0 + nth 1 wb 0) (length buf), None);
  dev_write := fun t _ bytes =>
    let v := 256 * nth 2 bytes 0 + nth 3 bytes 0 in
    let reg := 256 * nth 0 bytes 0 + nth 1 bytes 0 in
    (busy_tick
      (if reg =? 0x800D
       then {| toy_clock := toy_clock t; toy_status := toy_status t; toy_control := v; toy_frames := toy_frames t |}
       else if reg =? 0x8000
       then {| toy_clock := toy_clock t; toy_status := v; toy_control := toy_control t; toy_frames := toy_frames t |}
       else t), None)
|}.
Lemma bit_mod w i : 0 <= i < 16 -> bit (w mod 65536) i = Z.testbit w i.
Proof. intros Hi. rewrite bit_testbit by lia. change 65536 with (2 ^ 16). apply Z.mod_pow2_bits_low. lia. Qed.
Lemma busy_hold t : hold_on busy_mem t = Z.testbit (toy_control t) 2.
Proof.
  unfold hold_on, busy_mem, toy_mem. cbn [Z.eqb Pos.eqb]. rewrite bit_mod by lia.
  change 65536 with (2 ^ 16). apply Z.mod_pow2_bits_low. lia.
Qed.
Lemma busy_overwrite t : overwrite_on busy_mem t = Z.testbit (toy_status t) 4.
Proof. unfold overwrite_on, busy_mem, toy_mem. cbn [Z.eqb Pos.eqb]. apply bit_mod. lia. Qed.
Lemma busy_tick_bits t : hold_on busy_mem (busy_tick t) = hold_on busy_mem t /\
  overwrite_on busy_mem (busy_tick t) = overwrite_on busy_mem t.
Proof.
  rewrite !busy_hold, !busy_overwrite. cbn [busy_tick toy_control toy_status]. split; [reflexivity|].
  rewrite Z.lor_spec. change (Z.testbit 8 4) with false. apply orb_false_r.
Qed.
Lemma busy_ram t t' : toy_frames t' = toy_frames t -> same_ram busy_mem t t'.
Proof.
  intros E x Hx. unfold in_ram in Hx. unfold busy_mem, toy_mem. rewrite E.
  replace (x =? 0x8000) with false by (symmetry; apply Z.eqb_neq; lia).
  replace (x =? 0x800D) with false by (symmetry; apply Z.eqb_neq; lia). reflexivity.
Qed.
Lemma busy_holding t : holding busy_mem t -> holds t = true.
Proof. intros [H1 H2]. rewrite busy_hold in H1. rewrite busy_overwrite in H2. unfold holds. rewrite H1, H2. reflexivity. Qed.

(** The camera meets the hypothesis of C83, at every bus address. *)
Lemma busy_honours a : honours_hold busy_mem busy_bus a.
Proof.
  constructor.
  - intros b x. unfold busy_mem, word. apply Z.mod_pos_bound. reflexivity.
  - intros b buf b' out Hl H. cbn [dev_write_read busy_bus] in H. injection H as _ <-. rewrite Hl. reflexivity.
  - intros b buf b' out Hl H. cbn [dev_write_read busy_bus] in H. injection H as _ <-. rewrite Hl. reflexivity.
  - intros b wb buf b' out e H. cbn [dev_write_read busy_bus] in H. injection H as <- _ _. apply busy_tick_bits.
  - intros b hi lo b' e H. cbn [dev_write busy_bus status_reg app nth] in H. change (256 * 128 + 0 =? 0x800D) with false in H.
    change (256 * 128 + 0 =? 0x8000) with true in H. cbn [dev_write] in H. injection H as <- _.
    match goal with |- context [busy_tick ?t] => destruct (busy_tick_bits t) as [E1 E2] end.
    rewrite E1, E2, !busy_hold, !busy_overwrite. cbn [toy_control toy_status]. split; [reflexivity|left; symmetry; apply bit_testbit; clear; lia].
  - intros b hi lo b' e H. cbn [dev_write busy_bus control_reg app nth] in H. change (256 * 128 + 13 =? 0x800D) with true in H.
    cbn [dev_write] in H. injection H as <- _.
    match goal with |- context [busy_tick ?t] => destruct (busy_tick_bits t) as [E1 E2] end.
    rewrite E1, E2, !busy_hold, !busy_overwrite. cbn [toy_control toy_status]. split; [reflexivity|left; symmetry; apply bit_testbit; clear; lia].
  - intros b wb buf b' out e Hh H. cbn [dev_write_read busy_bus] in H. injection H as <- _ _.
    apply busy_ram. cbn [busy_tick toy_frames]. rewrite (busy_holding _ Hh). reflexivity.
  - intros b bytes b' e Hh H Hh'. pose proof (busy_holding _ Hh) as G. pose proof (busy_holding _ Hh') as G'.
    apply busy_ram. cbn [dev_write busy_bus] in H. injection H as <- _.
    match type of G' with holds (busy_tick ?t) = true =>
      assert (Gt : holds t = true); [|cbn [busy_tick toy_frames]; rewrite Gt] end.
    + revert G'. unfold holds. cbn [busy_tick toy_control toy_status]. rewrite Z.lor_spec. change (Z.testbit 8 4) with false.
      rewrite orb_false_r. auto.
    + destruct (_ =? 0x800D); [reflexivity|]. destruct (_ =? 0x8000); reflexivity.
  - intros b x buf b' out Hh Hx Hl H. cbn [dev_write_read busy_bus nth] in H. injection H as _ <-.
    f_equal. exact (word_back x).
Qed.

(** A driver constructed on the busy camera. *)
Definition busy_driver (status control : Z) : option (driver (FO := ZFO) (B := toy) (ER := string) (EW := string)) :=
  match new_with_calibration busy_bus 24 1536 (toy0 status control) 0x33 demo640 with
  | (Ok d, _) => Some d
  | _ => None
  end.
Lemma busy_usable status control :
  match busy_driver status control with Some d => usable d layout640 | None => True end.
Proof.
  unfold busy_driver. destruct (new_with_calibration _ _ _ _ _ _) as [r w'] eqn:E.
  destruct r as [d| | |]; try exact I.
  apply C29_new_with_calibration in E. destruct E as (evs & _ & H). inversion H as [v d0 Hv Hf|]; subst.
  destruct Hf as (_ & _ & Hc & Hh & Hb & _). unfold usable. rewrite Hc, Hh, Hb.
  split; [constructor|]. split; [cbn [d_height lay_height layout640]; lia|]. split; [|rewrite repeat_length; vm_compute; lia].
  apply demo_calib_complete; [constructor|reflexivity|cbn; lia].
Qed.
Definition blank640 : list (F ZFO) := repeat (0 : F ZFO) 768.

(** Interleaved, so a frame is read row by row.  While data is held, two images taken one after the
    other (with other calls between) are identical, although 20 frames were finished during each; before the mode is entered an
    image mixes several frames: its first and its third row differ although RAM is uniform at any time. *)
Example C83_concrete :
  match busy_driver 0x0008 0x0901 with
  | Some d =>
      let d1 := step_state Debug busy_bus d (OpSetDataHold true) in
      let d2 := step_state Debug busy_bus d1 (OpSetOverwriteEnabled false) in
      let '(r3, d3, image3) := step Debug busy_bus d2 (OpGenerateRawSubpage Zero blank640) in
      let d4 := run Debug busy_bus d3 [OpResetDataAvailable; OpSetFrameRate FR_SixtyFour; OpGenerateIfReady blank640] in
      let '(r5, d5, image5) := step Debug busy_bus d4 (OpGenerateRawSubpage Zero blank640) in
      let '(r6, _, torn) := step Debug busy_bus d (OpGenerateRawSubpage Zero blank640) in
      step_out Debug busy_bus d (OpSetDataHold true) = Ok OutUnit /\
      step_out Debug busy_bus d1 (OpSetOverwriteEnabled false) = Ok OutUnit /\
      r3 = Ok OutUnit /\ r5 = Ok OutUnit /\ r6 = Ok OutUnit /\
      image5 = image3 /\ nth 0 image3 0 = nth 64 image3 0 /\ nth 0 image3 0 <> 0 /\
      nth 0 torn 0 <> nth 64 torn 0
  | None => False
  end.
Proof. vm_compute. repeat split; discriminate. Qed.

Print Assumptions C83_call_changes_only_its_bits.
Print Assumptions C83_held_history.
Print Assumptions C83_held_images.
Print Assumptions C83_same_image.
Print Assumptions C83_entering.
