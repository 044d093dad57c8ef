(** * Properties C24-C26, C28: several frames, entry points, histories. *)
From Verif Require Import Base FloatOps Register Bus Camera Cam640 Cam641 Ee640 Ee641 Calc CalcFacts Driver
  BitFacts SpecRegister RegisterFacts SpecCamera CameraFacts SpecDriver DriverFacts StepFacts Demo
  SpecImage SpecCall ImageFacts P_Bus P_Image.

(** Does the call compute raw IR data? *)
Definition is_raw {FO : FloatOps} (o : op (FO := FO)) : bool :=
  match o with OpGenerateRawSubpage _ _ => true | _ => false end.

Section Frames.
Context {FO : FloatOps} (p : profile) {B ER EW : Type} (bs : bus B ER EW).
Notation driver := (driver (FO := FO) (B := B) (ER := ER) (EW := EW)).
Notation op := (op (FO := FO)).
Notation event := (event ER EW).
Implicit Types d : driver.

(** C55 with the whole transcript of the call. *)
Theorem C55_image_of_transcript : forall lay d o dest r d' dest' evs sp mem,
  usable d lay -> destination o = Some dest ->
  step p bs d o = (r, d', dest') -> computed o r ->
  trace (d_bus d') = trace (d_bus d) ++ evs -> stores o (d_address d) evs sp ->
  (forall a, word (mem a)) -> Forall (shows mem) evs ->
  d_ambient d' = Some (doc_t_a (d_calibration d) lay mem) /\
  image_stored (d_calibration d) lay (settings_of d) sp mem (is_raw o) dest dest'.
Proof.
  intros lay d o dest r d' dest' evs sp mem Hu Ho H Hc Ht Hst Hm Hs.
  destruct (C55_image_values p bs lay d o dest r d' dest' Hu Ho H Hc)
    as (raw & sp0 & pre & frame & post & Ht' & Ha & Hcm & Hk & Hv).
  rewrite Ht in Ht'. apply app_inv_head in Ht'. subst evs.
  apply Forall_app in Hs. destruct Hs as [_ Hs]. apply Forall_app in Hs. destruct Hs as [Hs _].
  assert (sp0 = sp /\ raw = is_raw o) as [<- ->]; [|apply Hv; assumption].
  destruct Ha as [s dst|s dst|v dst Hw|v dst Hw Hb]; cbn [stores] in Hst; subst; auto;
    destruct Hst as (v0 & rest & Hv0 & E & ->); injection E as E1 E2 _;
    (replace v0 with v; [split; reflexivity|]);
    rewrite (Z_div_mod_eq_full v0 256), (Z_div_mod_eq_full v 256), E1, E2; reflexivity.
Qed.

(** ** C24 *)
Lemma measured_cover (c : camera FO) lay ap sp1 sp2 i : documented c lay -> sp1 <> sp2 -> (i < lay_pixels lay)%nat ->
  measured lay sp2 ap i = false -> measured lay sp1 ap i = true.
Proof.
  intros Hd Hne Hi H. unfold measured in *. apply Nat.ltb_lt in Hi. rewrite Hi in *. cbn [andb] in *.
  destruct Hd; cbn [lay_in_subpage layout640 layout641] in *; [|discriminate].
  destruct ap.
  - set (n := ((i / lay_width layout640 + i mod lay_width layout640) mod 2)%nat) in *.
    assert (n = 0 \/ n = 1)%nat as [E|E] by (pose proof (Nat.mod_upper_bound (i / lay_width layout640 + i mod lay_width layout640) 2); lia);
      rewrite E in *; destruct sp1, sp2; try congruence; cbn in *; congruence.
  - set (n := ((i / lay_width layout640) mod 2)%nat) in *.
    assert (n = 0 \/ n = 1)%nat as [E|E] by (pose proof (Nat.mod_upper_bound (i / lay_width layout640) 2); lia);
      rewrite E in *; destruct sp1, sp2; try congruence; cbn in *; congruence.
Qed.

Lemma nth_error_ext {A} : forall (l l' : list A), (forall i, nth_error l i = nth_error l' i) -> l = l'.
Proof.
  induction l as [|a l IH]; intros [|b l'] H; try reflexivity.
  - specialize (H 0%nat). discriminate.
  - specialize (H 0%nat). discriminate.
  - pose proof (H 0%nat) as H0. cbn in H0. injection H0 as ->. f_equal. apply IH. intros i. exact (H (S i)).
Qed.
Lemma list_ext {A} (l : list A) (f : nat -> A) n : length l = n ->
  (forall i, (i < n)%nat -> nth_error l i = Some (f i)) -> l = map f (seq 0 n).
Proof.
  intros Hl H. apply nth_error_ext. intros i. destruct (Nat.lt_ge_cases i n) as [Hi|Hi].
  - rewrite (H i Hi). symmetry. erewrite map_nth_error; [reflexivity|].
    rewrite (nth_error_nth' _ 0%nat) by (rewrite seq_length; exact Hi). rewrite seq_nth by exact Hi. reflexivity.
  - rewrite (proj2 (nth_error_None l i)) by lia. symmetry. apply nth_error_None.
    rewrite map_length, seq_length. exact Hi.
Qed.

(** Two calls, the second into the result of the first, for different subpages,
    both of the same kind and with the same settings; anything may happen
    between them. *)
Theorem C24_full_image : forall lay d1 d2 o1 o2 dest r1 d1' dest1 r2 d2' dest2 evs1 evs2 sp1 sp2 mem1 mem2,
  usable d1 lay -> usable d2 lay ->
  d_calibration d2 = d_calibration d1 -> settings_of d2 = settings_of d1 ->
  length dest = lay_pixels lay ->
  destination o1 = Some dest -> step p bs d1 o1 = (r1, d1', dest1) -> computed o1 r1 ->
  destination o2 = Some dest1 -> step p bs d2 o2 = (r2, d2', dest2) -> computed o2 r2 ->
  is_raw o1 = is_raw o2 ->
  trace (d_bus d1') = trace (d_bus d1) ++ evs1 -> stores o1 (d_address d1) evs1 sp1 ->
  trace (d_bus d2') = trace (d_bus d2) ++ evs2 -> stores o2 (d_address d2) evs2 sp2 ->
  sp1 <> sp2 ->
  (forall a, word (mem1 a)) -> Forall (shows mem1) evs1 ->
  (forall a, word (mem2 a)) -> Forall (shows mem2) evs2 ->
  let c := d_calibration d1 in let s := settings_of d1 in
  dest2 = map (fun i => if measured lay sp2 (set_pattern s) i
                        then doc_pixel c lay s sp2 mem2 (is_raw o1) i
                        else doc_pixel c lay s sp1 mem1 (is_raw o1) i) (seq 0 (lay_pixels lay)).
Proof.
  intros lay d1 d2 o1 o2 dest r1 d1' dest1 r2 d2' dest2 evs1 evs2 sp1 sp2 mem1 mem2
    Hu1 Hu2 Hcal Hset Hlen Ho1 H1 Hc1 Ho2 H2 Hc2 Hraw Ht1 Hs1 Ht2 Hs2 Hne Hw1 Hsh1 Hw2 Hsh2 c s.
  destruct (C55_image_of_transcript _ _ _ _ _ _ _ _ _ _ Hu1 Ho1 H1 Hc1 Ht1 Hs1 Hw1 Hsh1) as [_ [L1 I1]].
  destruct (C55_image_of_transcript _ _ _ _ _ _ _ _ _ _ Hu2 Ho2 H2 Hc2 Ht2 Hs2 Hw2 Hsh2) as [_ [L2 I2]].
  rewrite Hcal, Hset, <- Hraw in I2. fold c s in I1, I2.
  apply list_ext; [congruence|]. intros i Hi.
  assert (exists v, nth_error dest i = Some v) as (v & Hv).
  { destruct (nth_error dest i) eqn:E; [eauto|]. apply nth_error_None in E. lia. }
  specialize (I1 _ _ Hv). specialize (I2 _ _ I1). rewrite I2. f_equal.
  destruct (measured lay sp2 (set_pattern s) i) eqn:E; [reflexivity|].
  rewrite (measured_cover _ lay (set_pattern s) sp1 sp2 i (proj1 Hu1) Hne Hi E). reflexivity.
Qed.

(** ** C25 *)
Theorem C25_if_ready_stores_the_same_image : forall lay d dest da desta,
  usable d lay ->
  generate_image_if_ready p bs dest d = (Ok true, da, desta) ->
  exists db v', generate_image_to p bs dest d = (Ok tt, db, desta) /\
    kept (with_ambient d (d_ambient da)) db /\ d_ambient db = d_ambient da /\
    d_pixel_buffer db = d_pixel_buffer da /\
    trace (d_bus da) = trace (d_bus db) ++ [writes_word (d_address d) status_reg v' None].
Proof.
  intros lay d dest da desta Hu H. pose proof H as H0.
  apply (if_ready_spec p bs lay) in H; [|apply usable_wf; exact Hu].
  destruct H as (w0 & [(e & x & E & _)|(v & Hv & Ht & Hs & H)]); [discriminate|].
  destruct H as [(Hn & E & _)|(Hn & w1 & buf' & evs & Hl & Ht1 & H)]; [discriminate|].
  cbn zeta in H.
  destruct H as [(_ & _ & Hf)|(ram & Hr & Hc & [(t & w2 & e & Hcalc & Ht2 & E & ->)|(_ & E & _)])]; [| |discriminate].
  { destruct Hf as [(e & E & _)|(E & _)]; discriminate. }
  destruct e; [discriminate|].
  exists (with_ambient (after_frame d buf' w1) (Some t)), (reset_new_data v).
  split; [|repeat split; exact Ht2].
  unfold generate_image_to, last_measured_subpage. rewrite Hs. cbn [bindS pure].
  rewrite last_updated_subpage_doc by exact Hv. cbn [status_doc s_subpage] in Hr, Hcalc.
  cbn [bindS pure]. unfold generate_image_subpage_to. rewrite Hr. cbn [calc] in Hcalc. rewrite Hcalc. reflexivity.
Qed.

(** [generate_image_to] does what asking for the last measured subpage and
    generating that subpage does. *)
Theorem C25_image_to_is_last_measured_subpage : forall dest d sp d1,
  last_measured_subpage bs d = (Ok sp, d1) ->
  generate_image_to p bs dest d = generate_image_subpage_to p bs sp dest d1.
Proof. intros dest d sp d1 H. unfold generate_image_to. rewrite H. reflexivity. Qed.

(** [generate_image_if_ready] stores what [data_available] and then
    [generate_image_subpage_to] store; all three other entry points only read. *)
Theorem C25_if_ready_is_data_available_then_subpage : forall lay dest d osp d1 r2 d2 dest2,
  usable d lay ->
  data_available bs d = (Ok osp, d1) ->
  match osp with
  | None => generate_image_if_ready p bs dest d = (Ok false, d1, dest)
  | Some sp =>
      generate_image_subpage_to p bs sp dest d1 = (r2, d2, dest2) ->
      exists r3 d3, generate_image_if_ready p bs dest d = (r3, d3, dest2) /\
        kept d2 d3 /\ d_pixel_buffer d3 = d_pixel_buffer d2 /\
        match r2 with
        | Ok _ => exists v' err, trace (d_bus d3) = trace (d_bus d2) ++ [writes_word (d_address d) status_reg v' err] /\
                    r3 = match err with None => Ok true | Some e => Err (I2cWriteError e) end
        | Err e => r3 = Err e /\ d3 = d2
        | Panic => r3 = Panic /\ d3 = d2
        | Diverge => False
        end
  end.
Proof.
  intros lay dest d osp d1 r2 d2 dest2 Hu Hda. unfold data_available in Hda.
  destruct (status_register_ bs d) as [r0 d0] eqn:Hs. unfold generate_image_if_ready. rewrite Hs.
  destruct r0 as [v|e| |]; try discriminate. cbn [bindS] in Hda.
  pose proof (status_word bs d v d0 Hs) as Hw.
  destruct (new_data v).
  2:{ injection Hda as <- <-. reflexivity. }
  unfold pure in Hda. rewrite last_updated_subpage_doc in Hda |- * by exact Hw. cbn [bind] in Hda.
  injection Hda as <- <-. intros H.
  assert (Hwf : wf d0 lay).
  { apply status_register_spec in Hs. destruct Hs as (w' & -> & _). apply usable_wf. exact Hu. }
  assert (Ha : d_address d0 = d_address d).
  { apply status_register_spec in Hs. destruct Hs as (w' & -> & _). reflexivity. }
  pose proof H as Hg. apply (gen_spec p bs false lay) in Hg; [|exact Hwf].
  destruct Hg as (w' & buf' & evs & Hl & Ht & Hg). cbn zeta in Hg.
  unfold generate_image_subpage_to in H.
  destruct (drv_read_ram bs (doc_subpage (bits v 0 1)) d0) as [rr dr] eqn:Hr.
  destruct rr as [ram|e| |]; cbn [fail_image] in *.
  - destruct (calc_temperatures p dr ram (doc_subpage (bits v 0 1)) dest) as [[t dst]|e| |] eqn:Hcalc;
      cbn [store_image] in H |- *.
    + injection H as <- <- <-.
      destruct (set_status_register bs (reset_new_data v) (with_ambient dr (Some t))) as [r3 d3] eqn:Hset.
      apply set_status_register_spec in Hset. destruct Hset as (w3 & e3 & -> & Ht3 & ->).
      exists (bind (match e3 with None => Ok tt | Some e => Err (I2cWriteError e) end) (fun _ => Ok true)).
      eexists. split; [reflexivity|]. split; [repeat split|]. split; [reflexivity|].
      exists (reset_new_data v), e3. split.
      * cbn [d_bus with_bus]. rewrite Ht3. cbn [d_bus with_ambient].
        replace (d_address (with_ambient dr (Some t))) with (d_address d); [reflexivity|].
        rewrite <- Ha. apply drv_read_ram_spec with (lay := lay) in Hr; [|exact Hwf].
        destruct Hr as (w4 & buf4 & evs4 & -> & _). reflexivity.
      * destruct e3; reflexivity.
    + exfalso. pose proof (calc_cases (ER := ER) (EW := EW) p false dr ram (doc_subpage (bits v 0 1)) dest) as Hcc.
      cbn [calc] in Hcc. destruct Hcc as [(t & l & Hcc)|Hcc]; rewrite Hcalc in Hcc; discriminate.
    + injection H as <- <- <-. do 2 eexists. split; [reflexivity|]. repeat split.
    + exfalso. pose proof (calc_cases (ER := ER) (EW := EW) p false dr ram (doc_subpage (bits v 0 1)) dest) as Hcc.
      cbn [calc] in Hcc. destruct Hcc as [(t & l & Hcc)|Hcc]; rewrite Hcalc in Hcc; discriminate.
  - injection H as <- <- <-. do 2 eexists. split; [reflexivity|]. repeat split.
  - injection H as <- <- <-. do 2 eexists. split; [reflexivity|]. repeat split.
  - exfalso. apply drv_read_ram_spec with (lay := lay) in Hr; [|exact Hwf].
    destruct Hr as (w4 & buf4 & evs4 & _ & _ & _ & []).
Qed.

Theorem C25_other_entry_points_only_read : forall lay d o r d' dest',
  usable d lay -> destination o <> None -> (forall dest, o <> OpGenerateIfReady dest) ->
  step p bs d o = (r, d', dest') ->
  exists evs, trace (d_bus d') = trace (d_bus d) ++ evs /\ Forall is_read evs.
Proof.
  intros lay d o r d' dest' Hu Ho Hno H.
  destruct (destination o) as [dest|] eqn:Hd; [|congruence].
  destruct (image_outcome p bs lay d o dest r d' dest' (usable_wf _ _ Hu) Hd H) as (evs & Ht & Hout).
  exists evs. split; [exact Ht|].
  destruct Hout as [x e w _ Hx|v w _ _ _|raw sp pre evs r buf w Ha Hf _|raw sp pre evs ram buf w w0 Ha Hcm _ Hr _
    |raw sp pre evs post ram buf w0 w w1 t dest' r Ha Hcm Hl Hw Hr Hcalc Hk].
  - destruct Hx as (data & -> & _). repeat constructor.
  - repeat constructor.
  - apply Forall_app. split; [eapply asks_reads; exact Ha|eapply failed_reads; exact Hf].
  - apply Forall_app. split; [eapply asks_reads; exact Ha|eapply reads_only; exact Hcm].
  - apply Forall_app. split; [eapply asks_reads; exact Ha|].
    apply Forall_app. split; [eapply reads_only; exact Hcm|].
    destruct Hk as [| | |v v' dest0 err _ _ _ _]; [constructor|constructor|constructor|].
    exfalso. eapply Hno. reflexivity.
Qed.

(** ** C26 *)
(** Documented effect of a history on the emissivity and the reflected temperature. *)
Definition emissivity_after (default : F FO) (start : F FO) (ops : list op) : F FO :=
  fold_left (fun e o => match o with
                        | OpOverrideEmissivity v => v
                        | OpUseDefaultEmissivity => default
                        | _ => e
                        end) ops start.
Definition reflected_after (start : option (F FO)) (ops : list op) : option (F FO) :=
  fold_left (fun t o => match o with OpSetReflectedTemperature v => v | _ => t end) ops start.

(** Calls other than the three setters of these values keep them. *)
Definition user_values d := (d_emissivity d, d_reflected d, d_calibration d).

Lemma update_keep v d r d' : update_control_register (ER := ER) (EW := EW) v d = (r, d') ->
  user_values d' = user_values d /\ d_ambient d' = d_ambient d.
Proof.
  unfold update_control_register. intros H.
  destruct (ctl_resolution v); [destruct (ctl_access_pattern v)| | |]; injection H as _ <-; split; reflexivity.
Qed.
Lemma control_keep d r d' : control_register_ bs d = (r, d') -> user_values d' = user_values d /\ d_ambient d' = d_ambient d.
Proof.
  intros H. apply control_register_spec in H.
  destruct H as (w' & [(v & _ & _ & -> & _)|(e & x & _ & _ & -> & _)]); split; reflexivity.
Qed.
Lemma set_control_keep v d r d' : set_control_register bs v d = (r, d') -> user_values d' = user_values d /\ d_ambient d' = d_ambient d.
Proof.
  unfold set_control_register. destruct (update_control_register v d) as [r0 d0] eqn:E.
  apply update_keep in E. unfold bindS. intros H. destruct r0; try (injection H as _ <-; exact E).
  destruct (write_register bs (d_address d0) CONTROL_ADDRESS v (d_bus d0)) as [r1 w1]. injection H as _ <-. exact E.
Qed.
Lemma read_ram_keep_values sp d r d' : drv_read_ram bs sp d = (r, d') -> user_values d' = user_values d /\ d_ambient d' = d_ambient d.
Proof.
  unfold drv_read_ram. destruct (read_ram bs _ _ _ _ _ _ _) as [[r0 buf] w]. intros H. injection H as _ <-. split; reflexivity.
Qed.

(** The three values (emissivity, reflected, calibration) and the ambient
    temperature are kept by every method without destination. *)
Definition all_values d := (user_values d, d_ambient d).

Lemma simple_keep (v0 : _) : forall A (rdr : driver -> m Z) (k : Z -> driver -> m A) d r d',
  (forall d r d', rdr d = (r, d') -> all_values d' = all_values d) ->
  (forall v d r d', k v d = (r, d') -> all_values d' = all_values d) ->
  bindS (rdr d) k = (r, d') -> all_values d = v0 -> all_values d' = v0.
Proof.
  intros A rdr k d r d' Hg Hk H E. destruct (rdr d) as [r0 d1] eqn:E0. apply Hg in E0. cbn [bindS] in H.
  destruct r0; try (injection H as _ <-; congruence). apply Hk in H. congruence.
Qed.
Lemma status_keep_all d r d' : status_register_ bs d = (r, d') -> all_values d' = all_values d.
Proof. intros H. apply status_register_spec in H. destruct H as (w' & -> & _). reflexivity. Qed.
Lemma set_status_keep_all v d r d' : set_status_register bs v d = (r, d') -> all_values d' = all_values d.
Proof. intros H. apply set_status_register_spec in H. destruct H as (w' & e & -> & _). reflexivity. Qed.
Lemma control_keep_all d r d' : control_register_ bs d = (r, d') -> all_values d' = all_values d.
Proof. intros H. apply control_keep in H. unfold all_values. destruct H as [-> ->]. reflexivity. Qed.
Lemma set_control_keep_all v d r d' : set_control_register bs v d = (r, d') -> all_values d' = all_values d.
Proof. intros H. apply set_control_keep in H. unfold all_values. destruct H as [-> ->]. reflexivity. Qed.

Lemma set_field_keep {V} rdr wrr getter setter eqb (v : V) d r d' :
  (forall d r d', rdr d = (r, d') -> all_values d' = all_values d) ->
  (forall w d r d', wrr w d = (r, d') -> all_values d' = all_values d) ->
  set_field (FO := FO) (B := B) (ER := ER) (EW := EW) rdr wrr getter setter eqb v d = (r, d') -> all_values d' = all_values d.
Proof.
  intros Hg Hs H. unfold set_field in H. eapply simple_keep; [exact Hg| |exact H|reflexivity].
  intros w d1 r1 d1' H1. cbn [bindS] in H1. destruct (getter w) as [old| | |]; try (injection H1 as _ <-; reflexivity).
  destruct (negb (eqb old v)); [eapply Hs; exact H1|]. injection H1 as _ <-. reflexivity.
Qed.

Lemma poll_keep_all fuel : forall v d r d', poll bs fuel v d = (r, d') -> all_values d' = all_values d.
Proof.
  induction fuel as [|n IH]; intros v d r d' H; cbn [poll] in H; destruct (new_data v);
    try (injection H as _ <-; reflexivity).
  eapply simple_keep; [apply status_keep_all| |exact H|reflexivity]. intros v1 d1 r1 d1'. apply IH.
Qed.

Lemma sync_keep_all fuel d r d' : synchronize bs fuel d = (r, d') -> all_values d' = all_values d.
Proof.
  intros H. unfold synchronize in H. eapply simple_keep; [apply status_keep_all| |exact H|reflexivity].
  intros v d1 r1 d1' H1. cbn beta zeta in H1.
  match type of H1 with bindS (set_status_register bs ?x d1) _ = _ => destruct (set_status_register bs x d1) as [r2 d2] eqn:E end.
  apply set_status_keep_all in E. cbn [bindS] in H1.
  destruct r2; try (injection H1 as _ <-; exact E). apply poll_keep_all in H1. congruence.
Qed.

Lemma no_destination_keep o d r d' dest : destination o = None -> step p bs d o = (r, d', dest) ->
  d_calibration d' = d_calibration d /\ d_ambient d' = d_ambient d /\
  d_emissivity d' = emissivity_after (match cal_emissivity _ (d_calibration d) with Some e => e | None => fofZ 1 end) (d_emissivity d) [o] /\
  d_reflected d' = reflected_after (d_reflected d) [o].
Proof.
  intros Ho H.
  assert (G : all_values d' = all_values d ->
    match o with OpOverrideEmissivity _ | OpUseDefaultEmissivity | OpSetReflectedTemperature _ => False | _ => True end ->
    d_calibration d' = d_calibration d /\ d_ambient d' = d_ambient d /\
    d_emissivity d' = emissivity_after (match cal_emissivity _ (d_calibration d) with Some e => e | None => fofZ 1 end) (d_emissivity d) [o] /\
    d_reflected d' = reflected_after (d_reflected d) [o]).
  { intros E Hne. unfold all_values, user_values in E. injection E as E1 E2 E3 E4.
    rewrite E1, E2, E3, E4. destruct o; try contradiction; repeat split. }
  destruct o; try discriminate; cbn [step] in H;
    try (apply lift_inv in H; destruct H as (r0 & H & _ & _));
    try (injection H as _ <- _; repeat split);
    (apply G; [|exact I]); clear G.
  all: first
    [ eapply sync_keep_all; exact H
    | eapply set_field_keep; [apply status_keep_all|apply set_status_keep_all|exact H]
    | eapply set_field_keep; [apply control_keep_all|apply set_control_keep_all|exact H]
    | eapply simple_keep; [apply status_keep_all| |exact H|reflexivity]
    | eapply simple_keep; [apply control_keep_all| |exact H|reflexivity] ].
  all: intros v d1 r1 d1' H1; cbn [pure] in H1;
    first [ eapply set_status_keep_all; exact H1
          | destruct (new_data v); injection H1 as _ <-; reflexivity
          | injection H1 as _ <-; reflexivity ].
Qed.

Lemma one_step lay d o r d' dest : usable d lay -> step p bs d o = (r, d', dest) ->
  d_calibration d' = d_calibration d /\ d_height d' = d_height d /\
  length (d_pixel_buffer d') = length (d_pixel_buffer d) /\
  d_emissivity d' = emissivity_after (match cal_emissivity _ (d_calibration d) with Some e => e | None => fofZ 1 end) (d_emissivity d) [o] /\
  d_reflected d' = reflected_after (d_reflected d) [o] /\
  (computed o r \/ d_ambient d' = d_ambient d).
Proof.
  intros Hu H. pose proof H as Hp. apply step_prims in Hp.
  destruct (prims_later bs lay d d' (usable_wf _ _ Hu) Hp) as (_ & ((_ & Hc & Hh & Hl) & _) & _).
  split; [exact Hc|]. split; [exact Hh|]. split; [exact Hl|].
  destruct (destination o) as [dst|] eqn:Ho.
  - assert (G : emissivity_after (match cal_emissivity _ (d_calibration d) with Some e => e | None => fofZ 1 end) (d_emissivity d) [o] = d_emissivity d /\
      reflected_after (d_reflected d) [o] = d_reflected d) by (destruct o; try discriminate; split; reflexivity).
    destruct G as [-> ->].
    destruct (image_outcome p bs lay d o dst r d' dest (usable_wf _ _ Hu) Ho H) as (evs & Ht & Hout).
    destruct Hout as [x e w _ Hx|v w _ _ _|raw sp pre evs r buf w Ha Hf _|raw sp pre evs ram buf w w0 Ha Hcm _ Hr _
      |raw sp pre evs post ram buf w0 w w1 t dest r Ha Hcm Hl0 Hw Hr Hcalc Hk]; repeat split; auto.
    left. split; [rewrite Ho; discriminate|].
    destruct Hk as [| | |v v' dest0 err _ _ _ _]; try exact I. destruct err; exact I.
  - destruct (no_destination_keep o d r d' dest Ho H) as (_ & Ha & He & Hrf). auto.
Qed.

Lemma usable_step lay d o r d' dest : usable d lay -> step p bs d o = (r, d', dest) -> usable d' lay.
Proof.
  intros Hu H. destruct (one_step lay d o r d' dest Hu H) as (Hc & Hh & Hl & _).
  unfold usable in *. rewrite Hc, Hh, Hl. exact Hu.
Qed.
Lemma usable_run lay ops : forall d, usable d lay -> usable (run p bs d ops) lay.
Proof.
  induction ops as [|o ops IH]; intros d Hu; [exact Hu|]. cbn [run fold_left]. apply IH. unfold step_state.
  destruct (step p bs d o) as [[r d'] dest] eqn:E. eapply usable_step; eassumption.
Qed.

Theorem C26_emissivity_and_reflected : forall lay d ops,
  usable d lay ->
  let default := match cal_emissivity _ (d_calibration d) with Some e => e | None => fofZ 1 end in
  effective_emissivity (run p bs d ops) = emissivity_after default (effective_emissivity d) ops /\
  reflected_temperature (run p bs d ops) = reflected_after (reflected_temperature d) ops.
Proof.
  intros lay d ops Hu default. subst default. unfold effective_emissivity, reflected_temperature. revert d Hu.
  induction ops as [|o ops IH]; intros d Hu; [split; reflexivity|].
  destruct (step p bs d o) as [[r d'] dest] eqn:E.
  assert (Er : run p bs d (o :: ops) = run p bs d' ops) by (cbn [run fold_left]; unfold step_state at 2; rewrite E; reflexivity).
  rewrite Er. destruct (one_step lay d o r d' dest Hu E) as (Hc & _ & _ & He & Hr & _).
  destruct (IH d' (usable_step lay d o r d' dest Hu E)) as [IH1 IH2].
  rewrite IH1, IH2, Hc, He, Hr. split; reflexivity.
Qed.

(** The ambient temperature: only a computed image changes it. *)
Theorem C26_ambient_changes_only_with_an_image : forall lay d o r d' dest,
  usable d lay -> step p bs d o = (r, d', dest) ->
  d_ambient d' <> d_ambient d -> computed o r.
Proof.
  intros lay d o r d' dest Hu H Hne.
  destruct (one_step lay d o r d' dest Hu H) as (_ & _ & _ & _ & _ & [Hc|Ha]); [exact Hc|congruence].
Qed.

(** Histories: [no_image d ops] if no call of [ops] computes an image. *)
Fixpoint no_image d (ops : list op) : Prop :=
  match ops with
  | [] => True
  | o :: r => ~ computed o (step_out p bs d o) /\ no_image (step_state p bs d o) r
  end.

Lemma no_image_ambient lay ops : forall d, usable d lay -> no_image d ops -> d_ambient (run p bs d ops) = d_ambient d.
Proof.
  induction ops as [|o ops IH]; intros d Hu Hn; [reflexivity|]. destruct Hn as [Hn1 Hn2].
  unfold step_out, step_state in Hn1, Hn2. destruct (step p bs d o) as [[r d'] dest] eqn:E. cbn [fst snd] in *.
  assert (Er : run p bs d (o :: ops) = run p bs d' ops) by (cbn [run fold_left]; unfold step_state at 2; rewrite E; reflexivity).
  rewrite Er. rewrite (IH d' (usable_step lay d o r d' dest Hu E) Hn2).
  destruct (one_step lay d o r d' dest Hu E) as (_ & _ & _ & _ & _ & [Hc|Ha]); [contradiction|exact Ha].
Qed.

(** Before the first image the ambient temperature is that of construction
    (None, C29); afterwards it is that of the last image computed. *)
Theorem C26_ambient_is_that_of_the_last_image : forall lay d before o after r d' dest dest' evs sp mem,
  usable d lay ->
  let d0 := run p bs d before in
  step p bs d0 o = (r, d', dest') -> destination o = Some dest -> computed o r ->
  no_image d' after ->
  trace (d_bus d') = trace (d_bus d0) ++ evs -> stores o (d_address d0) evs sp ->
  (forall a, word (mem a)) -> Forall (shows mem) evs ->
  drv_ambient_temperature (run p bs d (before ++ o :: after)) = Some (doc_t_a (d_calibration d) lay mem).
Proof.
  intros lay d before o after r d' dest dest' evs sp mem Hu d0 H Hd Hc Hn Ht Hst Hm Hsh.
  assert (Hu0 : usable d0 lay) by (apply usable_run; exact Hu).
  assert (E : run p bs d (before ++ o :: after) = run p bs d' after).
  { unfold run. rewrite fold_left_app. cbn [fold_left]. change (fold_left (step_state p bs) before d) with d0.
    unfold step_state at 2. rewrite H. reflexivity. }
  rewrite E. unfold drv_ambient_temperature.
  rewrite (no_image_ambient lay after d' (usable_step lay d0 o r d' dest' Hu0 H) Hn).
  destruct (C55_image_of_transcript lay d0 o dest r d' dest' evs sp mem Hu0 Hd H Hc Ht Hst Hm Hsh) as [Ha _].
  rewrite Ha. f_equal.
  destruct (run_later p bs lay d before (usable_wf _ _ Hu)) as (_ & ((_ & Hcal & _) & _) & _).
  unfold d0. rewrite Hcal. reflexivity.
Qed.

Theorem C26_no_ambient_before_first_image : forall lay d ops,
  usable d lay -> drv_ambient_temperature d = None -> no_image d ops ->
  drv_ambient_temperature (run p bs d ops) = None.
Proof. intros lay d ops Hu Hn Hq. unfold drv_ambient_temperature in *. rewrite (no_image_ambient lay ops d Hu Hq). exact Hn. Qed.
End Frames.
Print Assumptions C24_full_image.
Print Assumptions C25_if_ready_stores_the_same_image.
Print Assumptions C25_if_ready_is_data_available_then_subpage.
Print Assumptions C25_other_entry_points_only_read.
Print Assumptions C26_emissivity_and_reflected.
Print Assumptions C26_ambient_changes_only_with_an_image.
Print Assumptions C26_ambient_is_that_of_the_last_image.
Print Assumptions C26_no_ambient_before_first_image.
Print Assumptions C55_image_of_transcript.
