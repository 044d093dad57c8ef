(** * StepFacts: every driver call is a sequence of primitive moves. *)
From Verif Require Import Base FloatOps Register Bus Camera Cam640 Cam641 Calc CalcFacts Driver
  BitFacts SpecRegister RegisterFacts SpecCamera CameraFacts SpecDriver DriverFacts.

Section Step.
Context {FO : FloatOps} (p : profile) {B ER EW : Type} (bs : bus B ER EW).
Notation driver := (driver (FO := FO) (B := B) (ER := ER) (EW := EW)).
Notation err := (error ER EW).
Notation op := (op (FO := FO)).
Implicit Types d : driver.

(** One primitive move of the driver. *)
Inductive prim : driver -> driver -> Prop :=
| P_status_read d r d' : status_register_ bs d = (r, d') -> prim d d'
| P_control_read d r d' : control_register_ bs d = (r, d') -> prim d d'
| P_status_write v d r d' : word v -> set_status_register bs v d = (r, d') -> prim d d'
| P_control_write v d r d' : word v -> set_control_register bs v d = (r, d') -> prim d d'
| P_frame sp d r d' : drv_read_ram bs sp d = (r, d') -> prim d d'
| P_ambient d t : prim d (with_ambient d t)
| P_emissivity d e : prim d (with_emissivity d e)
| P_reflected d t : prim d (with_reflected d t).

Inductive prims : driver -> driver -> Prop :=
| prims_nil d : prims d d
| prims_cons d d1 d2 : prim d d1 -> prims d1 d2 -> prims d d2.

Lemma prims_one d d' : prim d d' -> prims d d'.
Proof. intros H. econstructor; [exact H|constructor]. Qed.
Lemma prims_trans d d1 d2 : prims d d1 -> prims d1 d2 -> prims d d2.
Proof. induction 1; intros H2; [exact H2|]. econstructor; [eassumption|auto]. Qed.

(** An invariant of the primitive moves is an invariant of their sequences. *)
Lemma prims_inv (I : driver -> Prop) :
  (forall d d', prim d d' -> I d -> I d') -> forall d d', prims d d' -> I d -> I d'.
Proof. intros HI d d'. induction 1; eauto. Qed.
Lemma prims_rel (R : driver -> driver -> Prop) :
  (forall d, R d d) -> (forall a b c, R a b -> R b c -> R a c) ->
  (forall d d', prim d d' -> R d d') -> forall d d', prims d d' -> R d d'.
Proof. intros Hr Ht HI d d'. induction 1; eauto. Qed.

Lemma status_word d v d' : status_register_ bs d = (Ok v, d') -> word v.
Proof.
  intros H. apply status_register_spec in H.
  destruct H as (w' & _ & [(x & E & Hx & _)|(e & x & E & _)]); [injection E as ->; exact Hx|discriminate].
Qed.
Lemma control_word d v d' : control_register_ bs d = (Ok v, d') -> word v.
Proof.
  intros H. apply control_register_spec in H.
  destruct H as (w' & [(x & E & Hx & _)|(e & x & E & _)]); [injection E as ->; exact Hx|discriminate].
Qed.

Lemma read_status_then {A} (k : Z -> driver -> m A) d r d' :
  (forall v d1 r d', word v -> k v d1 = (r, d') -> prims d1 d') ->
  bindS (status_register_ bs d) k = (r, d') -> prims d d'.
Proof.
  intros Hk H. unfold bindS in H. destruct (status_register_ bs d) as [r0 d0] eqn:Hs.
  pose proof (prims_one _ _ (P_status_read _ _ _ Hs)) as H0.
  destruct r0 as [v| | |]; try (injection H as _ <-; exact H0).
  eapply prims_trans; [exact H0|]. eapply Hk; [|exact H]. eapply status_word; eassumption.
Qed.
Lemma read_control_then {A} (k : Z -> driver -> m A) d r d' :
  (forall v d1 r d', word v -> k v d1 = (r, d') -> prims d1 d') ->
  bindS (control_register_ bs d) k = (r, d') -> prims d d'.
Proof.
  intros Hk H. unfold bindS in H. destruct (control_register_ bs d) as [r0 d0] eqn:Hs.
  pose proof (prims_one _ _ (P_control_read _ _ _ Hs)) as H0.
  destruct r0 as [v| | |]; try (injection H as _ <-; exact H0).
  eapply prims_trans; [exact H0|]. eapply Hk; [|exact H]. eapply control_word; eassumption.
Qed.

Lemma pure_prims {A} (x : res err A) d1 r d' : (x, d1) = (r, d') -> prims d1 d'.
Proof. intros H. injection H as _ <-. constructor. Qed.

Lemma set_status_field_prims {V} getter setter eqb (v : V) d r d' :
  (forall w v, word w -> word (setter w v)) ->
  set_status_field bs getter setter eqb v d = (r, d') -> prims d d'.
Proof.
  intros Hset. apply read_status_then. intros w d1 r1 d1' Hw H. unfold bindS in H.
  destruct (getter w) as [old| | |]; try (eapply pure_prims; exact H).
  destruct (negb (eqb old v)); [|eapply pure_prims; exact H].
  eapply prims_one, P_status_write; [|exact H]. apply Hset, Hw.
Qed.
Lemma set_control_field_prims {V} getter setter eqb (v : V) d r d' :
  (forall w v, word w -> word (setter w v)) ->
  set_control_field bs getter setter eqb v d = (r, d') -> prims d d'.
Proof.
  intros Hset. apply read_control_then. intros w d1 r1 d1' Hw H. unfold bindS in H.
  destruct (getter w) as [old| | |]; try (eapply pure_prims; exact H).
  destruct (negb (eqb old v)); [|eapply pure_prims; exact H].
  eapply prims_one, P_control_write; [|exact H]. apply Hset, Hw.
Qed.

Lemma gen_prims raw sp dest d r d' dest' : gen p bs raw sp dest d = (r, d', dest') -> prims d d'.
Proof.
  intros H.
  assert (H' : (let '(r, d) := drv_read_ram bs sp d in
    match r with
    | Ok ram => store_image (calc p raw d ram sp dest) d dest (fun d dest => (Ok tt, d, dest))
    | _ => fail_image r d dest
    end) = (r, d', dest')) by (destruct raw; exact H).
  clear H. destruct (drv_read_ram bs sp d) as [r0 d1] eqn:Hr.
  pose proof (prims_one _ _ (P_frame _ _ _ _ Hr)) as H0.
  destruct r0 as [ram| | |]; try (cbn [fail_image] in H'; injection H' as _ <- _; exact H0).
  destruct (calc p raw d1 ram sp dest) as [[t dest2]| | |]; cbn [store_image] in H';
    injection H' as _ <- _; try exact H0.
  eapply prims_trans; [exact H0|]. apply prims_one, P_ambient.
Qed.

Lemma generate_image_to_prims dest d r d' dest' : generate_image_to p bs dest d = (r, d', dest') -> prims d d'.
Proof.
  unfold generate_image_to, last_measured_subpage, bindS. intros H.
  destruct (status_register_ bs d) as [r0 d0] eqn:Hs.
  pose proof (prims_one _ _ (P_status_read _ _ _ Hs)) as H0.
  destruct r0 as [v| | |]; try (cbn [fail_image] in H; injection H as _ <- _; exact H0).
  unfold pure in H. destruct (last_updated_subpage v) as [sp| | |];
    try (cbn [fail_image] in H; injection H as _ <- _; exact H0).
  eapply prims_trans; [exact H0|]. eapply (gen_prims false). exact H.
Qed.

Lemma if_ready_prims dest d r d' dest' : generate_image_if_ready p bs dest d = (r, d', dest') -> prims d d'.
Proof.
  unfold generate_image_if_ready. intros H.
  destruct (status_register_ bs d) as [r0 d0] eqn:Hs.
  pose proof (prims_one _ _ (P_status_read _ _ _ Hs)) as H0.
  destruct r0 as [v| | |]; try (cbn [fail_image] in H; injection H as _ <- _; exact H0).
  pose proof (status_word _ _ _ Hs) as Hv.
  destruct (new_data v); [|injection H as _ <- _; exact H0].
  destruct (last_updated_subpage v) as [sp| | |];
    try (cbn [fail_image] in H; injection H as _ <- _; exact H0).
  eapply prims_trans; [exact H0|]. clear H0 Hs.
  destruct (drv_read_ram bs sp d0) as [r2 d1] eqn:Hr.
  pose proof (prims_one _ _ (P_frame _ _ _ _ Hr)) as H0.
  destruct r2 as [ram| | |]; try (cbn [fail_image] in H; injection H as _ <- _; exact H0).
  eapply prims_trans; [exact H0|]. clear H0.
  destruct (calc_temperatures p d1 ram sp dest) as [[t dest2]| | |]; cbn [store_image] in H;
    try (injection H as _ <- _; constructor).
  eapply prims_trans; [apply prims_one, (P_ambient d1 (Some t))|].
  destruct (set_status_register bs (reset_new_data v) (with_ambient d1 (Some t))) as [r3 d3] eqn:Hw.
  injection H as _ <- _. eapply prims_one, P_status_write; [|exact Hw].
  apply (reset_new_data_spec v Hv).
Qed.

Lemma poll_prims fuel : forall v d r d', poll bs fuel v d = (r, d') -> prims d d'.
Proof.
  induction fuel as [|n IH]; intros v d r d' H; cbn [poll] in H; destruct (new_data v);
    try (eapply pure_prims; exact H).
  revert H. apply read_status_then. intros v1 d1 r1 d1' _. apply IH.
Qed.

Lemma synchronize_prims fuel d r d' : synchronize bs fuel d = (r, d') -> prims d d'.
Proof.
  apply read_status_then. intros v d1 r1 d1' Hv. unfold bindS.
  set (v' := set_start_measurement _).
  assert (Hv' : word v').
  { apply set_start_spec, set_overwrite_spec, reset_new_data_spec, Hv. }
  destruct (set_status_register bs v' d1) as [r2 d2] eqn:Hw. intros H.
  pose proof (prims_one _ _ (P_status_write _ _ _ _ Hv' Hw)) as H0.
  destruct r2; try (injection H as _ <-; exact H0).
  eapply prims_trans; [exact H0|]. eapply poll_prims. exact H.
Qed.

Lemma lift_inv {A} (f : A -> out (FO := FO)) (x : m A) r d' dest :
  lift f x = (r, d', dest) -> exists r0, x = (r0, d') /\ r = bind r0 (fun a => Ok (f a)) /\ dest = [].
Proof. destruct x as [r0 d0]. intros H. injection H as <- <- <-. eauto. Qed.
Lemma lifti_inv {A} (f : A -> out (FO := FO)) (x : mi A) r d' dest :
  lifti f x = (r, d', dest) -> exists r0, x = (r0, d', dest) /\ r = bind r0 (fun a => Ok (f a)).
Proof. destruct x as [[r0 d0] dst]. intros H. injection H as <- <- <-. eauto. Qed.

Lemma step_prims d o r d' dest : step p bs d o = (r, d', dest) -> prims d d'.
Proof.
  intros H.
  destruct o; cbn [step] in H;
    first [ apply lift_inv in H; destruct H as (r0 & H & _ & _)
          | apply lifti_inv in H; destruct H as (r0 & H & _)
          | injection H as _ <- _ ];
    first
      [ apply prims_nil
      | apply prims_one, P_emissivity
      | apply prims_one, P_reflected
      | eapply (gen_prims true); exact H
      | eapply (gen_prims false); exact H
      | eapply generate_image_to_prims; exact H
      | eapply if_ready_prims; exact H
      | eapply synchronize_prims; exact H
      | idtac ].
  all: match type of H with ?f = _ => revert H end.
  - apply read_status_then. intros ? ? ? ? _. apply pure_prims.
  - apply read_status_then. intros v ? ? ? _. destruct (new_data v); apply pure_prims.
  - apply read_status_then. intros v ? ? ? Hv H. eapply prims_one, P_status_write; [|exact H].
    apply (reset_new_data_spec v Hv).
  - apply read_status_then. intros ? ? ? ? _. apply pure_prims.
  - apply set_status_field_prims. intros w b Hw. apply (set_overwrite_spec w b Hw).
  - apply read_control_then. intros ? ? ? ? _. apply pure_prims.
  - apply set_control_field_prims. intros w b Hw. apply (set_use_subpages_spec w b Hw).
  - apply read_control_then. intros ? ? ? ? _. apply pure_prims.
  - apply set_control_field_prims. intros w b Hw. apply (set_data_hold_spec w b Hw).
  - apply read_control_then. intros ? ? ? ? _. apply pure_prims.
  - apply set_control_field_prims. intros w b Hw. apply (set_subpage_repeat_spec w b Hw).
  - apply read_control_then. intros ? ? ? ? _. apply pure_prims.
  - apply set_control_field_prims. intros w b Hw. apply (set_ctl_subpage_spec w b Hw).
  - apply read_control_then. intros ? ? ? ? _. apply pure_prims.
  - apply set_control_field_prims. intros w b Hw. apply (set_ctl_frame_rate_spec w b Hw).
  - apply read_control_then. intros ? ? ? ? _. apply pure_prims.
  - apply set_control_field_prims. intros w b Hw. apply (set_ctl_resolution_spec w b Hw).
  - apply read_control_then. intros ? ? ? ? _. apply pure_prims.
  - apply set_control_field_prims. intros w b Hw. apply (set_ctl_access_pattern_spec w b Hw).
Qed.

Lemma run_prims ops : forall d, prims d (run p bs d ops).
Proof.
  induction ops as [|o ops IH]; intros d; [constructor|]. cbn [run fold_left].
  eapply prims_trans; [|apply IH]. unfold step_state.
  destruct (step p bs d o) as [[r d'] dest] eqn:H. eapply step_prims. exact H.
Qed.

(** ** What never changes, and the growth of the trace. *)
Definition same_config d d' : Prop :=
  d_address d' = d_address d /\ d_calibration d' = d_calibration d /\ d_height d' = d_height d /\
  length (d_pixel_buffer d') = length (d_pixel_buffer d).

Lemma same_config_wf d d' lay : same_config d d' -> wf d lay -> wf d' lay.
Proof. intros (_ & Hc & Hh & _) [Hd Hl]. unfold wf. rewrite Hc, Hh. auto. Qed.

(** [d'] comes after [d], with transactions [evs] in between. *)
Definition later d d' (evs : list (event ER EW)) : Prop :=
  same_config d d' /\ trace (d_bus d') = trace (d_bus d) ++ evs.

Lemma legal_word i2c rl reg v e : reg = status_reg \/ reg = control_reg -> word v ->
  legal (ER := ER) (EW := EW) i2c rl (writes_word i2c reg v e).
Proof.
  intros Hr Hv. unfold writes_word. constructor; [exact Hr| |].
  - unfold byte. unfold word in Hv. split; [apply Z.div_pos; lia|apply Z.div_lt_upper_bound; lia].
  - apply Z.mod_pos_bound. lia.
Qed.
Lemma legal_reg_read i2c rl reg data e : reg = status_reg \/ reg = control_reg -> length data = 2%nat ->
  legal (ER := ER) (EW := EW) i2c rl (EvRead i2c reg data e).
Proof.
  intros Hr Hl. 
  assert (exists a, (a = 0x8000 \/ a = 0x800D) /\ reg = [a / 256; a mod 256]) as (a & Ha & ->).
  { destruct Hr as [-> | ->]; [exists 0x8000|exists 0x800D]; split; auto. }
  constructor.
  - destruct data; [discriminate|]. discriminate.
  - rewrite Hl. exists 1%nat. reflexivity.
  - right. right. split; assumption.
Qed.
Lemma frame_read_legal lay sp ap rd i2c data e : (exists c : camera FO, documented c lay) ->
  In rd (frame_reads lay sp ap) ->
  length data = snd rd -> legal (ER := ER) (EW := EW) i2c (ram_last lay) (EvRead i2c [fst rd / 256; fst rd mod 256] data e).
Proof.
  intros [c Hd] Hin Hl.
  assert (H : 0x0400 <= fst rd /\ fst rd + Z.of_nat (snd rd) / 2 - 1 <= ram_last lay /\
              (0 < snd rd)%nat /\ Nat.Even (snd rd)).
  { unfold frame_reads in Hin. apply in_app_iff in Hin. destruct Hin as [Hin|Hin].
    - destruct Hd; cbn [lay_reads layout640 layout641] in Hin.
      + destruct ap.
        * destruct Hin as [<-|[]]. cbn [fst snd]. change (Z.of_nat 1536 / 2) with 768.
          unfold ram_last. cbn [lay_vbe layout640]. repeat split; try lia. exists 768%nat. reflexivity.
        * apply in_map_iff in Hin. destruct Hin as (k & <- & Hk). apply in_seq in Hk. cbn [fst snd].
          change (Z.of_nat 64 / 2) with 32. unfold ram_last. cbn [lay_vbe layout640].
          destruct sp; cbn [sub]; repeat split; try lia; exists 32%nat; reflexivity.
      + apply in_map_iff in Hin. destruct Hin as (k & <- & Hk). apply in_seq in Hk. cbn [fst snd].
        change (Z.of_nat 64 / 2) with 32. unfold ram_last. cbn [lay_vbe layout641].
        destruct sp; cbn [sub]; repeat split; try lia; exists 32%nat; reflexivity.
    - apply in_map_iff in Hin. destruct Hin as (a & <- & Ha). cbn [fst snd].
      change (Z.of_nat 2 / 2) with 1.
      assert (0x0400 <= a <= ram_last lay).
      { unfold lay_scalars in Ha. cbn [In] in Ha. unfold ram_last.
        destruct Hd; cbn [lay_vbe lay_ptat lay_vdd lay_gain lay_cp layout640 layout641] in *;
          destruct sp; repeat (destruct Ha as [<-|Ha]; [lia|]); contradiction. }
      repeat split; try lia. exists 1%nat. reflexivity. }
  destruct H as (H1 & H2 & H3 & H4). rewrite <- Hl in *.
  constructor; [destruct data; [cbn in H3; lia|discriminate]|exact H4|]. left. auto.
Qed.

Lemma good_legal lay sp ap i2c reads evs : (exists c : camera FO, documented c lay) ->
  incl reads (frame_reads lay sp ap) -> Forall2 (good_read (ER := ER) (EW := EW) i2c) reads evs ->
  Forall (legal i2c (ram_last lay)) evs.
Proof.
  intros Hd Hi H. induction H as [|rd ev reads evs H1 H2 IH]; constructor.
  - destruct H1 as (data & -> & Hl). eapply frame_read_legal; eauto. apply Hi. left. reflexivity.
  - apply IH. intros x Hx. apply Hi. right. exact Hx.
Qed.

Lemma prim_later lay d d' : wf d lay -> prim d d' ->
  exists evs, later d d' evs /\ Forall (legal (d_address d) (ram_last lay)) evs.
Proof.
  intros Hwf H. destruct H as [d r d' H|d r d' H|v d r d' Hv H|v d r d' Hv H|sp d r d' H|d t|d t|d t].
  - apply status_register_spec in H. destruct H as (w' & -> & [(v & _ & Hv & Ht)|(e & x & _ & Hx & Ht)]).
    + eexists. split; [split; [repeat split|exact Ht]|]. constructor; [|constructor].
      apply legal_reg_read; auto.
    + eexists. split; [split; [repeat split|exact Ht]|]. constructor; [|constructor].
      destruct Hx as (data & -> & Hl). apply legal_reg_read; auto.
  - apply control_register_spec in H. destruct H as (w' & [(v & _ & Hv & -> & Ht)|(e & x & _ & Hx & -> & Ht)]).
    + eexists. split; [split; [repeat split|exact Ht]|]. constructor; [|constructor].
      apply legal_reg_read; auto.
    + eexists. split; [split; [repeat split|exact Ht]|]. constructor; [|constructor].
      destruct Hx as (data & -> & Hl). apply legal_reg_read; auto.
  - apply set_status_register_spec in H. destruct H as (w' & e & -> & Ht & _).
    eexists. split; [split; [repeat split|exact Ht]|]. constructor; [|constructor]. apply legal_word; auto.
  - apply set_control_register_spec in H; [|exact Hv]. destruct H as (w' & e & -> & Ht & _).
    eexists. split; [split; [repeat split|exact Ht]|]. constructor; [|constructor]. apply legal_word; auto.
  - apply (frame_cases bs lay) in H; [|exact Hwf]. destruct H as (w' & buf' & evs & -> & Hl & Ht & Hc).
    exists evs. split; [split; [repeat split; exact Hl|exact Ht]|].
    assert (Hdoc : exists c : camera FO, documented c lay) by (eexists; apply Hwf).
    destruct Hc as [(ram & _ & Hc)|[(e & _ & Ha)|(_ & _ & Ha)]].
    + eapply good_legal; [exact Hdoc|apply incl_refl|exact Hc].
    + destruct Ha as (pre & rd & post & good & bad & E & -> & Hg & data & -> & Hdl).
      assert (Hi : incl (pre ++ rd :: post) (frame_reads lay sp (d_access_pattern d))) by (rewrite E; apply incl_refl).
      apply Forall_app. split.
      * eapply good_legal; [exact Hdoc| |exact Hg]. intros x Hx. apply Hi, in_app_iff. auto.
      * constructor; [|constructor]. eapply frame_read_legal; [exact Hdoc| |exact Hdl].
        apply Hi, in_app_iff. right. left. reflexivity.
    + destruct Ha as (pre & rd & post & E & Hg). eapply good_legal; [exact Hdoc| |exact Hg].
      intros x Hx. unfold frame_reads. apply in_app_iff. left. rewrite E. apply in_app_iff. auto.
  - exists []. split; [split; [repeat split|cbn; rewrite app_nil_r; reflexivity]|constructor].
  - exists []. split; [split; [repeat split|cbn; rewrite app_nil_r; reflexivity]|constructor].
  - exists []. split; [split; [repeat split|cbn; rewrite app_nil_r; reflexivity]|constructor].
Qed.

Lemma later_trans d1 d2 d3 e1 e2 : later d1 d2 e1 -> later d2 d3 e2 -> later d1 d3 (e1 ++ e2).
Proof.
  intros ((A1 & A2 & A3 & A4) & A5) ((B1 & B2 & B3 & B4) & B5). unfold later, same_config.
  rewrite B1, B2, B3, B4, B5, A5, app_assoc. auto 10.
Qed.

Lemma prims_later lay d d' : wf d lay -> prims d d' ->
  exists evs, later d d' evs /\ Forall (legal (d_address d) (ram_last lay)) evs.
Proof.
  intros Hwf H. revert Hwf. induction H as [d|d d1 d2 H1 H2 IH]; intros Hwf.
  - exists []. split; [split; [repeat split|rewrite app_nil_r; reflexivity]|constructor].
  - destruct (prim_later lay d d1 Hwf H1) as (e1 & L1 & F1).
    assert (Hwf1 : wf d1 lay) by (eapply same_config_wf; [apply L1|exact Hwf]).
    destruct (IH Hwf1) as (e2 & L2 & F2). exists (e1 ++ e2).
    split; [eapply later_trans; eassumption|]. apply Forall_app. split; [exact F1|].
    destruct L1 as ((A & _) & _). rewrite A in F2. exact F2.
Qed.

Lemma run_later lay d ops : wf d lay ->
  exists evs, later d (run p bs d ops) evs /\ Forall (legal (d_address d) (ram_last lay)) evs.
Proof. intros Hwf. apply prims_later; [exact Hwf|apply run_prims]. Qed.
End Step.

(** ** Device state: reads only *)
Section Dev.
Context {FO : FloatOps} {B ER EW : Type} (bs : bus B ER EW) (I : B -> Prop).
Notation W := (world B ER EW).
Hypothesis reads_keep : forall b i2c wb buf b' out e,
  dev_write_read bs b i2c wb buf = (b', out, e) -> I b -> I b'.

Lemma write_read_keep i2c wb buf (w : W) data e w' :
  write_read bs i2c wb buf w = (data, e, w') -> I (dev w) -> I (dev w').
Proof.
  unfold write_read. destruct (dev_write_read bs (dev w) i2c wb buf) as [[b out] e0] eqn:H.
  intros E. injection E as _ _ <-. cbn [dev]. eapply reads_keep. exact H.
Qed.

Lemma read_ram_value_keep i2c a (w : W) r w' :
  read_ram_value bs i2c a w = (r, w') -> I (dev w) -> I (dev w').
Proof.
  unfold read_ram_value. destruct (write_read bs i2c (to_be_bytes a) [0; 0] w) as [[data e] w0] eqn:H.
  intros E. replace w' with w0; [eapply write_read_keep; exact H|].
  destruct e; injection E as _ <-; reflexivity.
Qed.

Lemma read_ranges_keep i2c rs : forall buf (w : W) r buf' w',
  read_ranges bs i2c rs buf w = (r, buf', w') -> I (dev w) -> I (dev w').
Proof.
  induction rs as [|rg rs IH]; intros buf w r buf' w' H Hi; cbn [read_ranges] in H.
  - injection H as _ _ <-. exact Hi.
  - destruct (Nat.ltb (length buf) (buffer_offset rg + range_length rg)); [injection H as _ _ <-; exact Hi|].
    destruct (write_read bs i2c (to_be_bytes (start_address rg))
      (firstn (range_length rg) (skipn (buffer_offset rg) buf)) w) as [[data e] w0] eqn:Hw.
    pose proof (write_read_keep _ _ _ _ _ _ _ Hw Hi) as Hi0.
    destruct e as [e|]; [injection H as _ _ <-; exact Hi0|]. eapply IH; eassumption.
Qed.

Lemma read_ram_keep (c : camera FO) height i2c ap sp buf (w : W) r buf' w' :
  read_ram bs c height i2c ap sp buf w = (r, buf', w') -> I (dev w) -> I (dev w').
Proof.
  unfold read_ram. intros H Hi.
  destruct (Nat.ltb height (length (pixel_ranges _ c sp ap))); [injection H as _ _ <-; exact Hi|].
  destruct (read_ranges bs i2c (pixel_ranges _ c sp ap) buf w) as [[r0 buf0] w0] eqn:Hr.
  pose proof (read_ranges_keep _ _ _ _ _ _ _ Hr Hi) as H0.
  destruct r0 as [u| | |]; try (injection H as _ _ <-; exact H0).
  destruct (ram_data_from_i2c bs c i2c sp w0) as [r2 w2] eqn:Hd. injection H as _ _ <-.
  clear Hr. unfold ram_data_from_i2c, bindS in Hd.
  destruct (read_ram_value bs i2c (T_A_V_BE _ c) w0) as [r1 w1] eqn:R1; apply read_ram_value_keep in R1; [|exact H0].
  destruct r1; try (injection Hd as _ <-; exact R1).
  destruct (read_ram_value bs i2c (T_A_PTAT _ c) w1) as [r3 w3] eqn:R3; apply read_ram_value_keep in R3; [|exact R1].
  destruct r3; try (injection Hd as _ <-; exact R3).
  destruct (read_ram_value bs i2c (V_DD_PIXEL _ c) w3) as [r4 w4] eqn:R4; apply read_ram_value_keep in R4; [|exact R3].
  destruct r4; try (injection Hd as _ <-; exact R4).
  destruct (read_ram_value bs i2c (GAIN _ c) w4) as [r5 w5] eqn:R5; apply read_ram_value_keep in R5; [|exact R4].
  destruct r5; try (injection Hd as _ <-; exact R5).
  destruct (read_ram_value bs i2c (compensation_pixel_addr _ c sp) w5) as [r6 w6] eqn:R6; apply read_ram_value_keep in R6; [|exact R5].
  destruct r6; injection Hd as _ <-; exact R6.
Qed.
End Dev.
