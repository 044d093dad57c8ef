(** * HoldFacts: register bits and held RAM along a transcript. *)
From Verif Require Import Base FloatOps Register Bus Camera Cam640 Cam641 Calc CalcFacts Driver
  BitFacts SpecRegister RegisterFacts SpecCamera CameraFacts SpecDriver DriverFacts StepFacts
  SpecImage SpecCall ImageFacts Mock SpecMock P_Bus P_Image TraceFacts SpecHold.

(** ** Every call is a read-modify-write of its own bits *)
Section Within.
Context {FO : FloatOps} (p : profile) {B ER EW : Type} (bs : bus B ER EW).
Notation driver := (driver (FO := FO) (B := B) (ER := ER) (EW := EW)).
Notation event := (event ER EW).
Implicit Types d : driver.
Context (ch : list Z -> Z -> Prop).

Lemma within_reads i2c (evs : list event) : Forall is_read evs -> rmw_within ch i2c evs.
Proof.
  intros H before x after -> Hx. exfalso. apply Hx. apply Forall_app in H. destruct H as [_ H].
  inversion H. assumption.
Qed.
Lemma within_one i2c reg v v' err (mid post : list event) :
  Forall is_read mid -> Forall is_read post -> reg = status_reg \/ reg = control_reg -> word v -> word v' ->
  (forall i, 0 <= i < 16 -> ~ ch reg i -> bit v' i = bit v i) ->
  rmw_within ch i2c (reads_word i2c reg v :: mid ++ writes_word i2c reg v' err :: post).
Proof.
  intros Hm Hp Hr Hv Hv' Hb before x after E Hx.
  assert (H : before = reads_word i2c reg v :: mid /\ x = writes_word i2c reg v' err).
  { destruct before as [|y before]; cbn [app] in E.
    - injection E as <- _. exfalso. apply Hx. exact I.
    - injection E as <- E. clear Hb. revert before E. induction Hm as [|z mid Hz Hm IH]; intros before E; cbn [app] in E.
      + destruct before as [|y before]; cbn [app] in E; [injection E as <- _; auto|].
        injection E as _ E. subst post. apply Forall_app in Hp. destruct Hp as [_ Hp]. inversion Hp. contradiction.
      + destruct before as [|y before]; cbn [app] in E; [injection E as <- _; contradiction|].
        injection E as <- E. destruct (IH before E) as [E1 ->]. injection E1 as ->. auto. }
  destruct H as [-> ->]. exists [], v, mid, reg, v', err. auto 10.
Qed.
Lemma setter_within {V} i2c reg lo n (value : Z -> V) v evs r :
  reg = status_reg \/ reg = control_reg ->
  (forall i, lo <= i < lo + n -> ch reg i) ->
  setter_run (ER := ER) (EW := EW) i2c reg lo n value v evs r -> rmw_within ch i2c evs.
Proof.
  intros Hr Hc H. destruct H as [x e (data & -> & _)|w _ _|w w' err Hw _ Ho _].
  - apply within_reads. repeat constructor.
  - apply within_reads. repeat constructor.
  - apply (within_one i2c reg w w' err [] []); [constructor|constructor|exact Hr|exact Hw|apply Ho|].
    intros i Hi Hn. apply Ho; [exact Hi|]. intros Hl. apply Hn, Hc, Hl.
Qed.
Definition within_after d d' : Prop :=
  exists evs, trace (d_bus d') = trace (d_bus d) ++ evs /\ rmw_within ch (d_address d) evs.
Lemma within_nil d d' : trace (d_bus d') = trace (d_bus d) -> within_after d d'.
Proof. intros H. exists []. rewrite app_nil_r. split; [exact H|]. apply within_reads. constructor. Qed.
Lemma status_read_within {A} (k : Z -> driver -> m A) d r d' :
  (forall v d1 r1 d1', k v d1 = (r1, d1') -> d1' = d1) ->
  bindS (status_register_ bs d) k = (r, d') -> within_after d d'.
Proof.
  intros Hk H. unfold bindS in H. destruct (status_register_ bs d) as [r0 d0] eqn:E.
  apply status_reads_only in E. destruct E as (evs & Ht & Hr). exists evs. split; [|apply within_reads; exact Hr].
  destruct r0; try (injection H as _ <-; exact Ht). apply Hk in H. subst d'. exact Ht.
Qed.
Lemma control_read_within {A} (k : Z -> driver -> m A) d r d' :
  (forall v d1 r1 d1', k v d1 = (r1, d1') -> d1' = d1) ->
  bindS (control_register_ bs d) k = (r, d') -> within_after d d'.
Proof.
  intros Hk H. unfold bindS in H. destruct (control_register_ bs d) as [r0 d0] eqn:E.
  apply control_reads_only in E. destruct E as (evs & Ht & Hr). exists evs. split; [|apply within_reads; exact Hr].
  destruct r0; try (injection H as _ <-; exact Ht). apply Hk in H. subst d'. exact Ht.
Qed.
Lemma is_setter_within {V} (call : driver -> m unit) reg lo n (value : Z -> V) v d r d' :
  is_setter call reg lo n value v -> reg = status_reg \/ reg = control_reg ->
  (forall i, lo <= i < lo + n -> ch reg i) ->
  call d = (r, d') -> within_after d d'.
Proof.
  intros Hs Hr Hc H. destruct (Hs d r d' H) as (evs & Ht & Hrun). exists evs. split; [exact Ht|].
  eapply setter_within; eassumption.
Qed.
End Within.

Section Calls.
Context {FO : FloatOps} (p : profile) {B ER EW : Type} (bs : bus B ER EW).
Notation driver := (driver (FO := FO) (B := B) (ER := ER) (EW := EW)).
Notation event := (event ER EW).
Implicit Types d : driver.

Lemma step_within lay d o r d' dest : wf d lay -> step p bs d o = (r, d', dest) -> within_after (alters o) d d'.
Proof.
  intros Hwf H.
  destruct (destination o) as [dst|] eqn:Ho.
  { destruct (image_outcome p bs lay d o dst r d' dest Hwf Ho H) as (evs & Ht & Hout).
    exists evs. split; [exact Ht|].
    destruct Hout as [x e w _ Hx|v w _ _ _|raw sp pre evs r buf w Ha Hf _|raw sp pre evs ram buf w w0 Ha Hcm _ Hr _
      |raw sp pre evs post ram buf w0 w w1 t dest r Ha Hcm Hl Hw Hr Hcalc Hk].
    - destruct Hx as (data & -> & _). apply within_reads. repeat constructor.
    - apply within_reads. repeat constructor.
    - apply within_reads, Forall_app. split; [eapply asks_reads; exact Ha|eapply failed_reads; exact Hf].
    - apply within_reads, Forall_app. split; [eapply asks_reads; exact Ha|eapply reads_only; exact Hcm].
    - assert (Hpre : Forall is_read pre) by (eapply asks_reads; exact Ha).
      assert (Hfr : Forall is_read evs) by (eapply reads_only; exact Hcm).
      destruct Hk as [| | |v v' dst0 err Hv Hv' Hb Hbits];
        try (apply within_reads; rewrite app_nil_r; apply Forall_app; split; [exact Hpre|exact Hfr]).
      apply (within_one _ (d_address d) status_reg v v' err evs []); auto.
      intros i Hi Hn. apply Hbits; [exact Hi|]. intros ->. apply Hn. split; reflexivity. }
  destruct (C18_setters FO B ER EW bs) as (S1 & S2 & S3 & S4 & S5 & S6 & S7 & S8).
  destruct o; try discriminate; cbn [step] in H;
    try (apply lift_inv in H; destruct H as (r0 & H & _ & _));
    try (injection H as _ <- _; apply within_nil; reflexivity);
    try (eapply status_read_within; [|exact H]; intros v0 ? ? ? E; cbn in E;
         first [injection E as _ <-; reflexivity
               |destruct (new_data v0); injection E as _ <-; reflexivity]);
    try (eapply control_read_within; [|exact H]; intros v0 ? ? ? E; cbn in E; injection E as _ <-; reflexivity).
  - (* reset_data_available *)
    unfold reset_data_available, bindS in H. destruct (status_register_ bs d) as [r1 d1] eqn:E.
    apply status_register_spec in E. destruct E as (w' & -> & [(v & -> & Hv & Ht)|(e & x & -> & (data & -> & _) & Ht)]).
    + apply set_status_register_spec in H. destruct H as (w2 & e & -> & Ht2 & _).
      cbn [d_bus d_address with_bus] in *. rewrite Ht, <- app_assoc in Ht2.
      eexists. split; [exact Ht2|]. destruct (reset_new_data_spec v Hv) as [Hoc _].
      apply (within_one _ (d_address d) status_reg v _ e [] []); auto; [apply Hoc|].
      intros i Hi Hn. apply Hoc; [exact Hi|]. intros Hl. apply Hn. split; [reflexivity|]. lia.
    + injection H as _ <-. eexists. split; [exact Ht|]. apply within_reads. repeat constructor.
  - eapply (is_setter_within _ _ status_reg); [apply S1|auto| |exact H]. intros i Hi. split; [reflexivity|lia].
  - eapply (is_setter_within _ _ control_reg); [apply S2|auto| |exact H]. intros i Hi. split; [reflexivity|lia].
  - eapply (is_setter_within _ _ control_reg); [apply S3|auto| |exact H]. intros i Hi. split; [reflexivity|lia].
  - eapply (is_setter_within _ _ control_reg); [apply S4|auto| |exact H]. intros i Hi. split; [reflexivity|lia].
  - eapply (is_setter_within _ _ control_reg); [apply S5|auto| |exact H]. intros i Hi. split; [reflexivity|lia].
  - eapply (is_setter_within _ _ control_reg); [apply S6|auto| |exact H]. intros i Hi. split; [reflexivity|lia].
  - eapply (is_setter_within _ _ control_reg); [apply S7|auto| |exact H]. intros i Hi. split; [reflexivity|lia].
  - eapply (is_setter_within _ _ control_reg); [apply S8|auto| |exact H]. intros i Hi. split; [reflexivity|lia].
  - (* synchronize *)
    apply C27_synchronize in H. destruct H as (w' & evs & -> & Ht & Hs). exists evs. split; [exact Ht|].
    destruct Hs as [x e (data & -> & _)|v v' e Hv (Hv' & B3 & B4 & B5 & Hbits)|v v' polls r1 Hv (Hv' & B3 & B4 & B5 & Hbits) Hp].
    + apply within_reads. repeat constructor.
    + apply (within_one _ (d_address d) status_reg v v' (Some e) [] []); auto.
      intros i Hi Hn. apply Hbits; [exact Hi| | |]; intros ->; apply Hn; (split; [reflexivity|lia]).
    + apply (within_one _ (d_address d) status_reg v v' None [] polls); auto.
      * eapply poll_reads; exact Hp.
      * intros i Hi Hn. apply Hbits; [exact Hi| | |]; intros ->; apply Hn; (split; [reflexivity|lia]).
Qed.
End Calls.

(** ** The device along a transcript *)
Section Device.
Context {B ER EW : Type} (bs : bus B ER EW) (contents : B -> Z -> Z) (a : Z).
Hypothesis Hcam : honours_hold contents bs a.
Notation event := (event ER EW).
Notation hold_on := (hold_on contents).
Notation overwrite_on := (overwrite_on contents).
Notation holding := (holding contents).
Notation same_ram := (same_ram contents).

Definition own (x : event) : Prop := match x with EvRead i2c _ _ _ => i2c = a | EvWrite i2c _ _ => i2c = a end.

Lemma two_words v w : [v / 256; v mod 256] = [w / 256; w mod 256] -> v = w.
Proof.
  intros E. injection E as E1 E2. rewrite (Z_div_mod_eq_full v 256), (Z_div_mod_eq_full w 256). lia.
Qed.
Lemma small_4 : 0 <= 4 < 16. Proof. lia. Qed.
Lemma small_2 : 0 <= 2 < 16. Proof. lia. Qed.
Lemma word_back v : 256 * (v / 256) + v mod 256 = v.
Proof. symmetry. apply Z_div_mod_eq_full. Qed.

(** What a register read delivers is what the register holds. *)
Lemma read_value reg addr b v b1 rest b' :
  (reg = status_reg /\ addr = 0x8000 \/ reg = control_reg /\ addr = 0x800D) -> word v ->
  performed bs b (reads_word a reg v :: rest) b1 -> b' = b1 -> v = contents b addr.
Proof.
  intros Hr Hv H _. unfold reads_word in H. inversion H as [|? ? ? buf b2 out e ? ? Hd Hp E|]; subst.
  assert (Hl : length buf = 2%nat).
  { match goal with H : clip buf out = _ |- _ => apply (f_equal (@length Z)) in H; rewrite clip_length in H; exact H end. }
  assert (G : out = [contents b addr / 256; contents b addr mod 256]).
  { destruct Hr as [[-> ->]|[-> ->]]; [eapply (hh_status_read _ _ _ Hcam)|eapply (hh_control_read _ _ _ Hcam)]; eassumption. }
  match goal with H : clip buf out = _ |- _ => rewrite clip_full in H end.
  - apply two_words. congruence.
  - rewrite G. cbn [length]. symmetry. exact Hl.
  - rewrite G. pose proof (hh_word _ _ _ Hcam b addr) as Hw. unfold word in Hw.
    repeat constructor; unfold byte; Z.to_euclidean_division_equations; lia.
Qed.

(** A bit no write of the transcript changes keeps its value. *)
Lemma bits_kept ch : forall evs b b',
  performed bs b evs b' -> Forall own evs -> rmw_within ch a evs ->
  (~ ch control_reg 2 -> hold_on b' = hold_on b) /\ (~ ch status_reg 4 -> overwrite_on b' = overwrite_on b).
Proof.
  intros evs. induction evs as [evs IH] using (induction_ltof1 _ (@length event)). unfold ltof in IH.
  intros b b' Hp Ho Hw.
  destruct evs as [|x0 evs0] eqn:Ev; [inversion Hp; subst; auto|]. rewrite <- Ev in *.
  destruct (@exists_last _ evs) as (before & x & E); [rewrite Ev; discriminate|]. clear Ev x0 evs0. subst evs.
  apply performed_split in Hp. destruct Hp as (b1 & Hp1 & Hp2).
  apply Forall_app in Ho. destruct Ho as [Ho1 Ho2]. inversion Ho2 as [|? ? Hox _]; subst.
  assert (Hw1 : forall pre post, before = pre ++ post -> rmw_within ch a pre).
  { intros pre post -> be y af -> Hy. apply (Hw be y (af ++ post ++ [x])); [|exact Hy].
    rewrite <- !app_assoc. reflexivity. }
  assert (Hlen : forall pre post, before = pre ++ post -> (length pre < length (before ++ [x]))%nat).
  { intros pre post ->. rewrite !app_length. cbn. lia. }
  destruct (IH before (Hlen before [] (eq_sym (app_nil_r _))) b b1 Hp1 Ho1 (Hw1 before [] (eq_sym (app_nil_r _)))) as [I1 I2].
  destruct x as [i2c wb data e|i2c bytes e].
  - cbn [own] in Hox. subst i2c. inversion Hp2 as [|? ? ? buf b2 out ? ? ? Hd Hp' E|]; subst. inversion Hp'; subst.
    destruct (hh_reads _ _ _ Hcam _ _ _ _ _ _ Hd) as [H1 H2]. rewrite H1, H2. auto.
  - cbn [own] in Hox. subst i2c. inversion Hp2 as [| |? ? ? b2 ? ? ? Hd Hp']; subst. inversion Hp'; subst.
    destruct (Hw before (EvWrite a bytes e) [] eq_refl (fun x => x))
      as (early & v & between & reg & v' & err & Eb & Hbet & Ex & Hreg & Hv & Hv' & Hbits).
    unfold writes_word in Ex. injection Ex as -> ->.
    rewrite Eb in Hp1, Ho1. apply performed_split in Hp1. destruct Hp1 as (be & Hpe & Hpr).
    apply Forall_app in Ho1. destruct Ho1 as [Hoe _].
    destruct (IH early (Hlen early _ Eb) b be Hpe Hoe (Hw1 early _ Eb)) as [E1 E2].
    destruct Hreg as [-> | ->].
    + assert (V : v = contents be 0x8000) by (eapply (read_value status_reg); [left; auto|exact Hv|exact Hpr|reflexivity]).
      destruct (hh_status_write _ _ _ Hcam _ _ _ _ _ Hd) as [K1 K2]. rewrite K1. split; [exact I1|].
      intros Hn. destruct K2 as [K2|[_ K2]]; [|rewrite K2; auto].
      pose proof (Hbits 4 small_4 Hn) as Hb. rewrite K2. rewrite (word_back v'). rewrite Hb. rewrite V. exact (E2 Hn).
    + assert (V : v = contents be 0x800D) by (eapply (read_value control_reg); [right; auto|exact Hv|exact Hpr|reflexivity]).
      destruct (hh_control_write _ _ _ Hcam _ _ _ _ _ Hd) as [K1 K2]. rewrite K1. split; [|exact I2].
      intros Hn. destruct K2 as [K2|[_ K2]]; [|rewrite K2; auto].
      pose proof (Hbits 2 small_2 Hn) as Hb. rewrite K2. rewrite (word_back v'). rewrite Hb. rewrite V. exact (E1 Hn).
Qed.

Lemma same_ram_trans b1 b2 b3 : same_ram b1 b2 -> same_ram b2 b3 -> same_ram b1 b3.
Proof. intros H1 H2 x Hx. rewrite (H2 x Hx). apply H1, Hx. Qed.

(** Held RAM stays as it is, and every state on the way holds. *)
Lemma held_kept : forall evs b b', performed bs b evs b' -> Forall own evs ->
  (forall pre post bp, evs = pre ++ post -> performed bs b pre bp -> holding bp) ->
  same_ram b b'.
Proof.
  induction evs as [|x evs IH]; intros b b' Hp Ho Hh.
  - inversion Hp; subst. intros y _. reflexivity.
  - inversion Ho as [|? ? Hx Ho']; subst.
    assert (Hb : holding b) by (apply (Hh [] (x :: evs)); [reflexivity|constructor]).
    inversion Hp as [|? ? ? ? b1 ? ? ? ? Hd Hp'|? ? ? b1 ? ? ? Hd Hp']; subst; cbn [own] in Hx; subst.
    + eapply same_ram_trans; [eapply (hh_held_by_reads _ _ _ Hcam); eassumption|].
      eapply IH; [exact Hp'|exact Ho'|]. intros pre post bp -> Hpre.
      eapply (Hh (_ :: pre) post); [reflexivity|]. econstructor; eassumption.
    + assert (Hb1 : holding b1) by (eapply (Hh [_] evs); [reflexivity|econstructor; [eassumption|constructor]]).
      eapply same_ram_trans; [eapply (hh_held_by_writes _ _ _ Hcam); eassumption|].
      eapply IH; [exact Hp'|exact Ho'|]. intros pre post bp -> Hpre.
      eapply (Hh (_ :: pre) post); [reflexivity|]. econstructor; eassumption.
Qed.

Lemma within_prefix ch i2c (pre post : list event) : rmw_within ch i2c (pre ++ post) -> rmw_within ch i2c pre.
Proof.
  intros Hw be y af -> Hy. apply (Hw be y (af ++ post)); [|exact Hy]. rewrite <- !app_assoc. reflexivity.
Qed.

Lemma held_transcript ch evs b b' : performed bs b evs b' -> Forall own evs -> rmw_within ch a evs ->
  ~ ch control_reg 2 -> ~ ch status_reg 4 -> holding b -> holding b' /\ same_ram b b'.
Proof.
  intros Hp Ho Hw N1 N2 [H1 H2].
  assert (G : forall pre post bp, evs = pre ++ post -> performed bs b pre bp -> holding bp).
  { intros pre post bp -> Hpre. apply Forall_app in Ho. destruct Ho as [Ho _].
    destruct (bits_kept ch pre b bp Hpre Ho (within_prefix _ _ _ _ Hw)) as [K1 K2].
    split; [rewrite K1|rewrite K2]; assumption. }
  split; [apply (G evs []); [symmetry; apply app_nil_r|exact Hp]|].
  eapply held_kept; eassumption.
Qed.

(** Reads of held RAM deliver it. *)
Definition in_range (rd : Z * nat) : Prop :=
  0x0400 <= fst rd /\ fst rd + Z.of_nat (snd rd) / 2 <= 0x0800 /\ Nat.even (snd rd) = true.
Lemma shows_same b0 b : same_ram b0 b -> forall evs, Forall (shows (contents b)) evs ->
  forall reads, Forall2 (good_read (ER := ER) (EW := EW) a) reads evs -> Forall in_range reads -> Forall (shows (contents b0)) evs.
Proof.
  intros Hs evs IH. induction IH as [|x evs Hx IH IHx]; intros reads Hg Hr; [constructor|].
  inversion Hg as [|rd ? reads' ? Hgx Hg']; subst. inversion Hr as [|? ? [R1 [R2 R3]] Hr']; subst. constructor.
  - destruct Hgx as (data & -> & Hl). cbn [shows] in *. intros y Ey. pose proof (Hx y Ey) as Hx'.
    apply two_words in Ey. subst y. rewrite Hx' at 1. unfold mem_bytes. apply map_ext_in. intros j Hj. apply in_seq in Hj.
    unfold mem_byte. rewrite (Hs (fst rd + Z.of_nat (j / 2))); [reflexivity|]. unfold in_ram.
    rewrite <- Hl in R2. rewrite <- Hl in R3. apply Nat.even_spec in R3. destruct R3 as [q R3].
    rewrite Nat2Z.inj_div. change (Z.of_nat 2) with 2. clear -R1 R2 R3 Hj. Z.to_euclidean_division_equations. lia.
  - apply (IHx _ Hg' Hr').
Qed.
Lemma held_reads_show reads : forall evs b b', Forall2 (good_read a) reads evs -> performed bs b evs b' ->
  Forall in_range reads -> holding b -> Forall (shows (contents b)) evs.
Proof.
  induction reads as [|rd reads IH]; intros evs b b' Hg Hp Hr Hh; inversion Hg as [|? x ? evs' Hx Hg']; subst; [constructor|].
  inversion Hr as [|? ? [R1 [R2 R3]] Hr']; subst. destruct Hx as (data & -> & Hl).
  inversion Hp as [|? ? ? buf b1 out ? ? ? Hd Hp' E|]; subst.
  assert (Hlb : length buf = snd rd) by (rewrite <- Hl, clip_length; reflexivity).
  assert (Hh1 : holding b1).
  { destruct (hh_reads _ _ _ Hcam _ _ _ _ _ _ Hd) as [K1 K2]. destruct Hh as [H1 H2]. split; [rewrite K1|rewrite K2]; assumption. }
  pose proof (hh_held_by_reads _ _ _ Hcam _ _ _ _ _ _ Hh Hd) as Hs.
  rewrite <- Hlb in R2. pose proof (hh_held_answer _ _ _ Hcam _ _ _ _ _ Hh R1 R2 Hd) as Ho.
  constructor.
  - cbn [shows]. intros y Ey. apply two_words in Ey. subst y.
    assert (Hlo : length out = length buf) by (rewrite Ho; apply mem_bytes_length).
    rewrite clip_full; [|exact Hlo|rewrite Ho; apply mem_bytes_byte; apply (hh_word _ _ _ Hcam)].
    rewrite Hlo. exact Ho.
  - eapply shows_same; [exact Hs| |exact Hg'|exact Hr']. eapply IH; eassumption.
Qed.

(** ** The two setters of the mode *)
Lemma status_set_kept v : forall evs b b', performed bs b evs b' -> Forall own evs ->
  (forall x, In x evs -> is_read x \/ exists reg w err, x = writes_word a reg w err /\
     (reg = status_reg /\ bit w 4 = v \/ reg = control_reg)) ->
  overwrite_on b = v -> overwrite_on b' = v.
Proof.
  induction evs as [|x evs IH]; intros b b' Hp Ho Hw E; [inversion Hp; subst; reflexivity|].
  inversion Ho as [|? ? Hx Ho']; subst.
  assert (Hw' := fun y Hy => Hw y (or_intror Hy)). specialize (Hw x (or_introl eq_refl)).
  inversion Hp as [|? ? ? ? b1 ? ? ? ? Hd Hp'|? ? ? b1 ? ? ? Hd Hp']; subst; cbn [own] in Hx; subst.
  - eapply IH; [exact Hp'|exact Ho'|exact Hw'|]. destruct (hh_reads _ _ _ Hcam _ _ _ _ _ _ Hd) as [_ K]. exact K.
  - eapply IH; [exact Hp'|exact Ho'|exact Hw'|]. destruct Hw as [[]|(reg & w & err & Ex & Hreg)].
    unfold writes_word in Ex. injection Ex as -> ->. destruct Hreg as [[-> Hb]| ->].
    + destruct (hh_status_write _ _ _ Hcam _ _ _ _ _ Hd) as [_ [K|[_ K]]]; rewrite K; [|reflexivity].
      rewrite word_back. exact Hb.
    + destruct (hh_control_write _ _ _ Hcam _ _ _ _ _ Hd) as [K _]. exact K.
Qed.
Lemma control_set_kept v : forall evs b b', performed bs b evs b' -> Forall own evs ->
  (forall x, In x evs -> is_read x \/ exists reg w err, x = writes_word a reg w err /\
     (reg = control_reg /\ bit w 2 = v \/ reg = status_reg)) ->
  hold_on b = v -> hold_on b' = v.
Proof.
  induction evs as [|x evs IH]; intros b b' Hp Ho Hw E; [inversion Hp; subst; reflexivity|].
  inversion Ho as [|? ? Hx Ho']; subst.
  assert (Hw' := fun y Hy => Hw y (or_intror Hy)). specialize (Hw x (or_introl eq_refl)).
  inversion Hp as [|? ? ? ? b1 ? ? ? ? Hd Hp'|? ? ? b1 ? ? ? Hd Hp']; subst; cbn [own] in Hx; subst.
  - eapply IH; [exact Hp'|exact Ho'|exact Hw'|]. destruct (hh_reads _ _ _ Hcam _ _ _ _ _ _ Hd) as [K _]. exact K.
  - eapply IH; [exact Hp'|exact Ho'|exact Hw'|]. destruct Hw as [[]|(reg & w & err & Ex & Hreg)].
    unfold writes_word in Ex. injection Ex as -> ->. destruct Hreg as [[-> Hb]| ->].
    + destruct (hh_control_write _ _ _ Hcam _ _ _ _ _ Hd) as [_ [K|[_ K]]]; rewrite K; [|reflexivity].
      rewrite word_back. exact Hb.
    + destruct (hh_status_write _ _ _ Hcam _ _ _ _ _ Hd) as [K _]. exact K.
Qed.
Lemma setter_writes {V} reg lo n (value : Z -> V) v evs r :
  setter_run (ER := ER) (EW := EW) a reg lo n value v evs r ->
  forall x, In x evs -> is_read x \/ exists w err, x = writes_word a reg w err /\ value w = v.
Proof.
  intros H x Hx. destruct H as [y e (data & -> & _)|w _ _|w w' err _ _ _ E].
  - destruct Hx as [<-|[]]. left. exact I.
  - destruct Hx as [<-|[]]. left. exact I.
  - destruct Hx as [<-|[<-|[]]]; [left; exact I|]. right. eauto.
Qed.
Lemma setter_own {V} reg lo n (value : Z -> V) v evs r :
  setter_run (ER := ER) (EW := EW) a reg lo n value v evs r -> Forall own evs.
Proof. intros H. destruct H as [y e (data & -> & _)| |]; repeat constructor. Qed.
(** Success means the bit has the wanted value. *)
Lemma overwrite_setter_ok v evs r b b' :
  setter_run a status_reg 4 1 (fun w => s_overwrite (status_doc w)) v evs r -> performed bs b evs b' ->
  r = Ok tt -> overwrite_on b' = v.
Proof.
  intros H Hp Hr. destruct H as [y e _|w Hw E|w w' err Hw _ _ E]; [discriminate| |].
  - pose proof (read_value status_reg 0x8000 b w b' [] b' (or_introl (conj eq_refl eq_refl)) Hw Hp eq_refl) as V.
    unfold reads_word in Hp. inversion Hp as [|? ? ? ? b1 ? ? ? ? Hd Hp'|]; subst. inversion Hp'; subst.
    destruct (hh_reads _ _ _ Hcam _ _ _ _ _ _ Hd) as [_ K]. rewrite K. reflexivity.
  - destruct err; [discriminate|]. inversion Hp as [|? ? ? ? b1 ? ? ? ? Hd Hp'|]; subst.
    inversion Hp' as [| |? ? ? b2 ? ? ? Hd2 Hp2]; subst. inversion Hp2; subst.
    destruct (hh_status_write _ _ _ Hcam _ _ _ _ _ Hd2) as [_ [K|[K _]]]; [|congruence]. rewrite K, word_back. reflexivity.
Qed.
Lemma hold_setter_ok v evs r b b' :
  setter_run a control_reg 2 1 (fun w => c_data_hold (control_doc w)) v evs r -> performed bs b evs b' ->
  r = Ok tt -> hold_on b' = v.
Proof.
  intros H Hp Hr. destruct H as [y e _|w Hw E|w w' err Hw _ _ E]; [discriminate| |].
  - pose proof (read_value control_reg 0x800D b w b' [] b' (or_intror (conj eq_refl eq_refl)) Hw Hp eq_refl) as V.
    unfold reads_word in Hp. inversion Hp as [|? ? ? ? b1 ? ? ? ? Hd Hp'|]; subst. inversion Hp'; subst.
    destruct (hh_reads _ _ _ Hcam _ _ _ _ _ _ Hd) as [K _]. rewrite K. reflexivity.
  - destruct err; [discriminate|]. inversion Hp as [|? ? ? ? b1 ? ? ? ? Hd Hp'|]; subst.
    inversion Hp' as [| |? ? ? b2 ? ? ? Hd2 Hp2]; subst. inversion Hp2; subst.
    destruct (hh_control_write _ _ _ Hcam _ _ _ _ _ Hd2) as [_ [K|[K _]]]; [|congruence]. rewrite K, word_back. reflexivity.
Qed.
Lemma overwrite_setter_held evs r b b' :
  setter_run a status_reg 4 1 (fun w => s_overwrite (status_doc w)) false evs r -> performed bs b evs b' ->
  holding b -> holding b' /\ same_ram b b'.
Proof.
  intros H Hp [H1 H2].
  assert (G : forall pre post bp, evs = pre ++ post -> performed bs b pre bp -> holding bp).
  { intros pre post bp -> Hpre. pose proof (setter_own _ _ _ _ _ _ _ H) as Ho. apply Forall_app in Ho. destruct Ho as [Ho _].
    pose proof (setter_writes _ _ _ _ _ _ _ H) as Hw.
    split; [apply (control_set_kept true pre b)|apply (status_set_kept false pre b)]; try assumption.
    - intros x Hx. destruct (Hw x (in_or_app _ _ _ (or_introl Hx))) as [|(w & err & -> & Hb)]; [left; assumption|].
      right. exists status_reg, w, err. split; [reflexivity|right; reflexivity].
    - intros x Hx. destruct (Hw x (in_or_app _ _ _ (or_introl Hx))) as [|(w & err & -> & Hb)]; [left; assumption|].
      right. exists status_reg, w, err. split; [reflexivity|left; split; [reflexivity|exact Hb]]. }
  split; [apply (G evs []); [symmetry; apply app_nil_r|exact Hp]|].
  eapply held_kept; [exact Hp|eapply setter_own; exact H|exact G].
Qed.
Lemma hold_setter_held evs r b b' :
  setter_run a control_reg 2 1 (fun w => c_data_hold (control_doc w)) true evs r -> performed bs b evs b' ->
  holding b -> holding b' /\ same_ram b b'.
Proof.
  intros H Hp [H1 H2].
  assert (G : forall pre post bp, evs = pre ++ post -> performed bs b pre bp -> holding bp).
  { intros pre post bp -> Hpre. pose proof (setter_own _ _ _ _ _ _ _ H) as Ho. apply Forall_app in Ho. destruct Ho as [Ho _].
    pose proof (setter_writes _ _ _ _ _ _ _ H) as Hw.
    split; [apply (control_set_kept true pre b)|apply (status_set_kept false pre b)]; try assumption.
    - intros x Hx. destruct (Hw x (in_or_app _ _ _ (or_introl Hx))) as [|(w & err & -> & Hb)]; [left; assumption|].
      right. exists control_reg, w, err. split; [reflexivity|left; split; [reflexivity|exact Hb]].
    - intros x Hx. destruct (Hw x (in_or_app _ _ _ (or_introl Hx))) as [|(w & err & -> & Hb)]; [left; assumption|].
      right. exists control_reg, w, err. split; [reflexivity|right; reflexivity]. }
  split; [apply (G evs []); [symmetry; apply app_nil_r|exact Hp]|].
  eapply held_kept; [exact Hp|eapply setter_own; exact H|exact G].
Qed.
End Device.
