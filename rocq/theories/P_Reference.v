(** * Properties C56, C59: what the calls mean on the reference camera. *)
From Verif Require Import Base FloatOps Register Bus Camera Cam640 Cam641 Ee640 Ee641 Calc CalcFacts Driver
  BitFacts SpecRegister RegisterFacts SpecCamera CameraFacts SpecDriver DriverFacts StepFacts Demo
  SpecImage SpecCall ImageFacts SeenFacts Mock SpecMock P_Bus P_Image P_Frames TraceFacts MockFacts ReportFacts P_Mock.

(** The words in the camera's registers. *)
Definition status_word (k : mock) : Z := word_of (mk_status k).
Definition control_word (k : mock) : Z := word_of (mk_control k).
(** The camera's memory as words. *)
Definition mock_memory (k : mock) (a : Z) : Z :=
  if a =? 0x8000 then status_word k
  else if a =? 0x800D then control_word k
  else if a <? 0x2400 then word_at (mk_ram k) (Z.to_nat (a - 0x0400))
  else word_at (mk_eeprom k) (Z.to_nat (a - 0x2400)).

Lemma word_of_div v : word_of [v / 256; v mod 256] = v.
Proof. apply be16_address. Qed.
Lemma two_bytes_word l : two_bytes l -> word (word_of l) /\ l = [word_of l / 256; word_of l mod 256].
Proof.
  intros (hi & lo & -> & Hh & Hl). unfold word_of, be16, word, byte in *. split; [lia|].
  f_equal; [apply (Z.div_unique _ 256 _ lo); lia|]. f_equal. apply (Z.mod_unique _ 256 hi); lia.
Qed.
Lemma same_memory k k' : same_camera k k' -> mock_memory k' = mock_memory k.
Proof.
  intros (S1 & S2 & S3 & S4 & S5 & S6 & S7). unfold mock_memory, status_word, control_word.
  rewrite S3, S4, S5, S6. reflexivity.
Qed.
Lemma mock_memory_word lay a k : mock_of lay a k -> forall x, word (mock_memory k x).
Proof.
  intros (_ & _ & _ & Hr & _ & He & Hs & Hc & _) x. unfold mock_memory, status_word, control_word.
  destruct (x =? 0x8000); [apply two_bytes_word, Hs|]. destruct (x =? 0x800D); [apply two_bytes_word, Hc|].
  destruct (x <? 0x2400); apply word_at_word; assumption.
Qed.

(** ** Reads deliver the memory *)
Lemma nth_firstn_lt {A} (x : A) n : forall i l, (i < n)%nat -> nth i (firstn n l) x = nth i l x.
Proof. induction n as [|n IH]; intros [|i] [|y l] H; cbn; try lia; try reflexivity. apply IH. lia. Qed.
Lemma nth_skipn_add {A} (x : A) n : forall i l, nth i (skipn n l) x = nth (n + i) l x.
Proof. induction n as [|n IH]; intros i [|y l]; cbn; try reflexivity; [destruct i; reflexivity|apply IH]. Qed.
Lemma slice_word data start n j : (2 * j + 1 < n)%nat -> (2 * start + n <= length data)%nat ->
  word_at (firstn n (skipn (2 * start) data)) j = word_at data (start + j).
Proof.
  intros Hj Hl. unfold word_at.
  assert (G : forall i, (i < n)%nat -> nth i (firstn n (skipn (2 * start) data)) 0 = nth (2 * start + i) data 0).
  { intros i Hi. rewrite nth_firstn_lt, nth_skipn_add by exact Hi. reflexivity. }
  rewrite !G by lia. f_equal; [f_equal|]; f_equal; lia.
Qed.

Lemma mock_get_mem lay a k n out : known lay -> mock_of lay (mk_i2c_address k) k -> (0 < n)%nat -> Nat.Even n ->
  legal_region (ram_last lay) a n -> mock_get k a n = inl out -> out = mem_bytes (mock_memory k) a n.
Proof.
  intros Hk Hm Hn Hev Hreg H.
  destruct (mock_get_ok lay a k n Hk Hm Hn Hev Hreg) as (o & Ho & Hlen & Hb & _ & Hst & Hct).
  rewrite H in Ho. injection Ho as <-. rewrite <- Hlen. apply mem_bytes_data; [exact Hb| |].
  { rewrite Hlen. apply Nat.even_spec. exact Hev. }
  rewrite Hlen. intros j Hj.
  destruct Hm as (_ & He & Hrl & Hrb & Hel & Heb & Hs & Hc & _). pose proof (known_last lay Hk) as Hlast.
  destruct (even_half n Hev) as (h & -> & Hh & Hmod). unfold legal_region in Hreg. rewrite Hh in Hreg.
  unfold ram_bytes in Hrl. unfold mock_get in H. rewrite Hh, Hmod in H. cbn [Nat.eqb negb] in H.
  unfold rom_range, ram_range, eeprom_range, register_range in H. rewrite He in H. clear Hh Hmod He.
  destruct Hreg as [[H1 H2]|[[H1 H2]|[H1 H2]]].
  - replace (65535 <? a + Z.of_nat h) with false in H by (symmetry; apply Z.ltb_ge; lia).
    rewrite (in_range_false 0 1023 a) in H by lia. rewrite (in_range_true 1024 (ram_last lay) a) in H by lia.
    rewrite (in_range_true 1024 (ram_last lay) (a + Z.of_nat h - 1)) in H by lia.
    unfold mslice in H. destruct (Nat.ltb _ _) eqn:E in H; [discriminate|]. injection H as <-.
    apply Nat.ltb_ge in E.
    replace (Z.to_nat ((a - 1024) * 2)) with (2 * Z.to_nat (a - 1024))%nat in * by lia.
    rewrite slice_word by lia. unfold mock_memory.
    replace (a + Z.of_nat j =? 0x8000) with false by (symmetry; apply Z.eqb_neq; lia).
    replace (a + Z.of_nat j =? 0x800D) with false by (symmetry; apply Z.eqb_neq; lia).
    replace (a + Z.of_nat j <? 0x2400) with true by (symmetry; apply Z.ltb_lt; lia). f_equal. lia.
  - replace (65535 <? a + Z.of_nat h) with false in H by (symmetry; apply Z.ltb_ge; lia).
    rewrite (in_range_false 0 1023 a) in H by lia. rewrite (in_range_false 1024 (ram_last lay) a) in H by lia.
    rewrite (in_range_true 0x2400 0x273F a) in H by lia. rewrite (in_range_true 0x2400 0x273F (a + Z.of_nat h - 1)) in H by lia.
    unfold mslice in H. destruct (Nat.ltb _ _) eqn:E in H; [discriminate|]. injection H as <-.
    apply Nat.ltb_ge in E.
    replace (Z.to_nat ((a - 0x2400) * 2)) with (2 * Z.to_nat (a - 0x2400))%nat in * by lia.
    rewrite slice_word by lia. unfold mock_memory.
    replace (a + Z.of_nat j =? 0x8000) with false by (symmetry; apply Z.eqb_neq; lia).
    replace (a + Z.of_nat j =? 0x800D) with false by (symmetry; apply Z.eqb_neq; lia).
    replace (a + Z.of_nat j <? 0x2400) with false by (symmetry; apply Z.ltb_ge; lia). f_equal. lia.
  - assert (j = 0%nat) as -> by lia. rewrite Z.add_0_r. unfold mock_memory, status_word, control_word.
    destruct H1 as [-> | ->].
    + rewrite (Hst eq_refl). destruct Hs as (hi & lo & -> & _ & _). change (0x800D =? 0x8000) with false; cbv iota; rewrite ?Z.eqb_refl; unfold word_at, word_of, be16; cbn [nth Nat.mul Nat.add]; lia.
    + rewrite (Hct eq_refl). destruct Hc as (hi & lo & -> & _ & _). change (0x800D =? 0x8000) with false; cbv iota; rewrite ?Z.eqb_refl; unfold word_at, word_of, be16; cbn [nth Nat.mul Nat.add]; lia.
Qed.

Section OnReference.
Context {FO : FloatOps} (p : profile).
Notation driver := (driver (FO := FO) (B := mock) (ER := mock_error) (EW := mock_error)).
Notation op := (op (FO := FO)).
Notation event := (event mock_error mock_error).
Implicit Types d : driver.

Lemma read_shows lay i2c k wb buf k1 out e : known lay -> mock_of lay i2c k ->
  legal (ER := mock_error) (EW := mock_error) i2c (ram_last lay) (EvRead i2c wb (clip buf out) e) ->
  dev_write_read mock_bus k i2c wb buf = (k1, out, e) ->
  shows (ER := mock_error) (EW := mock_error) (mock_memory k) (EvRead i2c wb (clip buf out) e).
Proof.
  intros Hk Hm Hl H. pose proof (mock_read lay i2c k wb buf k1 out e Hk Hm Hl H) as (-> & _).
  inversion Hl as [a data err Hne Hev Hreg E1|]. subst. clear Hl. rewrite clip_length in Hev, Hreg.
  assert (Hn : (0 < length buf)%nat).
  { rewrite <- (clip_length buf out). destruct (clip buf out); [congruence|cbn; lia]. }
  cbn [dev_write_read mock_bus] in H. unfold mock_write_read in H.
  assert (Ha : mk_i2c_address k = i2c) by apply Hm. rewrite Ha, Z.eqb_refl in H.
  cbn [negb length Nat.eqb] in H. replace (Nat.eqb (length buf) 0) with false in H by (symmetry; apply Nat.eqb_neq; lia).
  cbn [orb] in H. unfold extract_address in H. rewrite be16_address in H. rewrite <- Ha in Hm.
  destruct (mock_get_ok lay a k (length buf) Hk Hm Hn Hev Hreg) as (o & Hg & Hlo & Hbo & Hin & _).
  rewrite Hin in H.
  change (mock_get (add_operation k (OperationRead a (length buf))) a (length buf)) with (mock_get k a (length buf)) in H.
  pose proof (mock_get_mem lay a k (length buf) o Hk Hm Hn Hev Hreg Hg) as Hmem.
  rewrite Hg, Hlo, Nat.eqb_refl in H. injection H as <- <-.
  cbn [shows]. intros x Hx. rewrite clip_length, clip_id by assumption.
  assert (x = a) as ->; [|exact Hmem].
  injection Hx as Hx1 Hx2. rewrite (Z_div_mod_eq_full a 256), (Z_div_mod_eq_full x 256), Hx1, Hx2. reflexivity.
Qed.

Lemma reads_show lay i2c : forall (evs : list event) k k', known lay -> mock_of lay i2c k ->
  performed mock_bus k evs k' -> Forall (legal i2c (ram_last lay)) evs -> Forall is_read evs ->
  Forall (shows (mock_memory k)) evs.
Proof.
  intros evs k k' Hk Hm H. revert Hm. induction H as [k|k a wb buf k1 out e evs k2 Hd H IH|k a bytes k1 e evs k2 Hd H IH];
    intros Hm Hl Hr.
  - constructor.
  - inversion Hl as [|? ? Hl1 Hl2]; subst. inversion Hr as [|? ? _ Hr2]; subst.
    assert (a = i2c) as -> by (inversion Hl1; reflexivity).
    destruct (mock_read lay i2c k wb buf k1 out e Hk Hm Hl1 Hd) as (-> & Hs & _).
    constructor; [eapply read_shows; eassumption|]. rewrite <- (same_memory _ _ Hs). apply IH; auto.
    eapply same_camera_of; eassumption.
  - inversion Hr as [|? ? Hr1 _]. destruct Hr1.
Qed.

(** ** One register, in one call *)
Definition holds (reg : list Z) (k : mock) (v : Z) : Prop :=
  (reg = status_reg -> status_word k = v) /\ (reg = control_reg -> control_word k = v).
Definition keeps_other (reg : list Z) (k k' : mock) : Prop :=
  (reg = status_reg -> mk_control k' = mk_control k) /\ (reg = control_reg -> mk_status k' = mk_status k).

Lemma register_read lay i2c k reg v k' : known lay -> mock_of lay i2c k ->
  reg = status_reg \/ reg = control_reg -> performed mock_bus k [reads_word i2c reg v] k' ->
  holds reg k v /\ same_camera k k'.
Proof.
  intros Hk Hm Hr H. inversion H as [|? ? wb buf k1 out e ? ? Hd Hx E1 E2|]; subst. inversion Hx; subst.
  assert (Hl : legal (ER := mock_error) (EW := mock_error) i2c (ram_last lay) (EvRead i2c reg (clip buf out) None)).
  { assert (Ec : clip buf out = [v / 256; v mod 256]) by congruence. rewrite Ec.
    destruct Hr as [-> | ->]; [apply (legal_read i2c (ram_last lay) 0x8000)|apply (legal_read i2c (ram_last lay) 0x800D)];
      try discriminate; try (exists 1%nat; reflexivity); right; right; split; auto. }
  destruct (mock_read lay i2c k reg buf k' out None Hk Hm Hl Hd) as (_ & Hs & R1 & R2).
  assert (Ec : clip buf out = [v / 256; v mod 256]) by congruence.
  split; [|exact Hs]. unfold holds, status_word, control_word.
  split; intros Hq; [rewrite <- (R1 Hq)|rewrite <- (R2 Hq)]; rewrite Ec; apply word_of_div.
Qed.

Lemma register_rmw lay i2c k reg v v' e mid k' : known lay -> mock_of lay i2c k ->
  reg = status_reg \/ reg = control_reg -> word v -> word v' ->
  (forall i, 0 <= i < 16 -> ~ changeable reg i -> bit v' i = bit v i) ->
  Forall is_read mid -> Forall (legal i2c (ram_last lay)) mid ->
  performed mock_bus k (reads_word i2c reg v :: mid ++ [writes_word i2c reg v' e]) k' ->
  holds reg k v /\ holds reg k' v' /\ keeps_other reg k k' /\ e = None /\ mock_of lay i2c k'.
Proof.
  intros Hk Hm Hr Hv Hv' Hb Hrd Hl H.
  change (reads_word i2c reg v :: mid ++ [writes_word i2c reg v' e])
    with ([reads_word i2c reg v] ++ mid ++ [writes_word (ER := mock_error) i2c reg v' e]) in H.
  apply performed_split in H. destruct H as (k1 & H1 & H).
  apply performed_split in H. destruct H as (k2 & H2 & H3).
  destruct (register_read lay i2c k reg v k1 Hk Hm Hr H1) as [Hh Hs1].
  assert (Hm1 : mock_of lay i2c k1) by (eapply same_camera_of; eassumption).
  destruct (reads_performed lay i2c mid k1 k2 Hk Hm1 H2 Hl Hrd) as [Hs2 _].
  pose proof (same_camera_trans _ _ _ Hs1 Hs2) as Hs.
  assert (Hm2 : mock_of lay i2c k2) by (eapply same_camera_of; eassumption).
  inversion H3 as [| |? a bytes k3 e3 ? ? Hd Hx]; subst. inversion Hx; subst.
  pose proof Hs as (S1 & S2 & S3 & S4 & S5 & S6 & S7).
  destruct (mock_write_ok lay i2c k2 reg v v' k' e Hk Hm2 Hr Hv Hv') as [-> Hst]; try assumption.
  - intros Hq. rewrite S5. destruct Hh as [Hh _]. rewrite <- (Hh Hq). apply two_bytes_word. apply Hm.
  - intros Hq. rewrite S6. destruct Hh as [_ Hh]. rewrite <- (Hh Hq). apply two_bytes_word. apply Hm.
  - split; [exact Hh|]. pose proof Hst as (E1 & E2 & E3 & E4 & E5 & Es & Ec).
    assert (Hm' : mock_of lay i2c k') by (eapply stored_of; eassumption).
    split; [|split; [|split; [reflexivity|exact Hm']]].
    + unfold holds, status_word, control_word. split; intros Hq; [destruct (Es Hq) as [-> _]|destruct (Ec Hq) as [-> _]];
        apply word_of_div.
    + unfold keeps_other. split; intros Hq; [destruct (Es Hq) as [_ ->]|destruct (Ec Hq) as [_ ->]]; congruence.
Qed.

(** ** Setters *)
Lemma setter_on_mock {V} (call : driver -> res (error mock_error mock_error) unit * driver) o reg lo n (value : Z -> V) v lay d r d' dest :
  (forall d, step p mock_bus d o = lift U (call d)) -> is_setter call reg lo n value v ->
  reg = status_reg \/ reg = control_reg -> (forall i, lo <= i < lo + n -> changeable reg i) ->
  wf d lay -> mock_of lay (d_address d) (dev (d_bus d)) -> step p mock_bus d o = (r, d', dest) ->
  exists w w', r = Ok OutUnit /\ holds reg (dev (d_bus d)) w /\ holds reg (dev (d_bus d')) w' /\
    word w /\ only_changes lo n w w' /\ value w' = v /\
    keeps_other reg (dev (d_bus d)) (dev (d_bus d')).
Proof.
  intros Hstep Hset Hr Hc Hwf Hm H.
  destruct (step_on_mock p lay d o r d' dest Hwf Hm H) as (_ & _ & _ & _ & evs & Ht & Hs & Hp & _).
  assert (Hk : known lay) by (eapply documented_known; apply Hwf).
  rewrite Hstep in H. apply lift_inv in H. destruct H as (r0 & H & -> & _).
  destruct (Hset d r0 d' H) as (evs2 & Ht2 & Hrun). rewrite Ht in Ht2. apply app_inv_head in Ht2. subst evs2.
  destruct Hrun as [x e (data & -> & _)|w Hw Hv|w w' err Hw Hne Ho Hv].
  - inversion Hs as [|? ? Hx _]. discriminate Hx.
  - destruct (register_read lay _ _ reg w _ Hk Hm Hr Hp) as [Hh Hsame]. exists w, w.
    split; [reflexivity|]. split; [exact Hh|].
    destruct Hsame as (S1 & S2 & S3 & S4 & S5 & S6 & S7).
    split; [unfold holds, status_word, control_word in *; rewrite S5, S6; exact Hh|].
    split; [exact Hw|]. split; [split; [exact Hw|reflexivity]|]. split; [exact Hv|].
    split; intros _; assumption.
  - destruct (register_rmw lay (d_address d) (dev (d_bus d)) reg w w' err [] (dev (d_bus d')) Hk Hm Hr Hw) with (5 := Hp) as (H1 & H2 & H3 & -> & _).
    + apply Ho.
    + intros i Hi Hn. apply Ho; [exact Hi|]. intros Hl. apply Hn, Hc, Hl.
    + constructor.
    + constructor.
    + exists w, w'. repeat (split; [first [reflexivity|assumption]|]). assumption.
Qed.

(** The call [o] on the reference camera: it succeeds, changes the documented
    control register fields by [change] and nothing else of them. *)
Definition changes_control (o : op) (change : control_fields -> control_fields) : Prop :=
  forall lay d r d' dest,
  documented (cam _ (d_calibration d)) lay -> (lay_height lay <= d_height d)%nat ->
  mock_of lay (d_address d) (dev (d_bus d)) -> step p mock_bus d o = (r, d', dest) ->
  r = Ok OutUnit /\
  control_doc (control_word (dev (d_bus d'))) = change (control_doc (control_word (dev (d_bus d)))) /\
  (forall i, 13 <= i < 16 -> bit (control_word (dev (d_bus d'))) i = bit (control_word (dev (d_bus d))) i) /\
  status_word (dev (d_bus d')) = status_word (dev (d_bus d)).

Lemma changes_control_of {V} (call : driver -> res (error mock_error mock_error) unit * driver) o lo n (value : Z -> V) v change :
  (forall d, step p mock_bus d o = lift U (call d)) -> is_setter call control_reg lo n value v ->
  (forall i, lo <= i < lo + n -> changeable control_reg i) ->
  (forall w w', only_changes lo n w w' -> value w' = v -> control_doc w' = change (control_doc w)) ->
  changes_control o change.
Proof.
  intros Hstep Hset Hc Hdoc lay d r d' dest Hd Hh Hm H.
  destruct (setter_on_mock call o control_reg lo n value v lay d r d' dest Hstep Hset (or_intror eq_refl) Hc (conj Hd Hh) Hm H)
    as (w & w' & -> & [_ Hb] & [_ Ha] & Hw & Ho & Hv & [_ Hk]).
  rewrite (Hb eq_refl), (Ha eq_refl). split; [reflexivity|]. split; [apply Hdoc; assumption|].
  split; [|unfold status_word; rewrite (Hk eq_refl); reflexivity].
  intros i Hi. apply Ho; [lia|]. intros Hl. destruct (Hc i Hl) as [[E _]|[_ E]]; [discriminate E|lia].
Qed.

Theorem C56_control_setters :
  (forall v, changes_control (OpSetUseSubpages v) (fun f => upd_use_subpages f v)) /\
  (forall v, changes_control (OpSetDataHold v) (fun f => upd_data_hold f v)) /\
  (forall v, changes_control (OpSetSubpageRepeat v) (fun f => upd_subpage_repeat f v)) /\
  (forall v, changes_control (OpSetSubpage v) (fun f => upd_subpage f v)) /\
  (forall v, changes_control (OpSetFrameRate v) (fun f => upd_frame_rate f v)) /\
  (forall v, changes_control (OpSetResolution v) (fun f => upd_resolution f v)) /\
  (forall v, changes_control (OpSetAccessPattern v) (fun f => upd_access_pattern f v)).
Proof.
  destruct (C18_setters FO mock mock_error mock_error mock_bus) as (_ & S2 & S3 & S4 & S5 & S6 & S7 & S8).
  Ltac one_setter S H :=
    eapply changes_control_of; [intros d; reflexivity|apply S
      |intros i Hi; right; split; [reflexivity|lia]
      |cbv beta; intros w w' H Hv; unfold control_doc in *; cbn [c_use_subpages c_data_hold c_subpage_repeat c_subpage
         c_frame_rate c_resolution c_access_pattern] in Hv; rewrite Hv; other_fields H; reflexivity].
  refine (conj _ (conj _ (conj _ (conj _ (conj _ (conj _ _)))))); intros v;
  [ one_setter S2 H|one_setter S3 H|one_setter S4 H|one_setter S5 H|one_setter S6 H|one_setter S7 H|one_setter S8 H].
Qed.

(** ** The status register *)
Definition changes_status (o : op) (change : status_fields -> status_fields) : Prop :=
  forall lay d r d' dest,
  documented (cam _ (d_calibration d)) lay -> (lay_height lay <= d_height d)%nat ->
  mock_of lay (d_address d) (dev (d_bus d)) -> step p mock_bus d o = (r, d', dest) ->
  r = Ok OutUnit /\
  status_doc (status_word (dev (d_bus d'))) = change (status_doc (status_word (dev (d_bus d)))) /\
  (forall i, 0 <= i < 16 -> ~ status_documented_bit i ->
     bit (status_word (dev (d_bus d'))) i = bit (status_word (dev (d_bus d))) i) /\
  control_word (dev (d_bus d')) = control_word (dev (d_bus d)).

Theorem C56_overwrite_setter : forall v, changes_status (OpSetOverwriteEnabled v) (fun f => upd_overwrite f v).
Proof.
  intros v lay d r d' dest Hd Hh Hm H.
  destruct (C18_setters FO mock mock_error mock_error mock_bus) as (S1 & _).
  destruct (setter_on_mock (drv_set_overwrite_enabled mock_bus v) (OpSetOverwriteEnabled v) status_reg 4 1 _ v lay d r d' dest
    (fun d => eq_refl) (S1 v) (or_introl eq_refl)) as (w & w' & -> & [Hb _] & [Ha _] & Hw & Ho & Hv & [Hk _]);
    [intros i Hi; left; split; [reflexivity|lia]|split; assumption|exact Hm|exact H|].
  rewrite (Hb eq_refl), (Ha eq_refl). split; [reflexivity|]. split.
  - unfold status_doc in *. cbn [s_overwrite] in Hv. rewrite Hv. other_fields Ho. reflexivity.
  - split; [|unfold control_word; rewrite (Hk eq_refl); reflexivity].
    intros i Hi Hn. apply Ho; [exact Hi|]. intros Hl. apply Hn. unfold status_documented_bit. lia.
Qed.

Theorem C56_reset_data_available : changes_status OpResetDataAvailable (fun f => upd_new_data f false).
Proof.
  intros lay d r d' dest Hd Hh Hm H. assert (Hwf : wf d lay) by (split; assumption).
  destruct (step_on_mock p lay d _ r d' dest Hwf Hm H) as (_ & _ & _ & _ & evs & Ht & Hs & Hp & _).
  assert (Hk : known lay) by (eapply documented_known; apply Hwf).
  cbn [step] in H. apply lift_inv in H. destruct H as (r0 & H & -> & _).
  unfold reset_data_available, bindS in H. destruct (status_register_ mock_bus d) as [r1 d1] eqn:E.
  apply status_register_spec in E. destruct E as (w1 & -> & [(v & -> & Hv & Ht1)|(e & x & -> & (data & -> & _) & Ht1)]).
  - apply set_status_register_spec in H. destruct H as (w2 & e & -> & Ht2 & ->).
    cbn [d_bus d_address with_bus] in *. rewrite Ht1, <- app_assoc in Ht2.
    rewrite Ht in Ht2. apply app_inv_head in Ht2. subst evs. cbn [app] in Hp.
    destruct (reset_new_data_spec v Hv) as [Ho Hdoc].
    destruct (register_rmw lay (d_address d) (dev (d_bus d)) status_reg v (reset_new_data v) e [] (dev w2) Hk Hm (or_introl eq_refl) Hv)
      with (5 := Hp) as ([Hb _] & [Ha _] & [Hc _] & -> & _).
    + apply Ho.
    + intros i Hi Hn. apply Ho; [exact Hi|]. intros Hl. apply Hn. left. split; [reflexivity|lia].
    + constructor.
    + constructor.
    + rewrite (Hb eq_refl), (Ha eq_refl). split; [reflexivity|]. split; [rewrite Hdoc; reflexivity|].
      split; [|unfold control_word; rewrite (Hc eq_refl); reflexivity].
      intros i Hi Hn. apply Ho; [exact Hi|]. intros Hl. apply Hn. unfold status_documented_bit. lia.
  - injection H as <- <-. cbn [d_bus with_bus] in Ht. rewrite Ht1 in Ht. apply app_inv_head in Ht. subst evs.
    inversion Hs as [|? ? Hx _]. discriminate Hx.
Qed.

(** ** Getters *)
Definition tells (o : op) (answer : mock -> out (FO := FO)) : Prop :=
  forall lay d r d' dest,
  documented (cam _ (d_calibration d)) lay -> (lay_height lay <= d_height d)%nat ->
  mock_of lay (d_address d) (dev (d_bus d)) -> step p mock_bus d o = (r, d', dest) ->
  r = Ok (answer (dev (d_bus d))) /\
  status_word (dev (d_bus d')) = status_word (dev (d_bus d)) /\
  control_word (dev (d_bus d')) = control_word (dev (d_bus d)).

Lemma status_tells {A} (g : A -> out (FO := FO)) o (k : Z -> driver -> res (error mock_error mock_error) A * driver) (a : Z -> A) :
  (forall d, step p mock_bus d o = lift g (bindS (status_register_ mock_bus d) k)) ->
  (forall v d1, word v -> k v d1 = (Ok (a v), d1)) -> tells o (fun c => g (a (status_word c))).
Proof.
  intros Hstep Hk lay d r d' dest Hd Hh Hm H. assert (Hwf : wf d lay) by (split; assumption).
  destruct (step_on_mock p lay d _ r d' dest Hwf Hm H) as (_ & _ & _ & _ & evs & Ht & Hs & Hp & _).
  assert (Hkn : known lay) by (eapply documented_known; apply Hwf).
  rewrite Hstep in H. apply lift_inv in H. destruct H as (r0 & H & -> & _). unfold bindS in H.
  destruct (status_register_ mock_bus d) as [r1 d1] eqn:E.
  apply status_register_spec in E. destruct E as (w1 & -> & [(v & -> & Hv & Ht1)|(e & x & -> & (data & -> & _) & Ht1)]).
  - rewrite (Hk v _ Hv) in H. injection H as <- <-. cbn [d_bus with_bus] in *. rewrite Ht1 in Ht.
    apply app_inv_head in Ht. subst evs.
    destruct (register_read lay _ _ status_reg v _ Hkn Hm (or_introl eq_refl) Hp) as [[Hb _] (S1 & S2 & S3 & S4 & S5 & S6 & S7)].
    unfold status_word, control_word in *. rewrite S5, S6, (Hb eq_refl). repeat split.
  - injection H as <- <-. cbn [d_bus with_bus] in Ht. rewrite Ht1 in Ht. apply app_inv_head in Ht. subst evs.
    inversion Hs as [|? ? Hx _]. discriminate Hx.
Qed.
Lemma control_tells {A} (g : A -> out (FO := FO)) o (k : Z -> driver -> res (error mock_error mock_error) A * driver) (a : Z -> A) :
  (forall d, step p mock_bus d o = lift g (bindS (control_register_ mock_bus d) k)) ->
  (forall v d1, word v -> k v d1 = (Ok (a v), d1)) -> tells o (fun c => g (a (control_word c))).
Proof.
  intros Hstep Hk lay d r d' dest Hd Hh Hm H. assert (Hwf : wf d lay) by (split; assumption).
  destruct (step_on_mock p lay d _ r d' dest Hwf Hm H) as (_ & _ & _ & _ & evs & Ht & Hs & Hp & _).
  assert (Hkn : known lay) by (eapply documented_known; apply Hwf).
  rewrite Hstep in H. apply lift_inv in H. destruct H as (r0 & H & -> & _). unfold bindS in H.
  destruct (control_register_ mock_bus d) as [r1 d1] eqn:E.
  apply control_register_spec in E. destruct E as (w1 & [(v & -> & Hv & -> & Ht1)|(e & x & -> & (data & -> & _) & -> & Ht1)]).
  - rewrite (Hk v _ Hv) in H. injection H as <- <-. cbn [d_bus with_bus recached with_cache] in *. rewrite Ht1 in Ht.
    apply app_inv_head in Ht. subst evs.
    destruct (register_read lay _ _ control_reg v _ Hkn Hm (or_intror eq_refl) Hp) as [[_ Hb] (S1 & S2 & S3 & S4 & S5 & S6 & S7)].
    unfold status_word, control_word in *. rewrite S5, S6, (Hb eq_refl). repeat split.
  - injection H as <- <-. cbn [d_bus with_bus] in Ht. rewrite Ht1 in Ht. apply app_inv_head in Ht. subst evs.
    inversion Hs as [|? ? Hx _]. discriminate Hx.
Qed.

Theorem C56_getters :
  let S k := status_doc (status_word k) in
  let C k := control_doc (control_word k) in
  tells OpLastMeasuredSubpage (fun k => OutSubpage (s_subpage (S k))) /\
  tells OpDataAvailable (fun k => OutOptSubpage (if s_new_data (S k) then Some (s_subpage (S k)) else None)) /\
  tells OpOverwriteEnabled (fun k => OutBool (s_overwrite (S k))) /\
  tells OpSubpagesEnabled (fun k => OutBool (c_use_subpages (C k))) /\
  tells OpDataHoldEnabled (fun k => OutBool (c_data_hold (C k))) /\
  tells OpSubpageRepeat (fun k => OutBool (c_subpage_repeat (C k))) /\
  tells OpSelectedSubpage (fun k => OutSubpage (c_subpage (C k))) /\
  tells OpFrameRate (fun k => OutFrameRate (c_frame_rate (C k))) /\
  tells OpResolution (fun k => OutResolution (c_resolution (C k))) /\
  tells OpAccessPattern (fun k => OutAccessPattern (c_access_pattern (C k))).
Proof.
  intros S C. repeat match goal with |- _ /\ _ => split end.
  - eapply (status_tells OutSubpage _ _ (fun v => s_subpage (status_doc v))); [intros d; reflexivity|].
    intros v d1 Hv. unfold pure. rewrite last_updated_subpage_doc by exact Hv. reflexivity.
  - eapply (status_tells OutOptSubpage _ _ (fun v => if bit v 3 then Some (s_subpage (status_doc v)) else None)); [intros d; reflexivity|].
    intros v d1 Hv. cbv beta. rewrite (new_data_doc v Hv). destruct (bit v 3); [|reflexivity].
    unfold pure. rewrite last_updated_subpage_doc by exact Hv. reflexivity.
  - eapply (status_tells OutBool _ _ (fun v => s_overwrite (status_doc v))); [intros d; reflexivity|].
    intros v d1 Hv. cbv beta. f_equal. f_equal. unfold overwrite_enabled. apply flag_bit; [reflexivity|lia|exact Hv].
  - eapply (control_tells OutBool _ _ (fun v => c_use_subpages (control_doc v))); [intros d; reflexivity|].
    intros v d1 Hv. cbv beta. f_equal. f_equal. unfold use_subpages. apply flag_bit; [reflexivity|lia|exact Hv].
  - eapply (control_tells OutBool _ _ (fun v => c_data_hold (control_doc v))); [intros d; reflexivity|].
    intros v d1 Hv. cbv beta. f_equal. f_equal. unfold data_hold. apply flag_bit; [reflexivity|lia|exact Hv].
  - eapply (control_tells OutBool _ _ (fun v => c_subpage_repeat (control_doc v))); [intros d; reflexivity|].
    intros v d1 Hv. cbv beta. f_equal. f_equal. unfold subpage_repeat. apply flag_bit; [reflexivity|lia|exact Hv].
  - eapply (control_tells OutSubpage _ _ (fun v => c_subpage (control_doc v))); [intros d; reflexivity|].
    intros v d1 Hv. unfold pure. rewrite ctl_subpage_doc by exact Hv. reflexivity.
  - eapply (control_tells OutFrameRate _ _ (fun v => c_frame_rate (control_doc v))); [intros d; reflexivity|].
    intros v d1 Hv. unfold pure. rewrite ctl_frame_rate_doc by exact Hv. reflexivity.
  - eapply (control_tells OutResolution _ _ (fun v => c_resolution (control_doc v))); [intros d; reflexivity|].
    intros v d1 Hv. unfold pure. rewrite ctl_resolution_doc by exact Hv. reflexivity.
  - eapply (control_tells OutAccessPattern _ _ (fun v => c_access_pattern (control_doc v))); [intros d; reflexivity|].
    intros v d1 Hv. unfold pure. rewrite ctl_access_pattern_doc by exact Hv. reflexivity.
Qed.

(** ** [synchronize] needs a camera that measures: on one whose status register
    changes only by being written it polls forever. *)
Theorem C27_static_camera_polls_forever : forall lay d fuel r d',
  documented (cam _ (d_calibration d)) lay -> (lay_height lay <= d_height d)%nat ->
  mock_of lay (d_address d) (dev (d_bus d)) -> synchronize mock_bus fuel d = (r, d') -> r = Diverge.
Proof.
  intros lay d fuel r d' Hd Hh Hm H. assert (Hwf : wf d lay) by (split; assumption).
  assert (Hst : step p mock_bus d (OpSynchronize fuel) = lift U (synchronize mock_bus fuel d)) by reflexivity.
  rewrite H in Hst. cbn [lift] in Hst.
  destruct (step_on_mock p lay d _ _ d' _ Hwf Hm Hst) as (_ & _ & _ & _ & evs & Ht & Hs & Hp & Hl).
  assert (Hk : known lay) by (eapply documented_known; apply Hwf).
  apply C27_synchronize in H. destruct H as (w' & evs2 & -> & Ht2 & Hrun). cbn [d_bus with_bus] in *.
  rewrite Ht in Ht2. apply app_inv_head in Ht2. subst evs2.
  destruct Hrun as [x e (data & -> & _)|v v' e Hv Hreq|v v' polls r Hv Hreq Hpoll].
  - inversion Hs as [|? ? Hx _]. discriminate Hx.
  - inversion Hs as [|? ? _ Hs2]. inversion Hs2 as [|? ? Hx _]. discriminate Hx.
  - change (reads_word (d_address d) status_reg v :: writes_word (d_address d) status_reg v' None :: polls)
      with (([reads_word (d_address d) status_reg v] ++ [] ++ [writes_word (d_address d) status_reg v' None]) ++ polls) in Hp, Hs, Hl.
    apply performed_split in Hp. destruct Hp as (k1 & Hp1 & Hp2).
    destruct Hreq as (Hv' & Hb3 & Hb4 & Hb5 & Hoth).
    destruct (register_rmw lay (d_address d) (dev (d_bus d)) status_reg v v' None [] k1 Hk Hm (or_introl eq_refl) Hv Hv')
      with (4 := Hp1) as (_ & [Ha _] & _ & _ & Hm1).
    + intros i Hi Hn. apply Hoth; [exact Hi| | |]; intros ->; apply Hn; left; split; [reflexivity|lia|reflexivity|lia|reflexivity|lia].
    + constructor.
    + constructor.
    + apply Forall_app in Hl. destruct Hl as [_ Hl]. apply Forall_app in Hs. destruct Hs as [_ Hs].
      destruct Hpoll as [waits x Hw (v0 & Hv0 & Hb0 & ->) _|waits x e Hw (data & -> & _) _|waits Hw _]; [exfalso|exfalso|reflexivity].
      * apply performed_split in Hp2. destruct Hp2 as (k2 & Hq1 & Hq2).
        apply Forall_app in Hl. destruct Hl as [Hl _].
        assert (Hrd : Forall is_read waits).
        { eapply Forall_impl; [|exact Hw]. intros y (v1 & _ & _ & ->). exact I. }
        destruct (reads_performed lay _ _ _ _ Hk Hm1 Hq1 Hl Hrd) as [Hsame _].
        assert (Hm2 : mock_of lay (d_address d) k2) by (eapply same_camera_of; eassumption).
        destruct (register_read lay _ _ status_reg v0 _ Hk Hm2 (or_introl eq_refl) Hq2) as [[Hb _] _].
        destruct Hsame as (S1 & S2 & S3 & S4 & S5 & S6 & S7).
        assert (v0 = v'). { rewrite <- (Hb eq_refl), <- (Ha eq_refl). unfold status_word. rewrite S5. reflexivity. }
        subst v0. congruence.
      * apply Forall_app in Hs. destruct Hs as [_ Hs]. inversion Hs as [|? ? Hx _]. discriminate Hx.
Qed.

(** ** C59: images on the reference camera *)
(** The subpage a call produces. *)
Definition image_subpage (o : op) (k : mock) : subpage :=
  match o with
  | OpGenerateRawSubpage sp _ | OpGenerateSubpage sp _ => sp
  | _ => s_subpage (status_doc (status_word k))
  end.

Theorem C59_image_on_reference_camera : forall lay d o dest r d' dest',
  usable d lay -> mock_of lay (d_address d) (dev (d_bus d)) ->
  destination o = Some dest -> step p mock_bus d o = (r, d', dest') ->
  let k := dev (d_bus d) in
  r = Panic \/
  (r = Ok (OutBool false) /\ s_new_data (status_doc (status_word k)) = false /\
   o = OpGenerateIfReady dest /\ dest' = dest) \/
  ((r = Ok OutUnit \/ r = Ok (OutBool true)) /\
   d_ambient d' = Some (doc_t_a (d_calibration d) lay (mock_memory k)) /\
   image_stored (d_calibration d) lay (settings_of d) (image_subpage o k) (mock_memory k) (is_raw o) dest dest' /\
   status_doc (status_word (dev (d_bus d'))) =
     match o with OpGenerateIfReady _ => upd_new_data (status_doc (status_word k)) false | _ => status_doc (status_word k) end /\
   control_word (dev (d_bus d')) = control_word k).
Proof.
  intros lay d o dest r d' dest' Hu Hm Ho H k. pose proof (usable_wf _ _ Hu) as Hwf.
  destruct (step_on_mock p lay d o r d' dest' Hwf Hm H) as (_ & _ & _ & _ & evs & Ht & Hs & Hp & Hl).
  assert (Hk : known lay) by (eapply documented_known; apply Hwf). fold k in Hm, Hp.
  assert (Hcase : r = Panic \/
    (exists v, r = Ok (OutBool false) /\ word v /\ bit v 3 = false /\ o = OpGenerateIfReady dest /\ dest' = dest /\
       evs = [reads_word (d_address d) status_reg v]) \/
    ((r = Ok OutUnit \/ r = Ok (OutBool true)) /\ computed o r)).
  { destruct (image_outcome p mock_bus lay d o dest r d' dest' Hwf Ho H) as (evs2 & Ht2 & Hout).
    rewrite Ht in Ht2. apply app_inv_head in Ht2. subst evs2.
    assert (Hd : destination o <> None) by congruence.
    destruct Hout as [x e w _ (data & -> & _)|v w E Hv Hb|raw sp pre evs r buf w Ha Hf _|raw sp pre evs ram buf w w0 Ha Hcm _ Hr _
      |raw sp pre evs post ram buf w0 w w1 t dest' r Ha Hcm _ Hw Hr Hcalc Hack].
    - inversion Hs as [|? ? Hx _]. discriminate Hx.
    - right. left. exists v. auto 10.
    - destruct Hf as [(e & _ & pre0 & rd & post & good & bad & _ & -> & _ & data & -> & _)|(-> & _)]; [|left; reflexivity].
      apply Forall_app in Hs. destruct Hs as [_ Hs]. apply Forall_app in Hs. destruct Hs as [_ Hs].
      inversion Hs as [|? ? Hx _]. discriminate Hx.
    - left. reflexivity.
    - right. right. destruct Hack as [| | |v v' dst err Hv Hv' Hb Hbits]; try (split; [left; reflexivity|split; [exact Hd|exact I]]).
      apply Forall_app in Hs. destruct Hs as [_ Hs]. apply Forall_app in Hs. destruct Hs as [_ Hs].
      inversion Hs as [|? ? Hx _]. cbn [writes_word succeeded] in Hx. subst err.
      split; [right; reflexivity|split; [exact Hd|exact I]]. }
  destruct Hcase as [-> |[(v & -> & Hv & Hb & -> & -> & ->)|[Hr Hc]]]; [left; reflexivity|right; left|right; right].
  - destruct (register_read lay _ _ status_reg v _ Hk Hm (or_introl eq_refl) Hp) as [[Hh _] _].
    rewrite (Hh eq_refl). auto.
  - split; [exact Hr|].
    destruct (C55_image_values p mock_bus lay d o dest r d' dest' Hu Ho H Hc)
      as (raw & sp & pre & frame & post & Ht' & Ha & Hcm & Hack & Hv).
    rewrite Ht in Ht'. apply app_inv_head in Ht'. subst evs.
    rewrite app_assoc in Hp, Hl. apply performed_split in Hp. destruct Hp as (k1 & Hp1 & Hp2).
    apply Forall_app in Hl. destruct Hl as [Hl1 Hl2].
    assert (Hrd : Forall is_read (pre ++ frame)).
    { apply Forall_app. split; [eapply asks_reads; exact Ha|eapply reads_only; exact Hcm]. }
    pose proof (reads_show lay _ _ _ _ Hk Hm Hp1 Hl1 Hrd) as Hshow.
    destruct (reads_performed lay _ _ _ _ Hk Hm Hp1 Hl1 Hrd) as [Hsame _].
    assert (Hfr : Forall (shows (mock_memory k)) frame) by (apply Forall_app in Hshow; apply Hshow).
    destruct (Hv (mock_memory k) (mock_memory_word lay _ k Hm) Hfr) as [Hta Him].
    assert (Hsp : sp = image_subpage o k /\ raw = is_raw o).
    { destruct Ha as [s dst|s dst|v dst Hw|v dst Hw Hb3]; split; try reflexivity; cbn [image_subpage];
        cbn [app] in Hp1; change (reads_word (d_address d) status_reg v :: frame) with
          ([reads_word (d_address d) status_reg v] ++ frame) in Hp1;
        apply performed_split in Hp1; destruct Hp1 as (k2 & Hq & _);
        destruct (register_read lay _ _ status_reg v _ Hk Hm (or_introl eq_refl) Hq) as [[Hh _] _];
        rewrite (Hh eq_refl); reflexivity. }
    destruct Hsp as [<- <-]. split; [exact Hta|]. split; [exact Him|].
    destruct Hsame as (S1 & S2 & S3 & S4 & S5 & S6 & S7).
    assert (Hnone : post = [] -> status_word (dev (d_bus d')) = status_word k /\ control_word (dev (d_bus d')) = control_word k).
    { intros ->. assert (Eb : dev (d_bus d') = k1) by (inversion Hp2; congruence). unfold status_word, control_word. rewrite Eb, S5, S6. split; reflexivity. }
    inversion Hack as [s dst E1 E2 E3 E4|s dst E1 E2 E3 E4|v dst E1 E2 E3 E4|v v' dst err Hw Hw' Hb3 Hbits E1 E2 E3 E4]; subst;
      try (destruct (Hnone eq_refl) as [-> ->]; split; reflexivity).
    assert (Hall : performed mock_bus k (reads_word (d_address d) status_reg v :: frame ++ [writes_word (d_address d) status_reg v' err]) (dev (d_bus d'))).
    { change (reads_word (d_address d) status_reg v :: frame ++ [writes_word (d_address d) status_reg v' err])
        with (([reads_word (d_address d) status_reg v] ++ frame) ++ [writes_word (ER := mock_error) (d_address d) status_reg v' err]).
      eapply performed_app; eassumption. }
    assert (Hrd2 : Forall is_read frame) by (apply Forall_app in Hrd; apply Hrd).
    assert (Hl3 : Forall (legal (d_address d) (ram_last lay)) frame) by (apply Forall_app in Hl1; apply Hl1).
    destruct (register_rmw lay (d_address d) k status_reg v v' err frame (dev (d_bus d')) Hk Hm (or_introl eq_refl) Hw Hw') with (4 := Hall)
      as ([Hb1 _] & [Ha1 _] & [Hoth _] & _); try assumption.
    + intros i Hi Hn. apply Hbits; [exact Hi|]. intros ->. apply Hn. left. split; [reflexivity|lia].
    + rewrite (Hb1 eq_refl), (Ha1 eq_refl). split; [|unfold control_word; rewrite (Hoth eq_refl); reflexivity].
      assert (Honly : only_changes 3 1 v v').
      { split; [exact Hw'|]. intros i Hi Hn. apply Hbits; [exact Hi|lia]. }
      unfold status_doc, upd_new_data. cbn [s_subpage s_new_data s_overwrite s_start]. rewrite Hb3. other_fields Honly. reflexivity.
Qed.
End OnReference.
Print Assumptions C56_control_setters.
Print Assumptions C56_overwrite_setter.
Print Assumptions C56_reset_data_available.
Print Assumptions C56_getters.
Print Assumptions C27_static_camera_polls_forever.
Print Assumptions C59_image_on_reference_camera.
