(** * MockFacts: the mock accepts every legal read and every read-modify-write. *)
From Verif Require Import Base FloatOps Register Bus Camera Cam640 Cam641 Calc CalcFacts Driver
  BitFacts SpecRegister RegisterFacts SpecCamera CameraFacts SpecDriver DriverFacts StepFacts
  SpecImage SpecCall ImageFacts Mock SpecMock P_Bus P_Image TraceFacts.

(** Equal up to the log of recent operations. *)
Definition same_camera (k k' : mock) : Prop :=
  mk_i2c_address k' = mk_i2c_address k /\ mk_ram_end k' = mk_ram_end k /\ mk_eeprom k' = mk_eeprom k /\
  mk_ram k' = mk_ram k /\ mk_status k' = mk_status k /\ mk_control k' = mk_control k /\
  mk_i2c_config k' = mk_i2c_config k.
Lemma same_camera_refl k : same_camera k k.
Proof. repeat split. Qed.
Lemma same_camera_trans a b c : same_camera a b -> same_camera b c -> same_camera a c.
Proof. unfold same_camera. intuition congruence. Qed.
Lemma same_camera_of lay a k k' : same_camera k k' -> mock_of lay a k -> mock_of lay a k'.
Proof. intros (E1 & E2 & E3 & E4 & E5 & E6 & E7) H. unfold mock_of. rewrite E1, E2, E3, E4, E5, E6, E7. exact H. Qed.

Definition known (lay : layout) : Prop := lay = layout640 \/ lay = layout641.
Lemma documented_known {FO} (c : camera FO) lay : documented c lay -> known lay.
Proof. intros []; [left|right]; reflexivity. Qed.
Lemma known_last lay : known lay -> ram_last lay = 0x073F \/ ram_last lay = 0x05BF.
Proof. intros [-> | ->]; [left|right]; reflexivity. Qed.

Lemma be16_address a : be16 (a / 256) (a mod 256) = a.
Proof. unfold be16. rewrite Z.mul_comm. symmetry. apply Z_div_mod_eq_full. Qed.

Lemma clip_id buf out : length out = length buf -> Forall byte out -> clip buf out = out.
Proof.
  intros Hl Hb. unfold clip. rewrite firstn_app, map_length, Hl, Nat.sub_diag. cbn [firstn].
  rewrite app_nil_r, firstn_all2 by (rewrite map_length; lia).
  rewrite <- (map_id out) at 2. apply map_ext_in. intros x Hx. rewrite Forall_forall in Hb.
  specialize (Hb x Hx). unfold byte in Hb. apply Z.mod_small. lia.
Qed.

Lemma mslice_ok data start n : (start + n <= length data)%nat -> Forall byte data ->
  exists out, mslice data start n = inl out /\ length out = n /\ Forall byte out.
Proof.
  intros H Hb. unfold mslice. replace (Nat.ltb (length data) (start + n)) with false by (symmetry; apply Nat.ltb_ge; lia).
  eexists. split; [reflexivity|]. split; [rewrite firstn_length, skipn_length; lia|].
  rewrite Forall_forall in *. intros x Hx. apply Hb. rewrite <- (firstn_skipn start data). apply in_app_iff. right.
  rewrite <- (firstn_skipn n (skipn start data)). apply in_app_iff. auto.
Qed.

Lemma two_bytes_facts l : two_bytes l -> length l = 2%nat /\ Forall byte l.
Proof. intros (hi & lo & -> & H1 & H2). split; [reflexivity|]. repeat constructor; apply H1 || apply H2. Qed.

Lemma in_range_true lo hi a : lo <= a <= hi -> in_range lo hi a = true.
Proof. intros [H1 H2]. unfold in_range. apply andb_true_intro. split; apply Z.leb_le; assumption. Qed.
Lemma in_range_false lo hi a : a < lo \/ hi < a -> in_range lo hi a = false.
Proof. intros H. unfold in_range. apply andb_false_iff. destruct H; [left|right]; apply Z.leb_gt; assumption. Qed.

Lemma even_half n : Nat.Even n -> exists h, n = (2 * h)%nat /\ Z.of_nat n / 2 = Z.of_nat h /\ Nat.modulo n 2 = 0%nat.
Proof.
  intros [h ->]. exists h. split; [reflexivity|]. split.
  - rewrite Nat2Z.inj_mul, Z.mul_comm. apply Z.div_mul. lia.
  - rewrite Nat.mul_comm. apply Nat.mod_mul. lia.
Qed.

(** ** Reads *)
Lemma mock_get_ok lay a k n : known lay -> mock_of lay (mk_i2c_address k) k -> (0 < n)%nat -> Nat.Even n ->
  legal_region (ram_last lay) a n ->
  exists out, mock_get k a n = inl out /\ length out = n /\ Forall byte out /\
    (rom_range a || ram_range k a || eeprom_range a || register_range a = true) /\
    (a = 0x8000 -> out = mk_status k) /\ (a = 0x800D -> out = mk_control k).
Proof.
  intros Hk (_ & He & Hrl & Hrb & Hel & Heb & Hs & Hc & _) Hn Hev Hreg.
  destruct (even_half n Hev) as (h & -> & Hh & Hm). unfold legal_region in Hreg. rewrite Hh in Hreg.
  pose proof (known_last lay Hk) as Hlast. unfold mock_get. rewrite Hh, Hm. cbn [Nat.eqb negb].
  unfold rom_range, ram_range, eeprom_range, register_range. rewrite He.
  unfold ram_bytes in Hrl. clear Hh Hm He.
  destruct Hreg as [[H1 H2]|[[H1 H2]|[H1 H2]]].
  - replace (65535 <? a + Z.of_nat h) with false by (symmetry; apply Z.ltb_ge; lia).
    rewrite (in_range_false 0 1023 a) by lia. rewrite (in_range_true 1024 (ram_last lay) a) by lia.
    rewrite (in_range_true 1024 (ram_last lay) (a + Z.of_nat h - 1)) by lia.
    destruct (mslice_ok (mk_ram k) (Z.to_nat ((a - 0x400) * 2)) (2 * h)) as (out & E & E1 & E2); [lia|exact Hrb|].
    exists out. split; [exact E|]. split; [exact E1|]. split; [exact E2|]. split; [reflexivity|]. split; lia.
  - replace (65535 <? a + Z.of_nat h) with false by (symmetry; apply Z.ltb_ge; lia).
    rewrite (in_range_false 0 1023 a) by lia. rewrite (in_range_false 1024 (ram_last lay) a) by lia.
    rewrite (in_range_true 0x2400 0x273F a) by lia. rewrite (in_range_true 0x2400 0x273F (a + Z.of_nat h - 1)) by lia.
    destruct (mslice_ok (mk_eeprom k) (Z.to_nat ((a - 0x2400) * 2)) (2 * h)) as (out & E & E1 & E2); [lia|exact Heb|].
    exists out. split; [exact E|]. split; [exact E1|]. split; [exact E2|]. split; [reflexivity|]. split; lia.
  - rewrite H2.
    replace (65535 <? a + Z.of_nat h) with false by (symmetry; apply Z.ltb_ge; lia).
    rewrite (in_range_false 0 1023 a) by lia. rewrite (in_range_false 1024 (ram_last lay) a) by lia.
    rewrite (in_range_false 0x2400 0x273F a) by lia. rewrite (in_range_true 0x8000 0x8016 a) by lia.
    cbn [Nat.eqb negb].
    destruct (two_bytes_facts _ Hs) as [S1 S2]. destruct (two_bytes_facts _ Hc) as [C1 C2].
    destruct H1 as [-> | ->].
    + exists (mk_status k). repeat split; try assumption; try reflexivity. intros H. discriminate.
    + exists (mk_control k). repeat split; try assumption; try reflexivity. intros H. discriminate.
Qed.

Lemma mock_read lay i2c k wb buf k1 out e : known lay -> mock_of lay i2c k ->
  legal (ER := mock_error) (EW := mock_error) i2c (ram_last lay) (EvRead i2c wb (clip buf out) e) ->
  dev_write_read mock_bus k i2c wb buf = (k1, out, e) ->
  e = None /\ same_camera k k1 /\
  (wb = status_reg -> clip buf out = mk_status k) /\ (wb = control_reg -> clip buf out = mk_control k).
Proof.
  intros Hk Hm Hl H. inversion Hl as [a data err Hne Hev Hreg E1|]. subst. clear Hl.
  rewrite clip_length in Hev, Hreg.
  assert (Hn : (0 < length buf)%nat).
  { rewrite <- (clip_length buf out). destruct (clip buf out); [congruence|cbn; lia]. }
  cbn [dev_write_read mock_bus] in H. unfold mock_write_read in H.
  assert (Ha : mk_i2c_address k = i2c) by apply Hm. rewrite Ha, Z.eqb_refl in H.
  cbn [negb length Nat.eqb] in H. replace (Nat.eqb (length buf) 0) with false in H by (symmetry; apply Nat.eqb_neq; lia).
  cbn [orb] in H. unfold extract_address in H. rewrite be16_address in H.
  rewrite <- Ha in Hm.
  destruct (mock_get_ok lay a k (length buf) Hk Hm Hn Hev Hreg) as (o & Hg & Hlo & Hbo & Hin & G1 & G2).
  rewrite Hin in H.
  change (mock_get (add_operation k (OperationRead a (length buf))) a (length buf)) with (mock_get k a (length buf)) in H.
  rewrite Hg, Hlo, Nat.eqb_refl in H. injection H as <- <- <-.
  split; [reflexivity|]. split; [repeat split|]. rewrite clip_id by assumption.
  assert (Haddr : forall x, [a / 256; a mod 256] = [x / 256; x mod 256] -> a = x).
  { intros x Hx. injection Hx as Hx1 Hx2. rewrite (Z_div_mod_eq_full a 256), (Z_div_mod_eq_full x 256), Hx1, Hx2. reflexivity. }
  split; intros Hx; [apply G1, (Haddr 0x8000), Hx|apply G2, (Haddr 0x800D), Hx].
Qed.

(** ** Writes *)
Lemma mask_agree v v' (mask : Z) n : word v -> word v' -> 0 <= n <= 16 -> mask = 2 ^ n - 1 ->
  (forall i, n <= i < 16 -> bit v' i = bit v i) -> check_new_against_mask v mask v' = true.
Proof.
  intros Hv Hv' Hn -> Hb. unfold check_new_against_mask. apply Z.eqb_eq. apply Z.bits_inj'. intros i Hi.
  rewrite !Z.land_spec.
  destruct (Z.ltb_spec i 16) as [H16|H16].
  - destruct (Z.ltb_spec i n) as [Hin|Hin].
    + assert (Hz : Z.testbit (not16 (2 ^ n - 1)) i = false).
      { unfold not16. rewrite <- Z.ones_equiv || idtac. rewrite Z.lxor_spec.
        replace (2 ^ n - 1) with (Z.ones n) by (rewrite Z.ones_equiv; lia).
        change 65535 with (Z.ones 16). rewrite !Z.ones_spec_low by lia. reflexivity. }
      rewrite Hz, !andb_false_r. reflexivity.
    + rewrite <- !bit_testbit by lia. rewrite Hb by lia. reflexivity.
  - unfold word in *. rewrite (Z.bits_above_log2 v'), (Z.bits_above_log2 v); try reflexivity; try lia.
    + destruct (Z.eq_dec v 0) as [->|]; [cbn; lia|]. apply Z.log2_lt_pow2; [lia|].
      apply Z.lt_le_trans with (2 ^ 16); [cbn; lia|apply Z.pow_le_mono_r; lia].
    + destruct (Z.eq_dec v' 0) as [->|]; [cbn; lia|]. apply Z.log2_lt_pow2; [lia|].
      apply Z.lt_le_trans with (2 ^ 16); [cbn; lia|apply Z.pow_le_mono_r; lia].
Qed.

Lemma word_two_bytes v : word v -> two_bytes [v / 256; v mod 256].
Proof.
  intros H. unfold word in H. exists (v / 256), (v mod 256). split; [reflexivity|]. unfold byte.
  split; [split; [apply Z.div_pos; lia|apply Z.div_lt_upper_bound; lia]|apply Z.mod_pos_bound; lia].
Qed.

(** A write of [v'] over [v] in the status or control register. *)
Definition stored (reg : list Z) (v : Z) (k k' : mock) : Prop :=
  mk_i2c_address k' = mk_i2c_address k /\ mk_ram_end k' = mk_ram_end k /\ mk_eeprom k' = mk_eeprom k /\
  mk_ram k' = mk_ram k /\ mk_i2c_config k' = mk_i2c_config k /\
  (reg = status_reg -> mk_status k' = [v / 256; v mod 256] /\ mk_control k' = mk_control k) /\
  (reg = control_reg -> mk_control k' = [v / 256; v mod 256] /\ mk_status k' = mk_status k).
Lemma mock_write_ok lay i2c k reg v v' k1 e : known lay -> mock_of lay i2c k ->
  reg = status_reg \/ reg = control_reg -> word v -> word v' ->
  (reg = status_reg -> mk_status k = [v / 256; v mod 256]) ->
  (reg = control_reg -> mk_control k = [v / 256; v mod 256]) ->
  (forall i, 0 <= i < 16 -> ~ changeable reg i -> bit v' i = bit v i) ->
  dev_write mock_bus k i2c (reg ++ [v' / 256; v' mod 256]) = (k1, e) ->
  e = None /\ stored reg v' k k1.
Proof.
  intros Hk Hm Hr Hv Hv' Hs Hc Hb H. cbn [dev_write mock_bus] in H. unfold mock_write in H.
  assert (Ha : mk_i2c_address k = i2c) by apply Hm. rewrite Ha, Z.eqb_refl in H. cbn [negb] in H.
  assert (He : mk_ram_end k = ram_last lay) by apply Hm. pose proof (known_last lay Hk) as Hlast.
  destruct Hr as [-> | ->].
  - cbn [extract_address status_reg app] in H. change (be16 128 0) with 0x8000 in H.
    replace (rom_range 32768 || ram_range k 32768 || eeprom_range 32768 || register_range 32768) with true in H
      by (rewrite !orb_true_r; reflexivity).
    cbn [skipn] in H. unfold mock_set in H. cbn [length] in H.
    change (65535 <? 32768 + Z.of_nat 2 / 2) with false in H.
    replace (rom_range 32768 || ram_range k 32768) with false in H
      by (unfold ram_range; rewrite He, in_range_false by lia; reflexivity).
    change (eeprom_range 32768) with false in H. change (register_range 32768) with true in H.
    change (negb (Nat.eqb 2 2)) with false in H. change (32768 =? 0x8000) with true in H. cbv iota in H.
    rewrite (Hs eq_refl) in H. cbn [word_of] in H. rewrite !be16_address in H.
    rewrite (mask_agree v v' 63 6) in H; try assumption; try lia; try reflexivity.
    2:{ intros i Hi. apply Hb; [lia|]. intros [[_ Hx]|[Hx _]]; [lia|discriminate]. }
    injection H as <- <-. split; [reflexivity|]. repeat split; discriminate.
  - cbn [extract_address control_reg app] in H. change (be16 128 13) with 0x800D in H.
    replace (rom_range 32781 || ram_range k 32781 || eeprom_range 32781 || register_range 32781) with true in H
      by (rewrite !orb_true_r; reflexivity).
    cbn [skipn] in H. unfold mock_set in H. cbn [length] in H.
    change (65535 <? 32781 + Z.of_nat 2 / 2) with false in H.
    replace (rom_range 32781 || ram_range k 32781) with false in H
      by (unfold ram_range; rewrite He, in_range_false by lia; reflexivity).
    change (eeprom_range 32781) with false in H. change (register_range 32781) with true in H.
    change (negb (Nat.eqb 2 2)) with false in H. change (32781 =? 0x8000) with false in H.
    change (32781 =? 0x800D) with true in H. cbv iota in H.
    rewrite (Hc eq_refl) in H. cbn [word_of] in H. rewrite !be16_address in H.
    rewrite (mask_agree v v' 0x1FFF 13) in H; try assumption; try lia; try reflexivity.
    2:{ intros i Hi. apply Hb; [lia|]. intros [[Hx _]|[_ Hx]]; [discriminate|lia]. }
    injection H as <- <-. split; [reflexivity|]. repeat split; discriminate.
Qed.

Lemma stored_of lay a reg v k k' : reg = status_reg \/ reg = control_reg -> word v ->
  stored reg v k k' -> mock_of lay a k -> mock_of lay a k'.
Proof.
  intros Hr Hv (E1 & E2 & E3 & E4 & E5 & Es & Ec) (M1 & M2 & M3 & M4 & M5 & M6 & M7 & M8 & M9).
  unfold mock_of. rewrite E1, E2, E3, E4, E5.
  destruct Hr as [-> | ->]; [destruct (Es eq_refl) as [-> ->]|destruct (Ec eq_refl) as [-> ->]];
    repeat (split; [assumption|]); repeat split; try assumption; apply word_two_bytes, Hv.
Qed.

(** ** A whole call *)
(** What a call may do to the mock. *)
Definition kept_memory (k k' : mock) : Prop :=
  mk_eeprom k' = mk_eeprom k /\ mk_ram k' = mk_ram k /\ mk_i2c_config k' = mk_i2c_config k /\
  mk_i2c_address k' = mk_i2c_address k.
Lemma kept_trans a b c : kept_memory a b -> kept_memory b c -> kept_memory a c.
Proof. unfold kept_memory. intuition congruence. Qed.

Lemma reads_performed lay i2c : forall (evs : list (event mock_error mock_error)) k k', known lay -> mock_of lay i2c k ->
  performed mock_bus k evs k' -> Forall (legal i2c (ram_last lay)) evs -> Forall is_read evs ->
  same_camera k k' /\ Forall succeeded evs.
Proof.
  intros evs k k' Hk Hm H. revert Hm. induction H as [k|k a wb buf k1 out e evs k2 Hd H IH|k a bytes k1 e evs k2 Hd H IH];
    intros Hm Hl Hr.
  - split; [apply same_camera_refl|constructor].
  - inversion Hl as [|? ? Hl1 Hl2]; subst. inversion Hr as [|? ? _ Hr2]; subst.
    assert (a = i2c) as -> by (inversion Hl1; reflexivity).
    destruct (mock_read lay i2c k wb buf k1 out e Hk Hm Hl1 Hd) as (-> & Hs & _).
    destruct (IH (same_camera_of _ _ _ _ Hs Hm) Hl2 Hr2) as [Hs2 Hf].
    split; [eapply same_camera_trans; eassumption|]. constructor; [reflexivity|exact Hf].
  - inversion Hr as [|? ? Hr1 _]. destruct Hr1.
Qed.

Lemma rmw_prefix {ER EW} i2c (evs : list (event ER EW)) x : read_modify_write i2c (evs ++ [x]) -> read_modify_write i2c evs.
Proof.
  intros H before y after E Hy. apply (H before y (after ++ [x])); [|exact Hy].
  rewrite E, <- app_assoc. reflexivity.
Qed.

Lemma mock_accepts lay i2c k : known lay -> mock_of lay i2c k ->
  forall (evs : list (event mock_error mock_error)) k',
  performed mock_bus k evs k' -> Forall (legal i2c (ram_last lay)) evs -> read_modify_write i2c evs ->
  mock_of lay i2c k' /\ kept_memory k k' /\ Forall succeeded evs.
Proof.
  intros Hk Hm evs. induction evs as [evs0 IH] using (induction_ltof1 _ (@length _)). unfold ltof in IH.
  intros k' H Hl Hr. destruct evs0 as [|x0 evs0].
  { inversion H; subst. split; [exact Hm|]. split; [repeat split|constructor]. }
  destruct (exists_last (l := x0 :: evs0) ltac:(discriminate)) as (evs & x & E0). rewrite E0 in *. clear E0 x0 evs0.
  apply performed_split in H. destruct H as (k1 & H1 & H2).
  apply Forall_app in Hl. destruct Hl as [Hl1 Hl2]. inversion Hl2 as [|? ? Hx _]; subst.
  assert (Hlen : (length evs < length (evs ++ [x]))%nat) by (rewrite app_length; cbn; lia).
  destruct (IH evs Hlen k1 H1 Hl1 (rmw_prefix _ _ _ Hr)) as (Hm1 & Hkm & Hf).
  inversion H2 as [|? a wb buf k2 out e ? ? Hd H3|? a bytes k2 e ? ? Hd H3]; subst; inversion H3; subst.
  - assert (a = i2c) as -> by (inversion Hx; reflexivity).
    destruct (mock_read lay i2c k1 wb buf k' out e Hk Hm1 Hx Hd) as (-> & Hs & _).
    split; [eapply same_camera_of; eassumption|]. split.
    + eapply kept_trans; [exact Hkm|]. destruct Hs as (S1 & S2 & S3 & S4 & S5 & S6 & S7). repeat split; assumption.
    + apply Forall_app. split; [exact Hf|]. repeat constructor.
  - destruct (Hr evs (EvWrite a bytes e) [] eq_refl (fun H => H))
      as (early & v & between & reg & v' & err & -> & Hb & E & Hreg & Hv & Hv' & Hbits).
    unfold writes_word in E. injection E as -> -> <-.
    apply performed_split in H1. destruct H1 as (k2 & P1 & P2).
    inversion P2 as [|? ? wb buf k3 out e2 ? ? Hd2 P3|]; subst.
    apply Forall_app in Hl1. destruct Hl1 as [Le Lr]. inversion Lr as [|? ? Lread Lbetween]; subst.
    assert (Hm2 : mock_of lay i2c k2).
    { apply (IH early); [|exact P1|exact Le|].
      - rewrite !app_length. cbn [length]. lia.
      - intros before y after E Hy.
        apply (Hr before y (after ++ reads_word i2c reg v :: between ++ [EvWrite i2c (reg ++ [v' / 256; v' mod 256]) e])); [|exact Hy].
        rewrite E. rewrite <- !app_assoc. cbn [app]. rewrite <- ?app_assoc. reflexivity. }
    assert (Ecl : clip buf out = [v / 256; v mod 256]) by congruence.
    unfold reads_word in Lread. rewrite <- Ecl in Lread.
    destruct (mock_read lay i2c k2 reg buf k3 out None Hk Hm2 Lread Hd2) as (_ & Hs & R1 & R2).
    assert (Hm3 : mock_of lay i2c k3) by (eapply same_camera_of; eassumption).
    destruct (reads_performed lay i2c between k3 k1 Hk Hm3 P3 Lbetween Hb) as [Hs3 _].
    pose proof (same_camera_trans _ _ _ Hs Hs3) as (T1 & T2 & T3 & T4 & T5 & T6 & T7).
    destruct (mock_write_ok lay i2c k1 reg v v' k' e Hk Hm1 Hreg Hv Hv') as [-> Hst]; try assumption.
    + intros Hq. rewrite T5, <- (R1 Hq). exact Ecl.
    + intros Hq. rewrite T6, <- (R2 Hq). exact Ecl.
    + split; [eapply stored_of; eassumption|]. split.
      * eapply kept_trans; [exact Hkm|]. destruct Hst as (E1 & E2 & E3 & E4 & E5 & _). repeat split; assumption.
      * apply Forall_app. split; [exact Hf|]. repeat constructor.
Qed.
