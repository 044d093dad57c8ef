(** * Properties C30, C56, C57, C58: the driver and the reference camera of the test-suite. *)
From Verif Require Import Base FloatOps Register Bus Camera Cam640 Cam641 Ee640 Ee641 Calc CalcFacts Driver
  BitFacts SpecRegister RegisterFacts SpecCamera CameraFacts SpecDriver DriverFacts StepFacts Demo
  SpecImage SpecCall ImageFacts Mock SpecMock P_Bus P_Image TraceFacts MockFacts ReportFacts.

(** ** C57: register writes are read-modify-write, on any bus *)
Theorem C57_read_modify_write : forall FO p B ER EW (bs : bus B ER EW) lay (d : driver (FO := FO)) o r d' dest,
  documented (cam _ (d_calibration d)) lay -> (lay_height lay <= d_height d)%nat ->
  step p bs d o = (r, d', dest) ->
  exists evs, trace (d_bus d') = trace (d_bus d) ++ evs /\ read_modify_write (d_address d) evs.
Proof. intros FO p B ER EW bs lay d o r d' dest Hd Hh H. eapply step_rmw; [split; eassumption|exact H]. Qed.
Print Assumptions C57_read_modify_write.

(** ** C58: a failing transaction is the last of its call and its error is what the call returns *)
Theorem C58_bus_errors_reported : forall FO p B ER EW (bs : bus B ER EW) lay (d : driver (FO := FO)) o r d' dest,
  documented (cam _ (d_calibration d)) lay -> (lay_height lay <= d_height d)%nat ->
  step p bs d o = (r, d', dest) ->
  exists evs, trace (d_bus d') = trace (d_bus d) ++ evs /\
  ((Forall succeeded evs /\ forall e e', r <> Err (I2cWriteReadError e) /\ r <> Err (I2cWriteError e')) \/
   (exists ok a wb data e, evs = ok ++ [EvRead a wb data (Some e)] /\ Forall succeeded ok /\ r = Err (I2cWriteReadError e)) \/
   (exists ok a bytes e, evs = ok ++ [EvWrite a bytes (Some e)] /\ Forall succeeded ok /\ r = Err (I2cWriteError e))).
Proof.
  intros FO p B ER EW bs lay d o r d' dest Hd Hh H.
  destruct (step_reported p bs lay d o r d' dest (conj Hd Hh) H) as (evs & Ht & Hr).
  exists evs. split; [exact Ht|]. destruct Hr as [evs r H1 H2 H3|evs i2c wb data e H1|evs i2c bytes e H1].
  - left. split; [exact H1|]. intros e e'. split; [apply H2|apply H3].
  - right. left. exists evs, i2c, wb, data, e. auto.
  - right. right. exists evs, i2c, bytes, e. auto.
Qed.
Print Assumptions C58_bus_errors_reported.

Section OnMock.
Context {FO : FloatOps} (p : profile).
Notation driver := (driver (FO := FO) (B := mock) (ER := mock_error) (EW := mock_error)).
Notation op := (op (FO := FO)).
Notation W := (world mock mock_error mock_error).
Implicit Types d : driver.

Lemma step_on_mock lay d o r d' dest : wf d lay -> mock_of lay (d_address d) (dev (d_bus d)) ->
  step p mock_bus d o = (r, d', dest) ->
  wf d' lay /\ d_address d' = d_address d /\ mock_of lay (d_address d) (dev (d_bus d')) /\
  kept_memory (dev (d_bus d)) (dev (d_bus d')) /\
  exists evs, trace (d_bus d') = trace (d_bus d) ++ evs /\ Forall succeeded evs /\
    performed mock_bus (dev (d_bus d)) evs (dev (d_bus d')) /\ Forall (legal (d_address d) (ram_last lay)) evs.
Proof.
  intros Hwf Hm H. pose proof (step_prims p mock_bus d o r d' dest H) as Hp.
  destruct (prims_later mock_bus lay d d' Hwf Hp) as (evs & (Hc & Ht) & Hl).
  destruct (prims_moved mock_bus d d' Hp) as (evs1 & Ht1 & Hpf).
  destruct (step_rmw p mock_bus lay d o r d' dest Hwf H) as (evs2 & Ht2 & Hrmw).
  rewrite Ht in Ht1, Ht2. apply app_inv_head in Ht1. apply app_inv_head in Ht2. subst evs1 evs2.
  assert (Hk : known lay) by (eapply documented_known; apply Hwf).
  destruct (mock_accepts lay (d_address d) (dev (d_bus d)) Hk Hm evs _ Hpf Hl Hrmw) as (M & K & S).
  split; [eapply same_config_wf; eassumption|]. split; [apply Hc|]. split; [exact M|]. split; [exact K|].
  exists evs. auto.
Qed.

(** The part of the memory nobody but the test harness changes. *)
Lemma happens_on_mock lay d h : wf d lay -> mock_of lay (d_address d) (dev (d_bus d)) -> possible lay h ->
  let d' := happens p d h in
  wf d' lay /\ d_address d' = d_address d /\ mock_of lay (d_address d) (dev (d_bus d')) /\
  mk_eeprom (dev (d_bus d')) = mk_eeprom (dev (d_bus d)) /\
  mk_i2c_config (dev (d_bus d')) = mk_i2c_config (dev (d_bus d)) /\
  (match h with NewFrame ram _ => mk_ram (dev (d_bus d')) = ram | _ => mk_ram (dev (d_bus d')) = mk_ram (dev (d_bus d)) end) /\
  exists evs, trace (d_bus d') = trace (d_bus d) ++ evs /\ Forall succeeded evs.
Proof.
  intros Hwf Hm Hp. destruct h as [o|ram st|b]; cbn [happens].
  - destruct (step p mock_bus d o) as [[r d'] dest] eqn:E. cbn [fst snd].
    destruct (step_on_mock lay d o r d' dest Hwf Hm E) as (W1 & A & M & (K1 & K2 & K3 & K4) & evs & T & S & _).
    repeat (split; [assumption|]). exists evs. auto.
  - destruct Hp as (P1 & P2 & P3). destruct Hm as (M1 & M2 & M3 & M4 & M5 & M6 & M7 & M8 & M9).
    split; [exact Hwf|]. split; [reflexivity|]. split; [repeat (split; [assumption|]); assumption|].
    split; [reflexivity|]. split; [reflexivity|]. split; [reflexivity|]. exists []. rewrite app_nil_r. split; [reflexivity|constructor].
  - destruct Hm as (M1 & M2 & M3 & M4 & M5 & M6 & M7 & M8 & M9).
    pose proof M7 as (hi & lo & Hs & Bh & Bl).
    assert (G : forall k, dev (d_bus d) = k -> set_data_available k b =
      set_status_bytes k (hi :: (if b then Z.lor lo 8 else Z.land lo 7) :: [])).
    { intros k Ek. unfold set_data_available. rewrite <- Ek, Hs. reflexivity. }
    unfold harness. rewrite (G _ eq_refl). cbn [d_bus with_bus dev d_address trace].
    split; [exact Hwf|]. split; [reflexivity|]. split.
    + cbn [set_status_bytes]. unfold mock_of.
      cbn [mk_i2c_address mk_ram_end mk_eeprom mk_ram mk_status mk_control mk_i2c_config].
      repeat (split; [assumption|]). split; [|split; assumption].
      eexists _, _. split; [reflexivity|]. split; [exact Bh|]. clear - Bl. unfold byte in *. destruct b.
      * assert (Hn : 0 <= Z.lor lo 8) by (apply Z.lor_nonneg; lia). split; [exact Hn|].
        apply (bits_lt_pow2 (Z.lor lo 8) 8); [lia|exact Hn|]. intros i Hi. rewrite Z.lor_spec.
        rewrite (small_testbit_high lo 8), (small_testbit_high 8 8) by (cbn; lia). reflexivity.
      * assert (Hn : 0 <= Z.land lo 7) by (apply Z.land_nonneg; lia). split; [exact Hn|].
        apply (bits_lt_pow2 (Z.land lo 7) 8); [lia|exact Hn|]. intros i Hi. rewrite Z.land_spec.
        rewrite (small_testbit_high lo 8) by (cbn; lia). reflexivity.
    + split; [reflexivity|]. split; [reflexivity|]. split; [reflexivity|]. exists []. rewrite app_nil_r. split; [reflexivity|constructor].
Qed.

(** ** C30 *)
(** Whatever the user calls and the test harness does, the mock never reports an
    error; the EEPROM and the I2C configuration stay as they were. *)
Theorem C30_no_mock_error : forall lay d hs,
  documented (cam _ (d_calibration d)) lay -> (lay_height lay <= d_height d)%nat ->
  mock_of lay (d_address d) (dev (d_bus d)) -> Forall (possible lay) hs ->
  let d' := all_happen p d hs in
  (exists evs, trace (d_bus d') = trace (d_bus d) ++ evs /\ Forall succeeded evs) /\
  mock_of lay (d_address d) (dev (d_bus d')) /\
  mk_eeprom (dev (d_bus d')) = mk_eeprom (dev (d_bus d)) /\
  mk_i2c_config (dev (d_bus d')) = mk_i2c_config (dev (d_bus d)).
Proof.
  intros lay d hs Hd Hh Hm Hp. assert (Hwf : wf d lay) by (split; assumption). clear Hd Hh.
  revert d Hwf Hm. induction Hp as [|h hs Hh Hp IH]; intros d Hwf Hm.
  - cbn. split; [|auto]. exists []. rewrite app_nil_r. split; [reflexivity|constructor].
  - cbn zeta. cbn [all_happen fold_left].
    destruct (happens_on_mock lay d h Hwf Hm Hh) as (W1 & A & M & E1 & E2 & _ & evs & T & S).
    rewrite <- A in M. destruct (IH _ W1 M) as ((evs2 & T2 & S2) & M2 & F1 & F2).
    unfold all_happen in *. split; [|rewrite <- A; split; [exact M2|]; split; congruence].
    exists (evs ++ evs2). rewrite T2, T, app_assoc. split; [reflexivity|apply Forall_app; auto].
Qed.

(** RAM is only ever changed by the harness. *)
Theorem C30_ram_only_by_harness : forall lay d o r d' dest,
  documented (cam _ (d_calibration d)) lay -> (lay_height lay <= d_height d)%nat ->
  mock_of lay (d_address d) (dev (d_bus d)) -> step p mock_bus d o = (r, d', dest) ->
  mk_ram (dev (d_bus d')) = mk_ram (dev (d_bus d)).
Proof.
  intros lay d o r d' dest Hd Hh Hm H.
  destruct (step_on_mock lay d o r d' dest (conj Hd Hh) Hm H) as (_ & _ & _ & K & _). apply K.
Qed.

(** No method ever returns a bus error on the mock. *)
Theorem C30_no_bus_error_returned : forall lay d o r d' dest,
  documented (cam _ (d_calibration d)) lay -> (lay_height lay <= d_height d)%nat ->
  mock_of lay (d_address d) (dev (d_bus d)) -> step p mock_bus d o = (r, d', dest) ->
  forall e, r <> Err (I2cWriteReadError e) /\ r <> Err (I2cWriteError e).
Proof.
  intros lay d o r d' dest Hd Hh Hm H e.
  destruct (step_on_mock lay d o r d' dest (conj Hd Hh) Hm H) as (_ & _ & _ & _ & evs & Ht & Hs & _).
  destruct (step_reported p mock_bus lay d o r d' dest (conj Hd Hh) H) as (evs2 & Ht2 & Hr).
  rewrite Ht in Ht2. apply app_inv_head in Ht2. subst evs2.
  destruct Hr as [evs r H1 H2 H3|evs i2c wb data e0 H1|evs i2c bytes e0 H1].
  - split; [apply H2|apply H3].
  - apply Forall_app in Hs. destruct Hs as [_ Hs]. inversion Hs as [|? ? Hx _]. discriminate Hx.
  - apply Forall_app in Hs. destruct Hs as [_ Hs]. inversion Hs as [|? ? Hx _]. discriminate Hx.
Qed.

(** ** Construction on the mock *)
Lemma eeprom_read lay a k k1 out e : known lay -> mock_of lay a k ->
  dev_write_read mock_bus k a [0x24; 0x00] (repeat 0 1664) = (k1, out, e) ->
  e = None /\ out = mk_eeprom k /\ same_camera k k1.
Proof.
  intros Hk Hm H. cbn [dev_write_read mock_bus] in H. unfold mock_write_read in H.
  assert (Ha : mk_i2c_address k = a) by apply Hm. rewrite Ha, Z.eqb_refl in H.
  assert (He : mk_ram_end k = ram_last lay) by apply Hm. pose proof (known_last lay Hk) as Hlast.
  assert (Hl : length (mk_eeprom k) = 1664%nat) by apply Hm.
  rewrite repeat_length in H. cbn [negb length] in H.
  change (negb (Nat.eqb 2 2) || Nat.eqb 1664 0) with false in H. cbv iota in H.
  unfold extract_address in H. change (be16 36 0) with 0x2400 in H.
  change (eeprom_range 0x2400) with true in H. rewrite orb_true_r in H. cbn [orb] in H.
  unfold mock_get in H. change (65535 <? 0x2400 + Z.of_nat 1664 / 2) with false in H.
  change (negb (Nat.eqb (Nat.modulo 1664 2) 0)) with false in H.
  change (rom_range 0x2400) with false in H.
  assert (Hr : forall o, ram_range (add_operation k o) 0x2400 = false).
  { intros o. unfold ram_range. cbn [mk_ram_end add_operation]. rewrite He. apply in_range_false. lia. }
  rewrite Hr in H. change (eeprom_range 0x2400) with true in H.
  change (eeprom_range (0x2400 + Z.of_nat 1664 / 2 - 1)) with true in H. cbv iota in H.
  cbn [mk_eeprom add_operation] in H. unfold mslice in H. rewrite Hl in H.
  change (Z.to_nat ((0x2400 - 0x2400) * 2)) with 0%nat in H. change (Nat.ltb 1664 (0 + 1664)) with false in H.
  cbv iota in H. cbn [skipn] in H. rewrite firstn_all2 in H by lia. rewrite Hl, Nat.eqb_refl in H.
  injection H as <- <- <-. split; [reflexivity|]. split; [reflexivity|]. repeat split.
Qed.

Lemma control_read_ok lay a (w : W) r w' : known lay -> mock_of lay a (dev w) ->
  read_register mock_bus a CONTROL_ADDRESS w = (r, w') ->
  r = Ok (word_of (mk_control (dev w))) /\ same_camera (dev w) (dev w') /\
  exists x, trace w' = trace w ++ [x] /\ succeeded x.
Proof.
  intros Hk Hm H. unfold read_register, write_read in H.
  destruct (dev_write_read mock_bus (dev w) a (to_be_bytes CONTROL_ADDRESS) [0; 0]) as [[k1 out] e] eqn:E.
  assert (Hl : legal (ER := mock_error) (EW := mock_error) a (ram_last lay) (EvRead a control_reg (clip [0; 0] out) e)).
  { apply (legal_read a (ram_last lay) 0x800D).
    - intros Hx. apply (f_equal (@length Z)) in Hx. rewrite clip_length in Hx. discriminate.
    - rewrite clip_length. exists 1%nat. reflexivity.
    - rewrite clip_length. right. right. split; [right; reflexivity|reflexivity]. }
  destruct (mock_read lay a (dev w) _ _ _ _ _ Hk Hm Hl E) as (-> & Hs & _ & Hc).
  rewrite (Hc eq_refl) in H. injection H as <- <-. cbn [dev trace].
  assert (Ht : two_bytes (mk_control (dev w))) by apply Hm. destruct Ht as (hi & lo & Ht & _).
  split; [rewrite Ht; reflexivity|]. split; [exact Hs|]. eexists. split; [reflexivity|reflexivity].
Qed.

(** On the mock, construction fails only when the calibration data is rejected. *)
Lemma new_on_mock (from_i2c : Z -> W -> res (error mock_error mock_error) (calib FO) * W) from_data c0 lay height num_bytes (w : W) a r w' :
  (forall i2c w, from_i2c i2c w =
     let '(data, e, w') := write_read mock_bus i2c [0x24; 0x00] (repeat 0 1664) w in
     match e with
     | Some e => (Err (I2cWriteReadError e), w')
     | None => (map_err LibraryError (from_data data), w')
     end) ->
  (forall data c, from_data data = Ok c -> cam FO c = c0) ->
  documented c0 lay -> (lay_height lay <= height)%nat -> mock_of lay a (dev w) ->
  new mock_bus from_i2c height num_bytes w a = (r, w') ->
  (exists evs, trace w' = trace w ++ evs /\ Forall succeeded evs) /\ same_camera (dev w) (dev w') /\
  match from_data (mk_eeprom (dev w)) with
  | Ok c => exists d, r = Ok d /\ d_bus d = w' /\ d_address d = a /\ d_calibration d = c /\ d_height d = height
  | Err l => r = Err (LibraryError l)
  | Panic => r = Panic
  | Diverge => r = Diverge
  end.
Proof.
  intros Hf Hcam Hd Hh Hm H. assert (Hk : known lay) by (eapply documented_known; eassumption).
  unfold new in H. rewrite Hf in H. unfold write_read in H.
  destruct (dev_write_read mock_bus (dev w) a [0x24; 0x00] (repeat 0 1664)) as [[b out] e] eqn:E.
  destruct (eeprom_read lay a _ _ _ _ Hk Hm E) as (-> & -> & Hs). clear E.
  rewrite clip_id in H; [| |apply Hm].
  2:{ rewrite repeat_length. apply Hm. }
  destruct (from_data (mk_eeprom (dev w))) as [c|l| |] eqn:Ed; cbn [map_err] in H;
    [|injection H as <- <-; cbn [trace dev]; (split; [eexists; split; [reflexivity|repeat constructor]|]); (split; [exact Hs|reflexivity])..].
  unfold new_with_calibration in H.
  match type of H with (let '(_, _) := read_register _ _ _ ?w1 in _) = _ =>
    destruct (read_register mock_bus a CONTROL_ADDRESS w1) as [r1 w2] eqn:E end.
  apply (control_read_ok lay) in E; [|exact Hk|cbn [dev]; eapply same_camera_of; eassumption].
  destruct E as (-> & Hs2 & x & Ht & Hx). cbn [dev trace bind] in *.
  assert (Hw : word (word_of (mk_control b))).
  { assert (Ht2 : two_bytes (mk_control b)) by (eapply same_camera_of; eassumption).
    destruct Ht2 as (hi & lo & -> & Bh & Bl). unfold byte, word, word_of, be16 in *. lia. }
  rewrite ctl_resolution_doc, ctl_access_pattern_doc in H by exact Hw. cbn [bind] in H. injection H as <- <-.
  split; [|split; [eapply same_camera_trans; eassumption|]].
  - eexists. rewrite Ht, <- app_assoc. split; [reflexivity|]. repeat constructor. exact Hx.
  - eexists. split; [reflexivity|]. repeat split; reflexivity.
Qed.
End OnMock.

Theorem C30_mlx90640 : forall FO p (w : world mock mock_error mock_error) a r w',
  mock_of layout640 a (dev w) ->
  new mock_bus (calib640_from_i2c FO p mock_bus) 24 1536 w a = (r, w') ->
  (exists evs, trace w' = trace w ++ evs /\ Forall succeeded evs) /\
  match from_data640 FO p (mk_eeprom (dev w)) with
  | Ok c => exists d, r = Ok d /\ d_calibration d = c /\
      forall hs, Forall (possible layout640) hs ->
      exists evs, trace (d_bus (all_happen p d hs)) = trace w ++ evs /\ Forall succeeded evs
  | Err l => r = Err (LibraryError l)
  | Panic => r = Panic
  | Diverge => r = Diverge
  end.
Proof.
  intros FO p w a r w' Hm H.
  apply (new_on_mock (FO := FO) _ (from_data640 FO p) (Mlx90640 FO) layout640) in H;
    [|intros; reflexivity|intros data c; apply from_data640_camera|constructor|cbn; lia|exact Hm].
  destruct H as ((evs & Ht & Hs) & Hc & H). split; [exists evs; auto|].
  destruct (from_data640 FO p (mk_eeprom (dev w))) as [c| | |] eqn:Ed; try exact H.
  destruct H as (d & -> & Hb & Ha & Hcal & Hhe). exists d. split; [reflexivity|]. split; [exact Hcal|].
  intros hs Hp. destruct (C30_no_mock_error p layout640 d hs) as ((evs2 & Ht2 & Hs2) & _).
  - rewrite Hcal, (from_data640_camera FO p _ _ Ed). constructor.
  - rewrite Hhe. cbn. lia.
  - rewrite Ha, Hb. eapply same_camera_of; eassumption.
  - exact Hp.
  - exists (evs ++ evs2). rewrite Ht2, Hb, Ht, app_assoc. split; [reflexivity|apply Forall_app; auto].
Qed.
Print Assumptions C30_mlx90640.

Theorem C30_mlx90641 : forall FO p (w : world mock mock_error mock_error) a r w',
  mock_of layout641 a (dev w) ->
  new mock_bus (calib641_from_i2c FO p mock_bus) 12 384 w a = (r, w') ->
  (exists evs, trace w' = trace w ++ evs /\ Forall succeeded evs) /\
  match from_data641 FO p (mk_eeprom (dev w)) with
  | Ok c => exists d, r = Ok d /\ d_calibration d = c /\
      forall hs, Forall (possible layout641) hs ->
      exists evs, trace (d_bus (all_happen p d hs)) = trace w ++ evs /\ Forall succeeded evs
  | Err l => r = Err (LibraryError l)
  | Panic => r = Panic
  | Diverge => r = Diverge
  end.
Proof.
  intros FO p w a r w' Hm H.
  apply (new_on_mock (FO := FO) _ (from_data641 FO p) (Mlx90641 FO) layout641) in H;
    [|intros; reflexivity|intros data c; apply from_data641_camera|constructor|cbn; lia|exact Hm].
  destruct H as ((evs & Ht & Hs) & Hc & H). split; [exists evs; auto|].
  destruct (from_data641 FO p (mk_eeprom (dev w))) as [c| | |] eqn:Ed; try exact H.
  destruct H as (d & -> & Hb & Ha & Hcal & Hhe). exists d. split; [reflexivity|]. split; [exact Hcal|].
  intros hs Hp. destruct (C30_no_mock_error p layout641 d hs) as ((evs2 & Ht2 & Hs2) & _).
  - rewrite Hcal, (from_data641_camera FO p _ _ Ed). constructor.
  - rewrite Hhe. cbn. lia.
  - rewrite Ha, Hb. eapply same_camera_of; eassumption.
  - exact Hp.
  - exists (evs ++ evs2). rewrite Ht2, Hb, Ht, app_assoc. split; [reflexivity|apply Forall_app; auto].
Qed.
Print Assumptions C30_mlx90641.
Print Assumptions C30_no_mock_error.
Print Assumptions C30_no_bus_error_returned.
