(** * Properties C87, C88: cameras whose EEPROM has gone bad. *)
From Verif Require Import Base FloatOps Register Bus Camera Calc Cam640 Cam641 Ee640 Ee641 BitFacts SpecRegister SpecCamera SpecDriver
  SpecEeprom SpecHamming Spec641 CalcFacts DriverFacts StepFacts SpecCall SpecReplay StrategyFacts P_Image P_Usable P_Ee641 P_Replay
  P_Ee640 Ee640Closed Ee640Local Ee641Facts Ee641Closed Ee641Words
  SpecIndep SpecWear WearFacts PixelFacts PixelWords Driver.

Section Wear.
Context {FO : FloatOps} (p : profile) {B ER EW : Type} (bs bs' : bus B ER EW).
Notation driver := (driver (FO := FO) (B := B) (ER := ER) (EW := EW)).
Notation op := (op (FO := FO)).
Implicit Types d : driver.

(** ** After construction the EEPROM is not read *)
Theorem C87_eeprom_not_read_again_640 : forall w a d w1 ops,
  new bs (calib640_from_i2c FO p bs) 24 1536 w a = (Ok d, w1) ->
  exists evs, trace (d_bus (run p bs d ops)) = trace (d_bus d) ++ evs /\ Forall (fun x => ~ eeprom_read x) evs.
Proof.
  intros w a d w1 ops H. apply (run_no_eeprom p bs layout640). apply usable_wf.
  exact (proj1 (C62_new_640 FO p B ER EW bs w a d w1 H)).
Qed.
Theorem C87_eeprom_not_read_again_641 : forall w a d w1 ops,
  new bs (calib641_from_i2c FO p bs) 12 384 w a = (Ok d, w1) ->
  exists evs, trace (d_bus (run p bs d ops)) = trace (d_bus d) ++ evs /\ Forall (fun x => ~ eeprom_read x) evs.
Proof.
  intros w a d w1 ops H. apply (run_no_eeprom p bs layout641). apply usable_wf.
  exact (proj1 (C62_new_641 FO p B ER EW bs w a d w1 H)).
Qed.

(** ** The two cameras side by side *)
Hypothesis Hs : same_but_eeprom bs bs'.

Lemma run_worn lay d w2 ops : wf d lay -> Forall byte (d_pixel_buffer d) -> dev w2 = dev (d_bus d) ->
  outcomes p bs' (connect d w2) ops = outcomes p bs d ops /\
  exists w3, dev w3 = dev (d_bus (run p bs d ops)) /\ run p bs' (connect d w2) ops = connect (run p bs d ops) w3.
Proof.
  intros Hwf Hb Hd.
  destruct (run_no_eeprom p bs lay d ops Hwf) as (evs & Ht & Hf).
  assert (E : lifted (fun B0 bs0 (d0 : Driver.driver (B := B0)) => (outcomes p bs0 d0 ops, run p bs0 d0 ops)) (core d) B bs (d_bus d) =
              ((outcomes p bs d ops, core (run p bs d ops)), d_bus (run p bs d ops))).
  { unfold lifted. rewrite onto_core, onto_self. reflexivity. }
  destruct (uniform_worn _ _ _ _ (outcomes_um p ops (core d) Hb) B bs bs' _ w2 _ _ evs Hs Hd E Ht Hf) as (w3 & E3 & D3 & _).
  unfold lifted in E3. rewrite onto_core in E3. change (onto d w2) with (connect d w2) in E3.
  apply pair_equal_spec in E3. destruct E3 as [E3 Ew]. apply pair_equal_spec in E3. destruct E3 as [E1 E2].
  split; [exact E1|]. exists w3. split; [exact D3|].
  rewrite <- (onto_self (run p bs' (connect d w2) ops)), Ew.
  rewrite <- (onto_core (run p bs' (connect d w2) ops)), E2. reflexivity.
Qed.

Lemma nwc_worn height num w1 w2 a (c : calib FO) r w1' : dev w2 = dev w1 ->
  new_with_calibration bs height num w1 a c = (r, w1') ->
  exists w2', dev w2' = dev w1' /\ new_with_calibration bs' height num w2 a c = (reconnect (FO := FO) r w2', w2').
Proof.
  intros Hd H. unfold new_with_calibration, read_register, write_read in *.
  rewrite (sb_read _ _ Hs), Hd.
  2:{ intros (x & Hx & E). unfold eeprom_address in Hx. change (to_be_bytes CONTROL_ADDRESS) with [0x80; 0x0D] in E.
      injection E as E1 E2. assert (x = 256 * (x / 256) + x mod 256) by (apply Z.div_mod; lia). lia. }
  destruct (dev_write_read bs (dev w1) a (to_be_bytes CONTROL_ADDRESS) [0; 0]) as [[b out] e].
  destruct e as [e|]; apply pair_equal_spec in H; destruct H as [<- <-]; 
    (eexists; split; [|apply pair_equal_spec; split; [|reflexivity]]; [reflexivity|]); [reflexivity|]. cbn [bind].
  destruct (register_from_slice (clip [0; 0] out)) as [v|e| |]; [|reflexivity..]. cbn [bind].
  destruct (ctl_resolution v) as [rs|e| |]; cbn [bind]; [|reflexivity..].
  destruct (ctl_access_pattern v) as [ap|e| |]; reflexivity.
Qed.

Lemma dump_worn w a : exists e w1 w2,
  write_read bs a [0x24; 0x00] (repeat 0 1664) w = (dump bs w a, e, w1) /\
  write_read bs' a [0x24; 0x00] (repeat 0 1664) w = (dump bs' w a, e, w2) /\ dev w2 = dev w1.
Proof.
  unfold dump, write_read.
  destruct (dev_write_read bs (dev w) a [0x24; 0x00] (repeat 0 1664)) as [[b out] e] eqn:E.
  destruct (sb_eeprom _ _ Hs _ _ _ _ _ _ _ E) as (out' & E'). rewrite E'.
  eexists _, _, _. split; [reflexivity|]. split; reflexivity.
Qed.
Lemma dump_full (bs0 : bus B ER EW) w a : Forall byte (dump bs0 w a) /\ length (dump bs0 w a) = 1664%nat.
Proof.
  unfold dump, write_read. destruct (dev_write_read bs0 (dev w) a [0x24; 0x00] (repeat 0 1664)) as [[b out] e]. cbn [fst].
  split; [apply clip_bytes|rewrite clip_length; apply repeat_length].
  apply Forall_forall. intros x Hx. apply repeat_spec in Hx. subst x. unfold byte. lia.
Qed.

Lemma usable_worn lay d w2 : usable d lay -> Forall byte (d_pixel_buffer d) -> dev w2 = dev (d_bus d) -> forall ops,
  outcomes p bs' (connect d w2) ops = outcomes p bs d ops /\
  dev (d_bus (run p bs' (connect d w2) ops)) = dev (d_bus (run p bs d ops)).
Proof.
  intros Hu Hb Hd ops. destruct (run_worn lay d w2 ops (usable_wf _ _ Hu) Hb Hd) as (E & w3 & D & R).
  split; [exact E|]. rewrite R. exact D.
Qed.

(** A flipped bit in every word the driver uses, and whatever in the others, changes nothing: the
    same driver, the same results and images of all calls, the same effects on the camera. *)
Theorem C87_worn_eeprom : forall w a r w1,
  (forall i, In i reading_order ->
     is_codeword (ee_word (dump bs w a) i) /\ (distance (ee_word (dump bs' w a) i) (ee_word (dump bs w a) i) <= 1)%nat) ->
  new bs (calib641_from_i2c FO p bs) 12 384 w a = (r, w1) ->
  exists w2, dev w2 = dev w1 /\
    new bs' (calib641_from_i2c FO p bs') 12 384 w a = (reconnect (FO := FO) r w2, w2) /\
    forall d, r = Ok d -> forall ops,
      outcomes p bs' (connect d w2) ops = outcomes p bs d ops /\
      dev (d_bus (run p bs' (connect d w2) ops)) = dev (d_bus (run p bs d ops)).
Proof.
  intros w a r w1 Hw H.
  assert (Hu : forall d, r = Ok d -> usable d layout641 /\ Forall byte (d_pixel_buffer d) /\ d_bus d = w1).
  { intros d ->. destruct (C62_new_641 FO p B ER EW bs w a d w1 H) as [H1 H2]. split; [exact H1|]. split; [exact H2|].
    pose proof (opens_bus (fun a B bs w => calib641_from_i2c FO p bs a w) 12 384 a B bs w _ _ H) as E.
    cbn [reconnect] in E. assert (E' : connect d w1 = d) by congruence. rewrite <- E'. reflexivity. }
  destruct (dump_worn w a) as (e & wa & wb & Ea & Eb & Hd).
  destruct (dump_full bs w a) as [B1 L1]. destruct (dump_full bs' w a) as [B2 L2].
  assert (Ep : from_data641 FO p (dump bs' w a) = from_data641 FO p (dump bs w a)).
  { apply C46_single_bit_faults; [split; [exact B1|rewrite L1; apply Nat.le_refl]|split; [exact B2|rewrite L2; apply Nat.le_refl]|exact Hw]. }
  assert (G : exists w2, dev w2 = dev w1 /\ new bs' (calib641_from_i2c FO p bs') 12 384 w a = (reconnect (FO := FO) r w2, w2)).
  { unfold new, calib641_from_i2c in H |- *.
    change (to_be_bytes EE641_Base) with [0x24; 0x00] in *.
    change (Z.to_nat ((EE641_End - EE641_Base + 1) * 2)) with 1664%nat in *.
    rewrite Ea in H. rewrite Eb, Ep. destruct e as [e|].
    - apply pair_equal_spec in H. destruct H as [<- <-]. exists wb. split; [exact Hd|reflexivity].
    - destruct (from_data641 FO p (dump bs w a)) as [c|x| |]; cbn [map_err] in *.
      + eapply nwc_worn; eassumption.
      + apply pair_equal_spec in H. destruct H as [<- <-]. exists wb. split; [exact Hd|reflexivity].
      + apply pair_equal_spec in H. destruct H as [<- <-]. exists wb. split; [exact Hd|reflexivity].
      + apply pair_equal_spec in H. destruct H as [<- <-]. exists wb. split; [exact Hd|reflexivity]. }
  destruct G as (w2 & D2 & N2). exists w2. split; [exact D2|]. split; [exact N2|].
  intros d Hr ops. destruct (Hu d Hr) as (U & Bb & Hbus). apply (usable_worn layout641); [exact U|exact Bb|congruence].
Qed.

(** ** C88 *)
(** Two drivers that differ in the calibration values of pixel [k], on one camera. *)
Lemma outcomes_but (bs0 : bus B ER EW) k c' ops : forall d, agree_but k (d_calibration d) c' ->
  Forall2 (seen_but k) (outcomes p bs0 d ops) (outcomes p bs0 (recalibrated c' d) ops) /\
  run p bs0 (recalibrated c' d) ops = recalibrated c' (run p bs0 d ops).
Proof.
  induction ops as [|o ops IH]; intros d Hc; [split; [constructor|reflexivity]|].
  cbn [outcomes run fold_left]. destruct (step p bs0 d o) as [[r d1] dest] eqn:E.
  destruct (step_blind p bs0 k o c' d r d1 dest Hc E) as (Ec & dest' & E' & Hb).
  assert (S1 : step_state p bs0 d o = d1) by (unfold step_state; rewrite E; reflexivity).
  assert (S2 : step_state p bs0 (recalibrated c' d) o = recalibrated c' d1) by (unfold step_state; rewrite E'; reflexivity).
  fold (run p bs0 (step_state p bs0 d o) ops). fold (run p bs0 (step_state p bs0 (recalibrated c' d) o) ops).
  rewrite S1, S2, E'. assert (Hc1 : agree_but k (d_calibration d1) c') by (rewrite Ec; exact Hc).
  destruct (IH d1 Hc1) as [I1 I2]. split; [|exact I2].
  constructor; [split; [reflexivity|exact Hb]|exact I1].
Qed.
Lemma nwc_but height num w a k (c c' : calib FO) r w' : agree_but k c c' -> new_with_calibration bs height num w a c = (r, w') ->
  new_with_calibration bs height num w a c' =
    (match r with Ok d => Ok (recalibrated c' d) | Err e => Err e | Panic => Panic | Diverge => Diverge end, w') /\
  forall d, r = Ok d -> d_calibration d = c.
Proof.
  intros Hc H. unfold new_with_calibration in *. destruct (read_register bs a CONTROL_ADDRESS w) as [r0 w0].
  apply pair_equal_spec in H. destruct H as [<- <-].
  destruct r0 as [v|e| |]; cbn [bind]; try (split; [reflexivity|discriminate]).
  destruct (ctl_resolution v) as [x|e| |]; cbn [bind]; try (split; [reflexivity|discriminate]).
  destruct (ctl_access_pattern v) as [ap|e| |]; cbn [bind]; try (split; [reflexivity|discriminate]).
  rewrite (ab_cam _ _ _ Hc), (ab_resolution _ _ _ Hc), (ab_emissivity _ _ _ Hc). split; [reflexivity|].
  intros d E. assert (E' : d = d) by reflexivity. inversion E. reflexivity.
Qed.
Lemma nwc_bus height num w a (c : calib FO) d w' : new_with_calibration bs height num w a c = (Ok d, w') -> d_bus d = w'.
Proof.
  intros H. unfold new_with_calibration in H. destruct (read_register bs a CONTROL_ADDRESS w) as [r0 w0].
  apply pair_equal_spec in H. destruct H as [H <-].
  destruct r0 as [v|e| |]; cbn [bind] in H; try discriminate.
  destruct (ctl_resolution v) as [x|e| |]; cbn [bind] in H; try discriminate.
  destruct (ctl_access_pattern v) as [ap|e| |]; cbn [bind] in H; try discriminate.
  inversion H. reflexivity.
Qed.
(** From two calibrations to the two drivers on the two cameras. *)
Lemma opened_but lay height num wa wb a k (c c' : calib FO) d w1 : agree_but k c c' -> dev wb = dev wa ->
  usable d lay -> Forall byte (d_pixel_buffer d) ->
  new_with_calibration bs height num wa a c = (Ok d, w1) ->
  exists d' w2, new_with_calibration bs' height num wb a c' = (Ok d', w2) /\ dev w2 = dev w1 /\ forall ops,
    Forall2 (seen_but k) (outcomes p bs d ops) (outcomes p bs' d' ops) /\
    dev (d_bus (run p bs' d' ops)) = dev (d_bus (run p bs d ops)).
Proof.
  intros Hc Hd Hu Hb H. pose proof (nwc_bus _ _ _ _ _ _ _ H) as Ebus.
  destruct (nwc_but height num wa a k c c' _ _ Hc H) as [H2 Hcal]. specialize (Hcal d eq_refl).
  destruct (nwc_worn height num wa wb a c' _ _ Hd H2) as (w2 & D2 & N2). cbn [reconnect] in N2.
  exists (connect (recalibrated c' d) w2), w2. split; [exact N2|]. split; [exact D2|]. intros ops.
  destruct (usable_worn lay d w2 Hu Hb ltac:(rewrite Ebus; exact D2) ops) as [O1 R1].
  assert (Hc2 : agree_but k (d_calibration (connect d w2)) c') by (cbn [connect d_calibration]; rewrite Hcal; exact Hc).
  destruct (outcomes_but bs' k c' ops (connect d w2) Hc2) as [O2 R2].
  change (recalibrated c' (connect d w2)) with (connect (recalibrated c' d) w2) in O2, R2.
  rewrite <- O1, <- R1. split; [exact O2|]. rewrite R2. reflexivity.
Qed.

(** A changed pixel word.  With overflow checks, decoding it can panic; otherwise the driver is
    there, and nothing it returns or stores differs, except for the values of that pixel. *)
Theorem C88_pixel_word_640 : forall w a k d w1 r' w2,
  (forall i, (0x10 <= i < 832)%nat -> i <> (0x40 + k)%nat -> ee_word (dump bs' w a) i = ee_word (dump bs w a) i) ->
  new bs (calib640_from_i2c FO p bs) 24 1536 w a = (Ok d, w1) ->
  new bs' (calib640_from_i2c FO p bs') 24 1536 w a = (r', w2) ->
  (p = Debug /\ r' = Panic) \/
  exists d', r' = Ok d' /\ dev w2 = dev w1 /\ forall ops,
    Forall2 (seen_but k) (outcomes p bs d ops) (outcomes p bs' d' ops) /\
    dev (d_bus (run p bs' d' ops)) = dev (d_bus (run p bs d ops)).
Proof.
  intros w a k d w1 r' w2 Hw H H'.
  destruct (C62_new_640 FO p B ER EW bs w a d w1 H) as [Hu Hbuf].
  destruct (dump_worn w a) as (e & wa & wb & Ea & Eb & Hd).
  destruct (dump_full bs w a) as [B1 L1]. destruct (dump_full bs' w a) as [B2 L2].
  unfold new, calib640_from_i2c in H, H'.
  change (to_be_bytes EE640_Base) with [0x24; 0x00] in *. change EEPROM_LENGTH with 1664%nat in *.
  rewrite Ea in H. rewrite Eb in H'. destruct e as [e|]; [discriminate H|].
  destruct (from_data640_full FO p (dump bs w a) B1 ltac:(rewrite L1; apply Nat.le_refl)) as [(_ & _ & E1)|(_ & E1)];
    rewrite E1 in H; cbn [map_err] in H; [discriminate H|].
  destruct (from_data640_full FO p (dump bs' w a) B2 ltac:(rewrite L2; apply Nat.le_refl)) as [(Hp & _ & E2)|(_ & E2)];
    rewrite E2 in H'; cbn [map_err] in H'.
  { left. split; [exact Hp|]. apply pair_equal_spec in H'. destruct H' as [<- _]. reflexivity. }
  right. destruct (opened_but layout640 24 1536 wa wb a k _ _ d w1 (decoded640_but FO _ _ k Hw) Hd Hu Hbuf H) as (d' & w3 & N & D & G).
  rewrite N in H'. apply pair_equal_spec in H'. destruct H' as [<- <-]. exists d'. auto.
Qed.

(** MLX90641: the four words of pixel [k] may hold anything, as long as they can be decoded; all the
    other words that are used correct to the same data. *)
Theorem C88_pixel_words_641 : forall w a k d w1 d' w2, (k < 192)%nat ->
  (forall i, In i reading_order -> ~ In i (pixel_words k) ->
     exists x, corrects_to (ee_word (dump bs w a) i) x /\ corrects_to (ee_word (dump bs' w a) i) x) ->
  new bs (calib641_from_i2c FO p bs) 12 384 w a = (Ok d, w1) ->
  new bs' (calib641_from_i2c FO p bs') 12 384 w a = (Ok d', w2) ->
  dev w2 = dev w1 /\ forall ops,
    Forall2 (seen_but k) (outcomes p bs d ops) (outcomes p bs' d' ops) /\
    dev (d_bus (run p bs' d' ops)) = dev (d_bus (run p bs d ops)).
Proof.
  intros w a k d w1 d' w2 Hk Hw H H'.
  destruct (C62_new_641 FO p B ER EW bs w a d w1 H) as [Hu Hbuf].
  destruct (dump_worn w a) as (e & wa & wb & Ea & Eb & Hd).
  destruct (dump_full bs w a) as [B1 L1]. destruct (dump_full bs' w a) as [B2 L2].
  unfold new, calib641_from_i2c in H, H'.
  change (to_be_bytes EE641_Base) with [0x24; 0x00] in *.
  change (Z.to_nat ((EE641_End - EE641_Base + 1) * 2)) with 1664%nat in *.
  rewrite Ea in H. rewrite Eb in H'. destruct e as [e|]; [discriminate H|].
  rewrite from_data641_closed in H, H' by assumption.
  destruct (first_trouble p (dump bs w a) (all_steps (dump bs w a))) as [[x| |]|]; cbn [finish map_err] in H; try discriminate H.
  destruct (first_trouble p (dump bs' w a) (all_steps (dump bs' w a))) as [[x| |]|]; cbn [finish map_err] in H'; try discriminate H'.
  assert (Hw' : forall i, In i reading_order -> ~ In i (pixel_words k) -> dword (dump bs' w a) i = dword (dump bs w a) i).
  { intros i Hi Hn. destruct (Hw i Hi Hn) as (x & X1 & X2).
    rewrite (proj1 (corrects_dword _ i x B1 X1)), (proj1 (corrects_dword _ i x B2 X2)). reflexivity. }
  destruct (opened_but layout641 12 384 wa wb a k _ _ d w1 (decoded641_but FO _ _ k Hk Hw') Hd Hu Hbuf H) as (d2 & w3 & N & D & G).
  rewrite N in H'. apply pair_equal_spec in H'. destruct H' as [E <-].
  assert (d2 = d') as <- by congruence. split; [exact D|exact G].
Qed.
End Wear.
Print Assumptions C87_eeprom_not_read_again_640.
Print Assumptions C87_eeprom_not_read_again_641.
Print Assumptions C87_worn_eeprom.
Print Assumptions C88_pixel_word_640.
Print Assumptions C88_pixel_words_641.

(** The same for drivers made from given calibration data, and for the functions of the low-level interface. *)
Theorem C88_calls : forall FO p B ER EW (bs : bus B ER EW) k c' (d : driver (FO := FO)) ops, agree_but k (d_calibration d) c' ->
  Forall2 (seen_but k) (outcomes p bs d ops) (outcomes p bs (recalibrated c' d) ops) /\
  run p bs (recalibrated c' d) ops = recalibrated c' (run p bs d ops).
Proof. intros FO p B ER EW bs k c' d ops H. exact (outcomes_but p bs k c' ops d H). Qed.
Print Assumptions C88_calls.
Theorem C88_low_level : forall FO p E k (c c' : calib FO) emissivity t_a t_r correction pixel_data ram sp ap mask dest dest',
  agree_but k c c' -> but k dest dest' ->
  match raw_pixels_to_ir_data p (E := E) c emissivity correction pixel_data ram sp ap mask dest,
        raw_pixels_to_ir_data p (E := E) c' emissivity correction pixel_data ram sp ap mask dest' with
  | Ok (t, l), Ok (t', l') => t' = t /\ but k l l'
  | Err e, Err e' => e' = e | Panic, Panic => True | Diverge, Diverge => True | _, _ => False end /\
  match raw_pixels_to_temperatures p (E := E) c emissivity t_r correction pixel_data ram sp ap mask dest,
        raw_pixels_to_temperatures p (E := E) c' emissivity t_r correction pixel_data ram sp ap mask dest' with
  | Ok (t, l), Ok (t', l') => t' = t /\ but k l l'
  | Err e, Err e' => e' = e | Panic, Panic => True | Diverge, Diverge => True | _, _ => False end /\
  match raw_ir_to_temperatures (E := E) c emissivity t_a t_r sp mask dest,
        raw_ir_to_temperatures (E := E) c' emissivity t_a t_r sp mask dest' with
  | Ok l, Ok l' => but k l l' | Panic, Panic => True | _, _ => False end.
Proof.
  intros FO p E k c c' emissivity t_a t_r correction pixel_data ram sp ap mask dest dest' Hc Hd. split; [|split].
  - exact (raw_ir_but p k c c' Hc E emissivity correction pixel_data ram sp ap mask dest dest' Hd).
  - exact (raw_temperatures_but p k c c' Hc E emissivity t_r correction pixel_data ram sp ap mask dest dest' Hd).
  - exact (raw_ir_to_temperatures_but k c c' Hc E emissivity t_a t_r sp mask dest dest' Hd).
Qed.
Print Assumptions C88_low_level.

(** ** Concrete cases: toy cameras with an EEPROM *)
From Verif Require Import Demo Dumps.
Definition in_eeprom (wb : list Z) : bool :=
  match wb with
  | [hi; lo] => (0x24 <=? hi) && (hi <=? 0x27) && (0 <=? lo) && (lo <? 256) && (256 * hi + lo <=? 0x273F)
  | _ => false
  end.
Lemma in_eeprom_asks wb : in_eeprom wb = true -> asks_eeprom wb.
Proof.
  destruct wb as [|hi [|lo [|x l]]]; try discriminate. cbn [in_eeprom]. intros H.
  repeat (apply andb_prop in H; destruct H as [H ?]).
  repeat match goal with X : (_ <=? _) = true |- _ => apply Z.leb_le in X | X : (_ <? _) = true |- _ => apply Z.ltb_lt in X end.
  exists (256 * hi + lo). unfold eeprom_address. split; [lia|].
  rewrite (Z.mul_comm 256 hi), Z.div_add_l, (Z.div_small lo), Z.add_0_r by lia.
  rewrite Z.add_comm, Z.mod_add, Z.mod_small by lia. reflexivity.
Qed.
(** The toy camera of [Demo] with the given EEPROM contents. *)
Definition toy_with (eeprom : list Z) : bus toy string string := {|
  dev_write_read := fun t a wb buf =>
    let '(t', out, e) := dev_write_read (toy_bus never never) t a wb buf in
    (t', if in_eeprom wb then skipn (Z.to_nat (2 * (256 * nth 0 wb 0 + nth 1 wb 0 - 0x2400))) eeprom else out, e);
  dev_write := dev_write (toy_bus never never) |}.
Lemma toy_with_same e1 e2 : same_but_eeprom (toy_with e1) (toy_with e2).
Proof.
  constructor.
  - reflexivity.
  - intros b a wb buf H. cbn [toy_with dev_write_read].
    destruct (in_eeprom wb) eqn:E; [destruct (H (in_eeprom_asks wb E))|reflexivity].
  - intros b a wb buf b1 out e H. cbn [toy_with dev_write_read] in *.
    destruct (toy_tick never b); injection H as <- _ <-; eexists; reflexivity.
Qed.

(** C87: one bit of every word of the EEPROM is flipped.  The words the two cameras send differ, all
    words used were codewords, and opening the camera succeeds. *)
Example C87_concrete :
  let good := toy_with datasheet641 in let bad := toy_with faulty641 in let w := toy0 0x0009 0x0901 in
  same_but_eeprom good bad /\
  (forall i, In i reading_order ->
     is_codeword (ee_word (dump good w 0x33) i) /\ (distance (ee_word (dump bad w 0x33) i) (ee_word (dump good w 0x33) i) <= 1)%nat) /\
  match new good (calib641_from_i2c ZFO Debug good) 12 384 w 0x33 with
  | (Ok d, _) => map (fun x => (fst x, length (snd x))) (outcomes Debug good d [OpGenerateIfReady (FO := ZFO) (repeat (0 : F ZFO) 192)]) =
                 [(Ok (OutBool true), 192%nat)]
  | _ => False
  end /\ dump bad w 0x33 <> dump good w 0x33.
Proof.
  cbv zeta. split; [apply toy_with_same|].
  assert (E1 : dump (toy_with datasheet641) (toy0 0x0009 0x0901) 0x33 = datasheet641) by (vm_compute; reflexivity).
  assert (E2 : dump (toy_with faulty641) (toy0 0x0009 0x0901) 0x33 = faulty641) by (vm_compute; reflexivity).
  rewrite E1, E2. split; [|split].
  - intros i Hi. destruct (proj2 C46_every_word_faulty i Hi) as [H1 H2]. split; [exact H1|]. rewrite H2. apply Nat.le_refl.
  - vm_compute. reflexivity.
  - intros E. assert (N : nth 1 faulty641 0 = nth 1 datasheet641 0) by (rewrite E; reflexivity). vm_compute in N. discriminate N.
Qed.

(** C88: the word of pixel 100 of the datasheet's MLX90640 is replaced.  The raw images of the two
    cameras differ, at position 100. *)
Definition hurt640 : list Z := bytes_of_words (header640 ++ repeat 0x08A0 100 ++ [0x7C12] ++ repeat 0x08A0 667).
Example C88_concrete :
  let good := toy_with datasheet640 in let bad := toy_with hurt640 in let w := toy0 0x0009 0x0901 in
  same_but_eeprom good bad /\
  (forall i, (0x10 <= i < 832)%nat -> i <> (0x40 + 100)%nat -> ee_word (dump bad w 0x33) i = ee_word (dump good w 0x33) i) /\
  match new good (calib640_from_i2c ZFO Debug good) 24 1536 w 0x33, new bad (calib640_from_i2c ZFO Debug bad) 24 1536 w 0x33 with
  | (Ok d, _), (Ok d', _) =>
      let image bs x := match outcomes Debug bs x [OpGenerateRawSubpage (FO := ZFO) One (repeat (0 : F ZFO) 768)] with
                        | [(Ok _, l)] => l | _ => [] end in
      nth_error (image good d) 100 <> nth_error (image bad d') 100 /\ nth_error (image good d) 102 = nth_error (image bad d') 102 /\
      length (image good d) = 768%nat
  | _, _ => False
  end.
Proof.
  cbv zeta. split; [apply toy_with_same|]. split.
  - assert (E1 : dump (toy_with datasheet640) (toy0 0x0009 0x0901) 0x33 = datasheet640) by (vm_compute; reflexivity).
    assert (E2 : dump (toy_with hurt640) (toy0 0x0009 0x0901) 0x33 = hurt640) by (vm_compute; reflexivity).
    rewrite E1, E2.
    assert (H : forallb (fun i => Nat.eqb i 164 || (ee_word hurt640 i =? ee_word datasheet640 i)) (seq 16 816) = true) by (vm_compute; reflexivity).
    intros i Hi Hne. rewrite forallb_forall in H. specialize (H i ltac:(apply in_seq; lia)). cbv beta in H.
    apply orb_prop in H. destruct H as [H|H]; [apply Nat.eqb_eq in H; lia|apply Z.eqb_eq in H; exact H].
  - vm_compute. split; [discriminate|]. split; reflexivity.
Qed.
