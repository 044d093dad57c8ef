(** * Properties C60, C61: the reference camera's own interface, and concrete
    cases for C30, C56-C59. *)
From Verif Require Import Base FloatOps Register Bus Camera Cam640 Cam641 Calc CalcFacts Driver
  BitFacts SpecRegister RegisterFacts SpecCamera CameraFacts SpecDriver DriverFacts StepFacts Demo
  SpecImage SpecCall ImageFacts SeenFacts Mock SpecMock P_Bus P_Image P_Frames TraceFacts MockFacts P_Mock P_Reference.

(** ** C60: write protection of the EEPROM *)
(** The word at EEPROM address [a]. *)
Definition eeprom_word (k : mock) (a : Z) : Z := word_at (mk_eeprom k) (Z.to_nat (a - 0x2400)).

(** The documented writable bits of the four words from 0x240C on. *)
Definition writable_bits (a : Z) : Z :=
  if a =? 0x240C then 0x1FFF else if a =? 0x240E then 0x000F else if a =? 0x240F then 0x007F else 0.
(** Only writable bits differ between [k] and [k']. *)
Definition protected (k k' : mock) : Prop :=
  forall a i, 0x2400 <= a <= 0x273F -> 0 <= i < 16 -> Z.testbit (writable_bits a) i = false ->
  Z.testbit (eeprom_word k' a) i = Z.testbit (eeprom_word k a) i.

(** Splicing [data] into a list at an even byte offset. *)
Lemma splice_nth (l data : list Z) s i : (s + length data <= length l)%nat ->
  nth i (firstn s l ++ data ++ skipn (s + length data) l) 0 =
  if Nat.ltb i s then nth i l 0 else if Nat.ltb i (s + length data) then nth (i - s) data 0 else nth i l 0.
Proof.
  intros H. assert (Hf : length (firstn s l) = s) by (rewrite firstn_length; lia).
  destruct (Nat.ltb_spec i s).
  - rewrite app_nth1 by lia. apply nth_firstn_lt. lia.
  - rewrite app_nth2 by lia. rewrite Hf. destruct (Nat.ltb_spec i (s + length data)).
    + apply app_nth1. lia.
    + rewrite app_nth2 by lia. rewrite nth_skipn_add. f_equal. lia.
Qed.

Lemma mask_bits existing mask new i : word mask -> check_new_against_mask existing mask new = true -> 0 <= i < 16 ->
  Z.testbit mask i = false -> Z.testbit new i = Z.testbit existing i.
Proof.
  intros Hm H Hi Hb. unfold check_new_against_mask in H. apply Z.eqb_eq in H.
  assert (Ht : Z.testbit (Z.land new (not16 mask)) i = Z.testbit (Z.land existing (not16 mask)) i) by (rewrite H; reflexivity).
  rewrite !Z.land_spec in Ht.
  assert (Hn : Z.testbit (not16 mask) i = true).
  { unfold not16. rewrite Z.lxor_spec, Hb. change 65535 with (Z.ones 16). rewrite Z.ones_spec_low by lia. reflexivity. }
  rewrite Hn, !andb_true_r in Ht. exact Ht.
Qed.

(** A write that starts at control register 1 (0x240C), of one to four words. *)
Theorem C60_protected_from_control_register_1 : forall k words k',
  length (mk_eeprom k) = 1664%nat -> (length words <= 4)%nat ->
  mock_set k 0x240C (concat (map (fun w => [w / 256; w mod 256]) words)) = inl k' ->
  protected k k' /\
  forall j w, nth_error words j = Some w -> eeprom_word k' (0x240C + Z.of_nat j) = w.
Proof.
  intros k words k' Hl Hn H.
  assert (Hbe : forall x, be16 (x / 256) (x mod 256) = x) by apply be16_address.
  assert (G : forall ws, length (concat (map (fun w : Z => [w / 256; w mod 256]) ws)) = (2 * length ws)%nat).
  { induction ws as [|x ws IH]; [reflexivity|]. cbn [map concat app length]. rewrite IH. lia. }
  set (data := concat (map (fun w : Z => [w / 256; w mod 256]) words)) in *.
  assert (Hd : length data = (2 * length words)%nat) by apply G.
  assert (Hnth : forall j w, nth_error words j = Some w -> nth (2 * j) data 0 = w / 256 /\ nth (2 * j + 1) data 0 = w mod 256).
  { unfold data. clear. induction words as [|x ws IH]; intros [|j] w Hj; cbn [nth_error] in Hj; try discriminate.
    - injection Hj as ->. split; reflexivity.
    - replace (2 * S j)%nat with (S (S (2 * j))) by lia. cbn [map concat app]. cbn [nth Nat.add]. apply IH, Hj. }
  unfold mock_set in H. rewrite Hd in H.
  replace (65535 <? 9228 + Z.of_nat (2 * length words) / 2) with false in H.
  2:{ symmetry. apply Z.ltb_ge. rewrite Nat2Z.inj_mul, Z.mul_comm, Z.div_mul by lia. lia. }
  change (rom_range 9228) with false in H. change (eeprom_range 9228) with true in H.
  destruct (ram_range k 9228); cbn [orb] in H; [discriminate|].
  unfold mock_set_eeprom in H. rewrite Hd in H. unfold mslice in H.
  change (Z.to_nat ((9228 - 9216) * 2)) with 24%nat in H. change (Z.to_nat ((9228 - 0x240C) * 2)) with 0%nat in H.
  rewrite Hl in H. replace (Nat.ltb 1664 (24 + 2 * length words)) with false in H by (symmetry; apply Nat.ltb_ge; lia).
  change (9228 <? 0x240C) with false in H.
  replace (Nat.ltb (2 * length words) 0 || Nat.ltb 8 (2 * length words))%bool with false in H
    by (symmetry; apply orb_false_intro; apply Nat.ltb_ge; lia).
  rewrite Nat.sub_0_r in H. change (skipn 0 eeprom_write_mask) with eeprom_write_mask in H.
  destruct (check_words _ _ _ _) eqn:Hc in H; [discriminate|]. injection H as <-.
  assert (Hnew : forall i, nth i (mk_eeprom (set_eeprom_bytes k (firstn 24 (mk_eeprom k) ++ data ++ skipn (24 + 2 * length words) (mk_eeprom k)))) 0 =
    if Nat.ltb i 24 then nth i (mk_eeprom k) 0 else if Nat.ltb i (24 + 2 * length words) then nth (i - 24) data 0 else nth i (mk_eeprom k) 0).
  { intros i. cbn [mk_eeprom set_eeprom_bytes]. rewrite <- Hd. apply splice_nth. rewrite Hd, Hl. lia. }
  assert (Hword : forall a, 0x2400 <= a -> eeprom_word (set_eeprom_bytes k (firstn 24 (mk_eeprom k) ++ data ++ skipn (24 + 2 * length words) (mk_eeprom k))) a =
    match nth_error words (Z.to_nat (a - 0x240C)) with Some w => if a <? 0x240C then eeprom_word k a else w | None => eeprom_word k a end).
  { intros a Ha. unfold eeprom_word, word_at. rewrite !Hnew.
    destruct (Z.ltb_spec a 0x240C) as [Hlt|Hge].
    - rewrite !(proj2 (Nat.ltb_lt _ 24)) by lia. destruct (nth_error words _); reflexivity.
    - rewrite !(proj2 (Nat.ltb_ge _ 24)) by lia.
      destruct (nth_error words (Z.to_nat (a - 0x240C))) as [w|] eqn:Ew.
      + assert (Hj : (Z.to_nat (a - 0x240C) < length words)%nat) by (apply nth_error_Some; congruence).
        rewrite !(proj2 (Nat.ltb_lt _ (24 + 2 * length words))) by lia.
        destruct (Hnth _ _ Ew) as [N1 N2].
        replace (2 * Z.to_nat (a - 9216) - 24)%nat with (2 * Z.to_nat (a - 0x240C))%nat by lia.
        replace (2 * Z.to_nat (a - 9216) + 1 - 24)%nat with (2 * Z.to_nat (a - 0x240C) + 1)%nat by lia.
        rewrite N1, N2. pose proof (Hbe w) as E. unfold be16 in E. lia.
      + apply nth_error_None in Ew.
        rewrite !(proj2 (Nat.ltb_ge _ (24 + 2 * length words))) by lia. reflexivity. }
  split.
  - intros a i Ha Hi Hb. rewrite Hword by lia.
    destruct (nth_error words (Z.to_nat (a - 0x240C))) as [w|] eqn:Ew; [|reflexivity].
    destruct (Z.ltb_spec a 0x240C) as [|Hge]; [reflexivity|].
    assert (Hj : (Z.to_nat (a - 0x240C) < length words)%nat) by (apply nth_error_Some; congruence).
    (* the checked words *)
    assert (Hchk : check_new_against_mask (eeprom_word k a) (writable_bits a) w = true).
    { unfold eeprom_word, word_at.
      assert (Ho : forall q, (q < 2 * length words)%nat -> nth (24 + q) (mk_eeprom k) 0 =
        nth q (firstn (2 * length words) (skipn 24 (mk_eeprom k))) 0).
      { intros q Hq. rewrite nth_firstn_lt, nth_skipn_add by exact Hq. reflexivity. }
      remember (Z.to_nat (a - 0x240C)) as j eqn:Ej.
      replace (2 * Z.to_nat (a - 9216))%nat with (24 + 2 * j)%nat by lia.
      replace (24 + 2 * j + 1)%nat with (24 + (2 * j + 1))%nat by lia. rewrite !Ho by lia.
      assert (Hlf : length (firstn (2 * length words) (skipn 24 (mk_eeprom k))) = (2 * length words)%nat)
        by (rewrite firstn_length, skipn_length; lia).
      revert Hc Hlf. generalize (firstn (2 * length words) (skipn 24 (mk_eeprom k))). intros old Hc Hlf.
      clear Ho Hnew Hword Hb. assert (Ea : a = 0x240C + Z.of_nat j) by lia. clear Ej Hge Ha. subst a.
      unfold data in Hc. clear data Hd Hnth. unfold eeprom_write_mask in Hc.
      destruct words as [|w0 [|w1 [|w2 [|w3 [|]]]]]; cbn [length] in *; try lia.
      all: repeat (destruct old as [|? old]; cbn [length] in Hlf; try lia).
      all: cbn [map concat app firstn Nat.mul Nat.add check_words] in Hc.
      all: repeat match type of Hc with context [if ?b then _ else _] => let E := fresh "E" in destruct b eqn:E in Hc; [|discriminate] end.
      all: rewrite ?Hbe in *; unfold be16 in *.
      all: destruct j as [|[|[|[|]]]]; cbn [length] in Hj; try lia; cbn [nth_error] in Ew; injection Ew as ->;
        cbn [nth Nat.mul Nat.add]; rewrite ?(Z.mul_comm 256);
        first [exact E|exact E0|exact E1|exact E2]. }
    apply (mask_bits _ (writable_bits a)); [|exact Hchk|exact Hi|exact Hb].
    unfold writable_bits, word. destruct (a =? 0x240C); [lia|]. destruct (a =? 0x240E); [lia|]. destruct (a =? 0x240F); lia.
  - intros j w Hj. rewrite Hword by lia. replace (Z.to_nat (0x240C + Z.of_nat j - 0x240C)) with j by lia.
    rewrite Hj. replace (0x240C + Z.of_nat j <? 0x240C) with false by (symmetry; apply Z.ltb_ge; lia). reflexivity.
Qed.
Print Assumptions C60_protected_from_control_register_1.

(** Refuted for other starting words: control register 2 (0x240D), documented in
    the code as "entirely reserved", accepts any value; the I2C configuration and
    address words (0x240E, 0x240F) cannot be written at all; below 0x240C the mock
    panics instead of returning an error. *)
Theorem C60_refuted_control_register_2 : forall lay i2c k w, known lay -> mock_of lay i2c k -> word w ->
  exists k', mock_set k 0x240D [w / 256; w mod 256] = inl k' /\ eeprom_word k' 0x240D = w.
Proof.
  intros lay i2c k w Hk Hm Hw. pose proof (known_last lay Hk) as Hlast.
  assert (He : mk_ram_end k = ram_last lay) by apply Hm.
  assert (Hl : length (mk_eeprom k) = 1664%nat) by apply Hm.
  eexists. split.
  - unfold mock_set. cbn [length]. change (65535 <? 0x240D + Z.of_nat 2 / 2) with false. cbv iota.
    replace (rom_range 0x240D || ram_range k 0x240D) with false.
    2:{ unfold ram_range. rewrite He, in_range_false by lia. reflexivity. }
    change (eeprom_range 0x240D) with true. cbv iota. unfold mock_set_eeprom, mslice.
    change (Z.to_nat ((0x240D - 0x2400) * 2)) with 26%nat. change (Z.to_nat ((0x240D - 0x240C) * 2)) with 2%nat.
    cbn [length]. rewrite Hl. change (Nat.ltb 1664 (26 + 2)) with false. cbv iota.
    change (0x240D <? 0x240C) with false. change (Nat.ltb 2 2 || Nat.ltb 8 2)%bool with false. cbv iota.
    change (2 - 2)%nat with 0%nat. change (firstn 0 (skipn 2 eeprom_write_mask)) with (@nil Z).
    replace (check_words 0x240D (firstn 2 (skipn 26 (mk_eeprom k))) [] [w / 256; w mod 256]) with (@None mock_error);
      [reflexivity|].
    destruct (firstn 2 (skipn 26 (mk_eeprom k))) as [|? [|? ?]]; reflexivity.
  - unfold eeprom_word, word_at. cbn [mk_eeprom set_eeprom_bytes].
    assert (H : (26 + length [(w / 256)%Z; (w mod 256)%Z] <= length (mk_eeprom k))%nat) by (rewrite Hl; cbn [length]; lia).
    pose proof (splice_nth (mk_eeprom k) [w / 256; w mod 256] 26) as Hs. cbn [length] in Hs, H.
    change (2 * Z.to_nat (0x240D - 0x2400))%nat with 26%nat. change (26 + 1)%nat with 27%nat.
    rewrite !Hs by exact H. cbn [Nat.ltb Nat.leb Nat.add Nat.sub nth]. rewrite Z.mul_comm, (Z.mul_comm _ 256).
    symmetry. apply Z_div_mod_eq_full.
Qed.
Print Assumptions C60_refuted_control_register_2.

Theorem C60_refuted_other_words : forall lay i2c k hi lo a, known lay -> mock_of lay i2c k ->
  0x2400 <= a < 0x240C \/ 0x240D < a < 0x2740 -> mock_set k a [hi; lo] = inr MockPanic.
Proof.
  intros lay i2c k hi lo a Hk Hm Ha. pose proof (known_last lay Hk) as Hlast.
  assert (He : mk_ram_end k = ram_last lay) by apply Hm.
  assert (Hl : length (mk_eeprom k) = 1664%nat) by apply Hm.
  unfold mock_set. cbn [length]. change (Z.of_nat 2 / 2) with 1.
  replace (65535 <? a + 1) with false by (symmetry; apply Z.ltb_ge; lia).
  unfold rom_range, ram_range, eeprom_range. rewrite He, !in_range_false, in_range_true by lia. cbn [orb].
  unfold mock_set_eeprom, mslice. cbn [length]. rewrite Hl.
  destruct (Nat.ltb_spec 1664 (Z.to_nat ((a - 9216) * 2) + 2)); [reflexivity|].
  destruct (Z.ltb_spec a 9228); [reflexivity|].
  replace (Nat.ltb 2 (Z.to_nat ((a - 9228) * 2))) with true; [reflexivity|].
  symmetry. apply Nat.ltb_lt. lia.
Qed.
Print Assumptions C60_refuted_other_words.

(** The three registers are protected: a write the mock accepts changes only the
    documented bits and stores the written word. *)
Theorem C60_registers_protected : forall k a hi lo k', byte hi -> byte lo -> register_range a = true ->
  ram_range k a = false -> mock_set k a [hi; lo] = inl k' ->
  exists old mask, (forall i, 0 <= i < 16 -> Z.testbit mask i = false -> Z.testbit (256 * hi + lo) i = Z.testbit old i) /\
  ((a = 0x8000 /\ mask = 0x003F /\ old = status_word k /\ mk_status k' = [hi; lo] /\ mk_control k' = mk_control k /\ mk_i2c_config k' = mk_i2c_config k) \/
   (a = 0x800D /\ mask = 0x1FFF /\ old = control_word k /\ mk_control k' = [hi; lo] /\ mk_status k' = mk_status k /\ mk_i2c_config k' = mk_i2c_config k) \/
   (a = 0x800F /\ mask = 0x000F /\ old = word_of (mk_i2c_config k) /\ mk_i2c_config k' = [hi; lo] /\ mk_status k' = mk_status k /\ mk_control k' = mk_control k)).
Proof.
  intros k a hi lo k' Hh Hlo Hr Hram H.
  assert (Hra : 0x8000 <= a <= 0x8016).
  { unfold register_range, in_range in Hr. apply andb_prop in Hr. destruct Hr as [H1 H2].
    apply Z.leb_le in H1. apply Z.leb_le in H2. lia. }
  unfold mock_set in H. cbn [length] in H. change (Z.of_nat 2 / 2) with 1 in H.
  replace (65535 <? a + 1) with false in H by (symmetry; apply Z.ltb_ge; lia).
  unfold rom_range in H. rewrite (in_range_false 0 1023 a), Hram in H by lia. cbn [orb] in H.
  unfold eeprom_range in H. rewrite (in_range_false 9216 10047 a), Hr in H by lia.
  change (negb (Nat.eqb 2 2)) with false in H. cbv iota zeta in H.
  assert (G : forall existing mask, word mask -> check_new_against_mask existing mask (word_of [hi; lo]) = true ->
    forall i, 0 <= i < 16 -> Z.testbit mask i = false -> Z.testbit (256 * hi + lo) i = Z.testbit existing i).
  { intros existing mask Hmask Hc i Hi Hb. rewrite (Z.mul_comm 256). apply (mask_bits existing mask); assumption. }
  destruct (Z.eqb_spec a 0x8000) as [->|N1]; [|destruct (Z.eqb_spec a 0x800D) as [->|N2]; [|destruct (Z.eqb_spec a 0x800F) as [->|N3]; [|discriminate]]];
    (destruct (check_new_against_mask _ _ _) eqn:E in H; [|discriminate]); injection H as <-.
  - exists (status_word k), 0x3F. split; [apply G; [unfold word; lia|exact E]|]. left. repeat split.
  - exists (control_word k), 0x1FFF. split; [apply G; [unfold word; lia|exact E]|]. right. left. repeat split.
  - exists (word_of (mk_i2c_config k)), 0x000F. split; [apply G; [unfold word; lia|exact E]|]. right. right. repeat split.
Qed.
Print Assumptions C60_registers_protected.

(** ** C61: set_data_available *)
Lemma low_byte_bits hi lo i : byte lo -> 0 <= i -> Z.testbit (be16 hi lo) i = if i <? 8 then Z.testbit lo i else Z.testbit hi (i - 8).
Proof.
  intros Hl Hi. unfold be16. unfold byte in Hl. change 256 with (2 ^ 8). rewrite <- Z.shiftl_mul_pow2 by lia.
  rewrite Z.add_nocarry_lxor.
  - rewrite Z.lxor_spec. destruct (Z.ltb_spec i 8).
    + rewrite Z.shiftl_spec_low by lia. apply xorb_false_l.
    + rewrite Z.shiftl_spec by lia. rewrite (small_testbit_high lo 8) by (cbn; lia). apply xorb_false_r.
  - apply Z.bits_inj'. intros n Hn. rewrite Z.land_spec, Z.bits_0. destruct (Z.ltb_spec n 8).
    + rewrite Z.shiftl_spec_low by lia. reflexivity.
    + rewrite (small_testbit_high lo 8) by (cbn; lia). apply andb_false_r.
Qed.

Theorem C61_set_true : forall lay i2c k, mock_of lay i2c k ->
  only_changes 3 1 (status_word k) (status_word (set_data_available k true)) /\
  s_new_data (status_doc (status_word (set_data_available k true))) = true /\
  mk_control (set_data_available k true) = mk_control k /\ mk_ram (set_data_available k true) = mk_ram k.
Proof.
  intros lay i2c k Hm. assert (Ht : two_bytes (mk_status k)) by apply Hm.
  destruct Ht as (hi & lo & E & Hh & Hlo). unfold status_word, set_data_available. rewrite E. cbn [mk_status set_status_bytes word_of].
  assert (Hb : byte (Z.lor lo 8)).
  { unfold byte in *. assert (Hn : 0 <= Z.lor lo 8) by (apply Z.lor_nonneg; lia). split; [exact Hn|].
    apply (bits_lt_pow2 (Z.lor lo 8) 8); [lia|exact Hn|]. intros i Hi. rewrite Z.lor_spec.
    rewrite (small_testbit_high lo 8), (small_testbit_high 8 8) by (cbn; lia). reflexivity. }
  split; [|split; [|split; reflexivity]].
  - split; [unfold byte, word, be16 in *; lia|]. intros i Hi Hn. rewrite !bit_testbit, !low_byte_bits by (assumption || lia).
    destruct (i <? 8); [|reflexivity]. rewrite Z.lor_spec.
    replace (Z.testbit 8 i) with false; [apply orb_false_r|]. symmetry. change 8 with (2 ^ 3). apply Z.pow2_bits_false. lia.
  - cbn [status_doc s_new_data]. rewrite bit_testbit, low_byte_bits by (assumption || lia).
    change (3 <? 8) with true. cbv iota. rewrite Z.lor_spec. apply orb_true_r.
Qed.
Print Assumptions C61_set_true.

(** Clearing the flag also clears every higher bit of the low byte, among them
    the documented overwrite and start-measurement flags. *)
Theorem C61_refuted_set_false : forall lay i2c k, mock_of lay i2c k ->
  status_doc (status_word (set_data_available k false)) =
  {| s_subpage := s_subpage (status_doc (status_word k)); s_new_data := false; s_overwrite := false; s_start := false |}.
Proof.
  intros lay i2c k Hm. assert (Ht : two_bytes (mk_status k)) by apply Hm.
  destruct Ht as (hi & lo & E & Hh & Hlo). unfold status_word, set_data_available. rewrite E. cbn [mk_status set_status_bytes word_of].
  assert (Hb : byte (Z.land lo 7)).
  { unfold byte in *. assert (Hn : 0 <= Z.land lo 7) by (apply Z.land_nonneg; lia). split; [exact Hn|].
    apply (bits_lt_pow2 (Z.land lo 7) 8); [lia|exact Hn|]. intros i Hi. rewrite Z.land_spec.
    rewrite (small_testbit_high lo 8) by (cbn; lia). reflexivity. }
  assert (G : forall i, 3 <= i < 8 -> bit (be16 hi (Z.land lo 7)) i = false).
  { intros i Hi. rewrite bit_testbit, low_byte_bits by (assumption || lia).
    replace (i <? 8) with true by (symmetry; apply Z.ltb_lt; lia). rewrite Z.land_spec.
    change 7 with (Z.ones 3). rewrite Z.ones_spec_high by lia. apply andb_false_r. }
  unfold status_doc. rewrite !G by lia. f_equal. cbn [s_subpage]. f_equal.
  apply bits_ext; [lia|lia|]. intros i Hi. rewrite !low_byte_bits by (assumption || lia).
  replace (i <? 8) with true by (symmetry; apply Z.ltb_lt; lia). rewrite Z.land_spec.
  replace (Z.testbit 7 i) with true; [apply andb_true_r|]. symmetry. change 7 with (Z.ones 3). apply Z.ones_spec_low. lia.
Qed.
Print Assumptions C61_refuted_set_false.

(** ** Concrete cases *)
(** A reference MLX90641 with the register contents of i2c_mock.rs. *)
Definition demo_mock : mock :=
  {| mk_i2c_address := 0x33; mk_ram_end := 0x05BF; mk_eeprom := repeat 0x11 1664; mk_ram := repeat 0x03 896;
     mk_status := [0x00; 0x39]; mk_control := [0x09; 0x01]; mk_i2c_config := [0; 0]; mk_recent := [] |}.
Lemma demo_mock_of : mock_of layout641 0x33 demo_mock.
Proof.
  assert (Hr : forall b n, byte b -> Forall byte (repeat b n)).
  { intros b n Hb. apply Forall_forall. intros x Hx. apply repeat_spec in Hx. subst. exact Hb. }
  unfold mock_of, demo_mock. cbn [mk_i2c_address mk_ram_end mk_eeprom mk_ram mk_status mk_control mk_i2c_config].
  split; [reflexivity|]. split; [reflexivity|]. split; [rewrite repeat_length; reflexivity|].
  split; [apply Hr; unfold byte; lia|]. split; [apply repeat_length|]. split; [apply Hr; unfold byte; lia|].
  split; [|split]; (eexists _, _; split; [reflexivity|]; unfold byte; lia).
Qed.
Definition mock_driver : option (driver (FO := ZFO) (B := mock) (ER := mock_error) (EW := mock_error)) :=
  match new_with_calibration mock_bus 12 384 (Build_world demo_mock []) 0x33 demo641 with
  | (Ok d, _) => Some d
  | _ => None
  end.
(** Construction, two settings, an image, a harness update, a refused image, one
    more image: 30 transactions, all accepted; C30, C56 and C59 apply to every step. *)
Example C30_C56_C59_concrete :
  match mock_driver with
  | Some d =>
      documented (cam _ (d_calibration d)) layout641 /\ (lay_height layout641 <= d_height d)%nat /\
      mock_of layout641 (d_address d) (dev (d_bus d)) /\ usable d layout641 /\
      let hs := [Call (OpSetFrameRate FR_Four); Call (OpSetResolution Res16);
                 Call (OpGenerateIfReady (repeat (0 : F ZFO) 192));
                 Call (OpGenerateIfReady (repeat (0 : F ZFO) 192)); SetDataAvailable true;
                 Call (OpGenerateImage (repeat (0 : F ZFO) 192))] in
      Forall (possible layout641) hs /\
      length (trace (d_bus (all_happen Debug d hs))) = 31%nat /\
      control_word (dev (d_bus (all_happen Debug d hs))) = 0x0181 /\
      status_word (dev (d_bus (all_happen Debug d hs))) = 0x0039
  | None => False
  end.
Proof.
  assert (Hm : match mock_driver with
    | Some d => dev (d_bus d) = add_operation demo_mock (OperationRead 0x800D 2)
    | None => False end) by (vm_compute; reflexivity).
  destruct mock_driver as [d|] eqn:Ed; [|destruct Hm]. rename Hm into H5.
  assert (Hd : d_address d = 0x33 /\ d_height d = 12%nat /\ d_calibration d = demo641 /\
     length (d_pixel_buffer d) = 384%nat).
  { unfold mock_driver in Ed.
    destruct (new_with_calibration mock_bus 12 384 (Build_world demo_mock []) 0x33 demo641) as [r w'] eqn:E.
    apply new_with_calibration_spec in E. destruct E as (evs & _ & E).
    destruct r as [d0| | |]; try discriminate. injection Ed as ->.
    inversion E as [v d0 Hv Hf|]; subst. destruct Hf as (_ & -> & -> & -> & -> & _).
    rewrite repeat_length. repeat split. }
  destruct Hd as (H1 & H2 & H3 & H4).
  assert (Hdoc : documented (cam _ (d_calibration d)) layout641) by (rewrite H3; constructor).
  split; [exact Hdoc|]. split; [rewrite H2; cbn; lia|].
  split; [rewrite H1, H5; eapply same_camera_of; [|exact demo_mock_of]; repeat split|].
  split.
  { split; [exact Hdoc|]. split; [rewrite H2; cbn; lia|]. split; [|rewrite H4; cbn; lia].
    rewrite H3. repeat split; cbn; try lia; reflexivity. }
  cbn zeta. split; [repeat constructor|].
  clear H1 H2 H3 H4 H5 Hdoc. injection Ed as <-. vm_compute. repeat split.
Qed.

(** A bus error in the middle of a call ends it and is returned (C58). *)
Example C58_concrete :
  match demo_driver 12 384 demo641 0x0008 0x0901 with
  | Some d =>
      let '(r, d', _) := step Debug (toy_bus never (at_clock 4)) d (OpGenerateImage (repeat (0 : F ZFO) 192)) in
      r = Err (I2cWriteReadError "nack"%string) /\ length (trace (d_bus d')) = 5%nat
  | None => False
  end.
Proof. vm_compute. split; reflexivity. Qed.
