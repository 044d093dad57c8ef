(** * P_Ee640: decoding the MLX90640 EEPROM (C37, C38, C39, C41, C45, C52, C53, C54). *)
From Verif Require Import Base FloatOps Register Bus Camera Cam640 Calc SpecRegister SpecEeprom
  SpecCamera SpecImage ParseFacts FieldFacts SpecRange RangeFacts Spec640 Ee640 Ee640Facts Ee640Closed
  Ee640Local Demo Dumps.

(** A dump of the whole EEPROM (832 words), possibly followed by more. *)
Definition full_dump (data : list Z) : Prop := Forall byte data /\ (1664 <= length data)%nat.

Lemma forallb_bytes data : forallb (fun b => (0 <=? b) && (b <? 256)) data = true -> Forall byte data.
Proof.
  intros H. rewrite forallb_forall in H. apply Forall_forall. intros x Hx. specialize (H x Hx).
  apply andb_prop in H. destruct H as [H1 H2]. apply Z.leb_le in H1. apply Z.ltb_lt in H2.
  split; assumption.
Qed.

Lemma datasheet640_full : full_dump datasheet640.
Proof.
  split; [apply forallb_bytes; vm_compute; reflexivity|].
  apply Nat.leb_le. vm_compute. reflexivity.
Qed.

Lemma ok_not_panic {E A} (a : A) : @Ok E A a = Panic -> False.
Proof. discriminate. Qed.

(** ** Facts about any successful decoding *)
Section Decoded.
Context (FO : FloatOps) (p : profile) (data : list Z) (c : calib FO).
Hypothesis (Hd : full_dump data) (Hc : from_data640 FO p data = Ok c).

Lemma decoded_is : c = decoded640 FO data.
Proof.
  destruct Hd as [Hb Hl].
  destruct (from_data640_full FO p data Hb Hl) as [(_ & _ & E)|[_ E]]; rewrite E in Hc.
  - discriminate.
  - symmetry. injection Hc. exact (fun e => e).
Qed.

Lemma no_overflow_debug : p = Debug -> ~ some_pixel_overflows (ee_word data).
Proof.
  intros Hp Ho. destruct Hd as [Hb Hl].
  destruct (from_data640_full FO p data Hb Hl) as [(_ & _ & E)|[Hn _]].
  - rewrite E in Hc. discriminate.
  - apply Hn. split; assumption.
Qed.
End Decoded.

Lemma nth_error_map_seq {A} (f : nat -> A) n i : (i < n)%nat -> nth_error (map f (seq 0 n)) i = Some (f i).
Proof.
  intros H. rewrite (map_nth_error f i (seq 0 n) (d := i)); [reflexivity|].
  rewrite nth_error_nth' with (d := 0%nat) by (rewrite seq_length; exact H).
  rewrite seq_nth by exact H. reflexivity.
Qed.

Lemma pixel_index r c : (r < 24)%nat -> (c < 32)%nat ->
  (32 * r + c < NUM_PIXELS640)%nat /\ ((32 * r + c) / 32)%nat = r /\ ((32 * r + c) mod 32)%nat = c.
Proof.
  intros Hr Hc. split; [change NUM_PIXELS640 with 768%nat; lia|].
  split; symmetry; [apply (Nat.div_unique _ 32 r c); lia|apply (Nat.mod_unique _ 32 r c); lia].
Qed.

Lemma px_at {A} FO data (f : pixel640 FO -> A) r c : (r < 24)%nat -> (c < 32)%nat ->
  nth_error (map f (map (px FO data) (seq 0 NUM_PIXELS640))) (32 * r + c) = Some (f (px FO data (32 * r + c))).
Proof.
  intros Hr Hc. rewrite map_map. apply (nth_error_map_seq (fun i => f (px FO data i))).
  apply pixel_index; assumption.
Qed.

Lemma bulk_sum data blk r c :
  bulk data blk r c = shifted (average (ee_word data) blk + row_term (ee_word data) blk r
                               + column_term (ee_word data) blk c).
Proof.
  unfold bulk. change shifted with wrap16. rewrite wrap16_add_l, wrap16_add_r.
  rewrite <- (wrap16_add_l (_ + wrap16 _)), wrap16_add_r, wrap16_add_l. reflexivity.
Qed.

(** ** C37 Length of the dump *)

(** Shorter than 831 bytes: rejected. *)
Theorem C37_short_dump_rejected : forall FO p data, (length data < 831)%nat ->
  exists e, from_data640 FO p data = Err e.
Proof.
  intros FO p data H. unfold from_data640.
  destruct (Z.ltb_spec (Z.of_nat (length data)) (EE640_End - EE640_Base)) as [_|Hs].
  - eexists. reflexivity.
  - unfold EE640_End, EE640_Base in Hs. lia.
Qed.
Print Assumptions C37_short_dump_rejected.

(** A full dump is never rejected with an error. *)
Theorem C37_full_dump_not_rejected : forall FO p data, full_dump data ->
  from_data640 FO p data = Panic \/ exists c, from_data640 FO p data = Ok c.
Proof.
  intros FO p data [Hb Hl].
  destruct (from_data640_full FO p data Hb Hl) as [(_ & _ & E)|[_ E]]; rewrite E.
  - left. reflexivity.
  - right. eexists. reflexivity.
Qed.
Print Assumptions C37_full_dump_not_rejected.

(** Refuted: "a dump that does not cover the EEPROM is rejected".  Between 831
    and 1663 bytes the decoder panics, in every build. *)
Theorem C37_refuted_for_truncated_dumps : forall FO p data, Forall byte data ->
  (831 <= length data < 1664)%nat -> from_data640 FO p data = Panic.
Proof. intros FO p data Hb Hl. apply from_data640_mid; assumption. Qed.
Print Assumptions C37_refuted_for_truncated_dumps.

Example C37_datasheet_accepted : exists c, from_data640 ZFO Debug datasheet640 = Ok c.
Proof.
  assert (H : match from_data640 ZFO Debug datasheet640 with Ok _ => true | _ => false end = true)
    by (vm_compute; reflexivity).
  destruct (from_data640 ZFO Debug datasheet640) as [c|e| |]; try discriminate. exists c. reflexivity.
Qed.
(** The datasheet EEPROM without its last word panics. *)
Example C37_one_word_missing :
  from_data640 ZFO Release (firstn 1662 datasheet640) = Panic.
Proof.
  apply C37_refuted_for_truncated_dumps; [apply forallb_bytes; vm_compute; reflexivity|].
  replace (length (firstn 1662 datasheet640)) with 1662%nat by (vm_compute; reflexivity). lia.
Qed.

(** ** C38 Only the calibration words matter *)
Theorem C38_only_calibration_words : forall FO p data1 data2, full_dump data1 -> full_dump data2 ->
  (forall j, (32 <= j < 1664)%nat -> nth j data1 0 = nth j data2 0) ->
  from_data640 FO p data1 = from_data640 FO p data2.
Proof.
  intros FO p data1 data2 [H1 L1] [H2 L2] H.
  rewrite (from_data640_segment FO p data1 H1 L1), (from_data640_segment FO p data2 H2 L2).
  f_equal. f_equal. apply nth_ext with (d := 0) (d' := 0).
  - rewrite !firstn_length, !skipn_length. lia.
  - intros n Hn. rewrite firstn_length, skipn_length in Hn.
    assert (N : forall l : list Z, nth n (firstn 1632 l) 0 = nth n l 0).
    { intros l. rewrite <- (firstn_skipn 1632 l) at 2.
      destruct (Nat.lt_ge_cases n (length (firstn 1632 l))) as [Hlt|Hge].
      - rewrite app_nth1 by exact Hlt. reflexivity.
      - rewrite app_nth2, nth_overflow by exact Hge. rewrite firstn_length in Hge.
        rewrite skipn_all2 by lia. destruct (n - length (firstn 1632 l))%nat; reflexivity. }
    rewrite !N, !nth_skipn. apply H. lia.
Qed.
Print Assumptions C38_only_calibration_words.

(** Different serial numbers and trailing bytes, same result. *)
Example C38_different_serial_number :
  let data2 := repeat 255 32 ++ skipn 32 datasheet640 ++ [1; 2; 3] in
  full_dump datasheet640 /\ full_dump data2 /\
  (forall j, (32 <= j < 1664)%nat -> nth j datasheet640 0 = nth j data2 0) /\ data2 <> datasheet640.
Proof.
  cbv zeta. split; [exact datasheet640_full|].
  assert (Hl : length datasheet640 = 1664%nat) by (vm_compute; reflexivity).
  split.
  { split; [apply forallb_bytes; vm_compute; reflexivity|]. apply Nat.leb_le. vm_compute. reflexivity. }
  split.
  { intros j Hj. rewrite app_nth2 by (rewrite repeat_length; lia). rewrite repeat_length.
    rewrite app_nth1 by (rewrite skipn_length; lia). rewrite nth_skipn. f_equal. lia. }
  intros E. apply (f_equal (fun l => nth 0 l 0)) in E. vm_compute in E. discriminate.
Qed.

(** ** C39 Offsets *)

(** In 16 bits the offset is the documented sum. *)
Theorem C39_offset : forall FO p data c, full_dump data -> from_data640 FO p data = Ok c ->
  forall sp r col, (r < 24)%nat -> (col < 32)%nat -> ~ failed (ee_word data) r col ->
  nth_error (offset_reference_pixels _ c sp) (32 * r + col)
  = Some (shifted (pixel_sum (ee_word data) offset_block r col)).
Proof.
  intros FO p data c Hd Hc sp r col Hr Hcol Hf. rewrite (decoded_is FO p data c Hd Hc).
  cbn [offset_reference_pixels decoded640]. rewrite px_at by assumption.
  destruct (pixel_index r col Hr Hcol) as (_ & E1 & E2). unfold px. rewrite E1, E2.
  destruct (Z.eqb_spec (pixel_word (ee_word data) r col) 0) as [Hz|_]; [contradiction|].
  cbn [px_offset]. rewrite bulk_sum. change shifted with wrap16.
  rewrite wrap16_add_l, wrap16_add_r. reflexivity.
Qed.
Print Assumptions C39_offset.

(** The scaled coefficients of a block fit in 16 bits (the shifts lose nothing). *)
Definition terms_fit (ee : nat -> Z) (blk r col : nat) : Prop :=
  fits (row_term ee blk r) /\ fits (column_term ee blk col) /\ fits (remainder_term ee blk r col).

Lemma shifted_id z : fits z -> shifted z = z.
Proof. exact (wrap16_id z). Qed.

(** With overflow checks (or when no sum overflows) the offset is exact. *)
Theorem C39_offset_exact : forall FO p data c, full_dump data -> from_data640 FO p data = Ok c ->
  forall sp r col, (r < 24)%nat -> (col < 32)%nat -> ~ failed (ee_word data) r col ->
  terms_fit (ee_word data) offset_block r col ->
  p = Debug \/ ~ pixel_overflows (ee_word data) r col ->
  nth_error (offset_reference_pixels _ c sp) (32 * r + col)
  = Some (pixel_sum (ee_word data) offset_block r col).
Proof.
  intros FO p data c Hd Hc sp r col Hr Hcol Hf (T1 & T2 & T3) Hp.
  rewrite (C39_offset FO p data c Hd Hc sp r col Hr Hcol Hf). f_equal.
  assert (Hn : ~ pixel_overflows (ee_word data) r col).
  { destruct Hp as [Hp|Hp]; [|exact Hp]. intros Ho.
    apply (no_overflow_debug FO p data c Hd Hc Hp). exists r, col. auto. }
  apply shifted_id. unfold pixel_sum. unfold pixel_overflows in Hn.
  rewrite !shifted_id in Hn by assumption.
  destruct (in_i16 (average (ee_word data) offset_block + row_term (ee_word data) offset_block r
     + column_term (ee_word data) offset_block col + remainder_term (ee_word data) offset_block r col)) eqn:E.
  - apply in_i16_spec. exact E.
  - exfalso. apply Hn. right. right. split; [exact Hf|]. left. intros F. apply in_i16_spec in F. congruence.
Qed.
Print Assumptions C39_offset_exact.

(** Every pixel has an offset, in both subpages the same. *)
Theorem C39_all_pixels : forall FO p data c, full_dump data -> from_data640 FO p data = Ok c ->
  forall sp, length (offset_reference_pixels _ c sp) = 768%nat /\
             offset_reference_pixels _ c sp = offset_reference_pixels _ c Zero.
Proof.
  intros FO p data c Hd Hc sp. rewrite (decoded_is FO p data c Hd Hc).
  cbn [offset_reference_pixels decoded640]. rewrite !map_length, seq_length. split; reflexivity.
Qed.
Print Assumptions C39_all_pixels.

(** The datasheet's worked example: pixel (12, 16) (1-indexed) has offset -75. *)
Example C39_datasheet :
  ~ failed (ee_word datasheet640) 11 15 /\ terms_fit (ee_word datasheet640) offset_block 11 15 /\
  pixel_sum (ee_word datasheet640) offset_block 11 15 = -75.
Proof.
  split; [|split].
  - unfold failed. vm_compute. discriminate.
  - unfold terms_fit, fits. vm_compute. repeat split; discriminate.
  - vm_compute. reflexivity.
Qed.

(** ** C41 Failed and outlier pixels *)
Theorem C41_flags : forall FO p data c, full_dump data -> from_data640 FO p data = Ok c ->
  forall r col, (r < 24)%nat -> (col < 32)%nat ->
  exists f o,
    nth_error (failed_pixels _ c) (32 * r + col) = Some f /\
    nth_error (outlier_pixels _ c) (32 * r + col) = Some o /\
    (f = true <-> ee_word data (0x40 + (32 * r + col)) = 0) /\
    (o = true <-> ee_word data (0x40 + (32 * r + col)) <> 0 /\ bit (ee_word data (0x40 + (32 * r + col))) 0 = true) /\
    ~ (f = true /\ o = true).
Proof.
  intros FO p data c Hd Hc r col Hr Hcol. rewrite (decoded_is FO p data c Hd Hc).
  exists (px_failed FO (px FO data (32 * r + col))), (px_outlier FO (px FO data (32 * r + col))).
  split; [apply px_at; assumption|]. split; [apply px_at; assumption|].
  destruct (pixel_index r col Hr Hcol) as (_ & E1 & E2). unfold px. rewrite E1, E2.
  change (ee_word data (64 + (32 * r + col))) with (pixel_word (ee_word data) r col).
  destruct (Z.eqb_spec (pixel_word (ee_word data) r col) 0) as [Hz|Hz]; cbn [px_failed px_outlier].
  - rewrite Hz. split; [split; reflexivity|]. split; [|intros [_ H]; discriminate].
    split; [discriminate|]. intros [H _]. contradiction H. reflexivity.
  - split; [split; [discriminate|intros H; contradiction]|]. split; [tauto|intros [H _]; discriminate].
Qed.
Print Assumptions C41_flags.

(** A failed pixel gets no remainders; its offset is the sum of the average and
    the row and column terms, its K_Ta is 0 and its sensitivity is left unscaled. *)
Theorem C41_failed_pixel_values : forall FO p data c, full_dump data -> from_data640 FO p data = Ok c ->
  forall sp r col, (r < 24)%nat -> (col < 32)%nat -> failed (ee_word data) r col ->
  let ee := ee_word data in
  nth_error (offset_reference_pixels _ c sp) (32 * r + col)
    = Some (shifted (average ee offset_block + row_term ee offset_block r + column_term ee offset_block col)) /\
  nth_error (alpha_pixels _ c sp) (32 * r + col)
    = Some (fofZ (shifted (average ee alpha_block + row_term ee alpha_block r + column_term ee alpha_block col))) /\
  nth_error (k_ta_pixels _ c sp) (32 * r + col) = Some (fofZ 0).
Proof.
  intros FO p data c Hd Hc sp r col Hr Hcol Hf ee. rewrite (decoded_is FO p data c Hd Hc).
  cbn [offset_reference_pixels alpha_pixels k_ta_pixels decoded640]. rewrite !px_at by assumption.
  destruct (pixel_index r col Hr Hcol) as (_ & E1 & E2). unfold px. rewrite E1, E2.
  destruct (Z.eqb_spec (pixel_word (ee_word data) r col) 0) as [_|Hz]; [|contradiction].
  cbn [px_offset px_alpha px_k_ta]. rewrite !bulk_sum. auto.
Qed.
Print Assumptions C41_failed_pixel_values.

(** Calibration data with other failed and outlier flags. *)
Definition with_flags {FO : FloatOps} (c : calib FO) (f o : list bool) : calib FO := {|
  cam := cam _ c; k_v_dd := k_v_dd _ c; v_dd_25 := v_dd_25 _ c; cal_resolution := cal_resolution _ c;
  v_dd_0 := v_dd_0 _ c; k_v_ptat := k_v_ptat _ c; k_t_ptat := k_t_ptat _ c; v_ptat_25 := v_ptat_25 _ c;
  alpha_ptat := alpha_ptat _ c; cal_gain := cal_gain _ c; k_s_ta := k_s_ta _ c;
  corner_temperatures := corner_temperatures _ c; k_s_to := k_s_to _ c;
  alpha_correction := alpha_correction _ c; cal_emissivity := cal_emissivity _ c;
  offset_reference_pixels := offset_reference_pixels _ c; offset_reference_cp := offset_reference_cp _ c;
  alpha_pixels := alpha_pixels _ c; alpha_cp := alpha_cp _ c; k_v_pixels := k_v_pixels _ c;
  k_v_cp := k_v_cp _ c; k_ta_pixels := k_ta_pixels _ c; k_ta_cp := k_ta_cp _ c;
  temperature_gradient_coefficient := temperature_gradient_coefficient _ c;
  access_pattern_compensation_pixels := access_pattern_compensation_pixels _ c;
  access_pattern_compensation_cp := access_pattern_compensation_cp _ c;
  failed_pixels := f; outlier_pixels := o |}.

(** Refuted: "failed pixels are skipped in temperature calculations" (and the
    same for outliers): the flags have no influence on any calculation. *)
Theorem C41_refuted_flags_are_not_used : forall {FO : FloatOps} {E} p (c : calib FO) f o,
  (forall em rc px ram sp ap mask dest,
     raw_pixels_to_ir_data (E := E) p (with_flags c f o) em rc px ram sp ap mask dest
     = raw_pixels_to_ir_data p c em rc px ram sp ap mask dest) /\
  (forall em ta tr sp mask dest,
     raw_ir_to_temperatures (E := E) (with_flags c f o) em ta tr sp mask dest
     = raw_ir_to_temperatures c em ta tr sp mask dest) /\
  (forall em tr rc px ram sp ap mask dest,
     raw_pixels_to_temperatures (E := E) p (with_flags c f o) em tr rc px ram sp ap mask dest
     = raw_pixels_to_temperatures p c em tr rc px ram sp ap mask dest).
Proof. intros. split; [|split]; intros; reflexivity. Qed.
Print Assumptions C41_refuted_flags_are_not_used.

(** The datasheet EEPROM with pixel (0, 1) failed and pixel (0, 2) an outlier. *)
Definition flawed640 : list Z := bytes_of_words (header640 ++ [0x08A0; 0; 0x08A1] ++ repeat 0x08A0 765).
Example C41_flawed_dump :
  full_dump flawed640 /\ failed (ee_word flawed640) 0 1 /\ ~ failed (ee_word flawed640) 0 2 /\
  match from_data640 ZFO Debug flawed640 with
  | Ok c => firstn 4 (failed_pixels _ c) = [false; true; false; false] /\
            firstn 4 (outlier_pixels _ c) = [false; false; true; false]
  | _ => False
  end.
Proof.
  split.
  { split; [apply forallb_bytes; vm_compute; reflexivity|]. apply Nat.leb_le. vm_compute. reflexivity. }
  split; [vm_compute; reflexivity|]. split; [unfold failed; vm_compute; discriminate|].
  vm_compute. split; reflexivity.
Qed.

(** ** C45 Overflow checks *)

(** Without overflow checks a full dump always decodes. *)
Theorem C45_release_640 : forall FO data, full_dump data -> exists c, from_data640 FO Release data = Ok c.
Proof.
  intros FO data [Hb Hl].
  destruct (from_data640_full FO Release data Hb Hl) as [(D & _)|[_ E]]; [discriminate|].
  eexists. exact E.
Qed.
Print Assumptions C45_release_640.

(** With overflow checks it panics exactly when a 16-bit sum overflows for some
    pixel. *)
Theorem C45_debug_640 : forall FO data, full_dump data ->
  (from_data640 FO Debug data = Panic <-> some_pixel_overflows (ee_word data)) /\
  (~ some_pixel_overflows (ee_word data) -> from_data640 FO Debug data = from_data640 FO Release data).
Proof.
  intros FO data [Hb Hl].
  destruct (from_data640_full FO Debug data Hb Hl) as [(_ & Ho & E)|[Hn E]];
    destruct (from_data640_full FO Release data Hb Hl) as [(D & _)|[_ E']]; try discriminate.
  - split; [split; auto|]. intros Hn. contradiction.
  - assert (Hn' : ~ some_pixel_overflows (ee_word data)) by tauto.
    split; [|intros _; congruence]. split; [|contradiction]. rewrite E. discriminate.
Qed.
Print Assumptions C45_debug_640.

(** Reachable: a negative K_Ta average, K_Ta scale 2 equal to 13 and remainder -4. *)
Definition overflowing640 : list Z :=
  bytes_of_words (firstn 54 header640 ++ [0xE956; 0x5354; 0x236D] ++ skipn 57 header640 ++ repeat 0x08A8 768).
Example C45_overflow_reachable :
  full_dump overflowing640 /\ from_data640 ZFO Debug overflowing640 = Panic /\
  some_pixel_overflows (ee_word overflowing640).
Proof.
  assert (Hf : full_dump overflowing640).
  { split; [apply forallb_bytes; vm_compute; reflexivity|]. apply Nat.leb_le. vm_compute. reflexivity. }
  assert (Hp : from_data640 ZFO Debug overflowing640 = Panic).
  { assert (Hq : match from_data640 ZFO Debug overflowing640 with Panic => true | _ => false end = true)
      by (vm_compute; reflexivity).
    destruct (from_data640 ZFO Debug overflowing640); try discriminate. reflexivity. }
  split; [exact Hf|]. split; [exact Hp|]. apply (C45_debug_640 ZFO overflowing640 Hf). exact Hp.
Qed.
Example C45_datasheet_does_not_overflow : ~ some_pixel_overflows (ee_word datasheet640).
Proof.
  intros Ho. apply (C45_debug_640 ZFO datasheet640 datasheet640_full) in Ho.
  destruct C37_datasheet_accepted as [c Hc]. exact (ok_not_panic c (eq_trans (eq_sym Hc) Ho)).
Qed.

(** ** C52 Signed bit fields *)

(** The low [n] bits of a word as a two's complement number; higher bits are ignored. *)
Theorem C52_signed_field : forall hi lo n, byte hi -> byte lo -> 1 <= n <= 16 ->
  exists v, i16_from_bits [hi; lo] n = Ok v /\
    - 2 ^ (n - 1) <= v < 2 ^ (n - 1) /\ (v - (256 * hi + lo)) mod 2 ^ n = 0.
Proof.
  intros hi lo n Hh Hl Hn. exists (sbits (be16 hi lo) 0 n).
  split; [apply i16_from_bits_spec; assumption|]. split; [apply sbits_range; lia|].
  replace (256 * hi + lo) with (be16 hi lo) by (unfold be16; lia).
  assert (E : bits (be16 hi lo) 0 n = be16 hi lo mod 2 ^ n)
    by (unfold bits; change (2 ^ 0) with 1; rewrite Z.div_1_r; reflexivity).
  assert (Hp : 2 ^ n <> 0) by (apply Z.pow_nonzero; lia).
  assert (Ez : (be16 hi lo mod 2 ^ n - be16 hi lo) mod 2 ^ n = 0)
    by (rewrite Zminus_mod_idemp_l, Z.sub_diag; apply Z.mod_0_l; exact Hp).
  unfold sbits, sext. rewrite E. destruct (Z.ltb_spec (be16 hi lo mod 2 ^ n) (2 ^ (n - 1))).
  - exact Ez.
  - replace (be16 hi lo mod 2 ^ n - 2 ^ n - be16 hi lo)
      with (be16 hi lo mod 2 ^ n - be16 hi lo + (-1) * 2 ^ n) by ring.
    rewrite Z.mod_add by exact Hp. exact Ez.
Qed.
Print Assumptions C52_signed_field.

(** The three ways to split a word lose nothing: the parts reassemble (modulo
    2^16, since parts may be negative) to the word read. *)
Theorem C52_splits_reassemble : forall hi lo rest, byte hi -> byte lo ->
  (exists a b c d, word_to_u4s (hi :: lo :: rest) = Ok ((a, b, c, d), rest) /\
     0 <= a < 16 /\ 0 <= b < 16 /\ 0 <= c < 16 /\ 0 <= d < 16 /\
     256 * hi + lo = a * 4096 + b * 256 + c * 16 + d) /\
  (exists a b c d, word_to_i4s (hi :: lo :: rest) = Ok ((a, b, c, d), rest) /\
     -8 <= a < 8 /\ -8 <= b < 8 /\ -8 <= c < 8 /\ -8 <= d < 8 /\
     256 * hi + lo = (a mod 16) * 4096 + (b mod 16) * 256 + (c mod 16) * 16 + d mod 16) /\
  (exists a b1 b0 b, word_6_10_split (hi :: lo :: rest) = Ok ((a, [b1; b0]), rest) /\
     i16_from_bits [b1; b0] 10 = Ok b /\ -32 <= a < 32 /\ -512 <= b < 512 /\
     256 * hi + lo = (a mod 64) * 1024 + b mod 1024).
Proof.
  intros hi lo rest Hh Hl.
  assert (Hs4 : forall x : Z, 0 <= x < 16 -> (sext 4 x) mod 16 = x /\ -8 <= sext 4 x < 8).
  { intros x Hx. unfold sext. change (2 ^ (4 - 1)) with 8. change (2 ^ 4) with 16.
    destruct (Z.ltb_spec x 8); (split; [|lia]).
    - apply Z.mod_small. lia.
    - symmetry. apply (Z.mod_unique _ _ (-1)); lia. }
  assert (Hn : forall b, byte b -> b = bits b 4 4 * 16 + bits b 0 4).
  { intros b Hb. unfold bits. change (2 ^ 0) with 1. change (2 ^ 4) with 16. rewrite Z.div_1_r.
    rewrite (Z.mod_small (b / 16)).
    - rewrite Z.mul_comm. apply Z.div_mod. lia.
    - unfold byte in Hb. split; [apply Z.div_pos; lia|apply Z.div_lt_upper_bound; lia]. }
  pose proof (Hn hi Hh) as Eh. pose proof (Hn lo Hl) as El.
  pose proof (bits_range hi 4 4 ltac:(lia)) as R1. pose proof (bits_range hi 0 4 ltac:(lia)) as R2.
  pose proof (bits_range lo 4 4 ltac:(lia)) as R3. pose proof (bits_range lo 0 4 ltac:(lia)) as R4.
  change (2 ^ 4) with 16 in *.
  split; [|split].
  - exists (bits hi 4 4), (bits hi 0 4), (bits lo 4 4), (bits lo 0 4).
    unfold word_to_u4s, pbind, get_u8, pret.
    destruct (u4s_spec hi Hh) as [-> ->]. destruct (u4s_spec lo Hl) as [-> ->].
    split; [reflexivity|]. lia.
  - exists (sbits hi 4 4), (sbits hi 0 4), (sbits lo 4 4), (sbits lo 0 4).
    unfold word_to_i4s, pbind, get_u8, pret. rewrite !u8_to_i4s_spec by assumption.
    split; [reflexivity|]. unfold sbits.
    destruct (Hs4 _ R1) as [-> ?]. destruct (Hs4 _ R2) as [-> ?].
    destruct (Hs4 _ R3) as [-> ?]. destruct (Hs4 _ R4) as [-> ?]. lia.
  - exists (sbits hi 2 6), (bits hi 0 2), lo, (sbits (be16 (bits hi 0 2) lo) 0 10).
    unfold word_6_10_split, pbind, get_u8, pret.
    destruct (six_bit_spec hi Hh) as [-> ->]. split; [reflexivity|].
    pose proof (bits_range hi 0 2 ltac:(lia)) as R5. change (2 ^ 2) with 4 in R5.
    pose proof (bits_range hi 2 6 ltac:(lia)) as R6. change (2 ^ 6) with 64 in R6.
    split; [apply i16_from_bits_spec; [unfold byte; lia|exact Hl|lia]|].
    split; [exact (sbits_range hi 2 6 ltac:(lia))|].
    split; [exact (sbits_range (be16 (bits hi 0 2) lo) 0 10 ltac:(lia))|].
    assert (E6 : (sbits hi 2 6) mod 64 = bits hi 2 6).
    { unfold sbits, sext. change (2 ^ (6 - 1)) with 32. change (2 ^ 6) with 64.
      destruct (Z.ltb_spec (bits hi 2 6) 32); [apply Z.mod_small; lia|].
      symmetry. apply (Z.mod_unique _ _ (-1)); lia. }
    assert (E10 : (sbits (be16 (bits hi 0 2) lo) 0 10) mod 1024 = be16 (bits hi 0 2) lo).
    { unfold byte in Hl. unfold sbits, sext.
      assert (Eb : bits (be16 (bits hi 0 2) lo) 0 10 = be16 (bits hi 0 2) lo).
      { unfold bits at 1. change (2 ^ 0) with 1. rewrite Z.div_1_r. apply Z.mod_small.
        unfold be16. change (2 ^ 10) with 1024. lia. }
      rewrite Eb. change (2 ^ (10 - 1)) with 512. change (2 ^ 10) with 1024. unfold be16.
      destruct (Z.ltb_spec (bits hi 0 2 * 256 + lo) 512); [apply Z.mod_small; lia|].
      symmetry. apply (Z.mod_unique _ _ (-1)); lia. }
    rewrite E6, E10. unfold be16.
    assert (Eh2 : hi = bits hi 2 6 * 4 + bits hi 0 2).
    { unfold bits. change (2 ^ 0) with 1. change (2 ^ 2) with 4. change (2 ^ 6) with 64. rewrite Z.div_1_r.
      unfold byte in Hh. rewrite (Z.mod_small (hi / 4)).
      - rewrite Z.mul_comm. apply Z.div_mod. lia.
      - split; [apply Z.div_pos; lia|apply Z.div_lt_upper_bound; lia]. }
    lia.
Qed.
Print Assumptions C52_splits_reassemble.

Example C52_negative_field : i16_from_bits [0x13; 0xF0] 10 = Ok (-16).
Proof. reflexivity. Qed.

(** ** C53 Sensitivity corrections of the temperature ranges *)
Theorem C53_range_corrections : forall FO p num basic ct (kst : list (F FO)),
  length ct = num -> length kst = num -> (basic < num)%nat ->
  (forall n, (S n < num)%nat -> fits (nth (n + 1) ct 0 - nth n ct 0)) ->
  exists l, alpha_correction_coefficients FO p num basic ct kst = Ok l /\ length l = num /\
    (forall n, (n < num)%nat -> nth_error l n = Some (range_correction ct kst basic n)) /\
    nth_error l basic = Some (fofZ 1).
Proof.
  intros FO p num basic ct kst H1 H2 Hb Hf.
  exists (map (range_correction ct kst basic) (seq 0 num)).
  split; [apply alpha_correction_closed; try lia; exact Hf|].
  split; [rewrite map_length, seq_length; reflexivity|].
  assert (Hn : forall n, (n < num)%nat ->
            nth_error (map (range_correction ct kst basic) (seq 0 num)) n = Some (range_correction ct kst basic n)).
  { intros n Hn. apply nth_error_map_seq. exact Hn. }
  split; [exact Hn|]. rewrite (Hn basic Hb). unfold range_correction.
  rewrite Nat.leb_refl, Nat.sub_diag. reflexivity.
Qed.
Print Assumptions C53_range_corrections.

(** The recursion always ends and never leaves the arrays, whatever the
    temperatures: it can only stop at a checked overflow. *)
Theorem C53_terminates : forall FO p num basic ct (kst : list (F FO)),
  length ct = num -> length kst = num -> (basic < num)%nat ->
  (exists l, alpha_correction_coefficients FO p num basic ct kst = Ok l) \/
  (p = Debug /\ alpha_correction_coefficients FO p num basic ct kst = Panic /\
   exists n, (S n < num)%nat /\ ~ fits (nth (n + 1) ct 0 - nth n ct 0)).
Proof.
  intros FO p num basic ct kst H1 H2 Hb. unfold alpha_correction_coefficients.
  set (bad := p = Debug /\ exists n, (S n < num)%nat /\ ~ fits (nth (n + 1) ct 0 - nth n ct 0)).
  assert (Hn : forall fuel n, (n < num)%nat -> (n - basic < fuel)%nat -> (basic - n < fuel)%nat ->
    (exists v, alpha_corr_n FO fuel p n basic ct kst = Ok v) \/
    (bad /\ alpha_corr_n FO fuel p n basic ct kst = Panic)).
  { induction fuel as [|fuel IH]; intros n Hn Hu Hl; [lia|]. cbn [alpha_corr_n].
    destruct (Nat.compare_spec n basic) as [->|H|H].
    - left. eexists. reflexivity.
    - rewrite (nth_error_some kst n (fofZ 0)), (nth_error_some ct (n + 1) 0), (nth_error_some ct n 0) by lia.
      cbn [unwrap bind].
      destruct (@chk_i16_cases lib_error p (nth (n + 1) ct 0 - nth n ct 0)) as [[[Hp Ho] E]|[_ E]];
        rewrite E; cbn [bind].
      + right. split; [split; [exact Hp|exists n; split; [lia|exact Ho]]|reflexivity].
      + destruct (IH (n + 1)%nat ltac:(lia) ltac:(lia) ltac:(lia)) as [[v Ev]|[Hbad Ev]]; rewrite Ev; cbn [bind];
          [left; eexists; reflexivity|right; auto].
    - rewrite (nth_error_some kst (n - 1) (fofZ 0)), (nth_error_some ct n 0), (nth_error_some ct (n - 1) 0) by lia.
      cbn [unwrap bind].
      destruct (@chk_i16_cases lib_error p (nth n ct 0 - nth (n - 1) ct 0)) as [[[Hp Ho] E]|[_ E]];
        rewrite E; cbn [bind].
      + right. split; [split; [exact Hp|exists (n - 1)%nat; split; [lia|]]|reflexivity].
        replace (n - 1 + 1)%nat with n by lia. exact Ho.
      + destruct (IH (n - 1)%nat ltac:(lia) ltac:(lia) ltac:(lia)) as [[v Ev]|[Hbad Ev]]; rewrite Ev; cbn [bind];
          [left; eexists; reflexivity|right; auto]. }
  assert (Hs : forall l, (forall n, In n l -> (n < num)%nat) ->
    (exists r, sequence (map (fun n => alpha_corr_n FO (S (num + basic)) p n basic ct kst) l) = Ok r) \/
    (bad /\ sequence (map (fun n => alpha_corr_n FO (S (num + basic)) p n basic ct kst) l) = Panic)).
  { induction l as [|n l IH]; intros Hl; cbn [map sequence]; [left; eexists; reflexivity|].
    specialize (Hl n (or_introl eq_refl)) as Hn'.
    destruct (Hn (S (num + basic)) n Hn' ltac:(lia) ltac:(lia)) as [[v Ev]|[Hbad Ev]]; rewrite Ev; cbn [bind];
      [|right; auto].
    destruct IH as [[r Er]|[Hbad Er]]; [intros m Hm; apply Hl; right; exact Hm| |]; rewrite Er; cbn [bind];
      [left; eexists; reflexivity|right; auto]. }
  destruct (Hs (seq 0 num)) as [[r Er]|[[Hp Ho] Er]]; [intros n Hin; apply in_seq in Hin; lia| |].
  - left. exists r. exact Er.
  - right. auto.
Qed.
Print Assumptions C53_terminates.

(** The decoder's corrections are these. *)
Theorem C53_mlx90640 : forall FO p data c, full_dump data -> from_data640 FO p data = Ok c ->
  length (alpha_correction _ c) = 4%nat /\
  forall n, (n < 4)%nat -> nth_error (alpha_correction _ c) n =
    Some (range_correction (corner_temperatures _ c) (k_s_to _ c) 1 n).
Proof.
  intros FO p data c Hd Hc. rewrite (decoded_is FO p data c Hd Hc).
  cbn [alpha_correction corner_temperatures k_s_to decoded640].
  rewrite map_length, seq_length. split; [reflexivity|].
  intros n Hn. apply nth_error_map_seq. exact Hn.
Qed.
Print Assumptions C53_mlx90640.

(** With KsTo = 1 everywhere: corrections 1/41, 1, 1+160, (1+160)*(1+160). *)
Example C53_example :
  alpha_correction_coefficients ZFO Debug 4 1 [-40; 0; 160; 320] [1; 1; 1; 1] = Ok [0; 1; 161; 161 * 161].
Proof. vm_compute. reflexivity. Qed.

(** ** C54 Chessboard patterns *)

(** Value at row [r], column [col], chosen by parity. *)
Definition by_parity {A} (ee oe eo oo : A) (r col : nat) : A :=
  if Nat.even r then (if Nat.even col then ee else eo) else (if Nat.even col then oe else oo).

Lemma even_mod2 n : Nat.eqb (n mod 2) 0 = Nat.even n.
Proof.
  pose proof (Nat.div_mod n 2 ltac:(lia)) as E. pose proof (Nat.mod_upper_bound n 2 ltac:(lia)) as B.
  assert (Nat.Even n <-> (n mod 2 = 0)%nat).
  { split; [intros [k Hk]; lia|intros H; exists (n / 2)%nat; lia]. }
  rewrite <- Nat.even_spec in H. destruct (Nat.eqb_spec (n mod 2) 0); destruct (Nat.even n); try reflexivity;
    destruct H as [H1 H2]; try (specialize (H1 eq_refl)); tauto || (specialize (H2 ltac:(assumption)); discriminate).
Qed.

Theorem C54_k_v_iterator : forall A (a b c d : A),
  length (chessboard_iter (a, b, c, d)) = 768%nat /\
  forall r col, (r < 24)%nat -> (col < 32)%nat ->
    nth_error (chessboard_iter (a, b, c, d)) (32 * r + col) = Some (by_parity a b c d r col).
Proof.
  intros A a b c d. unfold chessboard_iter. split; [rewrite map_length, seq_length; reflexivity|].
  intros r col Hr Hcol. destruct (pixel_index r col Hr Hcol) as (Hi & E1 & E2).
  rewrite nth_error_map_seq by exact Hi. change WIDTH640 with 32%nat. rewrite E1, E2, !even_mod2.
  unfold by_parity. destruct (Nat.even r), (Nat.even col); reflexivity.
Qed.
Print Assumptions C54_k_v_iterator.

Theorem C54_k_ta_averages : forall a b c d,
  length (repeat_chessboard (a, b, c, d)) = 768%nat /\
  forall r col, (r < 24)%nat -> (col < 32)%nat ->
    nth_error (repeat_chessboard (a, b, c, d)) (32 * r + col) = Some (by_parity a b c d r col).
Proof.
  intros a b c d. rewrite chessboard_closed. split; [rewrite map_length, seq_length; reflexivity|].
  intros r col Hr Hcol. destruct (pixel_index r col Hr Hcol) as (Hi & E1 & E2).
  rewrite nth_error_map_seq by exact Hi. rewrite E1, E2.
  unfold by_parity. destruct (Nat.even r), (Nat.even col); reflexivity.
Qed.
Print Assumptions C54_k_ta_averages.

Example C54_corner : nth_error (chessboard_iter (1, 2, 3, 4)) (32 * 23 + 30) = Some 2.
Proof. vm_compute. reflexivity. Qed.
