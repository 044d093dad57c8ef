(** * Properties C01-C05: registers, frame rates, resolutions. *)
From Verif Require Import Base FloatOps Register BitFacts SpecRegister RegisterFacts B32 B32Facts
  FrameRateFacts Camera Cam640 Cam641 Time.
From Coq Require Import Reals Lra.
From Flocq Require Import Core BinarySingleNaN.
Open Scope Z_scope.

(** ** C01: setters are isolated.  [*_getters] collects the results of all the
    public getters; each setter changes one of them and only the bits of its field. *)
Theorem C01_status_setters_isolated : forall w s b, word w -> status_getters (E := unit) w = Ok s ->
  (status_getters (E := unit) (reset_new_data w) = Ok (upd_new_data s false) /\
   only_changes 3 1 w (reset_new_data w)) /\
  (status_getters (E := unit) (set_overwrite_enabled w b) = Ok (upd_overwrite s b) /\
   only_changes 4 1 w (set_overwrite_enabled w b)) /\
  (status_getters (E := unit) (set_start_measurement w) = Ok (upd_start s true) /\
   only_changes 5 1 w (set_start_measurement w)).
Proof.
  intros w s b Hw Hs. rewrite status_getters_doc in Hs by assumption. injection Hs as <-.
  destruct (reset_new_data_spec w Hw) as [H1 E1].
  destruct (set_overwrite_spec w b Hw) as [H2 E2].
  destruct (set_start_spec w Hw) as [H3 E3].
  rewrite !status_getters_doc by (apply H1 || apply H2 || apply H3). rewrite E1, E2, E3. auto.
Qed.
Print Assumptions C01_status_setters_isolated.

Theorem C01_control_setters_isolated : forall w s b sp f r a,
  word w -> control_getters (E := unit) w = Ok s ->
  (control_getters (E := unit) (set_use_subpages w b) = Ok (upd_use_subpages s b) /\
   only_changes 0 1 w (set_use_subpages w b)) /\
  (control_getters (E := unit) (set_step_mode w b) = Ok (upd_step_mode s b) /\
   only_changes 1 1 w (set_step_mode w b)) /\
  (control_getters (E := unit) (set_data_hold w b) = Ok (upd_data_hold s b) /\
   only_changes 2 1 w (set_data_hold w b)) /\
  (control_getters (E := unit) (set_subpage_repeat w b) = Ok (upd_subpage_repeat s b) /\
   only_changes 3 1 w (set_subpage_repeat w b)) /\
  (control_getters (E := unit) (set_ctl_subpage w sp) = Ok (upd_subpage s sp) /\
   only_changes 4 1 w (set_ctl_subpage w sp)) /\
  (control_getters (E := unit) (set_ctl_frame_rate w f) = Ok (upd_frame_rate s f) /\
   only_changes 7 3 w (set_ctl_frame_rate w f)) /\
  (control_getters (E := unit) (set_ctl_resolution w r) = Ok (upd_resolution s r) /\
   only_changes 10 2 w (set_ctl_resolution w r)) /\
  (control_getters (E := unit) (set_ctl_access_pattern w a) = Ok (upd_access_pattern s a) /\
   only_changes 12 1 w (set_ctl_access_pattern w a)).
Proof.
  intros w s b sp f r a Hw Hs. rewrite control_getters_doc in Hs by assumption. injection Hs as <-.
  destruct (set_use_subpages_spec w b Hw) as [H1 E1].
  destruct (set_step_mode_spec w b Hw) as [H2 E2].
  destruct (set_data_hold_spec w b Hw) as [H3 E3].
  destruct (set_subpage_repeat_spec w b Hw) as [H4 E4].
  destruct (set_ctl_subpage_spec w sp Hw) as [H5 E5].
  destruct (set_ctl_frame_rate_spec w f Hw) as [H6 E6].
  destruct (set_ctl_resolution_spec w r Hw) as [H7 E7].
  destruct (set_ctl_access_pattern_spec w a Hw) as [H8 E8].
  rewrite (control_getters_doc (set_use_subpages w b)) by apply H1.
  rewrite (control_getters_doc (set_step_mode w b)) by apply H2.
  rewrite (control_getters_doc (set_data_hold w b)) by apply H3.
  rewrite (control_getters_doc (set_subpage_repeat w b)) by apply H4.
  rewrite (control_getters_doc (set_ctl_subpage w sp)) by apply H5.
  rewrite (control_getters_doc (set_ctl_frame_rate w f)) by apply H6.
  rewrite (control_getters_doc (set_ctl_resolution w r)) by apply H7.
  rewrite (control_getters_doc (set_ctl_access_pattern w a)) by apply H8.
  rewrite E1, E2, E3, E4, E5, E6, E7, E8. repeat (split; [split; [reflexivity|assumption]|]).
  split; [reflexivity|assumption].
Qed.
Print Assumptions C01_control_setters_isolated.

(** A raw value with reserved bits set meets the hypotheses. *)
Example C01_example : word 0xF961 /\
  control_getters (E := unit) 0xF961 =
    Ok {| c_use_subpages := true; c_step_mode := false; c_data_hold := false; c_subpage_repeat := false;
          c_subpage := Zero; c_frame_rate := FR_Two; c_resolution := Res18; c_access_pattern := Chess |}
  /\ set_ctl_frame_rate 0xF961 FR_SixtyFour = 0xFBE1.
Proof. split; [unfold word; lia|]. split; reflexivity. Qed.

(** ** C02: decoding two bytes is total and follows the documented layout. *)
Theorem C02_status_decoding : forall hi lo, byte hi -> byte lo ->
  exists w, register_from_slice (E := unit) [hi; lo] = Ok w /\ w = hi * 256 + lo /\
            status_getters (E := unit) w = Ok (status_doc w) /\ to_be_bytes w = [hi; lo].
Proof.
  intros hi lo Hh Hl. exists (be16 hi lo). split; [reflexivity|]. split; [reflexivity|].
  split; [apply status_getters_doc, be16_word; assumption|apply to_be_bytes_be16; assumption].
Qed.
Print Assumptions C02_status_decoding.

Theorem C02_control_decoding : forall hi lo, byte hi -> byte lo ->
  exists w, register_from_slice (E := unit) [hi; lo] = Ok w /\ w = hi * 256 + lo /\
            control_getters (E := unit) w = Ok (control_doc w) /\ to_be_bytes w = [hi; lo].
Proof.
  intros hi lo Hh Hl. exists (be16 hi lo). split; [reflexivity|]. split; [reflexivity|].
  split; [apply control_getters_doc, be16_word; assumption|apply to_be_bytes_be16; assumption].
Qed.
Print Assumptions C02_control_decoding.

Theorem C02_register_equality : forall a b, word a -> word b ->
  (status_eq a b = true <-> status_doc a = status_doc b) /\
  (control_eq a b = true <-> control_doc a = control_doc b).
Proof. intros a b Ha Hb. split; [apply status_eq_spec|apply control_eq_spec]; assumption. Qed.
Print Assumptions C02_register_equality.

Theorem C02_short_slice_panics : forall l, (length l < 2)%nat <-> register_from_slice (E := unit) l = Panic.
Proof.
  intros [|a [|b l]]; simpl; split; intros H; try reflexivity; try lia; discriminate.
Qed.
Print Assumptions C02_short_slice_panics.

Example C02_example : status_doc 0xFFC9 =
  {| s_subpage := One; s_new_data := true; s_overwrite := false; s_start := false |} /\
  status_eq 0xFFC9 0x0009 = true /\ status_eq 0x0009 0x0008 = false.
Proof. repeat split. Qed.

(** ** C03: the I2C configuration register. *)
Theorem C03_i2c_register_roundtrip : forall r,
  i2c_register_from_slice (E := unit) (i2c_register_to_bytes r) = Ok r.
Proof. exact i2c_roundtrip. Qed.
Print Assumptions C03_i2c_register_roundtrip.

(** Polarity: bit 0 clear = fast mode plus on; bit 1 set = thresholds halved;
    bit 2 clear = current limiter on. *)
Theorem C03_i2c_register_decoding : forall hi lo rest, byte hi -> byte lo ->
  i2c_register_from_slice (E := unit) (hi :: lo :: rest) =
  Ok {| fast_mode_plus := negb (bit lo 0); i2c_threshold_halved := bit lo 1;
        sda_current_limiter := negb (bit lo 2) |}.
Proof. exact (@i2c_from_bytes unit). Qed.
Print Assumptions C03_i2c_register_decoding.

(** The setters change one flag each. *)
Theorem C03_i2c_register_setters : forall r b,
  (let r' := set_fast_mode_plus r b in
   fast_mode_plus r' = b /\ i2c_threshold_halved r' = i2c_threshold_halved r /\
   sda_current_limiter r' = sda_current_limiter r) /\
  (let r' := set_i2c_threshold_halved r b in
   fast_mode_plus r' = fast_mode_plus r /\ i2c_threshold_halved r' = b /\
   sda_current_limiter r' = sda_current_limiter r) /\
  (let r' := set_sda_current_limiter r b in
   fast_mode_plus r' = fast_mode_plus r /\ i2c_threshold_halved r' = i2c_threshold_halved r /\
   sda_current_limiter r' = b).
Proof. intros r b. repeat split. Qed.
Print Assumptions C03_i2c_register_setters.

(** Decoding a word and encoding it again keeps the low three bits and clears
    every other bit, whatever it was. *)
Theorem C03_reserved_bits_lost : forall hi lo r, byte hi -> byte lo ->
  i2c_register_from_slice (E := unit) [hi; lo] = Ok r ->
  i2c_register_to_bytes r = [0; bits lo 0 3].
Proof.
  intros hi lo r Hh Hl Hr. rewrite i2c_from_bytes in Hr by assumption. injection Hr as <-.
  assert (Hb : bits lo 0 3 = Z.b2z (bit lo 0) + 2 * Z.b2z (bit lo 1) + 4 * Z.b2z (bit lo 2)).
  { unfold bits, bit. simpl (2 ^ 0). simpl (2 ^ 1). simpl (2 ^ 2). simpl (2 ^ 3). rewrite Z.div_1_r.
    pose proof (Z.div_mod lo 8 ltac:(lia)). pose proof (Z.mod_pos_bound lo 8 ltac:(lia)).
    pose proof (Z.div_mod lo 2 ltac:(lia)). pose proof (Z.mod_pos_bound lo 2 ltac:(lia)).
    pose proof (Z.div_mod lo 4 ltac:(lia)). pose proof (Z.mod_pos_bound lo 4 ltac:(lia)).
    pose proof (Z.div_mod (lo / 2) 2 ltac:(lia)). pose proof (Z.mod_pos_bound (lo / 2) 2 ltac:(lia)).
    pose proof (Z.div_mod (lo / 4) 2 ltac:(lia)). pose proof (Z.mod_pos_bound (lo / 4) 2 ltac:(lia)).
    destruct (Z.eqb_spec (lo mod 2) 1), (Z.eqb_spec (lo / 2 mod 2) 1), (Z.eqb_spec (lo / 4 mod 2) 1);
      simpl Z.b2z; lia. }
  rewrite Hb. destruct (bit lo 0), (bit lo 1), (bit lo 2); reflexivity.
Qed.
Print Assumptions C03_reserved_bits_lost.

(** So "reserved bits are preserved" is false for this register. *)
Theorem C03_preserves_reserved_bits_refuted : exists hi lo r, byte hi /\ byte lo /\
  i2c_register_from_slice (E := unit) [hi; lo] = Ok r /\ i2c_register_to_bytes r <> [hi; lo].
Proof.
  exists 0x00, 0x08. eexists. split; [unfold byte; lia|]. split; [unfold byte; lia|].
  split; [reflexivity|]. discriminate.
Qed.
Print Assumptions C03_preserves_reserved_bits_refuted.

(** ** C04: frame rates. *)
Theorem C04_raw_codes : forall n f, frame_rate_from_raw n = Ok f <-> n = frame_rate_as_raw f.
Proof. exact frame_rate_raw_iff. Qed.
Print Assumptions C04_raw_codes.

(** [TryFrom<u8>] accepts exactly the integral documented rates. *)
Theorem C04_from_u8 : forall v f, frame_rate_try_from_u8 v = Ok f <-> IZR v = frequency f.
Proof. exact try_from_u8_iff. Qed.
Print Assumptions C04_from_u8.

(** [TryFrom<f32>] accepts exactly the documented rates: any other float, infinities
    and NaN included, is an error. *)
Theorem C04_from_f32 : forall l (x : f32),
  (forall f, frame_rate_try_from_f32 (FO := B32 l) x = Ok f <->
             is_finite x = true /\ B2R x = frequency f) /\
  ((forall f, ~ (is_finite x = true /\ B2R x = frequency f)) ->
   frame_rate_try_from_f32 (FO := B32 l) x = Err (InvalidData frame_rate_msg)).
Proof.
  intros l x. split; [intros f; apply (try_from_f32_iff l x f)|].
  intros H. destruct (try_from_f32_total l x) as [[f Hf]|He]; [|exact He].
  exfalso. apply (H f). apply (try_from_f32_iff l x f). exact Hf.
Qed.
Print Assumptions C04_from_f32.

Theorem C04_to_f32_roundtrip : forall l f,
  is_finite (frame_rate_to_f32 (FO := B32 l) f) = true /\
  B2R (frame_rate_to_f32 (FO := B32 l) f) = frequency f /\
  frame_rate_try_from_f32 (FO := B32 l) (frame_rate_to_f32 (FO := B32 l) f) = Ok f.
Proof.
  intros l f. pose proof (to_f32_val l f) as H. split; [apply H|]. split; [apply H|].
  apply try_from_f32_iff. exact H.
Qed.
Print Assumptions C04_to_f32_roundtrip.

(** The number of seconds handed to [Duration::from_secs_f32] is exactly the
    reciprocal of the frequency. *)
Theorem C04_period_exact : forall l f,
  is_finite (frame_rate_period (FO := B32 l) f) = true /\
  (B2R (frame_rate_period (FO := B32 l) f) * frequency f = 1)%R.
Proof.
  intros l f. destruct (period_val l f) as [H1 H2]. split; [exact H1|]. rewrite H2.
  apply Rinv_l. destruct f; unfold frequency; try lra.
Qed.
Print Assumptions C04_period_exact.

(** The [Duration] of a frame: a whole number of nanoseconds which, times the frequency, is
    exactly one second, whichever way [Duration::from_secs_f32] rounds (it keeps integers). *)
Theorem C04_duration : forall E l (rnd : R -> Z) f, (forall z, rnd (IZR z) = z) ->
  exists ns, frame_rate_into_duration (E := E) l rnd f = Ok ns /\ (IZR ns * frequency f = 1000000000)%R.
Proof.
  intros E l rnd f Hr. destruct (period_val l f) as [H1 H2].
  unfold frame_rate_into_duration, duration_from_secs_f32. rewrite H1, H2.
  assert (Hb : (0 <= / frequency f < IZR (2 ^ 64))%R).
  { change (2 ^ 64) with 18446744073709551616. destruct f; unfold frequency; lra. }
  destruct (Rle_dec 0 (/ frequency f)) as [_|N]; [|exfalso; lra].
  destruct (Rlt_dec (/ frequency f) (IZR (2 ^ 64))) as [_|N]; [|exfalso; lra].
  assert (K : forall ns, (/ frequency f * 1000000000 = IZR ns)%R ->
    exists ns', @Ok E Z (rnd (/ frequency f * 1000000000)%R) = Ok ns' /\ (IZR ns' * frequency f = 1000000000)%R).
  { intros ns Hn. exists ns. rewrite Hn, Hr. split; [reflexivity|]. rewrite <- Hn.
    assert (frequency f <> 0)%R by (destruct f; unfold frequency; lra). field. assumption. }
  destruct f; unfold frequency in *; [apply (K 2000000000)|apply (K 1000000000)|apply (K 500000000)|apply (K 250000000)
    |apply (K 125000000)|apply (K 62500000)|apply (K 31250000)|apply (K 15625000)]; lra.
Qed.
Print Assumptions C04_duration.

(** Truncation and rounding to nearest keep integers. *)
Example C04_duration_roundings : (forall z, Ztrunc (IZR z) = z) /\ (forall z, ZnearestE (IZR z) = z).
Proof. split; intros z; [apply Ztrunc_IZR|apply Zrnd_IZR, valid_rnd_N]. Qed.

(** Every other code and number is refused, with the documented message. *)
Theorem C04_rejects : forall n,
  ((forall f, n <> frame_rate_as_raw f) ->
   frame_rate_from_raw n = Err (InvalidData "Invalid frame rate given")) /\
  ((forall f, IZR n <> frequency f) ->
   frame_rate_try_from_u8 n = Err (InvalidData frame_rate_msg)).
Proof.
  intros n. split; intros H.
  - destruct (frame_rate_from_raw n) as [f|e| |] eqn:E.
    + apply frame_rate_raw_iff in E. destruct (H f E).
    + unfold frame_rate_from_raw in E.
      repeat match type of E with context [if ?b then _ else _] => destruct b end; congruence.
    + unfold frame_rate_from_raw in E.
      repeat match type of E with context [if ?b then _ else _] => destruct b end; discriminate.
    + unfold frame_rate_from_raw in E.
      repeat match type of E with context [if ?b then _ else _] => destruct b end; discriminate.
  - destruct (frame_rate_try_from_u8 n) as [f|e| |] eqn:E.
    + apply try_from_u8_iff in E. destruct (H f E).
    + unfold frame_rate_try_from_u8 in E.
      repeat match type of E with context [if ?b then _ else _] => destruct b end; congruence.
    + unfold frame_rate_try_from_u8 in E.
      repeat match type of E with context [if ?b then _ else _] => destruct b end; discriminate.
    + unfold frame_rate_try_from_u8 in E.
      repeat match type of E with context [if ?b then _ else _] => destruct b end; discriminate.
Qed.
Print Assumptions C04_rejects.

Example C04_example : frame_rate_try_from_u8 3 = Err (InvalidData frame_rate_msg) /\
  frame_rate_try_from_u8 16 = Ok FR_Sixteen /\ frequency FR_Half = (/ 2)%R.
Proof. repeat split. Qed.

(** ** C05: resolutions. *)
Theorem C05_resolution_conversions : forall n r,
  (resolution_from_raw n = Ok r <-> n = resolution_as_raw r) /\
  (resolution_try_from_u8 n = Ok r <-> n = resolution_to_u8 r).
Proof. intros n r. split; [apply resolution_raw_iff|apply resolution_u8_iff]. Qed.
Print Assumptions C05_resolution_conversions.

Theorem C05_resolution_rejects : forall n,
  (n < 16 \/ 19 < n ->
   resolution_try_from_u8 n = Err (InvalidData "The given value did not match a valid ADC resolution")) /\
  (n < 0 \/ 3 < n ->
   resolution_from_raw n = Err (InvalidData "Invalid raw resolution value given")).
Proof.
  intros n. unfold resolution_try_from_u8, resolution_from_raw. split; intros H;
    repeat match goal with |- context [?a =? ?b] => destruct (Z.eqb_spec a b); [lia|] end; reflexivity.
Qed.
Print Assumptions C05_resolution_rejects.

(** Both cameras: the correction factor is exactly 2^(calibrated - current), in bits. *)
Theorem C05_resolution_correction_exact : forall l cal cur,
  (is_finite (resolution_correction _ (Mlx90640 (B32 l)) cal cur) = true /\
   B2R (resolution_correction _ (Mlx90640 (B32 l)) cal cur) =
     bpow radix2 (resolution_to_u8 cal - resolution_to_u8 cur)) /\
  (is_finite (resolution_correction _ (Mlx90641 (B32 l)) cal cur) = true /\
   B2R (resolution_correction _ (Mlx90641 (B32 l)) cal cur) =
     bpow radix2 (resolution_to_u8 cal - resolution_to_u8 cur)).
Proof. intros l cal cur. exact (resolution_correction_val l cal cur). Qed.
Print Assumptions C05_resolution_correction_exact.

(** The i8 subtraction of the raw codes stays in range. *)
Theorem C05_no_i8_overflow : forall cal cur,
  -128 <= resolution_as_raw cal - resolution_as_raw cur <= 127.
Proof. intros [] []; simpl; lia. Qed.
Print Assumptions C05_no_i8_overflow.
