(** * P_Finite: C67 -- when the values of a raw image are numbers (binary32). *)
From Verif Require Import Base FloatOps Register Bus Camera Cam640 Cam641 Calc Driver SpecRegister SpecEeprom SpecHamming ParseFacts
  SpecDriver SpecCall P_Image Dumps Ee641Words
  SpecCamera SpecImage B32 B32Facts SpecFinite BoundFacts FiniteFacts FrameRateFacts
  FieldFacts Spec640 Ee640 Ee640Facts Ee640Closed P_Ee640 P_Ee640Real Spec641 Ee641 Ee641Closed Ee641Facts P_Ee641 P_Ee641Real P_Usable Driver.
From Coq Require Import Reals Lra.
From Flocq Require Import Core BinarySingleNaN.
Open Scope Z_scope.

(** ** Every decoded calibration is of ordinary size *)
Lemma within_scaled x z n e : is_val x (scaled z n) -> 0 <= n -> 0 <= e -> Z.abs z <= 2 ^ e -> within x e.
Proof.
  intros H Hn He Hz. apply (within_val _ _ _ H). unfold scaled, Rdiv. rewrite Rabs_mult, Rabs_inv.
  rewrite <- abs_IZR. rewrite (Rabs_pos_eq (IZR (2 ^ n))) by (apply IZR_le; apply Z.pow_nonneg; lia).
  assert (P : (1 <= IZR (2 ^ n))%R) by (apply IZR_le; pose proof (Z.pow_pos_nonneg 2 n ltac:(lia) Hn); lia).
  apply Rle_trans with (IZR (Z.abs z) * 1)%R.
  - apply Rmult_le_compat_l; [apply IZR_le; lia|]. apply Rle_trans with (/ 1)%R; [apply Rinv_le; lra|rewrite Rinv_1; lra].
  - rewrite Rmult_1_r. rewrite <- (IZR_Zpower radix2) by exact He. apply IZR_le. exact Hz.
Qed.

Lemma within_zero e : 0 <= e <= 24 -> within (b_ofZ 0) e.
Proof. intros H. apply within_ofZ; [|exact H]. change (Z.abs 0) with 0. apply Z.pow_nonneg. lia. Qed.

Lemma within_literal_3_3 : within (b_div (b_ofZ 33) (b_ofZ 10)) 2.
Proof.
  split; [reflexivity|].
  replace (B2R (b_div (b_ofZ 33) (b_ofZ 10))) with (IZR 13841203 * bpow radix2 (-22))%R by reflexivity.
  rewrite Rabs_pos_eq by (apply Rmult_le_pos; [lra|apply bpow_ge_0]).
  change (bpow radix2 (-22)) with (/ IZR 4194304)%R. change (bpow radix2 2) with (IZR 4). lra.
Qed.

Lemma nth_cases {A} (P : A -> Prop) (l : list A) d n :
  (forall i, (i < n)%nat -> exists x, nth_error l i = Some x /\ P x) -> length l = n -> P d ->
  forall i, P (nth i l d).
Proof.
  intros H Hl Hd i. destruct (Nat.lt_ge_cases i n) as [Hi|Hi].
  - destruct (H i Hi) as (x & E & Hx). rewrite (nth_error_nth l i d E). exact Hx.
  - rewrite nth_overflow by lia. exact Hd.
Qed.

Lemma rows_cols (P : nat -> Prop) :
  (forall r col, (r < 24)%nat -> (col < 32)%nat -> P (32 * r + col)%nat) -> forall i, (i < 768)%nat -> P i.
Proof.
  intros H i Hi. pose proof (Nat.div_mod i 32 ltac:(lia)) as E. pose proof (Nat.mod_upper_bound i 32 ltac:(lia)).
  rewrite E. apply H; [apply Nat.div_lt_upper_bound; lia|lia].
Qed.

Lemma failed_dec ee r col : failed ee r col \/ ~ failed ee r col.
Proof. unfold failed. destruct (Z.eq_dec (pixel_word ee r col) 0); [left|right]; assumption. Qed.

Lemma sbits_abs w lo n e : 1 <= n -> n - 1 <= e -> Z.abs (sbits w lo n) <= 2 ^ e.
Proof.
  intros Hn He. pose proof (sbits_range w lo n Hn) as B.
  assert (2 ^ (n - 1) <= 2 ^ e) by (apply Z.pow_le_mono_r; lia). lia.
Qed.


Lemma il_small ee i : (i < 768)%nat -> (Rabs (il_compensation ee (Z.of_nat i + 1)) <= bpow radix2 6)%R.
Proof.
  intros Hi. destruct (pattern_class_spec i Hi) as [E1 E2]. unfold il_compensation. rewrite E1, E2.
  unfold il_chess_3, il_chess_2.
  pose proof (sbits_abs (ee 0x35%nat) 11 5 4 ltac:(lia) ltac:(lia)) as B3.
  pose proof (sbits_abs (ee 0x35%nat) 6 5 4 ltac:(lia) ltac:(lia)) as B2.
  assert (C3 : (-16 <= IZR (sbits (ee 0x35%nat) 11 5) <= 16)%R) by (split; apply IZR_le; lia).
  assert (C2 : (-16 <= IZR (sbits (ee 0x35%nat) 6 5) <= 16)%R) by (split; apply IZR_le; lia).
  change (bpow radix2 6) with 64%R.
  pose proof (pattern_class_lt i) as Hp.
  apply Rabs_le.
  destruct (pattern_class i) as [|[|[|[|[|[|]]]]]]; [cbn [nth Nat.leb]; lra..|lia].
Qed.

Theorem C67_decoded_640 : forall l p data (c : calib (B32 l)), full_dump data ->
  from_data640 (B32 l) p data = Ok c -> sbits (ee_word data 0x33) 8 8 <> 0 -> ordinary c.
Proof.
  intros l p data c Hd Hc Hk.
  destruct (C62_calibration_640 _ p data c Hd Hc) as [_ (L1 & _ & L3 & L4 & L5 & _)].
  change (lay_pixels layout640) with 768%nat in *.
  destruct (C42_integer_parameters _ p data c Hd Hc) as (E1 & _ & _ & _ & E5 & E6 & _).
  destruct (C42_scalar_parameters l p data c Hd Hc) as (_ & _ & _ & E4 & _ & _ & _ & Ekv & Ekta).
  assert (Hs : forall i, (i < 768)%nat -> exists r col, (i = 32 * r + col)%nat /\ (r < 24)%nat /\ (col < 32)%nat).
  { apply rows_cols. intros r col Hr Hcol. exists r, col. auto. }
  constructor.
  - exists (sbits (ee_word data 0x33) 8 8). rewrite E1. split; [lia|]. split; [exact Hk|].
    pose proof (sbits_abs (ee_word data 0x33) 8 8 7 ltac:(lia) ltac:(lia)). lia.
  - rewrite (decoded_is (B32 l) p data c Hd Hc). cbn [v_dd_0 decoded640 B32 f_3_3]. exact within_literal_3_3.
  - apply (within_val _ _ _ E4). rewrite <- abs_IZR. change (bpow radix2 16) with (IZR 65536). apply IZR_le.
    pose proof (ee_word_word data (proj1 Hd) 0x30) as Hw. unfold word in Hw.
    pose proof (sext_range 16 (ee_word data 0x30) ltac:(lia) ltac:(clear - Hw; lia)) as B. clear - B. lia.
  - intros sp. apply (nth_cases (fun z => Z.abs z <= 32768) _ 0 768); [|apply L1|lia].
    intros i Hi. destruct (Hs i Hi) as (r & col & -> & Hr & Hcol).
    destruct (failed_dec (ee_word data) r col) as [Hf|Hf].
    + destruct (C41_failed_pixel_values _ p data c Hd Hc sp r col Hr Hcol Hf) as (E & _).
      eexists. split; [exact E|]. match goal with |- Z.abs (shifted ?z) <= _ => pose proof (shifted_range z) end. lia.
    + eexists. split; [apply (C39_offset _ p data c Hd Hc sp r col Hr Hcol Hf)|].
      match goal with |- Z.abs (shifted ?z) <= _ => pose proof (shifted_range z) end. lia.
  - intros sp. apply (nth_cases (fun x => within x 37) _ (b_ofZ 0) 768); [|apply L4|apply (within_weaken _ 0); [apply within_zero; lia|lia]].
    intros i Hi. destruct (Hs i Hi) as (r & col & -> & Hr & Hcol).
    destruct (failed_dec (ee_word data) r col) as [Hf|Hf].
    + destruct (C41_failed_pixel_values _ p data c Hd Hc sp r col Hr Hcol Hf) as (_ & _ & E).
      eexists. split; [exact E|]. apply (within_weaken _ 0); [apply within_zero; lia|lia].
    + destruct (C40_k_ta l p data c Hd Hc sp r col Hr Hcol Hf) as (x & E & V).
      exists x. split; [exact E|]. apply (within_weaken _ 15); [|lia].
      apply (within_scaled _ _ _ _ V); [|lia|].
      * unfold kta_scale_1. pose proof (bits_range (ee_word data 0x38) 4 4 ltac:(lia)). lia.
      * pose proof (shifted_range (kta_sum (ee_word data) r col)). lia.
  - intros sp. apply (nth_cases (fun x => within x 37) _ (b_ofZ 0) 768); [|apply L3|apply (within_weaken _ 0); [apply within_zero; lia|lia]].
    intros i Hi. destruct (Hs i Hi) as (r & col & -> & Hr & Hcol).
    destruct (C42_k_v_pixels l p data c Hd Hc sp) as [_ H]. destruct (H r col Hr Hcol) as (x & E & V).
    exists x. split; [exact E|]. apply (within_weaken _ 3); [|lia].
    apply (within_scaled _ _ _ _ V); [|lia|].
    + unfold kv_scale. apply (bits_range _ _ 4). lia.
    + unfold kv_average. destruct (Nat.even r), (Nat.even col); apply sbits_abs; lia.
  - intros ap i x Hx. destruct ap.
    + destruct (C43_chess_and_compensation_pixels l p data c Hd Hc) as (E & _). rewrite E in Hx.
      destruct (Nat.lt_ge_cases i 768) as [Hi|Hi].
      * rewrite nth_repeat in Hx. discriminate.
      * rewrite nth_overflow in Hx by (rewrite repeat_length; exact Hi). discriminate.
    + destruct (C43_interleave_pixels l p data c Hd Hc) as [El H].
      destruct (Nat.lt_ge_cases i 768) as [Hi|Hi].
      * destruct (H i Hi) as (y & E & V). rewrite (nth_error_nth _ _ None E) in Hx. injection Hx as ->.
        apply (within_val _ _ _ V). apply il_small. exact Hi.
      * rewrite nth_overflow in Hx by (rewrite El; exact Hi). discriminate.
  - intros x Hx. destruct (C42_tgc l p data c Hd Hc) as [H1 H2].
    assert (Hn : sbits (ee_word data 0x3C) 0 8 <> 0) by (intros E; apply H1 in E; rewrite E in Hx; discriminate).
    destruct (H2 Hn) as (y & E & V). rewrite E in Hx. injection Hx as <-.
    apply (within_val _ _ _ V). unfold scaled. change (2 ^ 5) with 32. change (bpow radix2 2) with 4%R.
    pose proof (sbits_abs (ee_word data 0x3C) 0 8 7 ltac:(lia) ltac:(lia)) as B.
    assert (C : (-128 <= IZR (sbits (ee_word data 0x3C) 0 8) <= 128)%R) by (split; apply IZR_le; lia).
    apply Rabs_le. lra.
  - intros sp. pose proof (sbits_abs (ee_word data 0x3A) 0 10 9 ltac:(lia) ltac:(lia)) as B1.
    pose proof (sbits_abs (ee_word data 0x3A) 10 6 5 ltac:(lia) ltac:(lia)) as B2.
    destruct sp; [rewrite E5|rewrite E6]; lia.
  - intros sp. apply (within_scaled _ _ _ _ (Ekta sp)); [|lia|apply sbits_abs; lia].
    unfold kta_scale_1. pose proof (bits_range (ee_word data 0x38) 4 4 ltac:(lia)). lia.
  - intros sp. apply (within_scaled _ _ _ _ (Ekv sp)); [|lia|apply sbits_abs; lia].
    unfold kv_scale. apply (bits_range _ _ 4). lia.
  - intros sp ap x Hx. destruct (C43_chess_and_compensation_pixels l p data c Hd Hc) as (_ & E1' & E2 & y & E3 & V).
    destruct ap; [rewrite E1' in Hx; discriminate|]. destruct sp; [rewrite E2 in Hx; discriminate|].
    rewrite E3 in Hx. injection Hx as <-. apply (within_val _ _ _ V). unfold il_chess_1.
    pose proof (sbits_abs (ee_word data 0x35) 0 6 5 ltac:(lia) ltac:(lia)) as B.
    assert (C : (-32 <= IZR (sbits (ee_word data 0x35) 0 6) <= 32)%R) by (split; apply IZR_le; lia).
    change (bpow radix2 6) with 64%R. apply Rabs_le. lra.
Qed.
Print Assumptions C67_decoded_640.

Lemma sext16_abs z : 0 <= z < 65536 -> Z.abs (sext 16 z) <= 32768.
Proof. intros H. pose proof (sext_range 16 z ltac:(lia) H) as B. clear - B. lia. Qed.

Lemma failed641_dec dw i : failed641 dw i \/ ~ failed641 dw i.
Proof.
  unfold failed641. destruct (Z.eq_dec (dw (offset0_word i)) 0), (Z.eq_dec (dw (offset1_word i)) 0),
    (Z.eq_dec (dw (alpha_word i)) 0), (Z.eq_dec (dw (constants_word i)) 0); tauto.
Qed.

Lemma within_rounded x z n : is_val x (RN (IZR z) / IZR (2 ^ n)) -> 0 <= n -> Z.abs z <= 2 ^ 37 -> within x 37.
Proof.
  intros H Hn Hz. apply (within_val _ _ _ H). unfold Rdiv. rewrite Rabs_mult, Rabs_inv.
  rewrite (Rabs_pos_eq (IZR (2 ^ n))) by (apply IZR_le; apply Z.pow_nonneg; lia).
  assert (P : (1 <= IZR (2 ^ n))%R) by (apply IZR_le; pose proof (Z.pow_pos_nonneg 2 n ltac:(lia) Hn); lia).
  apply Rle_trans with (Rabs (RN (IZR z)) * 1)%R.
  - apply Rmult_le_compat_l; [apply Rabs_pos|]. apply Rle_trans with (/ 1)%R; [apply Rinv_le; lra|rewrite Rinv_1; lra].
  - rewrite Rmult_1_r. apply round_within; [lia|]. rewrite <- abs_IZR, <- (IZR_Zpower radix2) by lia.
    apply IZR_le. exact Hz.
Qed.

Theorem C67_decoded_641 : forall l p data dw (c : calib (B32 l)), full_dump data -> corrected data dw ->
  from_data641 (B32 l) p data = Ok c -> signed11 dw 0x27 <> 0 -> ordinary c.
Proof.
  intros l p data dw c Hd Hw Hc Hk.
  destruct (C62_calibration_641 _ p data c Hd Hc) as [_ (L1 & _ & L3 & L4 & L5 & _)].
  change (lay_pixels layout641) with 192%nat in *.
  destruct (C48_integer_parameters _ p data dw c Hd Hw Hc) as (E1 & _).
  destruct (C48_scalar_parameters l p data dw c Hd Hw Hc) as (_ & _ & _ & _ & _ & _ & _ & Ekta & Ekv & Etgc).
  assert (C6 : forall w lo, 0 <= bits w lo 6) by (intros w lo; apply (bits_range w lo 6); lia).
  assert (C5 : forall w lo, 0 <= bits w lo 5) by (intros w lo; apply (bits_range w lo 5); lia).
  assert (Hnum : forall i raw avg s, -32 <= raw <= 31 -> -1024 <= avg <= 1023 -> s = bits i 0 5 ->
    Z.abs (raw * 2 ^ s + avg) <= 2 ^ 37).
  { intros i raw avg s Hr Ha ->. pose proof (bits_range i 0 5 ltac:(lia)) as B. change (2 ^ 5) with 32 in B.
    assert (0 < 2 ^ bits i 0 5) by (apply Z.pow_pos_nonneg; lia).
    assert (L : 2 ^ bits i 0 5 <= 2 ^ 31) by (apply Z.pow_le_mono_r; lia). change (2 ^ 31) with 2147483648 in L.
    change (2 ^ 37) with 137438953472. clear - Hr Ha H L. nia. }
  pose proof (signed11_small data dw 0x15 Hd Hw ltac:(used)) as R15.
  pose proof (signed11_small data dw 0x17 Hd Hw ltac:(used)) as R17.
  constructor.
  - exists (signed11 dw 0x27). rewrite E1. split; [lia|]. split; [exact Hk|].
    pose proof (signed11_small data dw 0x27 Hd Hw ltac:(used)) as R27. lia.
  - rewrite (decoded_is641 (B32 l) p data Hd c Hc). cbn [v_dd_0 decoded641 record641 B32 f_3_3]. exact within_literal_3_3.
  - rewrite (decoded_is641 (B32 l) p data Hd c Hc). cbn [cal_gain decoded641 record641 B32 fofZ].
    apply within_ofZ; [|lia]. pose proof (joined_range data (proj1 Hd) 0x24) as B. clear - B. lia.
  - intros sp. apply (nth_cases (fun z => Z.abs z <= 32768) _ 0 192); [|apply L1|lia].
    intros i Hi. rewrite (decoded_is641 (B32 l) p data Hd c Hc). cbn [offset_reference_pixels decoded641 record641].
    destruct sp; rewrite px641_at by exact Hi; eexists; (split; [reflexivity|]); unfold pixel_value;
      destruct (failedb data i); cbn [q_offset0 q_offset1]; first [lia|apply wrap16_abs].
  - intros sp. apply (nth_cases (fun x => within x 37) _ (b_ofZ 0) 192); [|apply L4|apply (within_weaken _ 0); [apply within_zero; lia|lia]].
    intros i Hi. destruct (failed641_dec dw i) as [Hf|Hf].
    + destruct (C51_failed_pixel_values _ p data dw c Hd Hw Hc sp i Hi Hf) as (_ & _ & E & _).
      eexists. split; [exact E|]. apply (within_weaken _ 0); [apply within_zero; lia|lia].
    + destruct (C48_k_ta_and_k_v l p data dw c Hd Hw Hc sp i Hi Hf) as (x & y & E & _ & V & _).
      exists x. split; [exact E|]. apply (within_rounded _ _ _ V); [apply C6|].
      eapply Hnum; [|exact R15|reflexivity].
      pose proof (sbits_range (dw (constants_word i)) 5 6 ltac:(lia)) as B. unfold kta_raw. clear - B. lia.
  - intros sp. apply (nth_cases (fun x => within x 37) _ (b_ofZ 0) 192); [|apply L3|apply (within_weaken _ 0); [apply within_zero; lia|lia]].
    intros i Hi. destruct (failed641_dec dw i) as [Hf|Hf].
    + destruct (C51_failed_pixel_values _ p data dw c Hd Hw Hc sp i Hi Hf) as (_ & _ & _ & E).
      eexists. split; [exact E|]. apply (within_weaken _ 0); [apply within_zero; lia|lia].
    + destruct (C48_k_ta_and_k_v l p data dw c Hd Hw Hc sp i Hi Hf) as (x & y & _ & E & _ & V).
      exists y. split; [exact E|]. apply (within_rounded _ _ _ V); [apply C6|].
      eapply Hnum; [|exact R17|reflexivity].
      pose proof (sbits_range (dw (constants_word i)) 0 5 ltac:(lia)) as B. unfold kv_raw. clear - B. lia.
  - intros ap i x Hx. rewrite (decoded_is641 (B32 l) p data Hd c Hc) in Hx.
    cbn [access_pattern_compensation_pixels decoded641 record641] in Hx.
    rewrite nth_repeat in Hx. discriminate.
  - intros x Hx. destruct Etgc as (y & E & V). rewrite E in Hx. injection Hx as <-.
    apply (within_val _ _ _ V). unfold scaled. change (2 ^ 6) with 64. change (bpow radix2 2) with 4%R.
    pose proof (sbits_abs (dw 0x33%nat) 0 9 8 ltac:(lia) ltac:(lia)) as B. change (2 ^ 8) with 256 in B.
    assert (C : (-256 <= IZR (sbits (dw 0x33%nat) 0 9) <= 256)%R) by (split; apply IZR_le; clear - B; lia).
    apply Rabs_le. clear - C. lra.
  - intros sp. rewrite (decoded_is641 (B32 l) p data Hd c Hc). cbn [offset_reference_cp decoded641 record641].
    apply sext16_abs. apply (joined_range data (proj1 Hd)).
  - intros sp. apply (within_scaled _ _ _ _ (Ekta sp)); [apply C5|lia|apply sbits_abs; lia].
  - intros sp. apply (within_scaled _ _ _ _ (Ekv sp)); [apply C5|lia|apply sbits_abs; lia].
  - intros sp ap x Hx. rewrite (decoded_is641 (B32 l) p data Hd c Hc) in Hx.
    cbn [access_pattern_compensation_cp decoded641 record641] in Hx. discriminate.
Qed.
Print Assumptions C67_decoded_641.

(** ** Raw images *)
Lemma correction_small l (cal cur : resolution) :
  within (resolution_correction640 (FO := B32 l) cal cur) 3 /\ within (resolution_correction641 (FO := B32 l) cal cur) 3.
Proof.
  destruct (resolution_correction_val l cal cur) as [H1 H2].
  assert (B : (Rabs (bpow radix2 (resolution_to_u8 cal - resolution_to_u8 cur)) <= bpow radix2 3)%R).
  { rewrite Rabs_pos_eq by apply bpow_ge_0. apply bpow_le. destruct cal, cur; cbn; lia. }
  split; [apply (within_val _ _ _ H1)|apply (within_val _ _ _ H2)]; exact B.
Qed.

(** Every value stored by [generate_raw_image_subpage_to] is a number. *)
Theorem C67_raw_pixels_are_numbers : forall l p B ER EW (bs : bus B ER EW) lay (d : driver (FO := B32 l)) sp dest d' dest' evs mem t,
  usable d lay -> ordinary (d_calibration d) ->
  (exists cal cur, d_resolution_correction d = resolution_correction _ (cam _ (d_calibration d)) cal cur) ->
  is_finite (d_emissivity d) = true -> (bpow radix2 (-8) <= Rabs (B2R (d_emissivity d)))%R ->
  step p bs d (OpGenerateRawSubpage sp dest) = (Ok OutUnit, d', dest') ->
  trace (d_bus d') = trace (d_bus d) ++ evs ->
  (forall a, word (mem a)) -> Forall (shows mem) evs -> signed (mem (lay_gain lay)) <> 0 ->
  d_ambient d' = Some t -> within t 10 ->
  forall i, (i < length dest)%nat -> measured lay sp (d_access_pattern d) i = true ->
  exists x, nth_error dest' i = Some x /\ within x 127.
Proof.
  intros l p B ER EW bs lay d sp dest d' dest' evs mem t Hu Ho (cal & cur & Hres) Fe He H Ht Hm Hs Hg Ha Hta i Hi Hmi.
  destruct (C55_image_values p bs lay d (OpGenerateRawSubpage sp dest) dest _ d' dest' Hu eq_refl H) as (raw & sp' & pre & frame & post & Et & Hask & _ & Hack & Hv).
  { split; [discriminate|exact I]. }
  inversion Hask; subst. inversion Hack; subst.
  rewrite Ht in Et. apply app_inv_head in Et. subst evs. cbn [app] in Hs. rewrite app_nil_r in Hs.
  destruct (Hv mem Hm Hs) as [Et [Hl Himg]]. rewrite Ha in Et. injection Et as ->.
  destruct (nth_error dest i) as [old|] eqn:En; [|apply nth_error_None in En; lia].
  specialize (Himg i old En). cbn [set_pattern settings_of] in Himg. rewrite Hmi in Himg.
  eexists. split; [exact Himg|]. unfold doc_pixel.
  apply pixel_is_number; try assumption.
  cbn [set_correction settings_of]. rewrite Hres. destruct Hu as [Hd _]. inversion Hd as [E|E]; cbn [resolution_correction]; apply correction_small.
Qed.
Print Assumptions C67_raw_pixels_are_numbers.

(** A camera whose RAM has just been cleared (measurement not started): the call
    succeeds and reports not-a-number for the ambient temperature and every pixel. *)
Theorem C67_refuted_for_cleared_ram : forall l p B ER EW (bs : bus B ER EW) lay (d : driver (FO := B32 l)) sp dest d' dest' evs mem,
  usable d lay ->
  step p bs d (OpGenerateRawSubpage sp dest) = (Ok OutUnit, d', dest') ->
  trace (d_bus d') = trace (d_bus d) ++ evs ->
  (forall a, word (mem a)) -> Forall (shows mem) evs ->
  mem (lay_ptat lay) = 0 -> mem (lay_vbe lay) = 0 ->
  d_ambient d' = Some B754_nan /\
  forall i, (i < length dest)%nat -> measured lay sp (d_access_pattern d) i = true -> nth_error dest' i = Some B754_nan.
Proof.
  intros l p B ER EW bs lay d sp dest d' dest' evs mem Hu H Ht Hm Hs Hp Hb.
  destruct (C55_image_values p bs lay d (OpGenerateRawSubpage sp dest) dest _ d' dest' Hu eq_refl H) as (raw & sp' & pre & frame & post & Et & Hask & _ & Hack & Hv).
  { split; [discriminate|exact I]. }
  inversion Hask; subst. inversion Hack; subst.
  rewrite Ht in Et. apply app_inv_head in Et. subst evs. cbn [app] in Hs. rewrite app_nil_r in Hs.
  destruct (Hv mem Hm Hs) as [Et [Hl Himg]].
  assert (Hp' : ram mem (lay_ptat lay) = 0) by (unfold ram; rewrite Hp; reflexivity).
  assert (Hb' : ram mem (lay_vbe lay) = 0) by (unfold ram; rewrite Hb; reflexivity).
  rewrite (cleared_ambient _ _ _ Hp' Hb') in Et. split; [exact Et|].
  intros i Hi Hmi. destruct (nth_error dest i) as [old|] eqn:En; [|apply nth_error_None in En; lia].
  rewrite (Himg i old En). cbn [set_pattern settings_of]. rewrite Hmi. unfold doc_pixel.
  rewrite (cleared_pixel _ _ _ _ _ Hp' Hb'). reflexivity.
Qed.
Print Assumptions C67_refuted_for_cleared_ram.

(** ** A concrete case: the worked example of the MLX90640 datasheet (section 11.2.2):
    calibration data of the datasheet, V_DD = 0xCCC5, V_BE = 0x4BF2, V_PTAT = 0x06AF,
    gain 0x1881, pixel value 0x0261; the ambient temperature it gives is 39.184. *)
Definition any_lib : libm := {| lm_exp2 := fun x => x; lm_powi := fun x _ => x; lm_powf := fun x _ => x |}.
Definition sample_mem (a : Z) : Z :=
  if (0x2400 <=? a) && (a <? 0x2740) then
    let i := Z.to_nat (a - 0x2400) in if Nat.ltb i 64 then nth i header640 0 else 0x08A0
  else if a =? 0x800D then 0x1901
  else if a =? 0x072A then 0xCCC5
  else if a =? 0x0700 then 0x4BF2
  else if a =? 0x0720 then 0x06AF
  else if a =? 0x070A then 0x1881
  else if a =? 0x0708 then 0xFFCA
  else if a =? 0x0728 then 0xFFC8
  else 0x0261.
Definition sample_bus : bus unit unit unit := {|
  dev_write_read := fun b _ wb buf => (b, mem_bytes sample_mem (256 * nth 0 wb 0 + nth 1 wb 0) (length buf), None);
  dev_write := fun b _ _ => (b, None) |}.
(** x is a number strictly between lo and hi. *)
Definition between (lo x hi : f32) : bool := is_finite x && Bltb lo x && Bltb x hi.
Definition sample_check : bool :=
  match new sample_bus (calib640_from_i2c (B32 any_lib) Debug sample_bus) 24 1536 (Build_world tt []) 0x33 with
  | (Ok d, _) =>
      match step Debug sample_bus d (OpGenerateRawSubpage (FO := B32 any_lib) Zero (repeat (b_ofZ 0) 768)) with
      | (Ok OutUnit, d', dest') =>
          is_finite (d_emissivity d) && Bleb (b_ofZ 1) (d_emissivity d) &&
          match d_ambient d' with Some t => between (b_ofZ 39) t (b_ofZ 40) | None => false end &&
          negb (signed (sample_mem (lay_gain layout640)) =? 0) &&
          forallb (fun i => negb (measured layout640 Zero Chess i) || between (b_ofZ 600) (nth i dest' B754_nan) (b_ofZ 750)) (seq 0 768)
      | _ => false
      end
  | _ => false
  end.
Example C67_concrete : sample_check = true.
Proof. vm_compute. reflexivity. Qed.
