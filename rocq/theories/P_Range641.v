(** * P_Range641 (C114): accuracy of the MLX90641 datasheet's camera over a range of conditions.
    The counterpart of C112 and C113 for the other camera: ambient temperatures, raw images and temperatures. *)
From Verif Require Import Base FloatOps Register Bus Camera Cam640 Cam641 Calc Ee641 Ee641Facts B32 B32Facts RealOps SpecRegister SpecEeprom.
From Verif Require Import Spec640 SpecHamming Spec641 P_Ee641 P_Ee641Real.
From Verif Require Import SpecCamera SpecDriver SpecImage SpecCall SpecAccuracy ImageFacts Dumps.
From Verif Require Import ParseFacts DriverFacts StepFacts SeenFacts RealFacts BoundFacts P_Usable P_Calc P_Finite P_Bus P_Image P_Frames.
From Verif Require Import AccuracyFacts P_Accuracy P_PixelAccuracy SpecPhysics SpecTemperature ObjectFacts P_Temperature P_EndToEnd P_Range.
From Verif Require Import Driver.
From Flocq Require Import BinarySingleNaN.
From Coq Require Import Reals Lra.
Open Scope R_scope.

(** The range: as for the MLX90640 (P_Range), with this EEPROM's supply reading at 3.3 V and half its gain word (9972). *)
Record operating641 (mem : Z -> Z) : Prop := {
  op1_ptat : (0 < signed (mem (lay_ptat layout641)))%Z;
  op1_vbe : (7 * signed (mem (lay_ptat layout641)) <= signed (mem (lay_vbe layout641)) <= 25 * signed (mem (lay_ptat layout641)))%Z;
  op1_supply : (Z.abs (signed (mem (lay_vdd layout641)) + 13568) <= 2508)%Z;
  op1_gain : (4986 <= signed (mem (lay_gain layout641)))%Z
}.
Fact datasheet641_corrected : corrected datasheet641 dw641.
Proof. exact (proj1 C48_datasheet). Qed.

Section Range.
Context (l : libm) (m : camera RealOps) (p : profile) (c : calib (B32 l)) (mem : Z -> Z).
Hypothesis (Hc : from_data641 (B32 l) p datasheet641 = Ok c) (Ho : operating641 mem).
Context (s : settings (FO := B32 l)).
Hypothesis (Hs : 1 / 256 <= Rabs (B2R (set_emissivity s)) <= 2) (Hr : Rabs (B2R (set_correction s)) <= 1).
Let k := ptat_641 dw641.
Let cr := exactly m c.
Let sr := settings_exactly s.

Fact range_calibrated : well_calibrated c k.
Proof.
  apply (C73_decoded_641 l p datasheet641 dw641 c datasheet641_full datasheet641_corrected Hc); vm_compute; first [reflexivity|discriminate].
Qed.
Fact range_constants : k = {| pc_alpha := IZR 1152 / 128; pc_k_v := IZR 23%Z / 4096; pc_k_t := IZR 342 / 8;
                              pc_v_25 := IZR 12280; pc_vdd_25 := -13568; pc_k_vdd := -3136 |}.
Proof. vm_compute. reflexivity. Qed.

Fact range_dv : exact_delta_v k layout641 mem = - (reading mem (lay_vdd layout641) + 13568) / 3136 /\
  Rabs (exact_delta_v k layout641 mem) <= 4 / 5.
Proof.
  destruct Ho as [_ _ Hv _]. unfold exact_delta_v. rewrite range_constants. cbn [pc_vdd_25 pc_k_vdd].
  unfold reading. set (D := signed (mem (lay_vdd layout641))) in *.
  assert (B : -2508 <= IZR D + 13568 <= 2508).
  { split; [replace (-2508) with (IZR (-2508 - 13568) + 13568) by (rewrite minus_IZR; lra)|replace 2508 with (IZR (2508 - 13568) + 13568) by (rewrite minus_IZR; lra)];
      apply Rplus_le_compat_r, IZR_le; clear - Hv; lia. }
  split; [lra|]. apply Rabs_le. lra.
Qed.

Lemma range_plausible : plausible_frame k layout641 mem.
Proof.
  destruct range_dv as [_ Hd]. destruct Ho as [Hp Hb Hv _].
  constructor.
  - unfold reading. apply (IZR_lt 0). exact Hp.
  - unfold reading. apply (IZR_le 0). clear - Hp Hb. lia.
  - rewrite range_constants. cbn [pc_vdd_25]. unfold reading. rewrite <- minus_IZR.
    split; [apply (IZR_le (-32768))|apply (IZR_le _ 32767)]; clear - Hv; lia.
  - rewrite Rabs_mult. replace (Rabs (pc_k_v k)) with (23 / 4096) by (rewrite range_constants; cbn [pc_k_v]; symmetry; apply Rabs_pos_eq; lra).
    pose proof (Rabs_pos (exact_delta_v k layout641 mem)). lra.
Qed.

(** The ambient temperature is between -84 and 125 degrees *)
Lemma range_ambient : -109 <= exact_t_a k layout641 mem - 25 <= 100.
Proof.
  destruct range_dv as [_ Hd]. destruct Ho as [Hp Hb _ _]. apply abs_split in Hd.
  unfold exact_t_a, exact_v_ptat_art. set (dv := exact_delta_v k layout641 mem) in *. clearbody dv.
  rewrite range_constants. cbn [pc_alpha pc_k_v pc_k_t pc_v_25]. unfold reading.
  set (P := IZR (signed (mem (lay_ptat layout641)))). set (V := IZR (signed (mem (lay_vbe layout641)))).
  assert (HP : 0 < P) by (apply (IZR_lt 0); exact Hp).
  assert (HV : 7 * P <= V <= 25 * P) by (unfold P, V; rewrite <- !mult_IZR; split; apply IZR_le; apply Hb).
  clearbody P V.
  assert (Ha : 7710 <= P / (P * (1152 / 128) + V) * 262144 <= 16384).
  { assert (Hq : 0 < P * (1152 / 128) + V) by lra.
    split.
    - apply Rmult_le_reg_r with (P * (1152 / 128) + V); [exact Hq|].
      replace (P / (P * (1152 / 128) + V) * 262144 * (P * (1152 / 128) + V)) with (P * 262144) by (field; lra). lra.
    - apply Rmult_le_reg_r with (P * (1152 / 128) + V); [exact Hq|].
      replace (P / (P * (1152 / 128) + V) * 262144 * (P * (1152 / 128) + V)) with (P * 262144) by (field; lra). lra. }
  set (art := P / (P * (1152 / 128) + V) * 262144) in *. clearbody art.
  assert (Hy : 1 - 23 / 4096 <= 1 + 23 / 4096 * dv <= 1 + 23 / 4096) by lra.
  set (y := 1 + 23 / 4096 * dv) in *. clearbody y.
  assert (Hq : 7666 <= art / y <= 16478).
  { split; (apply Rmult_le_reg_r with y; [lra|]; replace (art / y * y) with art by (field; lra); lra). }
  set (q := art / y) in *. clearbody q.
  lra.
Qed.

Lemma range_ta : Rabs (doc_t_a cr layout641 mem - 25) <= 109.
Proof.
  assert (Eta : doc_t_a cr layout641 mem = exact_t_a k layout641 mem) by (apply (exact_ta m c k); [exact range_calibrated|exact range_plausible]).
  rewrite Eta. apply Rabs_le. pose proof range_ambient. lra.
Qed.
Lemma range_vdd : Rabs (doc_v_dd cr layout641 sr mem - 33 / 10) <= 4 / 5.
Proof.
  unfold sr, cr. rewrite volts. rewrite (exact_dv m c k) by first [exact range_calibrated|exact range_plausible].
  rewrite Rabs_mult. destruct range_dv as [_ H].
  pose proof (Rabs_pos (exact_delta_v k layout641 mem)). pose proof (Rabs_pos (B2R (set_correction s))).
  rewrite <- (Rmult_1_r (4 / 5)). apply Rmult_le_compat; assumption.
Qed.

Lemma range_working : working_frame cr layout641 sr mem.
Proof.
  destruct (C48_scalar_parameters l p datasheet641 dw641 c datasheet641_full datasheet641_corrected Hc) as (_ & _ & Vg & _).
  constructor.
  - destruct Ho as [_ _ _ Hg]. clear - Hg. lia.
  - unfold doc_gain. assert (Pg : cal_gain _ cr = 9972).
    { change (cal_gain _ cr) with (B2R (cal_gain _ c)). rewrite (proj2 Vg). replace (stored16 dw641 36) with 9972%Z by (vm_compute; reflexivity). reflexivity. }
    rewrite Pg. cbn [RealOps fdiv fofZ]. destruct Ho as [_ _ _ Hg]. unfold SpecImage.ram.
    apply (IZR_le 4986) in Hg. set (G := IZR (signed (mem (lay_gain layout641)))) in *. clearbody G.
    assert (Hpos : 0 <= 9972 / G) by (apply Rlt_le, Rdiv_lt_0_compat; lra). rewrite Rabs_pos_eq by exact Hpos.
    apply Rmult_le_reg_r with G; [lra|]. replace (9972 / G * G) with 9972 by (field; lra). lra.
  - pose proof range_ta. lra.
  - pose proof range_vdd. lra.
  - exact Hs.
Qed.


(** The coefficients of every pixel *)
Definition pixel_ok641 (dw : nat -> Z) (i : nat) : bool :=
  negb (dw (offset0_word i) =? 0)%Z &&
  (Z.abs (shifted (kept_offset dw Zero i)) <=? 700)%Z && (Z.abs (shifted (kept_offset dw One i)) <=? 700)%Z &&
  (kta_num dw i =? 813)%Z && (kv_num dw i =? 666)%Z && (alpha_raw dw i =? 2047)%Z &&
  (1200 <=? row_max dw (i / 32))%Z && (row_max dw (i / 32) <=? 1500)%Z && (alpha_scale dw (i / 32) =? 32)%Z.
Definition pixel_check641 (dw : nat -> Z) : bool := forallb (pixel_ok641 dw) (seq 0 192).
Fact pixel_checked641 : pixel_check641 dw641 = true.
Proof. vm_compute. reflexivity. Qed.
Record pixel_is (dw : nat -> Z) (i : nat) : Prop := {
  pi_works : ~ failed641 dw i;
  pi_offset : forall sp, (Z.abs (shifted (kept_offset dw sp i)) <= 700)%Z;
  pi_kta : kta_num dw i = 813%Z;
  pi_kv : kv_num dw i = 666%Z;
  pi_alpha : alpha_raw dw i = 2047%Z;
  pi_max : (1200 <= row_max dw (i / 32) <= 1500)%Z;
  pi_scale : alpha_scale dw (i / 32) = 32%Z
}.
Fact pixel_means641 : forall dw, pixel_check641 dw = true -> forall i, (i < 192)%nat -> pixel_is dw i.
Proof.
  intros dw H i Hi. unfold pixel_check641 in H.
  apply (proj1 (forallb_forall _ _)) with (x := i) in H; [|apply in_seq; lia].
  unfold pixel_ok641 in H. repeat (apply andb_prop in H; let H' := fresh "B" in destruct H as [H H']).
  apply negb_true_iff, Z.eqb_neq in H. apply Z.eqb_eq in B, B2, B3, B4. apply Z.leb_le in B0, B1, B5, B6.
  constructor; try assumption.
  - intros (F & _). contradiction.
  - intros []; assumption.
  - split; assumption.
Qed.
Fact pixel_facts641 : forall i, (i < 192)%nat -> pixel_is dw641 i.
Proof. exact (pixel_means641 _ pixel_checked641). Qed.
Fact kta_scale_is : kta_scale_1_641 dw641 = 18%Z. Proof. vm_compute. reflexivity. Qed.
Fact kta_scale2_is : (kta_scale_2_641 dw641 <= 18)%Z. Proof. vm_compute. discriminate. Qed.
Fact kv_scale_is : kv_scale_1_641 dw641 = 11%Z. Proof. vm_compute. reflexivity. Qed.
Fact kv_scale2_is : (kv_scale_2_641 dw641 <= 18)%Z. Proof. vm_compute. discriminate. Qed.
Fact cp_words : sbits (dw641 0x31%nat) 0 6 = 19%Z /\ bits (dw641 0x31%nat) 6 5 = 13%Z /\
  sbits (dw641 0x32%nat) 0 6 = 20%Z /\ bits (dw641 0x32%nat) 6 5 = 6%Z /\ sbits (dw641 0x33%nat) 0 9 = 0%Z /\
  sext 16 (stored16 dw641 0x2F) = (-119)%Z /\ signed11 dw641 0x22 = (-72)%Z /\ signed11 dw641 0x37 = (-734)%Z /\ dw641 0x34%nat = 20%Z.
Proof. repeat split; vm_compute; reflexivity. Qed.

Lemma range_pixel : forall sp i, (i < 192)%nat ->
  Rabs (nth i (k_v_pixels _ cr sp) 0) <= 5 / 8 /\ Rabs (nth i (k_ta_pixels _ cr sp) 0) <= 1 / 128 /\
  (Z.abs (nth i (offset_reference_pixels _ cr sp) 0%Z) <= 700)%Z.
Proof.
  intros sp i Hi. destruct (pixel_facts641 i Hi) as [F1 F2 F3 F4 _ _ _].
  destruct (C48_k_ta_and_k_v_exact l p datasheet641 dw641 c datasheet641_full datasheet641_corrected Hc sp i Hi F1) as (x & y & Ex & Ey & Vx & Vy).
  specialize (Vx kta_scale2_is). specialize (Vy kv_scale2_is).
  split; [|split].
  - change (k_v_pixels _ cr sp) with (map B2R (k_v_pixels _ c sp)). rewrite nth_map_B2R.
    rewrite (nth_error_nth _ _ _ Ey), (proj2 Vy), F4, kv_scale_is. unfold scaled. change (2 ^ 11)%Z with 2048%Z.
    apply Rabs_le. lra.
  - change (k_ta_pixels _ cr sp) with (map B2R (k_ta_pixels _ c sp)). rewrite nth_map_B2R.
    rewrite (nth_error_nth _ _ _ Ex), (proj2 Vx), F3, kta_scale_is. unfold scaled. change (2 ^ 18)%Z with 262144%Z.
    apply Rabs_le. lra.
  - change (offset_reference_pixels _ cr sp) with (offset_reference_pixels _ c sp).
    pose proof (C48_offset _ p datasheet641 dw641 c datasheet641_full datasheet641_corrected Hc sp i Hi F1) as E.
    rewrite (nth_error_nth _ _ _ E). apply F2.
Qed.
Lemma tgc_is_zero : temperature_gradient_coefficient _ cr = Some 0.
Proof.
  change (temperature_gradient_coefficient _ cr) with (option_map B2R (temperature_gradient_coefficient _ c)).
  destruct (C48_scalar_parameters l p datasheet641 dw641 c datasheet641_full datasheet641_corrected Hc) as (_ & _ & _ & _ & _ & _ & _ & _ & _ & (g & Eg & Vg)).
  destruct cp_words as (_ & _ & _ & _ & W & _).
  rewrite Eg. cbn [option_map]. rewrite (proj2 Vg), W. unfold scaled. f_equal. lra.
Qed.
Lemma range_cp : forall sp, Rabs (k_v_cp _ cr sp) <= 5 / 8 /\ Rabs (k_ta_cp _ cr sp) <= 1 / 128.
Proof.
  intros sp.
  destruct (C48_scalar_parameters l p datasheet641 dw641 c datasheet641_full datasheet641_corrected Hc) as (_ & _ & _ & _ & _ & _ & _ & Ekta & Ekv & _).
  destruct cp_words as (W1 & W2 & W3 & W4 & _).
  split.
  - change (k_v_cp _ cr sp) with (B2R (k_v_cp _ c sp)). rewrite (proj2 (Ekv sp)), W3, W4. unfold scaled. change (2 ^ 6)%Z with 64%Z.
    apply Rabs_le. lra.
  - change (k_ta_cp _ cr sp) with (B2R (k_ta_cp _ c sp)). rewrite (proj2 (Ekta sp)), W1, W2. unfold scaled. change (2 ^ 13)%Z with 8192%Z.
    apply Rabs_le. lra.
Qed.
Lemma coefficients_work : forall kv kta, Rabs kv <= 5 / 8 -> Rabs kta <= 1 / 128 -> working_coefficients cr layout641 sr mem kv kta.
Proof.
  intros kv kta Hv Ht. constructor.
  - lra.
  - rewrite Rabs_mult. pose proof range_ta as H. pose proof (Rabs_pos kta). pose proof (Rabs_pos (doc_t_a cr layout641 mem - 25)).
    apply Rle_trans with (1 / 128 * 109); [apply Rmult_le_compat; assumption|lra].
  - lra.
  - rewrite Rabs_mult. pose proof range_vdd as H. pose proof (Rabs_pos kv). pose proof (Rabs_pos (doc_v_dd cr layout641 sr mem - 33 / 10)).
    apply Rle_trans with (5 / 8 * (4 / 5)); [apply Rmult_le_compat; assumption|lra].
Qed.
Lemma kt_is : Rabs (k_t_ptat _ cr) = 342 / 8.
Proof.
  change (k_t_ptat _ cr) with (B2R (k_t_ptat _ c)).
  rewrite (proj2 (ca_k_t _ _ (wl_carries _ _ range_calibrated))). rewrite range_constants. cbn [pc_k_t]. apply Rabs_pos_eq. lra.
Qed.
Lemma range_tolerance : forall sp i, (i < 192)%nat -> pixel_tolerance cr sr sp i <= 6 / 100 / Rabs (B2R (set_emissivity s)).
Proof.
  intros sp i Hi. unfold pixel_tolerance. rewrite tgc_is_zero. destruct (range_pixel sp i Hi) as (_ & T & O).
  rewrite Rabs_R0, Rmult_0_l, Rplus_0_r. unfold tolerance. rewrite kt_is.
  change (set_emissivity sr) with (B2R (set_emissivity s)).
  assert (Pe : 0 < Rabs (B2R (set_emissivity s))) by lra.
  unfold Rdiv at 1. unfold Rdiv at 6. apply Rmult_le_compat_r; [apply Rlt_le, Rinv_0_lt_compat, Pe|].
  rewrite <- abs_IZR. apply IZR_le in O. pose proof (IZR_le _ _ (Z.abs_nonneg (nth i (offset_reference_pixels _ cr sp) 0%Z))) as H0.
  pose proof (Rabs_pos (nth i (k_ta_pixels _ cr sp) 0)) as H1.
  set (o := IZR (Z.abs (nth i (offset_reference_pixels _ cr sp) 0%Z))) in *. set (t := Rabs (nth i (k_ta_pixels _ cr sp) 0)) in *. clearbody o t.
  assert (H2 : o * (14 / 100 * t / (342 / 8) + 1 / 80000) <= 700 * (14 / 100 * (1 / 128) / (342 / 8) + 1 / 80000)).
  { apply Rmult_le_compat; lra. }
  lra.
Qed.

Theorem C114_working_range :
  well_calibrated c k /\ plausible_frame k layout641 mem /\ working_frame cr layout641 sr mem /\
  (forall sp i, (i < 192)%nat ->
     working_coefficients cr layout641 sr mem (nth i (k_v_pixels _ cr sp) 0) (nth i (k_ta_pixels _ cr sp) 0) /\
     pixel_tolerance cr sr sp i <= 6 / 100 / Rabs (B2R (set_emissivity s))) /\
  (forall sp, working_coefficients cr layout641 sr mem (k_v_cp _ cr sp) (k_ta_cp _ cr sp)).
Proof.
  split; [exact range_calibrated|]. split; [exact range_plausible|]. split; [exact range_working|]. split.
  - intros sp i Hi. destruct (range_pixel sp i Hi) as (V & T & _). split; [apply coefficients_work; assumption|apply range_tolerance; exact Hi].
  - intros sp. destruct (range_cp sp) as (V & T). apply coefficients_work; assumption.
Qed.
End Range.
Print Assumptions C114_working_range.

(** ** Temperatures *)
(** Ambient temperatures of about 0 to 60 degrees, and objects of 0 to 300 degrees before the correction of the sensitivity *)
Record temperate641 (mem : Z -> Z) : Prop := {
  tp1_operating : operating641 mem;
  tp1_ratio : (41 * signed (mem (lay_ptat layout641)) <= 4 * signed (mem (lay_vbe layout641)) <= 57 * signed (mem (lay_ptat layout641)))%Z
}.
Definition warm_object641 (c : calib RealOps) (s : settings (FO := RealOps)) (sp : subpage) (mem : Z -> Z) (i : nat) : Prop :=
  273.15 ^ 4 <= uncorrected4 c layout641 s sp mem i <= 573.15 ^ 4.

(** ** The driver created from this EEPROM *)
Lemma datasheet_driver641 {l} p {B ER EW} (bs : bus B ER EW) w a (d0 : driver (FO := B32 l)) w' rest :
  new bs (calib641_from_i2c (B32 l) p bs) 12 384 w a = (Ok d0, w') ->
  trace (d_bus d0) = trace w ++ EvRead a [0x24; 0x00]%Z datasheet641 None :: rest ->
  usable d0 layout641 /\ Forall byte (d_pixel_buffer d0) /\ has_correction d0 /\
  from_data641 (B32 l) p datasheet641 = Ok (d_calibration d0).
Proof.
  intros H Et. apply C29_new_641 in H. destruct H as (evs & Ht & H).
  remember (Ok d0) as r eqn:E. destruct H as [| | | |data c evs r Hl Hb Hc H]; try discriminate E.
  destruct H as [v d1 Hv Hf|]; [|discriminate E]. injection E as ->.
  pose proof (full_of_exact data Hb Hl) as Hd. destruct (C62_calibration_641 _ p data c Hd Hc) as [H1 H2].
  destruct (fresh_usable layout641 12 384 a c v w' d0 H1 H2 ltac:(vm_compute; lia) ltac:(vm_compute; lia) Hf) as [Hu Hby].
  destruct Hf as (Ew & Ea & Ec & _ & _ & _ & _ & _ & _ & Er).
  rewrite Ew, Ht in Et. apply app_inv_head in Et.
  assert (Edata : data = datasheet641) by (exact (f_equal (fun e => match e with EvRead _ _ x _ :: _ => x | _ => [] end) Et)).
  split; [exact Hu|]. split; [exact Hby|]. split; [eexists; rewrite Ec; exact Er|].
  rewrite Ec, <- Edata. exact Hc.
Qed.

Lemma measured_pixel641 : forall sp pat i, measured layout641 sp pat i = true -> (i < 192)%nat.
Proof.
  intros sp pat i H. unfold measured in H. apply andb_prop in H. destruct H as [H _].
  change (lay_pixels layout641) with 192%nat in H. apply Nat.ltb_lt. exact H.
Qed.

(** Every image call stores the ambient temperature to within two thousandths of a degree *)
Theorem C114_ambient : forall l p B ER EW (bs : bus B ER EW) w a (d0 : driver (FO := B32 l)) w' rest,
  new bs (calib641_from_i2c (B32 l) p bs) 12 384 w a = (Ok d0, w') ->
  trace (d_bus d0) = trace w ++ EvRead a [0x24; 0x00]%Z datasheet641 None :: rest ->
  forall ops o dest r d' dest',
    let d := run p bs d0 ops in
    destination o = Some dest -> step p bs d o = (r, d', dest') -> computed o r ->
    exists raw sp pre frame post t,
      trace (d_bus d') = trace (d_bus d) ++ pre ++ frame ++ post /\
      asks (d_address d) o raw sp pre /\
      completed (d_address d) (frame_reads layout641 sp (d_access_pattern d)) frame /\
      acknowledges (d_address d) o pre post r /\
      drv_ambient_temperature d' = Some t /\
      forall mem, (forall x, word (mem x)) -> Forall (shows mem) frame -> operating641 mem ->
        is_finite t = true /\ Rabs (B2R t - exact_t_a (ptat_641 dw641) layout641 mem) <= 2 / 1000 /\
        -84 <= exact_t_a (ptat_641 dw641) layout641 mem <= 125.
Proof.
  intros l p B ER EW bs w a d0 w' rest Hn Et ops o dest r d' dest' d Hd Hs Hc.
  destruct (datasheet_driver641 p bs w a d0 w' rest Hn Et) as (Hu & Hby & Hrc & Hcal).
  destruct (C72_ambient_641 l p B ER EW bs w a d0 w' Hn) as (data & rest' & Et' & H). cbv zeta in H.
  rewrite Et in Et'. apply app_inv_head in Et'.
  assert (Edata : datasheet641 = data) by (exact (f_equal (fun e => match e with EvRead _ _ x _ :: _ => x | _ => [] end) Et')).
  clear Et'. subst data.
  specialize (H dw641 datasheet641_corrected ltac:(vm_compute; discriminate) ltac:(vm_compute; reflexivity) ltac:(vm_compute; discriminate) ltac:(vm_compute; discriminate)).
  destruct (H ops o dest r d' dest' Hd Hs Hc) as (raw & sp & pre & frame & post & t & E1 & E2 & E3 & E4 & E5 & V).
  exists raw, sp, pre, frame, post, t. repeat (split; [assumption|]).
  intros mem Hm Hsh Hop. destruct (V mem Hm Hsh (range_plausible mem Hop)) as [F A].
  split; [exact F|]. split.
  - eapply Rle_trans; [exact A|]. rewrite range_constants. cbn [pc_k_t]. rewrite Rabs_pos_eq by lra. lra.
  - pose proof (range_ambient mem Hop). lra.
Qed.
Print Assumptions C114_ambient.

(** Every pixel of a raw image is accurate *)
Theorem C114_raw_image : forall l m p B ER EW (bs : bus B ER EW) w a (d0 : driver (FO := B32 l)) w' rest,
  new bs (calib641_from_i2c (B32 l) p bs) 12 384 w a = (Ok d0, w') ->
  trace (d_bus d0) = trace w ++ EvRead a [0x24; 0x00]%Z datasheet641 None :: rest ->
  forall ops sp dest d' dest' evs mem,
    let d := run p bs d0 ops in
    step p bs d (OpGenerateRawSubpage sp dest) = (Ok OutUnit, d', dest') ->
    trace (d_bus d') = trace (d_bus d) ++ evs ->
    (* any emissivity from 1/256 to 2, and the calibrated resolution or a finer one *)
    1 / 256 <= Rabs (B2R (effective_emissivity d)) <= 2 ->
    Rabs (B2R (d_resolution_correction d)) <= 1 ->
    (forall x, word (mem x)) -> Forall (shows mem) evs -> operating641 mem ->
    forall i, (i < length dest)%nat -> measured layout641 sp (d_access_pattern d) i = true ->
    exists x, nth_error dest' i = Some x /\ is_finite x = true /\
      Rabs (B2R x - doc_v_ir (exactly m (d_calibration d0)) layout641 (settings_exactly (settings_of d)) sp mem i)
        <= 6 / 100 / Rabs (B2R (effective_emissivity d)).
Proof.
  intros l m p B ER EW bs w a d0 w' rest Hn Et ops sp dest d' dest' evs mem d Hs Ht He Hr Hm Hsh Hop i Hi Hmi.
  destruct (datasheet_driver641 p bs w a d0 w' rest Hn Et) as (Hu & Hby & Hrc & Hcal).
  destruct (run_usable p bs layout641 d0 ops Hu Hby) as [Hu' _]. fold d in Hu'.
  destruct (run_later p bs layout641 d0 ops (usable_wf _ _ Hu)) as (_ & ((_ & K2 & _) & _) & _). fold d in K2.
  destruct (run_correction p bs d0 ops Hrc) as [cur Hres]. fold d in Hres.
  assert (Fe : is_finite (d_emissivity d) = true).
  { unfold effective_emissivity in He. destruct (d_emissivity d) as [sg|sg| |sg mm ex pf]; try reflexivity; exfalso;
      cbn [B2R] in He; rewrite Rabs_R0 in He; lra. }
  pose proof (measured_pixel641 _ _ _ Hmi) as Hi'.
  destruct (C114_working_range l m p (d_calibration d0) mem Hcal Hop (settings_of d) He Hr) as (W1 & W2 & W3 & W4 & W5).
  destruct (W4 sp i Hi') as [W6 W7].
  rewrite <- K2 in W1, W3, W6, W7, W5. rewrite <- K2.
  assert (Hcor : exists cal cur', d_resolution_correction d = resolution_correction _ (cam _ (d_calibration d)) cal cur').
  { exists (cal_resolution _ (d_calibration d)), cur. exact Hres. }
  destruct (C73_raw_pixels_accurate l m p B ER EW bs layout641 d _ sp dest d' dest' evs mem Hu' W1 Hcor Fe Hs Ht Hm Hsh W2 W3 i Hi Hmi W6
    (fun _ => W5 sp)) as (x & X1 & X2 & X3).
  exists x. split; [exact X1|]. split; [exact X2|]. eapply Rle_trans; [exact X3|exact W7].
Qed.
Print Assumptions C114_raw_image.

Section Warm.
Context (l : libm) (m : camera RealOps) (p : profile) (c : calib (B32 l)) (mem : Z -> Z).
Hypothesis (Hc : from_data641 (B32 l) p datasheet641 = Ok c) (Ht : temperate641 mem).
Context (s : settings (FO := B32 l)).
Hypothesis (He : 9 / 10 <= B2R (set_emissivity s) <= 1) (Hr : Rabs (B2R (set_correction s)) <= 1).
Hypothesis (Hrefl : set_reflected s = None).
Let k := ptat_641 dw641.
Let cr := exactly m c.
Let sr := settings_exactly s.
Let Ho := tp1_operating mem Ht.

Lemma temperate641_ambient : 0 <= exact_t_a k layout641 mem <= 60.
Proof.
  destruct (range_dv mem Ho) as [_ Hd]. fold k in Hd. pose proof (op1_ptat mem Ho) as Hp. pose proof (tp1_ratio mem Ht) as Hb. apply abs_split in Hd.
  unfold exact_t_a, exact_v_ptat_art. set (dv := exact_delta_v k layout641 mem) in *. clearbody dv.
  unfold k. rewrite range_constants. cbn [pc_alpha pc_k_v pc_k_t pc_v_25]. unfold reading.
  set (P := IZR (signed (mem (lay_ptat layout641)))). set (V := IZR (signed (mem (lay_vbe layout641)))).
  assert (HP : 0 < P) by (apply (IZR_lt 0); exact Hp).
  assert (HV : 41 * P <= 4 * V <= 57 * P) by (unfold P, V; rewrite <- !mult_IZR; split; apply IZR_le; apply Hb).
  clearbody P V.
  assert (Hq : 0 < P * (1152 / 128) + V) by lra.
  assert (Ha : 11275 <= P / (P * (1152 / 128) + V) * 262144 <= 13618).
  { split.
    - apply Rmult_le_reg_r with (P * (1152 / 128) + V); [exact Hq|].
      replace (P / (P * (1152 / 128) + V) * 262144 * (P * (1152 / 128) + V)) with (P * 262144) by (field; lra). lra.
    - apply Rmult_le_reg_r with (P * (1152 / 128) + V); [exact Hq|].
      replace (P / (P * (1152 / 128) + V) * 262144 * (P * (1152 / 128) + V)) with (P * 262144) by (field; lra). lra. }
  set (art := P / (P * (1152 / 128) + V) * 262144) in *. clearbody art.
  assert (Hy : 1 - 23 / 4096 * (4 / 5) <= 1 + 23 / 4096 * dv <= 1 + 23 / 4096 * (4 / 5)) by lra.
  set (y := 1 + 23 / 4096 * dv) in *. clearbody y.
  assert (Hz : 11220 <= art / y <= 13682).
  { split; (apply Rmult_le_reg_r with y; [lra|]; replace (art / y * y) with art by (field; lra); lra). }
  set (q := art / y) in *. clearbody q. lra.
Qed.

Lemma emissivity_one : 1 / 256 <= Rabs (B2R (set_emissivity s)) <= 2.
Proof. rewrite Rabs_pos_eq by lra. lra. Qed.
Lemma temperate641_ta : 0 <= doc_t_a cr layout641 mem <= 60.
Proof.
  assert (Eta : doc_t_a cr layout641 mem = exact_t_a k layout641 mem).
  { apply (exact_ta m c k); [exact (range_calibrated l p c Hc)|exact (range_plausible mem Ho)]. }
  rewrite Eta. exact temperate641_ambient.
Qed.

Lemma alpha_range : forall sp i, (i < 192)%nat ->
  1200 / 4294967296 <= nth i (alpha_pixels _ cr sp) 0 <= 1500 / 4294967296.
Proof.
  intros sp i Hi. destruct (pixel_facts641 i Hi) as [F1 _ _ _ F5 F6 F7].
  destruct (C48_alpha l p datasheet641 dw641 c datasheet641_full datasheet641_corrected Hc sp i Hi F1) as (x & E & _ & _ & V).
  change (alpha_pixels _ cr sp) with (map B2R (alpha_pixels _ c sp)). rewrite nth_map_B2R.
  rewrite (nth_error_nth _ _ _ E), (proj2 (V F5)). unfold doc_alpha641. rewrite F5, F7. unfold scaled.
  change (2 ^ 32)%Z with 4294967296%Z. destruct F6 as [G1 G2]. apply IZR_le in G1, G2. lra.
Qed.
Lemma ks_ta_is : k_s_ta _ cr = -72 / 32768.
Proof.
  destruct (C48_scalar_parameters l p datasheet641 dw641 c datasheet641_full datasheet641_corrected Hc) as (V & _).
  destruct cp_words as (_ & _ & _ & _ & _ & _ & W & _).
  change (k_s_ta _ cr) with (B2R (k_s_ta _ c)). rewrite (proj2 V), W. reflexivity.
Qed.
Lemma ks_to_is : nth (lay_basic_range layout641) (k_s_to _ cr) 0 = -734 / 1048576.
Proof.
  change (k_s_to _ cr) with (map B2R (k_s_to _ c)).
  destruct cp_words as (_ & _ & _ & _ & _ & _ & _ & W & W2).
  assert (H : (dw641 0x34%nat <= 127)%Z) by (rewrite W2; discriminate).
  pose proof (C48_k_s_to l p datasheet641 dw641 c datasheet641_full datasheet641_corrected Hc H) as F.
  inversion F as [|x1 y1 l1 m1 V1 F1]; subst. inversion F1 as [|x2 y2 l2 m2 V2 F2]; subst. inversion F2 as [|x3 y3 l3 m3 V3 F3]; subst.
  cbn [map nth lay_basic_range layout641]. rewrite (proj2 V3), W, W2. reflexivity.
Qed.
Lemma kt : Rabs (k_t_ptat _ cr) = 342 / 8.
Proof. exact (kt_is l m p c Hc). Qed.
Lemma tgc_zero : temperature_gradient_coefficient _ cr = Some 0.
Proof. exact (tgc_is_zero l m p c Hc). Qed.

Lemma warm_pixel641 : forall sp i, (i < 192)%nat -> warm_object641 cr sr sp mem i ->
  let kst := nth (lay_basic_range layout641) (k_s_to _ cr) 0 in
  working_pixel cr layout641 sr sp mem kst i /\ temperature_tolerance cr layout641 sr sp mem kst i <= 1 / 5.
Proof.
  intros sp i Hi Hw kst.
  destruct (C114_working_range l m p c mem Hc Ho s emissivity_one Hr) as (_ & _ & _ & W & _).
  destruct (W sp i Hi) as [_ Htol]. clear W. fold cr sr in Htol. rewrite Rabs_pos_eq in Htol by lra.
  pose proof temperate641_ta as Bta. set (ta := doc_t_a cr layout641 mem : R) in *.
  assert (Pkst : kst = -734 / 1048576) by exact ks_to_is.
  set (V := doc_v_ir cr layout641 sr sp mem i : R).
  set (A := SpecImage.doc_alpha cr layout641 sp mem i : R).
  assert (EA : A = (nth i (alpha_pixels _ cr sp) 0 - alpha_cp _ cr sp * 0) * (1 + -72 / 32768 * (ta - 25))).
  { unfold A, SpecImage.doc_alpha. rewrite tgc_zero. change (@fofZ RealOps 0) with 0. rewrite ks_ta_is. reflexivity. }
  set (e := set_emissivity sr : R).
  assert (Ee : 9 / 10 <= e <= 1) by exact He.
  set (Rr := doc_t_ar cr layout641 sr mem : R).
  set (ta4 := (ta + 273.15) ^ 4).
  assert (Bta4 : 5560000000 <= ta4 <= 12320000000).
  { unfold ta4. split.
    - apply Rle_trans with (273.15 ^ 4); [lra|apply pow_incr; lra].
    - apply Rle_trans with (333.15 ^ 4); [apply pow_incr; lra|lra]. }
  assert (Btr : 92 / 100 * ta4 <= (ta - 5 + 273.15) ^ 4 <= ta4).
  { unfold ta4. split.
    - apply Rle_trans with ((98 / 100 * (ta + 273.15)) ^ 4).
      + rewrite Rpow_mult_distr. apply Rmult_le_compat_r; [apply pow_le; lra|lra].
      + apply pow_incr. lra.
    - apply pow_incr. lra. }
  assert (BR : 5560000000 <= Rr <= 12450000000 /\ Rr <= 101 / 100 * ta4).
  { unfold Rr, doc_t_ar. fold e. unfold sr, settings_exactly. cbn [set_reflected]. rewrite Hrefl. cbn [option_map].
    fold ta. cbn [RealOps feqb fofZ fpowi f_273_15 fadd fsub fdiv]. rewrite !powerRZ4. replace (27315 / 100) with 273.15 by lra.
    replace (IZR (lay_self_heating layout641)) with 5 by reflexivity.
    fold ta4. set (tr4 := (ta - 5 + 273.15) ^ 4) in *. clearbody tr4 ta4.
    destruct (Req_EM_T e 1) as [_|N]; [split; [split|]; lra|].
    assert (Q : tr4 - (tr4 - ta4) / e = ta4 + (1 - e) / e * (ta4 - tr4)) by (field; lra). rewrite Q.
    assert (Bq : 0 <= (1 - e) / e <= 1 / 8).
    { split; apply Rmult_le_reg_r with e; try lra; replace ((1 - e) / e * e) with (1 - e) by (field; lra); lra. }
    set (q := (1 - e) / e) in *. clearbody q.
    assert (0 <= q * (ta4 - tr4) <= 1 / 8 * (8 / 100 * ta4)).
    { split; [apply Rmult_le_pos; lra|apply Rmult_le_compat; lra]. }
    lra. }
  destruct BR as [BR BR1].
  assert (BA : 1200 * 0.92 / 4294967296 <= A <= 1500 * 1.06 / 4294967296).
  { rewrite EA. pose proof (alpha_range sp i Hi) as Bap. rewrite Rmult_0_r, Rminus_0_r.
    set (a := nth i (alpha_pixels _ cr sp) 0) in *.
    assert (Bf : 0.92 <= 1 + -72 / 32768 * (ta - 25) <= 1.06) by lra.
    set (f := 1 + -72 / 32768 * (ta - 25)) in *. clearbody a f.
    split.
    - replace (1200 * 0.92 / 4294967296) with (1200 / 4294967296 * 0.92) by lra. apply Rmult_le_compat; lra.
    - replace (1500 * 1.06 / 4294967296) with (1500 / 4294967296 * 1.06) by lra. apply Rmult_le_compat; lra. }
  set (x := signal cr layout641 sr sp mem i : R).
  assert (Ex : x = V / A) by reflexivity.
  assert (PA : 0 < A) by lra.
  set (w4 := uncorrected4 cr layout641 sr sp mem i : R).
  assert (Ew4 : w4 = x + Rr) by reflexivity.
  unfold warm_object641 in Hw. fold w4 in Hw.
  assert (Bw4 : 5560000000 <= w4 <= 108000000000) by lra.
  set (w := uncorrected_kelvin cr layout641 sr sp mem i : R).
  assert (Pw : 0 < w) by apply root4_pos.
  assert (Ew : w ^ 4 = w4) by (apply root4_pow; lra).
  assert (Bw : 273.15 <= w <= 573.15).
  { split.
    - destruct (Rle_or_lt 273.15 w) as [L|L]; [exact L|]. pose proof (pow4_lt w 273.15 ltac:(lra) L). lra.
    - destruct (Rle_or_lt w 573.15) as [L|L]; [exact L|]. pose proof (pow4_lt 573.15 w ltac:(lra) L). lra. }
  set (g := 1 + kst * (w - 273.15)).
  assert (Bg : 0.75 <= g <= 1) by (unfold g; rewrite Pkst; lra).
  assert (Pg' : 0 < g) by lra.
  (* a colder object than the camera leaves the sensitivity nearly as it is *)
  assert (Bcold : x < 0 -> 0.95 <= g).
  { intros Hx. assert (Hlt : w ^ 4 < 335 ^ 4) by (rewrite Ew, Ew4; lra).
    assert (w < 335).
    { destruct (Rlt_or_le w 335) as [L|L]; [exact L|]. assert (335 ^ 4 <= w ^ 4) by (apply pow_incr; lra). lra. }
    unfold g. rewrite Pkst. lra. }
  set (xg := x / g). assert (Exg : xg * g = x) by (unfold xg; field; lra).
  assert (Bxg : -370000000 <= xg - x <= 36000000000).
  { destruct (Rlt_or_le x 0) as [Hx|Hx].
    - specialize (Bcold Hx). assert (Bx : -6900000000 <= x) by lra.
      assert (L : x / 0.95 <= xg).
      { apply Rmult_le_reg_r with g; [exact Pg'|]. rewrite Exg.
        replace (x / 0.95 * g) with (x * (g / 0.95)) by (unfold Rdiv; ring).
        assert (1 <= g / 0.95) by lra. set (t := g / 0.95) in *. clearbody t.
        replace x with (x * 1) at 2 by ring. apply Rmult_le_compat_neg_l; lra. }
      assert (U : xg <= x).
      { apply Rmult_le_reg_r with g; [exact Pg'|]. rewrite Exg.
        replace x with (x * 1) at 1 by ring. apply Rmult_le_compat_neg_l; lra. }
      lra.
    - assert (L : x <= xg).
      { apply Rmult_le_reg_r with g; [exact Pg'|]. rewrite Exg.
        replace x with (x * 1) at 2 by ring. apply Rmult_le_compat_l; lra. }
      assert (U : xg <= x / 0.75).
      { apply Rmult_le_reg_r with g; [exact Pg'|]. rewrite Exg.
        replace (x / 0.75 * g) with (x * (g / 0.75)) by (unfold Rdiv; ring).
        replace x with (x * 1) at 1 by ring. apply Rmult_le_compat_l; lra. }
      lra. }
  assert (Eo : doc_t_o cr layout641 sr sp mem kst i = Rpower (xg + Rr) (1 / 4) - 273.15).
  { change (doc_t_o cr layout641 sr sp mem kst i) with (per_pixel_temperature (FO := RealOps) V A Rr kst).
    rewrite temperature_R; [|assumption|rewrite <- Ex; lra]. unfold sensitivity_at, estimate. rewrite <- Ex.
    change (Rpower (x + Rr) (1 / 4)) with w. fold g.
    replace (V / (A * g)) with xg; [reflexivity|]. unfold xg. rewrite Ex. field. lra. }
  set (T := Rpower (xg + Rr) (1 / 4)) in *.
  assert (PT : 0 < T) by apply root4_pos.
  assert (ET : T ^ 4 = xg + Rr) by (apply root4_pow; lra).
  assert (BT : 268 <= T <= 650).
  { split.
    - destruct (Rle_or_lt 268 T) as [L|L]; [exact L|]. pose proof (pow4_lt T 268 ltac:(lra) L). lra.
    - destruct (Rle_or_lt T 650) as [L|L]; [exact L|]. pose proof (pow4_lt 650 T ltac:(lra) L). lra. }
  assert (EoK : object_kelvin cr layout641 sr sp mem kst i = T) by (unfold object_kelvin; rewrite Eo; ring).
  assert (Eat : ambient_tolerance cr = 2 / 25 / (342 / 8)) by (unfold ambient_tolerance; rewrite kt; reflexivity).
  assert (BT3 : 19200000 <= T ^ 3).
  { apply Rle_trans with (268 ^ 3); [lra|apply pow_incr; lra]. }
  assert (Ptol : 0 <= pixel_tolerance cr sr sp i).
  { unfold pixel_tolerance. rewrite tgc_zero, Rabs_R0, Rmult_0_l, Rplus_0_r. unfold tolerance. rewrite kt. fold e.
    rewrite (Rabs_pos_eq e) by lra. apply Rmult_le_pos; [|apply Rlt_le, Rinv_0_lt_compat; lra].
    apply Rplus_le_le_0_compat; [lra|]. apply Rmult_le_pos; [apply Rabs_pos|].
    pose proof (Rabs_pos (nth i (k_ta_pixels _ cr sp) 0)). lra. }
  assert (BD : radiation_tolerance cr layout641 sr sp mem i <= 3600000).
  { unfold radiation_tolerance. fold A. fold x. fold Rr.
    assert (B3 : 0 <= (ta + 273.15) ^ 3 <= 37000000).
    { split; [apply pow_le; lra|]. apply Rle_trans with (333.15 ^ 3); [apply pow_incr; lra|lra]. }
    assert (B3' : 0 <= (ta - 5 + 273.15) ^ 3 <= 37000000).
    { split; [apply pow_le; lra|]. apply Rle_trans with (333.15 ^ 3); [apply pow_incr; lra|lra]. }
    assert (Bb : background_tolerance cr layout641 sr mem <= 1400000).
    { unfold background_tolerance. fold e. rewrite Eat. unfold ambient_kelvin, reflected_kelvin, sr, settings_exactly. cbn [set_reflected].
      rewrite Hrefl. cbn [option_map]. fold ta. replace (IZR (lay_self_heating layout641)) with 5 by reflexivity.
      set (u := (ta + 273.15) ^ 3) in *. set (v := (ta - 5 + 273.15) ^ 3) in *. clearbody u v.
      destruct (Req_EM_T e 1) as [_|N]; [lra|].
      apply Rmult_le_reg_r with e; [lra|].
      replace (6 * (2 / 25 / (342 / 8)) * (u + 2 * v) / e * e) with (6 * (2 / 25 / (342 / 8)) * (u + 2 * v)) by (field; lra).
      lra. }
    assert (Bt : pixel_tolerance cr sr sp i / A <= 270000).
    { assert (Htol' : pixel_tolerance cr sr sp i <= 6 / 100 / (9 / 10)).
      { eapply Rle_trans; [exact Htol|]. change (B2R (set_emissivity s)) with e.
        unfold Rdiv. apply Rmult_le_compat_l; [lra|]. apply Rinv_le_contravar; lra. }
      set (tol := pixel_tolerance cr sr sp i) in *. assert (Eq : tol / A * A = tol) by (field; lra).
      apply Rmult_le_reg_r with A; try assumption; rewrite Eq; lra. }
    assert (Bx : Rabs x <= 110000000000) by (apply Rabs_le; lra).
    unfold sensitivity_tolerance. rewrite Eat, ks_ta_is.
    rewrite (Rabs_left (-72 / 32768)), (Rabs_pos_eq Rr) by lra.
    set (b := background_tolerance cr layout641 sr mem) in *. set (y1 := pixel_tolerance cr sr sp i / A) in *. set (ax := Rabs x) in *. lra. }
  split.
  - constructor.
    + unfold reflected_kelvin, sr, settings_exactly. cbn [set_reflected]. rewrite Hrefl. cbn [option_map]. fold ta.
      replace (IZR (lay_self_heating layout641)) with 5 by reflexivity. lra.
    + fold e. lra.
    + rewrite ks_ta_is. apply Rabs_le. lra.
    + fold ta. rewrite ks_ta_is. apply Rabs_le. lra.
    + fold A. lra.
    + intros tgc Et. rewrite tgc_zero in Et. apply some_inj in Et. subst tgc.
      rewrite Rmult_0_r, Rabs_R0. apply Rmult_le_pos; [apply Rabs_pos|lra].
    + fold w4. lra.
    + fold w4 x. apply Rabs_le. lra.
    + fold w. rewrite Pkst, Rabs_left by lra. lra.
    + fold w. rewrite Pkst. apply Rabs_le. lra.
    + rewrite EoK. lra.
    + fold w4. lra.
    + rewrite EoK, ET. lra.
  - unfold temperature_tolerance. rewrite EoK. set (D := radiation_tolerance cr layout641 sr sp mem i) in *.
    assert (P3 : 0 < T ^ 3) by lra. set (t3 := T ^ 3) in *.
    assert (D / t3 <= 0.1995); [|lra]. apply Rmult_le_reg_r with t3; [exact P3|].
    replace (D / t3 * t3) with D by (field; lra). lra.
Qed.
End Warm.

(** Every temperature image, after any history *)
Theorem C114_temperatures : forall l m p B ER EW (bs : bus B ER EW) w a (d0 : driver (FO := B32 l)) w' rest,
  accurate_powers l ->
  new bs (calib641_from_i2c (B32 l) p bs) 12 384 w a = (Ok d0, w') ->
  trace (d_bus d0) = trace w ++ EvRead a [0x24; 0x00]%Z datasheet641 None :: rest ->
  forall ops o dest r d' dest',
    let d := run p bs d0 ops in
    destination o = Some dest -> step p bs d o = (r, d', dest') -> computed o r ->
    9 / 10 <= B2R (effective_emissivity d) <= 1 -> Rabs (B2R (d_resolution_correction d)) <= 1 ->
    reflected_temperature d = None ->
    exists raw sp pre frame post,
      trace (d_bus d') = trace (d_bus d) ++ pre ++ frame ++ post /\
      asks (d_address d) o raw sp pre /\
      completed (d_address d) (frame_reads layout641 sp (d_access_pattern d)) frame /\
      acknowledges (d_address d) o pre post r /\
      forall mem, (forall x, word (mem x)) -> Forall (shows mem) frame -> temperate641 mem -> raw = false ->
        let c := exactly m (d_calibration d0) in
        let s := settings_exactly (settings_of d) in
        forall i, (i < length dest)%nat -> measured layout641 sp (d_access_pattern d) i = true ->
        warm_object641 c s sp mem i ->
        exists x, nth_error dest' i = Some x /\ is_finite x = true /\
          Rabs (B2R x - doc_t_o c layout641 s sp mem (nth (lay_basic_range layout641) (k_s_to _ c) 0) i) <= 1 / 5.
Proof.
  intros l m p B ER EW bs w a d0 w' rest Hl Hn Et ops o dest r d' dest' d Hd Hs Hcm He Hr Hrefl.
  destruct (datasheet_driver641 p bs w a d0 w' rest Hn Et) as (Hu & Hby & Hrc & Hcal).
  assert (Fe : is_finite (effective_emissivity d) = true).
  { destruct (effective_emissivity d) as [sg|sg| |sg mm ex pf]; try reflexivity; exfalso; cbn [B2R] in He; lra. }
  destruct (images_from_calibration m p bs _ layout641 d0 Hu Hby Hrc (range_calibrated l p (d_calibration d0) Hcal)
    (C74_decoded_641 l p datasheet641 dw641 (d_calibration d0) datasheet641_full datasheet641_corrected Hcal) ops o dest r d' dest' Hd Hs Hcm Fe)
    as (raw & sp & pre & frame & post & E1 & E2 & E3 & E4 & V).
  exists raw, sp, pre, frame, post. repeat (split; [assumption|]).
  intros mem Hm Hsh Htp Hraw c s i Hi Hmi Hw. subst raw.
  pose proof (measured_pixel641 _ _ _ Hmi) as Hi'.
  assert (He' : 1 / 256 <= Rabs (B2R (set_emissivity (settings_of d))) <= 2).
  { cbn [set_emissivity settings_of]. unfold effective_emissivity in He. rewrite Rabs_pos_eq by lra. lra. }
  destruct (C114_working_range l m p (d_calibration d0) mem Hcal (tp1_operating mem Htp) (settings_of d) He' Hr) as (_ & W2 & W3 & W4 & W5).
  destruct (W4 sp i Hi') as [W6 _].
  destruct (warm_pixel641 l m p (d_calibration d0) mem Hcal Htp (settings_of d) He Hr Hrefl sp i Hi' Hw) as [K1 K2].
  specialize (V mem Hm Hsh). cbv zeta in V.
  destruct (V W2 W3 i Hi Hmi W6 (fun _ => W5 sp)) as (x & X1 & X2).
  destruct (X2 Hl (fun t E => match (eq_trans (eq_sym Hrefl) E) in _ = o return match o with Some _ => _ | None => True end with eq_refl => I end) K1) as [X3 X4].
  exists x. split; [exact X1|]. split; [exact X3|]. eapply Rle_trans; [exact X4|exact K2].
Qed.
Print Assumptions C114_temperatures.


(** ** Concrete case: a frame of this camera at 3.3 V, about 30 degrees, every pixel at -400 *)
Definition sample_mem641 (a : Z) : Z :=
  if ((0x2400 <=? a) && (a <? 0x2740))%Z then ee_word datasheet641 (Z.to_nat (a - 0x2400))
  else if (a =? 0x800D)%Z then 0x1901%Z
  else if (a =? 0x05AA)%Z then 0xCB00%Z
  else if (a =? 0x0580)%Z then 20700%Z
  else if (a =? 0x05A0)%Z then 1711%Z
  else if (a =? 0x058A)%Z then 9972%Z
  else 0xFE70%Z.
Definition sample_bus641 : bus unit unit unit := {|
  dev_write_read := fun b _ wb buf => (b, mem_bytes sample_mem641 (256 * nth 0 wb 0 + nth 1 wb 0)%Z (length buf), None);
  dev_write := fun b _ _ => (b, None) |}.
Example C114_concrete : temperate641 sample_mem641.
Proof. repeat constructor; vm_compute; try split; first [reflexivity|discriminate]. Qed.
(** Its camera holds this EEPROM, has its emissivity and resolution correction in the range when created,
    and computes images *)
Example C114_camera :
  match new sample_bus641 (calib641_from_i2c (B32 any_lib) Debug sample_bus641) 12 384 (Build_world tt []) 0x33 with
  | (Ok d, _) =>
      match trace (d_bus d) with
      | EvRead _ [0x24; 0x00]%Z data None :: _ => if list_eq_dec Z.eq_dec data datasheet641 then true else false
      | _ => false
      end && Bltb (fdiv (b_ofZ 90 : F (B32 any_lib)) (b_ofZ 100 : F (B32 any_lib))) (d_emissivity d) && Bleb (d_emissivity d) (b_ofZ 1) &&
      Bleb (b_ofZ 1) (d_resolution_correction d) && Bleb (d_resolution_correction d) (b_ofZ 1) &&
      match d_reflected d with None => true | Some _ => false end &&
      match step Debug sample_bus641 d (OpGenerateRawSubpage (FO := B32 any_lib) Zero (repeat (b_ofZ 0) 192)) with
      | (Ok OutUnit, d', dest') => forallb (fun x => P_Finite.between (b_ofZ 200) x (b_ofZ 400)) dest'
      | _ => false
      end
  | _ => false
  end = true.
Proof. vm_compute. reflexivity. Qed.
Example C114_warm : forall l m (c : calib (B32 l)), from_data641 (B32 l) Debug datasheet641 = Ok c ->
  warm_object641 (exactly m c) (settings_exactly (sample_settings l)) Zero sample_mem641 0.
Proof.
  intros l m c Hc.
  assert (Ee1 : B2R (set_emissivity (sample_settings l)) = 1) by (apply (proj2 (b_ofZ_correct 1 ltac:(clear; lia)))).
  assert (Eco : B2R (set_correction (sample_settings l)) = 1) by (apply (proj2 (b_ofZ_correct 1 ltac:(clear; lia)))).
  pose proof (temperate641_ta l m Debug c sample_mem641 Hc C114_concrete) as Bta.
  pose proof (alpha_range l m Debug c Hc Zero 0 ltac:(clear; lia)) as Ba.
  pose proof (ks_ta_is l m Debug c Hc) as Eks. pose proof (tgc_zero l m Debug c Hc) as Et.
  destruct (pixel_facts641 0 ltac:(clear; lia)) as [F1 _ F3 F4 _ _ _].
  destruct (C48_k_ta_and_k_v_exact l Debug datasheet641 dw641 c datasheet641_full datasheet641_corrected Hc Zero 0 ltac:(clear; lia) F1)
    as (x & y & Ex & Ey & Vx & Vy). specialize (Vx kta_scale2_is). specialize (Vy kv_scale2_is).
  pose proof (C48_offset _ Debug datasheet641 dw641 c datasheet641_full datasheet641_corrected Hc Zero 0 ltac:(clear; lia) F1) as Eo.
  assert (Eov : shifted (kept_offset dw641 Zero 0) = (-673)%Z) by (vm_compute; reflexivity). rewrite Eov in Eo.
  rewrite F3, kta_scale_is in Vx. rewrite F4, kv_scale_is in Vy.
  set (cr := exactly m c) in *. set (sr := settings_exactly (sample_settings l)).
  assert (Ka : nth 0 (k_ta_pixels _ cr Zero) 0 = 813 / 262144).
  { change (k_ta_pixels _ cr Zero) with (map B2R (k_ta_pixels _ c Zero)). rewrite nth_map_B2R, (nth_error_nth _ _ _ Ex), (proj2 Vx). reflexivity. }
  assert (Ko : nth 0 (offset_reference_pixels _ cr Zero) 0%Z = (-673)%Z).
  { change (offset_reference_pixels _ cr Zero) with (offset_reference_pixels _ c Zero). apply (nth_error_nth _ _ _ Eo). }
  assert (Kp : nth 0 (access_pattern_compensation_pixels _ cr Chess) None = None).
  { change (access_pattern_compensation_pixels _ cr Chess) with (map (option_map B2R) (access_pattern_compensation_pixels _ c Chess)).
    rewrite (map_nth (option_map B2R) _ None 0).
    rewrite (decoded_is641 (B32 l) Debug datasheet641 datasheet641_full c Hc). reflexivity. }
  pose proof (C114_working_range l m Debug c sample_mem641 Hc (tp1_operating _ C114_concrete) (sample_settings l)
    ltac:(rewrite Ee1, Rabs_R1; lra) ltac:(rewrite Eco, Rabs_R1; lra)) as (W1 & W2 & _).
  assert (Edv : doc_delta_v cr layout641 sample_mem641 = 0).
  { unfold cr. rewrite (exact_dv m c (ptat_641 dw641)) by assumption. rewrite (proj1 (range_dv _ (tp1_operating _ C114_concrete))).
    unfold reading. replace (signed (sample_mem641 (lay_vdd layout641))) with (-13568)%Z by (vm_compute; reflexivity). lra. }
  assert (Evd : doc_v_dd cr layout641 sr sample_mem641 - 33 / 10 = 0).
  { unfold sr, cr. rewrite volts. fold cr. rewrite Edv. lra. }
  assert (EG : doc_gain cr layout641 sample_mem641 = 1).
  { destruct (C48_scalar_parameters l Debug datasheet641 dw641 c datasheet641_full datasheet641_corrected Hc) as (_ & _ & Vg & _).
    unfold doc_gain. change (cal_gain _ cr) with (B2R (cal_gain _ c)). rewrite (proj2 Vg).
    replace (stored16 dw641 36) with 9972%Z by (vm_compute; reflexivity). cbn [RealOps fdiv fofZ].
    replace (SpecImage.ram sample_mem641 (lay_gain layout641)) with 9972%Z by (vm_compute; reflexivity). lra. }
  set (ta := doc_t_a cr layout641 sample_mem641 : R) in *.
  set (V := doc_v_ir cr layout641 sr Zero sample_mem641 0 : R).
  assert (BV : 200 <= V <= 400).
  { assert (EV : V = -400 + 673 * (1 + 813 / 262144 * (ta - 25))
      - 0 * doc_compensated (FO := RealOps) cr layout641 sr sample_mem641 (SpecImage.ram sample_mem641 (lay_cp layout641 Zero))
          (offset_reference_cp _ cr Zero) (k_v_cp _ cr Zero) (k_ta_cp _ cr Zero) (access_pattern_compensation_cp _ cr Zero Chess)).
    { unfold V, doc_v_ir. rewrite Et. change (set_pattern sr) with Chess. cbn [RealOps fsub fmul]. f_equal.
      unfold doc_compensated. change (@fofZ RealOps 0) with 0. rewrite Ko, Ka, Kp, EG.
      change (set_emissivity sr) with (B2R (set_emissivity (sample_settings l))). rewrite Ee1.
      change (@f_3_3 RealOps) with (33 / 10). fold ta. cbn [RealOps fadd fsub fmul fdiv fofZ]. rewrite Evd.
      replace (SpecImage.ram sample_mem641 (lay_address layout641 Zero 0)) with (-400)%Z by (vm_compute; reflexivity). lra. }
    rewrite EV. lra. }
  set (A := SpecImage.doc_alpha cr layout641 Zero sample_mem641 0 : R).
  assert (EA : A = (nth 0 (alpha_pixels _ cr Zero) 0 - alpha_cp _ cr Zero * 0) * (1 + -72 / 32768 * (ta - 25))).
  { unfold A, SpecImage.doc_alpha. rewrite Et. change (@fofZ RealOps 0) with 0. rewrite Eks. reflexivity. }
  assert (BA : 24 / 100000000 <= A <= 40 / 100000000).
  { rewrite EA, Rmult_0_r, Rminus_0_r. set (a := nth 0 (alpha_pixels _ cr Zero) 0) in *.
    assert (Bf : 0.92 <= 1 + -72 / 32768 * (ta - 25) <= 1.06) by lra.
    set (f := 1 + -72 / 32768 * (ta - 25)) in *. clearbody a f. split.
    - apply Rle_trans with (1200 / 4294967296 * 0.92); [lra|apply Rmult_le_compat; lra].
    - apply Rle_trans with (1500 / 4294967296 * 1.06); [apply Rmult_le_compat; lra|lra]. }
  assert (ER : doc_t_ar cr layout641 sr sample_mem641 = (ta + 273.15) ^ 4).
  { unfold doc_t_ar. change (set_emissivity sr) with (B2R (set_emissivity (sample_settings l))). rewrite Ee1.
    cbn [RealOps feqb fofZ fpowi f_273_15 fadd]. fold ta.
    destruct (Req_EM_T 1 1) as [_|N]; [|contradiction]. rewrite powerRZ4. replace (27315 / 100) with 273.15 by lra. reflexivity. }
  assert (BR : 273.15 ^ 4 <= (ta + 273.15) ^ 4 <= 333.15 ^ 4) by (split; apply pow_incr; lra).
  unfold warm_object641. 
  assert (Eu : uncorrected4 cr layout641 sr Zero sample_mem641 0 = V / A + (ta + 273.15) ^ 4) by (rewrite <- ER; reflexivity).
  rewrite Eu. set (q := V / A). assert (Eq : q * A = V) by (unfold q; field; lra).
  assert (Bq : 0 <= q <= 2000000000).
  { split; apply Rmult_le_reg_r with A; try lra; rewrite Eq; lra. }
  set (r4 := (ta + 273.15) ^ 4) in *. clearbody q r4. lra.
Qed.
