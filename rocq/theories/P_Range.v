(** * P_Range (C112): a whole range of frames on which the datasheet's camera is accurate.
    The accuracy theorems (C72-C75) ask for frames and coefficients "in the working range", stated over the real
    numbers.  For the camera of the MLX90640 datasheet's worked example (the EEPROM contents of the test data crate)
    every frame whose four auxiliary words lie in an explicit range is one, for each of its 768 pixels. *)
From Verif Require Import Base FloatOps Register Bus Camera Cam640 Calc Ee640 B32 RealOps SpecRegister SpecEeprom.
From Verif Require Import SpecCamera SpecDriver SpecImage SpecCall Spec640 SpecAccuracy ImageFacts Ee640Facts Dumps P_Ee640 P_Ee640Real.
From Verif Require Import ParseFacts DriverFacts StepFacts SeenFacts RealFacts BoundFacts P_Usable P_Calc P_Finite P_Bus P_Image P_Frames AccuracyFacts P_Accuracy P_PixelAccuracy P_EndToEnd.
From Verif Require Import Driver.
From Flocq Require Import BinarySingleNaN.
From Coq Require Import Reals Lra.
Open Scope R_scope.

(** The range, on the words of the camera's RAM: the sensor's readings are positive, with V_BE between 7 and 25 times
    V_PTAT (about -84 to 125 degrees); the supply reading is within 2534 of its value at 3.3 V (within 0.8 V); the gain word is at least half the calibrated one (6383) and positive. *)
Record operating (mem : Z -> Z) : Prop := {
  op_ptat : (0 < signed (mem (lay_ptat layout640)))%Z;
  op_vbe : (7 * signed (mem (lay_ptat layout640)) <= signed (mem (lay_vbe layout640)) <= 25 * signed (mem (lay_ptat layout640)))%Z;
  op_supply : (Z.abs (signed (mem (lay_vdd layout640)) + 13056) <= 2534)%Z;
  op_gain : (3192 <= signed (mem (lay_gain layout640)))%Z
}.

Section Range.
Context (l : libm) (m : camera RealOps) (p : profile) (c : calib (B32 l)) (mem : Z -> Z).
Hypothesis (Hc : from_data640 (B32 l) p datasheet640 = Ok c) (Ho : operating mem).
Context (s : settings (FO := B32 l)).
Hypothesis (Hs : 1 / 256 <= Rabs (B2R (set_emissivity s)) <= 2) (Hr : Rabs (B2R (set_correction s)) <= 1).
Let k := ptat_640 (ee_word datasheet640).
Let cr := exactly m c.
Let sr := settings_exactly s.

Fact range_calibrated : well_calibrated c k.
Proof. apply (C73_decoded_640 l p datasheet640 c datasheet640_full Hc); vm_compute; first [reflexivity|discriminate]. Qed.
Fact range_constants : k = {| pc_alpha := IZR 4 / 4 + 8; pc_k_v := IZR 22%Z / 4096; pc_k_t := IZR 338 / 8;
                              pc_v_25 := IZR 12273; pc_vdd_25 := -13056; pc_k_vdd := -3168 |}.
Proof. vm_compute. reflexivity. Qed.

Fact range_dv : exact_delta_v k layout640 mem = - (reading mem (lay_vdd layout640) + 13056) / 3168 /\
  Rabs (exact_delta_v k layout640 mem) <= 4 / 5.
Proof.
  destruct Ho as [_ _ Hv _]. unfold exact_delta_v. rewrite range_constants. cbn [pc_vdd_25 pc_k_vdd].
  unfold reading. set (D := signed (mem (lay_vdd layout640))) in *.
  assert (B : -2534 <= IZR D + 13056 <= 2534).
  { split; [replace (-2534) with (IZR (-2534 - 13056) + 13056) by (rewrite minus_IZR; lra)|replace 2534 with (IZR (2534 - 13056) + 13056) by (rewrite minus_IZR; lra)];
      apply Rplus_le_compat_r, IZR_le; clear - Hv; lia. }
  split; [lra|]. apply Rabs_le. lra.
Qed.

Lemma range_plausible : plausible_frame k layout640 mem.
Proof.
  destruct range_dv as [_ Hd]. destruct Ho as [Hp Hb Hv _].
  constructor.
  - unfold reading. apply (IZR_lt 0). exact Hp.
  - unfold reading. apply (IZR_le 0). clear - Hp Hb. lia.
  - rewrite range_constants. cbn [pc_vdd_25]. unfold reading. rewrite <- minus_IZR.
    split; [apply (IZR_le (-32768))|apply (IZR_le _ 32767)]; clear - Hv; lia.
  - rewrite Rabs_mult. replace (Rabs (pc_k_v k)) with (22 / 4096) by (rewrite range_constants; cbn [pc_k_v]; symmetry; apply Rabs_pos_eq; lra).
    pose proof (Rabs_pos (exact_delta_v k layout640 mem)). lra.
Qed.

(** The ambient temperature is between -84 and 125 degrees *)
Lemma range_ambient : -109 <= exact_t_a k layout640 mem - 25 <= 100.
Proof.
  destruct range_dv as [_ Hd]. destruct Ho as [Hp Hb _ _]. apply abs_split in Hd.
  unfold exact_t_a, exact_v_ptat_art. set (dv := exact_delta_v k layout640 mem) in *. clearbody dv.
  rewrite range_constants. cbn [pc_alpha pc_k_v pc_k_t pc_v_25]. unfold reading.
  set (P := IZR (signed (mem (lay_ptat layout640)))). set (V := IZR (signed (mem (lay_vbe layout640)))).
  assert (HP : 0 < P) by (apply (IZR_lt 0); exact Hp).
  assert (HV : 7 * P <= V <= 25 * P) by (unfold P, V; rewrite <- !mult_IZR; split; apply IZR_le; apply Hb).
  clearbody P V.
  assert (Ha : 7710 <= P / (P * (4 / 4 + 8) + V) * 262144 <= 16384).
  { assert (Hq : 0 < P * (4 / 4 + 8) + V) by lra.
    split.
    - apply Rmult_le_reg_r with (P * (4 / 4 + 8) + V); [exact Hq|].
      replace (P / (P * (4 / 4 + 8) + V) * 262144 * (P * (4 / 4 + 8) + V)) with (P * 262144) by (field; lra). lra.
    - apply Rmult_le_reg_r with (P * (4 / 4 + 8) + V); [exact Hq|].
      replace (P / (P * (4 / 4 + 8) + V) * 262144 * (P * (4 / 4 + 8) + V)) with (P * 262144) by (field; lra). lra. }
  set (art := P / (P * (4 / 4 + 8) + V) * 262144) in *. clearbody art.
  assert (Hy : 1 - 22 / 4096 <= 1 + 22 / 4096 * dv <= 1 + 22 / 4096) by lra.
  set (y := 1 + 22 / 4096 * dv) in *. clearbody y.
  assert (Hq : 7668 <= art / y <= 16473).
  { split; (apply Rmult_le_reg_r with y; [lra|]; replace (art / y * y) with art by (field; lra); lra). }
  set (q := art / y) in *. clearbody q.
  lra.
Qed.

Lemma range_ta : Rabs (doc_t_a cr layout640 mem - 25) <= 109.
Proof.
  assert (Eta : doc_t_a cr layout640 mem = exact_t_a k layout640 mem) by (apply (exact_ta m c k); [exact range_calibrated|exact range_plausible]).
  rewrite Eta. apply Rabs_le. pose proof range_ambient. lra.
Qed.
Lemma range_vdd : Rabs (doc_v_dd cr layout640 sr mem - 33 / 10) <= 4 / 5.
Proof.
  unfold sr, cr. rewrite volts. rewrite (exact_dv m c k) by first [exact range_calibrated|exact range_plausible].
  rewrite Rabs_mult. destruct range_dv as [_ H].
  pose proof (Rabs_pos (exact_delta_v k layout640 mem)). pose proof (Rabs_pos (B2R (set_correction s))).
  rewrite <- (Rmult_1_r (4 / 5)). apply Rmult_le_compat; assumption.
Qed.

Lemma range_working : working_frame cr layout640 sr mem.
Proof.
  destruct (C42_scalar_parameters l p datasheet640 c datasheet640_full Hc) as (_ & _ & _ & Vg & _).
  constructor.
  - destruct Ho as [_ _ _ Hg]. clear - Hg. lia.
  - unfold doc_gain. assert (Pg : cal_gain _ cr = 6383).
    { change (cal_gain _ cr) with (B2R (cal_gain _ c)). rewrite (proj2 Vg). reflexivity. }
    rewrite Pg. cbn [RealOps fdiv fofZ]. destruct Ho as [_ _ _ Hg]. unfold SpecImage.ram.
    apply (IZR_le 3192) in Hg. set (G := IZR (signed (mem (lay_gain layout640)))) in *. clearbody G.
    assert (Hpos : 0 <= 6383 / G) by (apply Rlt_le, Rdiv_lt_0_compat; lra). rewrite Rabs_pos_eq by exact Hpos.
    apply Rmult_le_reg_r with G; [lra|]. replace (6383 / G * G) with 6383 by (field; lra). lra.
  - pose proof range_ta. lra.
  - pose proof range_vdd. lra.
  - exact Hs.
Qed.

(** The coefficients of every pixel, and of the compensation pixel *)
Definition pixel_ok (ee : nat -> Z) (r col : nat) : bool :=
  negb (Spec640.pixel_word ee r col =? 0)%Z && (Z.abs (shifted (pixel_sum ee offset_block r col)) <=? 200)%Z &&
  (128 * Z.abs (shifted (kta_sum ee r col)) <=? 2 ^ 14)%Z && (Z.abs (kv_average ee r col) <=? 5)%Z.
Definition pixel_check (ee : nat -> Z) : bool := forallb (fun r => forallb (pixel_ok ee r) (seq 0 32)) (seq 0 24).
Fact pixel_checked : pixel_check (ee_word datasheet640) = true.
Proof. vm_compute. reflexivity. Qed.
Fact pixel_means : forall ee, pixel_check ee = true -> forall r col, (r < 24)%nat -> (col < 32)%nat ->
  ~ failed ee r col /\ (Z.abs (shifted (pixel_sum ee offset_block r col)) <= 200)%Z /\
  (128 * Z.abs (shifted (kta_sum ee r col)) <= 2 ^ 14)%Z /\ (Z.abs (kv_average ee r col) <= 5)%Z.
Proof.
  intros ee H r col Hrow Hcol. unfold pixel_check in H.
  apply (proj1 (forallb_forall _ _)) with (x := r) in H; [|apply in_seq; lia].
  apply (proj1 (forallb_forall _ _)) with (x := col) in H; [|apply in_seq; lia].
  unfold pixel_ok in H.
  apply andb_prop in H. destruct H as [H H4]. apply andb_prop in H. destruct H as [H H3]. apply andb_prop in H. destruct H as [H1 H2].
  apply negb_true_iff, Z.eqb_neq in H1. apply Z.leb_le in H2, H3, H4. repeat split; assumption.
Qed.
Fact pixel_facts : forall r col, (r < 24)%nat -> (col < 32)%nat ->
  ~ failed (ee_word datasheet640) r col /\ (Z.abs (shifted (pixel_sum (ee_word datasheet640) offset_block r col)) <= 200)%Z /\
  (128 * Z.abs (shifted (kta_sum (ee_word datasheet640) r col)) <= 2 ^ 14)%Z /\ (Z.abs (kv_average (ee_word datasheet640) r col) <= 5)%Z.
Proof. exact (pixel_means _ pixel_checked). Qed.
Lemma scaled_small : forall z n b : Z, (0 <= n)%Z -> (Z.abs z <= b)%Z -> Rabs (scaled z n) <= IZR b / IZR (2 ^ n).
Proof.
  intros z n b Hn Hz. unfold scaled. assert (P : 0 < IZR (2 ^ n)) by (apply (IZR_lt 0), Z.pow_pos_nonneg; [reflexivity|exact Hn]).
  unfold Rdiv. rewrite Rabs_mult, (Rabs_pos_eq (/ IZR (2 ^ n))) by (apply Rlt_le, Rinv_0_lt_compat, P).
  apply Rmult_le_compat_r; [apply Rlt_le, Rinv_0_lt_compat, P|]. rewrite <- abs_IZR. apply IZR_le, Hz.
Qed.
Lemma range_pixel : forall sp i, (i < 768)%nat ->
  Rabs (nth i (k_v_pixels _ cr sp) 0) <= 5 / 8 /\ Rabs (nth i (k_ta_pixels _ cr sp) 0) <= 1 / 128 /\
  (Z.abs (nth i (offset_reference_pixels _ cr sp) 0%Z) <= 200)%Z.
Proof.
  intros sp i Hi.
  assert (Er : (i / 32 < 24)%nat) by (apply Nat.div_lt_upper_bound; [discriminate|exact Hi]).
  assert (Ec : (i mod 32 < 32)%nat) by (apply Nat.mod_upper_bound; discriminate).
  assert (Ei : (32 * (i / 32) + i mod 32)%nat = i) by (symmetry; apply Nat.div_mod; discriminate).
  destruct (pixel_facts _ _ Er Ec) as (F1 & F2 & F3 & F4).
  split; [|split].
  - change (k_v_pixels _ cr sp) with (map B2R (k_v_pixels _ c sp)). rewrite nth_map_B2R.
    destruct (C42_k_v_pixels l p datasheet640 c datasheet640_full Hc sp) as [_ H]. destruct (H _ _ Er Ec) as (x & E & V).
    rewrite Ei in E. rewrite (nth_error_nth _ _ _ E), (proj2 V).
    change (kv_scale (ee_word datasheet640)) with 3%Z. apply (scaled_small _ 3 5); [discriminate|exact F4].
  - change (k_ta_pixels _ cr sp) with (map B2R (k_ta_pixels _ c sp)). rewrite nth_map_B2R.
    destruct (C40_k_ta l p datasheet640 c datasheet640_full Hc sp _ _ Er Ec F1) as (x & E & V).
    rewrite Ei in E. rewrite (nth_error_nth _ _ _ E), (proj2 V).
    change (kta_scale_1 (ee_word datasheet640)) with 14%Z.
    eapply Rle_trans; [apply (scaled_small _ 14 128); [discriminate|]|].
    + change (2 ^ 14)%Z with 16384%Z in F3. clear - F3. lia.
    + change (IZR (2 ^ 14)) with 16384. lra.
  - change (offset_reference_pixels _ cr sp) with (offset_reference_pixels _ c sp).
    pose proof (C39_offset _ p datasheet640 c datasheet640_full Hc sp _ _ Er Ec F1) as E. rewrite Ei in E.
    rewrite (nth_error_nth _ _ _ E). exact F2.
Qed.
Lemma range_cp : forall sp, Rabs (k_v_cp _ cr sp) <= 5 / 8 /\ Rabs (k_ta_cp _ cr sp) <= 1 / 128 /\
  (Z.abs (offset_reference_cp _ cr sp) <= 200)%Z /\
  exists tgc, temperature_gradient_coefficient _ cr = Some tgc /\ Rabs tgc <= 1.
Proof.
  intros sp. destruct (C42_scalar_parameters l p datasheet640 c datasheet640_full Hc) as (_ & _ & _ & _ & _ & _ & _ & Ekv & Ekta).
  split; [|split; [|split]].
  - change (k_v_cp _ cr sp) with (B2R (k_v_cp _ c sp)). rewrite (proj2 (Ekv sp)).
    replace (scaled (sbits (ee_word datasheet640 59) 8 8) (kv_scale (ee_word datasheet640))) with (4 / 8) by reflexivity.
    apply Rabs_le. lra.
  - change (k_ta_cp _ cr sp) with (B2R (k_ta_cp _ c sp)). rewrite (proj2 (Ekta sp)).
    replace (scaled (sbits (ee_word datasheet640 59) 0 8) (kta_scale_1 (ee_word datasheet640))) with (75 / 16384) by reflexivity.
    apply Rabs_le. lra.
  - change (offset_reference_cp _ cr sp) with (offset_reference_cp _ c sp).
    destruct (C42_integer_parameters _ p datasheet640 c datasheet640_full Hc) as (_ & _ & _ & _ & E0 & E1 & _).
    destruct sp; [rewrite E0|rewrite E1]; vm_compute; discriminate.
  - change (temperature_gradient_coefficient _ cr) with (option_map B2R (temperature_gradient_coefficient _ c)).
    destruct (C42_tgc l p datasheet640 c datasheet640_full Hc) as [_ H].
    destruct (H ltac:(vm_compute; discriminate)) as (g & Eg & Vg'). rewrite Eg. cbn [option_map]. eexists. split; [reflexivity|].
    rewrite (proj2 Vg'). replace (scaled (sbits (ee_word datasheet640 60) 0 8) 5) with (32 / 32) by reflexivity.
    apply Rabs_le. lra.
Qed.
Lemma coefficients_work : forall kv kta, Rabs kv <= 5 / 8 -> Rabs kta <= 1 / 128 -> working_coefficients cr layout640 sr mem kv kta.
Proof.
  intros kv kta Hv Ht. constructor.
  - lra.
  - rewrite Rabs_mult. pose proof range_ta as H. pose proof (Rabs_pos kta). pose proof (Rabs_pos (doc_t_a cr layout640 mem - 25)).
    apply Rle_trans with (1 / 128 * 109); [apply Rmult_le_compat; assumption|lra].
  - lra.
  - rewrite Rabs_mult. pose proof range_vdd as H. pose proof (Rabs_pos kv). pose proof (Rabs_pos (doc_v_dd cr layout640 sr mem - 33 / 10)).
    apply Rle_trans with (5 / 8 * (4 / 5)); [apply Rmult_le_compat; assumption|lra].
Qed.

(** The tolerance is the same small number for every pixel *)
Lemma small_tolerance : forall off kta, (Z.abs off <= 200)%Z -> Rabs kta <= 1 / 128 ->
  tolerance cr sr off kta <= 4 / 100 / Rabs (B2R (set_emissivity s)).
Proof.
  intros off kta Hoff Ht. unfold tolerance.
  assert (Pkt : Rabs (k_t_ptat _ cr) = 338 / 8).
  { change (k_t_ptat _ cr) with (B2R (k_t_ptat _ c)).
    rewrite (proj2 (ca_k_t _ _ (wl_carries _ _ range_calibrated))). replace (pc_k_t k) with (338 / 8) by reflexivity. apply Rabs_pos_eq. lra. }
  rewrite Pkt. change (set_emissivity sr) with (B2R (set_emissivity s)).
  assert (Pe : 0 < Rabs (B2R (set_emissivity s))) by lra.
  unfold Rdiv at 1. unfold Rdiv at 6. apply Rmult_le_compat_r; [apply Rlt_le, Rinv_0_lt_compat, Pe|].
  rewrite <- abs_IZR. apply IZR_le in Hoff. pose proof (IZR_le _ _ (Z.abs_nonneg off)) as H0.
  pose proof (Rabs_pos kta) as H1. set (o := IZR (Z.abs off)) in *. set (t := Rabs kta) in *. clearbody o t.
  assert (H2 : o * (14 / 100 * t / (338 / 8) + 1 / 80000) <= 200 * (14 / 100 * (1 / 128) / (338 / 8) + 1 / 80000)).
  { apply Rmult_le_compat; lra. }
  lra.
Qed.
Lemma range_tolerance : forall sp i, (i < 768)%nat -> pixel_tolerance cr sr sp i <= 8 / 100 / Rabs (B2R (set_emissivity s)).
Proof.
  intros sp i Hi. unfold pixel_tolerance. destruct (range_pixel sp i Hi) as (_ & T & O).
  destruct (range_cp sp) as (_ & Tc & Oc & tgc & -> & G).
  pose proof (small_tolerance _ _ O T) as A. pose proof (small_tolerance _ _ Oc Tc) as B.
  assert (Pe : 0 < Rabs (B2R (set_emissivity s))) by lra.
  assert (Q : 0 <= 4 / 100 / Rabs (B2R (set_emissivity s))) by (apply Rlt_le, Rdiv_lt_0_compat; lra).
  pose proof (Rabs_pos tgc) as G0.
  assert (Hm : Rabs tgc * tolerance cr sr (offset_reference_cp _ cr sp) (k_ta_cp _ cr sp) <= 1 * (4 / 100 / Rabs (B2R (set_emissivity s)))).
  { eapply Rle_trans; [apply Rmult_le_compat_l; [exact G0|exact B]|]. apply Rmult_le_compat_r; assumption. }
  replace (8 / 100 / Rabs (B2R (set_emissivity s))) with (4 / 100 / Rabs (B2R (set_emissivity s)) + 1 * (4 / 100 / Rabs (B2R (set_emissivity s)))) by (field; lra).
  apply Rplus_le_compat; assumption.
Qed.

(** All hypotheses of the accuracy theorems *)
Theorem C112_working_range :
  well_calibrated c k /\ plausible_frame k layout640 mem /\ working_frame cr layout640 sr mem /\
  (forall sp i, (i < 768)%nat ->
     working_coefficients cr layout640 sr mem (nth i (k_v_pixels _ cr sp) 0) (nth i (k_ta_pixels _ cr sp) 0) /\
     pixel_tolerance cr sr sp i <= 8 / 100 / Rabs (B2R (set_emissivity s))) /\
  (forall sp, working_coefficients cr layout640 sr mem (k_v_cp _ cr sp) (k_ta_cp _ cr sp)).
Proof.
  split; [exact range_calibrated|]. split; [exact range_plausible|]. split; [exact range_working|]. split.
  - intros sp i Hi. destruct (range_pixel sp i Hi) as (V & T & _). split; [apply coefficients_work; assumption|apply range_tolerance; exact Hi].
  - intros sp. destruct (range_cp sp) as (V & T & _). apply coefficients_work; assumption.
Qed.
End Range.
Print Assumptions C112_working_range.

(** ** The driver created from this EEPROM *)
Lemma datasheet_driver {l} p {B ER EW} (bs : bus B ER EW) w a (d0 : driver (FO := B32 l)) w' rest :
  new bs (calib640_from_i2c (B32 l) p bs) 24 1536 w a = (Ok d0, w') ->
  trace (d_bus d0) = trace w ++ EvRead a [0x24; 0x00]%Z datasheet640 None :: rest ->
  usable d0 layout640 /\ Forall byte (d_pixel_buffer d0) /\ has_correction d0 /\
  from_data640 (B32 l) p datasheet640 = Ok (d_calibration d0).
Proof.
  intros H Et. apply C29_new_640 in H. destruct H as (evs & Ht & H).
  remember (Ok d0) as r eqn:E. destruct H as [| | | |data c evs r Hl Hb Hc H]; try discriminate E.
  destruct H as [v d1 Hv Hf|]; [|discriminate E]. injection E as ->.
  pose proof (full_of_exact data Hb Hl) as Hd. destruct (C62_calibration_640 _ p data c Hd Hc) as [H1 H2].
  destruct (fresh_usable layout640 24 1536 a c v w' d0 H1 H2 ltac:(vm_compute; lia) ltac:(vm_compute; lia) Hf) as [Hu Hby].
  destruct Hf as (Ew & Ea & Ec & _ & _ & _ & _ & _ & _ & Er).
  rewrite Ew, Ht in Et. apply app_inv_head in Et.
  assert (Edata : data = datasheet640) by (exact (f_equal (fun e => match e with EvRead _ _ x _ :: _ => x | _ => [] end) Et)).
  split; [exact Hu|]. split; [exact Hby|]. split; [eexists; rewrite Ec; exact Er|].
  rewrite Ec, <- Edata. exact Hc.
Qed.

Lemma measured_pixel : forall sp pat i, measured layout640 sp pat i = true -> (i < 768)%nat.
Proof.
  intros sp pat i H. unfold measured in H. apply andb_prop in H. destruct H as [H _].
  change (lay_pixels layout640) with 768%nat in H. apply Nat.ltb_lt. exact H.
Qed.

(** Every image call stores the ambient temperature to within two thousandths of a degree *)
Theorem C112_ambient : forall l p B ER EW (bs : bus B ER EW) w a (d0 : driver (FO := B32 l)) w' rest,
  new bs (calib640_from_i2c (B32 l) p bs) 24 1536 w a = (Ok d0, w') ->
  trace (d_bus d0) = trace w ++ EvRead a [0x24; 0x00]%Z datasheet640 None :: rest ->
  forall ops o dest r d' dest',
    let d := run p bs d0 ops in
    destination o = Some dest -> step p bs d o = (r, d', dest') -> computed o r ->
    exists raw sp pre frame post t,
      trace (d_bus d') = trace (d_bus d) ++ pre ++ frame ++ post /\
      asks (d_address d) o raw sp pre /\
      completed (d_address d) (frame_reads layout640 sp (d_access_pattern d)) frame /\
      acknowledges (d_address d) o pre post r /\
      drv_ambient_temperature d' = Some t /\
      forall mem, (forall x, word (mem x)) -> Forall (shows mem) frame -> operating mem ->
        is_finite t = true /\ Rabs (B2R t - exact_t_a (ptat_640 (ee_word datasheet640)) layout640 mem) <= 2 / 1000 /\
        -84 <= exact_t_a (ptat_640 (ee_word datasheet640)) layout640 mem <= 125.
Proof.
  intros l p B ER EW bs w a d0 w' rest Hn Et ops o dest r d' dest' d Hd Hs Hc.
  destruct (datasheet_driver p bs w a d0 w' rest Hn Et) as (Hu & Hby & Hrc & Hcal).
  destruct (C72_ambient_640 l p B ER EW bs w a d0 w' Hn) as (data & rest' & Et' & H). cbv zeta in H.
  rewrite Et in Et'. apply app_inv_head in Et'.
  assert (Edata : datasheet640 = data) by (exact (f_equal (fun e => match e with EvRead _ _ x _ :: _ => x | _ => [] end) Et')).
  clear Et'. subst data.
  specialize (H ltac:(vm_compute; reflexivity) ltac:(vm_compute; discriminate) ltac:(vm_compute; discriminate)).
  destruct (H ops o dest r d' dest' Hd Hs Hc) as (raw & sp & pre & frame & post & t & E1 & E2 & E3 & E4 & E5 & V).
  exists raw, sp, pre, frame, post, t. repeat (split; [assumption|]).
  intros mem Hm Hsh Hop. destruct (V mem Hm Hsh (range_plausible mem Hop)) as [F A].
  split; [exact F|]. split.
  - eapply Rle_trans; [exact A|]. replace (Rabs (pc_k_t (ptat_640 (ee_word datasheet640)))) with (338 / 8); [lra|].
    change (pc_k_t (ptat_640 (ee_word datasheet640))) with (IZR 338 / 8). symmetry. apply Rabs_pos_eq. lra.
  - pose proof (range_ambient mem Hop). lra.
Qed.
Print Assumptions C112_ambient.

(** Every pixel of a raw image is accurate *)
Theorem C112_raw_image : forall l m p B ER EW (bs : bus B ER EW) w a (d0 : driver (FO := B32 l)) w' rest,
  new bs (calib640_from_i2c (B32 l) p bs) 24 1536 w a = (Ok d0, w') ->
  trace (d_bus d0) = trace w ++ EvRead a [0x24; 0x00]%Z datasheet640 None :: rest ->
  forall ops sp dest d' dest' evs mem,
    let d := run p bs d0 ops in
    step p bs d (OpGenerateRawSubpage sp dest) = (Ok OutUnit, d', dest') ->
    trace (d_bus d') = trace (d_bus d) ++ evs ->
    (* any emissivity from 1/256 to 2, and the calibrated resolution or a finer one *)
    1 / 256 <= Rabs (B2R (effective_emissivity d)) <= 2 ->
    Rabs (B2R (d_resolution_correction d)) <= 1 ->
    (forall x, word (mem x)) -> Forall (shows mem) evs -> operating mem ->
    forall i, (i < length dest)%nat -> measured layout640 sp (d_access_pattern d) i = true ->
    exists x, nth_error dest' i = Some x /\ is_finite x = true /\
      Rabs (B2R x - doc_v_ir (exactly m (d_calibration d0)) layout640 (settings_exactly (settings_of d)) sp mem i)
        <= 8 / 100 / Rabs (B2R (effective_emissivity d)).
Proof.
  intros l m p B ER EW bs w a d0 w' rest Hn Et ops sp dest d' dest' evs mem d Hs Ht He Hr Hm Hsh Hop i Hi Hmi.
  destruct (datasheet_driver p bs w a d0 w' rest Hn Et) as (Hu & Hby & Hrc & Hcal).
  destruct (run_usable p bs layout640 d0 ops Hu Hby) as [Hu' _]. fold d in Hu'.
  destruct (run_later p bs layout640 d0 ops (usable_wf _ _ Hu)) as (_ & ((_ & K2 & _) & _) & _). fold d in K2.
  destruct (run_correction p bs d0 ops Hrc) as [cur Hres]. fold d in Hres.
  assert (Fe : is_finite (d_emissivity d) = true).
  { unfold effective_emissivity in He. destruct (d_emissivity d) as [sg|sg| |sg mm ex pf]; try reflexivity; exfalso;
      cbn [B2R] in He; rewrite Rabs_R0 in He; lra. }
  pose proof (measured_pixel _ _ _ Hmi) as Hi'.
  destruct (C112_working_range l m p (d_calibration d0) mem Hcal Hop (settings_of d) He Hr) as (W1 & W2 & W3 & W4 & W5).
  destruct (W4 sp i Hi') as [W6 W7].
  rewrite <- K2 in W1, W3, W6, W7, W5. rewrite <- K2.
  assert (Hcor : exists cal cur', d_resolution_correction d = resolution_correction _ (cam _ (d_calibration d)) cal cur').
  { exists (cal_resolution _ (d_calibration d)), cur. exact Hres. }
  destruct (C73_raw_pixels_accurate l m p B ER EW bs layout640 d _ sp dest d' dest' evs mem Hu' W1 Hcor Fe Hs Ht Hm Hsh W2 W3 i Hi Hmi W6
    (fun _ => W5 sp)) as (x & X1 & X2 & X3).
  exists x. split; [exact X1|]. split; [exact X2|]. eapply Rle_trans; [exact X3|exact W7].
Qed.
Print Assumptions C112_raw_image.

(** ** Concrete case: the sample frame of C67_concrete is in the range, far from its ends *)
Example C112_concrete : operating sample_mem.
Proof.
  constructor; vm_compute; try split; first [reflexivity|discriminate].
Qed.
(** At the calibrated resolution with no emissivity set: nothing is left to ask of the settings *)
Example C112_settings : forall l,
  1 / 256 <= Rabs (B2R (set_emissivity (sample_settings l))) <= 2 /\ Rabs (B2R (set_correction (sample_settings l))) <= 1.
Proof.
  intros l. cbn [set_emissivity set_correction sample_settings].
  replace (B2R (b_ofZ 1)) with 1 by (vm_compute; lra). rewrite Rabs_pos_eq by lra. lra.
Qed.
(** ... and outside the range the frame is not one the datasheet describes: at V_BE below -9 V_PTAT the ambient formula has its pole *)
Example C112_pole : exists mem, (forall x, word (mem x)) /\ ~ operating mem /\
  reading mem (lay_ptat layout640) * pc_alpha (ptat_640 (ee_word datasheet640)) + reading mem (lay_vbe layout640) = 0.
Proof.
  exists (fun a => if (a =? lay_ptat layout640)%Z then 100%Z else if (a =? lay_vbe layout640)%Z then 64636%Z else 0%Z).
  split; [|split].
  - intros x. destruct (x =? _)%Z; [red; lia|]. destruct (x =? _)%Z; red; lia.
  - intros [_ H _ _]. vm_compute in H. destruct H as [H _]. apply H. reflexivity.
  - unfold reading. change (pc_alpha (ptat_640 (ee_word datasheet640))) with (IZR 4 / 4 + 8).
    replace (signed _) with 100%Z by (vm_compute; reflexivity).
    replace (signed _) with (-900)%Z by (vm_compute; reflexivity). lra.
Qed.
(** The camera of C67_concrete holds this EEPROM, gives emissivity 1 and resolution correction 1 when created,
    and computes raw images *)
Example C112_camera :
  match new sample_bus (calib640_from_i2c (B32 any_lib) Debug sample_bus) 24 1536 (Build_world tt []) 0x33 with
  | (Ok d, _) =>
      match trace (d_bus d) with
      | EvRead _ [0x24; 0x00]%Z data None :: _ => if list_eq_dec Z.eq_dec data datasheet640 then true else false
      | _ => false
      end && Bleb (b_ofZ 1) (d_emissivity d) && Bleb (d_emissivity d) (b_ofZ 1) &&
      Bleb (b_ofZ 1) (d_resolution_correction d) && Bleb (d_resolution_correction d) (b_ofZ 1)
  | _ => false
  end = true.
Proof. vm_compute. reflexivity. Qed.
