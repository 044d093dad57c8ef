(** * P_Warm (C113): temperatures of the datasheet's camera over a range of conditions.
    At ambient temperatures of about 0 to 60 degrees, with emissivity 1, every pixel that sees an object of 0 to 300
    degrees gets a temperature within 0.3 degrees of the documented formula over the reals. *)
From Verif Require Import Base FloatOps Register Bus Camera Cam640 Calc Ee640 B32 RealOps SpecRegister SpecEeprom.
From Verif Require Import SpecCamera SpecDriver SpecImage SpecCall Spec640 SpecAccuracy ImageFacts Ee640Facts Dumps P_Ee640 P_Ee640Real.
From Verif Require Import ParseFacts DriverFacts StepFacts SeenFacts RealFacts BoundFacts P_Usable P_Calc P_Finite P_Bus P_Image P_Frames.
From Verif Require Import B32Facts AccuracyFacts P_Accuracy P_PixelAccuracy SpecPhysics SpecTemperature ObjectFacts P_Temperature P_EndToEnd P_Range.
From Verif Require Import Driver.
From Flocq Require Import BinarySingleNaN.
From Coq Require Import Reals Lra.
Open Scope R_scope.

(** The ratio of the sensor's readings between 10.25 and 14.25: ambient temperatures of about 0 to 60 degrees *)
Record temperate (mem : Z -> Z) : Prop := {
  tp_operating : operating mem;
  tp_ratio : (41 * signed (mem (lay_ptat layout640)) <= 4 * signed (mem (lay_vbe layout640)) <= 57 * signed (mem (lay_ptat layout640)))%Z
}.
(** The object's temperature, before the correction of the sensitivity, between 0 and 300 degrees *)
Definition warm_object (c : calib RealOps) (s : settings (FO := RealOps)) (sp : subpage) (mem : Z -> Z) (i : nat) : Prop :=
  273.15 ^ 4 <= uncorrected4 c layout640 s sp mem i <= 573.15 ^ 4.

Section Warm.
Context (l : libm) (m : camera RealOps) (p : profile) (c : calib (B32 l)) (mem : Z -> Z).
Hypothesis (Hc : from_data640 (B32 l) p datasheet640 = Ok c) (Ht : temperate mem).
Context (s : settings (FO := B32 l)).
Hypothesis (He : B2R (set_emissivity s) = 1) (Hr : Rabs (B2R (set_correction s)) <= 1).
Hypothesis (Hrefl : forall t, set_reflected s = Some t -> is_finite t = true /\ -100 <= B2R t <= 150).
Let k := ptat_640 (ee_word datasheet640).
Let cr := exactly m c.
Let sr := settings_exactly s.
Let Ho := tp_operating mem Ht.

Lemma temperate_ambient : 0 <= exact_t_a k layout640 mem <= 60.
Proof.
  destruct (range_dv mem Ho) as [_ Hd]. fold k in Hd. pose proof (op_ptat mem Ho) as Hp. pose proof (tp_ratio mem Ht) as Hb. apply abs_split in Hd.
  unfold exact_t_a, exact_v_ptat_art. set (dv := exact_delta_v k layout640 mem) in *. clearbody dv.
  unfold k. rewrite range_constants. cbn [pc_alpha pc_k_v pc_k_t pc_v_25]. unfold reading.
  set (P := IZR (signed (mem (lay_ptat layout640)))). set (V := IZR (signed (mem (lay_vbe layout640)))).
  assert (HP : 0 < P) by (apply (IZR_lt 0); exact Hp).
  assert (HV : 41 * P <= 4 * V <= 57 * P) by (unfold P, V; rewrite <- !mult_IZR; split; apply IZR_le; apply Hb).
  clearbody P V.
  assert (Hq : 0 < P * (4 / 4 + 8) + V) by lra.
  assert (Ha : 11275 <= P / (P * (4 / 4 + 8) + V) * 262144 <= 13618).
  { split.
    - apply Rmult_le_reg_r with (P * (4 / 4 + 8) + V); [exact Hq|].
      replace (P / (P * (4 / 4 + 8) + V) * 262144 * (P * (4 / 4 + 8) + V)) with (P * 262144) by (field; lra). lra.
    - apply Rmult_le_reg_r with (P * (4 / 4 + 8) + V); [exact Hq|].
      replace (P / (P * (4 / 4 + 8) + V) * 262144 * (P * (4 / 4 + 8) + V)) with (P * 262144) by (field; lra). lra. }
  set (art := P / (P * (4 / 4 + 8) + V) * 262144) in *. clearbody art.
  assert (Hy : 1 - 22 / 4096 * (4 / 5) <= 1 + 22 / 4096 * dv <= 1 + 22 / 4096 * (4 / 5)) by lra.
  set (y := 1 + 22 / 4096 * dv) in *. clearbody y.
  assert (Hz : 11224 <= art / y <= 13678).
  { split; (apply Rmult_le_reg_r with y; [lra|]; replace (art / y * y) with art by (field; lra); lra). }
  set (q := art / y) in *. clearbody q. lra.
Qed.

Lemma emissivity_one : 1 / 256 <= Rabs (B2R (set_emissivity s)) <= 2.
Proof. rewrite He, Rabs_R1. lra. Qed.
Lemma temperate_ta : 0 <= doc_t_a cr layout640 mem <= 60.
Proof.
  assert (Eta : doc_t_a cr layout640 mem = exact_t_a k layout640 mem).
  { apply (exact_ta m c k); [exact (range_calibrated l p c Hc)|exact (range_plausible mem Ho)]. }
  rewrite Eta. exact temperate_ambient.
Qed.

(** The sensitivities of the pixels *)
Definition alpha_ok (ee : nat -> Z) (r col : nat) : bool :=
  let a := (shifted (average ee alpha_block + row_term ee alpha_block r + column_term ee alpha_block col)
            + shifted (remainder_term ee alpha_block r col))%Z in
  negb (Spec640.pixel_word ee r col =? 0)%Z && (4000 <=? a)%Z && (a <=? 17400)%Z.
Definition alpha_check (ee : nat -> Z) : bool := forallb (fun r => forallb (alpha_ok ee r) (seq 0 32)) (seq 0 24).
Fact alpha_checked : alpha_check (ee_word datasheet640) = true.
Proof. vm_compute. reflexivity. Qed.
Fact alpha_means : forall ee, alpha_check ee = true -> forall r col, (r < 24)%nat -> (col < 32)%nat ->
  ~ failed ee r col /\
  (4000 <= shifted (average ee alpha_block + row_term ee alpha_block r + column_term ee alpha_block col)
           + shifted (remainder_term ee alpha_block r col) <= 17400)%Z.
Proof.
  intros ee H r col Hrow Hcol. unfold alpha_check in H.
  apply (proj1 (forallb_forall _ _)) with (x := r) in H; [|apply in_seq; lia].
  apply (proj1 (forallb_forall _ _)) with (x := col) in H; [|apply in_seq; lia].
  unfold alpha_ok in H. cbv zeta in H.
  apply andb_prop in H. destruct H as [H H3]. apply andb_prop in H. destruct H as [H1 H2].
  apply negb_true_iff, Z.eqb_neq in H1. apply Z.leb_le in H2, H3. repeat split; assumption.
Qed.
Fact scaled_between : forall a lo hi : Z, (lo <= a <= hi)%Z -> IZR lo / 137438953472 <= scaled a 37 <= IZR hi / 137438953472.
Proof.
  intros a lo hi [H1 H2]. unfold scaled. change (2 ^ 37)%Z with 137438953472%Z.
  apply IZR_le in H1, H2. lra.
Qed.
Lemma alpha_range : forall sp i, (i < 768)%nat ->
  4000 / 137438953472 <= nth i (alpha_pixels _ cr sp) 0 <= 17400 / 137438953472.
Proof.
  intros sp i Hi.
  assert (Er : (i / 32 < 24)%nat) by (apply Nat.div_lt_upper_bound; [discriminate|exact Hi]).
  assert (Ec : (i mod 32 < 32)%nat) by (apply Nat.mod_upper_bound; discriminate).
  assert (Ei : (32 * (i / 32) + i mod 32)%nat = i) by (symmetry; apply Nat.div_mod; discriminate).
  destruct (alpha_means _ alpha_checked _ _ Er Ec) as (F & B).
  change (alpha_pixels _ cr sp) with (map B2R (alpha_pixels _ c sp)). rewrite nth_map_B2R.
  destruct (C40_alpha l p datasheet640 c datasheet640_full Hc sp _ _ Er Ec F) as (x & E & V).
  rewrite Ei in E. rewrite (nth_error_nth _ _ _ E), (proj2 V).
  change (extra_field (ee_word datasheet640) alpha_block + 30)%Z with 37%Z.
  exact (scaled_between _ 4000 17400 B).
Qed.
Lemma alpha_cp_range : forall sp, 0 <= alpha_cp _ cr sp <= 600 / 137438953472.
Proof.
  intros sp. destruct (C42_scalar_parameters l p datasheet640 c datasheet640_full Hc) as (_ & _ & _ & _ & _ & V0 & V1 & _).
  change (alpha_cp _ cr sp) with (B2R (alpha_cp _ c sp)). destruct sp.
  - rewrite (proj2 V0). replace (doc_alpha_cp_0 (ee_word datasheet640)) with (70 / 17179869184) by reflexivity. lra.
  - rewrite (proj2 V1). unfold doc_alpha_cp_1. replace (doc_alpha_cp_0 (ee_word datasheet640)) with (70 / 17179869184) by reflexivity.
    replace (scaled (sbits (ee_word datasheet640 57) 10 6) 7) with (IZR (sbits (ee_word datasheet640 57) 10 6) / 128) by reflexivity.
    replace (sbits (ee_word datasheet640 57) 10 6) with (-7)%Z by (vm_compute; reflexivity). lra.
Qed.
Lemma tgc_is_one : temperature_gradient_coefficient _ cr = Some 1.
Proof.
  change (temperature_gradient_coefficient _ cr) with (option_map B2R (temperature_gradient_coefficient _ c)).
  destruct (C42_tgc l p datasheet640 c datasheet640_full Hc) as [_ H].
  destruct (H ltac:(vm_compute; discriminate)) as (g & Eg & Vg'). rewrite Eg. cbn [option_map]. rewrite (proj2 Vg').
  replace (scaled (sbits (ee_word datasheet640 60) 0 8) 5) with (32 / 32) by reflexivity. f_equal. lra.
Qed.
Lemma ks_ta_is : k_s_ta _ cr = -16 / 8192.
Proof.
  destruct (C42_scalar_parameters l p datasheet640 c datasheet640_full Hc) as (_ & _ & _ & _ & Vks & _).
  change (k_s_ta _ cr) with (B2R (k_s_ta _ c)). rewrite (proj2 Vks). reflexivity.
Qed.
Lemma ks_to_is : nth (lay_basic_range layout640) (k_s_to _ cr) 0 = -105 / 131072.
Proof.
  change (k_s_to _ cr) with (map B2R (k_s_to _ c)).
  destruct (C42_k_s_to l p datasheet640 c datasheet640_full Hc) as (k1 & k2 & k3 & k4 & E & _ & V & _). rewrite E.
  cbn [map nth lay_basic_range layout640]. rewrite (proj2 V). reflexivity.
Qed.
Lemma kt_is : Rabs (k_t_ptat _ cr) = 338 / 8.
Proof.
  change (k_t_ptat _ cr) with (B2R (k_t_ptat _ c)).
  rewrite (proj2 (ca_k_t _ _ (wl_carries _ _ (range_calibrated l p c Hc)))). replace (pc_k_t k) with (338 / 8) by reflexivity. apply Rabs_pos_eq. lra.
Qed.

Lemma warm_pixel : forall sp i, (i < 768)%nat -> warm_object cr sr sp mem i ->
  let kst := nth (lay_basic_range layout640) (k_s_to _ cr) 0 in
  working_pixel cr layout640 sr sp mem kst i /\ temperature_tolerance cr layout640 sr sp mem kst i <= 3 / 10.
Proof.
  intros sp i Hi Hw kst.
  destruct (C112_working_range l m p c mem Hc Ho s emissivity_one Hr) as (_ & _ & _ & W & _).
  destruct (W sp i Hi) as [_ Htol]. clear W. fold cr sr in Htol. rewrite He, Rabs_R1 in Htol.
  pose proof temperate_ta as Bta. set (ta := doc_t_a cr layout640 mem : R) in *.
  pose proof (alpha_range sp i Hi) as Bap. pose proof (alpha_cp_range sp) as Bac.
  assert (Pkst : kst = -105 / 131072) by exact ks_to_is.
  set (V := doc_v_ir cr layout640 sr sp mem i : R).
  set (A := SpecImage.doc_alpha cr layout640 sp mem i : R).
  assert (EA : A = (nth i (alpha_pixels _ cr sp) 0 - alpha_cp _ cr sp * 1) * (1 + -16 / 8192 * (ta - 25))).
  { unfold A, SpecImage.doc_alpha. rewrite tgc_is_one. change (@fofZ RealOps 0) with 0. rewrite ks_ta_is. reflexivity. }
  set (Rr := doc_t_ar cr layout640 sr mem : R).
  assert (Ee : set_emissivity sr = 1) by exact He.
  assert (ER : Rr = (ta + 273.15) ^ 4).
  { unfold Rr, doc_t_ar. rewrite Ee. cbn [RealOps feqb fofZ fpowi f_273_15 fadd]. fold ta.
    destruct (Req_EM_T 1 1) as [_|N]; [|contradiction]. rewrite powerRZ4. replace (27315 / 100) with 273.15 by lra. reflexivity. }
  assert (BA : 3400 * 0.93 / 137438953472 <= A <= 17400 * 1.05 / 137438953472).
  { rewrite EA. set (a := nth i (alpha_pixels _ cr sp) 0 - alpha_cp _ cr sp * 1) in *.
    assert (Ba : 3400 / 137438953472 <= a <= 17400 / 137438953472) by (unfold a; lra).
    assert (Bf : 0.93 <= 1 + -16 / 8192 * (ta - 25) <= 1.05) by lra.
    set (f := 1 + -16 / 8192 * (ta - 25)) in *. clearbody a f.
    split.
    - replace (3400 * 0.93 / 137438953472) with (3400 / 137438953472 * 0.93) by lra. apply Rmult_le_compat; lra.
    - replace (17400 * 1.05 / 137438953472) with (17400 / 137438953472 * 1.05) by lra. apply Rmult_le_compat; lra. }
  assert (BR : 5500000000 <= Rr <= 12320000000).
  { rewrite ER. split.
    - apply Rle_trans with (273.15 ^ 4); [lra|apply pow_incr; lra].
    - apply Rle_trans with (333.15 ^ 4); [apply pow_incr; lra|lra]. }
  set (x := signal cr layout640 sr sp mem i : R).
  assert (Ex : x = V / A) by reflexivity.
  assert (PA : 0 < A) by lra.
  set (w4 := uncorrected4 cr layout640 sr sp mem i : R).
  assert (Ew4 : w4 = x + Rr) by reflexivity.
  unfold warm_object in Hw. fold w4 in Hw.
  assert (Bw4 : 5560000000 <= w4 <= 108000000000) by lra.
  set (w := uncorrected_kelvin cr layout640 sr sp mem i : R).
  assert (Pw : 0 < w) by apply root4_pos.
  assert (Ew : w ^ 4 = w4) by (apply root4_pow; lra).
  assert (Bw : 273.15 <= w <= 573.15).
  { split.
    - destruct (Rle_or_lt 273.15 w) as [L|L]; [exact L|]. pose proof (pow4_lt w 273.15 ltac:(lra) L). lra.
    - destruct (Rle_or_lt w 573.15) as [L|L]; [exact L|]. pose proof (pow4_lt 573.15 w ltac:(lra) L). lra. }
  set (g := 1 + kst * (w - 273.15)).
  assert (Bg : 0.75 <= g <= 1) by (unfold g; rewrite Pkst; lra).
  assert (Pg' : 0 < g) by lra.
  (* a colder object than the camera leaves the sensitivity nearly as it is *)
  assert (Bcold : x < 0 -> 0.95 <= g).
  { intros Hx. assert (Hlt : w ^ 4 < 333.15 ^ 4).
    { rewrite Ew, Ew4. apply Rlt_le_trans with Rr; [lra|]. rewrite ER. apply pow_incr; lra. }
    assert (w < 333.15).
    { destruct (Rlt_or_le w 333.15) as [L|L]; [exact L|]. assert (333.15 ^ 4 <= w ^ 4) by (apply pow_incr; lra). lra. }
    unfold g. rewrite Pkst. lra. }
  set (xg := x / g). assert (Exg : xg * g = x) by (unfold xg; field; lra).
  assert (Bxg : -360000000 <= xg - x <= 36000000000).
  { destruct (Rlt_or_le x 0) as [Hx|Hx].
    - specialize (Bcold Hx). assert (Bx : -6800000000 <= x) by lra.
      assert (L : x / 0.95 <= xg).
      { apply Rmult_le_reg_r with g; [exact Pg'|]. rewrite Exg.
        replace (x / 0.95 * g) with (x * (g / 0.95)) by (unfold Rdiv; ring).
        assert (1 <= g / 0.95) by lra. set (t := g / 0.95) in *. clearbody t.
        replace x with (x * 1) at 2 by ring. apply Rmult_le_compat_neg_l; lra. }
      assert (U : xg <= x).
      { apply Rmult_le_reg_r with g; [exact Pg'|]. rewrite Exg.
        replace x with (x * 1) at 1 by ring. apply Rmult_le_compat_neg_l; lra. }
      lra.
    - assert (L : x <= xg).
      { apply Rmult_le_reg_r with g; [exact Pg'|]. rewrite Exg.
        replace x with (x * 1) at 2 by ring. apply Rmult_le_compat_l; lra. }
      assert (U : xg <= x / 0.75).
      { apply Rmult_le_reg_r with g; [exact Pg'|]. rewrite Exg.
        replace (x / 0.75 * g) with (x * (g / 0.75)) by (unfold Rdiv; ring).
        replace x with (x * 1) at 1 by ring. apply Rmult_le_compat_l; lra. }
      lra. }
  assert (Eo : doc_t_o cr layout640 sr sp mem kst i = Rpower (xg + Rr) (1 / 4) - 273.15).
  { change (doc_t_o cr layout640 sr sp mem kst i) with (per_pixel_temperature (FO := RealOps) V A Rr kst).
    rewrite temperature_R; [|assumption|rewrite <- Ex; lra]. unfold sensitivity_at, estimate. rewrite <- Ex.
    change (Rpower (x + Rr) (1 / 4)) with w. fold g.
    replace (V / (A * g)) with xg; [reflexivity|]. unfold xg. rewrite Ex. field. lra. }
  set (T := Rpower (xg + Rr) (1 / 4)) in *.
  assert (PT : 0 < T) by apply root4_pos.
  assert (ET : T ^ 4 = xg + Rr) by (apply root4_pow; lra).
  assert (BT : 268 <= T <= 650).
  { split.
    - destruct (Rle_or_lt 268 T) as [L|L]; [exact L|]. pose proof (pow4_lt T 268 ltac:(lra) L). lra.
    - destruct (Rle_or_lt T 650) as [L|L]; [exact L|]. pose proof (pow4_lt 650 T ltac:(lra) L). lra. }
  assert (EoK : object_kelvin cr layout640 sr sp mem kst i = T) by (unfold object_kelvin; rewrite Eo; ring).
  assert (Eat : ambient_tolerance cr = 2 / 25 / (338 / 8)) by (unfold ambient_tolerance; rewrite kt_is; reflexivity).
  assert (BT3 : 19200000 <= T ^ 3).
  { apply Rle_trans with (268 ^ 3); [lra|apply pow_incr; lra]. }
  assert (BD : radiation_tolerance cr layout640 sr sp mem i <= 5600000).
  { unfold radiation_tolerance. fold A. fold x. fold Rr. unfold background_tolerance, sensitivity_tolerance.
    rewrite Ee, Eat, ks_ta_is. destruct (Req_EM_T 1 1) as [_|N]; [|contradiction]. unfold ambient_kelvin. fold ta.
    rewrite (Rabs_left (-16 / 8192)), (Rabs_pos_eq Rr) by lra.
    assert (B3 : (ta + 273.15) ^ 3 <= 37000000).
    { apply Rle_trans with (333.15 ^ 3); [apply pow_incr; lra|lra]. }
    assert (Bt : pixel_tolerance cr sr sp i / A <= 3500000).
    { set (tol := pixel_tolerance cr sr sp i) in *. assert (Eq : tol / A * A = tol) by (field; lra).
      apply Rmult_le_reg_r with A; try assumption; rewrite Eq; lra. }
    assert (Bx : Rabs x <= 110000000000) by (apply Rabs_le; lra).
    set (y3 := (ta + 273.15) ^ 3) in *. set (y1 := pixel_tolerance cr sr sp i / A) in *. set (ax := Rabs x) in *. lra. }
  split.
  - constructor.
    + unfold reflected_kelvin, sr, settings_exactly. cbn [set_reflected]. fold ta.
      destruct (set_reflected s) as [t|] eqn:Er; cbn [option_map].
      * destruct (Hrefl t eq_refl). lra.
      * replace (IZR (lay_self_heating layout640)) with 8 by reflexivity. lra.
    + rewrite Ee. lra.
    + rewrite ks_ta_is. apply Rabs_le. lra.
    + fold ta. rewrite ks_ta_is. apply Rabs_le. lra.
    + fold A. lra.
    + intros tgc Et. rewrite tgc_is_one in Et. apply some_inj in Et. subst tgc.
      rewrite !Rabs_pos_eq by lra. lra.
    + fold w4. lra.
    + fold w4 x. apply Rabs_le. lra.
    + fold w. rewrite Pkst, Rabs_left by lra. lra.
    + fold w. rewrite Pkst. apply Rabs_le. lra.
    + rewrite EoK. lra.
    + fold w4. lra.
    + rewrite EoK, ET. lra.
  - unfold temperature_tolerance. rewrite EoK. set (D := radiation_tolerance cr layout640 sr sp mem i) in *.
    assert (P3 : 0 < T ^ 3) by lra. set (t3 := T ^ 3) in *.
    assert (D / t3 <= 0.2995); [|lra]. apply Rmult_le_reg_r with t3; [exact P3|].
    replace (D / t3 * t3) with D by (field; lra). lra.
Qed.
End Warm.

(** Every temperature image, after any history *)
Theorem C113_temperatures : forall l m p B ER EW (bs : bus B ER EW) w a (d0 : driver (FO := B32 l)) w' rest,
  accurate_powers l ->
  new bs (calib640_from_i2c (B32 l) p bs) 24 1536 w a = (Ok d0, w') ->
  trace (d_bus d0) = trace w ++ EvRead a [0x24; 0x00]%Z datasheet640 None :: rest ->
  forall ops o dest r d' dest',
    let d := run p bs d0 ops in
    destination o = Some dest -> step p bs d o = (r, d', dest') -> computed o r ->
    B2R (effective_emissivity d) = 1 -> Rabs (B2R (d_resolution_correction d)) <= 1 ->
    (forall t, reflected_temperature d = Some t -> is_finite t = true /\ -100 <= B2R t <= 150) ->
    exists raw sp pre frame post,
      trace (d_bus d') = trace (d_bus d) ++ pre ++ frame ++ post /\
      asks (d_address d) o raw sp pre /\
      completed (d_address d) (frame_reads layout640 sp (d_access_pattern d)) frame /\
      acknowledges (d_address d) o pre post r /\
      forall mem, (forall x, word (mem x)) -> Forall (shows mem) frame -> temperate mem -> raw = false ->
        let c := exactly m (d_calibration d0) in
        let s := settings_exactly (settings_of d) in
        forall i, (i < length dest)%nat -> measured layout640 sp (d_access_pattern d) i = true ->
        warm_object c s sp mem i ->
        exists x, nth_error dest' i = Some x /\ is_finite x = true /\
          Rabs (B2R x - doc_t_o c layout640 s sp mem (nth (lay_basic_range layout640) (k_s_to _ c) 0) i) <= 3 / 10.
Proof.
  intros l m p B ER EW bs w a d0 w' rest Hl Hn Et ops o dest r d' dest' d Hd Hs Hcm He Hr Hrefl.
  destruct (datasheet_driver p bs w a d0 w' rest Hn Et) as (Hu & Hby & Hrc & Hcal).
  assert (Fe : is_finite (effective_emissivity d) = true).
  { destruct (effective_emissivity d) as [sg|sg| |sg mm ex pf]; try reflexivity; exfalso; cbn [B2R] in He; lra. }
  destruct (images_from_calibration m p bs _ layout640 d0 Hu Hby Hrc (range_calibrated l p (d_calibration d0) Hcal)
    (C74_decoded_640 l p datasheet640 (d_calibration d0) datasheet640_full Hcal) ops o dest r d' dest' Hd Hs Hcm Fe)
    as (raw & sp & pre & frame & post & E1 & E2 & E3 & E4 & V).
  exists raw, sp, pre, frame, post. repeat (split; [assumption|]).
  intros mem Hm Hsh Htp Hraw c s i Hi Hmi Hw. subst raw.
  pose proof (measured_pixel _ _ _ Hmi) as Hi'.
  assert (He' : 1 / 256 <= Rabs (B2R (set_emissivity (settings_of d))) <= 2).
  { cbn [set_emissivity settings_of]. unfold effective_emissivity in He. rewrite He, Rabs_R1. lra. }
  destruct (C112_working_range l m p (d_calibration d0) mem Hcal (tp_operating mem Htp) (settings_of d) He' Hr) as (_ & W2 & W3 & W4 & W5).
  destruct (W4 sp i Hi') as [W6 _].
  destruct (warm_pixel l m p (d_calibration d0) mem Hcal Htp (settings_of d) He Hr Hrefl sp i Hi' Hw) as [K1 K2].
  specialize (V mem Hm Hsh). cbv zeta in V.
  destruct (V W2 W3 i Hi Hmi W6 (fun _ => W5 sp)) as (x & X1 & X2).
  destruct (X2 Hl (fun t E => proj1 (Hrefl t E)) K1) as [X3 X4].
  exists x. split; [exact X1|]. split; [exact X3|]. eapply Rle_trans; [exact X4|exact K2].
Qed.
Print Assumptions C113_temperatures.

(** ** Concrete case: the sample frame is temperate, and pixel (12, 16), which sees 80 degrees, is in the range *)
Example C113_concrete : temperate sample_mem.
Proof. constructor; [exact C112_concrete|]. vm_compute. split; discriminate. Qed.
Example C113_warm : forall l m (c : calib (B32 l)), from_data640 (B32 l) Debug datasheet640 = Ok c ->
  warm_object (exactly m c) (settings_exactly (sample_settings l)) Zero sample_mem 367.
Proof.
  intros l m c Hc. destruct (C74_concrete l m c Hc) as (W & B & _). cbv zeta in W, B.
  set (cr := exactly m c) in *. set (sr := settings_exactly (sample_settings l)) in *.
  set (kst := nth (lay_basic_range layout640) (k_s_to _ cr) 0) in *.
  pose proof (wp_alpha _ _ _ _ _ _ _ W) as Wa. pose proof (wp_uncorrected _ _ _ _ _ _ _ W) as Wu.
  pose proof (wp_slope_effect _ _ _ _ _ _ _ W) as Ws. apply abs_split in Ws.
  pose proof (temperate_ta l m Debug c sample_mem Hc C113_concrete) as Bta. fold cr in Bta.
  set (ta := doc_t_a cr layout640 sample_mem : R) in *.
  set (V := doc_v_ir cr layout640 sr Zero sample_mem 367 : R).
  set (A := SpecImage.doc_alpha cr layout640 Zero sample_mem 367 : R) in *.
  set (Rr := doc_t_ar cr layout640 sr sample_mem : R).
  assert (Ee : set_emissivity sr = 1).
  { change (set_emissivity sr) with (B2R (b_ofZ 1)). apply (proj2 (b_ofZ_correct 1 ltac:(clear; lia))). }
  assert (ER : Rr = (ta + 273.15) ^ 4).
  { unfold Rr, doc_t_ar. rewrite Ee. cbn [RealOps feqb fofZ fpowi f_273_15 fadd]. fold ta.
    destruct (Req_EM_T 1 1) as [_|N]; [|contradiction]. rewrite powerRZ4. replace (27315 / 100) with 273.15 by lra. reflexivity. }
  assert (BR : 5500000000 <= Rr <= 12320000000).
  { rewrite ER. split.
    - apply Rle_trans with (273.15 ^ 4); [lra|apply pow_incr; lra].
    - apply Rle_trans with (333.15 ^ 4); [apply pow_incr; lra|lra]. }
  set (x := signal cr layout640 sr Zero sample_mem 367 : R).
  assert (Ex : x = V / A) by reflexivity.
  assert (PA : 0 < A) by lra.
  unfold warm_object. set (w4 := uncorrected4 cr layout640 sr Zero sample_mem 367 : R) in *.
  assert (Ew4 : w4 = x + Rr) by reflexivity.
  set (w := uncorrected_kelvin cr layout640 sr Zero sample_mem 367 : R) in *.
  set (g := 1 + kst * (w - 273.15)).
  assert (Bg : 3 / 4 <= g <= 5 / 4) by (unfold g; lra).
  set (xg := x / g). assert (Exg : xg * g = x) by (unfold xg; field; lra).
  assert (Eo : doc_t_o cr layout640 sr Zero sample_mem kst 367 = Rpower (xg + Rr) (1 / 4) - 273.15).
  { change (doc_t_o cr layout640 sr Zero sample_mem kst 367) with (per_pixel_temperature (FO := RealOps) V A Rr kst).
    rewrite temperature_R; [|assumption|rewrite <- Ex; lra]. unfold sensitivity_at, estimate. rewrite <- Ex.
    change (Rpower (x + Rr) (1 / 4)) with w. fold g.
    replace (V / (A * g)) with xg; [reflexivity|]. unfold xg. rewrite Ex. field. lra. }
  rewrite Eo in B.
  assert (Pp : 0 < xg + Rr).
  { destruct (Rlt_dec 0 (xg + Rr)) as [L|L]; [exact L|exfalso]. rewrite Rpower_nonpos in B by exact L. lra. }
  set (T := Rpower (xg + Rr) (1 / 4)) in *.
  assert (ET : T ^ 4 = xg + Rr) by (apply root4_pow; exact Pp).
  assert (BT : 15000000000 <= T ^ 4 <= 16000000000).
  { split.
    - apply Rle_trans with (352.9 ^ 4); [lra|apply pow_incr; lra].
    - apply Rle_trans with (353.7 ^ 4); [apply pow_incr; lra|lra]. }
  assert (Bxg : 2600000000 <= xg <= 11000000000) by lra.
  assert (Bx : 1900000000 <= x <= 14000000000).
  { rewrite <- Exg. split.
    - apply Rle_trans with (2600000000 * (3 / 4)); [lra|apply Rmult_le_compat; lra].
    - apply Rle_trans with (11000000000 * (5 / 4)); [apply Rmult_le_compat; lra|lra]. }
  lra.
Qed.
