(** * P_Ambient: C100 -- rounding does not reverse the order of ambient temperatures. *)
From Verif Require Import Base FloatOps Register Bus Camera Cam640 Cam641 Calc SpecRegister SpecEeprom SpecHamming ParseFacts
  SpecDriver DriverFacts StepFacts SpecCall P_Image P_Bus P_Frames SeenFacts P_Seen P_Calc Dumps Ee641Words
  SpecCamera SpecImage ImageFacts B32 B32Facts BoundFacts FiniteFacts FrameRateFacts P_CalcReal
  FieldFacts Spec640 Ee640 Ee640Facts Ee640Closed P_Ee640 P_Ee640Real Spec641 Ee641 Ee641Closed Ee641Facts P_Ee641 P_Ee641Real P_Usable
  AccuracyFacts SpecAccuracy P_Finite P_Accuracy P_Order SpecTemperature P_Temperature P_PixelAccuracy ObjectFacts Driver.
From Coq Require Import Reals Lra Psatz.
From Flocq Require Import Core BinarySingleNaN.
Open Scope R_scope.

(** ** The temperature sensor's ratio *)
Lemma ratio_order (p p' a w w' d d' : R) :
  1 <= p -> p' <= 32768 -> (p = p' \/ p + 1 <= p') -> 8 <= a <= 16 -> 0 < w' -> w' <= w -> p' * a <= 64 * w' ->
  (p = p' -> d' <= d) ->
  Rabs (d - (p * a + w)) <= 21 / 10 * / 16777216 * (p * a + w) ->
  Rabs (d' - (p' * a + w')) <= 21 / 10 * / 16777216 * (p' * a + w') ->
  0 < d -> 0 < d' -> p / d <= p' / d'.
Proof.
  intros Hp Hp' Hpp Ha Hw' Hw Hb Hd E E' D D'.
  assert (G : p * d' <= p' * d).
  { destruct Hpp as [Hpp|Hpp]; [rewrite <- Hpp; apply Rmult_le_compat_l; [lra|auto]|].
    apply abs_split in E. apply abs_split in E'. set (e := 21 / 10 * / 16777216) in *.
    assert (He : 0 <= e <= 22 / 10 * / 16777216) by (unfold e; lra).
    (* p d' <= p (p' a + w) (1 + e) and p' (p a + w) (1 - e) <= p' d *)
    assert (A1 : p * d' <= p * ((p' * a + w) * (1 + e))).
    { apply Rmult_le_compat_l; [lra|]. assert ((p' * a + w') * (1 + e) <= (p' * a + w) * (1 + e)) by (apply Rmult_le_compat_r; lra). lra. }
    assert (A2 : p' * ((p * a + w) * (1 - e)) <= p' * d) by (apply Rmult_le_compat_l; lra).
    assert (A3 : p * a <= 64 * w) by nra.
    assert (A4 : e * (2 * (p' * (p * a)) + (p + p') * w) <= w).
    { assert (p' * (p * a) <= 32768 * (64 * w)) by (apply Rmult_le_compat; nra).
      assert ((p + p') * w <= 65536 * w) by (apply Rmult_le_compat_r; lra).
      apply Rle_trans with (e * (2 * (32768 * (64 * w)) + 65536 * w)); [apply Rmult_le_compat_l; lra|].
      apply Rle_trans with (22 / 10 * / 16777216 * (2 * (32768 * (64 * w)) + 65536 * w)); [apply Rmult_le_compat_r; lra|]. lra. }
    assert (A5 : w <= (p' - p) * w) by nra.
    assert (A6 : p' * ((p * a + w) * (1 - e)) - p * ((p' * a + w) * (1 + e)) = (p' - p) * w - e * (2 * (p' * (p * a)) + (p + p') * w)) by ring.
    lra. }
  apply Rmult_le_reg_r with (d * d'); [apply Rmult_lt_0_compat; assumption|].
  replace (p / d * (d * d')) with (p * d') by (field; lra). replace (p' / d' * (d * d')) with (p' * d) by (field; lra). exact G.
Qed.

Lemma ambient_order l (fa fk ft fv : f32) (a k t v : R) (ptat ptat' vbe vbe' n kd : Z) :
  is_val fa a -> is_val fk k -> is_val ft t -> is_val fv v ->
  (0 < ptat)%Z -> (ptat <= ptat' <= 32768)%Z -> (0 < vbe')%Z -> (vbe' <= vbe <= 32768)%Z ->
  (Z.abs n <= 32768)%Z -> (0 < Z.abs kd <= 65536)%Z ->
  8 <= a <= 16 -> Rabs k <= 1 -> 1 / 8 <= t <= 128 -> Rabs v <= 65536 -> Rabs (k * (IZR n / IZR kd)) <= 1 / 2 ->
  IZR ptat' * a <= 64 * IZR vbe' ->
  let ta p w := b_add (b_div (b_sub (b_div (b_mul (b_div (b_ofZ p) (b_add (b_mul (b_ofZ p) fa) (b_ofZ w))) (b_exp2 l (b_ofZ 18)))
                  (b_add (b_ofZ 1) (b_mul fk (b_div (b_ofZ n) (b_ofZ kd))))) fv) ft) (b_ofZ 25) in
  is_finite (ta ptat vbe) = true /\ is_finite (ta ptat' vbe') = true /\ B2R (ta ptat vbe) <= B2R (ta ptat' vbe').
Proof.
  intros Va Vk Vt Vv Hp Hp' Hw' Hw Hn Hk Ba Bk Bt Bv Bi Hb ta.
  assert (Bt' : 1 / 8 <= Rabs t <= 128) by (rewrite Rabs_pos_eq; lra).
  assert (R1 : (0 < ptat <= 32768)%Z) by lia. assert (R1' : (0 < ptat' <= 32768)%Z) by lia.
  assert (R2 : (0 <= vbe <= 32768)%Z) by lia. assert (R2' : (0 <= vbe' <= 32768)%Z) by lia.
  destruct (ambient_near l fa fk ft fv a k t v ptat vbe n kd Va Vk Vt Vv R1 R2 Hn Hk Ba Bk Bt' Bv Bi) as [F _].
  destruct (ambient_near l fa fk ft fv a k t v ptat' vbe' n kd Va Vk Vt Vv R1' R2' Hn Hk Ba Bk Bt' Bv Bi) as [F' _].
  split; [exact F|]. split; [exact F'|]. cbv beta delta [ta]. clear ta.
  pose proof (P_Accuracy.near_D fa a ptat vbe n kd Va R1 R2 Ba) as [FD ED].
  pose proof (P_Accuracy.near_D fa a ptat' vbe' n kd Va R1' R2' Ba) as [FD' ED'].

  assert (P1 : 1 <= IZR ptat) by (apply IZR_le; lia). assert (P2 : IZR ptat' <= 32768) by (apply IZR_le; lia).
  assert (P3 : IZR ptat <= IZR ptat') by (apply IZR_le; lia).
  assert (W1 : 1 <= IZR vbe') by (apply IZR_le; lia). assert (W2 : IZR vbe' <= IZR vbe) by (apply IZR_le; lia).
  assert (D1 : 0 < B2R (b_add (b_mul (b_ofZ ptat) fa) (b_ofZ vbe))).
  { apply abs_split in ED. nra. }
  assert (D2 : 0 < B2R (b_add (b_mul (b_ofZ ptat') fa) (b_ofZ vbe'))).
  { apply abs_split in ED'. nra. }
  destruct (P_Accuracy.near_den fk k n kd Vk Hn Hk Bk Bi) as [FN EN].
  set (den := b_add (b_ofZ 1) (b_mul fk (b_div (b_ofZ n) (b_ofZ kd)))) in *.
  assert (D3 : 0 < B2R den).
  { apply abs_split in EN. apply abs_split in Bi. lra. }
  set (D := b_add (b_mul (b_ofZ ptat) fa) (b_ofZ vbe)) in *. set (D' := b_add (b_mul (b_ofZ ptat') fa) (b_ofZ vbe')) in *.
  destruct (b_ofZ_correct ptat ltac:(lia)) as [Fp Ep]. destruct (b_ofZ_correct ptat' ltac:(lia)) as [Fp' Ep'].
  destruct (b_ofZ_correct vbe ltac:(lia)) as [Fw Ew]. destruct (b_ofZ_correct vbe' ltac:(lia)) as [Fw' Ew'].
  destruct Vt as [Ft Et]. destruct (b_exp2_ofZ l 18 ltac:(lia)) as [F18 E18].
  change (bpow radix2 18) with 262144 in E18.
  (* the ratios *)
  assert (Q : IZR ptat / B2R D <= IZR ptat' / B2R D').
  { apply (ratio_order _ _ a (IZR vbe) (IZR vbe')); try assumption; try lra.
    - destruct (Z.eq_dec ptat ptat') as [->|Hne]; [left; reflexivity|right]. rewrite <- plus_IZR. apply IZR_le. lia.
    - intros E. apply eq_IZR in E. unfold D, D'. rewrite <- E.
      apply b_add_fin in FD. destruct FD as (_ & _ & ->).
      unfold D' in FD'. rewrite <- E in FD'. apply b_add_fin in FD'. destruct FD' as (_ & _ & ->).
      apply RN_le, Rplus_le_compat_l. rewrite Ew, Ew'. exact W2. }
  (* the rest rounds monotonically *)
  apply b_add_fin in F. destruct F as (F & _ & ->). apply b_add_fin in F'. destruct F' as (F' & _ & ->).
  apply RN_le, Rplus_le_compat_r.
  apply b_div_fin in F; [|rewrite Et; lra]. destruct F as (F & ->). apply b_div_fin in F'; [|rewrite Et; lra]. destruct F' as (F' & ->).
  apply RN_le, Rmult_le_compat_r; [rewrite Et; apply Rlt_le, Rinv_0_lt_compat; lra|].
  apply b_sub_fin in F. destruct F as (F & _ & ->). apply b_sub_fin in F'. destruct F' as (F' & _ & ->).
  apply RN_le, Rplus_le_compat_r.
  apply b_div_fin in F; [|lra]. destruct F as (F & ->). apply b_div_fin in F'; [|lra]. destruct F' as (F' & ->).
  apply RN_le, Rmult_le_compat_r; [apply Rlt_le, Rinv_0_lt_compat; lra|].
  apply b_mul_fin in F. destruct F as (F & _ & ->). apply b_mul_fin in F'. destruct F' as (F' & _ & ->).
  apply RN_le, Rmult_le_compat_r; [rewrite E18; lra|].
  apply b_div_fin in F; [|lra]. destruct F as (F & ->). apply b_div_fin in F'; [|lra]. destruct F' as (F' & ->).
  apply RN_le. rewrite Ep, Ep'. exact Q.
Qed.

(** ** Frames *)
(** The frame [mem'] was taken by a sensor that is not colder than when it took [mem]: the supply voltage reads
    the same, the sensor's first reading (PTAT) is not smaller, its second (V_BE) not larger. *)
Record not_colder (k : ptat_constants) (lay : layout) (mem mem' : Z -> Z) : Prop := {
  nc_supply : reading mem' (lay_vdd lay) = reading mem (lay_vdd lay);
  nc_ptat : reading mem (lay_ptat lay) <= reading mem' (lay_ptat lay);
  nc_vbe : reading mem' (lay_vbe lay) <= reading mem (lay_vbe lay);
  (* the second reading is not tiny compared with the first *)
  nc_vbe_large : reading mem' (lay_ptat lay) * pc_alpha k <= 64 * reading mem' (lay_vbe lay)
}.

Lemma doc_t_a_order l (c : calib (B32 l)) k lay mem mem' : carries c k ->
  8 <= pc_alpha k <= 16 -> Rabs (pc_k_v k) <= 1 -> 1 / 8 <= pc_k_t k <= 128 -> Rabs (pc_v_25 k) <= 65536 ->
  (0 < Z.abs (pc_k_vdd k) <= 65536)%Z ->
  (forall a, word (mem a)) -> (forall a, word (mem' a)) -> plausible_frame k lay mem -> plausible_frame k lay mem' ->
  not_colder k lay mem mem' ->
  is_finite (doc_t_a c lay mem : f32) = true /\ is_finite (doc_t_a c lay mem' : f32) = true /\
  B2R (doc_t_a c lay mem : f32) <= B2R (doc_t_a c lay mem' : f32).
Proof.
  intros [Va Vk Vt Vv Ev Ek] Ba Bk Bt Bv Bd Hm Hm' [Hp Hb Hv Hi] [Hp' Hb' _ _] [N1 N2 N3 N4].
  unfold doc_t_a, doc_v_ptat_art, doc_delta_v, exact_t_a, exact_v_ptat_art, exact_delta_v in *.
  unfold reading, SpecImage.ram in *. rewrite Ev, Ek. cbn [B32 fadd fsub fmul fdiv fofZ fexp2].
  assert (Sp := FiniteFacts.signed_abs _ (Hm' (lay_ptat lay))). assert (Sb := FiniteFacts.signed_abs _ (Hm (lay_vbe lay))).
  apply eq_IZR in N1. rewrite N1.
  assert (Pa : 0 < IZR (signed (mem' (lay_ptat lay))) * pc_alpha k) by (apply Rmult_lt_0_compat; lra).
  assert (Hw0 : 0 < IZR (signed (mem' (lay_vbe lay)))) by lra.
  apply lt_IZR in Hp. apply lt_IZR in Hw0. apply le_IZR in N2. apply le_IZR in N3.
  rewrite <- minus_IZR in *. destruct Hv as [Hv1 Hv2]. apply le_IZR in Hv1. apply le_IZR in Hv2.
  assert (Ew : wrap16 (signed (mem (lay_vdd lay)) - pc_vdd_25 k) = (signed (mem (lay_vdd lay)) - pc_vdd_25 k)%Z).
  { unfold wrap16. rewrite Z.mod_small by (clear - Hv1 Hv2; lia). ring. }
  rewrite Ew.
  apply (ambient_order l (alpha_ptat _ c) (k_v_ptat _ c) (k_t_ptat _ c) (v_ptat_25 _ c)
           (pc_alpha k) (pc_k_v k) (pc_k_t k) (pc_v_25 k)); try assumption.
  - clear - N2 Sp. lia.
  - clear - N3 Sb. lia.
  - clear - Hv1 Hv2. lia.
Qed.

(** ** From [new] to ambient_temperature() *)
(** An image call [o] of [d] that leaves the driver [d'] and the ambient temperature [t], having read [mem]. *)
Definition senses {l} p {B ER EW} (bs : bus B ER EW) (d : driver (FO := B32 l)) (o : op) (mem : Z -> Z) (t : f32) : Prop :=
  exists dest r d' dest' evs sp,
    destination o = Some dest /\ step p bs d o = (r, d', dest') /\ computed o r /\
    trace (d_bus d') = trace (d_bus d) ++ evs /\ stores o (d_address d) evs sp /\
    (forall a, word (mem a)) /\ Forall (shows mem) evs /\
    drv_ambient_temperature d' = Some t.
(** Of any two image calls made at any points of any histories of a driver, the one whose frame is of a sensor
    not colder gives an ambient temperature not lower. *)
Definition ambient_ordered {l} p {B ER EW} (bs : bus B ER EW) (k : ptat_constants) lay (d0 : driver (FO := B32 l)) : Prop :=
  forall ops1 ops2 o1 o2 mem1 mem2 t1 t2,
    senses p bs (run p bs d0 ops1) o1 mem1 t1 -> senses p bs (run p bs d0 ops2) o2 mem2 t2 ->
    plausible_frame k lay mem1 -> plausible_frame k lay mem2 -> not_colder k lay mem1 mem2 ->
    is_finite t1 = true /\ is_finite t2 = true /\ B2R t1 <= B2R t2.

Lemma senses_doc l p B ER EW (bs : bus B ER EW) lay (d0 : driver (FO := B32 l)) ops o mem t :
  usable d0 lay -> Forall byte (d_pixel_buffer d0) -> senses p bs (run p bs d0 ops) o mem t ->
  t = doc_t_a (d_calibration d0) lay mem /\ forall a, word (mem a).
Proof.
  intros Hu Hb (dest & r & d' & dest' & evs & sp & Ho & Hs & Hc & Ht & Hst & Hm & Hsh & Ha).
  destruct (run_usable p bs lay d0 ops Hu Hb) as [Hu' _].
  destruct (run_later p bs lay d0 ops (usable_wf _ _ Hu)) as (_ & ((_ & K2 & _) & _) & _).
  destruct (C55_image_of_transcript p bs lay (run p bs d0 ops) o dest r d' dest' evs sp mem Hu' Ho Hs Hc Ht Hst Hm Hsh) as [E _].
  rewrite K2 in E. split; [|exact Hm]. apply some_inj. rewrite <- Ha. exact E.
Qed.

Lemma ordered_from_calibration {l} p {B ER EW} (bs : bus B ER EW) k lay (d0 : driver (FO := B32 l)) :
  usable d0 lay -> Forall byte (d_pixel_buffer d0) -> carries (d_calibration d0) k ->
  8 <= pc_alpha k <= 16 -> Rabs (pc_k_v k) <= 1 -> 1 / 8 <= pc_k_t k <= 128 -> Rabs (pc_v_25 k) <= 65536 ->
  (0 < Z.abs (pc_k_vdd k) <= 65536)%Z ->
  ambient_ordered p bs k lay d0.
Proof.
  intros Hu Hb Hk B1 B2 B3 B4 B5 ops1 ops2 o1 o2 mem1 mem2 t1 t2 S1 S2 P1 P2 N.
  destruct (senses_doc l p B ER EW bs lay d0 ops1 o1 mem1 t1 Hu Hb S1) as [-> M1].
  destruct (senses_doc l p B ER EW bs lay d0 ops2 o2 mem2 t2 Hu Hb S2) as [-> M2].
  exact (doc_t_a_order l _ k lay mem1 mem2 Hk B1 B2 B3 B4 B5 M1 M2 P1 P2 N).
Qed.

Lemma positive_eighth z m : (0 < z <= m)%Z -> 1 / 8 <= IZR z / 8 <= IZR m / 8.
Proof. intros H. assert (1 <= IZR z <= IZR m) by (split; apply IZR_le; lia). lra. Qed.

Theorem C100_ambient_640 : forall l p B ER EW (bs : bus B ER EW) w a (d0 : driver (FO := B32 l)) w',
  new bs (calib640_from_i2c (B32 l) p bs) 24 1536 w a = (Ok d0, w') ->
  exists data rest, trace (d_bus d0) = trace w ++ EvRead a [0x24; 0x00]%Z data None :: rest /\
  let ee := ee_word data in
  (* alpha_PTAT is a whole number (otherwise see C44), K_T_PTAT is positive, K_V_DD is not zero *)
  (bits (ee 0x10%nat) 12 4 mod 4 = 0 -> 0 < sbits (ee 0x32%nat) 0 10 -> sbits (ee 0x33%nat) 8 8 <> 0 ->
   ambient_ordered p bs (ptat_640 ee) layout640 d0)%Z.
Proof.
  intros l p B ER EW bs w a d0 w' H. apply C29_new_640 in H. destruct H as (evs & Ht & H).
  remember (Ok d0) as r eqn:E. destruct H as [| | | |data c evs r Hl Hb Hc H]; try discriminate E.
  destruct H as [v d1 Hv Hf|]; [|discriminate E]. injection E as ->.
  pose proof (full_of_exact data Hb Hl) as Hd. destruct (C62_calibration_640 _ p data c Hd Hc) as [H1 H2].
  destruct (fresh_usable layout640 24 1536 a c v w' d0 H1 H2 ltac:(vm_compute; lia) ltac:(vm_compute; lia) Hf) as [Hu Hby].
  destruct Hf as (Ew & Ea & Ec & _).
  exists data. eexists. split; [rewrite Ew; exact Ht|]. cbv zeta. intros Hm Hkt Hkd.
  destruct (ptat_640_bounds data Hd) as (B1 & B2 & B3).
  apply ordered_from_calibration; try assumption.
  - rewrite Ec. apply (C72_constants_640 l p data c Hd Hc Hm).
  - cbn [ptat_640 pc_k_t]. pose proof (sbits_range (ee_word data 0x32) 0 10 ltac:(lia)) as R. change (2 ^ (10 - 1))%Z with 512%Z in R.
    pose proof (positive_eighth (sbits (ee_word data 0x32) 0 10) 1024 ltac:(clear - R Hkt; lia)) as B4. lra.
  - cbn [ptat_640 pc_k_vdd]. pose proof (sbits_range (ee_word data 0x33) 8 8 ltac:(lia)) as R. change (2 ^ (8 - 1))%Z with 128%Z in R.
    clear - R Hkd. lia.
Qed.
Print Assumptions C100_ambient_640.

Theorem C100_ambient_641 : forall l p B ER EW (bs : bus B ER EW) w a (d0 : driver (FO := B32 l)) w',
  new bs (calib641_from_i2c (B32 l) p bs) 12 384 w a = (Ok d0, w') ->
  exists data rest, trace (d_bus d0) = trace w ++ EvRead a [0x24; 0x00]%Z data None :: rest /\
  forall dw, corrected data dw ->
  (* alpha_PTAT is at least 8, K_T_PTAT is positive, K_V_DD is not zero, the low half of V_PTAT_25 has 5 bits *)
  (1024 <= dw 0x2C%nat -> dw 0x29%nat < 32 -> 0 < sext 11 (dw 0x2A%nat) -> sext 11 (dw 0x27%nat) <> 0 ->
   ambient_ordered p bs (ptat_641 dw) layout641 d0)%Z.
Proof.
  intros l p B ER EW bs w a d0 w' H. apply C29_new_641 in H. destruct H as (evs & Ht & H).
  remember (Ok d0) as r eqn:E. destruct H as [| | | |data c evs r Hl Hb Hc H]; try discriminate E.
  destruct H as [v d1 Hv Hf|]; [|discriminate E]. injection E as ->.
  pose proof (full_of_exact data Hb Hl) as Hd. destruct (C62_calibration_641 _ p data c Hd Hc) as [H1 H2].
  destruct (fresh_usable layout641 12 384 a c v w' d0 H1 H2 ltac:(vm_compute; lia) ltac:(vm_compute; lia) Hf) as [Hu Hby].
  destruct Hf as (Ew & Ea & Ec & _).
  exists data. eexists. split; [rewrite Ew; exact Ht|]. intros dw Hw Ha Hlow Hkt Hkd.
  pose proof (dw_range data dw Hd Hw 0x2C ltac:(used)) as R1.
  pose proof (dw_range data dw Hd Hw 0x28 ltac:(used)) as R2.
  pose proof (dw_range data dw Hd Hw 0x29 ltac:(used)) as R3.
  pose proof (signed11_small data dw 0x2A Hd Hw ltac:(used)) as R4.
  pose proof (signed11_small data dw 0x2B Hd Hw ltac:(used)) as R5.
  pose proof (signed11_small data dw 0x27 Hd Hw ltac:(used)) as R6. unfold signed11 in R4, R5, R6.
  apply ordered_from_calibration; try assumption.
  - rewrite Ec. apply (C72_constants_641 l p data dw c Hd Hw Hc Hlow).
  - cbn [ptat_641 pc_alpha]. assert (1024 <= IZR (dw 0x2C%nat) <= 2048) by (split; apply IZR_le; clear - R1 Ha; lia). lra.
  - cbn [ptat_641 pc_k_v]. apply abs_between.
    assert (-1024 <= IZR (sext 11 (dw 0x2B%nat)) <= 1024) by (split; apply IZR_le; clear - R5; lia). lra.
  - cbn [ptat_641 pc_k_t]. pose proof (positive_eighth (sext 11 (dw 0x2A%nat)) 1024 ltac:(clear - R4 Hkt; lia)) as B4. lra.
  - cbn [ptat_641 pc_v_25]. apply abs_between.
    assert (0 <= IZR (32 * dw 0x28%nat + dw 0x29%nat) <= 65536) by (split; apply IZR_le; clear - R2 R3 Hlow; lia). lra.
  - cbn [ptat_641 pc_k_vdd]. clear - R6 Hkd. lia.
Qed.
Print Assumptions C100_ambient_641.

(** ** Concrete case: the frame of C72_concrete, and one step of each reading further *)
Definition warmer_mem (a : Z) : Z :=
  if (a =? lay_ptat layout640)%Z then (sample_mem a + 1)%Z else if (a =? lay_vbe layout640)%Z then (sample_mem a - 1)%Z else sample_mem a.
Example C100_concrete :
  let k := ptat_640 sample_ee in
  (0 < sbits (sample_ee 0x32%nat) 0 10)%Z /\
  plausible_frame k layout640 sample_mem /\ plausible_frame k layout640 warmer_mem /\ not_colder k layout640 sample_mem warmer_mem.
Proof.
  cbv zeta. split; [vm_compute; reflexivity|]. split; [apply C72_concrete|].
  assert (Ek : ptat_640 sample_ee = {| pc_alpha := IZR 4 / 4 + 8; pc_k_v := IZR 22%Z / 4096; pc_k_t := IZR 338 / 8;
                                       pc_v_25 := IZR 12273; pc_vdd_25 := -13056; pc_k_vdd := -3168 |})
    by (vm_compute; reflexivity).
  rewrite Ek.
  assert (E1 : signed (sample_mem (lay_vdd layout640)) = (-13115)%Z) by (vm_compute; reflexivity).
  assert (E2 : signed (sample_mem (lay_ptat layout640)) = 1711%Z) by (vm_compute; reflexivity).
  assert (E3 : signed (sample_mem (lay_vbe layout640)) = 19442%Z) by (vm_compute; reflexivity).
  assert (G1 : signed (warmer_mem (lay_vdd layout640)) = (-13115)%Z) by (vm_compute; reflexivity).
  assert (G2 : signed (warmer_mem (lay_ptat layout640)) = 1712%Z) by (vm_compute; reflexivity).
  assert (G3 : signed (warmer_mem (lay_vbe layout640)) = 19441%Z) by (vm_compute; reflexivity).
  split; constructor; unfold exact_delta_v, reading; rewrite ?E1, ?E2, ?E3, ?G1, ?G2, ?G3; cbn [pc_vdd_25 pc_k_vdd pc_k_v pc_alpha]; try lra.
  apply Rabs_le. lra.
Qed.
