(** * Properties C34 and C36: the supply voltage formula over the reals, and
    monotonicity of the IR measurement in binary32. *)
From Coq Require Import Reals Lra.
From Verif Require Import Base FloatOps Register Bus Camera Cam640 Cam641 Calc CalcFacts SpecRegister SpecCamera
  CameraFacts B32 B32Facts Demo SpecImage P_Frames.
From Flocq Require Import Core.Zaux Core.Raux Core.Defs Core.Generic_fmt Core.FLT BinarySingleNaN.
Open Scope R_scope.
Local Open Scope Z_scope.

(** ** C34 *)
(** Real arithmetic as an instance of the float operations. *)
Definition RFO : FloatOps := {|
  F := R; fadd := Rplus; fsub := Rminus; fmul := Rmult; fdiv := Rdiv; fneg := Ropp;
  feqb := fun a b => if Req_EM_T a b then true else false;
  fofZ := IZR; fexp2 := Rpower 2; fpowi := powerRZ; fpowf := Rpower;
  f_half := (1 / 2)%R; f_quarter := (1 / 4)%R; f_3_3 := (33 / 10)%R; f_273_15 := (27315 / 100)%R |}.

(** The two forms of the documentation of [v_dd]. *)
Definition first_form (res v v25 k v0 : R) : R := ((res * v - v25) / k + v0)%R.
Definition second_form (res v v25 k v0 : R) : R := (res * ((v - v25) / k) + v0)%R.

Theorem C34_code_is_second_form : forall {E} p (c : calib RFO) res v dv,
  delta_v (E := E) p c v = Ok dv -> (-32768 <= v - v_dd_25 _ c <= 32767)%Z ->
  v_dd c res dv = second_form res (IZR v) (IZR (v_dd_25 _ c)) (IZR (k_v_dd _ c)) (v_dd_0 _ c).
Proof.
  intros E p c res v dv H Hf. unfold delta_v, chk_i16, in_i16 in H.
  replace ((-32768 <=? v - v_dd_25 RFO c) && (v - v_dd_25 RFO c <=? 32767)) with true in H
    by (symmetry; apply andb_true_intro; split; apply Z.leb_le; lia).
  cbn [bind] in H. injection H as <-. unfold v_dd, second_form. cbn [fadd fmul fdiv fofZ F RFO].
  rewrite minus_IZR. rewrite Rmult_comm. reflexivity.
Qed.
Print Assumptions C34_code_is_second_form.

(** The two forms agree only at the calibration resolution (or for reference 0). *)
Theorem C34_forms_differ : forall res v v25 k v0, k <> 0%R ->
  (first_form res v v25 k v0 = second_form res v v25 k v0 <-> res = 1%R \/ v25 = 0%R).
Proof.
  intros res v v25 k v0 Hk. unfold first_form, second_form. split.
  - intros H. assert (H1 : ((res - 1) * v25 = 0)%R).
    { assert (E : (((res * v - v25) / k + v0) - (res * ((v - v25) / k) + v0) = (res - 1) * v25 / k)%R) by (field; exact Hk).
      rewrite H, Rminus_diag_eq in E by reflexivity. symmetry in E. unfold Rdiv in E.
      apply Rmult_integral in E. destruct E as [E|E]; [exact E|]. exfalso. revert E. apply Rinv_neq_0_compat, Hk. }
    apply Rmult_integral in H1. destruct H1 as [H1|H1]; [left; lra|right; exact H1].
  - intros [->| ->]; field; exact Hk.
Qed.
Print Assumptions C34_forms_differ.

(** The values of the MLX90640 datasheet example (reading -13115, reference
    -12544, K_Vdd -3168), with the camera switched from 18 to 19 bits
    (correction 1/2): the code computes 3.39 V, the first form gives 1.41 V. *)
Example C34_datasheet :
  let v := (-13115)%R in let v25 := (-12544)%R in let k := (-3168)%R in let v0 := (33 / 10)%R in
  (3.39 < second_form (1 / 2) v v25 k v0 < 3.4 /\ 1.41 < first_form (1 / 2) v v25 k v0 < 1.42)%R.
Proof. cbn zeta. unfold first_form, second_form. lra. Qed.

(** ** C36 *)
Lemma RN_le a b : (a <= b)%R -> (RN a <= RN b)%R.
Proof. intros. apply round_le; [apply (fexp_correct 24 128); exact prec24|apply valid_rnd_round_mode|assumption]. Qed.

Lemma b_add_fin x y : is_finite (b_add x y) = true ->
  is_finite x = true /\ is_finite y = true /\ B2R (b_add x y) = RN (B2R x + B2R y).
Proof.
  intros H. assert (Hx : is_finite x = true) by (destruct x as [s|s| |s m e He], y as [s'|s'| |s' m' e' He']; try reflexivity; try discriminate; cbn in H; destruct s, s'; discriminate).
  assert (Hy : is_finite y = true) by (destruct x as [s|s| |s m e He], y as [s'|s'| |s' m' e' He']; try reflexivity; try discriminate; cbn in H; destruct s, s'; discriminate).
  split; [exact Hx|]. split; [exact Hy|]. unfold b_add in *.
  pose proof (Bplus_correct 24 128 _ _ mode_NE x y Hx Hy) as G.
  destruct (Rlt_bool _ _) in G; [apply G|].
  destruct G as [G _]. rewrite <- is_finite_SF_B2SF in H. rewrite G in H.
  unfold binary_overflow in H. destruct (Bsign x); discriminate.
Qed.
Lemma b_sub_fin x y : is_finite (b_sub x y) = true ->
  is_finite x = true /\ is_finite y = true /\ B2R (b_sub x y) = RN (B2R x - B2R y).
Proof.
  intros H. assert (Hx : is_finite x = true) by (destruct x as [s|s| |s m e He], y as [s'|s'| |s' m' e' He']; try reflexivity; try discriminate; cbn in H; destruct s, s'; discriminate).
  assert (Hy : is_finite y = true) by (destruct x as [s|s| |s m e He], y as [s'|s'| |s' m' e' He']; try reflexivity; try discriminate; cbn in H; destruct s, s'; discriminate).
  split; [exact Hx|]. split; [exact Hy|]. unfold b_sub in *.
  pose proof (Bminus_correct 24 128 _ _ mode_NE x y Hx Hy) as G.
  destruct (Rlt_bool _ _) in G; [apply G|].
  destruct G as [G _]. rewrite <- is_finite_SF_B2SF in H. rewrite G in H.
  unfold binary_overflow in H. destruct (Bsign x); discriminate.
Qed.
Lemma b_mul_fin x y : is_finite (b_mul x y) = true ->
  is_finite x = true /\ is_finite y = true /\ B2R (b_mul x y) = RN (B2R x * B2R y).
Proof.
  intros H. assert (Hx : is_finite x = true) by (destruct x as [s|s| |s m e He], y as [s'|s'| |s' m' e' He']; try reflexivity; try discriminate; cbn in H; destruct s, s'; discriminate).
  assert (Hy : is_finite y = true) by (destruct x as [s|s| |s m e He], y as [s'|s'| |s' m' e' He']; try reflexivity; try discriminate; cbn in H; destruct s, s'; discriminate).
  split; [exact Hx|]. split; [exact Hy|]. unfold b_mul in *.
  pose proof (Bmult_correct 24 128 _ _ mode_NE x y) as G.
  destruct (Rlt_bool _ _) in G; [apply G|].
  rewrite <- is_finite_SF_B2SF in H. rewrite G in H.
  unfold binary_overflow in H. destruct (xorb (Bsign x) (Bsign y)); discriminate.
Qed.
Lemma b_div_fin x y : is_finite (b_div x y) = true -> B2R y <> 0%R ->
  is_finite x = true /\ B2R (b_div x y) = RN (B2R x / B2R y).
Proof.
  intros H Hy. assert (Hx : is_finite x = true) by (destruct x as [s|s| |s m e He], y as [s'|s'| |s' m' e' He']; try reflexivity; try discriminate; cbn in H; destruct s, s'; discriminate).
  split; [exact Hx|]. unfold b_div in *.
  pose proof (Bdiv_correct 24 128 _ _ mode_NE x y Hy) as G.
  destruct (Rlt_bool _ _) in G; [apply G|].
  rewrite <- is_finite_SF_B2SF in H. rewrite G in H.
  unfold binary_overflow in H. destruct (xorb (Bsign x) (Bsign y)); discriminate.
Qed.

Lemma ir_value {FO : FloatOps} {E} p (c : calib FO) em rc px ram sp ap mask dest t out i b y lay :
  raw_pixels_to_ir_data (E := E) p c em rc px ram sp ap mask dest = Ok (t, out) ->
  nth_error (chunks2 px) i = Some b -> nth i mask false = true -> complete c lay -> (i < lay_pixels lay)%nat ->
  nth_error out i = Some y ->
  exists common, common_new (E := E) p rc em c ram = Ok common /\
    let v := per_pixel_v_ir (pixel_word b) common (nth i (offset_reference_pixels _ c sp) 0)
               (nth i (k_v_pixels _ c sp) (fofZ 0)) (nth i (k_ta_pixels _ c sp) (fofZ 0))
               (nth i (access_pattern_compensation_pixels _ c ap) None) in
    y = match compensation_pixel_term c common ram sp ap with Some o => fsub v o | None => v end.
Proof.
  intros H Hb Hm (C1 & C2 & C3 & C4 & C5 & _) Hi Hy. unfold raw_pixels_to_ir_data in H.
  destruct (common_new p rc em c ram) as [common| | |]; cbn [bind] in H; try discriminate.
  exists common. split; [reflexivity|]. injection H as _ <-.
  rewrite mfe_nth, !nth_error_zip, Hm, Hb in Hy.
  rewrite (nth_error_nth' (offset_reference_pixels _ c sp) 0), (nth_error_nth' (k_v_pixels _ c sp) (fofZ 0)),
    (nth_error_nth' (k_ta_pixels _ c sp) (fofZ 0)), (nth_error_nth' (access_pattern_compensation_pixels _ c ap) None) in Hy
    by (rewrite ?C1, ?C3, ?C4, ?C5; exact Hi).
  destruct (nth_error dest i); [|discriminate]. injection Hy as <-. reflexivity.
Qed.

Section Mono.
Context (l : libm).
Notation F := (f32) (only parsing).
(** The IR value of one pixel is non-decreasing in its raw value. *)
Lemma v_ir_mono (common : common_ir_data (FO := B32 l)) off kv kta amc a b :
  (Z.abs a <= 2 ^ 24)%Z -> (Z.abs b <= 2 ^ 24)%Z -> (a <= b)%Z ->
  (0 <= B2R (c_gain common))%R -> (0 < B2R (c_emissivity common))%R ->
  is_finite (per_pixel_v_ir a common off kv kta amc : f32) = true ->
  is_finite (per_pixel_v_ir b common off kv kta amc : f32) = true ->
  (B2R (per_pixel_v_ir a common off kv kta amc : f32) <= B2R (per_pixel_v_ir b common off kv kta amc : f32))%R.
Proof.
  intros Ha Hb Hab Hg He. unfold per_pixel_v_ir. cbn [fdiv fsub fadd fmul fofZ B32].
  set (X := b_mul (b_mul (b_ofZ off) _) _). set (C := match amc with Some v => v | None => b_ofZ 0 end).
  intros Fa Fb.
  apply b_div_fin in Fa; [|lra]. destruct Fa as [Fa ->]. apply b_div_fin in Fb; [|lra]. destruct Fb as [Fb ->].
  apply b_sub_fin in Fa. destruct Fa as (Fa & _ & ->). apply b_sub_fin in Fb. destruct Fb as (Fb & _ & ->).
  apply b_add_fin in Fa. destruct Fa as (Fa & _ & ->). apply b_add_fin in Fb. destruct Fb as (Fb & _ & ->).
  apply b_mul_fin in Fa. destruct Fa as (_ & _ & ->). apply b_mul_fin in Fb. destruct Fb as (_ & _ & ->).
  destruct (b_ofZ_correct a Ha) as [_ ->]. destruct (b_ofZ_correct b Hb) as [_ ->].
  apply IZR_le in Hab.
  apply RN_le. unfold Rdiv. apply Rmult_le_compat_r; [apply Rlt_le, Rinv_0_lt_compat, He|].
  apply RN_le. apply Rplus_le_compat_r. apply RN_le. apply Rplus_le_compat_r. apply RN_le.
  apply Rmult_le_compat_r; assumption.
Qed.

Lemma pixel_word_abs b : byte (fst b) -> byte (snd b) -> (Z.abs (pixel_word b) <= 2 ^ 24)%Z.
Proof.
  unfold byte, pixel_word, i16_of_u16, be16. intros H1 H2. change (2 ^ 24)%Z with 16777216%Z.
  destruct (_ <? _)%Z; lia.
Qed.

(** Two frames with the same auxiliary data; pixel [i] has raw value [a] in the
    first and [b >= a] in the second: its IR value is not smaller in the second,
    whenever both are finite. *)
Theorem C36_ir_data_monotone : forall {E} p (c : calib (B32 l)) (em rc : f32) px1 px2 ram sp ap mask1 mask2
    (dest1 dest2 : list f32) t1 t2 out1 out2 i b1 b2 (y1 y2 : f32),
  raw_pixels_to_ir_data (E := E) p c em rc px1 ram sp ap mask1 dest1 = Ok (t1, out1) ->
  raw_pixels_to_ir_data (E := E) p c em rc px2 ram sp ap mask2 dest2 = Ok (t2, out2) ->
  nth_error (chunks2 px1) i = Some b1 -> nth_error (chunks2 px2) i = Some b2 ->
  byte (fst b1) -> byte (snd b1) -> byte (fst b2) -> byte (snd b2) ->
  (signed (256 * fst b1 + snd b1) <= signed (256 * fst b2 + snd b2))%Z ->
  nth i mask1 false = true -> nth i mask2 false = true ->
  (exists lay, complete c lay /\ (i < lay_pixels lay)%nat) ->
  (0 <= B2R (b_div (cal_gain _ c) (b_ofZ (ram_gain ram))))%R -> (0 < B2R em)%R ->
  nth_error out1 i = Some y1 -> nth_error out2 i = Some y2 ->
  is_finite y1 = true -> is_finite y2 = true ->
  (B2R y1 <= B2R y2)%R.
Proof.
  intros E p c em rc px1 px2 ram sp ap mask1 mask2 dest1 dest2 t1 t2 out1 out2 i b1 b2 y1 y2 H1 H2 Hb1 Hb2 Y1 Y2 Y3 Y4 Hle
    Hm1 Hm2 (lay & Hc & Hi) Hg He Ho1 Ho2 F1 F2.
  destruct (ir_value p c em rc px1 ram sp ap mask1 dest1 t1 out1 i b1 y1 lay H1 Hb1 Hm1 Hc Hi Ho1) as (common & Ek & E1).
  destruct (ir_value p c em rc px2 ram sp ap mask2 dest2 t2 out2 i b2 y2 lay H2 Hb2 Hm2 Hc Hi Ho2) as (common' & Ek' & E2).
  rewrite Ek in Ek'. injection Ek' as <-. cbn zeta in E1, E2.
  assert (Hcg : c_gain common = b_div (cal_gain _ c) (b_ofZ (ram_gain ram)) /\ c_emissivity common = em).
  { unfold common_new in Ek. destruct (delta_v p c (v_dd_pixel ram)); cbn [bind] in Ek; try discriminate.
    injection Ek as <-. split; reflexivity. }
  destruct Hcg as [Hcg Hce]. clear Ek.
  assert (Hw : (pixel_word b1 <= pixel_word b2)%Z).
  { unfold pixel_word, be16. rewrite !(Z.mul_comm _ 256). exact Hle. }
  assert (A1 := pixel_word_abs b1 Y1 Y2). assert (A2 := pixel_word_abs b2 Y3 Y4).
  rewrite <- Hcg in Hg. rewrite <- Hce in He.
  destruct (compensation_pixel_term c common ram sp ap) as [o|].
  - subst y1 y2. cbn [fsub B32] in F1, F2 |- *.
    apply b_sub_fin in F1. destruct F1 as (F1 & _ & ->). apply b_sub_fin in F2. destruct F2 as (F2 & _ & ->).
    apply RN_le. apply Rplus_le_compat_r. apply v_ir_mono; assumption.
  - subst y1 y2. apply v_ir_mono; assumption.
Qed.
End Mono.
Print Assumptions C36_ir_data_monotone.
