(** * P_Powers: C109 -- powers are accurate and the same on all builds: what the other theorems assume about
    [powi] holds of the routines in use, and only the fourth root is left to assume. *)
From Verif Require Import Base FloatOps Register Bus Camera Calc Driver B32 B32Facts RealOps BoundFacts Powers
  SpecCamera SpecImage SpecDriver SpecCall P_Image AccuracyFacts SpecAccuracy SpecTemperature P_Temperature P_CalcReal
  SpecEeprom SpecHamming Spec641 Ee641Facts P_EndToEnd P_Accuracy Ee640 Ee641
  SpecNan SpecOrder P_Order P_Numbers SpecReplay SpecPort P_Port Driver.
From Coq Require Import Reals Lra.
From Flocq Require Import Core BinarySingleNaN Relative.
Open Scope R_scope.

(** ** Both routines compute powers. *)
Lemma squaring_R (r a : R) n : squaring (FO := RealOps) r a n = r * a ^ Pos.to_nat n :> R.
Proof.
  revert r a. induction n as [n IH|n IH|]; intros r a; cbn [squaring].
  - change (squaring (FO := RealOps) (r * a) (a * a) n = r * a ^ Pos.to_nat n~1 :> R). rewrite IH.
    rewrite Pos2Nat.inj_xI, <- tech_pow_Rmult, pow_mult. replace (a ^ 2) with (a * a) by ring. ring.
  - change (squaring (FO := RealOps) r (a * a) n = r * a ^ Pos.to_nat n~0 :> R). rewrite IH.
    rewrite Pos2Nat.inj_xO, pow_mult. replace (a ^ 2) with (a * a) by ring. reflexivity.
  - change (r * a = r * a ^ 1 :> R). ring.
Qed.

Lemma accumulate_squaring {FO : FloatOps} (acc b : F FO) n : accumulate acc b n = squaring acc (fmul b b) n.
Proof. revert acc b. induction n as [n IH|n IH|]; intros acc b; cbn [accumulate squaring]; [apply IH|apply IH|reflexivity]. Qed.

Lemma strip_squaring {FO : FloatOps} (b : F FO) n : (forall y : F FO, fmul (fofZ 1) y = y) ->
  strip b n = squaring (fofZ 1) b n.
Proof.
  intros H1. revert b. induction n as [n IH|n IH|]; intros b; cbn [strip squaring].
  - rewrite accumulate_squaring, H1. reflexivity.
  - apply IH.
  - rewrite H1. reflexivity.
Qed.

(** Without rounding both routines are the mathematical power, for every exponent. *)
Theorem C109_exact : forall (x : R) (n : Z), x <> 0 \/ (0 <= n)%Z ->
  runtime_powi (FO := RealOps) x n = powerRZ x n :> R /\ numtraits_powi (FO := RealOps) x n = powerRZ x n :> R.
Proof.
  assert (H1 : forall y : F RealOps, fmul (fofZ 1) y = y) by (intros y; change (1 * y = y :> R); ring).
  assert (Hs : forall (x : R) n, squaring (FO := RealOps) (fofZ 1) x n = x ^ Pos.to_nat n :> R).
  { intros x n. etransitivity; [apply squaring_R|]. change (1 * x ^ Pos.to_nat n = x ^ Pos.to_nat n :> R). ring. }
  intros x n Hx. unfold runtime_powi, numtraits_powi, powerRZ. destruct n as [|n|n].
  - split; reflexivity.
  - rewrite (strip_squaring (FO := RealOps) x n H1). split; apply Hs.
  - assert (Nx : x <> 0) by (destruct Hx as [Hx|Hx]; [exact Hx|lia]).
    rewrite (strip_squaring (FO := RealOps) _ n H1). split.
    + etransitivity; [apply f_equal; apply Hs|]. change (1 / x ^ Pos.to_nat n = / x ^ Pos.to_nat n :> R). unfold Rdiv. ring.
    + etransitivity; [apply Hs|]. change ((1 / x) ^ Pos.to_nat n = / x ^ Pos.to_nat n :> R).
      rewrite <- pow_inv. f_equal. unfold Rdiv. ring.
Qed.
Print Assumptions C109_exact.

(** ** In binary32 they agree bit for bit. *)
Lemma one_times (y : f32) : b_mul (b_ofZ 1) y = y.
Proof.
  assert (V : is_val (b_ofZ 1) 1) by (apply (b_ofZ_correct 1); lia).
  assert (S : Bsign (b_ofZ 1) = false) by reflexivity.
  destruct (is_finite y) eqn:Fy.
  - pose proof (Bmult_correct 24 128 prec24 emax128 mode_NE (b_ofZ 1) y) as H.
    rewrite (proj2 V), Rmult_1_l in H.
    rewrite (round_generic radix2 b32_fexp (round_mode mode_NE) (B2R y)) in H by (apply (generic_format_B2R 24 128)).
    rewrite Rlt_bool_true in H by (apply (abs_B2R_lt_emax 24 128)).
    destruct H as (H1 & H2 & H3). rewrite (proj1 V), Fy in H2. cbn [andb] in H2.
    apply B2R_Bsign_inj; [exact H2|exact Fy|exact H1|].
    change (b_mul (b_ofZ 1) y) with (Bmult mode_NE (b_ofZ 1) y).
    rewrite H3; [rewrite S; apply xorb_false_l|].
    destruct (Bmult mode_NE (b_ofZ 1) y); [reflexivity|reflexivity|discriminate|reflexivity].
  - destruct y as [s|s| |s m e H]; try discriminate; [|apply nan_mul_r]. destruct s; reflexivity.
Qed.

(** For every float, also infinities, NaN and zeros of either sign, and every exponent that is not negative. *)
Theorem C109_same_power : forall (l l' : libm) (x : f32) (n : Z), (0 <= n)%Z ->
  runtime_powi (FO := B32 l) x n = (numtraits_powi (FO := B32 l') x n : f32).
Proof.
  intros l l' x n Hn. destruct n as [|n|n]; [reflexivity| |lia].
  cbn [runtime_powi numtraits_powi]. symmetry.
  etransitivity; [exact (strip_squaring (FO := B32 l') x n one_times)|reflexivity].
Qed.
Print Assumptions C109_same_power.

Lemma runtime3 l (x : f32) : runtime_powi (FO := B32 l) x 3 = b_mul x (b_mul x x).
Proof. change (b_mul (b_mul (b_ofZ 1) x) (b_mul x x) = b_mul x (b_mul x x)). rewrite one_times. reflexivity. Qed.
Lemma runtime4 l (x : f32) : runtime_powi (FO := B32 l) x 4 = b_mul (b_mul x x) (b_mul x x).
Proof. change (b_mul (b_ofZ 1) (b_mul (b_mul x x) (b_mul x x)) = b_mul (b_mul x x) (b_mul x x)). apply one_times. Qed.

Lemma usual3 l x : usual_powi l -> lm_powi l x 3 = b_mul x (b_mul x x).
Proof.
  intros [H|H]; rewrite H; [apply runtime3|]. etransitivity; [symmetry; apply (C109_same_power l l x 3); lia|]. apply runtime3.
Qed.
Lemma usual4 l x : usual_powi l -> lm_powi l x 4 = b_mul (b_mul x x) (b_mul x x).
Proof.
  intros [H|H]; rewrite H; [apply runtime4|]. etransitivity; [symmetry; apply (C109_same_power l l x 4); lia|]. apply runtime4.
Qed.

(** ** They are accurate. *)
Definition lowest := bpow radix2 (-126).

(** Error of a product that is close to a number [X] of the normal range. *)
Lemma product (x y : f32) X d : is_finite x = true -> is_finite y = true ->
  lowest <= Rabs X <= 1267650600228229401496703205376 -> 0 <= d <= / 1000 -> Rabs (B2R x * B2R y - X) <= d * Rabs X ->
  is_finite (b_mul x y) = true /\ Rabs (B2R (b_mul x y) - X) <= (d + u * (1 + d)) * Rabs X.
Proof.
  intros Fx Fy [HX HM] Hd Hxy. set (r := B2R x * B2R y) in *.
  assert (P0 : 0 <= Rabs X) by apply Rabs_pos.
  assert (Br : Rabs r <= (1 + d) * Rabs X).
  { replace r with ((r - X) + X) by ring. eapply Rle_trans; [apply Rabs_triang|]. lra. }
  pose proof (Bmult_correct 24 128 prec24 emax128 mode_NE x y) as H. fold r in H.
  assert (Hov : Rlt_bool (Rabs (RN r)) (bpow radix2 128) = true).
  { apply (round_within r 101); [lia|]. eapply Rle_trans; [exact Br|].
    replace (bpow radix2 101) with 2535301200456458802993406410752 by reflexivity.
    apply Rle_trans with (2 * 1267650600228229401496703205376); [apply Rmult_le_compat; lra|lra]. }
  rewrite Hov in H. destruct H as (H1 & H2 & _).
  rewrite Fx, Fy in H2. split; [exact H2|]. change (b_mul x y) with (Bmult mode_NE x y). rewrite H1.
  assert (E : Rabs (RN r - r) <= u * (1 + d) * Rabs X).
  { destruct (error_N_FLT radix2 (-149) 24 ltac:(lia) (fun z => negb (Z.even z)) r) as (eps & eta & He & Ht & Hp & E).
    change (round radix2 (FLT_exp (-149) 24) (Znearest (fun z : Z => negb (Z.even z))) r) with (RN r) in E.
    rewrite E. replace (r * (1 + eps) + eta - r) with (eps * r + eta) by ring.
    apply Rmult_integral in Hp. destruct Hp as [Z|Z]; rewrite Z.
    - rewrite Rmult_0_l, Rplus_0_l. eapply Rle_trans; [exact Ht|].
      apply Rle_trans with (u * lowest).
      + replace u with (bpow radix2 (-24)) by reflexivity. unfold lowest. rewrite <- bpow_plus.
        replace (/ 2) with (bpow radix2 (-1)) by reflexivity. rewrite <- bpow_plus. apply bpow_le. lia.
      + assert (0 < lowest) by apply bpow_gt_0. apply Rmult_le_compat; lra.
    - rewrite Rplus_0_r, Rabs_mult, (Rmult_assoc u). apply Rmult_le_compat; try apply Rabs_pos; [|exact Br].
      eapply Rle_trans; [exact He|]. replace (bpow radix2 (- (24) + 1)) with (/ 8388608) by reflexivity. lra. }
  replace (RN r - X) with ((RN r - r) + (r - X)) by ring. eapply Rle_trans; [apply Rabs_triang|]. lra.
Qed.

(** A number whose power is in range has its square in range. *)
Lemma from_below a b : 0 <= b -> 0 <= a -> b * b * b <= a * a * a -> b <= a.
Proof.
  intros Hb Ha H. destruct (Rle_lt_dec b a) as [L|L]; [exact L|]. exfalso.
  assert (a * a <= b * b) by (apply Rmult_le_compat; lra).
  assert (a * a * a <= b * b * a) by (apply Rmult_le_compat_r; lra).
  assert (b * b * a < b * b * b) by (apply Rmult_lt_compat_l; [apply Rmult_lt_0_compat; lra|exact L]). lra.
Qed.
Lemma square_order a b : 0 <= b -> 0 <= a -> b * b <= a * a -> b <= a.
Proof.
  intros Hb Ha H. destruct (Rle_lt_dec b a) as [L|L]; [exact L|]. exfalso.
  assert (a * a <= a * b) by (apply Rmult_le_compat_l; lra).
  assert (a * b < b * b) by (apply Rmult_lt_compat_r; lra). lra.
Qed.

(** The square of a float, with its relative error. *)
Lemma square_close (x : f32) : is_finite x = true -> lowest <= B2R x * B2R x <= 1267650600228229401496703205376 ->
  is_finite (b_mul x x) = true /\ exists e, - u <= e <= u /\ B2R (b_mul x x) = B2R x * B2R x * (1 + e).
Proof.
  intros Fx [L U]. set (s := B2R x * B2R x) in *.
  assert (Ps : 0 < s) by (eapply Rlt_le_trans; [apply bpow_gt_0|exact L]).
  destruct (product x x s 0 Fx Fx) as [F E].
  - rewrite Rabs_pos_eq; lra.
  - lra.
  - fold s. rewrite Rminus_diag_eq by reflexivity. rewrite Rabs_R0. lra.
  - split; [exact F|]. rewrite (Rabs_pos_eq s) in E by lra.
    exists ((B2R (b_mul x x) - s) / s). split; [|field; lra].
    assert (G : Rabs ((B2R (b_mul x x) - s) / s) <= u).
    { unfold Rdiv. rewrite Rabs_mult, (Rabs_pos_eq (/ s)) by (left; apply Rinv_0_lt_compat; exact Ps).
      apply Rmult_le_reg_r with s; [exact Ps|]. rewrite Rmult_assoc, Rinv_l by lra. lra. }
    pose proof (Rle_abs ((B2R (b_mul x x) - s) / s)). pose proof (Rle_abs (- ((B2R (b_mul x x) - s) / s))).
    rewrite Rabs_Ropp in *. lra.
Qed.

Lemma scaled_error X e d : - d <= e <= d -> Rabs (X * (1 + e) - X) <= d * Rabs X.
Proof.
  intros He. replace (X * (1 + e) - X) with (e * X) by ring. rewrite Rabs_mult.
  apply Rmult_le_compat_r; [apply Rabs_pos|]. apply Rabs_le. exact He.
Qed.

Lemma cube_accurate (x : f32) : is_finite x = true ->
  lowest <= Rabs (B2R x ^ 3) <= 1267650600228229401496703205376 ->
  is_finite (b_mul x (b_mul x x)) = true /\
  Rabs (B2R (b_mul x (b_mul x x)) - B2R x ^ 3) <= / 4194304 * Rabs (B2R x ^ 3).
Proof.
  intros Fx HX. set (v := B2R x) in *. set (a := Rabs v).
  assert (Pa : 0 <= a) by apply Rabs_pos.
  assert (Ea : Rabs (v ^ 3) = a * a * a) by (rewrite <- RPow_abs; fold a; ring).
  assert (Es : v * v = a * a) by (unfold a; rewrite <- Rabs_mult, Rabs_pos_eq by (apply Rle_0_sqr); reflexivity).
  assert (U1 : a <= 17179869184) by (apply from_below; [exact Pa|lra|rewrite <- Ea; lra]).
  assert (P42 : 0 < bpow radix2 (-42)) by apply bpow_gt_0.
  assert (L1 : bpow radix2 (-42) <= a).
  { apply from_below; [lra|exact Pa|]. rewrite <- Ea. rewrite <- !bpow_plus. apply HX. }
  destruct (square_close x Fx) as [Fs (e & He & Ev)].
  { fold v. rewrite Es. split.
    - apply Rle_trans with (bpow radix2 (-42) * bpow radix2 (-42)); [|apply Rmult_le_compat; lra].
      rewrite <- bpow_plus. apply bpow_le. lia.
    - apply Rle_trans with (17179869184 * 17179869184); [apply Rmult_le_compat; lra|lra]. }
  fold v in Ev.
  destruct (product x (b_mul x x) (v ^ 3) u Fx Fs HX) as [F E].
  - lra.
  - fold v. rewrite Ev. replace (v * (v * v * (1 + e))) with (v ^ 3 * (1 + e)) by ring. apply scaled_error. exact He.
  - split; [exact F|]. eapply Rle_trans; [exact E|]. apply Rmult_le_compat_r; [apply Rabs_pos|]. lra.
Qed.

Lemma fourth_accurate (x : f32) : is_finite x = true ->
  lowest <= Rabs (B2R x ^ 4) <= 1267650600228229401496703205376 ->
  is_finite (b_mul (b_mul x x) (b_mul x x)) = true /\
  Rabs (B2R (b_mul (b_mul x x) (b_mul x x)) - B2R x ^ 4) <= / 4194304 * Rabs (B2R x ^ 4).
Proof.
  intros Fx HX. set (v := B2R x) in *. set (s := v * v).
  assert (Ps : 0 <= s) by (apply Rle_0_sqr).
  assert (Ea : Rabs (v ^ 4) = s * s) by (replace (v ^ 4) with (s * s) by (unfold s; ring); apply Rabs_pos_eq; apply Rle_0_sqr).
  assert (P63 : 0 < bpow radix2 (-63)) by apply bpow_gt_0.
  assert (U1 : s <= 1125899906842624) by (apply square_order; [exact Ps|lra|rewrite <- Ea; lra]).
  assert (L1 : bpow radix2 (-63) <= s).
  { apply square_order; [lra|exact Ps|]. rewrite <- Ea, <- !bpow_plus. apply HX. }
  destruct (square_close x Fx) as [Fs (e & He & Ev)].
  { fold v s. split; [|lra]. eapply Rle_trans; [|exact L1]. apply bpow_le. lia. }
  fold v s in Ev.
  destruct (product (b_mul x x) (b_mul x x) (v ^ 4) (2 * u + u * u) Fs Fs HX) as [F E].
  - lra.
  - rewrite Ev. replace (s * (1 + e) * (s * (1 + e))) with (v ^ 4 * (1 + (2 * e + e * e))) by (unfold s; ring).
    apply scaled_error. assert (0 <= e * e <= u * u) by (split; [apply Rle_0_sqr|]; nra). lra.
  - split; [exact F|]. eapply Rle_trans; [exact E|]. apply Rmult_le_compat_r; [apply Rabs_pos|]. lra.
Qed.

(** ** What is assumed of the library elsewhere *)
(** The fourth root has a relative error of at most 2^-22. *)
Definition accurate_root (l : libm) : Prop :=
  forall x : f32, is_finite x = true -> 0 < B2R x ->
    is_finite (root l x) = true /\ Rabs (B2R (root l x) - Rpower (B2R x) (1 / 4)) <= / 4194304 * Rpower (B2R x) (1 / 4).

(** C72-C75, C99, C108 assume accurate powers: only the root matters. *)
Theorem C109_accurate : forall l, usual_powi l -> accurate_root l -> accurate_powers l.
Proof.
  intros l Hu Hr. constructor; [|exact Hr].
  intros x n Fx Hn HX. replace (bpow radix2 100) with 1267650600228229401496703205376 in HX by reflexivity.
  destruct Hn as [-> | ->].
  - rewrite (usual3 l x Hu). exact (cube_accurate x Fx HX).
  - rewrite (usual4 l x Hu). exact (fourth_accurate x Fx HX).
Qed.
Print Assumptions C109_accurate.

(** C97 assumes that cubes keep their sign: so they do. *)
Theorem C109_orderly : forall l, usual_powi l ->
  (forall x : f32, is_finite (root l x) = true -> is_finite x = true /\ 0 <= B2R x) ->
  (forall x y : f32, is_finite (root l x) = true -> is_finite (root l y) = true -> B2R x <= B2R y -> B2R (root l x) <= B2R (root l y)) ->
  orderly l.
Proof.
  intros l Hu Hd Hm. constructor; [|exact Hd|exact Hm].
  intros x Hx. rewrite (usual3 l x Hu). apply mul_nonneg; [exact Hx|]. apply mul_nonneg; exact Hx.
Qed.
Print Assumptions C109_orderly.

(** C101 assumes that powers of infinities and NaN are not numbers. *)
Theorem C109_non_numbers : forall l, usual_powi l ->
  (forall x : f32, is_finite (root l x) = true -> is_finite x = true) -> keeps_non_numbers l.
Proof.
  intros l Hu Hr. constructor; [exact Hr|].
  intros x H. rewrite (usual4 l x Hu) in H. apply b_mul_fin in H. destruct H as [H _]. apply b_mul_fin in H. apply H.
Qed.
Print Assumptions C109_non_numbers.

(** C95 compares two builds: they have the same powers if they have the same fourth roots. *)
Theorem C109_builds : forall l l', usual_powi l -> usual_powi l' -> (forall x, lm_powf l' x quarter = lm_powf l x quarter) ->
  same_powers l l'.
Proof.
  intros l l' Hu Hu' H. split; [|split; [|exact H]]; intros x.
  - rewrite (usual3 l x Hu), (usual3 l' x Hu'). reflexivity.
  - rewrite (usual4 l x Hu), (usual4 l' x Hu'). reflexivity.
Qed.
Print Assumptions C109_builds.

(** Two programs, one of either build, on the same camera: as long as their fourth roots are the same, nobody can tell
    them apart; the same transfers, the same results and bit for bit the same images, temperatures included. *)
Theorem C109_programs : forall l l', usual_powi l -> usual_powi l' -> (forall x, lm_powf l' x quarter = lm_powf l x quarter) ->
  forall p B ER EW (bs : bus B ER EW) (ops : list (op (FO := B32 l)))
    (d : driver (FO := B32 l) (B := B) (ER := ER) (EW := EW)) (d' : driver (FO := B32 l')), same_driver l l' d d' ->
  Forall2 (fun x y => fst y = bind (fst x) (fun v => Ok (same_value l l' v)) /\ snd y = snd x :> list f32)
    (outcomes p bs d ops) (outcomes p bs d' (map (same_call l l') ops)) /\
  same_driver l l' (run p bs d ops) (run p bs d' (map (same_call l l') ops)).
Proof.
  intros l l' Hu Hu' H p B ER EW bs ops d d' Hd.
  destruct (C95_calls l l' p bs ops d d' Hd) as (H1 & H2 & H3). split; [|exact H3]. clear H3 Hd.
  pose proof (C109_builds l l' Hu Hu' H) as Hp.
  set (a := outcomes p bs d ops) in *. clearbody a. set (a' := outcomes p bs d' (map (same_call l l') ops)) in *. clearbody a'.
  revert a a' H1 H2. induction ops as [|o ops IH]; intros a a' H1 H2.
  - destruct a; [|discriminate]. inversion H1. constructor.
  - destruct a as [|x a]; [discriminate|]. cbn [combine] in H1. inversion H1 as [|x0 y l0 a2 H3 H4]; subst. constructor.
    + cbn [fst snd] in H3. destruct H3 as (F1 & _ & F3 & F4). split; [exact F1|].
      destruct o; first [apply F4; exact (fun n => n)|apply F3; [exact I|exact Hp]].
    + apply IH; [exact H4|]. cbn [length] in H2. lia.
Qed.
Print Assumptions C109_programs.

(** ** Concrete libraries: the correctly rounded fourth root with either routine *)
Definition build (by_runtime : bool) : libm := {|
  lm_exp2 := lm_exp2 rounding_lib;
  lm_powi := if by_runtime then runtime_powi (FO := B32 rounding_lib) else numtraits_powi (FO := B32 rounding_lib);
  lm_powf := lm_powf rounding_lib
|}.

Theorem C109_concrete : forall b, usual_powi (build b) /\ accurate_root (build b) /\ accurate_powers (build b) /\
  same_powers (build b) (build (negb b)).
Proof.
  assert (Hu : forall b, usual_powi (build b)) by (intros []; [left|right]; intros x n; destruct n; reflexivity).
  intros b. assert (Hr : accurate_root (build b)) by exact (ap_root rounding_lib C74_library).
  split; [apply Hu|]. split; [exact Hr|]. split; [apply C109_accurate; [apply Hu|exact Hr]|].
  apply C109_builds; [apply Hu|apply Hu|reflexivity].
Qed.

(** The fourth power of 298.15, an infinity, and a negative exponent (where the two routines may differ). *)
Definition powi_checks : bool :=
  let x := b_div (b_ofZ 5963) (b_ofZ 20) in
  let F := B32 (build true) in
  match numtraits_powi (FO := F) x 4 with
  | B754_finite false m e _ => (m =? 15433673)%positive && (e =? 9)%Z
  | _ => false
  end &&
  b_eqb (runtime_powi (FO := F) x 4) (numtraits_powi (FO := F) x 4) &&
  b_eqb (runtime_powi (FO := F) x 13) (numtraits_powi (FO := F) x 13) &&
  b_eqb (runtime_powi (FO := F) (B754_infinity true) 3) (B754_infinity true) &&
  b_eqb (runtime_powi (FO := F) (b_ofZ 2) (-3)) (b_div (b_ofZ 1) (b_ofZ 8)) &&
  negb (b_eqb (runtime_powi (FO := F) (b_ofZ 3) (-5)) (numtraits_powi (FO := F) (b_ofZ 3) (-5))).
Example C109_checks : powi_checks = true.
Proof. vm_compute. reflexivity. Qed.
