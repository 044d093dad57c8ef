(** * AccuracyFacts: rounding errors of binary32 operations. *)
From Verif Require Import Base FloatOps B32 B32Facts BoundFacts.
From Coq Require Import Reals Lra.
From Flocq Require Import Core BinarySingleNaN Relative.
Open Scope R_scope.

(** The float [x] is a number within [e] of the real [r]. *)
Definition near (x : f32) (r e : R) : Prop := is_finite x = true /\ Rabs (B2R x - r) <= e.

(** Half an ulp, and an upper bound of the error in the subnormal range. *)
Notation u := (/ 16777216)%R.
Notation tiny := (/ 1152921504606846976)%R.

Lemma RN_error r : Rabs (RN r - r) <= u * Rabs r + tiny.
Proof.
  destruct (error_N_FLT radix2 (-149) 24 ltac:(lia) (fun z => negb (Z.even z)) r) as (eps & eta & He & Ht & _ & E).
  change (round radix2 (FLT_exp (-149) 24) (Znearest (fun z : Z => negb (Z.even z))) r) with (RN r) in E.
  rewrite E. replace (r * (1 + eps) + eta - r) with (eps * r + eta) by ring.
  eapply Rle_trans; [apply Rabs_triang|]. rewrite Rabs_mult.
  apply Rplus_le_compat.
  - apply Rmult_le_compat_r; [apply Rabs_pos|]. eapply Rle_trans; [exact He|].
    replace (bpow radix2 (- (24) + 1)) with (/ 8388608) by reflexivity. lra.
  - eapply Rle_trans; [exact Ht|].
    apply Rle_trans with (bpow radix2 (-60)); [|apply Req_le; reflexivity].
    apply Rle_trans with (1 * bpow radix2 (-149)); [apply Rmult_le_compat_r; [apply bpow_ge_0|lra]|].
    rewrite Rmult_1_l. apply bpow_le. lia.
Qed.

(** No overflow below 2^100. *)
Lemma RN_small r : Rabs r <= 1267650600228229401496703205376 ->
  Rlt_bool (Rabs (RN r)) (bpow radix2 128) = true.
Proof.
  intros H. apply (round_within r 100); [lia|]. exact H.
Qed.

Lemma near_rounded x t r e M e' : B2R x = RN t -> is_finite x = true -> Rabs (t - r) <= e -> Rabs r <= M ->
  e + u * (M + e) + tiny <= e' -> near x r e'.
Proof.
  intros E F H HM He. split; [exact F|]. rewrite E.
  pose proof (RN_error t) as R. 
  assert (Ht : Rabs t <= M + e).
  { replace t with (r + (t - r)) by ring. eapply Rle_trans; [apply Rabs_triang|]. lra. }
  replace (RN t - r) with ((RN t - t) + (t - r)) by ring.
  eapply Rle_trans; [apply Rabs_triang|].
  assert (u * Rabs t <= u * (M + e)) by (apply Rmult_le_compat_l; lra). lra.
Qed.

Lemma small_near t r e M : Rabs (t - r) <= e -> Rabs r <= M -> M + e <= 1267650600228229401496703205376 ->
  Rabs t <= 1267650600228229401496703205376.
Proof.
  intros H HM L. replace t with (r + (t - r)) by ring. eapply Rle_trans; [apply Rabs_triang|]. lra.
Qed.

Lemma near_val x r : is_val x r -> near x r 0.
Proof. intros [F E]. split; [exact F|]. rewrite E, Rminus_diag_eq by reflexivity. rewrite Rabs_R0. lra. Qed.

Lemma near_weaken x r e e' : near x r e -> e <= e' -> near x r e'.
Proof. intros [F H] L. split; [exact F|lra]. Qed.

Lemma near_add x y a b e1 e2 M e' : near x a e1 -> near y b e2 -> Rabs (a + b) <= M ->
  M + (e1 + e2) <= 1267650600228229401496703205376 ->
  (e1 + e2) + u * (M + (e1 + e2)) + tiny <= e' -> near (b_add x y) (a + b) e'.
Proof.
  intros [Fx Hx] [Fy Hy] HM L He.
  assert (D : Rabs (B2R x + B2R y - (a + b)) <= e1 + e2).
  { replace (B2R x + B2R y - (a + b)) with ((B2R x - a) + (B2R y - b)) by ring.
    eapply Rle_trans; [apply Rabs_triang|]. lra. }
  pose proof (Bplus_correct 24 128 _ _ mode_NE x y Fx Fy) as H.
  rewrite RN_small in H by (eapply small_near; eassumption). destruct H as (H1 & H2 & _).
  eapply near_rounded; [exact H1|exact H2|exact D|exact HM|exact He].
Qed.

Lemma near_sub x y a b e1 e2 M e' : near x a e1 -> near y b e2 -> Rabs (a - b) <= M ->
  M + (e1 + e2) <= 1267650600228229401496703205376 ->
  (e1 + e2) + u * (M + (e1 + e2)) + tiny <= e' -> near (b_sub x y) (a - b) e'.
Proof.
  intros [Fx Hx] [Fy Hy] HM L He.
  assert (D : Rabs (B2R x - B2R y - (a - b)) <= e1 + e2).
  { replace (B2R x - B2R y - (a - b)) with ((B2R x - a) + - (B2R y - b)) by ring.
    eapply Rle_trans; [apply Rabs_triang|]. rewrite Rabs_Ropp. lra. }
  pose proof (Bminus_correct 24 128 _ _ mode_NE x y Fx Fy) as H.
  rewrite RN_small in H by (eapply small_near; eassumption). destruct H as (H1 & H2 & _).
  eapply near_rounded; [exact H1|exact H2|exact D|exact HM|exact He].
Qed.

(** [e]: error of the product before rounding. *)
Lemma near_mul_at x y a b e M e' : is_finite x = true -> is_finite y = true ->
  Rabs (B2R x * B2R y - a * b) <= e -> Rabs (a * b) <= M ->
  M + e <= 1267650600228229401496703205376 ->
  e + u * (M + e) + tiny <= e' -> near (b_mul x y) (a * b) e'.
Proof.
  intros Fx Fy D HM L He.
  pose proof (Bmult_correct 24 128 _ _ mode_NE x y) as H.
  rewrite RN_small in H by (eapply small_near; eassumption). destruct H as (H1 & H2 & _).
  rewrite Fx, Fy in H2.
  eapply near_rounded; [exact H1|exact H2|exact D|exact HM|exact He].
Qed.

Lemma product_error x y a b e1 e2 A B : Rabs (x - a) <= e1 -> Rabs (y - b) <= e2 -> Rabs a <= A -> Rabs b <= B ->
  Rabs (x * y - a * b) <= A * e2 + B * e1 + e1 * e2.
Proof.
  intros Hx Hy Ha Hb.
  replace (x * y - a * b) with (a * (y - b) + b * (x - a) + (x - a) * (y - b)) by ring.
  pose proof (Rabs_pos (x - a)). pose proof (Rabs_pos (y - b)). pose proof (Rabs_pos a). pose proof (Rabs_pos b).
  eapply Rle_trans; [apply Rabs_triang|]. apply Rplus_le_compat.
  - eapply Rle_trans; [apply Rabs_triang|]. rewrite !Rabs_mult.
    apply Rplus_le_compat; apply Rmult_le_compat; assumption.
  - rewrite Rabs_mult. apply Rmult_le_compat; assumption.
Qed.

Lemma near_mul x y a b e1 e2 A B M e' : near x a e1 -> near y b e2 -> Rabs a <= A -> Rabs b <= B ->
  Rabs (a * b) <= M -> M + (A * e2 + B * e1 + e1 * e2) <= 1267650600228229401496703205376 ->
  (A * e2 + B * e1 + e1 * e2) + u * (M + (A * e2 + B * e1 + e1 * e2)) + tiny <= e' -> near (b_mul x y) (a * b) e'.
Proof.
  intros [Fx Hx] [Fy Hy] Ha Hb HM L He.
  eapply near_mul_at; [exact Fx|exact Fy| |exact HM|exact L|exact He].
  apply product_error; assumption.
Qed.

(** [q]: error of the quotient before rounding. *)
Lemma near_div x y a b e1 e2 Q L q e' : near x a e1 -> near y b e2 -> L <= Rabs b -> e2 < L ->
  Rabs (a / b) <= Q -> e1 + Q * e2 <= q * (L - e2) -> 0 <= q ->
  Q + q <= 1267650600228229401496703205376 ->
  q + u * (Q + q) + tiny <= e' -> near (b_div x y) (a / b) e'.
Proof.
  intros [Fx Hx] [Fy Hy] HL Hlt HQ Hq Pq HB He.
  assert (Pe1 : 0 <= e1) by (eapply Rle_trans; [apply Rabs_pos|exact Hx]).
  assert (Pe2 : 0 <= e2) by (eapply Rle_trans; [apply Rabs_pos|exact Hy]).
  assert (Hb : b <> 0) by (intros ->; rewrite Rabs_R0 in HL; lra).
  assert (Ly : L - e2 <= Rabs (B2R y)).
  { assert (Rabs b <= Rabs (B2R y) + e2); [|lra].
    replace b with (B2R y + - (B2R y - b)) at 1 by ring.
    eapply Rle_trans; [apply Rabs_triang|]. rewrite Rabs_Ropp. lra. }
  assert (Hy0 : B2R y <> 0) by (intros E; rewrite E, Rabs_R0 in Ly; lra).
  assert (D : Rabs (B2R x / B2R y - a / b) <= q).
  { replace (B2R x / B2R y - a / b) with (((B2R x - a) + (a / b) * - (B2R y - b)) / B2R y) by (field; split; assumption).
    unfold Rdiv at 1. rewrite Rabs_mult, Rabs_inv.
    apply Rmult_le_reg_r with (Rabs (B2R y)); [lra|]. rewrite Rmult_assoc, Rinv_l, Rmult_1_r by lra.
    eapply Rle_trans; [apply Rabs_triang|]. rewrite Rabs_mult, Rabs_Ropp.
    assert (Rabs (a / b) * Rabs (B2R y - b) <= Q * e2) by (apply Rmult_le_compat; try apply Rabs_pos; assumption).
    assert (q * (L - e2) <= q * Rabs (B2R y)) by (apply Rmult_le_compat_l; lra). lra. }
  pose proof (Bdiv_correct 24 128 _ _ mode_NE x y Hy0) as H.
  rewrite RN_small in H by (eapply small_near; eassumption). destruct H as (H1 & H2 & _).
  rewrite Fx in H2.
  eapply near_rounded; [exact H1|exact H2|exact D|exact HQ|exact He].
Qed.
