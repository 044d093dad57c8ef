(** * BoundFacts: magnitudes of binary32 results; no overflow, no invalid operation. *)
From Verif Require Import Base FloatOps B32 B32Facts SpecFinite.
From Coq Require Import Reals Lra.
From Flocq Require Import Core BinarySingleNaN.
Open Scope Z_scope.

Lemma within_weaken x e e' : within x e -> e <= e' -> within x e'.
Proof. intros [F H] He. split; [exact F|]. eapply Rle_trans; [exact H|]. apply bpow_le. exact He. Qed.

Lemma within_val x r e : is_val x r -> (Rabs r <= bpow radix2 e)%R -> within x e.
Proof. intros [F <-] H. split; assumption. Qed.

Lemma round_within r e : -149 <= e <= 127 -> (Rabs r <= bpow radix2 e)%R ->
  (Rabs (RN r) <= bpow radix2 e)%R /\ Rlt_bool (Rabs (RN r)) (bpow radix2 128) = true.
Proof.
  intros He H.
  assert (L : (Rabs (RN r) <= bpow radix2 e)%R).
  { apply abs_round_le_generic; [apply fexp_correct; exact prec24|apply valid_rnd_round_mode|apply bpow_format; lia|exact H]. }
  split; [exact L|]. apply Rlt_bool_true. eapply Rle_lt_trans; [exact L|]. apply bpow_lt. lia.
Qed.

Lemma within_ofZ z e : Z.abs z <= 2 ^ e -> 0 <= e <= 24 -> within (b_ofZ z) e.
Proof.
  intros H He. assert (2 ^ e <= 2 ^ 24) by (apply Z.pow_le_mono_r; lia).
  apply (within_val _ (IZR z)); [apply b_ofZ_correct; lia|].
  rewrite <- abs_IZR, <- IZR_Zpower by lia. apply IZR_le. exact H.
Qed.

Lemma within_mul x y a b : within x a -> within y b -> -149 <= a + b <= 127 -> within (b_mul x y) (a + b).
Proof.
  intros [Fx Hx] [Fy Hy] He.
  pose proof (Bmult_correct 24 128 _ _ mode_NE x y) as H.
  destruct (round_within (B2R x * B2R y) (a + b) He) as [L G].
  { rewrite Rabs_mult, bpow_plus. apply Rmult_le_compat; try apply Rabs_pos; assumption. }
  rewrite G in H. destruct H as (H1 & H2 & _). rewrite Fx, Fy in H2. split; [exact H2|].
  unfold b_mul. rewrite H1. exact L.
Qed.

Lemma bpow_double e : (bpow radix2 (e + 1) = bpow radix2 e + bpow radix2 e)%R.
Proof. rewrite bpow_plus. change (bpow radix2 1) with 2%R. ring. Qed.

Lemma within_add x y e : within x e -> within y e -> -149 <= e + 1 <= 127 -> within (b_add x y) (e + 1).
Proof.
  intros [Fx Hx] [Fy Hy] He.
  pose proof (Bplus_correct 24 128 _ _ mode_NE x y Fx Fy) as H.
  destruct (round_within (B2R x + B2R y) (e + 1) He) as [L G].
  { rewrite bpow_double. eapply Rle_trans; [apply Rabs_triang|]. apply Rplus_le_compat; assumption. }
  rewrite G in H. destruct H as (H1 & H2 & _). split; [exact H2|].
  unfold b_add. rewrite H1. exact L.
Qed.

Lemma within_sub x y e : within x e -> within y e -> -149 <= e + 1 <= 127 -> within (b_sub x y) (e + 1).
Proof.
  intros [Fx Hx] [Fy Hy] He.
  pose proof (Bminus_correct 24 128 _ _ mode_NE x y Fx Fy) as H.
  destruct (round_within (B2R x - B2R y) (e + 1) He) as [L G].
  { rewrite bpow_double. unfold Rminus. eapply Rle_trans; [apply Rabs_triang|]. rewrite Rabs_Ropp.
    apply Rplus_le_compat; assumption. }
  rewrite G in H. destruct H as (H1 & H2 & _). split; [exact H2|].
  unfold b_sub. rewrite H1. exact L.
Qed.

Lemma within_div x y a b : within x a -> is_finite y = true -> (bpow radix2 b <= Rabs (B2R y))%R ->
  -149 <= a - b <= 127 -> within (b_div x y) (a - b).
Proof.
  intros [Fx Hx] Fy Hy He. assert (P : (0 < Rabs (B2R y))%R) by (eapply Rlt_le_trans; [apply bpow_gt_0|exact Hy]).
  assert (N : (B2R y <> 0)%R) by (intros E; rewrite E, Rabs_R0 in P; lra).
  pose proof (Bdiv_correct 24 128 _ _ mode_NE x y N) as H.
  destruct (round_within (B2R x / B2R y) (a - b) He) as [L G].
  { unfold Rdiv. rewrite Rabs_mult, Rabs_inv. unfold Z.sub. rewrite bpow_plus, bpow_opp.
    apply Rmult_le_compat; [apply Rabs_pos|apply Rlt_le, Rinv_0_lt_compat; exact P|exact Hx|].
    apply Rinv_le; [apply bpow_gt_0|exact Hy]. }
  rewrite G in H. destruct H as (H1 & H2 & _). rewrite Fx in H2. split; [exact H2|].
  unfold b_div. rewrite H1. exact L.
Qed.

(** ** NaN is absorbing *)
Lemma nan_add_l x : b_add B754_nan x = B754_nan. Proof. destruct x; reflexivity. Qed.
Lemma nan_add_r x : b_add x B754_nan = B754_nan. Proof. destruct x; reflexivity. Qed.
Lemma nan_sub_l x : b_sub B754_nan x = B754_nan. Proof. destruct x; reflexivity. Qed.
Lemma nan_sub_r x : b_sub x B754_nan = B754_nan. Proof. destruct x; reflexivity. Qed.
Lemma nan_mul_l x : b_mul B754_nan x = B754_nan. Proof. destruct x; reflexivity. Qed.
Lemma nan_mul_r x : b_mul x B754_nan = B754_nan. Proof. destruct x; reflexivity. Qed.
Lemma nan_div_l x : b_div B754_nan x = B754_nan. Proof. destruct x; reflexivity. Qed.
Lemma nan_div_r x : b_div x B754_nan = B754_nan. Proof. destruct x; reflexivity. Qed.

Lemma ofZ_0 : b_ofZ 0 = B754_zero false.
Proof. reflexivity. Qed.

(** 0 / (0 * x + 0) is not a number, whatever x is. *)
Lemma zero_over_zero x : b_div (b_ofZ 0) (b_add (b_mul (b_ofZ 0) x) (b_ofZ 0)) = B754_nan.
Proof. rewrite ofZ_0. destruct x as [[]|[]| |[] m e H]; reflexivity. Qed.
