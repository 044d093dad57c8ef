(** * ObjectFacts: rounding errors of the object temperature. *)
From Verif Require Import Base FloatOps B32 B32Facts BoundFacts AccuracyFacts RealFacts RealOps SpecAccuracy SpecTemperature.
From Coq Require Import Reals Lra Psatz.
From Flocq Require Import Core BinarySingleNaN Relative.
Open Scope R_scope.

(** Numbers of size [S]: the float [x] is within [e * S] of [r * S]. *)
Definition snear (x : f32) (S r e : R) : Prop := is_finite x = true /\ Rabs (B2R x - r * S) <= e * S.
Notation weak := (/ 1099511627776)%R.

Lemma RN_error_fine r : Rabs (RN r - r) <= u * Rabs r + bpow radix2 (-149).
Proof.
  destruct (error_N_FLT radix2 (-149) 24 ltac:(lia) (fun z => negb (Z.even z)) r) as (eps & eta & He & Ht & _ & E).
  change (round radix2 (FLT_exp (-149) 24) (Znearest (fun z : Z => negb (Z.even z))) r) with (RN r) in E.
  rewrite E. replace (r * (1 + eps) + eta - r) with (eps * r + eta) by ring.
  eapply Rle_trans; [apply Rabs_triang|]. rewrite Rabs_mult.
  apply Rplus_le_compat.
  - apply Rmult_le_compat_r; [apply Rabs_pos|]. eapply Rle_trans; [exact He|].
    replace (bpow radix2 (- (24) + 1)) with (/ 8388608) by reflexivity. lra.
  - eapply Rle_trans; [exact Ht|].
    rewrite <- (Rmult_1_l (bpow radix2 (-149))) at 2. apply Rmult_le_compat_r; [apply bpow_ge_0|lra].
Qed.

(** Scales large enough for [weak] to absorb the error of subnormal results. *)
Definition scale (S : R) : Prop := bpow radix2 (-109) <= S <= 1.
Lemma scale_pos S : scale S -> 0 < S.
Proof. intros [H _]. eapply Rlt_le_trans; [apply bpow_gt_0|exact H]. Qed.
Lemma scale_weak S : scale S -> bpow radix2 (-149) <= weak * S.
Proof.
  intros [H _]. replace (-149)%Z with (-40 + -109)%Z by reflexivity. rewrite bpow_plus.
  replace (bpow radix2 (-40)) with weak by reflexivity. apply Rmult_le_compat_l; [lra|exact H].
Qed.

Lemma near_snear x r e : near x r e <-> snear x 1 r e.
Proof. unfold near, snear. rewrite !Rmult_1_r. reflexivity. Qed.
Lemma snear_weaken x S r e e' : snear x S r e -> 0 < S -> e <= e' -> snear x S r e'.
Proof. intros [F H] P L. split; [exact F|]. eapply Rle_trans; [exact H|]. apply Rmult_le_compat_r; lra. Qed.

Lemma snear_rounded x t S r e M e' : scale S -> B2R x = RN t -> is_finite x = true ->
  Rabs (t - r * S) <= e * S -> Rabs r <= M ->
  e + u * (M + e) + weak <= e' -> snear x S r e'.
Proof.
  intros HS E F H HM He. split; [exact F|]. rewrite E.
  pose proof (scale_pos S HS) as P. pose proof (scale_weak S HS) as Wk.
  pose proof (RN_error_fine t) as R.
  assert (Ht : Rabs t <= (M + e) * S).
  { replace t with (r * S + (t - r * S)) by ring. eapply Rle_trans; [apply Rabs_triang|].
    rewrite Rabs_mult, (Rabs_pos_eq S) by lra.
    pose proof (Rmult_le_compat_r S _ _ ltac:(lra) HM). lra. }
  replace (RN t - r * S) with ((RN t - t) + (t - r * S)) by ring.
  eapply Rle_trans; [apply Rabs_triang|].
  assert (u * Rabs t <= u * ((M + e) * S)) by (apply Rmult_le_compat_l; lra).
  assert ((e + u * (M + e) + weak) * S <= e' * S) by (apply Rmult_le_compat_r; lra).
  lra.
Qed.

Lemma small_snear t S r e M : scale S -> Rabs (t - r * S) <= e * S -> Rabs r <= M ->
  M + e <= 1267650600228229401496703205376 -> Rabs t <= 1267650600228229401496703205376.
Proof.
  intros HS H HM L. pose proof (scale_pos S HS) as P. destruct HS as [_ HS].
  replace t with (r * S + (t - r * S)) by ring. eapply Rle_trans; [apply Rabs_triang|].
  rewrite Rabs_mult, (Rabs_pos_eq S) by lra.
  pose proof (Rmult_le_compat_r S _ _ ltac:(lra) HM).
  assert (0 <= M + e).
  { apply Rmult_le_reg_r with S; [exact P|]. pose proof (Rabs_pos (t - r * S)). pose proof (Rabs_pos r).
    pose proof (Rmult_le_compat_r S _ _ ltac:(lra) (Rabs_pos r)). lra. }
  assert ((M + e) * S <= (M + e) * 1) by (apply Rmult_le_compat_l; lra). lra.
Qed.

Lemma snear_add x y S a b e1 e2 M e' : scale S -> snear x S a e1 -> snear y S b e2 -> Rabs (a + b) <= M ->
  M + (e1 + e2) <= 1267650600228229401496703205376 ->
  (e1 + e2) + u * (M + (e1 + e2)) + weak <= e' -> snear (b_add x y) S (a + b) e'.
Proof.
  intros HS [Fx Hx] [Fy Hy] HM L He.
  assert (D : Rabs (B2R x + B2R y - (a + b) * S) <= (e1 + e2) * S).
  { replace (B2R x + B2R y - (a + b) * S) with ((B2R x - a * S) + (B2R y - b * S)) by ring.
    eapply Rle_trans; [apply Rabs_triang|]. lra. }
  pose proof (Bplus_correct 24 128 _ _ mode_NE x y Fx Fy) as H.
  rewrite RN_small in H by (eapply small_snear; eassumption). destruct H as (H1 & H2 & _).
  eapply snear_rounded; [exact HS|exact H1|exact H2|exact D|exact HM|exact He].
Qed.

Lemma snear_sub x y S a b e1 e2 M e' : scale S -> snear x S a e1 -> snear y S b e2 -> Rabs (a - b) <= M ->
  M + (e1 + e2) <= 1267650600228229401496703205376 ->
  (e1 + e2) + u * (M + (e1 + e2)) + weak <= e' -> snear (b_sub x y) S (a - b) e'.
Proof.
  intros HS [Fx Hx] [Fy Hy] HM L He.
  assert (D : Rabs (B2R x - B2R y - (a - b) * S) <= (e1 + e2) * S).
  { replace (B2R x - B2R y - (a - b) * S) with ((B2R x - a * S) + - (B2R y - b * S)) by ring.
    eapply Rle_trans; [apply Rabs_triang|]. rewrite Rabs_Ropp. lra. }
  pose proof (Bminus_correct 24 128 _ _ mode_NE x y Fx Fy) as H.
  rewrite RN_small in H by (eapply small_snear; eassumption). destruct H as (H1 & H2 & _).
  eapply snear_rounded; [exact HS|exact H1|exact H2|exact D|exact HM|exact He].
Qed.

Lemma snear_mul x y S T a b e1 e2 A B M e' : scale (S * T) -> 0 < S -> 0 < T ->
  snear x S a e1 -> snear y T b e2 -> Rabs a <= A -> Rabs b <= B ->
  Rabs (a * b) <= M -> M + (A * e2 + B * e1 + e1 * e2) <= 1267650600228229401496703205376 ->
  (A * e2 + B * e1 + e1 * e2) + u * (M + (A * e2 + B * e1 + e1 * e2)) + weak <= e' ->
  snear (b_mul x y) (S * T) (a * b) e'.
Proof.
  intros HST PS PT [Fx Hx] [Fy Hy] Ha Hb HM L He.
  assert (D : Rabs (B2R x * B2R y - (a * b) * (S * T)) <= (A * e2 + B * e1 + e1 * e2) * (S * T)).
  { replace (a * b * (S * T)) with ((a * S) * (b * T)) by ring.
    eapply Rle_trans; [apply (product_error _ _ _ _ (e1 * S) (e2 * T) (A * S) (B * T)); try assumption|].
    - rewrite Rabs_mult, (Rabs_pos_eq S) by lra. apply Rmult_le_compat_r; lra.
    - rewrite Rabs_mult, (Rabs_pos_eq T) by lra. apply Rmult_le_compat_r; lra.
    - apply Req_le. ring. }
  pose proof (Bmult_correct 24 128 _ _ mode_NE x y) as H.
  rewrite RN_small in H by (eapply small_snear; eassumption). destruct H as (H1 & H2 & _).
  rewrite Fx, Fy in H2.
  eapply snear_rounded; [exact HST|exact H1|exact H2|exact D|exact HM|exact He].
Qed.

(** Quotient of two numbers of the same size. *)
Lemma snear_div x y S a b e1 e2 Q L q e' : 0 < S -> snear x S a e1 -> snear y S b e2 -> L <= Rabs b -> e2 < L ->
  Rabs (a / b) <= Q -> e1 + Q * e2 <= q * (L - e2) -> 0 <= q ->
  Q + q <= 1267650600228229401496703205376 ->
  q + u * (Q + q) + tiny <= e' -> near (b_div x y) (a / b) e'.
Proof.
  intros PS [Fx Hx] [Fy Hy] HL Hlt HQ Hq Pq HB He.
  assert (Pos : forall z, 0 <= z * S -> 0 <= z).
  { intros z Hz. apply Rmult_le_reg_r with S; [exact PS|]. lra. }
  assert (Pe2 : 0 <= e2) by (apply Pos; eapply Rle_trans; [apply Rabs_pos|exact Hy]).
  set (X := B2R x / S). set (Y := B2R y / S).
  assert (EX : B2R x = X * S) by (unfold X; field; lra). assert (EY : B2R y = Y * S) by (unfold Y; field; lra).
  assert (DX : Rabs (X - a) <= e1).
  { apply Rmult_le_reg_r with S; [exact PS|]. rewrite <- (Rabs_pos_eq S) at 1 by lra. rewrite <- Rabs_mult.
    replace ((X - a) * S) with (B2R x - a * S) by (rewrite EX; ring). exact Hx. }
  assert (DY : Rabs (Y - b) <= e2).
  { apply Rmult_le_reg_r with S; [exact PS|]. rewrite <- (Rabs_pos_eq S) at 1 by lra. rewrite <- Rabs_mult.
    replace ((Y - b) * S) with (B2R y - b * S) by (rewrite EY; ring). exact Hy. }
  assert (Hb : b <> 0) by (intros ->; rewrite Rabs_R0 in HL; lra).
  assert (LY : L - e2 <= Rabs Y).
  { assert (Rabs b <= Rabs Y + e2); [|lra].
    replace b with (Y + - (Y - b)) at 1 by ring.
    eapply Rle_trans; [apply Rabs_triang|]. rewrite Rabs_Ropp. lra. }
  assert (HY0 : Y <> 0) by (intros E; rewrite E, Rabs_R0 in LY; lra).
  assert (Hy0 : B2R y <> 0) by (rewrite EY; apply Rmult_integral_contrapositive; split; lra).
  assert (EQ : B2R x / B2R y = X / Y) by (rewrite EX, EY; field; split; lra).
  assert (D : Rabs (B2R x / B2R y - a / b) <= q).
  { rewrite EQ. replace (X / Y - a / b) with (((X - a) + (a / b) * - (Y - b)) / Y) by (field; split; assumption).
    unfold Rdiv at 1. rewrite Rabs_mult, Rabs_inv.
    apply Rmult_le_reg_r with (Rabs Y); [lra|]. rewrite Rmult_assoc, Rinv_l, Rmult_1_r by lra.
    eapply Rle_trans; [apply Rabs_triang|]. rewrite Rabs_mult, Rabs_Ropp.
    assert (Rabs (a / b) * Rabs (Y - b) <= Q * e2) by (apply Rmult_le_compat; try apply Rabs_pos; assumption).
    assert (q * (L - e2) <= q * Rabs Y) by (apply Rmult_le_compat_l; lra). lra. }
  pose proof (Bdiv_correct 24 128 _ _ mode_NE x y Hy0) as H.
  rewrite RN_small in H by (eapply small_near; eassumption). destruct H as (H1 & H2 & _).
  rewrite Fx in H2.
  eapply near_rounded; [exact H1|exact H2|exact D|exact HQ|exact He].
Qed.

(** ** Powers and roots *)
Lemma root_error t r z : 0 <= t -> 0 < r -> Rabs (t ^ 4 - r ^ 4) <= z * r ^ 4 -> z <= 1 / 32 ->
  Rabs (t - r) <= 27 / 100 * z * r.
Proof.
  intros Ht Hr H Hz.
  set (q := t / r). assert (Eq : t = q * r) by (unfold q; field; lra).
  assert (Pq : 0 <= q) by (unfold q; apply Rmult_le_pos; [exact Ht|apply Rlt_le, Rinv_0_lt_compat; exact Hr]).
  assert (P4 : 0 < r ^ 4) by (apply pow_lt; exact Hr).
  assert (Hq : Rabs (q ^ 4 - 1) <= z).
  { apply Rmult_le_reg_r with (r ^ 4); [exact P4|]. rewrite <- (Rabs_pos_eq (r ^ 4)) at 1 by lra. rewrite <- Rabs_mult.
    replace ((q ^ 4 - 1) * r ^ 4) with (t ^ 4 - r ^ 4) by (rewrite Eq; ring). exact H. }
  assert (Pz : 0 <= z) by (eapply Rle_trans; [apply Rabs_pos|exact Hq]).
  assert (Lq : 31 / 32 <= q).
  { destruct (Rle_or_lt (31 / 32) q) as [L|L]; [exact L|exfalso].
    pose proof (Rle_abs (- (q ^ 4 - 1))) as A. rewrite Rabs_Ropp in A.
    assert (q ^ 4 <= q); [|lra].
    replace q with (q * 1) at 2 by ring. replace (q ^ 4) with (q * q ^ 3) by ring.
    apply Rmult_le_compat_l; [exact Pq|]. rewrite <- (pow1 3). apply pow_incr. lra. }
  assert (K : 381 / 100 <= (q + 1) * (q ^ 2 + 1)).
  { apply Rle_trans with ((63 / 32) * (1 + (31 / 32) * (31 / 32))); [lra|].
    apply Rmult_le_compat; try lra. assert ((31 / 32) * (31 / 32) <= q * q) by (apply Rmult_le_compat; lra). lra. }
  assert (D : Rabs (q - 1) <= 27 / 100 * z).
  { replace (q ^ 4 - 1) with ((q - 1) * ((q + 1) * (q ^ 2 + 1))) in Hq by ring. rewrite Rabs_mult in Hq.
    rewrite (Rabs_pos_eq ((q + 1) * (q ^ 2 + 1))) in Hq by lra.
    pose proof (Rmult_le_compat_l (Rabs (q - 1)) _ _ (Rabs_pos _) K). lra. }
  replace (t - r) with ((q - 1) * r) by (rewrite Eq; ring). rewrite Rabs_mult, (Rabs_pos_eq r) by lra.
  apply Rmult_le_compat_r; lra.
Qed.

(** The library's root of a number of size [A ^ 4]. *)
Lemma snear_root l m A w z : accurate_powers l -> 0 < A -> 0 < w -> snear m (A ^ 4) (w ^ 4) (z * w ^ 4) -> z <= 1 / 32 ->
  snear (lm_powf l m (@f_quarter (B32 l))) A w (w * (27 / 100 * z + (41 / 10) * u)).
Proof.
  intros Hl PA Pw [Fm Hm] Hz.
  assert (PA4 : 0 < A ^ 4) by (apply pow_lt; exact PA). assert (Pw4 : 0 < w ^ 4) by (apply pow_lt; exact Pw).
  assert (Pm : 0 < B2R m).
  { pose proof (Rle_abs (- (B2R m - w ^ 4 * A ^ 4))) as G. rewrite Rabs_Ropp in G.
    assert (Q : 0 < w ^ 4 * A ^ 4) by (apply Rmult_lt_0_compat; assumption).
    assert (z * (w ^ 4 * A ^ 4) <= 1 / 32 * (w ^ 4 * A ^ 4)) by (apply Rmult_le_compat_r; lra).
    lra. }
  destruct (ap_root l Hl m Fm Pm) as [Fr Hr]. split; [exact Fr|].
  set (t := Rpower (B2R m) (1 / 4)) in *. assert (Pt : 0 < t) by apply root4_pos.
  assert (E : Rabs (t - w * A) <= 27 / 100 * z * (w * A)).
  { apply root_error; [lra|apply Rmult_lt_0_compat; assumption| |exact Hz].
    unfold t. rewrite root4_pow by exact Pm. rewrite Rpow_mult_distr. lra. }
  assert (PwA : 0 < w * A) by (apply Rmult_lt_0_compat; assumption).
  assert (Bt : t <= 101 / 100 * (w * A)).
  { pose proof (Rle_abs (t - w * A)). assert (z * (w * A) <= 1 / 32 * (w * A)) by (apply Rmult_le_compat_r; lra). lra. }
  match type of Hr with Rabs (B2R ?x - _) <= _ => set (f := x) in * end.
  replace (B2R f - w * A) with ((B2R f - t) + (t - w * A)) by ring.
  eapply Rle_trans; [apply Rabs_triang|].
  replace (w * (27 / 100 * z + 41 / 10 * u) * A) with (27 / 100 * z * (w * A) + 41 / 10 * u * (w * A)) by ring.
  lra.
Qed.

Lemma snear_cube l fa A d : accurate_powers l -> scale (A ^ 3) -> A <= 1 -> snear fa A 1 d -> 0 < A -> d <= 1 / 500 ->
  snear (lm_powi l fa 3) (A ^ 3) 1 (301 / 100 * d + (41 / 10) * u).
Proof.
  intros Hl HS HA1 [Ff Hf] PA Hd. pose proof (scale_pos _ HS) as P3.
  set (q := B2R fa / A). assert (Eq : B2R fa = q * A) by (unfold q; field; lra).
  assert (Hq : Rabs (q - 1) <= d).
  { apply Rmult_le_reg_r with A; [exact PA|]. rewrite <- (Rabs_pos_eq A) at 1 by lra. rewrite <- Rabs_mult.
    replace ((q - 1) * A) with (B2R fa - 1 * A) by (rewrite Eq; ring). exact Hf. }
  assert (Pd : 0 <= d) by (eapply Rle_trans; [apply Rabs_pos|exact Hq]).
  assert (Bq : 1 - d <= q <= 1 + d).
  { pose proof (Rle_abs (q - 1)). pose proof (Rle_abs (- (q - 1))) as G. rewrite Rabs_Ropp in G. lra. }
  assert (C1 : q ^ 3 <= (1 + d) ^ 3) by (apply pow_incr; lra).
  assert (C2 : (1 - d) ^ 3 <= q ^ 3) by (apply pow_incr; lra).
  assert (D2 : 0 <= d * d <= d * (1 / 500)) by (split; [apply Rmult_le_pos; lra|apply Rmult_le_compat_l; lra]).
  assert (D3 : 0 <= d * d * d <= d * d * (1 / 500)) by (split; [apply Rmult_le_pos; lra|apply Rmult_le_compat_l; lra]).
  replace ((1 + d) ^ 3) with (1 + 3 * d + 3 * (d * d) + d * d * d) in C1 by ring.
  replace ((1 - d) ^ 3) with (1 - 3 * d + 3 * (d * d) - d * d * d) in C2 by ring.
  assert (E3 : powerRZ (B2R fa) 3 = q ^ 3 * A ^ 3) by (rewrite powerRZ3, Eq; ring).
  assert (B3 : 9 / 10 <= q ^ 3 <= 11 / 10) by lra.
  destruct (ap_powi l Hl fa 3 Ff ltac:(left; reflexivity)) as [Fp Hp].
  { rewrite E3, Rabs_mult, (Rabs_pos_eq (q ^ 3)), (Rabs_pos_eq (A ^ 3)) by lra.
    destruct HS as [HS1 HS2]. split.
    - apply Rle_trans with (9 / 10 * bpow radix2 (-109)); [|apply Rmult_le_compat; try lra; apply bpow_ge_0].
      replace (-126)%Z with (-17 + -109)%Z by reflexivity. rewrite bpow_plus.
      apply Rmult_le_compat_r; [apply bpow_ge_0|]. replace (bpow radix2 (-17)) with (/ 131072) by reflexivity. lra.
    - apply Rle_trans with (2 * 1); [apply Rmult_le_compat; lra|].
      replace (bpow radix2 100) with 1267650600228229401496703205376 by reflexivity. lra. }
  split; [exact Fp|]. rewrite E3 in Hp.
  rewrite (Rabs_pos_eq (q ^ 3 * A ^ 3)) in Hp by (apply Rmult_le_pos; lra).
  replace (B2R (lm_powi l fa 3) - 1 * A ^ 3) with ((B2R (lm_powi l fa 3) - q ^ 3 * A ^ 3) + (q ^ 3 - 1) * A ^ 3) by ring.
  eapply Rle_trans; [apply Rabs_triang|]. rewrite (Rabs_mult (q ^ 3 - 1)), (Rabs_pos_eq (A ^ 3)) by lra.
  assert (G : Rabs (q ^ 3 - 1) <= 3007 / 1000 * d) by (apply Rabs_le; lra).
  pose proof (Rmult_le_compat_r (A ^ 3) _ _ ltac:(lra) G).
  assert (/ 4194304 * (q ^ 3 * A ^ 3) <= / 4194304 * ((1 + 3007 / 1000 * d) * A ^ 3)) by (apply Rmult_le_compat_l; [lra|]; apply Rmult_le_compat_r; lra).
  assert (0 <= d * A ^ 3) by (apply Rmult_le_pos; lra). lra.
Qed.

Lemma snear_fourth l fa A d : accurate_powers l -> scale (A ^ 4) -> A <= 1 -> snear fa A 1 d -> 0 < A -> d <= 1 / 500 ->
  snear (lm_powi l fa 4) (A ^ 4) 1 (403 / 100 * d + (41 / 10) * u).
Proof.
  intros Hl HS HA1 [Ff Hf] PA Hd. pose proof (scale_pos _ HS) as P3.
  set (q := B2R fa / A). assert (Eq : B2R fa = q * A) by (unfold q; field; lra).
  assert (Hq : Rabs (q - 1) <= d).
  { apply Rmult_le_reg_r with A; [exact PA|]. rewrite <- (Rabs_pos_eq A) at 1 by lra. rewrite <- Rabs_mult.
    replace ((q - 1) * A) with (B2R fa - 1 * A) by (rewrite Eq; ring). exact Hf. }
  assert (Pd : 0 <= d) by (eapply Rle_trans; [apply Rabs_pos|exact Hq]).
  assert (Bq : 1 - d <= q <= 1 + d).
  { pose proof (Rle_abs (q - 1)). pose proof (Rle_abs (- (q - 1))) as G. rewrite Rabs_Ropp in G. lra. }
  assert (C1 : q ^ 4 <= (1 + d) ^ 4) by (apply pow_incr; lra).
  assert (C2 : (1 - d) ^ 4 <= q ^ 4) by (apply pow_incr; lra).
  assert (D2 : 0 <= d * d <= d * (1 / 500)) by (split; [apply Rmult_le_pos; lra|apply Rmult_le_compat_l; lra]).
  assert (D3 : 0 <= d * d * d <= d * d * (1 / 500)) by (split; [apply Rmult_le_pos; lra|apply Rmult_le_compat_l; lra]).
  assert (D4 : 0 <= d * d * d * d <= d * d * d * (1 / 500)) by (split; [apply Rmult_le_pos; lra|apply Rmult_le_compat_l; lra]).
  replace ((1 + d) ^ 4) with (1 + 4 * d + 6 * (d * d) + 4 * (d * d * d) + d * d * d * d) in C1 by ring.
  replace ((1 - d) ^ 4) with (1 - 4 * d + 6 * (d * d) - 4 * (d * d * d) + d * d * d * d) in C2 by ring.
  assert (E3 : powerRZ (B2R fa) 4 = q ^ 4 * A ^ 4) by (rewrite powerRZ4, Eq; ring).
  assert (B3 : 9 / 10 <= q ^ 4 <= 11 / 10) by lra.
  destruct (ap_powi l Hl fa 4 Ff ltac:(right; reflexivity)) as [Fp Hp].
  { rewrite E3, Rabs_mult, (Rabs_pos_eq (q ^ 4)), (Rabs_pos_eq (A ^ 4)) by lra.
    destruct HS as [HS1 HS2]. split.
    - apply Rle_trans with (9 / 10 * bpow radix2 (-109)); [|apply Rmult_le_compat; try lra; apply bpow_ge_0].
      replace (-126)%Z with (-17 + -109)%Z by reflexivity. rewrite bpow_plus.
      apply Rmult_le_compat_r; [apply bpow_ge_0|]. replace (bpow radix2 (-17)) with (/ 131072) by reflexivity. lra.
    - apply Rle_trans with (2 * 1); [apply Rmult_le_compat; lra|].
      replace (bpow radix2 100) with 1267650600228229401496703205376 by reflexivity. lra. }
  split; [exact Fp|]. rewrite E3 in Hp.
  rewrite (Rabs_pos_eq (q ^ 4 * A ^ 4)) in Hp by (apply Rmult_le_pos; lra).
  replace (B2R (lm_powi l fa 4) - 1 * A ^ 4) with ((B2R (lm_powi l fa 4) - q ^ 4 * A ^ 4) + (q ^ 4 - 1) * A ^ 4) by ring.
  eapply Rle_trans; [apply Rabs_triang|]. rewrite (Rabs_mult (q ^ 4 - 1)), (Rabs_pos_eq (A ^ 4)) by lra.
  assert (G : Rabs (q ^ 4 - 1) <= 4013 / 1000 * d) by (apply Rabs_le; lra).
  pose proof (Rmult_le_compat_r (A ^ 4) _ _ ltac:(lra) G).
  assert (/ 4194304 * (q ^ 4 * A ^ 4) <= / 4194304 * ((1 + 4013 / 1000 * d) * A ^ 4)) by (apply Rmult_le_compat_l; [lra|]; apply Rmult_le_compat_r; lra).
  assert (0 <= d * A ^ 4) by (apply Rmult_le_pos; lra). lra.
Qed.

(** ** The object temperature *)
Section Object.
Context (l : libm) (fa fv far fk : f32) (A x bg k w g d h eR D : R).
(** [A]: sensitivity, [x * A]: signal, [bg]: background, [k]: slope; [w]: uncorrected temperature,
    [g]: correction of the sensitivity. *)
Hypothesis (Hl : accurate_powers l) (BA : / 67108864 <= A <= / 1024).
Hypothesis (Na : snear fa A 1 d) (Bd : d <= 1 / 500).
Hypothesis (Nv : snear fv A x h) (Nr : near far bg eR) (Vk : is_val fk k).
Let n : R := Rabs x + Rabs bg.
Hypothesis (Hw : 150 <= w <= 1000) (Ew : w ^ 4 = x + bg) (Bx : Rabs x <= 4 * w ^ 4).
Hypothesis (Bkw : Rabs k * w <= 1 / 2) (Bk : Rabs (k * (w - 273.15)) <= 1 / 4) (Eg : g = 1 + k * (w - 273.15)).
(** [D]: total uncertainty *)
Hypothesis (HD : h + eR + n * (2 * d + 8 * u) <= D) (BD : D <= w ^ 4 / 200).

Fact PA : 0 < A. Proof. lra. Qed.
Fact scale_pow i : (1 <= i <= 4)%nat -> scale (A ^ i).
Proof.
  intros Hi. split.
  - apply Rle_trans with ((/ 67108864) ^ i); [|apply pow_incr; lra].
    apply Rle_trans with ((/ 67108864) ^ 4).
    + apply Rle_trans with (bpow radix2 (-104)); [apply bpow_le; lia|]. apply Req_le.
      replace (bpow radix2 (-104)) with (/ 20282409603651670423947251286016) by reflexivity. lra.
    + do 5 (destruct i as [|i]; [try lra; exfalso; clear - Hi; lia|]). exfalso. clear - Hi. lia.
  - rewrite <- (pow1 i). apply pow_incr. lra.
Qed.
Fact scale_A : scale A.
Proof. rewrite <- (pow_1 A). apply scale_pow. lia. Qed.
Fact Pd : 0 <= d.
Proof. destruct Na as [_ H]. pose proof (Rabs_pos (B2R fa - 1 * A)). pose proof PA. apply Rmult_le_reg_r with A; lra. Qed.
Fact Ph : 0 <= h.
Proof. destruct Nv as [_ H]. pose proof (Rabs_pos (B2R fv - x * A)). pose proof PA. apply Rmult_le_reg_r with A; lra. Qed.
Fact PeR : 0 <= eR.
Proof. destruct Nr as [_ H]. eapply Rle_trans; [apply Rabs_pos|exact H]. Qed.
Fact W4 : 506250000 <= w ^ 4 <= 1000000000000.
Proof.
  split.
  - apply Rle_trans with (150 ^ 4); [lra|]. apply pow_incr. lra.
  - apply Rle_trans with (1000 ^ 4); [apply pow_incr; lra|lra].
Qed.
Fact Pn : w ^ 4 <= n.
Proof. unfold n. rewrite Ew. pose proof (Rle_abs x). pose proof (Rle_abs bg). lra. Qed.
Fact Bn : n <= 9 * w ^ 4.
Proof.
  unfold n. replace bg with (w ^ 4 - x) by lra. unfold Rminus.
  pose proof (Rabs_triang (w ^ 4) (- x)) as T. rewrite Rabs_Ropp in T. pose proof W4. rewrite (Rabs_pos_eq (w ^ 4)) in T by lra. lra.
Qed.
Fact nd : 0 <= n * d.
Proof. pose proof Pd. pose proof Pn. pose proof W4. apply Rmult_le_pos; lra. Qed.
Fact Bxn : 0 <= Rabs x <= n /\ 0 <= Rabs bg <= n.
Proof. unfold n. pose proof (Rabs_pos x). pose proof (Rabs_pos bg). lra. Qed.

(** Error of the radicand, relative to its exact value. *)
Let EW : R := 1012 / 1000 * (h + eR) + n * (404 / 100 * d + (64 / 10) * u).
Fact BEW : EW <= 205 / 100 * D /\ 0 <= EW.
Proof.
  pose proof nd. pose proof Ph. pose proof PeR. pose proof Pn. pose proof W4. unfold EW. split; [|lra]. lra.
Qed.

Fact near_radicand :
  snear (b_add (b_mul (lm_powi l fa 3) fv) (b_mul (lm_powi l fa 4) far)) (A ^ 4) (w ^ 4) EW.
Proof.
  pose proof PA. pose proof Pd. pose proof Ph. pose proof PeR. pose proof Pn. pose proof Bn. pose proof W4. pose proof nd.
  pose proof Bxn as [Bx1 BR1].
  pose proof BEW as [BE1 BE2].
  assert (Hn : n <= 9000000000000) by lra.
  assert (Sh : h <= 10000000000) by lra. assert (Sr : eR <= 10000000000) by lra.
  assert (N3 := snear_cube l fa A d Hl (scale_pow 3 ltac:(clear; lia)) ltac:(lra) Na PA Bd).
  assert (N4 := snear_fourth l fa A d Hl (scale_pow 4 ltac:(clear; lia)) ltac:(lra) Na PA Bd).
  assert (S4 : A ^ 4 = A ^ 3 * A) by ring.
  assert (P3 : 0 < A ^ 3) by (apply pow_lt; lra). assert (P4 : 0 < A ^ 4) by (apply pow_lt; lra).
  assert (X1 : 0 <= d * h <= 1 / 500 * h) by (split; [apply Rmult_le_pos; lra|apply Rmult_le_compat_r; lra]).
  assert (X2 : 0 <= d * eR <= 1 / 500 * eR) by (split; [apply Rmult_le_pos; lra|apply Rmult_le_compat_r; lra]).
  assert (X3 : 0 <= d * Rabs x <= 1 / 500 * Rabs x) by (split; [apply Rmult_le_pos; lra|apply Rmult_le_compat_r; lra]).
  assert (X4 : 0 <= d * Rabs bg <= 1 / 500 * Rabs bg) by (split; [apply Rmult_le_pos; lra|apply Rmult_le_compat_r; lra]).
  assert (E1 : snear (b_mul (lm_powi l fa 3) fv) (A ^ 4) (1 * x) (Rabs x * (302 / 100 * d + (52 / 10) * u) + 1011 / 1000 * h + weak)).
  { rewrite S4. apply (snear_mul _ _ _ _ _ _ (301 / 100 * d + 41 / 10 * u) h 1 (Rabs x) (Rabs x));
      [rewrite <- S4; apply scale_pow; clear; lia|lra|lra|exact N3|exact Nv|rewrite Rabs_R1; lra|lra|rewrite Rmult_1_l; lra| |].
    - lra.
    - lra. }
  assert (E2 : snear (b_mul (lm_powi l fa 4) far) (A ^ 4) (1 * bg) (Rabs bg * (404 / 100 * d + (52 / 10) * u) + 1011 / 1000 * eR + weak)).
  { replace (A ^ 4) with (A ^ 4 * 1) by ring.
    apply (snear_mul _ _ _ _ _ _ (403 / 100 * d + 41 / 10 * u) eR 1 (Rabs bg) (Rabs bg));
      [rewrite Rmult_1_r; apply scale_pow; clear; lia|lra|lra|exact N4|exact (proj1 (near_snear _ _ _) Nr)|rewrite Rabs_R1; lra|lra|rewrite Rmult_1_l; lra| |].
    - lra.
    - lra. }
  rewrite Ew. replace (x + bg) with (1 * x + 1 * bg) by ring.
  assert (Xn : n * d = d * Rabs x + d * Rabs bg) by (unfold n; ring).
  assert (Nn : n = Rabs x + Rabs bg) by reflexivity.
  eapply (snear_add _ _ _ _ _ _ _ n); [apply scale_pow; clear; lia|exact E1|exact E2| | |].
  - rewrite !Rmult_1_l. unfold n. apply Rabs_triang.
  - lra.
  - unfold EW. lra.
Qed.

Let y : R := EW / w ^ 4.
Fact Hy : 0 <= y <= 103 / 10000 /\ y * w ^ 4 = EW.
Proof.
  pose proof W4. pose proof BEW as [B1 B2].
  assert (E : y * w ^ 4 = EW) by (unfold y; field; lra).
  split; [|exact E]. split; apply Rmult_le_reg_r with (w ^ 4); lra.
Qed.

Fact near_root1 : snear (lm_powf l (b_add (b_mul (lm_powi l fa 3) fv) (b_mul (lm_powi l fa 4) far)) (@f_quarter (B32 l))) A w
  (w * (27 / 100 * y + (41 / 10) * u)).
Proof.
  pose proof Hy as [Y1 Y2]. apply snear_root; [exact Hl|apply PA|lra| |lra]. rewrite Y2. exact near_radicand.
Qed.

Lemma val_273 : near (@f_273_15 (B32 l)) 273.15 (/ 60000).
Proof.
  cbn [B32 f_273_15]. split; [reflexivity|].
  replace (B2R (b_div (b_ofZ 27315) (b_ofZ 100))) with (IZR 8950579 * bpow radix2 (-15))%R by reflexivity.
  replace (bpow radix2 (-15)) with (/ IZR 32768)%R by reflexivity. apply Rabs_le. lra.
Qed.

Let eD : R := 177 / 100 * d + 137 / 1000 * y + 10 * u.
Fact near_den : snear
  (b_add (b_mul fa (b_sub (b_ofZ 1) (b_mul fk (@f_273_15 (B32 l)))))
     (b_mul fk (lm_powf l (b_add (b_mul (lm_powi l fa 3) fv) (b_mul (lm_powi l fa 4) far)) (@f_quarter (B32 l)))))
  A g eD.
Proof.
  pose proof PA. pose proof Pd. pose proof Hy as [Y1 _].
  assert (V1 : is_val (b_ofZ 1) 1) by (apply (b_ofZ_correct 1); lia).
  assert (K : Rabs k * 273.15 <= 3 / 4).
  { replace (Rabs k * 273.15) with (Rabs (k * 273.15)) by (rewrite Rabs_mult, (Rabs_pos_eq 273.15); lra).
    replace (k * 273.15) with (k * w + - (k * (w - 273.15))) by ring.
    eapply Rle_trans; [apply Rabs_triang|]. rewrite Rabs_Ropp, (Rabs_mult k w), (Rabs_pos_eq w) by lra. lra. }
  assert (Kp := Rabs_pos k).
  assert (N1 : near (b_mul fk (@f_273_15 (B32 l))) (k * 273.15) ((16 / 10) * u)).
  { eapply (near_mul _ _ _ _ 0 (/ 60000) (Rabs k) 273.15 (3 / 4)); [apply near_val; exact Vk|exact val_273|lra|rewrite Rabs_pos_eq; lra| | |].
    - rewrite Rabs_mult, (Rabs_pos_eq 273.15) by lra. exact K.
    - lra.
    - lra. }
  assert (N2 : near (b_sub (b_ofZ 1) (b_mul fk (@f_273_15 (B32 l)))) (1 - k * 273.15) ((34 / 10) * u)).
  { eapply (near_sub _ _ _ _ 0 _ (7 / 4)); [apply near_val; exact V1|exact N1| |lra|lra].
    unfold Rminus. eapply Rle_trans; [apply Rabs_triang|]. rewrite Rabs_Ropp, Rabs_R1, (Rabs_mult k 273.15), (Rabs_pos_eq 273.15) by lra. lra. }
  assert (B2 : Rabs (1 - k * 273.15) <= 7 / 4).
  { unfold Rminus. eapply Rle_trans; [apply Rabs_triang|]. rewrite Rabs_Ropp, Rabs_R1, (Rabs_mult k 273.15), (Rabs_pos_eq 273.15) by lra. lra. }
  assert (N3 : snear (b_mul fa (b_sub (b_ofZ 1) (b_mul fk (@f_273_15 (B32 l))))) A (1 * (1 - k * 273.15)) (176 / 100 * d + (53 / 10) * u)).
  { rewrite <- (Rmult_1_r A) at 1.
    eapply (snear_mul _ _ _ _ _ _ d _ 1 (7 / 4) (7 / 4)); [rewrite Rmult_1_r; apply scale_A|lra|lra|exact Na|exact (proj1 (near_snear _ _ _) N2)|rewrite Rabs_R1; lra|exact B2|rewrite Rmult_1_l; exact B2|lra|lra]. }
  assert (N4 : snear (b_mul fk (lm_powf l (b_add (b_mul (lm_powi l fa 3) fv) (b_mul (lm_powi l fa 4) far)) (@f_quarter (B32 l)))) A (k * w)
                 (1 / 2 * (271 / 1000 * y + (52 / 10) * u))).
  { rewrite <- (Rmult_1_l A).
    assert (T : 0 <= (271 / 1000 * y + 52 / 10 * u)) by lra.
    assert (Q : Rabs k * (w * (27 / 100 * y + 41 / 10 * u)) <= 1 / 2 * (27 / 100 * y + 41 / 10 * u)).
    { rewrite <- Rmult_assoc. apply Rmult_le_compat_r; lra. }
    eapply (snear_mul _ _ _ _ _ _ 0 _ (Rabs k) w (1 / 2)); [rewrite Rmult_1_l; apply scale_A|lra|lra|exact (proj1 (near_snear _ _ _) (near_val _ _ Vk))|exact near_root1|lra|rewrite Rabs_pos_eq; lra| | |].
    - rewrite Rabs_mult, (Rabs_pos_eq w) by lra. exact Bkw.
    - rewrite Rmult_0_r, Rmult_0_l, !Rplus_0_r. lra.
    - rewrite Rmult_0_r, Rmult_0_l, !Rplus_0_r. lra. }
  replace g with (1 * (1 - k * 273.15) + k * w) by (rewrite Eg; ring).
  eapply (snear_add _ _ _ _ _ _ _ (5 / 4)); [apply scale_A|exact N3|exact N4| | |].
  - replace (1 * (1 - k * 273.15) + k * w) with (1 + k * (w - 273.15)) by ring.
    eapply Rle_trans; [apply Rabs_triang|]. rewrite Rabs_R1. lra.
  - lra.
  - unfold eD. lra.
Qed.

Fact Hg : 3 / 4 <= g <= 5 / 4.
Proof.
  rewrite Eg. pose proof (Rle_abs (k * (w - 273.15))). pose proof (Rle_abs (- (k * (w - 273.15)))) as G. rewrite Rabs_Ropp in G. lra.
Qed.

Context (T : R).
Hypothesis (HT : 150 <= T <= 1000) (ET : T ^ 4 = x / g + bg) (BD' : D <= T ^ 4 / 200).

Fact T4 : 506250000 <= T ^ 4 <= 1000000000000.
Proof.
  split.
  - apply Rle_trans with (150 ^ 4); [lra|]. apply pow_incr. lra.
  - apply Rle_trans with (1000 ^ 4); [apply pow_incr; lra|lra].
Qed.

Let E4 : R := 25 / 10 * (h + eR) + n * (73 / 10 * d + 29 * u).
Fact BE4 : 0 <= E4 <= 37 / 10 * D /\ 27 / 100 * E4 <= D.
Proof.
  pose proof nd. pose proof Ph. pose proof PeR. pose proof Pn. pose proof W4. unfold E4. lra.
Qed.

Fact near_radicand2 : near (b_add (b_div fv (b_add (b_mul fa (b_sub (b_ofZ 1) (b_mul fk (@f_273_15 (B32 l)))))
     (b_mul fk (lm_powf l (b_add (b_mul (lm_powi l fa 3) fv) (b_mul (lm_powi l fa 4) far)) (@f_quarter (B32 l)))))) far)
  (T ^ 4) E4.
Proof.
  pose proof PA. pose proof Pd. pose proof Hy as [Y1 Y2]. pose proof Hg as G. pose proof Ph. pose proof PeR. pose proof W4. pose proof T4.
  pose proof nd. pose proof Pn. pose proof Bn. pose proof Bxn as [Bx1 BR1].
  assert (EDb : 0 <= eD <= 7 / 1000) by (unfold eD; lra).
  assert (Gi : / g * g = 1) by (apply Rinv_l; lra).
  assert (BGi : 0 <= / g <= 134 / 100) by (split; apply Rmult_le_reg_r with g; lra).
  assert (Q : Rabs (x / g) <= 134 / 100 * Rabs x).
  { unfold Rdiv. rewrite Rabs_mult, (Rabs_pos_eq (/ g)) by lra. pose proof (Rmult_le_compat_l (Rabs x) _ _ ltac:(lra) (proj2 BGi)). lra. }
  assert (XE : 0 <= Rabs x * eD <= Rabs x * (7 / 1000)) by (split; [apply Rmult_le_pos; lra|apply Rmult_le_compat_l; lra]).
  assert (Hn : n <= 9000000000000) by lra.
  assert (Sh : h <= 10000000000) by lra. assert (Sr : eR <= 10000000000) by lra.
  assert (N1 : near (b_div fv (b_add (b_mul fa (b_sub (b_ofZ 1) (b_mul fk (@f_273_15 (B32 l)))))
     (b_mul fk (lm_powf l (b_add (b_mul (lm_powi l fa 3) fv) (b_mul (lm_powi l fa 4) far)) (@f_quarter (B32 l))))))
     (x / g) (136 / 100 * h + 182 / 100 * (Rabs x * eD) + 135 / 100 * u * Rabs x + tiny)).
  { apply (snear_div _ _ A x g h eD (134 / 100 * Rabs x) (3 / 4) (1347 / 1000 * h + 181 / 100 * (Rabs x * eD)));
      [lra|exact Nv|exact near_den|rewrite Rabs_pos_eq; lra|lra|exact Q| | | |].
    - assert (M : h * eD <= h * (7 / 1000)) by (apply Rmult_le_compat_l; lra).
      assert (M2 : Rabs x * eD * eD <= Rabs x * eD * (7 / 1000)) by (apply Rmult_le_compat_l; lra).
      replace ((1347 / 1000 * h + 181 / 100 * (Rabs x * eD)) * (3 / 4 - eD)) with
        (1347 / 1000 * (3 / 4 * h - h * eD) + 181 / 100 * (3 / 4 * (Rabs x * eD) - Rabs x * eD * eD)) by ring.
      lra.
    - lra.
    - lra.
    - lra. }
  rewrite ET.
  eapply (near_add _ _ _ _ _ _ (134 / 100 * n)); [exact N1|exact Nr| | |].
  - eapply Rle_trans; [apply Rabs_triang|]. unfold n. lra.
  - lra.
  - (* the effect of the root on the sensitivity *)
    assert (XY : 0 <= Rabs x * y <= 4 * EW).
    { split; [apply Rmult_le_pos; lra|]. rewrite <- Y2. 
      apply Rle_trans with (4 * w ^ 4 * y); [apply Rmult_le_compat_r; lra|lra]. }
    assert (Xd : 0 <= Rabs x * d <= n * d) by (split; [apply Rmult_le_pos; lra|apply Rmult_le_compat_r; lra]).
    replace (Rabs x * eD) with (177 / 100 * (Rabs x * d) + 137 / 1000 * (Rabs x * y) + 10 * u * Rabs x) by (unfold eD; ring).
    unfold EW in XY. unfold E4. lra.
Qed.

Lemma near_object :
  near (b_sub (lm_powf l (b_add (b_div fv (b_add (b_mul fa (b_sub (b_ofZ 1) (b_mul fk (@f_273_15 (B32 l)))))
     (b_mul fk (lm_powf l (b_add (b_mul (lm_powi l fa 3) fv) (b_mul (lm_powi l fa 4) far)) (@f_quarter (B32 l)))))) far) (@f_quarter (B32 l)))
     (@f_273_15 (B32 l)))
  (T - 273.15) (D / T ^ 3 + 1 / 2000).
Proof.
  pose proof T4 as HT4. pose proof BE4 as [B1 B2].
  set (z := E4 / T ^ 4).
  assert (Ez : z * T ^ 4 = E4) by (unfold z; field; lra).
  assert (Bz : 0 <= z <= 1 / 50) by (split; apply Rmult_le_reg_r with (T ^ 4); lra).
  assert (N1 : snear (lm_powf l (b_add (b_div fv (b_add (b_mul fa (b_sub (b_ofZ 1) (b_mul fk (@f_273_15 (B32 l)))))
     (b_mul fk (lm_powf l (b_add (b_mul (lm_powi l fa 3) fv) (b_mul (lm_powi l fa 4) far)) (@f_quarter (B32 l)))))) far) (@f_quarter (B32 l)))
     1 T (T * (27 / 100 * z + (41 / 10) * u))).
  { apply snear_root; [exact Hl|lra|lra| |lra]. rewrite Ez. rewrite pow1. exact (proj1 (near_snear _ _ _) near_radicand2). }
  apply (proj2 (near_snear _ _ _)) in N1.
  assert (P3 : 0 < T ^ 3) by (apply pow_lt; lra).
  assert (K : T * (27 / 100 * z) <= D / T ^ 3).
  { apply Rmult_le_reg_r with (T ^ 3); [exact P3|]. replace (D / T ^ 3 * T ^ 3) with D by (field; lra).
    replace (T * (27 / 100 * z) * T ^ 3) with (27 / 100 * (z * T ^ 4)) by ring. rewrite Ez. exact B2. }
  assert (K' : T * (27 / 100 * z) <= 10).
  { apply Rle_trans with (1000 * (27 / 100 * (1 / 50))); [apply Rmult_le_compat; lra|lra]. }
  assert (K0 : 0 <= T * (27 / 100 * z)) by (apply Rmult_le_pos; lra).
  eapply near_weaken.
  - eapply (near_sub _ _ _ _ _ _ 1000); [exact N1|exact val_273|apply Rabs_le; lra| |apply Rle_refl].
    lra.
  - lra.
Qed.
End Object.

(** ** Background radiation *)
Lemma near_kelvin l ft t e : near ft t e -> 6 / 10000 <= e <= 1 / 10 -> 150 <= t + 273.15 <= 450 ->
  near (b_add ft (@f_273_15 (B32 l))) (t + 273.15) (e + 5 / 100000).
Proof.
  intros N He Ht. eapply (near_add _ _ _ _ _ _ 450); [exact N|apply val_273|apply Rabs_le; lra|lra|lra].
Qed.

Lemma near_fourth l fx K e : accurate_powers l -> near fx K e -> 0 <= e <= 1 / 10 -> 150 <= K <= 450 ->
  near (lm_powi l fx 4) (K ^ 4) (405 / 100 * (K ^ 3 * e) + (41 / 10) * u * K ^ 4).
Proof.
  intros Hl [Fx Hx] He HK.
  set (v := B2R fx) in *. set (q := v / K).
  assert (Ev : v = q * K) by (unfold q; field; lra).
  set (d := e / K). assert (Ed : d * K = e) by (unfold d; field; lra).
  assert (Pd : 0 <= d <= 1 / 1500) by (split; apply Rmult_le_reg_r with K; lra).
  assert (Hq : Rabs (q - 1) <= d).
  { apply Rmult_le_reg_r with K; [lra|]. rewrite <- (Rabs_pos_eq K) at 1 by lra. rewrite <- Rabs_mult.
    replace ((q - 1) * K) with (v - K) by (rewrite Ev; ring). lra. }
  assert (Bq : 1 - d <= q <= 1 + d).
  { pose proof (Rle_abs (q - 1)). pose proof (Rle_abs (- (q - 1))) as G. rewrite Rabs_Ropp in G. lra. }
  assert (C1 : q ^ 4 <= (1 + d) ^ 4) by (apply pow_incr; lra).
  assert (C2 : (1 - d) ^ 4 <= q ^ 4) by (apply pow_incr; lra).
  assert (D2 : 0 <= d * d <= d * (1 / 500)) by (split; [apply Rmult_le_pos; lra|apply Rmult_le_compat_l; lra]).
  assert (D3 : 0 <= d * d * d <= d * d * (1 / 500)) by (split; [apply Rmult_le_pos; lra|apply Rmult_le_compat_l; lra]).
  assert (D4 : 0 <= d * d * d * d <= d * d * d * (1 / 500)) by (split; [apply Rmult_le_pos; lra|apply Rmult_le_compat_l; lra]).
  replace ((1 + d) ^ 4) with (1 + 4 * d + 6 * (d * d) + 4 * (d * d * d) + d * d * d * d) in C1 by ring.
  replace ((1 - d) ^ 4) with (1 - 4 * d + 6 * (d * d) - 4 * (d * d * d) + d * d * d * d) in C2 by ring.
  assert (E3 : powerRZ (B2R fx) 4 = q ^ 4 * K ^ 4) by (fold v; rewrite powerRZ4, Ev; ring).
  assert (B3 : 9 / 10 <= q ^ 4 <= 11 / 10) by lra.
  assert (BK : 506250000 <= K ^ 4 <= 41006250000).
  { split; [apply Rle_trans with (150 ^ 4); [lra|apply pow_incr; lra]|apply Rle_trans with (450 ^ 4); [apply pow_incr; lra|lra]]. }
  destruct (ap_powi l Hl fx 4 Fx ltac:(right; reflexivity)) as [Fp Hp].
  { rewrite E3, Rabs_mult, (Rabs_pos_eq (q ^ 4)), (Rabs_pos_eq (K ^ 4)) by lra. split.
    - apply Rle_trans with (9 / 10 * 506250000); [|apply Rmult_le_compat; lra].
      apply Rle_trans with (bpow radix2 0); [apply bpow_le; lia|]. replace (bpow radix2 0) with 1 by reflexivity. lra.
    - apply Rle_trans with (11 / 10 * 41006250000); [apply Rmult_le_compat; lra|].
      replace (bpow radix2 100) with 1267650600228229401496703205376 by reflexivity. lra. }
  split; [exact Fp|]. rewrite E3 in Hp.
  rewrite (Rabs_pos_eq (q ^ 4 * K ^ 4)) in Hp by (apply Rmult_le_pos; lra).
  replace (B2R (lm_powi l fx 4) - K ^ 4) with ((B2R (lm_powi l fx 4) - q ^ 4 * K ^ 4) + (q ^ 4 - 1) * K ^ 4) by ring.
  eapply Rle_trans; [apply Rabs_triang|]. rewrite (Rabs_mult (q ^ 4 - 1)), (Rabs_pos_eq (K ^ 4)) by lra.
  assert (G : Rabs (q ^ 4 - 1) <= 4013 / 1000 * d) by (apply Rabs_le; lra).
  pose proof (Rmult_le_compat_r (K ^ 4) _ _ ltac:(lra) G).
  assert (/ 4194304 * (q ^ 4 * K ^ 4) <= / 4194304 * ((1 + 4013 / 1000 * d) * K ^ 4)) by (apply Rmult_le_compat_l; [lra|]; apply Rmult_le_compat_r; lra).
  replace (K ^ 3 * e) with (d * K ^ 4) by (rewrite <- Ed; ring).
  assert (0 <= d * K ^ 4) by (apply Rmult_le_pos; lra). lra.
Qed.

Section Background.
Context (l : libm) (fT fr fe : f32) (T Tr e eT : R).
Hypothesis (Hl : accurate_powers l) (NT : near fT T eT) (BeT : 6 / 10000 <= eT <= 2 / 25) (BT : Rabs (T - 25) <= 128).
Hypothesis (Nr : near fr Tr (102 / 100 * eT)) (BTr : 150 <= Tr + 273.15 <= 450).
Hypothesis (Ve : is_val fe e) (Be : 1 / 16 <= e <= 1).
Let Ka : R := T + 273.15.
Let Kr : R := Tr + 273.15.

Fact HKa : 150 <= Ka <= 450.
Proof. unfold Ka. pose proof (Rle_abs (T - 25)). pose proof (Rle_abs (- (T - 25))) as G. rewrite Rabs_Ropp in G. lra. Qed.

(** Cubes times the tolerance dominate the rounding of fourth powers. *)
Lemma cube_dominates K : 150 <= K <= 450 ->
  u * K ^ 4 <= 45 / 1000 * (K ^ 3 * eT) /\ 2025 <= K ^ 3 * eT <= 7500000 /\ 0 <= K ^ 4 <= 41006250000.
Proof.
  intros HK.
  assert (B3 : 3375000 <= K ^ 3 <= 91125000).
  { split; [apply Rle_trans with (150 ^ 3); [lra|apply pow_incr; lra]|apply Rle_trans with (450 ^ 3); [apply pow_incr; lra|lra]]. }
  assert (K ^ 3 * K <= K ^ 3 * 450) by (apply Rmult_le_compat_l; lra).
  assert (K ^ 3 * (6 / 10000) <= K ^ 3 * eT) by (apply Rmult_le_compat_l; lra).
  assert (K ^ 3 * eT <= K ^ 3 * (2 / 25)) by (apply Rmult_le_compat_l; lra).
  replace (K ^ 4) with (K ^ 3 * K) by ring.
  assert (0 <= K ^ 3 * K) by (apply Rmult_le_pos; lra). lra.
Qed.

Fact near_ta4 : near (lm_powi l (b_add fT (@f_273_15 (B32 l))) 4) (Ka ^ 4) (47 / 10 * (Ka ^ 3 * eT)).
Proof.
  pose proof HKa as HK. destruct (cube_dominates Ka HK) as (C1 & C2 & C3).
  assert (N := near_kelvin l fT T eT NT ltac:(lra) HK). fold Ka in N.
  eapply near_weaken; [apply (near_fourth l _ _ _ Hl N); lra|].
  assert (0 <= Ka ^ 3) by (apply pow_le; lra).
  assert (Ka ^ 3 * (5 / 100000) <= Ka ^ 3 * (eT / 12)) by (apply Rmult_le_compat_l; lra). lra.
Qed.
Fact near_tr4 : near (lm_powi l (b_add fr (@f_273_15 (B32 l))) 4) (Kr ^ 4) (48 / 10 * (Kr ^ 3 * eT)).
Proof.
  destruct (cube_dominates Kr BTr) as (C1 & C2 & C3).
  assert (N := near_kelvin l fr Tr _ Nr ltac:(lra) BTr). fold Kr in N.
  eapply near_weaken; [apply (near_fourth l _ _ _ Hl N); [lra|exact BTr]|].
  assert (0 <= Kr ^ 3) by (apply pow_le; unfold Kr; lra).
  assert (Kr ^ 3 * (5 / 100000) <= Kr ^ 3 * (eT / 12)) by (apply Rmult_le_compat_l; lra). lra.
Qed.

Lemma near_background :
  near (b_sub (lm_powi l (b_add fr (@f_273_15 (B32 l))) 4)
          (b_div (b_sub (lm_powi l (b_add fr (@f_273_15 (B32 l))) 4) (lm_powi l (b_add fT (@f_273_15 (B32 l))) 4)) fe))
    (Kr ^ 4 - (Kr ^ 4 - Ka ^ 4) / e) (6 * eT * (Ka ^ 3 + 2 * Kr ^ 3) / e).
Proof.
  pose proof HKa as HK. destruct (cube_dominates Ka HK) as (C1 & C2 & C3). destruct (cube_dominates Kr BTr) as (G1 & G2 & G3).
  pose proof near_ta4 as Na. pose proof near_tr4 as Nb.
  replace (6 * eT * (Ka ^ 3 + 2 * Kr ^ 3) / e) with (6 * (Ka ^ 3 * eT + 2 * (Kr ^ 3 * eT)) / e) by (unfold Rdiv; ring).
  set (a := Ka ^ 3 * eT) in *. set (b := Kr ^ 3 * eT) in *.
  assert (N1 : near (b_sub (lm_powi l (b_add fr (@f_273_15 (B32 l))) 4) (lm_powi l (b_add fT (@f_273_15 (B32 l))) 4))
                 (Kr ^ 4 - Ka ^ 4) (476 / 100 * a + 486 / 100 * b)).
  { eapply (near_sub _ _ _ _ _ _ (Kr ^ 4 + Ka ^ 4)); [exact Nb|exact Na|apply Rabs_le; lra|lra|lra]. }
  assert (HE : / e * e = 1) by (apply Rinv_l; lra). set (E := / e) in *.
  assert (BE : 1 <= E <= 16) by (split; apply Rmult_le_reg_r with e; lra).
  assert (M : Rabs (Kr ^ 4 - Ka ^ 4) <= Kr ^ 4 + Ka ^ 4) by (apply Rabs_le; lra).
  assert (M' : Rabs ((Kr ^ 4 - Ka ^ 4) / e) <= (Kr ^ 4 + Ka ^ 4) * E).
  { unfold Rdiv. fold E. rewrite Rabs_mult, (Rabs_pos_eq E) by lra. apply Rmult_le_compat_r; lra. }
  assert (Q1 : 0 <= (Kr ^ 4 + Ka ^ 4) * E <= (Kr ^ 4 + Ka ^ 4) * 16) by (split; [apply Rmult_le_pos; lra|apply Rmult_le_compat_l; lra]).
  assert (Q2 : 0 <= (476 / 100 * a + 486 / 100 * b) * E <= (476 / 100 * a + 486 / 100 * b) * 16) by (split; [apply Rmult_le_pos; lra|apply Rmult_le_compat_l; lra]).
  assert (Q3 : u * ((Kr ^ 4 + Ka ^ 4) * E) <= (45 / 1000 * (a + b)) * E).
  { rewrite <- Rmult_assoc. apply Rmult_le_compat_r; lra. }
  assert (aE : a <= a * E) by (rewrite <- (Rmult_1_r a) at 1; apply Rmult_le_compat_l; lra).
  assert (bE : b <= b * E) by (rewrite <- (Rmult_1_r b) at 1; apply Rmult_le_compat_l; lra).
  assert (N2 : near (b_div (b_sub (lm_powi l (b_add fr (@f_273_15 (B32 l))) 4) (lm_powi l (b_add fT (@f_273_15 (B32 l))) 4)) fe)
                 ((Kr ^ 4 - Ka ^ 4) / e) ((481 / 100 * a + 491 / 100 * b) * E)).
  { apply (near_div _ _ _ _ (476 / 100 * a + 486 / 100 * b) 0 ((Kr ^ 4 + Ka ^ 4) * E) e ((476 / 100 * a + 486 / 100 * b) * E));
      [exact N1|apply near_val; exact Ve|rewrite Rabs_pos_eq; lra|lra|exact M'| |lra|lra|].
    - rewrite Rmult_0_r, Rminus_0_r, (Rmult_assoc _ E), HE. lra.
    - lra. }
  eapply (near_sub _ _ _ _ _ _ (Kr ^ 4 + (Kr ^ 4 + Ka ^ 4) * E)); [exact Nb|exact N2| |lra|].
  - unfold Rminus at 1. eapply Rle_trans; [apply Rabs_triang|]. rewrite Rabs_Ropp, (Rabs_pos_eq (Kr ^ 4)) by lra. lra.
  - change (6 * (a + 2 * b) / e) with (6 * (a + 2 * b) * E). lra.
Qed.
End Background.

(** ** Sensitivity *)
Section Sensitivity.
Context (fa0 facp fg fk fT : f32) (k T eT : R).
Hypothesis (Fa : is_finite fa0 = true) (Fc : is_finite facp = true) (Fg : is_finite fg = true) (Vk : is_val fk k).
Hypothesis (NT : near fT T eT) (BeT : 6 / 10000 <= eT <= 2 / 25) (BT : Rabs (T - 25) <= 128).
Hypothesis (Bk : Rabs k <= 1 / 64) (Bk' : Rabs (k * (T - 25)) <= 1 / 4).
Let co : R := 1 + k * (T - 25).
Fact Hco : 3 / 4 <= co <= 5 / 4.
Proof. unfold co. pose proof (Rle_abs (k * (T - 25))). pose proof (Rle_abs (- (k * (T - 25)))) as G. rewrite Rabs_Ropp in G. lra. Qed.

Fact near_co : near (b_add (b_ofZ 1) (b_mul fk (b_sub fT (b_ofZ 25)))) co (103 / 100 * (Rabs k * eT) + (16 / 10) * u).
Proof.
  assert (V1 : is_val (b_ofZ 1) 1) by (apply (b_ofZ_correct 1); lia).
  assert (V25 : is_val (b_ofZ 25) 25) by (apply (b_ofZ_correct 25); lia).
  pose proof (Rabs_pos k) as Pk.
  assert (N0 : near (b_sub fT (b_ofZ 25)) (T - 25) ((102 / 100) * eT)).
  { eapply (near_sub _ _ _ _ _ 0 128); [exact NT|apply near_val; exact V25|exact BT|lra|lra]. }
  assert (Z : 0 <= Rabs k * eT <= 1 / 64 * (2 / 25)) by (split; [apply Rmult_le_pos; lra|apply Rmult_le_compat; lra]).
  assert (N1 : near (b_mul fk (b_sub fT (b_ofZ 25))) (k * (T - 25)) (1021 / 1000 * (Rabs k * eT) + (26 / 100) * u)).
  { apply (near_mul_at _ _ _ _ (102 / 100 * (Rabs k * eT)) (1 / 4)); [apply Vk|apply N0| |exact Bk'|lra|lra].
    destruct Vk as [_ ->]. match goal with |- Rabs (k * ?y - k * ?z) <= _ => replace (k * y - k * z) with (k * (y - z)) by ring end.
    rewrite Rabs_mult. destruct N0 as [_ N0]. pose proof (Rmult_le_compat_l (Rabs k) _ _ Pk N0). lra. }
  unfold co. eapply (near_add _ _ _ _ 0 _ (5 / 4)); [apply near_val; exact V1|exact N1|pose proof Hco as H; unfold co in H; apply Rabs_le; lra|lra|lra].
Qed.

(** [A0]: sensitivity before the correction by the ambient temperature. *)
Lemma near_product fA0 A0 : snear fA0 A0 1 ((17 / 10) * u) -> / 67108864 <= A0 * co <= / 1024 ->
  snear (b_mul fA0 (b_add (b_ofZ 1) (b_mul fk (b_sub fT (b_ofZ 25))))) (A0 * co) 1 (14 / 10 * Rabs k * eT + 7 * u).
Proof.
  intros N0 HA. pose proof Hco as C. pose proof near_co as Nc.
  assert (PA : 0 < A0) by (apply Rmult_lt_reg_r with co; lra).
  assert (B1 : A0 * (3 / 4) <= A0 * co) by (apply Rmult_le_compat_l; lra).
  assert (B2 : A0 * co <= A0 * (5 / 4)) by (apply Rmult_le_compat_l; lra).
  pose proof (Rabs_pos k) as Pk.
  assert (Z : 0 <= Rabs k * eT <= 1 / 64 * (2 / 25)) by (split; [apply Rmult_le_pos; lra|apply Rmult_le_compat; lra]).
  assert (N : snear (b_mul fA0 (b_add (b_ofZ 1) (b_mul fk (b_sub fT (b_ofZ 25))))) (A0 * 1) (1 * co) (104 / 100 * (Rabs k * eT) + 5 * u)).
  { eapply (snear_mul _ _ _ _ _ _ _ _ 1 (5 / 4) (5 / 4)); [|lra|lra|exact N0|exact (proj1 (near_snear _ _ _) Nc)|rewrite Rabs_R1; lra|apply Rabs_le; lra|apply Rabs_le; lra|lra|lra].
    rewrite Rmult_1_r. split; [|lra]. apply Rle_trans with (bpow radix2 (-27)); [apply bpow_le; lia|].
    replace (bpow radix2 (-27)) with (/ 134217728) by reflexivity. lra. }
  destruct N as [F H]. split; [exact F|].
  rewrite Rmult_1_r, Rmult_1_l in H. rewrite Rmult_1_l, (Rmult_comm A0 co). eapply Rle_trans; [exact H|].
  rewrite (Rmult_comm co A0).
  assert (0 <= A0 * (Rabs k * eT)) by (apply Rmult_le_pos; lra).
  apply Rle_trans with ((14 / 10 * Rabs k * eT + 7 * u) * (A0 * (3 / 4))); [|apply Rmult_le_compat_l; lra].
  lra.
Qed.

Lemma near_alpha_plain : / 67108864 <= B2R fa0 * co <= / 1024 ->
  snear (b_mul fa0 (b_add (b_ofZ 1) (b_mul fk (b_sub fT (b_ofZ 25))))) (B2R fa0 * co) 1 (14 / 10 * Rabs k * eT + 7 * u).
Proof.
  intros HA. apply near_product; [|exact HA]. pose proof Hco as C.
  assert (PA : 0 < B2R fa0) by (apply Rmult_lt_reg_r with co; lra).
  split; [exact Fa|]. rewrite Rmult_1_l, Rminus_diag_eq, Rabs_R0 by reflexivity. apply Rmult_le_pos; lra.
Qed.

Lemma near_alpha_cp : let A0 := B2R fa0 - B2R facp * B2R fg in
  / 67108864 <= A0 * co <= / 1024 -> Rabs (B2R facp * B2R fg) <= Rabs A0 / 2 ->
  snear (b_mul (b_sub fa0 (b_mul facp fg)) (b_add (b_ofZ 1) (b_mul fk (b_sub fT (b_ofZ 25))))) (A0 * co) 1 (14 / 10 * Rabs k * eT + 7 * u).
Proof.
  intros A0 HA Hcp. apply near_product; [|exact HA]. pose proof Hco as C.
  assert (PA : 0 < A0) by (apply Rmult_lt_reg_r with co; lra).
  assert (B1 : A0 * (3 / 4) <= A0 * co) by (apply Rmult_le_compat_l; lra).
  assert (B2 : A0 * co <= A0 * (5 / 4)) by (apply Rmult_le_compat_l; lra).
  rewrite (Rabs_pos_eq A0) in Hcp by lra.
  assert (SA : scale A0).
  { split; [|lra]. apply Rle_trans with (bpow radix2 (-27)); [apply bpow_le; lia|].
    replace (bpow radix2 (-27)) with (/ 134217728) by reflexivity. lra. }
  set (r := B2R facp * B2R fg / A0). assert (Er : r * A0 = B2R facp * B2R fg) by (unfold r; field; lra).
  assert (Br : Rabs r <= 1 / 2).
  { apply Rmult_le_reg_r with A0; [exact PA|]. rewrite <- (Rabs_pos_eq A0) at 1 by lra. rewrite <- Rabs_mult, Er. lra. }
  assert (N1 : snear (b_mul facp fg) A0 r ((51 / 100) * u)).
  { pose proof (Bmult_correct 24 128 _ _ mode_NE facp fg) as H.
    rewrite RN_small in H by (rewrite <- Er, Rabs_mult, (Rabs_pos_eq A0) by lra; apply Rle_trans with (1 / 2 * 1); [apply Rmult_le_compat; try lra; apply Rabs_pos|lra]).
    destruct H as (H1 & H2 & _). rewrite Fc, Fg in H2.
    eapply (snear_rounded _ _ _ _ 0); [exact SA|exact H1|exact H2| |exact Br|lra].
    rewrite Er, Rminus_diag_eq, Rabs_R0 by reflexivity. lra. }
  replace 1 with (1 + r - r) by ring.
  assert (N2 : snear fa0 A0 (1 + r) 0).
  { split; [exact Fa|]. rewrite Rmult_plus_distr_r, Er. unfold A0. rewrite Rminus_diag_eq, Rabs_R0 by ring. lra. }
  eapply (snear_sub _ _ _ _ _ _ _ 1); [exact SA|exact N2|exact N1| |lra|lra].
  replace (1 + r - r) with 1 by ring. rewrite Rabs_R1. lra.
Qed.
End Sensitivity.
