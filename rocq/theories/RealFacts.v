From Coq Require Import Reals Lra Psatz.
From Verif Require Import Base FloatOps Register Bus Camera Calc RealOps SpecPhysics.
Local Open Scope R_scope.

Lemma root4_pos x : 0 < Rpower x (1/4).
Proof. apply exp_pos. Qed.

Lemma root4_pow x : 0 < x -> Rpower x (1/4) ^ 4 = x.
Proof.
  intros H. rewrite <- Rpower_pow by apply root4_pos. rewrite Rpower_mult.
  replace (1 / 4 * INR 4) with 1 by (simpl; field). apply Rpower_1. exact H.
Qed.

Lemma pow4_root x : 0 < x -> Rpower (x ^ 4) (1/4) = x.
Proof.
  intros H. rewrite <- (Rpower_pow 4 x H). rewrite Rpower_mult.
  replace (INR 4 * (1 / 4)) with 1 by (simpl; field). apply Rpower_1. exact H.
Qed.

Lemma powerRZ4 x : powerRZ x 4 = x ^ 4.
Proof. reflexivity. Qed.
Lemma powerRZ3 x : powerRZ x 3 = x ^ 3.
Proof. reflexivity. Qed.

Lemma pow4_lt x y : 0 <= x -> x < y -> x ^ 4 < y ^ 4.
Proof.
  intros Hx H. assert (0 < y) by lra.
  assert (x ^ 2 < y ^ 2) by nra. assert (0 <= x ^ 2) by nra.
  replace (x ^ 4) with (x ^ 2 * x ^ 2) by ring. replace (y ^ 4) with (y ^ 2 * y ^ 2) by ring. nra.
Qed.
Lemma pow4_inj x y : 0 < x -> 0 < y -> x ^ 4 = y ^ 4 -> x = y.
Proof.
  intros Hx Hy H. destruct (Rtotal_order x y) as [L|[L|L]]; [|assumption|].
  - pose proof (pow4_lt x y). lra.
  - pose proof (pow4_lt y x). lra.
Qed.

(** [S_x] of the datasheet is the slope times the first estimate. *)
Lemma s_x_estimate v alpha tar : 0 < alpha -> 0 < v / alpha + tar ->
  Rpower (alpha ^ 3 * v + alpha ^ 4 * tar) (1/4) = alpha * Rpower (v / alpha + tar) (1/4).
Proof.
  intros Ha H. replace (alpha ^ 3 * v + alpha ^ 4 * tar) with (alpha ^ 4 * (v / alpha + tar)) by (field; lra).
  rewrite <- Rpower_mult_distr; [|apply pow_lt; assumption|assumption].
  rewrite pow4_root by assumption. reflexivity.
Qed.

Lemma t_ar_R ta tr eps : eps <> 0 ->
  t_ar (FO := RealOps) ta tr eps = kelvin tr ^ 4 - (kelvin tr ^ 4 - kelvin ta ^ 4) / eps.
Proof.
  intros He. unfold t_ar, kelvin. cbn [RealOps F fadd fsub fmul fdiv feqb fofZ fpowi f_273_15].
  rewrite !powerRZ4. replace (27315 / 100) with 273.15 by lra.
  destruct (Req_EM_T eps 1) as [->|Hn]; [field|reflexivity].
Qed.

(** First estimate of the object temperature: the sensitivity is not corrected. *)
Definition estimate (v alpha tar : R) : R := Rpower (v / alpha + tar) (1/4) - 273.15.

Lemma temperature_R v alpha tar k : 0 < alpha -> 0 < v / alpha + tar ->
  per_pixel_temperature (FO := RealOps) v alpha tar k =
  Rpower (v / sensitivity_at alpha k (estimate v alpha tar) + tar) (1/4) - 273.15.
Proof.
  intros Ha H. unfold per_pixel_temperature, sensitivity_at, estimate.
  cbn [RealOps F fadd fsub fmul fdiv fofZ fpowi fpowf f_quarter f_273_15].
  rewrite powerRZ4, powerRZ3, s_x_estimate by assumption.
  replace (27315 / 100) with 273.15 by lra.
  f_equal. f_equal. f_equal. f_equal. ring.
Qed.

Lemma explains_root alpha eps v tr ta :
  0 < alpha -> eps <> 0 -> 0 < v / alpha + t_ar (FO := RealOps) ta tr eps ->
  forall t, explains_signal alpha eps v tr ta t <->
    t = Rpower (v / alpha + t_ar (FO := RealOps) ta tr eps) (1/4) - 273.15.
Proof.
  intros Ha He H t. rewrite t_ar_R in * by assumption.
  set (x := v / alpha + _) in *.
  assert (Hk : kelvin (Rpower x (1/4) - 273.15) = Rpower x (1/4)) by (unfold kelvin; ring).
  split.
  - intros [Hp Hb]. assert (E : kelvin t ^ 4 = x).
    { unfold net_radiation in Hb. unfold x.
      assert (G : eps * kelvin t ^ 4 = eps * (v / alpha + (kelvin tr ^ 4 - (kelvin tr ^ 4 - kelvin ta ^ 4) / eps))).
      { apply (Rmult_eq_reg_l alpha); [|lra].
        replace (alpha * (eps * (v / alpha + (kelvin tr ^ 4 - (kelvin tr ^ 4 - kelvin ta ^ 4) / eps))))
          with (eps * v + alpha * (eps * kelvin tr ^ 4 - (kelvin tr ^ 4 - kelvin ta ^ 4))) by (field; lra).
        rewrite <- Hb. ring. }
      apply Rmult_eq_reg_l in G; assumption. }
    rewrite <- E, pow4_root by assumption. unfold kelvin. ring.
  - intros ->. split; [rewrite Hk; apply root4_pos|].
    unfold net_radiation. rewrite Hk, root4_pow by assumption. unfold x. field. lra.
Qed.

Lemma explains_unique alpha eps v tr ta t t' : 0 < alpha -> 0 < eps ->
  explains_signal alpha eps v tr ta t -> explains_signal alpha eps v tr ta t' -> t = t'.
Proof.
  intros Ha He [Hp Hb] [Hp' Hb']. unfold net_radiation in *.
  assert (kelvin t = kelvin t'); [|unfold kelvin in *; lra].
  apply pow4_inj; [assumption|assumption|].
  apply (Rmult_eq_reg_l (alpha * eps)); [|nra]. nra.
Qed.

(** ** The stored temperature is the one that explains the signal *)
Lemma temperature_explains alpha eps k v tr ta t0 t :
  0 < alpha -> 0 < eps ->
  explains_signal alpha eps v tr ta t0 ->
  0 < sensitivity_at alpha k t0 ->
  explains_signal (sensitivity_at alpha k t0) eps v tr ta t ->
  per_pixel_temperature (FO := RealOps) v alpha (t_ar (FO := RealOps) ta tr eps) k = t.
Proof.
  intros Ha He H0 Hs Ht.
  assert (Pos : forall a u, 0 < a -> explains_signal a eps v tr ta u ->
            0 < v / a + t_ar (FO := RealOps) ta tr eps).
  { intros a u Hap [Hp Hb]. rewrite t_ar_R by lra.
    replace (v / a + (kelvin tr ^ 4 - (kelvin tr ^ 4 - kelvin ta ^ 4) / eps)) with (kelvin u ^ 4);
      [apply pow_lt; assumption|].
    unfold net_radiation in Hb. apply (Rmult_eq_reg_l (a * eps)); [|nra].
    replace (a * eps * (v / a + (kelvin tr ^ 4 - (kelvin tr ^ 4 - kelvin ta ^ 4) / eps)))
      with (eps * v + a * (eps * kelvin tr ^ 4 - (kelvin tr ^ 4 - kelvin ta ^ 4))) by (field; lra).
    rewrite <- Hb. ring. }
  pose proof (Pos alpha t0 Ha H0) as P0. pose proof (Pos _ t Hs Ht) as P1.
  rewrite temperature_R by assumption.
  apply explains_root in H0; [|assumption|lra|assumption].
  unfold estimate. rewrite <- H0.
  apply explains_root in Ht; [|assumption|lra|assumption]. symmetry. exact Ht.
Qed.

(** Background radiation: what the sensor would see of an object with emissivity 1 and no signal. *)
Lemma explains_pow4 alpha eps v tr ta t : 0 < alpha -> 0 < eps ->
  explains_signal alpha eps v tr ta t ->
  kelvin t ^ 4 = v / alpha + (kelvin tr ^ 4 - (kelvin tr ^ 4 - kelvin ta ^ 4) / eps).
Proof.
  intros Ha He [Hp Hb]. unfold net_radiation in Hb. apply (Rmult_eq_reg_l (alpha * eps)); [|nra].
  replace (alpha * eps * (v / alpha + (kelvin tr ^ 4 - (kelvin tr ^ 4 - kelvin ta ^ 4) / eps)))
    with (eps * v + alpha * (eps * kelvin tr ^ 4 - (kelvin tr ^ 4 - kelvin ta ^ 4))) by (field; lra).
  rewrite <- Hb. ring.
Qed.

Lemma corrected_increasing k tar x y :
  0 < x -> x < y -> 0 < 1 + k * (x - 273.15) -> 0 < 1 + k * (y - 273.15) ->
  (0 <= k /\ k * 273.15 <= 1 /\ 0 <= tar) \/ (k < 0 /\ - k * tar <= y ^ 3) ->
  (x ^ 4 - tar) / (1 + k * (x - 273.15)) < (y ^ 4 - tar) / (1 + k * (y - 273.15)).
Proof.
  intros Hx Hxy Dx Dy Hk. set (dx := 1 + k * (x - 273.15)) in *. set (dy := 1 + k * (y - 273.15)) in *.
  assert (G : 0 < (y ^ 4 - tar) * dx - (x ^ 4 - tar) * dy).
  { replace ((y ^ 4 - tar) * dx - (x ^ 4 - tar) * dy)
      with ((y - x) * ((y^3 + y^2*x + y*x^2 + x^3) * (1 - k * 273.15) + k * (x*y*(y^2 + x*y + x^2) + tar)))
      by (unfold dx, dy; ring).
    apply Rmult_lt_0_compat; [lra|].
    assert (Hy : 0 < y) by lra.
    assert (P3 : 0 < y ^ 3) by (apply pow_lt; lra).
    assert (Q : 0 < y^2*x + y*x^2 + x^3).
    { assert (0 < y^2*x) by (apply Rmult_lt_0_compat; [apply pow_lt|]; lra).
      assert (0 < y*x^2) by (apply Rmult_lt_0_compat; [|apply pow_lt]; lra).
      assert (0 < x^3) by (apply pow_lt; lra). lra. }
    assert (W : 0 < x*y*(y^2 + x*y + x^2)).
    { apply Rmult_lt_0_compat; [nra|]. nra. }
    destruct Hk as [(K0 & K1 & T0)|(K0 & T0)].
    - assert (0 <= (y^3 + (y^2*x + y*x^2 + x^3)) * (1 - k * 273.15)) by (apply Rmult_le_pos; lra).
      assert (0 <= k * (x*y*(y^2 + x*y + x^2) + tar)) by (apply Rmult_le_pos; lra).
      destruct (Req_dec (k * 273.15) 1) as [E|E].
      + assert (0 < k) by lra. assert (0 < k * (x*y*(y^2 + x*y + x^2) + tar)) by (apply Rmult_lt_0_compat; lra). lra.
      + assert (0 < (y^3 + (y^2*x + y*x^2 + x^3)) * (1 - k * 273.15)) by (apply Rmult_lt_0_compat; lra). lra.
    - assert (A1 : - k * y * (y^2*x + y*x^2 + x^3) <= (1 - k * 273.15) * (y^2*x + y*x^2 + x^3)).
      { apply Rmult_le_compat_r; [lra|]. unfold dy in Dy. lra. }
      assert (A2 : y ^ 3 < (1 - k * 273.15) * y ^ 3).
      { rewrite <- (Rmult_1_l (y ^ 3)) at 1. apply Rmult_lt_compat_r; [assumption|lra]. }
      replace (- k * y * (y^2*x + y*x^2 + x^3)) with (- k * (x*y*(y^2 + x*y + x^2))) in A1 by ring.
      nra. }
  apply (Rmult_lt_reg_r (dx * dy)); [nra|].
  replace ((x ^ 4 - tar) / dx * (dx * dy)) with ((x ^ 4 - tar) * dy) by (field; lra).
  replace ((y ^ 4 - tar) / dy * (dx * dy)) with ((y ^ 4 - tar) * dx) by (field; lra).
  lra.
Qed.

Lemma pow4_lt_inv x y : 0 < x -> 0 < y -> x ^ 4 < y ^ 4 -> x < y.
Proof.
  intros Hx Hy H. destruct (Rtotal_order x y) as [L|[L|L]]; [assumption|subst; lra|].
  pose proof (pow4_lt y x). lra.
Qed.

(** A stronger signal means a hotter object. *)
Lemma hotter alpha eps k v v' tr ta t0 t0' t t' :
  0 < alpha -> 0 < eps -> v < v' ->
  explains_signal alpha eps v tr ta t0 -> explains_signal alpha eps v' tr ta t0' ->
  0 < sensitivity_at alpha k t0 -> 0 < sensitivity_at alpha k t0' ->
  explains_signal (sensitivity_at alpha k t0) eps v tr ta t ->
  explains_signal (sensitivity_at alpha k t0') eps v' tr ta t' ->
  let background := kelvin tr ^ 4 - (kelvin tr ^ 4 - kelvin ta ^ 4) / eps in
  (0 <= k <= 1 / 273.15 /\ 0 <= background) \/ (k < 0 /\ - k * background <= kelvin t0' ^ 3) ->
  t0 < t0' /\ t < t'.
Proof.
  intros Ha He Hv E0 E0' S0 S0' E E' bg Hk.
  pose proof (explains_pow4 _ _ _ _ _ _ Ha He E0) as Q0. pose proof (explains_pow4 _ _ _ _ _ _ Ha He E0') as Q0'.
  pose proof (explains_pow4 _ _ _ _ _ _ S0 He E) as Q. pose proof (explains_pow4 _ _ _ _ _ _ S0' He E') as Q'.
  fold bg in Q0, Q0', Q, Q'.
  destruct E0 as [P0 _], E0' as [P0' _], E as [P _], E' as [P' _].
  assert (L0 : kelvin t0 < kelvin t0').
  { apply pow4_lt_inv; [assumption|assumption|]. rewrite Q0, Q0'.
    assert (v / alpha < v' / alpha); [|lra]. apply Rmult_lt_compat_r; [apply Rinv_0_lt_compat|]; assumption. }
  split; [unfold kelvin in L0; lra|].
  assert (L : kelvin t < kelvin t'); [|unfold kelvin in L; lra].
  apply pow4_lt_inv; [assumption|assumption|]. rewrite Q, Q'.
  apply Rplus_lt_compat_r. unfold sensitivity_at in *.
  assert (D : 0 < 1 + k * t0) by nra. assert (D' : 0 < 1 + k * t0') by nra.
  replace (v / (alpha * (1 + k * t0))) with ((kelvin t0 ^ 4 - bg) / (1 + k * (kelvin t0 - 273.15))).
  2: { rewrite Q0. replace (kelvin t0 - 273.15) with t0 by (unfold kelvin; ring). field. lra. }
  replace (v' / (alpha * (1 + k * t0'))) with ((kelvin t0' ^ 4 - bg) / (1 + k * (kelvin t0' - 273.15))).
  2: { rewrite Q0'. replace (kelvin t0' - 273.15) with t0' by (unfold kelvin; ring). field. lra. }
  apply corrected_increasing; [assumption|assumption| | |].
  - unfold kelvin. lra.
  - unfold kelvin. lra.
  - destruct Hk as [[[K0 K1] T0]|[K0 T0]]; [left|right; split; assumption].
    split; [assumption|]. split; [|assumption].
    apply (Rmult_le_compat_r 273.15) in K1; [|lra].
    replace (1 / 273.15 * 273.15) with 1 in K1 by (field; lra). exact K1.
Qed.

(** The signal grows with the raw pixel value. *)
Lemma v_ir_R_increasing px px' (cm : common_ir_data (FO := RealOps)) off kv kta amc :
  0 < c_gain cm -> 0 < c_emissivity cm -> (px < px')%Z ->
  per_pixel_v_ir (FO := RealOps) px cm off kv kta amc < per_pixel_v_ir (FO := RealOps) px' cm off kv kta amc.
Proof.
  intros Hg He Hp. unfold per_pixel_v_ir.
  cbn [RealOps F fadd fsub fmul fdiv fofZ f_3_3].
  apply Rmult_lt_compat_r; [apply Rinv_0_lt_compat; assumption|].
  unfold Rminus. do 2 apply Rplus_lt_compat_r.
  apply Rmult_lt_compat_r; [assumption|]. apply IZR_lt. exact Hp.
Qed.
