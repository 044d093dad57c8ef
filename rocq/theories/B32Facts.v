(** * B32Facts: exactness lemmas for binary32. *)
From Verif Require Import Base FloatOps B32.
From Coq Require Import Reals Lra.
From Flocq Require Import Core BinarySingleNaN.
Open Scope Z_scope.

Notation b32_fexp := (SpecFloat.fexp 24 128).
Notation RN := (round radix2 b32_fexp (round_mode mode_NE)).

(** [x] is a finite float whose value is exactly the real [r]. *)
Definition is_val (x : f32) (r : R) : Prop := is_finite x = true /\ B2R x = r.

Lemma fexp_FLT e : b32_fexp e = FLT_exp (-149) 24 e.
Proof. reflexivity. Qed.

(** m * 2^e with |m| <= 2^24 and e in range is a binary32 number. *)
Lemma dyadic_format m e : Z.abs m <= 2 ^ 24 -> -149 <= e ->
  generic_format radix2 b32_fexp (IZR m * bpow radix2 e)%R.
Proof.
  intros Hm He.
  assert (Hlt : forall k, Z.abs k < 2 ^ 24 -> forall e', -149 <= e' ->
            generic_format radix2 b32_fexp (IZR k * bpow radix2 e')%R).
  { intros k Hk e' He'. apply generic_format_FLT.
    exists (Float radix2 k e'); [reflexivity | exact Hk | exact He']. }
  destruct (Z.eq_dec (Z.abs m) (2 ^ 24)) as [Heq|Hne].
  - assert (Hm' : m = 2 * (m / 2)).
    { apply Z_div_exact_full_2; [lia|]. destruct (Z.abs_eq_or_opp m) as [Ha|Ha]; rewrite Ha in Heq.
      - rewrite Heq. reflexivity.
      - replace m with (- (2 ^ 24)) by lia. reflexivity. }
    rewrite Hm', mult_IZR.
    replace (2 * IZR (m / 2) * bpow radix2 e)%R with (IZR (m / 2) * bpow radix2 (e + 1))%R.
    + apply Hlt; lia.
    + rewrite bpow_plus. change (bpow radix2 1) with 2%R. ring.
  - apply Hlt; lia.
Qed.

Lemma dyadic_round m e : Z.abs m <= 2 ^ 24 -> -149 <= e ->
  RN (IZR m * bpow radix2 e) = (IZR m * bpow radix2 e)%R.
Proof. intros. apply round_generic; [apply valid_rnd_round_mode|]. apply dyadic_format; assumption. Qed.

Lemma dyadic_lt m e : Z.abs m <= 2 ^ 24 -> e <= 103 ->
  (Rabs (IZR m * bpow radix2 e) < bpow radix2 128)%R.
Proof.
  intros Hm He. rewrite Rabs_mult, <- abs_IZR, (Rabs_pos_eq (bpow _ _)) by apply bpow_ge_0.
  apply Rle_lt_trans with (bpow radix2 24 * bpow radix2 e)%R.
  - apply Rmult_le_compat_r; [apply bpow_ge_0|].
    change (bpow radix2 24) with (IZR (2 ^ 24)). apply IZR_le. assumption.
  - rewrite <- bpow_plus. apply bpow_lt. lia.
Qed.

Lemma b_ofZ_correct z : Z.abs z <= 2 ^ 24 -> is_val (b_ofZ z) (IZR z).
Proof.
  intros Hz. unfold b_ofZ.
  pose proof (binary_normalize_correct 24 128 _ _ mode_NE z 0 false) as H.
  assert (Hv : F2R (Float radix2 z 0) = (IZR z * bpow radix2 0)%R) by reflexivity.
  cbv zeta in H. rewrite Hv, dyadic_round in H by lia.
  rewrite Rlt_bool_true in H by (apply dyadic_lt; lia).
  destruct H as (H1 & H2 & _). split; [exact H2|].
  rewrite H1. change (bpow radix2 0) with 1%R. ring.
Qed.

(** Exact arithmetic: whenever the real result is a binary32 number. *)
Lemma b_add_exact x y a b m e : is_val x a -> is_val y b ->
  (a + b = IZR m * bpow radix2 e)%R -> Z.abs m <= 2 ^ 24 -> -149 <= e <= 103 ->
  is_val (b_add x y) (a + b).
Proof.
  intros [Fx Hx] [Fy Hy] Hr Hm He. subst a b.
  pose proof (Bplus_correct 24 128 _ _ mode_NE x y Fx Fy) as H.
  rewrite Hr, dyadic_round in H by lia.
  rewrite Rlt_bool_true in H by (apply dyadic_lt; lia).
  destruct H as (H1 & H2 & _). split; [exact H2|]. rewrite Hr. exact H1.
Qed.

Lemma b_sub_exact x y a b m e : is_val x a -> is_val y b ->
  (a - b = IZR m * bpow radix2 e)%R -> Z.abs m <= 2 ^ 24 -> -149 <= e <= 103 ->
  is_val (b_sub x y) (a - b).
Proof.
  intros [Fx Hx] [Fy Hy] Hr Hm He. subst a b.
  pose proof (Bminus_correct 24 128 _ _ mode_NE x y Fx Fy) as H.
  rewrite Hr, dyadic_round in H by lia.
  rewrite Rlt_bool_true in H by (apply dyadic_lt; lia).
  destruct H as (H1 & H2 & _). split; [exact H2|]. rewrite Hr. exact H1.
Qed.

Lemma b_mul_exact x y a b m e : is_val x a -> is_val y b ->
  (a * b = IZR m * bpow radix2 e)%R -> Z.abs m <= 2 ^ 24 -> -149 <= e <= 103 ->
  is_val (b_mul x y) (a * b).
Proof.
  intros [Fx Hx] [Fy Hy] Hr Hm He. subst a b.
  pose proof (Bmult_correct 24 128 _ _ mode_NE x y) as H.
  rewrite Hr, dyadic_round in H by lia.
  rewrite Rlt_bool_true in H by (apply dyadic_lt; lia).
  destruct H as (H1 & H2 & _). rewrite Fx, Fy in H2. split; [exact H2|]. rewrite Hr. exact H1.
Qed.

Lemma b_div_exact x y a b m e : is_val x a -> is_val y b -> b <> 0%R ->
  (a / b = IZR m * bpow radix2 e)%R -> Z.abs m <= 2 ^ 24 -> -149 <= e <= 103 ->
  is_val (b_div x y) (a / b).
Proof.
  intros [Fx Hx] [Fy Hy] Hb Hr Hm He. subst a b.
  pose proof (Bdiv_correct 24 128 _ _ mode_NE x y Hb) as H.
  rewrite Hr, dyadic_round in H by lia.
  rewrite Rlt_bool_true in H by (apply dyadic_lt; lia).
  destruct H as (H1 & H2 & _). rewrite Fx in H2. split; [exact H2|]. rewrite Hr. exact H1.
Qed.

Lemma b_neg_exact x a : is_val x a -> is_val (b_neg x) (- a).
Proof.
  intros [Fx Hx]. split.
  - unfold b_neg. rewrite is_finite_Bopp. assumption.
  - unfold b_neg. rewrite B2R_Bopp, Hx. reflexivity.
Qed.

(** [b_toZ] inverts [b_ofZ] on small integers. *)
Lemma b_toZ_val x z : is_val x (IZR z) -> b_toZ x = Some z.
Proof.
  intros [Fx Hx]. destruct x as [s|s| |s m e He]; try discriminate; simpl in Hx |- *.
  - apply eq_IZR in Hx. subst. reflexivity.
  - assert (Hv : (IZR ((if s then -1 else 1) * Zpos m) * bpow radix2 e)%R = IZR z).
    { rewrite <- Hx. unfold F2R. simpl. destruct s; reflexivity. }
    set (v := (if s then -1 else 1) * Zpos m) in *.
    change ((if s then -1 else 1) * Zpos m) with v.
    destruct (Z.leb_spec 0 e) as [Hpos|Hneg].
    + f_equal. apply eq_IZR. rewrite <- Hv, mult_IZR. f_equal.
      rewrite <- IZR_Zpower by assumption. reflexivity.
    + assert (Hz : v = z * 2 ^ (- e)).
      { apply eq_IZR. rewrite mult_IZR, <- Hv. rewrite (IZR_Zpower radix2) by lia.
        rewrite Rmult_assoc, <- bpow_plus.
        replace (e + - e) with 0 by lia. simpl. ring. }
      assert (Hp : 2 ^ (- e) <> 0) by (apply Z.pow_nonzero; lia).
      rewrite Hz, Z_mod_mult, Z_div_mult_full by assumption. reflexivity.
Qed.

Lemma bpow_format n : -149 <= n -> generic_format radix2 b32_fexp (bpow radix2 n).
Proof.
  intros. replace (bpow radix2 n) with (IZR 1 * bpow radix2 n)%R by ring.
  apply dyadic_format; lia.
Qed.

Lemma b_exp2_val l x n : is_val x (IZR n) -> -149 <= n <= 127 -> is_val (b_exp2 l x) (bpow radix2 n).
Proof.
  intros Hx Hn. pose proof (b_toZ_val x n Hx) as HZ. destruct Hx as [Fx _].
  assert (Hone : is_val (b_ofZ 1) 1%R) by (apply (b_ofZ_correct 1); lia).
  assert (HB : is_val (Bldexp mode_NE (b_ofZ 1) n) (bpow radix2 n)).
  { destruct Hone as [F1 H1].
    pose proof (Bldexp_correct 24 128 _ _ mode_NE (b_ofZ 1) n) as H.
    rewrite H1, Rmult_1_l in H.
    rewrite round_generic in H by (try apply valid_rnd_round_mode; apply bpow_format; lia).
    rewrite Rlt_bool_true in H.
    - destruct H as (Ha & Hb & _). rewrite F1 in Hb. split; assumption.
    - rewrite Rabs_pos_eq by apply bpow_ge_0. apply bpow_lt. lia. }
  destruct x as [s|s| |s m e He]; try discriminate; unfold b_exp2; rewrite HZ;
    (destruct (Z.leb_spec 128 n); [lia|]); (destruct (Z.ltb_spec n (-200)); [lia|]); exact HB.
Qed.

Lemma b_exp2_ofZ l n : -149 <= n <= 127 -> is_val (b_exp2 l (b_ofZ n)) (bpow radix2 n).
Proof. intros. apply b_exp2_val; [apply b_ofZ_correct; lia|assumption]. Qed.

(** Dividing an integer of at most 24 bits by a power of two is exact. *)
Lemma b_scale_exact x y z n : is_val x (IZR z) -> Z.abs z <= 2 ^ 24 ->
  is_val y (bpow radix2 n) -> -103 <= n <= 149 ->
  is_val (b_div x y) (IZR z * bpow radix2 (- n)).
Proof.
  intros Hx Hz Hy Hn.
  assert (Hr : (IZR z / bpow radix2 n = IZR z * bpow radix2 (- n))%R).
  { rewrite bpow_opp. reflexivity. }
  rewrite <- Hr. apply (b_div_exact _ _ _ _ z (- n)); try assumption; try lia.
  apply Rgt_not_eq, bpow_gt_0.
Qed.

(** Comparison with [==]. *)
Lemma b_eqb_val x y a b : is_val x a -> is_val y b -> b_eqb x y = true <-> a = b.
Proof.
  intros [Fx Hx] [Fy Hy]. unfold b_eqb. rewrite Beqb_correct by assumption. rewrite Hx, Hy.
  split; intros H.
  - destruct (Req_bool_spec a b); [assumption|discriminate].
  - apply Req_bool_true. exact H.
Qed.
