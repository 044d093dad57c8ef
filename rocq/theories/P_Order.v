(** * P_Order: C97 -- rounding does not reverse the order of pixels. *)
From Coq Require Import Reals Lra Psatz.
From Verif Require Import Base FloatOps Register Bus Camera Calc CalcFacts B32 B32Facts SpecCamera SpecImage SpecOrder
  P_CalcReal P_Physics P_Finite Dumps Cam640 Ee640 SpecEeprom P_PixelAccuracy.
From Flocq Require Import Core BinarySingleNaN.
Open Scope R_scope.

Lemma not_finite_0 (x : f32) : is_finite x = false -> B2R x = 0.
Proof. destruct x; intros H; try reflexivity; discriminate. Qed.
Lemma positive_finite (x : f32) : 0 < B2R x -> is_finite x = true.
Proof. intros H. destruct (is_finite x) eqn:E; [reflexivity|]. rewrite (not_finite_0 x E) in H. lra. Qed.

Lemma some_eq {A} (x y : A) : Some x = Some y -> x = y.
Proof. intros H. injection H as H. exact H. Qed.

(** Quotients by sensitivities that change with the signal. *)
Lemma quotient_order (k v v' d d' : R) : v <= v' -> 0 < d -> 0 < d' ->
  (k <= 0 -> d' <= d) -> (0 <= k -> d <= d') ->
  (k <= 0 /\ 0 <= v') \/ k = 0 \/ (0 <= k /\ v <= 0) -> v / d <= v' / d'.
Proof.
  intros Hv Hd Hd' Hneg Hpos Hc.
  pose proof (Rinv_0_lt_compat d Hd) as I. pose proof (Rinv_0_lt_compat d' Hd') as I'.
  unfold Rdiv. destruct Hc as [[Hk H]|[Hk|[Hk H]]].
  - specialize (Hneg Hk). pose proof (Rinv_le_contravar d' d Hd' Hneg) as J. nra.
  - assert (E : d = d') by (apply Rle_antisym; [apply Hpos|apply Hneg]; lra). rewrite E. nra.
  - specialize (Hpos Hk). pose proof (Rinv_le_contravar d d' Hd Hpos) as J. nra.
Qed.

Section Order.
Context (l : libm) (Hl : orderly l).

(** Temperatures from signals [v <= v'] with the same sensitivity and surroundings. *)
Lemma temperature_order (a k bg v v' : f32) :
  let t v : f32 := per_pixel_temperature (FO := B32 l) (v : F (B32 l)) (a : F (B32 l)) (bg : F (B32 l)) (k : F (B32 l)) in
  let sens v : f32 := b_add (b_mul a (b_sub (b_ofZ 1) (b_mul k (@f_273_15 (B32 l)))))
        (b_mul k (root l (b_add (b_mul (lm_powi l a 3) v) (b_mul (lm_powi l a 4) bg)))) in
  0 <= B2R a -> B2R v <= B2R v' -> 0 < B2R (sens v) -> 0 < B2R (sens v') ->
  (B2R k <= 0 /\ 0 <= B2R v') \/ B2R k = 0 \/ (0 <= B2R k /\ B2R v <= 0) ->
  is_finite (t v) = true -> is_finite (t v') = true -> B2R (t v) <= B2R (t v').
Proof.
  intros t sens Ha Hv Hs Hs' Hc Ft Ft'.
  assert (Et : forall v, t v = b_sub (root l (b_add (b_div v (sens v)) bg)) (@f_273_15 (B32 l))) by reflexivity.
  rewrite Et in *. rewrite Et.
  pose proof (positive_finite _ Hs) as Fs. pose proof (positive_finite _ Hs') as Fs'.
  assert (Hr : forall v, is_finite (sens v) = true ->
    is_finite (root l (b_add (b_mul (lm_powi l a 3) v) (b_mul (lm_powi l a 4) bg))) = true /\
    B2R (sens v) = RN (B2R (b_mul a (b_sub (b_ofZ 1) (b_mul k (@f_273_15 (B32 l))))) +
       RN (B2R k * B2R (root l (b_add (b_mul (lm_powi l a 3) v) (b_mul (lm_powi l a 4) bg)))))).
  { intros w Fw. unfold sens in Fw |- *. apply b_add_fin in Fw. destruct Fw as (_ & Fm & ->).
    apply b_mul_fin in Fm. destruct Fm as (_ & Fr & ->). split; [exact Fr|reflexivity]. }
  destruct (Hr v Fs) as [Fr Es]. destruct (Hr v' Fs') as [Fr' Es'].
  assert (Hroot : B2R (root l (b_add (b_mul (lm_powi l a 3) v) (b_mul (lm_powi l a 4) bg))) <=
                  B2R (root l (b_add (b_mul (lm_powi l a 3) v') (b_mul (lm_powi l a 4) bg)))).
  { apply (or_monotone l Hl); [exact Fr|exact Fr'|].
    destruct (or_domain l Hl _ Fr) as [Fi _]. destruct (or_domain l Hl _ Fr') as [Fi' _].
    apply b_add_fin in Fi. destruct Fi as (Fi & _ & ->). apply b_add_fin in Fi'. destruct Fi' as (Fi' & _ & ->).
    apply RN_le. apply Rplus_le_compat_r.
    apply b_mul_fin in Fi. destruct Fi as (_ & _ & ->). apply b_mul_fin in Fi'. destruct Fi' as (_ & _ & ->).
    apply RN_le. apply Rmult_le_compat_l; [apply (or_cube l Hl); exact Ha|exact Hv]. }
  assert (Hq : B2R v / B2R (sens v) <= B2R v' / B2R (sens v')).
  { apply (quotient_order (B2R k)); try assumption; intros Hk; rewrite Es, Es'; apply RN_le, Rplus_le_compat_l, RN_le; nra. }
  apply b_sub_fin in Ft. destruct Ft as (Ft & _ & ->). apply b_sub_fin in Ft'. destruct Ft' as (Ft' & _ & ->).
  apply RN_le. apply Rplus_le_compat_r.
  apply (or_monotone l Hl); [exact Ft|exact Ft'|].
  destruct (or_domain l Hl _ Ft) as [Fi _]. destruct (or_domain l Hl _ Ft') as [Fi' _].
  apply b_add_fin in Fi. destruct Fi as (Fi & _ & ->). apply b_add_fin in Fi'. destruct Fi' as (Fi' & _ & ->).
  apply RN_le. apply Rplus_le_compat_r.
  apply b_div_fin in Fi; [|lra]. destruct Fi as (_ & ->). apply b_div_fin in Fi'; [|lra]. destruct Fi' as (_ & ->).
  apply RN_le. exact Hq.
Qed.

Lemma signed_abs z : (0 <= z < 65536)%Z -> (Z.abs (signed z) <= 2 ^ 24)%Z.
Proof. intros H. unfold signed. change (2 ^ 24)%Z with 16777216%Z. destruct (_ <? _)%Z; lia. Qed.

(** Two frames that differ only in the raw value of pixel [i], which is at least as large in the
    second: the pixel's value in the raw image is not smaller in the second, and neither is its
    temperature, if the sensitivity falls with temperature (slope not positive, the usual case)
    and the second signal is not negative, or conversely, or does not change. *)
Theorem C97_frames : forall (c : calib (B32 l)) lay (s : settings (FO := B32 l)) sp mem mem' i,
  lay = layout640 \/ lay = layout641 -> (i < lay_pixels lay)%nat ->
  (forall a, a <> lay_address lay sp i -> mem' a = mem a) ->
  (forall a, 0 <= mem a < 65536)%Z -> (forall a, 0 <= mem' a < 65536)%Z ->
  (SpecImage.ram mem (lay_address lay sp i) <= SpecImage.ram mem' (lay_address lay sp i))%Z ->
  let v : f32 := doc_pixel c lay s sp mem true i in
  let v' : f32 := doc_pixel c lay s sp mem' true i in
  let t : f32 := doc_pixel c lay s sp mem false i in
  let t' : f32 := doc_pixel c lay s sp mem' false i in
  let k := B2R (slope32 l c lay) in
  0 <= B2R (doc_gain c lay mem : f32) -> 0 < B2R (set_emissivity s : f32) ->
  (is_finite v = true -> is_finite v' = true -> B2R v <= B2R v') /\
  (0 <= B2R (doc_alpha c lay sp mem i : f32) ->
   0 < B2R (effective_sensitivity l c lay s sp mem i) -> 0 < B2R (effective_sensitivity l c lay s sp mem' i) ->
   (k <= 0 /\ 0 <= B2R v') \/ k = 0 \/ (0 <= k /\ B2R v <= 0) ->
   is_finite t = true -> is_finite t' = true -> B2R t <= B2R t').
Proof.
  intros c lay s sp mem mem' i Hlay Hi Hm Hw Hw' Hr v v' t t' k Hg He.
  destruct (pixel_address_alone lay sp i Hlay Hi) as (A1 & A2 & A3 & A4 & A5).
  assert (Hram : forall a, a <> lay_address lay sp i -> SpecImage.ram mem' a = SpecImage.ram mem a)
    by (intros a Ha; unfold SpecImage.ram; rewrite Hm by assumption; reflexivity).
  assert (Eta : doc_t_a c lay mem' = doc_t_a c lay mem).
  { unfold doc_t_a, doc_v_ptat_art, doc_delta_v. rewrite !Hram by assumption. reflexivity. }
  assert (Ealpha : doc_alpha c lay sp mem' i = doc_alpha c lay sp mem i)
    by (unfold doc_alpha; rewrite Eta; reflexivity).
  assert (Etar : doc_t_ar c lay s mem' = doc_t_ar c lay s mem)
    by (unfold doc_t_ar; rewrite Eta; reflexivity).
  assert (Hcomp : forall z off kv kta amc,
    doc_compensated c lay s mem' z off kv kta amc = doc_compensated c lay s mem z off kv kta amc).
  { intros. unfold doc_compensated, doc_gain, doc_v_dd, doc_delta_v. rewrite Eta, !Hram by assumption. reflexivity. }
  assert (Hv : is_finite v = true -> is_finite v' = true -> B2R v <= B2R v').
  { unfold v, v', doc_pixel, doc_v_ir. rewrite (Hram (lay_cp lay sp)) by assumption. rewrite !Hcomp.
    assert (G : forall z z' off kv kta amc, (Z.abs z <= 2 ^ 24)%Z -> (Z.abs z' <= 2 ^ 24)%Z -> (z <= z')%Z ->
      is_finite (doc_compensated c lay s mem z off kv kta amc : f32) = true ->
      is_finite (doc_compensated c lay s mem z' off kv kta amc : f32) = true ->
      B2R (doc_compensated c lay s mem z off kv kta amc : f32) <= B2R (doc_compensated c lay s mem z' off kv kta amc : f32)).
    { intros z z' off kv kta amc Hz Hz' Hle.
      exact (v_ir_mono l {| c_gain := doc_gain c lay mem; c_v_dd := doc_v_dd c lay s mem;
               c_emissivity := set_emissivity s; c_t_a := doc_t_a c lay mem |} off kv kta amc z z' Hz Hz' Hle Hg He). }
    pose proof (signed_abs _ (Hw (lay_address lay sp i))) as B1.
    pose proof (signed_abs _ (Hw' (lay_address lay sp i))) as B2.
    destruct (temperature_gradient_coefficient (B32 l) c).
    - cbn [fsub B32]. intros F1 F2.
      apply b_sub_fin in F1. destruct F1 as (F1 & _ & ->). apply b_sub_fin in F2. destruct F2 as (F2 & _ & ->).
      apply RN_le, Rplus_le_compat_r. apply G; assumption.
    - apply G; assumption. }
  split; [exact Hv|].
  intros Ha Hs Hs' Hk Ft Ft'.
  unfold effective_sensitivity in Hs, Hs'. rewrite Ealpha, Etar in Hs'.
  pose proof (temperature_order (doc_alpha c lay sp mem i) (slope32 l c lay) (doc_t_ar c lay s mem) v v') as T.
  cbv zeta in T.
  change t with (per_pixel_temperature (FO := B32 l) v (doc_alpha c lay sp mem i) (doc_t_ar c lay s mem) (slope32 l c lay)) in Ft |- *.
  assert (Et' : t' = per_pixel_temperature (FO := B32 l) v' (doc_alpha c lay sp mem i) (doc_t_ar c lay s mem) (slope32 l c lay)).
  { rewrite <- Ealpha, <- Etar. reflexivity. }
  rewrite Et' in Ft' |- *.
  assert (Fv : forall w a bg k0 : f32, is_finite (per_pixel_temperature (FO := B32 l) w a bg k0 : f32) = true ->
    0 < B2R (b_add (b_mul a (b_sub (b_ofZ 1) (b_mul k0 (@f_273_15 (B32 l)))))
        (b_mul k0 (root l (b_add (b_mul (lm_powi l a 3) w) (b_mul (lm_powi l a 4) bg))))) -> is_finite w = true).
  { intros w a bg k0 Fp Hp.
    change (per_pixel_temperature (FO := B32 l) w a bg k0) with
      (b_sub (root l (b_add (b_div w (b_add (b_mul a (b_sub (b_ofZ 1) (b_mul k0 (@f_273_15 (B32 l)))))
        (b_mul k0 (root l (b_add (b_mul (lm_powi l a 3) w) (b_mul (lm_powi l a 4) bg)))))) bg)) (@f_273_15 (B32 l))) in Fp.
    apply b_sub_fin in Fp. destruct Fp as (Fp & _). destruct (or_domain l Hl _ Fp) as [Fi _].
    apply b_add_fin in Fi. destruct Fi as (Fi & _). apply b_div_fin in Fi; [|lra]. apply Fi. }
  apply T; try assumption. apply Hv; eapply Fv; eassumption.
Qed.
End Order.
Print Assumptions C97_frames.

(** The same for two images a driver made ([image_stored]: every successful image call, C55). *)
Theorem C97_images : forall l, orderly l ->
  forall (c : calib (B32 l)) lay (s : settings (FO := B32 l)) sp mem mem' i (dest dest' d d' : list f32) (old old' x x' : f32),
  lay = layout640 \/ lay = layout641 ->
  image_stored c lay s sp mem false (dest : list (F (B32 l))) d -> image_stored c lay s sp mem' false (dest' : list (F (B32 l))) d' ->
  measured lay sp (set_pattern s) i = true ->
  nth_error dest i = Some old -> nth_error dest' i = Some old' ->
  (forall a, a <> lay_address lay sp i -> mem' a = mem a) ->
  (forall a, 0 <= mem a < 65536)%Z -> (forall a, 0 <= mem' a < 65536)%Z ->
  (SpecImage.ram mem (lay_address lay sp i) <= SpecImage.ram mem' (lay_address lay sp i))%Z ->
  0 <= B2R (doc_gain c lay mem : f32) -> 0 < B2R (set_emissivity s : f32) ->
  0 <= B2R (doc_alpha c lay sp mem i : f32) ->
  0 < B2R (effective_sensitivity l c lay s sp mem i) -> 0 < B2R (effective_sensitivity l c lay s sp mem' i) ->
  B2R (slope32 l c lay) <= 0 -> 0 <= B2R (doc_v_ir c lay s sp mem' i : f32) ->
  nth_error d i = Some x -> nth_error d' i = Some x' ->
  is_finite x = true -> is_finite x' = true -> B2R x <= B2R x'.
Proof.
  intros l Hl c lay s sp mem mem' i dest dest' d d' old old' x x' Hlay [_ S] [_ S'] Hm Ho Ho' Hmem Hw Hw' Hr Hg He Ha Hs Hs' Hk Hv Hx Hx' Fx Fx'.
  specialize (S i old Ho). specialize (S' i old' Ho'). rewrite Hm in S, S'.
  pose proof (some_eq _ _ (eq_trans (eq_sym Hx) S)) as Ex. pose proof (some_eq _ _ (eq_trans (eq_sym Hx') S')) as Ex'.
  rewrite Ex in Fx |- *. rewrite Ex' in Fx' |- *.
  assert (Hi : (i < lay_pixels lay)%nat).
  { unfold measured in Hm. apply andb_prop in Hm. apply Nat.ltb_lt, Hm. }
  destruct (C97_frames l Hl c lay s sp mem mem' i Hlay Hi Hmem Hw Hw' Hr Hg He) as [_ H].
  apply H; try assumption. left. split; assumption.
Qed.
Print Assumptions C97_images.

(** ** Such a library exists: a fourth root rounded down to a multiple of 2^-78, then to
    nearest; powers by multiplication. *)
Definition grid_root (x : f32) : f32 :=
  match x with
  | B754_finite false m e _ =>
      binary_normalize 24 128 _ _ mode_NE (Z.sqrt (Z.sqrt (Zpos m * 2 ^ (e + 312)))) (-78) false
  | B754_zero s => B754_zero s
  | B754_infinity false => B754_infinity false
  | _ => B754_nan
  end.
Definition grid_powi (x : f32) (n : Z) : f32 :=
  if (n =? 3)%Z then b_mul x (b_mul x x) else if (n =? 4)%Z then b_mul (b_mul x x) (b_mul x x) else B754_nan.
Definition grid_lib : libm := {| lm_exp2 := fun x => x; lm_powi := grid_powi; lm_powf := fun x _ => grid_root x |}.

Definition grid_value (x : f32) : Z :=
  match x with
  | B754_finite false m e _ => Z.sqrt (Z.sqrt (Zpos m * 2 ^ (e + 312)))
  | _ => 0
  end.
Lemma finite_exponents s m e (H : SpecFloat.bounded 24 128 m e = true) :
  is_finite (B754_finite s m e H : f32) = true -> (-149 <= e <= 104)%Z /\ (Zpos m < 2 ^ 24)%Z.
Proof.
  intros _. pose proof H as B. unfold SpecFloat.bounded in B. apply andb_prop in B. destruct B as [B1 B2].
  apply Zle_bool_imp_le in B2. unfold SpecFloat.canonical_mantissa in B1. apply Zeq_bool_eq in B1.
  unfold SpecFloat.fexp, SpecFloat.emin in B1. rewrite Zpos_digits2_pos in B1.
  assert (D : (Digits.Zdigits radix2 (Zpos m) <= 24)%Z) by lia.
  split; [lia|]. apply Digits.Zpower_gt_Zdigits in D. exact D.
Qed.
Lemma sqrt_le_pow a n : (0 <= a)%Z -> (a < 2 ^ (2 * n))%Z -> (0 <= n)%Z -> (0 <= Z.sqrt a < 2 ^ n)%Z.
Proof.
  intros Ha H Hn. split; [apply Z.sqrt_nonneg|]. apply Z.sqrt_lt_square; [exact Ha|apply Z.pow_nonneg; lia|].
  rewrite <- Z.pow_twice_r. exact H.
Qed.
Lemma grid_value_bound x : (0 <= grid_value x < 2 ^ 110)%Z.
Proof.
  assert (P : (0 <= 0 < 2 ^ 110)%Z) by (split; [lia|reflexivity]).
  destruct x as [s|s| |[] m e H]; try exact P. unfold grid_value.
  destruct (finite_exponents false m e H eq_refl) as [He Hm].
  assert (A : (0 <= Z.sqrt (Zpos m * 2 ^ (e + 312)) < 2 ^ (2 * 110))%Z).
  { apply sqrt_le_pow; [apply Z.mul_nonneg_nonneg; [lia|apply Z.pow_nonneg; lia]| |lia].
    change (2 ^ (2 * (2 * 110)))%Z with (2 ^ 24 * 2 ^ 416)%Z.
    apply Z.lt_le_trans with (2 ^ 24 * 2 ^ (e + 312))%Z.
    - apply Z.mul_lt_mono_pos_r; [apply Z.pow_pos_nonneg; lia|exact Hm].
    - apply Z.mul_le_mono_nonneg_l; [discriminate|]. apply Z.pow_le_mono_r; lia. }
  destruct A as [A1 A2]. apply sqrt_le_pow; [exact A1|exact A2|discriminate].
Qed.
Lemma grid_root_val x : is_finite x = true -> 0 <= B2R x ->
  is_finite (grid_root x) = true /\ B2R (grid_root x) = RN (F2R (Float radix2 (grid_value x) (-78))).
Proof.
  intros Fx Px. destruct x as [s|s| |[] m e H]; try discriminate.
  - split; [reflexivity|]. cbn [grid_root grid_value B2R]. rewrite F2R_0. symmetry. apply round_0. apply valid_rnd_round_mode.
  - exfalso. cbn [B2R cond_Zopp] in Px. assert (F2R (Float radix2 (Z.neg m) e) < 0) by (apply F2R_lt_0; reflexivity).
    change (- Zpos m)%Z with (Z.neg m) in Px. lra.
  - cbn [grid_root]. change (Z.sqrt _) with (grid_value (B754_finite false m e H)).
    set (z := grid_value _). pose proof (grid_value_bound (B754_finite false m e H)) as B. fold z in B.
    pose proof (binary_normalize_correct 24 128 _ _ mode_NE z (-78) false) as G. cbv zeta in G.
    assert (L : Rabs (RN (F2R (Float radix2 z (-78)))) < bpow radix2 128).
    { apply Rle_lt_trans with (bpow radix2 32); [|apply bpow_lt; lia].
      apply (abs_round_le_generic radix2 b32_fexp (round_mode mode_NE)).
      - apply bpow_format. lia.
      - rewrite <- F2R_Zabs. unfold F2R. cbn [Fnum Fexp].
        replace (bpow radix2 32) with (bpow radix2 110 * bpow radix2 (-78)) by (rewrite <- bpow_plus; reflexivity).
        apply Rmult_le_compat_r; [apply bpow_ge_0|].
        change (bpow radix2 110) with (IZR (2 ^ 110)). apply IZR_le. lia. }
    rewrite Rlt_bool_true in G by exact L. split; apply G.
Qed.
Lemma grid_value_mono x y : is_finite x = true -> is_finite y = true -> 0 <= B2R x -> B2R x <= B2R y ->
  (grid_value x <= grid_value y)%Z.
Proof.
  intros Fx Fy Px Hle.
  destruct x as [s|s| |[] m e H]; try discriminate; try (cbn [grid_value]; apply (grid_value_bound y)).
  assert (P : 0 < B2R (B754_finite false m e H : f32)) by (cbn [B2R cond_Zopp]; apply F2R_gt_0; reflexivity).
  destruct y as [s|s| |[] m' e' H']; try discriminate; try (cbn [B2R] in *; lra).
  - exfalso. cbn [B2R cond_Zopp] in Hle, P. assert (F2R (Float radix2 (Z.neg m') e') < 0) by (apply F2R_lt_0; reflexivity).
    change (- Zpos m')%Z with (Z.neg m') in Hle. lra.
  - unfold grid_value. apply Z.sqrt_le_mono, Z.sqrt_le_mono.
    destruct (finite_exponents false m e H eq_refl) as [He _]. destruct (finite_exponents false m' e' H' eq_refl) as [He' _].
    apply le_IZR. rewrite !mult_IZR. cbn [B2R cond_Zopp] in Hle. unfold F2R in Hle. cbn [Fnum Fexp] in Hle.
    change (IZR (2 ^ (e + 312))) with (IZR (Zpower radix2 (e + 312))).
    change (IZR (2 ^ (e' + 312))) with (IZR (Zpower radix2 (e' + 312))).
    rewrite (IZR_Zpower radix2 (e + 312)), (IZR_Zpower radix2 (e' + 312)) by lia.
    rewrite !bpow_plus, <- !Rmult_assoc. apply Rmult_le_compat_r; [apply bpow_ge_0|exact Hle].
Qed.
Lemma grid_root_domain x : is_finite (grid_root x) = true -> is_finite x = true /\ 0 <= B2R x.
Proof.
  destruct x as [s|[]| |[] m e H]; intros F; try discriminate.
  - split; [reflexivity|apply Rle_refl].
  - split; [reflexivity|]. cbn [B2R cond_Zopp]. apply F2R_ge_0. discriminate.
Qed.
Lemma mul_nonneg x y : 0 <= B2R x -> 0 <= B2R y -> 0 <= B2R (b_mul x y).
Proof.
  intros Hx Hy. destruct (is_finite (b_mul x y)) eqn:E; [|rewrite (not_finite_0 _ E); apply Rle_refl].
  apply b_mul_fin in E. destruct E as (_ & _ & ->).
  replace 0 with (RN 0) by (apply round_0; apply valid_rnd_round_mode). apply RN_le. apply Rmult_le_pos; assumption.
Qed.

Theorem C97_library : orderly grid_lib.
Proof.
  constructor.
  - intros x Hx. cbn [lm_powi grid_lib]. change (grid_powi x 3) with (b_mul x (b_mul x x)).
    apply mul_nonneg; [exact Hx|]. apply mul_nonneg; exact Hx.
  - intros x. exact (grid_root_domain x).
  - intros x y Fx Fy Hle. change (root grid_lib) with grid_root in *.
    destruct (grid_root_domain x Fx) as [Gx Px]. destruct (grid_root_domain y Fy) as [Gy Py].
    rewrite (proj2 (grid_root_val x Gx Px)), (proj2 (grid_root_val y Gy Py)).
    apply RN_le. apply F2R_le. apply grid_value_mono; assumption.
Qed.
Print Assumptions C97_library.

(** ** Concrete case: pixel (12, 16) of the datasheet's worked example, and the same frame with
    one count more; with this library the temperature is between 70 and 90 degrees. *)
Definition sample_pixel_mem (z a : Z) : Z := if (a =? lay_address layout640 Zero 367)%Z then z else sample_mem a.
Definition order_check (c : calib (B32 grid_lib)) (z : Z) : bool :=
  let mem := sample_pixel_mem z in
  let s := sample_settings grid_lib in
  measured layout640 Zero Chess 367 &&
  Bleb (b_ofZ 0) (doc_gain c layout640 mem : f32) && Bltb (b_ofZ 0) (set_emissivity s : f32) &&
  Bleb (b_ofZ 0) (doc_alpha c layout640 Zero mem 367 : f32) &&
  Bltb (b_ofZ 0) (effective_sensitivity grid_lib c layout640 s Zero mem 367) &&
  Bleb (slope32 grid_lib c layout640) (b_ofZ 0) && Bleb (b_ofZ 0) (doc_v_ir c layout640 s Zero mem 367 : f32) &&
  between (b_ofZ 70) (doc_pixel c layout640 s Zero mem false 367 : f32) (b_ofZ 90).
Definition order_example : bool :=
  match from_data640 (B32 grid_lib) Debug datasheet640 with
  | Ok c => order_check c 609 && order_check c 610
  | _ => false
  end.
Example C97_concrete : order_example = true.
Proof. vm_compute. reflexivity. Qed.
