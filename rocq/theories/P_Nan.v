(** * P_Nan: C99 -- signals no object can give show as NaN. *)
From Coq Require Import Reals Lra Psatz.
From Verif Require Import Base FloatOps Register Bus Camera Calc CalcFacts B32 B32Facts BoundFacts AccuracyFacts
  SpecCamera SpecImage SpecAccuracy SpecTemperature SpecNan RealFacts P_CalcReal P_Finite P_Temperature P_Order P_PixelAccuracy
  Dumps Cam640 Ee640 SpecEeprom.
From Flocq Require Import Core Plus_error BinarySingleNaN.
Open Scope R_scope.

(** A sum of two floats is zero only if they are opposite. *)
Lemma sum_negative (x y : f32) : is_finite x = true -> is_finite y = true ->
  B2R x + B2R y < 0 -> RN (B2R x + B2R y) < 0.
Proof.
  intros Fx Fy H.
  assert (Hle : RN (B2R x + B2R y) <= 0).
  { replace 0 with (RN 0) by (apply round_0; apply valid_rnd_round_mode). apply RN_le. lra. }
  destruct Hle as [L|E]; [exact L|exfalso].
  apply (round_plus_neq_0 radix2 (FLT_exp (-149) 24) (round_mode mode_NE) (B2R x) (B2R y)).
  - exact (generic_format_B2R 24 128 x).
  - exact (generic_format_B2R 24 128 y).
  - lra.
  - exact E.
Qed.

Section Impossible.
Context (l : libm) (Hp : accurate_powers l) (Hd : domain_errors l).
Notation root := (fun x : f32 => lm_powf l x (@f_quarter (B32 l))) (only parsing).

(** The library's power of a sensitivity. *)
Lemma power_near (a : f32) n : (n = 3 \/ n = 4)%Z -> / 67108864 <= B2R a <= / 1024 ->
  is_finite (lm_powi l a n) = true /\
  (1 - / 4194304) * powerRZ (B2R a) n <= B2R (lm_powi l a n) <= (1 + / 4194304) * powerRZ (B2R a) n.
Proof.
  intros Hn [H1 H2].
  assert (Fa : is_finite a = true) by (apply positive_finite; lra).
  assert (P : bpow radix2 (-104) <= powerRZ (B2R a) n <= 1).
  { assert (Q : forall m, (1 <= m <= 4)%nat -> (/ 67108864) ^ 4 <= B2R a ^ m <= 1).
    { intros m Hm. split.
      - apply Rle_trans with ((/ 67108864) ^ m); [|apply pow_incr; lra].
        destruct m as [|[|[|[|[|m]]]]]; try lia; lra.
      - rewrite <- (pow1 m). apply pow_incr. lra. }
    replace (bpow radix2 (-104)) with ((/ 67108864) ^ 4).
    2: { replace (-104)%Z with (-26 + -26 + -26 + -26)%Z by reflexivity. rewrite !bpow_plus.
         change (bpow radix2 (-26)) with (/ 67108864). ring. }
    destruct Hn as [-> | ->]; [rewrite powerRZ3; apply (Q 3%nat); lia|rewrite powerRZ4; apply (Q 4%nat); lia]. }
  assert (B0 : 0 < bpow radix2 (-104)) by apply bpow_gt_0.
  destruct (ap_powi l Hp a n Fa Hn) as [F E].
  { rewrite Rabs_pos_eq by lra. split.
    - apply Rle_trans with (bpow radix2 (-104)); [apply bpow_le; lia|apply P].
    - apply Rle_trans with (bpow radix2 0); [apply P|apply bpow_le; lia]. }
  split; [exact F|]. rewrite (Rabs_pos_eq (powerRZ (B2R a) n)) in E by lra. apply abs_split in E. lra.
Qed.

(** A product that is neither out of range nor tiny. *)
Lemma product_val (x y : f32) : is_finite x = true -> is_finite y = true -> Rabs (B2R x * B2R y) <= 1099511627776 ->
  is_finite (b_mul x y) = true /\ B2R (b_mul x y) = RN (B2R x * B2R y).
Proof.
  intros Fx Fy H. pose proof (Bmult_correct 24 128 _ _ mode_NE x y) as G.
  rewrite RN_small in G by lra. rewrite Fx, Fy in G. destruct G as (G1 & G2 & _). split; assumption.
Qed.

(** The first radicand of an impossible signal is negative. *)
Lemma radicand_negative (a v bg : f32) : is_finite bg = true -> impossible_signal (B2R a) (B2R v) (B2R bg) ->
  let r := b_add (b_mul (lm_powi l a 3) v) (b_mul (lm_powi l a 4) bg) in
  is_finite r = true /\ B2R r < 0.
Proof.
  intros Fb (Ha & Hv & Hb & H1 & H2).
  destruct (power_near a 3 ltac:(left; reflexivity) Ha) as [F3 E3].
  destruct (power_near a 4 ltac:(right; reflexivity) Ha) as [F4 E4].
  rewrite powerRZ3 in E3. rewrite powerRZ4 in E4.
  set (x := B2R a) in *. set (V := B2R v) in *. set (G := B2R bg) in *.
  set (p3 := B2R (lm_powi l a 3)) in *. set (p4 := B2R (lm_powi l a 4)) in *.
  assert (Px : 0 < x) by lra.
  assert (HV : V <= - x /\ V <= - ((1 + / 1048576) * G) * x).
  { apply (Rmult_le_compat_r x) in H1; [|lra]. apply (Rmult_le_compat_r x) in H2; [|lra].
    unfold Rdiv in H1, H2. rewrite Rmult_assoc, Rinv_l, Rmult_1_r in H1, H2 by lra. lra. }
  assert (Fv : is_finite v = true).
  { destruct (is_finite v) eqn:E; [reflexivity|]. pose proof (not_finite_0 v E) as Z. fold V in Z. lra. }
  assert (X3 : 0 < x ^ 3) by (apply pow_lt; exact Px). assert (X4 : 0 < x ^ 4) by (apply pow_lt; exact Px).
  assert (U3 : x ^ 3 <= 1 / 1024) by (apply Rle_trans with ((/ 1024) ^ 3); [apply pow_incr; lra|lra]).
  assert (U4 : x ^ 4 <= 1 / 1024) by (apply Rle_trans with ((/ 1024) ^ 4); [apply pow_incr; lra|lra]).
  assert (L4 : bpow radix2 (-104) <= x ^ 4).
  { replace (bpow radix2 (-104)) with ((/ 67108864) ^ 4); [apply pow_incr; lra|].
    replace (-104)%Z with (-26 + -26 + -26 + -26)%Z by reflexivity. rewrite !bpow_plus.
    change (bpow radix2 (-26)) with (/ 67108864). ring. }
  assert (B3 : Rabs (p3 * V) <= 1099511627776).
  { rewrite Rabs_mult, (Rabs_pos_eq p3), (Rabs_left V) by lra. nra. }
  assert (B4 : Rabs (p4 * G) <= 1099511627776).
  { rewrite Rabs_mult, (Rabs_pos_eq p4) by lra. pose proof (Rabs_pos G). nra. }
  destruct (product_val _ _ F3 Fv B3) as [M3 V3]. destruct (product_val _ _ F4 Fb B4) as [M4 V4].
  fold p3 V in V3. fold p4 G in V4.
  (* the larger of the background and 1/2 *)
  set (g := Rmax G (1 / 2)).
  assert (Hg : G <= g /\ 1 / 2 <= g) by (split; [apply Rmax_l|apply Rmax_r]).
  assert (Hgv : V <= - ((1 + / 1048576) * g) * x).
  { unfold g, Rmax. destruct (Rle_dec G (1 / 2)); [|apply HV]. nra. }
  assert (Q : RN (p3 * V) + RN (p4 * G) < 0).
  { assert (A3 : (1 - / 4194304) * ((1 + / 1048576) * (x ^ 4 * g)) <= p3 * - V).
    { apply Rle_trans with ((1 - / 4194304) * x ^ 3 * - V).
      - replace (x ^ 4) with (x ^ 3 * x) by ring.
        assert (x ^ 3 * ((1 + / 1048576) * g * x) <= x ^ 3 * - V) by (apply Rmult_le_compat_l; lra). lra.
      - apply Rmult_le_compat_r; lra. }
    assert (A4 : p4 * g <= (1 + / 4194304) * (x ^ 4 * g)).
    { replace ((1 + / 4194304) * (x ^ 4 * g)) with ((1 + / 4194304) * x ^ 4 * g) by ring. apply Rmult_le_compat_r; lra. }
    assert (W : bpow radix2 (-105) <= x ^ 4 * g).
    { replace (bpow radix2 (-105)) with (bpow radix2 (-104) * (1 / 2)).
      - apply Rmult_le_compat; try lra. apply bpow_ge_0.
      - replace (-104)%Z with (-105 + 1)%Z by reflexivity. rewrite bpow_plus. change (bpow radix2 1) with 2. lra. }
    assert (W0 : 0 < bpow radix2 (-105)) by apply bpow_gt_0.
    assert (T : bpow radix2 (-126) <= bpow radix2 (-105) / 2).
    { replace (bpow radix2 (-105) / 2) with (bpow radix2 (-106)).
      - apply bpow_le. lia.
      - replace (-105)%Z with (-106 + 1)%Z by reflexivity. rewrite bpow_plus. change (bpow radix2 1) with 2. lra. }
    assert (Qle : RN (p4 * G) <= RN (p4 * g)) by (apply RN_le, Rmult_le_compat_l; lra).
    pose proof (RN_relative (p3 * V)) as R3. pose proof (RN_relative (p4 * g)) as R4.
    assert (Pg : (1 - / 4194304) * (x ^ 4 * g) <= p4 * g).
    { replace ((1 - / 4194304) * (x ^ 4 * g)) with ((1 - / 4194304) * x ^ 4 * g) by ring. apply Rmult_le_compat_r; lra. }
    rewrite (Rabs_left (p3 * V)) in R3 by lra. rewrite (Rabs_pos_eq (p4 * g)) in R4 by lra.
    specialize (R3 ltac:(lra)). specialize (R4 ltac:(lra)).
    apply abs_split in R3. apply abs_split in R4. lra. }
  cbv zeta.
  assert (Bs : Rabs (B2R (b_mul (lm_powi l a 3) v) + B2R (b_mul (lm_powi l a 4) bg)) <= 1267650600228229401496703205376).
  { assert (R : forall y, Rabs y <= 1099511627776 -> Rabs (RN y) <= 1099511627776).
    { intros y Hy. apply (abs_round_le_generic radix2 b32_fexp (round_mode mode_NE)); [|exact Hy].
      change 1099511627776 with (bpow radix2 40). apply bpow_format. lia. }
    rewrite V3, V4. eapply Rle_trans; [apply Rabs_triang|]. pose proof (R _ B3). pose proof (R _ B4). lra. }
  pose proof (Bplus_correct 24 128 _ _ mode_NE _ _ M3 M4) as S.
  rewrite RN_small in S by exact Bs. destruct S as (S1 & S2 & _).
  split; [exact S2|]. change (B2R (b_add ?p ?q)) with (B2R (Bplus mode_NE p q)). unfold b_add. rewrite S1.
  apply sum_negative; [exact M3|exact M4|]. rewrite V3, V4. exact Q.
Qed.

Lemma nan_temperature (v a bg k : f32) :
  (is_finite bg = true /\ impossible_signal (B2R a) (B2R v) (B2R bg)) \/ v = B754_nan \/ bg = B754_nan ->
  per_pixel_temperature (FO := B32 l) (v : F (B32 l)) (a : F (B32 l)) (bg : F (B32 l)) (k : F (B32 l)) = B754_nan.
Proof.
  intros H.
  change (b_sub (root (b_add (b_div v (b_add (b_mul a (b_sub (b_ofZ 1) (b_mul k (@f_273_15 (B32 l)))))
     (b_mul k (root (b_add (b_mul (lm_powi l a 3) v) (b_mul (lm_powi l a 4) bg)))))) bg)) (@f_273_15 (B32 l)) = B754_nan).
  destruct H as [[Fb H]|[-> | ->]].
  - destruct (radicand_negative a v bg Fb H) as [Fr Nr]. rewrite (de_negative l Hd _ Fr Nr).
    rewrite nan_mul_r, nan_add_r, nan_div_r, nan_add_l, (de_nan l Hd), nan_sub_l. reflexivity.
  - rewrite nan_div_l, nan_add_l, (de_nan l Hd), nan_sub_l. reflexivity.
  - rewrite nan_add_r, (de_nan l Hd), nan_sub_l. reflexivity.
Qed.

(** The temperature of a pixel with an impossible signal is NaN, and so is that of a pixel
    whose raw image value or background is. *)
Theorem C99_pixel : forall (c : calib (B32 l)) lay (s : settings (FO := B32 l)) sp mem i,
  let a : f32 := doc_alpha c lay sp mem i in
  let v : f32 := doc_pixel c lay s sp mem true i in
  let bg : f32 := doc_t_ar c lay s mem in
  (is_finite bg = true /\ impossible_signal (B2R a) (B2R v) (B2R bg)) \/ v = B754_nan \/ bg = B754_nan ->
  doc_pixel c lay s sp mem false i = (B754_nan : f32).
Proof.
  intros c lay s sp mem i a v bg H.
  exact (nan_temperature v a bg (nth (lay_basic_range lay) (k_s_to (B32 l) c) (b_ofZ 0)) H).
Qed.

(** In every image ([image_stored]: every successful image call, C55). *)
Theorem C99_image : forall (c : calib (B32 l)) lay (s : settings (FO := B32 l)) sp mem (dest dest' : list f32) i old,
  image_stored c lay s sp mem false (dest : list (F (B32 l))) dest' ->
  nth_error dest i = Some old -> measured lay sp (set_pattern s) i = true ->
  let a : f32 := doc_alpha c lay sp mem i in
  let v : f32 := doc_v_ir c lay s sp mem i in
  let bg : f32 := doc_t_ar c lay s mem in
  is_finite bg = true -> impossible_signal (B2R a) (B2R v) (B2R bg) ->
  nth_error dest' i = Some B754_nan.
Proof.
  intros c lay s sp mem dest dest' i old [_ H] Ho Hm a v bg Fb Hi.
  specialize (H i old Ho). rewrite Hm in H. etransitivity; [exact H|]. f_equal.
  exact (C99_pixel c lay s sp mem i (or_introl (conj Fb Hi))).
Qed.

(** Conversely: a temperature that is a number belongs to a signal that some object could give, or
    nearly (for pixels in range). *)
Theorem C99_numbers_are_possible : forall (c : calib (B32 l)) lay (s : settings (FO := B32 l)) sp mem i,
  let a : f32 := doc_alpha c lay sp mem i in
  let v : f32 := doc_v_ir c lay s sp mem i in
  let bg : f32 := doc_t_ar c lay s mem in
  is_finite (doc_pixel c lay s sp mem false i : f32) = true ->
  / 67108864 <= B2R a <= / 1024 -> -1099511627776 <= B2R v -> 1 <= B2R bg <= 1099511627776 ->
  - (/ 1048576 * B2R bg) < B2R v / B2R a + B2R bg.
Proof.
  intros c lay s sp mem i a v bg Ft Ha Hv Hb.
  apply Rnot_le_lt. intros L.
  assert (Fb : is_finite bg = true) by (apply positive_finite; lra).
  assert (I : impossible_signal (B2R a) (B2R v) (B2R bg)).
  { repeat split; try lra. apply Rabs_le. lra. }
  assert (E : doc_pixel c lay s sp mem false i = (B754_nan : f32)) by (apply C99_pixel; left; split; assumption).
  rewrite E in Ft. discriminate.
Qed.
End Impossible.
Print Assumptions C99_pixel.
Print Assumptions C99_image.
Print Assumptions C99_numbers_are_possible.

(** ** A library that meets both: exact powers rounded, NaN outside the domain *)
Definition strict_lib : libm := {|
  lm_exp2 := lm_exp2 rounding_lib;
  lm_powi := lm_powi rounding_lib;
  lm_powf := fun x y => match x with
    | B754_finite false _ _ _ => lm_powf rounding_lib x y
    | B754_finite true _ _ _ | B754_nan => B754_nan
    | B754_zero _ => B754_zero false
    | B754_infinity _ => B754_infinity false
    end
|}.
Theorem C99_library : accurate_powers strict_lib /\ domain_errors strict_lib.
Proof.
  split.
  - constructor.
    + exact (ap_powi rounding_lib C74_library).
    + intros x Fx Px. destruct x as [s|s| |[] m e H]; try discriminate.
      * cbn [B2R] in Px. lra.
      * exfalso. cbn [B2R cond_Zopp] in Px. assert (F2R (Float radix2 (Z.neg m) e) < 0) by (apply F2R_lt_0; reflexivity).
        change (- Zpos m)%Z with (Z.neg m) in Px. lra.
      * exact (ap_root rounding_lib C74_library (B754_finite false m e H) Fx Px).
  - constructor.
    + reflexivity.
    + intros x Fx Nx. destruct x as [s|s| |[] m e H]; try discriminate; try reflexivity.
      * cbn [B2R] in Nx. lra.
      * exfalso. cbn [B2R cond_Zopp] in Nx. assert (0 < F2R (Float radix2 (Zpos m) e)) by (apply F2R_gt_0; reflexivity). lra.
Qed.
Print Assumptions C99_library.

(** ** A concrete case: the datasheet's pixel with the raw value -1536: the signal is -1507,
    which with a sensitivity of 1.19e-7 means less than no radiation; it shows as NaN. *)
Definition cold_values : option (SpecFloat.spec_float * SpecFloat.spec_float * SpecFloat.spec_float) :=
  match from_data640 (B32 strict_lib) Debug datasheet640 with
  | Ok c => let mem := sample_pixel_mem 64000 in
     Some (B2SF (doc_alpha c layout640 Zero mem 367 : f32), B2SF (doc_v_ir c layout640 (sample_settings strict_lib) Zero mem 367 : f32),
           B2SF (b_add (doc_t_a c layout640 mem : f32) (@f_273_15 (B32 strict_lib))))
  | _ => None
  end.
Lemma cold_values_are : cold_values =
  Some (SpecFloat.S754_finite false 16714656 (-47), SpecFloat.S754_finite true 12348602 (-13), SpecFloat.S754_finite false 10234574 (-15)).
Proof. vm_compute. reflexivity. Qed.

Example C99_concrete : forall c : calib (B32 strict_lib), from_data640 (B32 strict_lib) Debug datasheet640 = Ok c ->
  let mem := sample_pixel_mem 64000 in
  let s := sample_settings strict_lib in
  let a : f32 := doc_alpha c layout640 Zero mem 367 in
  let v : f32 := doc_v_ir c layout640 s Zero mem 367 in
  let bg : f32 := doc_t_ar c layout640 s mem in
  (is_finite bg = true /\ impossible_signal (B2R a) (B2R v) (B2R bg)) /\
  doc_pixel c layout640 s Zero mem false 367 = (B754_nan : f32).
Proof.
  intros c Hc mem s a v bg. pose proof cold_values_are as E. unfold cold_values in E. rewrite Hc in E.
  change (sample_pixel_mem 64000) with mem in E. apply some_eq in E.
  apply pair_equal_spec in E. destruct E as [E Et]. apply pair_equal_spec in E. destruct E as [Ea Ev].
  assert (V : forall (x : f32) sf, B2SF x = sf -> B2R x = SF2R radix2 sf) by (intros x sf <-; symmetry; apply SF2R_B2SF).
  assert (Va : B2R a = 16714656 / 140737488355328).
  { etransitivity; [exact (V _ _ Ea)|]. unfold SF2R, F2R. cbn [Fnum Fexp cond_Zopp]. replace (bpow radix2 (-47)) with (/ 140737488355328) by reflexivity. reflexivity. }
  assert (Vv : B2R v = -12348602 / 8192).
  { etransitivity; [exact (V _ _ Ev)|]. unfold SF2R, F2R. cbn [Fnum Fexp cond_Zopp]. replace (bpow radix2 (-13)) with (/ 8192) by reflexivity. reflexivity. }
  set (x := b_add _ _) in Et.
  assert (Vx : B2R x = 10234574 / 32768).
  { etransitivity; [exact (V _ _ Et)|]. unfold SF2R, F2R. cbn [Fnum Fexp cond_Zopp]. replace (bpow radix2 (-15)) with (/ 32768) by reflexivity. reflexivity. }
  assert (Fx : is_finite x = true) by (rewrite <- is_finite_SF_B2SF, Et; reflexivity).
  assert (Eb : bg = lm_powi strict_lib x 4).
  { unfold bg, doc_t_ar. cbn [s sample_settings set_emissivity set_reflected].
    change (@feqb (B32 strict_lib) (b_ofZ 1) (fofZ 1)) with (b_eqb (b_ofZ 1) (b_ofZ 1)).
    replace (b_eqb (b_ofZ 1) (b_ofZ 1)) with true by (vm_compute; reflexivity). reflexivity. }
  assert (P4 : powerRZ (B2R x) 4 = (10234574 / 32768) ^ 4) by (rewrite Vx; apply powerRZ4).
  destruct C99_library as [Hp Hd].
  destruct (ap_powi strict_lib Hp x 4 Fx ltac:(right; reflexivity)) as [Fb Bb].
  { rewrite P4, Rabs_pos_eq by lra. split.
    - apply Rle_trans with (bpow radix2 0); [apply bpow_le; lia|]. change (bpow radix2 0) with 1. lra.
    - apply Rle_trans with (bpow radix2 40); [|apply bpow_le; lia]. change (bpow radix2 40) with 1099511627776. lra. }
  rewrite <- Eb in Fb, Bb. rewrite P4 in Bb. rewrite (Rabs_pos_eq ((10234574 / 32768) ^ 4)) in Bb by lra. apply abs_split in Bb.
  assert (I : is_finite bg = true /\ impossible_signal (B2R a) (B2R v) (B2R bg)).
  { split; [exact Fb|]. rewrite Va, Vv. repeat split; try lra. apply Rabs_le. lra. }
  split; [exact I|].
  apply (C99_pixel strict_lib Hp Hd c layout640 s Zero mem 367). left. exact I.
Qed.
