(** * P_Emissivity: C98 -- emissivity and reflected temperature act in the right direction
    (exact arithmetic). *)
From Coq Require Import Reals Lra Psatz.
From Verif Require Import Base FloatOps Register Bus Camera Calc RealOps SpecPhysics RealFacts.
From Verif Require Import SpecCamera SpecImage P_Physics.
Local Open Scope R_scope.

Lemma pow4_lt_iff x y : 0 < x -> 0 < y -> (x ^ 4 < y ^ 4 <-> x < y).
Proof. intros Hx Hy. split; [apply pow4_lt_inv; assumption|intros; apply pow4_lt; lra]. Qed.

(** Signals divided by sensitivities: a temperature that moves against [k * s] does not
    weaken the change. *)
Lemma corrected_signal alpha k s x y : 0 < alpha -> k * s <= 0 ->
  0 < sensitivity_at alpha k x -> 0 < sensitivity_at alpha k y -> x <= y ->
  s / sensitivity_at alpha k x <= s / sensitivity_at alpha k y.
Proof.
  intros Ha Hk Sx Sy Hxy. unfold sensitivity_at in *.
  assert (Dx : 0 < 1 + k * x) by nra. assert (Dy : 0 < 1 + k * y) by nra.
  apply (Rmult_le_reg_r (alpha * (1 + k * x) * (1 + k * y))); [apply Rmult_lt_0_compat; [nra|assumption]|].
  replace (s / (alpha * (1 + k * x)) * (alpha * (1 + k * x) * (1 + k * y))) with (s * (1 + k * y)) by (field; lra).
  replace (s / (alpha * (1 + k * y)) * (alpha * (1 + k * x) * (1 + k * y))) with (s * (1 + k * x)) by (field; lra).
  nra.
Qed.

Section Balance.
(** The measured signal is [S]; [v = S / eps] is what the formulas use. *)
Context (alpha k sig ta : R) (Ha : 0 < alpha) (Hks : k * sig <= 0).

(** The balance in terms of the distance from the radiation of the surroundings. *)
Lemma distance a eps tr t : 0 < a -> 0 < eps -> explains_signal a eps (sig / eps) tr ta t ->
  eps * (kelvin t ^ 4 - kelvin tr ^ 4) = sig / a + (kelvin ta ^ 4 - kelvin tr ^ 4).
Proof.
  intros Hp He H. rewrite (explains_pow4 _ _ _ _ _ _ Hp He H). field. lra.
Qed.

Section Emissivity.
Context (eps eps' tr t0 t0' t t' : R) (He' : 0 < eps') (Hlt : eps' < eps) (Htr : 0 < kelvin tr)
  (E0 : explains_signal alpha eps (sig / eps) tr ta t0) (E0' : explains_signal alpha eps' (sig / eps') tr ta t0')
  (S0 : 0 < sensitivity_at alpha k t0) (S0' : 0 < sensitivity_at alpha k t0')
  (E1 : explains_signal (sensitivity_at alpha k t0) eps (sig / eps) tr ta t)
  (E1' : explains_signal (sensitivity_at alpha k t0') eps' (sig / eps') tr ta t').

Lemma hotter_than_surroundings : tr < t0 -> tr < t -> t0 < t0' /\ t < t'.
Proof.
  intros H0 H1. assert (He : 0 < eps) by lra.
  pose proof (distance _ _ _ _ Ha He E0) as D0. pose proof (distance _ _ _ _ Ha He' E0') as D0'.
  pose proof (distance _ _ _ _ S0 He E1) as D1. pose proof (distance _ _ _ _ S0' He' E1') as D1'.
  destruct E0 as [P0 _], E0' as [P0' _], E1 as [P1 _], E1' as [P1' _].
  assert (Q0 : kelvin tr ^ 4 < kelvin t0 ^ 4) by (apply pow4_lt; unfold kelvin in *; lra).
  assert (Q1 : kelvin tr ^ 4 < kelvin t ^ 4) by (apply pow4_lt; unfold kelvin in *; lra).
  assert (L0 : kelvin t0 < kelvin t0') by (apply pow4_lt_iff; [assumption|assumption|]; nra).
  split; [unfold kelvin in L0; lra|].
  assert (C : sig / sensitivity_at alpha k t0 <= sig / sensitivity_at alpha k t0')
    by (apply corrected_signal; try assumption; unfold kelvin in L0; lra).
  assert (L : kelvin t < kelvin t') by (apply pow4_lt_iff; [assumption|assumption|]; nra).
  unfold kelvin in L; lra.
Qed.

Lemma colder_than_surroundings : t0 < tr -> t < tr -> t0' < t0 /\ t' < t.
Proof.
  intros H0 H1. assert (He : 0 < eps) by lra.
  pose proof (distance _ _ _ _ Ha He E0) as D0. pose proof (distance _ _ _ _ Ha He' E0') as D0'.
  pose proof (distance _ _ _ _ S0 He E1) as D1. pose proof (distance _ _ _ _ S0' He' E1') as D1'.
  destruct E0 as [P0 _], E0' as [P0' _], E1 as [P1 _], E1' as [P1' _].
  assert (Q0 : kelvin t0 ^ 4 < kelvin tr ^ 4) by (apply pow4_lt; unfold kelvin in *; lra).
  assert (Q1 : kelvin t ^ 4 < kelvin tr ^ 4) by (apply pow4_lt; unfold kelvin in *; lra).
  assert (L0 : kelvin t0' < kelvin t0) by (apply pow4_lt_iff; [assumption|assumption|]; nra).
  split; [unfold kelvin in L0; lra|].
  assert (C : sig / sensitivity_at alpha k t0' <= sig / sensitivity_at alpha k t0)
    by (apply corrected_signal; try assumption; unfold kelvin in L0; lra).
  assert (L : kelvin t' < kelvin t) by (apply pow4_lt_iff; [assumption|assumption|]; nra).
  unfold kelvin in L; lra.
Qed.
End Emissivity.

Lemma warmer_surroundings eps tr tr' t0 t0' t t' :
  0 < eps < 1 -> 0 < kelvin tr -> tr < tr' ->
  explains_signal alpha eps (sig / eps) tr ta t0 -> explains_signal alpha eps (sig / eps) tr' ta t0' ->
  0 < sensitivity_at alpha k t0 -> 0 < sensitivity_at alpha k t0' ->
  explains_signal (sensitivity_at alpha k t0) eps (sig / eps) tr ta t ->
  explains_signal (sensitivity_at alpha k t0') eps (sig / eps) tr' ta t' ->
  t0' < t0 /\ t' < t.
Proof.
  intros [He He1] Htr Hlt E0 E0' S0 S0' E1 E1'.
  pose proof (distance _ _ _ _ Ha He E0) as D0. pose proof (distance _ _ _ _ Ha He E0') as D0'.
  pose proof (distance _ _ _ _ S0 He E1) as D1. pose proof (distance _ _ _ _ S0' He E1') as D1'.
  destruct E0 as [P0 _], E0' as [P0' _], E1 as [P1 _], E1' as [P1' _].
  assert (Q : kelvin tr ^ 4 < kelvin tr' ^ 4) by (apply pow4_lt; unfold kelvin in *; lra).
  assert (L0 : kelvin t0' < kelvin t0) by (apply pow4_lt_iff; [assumption|assumption|]; nra).
  split; [unfold kelvin in L0; lra|].
  assert (C : sig / sensitivity_at alpha k t0' <= sig / sensitivity_at alpha k t0)
    by (apply corrected_signal; try assumption; unfold kelvin in L0; lra).
  assert (L : kelvin t' < kelvin t) by (apply pow4_lt_iff; [assumption|assumption|]; nra).
  unfold kelvin in L; lra.
Qed.
End Balance.

(** ** Settings that differ in one thing *)
Definition emissivity_set (s : settings (FO := RealOps)) (eps : F RealOps) : settings (FO := RealOps) :=
  {| set_emissivity := eps; set_reflected := set_reflected s; set_correction := set_correction s; set_pattern := set_pattern s |}.
Definition reflected_set (s : settings (FO := RealOps)) (tr : F RealOps) : settings (FO := RealOps) :=
  {| set_emissivity := set_emissivity s; set_reflected := Some tr; set_correction := set_correction s; set_pattern := set_pattern s |}.

(** The signal of a pixel, before it is divided by the emissivity. *)
Definition measured_signal (c : calib RealOps) lay s sp mem i : R := doc_v_ir c lay (emissivity_set s (1 : R)) sp mem i.

Lemma signal_over_emissivity (c : calib RealOps) lay s sp mem i eps : eps <> 0 ->
  doc_v_ir c lay (emissivity_set s eps) sp mem i = measured_signal c lay s sp mem i / eps.
Proof.
  intros He. unfold measured_signal, doc_v_ir.
  assert (C : forall raw off kv kta pt, doc_compensated c lay (emissivity_set s eps) mem raw off kv kta pt =
                         doc_compensated c lay (emissivity_set s (1 : R)) mem raw off kv kta pt / eps).
  { intros. unfold doc_compensated. cbn [emissivity_set set_emissivity RealOps fdiv].
    change (doc_v_dd c lay (emissivity_set s eps) mem) with (doc_v_dd c lay (emissivity_set s (1 : R)) mem).
    assert (G : forall n : R, n / eps = n / 1 / eps) by (intros; field; exact He). exact (G _). }
  change (set_pattern (emissivity_set s eps)) with (set_pattern (emissivity_set s (1 : R))).
  rewrite !C. destruct (temperature_gradient_coefficient RealOps c); [|reflexivity].
  cbn [RealOps fsub fmul].
  assert (G : forall a b g : R, a / eps - g * (b / eps) = (a - g * b) / eps) by (intros; field; exact He). exact (G _ _ _).
Qed.

(** A pixel of the same frame computed with two emissivities: with the smaller one, what looks
    hotter than its surroundings looks hotter still, and what looks colder looks colder. *)
Theorem C98_emissivity : forall (c : calib RealOps) lay s sp mem i eps eps' t0 t0' t t',
  let alpha := doc_alpha c lay sp mem i in
  let k := slope c lay in
  let ta := doc_t_a c lay mem in
  let tr := reflected c lay s mem in
  let v := doc_v_ir c lay (emissivity_set s eps) sp mem i in
  let v' := doc_v_ir c lay (emissivity_set s eps') sp mem i in
  0 < alpha -> 0 < eps' -> eps' < eps -> 0 < kelvin tr ->
  k * measured_signal c lay s sp mem i <= 0 ->
  explains_signal alpha eps v tr ta t0 -> explains_signal alpha eps' v' tr ta t0' ->
  0 < sensitivity_at alpha k t0 -> 0 < sensitivity_at alpha k t0' ->
  explains_signal (sensitivity_at alpha k t0) eps v tr ta t ->
  explains_signal (sensitivity_at alpha k t0') eps' v' tr ta t' ->
  (tr < t0 -> tr < t ->
   doc_pixel c lay (emissivity_set s eps) sp mem false i < doc_pixel c lay (emissivity_set s eps') sp mem false i) /\
  (t0 < tr -> t < tr ->
   doc_pixel c lay (emissivity_set s eps') sp mem false i < doc_pixel c lay (emissivity_set s eps) sp mem false i).
Proof.
  intros c lay s sp mem i eps eps' t0 t0' t t' alpha k ta tr v v' Ha He' Hlt Htr Hks E0 E0' S0 S0' E1 E1'.
  rewrite !doc_pixel_temperature. cbn [emissivity_set set_emissivity].
  change (reflected c lay (emissivity_set s eps) mem) with tr. change (reflected c lay (emissivity_set s eps') mem) with tr.
  fold alpha k ta v v'.
  rewrite (temperature_explains alpha eps k v tr ta t0 t), (temperature_explains alpha eps' k v' tr ta t0' t') by (assumption || lra).
  unfold v, v' in *. rewrite signal_over_emissivity in E0, E1 by lra. rewrite signal_over_emissivity in E0', E1' by lra.
  split; intros H0 H1.
  - apply (hotter_than_surroundings alpha k _ ta Ha Hks eps eps' tr t0 t0' t t'); assumption.
  - apply (colder_than_surroundings alpha k _ ta Ha Hks eps eps' tr t0 t0' t t'); assumption.
Qed.
Print Assumptions C98_emissivity.

(** With an emissivity below 1, warmer surroundings explain more of the signal: the pixel
    shows a colder object. *)
Theorem C98_reflected : forall (c : calib RealOps) lay s sp mem i tr tr' t0 t0' t t',
  let alpha := doc_alpha c lay sp mem i in
  let k := slope c lay in
  let ta := doc_t_a c lay mem in
  let eps := set_emissivity s in
  let v := doc_v_ir c lay s sp mem i in
  0 < alpha -> 0 < eps < 1 -> 0 < kelvin tr -> tr < tr' ->
  k * v <= 0 ->
  explains_signal alpha eps v tr ta t0 -> explains_signal alpha eps v tr' ta t0' ->
  0 < sensitivity_at alpha k t0 -> 0 < sensitivity_at alpha k t0' ->
  explains_signal (sensitivity_at alpha k t0) eps v tr ta t ->
  explains_signal (sensitivity_at alpha k t0') eps v tr' ta t' ->
  doc_pixel c lay (reflected_set s tr') sp mem false i < doc_pixel c lay (reflected_set s tr) sp mem false i.
Proof.
  intros c lay s sp mem i tr tr' t0 t0' t t' alpha k ta eps v Ha He Htr Hlt Hks E0 E0' S0 S0' E1 E1'.
  rewrite !doc_pixel_temperature. cbn [reflected_set set_emissivity reflected set_reflected].
  change (doc_v_ir c lay (reflected_set s tr) sp mem i) with v. change (doc_v_ir c lay (reflected_set s tr') sp mem i) with v.
  fold alpha k ta eps.
  rewrite (temperature_explains alpha eps k v tr ta t0 t), (temperature_explains alpha eps k v tr' ta t0' t') by (assumption || lra).
  assert (Gv : forall x e : R, 0 < e -> x = x * e / e) by (intros; field; lra).
  pose proof (Gv v eps (proj1 He)) as Ev. clear Gv.
  assert (Hks' : k * (v * eps) <= 0) by nra.
  rewrite Ev in E0, E0', E1, E1'.
  apply (warmer_surroundings alpha k (v * eps) ta Ha Hks' eps tr tr' t0 t0' t t'); assumption.
Qed.
Print Assumptions C98_reflected.

(** An object that looks exactly as warm as its surroundings with one emissivity does so with
    every emissivity (constant sensitivity). *)
Theorem C98_as_warm_as_the_surroundings : forall (c : calib RealOps) lay s sp mem i eps eps',
  let alpha := doc_alpha c lay sp mem i in
  let ta := doc_t_a c lay mem in
  let tr := reflected c lay s mem in
  let v := doc_v_ir c lay (emissivity_set s eps) sp mem i in
  0 < alpha -> 0 < eps -> 0 < eps' -> 0 < kelvin tr -> slope c lay = 0 ->
  explains_signal alpha eps v tr ta tr ->
  doc_pixel c lay (emissivity_set s eps') sp mem false i = tr.
Proof.
  intros c lay s sp mem i eps eps' alpha ta tr v Ha He He' Htr Hk E.
  assert (Hs : sensitivity_at alpha 0 tr = alpha) by (unfold sensitivity_at; ring).
  assert (E' : explains_signal alpha eps' (doc_v_ir c lay (emissivity_set s eps') sp mem i) tr ta tr).
  { unfold v in E. rewrite signal_over_emissivity in E |- * by lra.
    set (sg := measured_signal c lay s sp mem i) in *.
    pose proof (distance sg ta alpha eps tr tr Ha He E) as D.
    split; [exact Htr|]. unfold net_radiation.
    assert (B : kelvin tr ^ 4 - kelvin ta ^ 4 = sg / alpha) by lra.
    replace (eps' * kelvin tr ^ 4 + (1 - eps') * kelvin tr ^ 4 - kelvin ta ^ 4) with (kelvin tr ^ 4 - kelvin ta ^ 4) by ring.
    rewrite B. field. lra. }
  rewrite doc_pixel_temperature, Hk. cbn [emissivity_set set_emissivity].
  change (reflected c lay (emissivity_set s eps') mem) with tr. fold alpha ta.
  apply (temperature_explains alpha eps' 0 _ tr ta tr tr); rewrite ?Hs; assumption.
Qed.
Print Assumptions C98_as_warm_as_the_surroundings.

(** The same for two images of one frame ([image_stored]: every successful image call, C55). *)
Theorem C98_images : forall (c : calib RealOps) lay s sp mem dest dest1 d d1 i old old1 eps eps' t0 t0' t t' x x1,
  image_stored c lay (emissivity_set s eps) sp mem false dest d ->
  image_stored c lay (emissivity_set s eps') sp mem false dest1 d1 ->
  measured lay sp (set_pattern s) i = true ->
  nth_error dest i = Some old -> nth_error dest1 i = Some old1 ->
  nth_error d i = Some x -> nth_error d1 i = Some x1 ->
  let alpha := doc_alpha c lay sp mem i in
  let k := slope c lay in
  let ta := doc_t_a c lay mem in
  let tr := reflected c lay s mem in
  let v := doc_v_ir c lay (emissivity_set s eps) sp mem i in
  let v' := doc_v_ir c lay (emissivity_set s eps') sp mem i in
  0 < alpha -> 0 < eps' -> eps' < eps -> 0 < kelvin tr ->
  k * measured_signal c lay s sp mem i <= 0 ->
  explains_signal alpha eps v tr ta t0 -> explains_signal alpha eps' v' tr ta t0' ->
  0 < sensitivity_at alpha k t0 -> 0 < sensitivity_at alpha k t0' ->
  explains_signal (sensitivity_at alpha k t0) eps v tr ta t ->
  explains_signal (sensitivity_at alpha k t0') eps' v' tr ta t' ->
  (tr < t0 -> tr < t -> x < x1) /\ (t0 < tr -> t < tr -> x1 < x).
Proof.
  intros c lay s sp mem dest dest1 d d1 i old old1 eps eps' t0 t0' t t' x x1 [_ S] [_ S1] Hm Ho Ho1 Hx Hx1
    alpha k ta tr v v' Ha He' Hlt Htr Hks E0 E0' S0 S0' E1 E1'.
  specialize (S i old Ho). specialize (S1 i old1 Ho1). cbn [emissivity_set set_pattern] in S, S1. rewrite Hm in S, S1.
  assert (Ex : x = doc_pixel c lay (emissivity_set s eps) sp mem false i) by (rewrite Hx in S; congruence).
  assert (Ex1 : x1 = doc_pixel c lay (emissivity_set s eps') sp mem false i) by (rewrite Hx1 in S1; congruence).
  rewrite Ex, Ex1.
  apply (C98_emissivity c lay s sp mem i eps eps' t0 t0' t t'); assumption.
Qed.
Print Assumptions C98_images.

(** ** A concrete case: one pixel of a small calibration, T_a = 25, surroundings at 15 degrees,
    slope -1/1000, signal 600 with sensitivity 1e-7; emissivities 1 and 1/2. *)
Definition small_calibration : calib RealOps := {|
  cam := Cam640.Mlx90640 RealOps; k_v_dd := 1; v_dd_25 := 0; cal_resolution := Res18; v_dd_0 := (33 / 10)%R : F RealOps;
  k_v_ptat := 0%R : F RealOps; k_t_ptat := 1%R : F RealOps; v_ptat_25 := 0%R : F RealOps; alpha_ptat := 1%R : F RealOps;
  cal_gain := 1%R : F RealOps; k_s_ta := 0%R : F RealOps; corner_temperatures := []; k_s_to := [0%R; (-1 / 1000)%R] : list (F RealOps);
  alpha_correction := []; cal_emissivity := None; offset_reference_pixels := fun _ => []; offset_reference_cp := fun _ => 0%Z;
  alpha_pixels := fun _ => repeat ((1 / 10000000)%R : F RealOps) 768; alpha_cp := fun _ => 0%R : F RealOps;
  k_v_pixels := fun _ => []; k_v_cp := fun _ => 0%R : F RealOps; k_ta_pixels := fun _ => []; k_ta_cp := fun _ => 0%R : F RealOps;
  temperature_gradient_coefficient := None; access_pattern_compensation_pixels := fun _ => [];
  access_pattern_compensation_cp := fun _ _ => None; failed_pixels := []; outlier_pixels := [] |}.
Definition small_settings : settings (FO := RealOps) :=
  {| set_emissivity := (1 / 2)%R : F RealOps; set_reflected := Some (15%R : F RealOps); set_correction := 1%R : F RealOps; set_pattern := Chess |}.
Definition small_mem (a : Z) : Z :=
  if (a =? lay_gain layout640)%Z || (a =? lay_vbe layout640)%Z then 1%Z
  else if (a =? lay_address layout640 Zero 0)%Z then 600%Z else 0%Z.

Lemma small_values :
  doc_alpha small_calibration layout640 Zero small_mem 0 = 1 / 10000000 /\
  doc_t_a small_calibration layout640 small_mem = 25 /\
  measured_signal small_calibration layout640 small_settings Zero small_mem 0 = 600 /\
  slope small_calibration layout640 = -1 / 1000.
Proof.
  assert (T : doc_t_a small_calibration layout640 small_mem = 25).
  { unfold doc_t_a, doc_v_ptat_art, doc_delta_v.
    change (SpecImage.ram small_mem (lay_ptat layout640)) with 0%Z.
    cbn [RealOps fadd fsub fmul fdiv fofZ small_calibration k_t_ptat v_ptat_25 k_v_ptat alpha_ptat]. lra. }
  split; [|split; [exact T|split]].
  - unfold doc_alpha. rewrite T.
    change (nth 0 (alpha_pixels RealOps small_calibration Zero) (fofZ 0)) with (1 / 10000000).
    cbn [RealOps fadd fsub fmul fofZ small_calibration temperature_gradient_coefficient k_s_ta]. lra.
  - unfold measured_signal, doc_v_ir.
    cbn [small_calibration temperature_gradient_coefficient].
    unfold doc_compensated, doc_gain.
    change (SpecImage.ram small_mem (lay_address layout640 Zero 0)) with 600%Z.
    change (SpecImage.ram small_mem (lay_gain layout640)) with 1%Z.
    cbn [RealOps fadd fsub fmul fdiv fofZ cal_gain offset_reference_pixels access_pattern_compensation_pixels nth emissivity_set set_emissivity].
    assert (G : forall x y : R, (600 * (1 / 1) + 0 - 0 * x * y) / 1 = 600) by (intros; field). exact (G _ _).
  - reflexivity.
Qed.

Example C98_concrete : exists t0 t0' t t',
  let c := small_calibration in
  let alpha := doc_alpha c layout640 Zero small_mem 0 in
  let k := slope c layout640 in
  let ta := doc_t_a c layout640 small_mem in
  let tr := reflected c layout640 small_settings small_mem in
  let v := doc_v_ir c layout640 (emissivity_set small_settings (1 : R)) Zero small_mem 0 in
  let v' := doc_v_ir c layout640 (emissivity_set small_settings (1 / 2 : R)) Zero small_mem 0 in
  0 < alpha /\ 0 < kelvin tr /\ k * measured_signal c layout640 small_settings Zero small_mem 0 <= 0 /\
  explains_signal alpha 1 v tr ta t0 /\ explains_signal alpha (1 / 2) v' tr ta t0' /\
  0 < sensitivity_at alpha k t0 /\ 0 < sensitivity_at alpha k t0' /\
  explains_signal (sensitivity_at alpha k t0) 1 v tr ta t /\
  explains_signal (sensitivity_at alpha k t0') (1 / 2) v' tr ta t' /\
  tr < t0 /\ tr < t.
Proof.
  destruct small_values as (Va & Vt & Vs & Vk).
  assert (V1 : doc_v_ir small_calibration layout640 (emissivity_set small_settings (1 : R)) Zero small_mem 0 = 600) by exact Vs.
  assert (V2 : doc_v_ir small_calibration layout640 (emissivity_set small_settings (1 / 2 : R)) Zero small_mem 0 = 1200).
  { assert (G : (1 / 2)%R <> 0) by lra. rewrite (signal_over_emissivity _ _ _ _ _ _ _ G), Vs.
    assert (N : 600 / (1 / 2) = 1200) by field. exact N. }
  cbv zeta. rewrite Va, Vt, Vk, Vs, V1, V2. change (reflected small_calibration layout640 small_settings small_mem) with 15.
  destruct (C65_one_temperature (1 / 10000000) 1 600 15 25 ltac:(lra) ltac:(lra)) as [[_ X1] _].
  destruct X1 as [t0 E0]; [unfold kelvin; lra|].
  destruct (C65_one_temperature (1 / 10000000) (1 / 2) 1200 15 25 ltac:(lra) ltac:(lra)) as [[_ X2] _].
  destruct X2 as [t0' E0']; [unfold kelvin; lra|].
  assert (Pa : 0 < 1 / 10000000) by lra. assert (P1e : 0 < 1) by lra. assert (Phe : 0 < 1 / 2) by lra.
  pose proof (explains_pow4 _ _ _ _ _ _ Pa P1e E0) as Q0.
  pose proof (explains_pow4 _ _ _ _ _ _ Pa Phe E0') as Q0'.
  pose proof (proj1 E0) as P0. pose proof (proj1 E0') as P0'.
  assert (B0 : kelvin 60 < kelvin t0 < kelvin 80).
  { split; apply pow4_lt_iff; try assumption; try (unfold kelvin; lra); rewrite Q0; unfold kelvin; lra. }
  assert (B0' : kelvin 60 < kelvin t0' < kelvin 200).
  { split; apply pow4_lt_iff; try assumption; try (unfold kelvin; lra); rewrite Q0'; unfold kelvin; lra. }
  unfold kelvin in B0, B0'.
  assert (S0 : 0 < sensitivity_at (1 / 10000000) (-1 / 1000) t0 <= 1 / 10000000) by (unfold sensitivity_at; lra).
  assert (S0' : 0 < sensitivity_at (1 / 10000000) (-1 / 1000) t0') by (unfold sensitivity_at; lra).
  destruct (C65_one_temperature (sensitivity_at (1 / 10000000) (-1 / 1000) t0) 1 600 15 25 ltac:(lra) ltac:(lra)) as [[_ X3] _].
  destruct X3 as [t E1].
  { assert (0 < sensitivity_at (1 / 10000000) (-1 / 1000) t0 * (kelvin 25 ^ 4 - (1 - 1) * kelvin 15 ^ 4));
      [apply Rmult_lt_0_compat; [lra|unfold kelvin; lra]|lra]. }
  destruct (C65_one_temperature (sensitivity_at (1 / 10000000) (-1 / 1000) t0') (1 / 2) 1200 15 25 ltac:(lra) ltac:(lra)) as [[_ X4] _].
  destruct X4 as [t' E1'].
  { assert (0 < sensitivity_at (1 / 10000000) (-1 / 1000) t0' * (kelvin 25 ^ 4 - (1 - 1 / 2) * kelvin 15 ^ 4));
      [apply Rmult_lt_0_compat; [lra|unfold kelvin; lra]|lra]. }
  exists t0, t0', t, t'.
  split; [lra|]. split; [unfold kelvin; lra|]. split; [lra|]. split; [exact E0|]. split; [exact E0'|].
  split; [lra|]. split; [exact S0'|]. split; [exact E1|]. split; [exact E1'|]. split; [lra|].
  pose proof (explains_pow4 _ _ _ _ _ _ (proj1 S0) P1e E1) as Q1. pose proof (proj1 E1) as P1.
  assert (B1 : kelvin 15 < kelvin t); [|unfold kelvin in B1; lra].
  apply pow4_lt_iff; [unfold kelvin; lra|exact P1|]. rewrite Q1.
  assert (0 < 600 / sensitivity_at (1 / 10000000) (-1 / 1000) t0) by (apply Rdiv_lt_0_compat; lra).
  unfold kelvin. lra.
Qed.
