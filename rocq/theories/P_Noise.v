(** * P_Noise: C108 -- a little noise in a pixel's measurement changes its temperature little. *)
From Coq Require Import Reals Lra Psatz.
From Verif Require Import Base FloatOps Register Bus Camera Calc RealOps SpecPhysics RealFacts.
From Verif Require Import SpecCamera SpecImage P_Physics.
Local Open Scope R_scope.

(** What a change of the signal by [dv] can change the temperature by: [sens] and [sens'] are the pixel's sensitivities
    (with and without the change), [k] the slope of the sensitivity, [v] the signal, and the object is never colder
    than [cold] kelvin, by the first estimate never colder than [cold0] kelvin. *)
Definition noise_bound (dv sens sens' k v cold0 cold : R) : R :=
  Rabs dv * (1 + Rabs (k * v) / (4 * sens * cold0 ^ 3)) / (4 * sens' * cold ^ 3).

Lemma fourth_roots_close x y low : 0 < low -> low <= x -> low <= y ->
  Rabs (y - x) <= Rabs (y ^ 4 - x ^ 4) / (4 * low ^ 3).
Proof.
  intros Hl Hx Hy.
  assert (P : 0 < 4 * low ^ 3) by (pose proof (pow_lt low 3 Hl); lra).
  apply (Rmult_le_reg_r (4 * low ^ 3)); [exact P|].
  replace (Rabs (y ^ 4 - x ^ 4) / (4 * low ^ 3) * (4 * low ^ 3)) with (Rabs (y ^ 4 - x ^ 4)) by (field; pose proof (pow_lt low 3 Hl); lra).
  replace (y ^ 4 - x ^ 4) with ((y - x) * (y ^ 3 + y ^ 2 * x + y * x ^ 2 + x ^ 3)) by ring.
  assert (Q : 4 * low ^ 3 <= y ^ 3 + y ^ 2 * x + y * x ^ 2 + x ^ 3).
  { assert (A : forall u w z, low <= u -> low <= w -> low <= z -> low ^ 3 <= u * w * z).
    { intros u w z Hu Hw Hz. replace (low ^ 3) with (low * low * low) by ring.
      apply Rmult_le_compat; [nra|lra| |exact Hz]. apply Rmult_le_compat; lra. }
    pose proof (A y y y Hy Hy Hy). pose proof (A y y x Hy Hy Hx). pose proof (A y x x Hy Hx Hx). pose proof (A x x x Hx Hx Hx).
    replace (y ^ 3) with (y * y * y) by ring. replace (y ^ 2 * x) with (y * y * x) by ring.
    replace (y * x ^ 2) with (y * x * x) by ring. replace (x ^ 3) with (x * x * x) by ring. lra. }
  rewrite Rabs_mult, (Rabs_pos_eq (y ^ 3 + _ + _ + _)) by lra.
  apply Rmult_le_compat_l; [apply Rabs_pos|exact Q].
Qed.

(** Two signals: the temperatures that explain them differ by at most the bound. *)
Theorem C108_signals : forall alpha eps k v v' tr ta t0 t0' t t' cold0 cold,
  0 < alpha -> 0 < eps ->
  explains_signal alpha eps v tr ta t0 -> explains_signal alpha eps v' tr ta t0' ->
  let sens := sensitivity_at alpha k t0 in
  let sens' := sensitivity_at alpha k t0' in
  0 < sens -> 0 < sens' ->
  explains_signal sens eps v tr ta t -> explains_signal sens' eps v' tr ta t' ->
  0 < cold0 -> cold0 <= kelvin t0 -> cold0 <= kelvin t0' ->
  0 < cold -> cold <= kelvin t -> cold <= kelvin t' ->
  Rabs (per_pixel_temperature (FO := RealOps) v' alpha (t_ar (FO := RealOps) ta tr eps) k -
        per_pixel_temperature (FO := RealOps) v alpha (t_ar (FO := RealOps) ta tr eps) k)
  <= noise_bound (v' - v) sens sens' k v cold0 cold.
Proof.
  intros alpha eps k v v' tr ta t0 t0' t t' cold0 cold Ha He E0 E0' sens sens' S0 S0' E E' C0 C1 C2 C3 C4 C5.
  rewrite (temperature_explains alpha eps k v tr ta t0 t) by assumption.
  rewrite (temperature_explains alpha eps k v' tr ta t0' t') by assumption.
  pose proof (explains_pow4 _ _ _ _ _ _ Ha He E0) as Q0. pose proof (explains_pow4 _ _ _ _ _ _ Ha He E0') as Q0'.
  pose proof (explains_pow4 _ _ _ _ _ _ S0 He E) as Q. pose proof (explains_pow4 _ _ _ _ _ _ S0' He E') as Q'.
  set (bg := kelvin tr ^ 4 - (kelvin tr ^ 4 - kelvin ta ^ 4) / eps) in *.
  pose proof (pow_lt cold0 3 C0) as P0. pose proof (pow_lt cold 3 C3) as P.
  assert (D0 : Rabs (t0' - t0) <= Rabs (v' - v) / (4 * alpha * cold0 ^ 3)).
  { replace (t0' - t0) with (kelvin t0' - kelvin t0) by (unfold kelvin; ring).
    eapply Rle_trans; [apply (fourth_roots_close (kelvin t0) (kelvin t0') cold0 C0 C1 C2)|].
    rewrite Q0, Q0'. replace (v' / alpha + bg - (v / alpha + bg)) with ((v' - v) * / alpha) by (field; lra).
    rewrite Rabs_mult, (Rabs_pos_eq (/ alpha)) by (left; apply Rinv_0_lt_compat; exact Ha).
    right. field. lra. }
  replace (t' - t) with (kelvin t' - kelvin t) by (unfold kelvin; ring).
  eapply Rle_trans; [apply (fourth_roots_close (kelvin t) (kelvin t') cold C3 C4 C5)|].
  rewrite Q, Q'.
  assert (Ed : v' / sens' + bg - (v / sens + bg) = (v' - v) / sens' - (k * v) * alpha * (t0' - t0) * / (sens * sens')).
  { assert (Es : sens' = sens + alpha * k * (t0' - t0)) by (unfold sens, sens', sensitivity_at; ring).
    replace (alpha * k * (t0' - t0)) with (sens' - sens) in Es by lra.
    replace ((k * v) * alpha * (t0' - t0)) with (v * (sens' - sens)) by (unfold sens, sens', sensitivity_at; ring). field. lra. }
  rewrite Ed. unfold noise_bound.
  apply (Rmult_le_reg_r (4 * cold ^ 3)); [lra|].
  replace (Rabs ((v' - v) / sens' - k * v * alpha * (t0' - t0) * / (sens * sens')) / (4 * cold ^ 3) * (4 * cold ^ 3))
    with (Rabs ((v' - v) / sens' - k * v * alpha * (t0' - t0) * / (sens * sens'))) by (field; lra).
  replace (Rabs (v' - v) * (1 + Rabs (k * v) / (4 * sens * cold0 ^ 3)) / (4 * sens' * cold ^ 3) * (4 * cold ^ 3))
    with (Rabs (v' - v) / sens' + Rabs (k * v) * alpha * (Rabs (v' - v) / (4 * alpha * cold0 ^ 3)) * / (sens * sens')) by (field; repeat split; lra).
  eapply Rle_trans; [apply Rabs_triang|]. rewrite Rabs_Ropp.
  assert (I1 : 0 < / sens') by (apply Rinv_0_lt_compat; exact S0').
  assert (I2 : 0 < / (sens * sens')) by (apply Rinv_0_lt_compat; apply Rmult_lt_0_compat; assumption).
  apply Rplus_le_compat.
  - unfold Rdiv at 1. rewrite Rabs_mult, (Rabs_pos_eq (/ sens')) by lra. right. reflexivity.
  - rewrite !Rabs_mult, (Rabs_pos_eq (/ (sens * sens'))), (Rabs_pos_eq alpha) by lra.
    apply Rmult_le_compat_r; [lra|]. rewrite <- Rabs_mult. apply Rmult_le_compat_l; [|exact D0].
    apply Rmult_le_pos; [apply Rabs_pos|lra].
Qed.
Print Assumptions C108_signals.

(** Two frames of the same conditions: the supply voltage, the sensor's temperature (two words), the gain and the
    compensation pixel are the same; the pixels may all differ. *)
Definition same_conditions (lay : layout) (sp : subpage) (mem mem' : Z -> Z) : Prop :=
  mem' (lay_vdd lay) = mem (lay_vdd lay) /\ mem' (lay_ptat lay) = mem (lay_ptat lay) /\
  mem' (lay_vbe lay) = mem (lay_vbe lay) /\ mem' (lay_gain lay) = mem (lay_gain lay) /\
  mem' (lay_cp lay sp) = mem (lay_cp lay sp).

(** Frames that differ in the raw value of a pixel only are such frames. *)
Lemma one_pixel_differs lay sp mem mem' i : lay = layout640 \/ lay = layout641 -> (i < lay_pixels lay)%nat ->
  (forall a, a <> lay_address lay sp i -> mem' a = mem a) -> same_conditions lay sp mem mem'.
Proof.
  intros Hl Hi Hm. destruct (pixel_address_alone lay sp i Hl Hi) as (A1 & A2 & A3 & A4 & A5).
  unfold same_conditions. rewrite !Hm by assumption. repeat split.
Qed.

Lemma same_ambient (c : calib RealOps) lay sp mem mem' : same_conditions lay sp mem mem' ->
  doc_t_a c lay mem' = doc_t_a c lay mem.
Proof.
  intros (A1 & A2 & A3 & A4 & A5). unfold doc_t_a, doc_v_ptat_art, doc_delta_v, ram. rewrite A1, A2, A3. reflexivity.
Qed.

Lemma signal_differs (c : calib RealOps) lay (s : settings (FO := RealOps)) sp mem mem' i :
  same_conditions lay sp mem mem' -> set_emissivity s <> 0 ->
  doc_v_ir c lay s sp mem' i - doc_v_ir c lay s sp mem i =
  IZR (ram mem' (lay_address lay sp i) - ram mem (lay_address lay sp i)) * doc_gain c lay mem / set_emissivity s.
Proof.
  intros Hs He. pose proof (same_ambient c lay sp mem mem' Hs) as Eta. destruct Hs as (A1 & A2 & A3 & A4 & A5).
  assert (Hcomp : forall z off kv kta amc,
    doc_compensated c lay s mem' z off kv kta amc = doc_compensated c lay s mem z off kv kta amc).
  { intros. unfold doc_compensated, doc_gain, doc_v_dd, doc_delta_v, ram. rewrite Eta, A1, A4. reflexivity. }
  unfold doc_v_ir. replace (ram mem' (lay_cp lay sp)) with (ram mem (lay_cp lay sp)) by (unfold ram; rewrite A5; reflexivity).
  rewrite !Hcomp.
  assert (G : forall z z' off kv kta amc,
    doc_compensated c lay s mem z' off kv kta amc = doc_compensated c lay s mem z off kv kta amc + IZR (z' - z) * doc_gain c lay mem / set_emissivity s).
  { intros z z' off kv kta amc. unfold doc_compensated.
    generalize (doc_gain c lay mem) (doc_t_a c lay mem) (doc_v_dd c lay s mem). intros g a b.
    cbn [RealOps F fadd fsub fmul fdiv fofZ f_3_3]. rewrite minus_IZR. field. exact He. }
  rewrite (G (ram mem (lay_address lay sp i)) (ram mem' (lay_address lay sp i))).
  destruct (temperature_gradient_coefficient RealOps c); cbn [RealOps F fsub fmul]; unfold Rminus; ring.
Qed.

(** In two frames of the same conditions the raw value of a pixel differs by [dn] counts: the raw image differs by
    [dn] times the gain over the emissivity there, and the temperature by at most what the bound says for that. *)
Theorem C108_frames : forall (c : calib RealOps) lay s sp mem mem' i,
  same_conditions lay sp mem mem' ->
  let eps := set_emissivity s in
  let alpha := doc_alpha c lay sp mem i in
  let ta := doc_t_a c lay mem in
  let tr := reflected c lay s mem in
  let v := doc_v_ir c lay s sp mem i in
  let v' := doc_v_ir c lay s sp mem' i in
  let k := slope c lay in
  let dn := IZR (ram mem' (lay_address lay sp i) - ram mem (lay_address lay sp i)) in
  let dv := dn * doc_gain c lay mem / eps in
  eps <> 0 ->
  doc_pixel c lay s sp mem' true i - doc_pixel c lay s sp mem true i = dv /\
  forall t0 t0' t t' cold0 cold, 0 < eps -> 0 < alpha ->
  explains_signal alpha eps v tr ta t0 -> explains_signal alpha eps v' tr ta t0' ->
  let sens := sensitivity_at alpha k t0 in
  let sens' := sensitivity_at alpha k t0' in
  0 < sens -> 0 < sens' ->
  explains_signal sens eps v tr ta t -> explains_signal sens' eps v' tr ta t' ->
  0 < cold0 -> cold0 <= kelvin t0 -> cold0 <= kelvin t0' ->
  0 < cold -> cold <= kelvin t -> cold <= kelvin t' ->
  Rabs (doc_pixel c lay s sp mem' false i - doc_pixel c lay s sp mem false i)
  <= noise_bound dv sens sens' k v cold0 cold.
Proof.
  intros c lay s sp mem mem' i Hs eps alpha ta tr v v' k dn dv Hn.
  assert (Hv : v' - v = dv) by (apply signal_differs; assumption).
  split; [exact Hv|].
  intros t0 t0' t t' cold0 cold He Ha E0 E0' sens sens' S0 S0' E E' C0 C1 C2 C3 C4 C5.
  rewrite !doc_pixel_temperature, <- Hv.
  replace (doc_alpha c lay sp mem' i) with alpha by (unfold alpha, doc_alpha; rewrite (same_ambient c lay sp mem mem' Hs); reflexivity).
  replace (reflected c lay s mem') with tr by (unfold tr, reflected; rewrite (same_ambient c lay sp mem mem' Hs); reflexivity).
  rewrite (same_ambient c lay sp mem mem' Hs).
  apply (C108_signals alpha eps k v v' tr ta t0 t0' t t' cold0 cold); assumption.
Qed.
Print Assumptions C108_frames.

(** A pixel of ordinary sensitivity (1e-7), no slope, at room temperature: one count is at most 0.1 degrees. *)
Example C108_concrete : forall v, noise_bound 1 (/ 10000000) (/ 10000000) 0 v 293 293 <= 0.1.
Proof.
  intros v. unfold noise_bound. rewrite Rmult_0_l, Rabs_R0, Rabs_R1. apply (Rmult_le_reg_r (4 * / 10000000 * 293 ^ 3)); [lra|].
  replace (1 * (1 + 0 / (4 * / 10000000 * 293 ^ 3)) / (4 * / 10000000 * 293 ^ 3) * (4 * / 10000000 * 293 ^ 3)) with 1 by (field; lra).
  lra.
Qed.
(** An object at 90 degrees and one at 91, seen by the pixel of [C65_concrete] (sensitivity falling by a thousandth per degree): the
    hypotheses of [C108_signals] hold with 350 kelvin for both lower bounds. *)
Example C108_hypotheses : exists v v' t t',
  let sens := sensitivity_at 2 (-1/1000) 90 in
  let sens' := sensitivity_at 2 (-1/1000) 91 in
  v < v' /\ explains_signal 2 (1/2) v 10 20 90 /\ explains_signal 2 (1/2) v' 10 20 91 /\ 0 < sens /\ 0 < sens' /\
  explains_signal sens (1/2) v 10 20 t /\ explains_signal sens' (1/2) v' 10 20 t' /\
  350 <= kelvin 90 /\ 350 <= kelvin 91 /\ 350 <= kelvin t /\ 350 <= kelvin t'.
Proof.
  exists (4 * net_radiation (1/2) 90 10 20), (4 * net_radiation (1/2) 91 10 20).
  assert (S : sensitivity_at 2 (-1/1000) 90 = 1.82) by (unfold sensitivity_at; lra).
  assert (S' : sensitivity_at 2 (-1/1000) 91 = 1.818) by (unfold sensitivity_at; lra).
  destruct (C65_one_temperature 1.82 (1/2) (4 * net_radiation (1/2) 90 10 20) 10 20 ltac:(lra) ltac:(lra)) as [[_ X1] _].
  destruct (C65_one_temperature 1.818 (1/2) (4 * net_radiation (1/2) 91 10 20) 10 20 ltac:(lra) ltac:(lra)) as [[_ X2] _].
  destruct X1 as [t Ht]; [unfold net_radiation, kelvin; lra|]. destruct X2 as [t' Ht']; [unfold net_radiation, kelvin; lra|].
  exists t, t'. cbv zeta. rewrite S, S'.
  assert (H : forall u, 0 < kelvin u -> 350 ^ 4 < kelvin u ^ 4 -> 350 <= kelvin u).
  { intros u Hu H. left. apply pow4_lt_inv; [lra|exact Hu|exact H]. }
  split; [unfold net_radiation, kelvin; lra|]. split; [split; [unfold kelvin; lra|field]|]. split; [split; [unfold kelvin; lra|field]|].
  split; [lra|]. split; [lra|]. split; [exact Ht|]. split; [exact Ht'|].
  split; [unfold kelvin; lra|]. split; [unfold kelvin; lra|].
  split; (apply H; [apply Ht || apply Ht'|]).
  - apply explains_pow4 in Ht; [|lra|lra]. rewrite Ht. unfold net_radiation, kelvin. lra.
  - apply explains_pow4 in Ht'; [|lra|lra]. rewrite Ht'. unfold net_radiation, kelvin. lra.
Qed.
