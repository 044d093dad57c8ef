(** * P_Physics: C65, C66 -- what the temperature formulas mean, in exact arithmetic. *)
From Coq Require Import Reals Lra Psatz.
From Verif Require Import Base FloatOps Register Bus Camera Calc RealOps SpecPhysics RealFacts.
From Verif Require Import SpecCamera SpecImage.
Local Open Scope R_scope.

(** ** C65: the temperature of a pixel is the one that explains its signal *)

(** [t0] explains the signal with the nominal sensitivity [alpha]; the result is the one
    temperature that explains it with the sensitivity for an object at [t0]. *)
Theorem C65_object_temperature : forall alpha eps k v tr ta t0 t,
  0 < alpha -> 0 < eps ->
  explains_signal alpha eps v tr ta t0 ->
  0 < sensitivity_at alpha k t0 ->
  explains_signal (sensitivity_at alpha k t0) eps v tr ta t ->
  per_pixel_temperature (FO := RealOps) v alpha (t_ar (FO := RealOps) ta tr eps) k = t.
Proof. exact temperature_explains. Qed.
Print Assumptions C65_object_temperature.

(** There is exactly one such temperature whenever the signal can be explained at all. *)
Theorem C65_one_temperature : forall alpha eps v tr ta, 0 < alpha -> 0 < eps ->
  ((exists t, explains_signal alpha eps v tr ta t) <->
   0 < alpha * (kelvin ta ^ 4 - (1 - eps) * kelvin tr ^ 4) + eps * v) /\
  (forall t t', explains_signal alpha eps v tr ta t -> explains_signal alpha eps v tr ta t' -> t = t').
Proof.
  intros alpha eps v tr ta Ha He. split.
  - assert (Q : v / alpha + t_ar (FO := RealOps) ta tr eps
                = (alpha * (kelvin ta ^ 4 - (1 - eps) * kelvin tr ^ 4) + eps * v) * / (alpha * eps)).
    { rewrite t_ar_R by lra. field. lra. }
    assert (P : 0 < / (alpha * eps)) by (apply Rinv_0_lt_compat; nra).
    split.
    + intros [t [Hp Hb]]. unfold net_radiation in Hb.
      replace (alpha * (kelvin ta ^ 4 - (1 - eps) * kelvin tr ^ 4) + eps * v)
        with (alpha * eps * kelvin t ^ 4) by (rewrite <- Hb; ring).
      apply Rmult_lt_0_compat; [nra|]. apply pow_lt. exact Hp.
    + intros H. eexists. apply explains_root; [assumption|lra| |reflexivity].
      rewrite Q. apply Rmult_lt_0_compat; assumption.
  - intros t t'. apply explains_unique; assumption.
Qed.
Print Assumptions C65_one_temperature.

(** A pixel without signal shows an object as warm as the sensor (emissivity 1). *)
Theorem C65_no_signal : forall alpha k tr ta, 0 < alpha -> 0 < kelvin ta -> 0 < 1 + k * ta ->
  per_pixel_temperature (FO := RealOps) 0 alpha (t_ar (FO := RealOps) ta tr 1) k = ta.
Proof.
  intros alpha k tr ta Ha Hk Hs.
  assert (E : forall a, explains_signal a 1 0 tr ta ta).
  { intros a. split; [exact Hk|]. unfold net_radiation. ring. }
  apply (temperature_explains alpha 1 k 0 tr ta ta ta); [exact Ha|lra|apply E| |apply E].
  unfold sensitivity_at. apply Rmult_lt_0_compat; assumption.
Qed.
Print Assumptions C65_no_signal.

(** With any emissivity: an object as warm as the sensor and its surroundings gives no signal,
    whatever it is made of, and is shown with that temperature. *)
Theorem C65_equilibrium : forall alpha eps k ta, 0 < alpha -> 0 < eps -> 0 < kelvin ta -> 0 < 1 + k * ta ->
  per_pixel_temperature (FO := RealOps) 0 alpha (t_ar (FO := RealOps) ta ta eps) k = ta.
Proof.
  intros alpha eps k ta Ha He Hk Hs.
  assert (E : forall a, explains_signal a eps 0 ta ta ta).
  { intros a. split; [exact Hk|]. unfold net_radiation. ring. }
  apply (temperature_explains alpha eps k 0 ta ta ta ta); [exact Ha|exact He|apply E| |apply E].
  unfold sensitivity_at. apply Rmult_lt_0_compat; assumption.
Qed.
Print Assumptions C65_equilibrium.

Section Image.
Context (c : calib RealOps) (lay : layout) (s : settings (FO := RealOps)) (sp : subpage).

(** The reflected temperature in effect. *)
Definition reflected (mem : Z -> Z) : R :=
  match set_reflected s with
  | Some t => t
  | None => doc_t_a c lay mem - IZR (lay_self_heating lay)
  end.
(** K_sTo of the basic temperature range *)
Definition slope : R := nth (lay_basic_range lay) (k_s_to RealOps c) 0.

Lemma doc_pixel_temperature mem i :
  doc_pixel c lay s sp mem false i =
  per_pixel_temperature (FO := RealOps) (doc_v_ir c lay s sp mem i) (doc_alpha c lay sp mem i)
    (t_ar (FO := RealOps) (doc_t_a c lay mem) (reflected mem) (set_emissivity s)) slope.
Proof. reflexivity. Qed.
End Image.

(** Every measured pixel of a temperature image explains the signal measured for it.  C55 shows
    that every temperature image a driver makes is [image_stored]. *)
Theorem C65_image : forall (c : calib RealOps) lay s sp mem dest dest' i old t0 t,
  image_stored c lay s sp mem false dest dest' ->
  nth_error dest i = Some old -> measured lay sp (set_pattern s) i = true ->
  let eps := set_emissivity s in
  let alpha := doc_alpha c lay sp mem i in
  let v := doc_v_ir c lay s sp mem i in
  let ta := doc_t_a c lay mem in
  let tr := reflected c lay s mem in
  0 < alpha -> 0 < eps ->
  explains_signal alpha eps v tr ta t0 ->
  0 < sensitivity_at alpha (slope c lay) t0 ->
  explains_signal (sensitivity_at alpha (slope c lay) t0) eps v tr ta t ->
  nth_error dest' i = Some t.
Proof.
  intros c lay s sp mem dest dest' i old t0 t [_ H] Hi Hm eps alpha v ta tr Ha He E0 Hs E.
  rewrite (H i old Hi), Hm, doc_pixel_temperature. f_equal.
  apply (temperature_explains alpha eps (slope c lay) v tr ta t0 t); assumption.
Qed.
Print Assumptions C65_image.


Example C65_concrete : exists t,
  let v := 4 * net_radiation (1/2) 90 10 20 in
  explains_signal 2 (1/2) v 10 20 90 /\ 0 < sensitivity_at 2 (-1/1000) 90 /\
  explains_signal (sensitivity_at 2 (-1/1000) 90) (1/2) v 10 20 t /\ 90 < t.
Proof.
  assert (S : sensitivity_at 2 (-1/1000) 90 = 1.82) by (unfold sensitivity_at; lra).
  assert (E0 : explains_signal 2 (1/2) (4 * net_radiation (1/2) 90 10 20) 10 20 90).
  { split; [unfold kelvin; lra|]. field. }
  destruct (C65_one_temperature 1.82 (1/2) (4 * net_radiation (1/2) 90 10 20) 10 20 ltac:(lra) ltac:(lra))
    as [[_ Hex] _].
  destruct Hex as [t Ht]; [unfold net_radiation, kelvin; lra|].
  exists t. cbv zeta. rewrite S.
  split; [exact E0|]. split; [lra|]. split; [exact Ht|].
  pose proof (proj1 Ht) as Hp. apply explains_pow4 in Ht; [|lra|lra]. apply explains_pow4 in E0; [|lra|lra].
  assert (kelvin 90 < kelvin t); [|unfold kelvin in *; lra].
  apply pow4_lt_inv; [unfold kelvin; lra|exact Hp|]. rewrite Ht, E0.
  apply Rplus_lt_compat_r. unfold net_radiation, kelvin. lra.
Qed.

(** ** C66: a stronger signal shows as a hotter object *)

(** The radiation balance point of the surroundings: [kelvin t ^ 4] of an object without signal. *)
Definition background (eps tr ta : R) : R := kelvin tr ^ 4 - (kelvin tr ^ 4 - kelvin ta ^ 4) / eps.

(** Slopes for which the corrected sensitivity does not reverse the order of temperatures:
    [hot] is the hotter of the two first estimates. *)
Definition gentle_slope (k eps tr ta hot : R) : Prop :=
  (0 <= k <= 1 / 273.15 /\ 0 <= background eps tr ta) \/
  (k < 0 /\ - k * background eps tr ta <= kelvin hot ^ 3).

Theorem C66_stronger_signal_is_hotter : forall alpha eps k v v' tr ta t0 t0' t t',
  0 < alpha -> 0 < eps -> v < v' ->
  explains_signal alpha eps v tr ta t0 -> explains_signal alpha eps v' tr ta t0' ->
  0 < sensitivity_at alpha k t0 -> 0 < sensitivity_at alpha k t0' ->
  explains_signal (sensitivity_at alpha k t0) eps v tr ta t ->
  explains_signal (sensitivity_at alpha k t0') eps v' tr ta t' ->
  gentle_slope k eps tr ta t0' ->
  per_pixel_temperature (FO := RealOps) v alpha (t_ar (FO := RealOps) ta tr eps) k <
  per_pixel_temperature (FO := RealOps) v' alpha (t_ar (FO := RealOps) ta tr eps) k.
Proof.
  intros alpha eps k v v' tr ta t0 t0' t t' Ha He Hv E0 E0' S0 S0' E E' Hk.
  rewrite (temperature_explains alpha eps k v tr ta t0 t) by assumption.
  rewrite (temperature_explains alpha eps k v' tr ta t0' t') by assumption.
  apply (hotter alpha eps k v v' tr ta t0 t0' t t'); assumption.
Qed.
Print Assumptions C66_stronger_signal_is_hotter.

(** The IR value of a pixel grows with its raw value. *)
Theorem C66_larger_raw_value_is_stronger : forall px px' (cm : common_ir_data (FO := RealOps)) off kv kta amc,
  0 < c_gain cm -> 0 < c_emissivity cm -> (px < px')%Z ->
  per_pixel_v_ir (FO := RealOps) px cm off kv kta amc < per_pixel_v_ir (FO := RealOps) px' cm off kv kta amc.
Proof. exact v_ir_R_increasing. Qed.
Print Assumptions C66_larger_raw_value_is_stronger.

Lemma pixel_address_alone lay sp i : lay = layout640 \/ lay = layout641 -> (i < lay_pixels lay)%nat ->
  (lay_vdd lay <> lay_address lay sp i /\ lay_ptat lay <> lay_address lay sp i /\
   lay_vbe lay <> lay_address lay sp i /\ lay_gain lay <> lay_address lay sp i /\
   lay_cp lay sp <> lay_address lay sp i)%Z.
Proof.
  intros [-> | ->] Hi; unfold lay_pixels in Hi; cbn [layout640 layout641 lay_height lay_width] in Hi;
    cbn [layout640 layout641 lay_vdd lay_ptat lay_vbe lay_gain lay_cp lay_address].
  - assert (0 <= Z.of_nat i < 768)%Z by lia. destruct sp; repeat split; lia.
  - assert (0 <= Z.of_nat i < 192)%Z by lia.
    assert (0 <= Z.of_nat i / 32 < 6)%Z by (split; [apply Z.div_pos; lia|apply Z.div_lt_upper_bound; lia]).
    pose proof (Z.mod_pos_bound (Z.of_nat i) 32 ltac:(lia)).
    destruct sp; cbn [sub]; repeat split; lia.
Qed.

(** Two frames that differ only in the raw value of one pixel: that pixel is hotter in the frame
    where the value is larger, for raw images and for temperature images. *)
Theorem C66_frames : forall (c : calib RealOps) lay s sp mem mem' i,
  lay = layout640 \/ lay = layout641 -> (i < lay_pixels lay)%nat ->
  (forall a, a <> lay_address lay sp i -> mem' a = mem a) ->
  (ram mem (lay_address lay sp i) < ram mem' (lay_address lay sp i))%Z ->
  let eps := set_emissivity s in
  let alpha := doc_alpha c lay sp mem i in
  let ta := doc_t_a c lay mem in
  let tr := reflected c lay s mem in
  let v := doc_v_ir c lay s sp mem i in
  let v' := doc_v_ir c lay s sp mem' i in
  let k := slope c lay in
  0 < doc_gain c lay mem -> 0 < eps ->
  doc_pixel c lay s sp mem true i < doc_pixel c lay s sp mem' true i /\
  forall t0 t0' t t', 0 < alpha ->
  explains_signal alpha eps v tr ta t0 -> explains_signal alpha eps v' tr ta t0' ->
  0 < sensitivity_at alpha k t0 -> 0 < sensitivity_at alpha k t0' ->
  explains_signal (sensitivity_at alpha k t0) eps v tr ta t ->
  explains_signal (sensitivity_at alpha k t0') eps v' tr ta t' ->
  gentle_slope k eps tr ta t0' ->
  doc_pixel c lay s sp mem false i < doc_pixel c lay s sp mem' false i.
Proof.
  intros c lay s sp mem mem' i Hl Hi Hm Hr eps alpha ta tr v v' k Hg He.
  destruct (pixel_address_alone lay sp i Hl Hi) as (A1 & A2 & A3 & A4 & A5).
  assert (R : forall a, a <> lay_address lay sp i -> ram mem' a = ram mem a)
    by (intros a Ha; unfold ram; rewrite Hm by assumption; reflexivity).
  assert (Eta : doc_t_a c lay mem' = doc_t_a c lay mem).
  { unfold doc_t_a, doc_v_ptat_art, doc_delta_v. rewrite !R by assumption. reflexivity. }
  assert (Ealpha : doc_alpha c lay sp mem' i = doc_alpha c lay sp mem i)
    by (unfold doc_alpha; rewrite Eta; reflexivity).
  assert (Etr : reflected c lay s mem' = reflected c lay s mem)
    by (unfold reflected; rewrite Eta; reflexivity).
  assert (Hcomp : forall z off kv kta amc,
    doc_compensated c lay s mem' z off kv kta amc = doc_compensated c lay s mem z off kv kta amc).
  { intros. unfold doc_compensated, doc_gain, doc_v_dd, doc_delta_v. rewrite Eta, !R by assumption. reflexivity. }
  assert (Hv : v < v').
  { unfold v, v', doc_v_ir. rewrite (R (lay_cp lay sp)) by assumption.
    rewrite !Hcomp.
    assert (G : forall z z' off kv kta amc, (z < z')%Z ->
      doc_compensated c lay s mem z off kv kta amc < doc_compensated c lay s mem z' off kv kta amc).
    { intros z z' off kv kta amc Hz.
      exact (v_ir_R_increasing z z' {| c_gain := doc_gain c lay mem; c_v_dd := doc_v_dd c lay s mem;
               c_emissivity := set_emissivity s; c_t_a := doc_t_a c lay mem |} off kv kta amc Hg He Hz). }
    destruct (temperature_gradient_coefficient RealOps c); [|apply G; exact Hr].
    apply Rplus_lt_compat_r. apply G. exact Hr. }
  split; [exact Hv|].
  intros t0 t0' t t' Ha E0 E0' S0 S0' E E' Hk.
  rewrite !doc_pixel_temperature, Ealpha, Eta, Etr.
  apply (C66_stronger_signal_is_hotter alpha eps k v v' tr ta t0 t0' t t'); assumption.
Qed.
Print Assumptions C66_frames.

(** The hypotheses on the slope hold in ordinary conditions: slope -1/1000, everything at room
    temperature, hotter object above -60 degrees. *)
Example C66_concrete : forall hot, -60 <= hot -> gentle_slope (-1/1000) 1 20 20 hot.
Proof.
  intros hot H. right. split; [lra|]. unfold background, kelvin.
  assert (213.15 ^ 3 <= (hot + 273.15) ^ 3) by (apply pow_incr; lra). lra.
Qed.
