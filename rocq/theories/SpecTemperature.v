(** * SpecTemperature: accuracy of object temperatures: what is assumed of the
    mathematical library, the working range and the tolerance. *)
From Verif Require Import Base FloatOps Register Camera SpecCamera SpecImage B32 RealOps SpecAccuracy.
From Coq Require Import Reals.
From Flocq Require Import Core BinarySingleNaN.
Open Scope R_scope.

(** Third and fourth powers and fourth roots have a relative error of at most
    2^-22 (two units in the last place), where the power is not out of range. *)
Record accurate_powers (l : libm) : Prop := {
  ap_powi : forall (x : f32) (n : Z), is_finite x = true -> (n = 3 \/ n = 4)%Z ->
    bpow radix2 (-126) <= Rabs (powerRZ (B2R x) n) <= bpow radix2 100 ->
    is_finite (lm_powi l x n) = true /\
    Rabs (B2R (lm_powi l x n) - powerRZ (B2R x) n) <= / 4194304 * Rabs (powerRZ (B2R x) n);
  ap_root : forall x : f32, is_finite x = true -> 0 < B2R x ->
    is_finite (lm_powf l x (@f_quarter (B32 l))) = true /\
    Rabs (B2R (lm_powf l x (@f_quarter (B32 l))) - Rpower (B2R x) (1 / 4)) <= / 4194304 * Rpower (B2R x) (1 / 4)
}.

Section Temperature.
Context (c : calib RealOps) (lay : layout) (s : settings (FO := RealOps)) (sp : subpage) (mem : Z -> Z).

(** Absolute temperatures of the sensor and of the surroundings. *)
Definition ambient_kelvin : R := doc_t_a c lay mem + 273.15.
Definition reflected_kelvin : R :=
  match set_reflected s with
  | Some t => t
  | None => doc_t_a c lay mem - IZR (lay_self_heating lay)
  end + 273.15.
(** Tolerance of T_a (C72). *)
Definition ambient_tolerance : R := 2 / 25 / Rabs (k_t_ptat _ c).
(** What it means for the background radiation T_a-r. *)
Definition background_tolerance : R :=
  if Req_EM_T (set_emissivity s) 1 then 5 * ambient_tolerance * ambient_kelvin ^ 3
  else 6 * ambient_tolerance * (ambient_kelvin ^ 3 + 2 * reflected_kelvin ^ 3) / set_emissivity s.
(** Relative tolerance of the sensitivity. *)
Definition sensitivity_tolerance : R := 3 / 2 * Rabs (k_s_ta _ c) * ambient_tolerance + 1 / 1000000.

Section Pixel.
Context (kst : R) (i : nat).
(** Fourth powers of absolute temperatures: the signal as radiation, and the object
    temperature without the correction of the sensitivity. *)
Definition signal : R := doc_v_ir c lay s sp mem i / doc_alpha c lay sp mem i.
Definition uncorrected4 : R := signal + doc_t_ar c lay s mem.
Definition uncorrected_kelvin : R := Rpower uncorrected4 (1 / 4).
Definition object_kelvin : R := doc_t_o c lay s sp mem kst i + 273.15.

(** Total uncertainty of the radiation of a pixel. *)
Definition radiation_tolerance : R :=
  pixel_tolerance c s sp i / doc_alpha c lay sp mem i + background_tolerance +
  2 * (Rabs signal + Rabs (doc_t_ar c lay s mem)) * sensitivity_tolerance.
(** Tolerance of the temperature of a pixel, in degrees. *)
Definition temperature_tolerance : R := radiation_tolerance / object_kelvin ^ 3 + 1 / 2000.

(** The surroundings are between 150 and 450 K and the emissivity is between 1/16 and 1;
    the sensitivity is between 2^-26 and 2^-10, changes by at most a quarter
    with the ambient temperature and at most a quarter with the object's; the
    compensation pixel's part of it is at most half of it; the object is between 150 and
    1000 K (also before correction), the background does not outshine it more
    than fivefold, and the uncertainty is at most half a percent. *)
Record working_pixel : Prop := {
  wp_reflected : 150 <= reflected_kelvin <= 450;
  wp_emissivity : 1 / 16 <= set_emissivity s <= 1;
  wp_k_s_ta : Rabs (k_s_ta _ c) <= 1 / 64;
  wp_k_s_ta_effect : Rabs (k_s_ta _ c * (doc_t_a c lay mem - 25)) <= 1 / 4;
  wp_alpha : / 67108864 <= doc_alpha c lay sp mem i <= / 1024;
  wp_alpha_cp : forall tgc, temperature_gradient_coefficient _ c = Some tgc ->
    Rabs (alpha_cp _ c sp * tgc) <= Rabs (nth i (alpha_pixels _ c sp) 0 - alpha_cp _ c sp * tgc) / 2;
  wp_uncorrected : 150 ^ 4 <= uncorrected4 <= 1000 ^ 4;
  wp_background : Rabs signal <= 4 * uncorrected4;
  wp_slope : Rabs kst * uncorrected_kelvin <= 1 / 2;
  wp_slope_effect : Rabs (kst * (uncorrected_kelvin - 273.15)) <= 1 / 4;
  wp_object : 150 <= object_kelvin <= 1000;
  wp_uncertainty : radiation_tolerance <= uncorrected4 / 200;
  wp_uncertainty' : radiation_tolerance <= object_kelvin ^ 4 / 200
}.
End Pixel.
End Temperature.
