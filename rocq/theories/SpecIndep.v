(** * SpecIndep: calibration data that differ only in what images do not use. *)
From Verif Require Import Base FloatOps Register Bus Camera Driver.

(** [c'] may differ from [c] in the failed and outlier flags, the corner temperatures, the
    corrections of the temperature ranges, and the object temperature sensitivities of all ranges
    but the basic one. *)
Record agree {FO : FloatOps} (c c' : calib FO) : Prop := {
  ag_cam : cam _ c' = cam _ c;
  ag_k_v_dd : k_v_dd _ c' = k_v_dd _ c;
  ag_v_dd_25 : v_dd_25 _ c' = v_dd_25 _ c;
  ag_resolution : cal_resolution _ c' = cal_resolution _ c;
  ag_v_dd_0 : v_dd_0 _ c' = v_dd_0 _ c;
  ag_k_v_ptat : k_v_ptat _ c' = k_v_ptat _ c;
  ag_k_t_ptat : k_t_ptat _ c' = k_t_ptat _ c;
  ag_v_ptat_25 : v_ptat_25 _ c' = v_ptat_25 _ c;
  ag_alpha_ptat : alpha_ptat _ c' = alpha_ptat _ c;
  ag_gain : cal_gain _ c' = cal_gain _ c;
  ag_k_s_ta : k_s_ta _ c' = k_s_ta _ c;
  ag_k_s_to : nth_error (k_s_to _ c') (BASIC_TEMPERATURE_RANGE _ (cam _ c)) =
              nth_error (k_s_to _ c) (BASIC_TEMPERATURE_RANGE _ (cam _ c));
  ag_emissivity : cal_emissivity _ c' = cal_emissivity _ c;
  ag_offset : forall sp, offset_reference_pixels _ c' sp = offset_reference_pixels _ c sp;
  ag_offset_cp : forall sp, offset_reference_cp _ c' sp = offset_reference_cp _ c sp;
  ag_alpha : forall sp, alpha_pixels _ c' sp = alpha_pixels _ c sp;
  ag_alpha_cp : forall sp, alpha_cp _ c' sp = alpha_cp _ c sp;
  ag_k_v : forall sp, k_v_pixels _ c' sp = k_v_pixels _ c sp;
  ag_k_v_cp : forall sp, k_v_cp _ c' sp = k_v_cp _ c sp;
  ag_k_ta : forall sp, k_ta_pixels _ c' sp = k_ta_pixels _ c sp;
  ag_k_ta_cp : forall sp, k_ta_cp _ c' sp = k_ta_cp _ c sp;
  ag_tgc : temperature_gradient_coefficient _ c' = temperature_gradient_coefficient _ c;
  ag_pattern : forall ap, access_pattern_compensation_pixels _ c' ap = access_pattern_compensation_pixels _ c ap;
  ag_pattern_cp : forall sp ap, access_pattern_compensation_cp _ c' sp ap = access_pattern_compensation_cp _ c sp ap
}.

(** The driver [d], but holding the calibration data [c']. *)
Definition recalibrated {FO : FloatOps} {B ER EW} (c' : calib FO) (d : driver (FO := FO) (B := B) (ER := ER) (EW := EW))
    : driver (FO := FO) (B := B) (ER := ER) (EW := EW) :=
  {| d_bus := d_bus d; d_address := d_address d; d_calibration := c'; d_pixel_buffer := d_pixel_buffer d;
     d_resolution_correction := d_resolution_correction d; d_ambient := d_ambient d; d_emissivity := d_emissivity d;
     d_access_pattern := d_access_pattern d; d_reflected := d_reflected d; d_height := d_height d |}.
