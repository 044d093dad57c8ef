(** * SpecAccuracy: the datasheets' formulas over the real numbers, from the words
    of the EEPROM and of a frame, to measure the rounding errors of the library. *)
From Verif Require Import Base SpecRegister SpecEeprom SpecCamera.
From Coq Require Import Reals.
Open Scope Z_scope.

(** Constants of the ambient temperature (datasheets 11.1.1, 11.1.2 / 11.2.2.2, 11.2.2.3). *)
Record ptat_constants := {
  pc_alpha : R;       (* alpha_PTAT *)
  pc_k_v : R;         (* K_V_PTAT *)
  pc_k_t : R;         (* K_T_PTAT *)
  pc_v_25 : R;        (* V_PTAT_25 *)
  pc_vdd_25 : Z;      (* V_DD_25 *)
  pc_k_vdd : Z        (* K_V_DD *)
}.
(** MLX90640, [ee]: words of the EEPROM from 0x2400. *)
Definition ptat_640 (ee : nat -> Z) : ptat_constants := {|
  pc_alpha := IZR (bits (ee 0x10%nat) 12 4) / 4 + 8;
  pc_k_v := IZR (sbits (ee 0x32%nat) 10 6) / 4096;
  pc_k_t := IZR (sbits (ee 0x32%nat) 0 10) / 8;
  pc_v_25 := IZR (sext 16 (ee 0x31%nat));
  pc_vdd_25 := (bits (ee 0x33%nat) 0 8 - 256) * 32 - 8192;
  pc_k_vdd := sbits (ee 0x33%nat) 8 8 * 32
|}.
(** MLX90641, [dw]: words of the EEPROM from 0x2400 after error correction. *)
Definition ptat_641 (dw : nat -> Z) : ptat_constants := {|
  pc_alpha := IZR (dw 0x2C%nat) / 128;
  pc_k_v := IZR (sext 11 (dw 0x2B%nat)) / 4096;
  pc_k_t := IZR (sext 11 (dw 0x2A%nat)) / 8;
  pc_v_25 := IZR (32 * dw 0x28%nat + dw 0x29%nat);
  pc_vdd_25 := sext 11 (dw 0x26%nat) * 32;
  pc_k_vdd := sext 11 (dw 0x27%nat) * 32
|}.

Section Exact.
Context (k : ptat_constants) (lay : layout) (mem : Z -> Z).
Open Scope R_scope.
Definition reading (a : Z) : R := IZR (signed (mem a)).
(** Difference of the supply voltage from 3.3 V at calibration resolution. *)
Definition exact_delta_v : R := (reading (lay_vdd lay) - IZR (pc_vdd_25 k)) / IZR (pc_k_vdd k).
Definition exact_v_ptat_art : R :=
  reading (lay_ptat lay) / (reading (lay_ptat lay) * pc_alpha k + reading (lay_vbe lay)) * 262144.
Definition exact_t_a : R :=
  (exact_v_ptat_art / (1 + pc_k_v k * exact_delta_v) - pc_v_25 k) / pc_k_t k + 25.

(** A plausible frame: the temperature sensor gives positive readings, the supply
    voltage reading is not absurdly far from its calibration value, and its
    influence on the temperature sensor is less than half. *)
Record plausible_frame : Prop := {
  pf_ptat : 0 < reading (lay_ptat lay);
  pf_vbe : 0 <= reading (lay_vbe lay);
  pf_vdd : -32768 <= reading (lay_vdd lay) - IZR (pc_vdd_25 k) <= 32767;
  pf_influence : Rabs (pc_k_v k * exact_delta_v) <= 1 / 2
}.
End Exact.

(** ** Calibration data and settings as real numbers: with [RealOps] the formulas
    of SpecImage are evaluated without rounding. *)
From Verif Require Import FloatOps Register Camera SpecImage B32 RealOps.
From Flocq Require Import BinarySingleNaN.
(** [m]: which camera it is (it plays no role in the formulas). *)
Definition exactly {l : libm} (m : camera RealOps) (c : calib (B32 l)) : calib RealOps :=
  Build_calib RealOps
    m
    (k_v_dd _ c)  (* k_v_dd *)
    (v_dd_25 _ c)  (* v_dd_25 *)
    (cal_resolution _ c)  (* cal_resolution *)
    ((33 / 10)%R)  (* v_dd_0 *)
    (B2R (k_v_ptat _ c))  (* k_v_ptat *)
    (B2R (k_t_ptat _ c))  (* k_t_ptat *)
    (B2R (v_ptat_25 _ c))  (* v_ptat_25 *)
    (B2R (alpha_ptat _ c))  (* alpha_ptat *)
    (B2R (cal_gain _ c))  (* cal_gain *)
    (B2R (k_s_ta _ c))  (* k_s_ta *)
    (corner_temperatures _ c)  (* corner_temperatures *)
    (map B2R (k_s_to _ c))  (* k_s_to *)
    (map B2R (alpha_correction _ c))  (* alpha_correction *)
    (option_map B2R (cal_emissivity _ c))  (* cal_emissivity *)
    (offset_reference_pixels _ c)  (* offset_reference_pixels *)
    (offset_reference_cp _ c)  (* offset_reference_cp *)
    (fun sp => map B2R (alpha_pixels _ c sp))  (* alpha_pixels *)
    (fun sp => B2R (alpha_cp _ c sp))  (* alpha_cp *)
    (fun sp => map B2R (k_v_pixels _ c sp))  (* k_v_pixels *)
    (fun sp => B2R (k_v_cp _ c sp))  (* k_v_cp *)
    (fun sp => map B2R (k_ta_pixels _ c sp))  (* k_ta_pixels *)
    (fun sp => B2R (k_ta_cp _ c sp))  (* k_ta_cp *)
    (option_map B2R (temperature_gradient_coefficient _ c))  (* temperature_gradient_coefficient *)
    (fun ap => map (option_map B2R) (access_pattern_compensation_pixels _ c ap))  (* access_pattern_compensation_pixels *)
    (fun sp ap => option_map B2R (access_pattern_compensation_cp _ c sp ap))  (* access_pattern_compensation_cp *)
    (failed_pixels _ c)  (* failed_pixels *)
    (outlier_pixels _ c)  (* outlier_pixels *).
Definition settings_exactly {l : libm} (s : settings (FO := B32 l)) : settings (FO := RealOps) := {|
  set_emissivity := B2R (set_emissivity s) : F RealOps;
  set_reflected := option_map B2R (set_reflected s);
  set_correction := B2R (set_correction s) : F RealOps;
  set_pattern := set_pattern s
|}.

Section Pixel.
Context (c : calib RealOps) (lay : layout) (s : settings (FO := RealOps)) (sp : subpage) (mem : Z -> Z).
Open Scope R_scope.
(** A frame in the working range: gain at most twice its calibrated value, ambient
    temperature between -103 and 153 degrees, supply voltage within 1 V of 3.3 V,
    emissivity between 1/256 and 2. *)
Record working_frame : Prop := {
  wf_gain_reading : signed (mem (lay_gain lay)) <> 0%Z;
  wf_gain : Rabs (doc_gain c lay mem) <= 2;
  wf_ambient : Rabs (doc_t_a c lay mem - 25) <= 128;
  wf_supply : Rabs (doc_v_dd c lay s mem - 33 / 10) <= 1;
  wf_emissivity : 1 / 256 <= Rabs (set_emissivity s) <= 2
}.
(** Coefficients in the working range: temperature changes the offset at most
    twofold, supply voltage by at most half. *)
Record working_coefficients (kv kta : R) : Prop := {
  wc_kta : Rabs kta <= 1;
  wc_kta_effect : Rabs (kta * (doc_t_a c lay mem - 25)) <= 1;
  wc_kv : Rabs kv <= 8;
  wc_kv_effect : Rabs (kv * (doc_v_dd c lay s mem - 33 / 10)) <= 1 / 2
}.
(** Tolerance of a compensated value with offset [off]. *)
Definition tolerance (off : Z) (kta : R) : R :=
  (1 / 32 + Rabs (IZR off) * (14 / 100 * Rabs kta / Rabs (k_t_ptat _ c) + 1 / 80000)) / Rabs (set_emissivity s).
(** Tolerance of the value of a pixel. *)
Definition pixel_tolerance (i : nat) : R :=
  tolerance (nth i (offset_reference_pixels _ c sp) 0%Z) (nth i (k_ta_pixels _ c sp) 0) +
  match temperature_gradient_coefficient _ c with
  | None => 0
  | Some tgc => Rabs tgc * tolerance (offset_reference_cp _ c sp) (k_ta_cp _ c sp)
  end.
End Pixel.
