(** * SpecFinite: binary32 results that are numbers, and calibration data of ordinary size. *)
From Verif Require Import Base FloatOps Register Camera B32.
From Coq Require Import Reals.
From Flocq Require Import Core BinarySingleNaN.
Open Scope Z_scope.

(** [x] is a number (not an infinity, not a NaN) of magnitude at most 2^e. *)
Definition within (x : f32) (e : Z) : Prop := is_finite x = true /\ (Rabs (B2R x) <= bpow radix2 e)%R.

(** Bounds that hold for whatever a camera's EEPROM contains (except that [k_v_dd], the change of
    the supply voltage reading per volt, is not zero). *)
Record ordinary {l : libm} (c : calib (B32 l)) : Prop := {
  ord_k_v_dd : exists m, k_v_dd _ c = 32 * m /\ m <> 0 /\ Z.abs m <= 1024;
  ord_v_dd_0 : within (v_dd_0 _ c) 2;
  ord_gain : within (cal_gain _ c) 16;
  ord_offset : forall sp i, Z.abs (nth i (offset_reference_pixels _ c sp) 0) <= 32768;
  ord_k_ta : forall sp i, within (nth i (k_ta_pixels _ c sp) (b_ofZ 0)) 37;
  ord_k_v : forall sp i, within (nth i (k_v_pixels _ c sp) (b_ofZ 0)) 37;
  ord_pattern : forall ap i x,
    nth i (access_pattern_compensation_pixels _ c ap) None = Some x -> within x 6;
  ord_tgc : forall x, temperature_gradient_coefficient _ c = Some x -> within x 2;
  ord_offset_cp : forall sp, Z.abs (offset_reference_cp _ c sp) <= 32768;
  ord_k_ta_cp : forall sp, within (k_ta_cp _ c sp) 7;
  ord_k_v_cp : forall sp, within (k_v_cp _ c sp) 7;
  ord_pattern_cp : forall sp ap x, access_pattern_compensation_cp _ c sp ap = Some x -> within x 6
}.
