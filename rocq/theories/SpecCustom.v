(** * SpecCustom: calibration data supplied by the user. *)
From Verif Require Import Base FloatOps Register Bus Camera Calc Driver SpecRegister SpecCamera SpecDriver SpecImage SpecCall.

Section Custom.
Context {FO : FloatOps}.

(** The calibration data have all values needed for pixel [i] (alpha only for temperatures). *)
Definition supplied (c : calib FO) (sp : subpage) (ap : access_pattern) (raw : bool) (i : nat) : bool :=
  Nat.ltb i (length (offset_reference_pixels _ c sp)) && Nat.ltb i (length (k_v_pixels _ c sp)) &&
  Nat.ltb i (length (k_ta_pixels _ c sp)) && Nat.ltb i (length (access_pattern_compensation_pixels _ c ap)) &&
  (raw || Nat.ltb i (length (alpha_pixels _ c sp))).

(** As [image_stored], but pixels whose calibration values are missing keep their old value. *)
Definition image_stored_as_supplied (c : calib FO) (lay : layout) (s : settings (FO := FO)) (sp : subpage)
    (mem : Z -> Z) (raw : bool) (dest dest' : list (F FO)) : Prop :=
  length dest' = length dest /\
  forall i v, nth_error dest i = Some v ->
    nth_error dest' i =
      Some (if measured lay sp (set_pattern s) i && supplied c sp (set_pattern s) raw i
            then doc_pixel c lay s sp mem raw i else v).

(** A driver with any calibration data, and a pixel buffer of any size, for one of the two cameras. *)
Definition any_calibration {B ER EW} (d : driver (FO := FO) (B := B) (ER := ER) (EW := EW)) (lay : layout) : Prop :=
  documented (cam _ (d_calibration d)) lay /\ (lay_height lay <= d_height d)%nat.

(** The slope for the basic temperature range is missing. *)
Definition no_slope (c : calib FO) (lay : layout) : Prop := (length (k_s_to _ c) <= lay_basic_range lay)%nat.
End Custom.
