(** * SpecOrder: what is assumed of the mathematical library for temperatures in binary32
    to keep the order of the signals (C97). *)
From Verif Require Import Base FloatOps Register Camera SpecCamera SpecImage B32.
From Coq Require Import Reals.
From Flocq Require Import Core BinarySingleNaN.
Open Scope R_scope.

(** The fourth root as the driver takes it: [x.powf(0.25)]. *)
Definition root (l : libm) (x : f32) : f32 := lm_powf l x (@f_quarter (B32 l)).

(** Cubes of non-negative numbers are not negative; only finite non-negative numbers have a
    finite fourth root; fourth roots are not decreasing.  No accuracy is assumed. *)
Record orderly (l : libm) : Prop := {
  or_cube : forall x : f32, 0 <= B2R x -> 0 <= B2R (lm_powi l x 3);
  or_domain : forall x : f32, is_finite (root l x) = true -> is_finite x = true /\ 0 <= B2R x;
  or_monotone : forall x y : f32, is_finite (root l x) = true -> is_finite (root l y) = true ->
    B2R x <= B2R y -> B2R (root l x) <= B2R (root l y)
}.

Section Pixel.
Context (l : libm) (c : calib (B32 l)) (lay : layout) (s : settings (FO := B32 l)) (sp : subpage) (mem : Z -> Z) (i : nat).

(** K_sTo of the basic range: how the sensitivity changes with the object's temperature. *)
Definition slope32 : f32 := nth (lay_basic_range lay) (k_s_to (B32 l) c) (b_ofZ 0).
(** The sensitivity the signal of the pixel is divided by: that of the pixel, corrected for
    the first estimate of the object's temperature (datasheet 11.2.2.9). *)
Definition effective_sensitivity : f32 :=
  let a : f32 := doc_alpha c lay sp mem i in
  let v : f32 := doc_v_ir c lay s sp mem i in
  let background : f32 := doc_t_ar c lay s mem in
  b_add (b_mul a (b_sub (b_ofZ 1) (b_mul slope32 (@f_273_15 (B32 l)))))
        (b_mul slope32 (root l (b_add (b_mul (lm_powi l a 3) v) (b_mul (lm_powi l a 4) background)))).
End Pixel.
