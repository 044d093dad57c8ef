(** * SpecNan: what a mathematical library does outside the domain of the fourth root. *)
From Verif Require Import Base FloatOps B32.
From Coq Require Import Reals.
From Flocq Require Import Core BinarySingleNaN.
Open Scope R_scope.

(** [x.powf(0.25)] is NaN for NaN and for finite negative numbers (IEEE 754 [pow]). *)
Record domain_errors (l : libm) : Prop := {
  de_nan : lm_powf l B754_nan (@f_quarter (B32 l)) = B754_nan;
  de_negative : forall x : f32, is_finite x = true -> B2R x < 0 -> lm_powf l x (@f_quarter (B32 l)) = B754_nan
}.

(** A signal [v] of a pixel of sensitivity [a] before a background [bg] that no object can give: even an
    object at absolute zero would give more (by more than rounding can hide).  [v / a + bg]
    is the fourth power of the temperature the signal would need (C65). *)
Definition impossible_signal (a v bg : R) : Prop :=
  / 67108864 <= a <= / 1024 /\ -1099511627776 <= v /\ Rabs bg <= 1099511627776 /\
  v / a <= -1 /\ v / a <= - ((1 + / 1048576) * bg).

(** A library whose fourth root and fourth power of infinities and NaN are never finite. *)
Record keeps_non_numbers (l : libm) : Prop := {
  kn_root : forall x : f32, is_finite (lm_powf l x (@f_quarter (B32 l))) = true -> is_finite x = true;
  kn_power : forall x : f32, is_finite (lm_powi l x 4) = true -> is_finite x = true
}.
