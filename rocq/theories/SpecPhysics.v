(** * SpecPhysics: what a pixel's temperature means physically (exact arithmetic). *)
From Coq Require Import Reals.
From Verif Require Import Base.
Local Open Scope R_scope.

(** Absolute temperature of a temperature in degrees Celsius. *)
Definition kelvin (t : R) : R := t + 273.15.

(** Stefan-Boltzmann balance at the sensor: what a grey body at [t_o] with emissivity [eps] emits,
    plus what it reflects of surroundings at [t_r], minus what the sensor at [t_a] emits. *)
Definition net_radiation (eps t_o t_r t_a : R) : R :=
  eps * kelvin t_o ^ 4 + (1 - eps) * kelvin t_r ^ 4 - kelvin t_a ^ 4.

(** [t] is the temperature above absolute zero at which a sensor of sensitivity [alpha] shows the
    signal [eps * v_ir] ([v_ir] is the signal already divided by the emissivity). *)
Definition explains_signal (alpha eps v_ir t_r t_a t : R) : Prop :=
  0 < kelvin t /\ alpha * net_radiation eps t t_r t_a = eps * v_ir.

(** Sensitivity for an object at [t], slope [k] per degree (0 degrees is the reference). *)
Definition sensitivity_at (alpha k t : R) : R := alpha * (1 + k * t).
