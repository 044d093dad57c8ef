(** * Time: durations of frames.  Model of the conversion of a frame rate to
    [core::time::Duration]. *)
From Verif Require Import Base FloatOps Register B32.
From Coq Require Import Reals.
From Flocq Require Import Core BinarySingleNaN.
Open Scope Z_scope.

(** Standard library: `Duration::from_secs_f32`.  The result is a whole number of nanoseconds
    (here the total, seconds times 10^9 included).  It panics if the number is not finite, is
    negative or does not fit 64 bits of seconds.  Older releases of Rust cut the exact product
    off, newer ones round it to the nearest integer, ties to even: [rnd] stands for either. *)
Definition duration_from_secs_f32 {E} (rnd : R -> Z) (x : f32) : res E Z :=
  if is_finite x then
    if Rle_dec 0 (B2R x) then
      if Rlt_dec (B2R x) (IZR (2 ^ 64)) then Ok (rnd (B2R x * 1000000000)%R) else Panic
    else Panic
  else Panic.

(** register.rs 719-725 [From<FrameRate> for Duration] *)
Definition frame_rate_into_duration {E} (l : libm) (rnd : R -> Z) (f : frame_rate) : res E Z :=
  duration_from_secs_f32 rnd (frame_rate_period (FO := B32 l) f).

(** ** Frequencies (binary64) *)
(** Language: `f64`, IEEE 754 binary64 *)
Definition f64 := binary_float 53 1024.
(** Language: `as f64` of an unsigned integer, to nearest, ties to even *)
Definition f64_of_Z (z : Z) : f64 := binary_normalize 53 1024 eq_refl eq_refl mode_NE z 0 false.
(** Language: `+` and `/` on `f64`, to nearest, ties to even *)
Definition f64_add (x y : f64) : f64 := @Bplus 53 1024 eq_refl eq_refl mode_NE x y.
(** Language: see [f64_add] *)
Definition f64_div (x y : f64) : f64 := @Bdiv 53 1024 eq_refl eq_refl mode_NE x y.
(** Standard library: `Duration::as_secs_f64`, the whole seconds plus the nanoseconds divided by 10^9;
    a duration is its total number of nanoseconds here. *)
Definition as_secs_f64 (ns : Z) : f64 :=
  f64_add (f64_of_Z (ns / 1000000000)) (f64_div (f64_of_Z (ns mod 1000000000)) (f64_of_Z 1000000000)).
(** true-frame-rate.rs 149-151 [as_frequency]; `f64::recip` is `1.0 / self` *)
Definition as_frequency (ns : Z) : f64 := f64_div (f64_of_Z 1) (as_secs_f64 ns).
