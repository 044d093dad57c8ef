(** * FloatOps: the operations on [f32] used by the crate, abstractly.

    Everything over floats is parametric in this record: no algebraic law is
    assumed of it, so a theorem about all [FloatOps] holds for whatever the
    hardware, the soft-float library, [std] or [libm] compute. *)
From Verif Require Import Base.

(** Language and num_traits: the f32 operations used by calculations.rs 14-767 and both eeprom.rs; B32.v gives the binary32 instance. *)
Record FloatOps := {
  F : Type;
  fadd : F -> F -> F;
  fsub : F -> F -> F;
  fmul : F -> F -> F;
  fdiv : F -> F -> F;
  fneg : F -> F;
  feqb : F -> F -> bool;      (* the == operator *)
  fofZ : Z -> F;              (* f32::from of an i8/u8/i16/u16, and integer-valued literals *)
  fexp2 : F -> F;             (* f32::exp2 *)
  fpowi : F -> Z -> F;        (* f32::powi *)
  fpowf : F -> F -> F;        (* f32::powf *)
  f_half : F;                 (* literal 0.5 *)
  f_quarter : F;              (* literal 0.25 *)
  f_3_3 : F;                  (* literal 3.3 *)
  f_273_15 : F                (* literal 273.15 *)
}.
Arguments fadd {_} _ _.
Arguments fsub {_} _ _.
Arguments fmul {_} _ _.
Arguments fdiv {_} _ _.
Arguments fneg {_} _.
Arguments feqb {_} _ _.
Arguments fofZ {_} _.
Arguments fexp2 {_} _.
Arguments fpowi {_} _ _.
Arguments fpowf {_} _ _.
Arguments f_half {_}.
Arguments f_quarter {_}.
Arguments f_3_3 {_}.
Arguments f_273_15 {_}.

(** [f32::recip] is defined in core as [1.0 / self]. *)
Definition frecip {FO : FloatOps} (x : F FO) : F FO := fdiv (fofZ 1) x.

(** [Iterator::zip] on lists: stops at the shorter one (this is [combine]). *)
Definition zip {A B} (l : list A) (r : list B) : list (A * B) := combine l r.
