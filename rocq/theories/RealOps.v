(** * RealOps: exact real arithmetic as an instance of [FloatOps].

    The model over this instance is the crate's arithmetic without rounding; it
    is used to state what the formulas of calculations.rs mean physically.
    [Rpower x y] is [exp (y * ln x)], the usual power for positive [x] only:
    theorems using it have hypotheses that keep the base positive. *)
From Coq Require Import Reals.
From Verif Require Import Base FloatOps.

(** Language: exact counterpart of the f32 operations of FloatOps.v (used by calculations.rs 14-767). *)
Definition RealOps : FloatOps := {|
  F := R;
  fadd := Rplus;
  fsub := Rminus;
  fmul := Rmult;
  fdiv := Rdiv;
  fneg := Ropp;
  feqb := fun x y => if Req_EM_T x y then true else false;
  fofZ := IZR;
  fexp2 := fun x => Rpower 2 x;
  fpowi := powerRZ;
  fpowf := Rpower;
  f_half := (1 / 2)%R;
  f_quarter := (1 / 4)%R;
  f_3_3 := (33 / 10)%R;
  f_273_15 := (27315 / 100)%R
|}.
