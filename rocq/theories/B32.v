(** * B32: IEEE-754 binary32 (Rust's [f32]) as an instance of [FloatOps], from
    Flocq.  Rounding is to nearest, ties to even.  There is a single NaN:
    payloads and signs of NaNs are not modelled.  [powi], [powf] and [exp2] at a
    non-integer come from [std] or [libm] and stay arbitrary functions. *)
From Verif Require Import Base FloatOps.
From Flocq Require Import Core.Zaux BinarySingleNaN.

(** Language: the type f32 (IEEE 754 binary32). *)
Definition f32 := binary_float 24 128.

(** Side condition of binary32. *)
Definition prec24 : FLX.Prec_gt_0 24 := eq_refl.
(** Side condition of binary32. *)
Definition emax128 : Prec_lt_emax 24 128 := eq_refl.
#[global] Existing Instance prec24.
#[global] Existing Instance emax128.

(** Functions of the mathematical library. *)
Record libm := {
  lm_exp2 : f32 -> f32;
  lm_powi : f32 -> Z -> f32;
  lm_powf : f32 -> f32 -> f32
}.

(** Language: `f32::from` / `as f32` on integers, rounding to nearest even *)
Definition b_ofZ (z : Z) : f32 := binary_normalize 24 128 _ _ mode_NE z 0 false.
(** Language: f32 + *)
Definition b_add (x y : f32) : f32 := Bplus mode_NE x y.
(** Language: f32 - *)
Definition b_sub (x y : f32) : f32 := Bminus mode_NE x y.
(** Language: f32 * *)
Definition b_mul (x y : f32) : f32 := Bmult mode_NE x y.
(** Language: f32 / *)
Definition b_div (x y : f32) : f32 := Bdiv mode_NE x y.
(** Language: f32 unary - *)
Definition b_neg (x : f32) : f32 := Bopp x.
(** Language: f32 == *)
Definition b_eqb (x y : f32) : bool := Beqb x y.

(** The value as an integer, if it is one. *)
Definition b_toZ (x : f32) : option Z :=
  match x with
  | B754_zero _ => Some 0
  | B754_finite s m e _ =>
      let v := (if s then -1 else 1) * Zpos m in
      if 0 <=? e then Some (v * 2 ^ e)
      else if v mod 2 ^ (- e) =? 0 then Some (v / 2 ^ (- e))
      else None
  | _ => None
  end.

(** [exp2]: correct for integers and infinities (std and libm both guarantee
    exact powers of two), otherwise the library function. *)
Definition b_exp2 (l : libm) (x : f32) : f32 :=
  match x with
  | B754_nan => B754_nan
  | B754_infinity false => B754_infinity false
  | B754_infinity true => B754_zero false
  | _ =>
      match b_toZ x with
      | Some n =>
          if 128 <=? n then B754_infinity false
          else if n <? -200 then B754_zero false
          else Bldexp mode_NE (b_ofZ 1) n
      | None => lm_exp2 l x
      end
  end.

(** Literals: a decimal literal is the correctly rounded quotient. *)
Definition B32 (l : libm) : FloatOps := {|
  F := f32;
  fadd := b_add;
  fsub := b_sub;
  fmul := b_mul;
  fdiv := b_div;
  fneg := b_neg;
  feqb := b_eqb;
  fofZ := b_ofZ;
  fexp2 := b_exp2 l;
  fpowi := lm_powi l;
  fpowf := lm_powf l;
  f_half := b_div (b_ofZ 1) (b_ofZ 2);
  f_quarter := b_div (b_ofZ 1) (b_ofZ 4);
  f_3_3 := b_div (b_ofZ 33) (b_ofZ 10);
  f_273_15 := b_div (b_ofZ 27315) (b_ofZ 100)
|}.

(** Decoding of a bit pattern given as (sign, mantissa, exponent), for examples. *)
Definition b_to_pair (x : f32) : option (bool * Z * Z) :=
  match x with
  | B754_zero s => Some (s, 0, 0)
  | B754_finite s m e _ => Some (s, Zpos m, e)
  | _ => None
  end.
