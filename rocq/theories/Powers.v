(** * Powers: the two routines behind [f32::powi] when the crate is built with [std] and with [libm].

    The crate takes third and fourth powers with [powi]
    (mlx9064x/src/calculations.rs 548, 559, 623). With the feature [std] this is the compiler's intrinsic, a call of
    [__powisf2] of the compiler's runtime library; with the feature [libm] (Cargo.toml 38)
    it is [num_traits::Float::powi] (imported at calculations.rs 139).  Neither source is in /repo:
    the two published algorithms are modelled here, over any arithmetic.  Simplification: a
    compiler may also evaluate or inline a constant power; LLVM multiplies in the same
    order for 3 and 4 at the optimisation levels it does so without fast-math flags. *)
From Verif Require Import Base FloatOps B32.

Section Powi.
Context {FO : FloatOps}.

(** The loop of `__powisf2` (called for calculations.rs 548, 559, 623 with `std`):
    [if n & 1 { r *= a }; n >>= 1; if n == 0 { break }; a *= a], for n > 0. *)
Fixpoint squaring (r a : F FO) (n : positive) : F FO :=
  match n with
  | xH => fmul r a
  | xO n' => squaring r (fmul a a) n'
  | xI n' => squaring (fmul r a) (fmul a a) n'
  end.
(** `__powisf2` (called for calculations.rs 548, 559, 623 with `std`): for a
    negative exponent the reciprocal of the result. *)
Definition runtime_powi (x : F FO) (n : Z) : F FO :=
  match n with
  | Z0 => fofZ 1
  | Zpos k => squaring (fofZ 1) x k
  | Zneg k => fdiv (fofZ 1) (squaring (fofZ 1) x k)
  end.

(** The second loop of `num_traits::pow`: [while n > 1 { n >>= 1; b = b * b; if n & 1 { acc = acc * b } }];
    [n] is the exponent after the shift. *)
Fixpoint accumulate (acc b : F FO) (n : positive) : F FO :=
  let b2 := fmul b b in
  match n with
  | xH => fmul acc b2
  | xO n' => accumulate acc b2 n'
  | xI n' => accumulate (fmul acc b2) b2 n'
  end.
(** `num_traits::pow` for a positive exponent: [while n & 1 == 0 { b = b * b; n >>= 1 }], then
    the result if the exponent is 1, otherwise the second loop. *)
Fixpoint strip (b : F FO) (n : positive) : F FO :=
  match n with
  | xH => b
  | xO n' => strip (fmul b b) n'
  | xI n' => accumulate b b n'
  end.
(** `num_traits::Float::powi` (called for calculations.rs 548, 559, 623 with `libm`):
    for a negative exponent the power of the reciprocal. *)
Definition numtraits_powi (x : F FO) (n : Z) : F FO :=
  match n with
  | Z0 => fofZ 1
  | Zpos k => strip x k
  | Zneg k => strip (fdiv (fofZ 1) x) k
  end.
End Powi.

(** A library whose [powi] is one of the two routines. *)
Definition usual_powi (l : libm) : Prop :=
  (forall x n, lm_powi l x n = runtime_powi (FO := B32 l) x n) \/
  (forall x n, lm_powi l x n = numtraits_powi (FO := B32 l) x n).
