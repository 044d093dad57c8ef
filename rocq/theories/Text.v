(** * Text: models what examples/terminal-temperatures.rs writes to standard output, as
    characters: Rust's formatting of an [f32] with `{:4.2}` and the printing loop. *)
From Verif Require Import Base FloatOps B32 Examples.
From Coq Require Import Ascii.
From Flocq Require Import Core.Zaux BinarySingleNaN.
Open Scope Z_scope.

(** Language: the decimal digits of a natural number, most significant first, without
    leading zeros; [fuel] is the number of digits after the first at most *)
Fixpoint digit_list (fuel : nat) (n : Z) : list Z :=
  if n <? 10 then [n]
  else match fuel with
       | O => [n mod 10]
       | S fuel' => digit_list fuel' (n / 10) ++ [n mod 10]
       end.
(** Language: a decimal digit *)
Definition digit_char (d : Z) : ascii := ascii_of_N (Z.to_N (48 + d)).
(** Language: an unsigned number in decimal *)
Definition decimal (n : Z) : string := string_of_list_ascii (map digit_char (digit_list (Z.to_nat (Z.log2 n)) n)).
(** Language: division with rounding to nearest, ties to even (`core::num::flt2dec`
    rounds like this where it cuts the exact decimal expansion) *)
Definition round_even (num den : Z) : Z :=
  let q := num / den in
  let r := num mod den in
  if 2 * r <? den then q
  else if den <? 2 * r then q + 1
  else if Z.even q then q else q + 1.
(** Language: the number [m * 2 ^ e] in hundredths *)
Definition hundredths (m e : Z) : Z := if 0 <=? e then 100 * m * 2 ^ e else round_even (100 * m) (2 ^ (- e)).
(** Language: the sign; negative zero and numbers rounded to zero keep it *)
Definition minus (s : bool) : string := if s then "-" else "".
(** Language: `{:.2}` of an f32.  NaNs have no sign. *)
Definition fixed2 (x : f32) : string :=
  match x with
  | B754_nan => "NaN"
  | B754_infinity s => minus s ++ "inf"
  | B754_zero s => minus s ++ "0.00"
  | B754_finite s m e _ =>
      let h := hundredths (Zpos m) e in
      minus s ++ decimal (h / 100) ++ "." ++
        String (digit_char (h / 10 mod 10)) (String (digit_char (h mod 10)) EmptyString)
  end%string.
(** Language: a minimum width, filled with spaces from the left *)
Fixpoint spaces (n : nat) : string := match n with O => EmptyString | S n => String " " (spaces n) end.
(** Language: `{:4.2}` *)
Definition fixed4_2 (x : f32) : string := (spaces (4 - String.length (fixed2 x)) ++ fixed2 x)%string.
(** Language: `\n` *)
Definition newline : ascii := ascii_of_nat 10.

Section Text.
Context (l : libm).
(** terminal-temperatures.rs 58 (`println!()`), 60 (`print!("{:4.2}  ", temperature)`) *)
Definition text_of_item (x : printed (FO := B32 l)) : string :=
  match x with
  | NewLine => String newline EmptyString
  | Cell t => fixed4_2 t ++ "  "
  end%string.
(** terminal-temperatures.rs 50-62: everything the program writes *)
Definition text_of (out : list (printed (FO := B32 l))) : string :=
  fold_right (fun x s => (text_of_item x ++ s)%string) EmptyString out.
End Text.
