(** * SpecText: reading a printed table of numbers. *)
From Verif Require Import Base B32 P_Terminal.
From Coq Require Import Ascii Reals.
From Flocq Require Import Core BinarySingleNaN.
Open Scope Z_scope.

(** The lines of a text: what is between the line feeds. *)
Definition line_feed : ascii := ascii_of_nat 10.
Fixpoint lines (s : string) : list string :=
  match s with
  | EmptyString => [EmptyString]
  | String c rest =>
      if Ascii.eqb c line_feed then EmptyString :: lines rest
      else match lines rest with
           | first :: others => String c first :: others
           | [] => [String c EmptyString]
           end
  end.
(** The words of a line: what is between the spaces. *)
Fixpoint words (s : string) : list string :=
  match s with
  | EmptyString => []
  | String c rest =>
      if Ascii.eqb c " " then words rest
      else match rest with
           | String c' _ =>
               if Ascii.eqb c' " " then String c EmptyString :: words rest
               else match words rest with
                    | first :: others => String c first :: others
                    | [] => [String c EmptyString]
                    end
           | EmptyString => [String c EmptyString]
           end
  end.

(** [s] is a number with two decimals: an optional minus sign, digits without needless leading
    zeros, a point and two digits; [h] is its absolute value in hundredths. *)
Definition no_leading_zero (s : string) : Prop := forall rest, s = String "0" rest -> rest = EmptyString.
Definition two_decimals (s : string) (negative : bool) (h : Z) : Prop :=
  exists whole frac w v, s = ((if negative then "-" else "") ++ whole ++ "." ++ frac)%string /\
    digits 10 whole w /\ no_leading_zero whole /\ digits 10 frac v /\ String.length frac = 2%nat /\ h = 100 * w + v.
(** Its value. *)
Definition decimal_value (negative : bool) (h : Z) : R := ((if negative then -1 else 1) * IZR h / 100)%R.

(** [s] shows the number [x]: to the nearest hundredth, the even one if two are equally near. *)
Definition shows_number (s : string) (x : f32) : Prop :=
  match x with
  | B754_nan => s = "NaN"%string
  | B754_infinity negative => s = ((if negative then "-" else "") ++ "inf")%string
  | _ => exists h, two_decimals s (Bsign x) h /\ (Rabs (B2R x - decimal_value (Bsign x) h) <= 1 / 200)%R /\
      (Rabs (B2R x - decimal_value (Bsign x) h) = (1 / 200)%R -> Z.Even h)
  end.

(** [text] is the table of the picture [temps], [height] rows of [width] pixels: an empty line, one line
    per row of the picture and an empty line; the words of each line are the numbers of the row, from
    left to right, each filled up to four characters with spaces on its left and followed by two spaces. *)
Definition four_wide (s : string) : string := (substring 0 (4 - String.length s) "    " ++ s)%string.
Definition shows_table (text : string) (width height : nat) (temps : list f32) : Prop :=
  exists rows, lines text = EmptyString :: rows ++ [EmptyString] /\ length rows = height /\
    forall r row, nth_error rows r = Some row ->
      length (words row) = width /\
      row = String.concat "" (map (fun s => four_wide s ++ "  ")%string (words row)) /\
      forall c s, nth_error (words row) c = Some s ->
        exists x, nth_error temps (r * width + c) = Some x /\ shows_number s x.
