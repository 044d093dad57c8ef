(** * SpecRange: sensitivity corrections of the temperature ranges (MLX90640
    datasheet 11.2.2.9.1.3, MLX90641 datasheet 11.2.2.9.2): 1 in the basic
    range; each range above multiplies the previous one by
    1 + KsTo * (length of the previous range), each range below divides the next
    one by 1 + KsTo * (its own length). *)
From Verif Require Import Base FloatOps.

Section Ranges.
Context {FO : FloatOps} (ct : list Z) (kst : list (F FO)) (basic : nat).

(** Range [n] goes from corner temperature [n] to corner temperature [n+1]. *)
Definition range_span (n : nat) : Z := nth (n + 1) ct 0 - nth n ct 0.
Definition range_slope (n : nat) : F FO :=
  fadd (fofZ 1) (fmul (nth n kst (fofZ 0)) (fofZ (range_span n))).

Fixpoint correction_above (d : nat) : F FO :=
  match d with
  | O => fofZ 1
  | S d' => fmul (range_slope (basic + d')) (correction_above d')
  end.
Fixpoint correction_below (d : nat) : F FO :=
  match d with
  | O => fofZ 1
  | S d' => fmul (fdiv (fofZ 1) (range_slope (basic - S d'))) (correction_below d')
  end.
Definition range_correction (n : nat) : F FO :=
  if Nat.leb basic n then correction_above (n - basic) else correction_below (basic - n).
End Ranges.
