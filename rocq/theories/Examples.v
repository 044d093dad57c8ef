(** * Examples: models mlx9064x/examples/true-frame-rate.rs and
    mlx9064x/examples/terminal-temperatures.rs, the two programs shipped with the
    crate.  The command line is in Program.v, the characters printed for a temperature
    in Text.v.  Not modelled: the decimal formatting of frequencies (a frequency is modelled
    by the duration it is computed from, see Time.v). *)
From Verif Require Import Base FloatOps Register Bus Camera Calc Driver B32.
From Coq Require Import Ascii.
From Flocq Require Import Core BinarySingleNaN.
Open Scope Z_scope.

(** ** Command line: the camera's address *)
(** Language: `char::to_digit(radix)` for radix 10 and 16 *)
Definition to_digit (radix : Z) (c : ascii) : option Z :=
  let n := Z.of_N (N_of_ascii c) in
  let d := if (48 <=? n) && (n <=? 57) then n - 48
           else if (65 <=? n) && (n <=? 70) then n - 55
           else if (97 <=? n) && (n <=? 102) then n - 87
           else 16 in
  if d <? radix then Some d else None.
(** Language: the digit loop of `from_str_radix` for an unsigned type with maximum
    [limit]; the model does not distinguish kinds of `ParseIntError` *)
Fixpoint parse_digits (limit radix acc : Z) (s : string) : res unit Z :=
  match s with
  | EmptyString => Ok acc
  | String c rest =>
      match to_digit radix c with
      | None => Err tt
      | Some d =>
          if limit <? acc * radix + d then Err tt
          else parse_digits limit radix (acc * radix + d) rest
      end
  end.
(** Language: `from_str_radix`, `str::parse` for unsigned integers: a leading `+` is
    allowed, the empty string and a lone sign are not *)
Definition parse_uint (limit radix : Z) (s : string) : res unit Z :=
  match s with
  | EmptyString => Err tt
  | String "+"%char EmptyString => Err tt
  | String "+"%char rest => parse_digits limit radix 0 rest
  | _ => parse_digits limit radix 0 s
  end.
(** Language: `u8::from_str_radix`, `str::parse::<u8>` *)
Definition parse_u8 (radix : Z) (s : string) : res unit Z := parse_uint 255 radix s.
(** Language: `str::parse::<usize>` (64-bit usize) *)
Definition parse_usize (s : string) : res unit Z := parse_uint (2 ^ 64 - 1) 10 s.
(** terminal-temperatures.rs 17-22, true-frame-rate.rs 20-25 *)
Definition parse_address (arg : string) : res unit Z :=
  if prefix "0x" arg then parse_u8 16 (substring 2 (String.length arg - 2) arg)
  else parse_u8 10 arg.

(** ** true-frame-rate.rs *)
(** Language: `as usize` on an f32: toward zero, saturating, NaN is 0 (64-bit usize) *)
Definition f32_as_usize (x : f32) : Z :=
  match x with
  | B754_zero _ | B754_nan | B754_infinity true => 0
  | B754_infinity false => 2 ^ 64 - 1
  | B754_finite s m e _ =>
      if s then 0
      else Z.min (2 ^ 64 - 1) (if 0 <=? e then Zpos m * 2 ^ e else Zpos m / 2 ^ (- e))
  end.
(** true-frame-rate.rs 29-33 *)
Definition frame_count (rate : f32) (arg : option Z) : Z :=
  match arg with
  | None => f32_as_usize (b_mul rate (b_ofZ 10))
  | Some n => n
  end.

Section FrameRate.
Context {FO : FloatOps} {B ER EW : Type} (bs : bus B ER EW).
Notation W := (world B ER EW).
Notation driver := (driver (FO := FO) (B := B) (ER := ER) (EW := EW)).
Notation m := (m (FO := FO) (B := B) (ER := ER) (EW := EW)).
(** Language: `Instant::now()`, in nanoseconds.  An arbitrary function of everything
    that happened on the bus and of the bus's state, so any clock. *)
Context (now : W -> Z).

(** true-frame-rate.rs 137-144: the inner loop; [fuel] bounds the number of repetitions *)
Fixpoint wait_change (fuel : nat) (last : subpage) (d : driver) : m subpage :=
  bindS (last_measured_subpage bs d) (fun current d =>
    if negb (subpage_eqb current last) then (Ok current, d)
    else match fuel with
         | O => (Diverge, d)
         | S fuel' => wait_change fuel' last d
         end).
(** true-frame-rate.rs 136-145: the outer loop *)
Fixpoint collect (fuel n : nat) (last : subpage) (results : list Z) (d : driver) : m (list Z) :=
  match n with
  | O => (Ok results, d)
  | S n' =>
      bindS (wait_change fuel last d) (fun current d =>
        collect fuel n' current (results ++ [now (d_bus d)]) d)
  end.
(** true-frame-rate.rs 114-147 [find_frequency]; `reserve` (134) is not modelled *)
Definition find_frequency (fuel n : nat) (d : driver) : m (list Z) :=
  bindS (last_measured_subpage bs d) (fun last d => collect fuel n last [] d).
End FrameRate.

(** true-frame-rate.rs 53-62: `windows(2)` and [Instant::duration_since] (saturating, as
    in current versions of std).  A [Duration] is modelled by its nanoseconds, without
    an upper bound. *)
Fixpoint durations (instants : list Z) : list Z :=
  match instants with
  | a :: (b :: _) as rest => Z.max 0 (b - a) :: durations rest
  | _ => []
  end.
(** true-frame-rate.rs 63-64 `sort` *)
Fixpoint insert_sorted (x : Z) (l : list Z) : list Z :=
  match l with
  | [] => [x]
  | y :: rest => if x <=? y then x :: l else y :: insert_sorted x rest
  end.
(** true-frame-rate.rs 63-64 *)
Definition sort_durations (l : list Z) : list Z := fold_right insert_sorted [] l.
(** Language: the sum of an iterator *)
Definition sum_durations (l : list Z) : Z := fold_left Z.add l 0.
(** Language: `Duration / u32`: panics on zero, rounds down to a nanosecond *)
Definition duration_div (x n : Z) : res unit Z := if n =? 0 then Panic else Ok (x / n).
(** true-frame-rate.rs 85-93 `windows(2)` into pairs *)
Fixpoint pairs (l : list Z) : list (Z * Z) :=
  match l with
  | a :: (b :: _) as rest => (a, b) :: pairs rest
  | _ => []
  end.
(** true-frame-rate.rs 94-108: one step of the fold (the i32 counts do not overflow below 2^31 frames) *)
Definition mode_step (acc : Z * Z * Z) (pair : Z * Z) : Z * Z * Z :=
  let '(mode, mode_count, current_count) := acc in
  let '(prev, current) := pair in
  if negb (current =? prev) then (mode, mode_count, 1)
  else
    let current_count := current_count + 1 in
    if mode_count <? current_count then (current, current_count, current_count)
    else (mode, mode_count, current_count).
(** The five durations whose frequencies are printed *)
Record timing := { t_min : Z; t_max : Z; t_mean : Z; t_median : Z; t_mode : Z }.
(** true-frame-rate.rs 53-111, from the instants to what is printed.  `len() as u32`
    truncates. *)
Definition report (instants : list Z) : res unit timing :=
  let ds := durations instants in
  let sorted := sort_durations ds in
  match sorted with
  | [] => Panic   (* `first().unwrap()` *)
  | first :: _ =>
      let max := last sorted first in
      do mean <- duration_div (sum_durations ds) (Z.of_nat (length ds) mod 2 ^ 32);
      let middle := Nat.div (length sorted) 2 in
      do median <-
        (if Nat.eqb (Nat.modulo (length sorted) 2) 0 then
           duration_div (sum_durations (firstn 1 (skipn middle sorted))) 2
         else match nth_error sorted middle with Some x => Ok x | None => Panic end);
      let '(mode, _, _) := fold_left mode_step (pairs sorted) (first, 1, 1) in
      Ok {| t_min := first; t_max := max; t_mean := mean; t_median := median; t_mode := mode |}
  end.

(** true-frame-rate.rs 154-176 [AnyError]: what the program reports instead *)
Inductive any_error (ER EW : Type) :=
| AnyLibrary (e : lib_error)
| AnyDriver (e : error ER EW).
Arguments AnyLibrary {ER EW} e.
Arguments AnyDriver {ER EW} e.

Section Main.
Context (l : libm) {B ER EW : Type} (bs : bus B ER EW).
Notation FO := (B32 l).
Notation W := (world B ER EW).
Notation driver := (driver (FO := FO) (B := B) (ER := ER) (EW := EW)).
Context (now : W -> Z).

(** true-frame-rate.rs 34-111, after the arguments have been parsed: [made] is the
    driver's constructor applied to the bus and the address.  Returns the bus also. *)
Definition true_frame_rate (made : res (error ER EW) driver * W) (rate : f32) (count : option Z) (fuel : nat)
    : res (any_error ER EW) timing * W :=
  let '(r, w) := made in
  match r with
  | Ok d =>
      match frame_rate_try_from_f32 (FO := FO) rate with
      | Ok fr =>
          let '(r, d) := drv_set_frame_rate bs fr d in
          match r with
          | Ok _ =>
              let '(r, d) := find_frequency bs now fuel (Z.to_nat (frame_count rate count)) d in
              (match r with
               | Ok instants =>
                   match report instants with Ok t => Ok t | Err _ | Panic => Panic | Diverge => Diverge end
               | Err e => Err (AnyDriver e)
               | Panic => Panic
               | Diverge => Diverge
               end, d_bus d)
          | Err e => (Err (AnyDriver e), d_bus d)
          | Panic => (Panic, d_bus d)
          | Diverge => (Diverge, d_bus d)
          end
      | Err e => (Err (AnyLibrary e), d_bus d)
      | Panic => (Panic, d_bus d)
      | Diverge => (Diverge, d_bus d)
      end
  | Err e => (Err (AnyDriver e), w)
  | Panic => (Panic, w)
  | Diverge => (Diverge, w)
  end.
End Main.

(** ** terminal-temperatures.rs *)
Section Terminal.
Context {FO : FloatOps} (p : profile) {B ER EW : Type} (bs : bus B ER EW).
Notation F := (F FO).
Notation W := (world B ER EW).
Notation driver := (driver (FO := FO) (B := B) (ER := ER) (EW := EW)).

(** terminal-temperatures.rs 55-62 [print_temperatures] *)
Inductive printed := NewLine | Cell (temperature : F).
(** terminal-temperatures.rs 56-61: the loop, [count] elements already printed *)
Fixpoint print_from (count width : nat) (temperatures : list F) : list printed :=
  match temperatures with
  | [] => []
  | t :: rest =>
      (if Nat.eqb (Nat.modulo count width) 0 then [NewLine] else []) ++ Cell t :: print_from (S count) width rest
  end.
(** terminal-temperatures.rs 55-62 *)
Definition print_temperatures (temperatures : list F) (width : nat) : list printed :=
  print_from 0 width temperatures.

(** terminal-temperatures.rs 27-33 (and 35-42, the same for the other camera): two calls
    half a second apart on one buffer; whether each stored an image is ignored *)
Definition take_pictures (d : driver) : res (error ER EW) (list F * nat) * driver :=
  let temperatures := repeat (fofZ 0) (drv_height d * drv_width d) in
  let '(r, d, temperatures) := generate_image_if_ready p bs temperatures d in
  match r with
  | Ok _ =>
      let '(r, d, temperatures) := generate_image_if_ready p bs temperatures d in
      (do _ <- r; Ok (temperatures, drv_width d), d)
  | Err e => (Err e, d)
  | Panic => (Panic, d)
  | Diverge => (Diverge, d)
  end.
(** terminal-temperatures.rs 25-53: [made] is the driver's constructor applied to the
    bus and the address *)
Definition terminal_temperatures (made : res (error ER EW) driver * W) : res (error ER EW) (list printed) * W :=
  let '(r, w) := made in
  match r with
  | Ok d =>
      let '(r, d) := take_pictures d in
      (do tw <- r; Ok (print_temperatures (fst tw) (snd tw) ++ [NewLine]), d_bus d)
  | Err e => (Err e, w)
  | Panic => (Panic, w)
  | Diverge => (Diverge, w)
  end.
End Terminal.
Arguments NewLine {FO}.
Arguments Cell {FO} temperature.
