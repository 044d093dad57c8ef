(** * Program: models the `main` functions of mlx9064x/examples/terminal-temperatures.rs
    and mlx9064x/examples/true-frame-rate.rs, from the command line on.  What follows
    the parsing of the command line is in Examples.v.  Opening the bus is an arbitrary
    partial function from paths to buses, `str::parse::<f32>` an arbitrary partial
    function from strings to single precision numbers. *)
From Verif Require Import Base FloatOps Register Bus Camera Cam640 Cam641 Calc Ee640 Ee641 B32 Examples Driver.
Open Scope Z_scope.

(** terminal-temperatures.rs 64-69, true-frame-rate.rs 154-159 [AnyError]: the variant
    `String`, and the kinds of error that are wrapped *)
Inductive program_error (ER EW : Type) :=
| Message (text : string)          (* AnyError::String *)
| NotANumber                       (* ParseIntError, ParseFloatError *)
| NoBus                            (* the error of I2cdev::new *)
| Failed (e : any_error ER EW).    (* the crate's own errors *)
Arguments Message {ER EW} text.
Arguments NotANumber {ER EW}.
Arguments NoBus {ER EW}.
Arguments Failed {ER EW} e.

(** Language: indexing the vector of arguments *)
Definition arg {E} (args : list string) (i : nat) : res E string :=
  match nth_error args i with Some s => Ok s | None => Panic end.
(** Language: `?` on a parsed number *)
Definition number {ER EW} (r : res unit Z) : res (program_error ER EW) Z :=
  match r with Ok v => Ok v | Err _ => Err NotANumber | Panic => Panic | Diverge => Diverge end.

Section Main.
Context (l : libm) (p : profile) {B ER EW : Type} (bs : bus B ER EW).
Notation FO := (B32 l).
Notation W := (world B ER EW).
(** Language: `I2cdev::new` *)
Context (open : string -> option W).
(** Language: `str::parse::<f32>` *)
Context (parse_f32 : string -> option f32).
(** Language: `Instant::now()`, as in Examples.v *)
Context (now : W -> Z).

(** Language: `?` on the program's own results; the second component is the bus if it
    was opened *)
Definition lift_terminal {A} (x : res (error ER EW) A * W) : res (program_error ER EW) A * option W :=
  let '(r, w) := x in
  (match r with Ok a => Ok a | Err e => Err (Failed (AnyDriver e)) | Panic => Panic | Diverge => Diverge end, Some w).
(** Language: the same for the other program *)
Definition lift_rate {A} (x : res (any_error ER EW) A * W) : res (program_error ER EW) A * option W :=
  let '(r, w) := x in
  (match r with Ok a => Ok a | Err e => Err (Failed e) | Panic => Panic | Diverge => Diverge end, Some w).
(** Language: stopping with the first error *)
Definition andthen {A C} (w : option W) (r : res (program_error ER EW) A) (k : A -> res (program_error ER EW) C * option W)
    : res (program_error ER EW) C * option W :=
  match r with Ok a => k a | Err e => (Err e, w) | Panic => (Panic, w) | Diverge => (Diverge, w) end.

(** terminal-temperatures.rs 14-16, 45-47, true-frame-rate.rs 14-18, 46-48 *)
Definition usage_terminal : string := "Three arguments required: [640|641] <I2C bus> <camera address>".
(** true-frame-rate.rs 16 *)
Definition usage_rate : string :=
  "Four arguments required: [640|641] <I2C bus> <camera address> <frame rate> [num_frames]".
(** terminal-temperatures.rs 46, true-frame-rate.rs 47 *)
Definition wrong_model : string := "The second argument must be either 640 or 641".

(** terminal-temperatures.rs 11-53 [main] *)
Definition terminal_main (args : list string) : res (program_error ER EW) (list (printed (FO := FO))) * option W :=
  if negb (Nat.eqb (length args) 4) then (Err (Message usage_terminal), None)
  else
    andthen None (arg args 3) (fun a =>
    andthen None (number (parse_address a)) (fun address =>
    andthen None (arg args 2) (fun path =>
    match open path with
    | None => (Err NoBus, None)
    | Some w =>
        andthen (Some w) (arg args 1) (fun model =>
        if String.eqb model "640" then
          lift_terminal (terminal_temperatures p bs (new bs (calib640_from_i2c FO p bs) 24 1536 w address))
        else if String.eqb model "641" then
          lift_terminal (terminal_temperatures p bs (new bs (calib641_from_i2c FO p bs) 12 384 w address))
        else (Err (Message wrong_model), Some w))
    end))).

(** true-frame-rate.rs 12-111 [main]; the boolean says whether "Starting measurements."
    was printed *)
Definition rate_main (fuel : nat) (args : list string) : res (program_error ER EW) timing * option W * bool :=
  if Nat.ltb (length args) 5 || Nat.ltb 6 (length args) then (Err (Message usage_rate), None, false)
  else
    match andthen None (arg args 3) (fun a =>
          andthen None (number (parse_address a)) (fun address =>
          andthen None (arg args 2) (fun path =>
          match open path with
          | None => (Err NoBus, None)
          | Some w =>
              andthen (Some w) (arg args 4) (fun rate =>
              match parse_f32 rate with
              | None => (Err NotANumber, Some w)
              | Some rate =>
                  andthen (Some w)
                    (if Nat.ltb (length args) 6 then Ok None
                     else do s <- arg args 5; do n <- number (parse_usize s); Ok (Some n))
                    (fun count => (Ok (address, w, rate, count), Some w))
              end)
          end)))
    with
    | (Ok (address, w, rate, count), _) =>
        (andthen (Some w) (arg args 1) (fun model =>
         if String.eqb model "640" then
           lift_rate (true_frame_rate l bs now (new bs (calib640_from_i2c FO p bs) 24 1536 w address) rate count fuel)
         else if String.eqb model "641" then
           lift_rate (true_frame_rate l bs now (new bs (calib641_from_i2c FO p bs) 12 384 w address) rate count fuel)
         else (Err (Message wrong_model), Some w)), true)
    | (Err e, b) => (Err e, b, false)
    | (Panic, b) => (Panic, b, false)
    | (Diverge, b) => (Diverge, b, false)
    end.
End Main.
