(** * Base: outcomes, machine integers, byte buffers (models error.rs, util.rs)

    Rust's fixed-width integers are modelled by [Z].  A value of type [u8] is a
    [Z] in [0,256), [u16] in [0,65536), [i8] in [-128,128), [i16] in
    [-32768,32768).  Every operation that can leave its range is written with an
    explicit wrap or range check. *)
From Coq Require Export ZArith Bool String List Lia.
Export ListNotations.
Open Scope Z_scope.

(** error.rs 12-24 [LibraryError]. *)
Inductive lib_error :=
| InvalidData (msg : string)
| OtherError (msg : string)
| Checksum (w : Z).

(** Outcome of a Rust computation: [Result] plus an explicit panic, plus
    [Diverge] for a loop that has used up the fuel it was given by the model
    (no Rust counterpart other than "still running"). *)
Inductive res (E A : Type) :=
| Ok (a : A)
| Err (e : E)
| Panic
| Diverge.
Arguments Ok {E A} a.
Arguments Err {E A} e.
Arguments Panic {E A}.
Arguments Diverge {E A}.

(** The [?] operator. *)
Definition bind {E A B} (m : res E A) (k : A -> res E B) : res E B :=
  match m with
  | Ok a => k a
  | Err e => Err e
  | Panic => Panic
  | Diverge => Diverge
  end.
Notation "'do' x <- m ; k" := (bind m (fun x => k))
  (at level 200, x pattern, m at level 100, k at level 200, right associativity).

(** [Result::map_err] *)
Definition map_err {E E' A} (f : E -> E') (m : res E A) : res E' A :=
  match m with
  | Ok a => Ok a
  | Err e => Err (f e)
  | Panic => Panic
  | Diverge => Diverge
  end.

(** Build profile: [Debug] has arithmetic overflow checks (overflow panics),
    [Release] does not (overflow wraps). *)
Inductive profile := Debug | Release.

(** Two's complement views. *)
Definition wrap16 (z : Z) : Z := (z + 32768) mod 65536 - 32768.
(** Language: range of i16. *)
Definition in_i16 (z : Z) : bool := (-32768 <=? z) && (z <=? 32767).
(** Language: `as i8` / `i8::from_ne_bytes` on a u8 (e.g. util.rs 116-120). *)
Definition i8_of_u8 (b : Z) : Z := if b <? 128 then b else b - 256.
(** Language: `as i16` on a u16 (e.g. util.rs 128-132). *)
Definition i16_of_u16 (w : Z) : Z := if w <? 32768 then w else w - 65536.

(** An i16 [+], [-] or [*] whose mathematical result is [z]. *)
Definition chk_i16 {E} (p : profile) (z : Z) : res E Z :=
  if in_i16 z then Ok z
  else match p with Debug => Panic | Release => Ok (wrap16 z) end.

(** i16 [x << k] for [0 <= k < 16]: bits shifted out are dropped, no check. *)
Definition shl16 (x k : Z) : Z := wrap16 (x * 2 ^ k).
(** Arithmetic shift right of a signed value. *)
Definition sar (x k : Z) : Z := x / 2 ^ k.
(** i8 [x << k]. *)
Definition shl8 (x k : Z) : Z := (x * 2 ^ k + 128) mod 256 - 128.

(** [u16::from_be_bytes], [u16::to_be_bytes]. *)
Definition be16 (hi lo : Z) : Z := hi * 256 + lo.
(** Language: `u16::to_be_bytes` (register.rs 203, 421). *)
Definition to_be_bytes (w : Z) : list Z := [w / 256; w mod 256].

(** Language: values of type u8. *)
Definition byte (b : Z) : Prop := 0 <= b < 256.
(** Language: values of type u16. *)
Definition word (w : Z) : Prop := 0 <= w < 65536.

(** util.rs 97-133: the [Buffer] trait on [&[u8]].  A reader takes the
    remaining slice and returns the value and the rest; [split_at] and slicing
    panic when the slice is too short. *)
Definition parser (A : Type) := list Z -> res lib_error (A * list Z).
(** Model plumbing: return in a reader (util.rs 97-133). *)
Definition pret {A} (a : A) : parser A := fun b => Ok (a, b).
(** Model plumbing: sequencing of readers (util.rs 97-133). *)
Definition pbind {A B} (m : parser A) (k : A -> parser B) : parser B :=
  fun b => match m b with
           | Ok (a, b') => k a b'
           | Err e => Err e
           | Panic => Panic
           | Diverge => Diverge
           end.
(** Model plumbing: a `?` on a result inside a reader (util.rs 97-133). *)
Definition plift {A} (m : res lib_error A) : parser A :=
  fun b => match m with
           | Ok a => Ok (a, b)
           | Err e => Err e
           | Panic => Panic
           | Diverge => Diverge
           end.
Notation "'get' x <- m ; k" := (pbind m (fun x => k))
  (at level 200, x pattern, m at level 100, k at level 200, right associativity).

(** util.rs 106-108 *)
Definition advance (cnt : nat) : parser unit :=
  fun b => if Nat.ltb (length b) cnt then Panic else Ok (tt, skipn cnt b).
(** util.rs 110-114 *)
Definition get_u8 : parser Z :=
  fun b => match b with x :: r => Ok (x, r) | [] => Panic end.
(** util.rs 116-120 *)
Definition get_i8 : parser Z :=
  fun b => match b with x :: r => Ok (i8_of_u8 x, r) | [] => Panic end.
(** util.rs 122-126 *)
Definition get_u16 : parser Z :=
  fun b => match b with x :: y :: r => Ok (be16 x y, r) | _ => Panic end.
(** util.rs 128-132 *)
Definition get_i16 : parser Z :=
  fun b => match b with x :: y :: r => Ok (i16_of_u16 (be16 x y), r) | _ => Panic end.

(** util.rs 5: [WORD_SIZE] *)
Definition WORD_SIZE : nat := 2.

(** util.rs 141-146: [is_bit_set] on an unsigned value, [index] below the
    width of the type. *)
Definition is_bit_set (value index : Z) : bool :=
  0 <? Z.land value (Z.shiftl 1 index).

(** util.rs 149-156: [i16_from_bits].  All callers pass a width in 5..11; for
    widths outside 1..16 the real function panics (overflow checks on) or masks the
    shift amount (off) and the model simply panics. *)
Definition i16_from_bits (bytes : list Z) (num_bits : Z) : res lib_error Z :=
  do num <- (match bytes with
             | [b] => Ok (i8_of_u8 b)
             | hi :: lo :: _ => Ok (i16_of_u16 (be16 hi lo))
             | [] => Panic
             end);
  if (1 <=? num_bits) && (num_bits <=? 16) then
    let shift_amount := 16 - num_bits in
    Ok (sar (shl16 num shift_amount) shift_amount)
  else Panic.

(** Number of [chunks_exact(2)] items and their list. *)
Fixpoint chunks2 (l : list Z) : list (Z * Z) :=
  match l with
  | a :: b :: r => (a, b) :: chunks2 r
  | _ => []
  end.
