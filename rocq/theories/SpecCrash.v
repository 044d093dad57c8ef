(** * SpecCrash: a program stopped, or a cable pulled, after any number of bus transactions. *)
From Verif Require Import Base FloatOps Register Bus Camera Calc Driver SpecRegister SpecCamera SpecDriver SpecReplay.

(** A bus on which the devices [bs] can be reached for a number of transactions only.  After that nothing
    the program does reaches them any more, and whatever is out there then (nothing at all, or other
    devices [bs0]) gives the answers.  The state: the camera, how many transactions are left, and the rest. *)
Definition cut {B B0 ER EW} (bs : bus B ER EW) (bs0 : bus B0 ER EW) : bus (B * nat * B0) ER EW := {|
  dev_write_read := fun '(b, n, z) a wb buf =>
    match n with
    | S n => let '(b', out, e) := dev_write_read bs b a wb buf in ((b', n, z), out, e)
    | O => let '(z', out, e) := dev_write_read bs0 z a wb buf in ((b, O, z'), out, e)
    end;
  dev_write := fun '(b, n, z) a bytes =>
    match n with
    | S n => let '(b', e) := dev_write bs b a bytes in ((b', n, z), e)
    | O => let '(z', e) := dev_write bs0 z a bytes in ((b, O, z'), e)
    end |}.

Section Crash.
Context {FO : FloatOps} (p : profile) {B B0 ER EW : Type} (bs : bus B ER EW) (bs0 : bus B0 ER EW).
Notation driver := (driver (FO := FO) (B := B) (ER := ER) (EW := EW)).
Notation op := (op (FO := FO)).

(** The driver [d], about to make the calls [ops]; the camera can be reached for [n] transactions. *)
Definition doomed (d : driver) (n : nat) (z : B0) : Driver.driver (FO := FO) (B := B * nat * B0) (ER := ER) (EW := EW) :=
  connect d (Build_world (dev (d_bus d), n, z) []).
(** The state the camera is left in. *)
Definition camera_left (d : driver) (n : nat) (z : B0) (ops : list op) : B :=
  fst (fst (dev (d_bus (run p (cut bs bs0) (doomed d n z) ops)))).

(** The transactions of the first [k] of the calls [ops], and of the next one, were nothing to happen. *)
Definition made_by (d : driver) (k : nat) (ops : list op) (evs : list (event ER EW)) : Prop :=
  trace (d_bus (run p bs d (firstn k ops))) = trace (d_bus d) ++ evs.

(** A camera that sets its "new data" flag ([flag]) and keeps it until the status register is written. *)
Record keeps_flag (a : Z) (flag : B -> bool) : Prop := {
  kf_reads : forall b wb buf b' out e, dev_write_read bs b a wb buf = (b', out, e) ->
    flag b = true -> flag b' = true;
  kf_shown : forall b buf b' out, length buf = 2%nat -> dev_write_read bs b a status_reg buf = (b', out, None) ->
    flag b = true -> exists w, out = [w / 256; w mod 256] /\ word w /\ bit w 3 = true
}.
End Crash.
