(** * SpecReplay: recordings of bus traffic, and buses shared by two cameras. *)
From Verif Require Import Base FloatOps Register Bus Camera Calc Driver.

(** What a bus answered in a transaction. *)
Inductive answer (ER EW : Type) :=
| AnsRead (data : list Z) (err : option ER)
| AnsWrite (err : option EW).
Arguments AnsRead {ER EW} data err.
Arguments AnsWrite {ER EW} err.

Definition answer_of {ER EW} (x : event ER EW) : answer ER EW :=
  match x with EvRead _ _ data e => AnsRead data e | EvWrite _ _ e => AnsWrite e end.

(** A bus that gives recorded answers, in order, whatever it is asked.  (At the end of the tape, or
    if a read is asked and a write was recorded or vice versa, it returns success and no data.) *)
Definition replay (ER EW : Type) : bus (list (answer ER EW)) ER EW := {|
  dev_write_read := fun tape _ _ _ =>
    match tape with AnsRead data e :: rest => (rest, data, e) | _ => (tape, [], None) end;
  dev_write := fun tape _ _ =>
    match tape with AnsWrite e :: rest => (rest, e) | _ => (tape, None) end |}.

(** A bus with two sets of devices that do not influence each other; the devices at the addresses
    [mine] are those of the first. *)
Definition shared {B1 B2 ER EW} (mine : Z -> bool) (bs1 : bus B1 ER EW) (bs2 : bus B2 ER EW)
    : bus (B1 * B2) ER EW := {|
  dev_write_read := fun b a wb buf =>
    if mine a
    then let '(b1, out, e) := dev_write_read bs1 (fst b) a wb buf in ((b1, snd b), out, e)
    else let '(b2, out, e) := dev_write_read bs2 (snd b) a wb buf in ((fst b, b2), out, e);
  dev_write := fun b a bytes =>
    if mine a
    then let '(b1, e) := dev_write bs1 (fst b) a bytes in ((b1, snd b), e)
    else let '(b2, e) := dev_write bs2 (snd b) a bytes in ((fst b, b2), e) |}.

Definition address_of {ER EW} (x : event ER EW) : Z :=
  match x with EvRead a _ _ _ | EvWrite a _ _ => a end.

Section Spec.
Context {FO : FloatOps} (p : profile) {ER EW : Type}.
Notation drv B := (driver (FO := FO) (B := B) (ER := ER) (EW := EW)).
Notation op := (op (FO := FO)).
Notation F := (F FO).

(** What the user sees of one call: what it returned, and the destination afterwards. *)
Definition observed : Type := (res (error ER EW) (out (FO := FO)) * list F)%type.

(** What the user sees of a sequence of calls. *)
Fixpoint outcomes {B} (bs : bus B ER EW) (d : drv B) (ops : list op) : list observed :=
  match ops with
  | [] => []
  | o :: rest => let '(r, d', dest) := step p bs d o in (r, dest) :: outcomes bs d' rest
  end.

(** The driver [d] connected to the bus in the state [w]. *)
Definition connect {B1 B2} (d : drv B1) (w : world B2 ER EW) : drv B2 :=
  {| d_bus := w; d_address := d_address d; d_calibration := d_calibration d;
     d_pixel_buffer := d_pixel_buffer d; d_resolution_correction := d_resolution_correction d;
     d_ambient := d_ambient d; d_emissivity := d_emissivity d;
     d_access_pattern := d_access_pattern d; d_reflected := d_reflected d;
     d_height := d_height d |}.

(** Two drivers using one bus by turns: [(true, o)] is a call of the first, [(false, o)] one of the
    second driver.  The bus is as the previous call, whoever made it, left it. *)
Fixpoint turns {B} (bs : bus B ER EW) (d1 d2 : drv B) (w : world B ER EW) (calls : list (bool * op))
    : list (bool * observed) * (drv B * drv B) * world B ER EW :=
  match calls with
  | [] => ([], (d1, d2), w)
  | (who, o) :: rest =>
      let '(r, d', dest) := step p bs (connect (if who then d1 else d2) w) o in
      let '(seen, ds, w') := if who then turns bs d' d2 (d_bus d') rest else turns bs d1 d' (d_bus d') rest in
      ((who, (r, dest)) :: seen, ds, w')
  end.

(** The part of a list that belongs to one of the two. *)
Definition part {A} (who : bool) (l : list (bool * A)) : list A :=
  map snd (filter (fun x => Bool.eqb (fst x) who) l).
End Spec.
