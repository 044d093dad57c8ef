(** * SpecHold: the documented "data hold" mode of the cameras, and which register bits each
    call is there to change. *)
From Verif Require Import Base FloatOps Register Bus Camera Calc Driver SpecRegister SpecCamera SpecDriver.

(** The bits of the two registers a call may change, by the documentation of the methods: bit [i]
    of the register at [reg]. *)
Definition alters {FO : FloatOps} (o : op (FO := FO)) (reg : list Z) (i : Z) : Prop :=
  match o with
  | OpResetDataAvailable | OpGenerateIfReady _ => reg = status_reg /\ i = 3
  | OpSetOverwriteEnabled _ => reg = status_reg /\ i = 4
  | OpSynchronize _ => reg = status_reg /\ 3 <= i <= 5
  | OpSetUseSubpages _ => reg = control_reg /\ i = 0
  | OpSetDataHold _ => reg = control_reg /\ i = 2
  | OpSetSubpageRepeat _ => reg = control_reg /\ i = 3
  | OpSetSubpage _ => reg = control_reg /\ i = 4
  | OpSetFrameRate _ => reg = control_reg /\ 7 <= i <= 9
  | OpSetResolution _ => reg = control_reg /\ 10 <= i <= 11
  | OpSetAccessPattern _ => reg = control_reg /\ i = 12
  | _ => False
  end.

(** In the transactions of one call, every write is the word most recently read from the same
    register, changed only in the bits [ch], and nothing but reads happened since. *)
Definition rmw_within {ER EW} (ch : list Z -> Z -> Prop) (i2c : Z) (evs : list (event ER EW)) : Prop :=
  forall before x after, evs = before ++ x :: after -> ~ is_read x ->
  exists early v between reg v' err,
    before = early ++ reads_word i2c reg v :: between /\ Forall is_read between /\
    x = writes_word i2c reg v' err /\ (reg = status_reg \/ reg = control_reg) /\ word v /\ word v' /\
    forall i, 0 <= i < 16 -> ~ ch reg i -> bit v' i = bit v i.

Section Hold.
Context {B : Type} (contents : B -> Z -> Z).

(** "Enable data hold" (bit 2 of 0x800D) and "enable overwrite" (bit 4 of 0x8000). *)
Definition hold_on (b : B) : bool := bit (contents b 0x800D) 2.
Definition overwrite_on (b : B) : bool := bit (contents b 0x8000) 4.
(** "When this flag is set, data is not copied to RAM unless the overwrite flag is set." *)
Definition holding (b : B) : Prop := hold_on b = true /\ overwrite_on b = false.
Definition in_ram (x : Z) : Prop := 0x0400 <= x < 0x0800.
Definition same_ram (b b' : B) : Prop := forall x, in_ram x -> contents b' x = contents b x.

(** A camera at bus address [a] that implements the mode.  [contents b] is what its memory and
    registers hold in state [b].  It measures on its own whenever it likes: between any two
    transactions all of its memory may change, except that the two enable bits change only by
    writing them (a write that reports an error may or may not have taken effect), and that RAM
    does not change as long as data is held. *)
Record honours_hold {ER EW} (bs : bus B ER EW) (a : Z) : Prop := {
  hh_word : forall b x, word (contents b x);
  hh_status_read : forall b buf b' out, length buf = 2%nat ->
    dev_write_read bs b a status_reg buf = (b', out, None) ->
    out = [contents b 0x8000 / 256; contents b 0x8000 mod 256];
  hh_control_read : forall b buf b' out, length buf = 2%nat ->
    dev_write_read bs b a control_reg buf = (b', out, None) ->
    out = [contents b 0x800D / 256; contents b 0x800D mod 256];
  hh_reads : forall b wb buf b' out e, dev_write_read bs b a wb buf = (b', out, e) ->
    hold_on b' = hold_on b /\ overwrite_on b' = overwrite_on b;
  hh_status_write : forall b hi lo b' e, dev_write bs b a (status_reg ++ [hi; lo]) = (b', e) ->
    hold_on b' = hold_on b /\
    (overwrite_on b' = bit (256 * hi + lo) 4 \/ e <> None /\ overwrite_on b' = overwrite_on b);
  hh_control_write : forall b hi lo b' e, dev_write bs b a (control_reg ++ [hi; lo]) = (b', e) ->
    overwrite_on b' = overwrite_on b /\
    (hold_on b' = bit (256 * hi + lo) 2 \/ e <> None /\ hold_on b' = hold_on b);
  hh_held_by_reads : forall b wb buf b' out e, holding b ->
    dev_write_read bs b a wb buf = (b', out, e) -> same_ram b b';
  hh_held_by_writes : forall b bytes b' e, holding b -> dev_write bs b a bytes = (b', e) -> holding b' -> same_ram b b';
  hh_held_answer : forall b x buf b' out, holding b -> 0x0400 <= x ->
    x + Z.of_nat (length buf) / 2 <= 0x0800 ->
    dev_write_read bs b a [x / 256; x mod 256] buf = (b', out, None) ->
    out = mem_bytes (contents b) x (length buf)
}.
End Hold.

(** The calls that do not end the mode. *)
Definition leaves_held {FO : FloatOps} (o : op (FO := FO)) : Prop :=
  match o with
  | OpSetOverwriteEnabled v => v = false
  | OpSetDataHold v => v = true
  | OpSynchronize _ => False
  | _ => True
  end.
Definition leaves_hold_on {FO : FloatOps} (o : op (FO := FO)) : Prop :=
  match o with OpSetDataHold v => v = true | _ => True end.
