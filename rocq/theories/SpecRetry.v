(** * SpecRetry: buses that fill the buffers they are given. *)
From Verif Require Import Base FloatOps Register Bus Camera Calc Driver.

(** What is asked in a transaction, without the answer. *)
Inductive request := AskRead (i2c : Z) (wbytes : list Z) (len : nat) | AskWrite (i2c : Z) (bytes : list Z).
Definition request_of {ER EW} (x : event ER EW) : request :=
  match x with
  | EvRead a wb data _ => AskRead a wb (length data)
  | EvWrite a bytes _ => AskWrite a bytes
  end.

(** As required by the [embedded_hal] traits: a read does not depend on what the caller's buffer
    holds, only on its length, and a successful one fills all of it.  A failed read may leave
    anything in the buffer. *)
Definition fills {B ER EW} (bs : bus B ER EW) : Prop :=
  forall b a wb buf1 buf2, length buf1 = length buf2 ->
    let '(b1, out1, e1) := dev_write_read bs b a wb buf1 in
    let '(b2, out2, e2) := dev_write_read bs b a wb buf2 in
    b1 = b2 /\ e1 = e2 /\ (e1 = None -> out1 = out2 /\ length out1 = length buf1).

(** Two drivers that differ in nothing but the contents of their pixel buffers (and in what failed
    reads left in them): same device state, same requests so far, same settings and caches. *)
Definition alike {FO : FloatOps} {B ER EW} (d1 d2 : driver (FO := FO) (B := B) (ER := ER) (EW := EW)) : Prop :=
  dev (d_bus d2) = dev (d_bus d1) /\
  map request_of (trace (d_bus d2)) = map request_of (trace (d_bus d1)) /\
  length (d_pixel_buffer d2) = length (d_pixel_buffer d1) /\
  d_address d2 = d_address d1 /\ d_calibration d2 = d_calibration d1 /\
  d_resolution_correction d2 = d_resolution_correction d1 /\ d_ambient d2 = d_ambient d1 /\
  d_emissivity d2 = d_emissivity d1 /\ d_access_pattern d2 = d_access_pattern d1 /\
  d_reflected d2 = d_reflected d1 /\ d_height d2 = d_height d1.
