(** * Bus: an arbitrary I2C bus, and register access over it
    (embedded_hal blocking i2c traits; register.rs 26-93; error.rs 42-56). *)
From Verif Require Import Base FloatOps Register.

(** error.rs 42-56 [Error<I2C>]; [ER]/[EW] are the bus error types. *)
Inductive error (ER EW : Type) :=
| I2cWriteReadError (e : ER)
| I2cWriteError (e : EW)
| LibraryError (l : lib_error).
Arguments I2cWriteReadError {ER EW} e.
Arguments I2cWriteError {ER EW} e.
Arguments LibraryError {ER EW} l.

(** A bus with state [B]: what [i2c::WriteRead::write_read] and
    [i2c::Write::write] do.  Nothing is assumed of it: the new state, the data
    and the error are arbitrary functions of the whole past (through [B]), so
    this covers any camera, any timing of the camera and any fault.
    [write_read dev i2c_address bytes buffer] returns the new state, the bytes
    stored at the front of the caller's buffer, and an error if any. *)
Record bus (B ER EW : Type) := {
  dev_write_read : B -> Z -> list Z -> list Z -> B * list Z * option ER;
  dev_write : B -> Z -> list Z -> B * option EW
}.
Arguments dev_write_read {B ER EW} _ _ _ _ _.
Arguments dev_write {B ER EW} _ _ _ _.

(** What ends up in the caller's buffer: memory safety guarantees that the
    buffer keeps its length and holds bytes. *)
Definition clip (buf out : list Z) : list Z :=
  firstn (length buf) (map (fun b => b mod 256) out ++ skipn (length out) buf).

(** Ghost log of bus transactions. *)
Inductive event (ER EW : Type) :=
| EvRead (i2c : Z) (wbytes data : list Z) (err : option ER)
| EvWrite (i2c : Z) (bytes : list Z) (err : option EW).
Arguments EvRead {ER EW} i2c wbytes data err.
Arguments EvWrite {ER EW} i2c bytes err.

(** Model plumbing: the device state and the log of transactions (the `bus` field, driver.rs 56-87). *)
Record world (B ER EW : Type) := {
  dev : B;
  trace : list (event ER EW)      (* oldest first *)
}.
Arguments dev {B ER EW} _.
Arguments trace {B ER EW} _.
Arguments Build_world {B ER EW} _ _.

Section Bus.
Context {B ER EW : Type} (bs : bus B ER EW).
Notation W := (world B ER EW).

(** One [bus.write_read(i2c_address, &wbytes, &mut buf)]. *)
Definition write_read (i2c : Z) (wbytes buf : list Z) (w : W) : list Z * option ER * W :=
  let '(b, out, e) := dev_write_read bs (dev w) i2c wbytes buf in
  let buf' := clip buf out in
  (buf', e, Build_world b (trace w ++ [EvRead i2c wbytes buf' e])).

(** One [bus.write(i2c_address, &bytes)]. *)
Definition bus_write (i2c : Z) (bytes : list Z) (w : W) : option EW * W :=
  let '(b, e) := dev_write bs (dev w) i2c bytes in
  (e, Build_world b (trace w ++ [EvWrite i2c bytes e])).

(** register.rs 35-55: [from_i2c] of a register at [reg_addr]: the two bytes. *)
Definition read_register (i2c reg_addr : Z) (w : W) : res (error ER EW) Z * W :=
  let '(data, e, w') := write_read i2c (to_be_bytes reg_addr) [0; 0] w in
  match e with
  | Some e => (Err (I2cWriteReadError e), w')
  | None => (register_from_slice data, w')
  end.

(** register.rs 65-92: [to_i2c] *)
Definition write_register (i2c reg_addr value : Z) (w : W) : res (error ER EW) unit * W :=
  let '(e, w') := bus_write i2c (to_be_bytes reg_addr ++ to_be_bytes value) w in
  match e with
  | Some e => (Err (I2cWriteError e), w')
  | None => (Ok tt, w')
  end.
End Bus.
