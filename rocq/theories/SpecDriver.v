(** * SpecDriver: bus transactions as the datasheet names them. *)
From Verif Require Import Base FloatOps Register Bus Camera SpecRegister SpecCamera.

Section Events.
Context {ER EW : Type}.
Notation ev := (event ER EW).

(** 0x8000 and 0x800D on the wire. *)
Definition status_reg : list Z := [0x80; 0x00].
Definition control_reg : list Z := [0x80; 0x0D].

(** A successful read of register [reg] that returned the word [v]. *)
Definition reads_word (i2c : Z) (reg : list Z) (v : Z) : ev := EvRead i2c reg [v / 256; v mod 256] None.
(** A failed read of register [reg]. *)
Definition read_fails (i2c : Z) (reg : list Z) (e : ER) (x : ev) : Prop :=
  exists data, x = EvRead i2c reg data (Some e) /\ length data = 2%nat.
(** A write of the word [v] to register [reg], with the bus error if any. *)
Definition writes_word (i2c : Z) (reg : list Z) (v : Z) (err : option EW) : ev :=
  EvWrite i2c (reg ++ [v / 256; v mod 256]) err.

(** Transactions a camera user may expect of the driver: [i2c] is the camera's
    address, [ram_last] the last RAM address. *)
Definition legal_region (ram_last a : Z) (n : nat) : Prop :=
  let last := a + Z.of_nat n / 2 - 1 in
  (0x0400 <= a /\ last <= ram_last) \/
  (0x2400 <= a /\ last <= 0x273F) \/
  ((a = 0x8000 \/ a = 0x800D) /\ n = 2%nat).
Inductive legal (i2c ram_last : Z) : ev -> Prop :=
| legal_read : forall a data err,
    data <> [] -> Nat.Even (length data) -> legal_region ram_last a (length data) ->
    legal i2c ram_last (EvRead i2c [a / 256; a mod 256] data err)
| legal_write : forall reg hi lo err,
    reg = status_reg \/ reg = control_reg -> byte hi -> byte lo ->
    legal i2c ram_last (EvWrite i2c (reg ++ [hi; lo]) err).

Definition is_read (x : ev) : Prop := match x with EvRead _ _ _ _ => True | EvWrite _ _ _ => False end.
Definition succeeded (x : ev) : Prop :=
  match x with EvRead _ _ _ e => e = None | EvWrite _ _ e => e = None end.

(** The transactions of a setter of an [n]-bit field at bit [lo] of register [reg]
    whose documented value is [value w], asked to store [v]. *)
Inductive setter_run {V} (i2c : Z) (reg : list Z) (lo n : Z) (value : Z -> V) (v : V)
  : list ev -> res (error ER EW) unit -> Prop :=
| set_read_failed : forall x e, read_fails i2c reg e x ->
    setter_run i2c reg lo n value v [x] (Err (I2cWriteReadError e))
| set_unchanged : forall w, word w -> value w = v ->
    setter_run i2c reg lo n value v [reads_word i2c reg w] (Ok tt)
| set_written : forall w w' err, word w -> value w <> v -> only_changes lo n w w' -> value w' = v ->
    setter_run i2c reg lo n value v [reads_word i2c reg w; writes_word i2c reg w' err]
      (match err with None => Ok tt | Some e => Err (I2cWriteError e) end).
End Events.

(** Last RAM address: 0x073F for the MLX90640, 0x05BF for the MLX90641. *)
Definition ram_last (lay : layout) : Z := lay_vbe lay + 0x3F.

(** ** A camera whose control register changes only by being written *)
Record control_register_is {B ER EW : Type} (bs : bus B ER EW) (ctl : B -> Z) : Prop := {
  (** reads do not change it *)
  ctl_kept_by_reads : forall b i2c wb buf b' out e,
    dev_write_read bs b i2c wb buf = (b', out, e) -> ctl b' = ctl b;
  (** a successful read of 0x800D returns it *)
  ctl_answer : forall b i2c buf b' out, length buf = 2%nat ->
    dev_write_read bs b i2c control_reg buf = (b', out, None) -> out = [ctl b / 256; ctl b mod 256];
  (** writes elsewhere do not change it *)
  ctl_kept_by_writes : forall b i2c bytes b' e,
    dev_write bs b i2c bytes = (b', e) -> firstn 2 bytes <> control_reg -> ctl b' = ctl b;
  (** a successful write of 0x800D stores the documented fields *)
  ctl_written : forall b i2c hi lo b',
    dev_write bs b i2c (control_reg ++ [hi; lo]) = (b', None) ->
    control_doc (ctl b') = control_doc (256 * hi + lo);
  ctl_word : forall b, word (ctl b)
}.
Definition failed_control_write {ER EW} (x : event ER EW) : Prop :=
  exists i2c hi lo e, x = EvWrite i2c (control_reg ++ [hi; lo]) (Some e).

(** ** synchronize *)
(** The request: new-data flag cleared, overwrite and start flags set, the rest as read. *)
Definition measurement_request (v v' : Z) : Prop :=
  word v' /\ bit v' 3 = false /\ bit v' 4 = true /\ bit v' 5 = true /\
  forall i, 0 <= i < 16 -> i <> 3 -> i <> 4 -> i <> 5 -> bit v' i = bit v i.
(** A status read without / with new data. *)
Definition not_ready {ER EW} (i2c : Z) (x : event ER EW) : Prop :=
  exists v, word v /\ bit v 3 = false /\ x = reads_word i2c status_reg v.
Definition ready {ER EW} (i2c : Z) (x : event ER EW) : Prop :=
  exists v, word v /\ bit v 3 = true /\ x = reads_word i2c status_reg v.

(** Transactions and result of [synchronize] when it makes at most [fuel] polls. *)
Inductive sync_run {ER EW} (i2c : Z) (fuel : nat) : list (event ER EW) -> res (error ER EW) unit -> Prop :=
| sync_read_failed : forall x e, read_fails i2c status_reg e x ->
    sync_run i2c fuel [x] (Err (I2cWriteReadError e))
| sync_write_failed : forall v v' e, word v -> measurement_request v v' ->
    sync_run i2c fuel [reads_word i2c status_reg v; writes_word i2c status_reg v' (Some e)]
      (Err (I2cWriteError e))
| sync_polled : forall v v' polls r, word v -> measurement_request v v' -> poll_run i2c fuel polls r ->
    sync_run i2c fuel (reads_word i2c status_reg v :: writes_word i2c status_reg v' None :: polls) r
with poll_run {ER EW} (i2c : Z) (fuel : nat) : list (event ER EW) -> res (error ER EW) unit -> Prop :=
| poll_ready : forall waits x, Forall (not_ready i2c) waits -> ready i2c x ->
    (length waits < fuel)%nat -> poll_run i2c fuel (waits ++ [x]) (Ok tt)
| poll_failed : forall waits x e, Forall (not_ready i2c) waits -> read_fails i2c status_reg e x ->
    (length waits < fuel)%nat -> poll_run i2c fuel (waits ++ [x]) (Err (I2cWriteReadError e))
| poll_waiting : forall waits, Forall (not_ready i2c) waits -> length waits = fuel ->
    poll_run i2c fuel waits Diverge.
