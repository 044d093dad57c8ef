(** * SpecMock: the reference camera of the test-suite as the environment of a
    driver, and the read-modify-write discipline on registers. *)
From Verif Require Import Base FloatOps Register Bus Camera Driver Mock SpecRegister SpecCamera SpecDriver.

(** The bits of a register the driver may ever change: the documented ones that
    have a method (status: new data, overwrite, start; control: subpages enabled,
    data hold, subpage repeat, subpage, frame rate, resolution, access pattern). *)
Definition changeable (reg : list Z) (i : Z) : Prop :=
  (reg = status_reg /\ (i = 3 \/ i = 4 \/ i = 5)) \/
  (reg = control_reg /\ (i = 0 \/ i = 2 \/ i = 3 \/ i = 4 \/ 7 <= i <= 12)).

(** In the transactions of one call, every write is the word most recently read
    from the same register, changed only in changeable bits, and nothing but reads
    happened since. *)
Definition read_modify_write {ER EW} (i2c : Z) (evs : list (event ER EW)) : Prop :=
  forall before x after, evs = before ++ x :: after -> ~ is_read x ->
  exists early v between reg v' err,
    before = early ++ reads_word i2c reg v :: between /\ Forall is_read between /\
    x = writes_word i2c reg v' err /\ (reg = status_reg \/ reg = control_reg) /\ word v /\ word v' /\
    forall i, 0 <= i < 16 -> ~ changeable reg i -> bit v' i = bit v i.

Definition two_bytes (l : list Z) : Prop := exists hi lo, l = [hi; lo] /\ byte hi /\ byte lo.
Definition ram_bytes (lay : layout) : nat := Z.to_nat (2 * (ram_last lay - 0x0400 + 1)).

(** A mock of the camera with layout [lay] at bus address [a], with arbitrary
    contents of EEPROM, RAM and registers. *)
Definition mock_of (lay : layout) (a : Z) (k : mock) : Prop :=
  mk_i2c_address k = a /\ mk_ram_end k = ram_last lay /\
  length (mk_ram k) = ram_bytes lay /\ Forall byte (mk_ram k) /\
  length (mk_eeprom k) = 1664%nat /\ Forall byte (mk_eeprom k) /\
  two_bytes (mk_status k) /\ two_bytes (mk_control k) /\ two_bytes (mk_i2c_config k).

(** What can happen: the user calls a method of the driver, or the test harness
    changes the camera between two calls. *)
Inductive happening {FO : FloatOps} :=
| Call (o : op (FO := FO))
| NewFrame (ram status : list Z)
| SetDataAvailable (b : bool).
Definition possible {FO} (lay : layout) (h : happening (FO := FO)) : Prop :=
  match h with
  | NewFrame ram status => length ram = ram_bytes lay /\ Forall byte ram /\ two_bytes status
  | _ => True
  end.

Section Happen.
Context {FO : FloatOps} (p : profile).
Notation driver := (driver (FO := FO) (B := mock) (ER := mock_error) (EW := mock_error)).
Definition harness (d : driver) (f : mock -> mock) : driver :=
  with_bus d (Build_world (f (dev (d_bus d))) (trace (d_bus d))).
Definition happens (d : driver) (h : happening (FO := FO)) : driver :=
  match h with
  | Call o => snd (fst (step p mock_bus d o))
  | NewFrame ram status => harness d (fun k => update_frame k ram status)
  | SetDataAvailable b => harness d (fun k => set_data_available k b)
  end.
Definition all_happen (d : driver) (hs : list (happening (FO := FO))) : driver := fold_left happens hs d.
End Happen.
