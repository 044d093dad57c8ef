(** * SpecStale: what the driver has been told about the control register. *)
From Verif Require Import Base FloatOps Register Bus Camera Calc Driver SpecRegister SpecCamera SpecDriver.

Section Seen.
Context {ER EW : Type}.
Notation event := (event ER EW).

(** The transaction [x] concerns the control register, 0x800D. *)
Definition about_control (x : event) : Prop :=
  match x with
  | EvRead _ wb _ _ => wb = control_reg
  | EvWrite _ bytes _ => firstn 2 bytes = control_reg
  end.
(** By the transaction [x] the driver of the camera at [i2c] has read [v] from it, or has
    tried to write [v] to it (whether or not the write was acknowledged). *)
Definition conveys (i2c v : Z) (x : event) : Prop :=
  x = reads_word i2c control_reg v \/ exists e, x = writes_word i2c control_reg v e.
(** [v] is the last such word in [evs]. *)
Definition last_seen (i2c : Z) (evs : list event) (v : Z) : Prop :=
  word v /\ exists before x after, evs = before ++ x :: after /\ conveys i2c v x /\
    forall u y, In y after -> ~ conveys i2c u y.
(** There is no such word in [evs]. *)
Definition nothing_seen (i2c : Z) (evs : list event) : Prop := forall u y, In y evs -> ~ conveys i2c u y.
End Seen.

(** Calls whose documentation is about a field of the control register. *)
Definition consults {FO : FloatOps} (o : op (FO := FO)) : Prop :=
  match o with
  | OpSubpagesEnabled | OpSetUseSubpages _ | OpDataHoldEnabled | OpSetDataHold _
  | OpSubpageRepeat | OpSetSubpageRepeat _ | OpSelectedSubpage | OpSetSubpage _
  | OpFrameRate | OpSetFrameRate _ | OpResolution | OpSetResolution _
  | OpAccessPattern | OpSetAccessPattern _ => True
  | _ => False
  end.

(** The driver takes pattern and resolution from the control word [v]. *)
Definition uses {FO : FloatOps} {B ER EW} (d : driver (FO := FO) (B := B) (ER := ER) (EW := EW)) (v : Z) : Prop :=
  d_access_pattern d = c_access_pattern (control_doc v) /\
  d_resolution_correction d =
    resolution_correction _ (cam _ (d_calibration d)) (cal_resolution _ (d_calibration d)) (c_resolution (control_doc v)).
