(** * SpecTraffic: how much each call may use the bus. *)
From Verif Require Import Base FloatOps Register Bus Camera Calc Driver SpecRegister SpecCamera SpecDriver.

(** Bytes on the wire, device address bytes included: a write-read sends the address, the register
    address, the device address again and then receives; a write sends the device address and the data. *)
Definition wire {ER EW} (x : event ER EW) : Z :=
  match x with
  | EvRead _ wb data _ => 2 + Z.of_nat (length wb) + Z.of_nat (length data)
  | EvWrite _ bytes _ => 1 + Z.of_nat (length bytes)
  end.
(** Transactions and bytes of a transcript. *)
Definition traffic {ER EW} (evs : list (event ER EW)) : Z * Z :=
  (Z.of_nat (length evs), fold_right (fun x n => wire x + n) 0 evs).
Definition plus2 (a b : Z * Z) : Z * Z := (fst a + fst b, snd a + snd b).
Definition within2 (a b : Z * Z) : Prop := fst a <= fst b /\ snd a <= snd b.

(** One frame: the MLX90640 reads all 1536 bytes at once in chess pattern and 12 rows of 64 bytes
    otherwise; the MLX90641 6 rows of 64 bytes; then five words. *)
Definition frame_traffic (lay : layout) (ap : access_pattern) : Z * Z :=
  if Nat.eqb (lay_pixels lay) 768 then match ap with Chess => (6, 1570) | Interleave => (17, 846) end
  else (11, 438).

Definition budget {FO : FloatOps} (lay : layout) (ap : access_pattern) (o : op (FO := FO)) : Z * Z :=
  match o with
  (* nothing to ask the camera *)
  | OpEffectiveEmissivity | OpOverrideEmissivity _ | OpUseDefaultEmissivity | OpReflectedTemperature
  | OpSetReflectedTemperature _ | OpAmbientTemperature | OpHeight | OpWidth => (0, 0)
  (* one register is read *)
  | OpLastMeasuredSubpage | OpDataAvailable | OpOverwriteEnabled | OpSubpagesEnabled | OpDataHoldEnabled
  | OpSubpageRepeat | OpSelectedSubpage | OpFrameRate | OpResolution | OpAccessPattern => (1, 6)
  (* one register is read and perhaps written *)
  | OpResetDataAvailable | OpSetOverwriteEnabled _ | OpSetUseSubpages _ | OpSetDataHold _ | OpSetSubpageRepeat _
  | OpSetSubpage _ | OpSetFrameRate _ | OpSetResolution _ | OpSetAccessPattern _ => (2, 11)
  (* one frame *)
  | OpGenerateRawSubpage _ _ | OpGenerateSubpage _ _ => frame_traffic lay ap
  | OpGenerateImage _ => plus2 (1, 6) (frame_traffic lay ap)
  | OpGenerateIfReady _ => plus2 (2, 11) (frame_traffic lay ap)
  (* a read, a write and the status reads made until data is ready *)
  | OpSynchronize polls => (2 + Z.of_nat polls, 11 + 6 * Z.of_nat polls)
  end.
(** Whatever the access pattern. *)
Definition worst {FO : FloatOps} (lay : layout) (o : op (FO := FO)) : Z * Z :=
  (Z.max (fst (budget lay Chess o)) (fst (budget lay Interleave o)), Z.max (snd (budget lay Chess o)) (snd (budget lay Interleave o))).
(** Calls that read one register and do nothing else. *)
Definition one_read {FO : FloatOps} (o : op (FO := FO)) : Prop :=
  match o with
  | OpLastMeasuredSubpage | OpDataAvailable | OpOverwriteEnabled | OpSubpagesEnabled | OpDataHoldEnabled
  | OpSubpageRepeat | OpSelectedSubpage | OpFrameRate | OpResolution | OpAccessPattern => True
  | _ => False
  end.
