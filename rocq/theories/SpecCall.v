(** * SpecCall: the image calls of the public interface, described by what they
    do on the bus.  Used by the properties of image generation. *)
From Verif Require Import Base FloatOps Register Bus Camera Calc Driver SpecRegister SpecCamera SpecDriver SpecImage.

Section Calls.
Context {FO : FloatOps} {B ER EW : Type}.
Notation driver := (driver (FO := FO) (B := B) (ER := ER) (EW := EW)).
Notation op := (op (FO := FO)).
Notation event := (event ER EW).
Implicit Types d : driver.

(** The destination passed to a call that produces an image. *)
Definition destination (o : op) : option (list (F FO)) :=
  match o with
  | OpGenerateRawSubpage _ dest | OpGenerateSubpage _ dest | OpGenerateImage dest | OpGenerateIfReady dest => Some dest
  | _ => None
  end.
(** The same call with another destination. *)
Definition into (dest : list (F FO)) (o : op) : op :=
  match o with
  | OpGenerateRawSubpage sp _ => OpGenerateRawSubpage sp dest
  | OpGenerateSubpage sp _ => OpGenerateSubpage sp dest
  | OpGenerateImage _ => OpGenerateImage dest
  | OpGenerateIfReady _ => OpGenerateIfReady dest
  | o => o
  end.

(** Everything but the bus and the pixel buffer is as before. *)
Definition kept d d' : Prop :=
  d_address d' = d_address d /\ d_calibration d' = d_calibration d /\ d_height d' = d_height d /\
  d_resolution_correction d' = d_resolution_correction d /\ d_access_pattern d' = d_access_pattern d /\
  d_ambient d' = d_ambient d /\ d_emissivity d' = d_emissivity d /\ d_reflected d' = d_reflected d.

(** The settings a driver uses. *)
Definition settings_of d : settings (FO := FO) :=
  {| set_emissivity := d_emissivity d; set_reflected := d_reflected d;
     set_correction := d_resolution_correction d; set_pattern := d_access_pattern d |}.

(** The call [o] starts with the transactions [pre] and then reads the frame of
    subpage [sp], to compute raw data or temperatures. *)
Inductive asks (a : Z) : op -> bool -> subpage -> list event -> Prop :=
| asks_raw : forall sp dest, asks a (OpGenerateRawSubpage sp dest) true sp []
| asks_temperatures : forall sp dest, asks a (OpGenerateSubpage sp dest) false sp []
| asks_last : forall v dest, word v ->
    asks a (OpGenerateImage dest) false (s_subpage (status_doc v)) [reads_word a status_reg v]
| asks_ready : forall v dest, word v -> bit v 3 = true ->
    asks a (OpGenerateIfReady dest) false (s_subpage (status_doc v)) [reads_word a status_reg v].

(** After a computed image: nothing, or the new-data flag is cleared. *)
Inductive acknowledges (a : Z) : op -> list event -> list event -> res (error ER EW) (out (FO := FO)) -> Prop :=
| ack_raw : forall sp dest, acknowledges a (OpGenerateRawSubpage sp dest) [] [] (Ok OutUnit)
| ack_temperatures : forall sp dest, acknowledges a (OpGenerateSubpage sp dest) [] [] (Ok OutUnit)
| ack_last : forall v dest, acknowledges a (OpGenerateImage dest) [reads_word a status_reg v] [] (Ok OutUnit)
| ack_ready : forall v v' dest err, word v -> word v' -> bit v' 3 = false ->
    (forall i, 0 <= i < 16 -> i <> 3 -> bit v' i = bit v i) ->
    acknowledges a (OpGenerateIfReady dest) [reads_word a status_reg v] [writes_word a status_reg v' err]
      (match err with None => Ok (OutBool true) | Some e => Err (I2cWriteError e) end).

(** The call computed an image: it returned Ok (other than "no new data"), or
    failed only in the final write. *)
Definition computed (o : op) (r : res (error ER EW) (out (FO := FO))) : Prop :=
  destination o <> None /\
  match r with
  | Ok OutUnit | Ok (OutBool true) | Err (I2cWriteError _) => True
  | _ => False
  end.

(** A driver for one of the two cameras, with calibration data for every pixel
    and a pixel buffer for the whole image.  Every driver a user can have is one
    (see C62). *)
Definition usable d (lay : layout) : Prop :=
  documented (cam _ (d_calibration d)) lay /\ (lay_height lay <= d_height d)%nat /\
  complete (d_calibration d) lay /\ (2 * lay_pixels lay <= length (d_pixel_buffer d))%nat.
End Calls.
