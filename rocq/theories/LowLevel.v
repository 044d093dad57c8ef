(** * LowLevel: models mlx9064x/benches/raw_to_temperatures.rs, which lib.rs (58-60) names as the example of
    using the low-level interface.  The measuring framework (criterion) and the lock around the mock are left
    out.  The bus is arbitrary here; what the benchmark does to the mock between frames (lines 47-62:
    [update_frame], [set_data_available]) is the device's own business and can be any change of its state. *)
From Verif Require Import Base FloatOps Register Bus Camera Cam640 Ee640 Calc.

Section LowLevel.
Context {FO : FloatOps} (p : profile) {B ER EW : Type} (bs : bus B ER EW).
Notation F := (F FO).
Notation W := (world B ER EW).

(** Language: [Result::unwrap] *)
Definition expect {E E' A} (r : res E A) : res E' A :=
  match r with Ok a => Ok a | Err _ => Panic | Panic => Panic | Diverge => Diverge end.

(** raw_to_temperatures.rs 18-23: the variables of the benchmark ([access_pattern] is always chess) *)
Record low_level := { low_calibration : calib FO; low_correction : F; low_emissivity : F }.

(** raw_to_temperatures.rs 18-22 *)
Definition low_open (address : Z) (w : W) : res unit low_level * W :=
  let '(r, w) := read_register bs address CONTROL_ADDRESS w in
  bindS (expect r, w) (fun control w =>
  let '(r, w) := calib640_from_i2c FO p bs address w in
  bindS (expect r, w) (fun c w =>
  (do res_now <- ctl_resolution control;
   Ok {| low_calibration := c;
         low_correction := resolution_correction _ (Mlx90640 FO) (cal_resolution _ c) res_now;
         low_emissivity := unwrap_or (cal_emissivity _ c) (fofZ 1) |}, w))).

(** raw_to_temperatures.rs 28-46: subpage, pixel bytes and RAM data *)
Definition low_setup (address : Z) (w : W) : res unit (subpage * list Z * ram_data) * W :=
  let '(r, w) := read_register bs address STATUS_ADDRESS w in
  bindS (expect r, w) (fun status w =>
  bindS (last_updated_subpage status, w) (fun sp w =>
  let '(r, pixel_bytes, w) := read_ram bs (Mlx90640 FO) 24 address Chess sp (repeat 0 1536) w in
  bindS (expect r, w) (fun ram w => (Ok (sp, pixel_bytes, ram), w)))).

(** raw_to_temperatures.rs 70-90, "split functions": ambient temperature and temperatures *)
Definition split_functions (s : low_level) (x : subpage * list Z * ram_data) : res unit (F * list F) :=
  let '(sp, pixel_bytes, ram) := x in
  let valid_pixels := pixels_in_subpage _ (Mlx90640 FO) sp Chess in
  do (t_a, ir) <- raw_pixels_to_ir_data p (low_calibration s) (low_emissivity s) (low_correction s) pixel_bytes ram sp Chess
                    valid_pixels (repeat (fofZ 0) 768);
  do temperatures <- raw_ir_to_temperatures (low_calibration s) (low_emissivity s) t_a None sp valid_pixels ir;
  Ok (t_a, temperatures).

(** raw_to_temperatures.rs 97-110, "one pass" *)
Definition one_pass (s : low_level) (x : subpage * list Z * ram_data) : res unit (F * list F) :=
  let '(sp, pixel_bytes, ram) := x in
  raw_pixels_to_temperatures p (low_calibration s) (low_emissivity s) None (low_correction s) pixel_bytes ram sp Chess
    (pixels_in_subpage _ (Mlx90640 FO) sp Chess) (repeat (fofZ 0) 768).

(** One iteration: [setup], then the measured function. *)
Definition low_frame (measured : low_level -> subpage * list Z * ram_data -> res unit (F * list F))
    (s : low_level) (address : Z) (w : W) : res unit (F * list F) * W :=
  bindS (low_setup address w) (fun x w => (measured s x, w)).
End LowLevel.
