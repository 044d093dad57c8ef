(** * Driver: models mlx9064x/src/driver.rs (and the type aliases of lib.rs). *)
From Verif Require Import Base FloatOps Register Bus Camera Calc.

(** register.rs 535: derived PartialEq *)
Definition subpage_eqb (a b : subpage) : bool :=
  match a, b with Zero, Zero | One, One => true | _, _ => false end.
(** register.rs 822: derived PartialEq *)
Definition access_pattern_eqb (a b : access_pattern) : bool :=
  match a, b with Chess, Chess | Interleave, Interleave => true | _, _ => false end.
(** register.rs 580: derived PartialEq *)
Definition frame_rate_eqb (a b : frame_rate) : bool :=
  frame_rate_as_raw a =? frame_rate_as_raw b.
(** register.rs 731: derived PartialEq *)
Definition resolution_eqb (a b : resolution) : bool :=
  resolution_as_raw a =? resolution_as_raw b.

Section Driver.
Context {FO : FloatOps} (p : profile) {B ER EW : Type} (bs : bus B ER EW).
Notation F := (F FO).
Notation calib := (calib FO).
Notation W := (world B ER EW).
Notation err := (error ER EW).

(** driver.rs 53-87 [CameraDriver].  The const parameter HEIGHT is the field
    [d_height]; NUM_BYTES is the length of [d_pixel_buffer]. *)
Record driver := {
  d_bus : W;
  d_address : Z;
  d_calibration : calib;
  d_pixel_buffer : list Z;
  d_resolution_correction : F;
  d_ambient : option F;
  d_emissivity : F;
  d_access_pattern : access_pattern;
  d_reflected : option F;
  d_height : nat
}.

(** Field updates. *)
Definition with_bus (d : driver) (w : W) : driver :=
  {| d_bus := w; d_address := d_address d; d_calibration := d_calibration d;
     d_pixel_buffer := d_pixel_buffer d; d_resolution_correction := d_resolution_correction d;
     d_ambient := d_ambient d; d_emissivity := d_emissivity d;
     d_access_pattern := d_access_pattern d; d_reflected := d_reflected d;
     d_height := d_height d |}.
(** Model plumbing: assignment to `self.pixel_buffer` (driver.rs 390) *)
Definition with_buffer (d : driver) (buf : list Z) : driver :=
  {| d_bus := d_bus d; d_address := d_address d; d_calibration := d_calibration d;
     d_pixel_buffer := buf; d_resolution_correction := d_resolution_correction d;
     d_ambient := d_ambient d; d_emissivity := d_emissivity d;
     d_access_pattern := d_access_pattern d; d_reflected := d_reflected d;
     d_height := d_height d |}.
(** Model plumbing: the assignments of driver.rs 148-154 *)
Definition with_cache (d : driver) (rc : F) (ap : access_pattern) : driver :=
  {| d_bus := d_bus d; d_address := d_address d; d_calibration := d_calibration d;
     d_pixel_buffer := d_pixel_buffer d; d_resolution_correction := rc;
     d_ambient := d_ambient d; d_emissivity := d_emissivity d;
     d_access_pattern := ap; d_reflected := d_reflected d;
     d_height := d_height d |}.
(** Model plumbing: driver.rs 413, 437, 491 *)
Definition with_ambient (d : driver) (t : option F) : driver :=
  {| d_bus := d_bus d; d_address := d_address d; d_calibration := d_calibration d;
     d_pixel_buffer := d_pixel_buffer d; d_resolution_correction := d_resolution_correction d;
     d_ambient := t; d_emissivity := d_emissivity d;
     d_access_pattern := d_access_pattern d; d_reflected := d_reflected d;
     d_height := d_height d |}.
(** Model plumbing: driver.rs 325-336 *)
Definition with_emissivity (d : driver) (e : F) : driver :=
  {| d_bus := d_bus d; d_address := d_address d; d_calibration := d_calibration d;
     d_pixel_buffer := d_pixel_buffer d; d_resolution_correction := d_resolution_correction d;
     d_ambient := d_ambient d; d_emissivity := e;
     d_access_pattern := d_access_pattern d; d_reflected := d_reflected d;
     d_height := d_height d |}.
(** Model plumbing: driver.rs 353-355 *)
Definition with_reflected (d : driver) (r : option F) : driver :=
  {| d_bus := d_bus d; d_address := d_address d; d_calibration := d_calibration d;
     d_pixel_buffer := d_pixel_buffer d; d_resolution_correction := d_resolution_correction d;
     d_ambient := d_ambient d; d_emissivity := d_emissivity d;
     d_access_pattern := d_access_pattern d; d_reflected := r;
     d_height := d_height d |}.

(** Result of a method: what is returned, and the driver afterwards. *)
Definition m (A : Type) : Type := res err A * driver.

(** A pure computation that may panic, inside a method. *)
Definition pure {A} (r : res err A) (d : driver) : m A := (r, d).

(** driver.rs 109-137 [new_with_calibration].  [height] and [num_bytes] are the
    const parameters.  The bus is consumed; on failure it is dropped (the model
    still returns it, so that its trace can be inspected). *)
Definition new_with_calibration (height num_bytes : nat) (w : W) (address : Z) (c : calib)
    : res err driver * W :=
  let '(r, w') := read_register bs address CONTROL_ADDRESS w in
  (do control <- r;
   do res_now <- ctl_resolution control;
   let rc := resolution_correction _ (cam _ c) (cal_resolution _ c) res_now in
   do ap <- ctl_access_pattern control;
   Ok {| d_bus := w'; d_address := address; d_calibration := c;
         d_pixel_buffer := repeat 0 num_bytes; d_resolution_correction := rc;
         d_ambient := None;
         d_emissivity := unwrap_or (cal_emissivity _ c) (fofZ 1);
         d_access_pattern := ap; d_reflected := None; d_height := height |}, w').

(** driver.rs 96-103 [new]; [from_i2c] is the calibration's [FromI2C]. *)
Definition new (from_i2c : Z -> W -> res err calib * W) (height num_bytes : nat) (w : W)
    (address : Z) : res err driver * W :=
  let '(r, w') := from_i2c address w in
  match r with
  | Ok c => new_with_calibration height num_bytes w' address c
  | Err e => (Err e, w')
  | Panic => (Panic, w')
  | Diverge => (Diverge, w')
  end.

(** driver.rs 139-142 [status_register] *)
Definition status_register_ (d : driver) : m Z :=
  let '(r, w') := read_register bs (d_address d) STATUS_ADDRESS (d_bus d) in (r, with_bus d w').

(** driver.rs 144-146 [set_status_register] *)
Definition set_status_register (register : Z) (d : driver) : m unit :=
  let '(r, w') := write_register bs (d_address d) STATUS_ADDRESS register (d_bus d) in
  (r, with_bus d w').

(** driver.rs 148-154 [update_control_register] *)
Definition update_control_register (register : Z) (d : driver) : m unit :=
  match ctl_resolution register with
  | Ok res_now =>
      let rc := resolution_correction _ (cam _ (d_calibration d))
                  (cal_resolution _ (d_calibration d)) res_now in
      let d1 := with_cache d rc (d_access_pattern d) in
      match ctl_access_pattern register with
      | Ok ap => (Ok tt, with_cache d1 rc ap)
      | Err e => (Err e, d1)
      | Panic => (Panic, d1)
      | Diverge => (Diverge, d1)
      end
  | Err e => (Err e, d)
  | Panic => (Panic, d)
  | Diverge => (Diverge, d)
  end.

(** driver.rs 156-161 [control_register] *)
Definition control_register_ (d : driver) : m Z :=
  let '(r, w') := read_register bs (d_address d) CONTROL_ADDRESS (d_bus d) in
  bindS (r, with_bus d w') (fun register d =>
  bindS (update_control_register register d) (fun _ d => (Ok register, d))).

(** driver.rs 163-167 [set_control_register]: the cache is updated first *)
Definition set_control_register (register : Z) (d : driver) : m unit :=
  bindS (update_control_register register d) (fun _ d =>
  let '(r, w') := write_register bs (d_address d) CONTROL_ADDRESS register (d_bus d) in
  (r, with_bus d w')).

(** driver.rs 170-172 *)
Definition last_measured_subpage (d : driver) : m subpage :=
  bindS (status_register_ d) (fun r d => pure (last_updated_subpage r) d).

(** driver.rs 175-182 *)
Definition data_available (d : driver) : m (option subpage) :=
  bindS (status_register_ d) (fun r d =>
    if new_data r then pure (do s <- last_updated_subpage r; Ok (Some s)) d
    else (Ok None, d)).

(** driver.rs 188-192 *)
Definition reset_data_available (d : driver) : m unit :=
  bindS (status_register_ d) (fun current d =>
    set_status_register (reset_new_data current) d).

(** driver.rs 197-199 *)
Definition drv_overwrite_enabled (d : driver) : m bool :=
  bindS (status_register_ d) (fun r d => (Ok (overwrite_enabled r), d)).

(** driver.rs 16-38: the macro [set_register_field!]. *)
Definition set_field {V} (get_register : driver -> m Z) (set_register : Z -> driver -> m unit)
    (getter : Z -> res err V) (setter : Z -> V -> Z) (eqb : V -> V -> bool)
    (new_value : V) (d : driver) : m unit :=
  bindS (get_register d) (fun current d =>
  bindS (getter current, d) (fun old d =>
    if negb (eqb old new_value) then set_register (setter current new_value) d
    else (Ok tt, d))).
(** driver.rs 16-38 with `status_register` *)
Definition set_status_field {V} := @set_field V status_register_ set_status_register.
(** driver.rs 16-38 with `control_register` *)
Definition set_control_field {V} := @set_field V control_register_ set_control_register.
(** Model plumbing: a register getter that cannot panic (driver.rs 30) *)
Definition total {A} (f : Z -> A) : Z -> res err A := fun r => Ok (f r).

(** driver.rs 201-205 *)
Definition drv_set_overwrite_enabled (v : bool) : driver -> m unit :=
  set_status_field (total overwrite_enabled) set_overwrite_enabled Bool.eqb v.
(** driver.rs 210-212 *)
Definition drv_subpages_enabled (d : driver) : m bool :=
  bindS (control_register_ d) (fun r d => (Ok (use_subpages r), d)).
(** driver.rs 214-218 *)
Definition drv_set_use_subpages (v : bool) : driver -> m unit :=
  set_control_field (total use_subpages) set_use_subpages Bool.eqb v.
(** driver.rs 224-226 *)
Definition drv_data_hold_enabled (d : driver) : m bool :=
  bindS (control_register_ d) (fun r d => (Ok (data_hold r), d)).
(** driver.rs 228-232 *)
Definition drv_set_data_hold (v : bool) : driver -> m unit :=
  set_control_field (total data_hold) set_data_hold Bool.eqb v.
(** driver.rs 240-242 *)
Definition drv_subpage_repeat (d : driver) : m bool :=
  bindS (control_register_ d) (fun r d => (Ok (subpage_repeat r), d)).
(** driver.rs 244-248 *)
Definition drv_set_subpage_repeat (v : bool) : driver -> m unit :=
  set_control_field (total subpage_repeat) set_subpage_repeat Bool.eqb v.
(** driver.rs 256-258 *)
Definition drv_selected_subpage (d : driver) : m subpage :=
  bindS (control_register_ d) (fun r d => pure (ctl_subpage r) d).
(** driver.rs 260-265 *)
Definition drv_set_subpage (v : subpage) : driver -> m unit :=
  set_control_field ctl_subpage set_ctl_subpage subpage_eqb v.
(** driver.rs 270-272 *)
Definition drv_frame_rate (d : driver) : m frame_rate :=
  bindS (control_register_ d) (fun r d => pure (ctl_frame_rate r) d).
(** driver.rs 274-279 *)
Definition drv_set_frame_rate (v : frame_rate) : driver -> m unit :=
  set_control_field ctl_frame_rate set_ctl_frame_rate frame_rate_eqb v.
(** driver.rs 285-287 *)
Definition drv_resolution (d : driver) : m resolution :=
  bindS (control_register_ d) (fun r d => pure (ctl_resolution r) d).
(** driver.rs 289-294 *)
Definition drv_set_resolution (v : resolution) : driver -> m unit :=
  set_control_field ctl_resolution set_ctl_resolution resolution_eqb v.
(** driver.rs 300-302 *)
Definition drv_access_pattern (d : driver) : m access_pattern :=
  bindS (control_register_ d) (fun r d => pure (ctl_access_pattern r) d).
(** driver.rs 304-309 *)
Definition drv_set_access_pattern (v : access_pattern) : driver -> m unit :=
  set_control_field ctl_access_pattern set_ctl_access_pattern access_pattern_eqb v.

(** driver.rs 316-318 *)
Definition effective_emissivity (d : driver) : F := d_emissivity d.
(** driver.rs 325-327 *)
Definition override_emissivity (v : F) (d : driver) : driver := with_emissivity d v.
(** driver.rs 333-336 *)
Definition use_default_emissivity (d : driver) : driver :=
  with_emissivity d (unwrap_or (cal_emissivity _ (d_calibration d)) (fofZ 1)).
(** driver.rs 343-345 *)
Definition reflected_temperature (d : driver) : option F := d_reflected d.
(** driver.rs 353-355 *)
Definition set_reflected_temperature (v : option F) (d : driver) : driver := with_reflected d v.
(** driver.rs 369-371 *)
Definition drv_ambient_temperature (d : driver) : option F := d_ambient d.
(** driver.rs 373-382 *)
Definition drv_height (d : driver) : nat := HEIGHT _ (cam _ (d_calibration d)).
(** driver.rs 380-382 *)
Definition drv_width (d : driver) : nat := WIDTH _ (cam _ (d_calibration d)).

(** driver.rs 384-392 [read_ram] *)
Definition drv_read_ram (sp : subpage) (d : driver) : m ram_data :=
  let '(r, buf, w') :=
    read_ram bs (cam _ (d_calibration d)) (d_height d) (d_address d) (d_access_pattern d) sp
             (d_pixel_buffer d) (d_bus d) in
  (r, with_bus (with_buffer d buf) w').

(** Result of an image method: returned value, driver, destination afterwards. *)
Definition mi (A : Type) : Type := res err A * driver * list F.

(** Shared tail of driver.rs 399-415, 422-439, 470-491: run the calculation on
    the driver's state, store destination and ambient temperature. *)
Definition store_image {A} (r : res err (F * list F)) (d : driver) (dest : list F)
    (k : driver -> list F -> mi A) : mi A :=
  match r with
  | Ok (t_a, dest') => k (with_ambient d (Some t_a)) dest'
  | Err e => (Err e, d, dest)
  | Panic => (Panic, d, dest)
  | Diverge => (Diverge, d, dest)
  end.

(** Model plumbing: `?` before the destination is touched (driver.rs 399, 422, 449, 467-478) *)
Definition fail_image {A A'} (r : res err A) (d : driver) (dest : list F) : mi A' :=
  match r with
  | Ok _ => (Panic, d, dest)      (* not used *)
  | Err e => (Err e, d, dest)
  | Panic => (Panic, d, dest)
  | Diverge => (Diverge, d, dest)
  end.

(** driver.rs 400-412 *)
Definition calc_ir (d : driver) (ram : ram_data) (sp : subpage) (dest : list F)
    : res err (F * list F) :=
  raw_pixels_to_ir_data p (d_calibration d) (d_emissivity d) (d_resolution_correction d)
    (d_pixel_buffer d) ram sp (d_access_pattern d)
    (pixels_in_subpage _ (cam _ (d_calibration d)) sp (d_access_pattern d)) dest.
(** driver.rs 423-436, 479-490 *)
Definition calc_temperatures (d : driver) (ram : ram_data) (sp : subpage) (dest : list F)
    : res err (F * list F) :=
  raw_pixels_to_temperatures p (d_calibration d) (d_emissivity d) (d_reflected d)
    (d_resolution_correction d) (d_pixel_buffer d) ram sp (d_access_pattern d)
    (pixels_in_subpage _ (cam _ (d_calibration d)) sp (d_access_pattern d)) dest.

(** driver.rs 394-415 [generate_raw_image_subpage_to] *)
Definition generate_raw_image_subpage_to (sp : subpage) (dest : list F) (d : driver) : mi unit :=
  let '(r, d) := drv_read_ram sp d in
  match r with
  | Ok ram => store_image (calc_ir d ram sp dest) d dest (fun d dest => (Ok tt, d, dest))
  | _ => fail_image r d dest
  end.

(** driver.rs 417-439 [generate_image_subpage_to] *)
Definition generate_image_subpage_to (sp : subpage) (dest : list F) (d : driver) : mi unit :=
  let '(r, d) := drv_read_ram sp d in
  match r with
  | Ok ram => store_image (calc_temperatures d ram sp dest) d dest (fun d dest => (Ok tt, d, dest))
  | _ => fail_image r d dest
  end.

(** driver.rs 445-451 [generate_image_to] *)
Definition generate_image_to (dest : list F) (d : driver) : mi unit :=
  let '(r, d) := last_measured_subpage d in
  match r with
  | Ok sp => generate_image_subpage_to sp dest d
  | _ => fail_image r d dest
  end.

(** driver.rs 459-498 [generate_image_if_ready] *)
Definition generate_image_if_ready (dest : list F) (d : driver) : mi bool :=
  let '(r, d) := status_register_ d in
  match r with
  | Ok status =>
      if new_data status then
        match last_updated_subpage (E := err) status with
        | Ok sp =>
            let '(r2, d) := drv_read_ram sp d in
            match r2 with
            | Ok ram =>
                store_image (calc_temperatures d ram sp dest) d dest (fun d dest =>
                  let '(r3, d) := set_status_register (reset_new_data status) d in
                  (do _ <- r3; Ok true, d, dest))
            | _ => fail_image r2 d dest
            end
        | r1 => fail_image r1 d dest
        end
      else (Ok false, d, dest)
  | _ => fail_image r d dest
  end.

(** driver.rs 512-515: the polling loop; [fuel] bounds the number of reads *)
Fixpoint poll (fuel : nat) (status : Z) (d : driver) : m unit :=
  if new_data status then (Ok tt, d)
  else match fuel with
       | O => (Diverge, d)
       | S fuel' => bindS (status_register_ d) (fun status d => poll fuel' status d)
       end.

(** driver.rs 505-517 [synchronize] *)
Definition synchronize (fuel : nat) (d : driver) : m unit :=
  bindS (status_register_ d) (fun status d =>
    let status := reset_new_data status in
    let status := set_overwrite_enabled status true in
    let status := set_start_measurement status in
    bindS (set_status_register status d) (fun _ d => poll fuel status d)).

(** ** Histories: one constructor per public method taking [self]. *)
Inductive op :=
| OpLastMeasuredSubpage
| OpDataAvailable
| OpResetDataAvailable
| OpOverwriteEnabled
| OpSetOverwriteEnabled (v : bool)
| OpSubpagesEnabled
| OpSetUseSubpages (v : bool)
| OpDataHoldEnabled
| OpSetDataHold (v : bool)
| OpSubpageRepeat
| OpSetSubpageRepeat (v : bool)
| OpSelectedSubpage
| OpSetSubpage (v : subpage)
| OpFrameRate
| OpSetFrameRate (v : frame_rate)
| OpResolution
| OpSetResolution (v : resolution)
| OpAccessPattern
| OpSetAccessPattern (v : access_pattern)
| OpEffectiveEmissivity
| OpOverrideEmissivity (v : F)
| OpUseDefaultEmissivity
| OpReflectedTemperature
| OpSetReflectedTemperature (v : option F)
| OpAmbientTemperature
| OpHeight
| OpWidth
| OpGenerateRawSubpage (sp : subpage) (dest : list F)
| OpGenerateSubpage (sp : subpage) (dest : list F)
| OpGenerateImage (dest : list F)
| OpGenerateIfReady (dest : list F)
| OpSynchronize (fuel : nat).

(** Model plumbing: the values the public methods return (driver.rs 89-518) *)
Inductive out :=
| OutUnit
| OutBool (b : bool)
| OutSubpage (s : subpage)
| OutOptSubpage (s : option subpage)
| OutFrameRate (f : frame_rate)
| OutResolution (r : resolution)
| OutAccessPattern (a : access_pattern)
| OutFloat (f : F)
| OutOptFloat (f : option F)
| OutNat (n : nat).

(** Model plumbing: methods without destination *)
Definition lift {A} (f : A -> out) (r : m A) : mi out :=
  let '(r, d) := r in (do a <- r; Ok (f a), d, []).
(** Model plumbing: methods with a destination *)
Definition lifti {A} (f : A -> out) (r : mi A) : mi out :=
  let '(r, d, dest) := r in (do a <- r; Ok (f a), d, dest).
(** Model plumbing: methods returning `()` *)
Definition U : unit -> out := fun _ => OutUnit.

(** One call.  The third component is the destination slice after the call
    ([[]] for methods without destination). *)
Definition step (d : driver) (o : op) : mi out :=
  match o with
  | OpLastMeasuredSubpage => lift OutSubpage (last_measured_subpage d)
  | OpDataAvailable => lift OutOptSubpage (data_available d)
  | OpResetDataAvailable => lift U (reset_data_available d)
  | OpOverwriteEnabled => lift OutBool (drv_overwrite_enabled d)
  | OpSetOverwriteEnabled v => lift U (drv_set_overwrite_enabled v d)
  | OpSubpagesEnabled => lift OutBool (drv_subpages_enabled d)
  | OpSetUseSubpages v => lift U (drv_set_use_subpages v d)
  | OpDataHoldEnabled => lift OutBool (drv_data_hold_enabled d)
  | OpSetDataHold v => lift U (drv_set_data_hold v d)
  | OpSubpageRepeat => lift OutBool (drv_subpage_repeat d)
  | OpSetSubpageRepeat v => lift U (drv_set_subpage_repeat v d)
  | OpSelectedSubpage => lift OutSubpage (drv_selected_subpage d)
  | OpSetSubpage v => lift U (drv_set_subpage v d)
  | OpFrameRate => lift OutFrameRate (drv_frame_rate d)
  | OpSetFrameRate v => lift U (drv_set_frame_rate v d)
  | OpResolution => lift OutResolution (drv_resolution d)
  | OpSetResolution v => lift U (drv_set_resolution v d)
  | OpAccessPattern => lift OutAccessPattern (drv_access_pattern d)
  | OpSetAccessPattern v => lift U (drv_set_access_pattern v d)
  | OpEffectiveEmissivity => (Ok (OutFloat (effective_emissivity d)), d, [])
  | OpOverrideEmissivity v => (Ok OutUnit, override_emissivity v d, [])
  | OpUseDefaultEmissivity => (Ok OutUnit, use_default_emissivity d, [])
  | OpReflectedTemperature => (Ok (OutOptFloat (reflected_temperature d)), d, [])
  | OpSetReflectedTemperature v => (Ok OutUnit, set_reflected_temperature v d, [])
  | OpAmbientTemperature => (Ok (OutOptFloat (drv_ambient_temperature d)), d, [])
  | OpHeight => (Ok (OutNat (drv_height d)), d, [])
  | OpWidth => (Ok (OutNat (drv_width d)), d, [])
  | OpGenerateRawSubpage sp dest => lifti U (generate_raw_image_subpage_to sp dest d)
  | OpGenerateSubpage sp dest => lifti U (generate_image_subpage_to sp dest d)
  | OpGenerateImage dest => lifti U (generate_image_to dest d)
  | OpGenerateIfReady dest => lifti OutBool (generate_image_if_ready dest d)
  | OpSynchronize fuel => lift U (synchronize fuel d)
  end.

(** The driver after one call. *)
Definition step_state (d : driver) (o : op) : driver := snd (fst (step d o)).
(** What one call returns. *)
Definition step_out (d : driver) (o : op) : res err out := fst (fst (step d o)).
(** A history: calls made one after the other, whatever each one returned. *)
Definition run (d : driver) (ops : list op) : driver := fold_left step_state ops d.
End Driver.
