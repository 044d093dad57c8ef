(** * Demo: small concrete objects used in the examples beside the theorems. *)
From Verif Require Import Base FloatOps Register Bus Camera Cam640 Cam641 Calc Driver SpecCamera.

(** "Floats" that are integers: enough to run the model. *)
Definition ZFO : FloatOps := {|
  F := Z; fadd := Z.add; fsub := Z.sub; fmul := Z.mul; fdiv := Z.div; fneg := Z.opp; feqb := Z.eqb;
  fofZ := fun z => z; fexp2 := fun z => 2 ^ z; fpowi := Z.pow; fpowf := fun x _ => x;
  f_half := 0; f_quarter := 0; f_3_3 := 3; f_273_15 := 273 |}.

Definition demo_calib_v (v25 : Z) (c : camera ZFO) (n : nat) : calib ZFO := {|
  cam := c; k_v_dd := -3200; v_dd_25 := v25; cal_resolution := Res18; v_dd_0 := 3;
  k_v_ptat := 0; k_t_ptat := 42; v_ptat_25 := 12273; alpha_ptat := 9; cal_gain := 6383; k_s_ta := 0;
  corner_temperatures := [-40; 0; 160; 320]; k_s_to := [0; 0; 0; 0]; alpha_correction := [1; 1; 1; 1];
  cal_emissivity := None; offset_reference_pixels := fun _ => repeat (-50) n; offset_reference_cp := fun _ => -75;
  alpha_pixels := fun _ => repeat 1 n; alpha_cp := fun _ => 0; k_v_pixels := fun _ => repeat 0 n;
  k_v_cp := fun _ => 0; k_ta_pixels := fun _ => repeat 0 n; k_ta_cp := fun _ => 0;
  temperature_gradient_coefficient := None;
  access_pattern_compensation_pixels := fun _ => repeat None n;
  access_pattern_compensation_cp := fun _ _ => None;
  failed_pixels := repeat false n; outlier_pixels := repeat false n |}.
Definition demo_calib : camera ZFO -> nat -> calib ZFO := demo_calib_v (-12544).
Definition demo640 : calib ZFO := demo_calib (Mlx90640 ZFO) 768.
Definition demo641 : calib ZFO := demo_calib (Mlx90641 ZFO) 192.

(** A camera: a clock counting its transactions, the status word, the control
    word, the number of frames completed, and a schedule saying at which clock
    values a new frame completes.  All of RAM shows the number of the newest
    frame; gain and supply voltage are fixed. *)
Record toy := { toy_clock : nat; toy_status : Z; toy_control : Z; toy_frames : Z }.
Definition toy_tick (schedule : nat -> bool) (t : toy) : toy :=
  let n := S (toy_clock t) in
  if schedule n then
    {| toy_clock := n; toy_status := Z.lor (toy_status t) 8; toy_control := toy_control t; toy_frames := toy_frames t + 1 |}
  else {| toy_clock := n; toy_status := toy_status t; toy_control := toy_control t; toy_frames := toy_frames t |}.
Definition toy_mem (t : toy) (a : Z) : Z :=
  if a =? 0x8000 then toy_status t
  else if a =? 0x800D then toy_control t mod 65536
  else if (a =? 0x070A) || (a =? 0x058A) then 6273
  else if (a =? 0x072A) || (a =? 0x05AA) then 52421
  else toy_frames t.
(** [fails n]: the transaction made at clock [n] fails. *)
Definition toy_bus (schedule fails : nat -> bool) : bus toy string string := {|
  dev_write_read := fun t _ wb buf =>
    (toy_tick schedule t, mem_bytes (toy_mem t) (256 * nth 0 wb 0 + nth 1 wb 0) (length buf),
     if fails (toy_clock t) then Some "nack"%string else None);
  dev_write := fun t _ bytes =>
    if fails (toy_clock t) then (toy_tick schedule t, Some "nack"%string)
    else
      let v := 256 * nth 2 bytes 0 + nth 3 bytes 0 in
      let reg := 256 * nth 0 bytes 0 + nth 1 bytes 0 in
      let t' := if (nth 0 bytes 0 =? 0x80) && (nth 1 bytes 0 =? 0x0D)
                then {| toy_clock := toy_clock t; toy_status := toy_status t; toy_control := v; toy_frames := toy_frames t |}
                else if reg =? 0x8000
                then {| toy_clock := toy_clock t; toy_status := v; toy_control := toy_control t; toy_frames := toy_frames t |}
                else t in
      (toy_tick schedule t', None)
|}.
Definition never : nat -> bool := fun _ => false.
Definition at_clock (n : nat) : nat -> bool := Nat.eqb n.
Definition toy0 (status control : Z) : world toy string string :=
  Build_world {| toy_clock := 0; toy_status := status; toy_control := control; toy_frames := 1 |} [].

(** A driver for a toy camera that was constructed successfully. *)
Definition demo_driver (height num_bytes : nat) (c : calib ZFO) (status control : Z)
    : option (driver (FO := ZFO) (B := toy) (ER := string) (EW := string)) :=
  match new_with_calibration (toy_bus never never) height num_bytes (toy0 status control) 0x33 c with
  | (Ok d, _) => Some d
  | _ => None
  end.
