(** * Register: models mlx9064x/src/register.rs (types and bit manipulation).
    Reading and writing registers over the bus is in Bus.v. *)
From Verif Require Import Base FloatOps.

(** register.rs 536-540 *)
Inductive subpage := Zero | One.
(** register.rs 536-540, the discriminants *)
Definition subpage_num (s : subpage) : Z := match s with Zero => 0 | One => 1 end.
(** [Subpage::try_from_primitive(..)] (num_enum) followed by [unwrap]. *)
Definition subpage_try_from (n : Z) : option subpage :=
  if n =? 0 then Some Zero else if n =? 1 then Some One else None.

(** register.rs 581-605 *)
Inductive frame_rate :=
| FR_Half | FR_One | FR_Two | FR_Four | FR_Eight | FR_Sixteen | FR_ThirtyTwo | FR_SixtyFour.

(** register.rs 609-621 [FrameRate::from_raw] *)
Definition frame_rate_from_raw (raw : Z) : res lib_error frame_rate :=
  if raw =? 0 then Ok FR_Half
  else if raw =? 1 then Ok FR_One
  else if raw =? 2 then Ok FR_Two
  else if raw =? 3 then Ok FR_Four
  else if raw =? 4 then Ok FR_Eight
  else if raw =? 5 then Ok FR_Sixteen
  else if raw =? 6 then Ok FR_ThirtyTwo
  else if raw =? 7 then Ok FR_SixtyFour
  else Err (InvalidData "Invalid frame rate given").

(** register.rs 624-635 [FrameRate::as_raw] *)
Definition frame_rate_as_raw (f : frame_rate) : Z :=
  match f with
  | FR_Half => 0 | FR_One => 1 | FR_Two => 2 | FR_Four => 3
  | FR_Eight => 4 | FR_Sixteen => 5 | FR_ThirtyTwo => 6 | FR_SixtyFour => 7
  end.

(** register.rs 638-642 *)
Definition frame_rate_default : frame_rate := FR_Two.

(** register.rs 644-702, the error message *)
Definition frame_rate_msg : string := "The given number does not match a valid frame rate".

(** register.rs 644-682 [TryFrom<f32>] *)
Definition frame_rate_try_from_f32 {FO : FloatOps} (v : F FO) : res lib_error frame_rate :=
  if feqb v f_half then Ok FR_Half
  else if feqb v (fofZ 1) then Ok FR_One
  else if feqb v (fofZ 2) then Ok FR_Two
  else if feqb v (fofZ 4) then Ok FR_Four
  else if feqb v (fofZ 8) then Ok FR_Eight
  else if feqb v (fofZ 16) then Ok FR_Sixteen
  else if feqb v (fofZ 32) then Ok FR_ThirtyTwo
  else if feqb v (fofZ 64) then Ok FR_SixtyFour
  else Err (InvalidData frame_rate_msg).

(** register.rs 684-702 [TryFrom<u8>] *)
Definition frame_rate_try_from_u8 (v : Z) : res lib_error frame_rate :=
  if v =? 1 then Ok FR_One
  else if v =? 2 then Ok FR_Two
  else if v =? 4 then Ok FR_Four
  else if v =? 8 then Ok FR_Eight
  else if v =? 16 then Ok FR_Sixteen
  else if v =? 32 then Ok FR_ThirtyTwo
  else if v =? 64 then Ok FR_SixtyFour
  else Err (InvalidData frame_rate_msg).

(** register.rs 704-717 [From<FrameRate> for f32] *)
Definition frame_rate_to_f32 {FO : FloatOps} (f : frame_rate) : F FO :=
  match f with
  | FR_Half => f_half
  | FR_One => fofZ 1
  | FR_Two => fofZ 2
  | FR_Four => fofZ 4
  | FR_Eight => fofZ 8
  | FR_Sixteen => fofZ 16
  | FR_ThirtyTwo => fofZ 32
  | FR_SixtyFour => fofZ 64
  end.

(** register.rs 719-725 [From<FrameRate> for Duration], up to the argument of
    [Duration::from_secs_f32] (the number of seconds as f32). *)
Definition frame_rate_period {FO : FloatOps} (f : frame_rate) : F FO :=
  frecip (frame_rate_to_f32 f).

(** register.rs 727-744 *)
Inductive resolution := Res16 | Res17 | Res18 | Res19.

(** register.rs 748-758 *)
Definition resolution_from_raw (raw : Z) : res lib_error resolution :=
  if raw =? 0 then Ok Res16
  else if raw =? 1 then Ok Res17
  else if raw =? 2 then Ok Res18
  else if raw =? 3 then Ok Res19
  else Err (InvalidData "Invalid raw resolution value given").

(** register.rs 761-768 *)
Definition resolution_as_raw (r : resolution) : Z :=
  match r with Res16 => 0 | Res17 => 1 | Res18 => 2 | Res19 => 3 end.

(** register.rs 771-785 [TryFrom<u8>] *)
Definition resolution_try_from_u8 (v : Z) : res lib_error resolution :=
  if v =? 16 then Ok Res16
  else if v =? 17 then Ok Res17
  else if v =? 18 then Ok Res18
  else if v =? 19 then Ok Res19
  else Err (InvalidData "The given value did not match a valid ADC resolution").

(** register.rs 787-796 *)
Definition resolution_to_u8 (r : resolution) : Z :=
  match r with Res16 => 16 | Res17 => 17 | Res18 => 18 | Res19 => 19 end.

(** register.rs 798-802 *)
Definition resolution_default : resolution := Res18.

(** register.rs 823-838; discriminants Chess = 1, Interleave = 0. *)
Inductive access_pattern := Chess | Interleave.
(** register.rs 823-838, the discriminants *)
Definition access_pattern_num (a : access_pattern) : Z :=
  match a with Chess => 1 | Interleave => 0 end.
(** register.rs 822 [TryFromPrimitive] of AccessPattern *)
Definition access_pattern_try_from (n : Z) : option access_pattern :=
  if n =? 1 then Some Chess else if n =? 0 then Some Interleave else None.

(** [Option::unwrap] / [Result::unwrap] *)
Definition unwrap {E A} (o : option A) : res E A :=
  match o with Some a => Ok a | None => Panic end.
(** Language: `Result::unwrap` (register.rs 114, 325, 341, 356, 373) *)
Definition unwrap_res {E E' A} (r : res E' A) : res E A :=
  match r with Ok a => Ok a | Err _ => Panic | Panic => Panic | Diverge => Diverge end.

(** Field access of the 16-bit word of a register: [self.0 & MASK > 0],
    [self.0 |= MASK], [self.0 &= !MASK], [(self.0 & MASK) >> tz],
    [self.0 & !MASK | (v << tz)]. [!MASK] is taken over 16 bits. *)
Definition not16 (m : Z) : Z := Z.lxor 65535 m.
(** register.rs 121, 133, 153, 249: `self.0 & MASK > 0` *)
Definition flag (m w : Z) : bool := 0 <? Z.land w m.
(** register.rs 137-143, 253-259: set or clear the masked bit *)
Definition put_flag (m w : Z) (b : bool) : Z :=
  if b then Z.lor w m else Z.land w (not16 m).
(** register.rs 338-342: `(self.0 & MASK) >> MASK.trailing_zeros()` *)
Definition field (m tz w : Z) : Z := Z.shiftr (Z.land w m) tz.
(** register.rs 344-348: clear the field, or the shifted value in *)
Definition put_field (m tz w v : Z) : Z := Z.lor (Z.land w (not16 m)) (Z.shiftl v tz).

(** ** Status register (register.rs 95-205) *)
Definition status_register := Z.

(** register.rs 101 *)
Definition ST_SUBPAGE_MASK : Z := 0x0001.
(** register.rs 103 *)
Definition ST_NEW_DATA_MASK : Z := 0x0008.
(** register.rs 105 *)
Definition ST_OVERWRITE_ENABLED_MASK : Z := 0x0010.
(** register.rs 107 *)
Definition ST_STEP_MODE_MASK : Z := 0x0020.

(** register.rs 110-115 *)
Definition last_updated_subpage {E} (r : status_register) : res E subpage :=
  unwrap (subpage_try_from (Z.land r ST_SUBPAGE_MASK)).
(** register.rs 120-122 *)
Definition new_data (r : status_register) : bool := flag ST_NEW_DATA_MASK r.
(** register.rs 125-127 *)
Definition reset_new_data (r : status_register) : status_register :=
  Z.land r (not16 ST_NEW_DATA_MASK).
(** register.rs 132-134 *)
Definition overwrite_enabled (r : status_register) : bool := flag ST_OVERWRITE_ENABLED_MASK r.
(** register.rs 137-143 *)
Definition set_overwrite_enabled (r : status_register) (b : bool) : status_register :=
  put_flag ST_OVERWRITE_ENABLED_MASK r b.
(** register.rs 152-154 *)
Definition start_measurement (r : status_register) : bool := flag ST_STEP_MODE_MASK r.
(** register.rs 157-159 *)
Definition set_start_measurement (r : status_register) : status_register :=
  Z.lor r ST_STEP_MODE_MASK.
(** register.rs 162-174 [PartialEq] *)
Definition status_eq (a b : status_register) : bool :=
  let mask := Z.lor (Z.lor (Z.lor ST_SUBPAGE_MASK ST_NEW_DATA_MASK)
                           ST_OVERWRITE_ENABLED_MASK) ST_STEP_MODE_MASK in
  Z.land a mask =? Z.land b mask.
(** register.rs 176-185 *)
Definition status_write_mask : list Z :=
  to_be_bytes (Z.lor (Z.lor ST_NEW_DATA_MASK ST_OVERWRITE_ENABLED_MASK) ST_STEP_MODE_MASK).
(** register.rs 182-184 *)
Definition STATUS_ADDRESS : Z := 0x8000.

(** register.rs 187-199, 408-417 (and 495-): [From<&[u8]>]: [split_at(2)]
    panics on a short slice; extra bytes are ignored. *)
Definition register_from_slice {E} (buf : list Z) : res E Z :=
  match buf with
  | hi :: lo :: _ => Ok (be16 hi lo)
  | _ => Panic
  end.

(** ** Control register (register.rs 207-423) *)
Definition control_register := Z.

(** register.rs 212 *)
Definition CT_USE_SUBPAGES_MASK : Z := 0x0001.
(** register.rs 214 *)
Definition CT_STEP_MODE_MASK : Z := 0x0002.
(** register.rs 216 *)
Definition CT_DATA_HOLD_MASK : Z := 0x0004.
(** register.rs 218 *)
Definition CT_SUBPAGE_REPEAT_MASK : Z := 0x0008.
(** register.rs 221 *)
Definition CT_SUBPAGE_MASK : Z := 0x0010.
(** register.rs 223 *)
Definition CT_FRAME_RATE_MASK : Z := 0x0380.
(** register.rs 225 *)
Definition CT_RESOLUTION_MASK : Z := 0x0C00.
(** register.rs 227 *)
Definition CT_ACCESS_PATTERN_MASK : Z := 0x1000.
(** register.rs 229-241 *)
Definition default_mlx90640 : control_register := 0x1901.
(** register.rs 231, 239-241 *)
Definition default_mlx90641 : control_register := 0x0901.

(** register.rs 248-259 *)
Definition use_subpages (r : control_register) : bool := flag CT_USE_SUBPAGES_MASK r.
(** register.rs 253-259 *)
Definition set_use_subpages (r : control_register) (b : bool) := put_flag CT_USE_SUBPAGES_MASK r b.
(** register.rs 269-282 *)
Definition step_mode (r : control_register) : bool := flag CT_STEP_MODE_MASK r.
(** register.rs 276-282 *)
Definition set_step_mode (r : control_register) (b : bool) := put_flag CT_STEP_MODE_MASK r b.
(** register.rs 288-299 *)
Definition data_hold (r : control_register) : bool := flag CT_DATA_HOLD_MASK r.
(** register.rs 293-299 *)
Definition set_data_hold (r : control_register) (b : bool) := put_flag CT_DATA_HOLD_MASK r b.
(** register.rs 305-316 *)
Definition subpage_repeat (r : control_register) : bool := flag CT_SUBPAGE_REPEAT_MASK r.
(** register.rs 310-316 *)
Definition set_subpage_repeat (r : control_register) (b : bool) := put_flag CT_SUBPAGE_REPEAT_MASK r b.
(** register.rs 322-332; [0x0010.trailing_zeros() = 4] *)
Definition ctl_subpage {E} (r : control_register) : res E subpage :=
  unwrap (subpage_try_from (field CT_SUBPAGE_MASK 4 r)).
(** register.rs 328-332 *)
Definition set_ctl_subpage (r : control_register) (s : subpage) : control_register :=
  put_field CT_SUBPAGE_MASK 4 r (subpage_num s).
(** register.rs 338-348; [0x0380.trailing_zeros() = 7] *)
Definition ctl_frame_rate {E} (r : control_register) : res E frame_rate :=
  unwrap_res (frame_rate_from_raw (field CT_FRAME_RATE_MASK 7 r)).
(** register.rs 344-348 *)
Definition set_ctl_frame_rate (r : control_register) (f : frame_rate) : control_register :=
  put_field CT_FRAME_RATE_MASK 7 r (frame_rate_as_raw f).
(** register.rs 353-363; [0x0C00.trailing_zeros() = 10] *)
Definition ctl_resolution {E} (r : control_register) : res E resolution :=
  unwrap_res (resolution_from_raw (field CT_RESOLUTION_MASK 10 r)).
(** register.rs 359-363 *)
Definition set_ctl_resolution (r : control_register) (x : resolution) : control_register :=
  put_field CT_RESOLUTION_MASK 10 r (resolution_as_raw x).
(** register.rs 369-381; [0x1000.trailing_zeros() = 12] *)
Definition ctl_access_pattern {E} (r : control_register) : res E access_pattern :=
  unwrap (access_pattern_try_from (field CT_ACCESS_PATTERN_MASK 12 r)).
(** register.rs 376-381 *)
Definition set_ctl_access_pattern (r : control_register) (a : access_pattern) : control_register :=
  put_field CT_ACCESS_PATTERN_MASK 12 r (access_pattern_num a).
(** register.rs 384-396 [PartialEq] *)
Definition control_eq (a b : control_register) : bool :=
  let mask := Z.lor (Z.lor (Z.lor (Z.lor (Z.lor (Z.lor (Z.lor CT_USE_SUBPAGES_MASK CT_STEP_MODE_MASK)
                CT_DATA_HOLD_MASK) CT_SUBPAGE_REPEAT_MASK) CT_SUBPAGE_MASK) CT_FRAME_RATE_MASK)
                CT_RESOLUTION_MASK) CT_ACCESS_PATTERN_MASK in
  Z.land a mask =? Z.land b mask.
(** register.rs 398-406 *)
Definition control_write_mask : list Z := [0x1F; 0xFF].
(** register.rs 403-405 *)
Definition CONTROL_ADDRESS : Z := 0x800D.

(** ** I2C configuration register (register.rs 425-532) *)
Record i2c_register := {
  fast_mode_plus : bool;
  i2c_threshold_halved : bool;
  sda_current_limiter : bool
}.
(** register.rs 473-481 *)
Definition i2c_register_default : i2c_register :=
  {| fast_mode_plus := true; i2c_threshold_halved := false; sda_current_limiter := true |}.
(** register.rs 483-493 *)
Definition i2c_write_mask : list Z := [0x00; 0x07].
(** register.rs 490-492 *)
Definition I2C_CONFIG_ADDRESS : Z := 0x800F.
(** register.rs 495-514 *)
Definition i2c_register_from_slice {E} (buf : list Z) : res E i2c_register :=
  do raw <- register_from_slice buf;
  Ok {| fast_mode_plus := negb (is_bit_set raw 0);
        i2c_threshold_halved := is_bit_set raw 1;
        sda_current_limiter := negb (is_bit_set raw 2) |}.
(** register.rs 516-532 *)
Definition i2c_register_to_bytes (r : i2c_register) : list Z :=
  let raw := 0 in
  let raw := if negb (fast_mode_plus r) then Z.lor raw 1 else raw in
  let raw := if i2c_threshold_halved r then Z.lor raw 2 else raw in
  let raw := if negb (sda_current_limiter r) then Z.lor raw 4 else raw in
  to_be_bytes raw.
(** register.rs 435-471: the setters *)
Definition set_fast_mode_plus (r : i2c_register) (b : bool) : i2c_register :=
  {| fast_mode_plus := b; i2c_threshold_halved := i2c_threshold_halved r;
     sda_current_limiter := sda_current_limiter r |}.
(** register.rs 456-458 *)
Definition set_i2c_threshold_halved (r : i2c_register) (b : bool) : i2c_register :=
  {| fast_mode_plus := fast_mode_plus r; i2c_threshold_halved := b;
     sda_current_limiter := sda_current_limiter r |}.
(** register.rs 468-470 *)
Definition set_sda_current_limiter (r : i2c_register) (b : bool) : i2c_register :=
  {| fast_mode_plus := fast_mode_plus r; i2c_threshold_halved := i2c_threshold_halved r;
     sda_current_limiter := b |}.
