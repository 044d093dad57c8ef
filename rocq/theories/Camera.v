(** * Camera: models mlx9064x/src/common.rs and [RamData] (calculations.rs 247-318). *)
From Verif Require Import Base FloatOps Register Bus.

(** common.rs 366-375 [PixelAddressRange] *)
Record range := {
  start_address : Z;
  buffer_offset : nat;
  range_length : nat        (* in bytes *)
}.

(** Items produced by an iterator with transition function [next] in at most
    [fuel] steps, and the state reached. *)
Fixpoint drain {S A} (fuel : nat) (next : S -> option (A * S)) (s : S) : list A * S :=
  match fuel with
  | O => ([], s)
  | S fuel' =>
      match next s with
      | None => ([], s)
      | Some (a, s') => let '(l, s'') := drain fuel' next s' in (a :: l, s'')
      end
  end.

Section Camera.
Context (FO : FloatOps).

(** common.rs 289-362 [MelexisCamera] (a trait with only associated items). *)
Record camera := {
  pixel_ranges : subpage -> access_pattern -> list range;
  pixels_in_subpage : subpage -> access_pattern -> list bool;
  T_A_V_BE : Z;
  T_A_PTAT : Z;
  compensation_pixel_addr : subpage -> Z;
  GAIN : Z;
  V_DD_PIXEL : Z;
  resolution_correction : resolution -> resolution -> F FO;   (* calibrated, current *)
  BASIC_TEMPERATURE_RANGE : nat;
  SELF_HEATING : F FO;
  HEIGHT : nat;
  WIDTH : nat;
  NUM_PIXELS : nat
}.

(** common.rs 69-238 [CalibrationData].  The per-pixel iterators are finite
    lists; [subpage]-indexed accessors are functions. *)
Record calib := {
  cam : camera;
  k_v_dd : Z;
  v_dd_25 : Z;
  cal_resolution : resolution;
  v_dd_0 : F FO;
  k_v_ptat : F FO;
  k_t_ptat : F FO;
  v_ptat_25 : F FO;
  alpha_ptat : F FO;
  cal_gain : F FO;
  k_s_ta : F FO;
  corner_temperatures : list Z;
  k_s_to : list (F FO);
  alpha_correction : list (F FO);
  cal_emissivity : option (F FO);
  offset_reference_pixels : subpage -> list Z;
  offset_reference_cp : subpage -> Z;
  alpha_pixels : subpage -> list (F FO);
  alpha_cp : subpage -> F FO;
  k_v_pixels : subpage -> list (F FO);
  k_v_cp : subpage -> F FO;
  k_ta_pixels : subpage -> list (F FO);
  k_ta_cp : subpage -> F FO;
  temperature_gradient_coefficient : option (F FO);
  access_pattern_compensation_pixels : access_pattern -> list (option (F FO));
  access_pattern_compensation_cp : subpage -> access_pattern -> option (F FO);
  failed_pixels : list bool;
  outlier_pixels : list bool
}.

(** common.rs 400-412 [alpha_corr_n].  [fuel] bounds the recursion depth. *)
Fixpoint alpha_corr_n (fuel : nat) (p : profile) (n basic_range : nat) (ct : list Z)
    (kst : list (F FO)) : res lib_error (F FO) :=
  match fuel with
  | O => Diverge
  | S fuel' =>
      match Nat.compare n basic_range with
      | Eq => Ok (fofZ 1)
      | Lt =>
          do k <- unwrap (nth_error kst n);
          do c1 <- unwrap (nth_error ct (n + 1));
          do c0 <- unwrap (nth_error ct n);
          do d <- chk_i16 p (c1 - c0);
          do r <- alpha_corr_n fuel' p (n + 1) basic_range ct kst;
          Ok (fmul (frecip (fadd (fofZ 1) (fmul k (fofZ d)))) r)
      | Gt =>
          do k <- unwrap (nth_error kst (n - 1));
          do c1 <- unwrap (nth_error ct n);
          do c0 <- unwrap (nth_error ct (n - 1));
          do d <- chk_i16 p (c1 - c0);
          do r <- alpha_corr_n fuel' p (n - 1) basic_range ct kst;
          Ok (fmul (fadd (fofZ 1) (fmul k (fofZ d))) r)
      end
  end.

(** Evaluate a list of fallible computations left to right, stopping at the
    first that is not [Ok]. *)
Fixpoint sequence {E A} (l : list (res E A)) : res E (list A) :=
  match l with
  | [] => Ok []
  | m :: r => do a <- m; do t <- sequence r; Ok (a :: t)
  end.

(** common.rs 381-396 [alpha_correction_coefficients::<NUM_RANGES>].  The
    ArrayVec is filled by exactly NUM_RANGES items, so [into_inner] cannot fail. *)
Definition alpha_correction_coefficients (p : profile) (num_ranges basic_range : nat)
    (ct : list Z) (kst : list (F FO)) : res lib_error (list (F FO)) :=
  sequence (map (fun n => alpha_corr_n (S (num_ranges + basic_range)) p n basic_range ct kst)
                (seq 0 num_ranges)).
End Camera.

(** calculations.rs 247-268 [RamData] *)
Record ram_data := {
  t_a_v_be : Z;
  t_a_ptat : Z;
  v_dd_pixel : Z;
  ram_gain : Z;
  compensation_pixel : Z
}.

(** Replace [length new] bytes of [buf] starting at [off]: a write through
    [&mut buf[off..off + new.len()]] (only used when in range). *)
Definition splice (buf : list Z) (off : nat) (new : list Z) : list Z :=
  firstn off buf ++ new ++ skipn (off + length new) buf.

Section ReadRam.
Context {FO : FloatOps} {B ER EW : Type} (bs : bus B ER EW).
Notation W := (world B ER EW).

(** calculations.rs 276-288 [read_ram_value] *)
Definition read_ram_value (i2c ram_address : Z) (w : W) : res ER Z * W :=
  let '(data, e, w') := write_read bs i2c (to_be_bytes ram_address) [0; 0] w in
  match e with
  | Some e => (Err e, w')
  | None => (match data with
             | [hi; lo] => Ok (i16_of_u16 (be16 hi lo))
             | _ => Panic  (* scratch is always two bytes *)
             end, w')
  end.

(** Sequencing with state. *)
Definition bindS {S E A A'} (m : res E A * S) (k : A -> S -> res E A' * S) : res E A' * S :=
  let '(r, s) := m in
  match r with
  | Ok a => k a s
  | Err e => (Err e, s)
  | Panic => (Panic, s)
  | Diverge => (Diverge, s)
  end.

(** calculations.rs 295-317 [RamData::from_i2c] *)
Definition ram_data_from_i2c (c : camera FO) (i2c : Z) (sp : subpage) (w : W)
    : res ER ram_data * W :=
  bindS (read_ram_value i2c (T_A_V_BE _ c) w) (fun vbe w =>
  bindS (read_ram_value i2c (T_A_PTAT _ c) w) (fun ptat w =>
  bindS (read_ram_value i2c (V_DD_PIXEL _ c) w) (fun vdd w =>
  bindS (read_ram_value i2c (GAIN _ c) w) (fun g w =>
  bindS (read_ram_value i2c (compensation_pixel_addr _ c sp) w) (fun cp w =>
  (Ok {| t_a_v_be := vbe; t_a_ptat := ptat; v_dd_pixel := vdd; ram_gain := g;
         compensation_pixel := cp |}, w)))))).

(** common.rs 431-440: the loop over the ranges; state is the pixel buffer and
    the bus.  Slicing [buf[offset..offset+length]] panics when out of range. *)
Fixpoint read_ranges (i2c : Z) (rs : list range) (buf : list Z) (w : W)
    : res ER unit * list Z * W :=
  match rs with
  | [] => (Ok tt, buf, w)
  | r :: rest =>
      let off := buffer_offset r in
      let len := range_length r in
      if Nat.ltb (length buf) (off + len) then (Panic, buf, w)
      else
        let '(data, e, w') :=
          write_read bs i2c (to_be_bytes (start_address r)) (firstn len (skipn off buf)) w in
        let buf' := splice buf off data in
        match e with
        | Some e => (Err e, buf', w')
        | None => read_ranges i2c rest buf' w'
        end
  end.

(** common.rs 415-443 [read_ram].  [height] is the const parameter HEIGHT, the
    capacity of the ArrayVec: collecting more items than that panics. *)
Definition read_ram (c : camera FO) (height : nat) (i2c : Z) (ap : access_pattern) (sp : subpage)
    (buf : list Z) (w : W) : res (error ER EW) ram_data * list Z * W :=
  let rs := pixel_ranges _ c sp ap in
  if Nat.ltb height (length rs) then (Panic, buf, w)
  else
    let '(r, buf', w') := read_ranges i2c rs buf w in
    match r with
    | Ok _ => let '(r2, w'') := ram_data_from_i2c c i2c sp w' in
              (map_err I2cWriteReadError r2, buf', w'')
    | Err e => (Err (I2cWriteReadError e), buf', w')
    | Panic => (Panic, buf', w')
    | Diverge => (Diverge, buf', w')
    end.
End ReadRam.
