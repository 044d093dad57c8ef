(** * Ee641: models mlx9064x/src/mlx90641/eeprom.rs (and the EEPROM addresses of
    mlx90641/address.rs). *)
From Verif Require Import Base FloatOps Register Bus Camera Cam641 Hamming.

(** mlx90641/address.rs 13-101, those used *)
Definition EE641_Base : Z := 0x2400.
(** address.rs 20 *)
Definition EE641_OffsetCompensationScale : Z := 0x2410.
(** address.rs 37 *)
Definition EE641_KsTa : Z := 0x2422.
(** address.rs 91 *)
Definition EE641_PixelOffsetSubpage0Start : Z := 0x2440.
(** address.rs 93 *)
Definition EE641_PixelSensitivityStart : Z := 0x2500.
(** address.rs 95 *)
Definition EE641_PixelConstantsStart : Z := 0x25C0.
(** address.rs 97 *)
Definition EE641_PixelOffsetSubpage1Start : Z := 0x2680.
(** address.rs 100 *)
Definition EE641_End : Z := 0x273F.
(** util.rs 62-72 [offset_from_base], times WORD_SIZE *)
Definition byte_offset (a : Z) : nat := Z.to_nat ((a - EE641_Base) * 2).

(** eeprom.rs 545-547 *)
Definition i16_from_i11 (bytes : list Z) : res lib_error Z := i16_from_bits bytes 11.

(** eeprom.rs 508-511 [get_hamming_u16] *)
Definition get_hamming_u16 : parser Z :=
  get codeword <- get_u16;
  plift (validate_checksum codeword).

(** eeprom.rs 514-517 [get_hamming_i16] *)
Definition get_hamming_i16 : parser Z :=
  get w <- get_hamming_u16;
  plift (i16_from_i11 (to_be_bytes w)).

(** eeprom.rs 524-530 [get_combined_word]: [upper << 5] drops the bits shifted
    out of the u16 (none: upper is at most 0x7FF). *)
Definition get_combined_word : parser (list Z) :=
  get upper <- get_hamming_u16;
  get lower <- get_hamming_u16;
  let combined := Z.lor (Z.land (Z.shiftl upper 5) 65535) lower in
  pret (to_be_bytes combined).

(** eeprom.rs 533-537 [split_6_5] *)
Definition split_6_5 (w : Z) : Z * Z :=
  (Z.shiftr (Z.land w 0x07E0) 5, Z.land w 0x001F).

(** eeprom.rs 540-543 [get_6_5_split] *)
Definition get_6_5_split : parser (Z * Z) :=
  get w <- get_hamming_u16;
  pret (split_6_5 w).

(** A slice [&data[a..b]]; panics when out of range. *)
Definition slice_of (data : list Z) (a b : nat) : res lib_error (list Z) :=
  if Nat.ltb (length data) b then Panic
  else if Nat.ltb b a then Panic
  else Ok (firstn (b - a) (skipn a data)).

Section Ee641.
Context (FO : FloatOps) (p : profile).
Notation F := (F FO).

(** eeprom.rs 148-156 [get_scaled_cp_constant] *)
Definition get_scaled_cp_constant : parser F :=
  get w <- get_hamming_u16;
  let raw_scale := Z.shiftr (Z.land w 0x07C0) 6 in
  get value_unscaled <- plift (i16_from_bits (to_be_bytes (Z.land w 0x003F)) 6);
  pret (fdiv (fofZ value_unscaled) (fexp2 (fofZ raw_scale))).

(** eeprom.rs 163-172 [get_resolution_with_tgc] *)
Definition get_resolution_with_tgc : parser (resolution * F) :=
  get w <- get_hamming_u16;
  let resolution_raw := Z.shiftr (Z.land w 0x0600) 9 in
  get resolution_v <- plift (resolution_from_raw resolution_raw);
  get tgc_unscaled <- plift (i16_from_bits (to_be_bytes (Z.land w 0x01FF)) 9);
  pret (resolution_v, fdiv (fofZ tgc_unscaled) (fofZ 64)).

(** eeprom.rs 190-195: the first five [k_s_to] *)
Fixpoint get_k_s_to (n : nat) (scale : F) : parser (list F) :=
  match n with
  | O => pret []
  | S n' =>
      get unscaled <- get_hamming_i16;
      get t <- get_k_s_to n' scale;
      pret (fdiv (fofZ unscaled) scale :: t)
  end.

(** eeprom.rs 196-204: pairs of corner temperature and [k_s_to].  The u16 to i16
    cast of an 11-bit value keeps it. *)
Fixpoint get_ct_k_s_to (n : nat) (scale : F) : parser (list (Z * F)) :=
  match n with
  | O => pret []
  | S n' =>
      get ct <- get_hamming_u16;
      get unscaled <- get_hamming_i16;
      get t <- get_ct_k_s_to n' scale;
      pret ((i16_of_u16 ct, fdiv (fofZ unscaled) scale) :: t)
  end.

(** eeprom.rs 175-206 [get_temperature_range_data] *)
Definition get_temperature_range_data641 : parser (list Z * list F) :=
  get raw <- get_hamming_u16;
  let scale := fexp2 (fofZ raw) in
  get k5 <- get_k_s_to 5 scale;
  get pairs <- get_ct_k_s_to 3 scale;
  pret ([-40; -20; 0; 80; 120] ++ map fst pairs, k5 ++ map snd pairs).

(** eeprom.rs 485-504 [get_sensitivity_reference]: three words of two scales,
    then six row maxima; each value repeated for 32 pixels. *)
Fixpoint get_scales (n : nat) : parser (list Z) :=
  match n with
  | O => pret []
  | S n' =>
      get (first_scale, second_scale) <- get_6_5_split;
      get t <- get_scales n';
      pret (first_scale + 20 :: second_scale + 20 :: t)
  end.
(** eeprom.rs 494-498 *)
Fixpoint get_row_max (scales : list Z) : parser (list F) :=
  match scales with
  | [] => pret []
  | s :: rest =>
      get row_max <- get_hamming_u16;
      get t <- get_row_max rest;
      pret (fdiv (fofZ row_max) (fexp2 (fofZ s)) :: t)
  end.
(** eeprom.rs 485-504 *)
Definition get_sensitivity_reference : parser (list F) :=
  get scales <- get_scales 3;
  get a_reference <- get_row_max scales;
  pret (flat_map (fun v => repeat v (WIDTH641 * 2)) a_reference).

(** eeprom.rs 362-365 [scale_fn] *)
Definition scale_fn (raw_value avg : Z) (scale1 scale2 : F) : F :=
  fdiv (fadd (fmul (fofZ raw_value) scale2) (fofZ avg)) scale1.

(** eeprom.rs 386-400: the mapping closure on the four words of one pixel, given
    as pairs of bytes: (offset 0, offset 1, alpha, k_ta, k_v).
    [i16_from_bits(from_ref(&x), n) as i8]: the value fits in an i8. *)
Definition pixel_raw (o0 o1 s c : Z * Z) : res lib_error (Z * Z * Z * Z * Z) :=
  do (offset_0_raw, _) <- get_hamming_i16 [fst o0; snd o0];
  do (offset_1_raw, _) <- get_hamming_i16 [fst o1; snd o1];
  do (raw_alpha, _) <- get_hamming_u16 [fst s; snd s];
  do ((k_ta_u, k_v_u), _) <- get_6_5_split [fst c; snd c];
  do k_ta_raw <- i16_from_bits [k_ta_u] 6;
  do k_v_raw <- i16_from_bits [k_v_u] 5;
  Ok (offset_0_raw, offset_1_raw, raw_alpha, k_ta_raw, k_v_raw).

(** eeprom.rs 401-411: what the loop pushes for one pixel *)
Record pixel641 := {
  q_offset0 : Z;
  q_offset1 : Z;
  q_alpha : F;
  q_k_ta : F;
  q_k_v : F;
  q_failed : bool
}.

(** eeprom.rs 412-447: loop body *)
Definition pixel641_step (offset_scale offset_average k_ta_average k_v_average : Z)
    (kts1 kts2 kvs1 kvs2 : F) (raw : Z * Z * Z * Z * Z) (alpha_reference : F)
    : res lib_error pixel641 :=
  let '(offset_0_raw, offset_1_raw, alpha_raw, k_ta_raw, k_v_raw) := raw in
  if (offset_0_raw =? 0) && (offset_1_raw =? 0) && (alpha_raw =? 0) && (k_ta_raw =? 0)
     && (k_v_raw =? 0) then
    Ok {| q_offset0 := 0; q_offset1 := 0; q_alpha := fofZ 0; q_k_ta := fofZ 0; q_k_v := fofZ 0;
          q_failed := true |}
  else
    do offset_delta_0 <- chk_i16 p (offset_0_raw * offset_scale);
    do offset_delta_1 <- chk_i16 p (offset_1_raw * offset_scale);
    do off0 <- chk_i16 p (offset_average + offset_delta_0);
    do off1 <- chk_i16 p (offset_average + offset_delta_1);
    Ok {| q_offset0 := off0; q_offset1 := off1;
          q_alpha := fmul (fdiv (fofZ alpha_raw) (fofZ 2047)) alpha_reference;
          q_k_ta := scale_fn k_ta_raw k_ta_average kts1 kts2;
          q_k_v := scale_fn k_v_raw k_v_average kvs1 kvs2;
          q_failed := false |}.

(** eeprom.rs 340-467 [PerPixelCalibration::from_data].  The failed
    flags of pixels never visited (short dump) do not matter: the function then
    fails in [into_inner]. *)
Definition per_pixel_from_data (data : list Z) : res lib_error (list pixel641) :=
  do (hdr, _) <-
    (get _ <- advance (byte_offset EE641_OffsetCompensationScale);
     get (offset_scale_exp, _) <- get_6_5_split;
     (* 2i16.pow(offset_scale): the final product overflows exactly when 2^n does *)
     get offset_scale <- plift (chk_i16 p (2 ^ offset_scale_exp));
     get offset_average_bytes <- get_combined_word;
     get offset_average <- plift (i16_from_i11 offset_average_bytes);
     get _ <- advance (WORD_SIZE * 2);
     get k_ta_average <- get_hamming_i16;
     get (kt1, kt2) <- get_6_5_split;
     get k_v_average <- get_hamming_i16;
     get (kv1, kv2) <- get_6_5_split;
     get alpha_reference <- get_sensitivity_reference;
     pret (offset_scale, offset_average, k_ta_average, k_v_average, kt1, kt2, kv1, kv2,
           alpha_reference)) data;
  let '(offset_scale, offset_average, k_ta_average, k_v_average, kt1, kt2, kv1, kv2,
        alpha_reference) := hdr in
  let kts1 := fexp2 (fofZ kt1) in
  let kts2 := fexp2 (fofZ kt2) in
  let kvs1 := fexp2 (fofZ kv1) in
  let kvs2 := fexp2 (fofZ kv2) in
  do offsets_0 <- slice_of data (byte_offset EE641_PixelOffsetSubpage0Start)
                                (byte_offset EE641_PixelSensitivityStart);
  do sensitivities <- slice_of data (byte_offset EE641_PixelSensitivityStart)
                                    (byte_offset EE641_PixelConstantsStart);
  do constants <- slice_of data (byte_offset EE641_PixelConstantsStart)
                                (byte_offset EE641_PixelOffsetSubpage1Start);
  do offsets_1 <- slice_of data (byte_offset EE641_PixelOffsetSubpage1Start) (length data);
  let items := zip (zip (zip (zip (chunks2 offsets_0) (chunks2 offsets_1))
                             (chunks2 sensitivities)) (chunks2 constants)) alpha_reference in
  do pixels <- sequence (map (fun '((((o0, o1), s), c), ar) =>
                 do raw <- pixel_raw o0 o1 s c;
                 pixel641_step offset_scale offset_average k_ta_average k_v_average
                   kts1 kts2 kvs1 kvs2 raw ar)
               (firstn NUM_PIXELS641 items));
  if Nat.eqb (length pixels) NUM_PIXELS641 then Ok pixels
  else Err (OtherError "the ArrayVec should be filled with EEPROM data").

(** eeprom.rs 85-142 [Mlx90641Calibration::from_data] and the trait accessors
    (eeprom.rs 228-324). *)
Definition from_data641 (data : list Z) : res lib_error (calib FO) :=
  do (mk, _) <-
    (get _ <- advance (byte_offset EE641_KsTa);
     get k_s_ta_raw <- get_hamming_i16;
     let k_s_ta_v := fdiv (fofZ k_s_ta_raw) (fexp2 (fofZ 15)) in
     get emissivity_raw <- get_hamming_i16;
     let emissivity_v := fdiv (fofZ emissivity_raw) (fexp2 (fofZ 9)) in
     get gain_bytes <- get_combined_word;
     get gain_v <- plift (register_from_slice gain_bytes);          (* u16::from_be_bytes *)
     get v_dd_25_raw <- get_hamming_i16;
     let v_dd_25_v := shl16 v_dd_25_raw 5 in
     get k_v_dd_raw <- get_hamming_i16;
     let k_v_dd_v := shl16 k_v_dd_raw 5 in
     get v_ptat_25_bytes <- get_combined_word;
     get v_ptat_25_v <- plift (register_from_slice v_ptat_25_bytes);
     get k_t_ptat_raw <- get_hamming_i16;
     let k_t_ptat_v := fdiv (fofZ k_t_ptat_raw) (fofZ 8) in
     get k_v_ptat_raw <- get_hamming_i16;
     let k_v_ptat_v := fdiv (fofZ k_v_ptat_raw) (fofZ 4096) in
     get alpha_ptat_raw <- get_hamming_u16;
     let alpha_ptat_v := fdiv (fofZ alpha_ptat_raw) (fofZ 128) in
     get alpha_cp_raw <- get_hamming_u16;
     get alpha_cp_scale <- get_hamming_u16;
     let alpha_cp_v := fdiv (fofZ alpha_cp_raw) (fexp2 (fofZ alpha_cp_scale)) in
     get offset_cp_bytes <- get_combined_word;
     get offset_cp_u <- plift (register_from_slice offset_cp_bytes);
     let offset_cp_v := i16_of_u16 offset_cp_u in                    (* i16::from_be_bytes *)
     get k_ta_cp_v <- get_scaled_cp_constant;
     get k_v_cp_v <- get_scaled_cp_constant;
     get (resolution_v, tgc) <- get_resolution_with_tgc;
     get (corner_temps, k_s_to_v) <- get_temperature_range_data641;
     get alpha_corr <- plift (alpha_correction_coefficients FO p 8
                                (BASIC_TEMPERATURE_RANGE _ (Mlx90641 FO)) corner_temps k_s_to_v);
     pret (fun pixels : list pixel641 => {|
       cam := Mlx90641 FO;
       k_v_dd := k_v_dd_v;
       v_dd_25 := v_dd_25_v;
       cal_resolution := resolution_v;
       v_dd_0 := f_3_3;
       k_v_ptat := k_v_ptat_v;
       k_t_ptat := k_t_ptat_v;
       v_ptat_25 := fofZ v_ptat_25_v;
       alpha_ptat := alpha_ptat_v;
       cal_gain := fofZ gain_v;
       k_s_ta := k_s_ta_v;
       corner_temperatures := corner_temps;
       k_s_to := k_s_to_v;
       alpha_correction := alpha_corr;
       cal_emissivity := Some emissivity_v;
       offset_reference_pixels := fun sp =>
         match sp with Zero => map q_offset0 pixels | One => map q_offset1 pixels end;
       offset_reference_cp := fun _ => offset_cp_v;
       alpha_pixels := fun _ => map q_alpha pixels;
       alpha_cp := fun _ => alpha_cp_v;
       k_v_pixels := fun _ => map q_k_v pixels;
       k_v_cp := fun _ => k_v_cp_v;
       k_ta_pixels := fun _ => map q_k_ta pixels;
       k_ta_cp := fun _ => k_ta_cp_v;
       temperature_gradient_coefficient := Some tgc;
       access_pattern_compensation_pixels := fun _ => repeat None NUM_PIXELS641;
       access_pattern_compensation_cp := fun _ _ => None;
       failed_pixels := map q_failed pixels;
       outlier_pixels := map q_failed pixels
     |})) data;
  do pixels <- per_pixel_from_data data;
  Ok (mk pixels).
End Ee641.

(** eeprom.rs 209-226 [from_i2c] *)
Definition calib641_from_i2c (FO : FloatOps) (p : profile) {B ER EW} (bs : bus B ER EW)
    (i2c : Z) (w : world B ER EW) : res (error ER EW) (calib FO) * world B ER EW :=
  let len := Z.to_nat ((EE641_End - EE641_Base + 1) * 2) in
  let '(data, e, w') := write_read bs i2c (to_be_bytes EE641_Base) (repeat 0 len) w in
  match e with
  | Some e => (Err (I2cWriteReadError e), w')
  | None => (map_err LibraryError (from_data641 FO p data), w')
  end.
