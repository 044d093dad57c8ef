(** * Ee640: models mlx9064x/src/mlx90640/eeprom.rs (and the EEPROM addresses of
    mlx90640/address.rs). *)
From Verif Require Import Base FloatOps Register Bus Camera Cam640.

(** mlx90640/address.rs 16-101 *)
Definition EE640_Base : Z := 0x2400.
(** address.rs 100 *)
Definition EE640_End : Z := 0x273F.

(** ** Bit-field helpers *)

(** eeprom.rs 666-674 [word_6_10_split]: (i8, [u8; 2]) *)
Definition word_6_10_split : parser (Z * list Z) :=
  get w0 <- get_u8;
  get w1 <- get_u8;
  let six_bit := sar (i8_of_u8 w0) 2 in
  pret (six_bit, [Z.land w0 0x03; w1]).

(** eeprom.rs 677-681 [word_to_u4s] *)
Definition word_to_u4s : parser (Z * Z * Z * Z) :=
  get high <- get_u8;
  get low <- get_u8;
  pret (Z.shiftr (Z.land high 0xF0) 4, Z.land high 0xF,
        Z.shiftr (Z.land low 0xF0) 4, Z.land low 0xF).

(** eeprom.rs 684-694 [u8_to_i4s] *)
Definition u8_to_i4s (b : Z) : Z * Z :=
  let high := Z.land b 0xF0 in
  let low := Z.land (Z.shiftl (Z.land b 0xF) 4) 0xFF in
  (sar (i8_of_u8 high) 4, sar (i8_of_u8 low) 4).

(** eeprom.rs 697-703 [word_to_i4s] *)
Definition word_to_i4s : parser (Z * Z * Z * Z) :=
  get high <- get_u8;
  get low <- get_u8;
  let '(h0, h1) := u8_to_i4s high in
  let '(l0, l1) := u8_to_i4s low in
  pret (h0, h1, l0, l1).

(** [n] items of [l.iter().cycle().take(n)] *)
Definition cycle_take {A} (n : nat) (d : A) (l : list A) : list A :=
  map (fun i => nth (Nat.modulo i (length l)) l d) (seq 0 n).

Section Ee640.
Context (FO : FloatOps) (p : profile).
Notation F := (F FO).

(** eeprom.rs 102-121: add the (reversed, scaled) row coefficients of one word
    to each block of four rows.  The array of 768 pixels is viewed as its rows. *)
Fixpoint add_row_offsets (row_scale : Z) (rows : list (list Z)) : parser (list (list Z)) :=
  match rows with
  | r0 :: r1 :: r2 :: r3 :: rest =>
      get (c0, c1, c2, c3) <- word_to_i4s;
      let coefficients := rev (map (fun c => shl16 c row_scale) [c0; c1; c2; c3]) in
      get new <- plift (sequence (map (fun '(row, c) =>
                   sequence (map (fun e => chk_i16 p (e + c)) row))
                   (zip [r0; r1; r2; r3] coefficients)));
      get rest' <- add_row_offsets row_scale rest;
      pret (new ++ rest')
  | _ => pret rows
  end.

(** eeprom.rs 134-141, body for one row *)
Definition add_columns_to_row (start : nat) (coefficients : list Z) (row : list Z)
    : res lib_error (list Z) :=
  do mid <- sequence (map (fun '(e, c) => chk_i16 p (e + c))
                          (zip (firstn 4 (skipn start row)) coefficients));
  Ok (firstn start row ++ mid ++ skipn (start + 4) row).

(** eeprom.rs 123-142: [n] remaining column words, the next one has index [ix] *)
Fixpoint add_column_offsets (n ix : nat) (column_scale : Z) (rows : list (list Z))
    : parser (list (list Z)) :=
  match n with
  | O => pret rows
  | S n' =>
      get (c0, c1, c2, c3) <- word_to_i4s;
      let coefficients := rev (map (fun c => shl16 c column_scale) [c0; c1; c2; c3]) in
      get rows' <- plift (sequence (map (add_columns_to_row (ix * 4) coefficients) rows));
      add_column_offsets n' (S ix) column_scale rows'
  end.

(** eeprom.rs 92-144 [calculate_bulk_pixel_calibration]:
    (pixel array, remainder scale, extra value) *)
Definition calculate_bulk_pixel_calibration : parser (list Z * Z * Z) :=
  get (extra_value, row_scale, column_scale, remainder_scale) <- word_to_u4s;
  get offset_average <- get_i16;
  get rows <- add_row_offsets row_scale (repeat (repeat offset_average WIDTH640) HEIGHT640);
  get rows <- add_column_offsets (WIDTH640 / 4) 0 column_scale rows;
  pret (concat rows, remainder_scale, extra_value).

(** eeprom.rs 159-176 [repeat_chessboard] *)
Definition repeat_chessboard (src : Z * Z * Z * Z) : list Z :=
  let '(row_even_col_even, row_odd_col_even, row_even_col_odd, row_odd_col_odd) := src in
  let even_row := cycle_take WIDTH640 0 [row_even_col_even; row_even_col_odd] in
  let odd_row := cycle_take WIDTH640 0 [row_odd_col_even; row_odd_col_odd] in
  cycle_take NUM_PIXELS640 0 (even_row ++ odd_row).

(** eeprom.rs 186-190 [generate_k_ta_pixels] *)
Definition generate_k_ta_pixels : parser (list Z) :=
  get a <- get_i8;
  get b <- get_i8;
  get c <- get_i8;
  get d <- get_i8;
  pret (repeat_chessboard (a, b, c, d)).

(** eeprom.rs 197-214 [get_access_pattern_corrections]; the array of six
    values is a list. *)
Definition get_access_pattern_corrections : parser (F * list F) :=
  get w <- get_u16;
  get chess_1_raw <- plift (i16_from_bits (to_be_bytes (Z.land w 0x003F)) 6);
  get chess_2_raw <- plift (i16_from_bits (to_be_bytes (Z.shiftr (Z.land w 0x07C0) 6)) 5);
  get chess_3_raw <- plift (i16_from_bits (to_be_bytes (Z.shiftr (Z.land w 0xF800) 11)) 5);
  let chess_1 := fdiv (fofZ chess_1_raw) (fofZ 16) in
  let chess_2 := fdiv (fofZ chess_2_raw) (fofZ 2) in
  let chess_3 := fdiv (fofZ chess_3_raw) (fofZ 8) in
  let b := fsub chess_2 chess_3 in
  let c := fadd chess_2 chess_3 in
  pret (chess_1, [fneg chess_3; b; fneg c; chess_3; fneg b; c]).

(** eeprom.rs 217-245 [get_temperature_range_data].  [step <= 30] and the
    nibbles are at most 15, so the i16 products cannot overflow. *)
Definition get_temperature_range_data : parser (list Z * list F) :=
  get k0 <- get_i8;
  get k1 <- get_i8;
  get k2 <- get_i8;
  get k3 <- get_i8;
  (* swap(0, 1); swap(2, 3) *)
  let k_s_to := map fofZ [k1; k0; k3; k2] in
  get (u0, u1, u2, u3) <- word_to_u4s;
  let corner_temperature_step := Z.land u0 0x3 * 10 in
  let ct2 := u2 * corner_temperature_step in
  let ct3 := u1 * corner_temperature_step + ct2 in
  let k_s_to_scale := fexp2 (fofZ (u3 + 8)) in
  pret ([-40; 0; ct2; ct3], map (fun k => fdiv k k_s_to_scale) k_s_to).

(** Result of the per-pixel loop for one pixel. *)
Record pixel640 := {
  px_offset : Z;
  px_alpha : F;
  px_k_ta : F;
  px_failed : bool;
  px_outlier : bool
}.

(** eeprom.rs 347-375: body of the per-pixel loop *)
Definition pixel_step (offset_rem_scale alpha_rem_scale k_ta_scale2_exp : Z)
    (alpha_scale k_ta_scale1 : F) (offset : Z) (alpha : F) (k_ta_rc : Z) : parser pixel640 :=
  get high <- get_u8;
  get low <- get_u8;
  if (high =? 0) && (low =? 0) then
    pret {| px_offset := offset; px_alpha := alpha; px_k_ta := fofZ 0;
            px_failed := true; px_outlier := false |}
  else
    let offset_remainder := sar (i8_of_u8 (Z.land high 0xFC)) 2 in
    get offset' <- plift (chk_i16 p (offset + shl16 offset_remainder offset_rem_scale));
    let alpha_remainder := sar (shl16 (i16_of_u16 (be16 (Z.land high 0x03) low)) 6) 10 in
    let alpha' := fdiv (fadd alpha (fofZ (shl16 alpha_remainder alpha_rem_scale))) alpha_scale in
    let k_ta_remainder := sar (shl8 (i8_of_u8 (Z.land low 0x0E)) 4) 5 in
    get k_ta_sum <- plift (chk_i16 p (k_ta_rc + shl16 k_ta_remainder k_ta_scale2_exp));
    let k_ta := fdiv (fofZ k_ta_sum) k_ta_scale1 in
    pret {| px_offset := offset'; px_alpha := alpha'; px_k_ta := k_ta;
            px_failed := false; px_outlier := is_bit_set low 0 |}.

(** eeprom.rs 336-375: the zipped loop *)
Fixpoint pixel_loop (ors ars k2 : Z) (alpha_scale k_ta_scale1 : F)
    (items : list (Z * F * Z)) : parser (list pixel640) :=
  match items with
  | [] => pret []
  | (offset, alpha, k_ta_rc) :: rest =>
      get px <- pixel_step ors ars k2 alpha_scale k_ta_scale1 offset alpha k_ta_rc;
      get t <- pixel_loop ors ars k2 alpha_scale k_ta_scale1 rest;
      pret (px :: t)
  end.

(** eeprom.rs 523-562 [ChessboardIter]: values yielded for a pattern of four *)
Definition chessboard_iter {A} (src : A * A * A * A) : list A :=
  let '(s0, s1, s2, s3) := src in
  map (fun index =>
         let row := Nat.div index WIDTH640 in
         let column := Nat.modulo index WIDTH640 in
         match Nat.eqb (Nat.modulo row 2) 0, Nat.eqb (Nat.modulo column 2) 0 with
         | true, true => s0
         | false, true => s1
         | true, false => s2
         | false, false => s3
         end) (seq 0 NUM_PIXELS640).

(** eeprom.rs 615-661 [PixelAccessPatternCompensation]: values yielded.
    [patterns] has six elements, so [nth_error] is always [Some] and indexing
    never panics. *)
Definition access_pattern_compensation640 (patterns : list F) (ap : access_pattern)
    : list (option F) :=
  match ap with
  | Chess => repeat None NUM_PIXELS640
  | Interleave =>
      map (fun index =>
             let row_sign := Nat.modulo (Nat.div index WIDTH640) 2 in
             let column_index := match Nat.modulo index 4 with
                                 | 1%nat => 1%nat
                                 | 3%nat => 2%nat
                                 | _ => 0%nat
                                 end in
             nth_error patterns (row_sign * 3 + column_index)%nat) (seq 0 NUM_PIXELS640)
  end.

(** eeprom.rs 251-403 [from_data] and the accessors of the trait implementation
    (eeprom.rs 425-521), as one record. *)
Definition parse640 : parser (calib FO) :=
  get _ <- advance (WORD_SIZE * 16);
  get (offset_reference, offset_rem_scale, alpha_ptat_raw) <- calculate_bulk_pixel_calibration;
  let alpha_ptat_v := alpha_ptat_raw / 4 + 8 in
  get (alpha_ints, alpha_rem_scale, alpha_scale_exp) <- calculate_bulk_pixel_calibration;
  let alphas := map fofZ alpha_ints in
  let alpha_scale := fexp2 (fofZ (alpha_scale_exp + 30)) in
  get gain_v <- get_i16;
  get v_ptat_25_v <- get_i16;
  get (k_v_ptat_raw, kt_ptat_bytes) <- word_6_10_split;
  let k_v_ptat_v := fdiv (fofZ k_v_ptat_raw) (fofZ 4096) in
  get k_t_ptat_raw <- plift (i16_from_bits kt_ptat_bytes 10);
  let k_t_ptat_v := fdiv (fofZ k_t_ptat_raw) (fofZ 8) in
  get k_v_dd_raw <- get_i8;
  let k_v_dd_v := shl16 k_v_dd_raw 5 in
  get v_dd_25_raw <- get_u8;
  let v_dd_25_v := (v_dd_25_raw - 256) * 32 - 8192 in  (* in i16 for every byte *)
  get (kv0, kv1, kv2, kv3) <- word_to_i4s;
  get (interleave_cp, interleave_pixels) <- get_access_pattern_corrections;
  get lazy_k_ta <- generate_k_ta_pixels;
  get (sc0, sc1, sc2, k_ta_scale2_exp) <- word_to_u4s;
  get resolution_v <- plift (resolution_from_raw (Z.land sc0 0x3));
  let k_v_scale := fexp2 (fofZ sc1) in
  let k_ta_scale1 := fexp2 (fofZ (sc2 + 8)) in
  let kv v := fdiv (fofZ v) k_v_scale in
  let k_v_pattern := (kv kv0, kv kv1, kv kv2, kv kv3) in
  get (alpha_cp_ratio_raw, alpha_cp_bytes) <- word_6_10_split;
  let alpha_cp_ratio := fdiv (fofZ alpha_cp_ratio_raw) (fexp2 (fofZ 7)) in
  let alpha_scale_cp := fexp2 (fofZ (alpha_scale_exp + 27)) in
  get alpha_cp_raw <- plift (register_from_slice alpha_cp_bytes);   (* u16::from_be_bytes *)
  let alpha_cp0 := fdiv (fofZ alpha_cp_raw) alpha_scale_cp in
  let alpha_cp1 := fmul alpha_cp0 (fadd (fofZ 1) alpha_cp_ratio) in
  get (offset_cp_delta, offset_cp_bytes) <- word_6_10_split;
  get offset_cp0 <- plift (i16_from_bits offset_cp_bytes 10);
  get offset_cp1 <- plift (chk_i16 p (offset_cp0 + offset_cp_delta));
  get k_v_cp_raw <- get_i8;
  let k_v_cp_v := fdiv (fofZ k_v_cp_raw) k_v_scale in
  get k_ta_cp_raw <- get_i8;
  let k_ta_cp_v := fdiv (fofZ k_ta_cp_raw) k_ta_scale1 in
  get k_s_ta_raw <- get_i8;
  let k_s_ta_v := fdiv (fofZ k_s_ta_raw) (fexp2 (fofZ 13)) in
  get tgc_raw <- get_i8;
  let tgc := if tgc_raw =? 0 then None else Some (fdiv (fofZ tgc_raw) (fexp2 (fofZ 5))) in
  get (corner_temps, k_s_to_v) <- get_temperature_range_data;
  get alpha_corr <- plift (alpha_correction_coefficients FO p 4
                             (BASIC_TEMPERATURE_RANGE _ (Mlx90640 FO)) corner_temps k_s_to_v);
  get pixels <- pixel_loop offset_rem_scale alpha_rem_scale k_ta_scale2_exp alpha_scale k_ta_scale1
                  (zip (zip offset_reference alphas) lazy_k_ta);
  pret {|
    cam := Mlx90640 FO;
    k_v_dd := k_v_dd_v;
    v_dd_25 := v_dd_25_v;
    cal_resolution := resolution_v;
    v_dd_0 := f_3_3;                                   (* common.rs 89-91 *)
    k_v_ptat := k_v_ptat_v;
    k_t_ptat := k_t_ptat_v;
    v_ptat_25 := fofZ v_ptat_25_v;
    alpha_ptat := fofZ alpha_ptat_v;
    cal_gain := fofZ gain_v;
    k_s_ta := k_s_ta_v;
    corner_temperatures := corner_temps;
    k_s_to := k_s_to_v;
    alpha_correction := alpha_corr;
    cal_emissivity := None;                            (* common.rs 144-146 *)
    offset_reference_pixels := fun _ => map px_offset pixels;
    offset_reference_cp := fun sp => match sp with Zero => offset_cp0 | One => offset_cp1 end;
    alpha_pixels := fun _ => map px_alpha pixels;
    alpha_cp := fun sp => match sp with Zero => alpha_cp0 | One => alpha_cp1 end;
    k_v_pixels := fun _ => chessboard_iter k_v_pattern;
    k_v_cp := fun _ => k_v_cp_v;
    k_ta_pixels := fun _ => map px_k_ta pixels;
    k_ta_cp := fun _ => k_ta_cp_v;
    temperature_gradient_coefficient := tgc;
    access_pattern_compensation_pixels := access_pattern_compensation640 interleave_pixels;
    access_pattern_compensation_cp := fun sp ap =>
      match sp, ap with One, Interleave => Some interleave_cp | _, _ => None end;
    failed_pixels := map px_failed pixels;
    outlier_pixels := map px_outlier pixels
  |}.

(** eeprom.rs 251-260: the length check.  [EepromAddress::End - EepromAddress::Base]
    is a difference of word addresses (831). *)
Definition from_data640 (data : list Z) : res lib_error (calib FO) :=
  if Z.of_nat (length data) <? EE640_End - EE640_Base then
    Err (OtherError "Not enough space left in buffer to be a full EEPROM dump")
  else do (c, _) <- parse640 data; Ok c.
End Ee640.

(** eeprom.rs 415-416: size of the dump read over I2C, in bytes *)
Definition EEPROM_LENGTH : nat := Z.to_nat ((EE640_End - EE640_Base + 1) * 2).

(** eeprom.rs 406-423 [from_i2c] *)
Definition calib640_from_i2c (FO : FloatOps) (p : profile) {B ER EW} (bs : bus B ER EW)
    (i2c : Z) (w : world B ER EW) : res (error ER EW) (calib FO) * world B ER EW :=
  let '(data, e, w') := write_read bs i2c (to_be_bytes EE640_Base) (repeat 0 EEPROM_LENGTH) w in
  match e with
  | Some e => (Err (I2cWriteReadError e), w')
  | None => (map_err LibraryError (from_data640 FO p data), w')
  end.
