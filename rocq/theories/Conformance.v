(** * Conformance: the repository's own unit tests, run on the model.

    The real code cannot be built here, so these examples are the only evidence
    that the model computes what the authors observed: each example is one of
    their tests, with their inputs, expected values and tolerances, evaluated by
    the kernel on the model.  They are tests, not properties; nothing depends on
    this file.  [powi] is repeated squaring (what LLVM's runtime does) and
    [powf x 0.25] the correctly rounded fourth root. *)
From Verif Require Import Base FloatOps Register Bus Camera Cam640 Cam641 Hamming Ee640 Ee641 Calc
  Mock Dumps ExampleData B32 Driver.
From Flocq Require Import Core.Zaux BinarySingleNaN.

(** ** A mathematical library and literals *)

(** The float nearest to [n / d] ([d] positive): quotient with 40 extra bits
    over [d]'s size, and a sticky bit. *)
Definition lit (n d : Z) : f32 :=
  let k := Z.max 0 (Z.log2 d - Z.log2 (Z.abs n + 1)) + 40 in
  let a := Z.abs n * 2 ^ k in
  let q := 2 * (a / d) + (if a mod d =? 0 then 0 else 1) in
  binary_normalize 24 128 _ _ mode_NE (Z.sgn n * q) (- k - 1) false.
(** Correctly rounded fourth root of a non-negative number. *)
Definition root4 (x : f32) : f32 :=
  match x with
  | B754_finite false m e _ =>
      let s := (e mod 4) + 132 in
      let a := Zpos m * 2 ^ s in
      let r := Z.sqrt (Z.sqrt a) in
      let q := 2 * r + (if r ^ 4 =? a then 0 else 1) in
      binary_normalize 24 128 _ _ mode_NE q ((e - s) / 4 - 1) false
  | B754_zero s => B754_zero s
  | B754_infinity false => B754_infinity false
  | _ => B754_nan
  end.
Definition powi4 (x : f32) (n : Z) : f32 :=
  if n =? 3 then b_mul x (b_mul x x) else if n =? 4 then b_mul (b_mul x x) (b_mul x x) else B754_nan.
Definition tests_libm : libm := {|
  lm_exp2 := fun _ => B754_nan;
  lm_powi := powi4;
  lm_powf := fun x y => if b_eqb y (lit 1 4) then root4 x else B754_nan |}.
Definition TF : FloatOps := B32 tests_libm.

(** The value [m * 2^e] of a finite float, as [m * 2^(e + 200)]. *)
Definition scaled200 (x : f32) : option Z :=
  match x with
  | B754_zero _ => Some 0
  | B754_finite s m e _ => Some ((if s then -1 else 1) * Zpos m * 2 ^ (e + 200))
  | _ => None
  end.
(** Position in the ordered sequence of floats ([f32::to_bits] of the absolute value, signed). *)
Definition ordinal (x : f32) : option Z :=
  match x with
  | B754_zero _ => Some 0
  | B754_finite s m e _ => Some ((if s then -1 else 1) * ((e + 149) * 2 ^ 23 + Zpos m))
  | _ => None
  end.
(** float_cmp's [approx_eq]: within [en / ed], or within [ulps] floats. *)
Definition approx (en ed ulps : Z) (x y : f32) : bool :=
  match scaled200 x, scaled200 y, ordinal x, ordinal y with
  | Some a, Some b, Some i, Some j =>
      (Z.abs (a - b) * ed <=? en * 2 ^ 200) || (Z.abs (i - j) <=? ulps)
  | _, _, _, _ => false
  end.
(** The default margin: [f32::EPSILON], 4 ulps. *)
Definition approx_default : f32 -> f32 -> bool := approx 1 (2 ^ 23) 4.
(** Only [epsilon = 1 / d] given. *)
Definition approx_eps (d : Z) : f32 -> f32 -> bool := approx 1 d 0.
(** [assert_eq!] *)
Definition same : f32 -> f32 -> bool := b_eqb.

Definition ok {E A} (r : res E A) (f : A -> bool) : bool := match r with Ok a => f a | _ => false end.
Definition some {A} (r : option A) (f : A -> bool) : bool := match r with Some a => f a | None => false end.
Definition at_ {A} (l : list A) (i : nat) (f : A -> bool) : bool := some (nth_error l i) f.
Definition all2 {A B} (f : A -> B -> bool) (l : list A) (l' : list B) : bool :=
  Nat.eqb (length l) (length l') && forallb (fun '(a, b) => f a b) (combine l l').

Definition sheet640 : res lib_error (calib TF) := from_data640 TF Debug datasheet640.
Definition sheet641 : res lib_error (calib TF) := from_data641 TF Debug datasheet641.
Definition example640_bytes : list Z := bytes_of_words ex_eeprom_words.
Definition example640 : res lib_error (calib TF) := from_data640 TF Debug example640_bytes.

(** ** calculations.rs 793-967 *)
(** calculations.rs 796-806 *)
Example t_delta_v :
  ok sheet640 (fun c => ok (delta_v (E := lib_error) Debug c (-13115)) (same (lit 59 3168))) &&
  ok sheet641 (fun c => ok (delta_v (E := lib_error) Debug c (-13430)) (same (lit (-138) 3136))) = true.
Proof. vm_compute. reflexivity. Qed.

(** calculations.rs 808-829 *)
Example t_v_dd :
  ok sheet640 (fun c => approx_eps 1000 (v_dd c (lit 1 1) (lit 18623737 (10 ^ 9))) (lit 3319 1000)) &&
  ok sheet641 (fun c => approx_eps 100000 (v_dd c (lit 1 1) (lit (-440051) (10 ^ 7))) (lit 325599 (10 ^ 5))) = true.
Proof. vm_compute. reflexivity. Qed.

(** calculations.rs 831-848 *)
Example t_v_ptat_art :
  ok sheet640 (fun c => approx_eps 100000 (v_ptat_art c 1711 19442) (lit 1287357952 (10 ^ 5))) &&
  ok sheet641 (fun c => approx_eps 100 (v_ptat_art c 1752 19540) (lit 1300771 100)) = true.
Proof. vm_compute. reflexivity. Qed.

(** calculations.rs 850-877 *)
Example t_t_a :
  ok sheet640 (fun c => ok (delta_v (E := lib_error) Debug c (-13115)) (fun dv =>
    approx_eps (10 ^ 8) (ambient_temperature c (v_ptat_art c 1711 19442) dv) (lit 3918442383 (10 ^ 8)))) &&
  ok sheet641 (fun c => ok (delta_v (E := lib_error) Debug c (-13430)) (fun dv =>
    approx_eps 1000 (ambient_temperature c (v_ptat_art c 1752 19540) dv) (lit 4209766048 (10 ^ 8)))) = true.
Proof. vm_compute. reflexivity. Qed.

(** calculations.rs 879-908 *)
Definition common_of (gain vdd em ta : f32) : common_ir_data (FO := TF) :=
  @Build_common_ir_data TF gain vdd em ta.
Example t_v_ir_640 :
  ok sheet640 (fun c =>
    let i := (11 * 32 + 15)%nat in
    at_ (offset_reference_pixels _ c One) i (fun offset =>
    at_ (k_v_pixels _ c One) i (fun kv =>
    at_ (k_ta_pixels _ c One) i (fun kta =>
      approx_default
        (per_pixel_v_ir 609 (common_of (lit 101753546947234 (10 ^ 14)) (lit 3319 1000) (lit 1 1) (lit 3918440152 (10 ^ 8)))
           offset kv kta None)
        (lit 7008974671440075625 (10 ^ 16)))))) = true.
Proof. vm_compute. reflexivity. Qed.

(** calculations.rs 910-937 *)
Example t_v_ir_641 :
  ok sheet641 (fun c =>
    let i := (5 * 16 + 8)%nat in
    at_ (offset_reference_pixels _ c Zero) i (fun offset =>
    at_ (k_v_pixels _ c Zero) i (fun kv =>
    at_ (k_ta_pixels _ c Zero) i (fun kta =>
      approx_eps 100
        (per_pixel_v_ir 972 (common_of (lit 102445038 (10 ^ 8)) (lit 325599 (10 ^ 5)) (lit 949218 (10 ^ 6)) (lit 42022 1000))
           offset kv kta None)
        (lit 178478049 (10 ^ 5)))))) = true.
Proof. vm_compute. reflexivity. Qed.

(** calculations.rs 939-947 *)
Example t_t_ar_640 :
  approx_default (t_ar (FO := TF) (lit 39184 1000) (lit 31 1) (lit 1 1)) (lit 951649563256 100) = true.
Proof. vm_compute. reflexivity. Qed.

(** calculations.rs 949-964 *)
Example t_pixel_temperature_640 :
  ok sheet640 (fun c => at_ (k_s_to _ c) (BASIC_TEMPERATURE_RANGE _ (cam _ c)) (fun k =>
    same (per_pixel_temperature (FO := TF) (lit 679250909123826 (10 ^ 12)) (lit 11876487360496 (10 ^ 20))
            (lit 951649563256 100) k) (lit 8036331 (10 ^ 5)))) = true.
Proof. vm_compute. reflexivity. Qed.

(** calculations.rs 966-980 *)
Example t_pixel_temperature_641 :
  ok sheet641 (fun c => at_ (k_s_to _ c) (BASIC_TEMPERATURE_RANGE _ (cam _ c)) (fun k =>
    approx_default (per_pixel_temperature (FO := TF) (lit 1785 1) (lit 332641806639731 (10 ^ 21))
            (lit 989917573992 100) k) (lit 80129812 (10 ^ 6)))) = true.
Proof. vm_compute. reflexivity. Qed.

(** ** util.rs 216-290 *)
Example t_buffer :
  (advance 1 [0xde; 0xad; 0xbe; 0xef], get_u8 [0xde; 0xad; 0xbe; 0xef], get_i8 [0xde; 0xad; 0xbe; 0xef],
   get_u16 [0xde; 0xad; 0xbe; 0xef], get_i16 [0xde; 0xad; 0xbe; 0xef])
  = (Ok (tt, [0xad; 0xbe; 0xef]), Ok (0xde, [0xad; 0xbe; 0xef]), Ok (-34, [0xad; 0xbe; 0xef]),
     Ok (0xdead, [0xbe; 0xef]), Ok (-8531, [0xbe; 0xef])).
Proof. vm_compute. reflexivity. Qed.
Example t_is_bit_set : forallb (fun n => is_bit_set (2 ^ n) n) (map Z.of_nat (seq 0 16)) = true.
Proof. vm_compute. reflexivity. Qed.
Example t_i16_from_bits :
  map (fun '(b, n) => i16_from_bits b n)
    [([0x00; 0xff], 8); ([0x03; 0xff], 10); ([0xf0; 0xff], 8); ([0xf3; 0xff], 10)]
  = [Ok (-1); Ok (-1); Ok (-1); Ok (-1)].
Proof. vm_compute. reflexivity. Qed.

(** ** mlx90640/eeprom.rs 735-1360 *)
Example t_word_6_10_split :
  map word_6_10_split [[0xfc; 0x00]; [0x03; 0xff]; [0x83; 0xff]]
  = [Ok (-1, [0; 0], []); Ok (0, [3; 0xff], []); Ok (-32, [3; 0xff], [])].
Proof. vm_compute. reflexivity. Qed.
Example t_word_to_u4s :
  map word_to_u4s [[0x12; 0x34]; [0xf0; 0xf0]; [0x0f; 0x0f]]
  = [Ok (1, 2, 3, 4, []); Ok (15, 0, 15, 0, []); Ok (0, 15, 0, 15, [])].
Proof. vm_compute. reflexivity. Qed.
Example t_u8_to_i4s : map u8_to_i4s [0x44; 0x88; 0x48; 0x84] = [(4, 4); (-8, -8); (4, -8); (-8, 4)].
Proof. vm_compute. reflexivity. Qed.
Example t_repeat_chessboard :
  repeat_chessboard (1, 2, 3, 4)
  = map (fun i => let row := (i / 32)%nat in let column := (i mod 32)%nat in
           match (row mod 2)%nat, (column mod 2)%nat with
           | O, O => 1 | S _, O => 2 | O, S _ => 3 | S _, S _ => 4
           end) (seq 0 768).
Proof. vm_compute. reflexivity. Qed.

(** The scalars: resolution, k_v_dd, v_dd_25, v_dd_0, k_v_ptat, k_t_ptat, v_ptat_25,
    alpha_ptat, gain (mlx90640/eeprom.rs 806-887) *)
Definition resolution_is (r r' : resolution) : bool := resolution_eqb r r'.
Example t_scalars_640 :
  ok sheet640 (fun c =>
    resolution_eqb (cal_resolution _ c) Res18 && (k_v_dd _ c =? -3168) && (v_dd_25 _ c =? -13056) &&
    same (v_dd_0 _ c) (lit 33 10) && approx_eps (10 ^ 9) (k_v_ptat _ c) (lit 5371094 (10 ^ 9)) &&
    same (k_t_ptat _ c) (lit 4225 100) && same (v_ptat_25 _ c) (lit 12273 1) && same (alpha_ptat _ c) (lit 9 1) &&
    same (cal_gain _ c) (lit 6383 1)) &&
  ok example640 (fun c =>
    resolution_eqb (cal_resolution _ c) Res18 && (k_v_dd _ c =? -3200) && (v_dd_25 _ c =? -12544) &&
    same (v_dd_0 _ c) (lit 33 10) && approx_eps (10 ^ 5) (k_v_ptat _ c) (lit 2197 (10 ^ 6)) &&
    same (k_t_ptat _ c) (lit 42625 1000) && same (v_ptat_25 _ c) (lit 12196 1) && same (alpha_ptat _ c) (lit 9 1) &&
    same (cal_gain _ c) (lit 5580 1)) = true.
Proof. vm_compute. reflexivity. Qed.

(** Per-pixel values (eeprom.rs 973-1055, 1186-1207): pixel (12, 16) of the
    datasheet and all 768 pixels of the recorded camera *)
Definition both (f : subpage -> bool) : bool := f Zero && f One.
Example t_pixels_640 :
  ok sheet640 (fun c => both (fun s =>
    at_ (offset_reference_pixels _ c s) 367 (Z.eqb (-75)) &&
    at_ (k_ta_pixels _ c s) 367 (approx 1 (10 ^ 7) 2 (lit 5126953125 (10 ^ 12))) &&
    at_ (k_v_pixels _ c s) 367 (approx_default (lit 1 2)) &&
    at_ (alpha_pixels _ c s) 367 (approx 1 (10 ^ 18) 2 (lit 1262233122690854 (10 ^ 22))))) = true.
Proof. vm_compute. reflexivity. Qed.
Example t_pixels_640_example :
  ok example640 (fun c => both (fun s =>
    all2 Z.eqb (offset_reference_pixels _ c s) ex_offset_pixels &&
    all2 (fun x n => approx 1 (10 ^ 7) 2 x (lit n (10 ^ 8))) (k_ta_pixels _ c s) ex_k_ta_pixels &&
    all2 (fun x n => approx_default x (lit n (10 ^ 6))) (k_v_pixels _ c s) ex_k_v_pixels &&
    all2 (fun x n => approx 1 (10 ^ 18) 2 x (lit n (10 ^ 19))) (alpha_pixels _ c s) ex_alpha_pixels)) = true.
Proof. vm_compute. reflexivity. Qed.

(** Compensation pixels and the rest (eeprom.rs 1057-1184, 1209-1252) *)
Example t_cp_640 :
  ok sheet640 (fun c =>
    match cal_emissivity _ c with None => true | _ => false end &&
    (offset_reference_cp _ c Zero =? -75) && (offset_reference_cp _ c One =? -77) &&
    both (fun s => approx_default (k_ta_cp _ c s) (lit 457763671875 (10 ^ 14)) && same (k_v_cp _ c s) (lit 1 2)) &&
    some (temperature_gradient_coefficient _ c) (same (lit 1 1)) &&
    approx 1 (10 ^ 10) 0 (alpha_cp _ c Zero) (lit 407453626394272 (10 ^ 23)) &&
    approx 1 (10 ^ 10) 0 (alpha_cp _ c One) (lit 3851710062200835 (10 ^ 24)) &&
    approx_eps (10 ^ 8) (k_s_ta _ c) (lit (-1953125) (10 ^ 9)) &&
    at_ (k_s_to _ c) 1 (approx_eps (10 ^ 16) (lit (-80108642578125) (10 ^ 17))) &&
    all2 Z.eqb (corner_temperatures _ c) [-40; 0; 160; 320]) &&
  ok example640 (fun c =>
    match cal_emissivity _ c with None => true | _ => false end &&
    (offset_reference_cp _ c Zero =? -69) && (offset_reference_cp _ c One =? -65) &&
    both (fun s => approx_eps (10 ^ 5) (k_ta_cp _ c s) (lit 4272 (10 ^ 6)) && same (k_v_cp _ c s) (lit 375 1000)) &&
    match temperature_gradient_coefficient _ c with None => true | _ => false end &&
    approx_eps (10 ^ 18) (alpha_cp _ c Zero) (lit 28812792152 (10 ^ 19)) &&
    approx_eps (10 ^ 18) (alpha_cp _ c One) (lit 29037892091 (10 ^ 19)) &&
    approx_eps (10 ^ 5) (k_s_ta _ c) (lit (-2441) (10 ^ 6)) &&
    Nat.eqb (length (k_s_to _ c)) 4 && forallb (approx_eps (10 ^ 5) (lit (-2) (10 ^ 4))) (k_s_to _ c) &&
    all2 Z.eqb (corner_temperatures _ c) [-40; 0; 300; 500]) = true.
Proof. vm_compute. reflexivity. Qed.

(** eeprom.rs 1254-1304 *)
Example t_access_pattern_640 :
  ok sheet640 (fun c =>
    forallb (fun o => match o with None => true | _ => false end) (access_pattern_compensation_pixels _ c Chess) &&
    all2 (fun o i =>
            let row := (i / 32)%nat in let column := (i mod 32)%nat in
            let expected := if Nat.eqb (column mod 2) 0 then -125 else if Nat.eqb (column mod 4) 3 then -3125 else 2875 in
            some o (same (lit (if Nat.eqb (row mod 2) 0 then expected else - expected) 1000)))
         (access_pattern_compensation_pixels _ c Interleave) (seq 0 768)) = true.
Proof. vm_compute. reflexivity. Qed.

(** eeprom.rs 1306-1358 *)
Definition put (i : nat) (v : Z) (l : list Z) : list Z := firstn i l ++ v :: skipn (S i) l.
Definition flagged (l : list bool) : list nat := map snd (filter fst (combine l (seq 0 (length l)))).
Definition flags (r : res lib_error (calib TF)) : option (list nat * list nat) :=
  match r with Ok c => Some (flagged (failed_pixels _ c), flagged (outlier_pixels _ c)) | _ => None end.
Definition pixel10 : nat := 128 + 20.
Example t_flags_640 :
  (flags example640, flags (from_data640 TF Debug (put (pixel10 + 1) 0 (put pixel10 0 datasheet640))),
   flags (from_data640 TF Debug (put (pixel10 + 1) (Z.lor (nth (pixel10 + 1) datasheet640 0) 1) datasheet640)))
  = (Some ([], []), Some ([10%nat], []), Some ([], [10%nat])).
Proof. vm_compute. reflexivity. Qed.

(** ** mlx90641/eeprom.rs 573-905 *)
Example t_hamming_u16 :
  (do (a, b) <- get_hamming_u16 [0x26; 0x58; 0xff; 0xff; 0x19; 0xe6];
   do (c, b) <- get_hamming_u16 b;
   do (d, b) <- get_hamming_u16 b;
   Ok (a, c, d, b)) = Ok (0x0658, 0x07FF, 0x01e6, []).
Proof. vm_compute. reflexivity. Qed.
Example t_hamming_i16 :
  (do (a, b) <- get_hamming_i16 [0x26; 0x58; 0x19; 0xe6]; do (c, b) <- get_hamming_i16 b; Ok (a, c, b))
  = Ok (-424, 486, []).
Proof. vm_compute. reflexivity. Qed.
Example t_combined_word :
  (do (a, b) <- get_combined_word [0xb7; 0xe8; 0xd0; 0x16; 0xf1; 0x37; 0x78; 0x14; 0x91; 0x7f; 0xf0; 0x18; 0xcf; 0xfc; 0xa0; 0x09];
   do (c, b) <- get_combined_word b; do (d, b) <- get_combined_word b; do (e, b) <- get_combined_word b;
   Ok (a, c, d, e, b))
  = Ok (to_be_bytes 64790, to_be_bytes 9972, to_be_bytes 12280, to_be_bytes 65417, []).
Proof. vm_compute. reflexivity. Qed.

Definition pix641 : nat := 5 * 16 + 8.
Example t_scalars_641 :
  ok sheet641 (fun c =>
    resolution_eqb (cal_resolution _ c) Res18 && (k_v_dd _ c =? -3136) && (v_dd_25 _ c =? -13568) &&
    same (v_dd_0 _ c) (lit 33 10) && same (k_v_ptat _ c) (lit 56152344 (10 ^ 10)) &&
    same (k_t_ptat _ c) (lit 4275 100) && same (v_ptat_25 _ c) (lit 12280 1) && same (alpha_ptat _ c) (lit 9 1) &&
    same (cal_gain _ c) (lit 9972 1) &&
    some (cal_emissivity _ c) (same (lit 94921875 (10 ^ 8))) &&
    both (fun s => (offset_reference_cp _ c s =? -119) && same (k_ta_cp _ c s) (lit 23193359 (10 ^ 10)) &&
                   same (k_v_cp _ c s) (lit 3125 (10 ^ 4)) && same (alpha_cp _ c s) (lit 301952240988612 (10 ^ 23))) &&
    some (temperature_gradient_coefficient _ c) (same (lit 0 1)) &&
    same (k_s_ta _ c) (lit (-2197265625) (10 ^ 12)) &&
    Nat.eqb (length (k_s_to _ c)) 8 && forallb (same (lit (-69999695) (10 ^ 11))) (k_s_to _ c) &&
    all2 Z.eqb (corner_temperatures _ c) [-40; -20; 0; 80; 120; 200; 400; 600]) = true.
Proof. vm_compute. reflexivity. Qed.
Example t_pixels_641 :
  ok sheet641 (fun c =>
    at_ (offset_reference_pixels _ c Zero) pix641 (Z.eqb (-673)) &&
    at_ (offset_reference_pixels _ c One) pix641 (Z.eqb (-675)) &&
    both (fun s => at_ (k_ta_pixels _ c s) pix641 (same (lit 31013489 (10 ^ 10))) &&
                   at_ (k_v_pixels _ c s) pix641 (same (lit 3251953 (10 ^ 7))) &&
                   at_ (alpha_pixels _ c s) pix641 (same (lit 345520675182343 (10 ^ 21)))) &&
    forallb (fun ap => Nat.eqb (length (access_pattern_compensation_pixels _ c ap)) 192 &&
       forallb (fun o => match o with None => true | _ => false end) (access_pattern_compensation_pixels _ c ap))
      [Interleave; Chess]) = true.
Proof. vm_compute. reflexivity. Qed.

(** eeprom.rs 840-905 *)
Definition zero_word (data : list Z) (a : Z) : list Z :=
  let i := (byte_offset a + 30)%nat in put (i + 1) 0 (put i 0 data).
Definition pixel_tables : list Z :=
  [EE641_PixelOffsetSubpage0Start; EE641_PixelSensitivityStart; EE641_PixelConstantsStart; EE641_PixelOffsetSubpage1Start].
Example t_flags_641 :
  map (fun a => flags (from_data641 TF Debug (zero_word datasheet641 a))) pixel_tables = repeat (Some ([], [])) 4 /\
  flags (from_data641 TF Debug (fold_left zero_word pixel_tables datasheet641)) = Some ([15%nat], [15%nat]).
Proof. vm_compute. split; reflexivity. Qed.

(** ** mlx90641/hamming.rs 162-212 (the test with two errors, over all pairs of
    bits, is left to C08, which has it for every word) *)
Definition words641 : list Z := header641 ++ [0xF849; 0xFFFF; 0xB8C0; 0xD847].
Definition bits16 : list Z := map Z.of_nat (seq 0 16).
Definition decodes (w v : Z) : bool := match validate_checksum w with Ok x => x =? v | _ => false end.
Example t_checksum :
  forallb (fun w => decodes w (Z.land w 0x07FF) &&
    forallb (fun i => decodes (Z.lxor w (2 ^ i)) (Z.land w 0x07FF)) bits16) words641 = true.
Proof. vm_compute. reflexivity. Qed.

(** ** mlx90640/mod.rs and mlx90641/mod.rs *)
Definition range_is (r : range) (a : Z) (o n : nat) : bool :=
  (start_address r =? a) && Nat.eqb (buffer_offset r) o && Nat.eqb (range_length r) n.
Example t_resolution_correction :
  forallb (fun c => all2 (fun r x => same (resolution_correction TF c Res18 r) x)
      [Res16; Res17; Res18; Res19] [lit 4 1; lit 2 1; lit 1 1; lit 1 2]) [Mlx90640 TF; Mlx90641 TF] = true.
Proof. vm_compute. reflexivity. Qed.
Example t_pixel_access_640 :
  both (fun s => match pixel_ranges TF (Mlx90640 TF) s Chess with [r] => range_is r 0x0400 0 1536 | _ => false end) &&
  forallb (fun '(s, a) =>
      let b := Z.to_nat ((a - 0x0400) * 2) in
      match pixel_ranges TF (Mlx90640 TF) s Interleave with
      | r1 :: r2 :: r3 :: r4 :: rest =>
          range_is r1 a b 64 && range_is r2 (a + 64) (b + 128) 64 && range_is r3 (a + 128) (b + 256) 64 &&
          range_is r4 (a + 192) (b + 384) 64 && Nat.eqb (length rest) 8
      | _ => false
      end) [(Zero, 0x0400); (One, 0x0420)] = true.
Proof. vm_compute. reflexivity. Qed.
Example t_pixel_subpage_640 :
  map (fun s => pixels_in_subpage TF (Mlx90640 TF) s Interleave) [Zero; One]
  = [map (fun i => Nat.eqb ((i / 32) mod 2) 0) (seq 0 768); map (fun i => Nat.eqb ((i / 32) mod 2) 1) (seq 0 768)] /\
  map (fun s => pixels_in_subpage TF (Mlx90640 TF) s Chess) [Zero; One]
  = [map (fun i => Nat.eqb ((i / 32 + i) mod 2) 0) (seq 0 768); map (fun i => Nat.eqb ((i / 32 + i) mod 2) 1) (seq 0 768)] /\
  map (fun s => pixels_in_subpage TF (Mlx90641 TF) s Interleave) [Zero; One] = repeat (repeat true 192) 2.
Proof. vm_compute. repeat split; reflexivity. Qed.

(** ** driver.rs 520-779 *)
(** i2c_mock.rs 112-144 and 406-496: the three mock cameras *)
Definition new_mlx90640 (i2c : Z) (eeprom ram control status config : list Z) : mock :=
  {| mk_i2c_address := i2c; mk_ram_end := 0x073F; mk_eeprom := eeprom; mk_ram := ram;
     mk_status := status; mk_control := control; mk_i2c_config := config; mk_recent := [] |}.
Definition put_word (a w : Z) (ram : list Z) : list Z :=
  let i := Z.to_nat ((a - 0x0400) * 2) in put (i + 1) (w mod 256) (put i (w / 256) ram).
Definition datasheet_mlx90640 (i2c : Z) : mock :=
  new_mlx90640 i2c datasheet640
    (put_word 0x0700 0x4bf2 (put_word 0x0708 0xffca (put_word 0x070A 0x1881 (put_word 0x0720 0x06af
      (put_word 0x0728 0xffc8 (put_word 0x072A 0xccc5 (bytes_of_words (repeat 0x0261 768 ++ repeat 0 64))))))))
    [0x19; 0x01] [0x00; 0x09] [0; 0].
Definition mock_mlx90641 (i2c : Z) : mock :=
  {| mk_i2c_address := i2c; mk_ram_end := 0x05BF; mk_eeprom := datasheet641;
     mk_ram := put_word 0x0580 0x4c54 (put_word 0x0588 0xff97 (put_word 0x058A 0x2606 (put_word 0x05A0 0x06d8
      (put_word 0x05A8 0xff97 (put_word 0x05AA 0xcb8a (bytes_of_words (repeat 0x03cc 192 ++ repeat 0 256)))))));
     mk_status := [0; 8]; mk_control := [9; 1]; mk_i2c_config := [0; 0]; mk_recent := [] |}.
Definition example_mlx90640 (i2c : Z) : mock :=
  new_mlx90640 i2c example640_bytes (bytes_of_words ex_frame0_words) [0x19; 0x01] [0; 0] [0; 0].

Notation mdriver := (driver (FO := TF) (B := mock) (ER := mock_error) (EW := mock_error)).
Definition open640 (k : mock) (i2c : Z) : option mdriver :=
  match new mock_bus (calib640_from_i2c TF Debug mock_bus) 24 1536 (Build_world k []) i2c with
  | (Ok d, _) => Some d
  | _ => None
  end.
Definition open641 (k : mock) (i2c : Z) : option mdriver :=
  match new mock_bus (calib641_from_i2c TF Debug mock_bus) 12 384 (Build_world k []) i2c with
  | (Ok d, _) => Some d
  | _ => None
  end.
(** The test changes the camera (shared through [Rc]) between two driver calls. *)
Definition meanwhile (f : mock -> mock) (d : mdriver) : mdriver :=
  with_bus d (Build_world (f (dev (d_bus d))) (trace (d_bus d))).

(** driver.rs 563-566 *)
Example t_smoke : some (open640 (datasheet_mlx90640 0x33) 0x33) (fun _ => true) && some (open641 (mock_mlx90641 0x33) 0x33) (fun _ => true) = true.
Proof. vm_compute. reflexivity. Qed.

(** driver.rs 568-597 *)
Definition operations (k : mock) : nat := length (mk_recent k).
Example t_read_register :
  match read_register mock_bus 0x10 I2C_CONFIG_ADDRESS (Build_world (datasheet_mlx90640 0x10) []) with
  | (Ok v, w) => (v =? 0) && Nat.eqb (operations (dev w)) 1
  | _ => false
  end = true.
Proof. vm_compute. reflexivity. Qed.
Example t_read_write_register :
  match read_register mock_bus 0x42 STATUS_ADDRESS (Build_world (datasheet_mlx90640 0x42) []) with
  | (Ok v, w) =>
      Nat.eqb (operations (dev w)) 1 && negb (overwrite_enabled v) &&
      match write_register mock_bus 0x42 STATUS_ADDRESS (set_overwrite_enabled v true) w with
      | (Ok _, w) => Nat.eqb (operations (dev w)) 2
      | _ => false
      end
  | _ => false
  end = true.
Proof. vm_compute. reflexivity. Qed.

(** driver.rs 599-626 *)
Example t_emissivity :
  some (open640 (datasheet_mlx90640 0x33) 0x33) (fun d =>
    same (effective_emissivity d) (lit 1 1) &&
    (let d := override_emissivity (FO := TF) (lit 92 100) d in
     same (effective_emissivity d) (lit 92 100) && same (effective_emissivity (use_default_emissivity d)) (lit 1 1))) = true.
Proof. vm_compute. reflexivity. Qed.
Example t_reflected :
  some (open640 (datasheet_mlx90640 0x33) 0x33) (fun d =>
    match reflected_temperature d with None => true | _ => false end &&
    (let d := set_reflected_temperature (FO := TF) (Some (lit 21 2)) d in
     some (reflected_temperature d) (same (lit 21 2)) &&
     match reflected_temperature (set_reflected_temperature (FO := TF) None d) with None => true | _ => false end)) = true.
Proof. vm_compute. reflexivity. Qed.

(** driver.rs 628-643 *)
Example t_datasheet_integration_640 :
  some (open640 (datasheet_mlx90640 0x33) 0x33) (fun d =>
    match generate_image_subpage_to (FO := TF) Debug mock_bus Zero (repeat (b_ofZ 0) 768) d with
    | (Ok tt, _, image) => at_ image 367 (approx 1 2 0 (lit 8036331 (10 ^ 5)))
    | _ => false
    end) = true.
Proof. vm_compute. reflexivity. Qed.
(** driver.rs 645-655 *)
Example t_datasheet_integration_641 :
  some (open641 (mock_mlx90641 0x33) 0x33) (fun d =>
    match generate_image_if_ready (FO := TF) Debug mock_bus (repeat (b_ofZ 0) 192) d with
    | (Ok true, _, image) => at_ image pix641 (approx 1 2 0 (lit 80129812 (10 ^ 6)))
    | _ => false
    end) = true.
Proof. vm_compute. reflexivity. Qed.

(** driver.rs 657-698: two recorded frames, all 768 temperatures within 0.001 *)
Definition is_nan (x : f32) : bool := match x with B754_nan => true | _ => false end.
Example t_example_integration :
  some (open640 (set_data_available (example_mlx90640 0x43) false) 0x43) (fun d =>
    match generate_image_if_ready (FO := TF) Debug mock_bus (repeat B754_nan 768) d with
    | (Ok false, d, image) =>
        forallb is_nan image && Nat.eqb (length image) 768 &&
        match generate_image_if_ready (FO := TF) Debug mock_bus image (meanwhile (fun k => set_data_available k true) d) with
        | (Ok true, d, image) =>
            let next k := set_data_available (update_frame k (bytes_of_words ex_frame1_words) [0; 1]) true in
            match generate_image_if_ready (FO := TF) Debug mock_bus image (meanwhile next d) with
            | (Ok true, _, image) => all2 (fun x n => approx_eps 1000 x (lit n 1000)) image ex_temperatures
            | _ => false
            end
        | _ => false
        end
    | _ => false
    end) = true.
Proof. vm_compute. reflexivity. Qed.

(** driver.rs 700-764 *)
Definition sentinel : list Z := flat_map (fun _ => [0xDE; 0xAD; 0xBE; 0xEF]) (seq 0 96).
Fixpoint untouched (l : list Z) : bool :=
  match l with
  | a :: b :: c :: e :: r => ((a =? 0xDE) && (b =? 0xAD)) || ((c =? 0xBE) && (e =? 0xEF)) || untouched r
  | _ => false
  end.
Example t_ram_access_641 :
  forallb (fun '(i2c, s) =>
    match read_ram (FO := TF) mock_bus (Mlx90641 TF) 12 i2c Interleave s sentinel (Build_world (mock_mlx90641 i2c) []) with
    | (Ok _, buf, _) => negb (untouched buf)
    | _ => false
    end) [(0x47, Zero); (0x49, One)] = true.
Proof. vm_compute. reflexivity. Qed.

(** driver.rs 766-799 *)
Definition forget (k : mock) : mock :=
  {| mk_i2c_address := mk_i2c_address k; mk_ram_end := mk_ram_end k; mk_eeprom := mk_eeprom k; mk_ram := mk_ram k;
     mk_status := mk_status k; mk_control := mk_control k; mk_i2c_config := mk_i2c_config k; mk_recent := [] |}.
Example t_minimal_operations :
  some (open640 (set_data_available (example_mlx90640 0x49) false) 0x49) (fun d =>
    let d := meanwhile forget d in
    match drv_frame_rate mock_bus d, drv_set_frame_rate mock_bus FR_SixtyFour d with
    | (Ok _, d1), (Ok _, d2) => Nat.eqb (operations (dev (d_bus d1))) 1 && Nat.eqb (operations (dev (d_bus d2))) 2
    | _, _ => false
    end) = true.
Proof. vm_compute. reflexivity. Qed.
