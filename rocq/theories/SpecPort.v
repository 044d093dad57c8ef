(** * SpecPort: the same program built with two mathematical libraries ([std] and [libm], or two targets). *)
From Verif Require Import Base FloatOps Register Bus Camera Calc B32 SpecReplay Driver.

Section Port.
Context (l l' : libm).

(** The two libraries compute the same cubes, fourth powers and fourth roots. *)
Definition quarter : f32 := b_div (b_ofZ 1) (b_ofZ 4).
Definition same_powers : Prop :=
  (forall x, lm_powi l' x 3 = lm_powi l x 3) /\ (forall x, lm_powi l' x 4 = lm_powi l x 4) /\
  (forall x, lm_powf l' x quarter = lm_powf l x quarter).

(** The same camera: everything is equal, number by number. *)
Record same_camera (k : camera (B32 l)) (k' : camera (B32 l')) : Prop := {
  sc_ranges : forall sp ap, pixel_ranges _ k' sp ap = pixel_ranges _ k sp ap;
  sc_pixels : forall sp ap, pixels_in_subpage _ k' sp ap = pixels_in_subpage _ k sp ap;
  sc_vbe : T_A_V_BE _ k' = T_A_V_BE _ k;
  sc_ptat : T_A_PTAT _ k' = T_A_PTAT _ k;
  sc_cp : forall sp, compensation_pixel_addr _ k' sp = compensation_pixel_addr _ k sp;
  sc_gain : GAIN _ k' = GAIN _ k;
  sc_vdd : V_DD_PIXEL _ k' = V_DD_PIXEL _ k;
  sc_resolution : forall a b, resolution_correction _ k' a b = resolution_correction _ k a b :> f32;
  sc_range : BASIC_TEMPERATURE_RANGE _ k' = BASIC_TEMPERATURE_RANGE _ k;
  sc_heating : SELF_HEATING _ k' = SELF_HEATING _ k :> f32;
  sc_height : HEIGHT _ k' = HEIGHT _ k;
  sc_width : WIDTH _ k' = WIDTH _ k;
  sc_number : NUM_PIXELS _ k' = NUM_PIXELS _ k
}.

(** The same calibration data: everything is equal, number by number, bit for bit. *)
Record same_calibration (c : calib (B32 l)) (c' : calib (B32 l')) : Prop := {
  sl_cam : same_camera (cam _ c) (cam _ c');
  sl_k_v_dd : k_v_dd _ c' = k_v_dd _ c;
  sl_v_dd_25 : v_dd_25 _ c' = v_dd_25 _ c;
  sl_resolution : cal_resolution _ c' = cal_resolution _ c;
  sl_v_dd_0 : v_dd_0 _ c' = v_dd_0 _ c :> f32;
  sl_k_v_ptat : k_v_ptat _ c' = k_v_ptat _ c :> f32;
  sl_k_t_ptat : k_t_ptat _ c' = k_t_ptat _ c :> f32;
  sl_v_ptat_25 : v_ptat_25 _ c' = v_ptat_25 _ c :> f32;
  sl_alpha_ptat : alpha_ptat _ c' = alpha_ptat _ c :> f32;
  sl_gain : cal_gain _ c' = cal_gain _ c :> f32;
  sl_k_s_ta : k_s_ta _ c' = k_s_ta _ c :> f32;
  sl_corners : corner_temperatures _ c' = corner_temperatures _ c;
  sl_k_s_to : k_s_to _ c' = k_s_to _ c :> list f32;
  sl_correction : alpha_correction _ c' = alpha_correction _ c :> list f32;
  sl_emissivity : cal_emissivity _ c' = cal_emissivity _ c :> option f32;
  sl_offset : forall sp, offset_reference_pixels _ c' sp = offset_reference_pixels _ c sp;
  sl_offset_cp : forall sp, offset_reference_cp _ c' sp = offset_reference_cp _ c sp;
  sl_alpha : forall sp, alpha_pixels _ c' sp = alpha_pixels _ c sp :> list f32;
  sl_alpha_cp : forall sp, alpha_cp _ c' sp = alpha_cp _ c sp :> f32;
  sl_k_v : forall sp, k_v_pixels _ c' sp = k_v_pixels _ c sp :> list f32;
  sl_k_v_cp : forall sp, k_v_cp _ c' sp = k_v_cp _ c sp :> f32;
  sl_k_ta : forall sp, k_ta_pixels _ c' sp = k_ta_pixels _ c sp :> list f32;
  sl_k_ta_cp : forall sp, k_ta_cp _ c' sp = k_ta_cp _ c sp :> f32;
  sl_tgc : temperature_gradient_coefficient _ c' = temperature_gradient_coefficient _ c :> option f32;
  sl_pattern : forall ap, access_pattern_compensation_pixels _ c' ap = access_pattern_compensation_pixels _ c ap :> list (option f32);
  sl_pattern_cp : forall sp ap, access_pattern_compensation_cp _ c' sp ap = access_pattern_compensation_cp _ c sp ap :> option f32;
  sl_failed : failed_pixels _ c' = failed_pixels _ c;
  sl_outlier : outlier_pixels _ c' = outlier_pixels _ c
}.

(** Two results: both succeed, with related values, or both fail in the same way. *)
Definition both {E A A'} (rel : A -> A' -> Prop) (r : res E A) (r' : res E A') : Prop :=
  match r, r' with
  | Ok a, Ok a' => rel a a'
  | Err e, Err e' => e' = e
  | Panic, Panic => True
  | Diverge, Diverge => True
  | _, _ => False
  end.

Section Drivers.
Context {B ER EW : Type}.
Notation driver_of l := (driver (FO := B32 l) (B := B) (ER := ER) (EW := EW)).

(** The same driver: the same calibration data and the same state of everything. *)
Record same_driver (d : driver_of l) (d' : driver_of l') : Prop := {
  sd_bus : d_bus d' = d_bus d;
  sd_address : d_address d' = d_address d;
  sd_calibration : same_calibration (d_calibration d) (d_calibration d');
  sd_buffer : d_pixel_buffer d' = d_pixel_buffer d;
  sd_correction : d_resolution_correction d' = d_resolution_correction d :> f32;
  sd_ambient : d_ambient d' = d_ambient d :> option f32;
  sd_emissivity : d_emissivity d' = d_emissivity d :> f32;
  sd_pattern : d_access_pattern d' = d_access_pattern d;
  sd_reflected : d_reflected d' = d_reflected d :> option f32;
  sd_height : d_height d' = d_height d
}.

(** The same call, in the other program. *)
Definition same_call (o : op (FO := B32 l)) : op (FO := B32 l') :=
  match o with
  | OpLastMeasuredSubpage => OpLastMeasuredSubpage
  | OpDataAvailable => OpDataAvailable
  | OpResetDataAvailable => OpResetDataAvailable
  | OpOverwriteEnabled => OpOverwriteEnabled
  | OpSetOverwriteEnabled v => OpSetOverwriteEnabled v
  | OpSubpagesEnabled => OpSubpagesEnabled
  | OpSetUseSubpages v => OpSetUseSubpages v
  | OpDataHoldEnabled => OpDataHoldEnabled
  | OpSetDataHold v => OpSetDataHold v
  | OpSubpageRepeat => OpSubpageRepeat
  | OpSetSubpageRepeat v => OpSetSubpageRepeat v
  | OpSelectedSubpage => OpSelectedSubpage
  | OpSetSubpage v => OpSetSubpage v
  | OpFrameRate => OpFrameRate
  | OpSetFrameRate v => OpSetFrameRate v
  | OpResolution => OpResolution
  | OpSetResolution v => OpSetResolution v
  | OpAccessPattern => OpAccessPattern
  | OpSetAccessPattern v => OpSetAccessPattern v
  | OpEffectiveEmissivity => OpEffectiveEmissivity
  | OpOverrideEmissivity v => OpOverrideEmissivity (FO := B32 l') v
  | OpUseDefaultEmissivity => OpUseDefaultEmissivity
  | OpReflectedTemperature => OpReflectedTemperature
  | OpSetReflectedTemperature v => OpSetReflectedTemperature (FO := B32 l') v
  | OpAmbientTemperature => OpAmbientTemperature
  | OpHeight => OpHeight
  | OpWidth => OpWidth
  | OpGenerateRawSubpage sp dest => OpGenerateRawSubpage (FO := B32 l') sp dest
  | OpGenerateSubpage sp dest => OpGenerateSubpage (FO := B32 l') sp dest
  | OpGenerateImage dest => OpGenerateImage (FO := B32 l') dest
  | OpGenerateIfReady dest => OpGenerateIfReady (FO := B32 l') dest
  | OpSynchronize fuel => OpSynchronize fuel
  end.
(** The same returned value. *)
Definition same_value (x : out (FO := B32 l)) : out (FO := B32 l') :=
  match x with
  | OutUnit => OutUnit
  | OutBool b => OutBool b
  | OutSubpage s => OutSubpage s
  | OutOptSubpage s => OutOptSubpage s
  | OutFrameRate f => OutFrameRate f
  | OutResolution r => OutResolution r
  | OutAccessPattern a => OutAccessPattern a
  | OutFloat f => OutFloat (FO := B32 l') f
  | OutOptFloat f => OutOptFloat (FO := B32 l') f
  | OutNat n => OutNat n
  end.
(** Calls that store object temperatures. *)
Definition stores_temperatures (o : op (FO := B32 l)) : Prop :=
  match o with OpGenerateSubpage _ _ | OpGenerateImage _ | OpGenerateIfReady _ => True | _ => False end.
(** What the users of the two programs see of the call [o]: the same result; the same destination (raw
    images), or if object temperatures were stored, a destination of the same length, and the same if the
    libraries' powers agree. *)
Definition same_seen (o : op (FO := B32 l)) (x : observed (FO := B32 l) (ER := ER) (EW := EW))
    (y : observed (FO := B32 l') (ER := ER) (EW := EW)) : Prop :=
  fst y = bind (fst x) (fun v => Ok (same_value v)) /\
  length (snd y) = length (snd x) /\
  (stores_temperatures o -> same_powers -> snd y = snd x :> list f32) /\
  (~ stores_temperatures o -> snd y = snd x :> list f32).
End Drivers.
End Port.
