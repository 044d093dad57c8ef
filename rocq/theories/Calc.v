(** * Calc: models mlx9064x/src/calculations.rs (all but [RamData], in Camera.v). *)
From Verif Require Import Base FloatOps Register Bus Camera.

(** The pattern [dest.iter_mut().zip(items).filter(|_| mask.next().unwrap_or_default())
    .for_each(f)]: visits destination and items in parallel until one ends; one
    mask value is consumed per visited element, [false] after the mask's end. *)
Fixpoint masked_for_each {A X} (f : A -> X -> A) (dest : list A) (items : list X)
    (mask : list bool) : list A :=
  match dest, items with
  | d :: dest', x :: items' =>
      (if hd false mask then f d x else d) :: masked_for_each f dest' items' (tl mask)
  | _, _ => dest
  end.

Section Calc.
Context {FO : FloatOps} (p : profile).
Notation F := (F FO).
Notation calib := (calib FO).

(** calculations.rs 161-163 [delta_v]: an i16 subtraction, then f32. *)
Definition delta_v {E} (c : calib) (vdd_pixel : Z) : res E F :=
  do d <- chk_i16 p (vdd_pixel - v_dd_25 _ c);
  Ok (fdiv (fofZ d) (fofZ (k_v_dd _ c))).

(** calculations.rs 185-191 [v_dd] *)
Definition v_dd (c : calib) (resolution_corr delta_v : F) : F :=
  fadd (fmul delta_v resolution_corr) (v_dd_0 _ c).

(** calculations.rs 206-214 [v_ptat_art] *)
Definition v_ptat_art (c : calib) (t_a_ptat t_a_v_be : Z) : F :=
  let denom := fadd (fmul (fofZ t_a_ptat) (alpha_ptat _ c)) (fofZ t_a_v_be) in
  fmul (fdiv (fofZ t_a_ptat) denom) (fexp2 (fofZ 18)).

(** calculations.rs 231-239 [ambient_temperature] *)
Definition ambient_temperature (c : calib) (v_ptat_art delta_v : F) : F :=
  let numerator :=
    fsub (fdiv v_ptat_art (fadd (fofZ 1) (fmul (k_v_ptat _ c) delta_v))) (v_ptat_25 _ c) in
  fadd (fdiv numerator (k_t_ptat _ c)) (fofZ 25).

(** calculations.rs 326-357 [CommonIrData] *)
Record common_ir_data := {
  c_gain : F;
  c_v_dd : F;
  c_emissivity : F;
  c_t_a : F
}.

(** calculations.rs 359-388 [CommonIrData::new] *)
Definition common_new {E} (resolution_corr emissivity : F) (c : calib) (ram : ram_data)
    : res E common_ir_data :=
  do dv <- delta_v c (v_dd_pixel ram);
  let vdd := v_dd c resolution_corr dv in
  let art := v_ptat_art c (t_a_ptat ram) (t_a_v_be ram) in
  let t_a := ambient_temperature c art dv in
  let gain := fdiv (cal_gain _ c) (fofZ (ram_gain ram)) in
  Ok {| c_gain := gain; c_v_dd := vdd; c_emissivity := emissivity; c_t_a := t_a |}.

(** calculations.rs 419-434 [per_pixel_v_ir]; [f32::default()] is 0. *)
Definition per_pixel_v_ir (pixel_data : Z) (common : common_ir_data) (reference_offset : Z)
    (k_v k_ta : F) (access_mode_compensation : option F) : F :=
  let pixel_gain := fmul (fofZ pixel_data) (c_gain common) in
  let comp := match access_mode_compensation with Some v => v | None => fofZ 0 end in
  let pixel_offset :=
    fsub (fadd pixel_gain comp)
         (fmul (fmul (fofZ reference_offset)
                     (fadd (fofZ 1) (fmul k_ta (fsub (c_t_a common) (fofZ 25)))))
               (fadd (fofZ 1) (fmul k_v (fsub (c_v_dd common) f_3_3)))) in
  fdiv pixel_offset (c_emissivity common).

(** calculations.rs 470-483 and 696-709: the compensation pixel term
    (identical text in both functions). *)
Definition compensation_pixel_term (c : calib) (common : common_ir_data) (ram : ram_data)
    (sp : subpage) (ap : access_pattern) : option F :=
  match temperature_gradient_coefficient _ c with
  | Some tgc =>
      Some (fmul tgc (per_pixel_v_ir (compensation_pixel ram) common (offset_reference_cp _ c sp)
                        (k_v_cp _ c sp) (k_ta_cp _ c sp)
                        (access_pattern_compensation_cp _ c sp ap)))
  | None => None
  end.

(** [i16::from_be_bytes] of a two byte chunk *)
Definition pixel_word (bytes : Z * Z) : Z := i16_of_u16 (be16 (fst bytes) (snd bytes)).

(** calculations.rs 452-528 [raw_pixels_to_ir_data]: (t_a, new destination).
    On a panic the destination is untouched (nothing after the first store can
    panic). *)
Definition raw_pixels_to_ir_data {E} (c : calib) (emissivity resolution_corr : F)
    (pixel_data : list Z) (ram : ram_data) (sp : subpage) (ap : access_pattern)
    (valid_pixels : list bool) (destination : list F) : res E (F * list F) :=
  do common <- common_new resolution_corr emissivity c ram;
  let comp_off := compensation_pixel_term c common ram sp ap in
  let items :=
    zip (zip (zip (zip (chunks2 pixel_data) (offset_reference_pixels _ c sp))
                  (k_v_pixels _ c sp)) (k_ta_pixels _ c sp))
        (access_pattern_compensation_pixels _ c ap) in
  Ok (c_t_a common,
      masked_for_each
        (fun _ '((((px, reference_offset), kv), kta), amc) =>
           let pixel_offset := per_pixel_v_ir (pixel_word px) common reference_offset kv kta amc in
           match comp_off with
           | Some o => fsub pixel_offset o
           | None => pixel_offset
           end)
        destination items valid_pixels).

(** calculations.rs 546-562 [t_ar] *)
Definition t_ar (t_a t_r emissivity : F) : F :=
  let t_a_k4 := fpowi (fadd t_a f_273_15) 4 in
  if feqb emissivity (fofZ 1) then t_a_k4
  else
    let t_r_k4 := fpowi (fadd t_r f_273_15) 4 in
    fsub t_r_k4 (fdiv (fsub t_r_k4 t_a_k4) emissivity).

(** calculations.rs 571-579 [sensitivity_correction_coefficient] *)
Definition sensitivity_correction_coefficient (c : calib) (t_a : F) : F :=
  fadd (fofZ 1) (fmul (k_s_ta _ c) (fsub t_a (fofZ 25))).

(** calculations.rs 620-626 [per_pixel_temperature] *)
Definition per_pixel_temperature (v_ir alpha t_ar k_s_to : F) : F :=
  let s_x := fmul k_s_to (fpowf (fadd (fmul (fpowi alpha 3) v_ir) (fmul (fpowi alpha 4) t_ar))
                                f_quarter) in
  let t_o_root :=
    fpowf (fadd (fdiv v_ir (fadd (fmul alpha (fsub (fofZ 1) (fmul k_s_to f_273_15))) s_x)) t_ar)
          f_quarter in
  fsub t_o_root f_273_15.

(** calculations.rs 649-651 and 712-714 *)
Definition alpha_compensation_pixel (c : calib) (sp : subpage) : option F :=
  match temperature_gradient_coefficient _ c with
  | Some tgc => Some (fmul (alpha_cp _ c sp) tgc)
  | None => None
  end.

(** calculations.rs 664-667 and 759-762 *)
Definition compensated_alpha (acp : option F) (alpha alpha_coefficient : F) : F :=
  fmul (match acp with Some a => fsub alpha a | None => alpha end) alpha_coefficient.

(** [Option::unwrap_or] *)
Definition unwrap_or {A} (o : option A) (d : A) : A := match o with Some a => a | None => d end.

(** calculations.rs 635-670 [raw_ir_to_temperatures]: indexing
    [k_s_to()[BASIC_TEMPERATURE_RANGE]] panics when out of range. *)
Definition raw_ir_to_temperatures {E} (c : calib) (emissivity t_a : F) (t_r : option F)
    (sp : subpage) (valid_pixels : list bool) (destination : list F) : res E (list F) :=
  let acp := alpha_compensation_pixel c sp in
  do k_s_to_basic <- unwrap (nth_error (k_s_to _ c) (BASIC_TEMPERATURE_RANGE _ (cam _ c)));
  let alpha_coefficient := sensitivity_correction_coefficient c t_a in
  let t_r := unwrap_or t_r (fsub t_a (SELF_HEATING _ (cam _ c))) in
  let tar := t_ar t_a t_r emissivity in
  Ok (masked_for_each
        (fun v_ir alpha =>
           per_pixel_temperature v_ir (compensated_alpha acp alpha alpha_coefficient) tar
             k_s_to_basic)
        destination (alpha_pixels _ c sp) valid_pixels).

(** calculations.rs 677-767 [raw_pixels_to_temperatures]: (t_a, new destination) *)
Definition raw_pixels_to_temperatures {E} (c : calib) (emissivity : F) (t_r : option F)
    (resolution_corr : F) (pixel_data : list Z) (ram : ram_data) (sp : subpage)
    (ap : access_pattern) (valid_pixels : list bool) (destination : list F)
    : res E (F * list F) :=
  do common <- common_new resolution_corr emissivity c ram;
  let comp_off := compensation_pixel_term c common ram sp ap in
  let acp := alpha_compensation_pixel c sp in
  do k_s_to_basic <- unwrap (nth_error (k_s_to _ c) (BASIC_TEMPERATURE_RANGE _ (cam _ c)));
  let alpha_coefficient := sensitivity_correction_coefficient c (c_t_a common) in
  let t_r := unwrap_or t_r (fsub (c_t_a common) (SELF_HEATING _ (cam _ c))) in
  let tar := t_ar (c_t_a common) t_r emissivity in
  let items :=
    zip (zip (zip (zip (zip (chunks2 pixel_data) (offset_reference_pixels _ c sp))
                       (k_v_pixels _ c sp)) (k_ta_pixels _ c sp)) (alpha_pixels _ c sp))
        (access_pattern_compensation_pixels _ c ap) in
  Ok (c_t_a common,
      masked_for_each
        (fun _ '(((((px, reference_offset), kv), kta), alpha), amc) =>
           let v := per_pixel_v_ir (pixel_word px) common reference_offset kv kta amc in
           let v_ir := match comp_off with Some o => fsub v o | None => v end in
           per_pixel_temperature v_ir (compensated_alpha acp alpha alpha_coefficient) tar
             k_s_to_basic)
        destination items valid_pixels).
End Calc.
