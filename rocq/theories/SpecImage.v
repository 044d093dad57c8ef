(** * SpecImage: the value of every pixel of an image, as the datasheets and the
    documentation of calculations.rs give it, from camera memory, calibration
    data and driver settings.  Written over an arbitrary float arithmetic, with
    the order of operations of the documentation's formulas. *)
From Verif Require Import Base FloatOps Register Bus Camera SpecCamera.

Section Formulas.
Context {FO : FloatOps}.
Notation F := (F FO).
Local Infix "+." := fadd (at level 50, left associativity).
Local Infix "-." := fsub (at level 50, left associativity).
Local Infix "*." := fmul (at level 40, left associativity).
Local Infix "/." := fdiv (at level 40, left associativity).
Local Notation "# z" := (fofZ z) (at level 5).

(** What the user and the camera have set. *)
Record settings := {
  set_emissivity : F;
  set_reflected : option F;
  set_correction : F;           (* resolution correction factor *)
  set_pattern : access_pattern
}.
Context (c : calib FO) (lay : layout) (s : settings) (sp : subpage) (mem : Z -> Z).

Definition ram (a : Z) : Z := signed (mem a).

(** Delta V, V_DD (11.2.2.2): the difference is a 16-bit subtraction. *)
Definition doc_delta_v : F := #(wrap16 (ram (lay_vdd lay) - v_dd_25 _ c)) /. #(k_v_dd _ c).
Definition doc_v_dd : F := doc_delta_v *. set_correction s +. v_dd_0 _ c.
(** T_a (11.2.2.3) *)
Definition doc_v_ptat_art : F :=
  #(ram (lay_ptat lay)) /. (#(ram (lay_ptat lay)) *. alpha_ptat _ c +. #(ram (lay_vbe lay))) *. fexp2 #18.
Definition doc_t_a : F :=
  (doc_v_ptat_art /. (#1 +. k_v_ptat _ c *. doc_delta_v) -. v_ptat_25 _ c) /. k_t_ptat _ c +. #25.
(** Gain (11.2.2.4) *)
Definition doc_gain : F := cal_gain _ c /. #(ram (lay_gain lay)).
(** Offset, V_DD and T_a compensation, emissivity (11.2.2.5) of a raw value. *)
Definition doc_compensated (raw offset : Z) (kv kta : F) (pattern_term : option F) : F :=
  (#raw *. doc_gain +. (match pattern_term with Some v => v | None => #0 end)
   -. #offset *. (#1 +. kta *. (doc_t_a -. #25)) *. (#1 +. kv *. (doc_v_dd -. f_3_3)))
  /. set_emissivity s.
(** Temperature gradient compensation (11.2.2.6-7). *)
Definition doc_v_ir (i : nat) : F :=
  let v := doc_compensated (ram (lay_address lay sp i))
             (nth i (offset_reference_pixels _ c sp) 0) (nth i (k_v_pixels _ c sp) #0)
             (nth i (k_ta_pixels _ c sp) #0)
             (nth i (access_pattern_compensation_pixels _ c (set_pattern s)) None) in
  match temperature_gradient_coefficient _ c with
  | None => v
  | Some tgc =>
      v -. tgc *. doc_compensated (ram (lay_cp lay sp)) (offset_reference_cp _ c sp)
                    (k_v_cp _ c sp) (k_ta_cp _ c sp)
                    (access_pattern_compensation_cp _ c sp (set_pattern s))
  end.
(** Sensitivity (11.2.2.8). *)
Definition doc_alpha (i : nat) : F :=
  (match temperature_gradient_coefficient _ c with
   | None => nth i (alpha_pixels _ c sp) #0
   | Some tgc => nth i (alpha_pixels _ c sp) #0 -. alpha_cp _ c sp *. tgc
   end) *. (#1 +. k_s_ta _ c *. (doc_t_a -. #25)).
(** T_a-r (11.2.2.9): the reflected temperature defaults to T_a minus self heating. *)
Definition doc_t_ar : F :=
  let ta4 := fpowi (doc_t_a +. f_273_15) 4 in
  let tr4 := fpowi ((match set_reflected s with
                     | Some t => t
                     | None => doc_t_a -. #(lay_self_heating lay)
                     end) +. f_273_15) 4 in
  if feqb (set_emissivity s) #1 then ta4
  else tr4 -. (tr4 -. ta4) /. set_emissivity s.
(** T_o (11.2.2.9): [kst] is K_sTo of the basic temperature range. *)
Definition doc_t_o (kst : F) (i : nat) : F :=
  let a := doc_alpha i in
  let v := doc_v_ir i in
  let s_x := kst *. fpowf (fpowi a 3 *. v +. fpowi a 4 *. doc_t_ar) f_quarter in
  fpowf (v /. (a *. (#1 -. kst *. f_273_15) +. s_x) +. doc_t_ar) f_quarter -. f_273_15.

(** What an image call stores for pixel [i]. *)
Definition doc_pixel (raw : bool) (i : nat) : F :=
  if raw then doc_v_ir i
  else doc_t_o (nth (lay_basic_range lay) (k_s_to _ c) #0) i.
End Formulas.

(** Calibration data with a value for every pixel. *)
Definition complete {FO : FloatOps} (c : calib FO) (lay : layout) : Prop :=
  (forall sp, length (offset_reference_pixels _ c sp) = lay_pixels lay) /\
  (forall sp, length (alpha_pixels _ c sp) = lay_pixels lay) /\
  (forall sp, length (k_v_pixels _ c sp) = lay_pixels lay) /\
  (forall sp, length (k_ta_pixels _ c sp) = lay_pixels lay) /\
  (forall ap, length (access_pattern_compensation_pixels _ c ap) = lay_pixels lay) /\
  (lay_basic_range lay < length (k_s_to _ c))%nat.

(** Pixel number [i] (row-major) exists and belongs to the subpage. *)
Definition measured (lay : layout) (sp : subpage) (ap : access_pattern) (i : nat) : bool :=
  Nat.ltb i (lay_pixels lay) && lay_in_subpage lay sp ap (i / lay_width lay) (i mod lay_width lay).

(** [dest'] is [dest] with the documented values stored for the pixels of the subpage. *)
Definition image_stored {FO : FloatOps} (c : calib FO) (lay : layout) (s : settings) (sp : subpage)
    (mem : Z -> Z) (raw : bool) (dest dest' : list (F FO)) : Prop :=
  length dest' = length dest /\
  forall i v, nth_error dest i = Some v ->
    nth_error dest' i =
      Some (if measured lay sp (set_pattern s) i then doc_pixel c lay s sp mem raw i else v).
