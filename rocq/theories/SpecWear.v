(** * SpecWear: cameras that differ in nothing but what their EEPROM reads as. *)
From Verif Require Import Base FloatOps Register Bus Camera Driver SpecCamera SpecDriver SpecReplay SpecIndep.

(** A read that starts in the EEPROM. *)
Definition eeprom_address (a : Z) : Prop := 0x2400 <= a <= 0x273F.
Definition asks_eeprom (wb : list Z) : Prop := exists a, eeprom_address a /\ wb = [a / 256; a mod 256].
Definition eeprom_read {ER EW} (x : event ER EW) : Prop :=
  match x with EvRead _ wb _ _ => asks_eeprom wb | EvWrite _ _ _ => False end.

(** The second camera does exactly what the first does, except that the data of EEPROM reads may differ. *)
Record same_but_eeprom {B ER EW} (bs bs' : bus B ER EW) : Prop := {
  sb_write : forall b a bytes, dev_write bs' b a bytes = dev_write bs b a bytes;
  sb_read : forall b a wb buf, ~ asks_eeprom wb -> dev_write_read bs' b a wb buf = dev_write_read bs b a wb buf;
  sb_eeprom : forall b a wb buf b1 out e, dev_write_read bs b a wb buf = (b1, out, e) ->
    exists out', dev_write_read bs' b a wb buf = (b1, out', e)
}.

(** The EEPROM dump a driver gets that is constructed now. *)
Definition dump {B ER EW} (bs : bus B ER EW) (w : world B ER EW) (a : Z) : list Z :=
  fst (fst (write_read bs a [0x24; 0x00] (repeat 0 1664) w)).

(** Two lists that are equal except perhaps at position [k]. *)
Definition but {A} (k : nat) (l l' : list A) : Prop :=
  length l' = length l /\ forall i, i <> k -> nth_error l' i = nth_error l i.

(** Two calibrations that are equal but for the values of pixel [k]. *)
Record agree_but {FO : FloatOps} (k : nat) (c c' : calib FO) : Prop := {
  ab_cam : cam _ c' = cam _ c;
  ab_k_v_dd : k_v_dd _ c' = k_v_dd _ c;
  ab_v_dd_25 : v_dd_25 _ c' = v_dd_25 _ c;
  ab_resolution : cal_resolution _ c' = cal_resolution _ c;
  ab_v_dd_0 : v_dd_0 _ c' = v_dd_0 _ c;
  ab_k_v_ptat : k_v_ptat _ c' = k_v_ptat _ c;
  ab_k_t_ptat : k_t_ptat _ c' = k_t_ptat _ c;
  ab_v_ptat_25 : v_ptat_25 _ c' = v_ptat_25 _ c;
  ab_alpha_ptat : alpha_ptat _ c' = alpha_ptat _ c;
  ab_gain : cal_gain _ c' = cal_gain _ c;
  ab_k_s_ta : k_s_ta _ c' = k_s_ta _ c;
  ab_corners : corner_temperatures _ c' = corner_temperatures _ c;
  ab_k_s_to : k_s_to _ c' = k_s_to _ c;
  ab_correction : alpha_correction _ c' = alpha_correction _ c;
  ab_emissivity : cal_emissivity _ c' = cal_emissivity _ c;
  ab_offset : forall sp, but k (offset_reference_pixels _ c sp) (offset_reference_pixels _ c' sp);
  ab_offset_cp : forall sp, offset_reference_cp _ c' sp = offset_reference_cp _ c sp;
  ab_alpha : forall sp, but k (alpha_pixels _ c sp) (alpha_pixels _ c' sp);
  ab_alpha_cp : forall sp, alpha_cp _ c' sp = alpha_cp _ c sp;
  ab_k_v : forall sp, but k (k_v_pixels _ c sp) (k_v_pixels _ c' sp);
  ab_k_v_cp : forall sp, k_v_cp _ c' sp = k_v_cp _ c sp;
  ab_k_ta : forall sp, but k (k_ta_pixels _ c sp) (k_ta_pixels _ c' sp);
  ab_k_ta_cp : forall sp, k_ta_cp _ c' sp = k_ta_cp _ c sp;
  ab_tgc : temperature_gradient_coefficient _ c' = temperature_gradient_coefficient _ c;
  ab_pattern : forall ap, access_pattern_compensation_pixels _ c' ap = access_pattern_compensation_pixels _ c ap;
  ab_pattern_cp : forall sp ap, access_pattern_compensation_cp _ c' sp ap = access_pattern_compensation_cp _ c sp ap;
  ab_failed : but k (failed_pixels _ c) (failed_pixels _ c');
  ab_outlier : but k (outlier_pixels _ c) (outlier_pixels _ c')
}.

(** What two users see of the same calls: the same results, and destinations that are equal except
    perhaps at position [k]. *)
Definition seen_but {FO : FloatOps} {ER EW} (k : nat) (x y : observed (FO := FO) (ER := ER) (EW := EW)) : Prop :=
  fst y = fst x /\ but k (snd x) (snd y).
