(** * SpecRegister: the documented layout of the camera's registers, written
    with division and remainder only (not with the masks of the code). *)
From Verif Require Import Base Register.

(** Bit [i] and the [n]-bit field at bit [lo] of a word. *)
Definition bit (w i : Z) : bool := (w / 2 ^ i) mod 2 =? 1.
Definition bits (w lo n : Z) : Z := (w / 2 ^ lo) mod 2 ^ n.

Definition doc_subpage (n : Z) : subpage := if n =? 0 then Zero else One.
(** Frame rate codes 0..7: 0.5, 1, 2, ..., 64 frames per second. *)
Definition doc_frame_rates : list frame_rate :=
  [FR_Half; FR_One; FR_Two; FR_Four; FR_Eight; FR_Sixteen; FR_ThirtyTwo; FR_SixtyFour].
Definition doc_frame_rate (n : Z) : frame_rate := nth (Z.to_nat n) doc_frame_rates FR_Half.
(** Resolution codes 0..3: 16, 17, 18, 19 bits. *)
Definition doc_resolutions : list resolution := [Res16; Res17; Res18; Res19].
Definition doc_resolution (n : Z) : resolution := nth (Z.to_nat n) doc_resolutions Res16.
Definition doc_access_pattern (n : Z) : access_pattern := if n =? 0 then Interleave else Chess.

(** Status register, 0x8000. *)
Record status_fields := {
  s_subpage : subpage;      (* bit 0 *)
  s_new_data : bool;        (* bit 3 *)
  s_overwrite : bool;       (* bit 4 *)
  s_start : bool            (* bit 5 *)
}.
Definition status_doc (w : Z) : status_fields :=
  {| s_subpage := doc_subpage (bits w 0 1); s_new_data := bit w 3;
     s_overwrite := bit w 4; s_start := bit w 5 |}.
Definition status_documented_bit (i : Z) : Prop := i = 0 \/ i = 3 \/ i = 4 \/ i = 5.

(** Control register 1, 0x800D. *)
Record control_fields := {
  c_use_subpages : bool;          (* bit 0 *)
  c_step_mode : bool;             (* bit 1 *)
  c_data_hold : bool;             (* bit 2 *)
  c_subpage_repeat : bool;        (* bit 3 *)
  c_subpage : subpage;            (* bits 4-6 documented, 1 bit used *)
  c_frame_rate : frame_rate;      (* bits 7-9 *)
  c_resolution : resolution;      (* bits 10-11 *)
  c_access_pattern : access_pattern (* bit 12 *)
}.
Definition control_doc (w : Z) : control_fields :=
  {| c_use_subpages := bit w 0; c_step_mode := bit w 1; c_data_hold := bit w 2;
     c_subpage_repeat := bit w 3; c_subpage := doc_subpage (bits w 4 1);
     c_frame_rate := doc_frame_rate (bits w 7 3); c_resolution := doc_resolution (bits w 10 2);
     c_access_pattern := doc_access_pattern (bits w 12 1) |}.
Definition control_documented_bit (i : Z) : Prop := 0 <= i <= 4 \/ 7 <= i <= 12.

(** [w'] is a 16-bit word equal to [w] except possibly in bits [lo .. lo+n-1]. *)
Definition only_changes (lo n w w' : Z) : Prop :=
  word w' /\ forall i, 0 <= i < 16 -> ~ (lo <= i < lo + n) -> bit w' i = bit w i.

(** What the API's getters return, as one value. *)
Definition status_getters {E} (w : Z) : res E status_fields :=
  do s <- last_updated_subpage w;
  Ok {| s_subpage := s; s_new_data := new_data w; s_overwrite := overwrite_enabled w;
        s_start := start_measurement w |}.
Definition control_getters {E} (w : Z) : res E control_fields :=
  do s <- ctl_subpage w;
  do f <- ctl_frame_rate w;
  do r <- ctl_resolution w;
  do a <- ctl_access_pattern w;
  Ok {| c_use_subpages := use_subpages w; c_step_mode := step_mode w; c_data_hold := data_hold w;
        c_subpage_repeat := subpage_repeat w; c_subpage := s; c_frame_rate := f;
        c_resolution := r; c_access_pattern := a |}.

(** One functional update per field of the control register. *)
Definition upd_use_subpages (f : control_fields) v := {| c_use_subpages := v; c_step_mode := c_step_mode f;
  c_data_hold := c_data_hold f; c_subpage_repeat := c_subpage_repeat f; c_subpage := c_subpage f;
  c_frame_rate := c_frame_rate f; c_resolution := c_resolution f; c_access_pattern := c_access_pattern f |}.
Definition upd_step_mode (f : control_fields) v := {| c_use_subpages := c_use_subpages f; c_step_mode := v;
  c_data_hold := c_data_hold f; c_subpage_repeat := c_subpage_repeat f; c_subpage := c_subpage f;
  c_frame_rate := c_frame_rate f; c_resolution := c_resolution f; c_access_pattern := c_access_pattern f |}.
Definition upd_data_hold (f : control_fields) v := {| c_use_subpages := c_use_subpages f; c_step_mode := c_step_mode f;
  c_data_hold := v; c_subpage_repeat := c_subpage_repeat f; c_subpage := c_subpage f;
  c_frame_rate := c_frame_rate f; c_resolution := c_resolution f; c_access_pattern := c_access_pattern f |}.
Definition upd_subpage_repeat (f : control_fields) v := {| c_use_subpages := c_use_subpages f; c_step_mode := c_step_mode f;
  c_data_hold := c_data_hold f; c_subpage_repeat := v; c_subpage := c_subpage f;
  c_frame_rate := c_frame_rate f; c_resolution := c_resolution f; c_access_pattern := c_access_pattern f |}.
Definition upd_subpage (f : control_fields) v := {| c_use_subpages := c_use_subpages f; c_step_mode := c_step_mode f;
  c_data_hold := c_data_hold f; c_subpage_repeat := c_subpage_repeat f; c_subpage := v;
  c_frame_rate := c_frame_rate f; c_resolution := c_resolution f; c_access_pattern := c_access_pattern f |}.
Definition upd_frame_rate (f : control_fields) v := {| c_use_subpages := c_use_subpages f; c_step_mode := c_step_mode f;
  c_data_hold := c_data_hold f; c_subpage_repeat := c_subpage_repeat f; c_subpage := c_subpage f;
  c_frame_rate := v; c_resolution := c_resolution f; c_access_pattern := c_access_pattern f |}.
Definition upd_resolution (f : control_fields) v := {| c_use_subpages := c_use_subpages f; c_step_mode := c_step_mode f;
  c_data_hold := c_data_hold f; c_subpage_repeat := c_subpage_repeat f; c_subpage := c_subpage f;
  c_frame_rate := c_frame_rate f; c_resolution := v; c_access_pattern := c_access_pattern f |}.
Definition upd_access_pattern (f : control_fields) v := {| c_use_subpages := c_use_subpages f; c_step_mode := c_step_mode f;
  c_data_hold := c_data_hold f; c_subpage_repeat := c_subpage_repeat f; c_subpage := c_subpage f;
  c_frame_rate := c_frame_rate f; c_resolution := c_resolution f; c_access_pattern := v |}.

Definition upd_new_data (f : status_fields) v :=
  {| s_subpage := s_subpage f; s_new_data := v; s_overwrite := s_overwrite f; s_start := s_start f |}.
Definition upd_overwrite (f : status_fields) v :=
  {| s_subpage := s_subpage f; s_new_data := s_new_data f; s_overwrite := v; s_start := s_start f |}.
Definition upd_start (f : status_fields) v :=
  {| s_subpage := s_subpage f; s_new_data := s_new_data f; s_overwrite := s_overwrite f; s_start := v |}.
