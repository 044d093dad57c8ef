(** * C63: write masks, defaults and addresses of the registers. *)
From Verif Require Import Base FloatOps Register BitFacts SpecRegister RegisterFacts P_Register.

(** The 16-bit word of two big-endian bytes. *)
Definition mask_word (m : list Z) : Z := nth 0 m 0 * 256 + nth 1 m 0.

(** What the public setters can make of a register value. *)
Inductive status_call (w : Z) : Z -> Prop :=
| sc_reset : status_call w (reset_new_data w)
| sc_overwrite b : status_call w (set_overwrite_enabled w b)
| sc_start : status_call w (set_start_measurement w).
Inductive control_call (w : Z) : Z -> Prop :=
| cc_use_subpages b : control_call w (set_use_subpages w b)
| cc_step_mode b : control_call w (set_step_mode w b)
| cc_data_hold b : control_call w (set_data_hold w b)
| cc_subpage_repeat b : control_call w (set_subpage_repeat w b)
| cc_subpage s : control_call w (set_ctl_subpage w s)
| cc_frame_rate f : control_call w (set_ctl_frame_rate w f)
| cc_resolution r : control_call w (set_ctl_resolution w r)
| cc_access_pattern a : control_call w (set_ctl_access_pattern w a).
Inductive i2c_call (r : i2c_register) : i2c_register -> Prop :=
| ic_fast b : i2c_call r (set_fast_mode_plus r b)
| ic_threshold b : i2c_call r (set_i2c_threshold_halved r b)
| ic_limiter b : i2c_call r (set_sda_current_limiter r b).

Lemma cases16 (P : Z -> Prop) : (forall n, (n < 16)%nat -> P (Z.of_nat n)) -> forall i, 0 <= i < 16 -> P i.
Proof. intros H i Hi. rewrite <- (Z2Nat.id i) by lia. apply H. lia. Qed.

Lemma outside lo n w w' i : only_changes lo n w w' -> 0 <= i < 16 -> bit w' i <> bit w i -> lo <= i < lo + n.
Proof.
  intros [_ H] Hi Hb. destruct (Z_le_dec lo i), (Z_lt_dec i (lo + n)); try lia; exfalso; apply Hb, H; lia.
Qed.

Ltac reach c := exists 0, c; split; [unfold word; lia|]; split; [constructor|vm_compute; discriminate].
Ltac reach1 c := exists 65535, c; split; [unfold word; lia|]; split; [constructor|vm_compute; discriminate].

(** A bit of the status register can be changed by a setter exactly if it is in
    the write mask. *)
Theorem C63_status_write_mask : forall i, 0 <= i < 16 ->
  (bit (mask_word status_write_mask) i = true <->
   exists w w', word w /\ status_call w w' /\ bit w' i <> bit w i).
Proof.
  intros i Hi. split.
  - intros Hb. assert (C : i = 3 \/ i = 4 \/ i = 5).
    { revert i Hi Hb. apply (cases16 (fun i => bit (mask_word status_write_mask) i = true -> i = 3 \/ i = 4 \/ i = 5)).
      intros n Hn. do 16 (destruct n as [|n]; [intros Hb'; vm_compute in Hb'; try discriminate Hb'; lia|]). lia. }
    destruct C as [->|[->| ->]].
    + reach1 (reset_new_data 65535).
    + reach (set_overwrite_enabled 0 true).
    + reach (set_start_measurement 0).
  - intros (w & w' & Hw & H & Hb).
    destruct H as [|b|].
    + destruct (reset_new_data_spec w Hw) as [H _]. apply (outside 3 1 _ _ i H Hi) in Hb.
      assert (i = 3) as -> by lia. reflexivity.
    + destruct (set_overwrite_spec w b Hw) as [H _]. apply (outside 4 1 _ _ i H Hi) in Hb.
      assert (i = 4) as -> by lia. reflexivity.
    + destruct (set_start_spec w Hw) as [H _]. apply (outside 5 1 _ _ i H Hi) in Hb.
      assert (i = 5) as -> by lia. reflexivity.
Qed.
Print Assumptions C63_status_write_mask.

(** The same for the control register; its mask additionally contains the upper
    two bits of the documented three-bit subpage field, which no setter changes. *)
Theorem C63_control_write_mask : forall i, 0 <= i < 16 ->
  (bit (mask_word control_write_mask) i = true /\ i <> 5 /\ i <> 6 <->
   exists w w', word w /\ control_call w w' /\ bit w' i <> bit w i).
Proof.
  intros i Hi. split.
  - intros (Hb & H5 & H6). assert (C : 0 <= i <= 4 \/ 7 <= i <= 12).
    { revert i Hi Hb H5 H6. apply (cases16 (fun i => bit (mask_word control_write_mask) i = true -> i <> 5 -> i <> 6 -> 0 <= i <= 4 \/ 7 <= i <= 12)).
      intros n Hn. do 16 (destruct n as [|n]; [intros Hb' H5' H6'; vm_compute in Hb'; try discriminate Hb'; lia|]). lia. }
    assert (D : i = 0 \/ i = 1 \/ i = 2 \/ i = 3 \/ i = 4 \/ i = 7 \/ i = 8 \/ i = 9 \/ i = 10 \/ i = 11 \/ i = 12) by lia.
    destruct D as [->|[->|[->|[->|[->|[->|[->|[->|[->|[->| ->]]]]]]]]]].
    + reach (set_use_subpages 0 true).
    + reach (set_step_mode 0 true).
    + reach (set_data_hold 0 true).
    + reach (set_subpage_repeat 0 true).
    + reach (set_ctl_subpage 0 One).
    + reach (set_ctl_frame_rate 0 FR_SixtyFour).
    + reach (set_ctl_frame_rate 0 FR_SixtyFour).
    + reach (set_ctl_frame_rate 0 FR_SixtyFour).
    + reach (set_ctl_resolution 0 Res19).
    + reach (set_ctl_resolution 0 Res19).
    + reach (set_ctl_access_pattern 0 Chess).
  - intros (w & w' & Hw & H & Hb).
    assert (C : 0 <= i <= 4 \/ 7 <= i <= 12).
    { destruct H as [b|b|b|b|s|f|r|a].
      - destruct (set_use_subpages_spec w b Hw) as [H _]. apply (outside 0 1 _ _ i H Hi) in Hb. lia.
      - destruct (set_step_mode_spec w b Hw) as [H _]. apply (outside 1 1 _ _ i H Hi) in Hb. lia.
      - destruct (set_data_hold_spec w b Hw) as [H _]. apply (outside 2 1 _ _ i H Hi) in Hb. lia.
      - destruct (set_subpage_repeat_spec w b Hw) as [H _]. apply (outside 3 1 _ _ i H Hi) in Hb. lia.
      - destruct (set_ctl_subpage_spec w s Hw) as [H _]. apply (outside 4 1 _ _ i H Hi) in Hb. lia.
      - destruct (set_ctl_frame_rate_spec w f Hw) as [H _]. apply (outside 7 3 _ _ i H Hi) in Hb. lia.
      - destruct (set_ctl_resolution_spec w r Hw) as [H _]. apply (outside 10 2 _ _ i H Hi) in Hb. lia.
      - destruct (set_ctl_access_pattern_spec w a Hw) as [H _]. apply (outside 12 1 _ _ i H Hi) in Hb. lia. }
    assert (D : i = 0 \/ i = 1 \/ i = 2 \/ i = 3 \/ i = 4 \/ i = 7 \/ i = 8 \/ i = 9 \/ i = 10 \/ i = 11 \/ i = 12) by lia.
    destruct D as [->|[->|[->|[->|[->|[->|[->|[->|[->|[->| ->]]]]]]]]]]; (split; [reflexivity|lia]).
Qed.
Print Assumptions C63_control_write_mask.

(** The I2C configuration register as it is written back. *)
Theorem C63_i2c_write_mask : forall i, 0 <= i < 16 ->
  (bit (mask_word i2c_write_mask) i = true <->
   exists r r', i2c_call r r' /\
     bit (mask_word (i2c_register_to_bytes r')) i <> bit (mask_word (i2c_register_to_bytes r)) i).
Proof.
  intros i Hi. split.
  - intros Hb. assert (C : i = 0 \/ i = 1 \/ i = 2).
    { revert i Hi Hb. apply (cases16 (fun i => bit (mask_word i2c_write_mask) i = true -> i = 0 \/ i = 1 \/ i = 2)).
      intros n Hn. do 16 (destruct n as [|n]; [intros Hb'; vm_compute in Hb'; try discriminate Hb'; lia|]). lia. }
    destruct C as [->|[->| ->]]; exists i2c_register_default.
    + exists (set_fast_mode_plus i2c_register_default false). split; [constructor|vm_compute; discriminate].
    + exists (set_i2c_threshold_halved i2c_register_default true). split; [constructor|vm_compute; discriminate].
    + exists (set_sda_current_limiter i2c_register_default false). split; [constructor|vm_compute; discriminate].
  - intros (r & r' & H & Hb).
    revert i Hi Hb. apply (cases16 (fun i => bit _ i <> bit _ i -> bit (mask_word i2c_write_mask) i = true)).
    intros n Hn. destruct r as [x y z], H as [b|b|b];
      do 3 (destruct n as [|n]; [reflexivity|]); intros Hb; exfalso; apply Hb; clear Hb;
      destruct x, y, z, b; do 13 (destruct n as [|n]; [reflexivity|]); lia.
Qed.
Print Assumptions C63_i2c_write_mask.

(** ** Defaults *)
(** The documented power-on settings: subpages on, 2 frames per second, 18 bits;
    chess pattern on the MLX90640 and interleave on the MLX90641.  The rate and
    resolution are also the defaults of those types. *)
Theorem C63_control_defaults :
  let doc a := {| c_use_subpages := true; c_step_mode := false; c_data_hold := false; c_subpage_repeat := false;
                  c_subpage := Zero; c_frame_rate := frame_rate_default; c_resolution := resolution_default;
                  c_access_pattern := a |} in
  control_getters (E := unit) default_mlx90640 = Ok (doc Chess) /\
  control_getters (E := unit) default_mlx90641 = Ok (doc Interleave) /\
  frame_rate_default = FR_Two /\ resolution_default = Res18.
Proof. vm_compute. auto. Qed.
Print Assumptions C63_control_defaults.

(** The default I2C configuration is the all-zero register. *)
Theorem C63_i2c_default :
  i2c_register_to_bytes i2c_register_default = [0; 0] /\
  i2c_register_from_slice (E := unit) [0; 0] = Ok i2c_register_default.
Proof. vm_compute. auto. Qed.
Print Assumptions C63_i2c_default.

Example C63_concrete : bit (mask_word status_write_mask) 0 = false /\ bit (mask_word control_write_mask) 12 = true /\
  bit (mask_word control_write_mask) 13 = false.
Proof. vm_compute. auto. Qed.
