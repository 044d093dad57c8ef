(** * Spec641: the calibration data of the MLX90641 as its datasheet (section
    11.2.2) defines it.  [dw i] is the 11-bit data word at address 0x2400 + i,
    after correction with the checksum bits. *)
From Verif Require Import Base Register SpecRegister SpecHamming SpecEeprom.

(** The checksum of a word can be corrected, to the data word [d]. *)
Definition corrects_to (w d : Z) : Prop :=
  exists c, is_codeword c /\ data_of c = d /\ (distance w c <= 1)%nat.
Definition correctable (w : Z) : Prop := exists d, corrects_to w d.

(** ** Words used, in reading order: everything from 0x2422 to 0x243F, the
    scales at 0x2410-0x2421 (0x2413 and 0x2414 are reserved), then for each pixel
    its offset in subpage 0, its offset in subpage 1, its sensitivity and its
    constants. *)
Definition offset0_word (i : nat) : nat := 0x40 + i.
Definition alpha_word (i : nat) : nat := 0x100 + i.
Definition constants_word (i : nat) : nat := 0x1C0 + i.
Definition offset1_word (i : nat) : nat := 0x280 + i.
Definition offset_word (sp : subpage) (i : nat) : nat :=
  match sp with Zero => offset0_word i | One => offset1_word i end.
Definition scalar_words : list nat := seq 0x22 30 ++ seq 0x10 3 ++ seq 0x15 13.
Definition pixel_words (i : nat) : list nat :=
  [offset0_word i; offset1_word i; alpha_word i; constants_word i].
Definition reading_order : list nat := scalar_words ++ flat_map pixel_words (seq 0 192).

(** [dw] gives the corrected data of every word that is used. *)
Definition corrected (data : list Z) (dw : nat -> Z) : Prop :=
  forall i, In i reading_order -> corrects_to (ee_word data i) (dw i).

Section Spec641.
Context (dw : nat -> Z).

(** Signed 11-bit value. *)
Definition signed11 (i : nat) : Z := sext 11 (dw i).
(** A 16-bit value in two words: the upper 11 bits, then the lower 5, joined bitwise.  If the
    lower word holds 5 bits only (see [pairs_ok]) this is [32 * upper + lower]
    (C48_split_values). *)
Definition stored16 (i : nat) : Z := Z.lor (32 * dw i) (dw (i + 1)%nat).
(** The lower word of each pair holds 5 bits only. *)
Definition pairs_ok : Prop :=
  dw 0x12%nat < 32 /\ dw 0x25%nat < 32 /\ dw 0x29%nat < 32 /\ dw 0x30%nat < 32.

(** ** Pixels *)
Definition offset_scale : Z := bits (dw 0x10%nat) 5 6.
Definition average_offset : Z := sext 16 (stored16 0x11).
Definition offset_raw (sp : subpage) (i : nat) : Z := signed11 (offset_word sp i).
Definition doc_offset (sp : subpage) (i : nat) : Z := average_offset + offset_raw sp i * 2 ^ offset_scale.
(** What is left of the average when only its low 11 bits are kept. *)
Definition average_kept : Z := sbits (stored16 0x11) 0 11.
Definition kept_offset (sp : subpage) (i : nat) : Z := average_kept + offset_raw sp i * 2 ^ offset_scale.
(** Sensitivity: one maximum and one scale per 32 pixels. *)
Definition row_max (g : nat) : Z := dw (0x1C + g)%nat.
Definition alpha_scale (g : nat) : Z :=
  (if Nat.even g then bits (dw (0x19 + g / 2)%nat) 5 6 else bits (dw (0x19 + g / 2)%nat) 0 5) + 20.
Definition alpha_raw (i : nat) : Z := dw (alpha_word i).
(** K_Ta and K_V: average and two scales each. *)
Definition kta_raw (i : nat) : Z := sbits (dw (constants_word i)) 5 6.
Definition kv_raw (i : nat) : Z := sbits (dw (constants_word i)) 0 5.
Definition kta_average641 : Z := signed11 0x15.
Definition kta_scale_1_641 : Z := bits (dw 0x16%nat) 5 6.
Definition kta_scale_2_641 : Z := bits (dw 0x16%nat) 0 5.
Definition kv_average641 : Z := signed11 0x17.
Definition kv_scale_1_641 : Z := bits (dw 0x18%nat) 5 6.
Definition kv_scale_2_641 : Z := bits (dw 0x18%nat) 0 5.

(** Failed: all four words of the pixel are zero. *)
Definition failed641 (i : nat) : Prop :=
  dw (offset0_word i) = 0 /\ dw (offset1_word i) = 0 /\ dw (alpha_word i) = 0 /\ dw (constants_word i) = 0.

(** A 16-bit computation on the offsets overflows. *)
Definition pixel_overflows641 (i : nat) : Prop :=
  ~ failed641 i /\
  exists sp, ~ fits (offset_raw sp i * 2 ^ offset_scale) \/ ~ fits (kept_offset sp i).
Definition overflows641 : Prop :=
  ~ fits (2 ^ offset_scale) \/ exists i, (i < 192)%nat /\ pixel_overflows641 i.

(** ** Temperature ranges *)
Definition corners641 : list Z := [-40; -20; 0; 80; 120; dw 0x3A%nat; dw 0x3C%nat; dw 0x3E%nat].
Definition ksto_words : list nat := [0x35; 0x36; 0x37; 0x38; 0x39; 0x3B; 0x3D; 0x3F]%nat.
End Spec641.
