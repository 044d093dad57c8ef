(** * Spec640: the calibration data of the MLX90640 as its datasheet (section
    11.2.2) defines it from the EEPROM words.  [ee i] is the word at address
    0x2400 + i; rows and columns count from 0 (the datasheet counts from 1, so
    its odd rows are the even rows here). *)
From Verif Require Import Base Register SpecRegister SpecEeprom.
From Coq Require Import Reals.
Open Scope Z_scope.

(** z / 2^n *)
Definition scaled (z n : Z) : R := (IZR z / IZR (2 ^ n))%R.

Section Spec640.
Context (ee : nat -> Z).

(** ** Rows, columns and remainders.  The offset block starts at 0x2410 and
    the sensitivity block at 0x2420; both have the same layout. *)
Definition offset_block : nat := 0x10.
Definition alpha_block : nat := 0x20.
Definition extra_field (blk : nat) : Z := bits (ee blk) 12 4.
Definition row_scale (blk : nat) : Z := bits (ee blk) 8 4.
Definition column_scale (blk : nat) : Z := bits (ee blk) 4 4.
Definition remainder_scale (blk : nat) : Z := bits (ee blk) 0 4.
Definition average (blk : nat) : Z := sext 16 (ee (blk + 1)).
Definition row_coefficient (blk r : nat) : Z :=
  sbits (ee (blk + 2 + r / 4)) (4 * Z.of_nat (r mod 4)) 4.
Definition column_coefficient (blk c : nat) : Z :=
  sbits (ee (blk + 8 + c / 4)) (4 * Z.of_nat (c mod 4)) 4.

(** The word of pixel (r, c) and its fields. *)
Definition pixel_word (r c : nat) : Z := ee (0x40 + (32 * r + c)).
Definition offset_remainder (r c : nat) : Z := sbits (pixel_word r c) 10 6.
Definition alpha_remainder (r c : nat) : Z := sbits (pixel_word r c) 4 6.
Definition kta_remainder (r c : nat) : Z := sbits (pixel_word r c) 1 3.
Definition remainder (blk r c : nat) : Z :=
  if Nat.eqb blk offset_block then offset_remainder r c else alpha_remainder r c.

(** The three scaled terms added to the average. *)
Definition row_term (blk r : nat) : Z := row_coefficient blk r * 2 ^ row_scale blk.
Definition column_term (blk c : nat) : Z := column_coefficient blk c * 2 ^ column_scale blk.
Definition remainder_term (blk r c : nat) : Z := remainder blk r c * 2 ^ remainder_scale blk.
Definition pixel_sum (blk r c : nat) : Z :=
  average blk + row_term blk r + column_term blk c + remainder_term blk r c.

(** ** K_Ta: 0x2436-0x2437 hold four averages, by parity of row and column. *)
Definition kta_average (r c : nat) : Z :=
  match Nat.even r, Nat.even c with
  | true, true => sbits (ee 0x36) 8 8
  | false, true => sbits (ee 0x36) 0 8
  | true, false => sbits (ee 0x37) 8 8
  | false, false => sbits (ee 0x37) 0 8
  end.
Definition kta_scale_1 : Z := bits (ee 0x38) 4 4 + 8.
Definition kta_scale_2 : Z := bits (ee 0x38) 0 4.
Definition kta_term (r c : nat) : Z := kta_remainder r c * 2 ^ kta_scale_2.
Definition kta_sum (r c : nat) : Z := kta_average r c + kta_term r c.

(** ** K_V: 0x2434 holds four values. *)
Definition kv_average (r c : nat) : Z :=
  match Nat.even r, Nat.even c with
  | true, true => sbits (ee 0x34) 12 4
  | false, true => sbits (ee 0x34) 8 4
  | true, false => sbits (ee 0x34) 4 4
  | false, false => sbits (ee 0x34) 0 4
  end.
Definition kv_scale : Z := bits (ee 0x38) 8 4.

(** ** 16-bit overflow.  A shift to the left drops the bits that leave the
    word; [shifted z] is what remains of the term [z]. *)
Definition shifted (z : Z) : Z := (z + 32768) mod 65536 - 32768.

(** A pixel is failed when its word is zero. *)
Definition failed (r c : nat) : Prop := pixel_word r c = 0.

(** A signed 16-bit sum of the decoder overflows for pixel (r, c).  The
    remainder of a block is added in 16 bits for the offset only; failed pixels
    have no remainders. *)
Definition block_overflows (blk r c : nat) : Prop :=
  let a := average blk + shifted (row_term blk r) in
  ~ fits a \/ ~ fits (a + shifted (column_term blk c)).
Definition pixel_overflows (r c : nat) : Prop :=
  block_overflows offset_block r c \/ block_overflows alpha_block r c \/
  (~ failed r c /\
   (~ fits (average offset_block + shifted (row_term offset_block r)
            + shifted (column_term offset_block c) + shifted (remainder_term offset_block r c)) \/
    ~ fits (kta_average r c + shifted (kta_term r c)))).
Definition some_pixel_overflows : Prop :=
  exists r c, (r < 24)%nat /\ (c < 32)%nat /\ pixel_overflows r c.

(** ** Interleaved mode (11.2.2.5.3): datasheet formulas for pixel number [n],
    counted from 1, with integer divisions. *)
Definition il_pattern (n : Z) : Z := (n - 1) / 32 - (n - 1) / 32 / 2 * 2.
Definition conversion_pattern (n : Z) : Z :=
  ((n - 3) / 4 - (n - 2) / 4 + n / 4 - (n - 1) / 4) * (1 - 2 * il_pattern n).
Definition il_chess_1 : R := (IZR (sbits (ee 0x35) 0 6) / 16)%R.
Definition il_chess_2 : R := (IZR (sbits (ee 0x35) 6 5) / 2)%R.
Definition il_chess_3 : R := (IZR (sbits (ee 0x35) 11 5) / 8)%R.
Definition il_compensation (n : Z) : R :=
  (il_chess_3 * (2 * IZR (il_pattern n) - 1) - il_chess_2 * IZR (conversion_pattern n))%R.

(** ** Single parameters (11.2.2.1-11.2.2.9) *)
Definition doc_alpha_ptat : R := (IZR (extra_field offset_block) / 4 + 8)%R.
Definition doc_corner_step : Z := 10 * bits (ee 0x3F) 12 2.
Definition doc_corner_3 : Z := bits (ee 0x3F) 4 4 * doc_corner_step.
Definition doc_corner_4 : Z := doc_corner_3 + bits (ee 0x3F) 8 4 * doc_corner_step.
Definition ksto_scale : Z := bits (ee 0x3F) 0 4 + 8.
Definition doc_alpha_cp_0 : R := scaled (bits (ee 0x39) 0 10) (extra_field alpha_block + 27).
Definition doc_alpha_cp_1 : R := (doc_alpha_cp_0 * (1 + scaled (sbits (ee 0x39) 10 6) 7))%R.
End Spec640.
