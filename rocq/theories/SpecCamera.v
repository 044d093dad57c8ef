(** * SpecCamera: the documented memory layout of the two cameras (datasheets;
    comments of mlx90640/mod.rs, mlx90641/mod.rs and address.rs), as plain
    numbers and formulas, independent of the iterators in the code. *)
From Verif Require Import Base FloatOps Register Bus Camera Cam640 Cam641.

Definition sub (sp : subpage) : Z := match sp with Zero => 0 | One => 1 end.
Definition subn (sp : subpage) : nat := match sp with Zero => 0 | One => 1 end.

Record layout := {
  lay_height : nat;
  lay_width : nat;
  (** Does the pixel at (row, column) belong to the subpage? *)
  lay_in_subpage : subpage -> access_pattern -> nat -> nat -> bool;
  (** Is the pixel at (row, column) transferred when a frame of the subpage is read? *)
  lay_transferred : subpage -> access_pattern -> nat -> nat -> bool;
  (** RAM address of pixel number [i] (row-major). *)
  lay_address : subpage -> nat -> Z;
  (** Transactions of a frame read: start address and number of bytes. *)
  lay_reads : subpage -> access_pattern -> list (Z * nat);
  (** Bytes of pixel buffer a frame read needs. *)
  lay_bytes : subpage -> access_pattern -> nat;
  lay_vbe : Z; lay_ptat : Z; lay_vdd : Z; lay_gain : Z; lay_cp : subpage -> Z;
  (** Which of the K_sTo slopes is that of the basic temperature range (counted from 0). *)
  lay_basic_range : nat;
  (** Self heating in degrees: how far the ambient temperature sensor is above the surroundings. *)
  lay_self_heating : Z
}.
Definition lay_pixels (l : layout) : nat := lay_height l * lay_width l.

(** MLX90640: 24 rows of 32 pixels; chess or interleaved subpages; pixel i at
    0x0400 + i.  In chess mode everything is read at once, in interleave mode
    only the twelve rows of the subpage. *)
Definition layout640 : layout := {|
  lay_height := 24; lay_width := 32;
  lay_in_subpage := fun sp ap r c =>
    match ap with
    | Chess => Nat.eqb ((r + c) mod 2) (subn sp)
    | Interleave => Nat.eqb (r mod 2) (subn sp)
    end;
  lay_transferred := fun sp ap r c =>
    match ap with Chess => true | Interleave => Nat.eqb (r mod 2) (subn sp) end;
  lay_address := fun _ i => 0x0400 + Z.of_nat i;
  lay_reads := fun sp ap =>
    match ap with
    | Chess => [(0x0400, 1536%nat)]
    | Interleave => map (fun k => (0x0400 + 32 * (2 * Z.of_nat k + sub sp), 64%nat)) (seq 0 12)
    end;
  lay_bytes := fun sp ap =>
    match ap, sp with Interleave, Zero => 1472%nat | _, _ => 1536%nat end;
  lay_vbe := 0x0700; lay_ptat := 0x0720; lay_vdd := 0x072A; lay_gain := 0x070A;
  lay_cp := fun sp => match sp with Zero => 0x0708 | One => 0x0728 end;
  lay_basic_range := 1; lay_self_heating := 8
|}.

(** MLX90641: 12 rows of 16 pixels, each subpage has every pixel; RAM holds
    blocks of 32 pixels, alternating between the subpages. *)
Definition layout641 : layout := {|
  lay_height := 12; lay_width := 16;
  lay_in_subpage := fun _ _ _ _ => true;
  lay_transferred := fun _ _ _ _ => true;
  lay_address := fun sp i => 0x0400 + 64 * (Z.of_nat i / 32) + 32 * sub sp + Z.of_nat i mod 32;
  lay_reads := fun sp _ => map (fun k => (0x0400 + 64 * Z.of_nat k + 32 * sub sp, 64%nat)) (seq 0 6);
  lay_bytes := fun _ _ => 384%nat;
  lay_vbe := 0x0580; lay_ptat := 0x05A0; lay_vdd := 0x05AA; lay_gain := 0x058A;
  lay_cp := fun sp => match sp with Zero => 0x0588 | One => 0x05A8 end;
  lay_basic_range := 2; lay_self_heating := 5
|}.

(** The two cameras and their layouts. *)
Inductive documented {FO : FloatOps} : camera FO -> layout -> Prop :=
| doc_640 : documented (Mlx90640 FO) layout640
| doc_641 : documented (Mlx90641 FO) layout641.

(** The scalar reads of a frame, in order. *)
Definition lay_scalars (l : layout) (sp : subpage) : list Z :=
  [lay_vbe l; lay_ptat l; lay_vdd l; lay_gain l; lay_cp l sp].

(** All transactions of a frame read: pixels first, then the scalars. *)
Definition frame_reads (l : layout) (sp : subpage) (ap : access_pattern) : list (Z * nat) :=
  lay_reads l sp ap ++ map (fun a => (a, 2%nat)) (lay_scalars l sp).

(** A successful read transaction of [n] bytes at address [a]. *)
Definition good_read {ER EW} (i2c : Z) (rd : Z * nat) (ev : event ER EW) : Prop :=
  exists data, ev = EvRead i2c [fst rd / 256; fst rd mod 256] data None /\ length data = snd rd.
(** A failed one, with bus error [e]. *)
Definition failed_read {ER EW} (i2c : Z) (e : ER) (rd : Z * nat) (ev : event ER EW) : Prop :=
  exists data, ev = EvRead i2c [fst rd / 256; fst rd mod 256] data (Some e) /\ length data = snd rd.

(** [evs] is: all of [reads], successful. *)
Definition completed {ER EW} (i2c : Z) (reads : list (Z * nat)) (evs : list (event ER EW)) : Prop :=
  Forall2 (good_read i2c) reads evs.
(** [evs] is: some of [reads], successful, then the next one, failing with [e]. *)
Definition aborted {ER EW} (i2c : Z) (reads : list (Z * nat)) (e : ER) (evs : list (event ER EW)) : Prop :=
  exists pre rd post good bad,
    reads = pre ++ rd :: post /\ evs = good ++ [bad] /\
    Forall2 (good_read i2c) pre good /\ failed_read i2c e rd bad.
(** [evs] is a proper prefix of [reads], all successful. *)
Definition cut_short {ER EW} (i2c : Z) (reads : list (Z * nat)) (evs : list (event ER EW)) : Prop :=
  exists pre rd post, reads = pre ++ rd :: post /\ Forall2 (good_read i2c) pre evs.

(** The word at position [i] of a byte buffer, most significant byte first. *)
Definition word_at (buf : list Z) (i : nat) : Z := 256 * nth (2 * i) buf 0 + nth (2 * i + 1) buf 0.
(** Two's complement. *)
Definition signed (w : Z) : Z := if w <? 32768 then w else w - 65536.

(** [n] bytes of memory starting at word address [a]. *)
Definition mem_byte (mem : Z -> Z) (a : Z) (j : nat) : Z :=
  let w := mem (a + Z.of_nat (j / 2)) in
  if Nat.even j then w / 256 else w mod 256.
Definition mem_bytes (mem : Z -> Z) (a : Z) (n : nat) : list Z := map (mem_byte mem a) (seq 0 n).

(** The device answers every successful read at [a] with the words of [mem]
    from [a] on.  (Nothing is said about which reads succeed, about timing or
    about writes.) *)
Definition answers {B ER EW} (bs : bus B ER EW) (mem : Z -> Z) : Prop :=
  (forall a, word (mem a)) /\
  forall b i2c a buf b' out, 0 <= a < 65536 ->
    dev_write_read bs b i2c [a / 256; a mod 256] buf = (b', out, None) ->
    length out = length buf /\ out = mem_bytes mem a (length buf).

(** The data of a successful read transaction are the words of [mem] from its
    address on.  A transcript whose reads all satisfy this shows the contents [mem]. *)
Definition shows {ER EW} (mem : Z -> Z) (x : event ER EW) : Prop :=
  match x with
  | EvRead _ wb data None => forall a, wb = [a / 256; a mod 256] -> data = mem_bytes mem a (length data)
  | _ => True
  end.
