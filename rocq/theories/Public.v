(** * Public: models the remaining public items: [FlaggedPixels] and [Address] (common.rs),
    [RamAddress] (mlx90640/address.rs, mlx90641/address.rs) with its operators (util.rs),
    [Display] of [LibraryError] and of [Error] (error.rs). *)
From Verif Require Import Base Bus Cam640 Cam641.
From Coq Require Import Ascii DecimalString DecimalN.

(** ** common.rs 34-58 [FlaggedPixels] for bit slices *)
(** common.rs 48-50 [any] ([BitSlice::any]: some bit is set) *)
Definition flagged_any (flags : list bool) : bool := existsb (fun b => b) flags.
(** common.rs 54-56 [iter_flagged] ([BitSlice::iter_ones]: positions of the set bits, scanning upwards
    from position [from]) *)
Fixpoint iter_ones (from : nat) (flags : list bool) : list nat :=
  match flags with
  | [] => []
  | b :: rest => if b then from :: iter_ones (S from) rest else iter_ones (S from) rest
  end.
(** common.rs 54-56 *)
Definition iter_flagged (flags : list bool) : list nat := iter_ones 0 flags.

(** ** common.rs 240-281 [Address]: a newtype around [u16] *)
Inductive address := Address (raw : Z).
(** common.rs 250-252 [Address::new], 266-270 [From<u16>] *)
Definition address_new (raw : Z) : address := Address raw.
(** common.rs 272-276 [u16::from] *)
Definition address_u16 (a : address) : Z := let '(Address raw) := a in raw.
(** common.rs 278-282 [usize::from] *)
Definition address_usize (a : address) : Z := let '(Address raw) := a in raw.
(** common.rs 254-256 [as_bytes] *)
Definition address_bytes (a : address) : list Z := let '(Address raw) := a in to_be_bytes raw.

(** ** [RamAddress]: the same eight names for both cameras *)
Inductive ram_address :=
| RamBase | RamVBe | RamCP0 | RamGain | RamPTAT | RamCP1 | RamVDDpix | RamEnd.
(** Which camera's enum. *)
Inductive model := M640 | M641.

(** `as u16` / [IntoPrimitive]: mlx90640/address.rs 124-150, mlx90641/address.rs 124-150 *)
Definition ram_u16 (m : model) (a : ram_address) : Z :=
  match m with
  | M640 =>
      match a with
      | RamBase => RAM640_Base | RamVBe => RAM640_VBe | RamCP0 => RAM640_CP0 | RamGain => RAM640_Gain
      | RamPTAT => RAM640_PTAT | RamCP1 => RAM640_CP1 | RamVDDpix => RAM640_VDDpix | RamEnd => RAM640_End
      end
  | M641 =>
      match a with
      | RamBase => RAM641_Base | RamVBe => RAM641_VBe | RamCP0 => RAM641_CP0 | RamGain => RAM641_Gain
      | RamPTAT => RAM641_PTAT | RamCP1 => RAM641_CP1 | RamVDDpix => RAM641_VDDpix | RamEnd => RAM641_End
      end
  end.
(** The variants in order of declaration. *)
Definition ram_variants : list ram_address :=
  [RamBase; RamVBe; RamCP0; RamGain; RamPTAT; RamCP1; RamVDDpix; RamEnd].
(** [TryFromPrimitive] (derived) and `TryFrom<Address>` (mlx90640/address.rs 155-161,
    mlx90641/address.rs 154-160); the error carries the number. *)
Definition ram_try_from (m : model) (a : address) : res Z ram_address :=
  match find (fun v => ram_u16 m v =? address_u16 a) ram_variants with
  | Some v => Ok v
  | None => Err (address_u16 a)
  end.
(** `From<RamAddress> for Address` (mlx90640/address.rs 163-168, mlx90641/address.rs 162-167) *)
Definition ram_into (m : model) (a : ram_address) : address := Address (ram_u16 m a).
(** Derived [Ord]: order of declaration *)
Fixpoint index_of (a : ram_address) (l : list ram_address) : nat :=
  match l with
  | [] => 0
  | v :: rest =>
      match a, v with
      | RamBase, RamBase | RamVBe, RamVBe | RamCP0, RamCP0 | RamGain, RamGain
      | RamPTAT, RamPTAT | RamCP1, RamCP1 | RamVDDpix, RamVDDpix | RamEnd, RamEnd => 0
      | _, _ => S (index_of a rest)
      end
  end%nat.
(** Derived [Ord] *)
Definition ram_lt (a b : ram_address) : bool := Nat.ltb (index_of a ram_variants) (index_of b ram_variants).

(** u16 arithmetic with and without overflow checks *)
Definition chk_u16 {E} (p : profile) (z : Z) : res E Z :=
  if (0 <=? z) && (z <? 65536) then Ok z
  else match p with Debug => Panic | Release => Ok (z mod 65536) end.
(** util.rs 13-36 `+` of [address_enum_ops] (all four reference combinations) *)
Definition ram_add {E} (p : profile) (m : model) (a b : ram_address) : res E Z := chk_u16 p (ram_u16 m a + ram_u16 m b).
(** util.rs 38-61 `-` of [address_enum_ops] *)
Definition ram_sub {E} (p : profile) (m : model) (a b : ram_address) : res E Z := chk_u16 p (ram_u16 m a - ram_u16 m b).

(** ** error.rs 26-36 [Display] of [LibraryError] *)
(** One digit of `{:X}` *)
Definition hex_digit (n : Z) : string :=
  nth (Z.to_nat n) ["0"; "1"; "2"; "3"; "4"; "5"; "6"; "7"; "8"; "9"; "A"; "B"; "C"; "D"; "E"; "F"]%string "0"%string.
(** `{:#06X}` of a u16: "0x", then upper-case digits zero-padded to a total width of six *)
Definition hex_06 (w : Z) : string :=
  ("0x" ++ hex_digit (w / 4096 mod 16) ++ hex_digit (w / 256 mod 16) ++ hex_digit (w / 16 mod 16) ++ hex_digit (w mod 16))%string.
(** `{:#X}` of a u16 (common.rs 260): "0x", then upper-case digits without leading zeros. *)
Definition hex_short (w : Z) : string :=
  append "0x"
   (if (w <? 16)%Z then hex_digit w
    else if (w <? 256)%Z then hex_digit (w / 16)%Z ++ hex_digit (w mod 16)%Z
    else if (w <? 4096)%Z then hex_digit (w / 256)%Z ++ hex_digit (w / 16 mod 16)%Z ++ hex_digit (w mod 16)%Z
    else hex_digit (w / 4096)%Z ++ hex_digit (w / 256 mod 16)%Z ++ hex_digit (w / 16 mod 16)%Z ++ hex_digit (w mod 16)%Z)%string.
(** common.rs 258-262 [Debug] of [Address] *)
Definition debug_address (a : address) : string := ("Address(" ++ hex_short (address_u16 a) ++ ")")%string.

(** error.rs 27-35 *)
Definition display_lib_error (e : lib_error) : string :=
  match e with
  | InvalidData msg => msg
  | OtherError msg => msg
  | Checksum w => "Invalid checksum for data " ++ hex_06 w
  end%string.

(** `{:?}` of a [&str]: quotes around the text, with quotes and backslashes escaped.  Simplified:
    Rust also escapes control and unprintable characters; no message of the library has any. *)
Fixpoint escape (s : string) : string :=
  match s with
  | EmptyString => EmptyString
  | String c rest =>
      if Ascii.eqb c """"%char || Ascii.eqb c "\"%char then String "\"%char (String c (escape rest))
      else String c (escape rest)
  end.
(** `{:?}` of a [&str] *)
Definition debug_str (s : string) : string := String """"%char (escape s ++ """")%string.
(** `{:?}` of a u16: decimal *)
Definition debug_u16 (w : Z) : string := NilZero.string_of_uint (N.to_uint (Z.to_N w)).
(** error.rs 11 derived [Debug] of [LibraryError] *)
Definition debug_lib_error (e : lib_error) : string :=
  match e with
  | InvalidData msg => "InvalidData(" ++ debug_str msg ++ ")"
  | OtherError msg => "Other(" ++ debug_str msg ++ ")"
  | Checksum w => "Checksum(" ++ debug_u16 w ++ ")"
  end%string.
(** error.rs 82-95 [Display] of [Error]; [dr] and [dw] are `{:?}` of the bus errors. *)
Definition display_error {ER EW} (dr : ER -> string) (dw : EW -> string) (e : error ER EW) : string :=
  match e with
  | I2cWriteReadError x => "I2C Error: " ++ dr x
  | I2cWriteError x => "I2C Error: " ++ dw x
  | LibraryError l => "Library Error: " ++ debug_lib_error l
  end%string.
(** error.rs 60-79 [Debug] of [Error] *)
Definition debug_error {ER EW} (dr : ER -> string) (dw : EW -> string) (e : error ER EW) : string :=
  match e with
  | I2cWriteReadError x => "Error::I2cWriteReadError(" ++ dr x ++ ")"
  | I2cWriteError x => "Error::I2cWriteError(" ++ dw x ++ ")"
  | LibraryError l => "Error::LibraryError(" ++ debug_lib_error l ++ ")"
  end%string.
(** error.rs 97-111 [source]: the error below *)
Definition error_source {ER EW} (e : error ER EW) : option (ER + EW + lib_error) :=
  match e with
  | I2cWriteReadError x => Some (inl (inl x))
  | I2cWriteError x => Some (inl (inr x))
  | LibraryError l => Some (inr l)
  end.
