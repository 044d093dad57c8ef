(** * Mock: models [MockCameraBus] of mlx9064x-test-data/src/i2c_mock.rs, the
    reference camera of the test-suite, as an instance of [bus]. *)
From Verif Require Import Base FloatOps Register Bus Camera Driver.

(** i2c_mock.rs 64-89 [MockError]; [MockPanic] stands for a panic inside the mock
    (slice index out of range, u16 overflow). *)
Inductive mock_error :=
| IllegalAccess (a : Z)
| IllegalWriteAddress (a : Z)
| IllegalWriteValue (a v : Z)
| UnknownMemoryAddress (a : Z)
| UnknownI2cAddress (a : Z)
| IllegalOperation
| MockPanic.

(** i2c_mock.rs 92-95 [I2cOperation] *)
Inductive i2c_operation :=
| OperationWrite (address : Z) (length : nat)
| OperationRead (address : Z) (length : nat).

(** i2c_mock.rs 97-110.  The ranges are the constants of i2c_mock.rs 132-135 and
    474-477; only the end of RAM differs between the two cameras. *)
Record mock := {
  mk_i2c_address : Z;
  mk_ram_end : Z;                  (* last RAM address, inclusive *)
  mk_eeprom : list Z;
  mk_ram : list Z;
  mk_status : list Z;
  mk_control : list Z;
  mk_i2c_config : list Z;
  mk_recent : list i2c_operation
}.

(** Language: `RangeInclusive::contains` *)
Definition in_range (lo hi a : Z) : bool := (lo <=? a) && (a <=? hi).
(** i2c_mock.rs 133 *)
Definition rom_range (a : Z) : bool := in_range 0x0000 0x03FF a.
(** i2c_mock.rs 134 (and the MLX90641 constructor) *)
Definition ram_range (k : mock) (a : Z) : bool := in_range 0x0400 (mk_ram_end k) a.
(** i2c_mock.rs 135 *)
Definition eeprom_range (a : Z) : bool := in_range 0x2400 0x273F a.
(** i2c_mock.rs 136 *)
Definition register_range (a : Z) : bool := in_range 0x8000 0x8016 a.

(** i2c_mock.rs 148-161 [extract_address]; [&bytes[..2]] panics on a short slice *)
Definition extract_address (k : mock) (bytes : list Z) : Z + mock_error :=
  match bytes with
  | hi :: lo :: _ =>
      let a := be16 hi lo in
      if rom_range a || ram_range k a || eeprom_range a || register_range a
      then inl a else inr (UnknownMemoryAddress a)
  | _ => inr MockPanic
  end.

(** [&data[start..start+n]] *)
Definition mslice (data : list Z) (start n : nat) : list Z + mock_error :=
  if Nat.ltb (length data) (start + n) then inr MockPanic
  else inl (firstn n (skipn start data)).

(** i2c_mock.rs 164-222 [get] *)
Definition mock_get (k : mock) (start_address : Z) (byte_count : nat) : list Z + mock_error :=
  let end_address := start_address + Z.of_nat byte_count / 2 in
  if 65535 <? end_address then inr MockPanic
  else if negb (Nat.eqb (Nat.modulo byte_count 2) 0) then inr IllegalOperation
  else if rom_range start_address then inr (IllegalAccess start_address)
  else if ram_range k start_address then
    if ram_range k (end_address - 1)
    then mslice (mk_ram k) (Z.to_nat ((start_address - 0x0400) * 2)) byte_count
    else inr (IllegalAccess end_address)
  else if eeprom_range start_address then
    if eeprom_range (end_address - 1)
    then mslice (mk_eeprom k) (Z.to_nat ((start_address - 0x2400) * 2)) byte_count
    else inr (IllegalAccess end_address)
  else if register_range start_address then
    if negb (Nat.eqb byte_count 2) then inr (IllegalAccess end_address)
    else if start_address =? 0x8000 then inl (mk_status k)
    else if start_address =? 0x800D then inl (mk_control k)
    else if start_address =? 0x800F then inl (mk_i2c_config k)
    else inr (IllegalAccess start_address)
  else inr (UnknownMemoryAddress start_address).

(** i2c_mock.rs 402-404 *)
Definition check_new_against_mask (existing mask new : Z) : bool :=
  Z.land new (not16 mask) =? Z.land existing (not16 mask).

(** i2c_mock.rs 402-404: `u16::from_be_bytes` of a slice *)
Definition word_of (bytes : list Z) : Z :=
  match bytes with hi :: lo :: _ => be16 hi lo | _ => 0 end.

(** Model plumbing: assignment to `status_register` (i2c_mock.rs 106) *)
Definition set_status_bytes (k : mock) (v : list Z) : mock :=
  {| mk_i2c_address := mk_i2c_address k; mk_ram_end := mk_ram_end k; mk_eeprom := mk_eeprom k;
     mk_ram := mk_ram k; mk_status := v; mk_control := mk_control k;
     mk_i2c_config := mk_i2c_config k; mk_recent := mk_recent k |}.
(** Model plumbing: assignment to `control_register` (i2c_mock.rs 107) *)
Definition set_control_bytes (k : mock) (v : list Z) : mock :=
  {| mk_i2c_address := mk_i2c_address k; mk_ram_end := mk_ram_end k; mk_eeprom := mk_eeprom k;
     mk_ram := mk_ram k; mk_status := mk_status k; mk_control := v;
     mk_i2c_config := mk_i2c_config k; mk_recent := mk_recent k |}.
(** Model plumbing: assignment to `i2c_config_register` (i2c_mock.rs 108) *)
Definition set_i2c_bytes (k : mock) (v : list Z) : mock :=
  {| mk_i2c_address := mk_i2c_address k; mk_ram_end := mk_ram_end k; mk_eeprom := mk_eeprom k;
     mk_ram := mk_ram k; mk_status := mk_status k; mk_control := mk_control k;
     mk_i2c_config := v; mk_recent := mk_recent k |}.
(** Model plumbing: assignment to `ram_data` (i2c_mock.rs 105) *)
Definition set_ram_bytes (k : mock) (v : list Z) : mock :=
  {| mk_i2c_address := mk_i2c_address k; mk_ram_end := mk_ram_end k; mk_eeprom := mk_eeprom k;
     mk_ram := v; mk_status := mk_status k; mk_control := mk_control k;
     mk_i2c_config := mk_i2c_config k; mk_recent := mk_recent k |}.

(** i2c_mock.rs 339-343 [add_operation] (queue length 32, newest first) *)
Definition add_operation (k : mock) (o : i2c_operation) : mock :=
  {| mk_i2c_address := mk_i2c_address k; mk_ram_end := mk_ram_end k; mk_eeprom := mk_eeprom k;
     mk_ram := mk_ram k; mk_status := mk_status k; mk_control := mk_control k;
     mk_i2c_config := mk_i2c_config k; mk_recent := firstn 32 (o :: mk_recent k) |}.

(** i2c_mock.rs 33-48: the bits of four EEPROM words (0x240C-0x240F) that may be changed *)
Definition eeprom_write_mask : list Z := [0x1F; 0xFF; 0x00; 0x00; 0x00; 0x0F; 0x00; 0x7F].
(** Model plumbing: assignment to `eeprom_data` (i2c_mock.rs 104) *)
Definition set_eeprom_bytes (k : mock) (v : list Z) : mock :=
  {| mk_i2c_address := mk_i2c_address k; mk_ram_end := mk_ram_end k; mk_eeprom := v;
     mk_ram := mk_ram k; mk_status := mk_status k; mk_control := mk_control k;
     mk_i2c_config := mk_i2c_config k; mk_recent := mk_recent k |}.
(** i2c_mock.rs 253-266: the words of the written slice, one after the other *)
Fixpoint check_words (a : Z) (existing mask new : list Z) : option mock_error :=
  match existing, mask, new with
  | e1 :: e0 :: existing, m1 :: m0 :: mask, n1 :: n0 :: new =>
      if check_new_against_mask (be16 e1 e0) (be16 m1 m0) (be16 n1 n0)
      then check_words (a + 1) existing mask new
      else Some (IllegalWriteValue a (be16 n1 n0))
  | _, _, _ => None
  end.
(** i2c_mock.rs 232-269: a write to the EEPROM.  The mask slice
    [&write_mask[write_mask_start..data.len()]] is modelled as written (its end
    is the length of the data, not start plus length). *)
Definition mock_set_eeprom (k : mock) (start_address : Z) (data : list Z) : mock + mock_error :=
  let start := Z.to_nat ((start_address - 0x2400) * 2) in
  let n := length data in
  match mslice (mk_eeprom k) start n with
  | inr e => inr e
  | inl existing =>
      if start_address <? 0x240C then inr MockPanic
      else
        let mask_start := Z.to_nat ((start_address - 0x240C) * 2) in
        if (Nat.ltb n mask_start || Nat.ltb 8 n)%bool then inr MockPanic
        else match check_words start_address existing (firstn (n - mask_start) (skipn mask_start eeprom_write_mask)) data with
             | Some e => inr e
             | None => inl (set_eeprom_bytes k (firstn start (mk_eeprom k) ++ data ++ skipn (start + n) (mk_eeprom k)))
             end
  end.

(** i2c_mock.rs 224-316 [set].  Arithmetic overflow panics (the mock is only
    built with overflow checks, in tests); slices are shorter than 2^16 bytes. *)
Definition mock_set (k : mock) (start_address : Z) (data : list Z) : mock + mock_error :=
  let end_address := start_address + Z.of_nat (length data) / 2 in
  if 65535 <? end_address then inr MockPanic
  else if rom_range start_address || ram_range k start_address
  then inr (IllegalWriteAddress start_address)
  else if eeprom_range start_address then mock_set_eeprom k start_address data
  else if register_range start_address then
    if negb (Nat.eqb (length data) 2) then inr (IllegalWriteAddress end_address)
    else
      let new_word := word_of data in
      let check mask existing ok :=
        if check_new_against_mask (word_of existing) mask new_word then inl ok
        else inr (IllegalWriteValue start_address new_word) in
      if start_address =? 0x8000 then check 0x003F (mk_status k) (set_status_bytes k data)
      else if start_address =? 0x800D then check 0x1FFF (mk_control k) (set_control_bytes k data)
      else if start_address =? 0x800F then check 0x000F (mk_i2c_config k) (set_i2c_bytes k data)
      else inr (IllegalWriteAddress start_address)
  else inr (UnknownMemoryAddress start_address).

(** i2c_mock.rs 357-371 [i2c::Write::write] *)
Definition mock_write (k : mock) (i2c : Z) (bytes : list Z) : mock * option mock_error :=
  if negb (i2c =? mk_i2c_address k) then (k, Some (UnknownI2cAddress i2c))
  else match extract_address k bytes with
       | inr e => (k, Some e)
       | inl a =>
           let payload := skipn 2 bytes in
           match mock_set k a payload with
           | inr e => (k, Some e)
           | inl k' => (add_operation k' (OperationWrite a (length payload)), None)
           end
       end.

(** i2c_mock.rs 377-399 [i2c::WriteRead::write_read]; [copy_from_slice] panics
    when the lengths differ. *)
Definition mock_write_read (k : mock) (i2c : Z) (wbytes out : list Z)
    : mock * list Z * option mock_error :=
  if negb (i2c =? mk_i2c_address k) then (k, out, Some (UnknownI2cAddress i2c))
  else if negb (Nat.eqb (length wbytes) 2) || Nat.eqb (length out) 0
  then (k, out, Some IllegalOperation)
  else match extract_address k wbytes with
       | inr e => (k, out, Some e)
       | inl a =>
           let k := add_operation k (OperationRead a (length out)) in
           match mock_get k a (length out) with
           | inr e => (k, out, Some e)
           | inl data => if Nat.eqb (length data) (length out) then (k, data, None)
                         else (k, out, Some MockPanic)
           end
       end.

(** i2c_mock.rs 353-400: the two trait implementations *)
Definition mock_bus : bus mock mock_error mock_error := {|
  dev_write_read := mock_write_read;
  dev_write := mock_write
|}.

(** i2c_mock.rs 318-328 [update_frame] and 330-337 [set_data_available]: the test
    changes the camera between driver calls ([copy_from_slice] requires equal
    lengths, a condition of the theorems). *)
Definition update_frame (k : mock) (ram status : list Z) : mock :=
  set_status_bytes (set_ram_bytes k ram) status.
(** i2c_mock.rs 331-337 *)
Definition set_data_available (k : mock) (available : bool) : mock :=
  match mk_status k with
  | hi :: lo :: r => set_status_bytes k (hi :: (if available then Z.lor lo 0x8 else Z.land lo 0x7) :: r)
  | _ => k
  end.
(** i2c_mock.rs 345-347 [recent_operations] (front of the queue first) *)
Definition recent_operations (k : mock) : list i2c_operation := mk_recent k.
(** i2c_mock.rs 349-351 [clear_recent_operations] *)
Definition clear_recent_operations (k : mock) : mock :=
  {| mk_i2c_address := mk_i2c_address k; mk_ram_end := mk_ram_end k; mk_eeprom := mk_eeprom k;
     mk_ram := mk_ram k; mk_status := mk_status k; mk_control := mk_control k;
     mk_i2c_config := mk_i2c_config k; mk_recent := [] |}.
