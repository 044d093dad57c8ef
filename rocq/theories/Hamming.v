(** * Hamming: models mlx9064x/src/mlx90641/hamming.rs 91-160. *)
From Verif Require Import Base Register.

(** hamming.rs 94 *)
Definition DATA_MASK : Z := 0x07FF.
(** hamming.rs 96 *)
Definition PARITY_BITS : Z := 5.
(** hamming.rs 98-104 *)
Definition PARITY_MASKS : list Z := [0x055B; 0x066D; 0x078E; 0x07F0; 0x7FFF].

(** [u16::count_ones] *)
Definition count_ones (w : Z) : Z :=
  fold_left (fun acc i => acc + Z.b2z (Z.testbit w i)) (map Z.of_nat (seq 0 16)) 0.

(** hamming.rs 119-123: the loop body, [enumerate]d over the masks *)
Fixpoint add_parity (masks : list Z) (mask_index : Z) (calculated_word : Z) : Z :=
  match masks with
  | [] => calculated_word
  | parity_mask :: rest =>
      let parity_index := count_ones DATA_MASK + mask_index in
      let parity := count_ones (Z.land calculated_word parity_mask) mod 2 in
      add_parity rest (mask_index + 1)
        (Z.lor calculated_word (Z.land (Z.shiftl parity parity_index) 65535))
  end.

(** hamming.rs 111-126 [add_checksum] *)
Definition add_checksum (w : Z) : res lib_error Z :=
  if negb (Z.land w (not16 DATA_MASK) =? 0) then
    Err (OtherError "Value given to add_checksum already has a checksum")
  else Ok (add_parity PARITY_MASKS 0 w).

(** hamming.rs 141 *)
Definition PARITY_OFFSET : Z := 16 - PARITY_BITS.

(** hamming.rs 140-149: the loop computing [error_bits] *)
Fixpoint locate_error (masks : list Z) (mask_index : Z) (affected_parity error_bits : Z) : Z :=
  match masks with
  | [] => error_bits
  | m :: rest =>
      let mask := Z.lor m (Z.shiftl 1 (mask_index + PARITY_OFFSET)) in
      let error_bits' :=
        if is_bit_set affected_parity mask_index then Z.land error_bits mask
        else Z.land error_bits (not16 mask) in
      locate_error rest (mask_index + 1) affected_parity error_bits'
  end.

(** hamming.rs 132-160 [validate_checksum] *)
Definition validate_checksum (w : Z) : res lib_error Z :=
  do calculated_word <- add_checksum (Z.land w DATA_MASK);
  if negb (calculated_word =? w) then
    let given_parity := Z.land w (not16 DATA_MASK) in
    let calculated_parity := Z.land calculated_word (not16 DATA_MASK) in
    let affected_parity := Z.shiftr (Z.lxor given_parity calculated_parity) PARITY_OFFSET in
    let error_bits := locate_error (firstn 4 PARITY_MASKS) 0 affected_parity 0xFFFF in
    let corrected_word := Z.lxor w error_bits in
    match add_checksum (Z.land corrected_word DATA_MASK) with
    | Ok c => if c =? corrected_word then Ok (Z.land corrected_word DATA_MASK)
              else Err (Checksum w)
    | _ => Err (Checksum w)
    end
  else Ok (Z.land w DATA_MASK).
