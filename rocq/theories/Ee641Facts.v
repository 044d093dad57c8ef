(** * Ee641Facts: reading the MLX90641 EEPROM, by word number, with the first
    thing that goes wrong. *)
From Verif Require Import Base FloatOps Register Bus Camera Cam641 Hamming SpecRegister SpecHamming
  HammingFacts SpecEeprom ParseFacts FieldFacts SpecRange RangeFacts Spec641 Ee641.

(** What the decoder does one after the other. *)
Inductive step :=
| Word (i : nat)      (* read and correct word [i] *)
| Check (z : Z)       (* a 16-bit result *)
| Room (n : nat)      (* [n] bytes are needed *)
| Filled.             (* all pixels were there *)

Inductive trouble := Uncorrectable (w : Z) | Panics | NotFilled.

Definition finish {A} (t : option trouble) (x : A) : res lib_error A :=
  match t with
  | None => Ok x
  | Some (Uncorrectable w) => Err (Checksum w)
  | Some Panics => Panic
  | Some NotFilled => Err (OtherError "the ArrayVec should be filled with EEPROM data")
  end.

Section Steps.
Context (p : profile) (data : list Z) (Hb : Forall byte data).
Notation W := (ee_word data).

(** The corrected data word, 0 if there is none. *)
Definition dword (i : nat) : Z := match validate_checksum (W i) with Ok d => d | _ => 0 end.

Definition trouble_of (s : step) : option trouble :=
  match s with
  | Word i =>
      if Nat.ltb (2 * i + 1) (length data) then
        match validate_checksum (W i) with Ok _ => None | _ => Some (Uncorrectable (W i)) end
      else Some Panics
  | Check z => match p with Debug => if in_i16 z then None else Some Panics | Release => None end
  | Room n => if Nat.leb n (length data) then None else Some Panics
  | Filled => if Nat.leb 1664 (length data) then None else Some NotFilled
  end.

Fixpoint first_trouble (l : list step) : option trouble :=
  match l with
  | [] => None
  | s :: r => match trouble_of s with None => first_trouble r | t => t end
  end.

Lemma first_trouble_app a b :
  first_trouble (a ++ b) = match first_trouble a with None => first_trouble b | t => t end.
Proof. induction a as [|s a IH]; [reflexivity|]. cbn [app first_trouble]. destruct (trouble_of s); auto. Qed.

Lemma finish_bind {A B} s1 s2 (v1 : A) (v2 : B) (k : A -> res lib_error B) :
  k v1 = finish (first_trouble s2) v2 ->
  bind (finish (first_trouble s1) v1) k = finish (first_trouble (s1 ++ s2)) v2.
Proof.
  intros H. rewrite first_trouble_app. destruct (first_trouble s1) as [[w| |]|]; cbn [finish bind]; auto.
Qed.

Lemma dword_range i : 0 <= dword i < 2048.
Proof.
  unfold dword. destruct (validate_outcome (W i) (ee_word_word data Hb i)) as [(d & E & Hd & _)|E]; rewrite E.
  - exact Hd.
  - lia.
Qed.

(** Started at byte [j]. *)
Definition hreads {A} (j : nat) (m : parser A) (n : nat) (steps : list step) (v : A) : Prop :=
  m (skipn j data) = finish (first_trouble steps) (v, skipn n data).

Lemma hreads_pret {A} (v : A) j : hreads j (pret v) j [] v.
Proof. reflexivity. Qed.

Lemma hreads_bind {A B} (m : parser A) (k : A -> parser B) j n n' s s' v v' :
  hreads j m n s v -> hreads n (k v) n' s' v' -> hreads j (pbind m k) n' (s ++ s') v'.
Proof.
  unfold hreads, pbind. intros E1 E2. rewrite E1, first_trouble_app.
  destruct (first_trouble s) as [[w| |]|]; cbn [finish]; auto.
Qed.

Lemma hreads_last {A B} (m : parser A) (k : A -> parser B) j n s v v' :
  hreads j m n s v -> k v = pret v' -> hreads j (pbind m k) n s v'.
Proof.
  intros H1 E. rewrite <- (app_nil_r s). eapply hreads_bind; [exact H1|]. rewrite E. apply hreads_pret.
Qed.

Lemma hreads_skip {A B} (m : parser A) (k : A -> parser B) j n n' s v v' :
  hreads j m n [] v -> hreads n (k v) n' s v' -> hreads j (pbind m k) n' s v'.
Proof. intros H1 H2. exact (hreads_bind m k j n n' [] s v v' H1 H2). Qed.

Lemma hreads_plift {A} (r : res lib_error A) j v : r = Ok v -> hreads j (plift r) j [] v.
Proof. intros ->. reflexivity. Qed.

Lemma hreads_chk z j : hreads j (plift (chk_i16 p z)) j [Check z] (wrap16 z).
Proof.
  unfold hreads, plift, chk_i16. cbn [first_trouble trouble_of].
  pose proof (in_i16_spec z) as H. destruct (in_i16 z) eqn:E.
  - rewrite (wrap16_id z) by (apply H; reflexivity). destruct p; reflexivity.
  - destruct p; reflexivity.
Qed.

Lemma hreads_advance j n : (0 < n)%nat -> hreads j (advance n) (j + n) [Room (j + n)] tt.
Proof.
  intros Hn. unfold hreads, advance. cbn [first_trouble trouble_of]. rewrite skipn_length, skipn_add.
  destruct (Nat.ltb_spec (length data - j) n); destruct (Nat.leb_spec (j + n) (length data)); try lia; reflexivity.
Qed.

Lemma skipn_short i : (length data <= 2 * i + 1)%nat ->
  skipn (2 * i) data = [] \/ exists b, skipn (2 * i) data = [b].
Proof.
  intros H. assert (L : (length (skipn (2 * i) data) <= 1)%nat) by (rewrite skipn_length; lia).
  destruct (skipn (2 * i) data) as [|b [|c l]]; cbn [length] in L; [left|right; exists b|lia]; reflexivity.
Qed.

Lemma hreads_word i : hreads (2 * i) get_hamming_u16 (2 * (i + 1)) [Word i] (dword i).
Proof.
  unfold hreads, get_hamming_u16, pbind. cbn [first_trouble trouble_of].
  destruct (Nat.ltb_spec (2 * i + 1) (length data)) as [H|H].
  - unfold get_u16. rewrite (skipn_word data i H), be16_word_at. unfold plift, dword.
    destruct (validate_outcome (W i) (ee_word_word data Hb i)) as [(d & E & _)|E]; rewrite E; reflexivity.
  - destruct (skipn_short i H) as [E|[b E]]; rewrite E; reflexivity.
Qed.

Lemma i11 w : 0 <= w < 2048 -> i16_from_i11 (to_be_bytes w) = Ok (sext 11 w).
Proof.
  intros H. unfold i16_from_i11, to_be_bytes. rewrite i16_from_bits_spec; [|split|split|lia].
  - f_equal. replace (be16 (w / 256) (w mod 256)) with w by (unfold be16; rewrite Z.mul_comm; apply Z.div_mod; lia).
    unfold sbits. f_equal. unfold bits. change (2 ^ 0) with 1. rewrite Z.div_1_r. apply Z.mod_small.
    change (2 ^ 11) with 2048. lia.
  - apply Z.div_pos; lia.
  - apply Z.div_lt_upper_bound; lia.
  - apply Z.mod_pos_bound; lia.
  - apply Z.mod_pos_bound; lia.
Qed.

Lemma hreads_i11 i : hreads (2 * i) get_hamming_i16 (2 * (i + 1)) [Word i] (signed11 dword i).
Proof.
  unfold get_hamming_i16. rewrite <- (app_nil_r [Word i]). eapply hreads_bind; [apply hreads_word|].
  apply hreads_plift. apply i11, dword_range.
Qed.

(** The two words as the decoder puts them together. *)
Definition joined (i : nat) : Z := Z.lor (32 * dword i) (dword (i + 1)).

Lemma joined_range i : 0 <= joined i < 65536.
Proof.
  unfold joined. pose proof (dword_range i) as H1. pose proof (dword_range (i + 1)) as H2.
  split; [apply Z.lor_nonneg; lia|].
  destruct (Z.eq_dec (Z.lor (32 * dword i) (dword (i + 1))) 0) as [->|Hne]; [lia|].
  assert (Hpos : 0 < Z.lor (32 * dword i) (dword (i + 1)))
    by (assert (0 <= Z.lor (32 * dword i) (dword (i + 1))) by (apply Z.lor_nonneg; lia); lia).
  change 65536 with (2 ^ 16). apply Z.log2_lt_pow2; [exact Hpos|]. rewrite Z.log2_lor by lia.
  apply Z.max_lub_lt; [destruct (Z.eq_dec (dword i) 0) as [->|]|destruct (Z.eq_dec (dword (i + 1)) 0) as [->|]];
    try (change (Z.log2 (32 * 0)) with 0; lia); try (change (Z.log2 0) with 0; lia);
    apply Z.log2_lt_pow2; try lia; change (2 ^ 16) with 65536; lia.
Qed.

Lemma joined_small i : dword (i + 1) < 32 -> joined i = 32 * dword i + dword (i + 1).
Proof.
  intros H. unfold joined. pose proof (dword_range (i + 1)).
  assert (E : Z.land (32 * dword i) (dword (i + 1)) = 0); [|rewrite Z.add_nocarry_lxor, Z.lxor_lor by exact E; reflexivity].
  apply Z.bits_inj'. intros n Hn. rewrite Z.land_spec, Z.bits_0.
  destruct (Z.lt_ge_cases n 5).
  - change 32 with (2 ^ 5). rewrite Z.mul_comm, Z.mul_pow2_bits_low by lia. reflexivity.
  - rewrite <- (Z.mod_small (dword (i + 1)) (2 ^ 5)) by (change (2 ^ 5) with 32; lia).
    rewrite Z.mod_pow2_bits_high by lia. apply andb_false_r.
Qed.

Lemma hreads_joined i :
  hreads (2 * i) get_combined_word (2 * (i + 2)) [Word i; Word (i + 1)] (to_be_bytes (joined i)).
Proof.
  unfold get_combined_word. change [Word i; Word (i + 1)] with ([Word i] ++ [Word (i + 1)]).
  eapply hreads_bind; [apply hreads_word|].
  replace (i + 2)%nat with (i + 1 + 1)%nat by lia.
  eapply hreads_last; [apply hreads_word|]. cbv zeta.
  pose proof (dword_range i) as H. unfold joined.
  change 65535 with (Z.ones 16). rewrite Z.land_ones, Z.shiftl_mul_pow2 by lia.
  rewrite Z.mod_small by (change (2 ^ 16) with 65536; change (2 ^ 5) with 32; lia).
  change (2 ^ 5) with 32. rewrite (Z.mul_comm (dword i)). reflexivity.
Qed.

Lemma register_bytes {E} w : 0 <= w < 65536 -> @register_from_slice E (to_be_bytes w) = Ok w.
Proof.
  intros H. unfold to_be_bytes, register_from_slice. f_equal. unfold be16.
  rewrite Z.mul_comm. symmetry. apply Z.div_mod. lia.
Qed.

Lemma hreads_split i :
  hreads (2 * i) get_6_5_split (2 * (i + 1)) [Word i] (bits (dword i) 5 6, bits (dword i) 0 5).
Proof.
  unfold get_6_5_split. eapply hreads_last; [apply hreads_word|]. f_equal. unfold split_6_5.
  change 0x07E0 with (Z.shiftl (Z.ones 6) 5). change 0x001F with (Z.ones 5).
  rewrite Z.land_ones by lia. unfold bits. rewrite <- Z.shiftr_div_pow2, <- !Z.land_ones by lia.
  rewrite Z.shiftr_land, Z.shiftr_shiftl_l, Z.sub_diag, Z.shiftl_0_r by lia.
  rewrite !Z.land_ones by lia. change (2 ^ 0) with 1. rewrite Z.div_1_r. reflexivity.
Qed.

Lemma low_field w n : 0 <= w < 65536 -> 1 <= n <= 16 ->
  i16_from_bits (to_be_bytes (Z.land w (Z.ones n))) n = Ok (sbits w 0 n).
Proof.
  intros Hw Hn. rewrite Z.land_ones by lia.
  assert (Hm : 0 <= w mod 2 ^ n < 65536).
  { assert (0 < 2 ^ n) by (apply Z.pow_pos_nonneg; lia).
    assert (2 ^ n <= 2 ^ 16) by (apply Z.pow_le_mono_r; lia). change (2 ^ 16) with 65536 in *.
    pose proof (Z.mod_pos_bound w (2 ^ n) ltac:(lia)). lia. }
  unfold to_be_bytes. rewrite i16_from_bits_spec; [|split|split|lia].
  - f_equal. replace (be16 (w mod 2 ^ n / 256) ((w mod 2 ^ n) mod 256)) with (w mod 2 ^ n)
      by (unfold be16; rewrite Z.mul_comm; apply Z.div_mod; lia).
    unfold sbits. f_equal. unfold bits. change (2 ^ 0) with 1. rewrite !Z.div_1_r.
    apply Z.mod_mod. apply Z.pow_nonzero; lia.
  - apply Z.div_pos; lia.
  - apply Z.div_lt_upper_bound; lia.
  - apply Z.mod_pos_bound; lia.
  - apply Z.mod_pos_bound; lia.
Qed.

Lemma high_field w lo n : 0 <= lo -> 0 <= n ->
  Z.shiftr (Z.land w (Z.shiftl (Z.ones n) lo)) lo = bits w lo n.
Proof.
  intros Hlo Hn. unfold bits. rewrite <- Z.shiftr_div_pow2, <- Z.land_ones by lia.
  rewrite Z.shiftr_land, Z.shiftr_shiftl_l, Z.sub_diag, Z.shiftl_0_r by lia. reflexivity.
Qed.

(** ** Sequences of results *)
Lemma sequence_finish {A B} (f : A -> res lib_error B) (steps : A -> list step) (v : A -> B) l :
  (forall x, In x l -> f x = finish (first_trouble (steps x)) (v x)) ->
  sequence (map f l) = finish (first_trouble (flat_map steps l)) (map v l).
Proof.
  induction l as [|x l IH]; intros H; [reflexivity|]. cbn [map sequence flat_map].
  rewrite (H x (or_introl eq_refl)). apply finish_bind. rewrite IH by (intros y Hy; apply H; right; exact Hy).
  destruct (first_trouble (flat_map steps l)) as [[w| |]|]; reflexivity.
Qed.
End Steps.
