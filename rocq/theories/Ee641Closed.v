(** * Ee641Closed: the whole MLX90641 decoder in closed form, for dumps of any length. *)
From Verif Require Import Base FloatOps Register Bus Camera Cam641 Hamming SpecRegister SpecHamming
  HammingFacts SpecEeprom ParseFacts FieldFacts SpecRange RangeFacts Spec641 Ee641 Ee641Facts.

(** ** Lists *)
Lemma combine_seq {A B} (f : nat -> A) (g : nat -> B) n : forall m a,
  combine (map f (seq a n)) (map g (seq a m)) = map (fun i => (f i, g i)) (seq a (Nat.min n m)).
Proof.
  induction n as [|n IH]; intros [|m] a; [reflexivity|reflexivity|reflexivity|].
  cbn [seq map combine Nat.min]. rewrite IH. reflexivity.
Qed.

Lemma firstn_seq k n : forall a, firstn k (seq a n) = seq a (Nat.min k n).
Proof.
  revert n. induction k as [|k IH]; intros [|n] a; try reflexivity. cbn [seq firstn Nat.min]. rewrite IH. reflexivity.
Qed.

Lemma chunks2_pairs k : forall l, (length l <= k)%nat ->
  chunks2 l = map (fun i => (nth (2 * i) l 0, nth (2 * i + 1) l 0)) (seq 0 (length l / 2)).
Proof.
  induction k as [k IH] using lt_wf_ind. intros [|a [|b l]] H; [reflexivity|reflexivity|].
  cbn [chunks2 length]. replace (S (S (length l)) / 2)%nat with (S (length l / 2))%nat.
  2:{ apply (Nat.div_unique _ 2 _ (length l mod 2)); [apply Nat.mod_upper_bound; lia|].
      pose proof (Nat.div_mod (length l) 2 ltac:(lia)). lia. }
  cbn [seq map]. rewrite <- seq_shift, map_map. f_equal. cbn [length] in H.
  rewrite (IH (length l) ltac:(lia) l (Nat.le_refl _)). apply map_ext. intros i.
  replace (2 * S i)%nat with (S (S (2 * i))) by lia. replace (S (S (2 * i)) + 1)%nat with (S (S (2 * i + 1))) by lia.
  reflexivity.
Qed.

Lemma nth_firstn {A} n (l : list A) i d : (i < n)%nat -> nth i (firstn n l) d = nth i l d.
Proof.
  revert l i. induction n as [|n IH]; intros l i H; [lia|]. destruct l as [|x l]; [destruct i; reflexivity|].
  destruct i as [|i]; [reflexivity|]. cbn [firstn nth]. apply IH. lia.
Qed.

Lemma resolution_ok641 n : 0 <= n < 4 -> resolution_from_raw n = Ok (doc_resolution n).
Proof.
  intros H. assert (n = 0 \/ n = 1 \/ n = 2 \/ n = 3) as [-> | [-> | [-> | ->]]] by lia; reflexivity.
Qed.

Section Closed.
Context (FO : FloatOps) (p : profile) (data : list Z) (Hb : Forall byte data).
Notation dw := (dword data).
Notation hreads := (hreads p data).
Notation ft := (first_trouble p data).

(** Two bytes of the dump as word [i]. *)
Definition pair_at (i : nat) : Z * Z := (byte_at data (2 * i), byte_at data (2 * i + 1)).

Lemma chunks2_slice a n : (2 * (a + n) <= length data)%nat ->
  chunks2 (firstn (2 * n) (skipn (2 * a) data)) = map (fun i => pair_at (a + i)) (seq 0 n).
Proof.
  intros H. rewrite (chunks2_pairs _ _ (Nat.le_refl _)).
  assert (L : length (firstn (2 * n) (skipn (2 * a) data)) = (2 * n)%nat)
    by (rewrite firstn_length, skipn_length; lia).
  rewrite L. replace (2 * n / 2)%nat with n by (rewrite Nat.mul_comm, Nat.div_mul; lia).
  apply map_ext_in. intros i Hi. apply in_seq in Hi. unfold pair_at, byte_at.
  rewrite !nth_firstn, !nth_skipn by lia.
  replace (2 * a + 2 * i)%nat with (2 * (a + i))%nat by lia.
  replace (2 * a + (2 * i + 1))%nat with (2 * (a + i) + 1)%nat by lia. reflexivity.
Qed.

Lemma chunks2_rest a : chunks2 (skipn (2 * a) data) =
  map (fun i => pair_at (a + i)) (seq 0 ((length data - 2 * a) / 2)).
Proof.
  rewrite (chunks2_pairs _ _ (Nat.le_refl _)), skipn_length. apply map_ext. intros i. unfold pair_at, byte_at.
  rewrite !nth_skipn. replace (2 * a + 2 * i)%nat with (2 * (a + i))%nat by lia.
  replace (2 * a + (2 * i + 1))%nat with (2 * (a + i) + 1)%nat by lia. reflexivity.
Qed.

(** ** One pixel *)
Lemma word_pair i : (2 * i + 1 < length data)%nat ->
  get_hamming_u16 [fst (pair_at i); snd (pair_at i)] = finish (ft [Word i]) (dw i, []).
Proof.
  intros H. pose proof (hreads_word p data Hb i) as E. unfold Ee641Facts.hreads in E.
  unfold get_hamming_u16, pbind, get_u16 in *. rewrite (skipn_word data i H) in E.
  unfold pair_at. cbn [fst snd].
  destruct (plift (validate_checksum (be16 (byte_at data (2 * i)) (byte_at data (2 * i + 1)))) (skipn (2 * (i + 1)) data))
    as [[x r]|e| |] eqn:Ep; unfold plift in *; destruct (validate_checksum _) as [y|e'| |];
    try discriminate; destruct (ft [Word i]) as [[w| |]|]; cbn [finish] in *; try congruence.
Qed.

Lemma word_pair_i11 i : (2 * i + 1 < length data)%nat ->
  get_hamming_i16 [fst (pair_at i); snd (pair_at i)] = finish (ft [Word i]) (signed11 dw i, []).
Proof.
  intros H. unfold get_hamming_i16, pbind. rewrite (word_pair i H).
  destruct (ft [Word i]) as [[w| |]|]; cbn [finish]; try reflexivity.
  unfold plift. rewrite i11 by (apply dword_range, Hb). reflexivity.
Qed.

Lemma word_pair_split i : (2 * i + 1 < length data)%nat ->
  get_6_5_split [fst (pair_at i); snd (pair_at i)] = finish (ft [Word i]) ((bits (dw i) 5 6, bits (dw i) 0 5), []).
Proof.
  intros H. unfold get_6_5_split, pbind. rewrite (word_pair i H).
  destruct (ft [Word i]) as [[w| |]|]; cbn [finish]; try reflexivity.
  unfold pret, split_6_5. change 0x07E0 with (Z.shiftl (Z.ones 6) 5). rewrite high_field by lia.
  change 0x001F with (Z.ones 5). rewrite Z.land_ones by lia. unfold bits. change (2 ^ 0) with 1.
  rewrite Z.div_1_r. reflexivity.
Qed.

Lemma small_byte b n : 0 <= b < 2 ^ n -> 1 <= n <= 7 -> i16_from_bits [b] n = Ok (sext n b).
Proof.
  intros H Hn. assert (2 ^ n <= 2 ^ 7) by (apply Z.pow_le_mono_r; lia). change (2 ^ 7) with 128 in *.
  rewrite i16_from_bits_byte; [|unfold byte; lia|lia]. f_equal. unfold sbits. f_equal.
  unfold sext. change (2 ^ (8 - 1)) with 128. destruct (Z.ltb_spec b 128); [|lia].
  unfold bits. change (2 ^ 0) with 1. rewrite Z.div_1_r. apply Z.mod_small. exact H.
Qed.

Definition raw_of (i : nat) : Z * Z * Z * Z * Z :=
  (signed11 dw (offset0_word i), signed11 dw (offset1_word i), dw (alpha_word i), kta_raw dw i, kv_raw dw i).

Lemma pixel_raw_closed i : (2 * offset1_word i + 1 < length data)%nat -> (i < 192)%nat ->
  pixel_raw (pair_at (offset0_word i)) (pair_at (offset1_word i)) (pair_at (alpha_word i)) (pair_at (constants_word i))
  = finish (ft (map Word (pixel_words i))) (raw_of i).
Proof.
  intros H Hi. unfold offset1_word in H. unfold pixel_raw.
  change (map Word (pixel_words i)) with
    ([Word (offset0_word i)] ++ [Word (offset1_word i)] ++ [Word (alpha_word i)] ++ [Word (constants_word i)]).
  rewrite word_pair_i11 by (unfold offset0_word; lia). apply finish_bind.
  rewrite word_pair_i11 by (unfold offset1_word; lia). apply finish_bind.
  rewrite word_pair by (unfold alpha_word; lia). apply finish_bind.
  rewrite word_pair_split by (unfold constants_word; lia).
  destruct (ft [Word (constants_word i)]) as [[w| |]|]; try reflexivity. cbn [finish bind].
  rewrite !small_byte by (try lia; apply bits_range; lia). reflexivity.
Qed.

(** Constants of the pixels, as the decoder has them. *)
Definition scale_used : Z := wrap16 (2 ^ offset_scale dw).
Definition average_used : Z := sbits (joined data 0x11) 0 11.
Definition reference_of (g : nat) : F FO := fdiv (fofZ (row_max dw g)) (fexp2 (fofZ (alpha_scale dw g))).

Definition failedb (i : nat) : bool :=
  (signed11 dw (offset0_word i) =? 0) && (signed11 dw (offset1_word i) =? 0) && (dw (alpha_word i) =? 0)
  && (kta_raw dw i =? 0) && (kv_raw dw i =? 0).

Definition pixel_checks (i : nat) : list step :=
  if failedb i then [] else
    [Check (signed11 dw (offset0_word i) * scale_used);
     Check (signed11 dw (offset1_word i) * scale_used);
     Check (average_used + wrap16 (signed11 dw (offset0_word i) * scale_used));
     Check (average_used + wrap16 (signed11 dw (offset1_word i) * scale_used))].

Definition offset_of (w : nat) : Z := wrap16 (average_used + wrap16 (signed11 dw w * scale_used)).

Definition pixel_value (i : nat) : pixel641 FO :=
  if failedb i then
    {| q_offset0 := 0; q_offset1 := 0; q_alpha := fofZ 0; q_k_ta := fofZ 0; q_k_v := fofZ 0; q_failed := true |}
  else
    {| q_offset0 := offset_of (offset0_word i);
       q_offset1 := offset_of (offset1_word i);
       q_alpha := fmul (fdiv (fofZ (dw (alpha_word i))) (fofZ 2047)) (reference_of (i / 32));
       q_k_ta := scale_fn FO (kta_raw dw i) (kta_average641 dw) (fexp2 (fofZ (kta_scale_1_641 dw)))
                          (fexp2 (fofZ (kta_scale_2_641 dw)));
       q_k_v := scale_fn FO (kv_raw dw i) (kv_average641 dw) (fexp2 (fofZ (kv_scale_1_641 dw)))
                         (fexp2 (fofZ (kv_scale_2_641 dw)));
       q_failed := false |}.

Lemma chk_finish z : chk_i16 p z = finish (ft [Check z]) (wrap16 z).
Proof.
  unfold chk_i16. cbn [first_trouble trouble_of]. pose proof (in_i16_spec z) as H. destruct (in_i16 z) eqn:E.
  - rewrite (wrap16_id z) by (apply H; reflexivity). destruct p; reflexivity.
  - destruct p; reflexivity.
Qed.

Lemma pixel_step_closed i :
  pixel641_step FO p scale_used average_used (kta_average641 dw) (kv_average641 dw)
    (fexp2 (fofZ (kta_scale_1_641 dw))) (fexp2 (fofZ (kta_scale_2_641 dw)))
    (fexp2 (fofZ (kv_scale_1_641 dw))) (fexp2 (fofZ (kv_scale_2_641 dw)))
    (raw_of i) (reference_of (i / 32))
  = finish (ft (pixel_checks i)) (pixel_value i).
Proof.
  unfold pixel641_step, raw_of, pixel_checks, pixel_value. fold (failedb i).
  destruct (failedb i); [reflexivity|].
  change [Check (signed11 dw (offset0_word i) * scale_used);
     Check (signed11 dw (offset1_word i) * scale_used);
     Check (average_used + wrap16 (signed11 dw (offset0_word i) * scale_used));
     Check (average_used + wrap16 (signed11 dw (offset1_word i) * scale_used))]
  with ([Check (signed11 dw (offset0_word i) * scale_used)] ++
     [Check (signed11 dw (offset1_word i) * scale_used)] ++
     [Check (average_used + wrap16 (signed11 dw (offset0_word i) * scale_used))] ++
     [Check (average_used + wrap16 (signed11 dw (offset1_word i) * scale_used))] ++ []).
  rewrite chk_finish. apply finish_bind. rewrite chk_finish. apply finish_bind.
  rewrite chk_finish. apply finish_bind. rewrite chk_finish. apply finish_bind.
  reflexivity.
Qed.

Definition pixel_steps (i : nat) : list step := map Word (pixel_words i) ++ pixel_checks i.

(** ** The scales *)
Definition scale_steps : list step :=
  [Room 32; Word 0x10; Check (2 ^ offset_scale dw); Word 0x11; Word 0x12; Room 42] ++ map Word (seq 0x15 13).

Definition references : list (F FO) := map reference_of (seq 0 6).

Lemma repeat_reference (a b c d e f : F FO) :
  flat_map (fun v => repeat v (WIDTH641 * 2)) [a; b; c; d; e; f]
  = map (fun i => nth (i / 32) [a; b; c; d; e; f] a) (seq 0 192).
Proof. vm_compute. reflexivity. Qed.

Lemma hreads_reference :
  hreads (2 * 0x19) (get_sensitivity_reference FO) (2 * 0x22) (map Word (seq 0x19 9))
    (map (fun i => reference_of (i / 32)) (seq 0 192)).
Proof.
  unfold get_sensitivity_reference. cbn [get_scales].
  change (map Word (seq 0x19 9)) with (map Word (seq 0x19 3) ++ map Word (seq 0x1C 6)).
  eapply hreads_bind with (n := (2 * 0x1C)%nat).
  { change (map Word (seq 0x19 3)) with ([Word 0x19] ++ [Word 0x1A] ++ [Word 0x1B]).
    eapply hreads_bind; [apply (hreads_split p data Hb 0x19)|]. cbv beta iota.
    eapply hreads_last.
    - eapply hreads_bind; [apply (hreads_split p data Hb 0x1A)|]. cbv beta iota.
      eapply hreads_last.
      + eapply hreads_last; [apply (hreads_split p data Hb 0x1B)|]. cbv beta iota. reflexivity.
      + reflexivity.
    - reflexivity. }
  cbn [get_row_max].
  eapply hreads_last.
  { change (map Word (seq 0x1C 6)) with ([Word 0x1C] ++ [Word 0x1D] ++ [Word 0x1E] ++ [Word 0x1F] ++ [Word 0x20] ++ [Word 0x21]).
    eapply hreads_bind; [apply (hreads_word p data Hb 0x1C)|]. eapply hreads_last.
    - eapply hreads_bind; [apply (hreads_word p data Hb 0x1D)|]. eapply hreads_last.
      + eapply hreads_bind; [apply (hreads_word p data Hb 0x1E)|]. eapply hreads_last.
        * eapply hreads_bind; [apply (hreads_word p data Hb 0x1F)|]. eapply hreads_last.
          -- eapply hreads_bind; [apply (hreads_word p data Hb 0x20)|]. eapply hreads_last.
             ++ eapply hreads_last; [apply (hreads_word p data Hb 0x21)|]. reflexivity.
             ++ reflexivity.
          -- reflexivity.
        * reflexivity.
      + reflexivity.
    - reflexivity. }
  rewrite repeat_reference. apply (f_equal pret). apply map_ext_in. intros i Hi. apply in_seq in Hi.
  assert (Hg : (i / 32 < 6)%nat) by (apply Nat.div_lt_upper_bound; lia).
  destruct (i / 32)%nat as [|[|[|[|[|[|g]]]]]]; try lia; reflexivity.
Qed.

(** ** Temperature ranges *)
Definition ksto641 : list (F FO) :=
  map (fun w => fdiv (fofZ (signed11 dw w)) (fexp2 (fofZ (dw 0x34)))) ksto_words.

Lemma corner_small i : i16_of_u16 (dw i) = dw i.
Proof.
  pose proof (dword_range data Hb i). unfold i16_of_u16. destruct (Z.ltb_spec (dw i) 32768); lia.
Qed.

Lemma hreads_ranges641 :
  hreads (2 * 0x34) (get_temperature_range_data641 FO) (2 * 0x40) (map Word (seq 0x34 12))
    (corners641 dw, ksto641).
Proof.
  unfold get_temperature_range_data641.
  change (map Word (seq 0x34 12)) with ([Word 0x34] ++ map Word (seq 0x35 5) ++ map Word (seq 0x3A 6)).
  eapply hreads_bind; [apply (hreads_word p data Hb 0x34)|]. cbv zeta.
  set (sc := fexp2 (fofZ (dw 0x34))).
  eapply hreads_bind with (n := (2 * 0x3A)%nat).
  { change (map Word (seq 0x35 5)) with ([Word 0x35] ++ [Word 0x36] ++ [Word 0x37] ++ [Word 0x38] ++ [Word 0x39]).
    cbn [get_k_s_to].
    eapply hreads_bind; [apply (hreads_i11 p data Hb 0x35)|]. eapply hreads_last.
    - eapply hreads_bind; [apply (hreads_i11 p data Hb 0x36)|]. eapply hreads_last.
      + eapply hreads_bind; [apply (hreads_i11 p data Hb 0x37)|]. eapply hreads_last.
        * eapply hreads_bind; [apply (hreads_i11 p data Hb 0x38)|]. eapply hreads_last.
          -- eapply hreads_last; [apply (hreads_i11 p data Hb 0x39)|]. reflexivity.
          -- reflexivity.
        * reflexivity.
      + reflexivity.
    - reflexivity. }
  eapply hreads_last.
  { change (map Word (seq 0x3A 6)) with ([Word 0x3A] ++ [Word 0x3B] ++ [Word 0x3C] ++ [Word 0x3D] ++ [Word 0x3E] ++ [Word 0x3F]).
    cbn [get_ct_k_s_to].
    eapply hreads_bind; [apply (hreads_word p data Hb 0x3A)|].
    eapply hreads_bind; [apply (hreads_i11 p data Hb 0x3B)|]. eapply hreads_last.
    - eapply hreads_bind; [apply (hreads_word p data Hb 0x3C)|].
      eapply hreads_bind; [apply (hreads_i11 p data Hb 0x3D)|]. eapply hreads_last.
      + eapply hreads_bind; [apply (hreads_word p data Hb 0x3E)|].
        eapply hreads_last; [apply (hreads_i11 p data Hb 0x3F)|]. reflexivity.
      + reflexivity.
    - reflexivity. }
  cbn [map fst snd app].
  change (58 + 1 + 1)%nat with 0x3C%nat. change (60 + 1 + 1)%nat with 0x3E%nat.
  rewrite !corner_small. reflexivity.
Qed.

Lemma corners641_fit n : (S n < 8)%nat -> fits (range_span (corners641 dw) n).
Proof.
  intros H. unfold range_span, corners641, fits.
  pose proof (dword_range data Hb 0x3A). pose proof (dword_range data Hb 0x3C). pose proof (dword_range data Hb 0x3E).
  destruct n as [|[|[|[|[|[|[|n]]]]]]]; cbn [Nat.add nth]; lia.
Qed.

Lemma ranges641_closed :
  alpha_correction_coefficients FO p 8 2 (corners641 dw) ksto641
  = Ok (map (range_correction (corners641 dw) ksto641 2) (seq 0 8)).
Proof.
  apply alpha_correction_closed; try reflexivity; try (apply Nat.leb_le; reflexivity).
  apply corners641_fit.
Qed.

(** ** Per-pixel data *)
Definition available : nat := Nat.min 192 ((length data - 1280) / 2).
Definition per_pixel_steps : list step :=
  scale_steps ++ [Room 1280] ++ flat_map pixel_steps (seq 0 available) ++ [Filled].

Lemma hreads_scales :
  hreads 0
    (get _ <- advance (byte_offset EE641_OffsetCompensationScale);
     get (offset_scale_exp, _) <- get_6_5_split;
     get offset_scale <- plift (chk_i16 p (2 ^ offset_scale_exp));
     get offset_average_bytes <- get_combined_word;
     get offset_average <- plift (i16_from_i11 offset_average_bytes);
     get _ <- advance (WORD_SIZE * 2);
     get k_ta_average <- get_hamming_i16;
     get (kt1, kt2) <- get_6_5_split;
     get k_v_average <- get_hamming_i16;
     get (kv1, kv2) <- get_6_5_split;
     get alpha_reference <- get_sensitivity_reference FO;
     pret (offset_scale, offset_average, k_ta_average, k_v_average, kt1, kt2, kv1, kv2, alpha_reference))
    (2 * 0x22) scale_steps
    (scale_used, average_used, kta_average641 dw, kv_average641 dw, kta_scale_1_641 dw, kta_scale_2_641 dw,
     kv_scale_1_641 dw, kv_scale_2_641 dw, map (fun i => reference_of (i / 32)) (seq 0 192)).
Proof.
  change scale_steps with
    ([Room 32] ++ [Word 0x10] ++ [Check (2 ^ offset_scale dw)] ++ [Word 0x11; Word (0x11 + 1)] ++ [Room 42]
     ++ [Word 0x15] ++ [Word 0x16] ++ [Word 0x17] ++ [Word 0x18] ++ map Word (seq 0x19 9)).
  change (byte_offset EE641_OffsetCompensationScale) with 32%nat.
  eapply hreads_bind; [apply (hreads_advance p data 0 32); lia|]. change (0 + 32)%nat with (2 * 0x10)%nat.
  eapply hreads_bind; [apply (hreads_split p data Hb 0x10)|]. cbv beta iota.
  eapply hreads_bind; [apply (hreads_chk p data)|]. change (0x10 + 1)%nat with 0x11%nat.
  eapply hreads_bind; [apply (hreads_joined p data Hb 0x11)|].
  eapply hreads_skip.
  { apply hreads_plift. unfold i16_from_i11, to_be_bytes. pose proof (joined_range data Hb 0x11) as Hj.
    apply i16_from_bits_spec; [| |lia].
    - split; [apply Z.div_pos; lia|apply Z.div_lt_upper_bound; lia].
    - apply Z.mod_pos_bound. lia. }
  change (WORD_SIZE * 2)%nat with 4%nat. change (2 * (0x11 + 2))%nat with 38%nat.
  eapply hreads_bind; [apply (hreads_advance p data 38 4); lia|]. change (38 + 4)%nat with (2 * 0x15)%nat.
  eapply hreads_bind; [apply (hreads_i11 p data Hb 0x15)|]. change (0x15 + 1)%nat with 0x16%nat.
  eapply hreads_bind; [apply (hreads_split p data Hb 0x16)|]. cbv beta iota. change (0x16 + 1)%nat with 0x17%nat.
  eapply hreads_bind; [apply (hreads_i11 p data Hb 0x17)|]. change (0x17 + 1)%nat with 0x18%nat.
  eapply hreads_bind; [apply (hreads_split p data Hb 0x18)|]. cbv beta iota. change (0x18 + 1)%nat with 0x19%nat.
  eapply hreads_last; [exact hreads_reference|]. 
  assert (E : sbits (be16 (joined data 0x11 / 256) (joined data 0x11 mod 256)) 0 11 = average_used).
  { unfold average_used, be16. rewrite Z.mul_comm, <- Z.div_mod by lia. reflexivity. }
  rewrite E. reflexivity.
Qed.

Lemma slices_closed {B} (k : list Z -> list Z -> list Z -> list Z -> res lib_error B) s2 v2 :
  ((1280 <= length data)%nat ->
   k (firstn (2 * 192) (skipn (2 * 0x40) data)) (firstn (2 * 192) (skipn (2 * 0x100) data))
     (firstn (2 * 192) (skipn (2 * 0x1C0) data)) (skipn (2 * 0x280) data) = finish (ft s2) v2) ->
  (do o0 <- slice_of data (byte_offset EE641_PixelOffsetSubpage0Start) (byte_offset EE641_PixelSensitivityStart);
   do s <- slice_of data (byte_offset EE641_PixelSensitivityStart) (byte_offset EE641_PixelConstantsStart);
   do c <- slice_of data (byte_offset EE641_PixelConstantsStart) (byte_offset EE641_PixelOffsetSubpage1Start);
   do o1 <- slice_of data (byte_offset EE641_PixelOffsetSubpage1Start) (length data);
   k o0 s c o1) = finish (ft ([Room 1280] ++ s2)) v2.
Proof.
  intros H.
  change (byte_offset EE641_PixelOffsetSubpage0Start) with (2 * 0x40)%nat.
  change (byte_offset EE641_PixelSensitivityStart) with (2 * 0x100)%nat.
  change (byte_offset EE641_PixelConstantsStart) with (2 * 0x1C0)%nat.
  change (byte_offset EE641_PixelOffsetSubpage1Start) with (2 * 0x280)%nat.
  rewrite first_trouble_app.
  change (ft [Room 1280]) with (match (if Nat.leb 1280 (length data) then None else Some Panics) with
                                | None => None | t => t end).
  unfold slice_of.
  destruct (Nat.leb_spec 1280 (length data)) as [Hl|Hl].
  - destruct (Nat.ltb_spec (length data) (2 * 0x100)); [lia|].
    destruct (Nat.ltb_spec (2 * 0x100) (2 * 0x40)); [lia|]. cbn [bind].
    destruct (Nat.ltb_spec (length data) (2 * 0x1C0)); [lia|].
    destruct (Nat.ltb_spec (2 * 0x1C0) (2 * 0x100)); [lia|]. cbn [bind].
    destruct (Nat.ltb_spec (length data) (2 * 0x280)); [lia|].
    destruct (Nat.ltb_spec (2 * 0x280) (2 * 0x1C0)); [lia|]. cbn [bind].
    destruct (Nat.ltb_spec (length data) (length data)); [lia|].
    destruct (Nat.ltb_spec (length data) (2 * 0x280)); [lia|]. cbn [bind].
    replace (firstn (length data - 2 * 0x280) (skipn (2 * 0x280) data)) with (skipn (2 * 0x280) data)
      by (symmetry; apply firstn_all2; rewrite skipn_length; lia).
    apply H, Hl.
  - destruct (Nat.ltb (length data) (2 * 0x100)); [reflexivity|].
    destruct (Nat.ltb (2 * 0x100) (2 * 0x40)); [reflexivity|]. cbn [bind].
    destruct (Nat.ltb (length data) (2 * 0x1C0)); [reflexivity|].
    destruct (Nat.ltb (2 * 0x1C0) (2 * 0x100)); [reflexivity|]. cbn [bind].
    destruct (Nat.ltb_spec (length data) (2 * 0x280)); [reflexivity|lia].
Qed.

Lemma per_pixel_closed :
  per_pixel_from_data FO p data = finish (ft per_pixel_steps) (map pixel_value (seq 0 available)).
Proof.
  unfold per_pixel_from_data, per_pixel_steps.
  pose proof hreads_scales as Hs. unfold Ee641Facts.hreads in Hs. change (skipn 0 data) with data in Hs.
  rewrite Hs. apply finish_bind. cbv beta iota zeta.
  apply slices_closed. intros Hlen. cbv zeta.
  rewrite !chunks2_slice by lia. rewrite chunks2_rest. unfold zip. rewrite !combine_seq.
  rewrite firstn_map, firstn_seq.
  set (n := Nat.min _ _).
  assert (En : n = available).
  { unfold n, available. change NUM_PIXELS641 with 192%nat. change (2 * 640)%nat with 1280%nat. lia. }
  rewrite En. rewrite map_map.
  rewrite (sequence_finish p data _ pixel_steps pixel_value).
  - apply finish_bind. rewrite map_length, seq_length. unfold available. change NUM_PIXELS641 with 192%nat.
    cbn [first_trouble trouble_of].
    pose proof (Nat.div_mod (length data - 1280) 2 ltac:(lia)) as Ed.
    pose proof (Nat.mod_upper_bound (length data - 1280) 2 ltac:(lia)) as Em.
    destruct (Nat.eqb_spec (Nat.min 192 ((length data - 1280) / 2)) 192);
      destruct (Nat.leb_spec 1664 (length data)); try lia; reflexivity.
  - intros i Hi. apply in_seq in Hi. cbv beta iota.
    assert (Hi' : (i < 192)%nat /\ (2 * (0x280 + i) + 1 < length data)%nat).
    { unfold available in Hi. pose proof (Nat.div_mod (length data - 1280) 2 ltac:(lia)) as Ed. lia. }
    unfold pixel_steps.
    change (64 + i)%nat with (offset0_word i). change (256 + i)%nat with (alpha_word i).
    change (448 + i)%nat with (constants_word i). change (640 + i)%nat with (offset1_word i).
    rewrite pixel_raw_closed by (unfold offset1_word; lia). apply finish_bind. apply pixel_step_closed.
Qed.

(** ** The whole calibration record *)
Definition cp_constant (i : nat) : F FO := fdiv (fofZ (sbits (dw i) 0 6)) (fexp2 (fofZ (bits (dw i) 6 5))).

Definition record641 (pixels : list (pixel641 FO)) : calib FO := {|
  cam := Mlx90641 FO;
  k_v_dd := signed11 dw 0x27 * 32;
  v_dd_25 := signed11 dw 0x26 * 32;
  cal_resolution := doc_resolution (bits (dw 0x33) 9 2);
  v_dd_0 := f_3_3;
  k_v_ptat := fdiv (fofZ (signed11 dw 0x2B)) (fofZ 4096);
  k_t_ptat := fdiv (fofZ (signed11 dw 0x2A)) (fofZ 8);
  v_ptat_25 := fofZ (joined data 0x28);
  alpha_ptat := fdiv (fofZ (dw 0x2C)) (fofZ 128);
  cal_gain := fofZ (joined data 0x24);
  k_s_ta := fdiv (fofZ (signed11 dw 0x22)) (fexp2 (fofZ 15));
  corner_temperatures := corners641 dw;
  k_s_to := ksto641;
  alpha_correction := map (range_correction (corners641 dw) ksto641 2) (seq 0 8);
  cal_emissivity := Some (fdiv (fofZ (signed11 dw 0x23)) (fexp2 (fofZ 9)));
  offset_reference_pixels := fun sp =>
    match sp with Zero => map (q_offset0 FO) pixels | One => map (q_offset1 FO) pixels end;
  offset_reference_cp := fun _ => sext 16 (joined data 0x2F);
  alpha_pixels := fun _ => map (q_alpha FO) pixels;
  alpha_cp := fun _ => fdiv (fofZ (dw 0x2D)) (fexp2 (fofZ (dw 0x2E)));
  k_v_pixels := fun _ => map (q_k_v FO) pixels;
  k_v_cp := fun _ => cp_constant 0x32;
  k_ta_pixels := fun _ => map (q_k_ta FO) pixels;
  k_ta_cp := fun _ => cp_constant 0x31;
  temperature_gradient_coefficient := Some (fdiv (fofZ (sbits (dw 0x33) 0 9)) (fofZ 64));
  access_pattern_compensation_pixels := fun _ => repeat None NUM_PIXELS641;
  access_pattern_compensation_cp := fun _ _ => None;
  failed_pixels := map (q_failed FO) pixels;
  outlier_pixels := map (q_failed FO) pixels
|}.
Definition decoded641 : calib FO := record641 (map pixel_value (seq 0 192)).

Definition header_steps : list step := Room 68 :: map Word (seq 0x22 30).
Definition all_steps : list step := header_steps ++ per_pixel_steps.

Lemma hreads_cp_constant i : hreads (2 * i) (get_scaled_cp_constant FO) (2 * (i + 1)) [Word i] (cp_constant i).
Proof.
  unfold get_scaled_cp_constant. change [Word i] with ([Word i] ++ []).
  eapply hreads_bind; [apply (hreads_word p data Hb i)|]. cbv zeta.
  pose proof (dword_range data Hb i) as Hr.
  eapply hreads_last.
  { apply hreads_plift. change 0x003F with (Z.ones 6). apply low_field; lia. }
  change 0x07C0 with (Z.shiftl (Z.ones 5) 6). rewrite high_field by lia. reflexivity.
Qed.

Lemma hreads_resolution : hreads (2 * 0x33) (get_resolution_with_tgc FO) (2 * 0x34) [Word 0x33]
  (doc_resolution (bits (dw 0x33) 9 2), fdiv (fofZ (sbits (dw 0x33) 0 9)) (fofZ 64)).
Proof.
  unfold get_resolution_with_tgc. change [Word 0x33] with ([Word 0x33] ++ []).
  eapply hreads_bind; [apply (hreads_word p data Hb 0x33)|]. cbv zeta.
  pose proof (dword_range data Hb 0x33) as Hr.
  change 0x0600 with (Z.shiftl (Z.ones 2) 9). rewrite high_field by lia.
  eapply hreads_skip.
  { apply hreads_plift. apply resolution_ok641. apply (bits_range _ 9 2). lia. }
  eapply hreads_last.
  { apply hreads_plift. change 0x01FF with (Z.ones 9). apply low_field; lia. }
  reflexivity.
Qed.

Lemma shl5 i : shl16 (signed11 dw i) 5 = signed11 dw i * 32.
Proof.
  unfold shl16. change (2 ^ 5) with 32. apply wrap16_id. unfold fits, signed11.
  pose proof (sext_range 11 (dw i) ltac:(lia) (dword_range data Hb i)) as B. change (2 ^ (11 - 1)) with 1024 in B. lia.
Qed.

Lemma finish_map {A B} t (f : A -> B) (v : A) :
  bind (finish t v) (fun x => Ok (f x)) = finish t (f v).
Proof. destruct t as [[w| |]|]; reflexivity. Qed.

Lemma finish_any {A} t (v v' : A) : t <> None \/ v = v' -> finish t v = finish t v'.
Proof. intros [H| ->]; [destruct t as [[w| |]|]; [reflexivity..|contradiction]|reflexivity]. Qed.

Lemma some_anyway {A} (t : option A) (x : A) : match t with None => Some x | Some y => Some y end <> None.
Proof. destruct t; discriminate. Qed.

Lemma from_data641_closed : from_data641 FO p data = finish (ft all_steps) decoded641.
Proof.
  unfold from_data641, all_steps.
  match goal with |- bind (?m data) _ = _ =>
    assert (H : hreads 0 m (2 * 0x40) header_steps record641) end.
  { change header_steps with
      ([Room 68] ++ [Word 0x22] ++ [Word 0x23] ++ [Word 0x24; Word (0x24 + 1)] ++ [Word 0x26] ++ [Word 0x27]
       ++ [Word 0x28; Word (0x28 + 1)] ++ [Word 0x2A] ++ [Word 0x2B] ++ [Word 0x2C] ++ [Word 0x2D] ++ [Word 0x2E]
       ++ [Word 0x2F; Word (0x2F + 1)] ++ [Word 0x31] ++ [Word 0x32] ++ [Word 0x33] ++ map Word (seq 0x34 12)).
    change (byte_offset EE641_KsTa) with 68%nat.
    eapply hreads_bind; [apply (hreads_advance p data 0 68); lia|]. change (0 + 68)%nat with (2 * 0x22)%nat.
    eapply hreads_bind; [apply (hreads_i11 p data Hb 0x22)|]. change (0x22 + 1)%nat with 0x23%nat.
    eapply hreads_bind; [apply (hreads_i11 p data Hb 0x23)|]. change (0x23 + 1)%nat with 0x24%nat.
    eapply hreads_bind; [apply (hreads_joined p data Hb 0x24)|]. change (0x24 + 2)%nat with 0x26%nat.
    eapply hreads_skip; [apply hreads_plift, register_bytes, joined_range, Hb|].
    eapply hreads_bind; [apply (hreads_i11 p data Hb 0x26)|]. change (0x26 + 1)%nat with 0x27%nat.
    eapply hreads_bind; [apply (hreads_i11 p data Hb 0x27)|]. change (0x27 + 1)%nat with 0x28%nat.
    eapply hreads_bind; [apply (hreads_joined p data Hb 0x28)|]. change (0x28 + 2)%nat with 0x2A%nat.
    eapply hreads_skip; [apply hreads_plift, register_bytes, joined_range, Hb|].
    eapply hreads_bind; [apply (hreads_i11 p data Hb 0x2A)|]. change (0x2A + 1)%nat with 0x2B%nat.
    eapply hreads_bind; [apply (hreads_i11 p data Hb 0x2B)|]. change (0x2B + 1)%nat with 0x2C%nat.
    eapply hreads_bind; [apply (hreads_word p data Hb 0x2C)|]. change (0x2C + 1)%nat with 0x2D%nat.
    eapply hreads_bind; [apply (hreads_word p data Hb 0x2D)|]. change (0x2D + 1)%nat with 0x2E%nat.
    eapply hreads_bind; [apply (hreads_word p data Hb 0x2E)|]. change (0x2E + 1)%nat with 0x2F%nat.
    eapply hreads_bind; [apply (hreads_joined p data Hb 0x2F)|]. change (0x2F + 2)%nat with 0x31%nat.
    eapply hreads_skip; [apply hreads_plift, register_bytes, joined_range, Hb|].
    eapply hreads_bind; [apply (hreads_cp_constant 0x31)|]. change (0x31 + 1)%nat with 0x32%nat.
    eapply hreads_bind; [apply (hreads_cp_constant 0x32)|]. change (0x32 + 1)%nat with 0x33%nat.
    eapply hreads_bind; [exact hreads_resolution|]. cbv beta iota.
    eapply hreads_last; [exact hreads_ranges641|]. cbv beta iota.
    change (BASIC_TEMPERATURE_RANGE FO (Mlx90641 FO)) with 2%nat. unfold plift. rewrite ranges641_closed.
    rewrite !shl5. reflexivity. }
  unfold Ee641Facts.hreads in H. change (skipn 0 data) with data in H. rewrite H.
  apply finish_bind. rewrite per_pixel_closed. rewrite (finish_map _ record641).
  apply finish_any. unfold per_pixel_steps.
  destruct (Nat.leb_spec 1664 (length data)) as [Hl|Hl].
  - right. unfold decoded641. apply (f_equal (fun n => record641 (map pixel_value (seq 0 n)))).
    unfold available. pose proof (Nat.div_mod (length data - 1280) 2 ltac:(lia)) as Ed.
    pose proof (Nat.mod_upper_bound (length data - 1280) 2 ltac:(lia)) as Em. lia.
  - left. rewrite !app_assoc, first_trouble_app.
    assert (Ef : ft [Filled] = Some NotFilled).
    { cbn [first_trouble trouble_of]. destruct (Nat.leb_spec 1664 (length data)); [lia|reflexivity]. }
    rewrite Ef. apply some_anyway.
Qed.
End Closed.
