(** * Ee640Closed: the whole MLX90640 decoder in closed form. *)
From Verif Require Import Base FloatOps Register Bus Camera Cam640 SpecRegister SpecEeprom
  ParseFacts FieldFacts SpecRange RangeFacts Spec640 Ee640 Ee640Facts.

Lemma reads_chk {data} p z j : reads data j (plift (chk_i16 p z)) j (overflow p z) (wrap16 z).
Proof. apply reads_plift. apply chk_i16_cases. Qed.

Lemma word_zero w : word w -> ((bits w 8 8 =? 0) && (bits w 0 8 =? 0)) = (w =? 0).
Proof.
  intros Hw. unfold word in Hw. unfold bits. change (2 ^ 0) with 1. change (2 ^ 8) with 256.
  rewrite Z.div_1_r. rewrite (Z.mod_small (w / 256) 256)
    by (split; [apply Z.div_pos; lia|apply Z.div_lt_upper_bound; lia]).
  pose proof (Z.div_mod w 256 ltac:(lia)) as E. pose proof (Z.mod_pos_bound w 256 ltac:(lia)).
  destruct (Z.eqb_spec (w / 256) 0); destruct (Z.eqb_spec (w mod 256) 0); destruct (Z.eqb_spec w 0);
    cbn [andb]; try reflexivity; subst; try lia.
Qed.

Section Closed.
Context (FO : FloatOps) (p : profile) (data : list Z) (Hb : Forall byte data).
Notation W := (ee_word data).

(** Expected result for pixel number [i]. *)
Definition px (i : nat) : pixel640 FO :=
  let r := (i / 32)%nat in
  let c := (i mod 32)%nat in
  if pixel_word W r c =? 0 then
    {| px_offset := bulk data offset_block r c; px_alpha := fofZ (bulk data alpha_block r c);
       px_k_ta := fofZ 0; px_failed := true; px_outlier := false |}
  else
    {| px_offset := wrap16 (bulk data offset_block r c + shifted (remainder_term W offset_block r c));
       px_alpha := fdiv (fadd (fofZ (bulk data alpha_block r c))
                              (fofZ (shifted (remainder_term W alpha_block r c))))
                        (fexp2 (fofZ (extra_field W alpha_block + 30)));
       px_k_ta := fdiv (fofZ (wrap16 (kta_average W r c + shifted (kta_term W r c))))
                       (fexp2 (fofZ (kta_scale_1 W)));
       px_failed := false;
       px_outlier := bit (pixel_word W r c) 0 |}.

Definition px_overflows (i : nat) : Prop :=
  let r := (i / 32)%nat in
  let c := (i mod 32)%nat in
  p = Debug /\ pixel_word W r c <> 0 /\
  (~ fits (bulk data offset_block r c + shifted (remainder_term W offset_block r c)) \/
   ~ fits (kta_average W r c + shifted (kta_term W r c))).

Lemma pixel_word_at i : pixel_word W (i / 32) (i mod 32) = W (64 + i).
Proof.
  unfold pixel_word. f_equal. rewrite <- (Nat.div_mod i 32) by lia. reflexivity.
Qed.

Lemma reads_pixel i : (2 * (64 + i) + 1 < length data)%nat ->
  reads data (2 * (64 + i))
    (pixel_step FO p (remainder_scale W offset_block) (remainder_scale W alpha_block) (kta_scale_2 W)
       (fexp2 (fofZ (extra_field W alpha_block + 30))) (fexp2 (fofZ (kta_scale_1 W)))
       (bulk data offset_block (i / 32) (i mod 32)) (fofZ (bulk data alpha_block (i / 32) (i mod 32)))
       (kta_average W (i / 32) (i mod 32)))
    (2 * (64 + S i)) (px_overflows i) (px i).
Proof.
  intros Hlen. unfold pixel_step, px, px_overflows.
  set (r := (i / 32)%nat). set (c := (i mod 32)%nat).
  assert (Ew : W (64 + i) = pixel_word W r c) by (symmetry; apply pixel_word_at).
  pose proof (ee_word_word data Hb (64 + i)) as Hw. rewrite Ew in Hw.
  eapply reads_step; [apply reads_u8_hi; [exact Hb|lia]|].
  eapply reads_step; [apply reads_u8_lo; [exact Hb|lia]|]. cbv beta.
  replace (64 + i + 1)%nat with (64 + S i)%nat by lia.
  rewrite Ew, word_zero by exact Hw. cbv zeta.
  destruct (Z.eqb_spec (pixel_word W r c) 0) as [Hz|Hz].
  - eapply reads_iff; [apply reads_pret|]. split; [intros []|]. intros (_ & H & _). exact (H Hz).
  - rewrite offset_remainder_spec by (apply bits_range; lia).
    rewrite k_ta_remainder_spec by (apply bits_range; lia).
    rewrite alpha_remainder_spec by exact Hw.
    rewrite outlier_bit_spec by (apply bits_range; lia).
    rewrite !sbits_bits by lia.
    eapply reads_iff.
    { eapply reads_bind; [apply reads_chk|]. eapply reads_last; [apply reads_chk|]. cbv beta.
      eapply reads_val; [apply reads_pret|].
      assert (Eb : bit (bits (pixel_word W r c) 0 8) 0 = bit (pixel_word W r c) 0).
      { unfold bit. change ((bits (pixel_word W r c) 0 8 / 2 ^ 0) mod 2) with
          (bits (bits (pixel_word W r c) 0 8) 0 1).
        rewrite bits_bits by lia. reflexivity. }
      rewrite Eb. reflexivity. }
    unfold overflow. split.
    + intros [[Hd Ho]|[Hd Ho]]; (split; [exact Hd|]); (split; [exact Hz|]); [left|right]; exact Ho.
    + intros (Hd & _ & [Ho|Ho]); [left|right]; split; auto.
Qed.

Lemma reads_pixels n : forall i, (2 * (64 + i + n) <= length data)%nat ->
  reads data (2 * (64 + i))
    (pixel_loop FO p (remainder_scale W offset_block) (remainder_scale W alpha_block) (kta_scale_2 W)
       (fexp2 (fofZ (extra_field W alpha_block + 30))) (fexp2 (fofZ (kta_scale_1 W)))
       (map (fun i => (bulk data offset_block (i / 32) (i mod 32),
                       fofZ (bulk data alpha_block (i / 32) (i mod 32)),
                       kta_average W (i / 32) (i mod 32))) (seq i n)))
    (2 * (64 + i + n)) (exists k, (i <= k < i + n)%nat /\ px_overflows k) (map px (seq i n)).
Proof.
  induction n as [|n IH]; intros i Hlen; cbn [seq map pixel_loop].
  - rewrite Nat.add_0_r. eapply reads_iff; [apply reads_pret|]. split; [intros []|]. intros (k & H & _). lia.
  - eapply reads_iff.
    { eapply reads_bind; [apply reads_pixel; lia|].
      eapply reads_last; [apply IH; lia|].
      replace (64 + S i + n)%nat with (64 + i + S n)%nat by lia. apply reads_pret. }
    split.
    + intros [H|(k & Hk & H)]; [exists i|exists k]; (split; [lia|exact H]).
    + intros (k & Hk & H). destruct (Nat.eq_dec k i) as [->|Hne]; [left; exact H|].
      right. exists k. split; [lia|exact H].
Qed.

(** ** The pieces between the bulk tables and the pixels *)
Lemma chessboard_closed a b c d :
  repeat_chessboard (a, b, c, d) =
  map (fun i => match Nat.even (i / 32), Nat.even (i mod 32) with
                | true, true => a | false, true => b | true, false => c | false, false => d
                end) (seq 0 NUM_PIXELS640).
Proof. vm_compute. reflexivity. Qed.

Lemma reads_kta : (2 * 0x38 <= length data)%nat ->
  reads data (2 * 0x36) generate_k_ta_pixels (2 * 0x38) False
    (map (fun i => kta_average W (i / 32) (i mod 32)) (seq 0 NUM_PIXELS640)).
Proof.
  intros H. unfold generate_k_ta_pixels.
  eapply reads_step; [apply reads_i8_hi; [exact Hb|lia]|].
  eapply reads_step; [apply reads_i8_lo; [exact Hb|lia]|].
  eapply reads_step; [apply reads_i8_hi; [exact Hb|lia]|].
  eapply reads_step; [apply reads_i8_lo; [exact Hb|lia]|].
  rewrite chessboard_closed. apply reads_pret.
Qed.

Notation chess_raw lo n := (sbits (W 0x35) lo n).
Definition chess1 : F FO := fdiv (fofZ (chess_raw 0 6)) (fofZ 16).
Definition chess2 : F FO := fdiv (fofZ (chess_raw 6 5)) (fofZ 2).
Definition chess3 : F FO := fdiv (fofZ (chess_raw 11 5)) (fofZ 8).
Definition chess_patterns : list (F FO) :=
  [fneg chess3; fsub chess2 chess3; fneg (fadd chess2 chess3);
   chess3; fneg (fsub chess2 chess3); fadd chess2 chess3].

Lemma masked_field w mask lo n : word w -> 0 <= lo -> 1 <= n -> lo + n <= 16 ->
  Z.shiftr (Z.land w mask) lo = bits w lo n ->
  i16_from_bits (to_be_bytes (Z.shiftr (Z.land w mask) lo)) n = Ok (sbits w lo n).
Proof.
  intros Hw Hlo Hn Hs E. rewrite E.
  pose proof (bits_range w lo n ltac:(lia)) as Hr.
  assert (2 ^ n <= 65536) by (change 65536 with (2 ^ 16); apply Z.pow_le_mono_r; lia).
  unfold to_be_bytes. rewrite i16_from_bits_spec; try lia.
  - f_equal. replace (be16 (bits w lo n / 256) (bits w lo n mod 256)) with (bits w lo n).
    + rewrite sbits_bits by lia. rewrite Z.add_0_r. reflexivity.
    + unfold be16. rewrite Z.mul_comm. apply Z.div_mod. lia.
  - split; [apply Z.div_pos; lia|apply Z.div_lt_upper_bound; lia].
  - apply Z.mod_pos_bound. lia.
Qed.

Lemma land_field w lo n : word w -> 0 <= lo -> 0 <= n ->
  Z.shiftr (Z.land w (Z.shiftl (Z.ones n) lo)) lo = bits w lo n.
Proof.
  intros Hw Hlo Hn. unfold bits. rewrite <- Z.shiftr_div_pow2, <- Z.land_ones by lia.
  rewrite Z.shiftr_land, Z.shiftr_shiftl_l, Z.sub_diag, Z.shiftl_0_r by lia. reflexivity.
Qed.

Lemma reads_access : (2 * 0x36 <= length data)%nat ->
  reads data (2 * 0x35) (get_access_pattern_corrections FO) (2 * 0x36) False (chess1, chess_patterns).
Proof.
  intros H. unfold get_access_pattern_corrections.
  pose proof (ee_word_word data Hb 0x35) as Hw.
  eapply reads_step; [apply reads_u16; lia|].
  eapply reads_step.
  { apply reads_plift_ok. rewrite <- (Z.shiftr_0_r (Z.land (W 0x35) 0x3F)).
    apply masked_field; try lia; [exact Hw|]. apply (land_field _ 0 6 Hw); lia. }
  eapply reads_step.
  { apply reads_plift_ok.
    apply (masked_field (W 0x35) 0x7C0 6 5); try lia; [exact Hw|]. apply (land_field _ 6 5 Hw); lia. }
  eapply reads_step.
  { apply reads_plift_ok.
    apply (masked_field (W 0x35) 0xF800 11 5); try lia; [exact Hw|]. apply (land_field _ 11 5 Hw); lia. }
  cbv zeta. apply reads_pret.
Qed.

(** Temperature ranges. *)
Definition temperature_step : Z := bits (W 0x3F) 12 2 * 10.
Definition corner_2 : Z := bits (W 0x3F) 4 4 * temperature_step.
Definition corner_3 : Z := bits (W 0x3F) 8 4 * temperature_step + corner_2.
Definition corners : list Z := [-40; 0; corner_2; corner_3].
Definition ksto : list (F FO) :=
  map (fun k => fdiv (fofZ k) (fexp2 (fofZ (bits (W 0x3F) 0 4 + 8))))
    [sbits (W 0x3D) 0 8; sbits (W 0x3D) 8 8; sbits (W 0x3E) 0 8; sbits (W 0x3E) 8 8].

Lemma nibble_low2 w : Z.land (bits w 12 4) 0x3 = bits w 12 2.
Proof.
  change 0x3 with (Z.ones 2). rewrite Z.land_ones by lia.
  change ((bits w 12 4) mod 2 ^ 2) with ((bits w 12 4) mod 4).
  pose proof (bits_bits w 12 4 0 2 ltac:(lia) ltac:(lia) ltac:(lia) ltac:(lia)) as E.
  unfold bits at 1 in E. change (2 ^ 0) with 1 in E. rewrite Z.div_1_r in E. exact E.
Qed.

Lemma reads_ranges : (2 * 0x40 <= length data)%nat ->
  reads data (2 * 0x3D) (get_temperature_range_data FO) (2 * 0x40) False (corners, ksto).
Proof.
  intros H. unfold get_temperature_range_data.
  eapply reads_step; [apply reads_i8_hi; [exact Hb|lia]|].
  eapply reads_step; [apply reads_i8_lo; [exact Hb|lia]|].
  eapply reads_step; [apply reads_i8_hi; [exact Hb|lia]|].
  eapply reads_step; [apply reads_i8_lo; [exact Hb|lia]|].
  cbv zeta.
  eapply reads_step; [apply reads_u4s; [exact Hb|lia]|]. cbv beta iota zeta.
  rewrite nibble_low2. apply reads_pret.
Qed.

Lemma corners_fit n : (S n < 4)%nat -> fits (range_span corners n).
Proof.
  intros H. unfold range_span, corners.
  assert (H2 : 0 <= corner_2 <= 450 /\ 0 <= corner_3 - corner_2 <= 450).
  { unfold corner_3, corner_2, temperature_step.
    pose proof (bits_range (W 0x3F) 12 2 ltac:(lia)) as B1. change (2 ^ 2) with 4 in B1.
    pose proof (bits_range (W 0x3F) 4 4 ltac:(lia)) as B2. change (2 ^ 4) with 16 in B2.
    pose proof (bits_range (W 0x3F) 8 4 ltac:(lia)) as B3. change (2 ^ 4) with 16 in B3.
    nia. }
  unfold fits. destruct n as [|[|[|n]]]; cbn [Nat.add nth]; lia.
Qed.

Lemma ranges_closed :
  alpha_correction_coefficients FO p 4 1 corners ksto = Ok (map (range_correction corners ksto 1) (seq 0 4)).
Proof.
  apply alpha_correction_closed; try reflexivity; try (apply Nat.leb_le; reflexivity).
  apply corners_fit.
Qed.

Lemma resolution_ok n : 0 <= n < 4 -> resolution_from_raw n = Ok (doc_resolution n).
Proof.
  intros H. assert (n = 0 \/ n = 1 \/ n = 2 \/ n = 3) as [-> | [-> | [-> | ->]]] by lia; reflexivity.
Qed.

(** ** The calibration record *)
Definition vdd25 : Z := (bits (W 0x33) 0 8 - 256) * 32 - 8192.
Definition kv_value (k : Z) : F FO := fdiv (fofZ k) (fexp2 (fofZ (kv_scale W))).
Definition alpha_cp0 : F FO :=
  fdiv (fofZ (bits (W 0x39) 0 10)) (fexp2 (fofZ (extra_field W alpha_block + 27))).
Definition alpha_cp1 : F FO :=
  fmul alpha_cp0 (fadd (fofZ 1) (fdiv (fofZ (sbits (W 0x39) 10 6)) (fexp2 (fofZ 7)))).

Definition decoded640 : calib FO := {|
  cam := Mlx90640 FO;
  k_v_dd := wrap16 (sbits (W 0x33) 8 8 * 2 ^ 5);
  v_dd_25 := vdd25;
  cal_resolution := doc_resolution (bits (W 0x38) 12 2);
  v_dd_0 := f_3_3;
  k_v_ptat := fdiv (fofZ (sbits (W 0x32) 10 6)) (fofZ 4096);
  k_t_ptat := fdiv (fofZ (sbits (W 0x32) 0 10)) (fofZ 8);
  v_ptat_25 := fofZ (sext 16 (W 0x31));
  alpha_ptat := fofZ (extra_field W offset_block / 4 + 8);
  cal_gain := fofZ (sext 16 (W 0x30));
  k_s_ta := fdiv (fofZ (sbits (W 0x3C) 8 8)) (fexp2 (fofZ 13));
  corner_temperatures := corners;
  k_s_to := ksto;
  alpha_correction := map (range_correction corners ksto 1) (seq 0 4);
  cal_emissivity := None;
  offset_reference_pixels := fun _ => map (px_offset FO) (map px (seq 0 NUM_PIXELS640));
  offset_reference_cp := fun sp =>
    match sp with
    | Zero => sbits (W 0x3A) 0 10
    | One => wrap16 (sbits (W 0x3A) 0 10 + sbits (W 0x3A) 10 6)
    end;
  alpha_pixels := fun _ => map (px_alpha FO) (map px (seq 0 NUM_PIXELS640));
  alpha_cp := fun sp => match sp with Zero => alpha_cp0 | One => alpha_cp1 end;
  k_v_pixels := fun _ =>
    chessboard_iter (kv_value (sbits (W 0x34) 12 4), kv_value (sbits (W 0x34) 8 4),
                     kv_value (sbits (W 0x34) 4 4), kv_value (sbits (W 0x34) 0 4));
  k_v_cp := fun _ => kv_value (sbits (W 0x3B) 8 8);
  k_ta_pixels := fun _ => map (px_k_ta FO) (map px (seq 0 NUM_PIXELS640));
  k_ta_cp := fun _ => fdiv (fofZ (sbits (W 0x3B) 0 8)) (fexp2 (fofZ (kta_scale_1 W)));
  temperature_gradient_coefficient :=
    if sbits (W 0x3C) 0 8 =? 0 then None
    else Some (fdiv (fofZ (sbits (W 0x3C) 0 8)) (fexp2 (fofZ 5)));
  access_pattern_compensation_pixels := access_pattern_compensation640 FO chess_patterns;
  access_pattern_compensation_cp := fun sp ap =>
    match sp, ap with One, Interleave => Some chess1 | _, _ => None end;
  failed_pixels := map (px_failed FO) (map px (seq 0 NUM_PIXELS640));
  outlier_pixels := map (px_outlier FO) (map px (seq 0 NUM_PIXELS640))
|}.

Definition full_length : nat := 2 * (64 + 0 + NUM_PIXELS640).

Lemma reads_640 : (full_length <= length data)%nat ->
  reads data 0 (parse640 FO p) full_length (p = Debug /\ some_pixel_overflows W) decoded640.
Proof.
  unfold full_length. intros Hlen.
  assert (Hl : (2 * (64 + 768) <= length data)%nat) by exact Hlen.
  unfold parse640. eapply reads_iff.
  { eapply reads_step; [apply (reads_advance data 0 (WORD_SIZE * 16)); unfold WORD_SIZE; lia|].
    change (0 + WORD_SIZE * 16)%nat with (2 * offset_block)%nat.
    eapply reads_bind; [apply reads_bulk; [exact Hb|unfold offset_block; lia]|]. cbv beta iota zeta.
    change (offset_block + 16)%nat with alpha_block.
    eapply reads_bind; [apply reads_bulk; [exact Hb|unfold alpha_block; lia]|]. cbv beta iota zeta.
    change (alpha_block + 16)%nat with 0x30%nat.
    eapply reads_step; [apply reads_i16; lia|].
    change (0x30 + 1)%nat with 0x31%nat.
    eapply reads_step; [apply reads_i16; lia|].
    change (0x31 + 1)%nat with 0x32%nat.
    eapply reads_step; [apply reads_6_10; [exact Hb|lia]|]. cbv beta iota zeta.
    change (0x32 + 1)%nat with 0x33%nat.
    eapply reads_step; [apply reads_plift_ok, ten_bits_signed|].
    eapply reads_step; [apply reads_i8_hi; [exact Hb|lia]|].
    eapply reads_step; [apply reads_u8_lo; [exact Hb|lia]|].
    change (0x33 + 1)%nat with 0x34%nat.
    eapply reads_step; [apply reads_i4s; [exact Hb|lia]|]. cbv beta iota zeta.
    change (0x34 + 1)%nat with 0x35%nat.
    eapply reads_step; [apply reads_access; lia|]. cbv beta iota zeta.
    eapply reads_step; [apply reads_kta; lia|].
    eapply reads_step; [apply reads_u4s; [exact Hb|lia]|]. cbv beta iota zeta.
    change (0x38 + 1)%nat with 0x39%nat.
    rewrite nibble_low2.
    eapply reads_step; [apply reads_plift_ok, resolution_ok, (bits_range _ 12 2); lia|].
    eapply reads_step; [apply reads_6_10; [exact Hb|lia]|]. cbv beta iota zeta.
    change (0x39 + 1)%nat with 0x3A%nat.
    eapply reads_step; [apply (reads_plift_ok data (register_from_slice [bits (W 0x39) 8 2; bits (W 0x39) 0 8])
                                 (be16 (bits (W 0x39) 8 2) (bits (W 0x39) 0 8))); reflexivity|].
    rewrite ten_bits.
    eapply reads_step; [apply reads_6_10; [exact Hb|lia]|]. cbv beta iota zeta.
    change (0x3A + 1)%nat with 0x3B%nat.
    eapply reads_step; [apply reads_plift_ok, ten_bits_signed|].
    eapply reads_step.
    { eapply reads_iff; [apply reads_chk|]. split; [|intros []]. intros [_ Hn]. apply Hn.
      pose proof (sbits_range (W 0x3A) 0 10 ltac:(lia)) as B1. change (2 ^ (10 - 1)) with 512 in B1.
      pose proof (sbits_range (W 0x3A) 10 6 ltac:(lia)) as B2. change (2 ^ (6 - 1)) with 32 in B2.
      unfold fits. lia. }
    eapply reads_step; [apply reads_i8_hi; [exact Hb|lia]|].
    eapply reads_step; [apply reads_i8_lo; [exact Hb|lia]|].
    change (0x3B + 1)%nat with 0x3C%nat.
    eapply reads_step; [apply reads_i8_hi; [exact Hb|lia]|].
    eapply reads_step; [apply reads_i8_lo; [exact Hb|lia]|].
    change (0x3C + 1)%nat with 0x3D%nat.
    eapply reads_step; [apply reads_ranges; lia|]. cbv beta iota zeta.
    eapply reads_step; [apply reads_plift_ok, ranges_closed|].
    unfold zip. rewrite map_map, !combine_map.
    eapply reads_last; [apply (reads_pixels NUM_PIXELS640 0 Hlen)|].
    apply reads_pret. }
  split.
  - intros [(Hd & r & c & Hr & Hc & Ho)|[(Hd & r & c & Hr & Hc & Ho)|(k & Hk & Hd & Hz & Ho)]].
    + split; [exact Hd|]. exists r, c. split; [exact Hr|]. split; [exact Hc|]. left. exact Ho.
    + split; [exact Hd|]. exists r, c. split; [exact Hr|]. split; [exact Hc|]. right. left. exact Ho.
    + split; [exact Hd|]. exists (k / 32)%nat, (k mod 32)%nat.
      change (0 + NUM_PIXELS640)%nat with 768%nat in Hk.
      split; [apply Nat.div_lt_upper_bound; lia|]. split; [apply Nat.mod_upper_bound; lia|].
      destruct Ho as [Ho|Ho].
      * unfold bulk in Ho.
        set (r := (k / 32)%nat) in *. set (c := (k mod 32)%nat) in *.
        destruct (in_i16 (average W offset_block + shifted (row_term W offset_block r))) eqn:E1.
        2:{ left. left. intros F. apply in_i16_spec in F. congruence. }
        apply in_i16_spec in E1. rewrite (wrap16_id _ E1) in Ho.
        destruct (in_i16 (average W offset_block + shifted (row_term W offset_block r)
                          + shifted (column_term W offset_block c))) eqn:E2.
        2:{ left. right. intros F. apply in_i16_spec in F. congruence. }
        apply in_i16_spec in E2. rewrite (wrap16_id _ E2) in Ho.
        right. right. split; [exact Hz|]. left. exact Ho.
      * right. right. split; [exact Hz|]. right. exact Ho.
  - intros (Hd & r & c & Hr & Hc & [Ho|[Ho|[Hz Ho]]]).
    + left. split; [exact Hd|]. exists r, c. auto.
    + right. left. split; [exact Hd|]. exists r, c. auto.
    + assert (Ei : ((32 * r + c) / 32)%nat = r /\ ((32 * r + c) mod 32)%nat = c).
      { split; [symmetry; apply (Nat.div_unique _ 32 r c); lia|symmetry; apply (Nat.mod_unique _ 32 r c); lia]. }
      destruct Ei as [Ei1 Ei2].
      destruct (in_i16 (average W offset_block + shifted (row_term W offset_block r))) eqn:E1.
      2:{ left. split; [exact Hd|]. exists r, c. split; [exact Hr|]. split; [exact Hc|].
          left. intros F. apply in_i16_spec in F. congruence. }
      destruct (in_i16 (average W offset_block + shifted (row_term W offset_block r)
                        + shifted (column_term W offset_block c))) eqn:E2.
      2:{ left. split; [exact Hd|]. exists r, c. split; [exact Hr|]. split; [exact Hc|].
          right. intros F. apply in_i16_spec in F. congruence. }
      apply in_i16_spec in E1. apply in_i16_spec in E2.
      right. right. exists (32 * r + c)%nat. change (0 + NUM_PIXELS640)%nat with 768%nat.
      split; [lia|]. unfold px_overflows. rewrite Ei1, Ei2. split; [exact Hd|]. split; [exact Hz|].
      unfold bulk. rewrite (wrap16_id _ E1), (wrap16_id _ E2). exact Ho.
Qed.
End Closed.
