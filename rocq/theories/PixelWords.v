(** * PixelWords: EEPROM dumps that differ in the words of one pixel only. *)
From Verif Require Import Base FloatOps Register Bus Camera Cam640 Cam641 SpecRegister SpecHamming SpecEeprom
  ParseFacts FieldFacts SpecRange RangeFacts Spec640 Spec641 Ee640 Ee640Facts Ee640Closed Ee640Local
  Ee641 Ee641Facts Ee641Closed Ee641Words P_Ee640 SpecWear PixelFacts.

Lemma but_map_seq {A} (f g : nat -> A) k n : (forall i, (i < n)%nat -> i <> k -> g i = f i) ->
  but k (map f (seq 0 n)) (map g (seq 0 n)).
Proof.
  intros H. split; [rewrite !map_length; reflexivity|]. intros i Hi.
  destruct (Nat.lt_ge_cases i n) as [Hl|Hl].
  - rewrite !nth_error_map_seq by exact Hl. rewrite (H i Hl Hi). reflexivity.
  - rewrite !(proj2 (nth_error_None _ _)) by (rewrite map_length, seq_length; exact Hl). reflexivity.
Qed.
Lemma but_eq {A} k (l l' : list A) : l' = l -> but k l l'.
Proof. intros ->. apply but_refl. Qed.

(** ** MLX90640 *)
Section Words640.
Context (FO : FloatOps) (data data' : list Z) (k : nat).
Hypothesis Hw : forall i, (0x10 <= i < 832)%nat -> i <> (64 + k)%nat -> ee_word data' i = ee_word data i.

Lemma head640 i : (0x10 <= i < 64)%nat -> ee_word data' i = ee_word data i.
Proof. intros H. apply Hw; lia. Qed.
Ltac head := rewrite ?head640 by (clear; lia).

Lemma bulk_but blk r c : blk = offset_block \/ blk = alpha_block -> (r < 24)%nat -> (c < 32)%nat ->
  bulk data' blk r c = bulk data blk r c.
Proof.
  intros Hb Hr Hc.
  assert (Hr4 : (r / 4 < 6)%nat) by (apply Nat.div_lt_upper_bound; lia).
  assert (Hc4 : (c / 4 < 8)%nat) by (apply Nat.div_lt_upper_bound; lia).
  unfold bulk, average, row_term, row_coefficient, row_scale, column_term, column_coefficient, column_scale.
  destruct Hb as [-> | ->]; unfold offset_block, alpha_block in *;
    rewrite !head640 by lia; reflexivity.
Qed.
Lemma kta_average_but r c : kta_average (ee_word data') r c = kta_average (ee_word data) r c.
Proof. unfold kta_average. head. reflexivity. Qed.
Lemma px_but i : (i < 768)%nat -> i <> k -> px FO data' i = px FO data i.
Proof.
  intros Hi Hk. unfold px.
  assert (Hr : (i / 32 < 24)%nat) by (apply Nat.div_lt_upper_bound; lia).
  assert (Hc : (i mod 32 < 32)%nat) by (apply Nat.mod_upper_bound; lia).
  assert (Ew : pixel_word (ee_word data') (i / 32) (i mod 32) = pixel_word (ee_word data) (i / 32) (i mod 32)).
  { rewrite !pixel_word_at. apply Hw; lia. }
  rewrite !bulk_but, kta_average_but by auto.
  unfold remainder_term, remainder, offset_remainder, alpha_remainder, kta_term, kta_remainder, remainder_scale,
    kta_scale_1, kta_scale_2, extra_field. rewrite Ew.
  unfold offset_block, alpha_block. head. reflexivity.
Qed.
Lemma px_map_but {A} (f : pixel640 FO -> A) : but k (map f (map (px FO data) (seq 0 NUM_PIXELS640))) (map f (map (px FO data') (seq 0 NUM_PIXELS640))).
Proof.
  rewrite !map_map. apply (but_map_seq (fun i => f (px FO data i)) (fun i => f (px FO data' i))).
  intros i Hi Hk. rewrite px_but; [reflexivity|exact Hi|exact Hk].
Qed.
Lemma corners_but : corners data' = corners data.
Proof. unfold corners, corner_3, corner_2, temperature_step. head. reflexivity. Qed.
Lemma ksto_but : ksto FO data' = ksto FO data.
Proof. unfold ksto. head. reflexivity. Qed.
Lemma kv_value_but z : kv_value FO data' z = kv_value FO data z.
Proof. unfold kv_value, kv_scale. head. reflexivity. Qed.
Lemma alpha_cp0_but : alpha_cp0 FO data' = alpha_cp0 FO data.
Proof. unfold alpha_cp0, extra_field, alpha_block. head. reflexivity. Qed.
Lemma patterns_but : chess_patterns FO data' = chess_patterns FO data.
Proof. unfold chess_patterns, chess2, chess3. head. reflexivity. Qed.

Lemma decoded640_but : agree_but k (decoded640 FO data) (decoded640 FO data').
Proof.
  constructor; unfold decoded640; cbn [cam k_v_dd v_dd_25 cal_resolution v_dd_0 k_v_ptat k_t_ptat v_ptat_25 alpha_ptat cal_gain
    k_s_ta corner_temperatures k_s_to alpha_correction cal_emissivity offset_reference_pixels offset_reference_cp alpha_pixels
    alpha_cp k_v_pixels k_v_cp k_ta_pixels k_ta_cp temperature_gradient_coefficient access_pattern_compensation_pixels
    access_pattern_compensation_cp failed_pixels outlier_pixels]; intros; unfold vdd25, extra_field, offset_block, kta_scale_1;
    rewrite ?corners_but, ?ksto_but, ?kv_value_but, ?patterns_but; try apply px_map_but; head; try reflexivity.
  - destruct sp; unfold alpha_cp1; rewrite alpha_cp0_but; head; reflexivity.
  - apply but_eq. reflexivity.
  - destruct sp, ap; unfold chess1; head; reflexivity.
Qed.
End Words640.

(** ** MLX90641 *)
Section Words641.
Context (FO : FloatOps) (data data' : list Z) (k : nat).
Hypothesis Hk : (k < 192)%nat.
Hypothesis Hw : forall i, In i reading_order -> ~ In i (pixel_words k) -> dword data' i = dword data i.

Lemma head641 i : In i scalar_words -> dword data' i = dword data i.
Proof.
  intros H. apply Hw; [unfold reading_order; apply in_or_app; left; exact H|].
  unfold scalar_words in H. rewrite !in_app_iff, !in_seq in H.
  unfold pixel_words, offset0_word, offset1_word, alpha_word, constants_word. cbn [In]. lia.
Qed.
Ltac head := rewrite ?head641 by (unfold scalar_words; rewrite !in_app_iff, !in_seq; clear; lia).

Lemma joined_but i : In i scalar_words -> In (i + 1)%nat scalar_words -> joined data' i = joined data i.
Proof. intros H1 H2. unfold joined. rewrite !head641 by assumption. reflexivity. Qed.
Ltac join := rewrite ?joined_but by (unfold scalar_words; rewrite !in_app_iff, !in_seq; clear; lia).

Lemma pixel_value_but i : (i < 192)%nat -> i <> k -> pixel_value FO data' i = pixel_value FO data i.
Proof.
  intros Hi Hne.
  assert (Ho : forall j, In j (pixel_words i) -> dword data' j = dword data j).
  { intros j Hj. apply Hw.
    - unfold reading_order. apply in_or_app. right. apply in_flat_map. exists i. split; [apply in_seq; lia|exact Hj].
    - unfold pixel_words, offset0_word, offset1_word, alpha_word, constants_word in *. cbn [In] in *. lia. }
  assert (E0 := Ho (offset0_word i) (or_introl eq_refl)).
  assert (E1 := Ho (offset1_word i) (or_intror (or_introl eq_refl))).
  assert (E2 := Ho (alpha_word i) (or_intror (or_intror (or_introl eq_refl)))).
  assert (E3 := Ho (constants_word i) (or_intror (or_intror (or_intror (or_introl eq_refl))))).
  assert (Hg : (i / 32 < 6)%nat) by (apply Nat.div_lt_upper_bound; lia).
  assert (Er : reference_of FO data' (i / 32) = reference_of FO data (i / 32)).
  { unfold reference_of, row_max, alpha_scale.
    assert (Hg2 : (i / 32 / 2 < 3)%nat) by (apply Nat.div_lt_upper_bound; lia).
    rewrite !head641; [reflexivity|..]; unfold scalar_words; rewrite !in_app_iff, !in_seq; revert Hg Hg2; clear; lia. }
  unfold pixel_value, failedb, offset_of, average_used, scale_used, offset_scale, kta_raw, kv_raw, kta_average641, kv_average641,
    kta_scale_1_641, kta_scale_2_641, kv_scale_1_641, kv_scale_2_641, signed11.
  rewrite E0, E1, E2, E3, Er. join. head. reflexivity.
Qed.
Lemma ksto641_but : ksto641 FO data' = ksto641 FO data.
Proof. unfold ksto641, ksto_words, signed11. cbn [map]. head. reflexivity. Qed.
Lemma corners641_but : corners641 (dword data') = corners641 (dword data).
Proof. unfold corners641. head. reflexivity. Qed.
Lemma pixel_map_but {A} (f : pixel641 FO -> A) :
  but k (map f (map (pixel_value FO data) (seq 0 192))) (map f (map (pixel_value FO data') (seq 0 192))).
Proof.
  rewrite !map_map. apply (but_map_seq (fun i => f (pixel_value FO data i)) (fun i => f (pixel_value FO data' i))).
  intros i Hi Hne. rewrite pixel_value_but by assumption. reflexivity.
Qed.
Lemma decoded641_but : agree_but k (decoded641 FO data) (decoded641 FO data').
Proof.
  constructor; unfold decoded641, record641; cbn [cam k_v_dd v_dd_25 cal_resolution v_dd_0 k_v_ptat k_t_ptat v_ptat_25 alpha_ptat cal_gain
    k_s_ta corner_temperatures k_s_to alpha_correction cal_emissivity offset_reference_pixels offset_reference_cp alpha_pixels
    alpha_cp k_v_pixels k_v_cp k_ta_pixels k_ta_cp temperature_gradient_coefficient access_pattern_compensation_pixels
    access_pattern_compensation_cp failed_pixels outlier_pixels]; intros; unfold signed11, cp_constant;
    rewrite ?corners641_but, ?ksto641_but; try apply pixel_map_but; join; head; try reflexivity.
  destruct sp; apply pixel_map_but.
Qed.
End Words641.
