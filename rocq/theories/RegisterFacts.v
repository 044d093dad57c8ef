(** * RegisterFacts: proofs about the register model. *)
From Verif Require Import Base FloatOps Register BitFacts SpecRegister.

Lemma bit_testbit w i : 0 <= i -> bit w i = Z.testbit w i.
Proof.
  intros Hi. unfold bit. rewrite <- (Z.odd_spec (w / 2 ^ i)) || idtac.
  rewrite Z.testbit_odd, Z.shiftr_div_pow2, Zmod_odd by assumption.
  destruct (Z.odd (w / 2 ^ i)); reflexivity.
Qed.

Lemma bits_field w lo n : 0 <= lo -> 0 <= n -> bits w lo n = field (mask_at lo n) lo w.
Proof. intros. symmetry. apply field_div_mod; assumption. Qed.

Lemma testbit_bits w lo n i : 0 <= lo -> 0 <= n -> 0 <= i ->
  Z.testbit (bits w lo n) i = (i <? n) && Z.testbit w (i + lo).
Proof. intros. rewrite bits_field by assumption. apply testbit_field; assumption. Qed.

Lemma bits_range w lo n : 0 <= n -> 0 <= bits w lo n < 2 ^ n.
Proof. intros. apply Z.mod_pos_bound. apply Z.pow_pos_nonneg; lia. Qed.

(** Two words that agree on the bits of a field have the same field. *)
Lemma bits_ext w w' lo n : 0 <= lo -> 0 <= n ->
  (forall i, lo <= i < lo + n -> Z.testbit w i = Z.testbit w' i) -> bits w lo n = bits w' lo n.
Proof.
  intros Hlo Hn H. apply Z.bits_inj'. intros i Hi. rewrite !testbit_bits by assumption.
  destruct (Z.ltb_spec i n); [|reflexivity]. simpl. apply H. lia.
Qed.

Lemma bits_put_field lo n w v : 0 <= lo -> 0 <= n -> lo + n <= 16 -> 0 <= v < 2 ^ n ->
  bits (put_field (mask_at lo n) lo w v) lo n = v.
Proof.
  intros Hlo Hn Hs Hv. apply Z.bits_inj'. intros i Hi. rewrite testbit_bits by assumption.
  destruct (Z.ltb_spec i n).
  - rewrite testbit_put_field by lia.
    replace ((lo <=? i + lo) && (i + lo <? lo + n)) with true by lia.
    simpl. f_equal. lia.
  - symmetry. apply (small_testbit_high v n); lia.
Qed.

(** Masks of the code as bit positions. *)
Lemma flag_bit m k w : m = 2 ^ k -> 0 <= k -> word w -> flag m w = bit w k.
Proof. intros -> Hk Hw. rewrite bit_testbit by assumption. apply flag_spec; [assumption|apply Hw]. Qed.

Lemma field_bits m lo n w : m = mask_at lo n -> 0 <= lo -> 0 <= n -> field m lo w = bits w lo n.
Proof. intros -> Hlo Hn. symmetry. apply bits_field; assumption. Qed.

(** Case analysis over a small field. *)
Lemma range_cases v n : 0 <= v < n ->
  exists k, (k < Z.to_nat n)%nat /\ v = Z.of_nat k.
Proof. intros H. exists (Z.to_nat v). lia. Qed.

Lemma ctl_frame_rate_doc {E} w : word w ->
  ctl_frame_rate (E := E) w = Ok (doc_frame_rate (bits w 7 3)).
Proof.
  intros Hw. unfold ctl_frame_rate. rewrite (field_bits _ 7 3) by (reflexivity || lia).
  pose proof (bits_range w 7 3 ltac:(lia)) as H. revert H. generalize (bits w 7 3). intros v Hv.
  destruct (range_cases v 8 Hv) as (k & Hk & ->).
  do 8 (destruct k as [|k]; [reflexivity|]). lia.
Qed.

Lemma ctl_resolution_doc {E} w : word w ->
  ctl_resolution (E := E) w = Ok (doc_resolution (bits w 10 2)).
Proof.
  intros Hw. unfold ctl_resolution. rewrite (field_bits _ 10 2) by (reflexivity || lia).
  pose proof (bits_range w 10 2 ltac:(lia)) as H. revert H. generalize (bits w 10 2). intros v Hv.
  destruct (range_cases v 4 Hv) as (k & Hk & ->).
  do 4 (destruct k as [|k]; [reflexivity|]). lia.
Qed.

Lemma ctl_access_pattern_doc {E} w : word w ->
  ctl_access_pattern (E := E) w = Ok (doc_access_pattern (bits w 12 1)).
Proof.
  intros Hw. unfold ctl_access_pattern. rewrite (field_bits _ 12 1) by (reflexivity || lia).
  pose proof (bits_range w 12 1 ltac:(lia)) as H. revert H. generalize (bits w 12 1). intros v Hv.
  destruct (range_cases v 2 Hv) as (k & Hk & ->).
  do 2 (destruct k as [|k]; [reflexivity|]). lia.
Qed.

Lemma ctl_subpage_doc {E} w : word w ->
  ctl_subpage (E := E) w = Ok (doc_subpage (bits w 4 1)).
Proof.
  intros Hw. unfold ctl_subpage. rewrite (field_bits _ 4 1) by (reflexivity || lia).
  pose proof (bits_range w 4 1 ltac:(lia)) as H. revert H. generalize (bits w 4 1). intros v Hv.
  destruct (range_cases v 2 Hv) as (k & Hk & ->).
  do 2 (destruct k as [|k]; [reflexivity|]). lia.
Qed.

Lemma last_updated_subpage_doc {E} w : word w ->
  last_updated_subpage (E := E) w = Ok (doc_subpage (bits w 0 1)).
Proof.
  intros Hw. unfold last_updated_subpage.
  replace (Z.land w ST_SUBPAGE_MASK) with (bits w 0 1).
  - pose proof (bits_range w 0 1 ltac:(lia)) as H. revert H. generalize (bits w 0 1). intros v Hv.
    destruct (range_cases v 2 Hv) as (k & Hk & ->).
    do 2 (destruct k as [|k]; [reflexivity|]). lia.
  - rewrite bits_field by lia. unfold field. rewrite Z.shiftr_0_r. reflexivity.
Qed.

Lemma status_getters_doc {E} w : word w -> status_getters (E := E) w = Ok (status_doc w).
Proof.
  intros Hw. unfold status_getters. rewrite last_updated_subpage_doc by assumption. simpl.
  unfold new_data, overwrite_enabled, start_measurement.
  rewrite (flag_bit _ 3), (flag_bit _ 4), (flag_bit _ 5) by (reflexivity || lia || assumption).
  reflexivity.
Qed.

Lemma control_getters_doc {E} w : word w -> control_getters (E := E) w = Ok (control_doc w).
Proof.
  intros Hw. unfold control_getters.
  rewrite ctl_subpage_doc, ctl_frame_rate_doc, ctl_resolution_doc, ctl_access_pattern_doc by assumption.
  simpl. unfold use_subpages, step_mode, data_hold, subpage_repeat.
  rewrite (flag_bit _ 0), (flag_bit _ 1), (flag_bit _ 2), (flag_bit _ 3) by (reflexivity || lia || assumption).
  reflexivity.
Qed.

(** ** Setters *)
Lemma put_flag_only m k w b : m = 2 ^ k -> 0 <= k < 16 -> word w ->
  only_changes k 1 w (put_flag m w b) /\ bit (put_flag m w b) k = b.
Proof.
  intros -> Hk Hw. split; [split|].
  - apply word_put_flag; assumption.
  - intros i Hi Hne. rewrite !bit_testbit, testbit_put_flag by lia.
    destruct (Z.eqb_spec i k); [lia|reflexivity].
  - rewrite bit_testbit, testbit_put_flag by lia. rewrite Z.eqb_refl. reflexivity.
Qed.

Lemma put_field_only m lo n w v : m = mask_at lo n -> 0 <= lo -> 0 <= n -> lo + n <= 16 ->
  0 <= v < 2 ^ n -> word w ->
  only_changes lo n w (put_field m lo w v) /\ bits (put_field m lo w v) lo n = v.
Proof.
  intros -> Hlo Hn Hs Hv Hw. split; [split|].
  - apply word_put_field; assumption.
  - intros i Hi Hne. rewrite !bit_testbit, testbit_put_field by lia.
    replace ((lo <=? i) && (i <? lo + n)) with false by lia. reflexivity.
  - apply bits_put_field; assumption.
Qed.

Lemma only_changes_bit lo n w w' i : only_changes lo n w w' -> 0 <= i < 16 -> ~ (lo <= i < lo + n) ->
  bit w' i = bit w i.
Proof. intros [_ H]. apply H. Qed.

Lemma only_changes_bits lo n w w' lo' n' : only_changes lo n w w' -> 0 <= lo' -> 0 <= n' ->
  lo' + n' <= 16 -> (lo' + n' <= lo \/ lo + n <= lo') -> bits w' lo' n' = bits w lo' n'.
Proof.
  intros [_ H] Hlo Hn Hs Hd. apply bits_ext; try assumption. intros i Hi.
  rewrite <- !bit_testbit by lia. apply H; lia.
Qed.

Ltac other_fields H :=
  repeat first
    [ rewrite (only_changes_bit _ _ _ _ _ H) by lia
    | rewrite (only_changes_bits _ _ _ _ _ _ H) by lia ].

Lemma reset_new_data_spec w : word w ->
  only_changes 3 1 w (reset_new_data w) /\
  status_doc (reset_new_data w) =
  {| s_subpage := s_subpage (status_doc w); s_new_data := false;
     s_overwrite := s_overwrite (status_doc w); s_start := s_start (status_doc w) |}.
Proof.
  intros Hw. change (reset_new_data w) with (put_flag ST_NEW_DATA_MASK w false).
  destruct (put_flag_only ST_NEW_DATA_MASK 3 w false eq_refl ltac:(lia) Hw) as [H Hb].
  split; [exact H|]. unfold status_doc. rewrite Hb. other_fields H. reflexivity.
Qed.

Lemma set_overwrite_spec w b : word w ->
  only_changes 4 1 w (set_overwrite_enabled w b) /\
  status_doc (set_overwrite_enabled w b) =
  {| s_subpage := s_subpage (status_doc w); s_new_data := s_new_data (status_doc w);
     s_overwrite := b; s_start := s_start (status_doc w) |}.
Proof.
  intros Hw.
  destruct (put_flag_only ST_OVERWRITE_ENABLED_MASK 4 w b eq_refl ltac:(lia) Hw) as [H Hb].
  split; [exact H|]. unfold status_doc, set_overwrite_enabled. rewrite Hb. other_fields H. reflexivity.
Qed.

Lemma set_start_spec w : word w ->
  only_changes 5 1 w (set_start_measurement w) /\
  status_doc (set_start_measurement w) =
  {| s_subpage := s_subpage (status_doc w); s_new_data := s_new_data (status_doc w);
     s_overwrite := s_overwrite (status_doc w); s_start := true |}.
Proof.
  intros Hw. change (set_start_measurement w) with (put_flag ST_STEP_MODE_MASK w true).
  destruct (put_flag_only ST_STEP_MODE_MASK 5 w true eq_refl ltac:(lia) Hw) as [H Hb].
  split; [exact H|]. unfold status_doc. rewrite Hb. other_fields H. reflexivity.
Qed.

Ltac ctl_flag m k w b Hw f :=
  destruct (put_flag_only m k w b eq_refl ltac:(lia) Hw) as [H Hb];
  split; [exact H|]; unfold control_doc, f; rewrite Hb; other_fields H; reflexivity.

Lemma set_use_subpages_spec w b : word w -> only_changes 0 1 w (set_use_subpages w b) /\
  control_doc (set_use_subpages w b) = upd_use_subpages (control_doc w) b.
Proof. intros Hw. ctl_flag CT_USE_SUBPAGES_MASK 0 w b Hw set_use_subpages. Qed.
Lemma set_step_mode_spec w b : word w -> only_changes 1 1 w (set_step_mode w b) /\
  control_doc (set_step_mode w b) = upd_step_mode (control_doc w) b.
Proof. intros Hw. ctl_flag CT_STEP_MODE_MASK 1 w b Hw set_step_mode. Qed.
Lemma set_data_hold_spec w b : word w -> only_changes 2 1 w (set_data_hold w b) /\
  control_doc (set_data_hold w b) = upd_data_hold (control_doc w) b.
Proof. intros Hw. ctl_flag CT_DATA_HOLD_MASK 2 w b Hw set_data_hold. Qed.
Lemma set_subpage_repeat_spec w b : word w -> only_changes 3 1 w (set_subpage_repeat w b) /\
  control_doc (set_subpage_repeat w b) = upd_subpage_repeat (control_doc w) b.
Proof. intros Hw. ctl_flag CT_SUBPAGE_REPEAT_MASK 3 w b Hw set_subpage_repeat. Qed.

Ltac ctl_field m lo n w v Hw f :=
  destruct (put_field_only m lo n w v eq_refl ltac:(lia) ltac:(lia) ltac:(lia) ltac:(simpl; lia) Hw) as [H Hb];
  split; [exact H|]; unfold control_doc, f; rewrite Hb; other_fields H; reflexivity.

Lemma set_ctl_subpage_spec w s : word w -> only_changes 4 1 w (set_ctl_subpage w s) /\
  control_doc (set_ctl_subpage w s) = upd_subpage (control_doc w) s.
Proof. intros Hw. destruct s; ctl_field CT_SUBPAGE_MASK 4 1 w (subpage_num Zero) Hw set_ctl_subpage
  || ctl_field CT_SUBPAGE_MASK 4 1 w (subpage_num One) Hw set_ctl_subpage. Qed.
Lemma set_ctl_frame_rate_spec w f : word w -> only_changes 7 3 w (set_ctl_frame_rate w f) /\
  control_doc (set_ctl_frame_rate w f) = upd_frame_rate (control_doc w) f.
Proof.
  intros Hw. assert (Hr : 0 <= frame_rate_as_raw f < 2 ^ 3) by (destruct f; simpl; lia).
  destruct (put_field_only CT_FRAME_RATE_MASK 7 3 w _ eq_refl ltac:(lia) ltac:(lia) ltac:(lia) Hr Hw) as [H Hb].
  split; [exact H|]. unfold control_doc, set_ctl_frame_rate, upd_frame_rate. rewrite Hb. other_fields H.
  destruct f; reflexivity.
Qed.
Lemma set_ctl_resolution_spec w f : word w -> only_changes 10 2 w (set_ctl_resolution w f) /\
  control_doc (set_ctl_resolution w f) = upd_resolution (control_doc w) f.
Proof.
  intros Hw. assert (Hr : 0 <= resolution_as_raw f < 2 ^ 2) by (destruct f; simpl; lia).
  destruct (put_field_only CT_RESOLUTION_MASK 10 2 w _ eq_refl ltac:(lia) ltac:(lia) ltac:(lia) Hr Hw) as [H Hb].
  split; [exact H|]. unfold control_doc, set_ctl_resolution, upd_resolution. rewrite Hb. other_fields H.
  destruct f; reflexivity.
Qed.
Lemma set_ctl_access_pattern_spec w f : word w -> only_changes 12 1 w (set_ctl_access_pattern w f) /\
  control_doc (set_ctl_access_pattern w f) = upd_access_pattern (control_doc w) f.
Proof.
  intros Hw. assert (Hr : 0 <= access_pattern_num f < 2 ^ 1) by (destruct f; simpl; lia).
  destruct (put_field_only CT_ACCESS_PATTERN_MASK 12 1 w _ eq_refl ltac:(lia) ltac:(lia) ltac:(lia) Hr Hw) as [H Hb].
  split; [exact H|]. unfold control_doc, set_ctl_access_pattern, upd_access_pattern. rewrite Hb. other_fields H.
  destruct f; reflexivity.
Qed.

(** ** Equality of registers *)
Lemma land_mask_eq a b mask : 0 <= mask ->
  (Z.land a mask =? Z.land b mask) = true <->
  (forall i, 0 <= i -> Z.testbit mask i = true -> Z.testbit a i = Z.testbit b i).
Proof.
  intros Hm. rewrite Z.eqb_eq. split.
  - intros H i Hi Hbit. assert (Ht : Z.testbit (Z.land a mask) i = Z.testbit (Z.land b mask) i) by (rewrite H; reflexivity).
    rewrite !Z.land_spec, Hbit, !andb_true_r in Ht. exact Ht.
  - intros H. apply Z.bits_inj'. intros i Hi. rewrite !Z.land_spec.
    destruct (Z.testbit mask i) eqn:Hb; [|rewrite !andb_false_r; reflexivity].
    rewrite !andb_true_r. apply H; assumption.
Qed.

Lemma doc_subpage_inj w w' lo : 0 <= lo ->
  doc_subpage (bits w lo 1) = doc_subpage (bits w' lo 1) <-> bits w lo 1 = bits w' lo 1.
Proof.
  intros Hlo. pose proof (bits_range w lo 1 ltac:(lia)). pose proof (bits_range w' lo 1 ltac:(lia)).
  change (2 ^ 1) with 2 in *.
  unfold doc_subpage. destruct (Z.eqb_spec (bits w lo 1) 0), (Z.eqb_spec (bits w' lo 1) 0);
    split; intros; try discriminate; try reflexivity; try lia; exfalso; lia.
Qed.
Lemma doc_access_pattern_inj w w' lo : 0 <= lo ->
  doc_access_pattern (bits w lo 1) = doc_access_pattern (bits w' lo 1) <-> bits w lo 1 = bits w' lo 1.
Proof.
  intros Hlo. pose proof (bits_range w lo 1 ltac:(lia)). pose proof (bits_range w' lo 1 ltac:(lia)).
  change (2 ^ 1) with 2 in *.
  unfold doc_access_pattern. destruct (Z.eqb_spec (bits w lo 1) 0), (Z.eqb_spec (bits w' lo 1) 0);
    split; intros; try discriminate; try reflexivity; try lia; exfalso; lia.
Qed.
Lemma doc_frame_rate_inj a b : 0 <= a < 8 -> 0 <= b < 8 -> doc_frame_rate a = doc_frame_rate b <-> a = b.
Proof.
  intros Ha Hb. split; [|intros ->; reflexivity].
  destruct (range_cases a 8 Ha) as (i & Hi & ->), (range_cases b 8 Hb) as (j & Hj & ->).
  unfold doc_frame_rate. rewrite !Nat2Z.id.
  do 8 (destruct i as [|i]; [do 8 (destruct j as [|j]; [try reflexivity; discriminate|]); lia|]). lia.
Qed.
Lemma doc_resolution_inj a b : 0 <= a < 4 -> 0 <= b < 4 -> doc_resolution a = doc_resolution b <-> a = b.
Proof.
  intros Ha Hb. split; [|intros ->; reflexivity].
  destruct (range_cases a 4 Ha) as (i & Hi & ->), (range_cases b 4 Hb) as (j & Hj & ->).
  unfold doc_resolution. rewrite !Nat2Z.id.
  do 4 (destruct i as [|i]; [do 4 (destruct j as [|j]; [try reflexivity; discriminate|]); lia|]). lia.
Qed.

Lemma bits_eq_testbit w w' lo n : 0 <= lo -> 0 <= n -> bits w lo n = bits w' lo n ->
  forall i, lo <= i < lo + n -> Z.testbit w i = Z.testbit w' i.
Proof.
  intros Hlo Hn H i Hi.
  assert (Ht : Z.testbit (bits w lo n) (i - lo) = Z.testbit (bits w' lo n) (i - lo)) by (rewrite H; reflexivity).
  rewrite !testbit_bits in Ht by lia. replace (i - lo <? n) with true in Ht by lia.
  replace (i - lo + lo) with i in Ht by lia. exact Ht.
Qed.

Lemma testbit_small_cases (P : Z -> Prop) n : (forall i, 0 <= i < n -> P i) -> forall i, 0 <= i < n -> P i.
Proof. auto. Qed.

Lemma status_eq_spec a b : word a -> word b ->
  status_eq a b = true <-> status_doc a = status_doc b.
Proof.
  intros Ha Hb. unfold status_eq.
  change (Z.lor (Z.lor (Z.lor ST_SUBPAGE_MASK ST_NEW_DATA_MASK) ST_OVERWRITE_ENABLED_MASK) ST_STEP_MODE_MASK) with 57.
  rewrite land_mask_eq by lia. split.
  - intros H. unfold status_doc. rewrite !bit_testbit by lia.
    rewrite (H 3), (H 4), (H 5) by (reflexivity || lia).
    rewrite (bits_ext a b 0 1) by (solve [lia | intros i Hi; apply H; [lia|replace i with 0 by lia; reflexivity]]).
    reflexivity.
  - intros H i Hi Hbit. unfold status_doc in H. rewrite !bit_testbit in H by lia.
    injection H as H0 H3 H4 H5. apply doc_subpage_inj in H0; [|lia].
    destruct (Z.lt_ge_cases i 6) as [Hlt|Hge].
    + destruct (range_cases i 6 ltac:(lia)) as (k & Hk & ->).
      do 6 (destruct k as [|k]; [first [discriminate Hbit | assumption
            | apply (bits_eq_testbit a b 0 1); [lia|lia|assumption|lia]]|]). lia.
    + rewrite (small_testbit_high 57 6) in Hbit by lia. discriminate.
Qed.

Lemma control_eq_spec a b : word a -> word b ->
  control_eq a b = true <-> control_doc a = control_doc b.
Proof.
  intros Ha Hb. unfold control_eq.
  match goal with |- (Z.land a ?m =? _) = true <-> _ => change m with 0x1F9F end.
  rewrite land_mask_eq by lia. split.
  - intros H. unfold control_doc. rewrite !bit_testbit by lia.
    rewrite (H 0), (H 1), (H 2), (H 3) by (reflexivity || lia).
    rewrite (bits_ext a b 4 1) by (solve [lia | intros i Hi; apply H; [lia|replace i with 4 by lia; reflexivity]]).
    rewrite (bits_ext a b 12 1) by (solve [lia | intros i Hi; apply H; [lia|replace i with 12 by lia; reflexivity]]).
    rewrite (bits_ext a b 7 3).
    rewrite (bits_ext a b 10 2). reflexivity.
    1,2,4,5: lia.
    + intros i Hi; apply H; [lia|]. assert (Hc : i = 10 \/ i = 11) by lia.
      destruct Hc as [->| ->]; reflexivity.
    + intros i Hi; apply H; [lia|]. assert (Hc : i = 7 \/ i = 8 \/ i = 9) by lia.
      destruct Hc as [->|[->| ->]]; reflexivity.
  - intros H i Hi Hbit. unfold control_doc in H. rewrite !bit_testbit in H by lia.
    injection H as H0 H1 H2 H3 H4 H7 H10 H12.
    apply doc_subpage_inj in H4; [|clear; lia]. apply doc_access_pattern_inj in H12; [|clear; lia].
    apply doc_frame_rate_inj in H7; [|apply bits_range; clear; lia|apply bits_range; clear; lia].
    apply doc_resolution_inj in H10; [|apply bits_range; clear; lia|apply bits_range; clear; lia].
    assert (Hc : 13 <= i \/ i = 0 \/ i = 1 \/ i = 2 \/ i = 3 \/ i = 4 \/ i = 5 \/ i = 6 \/
                 7 <= i < 10 \/ 10 <= i < 12 \/ i = 12)
      by (clear - Hi; lia).
    destruct Hc as [Hc|[->|[->|[->|[->|[->|[->|[->|[Hc|[Hc| ->]]]]]]]]]];
      try assumption; try discriminate Hbit.
    + rewrite (small_testbit_high 0x1F9F 13) in Hbit by (clear - Hc; lia). discriminate.
    + apply (bits_eq_testbit a b 4 1); [clear; lia|clear; lia|assumption|clear; lia].
    + apply (bits_eq_testbit a b 7 3); [clear; lia|clear; lia|assumption|clear - Hc; lia].
    + apply (bits_eq_testbit a b 10 2); [clear; lia|clear; lia|assumption|clear - Hc; lia].
    + apply (bits_eq_testbit a b 12 1); [clear; lia|clear; lia|assumption|clear; lia].
Qed.

(** ** I2C configuration register *)
Lemma i2c_from_bytes {E} hi lo rest : byte hi -> byte lo ->
  i2c_register_from_slice (E := E) (hi :: lo :: rest) =
  Ok {| fast_mode_plus := negb (bit lo 0); i2c_threshold_halved := bit lo 1;
        sda_current_limiter := negb (bit lo 2) |}.
Proof.
  intros Hh Hl. pose proof (be16_word hi lo Hh Hl) as Hw.
  unfold i2c_register_from_slice. simpl.
  rewrite !is_bit_set_spec by (apply Hw || lia).
  assert (Hb : forall i, 0 <= i < 8 -> Z.testbit (be16 hi lo) i = bit lo i).
  { intros i Hi. rewrite <- bit_testbit by lia. unfold bit, be16.
    replace (hi * 256 + lo) with (lo + (hi * 2 ^ (8 - i)) * 2 ^ i).
    - rewrite Z.div_add by (apply Z.pow_nonzero; lia).
      replace (8 - i) with (Z.succ (7 - i)) by lia. rewrite Z.pow_succ_r by lia.
      replace (lo / 2 ^ i + hi * (2 * 2 ^ (7 - i))) with (lo / 2 ^ i + hi * 2 ^ (7 - i) * 2) by lia.
      rewrite Z_mod_plus_full. reflexivity.
    - rewrite <- Z.mul_assoc, <- Z.pow_add_r by lia. replace (8 - i + i) with 8 by lia.
      change (2 ^ 8) with 256. lia. }
  rewrite !Hb by lia. reflexivity.
Qed.

Lemma i2c_roundtrip {E} r : i2c_register_from_slice (E := E) (i2c_register_to_bytes r) = Ok r.
Proof. destruct r as [[] [] []]; reflexivity. Qed.

Lemma i2c_bytes_range r : exists lo, i2c_register_to_bytes r = [0; lo] /\ 0 <= lo < 8.
Proof. destruct r as [[] [] []]; eexists; (split; [reflexivity|vm_compute; split; [discriminate|reflexivity]]). Qed.
