(** * P_Ee641: decoding the MLX90641 EEPROM (C45-C51). *)
From Verif Require Import Base FloatOps Register Bus Camera Cam641 Hamming SpecRegister SpecHamming
  HammingFacts SpecEeprom ParseFacts FieldFacts SpecRange RangeFacts Spec640 Spec641 Ee641 Ee641Facts Ee641Closed
  Ee641Words P_Ee640 Demo Dumps.

Lemma used_in_dump data i : full_dump data -> In i reading_order -> (2 * i + 1 < length data)%nat.
Proof. intros [_ Hl] H. apply used_below in H. lia. Qed.

(** ** Facts about any full dump *)
Section Full.
Context (FO : FloatOps) (p : profile) (data : list Z) (dw : nat -> Z).
Hypothesis (Hd : full_dump data).

Lemma decoded_is641 c : from_data641 FO p data = Ok c -> c = decoded641 FO data.
Proof.
  destruct Hd as [Hb Hl]. rewrite from_data641_closed by exact Hb.
  intros H. destruct (first_trouble p data (all_steps data)) as [[w| |]|]; try discriminate H.
  symmetry. injection H. exact (fun e => e).
Qed.

Hypothesis (Hw : corrected data dw).

Lemma dword_corrected i : In i reading_order -> dword data i = dw i.
Proof. intros H. apply corrects_dword; [apply Hd|apply Hw, H]. Qed.

Lemma dw_range i : In i reading_order -> 0 <= dw i < 2048.
Proof. intros H. rewrite <- (dword_corrected i H). apply dword_range, Hd. Qed.

Lemma word_fine i : In i reading_order -> trouble_of p data (Word i) = None.
Proof.
  intros H. apply trouble_word_ok; [apply Hd|exact (used_in_dump data i Hd H)|].
  exists (dw i). apply Hw, H.
Qed.

Lemma sext_zero n v : 0 < n -> 0 <= v < 2 ^ n -> sext n v = 0 <-> v = 0.
Proof.
  intros Hn Hv. unfold sext. assert (0 < 2 ^ (n - 1)) by (apply Z.pow_pos_nonneg; lia).
  assert (2 ^ n = 2 * 2 ^ (n - 1)) by (replace n with (1 + (n - 1)) at 1 by lia; rewrite Z.pow_add_r by lia; reflexivity).
  destruct (Z.ltb_spec v (2 ^ (n - 1))); lia.
Qed.

Lemma split_zero w : 0 <= w < 2048 -> bits w 5 6 = 0 /\ bits w 0 5 = 0 <-> w = 0.
Proof.
  intros H. unfold bits. change (2 ^ 5) with 32. change (2 ^ 6) with 64. change (2 ^ 0) with 1. rewrite Z.div_1_r.
  split; [intros [H1 H2]|intros ->; split; reflexivity].
  rewrite Z.mod_small in H1 by (split; [apply Z.div_pos; lia|apply Z.div_lt_upper_bound; lia]).
  pose proof (Z.div_mod w 32). lia.
Qed.

Lemma failedb_iff i : (i < 192)%nat -> failedb data i = true <-> failed641 dw i.
Proof.
  intros Hi. unfold failedb, failed641, signed11, kta_raw, kv_raw.
  rewrite (dword_corrected _ (used_offset0 i Hi)), (dword_corrected _ (used_offset1 i Hi)),
    (dword_corrected _ (used_alpha i Hi)), (dword_corrected _ (used_constants i Hi)).
  rewrite !andb_true_iff, !Z.eqb_eq.
  unfold sbits.
  rewrite (sext_zero 11 (dw (offset0_word i)) ltac:(lia) (dw_range _ (used_offset0 i Hi))).
  rewrite (sext_zero 11 (dw (offset1_word i)) ltac:(lia) (dw_range _ (used_offset1 i Hi))).
  rewrite (sext_zero 6 _ ltac:(lia) (bits_range (dw (constants_word i)) 5 6 ltac:(lia))).
  rewrite (sext_zero 5 _ ltac:(lia) (bits_range (dw (constants_word i)) 0 5 ltac:(lia))).
  rewrite <- (split_zero (dw (constants_word i))) by (apply dw_range, used_constants, Hi). tauto.
Qed.

Lemma pair_stored i : In i reading_order -> In (i + 1)%nat reading_order ->
  joined data i = stored16 dw i.
Proof.
  intros H1 H2. unfold joined, stored16. rewrite (dword_corrected _ H1), (dword_corrected _ H2). reflexivity.
Qed.

Lemma scale_is : offset_scale (dword data) = offset_scale dw.
Proof. unfold offset_scale. rewrite (dword_corrected 0x10) by used. reflexivity. Qed.
Lemma raw_is sp i : (i < 192)%nat -> signed11 (dword data) (offset_word sp i) = offset_raw dw sp i.
Proof.
  intros Hi. unfold offset_raw, signed11. rewrite dword_corrected; [reflexivity|].
  destruct sp; [apply used_offset0, Hi|apply used_offset1, Hi].
Qed.
Lemma average_is : average_used data = average_kept dw.
Proof. unfold average_used, average_kept. rewrite (pair_stored 0x11); [reflexivity|used|used]. Qed.
End Full.

(** A list of one value per pixel. *)
Lemma px641_at {A} FO data (f : pixel641 FO -> A) i : (i < 192)%nat ->
  nth_error (map f (map (pixel_value FO data) (seq 0 192))) i = Some (f (pixel_value FO data i)).
Proof. intros Hi. rewrite map_map. apply (nth_error_map_seq (fun i => f (pixel_value FO data i))). exact Hi. Qed.

Lemma fits_dec z : fits z \/ ~ fits z.
Proof.
  destruct (in_i16 z) eqn:E; [left; apply in_i16_spec; exact E|right]. intros H. apply in_i16_spec in H. congruence.
Qed.

Lemma check_none data z : trouble_of Debug data (Check z) = None <-> fits z.
Proof.
  cbn [trouble_of]. pose proof (in_i16_spec z) as H. destruct (in_i16 z).
  - split; [intros _; apply H; reflexivity|reflexivity].
  - split; [discriminate|]. intros F. apply H in F. discriminate.
Qed.

(** Sources of the checks. *)
Lemma check_in data z : In (Check z) (all_steps data) <->
  z = 2 ^ offset_scale (dword data) \/
  exists i, (i < available data)%nat /\ In (Check z) (pixel_checks data i).
Proof.
  unfold all_steps, per_pixel_steps, header_steps, scale_steps. repeat rewrite in_app_iff. cbn [In].
  repeat rewrite in_map_iff. rewrite in_flat_map. unfold pixel_steps. split.
  - intros H.
    repeat match goal with
      | H : _ \/ _ |- _ => destruct H
      | H : exists _, Word _ = _ /\ _ |- _ => destruct H as (? & ? & _)
      | H : Check _ = Check _ |- _ => injection H as <-; left; reflexivity
      | H : _ = Check _ |- _ => discriminate H
      | H : False |- _ => destruct H
      end.
    destruct H as (i & Hi & H). apply in_seq in Hi. right. exists i. split; [lia|].
    apply in_app_or in H. destruct H as [H|H]; [|exact H].
    apply in_map_iff in H. destruct H as (x & E & _). discriminate E.
  - intros [->|(i & Hi & H)].
    + tauto.
    + right. right. right. left. exists i. split; [apply in_seq; lia|]. apply in_or_app. right. exact H.
Qed.

(** ** C45 Overflow checks *)

(** Without overflow checks decoding a full dump never panics: it succeeds when
    every used word is correctable, otherwise a checksum error is returned. *)
Theorem C45_release_641 : forall FO data, full_dump data ->
  ((forall i, In i reading_order -> correctable (ee_word data i)) /\
   exists c, from_data641 FO Release data = Ok c) \/
  (exists i, In i reading_order /\ ~ correctable (ee_word data i) /\
   from_data641 FO Release data = Err (Checksum (ee_word data i))).
Proof.
  intros FO data Hd. pose proof Hd as [Hb Hl].
  rewrite from_data641_closed, release_trouble by assumption.
  destruct (first_trouble Release data (map Word reading_order)) as [t|] eqn:E.
  - right. apply first_trouble_some in E. destruct E as (s & Hs & E). apply in_map_iff in Hs.
    destruct Hs as (i & <- & Hi). exists i. split; [exact Hi|].
    destruct (correctable_dec data i Hb) as [H|H].
    + apply (trouble_word_ok Release data i Hb (used_in_dump data i Hd Hi)) in H. congruence.
    + split; [exact H|]. rewrite (trouble_word_bad Release data i Hb (used_in_dump data i Hd Hi) H) in E.
      injection E as <-. reflexivity.
  - left. split; [|eexists; reflexivity]. intros i Hi.
    apply (trouble_word_ok Release data i Hb (used_in_dump data i Hd Hi)).
    apply (proj1 (first_trouble_none Release data (map Word reading_order)) E). apply in_map. exact Hi.
Qed.
Print Assumptions C45_release_641.

(** With overflow checks, on a dump without uncorrectable words, decoding panics
    exactly when a 16-bit computation on the offsets overflows, and otherwise
    gives what it gives without them. *)
Theorem C45_debug_641 : forall FO data dw, full_dump data -> corrected data dw ->
  (from_data641 FO Debug data = Panic <-> overflows641 dw) /\
  (~ overflows641 dw -> from_data641 FO Debug data = from_data641 FO Release data) /\
  (from_data641 FO Debug data = Panic \/ exists c, from_data641 FO Debug data = Ok c).
Proof.
  intros FO data dw Hd Hw. pose proof Hd as [Hb Hl].
  assert (Hwords : forall s, In s (all_steps data) -> (forall z, s <> Check z) -> forall p, trouble_of p data s = None).
  { intros s Hs Hn p. destruct s as [i|z|n|].
    - apply (word_fine p data dw Hd Hw). unfold reading_order. fold (first_words 192).
      rewrite <- (available_full data Hl), <- words_of_all. apply in_flat_map. exists (Word i).
      split; [exact Hs|left; reflexivity].
    - contradiction (Hn z). reflexivity.
    - destruct (other_steps data _ Hs eq_refl) as [[z E]|[(n' & E & Hle)|E]]; try discriminate. injection E as ->.
      cbn [trouble_of]. destruct (Nat.leb_spec n' (length data)); [reflexivity|lia].
    - cbn [trouble_of]. destruct (Nat.leb_spec 1664 (length data)); [reflexivity|lia]. }
  assert (Hchecks : forall i, (i < 192)%nat -> ~ failed641 dw i -> pixel_checks data i =
    let s := wrap16 (2 ^ offset_scale dw) in
    [Check (offset_raw dw Zero i * s); Check (offset_raw dw One i * s);
     Check (average_kept dw + wrap16 (offset_raw dw Zero i * s));
     Check (average_kept dw + wrap16 (offset_raw dw One i * s))]).
  { intros i Hi Hf. unfold pixel_checks. destruct (failedb data i) eqn:Ef.
    - apply (failedb_iff data dw Hd Hw i Hi) in Ef. contradiction.
    - cbv zeta. unfold scale_used. rewrite (scale_is data dw Hd Hw), (average_is data dw Hd Hw).
      change (offset0_word i) with (offset_word Zero i). change (offset1_word i) with (offset_word One i).
      rewrite !(raw_is data dw Hd Hw) by exact Hi. reflexivity. }
  assert (Hov : overflows641 dw <-> exists z, In (Check z) (all_steps data) /\ ~ fits z).
  { split.
    - intros Ho. destruct (fits_dec (2 ^ offset_scale dw)) as [Hs|Hs].
      2:{ exists (2 ^ offset_scale dw). split; [|exact Hs]. apply check_in. left. rewrite (scale_is data dw Hd Hw). reflexivity. }
      destruct Ho as [Ho|(i & Hi & Hf & sp & Ho)]; [contradiction|].
      assert (Hin : forall z, In (Check z) (pixel_checks data i) -> In (Check z) (all_steps data)).
      { intros z Hz. apply check_in. right. exists i. rewrite (available_full data Hl). auto. }
      rewrite (Hchecks i Hi Hf) in Hin. cbv zeta in Hin. rewrite (wrap16_id (2 ^ offset_scale dw)) in Hin by exact Hs.
      destruct (fits_dec (offset_raw dw sp i * 2 ^ offset_scale dw)) as [Hr|Hr].
      + destruct Ho as [Ho|Ho]; [contradiction|]. exists (kept_offset dw sp i). split; [|exact Ho].
        apply Hin. unfold kept_offset. rewrite <- (wrap16_id (offset_raw dw sp i * 2 ^ offset_scale dw)) by exact Hr.
        destruct sp; cbn [In]; tauto.
      + exists (offset_raw dw sp i * 2 ^ offset_scale dw). split; [|exact Hr]. apply Hin. destruct sp; cbn [In]; tauto.
    - intros (z & Hz & Hn). apply check_in in Hz. rewrite (scale_is data dw Hd Hw) in Hz.
      destruct (fits_dec (2 ^ offset_scale dw)) as [Hs|Hs]; [|left; exact Hs].
      destruct Hz as [->|(i & Hi & Hz)]; [left; exact Hn|]. rewrite (available_full data Hl) in Hi.
      right. exists i. split; [exact Hi|].
      assert (Hf : ~ failed641 dw i).
      { intros Hf. apply (failedb_iff data dw Hd Hw i Hi) in Hf. unfold pixel_checks in Hz. rewrite Hf in Hz. exact Hz. }
      split; [exact Hf|]. rewrite (Hchecks i Hi Hf) in Hz. cbv zeta in Hz.
      rewrite (wrap16_id (2 ^ offset_scale dw)) in Hz by exact Hs. cbn [In] in Hz.
      assert (Hr : forall sp, fits (offset_raw dw sp i * 2 ^ offset_scale dw) \/
                              ~ fits (offset_raw dw sp i * 2 ^ offset_scale dw)) by (intros; apply fits_dec).
      destruct (Hr Zero) as [R0|R0]; [|exists Zero; left; exact R0].
      destruct (Hr One) as [R1|R1]; [|exists One; left; exact R1].
      rewrite (wrap16_id _ R0), (wrap16_id _ R1) in Hz.
      destruct Hz as [E|[E|[E|[E|[]]]]]; injection E as <-; try contradiction;
        [exists Zero|exists One]; right; exact Hn. }
  assert (Hnone : first_trouble Debug data (all_steps data) = None <-> ~ overflows641 dw).
  { rewrite Hov, first_trouble_none. split.
    - intros H (z & Hz & Hn). apply Hn. apply (check_none data). apply H, Hz.
    - intros H s Hs. destruct s as [i|z|n|]; try (apply Hwords; [exact Hs|discriminate]).
      apply check_none. destruct (fits_dec z) as [F|F]; [exact F|]. exfalso. apply H. exists z. auto. }
  assert (Hpanic : forall t, first_trouble Debug data (all_steps data) = Some t -> t = Panics /\ overflows641 dw).
  { intros t E. apply first_trouble_some in E. destruct E as (s & Hs & E).
    destruct s as [i|z|n|]; try (rewrite Hwords in E by (try exact Hs; discriminate); discriminate E).
    rewrite Hov. cbn [trouble_of] in E. destruct (in_i16 z) eqn:Ez; [discriminate|]. injection E as <-.
    split; [reflexivity|]. exists z. split; [exact Hs|]. intros F. apply in_i16_spec in F. congruence. }
  assert (Hrel : first_trouble Release data (all_steps data) = None).
  { rewrite first_trouble_none. intros s Hs. destruct s as [i|z|n|]; try (apply Hwords; [exact Hs|discriminate]).
    reflexivity. }
  rewrite !from_data641_closed by exact Hb. rewrite Hrel.
  destruct (first_trouble Debug data (all_steps data)) as [t|].
  - destruct (Hpanic t eq_refl) as [-> Ho]. split; [|split].
    + split; [intros _; exact Ho|reflexivity].
    + intros H. contradiction.
    + left. reflexivity.
  - split; [|split].
    + split; [intros H; destruct (ok_not_panic _ H)|]. intros Ho. exfalso. apply Hnone; [reflexivity|exact Ho].
    + reflexivity.
    + right. eexists. reflexivity.
Qed.
Print Assumptions C45_debug_641.

(** ** C46 Single-bit faults *)

(** Two dumps whose used words have the same corrected data decode alike. *)
Theorem C46_same_corrected_words : forall FO p data1 data2, full_dump data1 -> full_dump data2 ->
  (forall i, In i reading_order -> exists d, corrects_to (ee_word data1 i) d /\ corrects_to (ee_word data2 i) d) ->
  from_data641 FO p data1 = from_data641 FO p data2.
Proof.
  intros FO p data1 data2 [B1 L1] [B2 L2] H. apply from_data641_words; try assumption.
  intros i Hi. destruct (H i Hi) as (d & H1 & H2).
  rewrite (proj2 (corrects_dword data1 i d B1 H1)), (proj2 (corrects_dword data2 i d B2 H2)). reflexivity.
Qed.
Print Assumptions C46_same_corrected_words.

(** At most one bit of each used word of a valid dump flipped (and any bits of the
    other words): same result. *)
Theorem C46_single_bit_faults : forall FO p data faulty, full_dump data -> full_dump faulty ->
  (forall i, In i reading_order -> is_codeword (ee_word data i) /\ (distance (ee_word faulty i) (ee_word data i) <= 1)%nat) ->
  from_data641 FO p faulty = from_data641 FO p data.
Proof.
  intros FO p data faulty H1 H2 H. apply C46_same_corrected_words; try assumption.
  intros i Hi. destruct (H i Hi) as [Hc Hdist]. exists (data_of (ee_word data i)).
  split; exists (ee_word data i); split; auto.
  split; [reflexivity|]. rewrite distance_ones, Z.lxor_nilpotent. apply Nat.le_0_l.
Qed.
Print Assumptions C46_single_bit_faults.

(** The datasheet's EEPROM is a dump of codewords; flip bit (i mod 16) of every
    word i. *)
Definition words641 : list Z := header641 ++ repeat 0xF849 192 ++ repeat 0xFFFF 192 ++ repeat 0xB8C0 192 ++ repeat 0xD847 192.
Definition flip_all (l : list Z) : list Z :=
  map (fun iw => Z.lxor (snd iw) (2 ^ Z.of_nat (fst iw mod 16))) (combine (seq 0 (length l)) l).
Definition faulty641 : list Z := bytes_of_words (flip_all words641).

Lemma datasheet641_full : full_dump datasheet641.
Proof.
  split; [apply forallb_bytes; vm_compute; reflexivity|]. apply Nat.leb_le. vm_compute. reflexivity.
Qed.

Example C46_every_word_faulty :
  full_dump faulty641 /\
  (forall i, In i reading_order -> is_codeword (ee_word datasheet641 i) /\
     distance (ee_word faulty641 i) (ee_word datasheet641 i) = 1%nat).
Proof.
  split.
  - split; [apply forallb_bytes; vm_compute; reflexivity|]. apply Nat.leb_le. vm_compute. reflexivity.
  - assert (H : forallb (fun i => let w := ee_word datasheet641 i in
        (0 <=? w) && (w <? 65536) && (w =? encode (data_of w)) && Nat.eqb (distance (ee_word faulty641 i) w) 1)
        reading_order = true) by (vm_compute; reflexivity).
    intros i Hi. rewrite forallb_forall in H. specialize (H i Hi). cbv beta zeta in H.
    apply andb_prop in H. destruct H as [H H4]. apply andb_prop in H. destruct H as [H H3].
    apply andb_prop in H. destruct H as [H1 H2]. apply Z.leb_le in H1. apply Z.ltb_lt in H2. apply Z.eqb_eq in H3.
    apply Nat.eqb_eq in H4. split; [|exact H4]. apply codeword_encode. split; [split; assumption|exact H3].
Qed.

(** ** C47 Uncorrectable words *)

(** Without overflow checks the error names the first uncorrectable word in
    reading order. *)
Theorem C47_first_uncorrectable_word : forall FO data before i after, full_dump data ->
  reading_order = before ++ i :: after ->
  (forall j, In j before -> correctable (ee_word data j)) -> ~ correctable (ee_word data i) ->
  from_data641 FO Release data = Err (Checksum (ee_word data i)).
Proof.
  intros FO data before i after Hd E Hbefore Hi. pose proof Hd as [Hb Hl].
  rewrite from_data641_closed, release_trouble by assumption.
  assert (Hin : forall j, In j (before ++ i :: after) -> (2 * j + 1 < length data)%nat)
    by (rewrite <- E; intros j Hj; exact (used_in_dump data j Hd Hj)).
  rewrite E, map_app, first_trouble_app.
  assert (E1 : first_trouble Release data (map Word before) = None).
  { apply first_trouble_none. intros s Hs. apply in_map_iff in Hs. destruct Hs as (j & <- & Hj).
    apply trouble_word_ok; [exact Hb|apply Hin, in_or_app; left; exact Hj|apply Hbefore, Hj]. }
  rewrite E1. cbn [map first_trouble].
  rewrite trouble_word_bad by (try assumption; apply Hin, in_or_app; right; left; reflexivity). reflexivity.
Qed.
Print Assumptions C47_first_uncorrectable_word.

(** In any build an uncorrectable word that is used means there is no
    calibration: an error that names an uncorrectable word, or (with overflow
    checks) a panic. *)
Theorem C47_never_accepted : forall FO p data i, full_dump data -> In i reading_order ->
  ~ correctable (ee_word data i) ->
  (exists j, In j reading_order /\ ~ correctable (ee_word data j) /\
     from_data641 FO p data = Err (Checksum (ee_word data j))) \/
  (p = Debug /\ from_data641 FO p data = Panic).
Proof.
  intros FO p data i Hd Hi Hbad. pose proof Hd as [Hb Hl]. rewrite from_data641_closed by exact Hb.
  assert (Hused : forall j, In (Word j) (all_steps data) <-> In j reading_order).
  { intros j. unfold reading_order. fold (first_words 192). rewrite <- (available_full data Hl), <- words_of_all.
    unfold words_of. rewrite in_flat_map. split.
    - intros H. exists (Word j). split; [exact H|left; reflexivity].
    - intros (s & Hs & Hj). destruct s as [k|z|n|]; [destruct Hj as [->|[]]; exact Hs|destruct Hj..]. }
  destruct (first_trouble p data (all_steps data)) as [t|] eqn:E.
  - destruct (first_trouble_some p data _ t E) as (s & Hs & Et). destruct s as [j|z|n|].
    + left. apply Hused in Hs. exists j. split; [exact Hs|].
      assert (Hj : ~ correctable (ee_word data j)).
      { intros H. apply (trouble_word_ok p data j Hb (used_in_dump data j Hd Hs)) in H. congruence. }
      split; [exact Hj|]. rewrite (trouble_word_bad p data j Hb (used_in_dump data j Hd Hs) Hj) in Et.
      injection Et as <-. reflexivity.
    + right. cbn [trouble_of] in Et. destruct p; [|discriminate]. destruct (in_i16 z); [discriminate|].
      injection Et as <-. split; reflexivity.
    + exfalso. destruct (other_steps data _ Hs eq_refl) as [[z Es]|[(n' & Es & Hle)|Es]]; try discriminate.
      injection Es as ->. cbn [trouble_of] in Et. destruct (Nat.leb_spec n' (length data)); [discriminate|lia].
    + exfalso. cbn [trouble_of] in Et. destruct (Nat.leb_spec 1664 (length data)); [discriminate|lia].
  - exfalso. apply Hbad. apply (trouble_word_ok p data i Hb (used_in_dump data i Hd Hi)).
    apply (proj1 (first_trouble_none p data _) E). apply Hused, Hi.
Qed.
Print Assumptions C47_never_accepted.

(** The other words (0x2400-0x240F, 0x2413, 0x2414 and anything after 0x273F)
    have no influence. *)
Theorem C47_unused_words : forall FO p data1 data2, full_dump data1 -> full_dump data2 ->
  (forall i, In i reading_order -> ee_word data1 i = ee_word data2 i) ->
  from_data641 FO p data1 = from_data641 FO p data2.
Proof.
  intros FO p data1 data2 [B1 L1] [B2 L2] H. apply from_data641_words; try assumption.
  intros i Hi. rewrite (H i Hi). reflexivity.
Qed.
Print Assumptions C47_unused_words.

(** The used words are exactly those from 0x2410 to 0x273F but two. *)
Theorem C47_used_words : forall i,
  In i reading_order <-> (0x10 <= i < 0x340)%nat /\ i <> 0x13%nat /\ i <> 0x14%nat.
Proof.
  intros i. unfold reading_order, scalar_words. repeat rewrite in_app_iff. repeat rewrite in_seq.
  rewrite in_flat_map. split.
  - intros [H|(j & Hj & H)]; [lia|]. apply in_seq in Hj.
    unfold pixel_words, offset0_word, offset1_word, alpha_word, constants_word in H. cbn [In] in H. lia.
  - intros H. destruct (Nat.lt_ge_cases i 0x40) as [Hlt|Hge]; [left; lia|]. right.
    unfold pixel_words, offset0_word, offset1_word, alpha_word, constants_word. cbn [In].
    destruct (Nat.lt_ge_cases i 0x100); [exists (i - 0x40)%nat; rewrite in_seq; lia|].
    destruct (Nat.lt_ge_cases i 0x1C0); [exists (i - 0x100)%nat; rewrite in_seq; lia|].
    destruct (Nat.lt_ge_cases i 0x280); [exists (i - 0x1C0)%nat; rewrite in_seq; lia|].
    exists (i - 0x280)%nat. rewrite in_seq. lia.
Qed.
Print Assumptions C47_used_words.

(** Two bits of the sensitivity word of pixel 5 flipped. *)
Definition flip_at (k : nat) (m : Z) (l : list Z) : list Z :=
  map (fun iw => if Nat.eqb (fst iw) k then Z.lxor (snd iw) m else snd iw) (combine (seq 0 (length l)) l).
Definition damaged641 : list Z := bytes_of_words (flip_at 0x105 0x0101 words641).
Example C47_damaged :
  full_dump damaged641 /\ In (alpha_word 5) reading_order /\ ~ correctable (ee_word damaged641 (alpha_word 5)) /\
  match from_data641 ZFO Debug damaged641 with Err (Checksum w) => w =? 0xFEFE | _ => false end = true.
Proof.
  assert (Hf : full_dump damaged641).
  { split; [apply forallb_bytes; vm_compute; reflexivity|]. apply Nat.leb_le. vm_compute. reflexivity. }
  split; [exact Hf|]. split; [apply used_alpha; lia|]. split; [|vm_compute; reflexivity].
  intros H. apply correctable_iff in H; [|apply Hf]. destruct H as [d H].
  assert (E : match validate_checksum (ee_word damaged641 (alpha_word 5)) with Ok _ => false | _ => true end = true)
    by (vm_compute; reflexivity).
  rewrite H in E. discriminate.
Qed.

(** ** C50 Length of the dump *)

(** At least 1664 bytes: no failure for the length (only bad checksums, and
    overflows with overflow checks). *)
Theorem C50_full_dump : forall FO p data, full_dump data ->
  (exists c, from_data641 FO p data = Ok c) \/
  (exists i, In i reading_order /\ ~ correctable (ee_word data i) /\
     from_data641 FO p data = Err (Checksum (ee_word data i))) \/
  (p = Debug /\ from_data641 FO p data = Panic).
Proof.
  intros FO p data Hd. pose proof Hd as [Hb Hl].
  destruct (first_trouble p data (all_steps data)) as [t|] eqn:E.
  - right. destruct (first_trouble_some p data _ t E) as (s & Hs & Et). destruct s as [j|z|n|].
    + assert (Hj : In j reading_order).
      { unfold reading_order. fold (first_words 192). rewrite <- (available_full data Hl), <- words_of_all.
        unfold words_of. apply in_flat_map. exists (Word j). split; [exact Hs|left; reflexivity]. }
      left. apply (C47_never_accepted FO p data j) in Hd as H; [|exact Hj|].
      * destruct H as [H|[-> H]]; [exact H|]. exfalso.
        rewrite from_data641_closed, E in H by exact Hb.
        assert (Hn : ~ correctable (ee_word data j)).
        { intros Hc. apply (trouble_word_ok Debug data j Hb (used_in_dump data j Hd Hj)) in Hc. congruence. }
        rewrite (trouble_word_bad Debug data j Hb (used_in_dump data j Hd Hj) Hn) in Et. injection Et as <-. discriminate H.
      * intros Hc. apply (trouble_word_ok p data j Hb (used_in_dump data j Hd Hj)) in Hc. congruence.
    + right. cbn [trouble_of] in Et. destruct p; [|discriminate]. destruct (in_i16 z); [discriminate|].
      injection Et as <-. split; [reflexivity|]. rewrite from_data641_closed, E by exact Hb. reflexivity.
    + exfalso. destruct (other_steps data _ Hs eq_refl) as [[z Es]|[(n' & Es & Hle)|Es]]; try discriminate.
      injection Es as ->. cbn [trouble_of] in Et. destruct (Nat.leb_spec n' (length data)); [discriminate|lia].
    + exfalso. cbn [trouble_of] in Et. destruct (Nat.leb_spec 1664 (length data)); [discriminate|lia].
  - left. rewrite from_data641_closed, E by exact Hb. eexists. reflexivity.
Qed.
Print Assumptions C50_full_dump.

Lemma not_filled_in data : In Filled (all_steps data).
Proof. unfold all_steps, per_pixel_steps. repeat rewrite in_app_iff. right. right. right. right. left. reflexivity. Qed.
Lemma room_in data : In (Room 1280) (all_steps data).
Proof. unfold all_steps, per_pixel_steps. repeat rewrite in_app_iff. right. right. left. left. reflexivity. Qed.

(** Fewer bytes are never accepted. *)
Theorem C50_short_dump_never_accepted : forall FO p data c, Forall byte data -> (length data < 1664)%nat ->
  from_data641 FO p data <> Ok c.
Proof.
  intros FO p data c Hb Hl H. rewrite from_data641_closed in H by exact Hb.
  destruct (first_trouble p data (all_steps data)) as [[w| |]|] eqn:E; try discriminate H.
  pose proof (proj1 (first_trouble_none p data _) E Filled (not_filled_in data)) as F. cbn [trouble_of] in F.
  destruct (Nat.leb_spec 1664 (length data)); [lia|discriminate].
Qed.
Print Assumptions C50_short_dump_never_accepted.

Lemma word_in_short data i : In (Word i) (all_steps data) -> (1280 <= length data)%nat ->
  (2 * i + 1 < length data)%nat.
Proof.
  intros H Hl. assert (Hw : In i (words_of (all_steps data))).
  { apply in_flat_map. exists (Word i). split; [exact H|left; reflexivity]. }
  rewrite words_of_all in Hw. unfold first_words in Hw. apply in_app_or in Hw. destruct Hw as [Hw|Hw].
  - unfold scalar_words in Hw. repeat rewrite in_app_iff in Hw. repeat rewrite in_seq in Hw. lia.
  - apply in_flat_map in Hw. destruct Hw as (j & Hj & Hw). apply in_seq in Hj. unfold available in Hj.
    pose proof (Nat.div_mod (length data - 1280) 2 ltac:(lia)) as Ed.
    unfold pixel_words, offset0_word, offset1_word, alpha_word, constants_word in Hw. cbn [In] in Hw. lia.
Qed.

(** Between 1280 and 1663 bytes, without overflow checks: always an error. *)
Theorem C50_part_of_last_block_missing : forall FO data, Forall byte data ->
  (1280 <= length data < 1664)%nat -> exists e, from_data641 FO Release data = Err e.
Proof.
  intros FO data Hb Hl. rewrite from_data641_closed by exact Hb.
  destruct (first_trouble Release data (all_steps data)) as [t|] eqn:E.
  - destruct t as [w| |]; [eexists; reflexivity| |eexists; reflexivity].
    exfalso. destruct (first_trouble_some Release data _ _ E) as (s & Hs & Et). destruct s as [j|z|n|].
    + pose proof (word_in_short data j Hs (proj1 Hl)) as Hj. cbn [trouble_of] in Et.
      destruct (Nat.ltb_spec (2 * j + 1) (length data)); [|lia]. destruct (validate_checksum _); discriminate.
    + discriminate.
    + destruct (other_steps data _ Hs eq_refl) as [[z Es]|[(n' & Es & Hle)|Es]]; try discriminate.
      injection Es as ->. cbn [trouble_of] in Et. destruct (Nat.leb_spec n' (length data)); [discriminate|lia].
    + cbn [trouble_of] in Et. destruct (Nat.leb 1664 (length data)); discriminate.
  - exfalso. pose proof (proj1 (first_trouble_none Release data _) E Filled (not_filled_in data)) as F.
    cbn [trouble_of] in F. destruct (Nat.leb_spec 1664 (length data)); [lia|discriminate].
Qed.
Print Assumptions C50_part_of_last_block_missing.

(** Refuted: "a dump that does not cover the EEPROM is rejected with an error".
    Below 1280 bytes decoding panics in every build, unless one of the words that
    are there is uncorrectable. *)
Theorem C50_refuted_for_shorter_dumps : forall FO p data, Forall byte data -> (length data < 1280)%nat ->
  (forall i, In i reading_order -> (2 * i + 1 < length data)%nat -> correctable (ee_word data i)) ->
  from_data641 FO p data = Panic.
Proof.
  intros FO p data Hb Hl H. rewrite from_data641_closed by exact Hb.
  assert (Ha : available data = 0%nat).
  { unfold available. replace (length data - 1280)%nat with 0%nat by lia. reflexivity. }
  destruct (first_trouble p data (all_steps data)) as [t|] eqn:E.
  - assert (Et : t = Panics); [|subst t; reflexivity].
    (* the room for the pixel blocks is missing, so the last check is never reached *)
    unfold all_steps, per_pixel_steps in E. rewrite !app_assoc in E. rewrite <- app_assoc in E.
    rewrite first_trouble_app in E.
    set (l := (header_steps ++ scale_steps data) ++ [Room 1280]) in E.
    assert (Hlast : first_trouble p data l <> None).
    { intros F. pose proof (proj1 (first_trouble_none p data l) F (Room 1280)) as G. 
      assert (Hr : In (Room 1280) l) by (unfold l; apply in_or_app; right; left; reflexivity).
      specialize (G Hr). cbn [trouble_of] in G. destruct (Nat.leb_spec 1280 (length data)); [lia|discriminate]. }
    destruct (first_trouble p data l) as [t'|] eqn:E'; [|contradiction]. injection E as <-.
    destruct (first_trouble_some p data l t' E') as (s & Hs & Et).
    assert (Hs' : In s (all_steps data)).
    { unfold all_steps, per_pixel_steps. unfold l in Hs. repeat rewrite in_app_iff in *. tauto. }
    destruct s as [j|z|n|].
    + cbn [trouble_of] in Et. destruct (Nat.ltb_spec (2 * j + 1) (length data)) as [Hj|Hj]; [|congruence].
      assert (Hu : In j reading_order).
      { assert (Hw : In j (words_of (all_steps data))).
        { apply in_flat_map. exists (Word j). split; [exact Hs'|left; reflexivity]. }
        rewrite words_of_all, Ha in Hw. unfold first_words in Hw. cbn [seq flat_map] in Hw. rewrite app_nil_r in Hw.
        apply used_scalar, Hw. }
      specialize (H j Hu Hj). apply correctable_iff in H; [|exact Hb]. destruct H as [d H]. rewrite H in Et. discriminate.
    + cbn [trouble_of] in Et. destruct p; [|discriminate]. destruct (in_i16 z); congruence.
    + cbn [trouble_of] in Et. destruct (Nat.leb n (length data)); congruence.
    + exfalso. unfold l in Hs. unfold header_steps, scale_steps in Hs. repeat rewrite in_app_iff in Hs. cbn [In] in Hs.
      repeat rewrite in_map_iff in Hs.
      repeat match goal with
        | H : _ \/ _ |- _ => destruct H
        | H : exists _, Word _ = _ /\ _ |- _ => destruct H as (? & ? & _)
        | H : _ = Filled |- _ => discriminate H
        | H : False |- _ => destruct H
        end.
  - exfalso. pose proof (proj1 (first_trouble_none p data _) E Filled (not_filled_in data)) as F.
    cbn [trouble_of] in F. destruct (Nat.leb_spec 1664 (length data)); [lia|discriminate].
Qed.
Print Assumptions C50_refuted_for_shorter_dumps.

(** Prefixes of the datasheet's EEPROM. *)
Example C50_prefixes :
  map (fun n => match from_data641 ZFO Debug (firstn n datasheet641) with
                | Ok _ => 0 | Err (OtherError _) => 1 | Err _ => 2 | Panic => 3 | Diverge => 4 end)
      [0; 100; 1279; 1280; 1663; 1664]%nat = [3; 3; 3; 1; 1; 0].
Proof. vm_compute. reflexivity. Qed.

(** ** C51 Failed pixels *)
Theorem C51_failed_flags : forall FO p data dw (c : calib FO), full_dump data -> corrected data dw ->
  from_data641 FO p data = Ok c ->
  forall i, (i < 192)%nat ->
  exists f, nth_error (failed_pixels _ c) i = Some f /\ (f = true <-> failed641 dw i).
Proof.
  intros FO p data dw c Hd Hw Hc i Hi. rewrite (decoded_is641 FO p data Hd c Hc).
  exists (failedb data i). split; [|exact (failedb_iff data dw Hd Hw i Hi)].
  unfold decoded641, record641. cbn [failed_pixels]. rewrite px641_at by exact Hi.
  unfold pixel_value. destruct (failedb data i); reflexivity.
Qed.
Print Assumptions C51_failed_flags.

(** 192 flags, the outlier flags are the failed flags. *)
Theorem C51_outlier_flags : forall FO p data (c : calib FO), full_dump data ->
  from_data641 FO p data = Ok c ->
  outlier_pixels _ c = failed_pixels _ c /\ length (failed_pixels _ c) = 192%nat.
Proof.
  intros FO p data c Hd Hc. rewrite (decoded_is641 FO p data Hd c Hc). unfold decoded641, record641.
  cbn [failed_pixels outlier_pixels]. rewrite !map_length, seq_length. split; reflexivity.
Qed.
Print Assumptions C51_outlier_flags.

(** Failed pixels get zeros. *)
Theorem C51_failed_pixel_values : forall FO p data dw (c : calib FO), full_dump data -> corrected data dw ->
  from_data641 FO p data = Ok c ->
  forall sp i, (i < 192)%nat -> failed641 dw i ->
  nth_error (offset_reference_pixels _ c sp) i = Some 0 /\
  nth_error (alpha_pixels _ c sp) i = Some (fofZ 0) /\
  nth_error (k_ta_pixels _ c sp) i = Some (fofZ 0) /\
  nth_error (k_v_pixels _ c sp) i = Some (fofZ 0).
Proof.
  intros FO p data dw c Hd Hw Hc sp i Hi Hf. rewrite (decoded_is641 FO p data Hd c Hc).
  apply (failedb_iff data dw Hd Hw i Hi) in Hf.
  unfold decoded641, record641. cbn [offset_reference_pixels alpha_pixels k_ta_pixels k_v_pixels].
  rewrite !px641_at by exact Hi.
  assert (Ev : pixel_value FO data i = {| q_offset0 := 0; q_offset1 := 0; q_alpha := fofZ 0; q_k_ta := fofZ 0;
                                          q_k_v := fofZ 0; q_failed := true |})
    by (unfold pixel_value; rewrite Hf; reflexivity).
  split; [|rewrite Ev; auto].
  destruct sp; rewrite px641_at, Ev by exact Hi; reflexivity.
Qed.
Print Assumptions C51_failed_pixel_values.

(** ** Offsets *)
Lemma wrap16_mul_r a b : wrap16 (a * wrap16 b) = wrap16 (a * b).
Proof. apply wrap16_eq. rewrite Z.mul_mod, wrap16_mod, <- Z.mul_mod by lia. reflexivity. Qed.

(** [shifted z] is [z] reduced to a signed 16-bit word (see Spec640). *)
Theorem C48_offset : forall FO p data dw (c : calib FO), full_dump data -> corrected data dw ->
  from_data641 FO p data = Ok c ->
  forall sp i, (i < 192)%nat -> ~ failed641 dw i ->
  nth_error (offset_reference_pixels _ c sp) i = Some (shifted (kept_offset dw sp i)).
Proof.
  intros FO p data dw c Hd Hw Hc sp i Hi Hf. rewrite (decoded_is641 FO p data Hd c Hc).
  unfold decoded641, record641. cbn [offset_reference_pixels].
  assert (Ef : failedb data i = false).
  { destruct (failedb data i) eqn:E; [|reflexivity]. apply (failedb_iff data dw Hd Hw i Hi) in E. contradiction. }
  assert (Eo : offset_of data (offset_word sp i) = shifted (kept_offset dw sp i)).
  { unfold offset_of, scale_used. rewrite (raw_is data dw Hd Hw) by exact Hi.
    rewrite (scale_is data dw Hd Hw), (average_is data dw Hd Hw).
    rewrite wrap16_mul_r, wrap16_add_r. reflexivity. }
  destruct sp; rewrite px641_at by exact Hi; unfold pixel_value; rewrite Ef; cbn [q_offset0 q_offset1];
    rewrite <- Eo; reflexivity.
Qed.
Print Assumptions C48_offset.

(** ** C49 The average offset *)
Lemma average_kept_iff dw : 0 <= stored16 dw 0x11 < 65536 ->
  (average_kept dw = average_offset dw <-> -1024 <= average_offset dw <= 1023).
Proof.
  intros H. unfold average_kept, average_offset, sbits, sext, bits. set (s := stored16 dw 0x11) in *.
  change (2 ^ 0) with 1. rewrite Z.div_1_r.
  change (2 ^ 11) with 2048. change (2 ^ (11 - 1)) with 1024. change (2 ^ (16 - 1)) with 32768. change (2 ^ 16) with 65536.
  pose proof (Z.mod_pos_bound s 2048 ltac:(lia)). pose proof (Z.div_mod s 2048 ltac:(lia)).
  set (q := s / 2048) in *. set (m := s mod 2048) in *.
  assert (0 <= q < 32) by lia.
  destruct (Z.ltb_spec m 1024); destruct (Z.ltb_spec s 32768); lia.
Qed.

Lemma average_kept_range dw : -1024 <= average_kept dw <= 1023.
Proof.
  pose proof (sbits_range (stored16 dw 0x11) 0 11 ltac:(lia)) as B. change (2 ^ (11 - 1)) with 1024 in B.
  unfold average_kept. lia.
Qed.

Lemma stored16_range data dw i : full_dump data -> corrected data dw -> In i reading_order ->
  In (i + 1)%nat reading_order -> 0 <= stored16 dw i < 65536.
Proof.
  intros Hd Hw H1 H2. rewrite <- (pair_stored data dw Hd Hw i H1 H2). apply joined_range, Hd.
Qed.

(** Where the lower word of a pair holds 5 bits the value is what the datasheet says. *)
Theorem C48_split_values : forall data dw i, full_dump data -> corrected data dw ->
  In i reading_order -> In (i + 1)%nat reading_order -> dw (i + 1)%nat < 32 ->
  stored16 dw i = 32 * dw i + dw (i + 1)%nat.
Proof.
  intros data dw i Hd Hw H1 H2 H. rewrite <- (pair_stored data dw Hd Hw i H1 H2).
  pose proof (dword_corrected data dw Hd Hw) as E.
  rewrite joined_small; [|apply Hd|rewrite (E _ H2); exact H]. rewrite (E _ H1), (E _ H2). reflexivity.
Qed.
Print Assumptions C48_split_values.

(** Refuted: "the offset of every pixel uses the stored 16-bit average": only its
    low 11 bits are kept, so (in 16-bit arithmetic) the decoded offset is the
    documented one exactly when the average is within -1024..1023. *)
Theorem C49_average_offset : forall FO p data dw (c : calib FO), full_dump data -> corrected data dw ->
  from_data641 FO p data = Ok c ->
  forall sp i, (i < 192)%nat -> ~ failed641 dw i ->
  (nth_error (offset_reference_pixels _ c sp) i = Some (shifted (doc_offset dw sp i)) <->
   -1024 <= average_offset dw <= 1023).
Proof.
  intros FO p data dw c Hd Hw Hc sp i Hi Hf.
  rewrite (C48_offset FO p data dw c Hd Hw Hc sp i Hi Hf).
  rewrite <- average_kept_iff by (apply (stored16_range data); [exact Hd|exact Hw|used|used]).
  unfold kept_offset, doc_offset. set (x := offset_raw dw sp i * 2 ^ offset_scale dw). split.
  - intros E. injection E as E. apply (f_equal (fun z => (z + 32768) mod 65536)) in E. unfold shifted in E.
    rewrite !Z.sub_add, !Z.mod_mod in E by lia.
    pose proof (average_kept_range dw) as B.
    assert (Ba : -32768 <= average_offset dw <= 32767).
    { unfold average_offset. pose proof (sext_range 16 (stored16 dw 0x11) ltac:(lia)) as R.
      change (2 ^ (16 - 1)) with 32768 in R. change (2 ^ 16) with 65536 in R.
      specialize (R (stored16_range data dw 0x11 Hd Hw ltac:(used) ltac:(used))). lia. }
    assert (E' : (average_kept dw + x + 32768 - (average_offset dw + x + 32768)) mod 65536 = 0).
    { rewrite Zminus_mod, E, Z.sub_diag. reflexivity. }
    replace (average_kept dw + x + 32768 - (average_offset dw + x + 32768))
      with (average_kept dw - average_offset dw) in E' by lia.
    apply Z.mod_divide in E'; [|lia]. destruct E' as [k Hk]. lia.
  - intros E. rewrite E. reflexivity.
Qed.
Print Assumptions C49_average_offset.

(** In that range, and when no 16-bit computation overflows, the offset is exactly
    the documented one. *)
Theorem C48_offset_exact : forall FO p data dw (c : calib FO), full_dump data -> corrected data dw ->
  from_data641 FO p data = Ok c -> -1024 <= average_offset dw <= 1023 ->
  forall sp i, (i < 192)%nat -> ~ failed641 dw i ->
  p = Debug \/ fits (doc_offset dw sp i) ->
  nth_error (offset_reference_pixels _ c sp) i = Some (doc_offset dw sp i).
Proof.
  intros FO p data dw c Hd Hw Hc Ha sp i Hi Hf Hp.
  rewrite (proj2 (C49_average_offset FO p data dw c Hd Hw Hc sp i Hi Hf) Ha). f_equal.
  apply shifted_id. destruct Hp as [->|Hp]; [|exact Hp].
  destruct (C45_debug_641 FO data dw Hd Hw) as [H _].
  destruct (fits_dec (doc_offset dw sp i)) as [F|F]; [exact F|].
  exfalso. assert (Hov : overflows641 dw).
  { right. exists i. split; [exact Hi|]. split; [exact Hf|]. exists sp. right.
    unfold kept_offset. rewrite (proj2 (average_kept_iff dw (stored16_range data dw 0x11 Hd Hw ltac:(used) ltac:(used))) Ha).
    exact F. }
  apply H in Hov. rewrite Hc in Hov. exact (ok_not_panic _ Hov).
Qed.
Print Assumptions C48_offset_exact.

(** ** C48 Integer parameters *)
Theorem C48_integer_parameters : forall FO p data dw (c : calib FO), full_dump data -> corrected data dw ->
  from_data641 FO p data = Ok c ->
  k_v_dd _ c = signed11 dw 0x27 * 32 /\
  v_dd_25 _ c = signed11 dw 0x26 * 32 /\
  cal_resolution _ c = doc_resolution (bits (dw 0x33%nat) 9 2) /\
  corner_temperatures _ c = [-40; -20; 0; 80; 120; dw 0x3A%nat; dw 0x3C%nat; dw 0x3E%nat] /\
  (forall sp, offset_reference_cp _ c sp = sext 16 (stored16 dw 0x2F)).
Proof.
  intros FO p data dw c Hd Hw Hc. rewrite (decoded_is641 FO p data Hd c Hc). unfold decoded641, record641.
  cbn [k_v_dd v_dd_25 cal_resolution corner_temperatures offset_reference_cp]. unfold signed11, corners641.
  pose proof (dword_corrected data dw Hd Hw) as E.
  rewrite (E 0x27%nat), (E 0x26%nat), (E 0x33%nat), (E 0x3A%nat), (E 0x3C%nat), (E 0x3E%nat) by used.
  split; [reflexivity|]. split; [reflexivity|]. split; [reflexivity|]. split; [reflexivity|].
  intros _. rewrite (pair_stored data dw Hd Hw 0x2F) by used. reflexivity.
Qed.
Print Assumptions C48_integer_parameters.

(** ** C52 The 6-5 split *)
(** Every word that is read (11 data bits) reassembles from the two parts. *)
Theorem C52_split_6_5 : forall w, 0 <= w < 2048 ->
  exists a b, split_6_5 w = (a, b) /\ 0 <= a < 64 /\ 0 <= b < 32 /\ w = 32 * a + b.
Proof.
  intros w Hw. exists (bits w 5 6), (bits w 0 5).
  assert (E : split_6_5 w = (bits w 5 6, bits w 0 5)).
  { unfold split_6_5. change 0x07E0 with (Z.shiftl (Z.ones 6) 5). rewrite high_field by lia.
    change 0x001F with (Z.ones 5). rewrite Z.land_ones by lia. unfold bits.
    change (2 ^ 0) with 1. rewrite Z.div_1_r. reflexivity. }
  split; [exact E|]. pose proof (bits_range w 5 6 ltac:(lia)) as B1. pose proof (bits_range w 0 5 ltac:(lia)) as B2.
  split; [exact B1|]. split; [exact B2|]. unfold bits. clear - Hw.
  change (2 ^ 0) with 1. change (2 ^ 5) with 32. change (2 ^ 6) with 64. rewrite Z.div_1_r.
  assert (0 <= w / 32 < 64) by (split; [apply Z.div_pos; lia|apply Z.div_lt_upper_bound; lia]).
  rewrite (Z.mod_small (w / 32) 64) by assumption. apply Z.div_mod. lia.
Qed.
Print Assumptions C52_split_6_5.

(** The parser for two constants in one word: corrected, then split. *)
Theorem C52_read_6_5 : forall hi lo rest d, byte hi -> byte lo -> corrects_to (256 * hi + lo) d ->
  get_6_5_split (hi :: lo :: rest) = Ok (split_6_5 d, rest) /\ 0 <= d < 2048.
Proof.
  intros hi lo rest d Hh Hl Hc.
  assert (Hw : word (256 * hi + lo)) by (unfold word, byte in *; lia).
  assert (E : validate_checksum (256 * hi + lo) = Ok d) by (apply validate_iff; assumption).
  split.
  - unfold get_6_5_split, get_hamming_u16, pbind, get_u16, plift, pret.
    replace (be16 hi lo) with (256 * hi + lo) by (unfold be16; lia). rewrite E. reflexivity.
  - destruct Hc as (c & _ & <- & _). unfold data_of. apply Z.mod_pos_bound. reflexivity.
Qed.
Print Assumptions C52_read_6_5.

(** ** C53 The decoder's corrections of the eight temperature ranges *)
Theorem C53_mlx90641 : forall FO p data c, full_dump data -> from_data641 FO p data = Ok c ->
  length (alpha_correction _ c) = 8%nat /\
  forall n, (n < 8)%nat -> nth_error (alpha_correction _ c) n =
    Some (range_correction (corner_temperatures _ c) (k_s_to _ c) 2 n).
Proof.
  intros FO p data c Hd Hc. rewrite (decoded_is641 FO p data Hd c Hc). unfold decoded641, record641.
  cbn [alpha_correction corner_temperatures k_s_to].
  rewrite map_length, seq_length. split; [reflexivity|].
  intros n Hn. apply nth_error_map_seq. exact Hn.
Qed.
Print Assumptions C53_mlx90641.

(** ** The datasheet's example *)
Definition dw641 : nat -> Z := dword datasheet641.

Lemma corrected_dword data : Forall byte data ->
  forallb (fun i => match validate_checksum (ee_word data i) with Ok _ => true | _ => false end) reading_order = true ->
  corrected data (dword data).
Proof.
  intros Hb H i Hi. rewrite forallb_forall in H. specialize (H i Hi). cbv beta in H.
  destruct (validate_checksum (ee_word data i)) as [d|e| |] eqn:E; try discriminate.
  assert (Ed : dword data i = d) by (unfold dword; rewrite E; reflexivity). rewrite Ed.
  apply (validate_iff _ _ (ee_word_word data Hb i)). exact E.
Qed.

Example C48_datasheet :
  corrected datasheet641 dw641 /\ pairs_ok dw641 /\ ~ failed641 dw641 0 /\
  -1024 <= average_offset dw641 <= 1023 /\ fits (doc_offset dw641 Zero 0) /\ ~ overflows641 dw641.
Proof.
  assert (Hc : corrected datasheet641 dw641).
  { apply corrected_dword; [apply datasheet641_full|]. vm_compute. reflexivity. }
  split; [exact Hc|]. split; [unfold pairs_ok; vm_compute; repeat split|].
  split; [unfold failed641; vm_compute; intros (H & _); discriminate|].
  split; [vm_compute; split; discriminate|]. split; [unfold fits; vm_compute; split; discriminate|].
  intros H. apply (C45_debug_641 ZFO datasheet641 dw641 datasheet641_full Hc) in H.
  assert (E : match from_data641 ZFO Debug datasheet641 with Panic => false | _ => true end = true)
    by (vm_compute; reflexivity).
  rewrite H in E. discriminate.
Qed.

(** A dump with failed pixel 3, average offset 2048 (decoded as 0) and offset
    scale 15: it panics with overflow checks and decodes without. *)
Definition odd641 : list Z :=
  bytes_of_words (map (fun iw => let '(i, w) := (iw : nat * Z) in
    if existsb (Nat.eqb i) [0x43; 0x103; 0x1C3; 0x283]%nat then 0
    else if Nat.eqb i 0x10 then encode (15 * 32) else if Nat.eqb i 0x11 then encode 64 else if Nat.eqb i 0x12 then encode 0
    else w) (combine (seq 0 (length words641)) words641)).
Example C49_average_2048 :
  full_dump odd641 /\ corrected odd641 (dword odd641) /\ average_offset (dword odd641) = 2048 /\
  average_kept (dword odd641) = 0 /\ failed641 (dword odd641) 3 /\ ~ failed641 (dword odd641) 4 /\
  overflows641 (dword odd641) /\
  match from_data641 ZFO Debug odd641 with Panic => true | _ => false end = true /\
  match from_data641 ZFO Release odd641 with Ok c => firstn 5 (failed_pixels _ c) | _ => [] end
  = [false; false; false; true; false].
Proof.
  assert (Hf : full_dump odd641).
  { split; [apply forallb_bytes; vm_compute; reflexivity|]. apply Nat.leb_le. vm_compute. reflexivity. }
  split; [exact Hf|]. split; [apply corrected_dword; [apply Hf|vm_compute; reflexivity]|].
  split; [vm_compute; reflexivity|]. split; [vm_compute; reflexivity|].
  split; [unfold failed641; vm_compute; repeat split|].
  split; [unfold failed641; vm_compute; intros (H & _); discriminate|].
  split; [left; unfold fits; vm_compute; intros [_ H]; apply H; reflexivity|].
  split; vm_compute; reflexivity.
Qed.
