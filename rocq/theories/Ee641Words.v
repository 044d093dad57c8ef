(** * Ee641Words: what the decoder of the MLX90641 depends on and when it fails. *)
From Verif Require Import Base FloatOps Register Bus Camera Cam641 Hamming SpecRegister SpecHamming
  HammingFacts SpecEeprom ParseFacts FieldFacts SpecRange RangeFacts Spec641 Ee641 Ee641Facts Ee641Closed.

Lemma used_word i : existsb (Nat.eqb i) reading_order = true -> In i reading_order.
Proof. intros H. apply existsb_exists in H. destruct H as (j & Hj & E). apply Nat.eqb_eq in E. subst j. exact Hj. Qed.
Ltac used := apply used_word; vm_compute; reflexivity.

Lemma used_scalar i : In i scalar_words -> In i reading_order.
Proof. intros H. unfold reading_order. apply in_or_app. left. exact H. Qed.

Lemma used_pixel i w : (i < 192)%nat -> In w (pixel_words i) -> In w reading_order.
Proof.
  intros Hi H. unfold reading_order. apply in_or_app. right. apply in_flat_map. exists i.
  split; [apply in_seq; lia|exact H].
Qed.
Lemma used_offset0 i : (i < 192)%nat -> In (offset0_word i) reading_order.
Proof. intros H. apply (used_pixel i); [exact H|]. left. reflexivity. Qed.
Lemma used_offset1 i : (i < 192)%nat -> In (offset1_word i) reading_order.
Proof. intros H. apply (used_pixel i); [exact H|]. right. left. reflexivity. Qed.
Lemma used_alpha i : (i < 192)%nat -> In (alpha_word i) reading_order.
Proof. intros H. apply (used_pixel i); [exact H|]. right. right. left. reflexivity. Qed.
Lemma used_constants i : (i < 192)%nat -> In (constants_word i) reading_order.
Proof. intros H. apply (used_pixel i); [exact H|]. right. right. right. left. reflexivity. Qed.

Lemma used_below i : In i reading_order -> (i < 832)%nat.
Proof.
  unfold reading_order. intros H. apply in_app_or in H. destruct H as [H|H].
  - unfold scalar_words in H. apply in_app_or in H. destruct H as [H|H]; [apply in_seq in H; lia|].
    apply in_app_or in H. destruct H as [H|H]; apply in_seq in H; lia.
  - apply in_flat_map in H. destruct H as (j & Hj & H). apply in_seq in Hj.
    unfold pixel_words, offset0_word, offset1_word, alpha_word, constants_word in H. cbn [In] in H. lia.
Qed.

(** ** Correction *)
Lemma corrects_dword data i d : Forall byte data -> corrects_to (ee_word data i) d ->
  dword data i = d /\ validate_checksum (ee_word data i) = Ok d.
Proof.
  intros Hb H. assert (E : validate_checksum (ee_word data i) = Ok d).
  { apply (validate_iff _ _ (ee_word_word data Hb i)). exact H. }
  split; [|exact E]. unfold dword. rewrite E. reflexivity.
Qed.

Lemma correctable_iff data i : Forall byte data ->
  correctable (ee_word data i) <-> exists d, validate_checksum (ee_word data i) = Ok d.
Proof.
  intros Hb. split; intros [d H]; exists d; apply (validate_iff _ _ (ee_word_word data Hb i)); exact H.
Qed.

Lemma correctable_dec data i : Forall byte data ->
  correctable (ee_word data i) \/ ~ correctable (ee_word data i).
Proof.
  intros Hb. destruct (validate_outcome _ (ee_word_word data Hb i)) as [(d & E & _)|E].
  - left. apply correctable_iff; [exact Hb|]. exists d. exact E.
  - right. intros H. apply correctable_iff in H; [|exact Hb]. destruct H as [d H]. rewrite E in H. discriminate.
Qed.

Lemma trouble_word_ok p data i : Forall byte data -> (2 * i + 1 < length data)%nat ->
  trouble_of p data (Word i) = None <-> correctable (ee_word data i).
Proof.
  intros Hb Hl. rewrite correctable_iff by exact Hb. cbn [trouble_of].
  destruct (Nat.ltb_spec (2 * i + 1) (length data)); [|lia].
  destruct (validate_outcome _ (ee_word_word data Hb i)) as [(d & E & _)|E]; rewrite E.
  - split; [intros _; exists d; reflexivity|reflexivity].
  - split; [discriminate|intros [d Hv]; discriminate].
Qed.

Lemma trouble_word_bad p data i : Forall byte data -> (2 * i + 1 < length data)%nat ->
  ~ correctable (ee_word data i) -> trouble_of p data (Word i) = Some (Uncorrectable (ee_word data i)).
Proof.
  intros Hb Hl Hn. cbn [trouble_of]. destruct (Nat.ltb_spec (2 * i + 1) (length data)); [|lia].
  destruct (validate_outcome _ (ee_word_word data Hb i)) as [(d & E & _)|E]; rewrite E; [|reflexivity].
  exfalso. apply Hn, correctable_iff; [exact Hb|]. exists d. exact E.
Qed.

(** ** Sequences of steps *)
Definition word_of (s : step) : list nat := match s with Word i => [i] | _ => [] end.
Definition words_of (l : list step) : list nat := flat_map word_of l.

Lemma words_of_app a b : words_of (a ++ b) = words_of a ++ words_of b.
Proof. apply flat_map_app. Qed.
Lemma words_of_map l : words_of (map Word l) = l.
Proof. induction l as [|x l IH]; [reflexivity|]. cbn [map words_of flat_map word_of app] in *. f_equal. exact IH. Qed.

Lemma first_trouble_none p data l :
  first_trouble p data l = None <-> forall s, In s l -> trouble_of p data s = None.
Proof.
  induction l as [|s l IH]; cbn [first_trouble In].
  - split; [intros _ s []|reflexivity].
  - destruct (trouble_of p data s) eqn:E.
    + split; [discriminate|]. intros H. specialize (H s (or_introl eq_refl)). congruence.
    + rewrite IH. split.
      * intros H s' [<-|Hs']; [exact E|apply H, Hs'].
      * intros H s' Hs'. apply H. right. exact Hs'.
Qed.

Lemma first_trouble_some p data l t : first_trouble p data l = Some t ->
  exists s, In s l /\ trouble_of p data s = Some t.
Proof.
  induction l as [|s l IH]; [discriminate|]. cbn [first_trouble].
  destruct (trouble_of p data s) eqn:E.
  - intros H. injection H as <-. exists s. split; [left; reflexivity|exact E].
  - intros H. destruct (IH H) as (s' & Hs' & Et). exists s'. split; [right; exact Hs'|exact Et].
Qed.

Lemma first_trouble_words p data l :
  (forall s, In s l -> word_of s = [] -> trouble_of p data s = None) ->
  first_trouble p data l = first_trouble p data (map Word (words_of l)).
Proof.
  induction l as [|s l IH]; intros H; [reflexivity|]. cbn [first_trouble words_of flat_map].
  rewrite IH by (intros s' Hs'; apply H; right; exact Hs').
  destruct s as [i|z|n|]; [reflexivity|..]; rewrite H by (try reflexivity; left; reflexivity); reflexivity.
Qed.

(** ** Words of the whole sequence *)
Lemma words_of_checks data i : words_of (pixel_checks data i) = [].
Proof. unfold pixel_checks. destruct (failedb data i); reflexivity. Qed.
Lemma words_of_pixel data i : words_of (pixel_steps data i) = pixel_words i.
Proof. unfold pixel_steps. rewrite words_of_app, words_of_map, words_of_checks, app_nil_r. reflexivity. Qed.
Lemma words_of_flat data l : words_of (flat_map (pixel_steps data) l) = flat_map pixel_words l.
Proof.
  induction l as [|i l IH]; [reflexivity|]. cbn [flat_map].
  rewrite words_of_app, words_of_pixel, IH. reflexivity.
Qed.

Lemma available_full data : (1664 <= length data)%nat -> available data = 192%nat.
Proof.
  intros H. unfold available. pose proof (Nat.div_mod (length data - 1280) 2 ltac:(lia)).
  pose proof (Nat.mod_upper_bound (length data - 1280) 2 ltac:(lia)). lia.
Qed.

Definition first_words (n : nat) : list nat := scalar_words ++ flat_map pixel_words (seq 0 n).

Lemma words_of_all data : words_of (all_steps data) = first_words (available data).
Proof.
  unfold all_steps, per_pixel_steps, first_words, scalar_words.
  rewrite !words_of_app, words_of_flat.
  change (words_of header_steps) with (seq 0x22 30).
  change (words_of (scale_steps data)) with (seq 0x10 3 ++ seq 0x15 13).
  change (words_of [Room 1280]) with (@nil nat). change (words_of [Filled]) with (@nil nat).
  rewrite app_nil_r. cbn [app]. rewrite !app_assoc. reflexivity.
Qed.

(** The steps that are not words. *)
Lemma other_steps data s : In s (all_steps data) -> word_of s = [] ->
  (exists z, s = Check z) \/ (exists n, s = Room n /\ (n <= 1280)%nat) \/ s = Filled.
Proof.
  intros H Hw. destruct s as [i|z|n|].
  - discriminate Hw.
  - left. exists z. reflexivity.
  - right. left. exists n. split; [reflexivity|].
    unfold all_steps, per_pixel_steps, header_steps, scale_steps in H.
    repeat rewrite in_app_iff in H. cbn [In] in H.
    repeat match goal with
      | H : _ \/ _ |- _ => destruct H
      | H : Room _ = Room _ |- _ => injection H as <-; lia
      | H : In (Room _) (map Word _) |- _ => apply in_map_iff in H; destruct H as (? & ? & _)
      | H : _ = Room _ |- _ => discriminate H
      | H : False |- _ => destruct H
      end.
    apply in_flat_map in H. destruct H as (i & _ & H). unfold pixel_steps in H. apply in_app_or in H.
    destruct H as [H|H]; [apply in_map_iff in H; destruct H as (? & ? & _); discriminate|].
    unfold pixel_checks in H. destruct (failedb data i); cbn [In] in H;
      repeat match goal with H : _ \/ _ |- _ => destruct H | H : _ = Room _ |- _ => discriminate H | H : False |- _ => destruct H end.
  - right. right. reflexivity.
Qed.

Lemma release_trouble data : (1664 <= length data)%nat ->
  first_trouble Release data (all_steps data) = first_trouble Release data (map Word reading_order).
Proof.
  intros H. rewrite first_trouble_words.
  - rewrite words_of_all, (available_full data H). reflexivity.
  - intros s Hs Hw. destruct (other_steps data s Hs Hw) as [[z ->]|[(n & -> & Hn)| ->]]; cbn [trouble_of].
    + reflexivity.
    + destruct (Nat.leb_spec n (length data)); [reflexivity|lia].
    + destruct (Nat.leb_spec 1664 (length data)); [reflexivity|lia].
Qed.

(** ** Dependence on the data words *)
Section Same.
Context (data1 data2 : list Z)
  (H : forall i, In i reading_order -> dword data1 i = dword data2 i).

Lemma same_failedb i : (i < 192)%nat -> failedb data1 i = failedb data2 i.
Proof.
  intros Hi. unfold failedb, signed11, kta_raw, kv_raw.
  rewrite (H _ (used_offset0 i Hi)), (H _ (used_offset1 i Hi)), (H _ (used_alpha i Hi)), (H _ (used_constants i Hi)).
  reflexivity.
Qed.

Lemma same_average : average_used data1 = average_used data2.
Proof. unfold average_used, joined. rewrite (H 0x11 ltac:(used)), (H (0x11 + 1) ltac:(used)). reflexivity. Qed.
Lemma same_scale : offset_scale (dword data1) = offset_scale (dword data2).
Proof. unfold offset_scale. rewrite (H 0x10 ltac:(used)). reflexivity. Qed.
Lemma same_scale_used : scale_used data1 = scale_used data2.
Proof. unfold scale_used. rewrite same_scale. reflexivity. Qed.

Lemma same_checks i : (i < 192)%nat -> pixel_checks data1 i = pixel_checks data2 i.
Proof.
  intros Hi. unfold pixel_checks, signed11. rewrite (same_failedb i Hi), same_average, same_scale_used.
  rewrite (H _ (used_offset0 i Hi)), (H _ (used_offset1 i Hi)). reflexivity.
Qed.

Lemma same_steps : available data1 = available data2 -> all_steps data1 = all_steps data2.
Proof.
  intros Ha. unfold all_steps, per_pixel_steps. rewrite Ha.
  assert (Es : scale_steps data1 = scale_steps data2) by (unfold scale_steps; rewrite same_scale; reflexivity).
  rewrite Es. f_equal. f_equal. f_equal. f_equal.
  rewrite !flat_map_concat_map. f_equal. apply map_ext_in. intros i Hi. apply in_seq in Hi.
  unfold pixel_steps. rewrite same_checks; [reflexivity|]. unfold available in Hi. lia.
Qed.

Lemma same_reference FO g : (g < 6)%nat -> reference_of FO data1 g = reference_of FO data2 g.
Proof.
  intros Hg. unfold reference_of, row_max, alpha_scale.
  assert (H1 : In (0x1C + g)%nat reading_order) by (do 6 (destruct g as [|g]; [used|]); lia).
  assert (H2 : In (0x19 + g / 2)%nat reading_order) by (do 6 (destruct g as [|g]; [used|]); lia).
  rewrite (H _ H1), (H _ H2). reflexivity.
Qed.

Lemma same_pixel FO i : (i < 192)%nat -> pixel_value FO data1 i = pixel_value FO data2 i.
Proof.
  intros Hi. unfold pixel_value. rewrite (same_failedb i Hi). destruct (failedb data2 i); [reflexivity|].
  unfold offset_of, signed11, kta_raw, kv_raw, kta_average641, kv_average641, kta_scale_1_641, kta_scale_2_641,
    kv_scale_1_641, kv_scale_2_641, signed11.
  rewrite same_average, same_scale_used, (same_reference FO (i / 32)) by (apply Nat.div_lt_upper_bound; lia).
  rewrite (H _ (used_offset0 i Hi)), (H _ (used_offset1 i Hi)), (H _ (used_alpha i Hi)), (H _ (used_constants i Hi)).
  rewrite (H 0x15 ltac:(used)), (H 0x16 ltac:(used)), (H 0x17 ltac:(used)), (H 0x18 ltac:(used)). reflexivity.
Qed.

Lemma same_record FO pixels : record641 FO data1 pixels = record641 FO data2 pixels.
Proof.
  unfold record641, cp_constant, ksto641, ksto_words, corners641, joined, signed11. cbn [map].
  rewrite (H 0x22 ltac:(used)), (H 0x23 ltac:(used)), (H 0x24 ltac:(used)), (H (0x24 + 1) ltac:(used)),
    (H 0x26 ltac:(used)), (H 0x27 ltac:(used)), (H 0x28 ltac:(used)), (H (0x28 + 1) ltac:(used)),
    (H 0x2A ltac:(used)), (H 0x2B ltac:(used)), (H 0x2C ltac:(used)), (H 0x2D ltac:(used)), (H 0x2E ltac:(used)),
    (H 0x2F ltac:(used)), (H (0x2F + 1) ltac:(used)), (H 0x31 ltac:(used)), (H 0x32 ltac:(used)), (H 0x33 ltac:(used)),
    (H 0x34 ltac:(used)), (H 0x35 ltac:(used)), (H 0x36 ltac:(used)), (H 0x37 ltac:(used)), (H 0x38 ltac:(used)),
    (H 0x39 ltac:(used)), (H 0x3A ltac:(used)), (H 0x3B ltac:(used)), (H 0x3C ltac:(used)), (H 0x3D ltac:(used)),
    (H 0x3E ltac:(used)), (H 0x3F ltac:(used)).
  reflexivity.
Qed.

Lemma same_decoded FO : decoded641 FO data1 = decoded641 FO data2.
Proof.
  unfold decoded641. rewrite same_record. apply (f_equal (record641 FO data2)).
  apply map_ext_in. intros i Hi. apply in_seq in Hi. apply same_pixel. lia.
Qed.
End Same.

Lemma same_troubles p data1 data2 l : (1664 <= length data1)%nat -> (1664 <= length data2)%nat ->
  Forall byte data1 -> Forall byte data2 ->
  (forall s, In s l -> match s with
     | Word i => (i < 832)%nat /\ (validate_checksum (ee_word data1 i) = validate_checksum (ee_word data2 i))
     | Room n => (n <= 1280)%nat
     | _ => True end) ->
  first_trouble p data1 l = first_trouble p data2 l.
Proof.
  intros L1 L2 H1 H2. induction l as [|s l IH]; intros H; [reflexivity|]. cbn [first_trouble].
  rewrite IH by (intros s' Hs'; apply H; right; exact Hs').
  assert (E : trouble_of p data1 s = trouble_of p data2 s); [|rewrite E; reflexivity].
  specialize (H s (or_introl eq_refl)). destruct s as [i|z|n|]; cbn [trouble_of].
  - destruct H as [Hi Hv]. destruct (Nat.ltb_spec (2 * i + 1) (length data1)); [|lia].
    destruct (Nat.ltb_spec (2 * i + 1) (length data2)); [|lia].
    destruct (validate_outcome _ (ee_word_word data1 H1 i)) as [(d & E & _)|E]; rewrite Hv, ?E.
    + rewrite Hv in E. rewrite E. reflexivity.
    + rewrite E in Hv. destruct (validate_outcome _ (ee_word_word data2 H2 i)) as [(d & E' & _)|E'];
        rewrite E' in Hv |- *; [discriminate|]. injection Hv as ->. reflexivity.
  - reflexivity.
  - destruct (Nat.leb_spec n (length data1)); [|lia]. destruct (Nat.leb_spec n (length data2)); [|lia]. reflexivity.
  - destruct (Nat.leb_spec 1664 (length data1)); [|lia]. destruct (Nat.leb_spec 1664 (length data2)); [|lia]. reflexivity.
Qed.

Theorem from_data641_words FO p data1 data2 :
  Forall byte data1 -> Forall byte data2 -> (1664 <= length data1)%nat -> (1664 <= length data2)%nat ->
  (forall i, In i reading_order -> validate_checksum (ee_word data1 i) = validate_checksum (ee_word data2 i)) ->
  from_data641 FO p data1 = from_data641 FO p data2.
Proof.
  intros H1 H2 L1 L2 H. rewrite !from_data641_closed by assumption.
  assert (Hd : forall i, In i reading_order -> dword data1 i = dword data2 i)
    by (intros i Hi; unfold dword; rewrite (H i Hi); reflexivity).
  rewrite (same_decoded data1 data2 Hd FO).
  rewrite (same_steps data1 data2 Hd) by (rewrite !available_full by assumption; reflexivity).
  f_equal. apply same_troubles; try assumption.
  intros s Hs. destruct s as [i|z|n|]; [|exact I| |exact I].
  - assert (Hi : In i reading_order).
    { unfold reading_order. fold (first_words 192). rewrite <- (available_full data2 L2), <- words_of_all.
      unfold words_of. apply in_flat_map. exists (Word i). split; [exact Hs|left; reflexivity]. }
    split; [exact (used_below i Hi)|exact (H i Hi)].
  - destruct (other_steps data2 (Room n) Hs eq_refl) as [[z E]|[(n' & E & Hn)|E]]; try discriminate.
    injection E as ->. exact Hn.
Qed.
