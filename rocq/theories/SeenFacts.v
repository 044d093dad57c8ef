(** * SeenFacts: the data delivered during a frame always form a memory. *)
From Verif Require Import Base FloatOps Register Bus Camera Cam640 Cam641 SpecRegister SpecCamera CameraFacts BitFacts.

(** The words delivered by the reads of a transcript. *)
Fixpoint seen {ER EW} (evs : list (event ER EW)) (a : Z) : Z :=
  match evs with
  | [] => 0
  | EvRead _ [hi; lo] data None :: rest =>
      let j := a - (256 * hi + lo) in
      if (0 <=? j) && (2 * j + 1 <? Z.of_nat (length data)) then word_at data (Z.to_nat j) else seen rest a
  | _ :: rest => seen rest a
  end.

Definition event_bytes {ER EW} (x : event ER EW) : Prop :=
  match x with EvRead _ _ data _ => Forall byte data | _ => True end.

Definition covers (rd : Z * nat) (a : Z) : Prop := fst rd <= a /\ 2 * (a - fst rd) + 1 < Z.of_nat (snd rd).
Definition apart (x y : Z * nat) : bool :=
  (2 * (fst x) + Z.of_nat (snd x) <=? 2 * fst y) || (2 * (fst y) + Z.of_nat (snd y) <=? 2 * fst x).
Fixpoint all_apart (l : list (Z * nat)) : bool :=
  match l with [] => true | x :: r => forallb (apart x) r && all_apart r end.
Definition proper (rd : Z * nat) : bool := (0 <=? fst rd) && (fst rd <? 65536) && Nat.even (snd rd).

Lemma apart_covers x y a : apart x y = true -> covers x a -> covers y a -> False.
Proof.
  unfold apart, covers. intros H [H1 H2] [H3 H4]. apply orb_prop in H.
  destruct H as [H|H]; apply Z.leb_le in H; lia.
Qed.

Lemma word_at_word data j : Forall byte data -> word (word_at data j).
Proof.
  intros H. assert (Hn : forall i, byte (nth i data 0)).
  { intros i. destruct (nth_in_or_default i data 0) as [Hi|Hi].
    - rewrite Forall_forall in H. apply H, Hi.
    - rewrite Hi. unfold byte. lia. }
  pose proof (Hn (2 * j)%nat). pose proof (Hn (2 * j + 1)%nat). unfold word_at, word, byte in *. lia.
Qed.

Lemma seen_word {ER EW} (evs : list (event ER EW)) a : Forall event_bytes evs -> word (seen evs a).
Proof.
  induction 1 as [|x evs Hx _ IH]; cbn [seen]; [unfold word; lia|].
  destruct x as [i2c wb data err|i2c bytes err]; [|exact IH].
  destruct wb as [|hi [|lo [|]]]; try exact IH. destruct err; [exact IH|].
  destruct ((0 <=? a - (256 * hi + lo)) && (2 * (a - (256 * hi + lo)) + 1 <? Z.of_nat (length data))); [|exact IH].
  apply word_at_word, Hx.
Qed.

Lemma mem_bytes_ext m1 m2 a n : Nat.even n = true ->
  (forall x, covers (a, n) x -> m1 x = m2 x) -> mem_bytes m1 a n = mem_bytes m2 a n.
Proof.
  intros He H. unfold mem_bytes. apply map_ext_in. intros j Hj. apply in_seq in Hj. unfold mem_byte.
  rewrite H; [reflexivity|]. unfold covers. cbn [fst snd].
  apply Nat.even_spec in He. destruct He as [k ->].
  pose proof (Nat.div_mod j 2 ltac:(lia)). pose proof (Nat.mod_upper_bound j 2 ltac:(lia)). lia.
Qed.

Lemma mem_bytes_data m a data : Forall byte data -> Nat.even (length data) = true ->
  (forall j, (2 * j + 1 < length data)%nat -> m (a + Z.of_nat j) = word_at data j) ->
  data = mem_bytes m a (length data).
Proof.
  intros Hb He H. apply nth_ext with (d := 0) (d' := 0); [rewrite mem_bytes_length; reflexivity|].
  intros i Hi. rewrite mem_bytes_nth by exact Hi. unfold mem_byte.
  assert (Hn : forall i, byte (nth i data 0)).
  { intros k. destruct (nth_in_or_default k data 0) as [Hk|Hk].
    - rewrite Forall_forall in Hb. apply Hb, Hk.
    - rewrite Hk. unfold byte. lia. }
  apply Nat.even_spec in He. destruct He as [k Hk].
  rewrite H.
  2:{ pose proof (Nat.div_mod i 2 ltac:(lia)). pose proof (Nat.mod_upper_bound i 2 ltac:(lia)). lia. }
  unfold word_at. pose proof (Hn (2 * (i / 2))%nat) as B1. pose proof (Hn (2 * (i / 2) + 1)%nat) as B2. unfold byte in *.
  destruct (Nat.even i) eqn:Ei.
  - apply Nat.even_spec in Ei. destruct Ei as [q ->].
    replace (2 * q / 2)%nat with q in * by (symmetry; rewrite Nat.mul_comm; apply Nat.div_mul; lia).
    rewrite Z.mul_comm, Z.div_add_l by lia. rewrite Z.div_small by lia. lia.
  - assert (Ho : Nat.odd i = true) by (rewrite <- Nat.negb_even, Ei; reflexivity).
    apply Nat.odd_spec in Ho. destruct Ho as [q ->].
    replace ((2 * q + 1) / 2)%nat with q in * by (apply (Nat.div_unique _ 2 q 1); lia).
    rewrite Z.mul_comm, Z.add_comm, Z.mod_add by lia. rewrite Z.mod_small by lia. reflexivity.
Qed.

Lemma be_address a hi lo : [a / 256; a mod 256] = [hi; lo] -> 256 * hi + lo = a.
Proof. intros E. injection E as <- <-. symmetry. apply Z_div_mod_eq_full. Qed.

Lemma seen_shows {ER EW} i2c reads (evs : list (event ER EW)) :
  Forall2 (good_read i2c) reads evs -> Forall event_bytes evs ->
  forallb proper reads = true -> all_apart reads = true -> Forall (shows (seen evs)) evs.
Proof.
  intros H. induction H as [|rd ev reads evs (data & -> & Hl) H IH]; intros Hb Hp Ha; [constructor|].
  inversion Hb as [|? ? Hb1 Hb2]; subst. cbn [event_bytes] in Hb1.
  cbn [forallb] in Hp. apply andb_prop in Hp. destruct Hp as [Hp1 Hp2].
  cbn [all_apart] in Ha. apply andb_prop in Ha. destruct Ha as [Ha1 Ha2].
  unfold proper in Hp1. apply andb_prop in Hp1. destruct Hp1 as [Hp1 He].
  assert (Hfst : 256 * (fst rd / 256) + fst rd mod 256 = fst rd) by (symmetry; apply Z_div_mod_eq_full).
  constructor.
  - cbn [shows]. intros a E. apply be_address in E. rewrite <- Z_div_mod_eq_full in E. subst a.
    apply mem_bytes_data; [exact Hb1|rewrite Hl; exact He|].
    intros j Hj. cbn [seen]. rewrite Hfst.
    replace (fst rd + Z.of_nat j - fst rd) with (Z.of_nat j) by lia.
    replace (0 <=? Z.of_nat j) with true by (symmetry; apply Z.leb_le; lia).
    replace (2 * Z.of_nat j + 1 <? Z.of_nat (length data)) with true by (symmetry; apply Z.ltb_lt; lia).
    cbn [andb]. rewrite Nat2Z.id. reflexivity.
  - specialize (IH Hb2 Hp2 Ha2).
    assert (G : Forall2 (fun r x => apart rd r = true /\ proper r = true /\ good_read i2c r x) reads evs).
    { clear -H Ha1 Hp2. induction H as [|r x reads evs Hg _ IH]; constructor.
      - cbn [forallb] in Ha1, Hp2. apply andb_prop in Ha1. apply andb_prop in Hp2. tauto.
      - cbn [forallb] in Ha1, Hp2. apply andb_prop in Ha1. apply andb_prop in Hp2. apply IH; tauto. }
    revert IH. set (rest := seen evs) at 1.
    assert (Hsame : forall a, ~ covers rd a -> seen (EvRead i2c [fst rd / 256; fst rd mod 256] data None :: evs) a = rest a).
    { intros a Hn. cbn [seen]. rewrite Hfst.
      destruct ((0 <=? a - fst rd) && (2 * (a - fst rd) + 1 <? Z.of_nat (length data))) eqn:Ec; [|reflexivity].
      exfalso. apply Hn. apply andb_prop in Ec. destruct Ec as [E1 E2]. apply Z.leb_le in E1. apply Z.ltb_lt in E2.
      unfold covers. rewrite Hl in E2. lia. }
    clear -G Hsame. revert Hsame. generalize (seen (EvRead i2c [fst rd / 256; fst rd mod 256] data None :: evs)) as big.
    clearbody rest. intros big Hsame. induction G as [|r x reads evs (Hap & Hpr & dat & -> & Hl) G IH]; intros Hs; constructor.
    + inversion Hs as [|? ? Hs1 _]; subst. cbn [shows] in *. intros a E. rewrite (Hs1 a E) at 1.
      apply be_address in E. unfold proper in Hpr. apply andb_prop in Hpr. destruct Hpr as [_ Hpr].
      apply mem_bytes_ext; [rewrite Hl; exact Hpr|].
      intros y Hy. symmetry. apply Hsame. intros Hc. eapply (apart_covers rd r y); [exact Hap|exact Hc|].
      destruct r as [ra rn]. cbn [fst snd] in *. subst rn.
      rewrite <- Z_div_mod_eq_full in E. subst ra. exact Hy.
    + inversion Hs; subst. apply IH. assumption.
Qed.

Lemma frame_reads_proper {FO : FloatOps} (c : camera FO) lay sp ap : documented c lay ->
  forallb proper (frame_reads lay sp ap) = true /\ all_apart (frame_reads lay sp ap) = true.
Proof. intros Hd. destruct Hd, sp, ap; vm_compute; split; reflexivity. Qed.

(** ** All delivered data are bytes *)
Section Bytes.
Context {FO : FloatOps} {B ER EW : Type} (bs : bus B ER EW).
Notation W := (world B ER EW).

Lemma clip_bytes buf out : Forall byte buf -> Forall byte (clip buf out).
Proof.
  intros Hb. unfold clip. apply Forall_forall. intros x Hx.
  assert (In x (map (fun b => b mod 256) out ++ skipn (length out) buf)) as Hin.
  { revert Hx. generalize (map (fun b => b mod 256) out ++ skipn (length out) buf). intros l Hx.
    rewrite <- (firstn_skipn (length buf) l). apply in_app_iff. left. exact Hx. }
  apply in_app_iff in Hin. destruct Hin as [Hin|Hin].
  - apply in_map_iff in Hin. destruct Hin as (b & <- & _). apply Z.mod_pos_bound. lia.
  - rewrite Forall_forall in Hb. apply Hb. rewrite <- (firstn_skipn (length out) buf).
    apply in_app_iff. right. exact Hin.
Qed.

Lemma write_read_bytes i2c wb buf (w : W) data e w' : Forall byte buf ->
  write_read bs i2c wb buf w = (data, e, w') ->
  Forall byte data /\ exists x, trace w' = trace w ++ [x] /\ event_bytes x.
Proof.
  intros Hb H. unfold write_read in H. destruct (dev_write_read bs (dev w) i2c wb buf) as [[b out] e0].
  injection H as <- <- <-. pose proof (clip_bytes buf out Hb) as Hc. split; [exact Hc|].
  eexists. split; [reflexivity|]. exact Hc.
Qed.

Lemma zero_bytes : Forall byte [0; 0].
Proof. repeat constructor; unfold byte; lia. Qed.

Lemma read_ram_value_bytes i2c a (w : W) r w' : read_ram_value bs i2c a w = (r, w') ->
  exists x, trace w' = trace w ++ [x] /\ event_bytes x.
Proof.
  unfold read_ram_value. destruct (write_read bs i2c (to_be_bytes a) [0; 0] w) as [[data e] w0] eqn:E.
  apply write_read_bytes in E; [|apply zero_bytes]. destruct E as (_ & x & Ht & Hx). intros H. exists x.
  destruct e; injection H as _ <-; auto.
Qed.

Definition grew (w w' : W) : Prop := exists evs, trace w' = trace w ++ evs /\ Forall event_bytes evs.
Lemma grew_refl w : grew w w.
Proof. exists []. rewrite app_nil_r. auto. Qed.
Lemma grew_one (w w1 w2 : W) x : grew w w1 -> trace w2 = trace w1 ++ [x] -> event_bytes x -> grew w w2.
Proof.
  intros (evs & Ht & Hf) Ht2 Hx. exists (evs ++ [x]). rewrite Ht2, Ht, app_assoc. split; [reflexivity|].
  apply Forall_app. auto.
Qed.

Lemma firstn_In {A} (l : list A) n x : In x (firstn n l) -> In x l.
Proof. intros H. rewrite <- (firstn_skipn n l). apply in_app_iff. auto. Qed.
Lemma skipn_In {A} (l : list A) n x : In x (skipn n l) -> In x l.
Proof. intros H. rewrite <- (firstn_skipn n l). apply in_app_iff. auto. Qed.

Lemma read_ranges_bytes i2c rs : forall buf (w : W) r buf' w', Forall byte buf ->
  read_ranges bs i2c rs buf w = (r, buf', w') -> Forall byte buf' /\ grew w w'.
Proof.
  induction rs as [|rg rs IH]; intros buf w r buf' w' Hb H; cbn [read_ranges] in H.
  - injection H as _ <- <-. split; [exact Hb|apply grew_refl].
  - destruct (Nat.ltb (length buf) (buffer_offset rg + range_length rg)).
    { injection H as _ <- <-. split; [exact Hb|apply grew_refl]. }
    destruct (write_read bs i2c (to_be_bytes (start_address rg))
      (firstn (range_length rg) (skipn (buffer_offset rg) buf)) w) as [[data e] w0] eqn:Hw.
    assert (Hs : Forall byte (firstn (range_length rg) (skipn (buffer_offset rg) buf))).
    { rewrite Forall_forall in *. intros x Hx. apply Hb. eapply skipn_In, firstn_In, Hx. }
    apply write_read_bytes in Hw; [|exact Hs]. destruct Hw as (Hd & x & Ht & Hx).
    assert (Hb' : Forall byte (splice buf (buffer_offset rg) data)).
    { unfold splice. rewrite Forall_forall in *. intros y Hy.
      apply in_app_iff in Hy. destruct Hy as [Hy|Hy]; [apply Hb; eapply firstn_In, Hy|].
      apply in_app_iff in Hy. destruct Hy as [Hy|Hy]; [apply Hd, Hy|apply Hb; eapply skipn_In, Hy]. }
    assert (Hg : grew w w0) by (eapply grew_one; [apply grew_refl|exact Ht|exact Hx]).
    destruct e as [e|]; [injection H as _ <- <-; auto|].
    destruct (IH _ _ _ _ _ Hb' H) as [Hb2 (evs2 & Ht2 & Hf2)]. split; [exact Hb2|].
    destruct Hg as (evs1 & Ht1 & Hf1). exists (evs1 ++ evs2). rewrite Ht2, Ht1, app_assoc.
    split; [reflexivity|apply Forall_app; auto].
Qed.

Lemma read_ram_bytes (c : camera FO) height i2c ap sp buf (w : W) r buf' w' : Forall byte buf ->
  read_ram bs c height i2c ap sp buf w = (r, buf', w') -> Forall byte buf' /\ grew w w'.
Proof.
  unfold read_ram. intros Hb H.
  destruct (Nat.ltb height (length (pixel_ranges _ c sp ap))); [injection H as _ <- <-; split; [exact Hb|apply grew_refl]|].
  destruct (read_ranges bs i2c (pixel_ranges _ c sp ap) buf w) as [[r0 buf0] w0] eqn:Hr.
  destruct (read_ranges_bytes _ _ _ _ _ _ _ Hb Hr) as [Hb0 H0].
  destruct r0 as [u| | |]; try (injection H as _ <- <-; auto).
  destruct (ram_data_from_i2c bs c i2c sp w0) as [r2 w2] eqn:Hd. injection H as _ <- <-. split; [exact Hb0|].
  clear Hr. unfold ram_data_from_i2c, bindS in Hd.
  destruct (read_ram_value bs i2c (T_A_V_BE _ c) w0) as [r1 w1] eqn:R1; apply read_ram_value_bytes in R1;
    destruct R1 as (x1 & T1 & X1); pose proof (grew_one _ _ _ _ H0 T1 X1) as G1.
  destruct r1; try (injection Hd as _ <-; exact G1).
  destruct (read_ram_value bs i2c (T_A_PTAT _ c) w1) as [r3 w3] eqn:R3; apply read_ram_value_bytes in R3;
    destruct R3 as (x3 & T3 & X3); pose proof (grew_one _ _ _ _ G1 T3 X3) as G3.
  destruct r3; try (injection Hd as _ <-; exact G3).
  destruct (read_ram_value bs i2c (V_DD_PIXEL _ c) w3) as [r4 w4] eqn:R4; apply read_ram_value_bytes in R4;
    destruct R4 as (x4 & T4 & X4); pose proof (grew_one _ _ _ _ G3 T4 X4) as G4.
  destruct r4; try (injection Hd as _ <-; exact G4).
  destruct (read_ram_value bs i2c (GAIN _ c) w4) as [r5 w5] eqn:R5; apply read_ram_value_bytes in R5;
    destruct R5 as (x5 & T5 & X5); pose proof (grew_one _ _ _ _ G4 T5 X5) as G5.
  destruct r5; try (injection Hd as _ <-; exact G5).
  destruct (read_ram_value bs i2c (compensation_pixel_addr _ c sp) w5) as [r6 w6] eqn:R6; apply read_ram_value_bytes in R6;
    destruct R6 as (x6 & T6 & X6); pose proof (grew_one _ _ _ _ G5 T6 X6) as G6.
  destruct r6; injection Hd as _ <-; exact G6.
Qed.

(** A completed frame read shows the contents of some memory. *)
Lemma frame_shows_some_memory (c : camera FO) lay height i2c ap sp buf (w : W) ram buf' w' :
  documented c lay -> (lay_height lay <= height)%nat -> Forall byte buf ->
  read_ram bs c height i2c ap sp buf w = (Ok ram, buf', w') ->
  exists mem evs, (forall a, word (mem a)) /\ trace w' = trace w ++ evs /\ Forall (shows mem) evs.
Proof.
  intros Hd Hh Hb H.
  destruct (read_ram_spec bs c lay height i2c ap sp buf w _ _ _ Hd Hh H) as (_ & evs & Ht & Hc & _).
  destruct (read_ram_bytes c height i2c ap sp buf w _ _ _ Hb H) as (_ & evs' & Ht' & Hf).
  rewrite Ht in Ht'. apply app_inv_head in Ht'. subst evs'.
  exists (seen evs), evs. split; [intros a; apply seen_word, Hf|]. split; [exact Ht|].
  destruct (frame_reads_proper c lay sp ap Hd) as [Hp Ha].
  eapply seen_shows; eassumption.
Qed.
End Bytes.
