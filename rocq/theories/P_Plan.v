(** * Property C103: no other way of reading a frame is much shorter. *)
From Verif Require Import Base FloatOps Register Bus Camera Cam640 Cam641 Calc CalcFacts Driver
  BitFacts SpecRegister RegisterFacts SpecCamera CameraFacts SpecDriver DriverFacts StepFacts Demo
  SpecImage SpecCall ImageFacts Mock SpecMock P_Bus P_Image P_Frames P_ImageDemo TraceFacts SpecTraffic P_Traffic SpecPlan.

(** ** Lower bound: a weight for every word that is needed *)
(** A plan: ranges of memory, start address and number of words. *)
Definition inside (r : Z * Z) (a : Z) : bool := (fst r <=? a) && (a <? fst r + snd r).
Definition cost (plan : list (Z * Z)) : Z := fold_right (fun r n => 4 + 2 * snd r + n) 0 plan.
(** Weight of a word [a] if the one before it in the list is [p]: two bytes, and the price of the gap or of a new read. *)
Definition weight (p : option Z) (a : Z) : Z := match p with None => 6 | Some p => 2 + Z.min 4 (2 * (a - p - 1)) end.
Fixpoint weights (p : option Z) (l : list Z) : Z :=
  match l with [] => 0 | a :: l => weight p a + weights (Some a) l end.
Fixpoint charge (r : Z * Z) (p : option Z) (l : list Z) : Z :=
  match l with [] => 0 | a :: l => (if inside r a then weight p a else 0) + charge r (Some a) l end.
Fixpoint ascending (p : option Z) (l : list Z) : bool :=
  match l with [] => true | a :: l => match p with None => true | Some p => p <? a end && ascending (Some a) l end.

Lemma charge_in r : forall l p, ascending (Some p) l = true -> inside r p = true -> charge r (Some p) l <= 2 * (fst r + snd r - 1 - p).
Proof.
  induction l as [|a l IH]; intros p Ha Hp; cbn [charge]; unfold inside in *.
  - apply andb_true_iff in Hp. lia.
  - cbn [ascending] in Ha. apply andb_true_iff in Ha. destruct Ha as [Ha Hl]. apply Z.ltb_lt in Ha.
    destruct ((fst r <=? a) && (a <? fst r + snd r)) eqn:E.
    + specialize (IH a Hl E). cbn [weight]. lia.
    + (* everything after is outside too *)
      assert (fst r + snd r <= a) by (apply andb_true_iff in Hp; apply andb_false_iff in E; lia).
      assert (G : forall l p, fst r + snd r <= p -> ascending (Some p) l = true -> charge r (Some p) l = 0).
      { clear. induction l as [|b l IH]; intros p Hp Ha; cbn [charge]; [reflexivity|]. cbn [ascending] in Ha.
        apply andb_true_iff in Ha. destruct Ha as [Ha Hl]. apply Z.ltb_lt in Ha. rewrite (IH b) by (assumption || lia).
        unfold inside. replace ((fst r <=? b) && (b <? fst r + snd r)) with false; [lia|].
        symmetry. apply andb_false_iff. right. apply Z.ltb_ge. lia. }
      rewrite (G l a) by assumption. apply andb_true_iff in Hp. lia.
Qed.
Lemma charge_le r : 0 <= snd r -> forall l p, ascending p l = true -> charge r p l <= 4 + 2 * snd r.
Proof.
  intros Hr. induction l as [|a l IH]; intros p Ha; cbn [charge]; [lia|].
  assert (Hl : ascending (Some a) l = true) by (cbn [ascending] in Ha; apply andb_true_iff in Ha; apply Ha).
  destruct (inside r a) eqn:E; [|specialize (IH (Some a) Hl); lia].
  pose proof (charge_in r l a Hl E). unfold inside in E. apply andb_true_iff in E.
  assert (weight p a <= 6) by (destruct p; cbn [weight]; lia). lia.
Qed.
Lemma weight_pos p a : match p with None => True | Some p => p < a end -> 0 <= weight p a.
Proof. destruct p; cbn [weight]; lia. Qed.
Lemma weights_charged plan : forall l p, ascending p l = true ->
  (forall a, In a l -> exists r, In r plan /\ inside r a = true) ->
  weights p l <= fold_right (fun r n => charge r p l + n) 0 plan.
Proof.
  induction l as [|a l IH]; intros p Ha Hc; cbn [weights].
  - clear. induction plan as [|r plan IH]; cbn [fold_right charge] in *; lia.
  - cbn [ascending] in Ha. apply andb_true_iff in Ha. destruct Ha as [Ha Hl].
    assert (W : 0 <= weight p a) by (apply weight_pos; destruct p; [apply Z.ltb_lt; exact Ha|exact I]).
    specialize (IH (Some a) Hl (fun b Hb => Hc b (or_intror Hb))).
    destruct (Hc a (or_introl eq_refl)) as (r & Hr & Hi).
    assert (E : forall q, fold_right (fun r n => charge r p (a :: l) + n) 0 q =
      fold_right (fun r n => (if inside r a then weight p a else 0) + n) 0 q + fold_right (fun r n => charge r (Some a) l + n) 0 q).
    { clear. induction q as [|r q IH]; cbn [fold_right]; [reflexivity|]. rewrite IH. cbn [charge]. lia. }
    rewrite E.
    assert (X : weight p a <= fold_right (fun r n => (if inside r a then weight p a else 0) + n) 0 plan).
    { assert (P : forall q, 0 <= fold_right (fun r n => (if inside r a then weight p a else 0) + n) 0 q).
      { clear - W. induction q as [|r q IH]; cbn [fold_right]; [lia|]. destruct (inside r a); lia. }
      clear - Hr Hi W P. induction plan as [|r' plan IH]; [destruct Hr|]. cbn [fold_right]. pose proof (P plan).
      destruct Hr as [->|Hr]; [rewrite Hi; lia|]. specialize (IH Hr). destruct (inside r' a); lia. }
    lia.
Qed.
Lemma plan_cost plan l : Forall (fun r => 0 <= snd r) plan -> ascending None l = true ->
  (forall a, In a l -> exists r, In r plan /\ inside r a = true) -> weights None l <= cost plan.
Proof.
  intros Hp Ha Hc. pose proof (weights_charged plan l None Ha Hc) as H.
  assert (G : fold_right (fun r n => charge r None l + n) 0 plan <= cost plan).
  { clear - Hp Ha. induction Hp as [|r plan Hr Hp IH]; unfold cost; cbn [fold_right]; [lia|].
    pose proof (charge_le r Hr l None Ha). unfold cost in IH. lia. }
  lia.
Qed.

(** The reads of a transcript, as a plan; it costs no more than the transcript. *)
Section Events.
Context {ER EW : Type}.
Notation event := (event ER EW).
Fixpoint plan_of (evs : list event) : list (Z * Z) :=
  match evs with
  | [] => []
  | EvRead _ [hi; lo] data None :: evs => (256 * hi + lo, Z.of_nat (length data) / 2) :: plan_of evs
  | _ :: evs => plan_of evs
  end.
Lemma plan_of_words (evs : list event) : Forall (fun r => 0 <= snd r) (plan_of evs).
Proof.
  induction evs as [|x evs IH]; cbn [plan_of]; [constructor|].
  destruct x as [i [|hi [|lo [|? ?]]] data [e|]|]; try exact IH. constructor; [|exact IH]. cbn [snd]. apply Z.div_pos; lia.
Qed.
Lemma plan_of_cost (evs : list event) : cost (plan_of evs) <= snd (traffic evs).
Proof.
  unfold traffic. cbn [snd]. induction evs as [|x evs IH]; cbn [plan_of fold_right]; [reflexivity|].
  destruct x as [i [|hi [|lo [|? ?]]] data [e|]|]; cbn [wire cost fold_right length snd]; fold (cost (plan_of evs)); try lia.
Qed.
Lemma plan_of_brings a (evs : list event) : Exists (brings a) evs -> exists r, In r (plan_of evs) /\ inside r a = true.
Proof.
  induction 1 as [x evs (i & s & data & -> & H1 & H2)|x evs H (r & I1 & I2)].
  - cbn [plan_of]. eexists. split; [left; reflexivity|]. unfold inside. cbn [fst snd].
    replace (256 * (s / 256) + s mod 256) with s by (apply Z.div_mod; lia).
    apply andb_true_iff. split; [apply Z.leb_le; exact H1|]. apply Z.ltb_lt.
    pose proof (Z.div_le_lower_bound (Z.of_nat (length data)) 2 (a - s + 1) ltac:(lia) ltac:(lia)). lia.
  - exists r. split; [|exact I2]. cbn [plan_of].
    destruct x as [i [|hi [|lo [|? ?]]] data [e|]|]; try exact I1. right. exact I1.
Qed.
Lemma fetched_cost (words : Z -> Prop) l (evs : list event) : (forall a, In a l -> words a) -> ascending None l = true ->
  fetches words evs -> weights None l <= snd (traffic evs).
Proof.
  intros Hl Ha Hf. pose proof (plan_cost (plan_of evs) l (plan_of_words evs) Ha (fun a Hi => plan_of_brings a evs (Hf a (Hl a Hi)))).
  pose proof (plan_of_cost evs). lia.
Qed.
End Events.

(** The needed words in ascending order. *)
Definition pixel_words lay sp ap : list Z :=
  map (lay_address lay sp) (filter (measured lay sp ap) (seq 0 (lay_pixels lay))).
Definition scalar_words lay sp : list Z :=
  match sp with
  | Zero => [lay_vbe lay; lay_cp lay sp; lay_gain lay; lay_ptat lay; lay_vdd lay]
  | One => [lay_vbe lay; lay_gain lay; lay_ptat lay; lay_cp lay sp; lay_vdd lay]
  end.
Lemma pixel_words_are lay sp ap a : In a (pixel_words lay sp ap) -> pixel_word lay sp ap a.
Proof.
  unfold pixel_words. intros H. apply in_map_iff in H. destruct H as (i & <- & H). apply filter_In in H. exists i. split; [apply H|reflexivity].
Qed.
Lemma needed_words_are lay sp ap a : In a (pixel_words lay sp ap ++ scalar_words lay sp) -> needed_word lay sp ap a.
Proof.
  intros H. apply in_app_or in H. destruct H as [H|H]; [left; apply pixel_words_are; exact H|right].
  destruct sp; cbn [scalar_words lay_scalars In] in *; tauto.
Qed.

Lemma weights_pixels lay sp ap : lay = layout640 \/ lay = layout641 ->
  ascending None (pixel_words lay sp ap) = true /\
  weights None (pixel_words lay sp ap) = snd (reads_wire (lay_reads lay sp ap)) - pixel_savings lay sp ap.
Proof. intros [-> | ->]; destruct sp, ap; vm_compute; split; reflexivity. Qed.
Lemma weights_needed lay sp ap : lay = layout640 \/ lay = layout641 ->
  ascending None (pixel_words lay sp ap ++ scalar_words lay sp) = true /\
  weights None (pixel_words lay sp ap ++ scalar_words lay sp) = snd (frame_traffic lay ap) - savings lay sp ap.
Proof. intros [-> | ->]; destruct sp, ap; vm_compute; split; reflexivity. Qed.

(** ** The theorems *)
(** Whatever transactions fetch the pixels of a subpage, they take at least as many bytes as the driver's pixel reads
    (MLX90640 in chess pattern, subpage 1: at most 4 fewer). *)
Theorem C103_pixel_reads : forall ER EW a lay sp ap (mine : list (event ER EW)) ER' EW' (other : list (event ER' EW')),
  lay = layout640 \/ lay = layout641 ->
  Forall2 (good_read a) (lay_reads lay sp ap) mine -> fetches (pixel_word lay sp ap) other ->
  snd (traffic mine) <= snd (traffic other) + pixel_savings lay sp ap.
Proof.
  intros ER EW a lay sp ap mine ER' EW' other Hl Hm Ho. rewrite (good_traffic _ _ _ Hm).
  destruct (weights_pixels lay sp ap Hl) as (W1 & W2).
  pose proof (fetched_cost _ _ other (pixel_words_are lay sp ap) W1 Ho). lia.
Qed.

(** Whatever transactions fetch the words an image is computed from, they take at most 2 to 8 bytes fewer than the driver's. *)
Theorem C103_image_reads : forall FO p B ER EW (bs : bus B ER EW) lay (d : driver (FO := FO)) o sp dest r d' dest' evs ER' EW' (other : list (event ER' EW')),
  usable d lay -> o = OpGenerateSubpage sp dest \/ o = OpGenerateRawSubpage sp dest ->
  step p bs d o = (r, d', dest') -> computed o r -> trace (d_bus d') = trace (d_bus d) ++ evs ->
  fetches (needed_word lay sp (d_access_pattern d)) other ->
  snd (traffic evs) <= snd (traffic other) + savings lay sp (d_access_pattern d).
Proof.
  intros FO p B ER EW bs lay d o sp dest r d' dest' evs ER' EW' other Hu Ho H Hc Ht Hf.
  assert (Hl : lay = layout640 \/ lay = layout641) by (destruct Hu as (Hd & _); destruct Hd; auto).
  destruct (C84_image_traffic_is_exact p bs lay d o r d' dest' Hu H Hc) as (evs2 & Ht2 & E).
  rewrite Ht in Ht2. apply app_inv_head in Ht2. subst evs2.
  assert (Eb : budget lay (d_access_pattern d) o = frame_traffic lay (d_access_pattern d)) by (destruct Ho as [-> | ->]; reflexivity).
  rewrite E, Eb. destruct (weights_needed lay sp (d_access_pattern d) Hl) as (W1 & W2).
  pose proof (fetched_cost _ _ other (needed_words_are lay sp (d_access_pattern d)) W1 Hf). lia.
Qed.

(** ** The bounds are attained *)
(** The shortest way, as start addresses and numbers of bytes: neighbouring words are read together. *)
Definition shortest (lay : layout) (sp : subpage) (ap : access_pattern) : list (Z * nat) :=
  if Nat.eqb (lay_pixels lay) 768 then
    match ap, sp with
    | Chess, Zero => [(0x400, 1538%nat); (0x708, 6%nat); (0x720, 2%nat); (0x72A, 2%nat)]
    | Chess, One => [(0x401, 1536%nat); (0x70A, 2%nat); (0x720, 2%nat); (0x728, 6%nat)]
    | Interleave, Zero => lay_reads lay sp ap ++ [(0x700, 2%nat); (0x708, 6%nat); (0x720, 2%nat); (0x72A, 2%nat)]
    | Interleave, One => firstn 11 (lay_reads lay sp ap) ++ [(0x6E0, 66%nat); (0x70A, 2%nat); (0x720, 2%nat); (0x728, 6%nat)]
    end
  else match sp with
    | Zero => lay_reads lay sp ap ++ [(0x580, 2%nat); (0x588, 6%nat); (0x5A0, 2%nat); (0x5AA, 2%nat)]
    | One => firstn 5 (lay_reads lay sp ap) ++ [(0x560, 66%nat); (0x58A, 2%nat); (0x5A0, 2%nat); (0x5A8, 6%nat)]
    end.
Definition as_event (rd : Z * nat) : event unit unit := EvRead 0x33 [fst rd / 256; fst rd mod 256] (repeat 0 (snd rd)) None.
Definition has (plan : list (Z * nat)) (a : Z) : bool :=
  existsb (fun rd => (fst rd <=? a) && (2 * (a - fst rd) + 2 <=? Z.of_nat (snd rd))) plan.
Lemma has_brings plan a : has plan a = true -> Exists (brings a) (map as_event plan).
Proof.
  unfold has. intros H. apply existsb_exists in H. destruct H as (rd & Hi & H). apply andb_true_iff in H. destruct H as [H1 H2].
  apply Exists_exists. exists (as_event rd). split; [apply in_map; exact Hi|].
  exists 0x33, (fst rd), (repeat 0 (snd rd)). split; [reflexivity|]. rewrite repeat_length. lia.
Qed.
Lemma shortest_has lay sp ap : lay = layout640 \/ lay = layout641 ->
  forallb (fun i => negb (measured lay sp ap i) || has (shortest lay sp ap) (lay_address lay sp i)) (seq 0 (lay_pixels lay)) = true /\
  forallb (has (shortest lay sp ap)) (lay_scalars lay sp) = true.
Proof. intros [-> | ->]; destruct sp, ap; vm_compute; split; reflexivity. Qed.
Theorem C103_attained : forall lay sp ap, lay = layout640 \/ lay = layout641 ->
  exists other : list (event unit unit),
    fetches (needed_word lay sp ap) other /\ snd (traffic other) = snd (frame_traffic lay ap) - savings lay sp ap.
Proof.
  intros lay sp ap Hl. exists (map as_event (shortest lay sp ap)). split.
  - destruct (shortest_has lay sp ap Hl) as (H1 & H2). intros a [(i & Hm & ->)|Hi]; apply has_brings.
    + assert (Hlt : (i < lay_pixels lay)%nat).
      { unfold measured in Hm. apply andb_true_iff in Hm. apply Nat.ltb_lt. apply Hm. }
      rewrite forallb_forall in H1. specialize (H1 i). cbv beta in H1. rewrite Hm in H1. apply H1. apply in_seq. lia.
    + rewrite forallb_forall in H2. apply H2. exact Hi.
  - destruct Hl as [-> | ->]; destruct sp, ap; vm_compute; reflexivity.
Qed.

(** ** Concrete case *)
(** The driver's own reads satisfy the hypothesis on [other]. *)
Lemma C103_own_reads_fetch : forall lay sp ap, lay = layout640 \/ lay = layout641 ->
  fetches (needed_word lay sp ap) (map as_event (frame_reads lay sp ap)) /\
  fetches (pixel_word lay sp ap) (map as_event (lay_reads lay sp ap)).
Proof.
  intros lay sp ap Hl.
  assert (C : forallb (fun i => negb (measured lay sp ap i) || has (lay_reads lay sp ap) (lay_address lay sp i)) (seq 0 (lay_pixels lay)) = true).
  { destruct Hl as [-> | ->]; destruct sp, ap; vm_compute; reflexivity. }
  assert (P : forall a, pixel_word lay sp ap a -> has (lay_reads lay sp ap) a = true).
  { intros a (i & Hm & ->). assert (Hlt : (i < lay_pixels lay)%nat).
    { unfold measured in Hm. apply andb_true_iff in Hm. apply Nat.ltb_lt. apply Hm. }
    rewrite forallb_forall in C. specialize (C i). cbv beta in C. rewrite Hm in C. apply C. apply in_seq. lia. }
  split; intros a Ha; apply has_brings; [|exact (P a Ha)].
  unfold has, frame_reads. rewrite existsb_app. apply orb_true_iff. destruct Ha as [Ha|Ha]; [left; exact (P a Ha)|right].
  apply existsb_exists. exists (a, 2%nat). split; [apply in_map_iff; exists a; auto|]. cbn [fst snd]. lia.
Qed.

Print Assumptions C103_pixel_reads.
Print Assumptions C103_image_reads.
Print Assumptions C103_attained.
