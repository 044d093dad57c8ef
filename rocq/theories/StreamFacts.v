(** * StreamFacts: one call of a poll. *)
From Verif Require Import Base FloatOps Register Bus Camera Cam640 Cam641 Calc CalcFacts Driver
  BitFacts SpecRegister RegisterFacts SpecCamera CameraFacts SpecDriver DriverFacts StepFacts
  SpecImage SpecCall ImageFacts Mock SpecMock P_Bus P_Image P_Frames TraceFacts SpecHold HoldFacts P_Hold
  SpecTraffic P_Traffic P_Calc SpecStream.

Section Device.
Context {B ER EW : Type} (bs : bus B ER EW) (a : Z) (v : view B) (f : film) (t : timing).
Hypothesis Hcam : free_running bs a v f t.
Notation event := (event ER EW).
Notation T := (film_time f).

Lemma frames_mono b b' : clock v b <= clock v b' -> (frames v b <= frames v b')%nat.
Proof.
  intros H. destruct (Nat.le_gt_cases (frames v b) (frames v b')) as [|G]; [assumption|exfalso].
  apply (fr_frames _ _ _ _ _ Hcam) in G.
  assert (G2 : (frames v b' < frames v b')%nat) by (apply (fr_frames _ _ _ _ _ Hcam); lia). lia.
Qed.
Lemma frames_below b m : clock v b < T (S m) -> (frames v b <= m)%nat.
Proof.
  intros H. destruct (Nat.le_gt_cases (frames v b) m) as [|G]; [assumption|exfalso].
  apply (fr_frames _ _ _ _ _ Hcam) in G. lia.
Qed.
Lemma frames_reached b m : frames v b = S m -> T (S m) <= clock v b.
Proof. intros H. apply (fr_frames _ _ _ _ _ Hcam). lia. Qed.
Lemma frames_next b : clock v b < T (S (frames v b)).
Proof.
  destruct (Z_lt_le_dec (clock v b) (T (S (frames v b)))) as [|G]; [assumption|exfalso].
  apply (fr_frames _ _ _ _ _ Hcam) in G. lia.
Qed.
Lemma frames_same b b' : clock v b <= clock v b' -> clock v b' < T (S (frames v b)) -> frames v b' = frames v b.
Proof. intros H1 H2. apply frames_mono in H1. apply frames_below in H2. lia. Qed.

Context (Hs : 0 <= slack t) (Hb : 0 <= per_byte t).

(** Frame reads without a new frame. *)
Lemma stream_reads reads : forall evs b b', Forall2 (good_read a) reads evs -> performed bs b evs b' ->
  Forall in_range reads ->
  clock v b + fst (reads_wire reads) * slack t + snd (reads_wire reads) * per_byte t < T (S (frames v b)) ->
  Forall (shows (ER := ER) (EW := EW) (film_mem f (frames v b))) evs /\
  frames v b' = frames v b /\ ready v b' = ready v b /\
  clock v b <= clock v b' <= clock v b + fst (reads_wire reads) * slack t + snd (reads_wire reads) * per_byte t.
Proof.
  induction reads as [|rd reads IH]; intros evs b b' Hg Hp Hr Ht; inversion Hg as [|? x ? evs' Hx Hg']; subst.
  - inversion Hp; subst. cbn [reads_wire length fold_right fst snd] in *. split; [constructor|].
    split; [reflexivity|]. split; [reflexivity|]. lia.
  - inversion Hr as [|? ? [R1 [R2 R3]] Hr']; subst. destruct Hx as (data & -> & Hl).
    inversion Hp as [|? ? ? buf b1 out ? ? ? Hd Hp' E|]; subst.
    assert (Hlb : length buf = snd rd) by (rewrite <- Hl, clip_length; reflexivity).
    rewrite <- Hlb in R2. destruct (fr_ram_read _ _ _ _ _ Hcam _ _ _ _ _ _ R1 R2 Hd) as (_ & Hc & Hf & Ho).
    change (rd :: reads) with ([rd] ++ reads) in *. rewrite reads_wire_app in *.
    pose proof (reads_wire_pos reads) as [P1 P2].
    assert (E1 : fst (reads_wire [rd]) = 1) by reflexivity.
    assert (E2 : snd (reads_wire [rd]) = 4 + Z.of_nat (length buf)) by (cbn [reads_wire snd fold_right]; rewrite Hlb; lia).
    unfold plus2 in *. cbn [fst snd] in *. rewrite E1, E2 in *. clear E1 E2.
    assert (Ef : frames v b1 = frames v b).
    { apply frames_same; [lia|]. nia. }
    specialize (Ho Ef). rewrite Ef, Nat.ltb_irrefl, orb_false_r in Hf.
    destruct (IH evs' b1 b' Hg' Hp' Hr') as (I1 & I2 & I3 & I4); [rewrite Ef; nia|].
    rewrite Ef in *. split; [|split; [assumption|split; [congruence|nia]]].
    constructor; [|exact I1].
    cbn [shows]. intros y Ey. apply two_words in Ey. subst y.
    assert (Hlo : length out = length buf) by (rewrite Ho; apply mem_bytes_length).
    rewrite clip_full; [|exact Hlo|rewrite Ho; apply mem_bytes_byte; apply (fr_word _ _ _ _ _ Hcam)].
    rewrite Hlo. exact Ho.
Qed.

Lemma stream_no_abort reads e evs b b' : Forall in_range reads -> aborted a reads e evs -> performed bs b evs b' -> False.
Proof.
  intros Hr (pre & rd & post & good & bad & -> & -> & _ & (data & -> & Hl)) Hp.
  apply performed_split in Hp. destruct Hp as (b1 & _ & Hp).
  inversion Hp as [|? ? ? buf b2 out ? ? ? Hd Hp' E|]; subst.
  assert (Hlb : length buf = snd rd) by (rewrite <- Hl, clip_length; reflexivity).
  apply Forall_app in Hr. destruct Hr as [_ Hr]. inversion Hr as [|? ? [R1 [R2 R3]] _]; subst. rewrite <- Hlb in R2.
  destruct (fr_ram_read _ _ _ _ _ Hcam _ _ _ _ _ _ R1 R2 Hd) as (E0 & _). discriminate.
Qed.

(** The status read. *)
Lemma stream_status w b b' : word w -> performed bs b [reads_word a status_reg w] b' ->
  clock v b <= clock v b' <= clock v b + pause t /\
  ready v b' = ready v b || Nat.ltb (frames v b) (frames v b') /\
  exists n, (frames v b <= n <= frames v b')%nat /\
    bit w 3 = ready v b || Nat.ltb (frames v b) n /\ s_subpage (status_doc w) = film_page f n.
Proof.
  intros Hw Hp. unfold reads_word in Hp. inversion Hp as [|? ? ? buf b1 out ? ? ? Hd Hp' E|]; subst. inversion Hp'; subst.
  assert (Hl : length buf = 2%nat).
  { match goal with H : clip buf out = _ |- _ => apply (f_equal (@length Z)) in H; rewrite clip_length in H; exact H end. }
  destruct (fr_status_read _ _ _ _ _ Hcam _ _ _ _ _ Hl Hd) as (_ & Hc & Hf & w' & n & -> & Hw' & Hn & H3 & H4).
  split; [exact Hc|]. split; [exact Hf|]. exists n. split; [exact Hn|].
  match goal with H : clip buf _ = _ |- _ => rewrite clip_full in H end.
  - assert (w' = w) as -> by (apply two_words; congruence). auto.
  - rewrite Hl. reflexivity.
  - unfold word in Hw'. repeat constructor; unfold byte; Z.to_euclidean_division_equations; lia.
Qed.
Lemma stream_status_ok e x b b' : read_fails a status_reg e x -> performed bs b [x] b' -> False.
Proof.
  intros (data & -> & Hl) Hp. inversion Hp as [|? ? ? buf b1 out ? ? ? Hd Hp' E|]; subst.
  rewrite clip_length in Hl. destruct (fr_status_read _ _ _ _ _ Hcam _ _ _ _ _ Hl Hd) as (E0 & _). discriminate.
Qed.
Lemma stream_write w err b b' : performed bs b [writes_word a status_reg w err] b' ->
  err = None /\ clock v b <= clock v b' <= clock v b + slack t + 5 * per_byte t /\
  (frames v b' = frames v b -> ready v b' = bit w 3).
Proof.
  intros Hp. unfold writes_word in Hp. inversion Hp as [| |? ? ? b1 ? ? ? Hd Hp']; subst. inversion Hp'; subst.
  destruct (fr_status_write _ _ _ _ _ Hcam _ _ _ _ _ Hd) as (E & Hc & Hf). rewrite word_back in Hf. auto.
Qed.
End Device.

Section Call.
Context {FO : FloatOps} (p : profile) {B ER EW : Type} (bs : bus B ER EW).
Notation driver := (driver (FO := FO) (B := B) (ER := ER) (EW := EW)).
Notation op := (op (FO := FO)).
Notation event := (event ER EW).
Implicit Types d : driver.

(** The supply voltage used is the one shown on the bus. *)
Lemma shown_voltage lay d sp (w0 w : world B ER EW) ram buf (evs : list event) mem :
  usable d lay -> drv_read_ram bs sp (with_bus d w0) = (Ok ram, after_frame d buf w) ->
  trace w = trace w0 ++ evs -> (forall x, word (mem x)) -> Forall (shows mem) evs ->
  v_dd_pixel ram = signed (mem (lay_vdd lay)).
Proof.
  intros Hu Hr Hw Hm Hs. unfold drv_read_ram in Hr.
  destruct (read_ram bs (cam _ (d_calibration (with_bus d w0))) (d_height (with_bus d w0)) (d_address (with_bus d w0))
    (d_access_pattern (with_bus d w0)) sp (d_pixel_buffer (with_bus d w0)) (d_bus (with_bus d w0))) as [[r0 buf'] w'] eqn:Hrr.
  assert (w' = w) as -> by (apply (f_equal (fun x => d_bus (snd x))) in Hr; exact Hr).
  assert (r0 = Ok ram) as -> by (apply (f_equal fst) in Hr; exact Hr). clear Hr.
  cbn [d_calibration d_height d_address d_access_pattern d_pixel_buffer d_bus with_bus] in Hrr.
  destruct Hu as (Hd & Hh & _).
  destruct (read_ram_shows bs mem _ lay _ _ _ _ _ _ _ _ _ _ Hd Hh Hm Hrr Hw Hs) as ((_ & _ & Hv & _) & _).
  exact Hv.
Qed.

Context (v : view B) (f : film) (t : timing).
Notation T := (film_time f).

Lemma stream_call lay d dest n r d' dest' :
  usable d lay -> free_running bs (d_address d) v f t -> slow_enough lay (d_access_pattern d) t f ->
  (p = Debug -> forall m, voltage_fits lay d (film_mem f m)) ->
  caught_up v f t n (dev (d_bus d)) ->
  step p bs d (OpGenerateIfReady dest) = (r, d', dest') ->
  settings_of d' = settings_of d /\ d_calibration d' = d_calibration d /\ d_address d' = d_address d /\
  ((r = Ok (OutBool false) /\ dest' = dest /\ d_ambient d' = d_ambient d /\
    (frames v (dev (d_bus d)) <= n)%nat /\ caught_up v f t n (dev (d_bus d'))) \/
   (r = Ok (OutBool true) /\ d_ambient d' = Some (doc_t_a (d_calibration d) lay (film_mem f (S n))) /\
    image_stored (d_calibration d) lay (settings_of d) (film_page f (S n)) (film_mem f (S n)) false dest dest' /\
    (frames v (dev (d_bus d)) <= S n)%nat /\ caught_up v f t (S n) (dev (d_bus d')))).
Proof.
  intros Hu Hcam (Hpa & Hsl & Hpb & Hsp) Hvo Hc H.
  destruct (image_outcome p bs lay d (OpGenerateIfReady dest) dest r d' dest' (usable_wf _ _ Hu) eq_refl H) as (evs & Ht & Hout).
  destruct (step_transcript p bs lay d _ _ d' dest' Hu H) as (evs' & Ht' & Hp & _ & _).
  rewrite Ht in Ht'. apply app_inv_head in Ht'. subst evs'.
  set (b := dev (d_bus d)) in *. set (b' := dev (d_bus d')) in *.
  pose proof (fr_word _ _ _ _ _ Hcam) as Hwd.
  assert (Hin : forall sp, Forall in_range (frame_reads lay sp (d_access_pattern d))).
  { intros sp. destruct Hu as [Hd _]. eapply frame_in_range. exact Hd. }
  assert (Hwire : forall sp, reads_wire (frame_reads lay sp (d_access_pattern d)) = frame_traffic lay (d_access_pattern d)).
  { intros sp. destruct Hu as [Hd _]. eapply frame_wire. exact Hd. }
  (* a status read that reports new data is about frame S n, and there is time left to read it *)
  assert (Hready : forall w b1, word w -> bit w 3 = true -> performed bs b [reads_word (d_address d) status_reg w] b1 ->
    (frames v b <= S n)%nat /\ frames v b1 = S n /\ ready v b1 = true /\
    s_subpage (status_doc w) = film_page f (S n) /\ clock v b1 <= T (S n) + 2 * pause t).
  { intros w b1 Hw H3 Hp1. destruct (stream_status bs _ v f t Hcam w b b1 Hw Hp1) as (Hcl & Hf & m & Hm & Hb3 & Hpg).
    pose proof (Hsp n) as Hgap. unfold longest in Hgap.
    assert (Hft : 0 <= fst (frame_traffic lay (d_access_pattern d)) /\ 0 <= snd (frame_traffic lay (d_access_pattern d))).
    { rewrite <- (Hwire Zero). apply reads_wire_pos. }
    assert (Hlong : 2 * pause t < T (S (S n)) - T (S n)) by nia.
    destruct Hc as [[Hc1 Hc2]|(Hc1 & Hc2 & Hc3)].
    - rewrite Hc2 in Hb3, Hf. cbn [orb] in Hb3, Hf. rewrite H3 in Hb3. symmetry in Hb3. apply Nat.ltb_lt in Hb3.
      assert (Hnx : clock v b < T (S n)) by (rewrite <- Hc1; apply (frames_next bs _ v f t Hcam)).
      assert (Hle : (frames v b1 <= S n)%nat).
      { apply (frames_below bs _ v f t Hcam). lia. }
      assert (Em : m = S n) by lia. subst m.
      split; [lia|]. split; [lia|]. split; [rewrite Hf; apply Nat.ltb_lt; lia|]. split; [exact Hpg|]. lia.
    - assert (Hle : (frames v b1 <= S n)%nat).
      { apply (frames_below bs _ v f t Hcam). lia. }
      assert (Em : m = S n) by lia. subst m.
      split; [lia|]. split; [lia|]. split; [rewrite Hf, Hc2; reflexivity|]. split; [exact Hpg|]. lia. }
  (* the frame's reads *)
  assert (Hread : forall b1 b2 sp frame, frames v b1 = S n -> clock v b1 <= T (S n) + 2 * pause t ->
    completed (d_address d) (frame_reads lay sp (d_access_pattern d)) frame -> performed bs b1 frame b2 ->
    Forall (shows (ER := ER) (EW := EW) (film_mem f (S n))) frame /\ frames v b2 = S n /\
    clock v b2 + slack t + 5 * per_byte t < T (S (S n))).
  { intros b1 b2 sp frame E1 E2 Hcm Hp2. pose proof (Hsp n) as Hgap. unfold longest in Hgap.
    destruct (stream_reads bs _ v f t Hcam Hsl Hpb _ frame b1 b2 Hcm Hp2 (Hin sp)) as (I1 & I2 & I3 & I4).
    - rewrite E1, Hwire. nia.
    - rewrite E1 in *. rewrite Hwire in I4. split; [exact I1|]. split; [congruence|nia]. }
  destruct Hout as [x e w _ Hx|w w0 _ Hw H3|raw sp pre evs r buf w Ha Hfl _|raw sp pre evs ram buf w w0 Ha Hcm _ Hr Hcalc Hww
    |raw sp pre evs post ram buf w0 w w1 ta dest' r Ha Hcm Hl Hww Hr Hcalc Hk].
  - exfalso. eapply stream_status_ok; eassumption.
  - split; [reflexivity|]. split; [reflexivity|]. split; [reflexivity|]. left.
    destruct (stream_status bs _ v f t Hcam w b b' Hw Hp) as (Hcl & Hf & m & Hm & Hb3 & _).
    rewrite H3 in Hb3. symmetry in Hb3. apply orb_false_elim in Hb3. destruct Hb3 as [Hb3 Hlt]. rewrite Hb3 in Hf. cbn [orb] in Hf.
    destruct Hc as [[Hc1 Hc2]|(Hc1 & Hc2 & Hc3)]; [|congruence].
    repeat (split; [reflexivity|]). split; [lia|].
    assert (Hnx : clock v b < T (S n)) by (rewrite <- Hc1; apply (frames_next bs _ v f t Hcam)).
    assert (Hft : 0 <= fst (frame_traffic lay (d_access_pattern d)) /\ 0 <= snd (frame_traffic lay (d_access_pattern d))).
    { rewrite <- (Hwire Zero). apply reads_wire_pos. }
    assert (Hle : (frames v b' <= S n)%nat).
    { apply (frames_below bs _ v f t Hcam). pose proof (Hsp n) as Hgap. unfold longest in Hgap. nia. }
    destruct (Nat.eq_dec (frames v b') n) as [En|En].
    + left. split; [exact En|]. rewrite Hf. apply Nat.ltb_ge. lia.
    + right. split; [lia|]. split; [rewrite Hf; apply Nat.ltb_lt; lia|]. lia.
  - exfalso. apply performed_split in Hp. destruct Hp as (b1 & Hp1 & Hp2).
    destruct Hfl as [(e & _ & Hab)|(_ & Hsmall & _)].
    + eapply (stream_no_abort bs _ v f t Hcam); [apply Hin|exact Hab|exact Hp2].
    + destruct Hu as (Hd & _ & _ & Hbuf). pose proof (bytes_fit _ lay sp (d_access_pattern d) Hd) as Hbf. lia.
  - exfalso. apply performed_split in Hp. destruct Hp as (b1 & Hp1 & Hp2).
    inversion Ha as [| | |v0 dst Hw0 H30]; subst.
    destruct (Hready v0 b1 Hw0 H30 Hp1) as (_ & Ef & _ & _ & Hcl).
    destruct (Hread b1 b' _ evs Ef Hcl Hcm Hp2) as (Hsh & _).
    apply (calc_panic p false (after_frame d buf w) ram _ dest lay) in Hcalc; [|apply Hu|apply Hu].
    destruct Hcalc as [Hdbg Hov]. apply Hov.
    rewrite (shown_voltage lay d _ w0 w ram buf evs _ Hu Hr Hww (Hwd (S n)) Hsh).
    apply (Hvo Hdbg (S n)).
  - split; [reflexivity|]. split; [reflexivity|]. split; [reflexivity|]. right.
    apply performed_split in Hp. destruct Hp as (b1 & Hp1 & Hp2).
    apply performed_split in Hp2. destruct Hp2 as (b2 & Hp2 & Hp3).
    inversion Ha as [| | |v0 dst Hw0 H30]; subst.
    destruct (Hready v0 b1 Hw0 H30 Hp1) as (Hcnt & Ef & _ & Hpg & Hcl).
    destruct (Hread b1 b2 _ evs Ef Hcl Hcm Hp2) as (Hsh & Ef2 & Hcl2).
    inversion Hk as [| | |v1 v' dst1 err Hv1 Hv' Hb' Hbits E1 E2]; subst.
    destruct (stream_write bs _ v f t Hcam _ _ _ _ Hp3) as (-> & Hcl3 & Hrd).
    destruct Hu as (Hd & Hh & Hcpl & Hbuf).
    destruct (frame_pixels p bs false lay (with_bus d w0) (s_subpage (status_doc v0)) (film_mem f (S n)) ram (after_frame d buf w) evs dest ta dest')
      as [Hta Him]; try assumption; [split; assumption|apply Hwd|].
    split; [reflexivity|]. split; [cbn [d_ambient with_bus with_ambient]; rewrite Hta; reflexivity|].
    rewrite <- Hpg. split; [exact Him|]. split; [exact Hcnt|].
    left. assert (Ef3 : frames v b' = frames v b2).
    { apply (frames_same bs _ v f t Hcam); [apply Hcl3|]. rewrite Ef2. lia. }
    split; [congruence|]. rewrite (Hrd Ef3). exact Hb'.
Qed.
End Call.
