(** * C94: the recipe of the documentation (two calls of generate_image_if_ready on one buffer, a sleep
    between them) on a free-running camera. *)
From Verif Require Import Base FloatOps Register Bus Camera Cam640 Cam641 Calc CalcFacts Driver
  BitFacts SpecRegister RegisterFacts SpecCamera CameraFacts SpecDriver DriverFacts StepFacts Demo
  SpecImage SpecCall ImageFacts Mock SpecMock P_Bus P_Image P_Frames P_ImageDemo TraceFacts SpecHold HoldFacts P_Hold
  SpecTraffic P_Traffic P_Calc SpecStream StreamFacts P_Stream SpecReplay.

Section Device.
Context {B ER EW : Type} (bs : bus B ER EW) (a : Z) (v : view B) (f : film) (t : timing).
Hypothesis Hcam : free_running bs a v f t.

Lemma still_reads reads : forall evs b b', Forall2 (good_read a) reads evs -> performed bs b evs b' ->
  Forall in_range reads ->
  clock v b <= clock v b' /\
  (frames v b' = frames v b ->
   Forall (shows (ER := ER) (EW := EW) (film_mem f (frames v b))) evs /\ ready v b' = ready v b).
Proof.
  induction reads as [|rd reads IH]; intros evs b b' Hg Hp Hr; inversion Hg as [|? x ? evs' Hx Hg']; subst.
  - inversion Hp; subst. split; [lia|]. intros _. split; [constructor|reflexivity].
  - inversion Hr as [|? ? [R1 [R2 R3]] Hr']; subst. destruct Hx as (data & -> & Hl).
    inversion Hp as [|? ? ? buf b1 out ? ? ? Hd Hp' E|]; subst.
    assert (Hlb : length buf = snd rd) by (rewrite <- Hl, clip_length; reflexivity).
    rewrite <- Hlb in R2. destruct (fr_ram_read _ _ _ _ _ Hcam _ _ _ _ _ _ R1 R2 Hd) as (_ & Hc & Hf & Ho).
    destruct (IH evs' b1 b' Hg' Hp' Hr') as (I1 & I2). split; [lia|]. intros Ef.
    pose proof (frames_mono bs a v f t Hcam b b1 ltac:(lia)) as M1. pose proof (frames_mono bs a v f t Hcam b1 b' I1) as M2.
    assert (E1 : frames v b1 = frames v b) by lia. assert (E2 : frames v b' = frames v b1) by lia.
    specialize (Ho E1). rewrite E1, Nat.ltb_irrefl, orb_false_r in Hf. destruct (I2 E2) as [J1 J2]. rewrite E1 in J1.
    split; [|congruence]. constructor; [|exact J1].
    cbn [shows]. intros y Ey. apply two_words in Ey. subst y.
    assert (Hlo : length out = length buf) by (rewrite Ho; apply mem_bytes_length).
    rewrite clip_full; [|exact Hlo|rewrite Ho; apply mem_bytes_byte; apply (fr_word _ _ _ _ _ Hcam)].
    rewrite Hlo. exact Ho.
Qed.
End Device.

Section Recipe.
Context {FO : FloatOps} (p : profile) {B ER EW : Type} (bs : bus B ER EW) (v : view B) (f : film) (t : timing).
Notation driver := (driver (FO := FO) (B := B) (ER := ER) (EW := EW)).
Notation F := (F FO).
Implicit Types d : driver.

(** A usable driver on a free-running camera (of any speed), with supply voltages that do not overflow (or without
    overflow checks). *)
Definition running lay d : Prop :=
  usable d lay /\ free_running bs (d_address d) v f t /\
  (p = Debug -> forall m, -32768 <= signed (film_mem f m (lay_vdd lay)) - v_dd_25 _ (d_calibration d) <= 32767).

(** The program sleeps: nothing happens on the bus, the camera goes on; a frame finished meanwhile sets the flag. *)
Definition sleeps d d' : Prop :=
  exists b', d' = connect d {| dev := b'; trace := trace (d_bus d) |} /\
    clock v (dev (d_bus d)) <= clock v b' /\
    ready v b' = ready v (dev (d_bus d)) || Nat.ltb (frames v (dev (d_bus d))) (frames v b').

(** One call during which no frame is finished: it reports whether there is a new frame; if there is, it stores the
    documented temperatures of the latest frame and marks it as read. *)
Theorem C94_undisturbed_call : forall lay d dest r d' dest',
  running lay d -> generate_image_if_ready p bs dest d = (r, d', dest') ->
  let n := frames v (dev (d_bus d)) in
  frames v (dev (d_bus d')) = n ->
  running lay d' /\ settings_of d' = settings_of d /\ d_calibration d' = d_calibration d /\
  clock v (dev (d_bus d)) <= clock v (dev (d_bus d')) /\
  r = Ok (ready v (dev (d_bus d))) /\ ready v (dev (d_bus d')) = false /\
  if ready v (dev (d_bus d)) then
    d_ambient d' = Some (doc_t_a (d_calibration d) lay (film_mem f n)) /\
    image_stored (d_calibration d) lay (settings_of d) (film_page f n) (film_mem f n) false dest dest'
  else dest' = dest /\ d_ambient d' = d_ambient d.
Proof.
  intros lay d dest r d' dest' (Hu & Hcam & Hvo) H n Hn.
  assert (Hs : step p bs d (OpGenerateIfReady dest) = (bind r (fun b => Ok (OutBool b)), d', dest')).
  { cbn [step]. rewrite H. reflexivity. }
  destruct (image_outcome p bs lay d (OpGenerateIfReady dest) dest _ d' dest' (usable_wf _ _ Hu) eq_refl Hs) as (evs & Ht & Hout).
  destruct (step_transcript p bs lay d _ _ d' dest' Hu Hs) as (evs' & Ht' & Hp & _ & _).
  rewrite Ht in Ht'. apply app_inv_head in Ht'. subst evs'.
  pose proof (usable_step p bs lay d _ _ d' dest' Hu Hs) as Hu'. clear H.
  remember (bind r (fun b => Ok (OutBool b))) as rr eqn:Err.
  set (b := dev (d_bus d)) in *. set (b' := dev (d_bus d')) in *.
  pose proof (fr_word _ _ _ _ _ Hcam) as Hwd. pose proof (frames_mono bs _ v f t Hcam) as Hmono.
  assert (Hin : forall sp, Forall in_range (frame_reads lay sp (d_access_pattern d))).
  { intros sp. destruct Hu as [Hd _]. eapply frame_in_range. exact Hd. }
  assert (Hst : forall w b1, word w -> performed bs b [reads_word (d_address d) status_reg w] b1 -> (frames v b1 <= n)%nat ->
    frames v b1 = n /\ clock v b <= clock v b1 /\ bit w 3 = ready v b /\ ready v b1 = ready v b /\ s_subpage (status_doc w) = film_page f n).
  { intros w b1 Hw Hp1 Hle. destruct (stream_status bs _ v f t Hcam w b b1 Hw Hp1) as (Hcl & Hf & m & Hm & Hb3 & Hpg). fold n in Hm, Hb3, Hf.
    assert (frames v b1 = n) as E by lia. assert (m = n) as -> by lia. rewrite Nat.ltb_irrefl, orb_false_r in Hb3.
    rewrite E, Nat.ltb_irrefl, orb_false_r in Hf. split; [exact E|]. split; [lia|]. split; [exact Hb3|]. split; [exact Hf|exact Hpg]. }
  destruct Hout as [x e w _ Hx|w w0 _ Hw H3|raw sp pre evs r0 buf w Ha Hfl _|raw sp pre evs ram buf w w0 Ha Hcm _ Hr Hcalc Hww
    |raw sp pre evs post ram buf w0 w w1 ta dest' r0 Ha Hcm Hl Hww Hr Hcalc Hk].
  - exfalso. eapply stream_status_ok; eassumption.
  - destruct (Hst w b' Hw Hp ltac:(lia)) as (E & Hcl & Hb3 & Hf & _). rewrite H3 in Hb3.
    split; [split; [exact Hu'|split; [exact Hcam|exact Hvo]]|]. split; [reflexivity|]. split; [reflexivity|]. split; [exact Hcl|].
    rewrite <- Hb3. split; [destruct r as [[]|e0| |]; cbn [bind] in Err; congruence|]. split; [congruence|]. split; reflexivity.
  - exfalso. apply performed_split in Hp. destruct Hp as (b1 & Hp1 & Hp2).
    destruct Hfl as [(e & _ & Hab)|(_ & Hsmall & _)].
    + eapply (stream_no_abort bs _ v f t Hcam); [apply Hin|exact Hab|exact Hp2].
    + destruct Hu as (Hd & _ & _ & Hbuf). pose proof (bytes_fit _ lay sp (d_access_pattern d) Hd) as Hbf. lia.
  - exfalso. apply performed_split in Hp. destruct Hp as (b1 & Hp1 & Hp2).
    inversion Ha as [| | |v0 dst Hw0 H30]; subst.
    destruct (still_reads bs _ v f t Hcam _ evs b1 b' Hcm Hp2 (Hin _)) as (Hc2 & Hsh).
    destruct (Hst v0 b1 Hw0 Hp1 ltac:(apply Hmono in Hc2; lia)) as (E & Hcl & Hb3 & Hf & _).
    destruct (Hsh ltac:(lia)) as [Hsh1 _]. rewrite E in Hsh1.
    apply (calc_panic p false (after_frame d buf w) ram _ dest lay) in Hcalc; [|apply Hu|apply Hu].
    destruct Hcalc as [Hdbg Hov]. apply Hov.
    rewrite (shown_voltage bs lay d _ w0 w ram buf evs _ Hu Hr Hww (Hwd n) Hsh1).
    apply (Hvo Hdbg n).
  - apply performed_split in Hp. destruct Hp as (b1 & Hp1 & Hp2).
    apply performed_split in Hp2. destruct Hp2 as (b2 & Hp2 & Hp3).
    inversion Ha as [| | |v0 dst Hw0 H30]; subst.
    inversion Hk as [| | |v1 v' dst1 err Hv1 Hv' Hb' Hbits E1 E2]; subst.
    destruct (still_reads bs _ v f t Hcam _ evs b1 b2 Hcm Hp2 (Hin _)) as (Hc2 & Hsh).
    destruct (stream_write bs _ v f t Hcam _ _ _ _ Hp3) as (-> & Hcl3 & Hrd).
    pose proof (Hmono _ _ Hc2) as M2. pose proof (Hmono b2 b' ltac:(lia)) as M3.
    destruct (Hst v0 b1 Hw0 Hp1 ltac:(lia)) as (E & Hcl & Hb3 & Hf & Hpg).
    destruct (Hsh ltac:(lia)) as [Hsh1 _]. rewrite E in Hsh1.
    assert (Hr' : ready v b' = false) by (rewrite (Hrd ltac:(lia)); exact Hb').
    destruct Hu as (Hd & Hh & Hcpl & Hbuf).
    destruct (frame_pixels p bs false lay (with_bus d w0) (s_subpage (status_doc v0)) (film_mem f n) ram (after_frame d buf w) evs dest ta dest')
      as [Hta Him]; try assumption; [split; assumption|apply Hwd|].
    split; [split; [exact Hu'|split; [exact Hcam|exact Hvo]]|]. split; [reflexivity|]. split; [reflexivity|]. split; [lia|].
    rewrite <- Hb3, H30.
match goal with H : Ok (OutBool true) = bind r _ |- _ => rename H into Err end.
    split; [destruct r as [[]|e0| |]; cbn [bind] in Err; congruence|]. split; [exact Hr'|].
    split; [cbn [d_ambient with_bus with_ambient]; rewrite Hta; reflexivity|].
    rewrite <- Hpg. exact Him.
Qed.

Lemma sleeps_running lay d d' : sleeps d d' -> running lay d -> running lay d'.
Proof. intros (b' & -> & _) H. exact H. Qed.

(** The recipe: a call, a sleep, another call on the same buffer; no frame is finished during either call.  [n1] and [n2]
    are the numbers of the latest frame at the first and at the second call.  The second call finds new data exactly if a
    frame was finished in between; every pixel shows the latest of the frames taken that measured it, else what was there before. *)
Theorem C94_recipe : forall lay d dest r1 d1 dest1 d2 r2 d3 dest3,
  running lay d ->
  generate_image_if_ready p bs dest d = (r1, d1, dest1) -> frames v (dev (d_bus d1)) = frames v (dev (d_bus d)) ->
  sleeps d1 d2 ->
  generate_image_if_ready p bs dest1 d2 = (r2, d3, dest3) -> frames v (dev (d_bus d3)) = frames v (dev (d_bus d2)) ->
  let n1 := frames v (dev (d_bus d)) in let n2 := frames v (dev (d_bus d2)) in
  let first := ready v (dev (d_bus d)) in
  (n1 <= n2)%nat /\ r1 = Ok first /\ r2 = Ok (Nat.ltb n1 n2) /\ length dest3 = length dest /\
  forall i x, nth_error dest i = Some x ->
    let shows n := measured lay (film_page f n) (d_access_pattern d) i in
    let pixel n := doc_pixel (d_calibration d) lay (settings_of d) (film_page f n) (film_mem f n) false i in
    nth_error dest3 i = Some (if Nat.ltb n1 n2 && shows n2 then pixel n2 else if first && shows n1 then pixel n1 else x).
Proof.
  intros lay d dest r1 d1 dest1 d2 r2 d3 dest3 Hrun H1 U1 Hs H2 U2 n1 n2 first.
  destruct (C94_undisturbed_call lay d dest r1 d1 dest1 Hrun H1 U1) as (R1 & S1 & K1 & Cl1 & E1 & F1 & P1).
  pose proof (sleeps_running lay d1 d2 Hs R1) as R2.
  destruct (C94_undisturbed_call lay d2 dest1 r2 d3 dest3 R2 H2 U2) as (_ & S2 & K2 & _ & E2 & _ & P2).
  destruct Hs as (b' & Ed2 & Hc & Hf).
  assert (Hd2 : dev (d_bus d2) = b') by (rewrite Ed2; reflexivity). rewrite Hd2 in *.
  assert (Es : settings_of d2 = settings_of d) by (rewrite <- S1, Ed2; reflexivity).
  assert (Ek : d_calibration d2 = d_calibration d) by (rewrite <- K1, Ed2; reflexivity).
  rewrite Es, Ek in P2. unfold n2. rewrite Hd2. fold n1 in U1. fold first in E1, P1.
  assert (Ef : ready v b' = Nat.ltb n1 (frames v b')) by (rewrite Hf, F1, U1; reflexivity). rewrite Ef in E2, P2.
  assert (Hle : (n1 <= frames v b')%nat).
  { destruct R1 as (_ & Hcam & _). rewrite <- U1. eapply frames_mono; eassumption. }
  split; [exact Hle|]. split; [exact E1|]. split; [exact E2|].
  assert (G1 : length dest1 = length dest /\ forall i x, nth_error dest i = Some x ->
    nth_error dest1 i = Some (if first && measured lay (film_page f n1) (d_access_pattern d) i
      then doc_pixel (d_calibration d) lay (settings_of d) (film_page f n1) (film_mem f n1) false i else x)).
  { destruct first; cbn [andb].
    - destruct P1 as [_ [L P]]. split; [exact L|]. intros i x Hx. apply (P i x Hx).
    - destruct P1 as [-> _]. auto. }
  destruct G1 as [L1 G1].
  assert (G2 : length dest3 = length dest1 /\ forall i x, nth_error dest1 i = Some x ->
    nth_error dest3 i = Some (if Nat.ltb n1 (frames v b') && measured lay (film_page f (frames v b')) (d_access_pattern d) i
      then doc_pixel (d_calibration d) lay (settings_of d) (film_page f (frames v b')) (film_mem f (frames v b')) false i else x)).
  { destruct (Nat.ltb n1 (frames v b')); cbn [andb].
    - destruct P2 as [_ [L P]]. split; [exact L|]. intros i x Hx. apply (P i x Hx).
    - destruct P2 as [-> _]. auto. }
  destruct G2 as [L2 G2]. split; [congruence|]. intros i x Hx. cbv zeta. rewrite (G2 i _ (G1 i x Hx)). reflexivity.
Qed.

(** The camera is regular: a frame every [T], the subpages in turn. *)
Definition regular (T : Z) : Prop :=
  0 < T /\ (forall n, film_time f (S (S n)) = film_time f (S n) + T) /\ (forall n, film_page f (S n) <> film_page f n).

Lemma regular_time T m : regular T -> forall k, film_time f (S (m + k)) = film_time f (S m) + Z.of_nat k * T.
Proof.
  intros (_ & H & _). induction k as [|k IH]; [rewrite Nat.add_0_r; lia|].
  rewrite Nat.add_succ_r, H, IH. lia.
Qed.
Lemma regular_pages T n : regular T -> forall k, film_page f (n + k) = film_page f n <-> Nat.Even k.
Proof.
  intros (_ & _ & H). assert (G : forall k, film_page f (n + k) = film_page f n /\ Nat.Even k \/ film_page f (n + k) <> film_page f n /\ Nat.Odd k).
  { induction k as [|k IH]; [left; rewrite Nat.add_0_r; split; [reflexivity|exists 0%nat; reflexivity]|].
    rewrite Nat.add_succ_r. pose proof (H (n + k)%nat) as Hk.
    destruct IH as [[E [j Hj]]|[E [j Hj]]].
    - right. split; [congruence|]. exists j. lia.
    - left. split; [destruct (film_page f (S (n + k))), (film_page f (n + k)), (film_page f n); congruence|]. exists (S j). lia. }
  intros k. destruct (G k) as [[E He]|[E Ho]]; [tauto|]. split; [tauto|]. intros He. exfalso. eapply Nat.Even_Odd_False; eassumption.
Qed.

(** Asleep for exactly [k] frame periods, after at least one frame: the camera finishes exactly [k] frames meanwhile,
    whenever the sleep begins. *)
Theorem C94_frames_during_sleep : forall T k d1 d2, regular T -> free_running bs (d_address d1) v f t ->
  (0 < frames v (dev (d_bus d1)))%nat -> sleeps d1 d2 ->
  clock v (dev (d_bus d2)) = clock v (dev (d_bus d1)) + Z.of_nat k * T ->
  frames v (dev (d_bus d2)) = (frames v (dev (d_bus d1)) + k)%nat.
Proof.
  intros T k d1 d2 HT Hcam Hpos (b' & -> & _) Hcl. cbn [d_bus connect dev] in *. set (b := dev (d_bus d1)) in *.
  pose proof (frames_next bs _ v f t Hcam b) as N. destruct (frames v b) as [|m] eqn:E; [lia|].
  pose proof (frames_reached bs _ v f t Hcam b m E) as R.
  pose proof (regular_time T m HT k) as T1. pose proof (regular_time T m HT (S k)) as T2. pose proof (regular_time T m HT 1) as T3.
  rewrite Nat.add_1_r in T3.
  assert (G1 : (m + k < frames v b')%nat) by (apply (fr_frames _ _ _ _ _ Hcam); lia).
  assert (G2 : (frames v b' <= m + S k)%nat) by (apply (frames_below bs _ v f t Hcam); lia).
  lia.
Qed.

(** A sleep of an odd number of periods (in particular one, as the documentation has it) completes the picture;
    a sleep of an even number does not: the other subpage's pixels are left as they were. *)
Theorem C94_full_or_half : forall lay T k d dest d1 dest1 d2 r2 d3 dest3,
  running lay d -> regular T -> (0 < frames v (dev (d_bus d)))%nat ->
  generate_image_if_ready p bs dest d = (Ok true, d1, dest1) -> frames v (dev (d_bus d1)) = frames v (dev (d_bus d)) ->
  sleeps d1 d2 -> clock v (dev (d_bus d2)) = clock v (dev (d_bus d1)) + Z.of_nat k * T ->
  generate_image_if_ready p bs dest1 d2 = (r2, d3, dest3) -> frames v (dev (d_bus d3)) = frames v (dev (d_bus d2)) ->
  let n1 := frames v (dev (d_bus d)) in let n2 := (n1 + k)%nat in
  r2 = Ok (Nat.ltb 0 k) /\
  forall i x, (i < lay_pixels lay)%nat -> nth_error dest i = Some x ->
    let shows n := measured lay (film_page f n) (d_access_pattern d) i in
    let pixel n := doc_pixel (d_calibration d) lay (settings_of d) (film_page f n) (film_mem f n) false i in
    (Nat.Odd k -> nth_error dest3 i = Some (if shows n2 then pixel n2 else pixel n1)) /\
    (Nat.Even k -> nth_error dest3 i = Some (if shows n1 then pixel n2 else x)).
Proof.
  intros lay T k d dest d1 dest1 d2 r2 d3 dest3 Hrun HT Hpos H1 U1 Hs Hcl H2 U2 n1 n2.
  destruct (C94_undisturbed_call lay d dest _ d1 dest1 Hrun H1 U1) as ((_ & Hcam1 & _) & _ & _ & _ & Er & _).
  pose proof (C94_frames_during_sleep T k d1 d2 HT Hcam1 ltac:(lia) Hs Hcl) as N2. rewrite U1 in N2. fold n1 in N2. fold n2 in N2.
  destruct (C94_recipe lay d dest _ d1 dest1 d2 r2 d3 dest3 Hrun H1 U1 Hs H2 U2) as (_ & _ & E2 & _ & G).
  fold n1 in E2, G. rewrite N2 in E2, G.
  assert (Elt : Nat.ltb n1 n2 = Nat.ltb 0 k).
  { unfold n2. destruct (Nat.ltb_spec 0 k), (Nat.ltb_spec n1 (n1 + k)); try reflexivity; lia. }
  rewrite Elt in E2, G. split; [exact E2|]. intros i x Hi Hx shows pixel. specialize (G i x Hx). cbv zeta in G.
  injection Er as Er. rewrite <- Er in G. cbn [andb] in G. fold (shows n2) (shows n1) (pixel n2) (pixel n1) in G.
  pose proof (regular_pages T n1 HT k) as Pg. fold n2 in Pg. split; intros Hk.
  - assert (Hne : film_page f n2 <> film_page f n1).
    { intros C. apply Pg in C. eapply Nat.Even_Odd_False; eassumption. }
    destruct k as [|k]; [destruct Hk; lia|]. change (Nat.ltb 0 (S k)) with true in G. cbn [andb] in G. rewrite G.
    destruct (shows n2) eqn:E; [reflexivity|].
    rewrite (measured_cover _ lay (d_access_pattern d) (film_page f n1) (film_page f n2) i (proj1 (proj1 Hrun)) ltac:(congruence) Hi E : shows n1 = true). reflexivity.
  - apply Pg in Hk. assert (Esh : shows n2 = shows n1) by (unfold shows; rewrite Hk; reflexivity). rewrite Esh in G. rewrite G.
    destruct (Nat.ltb 0 k) eqn:Ek; cbn [andb].
    + destruct (shows n1); reflexivity.
    + apply Nat.ltb_ge in Ek. assert (E0 : n2 = n1) by (unfold n2; lia). rewrite E0. reflexivity.
Qed.
End Recipe.

Print Assumptions C94_undisturbed_call.
Print Assumptions C94_recipe.
Print Assumptions C94_frames_during_sleep.
Print Assumptions C94_full_or_half.

(** ** Concrete cases *)
(** The camera of C89, a frame every 40 ticks; the program starts at tick 42, with frame 1 ready (a call takes 20 ticks). *)
Definition doze (k : Z) (d : driver (FO := ZFO) (B := reel_state) (ER := string) (EW := string)) :=
  connect d {| dev := reel_after 40 k (dev (d_bus d)); trace := trace (d_bus d) |}.
Lemma doze_sleeps k d : 0 <= k -> 0 <= fst (dev (d_bus d)) -> sleeps (reel_view 40) d (doze k d).
Proof.
  intros Hk Hd. eexists. split; [reflexivity|]. destruct (dev (d_bus d)) as [c r]. cbn [clock ready frames reel_view reel_after fst snd] in *.
  split; [lia|]. reflexivity.
Qed.
Definition recipe (k : Z) : option (list Z * list bool) :=
  match reel_driver 40 with
  | Some d =>
      let d := doze 41 d in
      let '(r1, d1, dest1) := generate_image_if_ready Debug (reel_bus 40) blank640 d in
      let '(r2, d3, dest3) := generate_image_if_ready Debug (reel_bus 40) dest1 (doze k d1) in
      match r1, r2 with
      | Ok a, Ok b => Some ([fst (dev (d_bus d)); fst (dev (d_bus d1)); fst (dev (d_bus d3)); nth 0 dest3 0; nth 32 dest3 0], [a; b])
      | _, _ => None
      end
  | None => None
  end.
(** One period: both rows (of different subpages) are filled.  Two: the first row is still blank. *)
Example C94_concrete :
  match recipe 40, recipe 80 with
  | Some ([s; e; e2; x; y], found), Some ([s'; e'; e2'; x'; y'], found') =>
      s = 42 /\ e = 62 /\ e2 = 122 /\ s' = 42 /\ e' = 62 /\ e2' = 162 /\
      found = [true; true] /\ found' = [true; true] /\ x <> 0 /\ y <> 0 /\ x' = 0 /\ y' <> 0
  | _, _ => False
  end.
Proof. vm_compute. repeat split; discriminate. Qed.
(** The hypotheses of the theorems hold for it. *)
Example C94_applies :
  regular (reel 40) 40 /\
  match reel_driver 40 with
  | Some d => running Debug (reel_bus 40) (reel_view 40) (reel 40) reel_timing layout640 (doze 41 d) /\
      (0 < frames (reel_view 40) (dev (d_bus (doze 41 d))))%nat /\
      let '(r1, d1, _) := generate_image_if_ready Debug (reel_bus 40) blank640 (doze 41 d) in
      r1 = Ok true /\ frames (reel_view 40) (dev (d_bus d1)) = frames (reel_view 40) (dev (d_bus (doze 41 d))) /\
      sleeps (reel_view 40) d1 (doze 40 d1) /\
      clock (reel_view 40) (dev (d_bus (doze 40 d1))) = clock (reel_view 40) (dev (d_bus d1)) + Z.of_nat 1 * 40
  | None => False
  end.
Proof.
  split.
  { split; [lia|]. split; [intros n; cbn [reel film_time]; lia|]. intros n. cbn [reel film_page].
    rewrite Nat.odd_succ, <- Nat.negb_odd.
    destruct (Nat.odd n); discriminate. }
  pose proof C89_applies as H. destruct (reel_driver 40) as [d|] eqn:Ed; [|exact H].
  destruct H as ((Hu & Hf & _ & Hv) & _ & _).
  assert (G : match reel_driver 40 with Some d =>
      let '(r1, d1, _) := generate_image_if_ready Debug (reel_bus 40) blank640 (doze 41 d) in
      r1 = Ok true /\ dev (d_bus d1) = (62, false) /\ dev (d_bus (doze 41 d)) = (42, true) | None => False end).
  { vm_compute. auto. }
  rewrite Ed in G. destruct (generate_image_if_ready Debug (reel_bus 40) blank640 (doze 41 d)) as [[r1 d1] dest1].
  destruct G as (G1 & G2 & G3).
  split; [split; [exact Hu|split; [exact Hf|exact Hv]]|].
  split; [rewrite G3; vm_compute; lia|]. split; [exact G1|]. split; [rewrite G2, G3; reflexivity|].
  assert (Hp : 0 <= fst (dev (d_bus d1))) by (rewrite G2; cbn; lia).
  split; [apply doze_sleeps; [lia|exact Hp]|]. unfold doze. cbn [d_bus connect dev]. rewrite G2. reflexivity.
Qed.
(** terminal-temperatures.rs sleeps for half a second.  That is one period at 2 Hz, the default, and an even number of
    periods (half a picture) at 4, 8, 16, 32 and 64 Hz.  Times in nanoseconds. *)
Example C94_half_second :
  map (fun hz => (500000000 / (1000000000 / hz), 500000000 mod (1000000000 / hz))) [2; 4; 8; 16; 32; 64] =
  [(1, 0); (2, 0); (4, 0); (8, 0); (16, 0); (32, 0)].
Proof. reflexivity. Qed.
