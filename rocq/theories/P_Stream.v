(** * Property C89: polling a free-running camera loses, repeats and tears no frame, as long as frames come
    more slowly than one of them can be fetched. *)
From Verif Require Import Base FloatOps Register Bus Camera Cam640 Cam641 Calc CalcFacts Driver
  BitFacts SpecRegister RegisterFacts SpecCamera CameraFacts SpecDriver DriverFacts StepFacts Demo
  SpecImage SpecCall ImageFacts Mock SpecMock P_Bus P_Image P_Frames P_ImageDemo TraceFacts SpecHold HoldFacts P_Hold
  SpecTraffic P_Traffic P_Calc SpecStream StreamFacts.

Section Stream.
Context {FO : FloatOps} (p : profile) {B ER EW : Type} (bs : bus B ER EW) (v : view B) (f : film) (t : timing).
Notation driver := (driver (FO := FO) (B := B) (ER := ER) (EW := EW)).
Notation op := (op (FO := FO)).
Notation event := (event ER EW).
Notation F := (F FO).
Implicit Types d : driver.

(** The situation: a usable driver on a free-running camera that is slow enough, with supply voltages that do not
    overflow (or without overflow checks). *)
Definition streaming lay d : Prop :=
  usable d lay /\ free_running bs (d_address d) v f t /\ slow_enough lay (d_access_pattern d) t f /\
  (p = Debug -> forall m, -32768 <= signed (film_mem f m (lay_vdd lay)) - v_dd_25 _ (d_calibration d) <= 32767).

Lemma poll_once lay d dest n r d' dest' :
  streaming lay d -> caught_up v f t n (dev (d_bus d)) -> generate_image_if_ready p bs dest d = (r, d', dest') ->
  streaming lay d' /\ settings_of d' = settings_of d /\ d_calibration d' = d_calibration d /\
  ((r = Ok false /\ dest' = dest /\ d_ambient d' = d_ambient d /\
    (frames v (dev (d_bus d)) <= n)%nat /\ caught_up v f t n (dev (d_bus d'))) \/
   (r = Ok true /\ d_ambient d' = Some (doc_t_a (d_calibration d) lay (film_mem f (S n))) /\
    image_stored (d_calibration d) lay (settings_of d) (film_page f (S n)) (film_mem f (S n)) false dest dest' /\
    (frames v (dev (d_bus d)) <= S n)%nat /\ caught_up v f t (S n) (dev (d_bus d')))).
Proof.
  intros (Hu & Hcam & Hsl & Hvo) Hc H.
  assert (Hs : step p bs d (OpGenerateIfReady dest) = (bind r (fun b => Ok (OutBool b)), d', dest')).
  { cbn [step]. rewrite H. reflexivity. }
  destruct (stream_call p bs v f t lay d dest n _ d' dest' Hu Hcam Hsl Hvo Hc Hs) as (E1 & E2 & E3 & HH).
  pose proof (usable_step p bs lay d _ _ d' dest' Hu Hs) as Hu'.
  assert (Ep : d_access_pattern d' = d_access_pattern d) by exact (f_equal set_pattern E1).
  split; [unfold streaming; rewrite E2, E3, Ep; auto|]. split; [exact E1|]. split; [exact E2|].
  destruct HH as [(Er & HH)|(Er & HH)]; [left|right]; (split; [|exact HH]); destruct r; cbn [bind] in Er; congruence.
Qed.

Lemma watch_run : forall k lay d dest n,
  streaming lay d -> caught_up v f t n (dev (d_bus d)) ->
  let '(sights, d', dest') := watch p bs k d dest in
  streaming lay d' /\ settings_of d' = settings_of d /\ d_calibration d' = d_calibration d /\
  exists n', played (d_calibration d) lay (settings_of d) f n (d_ambient d) dest sights n' (d_ambient d') dest' /\
    caught_up v f t n' (dev (d_bus d')).
Proof.
  induction k as [|k IH]; intros lay d dest n Hst Hc; cbn [watch].
  - split; [exact Hst|]. split; [reflexivity|]. split; [reflexivity|]. exists n. split; [constructor|exact Hc].
  - destruct (generate_image_if_ready p bs dest d) as [[r d1] dest1] eqn:E.
    destruct (poll_once lay d dest n r d1 dest1 Hst Hc E) as (Hst1 & E1 & E2 & HH).
    destruct HH as [(-> & -> & Ea & _ & Hc1)|(-> & Ea & Him & _ & Hc1)].
    + specialize (IH lay d1 dest n Hst1 Hc1). destruct (watch p bs k d1 dest) as [[rest d2] dest2].
      destruct IH as (I1 & I2 & I3 & n' & I4 & I5).
      split; [exact I1|]. split; [congruence|]. split; [congruence|]. exists n'. split; [|exact I5].
      rewrite Ea in *. apply played_wait. rewrite <- E1, <- E2. exact I4.
    + specialize (IH lay d1 dest1 (S n) Hst1 Hc1). destruct (watch p bs k d1 dest1) as [[rest d2] dest2].
      destruct IH as (I1 & I2 & I3 & n' & I4 & I5).
      split; [exact I1|]. split; [congruence|]. split; [congruence|]. exists n'. split; [|exact I5].
      eapply played_frame; [exact Ea|exact Him|]. rewrite <- E1, <- E2. exact I4.
Qed.

(** However many calls are made, they play the film: every call succeeds; the frames come in order, each exactly once and
    untorn; afterwards at most one frame is outstanding. *)
Theorem C89_no_frame_lost_repeated_or_torn : forall k lay d dest n sights d' dest',
  streaming lay d -> caught_up v f t n (dev (d_bus d)) ->
  watch p bs k d dest = (sights, d', dest') ->
  exists n', played (d_calibration d) lay (settings_of d) f n (d_ambient d) dest sights n' (d_ambient d') dest' /\
    caught_up v f t n' (dev (d_bus d')) /\ (n' <= frames v (dev (d_bus d')) <= S n')%nat.
Proof.
  intros k lay d dest n sights d' dest' Hst Hc H. pose proof (watch_run k lay d dest n Hst Hc) as W. rewrite H in W.
  destruct W as (_ & _ & _ & n' & W1 & W2). exists n'. split; [exact W1|]. split; [exact W2|].
  destruct W2 as [[W2 _]|[W2 _]]; rewrite W2; lia.
Qed.

Lemma watch_snoc : forall k d dest,
  watch p bs (S k) d dest =
  let '(s1, d1, dest1) := watch p bs k d dest in
  let '(r, d2, dest2) := generate_image_if_ready p bs dest1 d1 in
  (s1 ++ [(r, d_ambient d2, dest2)], d2, dest2).
Proof.
  induction k as [|k IH]; intros d dest.
  - cbn [watch app]. destruct (generate_image_if_ready p bs dest d) as [[r d1] dest1]. reflexivity.
  - change (watch p bs (S (S k)) d dest) with
      (let '(r, d1, dest1) := generate_image_if_ready p bs dest d in
       let '(rest, d2, dest2) := watch p bs (S k) d1 dest1 in ((r, d_ambient d1, dest1) :: rest, d2, dest2)).
    cbn [watch] in IH |- *. destruct (generate_image_if_ready p bs dest d) as [[r d1] dest1]. rewrite IH.
    destruct (watch p bs k d1 dest1) as [[s1 d2] dest2].
    destruct (generate_image_if_ready p bs dest2 d2) as [[r3 d3] dest3]. reflexivity.
Qed.
Lemma played_snoc (c : calib FO) lay s n ta dest sights n' t' dest' : played (ER := ER) (EW := EW) c lay s f n ta dest sights n' t' dest' ->
  forall last n'' t'' dest'', played c lay s f n' t' dest' last n'' t'' dest'' ->
  played c lay s f n ta dest (sights ++ last) n'' t'' dest''.
Proof.
  intros H. induction H; intros last n'' t'' dest'' Hl; cbn [app]; [exact Hl|constructor; auto|econstructor; eauto].
Qed.

(** When a call returns, every frame that was finished before the call began has been delivered. *)
Theorem C89_up_to_date : forall k lay d dest n sights d1 dest1 r d2 dest2,
  streaming lay d -> caught_up v f t n (dev (d_bus d)) ->
  watch p bs k d dest = (sights, d1, dest1) ->
  generate_image_if_ready p bs dest1 d1 = (r, d2, dest2) ->
  exists n', played (d_calibration d) lay (settings_of d) f n (d_ambient d) dest
               (sights ++ [(r, d_ambient d2, dest2)]) n' (d_ambient d2) dest2 /\
    (frames v (dev (d_bus d1)) <= n' <= frames v (dev (d_bus d2)))%nat.
Proof.
  intros k lay d dest n sights d1 dest1 r d2 dest2 Hst Hc Hw H.
  pose proof (watch_run k lay d dest n Hst Hc) as W. rewrite Hw in W. destruct W as (W1 & W2 & W3 & n1 & W4 & W5).
  destruct (poll_once lay d1 dest1 n1 r d2 dest2 W1 W5 H) as (_ & E1 & E2 & HH).
  rewrite W2, W3 in HH.
  destruct HH as [(-> & -> & Ea & Hle & Hc1)|(-> & Ea & Him & Hle & Hc1)].
  - exists n1. split; [|split; [exact Hle|destruct Hc1 as [[-> _]|[-> _]]; lia]]. eapply played_snoc; [exact W4|]. rewrite Ea. do 2 constructor.
  - exists (S n1). split; [|split; [exact Hle|destruct Hc1 as [[-> _]|[-> _]]; lia]]. eapply played_snoc; [exact W4|].
    eapply played_frame; [exact Ea|exact Him|]. constructor.
Qed.

(** If time passes during each status read, every frame is delivered after finitely many calls. *)
Theorem C89_every_frame_comes : forall N lay d dest n,
  streaming lay d -> caught_up v f t n (dev (d_bus d)) ->
  (forall b buf b' out e, length buf = 2%nat -> dev_write_read bs b (d_address d) status_reg buf = (b', out, e) ->
     clock v b < clock v b') ->
  exists k sights d' dest' n', watch p bs k d dest = (sights, d', dest') /\
    played (d_calibration d) lay (settings_of d) f n (d_ambient d) dest sights n' (d_ambient d') dest' /\ (N <= n')%nat.
Proof.
  intros N lay d dest n Hst Hc Htick.
  assert (G : forall k, exists sights d' dest' n', watch p bs k d dest = (sights, d', dest') /\
    streaming lay d' /\ d_address d' = d_address d /\ settings_of d' = settings_of d /\ d_calibration d' = d_calibration d /\
    played (d_calibration d) lay (settings_of d) f n (d_ambient d) dest sights n' (d_ambient d') dest' /\
    caught_up v f t n' (dev (d_bus d')) /\ clock v (dev (d_bus d)) + Z.of_nat k <= clock v (dev (d_bus d'))).
  { induction k as [|k IH].
    - exists [], d, dest, n. repeat (split; [reflexivity|assumption|..]); try (split; [reflexivity|]).
      all: try (split; [exact Hst|]). all: repeat (split; [reflexivity|]). split; [constructor|]. split; [exact Hc|]. cbn; lia.
    - destruct IH as (sights & d1 & dest1 & n1 & E & I1 & I2 & I3 & I4 & I5 & I6 & I7).
      rewrite watch_snoc, E. destruct (generate_image_if_ready p bs dest1 d1) as [[r d2] dest2] eqn:E2.
      destruct (poll_once lay d1 dest1 n1 r d2 dest2 I1 I6 E2) as (P1 & P2 & P3 & HH).
      assert (Hs : step p bs d1 (OpGenerateIfReady dest1) = (bind r (fun b => Ok (OutBool b)), d2, dest2)).
      { cbn [step]. rewrite E2. reflexivity. }
      destruct (step_transcript p bs lay d1 _ _ d2 dest2 (proj1 I1) Hs) as (evs & Ht & Hp & Hown & Ha).
      assert (Hclk : clock v (dev (d_bus d1)) < clock v (dev (d_bus d2))).
      { pose proof I1 as (Hu & Hcam & _).
        assert (Hpre : exists w rest, evs = reads_word (d_address d1) status_reg w :: rest /\
          (rest = [] \/ exists sp fr v', rest = fr ++ [writes_word (d_address d1) status_reg v' None] /\
             completed (d_address d1) (frame_reads lay sp (d_access_pattern d1)) fr)).
        { destruct HH as [(-> & _)|(-> & _)].
          - destruct (C20_false_means_no_data p bs lay d1 dest1 d2 dest2 Hu E2) as (w & _ & _ & Ht').
            rewrite Ht in Ht'. apply app_inv_head in Ht'. eauto.
          - destruct (C21_ready_frame_consumed_in_order p bs lay d1 dest1 d2 dest2 Hu E2) as (w & v' & fr & Ht' & _ & _ & Hcm & _).
            rewrite Ht in Ht'. apply app_inv_head in Ht'. eexists. eexists. split; [exact Ht'|]. right. eauto. }
        destruct Hpre as (w & rest & -> & Hrest).
        change (reads_word (d_address d1) status_reg w :: rest) with ([reads_word (ER := ER) (EW := EW) (d_address d1) status_reg w] ++ rest) in Hp.
        apply performed_split in Hp. destruct Hp as (b1 & Hp1 & Hp2).
        assert (Hlt : clock v (dev (d_bus d1)) < clock v b1).
        { unfold reads_word in Hp1. inversion Hp1 as [|? ? ? buf b2 out ? ? ? Hd Hp' Ec|]; subst. inversion Hp'; subst.
          assert (El : length buf = 2%nat).
          { match goal with H : clip buf out = _ |- _ => apply (f_equal (@length Z)) in H; rewrite clip_length in H; exact H end. }
          rewrite I2 in Hd. eapply Htick; [exact El|exact Hd]. }
        assert (Hle : clock v b1 <= clock v (dev (d_bus d2))).
        { destruct Hrest as [->|(sp & fr & v' & -> & Hcm)]; [inversion Hp2; subst; lia|].
          apply performed_split in Hp2. destruct Hp2 as (b2 & Hp2 & Hp3).
          destruct (stream_write bs _ v f t Hcam _ _ _ _ Hp3) as (_ & Hc3 & _).
          assert (clock v b1 <= clock v b2); [|lia].
          assert (Hin : Forall in_range (frame_reads lay sp (d_access_pattern d1))) by (eapply frame_in_range; apply Hu).
          clear - Hcam Hcm Hp2 Hin. revert b1 Hp2.
          induction Hcm as [|rd x reads evs Hx Hcm IHc]; intros b1 Hp2; [inversion Hp2; subst; lia|].
          inversion Hin as [|? ? [R1 [R2 R3]] Hin']; subst. destruct Hx as (data & -> & Hl).
          inversion Hp2 as [|? ? ? buf b3 out ? ? ? Hd Hp' Ec|]; subst.
          rewrite clip_length in Hl. rewrite <- Hl in R2.
          destruct (fr_ram_read _ _ _ _ _ Hcam _ _ _ _ _ _ R1 R2 Hd) as (_ & Hc & _).
          pose proof (IHc Hin' b3 Hp'). lia. }
        lia. }
      rewrite I3, I4 in HH.
      assert (Hn : exists n2, played (d_calibration d) lay (settings_of d) f n (d_ambient d) dest
               (sights ++ [(r, d_ambient d2, dest2)]) n2 (d_ambient d2) dest2 /\ caught_up v f t n2 (dev (d_bus d2))).
      { destruct HH as [(-> & -> & Ea & Hle & Hc1)|(-> & Ea & Him & Hle & Hc1)].
        - exists n1. split; [|exact Hc1]. eapply played_snoc; [exact I5|]. rewrite Ea. do 2 constructor.
        - exists (S n1). split; [|exact Hc1]. eapply played_snoc; [exact I5|]. eapply played_frame; [exact Ea|exact Him|constructor]. }
      destruct Hn as (n2 & Hn1 & Hn2).
      exists (sights ++ [(r, d_ambient d2, dest2)]), d2, dest2, n2.
      split; [reflexivity|]. split; [exact P1|]. split; [congruence|]. split; [congruence|]. split; [congruence|].
      split; [exact Hn1|]. split; [exact Hn2|]. lia. }
  destruct N as [|N].
  { destruct (G O) as (sights & d' & dest' & n' & E & _ & _ & _ & _ & I5 & _).
    exists O, sights, d', dest', n'. split; [exact E|]. split; [exact I5|lia]. }
  (* wait until the frame after N is finished *)
  set (k := Z.to_nat (film_time f (S (S N)) - clock v (dev (d_bus d)))).
  destruct (G k) as (sights & d' & dest' & n' & E & I1 & _ & _ & _ & I5 & I6 & I7).
  exists k, sights, d', dest', n'. split; [exact E|]. split; [exact I5|].
  assert (Hf : (S N < frames v (dev (d_bus d')))%nat).
  { destruct I1 as (_ & Hcam & _). apply (fr_frames _ _ _ _ _ Hcam). unfold k in I7. lia. }
  destruct I6 as [[I6 _]|[I6 _]]; rewrite I6 in Hf; lia.
Qed.

(** Every pixel of the destination shows the latest delivered frame that measured it. *)
Theorem C89_latest_measurement : forall (c : calib FO) lay s n ta dest sights n' t' dest' m i x,
  played (ER := ER) (EW := EW) c lay s f n ta dest sights n' t' dest' ->
  nth_error dest i = Some x -> (n < m <= n')%nat -> measured lay (film_page f m) (set_pattern s) i = true ->
  (forall m', (m < m' <= n')%nat -> measured lay (film_page f m') (set_pattern s) i = false) ->
  nth_error dest' i = Some (doc_pixel c lay s (film_page f m) (film_mem f m) false i).
Proof.
  assert (Hlast : forall (c : calib FO) lay s n ta dest sights n' t' dest', played (ER := ER) (EW := EW) c lay s f n ta dest sights n' t' dest' ->
    (n <= n')%nat /\ forall i x, nth_error dest i = Some x ->
      (forall m', (n < m' <= n')%nat -> measured lay (film_page f m') (set_pattern s) i = false) -> nth_error dest' i = Some x).
  { intros c lay s n ta dest sights n' t' dest' H. induction H as [| n ta dest rest n' t' dest' H [IH1 IH2]|n ta dest t1 dest1 rest n' t' dest' Ht1 [Hl Him] H [IH1 IH2]].
    - split; [lia|]. auto.
    - split; [lia|]. auto.
    - split; [lia|]. intros i x Hx Hn. apply IH2; [|intros m' Hm'; apply Hn; lia].
      rewrite (Him i x Hx), (Hn (S n)) by lia. reflexivity. }
  intros c lay s n ta dest sights n' t' dest' m i x H Hx Hm Hme Hlater. revert x Hx Hm.
  induction H as [| n ta dest rest n' t' dest' H IH|n ta dest t1 dest1 rest n' t' dest' Ht1 [Hl Him] H IH]; intros x Hx Hm; [lia|eapply IH; eauto|].
  pose proof (Him i x Hx) as Hi. destruct (Nat.eq_dec m (S n)) as [->|Hne].
  - rewrite Hme in Hi. apply (proj2 (Hlast _ _ _ _ _ _ _ _ _ _ H)); [exact Hi|]. intros m' Hm'. apply Hlater. lia.
  - eapply IH; [exact Hlater|exact Hi|lia].
Qed.

(** With alternating subpages, two deliveries complete the picture: every pixel comes from one of the two latest frames. *)
Theorem C89_full_picture : forall k lay d dest n sights d' dest' n',
  streaming lay d -> caught_up v f t n (dev (d_bus d)) -> watch p bs k d dest = (sights, d', dest') ->
  played (d_calibration d) lay (settings_of d) f n (d_ambient d) dest sights (S (S n')) (d_ambient d') dest' ->
  (n <= n')%nat -> film_page f (S n') <> film_page f (S (S n')) ->
  forall i, (i < lay_pixels lay)%nat -> (i < length dest)%nat ->
  exists m, (m = S n' \/ m = S (S n'))%nat /\ measured lay (film_page f m) (d_access_pattern d) i = true /\
    nth_error dest' i = Some (doc_pixel (d_calibration d) lay (settings_of d) (film_page f m) (film_mem f m) false i).
Proof.
  intros k lay d dest n sights d' dest' n' Hst Hc Hw Hpl Hn Hpg i Hi Hid.
  destruct (nth_error dest i) as [x|] eqn:Ex; [|apply nth_error_None in Ex; lia].
  destruct (measured lay (film_page f (S (S n'))) (d_access_pattern d) i) eqn:Em.
  - exists (S (S n')). split; [auto|]. split; [exact Em|].
    eapply C89_latest_measurement; [exact Hpl|exact Ex|lia|exact Em|]. intros m' Hm'. lia.
  - pose proof (measured_cover _ lay (d_access_pattern d) _ _ i (proj1 (proj1 Hst)) Hpg Hi Em) as Em1.
    exists (S n'). split; [auto|]. split; [exact Em1|].
    eapply C89_latest_measurement; [exact Hpl|exact Ex|lia|exact Em1|]. intros m' Hm'.
    assert (m' = S (S n')) as -> by lia. exact Em.
Qed.
End Stream.
Print Assumptions C89_no_frame_lost_repeated_or_torn.
Print Assumptions C89_up_to_date.
Print Assumptions C89_every_frame_comes.
Print Assumptions C89_latest_measurement.
Print Assumptions C89_full_picture.

(** ** Concrete cases *)
(** A camera that finishes a frame every [period] ticks and alternates the subpages; its state is the time and the flag.
    A status read takes 2 ticks, any other transaction one.  All RAM words of frame [n] depend on [n]. *)
Section Reel.
Context (period : Z) (Hperiod : 0 < period).
Definition reel_state : Type := Z * bool.
Definition reel_frames (b : reel_state) : nat := Z.to_nat (fst b / period).
Definition reel_view : view reel_state := {| clock := fst; frames := reel_frames; ready := snd |}.
Definition reel : film := {|
  film_time := fun n => period * Z.of_nat n;
  film_page := fun n => if Nat.odd n then One else Zero;
  film_mem := fun n x => (100 * Z.of_nat n + x) mod 10000 |}.
Definition reel_timing : timing := {| pause := 2; slack := 1; per_byte := 0 |}.
Definition reel_after (k : Z) (b : reel_state) : reel_state :=
  (fst b + k, snd b || Nat.ltb (reel_frames b) (Z.to_nat ((fst b + k) / period))).
Definition reel_status (b : reel_state) : Z :=
  (if snd b then 8 else 0) + (if Nat.odd (reel_frames b) then 1 else 0).
Definition reel_bus : bus reel_state string string := {|
  dev_write_read := fun b _ wb buf =>
    let x := 256 * nth 0 wb 0 + nth 1 wb 0 in
    if x =? 0x8000 then let b' := reel_after 2 b in (b', [reel_status b' / 256; reel_status b' mod 256], None)
    else if x =? 0x800D then (reel_after 1 b, [0x09; 0x01], None)
    else (reel_after 1 b, mem_bytes (film_mem reel (reel_frames b)) x (length buf), None);
  dev_write := fun b _ bytes =>
    let v := 256 * nth 2 bytes 0 + nth 3 bytes 0 in
    ((fst b + 1, bit v 3), None) |}.

Lemma reel_status_facts b : word (reel_status b) /\ bit (reel_status b) 3 = snd b /\
  s_subpage (status_doc (reel_status b)) = (if Nat.odd (reel_frames b) then One else Zero).
Proof. unfold reel_status. destruct (snd b), (Nat.odd (reel_frames b)); vm_compute; repeat split; discriminate. Qed.
Lemma reel_frames_spec b n : (n < reel_frames b)%nat <-> period * Z.of_nat (S n) <= fst b.
Proof.
  unfold reel_frames. split; intros H.
  - assert (Z.of_nat (S n) <= fst b / period) by lia. pose proof (Z.mul_div_le (fst b) period Hperiod). nia.
  - assert (Z.of_nat (S n) <= fst b / period) by (apply Z.div_le_lower_bound; [exact Hperiod|exact H]). lia.
Qed.
Lemma reel_after_frames k b : reel_frames (reel_after k b) = Z.to_nat ((fst b + k) / period).
Proof. reflexivity. Qed.
Lemma reel_mono k b : 0 <= k -> (reel_frames b <= reel_frames (reel_after k b))%nat.
Proof.
  intros Hk. rewrite reel_after_frames. unfold reel_frames.
  pose proof (Z.div_le_mono (fst b) (fst b + k) period Hperiod ltac:(lia)). lia.
Qed.

(** It is free running. *)
Lemma reel_runs a : free_running reel_bus a reel_view reel reel_timing.
Proof.
  constructor.
  - intros n x. cbn [film_mem reel]. unfold word. pose proof (Z.mod_pos_bound (100 * Z.of_nat n + x) 10000). lia.
  - intros b n. cbn [frames clock reel_view film_time reel]. apply reel_frames_spec.
  - intros b buf b' out e Hl H. cbn [dev_write_read reel_bus status_reg nth] in H.
    change (256 * 128 + 0 =? 32768) with true in H. cbv iota zeta in H. injection H as <- <- <-.
    destruct (reel_status_facts (reel_after 2 b)) as (S1 & S2 & S3).
    split; [reflexivity|]. cbn [clock frames ready reel_view pause reel_timing].
    split; [cbn [reel_after fst]; lia|]. split; [reflexivity|].
    exists (reel_status (reel_after 2 b)), (reel_frames (reel_after 2 b)).
    split; [reflexivity|]. split; [exact S1|]. split; [split; [apply reel_mono; lia|apply Nat.le_refl]|].
    split; [exact S2|]. exact S3.
  - intros b x buf b' out e Hx Hr H. cbn [dev_write_read reel_bus nth] in H. rewrite word_back in H.
    assert (x < 0x8000) by (assert (0 <= Z.of_nat (length buf) / 2) by (apply Z.div_pos; lia); lia).
    replace (x =? 32768) with false in H by (symmetry; apply Z.eqb_neq; lia).
    replace (x =? 32781) with false in H by (symmetry; apply Z.eqb_neq; lia).
    injection H as <- <- <-.
    split; [reflexivity|]. cbn [clock frames ready reel_view slack per_byte reel_timing].
    split; [cbn [reel_after fst]; lia|]. split; [reflexivity|]. intros _. reflexivity.
  - intros b hi lo b' e H. cbn [dev_write reel_bus status_reg app nth] in H. injection H as <- <-.
    split; [reflexivity|]. cbn [clock frames ready reel_view slack per_byte reel_timing fst snd].
    split; [lia|]. intros _. reflexivity.
Qed.
Lemma reel_ticks b a buf b' out e : length buf = 2%nat -> dev_write_read reel_bus b a status_reg buf = (b', out, e) -> fst b < fst b'.
Proof.
  intros Hl H. cbn [dev_write_read reel_bus status_reg nth] in H.
  change (256 * 128 + 0 =? 32768) with true in H. cbv iota zeta in H. injection H as <- _ _. cbn [reel_after fst]. lia.
Qed.
Lemma reel_slow lay ap : lay = layout640 \/ lay = layout641 -> 25 <= period -> slow_enough lay ap reel_timing reel.
Proof.
  intros Hl Hp. unfold slow_enough, longest. cbn [pause slack per_byte reel_timing film_time reel].
  split; [lia|]. split; [lia|]. split; [lia|]. intros n.
  assert (fst (frame_traffic lay ap) <= 17) by (destruct Hl as [-> | ->], ap; vm_compute; discriminate). lia.
Qed.
End Reel.

(** A driver for the MLX90640 (interleaved: 17 reads per frame) on it. *)
Definition reel_driver (period : Z) : option (driver (FO := ZFO) (B := reel_state) (ER := string) (EW := string)) :=
  match new_with_calibration (reel_bus period) 24 1536 {| dev := (0, false); trace := [] |} 0x33 demo640 with
  | (Ok d, _) => Some d
  | _ => None
  end.
Lemma reel_usable period : match reel_driver period with Some d => usable d layout640 | None => True end.
Proof.
  unfold reel_driver. destruct (new_with_calibration _ _ _ _ _ _) as [r w'] eqn:E.
  destruct r as [d| | |]; try exact I.
  apply C29_new_with_calibration in E. destruct E as (evs & _ & H). inversion H as [v d0 Hv Hf|]; subst.
  destruct Hf as (_ & _ & Hc & Hh & Hb & _). unfold usable. rewrite Hc, Hh, Hb.
  split; [constructor|]. split; [cbn [d_height lay_height layout640]; lia|]. split; [|rewrite repeat_length; vm_compute; lia].
  apply demo_calib_complete; [constructor|reflexivity|cbn; lia].
Qed.
(** All hypotheses of C89 hold for it, frame 0 being the last one the program has. *)
Example C89_applies :
  match reel_driver 40 with
  | Some d => streaming Debug (reel_bus 40) (reel_view 40) (reel 40) reel_timing layout640 d /\
      caught_up (reel_view 40) (reel 40) reel_timing 0 (dev (d_bus d)) /\ d_access_pattern d = Interleave
  | None => False
  end.
Proof.
  pose proof (reel_usable 40) as Hu.
  assert (Hd : match reel_driver 40 with
               | Some d => dev (d_bus d) = (1, false) /\ d_access_pattern d = Interleave /\ v_dd_25 _ (d_calibration d) = -12544
               | None => False end) by (vm_compute; auto).
  destruct (reel_driver 40) as [d|]; [|exact Hd]. destruct Hd as (E1 & E2 & E3).
  split; [|split; [left; rewrite E1; split; reflexivity|exact E2]].
  split; [exact Hu|]. split; [apply reel_runs; lia|]. split; [apply reel_slow; [auto|lia]|].
  intros _ m. rewrite E3. cbn [film_mem reel]. unfold signed.
  match goal with |- context [?x mod 10000] => pose proof (Z.mod_pos_bound x 10000 ltac:(lia)) end.
  match goal with |- context [?x <? 32768] => replace (x <? 32768) with true by (symmetry; apply Z.ltb_lt; lia) end. lia.
Qed.
(** Sixty calls: all frames finished by then have been delivered.  A camera that is too fast (a frame every 15 ticks,
    20 are needed to fetch one) drops half of its frames. *)
Definition delivered {ER EW} (l : list (sight (FO := ZFO) (ER := ER) (EW := EW))) : list Z :=
  map (fun x => match fst (fst x) with Ok true => 1 | Ok false => 0 | _ => -1 end) l.
Example C89_concrete :
  match reel_driver 40, reel_driver 15 with
  | Some d, Some d' =>
      let '(l, d1, dest1) := watch Debug (reel_bus 40) 60 d blank640 in
      let '(l', d1', _) := watch Debug (reel_bus 15) 60 d' blank640 in
      let got := fold_right Z.add 0 (delivered l) in
      got = Z.of_nat (reel_frames 40 (dev (d_bus d1))) /\ got = 4 /\
      2 * fold_right Z.add 0 (delivered l') <= Z.of_nat (reel_frames 15 (dev (d_bus d1'))) /\
      nth 0 dest1 0 <> 0
  | _, _ => False
  end.
Proof. vm_compute. repeat split; discriminate. Qed.

(** Real numbers, in nanoseconds, with 9 clock cycles per byte, 10 us lost per transaction and half a millisecond between polls:
    on a 400 kHz bus the MLX90640 in chess pattern can be polled at 16 Hz but not at 32 Hz, the MLX90641 at 64 Hz;
    at 1 MHz the MLX90640 can be polled at 64 Hz. *)
Definition bus_400k : timing := {| pause := 500000; slack := 10000; per_byte := 22500 |}.
Definition bus_1M : timing := {| pause := 500000; slack := 10000; per_byte := 9000 |}.
Definition every (ns : Z) (f : film) : film :=
  {| film_time := fun n => ns * Z.of_nat n; film_page := film_page f; film_mem := film_mem f |}.
Lemma C89_rates : forall f,
  slow_enough layout640 Chess bus_400k (every (1000000000 / 16) f) /\
  ~ slow_enough layout640 Chess bus_400k (every (1000000000 / 32) f) /\
  slow_enough layout641 Chess bus_400k (every (1000000000 / 64) f) /\
  slow_enough layout640 Chess bus_1M (every (1000000000 / 64) f).
Proof.
  intros f. unfold slow_enough, longest. cbn [bus_400k bus_1M pause slack per_byte every film_time].
  change (frame_traffic layout640 Chess) with (6, 1570). change (frame_traffic layout641 Chess) with (11, 438). cbn [fst snd].
  change (1000000000 / 16) with 62500000. change (1000000000 / 32) with 31250000. change (1000000000 / 64) with 15625000.
  split; [repeat split; try discriminate; intros n; lia|].
  split; [intros (_ & _ & _ & H); specialize (H O); lia|].
  split; (repeat split; try discriminate; intros n; lia).
Qed.
