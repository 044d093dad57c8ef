(** * Property C90: [synchronize] gets a program in step with a free-running camera, whatever it did before. *)
From Verif Require Import Base FloatOps Register Bus Camera Cam640 Cam641 Calc CalcFacts Driver
  BitFacts SpecRegister RegisterFacts SpecCamera CameraFacts SpecDriver DriverFacts StepFacts Demo
  SpecImage SpecCall ImageFacts Mock SpecMock P_Bus P_Image P_Frames P_ImageDemo TraceFacts SpecHold HoldFacts P_Hold
  SpecTraffic P_Traffic P_Calc SpecStream StreamFacts SyncFacts P_Stream.

Section Sync.
Context {FO : FloatOps} (p : profile) {B ER EW : Type} (bs : bus B ER EW) (v : view B) (f : film) (t : timing).
Notation driver := (driver (FO := FO) (B := B) (ER := ER) (EW := EW)).
Notation event := (event ER EW).
Notation F := (F FO).
Implicit Types d : driver.

(** A usable driver on a free-running camera whose frames come slowly enough for a program that polls half as often,
    writing a register taking no longer than a poll. *)
Definition sync_streaming lay d : Prop :=
  free_running bs (d_address d) v f t /\ 0 <= pause t /\ slack t + 5 * per_byte t <= pause t /\
  streaming p bs v f (patient t) lay d.

Lemma gap lay ap : slow_enough lay ap (patient t) f -> (exists c : camera FO, documented c lay) -> 0 <= pause t /\
  forall n, 2 * pause t < film_time f (S (S n)) - film_time f (S n).
Proof.
  intros (H1 & H2 & H3 & H4) (c & Hd). cbn [patient pause slack per_byte] in *. split; [lia|]. intros n. specialize (H4 n).
  unfold longest in H4. cbn [patient pause slack per_byte] in H4.
  assert (0 <= fst (frame_traffic lay ap) /\ 0 <= snd (frame_traffic lay ap)).
  { destruct Hd, ap; vm_compute; split; discriminate. }
  nia.
Qed.

(** When [synchronize] returns, exactly one frame is outstanding, the newest, and it was finished after the call began.
    Nothing is assumed about frames or the flag before. *)
Theorem C90_synchronize_gets_in_step : forall lay d fuel d',
  sync_streaming lay d -> synchronize bs fuel d = (Ok tt, d') ->
  exists n, (frames v (dev (d_bus d)) <= n)%nat /\ frames v (dev (d_bus d')) = S n /\ ready v (dev (d_bus d')) = true /\
    clock v (dev (d_bus d)) < film_time f (S n) /\
    caught_up v f (patient t) n (dev (d_bus d')) /\ streaming p bs v f (patient t) lay d' /\
    settings_of d' = settings_of d /\ d_calibration d' = d_calibration d /\ d_ambient d' = d_ambient d.
Proof.
  intros lay d fuel d' (Hcam & Hpa & Hw & Hst) H. pose proof Hst as (Hu & _ & Hsl & Hvo).
  destruct (gap lay _ Hsl (ex_intro _ _ (proj1 Hu))) as [_ Hgap].
  assert (Hs : step p bs d (OpSynchronize fuel) = (Ok OutUnit, d', [])).
  { cbn [step]. rewrite H. reflexivity. }
  destruct (step_transcript p bs lay d _ _ d' _ Hu Hs) as (evs & Ht & Hp & _ & Ha).
  pose proof (usable_step p bs lay d _ _ d' _ Hu Hs) as Hu'.
  destruct (C27_synchronize _ _ _ _ bs fuel d (Ok tt) d' H) as (w' & evs' & Ed & Ht' & Hrun).
  rewrite Ed in Ht. cbn [d_bus with_bus] in Ht. rewrite Ht in Ht'. apply app_inv_head in Ht'. subst evs'.
  inversion Hrun as [| |w w1 polls r Hwd Hm Hpoll]; subst.
  inversion Hpoll as [waits x Hwaits Hx Hlen| |]; subst. destruct Hx as (wx & Hwx & Hx3 & ->).
  change (reads_word (d_address d) status_reg w :: writes_word (d_address d) status_reg w1 None ::
    (waits ++ [reads_word (d_address d) status_reg wx])) with
    ([reads_word (ER := ER) (EW := EW) (d_address d) status_reg w; writes_word (d_address d) status_reg w1 None] ++
     (waits ++ [reads_word (d_address d) status_reg wx])) in Hp.
  apply performed_split in Hp. destruct Hp as (b2 & Hp1 & Hp). apply performed_split in Hp. destruct Hp as (b3 & Hp2 & Hp3).
  destruct (request_caught_up bs _ v f t Hcam Hpa Hgap w w1 _ b2 Hw (proj1 (proj2 Hm)) Hwd Hp1) as (n & Hn & Hc2).
  pose proof (polls_wait bs _ v f t Hcam Hpa Hgap waits b2 b3 n Hwaits Hc2 Hp2) as Hc3.
  destruct (proj2 (poll_step bs _ v f t Hcam Hpa Hgap wx b3 _ n Hwx Hc3 Hp3) Hx3) as (E1 & E2 & E3).
  exists n. split; [exact Hn|]. split; [exact E1|]. split; [exact E2|].
  split.
  { pose proof (frames_next bs _ v f t Hcam (dev (d_bus d))) as Hnx.
    destruct (Z_lt_le_dec (clock v (dev (d_bus d))) (film_time f (S n))) as [|G]; [assumption|exfalso].
    apply (fr_frames _ _ _ _ _ Hcam) in G. lia. }
  split; [right; auto|]. split; [|repeat split].
  split; [exact Hu'|]. split; [exact (patient_runs bs _ v f t Hcam Hpa)|]. split; [exact Hsl|exact Hvo].
Qed.

(** From then on polling delivers every frame, starting with the one [synchronize] waited for, which the first call delivers. *)
Theorem C90_then_poll : forall lay d fuel d1 k dest sights d2 dest2,
  sync_streaming lay d -> synchronize bs fuel d = (Ok tt, d1) ->
  watch p bs (S k) d1 dest = (sights, d2, dest2) ->
  exists n n' image rest,
    (frames v (dev (d_bus d)) <= n)%nat /\ frames v (dev (d_bus d1)) = S n /\
    played (d_calibration d) lay (settings_of d) f n (d_ambient d) dest sights n' (d_ambient d2) dest2 /\
    sights = (Ok true, Some (doc_t_a (d_calibration d) lay (film_mem f (S n))), image) :: rest /\
    image_stored (d_calibration d) lay (settings_of d) (film_page f (S n)) (film_mem f (S n)) false dest image /\
    (n' <= frames v (dev (d_bus d2)) <= S n')%nat.
Proof.
  intros lay d fuel d1 k dest sights d2 dest2 Hst H Hw.
  destruct (C90_synchronize_gets_in_step lay d fuel d1 Hst H) as (n & N1 & N2 & N3 & _ & N4 & N5 & E1 & E2 & E3).
  destruct (C89_no_frame_lost_repeated_or_torn p bs v f (patient t) (S k) lay d1 dest n sights d2 dest2 N5 N4 Hw)
    as (n' & P1 & _ & P2).
  rewrite E1, E2, E3 in P1.
  cbn [watch] in Hw. destruct (generate_image_if_ready p bs dest d1) as [[r d3] dest3] eqn:Eg.
  destruct (watch p bs k d3 dest3) as [[rest d4] dest4] eqn:Ew.
  destruct (poll_once p bs v f (patient t) lay d1 dest n r d3 dest3 N5 N4 Eg) as (_ & _ & _ & HH).
  destruct HH as [(_ & _ & _ & Hf & _)|(-> & Ea & Him & _)]; [exfalso; lia|].
  rewrite E1, E2 in Him. rewrite E2 in Ea.
  exists n, n', dest3, rest. split; [exact N1|]. split; [exact N2|]. split; [exact P1|].
  split; [rewrite <- Ea; congruence|]. split; [exact Him|exact P2].
Qed.


(** ** [synchronize] returns *)
Lemma status_performed d r d' : status_register_ bs d = (r, d') ->
  exists x, performed bs (dev (d_bus d)) [x] (dev (d_bus d')) /\ d_address d' = d_address d /\
    ((exists w, r = Ok w /\ word w /\ x = reads_word (d_address d) status_reg w) \/
     (exists e, r = Err (I2cWriteReadError e) /\ read_fails (d_address d) status_reg e x)).
Proof.
  intros H. destruct (prims_moved bs d d' (prims_one bs d d' (P_status_read bs d r d' H))) as (evs & Ht & Hp).
  apply status_register_spec in H. destruct H as (w' & -> & HH). cbn [d_bus with_bus] in *.
  destruct HH as [(w & -> & Hw & Ht')|(e & x & -> & Hx & Ht')]; rewrite Ht in Ht'; apply app_inv_head in Ht'; subst evs;
    eexists; (split; [exact Hp|]); (split; [reflexivity|]); [left|right]; eauto.
Qed.
Lemma set_status_performed w d r d' : word w -> set_status_register bs w d = (r, d') ->
  exists e, performed bs (dev (d_bus d)) [writes_word (d_address d) status_reg w e] (dev (d_bus d')) /\
    d_address d' = d_address d /\ r = match e with None => Ok tt | Some e => Err (I2cWriteError e) end.
Proof.
  intros Hww H. destruct (prims_moved bs d d' (prims_one bs d d' (P_status_write bs w d r d' Hww H))) as (evs & Ht & Hp).
  apply set_status_register_spec in H. destruct H as (w' & e & -> & Ht' & ->). cbn [d_bus with_bus] in *.
  rewrite Ht in Ht'. apply app_inv_head in Ht'. subst evs. exists e. split; [exact Hp|]. split; reflexivity.
Qed.

Lemma poll_ends : 0 <= pause t -> (forall n, 2 * pause t < film_time f (S (S n)) - film_time f (S n)) ->
  forall N w d n, free_running bs (d_address d) v f t ->
  (forall b buf b' out e, length buf = 2%nat -> dev_write_read bs b (d_address d) status_reg buf = (b', out, e) ->
     clock v b < clock v b') ->
  word w -> caught_up v f t n (dev (d_bus d)) ->
  film_time f (S n) + pause t - clock v (dev (d_bus d)) < Z.of_nat N ->
  exists d', poll bs N w d = (Ok tt, d').
Proof.
  intros Hpa Hgap. induction N as [|N IH]; intros w d n Hcam Htick Hw Hc HN.
  - exfalso. destruct Hc as [[Hc1 _]|(_ & _ & Hc3)]; [|lia].
    pose proof (frames_next bs _ v f t Hcam (dev (d_bus d))) as Hnx. rewrite Hc1 in Hnx. lia.
  - cbn [poll]. destruct (new_data w); [eauto|]. unfold bindS.
    destruct (status_register_ bs d) as [r d1] eqn:E. destruct (status_performed _ _ _ E) as (x & Hp & Ha & HH).
    destruct HH as [(w1 & -> & Hw1 & ->)|(e & _ & Hx)].
    + destruct (poll_step bs _ v f t Hcam Hpa Hgap w1 _ _ n Hw1 Hc Hp) as [H0 _].
      destruct (bit w1 3) eqn:E3.
      * assert (Hnd : new_data w1 = true) by (rewrite (new_data_doc w1 Hw1); exact E3).
        destruct N; cbn [poll]; rewrite Hnd; eauto.
      * apply (IH w1 d1 n); [rewrite Ha; exact Hcam|rewrite Ha; exact Htick|exact Hw1|exact (H0 eq_refl)|].
        assert (clock v (dev (d_bus d)) < clock v (dev (d_bus d1))); [|lia].
        unfold reads_word in Hp. inversion Hp as [|? ? ? buf b2 out ? ? ? Hd Hp' Ec|]; subst. inversion Hp'; subst.
        eapply Htick; [|exact Hd].
        match goal with H : clip buf out = _ |- _ => apply (f_equal (@length Z)) in H; rewrite clip_length in H; exact H end.
    + exfalso. eapply (stream_status_ok bs _ v f t Hcam); eassumption.
Qed.

(** If time passes during each status read, [synchronize] returns after finitely many polls. *)
Theorem C90_synchronize_returns : forall lay d,
  sync_streaming lay d ->
  (forall b buf b' out e, length buf = 2%nat -> dev_write_read bs b (d_address d) status_reg buf = (b', out, e) ->
     clock v b < clock v b') ->
  exists fuel d', synchronize bs fuel d = (Ok tt, d').
Proof.
  intros lay d (Hcam & Hpa & Hw & Hst) Htick. pose proof Hst as (Hu & _ & Hsl & _).
  destruct (gap lay _ Hsl (ex_intro _ _ (proj1 Hu))) as [_ Hgap].
  unfold synchronize. unfold bindS at 1.
  destruct (status_register_ bs d) as [r d1] eqn:E. destruct (status_performed _ _ _ E) as (x & Hp & Ha & HH).
  destruct HH as [(w & -> & Hw1 & ->)|(e & _ & Hx)]; [|exfalso; eapply (stream_status_ok bs _ v f t Hcam); eassumption].
  pose proof (measurement_request_spec w Hw1) as Hm.
  set (w' := set_start_measurement (set_overwrite_enabled (reset_new_data w) true)) in *.
  cbn beta zeta. unfold bindS.
  destruct (set_status_register bs w' d1) as [r1 d2] eqn:E1. destruct (set_status_performed _ _ _ _ (proj1 Hm) E1) as (e & Hp2 & Ha2 & ->).
  rewrite Ha in *. destruct (stream_write bs _ v f t Hcam _ _ _ _ Hp2) as (-> & _).
  destruct (request_caught_up bs _ v f t Hcam Hpa Hgap w w' _ (dev (d_bus d2)) Hw (proj1 (proj2 Hm)) Hw1
    (performed_app bs _ _ _ _ _ Hp Hp2)) as (n & _ & Hc).
  exists (S (Z.to_nat (film_time f (S n) + pause t - clock v (dev (d_bus d2))))).
  apply (poll_ends Hpa Hgap _ w' d2 n); [rewrite Ha2; exact Hcam|rewrite Ha2; exact Htick|apply Hm|exact Hc|]. lia.
Qed.
End Sync.
Print Assumptions C90_synchronize_gets_in_step.
Print Assumptions C90_then_poll.
Print Assumptions C90_synchronize_returns.

(** ** Concrete cases *)
(** The camera of C89, polled by a program that has slept through frames: at tick 1000, 25 frames are finished, the flag is set. *)
Definition late_driver (period : Z) : option (driver (FO := ZFO) (B := reel_state) (ER := string) (EW := string)) :=
  match reel_driver period with
  | Some d => Some (with_bus d {| dev := (1000, true); trace := trace (d_bus d) |})
  | None => None
  end.
Example C90_applies :
  match late_driver 40 with
  | Some d => sync_streaming Debug (reel_bus 40) (reel_view 40) (reel 40) reel_timing layout640 d
  | None => False
  end.
Proof.
  pose proof (reel_usable 40) as Hu.
  assert (Hd : match reel_driver 40 with
               | Some d => v_dd_25 _ (d_calibration d) = -12544
               | None => False end) by (vm_compute; auto).
  unfold late_driver. destruct (reel_driver 40) as [d|]; [|exact Hd].
  split; [apply reel_runs; lia|]. split; [cbn; lia|]. split; [cbn; lia|].
  split; [exact Hu|]. split; [apply patient_runs; [apply reel_runs; lia|cbn; lia]|].
  split.
  - cbn [d_access_pattern with_bus]. unfold slow_enough, longest. cbn [patient pause slack per_byte reel_timing film_time reel].
    split; [lia|]. split; [lia|]. split; [lia|]. intros n.
    assert (fst (frame_traffic layout640 (d_access_pattern d)) <= 17) by (destruct (d_access_pattern d); vm_compute; discriminate). lia.
  - intros _ m. cbn [d_calibration with_bus]. rewrite Hd. cbn [film_mem reel]. unfold signed.
    match goal with |- context [?x mod 10000] => pose proof (Z.mod_pos_bound x 10000 ltac:(lia)) end.
    match goal with |- context [?x <? 32768] => replace (x <? 32768) with true by (symmetry; apply Z.ltb_lt; lia) end. lia.
Qed.
(** It synchronizes after 19 polls; the first call then delivers frame 26. *)
Example C90_concrete :
  match late_driver 40 with
  | Some d =>
      let '(r, d1) := synchronize (reel_bus 40) 30 d in
      let '(l, d2, _) := watch Debug (reel_bus 40) 20 d1 blank640 in
      r = Ok tt /\ reel_frames 40 (dev (d_bus d)) = 25%nat /\ reel_frames 40 (dev (d_bus d1)) = 26%nat /\
      (length (trace (d_bus d1)) - length (trace (d_bus d)) = 21)%nat /\
      delivered l = [1; 0; 0; 0; 0; 0; 0; 0; 0; 0; 1; 0; 0; 0; 0; 0; 0; 0; 0; 0] /\
      reel_frames 40 (dev (d_bus d2)) = 27%nat
  | None => False
  end.
Proof. vm_compute. repeat split. Qed.
