(** * Property C96: several programs may use one camera by turns. *)
From Verif Require Import Base FloatOps Register Bus Camera Cam640 Cam641 Calc CalcFacts
  BitFacts SpecRegister RegisterFacts SpecCamera CameraFacts SpecDriver DriverFacts StepFacts Demo
  SpecImage SpecCall ImageFacts Mock SpecMock P_Bus P_Image P_Frames P_ImageDemo TraceFacts SpecHold HoldFacts P_Hold
  SpecTraffic P_Traffic P_Calc SpecReplay SpecStream StreamFacts P_Stream SpecStale P_Stale SpecShare Driver.

(** ** Polling by turns *)
Section Polling.
Context {FO : FloatOps} (p : profile) {B ER EW : Type} (bs : bus B ER EW) (v : view B) (f : film) (t : timing).
Notation driver := (driver (FO := FO) (B := B) (ER := ER) (EW := EW)).
Notation F := (F FO).
Implicit Types d : driver.
Implicit Types ds : nat -> driver.

Lemma put_same {X} (g : nat -> X) k x : put g k x k = x.
Proof. unfold put. rewrite Nat.eqb_refl. reflexivity. Qed.
Lemma put_other {X} (g : nat -> X) k x j : j <> k -> put g k x j = g j.
Proof. intros H. unfold put. destruct (Nat.eqb_spec j k); [contradiction|reflexivity]. Qed.

Lemma streaming_connect lay d (w : world B ER EW) : streaming p bs v f t lay (connect d w) <-> streaming p bs v f t lay d.
Proof. unfold streaming, usable. cbn [connect d_calibration d_height d_pixel_buffer d_address d_access_pattern]. tauto. Qed.

Lemma crowd_run lay : forall who ds w dests n,
  (forall k, In k who -> streaming p bs v f t lay (ds k)) -> caught_up v f t n (dev w) ->
  let '(seen, ds', w', dests') := crowd_watch p bs who ds w dests in
  exists n' nums,
    caught_up v f t n' (dev w') /\ map fst seen = who /\ length nums = length seen /\
    (n <= n')%nat /\ handed_out nums = seq (S n) (n' - n) /\
    forall k, d_calibration (ds' k) = d_calibration (ds k) /\ settings_of (ds' k) = settings_of (ds k) /\
      followed (d_calibration (ds k)) lay (settings_of (ds k)) f (d_ambient (ds k)) (dests k)
        (belongs k (combine who (combine nums (map snd seen)))) (d_ambient (ds' k)) (dests' k).
Proof.
  induction who as [|k who IH]; intros ds w dests n Hst Hc; cbn [crowd_watch].
  - exists n, []. cbn [map combine belongs filter handed_out flat_map length]. rewrite Nat.sub_diag.
    split; [exact Hc|]. split; [reflexivity|]. split; [reflexivity|]. split; [lia|]. split; [reflexivity|].
    intros k. split; [reflexivity|]. split; [reflexivity|]. constructor.
  - destruct (generate_image_if_ready p bs (dests k) (connect (ds k) w)) as [[r d1] dest1] eqn:E.
    pose proof (proj2 (streaming_connect lay (ds k) w) (Hst k (or_introl eq_refl))) as Hk.
    destruct (poll_once p bs v f t lay _ _ n r d1 dest1 Hk Hc E) as (Hst1 & E1 & E2 & HH).
    cbn [connect d_calibration d_ambient] in HH. change (settings_of (connect (ds k) w)) with (settings_of (ds k)) in HH, E1.
    change (d_calibration (connect (ds k) w)) with (d_calibration (ds k)) in E2.
    assert (Hst' : forall j, In j who -> streaming p bs v f t lay (put ds k d1 j)).
    { intros j Hj. destruct (Nat.eq_dec j k) as [->|Hne]; [rewrite put_same; exact Hst1|rewrite put_other by exact Hne].
      apply Hst. right. exact Hj. }
    assert (Hold : forall j, d_calibration (put ds k d1 j) = d_calibration (ds j) /\ settings_of (put ds k d1 j) = settings_of (ds j)).
    { intros j. destruct (Nat.eq_dec j k) as [->|Hne]; [rewrite put_same; auto|rewrite put_other by exact Hne; auto]. }
    destruct HH as [(-> & -> & Ea & _ & Hc1)|(-> & Ea & Him & _ & Hc1)].
    + specialize (IH (put ds k d1) (d_bus d1) (put dests k (dests k)) n Hst' Hc1).
      destruct (crowd_watch p bs who (put ds k d1) (d_bus d1) (put dests k (dests k))) as [[[rest ds'] w'] dests'].
      destruct IH as (n' & nums & I1 & I2 & I3 & I4 & I5 & I6).
      exists n', (None :: nums). cbn [map fst snd length handed_out flat_map app combine].
      split; [exact I1|]. split; [congruence|]. split; [congruence|]. split; [exact I4|]. split; [exact I5|].
      intros j. destruct (I6 j) as (J1 & J2 & J3). destruct (Hold j) as [O1 O2]. rewrite O1, O2 in *.
      split; [exact J1|]. split; [exact J2|]. unfold belongs. cbn [filter fst].
      destruct (Nat.eqb_spec k j) as [<-|Hne].
      * rewrite !put_same in J3. cbn [map snd]. rewrite Ea in *. apply followed_wait. exact J3.
      * rewrite !put_other in J3 by (intros ->; apply Hne; reflexivity). exact J3.
    + specialize (IH (put ds k d1) (d_bus d1) (put dests k dest1) (S n) Hst' Hc1).
      destruct (crowd_watch p bs who (put ds k d1) (d_bus d1) (put dests k dest1)) as [[[rest ds'] w'] dests'].
      destruct IH as (n' & nums & I1 & I2 & I3 & I4 & I5 & I6).
      exists n', (Some (S n) :: nums). cbn [map fst snd length handed_out flat_map app combine].
      split; [exact I1|]. split; [congruence|]. split; [congruence|]. split; [lia|].
      split. { replace (n' - n)%nat with (S (n' - S n)) by lia. cbn [seq]. f_equal. exact I5. }
      intros j. destruct (I6 j) as (J1 & J2 & J3). destruct (Hold j) as [O1 O2]. rewrite O1, O2 in *.
      split; [exact J1|]. split; [exact J2|]. unfold belongs. cbn [filter fst].
      destruct (Nat.eqb_spec k j) as [<-|Hne].
      * rewrite !put_same in J3. cbn [map snd]. eapply followed_frame; [exact Ea|exact Him|exact J3].
      * rewrite !put_other in J3 by (intros ->; apply Hne; reflexivity). exact J3.
Qed.

(** However the turns are taken: no call fails, and the frames [n + 1 .. n'] are handed out in order, each to exactly
    one call of one user; nobody's destination shows anything but the frames he was given. *)
Theorem C96_each_frame_goes_to_one_user : forall lay who ds w dests n seen ds' w' dests',
  (forall k, In k who -> streaming p bs v f t lay (ds k)) -> caught_up v f t n (dev w) ->
  crowd_watch p bs who ds w dests = (seen, ds', w', dests') ->
  map fst seen = who /\
  exists n' nums, length nums = length who /\
    (n' <= frames v (dev w') <= S n')%nat /\ caught_up v f t n' (dev w') /\
    (n <= n')%nat /\ handed_out nums = seq (S n) (n' - n) /\
    forall k, followed (d_calibration (ds k)) lay (settings_of (ds k)) f (d_ambient (ds k)) (dests k)
        (belongs k (combine who (combine nums (map snd seen)))) (d_ambient (ds' k)) (dests' k).
Proof.
  intros lay who ds w dests n seen ds' w' dests' Hst Hc H.
  pose proof (crowd_run lay who ds w dests n Hst Hc) as W. rewrite H in W.
  destruct W as (n' & nums & W1 & W2 & W3 & W4 & W5 & W6). split; [exact W2|]. exists n', nums.
  split; [rewrite W3, <- W2, map_length; reflexivity|].
  split; [destruct W1 as [[-> _]|[-> _]]; lia|]. split; [exact W1|]. split; [exact W4|]. split; [exact W5|].
  intros k. apply W6.
Qed.

(** A pixel of a user's destination changes only by a frame he was given: if none of those measured it, it stays as it was
    however long the program runs. *)
Theorem C96_only_own_frames_show : forall (c : calib FO) lay s ta dest l t' dest' i,
  followed (ER := ER) (EW := EW) c lay s f ta dest l t' dest' ->
  (forall m, In (Some m) (map fst l) -> measured lay (film_page f m) (set_pattern s) i = false) ->
  nth_error dest' i = nth_error dest i.
Proof.
  intros c lay s ta dest l t' dest' i H.
  induction H as [ta dest|ta dest rest t' dest' H IH|m ta dest t1 dest1 rest t' dest' Et [Hl Him] H IH]; intros Hm.
  - reflexivity.
  - apply IH. intros m Hin. apply Hm. right. exact Hin.
  - rewrite IH by (intros m' Hin; apply Hm; right; exact Hin).
    destruct (nth_error dest i) as [x|] eqn:Ex.
    + rewrite (Him i x Ex), (Hm m) by (left; reflexivity). reflexivity.
    + apply nth_error_None in Ex. apply nth_error_None. rewrite Hl. exact Ex.
Qed.

(** The latest of the frames he was given that measured it, otherwise. *)
Theorem C96_latest_own_frame : forall (c : calib FO) lay s ta dest early m late t' dest' i x one,
  followed (ER := ER) (EW := EW) c lay s f ta dest (early ++ (Some m, one) :: late) t' dest' ->
  nth_error dest i = Some x -> measured lay (film_page f m) (set_pattern s) i = true ->
  (forall m', In (Some m') (map fst late) -> measured lay (film_page f m') (set_pattern s) i = false) ->
  nth_error dest' i = Some (doc_pixel c lay s (film_page f m) (film_mem f m) false i).
Proof.
  intros c lay s ta dest early m late t' dest' i x one H Hx Hm Hl.
  revert ta dest x H Hx. induction early as [|e early IH]; intros ta dest x H Hx; cbn [app] in H.
  - inversion H as [| |m0 ta0 dest0 t1 dest1 rest t0 dest0' Et [Hlen Him] Hrest]; subst.
    rewrite (C96_only_own_frames_show _ _ _ _ _ _ _ _ i Hrest Hl).
    rewrite (Him i x Hx), Hm. reflexivity.
  - inversion H as [|ta0 dest0 rest t0 dest0' Hrest|m0 ta0 dest0 t1 dest1 rest t0 dest0' Et [Hlen Him] Hrest]; subst.
    + eapply IH; eassumption.
    + pose proof (Him i x Hx) as Hi.
      destruct (measured lay (film_page f m0) (set_pattern s) i); eapply IH; eassumption.
Qed.
End Polling.
Print Assumptions C96_each_frame_goes_to_one_user.
Print Assumptions C96_only_own_frames_show.
Print Assumptions C96_latest_own_frame.

(** ** Settings by turns *)
Section Settings.
Context {FO : FloatOps} (p : profile) {B ER EW : Type} (bs : bus B ER EW) (ctl : B -> Z).
Notation driver := (driver (FO := FO) (B := B) (ER := ER) (EW := EW)).
Notation op := (op (FO := FO)).
Notation event := (event ER EW).
Implicit Types d : driver.
Implicit Types ds : nat -> driver.
Hypothesis Hctl : control_register_is bs ctl.

Lemma unwritten_kept : forall (evs : list event) b b', performed bs b evs b' ->
  Forall (fun x => is_read x \/ ~ about_control x) evs -> ctl b' = ctl b.
Proof.
  intros evs b b' H. induction H as [b|b i2c wb buf b1 out e evs b2 Hd H IH|b i2c bytes b1 e evs b2 Hd H IH]; intros Hf; [reflexivity| |];
    inversion Hf as [|? ? Hx Hf']; subst; rewrite (IH Hf').
  - eapply ctl_kept_by_reads; [exact Hctl|exact Hd].
  - destruct Hx as [[]|Hx]. eapply ctl_kept_by_writes; [exact Hctl|exact Hd|]. exact Hx.
Qed.

(** What one setter does. *)
Lemma setter_settles {V} lo n (value : Z -> V) val (upd : control_fields -> V -> control_fields) a evs r b b' :
  (forall w w', only_changes lo n w w' -> control_doc w' = upd (control_doc w) (value w')) ->
  (forall w, upd (control_doc w) (value w) = control_doc w) ->
  setter_run a control_reg lo n value val evs r -> performed bs b evs b' ->
  (forall x, In x evs -> ~ failed_control_write x) ->
  (r = Ok tt /\ control_doc (ctl b') = upd (control_doc (ctl b)) val) \/
  ((forall x, r <> Ok x) /\ ctl b' = ctl b).
Proof.
  intros Hupd Hsame H Hp Hnf. destruct H as [x e (data & -> & Hl)|w Hw Ev|w w' err Hw Hne Ho Ev].
  - right. split; [discriminate|]. eapply unwritten_kept; [exact Hp|]. repeat constructor.
  - left. split; [reflexivity|]. unfold reads_word in Hp.
    inversion Hp as [|? ? ? buf b1 out ? ? ? Hd Hp' Ec|]; subst. inversion Hp'; subst.
    assert (El : length buf = 2%nat).
    { match goal with H : clip buf out = _ |- _ => apply (f_equal (@length Z)) in H; rewrite clip_length in H; exact H end. }
    pose proof (ctl_kept_by_reads _ _ Hctl _ _ _ _ _ _ _ Hd) as Hk.
    pose proof (ctl_answer _ _ Hctl _ _ _ _ _ El Hd) as ->.
    rewrite clip_full in *; [|rewrite El; reflexivity|].
    2:{ pose proof (ctl_word _ _ Hctl b) as Hcw. unfold word in Hcw. constructor; [split; [apply Z.div_pos; lia|apply Z.div_lt_upper_bound; lia]|].
        constructor; [apply Z.mod_pos_bound; lia|constructor]. }
    match goal with H : [ctl b / 256; _] = [_; _] |- _ => injection H as H1 H2 end.
    assert (w = ctl b) as -> by (rewrite (Z_div_mod_eq_full w 256), (Z_div_mod_eq_full (ctl b) 256), H1, H2; reflexivity).
    rewrite Hk, Hsame. reflexivity.
  - destruct err as [e|].
    { exfalso. apply (Hnf (writes_word a control_reg w' (Some e))); [right; left; reflexivity|].
      exists a, (w' / 256), (w' mod 256), e. reflexivity. }
    left. split; [reflexivity|]. unfold reads_word in Hp.
    inversion Hp as [|? ? ? buf b1 out ? ? ? Hd Hp' Ec|]; subst.
    unfold writes_word in Hp'. inversion Hp' as [| |? ? ? b2 ? ? ? Hd2 Hp2]; subst. inversion Hp2; subst.
    assert (El : length buf = 2%nat).
    { match goal with H : clip buf out = _ |- _ => apply (f_equal (@length Z)) in H; rewrite clip_length in H; exact H end. }
    pose proof (ctl_answer _ _ Hctl _ _ _ _ _ El Hd) as ->.
    rewrite clip_full in *; [|rewrite El; reflexivity|].
    2:{ pose proof (ctl_word _ _ Hctl b) as Hcw. unfold word in Hcw. constructor; [split; [apply Z.div_pos; lia|apply Z.div_lt_upper_bound; lia]|].
        constructor; [apply Z.mod_pos_bound; lia|constructor]. }
    match goal with H : [ctl b / 256; _] = [_; _] |- _ => injection H as H1 H2 end.
    assert (w = ctl b) as -> by (rewrite (Z_div_mod_eq_full w 256), (Z_div_mod_eq_full (ctl b) 256), H1, H2; reflexivity).
    rewrite (ctl_written _ _ Hctl _ _ _ _ _ Hd2), word_back. apply Hupd. exact Ho.
Qed.

Lemma upd_of_changes : forall w w',
  (only_changes 0 1 w w' -> control_doc w' = upd_use_subpages (control_doc w) (c_use_subpages (control_doc w'))) /\
  (only_changes 2 1 w w' -> control_doc w' = upd_data_hold (control_doc w) (c_data_hold (control_doc w'))) /\
  (only_changes 3 1 w w' -> control_doc w' = upd_subpage_repeat (control_doc w) (c_subpage_repeat (control_doc w'))) /\
  (only_changes 4 1 w w' -> control_doc w' = upd_subpage (control_doc w) (c_subpage (control_doc w'))) /\
  (only_changes 7 3 w w' -> control_doc w' = upd_frame_rate (control_doc w) (c_frame_rate (control_doc w'))) /\
  (only_changes 10 2 w w' -> control_doc w' = upd_resolution (control_doc w) (c_resolution (control_doc w'))) /\
  (only_changes 12 1 w w' -> control_doc w' = upd_access_pattern (control_doc w) (c_access_pattern (control_doc w'))).
Proof.
  intros w w'. repeat split; intros H; unfold control_doc;
    unfold upd_use_subpages, upd_data_hold, upd_subpage_repeat, upd_subpage, upd_frame_rate, upd_resolution, upd_access_pattern;
    cbn [c_use_subpages c_step_mode c_data_hold c_subpage_repeat c_subpage c_frame_rate c_resolution c_access_pattern].
  - generalize (bit w' 0). intros x. other_fields H. reflexivity.
  - generalize (bit w' 2). intros x. other_fields H. reflexivity.
  - generalize (bit w' 3). intros x. other_fields H. reflexivity.
  - generalize (bits w' 4 1). intros x. other_fields H. reflexivity.
  - generalize (bits w' 7 3). intros x. other_fields H. reflexivity.
  - generalize (bits w' 10 2). intros x. other_fields H. reflexivity.
  - generalize (bits w' 12 1). intros x. other_fields H. reflexivity.
Qed.

(** What one call does and returns. *)
Lemma call_settles lay d o r d' dest evs :
  usable d lay -> step p bs d o = (r, d', dest) ->
  trace (d_bus d') = trace (d_bus d) ++ evs -> (forall x, In x evs -> ~ failed_control_write x) ->
  let before := control_doc (ctl (dev (d_bus d))) in
  let after := control_doc (ctl (dev (d_bus d'))) in
  (exists out, r = Ok out /\ after = asked o before /\ forall x, told o before = Some x -> out = x) \/
  ((forall out, r <> Ok out) /\ after = before).
Proof.
  intros Hu H Ht Hnf before after.
  destruct (step_transcript p bs lay d o r d' dest Hu H) as (evs' & Ht' & Hp & _ & _).
  rewrite Ht in Ht'. apply app_inv_head in Ht'. subst evs'.
  assert (Hq : ~ consults o -> ctl (dev (d_bus d')) = ctl (dev (d_bus d))).
  { intros Hn. destruct (C92_unnoticed p bs lay d o r d' dest Hu Hn H) as (_ & _ & evs' & Ht' & Hf).
    rewrite Ht in Ht'. apply app_inv_head in Ht'. subst evs'. eapply unwritten_kept; [exact Hp|].
    eapply Forall_impl; [|exact Hf]. intros x Hx. right. exact Hx. }
  assert (Hother : ~ consults o -> asked o before = before /\ told o before = None ->
    (exists out, r = Ok out /\ after = asked o before /\ forall x, told o before = Some x -> out = x) \/
    ((forall out, r <> Ok out) /\ after = before)).
  { intros Hn [Ea Et]. specialize (Hq Hn). rewrite Ea, Et. unfold after. rewrite Hq.
    destruct r as [out| | |]; [left; exists out; split; [reflexivity|split; [reflexivity|discriminate]]|right..]; split; try reflexivity; discriminate. }
  destruct (C18_setters FO B ER EW bs) as (_ & S2 & S3 & S4 & S5 & S6 & S7 & S8).
  assert (Hset : forall {V} (call : driver -> m unit) lo n (value : Z -> V) val upd,
    is_setter call control_reg lo n value val ->
    (forall w w', only_changes lo n w w' -> control_doc w' = upd (control_doc w) (value w')) ->
    (forall w, upd (control_doc w) (value w) = control_doc w) ->
    lift U (call d) = (r, d', dest) -> asked o before = upd before val -> told o before = None ->
    (exists out, r = Ok out /\ after = asked o before /\ forall x, told o before = Some x -> out = x) \/
    ((forall out, r <> Ok out) /\ after = before)).
  { intros V call lo n value val upd Hs H1 H2 Hl Ea Et. apply lift_inv in Hl. destruct Hl as (r0 & Hl & Er & _).
    destruct (Hs d r0 d' Hl) as (evs' & Ht' & Hrun). rewrite Ht in Ht'. apply app_inv_head in Ht'. subst evs'.
    destruct (setter_settles lo n value val upd (d_address d) evs r0 _ _ H1 H2 Hrun Hp Hnf) as [[-> E]|[Hno E]].
    - left. exists OutUnit. rewrite Et. split; [exact Er|]. split; [rewrite Ea; exact E|discriminate].
    - right. split; [|unfold after; rewrite E; reflexivity]. intros out ->. destruct r0 as [x| | |]; cbn [bind] in Er; try discriminate.
      exact (Hno x eq_refl). }
  assert (Hget : forall {A} (k : Z -> driver -> m A) (mk : A -> out (FO := FO)) val,
    lift mk (bindS (control_register_ bs d) k) = (r, d', dest) ->
    (forall w d1, word w -> k w d1 = (Ok (val w), d1)) ->
    asked o before = before -> told o before = Some (mk (val (ctl (dev (d_bus d))))) ->
    (exists out, r = Ok out /\ after = asked o before /\ forall x, told o before = Some x -> out = x) \/
    ((forall out, r <> Ok out) /\ after = before)).
  { intros A k mk val Hl Hk Ea Et. apply lift_inv in Hl. destruct Hl as (r0 & Hl & Er & _).
    unfold control_register_ in Hl.
    destruct (read_register bs (d_address d) CONTROL_ADDRESS (d_bus d)) as [r1 w0] eqn:E.
    pose proof (control_read_dev bs ctl Hctl _ _ _ _ E) as [Hkd Hval]. apply read_register_spec in E.
    destruct E as [(w & -> & Hv & Htw)|(e & x & -> & Hx & Htw)]; cbn [bindS] in Hl.
    - rewrite update_control_register_spec in Hl by exact Hv. cbn [bindS] in Hl. rewrite (Hk _ _ Hv) in Hl.
      apply pair_equal_spec in Hl. destruct Hl as [<- <-]. left. eexists. split; [exact Er|].
      rewrite Ea, Et. split; [|intros x Ex; injection Ex as <-; rewrite Hval; reflexivity].
      unfold after, before. cbn [d_bus recached with_cache with_bus]. rewrite Hkd. reflexivity.
    - apply pair_equal_spec in Hl. destruct Hl as [<- <-]. right. split; [rewrite Er; discriminate|].
      unfold after, before. cbn [d_bus with_bus]. rewrite Hkd. reflexivity. }
  assert (Hu1 := upd_of_changes).
  assert (Heta : forall c : control_fields, c = {| c_use_subpages := c_use_subpages c; c_step_mode := c_step_mode c;
     c_data_hold := c_data_hold c; c_subpage_repeat := c_subpage_repeat c; c_subpage := c_subpage c;
     c_frame_rate := c_frame_rate c; c_resolution := c_resolution c; c_access_pattern := c_access_pattern c |}) by (intros []; reflexivity).
  destruct o; try (apply Hother; [exact (fun x => x)|split; reflexivity]); cbn [step] in H.
  - apply (Hget bool (fun r d => (Ok (use_subpages r), d)) OutBool (fun w => c_use_subpages (control_doc w)) H); [|reflexivity|reflexivity].
    intros w d1 Hw. f_equal. f_equal. apply flag_bit; [reflexivity|lia|exact Hw].
  - apply (Hset bool _ 0 1 (fun w => c_use_subpages (control_doc w)) v upd_use_subpages (S2 v)); [| |exact H|reflexivity|reflexivity].
    + intros w w' Ho. apply (Hu1 w w'). exact Ho.
    + intros w. symmetry. apply Heta.
  - apply (Hget bool (fun r d => (Ok (data_hold r), d)) OutBool (fun w => c_data_hold (control_doc w)) H); [|reflexivity|reflexivity].
    intros w d1 Hw. f_equal. f_equal. apply flag_bit; [reflexivity|lia|exact Hw].
  - apply (Hset bool _ 2 1 (fun w => c_data_hold (control_doc w)) v upd_data_hold (S3 v)); [| |exact H|reflexivity|reflexivity].
    + intros w w' Ho. apply (Hu1 w w'). exact Ho.
    + intros w. symmetry. apply Heta.
  - apply (Hget bool (fun r d => (Ok (subpage_repeat r), d)) OutBool (fun w => c_subpage_repeat (control_doc w)) H); [|reflexivity|reflexivity].
    intros w d1 Hw. f_equal. f_equal. apply flag_bit; [reflexivity|lia|exact Hw].
  - apply (Hset bool _ 3 1 (fun w => c_subpage_repeat (control_doc w)) v upd_subpage_repeat (S4 v)); [| |exact H|reflexivity|reflexivity].
    + intros w w' Ho. apply (Hu1 w w'). exact Ho.
    + intros w. symmetry. apply Heta.
  - apply (Hget subpage (fun r d => pure (ctl_subpage r) d) OutSubpage (fun w => c_subpage (control_doc w)) H); [|reflexivity|reflexivity].
    intros w d1 Hw. rewrite ctl_subpage_doc by exact Hw. reflexivity.
  - apply (Hset subpage _ 4 1 (fun w => c_subpage (control_doc w)) v upd_subpage (S5 v)); [| |exact H|reflexivity|reflexivity].
    + intros w w' Ho. apply (Hu1 w w'). exact Ho.
    + intros w. symmetry. apply Heta.
  - apply (Hget frame_rate (fun r d => pure (ctl_frame_rate r) d) OutFrameRate (fun w => c_frame_rate (control_doc w)) H); [|reflexivity|reflexivity].
    intros w d1 Hw. rewrite ctl_frame_rate_doc by exact Hw. reflexivity.
  - apply (Hset frame_rate _ 7 3 (fun w => c_frame_rate (control_doc w)) v upd_frame_rate (S6 v)); [| |exact H|reflexivity|reflexivity].
    + intros w w' Ho. apply (Hu1 w w'). exact Ho.
    + intros w. symmetry. apply Heta.
  - apply (Hget resolution (fun r d => pure (ctl_resolution r) d) OutResolution (fun w => c_resolution (control_doc w)) H); [|reflexivity|reflexivity].
    intros w d1 Hw. rewrite ctl_resolution_doc by exact Hw. reflexivity.
  - apply (Hset resolution _ 10 2 (fun w => c_resolution (control_doc w)) v upd_resolution (S7 v)); [| |exact H|reflexivity|reflexivity].
    + intros w w' Ho. apply (Hu1 w w'). exact Ho.
    + intros w. symmetry. apply Heta.
  - apply (Hget access_pattern (fun r d => pure (ctl_access_pattern r) d) OutAccessPattern (fun w => c_access_pattern (control_doc w)) H); [|reflexivity|reflexivity].
    intros w d1 Hw. rewrite ctl_access_pattern_doc by exact Hw. reflexivity.
  - apply (Hset access_pattern _ 12 1 (fun w => c_access_pattern (control_doc w)) v upd_access_pattern (S8 v)); [| |exact H|reflexivity|reflexivity].
    + intros w w' Ho. apply (Hu1 w w'). exact Ho.
    + intros w. symmetry. apply Heta.
Qed.

Lemma usable_connect lay d (w : world B ER EW) : usable (connect d w) lay <-> usable d lay.
Proof. unfold usable. cbn [connect d_calibration d_height d_pixel_buffer]. tauto. Qed.

(** Whatever calls the users make by turns, the settings of the camera are those of all their successful setters in the
    order of the calls, each changing its own field only, and every getter returns what was set last, by whomever. *)
Theorem C96_settings_add_up : forall lay calls ds w seen ds' w' evs,
  (forall k, In k (map fst calls) -> usable (ds k) lay) ->
  crowd p bs calls ds w = (seen, ds', w') ->
  trace w' = trace w ++ evs -> (forall x, In x evs -> ~ failed_control_write x) ->
  map (fun x => (fst x, fst (snd x))) seen = calls /\
  account (control_doc (ctl (dev w))) seen (control_doc (ctl (dev w'))).
Proof.
  intros lay. induction calls as [|[k o] calls IH]; intros ds w seen ds' w' evs Hu H Ht Hnf; cbn [crowd] in H.
  - injection H as <- <- <-. split; [reflexivity|constructor].
  - destruct (step p bs (connect (ds k) w) o) as [[r d1] dest1] eqn:E.
    destruct (crowd p bs calls (put ds k d1) (d_bus d1)) as [[rest ds2] w2] eqn:E2. injection H as <- <- <-.
    pose proof (proj2 (usable_connect lay (ds k) w) (Hu k (or_introl eq_refl))) as Hk.
    pose proof (usable_step p bs lay _ o r d1 dest1 Hk E) as Hk1.
    destruct (step_transcript p bs lay _ o r d1 dest1 Hk E) as (ev1 & Ht1 & _). cbn [connect d_bus] in Ht1.
    assert (Hu' : forall j, In j (map fst calls) -> usable (put ds k d1 j) lay).
    { intros j Hj. unfold put. destruct (Nat.eqb j k); [exact Hk1|apply Hu; right; exact Hj]. }
    assert (Hlater : exists ev2, trace w2 = trace (d_bus d1) ++ ev2).
    { clear - E2 Hu'. revert Hu' E2. generalize (put ds k d1). generalize (d_bus d1). clear ds d1 k. revert rest ds2 w2.
      induction calls as [|[j oj] calls IH]; intros rest ds2 w2 w0 ds Hu E2; cbn [crowd] in E2.
      - injection E2 as _ _ <-. exists []. symmetry. apply app_nil_r.
      - destruct (step p bs (connect (ds j) w0) oj) as [[rj dj] destj] eqn:Ej.
        pose proof (proj2 (usable_connect lay (ds j) w0) (Hu j (or_introl eq_refl))) as Hj.
        destruct (step_transcript p bs lay _ oj rj dj destj Hj Ej) as (evj & Htj & _). cbn [connect d_bus] in Htj.
        destruct (crowd p bs calls (put ds j dj) (d_bus dj)) as [[rest3 ds3] w3] eqn:E3. injection E2 as _ _ <-.
        assert (Hu3 : forall i, In i (map fst calls) -> usable (put ds j dj i) lay).
        { intros i Hi. unfold put. destruct (Nat.eqb i j); [exact (usable_step p bs lay _ oj rj dj destj Hj Ej)|apply Hu; right; exact Hi]. }
        destruct (IH _ _ _ _ _ Hu3 E3) as (ev & Hev).
        exists (evj ++ ev). rewrite Hev, Htj, app_assoc. reflexivity. }
    destruct Hlater as (ev2 & Ht2). rewrite Ht2, Ht1, <- app_assoc in Ht. apply app_inv_head in Ht. subst evs.
    destruct (IH _ _ _ _ _ ev2 Hu' E2 Ht2 ltac:(intros x Hx; apply Hnf; apply in_or_app; right; exact Hx)) as [I1 I2].
    split; [cbn [map fst snd]; rewrite I1; reflexivity|].
    pose proof (call_settles lay _ o r d1 dest1 ev1 Hk E Ht1 ltac:(intros x Hx; apply Hnf; apply in_or_app; left; exact Hx)) as HS.
    cbn zeta in HS. cbn [connect d_bus] in HS.
    destruct HS as [(out & -> & Ea & Et)|[Hno Ea]].
    + apply account_done; [exact Et|]. rewrite <- Ea. exact I2.
    + apply account_failed; [exact Hno|]. rewrite <- Ea. exact I2.
Qed.

(** Turns are needed: if another user's successful [set_resolution] comes between the two transactions of a successful
    [set_frame_rate], the resolution is afterwards as it was before both, and nobody is told. *)
Theorem C96_an_update_is_lost_without_turns : forall lay d1 d2 fr x d1' dest,
  usable d1 lay -> usable d2 lay ->
  c_frame_rate (control_doc (ctl (dev (d_bus d1)))) <> fr ->
  step p (meddled p bs d2 (OpSetResolution x)) d1 (OpSetFrameRate fr) = (Ok OutUnit, d1', dest) ->
  control_doc (ctl (dev (d_bus d1'))) = upd_frame_rate (control_doc (ctl (dev (d_bus d1)))) fr.
Proof.
  intros lay d1 d2 fr x d1' dest Hu1 Hu2 Hne H.
  set (mb := meddled p bs d2 (OpSetResolution x)) in *.
  destruct (step_transcript p mb lay d1 _ _ d1' dest Hu1 H) as (evs & Ht & Hp & _ & _).
  cbn [step] in H. apply lift_inv in H. destruct H as (r0 & H & Er & _).
  destruct (C18_setters FO B ER EW mb) as (_ & _ & _ & _ & _ & S6 & _).
  destruct (S6 fr d1 r0 d1' H) as (evs' & Ht' & Hrun). rewrite Ht in Ht'. apply app_inv_head in Ht'. subst evs'.
  destruct Hrun as [y e _|w Hw Ev|w w' err Hw _ Ho Ev]; [discriminate| |].
  - exfalso. unfold reads_word in Hp. inversion Hp as [|? ? ? buf b1 out ? ? ? Hd Hp' Ec|]; subst.
    assert (El : length buf = 2%nat).
    { match goal with H : clip buf out = _ |- _ => apply (f_equal (@length Z)) in H; rewrite clip_length in H; exact H end. }
    cbn [mb meddled dev_write_read] in Hd.
    pose proof (ctl_answer _ _ Hctl _ _ _ _ _ El Hd) as ->.
    rewrite clip_full in *; [|rewrite El; reflexivity|].
    2:{ pose proof (ctl_word _ _ Hctl (dev (d_bus d1))) as Hcw. unfold word in Hcw. constructor; [split; [apply Z.div_pos; lia|apply Z.div_lt_upper_bound; lia]|].
        constructor; [apply Z.mod_pos_bound; lia|constructor]. }
    match goal with H : [ctl _ / 256; _] = [_; _] |- _ => injection H as H1 H2 end.
    apply Hne. assert (w = ctl (dev (d_bus d1))) as <- by (rewrite (Z_div_mod_eq_full w 256), (Z_div_mod_eq_full (ctl (dev (d_bus d1))) 256), H1, H2; reflexivity).
    reflexivity.
  - destruct err as [e|]; [discriminate|]. unfold reads_word in Hp.
    inversion Hp as [|? ? ? buf b1 out ? ? ? Hd Hp' Ec|]; subst.
    unfold writes_word in Hp'. inversion Hp' as [| |? ? ? b2 ? ? ? Hd2 Hp2]; subst. inversion Hp2; subst.
    assert (El : length buf = 2%nat).
    { match goal with H : clip buf out = _ |- _ => apply (f_equal (@length Z)) in H; rewrite clip_length in H; exact H end. }
    cbn [mb meddled dev_write_read] in Hd.
    pose proof (ctl_answer _ _ Hctl _ _ _ _ _ El Hd) as ->.
    rewrite clip_full in *; [|rewrite El; reflexivity|].
    2:{ pose proof (ctl_word _ _ Hctl (dev (d_bus d1))) as Hcw. unfold word in Hcw. constructor; [split; [apply Z.div_pos; lia|apply Z.div_lt_upper_bound; lia]|].
        constructor; [apply Z.mod_pos_bound; lia|constructor]. }
    match goal with H : [ctl _ / 256; _] = [_; _] |- _ => injection H as H1 H2 end.
    assert (w = ctl (dev (d_bus d1))) as -> by (rewrite (Z_div_mod_eq_full w 256), (Z_div_mod_eq_full (ctl (dev (d_bus d1))) 256), H1, H2; reflexivity).
    cbn [mb meddled dev_write] in Hd2.
    destruct (step p bs (connect d2 {| dev := b1; trace := [] |}) (OpSetResolution x)) as [[r2 d2'] dest2].
    rewrite (ctl_written _ _ Hctl _ _ _ _ _ Hd2), word_back. apply upd_of_changes. exact Ho.
Qed.
End Settings.
Print Assumptions C96_settings_add_up.
Print Assumptions C96_an_update_is_lost_without_turns.

(** ** Concrete cases *)
(** Two programs poll a camera by turns (with the same driver, cloned): all hypotheses hold, and it so happens that one of them is given the
    even and the other the odd frames only.  Since the camera alternates the subpages, each has half a picture, however
    long they run: a pixel that the other's frames measure stays blank. *)
Fixpoint alternating (n : nat) : list nat := match n with O => [] | S n => O :: 1%nat :: alternating n end.
Example C96_applies :
  match reel_driver 40 with
  | Some d => forall k, In k (alternating 40) -> streaming Debug (reel_bus 40) (reel_view 40) (reel 40) reel_timing layout640 ((fun _ => d) k)
  | None => False
  end.
Proof. pose proof C89_applies as H. destruct (reel_driver 40); [|exact H]. intros k _. apply H. Qed.
Example C96_half_a_picture :
  match reel_driver 40 with
  | Some d =>
      let '(seen, _, w, dests) := crowd_watch Debug (reel_bus 40) (alternating 40) (fun _ => d) (d_bus d) (fun _ => blank640) in
      let got k := fold_right Z.add 0 (delivered (belongs k seen)) in
      (got 0%nat, got 1%nat) = (3, 3) /\ Z.of_nat (reel_frames 40 (dev w)) = 6 /\
      map (fun i => (nth i (dests 0%nat) 0 =? 0, nth i (dests 1%nat) 0 =? 0)) [0; 1; 32; 33]%nat =
        [(false, true); (false, true); (true, false); (true, false)]
  | None => False
  end.
Proof. vm_compute. repeat split. Qed.

(** Three users change settings by turns; the frame rate user 2 sees is the one user 0 set.  Then without turns: the
    resolution set in between is lost although both calls succeed. *)
Example C96_settings_concrete :
  match demo_driver 24 1536 demo640 0 0x1901 with
  | Some d =>
      let bs := toy_bus never never in
      let '(seen, _, w) := crowd Debug bs [(0, OpSetFrameRate FR_Sixteen); (1, OpSetResolution Res19); (2, OpFrameRate); (0, OpResolution); (1, OpSetDataHold true)]%nat
                             (fun _ => d) (d_bus d) in
      let c := control_doc (toy_control (dev w)) in
      map (fun x => snd (snd x)) seen = [Ok OutUnit; Ok OutUnit; Ok (OutFrameRate FR_Sixteen); Ok (OutResolution Res19); Ok OutUnit] /\
      c = upd_data_hold (upd_resolution (upd_frame_rate (control_doc 0x1901) FR_Sixteen) Res19) true /\
      fst (fst (step Debug bs d (OpSetResolution Res19))) = Ok OutUnit /\
      (let '(r, d', _) := step Debug (meddled Debug bs d (OpSetResolution Res19)) d (OpSetFrameRate FR_Sixteen) in
       r = Ok OutUnit /\ control_doc (toy_control (dev (d_bus d'))) = upd_frame_rate (control_doc 0x1901) FR_Sixteen /\
       c_resolution (control_doc 0x1901) <> Res19)
  | None => False
  end.
Proof. vm_compute. repeat split. discriminate. Qed.
