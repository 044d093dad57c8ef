(** * Properties C20-C26, C28, C55: image generation. *)
From Verif Require Import Base FloatOps Register Bus Camera Cam640 Cam641 Ee640 Ee641 Calc CalcFacts Driver
  BitFacts SpecRegister RegisterFacts SpecCamera CameraFacts SpecDriver DriverFacts StepFacts Demo
  SpecImage SpecCall ImageFacts.

Section Image.
Context {FO : FloatOps} (p : profile) {B ER EW : Type} (bs : bus B ER EW).
Notation driver := (driver (FO := FO) (B := B) (ER := ER) (EW := EW)).
Notation op := (op (FO := FO)).
Implicit Types d : driver.

Lemma usable_wf d lay : usable d lay -> wf d lay.
Proof. intros (H1 & H2 & _). split; assumption. Qed.

Lemma reads_only a reads evs : Forall2 (good_read (ER := ER) (EW := EW) a) reads evs ->
  Forall is_read evs /\ Forall succeeded evs.
Proof.
  induction 1 as [|rd ev rds evs (data & -> & _) _ [IH1 IH2]]; split; constructor; auto; cbn; auto.
Qed.
Lemma asks_reads a o raw sp pre : asks (FO := FO) (ER := ER) (EW := EW) a o raw sp pre ->
  Forall is_read pre /\ Forall succeeded pre.
Proof. intros H. destruct H; repeat constructor. Qed.
Lemma failed_reads lay d sp {A} (r : res (error ER EW) A) evs : frame_failed lay d sp r evs -> Forall is_read evs.
Proof.
  intros [(e & _ & H)|(_ & _ & H)].
  - destruct H as (pre & rd & post & good & bad & _ & -> & Hg & data & -> & _).
    apply Forall_app. split; [eapply reads_only; exact Hg|]. repeat constructor.
  - destruct H as (pre & rd & post & _ & Hg). eapply reads_only; exact Hg.
Qed.

(** ** C20 *)
(** The call's first transaction is a read of the status register that returned
    [v], without new data. *)
Theorem C20_no_new_data : forall lay d dest r d' dest' v rest,
  usable d lay ->
  generate_image_if_ready p bs dest d = (r, d', dest') ->
  trace (d_bus d') = trace (d_bus d) ++ reads_word (d_address d) status_reg v :: rest ->
  word v -> bit v 3 = false ->
  r = Ok false /\ rest = [] /\ dest' = dest /\ kept d d' /\ d_pixel_buffer d' = d_pixel_buffer d.
Proof.
  intros lay d dest r d' dest' v rest Hu H Ht Hv Hb. apply usable_wf in Hu.
  apply (if_ready_spec p bs lay) in H; [|exact Hu].
  destruct H as (w0 & [(e & x & -> & Hx & Ht0 & -> & ->)|(v0 & Hv0 & Ht0 & Hs & H)]).
  - exfalso. cbn [d_bus with_bus] in Ht. rewrite Ht0 in Ht. apply app_inv_head in Ht.
    injection Ht as -> _. destruct Hx as (data & E & _). discriminate.
  - assert (Hsame : forall l, reads_word (ER := ER) (EW := EW) (d_address d) status_reg v0 :: l = reads_word (d_address d) status_reg v :: rest ->
      v0 = v /\ l = rest).
    { intros l E. injection E as E1 E2 E3. split; [|exact E3].
      rewrite (Z_div_mod_eq_full v0 256), (Z_div_mod_eq_full v 256), E1, E2. reflexivity. }
    destruct H as [(Hn & -> & -> & ->)|(Hn & w1 & buf' & evs & Hl & Ht1 & H)].
    + cbn [d_bus with_bus] in Ht. rewrite Ht0 in Ht. apply app_inv_head in Ht.
      apply Hsame in Ht. destruct Ht as [_ <-]. repeat split.
    + exfalso.
      assert (exists l, trace (d_bus d') = trace (d_bus d) ++ reads_word (d_address d) status_reg v0 :: l) as (l & Hl').
      { cbn zeta in H.
        destruct H as [(_ & -> & _)|(ram & _ & _ & [(t & w2 & e & _ & Ht2 & _ & ->)|(_ & _ & _ & ->)])];
          cbn [d_bus after_frame with_bus with_ambient]; rewrite ?Ht2, Ht1, Ht0, <- ?app_assoc; cbn [app]; eauto. }
      rewrite Hl' in Ht. apply app_inv_head in Ht. apply Hsame in Ht. destruct Ht as [-> _].
      cbn [status_doc s_new_data] in Hn. congruence.
Qed.

(** Conversely, "no image" is only returned in that case. *)
Theorem C20_false_means_no_data : forall lay d dest d' dest',
  usable d lay ->
  generate_image_if_ready p bs dest d = (Ok false, d', dest') ->
  exists v, word v /\ bit v 3 = false /\
    trace (d_bus d') = trace (d_bus d) ++ [reads_word (d_address d) status_reg v].
Proof.
  intros lay d dest d' dest' Hu H. apply usable_wf in Hu.
  apply (if_ready_spec p bs lay) in H; [|exact Hu].
  destruct H as (w0 & [(e & x & E & _)|(v0 & Hv0 & Ht0 & Hs & H)]); [discriminate|].
  destruct H as [(Hn & _ & -> & _)|(Hn & w1 & buf' & evs & Hl & Ht1 & H)]; [eauto|].
  exfalso. cbn zeta in H.
  destruct H as [(_ & _ & Hf)|(ram & _ & _ & [(t & w2 & e & _ & _ & E & _)|(_ & E & _)])].
  - destruct Hf as [(e & E & _)|(E & _)]; discriminate.
  - destruct e; discriminate.
  - discriminate.
Qed.

(** ** C55: every computed image has the documented values *)
Theorem C55_image_values : forall lay d o dest r d' dest',
  usable d lay -> destination o = Some dest ->
  step p bs d o = (r, d', dest') -> computed o r ->
  exists raw sp pre frame post,
    trace (d_bus d') = trace (d_bus d) ++ pre ++ frame ++ post /\
    asks (d_address d) o raw sp pre /\
    completed (d_address d) (frame_reads lay sp (d_access_pattern d)) frame /\
    acknowledges (d_address d) o pre post r /\
    forall mem, (forall a, word (mem a)) -> Forall (shows mem) frame ->
      d_ambient d' = Some (doc_t_a (d_calibration d) lay mem) /\
      image_stored (d_calibration d) lay (settings_of d) sp mem raw dest dest'.
Proof.
  intros lay d o dest r d' dest' Hu Ho H Hc.
  destruct (image_outcome p bs lay d o dest r d' dest' (usable_wf _ _ Hu) Ho H) as (evs & Ht & Hout).
  destruct Hout as [x e w _ _|v w _ _ _|raw sp pre evs r buf w Ha Hf _|raw sp pre evs ram buf w w0 Ha Hcm _ Hr _
    |raw sp pre evs post ram buf w0 w w1 t dest' r Ha Hcm Hl Hw Hr Hcalc Hk].
  - destruct Hc as [_ []].
  - destruct Hc as [_ []].
  - destruct Hf as [(e & -> & _)|(-> & _)]; destruct Hc as [_ []].
  - destruct Hc as [_ []].
  - exists raw, sp, pre, evs, post. split; [exact Ht|]. split; [exact Ha|]. split; [exact Hcm|]. split; [exact Hk|].
    intros mem Hm Hs. destruct Hu as (Hd & Hh & Hcpl & Hbuf).
    destruct (frame_pixels p bs raw lay (with_bus d w0) sp mem ram (after_frame d buf w) evs dest t dest') as [Hta Him]; try assumption.
    + split; assumption.
    + cbn [d_bus d_ambient with_bus with_ambient]. rewrite Hta. split; [reflexivity|exact Him].
Qed.

(** ** C21 *)
Theorem C21_ready_frame_consumed_in_order : forall lay d dest d' dest',
  usable d lay ->
  generate_image_if_ready p bs dest d = (Ok true, d', dest') ->
  exists v v' frame,
    trace (d_bus d') = trace (d_bus d) ++ reads_word (d_address d) status_reg v :: frame ++
                       [writes_word (d_address d) status_reg v' None] /\
    word v /\ bit v 3 = true /\
    completed (d_address d) (frame_reads lay (doc_subpage (bits v 0 1)) (d_access_pattern d)) frame /\
    word v' /\ bit v' 3 = false /\ (forall i, 0 <= i < 16 -> i <> 3 -> bit v' i = bit v i) /\
    forall mem, (forall a, word (mem a)) -> Forall (shows mem) frame ->
      d_ambient d' = Some (doc_t_a (d_calibration d) lay mem) /\
      image_stored (d_calibration d) lay (settings_of d) (doc_subpage (bits v 0 1)) mem false dest dest'.
Proof.
  intros lay d dest d' dest' Hu H.
  assert (Hs : step p bs d (OpGenerateIfReady dest) = (Ok (OutBool true), d', dest'))
    by (cbn [step]; rewrite H; reflexivity).
  destruct (C55_image_values lay d (OpGenerateIfReady dest) dest _ _ _ Hu eq_refl Hs)
    as (raw & sp & pre & frame & post & Ht & Ha & Hc & Hk & Hv); [split; [discriminate|exact I]|].
  inversion Ha as [| | |v dest0 Hw Hb]; subst. inversion Hk as [| | |v0 v' dest0 err Hw0 Hw' Hb' Hrest E1 E2 E3 Er]; subst.
  destruct err as [e|]; [discriminate|].
  assert (Hv0 : v0 = v).
  { rewrite (Z_div_mod_eq_full v0 256), (Z_div_mod_eq_full v 256). congruence. }
  subst v0. exists v, v', frame. split; [exact Ht|]. repeat (split; [assumption|]). exact Hv.
Qed.

(** ** C22 *)
(** A call that neither returned Ok nor failed in the final write changed nothing
    a user can see, and wrote nothing. *)
Theorem C22_no_partial_image : forall lay d o dest r d' dest',
  usable d lay -> destination o = Some dest ->
  step p bs d o = (r, d', dest') ->
  (forall x, r <> Ok x) -> (forall e, r <> Err (I2cWriteError e)) ->
  dest' = dest /\ kept d d' /\
  exists evs, trace (d_bus d') = trace (d_bus d) ++ evs /\ Forall is_read evs.
Proof.
  intros lay d o dest r d' dest' Hu Ho H Hn1 Hn2.
  destruct (image_outcome p bs lay d o dest r d' dest' (usable_wf _ _ Hu) Ho H) as (evs & Ht & Hout).
  destruct Hout as [x e w _ Hx|v w _ _ _|raw sp pre evs r buf w Ha Hf _|raw sp pre evs ram buf w w0 Ha Hcm _ Hr _
    |raw sp pre evs post ram buf w0 w w1 t dest' r Ha Hcm Hl Hw Hr Hcalc Hk].
  - split; [reflexivity|]. split; [repeat split|]. eexists. split; [exact Ht|].
    destruct Hx as (data & -> & _). repeat constructor.
  - exfalso. eapply Hn1. reflexivity.
  - split; [reflexivity|]. split; [repeat split|]. eexists. split; [exact Ht|].
    apply Forall_app. split; [eapply asks_reads; exact Ha|eapply failed_reads; exact Hf].
  - split; [reflexivity|]. split; [repeat split|]. eexists. split; [exact Ht|].
    apply Forall_app. split; [eapply asks_reads; exact Ha|eapply reads_only; exact Hcm].
  - exfalso. destruct Hk as [| | |v v' dest0 err _ _ _ _]; try (eapply Hn1; reflexivity).
    destruct err; [eapply Hn2|eapply Hn1]; reflexivity.
Qed.

(** A failing read transaction is reported, and is the last transaction. *)
Theorem C22_failed_read_is_reported : forall lay d o dest r d' dest' evs i2c wb data e,
  usable d lay -> destination o = Some dest ->
  step p bs d o = (r, d', dest') -> trace (d_bus d') = trace (d_bus d) ++ evs ->
  In (EvRead i2c wb data (Some e)) evs ->
  r = Err (I2cWriteReadError e) /\ exists pre, evs = pre ++ [EvRead i2c wb data (Some e)].
Proof.
  intros lay d o dest r d' dest' evs i2c wb data e Hu Ho H Ht Hin.
  destruct (image_outcome p bs lay d o dest r d' dest' (usable_wf _ _ Hu) Ho H) as (evs' & Ht' & Hout).
  rewrite Ht in Ht'. apply app_inv_head in Ht'. subst evs'.
  assert (Hno : forall l : list (event ER EW), Forall succeeded l -> ~ In (EvRead i2c wb data (Some e)) l).
  { intros l Hl Hi. rewrite Forall_forall in Hl. specialize (Hl _ Hi). discriminate. }
  destruct Hout as [x e0 w _ Hx|v w _ _ _|raw sp pre evs r buf w Ha Hf _|raw sp pre evs ram buf w w0 Ha Hcm _ Hr _
    |raw sp pre evs post ram buf w0 w w1 t dest' r Ha Hcm Hl Hw Hr Hcalc Hk].
  - destruct Hin as [->|[]]. destruct Hx as (dat & E & _). injection E as _ _ _ ->. split; [reflexivity|].
    exists []. reflexivity.
  - destruct Hin as [E|[]]. discriminate.
  - apply in_app_iff in Hin. destruct Hin as [Hin|Hin].
    { exfalso. eapply Hno; [eapply asks_reads; exact Ha|exact Hin]. }
    destruct Hf as [(e0 & -> & Hf)|(-> & _ & Hf)].
    + destruct Hf as (pr & rd & post & good & bad & _ & -> & Hg & dat & -> & _).
      apply in_app_iff in Hin. destruct Hin as [Hin|[E|[]]].
      * exfalso. eapply Hno; [eapply reads_only; exact Hg|exact Hin].
      * injection E as -> -> -> ->. split; [reflexivity|]. exists (pre ++ good). rewrite app_assoc. reflexivity.
    + exfalso. destruct Hf as (pr & rd & post & _ & Hg). eapply Hno; [eapply reads_only; exact Hg|exact Hin].
  - exfalso. apply in_app_iff in Hin. destruct Hin as [Hin|Hin].
    + eapply Hno; [eapply asks_reads; exact Ha|exact Hin].
    + eapply Hno; [eapply reads_only; exact Hcm|exact Hin].
  - exfalso. apply in_app_iff in Hin. destruct Hin as [Hin|Hin].
    + eapply Hno; [eapply asks_reads; exact Ha|exact Hin].
    + apply in_app_iff in Hin. destruct Hin as [Hin|Hin].
      * eapply Hno; [eapply reads_only; exact Hcm|exact Hin].
      * destruct Hk as [| | |v v' dest0 err _ _ _ _]; [destruct Hin|destruct Hin|destruct Hin|destruct Hin as [E|[]]; discriminate].
Qed.

(** The exception: only the last write failed.  The image and the ambient
    temperature are the new ones although the call returns an error. *)
Theorem C22_failed_acknowledge_has_effects : forall lay d o dest d' dest' e,
  usable d lay -> destination o = Some dest ->
  step p bs d o = (Err (I2cWriteError e), d', dest') ->
  o = OpGenerateIfReady dest /\
  exists v v' frame,
    trace (d_bus d') = trace (d_bus d) ++ reads_word (d_address d) status_reg v :: frame ++
                       [writes_word (d_address d) status_reg v' (Some e)] /\
    word v /\ bit v 3 = true /\
    completed (d_address d) (frame_reads lay (doc_subpage (bits v 0 1)) (d_access_pattern d)) frame /\
    forall mem, (forall a, word (mem a)) -> Forall (shows mem) frame ->
      d_ambient d' = Some (doc_t_a (d_calibration d) lay mem) /\
      image_stored (d_calibration d) lay (settings_of d) (doc_subpage (bits v 0 1)) mem false dest dest'.
Proof.
  intros lay d o dest d' dest' e Hu Ho H.
  destruct (C55_image_values lay d o dest _ _ _ Hu Ho H)
    as (raw & sp & pre & frame & post & Ht & Ha & Hc & Hk & Hv).
  { split; [rewrite Ho; discriminate|exact I]. }
  inversion Hk as [| | |v0 v' dest0 err Hw0 Hw' Hb' Hrest E1 E2 E3 Er]; subst.
  destruct err as [e'|]; [|discriminate]. injection Er as ->.
  cbn [destination] in Ho. injection Ho as ->. split; [reflexivity|].
  inversion Ha as [| | |v dest0 Hw Hb E1 E2 E3 E4]; subst.
  exists v0, v', frame. split; [exact Ht|]. split; [exact Hw0|].
  assert (Hv0 : v = v0) by (rewrite (Z_div_mod_eq_full v0 256), (Z_div_mod_eq_full v 256); congruence).
  subst v. auto.
Qed.

(** ** C23 *)
(** The subpage a call stores: the one asked for, or the one in the status
    register it read. *)
Definition stores (o : op) (a : Z) (evs : list (event ER EW)) (sp : subpage) : Prop :=
  match o with
  | OpGenerateRawSubpage s _ | OpGenerateSubpage s _ => sp = s
  | _ => exists v rest, word v /\ evs = reads_word a status_reg v :: rest /\ sp = doc_subpage (bits v 0 1)
  end.

Lemma calc_only raw d ram sp dest t dest' lay : documented (cam _ (d_calibration d)) lay ->
  calc (ER := ER) (EW := EW) p raw d ram sp dest = Ok (t, dest') ->
  length dest' = length dest /\
  forall i, measured lay sp (d_access_pattern d) i = false -> nth_error dest' i = nth_error dest i.
Proof.
  intros Hd H.
  assert (G : forall X (f : F FO -> X -> F FO) items i,
    measured lay sp (d_access_pattern d) i = false ->
    nth_error (masked_for_each f dest items (pixels_in_subpage _ (cam _ (d_calibration d)) sp (d_access_pattern d))) i
      = nth_error dest i).
  { intros X f items i Hm. rewrite mfe_nth, (mask_doc _ lay) by exact Hd. rewrite Hm.
    destruct (nth_error dest i); [|reflexivity]. destruct (nth_error items i); reflexivity. }
  destruct raw; cbn [calc] in H.
  - unfold calc_ir, raw_pixels_to_ir_data in H. destruct (common_new _ _ _ _ _); try discriminate.
    cbn [bind] in H. injection H as _ <-. split; [apply mfe_length|]. intros i. apply G.
  - unfold calc_temperatures, raw_pixels_to_temperatures in H. destruct (common_new _ _ _ _ _); try discriminate.
    cbn [bind] in H. destruct (nth_error (k_s_to FO (d_calibration d)) _); try discriminate.
    cbn [unwrap bind] in H. injection H as _ <-. split; [apply mfe_length|]. intros i. apply G.
Qed.

Theorem C23_only_pixels_of_the_subpage : forall lay d o dest r d' dest',
  usable d lay -> destination o = Some dest ->
  step p bs d o = (r, d', dest') ->
  length dest' = length dest /\
  (dest' = dest \/
   exists evs sp, trace (d_bus d') = trace (d_bus d) ++ evs /\ stores o (d_address d) evs sp /\
     forall i, measured lay sp (d_access_pattern d) i = false -> nth_error dest' i = nth_error dest i).
Proof.
  intros lay d o dest r d' dest' Hu Ho H.
  destruct (image_outcome p bs lay d o dest r d' dest' (usable_wf _ _ Hu) Ho H) as (evs & Ht & Hout).
  destruct Hout as [x e w _ Hx|v w _ _ _|raw sp pre evs r buf w Ha Hf _|raw sp pre evs ram buf w w0 Ha Hcm _ Hr _
    |raw sp pre evs post ram buf w0 w w1 t dest' r Ha Hcm Hl Hw Hr Hcalc Hk]; auto.
  destruct Hu as (Hd & _). destruct (calc_only raw (after_frame d buf w) ram sp dest t dest' lay Hd Hcalc) as [Hlen Hpx].
  split; [exact Hlen|]. right. eexists. exists sp. split; [exact Ht|]. split; [|exact Hpx].
  destruct Ha as [s dst|s dst|v dst Hv|v dst Hv Hb]; cbn [stores]; try reflexivity; exists v; eexists;
    (split; [exact Hv|]; split; [reflexivity|reflexivity]).
Qed.

(** The destination has no influence on anything but itself: the result, the
    driver and the transactions are the same for every destination, of any
    length, and a pixel stored in two destinations has the same value. *)
Lemma calc_dest raw d ram sp dest1 dest2 :
  match calc (ER := ER) (EW := EW) p raw d ram sp dest1, calc (ER := ER) (EW := EW) p raw d ram sp dest2 with
  | Ok (t1, l1), Ok (t2, l2) => t1 = t2 /\
      forall i v1 v2, nth_error dest1 i = Some v1 -> nth_error dest2 i = Some v2 ->
        (nth_error l1 i = nth_error l2 i \/ (nth_error l1 i = Some v1 /\ nth_error l2 i = Some v2))
  | Panic, Panic => True
  | _, _ => False
  end.
Proof.
  assert (G : forall X (f : F FO -> X -> F FO) items mask i v1 v2,
    (forall a b x, f a x = f b x) -> nth_error dest1 i = Some v1 -> nth_error dest2 i = Some v2 ->
    (nth_error (masked_for_each f dest1 items mask) i = nth_error (masked_for_each f dest2 items mask) i \/
     (nth_error (masked_for_each f dest1 items mask) i = Some v1 /\ nth_error (masked_for_each f dest2 items mask) i = Some v2))).
  { intros X f items mask i v1 v2 Hf H1 H2. rewrite !mfe_nth, H1, H2.
    destruct (nth_error items i) as [x|]; [|right; auto]. destruct (nth i mask false); [|right; auto].
    left. rewrite (Hf v1 v2). reflexivity. }
  destruct raw; cbn [calc].
  - unfold calc_ir, raw_pixels_to_ir_data. destruct (common_new_cases (E := error ER EW) p (d_resolution_correction d) (d_emissivity d) (d_calibration d) ram) as [[k ->]| ->];
      cbn [bind]; [|exact I]. split; [reflexivity|]. intros i v1 v2. apply G. reflexivity.
  - unfold calc_temperatures, raw_pixels_to_temperatures. destruct (common_new_cases (E := error ER EW) p (d_resolution_correction d) (d_emissivity d) (d_calibration d) ram) as [[k ->]| ->];
      cbn [bind]; [|exact I].
    destruct (nth_error (k_s_to FO (d_calibration d)) _); cbn [unwrap bind]; [|exact I].
    split; [reflexivity|]. intros i v1 v2. apply G. reflexivity.
Qed.

Definition same_pixels (dest1 dest2 l1 l2 : list (F FO)) : Prop :=
  forall i v1 v2, nth_error dest1 i = Some v1 -> nth_error dest2 i = Some v2 ->
    nth_error l1 i = nth_error l2 i \/ (nth_error l1 i = Some v1 /\ nth_error l2 i = Some v2).

Lemma same_pixels_refl dest1 dest2 : same_pixels dest1 dest2 dest1 dest2.
Proof. intros i v1 v2 H1 H2. right. auto. Qed.

Lemma store_dest {A} raw d ram sp dest1 dest2 (k : driver -> list (F FO) -> mi A) :
  (forall d l1 l2, fst (k d l1) = fst (k d l2)) -> (forall d l, snd (k d l) = l) ->
  fst (store_image (calc p raw d ram sp dest1) d dest1 k) = fst (store_image (calc p raw d ram sp dest2) d dest2 k) /\
  same_pixels dest1 dest2 (snd (store_image (calc p raw d ram sp dest1) d dest1 k))
                          (snd (store_image (calc p raw d ram sp dest2) d dest2 k)).
Proof.
  intros Hk1 Hk2. pose proof (calc_dest raw d ram sp dest1 dest2) as H.
  destruct (calc p raw d ram sp dest1) as [[t1 l1]|e1| |]; destruct (calc p raw d ram sp dest2) as [[t2 l2]|e2| |];
    try contradiction; cbn [store_image].
  - destruct H as [-> H]. split; [apply Hk1|]. rewrite !Hk2. exact H.
  - split; [reflexivity|]. apply same_pixels_refl.
Qed.

Lemma fail_dest {A A'} (r : res (error ER EW) A) d dest1 dest2 :
  fst (fail_image (A' := A') (FO := FO) r d dest1) = fst (fail_image r d dest2) /\
  same_pixels dest1 dest2 (snd (fail_image (A' := A') (FO := FO) r d dest1)) (snd (fail_image (A' := A') r d dest2)).
Proof. destruct r; cbn; (split; [reflexivity|apply same_pixels_refl]). Qed.

Lemma gen_dest raw sp d dest1 dest2 :
  fst (gen p bs raw sp dest1 d) = fst (gen p bs raw sp dest2 d) /\
  same_pixels dest1 dest2 (snd (gen p bs raw sp dest1 d)) (snd (gen p bs raw sp dest2 d)).
Proof.
  assert (E : forall dest, gen p bs raw sp dest d = (let '(r, d) := drv_read_ram bs sp d in
    match r with
    | Ok ram => store_image (calc p raw d ram sp dest) d dest (fun d dest => (Ok tt, d, dest))
    | _ => fail_image r d dest
    end)) by (intros; destruct raw; reflexivity).
  rewrite !E. destruct (drv_read_ram bs sp d) as [r d1]. destruct r as [ram|e| |]; try apply fail_dest.
  apply store_dest; reflexivity.
Qed.

Theorem C23_destination_is_only_written : forall d o dest1 dest2 r1 d1 dest1' r2 d2 dest2',
  destination o <> None ->
  step p bs d (into dest1 o) = (r1, d1, dest1') ->
  step p bs d (into dest2 o) = (r2, d2, dest2') ->
  r1 = r2 /\ d1 = d2 /\
  forall i v1 v2, nth_error dest1 i = Some v1 -> nth_error dest2 i = Some v2 ->
    nth_error dest1' i = nth_error dest2' i \/
    (nth_error dest1' i = Some v1 /\ nth_error dest2' i = Some v2).
Proof.
  intros d o dest1 dest2 r1 d1 dest1' r2 d2 dest2' Ho H1 H2.
  assert (G : forall A (f : A -> out (FO := FO)) (x1 x2 : mi A), fst x1 = fst x2 /\ same_pixels dest1 dest2 (snd x1) (snd x2) ->
    lifti f x1 = (r1, d1, dest1') -> lifti f x2 = (r2, d2, dest2') ->
    r1 = r2 /\ d1 = d2 /\ same_pixels dest1 dest2 dest1' dest2').
  { intros A f [[a1 b1] c1] [[a2 b2] c2] [E HP] E1 E2. cbn [fst snd] in E, HP. injection E as <- <-.
    injection E1 as <- <- <-. injection E2 as <- <- <-. auto. }
  destruct o; try (exfalso; apply Ho; reflexivity); cbn [into step] in H1, H2; eapply G; try eassumption.
  - apply (gen_dest true).
  - apply (gen_dest false).
  - unfold generate_image_to. destruct (last_measured_subpage bs d) as [r d0]. destruct r; try apply fail_dest.
    apply (gen_dest false).
  - unfold generate_image_if_ready. destruct (status_register_ bs d) as [r d0].
    destruct r as [v|e| |]; try apply fail_dest. destruct (new_data v); [|split; [reflexivity|apply same_pixels_refl]].
    destruct (last_updated_subpage v) as [sp|e| |]; try apply fail_dest.
    destruct (drv_read_ram bs sp d0) as [r2' d3]. destruct r2' as [ram|e| |]; try apply fail_dest.
    apply (store_dest false).
    + intros dd l1 l2. destruct (set_status_register bs (reset_new_data v) dd) as [r3 d4]. reflexivity.
    + intros dd l. destruct (set_status_register bs (reset_new_data v) dd) as [r3 d4]. reflexivity.
Qed.
End Image.
Print Assumptions C20_no_new_data.
Print Assumptions C20_false_means_no_data.
Print Assumptions C21_ready_frame_consumed_in_order.
Print Assumptions C22_no_partial_image.
Print Assumptions C22_failed_read_is_reported.
Print Assumptions C22_failed_acknowledge_has_effects.
Print Assumptions C23_only_pixels_of_the_subpage.
Print Assumptions C23_destination_is_only_written.
Print Assumptions C55_image_values.
