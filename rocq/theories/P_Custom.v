(** * Property C104: calibration data supplied by the user. *)
From Verif Require Import Base FloatOps Register Bus Camera Cam640 Cam641 Ee640 Ee641 Calc CalcFacts
  BitFacts SpecRegister RegisterFacts SpecCamera CameraFacts SpecDriver Driver DriverFacts StepFacts Demo
  SpecImage SpecCall ImageFacts P_Image P_Bus SpecReplay P_Replay SpecCustom Dumps P_Ee641 P_Usable Driver.

Section Facts.
Context {FO : FloatOps} (p : profile).
Notation F := (F FO).
Context (c : calib FO) (lay : layout) (s : settings (FO := FO)) (sp : subpage) (mem : Z -> Z).
Context (ram : ram_data) (Hram : ram_shown mem lay sp ram).

Lemma nth_error_of {A} (l : list A) i d : nth_error l i = if Nat.ltb i (length l) then Some (nth i l d) else None.
Proof. destruct (Nat.ltb_spec i (length l)); [apply nth_error_nth'; assumption|apply nth_error_None; assumption]. Qed.

Lemma ir_supplied {E} buf mask dest t dest' i v0 :
  raw_pixels_to_ir_data (E := E) p c (set_emissivity s) (set_correction s) buf ram sp (set_pattern s) mask dest
    = Ok (t, dest') ->
  t = doc_t_a c lay mem /\ length dest' = length dest /\
  ((2 * i + 2 <= length buf)%nat -> nth i mask false = true -> supplied c sp (set_pattern s) true i = true ->
   256 * nth (2 * i) buf 0 + nth (2 * i + 1) buf 0 = mem (lay_address lay sp i) ->
   nth_error dest i = Some v0 -> nth_error dest' i = Some (doc_v_ir c lay s sp mem i)) /\
  (nth i mask false && supplied c sp (set_pattern s) true i = false -> nth_error dest' i = nth_error dest i).
Proof.
  unfold raw_pixels_to_ir_data.
  destruct (common_new p (set_correction s) (set_emissivity s) c ram) as [k| | |] eqn:Hk; try discriminate.
  pose proof (fun x off kv kta amc => v_ir_doc p c lay s sp mem ram Hram k x off kv kta amc Hk) as Hv.
  pose proof (common_doc p c lay s sp mem ram Hram k Hk) as (_ & _ & _ & Ht). cbn [bind].
  set (f := fun (_ : F) _ => _). intros H. injection H as H0 H1. subst t dest'.
  split; [exact Ht|]. split; [apply mfe_length|]. unfold supplied. cbn [orb].
  rewrite mfe_nth, !nth_error_zip.
  rewrite (nth_error_of (offset_reference_pixels FO c sp) i 0), (nth_error_of (k_v_pixels FO c sp) i (fofZ 0)),
    (nth_error_of (k_ta_pixels FO c sp) i (fofZ 0)),
    (nth_error_of (access_pattern_compensation_pixels FO c (set_pattern s)) i None).
  split.
  - intros Hb Hm Hs Hw Hd. rewrite Hd.
    assert (Hc : exists x, nth_error (chunks2 buf) i = Some x).
    { rewrite chunks2_nth. destruct (Nat.ltb_spec (2 * i + 1) (length buf)); [eauto|lia]. }
    destruct Hc as [x Hx]. rewrite Hx.
    destruct (Nat.ltb i (length (offset_reference_pixels FO c sp))); [|discriminate].
    destruct (Nat.ltb i (length (k_v_pixels FO c sp))); [|discriminate].
    destruct (Nat.ltb i (length (k_ta_pixels FO c sp))); [|discriminate].
    destruct (Nat.ltb i (length (access_pattern_compensation_pixels FO c (set_pattern s)))); [|discriminate].
    rewrite Hm. f_equal. unfold f, doc_v_ir, compensation_pixel_term.
    rewrite (pixel_word_signed lay sp mem buf i x Hx Hw).
    destruct (temperature_gradient_coefficient FO c); rewrite !Hv; [|reflexivity].
    destruct Hram as (_ & _ & _ & _ & H5). rewrite H5. reflexivity.
  - intros Hn. destruct (nth_error dest i) as [d|]; [|reflexivity].
    destruct (nth_error (chunks2 buf) i) as [x|]; [|reflexivity].
    destruct (Nat.ltb i (length (offset_reference_pixels FO c sp))); [|reflexivity].
    destruct (Nat.ltb i (length (k_v_pixels FO c sp))); [|reflexivity].
    destruct (Nat.ltb i (length (k_ta_pixels FO c sp))); [|reflexivity].
    destruct (Nat.ltb i (length (access_pattern_compensation_pixels FO c (set_pattern s)))); [|reflexivity].
    rewrite andb_true_r in Hn. rewrite Hn. reflexivity.
Qed.

Lemma t_o_supplied {E} buf mask dest t dest' i v0 :
  documented (cam _ c) lay ->
  raw_pixels_to_temperatures (E := E) p c (set_emissivity s) (set_reflected s) (set_correction s) buf ram sp
    (set_pattern s) mask dest = Ok (t, dest') ->
  t = doc_t_a c lay mem /\ length dest' = length dest /\ ~ no_slope c lay /\
  ((2 * i + 2 <= length buf)%nat -> nth i mask false = true -> supplied c sp (set_pattern s) false i = true ->
   256 * nth (2 * i) buf 0 + nth (2 * i + 1) buf 0 = mem (lay_address lay sp i) ->
   nth_error dest i = Some v0 -> nth_error dest' i = Some (doc_pixel c lay s sp mem false i)) /\
  (nth i mask false && supplied c sp (set_pattern s) false i = false -> nth_error dest' i = nth_error dest i).
Proof.
  intros Hcam. unfold raw_pixels_to_temperatures.
  destruct (documented_constants (cam _ c) lay Hcam) as [Hbasic Hself]. rewrite Hbasic, Hself.
  destruct (common_new p (set_correction s) (set_emissivity s) c ram) as [k| | |] eqn:Hk; try discriminate.
  pose proof (fun x off kv kta amc => v_ir_doc p c lay s sp mem ram Hram k x off kv kta amc Hk) as Hv.
  pose proof (common_doc p c lay s sp mem ram Hram k Hk) as (_ & _ & _ & Ht). cbn [bind].
  rewrite (nth_error_of (k_s_to FO c) (lay_basic_range lay) (fofZ 0)).
  destruct (Nat.ltb_spec (lay_basic_range lay) (length (k_s_to FO c))) as [L6|]; [|discriminate]. cbn [unwrap bind].
  set (f := fun (_ : F) _ => _). intros H. injection H as H0 H1. subst t dest'.
  split; [exact Ht|]. split; [apply mfe_length|]. split; [unfold no_slope; lia|]. unfold supplied. cbn [orb].
  rewrite mfe_nth, !nth_error_zip.
  rewrite (nth_error_of (offset_reference_pixels FO c sp) i 0), (nth_error_of (k_v_pixels FO c sp) i (fofZ 0)),
    (nth_error_of (k_ta_pixels FO c sp) i (fofZ 0)), (nth_error_of (alpha_pixels FO c sp) i (fofZ 0)),
    (nth_error_of (access_pattern_compensation_pixels FO c (set_pattern s)) i None).
  split.
  - intros Hb Hm Hs Hw Hd. rewrite Hd.
    assert (Hc : exists x, nth_error (chunks2 buf) i = Some x).
    { rewrite chunks2_nth. destruct (Nat.ltb_spec (2 * i + 1) (length buf)); [eauto|lia]. }
    destruct Hc as [x Hx]. rewrite Hx.
    destruct (Nat.ltb i (length (offset_reference_pixels FO c sp))); [|discriminate].
    destruct (Nat.ltb i (length (k_v_pixels FO c sp))); [|discriminate].
    destruct (Nat.ltb i (length (k_ta_pixels FO c sp))); [|discriminate].
    destruct (Nat.ltb i (length (access_pattern_compensation_pixels FO c (set_pattern s)))); [|discriminate].
    destruct (Nat.ltb i (length (alpha_pixels FO c sp))); [|discriminate].
    rewrite Hm. f_equal. unfold f, doc_pixel, doc_t_o, per_pixel_temperature.
    assert (Ev : match compensation_pixel_term c k ram sp (set_pattern s) with
       | Some o => fsub (per_pixel_v_ir (pixel_word x) k (nth i (offset_reference_pixels FO c sp) 0)
            (nth i (k_v_pixels FO c sp) (fofZ 0)) (nth i (k_ta_pixels FO c sp) (fofZ 0))
            (nth i (access_pattern_compensation_pixels FO c (set_pattern s)) None)) o
       | None => per_pixel_v_ir (pixel_word x) k (nth i (offset_reference_pixels FO c sp) 0)
            (nth i (k_v_pixels FO c sp) (fofZ 0)) (nth i (k_ta_pixels FO c sp) (fofZ 0))
            (nth i (access_pattern_compensation_pixels FO c (set_pattern s)) None)
       end = doc_v_ir c lay s sp mem i).
    { unfold doc_v_ir, compensation_pixel_term. rewrite (pixel_word_signed lay sp mem buf i x Hx Hw).
      destruct (temperature_gradient_coefficient FO c); rewrite !Hv; [|reflexivity].
      destruct Hram as (_ & _ & _ & _ & H5). rewrite H5. reflexivity. }
    rewrite Ev.
    assert (Ea : compensated_alpha (alpha_compensation_pixel c sp) (nth i (alpha_pixels FO c sp) (fofZ 0))
                   (sensitivity_correction_coefficient c (c_t_a k)) = doc_alpha c lay sp mem i).
    { unfold compensated_alpha, alpha_compensation_pixel, doc_alpha, sensitivity_correction_coefficient.
      rewrite Ht. destruct (temperature_gradient_coefficient FO c); reflexivity. }
    rewrite Ea.
    assert (Et : t_ar (c_t_a k) (unwrap_or (set_reflected s) (fsub (c_t_a k) (fofZ (lay_self_heating lay))))
                   (set_emissivity s) = doc_t_ar c lay s mem).
    { unfold t_ar, doc_t_ar, unwrap_or. rewrite Ht. destruct (set_reflected s); reflexivity. }
    rewrite Et. reflexivity.
  - intros Hn. destruct (nth_error dest i) as [d|]; [|reflexivity].
    destruct (nth_error (chunks2 buf) i) as [x|]; [|reflexivity].
    destruct (Nat.ltb i (length (offset_reference_pixels FO c sp))); [|reflexivity].
    destruct (Nat.ltb i (length (k_v_pixels FO c sp))); [|reflexivity].
    destruct (Nat.ltb i (length (k_ta_pixels FO c sp))); [|reflexivity].
    destruct (Nat.ltb i (length (access_pattern_compensation_pixels FO c (set_pattern s))));
      destruct (Nat.ltb i (length (alpha_pixels FO c sp))); try reflexivity.
    rewrite andb_true_r in Hn. rewrite Hn. reflexivity.
Qed.
End Facts.

(** Measured pixels are within the bytes a frame read needs. *)
Lemma measured_bytes lay sp ap i : lay = layout640 \/ lay = layout641 -> measured lay sp ap i = true ->
  (2 * i + 2 <= lay_bytes lay sp ap)%nat.
Proof.
  intros Hl Hm. pose proof Hm as Hi. unfold measured in Hi. apply andb_prop in Hi. destruct Hi as [Hi _]. apply Nat.ltb_lt in Hi.
  assert (G : forallb (fun i => negb (measured lay sp ap i) || Nat.leb (2 * i + 2) (lay_bytes lay sp ap)) (seq 0 (lay_pixels lay)) = true).
  { clear - Hl. destruct Hl as [-> | ->]; destruct sp, ap; vm_compute; reflexivity. }
  rewrite forallb_forall in G. specialize (G i). cbv beta in G. rewrite Hm in G. apply Nat.leb_le. apply G. apply in_seq. lia.
Qed.

Section Gen.
Context {FO : FloatOps} (p : profile) {B ER EW : Type} (bs : bus B ER EW).
Notation driver := (driver (FO := FO) (B := B) (ER := ER) (EW := EW)).
Notation op := (op (FO := FO)).
Implicit Types d : driver.

Lemma calc_supplied raw lay d ram sp mem buf0 dest t dest' :
  documented (cam _ (d_calibration d)) lay ->
  (lay_bytes lay sp (d_access_pattern d) <= length (d_pixel_buffer d))%nat ->
  ram_shown mem lay sp ram -> pixels_shown mem lay sp (d_access_pattern d) buf0 (d_pixel_buffer d) ->
  calc (ER := ER) (EW := EW) p raw d ram sp dest = Ok (t, dest') ->
  t = doc_t_a (d_calibration d) lay mem /\
  image_stored_as_supplied (d_calibration d) lay (settings_of d) sp mem raw dest dest'.
Proof.
  intros Hdoc Hb Hram Hpx H.
  assert (Hl : lay = layout640 \/ lay = layout641) by (destruct Hdoc; auto).
  assert (G : forall i, t = doc_t_a (d_calibration d) lay mem /\ length dest' = length dest /\
    ((2 * i + 2 <= length (d_pixel_buffer d))%nat ->
     nth i (pixels_in_subpage _ (cam _ (d_calibration d)) sp (d_access_pattern d)) false = true ->
     supplied (d_calibration d) sp (d_access_pattern d) raw i = true ->
     256 * nth (2 * i) (d_pixel_buffer d) 0 + nth (2 * i + 1) (d_pixel_buffer d) 0 = mem (lay_address lay sp i) ->
     forall v0, nth_error dest i = Some v0 ->
     nth_error dest' i = Some (doc_pixel (d_calibration d) lay (settings_of d) sp mem raw i)) /\
    (nth i (pixels_in_subpage _ (cam _ (d_calibration d)) sp (d_access_pattern d)) false &&
       supplied (d_calibration d) sp (d_access_pattern d) raw i = false ->
     nth_error dest' i = nth_error dest i)).
  { intros i. destruct raw; cbn [calc] in H.
    - pose proof (fun v0 => ir_supplied p (d_calibration d) lay (settings_of d) sp mem ram Hram _ _ _ _ _ i v0 H) as G.
      destruct (G (fofZ 0)) as (G1 & G2 & _ & G4).
      split; [exact G1|]. split; [exact G2|]. split; [|exact G4].
      intros Hi Hm Hs Hw v0 Hv. destruct (G v0) as (_ & _ & G3 & _). apply G3; assumption.
    - pose proof (fun v0 => t_o_supplied p (d_calibration d) lay (settings_of d) sp mem ram Hram _ _ _ _ _ i v0 Hdoc H) as G.
      destruct (G (fofZ 0)) as (G1 & G2 & _ & _ & G4).
      split; [exact G1|]. split; [exact G2|]. split; [|exact G4].
      intros Hi Hm Hs Hw v0 Hv. destruct (G v0) as (_ & _ & _ & G3 & _). apply G3; assumption. }
  split; [apply (G 0%nat)|]. split; [apply (G 0%nat)|].
  intros i v Hv. destruct (G i) as (_ & _ & G3 & G4).
  rewrite (mask_doc _ lay) in G3, G4 by exact Hdoc. cbn [settings_of set_pattern].
  destruct (measured lay sp (d_access_pattern d) i && supplied (d_calibration d) sp (d_access_pattern d) raw i) eqn:E.
  - apply andb_prop in E. destruct E as [Em Es].
    destruct (measured_transferred _ lay sp _ i Hdoc Em) as [Hi Htr].
    pose proof (measured_bytes lay sp _ i Hl Em) as Hby.
    apply (G3 (Nat.le_trans _ _ _ Hby Hb) Em Es) with (v0 := v); [|exact Hv].
    assert (Hw : (0 < lay_width lay)%nat) by (destruct Hdoc; cbn; lia).
    specialize (Hpx (i / lay_width lay)%nat (i mod lay_width lay)%nat).
    cbn zeta in Hpx. rewrite Htr in Hpx.
    replace (i / lay_width lay * lay_width lay + i mod lay_width lay)%nat with i in Hpx
      by (rewrite (Nat.mul_comm (i / lay_width lay)), <- Nat.div_mod by lia; reflexivity).
    apply Hpx.
    + apply Nat.div_lt_upper_bound; [lia|]. unfold lay_pixels in Hi. lia.
    + apply Nat.mod_upper_bound. lia.
  - rewrite G4 by reflexivity. exact Hv.
Qed.

Lemma frame_supplied raw lay d sp ram d1 evs :
  any_calibration d lay -> drv_read_ram bs sp d = (Ok ram, d1) -> trace (d_bus d1) = trace (d_bus d) ++ evs ->
  (lay_bytes lay sp (d_access_pattern d) <= length (d_pixel_buffer d))%nat /\
  forall mem dest t dest', (forall a, word (mem a)) -> Forall (shows mem) evs ->
  calc (ER := ER) (EW := EW) p raw d1 ram sp dest = Ok (t, dest') ->
  t = doc_t_a (d_calibration d) lay mem /\
  image_stored_as_supplied (d_calibration d) lay (settings_of d) sp mem raw dest dest'.
Proof.
  intros [Hd Hh] Hr Ht. unfold drv_read_ram in Hr.
  destruct (read_ram bs (cam _ (d_calibration d)) (d_height d) (d_address d) (d_access_pattern d) sp
             (d_pixel_buffer d) (d_bus d)) as [[r0 buf'] w'] eqn:Hrr.
  injection Hr as -> <-. cbn [d_bus with_bus] in Ht.
  pose proof (read_ram_spec bs _ lay _ _ _ _ _ _ _ _ _ Hd Hh Hrr) as (Hlen & evs0 & _ & _ & Hby).
  split; [exact Hby|]. intros mem dest t dest' Hm Hsh H.
  destruct (read_ram_shows bs mem _ lay _ _ _ _ _ _ _ _ _ _ Hd Hh Hm Hrr Ht Hsh) as (Hram & Hpx & _).
  eapply (calc_supplied raw lay (with_bus (with_buffer d buf') w') ram sp mem (d_pixel_buffer d)); try eassumption.
  cbn [d_pixel_buffer d_access_pattern with_bus with_buffer]. rewrite Hlen. exact Hby.
Qed.

Definition overflow (c : calib FO) (ram : ram_data) : Prop := ~ -32768 <= v_dd_pixel ram - v_dd_25 _ c <= 32767.
Lemma common_panic rc em (c : calib FO) ram : common_new (E := error ER EW) p rc em c ram = Panic -> p = Debug /\ overflow c ram.
Proof.
  unfold common_new, delta_v, chk_i16, overflow. destruct (in_i16 (v_dd_pixel ram - v_dd_25 FO c)) eqn:E; [discriminate|].
  destruct p; [|discriminate]. intros _. split; [reflexivity|]. unfold in_i16 in E. apply andb_false_iff in E. lia.
Qed.
Lemma calc_panic raw d ram sp dest lay : documented (cam _ (d_calibration d)) lay ->
  calc (ER := ER) (EW := EW) p raw d ram sp dest = Panic ->
  (raw = false /\ no_slope (d_calibration d) lay) \/ (p = Debug /\ overflow (d_calibration d) ram).
Proof.
  intros Hd H. destruct (documented_constants _ lay Hd) as [Hbasic _].
  pose proof (common_panic (d_resolution_correction d) (d_emissivity d) (d_calibration d) ram) as G.
  destruct raw; cbn [calc] in H; [unfold calc_ir, raw_pixels_to_ir_data in H|unfold calc_temperatures, raw_pixels_to_temperatures in H];
    destruct (common_new (E := error ER EW) p (d_resolution_correction d) (d_emissivity d) (d_calibration d) ram) as [k| | |];
    cbn [bind] in H; try discriminate; try (right; apply G; reflexivity).
  left. split; [reflexivity|]. unfold no_slope. rewrite Hbasic in H.
  destruct (nth_error (k_s_to FO (d_calibration d)) (lay_basic_range lay)) eqn:E; [discriminate|]. apply nth_error_None. exact E.
Qed.

(** ** Images with any calibration data *)
Theorem C104_image_values : forall lay d o dest r d' dest',
  any_calibration d lay -> destination o = Some dest ->
  step p bs d o = (r, d', dest') -> computed o r ->
  exists raw sp pre frame post,
    trace (d_bus d') = trace (d_bus d) ++ pre ++ frame ++ post /\
    asks (d_address d) o raw sp pre /\
    completed (d_address d) (frame_reads lay sp (d_access_pattern d)) frame /\
    acknowledges (d_address d) o pre post r /\
    (lay_bytes lay sp (d_access_pattern d) <= length (d_pixel_buffer d))%nat /\
    (raw = false -> ~ no_slope (d_calibration d) lay) /\
    forall mem, (forall a, word (mem a)) -> Forall (shows mem) frame ->
      d_ambient d' = Some (doc_t_a (d_calibration d) lay mem) /\
      image_stored_as_supplied (d_calibration d) lay (settings_of d) sp mem raw dest dest'.
Proof.
  intros lay d o dest r d' dest' Hu Ho H Hc.
  destruct (image_outcome p bs lay d o dest r d' dest' Hu Ho H) as (evs & Ht & Hout).
  destruct Hout as [x e w _ _|v w _ _ _|raw sp pre evs r buf w Ha Hf _|raw sp pre evs ram buf w w0 Ha Hcm _ Hr _
    |raw sp pre evs post ram buf w0 w w1 t dest' r Ha Hcm Hl Hw Hr Hcalc Hk].
  - destruct Hc as [_ []].
  - destruct Hc as [_ []].
  - destruct Hf as [(e & -> & _)|(-> & _)]; destruct Hc as [_ []].
  - destruct Hc as [_ []].
  - exists raw, sp, pre, evs, post. split; [exact Ht|]. split; [exact Ha|]. split; [exact Hcm|]. split; [exact Hk|].
    destruct (frame_supplied raw lay (with_bus d w0) sp ram (after_frame d buf w) evs Hu Hr Hw) as [Hby Hv].
    split; [exact Hby|]. split.
    + intros ->. cbn [calc] in Hcalc. unfold calc_temperatures, raw_pixels_to_temperatures in Hcalc.
      destruct (documented_constants _ lay (proj1 Hu)) as [Hbasic _].
      change (d_calibration (after_frame d buf w)) with (d_calibration d) in Hcalc. rewrite Hbasic in Hcalc.
      intros Hn. apply nth_error_None in Hn. rewrite Hn in Hcalc.
      destruct (common_new (E := error ER EW) p _ _ (d_calibration d) ram); discriminate.
    + intros mem Hm Hs. destruct (Hv mem dest t dest' Hm Hs Hcalc) as [Hta Him].
      cbn [d_bus d_ambient with_bus with_ambient]. rewrite Hta. split; [reflexivity|exact Him].
Qed.

(** When a call panics, and that nothing is stored then. *)
Theorem C104_panics : forall lay d o dest d' dest',
  any_calibration d lay -> destination o = Some dest ->
  step p bs d o = (Panic, d', dest') ->
  dest' = dest /\ kept d d' /\
  exists raw sp pre evs, trace (d_bus d') = trace (d_bus d) ++ pre ++ evs /\ asks (d_address d) o raw sp pre /\ Forall is_read evs /\
   ((length (d_pixel_buffer d) < lay_bytes lay sp (d_access_pattern d))%nat \/
    (raw = false /\ no_slope (d_calibration d) lay) \/
    (p = Debug /\ forall mem, (forall a, word (mem a)) -> Forall (shows mem) evs ->
       ~ -32768 <= signed (mem (lay_vdd lay)) - v_dd_25 _ (d_calibration d) <= 32767)).
Proof.
  intros lay d o dest d' dest' Hu Ho H.
  destruct (image_outcome p bs lay d o dest Panic d' dest' Hu Ho H) as (evs0 & Ht & Hout).
  remember (Panic : res (error ER EW) (out (FO := FO))) as r eqn:Er.
  destruct Hout as [x e w _ Hx|v w _ _ _|raw sp pre evs r buf w Ha Hf _|raw sp pre evs ram buf w w0 Ha Hcm _ Hr Hcalc Hw
    |raw sp pre evs post ram buf w0 w w1 t dest' r Ha Hcm Hl Hw Hr Hcalc Hk]; try discriminate.
  - split; [reflexivity|]. split; [repeat split|]. exists raw, sp, pre, evs. split; [exact Ht|]. split; [exact Ha|].
    split; [eapply failed_reads; exact Hf|]. left.
    destruct Hf as [(e & -> & _)|(_ & Hf & _)]; [discriminate|exact Hf].
  - split; [reflexivity|]. split; [repeat split|]. exists raw, sp, pre, evs. split; [exact Ht|]. split; [exact Ha|].
    split; [eapply reads_only; exact Hcm|]. right.
    destruct (calc_panic raw (after_frame d buf w) ram sp dest lay (proj1 Hu) Hcalc) as [Hs|[Hp Hv]]; [left; exact Hs|right].
    split; [exact Hp|]. intros mem Hm Hsh.
    unfold drv_read_ram in Hr.
    destruct (read_ram bs (cam _ (d_calibration (with_bus d w0))) (d_height (with_bus d w0)) (d_address (with_bus d w0))
      (d_access_pattern (with_bus d w0)) sp (d_pixel_buffer (with_bus d w0)) (d_bus (with_bus d w0))) as [[r0 buf'] w'] eqn:Hrr.
    assert (E : r0 = Ok ram /\ w' = w).
    { split; [congruence|]. apply (f_equal (fun x => d_bus (snd x))) in Hr. exact Hr. }
    destruct E as [-> ->].
    destruct (read_ram_shows bs mem _ lay _ _ _ _ _ _ _ _ _ _ (proj1 Hu) (proj2 Hu) Hm Hrr Hw Hsh) as (Hram & _).
    destruct Hram as (_ & _ & Hvdd & _). unfold overflow in Hv. rewrite <- Hvdd. exact Hv.
  - exfalso. destruct Hk as [| | |v v' dest0 err _ _ _ _]; try discriminate. destruct err; discriminate.
Qed.
End Gen.

(** ** Saved calibration data *)
Definition first_answer {ER EW} (a : Z) (evs : list (event ER EW)) (data : list Z) : Prop :=
  exists rest, evs = EvRead a [0x24; 0x00] data None :: rest.
Section Saved.
Context {FO : FloatOps} (p : profile).

Lemma fresh_connect {B1 B2 ER EW} height num_bytes a (c : calib FO) v (w1 : world B1 ER EW) (w2 : world B2 ER EW) d1 d2 :
  fresh_driver height num_bytes a c v w1 d1 -> fresh_driver height num_bytes a c v w2 d2 -> d2 = connect d1 w2.
Proof.
  intros (A1 & A2 & A3 & A4 & A5 & A6 & A7 & A8 & A9 & A10) (B1' & B2' & B3 & B4 & B5 & B6 & B7 & B8 & B9 & B10).
  unfold drv_ambient_temperature, reflected_temperature, effective_emissivity in *.
  destruct d1 as [x1 x2 x3 x4 x5 x6 x7 x8 x9 x10], d2 as [y1 y2 y3 y4 y5 y6 y7 y8 y9 y10]. unfold connect. cbn [d_bus d_address d_calibration d_height d_pixel_buffer d_ambient d_reflected
    d_emissivity d_access_pattern d_resolution_correction] in *. subst. reflexivity.
Qed.

Lemma saved (from_data : list Z -> res lib_error (calib FO)) height num_bytes a1 a
    B1 ER1 EW1 (w1' : world B1 ER1 EW1) evs1 d1 B2 B3 ER EW (w2' : world B2 ER EW) (w3' : world B3 ER EW) evs2 d2 bs3 w3 d3 data v :
  constructed_new from_data height num_bytes a1 w1' evs1 (Ok d1) -> first_answer a1 evs1 data ->
  constructed_new from_data height num_bytes a w2' evs2 (Ok d2) ->
  map answer_of evs2 = [AnsRead data None; AnsRead [v / 256; v mod 256] None] ->
  new_with_calibration bs3 height num_bytes w3 a (d_calibration d1) = (Ok d3, w3') ->
  trace w3' = trace w3 ++ [reads_word a control_reg v] ->
  d3 = connect d2 w3'.
Proof.
  intros H1 (rest & E1) H2 E2 H3 T3.
  remember (Ok d1 : res (error ER1 EW1) _) as r1 eqn:R1. destruct H1 as [| | | |data1 c1 evs1 r1 _ _ F1 H1]; try discriminate. subst r1.
  remember (Ok d2 : res (error ER EW) _) as r2 eqn:R2. destruct H2 as [| | | |data2 c2 evs2 r2 _ _ F2 H2]; try discriminate. subst r2.
  assert (data1 = data) as -> by congruence.
  cbn [map answer_of] in E2. assert (data2 = data) as -> by congruence.
  assert (c2 = c1) as -> by congruence.
  assert (E3 : map answer_of evs2 = [AnsRead [v / 256; v mod 256] None]) by congruence. clear E1 E2.
  apply C29_new_with_calibration in H3. destruct H3 as (evs3 & T3' & H3).
  rewrite T3 in T3'. apply app_inv_head in T3'. subst evs3.
  remember (Ok d1 : res (error ER1 EW1) _) as r1 eqn:R1. destruct H1 as [v1 d1' _ FD1|]; [|discriminate]. assert (d1' = d1) as -> by congruence.
  remember (Ok d2 : res (error ER EW) _) as r2 eqn:R2. destruct H2 as [v2 d2' W2 FD2|]; [|discriminate]. assert (d2' = d2) as -> by congruence.
  assert (d_calibration d1 = c1) as E by apply FD1. rewrite E in H3.
  inversion H3 as [v3 d3' W3 FD3 X1 X2|]; subst.
  assert (v2 = v /\ v3 = v) as [-> ->].
  { cbn [map answer_of reads_word] in E3. unfold reads_word in *.
    assert (v2 / 256 = v / 256 /\ v2 mod 256 = v mod 256) as [Q1 Q2] by (split; congruence).
    assert (v3 / 256 = v / 256 /\ v3 mod 256 = v mod 256) as [Q3 Q4] by (split; congruence).
    split; [rewrite (Z_div_mod_eq_full v2 256), Q1, Q2|rewrite (Z_div_mod_eq_full v3 256), Q3, Q4]; symmetry; apply Z_div_mod_eq_full. }
  eapply fresh_connect; eassumption.
Qed.
End Saved.

(** A driver made with calibration data saved from an earlier session ([d1]) is the driver [new] would have
    made ([d2]), without the EEPROM being read; and does the same, as long as the camera answers the same. *)
Theorem C104_saved_640 : forall FO p B1 ER1 EW1 (bs1 : bus B1 ER1 EW1) w1 a1 (d1 : driver (FO := FO)) w1' rest
    B2 B3 ER EW (bs2 : bus B2 ER EW) (bs3 : bus B3 ER EW) w2 w3 a (d2 : driver (FO := FO)) w2' (d3 : driver (FO := FO)) w3' data v,
  new bs1 (calib640_from_i2c FO p bs1) 24 1536 w1 a1 = (Ok d1, w1') ->
  trace w1' = trace w1 ++ EvRead a1 [0x24; 0x00] data None :: rest ->
  new bs2 (calib640_from_i2c FO p bs2) 24 1536 w2 a = (Ok d2, w2') ->
  trace w2' = trace w2 ++ [EvRead a [0x24; 0x00] data None; reads_word a control_reg v] ->
  new_with_calibration bs3 24 1536 w3 a (d_calibration d1) = (Ok d3, w3') ->
  trace w3' = trace w3 ++ [reads_word a control_reg v] ->
  d3 = connect d2 w3' /\
  forall ops evs2 evs3,
    trace (d_bus (run p bs2 d2 ops)) = trace w2' ++ evs2 -> trace (d_bus (run p bs3 d3 ops)) = trace w3' ++ evs3 ->
    map answer_of evs2 = map answer_of evs3 ->
    evs2 = evs3 /\ outcomes p bs2 d2 ops = outcomes p bs3 d3 ops.
Proof.
  intros FO p B1 ER1 EW1 bs1 w1 a1 d1 w1' rest B2 B3 ER EW bs2 bs3 w2 w3 a d2 w2' d3 w3' data v N1 T1 N2 T2 N3 T3.
  destruct (C29_new_640 _ _ _ _ _ _ _ _ _ _ N1) as (evs1 & T1' & H1). rewrite T1 in T1'. apply app_inv_head in T1'. subst evs1.
  destruct (C29_new_640 _ _ _ _ _ _ _ _ _ _ N2) as (evs2 & T2' & H2). rewrite T2 in T2'. apply app_inv_head in T2'. subst evs2.
  assert (E : d3 = connect d2 w3').
  { eapply saved; [exact H1|eexists; reflexivity|exact H2|reflexivity|exact N3|exact T3]. }
  split; [exact E|]. intros ops evs2 evs3 R2 R3 Ha.
  assert (Ew : d_bus d2 = w2').
  { inversion H2 as [| | | |data2 c2 evs2' r2 _ _ _ H2']; subst. inversion H2' as [v2 d2' _ FD|]; subst. apply FD. }
  rewrite <- Ew in R2. subst d3.
  destruct (C80_same_answers p B2 B3 bs2 bs3 d2 w3' ops evs2 evs3 [] (proj2 (C62_new_640 _ _ _ _ _ _ _ _ _ _ N2)) R2 R3) as (G1 & G2 & _).
  { rewrite app_nil_r. symmetry. exact Ha. }
  auto.
Qed.

(** A driver made with calibration data saved from an earlier session ([d1]) is the driver [new] would have
    made ([d2]), without the EEPROM being read; and does the same, as long as the camera answers the same. *)
Theorem C104_saved_641 : forall FO p B1 ER1 EW1 (bs1 : bus B1 ER1 EW1) w1 a1 (d1 : driver (FO := FO)) w1' rest
    B2 B3 ER EW (bs2 : bus B2 ER EW) (bs3 : bus B3 ER EW) w2 w3 a (d2 : driver (FO := FO)) w2' (d3 : driver (FO := FO)) w3' data v,
  new bs1 (calib641_from_i2c FO p bs1) 12 384 w1 a1 = (Ok d1, w1') ->
  trace w1' = trace w1 ++ EvRead a1 [0x24; 0x00] data None :: rest ->
  new bs2 (calib641_from_i2c FO p bs2) 12 384 w2 a = (Ok d2, w2') ->
  trace w2' = trace w2 ++ [EvRead a [0x24; 0x00] data None; reads_word a control_reg v] ->
  new_with_calibration bs3 12 384 w3 a (d_calibration d1) = (Ok d3, w3') ->
  trace w3' = trace w3 ++ [reads_word a control_reg v] ->
  d3 = connect d2 w3' /\
  forall ops evs2 evs3,
    trace (d_bus (run p bs2 d2 ops)) = trace w2' ++ evs2 -> trace (d_bus (run p bs3 d3 ops)) = trace w3' ++ evs3 ->
    map answer_of evs2 = map answer_of evs3 ->
    evs2 = evs3 /\ outcomes p bs2 d2 ops = outcomes p bs3 d3 ops.
Proof.
  intros FO p B1 ER1 EW1 bs1 w1 a1 d1 w1' rest B2 B3 ER EW bs2 bs3 w2 w3 a d2 w2' d3 w3' data v N1 T1 N2 T2 N3 T3.
  destruct (C29_new_641 _ _ _ _ _ _ _ _ _ _ N1) as (evs1 & T1' & H1). rewrite T1 in T1'. apply app_inv_head in T1'. subst evs1.
  destruct (C29_new_641 _ _ _ _ _ _ _ _ _ _ N2) as (evs2 & T2' & H2). rewrite T2 in T2'. apply app_inv_head in T2'. subst evs2.
  assert (E : d3 = connect d2 w3').
  { eapply saved; [exact H1|eexists; reflexivity|exact H2|reflexivity|exact N3|exact T3]. }
  split; [exact E|]. intros ops evs2 evs3 R2 R3 Ha.
  assert (Ew : d_bus d2 = w2').
  { inversion H2 as [| | | |data2 c2 evs2' r2 _ _ _ H2']; subst. inversion H2' as [v2 d2' _ FD|]; subst. apply FD. }
  rewrite <- Ew in R2. subst d3.
  destruct (C80_same_answers p B2 B3 bs2 bs3 d2 w3' ops evs2 evs3 [] (proj2 (C62_new_641 _ _ _ _ _ _ _ _ _ _ N2)) R2 R3) as (G1 & G2 & _).
  { rewrite app_nil_r. symmetry. exact Ha. }
  auto.
Qed.

(** ** Concrete cases *)
(** Saving and reusing, on cameras with the data of the datasheets' examples: the transcripts are those of the
    hypotheses of C104_saved_640 and C104_saved_641 (with all sessions on the same camera, and v = 0). *)
Definition reused (dump : list Z) (height num_bytes : nat)
    (x : res (error unit unit) (driver (FO := ZFO) (B := unit) (ER := unit) (EW := unit)) * world unit unit unit) : bool :=
  match x with
  | (Ok d1, w1) =>
      match new_with_calibration (dump_bus dump) height num_bytes start 0x33 (d_calibration d1) with
      | (Ok d3, w3) =>
          match trace w1, trace w3 with
          | [EvRead 0x33 [0x24; 0x00] data None; EvRead 0x33 [0x80; 0x0D] [0; 0] None], [EvRead 0x33 [0x80; 0x0D] [0; 0] None] =>
              if list_eq_dec Z.eq_dec data dump then true else false
          | _, _ => false
          end
      | _ => false
      end
  | _ => false
  end.
Example C104_saved_concrete :
  reused datasheet640 24 1536 (new (dump_bus datasheet640) (calib640_from_i2c ZFO Debug (dump_bus datasheet640)) 24 1536 start 0x33) = true /\
  reused datasheet641 12 384 (new (dump_bus datasheet641) (calib641_from_i2c ZFO Debug (dump_bus datasheet641)) 12 384 start 0x33) = true.
Proof. split; vm_compute; reflexivity. Qed.

(** A calibration with values for only the first 10 pixels: these are stored, the others keep their old value. *)
Definition short : calib ZFO := demo_calib (Mlx90641 ZFO) 10.
Definition old : list (F ZFO) := repeat (777777 : F ZFO) 192.
Definition changed (old new : list (F ZFO)) : list nat :=
  filter (fun i => negb (Z.eqb (nth i old (0 : Z)) (nth i new (0 : Z)))) (seq 0 (length old)).
Example C104_short_concrete :
  match demo_driver 12 384 short 0x0009 0x0901 with
  | Some d => any_calibration d layout641 /\ ~ complete (d_calibration d) layout641
  | None => False
  end /\
  match demo_driver 12 384 short 0x0009 0x0901 with
  | Some d =>
      let '(r, _, dest') := generate_image_if_ready Debug (toy_bus never never) old d in
      r = Ok true /\ changed old dest' = seq 0 10
  | None => False
  end.
Proof.
  split; [|vm_compute; split; reflexivity].
  unfold demo_driver. destruct (new_with_calibration _ _ _ _ _ _) as [r w'] eqn:E.
  destruct r as [d| | |]; [|exfalso; revert E; vm_compute; discriminate ..].
  apply C29_new_with_calibration in E. destruct E as (evs & _ & H). inversion H as [v d0 Hv Hf|]; subst.
  destruct Hf as (_ & _ & Hc & Hh & Hb & _). unfold any_calibration. rewrite Hc, Hh.
  split; [split; [constructor|cbn; lia]|]. intros (L & _). specialize (L Zero). discriminate L.
Qed.

(** Without the slope of the basic range a temperature image panics, a raw image does not; with too small a pixel buffer both do. *)
Definition slopeless : calib ZFO := {|
  cam := Mlx90641 ZFO; k_v_dd := -3200; v_dd_25 := -12544; cal_resolution := Res18; v_dd_0 := 3;
  k_v_ptat := 0; k_t_ptat := 42; v_ptat_25 := 12273; alpha_ptat := 9; cal_gain := 6383; k_s_ta := 0;
  corner_temperatures := [-40; 0]; k_s_to := [0; 0]; alpha_correction := [1; 1];
  cal_emissivity := None; offset_reference_pixels := fun _ => repeat (-50) 192; offset_reference_cp := fun _ => -75;
  alpha_pixels := fun _ => repeat 1 192; alpha_cp := fun _ => 0; k_v_pixels := fun _ => repeat 0 192;
  k_v_cp := fun _ => 0; k_ta_pixels := fun _ => repeat 0 192; k_ta_cp := fun _ => 0;
  temperature_gradient_coefficient := None;
  access_pattern_compensation_pixels := fun _ => repeat None 192;
  access_pattern_compensation_cp := fun _ _ => None;
  failed_pixels := repeat false 192; outlier_pixels := repeat false 192 |}.
Definition ends {A E X Y} (x : res E A * X * Y) : nat :=
  match fst (fst x) with Ok _ => 0%nat | Err _ => 1%nat | Panic => 2%nat | Diverge => 3%nat end.
Example C104_panic_concrete :
  match demo_driver 12 384 slopeless 0x0009 0x0901 with
  | Some d => ends (generate_image_subpage_to Debug (toy_bus never never) Zero old d) = 2%nat /\
              ends (generate_raw_image_subpage_to Debug (toy_bus never never) Zero old d) = 0%nat
  | None => False
  end /\
  match demo_driver 12 380 demo641 0x0009 0x0901 with
  | Some d => ends (generate_image_subpage_to Debug (toy_bus never never) Zero old d) = 2%nat /\
              ends (generate_raw_image_subpage_to Debug (toy_bus never never) Zero old d) = 2%nat
  | None => False
  end.
Proof. vm_compute. repeat split. Qed.

Print Assumptions C104_image_values.
Print Assumptions C104_panics.
Print Assumptions C104_saved_640.
Print Assumptions C104_saved_641.
