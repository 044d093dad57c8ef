(** * PortFacts: what depends on the mathematical library. *)
From Verif Require Import Base FloatOps Register Bus Camera Cam640 Cam641 Calc CalcFacts B32 B32Facts SpecReplay SpecPort Driver.
From Coq Require Import Reals Lra.
From Flocq Require Import Core BinarySingleNaN.
Open Scope Z_scope.

(** ** [exp2] of an integer is not the library's business *)
Lemma round_integer (n : Z) : exists k, RN (IZR n) = IZR k.
Proof.
  destruct (Z_le_gt_dec 0 (cexp radix2 b32_fexp (IZR n))) as [H|H].
  - unfold round, F2R. cbn [Fnum Fexp]. rewrite <- (IZR_Zpower radix2 _ H), <- mult_IZR. eexists. reflexivity.
  - exists n. apply round_generic; [apply valid_rnd_round_mode|].
    replace (IZR n) with (F2R (Float radix2 n 0)) by (unfold F2R; cbn [Fnum Fexp bpow]; ring).
    apply generic_format_F2R. intros _. replace (F2R (Float radix2 n 0)) with (IZR n) by (unfold F2R; cbn [Fnum Fexp bpow]; ring). lia.
Qed.
Lemma ofZ_integer n : (exists k, is_val (b_ofZ n) (IZR k)) \/ exists s, b_ofZ n = B754_infinity s.
Proof.
  pose proof (binary_normalize_correct 24 128 prec24 emax128 mode_NE n 0 false) as H. unfold b_ofZ.
  replace (F2R (Float radix2 n 0)) with (IZR n) in H by (unfold F2R; cbn [Fnum Fexp bpow]; ring).
  cbv zeta in H. destruct (Rlt_bool (Rabs (RN (IZR n))) (bpow radix2 128)).
  - destruct H as (H1 & H2 & _). destruct (round_integer n) as [k Hk]. left. exists k. split; [exact H2|]. rewrite H1. exact Hk.
  - right. set (x := binary_normalize 24 128 prec24 emax128 mode_NE n 0 false) in *. clearbody x.
    unfold binary_overflow in H. cbn [overflow_to_inf] in H.
    destruct x as [s|s| |s m e Hb]; try discriminate H. exists s. reflexivity.
Qed.
Lemma exp2_any_library l l' n : b_exp2 l' (b_ofZ n) = b_exp2 l (b_ofZ n).
Proof.
  destruct (ofZ_integer n) as [[k Hk]|[s ->]]; [|reflexivity]. pose proof (b_toZ_val _ _ Hk) as E.
  unfold b_exp2. destruct (b_ofZ n) as [s|s| |s m e Hb]; try reflexivity; rewrite E; reflexivity.
Qed.

Section Port.
Context (l l' : libm) (p : profile).
Notation same_camera := (same_camera l l').
Notation same_calibration := (same_calibration l l').
Notation same_powers := (same_powers l l').

Lemma same_camera_640 : same_camera (Mlx90640 (B32 l)) (Mlx90640 (B32 l')).
Proof.
  unfold Mlx90640. constructor;
    cbn [pixel_ranges pixels_in_subpage T_A_V_BE T_A_PTAT compensation_pixel_addr GAIN V_DD_PIXEL resolution_correction
      BASIC_TEMPERATURE_RANGE SELF_HEATING HEIGHT WIDTH NUM_PIXELS fofZ B32]; intros; [reflexivity|reflexivity|reflexivity|reflexivity|reflexivity|reflexivity|reflexivity| |reflexivity|reflexivity|reflexivity|reflexivity|reflexivity].
  apply (exp2_any_library l l').
Qed.
Lemma same_camera_641 : same_camera (Mlx90641 (B32 l)) (Mlx90641 (B32 l')).
Proof.
  unfold Mlx90641. constructor;
    cbn [pixel_ranges pixels_in_subpage T_A_V_BE T_A_PTAT compensation_pixel_addr GAIN V_DD_PIXEL resolution_correction
      BASIC_TEMPERATURE_RANGE SELF_HEATING HEIGHT WIDTH NUM_PIXELS fofZ B32]; intros; [reflexivity|reflexivity|reflexivity|reflexivity|reflexivity|reflexivity|reflexivity| |reflexivity|reflexivity|reflexivity|reflexivity|reflexivity].
  apply (exp2_any_library l l').
Qed.

(** ** The calculations *)
Section Low.
Context (c : calib (B32 l)) (c' : calib (B32 l')) (H : same_calibration c c').

Definition same_common (x : common_ir_data (FO := B32 l)) (y : common_ir_data (FO := B32 l')) : Prop :=
  c_gain y = c_gain x :> f32 /\ c_v_dd y = c_v_dd x :> f32 /\ c_emissivity y = c_emissivity x :> f32 /\ c_t_a y = c_t_a x :> f32.
Lemma common_port E (rc e : f32) ram :
  both same_common (common_new (FO := B32 l) p (E := E) rc e c ram) (common_new (FO := B32 l') p (E := E) rc e c' ram).
Proof.
  unfold common_new, delta_v. rewrite (sl_v_dd_25 _ _ _ _ H).
  destruct (chk_i16 p (v_dd_pixel ram - v_dd_25 _ c)) as [z|x| |]; cbn [bind both]; try exact I; [|reflexivity].
  unfold same_common, v_dd, ambient_temperature, v_ptat_art. cbn [c_gain c_v_dd c_emissivity c_t_a fadd fsub fmul fdiv fofZ fexp2 B32].
  rewrite (sl_k_v_dd _ _ _ _ H), (sl_gain _ _ _ _ H), (sl_v_dd_0 _ _ _ _ H), (sl_alpha_ptat _ _ _ _ H), (sl_k_v_ptat _ _ _ _ H),
    (sl_v_ptat_25 _ _ _ _ H), (sl_k_t_ptat _ _ _ _ H), (exp2_any_library l l').
  repeat split; reflexivity.
Qed.
Lemma v_ir_port px x y off (kv kta : f32) (amc : option f32) : same_common x y ->
  per_pixel_v_ir (FO := B32 l') px y off kv kta amc = per_pixel_v_ir (FO := B32 l) px x off kv kta amc :> f32.
Proof.
  intros (E1 & E2 & E3 & E4). unfold per_pixel_v_ir. cbn [fadd fsub fmul fdiv fofZ f_3_3 B32]. rewrite E1, E2, E3, E4. reflexivity.
Qed.
Lemma cp_port x y ram sp ap : same_common x y ->
  compensation_pixel_term c' y ram sp ap = compensation_pixel_term c x ram sp ap :> option f32.
Proof.
  intros E. unfold compensation_pixel_term.
  rewrite (sl_tgc _ _ _ _ H), (sl_offset_cp _ _ _ _ H), (sl_k_v_cp _ _ _ _ H), (sl_k_ta_cp _ _ _ _ H), (sl_pattern_cp _ _ _ _ H).
  destruct (temperature_gradient_coefficient _ c) as [t|]; [|reflexivity]. rewrite (v_ir_port _ x y _ _ _ _ E). reflexivity.
Qed.
Lemma acp_port sp : alpha_compensation_pixel c' sp = alpha_compensation_pixel c sp :> option f32.
Proof. unfold alpha_compensation_pixel. rewrite (sl_tgc _ _ _ _ H), (sl_alpha_cp _ _ _ _ H). reflexivity. Qed.
Lemma scc_port (t : f32) :
  sensitivity_correction_coefficient (FO := B32 l') c' t = sensitivity_correction_coefficient (FO := B32 l) c t :> f32.
Proof. unfold sensitivity_correction_coefficient. rewrite (sl_k_s_ta _ _ _ _ H). reflexivity. Qed.
Lemma tar_port (ta tr e : f32) : same_powers -> t_ar (FO := B32 l') ta tr e = t_ar (FO := B32 l) ta tr e :> f32.
Proof. intros (P3 & P4 & P5). unfold t_ar. cbn [fpowi B32]. rewrite !P4. reflexivity. Qed.
Lemma pixel_port (v a t k : f32) : same_powers ->
  per_pixel_temperature (FO := B32 l') v a t k = per_pixel_temperature (FO := B32 l) v a t k :> f32.
Proof.
  intros (P3 & P4 & P5). unfold per_pixel_temperature. cbn [fpowi fpowf B32 f_quarter]. fold quarter. rewrite P3, P4, !P5. reflexivity.
Qed.

Lemma mfe_ext {A X} (f g : A -> X -> A) : (forall a x, g a x = f a x) -> forall dest items mask,
  masked_for_each g dest items mask = masked_for_each f dest items mask.
Proof.
  intros E dest. induction dest as [|a dest IH]; intros items mask; [reflexivity|]. destruct items as [|x items]; [reflexivity|].
  cbn [masked_for_each]. rewrite E, IH. reflexivity.
Qed.

(** The same ambient temperature; destinations of the same length, equal if [Q]. *)
Definition near (Q : Prop) (x : f32 * list f32) (y : f32 * list f32) : Prop :=
  fst y = fst x /\ length (snd y) = length (snd x) /\ (Q -> snd y = snd x).
Lemma raw_ir_port E (e rc : f32) pixel_data ram sp ap mask (dest : list f32) :
  both (near True) (raw_pixels_to_ir_data (FO := B32 l) p (E := E) c e rc pixel_data ram sp ap mask dest)
    (raw_pixels_to_ir_data (FO := B32 l') p (E := E) c' e rc pixel_data ram sp ap mask dest).
Proof.
  unfold raw_pixels_to_ir_data. pose proof (common_port E rc e ram) as G.
  destruct (common_new (FO := B32 l) p rc e c ram) as [x|x| |], (common_new (FO := B32 l') p rc e c' ram) as [y|y| |];
    cbn [both] in G; try contradiction; cbn [bind both]; try exact G.
  rewrite (cp_port x y ram sp ap G), (sl_offset _ _ _ _ H), (sl_k_v _ _ _ _ H), (sl_k_ta _ _ _ _ H), (sl_pattern _ _ _ _ H).
  unfold near. cbn [fst snd]. split; [apply G|]. split; [rewrite !mfe_length; reflexivity|]. intros _.
  apply (mfe_ext (A := f32)). intros a [[[[px off] kv] kta] amc]. rewrite (v_ir_port _ x y _ _ _ _ G). reflexivity.
Qed.
Lemma raw_temperatures_port E (e : f32) (tr : option f32) (rc : f32) pixel_data ram sp ap mask (dest : list f32) :
  both (near same_powers) (raw_pixels_to_temperatures (FO := B32 l) p (E := E) c e tr rc pixel_data ram sp ap mask dest)
    (raw_pixels_to_temperatures (FO := B32 l') p (E := E) c' e tr rc pixel_data ram sp ap mask dest).
Proof.
  unfold raw_pixels_to_temperatures. pose proof (common_port E rc e ram) as G.
  destruct (common_new (FO := B32 l) p rc e c ram) as [x|x| |], (common_new (FO := B32 l') p rc e c' ram) as [y|y| |];
    cbn [both] in G; try contradiction; cbn [bind both]; try exact G.
  rewrite (cp_port x y ram sp ap G), (sl_offset _ _ _ _ H), (sl_k_v _ _ _ _ H), (sl_k_ta _ _ _ _ H), (sl_pattern _ _ _ _ H),
    (sl_alpha _ _ _ _ H), acp_port, (sl_k_s_to _ _ _ _ H), (sc_range _ _ _ _ (sl_cam _ _ _ _ H)), (sc_heating _ _ _ _ (sl_cam _ _ _ _ H)).
  change (F (B32 l')) with f32; change (F (B32 l)) with f32.
  destruct (nth_error (A := f32) (k_s_to _ c) (BASIC_TEMPERATURE_RANGE _ (cam _ c))) as [ks|]; cbn [unwrap bind both]; [|exact I].
  assert (Et : c_t_a y = c_t_a x) by apply G. rewrite Et, scc_port.
  unfold near. cbn [fst snd]. split; [reflexivity|]. split; [rewrite !mfe_length; reflexivity|]. intros Q.
  apply (mfe_ext (A := f32)). intros a [[[[[px off] kv] kta] al] amc]. rewrite (v_ir_port _ x y _ _ _ _ G).
  rewrite (pixel_port _ _ _ _ Q). rewrite (tar_port _ _ _ Q). reflexivity.
Qed.
Lemma raw_ir_to_temperatures_port E (e ta : f32) (tr : option f32) sp mask (dest : list f32) :
  both (E := E) (fun x y : list f32 => length y = length x /\ (same_powers -> y = x))
    (raw_ir_to_temperatures (FO := B32 l) (E := E) c e ta tr sp mask dest)
    (raw_ir_to_temperatures (FO := B32 l') (E := E) c' e ta tr sp mask dest).
Proof.
  unfold raw_ir_to_temperatures.
  rewrite (sl_alpha _ _ _ _ H), acp_port, (sl_k_s_to _ _ _ _ H), (sc_range _ _ _ _ (sl_cam _ _ _ _ H)), (sc_heating _ _ _ _ (sl_cam _ _ _ _ H)).
  change (F (B32 l')) with f32; change (F (B32 l)) with f32.
  destruct (nth_error (A := f32) (k_s_to _ c) (BASIC_TEMPERATURE_RANGE _ (cam _ c))) as [ks|]; cbn [unwrap bind both]; [|exact I].
  split; [rewrite !mfe_length; reflexivity|]. intros Q.
  apply (mfe_ext (A := f32)). intros a al. rewrite scc_port, (pixel_port _ _ _ _ Q). rewrite (tar_port _ _ _ Q). reflexivity.
Qed.
End Low.

(** ** The calls *)
Section Calls.
Context {B ER EW : Type} (bs : bus B ER EW).
Notation drv l := (driver (FO := B32 l) (B := B) (ER := ER) (EW := EW)).
Notation err := (error ER EW).
Notation same := (same_driver l l' (B := B) (ER := ER) (EW := EW)).

Definition blind {A} (f : drv l -> m (FO := B32 l) A) (f' : drv l' -> m (FO := B32 l') A) : Prop :=
  forall d d', same d d' -> fst (f' d') = fst (f d) /\ same (snd (f d)) (snd (f' d')).
Definition blindi {A A'} (v : A -> A') (Q : Prop) (f : drv l -> mi (FO := B32 l) A) (f' : drv l' -> mi (FO := B32 l') A') : Prop :=
  forall d d', same d d' -> fst (fst (f' d')) = bind (fst (fst (f d))) (fun a => Ok (v a)) /\ same (snd (fst (f d))) (snd (fst (f' d'))) /\
    length (snd (f' d')) = length (snd (f d)) /\ (Q -> snd (f' d') = snd (f d) :> list f32).

Lemma same_with_bus d d' w : same d d' -> same (with_bus d w) (with_bus d' w).
Proof. intros []. constructor; assumption || reflexivity. Qed.
Lemma same_with_ambient d d' (t : option f32) : same d d' -> same (with_ambient (FO := B32 l) d t) (with_ambient (FO := B32 l') d' t).
Proof. intros []. constructor; assumption || reflexivity. Qed.
Lemma blind_ret {A} (r : res err A) : blind (fun d => (r, d)) (fun d => (r, d)).
Proof. intros d d' Hd. split; [reflexivity|exact Hd]. Qed.
Lemma blind_bindS {A A'} f f' (h : A -> drv l -> m (FO := B32 l) A') (h' : A -> drv l' -> m (FO := B32 l') A') :
  blind f f' -> (forall a, blind (h a) (h' a)) -> blind (fun d => bindS (f d) h) (fun d => bindS (f' d) h').
Proof.
  intros Hf Hk d d' Hd. destruct (Hf d d' Hd) as [E1 E2]. unfold bindS.
  destruct (f d) as [r d1], (f' d') as [r' d1']. cbn [fst snd] in *. subst r'.
  destruct r as [a|e| |]; try (split; [reflexivity|exact E2]). exact (Hk a d1 d1' E2).
Qed.
Lemma blind_status : blind (status_register_ bs) (status_register_ bs).
Proof.
  intros d d' Hd. unfold status_register_. rewrite (sd_address _ _ _ _ Hd), (sd_bus _ _ _ _ Hd).
  destruct (read_register bs (d_address d) STATUS_ADDRESS (d_bus d)). split; [reflexivity|apply same_with_bus; exact Hd].
Qed.
Lemma blind_set_status v : blind (set_status_register bs v) (set_status_register bs v).
Proof.
  intros d d' Hd. unfold set_status_register. rewrite (sd_address _ _ _ _ Hd), (sd_bus _ _ _ _ Hd).
  destruct (write_register bs (d_address d) STATUS_ADDRESS v (d_bus d)). split; [reflexivity|apply same_with_bus; exact Hd].
Qed.
Lemma blind_update v : blind (update_control_register v) (update_control_register v).
Proof.
  intros d d' Hd. unfold update_control_register.
  rewrite (sl_resolution _ _ _ _ (sd_calibration _ _ _ _ Hd)), (sd_pattern _ _ _ _ Hd).
  destruct (ctl_resolution v) as [r|e| |]; try (split; [reflexivity|exact Hd]).
  pose proof (sc_resolution _ _ _ _ (sl_cam _ _ _ _ (sd_calibration _ _ _ _ Hd)) (cal_resolution _ (d_calibration d)) r) as Er.
  destruct (ctl_access_pattern v) as [ap|e| |]; (split; [reflexivity|]); destruct Hd; constructor; assumption || reflexivity.
Qed.
Lemma blind_control : blind (control_register_ bs) (control_register_ bs).
Proof.
  intros d d' Hd. unfold control_register_. rewrite (sd_address _ _ _ _ Hd), (sd_bus _ _ _ _ Hd).
  destruct (read_register bs (d_address d) CONTROL_ADDRESS (d_bus d)) as [r w].
  apply (blind_bindS (fun d1 => (r, with_bus d1 w)) (fun d1 => (r, with_bus d1 w))); [|intros a|exact Hd].
  - intros d1 d1' H1. split; [reflexivity|apply same_with_bus; exact H1].
  - apply blind_bindS; [apply blind_update|intros; apply blind_ret].
Qed.
Lemma blind_set_control v : blind (set_control_register bs v) (set_control_register bs v).
Proof.
  apply blind_bindS; [apply blind_update|]. intros _ d d' Hd. rewrite (sd_address _ _ _ _ Hd), (sd_bus _ _ _ _ Hd).
  destruct (write_register bs (d_address d) CONTROL_ADDRESS v (d_bus d)). split; [reflexivity|apply same_with_bus; exact Hd].
Qed.
Lemma blind_set_field {V} rd rd' wr wr' (getter : Z -> res err V) setter eqb v :
  blind rd rd' -> (forall x, blind (wr x) (wr' x)) -> blind (set_field rd wr getter setter eqb v) (set_field rd' wr' getter setter eqb v).
Proof.
  intros Hg Hs. apply blind_bindS; [exact Hg|]. intros x.
  apply blind_bindS; [apply blind_ret|]. intros old. destruct (eqb old v); [apply blind_ret|apply Hs].
Qed.
Lemma blind_read_ram sp : blind (drv_read_ram bs sp) (drv_read_ram bs sp).
Proof.
  intros d d' Hd. pose proof (sl_cam _ _ _ _ (sd_calibration _ _ _ _ Hd)) as Hc. unfold drv_read_ram.
  assert (E : read_ram bs (cam _ (d_calibration d')) (d_height d') (d_address d') (d_access_pattern d') sp (d_pixel_buffer d') (d_bus d') =
              read_ram bs (cam _ (d_calibration d)) (d_height d) (d_address d) (d_access_pattern d) sp (d_pixel_buffer d) (d_bus d)).
  { rewrite (sd_height _ _ _ _ Hd), (sd_address _ _ _ _ Hd), (sd_pattern _ _ _ _ Hd), (sd_buffer _ _ _ _ Hd), (sd_bus _ _ _ _ Hd).
    unfold read_ram, ram_data_from_i2c. rewrite (sc_ranges _ _ _ _ Hc), (sc_vbe _ _ _ _ Hc), (sc_ptat _ _ _ _ Hc), (sc_vdd _ _ _ _ Hc),
      (sc_gain _ _ _ _ Hc), (sc_cp _ _ _ _ Hc). reflexivity. }
  rewrite E. destruct (read_ram bs (cam _ (d_calibration d)) _ _ _ _ _ _) as [[r buf] w]. split; [reflexivity|].
  apply same_with_bus. destruct Hd; constructor; assumption || reflexivity.
Qed.
Lemma blind_poll fuel : forall s, blind (poll bs fuel s) (poll bs fuel s).
Proof.
  induction fuel as [|n IH]; intros s; cbn [poll]; destruct (new_data s); try apply blind_ret.
  apply blind_bindS; [apply blind_status|]. intros v. apply IH.
Qed.

Notation sv := (same_value l l').
Lemma blind_lift {A} Q (g : A -> out (FO := B32 l)) (g' : A -> out (FO := B32 l')) f f' : (forall a, g' a = sv (g a)) -> blind f f' ->
  blindi sv Q (fun d => lift g (f d)) (fun d => lift g' (f' d)).
Proof.
  intros Hg Hf d d' Hd. destruct (Hf d d' Hd) as [E1 E2]. unfold lift. destruct (f d) as [r d1], (f' d') as [r' d1'].
  cbn [fst snd] in *. subst r'. split; [destruct r; cbn [bind]; rewrite ?Hg; reflexivity|]. split; [exact E2|]. split; reflexivity.
Qed.
Lemma blind_lifti {A} Q (g : A -> out (FO := B32 l)) (g' : A -> out (FO := B32 l')) f f' : (forall a, g' a = sv (g a)) ->
  blindi (fun a => a) Q f f' -> blindi sv Q (fun d => lifti g (f d)) (fun d => lifti g' (f' d)).
Proof.
  intros Hg Hf d d' Hd. destruct (Hf d d' Hd) as (E1 & E2 & E3 & E4). unfold lifti.
  destruct (f d) as [[r d1] t], (f' d') as [[r' d1'] t'].
  cbn [fst snd] in *. subst r'. split; [destruct r; cbn [bind]; rewrite ?Hg; reflexivity|]. auto.
Qed.
Lemma blindi_ret {A} Q (r : res err A) (dest : list f32) :
  blindi (fun a => a) Q (fun d => (r, d, dest : list (F (B32 l)))) (fun d => (r, d, dest : list (F (B32 l')))).
Proof. intros d d' Hd. cbn [fst snd]. split; [destruct r; reflexivity|]. auto. Qed.
Lemma blindi_then {A A' A2} (v : A' -> A2) Q f f' (h : res err A -> drv l -> mi (FO := B32 l) A') (h' : res err A -> drv l' -> mi (FO := B32 l') A2) :
  blind f f' -> (forall r, blindi v Q (h r) (h' r)) ->
  blindi v Q (fun d => let '(r, d) := f d in h r d) (fun d => let '(r, d) := f' d in h' r d).
Proof.
  intros Hf Hk d d' Hd. destruct (Hf d d' Hd) as [E1 E2]. destruct (f d) as [r d1], (f' d') as [r' d1']. cbn [fst snd] in *. subst r'.
  exact (Hk r d1 d1' E2).
Qed.
Lemma blindi_store {A} (Q : Prop) (f : drv l -> res err (f32 * list f32)) (f' : drv l' -> res err (f32 * list f32)) (dest : list f32)
  (h : drv l -> m (FO := B32 l) A) (h' : drv l' -> m (FO := B32 l') A) :
  (forall d d', same d d' -> both (near Q) (f d) (f' d')) -> blind h h' ->
  blindi (fun a => a) Q (fun d => store_image (FO := B32 l) (f d) d dest (fun d dest => let '(r, d) := h d in (r, d, dest)))
    (fun d => store_image (FO := B32 l') (f' d) d dest (fun d dest => let '(r, d) := h' d in (r, d, dest))).
Proof.
  intros Hr Hk d d' Hd. specialize (Hr d d' Hd). unfold store_image.
  destruct (f d) as [[t x]|e| |], (f' d') as [[t' x']|e'| |]; cbn [both] in Hr; try contradiction.
  - destruct Hr as (Et & El & Ex). cbn [fst snd] in Et, El, Ex. subst t'.
    destruct (Hk _ _ (same_with_ambient d d' (Some t) Hd)) as [E1 E2].
    change (F (B32 l')) with f32 in *; change (F (B32 l)) with f32 in *.
    destruct (h (with_ambient (FO := B32 l) d (@Some f32 t))) as [r d1], (h' (with_ambient (FO := B32 l') d' (@Some f32 t))) as [r' d1']. cbn [fst snd] in *. subst r'.
    split; [destruct r; reflexivity|]. auto.
  - subst e'. apply (blindi_ret Q (Err e) dest d d' Hd).
  - apply (blindi_ret Q Panic dest d d' Hd).
  - apply (blindi_ret Q Diverge dest d d' Hd).
Qed.
Lemma calc_ir_port ram sp (dest : list f32) d d' : same d d' ->
  both (near True) (calc_ir (FO := B32 l) p d ram sp dest : res err (f32 * list f32)) (calc_ir (FO := B32 l') p d' ram sp dest).
Proof.
  intros Hd. pose proof (sd_calibration _ _ _ _ Hd) as Hc. unfold calc_ir.
  rewrite (sd_emissivity _ _ _ _ Hd), (sd_correction _ _ _ _ Hd), (sd_buffer _ _ _ _ Hd), (sd_pattern _ _ _ _ Hd), (sc_pixels _ _ _ _ (sl_cam _ _ _ _ Hc)).
  apply raw_ir_port. exact Hc.
Qed.
Lemma calc_temperatures_port ram sp (dest : list f32) d d' : same d d' ->
  both (near same_powers) (calc_temperatures (FO := B32 l) p d ram sp dest : res err (f32 * list f32)) (calc_temperatures (FO := B32 l') p d' ram sp dest).
Proof.
  intros Hd. pose proof (sd_calibration _ _ _ _ Hd) as Hc. unfold calc_temperatures.
  rewrite (sd_emissivity _ _ _ _ Hd), (sd_correction _ _ _ _ Hd), (sd_buffer _ _ _ _ Hd), (sd_pattern _ _ _ _ Hd), (sd_reflected _ _ _ _ Hd),
    (sc_pixels _ _ _ _ (sl_cam _ _ _ _ Hc)).
  apply raw_temperatures_port. exact Hc.
Qed.
Lemma blindi_subpage sp (dest : list f32) :
  blindi (fun a => a) same_powers (generate_image_subpage_to (FO := B32 l) p bs sp dest) (generate_image_subpage_to (FO := B32 l') p bs sp dest).
Proof.
  apply (blindi_then (fun a => a)); [apply blind_read_ram|]. intros [ram|e| |]; try apply blindi_ret.
  apply (blindi_store same_powers (fun d => calc_temperatures (FO := B32 l) p d ram sp dest) (fun d => calc_temperatures (FO := B32 l') p d ram sp dest)
    dest (fun d => (Ok tt, d)) (fun d => (Ok tt, d))); [intros; apply calc_temperatures_port; assumption|apply blind_ret].
Qed.
Lemma blindi_raw sp (dest : list f32) :
  blindi (fun a => a) True (generate_raw_image_subpage_to (FO := B32 l) p bs sp dest) (generate_raw_image_subpage_to (FO := B32 l') p bs sp dest).
Proof.
  apply (blindi_then (fun a => a)); [apply blind_read_ram|]. intros [ram|e| |]; try apply blindi_ret.
  apply (blindi_store True (fun d => calc_ir (FO := B32 l) p d ram sp dest) (fun d => calc_ir (FO := B32 l') p d ram sp dest)
    dest (fun d => (Ok tt, d)) (fun d => (Ok tt, d))); [intros; apply calc_ir_port; assumption|apply blind_ret].
Qed.
Lemma blindi_if_ready (dest : list f32) :
  blindi (fun a => a) same_powers (generate_image_if_ready (FO := B32 l) p bs dest) (generate_image_if_ready (FO := B32 l') p bs dest).
Proof.
  apply (blindi_then (fun a => a)); [apply blind_status|]. intros [v|e| |]; try apply blindi_ret.
  destruct (new_data v); [|apply blindi_ret].
  destruct (last_updated_subpage v) as [sp|e| |]; try apply blindi_ret.
  apply (blindi_then (fun a => a)); [apply blind_read_ram|]. intros [ram|e| |]; try apply blindi_ret.
  pose proof (blindi_store same_powers (fun d => calc_temperatures (FO := B32 l) p d ram sp dest) (fun d => calc_temperatures (FO := B32 l') p d ram sp dest)
    dest (fun d => bindS (set_status_register bs (reset_new_data v) d) (fun _ d => (Ok true, d)))
    (fun d => bindS (set_status_register bs (reset_new_data v) d) (fun _ d => (Ok true, d)))
    (fun d d' Hd => calc_temperatures_port ram sp dest d d' Hd)
    (blind_bindS _ _ _ _ (blind_set_status _) (fun _ => blind_ret (Ok true)))) as G.
  intros d d' Hd. specialize (G d d' Hd). revert G. unfold store_image, bindS.
  destruct (calc_temperatures (FO := B32 l) p d ram sp dest) as [[t x]|e| |], (calc_temperatures (FO := B32 l') p d' ram sp dest) as [[t' x']|e'| |];
    try (intros G; exact G);
    repeat match goal with |- context [set_status_register ?b ?r ?x] => destruct (set_status_register b r x) as [[[]|?| |] ?] end; intros G; exact G.
Qed.

Lemma step_port (o : op (FO := B32 l)) :
  blindi sv (stores_temperatures l o -> same_powers) (fun d => step p bs d o) (fun d => step p bs d (same_call l l' o)).
Proof.
  assert (Weak : forall (Q1 Q2 : Prop) f f', (Q2 -> Q1) -> blindi sv Q1 f f' -> blindi sv Q2 f f').
  { intros Q1 Q2 f f' HQ Hf d d' Hd. destruct (Hf d d' Hd) as (E1 & E2 & E3 & E4). split; [exact E1|]. split; [exact E2|]. split; [exact E3|]. intros q. exact (E4 (HQ q)). }
  assert (Hset : forall Q V (g : Z -> res err V) st eqb v, blindi sv Q (fun d => lift U (set_control_field bs g st eqb v d)) (fun d => lift U (set_control_field bs g st eqb v d))).
  { intros. apply blind_lift; [reflexivity|]. apply (blind_set_field (control_register_ bs) (control_register_ bs) (set_control_register bs) (set_control_register bs));
      [apply blind_control|apply blind_set_control]. }
  assert (Hget : forall Q V (f : V -> out) f' (g : Z -> res err V), (forall a, f' a = sv (f a)) ->
    blindi sv Q (fun d => lift f (bindS (control_register_ bs d) (fun r d => (g r, d)))) (fun d => lift f' (bindS (control_register_ bs d) (fun r d => (g r, d))))).
  { intros Q V f f' g Hf. apply (blind_lift Q f f' (fun d => bindS (control_register_ bs d) (fun r d => (g r, d))) (fun d => bindS (control_register_ bs d) (fun r d => (g r, d))) Hf).
    apply blind_bindS; [apply blind_control|intros; apply blind_ret]. }
  destruct o; cbn [step same_call];
    try solve [apply Hset | apply (Hget _ _ _ _ (fun r => Ok _)); reflexivity | apply (Hget _ _ _ _ (fun r => _)); reflexivity].
  - apply blind_lift; [reflexivity|]. apply blind_bindS; [apply blind_status|intros; apply blind_ret].
  - apply blind_lift; [reflexivity|]. apply blind_bindS; [apply blind_status|].
    intros v. destruct (new_data v); apply blind_ret.
  - apply blind_lift; [reflexivity|]. apply blind_bindS; [apply blind_status|]. intros. apply blind_set_status.
  - apply blind_lift; [reflexivity|]. apply blind_bindS; [apply blind_status|intros; apply blind_ret].
  - apply blind_lift; [reflexivity|]. apply (blind_set_field (status_register_ bs) (status_register_ bs) (set_status_register bs) (set_status_register bs));
      [apply blind_status|apply blind_set_status].
  - intros d d' Hd. cbn [fst snd]. unfold effective_emissivity. rewrite (sd_emissivity _ _ _ _ Hd). repeat split; auto; apply Hd.
  - intros d d' Hd. cbn [fst snd]. split; [reflexivity|]. split; [|auto]. unfold override_emissivity. destruct Hd; constructor; assumption || reflexivity.
  - intros d d' Hd. cbn [fst snd]. split; [reflexivity|]. split; [|auto]. unfold use_default_emissivity.
    pose proof (sl_emissivity _ _ _ _ (sd_calibration _ _ _ _ Hd)) as E. rewrite E. destruct Hd; constructor; assumption || reflexivity.
  - intros d d' Hd. cbn [fst snd]. unfold reflected_temperature. rewrite (sd_reflected _ _ _ _ Hd). repeat split; auto; apply Hd.
  - intros d d' Hd. cbn [fst snd]. split; [reflexivity|]. split; [|auto]. unfold set_reflected_temperature. destruct Hd; constructor; assumption || reflexivity.
  - intros d d' Hd. cbn [fst snd]. unfold drv_ambient_temperature. rewrite (sd_ambient _ _ _ _ Hd). repeat split; auto; apply Hd.
  - intros d d' Hd. cbn [fst snd]. unfold drv_height. rewrite (sc_height _ _ _ _ (sl_cam _ _ _ _ (sd_calibration _ _ _ _ Hd))). repeat split; auto; apply Hd.
  - intros d d' Hd. cbn [fst snd]. unfold drv_width. rewrite (sc_width _ _ _ _ (sl_cam _ _ _ _ (sd_calibration _ _ _ _ Hd))). repeat split; auto; apply Hd.
  - apply (Weak True); [auto|]. apply blind_lifti; [reflexivity|apply blindi_raw].
  - apply (Weak same_powers); [intros H; apply H; exact I|]. apply blind_lifti; [reflexivity|apply blindi_subpage].
  - apply (Weak same_powers); [intros H; apply H; exact I|]. apply blind_lifti; [reflexivity|]. unfold generate_image_to.
    apply (blindi_then (fun a => a) same_powers (last_measured_subpage bs) (last_measured_subpage bs)).
    + apply blind_bindS; [apply blind_status|intros; apply blind_ret].
    + intros [sp|e| |]; try apply blindi_ret. apply blindi_subpage.
  - apply (Weak same_powers); [intros H; apply H; exact I|]. apply blind_lifti; [reflexivity|apply blindi_if_ready].
  - apply blind_lift; [reflexivity|]. apply blind_bindS; [apply blind_status|]. intros v.
    apply blind_bindS; [apply blind_set_status|]. intros _. apply blind_poll.
Qed.
End Calls.
End Port.
