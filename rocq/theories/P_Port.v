(** * C95: only object temperatures depend on the mathematical library. *)
From Verif Require Import Base FloatOps Register Bus Camera Cam640 Cam641 Calc CalcFacts B32 SpecReplay SpecPort PortFacts Hamming Ee640 Ee641 P_Finite Driver.
From Flocq Require Import BinarySingleNaN.
Open Scope Z_scope.

Section Parse.
(** Two readers that read the same bytes and give related values. *)
Definition alike {A A'} (rel : A -> A' -> Prop) (f : parser A) (f' : parser A') : Prop :=
  forall data, both (fun x y => rel (fst x) (fst y) /\ snd y = snd x) (f data) (f' data).
Lemma alike_bind {A A' C C'} (rel : A -> A' -> Prop) (rel2 : C -> C' -> Prop) f f' k k' :
  alike rel f f' -> (forall a a', rel a a' -> alike rel2 (k a) (k' a')) -> alike rel2 (pbind f k) (pbind f' k').
Proof.
  intros Hf Hk data. specialize (Hf data). unfold pbind.
  destruct (f data) as [[a r]|e| |], (f' data) as [[a' r']|e'| |]; cbn [both fst snd] in *; try contradiction; try assumption.
  destruct Hf as [Ha ->]. exact (Hk a a' Ha r).
Qed.
Lemma alike_refl {A} (f : parser A) : alike eq f f.
Proof. intros data. destruct (f data) as [[a r]|e| |]; cbn [both fst snd]; auto. Qed.
Lemma alike_same {A} (f : parser A) : alike (fun x y => y = x) f f.
Proof. intros data. destruct (f data) as [[a r]|e| |]; cbn [both fst snd]; auto. Qed.
Lemma alike_ret {A A'} (rel : A -> A' -> Prop) a a' : rel a a' -> alike rel (pret a) (pret a').
Proof. intros H data. cbn. auto. Qed.
(** The same reader, then related continuations. *)
Lemma alike_get {A C C'} (rel2 : C -> C' -> Prop) (f : parser A) k k' :
  (forall a, alike rel2 (k a) (k' a)) -> alike rel2 (pbind f k) (pbind f k').
Proof. intros Hk. apply (alike_bind eq); [apply alike_refl|]. intros a a' <-. apply Hk. Qed.
End Parse.

Section Port.
Context (l l' : libm) (p : profile).
Notation e2 := (exp2_any_library l l').

Definition same_pixel (x : pixel640 (B32 l)) (y : pixel640 (B32 l')) : Prop :=
  px_offset _ y = px_offset _ x /\ px_alpha _ y = px_alpha _ x :> f32 /\ px_k_ta _ y = px_k_ta _ x :> f32 /\
  px_failed _ y = px_failed _ x /\ px_outlier _ y = px_outlier _ x.
Lemma pixel_loop_port ors ars k2 (s1 s2 : f32) : forall items : list (Z * f32 * Z),
  alike (Forall2 same_pixel) (pixel_loop (B32 l) p ors ars k2 s1 s2 items) (pixel_loop (B32 l') p ors ars k2 s1 s2 items).
Proof.
  induction items as [|[[off al] kta] items IH]; cbn [pixel_loop]; [apply alike_ret; constructor|].
  apply (alike_bind same_pixel).
  - unfold pixel_step. apply alike_get. intros high. apply alike_get. intros low.
    destruct ((high =? 0) && (low =? 0)); [apply alike_ret; repeat split; reflexivity|].
    cbv zeta. apply alike_get. intros o. apply alike_get. intros s. apply alike_ret. repeat split; reflexivity.
  - intros a a' Ha. apply (alike_bind (Forall2 same_pixel)); [exact IH|]. intros t t' Ht. apply alike_ret. constructor; assumption.
Qed.
Lemma fields_port (x : list (pixel640 (B32 l))) (y : list (pixel640 (B32 l'))) : Forall2 same_pixel x y ->
  map (px_offset _) y = map (px_offset _) x /\ map (px_alpha _) y = map (px_alpha _) x :> list f32 /\
  map (px_k_ta _) y = map (px_k_ta _) x :> list f32 /\ map (px_failed _) y = map (px_failed _) x /\ map (px_outlier _) y = map (px_outlier _) x.
Proof.
  induction 1 as [|a b x y (H1 & H2 & H3 & H4 & H5) _ (I1 & I2 & I3 & I4 & I5)]; [repeat split; reflexivity|].
  cbn [map]. rewrite H1, H4, H5, I1, I4, I5. repeat split.
  - f_equal; assumption.
  - f_equal; assumption.
Qed.
Lemma ranges_port : alike (fun x y : list Z * list f32 => y = x) (get_temperature_range_data (B32 l)) (get_temperature_range_data (B32 l')).
Proof.
  unfold get_temperature_range_data. do 4 (apply alike_get; intro). apply alike_get. intros [[[u0 u1] u2] u3]. apply alike_ret.
  cbn [fexp2 fofZ B32]. rewrite (exp2_any_library l l'). reflexivity.
Qed.
Lemma corrections_port nr br ct (k : list f32) :
  alpha_correction_coefficients (B32 l') p nr br ct k = alpha_correction_coefficients (B32 l) p nr br ct k :> res lib_error (list f32).
Proof. reflexivity. Qed.
Lemma parse640_port : alike (same_calibration l l') (parse640 (B32 l) p) (parse640 (B32 l') p).
Proof.
  unfold parse640.
  apply alike_get; intros _. apply alike_get; intros [[off ors] apt]. apply alike_get; intros [[al ars] ase].
  apply alike_get; intros gain. apply alike_get; intros vptat. apply alike_get; intros [kvp ktb]. apply alike_get; intros ktp.
  apply alike_get; intros kvdd. apply alike_get; intros vdd. apply alike_get; intros [[[kv0 kv1] kv2] kv3].
  apply (alike_bind (fun x y : f32 * list f32 => y = x)); [apply (alike_same (get_access_pattern_corrections (B32 l)))|].
  intros [icp ipx] b ->. apply alike_get; intros lkta. apply alike_get; intros [[[sc0 sc1] sc2] k2]. apply alike_get; intros rs.
  apply alike_get; intros [acr acb]. apply alike_get; intros acp. apply alike_get; intros [ocd ocb]. apply alike_get; intros oc0. apply alike_get; intros oc1.
  apply alike_get; intros kvcp. apply alike_get; intros ktacp. apply alike_get; intros ksta. apply alike_get; intros tgc.
  apply (alike_bind _ _ _ _ _ _ ranges_port). intros [ct ks] b ->.
  apply (alike_bind (fun x y : list f32 => y = x)).
  { intros data. rewrite (corrections_port 4 _ ct ks). apply (alike_same (plift (alpha_correction_coefficients (B32 l) p 4 _ ct ks))). }
  intros ac b ->. cbn [fexp2 fofZ B32]. rewrite !e2.
  apply (alike_bind (Forall2 same_pixel)); [apply pixel_loop_port|]. intros px py Hp.
  destruct (fields_port px py Hp) as (P1 & P2 & P3 & P4 & P5). apply alike_ret.
  constructor; try assumption; try reflexivity; try (intros; assumption); try (intros []; reflexivity).
  - apply same_camera_640.
Qed.

(** ** The MLX90641 *)
Lemma both_bind {E A A' C C'} (rel : A -> A' -> Prop) (rel2 : C -> C' -> Prop) (r : res E A) (r' : res E A') k k' :
  both rel r r' -> (forall a a', rel a a' -> both rel2 (k a) (k' a')) -> both rel2 (bind r k) (bind r' k').
Proof. intros Hr Hk. destruct r, r'; cbn [both bind] in *; try contradiction; auto. Qed.
Lemma both_same {E A} (r : res E A) : both (fun x y => y = x) r r.
Proof. destruct r; cbn [both]; auto. Qed.
Lemma both_get {E A C C'} (rel2 : C -> C' -> Prop) (r : res E A) k k' :
  (forall a, both rel2 (k a) (k' a)) -> both rel2 (bind r k) (bind r k').
Proof. intros Hk. apply (both_bind (fun x y => y = x)); [apply both_same|]. intros a a' ->. apply Hk. Qed.
Lemma both_sequence {E X X' A A'} (rx : X -> X' -> Prop) (rel : A -> A' -> Prop) (f : X -> res E A) (f' : X' -> res E A') : forall xs xs',
  Forall2 rx xs xs' -> (forall x x', rx x x' -> both rel (f x) (f' x')) ->
  both (Forall2 rel) (sequence (map f xs)) (sequence (map f' xs')).
Proof.
  induction 1 as [|x x' xs xs' Hx _ IH]; intros Hf; cbn [map sequence]; [constructor|].
  apply (both_bind rel); [apply Hf; exact Hx|]. intros a a' Ha. apply (both_bind (Forall2 rel)); [exact (IH Hf)|].
  intros t t' Ht. cbn [both]. constructor; assumption.
Qed.
Lemma both_map_err {E E' A A'} (g : E -> E') (rel : A -> A' -> Prop) (r : res E A) (r' : res E A') :
  both rel r r' -> both rel (map_err g r) (map_err g r').
Proof. destruct r, r'; cbn [both map_err]; try contradiction; auto. intros ->. reflexivity. Qed.

Definition same_pixel641 (x : pixel641 (B32 l)) (y : pixel641 (B32 l')) : Prop :=
  q_offset0 _ y = q_offset0 _ x /\ q_offset1 _ y = q_offset1 _ x /\ q_alpha _ y = q_alpha _ x :> f32 /\
  q_k_ta _ y = q_k_ta _ x :> f32 /\ q_k_v _ y = q_k_v _ x :> f32 /\ q_failed _ y = q_failed _ x.
Lemma fields641_port (x : list (pixel641 (B32 l))) (y : list (pixel641 (B32 l'))) : Forall2 same_pixel641 x y ->
  map (q_offset0 _) y = map (q_offset0 _) x /\ map (q_offset1 _) y = map (q_offset1 _) x /\ map (q_alpha _) y = map (q_alpha _) x :> list f32 /\
  map (q_k_ta _) y = map (q_k_ta _) x :> list f32 /\ map (q_k_v _) y = map (q_k_v _) x :> list f32 /\ map (q_failed _) y = map (q_failed _) x.
Proof.
  induction 1 as [|a b x y (H1 & H2 & H3 & H4 & H5 & H6) _ (I1 & I2 & I3 & I4 & I5 & I6)]; [repeat split; reflexivity|].
  cbn [map]. rewrite H1, H2, H6, I1, I2, I6. repeat split; f_equal; assumption.
Qed.
Lemma cp_constant_port : alike (fun x y : f32 => y = x) (get_scaled_cp_constant (B32 l)) (get_scaled_cp_constant (B32 l')).
Proof.
  unfold get_scaled_cp_constant. do 2 (apply alike_get; intro). apply alike_ret. cbn [fdiv fexp2 fofZ B32]. rewrite e2. reflexivity.
Qed.
Lemma row_max_port : forall scales, alike (fun x y : list f32 => y = x) (get_row_max (B32 l) scales) (get_row_max (B32 l') scales).
Proof.
  induction scales as [|s rest IH]; cbn [get_row_max]; [apply alike_ret; reflexivity|]. apply alike_get; intro.
  apply (alike_bind (fun x y : list f32 => y = x)); [exact IH|]. intros t t' ->. apply alike_ret.
  cbn [fdiv fexp2 fofZ B32]. rewrite e2. reflexivity.
Qed.
Lemma sensitivity_reference_port : alike (fun x y : list f32 => y = x) (get_sensitivity_reference (B32 l)) (get_sensitivity_reference (B32 l')).
Proof.
  unfold get_sensitivity_reference. apply alike_get; intro. apply (alike_bind (fun x y : list f32 => y = x)); [apply row_max_port|].
  intros t t' ->. apply alike_ret. reflexivity.
Qed.
Lemma ranges641_port : alike (fun x y : list Z * list f32 => y = x) (get_temperature_range_data641 (B32 l)) (get_temperature_range_data641 (B32 l')).
Proof.
  unfold get_temperature_range_data641. apply alike_get; intro. cbn [fexp2 fofZ B32]. rewrite e2.
  apply (alike_bind (fun x y : list f32 => y = x)); [apply (alike_same (get_k_s_to (B32 l) 5 _))|]. intros k k' ->.
  apply (alike_bind (fun x y : list (Z * f32) => y = x)); [apply (alike_same (get_ct_k_s_to (B32 l) 3 _))|]. intros q q' ->.
  apply alike_ret. reflexivity.
Qed.
Lemma f2_length {X Y} (rel : X -> Y -> Prop) xs ys : Forall2 rel xs ys -> length xs = length ys.
Proof. induction 1; cbn [length]; congruence. Qed.
Lemma diagonal {X} (xs : list X) : Forall2 (fun x y => y = x) xs xs.
Proof. induction xs; constructor; auto. Qed.
Lemma pixels641_port data : both (Forall2 same_pixel641) (per_pixel_from_data (B32 l) p data) (per_pixel_from_data (B32 l') p data).
Proof.
  unfold per_pixel_from_data.
  apply (both_bind (fun x y : (Z * Z * Z * Z * Z * Z * Z * Z * list f32) * list Z => fst y = fst x /\ snd y = snd x)).
  { match goal with |- both _ (?f data) (?f' data) => refine ((_ : alike (fun x y : Z * Z * Z * Z * Z * Z * Z * Z * list f32 => y = x) f f') data) end.
    apply alike_get; intro. apply alike_get; intros []. do 3 (apply alike_get; intro). do 2 (apply alike_get; intro). apply alike_get; intros [].
    apply alike_get; intro. apply alike_get; intros []. apply (alike_bind (fun x y : list f32 => y = x)); [apply sensitivity_reference_port|].
    intros t t' ->. apply alike_ret. reflexivity. }
  intros [[[[[[[[[os oa] ka] va] kt1] kt2] kv1] kv2] ar] r1] [h r2] [E1 E2]. cbn [fst snd] in E1, E2. subst h r2.
  cbn [fexp2 fofZ B32]. rewrite !e2.
  do 4 (apply both_get; intro).
  apply (both_bind (Forall2 same_pixel641)).
  - apply (both_sequence (fun x y : (Z * Z) * (Z * Z) * (Z * Z) * (Z * Z) * f32 => y = x)); [apply diagonal|].
    intros [[[[o0 o1] sn] cc] al] y ->. apply both_get. intros [[[[w0 w1] wa] wt] wv]. unfold pixel641_step.
    destruct ((w0 =? 0) && (w1 =? 0) && (wa =? 0) && (wt =? 0) && (wv =? 0))%bool; [cbn [both]; repeat split; reflexivity|].
    do 4 (apply both_get; intro). cbn [both]. repeat split; reflexivity.
  - intros px py Hp. rewrite <- (f2_length _ _ _ Hp). destruct (Nat.eqb (length px) NUM_PIXELS641); cbn [both]; [exact Hp|reflexivity].
Qed.

(** ** Theorems *)
(** Decoding an EEPROM dump gives the same calibration data, bit for bit, or fails in the same way. *)
Theorem C95_calibration_640 : forall data, both (same_calibration l l') (from_data640 (B32 l) p data) (from_data640 (B32 l') p data).
Proof.
  intros data. unfold from_data640. destruct (_ <? _); [reflexivity|].
  apply (both_bind (fun x y => same_calibration l l' (fst x) (fst y) /\ snd y = snd x)); [apply parse640_port|].
  intros [c r] [c' r'] [Hc _]. exact Hc.
Qed.
Theorem C95_calibration_641 : forall data, both (same_calibration l l') (from_data641 (B32 l) p data) (from_data641 (B32 l') p data).
Proof.
  intros data. unfold from_data641.
  pose (rel := fun (x : list (pixel641 (B32 l)) -> calib (B32 l)) (y : list (pixel641 (B32 l')) -> calib (B32 l')) =>
    forall px py, Forall2 same_pixel641 px py -> same_calibration l l' (x px) (y py)).
  apply (both_bind (fun x y => rel (fst x) (fst y) /\ snd y = snd x)).
  2: { intros [mk r] [mk' r'] [Hm _]. apply (both_bind (Forall2 same_pixel641)); [apply pixels641_port|]. intros px py Hp. exact (Hm px py Hp). }
  match goal with |- both _ (?f data) (?f' data) => refine ((_ : alike rel f f') data) end.
  apply alike_get; intro. cbn [fexp2 fofZ B32]. rewrite !e2.
  apply alike_get; intros ksta. apply alike_get; intros em. apply alike_get; intros gb. apply alike_get; intros gain. apply alike_get; intros v25.
  apply alike_get; intros kv. apply alike_get; intros vpb. apply alike_get; intros vp. apply alike_get; intros ktp. apply alike_get; intros kvp.
  apply alike_get; intros aptat. apply alike_get; intros acp. apply alike_get; intros acs. cbv zeta. rewrite !e2.
  apply alike_get; intros ocb. apply alike_get; intros oc.
  apply (alike_bind _ _ _ _ _ _ cp_constant_port). intros kta b ->. apply (alike_bind _ _ _ _ _ _ cp_constant_port). intros kvc b ->.
  apply (alike_bind (fun x y : resolution * f32 => y = x)); [apply (alike_same (get_resolution_with_tgc (B32 l)))|]. intros [rs tgc] b ->.
  apply (alike_bind _ _ _ _ _ _ ranges641_port). intros [ct ks] b ->.
  apply (alike_bind (fun x y : list f32 => y = x)).
  { intros d. rewrite (corrections_port 8 _ ct ks). apply (alike_same (plift (alpha_correction_coefficients (B32 l) p 8 _ ct ks))). }
  intros ac b ->. apply alike_ret. intros px py Hp.
  destruct (fields641_port px py Hp) as (P1 & P2 & P3 & P4 & P5 & P6).
  constructor; try assumption; try reflexivity; try (intros; assumption); try (intros []; reflexivity || assumption).
  - apply same_camera_641.
Qed.

Section Drivers.
Context {B ER EW : Type} (bs : bus B ER EW).
Notation drv l := (driver (FO := B32 l) (B := B) (ER := ER) (EW := EW)).

Lemma with_calibration_port h n w a (c : calib (B32 l)) (c' : calib (B32 l')) : same_calibration l l' c c' ->
  both (same_driver l l') (fst (new_with_calibration (FO := B32 l) bs h n w a c)) (fst (new_with_calibration (FO := B32 l') bs h n w a c')) /\
  snd (new_with_calibration (FO := B32 l') bs h n w a c') = snd (new_with_calibration (FO := B32 l) bs h n w a c).
Proof.
  intros Hc. unfold new_with_calibration. destruct (read_register bs a CONTROL_ADDRESS w) as [r w1]. cbn [fst snd].
  split; [|reflexivity]. apply both_get. intros v. apply both_get. intros rs. apply both_get. intros ap. cbn [both].
  constructor; cbn [d_bus d_address d_calibration d_pixel_buffer d_resolution_correction d_ambient d_emissivity d_access_pattern d_reflected d_height];
    try reflexivity; [exact Hc| |].
  - rewrite (sl_resolution _ _ _ _ Hc). apply (sc_resolution _ _ _ _ (sl_cam _ _ _ _ Hc)).
  - pose proof (sl_emissivity _ _ _ _ Hc) as E. change (F (B32 l')) with f32 in *. change (F (B32 l)) with f32 in *. rewrite E. reflexivity.
Qed.
Lemma new_port f f' h n w a : (forall a w, both (same_calibration l l') (fst (f a w)) (fst (f' a w)) /\ snd (f' a w) = snd (f a w)) ->
  both (same_driver l l') (fst (new (FO := B32 l) bs f h n w a)) (fst (new (FO := B32 l') bs f' h n w a)) /\
  snd (new (FO := B32 l') bs f' h n w a) = snd (new (FO := B32 l) bs f h n w a).
Proof.
  intros Hf. destruct (Hf a w) as [H1 H2]. unfold new. destruct (f a w) as [r w1], (f' a w) as [r' w1']. cbn [fst snd] in *. subst w1'.
  destruct r, r'; cbn [both] in H1; try contradiction; try (split; [exact H1|reflexivity]). apply with_calibration_port. exact H1.
Qed.

(** Constructing a driver: the same I2C traffic, and the same driver or the same error. *)
Theorem C95_new_640 : forall w a,
  both (same_driver l l') (fst (new bs (calib640_from_i2c (B32 l) p bs) 24 1536 w a)) (fst (new bs (calib640_from_i2c (B32 l') p bs) 24 1536 w a)) /\
  snd (new bs (calib640_from_i2c (B32 l') p bs) 24 1536 w a) = snd (new bs (calib640_from_i2c (B32 l) p bs) 24 1536 w a).
Proof.
  intros w a. apply new_port. intros a1 w1. unfold calib640_from_i2c. destruct (write_read _ _ _ _ _) as [[data e] w2].
  destruct e; (split; [|reflexivity]); [reflexivity|]. apply both_map_err. apply C95_calibration_640.
Qed.
Theorem C95_new_641 : forall w a,
  both (same_driver l l') (fst (new bs (calib641_from_i2c (B32 l) p bs) 12 384 w a)) (fst (new bs (calib641_from_i2c (B32 l') p bs) 12 384 w a)) /\
  snd (new bs (calib641_from_i2c (B32 l') p bs) 12 384 w a) = snd (new bs (calib641_from_i2c (B32 l) p bs) 12 384 w a).
Proof.
  intros w a. apply new_port. intros a1 w1. unfold calib641_from_i2c. destruct (write_read _ _ _ _ _) as [[data e] w2].
  destruct e; (split; [|reflexivity]); [reflexivity|]. apply both_map_err. apply C95_calibration_641.
Qed.

(** Any sequence of calls on the same driver: every call returns the same; what it stores is the same, except
    that object temperatures may differ if the libraries' powers do; and at the end the drivers are the same
    again, on the same bus with the same transcript. *)
Theorem C95_calls : forall (ops : list op) (d : drv l) (d' : drv l'), same_driver l l' d d' ->
  Forall2 (fun ox y => same_seen l l' (fst ox) (snd ox) y) (combine ops (outcomes p bs d ops)) (outcomes p bs d' (map (same_call l l') ops)) /\
  length (outcomes p bs d ops) = length ops /\
  same_driver l l' (run p bs d ops) (run p bs d' (map (same_call l l') ops)).
Proof.
  induction ops as [|o ops IH]; intros d d' Hd; [split; [exact (Forall2_nil _)|split; [reflexivity|exact Hd]]|].
  unfold run. cbn [map combine fold_left outcomes length]. unfold step_state at 2 4.
  destruct (step_port l l' p bs o d d' Hd) as (E1 & E2 & E3 & E4).
  destruct (step p bs d o) as [[r d1] t], (step p bs d' (same_call l l' o)) as [[r' d1'] t']. cbn [fst snd length] in *.
  destruct (IH d1 d1' E2) as (I1 & I2 & I3). split; [|split; [rewrite I2; reflexivity|exact I3]].
  constructor; [|exact I1]. unfold same_seen. cbn [fst snd]. split; [exact E1|]. split; [exact E3|]. split.
  - intros _ HP. apply E4. intros _. exact HP.
  - intros HN. apply E4. intros HS. contradiction.
Qed.
End Drivers.

(** The calculations on their own. *)
Theorem C95_calculations : forall E (c : calib (B32 l)) (c' : calib (B32 l')), same_calibration l l' c c' ->
  (forall (e rc : f32) px ram sp ap mask (dest : list f32),
     both (E := E) (fun x y : f32 * list f32 => y = x)
       (raw_pixels_to_ir_data (FO := B32 l) p c e rc px ram sp ap mask dest) (raw_pixels_to_ir_data (FO := B32 l') p c' e rc px ram sp ap mask dest)) /\
  (forall (e : f32) tr (rc : f32) px ram sp ap mask (dest : list f32),
     both (E := E) (fun x y : f32 * list f32 => fst y = fst x /\ length (snd y) = length (snd x) /\ (same_powers l l' -> snd y = snd x))
       (raw_pixels_to_temperatures (FO := B32 l) p c e tr rc px ram sp ap mask dest) (raw_pixels_to_temperatures (FO := B32 l') p c' e tr rc px ram sp ap mask dest)) /\
  (forall (e ta : f32) tr sp mask (dest : list f32),
     both (E := E) (fun x y : list f32 => length y = length x /\ (same_powers l l' -> y = x))
       (raw_ir_to_temperatures (FO := B32 l) c e ta tr sp mask dest) (raw_ir_to_temperatures (FO := B32 l') c' e ta tr sp mask dest)).
Proof.
  intros E c c' Hc. split; [|split].
  - intros. generalize (raw_ir_port l l' p c c' Hc E e rc px ram sp ap mask dest). unfold near.
    destruct (raw_pixels_to_ir_data (FO := B32 l) _ _ _ _ _ _ _ _ _ _) as [[t x]|x| |], (raw_pixels_to_ir_data (FO := B32 l') _ _ _ _ _ _ _ _ _ _) as [[u y]|y| |];
      cbn [both fst snd]; auto. intros (H1 & _ & H3). rewrite H1, (H3 I). reflexivity.
  - intros. exact (raw_temperatures_port l l' p c c' Hc E e tr rc px ram sp ap mask dest).
  - intros. exact (raw_ir_to_temperatures_port l l' c c' Hc E e ta tr sp mask dest).
Qed.
End Port.
Print Assumptions C95_calls.

(** ** A concrete case: the worked example of the datasheet with two libraries that disagree about every power.
    The drivers are built and the raw images agree pixel by pixel; the object temperatures do not. *)
Definition other_lib : libm := {| lm_exp2 := fun _ => B754_nan; lm_powi := fun x _ => b_add x (b_ofZ 1); lm_powf := fun x _ => b_add x (b_ofZ 2) |}.
Definition made (l : libm) :=
  fst (new (FO := B32 l) sample_bus (calib640_from_i2c (B32 l) Debug sample_bus) 24 1536 (Build_world tt []) 0x33).
Definition shown {l} (x : mi (FO := B32 l) (B := unit) (ER := unit) (EW := unit) (out (FO := B32 l))) :=
  match fst (fst x) with Ok OutUnit => Some (snd x) | _ => None end.
Definition picture (l : libm) (o : op (FO := B32 l)) :=
  match made l with Ok d => shown (step (FO := B32 l) Debug sample_bus d o) | _ => None end.
Definition blank : list f32 := repeat (b_ofZ 0) 768.
Example C95_concrete :
  match picture any_lib (OpGenerateRawSubpage (FO := B32 any_lib) Zero blank), picture other_lib (OpGenerateRawSubpage (FO := B32 other_lib) Zero blank),
        picture any_lib (OpGenerateSubpage (FO := B32 any_lib) Zero blank), picture other_lib (OpGenerateSubpage (FO := B32 other_lib) Zero blank) with
  | Some x, Some y, Some u, Some v =>
      forallb (fun i => b_eqb (nth i y B754_nan) (nth i x B754_nan)) (seq 0 768) && is_finite (nth 0 u B754_nan) && is_finite (nth 0 v B754_nan) &&
      negb (b_eqb (nth 0 v B754_nan) (nth 0 u B754_nan))
  | _, _, _, _ => false
  end = true.
Proof. vm_compute. reflexivity. Qed.
(** Two libraries that differ and still have the same cubes, fourth powers and fourth roots. *)
Example C95_same_powers : let l' := {| lm_exp2 := fun _ => B754_nan; lm_powi := fun x n => if n =? 2 then B754_nan else x; lm_powf := fun x _ => x |} in
  same_powers any_lib l' /\ lm_exp2 l' (b_ofZ 1) <> lm_exp2 any_lib (b_ofZ 1).
Proof. split; [repeat split|]. cbn [lm_exp2 any_lib]. intros H. apply (f_equal is_nan) in H. revert H. vm_compute. discriminate. Qed.
