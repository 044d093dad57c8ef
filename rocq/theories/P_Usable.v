(** * C62: every driver made by the public constructors is complete, stays so,
    and its calls end only in the documented ways. *)
From Verif Require Import Base FloatOps Register Bus Camera Cam640 Cam641 Calc CalcFacts Driver Ee640 Ee641
  BitFacts SpecRegister RegisterFacts SpecCamera CameraFacts SpecDriver DriverFacts StepFacts
  SpecImage SpecCall ImageFacts P_Bus P_Image P_Frames SeenFacts P_Seen P_Calc
  SpecEeprom ParseFacts FieldFacts Spec641 Ee640Closed P_Ee640 Ee641Closed P_Ee641 Demo Dumps.

(** ** Decoded calibration data has a value for every pixel *)
Theorem C62_calibration_640 : forall FO p data (c : calib FO), full_dump data -> from_data640 FO p data = Ok c ->
  documented (cam _ c) layout640 /\ complete c layout640.
Proof.
  intros FO p data c Hd Hc. rewrite (decoded_is FO p data c Hd Hc). split; [constructor|].
  unfold complete, decoded640.
  cbn [cam offset_reference_pixels alpha_pixels k_v_pixels k_ta_pixels access_pattern_compensation_pixels k_s_to].
  change (lay_pixels layout640) with NUM_PIXELS640.
  split; [intros; rewrite !map_length, seq_length; reflexivity|].
  split; [intros; rewrite !map_length, seq_length; reflexivity|].
  split; [intros; unfold chessboard_iter; rewrite map_length, seq_length; reflexivity|].
  split; [intros; rewrite !map_length, seq_length; reflexivity|].
  split; [intros []; unfold access_pattern_compensation640; rewrite ?repeat_length, ?map_length, ?seq_length; reflexivity|].
  cbn [lay_basic_range layout640]. unfold ksto. rewrite ?map_length. cbn [length]. lia.
Qed.
Print Assumptions C62_calibration_640.

Theorem C62_calibration_641 : forall FO p data (c : calib FO), full_dump data -> from_data641 FO p data = Ok c ->
  documented (cam _ c) layout641 /\ complete c layout641.
Proof.
  intros FO p data c Hd Hc. rewrite (decoded_is641 FO p data Hd c Hc). split; [constructor|].
  unfold complete, decoded641, record641.
  cbn [cam offset_reference_pixels alpha_pixels k_v_pixels k_ta_pixels access_pattern_compensation_pixels k_s_to].
  change (lay_pixels layout641) with 192%nat.
  split; [intros []; rewrite !map_length, seq_length; reflexivity|].
  split; [intros; rewrite !map_length, seq_length; reflexivity|].
  split; [intros; rewrite !map_length, seq_length; reflexivity|].
  split; [intros; rewrite !map_length, seq_length; reflexivity|].
  split; [intros []; rewrite repeat_length; reflexivity|].
  cbn [lay_basic_range layout641]. unfold ksto641, ksto_words. rewrite ?map_length. cbn [length seq]. lia.
Qed.
Print Assumptions C62_calibration_641.

Lemma full_of_exact data : Forall byte data -> length data = 1664%nat -> full_dump data.
Proof. intros Hb Hl. split; [exact Hb|]. rewrite Hl. apply le_n. Qed.
Lemma zeros_are_bytes n : Forall byte (repeat 0 n).
Proof. apply Forall_forall. intros x H. apply repeat_spec in H. subst x. unfold byte. lia. Qed.

(** ** Construction *)
Lemma fresh_usable {FO B ER EW} lay height num_bytes a (c : calib FO) v (w : world B ER EW) d :
  documented (cam _ c) lay -> complete c lay -> (lay_height lay <= height)%nat -> (2 * lay_pixels lay <= num_bytes)%nat ->
  fresh_driver height num_bytes a c v w d -> usable d lay /\ Forall byte (d_pixel_buffer d).
Proof.
  intros Hd Hc Hh Hn (_ & _ & E1 & E2 & E3 & _). unfold usable. rewrite E1, E2, E3, repeat_length.
  split; [auto|apply zeros_are_bytes].
Qed.

(** [new] on an MLX90640 *)
Theorem C62_new_640 : forall FO p B ER EW (bs : bus B ER EW) w a (d : driver (FO := FO)) w',
  new bs (calib640_from_i2c FO p bs) 24 1536 w a = (Ok d, w') ->
  usable d layout640 /\ Forall byte (d_pixel_buffer d).
Proof.
  intros FO p B ER EW bs w a d w' H. apply C29_new_640 in H. destruct H as (evs & _ & H).
  remember (Ok d) as r eqn:E. destruct H as [| | | |data c evs r Hl Hb Hc H]; try discriminate E.
  destruct H as [v d0 Hv Hf|]; [|discriminate E]. injection E as ->.
  destruct (C62_calibration_640 FO p data c (full_of_exact data Hb Hl) Hc) as [H1 H2].
  eapply fresh_usable; [exact H1|exact H2| | |exact Hf]; vm_compute; lia.
Qed.
Print Assumptions C62_new_640.

(** [new] on an MLX90641 *)
Theorem C62_new_641 : forall FO p B ER EW (bs : bus B ER EW) w a (d : driver (FO := FO)) w',
  new bs (calib641_from_i2c FO p bs) 12 384 w a = (Ok d, w') ->
  usable d layout641 /\ Forall byte (d_pixel_buffer d).
Proof.
  intros FO p B ER EW bs w a d w' H. apply C29_new_641 in H. destruct H as (evs & _ & H).
  remember (Ok d) as r eqn:E. destruct H as [| | | |data c evs r Hl Hb Hc H]; try discriminate E.
  destruct H as [v d0 Hv Hf|]; [|discriminate E]. injection E as ->.
  destruct (C62_calibration_641 FO p data c (full_of_exact data Hb Hl) Hc) as [H1 H2].
  eapply fresh_usable; [exact H1|exact H2| | |exact Hf]; vm_compute; lia.
Qed.
Print Assumptions C62_new_641.

(** ** Calls *)
Section Calls.
Context {FO : FloatOps} (p : profile) {B ER EW : Type} (bs : bus B ER EW).
Notation driver := (driver (FO := FO) (B := B) (ER := ER) (EW := EW)).
Notation op := (op (FO := FO)).
Notation err := (error ER EW).
Notation m := (m (FO := FO) (B := B) (ER := ER) (EW := EW)).
Implicit Types d : driver.

(** A result or a bus error. *)
Definition plain {A} (r : res err A) : Prop :=
  match r with Ok _ | Err (I2cWriteReadError _) | Err (I2cWriteError _) => True | _ => False end.

Lemma plain_status {A} (k : Z -> driver -> m A) d :
  (forall v d1, word v -> plain (fst (k v d1))) -> plain (fst (bindS (status_register_ bs d) k)).
Proof.
  intros Hk. unfold bindS. destruct (status_register_ bs d) as [r0 d0] eqn:E.
  apply status_register_spec in E. destruct E as (w' & -> & [(v & -> & Hv & _)|(e & x & -> & _)]); [apply Hk, Hv|exact I].
Qed.
Lemma plain_control {A} (k : Z -> driver -> m A) d :
  (forall v d1, word v -> plain (fst (k v d1))) -> plain (fst (bindS (control_register_ bs d) k)).
Proof.
  intros Hk. unfold bindS. destruct (control_register_ bs d) as [r0 d0] eqn:E.
  apply control_register_spec in E.
  destruct E as (w' & [(v & -> & Hv & _)|(e & x & -> & _)]); [apply Hk, Hv|exact I].
Qed.
Lemma plain_setter {V} (call : driver -> m unit) reg lo n (value : Z -> V) v d :
  is_setter call reg lo n value v -> plain (fst (call d)).
Proof.
  intros Hs. destruct (call d) as [r d'] eqn:E. destruct (Hs d r d' E) as (evs & _ & Hr). cbn [fst].
  destruct Hr as [x e _|w _ _|w w' err _ _ _ _]; try exact I. destruct err; exact I.
Qed.

(** A call on a driver [d] for the camera [lay] ended in a documented way. *)
Definition ends_well lay d d' (o : op) (r : res err (out (FO := FO))) : Prop :=
  match r with
  | Ok _ => True
  | Err (I2cWriteReadError _) | Err (I2cWriteError _) => True
  | Err (LibraryError _) => False
  | Panic => p = Debug /\ destination o <> None /\ frame_delivered (fun mem => ~ voltage_fits lay d mem) lay d d' o
  | Diverge => exists polls, o = OpSynchronize polls /\
      forall k, (k <= polls)%nat -> fst (synchronize bs k d) = Diverge
  end.

Lemma step_ends_well lay d o r d' dest :
  usable d lay -> Forall byte (d_pixel_buffer d) -> step p bs d o = (r, d', dest) -> ends_well lay d d' o r.
Proof.
  intros Hu Hb H.
  destruct (destination o) as [dst|] eqn:Ho.
  { pose proof (C35_image_call p bs lay d o dst r d' dest Hu Hb Ho H) as G. unfold ends_well. rewrite Ho.
    destruct r as [[]|[]| |]; try exact I; try contradiction.
    destruct G as [G1 G2]. split; [exact G1|]. split; [discriminate|exact G2]. }
  destruct (C18_setters FO B ER EW bs) as (S1 & S2 & S3 & S4 & S5 & S6 & S7 & S8).
  assert (G : forall A (f : A -> out (FO := FO)) (x : m A), plain (fst x) -> lift f x = (r, d', dest) -> ends_well lay d d' o r).
  { intros A f x Hx E. destruct x as [r0 d0]. unfold lift in E. injection E as <- <- <-. cbn [fst] in Hx.
    destruct r0 as [y|[]| |]; try contradiction; exact I. }
  destruct o; try discriminate; cbn [step] in H;
    try (injection H as <- <- <-; exact I);
    try ((eapply G; [|exact H]); clear G H;
      try (eapply plain_setter; first [apply S1|apply S2|apply S3|apply S4|apply S5|apply S6|apply S7|apply S8]);
      try (apply plain_status; intros v d1 Hv; cbn [pure];
           rewrite ?last_updated_subpage_doc by exact Hv; try destruct (new_data v); exact I);
      try (apply plain_control; intros v d1 Hv; unfold pure;
           rewrite ?ctl_subpage_doc, ?ctl_frame_rate_doc, ?ctl_resolution_doc, ?ctl_access_pattern_doc by exact Hv;
           exact I); fail).
  - (* reset_data_available *)
    eapply G; [|exact H]. apply plain_status. intros v d1 Hv.
    destruct (set_status_register bs (reset_new_data v) d1) as [r1 d2] eqn:E.
    apply set_status_register_spec in E. destruct E as (w2 & e & _ & _ & ->). destruct e; exact I.
  - (* synchronize *)
    destruct (synchronize bs fuel d) as [r0 d0] eqn:E. unfold lift in H. injection H as <- <- <-.
    destruct r0 as [[]|e| |].
    + exact I.
    + apply C27_synchronize in E. destruct E as (w' & evs & _ & _ & Hs).
      inversion Hs as [x e0 _|v v' e0 _ _|v v' polls r1 _ _ Hp]; subst; try exact I. inversion Hp; subst. exact I.
    + apply C27_synchronize in E. destruct E as (w' & evs & _ & _ & Hs).
      inversion Hs as [x e0 _|v v' e0 _ _|v v' polls r1 _ _ Hp]; subst. inversion Hp.
    + cbn [bind ends_well]. exists fuel. split; [reflexivity|]. intros k Hk.
      destruct (synchronize bs k d) as [rk dk] eqn:Ek. cbn [fst].
      destruct rk as [[]|e| |]; try reflexivity; exfalso;
        pose proof (C27_poll_bound_irrelevant FO B ER EW bs k fuel d _ dk Ek ltac:(discriminate) Hk) as E'; congruence.
Qed.

Lemma run_usable lay d ops : usable d lay -> Forall byte (d_pixel_buffer d) ->
  usable (run p bs d ops) lay /\ Forall byte (d_pixel_buffer (run p bs d ops)).
Proof.
  intros Hu Hb. split; [apply usable_run, Hu|]. apply (prims_fine bs _ _ (run_prims p bs ops d)). exact Hb.
Qed.
End Calls.

(** After [new] succeeded, after any history of calls: every call returns a
    value or a bus error.  It panics only with overflow checks, in an image call
    whose frame shows a supply voltage too far from the calibrated one (C35);
    [synchronize] alone may wait, as long as the camera reports no new data.
    The driver never reports a library error after construction. *)
Theorem C62_calls_640 : forall FO p B ER EW (bs : bus B ER EW) w a (d0 : driver (FO := FO)) w' ops o r d' dest,
  new bs (calib640_from_i2c FO p bs) 24 1536 w a = (Ok d0, w') ->
  step p bs (run p bs d0 ops) o = (r, d', dest) ->
  ends_well p bs layout640 (run p bs d0 ops) d' o r.
Proof.
  intros FO p B ER EW bs w a d0 w' ops o r d' dest Hn H. apply C62_new_640 in Hn. destruct Hn as [Hu Hb].
  destruct (run_usable p bs layout640 d0 ops Hu Hb) as [Hu' Hb']. eapply step_ends_well; eassumption.
Qed.
Print Assumptions C62_calls_640.

Theorem C62_calls_641 : forall FO p B ER EW (bs : bus B ER EW) w a (d0 : driver (FO := FO)) w' ops o r d' dest,
  new bs (calib641_from_i2c FO p bs) 12 384 w a = (Ok d0, w') ->
  step p bs (run p bs d0 ops) o = (r, d', dest) ->
  ends_well p bs layout641 (run p bs d0 ops) d' o r.
Proof.
  intros FO p B ER EW bs w a d0 w' ops o r d' dest Hn H. apply C62_new_641 in Hn. destruct Hn as [Hu Hb].
  destruct (run_usable p bs layout641 d0 ops Hu Hb) as [Hu' Hb']. eapply step_ends_well; eassumption.
Qed.
Print Assumptions C62_calls_641.

(** Without overflow checks no call on such a driver ever panics. *)
Theorem C62_release_never_panics : forall FO B ER EW (bs : bus B ER EW) w a (d0 : driver (FO := FO)) w' ops o,
  new bs (calib640_from_i2c FO Release bs) 24 1536 w a = (Ok d0, w') \/
  new bs (calib641_from_i2c FO Release bs) 12 384 w a = (Ok d0, w') ->
  fst (fst (step Release bs (run Release bs d0 ops) o)) <> Panic.
Proof.
  intros FO B ER EW bs w a d0 w' ops o Hn Hp.
  destruct (step Release bs (run Release bs d0 ops) o) as [[r d'] dest] eqn:H. cbn [fst] in Hp. subst r.
  destruct Hn as [Hn|Hn]; [apply C62_new_640 in Hn|apply C62_new_641 in Hn]; destruct Hn as [Hu Hb].
  - destruct (run_usable Release bs _ d0 ops Hu Hb) as [Hu' Hb'].
    destruct (step_ends_well Release bs layout640 _ o _ d' dest Hu' Hb' H) as [E _]. discriminate E.
  - destruct (run_usable Release bs _ d0 ops Hu Hb) as [Hu' Hb'].
    destruct (step_ends_well Release bs layout641 _ o _ d' dest Hu' Hb' H) as [E _]. discriminate E.
Qed.
Print Assumptions C62_release_never_panics.

(** With overflow checks the panic is reachable for every MLX90640: some
    16-bit supply voltage word is too far from the calibrated value. *)
Theorem C62_debug_panic_possible_640 : forall FO p B ER EW (bs : bus B ER EW) w a (d : driver (FO := FO)) w',
  new bs (calib640_from_i2c FO p bs) 24 1536 w a = (Ok d, w') ->
  exists v, word v /\ forall mem, mem (lay_vdd layout640) = v -> ~ voltage_fits layout640 d mem.
Proof.
  intros FO p B ER EW bs w a d w' H. apply C29_new_640 in H. destruct H as (evs & _ & H).
  remember (Ok d) as r eqn:E. destruct H as [| | | |data c evs r Hl Hb Hc H]; try discriminate E.
  destruct H as [v d0 Hv Hf|]; [|discriminate E]. injection E as ->.
  destruct Hf as (_ & _ & Ec & _). exists 0x7FFF. split; [unfold word; lia|].
  intros mem Hm. unfold voltage_fits, P_Calc.fits. rewrite Hm, Ec, (decoded_is FO p data c (full_of_exact data Hb Hl) Hc).
  cbn [v_dd_25 decoded640]. change (signed 0x7FFF) with 32767.
  unfold vdd25. pose proof (bits_range (ee_word data 0x33) 0 8 ltac:(lia)) as R. change (2 ^ 8) with 256 in R. lia.
Qed.
Print Assumptions C62_debug_panic_possible_640.

(** ** End to end: from [new] to any image
    The driver keeps the calibration data of the EEPROM dump it read first, and
    every image computed after any history is the documented image (C55) of
    that calibration, the driver's settings and the memory words the camera
    delivered. *)
Definition images_documented {FO} p {B ER EW} (bs : bus B ER EW) (from_data : list Z -> res lib_error (calib FO)) lay (w : world B ER EW) a (d0 : driver (FO := FO)) : Prop :=
  exists data c rest, full_dump data /\ from_data data = Ok c /\
    trace (d_bus d0) = trace w ++ EvRead a [0x24; 0x00] data None :: rest /\
  forall ops o dest r d' dest',
    let d := run p bs d0 ops in
    destination o = Some dest -> step p bs d o = (r, d', dest') -> computed o r ->
    exists mem raw sp pre frame post,
      trace (d_bus d') = trace (d_bus d) ++ pre ++ frame ++ post /\
      asks a o raw sp pre /\
      completed a (frame_reads lay sp (d_access_pattern d)) frame /\
      acknowledges a o pre post r /\
      (forall x, word (mem x)) /\ Forall (shows mem) frame /\
      d_ambient d' = Some (doc_t_a c lay mem) /\
      image_stored c lay (settings_of d) sp mem raw dest dest'.

Lemma images_from_new {FO} p {B ER EW} (bs : bus B ER EW) (from_data : list Z -> res lib_error (calib FO)) lay height num_bytes (w : world B ER EW) a (d0 : driver (FO := FO)) w' evs :
  (forall data c, full_dump data -> from_data data = Ok c -> documented (cam _ c) lay /\ complete c lay) ->
  (lay_height lay <= height)%nat -> (2 * lay_pixels lay <= num_bytes)%nat ->
  trace w' = trace w ++ evs -> constructed_new from_data height num_bytes a w' evs (Ok d0) ->
  images_documented p bs from_data lay w a d0.
Proof.
  intros Hfd Hh Hn Ht H. remember (Ok d0) as r eqn:E.
  destruct H as [| | | |data c evs r Hl Hb Hc H]; try discriminate E.
  destruct H as [v d1 Hv Hf|]; [|discriminate E]. injection E as ->.
  pose proof (full_of_exact data Hb Hl) as Hd. destruct (Hfd data c Hd Hc) as [H1 H2].
  destruct (fresh_usable lay height num_bytes a c v w' d0 H1 H2 Hh Hn Hf) as [Hu Hby].
  destruct Hf as (Ew & Ea & Ec & _).
  exists data, c. eexists. split; [exact Hd|]. split; [exact Hc|]. split; [rewrite Ew; exact Ht|].
  intros ops o dest r d' dest' d Ho Hs Hcm.
  destruct (C55_every_image_is_documented p bs lay d0 ops o dest r d' dest' Hu Hby Ho Hs Hcm)
    as (mem & raw & sp & pre & frame & post & G).
  destruct (run_later p bs lay d0 ops (usable_wf _ _ Hu)) as (_ & ((K1 & K2 & _) & _) & _).
  exists mem, raw, sp, pre, frame, post. rewrite K1, K2, Ea, Ec in G. exact G.
Qed.

Theorem C62_images_640 : forall FO p B ER EW (bs : bus B ER EW) w a (d0 : driver (FO := FO)) w',
  new bs (calib640_from_i2c FO p bs) 24 1536 w a = (Ok d0, w') ->
  images_documented p bs (from_data640 FO p) layout640 w a d0.
Proof.
  intros FO p B ER EW bs w a d0 w' H. apply C29_new_640 in H. destruct H as (evs & Ht & H).
  eapply images_from_new; [intros data c; apply C62_calibration_640| | |exact Ht|exact H]; vm_compute; lia.
Qed.
Print Assumptions C62_images_640.

Theorem C62_images_641 : forall FO p B ER EW (bs : bus B ER EW) w a (d0 : driver (FO := FO)) w',
  new bs (calib641_from_i2c FO p bs) 12 384 w a = (Ok d0, w') ->
  images_documented p bs (from_data641 FO p) layout641 w a d0.
Proof.
  intros FO p B ER EW bs w a d0 w' H. apply C29_new_641 in H. destruct H as (evs & Ht & H).
  eapply images_from_new; [intros data c; apply C62_calibration_641| | |exact Ht|exact H]; vm_compute; lia.
Qed.
Print Assumptions C62_images_641.

(** ** Concrete cases: cameras holding the datasheets' example calibration. *)
Definition dump_bus (data : list Z) : bus unit unit unit := {|
  dev_write_read := fun b _ wb _ => (b, (if list_eq_dec Z.eq_dec wb [0x24; 0x00] then data else [0; 0; 0; 8; 0; 0]), None);
  dev_write := fun b _ _ => (b, None) |}.
Definition start : world unit unit unit := Build_world tt [].
Definition built {A E W} (x : res E A * W) : bool := match fst x with Ok _ => true | _ => false end.
Lemma built_ok {A E W} (x : res E A * W) : built x = true -> exists a w, x = (Ok a, w).
Proof. destruct x as [[a|e| |] w]; cbn; try discriminate. intros _. exists a, w. reflexivity. Qed.

Example C62_concrete_640 : exists d w,
  new (dump_bus datasheet640) (calib640_from_i2c ZFO Debug (dump_bus datasheet640)) 24 1536 start 0x33 = (Ok d, w).
Proof. apply built_ok. vm_compute. reflexivity. Qed.
Example C62_concrete_641 : exists d w,
  new (dump_bus datasheet641) (calib641_from_i2c ZFO Debug (dump_bus datasheet641)) 12 384 start 0x33 = (Ok d, w).
Proof. apply built_ok. vm_compute. reflexivity. Qed.
