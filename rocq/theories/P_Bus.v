(** * Properties C17-C19, C27, C29: what the driver does on the bus. *)
From Verif Require Import Base FloatOps Register Bus Camera Cam640 Cam641 Ee640 Ee641 Calc CalcFacts Driver
  BitFacts SpecRegister RegisterFacts SpecCamera CameraFacts SpecDriver DriverFacts StepFacts Demo.

(** ** C29 Construction *)
Section Construction.
Context {FO : FloatOps} {B ER EW : Type} (bs : bus B ER EW).
Notation W := (world B ER EW).

(** The driver is as documented after construction with calibration [c] when
    the control register was [v]. *)
Definition fresh_driver (height num_bytes : nat) (a : Z) (c : calib FO) (v : Z) (w : W)
    (d : driver (FO := FO)) : Prop :=
  d_bus d = w /\ d_address d = a /\ d_calibration d = c /\ d_height d = height /\
  d_pixel_buffer d = repeat 0 num_bytes /\
  drv_ambient_temperature d = None /\ reflected_temperature d = None /\
  effective_emissivity d = (match cal_emissivity _ c with Some e => e | None => fofZ 1 end) /\
  d_access_pattern d = c_access_pattern (control_doc v) /\
  d_resolution_correction d =
    resolution_correction _ (cam _ c) (cal_resolution _ c) (c_resolution (control_doc v)).

(** Construction from given calibration data: transactions [evs], result [r]. *)
Inductive constructed (height num_bytes : nat) (a : Z) (c : calib FO) (w' : W)
  : list (event ER EW) -> res (error ER EW) (driver (FO := FO)) -> Prop :=
| con_ok : forall v d, word v -> fresh_driver height num_bytes a c v w' d ->
    constructed height num_bytes a c w' [reads_word a control_reg v] (Ok d)
| con_failed : forall x e, read_fails a control_reg e x ->
    constructed height num_bytes a c w' [x] (Err (I2cWriteReadError e)).

Lemma new_with_calibration_spec height num_bytes w a c r w' :
  new_with_calibration bs height num_bytes w a c = (r, w') ->
  exists evs, trace w' = trace w ++ evs /\ constructed height num_bytes a c w' evs r.
Proof.
  unfold new_with_calibration. destruct (read_register bs a CONTROL_ADDRESS w) as [r0 w0] eqn:H.
  apply read_register_spec in H. intros E.
  destruct H as [(v & -> & Hv & Ht)|(e & x & -> & Hx & Ht)]; cbn [bind] in E.
  - rewrite ctl_resolution_doc, ctl_access_pattern_doc in E by assumption. cbn [bind] in E.
    injection E as <- <-. eexists. split; [exact Ht|]. apply con_ok; [exact Hv|]. repeat split.
  - injection E as <- <-. eexists. split; [exact Ht|]. apply con_failed. exact Hx.
Qed.

(** [new]: the whole EEPROM first. *)
Inductive constructed_new (from_data : list Z -> res lib_error (calib FO)) (height num_bytes : nat)
    (a : Z) (w' : W) : list (event ER EW) -> res (error ER EW) (driver (FO := FO)) -> Prop :=
| new_read_failed : forall data e, length data = 1664%nat ->
    constructed_new from_data height num_bytes a w' [EvRead a [0x24; 0x00] data (Some e)]
      (Err (I2cWriteReadError e))
| new_bad_data : forall data l, length data = 1664%nat -> Forall byte data -> from_data data = Err l ->
    constructed_new from_data height num_bytes a w' [EvRead a [0x24; 0x00] data None]
      (Err (LibraryError l))
| new_panic : forall data, length data = 1664%nat -> Forall byte data -> from_data data = Panic ->
    constructed_new from_data height num_bytes a w' [EvRead a [0x24; 0x00] data None] Panic
| new_diverge : forall data, length data = 1664%nat -> Forall byte data -> from_data data = Diverge ->
    constructed_new from_data height num_bytes a w' [EvRead a [0x24; 0x00] data None] Diverge
| new_data_ok : forall data c evs r, length data = 1664%nat -> Forall byte data -> from_data data = Ok c ->
    constructed height num_bytes a c w' evs r ->
    constructed_new from_data height num_bytes a w' (EvRead a [0x24; 0x00] data None :: evs) r.

Lemma clip_byte buf out : Forall byte buf -> Forall byte (clip buf out).
Proof.
  intros Hb. unfold clip. apply Forall_forall. intros x Hx.
  assert (In x (map (fun b => b mod 256) out ++ skipn (length out) buf)) as Hin.
  { revert Hx. generalize (map (fun b => b mod 256) out ++ skipn (length out) buf). intros l Hx.
    rewrite <- (firstn_skipn (length buf) l). apply in_app_iff. left. exact Hx. }
  apply in_app_iff in Hin. destruct Hin as [Hin|Hin].
  - apply in_map_iff in Hin. destruct Hin as (b & <- & _). apply Z.mod_pos_bound. lia.
  - rewrite Forall_forall in Hb. apply Hb. rewrite <- (firstn_skipn (length out) buf).
    apply in_app_iff. right. exact Hin.
Qed.

Lemma new_spec (from_i2c : Z -> W -> res (error ER EW) (calib FO) * W) from_data height num_bytes w a r w' :
  (forall i2c w, from_i2c i2c w =
     let '(data, e, w') := write_read bs i2c [0x24; 0x00] (repeat 0 1664) w in
     match e with
     | Some e => (Err (I2cWriteReadError e), w')
     | None => (map_err LibraryError (from_data data), w')
     end) ->
  new bs from_i2c height num_bytes w a = (r, w') ->
  exists evs, trace w' = trace w ++ evs /\ constructed_new from_data height num_bytes a w' evs r.
Proof.
  intros Hf H. unfold new in H. rewrite Hf in H. unfold write_read in H.
  destruct (dev_write_read bs (dev w) a [0x24; 0x00] (repeat 0 1664)) as [[b out] e].
  assert (Hl : length (clip (repeat 0 1664) out) = 1664%nat) by (rewrite clip_length, repeat_length; reflexivity).
  assert (Hb : Forall byte (clip (repeat 0 1664) out)).
  { apply clip_byte. apply Forall_forall. intros x Hx. apply repeat_spec in Hx. subst x. unfold byte. lia. }
  revert Hl Hb H. generalize (clip (repeat 0 1664) out). intros data Hl Hb H.
  destruct e as [e|].
  - injection H as <- <-. eexists. split; [reflexivity|]. constructor. exact Hl.
  - destruct (from_data data) as [c|l| |] eqn:Hd; cbn [map_err] in H.
    + apply new_with_calibration_spec in H. destruct H as (evs & Ht & H). cbn [trace] in Ht.
      rewrite <- app_assoc in Ht. eexists. split; [exact Ht|]. eapply new_data_ok; eassumption.
    + injection H as <- <-. eexists. split; [reflexivity|]. constructor; assumption.
    + injection H as <- <-. eexists. split; [reflexivity|]. constructor; assumption.
    + injection H as <- <-. eexists. split; [reflexivity|]. constructor; assumption.
Qed.
End Construction.

Theorem C29_new_with_calibration : forall FO B ER EW (bs : bus B ER EW) height num_bytes w a (c : calib FO) r w',
  new_with_calibration bs height num_bytes w a c = (r, w') ->
  exists evs, trace w' = trace w ++ evs /\ constructed height num_bytes a c w' evs r.
Proof. intros. eapply new_with_calibration_spec; eassumption. Qed.
Print Assumptions C29_new_with_calibration.

Theorem C29_new_640 : forall FO p B ER EW (bs : bus B ER EW) w a r w',
  new bs (calib640_from_i2c FO p bs) 24 1536 w a = (r, w') ->
  exists evs, trace w' = trace w ++ evs /\ constructed_new (from_data640 FO p) 24 1536 a w' evs r.
Proof. intros FO p B ER EW bs w a r w' H. eapply new_spec; [|exact H]. intros. reflexivity. Qed.
Print Assumptions C29_new_640.

Theorem C29_new_641 : forall FO p B ER EW (bs : bus B ER EW) w a r w',
  new bs (calib641_from_i2c FO p bs) 12 384 w a = (r, w') ->
  exists evs, trace w' = trace w ++ evs /\ constructed_new (from_data641 FO p) 12 384 a w' evs r.
Proof. intros FO p B ER EW bs w a r w' H. eapply new_spec; [|exact H]. intros. reflexivity. Qed.
Print Assumptions C29_new_641.

(** ** C17 Bus safety over every history *)
Lemma pbind_ok {A A'} (q : parser A) (k : A -> parser A') b x : pbind q k b = Ok x ->
  exists a b', q b = Ok (a, b') /\ k a b' = Ok x.
Proof. unfold pbind. destruct (q b) as [[a b']| | |]; intros H; try discriminate. eauto. Qed.
Lemma bind_ok {E A A'} (q : res E A) (k : A -> res E A') x : bind q k = Ok x ->
  exists a, q = Ok a /\ k a = Ok x.
Proof. unfold bind. destruct q; intros H; try discriminate. eauto. Qed.

Ltac parse_step H :=
  apply pbind_ok in H;
  let a := fresh "a" in let b := fresh "b" in
  destruct H as (a & b & _ & H); repeat match type of a with (_ * _)%type => destruct a as [? a] end.

Lemma pret_inv {A} (a a' : A) b b' : pret a b = Ok (a', b') -> a = a'.
Proof. unfold pret. intros H. injection H as H _. exact H. Qed.

Lemma from_data640_camera FO p data c : from_data640 FO p data = Ok c -> cam _ c = Mlx90640 FO.
Proof.
  unfold from_data640. destruct (Z.of_nat (length data) <? EE640_End - EE640_Base); [discriminate|].
  intros H. apply bind_ok in H. destruct H as ([c' rest] & H & E). injection E as <-.
  unfold parse640 in H. cbn zeta in H.
  repeat (apply pbind_ok in H; destruct H as (? & ? & _ & H);
          repeat match type of H with context [let '(_, _) := ?x in _] => destruct x end).
  apply pret_inv in H. rewrite <- H. reflexivity.
Qed.
Lemma from_data641_camera FO p data c : from_data641 FO p data = Ok c -> cam _ c = Mlx90641 FO.
Proof.
  unfold from_data641. intros H. apply bind_ok in H. destruct H as ([mk rest] & H & E).
  apply bind_ok in E. destruct E as (px & _ & E).
  assert (Hmk : forall px, cam _ (mk px) = Mlx90641 FO).
  { cbn zeta in H.
    repeat (apply pbind_ok in H; destruct H as (? & ? & _ & H);
          repeat match type of H with context [let '(_, _) := ?x in _] => destruct x end).
    apply pret_inv in H. intros px'. rewrite <- H. reflexivity. }
  injection E as <-. apply Hmk.
Qed.

Theorem C17_given_calibration : forall FO p B ER EW (bs : bus B ER EW) height num_bytes w a (c : calib FO) lay r w',
  documented (cam _ c) lay -> (lay_height lay <= height)%nat ->
  new_with_calibration bs height num_bytes w a c = (r, w') ->
  (exists evs, trace w' = trace w ++ evs /\ Forall (legal a (ram_last lay)) evs) /\
  forall d ops, r = Ok d ->
    exists evs, trace (d_bus (run p bs d ops)) = trace w ++ evs /\ Forall (legal a (ram_last lay)) evs.
Proof.
  intros FO p B ER EW bs height num_bytes w a c lay r w' Hd Hh H.
  apply C29_new_with_calibration in H. destruct H as (evs & Ht & H).
  assert (Hl : Forall (legal a (ram_last lay)) evs).
  { destruct H as [v d Hv _|x e (data & -> & Hlen)]; constructor; try constructor; apply legal_reg_read; auto. }
  split; [exists evs; auto|]. intros d ops E. destruct H as [v d0 Hv Hf|x e Hx]; [|discriminate].
  injection E as ->. destruct Hf as (Hw & Ha & Hc & Hhe & _).
  assert (Hwf : wf d lay) by (unfold wf; rewrite Hc, Hhe; auto).
  destruct (run_later p bs lay d ops Hwf) as (evs2 & (_ & Ht2) & Hl2).
  rewrite Hw, Ht, <- app_assoc in Ht2. rewrite Ha in Hl2. eexists. split; [exact Ht2|].
  apply Forall_app. split; assumption.
Qed.
Print Assumptions C17_given_calibration.

Lemma new_legal {FO} p {B ER EW} (bs : bus B ER EW) from_data (c0 : camera FO) lay height num_bytes a (w : world B ER EW) r w' evs :
  documented c0 lay -> (lay_height lay <= height)%nat ->
  (forall data c, from_data data = Ok c -> cam _ c = c0) ->
  trace w' = trace w ++ evs -> constructed_new from_data height num_bytes a w' evs r ->
  (exists evs, trace w' = trace w ++ evs /\ Forall (legal a (ram_last lay)) evs) /\
  forall d ops, r = Ok d ->
    exists evs, trace (d_bus (run p bs d ops)) = trace w ++ evs /\ Forall (legal a (ram_last lay)) evs.
Proof.
  intros Hd Hh Hcam Ht H.
  assert (He : forall data e, length data = 1664%nat ->
    legal (ER := ER) (EW := EW) a (ram_last lay) (EvRead a [0x24; 0x00] data e)).
  { intros data e Hl. apply (legal_read a (ram_last lay) 0x2400).
    - destruct data; [discriminate Hl|discriminate].
    - rewrite Hl. exists 832%nat. reflexivity.
    - rewrite Hl. right. left. cbn. lia. }
  assert (Hl : Forall (legal a (ram_last lay)) evs).
  { destruct H as [data e Hl|data l Hl _ _|data Hl _ _|data Hl _ _|data c evs r Hl _ _ H];
      constructor; try constructor; try (apply He; exact Hl).
    destruct H as [v d Hv _|x e (data' & -> & Hlen)]; constructor; try constructor; apply legal_reg_read; auto. }
  split; [exists evs; auto|]. intros d ops E.
  destruct H as [data e Hl0|data l Hl0 _ _|data Hl0 _ _|data Hl0 _ _|data c evs r Hl0 _ Hfd H]; try discriminate.
  destruct H as [v d0 Hv Hf|x e Hx]; [|discriminate].
  injection E as ->. destruct Hf as (Hw & Ha & Hc & Hhe & _).
  assert (Hwf : wf d lay) by (unfold wf; rewrite Hc, Hhe, (Hcam _ _ Hfd); auto).
  destruct (run_later p bs lay d ops Hwf) as (evs2 & (_ & Ht2) & Hl2).
  rewrite Hw, Ht, <- app_assoc in Ht2. rewrite Ha in Hl2. eexists. split; [exact Ht2|].
  apply Forall_app. split; assumption.
Qed.

Theorem C17_mlx90640 : forall FO p B ER EW (bs : bus B ER EW) w a r w',
  new bs (calib640_from_i2c FO p bs) 24 1536 w a = (r, w') ->
  (exists evs, trace w' = trace w ++ evs /\ Forall (legal a 0x073F) evs) /\
  forall d ops, r = Ok d ->
    exists evs, trace (d_bus (run p bs d ops)) = trace w ++ evs /\ Forall (legal a 0x073F) evs.
Proof.
  intros FO p B ER EW bs w a r w' H. apply C29_new_640 in H. destruct H as (evs & Ht & H).
  eapply (new_legal p bs _ (Mlx90640 FO) layout640); try eassumption; [constructor|cbn; lia|].
  intros data c. apply from_data640_camera.
Qed.
Print Assumptions C17_mlx90640.

Theorem C17_mlx90641 : forall FO p B ER EW (bs : bus B ER EW) w a r w',
  new bs (calib641_from_i2c FO p bs) 12 384 w a = (r, w') ->
  (exists evs, trace w' = trace w ++ evs /\ Forall (legal a 0x05BF) evs) /\
  forall d ops, r = Ok d ->
    exists evs, trace (d_bus (run p bs d ops)) = trace w ++ evs /\ Forall (legal a 0x05BF) evs.
Proof.
  intros FO p B ER EW bs w a r w' H. apply C29_new_641 in H. destruct H as (evs & Ht & H).
  eapply (new_legal p bs _ (Mlx90641 FO) layout641); try eassumption; [constructor|cbn; lia|].
  intros data c. apply from_data641_camera.
Qed.
Print Assumptions C17_mlx90641.

(** In particular nothing is ever written to the EEPROM, RAM or the I2C
    configuration register. *)
Theorem C17_writes : forall ER EW i2c rl (x : event ER EW) i2c' bytes e,
  legal i2c rl x -> x = EvWrite i2c' bytes e ->
  i2c' = i2c /\ length bytes = 4%nat /\ (256 * nth 0 bytes 0 + nth 1 bytes 0 = 0x8000 \/
                                         256 * nth 0 bytes 0 + nth 1 bytes 0 = 0x800D).
Proof.
  intros ER EW i2c rl x i2c' bytes e H ->. inversion H as [|reg hi lo err Hr Hh Hlo]; subst.
  destruct Hr as [-> | ->]; cbn; auto.
Qed.

(** ** C18 Setters are minimal read-modify-writes *)
Section Setters.
Context {FO : FloatOps} {B ER EW : Type} (bs : bus B ER EW).
Notation driver := (driver (FO := FO) (B := B) (ER := ER) (EW := EW)).

(** The call [call] is a read-modify-write of the [n]-bit field at bit [lo] of
    register [reg], whose documented value is [value], to the value [v]. *)
Definition is_setter {V} (call : driver -> res (error ER EW) unit * driver) (reg : list Z) (lo n : Z) (value : Z -> V) (v : V) : Prop :=
  forall (d : driver) r d', call d = (r, d') ->
  exists evs, trace (d_bus d') = trace (d_bus d) ++ evs /\
    setter_run (d_address d) reg lo n value v evs r.

Lemma status_setter {V} getter setter eqb lo n (value : Z -> V) v :
  (forall a b, eqb a b = true <-> a = b) ->
  (forall w, word w -> getter w = Ok (value w)) ->
  (forall w v, word w -> only_changes lo n w (setter w v) /\ value (setter w v) = v) ->
  is_setter (set_status_field bs getter setter eqb v) status_reg lo n value v.
Proof.
  intros H1 H2 H3 d r d' H. eapply set_status_field_spec in H; try eassumption.
  destruct H as (w' & evs & -> & Ht & Hs). exists evs. auto.
Qed.
Lemma control_setter {V} getter setter eqb lo n (value : Z -> V) v :
  (forall a b, eqb a b = true <-> a = b) ->
  (forall w, word w -> getter w = Ok (value w)) ->
  (forall w v, word w -> only_changes lo n w (setter w v) /\ value (setter w v) = v) ->
  is_setter (set_control_field bs getter setter eqb v) control_reg lo n value v.
Proof.
  intros H1 H2 H3 d r d' H. eapply set_control_field_spec in H; try eassumption.
  destruct H as (w' & evs & Ht & Hs & Hd). exists evs. split; [|exact Hs].
  assert (d_bus d' = w').
  { destruct evs as [|[? ? data [?|]|] [|[] [|]]]; try contradiction;
      repeat match type of Hd with context [match ?l with [] => _ | _ :: _ => _ end] => destruct l end;
      try contradiction; subst d'; reflexivity. }
  subst w'. exact Ht.
Qed.
End Setters.

Lemma bool_eqb_spec a b : Bool.eqb a b = true <-> a = b.
Proof. destruct a, b; cbn; split; congruence. Qed.
Lemma subpage_eqb_spec a b : subpage_eqb a b = true <-> a = b.
Proof. destruct a, b; cbn; split; congruence. Qed.
Lemma access_pattern_eqb_spec a b : access_pattern_eqb a b = true <-> a = b.
Proof. destruct a, b; cbn; split; congruence. Qed.
Lemma frame_rate_eqb_spec a b : frame_rate_eqb a b = true <-> a = b.
Proof. destruct a, b; vm_compute; split; congruence. Qed.
Lemma resolution_eqb_spec a b : resolution_eqb a b = true <-> a = b.
Proof. destruct a, b; vm_compute; split; congruence. Qed.

Theorem C18_setters : forall FO B ER EW (bs : bus B ER EW),
  (forall v, is_setter (FO := FO) (drv_set_overwrite_enabled bs v) [0x80; 0x00] 4 1 (fun w => s_overwrite (status_doc w)) v) /\
  (forall v, is_setter (FO := FO) (drv_set_use_subpages bs v) [0x80; 0x0D] 0 1 (fun w => c_use_subpages (control_doc w)) v) /\
  (forall v, is_setter (FO := FO) (drv_set_data_hold bs v) [0x80; 0x0D] 2 1 (fun w => c_data_hold (control_doc w)) v) /\
  (forall v, is_setter (FO := FO) (drv_set_subpage_repeat bs v) [0x80; 0x0D] 3 1 (fun w => c_subpage_repeat (control_doc w)) v) /\
  (forall v, is_setter (FO := FO) (drv_set_subpage bs v) [0x80; 0x0D] 4 1 (fun w => c_subpage (control_doc w)) v) /\
  (forall v, is_setter (FO := FO) (drv_set_frame_rate bs v) [0x80; 0x0D] 7 3 (fun w => c_frame_rate (control_doc w)) v) /\
  (forall v, is_setter (FO := FO) (drv_set_resolution bs v) [0x80; 0x0D] 10 2 (fun w => c_resolution (control_doc w)) v) /\
  (forall v, is_setter (FO := FO) (drv_set_access_pattern bs v) [0x80; 0x0D] 12 1 (fun w => c_access_pattern (control_doc w)) v).
Proof.
  intros FO B ER EW bs. repeat split; intros v.
  - apply status_setter; [exact bool_eqb_spec| |].
    + intros w Hw. unfold total, overwrite_enabled. f_equal. apply flag_bit; [reflexivity|lia|exact Hw].
    + intros w x Hw. destruct (set_overwrite_spec w x Hw) as [H1 H2]. split; [exact H1|]. rewrite H2. reflexivity.
  - apply control_setter; [exact bool_eqb_spec| |].
    + intros w Hw. unfold total, use_subpages. f_equal. apply flag_bit; [reflexivity|lia|exact Hw].
    + intros w x Hw. destruct (set_use_subpages_spec w x Hw) as [H1 H2]. split; [exact H1|]. rewrite H2. reflexivity.
  - apply control_setter; [exact bool_eqb_spec| |].
    + intros w Hw. unfold total, data_hold. f_equal. apply flag_bit; [reflexivity|lia|exact Hw].
    + intros w x Hw. destruct (set_data_hold_spec w x Hw) as [H1 H2]. split; [exact H1|]. rewrite H2. reflexivity.
  - apply control_setter; [exact bool_eqb_spec| |].
    + intros w Hw. unfold total, subpage_repeat. f_equal. apply flag_bit; [reflexivity|lia|exact Hw].
    + intros w x Hw. destruct (set_subpage_repeat_spec w x Hw) as [H1 H2]. split; [exact H1|]. rewrite H2. reflexivity.
  - apply control_setter; [exact subpage_eqb_spec| |].
    + intros w Hw. apply ctl_subpage_doc, Hw.
    + intros w x Hw. destruct (set_ctl_subpage_spec w x Hw) as [H1 H2]. split; [exact H1|]. rewrite H2. reflexivity.
  - apply control_setter; [exact frame_rate_eqb_spec| |].
    + intros w Hw. apply ctl_frame_rate_doc, Hw.
    + intros w x Hw. destruct (set_ctl_frame_rate_spec w x Hw) as [H1 H2]. split; [exact H1|]. rewrite H2. reflexivity.
  - apply control_setter; [exact resolution_eqb_spec| |].
    + intros w Hw. apply ctl_resolution_doc, Hw.
    + intros w x Hw. destruct (set_ctl_resolution_spec w x Hw) as [H1 H2]. split; [exact H1|]. rewrite H2. reflexivity.
  - apply control_setter; [exact access_pattern_eqb_spec| |].
    + intros w Hw. apply ctl_access_pattern_doc, Hw.
    + intros w x Hw. destruct (set_ctl_access_pattern_spec w x Hw) as [H1 H2]. split; [exact H1|]. rewrite H2. reflexivity.
Qed.
Print Assumptions C18_setters.

(** ** C19 Cached settings *)
Section Cache.
Context {FO : FloatOps} (p : profile) {B ER EW : Type} (bs : bus B ER EW) (ctl : B -> Z).
Notation driver := (driver (FO := FO) (B := B) (ER := ER) (EW := EW)).
Hypothesis Hctl : control_register_is bs ctl.

(** The settings used by the image methods are those in the camera. *)
Definition settings_agree (d : driver) : Prop :=
  let now := control_doc (ctl (dev (d_bus d))) in
  d_access_pattern d = c_access_pattern now /\
  d_resolution_correction d =
    resolution_correction _ (cam _ (d_calibration d)) (cal_resolution _ (d_calibration d)) (c_resolution now).

Lemma status_register_dev (d : driver) r d' : status_register_ bs d = (r, d') ->
  d' = with_bus d (d_bus d') /\ ctl (dev (d_bus d')) = ctl (dev (d_bus d)).
Proof.
  unfold status_register_, read_register, write_read. intros H.
  destruct (dev_write_read bs (dev (d_bus d)) (d_address d) (to_be_bytes STATUS_ADDRESS) [0; 0]) as [[b out] e] eqn:E.
  apply (ctl_kept_by_reads _ _ Hctl) in E.
  destruct e; injection H as _ <-; split; try reflexivity; exact E.
Qed.

Lemma control_read_dev a (w : world B ER EW) r w' : read_register bs a CONTROL_ADDRESS w = (r, w') ->
  ctl (dev w') = ctl (dev w) /\
  match r with Ok v => v = ctl (dev w) | Err _ => True | _ => False end.
Proof.
  unfold read_register, write_read. rewrite control_bytes. intros H.
  destruct (dev_write_read bs (dev w) a control_reg [0; 0]) as [[b out] e] eqn:E.
  pose proof (ctl_kept_by_reads _ _ Hctl _ _ _ _ _ _ _ E) as Hk.
  destruct e as [e|].
  - injection H as <- <-. split; [exact Hk|exact I].
  - apply (ctl_answer _ _ Hctl) in E; [|reflexivity].
    pose proof (ctl_word _ _ Hctl (dev w)) as Hw. unfold word in Hw.
    rewrite clip_full in H.
    + subst out. cbn [register_from_slice] in H. injection H as <- <-. split; [exact Hk|].
      unfold be16. rewrite Z.mul_comm. symmetry. apply Z_div_mod_eq_full.
    + subst out. reflexivity.
    + subst out. constructor; [|constructor; [|constructor]].
      * split; [apply Z.div_pos; lia|apply Z.div_lt_upper_bound; lia].
      * apply Z.mod_pos_bound. lia.
Qed.


Definition no_failed_control_write (l : list (event ER EW)) : Prop :=
  Forall (fun x => ~ failed_control_write x) l.

Lemma nf_prefix l l' : no_failed_control_write (l ++ l') -> no_failed_control_write l /\ no_failed_control_write l'.
Proof. apply Forall_app. Qed.

Lemma agree_same (d d' : driver) : settings_agree d ->
  ctl (dev (d_bus d')) = ctl (dev (d_bus d)) -> d_access_pattern d' = d_access_pattern d ->
  d_resolution_correction d' = d_resolution_correction d -> d_calibration d' = d_calibration d ->
  settings_agree d'.
Proof. intros [A1 A2] H1 H2 H3 H4. unfold settings_agree. rewrite H1, H2, H3, H4. split; assumption. Qed.

(** Since the trace [t0]: if no control write failed, the settings agree. *)
Definition agree_since (t0 : list (event ER EW)) (d : driver) : Prop :=
  exists evs, trace (d_bus d) = t0 ++ evs /\ (no_failed_control_write evs -> settings_agree d).

Lemma prim_agree lay t0 (d d' : driver) : wf d lay -> prim bs d d' -> agree_since t0 d -> agree_since t0 d'.
Proof.
  intros Hwf H (evs0 & Ht0 & IH).
  destruct (prim_later bs lay d d' Hwf H) as (evs & (_ & Ht) & _).
  exists (evs0 ++ evs). split; [rewrite Ht, Ht0, app_assoc; reflexivity|]. intros Hf.
  apply nf_prefix in Hf. destruct Hf as [Hf0 Hf].
  specialize (IH Hf0).
  destruct H as [d r d' H|d r d' H|v d r d' Hv H|v d r d' Hv H|sp d r d' H|d t|d t|d t];
    try (apply (agree_same d); auto; fail).
  - apply status_register_dev in H. destruct H as [Hd Hc]. rewrite Hd.
    apply (agree_same d); auto.
  - unfold control_register_ in H.
    destruct (read_register bs (d_address d) CONTROL_ADDRESS (d_bus d)) as [r0 w0] eqn:Hr.
    pose proof (control_read_dev _ _ _ _ Hr) as [Hk Hval]. apply read_register_spec in Hr.
    destruct Hr as [(v & -> & Hv & _)|(e & x & -> & Hx & _)]; cbn [bindS] in H.
    + rewrite update_control_register_spec in H by exact Hv. injection H as _ <-.
      unfold settings_agree. cbn [d_bus recached with_cache with_bus d_access_pattern d_resolution_correction d_calibration].
      rewrite Hk, <- Hval. split; reflexivity.
    + injection H as _ <-. apply (agree_same d); auto.
  - unfold set_status_register, write_register, bus_write in H.
    destruct (dev_write bs (dev (d_bus d)) (d_address d) (to_be_bytes STATUS_ADDRESS ++ to_be_bytes v)) as [b e] eqn:E.
    apply (ctl_kept_by_writes _ _ Hctl) in E; [|discriminate].
    destruct e; injection H as _ <-; apply (agree_same d); auto.
  - unfold set_control_register in H. rewrite update_control_register_spec in H by exact Hv.
    cbn [bindS] in H. unfold write_register, bus_write in H.
    cbn [d_bus recached with_cache d_address] in H.
    destruct (dev_write bs (dev (d_bus d)) (d_address d) (to_be_bytes CONTROL_ADDRESS ++ to_be_bytes v)) as [b e] eqn:E.
    destruct e as [e|].
    + exfalso. injection H as _ <-. cbn [d_bus with_bus trace] in Ht. apply app_inv_head in Ht. subst evs.
      inversion Hf as [|x l Hx _]; subst. apply Hx. exists (d_address d), (v / 256), (v mod 256), e. reflexivity.
    + injection H as _ <-. apply (ctl_written _ _ Hctl (dev (d_bus d)) (d_address d) (v / 256) (v mod 256)) in E.
      rewrite <- Z_div_mod_eq_full in E. unfold settings_agree.
      cbn [d_bus recached with_cache with_bus dev d_access_pattern d_resolution_correction d_calibration].
      rewrite E. split; reflexivity.
  - unfold drv_read_ram in H.
    destruct (read_ram bs (cam _ (d_calibration d)) (d_height d) (d_address d) (d_access_pattern d) sp
               (d_pixel_buffer d) (d_bus d)) as [[r0 buf'] w'] eqn:Hr.
    injection H as _ <-.
    apply (read_ram_keep bs (fun b => ctl b = ctl (dev (d_bus d)))) in Hr; [|  |reflexivity].
    + apply (agree_same d); auto.
    + intros b i2c wb buf b' out e E Hb. rewrite <- Hb. eapply (ctl_kept_by_reads _ _ Hctl). exact E.
Qed.


Lemma prims_agree lay t0 (d d' : driver) : prims bs d d' -> wf d lay -> agree_since t0 d -> agree_since t0 d'.
Proof.
  induction 1 as [d|d d1 d2 H1 H2 IH]; intros Hwf Hd; [exact Hd|].
  apply IH.
  - destruct (prim_later bs lay d d1 Hwf H1) as (evs & (Hs & _) & _). eapply same_config_wf; eassumption.
  - eapply prim_agree; eassumption.
Qed.

Lemma new_agree height num_bytes w a (c : calib FO) d w' :
  new_with_calibration bs height num_bytes w a c = (Ok d, w') -> settings_agree d /\ d_bus d = w'.
Proof.
  unfold new_with_calibration. destruct (read_register bs a CONTROL_ADDRESS w) as [r0 w0] eqn:H.
  pose proof (control_read_dev _ _ _ _ H) as [Hk Hval].
  apply read_register_spec in H. intros E.
  destruct H as [(v & -> & Hv & Ht)|(e & x & -> & Hx & Ht)]; cbn [bind] in E; [|discriminate].
  rewrite ctl_resolution_doc, ctl_access_pattern_doc in E by assumption. cbn [bind] in E.
  injection E as <- <-. unfold settings_agree.
  cbn [d_bus d_access_pattern d_resolution_correction d_calibration]. rewrite Hk, <- Hval. repeat split.
Qed.
End Cache.

Theorem C19_cached_settings : forall FO p B ER EW (bs : bus B ER EW) ctl height num_bytes w a (c : calib FO) lay d w' ops evs,
  control_register_is bs ctl -> documented (cam _ c) lay -> (lay_height lay <= height)%nat ->
  new_with_calibration bs height num_bytes w a c = (Ok d, w') ->
  let d' := run p bs d ops in
  trace (d_bus d') = trace w' ++ evs -> (forall x, In x evs -> ~ failed_control_write x) ->
  let now := control_doc (ctl (dev (d_bus d'))) in
  d_access_pattern d' = c_access_pattern now /\
  d_resolution_correction d' =
    resolution_correction _ (cam _ c) (cal_resolution _ c) (c_resolution now).
Proof.
  intros FO p B ER EW bs ctl height num_bytes w a c lay d w' ops evs Hctl Hd Hh Hnew d' Ht Hnf.
  destruct (new_agree bs ctl Hctl _ _ _ _ _ _ _ Hnew) as [Ha Hb].
  apply C29_new_with_calibration in Hnew. destruct Hnew as (ev0 & Ht0 & Hc).
  inversion Hc as [v d0 Hv Hfr|]; subst. destruct Hfr as (_ & _ & Hcal & Hhe & _).
  assert (Hwf : wf d lay) by (unfold wf; rewrite Hcal, Hhe; auto).
  assert (H0 : agree_since ctl (trace (d_bus d)) d).
  { exists []. rewrite app_nil_r. auto. }
  pose proof (prims_agree bs ctl Hctl lay _ _ _ (run_prims p bs ops d) Hwf H0) as (evs' & Ht' & Hag).
  fold d' in Ht', Hag. rewrite Ht in Ht'. apply app_inv_head in Ht'. subst evs'.
  destruct (run_later p bs lay d ops Hwf) as (_ & (Hs & _) & _). destruct Hs as (_ & Hcal' & _).
  fold d' in Hcal'. rewrite Hcal in Hcal'.
  assert (Hnf' : no_failed_control_write evs) by (apply Forall_forall; exact Hnf).
  specialize (Hag Hnf'). unfold settings_agree in Hag. rewrite Hcal' in Hag. exact Hag.
Qed.
Print Assumptions C19_cached_settings.

(** Any later successful access to the control register restores the agreement. *)
Theorem C19_resynchronizes : forall FO p B ER EW (bs : bus B ER EW) ctl (d : driver (FO := FO)) r d' dest,
  control_register_is bs ctl ->
  step p bs d OpAccessPattern = (Ok r, d', dest) ->
  let now := control_doc (ctl (dev (d_bus d'))) in
  r = OutAccessPattern (c_access_pattern now) /\
  d_access_pattern d' = c_access_pattern now /\
  d_resolution_correction d' =
    resolution_correction _ (cam _ (d_calibration d)) (cal_resolution _ (d_calibration d)) (c_resolution now).
Proof.
  intros FO p B ER EW bs ctl d r d' dest Hctl H. cbn [step] in H. apply lift_inv in H.
  destruct H as (r0 & H & Hr & _). unfold drv_access_pattern, control_register_ in H.
  destruct (read_register bs (d_address d) CONTROL_ADDRESS (d_bus d)) as [r1 w0] eqn:E.
  pose proof (control_read_dev bs ctl Hctl _ _ _ _ E) as [Hk Hval]. apply read_register_spec in E.
  destruct E as [(v & -> & Hv & Ht)|(e & x & -> & Hx & Ht)]; cbn [bindS] in H.
  - rewrite update_control_register_spec in H by exact Hv. cbn [bindS pure] in H.
    rewrite ctl_access_pattern_doc in H by exact Hv. injection H as <- <-. cbn [bind] in Hr.
    injection Hr as ->. cbn zeta.
    cbn [d_bus recached with_cache with_bus d_access_pattern d_resolution_correction d_calibration].
    rewrite Hk, <- Hval. repeat split.
  - injection H as <- <-. discriminate.
Qed.
Print Assumptions C19_resynchronizes.

(** Without that: a write that fails leaves the cache different from the camera. *)
Definition write_protected (control : Z) : bus unit unit unit := {|
  dev_write_read := fun b _ wb buf =>
    (b, if (nth 0 wb 0 =? 0x80) && (nth 1 wb 0 =? 0x0D) then [control / 256; control mod 256] else buf, None);
  dev_write := fun b _ _ => (b, Some tt)
|}.

Theorem C19_refuted_with_failing_write : forall FO p (c : calib FO),
  exists (bs : bus unit unit unit) (ctl : unit -> Z) (d d' : driver (FO := FO)) w',
  control_register_is bs ctl /\
  new_with_calibration bs 24 1536 (Build_world tt []) 0x33 c = (Ok d, w') /\
  step p bs d (OpSetAccessPattern Interleave) = (Err (I2cWriteError tt), d', []) /\
  d_access_pattern d' = Interleave /\
  c_access_pattern (control_doc (ctl (dev (d_bus d')))) = Chess.
Proof.
  intros FO p c. exists (write_protected 0x1901), (fun _ => 0x1901). do 3 eexists.
  split; [|split; [vm_compute; reflexivity|split; [vm_compute; reflexivity|split; reflexivity]]].
  constructor.
  - reflexivity.
  - intros b i2c buf b' out _ H. cbn in H. injection H as _ <-. reflexivity.
  - reflexivity.
  - intros b i2c hi lo b' H. discriminate.
  - intros b. unfold word. lia.
Qed.
Print Assumptions C19_refuted_with_failing_write.

(** ** C27 synchronize *)
Lemma new_data_doc v : word v -> new_data v = bit v 3.
Proof. intros Hv. unfold new_data. apply flag_bit; [reflexivity|lia|exact Hv]. Qed.

Lemma poll_run_cons {ER EW} i2c n (x : event ER EW) evs r : not_ready i2c x ->
  poll_run i2c n evs r -> poll_run i2c (S n) (x :: evs) r.
Proof.
  intros Hx H. destruct H as [waits y Hw Hy Hl|waits y e Hw Hy Hl|waits Hw Hl].
  - apply (poll_ready i2c (S n) (x :: waits)); [constructor; assumption|exact Hy|cbn; lia].
  - apply (poll_failed i2c (S n) (x :: waits)); [constructor; assumption|exact Hy|cbn; lia].
  - apply poll_waiting; [constructor; assumption|cbn; lia].
Qed.

Lemma poll_spec {FO B ER EW} (bs : bus B ER EW) fuel : forall v (d : driver (FO := FO)) r d',
  word v -> bit v 3 = false -> poll bs fuel v d = (r, d') ->
  exists w' evs, d' = with_bus d w' /\ trace w' = trace (d_bus d) ++ evs /\ poll_run (d_address d) fuel evs r.
Proof.
  induction fuel as [|n IH]; intros v d r d' Hv Hb H; cbn [poll] in H; rewrite (new_data_doc v Hv), Hb in H.
  - injection H as <- <-. exists (d_bus d), []. split; [destruct d; reflexivity|].
    split; [rewrite app_nil_r; reflexivity|]. apply poll_waiting; [constructor|reflexivity].
  - unfold bindS in H. destruct (status_register_ bs d) as [r0 d0] eqn:Hs. apply status_register_spec in Hs.
    destruct Hs as (w0 & -> & [(x & -> & Hx & Ht)|(e & x & -> & Hx & Ht)]).
    + destruct (bit x 3) eqn:Ex.
      * assert (Hp : poll bs n x (with_bus d w0) = (Ok tt, with_bus d w0)).
        { destruct n; cbn [poll]; rewrite (new_data_doc x Hx), Ex; reflexivity. }
        rewrite Hp in H. injection H as <- <-. exists w0, [reads_word (d_address d) status_reg x].
        split; [reflexivity|]. split; [exact Ht|].
        apply (poll_ready _ _ []); [constructor|exists x; auto|cbn; lia].
      * apply IH in H; [|exact Hx|exact Ex]. destruct H as (w1 & evs & -> & Ht1 & Hp).
        cbn [d_bus with_bus] in Ht1. rewrite Ht, <- app_assoc in Ht1.
        exists w1. eexists. split; [reflexivity|]. split; [exact Ht1|].
        apply poll_run_cons; [exists x; auto|exact Hp].
    + injection H as <- <-. exists w0, [x]. split; [reflexivity|]. split; [exact Ht|].
      apply (poll_failed _ _ []); [constructor|exact Hx|cbn; lia].
Qed.

Lemma measurement_request_spec v : word v ->
  measurement_request v (set_start_measurement (set_overwrite_enabled (reset_new_data v) true)).
Proof.
  intros Hv.
  destruct (reset_new_data_spec v Hv) as [[Hw1 H1] D1].
  destruct (set_overwrite_spec _ true Hw1) as [[Hw2 H2] D2].
  destruct (set_start_spec _ Hw2) as [[Hw3 H3] D3].
  assert (E1 : bit (reset_new_data v) 3 = false) by (apply (f_equal s_new_data) in D1; exact D1).
  assert (E2 : bit (set_overwrite_enabled (reset_new_data v) true) 4 = true)
    by (apply (f_equal s_overwrite) in D2; exact D2).
  assert (E3 : bit (set_start_measurement (set_overwrite_enabled (reset_new_data v) true)) 5 = true)
    by (apply (f_equal s_start) in D3; exact D3).
  split; [exact Hw3|]. split; [|split; [|split]].
  - rewrite H3, H2 by lia. exact E1.
  - rewrite H3 by lia. exact E2.
  - exact E3.
  - intros i Hi N3 N4 N5. rewrite H3, H2, H1 by lia. reflexivity.
Qed.

(** Every call of [synchronize], seen after at most [fuel] polls; [Diverge] is
    "still polling". *)
Theorem C27_synchronize : forall FO B ER EW (bs : bus B ER EW) fuel (d : driver (FO := FO)) r d',
  synchronize bs fuel d = (r, d') ->
  exists w' evs, d' = with_bus d w' /\ trace w' = trace (d_bus d) ++ evs /\ sync_run (d_address d) fuel evs r.
Proof.
  intros FO B ER EW bs fuel d r d' H. unfold synchronize, bindS in H.
  destruct (status_register_ bs d) as [r0 d0] eqn:Hs. apply status_register_spec in Hs.
  destruct Hs as (w0 & -> & [(v & -> & Hv & Ht)|(e & x & -> & Hx & Ht)]).
  - pose proof (measurement_request_spec v Hv) as Hm. revert H Hm.
    generalize (set_start_measurement (set_overwrite_enabled (reset_new_data v) true)). intros v' H Hm.
    destruct (set_status_register bs v' (with_bus d w0)) as [r1 d1] eqn:Hw.
    apply set_status_register_spec in Hw. destruct Hw as (w1 & e & -> & Ht1 & ->).
    cbn [d_bus d_address with_bus] in Ht1. rewrite Ht, <- app_assoc in Ht1.
    destruct e as [e|].
    + injection H as <- <-. exists w1. eexists. split; [reflexivity|]. split; [exact Ht1|].
      apply sync_write_failed; assumption.
    + apply poll_spec in H; [|apply Hm|apply Hm]. destruct H as (w2 & evs & -> & Ht2 & Hp).
      cbn [d_bus d_address with_bus] in Ht2, Hp. rewrite Ht1, <- app_assoc in Ht2.
      exists w2. eexists. split; [reflexivity|]. split; [exact Ht2|]. apply sync_polled; assumption.
  - injection H as <- <-. exists w0, [x]. split; [reflexivity|]. split; [exact Ht|].
    apply sync_read_failed. exact Hx.
Qed.
Print Assumptions C27_synchronize.

(** The bound on the number of polls does not matter once the call has returned. *)
Lemma poll_mono {FO B ER EW} (bs : bus B ER EW) n : forall v (d : driver (FO := FO)) r d' m,
  poll bs n v d = (r, d') -> r <> Diverge -> (n <= m)%nat -> poll bs m v d = (r, d').
Proof.
  induction n as [|n IH]; intros v d r d' k H Hr Hle; cbn [poll] in H.
  - destruct (new_data v) eqn:E; [|injection H as <- _; congruence].
    destruct k; cbn [poll]; rewrite E; exact H.
  - destruct k as [|k]; [lia|]. cbn [poll]. destruct (new_data v); [exact H|].
    unfold bindS in *. destruct (status_register_ bs d) as [[x| | |] d0]; try exact H.
    apply IH; [exact H|exact Hr|lia].
Qed.

Theorem C27_poll_bound_irrelevant : forall FO B ER EW (bs : bus B ER EW) n k (d : driver (FO := FO)) r d',
  synchronize bs n d = (r, d') -> r <> Diverge -> (n <= k)%nat -> synchronize bs k d = (r, d').
Proof.
  intros FO B ER EW bs n k d r d' H Hr Hle. unfold synchronize, bindS in *.
  destruct (status_register_ bs d) as [[v| | |] d0]; try exact H.
  destruct (set_status_register bs _ d0) as [[u| | |] d1]; try exact H.
  eapply poll_mono; eassumption.
Qed.
Print Assumptions C27_poll_bound_irrelevant.

(** ** Concrete cases *)
(** A camera that completes a frame at its fourth transaction after construction. *)
Example C27_concrete :
  match demo_driver 12 384 demo641 0x0008 0x0901 with
  | Some d =>
      let '(r, d') := synchronize (toy_bus (at_clock 4) never) 10 d in
      r = Ok tt /\
      skipn 1 (trace (d_bus d')) =
        [ reads_word 0x33 status_reg 0x0008;
          writes_word 0x33 status_reg 0x0030 None;
          reads_word 0x33 status_reg 0x0030;
          reads_word 0x33 status_reg 0x0038 ]
  | None => False
  end.
Proof. vm_compute. split; reflexivity. Qed.

Example C18_concrete :
  match demo_driver 12 384 demo641 0x0008 0x0901 with
  | Some d =>
      let '(r1, d1) := drv_set_frame_rate (toy_bus never never) FR_Four d in
      let '(r2, d2) := drv_set_frame_rate (toy_bus never (at_clock 3)) FR_Four d1 in
      r1 = Ok tt /\ r2 = Err (I2cWriteReadError "nack"%string) /\
      skipn 1 (trace (d_bus d1)) =
        [ reads_word 0x33 control_reg 0x0901; writes_word 0x33 control_reg 0x0981 None ] /\
      length (trace (d_bus d2)) = 4%nat
  | None => False
  end.
Proof. vm_compute. repeat split. Qed.

(** The hypotheses of C17 and C19 hold for a toy camera, in a history with a
    failed read, a completed frame and two changed settings. *)
Lemma control_doc_mod w : control_doc (w mod 65536) = control_doc w.
Proof.
  assert (Hb : forall i, 0 <= i < 16 -> Z.testbit (w mod 65536) i = Z.testbit w i).
  { intros i Hi. change 65536 with (2 ^ 16). apply Z.mod_pow2_bits_low. lia. }
  unfold control_doc. rewrite !bit_testbit, !Hb by lia.
  rewrite (bits_ext (w mod 65536) w 4 1), (bits_ext (w mod 65536) w 7 3), (bits_ext (w mod 65536) w 10 2),
    (bits_ext (w mod 65536) w 12 1); try lia; try reflexivity; intros i Hi; apply Hb; lia.
Qed.

Lemma toy_control_register s f : control_register_is (toy_bus s f) (fun t => toy_control t mod 65536).
Proof.
  assert (Htick : forall t, toy_control (toy_tick s t) = toy_control t).
  { intros t. unfold toy_tick. destruct (s (S (toy_clock t))); reflexivity. }
  constructor.
  - intros b i2c wb buf b' out e H. cbn [toy_bus dev_write_read] in H. injection H as <- _ _. rewrite Htick. reflexivity.
  - intros b i2c buf b' out Hl H. cbn [toy_bus dev_write_read] in H. injection H as _ <- _. rewrite Hl. reflexivity.
  - intros b i2c bytes b' e H Hne. cbn [toy_bus dev_write] in H. destruct (f (toy_clock b)).
    + injection H as <- _. rewrite Htick. reflexivity.
    + destruct ((nth 0 bytes 0 =? 0x80) && (nth 1 bytes 0 =? 0x0D)) eqn:E.
      * exfalso. apply Hne. apply andb_prop in E. destruct E as [E1 E2].
        apply Z.eqb_eq in E1. apply Z.eqb_eq in E2.
        destruct bytes as [|x [|y r]]; cbn [nth] in E1, E2; try discriminate. subst. reflexivity.
      * destruct (256 * nth 0 bytes 0 + nth 1 bytes 0 =? 0x8000); injection H as <- _; rewrite Htick; reflexivity.
  - intros b i2c hi lo b' H. cbn [toy_bus dev_write] in H. destruct (f (toy_clock b)); [discriminate|].
    cbn in H. injection H as <-. rewrite Htick, control_doc_mod. reflexivity.
  - intros b. apply Z.mod_pos_bound. lia.
Qed.

Example C17_C19_concrete :
  match new_with_calibration (toy_bus never (at_clock 3)) 12 384 (toy0 0x0008 0x0901) 0x33 demo641 with
  | (Ok d, _) =>
      let d' := run Debug (toy_bus never (at_clock 3)) d
                  [OpSetResolution Res16; OpFrameRate; OpGenerateIfReady (repeat (0 : F ZFO) 192); OpSetDataHold true] in
      length (trace (d_bus d')) = 19%nat /\ drv_ambient_temperature d' <> None /\ d_resolution_correction d' = 4
  | _ => False
  end /\ documented (cam _ demo641) layout641.
Proof. split; [vm_compute; split; [reflexivity|split; [discriminate|reflexivity]]|constructor]. Qed.
