(** * Properties C105, C106: programs that use the low-level interface. *)
From Verif Require Import Base FloatOps Register Bus Camera Cam640 Cam641 Ee640 Ee641 Calc CalcFacts
  BitFacts SpecRegister RegisterFacts SpecCamera CameraFacts SpecDriver Driver DriverFacts StepFacts Demo
  SpecImage SpecCall ImageFacts P_Bus P_Image P_Frames P_Calc SpecReplay P_Replay Dumps P_Usable LowLevel Driver.

(** ** C106: [read_ram] with any HEIGHT and any buffer *)
(** The number of pixel reads of a frame. *)
Definition pixel_reads (lay : layout) (sp : subpage) (ap : access_pattern) : nat := length (lay_reads lay sp ap).
Lemma pixel_reads_are : forall sp ap, pixel_reads layout640 sp ap = (match ap with Chess => 1 | Interleave => 12 end)%nat /\
  pixel_reads layout641 sp ap = 6%nat.
Proof. intros [] []; vm_compute; auto. Qed.

Section Read.
Context {FO : FloatOps} {B ER EW : Type} (bs : bus B ER EW).
Lemma ranges_count (c : camera FO) lay sp ap : documented c lay -> length (pixel_ranges _ c sp ap) = pixel_reads lay sp ap.
Proof. intros H. unfold pixel_reads. rewrite <- (ranges_reads c lay sp ap H), map_length. reflexivity. Qed.

Theorem C106_small_height : forall (c : camera FO) lay height a ap sp buf (w : world B ER EW), documented c lay ->
  (height < pixel_reads lay sp ap)%nat -> read_ram bs c height a ap sp buf w = (Panic, buf, w).
Proof.
  intros c lay height a ap sp buf w Hd Hh. unfold read_ram. rewrite (ranges_count c lay sp ap Hd).
  destruct (Nat.ltb_spec height (pixel_reads lay sp ap)); [reflexivity|lia].
Qed.
Theorem C106_height_does_not_matter : forall (c : camera FO) lay height height' a ap sp buf (w : world B ER EW), documented c lay ->
  (pixel_reads lay sp ap <= height)%nat -> (pixel_reads lay sp ap <= height')%nat ->
  read_ram bs c height a ap sp buf w = read_ram bs c height' a ap sp buf w.
Proof.
  intros c lay height height' a ap sp buf w Hd Hh Hh'. unfold read_ram. rewrite (ranges_count c lay sp ap Hd).
  destruct (Nat.ltb_spec height (pixel_reads lay sp ap)); [lia|].
  destruct (Nat.ltb_spec height' (pixel_reads lay sp ap)); [lia|]. reflexivity.
Qed.
(** What a call does: all reads, or the reads up to a failing one, or (buffer too small) some reads and a panic; what it
    leaves in the buffer; and what it returns. *)
Theorem C106_read_ram : forall (c : camera FO) lay height a ap sp buf (w : world B ER EW) r buf' w', documented c lay ->
  (pixel_reads lay sp ap <= height)%nat -> read_ram bs c height a ap sp buf w = (r, buf', w') ->
  length buf' = length buf /\
  exists evs, trace w' = trace w ++ evs /\
  match r with
  | Ok ram =>
      completed a (frame_reads lay sp ap) evs /\ (lay_bytes lay sp ap <= length buf)%nat /\
      forall mem, (forall a, word (mem a)) -> Forall (shows mem) evs ->
        t_a_v_be ram = signed (mem (lay_vbe lay)) /\ t_a_ptat ram = signed (mem (lay_ptat lay)) /\
        v_dd_pixel ram = signed (mem (lay_vdd lay)) /\ ram_gain ram = signed (mem (lay_gain lay)) /\
        compensation_pixel ram = signed (mem (lay_cp lay sp)) /\
        forall row col, (row < lay_height lay)%nat -> (col < lay_width lay)%nat ->
          let i := (row * lay_width lay + col)%nat in
          if lay_transferred lay sp ap row col
          then 256 * nth (2 * i) buf' 0 + nth (2 * i + 1) buf' 0 = mem (lay_address lay sp i)
          else nth (2 * i) buf' 0 = nth (2 * i) buf 0 /\ nth (2 * i + 1) buf' 0 = nth (2 * i + 1) buf 0
  | Err (I2cWriteReadError e) => aborted a (frame_reads lay sp ap) e evs
  | Panic => (length buf < lay_bytes lay sp ap)%nat /\ cut_short a (lay_reads lay sp ap) evs
  | _ => False
  end.
Proof.
  intros c lay height a ap sp buf w r buf' w' Hd Hh H.
  assert (Hp : (pixel_reads lay sp ap <= lay_height lay)%nat).
  { destruct Hd; destruct (pixel_reads_are sp ap) as [E1 E2]; [rewrite E1|rewrite E2]; destruct ap; cbn [lay_height layout640 layout641]; lia. }
  rewrite (C106_height_does_not_matter c lay height (lay_height lay)) in H by assumption.
  destruct (read_ram_spec bs c lay _ _ _ _ _ _ _ _ _ Hd (le_n _) H) as (L & evs & T & G).
  split; [exact L|]. exists evs. split; [exact T|].
  destruct r as [ram|[e|e|e]| |]; try exact G. destruct G as [G1 G2]. split; [exact G1|]. split; [exact G2|].
  intros mem Hm Hs. destruct (read_ram_shows bs mem c lay _ _ _ _ _ _ _ _ _ _ Hd (le_n _) Hm H T Hs) as ((A1 & A2 & A3 & A4 & A5) & A6 & _).
  repeat (split; [assumption|]). exact A6.
Qed.
End Read.
(** A buffer of the whole image and HEIGHT of the camera are always enough. *)
Theorem C106_no_panic : forall FO B ER EW (bs : bus B ER EW) (c : camera FO) lay a ap sp buf (w : world B ER EW) r buf' w', documented c lay ->
  (2 * lay_pixels lay <= length buf)%nat -> read_ram bs c (lay_height lay) a ap sp buf w = (r, buf', w') -> r <> Panic /\ r <> Diverge.
Proof.
  intros FO B ER EW bs c lay a ap sp buf w r buf' w' Hd Hb H.
  assert (Hl : (lay_bytes lay sp ap <= 2 * lay_pixels lay)%nat).
  { clear - Hd. destruct Hd; destruct sp, ap; apply Nat.leb_le; vm_compute; reflexivity. }
  destruct (read_ram_spec bs c lay _ _ _ _ _ _ _ _ _ Hd (le_n _) H) as (L & evs & T & G).
  destruct r as [ram|[e|e|e]| |]; try (split; discriminate); destruct G. lia.
Qed.

(** ** C105 *)
Section Low.
Context {FO : FloatOps} (p : profile) {B ER EW : Type} (bs : bus B ER EW).
Notation F := (F FO).
Notation W := (world B ER EW).
Notation driver := (driver (FO := FO) (B := B) (ER := ER) (EW := EW)).

(** The driver with the same settings. *)
Definition equivalent (s : low_level (FO := FO)) (a : Z) (w : W) (d : driver) : Prop :=
  d_bus d = w /\ d_address d = a /\ d_calibration d = low_calibration s /\ d_height d = 24%nat /\
  d_resolution_correction d = low_correction s /\ d_emissivity d = low_emissivity s /\
  d_access_pattern d = Chess /\ d_reflected d = None /\ d_pixel_buffer d = repeat 0 1536.

(** What the program gets if the driver's call ends like this. *)
Definition as_low (x : res (error ER EW) unit * driver * list F) (y : res unit (F * list F) * W) : Prop :=
  match x with
  | (Ok _, d', dest) => exists t, d_ambient d' = Some t /\ y = (Ok (t, dest), d_bus d')
  | (Err _, d', _) | (Panic, d', _) => y = (Panic, d_bus d')
  | (Diverge, d', _) => y = (Diverge, d_bus d')
  end.

(** The error type of a calculation does not matter: it has no errors. *)
Lemma temperatures_retyped {E E' : Type} c em tr rc px ram sp ap mask dest :
  match raw_pixels_to_temperatures (FO := FO) (E := E) p c em tr rc px ram sp ap mask dest with
  | Ok x => raw_pixels_to_temperatures (E := E') p c em tr rc px ram sp ap mask dest = Ok x
  | Err _ => False
  | Panic => raw_pixels_to_temperatures (E := E') p c em tr rc px ram sp ap mask dest = Panic
  | Diverge => False
  end.
Proof.
  unfold raw_pixels_to_temperatures, common_new, delta_v, chk_i16.
  destruct (in_i16 (v_dd_pixel ram - v_dd_25 FO c)); [|destruct p]; cbn [bind]; try reflexivity;
    destruct (nth_error (k_s_to FO c) (BASIC_TEMPERATURE_RANGE FO (cam FO c))); reflexivity.
Qed.

Theorem C105_frame_is_the_drivers : forall (s : low_level (FO := FO)) a w d,
  equivalent s a w d -> cam _ (low_calibration s) = Mlx90640 FO ->
  as_low (generate_image_to p bs (repeat (fofZ 0) 768) d) (low_frame (FO := FO) bs (one_pass p) s a w).
Proof.
  intros s a w d (E1 & E2 & E3 & E4 & E5 & E6 & E7 & E8 & E9) Hc.
  unfold generate_image_to, last_measured_subpage, status_register_, low_frame, low_setup. rewrite E1, E2.
  destruct (read_register bs a STATUS_ADDRESS w) as [r w0]. destruct r as [v| | |]; cbn [bindS expect]; try reflexivity.
  unfold pure, last_updated_subpage. destruct (subpage_try_from (Z.land v ST_SUBPAGE_MASK)) as [sp|]; cbn [unwrap bindS]; [|reflexivity].
  unfold generate_image_subpage_to, drv_read_ram.
  cbn [with_bus d_calibration d_height d_address d_access_pattern d_pixel_buffer d_bus].
  rewrite E2, E3, E4, E7, E9, Hc.
  destruct (read_ram bs (Mlx90640 FO) 24 a Chess sp (repeat 0 1536) w0) as [[r0 buf'] w1].
  destruct r0 as [ram|e| |]; cbn [bindS expect fail_image]; try reflexivity.
  unfold calc_temperatures. cbn [with_bus with_buffer d_calibration d_access_pattern d_pixel_buffer d_emissivity d_reflected d_resolution_correction].
  rewrite E3, E5, E6, E7, E8, Hc. unfold one_pass.
  pose proof (temperatures_retyped (E := error ER EW) (E' := unit) (low_calibration s) (low_emissivity s) None (low_correction s) buf' ram sp Chess
    (pixels_in_subpage _ (Mlx90640 FO) sp Chess) (repeat (fofZ 0) 768)) as G.
  destruct (raw_pixels_to_temperatures (E := error ER EW) p (low_calibration s) (low_emissivity s) None (low_correction s) buf' ram sp Chess
    (pixels_in_subpage _ (Mlx90640 FO) sp Chess) (repeat (fofZ 0) 768)) as [[t dest]| | |]; try (exfalso; exact G); rewrite G; cbn [store_image as_low].
  - exists t. split; reflexivity.
  - reflexivity.
Qed.

(** The two benchmarked ways are the same. *)
Theorem C105_split_is_one_pass : forall (s : low_level (FO := FO)) a w,
  complete (low_calibration s) layout640 ->
  low_frame (FO := FO) bs (split_functions p) s a w = low_frame (FO := FO) bs (one_pass p) s a w.
Proof.
  intros s a w Hc. unfold low_frame. destruct (low_setup (FO := FO) bs a w) as [r w'] eqn:H. destruct r as [[[sp px] ram]| | |]; cbn [bindS]; try reflexivity.
  f_equal. unfold split_functions, one_pass.
  assert (Hl : length px = (2 * lay_pixels layout640)%nat).
  { unfold low_setup in H. destruct (read_register bs a STATUS_ADDRESS w) as [r w0]. destruct r as [v| | |]; cbn [bindS expect] in H; try discriminate.
    destruct (last_updated_subpage v) as [sp0| | |]; cbn [bindS] in H; try discriminate.
    destruct (read_ram bs (Mlx90640 FO) 24 a Chess sp0 (repeat 0 1536) w0) as [[r0 buf'] w1] eqn:Hr.
    pose proof (read_ram_spec bs (Mlx90640 FO) layout640 _ _ _ _ _ _ _ _ _ doc_640 (le_n _) Hr) as (L & _).
    destruct r0 as [ram0|e| |]; cbn [bindS expect] in H; try discriminate.
    assert (px = buf') as -> by congruence. rewrite L, repeat_length. reflexivity. }
  symmetry. exact (C31_whole_image p (E := unit) (low_calibration s) layout640 (low_emissivity s) None (low_correction s) px ram sp Chess
    (pixels_in_subpage _ (Mlx90640 FO) sp Chess) (repeat (fofZ 0) 768) Hc Hl).
Qed.

(** What [low_open] does on the bus, and what it gets from it. *)
Theorem C105_open : forall a w (s : low_level (FO := FO)) w',
  low_open p bs a w = (Ok s, w') ->
  exists v data, word v /\ trace w' = trace w ++ [reads_word a control_reg v; EvRead a [0x24; 0x00] data None] /\
    length data = 1664%nat /\ Forall byte data /\ from_data640 FO p data = Ok (low_calibration s) /\
    low_correction s = resolution_correction _ (Mlx90640 FO) (cal_resolution _ (low_calibration s)) (c_resolution (control_doc v)) /\
    low_emissivity s = (match cal_emissivity _ (low_calibration s) with Some e => e | None => fofZ 1 end).
Proof.
  intros a w s w' H. unfold low_open in H. destruct (read_register bs a CONTROL_ADDRESS w) as [r w0] eqn:Hr.
  apply read_register_spec in Hr. destruct Hr as [(v & -> & Hv & Ht)|(e & x & -> & _ & _)]; cbn [bindS expect] in H; [|discriminate].
  unfold calib640_from_i2c, write_read in H.
  change (to_be_bytes EE640_Base) with [0x24; 0x00] in H. change EEPROM_LENGTH with 1664%nat in H.
  destruct (dev_write_read bs (dev w0) a [0x24; 0x00] (repeat 0 1664)) as [[b out] e].
  assert (Hl : length (clip (repeat 0 1664) out) = 1664%nat) by (rewrite clip_length, repeat_length; reflexivity).
  assert (Hb : Forall byte (clip (repeat 0 1664) out)).
  { apply clip_byte. apply Forall_forall. intros x Hx. apply repeat_spec in Hx. subst x. unfold byte. lia. }
  revert Hl Hb H. generalize (clip (repeat 0 1664) out). intros data Hl Hb H.
  destruct e as [e|]; [discriminate|].
  destruct (from_data640 FO p data) as [c|l| |] eqn:Hd; cbn [map_err expect bindS] in H; try discriminate.
  rewrite ctl_resolution_doc in H by exact Hv. cbn [bind] in H.
  apply pair_equal_spec in H. destruct H as [Hs <-].
  assert (E : s = {| low_calibration := c;
    low_correction := resolution_correction _ (Mlx90640 FO) (cal_resolution _ c) (c_resolution (control_doc v));
    low_emissivity := unwrap_or (cal_emissivity _ c) (fofZ 1) |}).
  { apply (f_equal (fun r => match r with Ok x => x | _ => s end)) in Hs. symmetry. exact Hs. }
  subst s. exists v, data. cbn [trace low_calibration low_correction low_emissivity].
  split; [exact Hv|]. split; [rewrite Ht, <- app_assoc; reflexivity|]. repeat (split; [assumption || reflexivity|]). reflexivity.
Qed.
End Low.

(** Together: the program has the settings of a driver made by [new] on a camera with the same EEPROM contents, the same control
    register, and in chess pattern; whatever has happened on the bus since, its frames are that driver's. *)
Theorem C105_same_as_the_driver : forall FO p B ER EW (bs : bus B ER EW) a w (s : low_level (FO := FO)) w' data v
    B2 (bs2 : bus B2 ER EW) w2 (d : driver (FO := FO)) w2',
  low_open p bs a w = (Ok s, w') ->
  trace w' = trace w ++ [reads_word a control_reg v; EvRead a [0x24; 0x00] data None] ->
  new bs2 (calib640_from_i2c FO p bs2) 24 1536 w2 a = (Ok d, w2') ->
  trace w2' = trace w2 ++ [EvRead a [0x24; 0x00] data None; reads_word a control_reg v] ->
  c_access_pattern (control_doc v) = Chess ->
  forall w3 : world B ER EW,
    as_low (generate_image_to p bs (repeat (fofZ 0) 768) (connect d w3)) (low_frame (FO := FO) bs (one_pass p) s a w3) /\
    low_frame (FO := FO) bs (split_functions p) s a w3 = low_frame (FO := FO) bs (one_pass p) s a w3.
Proof.
  intros FO p B ER EW bs a w s w' data v B2 bs2 w2 d w2' Ho Ht Hn Ht2 Hap w3.
  destruct (C105_open p bs a w s w' Ho) as (v1 & data1 & Hv1 & T1 & _ & _ & F1 & R1 & M1).
  rewrite Ht in T1. apply app_inv_head in T1.
  destruct (C29_new_640 _ _ _ _ _ _ _ _ _ _ Hn) as (evs & T2 & C). rewrite Ht2 in T2. apply app_inv_head in T2. subst evs.
  remember (Ok d : res (error ER EW) _) as r eqn:Er.
  inversion C as [| | | |data2 c evs2 r2 _ _ F2 C2]; subst; try discriminate.
  inversion C2 as [v2 d2 Hv2 FD|]; subst.
  assert (data1 = data) as -> by congruence.
  assert (c = low_calibration s) as -> by congruence.
  assert (v1 = v /\ v2 = v) as [-> ->].
  { unfold reads_word in *.
    assert (v1 / 256 = v / 256 /\ v1 mod 256 = v mod 256) as [Q1 Q2] by (split; congruence).
    assert (v2 / 256 = v / 256 /\ v2 mod 256 = v mod 256) as [Q3 Q4] by (split; congruence).
    split; [rewrite (Z_div_mod_eq_full v1 256), Q1, Q2|rewrite (Z_div_mod_eq_full v2 256), Q3, Q4]; symmetry; apply Z_div_mod_eq_full. }
  pose proof (from_data640_camera _ _ _ _ F2) as Hcam.
  destruct FD as (A1 & A2 & A3 & A4 & A5 & A6 & A7 & A8 & A9 & A10).
  split.
  - apply C105_frame_is_the_drivers; [|exact Hcam]. unfold equivalent, connect.
    cbn [d_bus d_address d_calibration d_height d_resolution_correction d_emissivity d_access_pattern d_reflected d_pixel_buffer].
    unfold effective_emissivity, reflected_temperature in *.
    rewrite A2, A3, A4, A5, A7, A8, A9, A10, R1, M1, Hcam. repeat split; assumption.
  - apply C105_split_is_one_pass. pose proof (proj1 (C62_new_640 _ _ _ _ _ _ _ _ _ _ Hn)) as (_ & _ & U & _). rewrite A3 in U. exact U.
Qed.

(** ** Concrete cases *)
(** A camera with the EEPROM of the datasheet's example, this control register, subpage 1 measured, and RAM whose words are 100. *)
Definition low_bus (control : Z) : bus unit unit unit := {|
  dev_write_read := fun b _ wb buf =>
    (b, (if list_eq_dec Z.eq_dec wb [0x24; 0x00] then datasheet640
         else if list_eq_dec Z.eq_dec wb [0x80; 0x0D] then [control / 256; control mod 256]
         else if list_eq_dec Z.eq_dec wb [0x80; 0x00] then [0x00; 0x09]
         else concat (repeat [0; 100] (length buf / 2))), None);
  dev_write := fun b _ _ => (b, None) |}.
Definition low_run (control : Z) : option (list Z) :=
  match low_open Debug (FO := ZFO) (low_bus control) 0x33 start with
  | (Ok s, w) => match low_frame (low_bus control) (split_functions Debug) s 0x33 w with (Ok (_, temperatures), _) => Some temperatures | _ => None end
  | _ => None
  end.
Definition driver_run (control : Z) : option (list Z) :=
  match new (low_bus control) (calib640_from_i2c ZFO Debug (low_bus control)) 24 1536 start 0x33 with
  | (Ok d, _) => match generate_image_to Debug (low_bus control) (repeat (fofZ 0) 768) d with (Ok _, _, temperatures) => Some temperatures | _ => None end
  | _ => None
  end.
Definition zeros (l : option (list Z)) : option nat :=
  match l with Some l => Some (length (filter (Z.eqb 0) (map (fun i => nth i l 0) (seq 0 32)))) | None => None end.
(** In chess pattern (control register 0x1901) program and driver agree, and fill 16 of the first 32 pixels; in interleaved
    pattern (0x0901) the program, which does not look, still fills 16 of them, and the driver none. *)
Example C105_concrete :
  low_run 0x1901 = driver_run 0x1901 /\ zeros (low_run 0x1901) = Some 16%nat /\
  zeros (low_run 0x0901) = Some 16%nat /\ zeros (driver_run 0x0901) = Some 32%nat.
Proof. vm_compute. repeat split. Qed.
Example C105_meets_hypotheses :
  match low_open Debug (FO := ZFO) (low_bus 0x1901) 0x33 start, new (low_bus 0x1901) (calib640_from_i2c ZFO Debug (low_bus 0x1901)) 24 1536 start 0x33 with
  | (Ok _, w), (Ok _, w2) =>
      trace w = [reads_word 0x33 control_reg 0x1901; EvRead 0x33 [0x24; 0x00] datasheet640 None] /\
      trace w2 = [EvRead 0x33 [0x24; 0x00] datasheet640 None; reads_word 0x33 control_reg 0x1901] /\
      c_access_pattern (control_doc 0x1901) = Chess
  | _, _ => False
  end.
Proof. vm_compute. repeat split. Qed.
(** C106: the smallest HEIGHT that works is the number of pixel reads. *)
Definition finished {A B C D} (x : res (error A B) ram_data * C * D) : bool := match fst (fst x) with Ok _ => true | _ => false end.
Example C106_concrete :
  finished (read_ram (low_bus 0x1901) (Mlx90640 ZFO) 1 0x33 Chess One (repeat 0 1536) start) = true /\
  finished (read_ram (low_bus 0x1901) (Mlx90640 ZFO) 11 0x33 Interleave One (repeat 0 1536) start) = false /\
  finished (read_ram (low_bus 0x1901) (Mlx90640 ZFO) 12 0x33 Interleave Zero (repeat 0 1472) start) = true /\
  finished (read_ram (low_bus 0x1901) (Mlx90640 ZFO) 12 0x33 Interleave Zero (repeat 0 1471) start) = false.
Proof. vm_compute. repeat split. Qed.

Print Assumptions C105_frame_is_the_drivers.
Print Assumptions C105_split_is_one_pass.
Print Assumptions C105_open.
Print Assumptions C105_same_as_the_driver.
Print Assumptions C106_small_height.
Print Assumptions C106_height_does_not_matter.
Print Assumptions C106_read_ram.
Print Assumptions C106_no_panic.
