(** * RetryFacts: on a bus that fills its buffers the driver's pixel buffer is never seen. *)
From Verif Require Import Base FloatOps Register Bus Camera Calc CalcFacts BitFacts SpecCamera CameraFacts DriverFacts
  SpecImage ImageFacts SeenFacts P_Frames SpecRetry Driver.

Lemma calc_ext {FO : FloatOps} p {B ER EW} raw (d1 d2 : driver (FO := FO) (B := B) (ER := ER) (EW := EW)) ram sp dest :
  d_calibration d2 = d_calibration d1 -> d_resolution_correction d2 = d_resolution_correction d1 ->
  d_emissivity d2 = d_emissivity d1 -> d_access_pattern d2 = d_access_pattern d1 -> d_reflected d2 = d_reflected d1 ->
  length (d_pixel_buffer d2) = length (d_pixel_buffer d1) ->
  (forall i, nth i (pixels_in_subpage _ (cam _ (d_calibration d1)) sp (d_access_pattern d1)) false = true ->
     256 * nth (2 * i) (d_pixel_buffer d2) 0 + nth (2 * i + 1) (d_pixel_buffer d2) 0 =
     256 * nth (2 * i) (d_pixel_buffer d1) 0 + nth (2 * i + 1) (d_pixel_buffer d1) 0) ->
  calc (ER := ER) (EW := EW) p raw d2 ram sp dest = calc (ER := ER) (EW := EW) p raw d1 ram sp dest.
Proof.
  intros E1 E2 E3 E4 E5 Hl Hw. destruct d1 as [? ? c1 b1 rc1 ? em1 ap1 rf1 ?], d2 as [? ? c2 b2 rc2 ? em2 ap2 rf2 ?].
  cbn [d_calibration d_resolution_correction d_emissivity d_access_pattern d_reflected d_pixel_buffer] in *. subst c2 rc2 em2 ap2 rf2.
  assert (Pw : forall i, nth i (pixels_in_subpage _ (cam _ c1) sp ap1) false = true ->
    option_map pixel_word (nth_error (chunks2 b2) i) = option_map pixel_word (nth_error (chunks2 b1) i)).
  { intros i Hi. rewrite !chunks2_nth, Hl. destruct (Nat.ltb (2 * i + 1) (length b1)); [|reflexivity].
    cbn [option_map]. unfold pixel_word, be16. cbn [fst snd]. do 2 f_equal. rewrite !(Z.mul_comm _ 256). apply Hw, Hi. }
  assert (Cl : forall i, nth_error (chunks2 b2) i = None <-> nth_error (chunks2 b1) i = None).
  { intros i. rewrite !chunks2_nth, Hl. destruct (Nat.ltb (2 * i + 1) (length b1)); split; intros; congruence. }
  destruct raw; cbn [calc]; unfold calc_ir, calc_temperatures, raw_pixels_to_ir_data, raw_pixels_to_temperatures;
    cbn [d_calibration d_resolution_correction d_emissivity d_access_pattern d_reflected d_pixel_buffer].
  - destruct (common_new p rc1 em1 c1 ram) as [k|e| |]; cbn [bind]; [|reflexivity..]. do 2 f_equal.
    apply nth_error_ext. intros i. rewrite !mfe_nth. destruct (nth_error dest i) as [v|]; [|reflexivity].
    rewrite !nth_error_zip. specialize (Pw i). specialize (Cl i).
    destruct (nth_error (chunks2 b2) i) as [x2|], (nth_error (chunks2 b1) i) as [x1|];
      [|destruct Cl as [_ Cl]; specialize (Cl eq_refl); discriminate|destruct Cl as [Cl _]; specialize (Cl eq_refl); discriminate|reflexivity].
    destruct (nth i (pixels_in_subpage _ (cam _ c1) sp ap1) false).
    + specialize (Pw eq_refl). cbn [option_map] in Pw. injection Pw as Pw.
      destruct (nth_error (offset_reference_pixels FO c1 sp) i); [|reflexivity].
      destruct (nth_error (k_v_pixels FO c1 sp) i); [|reflexivity].
      destruct (nth_error (k_ta_pixels FO c1 sp) i); [|reflexivity].
      destruct (nth_error (access_pattern_compensation_pixels FO c1 ap1) i); [|reflexivity].
      rewrite Pw. reflexivity.
    + repeat match goal with |- context [match ?x with _ => _ end] => destruct x end; reflexivity.
  - destruct (common_new p rc1 em1 c1 ram) as [k|e| |]; cbn [bind]; [|reflexivity..].
    destruct (nth_error (k_s_to FO c1) (BASIC_TEMPERATURE_RANGE FO (cam FO c1))) as [kb|]; cbn [unwrap bind]; [|reflexivity].
    do 2 f_equal.
    apply nth_error_ext. intros i. rewrite !mfe_nth. destruct (nth_error dest i) as [v|]; [|reflexivity].
    rewrite !nth_error_zip. specialize (Pw i). specialize (Cl i).
    destruct (nth_error (chunks2 b2) i) as [x2|], (nth_error (chunks2 b1) i) as [x1|];
      [|destruct Cl as [_ Cl]; specialize (Cl eq_refl); discriminate|destruct Cl as [Cl _]; specialize (Cl eq_refl); discriminate|reflexivity].
    destruct (nth i (pixels_in_subpage _ (cam _ c1) sp ap1) false).
    + specialize (Pw eq_refl). cbn [option_map] in Pw. injection Pw as Pw.
      destruct (nth_error (offset_reference_pixels FO c1 sp) i); [|reflexivity].
      destruct (nth_error (k_v_pixels FO c1 sp) i); [|reflexivity].
      destruct (nth_error (k_ta_pixels FO c1 sp) i); [|reflexivity].
      destruct (nth_error (alpha_pixels FO c1 sp) i); [|reflexivity].
      destruct (nth_error (access_pattern_compensation_pixels FO c1 ap1) i); [|reflexivity].
      rewrite Pw. reflexivity.
    + repeat match goal with |- context [match ?x with _ => _ end] => destruct x end; reflexivity.
Qed.

Section Rel.
Context {FO : FloatOps} (p : profile) {B ER EW : Type} (bs : bus B ER EW) (Hbs : fills bs) (lay : layout).
Notation driver := (driver (FO := FO) (B := B) (ER := ER) (EW := EW)).
Notation W := (world B ER EW).
Notation err := (error ER EW).
Notation m := (m (FO := FO) (B := B) (ER := ER) (EW := EW)).
Notation op := (op (FO := FO)).
Implicit Types d : driver.

(** Worlds that differ only in what failed reads left in the buffer. *)
Definition like (w1 w2 : W) : Prop :=
  dev w2 = dev w1 /\ map request_of (trace w2) = map request_of (trace w1).
Definition rel d1 d2 : Prop :=
  like (d_bus d1) (d_bus d2) /\ Forall byte (d_pixel_buffer d1) /\ wf d1 lay /\
  exists buf, length buf = length (d_pixel_buffer d1) /\ d2 = with_bus (with_buffer d1 buf) (d_bus d2).

Lemma rel_alike d1 d2 : rel d1 d2 -> alike d1 d2.
Proof.
  intros ([Hd Ht] & _ & _ & buf & Hl & E). unfold alike. rewrite E.
  cbn [d_bus with_bus] in *. split; [rewrite E in Hd; exact Hd|]. split; [rewrite E in Ht; exact Ht|].
  split; [exact Hl|]. repeat split.
Qed.
Lemma alike_rel d1 d2 : alike d1 d2 -> Forall byte (d_pixel_buffer d1) -> wf d1 lay -> rel d1 d2.
Proof.
  intros (E1 & E2 & E3 & E4 & E5 & E6 & E7 & E8 & E9 & E10 & E11) Hb Hw.
  split; [split; assumption|]. split; [exact Hb|]. split; [exact Hw|]. exists (d_pixel_buffer d2). split; [exact E3|].
  destruct d1, d2. cbn in *. subst. reflexivity.
Qed.

Lemma like_read a wb buf1 buf2 (w1 w2 : W) : length buf2 = length buf1 -> like w1 w2 ->
  let '(data1, e1, w1') := write_read bs a wb buf1 w1 in
  let '(data2, e2, w2') := write_read bs a wb buf2 w2 in
  e2 = e1 /\ like w1' w2' /\ length data2 = length data1 /\ length data1 = length buf1 /\
  trace w1' = trace w1 ++ [EvRead a wb data1 e1] /\ trace w2' = trace w2 ++ [EvRead a wb data2 e2] /\
  (e1 = None -> data2 = data1).
Proof.
  intros Hl [Hd Ht]. unfold write_read. pose proof (Hbs (dev w1) a wb buf1 buf2 (eq_sym Hl)) as H. rewrite Hd.
  destruct (dev_write_read bs (dev w1) a wb buf1) as [[b1 out1] e1].
  destruct (dev_write_read bs (dev w1) a wb buf2) as [[b2 out2] e2].
  destruct H as (<- & <- & H).
  assert (Cl : forall buf out, length (clip buf out) = length buf).
  { intros buf out. unfold clip. rewrite firstn_length, app_length, map_length, skipn_length. lia. }
  split; [reflexivity|]. cbn [trace dev]. split; [|split; [rewrite !Cl; exact Hl|split; [apply Cl|split; [reflexivity|split; [reflexivity|]]]]].
  - split; [reflexivity|]. cbn [trace]. rewrite !map_app, Ht. cbn [map request_of]. rewrite !Cl, Hl. reflexivity.
  - intros He. destruct (H He) as [<- Ho]. unfold clip. rewrite Hl, !skipn_all2, !app_nil_r by lia.
    reflexivity.
Qed.
Lemma like_read_same a wb buf (w1 w2 : W) : like w1 w2 ->
  let '(data1, e1, w1') := write_read bs a wb buf w1 in
  let '(data2, e2, w2') := write_read bs a wb buf w2 in
  data2 = data1 /\ e2 = e1 /\ like w1' w2' /\
  trace w1' = trace w1 ++ [EvRead a wb data1 e1] /\ trace w2' = trace w2 ++ [EvRead a wb data1 e1].
Proof.
  intros [Hd Ht]. unfold write_read. rewrite Hd.
  destruct (dev_write_read bs (dev w1) a wb buf) as [[b1 out1] e1]. cbn [trace].
  split; [reflexivity|]. split; [reflexivity|]. split; [|split; reflexivity].
  split; [reflexivity|]. cbn [trace]. rewrite !map_app, Ht. reflexivity.
Qed.
Lemma like_write a bytes (w1 w2 : W) : like w1 w2 ->
  let '(e1, w1') := bus_write bs a bytes w1 in
  let '(e2, w2') := bus_write bs a bytes w2 in e2 = e1 /\ like w1' w2'.
Proof.
  intros [Hd Ht]. unfold bus_write. rewrite Hd. destruct (dev_write bs (dev w1) a bytes) as [b e].
  split; [reflexivity|]. split; [reflexivity|]. cbn [trace]. rewrite !map_app, Ht. reflexivity.
Qed.

(** ** Methods *)
Definition blind {A} (M : driver -> A * driver) : Prop :=
  forall d1 d2, rel d1 d2 -> fst (M d2) = fst (M d1) /\ rel (snd (M d1)) (snd (M d2)).

Lemma blind_ret {A} (x : A) : blind (fun d => (x, d)).
Proof. intros d1 d2 H. split; [reflexivity|exact H]. Qed.
Lemma blind_seq {X Y} (M : driver -> X * driver) (K : X -> driver -> Y * driver) :
  blind M -> (forall x, blind (K x)) -> blind (fun d => let '(x, d1) := M d in K x d1).
Proof.
  intros HM HK d1 d2 H. specialize (HM d1 d2 H). destruct (M d1) as [x1 e1], (M d2) as [x2 e2].
  cbn [fst snd] in HM. destruct HM as [-> HM]. apply HK, HM.
Qed.
Lemma blind_bind {A A'} (M : driver -> m A) (K : A -> driver -> m A') :
  blind M -> (forall v, blind (K v)) -> blind (fun d => bindS (M d) K).
Proof.
  intros HM HK d1 d2 H. specialize (HM d1 d2 H). unfold bindS. destruct (M d1) as [x1 e1], (M d2) as [x2 e2].
  cbn [fst snd] in HM. destruct HM as [-> HM]. destruct x1 as [v|e| |]; [apply HK, HM|split; [reflexivity|exact HM]..].
Qed.
Lemma rel_bus d1 d2 w1 w2 : rel d1 d2 -> like w1 w2 -> rel (with_bus d1 w1) (with_bus d2 w2).
Proof.
  intros (_ & Hb & Hw & buf & Hl & E) Hk. split; [exact Hk|]. split; [exact Hb|]. split; [exact Hw|].
  exists buf. split; [exact Hl|]. rewrite E. reflexivity.
Qed.
Lemma rel_fields d1 d2 : rel d1 d2 ->
  d_address d2 = d_address d1 /\ d_calibration d2 = d_calibration d1 /\
  d_resolution_correction d2 = d_resolution_correction d1 /\ d_ambient d2 = d_ambient d1 /\
  d_emissivity d2 = d_emissivity d1 /\ d_access_pattern d2 = d_access_pattern d1 /\
  d_reflected d2 = d_reflected d1 /\ d_height d2 = d_height d1.
Proof. intros (_ & _ & _ & buf & _ & ->). repeat split. Qed.

Lemma blind_reg reg : blind (fun d => let '(r, w') := read_register bs (d_address d) reg (d_bus d) in (r, with_bus d w')).
Proof.
  intros d1 d2 H. destruct (rel_fields d1 d2 H) as (-> & _). unfold read_register.
  pose proof (like_read_same (d_address d1) (to_be_bytes reg) [0; 0] _ _ (proj1 H)) as L.
  destruct (write_read bs (d_address d1) (to_be_bytes reg) [0; 0] (d_bus d1)) as [[data1 e1] w1].
  destruct (write_read bs (d_address d1) (to_be_bytes reg) [0; 0] (d_bus d2)) as [[data2 e2] w2].
  destruct L as (-> & -> & Hk & _). destruct e1; (split; [reflexivity|apply rel_bus; assumption]).
Qed.
Lemma blind_wreg reg v : blind (fun d => let '(r, w') := write_register bs (d_address d) reg v (d_bus d) in (r, with_bus d w')).
Proof.
  intros d1 d2 H. destruct (rel_fields d1 d2 H) as (-> & _). unfold write_register.
  pose proof (like_write (d_address d1) (to_be_bytes reg ++ to_be_bytes v) _ _ (proj1 H)) as L.
  destruct (bus_write bs (d_address d1) (to_be_bytes reg ++ to_be_bytes v) (d_bus d1)) as [e1 w1].
  destruct (bus_write bs (d_address d1) (to_be_bytes reg ++ to_be_bytes v) (d_bus d2)) as [e2 w2].
  destruct L as (-> & Hk). destruct e1; (split; [reflexivity|apply rel_bus; assumption]).
Qed.
Lemma blind_status : blind (status_register_ bs).
Proof. exact (blind_reg STATUS_ADDRESS). Qed.
Lemma blind_write_status v : blind (set_status_register bs v).
Proof. exact (blind_wreg STATUS_ADDRESS v). Qed.
Lemma rel_cache d1 d2 rc ap : rel d1 d2 -> rel (with_cache d1 rc ap) (with_cache d2 rc ap).
Proof.
  intros (Hk & Hb & Hw & buf & Hl & E). split; [exact Hk|]. split; [exact Hb|]. split; [exact Hw|].
  exists buf. split; [exact Hl|]. rewrite E. reflexivity.
Qed.
Lemma blind_update v : blind (update_control_register v).
Proof.
  intros d1 d2 H. unfold update_control_register. destruct (rel_fields d1 d2 H) as (_ & -> & _ & _ & _ & -> & _).
  destruct (ctl_resolution v) as [r|e| |]; [|split; [reflexivity|exact H]..].
  destruct (ctl_access_pattern v) as [ap|e| |]; (split; [reflexivity|]); cbn [snd]; repeat apply rel_cache; exact H.
Qed.
Lemma blind_ext {A} (M M' : driver -> A * driver) : (forall d, M d = M' d) -> blind M -> blind M'.
Proof. intros E H d1 d2 Hr. rewrite <- !E. apply H, Hr. Qed.
Lemma blind_control : blind (control_register_ bs).
Proof.
  apply (blind_ext (fun d => bindS (let '(r, w') := read_register bs (d_address d) CONTROL_ADDRESS (d_bus d) in (r, with_bus d w'))
    (fun v d => bindS (update_control_register v d) (fun _ d => (Ok v, d))))).
  - intros d. unfold control_register_. destruct (read_register bs (d_address d) CONTROL_ADDRESS (d_bus d)). reflexivity.
  - apply blind_bind; [exact (blind_reg CONTROL_ADDRESS)|]. intros v.
    apply (blind_bind (update_control_register v) (fun _ d => (Ok v, d))); [apply blind_update|intros _; apply blind_ret].
Qed.
Lemma blind_write_control v : blind (set_control_register bs v).
Proof.
  apply (blind_bind (update_control_register v) (fun _ d =>
    let '(r, w') := write_register bs (d_address d) CONTROL_ADDRESS v (d_bus d) in (r, with_bus d w'))); [apply blind_update|].
  intros _. apply blind_wreg.
Qed.
Lemma blind_status_field {V} getter setter eqb (v : V) : blind (set_status_field bs getter setter eqb v).
Proof.
  apply (blind_bind (status_register_ bs) (fun current d => bindS (getter current, d) (fun old d =>
      if negb (eqb old v) then set_status_register bs (setter current v) d else (Ok tt, d)))); [apply blind_status|].
  intros w. apply (blind_bind (fun d => (getter w, d)) (fun old d =>
    if negb (eqb old v) then set_status_register bs (setter w v) d else (Ok tt, d))); [apply blind_ret|].
  intros old. destruct (negb (eqb old v)); [apply blind_write_status|apply blind_ret].
Qed.
Lemma blind_control_field {V} getter setter eqb (v : V) : blind (set_control_field bs getter setter eqb v).
Proof.
  apply (blind_bind (control_register_ bs) (fun current d => bindS (getter current, d) (fun old d =>
      if negb (eqb old v) then set_control_register bs (setter current v) d else (Ok tt, d)))); [apply blind_control|].
  intros w. apply (blind_bind (fun d => (getter w, d)) (fun old d =>
    if negb (eqb old v) then set_control_register bs (setter w v) d else (Ok tt, d))); [apply blind_ret|].
  intros old. destruct (negb (eqb old v)); [apply blind_write_control|apply blind_ret].
Qed.
Lemma blind_poll fuel : forall status, blind (poll bs fuel status).
Proof.
  induction fuel as [|fuel IH]; intros status d1 d2 H; cbn [poll]; destruct (new_data status); try (split; [reflexivity|exact H]).
  revert d1 d2 H. apply (blind_bind (status_register_ bs) (fun s d => poll bs fuel s d)); [apply blind_status|exact IH].
Qed.
Lemma blind_synchronize fuel : blind (synchronize bs fuel).
Proof.
  apply (blind_bind (status_register_ bs) (fun status d =>
    bindS (set_status_register bs (set_start_measurement (set_overwrite_enabled (reset_new_data status) true)) d)
      (fun _ d => poll bs fuel (set_start_measurement (set_overwrite_enabled (reset_new_data status) true)) d))); [apply blind_status|].
  intros s. apply (blind_bind (set_status_register bs _) (fun _ => poll bs fuel _)); [apply blind_write_status|].
  intros _. apply blind_poll.
Qed.
Lemma blind_status_get {A} (f : Z -> res err A) : blind (fun d => bindS (status_register_ bs d) (fun r d => pure (f r) d)).
Proof. apply blind_bind; [apply blind_status|]. intros v. apply blind_ret. Qed.
Lemma blind_control_get {A} (f : Z -> res err A) : blind (fun d => bindS (control_register_ bs d) (fun r d => pure (f r) d)).
Proof. apply blind_bind; [apply blind_control|]. intros v. apply blind_ret. Qed.

(** ** Frames *)
Lemma like_ram_value a addr (w1 w2 : W) : like w1 w2 ->
  let '(r1, w1') := read_ram_value bs a addr w1 in
  let '(r2, w2') := read_ram_value bs a addr w2 in
  r2 = r1 /\ like w1' w2' /\ exists evs, trace w1' = trace w1 ++ evs /\ trace w2' = trace w2 ++ evs.
Proof.
  intros H. unfold read_ram_value. pose proof (like_read_same a (to_be_bytes addr) [0; 0] _ _ H) as L.
  destruct (write_read bs a (to_be_bytes addr) [0; 0] w1) as [[data1 e1] w1'].
  destruct (write_read bs a (to_be_bytes addr) [0; 0] w2) as [[data2 e2] w2'].
  destruct L as (-> & -> & Hk & T1 & T2). destruct e1; (split; [reflexivity|split; [exact Hk|eauto]]).
Qed.
Lemma like_bindS {A A' E} (M1 M2 : res E A * W) (k1 k2 : A -> W -> res E A' * W) (t1 t2 : list (event ER EW)) :
  (let '(r1, w1') := M1 in let '(r2, w2') := M2 in
     r2 = r1 /\ like w1' w2' /\ exists evs, trace w1' = t1 ++ evs /\ trace w2' = t2 ++ evs) ->
  (forall v w1 w2, like w1 w2 ->
     let '(r1, w1') := k1 v w1 in let '(r2, w2') := k2 v w2 in
     r2 = r1 /\ like w1' w2' /\ exists evs, trace w1' = trace w1 ++ evs /\ trace w2' = trace w2 ++ evs) ->
  let '(r1, w1') := bindS M1 k1 in let '(r2, w2') := bindS M2 k2 in
  r2 = r1 /\ like w1' w2' /\ exists evs, trace w1' = t1 ++ evs /\ trace w2' = t2 ++ evs.
Proof.
  intros H Hk. unfold bindS. destruct M1 as [r1 w1], M2 as [r2 w2]. destruct H as (-> & Hl & evs & T1 & T2).
  destruct r1 as [v|e| |]; try (split; [reflexivity|split; [exact Hl|eauto]]).
  specialize (Hk v w1 w2 Hl). destruct (k1 v w1) as [q1 u1], (k2 v w2) as [q2 u2].
  destruct Hk as (-> & Hl' & evs' & T1' & T2'). split; [reflexivity|]. split; [exact Hl'|].
  exists (evs ++ evs'). rewrite T1', T2', T1, T2, <- !app_assoc. auto.
Qed.
Lemma like_ram_data (c : camera FO) a sp (w1 w2 : W) : like w1 w2 ->
  let '(r1, w1') := ram_data_from_i2c bs c a sp w1 in
  let '(r2, w2') := ram_data_from_i2c bs c a sp w2 in
  r2 = r1 /\ like w1' w2' /\ exists evs, trace w1' = trace w1 ++ evs /\ trace w2' = trace w2 ++ evs.
Proof.
  intros H. unfold ram_data_from_i2c.
  apply like_bindS; [apply like_ram_value, H|clear H w1 w2; intros v1 w1 w2 H].
  apply like_bindS; [apply like_ram_value, H|clear H w1 w2; intros v2 w1 w2 H].
  apply like_bindS; [apply like_ram_value, H|clear H w1 w2; intros v3 w1 w2 H].
  apply like_bindS; [apply like_ram_value, H|clear H w1 w2; intros v4 w1 w2 H].
  apply like_bindS; [apply like_ram_value, H|clear H w1 w2; intros v5 w1 w2 H].
  split; [reflexivity|]. split; [exact H|]. exists []. rewrite !app_nil_r. auto.
Qed.

Lemma splice_length buf off new : (off + length new <= length buf)%nat -> length (splice buf off new) = length buf.
Proof. intros H. unfold splice. rewrite !app_length, firstn_length, skipn_length. lia. Qed.

Lemma like_ranges a rs : forall buf1 buf2 (w1 w2 : W), length buf2 = length buf1 -> like w1 w2 ->
  let '(r1, buf1', w1') := read_ranges bs a rs buf1 w1 in
  let '(r2, buf2', w2') := read_ranges bs a rs buf2 w2 in
  r2 = r1 /\ like w1' w2' /\ length buf2' = length buf1' /\
  (r1 = Ok tt -> exists evs, trace w1' = trace w1 ++ evs /\ trace w2' = trace w2 ++ evs).
Proof.
  induction rs as [|r rs IH]; intros buf1 buf2 w1 w2 Hl Hk; cbn [read_ranges].
  - split; [reflexivity|]. split; [exact Hk|]. split; [exact Hl|]. intros _. exists []. rewrite !app_nil_r. auto.
  - rewrite Hl. destruct (Nat.ltb_spec (length buf1) (buffer_offset r + range_length r)) as [_|Hle].
    + split; [reflexivity|]. split; [exact Hk|]. split; [exact Hl|]. discriminate.
    + pose proof (like_read a (to_be_bytes (start_address r)) (firstn (range_length r) (skipn (buffer_offset r) buf1))
        (firstn (range_length r) (skipn (buffer_offset r) buf2)) w1 w2) as L.
      destruct (write_read bs a (to_be_bytes (start_address r)) (firstn (range_length r) (skipn (buffer_offset r) buf1)) w1) as [[data1 e1] w1'].
      destruct (write_read bs a (to_be_bytes (start_address r)) (firstn (range_length r) (skipn (buffer_offset r) buf2)) w2) as [[data2 e2] w2'].
      destruct L as (-> & Hk' & Hl2 & Hl1 & T1 & T2 & Hd); [rewrite !firstn_length, !skipn_length, Hl; reflexivity|exact Hk|].
      rewrite firstn_length, skipn_length in Hl1.
      assert (Hs : length (splice buf2 (buffer_offset r) data2) = length (splice buf1 (buffer_offset r) data1)).
      { rewrite !splice_length; [exact Hl|lia|lia]. }
      destruct e1 as [e1|].
      * split; [reflexivity|]. split; [exact Hk'|]. split; [exact Hs|]. discriminate.
      * specialize (Hd eq_refl). subst data2. specialize (IH _ _ _ _ Hs Hk').
        destruct (read_ranges bs a rs (splice buf1 (buffer_offset r) data1) w1') as [[r1 buf1'] u1].
        destruct (read_ranges bs a rs (splice buf2 (buffer_offset r) data1) w2') as [[r2 buf2'] u2].
        destruct IH as (-> & Hk2 & Hl' & Hev). split; [reflexivity|]. split; [exact Hk2|]. split; [exact Hl'|].
        intros Hr. destruct (Hev Hr) as (evs & E1 & E2). rewrite E1, E2, T1, T2, <- !app_assoc. eauto.
Qed.

Lemma like_read_ram (c : camera FO) height a ap sp buf1 buf2 (w1 w2 : W) : length buf2 = length buf1 -> like w1 w2 ->
  let '(r1, buf1', w1') := read_ram bs c height a ap sp buf1 w1 in
  let '(r2, buf2', w2') := read_ram bs c height a ap sp buf2 w2 in
  r2 = r1 /\ like w1' w2' /\ length buf2' = length buf1' /\
  (forall ram, r1 = Ok ram -> exists evs, trace w1' = trace w1 ++ evs /\ trace w2' = trace w2 ++ evs).
Proof.
  intros Hl Hk. unfold read_ram. destruct (Nat.ltb height (length (pixel_ranges _ c sp ap))).
  { split; [reflexivity|]. split; [exact Hk|]. split; [exact Hl|]. discriminate. }
  pose proof (like_ranges a (pixel_ranges _ c sp ap) buf1 buf2 w1 w2 Hl Hk) as L.
  destruct (read_ranges bs a (pixel_ranges _ c sp ap) buf1 w1) as [[r1 buf1'] u1].
  destruct (read_ranges bs a (pixel_ranges _ c sp ap) buf2 w2) as [[r2 buf2'] u2].
  destruct L as (-> & Hk' & Hl' & Hev). destruct r1 as [[]|e| |].
  - destruct (Hev eq_refl) as (evs & T1 & T2). pose proof (like_ram_data c a sp u1 u2 Hk') as L.
    destruct (ram_data_from_i2c bs c a sp u1) as [q1 v1], (ram_data_from_i2c bs c a sp u2) as [q2 v2].
    destruct L as (-> & Hk2 & evs' & T1' & T2'). split; [reflexivity|]. split; [exact Hk2|]. split; [exact Hl'|].
    intros _ _. exists (evs ++ evs'). rewrite T1', T2', T1, T2, <- !app_assoc. auto.
  - split; [reflexivity|]. split; [exact Hk'|]. split; [exact Hl'|]. discriminate.
  - split; [reflexivity|]. split; [exact Hk'|]. split; [exact Hl'|]. discriminate.
  - split; [reflexivity|]. split; [exact Hk'|]. split; [exact Hl'|]. discriminate.
Qed.

Lemma rel_ambient d1 d2 t : rel d1 d2 -> rel (with_ambient d1 t) (with_ambient d2 t).
Proof.
  intros (Hk & Hb & Hw & buf & Hl & E). split; [exact Hk|]. split; [exact Hb|]. split; [exact Hw|].
  exists buf. split; [exact Hl|]. rewrite E. reflexivity.
Qed.

Lemma drv_frame sp d1 d2 : rel d1 d2 ->
  let '(r1, d1') := drv_read_ram bs sp d1 in
  let '(r2, d2') := drv_read_ram bs sp d2 in
  r2 = r1 /\ rel d1' d2' /\
  (forall ram raw dest, r1 = Ok ram ->
     calc (ER := ER) (EW := EW) p raw d2' ram sp dest = calc (ER := ER) (EW := EW) p raw d1' ram sp dest).
Proof.
  intros H. pose proof (rel_fields d1 d2 H) as (F1 & F2 & F3 & F4 & F5 & F6 & F7 & F8).
  destruct H as (Hk & Hb & Hw & buf & Hl & E). unfold drv_read_ram. rewrite F1, F2, F6, F8.
  assert (Eb : d_pixel_buffer d2 = buf) by (rewrite E; reflexivity). rewrite Eb.
  pose proof (like_read_ram (cam _ (d_calibration d1)) (d_height d1) (d_address d1) (d_access_pattern d1) sp
    (d_pixel_buffer d1) buf (d_bus d1) (d_bus d2) Hl Hk) as L.
  destruct (read_ram bs (cam _ (d_calibration d1)) (d_height d1) (d_address d1) (d_access_pattern d1) sp (d_pixel_buffer d1) (d_bus d1))
    as [[r1 buf1'] w1] eqn:R1.
  destruct (read_ram bs (cam _ (d_calibration d1)) (d_height d1) (d_address d1) (d_access_pattern d1) sp buf (d_bus d2))
    as [[r2 buf2'] w2] eqn:R2.
  destruct L as (-> & Hk' & Hl' & Hev).
  destruct (read_ram_bytes bs _ _ _ _ _ _ _ _ _ _ Hb R1) as (Hb' & _).
  split; [reflexivity|]. split.
  - split; [exact Hk'|]. split; [exact Hb'|]. split; [exact Hw|]. exists buf2'. split; [exact Hl'|]. rewrite E. reflexivity.
  - intros ram raw dest ->. destruct Hw as [Hd Hh].
    destruct (frame_shows_some_memory bs _ lay _ _ _ _ _ _ _ _ _ Hd Hh Hb R1) as (mem & evs & Hm & T1 & Hs).
    destruct (Hev ram eq_refl) as (evs' & T1' & T2).
    assert (evs' = evs) as -> by (apply (app_inv_head (trace (d_bus d1))); congruence).
    destruct (read_ram_shows bs mem _ lay _ _ _ _ _ _ _ _ _ _ Hd Hh Hm R1 T1 Hs) as (_ & P1 & _).
    destruct (read_ram_shows bs mem _ lay _ _ _ _ _ _ _ _ _ _ Hd Hh Hm R2 T2 Hs) as (_ & P2 & _).
    apply calc_ext; try (cbn; assumption); try reflexivity.
    cbn [d_calibration with_bus with_buffer d_pixel_buffer d_access_pattern]. intros i Hi.
    rewrite (mask_doc _ lay) in Hi by exact Hd.
    destruct (measured_transferred _ lay sp _ i Hd Hi) as [Hi' Htr].
    assert (Hwd : (0 < lay_width lay)%nat) by (destruct Hd; cbn; lia).
    specialize (P1 (i / lay_width lay)%nat (i mod lay_width lay)%nat).
    specialize (P2 (i / lay_width lay)%nat (i mod lay_width lay)%nat).
    cbn zeta in P1, P2. rewrite Htr in P1, P2.
    replace (i / lay_width lay * lay_width lay + i mod lay_width lay)%nat with i in P1, P2
      by (rewrite (Nat.mul_comm (i / lay_width lay)), <- Nat.div_mod by lia; reflexivity).
    assert (B1 : (i / lay_width lay < lay_height lay)%nat) by (apply Nat.div_lt_upper_bound; [lia|]; unfold lay_pixels in Hi'; lia).
    assert (B2 : (i mod lay_width lay < lay_width lay)%nat) by (apply Nat.mod_upper_bound; lia).
    rewrite (P1 B1 B2), (P2 B1 B2). reflexivity.
Qed.

(** ** Calls *)
Notation F := (F FO).
Definition view {A} (x : mi (FO := FO) (B := B) (ER := ER) (EW := EW) A) : (res err A * list F) * driver :=
  let '(r, d, dest) := x in ((r, dest), d).

Lemma blind_frame {X} raw sp dest (K : F -> list F -> driver -> X * driver) (no : res err unit -> X) :
  (forall t dest', blind (K t dest')) ->
  blind (fun d => let '(r, d1) := drv_read_ram bs sp d in
    match r with
    | Ok ram => match calc (ER := ER) (EW := EW) p raw d1 ram sp dest with
                | Ok (t, dest') => K t dest' (with_ambient d1 (Some t))
                | Err e => (no (Err e), d1) | Panic => (no Panic, d1) | Diverge => (no Diverge, d1)
                end
    | Err e => (no (Err e), d1) | Panic => (no Panic, d1) | Diverge => (no Diverge, d1)
    end).
Proof.
  intros HK d1 d2 H. pose proof (drv_frame sp d1 d2 H) as L.
  destruct (drv_read_ram bs sp d1) as [r1 d1'], (drv_read_ram bs sp d2) as [r2 d2'].
  destruct L as (-> & Hr & Hc). destruct r1 as [ram|e| |]; try (split; [reflexivity|exact Hr]).
  rewrite (Hc ram raw dest eq_refl).
  destruct (calc p raw d1' ram sp dest) as [[t dest']|e| |]; try (split; [reflexivity|exact Hr]).
  apply HK, rel_ambient, Hr.
Qed.

Definition failed_with {A} (dest : list F) (r : res err unit) : res err A * list F :=
  (match r with Err e => Err e | Diverge => Diverge | _ => Panic end, dest).
Lemma blind_gen raw sp dest : blind (fun d => view (gen p bs raw sp dest d)).
Proof.
  eapply blind_ext; [|apply (blind_frame raw sp dest (fun t dest' d => ((Ok tt, dest'), d)) (failed_with (A := unit) dest))].
  - intros d. cbv beta. destruct raw; cbn [gen calc];
      unfold generate_raw_image_subpage_to, generate_image_subpage_to, store_image, fail_image, failed_with, view;
      destruct (drv_read_ram bs sp d) as [[ram|e| |] d1]; try reflexivity.
    + destruct (calc_ir p d1 ram sp dest) as [[t dest']|e| |]; reflexivity.
    + destruct (calc_temperatures p d1 ram sp dest) as [[t dest']|e| |]; reflexivity.
  - intros t dest'. apply blind_ret.
Qed.

Lemma blind_last : blind (last_measured_subpage bs).
Proof. exact (blind_status_get last_updated_subpage). Qed.
Lemma blind_image_to dest : blind (fun d => view (generate_image_to p bs dest d)).
Proof.
  eapply blind_ext; [|apply (blind_seq (last_measured_subpage bs) (fun r => match r with
    | Ok sp => fun d => view (gen p bs false sp dest d)
    | Err e => fun d => ((Err e, dest), d)
    | Panic => fun d => ((Panic, dest), d)
    | Diverge => fun d => ((Diverge, dest), d) end) blind_last)].
  - intros d. cbv beta. unfold generate_image_to. destruct (last_measured_subpage bs d) as [[sp|e| |] d1]; reflexivity.
  - intros [sp|e| |]; [apply blind_gen|apply blind_ret..].
Qed.
Lemma blind_if_ready dest : blind (fun d => view (generate_image_if_ready p bs dest d)).
Proof.
  eapply blind_ext; [|apply (blind_seq (status_register_ bs) (fun r => match r with
    | Ok status => if new_data status then
        match last_updated_subpage (E := err) status with
        | Ok sp => fun d => let '(r, d1) := drv_read_ram bs sp d in
            match r with
            | Ok ram => match calc (ER := ER) (EW := EW) p false d1 ram sp dest with
                | Ok (t, dest') => let '(r3, d2) := set_status_register bs (reset_new_data status) (with_ambient d1 (Some t)) in
                                   ((do _ <- r3; Ok true, dest'), d2)
                | Err e => (failed_with (A := bool) dest (Err e), d1) | Panic => (failed_with dest Panic, d1) | Diverge => (failed_with dest Diverge, d1)
                end
            | Err e => (failed_with dest (Err e), d1) | Panic => (failed_with dest Panic, d1) | Diverge => (failed_with dest Diverge, d1)
            end
        | Err e => fun d => ((Err e, dest), d)
        | Panic => fun d => ((Panic, dest), d)
        | Diverge => fun d => ((Diverge, dest), d)
        end
        else fun d => ((Ok false, dest), d)
    | Err e => fun d => ((Err e, dest), d)
    | Panic => fun d => ((Panic, dest), d)
    | Diverge => fun d => ((Diverge, dest), d) end) blind_status)].
  - intros d. cbv beta. unfold generate_image_if_ready, fail_image, store_image, failed_with, view.
    destruct (status_register_ bs d) as [[status|e| |] d1]; [|reflexivity..].
    destruct (new_data status); [|reflexivity].
    destruct (last_updated_subpage status) as [sp|e| |]; [|reflexivity..].
    destruct (drv_read_ram bs sp d1) as [[ram|e| |] d2]; [|reflexivity..]. cbn [calc].
    destruct (calc_temperatures p d2 ram sp dest) as [[t dest']|e| |]; [|reflexivity..].
    destruct (set_status_register bs (reset_new_data status) (with_ambient d2 (Some t))) as [r3 d3]. reflexivity.
  - intros [status|e| |]; [|apply blind_ret..]. destruct (new_data status); [|apply blind_ret].
    destruct (last_updated_subpage status) as [sp|e| |]; [|apply blind_ret..].
    apply (blind_frame false sp dest (fun t dest' d =>
      let '(r3, d2) := set_status_register bs (reset_new_data status) d in ((do _ <- r3; Ok true, dest'), d2)) (failed_with (A := bool) dest)).
    intros t dest'. apply (blind_seq (set_status_register bs (reset_new_data status)) (fun r3 d => ((do _ <- r3; Ok true, dest'), d)));
      [apply blind_write_status|intros r3; apply blind_ret].
Qed.

Lemma blind_lift {A} (f : A -> out) (M : driver -> m A) : blind M -> blind (fun d => view (lift f (M d))).
Proof.
  intros H. eapply blind_ext; [|apply (blind_seq M (fun r d => ((do a <- r; Ok (f a), []), d)) H); intros r; apply blind_ret].
  intros d. cbv beta. destruct (M d) as [r d1]. reflexivity.
Qed.
Lemma blind_lifti {A} (f : A -> out) (M : driver -> mi (FO := FO) (B := B) (ER := ER) (EW := EW) A) :
  blind (fun d => view (M d)) -> blind (fun d => view (lifti f (M d))).
Proof.
  intros H. eapply blind_ext; [|apply (blind_seq _ (fun x d => ((do a <- fst x; Ok (f a), snd x), d)) H); intros x; apply blind_ret].
  intros d. cbv beta. destruct (M d) as [[r d1] dest]. reflexivity.
Qed.
Lemma blind_set {A} (x : A) (g : driver -> driver) :
  (forall d buf w, g (with_bus (with_buffer d buf) w) = with_bus (with_buffer (g d) buf) w) ->
  (forall d, d_bus (g d) = d_bus d /\ d_pixel_buffer (g d) = d_pixel_buffer d /\ d_calibration (g d) = d_calibration d /\ d_height (g d) = d_height d) ->
  blind (fun d => (x, g d)).
Proof.
  intros Hg Hk d1 d2 (L & Hb & Hw & buf & Hl & E). split; [reflexivity|]. cbn [snd].
  destruct (Hk d1) as (K1 & K2 & K3 & K4). destruct (Hk d2) as (K5 & _).
  split; [rewrite K1, K5; exact L|]. split; [rewrite K2; exact Hb|].
  split; [unfold wf; rewrite K3, K4; exact Hw|]. exists buf. split; [rewrite K2; exact Hl|].
  rewrite K5. rewrite E at 1. apply Hg.
Qed.
Lemma blind_look {A X} (g : driver -> A) (f : A -> X) : (forall d buf w, g (with_bus (with_buffer d buf) w) = g d) -> blind (fun d => (f (g d), d)).
Proof.
  intros Hg d1 d2 H. split; [|exact H]. destruct H as (_ & _ & _ & buf & _ & E). cbn [fst]. rewrite E, Hg. reflexivity.
Qed.

Lemma blind_step (o : op) : blind (fun d => view (step p bs d o)).
Proof.
  assert (Get : forall A (f : A -> out) (g : Z -> res err A),
    blind (fun d => view (lift f (bindS (control_register_ bs d) (fun r d => (g r, d)))))).
  { intros A f g. apply (blind_lift f (fun d => bindS (control_register_ bs d) (fun r d => (g r, d)))), (blind_control_get g). }
  destruct o; cbn [step].
  - apply blind_lift, blind_last.
  - apply (blind_lift OutOptSubpage (data_available bs)). apply blind_bind; [apply blind_status|].
    intros v. destruct (new_data v); apply blind_ret.
  - apply (blind_lift U (reset_data_available bs)). apply blind_bind; [apply blind_status|].
    intros v. apply blind_write_status.
  - apply (blind_lift OutBool (drv_overwrite_enabled bs)). apply blind_bind; [apply blind_status|]. intros v. apply blind_ret.
  - apply (blind_lift U (drv_set_overwrite_enabled bs v)), blind_status_field.
  - apply Get.
  - apply (blind_lift U (drv_set_use_subpages bs v)), blind_control_field.
  - apply Get.
  - apply (blind_lift U (drv_set_data_hold bs v)), blind_control_field.
  - apply Get.
  - apply (blind_lift U (drv_set_subpage_repeat bs v)), blind_control_field.
  - apply Get.
  - apply (blind_lift U (drv_set_subpage bs v)), blind_control_field.
  - apply Get.
  - apply (blind_lift U (drv_set_frame_rate bs v)), blind_control_field.
  - apply Get.
  - apply (blind_lift U (drv_set_resolution bs v)), blind_control_field.
  - apply Get.
  - apply (blind_lift U (drv_set_access_pattern bs v)), blind_control_field.
  - apply (blind_look effective_emissivity (fun x => (Ok (OutFloat x), []))). reflexivity.
  - apply (blind_set (Ok OutUnit, []) (override_emissivity v)); intros; try reflexivity. repeat split.
  - apply (blind_set (Ok OutUnit, []) use_default_emissivity); intros; try reflexivity. repeat split.
  - apply (blind_look reflected_temperature (fun x => (Ok (OutOptFloat x), []))). reflexivity.
  - apply (blind_set (Ok OutUnit, []) (set_reflected_temperature v)); intros; try reflexivity. repeat split.
  - apply (blind_look drv_ambient_temperature (fun x => (Ok (OutOptFloat x), []))). reflexivity.
  - apply (blind_look drv_height (fun x => (Ok (OutNat x), []))). reflexivity.
  - apply (blind_look drv_width (fun x => (Ok (OutNat x), []))). reflexivity.
  - apply (blind_lifti U (generate_raw_image_subpage_to p bs sp dest)), (blind_gen true).
  - apply (blind_lifti U (generate_image_subpage_to p bs sp dest)), (blind_gen false).
  - apply (blind_lifti U (generate_image_to p bs dest)), blind_image_to.
  - apply (blind_lifti OutBool (generate_image_if_ready p bs dest)), blind_if_ready.
  - apply (blind_lift U (synchronize bs fuel)), blind_synchronize.
Qed.
End Rel.
