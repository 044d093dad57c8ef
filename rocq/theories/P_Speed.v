(** * Property C102: the frame rates a bus can carry. *)
From Verif Require Import Base FloatOps Register Bus Camera Cam640 Cam641 Calc CalcFacts Driver
  BitFacts SpecRegister RegisterFacts SpecCamera CameraFacts SpecDriver DriverFacts StepFacts Demo
  SpecImage SpecCall ImageFacts Mock SpecMock P_Bus P_Image P_Frames P_ImageDemo TraceFacts SpecHold HoldFacts P_Hold P_Mock
  SpecTraffic P_Traffic P_Calc SpecStream StreamFacts P_Stream SpecStale P_Stale SpecSpeed.

Lemma rate_slow lay ap hz r f gap : 0 <= gap -> lay = layout640 \/ lay = layout641 -> no_sooner hz r f ->
  half_hertz r * (longest lay ap (i2c_timing gap)) < 2 * hz -> slow_enough lay ap (i2c_timing gap) f.
Proof.
  intros Hg Hl Hf H. unfold slow_enough. cbn [pause slack per_byte i2c_timing].
  split; [lia|]. split; [lia|]. split; [lia|]. intros n. specialize (Hf n).
  assert (0 < half_hertz r) by (destruct r; reflexivity). nia.
Qed.

Lemma longest_i2c lay ap gap : lay = layout640 \/ lay = layout641 ->
  longest lay ap (i2c_timing gap) =
    2 * gap + (if Nat.eqb (lay_pixels lay) 768 then match ap with Chess => 14310 | Interleave => 7827 end else 4137).
Proof.
  intros Hl. unfold longest. cbn [pause slack per_byte i2c_timing].
  destruct Hl as [-> | ->].
  - change (Nat.eqb (lay_pixels layout640) 768) with true.
    change (frame_traffic layout640 ap) with (match ap with Chess => (6, 1570) | Interleave => (17, 846) end).
    destruct ap; cbn [fst snd]; lia.
  - change (Nat.eqb (lay_pixels layout641) 768) with false. change (frame_traffic layout641 ap) with (11, 438). cbn [fst snd]. lia.
Qed.

Section Speed.
Context {FO : FloatOps} (p : profile) {B ER EW : Type} (bs : bus B ER EW) (v : view B) (f : film).
Notation driver := (driver (FO := FO) (B := B) (ER := ER) (EW := EW)).
Notation F := (F FO).
Implicit Types d : driver.

(** Cycles of the bus clock from the moment a frame is finished until it has been noticed, read and acknowledged, if the
    program spends no time between calls. *)
Definition cycles lay (ap : access_pattern) : Z :=
  if Nat.eqb (lay_pixels lay) 768 then match ap with Chess => 14310 | Interleave => 7827 end else 4137.

(** Any bus clock [hz], any frame rate, any time the program spends between two calls: if the frame period is longer than
    that and twice the gap, every frame is delivered, once, in order, untorn. *)
Theorem C102_any_bus_speed : forall hz r gap lay d k dest n sights d' dest',
  0 <= gap -> half_hertz r * (2 * gap + cycles lay (d_access_pattern d)) < 2 * hz ->
  usable d lay -> free_running bs (d_address d) v f (i2c_timing gap) -> no_sooner hz r f ->
  (p = Debug -> forall m, -32768 <= signed (film_mem f m (lay_vdd lay)) - v_dd_25 _ (d_calibration d) <= 32767) ->
  caught_up v f (i2c_timing gap) n (dev (d_bus d)) ->
  watch p bs k d dest = (sights, d', dest') ->
  exists n', played (d_calibration d) lay (settings_of d) f n (d_ambient d) dest sights n' (d_ambient d') dest' /\
    (n' <= frames v (dev (d_bus d')) <= S n')%nat.
Proof.
  intros hz r gap lay d k dest n sights d' dest' Hg Hr Hu Hfr Hf Hp Hc H.
  assert (Hl : lay = layout640 \/ lay = layout641) by (destruct Hu as (Hd & _); destruct Hd; auto).
  assert (Hs : slow_enough lay (d_access_pattern d) (i2c_timing gap) f).
  { apply (rate_slow lay _ hz r); [lia|exact Hl|exact Hf|]. rewrite (longest_i2c _ _ _ Hl). exact Hr. }
  destruct (C89_no_frame_lost_repeated_or_torn p bs v f (i2c_timing gap) k lay d dest n sights d' dest'
    (conj Hu (conj Hfr (conj Hs Hp))) Hc H) as (n' & H1 & _ & H2).
  exists n'. split; [exact H1|exact H2].
Qed.

(** Up to the maximum rate of the table, with at most 650 cycles of the bus clock between two calls. *)
Theorem C102_keeps_up : forall s r gap lay d k dest n sights d' dest',
  half_hertz r <= half_hertz (true_maximum s lay (d_access_pattern d)) -> 0 <= gap <= 650 ->
  usable d lay -> free_running bs (d_address d) v f (i2c_timing gap) -> no_sooner (hertz s) r f ->
  (p = Debug -> forall m, -32768 <= signed (film_mem f m (lay_vdd lay)) - v_dd_25 _ (d_calibration d) <= 32767) ->
  caught_up v f (i2c_timing gap) n (dev (d_bus d)) ->
  watch p bs k d dest = (sights, d', dest') ->
  exists n', played (d_calibration d) lay (settings_of d) f n (d_ambient d) dest sights n' (d_ambient d') dest' /\
    (n' <= frames v (dev (d_bus d')) <= S n')%nat.
Proof.
  intros s r gap lay d k dest n sights d' dest' Hr Hg Hu Hfr Hf Hp Hc H.
  assert (Hl : lay = layout640 \/ lay = layout641) by (destruct Hu as (Hd & _); destruct Hd; auto).
  apply (C102_any_bus_speed (hertz s) r gap lay d k dest n sights d' dest'); try assumption; [lia|].
  assert (0 < half_hertz r) by (destruct r; reflexivity).
  unfold true_maximum, documented_maximum in Hr. unfold cycles.
  destruct Hl as [-> | ->];
    [change (Nat.eqb (lay_pixels layout640) 768) with true in *; destruct (d_access_pattern d)
    |change (Nat.eqb (lay_pixels layout641) 768) with false in *];
    destruct s; cbn [hertz half_hertz] in *; nia.
Qed.

Lemma performed_time a k : 0 <= k -> no_faster bs a (clock v) k -> forall evs b b',
  performed bs b evs b' -> Forall (own a) evs ->
  clock v b <= clock v b' /\ (Forall succeeded evs -> clock v b + k * snd (traffic evs) <= clock v b').
Proof.
  intros Hk Hn evs b b' Hp. induction Hp as [b|b i2c wb buf b1 out e evs b2 H Hp IH|b i2c bytes b1 e evs b2 H Hp IH]; intros Ho.
  - unfold traffic. cbn [snd fold_right]. lia.
  - inversion Ho as [|? ? Hx Ho']; subst. cbn [own] in Hx. subst i2c. destruct (IH Ho') as (I1 & I2).
    destruct (nf_read _ _ _ _ Hn _ _ _ _ _ _ H) as (N1 & N2).
    split; [lia|]. intros Hs. inversion Hs as [|? ? Hy Hs']; subst. cbn [succeeded] in Hy. subst e.
    specialize (I2 Hs'). specialize (N2 eq_refl). unfold traffic in *. cbn [snd fold_right wire] in *.
    rewrite clip_length. lia.
  - inversion Ho as [|? ? Hx Ho']; subst. cbn [own] in Hx. subst i2c. destruct (IH Ho') as (I1 & I2).
    destruct (nf_write _ _ _ _ Hn _ _ _ _ H) as (N1 & N2).
    split; [lia|]. intros Hs. inversion Hs as [|? ? Hy Hs']; subst. cbn [succeeded] in Hy. subst e.
    specialize (I2 Hs'). specialize (N2 eq_refl). unfold traffic in *. cbn [snd fold_right wire] in *. lia.
Qed.

Lemma call_time a : forall lay d dest r d' dest', usable d lay -> d_address d = a -> no_faster bs a (clock v) 9 ->
  generate_image_if_ready p bs dest d = (r, d', dest') ->
  usable d' lay /\ d_address d' = a /\ clock v (dev (d_bus d)) <= clock v (dev (d_bus d')) /\
  d_access_pattern d' = d_access_pattern d /\
  (r = Ok true -> clock v (dev (d_bus d)) + 9 * (snd (frame_traffic lay (d_access_pattern d)) + 11) <= clock v (dev (d_bus d'))).
Proof.
  intros lay d dest r d' dest' Hu Ha Hn H.
  assert (Hs : step p bs d (OpGenerateIfReady dest) = (bind r (fun b => Ok (OutBool b)), d', dest')).
  { cbn [step]. rewrite H. reflexivity. }
  destruct (step_transcript p bs lay d _ _ d' dest' Hu Hs) as (evs & Ht & Hp & Hown & Ha').
  rewrite Ha in Hown. destruct (performed_time a 9 ltac:(lia) Hn evs _ _ Hp Hown) as (T1 & T2).
  split; [exact (usable_step p bs lay d _ _ d' dest' Hu Hs)|]. split; [congruence|]. split; [exact T1|].
  split; [apply (C92_unnoticed p bs lay d (OpGenerateIfReady dest) _ d' dest' Hu (fun x => x) Hs)|].
  intros ->. cbn [bind] in Hs.
  pose proof Hu as (Hd & Hh & _).
  destruct (C58_bus_errors_reported FO p B ER EW bs lay d _ _ d' dest' Hd Hh Hs) as (evs2 & Ht2 & Hx).
  rewrite Ht in Ht2. apply app_inv_head in Ht2. subst evs2.
  destruct Hx as [(Hok & _)|[(? & ? & ? & ? & ? & _ & _ & E)|(? & ? & ? & ? & _ & _ & E)]]; try discriminate E.
  assert (Hc : computed (OpGenerateIfReady dest) (Ok (OutBool true) : res (error ER EW) (out (FO := FO)))).
  { split; [discriminate|exact I]. }
  destruct (C84_image_traffic_is_exact p bs lay d _ _ d' dest' Hu Hs Hc) as (evs3 & Ht3 & E3).
  rewrite Ht in Ht3. apply app_inv_head in Ht3. subst evs3. specialize (T2 Hok). rewrite E3 in T2.
  unfold budget, plus2 in T2. cbn [snd fst] in T2. lia.
Qed.

Lemma watch_time a : no_faster bs a (clock v) 9 -> forall k lay d dest sights d' dest', usable d lay -> d_address d = a ->
  watch p bs k d dest = (sights, d', dest') ->
  9 * (snd (frame_traffic lay (d_access_pattern d)) + 11) * deliveries sights <= clock v (dev (d_bus d')) - clock v (dev (d_bus d)).
Proof.
  intros Hn. induction k as [|k IH]; intros lay d dest sights d' dest' Hu Ha H; cbn [watch] in H.
  - apply pair_equal_spec in H. destruct H as [H _]. apply pair_equal_spec in H. destruct H as [<- <-]. cbn [deliveries]. lia.
  - destruct (generate_image_if_ready p bs dest d) as [[r d1] dest1] eqn:E1.
    destruct (watch p bs k d1 dest1) as [[rest d2] dest2] eqn:E2.
    apply pair_equal_spec in H. destruct H as [H _]. apply pair_equal_spec in H. destruct H as [<- <-].
    destruct (call_time a lay d dest r d1 dest1 Hu Ha Hn E1) as (Hu1 & Ha1 & T1 & Hp & T2).
    specialize (IH lay d1 dest1 rest d2 dest2 Hu1 Ha1 E2). rewrite Hp in IH. cbn [deliveries].
    destruct r as [[|]| | |]; [specialize (T2 eq_refl); lia|lia|lia|lia|lia].
Qed.

(** What a bus can carry at all: each delivery takes the time of the bytes it needs, 9 cycles each. *)
Theorem C102_throughput : forall lay d k dest sights d' dest',
  usable d lay -> no_faster bs (d_address d) (clock v) 9 -> watch p bs k d dest = (sights, d', dest') ->
  (if Nat.eqb (lay_pixels lay) 768 then match d_access_pattern d with Chess => 14229 | Interleave => 7713 end else 4041) * deliveries sights
    <= clock v (dev (d_bus d')) - clock v (dev (d_bus d)).
Proof.
  intros lay d k dest sights d' dest' Hu Hn H.
  pose proof (watch_time (d_address d) Hn k lay d dest sights d' dest' Hu eq_refl H) as T.
  unfold frame_traffic in T. destruct (Nat.eqb (lay_pixels lay) 768); [destruct (d_access_pattern d)|]; cbn [snd] in T; lia.
Qed.

Lemma film_span hz r : no_later hz r f -> forall m n,
  half_hertz r * (film_time f (S (n + m)) - film_time f (S n)) <= 2 * hz * Z.of_nat m.
Proof.
  intros Hf. induction m as [|m IH]; intros n.
  - rewrite Nat.add_0_r. lia.
  - specialize (IH n). specialize (Hf (n + m)%nat). rewrite Nat.add_succ_r. lia.
Qed.

(** Above the maximum rate frames are lost, however the program polls: of the frames finished meanwhile (and one more) at
    least one in nine is never delivered.  ([frames] counts the finished frames; the camera has finished at least one before.) *)
Theorem C102_falls_behind : forall s r lay d k dest sights d' dest',
  half_hertz (true_maximum s lay (d_access_pattern d)) < half_hertz r ->
  usable d lay -> no_faster bs (d_address d) (clock v) 9 -> no_later (hertz s) r f ->
  (forall b n, (n < frames v b)%nat <-> film_time f (S n) <= clock v b) ->
  (0 < frames v (dev (d_bus d)))%nat ->
  watch p bs k d dest = (sights, d', dest') ->
  9 * deliveries sights <= 8 * (Z.of_nat (frames v (dev (d_bus d'))) - Z.of_nat (frames v (dev (d_bus d))) + 1).
Proof.
  intros s r lay d k dest sights d' dest' Hr Hu Hn Hf Hfr H0 H.
  pose proof (C102_throughput lay d k dest sights d' dest' Hu Hn H) as T.
  assert (Hl : lay = layout640 \/ lay = layout641) by (destruct Hu as (Hd & _); destruct Hd; auto).
  set (n0 := frames v (dev (d_bus d))) in *. set (n1 := frames v (dev (d_bus d'))).
  assert (D : 0 <= deliveries sights).
  { clear. induction sights as [|[[r a] b] l IH]; cbn [deliveries]; [lia|]. destruct r as [[|]| | |]; lia. }
  assert (C0 : film_time f n0 <= clock v (dev (d_bus d))).
  { destruct n0 as [|n0'] eqn:En; [lia|]. apply Hfr. subst n0. lia. }
  assert (C1 : clock v (dev (d_bus d')) < film_time f (S n1)).
  { destruct (Z_lt_le_dec (clock v (dev (d_bus d'))) (film_time f (S n1))) as [?|L]; [assumption|].
    apply Hfr in L. subst n1. lia. }
  assert (M : (n0 <= n1)%nat).
  { destruct (le_lt_dec n0 n1) as [?|L]; [assumption|exfalso].
    assert (clock v (dev (d_bus d)) <= clock v (dev (d_bus d'))).
    { destruct (Nat.eqb (lay_pixels lay) 768); [destruct (d_access_pattern d)|]; nia. }
    assert (film_time f (S n1) <= clock v (dev (d_bus d))) by (apply Hfr; exact L). lia. }
  destruct n0 as [|n0'] eqn:En; [lia|].
  pose proof (film_span (hertz s) r Hf (n1 - n0') n0') as Sp. replace (n0' + (n1 - n0'))%nat with n1 in Sp by lia.
  assert (E : Z.of_nat n1 - Z.of_nat (S n0') + 1 = Z.of_nat (n1 - n0')) by lia. rewrite E. clear E.
  assert (0 <= Z.of_nat (n1 - n0')) by lia. set (m := Z.of_nat (n1 - n0')) in *.
  set (g := deliveries sights) in *. clearbody g m.
  assert (X : half_hertz r * ((if Nat.eqb (lay_pixels lay) 768 then match d_access_pattern d with Chess => 14229 | Interleave => 7713 end else 4041) * g)
     <= 2 * hertz s * m).
  { assert (0 < half_hertz r) by (destruct r; reflexivity).
    assert (half_hertz r * (clock v (dev (d_bus d')) - clock v (dev (d_bus d))) <= half_hertz r * (film_time f (S n1) - film_time f (S n0'))) by nia.
    nia. }
  unfold true_maximum, documented_maximum in Hr. clear - X Hr Hl D H1.
  destruct Hl as [-> | ->];
    [change (Nat.eqb (lay_pixels layout640) 768) with true in *; destruct (d_access_pattern d)
    |change (Nat.eqb (lay_pixels layout641) 768) with false in *];
    destruct s, r; cbn [hertz half_hertz] in *; lia.
Qed.
End Speed.

(** The documented table never promises too much; one entry promises too little: an MLX90640 in interleaved pattern on a
    1 MHz bus can be read at 64 Hz, not only at 32 Hz. *)
Theorem C102_documented_table : forall s lay ap, lay = layout640 \/ lay = layout641 ->
  half_hertz (documented_maximum s lay ap) <= half_hertz (true_maximum s lay ap) /\
  (half_hertz (documented_maximum s lay ap) < half_hertz (true_maximum s lay ap) <-> s = Mhz1 /\ lay = layout640 /\ ap = Interleave).
Proof.
  intros s lay ap [-> | ->]; unfold true_maximum, documented_maximum;
    [change (Nat.eqb (lay_pixels layout640) 768) with true|change (Nat.eqb (lay_pixels layout641) 768) with false];
    destruct s, ap; cbn [half_hertz]; (split; [lia|]); (split; [intros H; try lia; auto|intros (E1 & E2 & E3); try discriminate; try lia]).
Qed.

(** ** Concrete cases *)
(** The camera of C89's concrete cases on a real bus: a transaction of [n] bytes takes 9 n + 3 cycles, and [gap] cycles pass
    before each status read. *)
Section Wire.
Context (gap period : Z) (Hgap : 0 <= gap) (Hperiod : 0 < period).
Definition wire_after (n : Z) (b : reel_state) : reel_state := reel_after period (9 * n + 3) b.
Definition wire_bus : bus reel_state string string := {|
  dev_write_read := fun b _ wb buf =>
    let x := 256 * nth 0 wb 0 + nth 1 wb 0 in
    let n := 2 + Z.of_nat (length wb) + Z.of_nat (length buf) in
    if x =? 0x8000 then let b' := wire_after n (reel_after period gap b) in (b', [reel_status period b' / 256; reel_status period b' mod 256], None)
    else if x =? 0x800D then (wire_after n b, [0x09; 0x01], None)
    else (wire_after n b, mem_bytes (film_mem (reel period) (reel_frames period b)) x (length buf), None);
  dev_write := fun b _ bytes =>
    let v := 256 * nth 2 bytes 0 + nth 3 bytes 0 in
    let b' := wire_after (1 + Z.of_nat (length bytes)) (fst b, bit v 3) in (b', None) |}.

Lemma reel_twice k k' b : 0 <= k -> 0 <= k' ->
  reel_after period k' (reel_after period k b) = reel_after period (k + k') b.
Proof.
  intros Hk Hk'. unfold reel_after. cbn [fst snd]. unfold reel_frames at 2. cbn [fst]. rewrite Z.add_assoc. f_equal.
  rewrite <- orb_assoc. f_equal.
  pose proof (Z.div_le_mono (fst b) (fst b + k) period Hperiod ltac:(lia)).
  pose proof (Z.div_le_mono (fst b + k) (fst b + k + k') period Hperiod ltac:(lia)). unfold reel_frames.
  destruct (Nat.ltb_spec (Z.to_nat (fst b / period)) (Z.to_nat ((fst b + k) / period))),
    (Nat.ltb_spec (Z.to_nat ((fst b + k) / period)) (Z.to_nat ((fst b + k + k') / period))),
    (Nat.ltb_spec (Z.to_nat (fst b / period)) (Z.to_nat ((fst b + k + k') / period))); cbn [orb]; try reflexivity; lia.
Qed.

Lemma wire_runs a : free_running wire_bus a (reel_view period) (reel period) (i2c_timing gap).
Proof.
  constructor.
  - intros n x. cbn [film_mem reel]. unfold word. pose proof (Z.mod_pos_bound (100 * Z.of_nat n + x) 10000). lia.
  - intros b n. cbn [frames clock reel_view film_time reel]. apply reel_frames_spec; exact Hperiod.
  - intros b buf b' out e Hl H. cbn [dev_write_read wire_bus status_reg nth length] in H.
    change (256 * 128 + 0 =? 32768) with true in H. cbv iota zeta in H. rewrite Hl in H.
    unfold wire_after in H. rewrite reel_twice in H by lia.
    change (9 * (2 + Z.of_nat 2 + Z.of_nat 2) + 3) with 57 in H.
    apply pair_equal_spec in H; destruct H as [H <-]; apply pair_equal_spec in H; destruct H as [<- <-].
    destruct (reel_status_facts period (reel_after period (gap + 57) b)) as (S1 & S2 & S3).
    split; [reflexivity|]. cbn [clock frames ready reel_view pause i2c_timing].
    split; [cbn [reel_after fst]; lia|]. split; [reflexivity|].
    exists (reel_status period (reel_after period (gap + 57) b)), (reel_frames period (reel_after period (gap + 57) b)).
    split; [reflexivity|]. split; [exact S1|]. split; [split; [apply reel_mono; lia|apply Nat.le_refl]|].
    split; [exact S2|]. exact S3.
  - intros b x buf b' out e Hx Hr H. cbn [dev_write_read wire_bus nth length] in H. rewrite word_back in H.
    assert (x < 0x8000) by (assert (0 <= Z.of_nat (length buf) / 2) by (apply Z.div_pos; lia); lia).
    replace (x =? 32768) with false in H by (symmetry; apply Z.eqb_neq; lia).
    replace (x =? 32781) with false in H by (symmetry; apply Z.eqb_neq; lia).
    apply pair_equal_spec in H; destruct H as [H <-]; apply pair_equal_spec in H; destruct H as [<- <-].
    split; [reflexivity|]. cbn [clock frames ready reel_view slack per_byte i2c_timing].
    split; [unfold wire_after; cbn [reel_after fst]; lia|]. split; [reflexivity|]. intros _. reflexivity.
  - intros b hi lo b' e H. cbn [dev_write wire_bus status_reg app nth length] in H. apply pair_equal_spec in H; destruct H as [<- <-].
    split; [reflexivity|]. cbn [clock frames ready reel_view slack per_byte i2c_timing].
    split; [unfold wire_after; cbn [reel_after fst]; lia|].
    intros E. unfold wire_after in *. unfold reel_after at 1. cbn [snd fst]. unfold reel_after in E. unfold reel_frames in *. cbn [fst] in *.
    match goal with |- _ || ?c = _ => replace c with false end; [apply orb_false_r|].
    symmetry. apply Nat.ltb_ge. lia.
Qed.
Lemma wire_no_faster a : no_faster wire_bus a (clock (reel_view period)) 9.
Proof.
  constructor.
  - intros b wb buf b' out e H. cbn [dev_write_read wire_bus] in H. cbv zeta in H. cbn [clock reel_view].
    destruct (_ =? 0x8000); [|destruct (_ =? 0x800D)]; apply pair_equal_spec in H; destruct H as [H _]; apply pair_equal_spec in H; destruct H as [<- _]; unfold wire_after; cbn [reel_after fst]; lia.
  - intros b bytes b' e H. cbn [dev_write wire_bus] in H. cbv zeta in H. cbn [clock reel_view].
    apply pair_equal_spec in H; destruct H as [<- _]; unfold wire_after; cbn [reel_after fst]; lia.
Qed.
End Wire.

(** An MLX90641 on it. *)
Definition wire_driver (gap period : Z) : option (driver (FO := ZFO) (B := reel_state) (ER := string) (EW := string)) :=
  match new_with_calibration (wire_bus gap period) 12 384 {| dev := (period, false); trace := [] |} 0x33 demo641 with
  | (Ok d, _) => Some d
  | _ => None
  end.
Lemma wire_usable gap period : match wire_driver gap period with Some d => usable d layout641 | None => True end.
Proof.
  unfold wire_driver. destruct (new_with_calibration _ _ _ _ _ _) as [r w'] eqn:E.
  destruct r as [d| | |]; try exact I.
  apply C29_new_with_calibration in E. destruct E as (evs & _ & H). inversion H as [v d0 Hv Hf|]; subst.
  destruct Hf as (_ & _ & Hc & Hh & Hb & _). unfold usable. rewrite Hc, Hh, Hb.
  split; [constructor|]. split; [cbn [d_height lay_height layout641]; lia|]. split; [|rewrite repeat_length; vm_compute; lia].
  apply demo_calib_complete; [constructor|reflexivity|cbn; lia].
Qed.
(** All hypotheses of both theorems hold: on a 100 kHz bus at 16 Hz (6250 cycles) with 650 cycles between calls, and at 32 Hz
    (3125 cycles) without any pause. *)
Example C102_applies :
  match wire_driver 650 6250, wire_driver 0 3125 with
  | Some d, Some d' =>
      half_hertz FR_Sixteen <= half_hertz (true_maximum Khz100 layout641 (d_access_pattern d)) /\
      usable d layout641 /\ free_running (wire_bus 650 6250) (d_address d) (reel_view 6250) (reel 6250) (i2c_timing 650) /\
      no_sooner (hertz Khz100) FR_Sixteen (reel 6250) /\
      (forall m, -32768 <= signed (film_mem (reel 6250) m (lay_vdd layout641)) - v_dd_25 _ (d_calibration d) <= 32767) /\
      caught_up (reel_view 6250) (reel 6250) (i2c_timing 650) 1 (dev (d_bus d)) /\
      half_hertz (true_maximum Khz100 layout641 (d_access_pattern d')) < half_hertz FR_ThirtyTwo /\
      usable d' layout641 /\ no_faster (wire_bus 0 3125) (d_address d') (clock (reel_view 3125)) 9 /\
      no_later (hertz Khz100) FR_ThirtyTwo (reel 3125) /\ (0 < frames (reel_view 3125) (dev (d_bus d')))%nat
  | _, _ => False
  end.
Proof.
  pose proof (wire_usable 650 6250) as Hu. pose proof (wire_usable 0 3125) as Hu'.
  assert (Hd : match wire_driver 650 6250, wire_driver 0 3125 with
               | Some d, Some d' => dev (d_bus d) = (6307, false) /\ v_dd_25 _ (d_calibration d) = -12544 /\ dev (d_bus d') = (3182, false)
               | _, _ => False end) by (vm_compute; auto).
  destruct (wire_driver 650 6250) as [d|]; [|exact Hd]. destruct (wire_driver 0 3125) as [d'|]; [|exact Hd].
  destruct Hd as (E1 & E3 & E2).
  split; [vm_compute; discriminate|]. split; [exact Hu|]. split; [apply wire_runs; lia|].
  split; [intros n; cbn [hertz half_hertz reel film_time]; lia|].
  split.
  { intros m. rewrite E3. cbn [film_mem reel]. unfold signed.
    match goal with |- context [?x mod 10000] => pose proof (Z.mod_pos_bound x 10000 ltac:(lia)) end.
    match goal with |- context [?x <? 32768] => replace (x <? 32768) with true by (symmetry; apply Z.ltb_lt; lia) end. lia. }
  split; [left; rewrite E1; split; reflexivity|]. split; [vm_compute; reflexivity|]. split; [exact Hu'|].
  split; [apply wire_no_faster; lia|].
  split; [intros n; cbn [hertz half_hertz reel film_time]; lia|]. rewrite E2. vm_compute. lia.
Qed.
(** What happens: at 16 Hz all 7 frames finished meanwhile arrive; at 32 Hz 3 of 6. *)
Example C102_concrete :
  match wire_driver 650 6250, wire_driver 0 3125 with
  | Some d, Some d' =>
      let '(l, d1, _) := watch Debug (wire_bus 650 6250) 30 d blank640 in
      let '(l', d1', _) := watch Debug (wire_bus 0 3125) 150 d' blank640 in
      deliveries l = Z.of_nat (reel_frames 6250 (dev (d_bus d1))) - 1 /\ deliveries l = 7 /\
      deliveries l' = 3 /\ Z.of_nat (reel_frames 3125 (dev (d_bus d1'))) - 1 = 6
  | _, _ => False
  end.
Proof. vm_compute. repeat split. Qed.

Print Assumptions C102_any_bus_speed.
Print Assumptions C102_keeps_up.
Print Assumptions C102_throughput.
Print Assumptions C102_falls_behind.
Print Assumptions C102_documented_table.
