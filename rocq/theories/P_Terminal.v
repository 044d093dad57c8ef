(** * C78, C79: the example program terminal-temperatures, and the address argument of
    both examples. *)
From Verif Require Import Base FloatOps Register Bus Camera Cam640 Cam641 Calc BitFacts SpecRegister RegisterFacts
  SpecCamera CameraFacts SpecDriver DriverFacts StepFacts Demo SpecImage SpecCall ImageFacts P_Bus P_Image P_Frames
  P_Usable P_Public Ee640 Ee641 Examples Driver.
From Coq Require Import Ascii.
Open Scope Z_scope.

Section Terminal.
Context {FO : FloatOps} (p : profile) {B ER EW : Type} (bs : bus B ER EW).
Notation driver := (driver (FO := FO) (B := B) (ER := ER) (EW := EW)).
Notation F := (F FO).
Implicit Types d : driver.

Lemma if_ready_settings lay d dest b d' dest' : usable d lay ->
  generate_image_if_ready p bs dest d = (Ok b, d', dest') ->
  settings_of d' = settings_of d /\ d_calibration d' = d_calibration d /\ d_address d' = d_address d /\
  length dest' = length dest /\ (b = false -> dest' = dest).
Proof.
  intros Hu H. pose proof H as H0. apply (if_ready_spec p bs lay) in H; [|apply usable_wf; exact Hu].
  destruct H as (w0 & [(e & x & E & _)|(v & Hv & Ht & Hs & H)]); [discriminate|].
  destruct H as [(Hn & E & -> & ->)|(Hn & w1 & buf' & evs & Hl & Ht1 & H)].
  - inversion E; subst. repeat split; reflexivity.
  - cbn zeta in H.
    destruct H as [(_ & _ & Hf)|(ram & Hr & Hc & [(t & w2 & e & Hcalc & Ht2 & E & ->)|(_ & E & _)])]; [| |discriminate].
    { destruct Hf as [(e & E & _)|(E & _)]; discriminate. }
    destruct e; [discriminate|]. inversion E; subst. repeat split; [|discriminate].
    apply (calc_only p false (after_frame d buf' w1) ram (s_subpage (status_doc v)) dest t dest' lay); [exact (proj1 Hu)|exact Hcalc].
Qed.

(** The picture shown, for any camera and schedule: every pixel is the documented
    temperature from the second call's frame, if that call found new data and the pixel
    belongs to that frame's subpage; else from the first call's, likewise; else 0. *)
Theorem C78_picture : forall lay d temperatures width d',
  usable d lay -> take_pictures p bs d = (Ok (temperatures, width), d') ->
  width = lay_width lay /\ length temperatures = lay_pixels lay /\
  exists b1 d1 dest1 b2,
    let o1 := OpGenerateIfReady (repeat (fofZ 0) (lay_pixels lay)) in let o2 := OpGenerateIfReady dest1 in
    step p bs d o1 = (Ok (OutBool b1), d1, dest1) /\
    step p bs d1 o2 = (Ok (OutBool b2), d', temperatures) /\
    forall evs1 evs2 sp1 sp2 mem1 mem2,
      trace (d_bus d1) = trace (d_bus d) ++ evs1 -> stores o1 (d_address d) evs1 sp1 ->
      trace (d_bus d') = trace (d_bus d1) ++ evs2 -> stores o2 (d_address d) evs2 sp2 ->
      (forall a, word (mem1 a)) -> Forall (shows mem1) evs1 ->
      (forall a, word (mem2 a)) -> Forall (shows mem2) evs2 ->
      let c := d_calibration d in let s := settings_of d in
      temperatures = map (fun i =>
        if b2 && measured lay sp2 (set_pattern s) i then doc_pixel c lay s sp2 mem2 false i
        else if b1 && measured lay sp1 (set_pattern s) i then doc_pixel c lay s sp1 mem1 false i
        else fofZ 0) (seq 0 (lay_pixels lay)).
Proof.
  intros lay d temps width d' Hu H. unfold take_pictures in H.
  assert (Edim : drv_height d = lay_height lay /\ drv_width d = lay_width lay).
  { destruct (C70_dimensions FO p B ER EW bs lay d (proj1 Hu)) as (_ & _ & _ & E1 & E2 & _). split; assumption. }
  destruct Edim as [E1 E2]. rewrite E1, E2 in H. change (lay_height lay * lay_width lay)%nat with (lay_pixels lay) in H.
  destruct (generate_image_if_ready p bs (repeat (fofZ 0) (lay_pixels lay)) d) as [[r1 d1] dest1] eqn:G1.
  destruct r1 as [b1|e| |]; try discriminate H.
  destruct (generate_image_if_ready p bs dest1 d1) as [[r2 d2] dest2] eqn:G2.
  destruct r2 as [b2|e| |]; cbn [bind] in H; try discriminate H.
  assert (Hw : width = drv_width d2) by congruence. assert (dest2 = temps) by congruence. assert (d2 = d') by congruence. subst dest2 d2. clear H.
  assert (S1 : step p bs d (OpGenerateIfReady (repeat (fofZ 0) (lay_pixels lay))) = (Ok (OutBool b1), d1, dest1))
    by (cbn [step lifti]; rewrite G1; reflexivity).
  assert (S2 : step p bs d1 (OpGenerateIfReady dest1) = (Ok (OutBool b2), d', temps)) by (cbn [step lifti]; rewrite G2; reflexivity).
  assert (Hu1 : usable d1 lay) by (eapply usable_step; eassumption).
  assert (Hu2 : usable d' lay) by (eapply usable_step; eassumption).
  destruct (if_ready_settings lay _ _ _ _ _ Hu G1) as (Q1 & Q2 & Q3 & Q4 & Q5).
  destruct (if_ready_settings lay _ _ _ _ _ Hu1 G2) as (R1 & R2 & R3 & R4 & R5).
  assert (Hlen : length temps = lay_pixels lay) by (rewrite R4, Q4; apply repeat_length).
  split; [|split; [exact Hlen|]].
  { rewrite Hw. destruct (C70_dimensions FO p B ER EW bs lay d' (proj1 Hu2)) as (_ & _ & _ & _ & E & _). exact E. }
  exists b1, d1, dest1, b2. split; [exact S1|]. split; [exact S2|].
  intros evs1 evs2 sp1 sp2 mem1 mem2 T1 St1 T2 St2 M1 Sh1 M2 Sh2 c s.
  apply list_ext; [exact Hlen|]. intros i Hi.
  assert (Hz : nth_error (repeat (fofZ (f := FO) 0) (lay_pixels lay)) i = Some (fofZ 0)).
  { rewrite (nth_error_nth' _ (fofZ 0)) by (rewrite repeat_length; exact Hi). rewrite nth_repeat. reflexivity. }
  assert (I1 : nth_error dest1 i = Some (if b1 && measured lay sp1 (set_pattern s) i then doc_pixel c lay s sp1 mem1 false i else fofZ 0)).
  { destruct b1; cbn [andb].
    - destruct (C55_image_of_transcript p bs lay d (OpGenerateIfReady (repeat (fofZ 0) (lay_pixels lay))) _ _ _ _ evs1 sp1 mem1 Hu eq_refl S1 ltac:(split; [discriminate|exact I]) T1 St1 M1 Sh1) as [_ [_ G]].
      apply (G i _ Hz).
    - rewrite (Q5 eq_refl). exact Hz. }
  destruct b2; cbn [andb].
  - rewrite <- Q3 in St2.
    destruct (C55_image_of_transcript p bs lay d1 (OpGenerateIfReady dest1) _ _ _ _ evs2 sp2 mem2 Hu1 eq_refl S2 ltac:(split; [discriminate|exact I]) T2 St2 M2 Sh2) as [_ [_ G]].
    rewrite (G i _ I1), Q1, Q2. reflexivity.
  - rewrite (R5 eq_refl). exact I1.
Qed.

(** If neither call finds new data the program shows zeros and no error. *)
Theorem C78_no_data_shows_zeros : forall lay d d1 d2 dest1 dest2,
  usable d lay ->
  generate_image_if_ready p bs (repeat (fofZ 0) (lay_pixels lay)) d = (Ok false, d1, dest1) ->
  generate_image_if_ready p bs dest1 d1 = (Ok false, d2, dest2) ->
  take_pictures p bs d = (Ok (repeat (fofZ 0) (lay_pixels lay), lay_width lay), d2).
Proof.
  intros lay d d1 d2 dest1 dest2 Hu H1 H2. unfold take_pictures.
  assert (Edim : drv_height d = lay_height lay /\ drv_width d = lay_width lay).
  { destruct (C70_dimensions FO p B ER EW bs lay d (proj1 Hu)) as (_ & _ & _ & E1 & E2 & _). split; assumption. }
  destruct Edim as [E1 E2]. rewrite E1, E2. change (lay_height lay * lay_width lay)%nat with (lay_pixels lay).
  rewrite H1, H2. cbn [bind].
  assert (S1 : step p bs d (OpGenerateIfReady (repeat (fofZ 0) (lay_pixels lay))) = (Ok (OutBool false), d1, dest1))
    by (cbn [step lifti]; rewrite H1; reflexivity).
  assert (S2 : step p bs d1 (OpGenerateIfReady dest1) = (Ok (OutBool false), d2, dest2)) by (cbn [step lifti]; rewrite H2; reflexivity).
  assert (Hu1 : usable d1 lay) by (eapply usable_step; eassumption).
  assert (Hu2 : usable d2 lay) by (eapply usable_step; eassumption).
  destruct (if_ready_settings lay _ _ _ _ _ Hu H1) as (_ & _ & _ & _ & Q5).
  destruct (if_ready_settings lay _ _ _ _ _ Hu1 H2) as (_ & _ & _ & _ & R5).
  rewrite (R5 eq_refl), (Q5 eq_refl).
  destruct (C70_dimensions FO p B ER EW bs lay d2 (proj1 Hu2)) as (_ & _ & _ & _ & E & _). unfold drv_width. rewrite E. reflexivity.
Qed.

(** On paper: one line per row of the picture, each starting with a line break, its
    cells from left to right. *)
Definition one_row (width : nat) (temperatures : list F) (row : nat) : list (printed (FO := FO)) :=
  NewLine :: map (Cell (FO := FO)) (firstn width (skipn (row * width) temperatures)).

Lemma print_within width : forall l count, (0 < width)%nat ->
  (0 < Nat.modulo count width)%nat -> (Nat.modulo count width + length l <= width)%nat ->
  print_from count width l = map (Cell (FO := FO)) l.
Proof.
  induction l as [|t l IH]; intros count Hw Hc Hl; [reflexivity|]. cbn [print_from length map] in *.
  replace (Nat.eqb (Nat.modulo count width) 0) with false by (symmetry; apply Nat.eqb_neq; lia). cbn [app]. f_equal.
  destruct l as [|t2 l]; [reflexivity|]. apply IH; [exact Hw| |]; cbn [length] in *.
  - replace (S count) with (count + 1)%nat by lia. rewrite <- Nat.add_mod_idemp_l by lia. rewrite Nat.mod_small by lia. lia.
  - replace (S count) with (count + 1)%nat by lia. rewrite <- Nat.add_mod_idemp_l by lia. rewrite Nat.mod_small by lia. lia.
Qed.
Lemma print_app width : forall l1 l2 count, print_from count width (l1 ++ l2) = print_from count width l1 ++ print_from (count + length l1) width (l2 : list F).
Proof.
  induction l1 as [|t l1 IH]; intros l2 count; cbn [app print_from length]; [rewrite Nat.add_0_r; reflexivity|].
  rewrite IH, <- app_assoc. cbn [app]. replace (S count + length l1)%nat with (count + S (length l1))%nat by lia. reflexivity.
Qed.
Lemma skipn_plus {A} : forall a b (l : list A), skipn a (skipn b l) = skipn (b + a) l.
Proof. intros a. induction b as [|b IH]; intros l; [reflexivity|]. destruct l as [|x l]; [destruct a; reflexivity|]. apply IH. Qed.
Lemma print_rows width : forall h l k, (0 < width)%nat -> length l = (h * width)%nat ->
  print_from (k * width) width l = flat_map (one_row width l) (seq 0 h).
Proof.
  induction h as [|h IH]; intros l k Hw Hl; [destruct l; [reflexivity|discriminate Hl]|].
  rewrite <- (firstn_skipn width l) at 1. rewrite print_app.
  assert (L1 : length (firstn width l) = width) by (rewrite firstn_length; lia). rewrite L1.
  replace (k * width + width)%nat with (S k * width)%nat by lia. rewrite (IH (skipn width l) (S k)) by (rewrite ?skipn_length; lia).
  cbn [seq flat_map]. f_equal.
  - unfold one_row. cbn [Nat.mul skipn]. destruct (firstn width l) as [|t r] eqn:E; [cbn in L1; lia|].
    cbn [print_from]. rewrite Nat.mod_mul by lia. cbn [Nat.eqb app]. f_equal. cbn [map]. f_equal.
    cbn [length] in L1. destruct r as [|t2 r]; [reflexivity|].
    assert (Em : (S (k * width) mod width = 1)%nat).
    { replace (S (k * width)) with (1 + k * width)%nat by lia. rewrite Nat.mod_add by lia. apply Nat.mod_small. cbn [length] in L1. lia. }
    apply print_within; [exact Hw|lia|]. rewrite Em. cbn [length] in *. lia.
  - rewrite <- seq_shift, flat_map_concat_map, flat_map_concat_map, map_map. f_equal. apply map_ext. intros r.
    unfold one_row. do 3 f_equal. rewrite skipn_plus. reflexivity.
Qed.
Theorem C78_layout : forall width height (temperatures : list F), (0 < width)%nat ->
  length temperatures = (height * width)%nat ->
  print_temperatures temperatures width = flat_map (one_row width temperatures) (seq 0 height).
Proof. intros width height temps Hw Hl. apply (print_rows width height temps 0 Hw Hl). Qed.
End Terminal.
Print Assumptions C78_picture.
Print Assumptions C78_no_data_shows_zeros.
Print Assumptions C78_layout.

(** The whole program, for both cameras: whatever the bus does, when it prints it prints
    the picture above, 24 rows of 32 or 12 rows of 16, and a final line break. *)
Theorem C78_program : forall FO p B ER EW (bs : bus B ER EW) w a out w',
  (terminal_temperatures p bs (new bs (calib640_from_i2c FO p bs) 24 1536 w a) = (Ok out, w') ->
   exists d temperatures d', usable d layout640 /\ take_pictures p bs d = (Ok (temperatures, 32%nat), d') /\ w' = d_bus d' /\
     out = flat_map (one_row 32 temperatures) (seq 0 24) ++ [NewLine]) /\
  (terminal_temperatures p bs (new bs (calib641_from_i2c FO p bs) 12 384 w a) = (Ok out, w') ->
   exists d temperatures d', usable d layout641 /\ take_pictures p bs d = (Ok (temperatures, 16%nat), d') /\ w' = d_bus d' /\
     out = flat_map (one_row 16 temperatures) (seq 0 12) ++ [NewLine]).
Proof.
  intros FO p B ER EW bs w a out w'. split; intros H; unfold terminal_temperatures in H.
  - destruct (new bs (calib640_from_i2c FO p bs) 24 1536 w a) as [[d|e| |] w1] eqn:E; try discriminate H.
    apply C62_new_640 in E. destruct E as [Hu _]. destruct (take_pictures p bs d) as [[[t width]|e| |] d'] eqn:Et; try discriminate H.
    destruct (C78_picture p bs _ _ _ _ _ Hu Et) as (-> & Hl & _). cbn [bind fst snd] in H.
    exists d, t, d'. split; [exact Hu|]. split; [exact Et|]. inversion H; subst. split; [reflexivity|].
    rewrite <- (C78_layout 32 24 t); [reflexivity|lia|exact Hl].
  - destruct (new bs (calib641_from_i2c FO p bs) 12 384 w a) as [[d|e| |] w1] eqn:E; try discriminate H.
    apply C62_new_641 in E. destruct E as [Hu _]. destruct (take_pictures p bs d) as [[[t width]|e| |] d'] eqn:Et; try discriminate H.
    destruct (C78_picture p bs _ _ _ _ _ Hu Et) as (-> & Hl & _). cbn [bind fst snd] in H.
    exists d, t, d'. split; [exact Hu|]. split; [exact Et|]. inversion H; subst. split; [reflexivity|].
    rewrite <- (C78_layout 16 12 t); [reflexivity|lia|exact Hl].
Qed.
Print Assumptions C78_program.

(** A camera of demo type 641 with a frame ready: 192 cells in 12 rows; with no frame
    ready: zeros. *)
Example C78_concrete :
  match demo_driver 12 384 demo641 0x0008 0x0901, demo_driver 12 384 demo641 0x0000 0x0901 with
  | Some d, Some d0 =>
      match take_pictures Debug (toy_bus never never) d, take_pictures Debug (toy_bus never never) d0 with
      | (Ok (t, w), _), (Ok (t0, w0), _) =>
          w = 16%nat /\ w0 = 16%nat /\ t0 = repeat 0 192 /\ t <> t0 /\ length t = 192%nat /\
          length (print_temperatures (FO := ZFO) t w) = 204%nat
      | _, _ => False
      end
  | _, _ => False
  end.
Proof. vm_compute. repeat split; try reflexivity. discriminate. Qed.

(** ** C79 The address argument *)
(** [c] is the digit with value [d] in base [radix]. *)
Definition digit (radix : Z) (c : ascii) (d : Z) : Prop :=
  0 <= d < radix /\
  (String.get (Z.to_nat d) "0123456789abcdef" = Some c \/ String.get (Z.to_nat d) "0123456789ABCDEF" = Some c).
(** [s] is a numeral with value [v] in base [radix], with an optional plus sign. *)
Definition digits (radix : Z) (s : string) (v : Z) : Prop :=
  exists ds, ds <> [] /\ Forall2 (digit radix) (list_ascii_of_string s) ds /\
    v = fold_left (fun a d => a * radix + d) ds 0.
Definition numeral (radix : Z) (s : string) (v : Z) : Prop :=
  digits radix s v \/ exists s', s = ("+" ++ s')%string /\ digits radix s' v.

Lemma to_digit_spec radix c d : radix = 10 \/ radix = 16 -> (to_digit radix c = Some d <-> digit radix c d).
Proof.
  intros Hr. split.
  - destruct Hr as [-> | ->]; destruct c as [[] [] [] [] [] [] [] []]; intros H; vm_compute in H; try discriminate H;
      injection H as <-; (split; [lia|]); first [left; reflexivity|right; reflexivity].
  - intros [Hd Hc].
    assert (D : d = 0 \/ d = 1 \/ d = 2 \/ d = 3 \/ d = 4 \/ d = 5 \/ d = 6 \/ d = 7 \/ d = 8 \/ d = 9 \/
      d = 10 \/ d = 11 \/ d = 12 \/ d = 13 \/ d = 14 \/ d = 15) by (destruct Hr; subst; lia).
    destruct Hr as [-> | ->];
      repeat (destruct D as [->|D]; [first [exfalso; clear - Hd; lia
        | destruct Hc as [Hc|Hc]; vm_compute in Hc; injection Hc as <-; reflexivity]|]);
      subst d; first [exfalso; clear - Hd; lia | destruct Hc as [Hc|Hc]; vm_compute in Hc; injection Hc as <-; reflexivity].
Qed.

Lemma fold_grows radix ds : 1 <= radix -> Forall (fun d => 0 <= d) ds -> forall a, 0 <= a ->
  a <= fold_left (fun a d => a * radix + d) ds a.
Proof.
  intros Hr. induction 1 as [|d ds Hd _ IH]; intros a Ha; cbn [fold_left]; [lia|].
  eapply Z.le_trans; [|apply IH; nia]. nia.
Qed.
Lemma parse_digits_spec limit radix : radix = 10 \/ radix = 16 -> forall s acc v, 0 <= acc <= limit ->
  (parse_digits limit radix acc s = Ok v <->
   exists ds, Forall2 (digit radix) (list_ascii_of_string s) ds /\ v = fold_left (fun a d => a * radix + d) ds acc /\ v <= limit).
Proof.
  intros Hr s. assert (Hr1 : 1 <= radix) by (destruct Hr; lia). induction s as [|c s IH]; intros acc v Ha; cbn [parse_digits list_ascii_of_string].
  - split.
    + intros H. injection H as <-. exists []. split; [constructor|]. split; [reflexivity|lia].
    + intros (ds & H & -> & _). inversion H; subst. reflexivity.
  - split.
    + destruct (to_digit radix c) as [d|] eqn:Ed; [|discriminate]. apply (to_digit_spec radix c d Hr) in Ed.
      destruct (limit <? acc * radix + d) eqn:El; [discriminate|]. apply Z.ltb_ge in El. intros H.
      assert (Hd : 0 <= d) by (destruct Ed; lia).
      apply IH in H; [|nia]. destruct H as (ds & H1 & H2 & H3). exists (d :: ds). split; [constructor; assumption|]. split; assumption.
    + intros (ds & H & Hv & Hle). inversion H as [|? d ? ds' Hd Hds]; subst. 
      rewrite (proj2 (to_digit_spec radix c d Hr) Hd). assert (Hd0 : 0 <= d) by (destruct Hd; lia).
      cbn [fold_left] in Hle |- *. assert (Hpos : Forall (fun d => 0 <= d) ds').
      { clear - Hds. induction Hds as [|? ? ? ? Hh _ I]; constructor; [destruct Hh; lia|exact I]. }
      pose proof (fold_grows radix ds' Hr1 Hpos (acc * radix + d) ltac:(nia)) as G.
      replace (limit <? acc * radix + d) with false by (symmetry; apply Z.ltb_ge; lia).
      apply IH; [nia|]. exists ds'. auto.
Qed.
Lemma parse_digits_total limit radix : forall s acc, (exists v, parse_digits limit radix acc s = Ok v) \/ parse_digits limit radix acc s = Err tt.
Proof.
  induction s as [|c s IH]; intros acc; cbn [parse_digits]; [left; eexists; reflexivity|].
  destruct (to_digit radix c); [|right; reflexivity]. destruct (limit <? _); [right; reflexivity|apply IH].
Qed.

Lemma plus_no_digit radix d : radix = 10 \/ radix = 16 -> ~ digit radix "+" d.
Proof. intros Hr H. apply (to_digit_spec radix _ _ Hr) in H. destruct Hr as [-> | ->]; discriminate H. Qed.

Lemma parse_uint_spec limit radix s v : 0 <= limit -> radix = 10 \/ radix = 16 -> (parse_uint limit radix s = Ok v <-> numeral radix s v /\ v <= limit).
Proof.
  intros Hlim Hr.
  assert (Nonempty : forall c r, (parse_digits limit radix 0 (String c r) = Ok v <-> digits radix (String c r) v /\ v <= limit)).
  { intros c r. rewrite (parse_digits_spec limit radix Hr) by lia. split.
    - intros (ds & H & E & L). split; [|exact L]. exists ds. split; [|split; assumption]. intros ->. inversion H.
    - intros [(ds & _ & H & E) L]. exists ds. auto. }
  assert (Empty : forall x, ~ digits radix "" x).
  { intros x (ds & Hne & H & _). inversion H; subst. apply Hne. reflexivity. }
  assert (Other : forall c r, c <> "+"%char -> (numeral radix (String c r) v <-> digits radix (String c r) v)).
  { intros c r Hc. split; [intros [H|(s' & E & _)]; [exact H|]|intros H; left; exact H]. injection E as E _. contradiction. }
  destruct s as [|c r].
  - cbn [parse_uint]. split; [discriminate|]. intros [[H|(s' & E & _)] _]; [exfalso; eapply Empty; exact H|discriminate E].
  - destruct (ascii_dec c "+"%char) as [->|Hc].
    + assert (Plus : numeral radix (String "+" r) v <-> digits radix r v).
      { split.
        - intros [(ds & _ & H & _)|(s' & E & H)].
          + cbn [list_ascii_of_string] in H. inversion H; subst. exfalso. eapply plus_no_digit; eassumption.
          + injection E as <-. exact H.
        - intros H. right. exists r. split; [reflexivity|exact H]. }
      rewrite Plus. destruct r as [|c2 r].
      * cbn [parse_uint]. split; [discriminate|]. intros [H _]. exfalso. eapply Empty; exact H.
      * apply Nonempty.
    + rewrite (Other c r Hc), <- Nonempty.
      assert (E : parse_uint limit radix (String c r) = parse_digits limit radix 0 (String c r)).
      { destruct c as [[] [] [] [] [] [] [] []]; try reflexivity. exfalso. apply Hc. reflexivity. }
      rewrite E. reflexivity.
Qed.

Lemma parse_u8_spec radix s v : radix = 10 \/ radix = 16 -> (parse_u8 radix s = Ok v <-> numeral radix s v /\ v <= 255).
Proof. intros Hr. apply parse_uint_spec; [lia|exact Hr]. Qed.
Lemma parse_uint_total limit radix x : (exists v, parse_uint limit radix x = Ok v) \/ parse_uint limit radix x = Err tt.
Proof.
  destruct x as [|c r]; [right; reflexivity|].
  destruct (ascii_dec c "+"%char) as [->|Hc].
  - destruct r; [right; reflexivity|]. apply parse_digits_total.
  - assert (E : parse_uint limit radix (String c r) = parse_digits limit radix 0 (String c r)).
    { destruct c as [[] [] [] [] [] [] [] []]; try reflexivity. exfalso. apply Hc. reflexivity. }
    rewrite E. apply parse_digits_total.
Qed.

Lemma substring_all : forall r, substring 0 (String.length r) r = r.
Proof. induction r as [|c r IH]; [reflexivity|]. cbn [String.length substring]. rewrite IH. reflexivity. Qed.

(** The addresses accepted: "0x" and a hexadecimal numeral (either case), or a decimal
    numeral, of value at most 255; everything else is refused, in particular "0X33". *)
Theorem C79_address : forall s,
  (forall v, parse_address s = Ok v <->
    v <= 255 /\ ((exists h, s = ("0x" ++ h)%string /\ numeral 16 h v) \/ numeral 10 s v)) /\
  ((exists v, parse_address s = Ok v) \/ parse_address s = Err tt).
Proof.
  intros s. split.
  - intros v. unfold parse_address. destruct (prefix "0x" s) eqn:Ep.
    + assert (exists h, s = ("0x" ++ h)%string) as (h & ->).
      { destruct s as [|c1 [|c2 h]]; try discriminate Ep; cbn [prefix] in Ep.
        - destruct (ascii_dec "0" c1); discriminate Ep.
        - destruct (ascii_dec "0" c1) as [<-|]; [|discriminate Ep]. destruct (ascii_dec "x" c2) as [<-|]; [|discriminate Ep]. exists h. reflexivity. }
      assert (Es : substring 2 (String.length ("0x" ++ h) - 2) ("0x" ++ h) = h).
      { cbn [append String.length]. replace (S (S (String.length h)) - 2)%nat with (String.length h) by lia. cbn [substring]. apply substring_all. }
      rewrite Es, (parse_u8_spec 16 h v) by (right; reflexivity). split.
      * intros [H L]. split; [exact L|]. left. exists h. split; [reflexivity|exact H].
      * intros [L [(h' & E & H)|H]].
        -- injection E as <-. split; assumption.
        -- exfalso. destruct H as [(ds & _ & H & _)|(s' & E & _)]; [|discriminate E].
           cbn [append list_ascii_of_string] in H. inversion H as [|? ? ? ? _ H1]; subst. inversion H1 as [|? d ? ? H2 _]; subst.
           apply (to_digit_spec 10 _ _ (or_introl eq_refl)) in H2. discriminate H2.
    + rewrite (parse_u8_spec 10 s v) by (left; reflexivity). split.
      * intros [H L]. split; [exact L|]. right. exact H.
      * intros [L [(h & -> & _)|H]]; [exfalso; destruct h; vm_compute in Ep; discriminate Ep|]. split; assumption.
  - unfold parse_address.
    destruct (prefix "0x" s); apply parse_uint_total.
Qed.
Print Assumptions C79_address.

(** Every address the program accepts is a byte. *)
Theorem C79_byte : forall s v, parse_address s = Ok v -> byte v.
Proof.
  intros s v H. apply C79_address in H. destruct H as [L H]. split; [|lia].
  assert (P : forall radix x, 0 <= radix -> digits radix x v -> 0 <= v).
  { intros radix x Hr (ds & _ & H2 & ->). assert (Hd : Forall (fun d => 0 <= d) ds).
    { clear - H2. induction H2 as [|? ? ? ? Hh _ I]; constructor; [destruct Hh; lia|exact I]. }
    assert (G : forall a, 0 <= a -> 0 <= fold_left (fun a d => a * radix + d) ds a).
    { clear - Hd Hr. induction Hd as [|d ds Hd _ IH]; intros a Ha; cbn [fold_left]; [exact Ha|]. apply IH. nia. }
    apply G. lia. }
  destruct H as [(h & _ & [H|(s' & _ & H)])|[H|(s' & _ & H)]]; eapply P; try exact H; lia.
Qed.
Print Assumptions C79_byte.

Example C79_concrete :
  parse_address "0x33" = Ok 0x33 /\ parse_address "51" = Ok 51 /\ parse_address "0xfF" = Ok 255 /\ parse_address "0x+33" = Ok 0x33 /\
  parse_address "0X33" = Err tt /\ parse_address "0x100" = Err tt /\ parse_address "256" = Err tt /\ parse_address "0x" = Err tt /\
  parse_address "-1" = Err tt /\ parse_address "+" = Err tt /\ parse_address "" = Err tt /\ parse_address "0000000051" = Ok 51.
Proof. repeat split; reflexivity. Qed.
