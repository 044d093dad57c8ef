(** * P_Public: C68 flagged pixels, C69 RAM addresses, C70 dimensions, C71 messages. *)
From Verif Require Import Base FloatOps Register Bus Camera Cam640 Cam641 Calc SpecRegister SpecEeprom SpecHamming SpecCamera SpecImage SpecCall
  Ee640 Spec640 Ee640Closed P_Ee640 Ee641 Spec641 P_Ee641 Dumps Demo P_Usable Public Driver.
From Coq Require Import Sorted Ascii DecimalString DecimalPos DecimalN.

(** ** C68 *)
Lemma iter_ones_in flags : forall from i,
  In i (iter_ones from flags) <-> (from <= i)%nat /\ nth_error flags (i - from) = Some true.
Proof.
  induction flags as [|b rest IH]; intros from i; cbn [iter_ones].
  - split; [intros []|]. intros [_ H]. destruct (i - from)%nat; discriminate.
  - assert (E : In i (iter_ones (S from) rest) <-> (from < i)%nat /\ nth_error (b :: rest) (i - from) = Some true).
    { rewrite IH. split; intros [H1 H2].
      - split; [lia|]. replace (i - from)%nat with (S (i - S from)) by lia. exact H2.
      - split; [lia|]. replace (i - from)%nat with (S (i - S from)) in H2 by lia. exact H2. }
    destruct b; cbn [In]; rewrite E; split.
    + intros [<-|[H1 H2]]; [|split; [lia|exact H2]]. split; [lia|]. rewrite Nat.sub_diag. reflexivity.
    + intros [H1 H2]. destruct (Nat.eq_dec from i) as [->|Hn]; [left; reflexivity|right]. split; [lia|exact H2].
    + intros [H1 H2]. split; [lia|exact H2].
    + intros [H1 H2]. destruct (Nat.eq_dec from i) as [->|Hn]; [|split; [lia|exact H2]].
      rewrite Nat.sub_diag in H2. discriminate.
Qed.
Lemma iter_ones_sorted flags : forall from, StronglySorted lt (iter_ones from flags).
Proof.
  induction flags as [|b rest IH]; intros from; cbn [iter_ones]; [constructor|].
  destruct b; [|apply IH]. constructor; [apply IH|]. apply Forall_forall. intros j Hj.
  apply iter_ones_in in Hj. lia.
Qed.

(** The iterator yields exactly the flagged indexes, each once, in increasing order. *)
Theorem C68_flagged_indexes : forall flags,
  (forall i, In i (iter_flagged flags) <-> nth_error flags i = Some true) /\
  StronglySorted lt (iter_flagged flags) /\
  (flagged_any flags = true <-> iter_flagged flags <> []).
Proof.
  intros flags. assert (H : forall i, In i (iter_flagged flags) <-> nth_error flags i = Some true).
  { intros i. unfold iter_flagged. rewrite iter_ones_in, Nat.sub_0_r. split; [tauto|]. split; [lia|assumption]. }
  split; [exact H|]. split; [apply iter_ones_sorted|]. unfold flagged_any. rewrite existsb_exists. split.
  - intros (b & Hin & ->). apply In_nth_error in Hin. destruct Hin as [i Hi]. apply H in Hi.
    intros E. rewrite E in Hi. destruct Hi.
  - intros Hn. destruct (iter_flagged flags) as [|i l] eqn:E; [contradiction|].
    exists true. split; [|reflexivity]. apply (nth_error_In flags i). apply H. left. reflexivity.
Qed.
Print Assumptions C68_flagged_indexes.

(** On decoded calibration data: the failed pixels are those whose calibration words are zero,
    the outliers those whose (non-zero) words have the lowest bit set; nothing outside the image. *)
Theorem C68_flagged_640 : forall FO p data (c : calib FO), full_dump data -> from_data640 FO p data = Ok c ->
  (forall i, In i (iter_flagged (failed_pixels _ c)) <-> (i < 768)%nat /\ ee_word data (0x40 + i) = 0) /\
  (forall i, In i (iter_flagged (outlier_pixels _ c)) <->
     (i < 768)%nat /\ ee_word data (0x40 + i) <> 0 /\ bit (ee_word data (0x40 + i)) 0 = true).
Proof.
  intros FO p data c Hd Hc.
  assert (Hl : length (failed_pixels _ c) = 768%nat /\ length (outlier_pixels _ c) = 768%nat).
  { rewrite (decoded_is FO p data c Hd Hc). cbn [failed_pixels outlier_pixels decoded640].
    rewrite !map_length, seq_length. split; reflexivity. }
  destruct Hl as [Hf Ho].
  assert (G : forall i, (i < 768)%nat -> exists f o,
    nth_error (failed_pixels _ c) i = Some f /\ nth_error (outlier_pixels _ c) i = Some o /\
    (f = true <-> ee_word data (0x40 + i) = 0) /\
    (o = true <-> ee_word data (0x40 + i) <> 0 /\ bit (ee_word data (0x40 + i)) 0 = true)).
  { intros i Hi.
    assert (Hr : (i / 32 < 24)%nat) by (apply Nat.div_lt_upper_bound; lia).
    assert (Hm : (i mod 32 < 32)%nat) by (apply Nat.mod_upper_bound; lia).
    destruct (C41_flags FO p data c Hd Hc (i / 32) (i mod 32) Hr Hm) as (f & o & E1 & E2 & E3 & E4 & _).
    rewrite <- (Nat.div_mod i 32) in E1, E2, E3, E4 by lia.
    exists f, o. split; [exact E1|]. split; [exact E2|]. split; [exact E3|exact E4]. }
  assert (K : forall l i, length l = 768%nat -> nth_error l i = Some true -> (i < 768)%nat).
  { intros l i <- H. apply nth_error_Some. rewrite H. discriminate. }
  split; intros i; rewrite (proj1 (C68_flagged_indexes _)).
  - split.
    + intros H. pose proof (K _ i Hf H) as Hi. split; [exact Hi|].
      destruct (G i Hi) as (f & o & E1 & E2 & E3 & E4). apply E3. congruence.
    + intros [Hi H]. destruct (G i Hi) as (f & o & E1 & E2 & E3 & E4). rewrite E1. f_equal. apply E3, H.
  - split.
    + intros H. pose proof (K _ i Ho H) as Hi. split; [exact Hi|].
      destruct (G i Hi) as (f & o & E1 & E2 & E3 & E4). apply E4. congruence.
    + intros [Hi H]. destruct (G i Hi) as (f & o & E1 & E2 & E3 & E4). rewrite E2. f_equal. apply E4, H.
Qed.
Print Assumptions C68_flagged_640.

Theorem C68_failed_pixels_641 : forall FO p data dw (c : calib FO), full_dump data -> corrected data dw ->
  from_data641 FO p data = Ok c ->
  forall i, In i (iter_flagged (failed_pixels _ c)) <-> (i < 192)%nat /\ failed641 dw i.
Proof.
  intros FO p data dw c Hd Hw Hc i. rewrite (proj1 (C68_flagged_indexes _)).
  destruct (C51_outlier_flags FO p data c Hd Hc) as [_ Hl]. split.
  - intros H. assert (Hi : (i < 192)%nat) by (rewrite <- Hl; apply nth_error_Some; rewrite H; discriminate).
    split; [exact Hi|]. destruct (C51_failed_flags FO p data dw c Hd Hw Hc i Hi) as (f & E & Hf).
    rewrite H in E. injection E as <-. apply Hf. reflexivity.
  - intros [Hi H]. destruct (C51_failed_flags FO p data dw c Hd Hw Hc i Hi) as (f & E & Hf).
    rewrite E. f_equal. apply Hf. exact H.
Qed.
Print Assumptions C68_failed_pixels_641.

Example C68_concrete : iter_flagged [false; true; true; false; true] = [1; 2; 4]%nat /\
  flagged_any [false; false] = false /\ flagged_any [false; true] = true.
Proof. repeat split. Qed.

(** ** C69 *)
(** Conversion to a number and back; every other number is refused, and reported. *)
Theorem C69_round_trip : forall m a, ram_try_from m (ram_into m a) = Ok a.
Proof. intros [] []; reflexivity. Qed.
Theorem C69_try_from : forall m n,
  (forall a, ram_try_from m (address_new n) = Ok a <-> address_u16 (ram_into m a) = n) /\
  (ram_try_from m (address_new n) = Err n <-> forall a, address_u16 (ram_into m a) <> n) /\
  (ram_try_from m (address_new n) = Err n \/ exists a, ram_try_from m (address_new n) = Ok a).
Proof.
  intros m n. unfold ram_try_from, ram_into, address_new. cbn [address_u16].
  assert (Inj : forall a b, ram_u16 m a = ram_u16 m b -> a = b) by (destruct m; intros [] []; (reflexivity || discriminate)).
  assert (All : forall a, In a ram_variants) by (intros []; cbn; tauto).
  destruct (find (fun v => ram_u16 m v =? n) ram_variants) as [v|] eqn:E.
  - pose proof (find_some _ _ E) as [_ Hv]. apply Z.eqb_eq in Hv. split; [|split].
    + intros a. split; [intros H; injection H as <-; exact Hv|]. intros H. f_equal. apply Inj. congruence.
    + split; [discriminate|]. intros H. exfalso. exact (H v Hv).
    + right. exists v. reflexivity.
  - assert (Hn : forall a, ram_u16 m a <> n).
    { intros a H. pose proof (find_none _ _ E a (All a)) as F. apply Z.eqb_neq in F. contradiction. }
    split; [|split].
    + intros a. split; [discriminate|]. intros H. exfalso. exact (Hn a H).
    + split; [intros _; exact Hn|reflexivity].
    + left. reflexivity.
Qed.
Print Assumptions C69_try_from.

(** The documented addresses. *)
Theorem C69_documented : forall m,
  map (ram_u16 m) [RamBase; RamVBe; RamPTAT; RamVDDpix; RamGain; RamCP0; RamCP1; RamEnd] =
  match m with
  | M640 => [0x0400; lay_vbe layout640; lay_ptat layout640; lay_vdd layout640; lay_gain layout640;
             lay_cp layout640 Zero; lay_cp layout640 One; 0x073F]
  | M641 => [0x0400; lay_vbe layout641; lay_ptat layout641; lay_vdd layout641; lay_gain layout641;
             lay_cp layout641 Zero; lay_cp layout641 One; 0x05BF]
  end.
Proof. intros []; reflexivity. Qed.

(** Comparison compares addresses; sums are exact; differences are exact when the
    first address is not below the second, and otherwise panic (or wrap). *)
Theorem C69_arithmetic : forall E p m a b,
  (ram_lt a b = true <-> ram_u16 m a < ram_u16 m b) /\
  ram_add (E := E) p m a b = Ok (ram_u16 m a + ram_u16 m b) /\
  (ram_u16 m b <= ram_u16 m a -> ram_sub (E := E) p m a b = Ok (ram_u16 m a - ram_u16 m b)) /\
  (ram_u16 m a < ram_u16 m b ->
     ram_sub (E := E) p m a b = match p with Debug => Panic | Release => Ok (ram_u16 m a - ram_u16 m b + 65536) end).
Proof.
  intros E p m a b. split; [|split; [|split]].
  - destruct m, a, b; vm_compute; split; intros H; (reflexivity || discriminate).
  - destruct m, a, b; reflexivity.
  - intros H. destruct m, a, b; try reflexivity; exfalso; revert H; vm_compute; intros H; apply H; reflexivity.
  - intros H. destruct m, a, b; try (exfalso; revert H; vm_compute; discriminate); destruct p; reflexivity.
Qed.
Print Assumptions C69_arithmetic.

(** Everything a frame read transfers lies between [Base] and [End]. *)
Theorem C69_frame_within_ram : forall m lay sp ap a n,
  lay = match m with M640 => layout640 | M641 => layout641 end ->
  In (a, n) (frame_reads lay sp ap) ->
  ram_u16 m RamBase <= a /\ a + Z.of_nat (n / 2) - 1 <= ram_u16 m RamEnd.
Proof.
  intros m lay sp ap a n -> H.
  assert (G : forallb (fun '(a, n) => (ram_u16 m RamBase <=? a) && (a + Z.of_nat (n / 2) - 1 <=? ram_u16 m RamEnd))
    (frame_reads (match m with M640 => layout640 | M641 => layout641 end) sp ap) = true)
    by (destruct m, sp, ap; vm_compute; reflexivity).
  rewrite forallb_forall in G. specialize (G _ H). cbn beta iota in G.
  apply andb_prop in G. destruct G as [G1 G2]. apply Z.leb_le in G1, G2. split; assumption.
Qed.
Print Assumptions C69_frame_within_ram.

(** [Address] keeps its number; on the bus it is sent high byte first. *)
Theorem C69_address : forall n, word n ->
  address_u16 (address_new n) = n /\ address_usize (address_new n) = n /\
  exists hi lo, address_bytes (address_new n) = [hi; lo] /\ byte hi /\ byte lo /\ 256 * hi + lo = n.
Proof.
  intros n Hn. unfold word in Hn. split; [reflexivity|]. split; [reflexivity|].
  exists (n / 256), (n mod 256). split; [reflexivity|]. unfold byte.
  split; [split; [apply Z.div_pos; lia|apply Z.div_lt_upper_bound; lia]|].
  split; [apply Z.mod_pos_bound; lia|]. symmetry. apply Z_div_mod_eq_full.
Qed.
Print Assumptions C69_address.

Example C69_concrete : ram_try_from M640 (address_new 0x070A) = Ok RamGain /\
  ram_try_from M641 (address_new 0x070A) = Err 0x070A /\
  ram_sub (E := unit) Debug M640 RamGain RamBase = Ok 0x030A /\ ram_sub (E := unit) Debug M640 RamBase RamGain = Panic.
Proof. repeat split. Qed.

(** ** C70 *)
(** [height] and [width] return the dimensions of the camera without touching anything; their
    product is the number of pixels of an image. *)
Theorem C70_dimensions : forall FO p B ER EW (bs : bus B ER EW) lay (d : driver (FO := FO)), documented (cam _ (d_calibration d)) lay ->
  step p bs d OpHeight = (Ok (OutNat (lay_height lay)), d, []) /\
  step p bs d OpWidth = (Ok (OutNat (lay_width lay)), d, []) /\
  (lay_height lay * lay_width lay)%nat = NUM_PIXELS _ (cam _ (d_calibration d)) /\
  HEIGHT _ (cam _ (d_calibration d)) = lay_height lay /\ WIDTH _ (cam _ (d_calibration d)) = lay_width lay /\
  (lay_height lay = 24%nat /\ lay_width lay = 32%nat \/ lay_height lay = 12%nat /\ lay_width lay = 16%nat).
Proof.
  intros FO p B ER EW bs lay d Hd. cbn [step]. unfold drv_height, drv_width.
  remember (cam FO (d_calibration d)) as c eqn:E. clear E.
  destruct Hd; (split; [reflexivity|]; split; [reflexivity|]; split; [reflexivity|]; split; [reflexivity|]; split; [reflexivity|]);
    [left|right]; split; reflexivity.
Qed.
Print Assumptions C70_dimensions.

(** After construction and any history. *)
Theorem C70_after_any_history : forall FO p B ER EW (bs : bus B ER EW) w a (d0 : driver (FO := FO)) w' ops,
  (new bs (calib640_from_i2c FO p bs) 24 1536 w a = (Ok d0, w') ->
   step_out p bs (run p bs d0 ops) OpHeight = Ok (OutNat 24) /\ step_out p bs (run p bs d0 ops) OpWidth = Ok (OutNat 32)) /\
  (new bs (calib641_from_i2c FO p bs) 12 384 w a = (Ok d0, w') ->
   step_out p bs (run p bs d0 ops) OpHeight = Ok (OutNat 12) /\ step_out p bs (run p bs d0 ops) OpWidth = Ok (OutNat 16)).
Proof.
  intros FO p B ER EW bs w a d0 w' ops. unfold step_out. split; intros Hn.
  - apply C62_new_640 in Hn. destruct Hn as [Hu Hb].
    destruct (run_usable p bs layout640 d0 ops Hu Hb) as [[Hd _] _].
    destruct (C70_dimensions FO p B ER EW bs _ _ Hd) as (E1 & E2 & _). rewrite E1, E2. split; reflexivity.
  - apply C62_new_641 in Hn. destruct Hn as [Hu Hb].
    destruct (run_usable p bs layout641 d0 ops Hu Hb) as [[Hd _] _].
    destruct (C70_dimensions FO p B ER EW bs _ _ Hd) as (E1 & E2 & _). rewrite E1, E2. split; reflexivity.
Qed.
Print Assumptions C70_after_any_history.

(** ** C71 *)
Lemma append_inj_l a : forall b c, (a ++ b = a ++ c)%string -> b = c.
Proof. induction a; intros b c H; [exact H|]. injection H as H. auto. Qed.
Lemma append_length a b : String.length (a ++ b) = (String.length a + String.length b)%nat.
Proof. induction a; cbn; [reflexivity|]. rewrite IHa. reflexivity. Qed.
Lemma append_inj_r c : forall a b, (a ++ c = b ++ c)%string -> a = b.
Proof.
  induction a as [|x a IH]; intros [|y b] H; [reflexivity| | |].
  - exfalso. apply (f_equal String.length) in H. cbn in H. rewrite append_length in H. lia.
  - exfalso. apply (f_equal String.length) in H. cbn in H. rewrite append_length in H. lia.
  - injection H as -> H. f_equal. auto.
Qed.
Lemma hex_digit_inj a b : 0 <= a < 16 -> 0 <= b < 16 -> hex_digit a = hex_digit b -> a = b.
Proof.
  intros Ha Hb H.
  assert (G : forall n, 0 <= n < 16 -> In n [0;1;2;3;4;5;6;7;8;9;10;11;12;13;14;15]) by (intros; cbn; lia).
  apply G in Ha, Hb. cbn in Ha, Hb. repeat destruct Ha as [<-|Ha]; try contradiction;
    repeat destruct Hb as [<-|Hb]; try contradiction; (reflexivity || discriminate).
Qed.
Lemma hex_digit_one n : 0 <= n < 16 -> exists c, hex_digit n = String c EmptyString.
Proof.
  intros H. assert (G : In n [0;1;2;3;4;5;6;7;8;9;10;11;12;13;14;15]) by (cbn; lia).
  cbn in G. repeat destruct G as [<-|G]; try contradiction; eexists; reflexivity.
Qed.
Lemma nibbles w : word w -> w = 4096 * (w / 4096 mod 16) + 256 * (w / 256 mod 16) + 16 * (w / 16 mod 16) + w mod 16.
Proof. unfold word. intros H. Z.div_mod_to_equations. lia. Qed.

(** The message of a checksum error shows the offending word, as 0x and four digits; so
    the word can be recovered from the message. *)
Theorem C71_checksum_message : forall w, word w ->
  (exists a b c d : Ascii.ascii, display_lib_error (Checksum w) =
     ("Invalid checksum for data 0x" ++ String a (String b (String c (String d ""))))%string /\
     hex_digit (w / 4096 mod 16) = String a "" /\ hex_digit (w / 256 mod 16) = String b "" /\
     hex_digit (w / 16 mod 16) = String c "" /\ hex_digit (w mod 16) = String d "") /\
  (forall w', word w' -> display_lib_error (Checksum w') = display_lib_error (Checksum w) -> w' = w).
Proof.
  intros w Hw. assert (B : forall x, 0 <= x mod 16 < 16) by (intros; apply Z.mod_pos_bound; lia). split.
  - destruct (hex_digit_one (w / 4096 mod 16) (B _)) as [a Ea], (hex_digit_one (w / 256 mod 16) (B _)) as [b Eb],
      (hex_digit_one (w / 16 mod 16) (B _)) as [c Ec], (hex_digit_one (w mod 16) (B _)) as [d Ed].
    exists a, b, c, d. split; [|auto]. unfold display_lib_error, hex_06. rewrite Ea, Eb, Ec, Ed. reflexivity.
  - intros w' Hw' H. unfold display_lib_error, hex_06 in H. apply append_inj_l, append_inj_l in H.
    rewrite (nibbles w Hw), (nibbles w' Hw').
    destruct (hex_digit_one (w / 4096 mod 16) (B _)) as [a Ea], (hex_digit_one (w / 256 mod 16) (B _)) as [b Eb],
      (hex_digit_one (w / 16 mod 16) (B _)) as [c Ec], (hex_digit_one (w mod 16) (B _)) as [d Ed].
    destruct (hex_digit_one (w' / 4096 mod 16) (B _)) as [a' Ea'], (hex_digit_one (w' / 256 mod 16) (B _)) as [b' Eb'],
      (hex_digit_one (w' / 16 mod 16) (B _)) as [c' Ec'], (hex_digit_one (w' mod 16) (B _)) as [d' Ed'].
    rewrite Ea, Eb, Ec, Ed, Ea', Eb', Ec', Ed' in H. cbn in H. injection H as <- <- <- <-.
    rewrite (hex_digit_inj _ _ (B (w' / 4096)) (B (w / 4096))) by congruence.
    rewrite (hex_digit_inj _ _ (B (w' / 256)) (B (w / 256))) by congruence.
    rewrite (hex_digit_inj _ _ (B (w' / 16)) (B (w / 16))) by congruence.
    rewrite (hex_digit_inj _ _ (B w') (B w)) by congruence. reflexivity.
Qed.
Print Assumptions C71_checksum_message.

Lemma escape_inj : forall a b, escape a = escape b -> a = b.
Proof.
  induction a as [|x a IH]; intros [|y b] H; cbn [escape] in H; try reflexivity.
  - destruct (_ || _); discriminate.
  - destruct (_ || _); discriminate.
  - destruct (Ascii.eqb x """" || Ascii.eqb x "\")%char eqn:Ex, (Ascii.eqb y """" || Ascii.eqb y "\")%char eqn:Ey.
    + injection H as -> H. f_equal. auto.
    + injection H as <- H. exfalso. rewrite orb_comm in Ey. discriminate.
    + injection H as -> H. exfalso. rewrite orb_comm in Ex. discriminate.
    + injection H as -> H. f_equal. auto.
Qed.
Lemma N_to_uint_nonnil n : N.to_uint n <> Decimal.Nil.
Proof. destruct n as [|q]; [discriminate|]. apply DecimalPos.Unsigned.to_uint_nonnil. Qed.
Lemma debug_u16_inj w w' : word w -> word w' -> debug_u16 w = debug_u16 w' -> w = w'.
Proof.
  unfold word, debug_u16. intros Hw Hw' H.
  apply (f_equal NilZero.uint_of_string) in H.
  rewrite !NilZero.usu in H by apply N_to_uint_nonnil. injection H as H.
  apply DecimalN.Unsigned.to_uint_inj in H. lia.
Qed.

(** The message of an error of this library determines the error; bus errors and library errors
    never have the same message; the message of a bus error is that of the bus. *)
Definition well_formed (l : lib_error) : Prop := match l with Checksum w => word w | _ => True end.
Theorem C71_debug_determines : forall l l', well_formed l -> well_formed l' -> debug_lib_error l = debug_lib_error l' -> l = l'.
Proof.
  intros [m|m|w] [m'|m'|w'] Hl Hl' H; try discriminate H; cbn [debug_lib_error] in H; apply append_inj_l, append_inj_r in H.
  - injection H as H. apply append_inj_r, escape_inj in H. congruence.
  - injection H as H. apply append_inj_r, escape_inj in H. congruence.
  - apply debug_u16_inj in H; [congruence|assumption|assumption].
Qed.
Print Assumptions C71_debug_determines.
Theorem C71_error_messages : forall ER EW (dr : ER -> string) (dw : EW -> string) (e e' : error ER EW),
  display_error dr dw e = display_error dr dw e' ->
  match e, e' with
  | LibraryError l, LibraryError l' => well_formed l -> well_formed l' -> l = l'
  | I2cWriteReadError x, I2cWriteReadError x' => dr x = dr x'
  | I2cWriteError x, I2cWriteError x' => dw x = dw x'
  | I2cWriteReadError x, I2cWriteError x' | I2cWriteError x', I2cWriteReadError x => dr x = dw x'
  | _, _ => False
  end.
Proof.
  intros ER EW dr dw [x|x|l] [x'|x'|l'] H; try discriminate H; cbn [display_error] in H; apply append_inj_l in H; auto.
  intros. apply C71_debug_determines; assumption.
Qed.
Print Assumptions C71_error_messages.
(** Unlike [Display], [Debug] tells failed reads from failed writes. *)
Theorem C71_debug_error : forall ER EW (dr : ER -> string) (dw : EW -> string) (e e' : error ER EW),
  debug_error dr dw e = debug_error dr dw e' ->
  match e, e' with
  | LibraryError l, LibraryError l' => well_formed l -> well_formed l' -> l = l'
  | I2cWriteReadError x, I2cWriteReadError x' => dr x = dr x'
  | I2cWriteError x, I2cWriteError x' => dw x = dw x'
  | _, _ => False
  end.
Proof.
  intros ER EW dr dw [x|x|l] [x'|x'|l'] H; try discriminate H; cbn [debug_error] in H; apply append_inj_l, append_inj_r in H; auto.
  intros. apply C71_debug_determines; assumption.
Qed.
Print Assumptions C71_debug_error.
(** Every error has a source: the one it was built from. *)
Theorem C71_source : forall ER EW (e : error ER EW), exists s, error_source e = Some s /\
  forall e' : error ER EW, error_source e' = Some s -> e' = e.
Proof.
  intros ER EW [x|x|l]; eexists; (split; [reflexivity|]); intros [x'|x'|l'] H; try discriminate H; injection H as ->; reflexivity.
Qed.
Print Assumptions C71_source.

Example C71_concrete :
  display_lib_error (Checksum 0x0A2F) = "Invalid checksum for data 0x0A2F"%string /\
  display_lib_error (InvalidData "Invalid frame rate given") = "Invalid frame rate given"%string /\
  display_error (ER := unit) (EW := unit) (fun _ => ""%string) (fun _ => ""%string) (LibraryError (Checksum 2607))
    = "Library Error: Checksum(2607)"%string /\
  display_error (fun _ : unit => "Nack"%string) (fun _ : unit => ""%string) (I2cWriteReadError tt) = "I2C Error: Nack"%string.
Proof. repeat split. Qed.
