(** * HammingFacts: the (16, 11) code is linear; all claims reduce to error patterns. *)
From Verif Require Import Base Register BitFacts SpecRegister RegisterFacts Hamming SpecHamming.

(** ** Parity *)
Definition par (l : list Z) (w : Z) : bool := fold_right (fun i acc => xorb (Z.testbit w i) acc) false l.

Lemma par_lxor l a b : par l (Z.lxor a b) = xorb (par l a) (par l b).
Proof.
  induction l as [|i l IH]; simpl; [reflexivity|]. rewrite IH, Z.lxor_spec.
  destruct (Z.testbit a i), (Z.testbit b i), (par l a), (par l b); reflexivity.
Qed.

Lemma par_0 l : par l 0 = false.
Proof. induction l as [|i l IH]; simpl; [reflexivity|]. rewrite IH, Z.bits_0. reflexivity. Qed.

Lemma par_ext l a b : (forall i, In i l -> Z.testbit a i = Z.testbit b i) -> par l a = par l b.
Proof.
  induction l as [|i l IH]; simpl; intros H; [reflexivity|].
  rewrite (H i) by auto. rewrite IH by auto. reflexivity.
Qed.

Lemma count_fold l w acc :
  fold_left (fun acc i => acc + Z.b2z (Z.testbit w i)) l acc =
  acc + fold_right (fun i s => Z.b2z (Z.testbit w i) + s) 0 l.
Proof. revert acc. induction l as [|i l IH]; simpl; intros acc; [lia|]. rewrite IH. lia. Qed.

Lemma odd_count l w : Z.odd (fold_right (fun i s => Z.b2z (Z.testbit w i) + s) 0 l) = par l w.
Proof.
  induction l as [|i l IH]; simpl; [reflexivity|]. rewrite Z.odd_add, IH.
  destruct (Z.testbit w i); reflexivity.
Qed.

Lemma count_ones_par w : count_ones w mod 2 = Z.b2z (par positions w).
Proof.
  unfold count_ones. change (map Z.of_nat (seq 0 16)) with positions.
  rewrite count_fold, Z.add_0_l, Zmod_odd, odd_count. destruct (par positions w); reflexivity.
Qed.

(** Parity of the masked word: only masked positions count. *)
Lemma par_filter l w m :
  par l (Z.land w m) = par (filter (Z.testbit m) l) w.
Proof.
  induction l as [|i l IH]; simpl; [reflexivity|]. rewrite IH, Z.land_spec.
  destruct (Z.testbit m i); simpl; rewrite ?andb_true_r, ?andb_false_r, ?xorb_false_l; reflexivity.
Qed.

(** ** One round of [add_parity] *)
Definition covers (m : Z) : list Z := filter (Z.testbit m) positions.

Lemma covers_range m n i : 0 <= n -> 0 <= m < 2 ^ n -> In i (covers m) -> 0 <= i < n.
Proof.
  intros Hn Hm Hi. unfold covers in Hi. apply filter_In in Hi. destruct Hi as [Hin Ht].
  assert (H0 : 0 <= i).
  { clear -Hin. unfold positions in Hin.
    repeat (destruct Hin as [<-|Hin]; [discriminate|]). destruct Hin. }
  split; [exact H0|]. destruct (Z.lt_ge_cases i n) as [|Hge]; [assumption|].
  rewrite (small_testbit_high m n i) in Ht; [discriminate|assumption|lia].
Qed.
Lemma covers_11 m i : 0 <= m < 2048 -> In i (covers m) -> 0 <= i < 11.
Proof. intros Hm. apply covers_range; [lia|exact Hm]. Qed.
Ltac cov := match goal with H : In _ (covers 0x7FFF) |- _ => apply (covers_range 0x7FFF 15) in H; [|lia|lia]
  | H : In _ (covers _) |- _ => apply covers_11 in H; [|lia] end.

Definition round (w m k : Z) : Z :=
  Z.lor w (Z.land (Z.shiftl (count_ones (Z.land w m) mod 2) k) 65535).

Lemma round_bit w m k i : 0 <= k < 16 -> 0 <= i < 16 -> Z.testbit w k = false ->
  Z.testbit (round w m k) i = if i =? k then par (covers m) w else Z.testbit w i.
Proof.
  intros Hk Hi Hw. unfold round. rewrite count_ones_par, par_filter. fold (covers m).
  rewrite Z.lor_spec, Z.land_spec, testbit_65535, Z.shiftl_spec by lia.
  replace (i <? 16) with true by lia. rewrite andb_true_r.
  destruct (Z.eqb_spec i k) as [->|Hne].
  - rewrite Hw, Z.sub_diag. destruct (par (covers m) w); reflexivity.
  - destruct (Z.lt_ge_cases i k).
    + rewrite (Z.testbit_neg_r (Z.b2z _)) by lia. apply orb_false_r.
    + rewrite (small_testbit_high (Z.b2z _) 1).
      * apply orb_false_r.
      * destruct (par (covers m) w); simpl; lia.
      * lia.
Qed.

Lemma round_word w m k : 0 <= k -> word w -> word (round w m k).
Proof.
  intros Hk Hw. unfold round. apply word_lor; [assumption|].
  apply word_land_r; [|unfold word; lia].
  apply Z.shiftl_nonneg. apply Z.mod_pos_bound. lia.
Qed.

Definition encode (d : Z) : Z := add_parity PARITY_MASKS 0 d.

Lemma encode_rounds d :
  encode d = round (round (round (round (round d 0x055B 11) 0x066D 12) 0x078E 13) 0x07F0 14) 0x7FFF 15.
Proof. reflexivity. Qed.

Definition data (d : Z) : Prop := 0 <= d < 2048.
Lemma data_word d : data d -> word d.
Proof. unfold data, word. lia. Qed.
Lemma data_high d i : data d -> 11 <= i -> Z.testbit d i = false.
Proof. intros Hd Hi. apply (small_testbit_high d 11); [exact Hd|lia]. Qed.

Lemma add_checksum_data d : data d -> add_checksum d = Ok (encode d).
Proof.
  intros Hd. unfold add_checksum. replace (Z.land d (not16 DATA_MASK) =? 0) with true; [reflexivity|].
  symmetry. apply Z.eqb_eq. apply Z.bits_inj'. intros i Hi. rewrite Z.bits_0, Z.land_spec, testbit_not16 by lia.
  destruct (Z.lt_ge_cases i 11) as [Hlt|Hge].
  - change DATA_MASK with (Z.ones 11). rewrite Z.testbit_ones_nonneg by lia.
    replace (i <? 16) with true by lia. replace (i <? 11) with true by lia. apply andb_false_r.
  - rewrite (data_high d i Hd Hge). reflexivity.
Qed.

Lemma add_checksum_big w : word w -> 2048 <= w ->
  add_checksum w = Err (OtherError "Value given to add_checksum already has a checksum").
Proof.
  intros Hw Hb. unfold add_checksum. destruct (Z.eqb_spec (Z.land w (not16 DATA_MASK)) 0) as [H0|]; [|reflexivity].
  exfalso. assert (Hlt : w < 2 ^ 11); [|lia].
  apply bits_lt_pow2; [lia|apply Hw|]. intros i Hi.
  destruct (Z.lt_ge_cases i 16) as [Hlt|Hge]; [|apply word_testbit_high; assumption].
  assert (Ht : Z.testbit (Z.land w (not16 DATA_MASK)) i = false) by (rewrite H0; apply Z.bits_0).
  rewrite Z.land_spec, testbit_not16 in Ht by lia.
  change DATA_MASK with (Z.ones 11) in Ht. rewrite Z.testbit_ones_nonneg in Ht by lia.
  replace (i <? 16) with true in Ht by lia. replace (i <? 11) with false in Ht by lia.
  rewrite andb_true_r in Ht. exact Ht.
Qed.

Lemma word_encode d : data d -> word (encode d).
Proof.
  intros Hd. rewrite encode_rounds. do 5 (apply round_word; [lia|]). apply data_word. assumption.
Qed.

(** Bits of [encode]. *)
Section EncodeBits.
Variable d : Z.
Hypothesis Hd : data d.
Let r0 := round d 0x055B 11.
Let r1 := round r0 0x066D 12.
Let r2 := round r1 0x078E 13.
Let r3 := round r2 0x07F0 14.

Lemma r0_bit i : 0 <= i < 16 ->
  Z.testbit r0 i = if i =? 11 then par (covers 0x055B) d else Z.testbit d i.
Proof. intros Hi. apply round_bit; try lia. apply data_high; [assumption|lia]. Qed.
Lemma r1_bit i : 0 <= i < 16 ->
  Z.testbit r1 i = if i =? 12 then par (covers 0x066D) r0 else Z.testbit r0 i.
Proof.
  intros Hi. apply round_bit; try lia. rewrite r0_bit by lia. cbn [Z.eqb Pos.eqb].
  apply data_high; [assumption|lia].
Qed.
Lemma r2_bit i : 0 <= i < 16 ->
  Z.testbit r2 i = if i =? 13 then par (covers 0x078E) r1 else Z.testbit r1 i.
Proof.
  intros Hi. apply round_bit; try lia. rewrite r1_bit, r0_bit by lia. cbn [Z.eqb Pos.eqb].
  apply data_high; [assumption|lia].
Qed.
Lemma r3_bit i : 0 <= i < 16 ->
  Z.testbit r3 i = if i =? 14 then par (covers 0x07F0) r2 else Z.testbit r2 i.
Proof.
  intros Hi. apply round_bit; try lia. rewrite r2_bit, r1_bit, r0_bit by lia. cbn [Z.eqb Pos.eqb].
  apply data_high; [assumption|lia].
Qed.
Lemma r4_bit i : 0 <= i < 16 ->
  Z.testbit (encode d) i = if i =? 15 then par (covers 0x7FFF) r3 else Z.testbit r3 i.
Proof.
  intros Hi. rewrite encode_rounds. fold r0 r1 r2 r3. apply round_bit; try lia.
  rewrite r3_bit, r2_bit, r1_bit, r0_bit by lia. cbn [Z.eqb Pos.eqb]. apply data_high; [assumption|lia].
Qed.

(** Each parity bit in terms of the final word. *)
Lemma low_bits i : 0 <= i < 11 -> Z.testbit (encode d) i = Z.testbit d i.
Proof.
  intros Hi. rewrite r4_bit, r3_bit, r2_bit, r1_bit, r0_bit by lia.
  destruct (Z.eqb_spec i 15), (Z.eqb_spec i 14), (Z.eqb_spec i 13), (Z.eqb_spec i 12), (Z.eqb_spec i 11); first [lia|reflexivity].
Qed.

Lemma encode_bit k l : In (k, l) [(11, covers 0x055B); (12, covers 0x066D); (13, covers 0x078E); (14, covers 0x07F0)] ->
  Z.testbit (encode d) k = par l d.
Proof.
  intros H. simpl in H. destruct H as [H|[H|[H|[H|[]]]]]; injection H as <- <-.
  - rewrite r4_bit, r3_bit, r2_bit, r1_bit, r0_bit by lia. reflexivity.
  - rewrite r4_bit, r3_bit, r2_bit, r1_bit by lia. simpl (_ =? _). cbv iota. apply par_ext.
    intros i Hi. rewrite r0_bit.
    + cov. destruct (Z.eqb_spec i 11); [lia|reflexivity].
    + cov. lia.
  - rewrite r4_bit, r3_bit, r2_bit by lia. simpl (_ =? _). cbv iota. apply par_ext.
    intros i Hi. cov. rewrite r1_bit, r0_bit by lia.
    destruct (Z.eqb_spec i 12), (Z.eqb_spec i 11); first [lia|reflexivity].
  - rewrite r4_bit, r3_bit by lia. simpl (_ =? _). cbv iota. apply par_ext.
    intros i Hi. cov. rewrite r2_bit, r1_bit, r0_bit by lia.
    destruct (Z.eqb_spec i 13), (Z.eqb_spec i 12), (Z.eqb_spec i 11); first [lia|reflexivity].
Qed.

Lemma encode_bit15 : Z.testbit (encode d) 15 = par (covers 0x7FFF) (encode d).
Proof.
  rewrite r4_bit by lia. simpl (_ =? _). cbv iota. apply par_ext.
  intros i Hi. cov. rewrite (r4_bit i) by lia.
  destruct (Z.eqb_spec i 15); [lia|reflexivity].
Qed.
End EncodeBits.

Lemma data_lxor a b : data a -> data b -> data (Z.lxor a b).
Proof.
  intros Ha Hb. split.
  - apply Z.lxor_nonneg. split; intros _; [apply Hb|apply Ha].
  - change 2048 with (2 ^ 11). apply bits_lt_pow2; [lia| |].
    + apply Z.lxor_nonneg. split; intros _; [apply Hb|apply Ha].
    + intros i Hi. rewrite Z.lxor_spec, !data_high by assumption. reflexivity.
Qed.

Lemma covers_7FFF : covers 0x7FFF = [0; 1; 2; 3; 4; 5; 6; 7; 8; 9; 10; 11; 12; 13; 14].
Proof. reflexivity. Qed.

Lemma encode_bit11 d : data d -> Z.testbit (encode d) 11 = par (covers 0x055B) d.
Proof. intros Hd. apply encode_bit; [exact Hd|left; reflexivity]. Qed.
Lemma encode_bit12 d : data d -> Z.testbit (encode d) 12 = par (covers 0x066D) d.
Proof. intros Hd. apply encode_bit; [exact Hd|right; left; reflexivity]. Qed.
Lemma encode_bit13 d : data d -> Z.testbit (encode d) 13 = par (covers 0x078E) d.
Proof. intros Hd. apply encode_bit; [exact Hd|right; right; left; reflexivity]. Qed.
Lemma encode_bit14 d : data d -> Z.testbit (encode d) 14 = par (covers 0x07F0) d.
Proof. intros Hd. apply encode_bit; [exact Hd|right; right; right; left; reflexivity]. Qed.
#[local] Opaque par covers.

Definition covered (c k m : Z) : Prop := Z.testbit c k = par (covers m) c.

Lemma encode_ext d c : data d -> word c ->
  (forall i, 0 <= i < 11 -> Z.testbit c i = Z.testbit d i) ->
  covered c 11 0x055B -> covered c 12 0x066D ->
  covered c 13 0x078E -> covered c 14 0x07F0 ->
  covered c 15 0x7FFF -> encode d = c.
Proof.
  intros Hd Hc Hlow H11 H12 H13 H14 H15.
  assert (Hp : forall l, (forall i, In i l -> 0 <= i < 11) -> par l c = par l d).
  { intros l Hl. apply par_ext. intros i Hi. apply Hlow. apply Hl. assumption. }
  assert (B : forall i, 0 <= i < 15 -> Z.testbit (encode d) i = Z.testbit c i).
  { intros i Hi. destruct (Z.lt_ge_cases i 11).
    - rewrite low_bits by (assumption || lia). symmetry. apply Hlow. lia.
    - assert (Hcase : i = 11 \/ i = 12 \/ i = 13 \/ i = 14) by lia.
      destruct Hcase as [->|[->|[->| ->]]].
      + rewrite (encode_bit11 d Hd). unfold covered in H11. rewrite H11. symmetry. apply Hp.
        intros j Hj. cov. lia.
      + rewrite (encode_bit12 d Hd). unfold covered in H12. rewrite H12. symmetry. apply Hp.
        intros j Hj. cov. lia.
      + rewrite (encode_bit13 d Hd). unfold covered in H13. rewrite H13. symmetry. apply Hp.
        intros j Hj. cov. lia.
      + rewrite (encode_bit14 d Hd). unfold covered in H14. rewrite H14. symmetry. apply Hp.
        intros j Hj. cov. lia. }
  apply word_ext; [apply word_encode; assumption|assumption|].
  intros i Hi. destruct (Z.lt_ge_cases i 15); [apply B; lia|].
  replace i with 15 by lia. rewrite encode_bit15 by assumption. unfold covered in H15. rewrite H15. apply par_ext.
  intros j Hj. apply B. cov. lia.
Qed.

(** ** Linearity *)
Lemma encode_lxor a b : data a -> data b -> encode (Z.lxor a b) = Z.lxor (encode a) (encode b).
Proof.
  intros Ha Hb. apply encode_ext.
  - apply data_lxor; assumption.
  - apply word_lxor; apply word_encode; assumption.
  - intros i Hi. rewrite !Z.lxor_spec, !low_bits by (assumption || lia). reflexivity.
  - unfold covered. rewrite Z.lxor_spec, par_lxor. f_equal.
    + rewrite (encode_bit11 a Ha). symmetry. apply par_ext.
      intros j Hj. apply low_bits; [assumption|]. cov. lia.
    + rewrite (encode_bit11 b Hb). symmetry. apply par_ext.
      intros j Hj. apply low_bits; [assumption|]. cov. lia.
  - unfold covered. rewrite Z.lxor_spec, par_lxor. f_equal.
    + rewrite (encode_bit12 a Ha). symmetry. apply par_ext.
      intros j Hj. apply low_bits; [assumption|]. cov. lia.
    + rewrite (encode_bit12 b Hb). symmetry. apply par_ext.
      intros j Hj. apply low_bits; [assumption|]. cov. lia.
  - unfold covered. rewrite Z.lxor_spec, par_lxor. f_equal.
    + rewrite (encode_bit13 a Ha). symmetry. apply par_ext.
      intros j Hj. apply low_bits; [assumption|]. cov. lia.
    + rewrite (encode_bit13 b Hb). symmetry. apply par_ext.
      intros j Hj. apply low_bits; [assumption|]. cov. lia.
  - unfold covered. rewrite Z.lxor_spec, par_lxor. f_equal.
    + rewrite (encode_bit14 a Ha). symmetry. apply par_ext.
      intros j Hj. apply low_bits; [assumption|]. cov. lia.
    + rewrite (encode_bit14 b Hb). symmetry. apply par_ext.
      intros j Hj. apply low_bits; [assumption|]. cov. lia.
  - unfold covered. rewrite Z.lxor_spec, par_lxor. f_equal; apply encode_bit15; assumption.
Qed.

Lemma land_data w : word w -> data (Z.land w DATA_MASK).
Proof.
  intros Hw. change DATA_MASK with (Z.ones 11). rewrite Z.land_ones by lia.
  change (2 ^ 11) with 2048. apply Z.mod_pos_bound. lia.
Qed.
Lemma land_data_id d : data d -> Z.land d DATA_MASK = d.
Proof.
  intros Hd. change DATA_MASK with (Z.ones 11). rewrite Z.land_ones by lia. apply Z.mod_small. exact Hd.
Qed.
Lemma land_lxor_r a b m : Z.land (Z.lxor a b) m = Z.lxor (Z.land a m) (Z.land b m).
Proof.
  apply Z.bits_inj'. intros i Hi. rewrite !Z.land_spec, !Z.lxor_spec, !Z.land_spec.
  destruct (Z.testbit a i), (Z.testbit b i), (Z.testbit m i); reflexivity.
Qed.
Lemma land_encode d : data d -> Z.land (encode d) DATA_MASK = d.
Proof.
  intros Hd. apply word_ext; [apply word_land; [apply word_encode; assumption|unfold DATA_MASK; lia]|apply data_word; assumption|].
  intros i Hi. rewrite Z.land_spec. change DATA_MASK with (Z.ones 11). rewrite Z.testbit_ones_nonneg by lia.
  destruct (Z.ltb_spec i 11).
  - rewrite low_bits by (assumption || lia). apply andb_true_r.
  - rewrite (data_high d i) by (assumption || lia). apply andb_false_r.
Qed.

Lemma lxor_cancel_eqb a b c : (Z.lxor a b =? Z.lxor a c) = (b =? c).
Proof.
  destruct (Z.eqb_spec b c) as [->|Hne]; [apply Z.eqb_refl|].
  apply Z.eqb_neq. intros H. apply Hne.
  assert (H2 : Z.lxor a (Z.lxor a b) = Z.lxor a (Z.lxor a c)) by (rewrite H; reflexivity).
  rewrite <- !Z.lxor_assoc, Z.lxor_nilpotent, !Z.lxor_0_l in H2. exact H2.
Qed.

Lemma locate_word masks k ap e : word e -> word (locate_error masks k ap e).
Proof.
  revert k e. induction masks as [|mk masks IH]; simpl; intros k e He; [assumption|].
  apply IH. destruct (is_bit_set ap k).
  - apply bits_word.
    + apply Z.land_nonneg. left. apply He.
    + intros i Hi. rewrite Z.land_spec, word_testbit_high by assumption. reflexivity.
  - apply bits_word.
    + apply Z.land_nonneg. left. apply He.
    + intros i Hi. rewrite Z.land_spec, word_testbit_high by assumption. reflexivity.
Qed.

(** ** Decoding is equivariant: it only looks at the error pattern. *)
Theorem validate_shift d e : data d -> word e ->
  validate_checksum (Z.lxor (encode d) e) =
  match validate_checksum e with
  | Ok x => Ok (Z.lxor d x)
  | _ => Err (Checksum (Z.lxor (encode d) e))
  end.
Proof.
  intros Hd He. set (w := Z.lxor (encode d) e).
  assert (Hw : word w) by (apply word_lxor; [apply word_encode; assumption|assumption]).
  pose proof (land_data e He) as Hde. pose proof (land_data w Hw) as Hdw.
  assert (Hwd : Z.land w DATA_MASK = Z.lxor d (Z.land e DATA_MASK)).
  { unfold w. rewrite land_lxor_r, land_encode by assumption. reflexivity. }
  assert (Henc : encode (Z.land w DATA_MASK) = Z.lxor (encode d) (encode (Z.land e DATA_MASK))).
  { rewrite Hwd. apply encode_lxor; assumption. }
  unfold validate_checksum. rewrite !add_checksum_data by assumption. cbn [bind].
  rewrite Henc. unfold w at 1. rewrite lxor_cancel_eqb.
  destruct (encode (Z.land e DATA_MASK) =? e) eqn:Heq; cbn [negb].
  - rewrite Hwd. reflexivity.
  - assert (Haff : Z.lxor (Z.land w (not16 DATA_MASK))
                     (Z.land (Z.lxor (encode d) (encode (Z.land e DATA_MASK))) (not16 DATA_MASK)) =
                   Z.lxor (Z.land e (not16 DATA_MASK)) (Z.land (encode (Z.land e DATA_MASK)) (not16 DATA_MASK))).
    { unfold w. rewrite !land_lxor_r.
      set (A := Z.land (encode d) _). set (B := Z.land e (not16 DATA_MASK)). set (C := Z.land (encode (Z.land e DATA_MASK)) _).
      rewrite (Z.lxor_comm A B), Z.lxor_assoc, <- (Z.lxor_assoc A A C), Z.lxor_nilpotent, Z.lxor_0_l. reflexivity. }
    rewrite Haff.
    set (eb := locate_error _ _ _ _).
    assert (Heb : word eb) by (apply locate_word; unfold word; lia).
    assert (Hcor : Z.lxor w eb = Z.lxor (encode d) (Z.lxor e eb)) by (unfold w; apply Z.lxor_assoc).
    assert (Hwe : word (Z.lxor e eb)) by (apply word_lxor; assumption).
    pose proof (land_data _ Hwe) as Hdc.
    assert (Hcd : Z.land (Z.lxor w eb) DATA_MASK = Z.lxor d (Z.land (Z.lxor e eb) DATA_MASK)).
    { rewrite Hcor, land_lxor_r, land_encode by assumption. reflexivity. }
    rewrite Hcd, add_checksum_data by (apply data_lxor; assumption).
    rewrite encode_lxor by assumption. rewrite Hcor, lxor_cancel_eqb.
    rewrite add_checksum_data by assumption.
    destruct (encode (Z.land (Z.lxor e eb) DATA_MASK) =? Z.lxor e eb); reflexivity.
Qed.

(** ** Words as error patterns *)
Lemma word_split w : word w ->
  exists d p, data d /\ 0 <= p < 32 /\ w = Z.lxor (encode d) (Z.shiftl p 11).
Proof.
  intros Hw. set (d := Z.land w DATA_MASK). pose proof (land_data w Hw) as Hd. fold d in Hd.
  set (e := Z.lxor (encode d) w).
  assert (He : word e) by (apply word_lxor; [apply word_encode; assumption|assumption]).
  exists d, (Z.shiftr e 11). split; [assumption|]. split.
  - rewrite Z.shiftr_div_pow2 by lia. change (2 ^ 11) with 2048. destruct He as [H0 H1].
    split; [apply Z.div_pos; lia|apply Z.div_lt_upper_bound; lia].
  - assert (Hs : Z.shiftl (Z.shiftr e 11) 11 = e).
    { apply Z.bits_inj'. intros i Hi. rewrite Z.shiftl_spec by lia.
      destruct (Z.lt_ge_cases i 11).
      - rewrite Z.testbit_neg_r by lia. symmetry. unfold e. rewrite Z.lxor_spec, low_bits by (assumption || lia).
        unfold d. rewrite Z.land_spec. change DATA_MASK with (Z.ones 11). rewrite Z.testbit_ones_nonneg by lia.
        replace (i <? 11) with true by lia. rewrite andb_true_r. apply xorb_nilpotent.
      - rewrite Z.shiftr_spec by lia. f_equal. lia. }
    rewrite Hs. unfold e. rewrite <- Z.lxor_assoc, Z.lxor_nilpotent, Z.lxor_0_l. reflexivity.
Qed.

Lemma in_positions i : In i positions <-> 0 <= i < 16.
Proof.
  change positions with (map Z.of_nat (seq 0 16)). rewrite in_map_iff. split.
  - intros (n & <- & Hn). apply in_seq in Hn. lia.
  - intros Hi. exists (Z.to_nat i). split; [lia|]. apply in_seq. lia.
Qed.

(** [distance] and the xor of the words. *)
Definition ones (e : Z) : list Z := filter (Z.testbit e) positions.
Lemma distance_ones a b : distance a b = length (ones (Z.lxor a b)).
Proof.
  unfold distance, ones. f_equal. apply filter_ext_in. intros i Hi.
  assert (0 <= i) by (apply in_positions in Hi; lia). rewrite !bit_testbit, Z.lxor_spec by assumption. reflexivity.
Qed.

Lemma ones_In e i : In i (ones e) <-> 0 <= i < 16 /\ Z.testbit e i = true.
Proof. unfold ones. rewrite filter_In, in_positions. reflexivity. Qed.

Lemma ones_NoDup e : NoDup (ones e).
Proof.
  apply NoDup_filter. unfold positions. repeat constructor; simpl; lia.
Qed.

Lemma ones_0 e : word e -> length (ones e) = 0%nat -> e = 0.
Proof.
  intros He Hl. apply length_zero_iff_nil in Hl. apply word_ext; [assumption|unfold word; lia|].
  intros i Hi. rewrite Z.bits_0. destruct (Z.testbit e i) eqn:Hb; [|reflexivity].
  assert (Hin : In i (ones e)) by (apply ones_In; auto). rewrite Hl in Hin. destruct Hin.
Qed.

Lemma pow2_word i : 0 <= i < 16 -> word (2 ^ i).
Proof.
  intros Hi. split; [apply Z.pow_nonneg; lia|]. change 65536 with (2 ^ 16). apply Z.pow_lt_mono_r; lia.
Qed.

Lemma ones_1 e : word e -> length (ones e) = 1%nat -> exists i, 0 <= i < 16 /\ e = 2 ^ i.
Proof.
  intros He Hl. destruct (ones e) as [|i [|j l]] eqn:Ho; try discriminate.
  assert (Hi : In i (ones e)) by (rewrite Ho; simpl; auto). apply ones_In in Hi. destruct Hi as [Hr Hb].
  exists i. split; [assumption|]. apply word_ext; [assumption|apply pow2_word; assumption|].
  intros j Hj. rewrite Z.pow2_bits_eqb by lia. destruct (Z.eqb_spec i j) as [<-|Hne]; [assumption|].
  destruct (Z.testbit e j) eqn:Hbj; [|reflexivity]. exfalso.
  assert (Hin : In j (ones e)) by (apply ones_In; auto). rewrite Ho in Hin. simpl in Hin. intuition lia.
Qed.

Lemma ones_2 e : word e -> length (ones e) = 2%nat ->
  exists i j, 0 <= i < 16 /\ 0 <= j < 16 /\ i <> j /\ e = Z.lxor (2 ^ i) (2 ^ j).
Proof.
  intros He Hl. destruct (ones e) as [|i [|j [|k l]]] eqn:Ho; try discriminate.
  assert (Hi : In i (ones e)) by (rewrite Ho; simpl; auto). apply ones_In in Hi. destruct Hi as [Hri Hbi].
  assert (Hj : In j (ones e)) by (rewrite Ho; simpl; auto). apply ones_In in Hj. destruct Hj as [Hrj Hbj].
  pose proof (ones_NoDup e) as Hnd. rewrite Ho in Hnd. inversion Hnd as [|? ? Hnin _]; subst.
  assert (Hne : i <> j) by (simpl in Hnin; intuition).
  exists i, j. repeat (split; [assumption|]).
  apply word_ext; [assumption|apply word_lxor; apply pow2_word; assumption|].
  intros k Hk. rewrite Z.lxor_spec, !Z.pow2_bits_eqb by lia.
  destruct (Z.eqb_spec i k) as [<-|]; [destruct (Z.eqb_spec j i); [lia|assumption]|].
  destruct (Z.eqb_spec j k) as [<-|]; [assumption|].
  destruct (Z.testbit e k) eqn:Hbk; [|reflexivity]. exfalso.
  assert (Hin : In k (ones e)) by (apply ones_In; auto). rewrite Ho in Hin. simpl in Hin. intuition lia.
Qed.

(** Finite sweeps (over error patterns, not data words). *)
Lemma validate_zero : validate_checksum 0 = Ok 0.
Proof. reflexivity. Qed.

Lemma sweep_single : forallb (fun i => match validate_checksum (2 ^ i) with Ok x => x =? 0 | _ => false end) positions = true.
Proof. vm_compute. reflexivity. Qed.
Lemma validate_single i : 0 <= i < 16 -> validate_checksum (2 ^ i) = Ok 0.
Proof.
  intros Hi. pose proof sweep_single as H. rewrite forallb_forall in H.
  specialize (H i (proj2 (in_positions i) Hi)). destruct (validate_checksum (2 ^ i)); try discriminate.
  apply Z.eqb_eq in H. subst. reflexivity.
Qed.

Lemma sweep_double : forallb (fun i => forallb (fun j =>
   (i =? j) || match validate_checksum (Z.lxor (2 ^ i) (2 ^ j)) with Err _ => true | _ => false end)
   positions) positions = true.
Proof. vm_compute. reflexivity. Qed.
Lemma validate_double i j : 0 <= i < 16 -> 0 <= j < 16 -> i <> j ->
  exists x, validate_checksum (Z.lxor (2 ^ i) (2 ^ j)) = Err x.
Proof.
  intros Hi Hj Hne. pose proof sweep_double as H. rewrite forallb_forall in H.
  specialize (H i (proj2 (in_positions i) Hi)). rewrite forallb_forall in H.
  specialize (H j (proj2 (in_positions j) Hj)).
  replace (i =? j) with false in H by (symmetry; apply Z.eqb_neq; assumption). simpl in H.
  destruct (validate_checksum _) as [x|x| |]; try discriminate. exists x. reflexivity.
Qed.

(** The 32 syndromes. *)
Definition syndromes : list Z := map Z.of_nat (seq 0 32).
Lemma sweep_syndromes : forallb (fun p =>
   match validate_checksum (Z.shiftl p 11) with
   | Ok x => (0 <=? x) && (x <? 2048) && Nat.leb (length (ones (Z.lxor (Z.shiftl p 11) (encode x)))) 1
   | Err _ => true
   | _ => false
   end) syndromes = true.
Proof. vm_compute. reflexivity. Qed.
Lemma validate_syndrome p : 0 <= p < 32 ->
  (exists x, validate_checksum (Z.shiftl p 11) = Ok x /\ data x /\
             (length (ones (Z.lxor (Z.shiftl p 11) (encode x))) <= 1)%nat) \/
  (exists x, validate_checksum (Z.shiftl p 11) = Err x).
Proof.
  intros Hp. pose proof sweep_syndromes as H. rewrite forallb_forall in H.
  assert (Hin : In p syndromes).
  { unfold syndromes. apply in_map_iff. exists (Z.to_nat p). split; [lia|]. apply in_seq. lia. }
  specialize (H p Hin). destruct (validate_checksum (Z.shiftl p 11)) as [x|x| |]; try discriminate.
  - left. exists x. apply andb_prop in H. destruct H as [H H3]. apply andb_prop in H. destruct H as [H1 H2].
    split; [reflexivity|]. split; [unfold data; lia|]. apply Nat.leb_le. exact H3.
  - right. exists x. reflexivity.
Qed.

(** ** Codewords *)
#[local] Transparent par covers.
Lemma parity_of_par c l : (forall i, In i l -> 0 <= i) -> parity_of c l = par l c.
Proof.
  induction l as [|i l IH]; simpl; intros H; [reflexivity|].
  rewrite IH by auto. rewrite bit_testbit by auto. reflexivity.
Qed.

Lemma par_perm_swap i j l w : par (i :: j :: l) w = par (j :: i :: l) w.
Proof. simpl. destruct (Z.testbit w i), (Z.testbit w j), (par l w); reflexivity. Qed.

Lemma par_rev l w : par (rev l) w = par l w.
Proof.
  assert (Happ : forall a b, par (a ++ b) w = xorb (par a w) (par b w)).
  { induction a as [|i a IH]; intros b; simpl; [destruct (par b w); reflexivity|].
    rewrite IH. rewrite xorb_assoc. reflexivity. }
  induction l as [|i l IH]; simpl; [reflexivity|]. rewrite Happ, IH. simpl.
  destruct (Z.testbit w i), (par l w); reflexivity.
Qed.

Lemma cover_lists c :
  parity_of c P0_covers = par (covers 0x055B) c /\ parity_of c P1_covers = par (covers 0x066D) c /\
  parity_of c P2_covers = par (covers 0x078E) c /\ parity_of c P3_covers = par (covers 0x07F0) c /\
  parity_of c P4_covers = par (covers 0x7FFF) c.
Proof.
  repeat split; (rewrite parity_of_par by (simpl; intros; lia)); rewrite <- par_rev; reflexivity.
Qed.

#[local] Opaque par covers.
Lemma data_of_land c : Z.land c DATA_MASK = data_of c.
Proof. unfold data_of. change DATA_MASK with (Z.ones 11). rewrite Z.land_ones by lia. reflexivity. Qed.

Lemma data_of_range c : 0 <= data_of c < 2048.
Proof. apply Z.mod_pos_bound. lia. Qed.

Lemma testbit_data_of c i : 0 <= i < 11 -> Z.testbit (data_of c) i = Z.testbit c i.
Proof. intros Hi. unfold data_of. change 2048 with (2 ^ 11). apply Z.mod_pow2_bits_low. lia. Qed.

Lemma codeword_covered c : is_codeword c <->
  word c /\ covered c 11 0x055B /\ covered c 12 0x066D /\ covered c 13 0x078E /\ covered c 14 0x07F0 /\ covered c 15 0x7FFF.
Proof.
  destruct (cover_lists c) as (C0 & C1 & C2 & C3 & C4).
  unfold is_codeword, covered. rewrite C0, C1, C2, C3, C4. clear C0 C1 C2 C3 C4.
  rewrite !bit_testbit by discriminate. reflexivity.
Qed.

Lemma encode_covered d : data d ->
  covered (encode d) 11 0x055B /\ covered (encode d) 12 0x066D /\ covered (encode d) 13 0x078E /\
  covered (encode d) 14 0x07F0 /\ covered (encode d) 15 0x7FFF.
Proof.
  intros Hd.
  assert (Hp : forall m, 0 <= m < 2048 -> par (covers m) (encode d) = par (covers m) d).
  { intros m Hm. apply par_ext. intros i Hi. apply low_bits; [assumption|]. apply (covers_11 m); assumption. }
  unfold covered. rewrite !Hp by (split; [discriminate|reflexivity]).
  split; [apply encode_bit11; exact Hd|]. split; [apply encode_bit12; exact Hd|].
  split; [apply encode_bit13; exact Hd|]. split; [apply encode_bit14; exact Hd|].
  apply encode_bit15. exact Hd.
Qed.

Lemma codeword_encode c : is_codeword c <-> word c /\ c = encode (data_of c).
Proof.
  rewrite codeword_covered. split.
  - intros (Hw & H11 & H12 & H13 & H14 & H15). split; [assumption|]. symmetry.
    apply encode_ext; try assumption; [apply data_of_range|].
    intros i Hi. symmetry. apply testbit_data_of. assumption.
  - intros [Hw He]. split; [assumption|]. rewrite He. apply encode_covered. apply data_of_range.
Qed.

Lemma encode_codeword d : data d -> is_codeword (encode d) /\ data_of (encode d) = d.
Proof.
  intros Hd. assert (H : data_of (encode d) = d) by (rewrite <- data_of_land; apply land_encode; assumption).
  split; [|exact H]. apply codeword_encode. split; [apply word_encode; assumption|]. rewrite H. reflexivity.
Qed.

(** ** Main results *)
Lemma validate_within_one c w : is_codeword c -> word w -> (distance w c <= 1)%nat ->
  validate_checksum w = Ok (data_of c).
Proof.
  intros Hc Hw Hdist. apply codeword_encode in Hc. destruct Hc as [Hcw Hc].
  pose proof (data_of_range c) as Hd. fold (data (data_of c)) in Hd.
  set (e := Z.lxor w c). rewrite distance_ones in Hdist. fold e in Hdist.
  assert (He : word e) by (apply word_lxor; assumption).
  assert (Hwe : w = Z.lxor (encode (data_of c)) e).
  { rewrite <- Hc. unfold e. rewrite (Z.lxor_comm w c), <- Z.lxor_assoc, Z.lxor_nilpotent, Z.lxor_0_l. reflexivity. }
  assert (Hv : validate_checksum e = Ok 0).
  { destruct (length (ones e)) as [|[|n]] eqn:Hl; [| |lia].
    - rewrite (ones_0 e He Hl). reflexivity.
    - destruct (ones_1 e He Hl) as (i & Hi & ->). apply validate_single. assumption. }
  rewrite Hwe, validate_shift by assumption. rewrite Hv, Z.lxor_0_r. reflexivity.
Qed.

Lemma validate_two_flips c w : is_codeword c -> word w -> distance w c = 2%nat ->
  validate_checksum w = Err (Checksum w).
Proof.
  intros Hc Hw Hdist. apply codeword_encode in Hc. destruct Hc as [Hcw Hc].
  pose proof (data_of_range c) as Hd. fold (data (data_of c)) in Hd.
  set (e := Z.lxor w c). rewrite distance_ones in Hdist. fold e in Hdist.
  assert (He : word e) by (apply word_lxor; assumption).
  assert (Hwe : w = Z.lxor (encode (data_of c)) e).
  { rewrite <- Hc. unfold e. rewrite (Z.lxor_comm w c), <- Z.lxor_assoc, Z.lxor_nilpotent, Z.lxor_0_l. reflexivity. }
  destruct (ones_2 e He Hdist) as (i & j & Hi & Hj & Hne & Heq).
  destruct (validate_double i j Hi Hj Hne) as [x Hx].
  rewrite Hwe, validate_shift by assumption. rewrite Heq at 1. rewrite Hx. reflexivity.
Qed.

Lemma validate_outcome w : word w ->
  (exists d, validate_checksum w = Ok d /\ data d /\ (distance w (encode d) <= 1)%nat) \/
  validate_checksum w = Err (Checksum w).
Proof.
  intros Hw. destruct (word_split w Hw) as (d & p & Hd & Hp & ->).
  assert (Hpw : word (Z.shiftl p 11)).
  { apply bits_word; [apply Z.shiftl_nonneg; lia|]. intros i Hi. rewrite Z.shiftl_spec by lia.
    apply (small_testbit_high p 5); [change (2 ^ 5) with 32; lia|lia]. }
  rewrite validate_shift by assumption.
  destruct (validate_syndrome p Hp) as [(x & Hx & Hdx & Hone)|(x & Hx)]; rewrite Hx.
  - left. exists (Z.lxor d x). split; [reflexivity|]. split; [apply data_lxor; assumption|].
    rewrite distance_ones, encode_lxor by assumption.
    replace (Z.lxor (Z.lxor (encode d) (Z.shiftl p 11)) (Z.lxor (encode d) (encode x)))
      with (Z.lxor (Z.shiftl p 11) (encode x)); [exact Hone|].
    rewrite (Z.lxor_comm (encode d) (Z.shiftl p 11)), Z.lxor_assoc, <- (Z.lxor_assoc (encode d) (encode d)),
      Z.lxor_nilpotent, Z.lxor_0_l. reflexivity.
  - right. reflexivity.
Qed.

Lemma validate_iff w d : word w ->
  validate_checksum w = Ok d <-> exists c, is_codeword c /\ data_of c = d /\ (distance w c <= 1)%nat.
Proof.
  intros Hw. split.
  - intros Hv. destruct (validate_outcome w Hw) as [(d' & Hv' & Hd & Hdist)|He].
    + rewrite Hv' in Hv. injection Hv as ->. exists (encode d).
      destruct (encode_codeword d Hd) as [H1 H2]. auto.
    + rewrite He in Hv. discriminate.
  - intros (c & Hc & <- & Hdist). apply validate_within_one; assumption.
Qed.

(** Minimum distance four, by decoding: two codewords at distance below four
    would have a common neighbour or be a detected double error. *)
Definition data_words : list Z := map Z.of_nat (seq 0 2048).
Lemma sweep_weights : forallb (fun d => (d =? 0) || Nat.leb 4 (length (ones (encode d)))) data_words = true.
Proof. vm_compute. reflexivity. Qed.
Lemma weight_ge_4 d : data d -> d <> 0 -> (4 <= length (ones (encode d)))%nat.
Proof.
  intros Hd Hne. pose proof sweep_weights as H. rewrite forallb_forall in H.
  assert (Hin : In d data_words).
  { unfold data_words. apply in_map_iff. exists (Z.to_nat d). unfold data in Hd. split; [lia|]. apply in_seq. lia. }
  specialize (H d Hin). cbv beta in H. apply orb_prop in H. destruct H as [H|H].
  - apply Z.eqb_eq in H. contradiction.
  - apply Nat.leb_le in H. exact H.
Qed.

Lemma codeword_distance a b : is_codeword a -> is_codeword b -> a <> b -> (4 <= distance a b)%nat.
Proof.
  intros Ha Hb Hne. apply codeword_encode in Ha, Hb. destruct Ha as [Haw Ha], Hb as [Hbw Hb].
  rewrite distance_ones, Ha, Hb, <- encode_lxor by apply data_of_range.
  apply weight_ge_4; [apply data_lxor; apply data_of_range|].
  intros H0. apply Hne. apply Z.lxor_eq in H0. rewrite Ha, Hb, H0. reflexivity.
Qed.
