(** * C93: the text terminal-temperatures prints is a table of the temperatures, to the
    nearest hundredth of a degree. *)
From Verif Require Import Base FloatOps Register Bus Camera Cam640 Cam641 Calc B32 SpecCamera SpecDriver SpecCall P_Usable
  P_Terminal Ee640 Ee641 Examples Text SpecText Driver.
From Coq Require Import Ascii Reals Lra Psatz.
From Flocq Require Import Core BinarySingleNaN.
Open Scope Z_scope.

(** ** Digits *)
Lemma digit_char_ok d : 0 <= d < 10 -> digit 10 (digit_char d) d.
Proof.
  intros H. assert (G : In d [0;1;2;3;4;5;6;7;8;9]) by (cbn; lia).
  split; [exact H|]. cbn in G. repeat destruct G as [<-|G]; try contradiction; left; reflexivity.
Qed.
Lemma digit_char_solid d : 0 <= d < 10 -> Ascii.eqb (digit_char d) " " = false /\ Ascii.eqb (digit_char d) line_feed = false.
Proof.
  intros H. assert (G : In d [0;1;2;3;4;5;6;7;8;9]) by (cbn; lia).
  cbn in G. repeat destruct G as [<-|G]; try contradiction; split; reflexivity.
Qed.
Lemma digit_list_ok : forall fuel n, 0 <= n < 2 ^ Z.of_nat (S fuel) ->
  digit_list fuel n <> [] /\ Forall (fun d => 0 <= d < 10) (digit_list fuel n) /\
  forall a, exists k, fold_left (fun a d => a * 10 + d) (digit_list fuel n) a = a * k + n.
Proof.
  induction fuel as [|fuel IH]; intros n Hn; cbn [digit_list].
  - change (2 ^ Z.of_nat 1) with 2 in Hn. replace (n <? 10) with true by (symmetry; apply Z.ltb_lt; lia).
    split; [discriminate|]. split; [constructor; [lia|constructor]|]. intros a. exists 10. reflexivity.
  - destruct (n <? 10) eqn:E.
    + apply Z.ltb_lt in E. split; [discriminate|]. split; [constructor; [lia|constructor]|]. intros a. exists 10. reflexivity.
    + apply Z.ltb_ge in E. rewrite Nat2Z.inj_succ, Z.pow_succ_r in Hn by lia.
      assert (H10 : 0 <= n / 10 < 2 ^ Z.of_nat (S fuel)).
      { split; [apply Z.div_pos; lia|]. apply Z.div_lt_upper_bound; lia. }
      destruct (IH (n / 10) H10) as (I1 & I2 & I3).
      pose proof (Z.mod_pos_bound n 10 ltac:(lia)) as Hm.
      split; [intros C; apply app_eq_nil in C; destruct C; discriminate|].
      split; [apply Forall_app; split; [exact I2|constructor; [exact Hm|constructor]]|].
      intros a. rewrite fold_left_app. destruct (I3 a) as [k Ek]. rewrite Ek. cbn [fold_left]. exists (10 * k).
      pose proof (Z.div_mod n 10 ltac:(lia)). lia.
Qed.
Lemma log2_fuel n : 0 <= n -> 0 <= n < 2 ^ Z.of_nat (S (Z.to_nat (Z.log2 n))).
Proof.
  intros H. split; [exact H|]. rewrite Nat2Z.inj_succ, Z2Nat.id by apply Z.log2_nonneg.
  destruct (Z.eq_dec n 0) as [->|]; [reflexivity|]. apply Z.log2_spec. lia.
Qed.
Lemma decimal_chars n : list_ascii_of_string (decimal n) = map digit_char (digit_list (Z.to_nat (Z.log2 n)) n).
Proof. apply list_ascii_of_string_of_list_ascii. Qed.
Lemma decimal_ok n : 0 <= n -> digits 10 (decimal n) n.
Proof.
  intros H. destruct (digit_list_ok _ n (log2_fuel n H)) as (H1 & H2 & H3).
  exists (digit_list (Z.to_nat (Z.log2 n)) n). split; [exact H1|]. split.
  - rewrite decimal_chars. clear - H2. induction H2 as [|d r Hd _ IH]; cbn [map]; constructor; [apply digit_char_ok; exact Hd|exact IH].
  - destruct (H3 0) as [k ->]. lia.
Qed.
Lemma digit_list_head : forall fuel n, 0 <= n < 2 ^ Z.of_nat (S fuel) -> n <> 0 -> hd 0 (digit_list fuel n) <> 0.
Proof.
  induction fuel as [|fuel IH]; intros n Hn H0; cbn [digit_list].
  - change (2 ^ Z.of_nat 1) with 2 in Hn. replace (n <? 10) with true by (symmetry; apply Z.ltb_lt; lia). exact H0.
  - destruct (n <? 10) eqn:E; [exact H0|]. apply Z.ltb_ge in E. rewrite Nat2Z.inj_succ, Z.pow_succ_r in Hn by lia.
    assert (H10 : 0 <= n / 10 < 2 ^ Z.of_nat (S fuel)).
    { split; [apply Z.div_pos; lia|]. apply Z.div_lt_upper_bound; lia. }
    assert (N0 : n / 10 <> 0) by (Z.div_mod_to_equations; lia).
    specialize (IH _ H10 N0). destruct (digit_list_ok fuel (n / 10) H10) as (Hne & _).
    destruct (digit_list fuel (n / 10)); [contradiction Hne; reflexivity|exact IH].
Qed.
Lemma decimal_plain n : 0 <= n -> no_leading_zero (decimal n).
Proof.
  intros H rest E. destruct (Z.eq_dec n 0) as [->|H0].
  - change (decimal 0) with "0"%string in E. injection E as <-. reflexivity.
  - exfalso. pose proof (digit_list_head _ n (log2_fuel n H) H0) as Hh. destruct (digit_list_ok _ n (log2_fuel n H)) as (_ & Hr & _).
    apply (f_equal list_ascii_of_string) in E. rewrite decimal_chars in E.
    destruct (digit_list (Z.to_nat (Z.log2 n)) n) as [|d ds]; [discriminate E|]. cbn [hd] in Hh. cbn [map list_ascii_of_string] in E.
    injection E as E _. inversion Hr as [|? ? Hd _]; subst. assert (G : In d [1;2;3;4;5;6;7;8;9]) by (cbn; lia).
    cbn in G. repeat destruct G as [<-|G]; try contradiction; discriminate E.
Qed.

(** ** Rounding *)
Lemma round_even_near num den : 0 < den -> -den <= 2 * (num - den * round_even num den) <= den.
Proof.
  intros H. unfold round_even. pose proof (Z.div_mod num den ltac:(lia)). pose proof (Z.mod_pos_bound num den H).
  destruct (2 * (num mod den) <? den) eqn:E1; [apply Z.ltb_lt in E1|apply Z.ltb_ge in E1]; [nia|].
  destruct (den <? 2 * (num mod den)) eqn:E2; [apply Z.ltb_lt in E2|apply Z.ltb_ge in E2]; [nia|].
  destruct (Z.even (num / den)); nia.
Qed.
Lemma round_even_nonneg num den : 0 < den -> 0 <= num -> 0 <= round_even num den.
Proof. intros H Hn. pose proof (round_even_near num den H). nia. Qed.
Lemma hundredths_nonneg m e : 0 <= m -> 0 <= hundredths m e.
Proof.
  intros H. unfold hundredths. destruct (0 <=? e) eqn:E; [apply Z.leb_le in E; apply Z.mul_nonneg_nonneg; [lia|apply Z.pow_nonneg; lia]|].
  apply Z.leb_gt in E. apply round_even_nonneg; [apply Z.pow_pos_nonneg; lia|lia].
Qed.
Lemma hundredths_near m e : 0 <= m -> (Rabs (IZR m * bpow radix2 e - IZR (hundredths m e) / 100) <= 1 / 200)%R.
Proof.
  intros Hm. unfold hundredths. destruct (0 <=? e) eqn:E.
  - apply Z.leb_le in E. rewrite <- (IZR_Zpower radix2 e E). change (Zpower radix2 e) with (2 ^ e).
    rewrite !mult_IZR. replace (_ - _)%R with 0%R by field. rewrite Rabs_R0. lra.
  - apply Z.leb_gt in E. set (den := 2 ^ (- e)). assert (Hd : 0 < den) by (apply Z.pow_pos_nonneg; lia).
    replace (bpow radix2 e) with (/ IZR den)%R.
    2:{ assert (Ee : e = - (- e)) by lia. rewrite Ee at 1. rewrite bpow_opp. f_equal. rewrite <- IZR_Zpower by lia. reflexivity. }
    pose proof (round_even_near (100 * m) den Hd) as [G1 G2]. set (q := round_even (100 * m) den) in *.
    apply IZR_le in G1, G2. rewrite mult_IZR, minus_IZR, !mult_IZR in G1, G2. rewrite opp_IZR in G1.
    apply IZR_lt in Hd. set (D := IZR den) in *. set (M := IZR m) in *. set (Q := IZR q) in *.
    assert (D <> 0)%R by lra. replace (M * / D - Q / 100)%R with ((100 * M - D * Q) / (100 * D))%R by (field; lra).
    assert (EQ : ((100 * M - D * Q) / (100 * D) * (100 * D) = 100 * M - D * Q)%R) by (field; lra).
    apply Rabs_le. split; apply Rmult_le_reg_r with (100 * D)%R; try lra.
Qed.

(** ** One number *)
Lemma append_chars a b : list_ascii_of_string (a ++ b) = list_ascii_of_string a ++ list_ascii_of_string b.
Proof. induction a as [|c a IH]; [reflexivity|]. cbn. rewrite IH. reflexivity. Qed.

Lemma two_digits h : 0 <= h -> digits 10 (String (digit_char (h / 10 mod 10)) (String (digit_char (h mod 10)) EmptyString)) (h mod 100).
Proof.
  intros H. exists [h / 10 mod 10; h mod 10].
  pose proof (Z.mod_pos_bound h 10 ltac:(lia)). pose proof (Z.mod_pos_bound (h / 10) 10 ltac:(lia)).
  split; [discriminate|]. split.
  - cbn [list_ascii_of_string]. constructor; [apply digit_char_ok; lia|]. constructor; [apply digit_char_ok; lia|constructor].
  - cbn [fold_left]. Z.div_mod_to_equations. lia.
Qed.

Lemma round_even_tie num den : 0 < den -> 2 * (num - den * round_even num den) = den \/ 2 * (num - den * round_even num den) = - den ->
  Z.even (round_even num den) = true.
Proof.
  intros H. unfold round_even. pose proof (Z.div_mod num den ltac:(lia)). pose proof (Z.mod_pos_bound num den H).
  destruct (2 * (num mod den) <? den) eqn:E1; [apply Z.ltb_lt in E1|apply Z.ltb_ge in E1]; [nia|].
  destruct (den <? 2 * (num mod den)) eqn:E2; [apply Z.ltb_lt in E2|apply Z.ltb_ge in E2]; [nia|].
  destruct (Z.even (num / den)) eqn:E; [intros _; exact E|]. intros _. rewrite Z.even_add, E. reflexivity.
Qed.
Lemma hundredths_tie m e : 0 <= m ->
  (100 * (IZR m * bpow radix2 e) = IZR (hundredths m e) + / 2 \/ 100 * (IZR m * bpow radix2 e) = IZR (hundredths m e) - / 2)%R ->
  Z.even (hundredths m e) = true.
Proof.
  intros Hm. unfold hundredths. destruct (0 <=? e) eqn:E.
  - apply Z.leb_le in E. rewrite <- (IZR_Zpower radix2 e E). change (Zpower radix2 e) with (2 ^ e). rewrite !mult_IZR. intros [H|H]; lra.
  - apply Z.leb_gt in E. set (den := 2 ^ (- e)). assert (Hd : 0 < den) by (apply Z.pow_pos_nonneg; lia).
    replace (bpow radix2 e) with (/ IZR den)%R.
    2:{ assert (Ee : e = - (- e)) by lia. rewrite Ee at 1. rewrite bpow_opp. f_equal. rewrite <- IZR_Zpower by lia. reflexivity. }
    intros H. apply round_even_tie; [exact Hd|]. pose proof (IZR_lt _ _ Hd) as Hd'. set (q := round_even (100 * m) den) in *.
    assert (EQ : (100 * (IZR m * / IZR den) * (2 * IZR den) = 200 * IZR m)%R) by (field; lra).
    destruct H as [H|H]; [left|right]; apply eq_IZR; rewrite H in EQ; rewrite ?opp_IZR, mult_IZR, minus_IZR, !mult_IZR; lra.
Qed.
(** The hundredths printed for a finite number. *)
Lemma printed_hundredths x : is_finite x = true -> exists h, two_decimals (fixed2 x) (Bsign x) h /\ 0 <= h /\
  (Rabs (100 * Rabs (B2R x) - IZR h) <= / 2)%R /\
  ((100 * Rabs (B2R x) = IZR h + / 2 \/ 100 * Rabs (B2R x) = IZR h - / 2)%R -> Z.even h = true) /\
  (B2R x = if Bsign x then - Rabs (B2R x) else Rabs (B2R x))%R.
Proof.
  intros Hf. destruct x as [s|s| |s m e Hb]; try discriminate Hf.
  - exists 0. split.
    + exists "0"%string, "00"%string, 0, 0. split; [destruct s; reflexivity|].
      split; [exists [0]; repeat split; try discriminate; constructor; [apply (digit_char_ok 0); lia|constructor]|].
      split; [intros rest Er; injection Er as <-; reflexivity|]. split; [|split; reflexivity].
      exists [0; 0]. repeat split; try discriminate. repeat (constructor; [apply (digit_char_ok 0); lia|]). constructor.
    + split; [lia|]. cbn [B2R Bsign]. rewrite Rabs_R0, Rmult_0_r, Rminus_0_r, Rabs_R0. split; [lra|]. split; [reflexivity|]. destruct s; lra.
  - exists (hundredths (Zpos m) e). assert (H0 : 0 <= hundredths (Zpos m) e) by (apply hundredths_nonneg; lia).
    assert (Ha : Rabs (B2R (B754_finite s m e Hb)) = (IZR (Zpos m) * bpow radix2 e)%R).
    { cbn [B2R]. unfold F2R. cbn [Fnum Fexp]. pose proof (bpow_gt_0 radix2 e). assert (0 < IZR (Zpos m))%R by (apply IZR_lt; lia).
      rewrite Rabs_mult, (Rabs_pos_eq (bpow radix2 e)) by lra. f_equal. destruct s; cbn [cond_Zopp].
      - change (Z.neg m) with (- Z.pos m). rewrite opp_IZR, Rabs_Ropp. apply Rabs_pos_eq. lra.
      - apply Rabs_pos_eq. lra. }
    split; [|split; [exact H0|]].
    + exists (decimal (hundredths (Zpos m) e / 100)),
        (String (digit_char (hundredths (Zpos m) e / 10 mod 10)) (String (digit_char (hundredths (Zpos m) e mod 10)) EmptyString)),
        (hundredths (Zpos m) e / 100), (hundredths (Zpos m) e mod 100).
      split; [destruct s; reflexivity|]. split; [apply decimal_ok; apply Z.div_pos; lia|].
      split; [apply decimal_plain; apply Z.div_pos; lia|]. split; [apply two_digits; exact H0|].
      split; [reflexivity|]. apply Z.div_mod. lia.
    + rewrite Ha. split; [|split; [apply hundredths_tie; lia|]].
      * pose proof (hundredths_near (Zpos m) e ltac:(lia)) as G. apply Rabs_le_inv in G. apply Rabs_le. lra.
      * cbn [B2R Bsign]. unfold F2R. cbn [Fnum Fexp]. destruct s; cbn [cond_Zopp]; [|reflexivity].
        change (Z.neg m) with (- Z.pos m). rewrite opp_IZR. lra.
Qed.
(** What is printed for a number is that number to the nearest hundredth, with its sign. *)
Theorem C93_number : forall x, shows_number (fixed2 x) x.
Proof.
  intros x. assert (G : is_finite x = true -> exists h, two_decimals (fixed2 x) (Bsign x) h /\
      (Rabs (B2R x - decimal_value (Bsign x) h) <= 1 / 200)%R /\ (Rabs (B2R x - decimal_value (Bsign x) h) = (1 / 200)%R -> Z.Even h)).
  { intros Hf. destruct (printed_hundredths x Hf) as (h & H1 & H2 & H3 & H4 & H5). exists h. split; [exact H1|].
    assert (E : Rabs (B2R x - decimal_value (Bsign x) h) = (Rabs (100 * Rabs (B2R x) - IZR h) / 100)%R).
    { unfold Rdiv at 1. rewrite <- (Rabs_pos_eq (/ 100)) by lra. rewrite <- Rabs_mult. rewrite H5 at 1. unfold decimal_value. destruct (Bsign x).
      - rewrite <- Rabs_Ropp. f_equal. field.
      - f_equal. field. }
    rewrite E. split; [lra|]. intros T. apply Z.even_spec, H4. assert (T' : Rabs (100 * Rabs (B2R x) - IZR h) = (/ 2)%R) by lra.
    destruct (Rcase_abs (100 * Rabs (B2R x) - IZR h)) as [C|C]; [rewrite (Rabs_left _ C) in T'|rewrite (Rabs_right _ C) in T']; lra. }
  destruct x as [s|s| |s m e Hb]; cbn [shows_number]; try reflexivity; apply G; reflexivity.
Qed.
Print Assumptions C93_number.

(** A text shows at most one number: sign and hundredths can be read off it. *)
Lemma digits_value radix : radix = 10 \/ radix = 16 -> forall s v v', digits radix s v -> digits radix s v' -> v = v'.
Proof.
  intros Hr s v v' (ds & _ & H & ->) (ds' & _ & H' & ->). f_equal. revert ds' H'.
  induction H as [|c d cs ds Hd _ IH]; intros ds' H'; inversion H' as [|? d' ? ds2 Hd' H2]; subst; [reflexivity|].
  f_equal; [|apply IH; exact H2]. apply (to_digit_spec radix c d Hr) in Hd. apply (to_digit_spec radix c d' Hr) in Hd'. congruence.
Qed.
Lemma digits_no_point s v : digits 10 s v -> Forall (fun c => c <> "."%char /\ c <> "-"%char) (list_ascii_of_string s).
Proof.
  intros (ds & _ & H & _). induction H as [|c d cs ds Hd _ IH]; constructor; [|exact IH].
  apply (to_digit_spec 10 c d (or_introl eq_refl)) in Hd. split; intros ->; discriminate Hd.
Qed.
Lemma split_point : forall a a' b b' : list ascii, Forall (fun c => c <> "."%char /\ c <> "-"%char) a -> Forall (fun c => c <> "."%char /\ c <> "-"%char) a' ->
  (a ++ "."%char :: b = a' ++ "."%char :: b' -> a = a' /\ b = b')%list.
Proof.
  intros a a' b b' H. revert a'. induction H as [|c a Hc _ IH]; intros a' H' E; destruct H' as [|c' a' Hc' H']; cbn [app] in E.
  - injection E as <-. auto.
  - injection E as E _. exfalso. apply (proj1 Hc'). symmetry. exact E.
  - injection E as E _. exfalso. apply (proj1 Hc). exact E.
  - injection E as <- E. destruct (IH a' H' E) as [-> ->]. auto.
Qed.
Lemma chars_inj a b : list_ascii_of_string a = list_ascii_of_string b -> a = b.
Proof. intros H. rewrite <- (string_of_list_ascii_of_string a), H. apply string_of_list_ascii_of_string. Qed.

Theorem C93_readable : forall s n h n' h', two_decimals s n h -> two_decimals s n' h' -> n = n' /\ h = h'.
Proof.
  intros s n h n' h' (w & fr & a & b & E & Hw & _ & Hf & _ & ->) (w' & fr' & a' & b' & E' & Hw' & _ & Hf' & _ & ->).
  rewrite E in E'. clear s E. apply (f_equal list_ascii_of_string) in E'.
  pose proof (digits_no_point _ _ Hw) as P. pose proof (digits_no_point _ _ Hw') as P'.
  assert (Hn : n = n').
  { assert (Q : forall s v, digits 10 s v -> exists c r, s = String c r).
    { intros s v (ds & Hne & H & _). destruct s as [|c r]; [inversion H; subst; contradiction|eauto]. }
    destruct (Q _ _ Hw) as (c & r & ->), (Q _ _ Hw') as (c' & r' & ->).
    cbn in P, P'. inversion P as [|? ? [_ P1] _]; subst. inversion P' as [|? ? [_ P2] _]; subst.
    destruct n, n'; try reflexivity; cbn in E'; injection E' as E' _; exfalso; [apply P2; symmetry; exact E'|apply P1; exact E']. }
  subst n'. split; [reflexivity|].
  assert (E2 : (list_ascii_of_string w ++ "."%char :: list_ascii_of_string fr = list_ascii_of_string w' ++ "."%char :: list_ascii_of_string fr')%list).
  { rewrite !append_chars in E'. apply app_inv_head in E'. exact E'. }
  apply split_point in E2; [|assumption|assumption]. destruct E2 as [E2 E3]. apply chars_inj in E2, E3. subst.
  rewrite (digits_value 10 (or_introl eq_refl) _ _ _ Hw Hw'), (digits_value 10 (or_introl eq_refl) _ _ _ Hf Hf'). reflexivity.
Qed.
Print Assumptions C93_readable.

(** A warmer pixel is never printed as the colder number. *)
Lemma round_mono a b h k : (a <= b)%R -> (Rabs (a - IZR h) <= / 2)%R -> (Rabs (b - IZR k) <= / 2)%R ->
  ((a = IZR h + / 2 \/ a = IZR h - / 2)%R -> Z.even h = true) -> ((b = IZR k + / 2 \/ b = IZR k - / 2)%R -> Z.even k = true) -> h <= k.
Proof.
  intros Hab Ha Hb Ta Tb. apply Rabs_le_inv in Ha, Hb. destruct (Z_le_gt_dec h k) as [H|H]; [exact H|exfalso].
  assert (H1 : k + 1 <= h) by lia. apply IZR_le in H1. rewrite plus_IZR in H1.
  assert (E1 : a = (IZR h - / 2)%R) by lra. assert (E2 : b = (IZR k + / 2)%R) by lra. assert (E3 : IZR h = IZR (k + 1)) by (rewrite plus_IZR; lra).
  apply eq_IZR in E3. specialize (Ta (or_intror E1)). specialize (Tb (or_introl E2)). subst h. rewrite Z.even_add, Tb in Ta. discriminate Ta.
Qed.
Theorem C93_order : forall x y nx hx ny hy, is_finite x = true -> is_finite y = true -> (B2R x <= B2R y)%R ->
  two_decimals (fixed2 x) nx hx -> two_decimals (fixed2 y) ny hy -> (decimal_value nx hx <= decimal_value ny hy)%R.
Proof.
  intros x y nx hx ny hy Hx Hy Hle Tx Ty.
  destruct (printed_hundredths x Hx) as (h & P1 & P2 & P3 & P4 & P5), (printed_hundredths y Hy) as (k & Q1 & Q2 & Q3 & Q4 & Q5).
  destruct (C93_readable _ _ _ _ _ Tx P1) as [-> ->], (C93_readable _ _ _ _ _ Ty Q1) as [-> ->].
  apply IZR_le in P2 as P2', Q2 as Q2'. pose proof (Rabs_pos (B2R x)) as Ax. pose proof (Rabs_pos (B2R y)) as Ay.
  unfold decimal_value. destruct (Bsign x), (Bsign y).
  - assert (k <= h) as G by (eapply round_mono; [|exact Q3|exact P3|exact Q4|exact P4]; lra). apply IZR_le in G. lra.
  - lra.
  - assert (E1 : Rabs (B2R x) = 0%R) by lra. assert (E2 : Rabs (B2R y) = 0%R) by lra.
    assert (h <= k) as G by (eapply round_mono; [|exact P3|exact Q3|exact P4|exact Q4]; lra).
    assert (k <= h) as G' by (eapply round_mono; [|exact Q3|exact P3|exact Q4|exact P4]; lra).
    assert (h <= 0).
    { rewrite E1, Rmult_0_r in P3. apply Rabs_le_inv in P3. destruct (Z_le_gt_dec h 0) as [|C]; [assumption|]. assert (1 <= h) as C' by lia. apply IZR_le in C'. lra. }
    assert (h = 0) by lia. assert (k = 0) by lia. subst. lra.
  - assert (h <= k) as G by (eapply round_mono; [|exact P3|exact Q3|exact P4|exact Q4]; lra). apply IZR_le in G. lra.
Qed.
Print Assumptions C93_order.

(** ** The table *)
Definition solid (s : string) : Prop :=
  s <> EmptyString /\ Forall (fun c => Ascii.eqb c " " = false /\ Ascii.eqb c line_feed = false) (list_ascii_of_string s).
Lemma solid_fixed2 x : solid (fixed2 x).
Proof.
  split.
  { destruct x as [[]|[]| |[] m e Hb]; cbn [fixed2 minus append]; try discriminate.
    intros H. apply (f_equal list_ascii_of_string) in H. rewrite append_chars in H. apply app_eq_nil in H. destruct H; discriminate. }
  destruct x as [[]|[]| |s m e Hb]; try (cbn; repeat constructor; reflexivity).
  cbn [fixed2]. set (h := hundredths (Zpos m) e). assert (H0 : 0 <= h) by (apply hundredths_nonneg; lia).
  rewrite !append_chars. apply Forall_app. split; [destruct s; cbn; repeat constructor|].
  apply Forall_app. split; [|apply Forall_app; split; [repeat constructor|]].
  - rewrite decimal_chars. destruct (digit_list_ok _ (h / 100) (log2_fuel (h / 100) ltac:(apply Z.div_pos; lia))) as (_ & H2 & _).
    clear - H2. induction H2 as [|d r Hd _ IH]; cbn [map]; constructor; [apply digit_char_solid; exact Hd|exact IH].
  - cbn [list_ascii_of_string]. constructor; [apply digit_char_solid, Z.mod_pos_bound; lia|].
    constructor; [apply digit_char_solid, Z.mod_pos_bound; lia|constructor].
Qed.

Lemma words_spaces n s : words (spaces n ++ s) = words s.
Proof. induction n as [|n IH]; [reflexivity|exact IH]. Qed.
Lemma words_solid s rest : solid s -> words (s ++ "  " ++ rest) = s :: words rest.
Proof.
  intros [Hne H]. induction s as [|c s IH]; [contradiction Hne; reflexivity|]. clear Hne.
  cbn [list_ascii_of_string] in H. inversion H as [|? ? [Hc _] H']; subst.
  cbn [append]. change (words (String c (s ++ String " " (String " " rest)))) with
    (if Ascii.eqb c " " then words (s ++ "  " ++ rest)
      else match (s ++ "  " ++ rest)%string with
           | String c' _ =>
               if Ascii.eqb c' " " then String c EmptyString :: words (s ++ "  " ++ rest)
               else match words (s ++ "  " ++ rest) with
                    | first :: others => String c first :: others
                    | [] => [String c EmptyString]
                    end
           | EmptyString => [String c EmptyString]
           end).
  rewrite Hc. destruct s as [|c2 s].
  - reflexivity.
  - cbn [append]. inversion H' as [|? ? [Hc2 _] _]; subst. rewrite Hc2.
    change (String c2 (s ++ String " " (String " " rest))) with (String c2 s ++ "  " ++ rest)%string.
    rewrite IH; [reflexivity|discriminate|exact H'].
Qed.

Section Table.
Context (l : libm).
Notation item := (printed (FO := B32 l)).
Definition row_text (row : list f32) : string := fold_right (fun x s => (text_of_item l (Cell (FO := B32 l) x) ++ s)%string) EmptyString row.
Lemma words_row row : words (row_text row) = map fixed2 row.
Proof.
  induction row as [|x row IH]; [reflexivity|]. cbn [map].
  change (row_text (x :: row)) with ((fixed4_2 x ++ "  ") ++ row_text row)%string. unfold fixed4_2.
  assert (A : forall a b c, ((a ++ b) ++ c = a ++ b ++ c)%string).
  { induction a as [|ch a I]; intros b c; [reflexivity|]. cbn. rewrite I. reflexivity. }
  rewrite !A, words_spaces, (words_solid _ _ (solid_fixed2 x)), IH. reflexivity.
Qed.
Lemma concat_cons a r : String.concat "" (a :: r) = (a ++ String.concat "" r)%string.
Proof. destruct r; cbn [String.concat]; [|reflexivity]. induction a as [|c a IH]; [reflexivity|]. cbn. rewrite <- IH. reflexivity. Qed.
Lemma four_wide_ok s : (spaces (4 - String.length s) ++ s)%string = four_wide s.
Proof.
  unfold four_wide. f_equal. generalize (Nat.le_sub_l 4 (String.length s)). generalize (4 - String.length s)%nat. intros n H.
  do 5 (destruct n as [|n]; [reflexivity|]). lia.
Qed.
Lemma row_cells row : row_text row = String.concat "" (map (fun x => four_wide (fixed2 x) ++ "  ")%string row).
Proof.
  induction row as [|x row IH]; [reflexivity|]. cbn [map]. rewrite concat_cons, <- IH.
  change (row_text (x :: row)) with ((fixed4_2 x ++ "  ") ++ row_text row)%string. unfold fixed4_2. rewrite four_wide_ok. reflexivity.
Qed.
Definition no_feed (s : string) : Prop := Forall (fun c => Ascii.eqb c line_feed = false) (list_ascii_of_string s).
Lemma lines_app s rest : no_feed s -> lines (s ++ rest) = match lines rest with x :: r => (s ++ x)%string :: r | [] => [s] end.
Proof.
  intros H. induction s as [|c s IH].
  - cbn [append]. assert (lines rest <> []); [|destruct (lines rest); [contradiction|reflexivity]].
    destruct rest as [|c rest]; cbn [lines]; [discriminate|]. destruct (Ascii.eqb c line_feed); [discriminate|]. destruct (lines rest); discriminate.
  - unfold no_feed in H. cbn [list_ascii_of_string] in H. inversion H as [|? ? Hc H']; subst.
    cbn [append lines]. rewrite Hc, IH by exact H'. destruct (lines rest); reflexivity.
Qed.
Lemma no_feed_row row : no_feed (row_text row).
Proof.
  unfold no_feed. induction row as [|x row IH]; [constructor|]. 
  change (row_text (x :: row)) with ((fixed4_2 x ++ "  ") ++ row_text row)%string.
  rewrite !append_chars. apply Forall_app. split; [|exact IH].
  apply Forall_app. split; [|repeat constructor]. unfold fixed4_2. rewrite append_chars. apply Forall_app. split.
  - clear. induction (4 - String.length (fixed2 x))%nat; cbn; constructor; [reflexivity|assumption].
  - eapply Forall_impl; [|apply (proj2 (solid_fixed2 x))]. cbv beta. tauto.
Qed.
Lemma text_of_app a b : text_of l (a ++ b) = (text_of l a ++ text_of l b)%string.
Proof.
  induction a as [|x a IH]; [reflexivity|]. cbn [app text_of fold_right]. fold (text_of l (a ++ b)) (text_of l a). rewrite IH.
  generalize (text_of_item l x). intros s. induction s as [|c s I]; [reflexivity|]. cbn. rewrite I. reflexivity.
Qed.
Lemma text_of_cells (row : list f32) : text_of l (map (Cell (FO := B32 l)) row) = row_text row.
Proof.
  induction row as [|x row IH]; [reflexivity|].
  change (text_of l (map (Cell (FO := B32 l)) (x :: row))) with ((fixed4_2 x ++ "  ") ++ text_of l (map (Cell (FO := B32 l)) row))%string.
  rewrite IH. reflexivity.
Qed.
Lemma text_of_row width (temps : list f32) r : text_of l (one_row (FO := B32 l) width temps r) = String newline (row_text (firstn width (skipn (r * width) temps))).
Proof.
  rewrite <- text_of_cells. reflexivity.
Qed.

Lemma table_lines width (temps : list f32) : forall rows,
  lines (text_of l (flat_map (one_row (FO := B32 l) width temps) rows ++ [NewLine])) =
  EmptyString :: map (fun r => row_text (firstn width (skipn (r * width) temps))) rows ++ [EmptyString].
Proof.
  induction rows as [|r rows IH]; [reflexivity|]. cbn [flat_map map app]. rewrite <- app_assoc, text_of_app, text_of_row.
  cbn [append lines]. change (Ascii.eqb newline line_feed) with true. cbv iota.
  rewrite lines_app by apply no_feed_row. rewrite IH. f_equal. f_equal.
  induction (row_text (firstn width (skipn (r * width) temps))) as [|c s I]; [reflexivity|]. cbn. rewrite I. reflexivity.
Qed.

(** The text the program prints for a picture: an empty line, one line per row of the
    picture, an empty line; the words of each line are the numbers of the row, from left to right. *)
Theorem C93_table : forall width height (temps : list f32), (0 < width)%nat -> length temps = (height * width)%nat ->
  shows_table (text_of l (print_temperatures (FO := B32 l) temps width ++ [NewLine])) width height temps.
Proof.
  intros width height temps Hw Hl. rewrite (C78_layout (FO := B32 l) width height temps Hw Hl). unfold shows_table. rewrite table_lines. eexists. split; [reflexivity|].
  split; [rewrite map_length, seq_length; reflexivity|]. intros r row Hr.
  assert (Hlt : (r < height)%nat).
  { pose proof (proj1 (nth_error_Some _ _) (ltac:(rewrite Hr; discriminate) : nth_error _ r <> None)) as Q. rewrite map_length, seq_length in Q. exact Q. }
  rewrite nth_error_map in Hr. rewrite (nth_error_nth' _ 0%nat), seq_nth in Hr by (rewrite ?seq_length; exact Hlt).
  cbn [option_map Nat.add] in Hr. injection Hr as <-. rewrite words_row.
  assert (Hb : (r * width + width <= length temps)%nat) by (rewrite Hl; nia).
  split; [rewrite map_length, firstn_length, skipn_length; lia|]. split; [rewrite map_map; apply row_cells|].
  intros c s Hs. assert (Hc : (c < width)%nat).
  { pose proof (proj1 (nth_error_Some _ _) (ltac:(rewrite Hs; discriminate) : nth_error _ c <> None)) as Q. rewrite map_length, firstn_length in Q. lia. }
  rewrite nth_error_map in Hs. destruct (nth_error (firstn width (skipn (r * width) temps)) c) as [x|] eqn:Ex; [|discriminate Hs].
  cbn [option_map] in Hs. injection Hs as <-. exists x. split; [|apply C93_number].
  rewrite <- Ex. revert Hb Hc. generalize (r * width)%nat. clear. intros k Hk Hc.
  assert (G : forall A n c (l : list A), (c < n)%nat -> nth_error (firstn n l) c = nth_error l c).
  { induction n as [|n IH]; intros c0 l0 H; [lia|]. destruct l0; [destruct c0; reflexivity|]. destruct c0; [reflexivity|]. cbn. apply IH. lia. }
  rewrite G by exact Hc. clear. revert temps. induction k as [|k IH]; intros temps; [reflexivity|].
  destruct temps as [|y temps]; [destruct c; reflexivity|]. cbn. apply IH.
Qed.
End Table.
Print Assumptions C93_table.

(** The whole program, for both cameras and any bus: what it writes is the table of the picture C78 describes. *)
Theorem C93_program : forall l p B ER EW (bs : bus B ER EW) w a out w',
  (terminal_temperatures (FO := B32 l) p bs (new bs (calib640_from_i2c (B32 l) p bs) 24 1536 w a) = (Ok out, w') ->
   exists d (temps : list f32) d', usable d layout640 /\ take_pictures (FO := B32 l) p bs d = (Ok (temps, 32%nat), d') /\
     shows_table (text_of l out) 32 24 temps) /\
  (terminal_temperatures (FO := B32 l) p bs (new bs (calib641_from_i2c (B32 l) p bs) 12 384 w a) = (Ok out, w') ->
   exists d (temps : list f32) d', usable d layout641 /\ take_pictures (FO := B32 l) p bs d = (Ok (temps, 16%nat), d') /\
     shows_table (text_of l out) 16 12 temps).
Proof.
  intros l p B ER EW bs w a out w'. destruct (C78_program (B32 l) p B ER EW bs w a out w') as [H1 H2]. split; intros H.
  - destruct (H1 H) as (d & t & d' & Hu & Ht & _ & E). exists d, t, d'. split; [exact Hu|]. split; [exact Ht|].
    destruct (C78_picture (FO := B32 l) p bs _ _ _ _ _ Hu Ht) as (_ & Hl & _).
    assert (E' : out = print_temperatures (FO := B32 l) t 32 ++ [NewLine]) by (rewrite (C78_layout (FO := B32 l) 32 24 t); [exact E|lia|exact Hl]).
    rewrite E'. apply C93_table; [lia|exact Hl].
  - destruct (H2 H) as (d & t & d' & Hu & Ht & _ & E). exists d, t, d'. split; [exact Hu|]. split; [exact Ht|].
    destruct (C78_picture (FO := B32 l) p bs _ _ _ _ _ Hu Ht) as (_ & Hl & _).
    assert (E' : out = print_temperatures (FO := B32 l) t 16 ++ [NewLine]) by (rewrite (C78_layout (FO := B32 l) 16 12 t); [exact E|lia|exact Hl]).
    rewrite E'. apply C93_table; [lia|exact Hl].
Qed.
Print Assumptions C93_program.

(** 25 is printed as 25.00, -0.125 as -0.12 (a tie), 23.456 as 23.46, 273.15 as 273.15; infinities and
    NaN are padded to four characters; a picture of two rows of two. *)
Example C93_concrete :
  fixed4_2 (b_ofZ 25) = "25.00"%string /\
  fixed4_2 (b_div (b_ofZ (-1)) (b_ofZ 8)) = "-0.12"%string /\
  fixed4_2 (b_div (b_ofZ 3) (b_ofZ 8)) = "0.38"%string /\
  fixed4_2 (b_div (b_ofZ 23456) (b_ofZ 1000)) = "23.46"%string /\
  fixed4_2 (b_div (b_ofZ 27315) (b_ofZ 100)) = "273.15"%string /\
  fixed4_2 (b_div (b_ofZ (-1)) (b_ofZ 1000)) = "-0.00"%string /\
  fixed4_2 (b_ofZ 0) = "0.00"%string /\
  fixed4_2 B754_nan = " NaN"%string /\ fixed4_2 (B754_infinity false) = " inf"%string /\ fixed4_2 (B754_infinity true) = "-inf"%string /\
  forall l, lines (text_of l (print_temperatures (FO := B32 l) [b_ofZ 21; b_ofZ 22; B754_nan; b_ofZ (-40)] 2 ++ [NewLine])) =
    [""; "21.00  22.00  "; " NaN  -40.00  "; ""]%string.
Proof. vm_compute. repeat split; reflexivity. Qed.
