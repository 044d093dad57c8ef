(** * Ee640Local: the MLX90640 decoder looks only at the bytes it consumes. *)
From Verif Require Import Base FloatOps Register Bus Camera Cam640 SpecRegister SpecEeprom
  ParseFacts FieldFacts SpecRange RangeFacts Spec640 Ee640 Ee640Facts Ee640Closed.

Ltac local_step :=
  match goal with
  | |- local (pret _) => apply local_pret
  | |- local (plift _) => apply local_plift
  | |- local get_u8 => apply local_u8
  | |- local get_i8 => apply local_i8
  | |- local get_u16 => apply local_u16
  | |- local get_i16 => apply local_i16
  | |- local (advance _) => apply local_advance
  | |- local (pbind _ _) => apply local_pbind; [|let a := fresh "a" in intros a]
  | |- local (match ?a with pair _ _ => _ end) => destruct a
  | |- local (if ?b then _ else _) => destruct b
  | |- local (let _ := _ in _) => cbv zeta
  end.

Lemma local_u4s : local word_to_u4s. Proof. unfold word_to_u4s. repeat local_step. Qed.
Lemma local_i4s : local word_to_i4s. Proof. unfold word_to_i4s. repeat local_step. Qed.
Lemma local_6_10 : local word_6_10_split. Proof. unfold word_6_10_split. repeat local_step. Qed.

Section Local.
Context (FO : FloatOps) (p : profile).

Lemma local_rows scale n : forall rows, (length rows <= n)%nat -> local (add_row_offsets p scale rows).
Proof.
  induction n as [|n IH]; intros rows Hn.
  - destruct rows; [apply local_pret|cbn [length] in Hn; lia].
  - destruct rows as [|r0 [|r1 [|r2 [|r3 rest]]]]; try apply local_pret.
    cbn [add_row_offsets]. apply local_pbind; [apply local_i4s|]. intros a. repeat local_step.
    apply IH. cbn [length] in Hn. lia.
Qed.

Lemma local_columns scale n : forall ix rows, local (add_column_offsets p n ix scale rows).
Proof.
  induction n as [|n IH]; intros ix rows; cbn [add_column_offsets]; [apply local_pret|].
  apply local_pbind; [apply local_i4s|]. intros a. repeat local_step. apply IH.
Qed.

Lemma local_bulk : local (calculate_bulk_pixel_calibration p).
Proof.
  unfold calculate_bulk_pixel_calibration.
  apply local_pbind; [apply local_u4s|]. intros a. repeat local_step.
  - eapply local_rows. apply Nat.le_refl.
  - apply local_columns.
Qed.

Lemma local_pixels ors ars k2 s1 s2 items : local (pixel_loop FO p ors ars k2 s1 s2 items).
Proof.
  induction items as [|[[o a] k] items IH]; cbn [pixel_loop]; [apply local_pret|].
  apply local_pbind; [unfold pixel_step; repeat local_step|]. intros px. apply local_pbind; [exact IH|].
  intros t. apply local_pret.
Qed.

Lemma local_parse640 : local (parse640 FO p).
Proof.
  unfold parse640.
  repeat first [ local_step | apply local_bulk | apply local_6_10 | apply local_i4s | apply local_u4s
               | apply local_pixels
               | unfold get_access_pattern_corrections, generate_k_ta_pixels, get_temperature_range_data ].
Qed.

(** The first 32 bytes are not looked at. *)
Lemma parse640_skip b b' : length b = 32%nat -> length b' = 32%nat ->
  forall x, parse640 FO p (b ++ x) = parse640 FO p (b' ++ x).
Proof.
  intros H H' x. unfold parse640, pbind at 1. symmetry. unfold pbind at 1.
  assert (A : forall y, length y = 32%nat -> advance (WORD_SIZE * 16) (y ++ x) = Ok (tt, x)).
  { intros y Hy. unfold advance. rewrite app_length.
    change (WORD_SIZE * 16)%nat with 32%nat.
    destruct (Nat.ltb_spec (length y + length x) 32); [lia|].
    rewrite <- Hy, skipn_app, skipn_all, Nat.sub_diag. reflexivity. }
  rewrite (A b H), (A b' H'). reflexivity.
Qed.

Lemma full_length_val : full_length = 1664%nat.
Proof. reflexivity. Qed.

(** Outcomes on a full dump. *)
Lemma from_data640_full data : Forall byte data -> (1664 <= length data)%nat ->
  (p = Debug /\ some_pixel_overflows (ee_word data) /\ from_data640 FO p data = Panic) \/
  (~ (p = Debug /\ some_pixel_overflows (ee_word data)) /\
   from_data640 FO p data = Ok (decoded640 FO data)).
Proof.
  intros Hb Hlen. rewrite <- full_length_val in Hlen.
  pose proof (reads_640 FO p data Hb Hlen) as H. unfold from_data640.
  destruct (Z.ltb_spec (Z.of_nat (length data)) (EE640_End - EE640_Base)) as [Hs|_].
  { rewrite full_length_val in Hlen. unfold EE640_End, EE640_Base in Hs. lia. }
  destruct H as [[[Hd Ho] E]|[Hn E]]; change (skipn 0 data) with data in E; rewrite E.
  - left. auto.
  - right. split; [exact Hn|]. reflexivity.
Qed.

(** Outcomes on a dump that is long enough to pass the check, but too short. *)
Lemma from_data640_mid data : Forall byte data -> (831 <= length data < 1664)%nat ->
  from_data640 FO p data = Panic.
Proof.
  intros Hb Hlen. unfold from_data640.
  destruct (Z.ltb_spec (Z.of_nat (length data)) (EE640_End - EE640_Base)) as [Hs|_].
  { unfold EE640_End, EE640_Base in Hs. lia. }
  set (pad := repeat 0 (1664 - length data)).
  assert (Hp : Forall byte (data ++ pad)).
  { apply Forall_app. split; [exact Hb|]. apply Forall_forall. intros x Hx.
    apply repeat_spec in Hx. subst. unfold byte. lia. }
  assert (Hl : length (data ++ pad) = 1664%nat).
  { unfold pad. rewrite app_length, repeat_length. lia. }
  assert (Hpl : (0 < length pad)%nat) by (unfold pad; rewrite repeat_length; lia).
  pose proof (reads_640 FO p (data ++ pad) Hp) as H.
  rewrite full_length_val, Hl in H. specialize (H ltac:(lia)).
  destruct local_parse640 as (_ & X & _). specialize (X data pad).
  destruct (parse640 FO p data) as [[c r]|e| |] eqn:E; cbn [bind]; try reflexivity; exfalso.
  - destruct H as [[_ H]|[_ H]]; change (skipn 0 (data ++ pad)) with (data ++ pad) in H;
      rewrite X in H; [discriminate|].
    apply (f_equal (fun x => match x with Ok (_, l) => length l | _ => 0%nat end)) in H.
    cbv beta iota in H. rewrite skipn_length, Hl, app_length in H. lia.
  - destruct H as [[_ H]|[_ H]]; change (skipn 0 (data ++ pad)) with (data ++ pad) in H;
      rewrite X in H; discriminate.
  - destruct H as [[_ H]|[_ H]]; change (skipn 0 (data ++ pad)) with (data ++ pad) in H;
      rewrite X in H; discriminate.
Qed.

(** Only bytes 32..1663 matter. *)
Lemma from_data640_segment data : Forall byte data -> (1664 <= length data)%nat ->
  from_data640 FO p data = from_data640 FO p (repeat 0 32 ++ firstn 1632 (skipn 32 data)).
Proof.
  intros Hb Hlen.
  set (mid := firstn 1632 (skipn 32 data)). set (post := skipn 1632 (skipn 32 data)).
  assert (Ed : data = (firstn 32 data ++ mid) ++ post).
  { unfold mid, post. rewrite <- app_assoc, firstn_skipn, firstn_skipn. reflexivity. }
  assert (L1 : length (firstn 32 data) = 32%nat) by (rewrite firstn_length; lia).
  assert (Lm : length mid = 1632%nat) by (unfold mid; rewrite firstn_length, skipn_length; lia).
  assert (Lz : length (repeat 0 32 ++ mid) = 1664%nat) by (rewrite app_length, repeat_length; lia).
  assert (Bm : Forall byte (repeat 0 32 ++ mid)).
  { apply Forall_app. split.
    - apply Forall_forall. intros x Hx. apply repeat_spec in Hx. subst. unfold byte. lia.
    - rewrite Forall_forall in *. intros x Hx. apply Hb. unfold mid in Hx.
      rewrite Ed. apply in_or_app. left. apply in_or_app. right. exact Hx. }
  unfold from_data640. rewrite Lz.
  destruct (Z.ltb_spec (Z.of_nat (length data)) (EE640_End - EE640_Base)) as [Hs|_].
  { unfold EE640_End, EE640_Base in Hs. lia. }
  change (Z.of_nat 1664 <? EE640_End - EE640_Base) with false. cbv iota.
  pose proof (reads_640 FO p data Hb) as H. rewrite full_length_val in H. specialize (H Hlen).
  pose proof (reads_640 FO p _ Bm) as H'. rewrite full_length_val, Lz in H'. specialize (H' (Nat.le_refl _)).
  change (skipn 0 data) with data in H. unfold reads in H. change (skipn 0 data) with data in H.
  unfold reads in H'. change (skipn 0 (repeat 0 32 ++ mid)) with (repeat 0 32 ++ mid) in H'.
  rewrite (parse640_skip (repeat 0 32) (firstn 32 data) (repeat_length _ _) L1 mid) in *.
  destruct local_parse640 as (_ & X & R).
  destruct H' as [[_ H']|[_ H']]; rewrite H'; cbn [bind].
  - destruct H as [[_ H]|[_ H]]; rewrite H; [reflexivity|]. exfalso.
    assert (Ep : skipn 1664 data = [] ++ post).
    { unfold post. rewrite skipn_add. reflexivity. }
    rewrite Ep in H. rewrite Ed in H at 1. apply R in H. rewrite H in H'. discriminate.
  - specialize (X (firstn 32 data ++ mid) post). rewrite H' in X. rewrite <- Ed in X. rewrite X. reflexivity.
Qed.
End Local.
