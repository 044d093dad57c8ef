(** * CalcFacts: the masked loops and the totality of the calculations. *)
From Verif Require Import Base FloatOps Register Bus Camera Calc.

Lemma mfe_length {A X} (f : A -> X -> A) dest items mask :
  length (masked_for_each f dest items mask) = length dest.
Proof.
  revert items mask. induction dest as [|d dest IH]; intros [|x items] mask; cbn [masked_for_each length]; try reflexivity.
  rewrite IH. reflexivity.
Qed.

Lemma nth_tl {A} (l : list A) i d : nth i (tl l) d = nth (S i) l d.
Proof. destruct l; [destruct i; reflexivity|reflexivity]. Qed.

Lemma mfe_nth {A X} (f : A -> X -> A) dest items mask i :
  nth_error (masked_for_each f dest items mask) i =
  match nth_error dest i with
  | None => None
  | Some d =>
      match nth_error items i with
      | Some x => if nth i mask false then Some (f d x) else Some d
      | None => Some d
      end
  end.
Proof.
  revert items mask i. induction dest as [|d dest IH]; intros [|x items] mask i; cbn [masked_for_each].
  - destruct i; reflexivity.
  - destruct i; reflexivity.
  - destruct i as [|i]; [reflexivity|]. cbn [nth_error]. destruct (nth_error dest i); reflexivity.
  - destruct i as [|i].
    + cbn [nth_error]. destruct mask as [|b mask]; cbn [hd nth]; [reflexivity|]. destruct b; reflexivity.
    + cbn [nth_error]. rewrite IH, nth_tl. reflexivity.
Qed.

Lemma nth_error_zip {A X} (l : list A) (r : list X) i :
  nth_error (zip l r) i =
  match nth_error l i, nth_error r i with Some a, Some b => Some (a, b) | _, _ => None end.
Proof.
  unfold zip. revert r i. induction l as [|a l IH]; intros [|b r] [|i]; cbn [combine nth_error]; try reflexivity.
  - destruct (nth_error l i); reflexivity.
  - apply IH.
Qed.

Lemma chunks2_ind (P : list Z -> Prop) :
  P [] -> (forall a, P [a]) -> (forall a b l, P l -> P (a :: b :: l)) -> forall l, P l.
Proof.
  intros H0 H1 H2. fix IH 1. intros [|a [|b l]]; [exact H0|apply H1|apply H2, IH].
Qed.

Lemma chunks2_nth l i :
  nth_error (chunks2 l) i =
  if Nat.ltb (2 * i + 1) (length l) then Some (nth (2 * i) l 0, nth (2 * i + 1) l 0) else None.
Proof.
  revert i. induction l as [|a|a b l IH] using chunks2_ind; intros i; cbn [chunks2].
  - destruct i; reflexivity.
  - replace (Nat.ltb (2 * i + 1) (length [a])) with false; [destruct i; reflexivity|].
    symmetry. apply Nat.ltb_ge. cbn [length]. lia.
  - destruct i as [|i]; [reflexivity|]. cbn [nth_error]. rewrite IH.
    replace (2 * S i + 1)%nat with (S (S (2 * i + 1))) by lia.
    replace (2 * S i)%nat with (S (S (2 * i))) by lia. reflexivity.
Qed.

Lemma chunks2_length l : length (chunks2 l) = (length l / 2)%nat.
Proof.
  induction l as [|a|a b l IH] using chunks2_ind; try reflexivity.
  cbn [chunks2 length]. rewrite IH. symmetry.
  replace (S (S (length l))) with (length l + 1 * 2)%nat by lia. rewrite Nat.div_add by lia. lia.
Qed.

Section Total.
Context {FO : FloatOps} (p : profile).

Lemma chk_i16_cases {E} z : (exists v, chk_i16 (E := E) p z = Ok v) \/ chk_i16 (E := E) p z = Panic.
Proof. unfold chk_i16. destruct (in_i16 z); [eauto|]. destruct p; eauto. Qed.

Lemma common_new_cases {E} rc em (c : calib FO) ram :
  (exists k, common_new (E := E) p rc em c ram = Ok k) \/ common_new (E := E) p rc em c ram = Panic.
Proof.
  unfold common_new, delta_v.
  destruct (chk_i16_cases (E := E) (v_dd_pixel ram - v_dd_25 _ c)) as [[v ->]| ->]; cbn [bind]; eauto.
Qed.

Lemma ir_data_cases {E} c em rc px ram sp ap mask dest :
  (exists t dest', raw_pixels_to_ir_data (E := E) (FO := FO) p c em rc px ram sp ap mask dest = Ok (t, dest')) \/
  raw_pixels_to_ir_data (E := E) p c em rc px ram sp ap mask dest = Panic.
Proof.
  unfold raw_pixels_to_ir_data.
  destruct (common_new_cases (E := E) rc em c ram) as [[v ->]| ->]; cbn [bind]; eauto.
Qed.

Lemma temperatures_cases {E} c em tr rc px ram sp ap mask dest :
  (exists t dest', raw_pixels_to_temperatures (E := E) (FO := FO) p c em tr rc px ram sp ap mask dest = Ok (t, dest')) \/
  raw_pixels_to_temperatures (E := E) p c em tr rc px ram sp ap mask dest = Panic.
Proof.
  unfold raw_pixels_to_temperatures.
  destruct (common_new_cases (E := E) rc em c ram) as [[v ->]| ->]; cbn [bind]; [|eauto].
  destruct (nth_error (k_s_to FO c) (BASIC_TEMPERATURE_RANGE FO (cam FO c))); cbn [unwrap bind]; eauto.
Qed.
End Total.
