(** * RangeFacts: the recursion of the sensitivity corrections. *)
From Verif Require Import Base FloatOps Register Bus Camera SpecEeprom ParseFacts SpecRange.

Section RangeFacts.
Context (FO : FloatOps) (p : profile) (ct : list Z) (kst : list (F FO)) (N basic : nat).
Hypothesis (Hct : (N <= length ct)%nat) (Hk : (N <= length kst)%nat) (Hbasic : (basic < N)%nat).
Hypothesis Hfit : forall n, (S n < N)%nat -> fits (range_span ct n).

Lemma nth_error_some {A} (l : list A) n d : (n < length l)%nat -> nth_error l n = Some (nth n l d).
Proof. apply nth_error_nth'. Qed.

Lemma chk_ok {E} z : fits z -> @chk_i16 E p z = Ok z.
Proof. intros H. unfold chk_i16. apply in_i16_spec in H. rewrite H. reflexivity. Qed.

Lemma alpha_corr_n_above fuel : forall n, (basic <= n < N)%nat -> (n - basic < fuel)%nat ->
  alpha_corr_n FO fuel p n basic ct kst = Ok (correction_above ct kst basic (n - basic)).
Proof.
  induction fuel as [|fuel IH]; intros n Hn Hf; [lia|]. cbn [alpha_corr_n].
  destruct (Nat.compare_spec n basic) as [->|H|H]; [|lia|].
  - rewrite Nat.sub_diag. reflexivity.
  - rewrite (nth_error_some kst (n - 1) (fofZ 0)), (nth_error_some ct n 0), (nth_error_some ct (n - 1) 0) by lia.
    cbn [unwrap bind].
    assert (E : nth n ct 0 - nth (n - 1) ct 0 = range_span ct (n - 1)).
    { unfold range_span. replace (n - 1 + 1)%nat with n by lia. reflexivity. }
    rewrite E, chk_ok by (apply Hfit; lia). cbn [bind].
    rewrite IH by lia. cbn [bind].
    replace (n - basic)%nat with (S (n - 1 - basic)) by lia. cbn [correction_above].
    replace (basic + (n - 1 - basic))%nat with (n - 1)%nat by lia. reflexivity.
Qed.

Lemma alpha_corr_n_below fuel : forall n, (n <= basic)%nat -> (basic - n < fuel)%nat ->
  alpha_corr_n FO fuel p n basic ct kst = Ok (correction_below ct kst basic (basic - n)).
Proof.
  induction fuel as [|fuel IH]; intros n Hn Hf; [lia|]. cbn [alpha_corr_n].
  destruct (Nat.compare_spec n basic) as [->|H|H]; [| |lia].
  - rewrite Nat.sub_diag. reflexivity.
  - rewrite (nth_error_some kst n (fofZ 0)), (nth_error_some ct (n + 1) 0), (nth_error_some ct n 0) by lia.
    cbn [unwrap bind].
    change (nth (n + 1) ct 0 - nth n ct 0) with (range_span ct n).
    rewrite chk_ok by (apply Hfit; lia). cbn [bind].
    rewrite IH by lia. cbn [bind].
    replace (basic - n)%nat with (S (basic - (n + 1))) by lia. cbn [correction_below].
    replace (basic - S (basic - (n + 1)))%nat with n by lia. reflexivity.
Qed.

Lemma sequence_ok {E A B} (m : A -> res E B) (v : A -> B) l :
  (forall x, In x l -> m x = Ok (v x)) -> sequence (map m l) = Ok (map v l).
Proof.
  induction l as [|x l IH]; intros H; [reflexivity|]. cbn [map sequence].
  rewrite H by (left; reflexivity). cbn [bind]. rewrite IH by (intros; apply H; right; assumption).
  reflexivity.
Qed.

Lemma alpha_correction_closed :
  alpha_correction_coefficients FO p N basic ct kst = Ok (map (range_correction ct kst basic) (seq 0 N)).
Proof.
  unfold alpha_correction_coefficients. apply sequence_ok. intros n Hn. apply in_seq in Hn.
  unfold range_correction. destruct (Nat.leb_spec basic n).
  - apply alpha_corr_n_above; lia.
  - apply alpha_corr_n_below; lia.
Qed.
End RangeFacts.
