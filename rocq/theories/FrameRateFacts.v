(** * FrameRateFacts: conversions of frame rates and resolutions, in binary32. *)
From Verif Require Import Base FloatOps Register B32 B32Facts Camera Cam640 Cam641.
From Coq Require Import Reals Lra.
From Flocq Require Import Core BinarySingleNaN.
Open Scope Z_scope.

(** Frames per second. *)
Definition frequency (f : frame_rate) : R :=
  match f with
  | FR_Half => / 2 | FR_One => 1 | FR_Two => 2 | FR_Four => 4
  | FR_Eight => 8 | FR_Sixteen => 16 | FR_ThirtyTwo => 32 | FR_SixtyFour => 64
  end%R.

Definition frequency_exp (f : frame_rate) : Z := frame_rate_as_raw f - 1.
Lemma frequency_bpow f : frequency f = bpow radix2 (frequency_exp f).
Proof. destruct f; unfold frequency, frequency_exp; simpl; lra. Qed.

Section L.
Context (l : libm).
Notation FO := (B32 l).

Lemma to_f32_val f : is_val (frame_rate_to_f32 (FO := FO) f) (frequency f).
Proof.
  destruct f; cbn [frame_rate_to_f32 frequency FloatOps.fofZ FloatOps.f_half B32];
    try (apply b_ofZ_correct; lia).
  replace (/ 2)%R with (IZR 1 * bpow radix2 (- 1))%R by (simpl; lra).
  apply (b_scale_exact _ _ 1 1); try lia; [apply b_ofZ_correct; lia|].
  change (bpow radix2 1) with (IZR 2). apply b_ofZ_correct. lia.
Qed.

Lemma period_val f : is_val (frame_rate_period (FO := FO) f) (/ frequency f).
Proof.
  unfold frame_rate_period, frecip. cbn [FloatOps.fdiv FloatOps.fofZ B32].
  rewrite frequency_bpow, <- bpow_opp.
  replace (bpow radix2 (- frequency_exp f)) with (IZR 1 * bpow radix2 (- frequency_exp f))%R by ring.
  apply b_scale_exact; try lia.
  - apply b_ofZ_correct. lia.
  - rewrite <- frequency_bpow. apply to_f32_val.
  - destruct f; unfold frequency_exp; simpl; lia.
Qed.

(** The float comparison decides equality with the eight documented values. *)
Lemma eqb_val_iff (x c : f32) (r : R) : is_val c r -> b_eqb x c = true <-> is_val x r.
Proof.
  intros Hc. split.
  - intros H. destruct x as [s|s| |s m e He].
    + split; [reflexivity|]. apply (b_eqb_val (B754_zero s) c 0%R r); [split; reflexivity|exact Hc|exact H].
    + destruct c as [sc|sc| |sc mc ec Hec]; destruct Hc as [Hf _]; try discriminate Hf; destruct s; discriminate H.
    + destruct c; discriminate H.
    + assert (Hv : is_val (B754_finite s m e He) (B2R (B754_finite s m e He))) by (split; reflexivity).
      split; [reflexivity|]. apply (b_eqb_val _ _ _ _ Hv Hc). exact H.
  - intros Hx. apply (b_eqb_val _ _ _ _ Hx Hc). reflexivity.
Qed.

Lemma is_val_inj x a b : is_val x a -> is_val x b -> a = b.
Proof. intros [_ <-] [_ <-]. reflexivity. Qed.

Lemma frequency_inj f g : frequency f = frequency g -> f = g.
Proof. destruct f, g; unfold frequency; intros H; try reflexivity; exfalso; lra. Qed.

Lemma try_from_f32_iff (x : f32) f :
  frame_rate_try_from_f32 (FO := FO) x = Ok f <-> is_val x (frequency f).
Proof.
  split.
  - unfold frame_rate_try_from_f32. cbn [FloatOps.feqb FloatOps.fofZ FloatOps.f_half FloatOps.F B32].
    intros H.
    repeat match type of H with
    | (if b_eqb x ?c then Ok ?g else _) = _ =>
        let E := fresh "E" in
        destruct (b_eqb x c) eqn:E;
        [ injection H as <-; apply (eqb_val_iff x c (frequency g)); [apply (to_f32_val g)|exact E]
        | clear E ]
    end. discriminate.
  - intros Hx. assert (Hother : forall g, g <> f -> b_eqb x (frame_rate_to_f32 (FO := FO) g) = false).
    { intros g Hg. destruct (b_eqb x (frame_rate_to_f32 (FO := FO) g)) eqn:E; [|reflexivity].
      exfalso. apply Hg. apply frequency_inj. eapply is_val_inj; [|exact Hx].
      apply (eqb_val_iff x _ _ (to_f32_val g)). exact E. }
    assert (Hself : b_eqb x (frame_rate_to_f32 (FO := FO) f) = true)
      by (apply (eqb_val_iff x _ _ (to_f32_val f)); exact Hx).
    pose proof (Hother FR_Half) as N0. pose proof (Hother FR_One) as N1.
    pose proof (Hother FR_Two) as N2. pose proof (Hother FR_Four) as N3.
    pose proof (Hother FR_Eight) as N4. pose proof (Hother FR_Sixteen) as N5.
    pose proof (Hother FR_ThirtyTwo) as N6. pose proof (Hother FR_SixtyFour) as N7. clear Hother.
    change (frame_rate_try_from_f32 (FO := FO) x) with
      (if b_eqb x (frame_rate_to_f32 (FO := FO) FR_Half) then Ok FR_Half
       else if b_eqb x (frame_rate_to_f32 (FO := FO) FR_One) then Ok FR_One
       else if b_eqb x (frame_rate_to_f32 (FO := FO) FR_Two) then Ok FR_Two
       else if b_eqb x (frame_rate_to_f32 (FO := FO) FR_Four) then Ok FR_Four
       else if b_eqb x (frame_rate_to_f32 (FO := FO) FR_Eight) then Ok FR_Eight
       else if b_eqb x (frame_rate_to_f32 (FO := FO) FR_Sixteen) then Ok FR_Sixteen
       else if b_eqb x (frame_rate_to_f32 (FO := FO) FR_ThirtyTwo) then Ok FR_ThirtyTwo
       else if b_eqb x (frame_rate_to_f32 (FO := FO) FR_SixtyFour) then Ok FR_SixtyFour
       else Err (E := lib_error) (InvalidData frame_rate_msg)).
    destruct f;
      rewrite ?N0, ?N1, ?N2, ?N3, ?N4, ?N5, ?N6, ?N7 by discriminate;
      rewrite Hself; reflexivity.
Qed.

Lemma try_from_f32_total (x : f32) :
  (exists f, frame_rate_try_from_f32 (FO := FO) x = Ok f) \/
  frame_rate_try_from_f32 (FO := FO) x = Err (InvalidData frame_rate_msg).
Proof.
  unfold frame_rate_try_from_f32.
  repeat match goal with |- context [if ?b then _ else _] => destruct b; [left; eexists; reflexivity|] end.
  right. reflexivity.
Qed.

(** ** Resolution correction *)
Lemma resolution_correction_val cal cur :
  is_val (resolution_correction640 (FO := FO) cal cur)
         (bpow radix2 (resolution_to_u8 cal - resolution_to_u8 cur)) /\
  is_val (resolution_correction641 (FO := FO) cal cur)
         (bpow radix2 (resolution_to_u8 cal - resolution_to_u8 cur)).
Proof.
  assert (H : resolution_to_u8 cal - resolution_to_u8 cur = resolution_as_raw cal - resolution_as_raw cur)
    by (destruct cal, cur; reflexivity).
  rewrite H. unfold resolution_correction640, resolution_correction641.
  cbn [FloatOps.fexp2 FloatOps.fofZ B32].
  split; apply b_exp2_ofZ; destruct cal, cur; simpl; lia.
Qed.
End L.

Lemma try_from_u8_iff v f :
  frame_rate_try_from_u8 v = Ok f <-> IZR v = frequency f.
Proof.
  unfold frame_rate_try_from_u8. split.
  - intros H.
    repeat match type of H with
    | (if ?v =? ?c then Ok ?g else _) = _ =>
        destruct (Z.eqb_spec v c) as [->|?]; [injection H as <-; unfold frequency; lra|]
    end. discriminate.
  - intros H. destruct f; unfold frequency in H;
      [| apply (eq_IZR v 1) in H; subst; reflexivity
       | apply (eq_IZR v 2) in H; subst; reflexivity
       | apply (eq_IZR v 4) in H; subst; reflexivity
       | apply (eq_IZR v 8) in H; subst; reflexivity
       | apply (eq_IZR v 16) in H; subst; reflexivity
       | apply (eq_IZR v 32) in H; subst; reflexivity
       | apply (eq_IZR v 64) in H; subst; reflexivity ].
    exfalso. assert (H2 : IZR (2 * v) = 1%R) by (rewrite mult_IZR; lra).
    apply (eq_IZR (2 * v) 1) in H2. lia.
Qed.

Lemma frame_rate_raw_iff n f : frame_rate_from_raw n = Ok f <-> n = frame_rate_as_raw f.
Proof.
  unfold frame_rate_from_raw. split.
  - intros H.
    repeat match type of H with
    | (if ?v =? ?c then Ok ?g else _) = _ =>
        destruct (Z.eqb_spec v c) as [->|?]; [injection H as <-; reflexivity|]
    end. discriminate.
  - intros ->. destruct f; reflexivity.
Qed.
Lemma resolution_raw_iff n f : resolution_from_raw n = Ok f <-> n = resolution_as_raw f.
Proof.
  unfold resolution_from_raw. split.
  - intros H.
    repeat match type of H with
    | (if ?v =? ?c then Ok ?g else _) = _ =>
        destruct (Z.eqb_spec v c) as [->|?]; [injection H as <-; reflexivity|]
    end. discriminate.
  - intros ->. destruct f; reflexivity.
Qed.
Lemma resolution_u8_iff n f : resolution_try_from_u8 n = Ok f <-> n = resolution_to_u8 f.
Proof.
  unfold resolution_try_from_u8. split.
  - intros H.
    repeat match type of H with
    | (if ?v =? ?c then Ok ?g else _) = _ =>
        destruct (Z.eqb_spec v c) as [->|?]; [injection H as <-; reflexivity|]
    end. discriminate.
  - intros ->. destruct f; reflexivity.
Qed.
