(** * FiniteFacts: when image values are numbers. *)
From Verif Require Import Base FloatOps Register Bus Camera SpecCamera SpecImage B32 B32Facts SpecFinite BoundFacts.
From Coq Require Import Reals Lra.
From Flocq Require Import Core BinarySingleNaN.
Open Scope Z_scope.

Lemma wrap16_abs z : Z.abs (wrap16 z) <= 32768.
Proof. unfold wrap16. pose proof (Z.mod_pos_bound (z + 32768) 65536 ltac:(lia)). lia. Qed.

Lemma signed_abs w : word w -> Z.abs (signed w) <= 32768.
Proof. unfold word, signed. intros H. destruct (Z.ltb_spec w 32768); lia. Qed.


Lemma within_ofZ_val z e : Z.abs z <= 2 ^ 24 -> (Rabs (IZR z) <= bpow radix2 e)%R -> within (b_ofZ z) e.
Proof. intros H L. apply (within_val _ (IZR z)); [apply b_ofZ_correct; exact H|exact L]. Qed.

Lemma within_one_plus x e : within x e -> 0 <= e <= 126 -> within (b_add (b_ofZ 1) x) (e + 1).
Proof.
  intros H He. apply within_add; [|exact H|lia].
  apply (within_weaken _ 0); [apply within_ofZ; lia|lia].
Qed.

Lemma div_int_low k m : k = 32 * m -> m <> 0 -> Z.abs m <= 1024 ->
  is_finite (b_ofZ k) = true /\ (bpow radix2 5 <= Rabs (B2R (b_ofZ k)))%R.
Proof.
  intros -> Hm Hb. destruct (b_ofZ_correct (32 * m) ltac:(lia)) as [F V]. split; [exact F|].
  rewrite V, <- abs_IZR. change (bpow radix2 5) with (IZR 32). apply IZR_le. lia.
Qed.

Section Finite.
Context {l : libm} (c : calib (B32 l)) (lay : layout) (s : settings (FO := B32 l)) (sp : subpage) (mem : Z -> Z).
Hypothesis (Hord : ordinary c) (Hm : forall a, word (mem a)).

Lemma within_delta_v : within (doc_delta_v c lay mem) 10.
Proof.
  destruct (ord_k_v_dd _ Hord) as (m & Ek & Hn & Hb). unfold doc_delta_v. cbn [B32 fdiv fofZ].
  destruct (div_int_low _ _ Ek Hn Hb) as [F L].
  apply (within_div _ _ 15 5); [|exact F|exact L|lia].
  apply within_ofZ; [|lia]. apply wrap16_abs.
Qed.

Hypothesis (Hres : within (set_correction s) 3).
Lemma within_v_dd : within (doc_v_dd c lay s mem) 14.
Proof.
  unfold doc_v_dd. cbn [B32 fadd fmul]. apply (within_add _ _ 13).
  - apply (within_mul _ _ 10 3); [apply within_delta_v|exact Hres|lia].
  - eapply within_weaken; [apply (ord_v_dd_0 _ Hord)|lia].
  - lia.
Qed.

Hypothesis (Hta : within (doc_t_a c lay mem) 10) (Hg : ram mem (lay_gain lay) <> 0).
Hypothesis (Fe : is_finite (set_emissivity s) = true)
  (He : (bpow radix2 (-8) <= Rabs (B2R (set_emissivity s)))%R).

Lemma within_gain : within (doc_gain c lay mem) 16.
Proof.
  unfold doc_gain. cbn [B32 fdiv fofZ]. apply (within_div _ _ 16 0).
  - apply (ord_gain _ Hord).
  - apply b_ofZ_correct. pose proof (signed_abs _ (Hm (lay_gain lay))). unfold ram. lia.
  - pose proof (signed_abs _ (Hm (lay_gain lay))) as B. fold (ram mem (lay_gain lay)) in B.
    rewrite (proj2 (b_ofZ_correct (ram mem (lay_gain lay)) ltac:(lia))), <- abs_IZR.
    change (bpow radix2 0) with (IZR 1). apply IZR_le. lia.
  - lia.
Qed.

(** [a], [b]: magnitudes of the two temperature/voltage coefficients. *)
Lemma within_compensated raw offset kv kta term a b :
  Z.abs raw <= 32768 -> Z.abs offset <= 32768 -> within kta a -> within kv b -> 0 <= a <= 37 -> 0 <= b <= 37 ->
  (forall x, term = Some x -> within x 6) -> 
  within (doc_compensated c lay s mem raw offset kv kta term) (Z.max (a + b + 43) 32 + 9).
Proof.
  intros Hr Ho Hka Hkv Ha Hb Ht. unfold doc_compensated.
  cbn [B32 fadd fsub fmul fdiv fofZ f_3_3].
  set (e := Z.max (a + b + 43) 32).
  replace (e + 9) with (e + 1 - -8) by lia.
  apply within_div; [|exact Fe|exact He|lia].
  apply within_sub; [| |lia].
  - apply (within_weaken _ 32); [|lia]. apply (within_add _ _ 31); [| |lia].
    + apply (within_mul _ _ 15 16); [apply within_ofZ; lia|apply within_gain|lia].
    + destruct term as [x|].
      * eapply within_weaken; [apply Ht; reflexivity|lia].
      * eapply within_weaken; [apply within_ofZ with (e := 0); lia|lia].
  - apply (within_weaken _ (15 + (a + 11 + 1) + (b + 15 + 1))); [|lia].
    apply within_mul; [apply within_mul| |]; try lia.
    + apply within_ofZ; lia.
    + apply within_one_plus; [|lia]. apply within_mul; [exact Hka| |lia].
      apply (within_sub _ _ 10); [exact Hta| |lia].
      eapply within_weaken; [apply within_ofZ with (e := 5); lia|lia].
    + apply within_one_plus; [|lia]. apply within_mul; [exact Hkv| |lia].
      apply (within_sub _ _ 14); [apply within_v_dd| |lia].
      eapply within_weaken; [|shelve].
      apply (within_div _ _ 6 3).
      * apply within_ofZ; lia.
      * apply b_ofZ_correct. lia.
      * rewrite (proj2 (b_ofZ_correct 10 ltac:(lia))), Rabs_pos_eq by lra. change (bpow radix2 3) with (IZR 8). lra.
      * lia.
  Unshelve. lia.
Qed.

Lemma pixel_is_number i : within (doc_v_ir c lay s sp mem i) 127.
Proof.
  assert (Hpx : within (doc_compensated c lay s mem (ram mem (lay_address lay sp i))
             (nth i (offset_reference_pixels _ c sp) 0) (nth i (k_v_pixels _ c sp) (b_ofZ 0))
             (nth i (k_ta_pixels _ c sp) (b_ofZ 0))
             (nth i (access_pattern_compensation_pixels _ c (set_pattern s)) None)) 126).
  { apply (within_compensated _ _ _ _ _ 37 37); try lia.
    - apply signed_abs, Hm.
    - apply (ord_offset _ Hord).
    - apply (ord_k_ta _ Hord).
    - apply (ord_k_v _ Hord).
    - intros x Hx. eapply (ord_pattern _ Hord). exact Hx. }
  unfold doc_v_ir. cbn [B32 fofZ fsub fmul].
  destruct (temperature_gradient_coefficient _ c) as [tgc|] eqn:Et.
  - apply (within_sub _ _ 126); [exact Hpx| |lia].
    apply (within_weaken _ (2 + 66)); [|lia]. apply within_mul; [|apply (within_compensated _ _ _ _ _ 7 7)|]; try lia.
    + apply (ord_tgc _ Hord). exact Et.
    + apply signed_abs, Hm.
    + apply (ord_offset_cp _ Hord).
    + apply (ord_k_ta_cp _ Hord).
    + apply (ord_k_v_cp _ Hord).
    + intros x Hx. eapply (ord_pattern_cp _ Hord). exact Hx.
  - eapply within_weaken; [exact Hpx|lia].
Qed.
End Finite.

(** ** Cleared RAM *)
Section Cleared.
Context {l : libm} (c : calib (B32 l)) (lay : layout) (s : settings (FO := B32 l)) (sp : subpage) (mem : Z -> Z).
Hypothesis (Hp : ram mem (lay_ptat lay) = 0) (Hb : ram mem (lay_vbe lay) = 0).
Lemma cleared_ambient : doc_t_a c lay mem = B754_nan.
Proof.
  unfold doc_t_a, doc_v_ptat_art. rewrite Hp, Hb. cbn [B32 F fadd fsub fmul fdiv fofZ fexp2].
  rewrite zero_over_zero, nan_mul_l, nan_div_l. reflexivity.
Qed.
Lemma cleared_pixel i : doc_v_ir c lay s sp mem i = B754_nan.
Proof.
  assert (Hc : forall raw offset kv kta term, doc_compensated c lay s mem raw offset kv kta term = B754_nan).
  { intros. unfold doc_compensated. rewrite cleared_ambient. cbn [B32 F fadd fsub fmul fdiv fofZ].
    rewrite nan_sub_l, nan_mul_r, nan_add_r, nan_mul_r, nan_mul_l, nan_sub_r, nan_div_l. reflexivity. }
  unfold doc_v_ir. cbv zeta. rewrite Hc.
  destruct (temperature_gradient_coefficient _ c); [apply nan_sub_l|reflexivity].
Qed.
End Cleared.
