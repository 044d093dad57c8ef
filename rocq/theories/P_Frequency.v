(** * C86: the frequencies true-frame-rate prints. *)
From Verif Require Import Base FloatOps Register B32 Time Examples P_Timing.
From Coq Require Import Reals Lra.
From Flocq Require Import Core BinarySingleNaN Relative.
Open Scope R_scope.

(** Rounding to nearest in binary64. *)
Definition RN64 (r : R) : R := round radix2 (FLT_exp (-1074) 53) (Znearest (fun z => negb (Z.even z))) r.
Notation v := (/ 9007199254740992)%R.

Lemma RN64_rel r : bpow radix2 (-1000) <= Rabs r -> exists eps, Rabs eps <= v /\ RN64 r = r * (1 + eps).
Proof.
  intros H. destruct (relative_error_N_FLT_ex radix2 (-1074) 53 ltac:(lia) (fun z => negb (Z.even z)) r) as (eps & He & E).
  { eapply Rle_trans; [|exact H]. apply bpow_le. lia. }
  exists eps. split; [|exact E]. eapply Rle_trans; [exact He|].
  replace (bpow radix2 (- (53) + 1)) with (/ 4503599627370496) by reflexivity. lra.
Qed.
Lemma RN64_0 : RN64 0 = 0.
Proof. apply round_0. apply valid_rnd_N. Qed.
Lemma RN64_mono a b : a <= b -> RN64 a <= RN64 b.
Proof. intros H. apply round_le; [apply FLT_exp_valid; reflexivity|apply valid_rnd_N|exact H]. Qed.
Lemma RN64_int z : (Z.abs z <= 2 ^ 53)%Z -> RN64 (IZR z) = IZR z.
Proof.
  intros H. apply round_generic; [apply valid_rnd_N|].
  destruct (Z.eq_dec (Z.abs z) (2 ^ 53)) as [E|E].
  - apply generic_format_FLT. 
    assert (G : (z = 2 ^ 53 \/ z = - 2 ^ 53)%Z) by lia.
    destruct G as [-> | ->].
    + exists (Float radix2 1 53); [unfold F2R; cbn [Fnum Fexp]; rewrite Rmult_1_l; reflexivity|reflexivity|cbn [Fexp]; lia].
    + exists (Float radix2 (-1) 53); [|reflexivity|cbn [Fexp]; lia].
      unfold F2R; cbn [Fnum Fexp]. rewrite opp_IZR. replace (bpow radix2 53) with (IZR (2 ^ 53)) by reflexivity. ring.
  - apply generic_format_FLT. exists (Float radix2 z 0).
    + unfold F2R. cbn. ring.
    + cbn [Fnum]. change (Zpower radix2 53) with (2 ^ 53)%Z. lia.
    + cbn [Fexp]. lia.
Qed.
Lemma RN64_small r : Rabs r <= bpow radix2 1000 -> Rlt_bool (Rabs (RN64 r)) (bpow radix2 1024) = true.
Proof.
  intros H. apply Rlt_bool_true. apply Rle_lt_trans with (bpow radix2 1000); [|apply bpow_lt; lia].
  apply abs_round_le_generic; [apply FLT_exp_valid; reflexivity|apply valid_rnd_N| |exact H].
  apply generic_format_bpow. cbn. lia.
Qed.

Definition val64 (x : f64) (r : R) : Prop := is_finite x = true /\ B2R x = r.

Lemma of_Z_val z : (0 <= z < 2 ^ 64)%Z -> val64 (f64_of_Z z) (RN64 (IZR z)).
Proof.
  intros H. unfold f64_of_Z.
  pose proof (binary_normalize_correct 53 1024 eq_refl eq_refl mode_NE z 0 false) as C. cbn zeta in C.
  assert (E : F2R (Float radix2 z 0) = IZR z) by (unfold F2R; cbn; ring).
  rewrite E in C. change (round radix2 (SpecFloat.fexp 53 1024) (round_mode mode_NE) (IZR z)) with (RN64 (IZR z)) in C.
  rewrite RN64_small in C.
  - destruct C as (C1 & C2 & _). split; assumption.
  - rewrite Rabs_pos_eq by (apply IZR_le; lia).
    apply Rle_trans with (bpow radix2 64); [|apply bpow_le; lia].
    replace (bpow radix2 64) with (IZR (2 ^ 64)) by reflexivity. apply IZR_le. lia.
Qed.
Lemma add_val x y a b : val64 x a -> val64 y b -> Rabs (a + b) <= bpow radix2 1000 -> val64 (f64_add x y) (RN64 (a + b)).
Proof.
  intros [Fx <-] [Fy <-] H. pose proof (Bplus_correct 53 1024 eq_refl eq_refl mode_NE x y Fx Fy) as C.
  change (round radix2 (SpecFloat.fexp 53 1024) (round_mode mode_NE)) with RN64 in C.
  rewrite RN64_small in C by exact H. destruct C as (C1 & C2 & _). split; assumption.
Qed.
Lemma div_val x y a b : val64 x a -> val64 y b -> b <> 0 -> Rabs (a / b) <= bpow radix2 1000 -> val64 (f64_div x y) (RN64 (a / b)).
Proof.
  intros [Fx <-] [Fy <-] Hb H. pose proof (Bdiv_correct 53 1024 eq_refl eq_refl mode_NE x y Hb) as C.
  change (round radix2 (SpecFloat.fexp 53 1024) (round_mode mode_NE)) with RN64 in C.
  rewrite RN64_small in C by exact H. destruct C as (C1 & C2 & _). split; [unfold f64_div; rewrite C2; exact Fx|exact C1].
Qed.

Lemma RN64_between r : r = 0 \/ bpow radix2 (-1000) <= r -> (1 - v) * r <= RN64 r <= (1 + v) * r.
Proof.
  intros [-> | H]; [rewrite RN64_0; lra|]. pose proof (bpow_gt_0 radix2 (-1000)) as Hp.
  destruct (RN64_rel r) as (eps & He & E); [rewrite Rabs_pos_eq by lra; exact H|].
  apply Rabs_le_inv in He. rewrite E. assert (0 < r) by lra. nra.
Qed.

(** The exact length of a duration in seconds. *)
Definition seconds (ns : Z) : R := IZR ns / 1000000000.

(** The longest [Duration]: 2^64 seconds less one nanosecond. *)
Definition max_duration : Z := 2 ^ 64 * 1000000000 - 1.

Definition secs_value (ns : Z) : R := RN64 (RN64 (IZR (ns / 1000000000)) + RN64 (IZR (ns mod 1000000000) / 1000000000)).

Lemma big_bound : 73786976294838206464 <= bpow radix2 1000.
Proof. replace 73786976294838206464 with (bpow radix2 66) by reflexivity. apply bpow_le. lia. Qed.
Lemma int_zero_or z : (0 <= z)%Z -> IZR z = 0 \/ 1 <= IZR z.
Proof. intros H. destruct (Z.eq_dec z 0) as [->|]; [left; reflexivity|right]. apply IZR_le. lia. Qed.
Lemma small_1000 : bpow radix2 (-1000) <= / 1000000000.
Proof.
  apply Rle_trans with (bpow radix2 (-30)); [apply bpow_le; lia|].
  replace (bpow radix2 (-30)) with (/ 1073741824) by reflexivity. lra.
Qed.
Lemma parts ns : IZR ns = IZR (ns / 1000000000) * 1000000000 + IZR (ns mod 1000000000).
Proof. rewrite <- mult_IZR, <- plus_IZR. f_equal. pose proof (Z.div_mod ns 1000000000). lia. Qed.

Lemma secs_parts ns : (0 <= ns <= max_duration)%Z ->
  (0 <= ns / 1000000000 < 2 ^ 64)%Z /\ (0 <= ns mod 1000000000 < 1000000000)%Z.
Proof. unfold max_duration. intros H. split; [|apply Z.mod_pos_bound; lia]. split; [apply Z.div_pos; lia|apply Z.div_lt_upper_bound; lia]. Qed.

Lemma secs_bounds ns : (0 <= ns <= max_duration)%Z ->
  let s := RN64 (IZR (ns / 1000000000)) in let f := RN64 (IZR (ns mod 1000000000) / 1000000000) in
  (1 - v) * seconds ns <= s + f <= (1 + v) * seconds ns /\ 0 <= s <= 36893488147419103232 /\ 0 <= f <= 1.
Proof.
  intros H. destruct (secs_parts ns H) as [HS HN]. cbn zeta. set (S := (ns / 1000000000)%Z) in *. set (N := (ns mod 1000000000)%Z) in *.
  assert (E : seconds ns = IZR S + IZR N / 1000000000).
  { unfold seconds. rewrite (parts ns). fold S N. field. }
  assert (B1 : (1 - v) * IZR S <= RN64 (IZR S) <= (1 + v) * IZR S).
  { apply RN64_between. destruct (int_zero_or S ltac:(lia)) as [->|G]; [left; reflexivity|right].
    eapply Rle_trans; [apply small_1000|]. lra. }
  assert (B2 : (1 - v) * (IZR N / 1000000000) <= RN64 (IZR N / 1000000000) <= (1 + v) * (IZR N / 1000000000)).
  { apply RN64_between. destruct (int_zero_or N ltac:(lia)) as [->|G]; [left; lra|right].
    eapply Rle_trans; [apply small_1000|]. lra. }
  assert (B3 : 0 <= IZR S <= 18446744073709551616) by (split; apply IZR_le; lia).
  assert (B4 : 0 <= IZR N <= 1000000000) by (split; apply IZR_le; lia).
  assert (B5 : RN64 (IZR N / 1000000000) <= 1).
  { rewrite <- (RN64_int 1) by lia. apply RN64_mono. lra. }
  rewrite E. repeat split; lra.
Qed.

Lemma as_secs_val ns : (0 <= ns <= max_duration)%Z -> val64 (as_secs_f64 ns) (secs_value ns).
Proof.
  intros H. destruct (secs_parts ns H) as [HS HN]. destruct (secs_bounds ns H) as (B1 & B2 & B3).
  unfold as_secs_f64, secs_value. apply add_val.
  - apply of_Z_val. lia.
  - rewrite <- (RN64_int (ns mod 1000000000)) by lia. rewrite <- (RN64_int 1000000000) by lia.
    apply div_val; [apply of_Z_val; lia|apply of_Z_val; lia| |].
    + rewrite RN64_int by lia. lra.
    + rewrite !RN64_int by lia. assert (0 <= IZR (ns mod 1000000000) <= 1000000000) by (split; apply IZR_le; lia).
      rewrite Rabs_pos_eq by lra. pose proof big_bound. eapply Rle_trans; [|eassumption]. lra.
  - pose proof big_bound. rewrite Rabs_pos_eq by lra. eapply Rle_trans; [|eassumption]. lra.
Qed.

(** The seconds are right to two units of rounding. *)
Lemma secs_value_bounds ns : (0 < ns <= max_duration)%Z ->
  (1 - v) * ((1 - v) * seconds ns) <= secs_value ns <= (1 + v) * ((1 + v) * seconds ns) /\ / 1000000000 <= seconds ns <= 18446744073709551616.
Proof.
  intros H. destruct (secs_bounds ns ltac:(lia)) as (B1 & B2 & B3). cbn zeta in *. unfold secs_value.
  set (r := RN64 (IZR (ns / 1000000000)) + RN64 (IZR (ns mod 1000000000) / 1000000000)) in *.
  assert (P1 : 1 <= IZR ns <= 18446744073709551616000000000) by (unfold max_duration in H; split; apply IZR_le; lia).
  assert (P : / 1000000000 <= seconds ns <= 18446744073709551616) by (unfold seconds; lra).
  split; [|exact P].
  assert (G : (1 - v) * r <= RN64 r <= (1 + v) * r).
  { apply RN64_between. right. apply Rle_trans with (bpow radix2 (-31)); [apply bpow_le; lia|].
    replace (bpow radix2 (-31)) with (/ 2147483648) by reflexivity. lra. }
  split; [eapply Rle_trans; [|apply G]|eapply Rle_trans; [apply G|]]; apply Rmult_le_compat_l; lra.
Qed.

Lemma frequency_val ns : (0 < ns <= max_duration)%Z -> val64 (as_frequency ns) (RN64 (1 / secs_value ns)) /\ 0 < secs_value ns.
Proof.
  intros H. destruct (as_secs_val ns ltac:(lia)) as [F E]. destruct (secs_value_bounds ns H) as (B & P).
  set (t := seconds ns) in *. set (T := secs_value ns) in *.
  assert (PT : 0 < (1 - v) * ((1 - v) * t)) by nra.
  assert (HT : 0 < T) by lra. split; [|exact HT].
  assert (Q : 0 < 1 / T <= 2000000000).
  { unfold Rdiv. rewrite Rmult_1_l. split.
    - apply Rinv_0_lt_compat. exact HT.
    - replace 2000000000 with (/ / 2000000000) by field. apply Rinv_le; [lra|]. nra. }
  unfold as_frequency. rewrite <- (RN64_int 1) by lia. apply div_val; [apply of_Z_val; lia|split; [exact F|exact E]|lra|].
  rewrite RN64_int by lia. rewrite Rabs_pos_eq by lra. eapply Rle_trans; [|apply big_bound]. lra.
Qed.

(** ** C86 *)
(** The rate printed for a duration of [ns] nanoseconds is a number within a relative error of 2^-51 of the
    exact rate; for a duration of zero it is infinity. *)
Theorem C86_frequency : forall ns, (0 < ns <= max_duration)%Z ->
  is_finite (as_frequency ns) = true /\
  Rabs (B2R (as_frequency ns) - 1000000000 / IZR ns) <= / 2251799813685248 * (1000000000 / IZR ns).
Proof.
  intros ns H. destruct (as_secs_val ns ltac:(lia)) as [F E]. destruct (secs_value_bounds ns H) as (B & P).
  set (t := seconds ns) in *. set (T := secs_value ns) in *.
  assert (PT : 0 < (1 - v) * ((1 - v) * t)) by nra.
  assert (HT : 0 < T) by lra.
  assert (Hq : 1000000000 / IZR ns = / t).
  { unfold t, seconds. assert (1 <= IZR ns) by (apply IZR_le; lia). field. lra. }
  assert (Q : / 36893488147419103232 <= 1 / T <= 2000000000).
  { unfold Rdiv. rewrite Rmult_1_l. split.
    - apply Rinv_le; [lra|]. nra.
    - replace 2000000000 with (/ / 2000000000) by field. apply Rinv_le; [lra|]. nra. }
  assert (V : val64 (as_frequency ns) (RN64 (1 / T))).
  { unfold as_frequency. rewrite <- (RN64_int 1) by lia. apply div_val; [apply of_Z_val; lia|split; [exact F|exact E]|lra|].
    rewrite RN64_int by lia. rewrite Rabs_pos_eq by lra. eapply Rle_trans; [|apply big_bound].
    lra. }
  destruct V as [F2 E2]. split; [exact F2|]. rewrite E2, Hq.
  assert (G : (1 - v) * (1 / T) <= RN64 (1 / T) <= (1 + v) * (1 / T)).
  { apply RN64_between. right. apply Rle_trans with (bpow radix2 (-66)); [apply bpow_le; lia|].
    replace (bpow radix2 (-66)) with (/ 73786976294838206464) by reflexivity. lra. }
  assert (Ht : 0 < t) by lra.
  assert (It : 0 < / t) by (apply Rinv_0_lt_compat; exact Ht).
  assert (U : 1 / T <= / ((1 - v) * (1 - v)) * / t).
  { unfold Rdiv. rewrite Rmult_1_l. rewrite <- Rinv_mult. apply Rinv_le; [lra|]. lra. }
  assert (L : / ((1 + v) * (1 + v)) * / t <= 1 / T).
  { unfold Rdiv. rewrite Rmult_1_l. rewrite <- Rinv_mult. apply Rinv_le; [lra|]. lra. }
  assert (C1 : (1 + v) * / ((1 - v) * (1 - v)) <= 1 + / 2251799813685248) by lra.
  assert (C2 : 1 - / 2251799813685248 <= (1 - v) * / ((1 + v) * (1 + v))) by lra.
  apply Rabs_le.
  assert (U2 : RN64 (1 / T) <= (1 + v) * / ((1 - v) * (1 - v)) * / t).
  { eapply Rle_trans; [apply G|]. rewrite Rmult_assoc. apply Rmult_le_compat_l; [lra|exact U]. }
  assert (L2 : (1 - v) * / ((1 + v) * (1 + v)) * / t <= RN64 (1 / T)).
  { eapply Rle_trans; [|apply G]. rewrite Rmult_assoc. apply Rmult_le_compat_l; [lra|exact L]. }
  assert (U3 : (1 + v) * / ((1 - v) * (1 - v)) * / t <= (1 + / 2251799813685248) * / t) by (apply Rmult_le_compat_r; lra).
  assert (L3 : (1 - / 2251799813685248) * / t <= (1 - v) * / ((1 + v) * (1 + v)) * / t) by (apply Rmult_le_compat_r; lra).
  split; lra.
Qed.
Theorem C86_zero : as_frequency 0 = B754_infinity false.
Proof. vm_compute. reflexivity. Qed.
Print Assumptions C86_frequency.

(** A longer duration never shows a higher rate (below 2^53 seconds). *)
Lemma secs_value_mono a b : (0 <= a <= b)%Z -> (b < 2 ^ 53 * 1000000000)%Z -> secs_value a <= secs_value b.
Proof.
  intros H Hb. unfold secs_value. apply RN64_mono.
  destruct (secs_parts a ltac:(unfold max_duration; lia)) as [HSa HNa].
  destruct (secs_parts b ltac:(unfold max_duration; lia)) as [HSb HNb].
  assert (Lb : (b / 1000000000 < 2 ^ 53)%Z) by (apply Z.div_lt_upper_bound; lia).
  assert (L : (a / 1000000000 <= b / 1000000000)%Z) by (apply Z.div_le_mono; lia).
  pose proof (Z.div_mod a 1000000000 ltac:(lia)) as Da. pose proof (Z.div_mod b 1000000000 ltac:(lia)) as Db.
  set (Sa := (a / 1000000000)%Z) in *. set (Sb := (b / 1000000000)%Z) in *.
  set (Na := (a mod 1000000000)%Z) in *. set (Nb := (b mod 1000000000)%Z) in *.
  rewrite (RN64_int Sa), (RN64_int Sb) by lia.
  destruct (Z.eq_dec Sa Sb) as [<-|Hne].
  - apply Rplus_le_compat_l. apply RN64_mono. apply Rmult_le_compat_r; [lra|]. apply IZR_le. lia.
  - assert (C : RN64 (IZR Na / 1000000000) <= 1).
    { rewrite <- (RN64_int 1) by lia. apply RN64_mono. assert (IZR Na <= 1000000000) by (apply IZR_le; lia). lra. }
    assert (D : 0 <= RN64 (IZR Nb / 1000000000)).
    { rewrite <- RN64_0. apply RN64_mono. assert (0 <= IZR Nb) by (apply IZR_le; lia). lra. }
    assert (G : IZR Sa + 1 <= IZR Sb) by (rewrite <- plus_IZR; apply IZR_le; lia). lra.
Qed.
Theorem C86_longer_is_slower : forall a b, (0 < a <= b)%Z -> (b < 2 ^ 53 * 1000000000)%Z ->
  B2R (as_frequency b) <= B2R (as_frequency a).
Proof.
  intros a b H Hb. destruct (frequency_val a ltac:(unfold max_duration; lia)) as [[_ ->] Pa].
  destruct (frequency_val b ltac:(unfold max_duration; lia)) as [[_ ->] Pb].
  apply RN64_mono. unfold Rdiv. rewrite !Rmult_1_l. apply Rinv_le; [exact Pa|]. apply secs_value_mono; lia.
Qed.
Print Assumptions C86_longer_is_slower.

(** What the program prints: its first line is the highest rate, its second line the lowest, and the mean and
    the mode lie between them. *)
Lemma sum_between : forall l lo hi, Forall (fun x => lo <= x)%Z l -> Forall (fun x => x <= hi)%Z l ->
  (lo * Z.of_nat (length l) <= sum_durations l <= hi * Z.of_nat (length l))%Z.
Proof.
  induction l as [|x l IH]; intros lo hi Hl Hh; [unfold sum_durations; cbn; lia|].
  inversion Hl; subst. inversion Hh; subst. rewrite sum_cons. specialize (IH lo hi ltac:(assumption) ltac:(assumption)).
  rewrite (Nat2Z.inj_succ (length l) : Z.of_nat (length (x :: l)) = _). lia.
Qed.
Theorem C86_order : forall instants, in_order instants ->
  (2 <= length instants)%nat -> (Z.of_nat (length instants) <= 2 ^ 32)%Z ->
  Forall (fun d => 0 < d < 2 ^ 53 * 1000000000)%Z (durations instants) ->
  exists t, report instants = Ok t /\
    let hz := fun ns => B2R (as_frequency ns) in
    hz (t_max t) <= hz (t_mean t) <= hz (t_min t) /\
    hz (t_max t) <= hz (t_mode t) <= hz (t_min t) /\
    (Nat.odd (length instants - 1) = true -> hz (t_max t) <= hz (t_median t) <= hz (t_min t)).
Proof.
  intros instants Ho H2 Hlen Hd. destruct (C77_statistics instants Ho Hlen) as [_ C].
  destruct (C H2) as (t & E & (Imin & Lmin) & (Imax & Lmax) & Emean & (Imode & _) & Hodd & _). exists t. split; [exact E|].
  cbn zeta. rewrite Forall_forall in Hd.
  assert (G : forall x, (t_min t <= x <= t_max t)%Z ->
    B2R (as_frequency (t_max t)) <= B2R (as_frequency x) <= B2R (as_frequency (t_min t))).
  { intros x Hx. pose proof (Hd _ Imin). pose proof (Hd _ Imax). split; apply C86_longer_is_slower; lia. }
  pose proof (durations_length instants) as Hl.
  split; [|split].
  - apply G. pose proof (sum_between _ _ _ Lmin Lmax) as Sb.
    assert (Es : sum_durations (durations instants) = (last instants 0 - hd 0 instants)%Z).
    { destruct instants as [|a l]; [cbn in H2; lia|]. rewrite sum_telescopes by exact Ho. rewrite last_shift. reflexivity. }
    rewrite Es, Hl in Sb. rewrite Emean. set (n := Z.of_nat (length instants - 1)) in *.
    assert (0 < n)%Z by lia. clearbody n. clear -Sb H. split; [apply Z.div_le_lower_bound; lia|apply Z.div_le_upper_bound; lia].
  - apply G. rewrite Forall_forall in Lmin, Lmax. split; [apply Lmin|apply Lmax]; exact Imode.
  - intros Hod. apply G. rewrite Hl in Hodd. destruct (Hodd Hod) as (lower & upper & Hp & _).
    assert (Im : In (t_median t) (durations instants)).
    { eapply Permutation.Permutation_in; [symmetry; exact Hp|]. apply in_or_app. right. left. reflexivity. }
    rewrite Forall_forall in Lmin, Lmax. split; [apply Lmin|apply Lmax]; exact Im.
Qed.
Print Assumptions C86_order.

(** ** Concrete cases *)
(** A quarter of a second is exactly 4 Hz. *)
Example C86_quarter : B2SF (as_frequency 250000000) = B2SF (f64_of_Z 4).
Proof. vm_compute. reflexivity. Qed.
(** The alternating camera of C76: a subpage every 400 ns. *)
Example C86_concrete :
  let instants := [500; 900; 1300; 1700; 2100]%Z in
  in_order instants /\ Forall (fun d => 0 < d < 2 ^ 53 * 1000000000)%Z (durations instants) /\
  report instants = Ok {| t_min := 400; t_max := 400; t_mean := 400; t_median := 200; t_mode := 400 |}.
Proof.
  cbn zeta. split; [|split; [repeat constructor; lia|vm_compute; reflexivity]].
  intros i a b. do 5 (destruct i as [|i]; [cbn [nth_error]; intros Ha Hb; try discriminate; injection Ha as <-; injection Hb as <-; lia|]).
  destruct i; discriminate.
Qed.
