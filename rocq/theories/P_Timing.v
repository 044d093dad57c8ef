(** * C76, C77: the example program true-frame-rate. *)
From Verif Require Import Base FloatOps Register Bus Camera Calc Cam640 Cam641 BitFacts SpecRegister RegisterFacts
  SpecCamera SpecDriver DriverFacts StepFacts Demo P_Bus B32 B32Facts FrameRateFacts Examples Driver.
From Coq Require Import Permutation Sorted Reals Lra.
From Flocq Require Import Core BinarySingleNaN.
Open Scope Z_scope.

(** ** C76 The instants recorded *)
Definition subpage_dec (a b : subpage) : {a = b} + {a <> b}.
Proof. decide equality. Defined.

(** [changes s obs]: the times in the observations [obs] (subpage shown, time) at which
    the subpage shown is not the one shown just before; [s] was shown before all of them. *)
Fixpoint changes (s : subpage) (obs : list (subpage * Z)) : list Z :=
  match obs with
  | [] => []
  | (s', t) :: rest => if subpage_dec s' s then changes s' rest else t :: changes s' rest
  end.

Section Timing.
Context {FO : FloatOps} (p : profile) {B ER EW : Type} (bs : bus B ER EW).
Notation driver := (driver (FO := FO) (B := B) (ER := ER) (EW := EW)).
Context (now : world B ER EW -> Z).
Implicit Types d : driver.

(** The user calls [last_measured_subpage] again and again, noting each answer and the
    time after it. *)
Inductive watches : driver -> list (subpage * Z) -> driver -> Prop :=
| watches_nil d : watches d [] d
| watches_cons d s d1 obs d2 :
    step p bs d OpLastMeasuredSubpage = (Ok (OutSubpage s), d1, []) -> watches d1 obs d2 ->
    watches d ((s, now (d_bus d1)) :: obs) d2.

Lemma watches_app d obs d1 obs' d2 : watches d obs d1 -> watches d1 obs' d2 -> watches d (obs ++ obs') d2.
Proof. induction 1; intros H2; [exact H2|]. econstructor; eauto. Qed.
Lemma watches_one d s d1 : last_measured_subpage bs d = (Ok s, d1) -> watches d [(s, now (d_bus d1))] d1.
Proof. intros H. econstructor; [|constructor]. cbn [step]. rewrite H. reflexivity. Qed.

Lemma last_measured_cases d r d' : last_measured_subpage bs d = (r, d') ->
  exists w', d' = with_bus d w' /\
  ((exists v, r = Ok (s_subpage (status_doc v)) /\ word v /\ trace w' = trace (d_bus d) ++ [reads_word (d_address d) status_reg v]) \/
   (exists e x, r = Err (I2cWriteReadError e) /\ read_fails (d_address d) status_reg e x /\ trace w' = trace (d_bus d) ++ [x])).
Proof.
  unfold last_measured_subpage, bindS, pure. destruct (status_register_ bs d) as [r0 d0] eqn:Hs. intros H.
  apply status_register_spec in Hs. destruct Hs as (w' & -> & [(v & -> & Hv & Ht)|(e & x & -> & Hx & Ht)]); exists w'.
  - rewrite last_updated_subpage_doc in H by exact Hv. inversion H; subst. split; [reflexivity|]. left. exists v. auto.
  - inversion H; subst. split; [reflexivity|]. right. exists e, x. auto.
Qed.

(** The subpage shown last. *)
Definition shown_last (s : subpage) (obs : list (subpage * Z)) : subpage := last (map fst obs) s.
Lemma last_shift {A} (m : list A) : forall a z, last (a :: m) z = last m a.
Proof. induction m as [|b m IH]; intros a z; [reflexivity|]. change (last (a :: b :: m) z) with (last (b :: m) z). rewrite !IH. reflexivity. Qed.
Lemma last_same {A} (l : list A) s : Forall (eq s) l -> last l s = s.
Proof. induction l as [|a l IH]; intros H; [reflexivity|]. inversion H; subst. destruct l; [reflexivity|]. cbn [last] in *. auto. Qed.
Lemma changes_none s obs : Forall (eq s) (map fst obs) -> changes s obs = [].
Proof.
  induction obs as [|[s' t] obs IH]; intros H; [reflexivity|]. cbn [map fst] in H. inversion H; subst.
  cbn [changes]. destruct (subpage_dec s' s'); [|contradiction]. apply IH. assumption.
Qed.
Lemma changes_quiet s quiet obs : Forall (eq s) (map fst quiet) -> changes s (quiet ++ obs) = changes s obs.
Proof.
  induction quiet as [|[s' t] q IH]; intros H; [reflexivity|]. cbn [map fst] in H. inversion H; subst.
  cbn [app changes]. destruct (subpage_dec s' s'); [|contradiction]. apply IH. assumption.
Qed.

Lemma subpage_eqb_dec a b : subpage_eqb a b = if subpage_dec a b then true else false.
Proof. destruct a, b; reflexivity. Qed.

Lemma wait_change_spec : forall fuel s d r d', wait_change bs fuel s d = (r, d') ->
  exists quiet d1, watches d quiet d1 /\ Forall (eq s) (map fst quiet) /\ (length quiet <= S fuel)%nat /\
  match r with
  | Ok s' => s' <> s /\ step p bs d1 OpLastMeasuredSubpage = (Ok (OutSubpage s'), d', [])
  | Err e => step p bs d1 OpLastMeasuredSubpage = (Err e, d', [])
  | Panic => False
  | Diverge => d1 = d' /\ length quiet = S fuel
  end.
Proof.
  induction fuel as [|fuel IH]; intros s d r d' H; cbn [wait_change] in H; unfold bindS in H;
    destruct (last_measured_subpage bs d) as [r0 d0] eqn:E; pose proof (last_measured_cases _ _ _ E) as (w' & -> & C).
  - destruct C as [(v & -> & _)|(e & x & -> & _)].
    + rewrite subpage_eqb_dec in H. destruct (subpage_dec (s_subpage (status_doc v)) s) as [Es|Es]; cbn [negb] in H; inversion H; subst.
      * exists [(s_subpage (status_doc v), now (d_bus (with_bus d w')))]. eexists. split; [apply watches_one; exact E|].
        repeat split; [repeat constructor|cbn; lia].
      * exists [], d. repeat split; [constructor|constructor|cbn; lia|exact Es|]. cbn [step]. rewrite E. reflexivity.
    + inversion H; subst. exists [], d. repeat split; [constructor|constructor|cbn; lia|]. cbn [step]. rewrite E. reflexivity.
  - destruct C as [(v & -> & _)|(e & x & -> & _)].
    + rewrite subpage_eqb_dec in H. destruct (subpage_dec (s_subpage (status_doc v)) s) as [Es|Es]; cbn [negb] in H.
      * apply IH in H. destruct H as (q & d1 & Hw & Hq & Hl & Hr).
        exists ((s_subpage (status_doc v), now (d_bus (with_bus d w'))) :: q), d1.
        split; [apply (watches_app _ [_] (with_bus d w')); [apply watches_one; exact E|exact Hw]|].
        split; [constructor; [exact (eq_sym Es)|exact Hq]|]. split; [cbn [length]; lia|].
        destruct r; try exact Hr. destruct Hr as [-> Hr]. split; [reflexivity|cbn [length]; lia].
      * inversion H; subst. exists [], d. repeat split; [constructor|constructor|cbn; lia|exact Es|]. cbn [step]. rewrite E. reflexivity.
    + inversion H; subst. exists [], d. repeat split; [constructor|constructor|cbn; lia|]. cbn [step]. rewrite E. reflexivity.
Qed.

Lemma changes_app s obs1 obs2 : changes s (obs1 ++ obs2) = changes s obs1 ++ changes (shown_last s obs1) obs2.
Proof.
  revert s. induction obs1 as [|[s' t] obs IH]; intros s; [reflexivity|].
  cbn [app changes]. assert (E : shown_last s ((s', t) :: obs) = shown_last s' obs).
  { unfold shown_last. cbn [map fst]. apply last_shift. }
  rewrite E, IH. destruct (subpage_dec s' s); reflexivity.
Qed.

(** What [find_frequency] returns, after the first answer [s0]. *)
Inductive timed (fuel n : nat) (s0 : subpage) (d : driver) : res (error ER EW) (list Z) -> driver -> Prop :=
| timed_all obs d' : watches d obs d' ->
    length (changes s0 obs) = n ->
    (forall front x, obs = front ++ [x] -> (length (changes s0 front) < n)%nat) ->
    timed fuel n s0 d (Ok (changes s0 obs)) d'
| timed_failed obs d1 e d' : watches d obs d1 -> step p bs d1 OpLastMeasuredSubpage = (Err e, d', []) ->
    (length (changes s0 obs) < n)%nat ->
    timed fuel n s0 d (Err e) d'
| timed_waiting obs quiet d' : watches d (obs ++ quiet) d' -> (length (changes s0 obs) < n)%nat ->
    Forall (eq (shown_last s0 obs)) (map fst quiet) -> length quiet = S fuel ->
    timed fuel n s0 d Diverge d'.

Lemma app_single_inj {A} (a b : list A) x y : a ++ [x] = b ++ [y] -> a = b /\ x = y.
Proof. apply app_inj_tail. Qed.

Lemma collect_spec : forall n fuel s results d r d', collect bs now fuel n s results d = (r, d') ->
  exists r', timed fuel n s d r' d' /\ r = match r' with Ok l => Ok (results ++ l) | x => x end.
Proof.
  induction n as [|n IH]; intros fuel s results d r d' H; cbn [collect] in H.
  - inversion H; subst. exists (Ok (changes s [])). split; [|cbn [changes]; rewrite app_nil_r; reflexivity].
    constructor; [constructor|reflexivity|]. intros front x E. destruct front; discriminate E.
  - unfold bindS in H. destruct (wait_change bs fuel s d) as [r0 d0] eqn:E. apply wait_change_spec in E.
    destruct E as (q & d1 & Hw & Hq & Hl & E). destruct r0 as [s'|e| |].
    + destruct E as [Hne Hs].
      set (x := (s', now (d_bus d0))).
      assert (W1 : watches d (q ++ [x]) d0).
      { eapply watches_app; [exact Hw|]. econstructor; [exact Hs|constructor]. }
      assert (C1 : forall o, changes s ((q ++ [x]) ++ o) = now (d_bus d0) :: changes s' o).
      { intros o. rewrite <- app_assoc, changes_quiet by exact Hq. cbn [app changes x]. destruct (subpage_dec s' s); [contradiction|reflexivity]. }
      assert (S1 : forall o, shown_last s ((q ++ [x]) ++ o) = shown_last s' o).
      { intros o. unfold shown_last. rewrite map_app, map_app. cbn [map fst x]. rewrite <- app_assoc. cbn [app].
        assert (G : forall l m, last (l ++ s' :: m) s = last m s').
        { induction l as [|a l IHl]; intros m0; cbn [app].
          - apply last_shift.
          - cbn [last]. destruct (l ++ s' :: m0) eqn:E; [destruct l; discriminate E|]. rewrite <- E. apply IHl. }
        apply G. }
      apply IH in H. destruct H as (r' & Ht & ->). destruct Ht as [obs d' Ho Hc Hmin|obs d2 e d' Ho Hf Hc|obs quiet d' Ho Hc Hquiet Hlen].
      * exists (Ok (changes s ((q ++ [x]) ++ obs))). split; [|rewrite C1, <- app_assoc; reflexivity].
        constructor; [eapply watches_app; eassumption|rewrite C1; cbn [length]; lia|].
        intros front y Ef. destruct obs as [|o obs0] using rev_ind.
        -- rewrite app_nil_r in Ef. apply app_single_inj in Ef. destruct Ef as [<- _]. rewrite changes_none by exact Hq. cbn; lia.
        -- clear IHobs0. rewrite app_assoc in Ef. apply app_single_inj in Ef. destruct Ef as [<- _]. rewrite C1. cbn [length].
           specialize (Hmin obs0 o eq_refl). lia.
      * exists (Err e). split; [|reflexivity]. apply (timed_failed _ _ _ _ ((q ++ [x]) ++ obs) d2); [eapply watches_app; eassumption|exact Hf|].
        rewrite C1. cbn [length]. lia.
      * exists Diverge. split; [|reflexivity]. apply (timed_waiting _ _ _ _ ((q ++ [x]) ++ obs) quiet).
        -- rewrite <- app_assoc. eapply watches_app; eassumption.
        -- rewrite C1. cbn [length]. lia.
        -- rewrite S1. exact Hquiet.
        -- exact Hlen.
    + inversion H; subst. exists (Err e). split; [|reflexivity]. apply (timed_failed _ _ _ _ q d1); [exact Hw|exact E|].
      rewrite changes_none by exact Hq. cbn; lia.
    + contradiction.
    + destruct E as [-> E]. inversion H; subst. exists Diverge. split; [|reflexivity].
      apply (timed_waiting _ _ _ _ [] q); [exact Hw|cbn; lia|exact Hq|exact E].
Qed.

(** For any camera, schedule, clock and faults: [find_frequency] calls
    [last_measured_subpage] until it has seen [n] changes of the subpage and returns the
    times of exactly those; the first failing call ends it with that error; if it is
    still waiting, the last [fuel + 2] answers were all the same subpage. *)
Theorem C76_instants : forall fuel n d r d', find_frequency bs now fuel n d = (r, d') ->
  (exists e, r = Err e /\ step p bs d OpLastMeasuredSubpage = (Err e, d', [])) \/
  (exists s0 d0, step p bs d OpLastMeasuredSubpage = (Ok (OutSubpage s0), d0, []) /\ timed fuel n s0 d0 r d').
Proof.
  intros fuel n d r d' H. unfold find_frequency, bindS in H.
  destruct (last_measured_subpage bs d) as [r0 d0] eqn:E. pose proof (last_measured_cases _ _ _ E) as (w' & -> & C).
  destruct C as [(v & -> & _)|(e & x & -> & _)].
  - right. exists (s_subpage (status_doc v)), (with_bus d w'). split; [cbn [step]; rewrite E; reflexivity|].
    apply collect_spec in H. destruct H as (r' & Ht & ->). destruct r'; exact Ht.
  - left. inversion H; subst. exists (I2cWriteReadError e). split; [reflexivity|]. cbn [step]. rewrite E. reflexivity.
Qed.

(** Watching only reads the status register: one read per answer, whose lowest bits are
    the answer; nothing else of the driver changes. *)
Theorem C76_only_status_reads : forall d obs d', watches d obs d' ->
  exists vs w', d' = with_bus d w' /\ Forall word vs /\
    trace (d_bus d') = trace (d_bus d) ++ map (reads_word (d_address d) status_reg) vs /\
    map fst obs = map (fun v => s_subpage (status_doc v)) vs.
Proof.
  induction 1 as [d|d s d1 obs d2 H _ IH].
  - exists [], (d_bus d). split; [destruct d; reflexivity|]. split; [constructor|]. split; [cbn; rewrite app_nil_r; reflexivity|reflexivity].
  - cbn [step lift] in H. destruct (last_measured_subpage bs d) as [r0 d0] eqn:E. cbn [bind] in H.
    pose proof (last_measured_cases _ _ _ E) as (w1 & -> & [(v & -> & Hv & Ht)|(e & x & -> & _)]); cbn [bind] in H; [|discriminate].
    inversion H; subst. destruct IH as (vs & w' & -> & Hvs & Ht2 & Ho).
    exists (v :: vs), w'. split; [reflexivity|]. split; [constructor; assumption|]. split.
    + cbn [d_bus d_address with_bus] in *. rewrite Ht2, Ht, <- app_assoc. reflexivity.
    + cbn [map fst]. rewrite Ho. reflexivity.
Qed.

(** The bound on the number of polls does not matter once it was enough. *)
Lemma wait_change_mono : forall n k s d r d', wait_change bs n s d = (r, d') -> r <> Diverge -> (n <= k)%nat ->
  wait_change bs k s d = (r, d').
Proof.
  induction n as [|n IH]; intros k s d r d' H Hr Hk; cbn [wait_change] in H; unfold bindS in H.
  - destruct k; cbn [wait_change]; unfold bindS; destruct (last_measured_subpage bs d) as [[cur| | |] d0]; try exact H;
      destruct (negb (subpage_eqb cur s)); try exact H; inversion H; subst; contradiction.
  - destruct k; [lia|]. cbn [wait_change]. unfold bindS. destruct (last_measured_subpage bs d) as [[cur| | |] d0]; try exact H.
    destruct (negb (subpage_eqb cur s)); try exact H. apply (IH k); [exact H|exact Hr|lia].
Qed.
Lemma collect_mono : forall c n k s res0 d r d', collect bs now n c s res0 d = (r, d') -> r <> Diverge -> (n <= k)%nat ->
  collect bs now k c s res0 d = (r, d').
Proof.
  induction c as [|c IH]; intros n k s res0 d r d' H Hr Hk; cbn [collect] in *; [exact H|]. unfold bindS in *.
  destruct (wait_change bs n s d) as [r0 d0] eqn:E.
  assert (Hne : r0 <> Diverge) by (intros ->; inversion H; subst; contradiction).
  rewrite (wait_change_mono _ _ _ _ _ _ E Hne Hk). destruct r0; try exact H. eapply IH; eassumption.
Qed.
Theorem C76_bound_irrelevant : forall n k count d r d',
  find_frequency bs now n count d = (r, d') -> r <> Diverge -> (n <= k)%nat ->
  find_frequency bs now k count d = (r, d').
Proof.
  intros n k count d r d' H Hr Hk. unfold find_frequency, bindS in *.
  destruct (last_measured_subpage bs d) as [[s| | |] d0]; try exact H. eapply collect_mono; eassumption.
Qed.

(** On a camera that answers every time with the same subpage (subpage mode off) the
    program never ends, whatever the number of frames asked for but 0. *)
Theorem C76_one_subpage_never_ends : forall s d n,
  (forall obs d1, watches d obs d1 ->
     Forall (fun x => fst x = s) obs /\ exists d2, step p bs d1 OpLastMeasuredSubpage = (Ok (OutSubpage s), d2, [])) ->
  (0 < n)%nat -> forall fuel, fst (find_frequency bs now fuel n d) = Diverge.
Proof.
  intros s d n Hall Hn fuel. destruct (find_frequency bs now fuel n d) as [r d'] eqn:E. cbn [fst].
  apply C76_instants in E. destruct E as [(e & -> & E)|(s0 & d0 & E0 & E)].
  - destruct (Hall [] d (watches_nil d)) as [_ [d2 E2]]. rewrite E in E2. discriminate E2.
  - destruct (Hall [] d (watches_nil d)) as [_ [d2 E2]]. rewrite E0 in E2.
    assert (s0 = s) by congruence. subst s0.
    assert (Hall' : forall obs d1, watches d0 obs d1 ->
      Forall (eq s) (map fst obs) /\ exists d2, step p bs d1 OpLastMeasuredSubpage = (Ok (OutSubpage s), d2, [])).
    { intros obs d1 Hw. destruct (Hall ((s, now (d_bus d0)) :: obs) d1) as [Hf Hs]; [econstructor; eassumption|].
      split; [|exact Hs]. apply Forall_map. inversion Hf; subst. eapply Forall_impl; [|eassumption]. intros a Ha. symmetry. exact Ha. }
    destruct E as [obs d' Ho Hc Hmin|obs d1 e d' Ho Hf Hc|obs quiet d' Ho Hc Hquiet Hlen]; [| |reflexivity].
    + destruct (Hall' _ _ Ho) as [Hf _]. rewrite changes_none in Hc by exact Hf. cbn in Hc. lia.
    + destruct (Hall' _ _ Ho) as [_ [d3 E3]]. rewrite Hf in E3. discriminate E3.
Qed.
End Timing.
Print Assumptions C76_instants.
Print Assumptions C76_only_status_reads.
Print Assumptions C76_bound_irrelevant.
Print Assumptions C76_one_subpage_never_ends.

(** A camera whose subpage alternates on every fourth status read; time is 100 ns per
    transaction. *)
Definition alternating : bus nat string string := {|
  dev_write_read := fun k _ wb buf =>
    (S k, (if list_eq_dec Z.eq_dec wb status_reg then [0; Z.of_nat (Nat.modulo (Nat.div k 4) 2)] else [0; 0]), None);
  dev_write := fun k _ _ => (S k, None) |}.
Definition ticks (w : world nat string string) : Z := 100 * Z.of_nat (dev w).
Example C76_concrete :
  match new_with_calibration alternating 12 384 (Build_world 0%nat []) 0x33 demo641 with
  | (Ok d, _) =>
      let '(r, d') := find_frequency alternating ticks 10 5 d in
      r = Ok [500; 900; 1300; 1700; 2100] /\ length (trace (d_bus d')) = 21%nat /\
      fst (find_frequency alternating ticks 2 5 d) = Diverge
  | _ => False
  end.
Proof. vm_compute. repeat split; reflexivity. Qed.

(** ** C77 The statistics reported *)
Lemma insert_perm x l : Permutation (insert_sorted x l) (x :: l).
Proof.
  induction l as [|y l IH]; cbn [insert_sorted]; [reflexivity|]. destruct (x <=? y); [reflexivity|].
  rewrite IH. apply perm_swap.
Qed.
Lemma sort_perm l : Permutation (sort_durations l) l.
Proof. induction l as [|x l IH]; [reflexivity|]. cbn [sort_durations fold_right]. rewrite insert_perm. constructor. exact IH. Qed.
Lemma insert_sorted_sorted x l : StronglySorted Z.le l -> StronglySorted Z.le (insert_sorted x l).
Proof.
  induction 1 as [|y l Hs IH Hy]; cbn [insert_sorted]; [repeat constructor|].
  destruct (x <=? y) eqn:E.
  - apply Z.leb_le in E. constructor; [constructor; assumption|]. constructor; [exact E|].
    eapply Forall_impl; [|exact Hy]. intros a Ha. lia.
  - apply Z.leb_gt in E. constructor; [exact IH|]. rewrite (insert_perm x l). constructor; [lia|exact Hy].
Qed.
Lemma sort_sorted l : StronglySorted Z.le (sort_durations l).
Proof. induction l as [|x l IH]; cbn [sort_durations fold_right]; [constructor|]. apply insert_sorted_sorted. exact IH. Qed.

Lemma durations_length : forall l, length (durations l) = (length l - 1)%nat.
Proof. induction l as [|a [|b l] IH]; [reflexivity|reflexivity|]. cbn [durations length] in *. rewrite IH. lia. Qed.

Lemma sum_acc l : forall a, fold_left Z.add l a = a + sum_durations l.
Proof.
  unfold sum_durations. induction l as [|x l IH]; intros a; cbn [fold_left]; [lia|]. rewrite IH, (IH (0 + x)). lia.
Qed.
Lemma sum_cons x l : sum_durations (x :: l) = x + sum_durations l.
Proof. unfold sum_durations at 1. cbn [fold_left]. rewrite sum_acc. lia. Qed.

(** Instants that do not run backwards. *)
Definition in_order (instants : list Z) : Prop :=
  forall i a b, nth_error instants i = Some a -> nth_error instants (S i) = Some b -> a <= b.
Lemma in_order_tail a l : in_order (a :: l) -> in_order l.
Proof. intros H i x y Hx Hy. apply (H (S i)); assumption. Qed.

Lemma sum_telescopes : forall l a, in_order (a :: l) -> sum_durations (durations (a :: l)) = last l a - a.
Proof.
  induction l as [|b l IH]; intros a Ho; [cbn; lia|].
  change (durations (a :: b :: l)) with (Z.max 0 (b - a) :: durations (b :: l)). rewrite sum_cons, IH by (eapply in_order_tail; exact Ho).
  rewrite last_shift. pose proof (Ho 0%nat a b eq_refl eq_refl). lia.
Qed.

(** Each duration is the time from one instant to the next. *)
Theorem C77_durations : forall instants, in_order instants ->
  length (durations instants) = (length instants - 1)%nat /\
  forall i d, nth_error (durations instants) i = Some d <->
    exists a b, nth_error instants i = Some a /\ nth_error instants (S i) = Some b /\ d = b - a.
Proof.
  intros l Ho. split; [apply durations_length|]. revert Ho. induction l as [|a [|b l] IH]; intros Ho i d.
  - split; [destruct i; discriminate|]. intros (x & y & H & _). destruct i; discriminate.
  - split; [destruct i; discriminate|]. intros (x & y & _ & H & _). destruct i; discriminate.
  - change (durations (a :: b :: l)) with (Z.max 0 (b - a) :: durations (b :: l)). pose proof (Ho 0%nat a b eq_refl eq_refl) as Hab.
    destruct i as [|i].
    + cbn [nth_error]. split.
      * intros E. injection E as <-. exists a, b. split; [reflexivity|]. split; [reflexivity|]. lia.
      * intros (x & y & Ex & Ey & ->). injection Ex as <-. injection Ey as <-. f_equal. lia.
    + cbn [nth_error]. apply (IH (in_order_tail _ _ Ho) i d).
Qed.
Print Assumptions C77_durations.

(** *** mode *)
Definition count (l : list Z) (x : Z) : nat := count_occ Z.eq_dec l x.
(** [m] occurs most often in [l], and is the smallest such value. *)
Definition is_mode (l : list Z) (m : Z) : Prop :=
  In m l /\ forall x, (count l x <= count l m)%nat /\ (count l x = count l m -> In x l -> m <= x).

Definition mode_inv (l : list Z) (x : Z) (acc : Z * Z * Z) : Prop :=
  let '(m, mc, cc) := acc in
  In x l /\ (forall y, In y l -> y <= x) /\ cc = Z.of_nat (count l x) /\ mc = Z.of_nat (count l m) /\ is_mode l m.
Lemma count_cons l x y : count (x :: l) y = ((if Z.eq_dec x y then 1 else 0) + count l y)%nat.
Proof. unfold count. cbn [count_occ]. destruct (Z.eq_dec x y); reflexivity. Qed.
Lemma count_in l x : In x l <-> (0 < count l x)%nat.
Proof. unfold count. rewrite (count_occ_In Z.eq_dec). lia. Qed.

Lemma mode_step_inv l x y acc : x <= y -> mode_inv l x acc -> mode_inv (y :: l) y (mode_step acc (x, y)).
Proof.
  destruct acc as [[m mc] cc]. intros Hxy (Hin & Hmax & -> & -> & Hm & Hbest). unfold mode_step.
  destruct (y =? x) eqn:E; cbn [negb].
  - apply Z.eqb_eq in E. subst y.
    destruct (Z.of_nat (count l m) <? Z.of_nat (count l x) + 1) eqn:L; [apply Z.ltb_lt in L|apply Z.ltb_ge in L];
      (split; [left; reflexivity|]; split; [intros z [->|Hz]; [lia|apply Hmax; exact Hz]|]; split;
        [rewrite count_cons; destruct (Z.eq_dec x x); [lia|contradiction]|]).
    + destruct (Hbest x) as [B1 _].
      split; [rewrite count_cons; destruct (Z.eq_dec x x); [lia|contradiction]|]. split; [left; reflexivity|].
      intros z. rewrite !count_cons. destruct (Z.eq_dec x x); [|contradiction]. destruct (Z.eq_dec x z) as [->|Hz]; [split; [lia|intros; lia]|].
      destruct (Hbest z) as [B2 _]. split; [lia|intros; lia].
    + assert (Hne : x <> m) by (intros ->; lia).
      split; [rewrite count_cons; destruct (Z.eq_dec x m); [contradiction|lia]|]. split; [right; exact Hm|].
      intros z. rewrite !count_cons. destruct (Z.eq_dec x m); [contradiction|]. destruct (Z.eq_dec x z) as [->|Hz].
      * split; [lia|]. intros _ _. apply Hmax. exact Hm.
      * destruct (Hbest z) as [B2 B3]. split; [lia|]. intros Ez [Hq|Hq]; [contradiction|]. apply B3; [lia|exact Hq].
  - apply Z.eqb_neq in E. assert (Hni : ~ In y l) by (intros Hi; apply Hmax in Hi; lia).
    assert (C0 : count l y = 0%nat) by (unfold count; apply count_occ_not_In; exact Hni).
    assert (Cm : (0 < count l m)%nat) by (apply count_in; exact Hm).
    assert (Hme : y <> m) by (intros ->; contradiction).
    split; [left; reflexivity|]. split; [intros z [->|Hz]; [lia|apply Hmax in Hz; lia]|].
    split; [rewrite count_cons, C0; destruct (Z.eq_dec y y); [reflexivity|contradiction]|].
    split; [rewrite count_cons; destruct (Z.eq_dec y m); [contradiction|reflexivity]|].
    split; [right; exact Hm|]. intros z. rewrite !count_cons. destruct (Z.eq_dec y m); [contradiction|].
    destruct (Z.eq_dec y z) as [->|Hz].
    + rewrite C0. split; [lia|]. intros _ _. apply Hmax in Hm. lia.
    + destruct (Hbest z) as [B2 B3]. split; [lia|]. intros Ez [Hq|Hq]; [contradiction|]. apply B3; [lia|exact Hq].
Qed.
Lemma mode_fold : forall rest l x acc, StronglySorted Z.le (x :: rest) -> mode_inv l x acc ->
  exists l' y, Permutation l' (rest ++ l) /\ mode_inv l' y (fold_left mode_step (pairs (x :: rest)) acc).
Proof.
  induction rest as [|y rest IH]; intros l x acc Hs Hi.
  - exists l, x. split; [reflexivity|exact Hi].
  - change (pairs (x :: y :: rest)) with ((x, y) :: pairs (y :: rest)). cbn [fold_left].
    inversion Hs as [|? ? Hs' Hx]; subst. inversion Hx; subst.
    destruct (IH (y :: l) y _ Hs' (mode_step_inv l x y acc ltac:(assumption) Hi)) as (l' & z & Hp & Hz).
    exists l', z. split; [|exact Hz]. rewrite Hp. cbn [app]. symmetry. apply Permutation_middle.
Qed.
Lemma count_perm l l' x : Permutation l l' -> count l x = count l' x.
Proof. intros H. apply Permutation_count_occ. exact H. Qed.
Lemma is_mode_perm l l' m : Permutation l l' -> is_mode l m -> is_mode l' m.
Proof.
  intros Hp [Hi Hb]. split; [eapply Permutation_in; eassumption|]. intros x. rewrite <- !(count_perm _ _ _ Hp).
  destruct (Hb x) as [B1 B2]. split; [exact B1|]. intros E Hx. apply B2; [exact E|]. eapply Permutation_in; [symmetry; exact Hp|exact Hx].
Qed.

(** *** the five numbers *)
(** [m] is a value of [l] with as many values below it (or equal) as above it (or equal). *)
Definition is_middle (l : list Z) (m : Z) : Prop :=
  exists lower upper, Permutation l (lower ++ m :: upper) /\ length lower = length upper /\
    Forall (fun x => x <= m) lower /\ Forall (fun x => m <= x) upper.
(** [a] and [b] are the two middle values of [l]. *)
Definition are_middle (l : list Z) (a b : Z) : Prop :=
  exists lower upper, Permutation l (lower ++ a :: b :: upper) /\ length lower = length upper /\
    Forall (fun x => x <= a) lower /\ a <= b /\ Forall (fun x => b <= x) upper.

Lemma sorted_app_le l1 x l2 : StronglySorted Z.le (l1 ++ x :: l2) ->
  Forall (fun y => y <= x) l1 /\ Forall (fun y => x <= y) l2 /\ StronglySorted Z.le (x :: l2).
Proof.
  induction l1 as [|a l1 IH]; cbn [app]; intros H.
  - inversion H; subst. split; [constructor|]. split; [assumption|exact H].
  - inversion H as [|? ? Hs Ha]; subst. destruct (IH Hs) as (I1 & I2 & I3). split; [|split; assumption].
    constructor; [|exact I1]. rewrite Forall_forall in Ha. apply Ha. apply in_or_app. right. left. reflexivity.
Qed.
Lemma sorted_last l x : StronglySorted Z.le (x :: l) -> In (last l x) (x :: l) /\ Forall (fun y => y <= last l x) (x :: l).
Proof.
  revert x. induction l as [|y l IH]; intros x H; [split; [left; reflexivity|constructor; [cbn; lia|constructor]]|].
  inversion H as [|? ? Hs Hx]; subst. destruct (IH y Hs) as [I1 I2]. rewrite last_shift. split; [right; exact I1|].
  constructor; [|exact I2]. inversion Hx; subst. inversion I2; subst. lia.
Qed.
Lemma last_default {A} (l : list A) x a b : last (x :: l) a = last (x :: l) b.
Proof. rewrite !last_shift. reflexivity. Qed.

Definition nonempty_count (n : nat) : Prop := (1 <= n)%nat /\ Z.of_nat n < 2 ^ 32.

Theorem C77_statistics : forall instants, in_order instants ->
  let ds := durations instants in
  Z.of_nat (length instants) <= 2 ^ 32 ->
  ((length instants < 2)%nat -> report instants = Panic) /\
  ((2 <= length instants)%nat -> exists t, report instants = Ok t /\
     (** smallest and largest *)
     (In (t_min t) ds /\ Forall (fun x => t_min t <= x) ds) /\
     (In (t_max t) ds /\ Forall (fun x => x <= t_max t) ds) /\
     (** the time from first to last instant, divided by the number of steps *)
     t_mean t = (last instants 0 - hd 0 instants) / Z.of_nat (length instants - 1) /\
     (** the most frequent *)
     is_mode ds (t_mode t) /\
     (** the middle value of an odd number of durations *)
     (Nat.odd (length ds) = true -> is_middle ds (t_median t)) /\
     (** of an even number: half of the upper middle value, not the average of both *)
     (Nat.odd (length ds) = false -> exists a b, are_middle ds a b /\ t_median t = b / 2)).
Proof.
  intros instants Ho ds Hlen. assert (Hl : length ds = (length instants - 1)%nat) by apply durations_length.
  unfold report. fold ds. pose proof (sort_perm ds) as Hp. pose proof (sort_sorted ds) as Hs.
  assert (Hls : length (sort_durations ds) = length ds) by (apply Permutation_length; exact Hp).
  split.
  { intros Hn. assert (E : ds = []) by (destruct ds; [reflexivity|cbn in Hl; lia]). rewrite E. reflexivity. }
  intros Hn. destruct (sort_durations ds) as [|x rest] eqn:Es; [cbn in Hls; lia|].
  assert (Hmod : Z.of_nat (length ds) mod 2 ^ 32 = Z.of_nat (length ds)) by (apply Z.mod_small; lia).
  rewrite Hmod. unfold duration_div. replace (Z.of_nat (length ds) =? 0) with false by (symmetry; apply Z.eqb_neq; lia).
  cbn [bind].
  assert (exists k, k = (length (x :: rest) / 2)%nat) as (k & Ek) by (eexists; reflexivity). rewrite <- !Ek.
  pose proof (Nat.div_mod (length (x :: rest)) 2 ltac:(lia)) as Dm. rewrite <- Ek in Dm.
  pose proof (Nat.mod_upper_bound (length (x :: rest)) 2 ltac:(lia)) as Du.
  assert (Hk : (k < length (x :: rest))%nat) by (cbn [length] in *; lia).
  destruct (nth_error (x :: rest) k) as [b|] eqn:Hb; [|apply nth_error_None in Hb; lia].
  destruct (nth_error_split _ _ Hb) as (lower & upper & El & Elen).
  destruct (fold_left mode_step (pairs (x :: rest)) (x, 1, 1)) as [[mo mc] cc] eqn:Ef.
  assert (Hmode : is_mode ds mo).
  { destruct (mode_fold rest [x] x (x, 1, 1) Hs) as (l' & y & Hp' & Hi).
    - split; [left; reflexivity|]. split; [intros y [->|[]]; lia|]. split; [cbn; destruct (Z.eq_dec x x); [reflexivity|contradiction]|].
      split; [cbn; destruct (Z.eq_dec x x); [reflexivity|contradiction]|]. split; [left; reflexivity|].
      intros y. unfold count. cbn [count_occ]. destruct (Z.eq_dec x x); [|contradiction]. destruct (Z.eq_dec x y); split; try lia.
    - rewrite Ef in Hi. destruct Hi as (_ & _ & _ & _ & Hi). eapply is_mode_perm; [|exact Hi].
      rewrite Hp', <- Hp. rewrite Permutation_app_comm. reflexivity. }
  assert (Hmin : In x ds /\ Forall (fun y => x <= y) ds).
  { split; [apply (Permutation_in _ Hp); left; reflexivity|]. rewrite <- Hp. inversion Hs; subst. constructor; [lia|assumption]. }
  assert (Hmax : In (last (x :: rest) x) ds /\ Forall (fun y => y <= last (x :: rest) x) ds).
  { rewrite last_shift. destruct (sorted_last rest x Hs) as [I1 I2]. split; [apply (Permutation_in _ Hp); exact I1|rewrite <- Hp; exact I2]. }
  assert (Hmean : sum_durations ds / Z.of_nat (length ds) = (last instants 0 - hd 0 instants) / Z.of_nat (length instants - 1)).
  { rewrite Hl. f_equal. destruct instants as [|a l]; [cbn in Hn; lia|]. unfold ds. rewrite sum_telescopes by exact Ho.
    rewrite last_shift. reflexivity. }
  assert (Hodd : Nat.odd (length ds) = negb (Nat.eqb (length (x :: rest) mod 2) 0)).
  { rewrite <- Hls. rewrite Dm at 1. assert ((length (x :: rest) mod 2 = 0 \/ length (x :: rest) mod 2 = 1)%nat) as [->| ->] by lia.
    - rewrite Nat.add_0_r, Nat.odd_mul. reflexivity.
    - rewrite Nat.odd_add, Nat.odd_mul. reflexivity. }
  rewrite Hodd.
  assert (Hll : (length lower + S (length upper) = length (x :: rest))%nat) by (rewrite El, app_length; reflexivity).
  destruct (Nat.eqb (length (x :: rest) mod 2) 0) eqn:Em; [apply Nat.eqb_eq in Em|apply Nat.eqb_neq in Em]; cbn [negb].
  - assert (Efs : firstn 1 (skipn k (x :: rest)) = [b]).
    { rewrite El, <- Elen, skipn_app, skipn_all, Nat.sub_diag. reflexivity. }
    rewrite Efs. change (sum_durations [b]) with (0 + b). change (2 =? 0) with false. cbn [bind]. eexists. split; [reflexivity|]. cbn [t_min t_max t_mean t_median t_mode].
    split; [exact Hmin|]. split; [exact Hmax|]. split; [exact Hmean|]. split; [exact Hmode|]. split; [discriminate|]. intros _.
    destruct lower as [|a lower] using rev_ind; [cbn [length] in *; lia|]. clear IHlower.
    exists a, b. rewrite <- app_assoc in El. cbn [app] in El. split; [|rewrite Z.add_0_l; reflexivity].
    exists lower, upper. split; [rewrite <- El; symmetry; exact Hp|]. rewrite app_length in Elen, Hll. change (length [a]) with 1%nat in Elen, Hll.
    split; [clear - Elen Hll Dm Em; lia|]. rewrite El in Hs. destruct (sorted_app_le _ _ _ Hs) as (S1 & S2 & S3). split; [exact S1|].
    inversion S2; subst. split; [assumption|]. inversion S3 as [|? ? S4 S5]; subst. inversion S4; subst. assumption.
  - cbn [bind]. eexists. split; [reflexivity|]. cbn [t_min t_max t_mean t_median t_mode].
    split; [exact Hmin|]. split; [exact Hmax|]. split; [exact Hmean|]. split; [exact Hmode|]. split; [|discriminate]. intros _.
    exists lower, upper. split; [rewrite <- El; symmetry; exact Hp|]. split; [clear - Elen Hll Dm Du Em; lia|].
    rewrite El in Hs. destruct (sorted_app_le _ _ _ Hs) as (S1 & S2 & _). split; assumption.
Qed.
Print Assumptions C77_statistics.

(** The reported median of an even number of durations is below the true one, and below
    every duration measured unless some are twice as long as others. *)
Theorem C77_even_median_too_small : forall instants t a b, in_order instants ->
  Z.of_nat (length instants) <= 2 ^ 32 ->
  report instants = Ok t -> are_middle (durations instants) a b -> 2 <= a ->
  t_median t < (a + b) / 2 /\ (t_max t < 2 * t_min t -> t_median t < t_min t).
Proof.
  intros instants t a b Ho Hlen Hr Hab Ha.
  destruct (C77_statistics instants Ho Hlen) as [Hp Hq].
  destruct (Nat.lt_ge_cases (length instants) 2) as [Hn|Hn]; [rewrite (Hp Hn) in Hr; discriminate|].
  destruct (Hq Hn) as (t' & Hr' & (_ & Hmin) & (_ & Hmax) & _ & _ & _ & Heven). rewrite Hr in Hr'. injection Hr' as <-.
  assert (Hodd : Nat.odd (length (durations instants)) = false).
  { destruct Hab as (lo & up & P & E & _). rewrite (Permutation_length P), app_length. cbn [length]. rewrite E.
    replace (length up + S (S (length up)))%nat with (2 * S (length up))%nat by lia. rewrite Nat.odd_mul. reflexivity. }
  destruct (Heven Hodd) as (a' & b' & Hab' & ->).
  assert (Emid : a' = a /\ b' = b).
  { destruct Hab as (lo & up & P & E & L1 & L2 & L3), Hab' as (lo' & up' & P' & E' & L1' & L2' & L3').
    assert (Hlen2 : length lo = length lo').
    { pose proof (Permutation_length P) as X. pose proof (Permutation_length P') as X'. rewrite !app_length in *. cbn [length] in *. lia. }
    (* count of values below a bound determines both *)
    assert (Cnt : forall l1 a1 b1 u1 z, Forall (fun x => x <= a1) l1 -> a1 <= b1 -> Forall (fun x => b1 <= x) u1 ->
      let below := length (filter (fun x => x <=? z) (l1 ++ a1 :: b1 :: u1)) in
      (a1 <= z -> (S (length l1) <= below)%nat) /\ (z < a1 -> (below <= length l1)%nat) /\
      (b1 <= z -> (S (S (length l1)) <= below)%nat) /\ (z < b1 -> (below <= S (length l1))%nat)).
    { intros l1 a1 b1 u1 z F1 F2 F3 below. subst below. rewrite filter_app, app_length. cbn [filter].
      assert (All : a1 <= z -> length (filter (fun x => x <=? z) l1) = length l1).
      { intros Hz. clear - F1 Hz. induction l1 as [|y l1 IH]; [reflexivity|]. inversion F1; subst. cbn [filter].
        destruct (y <=? z) eqn:E; [cbn [length]; rewrite IH by assumption; reflexivity|apply Z.leb_gt in E; lia]. }
      assert (Non : z < b1 -> filter (fun x => x <=? z) u1 = []).
      { intros Hz. clear - F3 Hz. induction u1 as [|y u IH]; [reflexivity|]. inversion F3; subst. cbn [filter].
        destruct (y <=? z) eqn:E; [apply Z.leb_le in E; lia|apply IH; assumption]. }
      assert (Le : (length (filter (fun x => Z.leb x z) l1) <= length l1)%nat).
      { clear. induction l1 as [|y l1 IH]; cbn [filter length]; [lia|]. destruct (y <=? z); cbn [length]; lia. }
      destruct (a1 <=? z) eqn:E1; [apply Z.leb_le in E1|apply Z.leb_gt in E1];
        (destruct (b1 <=? z) eqn:E2; [apply Z.leb_le in E2|apply Z.leb_gt in E2]); cbn [length];
        repeat split; intros Hz; try lia; try (rewrite (All ltac:(lia)); lia); try (rewrite (Non ltac:(lia)); cbn [length]; lia). }
    assert (Same : forall z, length (filter (fun x => x <=? z) (lo ++ a :: b :: up)) = length (filter (fun x => x <=? z) (lo' ++ a' :: b' :: up'))).
    { intros z. apply Permutation_length. assert (PP : Permutation (lo ++ a :: b :: up) (lo' ++ a' :: b' :: up')) by (rewrite <- P, <- P'; reflexivity).
      clear - PP. induction PP as [|x l l' _ IH|x y l|l l' l'' _ IH1 _ IH2]; cbn [filter].
      - reflexivity.
      - destruct (x <=? z); [constructor; exact IH|exact IH].
      - destruct (y <=? z), (x <=? z); try reflexivity. constructor.
      - rewrite IH1. exact IH2. }
    pose proof (Cnt lo a b up a L1 L2 L3) as (Q1 & _). pose proof (Cnt lo' a' b' up' a L1' L2' L3') as (_ & Q2 & _).
    pose proof (Cnt lo' a' b' up' a' L1' L2' L3') as (Q3 & _). pose proof (Cnt lo a b up a' L1 L2 L3) as (_ & Q4 & _).
    pose proof (Cnt lo a b up b L1 L2 L3) as (_ & _ & Q5 & _). pose proof (Cnt lo' a' b' up' b L1' L2' L3') as (_ & _ & _ & Q6).
    pose proof (Cnt lo' a' b' up' b' L1' L2' L3') as (_ & _ & Q7 & _). pose proof (Cnt lo a b up b' L1 L2 L3) as (_ & _ & _ & Q8).
    cbn zeta in *. rewrite <- Same in Q2, Q3, Q6, Q7. clear - Hlen2 Q1 Q2 Q3 Q4 Q5 Q6 Q7 Q8. split.
    - destruct (Z.lt_trichotomy a a') as [H|[H|H]]; [|auto|]; [specialize (Q2 H); specialize (Q1 ltac:(lia)); lia|specialize (Q4 H); specialize (Q3 ltac:(lia)); lia].
    - destruct (Z.lt_trichotomy b b') as [H|[H|H]]; [|auto|]; [specialize (Q6 H); specialize (Q5 ltac:(lia)); lia|specialize (Q8 H); specialize (Q7 ltac:(lia)); lia]. }
  destruct Emid as [-> ->].
  destruct Hab as (lo & up & P & _ & _ & L2 & _).
  assert (Hb : b <= t_max t) by (rewrite Forall_forall in Hmax; apply Hmax; rewrite P; apply in_or_app; right; right; left; reflexivity).
  split.
  - apply Z.lt_le_trans with (b / 2 + 1); [lia|]. replace (b / 2 + 1) with ((b + 1 * 2) / 2) by (rewrite Z.div_add by lia; lia).
    apply Z.div_le_mono; lia.
  - intros Hm. apply Z.div_lt_upper_bound; lia.
Qed.
Print Assumptions C77_even_median_too_small.

(** Evenly spaced instants: the median reported is half of the only duration there is. *)
Example C77_concrete :
  report [0; 100; 200] = Ok {| t_min := 100; t_max := 100; t_mean := 100; t_median := 50; t_mode := 100 |} /\
  report [0; 100; 210; 310; 420; 529; 638] =
    Ok {| t_min := 100; t_max := 110; t_mean := 106; t_median := 54; t_mode := 100 |} /\
  report [5] = Panic.
Proof. repeat split; reflexivity. Qed.

(** *** the number of frames when none is given *)
Lemma val_unique (x y : f32) (r : R) : is_val x r -> is_val y r -> (r <> 0)%R -> x = y.
Proof.
  intros [Hx Ex] [Hy Ey] Hr. apply B2R_inj.
  - destruct x; try discriminate Hx; [|reflexivity]. cbn in Ex. congruence.
  - destruct y; try discriminate Hy; [|reflexivity]. cbn in Ey. congruence.
  - congruence.
Qed.
Lemma frequency_pos f : (frequency f <> 0)%R.
Proof. destruct f; unfold frequency; lra. Qed.

(** The number of frames is the product cut off after the point, as in Rust (the products of the default
    argument are whole, see the next theorem; this is about any rate). *)
Theorem C77_cast_truncates : forall x : f32, is_finite x = true -> (0 <= B2R x < IZR (2 ^ 64))%R ->
  (IZR (f32_as_usize x) <= B2R x < IZR (f32_as_usize x) + 1)%R.
Proof.
  intros x Hf Hx. destruct x as [s|s| |s m e H]; try discriminate Hf; cbn [f32_as_usize].
  - cbn [B2R]. lra.
  - destruct s.
    + exfalso. cbn [B2R cond_Zopp] in Hx. unfold F2R in Hx. cbn [Fnum Fexp] in Hx.
      pose proof (bpow_gt_0 radix2 e) as Hp. pose proof (IZR_lt (Zneg m) 0 eq_refl) as Hn.
      change (- Z.pos m)%Z with (Z.neg m) in Hx. pose proof (Rmult_lt_compat_r _ _ _ Hp Hn). lra.
    + cbn [B2R cond_Zopp] in *. unfold F2R in *. cbn [Fnum Fexp] in *.
      destruct (0 <=? e)%Z eqn:Ee.
      * apply Z.leb_le in Ee. rewrite <- (IZR_Zpower radix2 e Ee), <- mult_IZR in *.
        change (radix_val radix2) with 2%Z in *. destruct Hx as [_ Hx]. apply lt_IZR in Hx.
        rewrite Z.min_r by lia. lra.
      * apply Z.leb_gt in Ee.
        set (k := (2 ^ (- e))%Z). assert (Hk : (0 < k)%Z) by (apply Z.pow_pos_nonneg; lia).
        assert (Eb : (bpow radix2 e = / IZR k)%R).
        { replace (bpow radix2 e) with (bpow radix2 (- (- e))) by (f_equal; lia). rewrite bpow_opp. f_equal. unfold k.
          rewrite <- (IZR_Zpower radix2 (- e)) by lia. reflexivity. }
        rewrite Eb in *.
        pose proof (IZR_lt _ _ Hk) as Hk'.
        pose proof (Z_div_mod_eq_full (Zpos m) k) as Ed. pose proof (Z.mod_pos_bound (Zpos m) k Hk) as Hm.
        assert (Q : (IZR (Zpos m / k) <= IZR (Zpos m) * / IZR k < IZR (Zpos m / k) + 1)%R).
        { split.
          - apply (Rmult_le_reg_r (IZR k)); [lra|]. rewrite Rmult_assoc, Rinv_l, Rmult_1_r by lra.
            rewrite <- mult_IZR. apply IZR_le. nia.
          - apply (Rmult_lt_reg_r (IZR k)); [lra|]. rewrite Rmult_assoc, Rinv_l, Rmult_1_r by lra.
            rewrite <- plus_IZR, <- mult_IZR. apply IZR_lt. nia. }
        assert (Hlt : (Zpos m / k < 2 ^ 64)%Z).
        { apply lt_IZR. lra. }
        rewrite Z.min_r by lia. exact Q.
Qed.

(** Ten seconds' worth of frames for every frame rate there is: 5 at half a frame per
    second, otherwise an even number. *)
Theorem C77_default_count : forall rate f, is_val rate (frequency f) ->
  IZR (frame_count rate None) = (10 * frequency f)%R /\
  2 <= frame_count rate None <= 640 /\
  (Nat.odd (Z.to_nat (frame_count rate None) - 1) = false <-> f = FR_Half).
Proof.
  intros rate f Hv.
  assert (E : rate = frame_rate_to_f32 (FO := B32 {| lm_exp2 := fun x => x; lm_powi := fun x _ => x; lm_powf := fun x _ => x |}) f)
    by (eapply val_unique; [exact Hv|apply to_f32_val|apply frequency_pos]).
  rewrite E. clear E Hv.
  destruct f;
    (match goal with |- context [frame_count ?r None] =>
       let n := eval vm_compute in (frame_count r None) in change (frame_count r None) with n end);
    (split; [unfold frequency; lra|]); (split; [lia|]); split; intros H; try reflexivity; discriminate H.
Qed.
Print Assumptions C77_default_count.

(** *** the whole program *)
Lemma report_panics instants : Z.of_nat (length instants) <= 2 ^ 32 -> (2 <= length instants)%nat -> exists t, report instants = Ok t.
Proof.
  intros Hlen Hn. unfold report.
  assert (Hl : length (sort_durations (durations instants)) = (length instants - 1)%nat).
  { rewrite (Permutation_length (sort_perm _)). apply durations_length. }
  assert (Hl2 := durations_length instants).
  destruct (sort_durations (durations instants)) as [|x rest] eqn:Es; [cbn in Hl; lia|].
  unfold duration_div. rewrite Z.mod_small by lia. replace (Z.of_nat (length (durations instants)) =? 0) with false by (symmetry; apply Z.eqb_neq; lia).
  cbn [bind]. destruct (fold_left mode_step (pairs (x :: rest)) (x, 1, 1)) as [[mo mc] cc].
  destruct (Nat.eqb (length (x :: rest) mod 2) 0); [change (2 =? 0) with false; cbn [bind]; eexists; reflexivity|].
  destruct (nth_error (x :: rest) (length (x :: rest) / 2)) eqn:E; [cbn [bind]; eexists; reflexivity|].
  exfalso. apply nth_error_None in E. assert (length (x :: rest) / 2 < length (x :: rest))%nat by (apply Nat.div_lt; cbn; lia). lia.
Qed.
Lemma report_short instants : (length instants < 2)%nat -> report instants = Panic.
Proof. destruct instants as [|a [|b l]]; cbn [length]; intros H; try lia; reflexivity. Qed.

(** With a driver that was constructed: the frame rate is checked before anything is sent
    to the camera; then the camera is set to it; then the instants of [frame_count]
    changes of the subpage are taken and reported on.  Errors are passed on, and the
    program panics exactly when it has all the instants but was asked for fewer than two. *)
Theorem C77_program : forall l p B ER EW (bs : bus B ER EW) now (d : driver (FO := B32 l)) w rate count fuel r w',
  true_frame_rate l bs now (Ok d, w) rate count fuel = (r, w') ->
  frame_count rate count <= 2 ^ 32 ->
  ((forall f, ~ is_val rate (frequency f)) /\ r = Err (AnyLibrary (InvalidData frame_rate_msg)) /\ w' = d_bus d) \/
  (exists f, is_val rate (frequency f) /\
   ((exists e d1, step p bs d (OpSetFrameRate f) = (Err e, d1, []) /\ r = Err (AnyDriver e) /\ w' = d_bus d1) \/
    (exists d1 rf d2, step p bs d (OpSetFrameRate f) = (Ok OutUnit, d1, []) /\
       find_frequency bs now fuel (Z.to_nat (frame_count rate count)) d1 = (rf, d2) /\ w' = d_bus d2 /\
       match rf with
       | Ok instants =>
           length instants = Z.to_nat (frame_count rate count) /\
           (if frame_count rate count <? 2 then r = Panic else exists t, report instants = Ok t /\ r = Ok t)
       | Err e => r = Err (AnyDriver e)
       | Panic => False
       | Diverge => r = Diverge
       end))).
Proof.
  intros l p B ER EW bs now d w rate cnt fuel r w' H Hc. unfold true_frame_rate in H.
  destruct (try_from_f32_total l rate) as [[f Hf]|Hf]; rewrite Hf in H.
  - right. exists f. split; [apply (try_from_f32_iff l rate f); exact Hf|].
    destruct (drv_set_frame_rate bs f d) as [r1 d1] eqn:E1.
    assert (Hs : r1 = Ok tt \/ exists e, r1 = Err e).
    { destruct (C18_setters (B32 l) B ER EW bs) as (_ & _ & _ & _ & _ & S & _). destruct (S f d r1 d1 E1) as (evs & _ & S1).
      destruct S1 as [x e _|v _ _|v v' e _ _ _ _]; [right; eexists; reflexivity|left; reflexivity|destruct e; [right; eexists; reflexivity|left; reflexivity]]. }
    destruct Hs as [->|[e ->]].
    + right. destruct (find_frequency bs now fuel (Z.to_nat (frame_count rate cnt)) d1) as [rf d2] eqn:E2.
      exists d1, rf, d2. split; [cbn [step]; rewrite E1; reflexivity|]. split; [exact E2|].
      pose proof (C76_instants p bs now _ _ _ _ _ E2) as C.
      inversion H; subst. split; [reflexivity|].
      destruct C as [(e & -> & _)|(s0 & d0 & _ & C)]; [reflexivity|].
      destruct C as [obs d2 Ho Hl Hm|obs d3 e d2 Ho Hf2 Hl|obs quiet d2 Ho Hl Hq Hlen]; [|reflexivity|reflexivity].
      split; [exact Hl|]. destruct (frame_count rate cnt <? 2) eqn:E; [apply Z.ltb_lt in E|apply Z.ltb_ge in E].
      * rewrite report_short; [reflexivity|lia].
      * destruct (report_panics (changes s0 obs)) as [t Ht]; [lia|lia|]. exists t. rewrite Ht. split; reflexivity.
    + left. exists e, d1. split; [cbn [step]; rewrite E1; reflexivity|]. inversion H; subst. split; reflexivity.
  - left. split; [intros f Hv; apply (try_from_f32_iff l rate f) in Hv; congruence|]. inversion H; subst. split; reflexivity.
Qed.
Print Assumptions C77_program.

(** Without an explicit count the program never panics. *)
Theorem C77_default_never_panics : forall l B ER EW (bs : bus B ER EW) now (d : driver (FO := B32 l)) w rate fuel,
  fst (true_frame_rate l bs now (Ok d, w) rate None fuel) <> Panic.
Proof.
  intros l B ER EW bs now d w rate fuel Hp.
  destruct (true_frame_rate l bs now (Ok d, w) rate None fuel) as [r w'] eqn:E. cbn [fst] in Hp. subst r.
  destruct (try_from_f32_total l rate) as [[f Hf]|Hf].
  - apply (try_from_f32_iff l rate f) in Hf. destruct (C77_default_count rate f Hf) as (_ & Hb & _).
    apply (C77_program l Debug) in E; [|lia]. destruct E as [(_ & E & _)|(f' & _ & [(e & d1 & _ & E & _)|(d1 & rf & d2 & _ & _ & _ & E)])]; try discriminate E.
    destruct rf as [is|e| |]; try discriminate E; try contradiction. destruct E as [_ E].
    destruct (frame_count rate None <? 2) eqn:L; [apply Z.ltb_lt in L; lia|]. destruct E as (t & _ & E). discriminate E.
  - unfold true_frame_rate in E. rewrite Hf in E. discriminate E.
Qed.
Print Assumptions C77_default_never_panics.
