(** * Properties C80, C81: recordings of bus traffic, and cameras that share a bus. *)
From Verif Require Import Base FloatOps Register Bus Camera Calc Ee640 Ee641 BitFacts SpecReplay StrategyFacts P_Usable Demo Driver.

Section Facts.
Context {ER EW : Type}.

Lemma replay_read tape w data e a wb buf tr : Forall byte data -> length data = length buf ->
  w = Build_world (AnsRead data e :: tape) tr ->
  write_read (replay ER EW) a wb buf w = (data, e, Build_world tape (tr ++ [EvRead a wb data e])).
Proof. intros Hd Hl ->. unfold write_read. cbn. rewrite clip_same by assumption. reflexivity. Qed.

(** A uniform computation can be replayed from the answers it got. *)
Lemma uniform_replay a X (Q : X -> Prop) (f : comp X) : uniform a Q f ->
  forall B (bs : bus B ER EW) w x w', f B bs w = (x, w') ->
  Q x /\ exists evs, trace w' = trace w ++ evs /\ Forall (fun ev => address_of ev = a) evs /\
    forall more tr, f _ (replay ER EW) (Build_world (map answer_of evs ++ more) tr) =
                    (x, Build_world more (tr ++ evs)).
Proof.
  induction 1 as [x Hx|wb buf k Hb _ IH|bytes k _ IH|f g E _ IH]; intros B bs w x0 w0 H0.
  - injection H0 as <- <-. split; [exact Hx|]. exists []. rewrite app_nil_r.
    split; [reflexivity|]. split; [constructor|]. intros more tr. rewrite app_nil_r. reflexivity.
  - unfold write_read in H0. destruct (dev_write_read bs (dev w) a wb buf) as [[b out] e].
    pose proof (clip_bytes buf out Hb) as Hd. pose proof (clip_length buf out) as Hl.
    destruct (IH (clip buf out) e Hd Hl B bs _ _ _ H0) as (HQ & evs & Ht & Ha & Hr).
    split; [exact HQ|]. exists (EvRead a wb (clip buf out) e :: evs). cbn [trace] in Ht.
    split; [rewrite Ht, <- app_assoc; reflexivity|]. split; [constructor; [reflexivity|exact Ha]|].
    intros more tr. cbn [map app answer_of].
    rewrite (replay_read (map answer_of evs ++ more) _ (clip buf out) e a wb buf tr Hd Hl eq_refl).
    rewrite Hr, <- app_assoc. reflexivity.
  - unfold bus_write in H0. destruct (dev_write bs (dev w) a bytes) as [b e].
    destruct (IH e B bs _ _ _ H0) as (HQ & evs & Ht & Ha & Hr).
    split; [exact HQ|]. exists (EvWrite a bytes e :: evs). cbn [trace] in Ht.
    split; [rewrite Ht, <- app_assoc; reflexivity|]. split; [constructor; [reflexivity|exact Ha]|].
    intros more tr. unfold bus_write. cbn. rewrite Hr, <- app_assoc. reflexivity.
  - rewrite <- E in H0. destruct (IH B bs w x0 w0 H0) as (HQ & evs & Ht & Ha & Hr).
    split; [exact HQ|]. exists evs. split; [exact Ht|]. split; [exact Ha|]. intros more tr. rewrite <- E. apply Hr.
Qed.

(** On a shared bus it does what it does on its own part of the bus. *)
Lemma uniform_shared1 a X (Q : X -> Prop) (f : comp X) mine : uniform a Q f -> mine a = true ->
  forall B1 B2 (bs1 : bus B1 ER EW) (bs2 : bus B2 ER EW) w x w', f _ (shared mine bs1 bs2) w = (x, w') ->
  exists evs, trace w' = trace w ++ evs /\ Forall (fun ev => address_of ev = a) evs /\
    snd (dev w') = snd (dev w) /\
    forall tr, f _ bs1 (Build_world (fst (dev w)) tr) = (x, Build_world (fst (dev w')) (tr ++ evs)).
Proof.
  intros Hf Hm B1 B2 bs1 bs2. induction Hf as [x Hx|wb buf k Hb _ IH|bytes k _ IH|f g E _ IH]; intros w x0 w0 H0.
  - injection H0 as <- <-. exists []. rewrite app_nil_r.
    split; [reflexivity|]. split; [constructor|]. split; [reflexivity|]. intros tr. rewrite app_nil_r. reflexivity.
  - unfold write_read in H0. cbn [shared dev_write_read] in H0. rewrite Hm in H0.
    destruct (dev_write_read bs1 (fst (dev w)) a wb buf) as [[b out] e] eqn:Ed.
    destruct (IH (clip buf out) e (clip_bytes buf out Hb) (clip_length buf out) _ _ _ H0) as (evs & Ht & Ha & Hs & Hr).
    exists (EvRead a wb (clip buf out) e :: evs). cbn [trace dev snd fst] in Ht, Hs, Hr.
    split; [rewrite Ht, <- app_assoc; reflexivity|]. split; [constructor; [reflexivity|exact Ha]|]. split; [exact Hs|].
    intros tr. unfold write_read. cbn [dev]. rewrite Ed. cbn [trace]. rewrite Hr, <- app_assoc. reflexivity.
  - unfold bus_write in H0. cbn [shared dev_write] in H0. rewrite Hm in H0.
    destruct (dev_write bs1 (fst (dev w)) a bytes) as [b e] eqn:Ed.
    destruct (IH e _ _ _ H0) as (evs & Ht & Ha & Hs & Hr).
    exists (EvWrite a bytes e :: evs). cbn [trace dev snd fst] in Ht, Hs, Hr.
    split; [rewrite Ht, <- app_assoc; reflexivity|]. split; [constructor; [reflexivity|exact Ha]|]. split; [exact Hs|].
    intros tr. unfold bus_write. cbn [dev]. rewrite Ed. cbn [trace]. rewrite Hr, <- app_assoc. reflexivity.
  - rewrite <- E in H0. destruct (IH w x0 w0 H0) as (evs & Ht & Ha & Hs & Hr).
    exists evs. split; [exact Ht|]. split; [exact Ha|]. split; [exact Hs|]. intros tr. rewrite <- E. apply Hr.
Qed.

Lemma uniform_shared2 a X (Q : X -> Prop) (f : comp X) mine : uniform a Q f -> mine a = false ->
  forall B1 B2 (bs1 : bus B1 ER EW) (bs2 : bus B2 ER EW) w x w', f _ (shared mine bs1 bs2) w = (x, w') ->
  exists evs, trace w' = trace w ++ evs /\ Forall (fun ev => address_of ev = a) evs /\
    fst (dev w') = fst (dev w) /\
    forall tr, f _ bs2 (Build_world (snd (dev w)) tr) = (x, Build_world (snd (dev w')) (tr ++ evs)).
Proof.
  intros Hf Hm B1 B2 bs1 bs2. induction Hf as [x Hx|wb buf k Hb _ IH|bytes k _ IH|f g E _ IH]; intros w x0 w0 H0.
  - injection H0 as <- <-. exists []. rewrite app_nil_r.
    split; [reflexivity|]. split; [constructor|]. split; [reflexivity|]. intros tr. rewrite app_nil_r. reflexivity.
  - unfold write_read in H0. cbn [shared dev_write_read] in H0. rewrite Hm in H0.
    destruct (dev_write_read bs2 (snd (dev w)) a wb buf) as [[b out] e] eqn:Ed.
    destruct (IH (clip buf out) e (clip_bytes buf out Hb) (clip_length buf out) _ _ _ H0) as (evs & Ht & Ha & Hs & Hr).
    exists (EvRead a wb (clip buf out) e :: evs). cbn [trace dev snd fst] in Ht, Hs, Hr.
    split; [rewrite Ht, <- app_assoc; reflexivity|]. split; [constructor; [reflexivity|exact Ha]|]. split; [exact Hs|].
    intros tr. unfold write_read. cbn [dev]. rewrite Ed. cbn [trace]. rewrite Hr, <- app_assoc. reflexivity.
  - unfold bus_write in H0. cbn [shared dev_write] in H0. rewrite Hm in H0.
    destruct (dev_write bs2 (snd (dev w)) a bytes) as [b e] eqn:Ed.
    destruct (IH e _ _ _ H0) as (evs & Ht & Ha & Hs & Hr).
    exists (EvWrite a bytes e :: evs). cbn [trace dev snd fst] in Ht, Hs, Hr.
    split; [rewrite Ht, <- app_assoc; reflexivity|]. split; [constructor; [reflexivity|exact Ha]|]. split; [exact Hs|].
    intros tr. unfold bus_write. cbn [dev]. rewrite Ed. cbn [trace]. rewrite Hr, <- app_assoc. reflexivity.
  - rewrite <- E in H0. destruct (IH w x0 w0 H0) as (evs & Ht & Ha & Hs & Hr).
    exists evs. split; [exact Ht|]. split; [exact Ha|]. split; [exact Hs|]. intros tr. rewrite <- E. apply Hr.
Qed.
End Facts.

Section Theorems.
Context {FO : FloatOps} (p : profile) {ER EW : Type}.
Notation drv B := (driver (FO := FO) (B := B) (ER := ER) (EW := EW)).
Notation op := (op (FO := FO)).

Lemma outcomes_um ops : umethod (FO := FO) (ER := ER) (EW := EW) (fun B bs d => (outcomes p bs d ops, run p bs d ops)).
Proof.
  induction ops as [|o ops IH]; [exact (um_ret (FO := FO) (ER := ER) (EW := EW) (@nil (observed (FO := FO) (ER := ER) (EW := EW))))|].
  eapply um_ext; [|apply (um_seq _ (fun x B bs d => let '(l, d') := (outcomes p bs d ops, run p bs d ops) in (x :: l, d'))
    (um_step p o))].
  - intros B bs d. cbn [outcomes run fold_left]. unfold step_state.
    destruct (step p bs d o) as [[r d'] dest]. reflexivity.
  - intros x. apply (um_seq _ (fun l B bs d => (x :: l, d)) IH). intros l. apply um_ret.
Qed.

(** Replaying the recorded answers to the same calls gives the same results, the same
    destinations, the same driver, and asks for the same transactions in the same order. *)
Theorem C80_replay : forall B (bs : bus B ER EW) (d : drv B) ops evs more tr,
  Forall byte (d_pixel_buffer d) ->
  trace (d_bus (run p bs d ops)) = trace (d_bus d) ++ evs ->
  let d' := connect d (Build_world (map answer_of evs ++ more) tr) in
  outcomes p (replay ER EW) d' ops = outcomes p bs d ops /\
  run p (replay ER EW) d' ops = connect (run p bs d ops) (Build_world more (tr ++ evs)).
Proof.
  intros B bs d ops evs more tr Hb Ht d'.
  pose proof (outcomes_um ops (core d) Hb) as Hu.
  assert (E : lifted (fun B bs d => (outcomes p bs d ops, run p bs d ops)) (core d) B bs (d_bus d) =
              ((outcomes p bs d ops, core (run p bs d ops)), d_bus (run p bs d ops))).
  { unfold lifted. rewrite onto_core, onto_self. reflexivity. }
  destruct (uniform_replay _ _ _ _ Hu B bs _ _ _ E) as (_ & evs' & Ht' & _ & Hr).
  assert (evs' = evs) as -> by (apply (app_inv_head (trace (d_bus d))); congruence).
  specialize (Hr more tr). unfold lifted in Hr. rewrite onto_core in Hr.
  change (onto d (Build_world (map answer_of evs ++ more) tr)) with d' in Hr.
  apply pair_equal_spec in Hr. destruct Hr as [Hr E3]. apply pair_equal_spec in Hr. destruct Hr as [E1 E2].
  split; [exact E1|].
  rewrite <- (onto_self (run p (replay ER EW) d' ops)), E3.
  rewrite <- (onto_core (run p (replay ER EW) d' ops)), E2. reflexivity.
Qed.

(** Two drivers in the same state, on any two buses: as long as they get the same answers they do
    and return the same; in particular neither gets an answer the other does not get. *)
Theorem C80_same_answers : forall B1 B2 (bs1 : bus B1 ER EW) (bs2 : bus B2 ER EW) (d1 : drv B1) w2 ops evs1 evs2 more,
  Forall byte (d_pixel_buffer d1) ->
  let d2 := connect d1 w2 in
  trace (d_bus (run p bs1 d1 ops)) = trace (d_bus d1) ++ evs1 ->
  trace (d_bus (run p bs2 d2 ops)) = trace w2 ++ evs2 ->
  map answer_of evs2 = map answer_of evs1 ++ more ->
  evs1 = evs2 /\ outcomes p bs1 d1 ops = outcomes p bs2 d2 ops /\
  run p bs2 d2 ops = connect (run p bs1 d1 ops) (d_bus (run p bs2 d2 ops)).
Proof.
  intros B1 B2 bs1 bs2 d1 w2 ops evs1 evs2 more Hb d2 H1 H2 Ha.
  destruct (C80_replay B1 bs1 d1 ops evs1 more [] Hb H1) as [O1 R1].
  destruct (C80_replay B2 bs2 d2 ops evs2 [] [] Hb H2) as [O2 R2].
  rewrite app_nil_r, Ha in O2, R2.
  change (connect d2 (Build_world (map answer_of evs1 ++ more) [])) with
    (connect d1 (Build_world (map answer_of evs1 ++ more) [])) in O2, R2.
  rewrite O1 in O2. rewrite R1 in R2.
  assert (Ew : Build_world more evs1 = Build_world (@nil (answer ER EW)) evs2) by (exact (f_equal d_bus R2)).
  split; [exact (f_equal trace Ew)|]. split; [exact O2|].
  rewrite <- (onto_self (run p bs2 d2 ops)) at 1.
  pose proof (f_equal (fun x => connect x (d_bus (run p bs2 d2 ops))) R2) as E. symmetry. exact E.
Qed.

(** All transactions are addressed to the camera's own address. *)
Theorem C80_only_own_address : forall B (bs : bus B ER EW) (d : drv B) ops, Forall byte (d_pixel_buffer d) ->
  exists evs, trace (d_bus (run p bs d ops)) = trace (d_bus d) ++ evs /\
    Forall (fun x => address_of x = d_address d) evs.
Proof.
  intros B bs d ops Hb.
  assert (E : lifted (fun B bs d => (outcomes p bs d ops, run p bs d ops)) (core d) B bs (d_bus d) =
              ((outcomes p bs d ops, core (run p bs d ops)), d_bus (run p bs d ops))).
  { unfold lifted. rewrite onto_core, onto_self. reflexivity. }
  destruct (uniform_replay _ _ _ _ (outcomes_um ops (core d) Hb) B bs _ _ _ E) as (_ & evs & Ht & Ha & _).
  exists evs. split; [exact Ht|exact Ha].
Qed.

(** ** C81 *)
Lemma step_core B0 B (bs : bus B ER EW) (d : drv B0) w o :
  lifted (fun B bs d => seen (step p bs d o)) (core d) B bs w =
  (let '(r, d', dest) := step p bs (connect d w) o in (((r, dest), core d'), d_bus d')).
Proof.
  unfold lifted, seen. rewrite onto_core. change (onto d w) with (connect d w).
  destruct (step p bs (connect d w) o) as [[r d'] dest]. reflexivity.
Qed.

(** One call on the shared bus is that call on the camera's own bus; the other
    devices do not notice. *)
Lemma step_shared who mine B1 B2 (bs1 : bus B1 ER EW) (bs2 : bus B2 ER EW) (d : drv (B1 * B2)) w o r d' dest :
  bytes_only d -> mine (d_address d) = who -> step p (shared mine bs1 bs2) (connect d w) o = (r, d', dest) ->
  d_address d' = d_address d /\ bytes_only d' /\
  exists evs, trace (d_bus d') = trace w ++ evs /\ Forall (fun x => mine (address_of x) = who) evs /\
    if who
    then snd (dev (d_bus d')) = snd (dev w) /\
         forall tr, step p bs1 (connect d (Build_world (fst (dev w)) tr)) o =
           (r, connect d' (Build_world (fst (dev (d_bus d'))) (tr ++ evs)), dest)
    else fst (dev (d_bus d')) = fst (dev w) /\
         forall tr, step p bs2 (connect d (Build_world (snd (dev w)) tr)) o =
           (r, connect d' (Build_world (snd (dev (d_bus d'))) (tr ++ evs)), dest).
Proof.
  intros Hb Hm Hs. pose proof (um_step (ER := ER) (EW := EW) p o (core d) Hb) as Hu.
  pose proof (step_core _ _ (shared mine bs1 bs2) d w o) as E. rewrite Hs in E.
  destruct (uniform_replay _ _ _ _ Hu _ _ _ _ _ E) as ((Ha & Hb') & _).
  assert (Fin : forall B (bs : bus B ER EW) (w1 w2 : world B ER EW),
    lifted (fun B bs d => seen (step p bs d o)) (core d) B bs w1 = (((r, dest), core d'), w2) ->
    step p bs (connect d w1) o = (r, connect d' w2, dest)).
  { intros B bs w1 w2 H. rewrite step_core in H. destruct (step p bs (connect d w1) o) as [[r1 d1] dest1].
    apply pair_equal_spec in H. destruct H as [H E3]. apply pair_equal_spec in H. destruct H as [H E2].
    apply pair_equal_spec in H. destruct H as [-> ->].
    pose proof (f_equal (fun x => connect x w2) E2) as E2'. subst w2.
    change (connect (core d1) (d_bus d1)) with (onto d1 (d_bus d1)) in E2'. rewrite onto_self in E2'.
    rewrite E2' at 1. reflexivity. }
  split; [exact Ha|]. split; [exact Hb'|]. destruct who.
  - destruct (uniform_shared1 _ _ _ _ mine Hu Hm _ _ _ _ _ _ _ E) as (evs & Ht & Hev & Hd & Hr).
    exists evs. split; [exact Ht|]. split; [|split; [exact Hd|intros tr; apply Fin, Hr]].
    eapply Forall_impl; [|exact Hev]. intros x ->. exact Hm.
  - destruct (uniform_shared2 _ _ _ _ mine Hu Hm _ _ _ _ _ _ _ E) as (evs & Ht & Hev & Hd & Hr).
    exists evs. split; [exact Ht|]. split; [|split; [exact Hd|intros tr; apply Fin, Hr]].
    eapply Forall_impl; [|exact Hev]. intros x ->. exact Hm.
Qed.

Definition traffic (mine : Z -> bool) (who : bool) (evs : list (event ER EW)) : list (event ER EW) :=
  filter (fun x => Bool.eqb (mine (address_of x)) who) evs.

(** Two cameras with different addresses on one bus, their drivers used in any order: each
    driver returns, stores and sends, and each camera ends up with, what it would if it were alone. *)
Theorem C81_no_interference : forall mine B1 B2 (bs1 : bus B1 ER EW) (bs2 : bus B2 ER EW)
    (d1 d2 : drv (B1 * B2)) w calls seen d1' d2' w',
  Forall byte (d_pixel_buffer d1) -> Forall byte (d_pixel_buffer d2) ->
  mine (d_address d1) = true -> mine (d_address d2) = false ->
  turns p (shared mine bs1 bs2) d1 d2 w calls = (seen, (d1', d2'), w') ->
  exists evs, trace w' = trace w ++ evs /\
  let alone1 := connect d1 (Build_world (fst (dev w)) []) in
  let alone2 := connect d2 (Build_world (snd (dev w)) []) in
  part true seen = outcomes p bs1 alone1 (part true calls) /\
  part false seen = outcomes p bs2 alone2 (part false calls) /\
  run p bs1 alone1 (part true calls) = connect d1' (Build_world (fst (dev w')) (traffic mine true evs)) /\
  run p bs2 alone2 (part false calls) = connect d2' (Build_world (snd (dev w')) (traffic mine false evs)).
Proof.
  intros mine B1 B2 bs1 bs2 d1 d2 w calls seen d1' d2' w' Hb1 Hb2 Hm1 Hm2 Ht.
  assert (G : exists evs, trace w' = trace w ++ evs /\ forall t1 t2,
    let alone1 := connect d1 (Build_world (fst (dev w)) t1) in
    let alone2 := connect d2 (Build_world (snd (dev w)) t2) in
    part true seen = outcomes p bs1 alone1 (part true calls) /\
    part false seen = outcomes p bs2 alone2 (part false calls) /\
    run p bs1 alone1 (part true calls) = connect d1' (Build_world (fst (dev w')) (t1 ++ traffic mine true evs)) /\
    run p bs2 alone2 (part false calls) = connect d2' (Build_world (snd (dev w')) (t2 ++ traffic mine false evs))).
  2:{ destruct G as (evs & Hev & G). exists evs. split; [exact Hev|]. exact (G [] []). }
  revert d1 d2 w seen Hb1 Hb2 Hm1 Hm2 Ht. induction calls as [|[who o] calls IH]; intros d1 d2 w seen Hb1 Hb2 Hm1 Hm2 Ht.
  - cbn [turns] in Ht. injection Ht as <- <- <- <-. exists []. rewrite app_nil_r. split; [reflexivity|].
    intros t1 t2. unfold part, traffic. cbn [filter map outcomes run fold_left]. rewrite !app_nil_r. auto.
  - cbn [turns] in Ht.
    destruct (step p (shared mine bs1 bs2) (connect (if who then d1 else d2) w) o) as [[r d'] dest] eqn:Es.
    assert (Fil : forall b evs, Forall (fun x => mine (address_of x) = b) evs ->
      traffic mine b evs = evs /\ traffic mine (negb b) evs = []).
    { intros b evs H. unfold traffic. induction H as [|x l Hx _ [IH1 IH2]]; [split; reflexivity|].
      cbn [filter]. rewrite Hx, IH1, IH2. destruct b; split; reflexivity. }
    assert (App : forall b x y, traffic mine b (x ++ y) = traffic mine b x ++ traffic mine b y).
    { intros b x y. unfold traffic. apply filter_app. }
    destruct who.
    + destruct (step_shared true mine B1 B2 bs1 bs2 d1 w o r d' dest Hb1 Hm1 Es) as (Ha & Hb' & evs & Hev & Hall & Hoth & Hst).
      destruct (turns p (shared mine bs1 bs2) d' d2 (d_bus d') calls) as [[seen0 ds] w0] eqn:Et.
      injection Ht as <- -> ->.
      destruct (IH d' d2 (d_bus d') seen0 Hb' Hb2 (eq_trans (f_equal mine Ha) Hm1) Hm2 Et) as (evs0 & Hev0 & G).
      exists (evs ++ evs0). split; [rewrite Hev0, Hev, app_assoc; reflexivity|].
      intros t1 t2. destruct (Fil true evs Hall) as [F1 F2]. cbn [negb] in F2.
      specialize (G (t1 ++ evs) t2). cbv zeta in G. rewrite Hoth in G. destruct G as (G1 & G2 & G3 & G4).
      rewrite !App, F1, F2. unfold part. cbn [filter fst snd Bool.eqb map]. fold (part (A := op) true calls) (part (A := op) false calls).
      cbn [outcomes run fold_left]. unfold step_state. rewrite Hst. cbn [fst snd].
      split; [f_equal; exact G1|]. split; [exact G2|]. split; [rewrite app_assoc; exact G3|exact G4].
    + destruct (step_shared false mine B1 B2 bs1 bs2 d2 w o r d' dest Hb2 Hm2 Es) as (Ha & Hb' & evs & Hev & Hall & Hoth & Hst).
      destruct (turns p (shared mine bs1 bs2) d1 d' (d_bus d') calls) as [[seen0 ds] w0] eqn:Et.
      injection Ht as <- -> ->.
      destruct (IH d1 d' (d_bus d') seen0 Hb1 Hb' Hm1 (eq_trans (f_equal mine Ha) Hm2) Et) as (evs0 & Hev0 & G).
      exists (evs ++ evs0). split; [rewrite Hev0, Hev, app_assoc; reflexivity|].
      intros t1 t2. destruct (Fil false evs Hall) as [F1 F2]. cbn [negb] in F2.
      specialize (G t1 (t2 ++ evs)). cbv zeta in G. rewrite Hoth in G. destruct G as (G1 & G2 & G3 & G4).
      rewrite !App, F1, F2. unfold part. cbn [filter fst snd Bool.eqb map]. fold (part (A := op) true calls) (part (A := op) false calls).
      cbn [outcomes run fold_left]. unfold step_state. rewrite Hst. cbn [fst snd].
      split; [exact G1|]. split; [f_equal; exact G2|]. split; [exact G3|rewrite app_assoc; exact G4].
Qed.
(** ** Constructing the driver *)
Definition reconnect {B1 B2} (r : res (error ER EW) (drv B1)) (w : world B2 ER EW) : res (error ER EW) (drv B2) :=
  match r with Ok d => Ok (connect d w) | Err e => Err e | Panic => Panic | Diverge => Diverge end.
Definition no_bus {B} (r : res (error ER EW) (drv B)) : res (error ER EW) (drv unit) := reconnect r (Build_world tt []).

Definition opens (from_i2c : Z -> comp (ER := ER) (EW := EW) (res (error ER EW) (calib FO))) height num_bytes a
  : forall B, bus B ER EW -> world B ER EW -> res (error ER EW) (drv B) * world B ER EW :=
  fun B bs w => new bs (fun a w => from_i2c a B bs w) height num_bytes w a.
Definition cored {X : Type -> Type} (norm : forall B, X B -> X unit) (f : forall B, bus B ER EW -> world B ER EW -> X B * world B ER EW) : comp (X unit) :=
  fun B bs w => let '(r, w') := f B bs w in (norm B r, w').

Lemma u_new (from_i2c : Z -> comp (res (error ER EW) (calib FO))) height num_bytes a :
  uniform a anything (from_i2c a) ->
  uniform a anything (cored (@no_bus) (opens from_i2c height num_bytes a)).
Proof.
  intros Hf.
  eapply u_ext; [|apply (uniform_bind a _ _ anything anything (from_i2c a) (fun r => match r with
    | Ok c => fun B bs w => let '(r, w') := new_with_calibration bs height num_bytes w a c in (no_bus r, w')
    | Err e => fun B bs w => (Err e, w) | Panic => fun B bs w => (Panic, w) | Diverge => fun B bs w => (Diverge, w) end) Hf)].
  - intros B bs w. cbv beta. unfold cored, opens, new. destruct (from_i2c a B bs w) as [[c|e| |] w']; reflexivity.
  - intros [c|e| |] _; try (apply u_ret; exact I).
    eapply u_ext; [|apply (u_read a anything (to_be_bytes CONTROL_ADDRESS) [0; 0]
      (fun data e B bs w => (no_bus (
        do control <- (match e with Some e => Err (I2cWriteReadError e) | None => register_from_slice data end);
        do res_now <- ctl_resolution control;
        do ap <- ctl_access_pattern control;
        Ok {| d_bus := w; d_address := a; d_calibration := c;
              d_pixel_buffer := repeat 0 num_bytes;
              d_resolution_correction := resolution_correction _ (cam _ c) (cal_resolution _ c) res_now;
              d_ambient := None;
              d_emissivity := unwrap_or (cal_emissivity _ c) (fofZ 1);
              d_access_pattern := ap; d_reflected := None; d_height := height |}), w)))].
    + intros B bs w. unfold new_with_calibration, read_register.
      destruct (write_read bs a (to_be_bytes CONTROL_ADDRESS) [0; 0] w) as [[data e] w'].
      destruct e; reflexivity.
    + repeat constructor; unfold byte; lia.
    + intros data e _ _.
      destruct (match e with Some e => Err (I2cWriteReadError e) | None => register_from_slice data end) as [v|x| |]; cbn [bind];
        try (apply (u_ret a anything (Err _)); exact I); try (apply (u_ret a anything Panic); exact I); try (apply (u_ret a anything Diverge); exact I).
      destruct (ctl_resolution v) as [rs|x| |]; cbn [bind];
        try (apply (u_ret a anything (Err _)); exact I); try (apply (u_ret a anything Panic); exact I); try (apply (u_ret a anything Diverge); exact I).
      destruct (ctl_access_pattern v) as [ap|x| |]; cbn [bind no_bus reconnect];
        try (apply (u_ret a anything (Err _)); exact I); try (apply (u_ret a anything Panic); exact I); try (apply (u_ret a anything Diverge); exact I).
      exact (u_ret a anything (Ok {| d_bus := Build_world tt []; d_address := a; d_calibration := c;
              d_pixel_buffer := repeat 0 num_bytes;
              d_resolution_correction := resolution_correction _ (cam _ c) (cal_resolution _ c) rs;
              d_ambient := None;
              d_emissivity := unwrap_or (cal_emissivity _ c) (fofZ 1);
              d_access_pattern := ap; d_reflected := None; d_height := height |}) I).
Qed.
Lemma u_from_i2c base len (parse : list Z -> res lib_error (calib FO)) a :
  uniform (ER := ER) (EW := EW) a anything ((fun B bs w =>
    let '(data, e, w') := write_read bs a (to_be_bytes base) (repeat 0 len) w in
    match e with
    | Some e => (Err (I2cWriteReadError e), w')
    | None => (map_err LibraryError (parse data), w')
    end) : comp (res (error ER EW) (calib FO))).
Proof.
  eapply u_ext; [|apply (u_read a anything (to_be_bytes base) (repeat 0 len) (fun data e B bs w =>
    (match e with Some e => Err (I2cWriteReadError e) | None => map_err LibraryError (parse data) end, w)))].
  - intros B bs w. cbv beta. destruct (write_read bs a (to_be_bytes base) (repeat 0 len) w) as [[data e] w']. destruct e; reflexivity.
  - apply Forall_forall. intros x Hx. apply repeat_spec in Hx. subst x. unfold byte. lia.
  - intros data e _ _. apply u_ret. exact I.
Qed.

(** The driver is handed the bus in its state at the end of the construction. *)
Lemma opens_bus from_i2c height num_bytes a B (bs : bus B ER EW) w r w' :
  opens from_i2c height num_bytes a B bs w = (r, w') -> reconnect r w' = r.
Proof.
  intros H. unfold opens, new in H. destruct (from_i2c a B bs w) as [[c|e| |] w0].
  - unfold new_with_calibration in H. destruct (read_register bs a CONTROL_ADDRESS w0) as [r1 w1].
    apply pair_equal_spec in H. destruct H as [<- <-].
    destruct r1 as [v|e| |]; cbn [bind]; [|reflexivity..].
    destruct (ctl_resolution v) as [rs|e| |]; cbn [bind]; [|reflexivity..].
    destruct (ctl_access_pattern v) as [ap|e| |]; reflexivity.
  - apply pair_equal_spec in H. destruct H as [<- <-]. reflexivity.
  - apply pair_equal_spec in H. destruct H as [<- <-]. reflexivity.
  - apply pair_equal_spec in H. destruct H as [<- <-]. reflexivity.
Qed.
Lemma reconnect_eq B1 B2 (r1 : res (error ER EW) (drv B1)) (r2 : res (error ER EW) (drv B2)) w :
  no_bus r2 = no_bus r1 -> reconnect r2 w = r2 -> r2 = reconnect r1 w.
Proof.
  intros E H. rewrite <- H. unfold no_bus in E.
  destruct r1 as [v|e1| |], r2 as [v0|e2| |]; cbn [reconnect] in *; try discriminate; try congruence.
  f_equal. assert (E' : connect v0 (Build_world tt []) = connect v (Build_world tt [])) by congruence.
  exact (f_equal (fun x => connect x w) E').
Qed.

Lemma new_replay from_i2c height num_bytes a : uniform a anything (from_i2c a) ->
  forall B (bs : bus B ER EW) w r w' evs more tr,
  opens from_i2c height num_bytes a B bs w = (r, w') -> trace w' = trace w ++ evs ->
  let w2 := Build_world more (tr ++ evs) in
  opens from_i2c height num_bytes a _ (replay ER EW) (Build_world (map answer_of evs ++ more) tr) = (reconnect r w2, w2).
Proof.
  intros Hf B bs w r w' evs more tr H Ht w2.
  assert (E : cored (@no_bus) (opens from_i2c height num_bytes a) B bs w = (no_bus r, w')) by (unfold cored; rewrite H; reflexivity).
  destruct (uniform_replay _ _ _ _ (u_new _ height num_bytes a Hf) _ _ _ _ _ E) as (_ & evs' & Ht' & _ & Hr).
  assert (evs' = evs) as -> by (apply (app_inv_head (trace w)); congruence).
  specialize (Hr more tr). unfold cored in Hr.
  destruct (opens from_i2c height num_bytes a _ (replay ER EW) (Build_world (map answer_of evs ++ more) tr)) as [r2 w3] eqn:E2.
  apply pair_equal_spec in Hr. destruct Hr as [Hr ->]. unfold w2. f_equal.
  apply reconnect_eq; [exact Hr|]. eapply opens_bus. exact E2.
Qed.

(** Construction too can be replayed, whether it succeeded or not. *)
Theorem C80_open_640 : forall B (bs : bus B ER EW) w a r w' evs more tr,
  new bs (calib640_from_i2c FO p bs) 24 1536 w a = (r, w') -> trace w' = trace w ++ evs ->
  let w2 := Build_world more (tr ++ evs) in
  new (replay ER EW) (calib640_from_i2c FO p (replay ER EW)) 24 1536 (Build_world (map answer_of evs ++ more) tr) a =
    (reconnect r w2, w2).
Proof.
  intros B bs w a r w' evs more tr. apply (new_replay (fun a B bs w => calib640_from_i2c FO p bs a w)).
  exact (u_from_i2c EE640_Base EEPROM_LENGTH (from_data640 FO p) a).
Qed.
Theorem C80_open_641 : forall B (bs : bus B ER EW) w a r w' evs more tr,
  new bs (calib641_from_i2c FO p bs) 12 384 w a = (r, w') -> trace w' = trace w ++ evs ->
  let w2 := Build_world more (tr ++ evs) in
  new (replay ER EW) (calib641_from_i2c FO p (replay ER EW)) 12 384 (Build_world (map answer_of evs ++ more) tr) a =
    (reconnect r w2, w2).
Proof.
  intros B bs w a r w' evs more tr. apply (new_replay (fun a B bs w => calib641_from_i2c FO p bs a w)).
  exact (u_from_i2c EE641_Base _ (from_data641 FO p) a).
Qed.

(** The recording of a whole session, from the construction of the driver on. *)
Lemma session from_i2c height num_bytes a : uniform a anything (from_i2c a) ->
  forall B (bs : bus B ER EW) w d w' ops evs,
  (forall d, opens from_i2c height num_bytes a B bs w = (Ok d, w') -> Forall byte (d_pixel_buffer d)) ->
  opens from_i2c height num_bytes a B bs w = (Ok d, w') ->
  trace (d_bus (run p bs d ops)) = trace w ++ evs ->
  exists d', opens from_i2c height num_bytes a _ (replay ER EW) (Build_world (map answer_of evs) []) = (Ok d', d_bus d') /\
    outcomes p (replay ER EW) d' ops = outcomes p bs d ops /\
    d_bus (run p (replay ER EW) d' ops) = Build_world [] evs.
Proof.
  intros Hf B bs w d w' ops evs Hb Hn Ht. specialize (Hb d Hn).
  assert (Hbus : d_bus d = w').
  { pose proof (opens_bus _ _ _ _ _ _ _ _ _ Hn) as E. cbn [reconnect] in E.
    assert (E' : connect d w' = d) by congruence. rewrite <- E'. reflexivity. }
  assert (E : cored (@no_bus) (opens from_i2c height num_bytes a) B bs w = (no_bus (Ok d), w')) by (unfold cored; rewrite Hn; reflexivity).
  destruct (uniform_replay _ _ _ _ (u_new _ height num_bytes a Hf) _ _ _ _ _ E) as (_ & evs1 & Ht1 & _).
  destruct (C80_only_own_address B bs d ops Hb) as (evs2 & Ht2 & _).
  assert (evs = evs1 ++ evs2) as ->.
  { apply (app_inv_head (trace w)). rewrite <- Ht, Ht2, Hbus, Ht1, app_assoc. reflexivity. }
  pose proof (new_replay _ height num_bytes a Hf B bs w _ w' evs1 (map answer_of evs2) [] Hn Ht1) as Hr.
  cbv zeta in Hr. cbn [reconnect app] in Hr. rewrite map_app.
  destruct (C80_replay B bs d ops evs2 [] evs1 Hb Ht2) as [Ho Hrun]. rewrite app_nil_r in Ho, Hrun.
  eexists. split; [exact Hr|]. split; [exact Ho|]. rewrite Hrun. reflexivity.
Qed.

Theorem C80_session_640 : forall B (bs : bus B ER EW) w a d w' ops evs,
  new bs (calib640_from_i2c FO p bs) 24 1536 w a = (Ok d, w') ->
  trace (d_bus (run p bs d ops)) = trace w ++ evs ->
  exists d', new (replay ER EW) (calib640_from_i2c FO p (replay ER EW)) 24 1536 (Build_world (map answer_of evs) []) a = (Ok d', d_bus d') /\
    outcomes p (replay ER EW) d' ops = outcomes p bs d ops /\
    d_bus (run p (replay ER EW) d' ops) = Build_world [] evs.
Proof.
  intros B bs w a d w' ops evs Hn Ht.
  apply (session (fun a B bs w => calib640_from_i2c FO p bs a w) 24 1536 a
    (u_from_i2c EE640_Base EEPROM_LENGTH (from_data640 FO p) a) B bs w d w' ops evs); [|exact Hn|exact Ht].
  intros d0 H0. exact (proj2 (C62_new_640 FO p B ER EW bs w a d0 w' H0)).
Qed.
Theorem C80_session_641 : forall B (bs : bus B ER EW) w a d w' ops evs,
  new bs (calib641_from_i2c FO p bs) 12 384 w a = (Ok d, w') ->
  trace (d_bus (run p bs d ops)) = trace w ++ evs ->
  exists d', new (replay ER EW) (calib641_from_i2c FO p (replay ER EW)) 12 384 (Build_world (map answer_of evs) []) a = (Ok d', d_bus d') /\
    outcomes p (replay ER EW) d' ops = outcomes p bs d ops /\
    d_bus (run p (replay ER EW) d' ops) = Build_world [] evs.
Proof.
  intros B bs w a d w' ops evs Hn Ht.
  apply (session (fun a B bs w => calib641_from_i2c FO p bs a w) 12 384 a
    (u_from_i2c EE641_Base _ (from_data641 FO p) a) B bs w d w' ops evs); [|exact Hn|exact Ht].
  intros d0 H0. exact (proj2 (C62_new_641 FO p B ER EW bs w a d0 w' H0)).
Qed.

(** ** Construction on a shared bus *)
Lemma new_shared1 from_i2c height num_bytes a mine : uniform a anything (from_i2c a) -> mine a = true ->
  forall B1 B2 (bs1 : bus B1 ER EW) (bs2 : bus B2 ER EW) w r w' tr,
  opens from_i2c height num_bytes a _ (shared mine bs1 bs2) w = (r, w') ->
  snd (dev w') = snd (dev w) /\ exists evs, trace w' = trace w ++ evs /\
  let w1 := Build_world (fst (dev w')) (tr ++ evs) in
  opens from_i2c height num_bytes a _ bs1 (Build_world (fst (dev w)) tr) = (reconnect r w1, w1).
Proof.
  intros Hf Hm B1 B2 bs1 bs2 w r w' tr H.
  assert (E : cored (@no_bus) (opens from_i2c height num_bytes a) _ (shared mine bs1 bs2) w = (no_bus r, w')) by (unfold cored; rewrite H; reflexivity).
  destruct (uniform_shared1 _ _ _ _ mine (u_new _ height num_bytes a Hf) Hm _ _ _ _ _ _ _ E) as (evs & Ht & _ & Hs & Hr).
  split; [exact Hs|]. exists evs. split; [exact Ht|]. intros w1. specialize (Hr tr). unfold cored in Hr.
  destruct (opens from_i2c height num_bytes a _ bs1 (Build_world (fst (dev w)) tr)) as [r2 w3] eqn:E2.
  apply pair_equal_spec in Hr. destruct Hr as [Hr ->]. unfold w1. f_equal.
  apply reconnect_eq; [exact Hr|]. eapply opens_bus. exact E2.
Qed.
Lemma new_shared2 from_i2c height num_bytes a mine : uniform a anything (from_i2c a) -> mine a = false ->
  forall B1 B2 (bs1 : bus B1 ER EW) (bs2 : bus B2 ER EW) w r w' tr,
  opens from_i2c height num_bytes a _ (shared mine bs1 bs2) w = (r, w') ->
  fst (dev w') = fst (dev w) /\ exists evs, trace w' = trace w ++ evs /\
  let w1 := Build_world (snd (dev w')) (tr ++ evs) in
  opens from_i2c height num_bytes a _ bs2 (Build_world (snd (dev w)) tr) = (reconnect r w1, w1).
Proof.
  intros Hf Hm B1 B2 bs1 bs2 w r w' tr H.
  assert (E : cored (@no_bus) (opens from_i2c height num_bytes a) _ (shared mine bs1 bs2) w = (no_bus r, w')) by (unfold cored; rewrite H; reflexivity).
  destruct (uniform_shared2 _ _ _ _ mine (u_new _ height num_bytes a Hf) Hm _ _ _ _ _ _ _ E) as (evs & Ht & _ & Hs & Hr).
  split; [exact Hs|]. exists evs. split; [exact Ht|]. intros w1. specialize (Hr tr). unfold cored in Hr.
  destruct (opens from_i2c height num_bytes a _ bs2 (Build_world (snd (dev w)) tr)) as [r2 w3] eqn:E2.
  apply pair_equal_spec in Hr. destruct Hr as [Hr ->]. unfold w1. f_equal.
  apply reconnect_eq; [exact Hr|]. eapply opens_bus. exact E2.
Qed.

(** Opening a camera does not disturb the other devices, and gives the driver it would give
    were the camera alone on its bus. *)
Theorem C81_open_640 : forall mine B1 B2 (bs1 : bus B1 ER EW) (bs2 : bus B2 ER EW) w a r w' tr,
  new (shared mine bs1 bs2) (calib640_from_i2c FO p (shared mine bs1 bs2)) 24 1536 w a = (r, w') ->
  exists evs, trace w' = trace w ++ evs /\
  if mine a then snd (dev w') = snd (dev w) /\
    let w1 := Build_world (fst (dev w')) (tr ++ evs) in
    new bs1 (calib640_from_i2c FO p bs1) 24 1536 (Build_world (fst (dev w)) tr) a = (reconnect r w1, w1)
  else fst (dev w') = fst (dev w) /\
    let w1 := Build_world (snd (dev w')) (tr ++ evs) in
    new bs2 (calib640_from_i2c FO p bs2) 24 1536 (Build_world (snd (dev w)) tr) a = (reconnect r w1, w1).
Proof.
  intros mine B1 B2 bs1 bs2 w a r w' tr H.
  pose proof (u_from_i2c EE640_Base EEPROM_LENGTH (from_data640 FO p) a) as Hf.
  destruct (mine a) eqn:Hm.
  - destruct (new_shared1 (fun a B bs w => calib640_from_i2c FO p bs a w) 24 1536 a mine Hf Hm B1 B2 bs1 bs2 w r w' tr H) as (Hs & evs & Ht & Hr).
    exists evs. auto.
  - destruct (new_shared2 (fun a B bs w => calib640_from_i2c FO p bs a w) 24 1536 a mine Hf Hm B1 B2 bs1 bs2 w r w' tr H) as (Hs & evs & Ht & Hr).
    exists evs. auto.
Qed.
Theorem C81_open_641 : forall mine B1 B2 (bs1 : bus B1 ER EW) (bs2 : bus B2 ER EW) w a r w' tr,
  new (shared mine bs1 bs2) (calib641_from_i2c FO p (shared mine bs1 bs2)) 12 384 w a = (r, w') ->
  exists evs, trace w' = trace w ++ evs /\
  if mine a then snd (dev w') = snd (dev w) /\
    let w1 := Build_world (fst (dev w')) (tr ++ evs) in
    new bs1 (calib641_from_i2c FO p bs1) 12 384 (Build_world (fst (dev w)) tr) a = (reconnect r w1, w1)
  else fst (dev w') = fst (dev w) /\
    let w1 := Build_world (snd (dev w')) (tr ++ evs) in
    new bs2 (calib641_from_i2c FO p bs2) 12 384 (Build_world (snd (dev w)) tr) a = (reconnect r w1, w1).
Proof.
  intros mine B1 B2 bs1 bs2 w a r w' tr H.
  pose proof (u_from_i2c EE641_Base (Z.to_nat ((EE641_End - EE641_Base + 1) * 2)) (from_data641 FO p) a) as Hf.
  destruct (mine a) eqn:Hm.
  - destruct (new_shared1 (fun a B bs w => calib641_from_i2c FO p bs a w) 12 384 a mine Hf Hm B1 B2 bs1 bs2 w r w' tr H) as (Hs & evs & Ht & Hr).
    exists evs. auto.
  - destruct (new_shared2 (fun a B bs w => calib641_from_i2c FO p bs a w) 12 384 a mine Hf Hm B1 B2 bs1 bs2 w r w' tr H) as (Hs & evs & Ht & Hr).
    exists evs. auto.
Qed.


End Theorems.
Print Assumptions C80_replay.
Print Assumptions C80_same_answers.
Print Assumptions C80_only_own_address.
Print Assumptions C81_no_interference.
Print Assumptions C80_open_640.
Print Assumptions C80_open_641.
Print Assumptions C80_session_640.
Print Assumptions C80_session_641.
Print Assumptions C81_open_640.
Print Assumptions C81_open_641.

(** ** Concrete cases *)
Definition all_bytes (l : list Z) : bool := forallb (fun x => (0 <=? x) && (x <? 256)) l.
Lemma all_bytes_ok l : all_bytes l = true -> Forall byte l.
Proof.
  intros H. apply Forall_forall. intros x Hx. unfold all_bytes in H. rewrite forallb_forall in H.
  specialize (H x Hx). apply andb_prop in H. destruct H as [H1 H2]. unfold byte.
  apply Z.leb_le in H1. apply Z.ltb_lt in H2. lia.
Qed.

(** C80: a recorded session with the toy camera; the 17th transaction fails.  Replaying another
    recording gives other results. *)
Definition session_ops : list (op (FO := ZFO)) :=
  [OpFrameRate; OpSetResolution Res19; OpGenerateImage (FO := ZFO) (repeat (0 : F ZFO) 5); OpDataAvailable;
   OpResetDataAvailable; OpDataAvailable].
Example C80_concrete :
  match demo_driver 12 384 demo641 0x0009 0x0901 with
  | Some d =>
      let bs := toy_bus never (at_clock 17) in
      let evs := skipn 1 (trace (d_bus (run Debug bs d session_ops))) in
      all_bytes (d_pixel_buffer d) = true /\
      trace (d_bus (run Debug bs d session_ops)) = trace (d_bus d) ++ evs /\ length evs = 18%nat /\
      map fst (outcomes Debug bs d session_ops) =
        [Ok (OutFrameRate FR_Two); Ok OutUnit; Ok OutUnit; Ok (OutOptSubpage (Some One)); Err (I2cWriteReadError "nack"%string); Ok (OutOptSubpage (Some One))] /\
      map fst (outcomes Debug (replay string string)
        (connect d (Build_world (rev (map answer_of evs)) [])) session_ops) <>
      map fst (outcomes Debug bs d session_ops)
  | None => False
  end.
Proof. vm_compute. split; [reflexivity|]. split; [reflexivity|]. split; [reflexivity|]. split; [reflexivity|]. discriminate. Qed.

(** C81: two toy cameras at the addresses 0x33 and 0x34, used in turn. *)
Example C81_concrete :
  match demo_driver 12 384 demo641 0x0009 0x0901 with
  | Some d =>
      let one := fun a => a =? 0x33 in
      let two := toy_bus never never in
      let w := Build_world (dev (toy0 0x0009 0x0901), dev (toy0 0x0000 0x0881)) [] in
      let d1 : driver (FO := ZFO) (B := toy * toy) := connect d w in
      let d2 : driver (FO := ZFO) (B := toy * toy) :=
        {| d_bus := w; d_address := 0x34; d_calibration := d_calibration d;
           d_pixel_buffer := d_pixel_buffer d; d_resolution_correction := d_resolution_correction d;
           d_ambient := d_ambient d; d_emissivity := d_emissivity d;
           d_access_pattern := d_access_pattern d; d_reflected := d_reflected d; d_height := d_height d |} in
      one (d_address d1) = true /\ one (d_address d2) = false /\
      all_bytes (d_pixel_buffer d1) = true /\ all_bytes (d_pixel_buffer d2) = true /\
      map (fun x => (fst x, fst (snd x)))
        (fst (fst (turns Debug (shared one two two) d1 d2 w
           [(true, OpDataAvailable); (false, OpDataAvailable); (true, OpSetFrameRate FR_Four);
            (true, OpFrameRate); (false, OpFrameRate)]))) =
      [(true, Ok (OutOptSubpage (Some One))); (false, Ok (OutOptSubpage None)); (true, Ok OutUnit);
       (true, Ok (OutFrameRate FR_Four)); (false, Ok (OutFrameRate FR_One))]
  | None => False
  end.
Proof. vm_compute. repeat split. Qed.
