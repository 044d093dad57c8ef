(** * Property C85: the log of the reference camera is what the driver did on the bus. *)
From Verif Require Import Base FloatOps Register Bus Camera Cam640 Cam641 Calc CalcFacts Driver
  BitFacts SpecRegister RegisterFacts SpecCamera CameraFacts SpecDriver DriverFacts StepFacts Demo
  SpecImage SpecCall ImageFacts Mock SpecMock P_Bus P_Image TraceFacts MockFacts ReportFacts P_Mock P_MockSelf.

(** What the log should say about a transaction: its kind, the memory address in its first two bytes,
    and the number of data bytes. *)
Definition logged {ER EW} (x : event ER EW) : i2c_operation :=
  match x with
  | EvRead _ wb data _ => OperationRead (256 * nth 0 wb 0 + nth 1 wb 0) (length data)
  | EvWrite _ bytes _ => OperationWrite (256 * nth 0 bytes 0 + nth 1 bytes 0) (length bytes - 2)
  end.

Notation bus_event := (event mock_error mock_error).

Lemma extract_ok k bytes a : extract_address k bytes = inl a -> a = 256 * nth 0 bytes 0 + nth 1 bytes 0.
Proof.
  unfold extract_address. destruct bytes as [|hi [|lo r]]; try discriminate.
  destruct (_ || _)%bool; [|discriminate]. intros E. injection E as <-. cbn [nth]. unfold be16. lia.
Qed.
Lemma set_keeps_log k a data k' : mock_set k a data = inl k' -> mk_recent k' = mk_recent k.
Proof.
  unfold mock_set, mock_set_eeprom. intros H.
  repeat match type of H with
  | context [if ?b then _ else _] => destruct b
  | context [match mslice ?x ?y ?z with _ => _ end] => destruct (mslice x y z)
  | context [match check_words ?a ?b ?c ?d with _ => _ end] => destruct (check_words a b c d)
  end; try discriminate; injection H as <-; reflexivity.
Qed.

(** One successful transaction puts itself in front. *)
Lemma log_read k i2c wb buf k' out : mock_write_read k i2c wb buf = (k', out, None) ->
  mk_recent k' = firstn 32 (logged (EvRead (EW := mock_error) (ER := mock_error) i2c wb (clip buf out) None) :: mk_recent k).
Proof.
  unfold mock_write_read. intros H.
  destruct (negb (i2c =? mk_i2c_address k)); [discriminate|].
  destruct (negb (Nat.eqb (length wb) 2) || Nat.eqb (length buf) 0)%bool; [discriminate|].
  destruct (extract_address k wb) as [a|e] eqn:E; [|discriminate].
  destruct (mock_get _ a (length buf)) as [data|e]; [|discriminate].
  destruct (Nat.eqb (length data) (length buf)); [|discriminate].
  injection H as <- <-. apply extract_ok in E. cbn [logged]. rewrite clip_length, <- E. reflexivity.
Qed.
Lemma log_write k i2c bytes k' : mock_write k i2c bytes = (k', None) ->
  mk_recent k' = firstn 32 (logged (EvWrite (EW := mock_error) (ER := mock_error) i2c bytes None) :: mk_recent k).
Proof.
  unfold mock_write. intros H.
  destruct (negb (i2c =? mk_i2c_address k)); [discriminate|].
  destruct (extract_address k bytes) as [a|e] eqn:E; [|discriminate].
  destruct (mock_set k a (skipn 2 bytes)) as [k1|e] eqn:Es; [|discriminate].
  injection H as <-. apply extract_ok in E. apply set_keeps_log in Es. unfold add_operation, logged. cbn [mk_recent].
  rewrite Es, E. rewrite <- (skipn_length 2 bytes). reflexivity.
Qed.

Lemma log_performed : forall evs k k', performed mock_bus k evs k' -> Forall succeeded evs ->
  (length (mk_recent k) <= 32)%nat ->
  mk_recent k' = firstn 32 (rev (map logged evs) ++ mk_recent k).
Proof.
  intros evs k k' H. induction H as [k|k i2c wb buf k1 out e evs k2 Hd H IH|k i2c bytes k1 e evs k2 Hd H IH]; intros Hs Hl.
  - cbn [rev map app]. rewrite firstn_all2 by exact Hl. reflexivity.
  - inversion Hs as [|? ? Hx Hs']; subst. cbn [succeeded] in Hx. subst e. apply log_read in Hd.
    rewrite IH; [|exact Hs'|rewrite Hd, firstn_length; lia].
    cbn [map rev]. rewrite <- app_assoc. cbn [app].
    rewrite Hd. rewrite !firstn_app. rewrite firstn_firstn. rewrite Nat.min_l by lia. reflexivity.
  - inversion Hs as [|? ? Hx Hs']; subst. cbn [succeeded] in Hx. subst e. apply log_write in Hd.
    rewrite IH; [|exact Hs'|rewrite Hd, firstn_length; lia].
    cbn [map rev]. rewrite <- app_assoc. cbn [app].
    rewrite Hd. rewrite !firstn_app. rewrite firstn_firstn. rewrite Nat.min_l by lia. reflexivity.
Qed.

Section Log.
Context {FO : FloatOps} (p : profile).
Notation driver := (driver (FO := FO) (B := mock) (ER := mock_error) (EW := mock_error)).
Implicit Types d : driver.

Lemma log_happens lay d h : wf d lay -> mock_of lay (d_address d) (dev (d_bus d)) -> possible lay h ->
  (length (mk_recent (dev (d_bus d))) <= 32)%nat ->
  exists evs, trace (d_bus (happens p d h)) = trace (d_bus d) ++ evs /\
    recent_operations (dev (d_bus (happens p d h))) = firstn 32 (rev (map logged evs) ++ recent_operations (dev (d_bus d))).
Proof.
  intros Hwf Hm Hp Hl. unfold recent_operations. destruct h as [o|ram st|b]; cbn [happens].
  - destruct (step p mock_bus d o) as [[r d'] dest] eqn:E. cbn [fst snd].
    destruct (step_on_mock p lay d o r d' dest Hwf Hm E) as (_ & _ & _ & _ & evs & T & S & Pf & _).
    exists evs. split; [exact T|]. apply log_performed; assumption.
  - exists []. rewrite app_nil_r. split; [reflexivity|]. cbn [rev map app]. rewrite firstn_all2 by exact Hl. reflexivity.
  - exists []. rewrite app_nil_r. split; [reflexivity|]. cbn [rev map app]. rewrite firstn_all2 by exact Hl.
    cbn [harness d_bus with_bus dev]. unfold set_data_available.
    destruct (mk_status (dev (d_bus d))) as [|? [|? ?]]; reflexivity.
Qed.

(** From a cleared log on, whatever calls are made and whatever the test harness does to the camera in
    between: the log is the last 32 transactions of the driver, the newest first. *)
Theorem C85_log : forall lay d hs,
  documented (cam _ (d_calibration d)) lay -> (lay_height lay <= d_height d)%nat ->
  mock_of lay (d_address d) (dev (d_bus d)) -> recent_operations (dev (d_bus d)) = [] -> Forall (possible lay) hs ->
  exists evs, trace (d_bus (all_happen p d hs)) = trace (d_bus d) ++ evs /\
    recent_operations (dev (d_bus (all_happen p d hs))) = firstn 32 (rev (map logged evs)).
Proof.
  intros lay d hs Hd Hh Hm H0 Hp.
  assert (G : forall hs d, wf d lay -> mock_of lay (d_address d) (dev (d_bus d)) -> Forall (possible lay) hs ->
    (length (mk_recent (dev (d_bus d))) <= 32)%nat ->
    exists evs, trace (d_bus (all_happen p d hs)) = trace (d_bus d) ++ evs /\
      recent_operations (dev (d_bus (all_happen p d hs))) = firstn 32 (rev (map logged evs) ++ recent_operations (dev (d_bus d)))).
  { clear. induction hs as [|h hs IH]; intros d Hwf Hm Hp Hl.
    - exists []. rewrite app_nil_r. split; [reflexivity|]. cbn [all_happen fold_left rev map app].
      rewrite firstn_all2 by exact Hl. reflexivity.
    - inversion Hp as [|? ? Hp1 Hp2]; subst. cbn [all_happen fold_left].
      destruct (happens_on_mock p lay d h Hwf Hm Hp1) as (W1 & A & M & _).
      destruct (log_happens lay d h Hwf Hm Hp1 Hl) as (e1 & T1 & L1).
      rewrite <- A in M. unfold recent_operations in *.
      destruct (IH _ W1 M Hp2 ltac:(rewrite L1, firstn_length; lia)) as (e2 & T2 & L2). unfold all_happen in *.
      exists (e1 ++ e2). split; [rewrite T2, T1, app_assoc; reflexivity|].
      rewrite L2, L1, map_app, rev_app_distr, <- app_assoc.
      rewrite (firstn_app 32 (rev (map logged e2)) (firstn _ _)), (firstn_app 32 (rev (map logged e2)) (rev _ ++ _)).
      rewrite firstn_firstn, Nat.min_l by lia. reflexivity. }
  destruct (G hs d (conj Hd Hh) Hm Hp) as (evs & T & L).
  { unfold recent_operations in H0. rewrite H0. apply Nat.le_0_l. }
  exists evs. split; [exact T|]. rewrite L, H0, app_nil_r. reflexivity.
Qed.

(** Clearing the log changes nothing else the driver could notice, so the hypothesis of the theorem above
    can be met at any moment. *)
Lemma get_cleared k a n : mock_get (clear_recent_operations k) a n = mock_get k a n.
Proof. reflexivity. Qed.
Lemma get_added k o a n : mock_get (add_operation k o) a n = mock_get k a n.
Proof. reflexivity. Qed.
Lemma set_cleared k a data : mock_set (clear_recent_operations k) a data =
  match mock_set k a data with inl k' => inl (clear_recent_operations k') | inr e => inr e end.
Proof.
  unfold mock_set, mock_set_eeprom, ram_range.
  cbn [clear_recent_operations mk_i2c_address mk_ram_end mk_eeprom mk_ram mk_status mk_control mk_i2c_config].
  repeat match goal with
  | |- context [if ?b then _ else _] => destruct b
  | |- context [match mslice ?x ?y ?z with _ => _ end] => destruct (mslice x y z)
  | |- context [match check_words ?a ?b ?c ?d with _ => _ end] => destruct (check_words a b c d)
  end; reflexivity.
Qed.
Theorem C85_clear : forall lay a k,
  (mock_of lay a k -> mock_of lay a (clear_recent_operations k)) /\
  recent_operations (clear_recent_operations k) = [] /\
  (forall i2c wb buf k1 out e, mock_write_read k i2c wb buf = (k1, out, e) ->
     exists k1', mock_write_read (clear_recent_operations k) i2c wb buf = (k1', out, e) /\
       clear_recent_operations k1' = clear_recent_operations k1) /\
  (forall i2c bytes k1 e, mock_write k i2c bytes = (k1, e) ->
     exists k1', mock_write (clear_recent_operations k) i2c bytes = (k1', e) /\
       clear_recent_operations k1' = clear_recent_operations k1).
Proof.
  intros lay a k. split; [intros H; exact H|]. split; [reflexivity|]. split.
  - intros i2c wb buf k1 out e H. unfold mock_write_read in *.
    change (mk_i2c_address (clear_recent_operations k)) with (mk_i2c_address k).
    change (extract_address (clear_recent_operations k) wb) with (extract_address k wb).
    destruct (negb (i2c =? mk_i2c_address k)); [injection H as <- <- <-; eexists; split; reflexivity|].
    destruct (negb (Nat.eqb (length wb) 2) || Nat.eqb (length buf) 0)%bool; [injection H as <- <- <-; eexists; split; reflexivity|].
    destruct (extract_address k wb) as [x|x]; [|injection H as <- <- <-; eexists; split; reflexivity].
    rewrite get_added in H. rewrite get_added, get_cleared.
    destruct (mock_get k x (length buf)) as [data|e'].
    + destruct (Nat.eqb (length data) (length buf)); injection H as <- <- <-; eexists; split; reflexivity.
    + injection H as <- <- <-; eexists; split; reflexivity.
  - intros i2c bytes k1 e H. unfold mock_write in *.
    change (mk_i2c_address (clear_recent_operations k)) with (mk_i2c_address k).
    change (extract_address (clear_recent_operations k) bytes) with (extract_address k bytes).
    destruct (negb (i2c =? mk_i2c_address k)); [injection H as <- <-; eexists; split; reflexivity|].
    destruct (extract_address k bytes) as [x|x]; [|injection H as <- <-; eexists; split; reflexivity].
    rewrite set_cleared. destruct (mock_set k x (skipn 2 bytes)) as [k'|e']; injection H as <- <-; eexists; split; reflexivity.
Qed.
End Log.
Print Assumptions C85_log.
Print Assumptions C85_clear.

(** The refused transactions: a read is in the log once its address is recognised, a refused write never is. *)
Theorem C85_refused : forall k,
  (forall i2c wb buf k1 out e, mock_write_read k i2c wb buf = (k1, out, Some e) ->
     mk_recent k1 = mk_recent k \/
     mk_recent k1 = firstn 32 (OperationRead (256 * nth 0 wb 0 + nth 1 wb 0) (length buf) :: mk_recent k)) /\
  (forall i2c bytes k1 e, mock_write k i2c bytes = (k1, Some e) -> k1 = k).
Proof.
  intros k. split.
  - intros i2c wb buf k1 out e H. unfold mock_write_read in H.
    destruct (negb (i2c =? mk_i2c_address k)); [injection H as <- _ _; left; reflexivity|].
    destruct (negb (Nat.eqb (length wb) 2) || Nat.eqb (length buf) 0)%bool; [injection H as <- _ _; left; reflexivity|].
    destruct (extract_address k wb) as [x|x] eqn:E; [|injection H as <- _ _; left; reflexivity].
    apply extract_ok in E. right.
    destruct (mock_get _ x (length buf)) as [data|e']; [destruct (Nat.eqb (length data) (length buf)); [discriminate|]|];
      injection H as <- _ _; rewrite <- E; reflexivity.
  - intros i2c bytes k1 e H. unfold mock_write in H.
    destruct (negb (i2c =? mk_i2c_address k)); [injection H as <- _; reflexivity|].
    destruct (extract_address k bytes) as [x|x]; [|injection H as <- _; reflexivity].
    destruct (mock_set k x (skipn 2 bytes)) as [k'|e']; [discriminate|injection H as <- _; reflexivity].
Qed.
Print Assumptions C85_refused.

(** ** A concrete case
    Construction, then the log is cleared; a setting and an image follow. *)
Definition cleared_driver : option (driver (FO := ZFO) (B := mock) (ER := mock_error) (EW := mock_error)) :=
  match mock_driver with
  | Some d => Some (with_bus d (Build_world (clear_recent_operations (dev (d_bus d))) (trace (d_bus d))))
  | None => None
  end.
Example C85_concrete :
  match cleared_driver with
  | Some d =>
      recent_operations (dev (d_bus d)) = [] /\
      recent_operations (dev (d_bus (all_happen Debug d [Call (OpSetFrameRate FR_Four); SetDataAvailable true]))) =
        [OperationWrite 0x800D 2; OperationRead 0x800D 2] /\
      firstn 3 (recent_operations (dev (d_bus (all_happen Debug d
        [Call (OpSetFrameRate FR_Four); Call (OpGenerateImage (repeat (0 : F ZFO) 192))])))) =
        [OperationRead 0x05A8 2; OperationRead 0x058A 2; OperationRead 0x05AA 2]
  | None => False
  end.
Proof. vm_compute. repeat split. Qed.
