(** * WearFacts: drivers on cameras that differ in what their EEPROM reads as. *)
From Verif Require Import Base FloatOps Register Bus Camera Cam640 Cam641 Calc Driver BitFacts SpecRegister SpecCamera SpecDriver
  CalcFacts CameraFacts DriverFacts StepFacts SpecReplay StrategyFacts SpecIndep P_Indep SpecWear.

(** ** After construction the EEPROM is not read *)
Section Running.
Context {FO : FloatOps} (p : profile) {B ER EW : Type} (bs : bus B ER EW).
Notation driver := (driver (FO := FO) (B := B) (ER := ER) (EW := EW)).
Implicit Types d : driver.
Notation event := (event ER EW).

Lemma reg_no_eeprom i2c reg data e : reg = status_reg \/ reg = control_reg -> ~ eeprom_read (EvRead i2c reg data e : event).
Proof.
  intros Hr (a & Ha & E). unfold eeprom_address in Ha.
  destruct Hr as [-> | ->]; unfold status_reg, control_reg in E; injection E as E1 E2;
    assert (a = 256 * (a / 256) + a mod 256) by (apply Z.div_mod; lia); lia.
Qed.
Lemma frame_no_eeprom lay sp ap rd i2c data e : (exists c : camera FO, documented c lay) ->
  In rd (frame_reads lay sp ap) -> length data = snd rd ->
  ~ eeprom_read (EvRead i2c [fst rd / 256; fst rd mod 256] data e : event).
Proof.
  intros [c Hd] Hin Hl (a & Ha & E). unfold eeprom_address in Ha. injection E as E1 E2.
  assert (Ea : fst rd = a).
  { rewrite (Z.div_mod a 256), (Z.div_mod (fst rd) 256) by lia. rewrite E1, E2. reflexivity. }
  assert (H : fst rd < 0x0800).
  { unfold frame_reads in Hin. apply in_app_iff in Hin. destruct Hin as [Hin|Hin].
    - destruct Hd; cbn [lay_reads layout640 layout641] in Hin.
      + destruct ap.
        * destruct Hin as [<-|[]]. cbn [fst]. lia.
        * apply in_map_iff in Hin. destruct Hin as (k & <- & Hk). apply in_seq in Hk. cbn [fst].
          destruct sp; cbn [sub]; lia.
      + apply in_map_iff in Hin. destruct Hin as (k & <- & Hk). apply in_seq in Hk. cbn [fst].
        destruct sp; cbn [sub]; lia.
    - apply in_map_iff in Hin. destruct Hin as (x & <- & Hx). cbn [fst].
      unfold lay_scalars in Hx. cbn [In] in Hx.
      destruct Hd; cbn [lay_vbe lay_ptat lay_vdd lay_gain lay_cp layout640 layout641] in *;
        destruct sp; repeat (destruct Hx as [<-|Hx]; [lia|]); contradiction. }
  lia.
Qed.
Lemma good_no_eeprom lay sp ap i2c reads (evs : list event) : (exists c : camera FO, documented c lay) ->
  incl reads (frame_reads lay sp ap) -> Forall2 (good_read i2c) reads evs -> Forall (fun x => ~ eeprom_read x) evs.
Proof.
  intros Hd Hi H. induction H as [|rd ev reads evs H1 H2 IH]; constructor.
  - destruct H1 as (data & -> & Hl). eapply frame_no_eeprom; eauto. apply Hi. left. reflexivity.
  - apply IH. intros x Hx. apply Hi. right. exact Hx.
Qed.
Lemma prim_no_eeprom lay d d' : wf d lay -> prim bs d d' ->
  exists evs, later d d' evs /\ Forall (fun x => ~ eeprom_read x) evs.
Proof.
  intros Hwf H. destruct H as [d r d' H|d r d' H|v d r d' Hv H|v d r d' Hv H|sp d r d' H|d t|d t|d t].
  - apply status_register_spec in H. destruct H as (w' & -> & [(v & _ & Hv & Ht)|(e & x & _ & Hx & Ht)]).
    + eexists. split; [split; [repeat split|exact Ht]|]. constructor; [|constructor]. apply reg_no_eeprom; auto.
    + eexists. split; [split; [repeat split|exact Ht]|]. constructor; [|constructor].
      destruct Hx as (data & -> & Hl). apply reg_no_eeprom; auto.
  - apply control_register_spec in H. destruct H as (w' & [(v & _ & Hv & -> & Ht)|(e & x & _ & Hx & -> & Ht)]).
    + eexists. split; [split; [repeat split|exact Ht]|]. constructor; [|constructor]. apply reg_no_eeprom; auto.
    + eexists. split; [split; [repeat split|exact Ht]|]. constructor; [|constructor].
      destruct Hx as (data & -> & Hl). apply reg_no_eeprom; auto.
  - apply set_status_register_spec in H. destruct H as (w' & e & -> & Ht & _).
    eexists. split; [split; [repeat split|exact Ht]|]. constructor; [|constructor]. intros [].
  - apply set_control_register_spec in H; [|exact Hv]. destruct H as (w' & e & -> & Ht & _).
    eexists. split; [split; [repeat split|exact Ht]|]. constructor; [|constructor]. intros [].
  - apply (frame_cases bs lay) in H; [|exact Hwf]. destruct H as (w' & buf' & evs & -> & Hl & Ht & Hc).
    exists evs. split; [split; [repeat split; exact Hl|exact Ht]|].
    assert (Hdoc : exists c : camera FO, documented c lay) by (eexists; apply Hwf).
    destruct Hc as [(ram & _ & Hc)|[(e & _ & Ha)|(_ & _ & Ha)]].
    + eapply good_no_eeprom; [exact Hdoc|apply incl_refl|exact Hc].
    + destruct Ha as (pre & rd & post & good & bad & E & -> & Hg & data & -> & Hdl).
      assert (Hi : incl (pre ++ rd :: post) (frame_reads lay sp (d_access_pattern d))) by (rewrite E; apply incl_refl).
      apply Forall_app. split.
      * eapply good_no_eeprom; [exact Hdoc| |exact Hg]. intros x Hx. apply Hi, in_app_iff. auto.
      * constructor; [|constructor]. eapply frame_no_eeprom; [exact Hdoc| |exact Hdl].
        apply Hi, in_app_iff. right. left. reflexivity.
    + destruct Ha as (pre & rd & post & E & Hg). eapply good_no_eeprom; [exact Hdoc| |exact Hg].
      intros x Hx. unfold frame_reads. apply in_app_iff. left. rewrite E. apply in_app_iff. auto.
  - exists []. split; [split; [repeat split|cbn; rewrite app_nil_r; reflexivity]|constructor].
  - exists []. split; [split; [repeat split|cbn; rewrite app_nil_r; reflexivity]|constructor].
  - exists []. split; [split; [repeat split|cbn; rewrite app_nil_r; reflexivity]|constructor].
Qed.
Lemma run_no_eeprom lay d ops : wf d lay ->
  exists evs, trace (d_bus (run p bs d ops)) = trace (d_bus d) ++ evs /\ Forall (fun x => ~ eeprom_read x) evs.
Proof.
  intros Hwf.
  assert (G : forall d d', prims bs d d' -> wf d lay -> exists evs, later d d' evs /\ Forall (fun x => ~ eeprom_read x) evs).
  { clear. intros d d' H. induction H as [d|d d1 d2 H1 H2 IH]; intros Hwf.
    - exists []. split; [split; [repeat split|rewrite app_nil_r; reflexivity]|constructor].
    - destruct (prim_no_eeprom lay d d1 Hwf H1) as (e1 & L1 & F1).
      assert (Hwf1 : wf d1 lay) by (eapply same_config_wf; [apply L1|exact Hwf]).
      destruct (IH Hwf1) as (e2 & L2 & F2). exists (e1 ++ e2).
      split; [eapply later_trans; eassumption|]. apply Forall_app. split; assumption. }
  destruct (G d _ (run_prims p bs ops d) Hwf) as (evs & [_ Ht] & F). exists evs. auto.
Qed.
End Running.

(** ** A computation that does not read the EEPROM does the same on either camera *)
Lemma uniform_worn {ER EW} a X (Q : X -> Prop) (f : comp (ER := ER) (EW := EW) X) : uniform a Q f ->
  forall B (bs bs' : bus B ER EW) w w2 x w1 evs, same_but_eeprom bs bs' -> dev w2 = dev w ->
  f B bs w = (x, w1) -> trace w1 = trace w ++ evs -> Forall (fun x => ~ eeprom_read x) evs ->
  exists w3, f B bs' w2 = (x, w3) /\ dev w3 = dev w1 /\ trace w3 = trace w2 ++ evs.
Proof.
  intros Hu B bs bs' w w2 x w1 evs Hs. revert w w2 x w1 evs.
  assert (Mono : forall f : comp X, uniform a Q f -> forall w x w1, f B bs w = (x, w1) -> exists evs, trace w1 = trace w ++ evs).
  { clear. intros f Hu. induction Hu as [x Hx|wb buf k Hb _ IH|bytes k _ IH|f g E _ IH]; intros w x0 w1 H.
    - injection H as _ <-. exists []. rewrite app_nil_r. reflexivity.
    - unfold write_read in H. destruct (dev_write_read bs (dev w) a wb buf) as [[b out] e].
      destruct (IH (clip buf out) e (clip_bytes buf out Hb) (clip_length buf out) _ _ _ H) as [evs Ht]. cbn [trace] in Ht.
      eexists. rewrite Ht, <- app_assoc. reflexivity.
    - unfold bus_write in H. destruct (dev_write bs (dev w) a bytes) as [b e].
      destruct (IH e _ _ _ H) as [evs Ht]. cbn [trace] in Ht. eexists. rewrite Ht, <- app_assoc. reflexivity.
    - rewrite <- E in H. eapply IH. exact H. }
  induction Hu as [x Hx|wb buf k Hb Hk IH|bytes k Hk IH|f g E _ IH]; intros w w2 x0 w1 evs Hd H Ht Hf.
  - injection H as <- <-. exists w2. split; [reflexivity|]. split; [exact Hd|].
    assert (evs = []) as -> by (apply (app_inv_head (trace w)); rewrite app_nil_r; congruence). rewrite app_nil_r. reflexivity.
  - unfold write_read in *. rewrite Hd. destruct (dev_write_read bs (dev w) a wb buf) as [[b out] e] eqn:Ed.
    pose proof (clip_bytes buf out Hb) as Hcb. pose proof (clip_length buf out) as Hcl.
    destruct (Mono _ (Hk _ e Hcb Hcl) _ _ _ H) as [evs1 Ht1]. cbn [trace] in Ht1.
    assert (Ee : evs = EvRead a wb (clip buf out) e :: evs1).
    { apply (app_inv_head (trace w)). rewrite <- Ht, Ht1, <- app_assoc. reflexivity. }
    subst evs. inversion Hf as [|? ? Hx Hf1]; subst. cbn [eeprom_read] in Hx.
    rewrite (sb_read _ _ Hs) by exact Hx. rewrite Ed.
    destruct (IH (clip buf out) e Hcb Hcl (Build_world b (trace w ++ [EvRead a wb (clip buf out) e])) (Build_world b (trace w2 ++ [EvRead a wb (clip buf out) e])) _ _ evs1 eq_refl H Ht1 Hf1)
      as (w3 & E3 & D3 & T3).
    exists w3. split; [exact E3|]. split; [exact D3|]. rewrite T3. cbn [trace]. rewrite <- app_assoc. reflexivity.
  - unfold bus_write in *. rewrite Hd, (sb_write _ _ Hs). destruct (dev_write bs (dev w) a bytes) as [b e] eqn:Ed.
    destruct (Mono _ (Hk e) _ _ _ H) as [evs1 Ht1]. cbn [trace] in Ht1.
    assert (Ee : evs = EvWrite a bytes e :: evs1).
    { apply (app_inv_head (trace w)). rewrite <- Ht, Ht1, <- app_assoc. reflexivity. }
    subst evs. inversion Hf as [|? ? Hx Hf1]; subst.
    destruct (IH e (Build_world b (trace w ++ [EvWrite a bytes e])) (Build_world b (trace w2 ++ [EvWrite a bytes e])) _ _ evs1 eq_refl H Ht1 Hf1) as (w3 & E3 & D3 & T3).
    exists w3. split; [exact E3|]. split; [exact D3|]. rewrite T3. cbn [trace]. rewrite <- app_assoc. reflexivity.
  - rewrite <- E in H. destruct (IH w w2 x0 w1 evs Hd H Ht Hf) as (w3 & E3 & G). exists w3. split; [rewrite <- E; exact E3|exact G].
Qed.
