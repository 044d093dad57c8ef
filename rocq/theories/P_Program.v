(** * C91: the two example programs, from the command line to the bus. *)
From Verif Require Import Base FloatOps Register Bus Camera Cam640 Cam641 Calc BitFacts SpecRegister RegisterFacts
  SpecCamera CameraFacts SpecDriver DriverFacts StepFacts Demo SpecEeprom P_Ee640 P_Ee641 P_Bus P_Usable P_Terminal P_Timing
  FrameRateFacts Dumps Ee640 Ee641 B32 Examples Program Driver.
From Coq Require Import Ascii.
Open Scope Z_scope.

(** What an address looks like on the command line. *)
Definition address_text (s : string) (v : Z) : Prop :=
  v <= 255 /\ ((exists h, s = ("0x" ++ h)%string /\ numeral 16 h v) \/ numeral 10 s v).
(** What a number of frames looks like. *)
Definition count_text (s : string) (v : Z) : Prop := v <= 2 ^ 64 - 1 /\ numeral 10 s v.

Lemma address_number ER EW s :
  (exists v, address_text s v /\ number (ER := ER) (EW := EW) (parse_address s) = Ok v) \/
  ((forall v, ~ address_text s v) /\ number (ER := ER) (EW := EW) (parse_address s) = Err NotANumber).
Proof.
  destruct (C79_address s) as [H [[v E]|E]].
  - left. exists v. split; [apply H; exact E|rewrite E; reflexivity].
  - right. split; [intros v Hv; apply H in Hv; congruence|rewrite E; reflexivity].
Qed.
Lemma count_number ER EW s :
  (exists v, count_text s v /\ number (ER := ER) (EW := EW) (parse_usize s) = Ok v) \/
  ((forall v, ~ count_text s v) /\ number (ER := ER) (EW := EW) (parse_usize s) = Err NotANumber).
Proof.
  assert (H : forall v, parse_usize s = Ok v <-> count_text s v).
  { intros v. unfold count_text. rewrite and_comm. apply parse_uint_spec; [lia|left; reflexivity]. }
  destruct (parse_uint_total (2 ^ 64 - 1) 10 s) as [[v E]|E]; fold (parse_usize s) in E.
  - left. exists v. split; [apply H; exact E|rewrite E; reflexivity].
  - right. split; [intros v Hv; apply H in Hv; congruence|rewrite E; reflexivity].
Qed.

Section Programs.
Context (l : libm) (p : profile) {B ER EW : Type} (bs : bus B ER EW).
Notation FO := (B32 l).
Notation W := (world B ER EW).
Notation driver := (driver (FO := FO) (B := B) (ER := ER) (EW := EW)).
Context (open : string -> option W) (parse_f32 : string -> option f32) (now : W -> Z).
Notation terminal := (terminal_main l p bs open).
Notation rate := (rate_main l p bs open parse_f32 now).
Notation error := (program_error ER EW).
Implicit Types (w : W) (b : option W) (d : driver).

(** The driver of the chosen model, constructed on bus [w] at address [a]. *)
Definition construct (model : string) (w : W) (a : Z) : res (Bus.error ER EW) driver * W :=
  if string_dec model "640" then new bs (calib640_from_i2c FO p bs) 24 1536 w a
  else new bs (calib641_from_i2c FO p bs) 12 384 w a.
Definition known (model : string) : Prop := model = "640"%string \/ model = "641"%string.

(** terminal-temperatures: what is wrong with the command line, the error reported and
    the bus, if one was opened.  A bus that was opened is dropped as it was opened. *)
Inductive terminal_refuses (args : list string) : error -> option W -> Prop :=
| tr_count : length args <> 4%nat -> terminal_refuses args (Message usage_terminal) None
| tr_address : forall prog model path a, args = [prog; model; path; a] -> (forall v, ~ address_text a v) ->
    terminal_refuses args NotANumber None
| tr_bus : forall prog model path a v, args = [prog; model; path; a] -> address_text a v -> open path = None ->
    terminal_refuses args NoBus None
| tr_model : forall prog model path a v w, args = [prog; model; path; a] -> address_text a v -> open path = Some w ->
    ~ known model -> terminal_refuses args (Message wrong_model) (Some w).
Definition terminal_accepts (args : list string) (model : string) (v : Z) (w : W) : Prop :=
  exists prog path a, args = [prog; model; path; a] /\ address_text a v /\ open path = Some w /\ known model.

Lemma construct_cases model w a :
  known model -> construct model w a = (if String.eqb model "640" then new bs (calib640_from_i2c FO p bs) 24 1536 w a
                   else new bs (calib641_from_i2c FO p bs) 12 384 w a).
Proof. unfold construct. intros [-> | ->]; reflexivity. Qed.

(** Every command line is either refused, with the error above, or accepted; then the
    program is exactly what C78 is about, at the address given, on the bus named. *)
Theorem C91_terminal : forall args,
  (exists e b, terminal_refuses args e b /\ terminal args = (Err e, b)) \/
  (exists model v w, terminal_accepts args model v w /\
     terminal args = lift_terminal (terminal_temperatures p bs (construct model w v))).
Proof.
  intros args. unfold terminal_main. destruct (Nat.eqb (length args) 4) eqn:El; cbn [negb].
  2:{ left. eexists _, _. split; [|reflexivity]. apply tr_count. apply Nat.eqb_neq. exact El. }
  apply Nat.eqb_eq in El. destruct args as [|prog [|model [|path [|a [|x args]]]]]; cbn [length] in El; try discriminate El. clear El.
  unfold arg. cbn [nth_error andthen].
  destruct (address_number ER EW a) as [(v & Ha & ->)|(Ha & ->)]; cbn [andthen].
  2:{ left. eexists _, _. split; [|reflexivity]. eapply tr_address; [reflexivity|exact Ha]. }
  destruct (open path) as [w|] eqn:Eo.
  2:{ left. eexists _, _. split; [|reflexivity]. eapply tr_bus; [reflexivity|exact Ha|exact Eo]. }
  cbn [andthen].
  destruct (String.eqb model "640") eqn:E1; [apply String.eqb_eq in E1; subst model|apply String.eqb_neq in E1].
  { right. exists "640"%string, v, w. split; [|reflexivity]. exists prog, path, a. unfold known. auto. }
  destruct (String.eqb model "641") eqn:E2; [apply String.eqb_eq in E2; subst model|apply String.eqb_neq in E2].
  { right. exists "641"%string, v, w. split; [|reflexivity]. exists prog, path, a. unfold known. auto. }
  left. eexists _, _. split; [|reflexivity]. eapply tr_model; [reflexivity|exact Ha|exact Eo|]. intros [H|H]; contradiction.
Qed.

(** true-frame-rate, likewise.  [started] is whether "Starting measurements." was
    printed: for a wrong model it is, as the model is looked at last. *)
Definition rate_arguments (args : list string) (model path a r : string) (n : option string) : Prop :=
  exists prog, args = prog :: model :: path :: a :: r :: match n with Some n => [n] | None => [] end.
Definition count_given (n : option string) (count : option Z) : Prop :=
  match n, count with
  | None, None => True
  | Some s, Some v => count_text s v
  | _, _ => False
  end.
Inductive rate_refuses (args : list string) : error -> option W -> bool -> Prop :=
| rr_count : ~ (5 <= length args <= 6)%nat -> rate_refuses args (Message usage_rate) None false
| rr_address : forall model path a r n, rate_arguments args model path a r n -> (forall v, ~ address_text a v) ->
    rate_refuses args NotANumber None false
| rr_bus : forall model path a r n v, rate_arguments args model path a r n -> address_text a v -> open path = None ->
    rate_refuses args NoBus None false
| rr_rate : forall model path a r n v w, rate_arguments args model path a r n -> address_text a v -> open path = Some w ->
    parse_f32 r = None -> rate_refuses args NotANumber (Some w) false
| rr_frames : forall model path a r s v w, rate_arguments args model path a r (Some s) -> address_text a v -> open path = Some w ->
    (forall k, ~ count_text s k) -> rate_refuses args NotANumber (Some w) false
| rr_model : forall model path a r n v w x count, rate_arguments args model path a r n -> address_text a v -> open path = Some w ->
    parse_f32 r = Some x -> count_given n count -> ~ known model -> rate_refuses args (Message wrong_model) (Some w) true.
Definition rate_accepts (args : list string) (model : string) (v : Z) (w : W) (x : f32) (count : option Z) : Prop :=
  exists path a r n, rate_arguments args model path a r n /\ address_text a v /\ open path = Some w /\
    parse_f32 r = Some x /\ count_given n count /\ known model.

Theorem C91_rate : forall fuel args,
  (exists e b started, rate_refuses args e b started /\ rate fuel args = (Err e, b, started)) \/
  (exists model v w x count, rate_accepts args model v w x count /\
     rate fuel args = (lift_rate (true_frame_rate l bs now (construct model w v) x count fuel), true)).
Proof.
  intros fuel args. unfold rate_main. destruct (Nat.ltb (length args) 5 || Nat.ltb 6 (length args)) eqn:El.
  { left. eexists _, _, _. split; [|reflexivity]. apply rr_count. apply Bool.orb_true_iff in El.
    destruct El as [El|El]; apply Nat.ltb_lt in El; lia. }
  apply Bool.orb_false_iff in El. destruct El as [L1 L2]. apply Nat.ltb_ge in L1. apply Nat.ltb_ge in L2.
  assert (exists model path a r n, rate_arguments args model path a r n) as (model & path & a & r & n & Hargs).
  { destruct args as [|prog [|model [|path [|a [|r rest]]]]]; cbn [length] in L1; try lia.
    destruct rest as [|n rest]; [exists model, path, a, r, None, prog; reflexivity|].
    destruct rest; [|cbn [length] in L2; lia]. exists model, path, a, r, (Some n), prog. reflexivity. }
  pose proof Hargs as (prog & E). clear L1 L2.
  assert (A1 : arg (E := error) args 1 = Ok model) by (rewrite E; reflexivity).
  assert (A2 : arg (E := error) args 2 = Ok path) by (rewrite E; reflexivity).
  assert (A3 : arg (E := error) args 3 = Ok a) by (rewrite E; reflexivity).
  assert (A4 : arg (E := error) args 4 = Ok r) by (rewrite E; reflexivity).
  rewrite A1, A2, A3, A4. cbn [andthen].
  destruct (address_number ER EW a) as [(v & Ha & ->)|(Ha & ->)]; cbn [andthen].
  2:{ left. eexists _, _, _. split; [|reflexivity]. eapply rr_address; eassumption. }
  destruct (open path) as [w|] eqn:Eo.
  2:{ left. eexists _, _, _. split; [|reflexivity]. eapply rr_bus; eassumption. }
  cbn [andthen]. destruct (parse_f32 r) as [x|] eqn:Er.
  2:{ left. eexists _, _, _. split; [|reflexivity]. eapply rr_rate; eassumption. }
  assert (Hc : (exists count, count_given n count /\
                  (if Nat.ltb (length args) 6 then Ok None
                   else do s <- arg args 5; do n0 <- number (ER := ER) (EW := EW) (parse_usize s); Ok (Some n0)) = Ok count) \/
               (exists s, n = Some s /\ (forall k, ~ count_text s k) /\
                  (if Nat.ltb (length args) 6 then Ok None
                   else do s <- arg args 5; do n0 <- number (ER := ER) (EW := EW) (parse_usize s); Ok (Some n0)) = Err NotANumber)).
  { destruct n as [s|].
    - rewrite E. change (Nat.ltb (length (prog :: model :: path :: a :: r :: [s])) 6) with false. cbn match.
      change (arg (E := error) (prog :: model :: path :: a :: r :: [s]) 5) with (Ok (E := error) s). cbn [bind].
      destruct (count_number ER EW s) as [(k & Hk & ->)|(Hk & ->)]; cbn [bind].
      + left. exists (Some k). split; [exact Hk|reflexivity].
      + right. exists s. auto.
    - left. exists None. split; [exact I|]. rewrite E. reflexivity. }
  destruct Hc as [(count & Hc & ->)|(s & -> & Hc & ->)]; cbn [andthen].
  2:{ left. eexists _, _, _. split; [|reflexivity]. eapply rr_frames; eassumption. }
  destruct (String.eqb model "640") eqn:E1; [apply String.eqb_eq in E1; subst model|apply String.eqb_neq in E1].
  { right. exists "640"%string, v, w, x, count. split; [|reflexivity]. exists path, a, r, n. unfold known. auto 8. }
  destruct (String.eqb model "641") eqn:E2; [apply String.eqb_eq in E2; subst model|apply String.eqb_neq in E2].
  { right. exists "641"%string, v, w, x, count. split; [|reflexivity]. exists path, a, r, n. unfold known. auto 8. }
  left. eexists _, _, _. split; [|reflexivity]. eapply rr_model; try eassumption. intros [H|H]; contradiction.
Qed.

(** ** What reaches the bus *)
Definition ram_last (model : string) : Z := if string_dec model "640" then 0x073F else 0x05BF.

Lemma construct_legal model w a r w' : construct model w a = (r, w') ->
  (exists evs, trace w' = trace w ++ evs /\ Forall (legal a (ram_last model)) evs) /\
  forall d ops, r = Ok d ->
    exists evs, trace (d_bus (run p bs d ops)) = trace w ++ evs /\ Forall (legal a (ram_last model)) evs.
Proof.
  unfold construct, ram_last. destruct (string_dec model "640"); intros H.
  - apply (C17_mlx90640 FO p B ER EW bs) in H. exact H.
  - apply (C17_mlx90641 FO p B ER EW bs) in H. exact H.
Qed.

(** The programs' calls are calls of the driver. *)
Lemma pictures_run d r d' : take_pictures p bs d = (r, d') -> exists ops, d' = run p bs d ops.
Proof.
  unfold take_pictures. set (t := repeat (fofZ 0) (drv_height d * drv_width d)).
  destruct (generate_image_if_ready p bs t d) as [[r1 d1] dest1] eqn:G1.
  assert (S1 : d1 = run p bs d [OpGenerateIfReady t]).
  { unfold run, step_state. cbn [fold_left step lifti]. rewrite G1. reflexivity. }
  destruct r1 as [b1|e| |]; intros H; try (exists [OpGenerateIfReady t]; rewrite <- S1; congruence).
  destruct (generate_image_if_ready p bs dest1 d1) as [[r2 d2] dest2] eqn:G2.
  exists [OpGenerateIfReady t; OpGenerateIfReady dest1]. 
  assert (S2 : d2 = run p bs d [OpGenerateIfReady t; OpGenerateIfReady dest1]).
  { change (run p bs d [OpGenerateIfReady t; OpGenerateIfReady dest1]) with (step_state p bs (run p bs d [OpGenerateIfReady t]) (OpGenerateIfReady dest1)).
    rewrite <- S1. unfold step_state. cbn [step lifti]. rewrite G2. reflexivity. }
  rewrite <- S2. congruence.
Qed.
Lemma run_more d ops1 ops2 : run p bs (run p bs d ops1) ops2 = run p bs d (ops1 ++ ops2).
Proof. unfold run. rewrite fold_left_app. reflexivity. Qed.
Lemma last_measured_run d r d' : last_measured_subpage bs d = (r, d') -> d' = run p bs d [OpLastMeasuredSubpage].
Proof. intros H. unfold run, step_state. cbn [fold_left step lift]. rewrite H. destruct r; reflexivity. Qed.
Lemma wait_run : forall fuel s d r d', wait_change bs fuel s d = (r, d') -> exists ops, d' = run p bs d ops.
Proof.
  induction fuel as [|fuel IH]; intros s d r d' H; cbn [wait_change] in H; unfold bindS in H;
    destruct (last_measured_subpage bs d) as [r0 d0] eqn:E; apply last_measured_run in E;
    destruct r0 as [cur| | |]; try (exists [OpLastMeasuredSubpage]; congruence);
    destruct (negb (subpage_eqb cur s)); try (exists [OpLastMeasuredSubpage]; congruence).
  apply IH in H. destruct H as [ops ->]. exists ([OpLastMeasuredSubpage] ++ ops). rewrite E. apply run_more.
Qed.
Lemma collect_run : forall n fuel s results d r d', collect bs now fuel n s results d = (r, d') -> exists ops, d' = run p bs d ops.
Proof.
  induction n as [|n IH]; intros fuel s results d r d' H; cbn [collect] in H.
  - exists []. unfold run. cbn [fold_left]. congruence.
  - unfold bindS in H. destruct (wait_change bs fuel s d) as [r0 d0] eqn:E. apply wait_run in E. destruct E as [ops E].
    destruct r0 as [cur| | |]; try (exists ops; congruence).
    apply IH in H. destruct H as [ops2 ->]. exists (ops ++ ops2). rewrite E. apply run_more.
Qed.
Lemma find_run fuel n d r d' : find_frequency bs now fuel n d = (r, d') -> exists ops, d' = run p bs d ops.
Proof.
  unfold find_frequency, bindS. destruct (last_measured_subpage bs d) as [r0 d0] eqn:E. apply last_measured_run in E.
  intros H. destruct r0 as [cur| | |]; try (exists [OpLastMeasuredSubpage]; congruence).
  apply collect_run in H. destruct H as [ops ->]. exists ([OpLastMeasuredSubpage] ++ ops). rewrite E. apply run_more.
Qed.

Lemma terminal_bus made r w' : terminal_temperatures p bs made = (r, w') ->
  w' = snd made \/ exists d ops, fst made = Ok d /\ w' = d_bus (run p bs d ops).
Proof.
  unfold terminal_temperatures. destruct made as [[d|e| |] w]; cbn [fst snd]; intros H; try (left; congruence).
  destruct (take_pictures p bs d) as [r1 d1] eqn:E. apply pictures_run in E. destruct E as [ops E].
  right. exists d, ops. split; [reflexivity|]. rewrite <- E. congruence.
Qed.
Lemma rate_bus made x count fuel r w' : true_frame_rate l bs now made x count fuel = (r, w') ->
  w' = snd made \/ exists d ops, fst made = Ok d /\ w' = d_bus (run p bs d ops).
Proof.
  unfold true_frame_rate. destruct made as [[d|e| |] w]; cbn [fst snd]; intros H; try (left; congruence).
  right. exists d. destruct (frame_rate_try_from_f32 (FO := FO) x) as [fr|e| |]; try (exists []; split; [reflexivity|unfold run; cbn [fold_left]; congruence]).
  destruct (drv_set_frame_rate bs fr d) as [r1 d1] eqn:E1.
  assert (S1 : d1 = run p bs d [OpSetFrameRate fr]).
  { unfold run, step_state. cbn [fold_left step lift]. rewrite E1. destruct r1; reflexivity. }
  destruct r1 as [u|e| |]; try (exists [OpSetFrameRate fr]; split; [reflexivity|congruence]).
  destruct (find_frequency bs now fuel (Z.to_nat (frame_count x count)) d1) as [r2 d2] eqn:E2.
  apply find_run in E2. destruct E2 as [ops E2]. exists ([OpSetFrameRate fr] ++ ops). split; [reflexivity|].
  rewrite <- run_more, <- S1, <- E2. congruence.
Qed.

(** Whatever the command line, everything the program puts on the bus it opened is a
    transaction C17 allows, addressed to the device named on the command line: reads
    within the camera's memories, writes of the status and control registers. *)
Theorem C91_terminal_traffic : forall args r b, terminal args = (r, b) ->
  forall w', b = Some w' ->
  exists w evs, trace w' = trace w ++ evs /\
    ((evs = [] /\ w' = w /\ exists path, open path = Some w) \/
     exists model v, terminal_accepts args model v w /\ Forall (legal v (ram_last model)) evs).
Proof.
  intros args r b H w' ->. destruct (C91_terminal args) as [(e & b & Hr & E)|(model & v & w & Ha & E)]; rewrite H in E.
  - assert (b = Some w') by congruence. subst b. clear E. remember (Some w') as b eqn:Eb.
    destruct Hr as [| | |prog model path a v w E Hv Ho Hm]; try discriminate Eb. injection Eb as ->.
    exists w', []. split; [rewrite app_nil_r; reflexivity|]. left. eauto.
  - destruct (terminal_temperatures p bs (construct model w v)) as [r1 w1] eqn:E1. unfold lift_terminal in E.
    assert (w1 = w') by congruence. subst w1. apply terminal_bus in E1.
    destruct (construct model w v) as [rc wc] eqn:Ec. cbn [fst snd] in E1.
    destruct (construct_legal _ _ _ _ _ Ec) as [L1 L2].
    destruct E1 as [->|(d & ops & Hd & ->)].
    + destruct L1 as (evs & Ht & Hl). exists w, evs. split; [exact Ht|]. right. exists model, v. auto.
    + destruct (L2 d ops Hd) as (evs & Ht & Hl). exists w, evs. split; [exact Ht|]. right. exists model, v. auto.
Qed.
Theorem C91_rate_traffic : forall fuel args r b started, rate fuel args = (r, b, started) ->
  forall w', b = Some w' ->
  exists w evs, trace w' = trace w ++ evs /\
    ((evs = [] /\ w' = w /\ exists path, open path = Some w) \/
     exists model v x count, rate_accepts args model v w x count /\ Forall (legal v (ram_last model)) evs).
Proof.
  intros fuel args r b started H w' ->. destruct (C91_rate fuel args) as [(e & b & st & Hr & E)|(model & v & w & x & count & Ha & E)]; rewrite H in E.
  - assert (b = Some w') by congruence. subst b. clear E. remember (Some w') as b eqn:Eb.
    assert (G : exists path, open path = Some w') by (destruct Hr; try discriminate Eb; injection Eb as <-; eauto).
    exists w', []. split; [rewrite app_nil_r; reflexivity|]. left. auto.
  - destruct (true_frame_rate l bs now (construct model w v) x count fuel) as [r1 w1] eqn:E1. unfold lift_rate in E.
    assert (w1 = w') by congruence. subst w1. apply rate_bus in E1.
    destruct (construct model w v) as [rc wc] eqn:Ec. cbn [fst snd] in E1.
    destruct (construct_legal _ _ _ _ _ Ec) as [L1 L2].
    destruct E1 as [->|(d & ops & Hd & ->)].
    + destruct L1 as (evs & Ht & Hl). exists w, evs. split; [exact Ht|]. right. exists model, v, x, count. auto.
    + destruct (L2 d ops Hd) as (evs & Ht & Hl). exists w, evs. split; [exact Ht|]. right. exists model, v, x, count. auto.
Qed.
End Programs.
Print Assumptions C91_terminal.
Print Assumptions C91_rate.
Print Assumptions C91_terminal_traffic.
Print Assumptions C91_rate_traffic.

(** ** No panics without overflow checks *)
Lemma new_release FO B ER EW (bs : bus B ER EW) w a :
  fst (new bs (calib640_from_i2c FO Release bs) 24 1536 w a) <> Panic /\
  fst (new bs (calib641_from_i2c FO Release bs) 12 384 w a) <> Panic.
Proof.
  split; intros H.
  - destruct (new bs (calib640_from_i2c FO Release bs) 24 1536 w a) as [r w'] eqn:E. cbn [fst] in H. subst r.
    apply C29_new_640 in E. destruct E as (evs & _ & E). remember Panic as r eqn:Er.
    destruct E as [data e Hl|data e Hl Hb E|data Hl Hb E|data Hl Hb E|data c evs r Hl Hb E Hc]; try discriminate Er.
    + destruct (C45_release_640 FO data (full_of_exact data Hb Hl)) as [c Hc]. rewrite E in Hc. discriminate Hc.
    + subst r. inversion Hc.
  - destruct (new bs (calib641_from_i2c FO Release bs) 12 384 w a) as [r w'] eqn:E. cbn [fst] in H. subst r.
    apply C29_new_641 in E. destruct E as (evs & _ & E). remember Panic as r eqn:Er.
    destruct E as [data e Hl|data e Hl Hb E|data Hl Hb E|data Hl Hb E|data c evs r Hl Hb E Hc]; try discriminate Er.
    + destruct (C45_release_641 FO data (full_of_exact data Hb Hl)) as [[_ [c Hc]]|(i & _ & _ & Hc)]; rewrite E in Hc; discriminate Hc.
    + subst r. inversion Hc.
Qed.
Lemma construct_release l B ER EW (bs : bus B ER EW) model w a :
  fst (construct l Release bs model w a) <> Panic.
Proof. unfold construct. destruct (string_dec model "640"); apply new_release. Qed.
Lemma construct_pictures l B ER EW (bs : bus B ER EW) model w a d w' :
  construct l Release bs model w a = (Ok d, w') -> fst (take_pictures Release bs d) <> Panic.
Proof.
  intros Hd Hp.
  assert (Hn : new bs (calib640_from_i2c (B32 l) Release bs) 24 1536 w a = (Ok d, w') \/
               new bs (calib641_from_i2c (B32 l) Release bs) 12 384 w a = (Ok d, w'))
    by (unfold construct in Hd; destruct (string_dec model "640"); auto).
  unfold take_pictures in Hp. set (t := repeat (fofZ 0) (drv_height d * drv_width d)) in Hp.
  destruct (generate_image_if_ready Release bs t d) as [[r1 d1] dest1] eqn:G1.
  assert (S1 : d1 = run Release bs d [OpGenerateIfReady t]).
  { unfold run, step_state. cbn [fold_left step lifti]. rewrite G1. reflexivity. }
  pose proof (C62_release_never_panics (B32 l) B ER EW bs w a d w' [] (OpGenerateIfReady t) Hn) as N1.
  unfold run in N1. cbn [fold_left step lifti] in N1. rewrite G1 in N1. cbn [fst snd] in N1.
  destruct r1 as [b1|e| |]; cbn [fst] in Hp; try discriminate Hp; [|apply N1; reflexivity].
  destruct (generate_image_if_ready Release bs dest1 d1) as [[r2 d2] dest2] eqn:G2. cbn [fst] in Hp.
  pose proof (C62_release_never_panics (B32 l) B ER EW bs w a d w' [OpGenerateIfReady t] (OpGenerateIfReady dest1) Hn) as N2.
  rewrite <- S1 in N2. cbn [step lifti] in N2. rewrite G2 in N2. cbn [fst] in N2.
  destruct r2 as [b2|e| |]; cbn [bind] in Hp, N2; try discriminate Hp. apply N2. reflexivity.
Qed.

(** terminal-temperatures, built without overflow checks, never panics, whatever the
    command line, the bus and the camera's memory. *)
Theorem C91_terminal_never_panics : forall l B ER EW (bs : bus B ER EW) open args,
  fst (terminal_main l Release bs open args) <> Panic.
Proof.
  intros l B ER EW bs open args Hp.
  destruct (C91_terminal l Release bs open args) as [(e & b & _ & E)|(model & v & w & _ & E)]; rewrite E in Hp; [discriminate Hp|].
  unfold terminal_temperatures in Hp. destruct (construct l Release bs model w v) as [rc wc] eqn:Ec.
  pose proof (construct_release l B ER EW bs model w v) as N. rewrite Ec in N. cbn [fst] in N.
  destruct rc as [d|e| |]; cbn [lift_terminal fst] in Hp; try discriminate Hp; [|apply N; reflexivity].
  pose proof (construct_pictures _ _ _ _ _ _ _ _ _ _ Ec) as N2.
  destruct (take_pictures Release bs d) as [[tw|e| |] d2]; cbn [bind fst] in Hp, N2; try discriminate Hp. apply N2. reflexivity.
Qed.
Print Assumptions C91_terminal_never_panics.

(** true-frame-rate panics only if the command line asks for fewer than two frames (or
    more than 2^32). *)
Theorem C91_rate_panics : forall l B ER EW (bs : bus B ER EW) open parse_f32 now fuel args b started,
  rate_main l Release bs open parse_f32 now fuel args = (Panic, b, started) ->
  exists model v w x n, rate_accepts open parse_f32 args model v w x (Some n) /\ (n < 2 \/ 2 ^ 32 < n).
Proof.
  intros l B ER EW bs open parse_f32 now fuel args b started H.
  destruct (C91_rate l Release bs open parse_f32 now fuel args) as [(e & b' & st & _ & E)|(model & v & w & x & count & Ha & E)];
    rewrite H in E; [discriminate E|].
  destruct (construct l Release bs model w v) as [rc wc] eqn:Ec.
  pose proof (construct_release l B ER EW bs model w v) as N. rewrite Ec in N. cbn [fst] in N.
  destruct (true_frame_rate l bs now (rc, wc) x count fuel) as [r1 w1] eqn:E1. 
  assert (r1 = Panic) by (destruct r1; cbn [lift_rate] in E; congruence). subst r1. clear E.
  destruct rc as [d|e| |]; try (cbn [true_frame_rate] in E1; discriminate E1); [|exfalso; apply N; reflexivity].
  destruct count as [n|]; [|exfalso; apply (C77_default_never_panics l B ER EW bs now d wc x fuel); rewrite E1; reflexivity].
  exists model, v, w, x, n. split; [exact Ha|].
  destruct (Z.le_gt_cases n (2 ^ 32)) as [L|L]; [|right; exact L]. left.
  apply (C77_program l Release) in E1; [|exact L].
  destruct E1 as [(_ & E & _)|(f & _ & [(e & d1 & _ & E & _)|(d1 & rf & d2 & _ & _ & _ & E)])]; try discriminate E.
  destruct rf as [is|e| |]; try discriminate E; [|contradiction]. destruct E as [_ E]. cbn [frame_count] in E.
  destruct (n <? 2) eqn:L2; [apply Z.ltb_lt in L2; exact L2|]. destruct E as (t & _ & E). discriminate E.
Qed.
Print Assumptions C91_rate_panics.

(** ** Concrete command lines *)
Definition any_libm : libm := {| lm_exp2 := fun x => x; lm_powi := fun x _ => x; lm_powf := fun x _ => x |}.
(** One bus, /dev/i2c-1. *)
Definition one_bus (path : string) : option (world unit unit unit) := if String.eqb path "/dev/i2c-1" then Some start else None.
Definition two_only (s : string) : option f32 := if String.eqb s "2" then Some (b_ofZ 2) else None.
(** What is left of a run: the error, the number of transactions on an opened bus. *)
Definition ended {A} (x : res (program_error unit unit) A * option (world unit unit unit)) :=
  (match fst x with Ok _ => None | Err e => Some e | _ => Some NoBus end, match snd x with Some w => Some (length (trace w)) | None => None end).
Example C91_concrete :
  let terminal args := ended (terminal_main any_libm Release (dump_bus datasheet641) one_bus args) in
  let rate args := let '(r, b, s) := rate_main any_libm Release (dump_bus datasheet641) one_bus two_only (fun _ => 0) 3 args in (ended (r, b), s) in
  terminal ["x"; "640"; "/dev/i2c-1"]%string = (Some (Message usage_terminal), None) /\
  terminal ["x"; "999"; "/dev/i2c-2"; "0X33"]%string = (Some NotANumber, None) /\
  terminal ["x"; "999"; "/dev/i2c-2"; "0x33"]%string = (Some NoBus, None) /\
  terminal ["x"; "999"; "/dev/i2c-1"; "0x33"]%string = (Some (Message wrong_model), Some 0%nat) /\
  terminal ["x"; "641"; "/dev/i2c-1"; "51"]%string = (None, Some 4%nat) /\
  rate ["x"; "641"; "/dev/i2c-1"; "51"]%string = (Some (Message usage_rate), None, false) /\
  rate ["x"; "641"; "/dev/i2c-1"; "51"; "two"]%string = (Some NotANumber, Some 0%nat, false) /\
  rate ["x"; "641"; "/dev/i2c-1"; "51"; "2"; "-1"]%string = (Some NotANumber, Some 0%nat, false) /\
  rate ["x"; "642"; "/dev/i2c-1"; "51"; "2"; "7"]%string = (Some (Message wrong_model), Some 0%nat, true).
Proof. vm_compute. repeat split; reflexivity. Qed.
