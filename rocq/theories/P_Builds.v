(** * P_Builds (C111): a debug build and a release build do the same thing, unless the debug build stops at an overflow.
    "Debug" and "Release" are the two build profiles of Base: with and without overflow checks.  Nothing is assumed
    here of the EEPROM contents (any list of numbers, of any length), the bus, the frames or the driver's state. *)
From Verif Require Import Base FloatOps Register Bus Camera Cam640 Cam641 Calc Ee640 Ee641 LowLevel B32 Examples Program.
From Verif Require Import SpecDriver SpecCall P_Bus StepFacts TraceFacts Demo Dumps P_Ee640 P_Calc.
From Verif Require Import Driver.
Open Scope Z_scope.

(** What the property says of two results of the same computation: [r] of the debug build, [r'] of the release build *)
Definition same_unless_panic {E A} (r r' : res E A) : Prop := r = Panic \/ r = r'.

(** ** Composition *)
Lemma su_refl : forall {E A} (r : res E A), same_unless_panic r r. Proof. intros. right. reflexivity. Qed.
Lemma su_bind : forall {E A C} (r r' : res E A) (k k' : A -> res E C),
  same_unless_panic r r' -> (forall a, same_unless_panic (k a) (k' a)) -> same_unless_panic (bind r k) (bind r' k').
Proof. intros E A C r r' k k' [-> | ->] Hk; [left; reflexivity|]. destruct r'; cbn [bind]; [apply Hk|right; reflexivity..]. Qed.
Lemma su_map_err : forall {E E' A} (f : E -> E') (r r' : res E A),
  same_unless_panic r r' -> same_unless_panic (map_err f r) (map_err f r').
Proof. intros E E' A f r r' [-> | ->]; [left|right]; reflexivity. Qed.
Lemma su_expect : forall {E E' A} (r r' : res E A),
  same_unless_panic r r' -> same_unless_panic (expect (E' := E') r) (expect r').
Proof. intros E E' A r r' [-> | ->]; [left|right]; reflexivity. Qed.
Lemma su_chk : forall {E} z, same_unless_panic (chk_i16 (E := E) Debug z) (chk_i16 Release z).
Proof. intros E z. unfold chk_i16. destruct (in_i16 z); [right|left]; reflexivity. Qed.
Lemma su_sequence : forall {E A X} (f f' : X -> res E A) xs,
  (forall x, same_unless_panic (f x) (f' x)) -> same_unless_panic (sequence (map f xs)) (sequence (map f' xs)).
Proof.
  intros E A X f f' xs H. induction xs as [|x xs IH]; [apply su_refl|]. cbn [map sequence].
  apply su_bind; [apply H|]. intros a. apply su_bind; [exact IH|]. intros t. apply su_refl.
Qed.

(** The same for readers of a byte buffer *)
Definition reads_same {A} (m m' : parser A) : Prop := forall b, same_unless_panic (m b) (m' b).
Lemma rs_refl : forall {A} (m : parser A), reads_same m m. Proof. intros A m b. apply su_refl. Qed.
Lemma rs_bind : forall {A C} (m m' : parser A) (k k' : A -> parser C),
  reads_same m m' -> (forall a, reads_same (k a) (k' a)) -> reads_same (pbind m k) (pbind m' k').
Proof.
  intros A C m m' k k' Hm Hk b. unfold pbind. destruct (Hm b) as [-> | ->]; [left; reflexivity|].
  destruct (m' b) as [[a b']| | |]; [apply Hk|right; reflexivity..].
Qed.
Lemma rs_lift : forall {A} (r r' : res lib_error A), same_unless_panic r r' -> reads_same (plift r) (plift r').
Proof. intros A r r' [-> | ->] b; [left|right]; reflexivity. Qed.

(** Steps that are literally the same *)
Ltac rs_id := match goal with |- reads_same ?m ?m' => constr_eq m m'; exact (rs_refl m) end.
Ltac su_id := match goal with |- same_unless_panic ?m ?m' => constr_eq m m'; exact (su_refl m) end.
Ltac open_pairs := repeat match goal with x : (_ * _)%type |- _ => destruct x end; cbv beta iota zeta.

Section Decoding.
Context (FO : FloatOps).

Lemma alpha_corr_n_same : forall fuel n b ct kst,
  same_unless_panic (alpha_corr_n FO fuel Debug n b ct kst) (alpha_corr_n FO fuel Release n b ct kst).
Proof.
  induction fuel as [|fuel IH]; intros n b ct kst; [apply su_refl|]. cbn [alpha_corr_n].
  destruct (Nat.compare n b); [apply su_refl| |];
    (apply su_bind; [apply su_refl|intros k]; apply su_bind; [apply su_refl|intros c1]; apply su_bind; [apply su_refl|intros c0];
     apply su_bind; [apply su_chk|intros e]; apply su_bind; [apply IH|intros r]; apply su_refl).
Qed.
Lemma alpha_correction_same : forall n b ct kst,
  same_unless_panic (alpha_correction_coefficients FO Debug n b ct kst) (alpha_correction_coefficients FO Release n b ct kst).
Proof. intros n b ct kst. unfold alpha_correction_coefficients. apply su_sequence. intros i. apply alpha_corr_n_same. Qed.

Lemma add_row_offsets_same : forall scale n rows, (length rows <= n)%nat ->
  reads_same (add_row_offsets Debug scale rows) (add_row_offsets Release scale rows).
Proof.
  intros scale n. induction n as [|n IH]; intros rows Hn.
  - destruct rows; [apply rs_refl|cbn in Hn; lia].
  - destruct rows as [|r0 [|r1 [|r2 [|r3 rest]]]]; try apply rs_refl. cbn [add_row_offsets].
    apply rs_bind; [apply rs_refl|]. intros [[[c0 c1] c2] c3]. cbv zeta. apply rs_bind.
    + apply rs_lift, su_sequence. intros [row c]. apply su_sequence. intros e. apply su_chk.
    + intros new. apply rs_bind; [apply IH; cbn [length] in Hn; lia|]. intros rest'. apply rs_refl.
Qed.
Lemma add_columns_same : forall start cs row,
  same_unless_panic (add_columns_to_row Debug start cs row) (add_columns_to_row Release start cs row).
Proof.
  intros start cs row. unfold add_columns_to_row. apply su_bind; [|intros; apply su_refl].
  apply su_sequence. intros [e c]. apply su_chk.
Qed.
Lemma add_column_offsets_same : forall n ix scale rows,
  reads_same (add_column_offsets Debug n ix scale rows) (add_column_offsets Release n ix scale rows).
Proof.
  induction n as [|n IH]; intros ix scale rows; [apply rs_refl|]. cbn [add_column_offsets].
  apply rs_bind; [apply rs_refl|]. intros [[[c0 c1] c2] c3]. cbv zeta. apply rs_bind.
  - apply rs_lift, su_sequence. intros row. apply add_columns_same.
  - intros rows'. apply IH.
Qed.
Lemma bulk_same : reads_same (calculate_bulk_pixel_calibration Debug) (calculate_bulk_pixel_calibration Release).
Proof.
  unfold calculate_bulk_pixel_calibration. apply rs_bind; [apply rs_refl|]. intros [[[e rsc] csc] rem].
  apply rs_bind; [apply rs_refl|]. intros avg.
  apply rs_bind; [eapply add_row_offsets_same, Nat.le_refl|]. intros rows.
  apply rs_bind; [apply add_column_offsets_same|]. intros rows'. apply rs_refl.
Qed.
Lemma pixel_step_same : forall ors ars k2 a k1 offset alpha rc,
  reads_same (pixel_step FO Debug ors ars k2 a k1 offset alpha rc) (pixel_step FO Release ors ars k2 a k1 offset alpha rc).
Proof.
  intros. unfold pixel_step. apply rs_bind; [apply rs_refl|]. intros high. apply rs_bind; [apply rs_refl|]. intros low.
  destruct ((high =? 0) && (low =? 0)); [apply rs_refl|]. cbv zeta.
  apply rs_bind; [apply rs_lift, su_chk|]. intros o'. apply rs_bind; [apply rs_lift, su_chk|]. intros s. apply rs_refl.
Qed.
Lemma pixel_loop_same : forall ors ars k2 a k1 items,
  reads_same (pixel_loop FO Debug ors ars k2 a k1 items) (pixel_loop FO Release ors ars k2 a k1 items).
Proof.
  intros ors ars k2 a k1 items. induction items as [|[[offset alpha] rc] items IH]; [apply rs_refl|]. cbn [pixel_loop].
  apply rs_bind; [apply pixel_step_same|]. intros px. apply rs_bind; [exact IH|]. intros t. apply rs_refl.
Qed.
Lemma parse640_same : reads_same (parse640 FO Debug) (parse640 FO Release).
Proof.
  unfold parse640.
  repeat first
    [ rs_id
    | apply rs_bind; [first [rs_id|apply bulk_same|apply pixel_loop_same|apply rs_lift, alpha_correction_same|apply rs_lift, su_chk]|];
      let a := fresh "a" in intros a;
      open_pairs ].
Qed.

(** Decoding an EEPROM dump *)
Theorem C111_decoding_640 : forall data,
  from_data640 FO Debug data = Panic \/ from_data640 FO Debug data = from_data640 FO Release data.
Proof.
  intros data. unfold from_data640. destruct (Z.of_nat (length data) <? EE640_End - EE640_Base); [right; reflexivity|].
  apply (su_bind (parse640 FO Debug data) (parse640 FO Release data)); [apply parse640_same|]. intros [c b]. apply su_refl.
Qed.
Print Assumptions C111_decoding_640.

Lemma pixel641_same : forall os oa ka va kts1 kts2 kvs1 kvs2 raw ar,
  same_unless_panic (pixel641_step FO Debug os oa ka va kts1 kts2 kvs1 kvs2 raw ar)
                    (pixel641_step FO Release os oa ka va kts1 kts2 kvs1 kvs2 raw ar).
Proof.
  intros. destruct raw as [[[[o0 o1] a] ka'] kv']. cbn [pixel641_step].
  destruct (_ && _); [apply su_refl|].
  repeat (apply su_bind; [apply su_chk|intros ?]). apply su_refl.
Qed.
Lemma per_pixel_same : forall data,
  same_unless_panic (per_pixel_from_data FO Debug data) (per_pixel_from_data FO Release data).
Proof.
  intros data. unfold per_pixel_from_data. apply su_bind.
  - match goal with |- same_unless_panic (?m data) (?m' data) => cut (reads_same m m'); [intros H; apply H|] end.
    repeat first
      [ rs_id
      | apply rs_bind; [first [rs_id|apply rs_lift, su_chk]|];
        let a := fresh "a" in intros a;
        open_pairs ].
  - intros [hdr b]. repeat match goal with x : (_ * _)%type |- _ => destruct x end. cbv zeta.
    do 4 (apply su_bind; [apply su_refl|intros ?]).
    apply su_bind; [|intros ?; apply su_refl].
    apply su_sequence. intros [[[[o0 o1] s] c] ar]. apply su_bind; [apply su_refl|]. intros raw. apply pixel641_same.
Qed.
Theorem C111_decoding_641 : forall data,
  from_data641 FO Debug data = Panic \/ from_data641 FO Debug data = from_data641 FO Release data.
Proof.
  intros data. unfold from_data641. apply (su_bind (E := lib_error)).
  - match goal with |- same_unless_panic (?m data) (?m' data) => cut (reads_same m m'); [intros H; apply H|] end.
    repeat first
      [ rs_id
      | apply rs_bind; [first [rs_id|apply rs_lift, alpha_correction_same]|];
        let a := fresh "a" in intros a;
        open_pairs ].
  - intros [mk b]. apply su_bind; [apply per_pixel_same|]. intros pixels. apply su_refl.
Qed.
Print Assumptions C111_decoding_641.
End Decoding.

(** ** The driver *)
Section Calls.
Context {FO : FloatOps} {B ER EW : Type} (bs : bus B ER EW).
Notation F := (F FO).
Notation W := (world B ER EW).
Notation err := (error ER EW).
Notation driver := (driver (FO := FO) (B := B) (ER := ER) (EW := EW)).
Implicit Types d : driver.

(** A computation with the bus in its second component: the two builds give the same, or the debug build stops and
    what it has done on the bus so far is a beginning of what the release build does *)
Definition same_or_stopped {A} (x x' : res err A * W) : Prop :=
  x = x' \/ (fst x = Panic /\ exists later, trace (snd x') = trace (snd x) ++ later).

(** Construction, for both cameras *)
Lemma new_same : forall (f f' : Z -> W -> res err (calib FO) * W) h n w a,
  same_or_stopped (f a w) (f' a w) -> same_or_stopped (new bs f h n w a) (new bs f' h n w a).
Proof.
  intros f f' h n w a [E|[E (later & T)]]; unfold new, same_or_stopped.
  - left. rewrite E. reflexivity.
  - right. destruct (f a w) as [r w1], (f' a w) as [r' w1']. cbn [fst snd] in E, T. subst r.
    destruct r' as [c| | |]; cbn [fst snd]; (split; [reflexivity|]); try (exists later; exact T).
    unfold new_with_calibration, read_register, write_read.
    destruct (dev_write_read bs (dev w1') a (to_be_bytes CONTROL_ADDRESS) [0; 0]) as [[b out] e]. cbv zeta.
    destruct e; cbn [snd trace]; rewrite T, <- app_assoc; eexists; reflexivity.
Qed.
Lemma from_i2c_640_same : forall a w,
  same_or_stopped (calib640_from_i2c FO Debug bs a w) (calib640_from_i2c FO Release bs a w).
Proof.
  intros a w. unfold calib640_from_i2c.
  destruct (write_read bs a (to_be_bytes EE640_Base) (repeat 0 EEPROM_LENGTH) w) as [[data e] w'].
  destruct e; [left; reflexivity|].
  destruct (C111_decoding_640 FO data) as [E|E]; rewrite E; [right|left; reflexivity].
  split; [reflexivity|]. exists []. cbn [snd]. symmetry. apply app_nil_r.
Qed.
Lemma from_i2c_641_same : forall a w,
  same_or_stopped (calib641_from_i2c FO Debug bs a w) (calib641_from_i2c FO Release bs a w).
Proof.
  intros a w. unfold calib641_from_i2c. cbv zeta.
  destruct (write_read bs a (to_be_bytes EE641_Base) (repeat 0 (Z.to_nat ((EE641_End - EE641_Base + 1) * 2))) w) as [[data e] w'].
  destruct e; [left; reflexivity|].
  destruct (C111_decoding_641 FO data) as [E|E]; rewrite E; [right|left; reflexivity].
  split; [reflexivity|]. exists []. cbn [snd]. symmetry. apply app_nil_r.
Qed.
Theorem C111_new : forall h n w a,
  same_or_stopped (new bs (calib640_from_i2c FO Debug bs) h n w a) (new bs (calib640_from_i2c FO Release bs) h n w a) /\
  same_or_stopped (new bs (calib641_from_i2c FO Debug bs) h n w a) (new bs (calib641_from_i2c FO Release bs) h n w a).
Proof. intros h n w a. split; apply new_same; [apply from_i2c_640_same|apply from_i2c_641_same]. Qed.

(** A call of the debug build that stops: the destination is as it was, so is the stored ambient temperature and
    every setting; only the frame was read *)
Definition stopped d (dd : driver) (dest dest' : list F) : Prop :=
  dest' = dest /\ drv_ambient_temperature dd = drv_ambient_temperature d /\
  effective_emissivity dd = effective_emissivity d /\ reflected_temperature dd = reflected_temperature d /\
  d_calibration dd = d_calibration d /\ d_resolution_correction dd = d_resolution_correction d /\
  d_access_pattern dd = d_access_pattern d /\ d_address dd = d_address d.

Lemma common_same : forall rc e c ram,
  same_unless_panic (common_new (E := err) Debug rc e c ram) (common_new (FO := FO) Release rc e c ram).
Proof.
  intros. unfold common_new. apply su_bind; [|intros; apply su_refl]. unfold delta_v.
  apply su_bind; [apply su_chk|]. intros. apply su_refl.
Qed.
Lemma calc_ir_same : forall d ram sp dest,
  same_unless_panic (calc_ir Debug d ram sp dest) (calc_ir Release d ram sp dest).
Proof. intros. unfold calc_ir, raw_pixels_to_ir_data. apply su_bind; [apply common_same|]. intros. apply su_refl. Qed.
Lemma calc_temperatures_same : forall d ram sp dest,
  same_unless_panic (calc_temperatures Debug d ram sp dest) (calc_temperatures Release d ram sp dest).
Proof. intros. unfold calc_temperatures, raw_pixels_to_temperatures. apply su_bind; [apply common_same|]. intros. apply su_refl. Qed.

(** The four image methods *)
Definition image_same d {A} (dest : list F) (x x' : mi (B := B) (ER := ER) (EW := EW) A) : Prop :=
  x = x' \/
  (fst (fst x) = Panic /\ stopped d (snd (fst x)) dest (snd x) /\
   exists later, trace (d_bus (snd (fst x'))) = trace (d_bus (snd (fst x))) ++ later).
Lemma image_same_from : forall d0 d {A} dest (x x' : mi A),
  stopped d0 d dest dest -> image_same d dest x x' -> image_same d0 dest x x'.
Proof.
  intros d0 d A dest x x' S [E|(Hp & T & Hl)]; [left; exact E|right]. split; [exact Hp|]. split; [|exact Hl].
  unfold stopped in *. intuition congruence.
Qed.
Lemma store_same : forall {A} (r r' : res err (F * list F)) d dest (k : driver -> list F -> mi A),
  (forall d1 dest1, exists later, trace (d_bus (snd (fst (k d1 dest1)))) = trace (d_bus d1) ++ later) ->
  same_unless_panic r r' -> image_same d dest (store_image r d dest k) (store_image r' d dest k).
Proof.
  intros A r r' d dest k Hk [-> | ->]; [right|left; reflexivity]. cbn [store_image fst snd].
  split; [reflexivity|]. split; [repeat split|].
  destruct r' as [[t dest']| | |]; cbn [store_image fst snd]; [|exists []; symmetry; apply app_nil_r..].
  destruct (Hk (with_ambient d (Some t)) dest') as [later E]. exists later. exact E.
Qed.
Lemma read_ram_keeps : forall sp d r d1 dest, drv_read_ram bs sp d = (r, d1) -> stopped d d1 dest dest.
Proof.
  intros sp d r d1 dest H. unfold drv_read_ram in H.
  destruct (read_ram _ _ _ _ _ _ _ _) as [[r0 buf] w']. apply (f_equal snd) in H. cbn [snd] in H. subst d1.
  repeat split.
Qed.
Lemma status_keeps : forall d r d1 dest, status_register_ bs d = (r, d1) -> stopped d d1 dest dest.
Proof.
  intros d r d1 dest H. unfold status_register_ in H. destruct (read_register _ _ _ _) as [r0 w'].
  apply (f_equal snd) in H. cbn [snd] in H. subst d1. repeat split.
Qed.
Lemma raw_same : forall sp dest d,
  image_same d dest (generate_raw_image_subpage_to Debug bs sp dest d) (generate_raw_image_subpage_to Release bs sp dest d).
Proof.
  intros sp dest d. unfold generate_raw_image_subpage_to.
  destruct (drv_read_ram bs sp d) as [r d1] eqn:E. destruct r as [ram| | |]; try (left; reflexivity).
  apply (image_same_from d d1); [exact (read_ram_keeps _ _ _ _ _ E)|].
  apply store_same; [|apply calc_ir_same]. intros d2 dest2. exists []. symmetry. apply app_nil_r.
Qed.
Lemma subpage_same : forall sp dest d,
  image_same d dest (generate_image_subpage_to Debug bs sp dest d) (generate_image_subpage_to Release bs sp dest d).
Proof.
  intros sp dest d. unfold generate_image_subpage_to.
  destruct (drv_read_ram bs sp d) as [r d1] eqn:E. destruct r as [ram| | |]; try (left; reflexivity).
  apply (image_same_from d d1); [exact (read_ram_keeps _ _ _ _ _ E)|].
  apply store_same; [|apply calc_temperatures_same]. intros d2 dest2. exists []. symmetry. apply app_nil_r.
Qed.
Lemma image_same_ : forall dest d,
  image_same d dest (generate_image_to Debug bs dest d) (generate_image_to Release bs dest d).
Proof.
  intros dest d. unfold generate_image_to, last_measured_subpage.
  destruct (status_register_ bs d) as [r d1] eqn:E. destruct r as [s| | |]; cbn [bindS]; try (left; reflexivity).
  unfold pure. destruct (last_updated_subpage s) as [sp| | |]; try (left; reflexivity).
  apply (image_same_from d d1); [exact (status_keeps _ _ _ _ E)|]. apply subpage_same.
Qed.
Lemma if_ready_same : forall dest d,
  image_same d dest (generate_image_if_ready Debug bs dest d) (generate_image_if_ready Release bs dest d).
Proof.
  intros dest d. unfold generate_image_if_ready.
  destruct (status_register_ bs d) as [r d1] eqn:E. destruct r as [s| | |]; try (left; reflexivity).
  destruct (new_data s); [|left; reflexivity].
  destruct (last_updated_subpage (E := err) s) as [sp| | |]; try (left; reflexivity).
  destruct (drv_read_ram bs sp d1) as [r2 d2] eqn:E2. destruct r2 as [ram| | |]; try (left; reflexivity).
  apply (image_same_from d d1); [exact (status_keeps _ _ _ _ E)|].
  apply (image_same_from d1 d2); [exact (read_ram_keeps _ _ _ _ _ E2)|].
  apply store_same; [|apply calc_temperatures_same]. intros d3 dest3.
  unfold set_status_register, write_register, bus_write.
  destruct (dev_write bs (dev (d_bus d3)) (d_address d3) (to_be_bytes STATUS_ADDRESS ++ to_be_bytes (reset_new_data s))) as [b e].
  destruct e; cbn [fst snd d_bus with_bus trace]; eexists; reflexivity.
Qed.

(** Every call *)
Theorem C111_call : forall d (o : op),
  step Debug bs d o = step Release bs d o \/
  (exists dest, destination o = Some dest /\ step_out Debug bs d o = Panic /\
     stopped d (step_state Debug bs d o) dest (snd (step Debug bs d o)) /\
     exists later, trace (d_bus (step_state Release bs d o)) = trace (d_bus (step_state Debug bs d o)) ++ later).
Proof.
  intros d o.
  assert (L : forall {A} (g : A -> out) (x x' : mi A) dest, destination o = Some dest ->
     step Debug bs d o = lifti g x -> step Release bs d o = lifti g x' -> image_same d dest x x' ->
     step Debug bs d o = step Release bs d o \/
     (exists dest, destination o = Some dest /\ step_out Debug bs d o = Panic /\
        stopped d (step_state Debug bs d o) dest (snd (step Debug bs d o)) /\
        exists later, trace (d_bus (step_state Release bs d o)) = trace (d_bus (step_state Debug bs d o)) ++ later)).
  { intros A g x x' dest Hd E E' [H|(Hp & Hs & Hl)]; [left; rewrite E, E', H; reflexivity|right].
    exists dest. split; [exact Hd|]. unfold step_out, step_state. rewrite E, E'.
    destruct x as [[r d1] dest1], x' as [[r' d1'] dest1']. cbn [fst snd] in *. subst r. cbn [lifti fst snd bind].
    split; [reflexivity|]. split; [exact Hs|exact Hl]. }
  destruct o; try (left; reflexivity).
  - eapply L; [reflexivity|reflexivity|reflexivity|apply raw_same].
  - eapply L; [reflexivity|reflexivity|reflexivity|apply subpage_same].
  - eapply L; [reflexivity|reflexivity|reflexivity|apply image_same_].
  - eapply L; [reflexivity|reflexivity|reflexivity|apply if_ready_same].
Qed.
Print Assumptions C111_call.

(** Any history: what each call returns, the destination it leaves, and the driver at the end *)
Fixpoint results (p : profile) d (ops : list op) : list (res err out * list F) :=
  match ops with
  | [] => []
  | o :: rest => let '(r, d', dest') := step p bs d o in (r, dest') :: results p d' rest
  end.
Theorem C111_run : forall (ops : list op) d,
  (results Debug d ops = results Release d ops /\ run Debug bs d ops = run Release bs d ops) \/
  (exists before o after, ops = before ++ o :: after /\
     results Debug d before = results Release d before /\ run Debug bs d before = run Release bs d before /\
     step_out Debug bs (run Debug bs d before) o = Panic).
Proof.
  induction ops as [|o ops IH]; intros d; [left; split; reflexivity|].
  destruct (C111_call d o) as [E|(dest & _ & Hp & _)].
  - cbn [results]. unfold run in *. cbn [fold_left]. unfold step_state at 2 4. rewrite <- E.
    destruct (step Debug bs d o) as [[r d'] dest'] eqn:Es. cbn [fst snd].
    destruct (IH d') as [[H1 H2]|(before & o' & after & -> & H1 & H2 & H3)].
    + left. split; [rewrite H1; reflexivity|exact H2].
    + right. exists (o :: before), o', after. split; [reflexivity|]. cbn [results fold_left].
      unfold step_state at 2 4 6. rewrite <- E, Es. cbn [fst snd].
      split; [rewrite H1; reflexivity|]. split; [exact H2|exact H3].
  - right. exists [], o, ops. split; [reflexivity|]. split; [reflexivity|]. split; [reflexivity|exact Hp].
Qed.
(** If no call of the debug build panics, the builds cannot be told apart *)
Theorem C111_no_panic : forall (ops : list op) d,
  (forall before o after, ops = before ++ o :: after -> step_out Debug bs (run Debug bs d before) o <> Panic) ->
  results Debug d ops = results Release d ops /\ run Debug bs d ops = run Release bs d ops.
Proof.
  intros ops d H. destruct (C111_run ops d) as [Hr|(before & o & after & E & _ & _ & Hp)]; [exact Hr|].
  exfalso. exact (H before o after E Hp).
Qed.
Print Assumptions C111_run.
End Calls.

(** ** The programs and the low-level interface *)
Section Programs.
Context (l : libm) {B ER EW : Type} (bs : bus B ER EW).
Notation FO := (B32 l).
Notation W := (world B ER EW).
Notation driver := (driver (FO := FO) (B := B) (ER := ER) (EW := EW)).

Lemma if_ready_later : forall p dest d, exists later,
  trace (d_bus (snd (fst (generate_image_if_ready (FO := FO) p bs dest d)))) = trace (d_bus d) ++ later.
Proof.
  intros p dest d. destruct (step p bs d (OpGenerateIfReady dest)) as [[r d'] dest'] eqn:E.
  destruct (prims_moved bs _ _ (step_prims p bs d _ r d' dest' E)) as (evs & T & _). exists evs.
  cbn [step] in E. unfold lifti in E. destruct (generate_image_if_ready p bs dest d) as [[r0 d0] dest0].
  apply (f_equal (fun x => snd (fst x))) in E. cbn [fst snd] in *. subst d'. exact T.
Qed.
Lemma pictures_later : forall p d, exists later,
  trace (d_bus (snd (take_pictures (FO := FO) p bs d))) = trace (d_bus d) ++ later.
Proof.
  intros p d. unfold take_pictures. cbv zeta.
  set (dest := repeat _ _). destruct (if_ready_later p dest d) as [l1 T1].
  destruct (generate_image_if_ready p bs dest d) as [[r d1] dest1]. cbn [fst snd] in T1.
  destruct r; try (exists l1; exact T1). destruct (if_ready_later p dest1 d1) as [l2 T2].
  destruct (generate_image_if_ready p bs dest1 d1) as [[r2 d2] dest2]. cbn [fst snd] in *.
  exists (l1 ++ l2). rewrite T2, T1, <- app_assoc. reflexivity.
Qed.
Lemma pictures_same : forall d,
  take_pictures (FO := FO) Debug bs d = take_pictures Release bs d \/
  (fst (take_pictures (FO := FO) Debug bs d) = Panic /\
   exists later, trace (d_bus (snd (take_pictures (FO := FO) Release bs d))) =
                 trace (d_bus (snd (take_pictures Debug bs d))) ++ later).
Proof.
  intros d. unfold take_pictures. cbv zeta. set (dest := repeat _ _).
  destruct (if_ready_same bs dest d) as [E|(Hp & _ & l1 & T)].
  - rewrite E. destruct (generate_image_if_ready Release bs dest d) as [[r d1] dest1]. destruct r; try (left; reflexivity).
    destruct (if_ready_same bs dest1 d1) as [E2|(Hp & _ & l2 & T2)]; [left; rewrite E2; reflexivity|right].
    destruct (generate_image_if_ready Debug bs dest1 d1) as [[r2 d2] dest2].
    destruct (generate_image_if_ready Release bs dest1 d1) as [[r2' d2'] dest2']. cbn [fst snd] in *. subst r2.
    split; [reflexivity|]. exists l2. exact T2.
  - right. destruct (generate_image_if_ready Debug bs dest d) as [[r d1] dest1]. cbn [fst snd] in *. subst r.
    cbn [fst snd]. split; [reflexivity|].
    destruct (generate_image_if_ready Release bs dest d) as [[r' d1'] dest1']. cbn [fst snd] in T.
    destruct r'; try (exists l1; exact T).
    destruct (if_ready_later Release dest1' d1') as [l2 T2].
    destruct (generate_image_if_ready Release bs dest1' d1') as [[r2 d2] dest2]. cbn [fst snd] in *.
    exists (l1 ++ l2). rewrite T2, T, <- app_assoc. reflexivity.
Qed.
Lemma terminal_same : forall (made made' : res (error ER EW) driver * W),
  same_or_stopped made made' -> (forall d, fst made' = Ok d -> d_bus d = snd made') ->
  same_or_stopped (terminal_temperatures Debug bs made) (terminal_temperatures Release bs made').
Proof.
  intros made made' [E|(Hp & later & T)] Hb; unfold terminal_temperatures.
  - subst made'. destruct made as [[d| | |] w]; try (left; reflexivity).
    destruct (pictures_same d) as [E|(Hp & later & T)]; [left; rewrite E; reflexivity|right].
    destruct (take_pictures Debug bs d) as [r1 d1], (take_pictures Release bs d) as [r2 d2]. cbn [fst snd] in *. subst r1.
    split; [reflexivity|]. exists later. exact T.
  - destruct made as [r w], made' as [r' w']. cbn [fst snd] in *. subst r. right. cbn [fst snd]. split; [reflexivity|].
    destruct r' as [d| | |]; try (exists later; exact T).
    specialize (Hb d eq_refl). destruct (pictures_later Release d) as [l2 T2].
    destruct (take_pictures Release bs d) as [r2 d2]. cbn [fst snd] in *. exists (later ++ l2).
    rewrite T2, Hb, T, <- app_assoc. reflexivity.
Qed.
Lemma new_bus : forall f h n (w : W) a (d : driver), fst (new (FO := FO) bs f h n w a) = Ok d -> d_bus d = snd (new bs f h n w a).
Proof.
  intros f h n w a d H. unfold new in *. destruct (f a w) as [[c| | |] w1]; try discriminate H.
  unfold new_with_calibration in *. destruct (read_register bs a CONTROL_ADDRESS w1) as [r w2]. cbn [fst snd] in *.
  destruct r as [v| | |]; try discriminate H. cbn [bind] in H.
  destruct (ctl_resolution v) as [x| | |]; try discriminate H. cbn [bind] in H. cbv zeta in H.
  destruct (ctl_access_pattern v) as [y| | |]; try discriminate H. cbn [bind] in H.
  assert (E : forall d1 d2 : driver, Ok (E := error ER EW) d1 = Ok d2 -> d_bus d1 = d_bus d2).
  { intros d1 d2 Hd. exact (f_equal (fun r => match r with Ok x => d_bus x | _ => d_bus d1 end) Hd). }
  symmetry. exact (E _ _ H).
Qed.

(** What a program leaves: nothing opened, or a bus *)
Definition wires (o : option W) : list (event ER EW) := match o with Some w => trace w | None => [] end.

Lemma andthen_cases : forall {A C} (P : res (program_error ER EW) C * option W -> res (program_error ER EW) C * option W -> Prop)
    w (r : res (program_error ER EW) A) k k',
  (forall x, P x x) -> (forall a, P (k a) (k' a)) -> P (andthen w r k) (andthen w r k').
Proof. intros A C P w r k k' Hr Hk. destruct r; cbn [andthen]; [apply Hk|apply Hr..]. Qed.

(** terminal-temperatures, from the command line on *)
Theorem C111_terminal : forall open args,
  terminal_main l Debug bs open args = terminal_main l Release bs open args \/
  (fst (terminal_main l Debug bs open args) = Panic /\
   exists later, wires (snd (terminal_main l Release bs open args)) = wires (snd (terminal_main l Debug bs open args)) ++ later).
Proof.
  intros open args.
  assert (L : forall x x' : res (error ER EW) (list (printed (FO := FO))) * W, same_or_stopped x x' ->
     lift_terminal x = lift_terminal x' \/
     (fst (lift_terminal x) = Panic /\ exists later, wires (snd (lift_terminal x')) = wires (snd (lift_terminal x)) ++ later)).
  { intros [r w] [r' w'] [E|(Hp & later & T)]; [left; rewrite E; reflexivity|right]. cbn [fst snd] in *. subst r.
    unfold lift_terminal. split; [reflexivity|]. exists later. exact T. }
  pose (P := fun x x' : res (program_error ER EW) (list (printed (FO := FO))) * option W =>
    x = x' \/ (fst x = Panic /\ exists later, wires (snd x') = wires (snd x) ++ later)).
  assert (R : forall x, P x x) by (intros x; left; reflexivity).
  change (P (terminal_main l Debug bs open args) (terminal_main l Release bs open args)).
  unfold terminal_main. destruct (negb _); [apply R|].
  apply andthen_cases; [exact R|intros a]. apply andthen_cases; [exact R|intros address].
  apply andthen_cases; [exact R|intros path]. destruct (open path) as [w|]; [|apply R].
  apply andthen_cases; [exact R|intros model].
  destruct (String.eqb model "640").
  { apply L, terminal_same; [apply C111_new|apply new_bus]. }
  destruct (String.eqb model "641"); [|apply R].
  apply L, terminal_same; [apply C111_new|apply new_bus].
Qed.
Print Assumptions C111_terminal.

(** true-frame-rate *)
Theorem C111_rate : forall open parse_f32 now fuel args,
  rate_main l Debug bs open parse_f32 now fuel args = rate_main l Release bs open parse_f32 now fuel args \/
  fst (fst (rate_main l Debug bs open parse_f32 now fuel args)) = Panic.
Proof.
  intros open parse_f32 now fuel args.
  assert (L : forall (made made' : res (error ER EW) driver * W) rate count, same_or_stopped made made' ->
     lift_rate (true_frame_rate l bs now made rate count fuel) = lift_rate (true_frame_rate l bs now made' rate count fuel) \/
     fst (lift_rate (true_frame_rate l bs now made rate count fuel)) = Panic).
  { intros [r w] made' rate count [E|(Hp & _)]; [left; rewrite E; reflexivity|right]. cbn [fst] in Hp. subst r. reflexivity. }
  unfold rate_main. destruct (_ || _)%bool; [left; reflexivity|].
  match goal with |- context [match ?X with (r, b) => _ end] => destruct X as [[[[[address w] rate] count]| | |] b] end;
    [|left; reflexivity..].
  match goal with |- (?x, true) = (?x', true) \/ _ => cut (x = x' \/ fst x = Panic);
    [generalize x; generalize x'; intros y y' [-> | H]; [left; reflexivity|right; exact H]|] end.
  apply (andthen_cases (fun x x' => x = x' \/ fst x = Panic)); [intros y; left; reflexivity|intros model].
  destruct (String.eqb model "640"); [apply L, C111_new|].
  destruct (String.eqb model "641"); [apply L, C111_new|left; reflexivity].
Qed.
Print Assumptions C111_rate.
End Programs.

Section Low.
Context {FO : FloatOps} {B ER EW : Type} (bs : bus B ER EW).
(** The low-level interface as the benchmark uses it *)
Theorem C111_low_level : forall address (w : world B ER EW) (s : low_level (FO := FO)) x,
  same_unless_panic (fst (low_open (FO := FO) Debug bs address w)) (fst (low_open Release bs address w)) /\
  same_unless_panic (split_functions Debug s x) (split_functions Release s x) /\
  same_unless_panic (one_pass Debug s x) (one_pass Release s x).
Proof.
  intros address w s [[sp px] ram]. split; [|split].
  - unfold low_open. destruct (read_register bs address CONTROL_ADDRESS w) as [r w1].
    destruct (expect r) as [control| | |]; cbn [bindS]; [|right; reflexivity..].
    destruct (from_i2c_640_same (FO := FO) bs address w1) as [E|(Hp & _)]; [rewrite E; right; reflexivity|left].
    destruct (calib640_from_i2c FO Debug bs address w1) as [r2 w2]. cbn [fst] in Hp. subst r2. reflexivity.
  - unfold split_functions. apply su_bind; [|intros; apply su_refl].
    unfold raw_pixels_to_ir_data. apply su_bind; [|intros; apply su_refl].
    unfold common_new, delta_v. apply su_bind; [|intros; apply su_refl]. apply su_bind; [apply su_chk|intros; apply su_refl].
  - unfold one_pass, raw_pixels_to_temperatures. apply su_bind; [|intros; apply su_refl].
    unfold common_new, delta_v. apply su_bind; [|intros; apply su_refl]. apply su_bind; [apply su_chk|intros; apply su_refl].
Qed.
Print Assumptions C111_low_level.
End Low.

(** ** Both sides of the alternative occur *)
Example C111_decoding_stops : from_data640 ZFO Debug overflowing640 = Panic /\
  exists c, from_data640 ZFO Release overflowing640 = Ok c.
Proof. split; [apply C45_overflow_reachable|apply C45_release_640, C45_overflow_reachable]. Qed.
Example C111_decoding_same : exists c, from_data640 ZFO Debug datasheet640 = Ok c /\ from_data640 ZFO Release datasheet640 = Ok c.
Proof.
  destruct C37_datasheet_accepted as [c Hc]. exists c. split; [exact Hc|].
  destruct (C111_decoding_640 ZFO datasheet640) as [E|E]; rewrite Hc in E; [discriminate E|symmetry; exact E].
Qed.
(** A call that stops in a debug build, and the release build's image *)
Example C111_call_stops :
  match demo_driver 12 384 (demo_calib_v 20000 (Mlx90641 ZFO) 192) 0x0008 0x0901 with
  | Some d =>
      fst (fst (step Debug (toy_bus never never) d (OpGenerateIfReady (repeat (5 : F ZFO) 192)))) = Panic /\
      snd (step Debug (toy_bus never never) d (OpGenerateIfReady (repeat (5 : F ZFO) 192))) = repeat (5 : F ZFO) 192 /\
      fst (fst (step Release (toy_bus never never) d (OpGenerateIfReady (repeat (5 : F ZFO) 192)))) = Ok (OutBool true) /\
      length (trace (d_bus (snd (fst (step Release (toy_bus never never) d (OpGenerateIfReady (repeat (5 : F ZFO) 192))))))) =
      S (length (trace (d_bus (snd (fst (step Debug (toy_bus never never) d (OpGenerateIfReady (repeat (5 : F ZFO) 192))))))))
  | None => False
  end.
Proof. vm_compute. repeat split; reflexivity. Qed.
