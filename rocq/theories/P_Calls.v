(** * P_Calls: C97, C98 and C99 for the calls of a driver. *)
From Coq Require Import Reals Lra.
From Verif Require Import Base FloatOps Register Bus Camera Cam640 Ee640 Calc CalcFacts B32 RealOps SpecRegister SpecCamera SpecDriver
  SpecImage SpecCall SpecPhysics SpecTemperature SpecOrder SpecNan DriverFacts StepFacts P_Image P_Frames P_Finite P_Physics P_Order P_Emissivity P_Nan Driver.
From Flocq Require Import Core BinarySingleNaN.

Section Calls.
Context {FO : FloatOps} (p : profile) {B ER EW : Type} (bs : bus B ER EW).
Notation driver := (driver (FO := FO) (B := B) (ER := ER) (EW := EW)).
Notation op := (op (FO := FO)).

(** The call [o] of [d] computes temperatures from the frame [mem] of subpage [sp], and turns the destination
    [dest] into [dest']. *)
Definition temperatures (lay : layout) (d : driver) (o : op) (sp : subpage) (mem : Z -> Z) (dest dest' : list (F FO)) : Prop :=
  usable d lay /\ destination o = Some dest /\ is_raw o = false /\ (forall a, word (mem a)) /\
  exists r d' evs, step p bs d o = (r, d', dest') /\ computed o r /\
    trace (d_bus d') = trace (d_bus d) ++ evs /\ stores o (d_address d) evs sp /\ Forall (shows mem) evs.

Lemma temperatures_stored lay d o sp mem dest dest' : temperatures lay d o sp mem dest dest' ->
  image_stored (d_calibration d) lay (settings_of d) sp mem false dest dest' /\ (lay = layout640 \/ lay = layout641).
Proof.
  intros (Hu & Ho & Hr & Hw & r & d' & evs & H & Hc & Ht & Hs & Hm). split.
  - rewrite <- Hr. exact (proj2 (C55_image_of_transcript p bs lay d o dest r d' dest' evs sp mem Hu Ho H Hc Ht Hs Hw Hm)).
  - destruct Hu as [Hd _]. destruct Hd; [left|right]; reflexivity.
Qed.
End Calls.

Open Scope R_scope.

(** C99: a pixel whose signal no object can give is NaN in the destination of every call that
    computes temperatures. *)
Theorem C99_calls : forall l, accurate_powers l -> domain_errors l ->
  forall p B ER EW (bs : bus B ER EW) lay (d : driver (FO := B32 l)) o sp mem (dest dest' : list f32) i,
  temperatures p bs lay d o sp mem dest dest' ->
  (i < length dest)%nat -> measured lay sp (d_access_pattern d) i = true ->
  let a : f32 := doc_alpha (d_calibration d) lay sp mem i in
  let v : f32 := doc_v_ir (d_calibration d) lay (settings_of d) sp mem i in
  let bg : f32 := doc_t_ar (d_calibration d) lay (settings_of d) mem in
  is_finite bg = true -> impossible_signal (B2R a) (B2R v) (B2R bg) ->
  nth_error dest' i = Some B754_nan.
Proof.
  intros l Hp Hd p B ER EW bs lay d o sp mem dest dest' i H Hi Hm a v bg Fb Hv.
  destruct (temperatures_stored p bs lay d o sp mem dest dest' H) as [S _].
  destruct (nth_error dest i) as [old|] eqn:E; [|apply nth_error_None in E; lia].
  exact (C99_image l Hp Hd (d_calibration d) lay (settings_of d) sp mem dest dest' i old S E Hm Fb Hv).
Qed.
Print Assumptions C99_calls.

(** C97: two calls, of two drivers with the same calibration and settings, from frames that differ
    in one pixel. *)
Theorem C97_calls : forall l, orderly l ->
  forall p B ER EW (bs : bus B ER EW) lay (d1 d2 : driver (FO := B32 l)) o1 o2 sp mem1 mem2
    (dest1 dest2 dest1' dest2' : list f32) i (x1 x2 : f32),
  temperatures p bs lay d1 o1 sp mem1 dest1 dest1' -> temperatures p bs lay d2 o2 sp mem2 dest2 dest2' ->
  d_calibration d2 = d_calibration d1 -> settings_of d2 = settings_of d1 ->
  (i < length dest1)%nat -> (i < length dest2)%nat -> measured lay sp (d_access_pattern d1) i = true ->
  (forall a, a <> lay_address lay sp i -> mem2 a = mem1 a) ->
  (SpecImage.ram mem1 (lay_address lay sp i) <= SpecImage.ram mem2 (lay_address lay sp i))%Z ->
  let c := d_calibration d1 in
  let s := settings_of d1 in
  0 <= B2R (doc_gain c lay mem1 : f32) -> 0 < B2R (d_emissivity d1 : f32) ->
  0 <= B2R (doc_alpha c lay sp mem1 i : f32) ->
  0 < B2R (effective_sensitivity l c lay s sp mem1 i) -> 0 < B2R (effective_sensitivity l c lay s sp mem2 i) ->
  B2R (slope32 l c lay) <= 0 -> 0 <= B2R (doc_v_ir c lay s sp mem2 i : f32) ->
  nth_error dest1' i = Some x1 -> nth_error dest2' i = Some x2 ->
  is_finite x1 = true -> is_finite x2 = true -> B2R x1 <= B2R x2.
Proof.
  intros l Hl p B ER EW bs lay d1 d2 o1 o2 sp mem1 mem2 dest1 dest2 dest1' dest2' i x1 x2 H1 H2 Hc Hs Hi1 Hi2 Hm Hmem Hr c s.
  destruct (temperatures_stored p bs lay d1 o1 sp mem1 dest1 dest1' H1) as [S1 Hlay].
  destruct (temperatures_stored p bs lay d2 o2 sp mem2 dest2 dest2' H2) as [S2 _].
  rewrite Hc, Hs in S2.
  destruct (nth_error dest1 i) as [old1|] eqn:E1; [|apply nth_error_None in E1; lia].
  destruct (nth_error dest2 i) as [old2|] eqn:E2; [|apply nth_error_None in E2; lia].
  destruct H1 as (_ & _ & _ & W1 & _). destruct H2 as (_ & _ & _ & W2 & _).
  exact (C97_images l Hl c lay s sp mem1 mem2 i dest1 dest2 dest1' dest2' old1 old2 x1 x2 Hlay S1 S2 Hm E1 E2 Hmem W1 W2 Hr).
Qed.
Print Assumptions C97_calls.

(** C98: two calls, of drivers that differ in the emissivity only, on the same frame. *)
Theorem C98_calls : forall p B ER EW (bs : bus B ER EW) lay (d1 d2 : driver (FO := RealOps)) o1 o2 sp mem dest1 dest2 dest1' dest2' i
    t0 t0' t t' x1 x2,
  temperatures p bs lay d1 o1 sp mem dest1 dest1' -> temperatures p bs lay d2 o2 sp mem dest2 dest2' ->
  d_calibration d2 = d_calibration d1 -> settings_of d2 = emissivity_set (settings_of d1) (d_emissivity d2) ->
  (i < length dest1)%nat -> (i < length dest2)%nat -> measured lay sp (d_access_pattern d1) i = true ->
  nth_error dest1' i = Some x1 -> nth_error dest2' i = Some x2 ->
  let c := d_calibration d1 in
  let alpha := doc_alpha c lay sp mem i in
  let k := slope c lay in
  let ta := doc_t_a c lay mem in
  let tr := reflected c lay (settings_of d1) mem in
  let eps1 := d_emissivity d1 in
  let eps2 := d_emissivity d2 in
  let v1 := doc_v_ir c lay (settings_of d1) sp mem i in
  let v2 := doc_v_ir c lay (settings_of d2) sp mem i in
  0 < alpha -> 0 < eps2 -> eps2 < eps1 -> 0 < kelvin tr ->
  k * measured_signal c lay (settings_of d1) sp mem i <= 0 ->
  explains_signal alpha eps1 v1 tr ta t0 -> explains_signal alpha eps2 v2 tr ta t0' ->
  0 < sensitivity_at alpha k t0 -> 0 < sensitivity_at alpha k t0' ->
  explains_signal (sensitivity_at alpha k t0) eps1 v1 tr ta t ->
  explains_signal (sensitivity_at alpha k t0') eps2 v2 tr ta t' ->
  (tr < t0 -> tr < t -> x1 < x2) /\ (t0 < tr -> t < tr -> x2 < x1).
Proof.
  intros p B ER EW bs lay d1 d2 o1 o2 sp mem dest1 dest2 dest1' dest2' i t0 t0' t t' x1 x2 H1 H2 Hc Hs Hi1 Hi2 Hm X1 X2
    c alpha k ta tr eps1 eps2 v1 v2.
  destruct (temperatures_stored p bs lay d1 o1 sp mem dest1 dest1' H1) as [S1 _].
  destruct (temperatures_stored p bs lay d2 o2 sp mem dest2 dest2' H2) as [S2 _].
  rewrite Hc in S2. unfold v2. rewrite Hs in S2 |- *.
  destruct (nth_error dest1 i) as [old1|] eqn:E1; [|apply nth_error_None in E1; lia].
  destruct (nth_error dest2 i) as [old2|] eqn:E2; [|apply nth_error_None in E2; lia].
  assert (S1' : image_stored (d_calibration d1) lay (emissivity_set (settings_of d1) eps1) sp mem false dest1 dest1') by exact S1.
  exact (C98_images c lay (settings_of d1) sp mem dest1 dest2 dest1' dest2' i old1 old2 eps1 eps2 t0 t0' t t' x1 x2 S1' S2 Hm E1 E2 X1 X2).
Qed.
Print Assumptions C98_calls.

(** ** Concrete cases: pixel 0 of a camera measures [z] *)
Open Scope Z_scope.
Definition first_pixel_mem (z a : Z) : Z := if a =? lay_address layout640 Zero 0 then z else sample_mem a.
Definition first_pixel_bus (z : Z) : bus unit unit unit := {|
  dev_write_read := fun b _ wb buf => (b, mem_bytes (first_pixel_mem z) (256 * nth 0 wb 0 + nth 1 wb 0) (length buf), None);
  dev_write := fun b _ _ => (b, None) |}.
Definition first_pixel_camera (z : Z) : res (error unit unit) (driver (FO := B32 grid_lib)) * world unit unit unit :=
  new (first_pixel_bus z) (calib640_from_i2c (B32 grid_lib) Debug (first_pixel_bus z)) 24 1536 (Build_world tt []) 0x33.
(** The image call succeeds; what it leaves of a destination [0; 5]. *)
Definition first_pixel_image (z : Z) (d : driver (FO := B32 grid_lib)) : option (list SpecFloat.spec_float) :=
  match step Debug (first_pixel_bus z) d (OpGenerateSubpage (FO := B32 grid_lib) Zero [b_ofZ 0; b_ofZ 5]) with
  | (Ok OutUnit, _, dest) => Some (map (fun x : f32 => B2SF x) dest)
  | _ => None
  end.
Definition first_pixel_run (z : Z) : option (list SpecFloat.spec_float) :=
  match first_pixel_camera z with (Ok d, _) => first_pixel_image z d | _ => None end.

(** 609 and 620 show as temperatures in that order (C97), 64000 -- that is, -1536 -- as NaN (C99).  Pixel
    1 is not measured in this subpage. *)
Example C97_calls_concrete :
  first_pixel_run 609 = Some [SpecFloat.S754_finite false 16475192 (-17); SpecFloat.S754_finite false 10485760 (-21)] /\
  first_pixel_run 620 = Some [SpecFloat.S754_finite false 16619908 (-17); SpecFloat.S754_finite false 10485760 (-21)].
Proof. vm_compute. split; reflexivity. Qed.
Example C99_calls_concrete :
  first_pixel_run 64000 = Some [SpecFloat.S754_nan; SpecFloat.S754_finite false 10485760 (-21)].
Proof. vm_compute. reflexivity. Qed.
