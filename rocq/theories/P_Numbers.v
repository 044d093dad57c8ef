(** * P_Numbers: C101 -- a value that is a number was computed from numbers. *)
From Coq Require Import Reals Lra.
From Verif Require Import Base FloatOps Register Bus Camera Cam640 Ee640 Calc CalcFacts B32 B32Facts SpecRegister SpecCamera SpecDriver
  SpecImage SpecCall SpecNan DriverFacts StepFacts P_CalcReal P_Image P_Frames P_Finite P_Order P_Calls Driver.
From Flocq Require Import Core BinarySingleNaN.

(** A float that may be divided by: neither a zero nor NaN. *)
Definition divisor (x : f32) : Prop := match x with B754_zero _ | B754_nan => False | _ => True end.

Lemma quotient_fin (x y : f32) : is_finite (b_div x y) = true -> is_finite x = true /\ divisor y.
Proof.
  destruct x as [s|s| |s m e He], y as [s'|s'| |s' m' e' He']; cbn; intros H; try discriminate; split; try reflexivity; exact I.
Qed.



Section Numbers.
Context (l : libm).
Notation F32 := (F (B32 l)) (only parsing).

(** What a signal that is a number was computed from. *)
Record signal_from_numbers (c : calib (B32 l)) lay (s : settings (FO := B32 l)) mem : Prop := {
  sn_gain : is_finite (doc_gain c lay mem : f32) = true;
  sn_gain_reading : SpecImage.ram mem (lay_gain lay) <> 0%Z;
  sn_ambient : is_finite (doc_t_a c lay mem : f32) = true;
  sn_ambient_constant : divisor (k_t_ptat _ c);
  sn_supply : is_finite (doc_v_dd c lay s mem : f32) = true;
  sn_supply_constant : k_v_dd _ c <> 0%Z;
  sn_emissivity : divisor (set_emissivity s)
}.

Lemma ofZ_nonzero z : divisor (b_ofZ z) -> z <> 0%Z.
Proof. intros H ->. exact H. Qed.

Lemma compensated_fin (c : calib (B32 l)) lay s mem raw offset (kv kta : f32) (amc : option f32) :
  is_finite (doc_compensated c lay s mem raw offset (kv : F32) (kta : F32) (amc : option F32) : f32) = true ->
  signal_from_numbers c lay s mem.
Proof.
  unfold doc_compensated. cbn [B32 fadd fsub fmul fdiv fofZ]. intros H.
  apply quotient_fin in H. destruct H as [H He].
  apply b_sub_fin in H. destruct H as (Ha & Hm & _).
  apply b_add_fin in Ha. destruct Ha as (Ha & _). apply b_mul_fin in Ha. destruct Ha as (_ & Hg & _).
  apply b_mul_fin in Hm. destruct Hm as (Hm & Hv & _). apply b_mul_fin in Hm. destruct Hm as (_ & Ht & _).
  apply b_add_fin in Ht. destruct Ht as (_ & Ht & _). apply b_mul_fin in Ht. destruct Ht as (_ & Ht & _).
  apply b_sub_fin in Ht. destruct Ht as (Ht & _).
  apply b_add_fin in Hv. destruct Hv as (_ & Hv & _). apply b_mul_fin in Hv. destruct Hv as (_ & Hv & _).
  apply b_sub_fin in Hv. destruct Hv as (Hv & _).
  constructor; try assumption.
  - unfold doc_gain in Hg. cbn [B32 fdiv fofZ] in Hg. apply quotient_fin in Hg. apply ofZ_nonzero, Hg.
  - unfold doc_t_a in Ht. cbn [B32 fadd fsub fdiv] in Ht. apply b_add_fin in Ht. destruct Ht as (Ht & _). apply quotient_fin in Ht. apply Ht.
  - unfold doc_v_dd in Hv. cbn [B32 fadd fmul] in Hv. apply b_add_fin in Hv. destruct Hv as (Hv & _).
    apply b_mul_fin in Hv. destruct Hv as (Hv & _). unfold doc_delta_v in Hv. cbn [B32 fdiv fofZ] in Hv.
    apply quotient_fin in Hv. apply ofZ_nonzero, Hv.
Qed.

Lemma v_ir_fin (c : calib (B32 l)) lay s sp mem i :
  is_finite (doc_v_ir c lay s sp mem i : f32) = true -> signal_from_numbers c lay s mem.
Proof.
  unfold doc_v_ir. destruct (temperature_gradient_coefficient (B32 l) c) as [tgc|]; intros H.
  - cbn [B32 fsub fmul] in H. apply b_sub_fin in H. destruct H as (H & _). exact (compensated_fin _ _ _ _ _ _ _ _ _ H).
  - exact (compensated_fin _ _ _ _ _ _ _ _ _ H).
Qed.

Context (Hl : keeps_non_numbers l).

(** A pixel that shows a finite value, raw or as a temperature. *)
Theorem C101_pixel : forall (c : calib (B32 l)) lay (s : settings (FO := B32 l)) sp mem raw i,
  is_finite (doc_pixel c lay s sp mem raw i : f32) = true ->
  is_finite (doc_pixel c lay s sp mem true i : f32) = true /\
  signal_from_numbers c lay s mem /\
  (raw = false -> is_finite (doc_t_ar c lay s mem : f32) = true /\
    (b_eqb (set_emissivity s) (b_ofZ 1) = false ->
     forall t : f32, set_reflected s = Some (t : F32) -> is_finite t = true)).
Proof.
  intros c lay s sp mem raw i H.
  assert (G : raw = false -> is_finite (doc_v_ir c lay s sp mem i : f32) = true /\ is_finite (doc_t_ar c lay s mem : f32) = true).
  { intros ->. unfold doc_pixel, doc_t_o in H. cbn [B32 fadd fsub fmul fdiv fpowf] in H.
    apply b_sub_fin in H. destruct H as (H & _). apply (kn_root l Hl) in H.
    apply b_add_fin in H. destruct H as (H & Hb & _). apply quotient_fin in H. split; [apply H|exact Hb]. }
  assert (Hv : is_finite (doc_v_ir c lay s sp mem i : f32) = true) by (destruct raw; [exact H|apply G; reflexivity]).
  split; [exact Hv|]. split; [exact (v_ir_fin c lay s sp mem i Hv)|].
  intros Hr. destruct (G Hr) as [_ Hb]. split; [exact Hb|]. intros He t Ht.
  unfold doc_t_ar in Hb. rewrite Ht in Hb.
  change (@feqb (B32 l) (set_emissivity s) (fofZ 1)) with (b_eqb (set_emissivity s) (b_ofZ 1)) in Hb. rewrite He in Hb.
  cbn [B32 fadd fsub fdiv fpowi] in Hb. apply b_sub_fin in Hb. destruct Hb as (Hb & _).
  apply (kn_power l Hl) in Hb. apply b_add_fin in Hb. apply Hb.
Qed.
End Numbers.
Print Assumptions C101_pixel.

(** The same for the calls of a driver: a finite number in an element of the destination that the call stored. *)
Theorem C101_calls : forall l, keeps_non_numbers l ->
  forall p B ER EW (bs : bus B ER EW) lay (d : driver (FO := B32 l)) o (dest : list f32) r d' (dest' : list f32) evs sp mem i x,
  usable d lay -> destination o = Some (dest : list (F (B32 l))) ->
  step p bs d o = (r, d', dest') -> computed o r ->
  trace (d_bus d') = trace (d_bus d) ++ evs -> stores o (d_address d) evs sp ->
  (forall a, word (mem a)) -> Forall (shows mem) evs ->
  measured lay sp (d_access_pattern d) i = true -> (i < length dest)%nat -> nth_error dest' i = Some x -> is_finite x = true ->
  signal_from_numbers l (d_calibration d) lay (settings_of d) mem /\
  (exists t : f32, drv_ambient_temperature d' = Some (t : F (B32 l)) /\ is_finite t = true) /\
  (is_raw o = false -> b_eqb (effective_emissivity d) (b_ofZ 1) = false ->
   forall t : f32, reflected_temperature d = Some (t : F (B32 l)) -> is_finite t = true).
Proof.
  intros l Hl p B ER EW bs lay d o dest r d' dest' evs sp mem i x Hu Ho H Hc Ht Hst Hw Hs Hm Hi Hx Fx.
  destruct (C55_image_of_transcript p bs lay d o dest r d' dest' evs sp mem Hu Ho H Hc Ht Hst Hw Hs) as [Ea [_ S]].
  destruct (nth_error dest i) as [old|] eqn:E; [|apply nth_error_None in E; lia].
  specialize (S i old E). change (set_pattern (settings_of d)) with (d_access_pattern d) in S. rewrite Hm in S.
  pose proof (some_eq _ _ (eq_trans (eq_sym Hx) S)) as Ex. rewrite Ex in Fx.
  destruct (C101_pixel l Hl (d_calibration d) lay (settings_of d) sp mem (is_raw o) i Fx) as (_ & Sn & Hr).
  split; [exact Sn|]. split.
  - exists (doc_t_a (d_calibration d) lay mem). split; [exact Ea|]. exact (sn_ambient l _ _ _ _ Sn).
  - intros R He t Et. destruct (Hr R) as [_ G]. exact (G He t Et).
Qed.
Print Assumptions C101_calls.

(** ** Such a library exists *)
Theorem C101_library : keeps_non_numbers grid_lib.
Proof.
  split.
  - intros x H. cbn [lm_powf grid_lib] in H. destruct x as [s|[]| |[] m e He]; try reflexivity; discriminate H.
  - intros x H. cbn [lm_powi grid_lib] in H. unfold grid_powi in H. cbn [Z.eqb Pos.eqb] in H.
    apply b_mul_fin in H. destruct H as (H & _). apply b_mul_fin in H. apply H.
Qed.
Print Assumptions C101_library.

(** ** Concrete cases: on the camera of C97_calls_concrete, with the emissivity 1, 0, NaN *)
Open Scope Z_scope.
Definition emissivity_image (e : f32) (d : driver (FO := B32 grid_lib)) : option (list SpecFloat.spec_float) :=
  first_pixel_image 609 (run Debug (first_pixel_bus 609) d [OpOverrideEmissivity (FO := B32 grid_lib) e]).
Definition emissivity_run (e : f32) : option (list SpecFloat.spec_float) :=
  match first_pixel_camera 609 with (Ok d, _) => emissivity_image e d | _ => None end.
Example C101_concrete :
  emissivity_run (b_ofZ 1) = Some [SpecFloat.S754_finite false 16475192 (-17); SpecFloat.S754_finite false 10485760 (-21)] /\
  emissivity_run (b_ofZ 0) = Some [SpecFloat.S754_nan; SpecFloat.S754_finite false 10485760 (-21)] /\
  emissivity_run B754_nan = Some [SpecFloat.S754_nan; SpecFloat.S754_finite false 10485760 (-21)].
Proof. vm_compute. repeat split. Qed.
