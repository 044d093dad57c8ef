(** * P_Fine: C110 -- rounding does not merge the counts of a pixel. *)
From Verif Require Import Base FloatOps Register Bus Camera Cam640 Cam641 Calc Driver SpecRegister SpecEeprom SpecHamming ParseFacts
  SpecDriver DriverFacts StepFacts SpecCall P_Image P_Bus P_Frames P_Usable
  SpecCamera SpecImage ImageFacts B32 B32Facts RealOps BoundFacts FiniteFacts Ee640 Ee641 Spec641 Ee641Facts P_CalcReal
  SpecFinite SpecAccuracy AccuracyFacts P_Accuracy P_PixelAccuracy P_EndToEnd P_Noise P_Steady Dumps P_Finite P_Ee640 P_Ee640Real Driver.
From Coq Require Import Reals Lra Psatz.
From Flocq Require Import Core BinarySingleNaN.
Open Scope R_scope.

(** ** Two numbers rounded *)
Lemma rounded_difference r r' M : Rabs r <= M -> Rabs r' <= M ->
  Rabs ((RN r' - RN r) - (r' - r)) <= 2 * (u * M + tiny).
Proof.
  intros H H'. pose proof (RN_error r) as E. pose proof (RN_error r') as E'.
  assert (u * Rabs r <= u * M) by (apply Rmult_le_compat_l; lra).
  assert (u * Rabs r' <= u * M) by (apply Rmult_le_compat_l; lra).
  apply abs_split in E. apply abs_split in E'. apply Rabs_le. lra.
Qed.
Lemma rounded_size r M : Rabs r <= M -> Rabs (RN r) <= M + u * M + tiny.
Proof.
  intros H. pose proof (RN_error r) as E. assert (u * Rabs r <= u * M) by (apply Rmult_le_compat_l; lra).
  apply abs_split in E. apply abs_split in H. apply Rabs_le. lra.
Qed.

(** ** A compensated value of two raw words *)
Lemma compensated_difference (g p o e : f32) (z z' : Z) :
  let v z := b_div (b_sub (b_add (b_mul (b_ofZ z) g) p) o) e in
  is_finite (v z) = true -> is_finite (v z') = true ->
  (Z.abs z <= 32768)%Z -> (Z.abs z' <= 32768)%Z -> Rabs (B2R g) <= 2 + 1 / 1000 -> Rabs (B2R p) <= 64 ->
  Rabs (B2R o) <= 102600 -> 1 / 256 <= Rabs (B2R e) <= 2 ->
  Rabs ((B2R (v z') - B2R (v z)) - IZR (z' - z) * B2R g / B2R e) <= 56 / 1000 / Rabs (B2R e) /\
  Rabs (B2R (v z)) <= 168300 / Rabs (B2R e) /\ Rabs (B2R (v z')) <= 168300 / Rabs (B2R e).
Proof.
  intros v F F' Hz Hz' Hg Hp Ho He. unfold v in *.
  assert (He0 : B2R e <> 0) by (intros E; rewrite E, Rabs_R0 in He; lra).
  apply b_div_fin in F; [|exact He0]. destruct F as [F ->]. apply b_div_fin in F'; [|exact He0]. destruct F' as [F' ->].
  apply b_sub_fin in F. destruct F as (F & _ & ->). apply b_sub_fin in F'. destruct F' as (F' & _ & ->).
  apply b_add_fin in F. destruct F as (F & _ & ->). apply b_add_fin in F'. destruct F' as (F' & _ & ->).
  apply b_mul_fin in F. destruct F as (_ & _ & ->). apply b_mul_fin in F'. destruct F' as (_ & _ & ->).
  rewrite (proj2 (b_ofZ_correct z ltac:(clear - Hz; lia))), (proj2 (b_ofZ_correct z' ltac:(clear - Hz'; lia))).
  rewrite minus_IZR.
  assert (Bz : Rabs (IZR z) <= 32768) by (rewrite <- abs_IZR; apply IZR_le; exact Hz).
  assert (Bz' : Rabs (IZR z') <= 32768) by (rewrite <- abs_IZR; apply IZR_le; exact Hz').
  set (G := B2R g) in *. set (P := B2R p) in *. set (O := B2R o) in *. set (E := B2R e) in *.
  set (x := IZR z) in *. set (x' := IZR z') in *. clearbody x x' G P O E. clear z z' Hz Hz' g p o e v.
  assert (M : forall y, Rabs y <= 32768 -> Rabs (y * G) <= 65570).
  { intros y Hy. rewrite Rabs_mult. apply Rle_trans with (32768 * (2 + 1 / 1000)); [|lra].
    apply Rmult_le_compat; try apply Rabs_pos; assumption. }
  pose proof (M x Bz) as B1. pose proof (M x' Bz') as B1'.
  pose proof (rounded_difference _ _ _ B1 B1') as D1. pose proof (rounded_size _ _ B1) as S1. pose proof (rounded_size _ _ B1') as S1'.
  assert (Ed : x' * G - x * G = (x' - x) * G) by ring. rewrite Ed in D1. clear Ed.
  set (m := RN (x * G)) in *. set (m' := RN (x' * G)) in *. clearbody m m'.
  assert (B2 : Rabs (m + P) <= 65650) by (eapply Rle_trans; [apply Rabs_triang|lra]).
  assert (B2' : Rabs (m' + P) <= 65650) by (eapply Rle_trans; [apply Rabs_triang|lra]).
  pose proof (rounded_difference _ _ _ B2 B2') as D2. pose proof (rounded_size _ _ B2) as S2. pose proof (rounded_size _ _ B2') as S2'.
  set (s := RN (m + P)) in *. set (s' := RN (m' + P)) in *. clearbody s s'.
  assert (B3 : Rabs (s - O) <= 168252) by (unfold Rminus; eapply Rle_trans; [apply Rabs_triang|]; rewrite Rabs_Ropp; lra).
  assert (B3' : Rabs (s' - O) <= 168252) by (unfold Rminus; eapply Rle_trans; [apply Rabs_triang|]; rewrite Rabs_Ropp; lra).
  pose proof (rounded_difference _ _ _ B3 B3') as D3. pose proof (rounded_size _ _ B3) as S3. pose proof (rounded_size _ _ B3') as S3'.
  set (n := RN (s - O)) in *. set (n' := RN (s' - O)) in *. clearbody n n'.
  assert (D : Rabs ((n' - n) - (x' - x) * G) <= 358 / 10000).
  { apply abs_split in D1. apply abs_split in D2. apply abs_split in D3. apply Rabs_le. lra. }
  assert (N : Rabs n <= 168263) by lra. assert (N' : Rabs n' <= 168263) by lra.
  clear - D N N' He. set (r := / Rabs E).
  assert (Er : r * Rabs E = 1) by (unfold r; apply Rinv_l; lra).
  assert (Br : 1 / 2 <= r <= 256) by (split; apply Rmult_le_reg_r with (Rabs E); lra).
  assert (Q : forall y b, Rabs y <= b -> Rabs (y / E) <= b * r).
  { intros y b Hy. unfold Rdiv. rewrite Rabs_mult, Rabs_inv. apply Rmult_le_compat_r; [lra|exact Hy]. }
  pose proof (Q _ _ N) as B4. pose proof (Q _ _ N') as B4'.
  pose proof (rounded_difference _ _ _ B4 B4') as D4. pose proof (rounded_size _ _ B4) as S4. pose proof (rounded_size _ _ B4') as S4'.
  pose proof (Q _ _ D) as D5. replace ((n' - n - (x' - x) * G) / E) with (n' / E - n / E - (x' - x) * G / E) in D5 by (unfold Rdiv; ring).
  assert (Q2 : forall a, a / Rabs E = a * r) by reflexivity. rewrite !Q2. set (q := n / E) in *. set (q' := n' / E) in *. set (w := (x' - x) * G / E) in *.
  split; [|split; lra].
  apply abs_split in D4. apply abs_split in D5. apply Rabs_le. lra.
Qed.

(** ** The pixel in two frames of the same conditions *)
Section Pixels.
Context {l : libm} (m : camera RealOps) (c : calib (B32 l)) (k : ptat_constants) (lay : layout)
  (s : settings (FO := B32 l)) (sp : subpage) (mem mem' : Z -> Z).
Hypothesis (Hc : well_calibrated c k) (Hm : forall a, word (mem a)) (Hm' : forall a, word (mem' a)) (Hp : plausible_frame k lay mem).
Hypothesis (Fe : is_finite (set_emissivity s) = true) (Fr : within (set_correction s) 3).
Let cr := exactly m c.
Let sr := settings_exactly s.
Hypothesis (Hw : working_frame cr lay sr mem).
Hypothesis (Hs : same_conditions lay sp mem mem').

(** The offset after compensation for temperature and supply. *)
Lemma offset_size off (fkv fkta : f32) : (Z.abs off <= 32768)%Z -> is_finite fkv = true -> is_finite fkta = true ->
  working_coefficients cr lay sr mem (B2R fkv) (B2R fkta) ->
  Rabs (B2R (b_mul (b_mul (b_ofZ off) (b_add (b_ofZ 1) (b_mul fkta (b_sub (doc_t_a c lay mem : f32) (b_ofZ 25)))))
    (b_add (b_ofZ 1) (b_mul fkv (b_sub (doc_v_dd c lay s mem : f32) (@f_3_3 (B32 l))))))) <= 102600.
Proof.
  intros Ho Fv Ft [W1 W2 W3 W4].
  pose proof (wf_ambient _ _ _ _ Hw) as BT. pose proof (wf_emissivity _ _ _ _ Hw) as Be.
  change (set_emissivity sr) with (B2R (set_emissivity s)) in Be.
  destruct (near_offset (doc_t_a c lay mem) (b_sub (doc_v_dd c lay s mem) (@f_3_3 (B32 l))) fkta fkv 0 off
    (doc_t_a cr lay mem) (doc_v_dd cr lay sr mem - 33 / 10) (B2R fkta) (B2R fkv) (B2R (set_emissivity s)) (2 / 25 / Rabs (pc_k_t k))) as [_ N]; try assumption.
  { exact (near_ta m c k lay mem Hc Hm Hp). }
  { exact (eT_bounds c k Hc). }
  { exact (near_vdd m c k lay s mem Hc Hp Fr Hw). }
  { split; [exact Ft|reflexivity]. }
  { split; [exact Fv|reflexivity]. }
  pose proof (HX _ _ W2) as BX. pose proof (HY _ _ W4) as BY. pose proof (eT_bounds c k Hc) as BE.
  set (X := 1 + B2R fkta * (doc_t_a cr lay mem - 25)) in *. set (Y := 1 + B2R fkv * (doc_v_dd cr lay sr mem - 33 / 10)) in *.
  assert (Bo : 0 <= Rabs (IZR off) <= 32768) by (split; [apply Rabs_pos|rewrite <- abs_IZR; apply IZR_le; exact Ho]).
  assert (Bz : 0 <= Rabs (B2R fkta) * (2 / 25 / Rabs (pc_k_t k)) <= 2 / 25).
  { split; [apply Rmult_le_pos; [apply Rabs_pos|lra]|]. replace (2 / 25) with (1 * (2 / 25)) at 2 by lra.
    apply Rmult_le_compat; [apply Rabs_pos|lra|exact W1|lra]. }
  assert (Bxy : Rabs (IZR off * X * Y) <= 98304).
  { rewrite !Rabs_mult. replace 98304 with (32768 * 2 * (3 / 2)) by lra.
    apply Rmult_le_compat; [apply Rmult_le_pos; apply Rabs_pos|apply Rabs_pos| |exact BY].
    apply Rmult_le_compat; [apply Rabs_pos|apply Rabs_pos|lra|exact BX]. }
  set (z := Rabs (B2R fkta) * (2 / 25 / Rabs (pc_k_t k))) in *. set (o := Rabs (IZR off)) in *.
  assert (Boz : o * (8 / 5 * z + 163 * u) <= 32768 * (8 / 5 * (2 / 25) + 163 * u)) by (apply Rmult_le_compat; lra).
  match type of N with Rabs (?x - _) <= _ => set (w := x) in * end. change (Rabs w <= 102600).
  clear - N Bxy Boz. apply abs_split in Bxy. apply abs_split in N. apply Rabs_le. lra.
Qed.

Lemma gain_size : Rabs (B2R (doc_gain c lay mem : f32)) <= 2 + 1 / 1000 /\
  Rabs (B2R (doc_gain c lay mem : f32) - doc_gain cr lay mem) <= (201 / 100) * u.
Proof.
  destruct (near_gain m c k lay s mem Hc Hm Hw) as [_ N]. pose proof (wf_gain _ _ _ _ Hw) as B. fold cr in N.
  split; [|exact N].
  set (g := B2R (doc_gain c lay mem : f32)) in *. set (h := doc_gain cr lay mem : R) in *. clearbody g h. clear - N B.
  apply abs_split in N. apply abs_split in B. apply Rabs_le. lra.
Qed.

Lemma value_difference z z' off (fkv fkta : f32) (term : option f32) :
  (Z.abs z <= 32768)%Z -> (Z.abs z' <= 32768)%Z -> (Z.abs off <= 32768)%Z -> is_finite fkv = true -> is_finite fkta = true ->
  working_coefficients cr lay sr mem (B2R fkv) (B2R fkta) ->
  (forall x, term = Some x -> within x 6) ->
  let v z : f32 := doc_compensated c lay s mem z off (fkv : F (B32 l)) (fkta : F (B32 l)) (term : option (F (B32 l))) in
  is_finite (v z) = true /\ is_finite (v z') = true /\
  Rabs ((B2R (v z') - B2R (v z)) - IZR (z' - z) * B2R (doc_gain c lay mem : f32) / B2R (set_emissivity s)) <= 56 / 1000 / Rabs (B2R (set_emissivity s)) /\
  Rabs (B2R (v z)) <= 168300 / Rabs (B2R (set_emissivity s)) /\ Rabs (B2R (v z')) <= 168300 / Rabs (B2R (set_emissivity s)).
Proof.
  intros Hz Hz' Ho Fv Ft Hco Ht v.
  destruct (near_value m c k lay s mem Hc Hm Hp Fe Fr Hw z off fkv fkta term Hz Ho Fv Ft Hco Ht) as [[F _] _].
  destruct (near_value m c k lay s mem Hc Hm Hp Fe Fr Hw z' off fkv fkta term Hz' Ho Fv Ft Hco Ht) as [[F' _] _].
  split; [exact F|]. split; [exact F'|].
  apply (compensated_difference (doc_gain c lay mem) (match term with Some x => x | None => b_ofZ 0 end)
    (b_mul (b_mul (b_ofZ off) (b_add (b_ofZ 1) (b_mul fkta (b_sub (doc_t_a c lay mem : f32) (b_ofZ 25)))))
      (b_add (b_ofZ 1) (b_mul fkv (b_sub (doc_v_dd c lay s mem : f32) (@f_3_3 (B32 l)))))) (set_emissivity s) z z').
  - exact F.
  - exact F'.
  - exact Hz.
  - exact Hz'.
  - exact (proj1 gain_size).
  - destruct term as [x|]; [destruct (Ht x eq_refl) as [_ B]; exact B|]. rewrite (B2R_0), Rabs_R0. lra.
  - exact (offset_size off fkv fkta Ho Fv Ft Hco).
  - exact (wf_emissivity _ _ _ _ Hw).
Qed.

(** The difference between the pixel's values is that of its raw words, times gain over emissivity, up to
    a sixth of a count over the emissivity. *)
Lemma pixel_difference i :
  working_coefficients cr lay sr mem (nth i (k_v_pixels _ cr sp) 0) (nth i (k_ta_pixels _ cr sp) 0) ->
  (temperature_gradient_coefficient _ c <> None -> working_coefficients cr lay sr mem (k_v_cp _ cr sp) (k_ta_cp _ cr sp)) ->
  let v : f32 := doc_v_ir c lay s sp mem i in
  let v' : f32 := doc_v_ir c lay s sp mem' i in
  is_finite v = true /\ is_finite v' = true /\
  Rabs ((B2R v' - B2R v) - signal_change cr lay sr sp mem mem' i) <= / 6 / Rabs (B2R (set_emissivity s)).
Proof.
  intros Hpx Hcp v v'. pose proof (wl_ordinary _ _ Hc) as O.
  destruct (conditions_frame cr lay sr sp k mem mem' Hs) as (C1 & C2 & C3).
  assert (Fv : is_finite v = true) by apply (near_pixel m c k lay s sp mem Hc Hm Hp Fe Fr Hw i Hpx Hcp).
  assert (Fv' : is_finite v' = true)
    by apply (near_pixel m c k lay s sp mem' Hc Hm' (C1 Hp) Fe Fr (C2 Hw) i (C3 _ _ Hpx) (fun n => C3 _ _ (Hcp n))).
  split; [exact Fv|]. split; [exact Fv'|].
  change (k_v_pixels _ cr sp) with (map B2R (k_v_pixels _ c sp)) in Hpx.
  change (k_ta_pixels _ cr sp) with (map B2R (k_ta_pixels _ c sp)) in Hpx.
  rewrite !nth_map_B2R in Hpx.
  set (fkv := nth i (k_v_pixels _ c sp) (b_ofZ 0)) in *. set (fkta := nth i (k_ta_pixels _ c sp) (b_ofZ 0)) in *.
  set (off := nth i (offset_reference_pixels _ c sp) 0%Z) in *.
  set (term := nth i (access_pattern_compensation_pixels _ c (set_pattern s)) None) in *.
  set (z := ram mem (lay_address lay sp i)). set (z' := ram mem' (lay_address lay sp i)).
  assert (Bz : (Z.abs z <= 32768)%Z) by apply signed_abs, Hm.
  assert (Bz' : (Z.abs z' <= 32768)%Z) by apply signed_abs, Hm'.
  destruct (value_difference z z' off fkv fkta term Bz Bz') as (F & F' & D & S & S').
  { apply (ord_offset _ O). } { apply (ord_k_v _ O). } { apply (ord_k_ta _ O). } { exact Hpx. }
  { intros x Hx. exact (ord_pattern _ O _ _ _ Hx). }
  destruct gain_size as [_ G].
  pose proof (wf_emissivity _ _ _ _ Hw) as Be. change (set_emissivity sr) with (B2R (set_emissivity s)) in Be.
  (* the two frames share everything but the pixel's raw word *)
  assert (Hcomp : forall z off kv kta amc,
    doc_compensated c lay s mem' z off kv kta amc = doc_compensated c lay s mem z off kv kta amc).
  { intros. destruct Hs as (A1 & A2 & A3 & A4 & A5).
    unfold doc_compensated, doc_gain, doc_v_dd, doc_t_a, doc_v_ptat_art, doc_delta_v, ram. rewrite A1, A2, A3, A4. reflexivity. }
  assert (Ecp : ram mem' (lay_cp lay sp) = ram mem (lay_cp lay sp)).
  { destruct Hs as (_ & _ & _ & _ & A5). unfold ram. rewrite A5. reflexivity. }
  set (a := doc_compensated c lay s mem z off fkv fkta term) in *.
  set (a' := doc_compensated c lay s mem z' off fkv fkta term) in *.
  unfold signal_change. fold z z'. change (set_emissivity sr) with (B2R (set_emissivity s)).
  set (g := B2R (doc_gain c lay mem : f32)) in *. set (h := doc_gain cr lay mem : R) in *.
  set (E := B2R (set_emissivity s)) in *.
  assert (He0 : E <> 0) by (intros X; rewrite X, Rabs_R0 in Be; lra).
  set (r := / Rabs E).
  assert (Er : r * Rabs E = 1) by (unfold r; apply Rinv_l; lra).
  assert (Br : 1 / 2 <= r <= 256) by (split; apply Rmult_le_reg_r with (Rabs E); lra).
  assert (Q2 : forall a, a / Rabs E = a * r) by reflexivity. rewrite !Q2 in *.
  assert (Dz : Rabs (IZR (z' - z) * g / E - IZR (z' - z) * h / E) <= 79 / 10000 * r).
  { replace (IZR (z' - z) * g / E - IZR (z' - z) * h / E) with (IZR (z' - z) * (g - h) * / E) by (unfold Rdiv; ring).
    rewrite !Rabs_mult, Rabs_inv. fold r. apply Rmult_le_compat_r; [lra|].
    apply Rle_trans with (65536 * ((201 / 100) * u)); [|lra].
    apply Rmult_le_compat; [apply Rabs_pos|apply Rabs_pos| |exact G].
    rewrite <- abs_IZR. apply IZR_le. clear - Bz Bz'. lia. }
  assert (D2 : Rabs ((B2R a' - B2R a) - IZR (z' - z) * h / E) <= 64 / 1000 * r).
  { apply abs_split in D. apply abs_split in Dz. apply Rabs_le. lra. }
  unfold v, v', doc_v_ir. rewrite !Hcomp, Ecp. change (@fofZ (B32 l) 0) with (b_ofZ 0). fold off fkv fkta term. fold z z'. fold a a'.
  destruct (temperature_gradient_coefficient _ c) as [t|] eqn:Et.
  - specialize (Hcp ltac:(discriminate)).
    change (k_v_cp _ cr sp) with (B2R (k_v_cp _ c sp)) in Hcp. change (k_ta_cp _ cr sp) with (B2R (k_ta_cp _ c sp)) in Hcp.
    destruct (value_difference (ram mem (lay_cp lay sp)) (ram mem (lay_cp lay sp)) (offset_reference_cp _ c sp) (k_v_cp _ c sp) (k_ta_cp _ c sp)
                (access_pattern_compensation_cp _ c sp (set_pattern s))) as (Fw & _ & _ & Sw & _).
    { apply signed_abs, Hm. } { apply signed_abs, Hm. } { apply (ord_offset_cp _ O). } { apply (ord_k_v_cp _ O). } { apply (ord_k_ta_cp _ O). } { exact Hcp. }
    { intros x Hx. exact (ord_pattern_cp _ O _ _ _ Hx). }
    fold E in Sw. rewrite Q2 in Sw.
    set (w := doc_compensated c lay s mem (ram mem (lay_cp lay sp)) _ _ _ _) in *.
    destruct (ord_tgc _ O t Et) as [Ft Bt]. change (bpow radix2 2) with 4 in Bt.
    unfold v, doc_v_ir in Fv. unfold v', doc_v_ir in Fv'. rewrite !Hcomp, Ecp in Fv'. rewrite Et in Fv, Fv'.
    change (is_finite (b_sub a (b_mul t w)) = true) in Fv. change (is_finite (b_sub a' (b_mul t w)) = true) in Fv'.
    change (Rabs ((B2R (b_sub a' (b_mul t w)) - B2R (b_sub a (b_mul t w))) - IZR (z' - z) * h / E) <= / 6 * r).
    apply b_sub_fin in Fv. destruct Fv as (_ & Fp & ->). apply b_sub_fin in Fv'. destruct Fv' as (_ & _ & ->).
    apply b_mul_fin in Fp. destruct Fp as (_ & _ & ->).
    set (x := B2R a) in *. set (x' := B2R a') in *. set (y := B2R w) in *. set (b := B2R t) in *.
    assert (Sp : Rabs (b * y) <= 673200 * r).
    { rewrite Rabs_mult. replace (673200 * r) with (4 * (168300 * r)) by ring. apply Rmult_le_compat; try apply Rabs_pos; assumption. }
    pose proof (rounded_size _ _ Sp) as Sq. set (q := RN (b * y)) in *.
    clearbody x x' q r. clear - D2 S S' Sq Br.
    assert (B5 : Rabs (x - q) <= 841600 * r) by (apply abs_split in S; apply abs_split in Sq; apply Rabs_le; lra).
    assert (B5' : Rabs (x' - q) <= 841600 * r) by (apply abs_split in S'; apply abs_split in Sq; apply Rabs_le; lra).
    pose proof (rounded_difference _ _ _ B5 B5') as D5.
    apply abs_split in D5. apply abs_split in D2. apply Rabs_le. lra.
  - eapply Rle_trans; [exact D2|]. lra.
Qed.
End Pixels.

(** ** Any two raw images of a driver *)
(** Two raw images of a subpage, made at any two points of a driver's life (after the histories [ops] and [ops']) with the
    same settings in effect, from frames of the same conditions: the values of a pixel differ by what its raw words say up
    to a sixth of a count over the emissivity; equal words give equal values, and if the gain is more than a sixth and the
    emissivity positive, a larger word gives a larger value. *)
Definition raw_images_fine {l} (m : camera RealOps) p {B ER EW} (bs : bus B ER EW) (k : ptat_constants) lay (d0 : driver (FO := B32 l)) : Prop :=
  forall ops ops' sp dest dest' e e' out out' evs evs' mem mem',
    let d := run p bs d0 ops in
    let d' := run p bs d0 ops' in
    step p bs d (OpGenerateRawSubpage sp dest) = (Ok OutUnit, e, out) -> trace (d_bus e) = trace (d_bus d) ++ evs ->
    step p bs d' (OpGenerateRawSubpage sp dest') = (Ok OutUnit, e', out') -> trace (d_bus e') = trace (d_bus d') ++ evs' ->
    (forall x, word (mem x)) -> (forall x, word (mem' x)) -> Forall (shows mem) evs -> Forall (shows mem') evs' ->
    settings_of d' = settings_of d -> is_finite (d_emissivity d) = true ->
    let c := exactly m (d_calibration d0) in
    let s := settings_exactly (settings_of d) in
    same_conditions lay sp mem mem' ->
    plausible_frame k lay mem -> working_frame c lay s mem ->
    forall i, (i < length dest)%nat -> (i < length dest')%nat -> measured lay sp (d_access_pattern d) i = true ->
    working_coefficients c lay s mem (nth i (k_v_pixels _ c sp) 0) (nth i (k_ta_pixels _ c sp) 0) ->
    (temperature_gradient_coefficient _ c <> None -> working_coefficients c lay s mem (k_v_cp _ c sp) (k_ta_cp _ c sp)) ->
    exists x x' : f32, nth_error out i = Some x /\ nth_error out' i = Some x' /\ is_finite x = true /\ is_finite x' = true /\
      let z := signed (mem (lay_address lay sp i)) in
      let z' := signed (mem' (lay_address lay sp i)) in
      let gain := doc_gain c lay mem : R in
      let eps := set_emissivity s : R in
      Rabs ((B2R x' - B2R x) - IZR (z' - z) * gain / eps) <= / 6 / Rabs eps /\
      (z' = z -> x' = x) /\
      (0 < eps -> / 6 < gain -> (z < z')%Z -> B2R x < B2R x').

Lemma counts_apart (z z' : Z) gain eps d : Rabs (d - IZR (z' - z) * gain / eps) <= / 6 / Rabs eps ->
  0 < eps -> / 6 < gain -> (z < z')%Z -> 0 < d.
Proof.
  intros H He Hg Hz. rewrite (Rabs_pos_eq eps) in H by lra. apply abs_split in H.
  assert (1 <= IZR (z' - z)) by (apply IZR_le; clear - Hz; lia).
  assert (I : 0 < / eps) by (apply Rinv_0_lt_compat; exact He).
  assert (gain <= IZR (z' - z) * gain) by nra.
  unfold Rdiv in H. nra.
Qed.

Lemma fine_from_calibration {l} m p {B ER EW} (bs : bus B ER EW) k lay (d0 : driver (FO := B32 l)) :
  usable d0 lay -> Forall byte (d_pixel_buffer d0) -> has_correction d0 -> well_calibrated (d_calibration d0) k ->
  raw_images_fine m p bs k lay d0.
Proof.
  intros Hu Hb Hrc Hcal ops ops' sp dest dest' e e' out out' evs evs' mem mem' d d' H1 T1 H2 T2 Hm Hm' Sh Sh' Eset Fe c s Hcond Hpl Hwf i Hi Hi' Hmi Hpx Hcp.
  destruct (run_usable p bs lay d0 ops Hu Hb) as [Hu1 _]. fold d in Hu1.
  destruct (run_usable p bs lay d0 ops' Hu Hb) as [Hu2 _]. fold d' in Hu2.
  destruct (run_later p bs lay d0 ops (usable_wf _ _ Hu)) as (_ & ((_ & K1 & _) & _) & _). fold d in K1.
  destruct (run_later p bs lay d0 ops' (usable_wf _ _ Hu)) as (_ & ((_ & K2 & _) & _) & _). fold d' in K2.
  destruct (run_correction p bs d0 ops Hrc) as [cur Hres]. fold d in Hres.
  assert (V : forall (dd dd' : driver (FO := B32 l)) dst o es mm, usable dd lay -> d_calibration dd = d_calibration d0 ->
    step p bs dd (OpGenerateRawSubpage sp dst) = (Ok OutUnit, dd', o) -> trace (d_bus dd') = trace (d_bus dd) ++ es ->
    (forall x, word (mm x)) -> Forall (shows mm) es -> (i < length dst)%nat -> measured lay sp (d_access_pattern dd) i = true ->
    nth_error o i = Some (doc_v_ir (d_calibration d0) lay (settings_of dd) sp mm i)).
  { intros dd dd' dst o es mm U K H T Wm S Hd M.
    destruct (C55_image_values p bs lay dd (OpGenerateRawSubpage sp dst) dst _ dd' o U eq_refl H) as (raw & sp' & pre & frame & post & Et & Hask & _ & Hack & Hv).
    { split; [discriminate|exact I]. }
    inversion Hask; subst. inversion Hack; subst.
    rewrite T in Et. apply app_inv_head in Et. subst es. cbn [app] in S. rewrite app_nil_r in S.
    destruct (Hv mm Wm S) as [_ [_ Himg]].
    destruct (nth_error dst i) as [old|] eqn:En; [|apply nth_error_None in En; clear - En Hd; lia].
    specialize (Himg i old En). cbn [set_pattern settings_of] in Himg. rewrite M, K in Himg. exact Himg. }
  pose proof (V _ _ _ _ _ _ Hu1 K1 H1 T1 Hm Sh Hi Hmi) as X1.
  assert (Eap : d_access_pattern d' = d_access_pattern d) by exact (f_equal (fun s => set_pattern s) Eset).
  assert (Hmi' : measured lay sp (d_access_pattern d') i = true) by (rewrite Eap; exact Hmi).
  pose proof (V _ _ _ _ _ _ Hu2 K2 H2 T2 Hm' Sh' Hi' Hmi') as X2. rewrite Eset in X2.
  eexists. eexists. split; [exact X1|]. split; [exact X2|].
  assert (Hw3 : within (set_correction (settings_of d)) 3).
  { cbn [set_correction settings_of]. rewrite Hres. destruct Hu1 as [Hd _]. inversion Hd as [E|E]; cbn [resolution_correction]; apply correction_small. }
  destruct (pixel_difference m (d_calibration d0) k lay (settings_of d) sp mem mem' Hcal Hm Hm' Hpl) with (i := i) as (F1 & F2 & D); try assumption.
  { intros Hn. apply Hcp. unfold c, exactly. cbn [temperature_gradient_coefficient].
       destruct (temperature_gradient_coefficient _ (d_calibration d0)); [discriminate|]. exfalso. apply Hn. reflexivity. }
  split; [exact F1|]. split; [exact F2|]. cbv zeta.
  split; [exact D|]. split.
  - intros Ez. unfold doc_v_ir. destruct Hcond as (A1 & A2 & A3 & A4 & A5).
    assert (E1 : ram mem' (lay_address lay sp i) = ram mem (lay_address lay sp i)) by (unfold ram; rewrite Ez; reflexivity).
    assert (E2 : ram mem' (lay_cp lay sp) = ram mem (lay_cp lay sp)) by (unfold ram; rewrite A5; reflexivity).
    rewrite E1, E2.
    unfold doc_compensated, doc_gain, doc_v_dd, doc_t_a, doc_v_ptat_art, doc_delta_v, ram. rewrite A1, A2, A3, A4. reflexivity.
  - intros He Hg Hz. apply (counts_apart _ _ _ _ _ D He Hg) in Hz.
    match type of Hz with 0 < ?a - ?b => set (y := a) in *; set (x := b) in * end. change (x < y). clear - Hz. lra.
Qed.

Theorem C110_images_640 : forall l m p B ER EW (bs : bus B ER EW) w a (d0 : driver (FO := B32 l)) w',
  new bs (calib640_from_i2c (B32 l) p bs) 24 1536 w a = (Ok d0, w') ->
  exists data rest, trace (d_bus d0) = trace w ++ EvRead a [0x24; 0x00]%Z data None :: rest /\
  let ee := ee_word data in
  (* |K_T_PTAT| at least 1, K_V_DD not zero *)
  (8 <= Z.abs (sbits (ee 0x32%nat) 0 10) -> sbits (ee 0x33%nat) 8 8 <> 0 ->
   raw_images_fine m p bs (decoded_ptat_640 ee) layout640 d0)%Z.
Proof.
  intros l m p B ER EW bs w a d0 w' H. apply C29_new_640 in H. destruct H as (evs & Ht & H).
  remember (Ok d0) as r eqn:E. destruct H as [| | | |data c evs r Hl Hb Hc H]; try discriminate E.
  destruct H as [v d1 Hv Hf|]; [|discriminate E]. injection E as ->.
  pose proof (full_of_exact data Hb Hl) as Hd. destruct (C62_calibration_640 _ p data c Hd Hc) as [H1 H2].
  destruct (fresh_usable layout640 24 1536 a c v w' d0 H1 H2 ltac:(vm_compute; lia) ltac:(vm_compute; lia) Hf) as [Hu Hby].
  destruct Hf as (Ew & Ea & Ec & _ & _ & _ & _ & _ & _ & Er).
  exists data. eexists. split; [rewrite Ew; exact Ht|]. cbv zeta. intros Hkt Hkd.
  apply fine_from_calibration; try assumption.
  - eexists. rewrite Ec. exact Er.
  - rewrite Ec. apply (decoded_640 l p data c Hd Hc Hkt Hkd).
Qed.
Print Assumptions C110_images_640.

Theorem C110_images_641 : forall l m p B ER EW (bs : bus B ER EW) w a (d0 : driver (FO := B32 l)) w',
  new bs (calib641_from_i2c (B32 l) p bs) 12 384 w a = (Ok d0, w') ->
  exists data rest, trace (d_bus d0) = trace w ++ EvRead a [0x24; 0x00]%Z data None :: rest /\
  forall dw, corrected data dw ->
  (* alpha_PTAT at least 8, |K_T_PTAT| at least 1, K_V_DD not zero, the low half of V_PTAT_25 has 5 bits *)
  (1024 <= dw 0x2C%nat -> dw 0x29%nat < 32 -> 8 <= Z.abs (sext 11 (dw 0x2A%nat)) -> sext 11 (dw 0x27%nat) <> 0 ->
   raw_images_fine m p bs (ptat_641 dw) layout641 d0)%Z.
Proof.
  intros l m p B ER EW bs w a d0 w' H. apply C29_new_641 in H. destruct H as (evs & Ht & H).
  remember (Ok d0) as r eqn:E. destruct H as [| | | |data c evs r Hl Hb Hc H]; try discriminate E.
  destruct H as [v d1 Hv Hf|]; [|discriminate E]. injection E as ->.
  pose proof (full_of_exact data Hb Hl) as Hd. destruct (C62_calibration_641 _ p data c Hd Hc) as [H1 H2].
  destruct (fresh_usable layout641 12 384 a c v w' d0 H1 H2 ltac:(vm_compute; lia) ltac:(vm_compute; lia) Hf) as [Hu Hby].
  destruct Hf as (Ew & Ea & Ec & _ & _ & _ & _ & _ & _ & Er).
  exists data. eexists. split; [rewrite Ew; exact Ht|]. intros dw Hw Ha Hlow Hkt Hkd.
  apply fine_from_calibration; try assumption.
  - eexists. rewrite Ec. exact Er.
  - rewrite Ec. apply (C73_decoded_641 l p data dw c Hd Hw Hc Ha Hlow Hkt Hkd).
Qed.
Print Assumptions C110_images_641.

(** The gain's bound cannot be left out: without rounding a difference of one count always shows, but at a gain of
    about 2^-15 two words of a pixel with a large offset have the same binary32 value. *)
Definition merged (g o : f32) (z : Z) : f32 := b_sub (b_mul (b_ofZ z) g) o.
Example C110_gain_needed :
  let g := b_div (b_ofZ 1) (b_ofZ 32768) in
  b_eqb (merged g (b_ofZ 3000) 600) (merged g (b_ofZ 3000) 601) = true.
Proof. vm_compute. reflexivity. Qed.

(** ** Concrete case: the datasheet's camera and frame, and the same frame with one count more in one pixel; the hypotheses hold
    (C73_concrete) and the gain is 6383/6273; the two values computed are 1.0 to 1.03 apart. *)
Example C110_concrete : forall l m (c : calib (B32 l)),
  from_data640 (B32 l) Debug datasheet640 = Ok c ->
  let cr := exactly m c in
  let s := settings_exactly (sample_settings l) in
  let k := ptat_640 (ee_word datasheet640) in
  let i := 367%nat in
  well_calibrated c k /\ same_conditions layout640 Zero sample_mem noisy_mem /\
  plausible_frame k layout640 sample_mem /\ working_frame cr layout640 s sample_mem /\
  working_coefficients cr layout640 s sample_mem (nth i (k_v_pixels _ cr Zero) 0) (nth i (k_ta_pixels _ cr Zero) 0) /\
  working_coefficients cr layout640 s sample_mem (k_v_cp _ cr Zero) (k_ta_cp _ cr Zero) /\
  / 6 < doc_gain cr layout640 sample_mem /\
  (signed (sample_mem (lay_address layout640 Zero i)) < signed (noisy_mem (lay_address layout640 Zero i)))%Z.
Proof.
  intros l m c Hc cr s k i.
  destruct (C108_images_concrete l m c Hc) as (Hs & Hpl & Hwf & H4 & H5 & _).
  destruct (C73_concrete l m c Hc) as (Hw & _).
  split; [exact Hw|]. split; [exact Hs|]. split; [exact Hpl|]. split; [exact Hwf|]. split; [exact H4|]. split; [exact H5|].
  split; [|vm_compute; reflexivity].
  destruct (C42_scalar_parameters l Debug datasheet640 c datasheet640_full Hc) as (_ & _ & _ & Vg & _).
  assert (Pg : cal_gain _ cr = 6383).
  { change (cal_gain _ cr) with (B2R (cal_gain _ c)). rewrite (proj2 Vg). reflexivity. }
  unfold doc_gain. rewrite Pg. cbn [RealOps fdiv fofZ].
  replace (ram sample_mem (lay_gain layout640)) with 6273%Z by (vm_compute; reflexivity). lra.
Qed.

Definition fine_example : bool :=
  match from_data640 (B32 any_lib) Debug datasheet640 with
  | Ok c =>
      let x : f32 := doc_v_ir c layout640 (sample_settings any_lib) Zero sample_mem 367 in
      let x' : f32 := doc_v_ir c layout640 (sample_settings any_lib) Zero noisy_mem 367 in
      P_Finite.between (b_ofZ 1) (b_sub x' x) (b_div (b_ofZ 103) (b_ofZ 100))
  | _ => false
  end.
Example C110_values : fine_example = true.
Proof. vm_compute. reflexivity. Qed.
