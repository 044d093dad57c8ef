(** * P_PixelAccuracy: C73 -- the binary32 values of raw images are close to the exact ones. *)
From Verif Require Import Base FloatOps Register Bus Camera Cam640 Cam641 Calc Driver SpecRegister SpecEeprom SpecHamming ParseFacts
  SpecDriver DriverFacts StepFacts SpecCall P_Image P_Bus P_Frames SeenFacts P_Seen P_Calc Dumps Ee641Words
  SpecCamera SpecImage ImageFacts B32 B32Facts RealOps BoundFacts FiniteFacts FrameRateFacts
  FieldFacts Spec640 Ee640 Ee640Facts Ee640Closed P_Ee640 P_Ee640Real Spec641 Ee641 Ee641Closed Ee641Facts P_Ee641 P_Ee641Real P_Usable
  SpecFinite AccuracyFacts SpecAccuracy P_Finite P_Accuracy Driver.
From Coq Require Import Reals Lra.
From Flocq Require Import Core BinarySingleNaN.
Open Scope R_scope.

Lemma abs_split x b : Rabs x <= b -> - b <= x <= b.
Proof. intros H. pose proof (Rle_abs x). pose proof (Rle_abs (- x)) as A. rewrite Rabs_Ropp in A. lra. Qed.

(** Difference of the supply voltage from 3.3 V; [f33] is the literal 3.3. *)
Lemma near_volts fdv fc f33 dv c33 co : near fdv dv (u * Rabs dv + tiny) -> is_val f33 c33 -> 0 <= c33 <= 4 ->
  is_val fc co -> Rabs co <= 8 -> Rabs (dv * co) <= 1 ->
  near (b_sub (b_add (b_mul fdv fc) f33) f33) (dv * co) (9 * u).
Proof.
  intros [Fd Ed] V33 B33 Vc Bc Bd.
  assert (N1 : near (b_mul fdv fc) (dv * co) ((201 / 100) * u)).
  { apply (near_mul_at _ _ _ _ (u * 1 + 8 * tiny) 1); [exact Fd|apply Vc| |exact Bd|lra|lra].
    destruct Vc as [_ ->]. replace (B2R fdv * co - dv * co) with ((B2R fdv - dv) * co) by ring. rewrite Rabs_mult.
    apply Rle_trans with ((u * Rabs dv + tiny) * Rabs co).
    - apply Rmult_le_compat_r; [apply Rabs_pos|exact Ed].
    - rewrite Rmult_plus_distr_r. rewrite Rabs_mult in Bd.
      assert (tiny * Rabs co <= tiny * 8) by (apply Rmult_le_compat_l; lra).
      replace (u * Rabs dv * Rabs co) with (u * (Rabs dv * Rabs co)) by ring. lra. }
  apply abs_split in Bd.
  assert (N2 : near (b_add (b_mul fdv fc) f33) (dv * co + c33) ((71 / 10) * u)).
  { eapply (near_add _ _ _ _ _ 0 5); [exact N1|apply near_val; exact V33| |lra|lra]. apply Rabs_le. lra. }
  replace (dv * co) with (dv * co + c33 - c33) by ring.
  eapply (near_sub _ _ _ _ _ 0 1); [exact N2|apply near_val; exact V33| |lra|lra].
  apply Rabs_le. lra.
Qed.

(** One plus a coefficient times a deviation. *)
Lemma near_factor fk fx k x e K X : is_val fk k -> near fx x e -> Rabs k <= K -> Rabs (k * x) <= X ->
  K * e <= 1 -> X <= 1 ->
  near (b_add (b_ofZ 1) (b_mul fk fx)) (1 + k * x) ((1 + 3 * u) * (Rabs k * e) + u * (2 * X + 1) + 5 * u * u + 3 * tiny).
Proof.
  intros Vk [Fx Ex] Bk Bx He HX.
  assert (Pe : 0 <= e) by (eapply Rle_trans; [apply Rabs_pos|exact Ex]).
  assert (Pk := Rabs_pos k).
  assert (Pke : 0 <= Rabs k * e <= 1) by (split; [apply Rmult_le_pos; assumption|eapply Rle_trans; [apply Rmult_le_compat_r; eassumption|exact He]]).
  assert (V1 : is_val (b_ofZ 1) 1) by (apply (b_ofZ_correct 1); lia).
  assert (PX : 0 <= X) by (eapply Rle_trans; [apply Rabs_pos|exact Bx]).
  assert (N1 : near (b_mul fk fx) (k * x) (Rabs k * e + u * (X + Rabs k * e) + tiny)).
  { apply (near_mul_at _ _ _ _ (Rabs k * e) X); [apply Vk|exact Fx| |exact Bx|lra|lra].
    destruct Vk as [_ ->]. replace (k * B2R fx - k * x) with (k * (B2R fx - x)) by ring. rewrite Rabs_mult.
    apply Rmult_le_compat_l; [exact Pk|exact Ex]. }
  set (z := Rabs k * e) in *.
  eapply (near_add _ _ _ _ 0 _ (1 + X)); [apply near_val; exact V1|exact N1| |lra|lra].
  eapply Rle_trans; [apply Rabs_triang|]. rewrite Rabs_R1. lra.
Qed.

Section Compensated.
Context (fG fT fV fkta fkv fp fe : f32) (raw off : Z) (G T V kta kv pt e eT : R).
Hypothesis (NG : near fG G ((201 / 100) * u)) (BG : Rabs G <= 2).
Hypothesis (NT : near fT T eT) (BeT : 6 / 10000 <= eT <= 2 / 25) (BT : Rabs (T - 25) <= 128).
Hypothesis (NV : near fV V (9 * u)).
Hypothesis (Vkta : is_val fkta kta) (Bkta : Rabs kta <= 1) (Bkta' : Rabs (kta * (T - 25)) <= 1).
Hypothesis (Vkv : is_val fkv kv) (Bkv : Rabs kv <= 8) (Bkv' : Rabs (kv * V) <= 1 / 2).
Hypothesis (Vp : is_val fp pt) (Bp : Rabs pt <= 64).
Hypothesis (Ve : is_val fe e) (Be : 1 / 256 <= Rabs e <= 2).
Hypothesis (Braw : (Z.abs raw <= 32768)%Z) (Boff : (Z.abs off <= 32768)%Z).

Let o : R := Rabs (IZR off).
Let z : R := Rabs kta * eT.

Fact Ho : 0 <= o <= 32768.
Proof. unfold o. rewrite <- abs_IZR. split; apply IZR_le; lia. Qed.
Fact Hz : 0 <= z <= 2 / 25.
Proof. unfold z. pose proof (Rabs_pos kta). split; nra. Qed.

Fact near_t : near (b_sub fT (b_ofZ 25)) (T - 25) ((102 / 100) * eT).
Proof.
  assert (V25 : is_val (b_ofZ 25) 25) by (apply (b_ofZ_correct 25); lia).
  eapply (near_sub _ _ _ _ _ 0 128); [exact NT|apply near_val; exact V25|exact BT|lra|lra].
Qed.

Let X : R := 1 + kta * (T - 25).
Fact near_X : near (b_add (b_ofZ 1) (b_mul fkta (b_sub fT (b_ofZ 25)))) X ((103 / 100) * z + (31 / 10) * u).
Proof.
  pose proof Hz. eapply near_weaken.
  - apply (near_factor _ _ _ _ ((102 / 100) * eT) 1 1); [exact Vkta|exact near_t|exact Bkta|exact Bkta'|lra|lra].
  - replace (Rabs kta * (102 / 100 * eT)) with ((102 / 100) * z) by (unfold z; ring). lra.
Qed.
Fact HX : Rabs X <= 2.
Proof. apply abs_split in Bkta'. unfold X. apply Rabs_le. lra. Qed.

Let Y : R := 1 + kv * V.
Fact near_Y : near (b_add (b_ofZ 1) (b_mul fkv fV)) Y (75 * u).
Proof.
  eapply near_weaken.
  - apply (near_factor _ _ _ _ (9 * u) 8 (1 / 2)); [exact Vkv|exact NV|exact Bkv|exact Bkv'|lra|lra].
  - pose proof (Rmult_le_compat_r (9 * u) _ _ ltac:(lra) Bkv). lra.
Qed.
Fact HY : Rabs Y <= 3 / 2.
Proof. apply abs_split in Bkv'. unfold Y. apply Rabs_le. lra. Qed.

Fact near_offset : near (b_mul (b_mul (b_ofZ off) (b_add (b_ofZ 1) (b_mul fkta (b_sub fT (b_ofZ 25)))))
    (b_add (b_ofZ 1) (b_mul fkv fV))) (IZR off * X * Y) (o * ((8 / 5) * z + 163 * u) + 5 * tiny).
Proof.
  pose proof Hz as Z. pose proof Ho as O. pose proof HX as BX. pose proof HY as BY.
  assert (Vo : is_val (b_ofZ off) (IZR off)) by (apply b_ofZ_correct; lia).
  pose proof (Rmult_le_pos o z ltac:(lra) ltac:(lra)) as Poz.
  assert (Boz : o * z <= 32768 * (2 / 25)) by (apply Rmult_le_compat; lra).
  assert (BoX : Rabs (IZR off * X) <= o * 2) by (rewrite Rabs_mult; fold o; apply Rmult_le_compat_l; lra).
  assert (N1 : near (b_mul (b_ofZ off) (b_add (b_ofZ 1) (b_mul fkta (b_sub fT (b_ofZ 25))))) (IZR off * X)
                 (o * ((104 / 100) * z + (52 / 10) * u) + tiny)).
  { apply (near_mul _ _ _ _ 0 ((103 / 100) * z + (31 / 10) * u) o 2 (o * 2));
      [apply near_val; exact Vo|exact near_X|unfold o; lra|exact BX|exact BoX| |].
    - pose proof (Rmult_le_compat_l o _ _ ltac:(lra) (proj2 Z)). lra.
    - assert (u * (o * z) <= u * (o * (2 / 25))) by (apply Rmult_le_compat_l; [lra|]; apply Rmult_le_compat_l; lra). lra. }
  assert (Bxy : Rabs (IZR off * X * Y) <= o * 3).
  { rewrite Rabs_mult. replace (o * 3) with (o * 2 * (3 / 2)) by lra.
    apply Rmult_le_compat; [apply Rabs_pos|apply Rabs_pos|exact BoX|exact BY]. }
  eapply (near_mul _ _ _ _ _ _ (o * 2) (3 / 2) (o * 3)); [exact N1|exact near_Y|exact BoX|exact BY|exact Bxy| |].
  - lra.
  - assert (u * (o * z) <= u * (o * (2 / 25))) by (apply Rmult_le_compat_l; [lra|]; apply Rmult_le_compat_l; lra). lra.
Qed.

Let S : R := IZR raw * G + pt.
Fact near_signal : near (b_add (b_mul (b_ofZ raw) fG) fp) S (65536 * (306 / 100) * u).
Proof.
  assert (Vr : is_val (b_ofZ raw) (IZR raw)) by (apply b_ofZ_correct; lia).
  assert (Br : Rabs (IZR raw) <= 32768) by (rewrite <- abs_IZR; apply IZR_le; lia).
  assert (B1 : Rabs (IZR raw * G) <= 65536).
  { rewrite Rabs_mult. replace 65536 with (32768 * 2) by lra. apply Rmult_le_compat; try apply Rabs_pos; assumption. }
  assert (N1 : near (b_mul (b_ofZ raw) fG) (IZR raw * G) (65536 * (202 / 100) * u)).
  { eapply (near_mul _ _ _ _ 0 _ 32768 2 65536); [apply near_val; exact Vr|exact NG|exact Br|exact BG|exact B1|lra|lra]. }
  eapply (near_add _ _ _ _ _ 0 65600); [exact N1|apply near_val; exact Vp| |lra|lra].
  eapply Rle_trans; [apply Rabs_triang|]. lra.
Qed.
Fact HS : Rabs S <= 65600.
Proof.
  assert (Br : Rabs (IZR raw) <= 32768) by (rewrite <- abs_IZR; apply IZR_le; lia).
  assert (B1 : Rabs (IZR raw * G) <= 65536).
  { rewrite Rabs_mult. replace 65536 with (32768 * 2) by lra. apply Rmult_le_compat; try apply Rabs_pos; assumption. }
  unfold S. eapply Rle_trans; [apply Rabs_triang|]. lra.
Qed.

Definition exact_compensated : R := (S - IZR off * X * Y) / e.
Fact compensated_size : Rabs exact_compensated <= (65600 + 3 * o) / Rabs e.
Proof.
  pose proof HX as BX. pose proof HY as BY. pose proof Ho as O. pose proof HS as BS.
  assert (Bxy : Rabs (IZR off * X * Y) <= o * 3).
  { rewrite Rabs_mult. replace (o * 3) with (o * 2 * (3 / 2)) by lra.
    apply Rmult_le_compat; [apply Rabs_pos|apply Rabs_pos| |exact BY].
    rewrite Rabs_mult. fold o. apply Rmult_le_compat_l; lra. }
  unfold exact_compensated, Rdiv. rewrite Rabs_mult, Rabs_inv.
  apply Rmult_le_compat_r; [apply Rlt_le, Rinv_0_lt_compat; lra|].
  unfold Rminus. eapply Rle_trans; [apply Rabs_triang|]. rewrite Rabs_Ropp. lra.
Qed.

Lemma near_compensated :
  near (b_div (b_sub (b_add (b_mul (b_ofZ raw) fG) fp)
         (b_mul (b_mul (b_ofZ off) (b_add (b_ofZ 1) (b_mul fkta (b_sub fT (b_ofZ 25))))) (b_add (b_ofZ 1) (b_mul fkv fV)))) fe)
    exact_compensated ((1 / 50 + o * ((17 / 10) * z + 1 / 90000)) / Rabs e).
Proof.
  pose proof Hz as Z. pose proof Ho as O. pose proof HS as BS. pose proof compensated_size as BC.
  pose proof (Rmult_le_pos o z ltac:(lra) ltac:(lra)) as Poz.
  assert (Boz : o * z <= 32768 * (2 / 25)) by (apply Rmult_le_compat; lra).
  assert (N1 : near (b_sub (b_add (b_mul (b_ofZ raw) fG) fp)
         (b_mul (b_mul (b_ofZ off) (b_add (b_ofZ 1) (b_mul fkta (b_sub fT (b_ofZ 25))))) (b_add (b_ofZ 1) (b_mul fkv fV))))
         (S - IZR off * X * Y) (65536 * (408 / 100) * u + o * ((161 / 100) * z + 167 * u))).
  { eapply (near_sub _ _ _ _ _ _ (65600 + 3 * o)); [exact near_signal|exact near_offset| |lra|].
    - pose proof HX as BX. pose proof HY as BY.
      assert (Bxy : Rabs (IZR off * X * Y) <= o * 3).
      { rewrite Rabs_mult. replace (o * 3) with (o * 2 * (3 / 2)) by lra.
        apply Rmult_le_compat; [apply Rabs_pos|apply Rabs_pos| |exact BY].
        rewrite Rabs_mult. fold o. apply Rmult_le_compat_l; lra. }
      unfold Rminus. eapply Rle_trans; [apply Rabs_triang|]. rewrite Rabs_Ropp. lra.
    - assert (u * (o * z) <= u * (o * (2 / 25))) by (apply Rmult_le_compat_l; [lra|]; apply Rmult_le_compat_l; lra). lra. }
  set (E := / Rabs e). assert (HE : E * Rabs e = 1) by (unfold E; apply Rinv_l; lra).
  assert (BE : 1 / 2 <= E <= 256).
  { split; apply Rmult_le_reg_r with (Rabs e); try lra. }
  unfold exact_compensated.
  set (q := (65536 * (408 / 100) * u + o * ((161 / 100) * z + 167 * u)) * E).
  assert (Pq : 0 <= 65536 * (408 / 100) * u + o * ((161 / 100) * z + 167 * u)) by lra.
  assert (Bq : 65536 * (408 / 100) * u + o * ((161 / 100) * z + 167 * u) <= 5000) by lra.
  apply (near_div _ _ _ _ (65536 * (408 / 100) * u + o * ((161 / 100) * z + 167 * u)) 0 ((65600 + 3 * o) / Rabs e) (Rabs e) q);
    [exact N1|apply near_val; exact Ve|lra|lra|exact BC| | | |].
  - rewrite Rminus_0_r. unfold q. rewrite (Rmult_assoc _ E), HE. lra.
  - unfold q. apply Rmult_le_pos; lra.
  - unfold Rdiv. fold E. unfold q. rewrite <- Rmult_plus_distr_r.
    apply Rle_trans with (200000 * 256); [|lra]. apply Rmult_le_compat; lra.
  - unfold Rdiv. fold E. 
    assert (Q : tiny <= E * (2 * tiny)) by lra.
    assert (L : (65536 * (408 / 100) * u + o * ((161 / 100) * z + 167 * u)) +
      u * (65600 + 3 * o + (65536 * (408 / 100) * u + o * ((161 / 100) * z + 167 * u))) + 2 * tiny <=
      1 / 50 + o * ((17 / 10) * z + 1 / 90000)).
    { assert (u * (o * z) <= u * (o * (2 / 25))) by (apply Rmult_le_compat_l; [lra|]; apply Rmult_le_compat_l; lra). lra. }
    apply (Rmult_le_compat_r E) in L; [|lra]. unfold q. lra.
Qed.
End Compensated.

(** ** Calibration data *)
(** What the decoders guarantee (C73_decoded_640, C73_decoded_641). *)
Record well_calibrated {l : libm} (c : calib (B32 l)) (k : ptat_constants) : Prop := {
  wl_ordinary : ordinary c;
  wl_carries : carries c k;
  wl_v_dd_0 : v_dd_0 _ c = @f_3_3 (B32 l);
  wl_alpha : 8 <= pc_alpha k <= 16;
  wl_k_v : Rabs (pc_k_v k) <= 1;
  wl_k_t : 1 <= Rabs (pc_k_t k) <= 128;
  wl_v_25 : Rabs (pc_v_25 k) <= 65536
}.

Lemma within_finite x e : within x e -> is_val x (B2R x).
Proof. intros [F _]. split; [exact F|reflexivity]. Qed.

Lemma B2R_0 : B2R (b_ofZ 0) = 0.
Proof. reflexivity. Qed.

Lemma Rpower_18 : Rpower 2 (IZR 18) = 262144.
Proof. change 18%Z with (Z.of_nat 18). rewrite <- INR_IZR_INZ, Rpower_pow by lra. lra. Qed.

Section Pixels.
Context {l : libm} (m : camera RealOps) (c : calib (B32 l)) (k : ptat_constants) (lay : layout)
  (s : settings (FO := B32 l)) (sp : subpage) (mem : Z -> Z).
Hypothesis (Hc : well_calibrated c k) (Hm : forall a, word (mem a)) (Hp : plausible_frame k lay mem).
Hypothesis (Fe : is_finite (set_emissivity s) = true) (Fr : within (set_correction s) 3).
Let cr := exactly m c.
Let sr := settings_exactly s.

Fact no_wrap : wrap16 (SpecImage.ram mem (lay_vdd lay) - v_dd_25 _ c) = (signed (mem (lay_vdd lay)) - pc_vdd_25 k)%Z.
Proof.
  destruct (wl_carries _ _ Hc) as [_ _ _ _ Ev _]. destruct Hp as [_ _ Hv _]. unfold reading in Hv.
  rewrite <- minus_IZR in Hv. destruct Hv as [H1 H2]. apply le_IZR in H1. apply le_IZR in H2.
  rewrite Ev. unfold SpecImage.ram, wrap16. rewrite Z.mod_small by (clear - H1 H2; lia). ring.
Qed.

Fact exact_dv : doc_delta_v cr lay mem = exact_delta_v k lay mem.
Proof.
  destruct (wl_carries _ _ Hc) as [_ _ _ _ Ev Ek].
  unfold doc_delta_v. cbn [RealOps fdiv fofZ]. change (v_dd_25 _ cr) with (v_dd_25 _ c). change (k_v_dd _ cr) with (k_v_dd _ c).
  rewrite no_wrap, Ek, minus_IZR. reflexivity.
Qed.

Fact exact_ta : doc_t_a cr lay mem = exact_t_a k lay mem.
Proof.
  destruct (wl_carries _ _ Hc) as [Va Vk Vt Vv _ _].
  unfold doc_t_a, doc_v_ptat_art. rewrite exact_dv. cbn [RealOps fadd fsub fmul fdiv fofZ fexp2].
  unfold cr, exactly. cbn [alpha_ptat k_v_ptat v_ptat_25 k_t_ptat].
  rewrite (proj2 Va), (proj2 Vk), (proj2 Vt), (proj2 Vv), Rpower_18. reflexivity.
Qed.

Fact kt_real : k_t_ptat _ cr = pc_k_t k.
Proof. exact (proj2 (ca_k_t _ _ (wl_carries _ _ Hc))). Qed.

Hypothesis (Hw : working_frame cr lay sr mem).

Fact near_ta : near (doc_t_a c lay mem) (doc_t_a cr lay mem) (2 / 25 / Rabs (pc_k_t k)).
Proof.
  rewrite exact_ta. destruct Hc as [Ho Hk _ B1 B2 B3 B4]. apply doc_t_a_near; try assumption; [lra|].
  destruct (ord_k_v_dd _ Ho) as (n & En & Hn & Bn). rewrite <- (ca_k_vdd _ _ Hk), En. clear - Hn Bn. lia.
Qed.
Fact eT_bounds : 6 / 10000 <= 2 / 25 / Rabs (pc_k_t k) <= 2 / 25.
Proof.
  pose proof (wl_k_t _ _ Hc) as B. set (t := Rabs (pc_k_t k)) in *.
  assert (E : / t * t = 1) by (apply Rinv_l; lra).
  assert (/ 128 <= / t) by (apply Rinv_le; lra). assert (/ t <= / 1) by (apply Rinv_le; lra). rewrite Rinv_1 in *. unfold Rdiv. lra.
Qed.

Fact volts : doc_v_dd cr lay sr mem - 33 / 10 = doc_delta_v cr lay mem * B2R (set_correction s).
Proof.
  unfold doc_v_dd. cbn [RealOps fadd fmul]. unfold cr at 2, exactly. cbn [v_dd_0].
  unfold sr, settings_exactly. cbn [set_correction]. ring.
Qed.

Lemma val_3_3 : is_val (@f_3_3 (B32 l)) (B2R (@f_3_3 (B32 l))) /\
  0 <= B2R (@f_3_3 (B32 l)) <= 4.
Proof.
  cbn [B32 f_3_3].
  split; [split; reflexivity|].
  replace (B2R (b_div (b_ofZ 33) (b_ofZ 10))) with (IZR 13841203 * bpow radix2 (-22))%R by reflexivity.
  change (bpow radix2 (-22)) with (/ IZR 4194304)%R. lra.
Qed.

Fact near_vdd : near (b_sub (doc_v_dd c lay s mem) (@f_3_3 (B32 l)))
  (doc_v_dd cr lay sr mem - 33 / 10) (9 * u).
Proof.
  rewrite volts. unfold doc_v_dd. cbn [B32 fadd fmul]. rewrite (wl_v_dd_0 _ _ Hc).
  destruct val_3_3 as [V33 B33].
  apply (near_volts _ _ _ _ (B2R (@f_3_3 (B32 l)))); [|exact V33|exact B33|apply (within_finite _ _ Fr)| |].
  - rewrite exact_dv. unfold doc_delta_v. rewrite no_wrap, (ca_k_vdd _ _ (wl_carries _ _ Hc)). cbn [B32 fdiv fofZ].
    unfold exact_delta_v, reading. rewrite <- minus_IZR.
    destruct Hp as [_ _ Hv _]. unfold reading in Hv.
    rewrite <- minus_IZR in Hv. destruct Hv as [H1 H2]. apply le_IZR in H1. apply le_IZR in H2.
    destruct (ord_k_v_dd _ (wl_ordinary _ _ Hc)) as (n & En & Hn & Bn).
    rewrite (ca_k_vdd _ _ (wl_carries _ _ Hc)) in En.
    apply near_dv; [clear - H1 H2; lia|rewrite En; clear - Hn Bn; lia].
  - destruct Fr as [_ B]. exact B.
  - rewrite <- volts. apply (wf_supply _ _ _ _ Hw).
Qed.

Fact near_gain : near (doc_gain c lay mem) (doc_gain cr lay mem) ((201 / 100) * u).
Proof.
  pose proof (wf_gain _ _ _ _ Hw) as B. pose proof (wf_gain_reading _ _ _ _ Hw) as Hg.
  pose proof (signed_abs _ (Hm (lay_gain lay))) as Sg.
  unfold doc_gain in *. cbn [B32 RealOps fdiv fofZ] in *. change (cal_gain _ cr) with (B2R (cal_gain _ c)) in *.
  unfold SpecImage.ram in *.
  assert (Vg : is_val (b_ofZ (signed (mem (lay_gain lay)))) (IZR (signed (mem (lay_gain lay))))) by (apply b_ofZ_correct; clear - Sg; lia).
  apply (near_div _ _ _ _ 0 0 2 1 0); [apply near_val, (within_finite _ _ (ord_gain _ (wl_ordinary _ _ Hc)))|apply near_val; exact Vg| |lra|exact B|lra|lra|lra|lra].
  rewrite <- abs_IZR. apply IZR_le. clear - Hg. lia.
Qed.

Lemma near_value raw off fkv fkta term :
  (Z.abs raw <= 32768)%Z -> (Z.abs off <= 32768)%Z -> is_finite fkv = true -> is_finite fkta = true ->
  working_coefficients cr lay sr mem (B2R fkv) (B2R fkta) ->
  (forall x, term = Some x -> within x 6) ->
  near (doc_compensated c lay s mem raw off fkv fkta term)
    (doc_compensated cr lay sr mem raw off (B2R fkv) (B2R fkta) (option_map B2R term))
    ((1 / 50 + Rabs (IZR off) * ((17 / 10) * (Rabs (B2R fkta) * (2 / 25 / Rabs (pc_k_t k))) + 1 / 90000)) / Rabs (B2R (set_emissivity s))) /\
  Rabs (doc_compensated cr lay sr mem raw off (B2R fkv) (B2R fkta) (option_map B2R term)) <=
    (65600 + 3 * Rabs (IZR off)) / Rabs (B2R (set_emissivity s)).
Proof.
  intros Hr Ho Fv Ft [W1 W2 W3 W4] Hterm.
  assert (Hpt : exists pt, is_val (match term with Some v => v | None => b_ofZ 0 end) pt /\ Rabs pt <= 64 /\
     match option_map B2R term with Some v => v | None => 0 end = pt).
  { destruct term as [x|].
    - destruct (Hterm x eq_refl) as [F B]. exists (B2R x). split; [split; [exact F|reflexivity]|]. split; [exact B|reflexivity].
    - exists 0. split; [apply (b_ofZ_correct 0); lia|]. rewrite Rabs_R0. split; [lra|reflexivity]. }
  destruct Hpt as (pt & Vp & Bp & Ep).
  assert (E : doc_compensated cr lay sr mem raw off (B2R fkv) (B2R fkta) (option_map B2R term) =
    exact_compensated raw off (doc_gain cr lay mem) (doc_t_a cr lay mem) (doc_v_dd cr lay sr mem - 33 / 10)
      (B2R fkta) (B2R fkv) pt (B2R (set_emissivity s))).
  { unfold doc_compensated, exact_compensated. cbn [RealOps fadd fsub fmul fdiv fofZ f_3_3].
    unfold sr at 2, settings_exactly. cbn [set_emissivity]. rewrite <- Ep. destruct term; reflexivity. }
  rewrite E. pose proof (wf_gain _ _ _ _ Hw) as BG. pose proof (wf_ambient _ _ _ _ Hw) as BT.
  pose proof (wf_emissivity _ _ _ _ Hw) as Be. change (set_emissivity sr) with (B2R (set_emissivity s)) in Be.
  split.
  - unfold doc_compensated. cbn [B32 fadd fsub fmul fdiv fofZ].
    apply (near_compensated _ _ _ _ _ _ _ raw off); try assumption.
    + exact near_gain.
    + exact near_ta.
    + exact eT_bounds.
    + exact near_vdd.
    + split; [exact Ft|reflexivity].
    + split; [exact Fv|reflexivity].
    + split; [exact Fe|reflexivity].
  - apply compensated_size; assumption.
Qed.

(** Room left in the tolerance. *)
Lemma tolerance_room off kta :
  let e := (1 / 50 + Rabs (IZR off) * ((17 / 10) * (Rabs kta * (2 / 25 / Rabs (pc_k_t k))) + 1 / 90000)) / Rabs (B2R (set_emissivity s)) in
  let Q := (65600 + 3 * Rabs (IZR off)) / Rabs (B2R (set_emissivity s)) in
  (Z.abs off <= 32768)%Z -> Rabs kta <= 1 ->
  0 <= e <= 10000000 /\ 0 <= Q <= 100000000 /\ e + (21 / 10) * u * (Q + e) + 3 * tiny <= tolerance cr sr off kta.
Proof.
  cbv zeta. intros Ho Hk. pose proof (wf_emissivity _ _ _ _ Hw) as Be. change (set_emissivity sr) with (B2R (set_emissivity s)) in Be.
  unfold tolerance. rewrite kt_real. change (set_emissivity sr) with (B2R (set_emissivity s)).
  pose proof (wl_k_t _ _ Hc) as Bt.
  assert (Bo : 0 <= Rabs (IZR off) <= 32768) by (rewrite <- abs_IZR; split; apply IZR_le; clear - Ho; lia).
  set (o := Rabs (IZR off)) in *. set (ep := Rabs (B2R (set_emissivity s))) in *. set (t := Rabs (pc_k_t k)) in *.
  unfold Rdiv. set (E := / ep). set (T := / t).
  assert (HE : E * ep = 1) by (apply Rinv_l; lra).
  assert (BE : 1 / 2 <= E <= 256) by (split; apply Rmult_le_reg_r with ep; lra).
  assert (HT : T * t = 1) by (apply Rinv_l; lra).
  assert (BT : 0 <= T <= 1) by (split; apply Rmult_le_reg_r with t; lra).
  assert (Pk := Rabs_pos kta). set (y := Rabs kta) in *.
  assert (Bw : 0 <= y * T <= 1).
  { split; [apply Rmult_le_pos; lra|]. replace 1 with (1 * 1) by lra. apply Rmult_le_compat; lra. }
  replace (17 * / 10 * (y * (2 * / 25 * T)) + 1 * / 90000) with (34 / 250 * (y * T) + 1 / 90000) by lra.
  replace (14 * / 100 * y * T) with (14 / 100 * (y * T)) by lra.
  set (w := y * T) in *.
  assert (Bow : 0 <= o * w <= 32768).
  { split; [apply Rmult_le_pos; lra|]. replace 32768 with (32768 * 1) by lra. apply Rmult_le_compat; lra. }
  set (ow := o * w) in *.
  assert (Be1 : 0 <= (1 * / 50 + o * (34 / 250 * w + 1 / 90000)) <= 5000).
  { replace (o * (34 / 250 * w + 1 / 90000)) with (34 / 250 * ow + o / 90000) by (unfold ow; lra). lra. }
  assert (BQ1 : 0 <= 65600 + 3 * o <= 200000) by lra.
  split; [|split].
  - split; [apply Rmult_le_pos; lra|]. apply Rle_trans with (5000 * 256); [apply Rmult_le_compat; lra|lra].
  - split; [apply Rmult_le_pos; lra|]. apply Rle_trans with (200000 * 256); [apply Rmult_le_compat; lra|lra].
  - rewrite <- Rmult_plus_distr_r.
    assert (L : (1 * / 50 + o * (34 / 250 * w + 1 / 90000)) + 21 * / 10 * u * (65600 + 3 * o + (1 * / 50 + o * (34 / 250 * w + 1 / 90000))) + 6 * tiny
              <= 1 * / 32 + o * (14 / 100 * w + 1 * / 80000)).
    { replace (o * (34 / 250 * w + 1 / 90000)) with (34 / 250 * ow + o / 90000) by (unfold ow; lra).
      replace (o * (14 / 100 * w + 1 * / 80000)) with (14 / 100 * ow + o / 80000) by (unfold ow; lra). lra. }
    apply (Rmult_le_compat_r E) in L; [|lra]. rewrite !Rmult_plus_distr_r in L.
    rewrite !Rmult_plus_distr_r. lra.
Qed.

Lemma nth_map_B2R (xs : list f32) i : nth i (map B2R xs) 0 = B2R (nth i xs (b_ofZ 0)).
Proof. exact (map_nth (@B2R 24 128) xs (b_ofZ 0) i). Qed.

Lemma near_pixel i :
  working_coefficients cr lay sr mem (nth i (k_v_pixels _ cr sp) 0) (nth i (k_ta_pixels _ cr sp) 0) ->
  (temperature_gradient_coefficient _ c <> None -> working_coefficients cr lay sr mem (k_v_cp _ cr sp) (k_ta_cp _ cr sp)) ->
  near (doc_v_ir c lay s sp mem i) (doc_v_ir cr lay sr sp mem i) (pixel_tolerance cr sr sp i).
Proof.
  intros Hpx Hcp. pose proof (wl_ordinary _ _ Hc) as O.
  change (k_v_pixels _ cr sp) with (map B2R (k_v_pixels _ c sp)) in Hpx.
  change (k_ta_pixels _ cr sp) with (map B2R (k_ta_pixels _ c sp)) in Hpx.
  rewrite !nth_map_B2R in Hpx.
  set (fkv := nth i (k_v_pixels _ c sp) (b_ofZ 0)) in *. set (fkta := nth i (k_ta_pixels _ c sp) (b_ofZ 0)) in *.
  set (off := nth i (offset_reference_pixels _ c sp) 0%Z) in *.
  set (term := nth i (access_pattern_compensation_pixels _ c (set_pattern s)) None) in *.
  assert (Eterm : nth i (access_pattern_compensation_pixels _ cr (set_pattern sr)) None = option_map B2R term).
  { change (access_pattern_compensation_pixels _ cr (set_pattern sr)) with
      (map (option_map B2R) (access_pattern_compensation_pixels _ c (set_pattern s))).
    exact (map_nth (option_map (@B2R 24 128)) _ None i). }
  destruct (near_value (SpecImage.ram mem (lay_address lay sp i)) off fkv fkta term) as [N Q].
  { apply signed_abs, Hm. }
  { apply (ord_offset _ O). }
  { apply (ord_k_v _ O). }
  { apply (ord_k_ta _ O). }
  { exact Hpx. }
  { intros x Hx. exact (ord_pattern _ O _ _ _ Hx). }
  destruct (tolerance_room off (B2R fkta)) as (Be & BQ & L); [apply (ord_offset _ O)|apply (wc_kta _ _ _ _ _ _ Hpx)|].
  assert (Etol : tolerance cr sr (nth i (offset_reference_pixels _ cr sp) 0%Z) (nth i (k_ta_pixels _ cr sp) 0) = tolerance cr sr off (B2R fkta)).
  { change (k_ta_pixels _ cr sp) with (map B2R (k_ta_pixels _ c sp)). rewrite nth_map_B2R. reflexivity. }
  unfold doc_v_ir, pixel_tolerance. rewrite Eterm, Etol.
  change (k_v_pixels _ cr sp) with (map B2R (k_v_pixels _ c sp)).
  change (k_ta_pixels _ cr sp) with (map B2R (k_ta_pixels _ c sp)).
  change (@fofZ RealOps 0) with 0. change (@fofZ (B32 l) 0) with (b_ofZ 0). rewrite !nth_map_B2R.
  fold fkv fkta off term.
  change (offset_reference_pixels _ cr sp) with (offset_reference_pixels _ c sp). fold off.
  change (temperature_gradient_coefficient _ cr) with (option_map B2R (temperature_gradient_coefficient _ c)).
  destruct (temperature_gradient_coefficient _ c) as [g|] eqn:Eg; cbn [option_map].
  - specialize (Hcp ltac:(discriminate)).
    change (k_v_cp _ cr sp) with (B2R (k_v_cp _ c sp)) in *. change (k_ta_cp _ cr sp) with (B2R (k_ta_cp _ c sp)) in *.
    change (offset_reference_cp _ cr sp) with (offset_reference_cp _ c sp).
    change (access_pattern_compensation_cp _ cr sp (set_pattern sr)) with (option_map B2R (access_pattern_compensation_cp _ c sp (set_pattern s))).
    destruct (near_value (SpecImage.ram mem (lay_cp lay sp)) (offset_reference_cp _ c sp) (k_v_cp _ c sp) (k_ta_cp _ c sp)
                (access_pattern_compensation_cp _ c sp (set_pattern s))) as [N' Q'].
    { apply signed_abs, Hm. }
    { apply (ord_offset_cp _ O). }
    { apply (ord_k_v_cp _ O). }
    { apply (ord_k_ta_cp _ O). }
    { exact Hcp. }
    { intros x Hx. exact (ord_pattern_cp _ O _ _ _ Hx). }
    destruct (tolerance_room (offset_reference_cp _ c sp) (B2R (k_ta_cp _ c sp))) as (Be' & BQ' & L');
      [apply (ord_offset_cp _ O)|apply (wc_kta _ _ _ _ _ _ Hcp)|].
    destruct (ord_tgc _ O g Eg) as [Fg Bg]. change (bpow radix2 2) with 4 in Bg.
    cbn [B32 RealOps fsub fmul].
    match type of N with near ?x ?r ?e => set (v := x) in *; set (vr := r) in *; set (ev := e) in * end.
    match type of N' with near ?x ?r ?e => set (v' := x) in *; set (vr' := r) in *; set (ev' := e) in * end.
    match type of Q with _ <= ?q => set (qv := q) in * end.
    match type of Q' with _ <= ?q => set (qv' := q) in * end.
    set (t := Rabs (B2R g)) in *. assert (Pt : 0 <= t) by apply Rabs_pos.
    assert (M : Rabs (B2R g * vr') <= t * qv') by (rewrite Rabs_mult; apply Rmult_le_compat_l; [exact Pt|exact Q']).
    assert (Z1 : 0 <= t * ev' <= 4 * 10000000) by (split; [apply Rmult_le_pos; lra|apply Rmult_le_compat; lra]).
    assert (Z2 : 0 <= t * qv' <= 4 * 100000000) by (split; [apply Rmult_le_pos; lra|apply Rmult_le_compat; lra]).
    assert (N2 : near (b_mul g v') (B2R g * vr') (t * ev' + u * (t * qv' + t * ev') + tiny)).
    { apply (near_mul_at _ _ _ _ (t * ev') (t * qv')); [exact Fg|apply N'| |exact M|lra|lra].
      replace (B2R g * B2R v' - B2R g * vr') with (B2R g * (B2R v' - vr')) by ring. rewrite Rabs_mult.
      apply Rmult_le_compat_l; [exact Pt|apply N']. }
    assert (L2 := Rmult_le_compat_l t _ _ Pt L'). 
    set (tol' := tolerance cr sr (offset_reference_cp _ c sp) (B2R (k_ta_cp _ c sp))) in *.
    eapply (near_sub _ _ _ _ _ _ (qv + t * qv')); [exact N|exact N2| |lra|].
    + unfold Rminus. eapply Rle_trans; [apply Rabs_triang|]. rewrite Rabs_Ropp. apply Rplus_le_compat; [exact Q|exact M].
    + replace (t * (ev' + 21 / 10 * u * (qv' + ev') + 3 * tiny)) with (t * ev' + 21 / 10 * u * (t * qv' + t * ev') + 3 * tiny * t) in L2 by ring.
      assert (0 <= tiny * t) by (apply Rmult_le_pos; lra). lra.
  - eapply near_weaken; [exact N|]. lra.
Qed.
End Pixels.

(** ** The decoders *)
Lemma eighths z lo hi : (8 * lo <= Z.abs z <= 8 * hi)%Z -> IZR lo <= Rabs (IZR z / 8) <= IZR hi.
Proof.
  intros H. unfold Rdiv. rewrite Rabs_mult, (Rabs_pos_eq (/ 8)) by lra. rewrite <- abs_IZR.
  destruct H as [H1 H2]. apply IZR_le in H1. apply IZR_le in H2. rewrite mult_IZR in H1, H2. lra.
Qed.

Theorem C73_decoded_640 : forall l p data (c : calib (B32 l)), full_dump data ->
  from_data640 (B32 l) p data = Ok c ->
  (* alpha_PTAT whole, |K_T_PTAT| at least 1, K_V_DD not zero *)
  (bits (ee_word data 0x10) 12 4 mod 4 = 0 -> 8 <= Z.abs (sbits (ee_word data 0x32) 0 10) ->
   sbits (ee_word data 0x33) 8 8 <> 0 -> well_calibrated c (ptat_640 (ee_word data)))%Z.
Proof.
  intros l p data c Hd Hc Hm Ht Hk.
  destruct (ptat_640_bounds data Hd) as (B1 & B2 & B3).
  constructor; try assumption.
  - apply (C67_decoded_640 l p data c Hd Hc Hk).
  - apply (C72_constants_640 l p data c Hd Hc Hm).
  - rewrite (decoded_is (B32 l) p data c Hd Hc). reflexivity.
  - cbn [ptat_640 pc_k_t]. apply (eighths _ 1 128).
    pose proof (sbits_range (ee_word data 0x32) 0 10 ltac:(lia)) as R. change (2 ^ (10 - 1))%Z with 512%Z in R. clear - R Ht. lia.
Qed.
Print Assumptions C73_decoded_640.

Theorem C73_decoded_641 : forall l p data dw (c : calib (B32 l)), full_dump data -> corrected data dw ->
  from_data641 (B32 l) p data = Ok c ->
  (* alpha_PTAT at least 8, |K_T_PTAT| at least 1, K_V_DD not zero, the low half of V_PTAT_25 has 5 bits *)
  (1024 <= dw 0x2C%nat -> dw 0x29%nat < 32 -> 8 <= Z.abs (sext 11 (dw 0x2A%nat)) -> sext 11 (dw 0x27%nat) <> 0 ->
   well_calibrated c (ptat_641 dw))%Z.
Proof.
  intros l p data dw c Hd Hw Hc Ha Hlow Hkt Hkd.
  pose proof (dw_range data dw Hd Hw 0x2C ltac:(used)) as R1.
  pose proof (dw_range data dw Hd Hw 0x28 ltac:(used)) as R2.
  pose proof (dw_range data dw Hd Hw 0x29 ltac:(used)) as R3.
  pose proof (signed11_small data dw 0x2A Hd Hw ltac:(used)) as R4.
  pose proof (signed11_small data dw 0x2B Hd Hw ltac:(used)) as R5. unfold signed11 in R4, R5.
  constructor.
  - apply (C67_decoded_641 l p data dw c Hd Hw Hc). exact Hkd.
  - apply (C72_constants_641 l p data dw c Hd Hw Hc Hlow).
  - rewrite (decoded_is641 (B32 l) p data Hd c Hc). reflexivity.
  - cbn [ptat_641 pc_alpha]. assert (1024 <= IZR (dw 0x2C%nat) <= 2048) by (split; apply IZR_le; clear - R1 Ha; lia). lra.
  - cbn [ptat_641 pc_k_v]. apply abs_between.
    assert (-1024 <= IZR (sext 11 (dw 0x2B%nat)) <= 1024) by (split; apply IZR_le; clear - R5; lia). lra.
  - cbn [ptat_641 pc_k_t]. apply (eighths _ 1 128). clear - R4 Hkt. lia.
  - cbn [ptat_641 pc_v_25]. apply abs_between.
    assert (0 <= IZR (32 * dw 0x28%nat + dw 0x29%nat) <= 65536) by (split; apply IZR_le; clear - R2 R3 Hlow; lia). lra.
Qed.
Print Assumptions C73_decoded_641.

(** ** Raw images *)
(** Every value stored by [generate_raw_image_subpage_to] is within its tolerance of
    the documented formula evaluated over the reals on the same calibration data,
    settings and frame. *)
Theorem C73_raw_pixels_accurate : forall l m p B ER EW (bs : bus B ER EW) lay (d : driver (FO := B32 l)) k sp dest d' dest' evs mem,
  usable d lay -> well_calibrated (d_calibration d) k ->
  (exists cal cur, d_resolution_correction d = resolution_correction _ (cam _ (d_calibration d)) cal cur) ->
  is_finite (d_emissivity d) = true ->
  step p bs d (OpGenerateRawSubpage sp dest) = (Ok OutUnit, d', dest') ->
  trace (d_bus d') = trace (d_bus d) ++ evs ->
  (forall a, word (mem a)) -> Forall (shows mem) evs ->
  let c := exactly m (d_calibration d) in
  let s := settings_exactly (settings_of d) in
  plausible_frame k lay mem -> working_frame c lay s mem ->
  forall i, (i < length dest)%nat -> measured lay sp (d_access_pattern d) i = true ->
  working_coefficients c lay s mem (nth i (k_v_pixels _ c sp) 0) (nth i (k_ta_pixels _ c sp) 0) ->
  (temperature_gradient_coefficient _ c <> None -> working_coefficients c lay s mem (k_v_cp _ c sp) (k_ta_cp _ c sp)) ->
  exists x, nth_error dest' i = Some x /\ is_finite x = true /\
    Rabs (B2R x - doc_v_ir c lay s sp mem i) <= pixel_tolerance c s sp i.
Proof.
  intros l m p B ER EW bs lay d k sp dest d' dest' evs mem Hu Hcal (cal & cur & Hres) Fe H Ht Hm Hs c s Hp Hw i Hi Hmi Hpx Hcp.
  destruct (C55_image_values p bs lay d (OpGenerateRawSubpage sp dest) dest _ d' dest' Hu eq_refl H) as (raw & sp' & pre & frame & post & Et & Hask & _ & Hack & Hv).
  { split; [discriminate|exact I]. }
  inversion Hask; subst. inversion Hack; subst.
  rewrite Ht in Et. apply app_inv_head in Et. subst evs. cbn [app] in Hs. rewrite app_nil_r in Hs.
  destruct (Hv mem Hm Hs) as [_ [Hl Himg]].
  destruct (nth_error dest i) as [old|] eqn:En; [|apply nth_error_None in En; clear - En Hi; lia].
  specialize (Himg i old En). cbn [set_pattern settings_of] in Himg. rewrite Hmi in Himg.
  eexists. split; [exact Himg|]. unfold doc_pixel.
  apply (near_pixel m (d_calibration d) k lay (settings_of d) _ mem); try assumption.
  - cbn [set_correction settings_of]. rewrite Hres. destruct Hu as [Hd _]. inversion Hd as [E|E]; cbn [resolution_correction]; apply correction_small.
  - intros Hn. apply Hcp. unfold c, exactly. cbn [temperature_gradient_coefficient].
    destruct (temperature_gradient_coefficient _ (d_calibration d)); [discriminate|]. exfalso. apply Hn. reflexivity.
Qed.
Print Assumptions C73_raw_pixels_accurate.

(** ** Concrete case: pixel (12, 16) of the MLX90640 datasheet's worked example
    (offset -75, K_Ta = 84 / 2^14, K_V = 4 / 2^3), at V_DD = 3.319, T_a = 39.184.
    Its tolerance, with the compensation pixel's, is less than 0.08 counts of about 700. *)
Definition sample_settings (l : libm) : settings (FO := B32 l) :=
  {| set_emissivity := (b_ofZ 1 : F (B32 l)); set_reflected := None; set_correction := (b_ofZ 1 : F (B32 l)); set_pattern := Chess |}.
Example C73_concrete : forall l m (c : calib (B32 l)),
  from_data640 (B32 l) Debug datasheet640 = Ok c ->
  let k := ptat_640 (ee_word datasheet640) in
  let cr := exactly m c in
  let s := settings_exactly (sample_settings l) in
  let i := 367%nat in
  well_calibrated c k /\ plausible_frame k layout640 sample_mem /\ working_frame cr layout640 s sample_mem /\
  working_coefficients cr layout640 s sample_mem (nth i (k_v_pixels _ cr Zero) 0) (nth i (k_ta_pixels _ cr Zero) 0) /\
  working_coefficients cr layout640 s sample_mem (k_v_cp _ cr Zero) (k_ta_cp _ cr Zero) /\
  pixel_tolerance cr s Zero i <= 0.08.
Proof.
  intros l m c Hc k cr s i. pose proof datasheet640_full as Hd.
  assert (Ek : k = ptat_640 sample_ee) by (vm_compute; reflexivity).
  destruct C72_concrete as ((H1 & H2 & H3) & Hpl & Hta & _). cbv zeta in Hpl, Hta. rewrite <- Ek in Hpl, Hta.
  assert (Hw : well_calibrated c k).
  { apply (C73_decoded_640 l Debug datasheet640 c Hd Hc); vm_compute; first [reflexivity|discriminate]. }
  assert (Eta : doc_t_a cr layout640 sample_mem = exact_t_a k layout640 sample_mem) by (apply (exact_ta m c k); assumption).
  assert (Edv : doc_delta_v cr layout640 sample_mem = 59 / 3168).
  { unfold cr. rewrite (exact_dv m c k) by assumption. unfold exact_delta_v, reading.
    replace (signed (sample_mem (lay_vdd layout640))) with (-13115)%Z by (vm_compute; reflexivity).
    replace (pc_vdd_25 k) with (-13056)%Z by (vm_compute; reflexivity).
    replace (pc_k_vdd k) with (-3168)%Z by (vm_compute; reflexivity). lra. }
  assert (Evd : doc_v_dd cr layout640 s sample_mem - 33 / 10 = 59 / 3168).
  { unfold s, cr. rewrite volts. fold cr. rewrite Edv. cbn [set_correction sample_settings].
    rewrite (proj2 (b_ofZ_correct 1 ltac:(clear; lia))). lra. }
  assert (Ee : Rabs (set_emissivity s) = 1).
  { change (set_emissivity s) with (B2R (b_ofZ 1)). rewrite (proj2 (b_ofZ_correct 1 ltac:(clear; lia))). apply Rabs_R1. }
  destruct (C42_scalar_parameters l Debug datasheet640 c Hd Hc) as (_ & _ & _ & Vg & _ & _ & _ & Ekv & Ekta).
  specialize (Ekv Zero). specialize (Ekta Zero).
  assert (Pg : cal_gain _ cr = 6383).
  { change (cal_gain _ cr) with (B2R (cal_gain _ c)). rewrite (proj2 Vg). reflexivity. }
  assert (Pkv : k_v_cp _ cr Zero = 4 / 8).
  { change (k_v_cp _ cr Zero) with (B2R (k_v_cp _ c Zero)). rewrite (proj2 Ekv). reflexivity. }
  assert (Pkta : k_ta_cp _ cr Zero = 75 / 16384).
  { change (k_ta_cp _ cr Zero) with (B2R (k_ta_cp _ c Zero)). rewrite (proj2 Ekta). reflexivity. }
  assert (Hnf : ~ failed (ee_word datasheet640) 11 15) by (unfold failed; vm_compute; discriminate).
  assert (Pkvp : nth i (k_v_pixels _ cr Zero) 0 = 4 / 8).
  { change (k_v_pixels _ cr Zero) with (map B2R (k_v_pixels _ c Zero)). rewrite nth_map_B2R.
    destruct (C42_k_v_pixels l Debug datasheet640 c Hd Hc Zero) as [_ H].
    destruct (H 11%nat 15%nat ltac:(clear; lia) ltac:(clear; lia)) as (x & E & V).
    change (32 * 11 + 15)%nat with i in E. rewrite (nth_error_nth _ _ _ E), (proj2 V). reflexivity. }
  assert (Pktap : nth i (k_ta_pixels _ cr Zero) 0 = 84 / 16384).
  { change (k_ta_pixels _ cr Zero) with (map B2R (k_ta_pixels _ c Zero)). rewrite nth_map_B2R.
    destruct (C40_k_ta l Debug datasheet640 c Hd Hc Zero 11 15 ltac:(clear; lia) ltac:(clear; lia) Hnf) as (x & E & V).
    change (32 * 11 + 15)%nat with i in E. rewrite (nth_error_nth _ _ _ E), (proj2 V). reflexivity. }
  split; [exact Hw|]. split; [exact Hpl|]. rewrite Pkvp, Pktap, Pkv, Pkta.
  split; [|split; [|split]].
  - constructor.
    + vm_compute. discriminate.
    + unfold doc_gain. rewrite Pg. cbn [RealOps fdiv fofZ].
      replace (SpecImage.ram sample_mem (lay_gain layout640)) with 6273%Z by (vm_compute; reflexivity). apply Rabs_le. lra.
    + rewrite Eta. apply Rabs_le. lra.
    + rewrite Evd. apply Rabs_le. lra.
    + rewrite Ee. lra.
  - constructor; rewrite ?Eta, ?Evd; apply Rabs_le; lra.
  - constructor; rewrite ?Eta, ?Evd; apply Rabs_le; lra.
  - unfold pixel_tolerance, tolerance. rewrite Ee, Pktap, Pkta.
    assert (Pkt : Rabs (k_t_ptat _ cr) = 338 / 8).
    { change (k_t_ptat _ cr) with (B2R (k_t_ptat _ c)).
      rewrite (proj2 (ca_k_t _ _ (wl_carries _ _ Hw))). replace (pc_k_t k) with (338 / 8) by reflexivity. apply Rabs_pos_eq. lra. }
    rewrite Pkt.
    assert (Po : nth i (offset_reference_pixels _ cr Zero) 0%Z = (-75)%Z).
    { change (offset_reference_pixels _ cr Zero) with (offset_reference_pixels _ c Zero).
      pose proof (C39_offset _ Debug datasheet640 c Hd Hc Zero 11 15 ltac:(clear; lia) ltac:(clear; lia) Hnf) as E.
      change (32 * 11 + 15)%nat with i in E. rewrite (nth_error_nth _ _ _ E). reflexivity. }
    assert (Poc : offset_reference_cp _ cr Zero = (-75)%Z).
    { change (offset_reference_cp _ cr Zero) with (offset_reference_cp _ c Zero).
      destruct (C42_integer_parameters _ Debug datasheet640 c Hd Hc) as (_ & _ & _ & _ & E & _). rewrite E. reflexivity. }
    rewrite Po, Poc. rewrite (Rabs_left (-75)), (Rabs_pos_eq (84 / 16384)), (Rabs_pos_eq (75 / 16384)) by lra.
    change (temperature_gradient_coefficient _ cr) with (option_map B2R (temperature_gradient_coefficient _ c)).
    destruct (C42_tgc l Debug datasheet640 c Hd Hc) as [_ H].
    destruct (H ltac:(vm_compute; discriminate)) as (g & Eg & Vg'). rewrite Eg. cbn [option_map]. rewrite (proj2 Vg').
    replace (scaled (sbits (ee_word datasheet640 60) 0 8) 5) with (32 / 32) by reflexivity.
    rewrite (Rabs_pos_eq (32 / 32)) by lra. lra.
Qed.
