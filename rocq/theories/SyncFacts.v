(** * SyncFacts: [synchronize] on a free-running camera. *)
From Verif Require Import Base FloatOps Register Bus Camera Cam640 Cam641 Calc CalcFacts Driver
  BitFacts SpecRegister RegisterFacts SpecCamera CameraFacts SpecDriver DriverFacts StepFacts
  SpecImage SpecCall ImageFacts Mock SpecMock P_Bus P_Image P_Frames TraceFacts SpecHold HoldFacts P_Hold
  SpecTraffic P_Traffic P_Calc SpecStream StreamFacts.

Section Device.
Context {B ER EW : Type} (bs : bus B ER EW) (a : Z) (v : view B) (f : film) (t : timing).
Hypothesis Hcam : free_running bs a v f t.
Notation event := (event ER EW).
Notation T := (film_time f).

Lemma patient_runs : 0 <= pause t -> free_running bs a v f (patient t).
Proof.
  intros Hp. constructor.
  - apply (fr_word _ _ _ _ _ Hcam).
  - apply (fr_frames _ _ _ _ _ Hcam).
  - intros b buf b' out e Hl H. destruct (fr_status_read _ _ _ _ _ Hcam _ _ _ _ _ Hl H) as (H1 & H2 & H3).
    split; [exact H1|]. split; [cbn [patient pause]; lia|exact H3].
  - apply (fr_ram_read _ _ _ _ _ Hcam).
  - apply (fr_status_write _ _ _ _ _ Hcam).
Qed.

Context (Hpa : 0 <= pause t) (Hgap : forall n, 2 * pause t < T (S (S n)) - T (S n)).

(** One poll. *)
Lemma poll_step w b b' n : word w -> caught_up v f t n b -> performed bs b [reads_word a status_reg w] b' ->
  (bit w 3 = false -> caught_up v f t n b') /\
  (bit w 3 = true -> frames v b' = S n /\ ready v b' = true /\ clock v b' <= T (S n) + 2 * pause t).
Proof.
  intros Hw Hc Hp1. destruct (stream_status bs _ v f t Hcam w b b' Hw Hp1) as (Hcl & Hf & m & Hm & Hb3 & _).
  pose proof (Hgap n) as Hg. split; intros H3; rewrite H3 in Hb3; symmetry in Hb3.
  - apply orb_false_elim in Hb3. destruct Hb3 as [Hb3 Hlt]. rewrite Hb3 in Hf. cbn [orb] in Hf.
    destruct Hc as [[Hc1 Hc2]|(Hc1 & Hc2 & Hc3)]; [|congruence].
    assert (Hnx : clock v b < T (S n)) by (rewrite <- Hc1; apply (frames_next bs _ v f t Hcam)).
    assert (Hle : (frames v b' <= S n)%nat) by (apply (frames_below bs _ v f t Hcam); lia).
    destruct (Nat.eq_dec (frames v b') n) as [En|En].
    + left. split; [exact En|]. rewrite Hf. apply Nat.ltb_ge. lia.
    + right. split; [lia|]. split; [rewrite Hf; apply Nat.ltb_lt; lia|]. lia.
  - destruct Hc as [[Hc1 Hc2]|(Hc1 & Hc2 & Hc3)].
    + rewrite Hc2 in Hb3, Hf. cbn [orb] in Hb3, Hf. apply Nat.ltb_lt in Hb3.
      assert (Hnx : clock v b < T (S n)) by (rewrite <- Hc1; apply (frames_next bs _ v f t Hcam)).
      assert (Hle : (frames v b' <= S n)%nat) by (apply (frames_below bs _ v f t Hcam); lia).
      split; [lia|]. split; [rewrite Hf; apply Nat.ltb_lt; lia|]. lia.
    + assert (Hle : (frames v b' <= S n)%nat) by (apply (frames_below bs _ v f t Hcam); lia).
      split; [lia|]. split; [rewrite Hf, Hc2; reflexivity|]. lia.
Qed.

Lemma polls_wait waits : forall b b' n, Forall (not_ready a) waits -> caught_up v f t n b -> performed bs b waits b' ->
  caught_up v f t n b'.
Proof.
  induction waits as [|x waits IH]; intros b b' n Hw Hc Hp; [inversion Hp; subst; exact Hc|].
  inversion Hw as [|? ? (w & Hw1 & H3 & ->) Hw']; subst.
  change (reads_word a status_reg w :: waits) with ([reads_word (ER := ER) (EW := EW) a status_reg w] ++ waits) in Hp.
  apply performed_split in Hp. destruct Hp as (b1 & Hp1 & Hp2).
  eapply IH; [exact Hw'| |exact Hp2]. apply (proj1 (poll_step w b b1 n Hw1 Hc Hp1) H3).
Qed.

(** After the request. *)
Lemma request_caught_up w w' b b' : slack t + 5 * per_byte t <= pause t -> bit w' 3 = false -> word w ->
  performed bs b [reads_word a status_reg w; writes_word a status_reg w' None] b' ->
  exists n, (frames v b <= n)%nat /\ caught_up v f t n b'.
Proof.
  intros Hle H3 Hw Hp.
  change [reads_word a status_reg w; writes_word a status_reg w' None]
    with ([reads_word (ER := ER) (EW := EW) a status_reg w] ++ [writes_word a status_reg w' None]) in Hp.
  apply performed_split in Hp. destruct Hp as (b1 & Hp1 & Hp2).
  destruct (stream_status bs _ v f t Hcam w b b1 Hw Hp1) as (Hcl & _).
  destruct (stream_write bs _ v f t Hcam _ _ _ _ Hp2) as (_ & Hcl2 & Hrd).
  pose proof (frames_mono bs _ v f t Hcam b b1 (proj1 Hcl)) as M1.
  pose proof (frames_mono bs _ v f t Hcam b1 b' (proj1 Hcl2)) as M2.
  pose proof (frames_next bs _ v f t Hcam b1) as Hnx. pose proof (Hgap (frames v b1)) as Hg.
  assert (Hb : (frames v b' <= S (frames v b1))%nat) by (apply (frames_below bs _ v f t Hcam); lia).
  destruct (Nat.eq_dec (frames v b') (frames v b1)) as [E|E].
  - exists (frames v b'). split; [lia|]. left. split; [reflexivity|]. rewrite (Hrd E). exact H3.
  - destruct (ready v b') eqn:Er.
    + exists (frames v b1). split; [lia|]. right. split; [lia|]. split; [exact Er|]. lia.
    + exists (frames v b'). split; [lia|]. left. auto.
Qed.
End Device.
