(** * Properties C10-C16: subpages, pixel ranges and frame reads. *)
From Verif Require Import Base FloatOps Register Bus Camera Cam640 Cam641 SpecCamera CameraFacts.

(** ** C10 *)
Theorem C10_subpage_membership : forall ap sp,
  length (pixels_in_subpage640 sp ap) = 768%nat /\
  forall r c, (r < 24)%nat -> (c < 32)%nat ->
    nth_error (pixels_in_subpage640 sp ap) (r * 32 + c) =
    Some (match ap with
          | Chess => match sp with Zero => Nat.eqb (r mod 2) (c mod 2)
                                 | One => negb (Nat.eqb (r mod 2) (c mod 2)) end
          | Interleave => match sp with Zero => Nat.eqb (r mod 2) 0 | One => Nat.eqb (r mod 2) 1 end
          end).
Proof.
  intros ap sp. unfold pixels_in_subpage640. rewrite pixels_in_subpage640_map. cbn [fst].
  split; [rewrite map_length, seq_length; reflexivity|].
  intros r c Hr Hc. rewrite nth_error_map.
  rewrite (nth_error_nth' _ 0%nat) by (rewrite seq_length; lia).
  rewrite seq_nth by lia. cbn [option_map]. f_equal. unfold px640. rewrite Nat.add_0_l.
  replace ((r * 32 + c) / 32)%nat with r by (apply (Nat.div_unique _ 32 r c); lia).
  replace ((r * 32 + c) mod 32)%nat with c by (apply (Nat.mod_unique _ 32 r c); lia).
  destruct ap, sp; reflexivity.
Qed.
Print Assumptions C10_subpage_membership.

(** Every pixel is in exactly one subpage, and each subpage has half of them. *)
Theorem C10_partition : forall ap,
  (forall i, (i < 768)%nat ->
     exists b, nth_error (pixels_in_subpage640 Zero ap) i = Some b /\
               nth_error (pixels_in_subpage640 One ap) i = Some (negb b)) /\
  (forall sp, length (filter (fun b => b) (pixels_in_subpage640 sp ap)) = 384%nat).
Proof.
  intros ap. split.
  - intros i Hi.
    assert (Hr : (i / 32 < 24)%nat) by (apply Nat.div_lt_upper_bound; lia).
    assert (Hc : (i mod 32 < 32)%nat) by (apply Nat.mod_upper_bound; lia).
    pose proof (Nat.div_mod_eq i 32) as Hi2.
    destruct (C10_subpage_membership ap Zero) as [_ H0]. destruct (C10_subpage_membership ap One) as [_ H1].
    specialize (H0 _ _ Hr Hc). specialize (H1 _ _ Hr Hc).
    replace (i / 32 * 32 + i mod 32)%nat with i in H0, H1 by lia.
    rewrite H0, H1. eexists. split; [reflexivity|]. f_equal.
    destruct ap; [reflexivity|].
    pose proof (Nat.mod_upper_bound (i / 32) 2 ltac:(lia)).
    assert (Hc2 : ((i / 32) mod 2 = 0 \/ (i / 32) mod 2 = 1)%nat) by lia.
    destruct Hc2 as [-> | ->]; reflexivity.
  - intros sp. unfold pixels_in_subpage640. rewrite pixels_in_subpage640_map. cbn [fst].
    destruct ap, sp; vm_compute; reflexivity.
Qed.
Print Assumptions C10_partition.

(** The model takes the first 769 items of the iterator; that is all of them. *)
Theorem C10_iterator_ends : forall ap sp,
  pixel_subpage640_next (snd (drain (S NUM_PIXELS640) pixel_subpage640_next (pixel_subpage640_new ap sp))) = None.
Proof. intros ap sp. rewrite pixels_in_subpage640_map. reflexivity. Qed.

(** ** C11 *)
(** Byte [j] of the pixel buffer is filled by range [r]. *)
Definition fills (r : range) (j : nat) : Prop :=
  (buffer_offset r <= j < buffer_offset r + range_length r)%nat.
(** The pixel at index [i] is one of the range's pixels. *)
Definition contains_pixel (r : range) (i : nat) : Prop := fills r (2 * i) /\ fills r (2 * i + 1).

Theorem C11_ranges : forall sp ap,
  (length (pixel_ranges640 sp ap) <= 24)%nat /\
  (forall r, In r (pixel_ranges640 sp ap) ->
     (exists n, 0 < n /\ range_length r = 2 * n)%nat /\
     0x0400 <= start_address r /\ start_address r + Z.of_nat (range_length r / 2) - 1 <= 0x06FF /\
     (buffer_offset r + range_length r <= 1536)%nat /\
     Z.of_nat (buffer_offset r) = 2 * (start_address r - 0x0400)) /\
  (forall k1 k2 r1 r2 j, nth_error (pixel_ranges640 sp ap) k1 = Some r1 ->
     nth_error (pixel_ranges640 sp ap) k2 = Some r2 -> fills r1 j -> fills r2 j -> k1 = k2) /\
  (forall i, nth_error (pixels_in_subpage640 sp ap) i = Some true ->
     exists r, In r (pixel_ranges640 sp ap) /\ contains_pixel r i).
Proof.
  intros sp ap.
  split; [|split; [|split]].
  - destruct ap; [rewrite ranges640_chess; cbn; lia|].
    rewrite ranges640_interleave, map_length, seq_length. lia.
  - intros r Hin. destruct ap.
    + rewrite ranges640_chess in Hin. destruct Hin as [<-|[]].
      cbn [start_address buffer_offset range_length]. split; [exists 768%nat; lia|].
      change (1536 / 2)%nat with 768%nat. lia.
    + rewrite ranges640_interleave in Hin. apply in_map_iff in Hin. destruct Hin as (k & <- & Hk).
      apply in_seq in Hk. cbn [start_address buffer_offset range_length]. split; [exists 32%nat; lia|].
      change (64 / 2)%nat with 32%nat. destruct sp; cbn [sub subn]; lia.
  - intros k1 k2 r1 r2 j H1 H2. unfold fills. destruct ap.
    + rewrite ranges640_chess in H1, H2. destruct k1 as [|[|k1]], k2 as [|[|k2]]; try discriminate; auto.
    + rewrite ranges640_interleave in H1, H2. rewrite nth_error_map in H1, H2.
      destruct (nth_error (seq 0 12) k1) as [x1|] eqn:E1; [|discriminate].
      destruct (nth_error (seq 0 12) k2) as [x2|] eqn:E2; [|discriminate].
      assert (L1 : (k1 < 12)%nat) by (rewrite <- (seq_length 12 0); apply nth_error_Some; congruence).
      assert (L2 : (k2 < 12)%nat) by (rewrite <- (seq_length 12 0); apply nth_error_Some; congruence).
      rewrite (nth_error_nth' _ 0%nat), seq_nth in E1 by (rewrite ?seq_length; assumption).
      rewrite (nth_error_nth' _ 0%nat), seq_nth in E2 by (rewrite ?seq_length; assumption).
      injection E1 as <-. injection E2 as <-. injection H1 as <-. injection H2 as <-.
      cbn [buffer_offset range_length]. destruct sp; cbn [subn]; lia.
  - intros i Hi.
    assert (Hlt : (i < 768)%nat).
    { destruct (C10_subpage_membership ap sp) as [Hl _]. rewrite <- Hl. apply nth_error_Some. congruence. }
    assert (Hr : (i / 32 < 24)%nat) by (apply Nat.div_lt_upper_bound; lia).
    assert (Hc : (i mod 32 < 32)%nat) by (apply Nat.mod_upper_bound; lia).
    pose proof (Nat.div_mod_eq i 32) as Hi2.
    destruct ap.
    + eexists. split; [rewrite ranges640_chess; left; reflexivity|].
      unfold contains_pixel, fills. cbn [buffer_offset range_length]. lia.
    + destruct (C10_subpage_membership Interleave sp) as [_ Hm]. specialize (Hm _ _ Hr Hc).
      replace (i / 32 * 32 + i mod 32)%nat with i in Hm by lia. rewrite Hm in Hi. injection Hi as Hi.
      assert (Hs : ((i / 32) mod 2 = subn sp)%nat) by (destruct sp; apply Nat.eqb_eq in Hi; exact Hi).
      pose proof (Nat.div_mod_eq (i / 32) 2) as Hi3.
      eexists. split; [rewrite ranges640_interleave; apply in_map, (in_seq 12 0 (i / 32 / 2)); lia|].
      unfold contains_pixel, fills. cbn [buffer_offset range_length]. lia.
Qed.
Print Assumptions C11_ranges.

Theorem C11_iterator_ends : forall sp ap,
  pixels640_next (snd (drain (S NUM_PIXELS640) pixels640_next (pixels640_new sp ap))) = None.
Proof. intros sp ap. destruct sp, ap; vm_compute; reflexivity. Qed.

(** ** C12 *)
Theorem C12_ranges : forall sp ap,
  (length (pixel_ranges641 sp ap) <= 12)%nat /\
  (forall r, In r (pixel_ranges641 sp ap) ->
     0x0400 <= start_address r /\ start_address r + Z.of_nat (range_length r / 2) - 1 <= 0x057F /\
     (buffer_offset r + range_length r <= 384)%nat) /\
  (forall i, (i < 192)%nat ->
     exists k r, nth_error (pixel_ranges641 sp ap) k = Some r /\ contains_pixel r i /\
       start_address r + (Z.of_nat i - Z.of_nat (buffer_offset r) / 2) =
         0x0400 + 64 * (Z.of_nat i / 32) + 32 * (match sp with Zero => 0 | One => 1 end) + Z.of_nat i mod 32 /\
       forall k' r', nth_error (pixel_ranges641 sp ap) k' = Some r' ->
         fills r' (2 * i) \/ fills r' (2 * i + 1) -> k' = k).
Proof.
  intros sp ap. rewrite ranges641. split; [|split].
  - rewrite map_length, seq_length. lia.
  - intros r Hin. apply in_map_iff in Hin. destruct Hin as (k & <- & Hk). apply in_seq in Hk.
    cbn [start_address buffer_offset range_length]. change (64 / 2)%nat with 32%nat.
    destruct sp; cbn [sub]; lia.
  - intros i Hi.
    assert (Hk : (i / 32 < 6)%nat) by (apply Nat.div_lt_upper_bound; lia).
    assert (Hc : (i mod 32 < 32)%nat) by (apply Nat.mod_upper_bound; lia).
    pose proof (Nat.div_mod_eq i 32) as Hi2.
    exists (i / 32)%nat. eexists. split.
    + rewrite nth_error_map, (nth_error_nth' _ 0%nat) by (rewrite seq_length; exact Hk).
      rewrite seq_nth by exact Hk. reflexivity.
    + cbn [start_address buffer_offset range_length]. split; [|split].
      * unfold contains_pixel, fills. cbn [buffer_offset range_length]. lia.
      * replace (Z.of_nat i / 32) with (Z.of_nat (i / 32)) by apply (Nat2Z.inj_div i 32).
        replace (Z.of_nat i mod 32) with (Z.of_nat (i mod 32)) by apply (Nat2Z.inj_mod i 32).
        replace (Z.of_nat (64 * (0 + i / 32)) / 2) with (Z.of_nat (32 * (i / 32)))
          by (apply (Z.div_unique _ 2 _ 0); lia).
        destruct sp; cbn [sub]; lia.
      * intros k' r' H' Hf. rewrite nth_error_map in H'.
        destruct (nth_error (seq 0 6) k') as [x|] eqn:E; [|discriminate].
        assert (L : (k' < 6)%nat) by (rewrite <- (seq_length 6 0); apply nth_error_Some; congruence).
        rewrite (nth_error_nth' _ 0%nat) in E by (rewrite seq_length; exact L).
        rewrite seq_nth in E by exact L. injection E as <-. injection H' as <-.
        unfold fills in Hf. cbn [buffer_offset range_length] in Hf. lia.
Qed.
Print Assumptions C12_ranges.

Theorem C12_subpages_disjoint : forall ap ap' r r' i i',
  In r (pixel_ranges641 Zero ap) -> In r' (pixel_ranges641 One ap') ->
  0 <= i < Z.of_nat (range_length r / 2) -> 0 <= i' < Z.of_nat (range_length r' / 2) ->
  start_address r + i <> start_address r' + i'.
Proof.
  intros ap ap' r r' i i' H H'. rewrite ranges641 in H, H'.
  apply in_map_iff in H, H'. destruct H as (k & <- & Hk), H' as (k' & <- & Hk').
  apply in_seq in Hk, Hk'. cbn [start_address range_length sub]. change (64 / 2)%nat with 32%nat. lia.
Qed.
Print Assumptions C12_subpages_disjoint.

Theorem C12_all_pixels_in_both_subpages : forall sp ap,
  length (pixels_in_subpage641 sp ap) = 192%nat /\
  forall i, (i < 192)%nat -> nth_error (pixels_in_subpage641 sp ap) i = Some true.
Proof.
  intros sp ap. unfold pixels_in_subpage641. change NUM_PIXELS641 with 192%nat.
  split; [apply repeat_length|]. intros i Hi. apply nth_error_repeat. exact Hi.
Qed.
Print Assumptions C12_all_pixels_in_both_subpages.

Theorem C12_iterator_ends : forall sp,
  subpage_interleave_next (snd (drain (S NUM_PIXELS641) subpage_interleave_next (subpage_interleave_new sp))) = None.
Proof. intros sp. destruct sp; vm_compute; reflexivity. Qed.

(** ** C13, C15, C16: any bus whatsoever *)
Section AnyBus.
Context {FO : FloatOps} {B ER EW : Type} (bs : bus B ER EW).

Theorem C13_frame_read_transactions : forall (c : camera FO) lay height i2c ap sp buf w ram buf' w',
  documented c lay -> (lay_height lay <= height)%nat ->
  read_ram bs c height i2c ap sp buf w = (Ok ram, buf', w') ->
  exists evs, trace w' = trace w ++ evs /\
    Forall2 (good_read i2c)
      (lay_reads lay sp ap ++
       [(lay_vbe lay, 2%nat); (lay_ptat lay, 2%nat); (lay_vdd lay, 2%nat); (lay_gain lay, 2%nat);
        (lay_cp lay sp, 2%nat)]) evs.
Proof.
  intros c lay height i2c ap sp buf w ram buf' w' Hd Hh H.
  destruct (read_ram_spec bs c lay height i2c ap sp buf w _ _ _ Hd Hh H) as (_ & evs & Ht & Hc & _).
  exists evs. split; [exact Ht|exact Hc].
Qed.

Theorem C15_first_failure_aborts : forall (c : camera FO) lay height i2c ap sp buf w err buf' w',
  documented c lay -> (lay_height lay <= height)%nat ->
  read_ram bs c height i2c ap sp buf w = (Err err, buf', w') ->
  exists e evs, err = I2cWriteReadError e /\ trace w' = trace w ++ evs /\
    aborted i2c (frame_reads lay sp ap) e evs.
Proof.
  intros c lay height i2c ap sp buf w err buf' w' Hd Hh H.
  destruct (read_ram_spec bs c lay height i2c ap sp buf w _ _ _ Hd Hh H) as (_ & evs & Ht & Hc).
  destruct err as [e|e|e]; [|destruct Hc|destruct Hc]. exists e, evs. auto.
Qed.

(** Conversely a failing transaction anywhere in a frame read makes it fail: a
    frame read that returns Ok performed no failed transaction. *)
Theorem C15_ok_means_no_failure : forall (c : camera FO) lay height i2c ap sp buf w ram buf' w' evs,
  documented c lay -> (lay_height lay <= height)%nat ->
  read_ram bs c height i2c ap sp buf w = (Ok ram, buf', w') ->
  trace w' = trace w ++ evs ->
  forall a wb data err, In (EvRead a wb data err) evs -> err = None.
Proof.
  intros c lay height i2c ap sp buf w ram buf' w' evs Hd Hh H Ht a wb data err Hin.
  destruct (read_ram_spec bs c lay height i2c ap sp buf w _ _ _ Hd Hh H) as (_ & evs' & Ht' & Hc & _).
  rewrite Ht in Ht'. apply app_inv_head in Ht'. subst evs'.
  unfold completed in Hc. clear -Hc Hin. revert Hin. induction Hc as [|rd ev rds evs0 Hg _ IH]; intros Hin; [destruct Hin|].
  destruct Hin as [->|Hin]; [|exact (IH Hin)]. destruct Hg as (d & He & _). injection He as _ _ _ He. exact He.
Qed.

Theorem C16_no_panic : forall (c : camera FO) lay height i2c ap sp buf w r buf' w',
  documented c lay -> (lay_height lay <= height)%nat -> (2 * lay_pixels lay <= length buf)%nat ->
  read_ram bs c height i2c ap sp buf w = (r, buf', w') ->
  length buf' = length buf /\
  ((exists ram, r = Ok ram) \/ (exists e, r = Err (I2cWriteReadError e))).
Proof.
  intros c lay height i2c ap sp buf w r buf' w' Hd Hh Hb H.
  destruct (read_ram_spec bs c lay height i2c ap sp buf w _ _ _ Hd Hh H) as (Hl & evs & Ht & Hc).
  split; [exact Hl|]. destruct r as [ram|[e|e|e]| |]; try destruct Hc; eauto.
  exfalso. destruct Hd; [change (2 * lay_pixels layout640)%nat with 1536%nat in Hb
                        |change (2 * lay_pixels layout641)%nat with 384%nat in Hb];
    cbn [lay_bytes layout640 layout641] in *; destruct ap, sp; lia.
Qed.

(** A buffer that is too small never gives a frame: either a transaction failed
    first, or the read panics; and the buffer is never resized. *)
Theorem C16_small_buffer : forall (c : camera FO) lay height i2c ap sp buf w r buf' w',
  documented c lay -> (lay_height lay <= height)%nat -> (length buf < lay_bytes lay sp ap)%nat ->
  read_ram bs c height i2c ap sp buf w = (r, buf', w') ->
  length buf' = length buf /\
  exists evs, trace w' = trace w ++ evs /\
  ((r = Panic /\ cut_short i2c (lay_reads lay sp ap) evs) \/
   (exists e, r = Err (I2cWriteReadError e) /\ aborted i2c (frame_reads lay sp ap) e evs)).
Proof.
  intros c lay height i2c ap sp buf w r buf' w' Hd Hh Hb H.
  destruct (read_ram_spec bs c lay height i2c ap sp buf w _ _ _ Hd Hh H) as (Hl & evs & Ht & Hc).
  split; [exact Hl|]. exists evs. split; [exact Ht|].
  destruct r as [ram|[e|e|e]| |]; try (exfalso; exact Hc).
  - exfalso. destruct Hc as [_ Hc]. lia.
  - right. exists e. auto.
  - left. destruct Hc as [_ Hc]. auto.
Qed.
End AnyBus.
Print Assumptions C13_frame_read_transactions.
Print Assumptions C15_first_failure_aborts.
Print Assumptions C16_no_panic.
Print Assumptions C16_small_buffer.

(** ** C14: a device with memory contents [mem] *)
(** From the transcript: whatever the bus is, if the data it delivered during the
    frame read are the words of [mem], then so are the pixels and the scalars. *)
Theorem C14_transcript_contents :
  forall (FO : FloatOps) (B ER EW : Type) (bs : bus B ER EW) (mem : Z -> Z),
  (forall a, word (mem a)) ->
  forall (c : camera FO) lay height i2c ap sp buf w ram buf' w' evs,
  documented c lay -> (lay_height lay <= height)%nat ->
  read_ram bs c height i2c ap sp buf w = (Ok ram, buf', w') ->
  trace w' = trace w ++ evs -> Forall (shows mem) evs ->
  t_a_v_be ram = signed (mem (lay_vbe lay)) /\
  t_a_ptat ram = signed (mem (lay_ptat lay)) /\
  v_dd_pixel ram = signed (mem (lay_vdd lay)) /\
  ram_gain ram = signed (mem (lay_gain lay)) /\
  compensation_pixel ram = signed (mem (lay_cp lay sp)) /\
  (forall r col, (r < lay_height lay)%nat -> (col < lay_width lay)%nat ->
     let i := (r * lay_width lay + col)%nat in
     word_at buf' i = if lay_transferred lay sp ap r col then mem (lay_address lay sp i) else word_at buf i) /\
  (forall r col, lay_in_subpage lay sp ap r col = true -> lay_transferred lay sp ap r col = true) /\
  (forall j, (2 * lay_pixels lay <= j)%nat -> nth_error buf' j = nth_error buf j).
Proof.
  intros FO B ER EW bs mem Hwd c lay height i2c ap sp buf w ram buf' w' evs Hd Hh H Ht Hsh.
  destruct (read_ram_shows bs mem c lay height i2c ap sp buf w ram buf' w' evs Hd Hh Hwd H Ht Hsh)
    as ((S1 & S2 & S3 & S4 & S5) & Hpx & Hrest).
  repeat (split; [assumption|]). split; [|split; [|exact Hrest]].
  - intros r col Hr Hc i. specialize (Hpx r col Hr Hc). cbn zeta in Hpx. fold i in Hpx. unfold word_at.
    destruct (lay_transferred lay sp ap r col); [exact Hpx|]. destruct Hpx as [-> ->]. reflexivity.
  - intros r col. destruct Hd; [destruct ap|]; cbn [lay_in_subpage lay_transferred layout640 layout641]; auto.
Qed.
Print Assumptions C14_transcript_contents.

Theorem C14_frame_contents :
  forall (FO : FloatOps) (B ER EW : Type) (bs : bus B ER EW) (mem : Z -> Z),
  answers bs mem ->
  forall (c : camera FO) lay height i2c ap sp buf w ram buf' w',
  documented c lay -> (lay_height lay <= height)%nat ->
  read_ram bs c height i2c ap sp buf w = (Ok ram, buf', w') ->
  t_a_v_be ram = signed (mem (lay_vbe lay)) /\
  t_a_ptat ram = signed (mem (lay_ptat lay)) /\
  v_dd_pixel ram = signed (mem (lay_vdd lay)) /\
  ram_gain ram = signed (mem (lay_gain lay)) /\
  compensation_pixel ram = signed (mem (lay_cp lay sp)) /\
  (forall r col, (r < lay_height lay)%nat -> (col < lay_width lay)%nat ->
     let i := (r * lay_width lay + col)%nat in
     word_at buf' i = if lay_transferred lay sp ap r col then mem (lay_address lay sp i) else word_at buf i) /\
  (forall r col, lay_in_subpage lay sp ap r col = true -> lay_transferred lay sp ap r col = true) /\
  (forall j, (2 * lay_pixels lay <= j)%nat -> nth_error buf' j = nth_error buf j).
Proof.
  intros FO B ER EW bs mem Hans c lay height i2c ap sp buf w ram buf' w' Hd Hh H.
  destruct (read_ram_spec bs c lay height i2c ap sp buf w _ _ _ Hd Hh H) as (_ & evs & Ht & _).
  apply (C14_transcript_contents FO B ER EW bs mem (proj1 Hans) c lay height i2c ap sp buf w ram buf' w' evs
    Hd Hh H Ht).
  exact (read_ram_answers bs mem c lay height i2c ap sp buf w _ _ _ evs Hd Hh Hans H Ht).
Qed.
Print Assumptions C14_frame_contents.

(** ** Concrete cases *)
(** A camera that always answers with its memory, and one whose third
    transaction fails. *)
Definition mem_bus (mem : Z -> Z) : bus unit unit unit := {|
  dev_write_read := fun b _ wb buf =>
    (b, mem_bytes mem (256 * nth 0 wb 0 + nth 1 wb 0) (length buf), None);
  dev_write := fun b _ _ => (b, None)
|}.
Definition third_fails : bus nat string unit := {|
  dev_write_read := fun b _ wb buf =>
    (S b, mem_bytes (fun a => a) 0 (length buf), if Nat.eqb b 2 then Some "nack"%string else None);
  dev_write := fun b _ _ => (b, None)
|}.

Example C14_hypotheses_met :
  answers (mem_bus (fun a => a mod 65536)) (fun a => a mod 65536) /\
  forall FO : FloatOps, documented (Mlx90641 FO) layout641 /\
  exists ram buf' w',
    read_ram (mem_bus (fun a => a mod 65536)) (Mlx90641 FO) 12 0x33 Chess One (repeat 0 384)
      (Build_world tt []) = (Ok ram, buf', w') /\
    word_at buf' 40 = 1128 /\ t_a_ptat ram = 0x05A0 /\ length (trace w') = 11%nat.
Proof.
  split.
  - split.
    + intros a. apply Z.mod_pos_bound. lia.
    + intros b i2c a buf b' out Ha H. cbn [mem_bus dev_write_read nth] in H.
      replace (256 * (a / 256) + a mod 256) with a in H by apply Z_div_mod_eq_full. injection H as _ <-.
      split; [apply mem_bytes_length|reflexivity].
  - intros FO. split; [constructor|]. do 3 eexists. split; [vm_compute; reflexivity|].
    vm_compute. repeat split.
Qed.

Example C15_C16_concrete : forall FO : FloatOps,
  (exists buf' w', read_ram third_fails (Mlx90640 FO) 24 0x33 Interleave Zero (repeat 0 1536) (Build_world 0%nat [])
     = (Err (I2cWriteReadError "nack"%string), buf', w') /\ length (trace w') = 3%nat) /\
  (exists buf' w', read_ram third_fails (Mlx90641 FO) 12 0x33 Chess Zero (repeat 0 100) (Build_world 0%nat [])
     = (Panic, buf', w') /\ length (trace w') = 1%nat).
Proof.
  intros FO. split; do 2 eexists; (split; [vm_compute; reflexivity|reflexivity]).
Qed.
