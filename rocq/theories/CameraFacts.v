(** * CameraFacts: lemmas about iterators, ranges and frame reads. *)
From Verif Require Import Base FloatOps Register Bus Camera Cam640 Cam641 SpecCamera.

(** ** The pixel iterator of the MLX90640 *)
Definition px640 (ap : access_pattern) (n : nat) (i : nat) : bool :=
  match ap with
  | Chess => if Nat.eqb n 0 then Nat.eqb ((i / 32) mod 2) ((i mod 32) mod 2)
             else negb (Nat.eqb ((i / 32) mod 2) ((i mod 32) mod 2))
  | Interleave => Nat.eqb ((i / 32) mod 2) n
  end.

Lemma drain_subpage640 fuel k i ap n : (i + k = 768)%nat -> (k < fuel)%nat ->
  drain fuel pixel_subpage640_next {| ps_index := i; ps_access_pattern := ap; ps_subpage_num := n |} =
  (map (px640 ap n) (seq i k), {| ps_index := 768; ps_access_pattern := ap; ps_subpage_num := n |}).
Proof.
  revert k i. induction fuel as [|fuel IH]; intros k i Hk Hf; [lia|].
  cbn [drain]. unfold pixel_subpage640_next at 1. cbn [ps_index ps_access_pattern ps_subpage_num].
  change NUM_PIXELS640 with 768%nat. change WIDTH640 with 32%nat.
  destruct k as [|k].
  - replace i with 768%nat by lia. reflexivity.
  - replace (Nat.ltb i 768) with true by (symmetry; apply Nat.ltb_lt; lia).
    rewrite (IH k (S i)) by lia. reflexivity.
Qed.

Lemma subpage_num_nat sp : Z.to_nat (subpage_num sp) = subn sp.
Proof. destruct sp; reflexivity. Qed.

Lemma pixels_in_subpage640_map sp ap :
  drain (S NUM_PIXELS640) pixel_subpage640_next (pixel_subpage640_new ap sp) =
  (map (px640 ap (subn sp)) (seq 0 768),
   {| ps_index := 768; ps_access_pattern := ap; ps_subpage_num := subn sp |}).
Proof.
  unfold pixel_subpage640_new. rewrite subpage_num_nat.
  apply drain_subpage640; [reflexivity|]. change NUM_PIXELS640 with 768%nat. lia.
Qed.

Lemma nth_map_seq {A} (f : nat -> A) n i d : (i < n)%nat -> nth i (map f (seq 0 n)) d = f i.
Proof.
  intros Hi. rewrite (nth_indep _ d (f 0%nat)); [|rewrite map_length, seq_length; exact Hi].
  rewrite map_nth, seq_nth by exact Hi. reflexivity.
Qed.

Lemma px640_spec sp ap r c : (r < 24)%nat -> (c < 32)%nat ->
  px640 ap (subn sp) (r * 32 + c) = lay_in_subpage layout640 sp ap r c.
Proof.
  intros Hr Hc. unfold px640. cbn [lay_in_subpage layout640].
  replace ((r * 32 + c) / 32)%nat with r by (apply (Nat.div_unique _ 32 r c); lia).
  replace ((r * 32 + c) mod 32)%nat with c by (apply (Nat.mod_unique _ 32 r c); lia).
  destruct ap; [|reflexivity].
  assert (Hr2 : (r mod 2 = 0 \/ r mod 2 = 1)%nat) by (pose proof (Nat.mod_upper_bound r 2); lia).
  assert (Hc2 : (c mod 2 = 0 \/ c mod 2 = 1)%nat) by (pose proof (Nat.mod_upper_bound c 2); lia).
  rewrite (Nat.add_mod r c 2) by lia.
  destruct sp; destruct Hr2 as [-> | ->], Hc2 as [-> | ->]; reflexivity.
Qed.

(** ** The pixel ranges *)
Definition as_read (r : range) : Z * nat := (start_address r, range_length r).

Lemma ranges640_chess sp :
  pixel_ranges640 sp Chess =
  [{| start_address := 0x0400; buffer_offset := 0; range_length := 1536 |}].
Proof. reflexivity. Qed.
Lemma ranges640_interleave sp :
  pixel_ranges640 sp Interleave =
  map (fun k => {| start_address := 0x0400 + 32 * (2 * Z.of_nat k + sub sp);
                   buffer_offset := 64 * (2 * k + subn sp); range_length := 64 |}) (seq 0 12).
Proof. destruct sp; vm_compute; reflexivity. Qed.
Lemma ranges641 sp ap :
  pixel_ranges641 sp ap =
  map (fun k => {| start_address := 0x0400 + 64 * Z.of_nat k + 32 * sub sp;
                   buffer_offset := 64 * k; range_length := 64 |}) (seq 0 6).
Proof. destruct sp; vm_compute; reflexivity. Qed.

(** Documented reads = ranges of the code. *)
Lemma ranges_reads {FO : FloatOps} (c : camera FO) lay sp ap : documented c lay ->
  map as_read (pixel_ranges _ c sp ap) = lay_reads lay sp ap.
Proof.
  intros [|]; cbn [pixel_ranges Mlx90640 Mlx90641].
  - destruct ap; [rewrite ranges640_chess; reflexivity|].
    rewrite ranges640_interleave, map_map. reflexivity.
  - rewrite ranges641, map_map. reflexivity.
Qed.

(** ** Buffers *)
Lemma splice_length buf off new : (off + length new <= length buf)%nat ->
  length (splice buf off new) = length buf.
Proof.
  intros H. unfold splice. rewrite !app_length, firstn_length, skipn_length. lia.
Qed.

Lemma splice_nth buf off new j d : (off + length new <= length buf)%nat ->
  nth j (splice buf off new) d =
  if (Nat.leb off j && Nat.ltb j (off + length new))%bool then nth (j - off) new d else nth j buf d.
Proof.
  intros H. unfold splice.
  assert (Hf : length (firstn off buf) = off) by (rewrite firstn_length; lia).
  destruct (Nat.leb_spec off j) as [Ho|Ho]; cbn [andb].
  - rewrite app_nth2 by lia. rewrite Hf. destruct (Nat.ltb_spec j (off + length new)).
    + apply app_nth1. lia.
    + rewrite app_nth2 by lia.
      rewrite <- (firstn_skipn (off + length new) buf) at 2.
      rewrite (app_nth2 (firstn _ _)) by (rewrite firstn_length; lia).
      f_equal. rewrite firstn_length. lia.
  - rewrite app_nth1 by lia.
    rewrite <- (firstn_skipn off buf) at 2. symmetry. apply app_nth1. lia.
Qed.

Lemma clip_length buf out : length (clip buf out) = length buf.
Proof.
  unfold clip. rewrite firstn_length, app_length, map_length, skipn_length. lia.
Qed.

Lemma clip_full buf out : length out = length buf -> Forall byte out -> clip buf out = out.
Proof.
  intros Hl Hb. unfold clip. rewrite Hl, skipn_all, app_nil_r.
  rewrite <- Hl at 1. rewrite <- (map_length (fun b => b mod 256) out), firstn_all.
  induction Hb as [|x l Hx Hb IH]; [reflexivity|]. simpl. f_equal.
  - apply Z.mod_small. exact Hx.
  - clear -Hb. induction Hb as [|y l Hy Hb IH]; [reflexivity|]. simpl. f_equal; [|exact IH].
    apply Z.mod_small. exact Hy.
Qed.

(** ** One transaction *)
Section Reads.
Context {FO : FloatOps} {B ER EW : Type} (bs : bus B ER EW).
Notation W := (world B ER EW).

Lemma write_read_spec i2c a buf (w : W) :
  exists data e b, write_read bs i2c (to_be_bytes a) buf w =
    (data, e, Build_world b (trace w ++ [EvRead i2c [a / 256; a mod 256] data e])) /\
    length data = length buf.
Proof.
  unfold write_read, to_be_bytes.
  destruct (dev_write_read bs (dev w) i2c [a / 256; a mod 256] buf) as [[b out] e].
  exists (clip buf out), e, b. split; [reflexivity|apply clip_length].
Qed.

(** Every list of ranges, every bus, every buffer. *)
Lemma read_ranges_spec i2c rs : forall buf (w : W) r buf' w',
  read_ranges bs i2c rs buf w = (r, buf', w') ->
  length buf' = length buf /\
  exists evs, trace w' = trace w ++ evs /\
  match r with
  | Ok _ => completed i2c (map as_read rs) evs /\
            Forall (fun r => (buffer_offset r + range_length r <= length buf)%nat) rs
  | Err e => aborted i2c (map as_read rs) e evs
  | Panic => cut_short i2c (map as_read rs) evs /\
             Exists (fun r => (length buf < buffer_offset r + range_length r)%nat) rs
  | Diverge => False
  end.
Proof.
  induction rs as [|rg rest IH]; intros buf w r buf' w' H; cbn [read_ranges] in H.
  - injection H as <- <- <-. split; [reflexivity|]. exists []. rewrite app_nil_r.
    split; [reflexivity|]. split; constructor.
  - destruct (Nat.ltb_spec (length buf) (buffer_offset rg + range_length rg)) as [Hlt|Hge].
    + injection H as <- <- <-. split; [reflexivity|]. exists []. rewrite app_nil_r.
      split; [reflexivity|]. split.
      * exists [], (as_read rg), (map as_read rest). split; [reflexivity|constructor].
      * left. exact Hlt.
    + destruct (write_read_spec i2c (start_address rg)
                  (firstn (range_length rg) (skipn (buffer_offset rg) buf)) w) as (data & e & b & Hw & Hl).
      rewrite Hw in H. clear Hw.
      assert (Hdl : length data = range_length rg).
      { rewrite Hl, firstn_length, skipn_length. lia. }
      assert (Hsp : length (splice buf (buffer_offset rg) data) = length buf).
      { apply splice_length. lia. }
      destruct e as [e|].
      * injection H as <- <- <-. split; [exact Hsp|].
        eexists. split; [reflexivity|].
        exists [], (as_read rg), (map as_read rest), [].
        eexists. split; [reflexivity|]. split; [reflexivity|]. split; [constructor|].
        exists data. split; [reflexivity|exact Hdl].
      * apply IH in H. destruct H as (Hlen & evs & Htr & H).
        split; [congruence|]. cbn [trace] in Htr. rewrite <- app_assoc in Htr.
        eexists. split; [exact Htr|].
        assert (Hg : good_read i2c (as_read rg) (EvRead (EW := EW) (ER := ER) i2c
          [start_address rg / 256; start_address rg mod 256] data None)).
        { exists data. split; [reflexivity|exact Hdl]. }
        destruct r as [u|e| |]; cbn [map app].
        -- destruct H as [Hc Hf]. split.
           ++ constructor; assumption.
           ++ constructor; [exact Hge|]. rewrite Hsp in Hf. exact Hf.
        -- destruct H as (pre & rd & post & good & bad & H1 & H2 & H3 & H4).
           exists (as_read rg :: pre), rd, post, (EvRead i2c
             [start_address rg / 256; start_address rg mod 256] data None :: good), bad.
           rewrite H1, H2. split; [reflexivity|]. split; [reflexivity|].
           split; [constructor; assumption|exact H4].
        -- destruct H as [(pre & rd & post & H1 & H2) Hex]. split.
           ++ exists (as_read rg :: pre), rd, post. rewrite H1. split; [reflexivity|].
              constructor; assumption.
           ++ right. rewrite Hsp in Hex. exact Hex.
        -- exact H.
Qed.

Lemma read_ram_value_spec i2c a (w : W) r w' :
  read_ram_value bs i2c a w = (r, w') ->
  exists ev, trace w' = trace w ++ [ev] /\
  match r with
  | Ok _ => good_read i2c (a, 2%nat) ev
  | Err e => failed_read i2c e (a, 2%nat) ev
  | _ => False
  end.
Proof.
  unfold read_ram_value. destruct (write_read_spec i2c a [0; 0] w) as (data & e & b & Hw & Hl).
  rewrite Hw. intros H. eexists.
  destruct e as [e|]; injection H as <- <-; split; try reflexivity.
  - exists data. split; [reflexivity|exact Hl].
  - destruct data as [|x [|y [|]]]; try discriminate.
    exists [x; y]. split; reflexivity.
Qed.

Lemma ram_data_spec (c : camera FO) i2c sp (w : W) r w' :
  ram_data_from_i2c bs c i2c sp w = (r, w') ->
  exists evs, trace w' = trace w ++ evs /\
  let reads := map (fun a => (a, 2%nat))
    [T_A_V_BE _ c; T_A_PTAT _ c; V_DD_PIXEL _ c; GAIN _ c; compensation_pixel_addr _ c sp] in
  match r with
  | Ok _ => completed i2c reads evs
  | Err e => aborted i2c reads e evs
  | _ => False
  end.
Proof.
  unfold ram_data_from_i2c, bindS. cbn [map]. intros H.
  repeat match type of H with
  | context [let '(_, _) := read_ram_value bs i2c ?a ?w0 in _] =>
      let Hr := fresh "Hr" in let rr := fresh "r" in let ww := fresh "w" in
      destruct (read_ram_value bs i2c a w0) as [rr ww] eqn:Hr;
      apply read_ram_value_spec in Hr;
      let ev := fresh "ev" in let Ht := fresh "Ht" in let Hg := fresh "Hg" in
      destruct Hr as (ev & Ht & Hg);
      destruct rr as [?|?| |]; [| |destruct Hg|destruct Hg]
  end; injection H as <- <-;
  repeat match goal with Ht : trace _ = trace _ ++ _, H2 : trace _ = trace _ ++ _ |- _ =>
      rewrite H2 in Ht; clear H2; rewrite <- ?app_assoc in Ht; cbn [app] in Ht end;
  match goal with Ht : trace _ = _ ++ _ |- _ => eexists; split; [exact Ht|] end;
  cbn zeta.
  - repeat (constructor; [assumption|]). constructor.
  - eexists [_; _; _; _], _, [], [_; _; _; _], _. repeat split; try eassumption.
    repeat (constructor; [eassumption|]). constructor.
  - eexists [_; _; _], _, [_], [_; _; _], _. repeat split; try eassumption.
    repeat (constructor; [eassumption|]). constructor.
  - eexists [_; _], _, [_; _], [_; _], _. repeat split; try eassumption.
    repeat (constructor; [eassumption|]). constructor.
  - eexists [_], _, [_; _; _], [_], _. repeat split; try eassumption.
    repeat (constructor; [eassumption|]). constructor.
  - eexists [], _, [_; _; _; _], [], _. repeat split; try eassumption. constructor.
Qed.

Lemma scalars_doc (c : camera FO) lay sp : documented c lay ->
  [T_A_V_BE _ c; T_A_PTAT _ c; V_DD_PIXEL _ c; GAIN _ c; compensation_pixel_addr _ c sp] = lay_scalars lay sp.
Proof. intros [|]; destruct sp; reflexivity. Qed.

(** A whole frame read. *)
Lemma read_ram_spec (c : camera FO) lay height i2c ap sp buf (w : W) r buf' w' :
  documented c lay -> (lay_height lay <= height)%nat ->
  read_ram bs c height i2c ap sp buf w = (r, buf', w') ->
  length buf' = length buf /\
  exists evs, trace w' = trace w ++ evs /\
  match r with
  | Ok _ => completed i2c (frame_reads lay sp ap) evs /\ (lay_bytes lay sp ap <= length buf)%nat
  | Err (I2cWriteReadError e) => aborted i2c (frame_reads lay sp ap) e evs
  | Panic => (length buf < lay_bytes lay sp ap)%nat /\ cut_short i2c (lay_reads lay sp ap) evs
  | _ => False
  end.
Proof.
  intros Hd Hh H. unfold read_ram in H.
  assert (Hlen : (length (pixel_ranges _ c sp ap) <= lay_height lay)%nat).
  { rewrite <- (map_length as_read), (ranges_reads c lay sp ap Hd).
    destruct Hd; [destruct ap|]; cbn [lay_reads lay_height layout640 layout641];
      rewrite ?map_length, ?seq_length; cbn [length]; lia. }
  replace (Nat.ltb height (length (pixel_ranges _ c sp ap))) with false in H
    by (symmetry; apply Nat.ltb_ge; lia).
  destruct (read_ranges bs i2c (pixel_ranges _ c sp ap) buf w) as [[r0 buf0] w0] eqn:Hr.
  apply read_ranges_spec in Hr. destruct Hr as (Hl & evs & Htr & Hr).
  rewrite (ranges_reads c lay sp ap Hd) in Hr.
  destruct r0 as [[]|e| |].
  - destruct Hr as [Hc Hf].
    destruct (ram_data_from_i2c bs c i2c sp w0) as [r2 w2] eqn:H2.
    apply ram_data_spec in H2. destruct H2 as (evs2 & Htr2 & H2). cbn zeta in H2.
    rewrite (scalars_doc c lay sp Hd) in H2.
    injection H as <- <- <-. split; [exact Hl|].
    exists (evs ++ evs2). split; [rewrite Htr2, Htr, app_assoc; reflexivity|].
    destruct r2 as [a|e| |]; cbn [map_err].
    + split.
      * apply Forall2_app; assumption.
      * rewrite Forall_forall in Hf. destruct Hd.
        -- cbn [pixel_ranges Mlx90640] in Hf. cbn [lay_bytes layout640].
           destruct ap.
           ++ rewrite ranges640_chess in Hf. specialize (Hf _ (or_introl eq_refl)).
              cbn [buffer_offset range_length] in Hf. destruct sp; lia.
           ++ rewrite ranges640_interleave in Hf.
              assert (Hin : In 11%nat (seq 0 12)) by (apply in_seq; lia).
              specialize (Hf _ (in_map _ _ _ Hin)). cbn [buffer_offset range_length] in Hf.
              destruct sp; cbn [subn] in Hf; lia.
        -- cbn [pixel_ranges Mlx90641] in Hf. cbn [lay_bytes layout641]. rewrite ranges641 in Hf.
           assert (Hin : In 5%nat (seq 0 6)) by (apply in_seq; lia).
           specialize (Hf _ (in_map _ _ _ Hin)). cbn [buffer_offset range_length] in Hf. lia.
    + destruct H2 as (pre & rd & post & good & bad & E1 & E2 & E3 & E4).
      exists (lay_reads lay sp ap ++ pre), rd, post, (evs ++ good), bad.
      unfold frame_reads. rewrite E1, E2, <- !app_assoc. split; [reflexivity|].
      split; [reflexivity|]. split; [apply Forall2_app; assumption|exact E4].
    + destruct H2.
    + destruct H2.
  - injection H as <- <- <-. split; [exact Hl|]. exists evs. split; [exact Htr|].
    destruct Hr as (pre & rd & post & good & bad & E1 & E2 & E3 & E4).
    exists pre, rd, (post ++ map (fun a => (a, 2%nat)) (lay_scalars lay sp)), good, bad.
    unfold frame_reads. rewrite E1, <- app_assoc. repeat split; assumption.
  - injection H as <- <- <-. split; [exact Hl|]. exists evs. split; [exact Htr|].
    destruct Hr as [Hcs Hex]. split; [|exact Hcs].
    apply Exists_exists in Hex. destruct Hex as (rg & Hin & Hlt).
    destruct Hd.
    + cbn [pixel_ranges Mlx90640] in Hin. cbn [lay_bytes layout640]. destruct ap.
      * rewrite ranges640_chess in Hin. destruct Hin as [<-|[]].
        cbn [buffer_offset range_length] in Hlt. destruct sp; lia.
      * rewrite ranges640_interleave in Hin. apply in_map_iff in Hin. destruct Hin as (k & <- & Hk).
        apply in_seq in Hk. cbn [buffer_offset range_length] in Hlt. destruct sp; cbn [subn] in Hlt; lia.
    + cbn [pixel_ranges Mlx90641] in Hin. cbn [lay_bytes layout641]. rewrite ranges641 in Hin.
      apply in_map_iff in Hin. destruct Hin as (k & <- & Hk). apply in_seq in Hk.
      cbn [buffer_offset range_length] in Hlt. lia.
  - destruct Hr.
Qed.
End Reads.

(** ** Contents *)
Lemma be_word w : word w -> 256 * (w / 256) + w mod 256 = w.
Proof. intros Hw. symmetry. apply Z_div_mod_eq_full. Qed.

Lemma mem_bytes_length mem a n : length (mem_bytes mem a n) = n.
Proof. unfold mem_bytes. rewrite map_length, seq_length. reflexivity. Qed.
Lemma mem_bytes_nth mem a n j d : (j < n)%nat -> nth j (mem_bytes mem a n) d = mem_byte mem a j.
Proof. intros H. apply nth_map_seq. exact H. Qed.
Lemma mem_byte_byte mem a j : (forall x, word (mem x)) -> byte (mem_byte mem a j).
Proof.
  intros Hm. unfold mem_byte. specialize (Hm (a + Z.of_nat (j / 2))). unfold word in Hm.
  destruct (Nat.even j); unfold byte.
  - split; [apply Z.div_pos; lia|apply Z.div_lt_upper_bound; lia].
  - apply Z.mod_pos_bound. lia.
Qed.
Lemma mem_bytes_byte mem a n : (forall x, word (mem x)) -> Forall byte (mem_bytes mem a n).
Proof.
  intros Hm. unfold mem_bytes. apply Forall_forall. intros x Hx. apply in_map_iff in Hx.
  destruct Hx as (j & <- & _). apply mem_byte_byte. exact Hm.
Qed.

Definition in_rangeb (j : nat) (r : range) : bool :=
  (Nat.leb (buffer_offset r) j && Nat.ltb j (buffer_offset r + range_length r))%bool.

Section Contents.
Context {FO : FloatOps} {B ER EW : Type} (bs : bus B ER EW) (mem : Z -> Z).
Notation W := (world B ER EW).

Lemma answers_shows i2c a buf (w : W) data e b x : answers bs mem -> 0 <= a < 65536 ->
  write_read bs i2c (to_be_bytes a) buf w = (data, e, Build_world b (trace w ++ [x])) ->
  shows mem x.
Proof.
  intros Hans Ha H. unfold write_read, to_be_bytes in H.
  destruct (dev_write_read bs (dev w) i2c [a / 256; a mod 256] buf) as [[b0 out] e0] eqn:Hd.
  injection H as H1 H2 H3 H4. apply app_inv_head in H4. injection H4 as <-.
  destruct e0 as [e0|]; [exact I|]. cbn [shows]. intros a' Ha'.
  assert (a' = a).
  { injection Ha' as E1 E2. rewrite (Z_div_mod_eq_full a 256), (Z_div_mod_eq_full a' 256). lia. }
  subst a'. destruct Hans as [Hm Hr]. apply Hr in Hd; [|exact Ha]. destruct Hd as [Hl Ho].
  rewrite clip_full; [|exact Hl|rewrite Ho; apply mem_bytes_byte; exact Hm].
  rewrite Hl. exact Ho.
Qed.

Lemma read_ranges_answers i2c rs : answers bs mem ->
  Forall (fun r => 0 <= start_address r < 65536) rs -> forall buf (w : W) r buf' w' evs,
  read_ranges bs i2c rs buf w = (r, buf', w') -> trace w' = trace w ++ evs -> Forall (shows mem) evs.
Proof.
  intros Hans Hrs. induction Hrs as [|rg rest Ha Hrest IH]; intros buf w r buf' w' evs H Ht; cbn [read_ranges] in H.
  - injection H as _ _ <-. rewrite <- (app_nil_r (trace w)) in Ht at 1. apply app_inv_head in Ht. subst. constructor.
  - destruct (Nat.ltb (length buf) (buffer_offset rg + range_length rg)).
    + injection H as _ _ <-. rewrite <- (app_nil_r (trace w)) in Ht at 1. apply app_inv_head in Ht. subst. constructor.
    + destruct (write_read_spec bs i2c (start_address rg)
                  (firstn (range_length rg) (skipn (buffer_offset rg) buf)) w) as (data & e & b & Hw & Hl).
      pose proof (answers_shows _ _ _ _ _ _ _ _ Hans Ha Hw) as Hsh. rewrite Hw in H.
      destruct e as [e|].
      * injection H as _ _ <-. cbn [trace] in Ht. apply app_inv_head in Ht. subst evs. constructor; [exact Hsh|constructor].
      * pose proof (read_ranges_spec bs i2c rest _ _ _ _ _ H) as (_ & evs' & Ht' & _).
        cbn [trace] in Ht'. rewrite Ht', <- app_assoc in Ht. apply app_inv_head in Ht. subst evs.
        constructor; [exact Hsh|]. eapply IH; [exact H|]. cbn [trace]. exact Ht'.
Qed.

Lemma read_ram_value_answers i2c a (w : W) r w' evs : answers bs mem -> 0 <= a < 65536 ->
  read_ram_value bs i2c a w = (r, w') -> trace w' = trace w ++ evs -> Forall (shows mem) evs.
Proof.
  intros Hans Ha H Ht. unfold read_ram_value in H.
  destruct (write_read_spec bs i2c a [0; 0] w) as (data & e & b & Hw & Hl).
  pose proof (answers_shows _ _ _ _ _ _ _ _ Hans Ha Hw) as Hsh. rewrite Hw in H.
  destruct e; injection H as _ <-; cbn [trace] in Ht; apply app_inv_head in Ht; subst evs;
    (constructor; [exact Hsh|constructor]).
Qed.

(** If each range delivers, at each buffer byte it covers, the byte [f] wants there,
    then afterwards every covered byte is [f]'s and every other one is unchanged. *)
Lemma read_ranges_mem i2c (f : nat -> Z) rs : forall buf (w : W) buf' w' evs,
  Forall (fun r => 0 <= start_address r < 65536 /\
    forall j, in_rangeb j r = true -> mem_byte mem (start_address r) (j - buffer_offset r) = f j) rs ->
  read_ranges bs i2c rs buf w = (Ok tt, buf', w') ->
  trace w' = trace w ++ evs -> Forall (shows mem) evs ->
  forall j d, nth j buf' d = if existsb (in_rangeb j) rs then f j else nth j buf d.
Proof.
  induction rs as [|rg rest IH]; intros buf w buf' w' evs Hf H Ht Hsh j d; cbn [read_ranges] in H.
  - injection H as <- <-. reflexivity.
  - inversion Hf as [|? ? [Ha Hrg] Hrest]; subst.
    destruct (Nat.ltb_spec (length buf) (buffer_offset rg + range_length rg)) as [Hlt|Hge]; [discriminate|].
    destruct (write_read_spec bs i2c (start_address rg)
                (firstn (range_length rg) (skipn (buffer_offset rg) buf)) w) as (data & e & b & Hw & Hl).
    rewrite Hw in H. destruct e as [e|]; [discriminate|].
    pose proof (read_ranges_spec bs i2c rest _ _ _ _ _ H) as (_ & evs' & Ht' & _).
    cbn [trace] in Ht'. rewrite Ht', <- app_assoc in Ht. apply app_inv_head in Ht. subst evs.
    inversion Hsh as [|? ? Hs1 Hsh']; subst. cbn [shows] in Hs1. specialize (Hs1 _ eq_refl).
    assert (Hdl : length data = range_length rg).
    { rewrite Hl, firstn_length, skipn_length. lia. }
    rewrite Hdl in Hs1.
    rewrite (IH _ _ _ _ _ Hrest H Ht' Hsh' j d). cbn [existsb].
    rewrite splice_nth by (rewrite Hdl; exact Hge).
    rewrite Hdl. fold (in_rangeb j rg).
    destruct (in_rangeb j rg) eqn:Hin; cbn [orb].
    + rewrite Hs1, mem_bytes_nth.
      * rewrite (Hrg j Hin). destruct (existsb (in_rangeb j) rest); reflexivity.
      * unfold in_rangeb in Hin. apply andb_prop in Hin. destruct Hin as [H1 H2].
        apply Nat.leb_le in H1. apply Nat.ltb_lt in H2. lia.
    + reflexivity.
Qed.

Lemma read_ram_value_mem i2c a (w : W) v w' evs :
  read_ram_value bs i2c a w = (Ok v, w') -> trace w' = trace w ++ evs -> Forall (shows mem) evs ->
  v = signed (mem a).
Proof.
  intros H Ht Hsh. unfold read_ram_value in H.
  destruct (write_read_spec bs i2c a [0; 0] w) as (data & e & b & Hw & Hl).
  rewrite Hw in H. destruct e as [e|]; [discriminate|].
  assert (Hev : evs = [EvRead i2c [a / 256; a mod 256] data None]).
  { injection H as _ <-. cbn [trace] in Ht. apply app_inv_head in Ht. symmetry. exact Ht. }
  subst evs. inversion Hsh as [|? ? Hs1 _]; subst. cbn [shows] in Hs1. specialize (Hs1 _ eq_refl).
  rewrite Hl in Hs1. subst data. cbn [length mem_bytes map seq] in H. injection H as <- _.
  unfold mem_byte. cbn [Nat.div Nat.divmod fst Nat.even Z.of_nat]. rewrite Z.add_0_r.
  unfold i16_of_u16, be16, signed.
  replace (mem a / 256 * 256 + mem a mod 256) with (mem a); [reflexivity|].
  rewrite Z.mul_comm. apply Z_div_mod_eq_full.
Qed.

Definition ram_shown (lay : layout) (sp : subpage) (ram : ram_data) : Prop :=
  t_a_v_be ram = signed (mem (lay_vbe lay)) /\
  t_a_ptat ram = signed (mem (lay_ptat lay)) /\
  v_dd_pixel ram = signed (mem (lay_vdd lay)) /\
  ram_gain ram = signed (mem (lay_gain lay)) /\
  compensation_pixel ram = signed (mem (lay_cp lay sp)).

Lemma ram_data_mem (c : camera FO) lay i2c sp (w : W) ram w' evs : documented c lay ->
  ram_data_from_i2c bs c i2c sp w = (Ok ram, w') -> trace w' = trace w ++ evs ->
  Forall (shows mem) evs -> ram_shown lay sp ram.
Proof.
  intros Hd H2 Ht Hsh. unfold ram_data_from_i2c, bindS in H2.
  destruct (read_ram_value bs i2c (T_A_V_BE _ c) w) as [r1 w1] eqn:R1. destruct r1 as [v1| | |]; try discriminate.
  destruct (read_ram_value bs i2c (T_A_PTAT _ c) w1) as [r3 w3] eqn:R2. destruct r3 as [v2| | |]; try discriminate.
  destruct (read_ram_value bs i2c (V_DD_PIXEL _ c) w3) as [r4 w4] eqn:R3. destruct r4 as [v3| | |]; try discriminate.
  destruct (read_ram_value bs i2c (GAIN _ c) w4) as [r5 w5] eqn:R4. destruct r5 as [v4| | |]; try discriminate.
  destruct (read_ram_value bs i2c (compensation_pixel_addr _ c sp) w5) as [r6 w6] eqn:R5.
  destruct r6 as [v5| | |]; try discriminate. injection H2 as <- <-.
  pose proof (scalars_doc c lay sp Hd) as Hs. unfold lay_scalars in Hs. injection Hs as S1 S2 S3 S4 S5.
  rewrite S1 in R1. rewrite S2 in R2. rewrite S3 in R3. rewrite S4 in R4. rewrite S5 in R5.
  destruct (read_ram_value_spec bs _ _ _ _ _ R1) as (e1 & T1 & _).
  destruct (read_ram_value_spec bs _ _ _ _ _ R2) as (e2 & T2 & _).
  destruct (read_ram_value_spec bs _ _ _ _ _ R3) as (e3 & T3 & _).
  destruct (read_ram_value_spec bs _ _ _ _ _ R4) as (e4 & T4 & _).
  destruct (read_ram_value_spec bs _ _ _ _ _ R5) as (e5 & T5 & _).
  assert (Hev : evs = [e1; e2; e3; e4; e5]).
  { rewrite T5, T4, T3, T2, T1, <- !app_assoc in Ht. apply app_inv_head in Ht. symmetry. exact Ht. }
  subst evs. rewrite Forall_forall in Hsh.
  assert (K : forall x, In x [e1; e2; e3; e4; e5] -> Forall (shows mem) [x]).
  { intros x Hx. constructor; [apply Hsh; exact Hx|constructor]. }
  unfold ram_shown. cbn [t_a_v_be t_a_ptat v_dd_pixel ram_gain compensation_pixel].
  split; [exact (read_ram_value_mem _ _ _ _ _ _ R1 T1 (K e1 ltac:(simpl; auto 10)))|].
  split; [exact (read_ram_value_mem _ _ _ _ _ _ R2 T2 (K e2 ltac:(simpl; auto 10)))|].
  split; [exact (read_ram_value_mem _ _ _ _ _ _ R3 T3 (K e3 ltac:(simpl; auto 10)))|].
  split; [exact (read_ram_value_mem _ _ _ _ _ _ R4 T4 (K e4 ltac:(simpl; auto 10)))|].
  exact (read_ram_value_mem _ _ _ _ _ _ R5 T5 (K e5 ltac:(simpl; auto 10))).
Qed.
End Contents.

(** The byte of the buffer that pixel layouts want at [j]. *)
Definition pixel_byte (mem : Z -> Z) (lay : layout) (sp : subpage) (j : nat) : Z :=
  mem_byte mem (lay_address lay sp (j / 2)) (j mod 2).

Lemma mem_byte_split mem a j : mem_byte mem a j = mem_byte mem (a + Z.of_nat (j / 2)) (j mod 2).
Proof.
  unfold mem_byte. pose proof (Nat.mod_upper_bound j 2 ltac:(lia)) as Hm.
  replace ((j mod 2) / 2)%nat with 0%nat by (symmetry; apply Nat.div_small; exact Hm).
  rewrite Z.add_0_r. replace (Nat.even (j mod 2)) with (Nat.even j); [reflexivity|].
  rewrite (Nat.div_mod_eq j 2) at 1. rewrite Nat.even_add, Nat.even_mul. cbn [Nat.even orb].
  destruct (Nat.even (j mod 2)); reflexivity.
Qed.

Lemma sub_even_div j o : (2 * o <= j)%nat -> ((j - 2 * o) / 2 = j / 2 - o)%nat.
Proof.
  intros H. symmetry. apply (Nat.div_unique _ 2 _ (j mod 2)); [apply Nat.mod_upper_bound; lia|].
  pose proof (Nat.div_mod_eq j 2). pose proof (Nat.mod_upper_bound j 2 ltac:(lia)). lia.
Qed.
Lemma sub_even_mod j o : (2 * o <= j)%nat -> ((j - 2 * o) mod 2 = j mod 2)%nat.
Proof.
  intros H. symmetry. apply (Nat.mod_unique _ 2 (j / 2 - o)); [apply Nat.mod_upper_bound; lia|].
  pose proof (Nat.div_mod_eq j 2). pose proof (Nat.mod_upper_bound j 2 ltac:(lia)). lia.
Qed.

Lemma ranges_consistent {FO : FloatOps} mem (c : camera FO) lay sp ap : documented c lay ->
  Forall (fun r => 0 <= start_address r < 65536 /\
    forall j, in_rangeb j r = true ->
      mem_byte mem (start_address r) (j - buffer_offset r) = pixel_byte mem lay sp j)
    (pixel_ranges _ c sp ap).
Proof.
  intros Hd. apply Forall_forall. intros rg Hin.
  assert (K : forall s o, start_address rg = s -> buffer_offset rg = (2 * o)%nat ->
    (forall i, (o <= i < o + (range_length rg) / 2)%nat -> s + Z.of_nat (i - o) = lay_address lay sp i) ->
    (range_length rg = 2 * (range_length rg / 2))%nat ->
    forall j, in_rangeb j rg = true ->
      mem_byte mem (start_address rg) (j - buffer_offset rg) = pixel_byte mem lay sp j).
  { intros s o Hs Ho Haddr Hev j Hj. unfold in_rangeb in Hj. apply andb_prop in Hj. destruct Hj as [H1 H2].
    apply Nat.leb_le in H1. apply Nat.ltb_lt in H2. unfold pixel_byte.
    rewrite mem_byte_split, Hs, Ho. rewrite Ho in H1, H2.
    rewrite sub_even_div, sub_even_mod by exact H1. f_equal. apply Haddr.
    pose proof (Nat.div_mod_eq j 2). pose proof (Nat.mod_upper_bound j 2 ltac:(lia)). lia. }
  destruct Hd.
  - cbn [pixel_ranges Mlx90640] in Hin. destruct ap.
    + rewrite ranges640_chess in Hin. destruct Hin as [<-|[]]. split; [cbn [start_address]; lia|].
      apply (K 0x0400 0%nat); cbn [start_address buffer_offset range_length lay_address layout640]; try reflexivity.
      intros i _. rewrite Nat.sub_0_r. reflexivity.
    + rewrite ranges640_interleave in Hin. apply in_map_iff in Hin. destruct Hin as (k & <- & Hk).
      apply in_seq in Hk. cbn [start_address buffer_offset range_length]. split; [destruct sp; cbn [sub]; lia|].
      apply (K (0x0400 + 32 * (2 * Z.of_nat k + sub sp)) (32 * (2 * k + subn sp))%nat);
        cbn [start_address buffer_offset range_length lay_address layout640]; try reflexivity; try lia.
      intros i Hi. change (64 / 2)%nat with 32%nat in Hi. destruct sp; cbn [sub subn] in *; lia.
  - cbn [pixel_ranges Mlx90641] in Hin. rewrite ranges641 in Hin.
    apply in_map_iff in Hin. destruct Hin as (k & <- & Hk).
    apply in_seq in Hk. cbn [start_address buffer_offset range_length]. split; [destruct sp; cbn [sub]; lia|].
    apply (K (0x0400 + 64 * Z.of_nat k + 32 * sub sp) (32 * k)%nat);
      cbn [start_address buffer_offset range_length lay_address layout641]; try reflexivity; try lia.
    intros i Hi. change (64 / 2)%nat with 32%nat in Hi.
    replace (Z.of_nat i / 32) with (Z.of_nat k); [|apply (Z.div_unique _ 32 _ (Z.of_nat (i - 32 * k))); lia].
    replace (Z.of_nat i mod 32) with (Z.of_nat (i - 32 * k));
      [lia|apply (Z.mod_unique _ 32 (Z.of_nat k)); lia].
Qed.

Lemma transferred_ranges {FO : FloatOps} (c : camera FO) lay sp ap j : documented c lay ->
  (j < 2 * lay_pixels lay)%nat ->
  existsb (in_rangeb j) (pixel_ranges _ c sp ap) =
  lay_transferred lay sp ap (j / 2 / lay_width lay) ((j / 2) mod lay_width lay).
Proof.
  intros Hd Hj. destruct Hd.
  - change (2 * lay_pixels layout640)%nat with 1536%nat in Hj.
    cbn [pixel_ranges Mlx90640 lay_transferred lay_width layout640]. destruct ap.
    + rewrite ranges640_chess. cbn [existsb]. unfold in_rangeb. cbn [buffer_offset range_length].
      replace (Nat.ltb j (0 + 1536)) with true by (symmetry; apply Nat.ltb_lt; lia). reflexivity.
    + rewrite ranges640_interleave. set (row := (j / 2 / 32)%nat).
      assert (Hrow : (64 * row <= j < 64 * row + 64)%nat).
      { unfold row. rewrite Nat.div_div by lia. change (2 * 32)%nat with 64%nat.
        pose proof (Nat.div_mod_eq j 64). pose proof (Nat.mod_upper_bound j 64 ltac:(lia)). lia. }
      assert (Hdm : (row = 2 * (row / 2) + row mod 2)%nat) by apply Nat.div_mod_eq.
      pose proof (Nat.mod_upper_bound row 2 ltac:(lia)) as Hm2.
      destruct (Nat.eqb_spec (row mod 2) (subn sp)) as [He|He].
      * apply existsb_exists. eexists. split.
        -- apply in_map. apply (in_seq 12 0 (row / 2)). lia.
        -- unfold in_rangeb. cbn [buffer_offset range_length]. apply andb_true_intro.
           split; [apply Nat.leb_le|apply Nat.ltb_lt]; lia.
      * apply not_true_is_false. intros Hex. apply existsb_exists in Hex. destruct Hex as (rg & Hin & Hr).
        apply in_map_iff in Hin. destruct Hin as (k & <- & Hk). unfold in_rangeb in Hr.
        cbn [buffer_offset range_length] in Hr. apply andb_prop in Hr. destruct Hr as [H1 H2].
        apply Nat.leb_le in H1. apply Nat.ltb_lt in H2. destruct sp; cbn [subn] in *; lia.
  - change (2 * lay_pixels layout641)%nat with 384%nat in Hj.
    cbn [pixel_ranges Mlx90641 lay_transferred layout641]. rewrite ranges641.
    apply existsb_exists. eexists. split.
    + apply in_map. apply (in_seq 6 0 (j / 64)). split; [lia|]. apply Nat.div_lt_upper_bound; lia.
    + unfold in_rangeb. cbn [buffer_offset range_length].
      pose proof (Nat.div_mod_eq j 64). pose proof (Nat.mod_upper_bound j 64 ltac:(lia)).
      apply andb_true_intro. split; [apply Nat.leb_le|apply Nat.ltb_lt]; lia.
Qed.

Lemma pixel_word_at mem lay sp i : word (mem (lay_address lay sp i)) ->
  256 * pixel_byte mem lay sp (2 * i) + pixel_byte mem lay sp (2 * i + 1) = mem (lay_address lay sp i).
Proof.
  intros Hw. unfold pixel_byte.
  replace ((2 * i) / 2)%nat with i by (apply (Nat.div_unique _ 2 _ 0); lia).
  replace ((2 * i + 1) / 2)%nat with i by (apply (Nat.div_unique _ 2 _ 1); lia).
  replace ((2 * i) mod 2)%nat with 0%nat by (apply (Nat.mod_unique _ 2 i); lia).
  replace ((2 * i + 1) mod 2)%nat with 1%nat by (apply (Nat.mod_unique _ 2 i); lia).
  unfold mem_byte. cbn [Nat.div Nat.divmod fst Nat.even Z.of_nat]. rewrite Z.add_0_r.
  symmetry. apply Z_div_mod_eq_full.
Qed.

(** A whole frame read whose transcript shows the contents [mem]. *)
Section Frame.
Context {FO : FloatOps} {B ER EW : Type} (bs : bus B ER EW) (mem : Z -> Z).
Notation W := (world B ER EW).

Definition pixels_shown (lay : layout) sp ap (buf buf' : list Z) : Prop :=
  forall r col, (r < lay_height lay)%nat -> (col < lay_width lay)%nat ->
     let i := (r * lay_width lay + col)%nat in
     if lay_transferred lay sp ap r col
     then 256 * nth (2 * i) buf' 0 + nth (2 * i + 1) buf' 0 = mem (lay_address lay sp i)
     else nth (2 * i) buf' 0 = nth (2 * i) buf 0 /\ nth (2 * i + 1) buf' 0 = nth (2 * i + 1) buf 0.

Lemma read_ram_shows (c : camera FO) lay height i2c ap sp buf (w : W) ram buf' w' evs :
  documented c lay -> (lay_height lay <= height)%nat -> (forall a, word (mem a)) ->
  read_ram bs c height i2c ap sp buf w = (Ok ram, buf', w') ->
  trace w' = trace w ++ evs -> Forall (shows mem) evs ->
  ram_shown mem lay sp ram /\ pixels_shown lay sp ap buf buf' /\
  (forall j, (2 * lay_pixels lay <= j)%nat -> nth_error buf' j = nth_error buf j).
Proof.
  intros Hd Hh Hwd H Ht Hsh.
  pose proof (read_ram_spec bs c lay height i2c ap sp buf w _ _ _ Hd Hh H) as (Hlen & _).
  unfold read_ram in H.
  destruct (Nat.ltb height (length (pixel_ranges _ c sp ap))); [discriminate|].
  destruct (read_ranges bs i2c (pixel_ranges _ c sp ap) buf w) as [[r0 buf0] w0] eqn:Hr.
  destruct r0 as [[]|e| |]; try discriminate.
  pose proof (read_ranges_spec bs i2c _ _ _ _ _ _ Hr) as (_ & evs1 & Ht1 & _).
  destruct (ram_data_from_i2c bs c i2c sp w0) as [r2 w2] eqn:H2.
  pose proof (ram_data_spec bs c i2c sp _ _ _ H2) as (evs2 & Ht2 & _).
  injection H as Hr2 <- <-. destruct r2 as [ram'| e| |]; try discriminate. injection Hr2 as ->.
  rewrite Ht2, Ht1, <- app_assoc in Ht. apply app_inv_head in Ht. subst evs.
  apply Forall_app in Hsh. destruct Hsh as [Hsh1 Hsh2].
  pose proof (read_ranges_mem bs mem i2c (pixel_byte mem lay sp) _ _ _ _ _ _
                (ranges_consistent mem c lay sp ap Hd) Hr Ht1 Hsh1) as Hbuf.
  split; [exact (ram_data_mem bs mem c lay i2c sp w0 ram w2 evs2 Hd H2 Ht2 Hsh2)|].
  split.
  - intros r col Hrow Hcol. set (i := (r * lay_width lay + col)%nat). cbn zeta.
    assert (Hi : (i < lay_pixels lay)%nat) by (unfold i, lay_pixels; nia).
    assert (Hw : (0 < lay_width lay)%nat) by lia.
    rewrite !Hbuf.
    rewrite (transferred_ranges c lay sp ap (2 * i) Hd) by lia.
    rewrite (transferred_ranges c lay sp ap (2 * i + 1) Hd) by lia.
    replace ((2 * i) / 2)%nat with i by (apply (Nat.div_unique _ 2 _ 0); lia).
    replace ((2 * i + 1) / 2)%nat with i by (apply (Nat.div_unique _ 2 _ 1); lia).
    replace (i / lay_width lay)%nat with r by (apply (Nat.div_unique _ _ r col); unfold i; lia).
    replace (i mod lay_width lay)%nat with col by (apply (Nat.mod_unique _ _ r col); unfold i; lia).
    destruct (lay_transferred lay sp ap r col); [|split; reflexivity].
    apply pixel_word_at. apply Hwd.
  - intros j Hj.
    assert (Hno : existsb (in_rangeb j) (pixel_ranges _ c sp ap) = false).
    { apply not_true_is_false. intros Hex. apply existsb_exists in Hex. destruct Hex as (rg & Hin & Hrg).
      unfold in_rangeb in Hrg. apply andb_prop in Hrg. destruct Hrg as [G1 G2].
      apply Nat.leb_le in G1. apply Nat.ltb_lt in G2.
      destruct Hd; cbn [pixel_ranges Mlx90640 Mlx90641] in Hin.
      - change (2 * lay_pixels layout640)%nat with 1536%nat in Hj. destruct ap.
        + rewrite ranges640_chess in Hin. destruct Hin as [<-|[]]. cbn [buffer_offset range_length] in *. lia.
        + rewrite ranges640_interleave in Hin. apply in_map_iff in Hin. destruct Hin as (k & <- & Hk).
          apply in_seq in Hk. cbn [buffer_offset range_length] in *. destruct sp; cbn [subn] in *; lia.
      - change (2 * lay_pixels layout641)%nat with 384%nat in Hj. rewrite ranges641 in Hin.
        apply in_map_iff in Hin. destruct Hin as (k & <- & Hk). apply in_seq in Hk.
        cbn [buffer_offset range_length] in *. lia. }
    destruct (Nat.lt_ge_cases j (length buf)) as [Hlt|Hge].
    + rewrite (nth_error_nth' buf 0) by exact Hlt.
      rewrite (nth_error_nth' buf0 0) by (rewrite Hlen; exact Hlt).
      rewrite Hbuf, Hno. reflexivity.
    + rewrite (proj2 (nth_error_None buf j)) by exact Hge.
      apply nth_error_None. rewrite Hlen. exact Hge.
Qed.

(** On a bus that answers with its memory every frame read shows that memory. *)
Lemma read_ram_answers (c : camera FO) lay height i2c ap sp buf (w : W) r buf' w' evs :
  documented c lay -> (lay_height lay <= height)%nat -> answers bs mem ->
  read_ram bs c height i2c ap sp buf w = (r, buf', w') ->
  trace w' = trace w ++ evs -> Forall (shows mem) evs.
Proof.
  intros Hd Hh Hans H Ht. unfold read_ram in H.
  destruct (Nat.ltb height (length (pixel_ranges _ c sp ap))).
  { injection H as _ _ <-. rewrite <- (app_nil_r (trace w)) in Ht at 1. apply app_inv_head in Ht. subst. constructor. }
  destruct (read_ranges bs i2c (pixel_ranges _ c sp ap) buf w) as [[r0 buf0] w0] eqn:Hr.
  pose proof (read_ranges_spec bs i2c _ _ _ _ _ _ Hr) as (_ & evs1 & Ht1 & _).
  assert (Hsh1 : Forall (shows mem) evs1).
  { eapply read_ranges_answers; [exact Hans| |exact Hr|exact Ht1].
    pose proof (ranges_consistent mem c lay sp ap Hd) as Hc. eapply Forall_impl; [|exact Hc].
    intros a [Ha _]. exact Ha. }
  assert (Hev : w' = w0 -> Forall (shows mem) evs).
  { intros ->. rewrite Ht1 in Ht. apply app_inv_head in Ht. subst. exact Hsh1. }
  destruct r0 as [[]|e| |]; try (injection H as _ _ <-; apply Hev; reflexivity).
  destruct (ram_data_from_i2c bs c i2c sp w0) as [r2 w2] eqn:H2. injection H as _ _ <-.
  pose proof (ram_data_spec bs c i2c sp _ _ _ H2) as (evs2 & Ht2 & _).
  rewrite Ht2, Ht1, <- app_assoc in Ht. apply app_inv_head in Ht. subst evs.
  apply Forall_app. split; [exact Hsh1|]. clear Hev Ht1 Hsh1 Hr.
  unfold ram_data_from_i2c, bindS in H2.
  assert (Haddr : forall a, In a [T_A_V_BE _ c; T_A_PTAT _ c; V_DD_PIXEL _ c; GAIN _ c; compensation_pixel_addr _ c sp] ->
     0 <= a < 65536).
  { rewrite (scalars_doc c lay sp Hd). intros a. unfold lay_scalars.
    destruct Hd; destruct sp; cbn [lay_vbe lay_ptat lay_vdd lay_gain lay_cp layout640 layout641 In]; lia. }
  revert evs2 Ht2.
  assert (Kend : forall (w1 w3 : W) evs, w3 = w1 -> trace w3 = trace w1 ++ evs -> Forall (shows mem) evs).
  { intros w1 w3 evs -> E. rewrite <- (app_nil_r (trace w1)) in E at 1. apply app_inv_head in E. subst. constructor. }
  Ltac one_value H2 Hans Haddr Kend bs :=
    match type of H2 with
    | context [let '(_, _) := read_ram_value bs ?i2c ?a ?w0 in _] =>
        let rr := fresh "rr" in let ww := fresh "ww" in let R := fresh "R" in
        destruct (read_ram_value bs i2c a w0) as [rr ww] eqn:R;
        let ev := fresh "ev" in let T := fresh "T" in let G := fresh "G" in
        destruct (read_ram_value_spec bs _ _ _ _ _ R) as (ev & T & G);
        let S := fresh "S" in
        assert (S := read_ram_value_answers _ _ _ _ _ _ _ _ Hans (Haddr a ltac:(simpl; auto 10)) R T);
        destruct rr as [?|?| |]; [| |destruct G|destruct G]
    end.
  repeat one_value H2 Hans Haddr Kend bs; injection H2 as _ <-; intros evs2 Ht2;
    repeat match goal with T : trace ?x = _ ++ [_], T2 : trace ?y = trace ?x ++ _ |- _ =>
      rewrite T in T2; rewrite <- ?app_assoc in T2; cbn [app] in T2; clear T end;
    match goal with T : trace ?x = ?l ++ ?e1, T2 : trace ?x = ?l ++ ?e2 |- _ =>
      rewrite T in T2; apply app_inv_head in T2; subst end;
    repeat match goal with S : Forall (shows mem) [_] |- _ => inversion S; clear S; subst end;
    repeat (constructor; [assumption|]); constructor.
Qed.
End Frame.
