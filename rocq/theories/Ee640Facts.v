(** * Ee640Facts: closed form of the MLX90640 EEPROM decoder. *)
From Verif Require Import Base FloatOps Register Bus Camera Cam640 SpecRegister SpecEeprom
  ParseFacts FieldFacts Spec640 Ee640.

Lemma NUM_PIXELS640_val : NUM_PIXELS640 = (24 * 32)%nat.
Proof. reflexivity. Qed.

(** A table of rows [0..h) and columns [0..32). *)
Definition row_of (g : nat -> Z) : list Z := map g (seq 0 32).

Lemma seq_4 k b : seq (4 * b) (4 * S k) =
  (4 * b)%nat :: (4 * b + 1)%nat :: (4 * b + 2)%nat :: (4 * b + 3)%nat :: seq (4 * S b) (4 * k).
Proof.
  replace (4 * S k)%nat with (S (S (S (S (4 * k))))) by lia. cbn [seq].
  replace (4 * b + 1)%nat with (S (4 * b)) by lia. replace (4 * b + 2)%nat with (S (S (4 * b))) by lia.
  replace (4 * b + 3)%nat with (S (S (S (4 * b)))) by lia.
  replace (4 * S b)%nat with (S (S (S (S (4 * b))))) by lia. reflexivity.
Qed.

Section Bulk.
Context (p : profile) (data : list Z) (Hb : Forall byte data).
Notation W := (ee_word data).

Definition rcoef (w0 : nat) (scale : Z) (r : nat) : Z :=
  wrap16 (sbits (W (w0 + r / 4)) (4 * Z.of_nat (r mod 4)) 4 * 2 ^ scale).

Lemma rcoef_at w0 scale b k : (k < 4)%nat ->
  rcoef w0 scale (4 * b + k) = wrap16 (sbits (W (w0 + b)) (4 * Z.of_nat k) 4 * 2 ^ scale).
Proof.
  intros Hk. unfold rcoef.
  replace ((4 * b + k) / 4)%nat with b by (apply (Nat.div_unique _ 4 b k); lia).
  replace ((4 * b + k) mod 4)%nat with k by (apply (Nat.mod_unique _ 4 b k); lia). reflexivity.
Qed.

Lemma rcoef_at0 w0 scale b :
  rcoef w0 scale (4 * b) = wrap16 (sbits (W (w0 + b)) 0 4 * 2 ^ scale).
Proof. rewrite <- (Nat.add_0_r (4 * b)), rcoef_at by lia. reflexivity. Qed.

Lemma row_chk (g : nat -> Z) (k : Z) :
  ((exists c, (c < 32)%nat /\ overflow p (g c + k)) /\
     @sequence lib_error Z (map (fun e => chk_i16 p (e + k)) (row_of g)) = Panic) \/
  (~ (exists c, (c < 32)%nat /\ overflow p (g c + k)) /\
     @sequence lib_error Z (map (fun e => chk_i16 p (e + k)) (row_of g)) =
       Ok (row_of (fun c => wrap16 (g c + k)))).
Proof.
  unfold row_of. rewrite map_map.
  destruct (@sequence_chk lib_error nat p (fun c => g c + k) (seq 0 32)) as [[(c & Hc & Ho) E]|[H E]].
  - left. split; [|exact E]. exists c. apply in_seq in Hc. split; [lia|exact Ho].
  - right. split; [|exact E]. intros (c & Hc & Ho). apply H. exists c. split; [apply in_seq; lia|exact Ho].
Qed.

(** Rows [4b .. 4b+4k). *)
Lemma reads_rows scale w0 (g : nat -> nat -> Z) k : forall b,
  (2 * (w0 + b + k) <= length data)%nat ->
  reads data (2 * (w0 + b))
    (add_row_offsets p scale (map (fun r => row_of (g r)) (seq (4 * b) (4 * k))))
    (2 * (w0 + b + k))
    (exists r c, (4 * b <= r < 4 * (b + k))%nat /\ (c < 32)%nat /\ overflow p (g r c + rcoef w0 scale r))
    (map (fun r => row_of (fun c => wrap16 (g r c + rcoef w0 scale r))) (seq (4 * b) (4 * k))).
Proof.
  induction k as [|k IH]; intros b Hlen.
  - rewrite Nat.mul_0_r. cbn [seq map add_row_offsets].
    replace (w0 + b + 0)%nat with (w0 + b)%nat by lia.
    eapply reads_iff; [apply reads_pret|]. split; [tauto|]. intros (r & c & H & _). lia.
  - rewrite seq_4. cbn [map]. cbn [add_row_offsets].
    eapply reads_iff.
    { eapply reads_step; [apply reads_i4s; [exact Hb|lia]|]. cbv beta zeta.
      eapply (reads_bind data) with
        (v := map (fun r => row_of (fun c => wrap16 (g r c + rcoef w0 scale r)))
                            [4 * b; 4 * b + 1; 4 * b + 2; 4 * b + 3]%nat)
        (S := exists r, In r [4 * b; 4 * b + 1; 4 * b + 2; 4 * b + 3]%nat /\
                            exists c, (c < 32)%nat /\ overflow p (g r c + rcoef w0 scale r)).
      - apply reads_plift.
        cbn [map rev app]. unfold shl16.
        change (zip ?a ?b) with (combine a b). cbn [combine].
        pose proof (rcoef_at0 w0 scale b) as E0.
        pose proof (rcoef_at w0 scale b 1 ltac:(lia)) as E1. change (4 * Z.of_nat 1) with 4 in E1.
        pose proof (rcoef_at w0 scale b 2 ltac:(lia)) as E2. change (4 * Z.of_nat 2) with 8 in E2.
        pose proof (rcoef_at w0 scale b 3 ltac:(lia)) as E3. change (4 * Z.of_nat 3) with 12 in E3.
        rewrite <- E0, <- E1, <- E2, <- E3.
        exact (sequence_cases (fun r => exists c, (c < 32)%nat /\ overflow p (g r c + rcoef w0 scale r))
                 (fun r => @sequence lib_error Z (map (fun e => chk_i16 p (e + rcoef w0 scale r)) (row_of (g r))))
                 (fun r => row_of (fun c => wrap16 (g r c + rcoef w0 scale r)))
                 [4 * b; 4 * b + 1; 4 * b + 2; 4 * b + 3]%nat
                 (fun r _ => row_chk (g r) (rcoef w0 scale r))).
      - replace (w0 + b + 1)%nat with (w0 + S b)%nat by lia.
        eapply reads_last; [apply IH; lia|]. cbv beta.
        replace (w0 + S b + k)%nat with (w0 + b + S k)%nat by lia.
        apply reads_pret. }
    split.
    + intros [(r & Hr & c & Hc & Ho)|(r & c & Hr & Hc & Ho)]; exists r, c.
      * cbn [In] in Hr. refine (conj _ (conj Hc Ho)). lia.
      * refine (conj _ (conj Hc Ho)). lia.
    + intros (r & c & Hr & Hc & Ho). destruct (Nat.lt_ge_cases r (4 * S b)) as [H|H].
      * left. exists r. split; [cbn [In]; lia|]. exists c. auto.
      * right. exists r, c. refine (conj _ (conj Hc Ho)). lia.
Qed.

Lemma firstn_seq a n k : firstn k (seq a n) = seq a (min k n).
Proof.
  revert a k. induction n as [|n IH]; intros a [|k]; try reflexivity.
  cbn [seq firstn Nat.min]. rewrite IH. reflexivity.
Qed.
Lemma skipn_seq a n k : skipn k (seq a n) = seq (a + k) (n - k).
Proof.
  revert a k. induction n as [|n IH]; intros a [|k]; try reflexivity.
  - cbn [seq skipn Nat.sub]. rewrite Nat.add_0_r. reflexivity.
  - cbn [seq skipn Nat.sub]. rewrite IH. f_equal. lia.
Qed.

Definition between (a n c : nat) : bool := Nat.leb a c && Nat.ltb c (a + n).

Lemma columns_step (g : nat -> Z) ix w0 scale : (ix < 8)%nat ->
  let coefs := rev (map (fun c => shl16 c scale)
    [sbits (W (w0 + ix)) 12 4; sbits (W (w0 + ix)) 8 4; sbits (W (w0 + ix)) 4 4; sbits (W (w0 + ix)) 0 4]) in
  let P := exists c, (4 * ix <= c < 4 * ix + 4)%nat /\ overflow p (g c + rcoef w0 scale c) in
  (P /\ add_columns_to_row p (ix * 4) coefs (row_of g) = Panic) \/
  (~ P /\ add_columns_to_row p (ix * 4) coefs (row_of g) =
     Ok (row_of (fun c => if between (4 * ix) 4 c then wrap16 (g c + rcoef w0 scale c) else g c))).
Proof.
  intros Hix coefs P.
  assert (Ec : coefs = map (rcoef w0 scale) [4 * ix; 4 * ix + 1; 4 * ix + 2; 4 * ix + 3]%nat).
  { unfold coefs. cbn [map rev app]. rewrite rcoef_at0, !rcoef_at by lia. reflexivity. }
  unfold add_columns_to_row. rewrite Ec.
  replace (ix * 4)%nat with (4 * ix)%nat by lia.
  set (l := [4 * ix; 4 * ix + 1; 4 * ix + 2; 4 * ix + 3]%nat).
  assert (Em : firstn 4 (skipn (4 * ix) (row_of g)) = map g l).
  { unfold row_of. rewrite skipn_map, firstn_map, skipn_seq, firstn_seq. f_equal.
    replace (min 4 (32 - 4 * ix)) with 4%nat by lia. cbn [Nat.add].
    change (seq (4 * ix) 4) with [4 * ix; S (4 * ix); S (S (4 * ix)); S (S (S (4 * ix)))]%nat.
    unfold l. replace (4 * ix + 1)%nat with (S (4 * ix)) by lia.
    replace (4 * ix + 2)%nat with (S (S (4 * ix))) by lia.
    replace (4 * ix + 3)%nat with (S (S (S (4 * ix)))) by lia. reflexivity. }
  rewrite Em.
  unfold zip. rewrite combine_map, map_map.
  destruct (@sequence_chk lib_error nat p (fun c => g c + rcoef w0 scale c) l) as [[(c & Hc & Ho) E]|[H E]];
    rewrite E; cbn [bind].
  - left. split; [|reflexivity]. exists c. split; [|exact Ho]. unfold l in Hc. cbn [In] in Hc. lia.
  - right. split.
    + intros (c & Hc & Ho). apply H. exists c. split; [|exact Ho]. unfold l. cbn [In]. lia.
    + f_equal. unfold row_of. rewrite firstn_map, skipn_map, firstn_seq, skipn_seq.
      replace (min (4 * ix) 32) with (4 * ix)%nat by lia. cbn [Nat.add].
      replace 32%nat with (4 * ix + (4 + (32 - (4 * ix + 4))))%nat at 2 by lia.
      rewrite seq_app, map_app. cbn [Nat.add].
      replace (seq (4 * ix) (S (S (S (S (32 - (4 * ix + 4))))))) with (l ++ seq (4 * ix + 4) (32 - (4 * ix + 4))).
      2:{ unfold l. cbn [seq app].
          replace (4 * ix + 1)%nat with (S (4 * ix)) by lia. replace (4 * ix + 2)%nat with (S (S (4 * ix))) by lia.
          replace (4 * ix + 3)%nat with (S (S (S (4 * ix)))) by lia.
          replace (4 * ix + 4)%nat with (S (S (S (S (4 * ix))))) by lia. reflexivity. }
      rewrite map_app. f_equal; [|f_equal].
      * apply map_ext_in. intros c Hc. apply in_seq in Hc. unfold between.
        destruct (Nat.leb_spec (4 * ix) c); [lia|reflexivity].
      * apply map_ext_in. intros c Hc. unfold l in Hc. cbn [In] in Hc. unfold between.
        destruct (Nat.leb_spec (4 * ix) c); [|lia]. destruct (Nat.ltb_spec c (4 * ix + 4)); [reflexivity|lia].
      * apply map_ext_in. intros c Hc. apply in_seq in Hc. unfold between.
        destruct (Nat.ltb_spec c (4 * ix + 4)); [lia|]. rewrite andb_false_r. reflexivity.
Qed.

Lemma reads_columns scale w0 n : forall ix (g : nat -> nat -> Z),
  (ix + n = 8)%nat -> (2 * (w0 + 8) <= length data)%nat ->
  reads data (2 * (w0 + ix))
    (add_column_offsets p n ix scale (map (fun r => row_of (g r)) (seq 0 24)))
    (2 * (w0 + 8))
    (exists r c, (r < 24)%nat /\ (4 * ix <= c < 32)%nat /\ overflow p (g r c + rcoef w0 scale c))
    (map (fun r => row_of (fun c => if Nat.leb (4 * ix) c then wrap16 (g r c + rcoef w0 scale c) else g r c))
       (seq 0 24)).
Proof.
  induction n as [|n IH]; intros ix g Hix Hlen.
  - cbn [add_column_offsets]. replace (w0 + ix)%nat with (w0 + 8)%nat by lia.
    eapply reads_iff; [eapply reads_val; [apply reads_pret|]|].
    + apply map_ext. intros r. apply map_ext_in. intros c Hc. apply in_seq in Hc.
      destruct (Nat.leb_spec (4 * ix) c); [lia|reflexivity].
    + split; [tauto|]. intros (r & c & _ & H & _). lia.
  - cbn [add_column_offsets].
    set (g1 := fun r c => if between (4 * ix) 4 c then wrap16 (g r c + rcoef w0 scale c) else g r c).
    eapply reads_iff; [eapply reads_val|].
    { eapply reads_step; [apply reads_i4s; [exact Hb|lia]|]. cbv beta zeta.
      eapply reads_bind.
      - apply reads_plift. rewrite map_map.
        apply (sequence_cases
          (fun r => exists c, (4 * ix <= c < 4 * ix + 4)%nat /\ overflow p (g r c + rcoef w0 scale c))
          _ (fun r => row_of (g1 r))).
        intros r _. apply (columns_step (g r) ix w0 scale). lia.
      - replace (w0 + ix + 1)%nat with (w0 + S ix)%nat by lia. apply IH; lia. }
    + apply map_ext. intros r. apply map_ext_in. intros c Hc. apply in_seq in Hc.
      unfold g1, between.
      destruct (Nat.leb_spec (4 * S ix) c); destruct (Nat.leb_spec (4 * ix) c); try lia;
        destruct (Nat.ltb_spec c (4 * ix + 4)); try lia; reflexivity.
    + unfold g1, between. split.
      * intros [(r & Hr & c & Hc & Ho)|(r & c & Hr & Hc & Ho)].
        -- exists r, c. apply in_seq in Hr. refine (conj _ (conj _ Ho)); lia.
        -- exists r, c. split; [exact Hr|]. split; [lia|].
           destruct (Nat.leb_spec (4 * ix) c); [|lia]. destruct (Nat.ltb_spec c (4 * ix + 4)); [lia|exact Ho].
      * intros (r & c & Hr & Hc & Ho). destruct (Nat.lt_ge_cases c (4 * ix + 4)) as [H|H].
        -- left. exists r. split; [apply in_seq; lia|]. exists c. split; [lia|exact Ho].
        -- right. exists r, c. split; [exact Hr|]. split; [lia|].
           destruct (Nat.leb_spec (4 * ix) c); [|lia]. destruct (Nat.ltb_spec c (4 * ix + 4)); [lia|exact Ho].
Qed.

(** The value of a pixel before the remainders. *)
Definition bulk (blk r c : nat) : Z :=
  wrap16 (wrap16 (average W blk + shifted (row_term W blk r)) + shifted (column_term W blk c)).

Lemma reads_bulk blk : (2 * (blk + 16) <= length data)%nat ->
  reads data (2 * blk) (calculate_bulk_pixel_calibration p) (2 * (blk + 16))
    (p = Debug /\ exists r c, (r < 24)%nat /\ (c < 32)%nat /\ block_overflows W blk r c)
    (map (fun i => bulk blk (i / 32) (i mod 32)) (seq 0 NUM_PIXELS640),
     remainder_scale W blk, extra_field W blk).
Proof.
  intros Hlen. unfold calculate_bulk_pixel_calibration.
  eapply reads_iff.
  { eapply reads_step; [apply reads_u4s; [exact Hb|lia]|]. cbv beta zeta.
    eapply reads_step; [apply reads_i16; lia|].
    change (repeat (repeat (sext 16 (W (blk + 1))) WIDTH640) HEIGHT640) with
      (map (fun _ : nat => row_of (fun _ => average W blk)) (seq (4 * 0) (4 * 6))).
    replace (blk + 1 + 1)%nat with (blk + 2 + 0)%nat by lia.
    eapply reads_bind; [apply (reads_rows _ _ (fun _ _ => average W blk)); lia|].
    change (WIDTH640 / 4)%nat with 8%nat.
    change (seq (4 * 0) (4 * 6)) with (seq 0 24).
    replace (blk + 2 + 0 + 6)%nat with (blk + 8 + 0)%nat by lia.
    eapply reads_last; [apply reads_columns; lia|].
    replace (blk + 8 + 8)%nat with (blk + 16)%nat by lia.
    eapply reads_val; [apply reads_pret|].
    apply (f_equal (fun x => (x, remainder_scale W blk, extra_field W blk))).
    rewrite NUM_PIXELS640_val. unfold row_of. rewrite concat_table by lia. apply map_ext. intros i. reflexivity. }
  unfold overflow, block_overflows. split.
  - intros [(r & c & Hr & Hc & Hd & Ho)|(r & c & Hr & Hc & Hd & Ho)].
    + split; [exact Hd|]. exists r, c. split; [lia|]. split; [lia|]. left. exact Ho.
    + split; [exact Hd|]. exists r, c. split; [lia|]. split; [lia|].
      destruct (in_i16 (average W blk + shifted (row_term W blk r))) eqn:E.
      * apply in_i16_spec in E. right. rewrite wrap16_id in Ho by exact E. exact Ho.
      * left. intros F. apply in_i16_spec in F. congruence.
  - intros (Hd & r & c & Hr & Hc & [Ho|Ho]).
    + left. exists r, c. split; [lia|]. split; [lia|]. split; [exact Hd|exact Ho].
    + destruct (in_i16 (average W blk + shifted (row_term W blk r))) eqn:E.
      * right. exists r, c. split; [lia|]. split; [lia|]. split; [exact Hd|].
        apply in_i16_spec in E. rewrite wrap16_id by exact E. exact Ho.
      * left. exists r, c. split; [lia|]. split; [lia|]. split; [exact Hd|].
        change (~ fits (average W blk + shifted (row_term W blk r))).
        intros F. apply in_i16_spec in F. congruence.
Qed.
End Bulk.
