(** * ParseFacts: reading a byte buffer by position; checked 16-bit sums. *)
From Verif Require Import Base FloatOps Camera SpecRegister SpecEeprom.

Lemma in_i16_spec z : in_i16 z = true <-> fits z.
Proof. unfold in_i16, fits. rewrite andb_true_iff, !Z.leb_le. reflexivity. Qed.

Lemma wrap16_id z : fits z -> wrap16 z = z.
Proof. unfold fits, wrap16. intros. rewrite Z.mod_small by lia. lia. Qed.

Lemma wrap16_fits z : fits (wrap16 z).
Proof. unfold wrap16, fits. pose proof (Z.mod_pos_bound (z + 32768) 65536). lia. Qed.

Lemma wrap16_mod z : (wrap16 z) mod 65536 = z mod 65536.
Proof.
  unfold wrap16. rewrite Zminus_mod_idemp_l. f_equal. lia.
Qed.

Lemma wrap16_eq a b : a mod 65536 = b mod 65536 -> wrap16 a = wrap16 b.
Proof.
  intros H. unfold wrap16. f_equal. rewrite <- (Zplus_mod_idemp_l a), <- (Zplus_mod_idemp_l b), H.
  reflexivity.
Qed.

Lemma wrap16_add_l a b : wrap16 (wrap16 a + b) = wrap16 (a + b).
Proof.
  apply wrap16_eq. rewrite <- Zplus_mod_idemp_l, wrap16_mod, Zplus_mod_idemp_l. reflexivity.
Qed.

Lemma wrap16_add_r a b : wrap16 (a + wrap16 b) = wrap16 (a + b).
Proof. rewrite (Z.add_comm a), wrap16_add_l. f_equal. lia. Qed.

(** An overflow that the build profile detects. *)
Definition overflow (p : profile) (z : Z) : Prop := p = Debug /\ ~ fits z.

Lemma chk_i16_cases {E} p z :
  (overflow p z /\ @chk_i16 E p z = Panic) \/ (~ overflow p z /\ @chk_i16 E p z = Ok (wrap16 z)).
Proof.
  unfold chk_i16, overflow. pose proof (in_i16_spec z) as H. destruct (in_i16 z).
  - right. destruct H as [H _]. specialize (H eq_refl). split.
    + intros [_ Hn]. exact (Hn H).
    + rewrite wrap16_id by exact H. reflexivity.
  - assert (Hn : ~ fits z) by (intros F; apply H in F; discriminate).
    destruct p; [left; repeat split; try reflexivity; exact Hn|].
    right. split; [intros [D _]; discriminate|reflexivity].
Qed.

Lemma sequence_chk {E A} p (f : A -> Z) l :
  ((exists x, In x l /\ overflow p (f x)) /\
     @sequence E Z (map (fun x => chk_i16 p (f x)) l) = Panic) \/
  (~ (exists x, In x l /\ overflow p (f x)) /\
     @sequence E Z (map (fun x => chk_i16 p (f x)) l) = Ok (map (fun x => wrap16 (f x)) l)).
Proof.
  induction l as [|x l IH]; cbn [map sequence].
  - right. split; [intros (x & [] & _)|reflexivity].
  - destruct (@chk_i16_cases E p (f x)) as [[Ho Heq]|[Ho Heq]]; rewrite Heq; cbn [bind].
    + left. split; [exists x; split; [left; reflexivity|exact Ho]|reflexivity].
    + destruct IH as [[(y & Hy & Hoy) IH]|[Hn IH]]; rewrite IH; cbn [bind].
      * left. split; [exists y; split; [right; exact Hy|exact Hoy]|reflexivity].
      * right. split; [|reflexivity]. intros (y & [Hy|Hy] & Hoy); [subst; auto|].
        apply Hn. exists y; auto.
Qed.

Lemma sequence_cases {E A B} (P : A -> Prop) (m : A -> res E B) (v : A -> B) l :
  (forall x, In x l -> (P x /\ m x = Panic) \/ (~ P x /\ m x = Ok (v x))) ->
  ((exists x, In x l /\ P x) /\ sequence (map m l) = Panic) \/
  (~ (exists x, In x l /\ P x) /\ sequence (map m l) = Ok (map v l)).
Proof.
  induction l as [|x l IH]; intros H; cbn [map sequence].
  - right. split; [intros (x & [] & _)|reflexivity].
  - destruct (H x (or_introl eq_refl)) as [[Ho Heq]|[Ho Heq]]; rewrite Heq; cbn [bind].
    + left. split; [exists x; split; [left; reflexivity|exact Ho]|reflexivity].
    + destruct IH as [[(y & Hy & Hoy) IH]|[Hn IH]]; [intros y Hy; apply H; right; exact Hy| |];
        rewrite IH; cbn [bind].
      * left. split; [exists y; split; [right; exact Hy|exact Hoy]|reflexivity].
      * right. split; [|reflexivity]. intros (y & [Hy|Hy] & Hoy); [subst; auto|].
        apply Hn. exists y; auto.
Qed.

(** ** Positions *)
Lemma nth_skipn {A} j n (l : list A) d : nth n (skipn j l) d = nth (j + n) l d.
Proof.
  revert l. induction j as [|j IH]; intros l; [reflexivity|].
  destruct l; [destruct n; reflexivity|apply IH].
Qed.

Lemma skipn_cons {A} (l : list A) j d : (j < length l)%nat ->
  skipn j l = nth j l d :: skipn (S j) l.
Proof.
  revert l. induction j as [|j IH]; intros [|x l] H; cbn [length] in H; try lia; [reflexivity|].
  apply (IH l). lia.
Qed.

Lemma skipn_add {A} a b (l : list A) : skipn a (skipn b l) = skipn (b + a) l.
Proof.
  revert l. induction b as [|b IH]; intros l; [reflexivity|].
  destruct l; [destruct a; reflexivity|apply IH].
Qed.

(** Started at byte [j], [m] panics (exactly when [S] holds) or else yields [v]
    and stops at byte [n]. *)
Definition reads {A} (data : list Z) (j : nat) (m : parser A) (n : nat) (S : Prop) (v : A) : Prop :=
  (S /\ m (skipn j data) = Panic) \/ (~ S /\ m (skipn j data) = Ok (v, skipn n data)).

Section Reads.
Context (data : list Z).

Lemma reads_bind {A B} (m : parser A) (k : A -> parser B) j n n' (S S' : Prop) v v' :
  reads data j m n S v -> reads data n (k v) n' S' v' ->
  reads data j (pbind m k) n' (S \/ S') v'.
Proof.
  intros [[H1 E1]|[H1 E1]] H2; unfold reads, pbind; rewrite E1.
  - left. split; [left; exact H1|reflexivity].
  - destruct H2 as [[H2 E2]|[H2 E2]]; rewrite E2.
    + left. split; [right; exact H2|reflexivity].
    + right. split; [tauto|reflexivity].
Qed.

(** The first step cannot fail. *)
Lemma reads_step {A B} (m : parser A) (k : A -> parser B) j n n' (S : Prop) v v' :
  reads data j m n False v -> reads data n (k v) n' S v' -> reads data j (pbind m k) n' S v'.
Proof.
  intros [[[] _]|[_ E1]] H2. unfold reads, pbind. rewrite E1. exact H2.
Qed.

(** The continuation cannot fail. *)
Lemma reads_last {A B} (m : parser A) (k : A -> parser B) j n n' (S : Prop) v v' :
  reads data j m n S v -> reads data n (k v) n' False v' -> reads data j (pbind m k) n' S v'.
Proof.
  intros H1 H2. destruct (reads_bind m k j n n' S False v v' H1 H2) as [[[H|[]] E]|[H E]];
    [left|right]; split; tauto.
Qed.

Lemma reads_pret {A} (v : A) j : reads data j (pret v) j False v.
Proof. right. split; [intros []|reflexivity]. Qed.

Lemma reads_plift_ok {A} (r : res lib_error A) v j : r = Ok v -> reads data j (plift r) j False v.
Proof. intros ->. right. split; [intros []|reflexivity]. Qed.

Lemma reads_plift {A} (r : res lib_error A) (S : Prop) v j :
  (S /\ r = Panic) \/ (~ S /\ r = Ok v) -> reads data j (plift r) j S v.
Proof. intros [[H E]|[H E]]; rewrite E; [left|right]; split; auto. Qed.

Lemma reads_iff {A} (m : parser A) j n (S S' : Prop) v :
  reads data j m n S v -> (S <-> S') -> reads data j m n S' v.
Proof. intros [[H E]|[H E]] HS; [left|right]; split; tauto. Qed.

Lemma reads_val {A} (m : parser A) j n (S : Prop) v v' :
  reads data j m n S v -> v = v' -> reads data j m n S v'.
Proof. intros H <-. exact H. Qed.

Lemma reads_advance j cnt : (j + cnt <= length data)%nat ->
  reads data j (advance cnt) (j + cnt) False tt.
Proof.
  intros H. right. split; [intros []|]. unfold advance.
  rewrite skipn_length. destruct (Nat.ltb_spec (length data - j) cnt); [lia|].
  rewrite skipn_add. reflexivity.
Qed.

Context (Hb : Forall byte data).

Lemma byte_at_byte j : byte (byte_at data j).
Proof.
  unfold byte_at. destruct (Nat.ltb_spec j (length data)) as [H|H].
  - rewrite Forall_forall in Hb. apply Hb, nth_In, H.
  - rewrite nth_overflow by exact H. split; reflexivity || discriminate.
Qed.

Lemma ee_word_word i : word (ee_word data i).
Proof.
  unfold ee_word, word. pose proof (byte_at_byte (2 * i)) as H1.
  pose proof (byte_at_byte (2 * i + 1)) as H2. unfold byte in *. lia.
Qed.

Lemma high_byte i : byte_at data (2 * i) = bits (ee_word data i) 8 8.
Proof.
  unfold ee_word, bits. change (2 ^ 8) with 256.
  pose proof (byte_at_byte (2 * i)) as H1. pose proof (byte_at_byte (2 * i + 1)) as H2.
  unfold byte in *. set (h := byte_at data (2 * i)) in *. set (l := byte_at data (2 * i + 1)) in *.
  assert (E : (256 * h + l) / 256 = h) by (symmetry; apply (Z.div_unique _ _ _ l); lia).
  rewrite E, Z.mod_small by lia. reflexivity.
Qed.

Lemma low_byte i : byte_at data (2 * i + 1) = bits (ee_word data i) 0 8.
Proof.
  unfold ee_word, bits. change (2 ^ 0) with 1. change (2 ^ 8) with 256. rewrite Z.div_1_r.
  pose proof (byte_at_byte (2 * i + 1)) as H2.
  unfold byte in *. set (h := byte_at data (2 * i)) in *. set (l := byte_at data (2 * i + 1)) in *.
  apply (Z.mod_unique _ _ h); lia.
Qed.

Lemma i8_sext v : byte v -> i8_of_u8 v = sext 8 v.
Proof. reflexivity. Qed.

Lemma reads_u8 j : (j < length data)%nat -> reads data j get_u8 (S j) False (byte_at data j).
Proof.
  intros H. right. split; [intros []|]. unfold get_u8.
  rewrite (skipn_cons data j 0 H). reflexivity.
Qed.

Lemma reads_u8_hi i : (2 * i < length data)%nat ->
  reads data (2 * i) get_u8 (2 * i + 1) False (bits (ee_word data i) 8 8).
Proof. intros H. rewrite <- high_byte. replace (2 * i + 1)%nat with (S (2 * i)) by lia. apply reads_u8, H. Qed.

Lemma reads_u8_lo i : (2 * i + 1 < length data)%nat ->
  reads data (2 * i + 1) get_u8 (2 * (i + 1)) False (bits (ee_word data i) 0 8).
Proof.
  intros H. rewrite <- low_byte. replace (2 * (i + 1))%nat with (S (2 * i + 1)) by lia.
  apply reads_u8, H.
Qed.

Lemma reads_i8_hi i : (2 * i < length data)%nat ->
  reads data (2 * i) get_i8 (2 * i + 1) False (sbits (ee_word data i) 8 8).
Proof.
  intros H. right. split; [intros []|]. unfold get_i8, sbits.
  rewrite (skipn_cons data (2 * i) 0 H). rewrite <- high_byte.
  replace (2 * i + 1)%nat with (S (2 * i)) by lia. reflexivity.
Qed.

Lemma reads_i8_lo i : (2 * i + 1 < length data)%nat ->
  reads data (2 * i + 1) get_i8 (2 * (i + 1)) False (sbits (ee_word data i) 0 8).
Proof.
  intros H. right. split; [intros []|]. unfold get_i8, sbits.
  rewrite (skipn_cons data (2 * i + 1) 0 H). rewrite <- low_byte.
  replace (2 * (i + 1))%nat with (S (2 * i + 1)) by lia. reflexivity.
Qed.

Lemma skipn_word i : (2 * i + 1 < length data)%nat ->
  skipn (2 * i) data = byte_at data (2 * i) :: byte_at data (2 * i + 1) :: skipn (2 * (i + 1)) data.
Proof.
  intros H. rewrite (skipn_cons data (2 * i) 0) by lia. f_equal.
  replace (S (2 * i)) with (2 * i + 1)%nat by lia. rewrite (skipn_cons data (2 * i + 1) 0) by lia.
  replace (S (2 * i + 1)) with (2 * (i + 1))%nat by lia. reflexivity.
Qed.

Lemma be16_word_at i : be16 (byte_at data (2 * i)) (byte_at data (2 * i + 1)) = ee_word data i.
Proof. unfold be16, ee_word. lia. Qed.

Lemma reads_u16 i : (2 * i + 1 < length data)%nat ->
  reads data (2 * i) get_u16 (2 * (i + 1)) False (ee_word data i).
Proof.
  intros H. right. split; [intros []|]. unfold get_u16.
  rewrite skipn_word by exact H. rewrite be16_word_at. reflexivity.
Qed.

Lemma reads_i16 i : (2 * i + 1 < length data)%nat ->
  reads data (2 * i) get_i16 (2 * (i + 1)) False (sext 16 (ee_word data i)).
Proof.
  intros H. right. split; [intros []|]. unfold get_i16.
  rewrite skipn_word by exact H. rewrite be16_word_at. reflexivity.
Qed.
End Reads.

(** ** Locality: a parser looks only at the bytes it consumes *)
Definition local {A} (m : parser A) : Prop :=
  (forall b v r, m b = Ok (v, r) -> exists pre, b = pre ++ r) /\
  (forall b x, match m b with
               | Ok (v, r) => m (b ++ x) = Ok (v, r ++ x)
               | Err e => m (b ++ x) = Err e
               | Diverge => m (b ++ x) = Diverge
               | Panic => True
               end) /\
  (forall b x v r, m (b ++ x) = Ok (v, r ++ x) -> m b = Ok (v, r)).

Lemma local_pret {A} (v : A) : local (pret v).
Proof.
  repeat split.
  - intros b v' r [= <- <-]. exists []. reflexivity.
  - intros b x v' r [= <- H]. apply app_inv_tail in H. subst. reflexivity.
Qed.

Lemma local_plift {A} (r : res lib_error A) : local (plift r).
Proof.
  unfold plift. destruct r as [a|e| |]; repeat split; try discriminate; try reflexivity.
  - intros b v' r [= <- <-]. exists []. reflexivity.
  - intros b x v' r [= <- H]. apply app_inv_tail in H. subst. reflexivity.
Qed.

Lemma local_pbind {A B} (m : parser A) (k : A -> parser B) :
  local m -> (forall a, local (k a)) -> local (pbind m k).
Proof.
  intros (S1 & X1 & R1) Hk. unfold pbind. repeat split.
  - intros b v r H. destruct (m b) as [[a b']|e| |] eqn:E; try discriminate.
    destruct (Hk a) as (S2 & _ & _). destruct (S1 _ _ _ E) as (p1 & ->).
    destruct (S2 _ _ _ H) as (p2 & ->). exists (p1 ++ p2). apply app_assoc.
  - intros b x. specialize (X1 b x). destruct (m b) as [[a b']|e| |]; try exact I;
      try (rewrite X1; reflexivity).
    rewrite X1. destruct (Hk a) as (_ & X2 & _). specialize (X2 b' x). exact X2.
  - intros b x v r H. destruct (m (b ++ x)) as [[a b']|e| |] eqn:E; try discriminate.
    destruct (Hk a) as (S2 & _ & R2). destruct (S2 _ _ _ H) as (pre & ->).
    rewrite app_assoc in E. rewrite (R1 _ _ _ _ E).
    apply R2 with (x := x). rewrite <- app_assoc. exact H.
Qed.

Lemma app_cons_inv {A} (b r x : list A) a l :
  b ++ x = a :: l -> l = r ++ x -> b = a :: r.
Proof.
  intros H ->. destruct b as [|y b].
  - exfalso. apply (f_equal (@length A)) in H. cbn [app length] in H.
    rewrite app_length in H. lia.
  - cbn [app] in H. injection H as <- H. apply app_inv_tail in H. subst. reflexivity.
Qed.

Lemma local_u8 : local get_u8.
Proof.
  unfold get_u8. repeat split.
  - intros [|y b] v r [= <- <-]. exists [y]. reflexivity.
  - intros [|y b] x; [exact I|reflexivity].
  - intros b x v r H. destruct (b ++ x) as [|y l] eqn:E; [discriminate|].
    injection H as <- H. rewrite (app_cons_inv b r x y l E H). reflexivity.
Qed.

Lemma local_i8 : local get_i8.
Proof.
  unfold get_i8. repeat split.
  - intros [|y b] v r [= <- <-]. exists [y]. reflexivity.
  - intros [|y b] x; [exact I|reflexivity].
  - intros b x v r H. destruct (b ++ x) as [|y l] eqn:E; [discriminate|].
    injection H as <- H. rewrite (app_cons_inv b r x y l E H). reflexivity.
Qed.

Lemma local_u16 : local get_u16.
Proof.
  unfold get_u16. repeat split.
  - intros [|y [|z b]] v r [= <- <-]. exists [y; z]. reflexivity.
  - intros [|y [|z b]] x; try exact I. reflexivity.
  - intros b x v r H. destruct (b ++ x) as [|y [|z l]] eqn:E; try discriminate.
    injection H as <- H. rewrite (app_cons_inv b (z :: r) x y (z :: l) E); [reflexivity|].
    rewrite H. reflexivity.
Qed.

Lemma local_i16 : local get_i16.
Proof.
  unfold get_i16. repeat split.
  - intros [|y [|z b]] v r [= <- <-]. exists [y; z]. reflexivity.
  - intros [|y [|z b]] x; try exact I. reflexivity.
  - intros b x v r H. destruct (b ++ x) as [|y [|z l]] eqn:E; try discriminate.
    injection H as <- H. rewrite (app_cons_inv b (z :: r) x y (z :: l) E); [reflexivity|].
    rewrite H. reflexivity.
Qed.

Lemma local_advance n : local (advance n).
Proof.
  unfold advance. repeat split.
  - intros b v r H. destruct (Nat.ltb _ _); [discriminate|]. injection H as _ <-.
    exists (firstn n b). symmetry. apply firstn_skipn.
  - intros b x. destruct (Nat.ltb_spec (length b) n) as [H|H]; [exact I|].
    rewrite app_length. destruct (Nat.ltb_spec (length b + length x) n); [lia|].
    rewrite skipn_app. replace (n - length b)%nat with 0%nat by lia. reflexivity.
  - intros b x [] r H. rewrite app_length in H.
    destruct (Nat.ltb_spec (length b + length x) n); [discriminate|]. injection H as H.
    assert (Hn : (n <= length b)%nat).
    { apply (f_equal (@length Z)) in H. rewrite skipn_length, !app_length in H. lia. }
    destruct (Nat.ltb_spec (length b) n); [lia|].
    rewrite skipn_app in H. replace (n - length b)%nat with 0%nat in H by lia.
    cbn [skipn] in H. apply app_inv_tail in H. rewrite H. reflexivity.
Qed.

(** ** Tables *)
Lemma combine_map {A B C} (f : A -> B) (g : A -> C) l :
  combine (map f l) (map g l) = map (fun x => (f x, g x)) l.
Proof. induction l as [|x l IH]; [reflexivity|]. cbn [map combine]. rewrite IH. reflexivity. Qed.

Lemma seq_map_shift a n : seq a n = map (fun i => (a + i)%nat) (seq 0 n).
Proof.
  revert a. induction n as [|n IH]; intros a; [reflexivity|].
  cbn [seq map]. f_equal; [lia|]. rewrite IH, <- seq_shift, map_map. apply map_ext. intros; lia.
Qed.

Lemma concat_table {A} (g : nat -> nat -> A) w h : (0 < w)%nat ->
  concat (map (fun r => map (g r) (seq 0 w)) (seq 0 h)) =
  map (fun i => g (i / w)%nat (i mod w)%nat) (seq 0 (h * w)).
Proof.
  intros Hw. induction h as [|h IH]; [reflexivity|].
  rewrite seq_S, map_app, concat_app, IH. cbn [map concat]. rewrite app_nil_r.
  replace (S h * w)%nat with (h * w + w)%nat by lia.
  rewrite seq_app, map_app. f_equal.
  rewrite (seq_map_shift (0 + h * w) w), map_map. apply map_ext_in. intros i Hi.
  apply in_seq in Hi. cbn [Nat.add].
  rewrite (Nat.add_comm (h * w) i), Nat.div_add, Nat.mod_add by lia.
  rewrite Nat.div_small, Nat.mod_small by lia. reflexivity.
Qed.
