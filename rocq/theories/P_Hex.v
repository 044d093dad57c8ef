(** * P_Hex: C71 -- the hexadecimal numbers in messages are the numbers they stand for. *)
From Verif Require Import Base FloatOps Examples Public P_Public P_Terminal SpecText.
From Coq Require Import Ascii.
Open Scope Z_scope.

Lemma hex_digit_is d : 0 <= d < 16 -> exists c, hex_digit d = String c EmptyString /\ digit 16 c d /\ (c = "0"%char -> d = 0).
Proof.
  intros H. assert (G : In d [0;1;2;3;4;5;6;7;8;9;10;11;12;13;14;15]) by (cbn; lia).
  cbn in G. repeat destruct G as [<-|G]; try contradiction;
    (eexists; split; [reflexivity|split; [split; [lia|right; reflexivity]|intros E; first [reflexivity|discriminate E]]]).
Qed.

Lemma four_digits w : word w -> exists s, length (list_ascii_of_string s) = 4%nat /\ hex_06 w = ("0x" ++ s)%string /\ digits 16 s w.
Proof.
  intros Hw. assert (B : forall x, 0 <= x mod 16 < 16) by (intros; apply Z.mod_pos_bound; lia).
  destruct (hex_digit_is _ (B (w / 4096))) as (a & Ea & Da & _), (hex_digit_is _ (B (w / 256))) as (b & Eb & Db & _),
    (hex_digit_is _ (B (w / 16))) as (c & Ec & Dc & _), (hex_digit_is _ (B w)) as (d & Ed & Dd & _).
  exists (String a (String b (String c (String d EmptyString)))). unfold hex_06. rewrite Ea, Eb, Ec, Ed.
  split; [reflexivity|]. split; [reflexivity|].
  exists [w / 4096 mod 16; w / 256 mod 16; w / 16 mod 16; w mod 16]. split; [discriminate|].
  split; [repeat (constructor; [assumption|]); constructor|].
  cbn [fold_left]. pose proof (nibbles w Hw) as E. clear - E. lia.
Qed.

(** The message of a checksum error is a fixed text and then, after 0x, the offending word as a
    hexadecimal numeral of four digits. *)
Theorem C71_checksum_digits : forall w, word w ->
  exists s, display_lib_error (Checksum w) = ("Invalid checksum for data 0x" ++ s)%string /\
    String.length s = 4%nat /\ digits 16 s w.
Proof.
  intros w Hw. destruct (four_digits w Hw) as (s & L & E & D). exists s. split.
  - unfold display_lib_error. rewrite E. reflexivity.
  - split; [|exact D]. clear - L. revert L. generalize 4%nat. induction s as [|c s IH]; intros n L; cbn [list_ascii_of_string length] in L; [exact L|].
    destruct n as [|n]; [discriminate|]. cbn [String.length]. f_equal. apply IH. lia.
Qed.
Print Assumptions C71_checksum_digits.

Lemma short_digits w : word w -> exists s, hex_short w = ("0x" ++ s)%string /\ digits 16 s w /\ no_leading_zero s.
Proof.
  intros Hw. unfold word in Hw. assert (B : forall x, 0 <= x mod 16 < 16) by (intros; apply Z.mod_pos_bound; lia).
  unfold hex_short. destruct (Z.ltb_spec w 16) as [H1|H1]; [|destruct (Z.ltb_spec w 256) as [H2|H2]; [|destruct (Z.ltb_spec w 4096) as [H3|H3]]].
  - destruct (hex_digit_is w ltac:(lia)) as (a & Ea & Da & _). rewrite Ea.
    eexists. split; [reflexivity|]. split.
    + exists [w]. split; [discriminate|]. split; [constructor; [assumption|constructor]|]. cbn [fold_left]. lia.
    + intros rest E. injection E as _ E. symmetry. exact E.
  - destruct (hex_digit_is (w / 16) ltac:(Z.div_mod_to_equations; lia)) as (a & Ea & Da & Na), (hex_digit_is _ (B w)) as (b & Eb & Db & _).
    rewrite Ea, Eb. eexists. split; [reflexivity|]. split.
    + exists [w / 16; w mod 16]. split; [discriminate|]. split; [repeat (constructor; [assumption|]); constructor|].
      cbn [fold_left]. pose proof (Z.div_mod w 16 ltac:(lia)). lia.
    + intros rest E. injection E as E _. specialize (Na E). exfalso. clear - Na H1. Z.div_mod_to_equations. lia.
  - destruct (hex_digit_is (w / 256) ltac:(Z.div_mod_to_equations; lia)) as (a & Ea & Da & Na),
      (hex_digit_is _ (B (w / 16))) as (b & Eb & Db & _), (hex_digit_is _ (B w)) as (c & Ec & Dc & _).
    rewrite Ea, Eb, Ec. eexists. split; [reflexivity|]. split.
    + exists [w / 256; w / 16 mod 16; w mod 16]. split; [discriminate|]. split; [repeat (constructor; [assumption|]); constructor|].
      cbn [fold_left]. clear. Z.div_mod_to_equations. lia.
    + intros rest E. injection E as E _. specialize (Na E). exfalso. clear - Na H2. Z.div_mod_to_equations. lia.
  - destruct (hex_digit_is (w / 4096) ltac:(Z.div_mod_to_equations; lia)) as (a & Ea & Da & Na),
      (hex_digit_is _ (B (w / 256))) as (b & Eb & Db & _), (hex_digit_is _ (B (w / 16))) as (c & Ec & Dc & _), (hex_digit_is _ (B w)) as (d & Ed & Dd & _).
    rewrite Ea, Eb, Ec, Ed. eexists. split; [reflexivity|]. split.
    + exists [w / 4096; w / 256 mod 16; w / 16 mod 16; w mod 16]. split; [discriminate|]. split; [repeat (constructor; [assumption|]); constructor|].
      cbn [fold_left]. clear. Z.div_mod_to_equations. lia.
    + intros rest E. injection E as E _. specialize (Na E). exfalso. clear - Na H3. Z.div_mod_to_equations. lia.
Qed.

Lemma digits_unique radix s v v' : radix = 10 \/ radix = 16 -> digits radix s v -> digits radix s v' -> v = v'.
Proof.
  intros Hr (ds & _ & H & ->) (ds' & _ & H' & ->). assert (E : ds = ds'); [|rewrite E; reflexivity].
  clear - Hr H H'. revert ds' H'. induction H as [|c d l ds Hd _ IH]; intros ds' H'; inversion H' as [|c1 d1 l1 ds1 Hd1 H1']; subst; [reflexivity|].
  f_equal; [|apply IH; assumption].
  apply (to_digit_spec radix c d Hr) in Hd. apply (to_digit_spec radix c d1 Hr) in Hd1. congruence.
Qed.

(** [Debug] of an address shows it as a hexadecimal numeral without needless zeros, and so different
    addresses differently. *)
Theorem C71_address_debug : forall w, word w ->
  (exists s, debug_address (address_new w) = ("Address(0x" ++ s ++ ")")%string /\ digits 16 s w /\ no_leading_zero s) /\
  (forall w', word w' -> debug_address (address_new w') = debug_address (address_new w) -> w' = w).
Proof.
  assert (G : forall w, word w -> exists s, debug_address (address_new w) = ("Address(0x" ++ s ++ ")")%string /\ digits 16 s w /\ no_leading_zero s).
  { intros w Hw. destruct (short_digits w Hw) as (s & E & D & N). exists s. split; [|split; [exact D|exact N]].
    unfold debug_address. cbn [address_new address_u16]. rewrite E. reflexivity. }
  intros w Hw. split; [exact (G w Hw)|]. intros w' Hw' E.
  destruct (G w Hw) as (s & Es & D & _), (G w' Hw') as (s' & Es' & D' & _).
  rewrite Es, Es' in E. cbn in E. injection E as E. apply append_inj_r in E. subst s'.
  apply (digits_unique 16 s); [right; reflexivity|exact D'|exact D].
Qed.
Print Assumptions C71_address_debug.

(** An I2C address shown like this, without the word and the parentheses, is an address argument of the examples. *)
Theorem C79_shown_address : forall a, 0 <= a < 256 -> parse_address (hex_short a) = Ok a.
Proof.
  intros a Ha. destruct (short_digits a ltac:(unfold word; lia)) as (s & E & D & _).
  apply C79_address. split; [lia|]. left. exists s. split; [exact E|left; exact D].
Qed.

Example C71_hex_concrete : debug_address (address_new 0x240F) = "Address(0x240F)"%string /\ debug_address (address_new 0) = "Address(0x0)"%string /\
  debug_address (address_new 0x33) = "Address(0x33)"%string /\ parse_address (hex_short 0x33) = Ok 0x33 /\
  display_lib_error (Checksum 0x0ABC) = "Invalid checksum for data 0x0ABC"%string.
Proof. repeat split. Qed.
