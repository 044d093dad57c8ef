(** * SpecStream: a camera that measures all the time, and a program that polls it. *)
From Verif Require Import Base FloatOps Register Bus Camera Calc Driver SpecRegister SpecCamera SpecDriver SpecImage SpecTraffic.

(** What the camera measures: frame [n] (counted from 1) is finished at time [film_time n]; it is a
    measurement of subpage [film_page n], and from then on until frame [n + 1] is finished the
    camera's RAM holds [film_mem n].  (Number 0: before the first frame.) *)
Record film := { film_time : nat -> Z; film_page : nat -> subpage; film_mem : nat -> Z -> Z }.

(** What can be said of a state of the device: the time, how many frames are finished, and whether
    the "new data" flag is set. *)
Record view (B : Type) := { clock : B -> Z; frames : B -> nat; ready : B -> bool }.
Arguments clock {B} _ _. Arguments frames {B} _ _. Arguments ready {B} _ _.

(** How long things take.  [pause]: from the end of one call (or the start of the poll) to the end of the
    status read of the next call, the time the program spends elsewhere included; [slack] and [per_byte]: a
    transaction with [n] bytes on the wire takes at most [slack + n * per_byte]. *)
Record timing := { pause : Z; slack : Z; per_byte : Z }.

(** A camera at bus address [a], free running.  Frames are finished at the times of the film, whatever the
    program does, also in the middle of a transaction.  A finished frame sets the flag; otherwise the flag
    changes only by writing the status register.  A status read shows the register as it is at some moment during
    the transaction.  A RAM read during which no frame is finished shows the RAM of the latest frame; if
    one is finished during the read, any data may come back.  No transaction fails. *)
Record free_running {B ER EW} (bs : bus B ER EW) (a : Z) (v : view B) (f : film) (t : timing) : Prop := {
  fr_word : forall n x, word (film_mem f n x);
  fr_frames : forall b n, (n < frames v b)%nat <-> film_time f (S n) <= clock v b;
  fr_status_read : forall b buf b' out e, length buf = 2%nat ->
    dev_write_read bs b a status_reg buf = (b', out, e) ->
    e = None /\ clock v b <= clock v b' <= clock v b + pause t /\
    ready v b' = ready v b || Nat.ltb (frames v b) (frames v b') /\
    exists w n, out = [w / 256; w mod 256] /\ word w /\ (frames v b <= n <= frames v b')%nat /\
      bit w 3 = ready v b || Nat.ltb (frames v b) n /\ s_subpage (status_doc w) = film_page f n;
  fr_ram_read : forall b x buf b' out e, 0x0400 <= x -> x + Z.of_nat (length buf) / 2 <= 0x0800 ->
    dev_write_read bs b a [x / 256; x mod 256] buf = (b', out, e) ->
    e = None /\ clock v b <= clock v b' <= clock v b + slack t + (4 + Z.of_nat (length buf)) * per_byte t /\
    ready v b' = ready v b || Nat.ltb (frames v b) (frames v b') /\
    (frames v b' = frames v b -> out = mem_bytes (film_mem f (frames v b)) x (length buf));
  fr_status_write : forall b hi lo b' e, dev_write bs b a (status_reg ++ [hi; lo]) = (b', e) ->
    e = None /\ clock v b <= clock v b' <= clock v b + slack t + 5 * per_byte t /\
    (frames v b' = frames v b -> ready v b' = bit (256 * hi + lo) 3)
}.

(** Time from the moment a frame is finished until it has been noticed, read and acknowledged: the poll may
    just have missed it, the next one sees it, then come the frame's transactions and the write. *)
Definition longest (lay : layout) (ap : access_pattern) (t : timing) : Z :=
  2 * pause t + (fst (frame_traffic lay ap) + 1) * slack t + (snd (frame_traffic lay ap) + 5) * per_byte t.
(** Frames come more slowly than that. *)
Definition slow_enough (lay : layout) (ap : access_pattern) (t : timing) (f : film) : Prop :=
  0 <= pause t /\ 0 <= slack t /\ 0 <= per_byte t /\
  forall n, longest lay ap t < film_time f (S (S n)) - film_time f (S n).

(** The program has the first [n] frames: the camera has no more and the flag is cleared, or it has one more, the flag is set
    and the frame is not older than one poll. *)
Definition caught_up {B} (v : view B) (f : film) (t : timing) (n : nat) (b : B) : Prop :=
  frames v b = n /\ ready v b = false \/
  frames v b = S n /\ ready v b = true /\ clock v b <= film_time f (S n) + pause t.

Section Watch.
Context {FO : FloatOps} (p : profile) {B ER EW : Type} (bs : bus B ER EW).
Notation driver := (driver (FO := FO) (B := B) (ER := ER) (EW := EW)).
Notation F := (F FO).

(** What the program sees of a call: the result, the ambient temperature and the destination afterwards. *)
Definition sight : Type := res (error ER EW) bool * option F * list F.

(** [k] calls of [generate_image_if_ready], one after the other, on the same destination. *)
Fixpoint watch (k : nat) (d : driver) (dest : list F) : list sight * driver * list F :=
  match k with
  | O => ([], d, dest)
  | S k =>
      let '(r, d1, dest1) := generate_image_if_ready p bs dest d in
      let '(rest, d2, dest2) := watch k d1 dest1 in
      ((r, d_ambient d1, dest1) :: rest, d2, dest2)
  end.

(** The calls played the film from frame [n + 1] to frame [n']: each either reported that there is no new data and
    changed nothing, or stored the documented temperatures of the next frame, in order, none left out and none twice. *)
Inductive played (c : calib FO) (lay : layout) (s : settings (FO := FO)) (f : film)
  : nat -> option F -> list F -> list sight -> nat -> option F -> list F -> Prop :=
| played_nothing n t dest : played c lay s f n t dest [] n t dest
| played_wait n t dest rest n' t' dest' :
    played c lay s f n t dest rest n' t' dest' ->
    played c lay s f n t dest ((Ok false, t, dest) :: rest) n' t' dest'
| played_frame n t dest t1 dest1 rest n' t' dest' :
    t1 = Some (doc_t_a c lay (film_mem f (S n))) ->
    image_stored c lay s (film_page f (S n)) (film_mem f (S n)) false dest dest1 ->
    played c lay s f (S n) t1 dest1 rest n' t' dest' ->
    played c lay s f n t dest ((Ok true, t1, dest1) :: rest) n' t' dest'.
End Watch.

(** The same camera, polled half as often. *)
Definition patient (t : timing) : timing :=
  {| pause := 2 * pause t; slack := slack t; per_byte := per_byte t |}.
