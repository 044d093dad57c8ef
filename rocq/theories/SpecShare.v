(** * SpecShare: one camera used by several programs (or by several clones of one driver) by turns. *)
From Verif Require Import Base FloatOps Register Bus Camera Calc Driver SpecRegister SpecCamera SpecDriver SpecImage SpecCall
  SpecReplay SpecStream.

Section Share.
Context {FO : FloatOps} (p : profile) {B ER EW : Type} (bs : bus B ER EW).
Notation driver := (driver (FO := FO) (B := B) (ER := ER) (EW := EW)).
Notation op := (op (FO := FO)).
Notation out := (out (FO := FO)).
Notation F := (F FO).

(** The users are numbered; user [k] changes from [g k] to [x]. *)
Definition put {X} (g : nat -> X) (k : nat) (x : X) : nat -> X := fun j => if Nat.eqb j k then x else g j.

(** ** Polling by turns *)
(** [who] says whose turn it is: that user calls [generate_image_if_ready] with a destination of his own.  The bus is as
    the previous call, whoever made it, left it. *)
Fixpoint crowd_watch (who : list nat) (ds : nat -> driver) (w : world B ER EW) (dests : nat -> list F)
    : list (nat * sight (FO := FO) (ER := ER) (EW := EW)) * (nat -> driver) * world B ER EW * (nat -> list F) :=
  match who with
  | [] => ([], ds, w, dests)
  | k :: who =>
      let '(r, d, dest) := generate_image_if_ready p bs (dests k) (connect (ds k) w) in
      let '(rest, ds', w', dests') := crowd_watch who (put ds k d) (d_bus d) (put dests k dest) in
      ((k, (r, d_ambient d, dest)) :: rest, ds', w', dests')
  end.

(** What is user [k]'s. *)
Definition belongs {X} (k : nat) (l : list (nat * X)) : list X :=
  map snd (filter (fun x => Nat.eqb (fst x) k) l).
(** The frames handed out, in order. *)
Definition handed_out (nums : list (option nat)) : list nat :=
  flat_map (fun x => match x with Some m => [m] | None => [] end) nums.

(** One user's calls, each with the number of the frame it was given, if any: without a frame the call reported "no new
    data" and changed nothing; otherwise it stored the documented temperatures of that frame. *)
Inductive followed (c : calib FO) (lay : layout) (s : settings (FO := FO)) (f : film)
  : option F -> list F -> list (option nat * sight (FO := FO) (ER := ER) (EW := EW)) -> option F -> list F -> Prop :=
| followed_nothing t dest : followed c lay s f t dest [] t dest
| followed_wait t dest rest t' dest' :
    followed c lay s f t dest rest t' dest' ->
    followed c lay s f t dest ((None, (Ok false, t, dest)) :: rest) t' dest'
| followed_frame m t dest t1 dest1 rest t' dest' :
    t1 = Some (doc_t_a c lay (film_mem f m)) ->
    image_stored c lay s (film_page f m) (film_mem f m) false dest dest1 ->
    followed c lay s f t1 dest1 rest t' dest' ->
    followed c lay s f t dest ((Some m, (Ok true, t1, dest1)) :: rest) t' dest'.

(** ** Any calls by turns *)
Fixpoint crowd (calls : list (nat * op)) (ds : nat -> driver) (w : world B ER EW)
    : list (nat * (op * res (error ER EW) out)) * (nat -> driver) * world B ER EW :=
  match calls with
  | [] => ([], ds, w)
  | (k, o) :: calls =>
      let '(r, d, _) := step p bs (connect (ds k) w) o in
      let '(rest, ds', w') := crowd calls (put ds k d) (d_bus d) in
      ((k, (o, r)) :: rest, ds', w')
  end.

(** The documented effect of a successful call on the fields of the control register. *)
Definition asked (o : op) (c : control_fields) : control_fields :=
  match o with
  | OpSetUseSubpages v => upd_use_subpages c v
  | OpSetDataHold v => upd_data_hold c v
  | OpSetSubpageRepeat v => upd_subpage_repeat c v
  | OpSetSubpage v => upd_subpage c v
  | OpSetFrameRate v => upd_frame_rate c v
  | OpSetResolution v => upd_resolution c v
  | OpSetAccessPattern v => upd_access_pattern c v
  | _ => c
  end.
(** What a getter of such a field is to return. *)
Definition told (o : op) (c : control_fields) : option out :=
  match o with
  | OpSubpagesEnabled => Some (OutBool (c_use_subpages c))
  | OpDataHoldEnabled => Some (OutBool (c_data_hold c))
  | OpSubpageRepeat => Some (OutBool (c_subpage_repeat c))
  | OpSelectedSubpage => Some (OutSubpage (c_subpage c))
  | OpFrameRate => Some (OutFrameRate (c_frame_rate c))
  | OpResolution => Some (OutResolution (c_resolution c))
  | OpAccessPattern => Some (OutAccessPattern (c_access_pattern c))
  | _ => None
  end.
(** A history of calls of all users that is consistent with one set of settings, first [c] and finally [c']: successful
    setters change their field, failed calls and all others nothing, and successful getters return what is set. *)
Inductive account : control_fields -> list (nat * (op * res (error ER EW) out)) -> control_fields -> Prop :=
| account_nothing c : account c [] c
| account_done c k o v rest c' :
    (forall x, told o c = Some x -> v = x) ->
    account (asked o c) rest c' -> account c ((k, (o, Ok v)) :: rest) c'
| account_failed c k o r rest c' :
    (forall v, r <> Ok v) ->
    account c rest c' -> account c ((k, (o, r)) :: rest) c'.

(** ** Without turns *)
(** The bus as one user sees it when another one calls [o] with his driver [d] each time the first is about to write. *)
Definition meddled (d : driver) (o : op) : bus B ER EW := {|
  dev_write_read := dev_write_read bs;
  dev_write := fun b a bytes =>
    let '(_, d', _) := step p bs (connect d {| dev := b; trace := [] |}) o in
    dev_write bs (dev (d_bus d')) a bytes |}.
End Share.
