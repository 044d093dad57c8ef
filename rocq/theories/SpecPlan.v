(** * SpecPlan: other ways of reading a frame. *)
From Verif Require Import Base FloatOps Register Bus Camera Calc SpecRegister SpecCamera SpecDriver SpecImage SpecTraffic.

(** A pixel of the subpage is at RAM address [a]. *)
Definition pixel_word (lay : layout) (sp : subpage) (ap : access_pattern) (a : Z) : Prop :=
  exists i, measured lay sp ap i = true /\ a = lay_address lay sp i.
(** The RAM word [a] is needed for an image of the subpage. *)
Definition needed_word (lay : layout) (sp : subpage) (ap : access_pattern) (a : Z) : Prop :=
  pixel_word lay sp ap a \/ In a (lay_scalars lay sp).

(** A successful read of the transcript brings the word at [a]. *)
Definition brings {ER EW} (a : Z) (x : event ER EW) : Prop :=
  exists i2c s data, x = EvRead i2c [s / 256; s mod 256] data None /\ s <= a /\ 2 * (a - s) + 2 <= Z.of_nat (length data).
Definition fetches {ER EW} (words : Z -> Prop) (evs : list (event ER EW)) : Prop :=
  forall a, words a -> Exists (brings a) evs.

(** How many bytes fewer the shortest way of reading a frame has. *)
Definition savings (lay : layout) (sp : subpage) (ap : access_pattern) : Z :=
  if Nat.eqb (lay_pixels lay) 768 then
    match ap, sp with Chess, Zero => 6 | Chess, One => 8 | Interleave, Zero => 2 | Interleave, One => 6 end
  else match sp with Zero => 2 | One => 6 end.
(** ... and only its pixels. *)
Definition pixel_savings (lay : layout) (sp : subpage) (ap : access_pattern) : Z :=
  if Nat.eqb (lay_pixels lay) 768 then match ap, sp with Chess, One => 4 | _, _ => 0 end else 0.
