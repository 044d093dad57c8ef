(** * SpecSpeed: how fast an I2C bus must be for a frame rate (the table of register.rs 546-553). *)
From Verif Require Import Base FloatOps Register Bus Camera Calc Driver SpecRegister SpecCamera SpecDriver SpecImage SpecTraffic SpecStream.

(** Time is counted in cycles of the bus clock.  A byte takes nine of them (eight bits and the acknowledgement); start,
    repeated start and stop condition take at most one each.  A status read has six bytes on the wire; the program
    spends at most [gap] cycles between one call and the next. *)
Definition i2c_timing (gap : Z) : timing := {| pause := 6 * 9 + 3 + gap; slack := 3; per_byte := 9 |}.

(** Twice the frame rate in hertz. *)
Definition half_hertz (r : frame_rate) : Z :=
  match r with
  | FR_Half => 1 | FR_One => 2 | FR_Two => 4 | FR_Four => 8 | FR_Eight => 16 | FR_Sixteen => 32 | FR_ThirtyTwo => 64 | FR_SixtyFour => 128
  end.
(** With a bus clock of [hz], frames come at rate [r], or more slowly ([no_sooner]), or faster ([no_later]). *)
Definition no_sooner (hz : Z) (r : frame_rate) (f : film) : Prop :=
  forall n, 2 * hz <= half_hertz r * (film_time f (S (S n)) - film_time f (S n)).
Definition no_later (hz : Z) (r : frame_rate) (f : film) : Prop :=
  forall n, half_hertz r * (film_time f (S (S n)) - film_time f (S n)) <= 2 * hz.

(** The bus speeds of the table. *)
Inductive bus_speed := Khz100 | Khz400 | Mhz1.
Definition hertz (s : bus_speed) : Z := match s with Khz100 => 100000 | Khz400 => 400000 | Mhz1 => 1000000 end.
(** The documented table of maximum frame rates. *)
Definition documented_maximum (s : bus_speed) (lay : layout) (ap : access_pattern) : frame_rate :=
  if Nat.eqb (lay_pixels lay) 768 then
    match ap, s with
    | Chess, Khz100 => FR_Four | Chess, Khz400 => FR_Sixteen | Chess, Mhz1 => FR_SixtyFour
    | Interleave, Khz100 => FR_Eight | Interleave, Khz400 => FR_ThirtyTwo | Interleave, Mhz1 => FR_ThirtyTwo
    end
  else match s with Khz100 => FR_Sixteen | Khz400 => FR_SixtyFour | Mhz1 => FR_SixtyFour end.
(** The true one: it differs in one entry. *)
Definition true_maximum (s : bus_speed) (lay : layout) (ap : access_pattern) : frame_rate :=
  match s with Mhz1 => FR_SixtyFour | _ => documented_maximum s lay ap end.

(** A bus on which no byte takes less than [k] units of time. *)
Record no_faster {B ER EW} (bs : bus B ER EW) (a : Z) (clock : B -> Z) (k : Z) : Prop := {
  nf_read : forall b wb buf b' out e, dev_write_read bs b a wb buf = (b', out, e) ->
    clock b <= clock b' /\ (e = None -> clock b + k * (2 + Z.of_nat (length wb) + Z.of_nat (length buf)) <= clock b');
  nf_write : forall b bytes b' e, dev_write bs b a bytes = (b', e) ->
    clock b <= clock b' /\ (e = None -> clock b + k * (1 + Z.of_nat (length bytes)) <= clock b')
}.

(** How many of the calls delivered a frame. *)
Fixpoint deliveries {FO : FloatOps} {ER EW} (l : list (sight (FO := FO) (ER := ER) (EW := EW))) : Z :=
  match l with
  | [] => 0
  | (r, _, _) :: l => (match r with Ok true => 1 | _ => 0 end) + deliveries l
  end.
