(** * Cam640: models mlx9064x/src/mlx90640/mod.rs and the RAM addresses of
    mlx90640/address.rs. *)
From Verif Require Import Base FloatOps Register Bus Camera.

(** mlx90640/address.rs 124-150 [RamAddress] *)
Definition RAM640_Base : Z := 0x0400.
(** address.rs 131 *)
Definition RAM640_VBe : Z := 0x0700.
(** address.rs 134 *)
Definition RAM640_CP0 : Z := 0x0708.
(** address.rs 137 *)
Definition RAM640_Gain : Z := 0x070A.
(** address.rs 140 *)
Definition RAM640_PTAT : Z := 0x0720.
(** address.rs 143 *)
Definition RAM640_CP1 : Z := 0x0728.
(** address.rs 146 *)
Definition RAM640_VDDpix : Z := 0x072A.
(** address.rs 149 *)
Definition RAM640_End : Z := 0x073F.

(** mod.rs 79-83 *)
Definition HEIGHT640 : nat := 24.
(** mod.rs 81 *)
Definition WIDTH640 : nat := 32.
(** mod.rs 83 *)
Definition NUM_PIXELS640 : nat := HEIGHT640 * WIDTH640.

(** mod.rs 92-97 [Mlx90640Pixels]; [iter::Once] is an [option]. *)
Inductive pixels640 :=
| PxChess (once : option range)
| PxInterleave (current_offset : Z).

(** mod.rs 99-120 [Mlx90640Pixels::new] *)
Definition pixels640_new (sp : subpage) (ap : access_pattern) : pixels640 :=
  match ap with
  | Chess => PxChess (Some {| start_address := RAM640_Base; buffer_offset := 0;
                              range_length := NUM_PIXELS640 * 2 |})
  | Interleave => PxInterleave (match sp with Zero => 0 | One => Z.of_nat WIDTH640 end)
  end.

(** mod.rs 122-146 [Mlx90640Pixels::next].  The u16 arithmetic cannot overflow:
    the offset stays below 768 + 64. *)
Definition pixels640_next (s : pixels640) : option (range * pixels640) :=
  match s with
  | PxChess (Some r) => Some (r, PxChess None)
  | PxChess None => None
  | PxInterleave current_offset =>
      if current_offset <? Z.of_nat NUM_PIXELS640 then
        Some ({| start_address := RAM640_Base + current_offset;
                 buffer_offset := Z.to_nat (current_offset * 2);
                 range_length := WIDTH640 * 2 |},
              PxInterleave (current_offset + Z.of_nat WIDTH640 * 2))
      else None
  end.

(** mod.rs 35-37: all items of the iterator *)
Definition pixel_ranges640 (sp : subpage) (ap : access_pattern) : list range :=
  fst (drain (S NUM_PIXELS640) pixels640_next (pixels640_new sp ap)).

(** mod.rs 153-162 [Mlx90640PixelSubpage] *)
Record pixel_subpage640 := {
  ps_index : nat;
  ps_access_pattern : access_pattern;
  ps_subpage_num : nat
}.

(** mod.rs 164-172 *)
Definition pixel_subpage640_new (ap : access_pattern) (sp : subpage) : pixel_subpage640 :=
  {| ps_index := 0; ps_access_pattern := ap; ps_subpage_num := Z.to_nat (subpage_num sp) |}.

(** mod.rs 174-196 [next] *)
Definition pixel_subpage640_next (s : pixel_subpage640) : option (bool * pixel_subpage640) :=
  if Nat.ltb (ps_index s) NUM_PIXELS640 then
    let row := Nat.div (ps_index s) WIDTH640 in
    let column := Nat.modulo (ps_index s) WIDTH640 in
    Some (match ps_access_pattern s with
          | Chess =>
              if Nat.eqb (ps_subpage_num s) 0
              then Nat.eqb (Nat.modulo row 2) (Nat.modulo column 2)
              else negb (Nat.eqb (Nat.modulo row 2) (Nat.modulo column 2))
          | Interleave => Nat.eqb (Nat.modulo row 2) (ps_subpage_num s)
          end,
          {| ps_index := S (ps_index s); ps_access_pattern := ps_access_pattern s;
             ps_subpage_num := ps_subpage_num s |})
  else None.

(** mod.rs 39-44: all items of the iterator *)
Definition pixels_in_subpage640 (sp : subpage) (ap : access_pattern) : list bool :=
  fst (drain (S NUM_PIXELS640) pixel_subpage640_next (pixel_subpage640_new ap sp)).

(** mod.rs 62-71 [resolution_correction]: the i8 difference of two values in
    0..3 cannot overflow. *)
Definition resolution_correction640 {FO : FloatOps} (calibrated current : resolution) : F FO :=
  fexp2 (fofZ (resolution_as_raw calibrated - resolution_as_raw current)).

(** mod.rs 31-84 *)
Definition Mlx90640 (FO : FloatOps) : camera FO := {|
  pixel_ranges := pixel_ranges640;
  pixels_in_subpage := pixels_in_subpage640;
  T_A_V_BE := RAM640_VBe;
  T_A_PTAT := RAM640_PTAT;
  compensation_pixel_addr := fun sp => match sp with Zero => RAM640_CP0 | One => RAM640_CP1 end;
  GAIN := RAM640_Gain;
  V_DD_PIXEL := RAM640_VDDpix;
  resolution_correction := resolution_correction640;
  BASIC_TEMPERATURE_RANGE := 1;
  SELF_HEATING := fofZ 8;
  HEIGHT := HEIGHT640;
  WIDTH := WIDTH640;
  NUM_PIXELS := NUM_PIXELS640
|}.
