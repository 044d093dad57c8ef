(** * Cam641: models mlx9064x/src/mlx90641/mod.rs and the RAM addresses of
    mlx90641/address.rs. *)
From Verif Require Import Base FloatOps Register Bus Camera.

(** mlx90641/address.rs 124-149 [RamAddress] *)
Definition RAM641_Base : Z := 0x0400.
(** address.rs 130 *)
Definition RAM641_VBe : Z := 0x0580.
(** address.rs 133 *)
Definition RAM641_CP0 : Z := 0x0588.
(** address.rs 136 *)
Definition RAM641_Gain : Z := 0x058A.
(** address.rs 139 *)
Definition RAM641_PTAT : Z := 0x05A0.
(** address.rs 142 *)
Definition RAM641_CP1 : Z := 0x05A8.
(** address.rs 145 *)
Definition RAM641_VDDpix : Z := 0x05AA.
(** address.rs 148 *)
Definition RAM641_End : Z := 0x05BF.

(** mod.rs 76-86 *)
Definition HEIGHT641 : nat := 12.
(** mod.rs 84 *)
Definition WIDTH641 : nat := 16.
(** mod.rs 86 *)
Definition NUM_PIXELS641 : nat := HEIGHT641 * WIDTH641.

(** mod.rs 89-112 *)
Record subpage_interleave := {
  stride_count : Z;
  base_address : Z
}.
(** mod.rs 106 *)
Definition STRIDE_LENGTH : Z := 32 * 2.
(** mod.rs 109 *)
Definition PIXEL_START_ADDRESS : Z := RAM641_Base.
(** mod.rs 112 *)
Definition NUM_STRIDES : Z := Z.of_nat (HEIGHT641 / 2).

(** mod.rs 114-124 *)
Definition subpage_interleave_new (sp : subpage) : subpage_interleave :=
  {| stride_count := 0;
     base_address := match sp with
                     | Zero => PIXEL_START_ADDRESS
                     | One => PIXEL_START_ADDRESS + STRIDE_LENGTH / 2
                     end |}.

(** mod.rs 127-146 [next] (no u16 overflow: the count stays at most 6) *)
Definition subpage_interleave_next (s : subpage_interleave) : option (range * subpage_interleave) :=
  if stride_count s <? NUM_STRIDES then
    Some ({| start_address := base_address s + stride_count s * STRIDE_LENGTH;
             buffer_offset := Z.to_nat (stride_count s * STRIDE_LENGTH);
             range_length := Z.to_nat STRIDE_LENGTH |},
          {| stride_count := stride_count s + 1; base_address := base_address s |})
  else None.

(** mod.rs 36-39: all items of the iterator *)
Definition pixel_ranges641 (sp : subpage) (_ : access_pattern) : list range :=
  fst (drain (S NUM_PIXELS641) subpage_interleave_next (subpage_interleave_new sp)).

(** mod.rs 41-47: [iter::repeat(true).take(NUM_PIXELS)] *)
Definition pixels_in_subpage641 (_ : subpage) (_ : access_pattern) : list bool :=
  repeat true NUM_PIXELS641.

(** mod.rs 65-74 *)
Definition resolution_correction641 {FO : FloatOps} (calibrated current : resolution) : F FO :=
  fexp2 (fofZ (resolution_as_raw calibrated - resolution_as_raw current)).

(** mod.rs 32-87 *)
Definition Mlx90641 (FO : FloatOps) : camera FO := {|
  pixel_ranges := pixel_ranges641;
  pixels_in_subpage := pixels_in_subpage641;
  T_A_V_BE := RAM641_VBe;
  T_A_PTAT := RAM641_PTAT;
  compensation_pixel_addr := fun sp => match sp with Zero => RAM641_CP0 | One => RAM641_CP1 end;
  GAIN := RAM641_Gain;
  V_DD_PIXEL := RAM641_VDDpix;
  resolution_correction := resolution_correction641;
  BASIC_TEMPERATURE_RANGE := 2;
  SELF_HEATING := fofZ 5;
  HEIGHT := HEIGHT641;
  WIDTH := WIDTH641;
  NUM_PIXELS := NUM_PIXELS641
|}.
