(** * Dumps: the datasheet EEPROM contents of mlx9064x-test-data/src/eeprom_data.rs,
    used in the examples beside the theorems. *)
From Verif Require Import Base.

Definition bytes_of_words (ws : list Z) : list Z := flat_map to_be_bytes ws.

(** eeprom_data.rs 15-24 [MLX90640_EEPROM_HEADER], as words *)
Definition header640 : list Z :=
  [0x0000; 0x0000; 0x0000; 0x0000; 0x0000; 0x0000; 0x0000; 0x0000;
   0x0000; 0x0000; 0x0000; 0x0000; 0x0000; 0x0000; 0x0000; 0x0000;
   0x4210; 0xffbb; 0x0202; 0xf202; 0xf2f2; 0xe2e2; 0xd1e1; 0xb1d1;
   0xf10f; 0xf00f; 0xe0ef; 0xe0ef; 0xe1e1; 0xf3f2; 0xf404; 0xe504;
   0x79a6; 0x2f44; 0xffdd; 0x2210; 0x3333; 0x2233; 0xef01; 0x9acc;
   0xeedc; 0x10ff; 0x2221; 0x3333; 0x2333; 0x0112; 0xeeff; 0xbbdd;
   0x18ef; 0x2ff1; 0x5952; 0x9d68; 0x5454; 0x0994; 0x6956; 0x5354;
   0x2363; 0xe446; 0xfbb5; 0x044b; 0xf020; 0x9797; 0x9797; 0x2889].
(** eeprom_data.rs 27-38 [mlx90640_datasheet_eeprom] *)
Definition datasheet640 : list Z := bytes_of_words (header640 ++ repeat 0x08A0 768).

(** eeprom_data.rs 42-50 [MLX90641_EEPROM_HEADER], as words *)
Definition header641 : list Z :=
  [0x0000; 0x0000; 0x0000; 0x0000; 0x0000; 0x0000; 0x0000; 0x0000;
   0x0000; 0x0000; 0x0000; 0x0000; 0x0000; 0x0000; 0x0000; 0x0000;
   0x0000; 0xb7e8; 0xd016; 0x0000; 0x0000; 0xc2fd; 0x1a43; 0xca9a;
   0x5164; 0x018c; 0x018c; 0x018c; 0x9cb1; 0x956c; 0xa5cc; 0x7dd1;
   0x6d7f; 0x3cd4; 0x27b8; 0x19e6; 0xf137; 0x7814; 0x2658; 0xef9e;
   0x917f; 0xf018; 0xe156; 0x4817; 0x1c80; 0x233e; 0xc826; 0xcffc;
   0xa009; 0xbb53; 0xf194; 0xfc00; 0x7814; 0xed22; 0xed22; 0xed22;
   0xed22; 0xed22; 0x80c8; 0xed22; 0x4190; 0xed22; 0xda58; 0xed22].
(** eeprom_data.rs 51-80 [mlx90641_datasheet_eeprom] *)
Definition datasheet641 : list Z :=
  bytes_of_words (header641 ++ repeat 0xF849 192 ++ repeat 0xFFFF 192 ++ repeat 0xB8C0 192 ++ repeat 0xD847 192).
