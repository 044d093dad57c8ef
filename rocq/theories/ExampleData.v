(** * ExampleData: the recorded frames and expected results of
    mlx9064x-test-data/src/mlx90640_example_data.rs.  Generated by
    tools/gen_example_data.py; used by Conformance. *)
From Verif Require Import Base.

(** mlx90640_example_data.rs 24-128 [EEPROM_DATA], as words *)
Definition ex_eeprom_words : list Z := [
  0x00ae; 0x499a; 0x0000; 0x2061; 0x0005; 0x0320; 0x03e0; 0x1710; 0xa224; 0x0185; 0x0499; 0x0000;
  0x1901; 0x0000; 0x0000; 0xb533; 0x4210; 0xffc2; 0x0202; 0x0202; 0xf202; 0xf1f2; 0xd1e1; 0xafc0;
  0xff00; 0xf002; 0xf103; 0xe103; 0xe1f5; 0xd1e4; 0xc1d5; 0x91c2; 0x8895; 0x30d9; 0xedcb; 0x110f;
  0x3322; 0x2233; 0x0011; 0xccee; 0xffed; 0x1100; 0x2222; 0x3333; 0x2233; 0x0022; 0xdef0; 0x9acc;
  0x15cc; 0x2fa4; 0x2555; 0x9c78; 0x7666; 0x01c8; 0x3b38; 0x3534; 0x2452; 0x0463; 0x13bb; 0x0623;
  0xec00; 0x9797; 0x9797; 0x2afb; 0x00ae; 0xfbe0; 0x1b70; 0xf3be; 0x000e; 0xf86e; 0x1b7e; 0xf3ce;
  0xffce; 0xf41e; 0x102e; 0xec0e; 0xffde; 0xec3e; 0x139e; 0xef9e; 0xfb9e; 0xf77e; 0x13e0; 0xe7ee;
  0xf7ae; 0xf750; 0x0c30; 0xebee; 0xf730; 0xf010; 0x0b50; 0xe430; 0xf420; 0xf370; 0x07c0; 0xe450;
  0x0470; 0xfbce; 0xff5c; 0x0f90; 0x07d0; 0xfc3e; 0xff6c; 0x0f90; 0x03a0; 0xfc0e; 0xf40c; 0x0bf0;
  0x03a0; 0xf41e; 0xf78c; 0x0b70; 0xff72; 0xff6e; 0xf7de; 0x07c0; 0xffa2; 0x0330; 0xf42e; 0x0bc0;
  0xff22; 0xfc00; 0xf75e; 0x0410; 0x0022; 0x0350; 0xf3a0; 0x0832; 0x04de; 0xfbf0; 0x1bce; 0xf00e;
  0xfc5e; 0xfc80; 0x1bf0; 0xf02e; 0x0002; 0xf81e; 0x142e; 0xec9e; 0x07de; 0xf09e; 0x17ce; 0xf3ae;
  0xffc0; 0xfbb0; 0x1080; 0xebfe; 0xffe0; 0xff90; 0x1460; 0xe4ae; 0xfbc0; 0xf840; 0x0fe0; 0xe860;
  0xf8c0; 0xf400; 0x0842; 0xe4b0; 0x0890; 0x03be; 0xff9c; 0x0fd0; 0x0020; 0x0450; 0xffcc; 0x0fe0;
  0x07d0; 0x03fe; 0xfbee; 0x0c60; 0x0b80; 0xf86e; 0xfb8e; 0x1370; 0x0782; 0x038e; 0xf85e; 0x0fc2;
  0x07c2; 0x037e; 0xf84e; 0x0880; 0x0392; 0x0420; 0xf7ce; 0x0c42; 0xfcb2; 0xffe0; 0xf020; 0x0490;
  0x107e; 0x03d0; 0x1f90; 0xfbce; 0x089e; 0x0080; 0x1820; 0xf40e; 0x0800; 0xfc30; 0x141e; 0xf06e;
  0x0400; 0xffa0; 0x17ce; 0xf7b0; 0x07d0; 0xffb0; 0x1830; 0xf3fe; 0x0002; 0xffe0; 0x14d0; 0xecb0;
  0xfbe2; 0xfcb0; 0x13b0; 0xeca0; 0xf8de; 0xf432; 0x0832; 0xe8d0; 0x1420; 0xff8e; 0xff6e; 0x1380;
  0x0840; 0x005e; 0xfbec; 0x0fb0; 0x0bb2; 0xfffe; 0xfbde; 0x0820; 0x0bc0; 0x0360; 0xfb8c; 0x0f70;
  0x0794; 0x036e; 0xfbfe; 0x0fa0; 0x0bc4; 0x0390; 0xf89e; 0x0c72; 0xffb2; 0xfc70; 0xfb7e; 0x0470;
  0xfcb0; 0xfff0; 0xf3f0; 0x04a0; 0x049e; 0x03b0; 0x1f90; 0xf7d0; 0x042e; 0x0070; 0x1f70; 0xfbbe;
  0x0f00; 0x03b0; 0x142e; 0xf01e; 0x07b0; 0xffb0; 0x1b60; 0xf37e; 0xfbd0; 0xff90; 0x1410; 0xf3c0;
  0xfc00; 0x0370; 0x1482; 0xf030; 0xf800; 0xfc50; 0x13c2; 0xf050; 0x0070; 0xf812; 0x0c02; 0xec80;
  0x00d0; 0xfbfe; 0xfbcc; 0x0810; 0xfc60; 0xfcb0; 0xfbce; 0x0fe0; 0x0b40; 0xfffe; 0xf05c; 0x0840;
  0x07d0; 0xffd0; 0xf79e; 0x0fb0; 0xf802; 0xffd0; 0xf44e; 0x0bf0; 0xfc32; 0x07a0; 0xf4be; 0x0c60;
  0xf822; 0x0080; 0xf01e; 0x0892; 0x00b4; 0xf850; 0xf040; 0x04b2; 0x085e; 0x0782; 0x1f70; 0xfbee;
  0x001e; 0x0420; 0x1f80; 0xfbb0; 0x03b0; 0x0390; 0x17f0; 0xf04e; 0x0770; 0xffe0; 0x1b40; 0xf76e;
  0xffc0; 0xffb0; 0x17e0; 0xec1e; 0x03a0; 0x03a0; 0x10c0; 0xec60; 0xfbc2; 0xfc80; 0x0c00; 0xec60;
  0x0050; 0xf800; 0x0802; 0xec90; 0x0080; 0xf7b0; 0xf7ae; 0x0410; 0xfc32; 0xfc50; 0xf7be; 0x07f0;
  0xffd2; 0xfbc0; 0xf02e; 0x0460; 0x0382; 0xf410; 0xf36e; 0x0ba0; 0xfbf2; 0xfbc0; 0xf01c; 0x0440;
  0xffe2; 0xfbe0; 0xf0ee; 0x08a2; 0xf804; 0xfcb0; 0xec3e; 0x04a2; 0x0082; 0xf830; 0xe830; 0x04b2;
  0x13f0; 0x0380; 0x1f40; 0xfbb0; 0x0f90; 0x0420; 0x17a0; 0xf7ae; 0x0f40; 0xffe2; 0x13ae; 0xf03e;
  0x0f12; 0xff60; 0x0f50; 0xf340; 0x0362; 0xff30; 0x1760; 0xefd0; 0x0762; 0x0360; 0x1072; 0xec50;
  0xf7b2; 0xf852; 0x07b0; 0xe480; 0xf820; 0xf7c2; 0x03c2; 0xe490; 0x1422; 0x03ae; 0x036e; 0x13c2;
  0x13b2; 0x0440; 0xffce; 0x13d2; 0x1362; 0x0002; 0xfbde; 0x0c40; 0x1732; 0x0390; 0xff8e; 0x1760;
  0x0b82; 0x0750; 0x039e; 0x1000; 0x0f82; 0x0b80; 0xfcae; 0x1080; 0x0bd4; 0x0470; 0xfbce; 0x0c92;
  0x0832; 0x07e0; 0xf7fe; 0x0ca2; 0x0010; 0x0380; 0x13d0; 0xf7a0; 0xffbe; 0x0052; 0x1380; 0xf770;
  0xff70; 0xffa0; 0x0fc0; 0xf3be; 0x0340; 0xff60; 0x0fc0; 0xf370; 0xfb30; 0xfb80; 0x0c10; 0xe40e;
  0xfba0; 0xfbb0; 0x0c42; 0xe860; 0xfb92; 0xf4a2; 0x0b82; 0xe850; 0xf832; 0xfba2; 0x0002; 0xe470;
  0x0022; 0xf7a0; 0xeffe; 0x0bc0; 0x03d2; 0xf860; 0xf79e; 0x0f92; 0x0390; 0xffb0; 0xf3fe; 0x0fc0;
  0x0762; 0xff70; 0xeffe; 0x1380; 0x0362; 0xffb0; 0xf42e; 0x0810; 0x07a2; 0x07c0; 0xf87e; 0x0c82;
  0x0b94; 0x0490; 0xfb90; 0x1062; 0x0842; 0x07b0; 0xec10; 0x0c82; 0x0850; 0x13e2; 0x2360; 0x0420;
  0x0460; 0x10b0; 0x1fb0; 0x03e0; 0x0b80; 0x0bf0; 0x1430; 0xfc00; 0x0f90; 0x0bc2; 0x1ba0; 0xffc0;
  0x07c2; 0x0b82; 0x1bf0; 0xf44e; 0x0bb2; 0x0fd2; 0x14c2; 0xf8a0; 0x0792; 0x0852; 0x13e2; 0xf850;
  0x00a0; 0x0032; 0x0c22; 0xf0d0; 0xf452; 0xefe0; 0xef7e; 0xfc32; 0xf072; 0xf4c0; 0xebce; 0x03f0;
  0xfba2; 0xf400; 0xe45e; 0x0410; 0xffa2; 0xf7d0; 0xebbe; 0x0bd0; 0xfbc2; 0xfb80; 0xf00e; 0x0050;
  0x03d2; 0x03d0; 0xf0e0; 0x0ca0; 0x0384; 0x0440; 0xf3ee; 0x0c52; 0x00a2; 0x0030; 0xec20; 0x04c0;
  0x1022; 0x0fd2; 0x1f80; 0x03f0; 0x0830; 0x0c82; 0x17e0; 0xffb0; 0x0410; 0x0432; 0x0870; 0xf48e;
  0x0bd0; 0x07b2; 0x0f90; 0xfbb0; 0xfff0; 0x07a2; 0x1410; 0xf410; 0x0022; 0x0bc2; 0x0ce0; 0xf850;
  0xffb2; 0x0490; 0x0bc0; 0xecc0; 0xfc70; 0x0012; 0x0400; 0xf0b2; 0x0402; 0xf7d0; 0xf37e; 0x0bf2;
  0x0022; 0xfc90; 0xeffe; 0x0fc2; 0xfc12; 0xf84e; 0xe87e; 0x0480; 0x07e2; 0xffb0; 0xf7ae; 0x0fc0;
  0x0002; 0x07a0; 0xf81e; 0x1002; 0x0422; 0x0fd0; 0xf8ce; 0x1842; 0x07a4; 0x0880; 0xfbb0; 0x0cb0;
  0x0c62; 0x0bf0; 0xfbf0; 0x10a0; 0xf030; 0x07d2; 0x0be0; 0xf800; 0xeca0; 0x0482; 0x0830; 0xfbe0;
  0xf040; 0xfc80; 0x0810; 0xf030; 0xf410; 0xf830; 0x0ba0; 0xf7a0; 0xf3d2; 0xfff2; 0x0840; 0xeff0;
  0xf400; 0x03b2; 0x0872; 0xf030; 0xefb2; 0x0042; 0x03b2; 0xec40; 0xffe0; 0xffe2; 0x0012; 0xf420;
  0xf422; 0xf7b0; 0xe7ce; 0x0bd2; 0xf080; 0x0070; 0xec2e; 0x0fe2; 0xf850; 0x0070; 0xf00e; 0x0c42;
  0x0020; 0x0030; 0xf7ae; 0x17b2; 0x03d2; 0x0400; 0xf84e; 0x17f0; 0x0be2; 0x13a0; 0xfc4e; 0x1820;
  0x0792; 0x1020; 0xfb9e; 0x1c10; 0x1bc2; 0x13c0; 0xfbe0; 0x2002; 0xf040; 0x13a2; 0x0f80; 0xfc30;
  0xf46e; 0x0cc2; 0x17b2; 0x0010; 0xfc10; 0x0872; 0x1000; 0xf8b0; 0x07be; 0x0be2; 0x13b0; 0xffe0;
  0xf410; 0x0450; 0x0c70; 0xf420; 0x03c0; 0x0f82; 0x1060; 0xffe0; 0xfb70; 0x13d2; 0x0f90; 0xf820;
  0xfc40; 0x0fa2; 0x0be2; 0xfc60; 0xf012; 0xfb80; 0xeb5e; 0x0802; 0xf420; 0x0090; 0xf78e; 0x13e2;
  0xfc02; 0x0060; 0xf40e; 0x1090; 0x0f90; 0x0bd0; 0xfbae; 0x1fd2; 0x0002; 0x0820; 0xf85e; 0x1800;
  0x0f82; 0x1b60; 0xfc3e; 0x23c2; 0x0b42; 0x1ba0; 0xff7e; 0x27e0; 0x1012; 0x1b70; 0xffc0; 0x2040;
  0xfc70; 0x1ba2; 0x0fa0; 0x0ba0; 0x0002; 0x1432; 0x0fe0; 0x0010; 0xf83e; 0x13e0; 0x085e; 0x07e0;
  0x005e; 0x0842; 0x0fee; 0x03d0; 0xfc20; 0x0fe2; 0x1400; 0x0780; 0x0b90; 0x1772; 0x1410; 0x07b0;
  0xfb10; 0x17f2; 0x0b20; 0x03f0; 0xfc1e; 0x17b2; 0x07ce; 0x0830; 0xe050; 0xef80; 0xd38e; 0x0382;
  0xebe0; 0xf810; 0xdfbe; 0x07d0; 0xec10; 0xffc0; 0xe01e; 0x0bb0; 0xf820; 0xf810; 0xebbe; 0x0ba0;
  0xfbf0; 0x07a0; 0xf3ee; 0x1b50; 0x0752; 0x0f30; 0xf7ee; 0x1b80; 0x02f2; 0x0fd0; 0xf70e; 0x13c0;
  0x0be0; 0x1390; 0xf79e; 0x1c00].

(** mlx90640_example_data.rs 1159-1263 [FRAME_0_DATA], as words *)
Definition ex_frame0_words : list Z := [
  0xffb3; 0xffac; 0xffb4; 0xffaa; 0xffb3; 0xffac; 0xffb6; 0xffa9; 0xffb2; 0xffa8; 0xffb4; 0xffa6;
  0xffb1; 0xffa5; 0xffb4; 0xffa2; 0xffb4; 0xffa5; 0xffb4; 0xffa4; 0xffb6; 0xffa7; 0xffb5; 0xffa4;
  0xffba; 0xffa6; 0xffb8; 0xffa5; 0xffb6; 0xffaa; 0xffbd; 0xffa4; 0xffa9; 0xffa8; 0xffa6; 0xffa8;
  0xffa9; 0xffa6; 0xffa6; 0xffa5; 0xffaa; 0xffa2; 0xffa5; 0xffa2; 0xffa9; 0xff9f; 0xffa5; 0xffa1;
  0xffad; 0xffa0; 0xffa6; 0xffa2; 0xffab; 0xffa3; 0xffa8; 0xffa4; 0xffb2; 0xffa2; 0xffab; 0xffa3;
  0xffb0; 0xffa4; 0xffaf; 0xffa3; 0xffb2; 0xffac; 0xffb4; 0xffab; 0xffb1; 0xffac; 0xffb1; 0xffa8;
  0xffb1; 0xffa9; 0xffb3; 0xffa5; 0xffb2; 0xffa5; 0xffb1; 0xffa3; 0xffb5; 0xffa5; 0xffb1; 0xffa3;
  0xffb6; 0xffa7; 0xffb5; 0xffa2; 0xffb8; 0xffa7; 0xffb7; 0xffa3; 0xffb6; 0xffa8; 0xffb9; 0xffa2;
  0xffa7; 0xffa7; 0xffa4; 0xffa7; 0xffa9; 0xffa5; 0xffa4; 0xffa6; 0xffa8; 0xffa3; 0xffa4; 0xffa2;
  0xffac; 0xff9f; 0xffa2; 0xffa3; 0xffad; 0xffa0; 0xffa4; 0xffa2; 0xffac; 0xffa2; 0xffa8; 0xffa1;
  0xffb1; 0xffa3; 0xffa8; 0xffa3; 0xffad; 0xffa1; 0xffac; 0xffa1; 0xffb3; 0xffad; 0xffb5; 0xffa9;
  0xffb2; 0xffab; 0xffb2; 0xffa8; 0xffb4; 0xffa9; 0xffb1; 0xffa4; 0xffb1; 0xffa6; 0xffb3; 0xffa2;
  0xffb5; 0xffa7; 0xffb2; 0xffa3; 0xffb2; 0xffa5; 0xffb4; 0xffa2; 0xffb6; 0xffa5; 0xffb8; 0xffa5;
  0xffb4; 0xffa7; 0xffb9; 0xffa0; 0xffaa; 0xffa5; 0xffa4; 0xffa6; 0xffaa; 0xffa4; 0xffa2; 0xffa4;
  0xffa9; 0xffa1; 0xffa2; 0xffa3; 0xffaa; 0xffa1; 0xffa3; 0xffa0; 0xffad; 0xff9f; 0xffa4; 0xffa3;
  0xffab; 0xffa0; 0xffa3; 0xffa1; 0xffad; 0xff9e; 0xffa9; 0xffa1; 0xffab; 0xffa0; 0xffaa; 0xff9d;
  0xffb0; 0xffad; 0xffb2; 0xffaa; 0xffb2; 0xffab; 0xffb3; 0xffa9; 0xffb8; 0xffaa; 0xffb6; 0xffa4;
  0xffb2; 0xffa6; 0xffb1; 0xffa4; 0xffb2; 0xffa4; 0xffb2; 0xffa4; 0xffb2; 0xffa7; 0xffb5; 0xffa4;
  0xffb2; 0xffa5; 0xffb4; 0xffa2; 0xffb4; 0xffa6; 0xffb9; 0xffa2; 0xffa5; 0xffa4; 0xffa1; 0xffa4;
  0xffa6; 0xffa0; 0xffa1; 0xffa3; 0xffa8; 0xffa7; 0xffa1; 0xffaa; 0xffa6; 0xffa1; 0xffa1; 0xffa1;
  0xffa8; 0xff9d; 0xffa2; 0xff9f; 0xffa8; 0xff9f; 0xffa2; 0xff9f; 0xffab; 0xff9e; 0xffa4; 0xffa0;
  0xffab; 0xff9f; 0xffa8; 0xff9b; 0xffaf; 0xffae; 0xffb3; 0xffa9; 0xffaf; 0xffab; 0xffb4; 0xffa8;
  0xffbb; 0xffaa; 0xffc6; 0xffa6; 0xffc0; 0xffa8; 0xffb6; 0xffa2; 0xffb0; 0xffa5; 0xffb1; 0xffa2;
  0xffb3; 0xffa6; 0xffb2; 0xffa2; 0xffb4; 0xffa2; 0xffb4; 0xffa2; 0xffb4; 0xffa6; 0xffb7; 0xffa1;
  0xffa3; 0xffa2; 0xff9f; 0xffa1; 0xffa5; 0xffa2; 0xffa2; 0xffa4; 0xffaa; 0xffb2; 0xffa4; 0xffb4;
  0xffa8; 0xffad; 0xffa1; 0xffa6; 0xffa8; 0xff9d; 0xffa2; 0xff9d; 0xffab; 0xff9d; 0xffa3; 0xff9f;
  0xffad; 0xff9c; 0xffa3; 0xff9f; 0xffab; 0xff9d; 0xffa6; 0xff9c; 0xffb3; 0xffad; 0xffb3; 0xffa9;
  0xffb4; 0xffac; 0xffb5; 0xffa9; 0xffc8; 0xffae; 0xffc8; 0xffab; 0xffc9; 0xffae; 0xffc2; 0xffa6;
  0xffbd; 0xffa9; 0xffb5; 0xffa8; 0xffb2; 0xffac; 0xffb0; 0xffa4; 0xffb3; 0xffa4; 0xffb2; 0xffa1;
  0xffb2; 0xffa4; 0xffb4; 0xff9c; 0xffa4; 0xffa1; 0xff9f; 0xffa2; 0xffa7; 0xffa1; 0xffa2; 0xffaa;
  0xffad; 0xffb7; 0xffa7; 0xffb8; 0xffad; 0xffb5; 0xffa3; 0xffb1; 0xffaf; 0xffa8; 0xffaa; 0xffa0;
  0xffb2; 0xff9b; 0xffa5; 0xff9d; 0xffac; 0xff9a; 0xffa4; 0xff9d; 0xffab; 0xff9c; 0xffa5; 0xff9a;
  0xffae; 0xffad; 0xffad; 0xffa8; 0xffb1; 0xffad; 0xffbb; 0xffae; 0xffcb; 0xffb2; 0xffce; 0xffae;
  0xffcb; 0xffb0; 0xffc5; 0xffab; 0xffc6; 0xffb2; 0xffbd; 0xffb0; 0xffb2; 0xffb1; 0xffb0; 0xffa8;
  0xffb3; 0xffaa; 0xffb1; 0xffa4; 0xffb1; 0xffa5; 0xffb4; 0xff9d; 0xff9f; 0xff9e; 0xff98; 0xff9f;
  0xffa3; 0xffa0; 0xffa2; 0xffb3; 0xffac; 0xffbb; 0xffa7; 0xffbf; 0xffae; 0xffb7; 0xffa5; 0xffb3;
  0xffb4; 0xffb0; 0xffae; 0xffa6; 0xffb6; 0xff9b; 0xffab; 0xff99; 0xffb4; 0xff9a; 0xffa7; 0xff9d;
  0xffac; 0xff9d; 0xffa5; 0xff9a; 0xffac; 0xffad; 0xffb0; 0xffa8; 0xffb1; 0xffad; 0xffc3; 0xffaf;
  0xffca; 0xffb3; 0xffcd; 0xffad; 0xffca; 0xffb0; 0xffc8; 0xffad; 0xffc6; 0xffb8; 0xffb9; 0xffb1;
  0xffb2; 0xffb5; 0xffaf; 0xffad; 0xffb3; 0xffaf; 0xffb0; 0xffa9; 0xffb0; 0xffa6; 0xffb4; 0xff9d;
  0xff9e; 0xff9c; 0xff9c; 0xff9f; 0xffa1; 0xffa4; 0xffa0; 0xffb3; 0xffab; 0xffb5; 0xffa4; 0xffb9;
  0xffac; 0xffb3; 0xffa7; 0xffb2; 0xffb5; 0xffaf; 0xffb1; 0xff9d; 0xffb7; 0xff9b; 0xffad; 0xff9a;
  0xffb6; 0xff9a; 0xffa8; 0xff9c; 0xffaa; 0xff9b; 0xffa5; 0xff9a; 0xffae; 0xffac; 0xffb0; 0xffab;
  0xffb6; 0xffae; 0xffc0; 0xffad; 0xffc3; 0xffb0; 0xffc2; 0xffab; 0xffc4; 0xffb0; 0xffc2; 0xffb0;
  0xffc4; 0xffb8; 0xffb2; 0xffb3; 0xffae; 0xffb4; 0xffae; 0xffaf; 0xffb0; 0xffaf; 0xffaf; 0xffa5;
  0xffb2; 0xffa4; 0xffb3; 0xff9d; 0xff9e; 0xff9a; 0xff9a; 0xff9f; 0xffa1; 0xffa4; 0xff9d; 0xffaf;
  0xffa7; 0xffac; 0xff9f; 0xffad; 0xffaa; 0xffb0; 0xffa7; 0xffaf; 0xffb5; 0xffa6; 0xffaf; 0xff9a;
  0xffb5; 0xff98; 0xffaa; 0xff9b; 0xffb3; 0xff99; 0xffa5; 0xff9a; 0xffaa; 0xff9f; 0xffa5; 0xff9a;
  0xffa7; 0xffac; 0xffaa; 0xffa8; 0xffaa; 0xffad; 0xffb0; 0xffab; 0xffb9; 0xffad; 0xffbf; 0xffab;
  0xffbd; 0xffaf; 0xffc0; 0xffb0; 0xffba; 0xffb4; 0xffae; 0xffaf; 0xffac; 0xffb0; 0xffac; 0xffac;
  0xffb0; 0xffae; 0xffb0; 0xffa6; 0xffbb; 0xffa5; 0xffbc; 0xffa0; 0xff96; 0xff96; 0xff92; 0xff99;
  0xff99; 0xff98; 0xff97; 0xff9e; 0xffa0; 0xffa0; 0xff9e; 0xffa7; 0xffa5; 0xffa8; 0xffa3; 0xffa9;
  0xffae; 0xff9a; 0xffa5; 0xff97; 0xffae; 0xff95; 0xffa6; 0xff99; 0xffaf; 0xff98; 0xffa2; 0xffa0;
  0xffab; 0xffa9; 0xffa3; 0xffa6; 0xffa4; 0xffae; 0xffa7; 0xffa5; 0xffa7; 0xffa7; 0xffa9; 0xffa6;
  0xffac; 0xffa6; 0xffb0; 0xffa3; 0xffb7; 0xffad; 0xffb7; 0xffa9; 0xffaf; 0xffab; 0xffa8; 0xffa8;
  0xffac; 0xffad; 0xffab; 0xffaa; 0xffaf; 0xffae; 0xffb6; 0xffa7; 0xffbc; 0xffab; 0xffc4; 0xffa4;
  0xff93; 0xff95; 0xff90; 0xff94; 0xff94; 0xff93; 0xff92; 0xff96; 0xff99; 0xff93; 0xff96; 0xff97;
  0xffa0; 0xff9e; 0xff9b; 0xff9e; 0xffa4; 0xff93; 0xff9d; 0xff94; 0xffa9; 0xff96; 0xff9f; 0xff96;
  0xffab; 0xff97; 0xffa1; 0xffa5; 0xffa9; 0xffaa; 0xffa4; 0xffa6; 0xffa4; 0xffac; 0xffa4; 0xffa6;
  0xffa6; 0xffa7; 0xffa6; 0xffa1; 0xffa5; 0xffa6; 0xffa4; 0xffa3; 0xffa7; 0xffa4; 0xffa7; 0xff9f;
  0xffab; 0xffa3; 0xffa9; 0xffa3; 0xffaa; 0xffa7; 0xffab; 0xffa6; 0xffae; 0xffaa; 0xffb7; 0xffa6;
  0xffbb; 0xffaa; 0xffbb; 0xffa3; 0xff87; 0xff8a; 0xff84; 0xff8c; 0xff8a; 0xff8b; 0xff86; 0xff8b;
  0xff8b; 0xff89; 0xff85; 0xff8b; 0xff8f; 0xff89; 0xff8a; 0xff8b; 0xff91; 0xff8a; 0xff8c; 0xff8d;
  0xff9a; 0xff8b; 0xff95; 0xff8e; 0xff9e; 0xff93; 0xff98; 0xff9d; 0xff9e; 0xff9d; 0xff9a; 0xff99;
  0x4dfa; 0x1a56; 0x7fff; 0x1a56; 0x7fff; 0x1a55; 0x7fff; 0x1a55; 0xffb9; 0xce07; 0x1584; 0xd653;
  0xfff9; 0x0009; 0x0000; 0xfffd; 0x1976; 0x03fd; 0x0297; 0x7fff; 0x1976; 0x03fd; 0x0297; 0x7fff;
  0x0001; 0x0001; 0x0001; 0x0001; 0x0001; 0x0001; 0x0001; 0x0001; 0x0695; 0x7fff; 0x1a56; 0x7fff;
  0x1a56; 0x7fff; 0x1a55; 0x7fff; 0xffbd; 0xf57a; 0xcef2; 0xd8e0; 0x0009; 0xfffd; 0xfffc; 0x0000;
  0x00ed; 0x0046; 0x2ad6; 0x0035; 0x00ee; 0x0046; 0x2ad6; 0x0035; 0x0001; 0x0001; 0x0001; 0x0001;
  0x0001; 0x0001; 0x0001; 0x0001].

(** mlx90640_example_data.rs 1267-1371 [FRAME_1_DATA], as words *)
Definition ex_frame1_words : list Z := [
  0xffb3; 0xffad; 0xffb4; 0xffaa; 0xffb3; 0xffad; 0xffb6; 0xffa8; 0xffb2; 0xffa9; 0xffb4; 0xffa4;
  0xffb1; 0xffa6; 0xffb4; 0xffa1; 0xffb4; 0xffa8; 0xffb4; 0xffa1; 0xffb6; 0xffa8; 0xffb5; 0xffa2;
  0xffba; 0xffa7; 0xffb8; 0xffa3; 0xffb6; 0xffaa; 0xffbd; 0xffa3; 0xffac; 0xffa8; 0xffa5; 0xffa8;
  0xffac; 0xffa6; 0xffa5; 0xffa5; 0xffaa; 0xffa2; 0xffa2; 0xffa2; 0xffab; 0xff9f; 0xffa0; 0xffa1;
  0xffab; 0xffa0; 0xffa4; 0xffa2; 0xffab; 0xffa3; 0xffa6; 0xffa4; 0xffb1; 0xffa2; 0xffa9; 0xffa3;
  0xffb0; 0xffa4; 0xffad; 0xffa3; 0xffb2; 0xffaf; 0xffb4; 0xffa8; 0xffb1; 0xffae; 0xffb1; 0xffa5;
  0xffb1; 0xffaa; 0xffb3; 0xffa3; 0xffb2; 0xffa7; 0xffb1; 0xffa3; 0xffb5; 0xffa6; 0xffb1; 0xffa0;
  0xffb6; 0xffa7; 0xffb5; 0xffa0; 0xffb8; 0xffa7; 0xffb7; 0xffa2; 0xffb6; 0xffa8; 0xffb9; 0xff9f;
  0xffaa; 0xffa7; 0xffa4; 0xffa7; 0xffa9; 0xffa5; 0xffa3; 0xffa6; 0xffa9; 0xffa3; 0xffa3; 0xffa2;
  0xffaa; 0xff9f; 0xffa2; 0xffa3; 0xffad; 0xffa0; 0xffa2; 0xffa2; 0xffad; 0xffa2; 0xffa6; 0xffa1;
  0xffb1; 0xffa3; 0xffa7; 0xffa3; 0xffad; 0xffa1; 0xffa9; 0xffa1; 0xffb3; 0xffaf; 0xffb5; 0xffaa;
  0xffb2; 0xffad; 0xffb2; 0xffa6; 0xffb4; 0xffab; 0xffb1; 0xffa4; 0xffb1; 0xffa8; 0xffb3; 0xffa0;
  0xffb5; 0xffa6; 0xffb2; 0xffa3; 0xffb2; 0xffa8; 0xffb4; 0xffa1; 0xffb6; 0xffa6; 0xffb8; 0xffa2;
  0xffb4; 0xffa7; 0xffb9; 0xff9c; 0xffab; 0xffa5; 0xffa3; 0xffa6; 0xffaa; 0xffa4; 0xffa4; 0xffa4;
  0xffb0; 0xffa1; 0xffa4; 0xffa3; 0xffa9; 0xffa1; 0xffa0; 0xffa0; 0xffae; 0xff9f; 0xffa2; 0xffa3;
  0xffad; 0xffa0; 0xffa4; 0xffa1; 0xffae; 0xff9e; 0xffa8; 0xffa1; 0xffac; 0xffa0; 0xffa8; 0xff9d;
  0xffb0; 0xffae; 0xffb2; 0xffa8; 0xffb2; 0xffac; 0xffb3; 0xffa9; 0xffb8; 0xffb8; 0xffb6; 0xffab;
  0xffb2; 0xffaa; 0xffb1; 0xffa1; 0xffb2; 0xffa5; 0xffb2; 0xffa0; 0xffb2; 0xffa5; 0xffb5; 0xffa1;
  0xffb2; 0xffa6; 0xffb4; 0xffa3; 0xffb4; 0xffa5; 0xffb9; 0xff9b; 0xffa6; 0xffa4; 0xffa2; 0xffa4;
  0xffa7; 0xffa0; 0xffa2; 0xffa3; 0xffbb; 0xffa7; 0xffaf; 0xffaa; 0xffaf; 0xffa1; 0xffa1; 0xffa1;
  0xffa9; 0xff9d; 0xffa0; 0xff9f; 0xffa8; 0xff9f; 0xffa2; 0xff9f; 0xffac; 0xff9e; 0xffa4; 0xffa0;
  0xffac; 0xff9f; 0xffa6; 0xff9b; 0xffaf; 0xffaf; 0xffb3; 0xffa9; 0xffaf; 0xffaf; 0xffb4; 0xffb0;
  0xffbb; 0xffc0; 0xffc6; 0xffb7; 0xffc0; 0xffb7; 0xffb6; 0xffa7; 0xffb0; 0xffa6; 0xffb1; 0xffa0;
  0xffb3; 0xffa4; 0xffb2; 0xffa0; 0xffb4; 0xffa4; 0xffb4; 0xffa0; 0xffb4; 0xffa5; 0xffb7; 0xff9a;
  0xffa6; 0xffa2; 0xff9f; 0xffa1; 0xffa8; 0xffa2; 0xffaa; 0xffa4; 0xffbe; 0xffb2; 0xffb6; 0xffb4;
  0xffbe; 0xffad; 0xffac; 0xffa6; 0xffac; 0xff9d; 0xffa0; 0xff9d; 0xffa9; 0xff9d; 0xffa0; 0xff9f;
  0xffaa; 0xff9c; 0xffa1; 0xff9f; 0xffac; 0xff9d; 0xffa2; 0xff9c; 0xffb3; 0xffaf; 0xffb3; 0xffaa;
  0xffb4; 0xffb1; 0xffb5; 0xffbb; 0xffc8; 0xffc4; 0xffc8; 0xffbc; 0xffc9; 0xffbf; 0xffc2; 0xffb5;
  0xffbd; 0xffb0; 0xffb5; 0xffa0; 0xffb2; 0xffa6; 0xffb0; 0xff9e; 0xffb3; 0xffa3; 0xffb2; 0xff9e;
  0xffb2; 0xffa4; 0xffb4; 0xff9b; 0xffa8; 0xffa1; 0xff9d; 0xffa2; 0xffac; 0xffa1; 0xffb1; 0xffaa;
  0xffc7; 0xffb7; 0xffb9; 0xffb8; 0xffc0; 0xffb5; 0xffb2; 0xffb1; 0xffbb; 0xffa8; 0xffa5; 0xffa0;
  0xffa7; 0xff9b; 0xff9c; 0xff9d; 0xffa9; 0xff9a; 0xffa1; 0xff9d; 0xffa9; 0xff9c; 0xffa5; 0xff9a;
  0xffae; 0xffad; 0xffad; 0xffa7; 0xffb1; 0xffb8; 0xffbb; 0xffc0; 0xffcb; 0xffca; 0xffce; 0xffc1;
  0xffcb; 0xffbf; 0xffc5; 0xffb6; 0xffc6; 0xffb6; 0xffbd; 0xffa0; 0xffb2; 0xffa4; 0xffb0; 0xff9e;
  0xffb3; 0xffa1; 0xffb1; 0xff9f; 0xffb1; 0xffa4; 0xffb4; 0xff9c; 0xffa3; 0xff9e; 0xff9a; 0xff9f;
  0xffae; 0xffa0; 0xffb1; 0xffb3; 0xffc1; 0xffbb; 0xffb9; 0xffbf; 0xffbf; 0xffb7; 0xffb1; 0xffb3;
  0xffb8; 0xffb0; 0xffa0; 0xffa6; 0xffa7; 0xff9b; 0xff9e; 0xff99; 0xffab; 0xff9a; 0xffa0; 0xff9d;
  0xffaa; 0xff9d; 0xffa2; 0xff9a; 0xffac; 0xffaf; 0xffb0; 0xffa9; 0xffb1; 0xffbd; 0xffc3; 0xffba;
  0xffca; 0xffc2; 0xffcd; 0xffbc; 0xffca; 0xffbe; 0xffc8; 0xffb7; 0xffc6; 0xffb1; 0xffb9; 0xffa0;
  0xffb2; 0xffa5; 0xffaf; 0xff9d; 0xffb3; 0xffa4; 0xffb0; 0xffa0; 0xffb0; 0xffa3; 0xffb4; 0xff9b;
  0xff9e; 0xff9c; 0xff9c; 0xff9f; 0xffae; 0xffa4; 0xffae; 0xffb3; 0xffb8; 0xffb5; 0xffaf; 0xffb9;
  0xffba; 0xffb3; 0xffaf; 0xffb2; 0xffb4; 0xffaf; 0xff9d; 0xff9d; 0xffa5; 0xff9b; 0xff9d; 0xff9a;
  0xffa9; 0xff9a; 0xffa1; 0xff9c; 0xffa8; 0xff9b; 0xffa3; 0xff9a; 0xffae; 0xffaf; 0xffb0; 0xffa8;
  0xffb6; 0xffb5; 0xffc0; 0xffb5; 0xffc3; 0xffbc; 0xffc2; 0xffb6; 0xffc4; 0xffbd; 0xffc2; 0xffb0;
  0xffc4; 0xffa9; 0xffb2; 0xff9e; 0xffae; 0xffa3; 0xffae; 0xff9e; 0xffb0; 0xffa3; 0xffaf; 0xffa1;
  0xffb2; 0xffa6; 0xffb3; 0xff9e; 0xff9e; 0xff9a; 0xff98; 0xff9f; 0xffa4; 0xffa4; 0xffa2; 0xffaf;
  0xffb0; 0xffac; 0xffaa; 0xffad; 0xffb6; 0xffb0; 0xffaa; 0xffaf; 0xffab; 0xffa6; 0xff99; 0xff9a;
  0xffa3; 0xff98; 0xff99; 0xff9b; 0xffa7; 0xff99; 0xffa2; 0xff9a; 0xffae; 0xff9f; 0xffa3; 0xff9a;
  0xffa7; 0xffac; 0xffaa; 0xffa5; 0xffaa; 0xffaa; 0xffb0; 0xffa8; 0xffb9; 0xffb1; 0xffbf; 0xffb2;
  0xffbd; 0xffb8; 0xffc0; 0xffa7; 0xffba; 0xffa4; 0xffae; 0xff9d; 0xffac; 0xffa3; 0xffac; 0xff9d;
  0xffb0; 0xffa4; 0xffb0; 0xffaa; 0xffbb; 0xffb3; 0xffbc; 0xffa3; 0xff99; 0xff96; 0xff8f; 0xff99;
  0xff97; 0xff98; 0xff93; 0xff9e; 0xff9e; 0xffa0; 0xff9e; 0xffa7; 0xffac; 0xffa8; 0xff9f; 0xffa9;
  0xffa1; 0xff9a; 0xff94; 0xff97; 0xffa0; 0xff95; 0xff98; 0xff99; 0xffa6; 0xff98; 0xffa5; 0xffa0;
  0xffb8; 0xffa9; 0xffad; 0xffa6; 0xffa4; 0xffac; 0xffa7; 0xffa3; 0xffa7; 0xffa7; 0xffa9; 0xffa3;
  0xffac; 0xffa6; 0xffb0; 0xffa4; 0xffb7; 0xffad; 0xffb7; 0xffa1; 0xffaf; 0xff9f; 0xffa8; 0xff9c;
  0xffac; 0xffa3; 0xffab; 0xff9e; 0xffaf; 0xffaa; 0xffb6; 0xffae; 0xffbc; 0xffba; 0xffc4; 0xffa9;
  0xff95; 0xff95; 0xff8e; 0xff94; 0xff96; 0xff93; 0xff91; 0xff96; 0xff99; 0xff93; 0xff94; 0xff97;
  0xff9e; 0xff9e; 0xff94; 0xff9e; 0xff9d; 0xff93; 0xff91; 0xff94; 0xff9f; 0xff96; 0xff95; 0xff96;
  0xffa8; 0xff97; 0xffa6; 0xffa5; 0xffb6; 0xffaa; 0xffab; 0xffa6; 0xffa4; 0xffaa; 0xffa4; 0xffa2;
  0xffa6; 0xffa7; 0xffa6; 0xff9e; 0xffa5; 0xffa4; 0xffa4; 0xff9f; 0xffa7; 0xffa1; 0xffa7; 0xff9b;
  0xffab; 0xffa0; 0xffa9; 0xff9d; 0xffaa; 0xffa1; 0xffab; 0xff9f; 0xffae; 0xffae; 0xffb7; 0xffad;
  0xffbb; 0xffb5; 0xffbb; 0xffa3; 0xff87; 0xff8a; 0xff80; 0xff8c; 0xff8b; 0xff8b; 0xff83; 0xff8b;
  0xff8b; 0xff89; 0xff86; 0xff8b; 0xff8e; 0xff89; 0xff86; 0xff8b; 0xff93; 0xff8a; 0xff87; 0xff8d;
  0xff95; 0xff8b; 0xff8d; 0xff8e; 0xffa6; 0xff93; 0xffa0; 0xff9d; 0xffa9; 0xff9d; 0xff9c; 0xff99;
  0x4dfa; 0x1a58; 0x7fff; 0x1a58; 0x7fff; 0x1a57; 0x7fff; 0x1a57; 0xffb9; 0xce35; 0x1584; 0xd64e;
  0xfff9; 0x000b; 0x0000; 0xfffe; 0x1976; 0x03fd; 0x0297; 0x7fff; 0x1976; 0x03fd; 0x0297; 0x7fff;
  0x0001; 0x0001; 0x0001; 0x0001; 0x0001; 0x0001; 0x0001; 0x0001; 0x0696; 0x7fff; 0x1a58; 0x7fff;
  0x1a58; 0x7fff; 0x1a57; 0x7fff; 0xffbf; 0xf57a; 0xcf18; 0xd8e0; 0x000a; 0xfffd; 0xfffe; 0x0000;
  0x00f1; 0x0046; 0x2ac3; 0x0035; 0x00f1; 0x0046; 0x2ac3; 0x0035; 0x0001; 0x0001; 0x0001; 0x0001;
  0x0001; 0x0001; 0x0001; 0x0001].

(** mlx90640_example_data.rs 146-915 [ALPHA_PIXELS], times 10^19 *)
Definition ex_alpha_pixels : list Z := [
  364125298802; 368781911675; 379259290639; 383915903512; 408363121096; 415348040406; 416512193624; 422332959715; 440959411208; 446780177299; 447944330517; 445616024081; 460750015918; 467734935228;
  456093403045; 456093403045; 456093403045; 453765096609; 443287717644; 443287717644; 438631104771; 432810338680; 411855580751; 406034814660; 393229129259; 390900822822; 358304532710; 355976226274;
  336185621563; 323379936162; 291947799269; 283798726741; 369946064893; 375766830985; 386244209949; 390900822822; 414183887187; 421168806497; 424661266152; 428153725807; 447944330517; 454929249827;
  454929249827; 453765096609; 466570782010; 474719854537; 464242475573; 463078322355; 463078322355; 461914169136; 451436790172; 450272636954; 447944330517; 439795257989; 420004653279; 413019733969;
  401378201786; 399049895350; 367617758457; 362961145584; 345498847309; 330364855472; 298932718579; 290783646051; 386244209949; 388572516385; 403706508223; 408363121096; 432810338680; 436302798335;
  444451870862; 447944330517; 464242475573; 465406628791; 466570782010; 474719854537; 479376467410; 493346306030; 478212314192; 475884007756; 478212314192; 477048160974; 473555701319; 463078322355;
  461914169136; 456093403045; 433974491898; 438631104771; 422332959715; 413019733969; 387408363167; 378095137421; 366453605238; 352483766619; 319887476508; 309410097543; 390900822822; 393229129259;
  409527274314; 414183887187; 438631104771; 442123564426; 450272636954; 452600943390; 470063241664; 472391548101; 471227394883; 480540620629; 482868927065; 499167072121; 482868927065; 481704773847;
  482868927065; 482868927065; 479376467410; 468899088446; 468899088446; 463078322355; 440959411208; 445616024081; 428153725807; 420004653279; 394393282477; 385080056731; 374602677766; 359468685929;
  326872395817; 316395016853; 397885742132; 404870661441; 418840500060; 422332959715; 456093403045; 454929249827; 466570782010; 464242475573; 482868927065; 486361386720; 484033080284; 489853846375;
  501495378558; 494510459248; 496838765685; 495674612466; 498002918903; 495674612466; 486361386720; 481704773847; 482868927065; 480540620629; 460750015918; 458421709482; 443287717644; 439795257989;
  402542355005; 401378201786; 386244209949; 374602677766; 337349774782; 330364855472; 401378201786; 408363121096; 424661266152; 426989572588; 459585862700; 460750015918; 471227394883; 467734935228;
  486361386720; 491017999593; 488689693157; 494510459248; 506151991431; 499167072121; 501495378558; 500331225339; 502659531776; 499167072121; 491017999593; 485197233502; 487525539938; 484033080284;
  465406628791; 463078322355; 449108483735; 444451870862; 407198967878; 407198967878; 393229129259; 379259290639; 342006387655; 336185621563; 418840500060; 421168806497; 437466951553; 442123564426;
  466570782010; 472391548101; 472391548101; 477048160974; 482868927065; 495674612466; 503823684994; 502659531776; 514301063959; 514301063959; 508480297867; 509644451085; 516629370395; 511972757522;
  502659531776; 496838765685; 501495378558; 491017999593; 473555701319; 467734935228; 464242475573; 451436790172; 422332959715; 414183887187; 397885742132; 390900822822; 352483766619; 343170540873;
  423497112934; 425825419370; 440959411208; 446780177299; 471227394883; 477048160974; 478212314192; 480540620629; 487525539938; 500331225339; 507316144649; 506151991431; 516629370395; 516629370395;
  511972757522; 514301063959; 520121830050; 516629370395; 506151991431; 500331225339; 504987838212; 494510459248; 477048160974; 471227394883; 466570782010; 454929249827; 428153725807; 418840500060;
  402542355005; 395557435695; 357140379492; 346663000528; 423497112934; 426989572588; 444451870862; 452600943390; 474719854537; 475884007756; 482868927065; 486361386720; 504987838212; 502659531776;
  509644451085; 515465217177; 518957676832; 527106749360; 515465217177; 517793523613; 524778442923; 523614289705; 508480297867; 511972757522; 503823684994; 503823684994; 487525539938; 480540620629;
  468899088446; 464242475573; 436302798335; 424661266152; 404870661441; 399049895350; 361796992365; 353647919837; 426989572588; 430482032243; 447944330517; 456093403045; 477048160974; 479376467410;
  486361386720; 491017999593; 507316144649; 506151991431; 513136910740; 517793523613; 520121830050; 530599209014; 517793523613; 522450136486; 528270902578; 524778442923; 511972757522; 515465217177;
  508480297867; 508480297867; 489853846375; 485197233502; 473555701319; 467734935228; 439795257989; 429317879025; 408363121096; 402542355005; 365289452020; 355976226274; 425825419370; 436302798335;
  450272636954; 458421709482; 474719854537; 485197233502; 494510459248; 494510459248; 506151991431; 517793523613; 513136910740; 523614289705; 521285983268; 527106749360; 525942596141; 524778442923;
  527106749360; 523614289705; 508480297867; 516629370395; 508480297867; 508480297867; 491017999593; 488689693157; 477048160974; 470063241664; 439795257989; 436302798335; 410691427533; 403706508223;
  366453605238; 362961145584; 429317879025; 438631104771; 452600943390; 459585862700; 477048160974; 487525539938; 496838765685; 498002918903; 508480297867; 520121830050; 516629370395; 524778442923;
  523614289705; 530599209014; 529435055796; 527106749360; 529435055796; 525942596141; 511972757522; 520121830050; 510808604304; 510808604304; 494510459248; 492182152811; 479376467410; 472391548101;
  440959411208; 437466951553; 411855580751; 406034814660; 369946064893; 364125298802; 428153725807; 436302798335; 460750015918; 457257556263; 477048160974; 488689693157; 492182152811; 491017999593;
  509644451085; 513136910740; 515465217177; 514301063959; 524778442923; 527106749360; 534091668669; 528270902578; 523614289705; 529435055796; 521285983268; 520121830050; 513136910740; 514301063959;
  487525539938; 489853846375; 474719854537; 475884007756; 436302798335; 432810338680; 411855580751; 401378201786; 371110218111; 360632839147; 429317879025; 438631104771; 463078322355; 459585862700;
  479376467410; 489853846375; 493346306030; 493346306030; 511972757522; 514301063959; 518957676832; 515465217177; 527106749360; 528270902578; 537584128324; 529435055796; 527106749360; 532927515451;
  522450136486; 521285983268; 513136910740; 515465217177; 491017999593; 492182152811; 474719854537; 474719854537; 437466951553; 433974491898; 413019733969; 402542355005; 372274371330; 361796992365;
  423497112934; 433974491898; 443287717644; 457257556263; 480540620629; 486361386720; 486361386720; 489853846375; 501495378558; 509644451085; 514301063959; 510808604304; 521285983268; 524778442923;
  522450136486; 524778442923; 524778442923; 520121830050; 509644451085; 515465217177; 504987838212; 507316144649; 487525539938; 485197233502; 465406628791; 460750015918; 433974491898; 423497112934;
  410691427533; 402542355005; 364125298802; 358304532710; 423497112934; 433974491898; 444451870862; 458421709482; 481704773847; 487525539938; 487525539938; 491017999593; 503823684994; 510808604304;
  516629370395; 511972757522; 522450136486; 525942596141; 523614289705; 525942596141; 524778442923; 520121830050; 510808604304; 516629370395; 507316144649; 507316144649; 489853846375; 485197233502;
  464242475573; 459585862700; 433974491898; 423497112934; 410691427533; 402542355005; 364125298802; 357140379492; 410691427533; 423497112934; 436302798335; 444451870862; 467734935228; 473555701319;
  480540620629; 477048160974; 502659531776; 504987838212; 509644451085; 510808604304; 516629370395; 514301063959; 511972757522; 514301063959; 518957676832; 513136910740; 502659531776; 502659531776;
  503823684994; 496838765685; 480540620629; 470063241664; 458421709482; 456093403045; 422332959715; 422332959715; 397885742132; 390900822822; 352483766619; 346663000528; 408363121096; 423497112934;
  435138645116; 444451870862; 466570782010; 474719854537; 481704773847; 478212314192; 502659531776; 506151991431; 509644451085; 510808604304; 517793523613; 514301063959; 513136910740; 515465217177;
  520121830050; 513136910740; 502659531776; 501495378558; 503823684994; 498002918903; 478212314192; 468899088446; 457257556263; 454929249827; 421168806497; 421168806497; 396721588913; 388572516385;
  351319613401; 345498847309; 402542355005; 414183887187; 433974491898; 436302798335; 466570782010; 464242475573; 477048160974; 471227394883; 496838765685; 501495378558; 493346306030; 495674612466;
  511972757522; 514301063959; 503823684994; 503823684994; 507316144649; 509644451085; 496838765685; 491017999593; 492182152811; 486361386720; 463078322355; 458421709482; 449108483735; 440959411208;
  411855580751; 403706508223; 378095137421; 378095137421; 344334694091; 326872395817; 401378201786; 411855580751; 431646185461; 432810338680; 464242475573; 463078322355; 475884007756; 471227394883;
  498002918903; 500331225339; 492182152811; 496838765685; 513136910740; 514301063959; 503823684994; 504987838212; 507316144649; 510808604304; 496838765685; 491017999593; 489853846375; 485197233502;
  459585862700; 457257556263; 446780177299; 438631104771; 409527274314; 400214048568; 375766830985; 375766830985; 340842234436; 324544089381; 385080056731; 392064976040; 408363121096; 421168806497;
  443287717644; 450272636954; 449108483735; 456093403045; 474719854537; 481704773847; 473555701319; 486361386720; 486361386720; 489853846375; 486361386720; 489853846375; 493346306030; 498002918903;
  481704773847; 475884007756; 468899088446; 464242475573; 443287717644; 433974491898; 425825419370; 414183887187; 390900822822; 382751750294; 366453605238; 354812073056; 322215782944; 312902557198;
  381587597076; 389736669604; 404870661441; 417676346842; 438631104771; 446780177299; 445616024081; 452600943390; 473555701319; 480540620629; 473555701319; 484033080284; 484033080284; 488689693157;
  485197233502; 488689693157; 492182152811; 494510459248; 479376467410; 473555701319; 464242475573; 461914169136; 439795257989; 431646185461; 422332959715; 410691427533; 388572516385; 378095137421;
  362961145584; 351319613401; 319887476508; 310574250761; 369946064893; 373438524548; 392064976040; 392064976040; 417676346842; 421168806497; 433974491898; 437466951553; 458421709482; 452600943390;
  460750015918; 452600943390; 479376467410; 478212314192; 471227394883; 470063241664; 475884007756; 471227394883; 454929249827; 445616024081; 446780177299; 444451870862; 418840500060; 411855580751;
  400214048568; 397885742132; 364125298802; 360632839147; 344334694091; 337349774782; 301261025015; 290783646051; 367617758457; 371110218111; 389736669604; 389736669604; 415348040406; 418840500060;
  430482032243; 432810338680; 456093403045; 450272636954; 456093403045; 449108483735; 475884007756; 474719854537; 467734935228; 466570782010; 472391548101; 466570782010; 452600943390; 442123564426;
  442123564426; 439795257989; 415348040406; 408363121096; 397885742132; 395557435695; 361796992365; 357140379492; 340842234436; 335021468345; 297768565360; 287291186396].

(** mlx90640_example_data.rs 917-959 [OFFSET_REFERENCE_PIXELS], times 10^0 *)
Definition ex_offset_pixels : list Z := [
  -54; -56; -50; -60; -50; -56; -48; -60; -49; -57; -48; -61; -49; -59;
  -48; -63; -46; -59; -48; -65; -49; -61; -49; -66; -47; -64; -50; -69;
  -53; -66; -51; -75; -61; -64; -65; -61; -57; -63; -63; -61; -56; -63;
  -63; -62; -56; -65; -63; -64; -53; -65; -63; -65; -55; -66; -63; -66;
  -53; -69; -63; -69; -58; -70; -64; -74; -53; -56; -50; -60; -51; -55;
  -48; -60; -48; -56; -47; -61; -47; -58; -47; -62; -45; -58; -48; -64;
  -47; -59; -47; -67; -46; -62; -49; -68; -52; -65; -50; -75; -60; -62;
  -65; -61; -58; -61; -63; -61; -55; -62; -62; -61; -54; -64; -62; -62;
  -51; -64; -62; -63; -53; -66; -62; -66; -52; -67; -63; -67; -59; -71;
  -64; -75; -50; -54; -49; -58; -48; -54; -48; -59; -46; -55; -47; -60;
  -47; -55; -47; -61; -43; -57; -46; -62; -46; -59; -47; -65; -46; -61;
  -48; -67; -52; -65; -50; -74; -57; -63; -65; -60; -56; -62; -64; -61;
  -54; -63; -62; -62; -54; -62; -62; -63; -51; -64; -62; -63; -52; -66;
  -62; -65; -53; -69; -62; -69; -59; -71; -64; -75; -53; -54; -49; -59;
  -49; -54; -47; -58; -45; -54; -47; -60; -47; -55; -46; -62; -46; -57;
  -47; -62; -47; -58; -47; -64; -46; -61; -48; -66; -50; -64; -49; -73;
  -62; -64; -66; -62; -59; -63; -64; -61; -54; -63; -64; -62; -55; -63;
  -63; -63; -54; -65; -63; -64; -55; -65; -63; -65; -54; -68; -64; -68;
  -58; -72; -64; -75; -52; -53; -49; -58; -50; -53; -47; -58; -48; -54;
  -47; -60; -47; -55; -46; -61; -45; -57; -47; -63; -46; -58; -48; -65;
  -46; -61; -49; -67; -50; -64; -50; -73; -62; -65; -67; -63; -59; -63;
  -65; -63; -57; -64; -64; -63; -56; -65; -64; -64; -54; -66; -64; -65;
  -55; -68; -64; -66; -54; -69; -65; -69; -58; -72; -66; -75; -50; -54;
  -49; -58; -47; -53; -49; -59; -45; -55; -48; -60; -45; -55; -49; -62;
  -44; -57; -47; -63; -45; -58; -48; -65; -47; -62; -51; -69; -52; -65;
  -52; -75; -61; -66; -68; -64; -58; -65; -67; -64; -56; -66; -66; -65;
  -55; -66; -65; -65; -54; -67; -64; -66; -55; -68; -65; -68; -54; -71;
  -66; -71; -60; -73; -67; -77; -54; -54; -52; -59; -51; -54; -50; -59;
  -49; -55; -49; -60; -48; -55; -49; -62; -46; -58; -49; -65; -48; -60;
  -49; -66; -46; -63; -50; -68; -52; -64; -52; -75; -66; -69; -73; -66;
  -62; -68; -69; -65; -60; -67; -68; -65; -59; -67; -69; -66; -56; -69;
  -67; -68; -57; -69; -66; -69; -54; -71; -66; -70; -60; -73; -69; -77;
  -56; -54; -52; -59; -53; -54; -51; -60; -50; -56; -51; -61; -49; -56;
  -50; -63; -47; -58; -50; -65; -48; -59; -51; -66; -47; -62; -52; -68;
  -54; -66; -53; -76; -69; -71; -73; -69; -66; -69; -72; -68; -62; -69;
  -71; -67; -61; -69; -70; -68; -58; -70; -68; -70; -58; -70; -68; -69;
  -56; -71; -68; -71; -62; -74; -69; -79; -54; -55; -53; -60; -52; -55;
  -53; -61; -51; -57; -54; -63; -50; -57; -53; -64; -49; -59; -51; -65;
  -50; -60; -53; -66; -49; -63; -54; -71; -55; -66; -55; -76; -69; -73;
  -76; -70; -66; -71; -75; -69; -65; -72; -74; -71; -63; -71; -71; -71;
  -60; -71; -70; -70; -61; -71; -70; -70; -59; -74; -70; -75; -63; -76;
  -70; -80; -62; -57; -58; -62; -59; -57; -56; -62; -56; -59; -54; -64;
  -55; -60; -54; -65; -52; -61; -54; -67; -53; -62; -54; -68; -53; -64;
  -56; -71; -55; -67; -56; -75; -77; -77; -83; -74; -74; -74; -79; -73;
  -70; -74; -76; -73; -68; -74; -75; -73; -64; -75; -74; -73; -64; -74;
  -73; -74; -63; -76; -74; -75; -64; -78; -74; -80; -66; -58; -61; -65;
  -61; -59; -57; -64; -57; -60; -56; -66; -55; -60; -56; -67; -55; -63;
  -57; -69; -54; -63; -56; -69; -54; -64; -57; -72; -59; -67; -58; -77;
  -82; -80; -86; -78; -77; -78; -81; -76; -73; -78; -79; -76; -69; -76;
  -78; -75; -68; -78; -78; -76; -67; -76; -77; -76; -66; -78; -77; -77;
  -70; -80; -77; -84; -67; -60; -65; -66; -62; -61; -63; -68; -62; -62;
  -62; -67; -60; -64; -61; -70; -57; -65; -59; -69; -56; -65; -59; -71;
  -58; -67; -62; -74; -63; -69; -63; -78; -94; -91; -100; -88; -88; -88;
  -95; -87; -85; -87; -92; -86; -82; -88; -90; -88; -78; -87; -88; -84;
  -77; -87; -87; -86; -76; -89; -87; -90; -80; -90; -87; -93].

(** mlx90640_example_data.rs 961-1058 [K_TA_PIXELS], times 10^8 *)
Definition ex_k_ta_pixels : list Z := [
  671387; 646973; 720215; 598145; 671387; 598145; 671387; 598145; 671387; 598145; 671387; 598145; 671387; 598145;
  671387; 598145; 671387; 598145; 720215; 598145; 671387; 646973; 720215; 598145; 720215; 646973; 720215; 646973;
  720215; 646973; 720215; 646973; 683594; 585938; 585938; 634766; 683594; 585938; 585938; 634766; 683594; 585938;
  585938; 634766; 683594; 585938; 585938; 634766; 732422; 585938; 634766; 634766; 732422; 634766; 634766; 634766;
  732422; 634766; 634766; 634766; 732422; 634766; 683594; 683594; 671387; 646973; 671387; 598145; 671387; 646973;
  720215; 598145; 769043; 598145; 671387; 598145; 671387; 598145; 671387; 598145; 720215; 646973; 720215; 598145;
  720215; 646973; 720215; 598145; 720215; 646973; 720215; 646973; 720215; 646973; 769043; 646973; 683594; 585938;
  585938; 634766; 683594; 634766; 585938; 634766; 683594; 585938; 634766; 634766; 683594; 585938; 634766; 634766;
  732422; 585938; 634766; 683594; 732422; 585938; 634766; 634766; 732422; 634766; 634766; 683594; 732422; 634766;
  683594; 634766; 671387; 646973; 720215; 598145; 671387; 646973; 720215; 598145; 720215; 646973; 671387; 598145;
  720215; 646973; 671387; 646973; 720215; 646973; 720215; 598145; 769043; 646973; 720215; 646973; 769043; 646973;
  720215; 646973; 671387; 695801; 769043; 646973; 683594; 585938; 634766; 634766; 683594; 585938; 585938; 634766;
  732422; 585938; 634766; 634766; 683594; 634766; 585938; 634766; 781250; 585938; 634766; 634766; 781250; 634766;
  634766; 683594; 732422; 634766; 634766; 634766; 683594; 634766; 683594; 634766; 671387; 646973; 720215; 646973;
  671387; 646973; 720215; 598145; 720215; 646973; 671387; 598145; 720215; 646973; 720215; 598145; 720215; 646973;
  720215; 646973; 720215; 646973; 769043; 646973; 720215; 646973; 769043; 646973; 720215; 695801; 769043; 646973;
  683594; 585938; 585938; 634766; 683594; 634766; 634766; 634766; 683594; 585938; 585938; 634766; 683594; 634766;
  634766; 634766; 732422; 634766; 634766; 634766; 732422; 634766; 634766; 634766; 732422; 634766; 634766; 683594;
  781250; 634766; 683594; 683594; 671387; 695801; 720215; 598145; 671387; 646973; 720215; 646973; 720215; 646973;
  720215; 598145; 720215; 646973; 720215; 598145; 720215; 646973; 720215; 598145; 720215; 646973; 720215; 646973;
  769043; 646973; 720215; 646973; 720215; 646973; 769043; 646973; 683594; 634766; 634766; 634766; 732422; 634766;
  634766; 634766; 732422; 634766; 634766; 634766; 732422; 634766; 634766; 634766; 732422; 634766; 585938; 634766;
  732422; 634766; 634766; 683594; 781250; 634766; 634766; 683594; 732422; 634766; 683594; 683594; 720215; 646973;
  720215; 646973; 720215; 646973; 720215; 598145; 720215; 695801; 671387; 598145; 769043; 646973; 720215; 646973;
  769043; 646973; 720215; 646973; 769043; 646973; 769043; 646973; 769043; 695801; 720215; 646973; 720215; 695801;
  769043; 646973; 732422; 585938; 634766; 683594; 732422; 634766; 634766; 683594; 732422; 683594; 634766; 634766;
  732422; 634766; 634766; 634766; 732422; 634766; 634766; 634766; 732422; 634766; 634766; 634766; 781250; 634766;
  634766; 683594; 732422; 634766; 634766; 683594; 720215; 646973; 720215; 646973; 671387; 695801; 720215; 646973;
  720215; 646973; 720215; 598145; 720215; 646973; 720215; 646973; 720215; 646973; 720215; 598145; 720215; 646973;
  769043; 646973; 769043; 695801; 769043; 646973; 769043; 695801; 769043; 646973; 732422; 634766; 634766; 634766;
  732422; 634766; 634766; 683594; 683594; 634766; 634766; 634766; 732422; 634766; 634766; 634766; 732422; 634766;
  634766; 634766; 732422; 634766; 634766; 683594; 781250; 634766; 683594; 683594; 732422; 634766; 683594; 683594;
  720215; 695801; 720215; 646973; 720215; 646973; 720215; 646973; 720215; 646973; 720215; 646973; 720215; 695801;
  720215; 646973; 769043; 695801; 720215; 598145; 769043; 695801; 769043; 646973; 769043; 695801; 769043; 646973;
  720215; 695801; 769043; 646973; 732422; 634766; 634766; 683594; 732422; 634766; 634766; 634766; 732422; 634766;
  634766; 634766; 732422; 634766; 634766; 634766; 732422; 634766; 634766; 634766; 732422; 634766; 683594; 634766;
  781250; 634766; 634766; 683594; 732422; 634766; 683594; 634766; 769043; 695801; 720215; 646973; 720215; 695801;
  720215; 646973; 720215; 695801; 720215; 598145; 720215; 695801; 720215; 646973; 720215; 695801; 720215; 646973;
  769043; 695801; 720215; 646973; 769043; 646973; 720215; 646973; 720215; 695801; 720215; 695801; 732422; 634766;
  634766; 683594; 732422; 634766; 634766; 683594; 732422; 585938; 634766; 634766; 732422; 634766; 634766; 634766;
  732422; 634766; 634766; 683594; 732422; 634766; 634766; 683594; 781250; 634766; 683594; 634766; 732422; 634766;
  683594; 634766; 720215; 695801; 720215; 646973; 720215; 695801; 720215; 646973; 720215; 646973; 720215; 646973;
  720215; 646973; 720215; 646973; 769043; 695801; 720215; 646973; 720215; 695801; 769043; 646973; 769043; 695801;
  769043; 646973; 720215; 695801; 769043; 646973; 732422; 634766; 634766; 683594; 683594; 634766; 634766; 683594;
  683594; 634766; 634766; 683594; 683594; 634766; 634766; 683594; 732422; 634766; 634766; 634766; 732422; 634766;
  634766; 634766; 732422; 634766; 634766; 634766; 732422; 634766; 683594; 683594; 720215; 695801; 720215; 646973;
  671387; 695801; 769043; 646973; 720215; 695801; 720215; 646973; 671387; 695801; 720215; 646973; 720215; 646973;
  720215; 646973; 720215; 695801; 720215; 646973; 720215; 695801; 720215; 646973; 720215; 695801; 769043; 646973;
  732422; 634766; 634766; 683594; 683594; 634766; 634766; 683594; 732422; 634766; 634766; 634766; 683594; 634766;
  634766; 683594; 732422; 634766; 634766; 634766; 732422; 634766; 634766; 683594; 732422; 634766; 634766; 634766;
  732422; 634766; 683594; 634766; 720215; 695801; 720215; 646973; 769043; 695801; 720215; 646973; 671387; 646973;
  671387; 646973; 671387; 695801; 671387; 646973; 720215; 695801; 720215; 646973; 720215; 695801; 720215; 646973;
  720215; 695801; 720215; 646973; 671387; 695801; 671387; 646973; 683594; 634766; 634766; 683594; 683594; 634766;
  634766; 634766; 683594; 634766; 634766; 634766; 683594; 634766; 634766; 634766; 683594; 634766; 634766; 634766;
  732422; 634766; 634766; 634766; 732422; 634766; 634766; 634766; 683594; 634766; 634766; 634766].

(** mlx90640_example_data.rs 1060-1157 [K_V_PIXELS], times 10^6 *)
Definition ex_k_v_pixels : list Z := [
  437500; 375000; 437500; 375000; 437500; 375000; 437500; 375000; 437500; 375000; 437500; 375000; 437500; 375000;
  437500; 375000; 437500; 375000; 437500; 375000; 437500; 375000; 437500; 375000; 437500; 375000; 437500; 375000;
  437500; 375000; 437500; 375000; 375000; 375000; 375000; 375000; 375000; 375000; 375000; 375000; 375000; 375000;
  375000; 375000; 375000; 375000; 375000; 375000; 375000; 375000; 375000; 375000; 375000; 375000; 375000; 375000;
  375000; 375000; 375000; 375000; 375000; 375000; 375000; 375000; 437500; 375000; 437500; 375000; 437500; 375000;
  437500; 375000; 437500; 375000; 437500; 375000; 437500; 375000; 437500; 375000; 437500; 375000; 437500; 375000;
  437500; 375000; 437500; 375000; 437500; 375000; 437500; 375000; 437500; 375000; 437500; 375000; 375000; 375000;
  375000; 375000; 375000; 375000; 375000; 375000; 375000; 375000; 375000; 375000; 375000; 375000; 375000; 375000;
  375000; 375000; 375000; 375000; 375000; 375000; 375000; 375000; 375000; 375000; 375000; 375000; 375000; 375000;
  375000; 375000; 437500; 375000; 437500; 375000; 437500; 375000; 437500; 375000; 437500; 375000; 437500; 375000;
  437500; 375000; 437500; 375000; 437500; 375000; 437500; 375000; 437500; 375000; 437500; 375000; 437500; 375000;
  437500; 375000; 437500; 375000; 437500; 375000; 375000; 375000; 375000; 375000; 375000; 375000; 375000; 375000;
  375000; 375000; 375000; 375000; 375000; 375000; 375000; 375000; 375000; 375000; 375000; 375000; 375000; 375000;
  375000; 375000; 375000; 375000; 375000; 375000; 375000; 375000; 375000; 375000; 437500; 375000; 437500; 375000;
  437500; 375000; 437500; 375000; 437500; 375000; 437500; 375000; 437500; 375000; 437500; 375000; 437500; 375000;
  437500; 375000; 437500; 375000; 437500; 375000; 437500; 375000; 437500; 375000; 437500; 375000; 437500; 375000;
  375000; 375000; 375000; 375000; 375000; 375000; 375000; 375000; 375000; 375000; 375000; 375000; 375000; 375000;
  375000; 375000; 375000; 375000; 375000; 375000; 375000; 375000; 375000; 375000; 375000; 375000; 375000; 375000;
  375000; 375000; 375000; 375000; 437500; 375000; 437500; 375000; 437500; 375000; 437500; 375000; 437500; 375000;
  437500; 375000; 437500; 375000; 437500; 375000; 437500; 375000; 437500; 375000; 437500; 375000; 437500; 375000;
  437500; 375000; 437500; 375000; 437500; 375000; 437500; 375000; 375000; 375000; 375000; 375000; 375000; 375000;
  375000; 375000; 375000; 375000; 375000; 375000; 375000; 375000; 375000; 375000; 375000; 375000; 375000; 375000;
  375000; 375000; 375000; 375000; 375000; 375000; 375000; 375000; 375000; 375000; 375000; 375000; 437500; 375000;
  437500; 375000; 437500; 375000; 437500; 375000; 437500; 375000; 437500; 375000; 437500; 375000; 437500; 375000;
  437500; 375000; 437500; 375000; 437500; 375000; 437500; 375000; 437500; 375000; 437500; 375000; 437500; 375000;
  437500; 375000; 375000; 375000; 375000; 375000; 375000; 375000; 375000; 375000; 375000; 375000; 375000; 375000;
  375000; 375000; 375000; 375000; 375000; 375000; 375000; 375000; 375000; 375000; 375000; 375000; 375000; 375000;
  375000; 375000; 375000; 375000; 375000; 375000; 437500; 375000; 437500; 375000; 437500; 375000; 437500; 375000;
  437500; 375000; 437500; 375000; 437500; 375000; 437500; 375000; 437500; 375000; 437500; 375000; 437500; 375000;
  437500; 375000; 437500; 375000; 437500; 375000; 437500; 375000; 437500; 375000; 375000; 375000; 375000; 375000;
  375000; 375000; 375000; 375000; 375000; 375000; 375000; 375000; 375000; 375000; 375000; 375000; 375000; 375000;
  375000; 375000; 375000; 375000; 375000; 375000; 375000; 375000; 375000; 375000; 375000; 375000; 375000; 375000;
  437500; 375000; 437500; 375000; 437500; 375000; 437500; 375000; 437500; 375000; 437500; 375000; 437500; 375000;
  437500; 375000; 437500; 375000; 437500; 375000; 437500; 375000; 437500; 375000; 437500; 375000; 437500; 375000;
  437500; 375000; 437500; 375000; 375000; 375000; 375000; 375000; 375000; 375000; 375000; 375000; 375000; 375000;
  375000; 375000; 375000; 375000; 375000; 375000; 375000; 375000; 375000; 375000; 375000; 375000; 375000; 375000;
  375000; 375000; 375000; 375000; 375000; 375000; 375000; 375000; 437500; 375000; 437500; 375000; 437500; 375000;
  437500; 375000; 437500; 375000; 437500; 375000; 437500; 375000; 437500; 375000; 437500; 375000; 437500; 375000;
  437500; 375000; 437500; 375000; 437500; 375000; 437500; 375000; 437500; 375000; 437500; 375000; 375000; 375000;
  375000; 375000; 375000; 375000; 375000; 375000; 375000; 375000; 375000; 375000; 375000; 375000; 375000; 375000;
  375000; 375000; 375000; 375000; 375000; 375000; 375000; 375000; 375000; 375000; 375000; 375000; 375000; 375000;
  375000; 375000; 437500; 375000; 437500; 375000; 437500; 375000; 437500; 375000; 437500; 375000; 437500; 375000;
  437500; 375000; 437500; 375000; 437500; 375000; 437500; 375000; 437500; 375000; 437500; 375000; 437500; 375000;
  437500; 375000; 437500; 375000; 437500; 375000; 375000; 375000; 375000; 375000; 375000; 375000; 375000; 375000;
  375000; 375000; 375000; 375000; 375000; 375000; 375000; 375000; 375000; 375000; 375000; 375000; 375000; 375000;
  375000; 375000; 375000; 375000; 375000; 375000; 375000; 375000; 375000; 375000; 437500; 375000; 437500; 375000;
  437500; 375000; 437500; 375000; 437500; 375000; 437500; 375000; 437500; 375000; 437500; 375000; 437500; 375000;
  437500; 375000; 437500; 375000; 437500; 375000; 437500; 375000; 437500; 375000; 437500; 375000; 437500; 375000;
  375000; 375000; 375000; 375000; 375000; 375000; 375000; 375000; 375000; 375000; 375000; 375000; 375000; 375000;
  375000; 375000; 375000; 375000; 375000; 375000; 375000; 375000; 375000; 375000; 375000; 375000; 375000; 375000;
  375000; 375000; 375000; 375000; 437500; 375000; 437500; 375000; 437500; 375000; 437500; 375000; 437500; 375000;
  437500; 375000; 437500; 375000; 437500; 375000; 437500; 375000; 437500; 375000; 437500; 375000; 437500; 375000;
  437500; 375000; 437500; 375000; 437500; 375000; 437500; 375000; 375000; 375000; 375000; 375000; 375000; 375000;
  375000; 375000; 375000; 375000; 375000; 375000; 375000; 375000; 375000; 375000; 375000; 375000; 375000; 375000;
  375000; 375000; 375000; 375000; 375000; 375000; 375000; 375000; 375000; 375000; 375000; 375000].

(** mlx90640_example_data.rs 1380-1445 [TEMPERATURES], times 10^3 *)
Definition ex_temperatures : list Z := [
  28711; 27792; 28178; 28268; 28313; 28450; 28631; 28353; 28295; 28221; 28586; 28024; 28336; 28298;
  28683; 27972; 28248; 28537; 28573; 28238; 29127; 28777; 28629; 28172; 29070; 28718; 28894; 28509;
  28883; 29076; 29687; 29163; 28942; 28618; 28332; 28134; 28541; 28517; 28394; 27982; 28318; 28092;
  28151; 27914; 28753; 28156; 27861; 28261; 28118; 28198; 28582; 28528; 28359; 28837; 28618; 28730;
  28610; 28814; 28605; 28558; 28881; 28605; 29019; 29005; 28513; 28605; 28482; 28154; 28428; 28766;
  27946; 28048; 28248; 28450; 28387; 28199; 28340; 28594; 28128; 28421; 28544; 28256; 28321; 28073;
  28986; 28410; 28445; 28408; 28728; 28530; 28778; 28326; 29035; 28677; 28639; 28351; 28483; 28116;
  28430; 28237; 28430; 28173; 28300; 28519; 28179; 28303; 28405; 28049; 28329; 28246; 28347; 28466;
  28346; 28247; 28304; 28378; 28597; 28835; 28656; 28480; 28723; 28828; 28500; 28428; 28796; 28528;
  28297; 29030; 28163; 28340; 28719; 28336; 28268; 28561; 28439; 28254; 28607; 28734; 28199; 28376;
  28440; 28248; 28730; 27926; 28361; 28278; 28256; 28490; 28253; 28898; 28563; 28491; 28593; 28432;
  28962; 28417; 28746; 28817; 28917; 27554; 28126; 28112; 28473; 27955; 28466; 28365; 28968; 28291;
  29580; 28335; 28803; 28610; 28409; 28281; 28132; 28303; 28803; 28246; 28443; 28710; 28649; 28723;
  28537; 28532; 28564; 28493; 28667; 28686; 28746; 28565; 28278; 28197; 28489; 28339; 28295; 28444;
  28610; 28566; 28497; 28802; 29183; 31090; 29365; 29834; 28763; 28843; 28320; 28427; 28594; 28279;
  28641; 28140; 28629; 28230; 28950; 28392; 27980; 28579; 28349; 28584; 28453; 28300; 28852; 27232;
  28490; 28364; 28630; 28244; 28633; 28023; 28703; 28247; 31642; 29572; 31352; 30034; 29809; 28667;
  28683; 28642; 28605; 28316; 28433; 28311; 28448; 28444; 28483; 28168; 28580; 28403; 28510; 28438;
  28743; 28800; 27995; 27913; 28091; 28460; 28598; 28515; 28313; 28996; 28813; 30302; 30533; 32592;
  32362; 32093; 31328; 31273; 29314; 29422; 28126; 28591; 28517; 28460; 28644; 28192; 28679; 28554;
  28485; 28324; 28714; 28284; 28549; 28354; 28739; 27168; 28536; 28275; 28361; 27955; 28948; 28448;
  30536; 28965; 32884; 31879; 32682; 32094; 32728; 31286; 30920; 29814; 29226; 28593; 28639; 28303;
  28674; 28808; 28445; 28596; 28308; 28363; 28237; 28585; 28762; 28420; 27634; 28341; 28595; 28757;
  28668; 28844; 28724; 29482; 29526; 32560; 32332; 33558; 32878; 32994; 32587; 32664; 32080; 32187;
  30319; 30384; 29259; 28561; 28347; 28620; 28371; 28259; 28591; 28458; 28779; 28458; 28650; 28496;
  28577; 28159; 28835; 28330; 28219; 28480; 29530; 28753; 32294; 30412; 34299; 33225; 33583; 33175;
  32902; 32848; 32213; 31967; 31870; 30751; 29610; 29090; 28328; 28461; 27930; 28636; 28181; 28437;
  28476; 28707; 28600; 28479; 28681; 28493; 28450; 28323; 28205; 28425; 28945; 31092; 30841; 33522;
  33628; 34564; 34155; 33856; 33454; 32664; 32621; 32372; 32219; 31654; 31181; 28926; 28945; 28697;
  28535; 28474; 28354; 28337; 28338; 28403; 28487; 28216; 28645; 28384; 28889; 28420; 28804; 28235;
  30758; 29189; 32667; 32258; 33935; 34054; 33947; 34386; 33459; 33366; 32776; 32502; 31703; 32534;
  29363; 30553; 28741; 28703; 28474; 28123; 28522; 28465; 28276; 28435; 28844; 28666; 28557; 28458;
  28412; 28779; 28618; 28839; 29437; 31981; 32515; 32602; 33633; 33339; 34348; 33200; 33460; 32708;
  33297; 32716; 32441; 30769; 30583; 28879; 28901; 28662; 28751; 28224; 28455; 28549; 28551; 28501;
  28674; 28491; 28816; 28358; 28403; 28379; 29006; 28929; 31579; 30135; 32674; 32781; 32740; 33364;
  32741; 33703; 32951; 33035; 32577; 32681; 31359; 32508; 28893; 29271; 28502; 28813; 28726; 28176;
  28417; 28281; 28839; 28308; 28837; 28441; 28693; 28851; 28266; 28880; 28759; 28696; 30103; 30616;
  32329; 31805; 32560; 32485; 32963; 32454; 32587; 32690; 32781; 31630; 32408; 29459; 29431; 28422;
  28536; 28365; 28849; 28236; 28187; 28445; 28597; 29407; 29227; 29049; 28880; 29072; 28191; 28259;
  28706; 28992; 29507; 30442; 30965; 32244; 31855; 32250; 32388; 32312; 32607; 32854; 31842; 32680;
  30104; 31065; 28447; 28621; 28679; 28344; 28156; 28447; 28570; 28667; 29436; 28698; 30319; 29718;
  28776; 28963; 28429; 28555; 28570; 28395; 29163; 28748; 29828; 29420; 31671; 30793; 32379; 31911;
  32265; 32313; 32592; 30116; 31175; 28890; 29218; 28496; 28587; 28648; 28508; 28310; 28957; 28748;
  29226; 31269; 31199; 32328; 31547; 29811; 28888; 28137; 28285; 28463; 28483; 28557; 28797; 29704;
  29399; 30460; 30472; 31603; 31694; 31990; 30547; 32004; 28930; 29626; 28220; 28473; 28552; 28220;
  28351; 28694; 29062; 28703; 30867; 29831; 32820; 32548; 32478; 32176; 28473; 28493; 28264; 28442;
  28662; 28390; 28372; 28661; 29225; 28774; 29797; 29597; 30999; 30204; 31244; 29254; 29575; 28162;
  28510; 28532; 28530; 28600; 28449; 28428; 28642; 29765; 30602; 32329; 32418; 34008; 34239; 32016;
  28925; 28322; 28395; 28078; 28614; 28183; 28452; 28517; 28848; 28593; 28970; 29005; 29060; 30394;
  28891; 30257; 28808; 28746; 28235; 28295; 28682; 28561; 28342; 28250; 29916; 28593; 31676; 31333;
  33850; 33254; 32702; 33224; 28516; 28235; 28317; 28028; 28465; 28464; 28845; 28247; 28642; 28392;
  28464; 28436; 28858; 28573; 28979; 28471; 29039; 28500; 28832; 28364; 28280; 28374; 28837; 28830;
  29056; 31258; 31946; 32501; 33101; 33231; 32988; 30287; 28260; 28161; 28310; 28257; 28417; 28346;
  28377; 28301; 28276; 28101; 28675; 28288; 28494; 28615; 28389; 28926; 28616; 28512; 27969; 28178;
  28515; 28392; 28549; 28412; 31642; 30166; 32618; 32614; 33084; 32530; 31086; 32028].
