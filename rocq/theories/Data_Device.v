(** The device entries and the buffer they refer to.  Written by tools/gen_tables.py from the sources; do not edit. *)
From Verif Require Import Model_Base Model_Blob Model_Ctx.
Open Scope N_scope.
Open Scope blob_scope.

Definition d_dr_idx0_0 : list deviceTuple := [
  mkDevice 0x50000000b 0x5 (-1)%Z 0xb00000018 (0)%Z 0x0;
  mkDevice 0x50000000b 0x180000001f (0)%Z 0x0 (-1)%Z 0x100000006
].
(** device_repo.go:10-2270, class 0. *)
Definition d_dr_idx0 : list deviceTuple :=
  concat [d_dr_idx0_0].

Definition d_dr_idx1_0 : list deviceTuple := [
  mkDevice 0x8e00000099 0x8b0000008e (2)%Z 0x0 (-1)%Z 0x600000007;
  mkDevice 0x8e00000099 0xa3000000a7 (4)%Z 0x0 (-1)%Z 0x700000008;
  mkDevice 0x8e00000099 0xaf000000b8 (-1)%Z 0xb8000000c6 (-1)%Z 0x800000009;
  mkDevice 0x8e00000099 0xcf000000d4 (6)%Z 0x0 (-1)%Z 0x90000000b;
  mkDevice 0x8e00000099 0xe7000000ed (-1)%Z 0xed000000fd (-1)%Z 0xb0000000c
].
(** device_repo.go:10-2270, class 1. *)
Definition d_dr_idx1 : list deviceTuple :=
  concat [d_dr_idx1_0].

Definition d_dr_idx2_0 : list deviceTuple := [
  mkDevice 0x1060000010d 0x10000000106 (8)%Z 0x0 (12)%Z 0x0;
  mkDevice 0x1060000010d 0x1170000011a (-1)%Z 0x11a00000126 (13)%Z 0x0;
  mkDevice 0x1060000010d 0x12f00000138 (-1)%Z 0x1380000013c (-1)%Z 0xe00000013;
  mkDevice 0x1060000010d 0x17800000180 (9)%Z 0x0 (19)%Z 0x0;
  mkDevice 0x1060000010d 0x18200000186 (-1)%Z 0x18200000186 (20)%Z 0x0;
  mkDevice 0x1060000010d 0x18600000194 (-1)%Z 0x18600000194 (-1)%Z 0x1500000018;
  mkDevice 0x1060000010d 0x1ac000001b1 (-1)%Z 0x1b1000001bc (24)%Z 0x0;
  mkDevice 0x1060000010d 0x1c3000001c7 (12)%Z 0x0 (-1)%Z 0x190000001b;
  mkDevice 0x1060000010d 0x1e6000001ea (13)%Z 0x0 (-1)%Z 0x1b0000001f
].
(** device_repo.go:10-2270, class 2. *)
Definition d_dr_idx2 : list deviceTuple :=
  concat [d_dr_idx2_0].

Definition d_dr_idx3_0 : list deviceTuple := [
  mkDevice 0x23b0000023d 0x2340000023b (17)%Z 0x0 (31)%Z 0x0;
  mkDevice 0x23f00000249 0x23d0000023f (18)%Z 0x0 (-1)%Z 0x2000000024;
  mkDevice 0x23f00000249 0x26000000263 (23)%Z 0x0 (-1)%Z 0x2400000030;
  mkDevice 0x23f00000249 0x2950000029a (36)%Z 0x0 (-1)%Z 0x3000000032;
  mkDevice 0x23f00000249 0x29e000002a1 (39)%Z 0x0 (-1)%Z 0x3200000033;
  mkDevice 0x2a1000002a7 0x2af000002b1 (41)%Z 0x0 (-1)%Z 0x330000003b;
  mkDevice 0x23f00000249 0x3080000030d (49)%Z 0x0 (-1)%Z 0x3b00000042;
  mkDevice 0x23b0000023d 0x3390000033d (56)%Z 0x0 (66)%Z 0x0;
  mkDevice 0x23f00000249 0x33d00000341 (57)%Z 0x0 (67)%Z 0x0;
  mkDevice 0x23f00000249 0x34a00000352 (58)%Z 0x0 (-1)%Z 0x4400000048;
  mkDevice 0x2a1000002a7 0x3750000037d (-1)%Z 0x37d00000387 (72)%Z 0x0;
  mkDevice 0x23f00000249 0x39300000397 (59)%Z 0x0 (73)%Z 0x0;
  mkDevice 0x39a000003a7 0x3970000039a (60)%Z 0x0 (74)%Z 0x0;
  mkDevice 0x23f00000249 0x3a7000003a9 (61)%Z 0x0 (-1)%Z 0x4b00000050;
  mkDevice 0x23b0000023d 0x3dc000003e0 (-1)%Z 0x3dc000003e0 (-1)%Z 0x5000000059;
  mkDevice 0x2a1000002a7 0x4480000044c (66)%Z 0x0 (89)%Z 0x0;
  mkDevice 0x2a1000002a7 0x44f00000452 (-1)%Z 0x4520000045d (90)%Z 0x0;
  mkDevice 0x2a1000002a7 0x46400000469 (67)%Z 0x0 (91)%Z 0x0;
  mkDevice 0x23f00000249 0x4690000046e (68)%Z 0x0 (-1)%Z 0x5c0000005d;
  mkDevice 0x23f00000249 0x48a00000493 (69)%Z 0x0 (93)%Z 0x0;
  mkDevice 0x23f00000249 0x49300000496 (70)%Z 0x0 (-1)%Z 0x5e00000066;
  mkDevice 0x23f00000249 0x4c3000004c6 (78)%Z 0x0 (102)%Z 0x0;
  mkDevice 0x2a1000002a7 0x4c6000004cc (79)%Z 0x0 (-1)%Z 0x670000006a;
  mkDevice 0x2a1000002a7 0x4ec000004f1 (81)%Z 0x0 (106)%Z 0x0;
  mkDevice 0x23f00000249 0x4ff00000502 (82)%Z 0x0 (-1)%Z 0x6b0000006d;
  mkDevice 0x23b0000023d 0x5350000053e (83)%Z 0x0 (-1)%Z 0x0;
  mkDevice 0x23b0000023d 0x53e00000547 (84)%Z 0x0 (-1)%Z 0x0;
  mkDevice 0x23f00000249 0x54700000552 (85)%Z 0x0 (109)%Z 0x0;
  mkDevice 0x2a1000002a7 0x5570000055a (86)%Z 0x0 (110)%Z 0x0;
  mkDevice 0x23b0000023d 0x55a0000055e (87)%Z 0x0 (111)%Z 0x0;
  mkDevice 0x23f00000249 0x55e00000563 (88)%Z 0x0 (-1)%Z 0x700000007f;
  mkDevice 0x1060000010d 0x5d5000005dd (91)%Z 0x0 (-1)%Z 0x7f00000081;
  mkDevice 0x2a1000002a7 0x5ee000005f3 (-1)%Z 0x5ee000005f3 (-1)%Z 0x8100000082;
  mkDevice 0x23f00000249 0x5f3000005f6 (94)%Z 0x0 (-1)%Z 0x8200000085;
  mkDevice 0x2a1000002a7 0x61000000617 (95)%Z 0x0 (133)%Z 0x0;
  mkDevice 0x23b0000023d 0x6170000061a (96)%Z 0x0 (-1)%Z 0x8600000087;
  mkDevice 0x2a1000002a7 0x61a00000621 (-1)%Z 0x61a00000621 (-1)%Z 0x8700000088;
  mkDevice 0x62600000633 0x62100000626 (99)%Z 0x0 (136)%Z 0x0;
  mkDevice 0x23b0000023d 0x63b00000640 (100)%Z 0x0 (-1)%Z 0x890000008c;
  mkDevice 0x23f00000249 0x64000000644 (104)%Z 0x0 (140)%Z 0x0;
  mkDevice 0x23f00000249 0x64400000648 (105)%Z 0x0 (-1)%Z 0x8d000000a5;
  mkDevice 0x23f00000249 0x7b9000007be (110)%Z 0x0 (165)%Z 0x0;
  mkDevice 0x2a1000002a7 0x7be000007c3 (111)%Z 0x0 (-1)%Z 0xa6000000a7;
  mkDevice 0x7cc000007d6 0x7c8000007cc (113)%Z 0x0 (-1)%Z 0xa7000000aa;
  mkDevice 0x2a1000002a7 0x80a0000080e (115)%Z 0x0 (-1)%Z 0xaa000000ab;
  mkDevice 0x2a1000002a7 0x8190000081e (117)%Z 0x0 (171)%Z 0x0;
  mkDevice 0x23f00000249 0x81e00000821 (118)%Z 0x0 (172)%Z 0x0;
  mkDevice 0x2a1000002a7 0x82100000824 (119)%Z 0x0 (-1)%Z 0xad000000b1;
  mkDevice 0x23b0000023d 0x84a0000084e (124)%Z 0x0 (-1)%Z 0xb1000000b3;
  mkDevice 0x23b0000023d 0x84e00000852 (127)%Z 0x0 (179)%Z 0x0;
  mkDevice 0x23f00000249 0x85200000856 (128)%Z 0x0 (-1)%Z 0xb4000000b6;
  mkDevice 0x23f00000249 0x8560000085a (131)%Z 0x0 (-1)%Z 0xb6000000b8;
  mkDevice 0x23f00000249 0x8690000086d (133)%Z 0x0 (-1)%Z 0xb8000000b9;
  mkDevice 0x23f00000249 0x8740000087a (134)%Z 0x0 (-1)%Z 0xb9000000c6;
  mkDevice 0x23b0000023d 0x8fb00000905 (148)%Z 0x0 (198)%Z 0x0;
  mkDevice 0x23f00000249 0x90500000908 (149)%Z 0x0 (-1)%Z 0xc7000000d3;
  mkDevice 0x23b0000023d 0x9a7000009ae (159)%Z 0x0 (211)%Z 0x0;
  mkDevice 0x2a1000002a7 0x9ae000009b4 (160)%Z 0x0 (-1)%Z 0xd4000000d5;
  mkDevice 0x23f00000249 0x9bd000009c1 (162)%Z 0x0 (-1)%Z 0xd50000011e;
  mkDevice 0x2a1000002a7 0xcd800000cde (223)%Z 0x0 (-1)%Z 0x11e00000120;
  mkDevice 0x2a1000002a7 0xcfa00000d02 (224)%Z 0x0 (-1)%Z 0x12000000122;
  mkDevice 0x2a1000002a7 0xd1400000d1b (227)%Z 0x0 (-1)%Z 0x12200000124;
  mkDevice 0x23f00000249 0xd2800000d2d (230)%Z 0x0 (-1)%Z 0x12400000137;
  mkDevice 0x23f00000249 0xda600000dad (245)%Z 0x0 (-1)%Z 0x1370000013d;
  mkDevice 0x2a1000002a7 0xde900000df6 (251)%Z 0x0 (317)%Z 0x0;
  mkDevice 0xdfd00000e04 0xdf600000dfd (252)%Z 0x0 (-1)%Z 0x13e00000142;
  mkDevice 0x23b0000023d 0xe2800000e2e (-1)%Z 0xe2e00000e34 (322)%Z 0x0;
  mkDevice 0x2a1000002a7 0xe3c00000e41 (257)%Z 0x0 (-1)%Z 0x14300000156;
  mkDevice 0x8e00000099 0xf8500000f8d (-1)%Z 0xf8d00000fa1 (-1)%Z 0x15600000157;
  mkDevice 0x23f00000249 0xfbf00000fc4 (267)%Z 0x0 (-1)%Z 0x15700000159;
  mkDevice 0x39a000003a7 0xfd600000fdd (269)%Z 0x0 (345)%Z 0x0;
  mkDevice 0x23f00000249 0xfdd00000fe3 (270)%Z 0x0 (-1)%Z 0x15a0000015b;
  mkDevice 0x23f00000249 0xfed00000ff3 (272)%Z 0x0 (-1)%Z 0x15b0000015e;
  mkDevice 0x2a1000002a7 0x101f00001024 (274)%Z 0x0 (350)%Z 0x0;
  mkDevice 0x23f00000249 0x102400001028 (275)%Z 0x0 (-1)%Z 0x15f00000167;
  mkDevice 0x23f00000249 0x106300001067 (-1)%Z 0x10670000106c (-1)%Z 0x1670000016a;
  mkDevice 0x23f00000249 0x10890000108d (282)%Z 0x0 (-1)%Z 0x16a00000178;
  mkDevice 0x23f00000249 0x110000001104 (293)%Z 0x0 (-1)%Z 0x1780000017c;
  mkDevice 0x23f00000249 0x112000001127 (296)%Z 0x0 (-1)%Z 0x17c00000255;
  mkDevice 0x2a1000002a7 0x1d7f00001d84 (431)%Z 0x0 (597)%Z 0x0;
  mkDevice 0x23b0000023d 0x1d8400001d8c (432)%Z 0x0 (-1)%Z 0x25600000259;
  mkDevice 0x23f00000249 0x1d9300001d9b (436)%Z 0x0 (-1)%Z 0x2590000025b;
  mkDevice 0x23b0000023d 0x1dad00001db5 (438)%Z 0x0 (603)%Z 0x0;
  mkDevice 0x23f00000249 0x1db500001dbc (439)%Z 0x0 (-1)%Z 0x25c0000026b;
  mkDevice 0x2a1000002a7 0x1e7e00001e87 (445)%Z 0x0 (-1)%Z 0x26b00000280;
  mkDevice 0x23f00000249 0x1f5f00001f66 (464)%Z 0x0 (-1)%Z 0x280000002d5;
  mkDevice 0x2a1000002a7 0x24c1000024ca (500)%Z 0x0 (-1)%Z 0x2d5000002df;
  mkDevice 0x2a1000002a7 0x25a3000025a7 (503)%Z 0x0 (-1)%Z 0x2df000002e1;
  mkDevice 0x23b0000023d 0x25a7000025ae (-1)%Z 0x25a7000025ae (737)%Z 0x0;
  mkDevice 0x23f00000249 0x25ae000025b4 (506)%Z 0x0 (-1)%Z 0x2e2000002e4;
  mkDevice 0x23b0000023d 0x25b4000025b9 (509)%Z 0x0 (-1)%Z 0x0;
  mkDevice 0x2a1000002a7 0x25b9000025bf (510)%Z 0x0 (-1)%Z 0x2e400000323;
  mkDevice 0x23b0000023d 0x29de000029eb (571)%Z 0x0 (-1)%Z 0x32300000325;
  mkDevice 0x23f00000249 0x2a0a00002a10 (574)%Z 0x0 (805)%Z 0x0;
  mkDevice 0x23b0000023d 0x2a1000002a15 (575)%Z 0x0 (-1)%Z 0x32600000328;
  mkDevice 0x23f00000249 0x2a3100002a35 (576)%Z 0x0 (-1)%Z 0x3280000032f;
  mkDevice 0x23b0000023d 0x2a6300002a69 (581)%Z 0x0 (815)%Z 0x0;
  mkDevice 0x2a1000002a7 0x2a6900002a72 (582)%Z 0x0 (816)%Z 0x0;
  mkDevice 0x23f00000249 0x2a7500002a7e (583)%Z 0x0 (-1)%Z 0x33100000333;
  mkDevice 0x23b0000023d 0x2a8500002a8a (586)%Z 0x0 (-1)%Z 0x33300000336;
  mkDevice 0x2a1000002a7 0x2ab700002abb (590)%Z 0x0 (822)%Z 0x0;
  mkDevice 0x2a1000002a7 0x2abb00002ac0 (591)%Z 0x0 (823)%Z 0x0;
  mkDevice 0x2a1000002a7 0x2ac000002ac6 (592)%Z 0x0 (-1)%Z 0x33800000339;
  mkDevice 0x23f00000249 0x2ac900002acd (594)%Z 0x0 (825)%Z 0x0;
  mkDevice 0x2a1000002a7 0x2acd00002ad2 (595)%Z 0x0 (-1)%Z 0x33a0000033f;
  mkDevice 0x2a1000002a7 0x2afa00002b03 (601)%Z 0x0 (831)%Z 0x0;
  mkDevice 0x2700000027 0x2b0300002b08 (602)%Z 0x0 (-1)%Z 0x34000000454;
  mkDevice 0x2a1000002a7 0x3c1100003c19 (861)%Z 0x0 (-1)%Z 0x45400000458;
  mkDevice 0x23f00000249 0x10000000106 (865)%Z 0x0 (-1)%Z 0x45800000478;
  mkDevice 0x2a1000002a7 0x3dfd00003e08 (-1)%Z 0x3dfd00003e08 (-1)%Z 0x4780000047c;
  mkDevice 0x2a1000002a7 0x3e3e00003e44 (890)%Z 0x0 (1148)%Z 0x0;
  mkDevice 0x23f00000249 0x3e4f00003e52 (891)%Z 0x0 (-1)%Z 0x47d00000486;
  mkDevice 0x23f00000249 0x3ea600003eae (901)%Z 0x0 (1158)%Z 0x0;
  mkDevice 0x2a1000002a7 0x3eae00003eb4 (902)%Z 0x0 (-1)%Z 0x487000004a5;
  mkDevice 0x23b0000023d 0x3fed00003ff4 (908)%Z 0x0 (1189)%Z 0x0;
  mkDevice 0x23f00000249 0x3ff400003ff9 (909)%Z 0x0 (-1)%Z 0x4a6000004b2;
  mkDevice 0x2a1000002a7 0x402a00004032 (922)%Z 0x0 (-1)%Z 0x4b2000004b5;
  mkDevice 0x23b0000023d 0x403f00004047 (-1)%Z 0x40470000404e (-1)%Z 0x0;
  mkDevice 0x23b0000023d 0x404e00004053 (926)%Z 0x0 (-1)%Z 0x4b5000004b6;
  mkDevice 0x23f00000249 0x405d00004063 (928)%Z 0x0 (-1)%Z 0x4b6000004b8;
  mkDevice 0x23f00000249 0x406a0000406d (931)%Z 0x0 (-1)%Z 0x4b8000004ba;
  mkDevice 0x23f00000249 0x40750000407b (934)%Z 0x0 (-1)%Z 0x4ba000004bd;
  mkDevice 0x23f00000249 0x40850000408e (938)%Z 0x0 (-1)%Z 0x4bd000004d3;
  mkDevice 0x23f00000249 0x410f00004119 (961)%Z 0x0 (1235)%Z 0x0;
  mkDevice 0x23f00000249 0x41190000411d (962)%Z 0x0 (-1)%Z 0x4d400000554;
  mkDevice 0x23f00000249 0x47e6000047ec (1079)%Z 0x0 (-1)%Z 0x55400000555;
  mkDevice 0x23b0000023d 0x47ec000047fd (-1)%Z 0x47fd00004804 (-1)%Z 0x0;
  mkDevice 0x23b0000023d 0x480400004808 (1081)%Z 0x0 (1365)%Z 0x0;
  mkDevice 0x2a1000002a7 0x48080000480e (1082)%Z 0x0 (-1)%Z 0x55600000558;
  mkDevice 0x2a1000002a7 0x48150000481b (1085)%Z 0x0 (-1)%Z 0x5580000055c;
  mkDevice 0x23f00000249 0x485300004859 (1087)%Z 0x0 (1372)%Z 0x0;
  mkDevice 0x2a1000002a7 0x48590000485e (1088)%Z 0x0 (1373)%Z 0x0;
  mkDevice 0x23f00000249 0x485e00004866 (1089)%Z 0x0 (-1)%Z 0x55e00000562;
  mkDevice 0x2b1e00002b26 0x486c00004871 (1094)%Z 0x0 (-1)%Z 0x56200000563;
  mkDevice 0x7cc000007d6 0x487100004876 (1096)%Z 0x0 (1379)%Z 0x0;
  mkDevice 0x23f00000249 0x488200004888 (1097)%Z 0x0 (-1)%Z 0x56400000566;
  mkDevice 0x23f00000249 0x489c000048a1 (1100)%Z 0x0 (-1)%Z 0x5660000056b;
  mkDevice 0x2a1000002a7 0x48e4000048e8 (1103)%Z 0x0 (-1)%Z 0x56b0000056c;
  mkDevice 0x23f00000249 0x48e8000048ed (1105)%Z 0x0 (-1)%Z 0x56c00000570;
  mkDevice 0x2a1000002a7 0x492000004926 (1109)%Z 0x0 (-1)%Z 0x57000000571;
  mkDevice 0x2a1000002a7 0x492d00004933 (1111)%Z 0x0 (1393)%Z 0x0;
  mkDevice 0x23f00000249 0x49330000493f (1112)%Z 0x0 (-1)%Z 0x5720000057c;
  mkDevice 0x2a1000002a7 0x49b2000049b8 (-1)%Z 0x49b2000049b8 (-1)%Z 0x0;
  mkDevice 0x23b0000023d 0x49b8000049bc (1119)%Z 0x0 (-1)%Z 0x57c0000057e;
  mkDevice 0x23f00000249 0x49c9000049cf (-1)%Z 0x49cf000049d5 (-1)%Z 0x57e0000057f;
  mkDevice 0x23b0000023d 0x49de000049e3 (1123)%Z 0x0 (-1)%Z 0x57f00000580;
  mkDevice 0x2a1000002a7 0x49e3000049ec (1125)%Z 0x0 (-1)%Z 0x5800000058b;
  mkDevice 0x23b0000023d 0x4ae000004ae3 (1137)%Z 0x0 (-1)%Z 0x58b0000058e;
  mkDevice 0x2a1000002a7 0x4b0300004b06 (1141)%Z 0x0 (-1)%Z 0x58e00000592;
  mkDevice 0x23f00000249 0x4b1900004b1c (1145)%Z 0x0 (-1)%Z 0x59200000594;
  mkDevice 0x23f00000249 0x4b3500004b3e (-1)%Z 0x4b3e00004b47 (1428)%Z 0x0;
  mkDevice 0x23f00000249 0x4b4700004b4a (1146)%Z 0x0 (-1)%Z 0x5950000059a;
  mkDevice 0x23f00000249 0x4b6b00004b70 (1150)%Z 0x0 (-1)%Z 0x59a0000059b;
  mkDevice 0x2a1000002a7 0x4b7000004b75 (1152)%Z 0x0 (-1)%Z 0x59b0000059d;
  mkDevice 0x2a1000002a7 0x4b7f00004b83 (1154)%Z 0x0 (-1)%Z 0x59d000005a0;
  mkDevice 0x2a1000002a7 0x4ba900004bad (1158)%Z 0x0 (-1)%Z 0x5a0000005a2;
  mkDevice 0x2a1000002a7 0x4bad00004bb1 (1161)%Z 0x0 (1442)%Z 0x0;
  mkDevice 0x2a1000002a7 0x4bbd00004bc2 (1162)%Z 0x0 (1443)%Z 0x0;
  mkDevice 0x23f00000249 0x4bc200004bc6 (1163)%Z 0x0 (1444)%Z 0x0;
  mkDevice 0x23f00000249 0x4bc600004bcf (1164)%Z 0x0 (-1)%Z 0x5a5000005a6;
  mkDevice 0x8e00000099 0x4bd600004bd9 (-1)%Z 0x4bd900004be5 (1446)%Z 0x0;
  mkDevice 0x2a1000002a7 0x4beb00004bf1 (1166)%Z 0x0 (-1)%Z 0x5a7000005a8;
  mkDevice 0x2a1000002a7 0x4bf100004bf7 (1168)%Z 0x0 (-1)%Z 0x5a8000005a9;
  mkDevice 0x23f00000249 0x4c0200004c0a (1170)%Z 0x0 (1449)%Z 0x0;
  mkDevice 0x2a1000002a7 0x4c0a00004c18 (1171)%Z 0x0 (-1)%Z 0x5aa000005ad;
  mkDevice 0x23f00000249 0x4c1f00004c25 (1175)%Z 0x0 (-1)%Z 0x5ad000005af;
  mkDevice 0x39a000003a7 0x4c3000004c36 (1178)%Z 0x0 (1455)%Z 0x0;
  mkDevice 0x23f00000249 0x4c3600004c3d (1179)%Z 0x0 (-1)%Z 0x5b0000005bc;
  mkDevice 0x23b0000023d 0x4c8100004c88 (1190)%Z 0x0 (-1)%Z 0x5bc000005c4;
  mkDevice 0x39a000003a7 0x4cbf00004cc5 (1199)%Z 0x0 (1476)%Z 0x0;
  mkDevice 0x2a1000002a7 0x4cc500004ccb (1200)%Z 0x0 (1477)%Z 0x0;
  mkDevice 0x23b0000023d 0x4ccb00004ccf (1201)%Z 0x0 (-1)%Z 0x0;
  mkDevice 0x23b0000023d 0x4ccf00004cd3 (1202)%Z 0x0 (-1)%Z 0x5c6000005c8;
  mkDevice 0x23f00000249 0x4ce100004cea (1203)%Z 0x0 (1480)%Z 0x0;
  mkDevice 0x39a000003a7 0x4cf700004cfb (1204)%Z 0x0 (-1)%Z 0x5c9000005cc;
  mkDevice 0x39a000003a7 0x4cff00004d0b (1207)%Z 0x0 (1484)%Z 0x0;
  mkDevice 0x23f00000249 0x4d0b00004d11 (1208)%Z 0x0 (-1)%Z 0x5cd000005cf;
  mkDevice 0x23f00000249 0x4d1700004d1c (1211)%Z 0x0 (-1)%Z 0x5cf000005db;
  mkDevice 0x2a1000002a7 0x4d9300004d9a (1212)%Z 0x0 (1499)%Z 0x0;
  mkDevice 0x23f00000249 0x4d9a00004d9f (1213)%Z 0x0 (-1)%Z 0x5dc000005de;
  mkDevice 0x23f00000249 0x4db100004db7 (1215)%Z 0x0 (-1)%Z 0x5de000005e1;
  mkDevice 0x23f00000249 0x4dd600004ddc (1218)%Z 0x0 (1505)%Z 0x0;
  mkDevice 0x2a1000002a7 0x4ddc00004de3 (1219)%Z 0x0 (1506)%Z 0x0;
  mkDevice 0x2a1000002a7 0x4de600004dec (1220)%Z 0x0 (-1)%Z 0x5e3000005e5;
  mkDevice 0xc9b00000ca2 0x4e1400004e1d (1221)%Z 0x0 (1509)%Z 0x0;
  mkDevice 0x23f00000249 0x4e2b00004e32 (1222)%Z 0x0 (1510)%Z 0x0;
  mkDevice 0x23b0000023d 0x4e3e00004e44 (1223)%Z 0x0 (1511)%Z 0x0;
  mkDevice 0x2a1000002a7 0x4e4400004e4d (1224)%Z 0x0 (-1)%Z 0x5e8000005ea;
  mkDevice 0x39a000003a7 0x4e6800004e6c (1226)%Z 0x0 (-1)%Z 0x5ea000005ed;
  mkDevice 0x23f00000249 0x4e6c00004e71 (1230)%Z 0x0 (-1)%Z 0x5ed000005f0;
  mkDevice 0x2a1000002a7 0x4e7600004e7d (1234)%Z 0x0 (-1)%Z 0x5f0000005f3;
  mkDevice 0x23f00000249 0x4e9c00004ea3 (-1)%Z 0x4e9c00004ea3 (-1)%Z 0x5f3000005f4;
  mkDevice 0x23f00000249 0x4eb100004eb5 (1239)%Z 0x0 (1524)%Z 0x0;
  mkDevice 0x23f00000249 0x4ebe00004ec8 (1240)%Z 0x0 (1525)%Z 0x0;
  mkDevice 0x23b0000023d 0x4ec800004ed1 (-1)%Z 0x4ec800004ed1 (-1)%Z 0x5f6000005f7;
  mkDevice 0x23f00000249 0x4ed700004ee0 (1242)%Z 0x0 (-1)%Z 0x5f700000608;
  mkDevice 0x23b0000023d 0x4f9900004fa1 (1247)%Z 0x0 (1544)%Z 0x0;
  mkDevice 0x39a000003a7 0x4fa600004fb0 (1248)%Z 0x0 (1545)%Z 0x0;
  mkDevice 0x23b0000023d 0x4fb400004fbc (1249)%Z 0x0 (1546)%Z 0x0;
  mkDevice 0x23f00000249 0x4fc100004fca (1250)%Z 0x0 (-1)%Z 0x60b00000630
].
Definition d_dr_idx3_1 : list deviceTuple := [
  mkDevice 0x2a1000002a7 0x50c6000050cf (1279)%Z 0x0 (-1)%Z 0x63000000641;
  mkDevice 0x23f00000249 0xcf500000cfa (1291)%Z 0x0 (-1)%Z 0x64100000643;
  mkDevice 0x23f00000249 0x51be000051c3 (1293)%Z 0x0 (1603)%Z 0x0;
  mkDevice 0x2a1000002a7 0x51c3000051c7 (1294)%Z 0x0 (-1)%Z 0x6440000064b;
  mkDevice 0x23f00000249 0x528a0000528d (1296)%Z 0x0 (-1)%Z 0x64b000006ac;
  mkDevice 0x2a1000002a7 0x579100005799 (1339)%Z 0x0 (1708)%Z 0x0;
  mkDevice 0x23f00000249 0x57ae000057b4 (1340)%Z 0x0 (-1)%Z 0x6ad000006b9;
  mkDevice 0x23f00000249 0x580100005808 (1347)%Z 0x0 (1721)%Z 0x0;
  mkDevice 0x23f00000249 0x580d00005815 (1348)%Z 0x0 (1722)%Z 0x0;
  mkDevice 0x2a1000002a7 0x58150000581c (1349)%Z 0x0 (-1)%Z 0x6bb000006bd;
  mkDevice 0x23f00000249 0x581c00005824 (-1)%Z 0x58240000582c (-1)%Z 0x6bd000006be;
  mkDevice 0x2a1000002a7 0x582e00005836 (1352)%Z 0x0 (-1)%Z 0x6be000006c3;
  mkDevice 0x23f00000249 0x587e00005885 (1354)%Z 0x0 (-1)%Z 0x6c3000006d5;
  mkDevice 0x2a1000002a7 0x58fd00005904 (1369)%Z 0x0 (1749)%Z 0x0;
  mkDevice 0x2a1000002a7 0x590a0000590f (1370)%Z 0x0 (1750)%Z 0x0;
  mkDevice 0x2a1000002a7 0x59180000591f (1371)%Z 0x0 (1751)%Z 0x0;
  mkDevice 0x23f00000249 0x591f00005924 (1372)%Z 0x0 (-1)%Z 0x6d8000006db;
  mkDevice 0x23b0000023d 0x59390000593f (1375)%Z 0x0 (-1)%Z 0x6db000006dd;
  mkDevice 0x23f00000249 0x595200005957 (1376)%Z 0x0 (-1)%Z 0x6dd000006e0;
  mkDevice 0x23b0000023d 0x59570000595c (-1)%Z 0x595c00005969 (1760)%Z 0x0;
  mkDevice 0x23f00000249 0x596f00005978 (1380)%Z 0x0 (-1)%Z 0x6e1000006e3;
  mkDevice 0x23f00000249 0x59990000599f (1381)%Z 0x0 (-1)%Z 0x6e3000006e5;
  mkDevice 0x23f00000249 0x59a4000059aa (1384)%Z 0x0 (-1)%Z 0x6e500000707;
  mkDevice 0x23b0000023d 0x5b7f00005b89 (-1)%Z 0x5b7f00005b89 (-1)%Z 0x70700000708;
  mkDevice 0x23f00000249 0x5b8900005b91 (-1)%Z 0x5b9100005b96 (-1)%Z 0x70800000709;
  mkDevice 0x23f00000249 0x5ba600005bac (1398)%Z 0x0 (-1)%Z 0x70900000715;
  mkDevice 0x2a1000002a7 0x5c3e00005c47 (1410)%Z 0x0 (1813)%Z 0x0;
  mkDevice 0x23f00000249 0x5c4700005c4c (1411)%Z 0x0 (-1)%Z 0x71600000719;
  mkDevice 0x23f00000249 0x5c8600005c8a (1414)%Z 0x0 (-1)%Z 0x71900000721;
  mkDevice 0x23b0000023d 0x5cd100005cd7 (1421)%Z 0x0 (1825)%Z 0x0;
  mkDevice 0x2a1000002a7 0x5cd700005cdd (1422)%Z 0x0 (-1)%Z 0x72200000724;
  mkDevice 0x23f00000249 0x5ce800005cf1 (1425)%Z 0x0 (-1)%Z 0x72400000728;
  mkDevice 0x23b0000023d 0x5d3400005d3a (1426)%Z 0x0 (-1)%Z 0x72800000729;
  mkDevice 0x23f00000249 0x5d3a00005d3e (-1)%Z 0x5d3e00005d43 (-1)%Z 0x7290000072b;
  mkDevice 0x23f00000249 0x5d4d00005d52 (1429)%Z 0x0 (-1)%Z 0x72b00000738;
  mkDevice 0x2a1000002a7 0x5df500005df9 (1431)%Z 0x0 (-1)%Z 0x7380000073c;
  mkDevice 0x23b0000023d 0x5e1300005e19 (1436)%Z 0x0 (1852)%Z 0x0;
  mkDevice 0x2a1000002a7 0x5e1e00005e24 (1437)%Z 0x0 (1853)%Z 0x0;
  mkDevice 0x23f00000249 0x5e2400005e2d (1438)%Z 0x0 (-1)%Z 0x73e00000743;
  mkDevice 0x23f00000249 0x5e5f00005e62 (1444)%Z 0x0 (1859)%Z 0x0;
  mkDevice 0x23f00000249 0x5e6200005e68 (1445)%Z 0x0 (-1)%Z 0x74400000745;
  mkDevice 0x23f00000249 0x5e6800005e72 (1447)%Z 0x0 (-1)%Z 0x74500000748;
  mkDevice 0x23f00000249 0x5e7f00005e82 (1451)%Z 0x0 (-1)%Z 0x7480000074a;
  mkDevice 0x2a1000002a7 0x5e9c00005ea5 (1452)%Z 0x0 (1866)%Z 0x0;
  mkDevice 0x2a1000002a7 0x5ea500005ead (1453)%Z 0x0 (-1)%Z 0x74b0000074c;
  mkDevice 0x2a1000002a7 0x5ebc00005ec3 (1454)%Z 0x0 (1868)%Z 0x0;
  mkDevice 0x23b0000023d 0x5ec300005ec9 (-1)%Z 0x5ec300005ec9 (-1)%Z 0x74d0000074e;
  mkDevice 0x23f00000249 0x5ed200005ed6 (1456)%Z 0x0 (-1)%Z 0x74e00000757;
  mkDevice 0x2a1000002a7 0x5f3000005f36 (1464)%Z 0x0 (-1)%Z 0x75700000758;
  mkDevice 0x8e00000099 0x5f4a00005f52 (1465)%Z 0x0 (1880)%Z 0x0;
  mkDevice 0x23f00000249 0x5f5f00005f64 (1466)%Z 0x0 (-1)%Z 0x75900000785;
  mkDevice 0x23f00000249 0x61bb000061be (1490)%Z 0x0 (1925)%Z 0x0;
  mkDevice 0x23b0000023d 0x61c5000061c9 (1491)%Z 0x0 (1926)%Z 0x0;
  mkDevice 0x23f00000249 0x61c9000061cb (1492)%Z 0x0 (-1)%Z 0x78700000788;
  mkDevice 0x23b0000023d 0x61d1000061d7 (1493)%Z 0x0 (-1)%Z 0x78800000789;
  mkDevice 0x23f00000249 0x61e7000061ee (1494)%Z 0x0 (-1)%Z 0x7890000078c;
  mkDevice 0x2a1000002a7 0x61fb00006202 (1497)%Z 0x0 (-1)%Z 0x78c0000078d;
  mkDevice 0x23b0000023d 0x62020000620f (1499)%Z 0x0 (1933)%Z 0x0;
  mkDevice 0x23b0000023d 0x62170000621d (-1)%Z 0x621d00006227 (-1)%Z 0x78e0000078f;
  mkDevice 0x2a1000002a7 0x622d00006234 (1501)%Z 0x0 (1935)%Z 0x0;
  mkDevice 0x39a000003a7 0x62340000623b (1502)%Z 0x0 (1936)%Z 0x0;
  mkDevice 0x2a1000002a7 0x623b00006242 (1503)%Z 0x0 (1937)%Z 0x0;
  mkDevice 0x23f00000249 0x62420000624f (-1)%Z 0x624f0000625f (1938)%Z 0x0;
  mkDevice 0x2a1000002a7 0x626a00006273 (1504)%Z 0x0 (-1)%Z 0x79300000796;
  mkDevice 0x23f00000249 0x628d00006292 (1507)%Z 0x0 (-1)%Z 0x79600000799;
  mkDevice 0x23f00000249 0x62c4000062ca (1511)%Z 0x0 (-1)%Z 0x799000007a1;
  mkDevice 0x2a1000002a7 0x63170000631a (1518)%Z 0x0 (-1)%Z 0x7a1000007ab;
  mkDevice 0x23f00000249 0x634200006348 (1525)%Z 0x0 (-1)%Z 0x7ab000007b5;
  mkDevice 0x2a1000002a7 0x63fe00006404 (1532)%Z 0x0 (-1)%Z 0x7b5000007bc;
  mkDevice 0x23b0000023d 0x646200006468 (1535)%Z 0x0 (-1)%Z 0x0;
  mkDevice 0x23f00000249 0x64680000646e (1536)%Z 0x0 (-1)%Z 0x7bc000007c8;
  mkDevice 0x23f00000249 0x64b8000064be (1546)%Z 0x0 (-1)%Z 0x7c8000007cc;
  mkDevice 0x23f00000249 0x64dd000064e7 (1550)%Z 0x0 (-1)%Z 0x7cc000007cf;
  mkDevice 0x23f00000249 0x650f00006517 (1552)%Z 0x0 (-1)%Z 0x7cf000007d2;
  mkDevice 0x23f00000249 0x652c00006535 (1556)%Z 0x0 (-1)%Z 0x7d2000007d5;
  mkDevice 0x23f00000249 0x654e00006555 (1558)%Z 0x0 (-1)%Z 0x7d5000007db;
  mkDevice 0x23f00000249 0x656000006568 (1565)%Z 0x0 (-1)%Z 0x7db000007dc;
  mkDevice 0x23f00000249 0x656800006571 (1567)%Z 0x0 (-1)%Z 0x7dc000007e2;
  mkDevice 0x23f00000249 0x658f0000659c (1572)%Z 0x0 (-1)%Z 0x7e20000081a;
  mkDevice 0x23f00000249 0x68da000068e6 (1603)%Z 0x0 (-1)%Z 0x81a0000082c;
  mkDevice 0x2a1000002a7 0x6a3e00006a48 (1606)%Z 0x0 (-1)%Z 0x82c0000082d;
  mkDevice 0x23f00000249 0x6a5200006a5e (1608)%Z 0x0 (-1)%Z 0x82d00000832;
  mkDevice 0x23f00000249 0x6a7f00006a8c (1610)%Z 0x0 (-1)%Z 0x8320000083b;
  mkDevice 0x2a1000002a7 0x6b4800006b4d (1611)%Z 0x0 (-1)%Z 0x83b00000856;
  mkDevice 0x23f00000249 0x6c1700006c20 (1638)%Z 0x0 (2134)%Z 0x0;
  mkDevice 0x23f00000249 0x6c2000006c28 (1639)%Z 0x0 (2135)%Z 0x0;
  mkDevice 0x23f00000249 0x6c2800006c30 (1640)%Z 0x0 (-1)%Z 0x8580000085b;
  mkDevice 0x23f00000249 0x6c3b00006c42 (1644)%Z 0x0 (-1)%Z 0x85b0000085f;
  mkDevice 0x23f00000249 0x6c6700006c71 (-1)%Z 0x6c6700006c71 (-1)%Z 0x85f00000860;
  mkDevice 0x2a1000002a7 0x6c7100006c7b (1647)%Z 0x0 (-1)%Z 0x86000000866;
  mkDevice 0x23f00000249 0x6cd600006ce2 (1651)%Z 0x0 (-1)%Z 0x86600000869;
  mkDevice 0x23f00000249 0x6d0200006d0b (1654)%Z 0x0 (-1)%Z 0x8690000087c;
  mkDevice 0x23f00000249 0x6df500006dfa (1670)%Z 0x0 (-1)%Z 0x87c00000883;
  mkDevice 0x2a1000002a7 0x6e3f00006e48 (1678)%Z 0x0 (2179)%Z 0x0;
  mkDevice 0x2a1000002a7 0x6e4800006e4b (-1)%Z 0x6e4b00006e4f (-1)%Z 0x88400000885;
  mkDevice 0x23f00000249 0x6e5a00006e60 (1680)%Z 0x0 (-1)%Z 0x88500000888;
  mkDevice 0x2a1000002a7 0x6e7200006e7c (1684)%Z 0x0 (2184)%Z 0x0;
  mkDevice 0x23b0000023d 0x6e7c00006e82 (1685)%Z 0x0 (-1)%Z 0x8890000088a;
  mkDevice 0x23f00000249 0x6e9c00006ea2 (1686)%Z 0x0 (-1)%Z 0x88a00000891;
  mkDevice 0x23f00000249 0x6ed200006ee0 (1694)%Z 0x0 (-1)%Z 0x891000008ab;
  mkDevice 0x23f00000249 0x6fde00006fe3 (1712)%Z 0x0 (-1)%Z 0x8ab000008af;
  mkDevice 0x23b0000023d 0x70040000700d (1714)%Z 0x0 (2223)%Z 0x0;
  mkDevice 0x39a000003a7 0x70140000701a (1715)%Z 0x0 (2224)%Z 0x0;
  mkDevice 0x2a1000002a7 0x701a00007020 (1716)%Z 0x0 (-1)%Z 0x8b1000008b4;
  mkDevice 0x23f00000249 0x703800007040 (1719)%Z 0x0 (-1)%Z 0x8b4000008b8;
  mkDevice 0x2a1000002a7 0x704a00007053 (1724)%Z 0x0 (2232)%Z 0x0;
  mkDevice 0x23f00000249 0x70530000705a (1725)%Z 0x0 (-1)%Z 0x8b9000008bf;
  mkDevice 0x23f00000249 0x70b7000070bd (1728)%Z 0x0 (-1)%Z 0x8bf00000901;
  mkDevice 0x23f00000249 0x734700007350 (1778)%Z 0x0 (2305)%Z 0x0;
  mkDevice 0x2a1000002a7 0x735e00007364 (1779)%Z 0x0 (-1)%Z 0x90200000904;
  mkDevice 0x23f00000249 0x73830000738b (1781)%Z 0x0 (-1)%Z 0x90400000906;
  mkDevice 0x2a1000002a7 0x739b000073a2 (1783)%Z 0x0 (-1)%Z 0x90600000911;
  mkDevice 0x23f00000249 0x742e00007435 (1795)%Z 0x0 (-1)%Z 0x91100000943;
  mkDevice 0x2a1000002a7 0x75940000759b (1839)%Z 0x0 (2371)%Z 0x0;
  mkDevice 0x23f00000249 0x759b000075a2 (-1)%Z 0x759b000075a2 (-1)%Z 0x94400000946;
  mkDevice 0x23f00000249 0x75c0000075c5 (1841)%Z 0x0 (2374)%Z 0x0;
  mkDevice 0x23f00000249 0x75c5000075cd (1842)%Z 0x0 (-1)%Z 0x9470000094a;
  mkDevice 0x62600000633 0x75ec000075f4 (-1)%Z 0x75ec000075f4 (-1)%Z 0x0;
  mkDevice 0x23f00000249 0x75f4000075fb (1844)%Z 0x0 (-1)%Z 0x94a00000963;
  mkDevice 0x2a1000002a7 0x775400007759 (1848)%Z 0x0 (2403)%Z 0x0;
  mkDevice 0x23f00000249 0x775d00007766 (1849)%Z 0x0 (-1)%Z 0x96400000970;
  mkDevice 0x2a1000002a7 0x77e8000077ed (1860)%Z 0x0 (-1)%Z 0x97000000972;
  mkDevice 0x2a1000002a7 0x78040000780b (1862)%Z 0x0 (-1)%Z 0x97200000973;
  mkDevice 0x2a1000002a7 0x47b8000047bc (1863)%Z 0x0 (-1)%Z 0x97300000989;
  mkDevice 0x23f00000249 0x78ea000078ef (-1)%Z 0x78ef000078f4 (-1)%Z 0x9890000098b;
  mkDevice 0x2a1000002a7 0x790a00007912 (1880)%Z 0x0 (-1)%Z 0x98b0000098c;
  mkDevice 0x23f00000249 0x791200007917 (1882)%Z 0x0 (-1)%Z 0x98c00000990;
  mkDevice 0x2a1000002a7 0x79240000792a (1887)%Z 0x0 (2448)%Z 0x0;
  mkDevice 0x23f00000249 0x792a00007930 (1888)%Z 0x0 (-1)%Z 0x99100000994;
  mkDevice 0x23f00000249 0x794500007949 (1891)%Z 0x0 (2452)%Z 0x0;
  mkDevice 0x23b0000023d 0x794900007950 (1892)%Z 0x0 (2453)%Z 0x0;
  mkDevice 0xc9b00000ca2 0x795000007953 (1893)%Z 0x0 (2454)%Z 0x0;
  mkDevice 0x23f00000249 0x795c00007960 (1894)%Z 0x0 (-1)%Z 0x997000009b2;
  mkDevice 0x2a1000002a7 0x7a3500007a39 (1919)%Z 0x0 (2482)%Z 0x0;
  mkDevice 0x2a1000002a7 0x7a3900007a3b (1920)%Z 0x0 (-1)%Z 0x9b3000009b7;
  mkDevice 0x23f00000249 0x7a7400007a79 (1922)%Z 0x0 (-1)%Z 0x9b7000009b9;
  mkDevice 0x2a1000002a7 0x7a8c00007a91 (1925)%Z 0x0 (2489)%Z 0x0;
  mkDevice 0x2a1000002a7 0x7a9900007aa0 (1926)%Z 0x0 (-1)%Z 0x9ba000009bc;
  mkDevice 0x23b0000023d 0x7aa400007aac (1929)%Z 0x0 (2492)%Z 0x0;
  mkDevice 0x23f00000249 0x7aac00007ab3 (1930)%Z 0x0 (-1)%Z 0x9bd000009c0;
  mkDevice 0x2a1000002a7 0x7ac300007ac7 (1933)%Z 0x0 (2496)%Z 0x0;
  mkDevice 0x23f00000249 0x7ac700007ad0 (1934)%Z 0x0 (2497)%Z 0x0;
  mkDevice 0x23f00000249 0x7ad000007ad4 (1935)%Z 0x0 (-1)%Z 0x9c2000009c7;
  mkDevice 0x23f00000249 0x7b1a00007b1f (1939)%Z 0x0 (-1)%Z 0x9c7000009cd;
  mkDevice 0x23f00000249 0x7b5500007b57 (1943)%Z 0x0 (-1)%Z 0x9cd000009d2;
  mkDevice 0x2a1000002a7 0x7ba200007ba7 (1947)%Z 0x0 (-1)%Z 0x9d2000009d3;
  mkDevice 0x23f00000249 0x7ba700007baa (1949)%Z 0x0 (-1)%Z 0x9d3000009d8;
  mkDevice 0x23f00000249 0x7bc900007bd0 (1955)%Z 0x0 (2520)%Z 0x0;
  mkDevice 0x23f00000249 0x7bd000007bd3 (1956)%Z 0x0 (-1)%Z 0x9d9000009db;
  mkDevice 0x23b0000023d 0x7bdf00007be5 (1958)%Z 0x0 (2523)%Z 0x0;
  mkDevice 0x23b0000023d 0x7be500007bee (1959)%Z 0x0 (2524)%Z 0x0;
  mkDevice 0x23f00000249 0x7bee00007bf2 (1960)%Z 0x0 (2525)%Z 0x0;
  mkDevice 0x8e00000099 0x7bf200007bfb (1961)%Z 0x0 (2526)%Z 0x0;
  mkDevice 0x23f00000249 0x7c0100007c0d (1962)%Z 0x0 (-1)%Z 0x9df000009e1;
  mkDevice 0x2a1000002a7 0x7c0d00007c13 (1965)%Z 0x0 (-1)%Z 0x9e1000009e4;
  mkDevice 0x23f00000249 0x7c1d00007c22 (1969)%Z 0x0 (-1)%Z 0x9e4000009e8;
  mkDevice 0x23b0000023d 0x7c5300007c5c (-1)%Z 0x7c5300007c5c (-1)%Z 0x9e8000009e9;
  mkDevice 0x2a1000002a7 0x7c6200007c66 (1973)%Z 0x0 (-1)%Z 0x9e9000009ec;
  mkDevice 0x23f00000249 0x7ca200007ca7 (1975)%Z 0x0 (2540)%Z 0x0;
  mkDevice 0x23f00000249 0x7ca700007cb0 (1976)%Z 0x0 (2541)%Z 0x0;
  mkDevice 0x2a1000002a7 0x7cb800007cc0 (1977)%Z 0x0 (2542)%Z 0x0;
  mkDevice 0x23f00000249 0x7cc000007cc6 (-1)%Z 0x7cc600007ccc (-1)%Z 0x9ef000009f1;
  mkDevice 0x23f00000249 0x7ccc00007cd4 (1980)%Z 0x0 (-1)%Z 0x9f1000009f3;
  mkDevice 0x23f00000249 0x7cf800007cfe (-1)%Z 0x7cfe00007d04 (-1)%Z 0x9f3000009f5;
  mkDevice 0x23b0000023d 0x7d2600007d2e (1982)%Z 0x0 (-1)%Z 0x9f5000009f6;
  mkDevice 0x23f00000249 0x7d4400007d4b (-1)%Z 0x7d4b00007d52 (2550)%Z 0x0;
  mkDevice 0x39a000003a7 0x7d5a00007d5f (1983)%Z 0x0 (2551)%Z 0x0;
  mkDevice 0x23f00000249 0x7d5f00007d64 (1984)%Z 0x0 (-1)%Z 0x9f800000a01;
  mkDevice 0x23f00000249 0x7dbe00007dc4 (1990)%Z 0x0 (2561)%Z 0x0;
  mkDevice 0x23f00000249 0x7dc400007dc8 (1991)%Z 0x0 (-1)%Z 0xa0200000a0f;
  mkDevice 0x2a1000002a7 0x7e0300007e09 (2004)%Z 0x0 (2575)%Z 0x0;
  mkDevice 0x23b0000023d 0x7e1100007e16 (-1)%Z 0x7e1600007e1e (2576)%Z 0x0;
  mkDevice 0x2a1000002a7 0x7e1e00007e24 (2005)%Z 0x0 (-1)%Z 0xa1100000a15;
  mkDevice 0x23f00000249 0x7e3000007e35 (-1)%Z 0x7e3000007e35 (-1)%Z 0xa1500000a17;
  mkDevice 0x23f00000249 0x7e3500007e3b (2012)%Z 0x0 (-1)%Z 0xa1700000a19;
  mkDevice 0x39a000003a7 0x7e3b00007e40 (2015)%Z 0x0 (2585)%Z 0x0;
  mkDevice 0x23f00000249 0x7e4000007e44 (2016)%Z 0x0 (2586)%Z 0x0;
  mkDevice 0x23f00000249 0x7e4400007e4b (2017)%Z 0x0 (-1)%Z 0xa1b00000a21;
  mkDevice 0x23f00000249 0x7e8300007e8d (2021)%Z 0x0 (-1)%Z 0xa2100000a22;
  mkDevice 0x23b0000023d 0x7e8d00007e95 (2023)%Z 0x0 (-1)%Z 0x0;
  mkDevice 0x2a1000002a7 0x7e9500007e9d (2024)%Z 0x0 (-1)%Z 0xa2200000a26;
  mkDevice 0x23f00000249 0x7ea400007ea9 (2028)%Z 0x0 (-1)%Z 0xa2600000a31;
  mkDevice 0x23f00000249 0x7f4200007f47 (2040)%Z 0x0 (-1)%Z 0xa3100000a8b;
  mkDevice 0x23b0000023d 0x84540000845c (-1)%Z 0x845c00008464 (-1)%Z 0xa8b00000a8c;
  mkDevice 0x2a1000002a7 0x846400008469 (2083)%Z 0x0 (2700)%Z 0x0;
  mkDevice 0x2a1000002a7 0x847100008477 (2084)%Z 0x0 (-1)%Z 0xa8d00000a8f;
  mkDevice 0x2a1000002a7 0x848900008490 (2086)%Z 0x0 (2703)%Z 0x0;
  mkDevice 0x2a1000002a7 0x849000008494 (2087)%Z 0x0 (2704)%Z 0x0;
  mkDevice 0x23b0000023d 0x84940000849c (-1)%Z 0x84940000849c (-1)%Z 0xa9100000a92;
  mkDevice 0x23b0000023d 0x84a6000084ad (2089)%Z 0x0 (-1)%Z 0xa9200000a96;
  mkDevice 0x39a000003a7 0x84d1000084d7 (2093)%Z 0x0 (-1)%Z 0xa9600000a9a;
  mkDevice 0x23b0000023d 0x84d7000084de (2098)%Z 0x0 (2714)%Z 0x0;
  mkDevice 0x23b0000023d 0x84de000084e5 (2099)%Z 0x0 (2715)%Z 0x0;
  mkDevice 0x23b0000023d 0x84e5000084eb (2100)%Z 0x0 (2716)%Z 0x0;
  mkDevice 0x23f00000249 0x84eb000084f1 (2101)%Z 0x0 (-1)%Z 0xa9d00000af8;
  mkDevice 0x23f00000249 0x88f4000088fa (2142)%Z 0x0 (2808)%Z 0x0;
  mkDevice 0x23f00000249 0x88fc00008900 (2143)%Z 0x0 (-1)%Z 0xaf900000afd;
  mkDevice 0x39a000003a7 0x891200008917 (2148)%Z 0x0 (2813)%Z 0x0;
  mkDevice 0x23f00000249 0x89170000891d (2149)%Z 0x0 (-1)%Z 0xafe00000b01;
  mkDevice 0x23b0000023d 0x89280000892c (2153)%Z 0x0 (2817)%Z 0x0
].
Definition d_dr_idx3_2 : list deviceTuple := [
  mkDevice 0x23f00000249 0x892c00008930 (2154)%Z 0x0 (-1)%Z 0xb0200000b07;
  mkDevice 0x2a1000002a7 0x893d00008949 (2160)%Z 0x0 (-1)%Z 0xb0700000b0b;
  mkDevice 0x23b0000023d 0x89760000897f (-1)%Z 0x897f00008988 (-1)%Z 0xb0b00000b0c;
  mkDevice 0x23f00000249 0x898800008991 (2163)%Z 0x0 (-1)%Z 0xb0c00000b0d;
  mkDevice 0x23b0000023d 0x8997000089a1 (2165)%Z 0x0 (2829)%Z 0x0;
  mkDevice 0x23f00000249 0x89a1000089a7 (2166)%Z 0x0 (2830)%Z 0x0;
  mkDevice 0x23f00000249 0x89a7000089ab (2167)%Z 0x0 (2831)%Z 0x0;
  mkDevice 0x23b0000023d 0x89b3000089ba (2168)%Z 0x0 (-1)%Z 0xb1000000b13;
  mkDevice 0x23b0000023d 0x89c1000089c6 (-1)%Z 0x89c6000089cb (2835)%Z 0x0;
  mkDevice 0x2a1000002a7 0x89cb000089d3 (2172)%Z 0x0 (2836)%Z 0x0;
  mkDevice 0x23f00000249 0x89d3000089d9 (2173)%Z 0x0 (2837)%Z 0x0;
  mkDevice 0x23b0000023d 0x89d9000089e1 (2174)%Z 0x0 (2838)%Z 0x0;
  mkDevice 0x23b0000023d 0x89f1000089f5 (2175)%Z 0x0 (-1)%Z 0xb1700000b18;
  mkDevice 0x23f00000249 0x8a0c00008a12 (2176)%Z 0x0 (-1)%Z 0xb1800000b1c;
  mkDevice 0x2a1000002a7 0x8a2800008a2f (2180)%Z 0x0 (-1)%Z 0xb1c00000b1e;
  mkDevice 0x23f00000249 0x8a4600008a4d (2183)%Z 0x0 (2846)%Z 0x0;
  mkDevice 0x23f00000249 0x8a5400008a59 (2184)%Z 0x0 (-1)%Z 0xb1f00000b23;
  mkDevice 0x2a1000002a7 0x8a6d00008a71 (2189)%Z 0x0 (2851)%Z 0x0;
  mkDevice 0x23f00000249 0x8a7100008a76 (-1)%Z 0x8a7100008a76 (-1)%Z 0xb2400000b26;
  mkDevice 0x23b0000023d 0x8a7600008a7a (2192)%Z 0x0 (2854)%Z 0x0;
  mkDevice 0x23f00000249 0x8a7a00008a7e (2193)%Z 0x0 (-1)%Z 0xb2700000b2a;
  mkDevice 0x2a1000002a7 0x8a8f00008a92 (2197)%Z 0x0 (-1)%Z 0xb2a00000b2e;
  mkDevice 0x23f00000249 0x8aa400008aa6 (2202)%Z 0x0 (-1)%Z 0xb2e00000b31;
  mkDevice 0x7cc000007d6 0x8aaa00008aad (2206)%Z 0x0 (2865)%Z 0x0;
  mkDevice 0x23f00000249 0x8aad00008ab0 (-1)%Z 0x8ab000008ab8 (-1)%Z 0xb3200000b33;
  mkDevice 0x2a1000002a7 0x8abd00008ac3 (2207)%Z 0x0 (2867)%Z 0x0;
  mkDevice 0x23f00000249 0x8ac300008ac6 (2208)%Z 0x0 (-1)%Z 0xb3400000b39;
  mkDevice 0x2a1000002a7 0x8aee00008af1 (2213)%Z 0x0 (-1)%Z 0xb3900000b3b;
  mkDevice 0x2b1e00002b26 0x8af600008afb (2216)%Z 0x0 (-1)%Z 0xb3b00000b3d;
  mkDevice 0x23b0000023d 0x8b2400008b2c (2217)%Z 0x0 (2877)%Z 0x0;
  mkDevice 0x2a1000002a7 0x8b2c00008b32 (2218)%Z 0x0 (2878)%Z 0x0;
  mkDevice 0x23f00000249 0x8b3200008b36 (2219)%Z 0x0 (-1)%Z 0xb3f00000b41;
  mkDevice 0x2a1000002a7 0x8b4100008b4e (2221)%Z 0x0 (2881)%Z 0x0;
  mkDevice 0x23b0000023d 0x8b5600008b5a (2222)%Z 0x0 (2882)%Z 0x0;
  mkDevice 0x23b0000023d 0x8b5f00008b66 (2223)%Z 0x0 (-1)%Z 0xb4300000b44;
  mkDevice 0x23b0000023d 0x8b6600008b6b (2225)%Z 0x0 (-1)%Z 0xb4400000b47;
  mkDevice 0x2a1000002a7 0x8b8f00008b93 (2228)%Z 0x0 (-1)%Z 0xb4700000b49;
  mkDevice 0x2a1000002a7 0x8bc100008bc7 (2229)%Z 0x0 (2889)%Z 0x0;
  mkDevice 0x2a1000002a7 0x8bc700008bca (2230)%Z 0x0 (-1)%Z 0xb4a00000b4c;
  mkDevice 0x23f00000249 0x8bd800008bdb (2233)%Z 0x0 (2892)%Z 0x0;
  mkDevice 0x23b0000023d 0x8bdb00008be0 (2234)%Z 0x0 (2893)%Z 0x0;
  mkDevice 0x2a1000002a7 0x8be000008be9 (2235)%Z 0x0 (2894)%Z 0x0;
  mkDevice 0x23f00000249 0x8be900008bf0 (2236)%Z 0x0 (-1)%Z 0xb4f00000b51;
  mkDevice 0x23f00000249 0x8bfa00008c06 (2239)%Z 0x0 (-1)%Z 0xb5100000b56;
  mkDevice 0x23b0000023d 0x8c4300008c4a (2243)%Z 0x0 (2902)%Z 0x0;
  mkDevice 0x23f00000249 0x8c4a00008c50 (2244)%Z 0x0 (2903)%Z 0x0;
  mkDevice 0x23b0000023d 0x8c5000008c58 (2245)%Z 0x0 (-1)%Z 0xb5800000b5a;
  mkDevice 0x23f00000249 0x8c5800008c5d (2248)%Z 0x0 (-1)%Z 0xb5a00000b5b;
  mkDevice 0x2a1000002a7 0x8c7500008c7d (2249)%Z 0x0 (2907)%Z 0x0;
  mkDevice 0x23f00000249 0x8c7d00008c89 (2250)%Z 0x0 (-1)%Z 0xb5c00000b5e;
  mkDevice 0x23f00000249 0x8c9800008c9f (2252)%Z 0x0 (2910)%Z 0x0;
  mkDevice 0x23f00000249 0x8caa00008cb5 (2253)%Z 0x0 (2911)%Z 0x0;
  mkDevice 0x23b0000023d 0x8cb500008cbb (2254)%Z 0x0 (-1)%Z 0xb6000000b64;
  mkDevice 0x23b0000023d 0x8d1100008d18 (2259)%Z 0x0 (2916)%Z 0x0;
  mkDevice 0x2a1000002a7 0x8d2900008d31 (2260)%Z 0x0 (-1)%Z 0xb6500000b67;
  mkDevice 0x23f00000249 0x8d3100008d39 (2263)%Z 0x0 (-1)%Z 0xb6700000b79;
  mkDevice 0x23f00000249 0x8d9200008d99 (2282)%Z 0x0 (-1)%Z 0xb7900000b7c;
  mkDevice 0x23b0000023d 0x8dac00008db2 (2286)%Z 0x0 (2940)%Z 0x0;
  mkDevice 0x23f00000249 0x8db200008dbe (2287)%Z 0x0 (2941)%Z 0x0;
  mkDevice 0x23b0000023d 0x8dbe00008dc3 (2288)%Z 0x0 (-1)%Z 0xb7e00000b81;
  mkDevice 0x2a1000002a7 0x8dd900008ddf (2292)%Z 0x0 (2945)%Z 0x0;
  mkDevice 0x23f00000249 0x8ddf00008de6 (2293)%Z 0x0 (-1)%Z 0xb8200000b85;
  mkDevice 0x23f00000249 0x8e0000008e09 (2295)%Z 0x0 (-1)%Z 0xb8500000b8e;
  mkDevice 0x23f00000249 0x8e6b00008e78 (2303)%Z 0x0 (-1)%Z 0xb8e00000b92;
  mkDevice 0x23b0000023d 0x8eae00008eb3 (2307)%Z 0x0 (2962)%Z 0x0;
  mkDevice 0x2a1000002a7 0x8eb300008eb7 (2308)%Z 0x0 (2963)%Z 0x0;
  mkDevice 0x2a1000002a7 0x8eb700008ebd (2309)%Z 0x0 (2964)%Z 0x0;
  mkDevice 0x2a1000002a7 0x8ec600008ecd (2310)%Z 0x0 (2965)%Z 0x0;
  mkDevice 0x23f00000249 0x8edb00008ee1 (2311)%Z 0x0 (-1)%Z 0xb9600000b98;
  mkDevice 0x2a1000002a7 0x8ef700008efb (2312)%Z 0x0 (2968)%Z 0x0;
  mkDevice 0x23f00000249 0x8efb00008f03 (2313)%Z 0x0 (-1)%Z 0xb9900000bb2;
  mkDevice 0x23b0000023d 0x902100009028 (2314)%Z 0x0 (2994)%Z 0x0;
  mkDevice 0x7cc000007d6 0x90280000902d (2315)%Z 0x0 (-1)%Z 0xbb300000bb5;
  mkDevice 0x23f00000249 0x90560000905d (2316)%Z 0x0 (2997)%Z 0x0;
  mkDevice 0x23f00000249 0x906100009065 (2317)%Z 0x0 (-1)%Z 0xbb600000bd6;
  mkDevice 0x39a000003a7 0x91e1000091e9 (2333)%Z 0x0 (-1)%Z 0xbd600000bd9;
  mkDevice 0x23b0000023d 0x91ed000091f4 (2337)%Z 0x0 (3033)%Z 0x0;
  mkDevice 0x23f00000249 0x91f4000091fd (2338)%Z 0x0 (-1)%Z 0xbda00000bdb;
  mkDevice 0x23f00000249 0x92010000920b (2339)%Z 0x0 (-1)%Z 0xbdb00000bdf;
  mkDevice 0x23f00000249 0x92280000922c (-1)%Z 0x92280000922c (-1)%Z 0xbdf00000be1;
  mkDevice 0x23f00000249 0x922c00009233 (2346)%Z 0x0 (-1)%Z 0xbe100000be3;
  mkDevice 0x23f00000249 0x923300009239 (2349)%Z 0x0 (3043)%Z 0x0;
  mkDevice 0x2a1000002a7 0x924000009248 (2350)%Z 0x0 (-1)%Z 0xbe400000be5;
  mkDevice 0x23f00000249 0x92750000927d (2351)%Z 0x0 (-1)%Z 0xbe500000be9;
  mkDevice 0x23f00000249 0x92960000929e (2355)%Z 0x0 (-1)%Z 0xbe900000bf2;
  mkDevice 0x2a1000002a7 0x92d5000092dc (2364)%Z 0x0 (-1)%Z 0xbf200000bf3;
  mkDevice 0x2a1000002a7 0x92e9000092ef (2366)%Z 0x0 (3059)%Z 0x0;
  mkDevice 0x23b0000023d 0x92f6000092fe (2367)%Z 0x0 (3060)%Z 0x0;
  mkDevice 0x2a1000002a7 0x92fe00009304 (2368)%Z 0x0 (3061)%Z 0x0;
  mkDevice 0x23f00000249 0x93040000930b (2369)%Z 0x0 (-1)%Z 0xbf600000bfe;
  mkDevice 0x23f00000249 0x935000009356 (2377)%Z 0x0 (-1)%Z 0xbfe00000c01;
  mkDevice 0x23f00000249 0x93770000937e (2379)%Z 0x0 (-1)%Z 0xc0100000c09;
  mkDevice 0x23f00000249 0x940c00009410 (2385)%Z 0x0 (3081)%Z 0x0;
  mkDevice 0x2a1000002a7 0x941000009419 (2386)%Z 0x0 (-1)%Z 0xc0a00000c10;
  mkDevice 0x23f00000249 0x94bb000094c3 (2387)%Z 0x0 (-1)%Z 0xc1000000c12;
  mkDevice 0x2a1000002a7 0x94d4000094db (2390)%Z 0x0 (3090)%Z 0x0;
  mkDevice 0x23f00000249 0x94e2000094e8 (2391)%Z 0x0 (3091)%Z 0x0;
  mkDevice 0x2a1000002a7 0x94e8000094ee (2392)%Z 0x0 (-1)%Z 0xc1400000c30;
  mkDevice 0x7cc000007d6 0x95cd000095d6 (2417)%Z 0x0 (3120)%Z 0x0;
  mkDevice 0x23f00000249 0x95e8000095ee (2418)%Z 0x0 (-1)%Z 0xc3100000c33;
  mkDevice 0x2a1000002a7 0x96070000960d (-1)%Z 0x960d00009619 (3123)%Z 0x0;
  mkDevice 0x39a000003a7 0x96260000962a (2420)%Z 0x0 (3124)%Z 0x0;
  mkDevice 0x39a000003a7 0x962a0000962e (2421)%Z 0x0 (-1)%Z 0xc3500000c37;
  mkDevice 0x23f00000249 0x963200009634 (2424)%Z 0x0 (-1)%Z 0xc3700000c3c;
  mkDevice 0x23f00000249 0x965c00009660 (2428)%Z 0x0 (-1)%Z 0xc3c00000c44;
  mkDevice 0x23f00000249 0x96930000969c (2433)%Z 0x0 (-1)%Z 0xc4400000c4b;
  mkDevice 0x2a1000002a7 0x970300009709 (2435)%Z 0x0 (3147)%Z 0x0;
  mkDevice 0x2a1000002a7 0x970900009716 (2436)%Z 0x0 (3148)%Z 0x0;
  mkDevice 0x23f00000249 0x971e00009723 (2437)%Z 0x0 (3149)%Z 0x0;
  mkDevice 0x23f00000249 0x973100009735 (-1)%Z 0x97350000973a (-1)%Z 0xc4e00000c4f;
  mkDevice 0x23f00000249 0x974300009749 (-1)%Z 0x974300009749 (-1)%Z 0xc4f00000c51;
  mkDevice 0x2a1000002a7 0x975c00009763 (2441)%Z 0x0 (3153)%Z 0x0;
  mkDevice 0x23f00000249 0x976300009766 (2442)%Z 0x0 (-1)%Z 0xc5200000c5c;
  mkDevice 0x23f00000249 0x980500009808 (2444)%Z 0x0 (-1)%Z 0xc5c00000c61;
  mkDevice 0x2a1000002a7 0x98370000983a (2445)%Z 0x0 (-1)%Z 0xc6100000c66;
  mkDevice 0x2a1000002a7 0x98840000988a (2449)%Z 0x0 (3174)%Z 0x0;
  mkDevice 0x23f00000249 0x988a0000988f (2450)%Z 0x0 (3175)%Z 0x0;
  mkDevice 0x23f00000249 0x988f00009894 (2451)%Z 0x0 (-1)%Z 0xc6800000c6a;
  mkDevice 0x23f00000249 0x989b000098a3 (2454)%Z 0x0 (-1)%Z 0xc6a00000c71;
  mkDevice 0x23f00000249 0x98c7000098ca (2458)%Z 0x0 (3185)%Z 0x0;
  mkDevice 0x2a1000002a7 0x98ca000098cf (-1)%Z 0x98cf000098dd (3186)%Z 0x0;
  mkDevice 0x2a1000002a7 0x98dd000098e6 (2459)%Z 0x0 (3187)%Z 0x0;
  mkDevice 0x23b0000023d 0x98e6000098ee (-1)%Z 0x98ee000098f6 (3188)%Z 0x0;
  mkDevice 0x2a1000002a7 0x98ff00009906 (2460)%Z 0x0 (-1)%Z 0xc7500000c78;
  mkDevice 0x2a1000002a7 0x991100009917 (2464)%Z 0x0 (3192)%Z 0x0;
  mkDevice 0x23f00000249 0x991e00009927 (2465)%Z 0x0 (3193)%Z 0x0;
  mkDevice 0x23f00000249 0x99270000992d (2466)%Z 0x0 (3194)%Z 0x0;
  mkDevice 0x23f00000249 0x992d00009933 (2467)%Z 0x0 (-1)%Z 0xc7b00000c80;
  mkDevice 0x23f00000249 0x99670000996d (2470)%Z 0x0 (3200)%Z 0x0;
  mkDevice 0x23f00000249 0x99720000997c (2471)%Z 0x0 (3201)%Z 0x0;
  mkDevice 0x2a1000002a7 0x997c00009984 (2472)%Z 0x0 (3202)%Z 0x0;
  mkDevice 0x2a1000002a7 0x99840000998d (2473)%Z 0x0 (3203)%Z 0x0;
  mkDevice 0x23b0000023d 0x998d00009993 (2474)%Z 0x0 (-1)%Z 0xc8400000c85;
  mkDevice 0x23f00000249 0x999300009997 (2476)%Z 0x0 (-1)%Z 0xc8500000c8c;
  mkDevice 0x23f00000249 0x99ee000099f2 (2479)%Z 0x0 (-1)%Z 0xc8c00000c99;
  mkDevice 0x23f00000249 0x9ac000009ac4 (2482)%Z 0x0 (-1)%Z 0xc9900000ca4;
  mkDevice 0x23f00000249 0x9b0f00009b16 (-1)%Z 0x9b0f00009b16 (-1)%Z 0xca400000ca5;
  mkDevice 0x23b0000023d 0x9b1600009b1c (-1)%Z 0x9b1600009b1c (-1)%Z 0xca500000ca6;
  mkDevice 0x23f00000249 0x9b2200009b2b (2492)%Z 0x0 (-1)%Z 0xca600000ca8;
  mkDevice 0x23b0000023d 0x9b2b00009b31 (-1)%Z 0x9b3100009b37 (-1)%Z 0xca800000ca9;
  mkDevice 0x23f00000249 0x9b3700009b45 (2496)%Z 0x0 (-1)%Z 0xca900000cc6;
  mkDevice 0x23b0000023d 0x9cb600009cbc (2525)%Z 0x0 (3270)%Z 0x0;
  mkDevice 0x23f00000249 0x9cbf00009cc3 (2526)%Z 0x0 (-1)%Z 0xcc700000cc9;
  mkDevice 0x23f00000249 0x9cd700009cda (2527)%Z 0x0 (-1)%Z 0xcc900000d39;
  mkDevice 0x23b0000023d 0xa13b0000a140 (-1)%Z 0xa1400000a146 (-1)%Z 0xd3900000d3a;
  mkDevice 0x23f00000249 0xa1460000a14b (2598)%Z 0x0 (-1)%Z 0xd3a00000d3d;
  mkDevice 0x23f00000249 0xa14b0000a150 (2602)%Z 0x0 (-1)%Z 0xd3d00000d3f;
  mkDevice 0x7cc000007d6 0xa1520000a15a (-1)%Z 0xa15a0000a15f (-1)%Z 0xd3f00000d40;
  mkDevice 0x23b0000023d 0xa15f0000a167 (2606)%Z 0x0 (-1)%Z 0xd4000000d42;
  mkDevice 0x23f00000249 0xa1720000a179 (2609)%Z 0x0 (-1)%Z 0xd4200000d43;
  mkDevice 0x23f00000249 0xa1830000a189 (2611)%Z 0x0 (3395)%Z 0x0;
  mkDevice 0x23f00000249 0xa1890000a194 (2612)%Z 0x0 (3396)%Z 0x0;
  mkDevice 0x23f00000249 0xa19b0000a1a6 (2613)%Z 0x0 (-1)%Z 0xd4500000d4b;
  mkDevice 0x23f00000249 0xa1e80000a1ee (2617)%Z 0x0 (-1)%Z 0xd4b00000d4c;
  mkDevice 0x23f00000249 0xa1fc0000a203 (2619)%Z 0x0 (-1)%Z 0xd4c00000d4d;
  mkDevice 0x23f00000249 0xa20e0000a213 (2621)%Z 0x0 (-1)%Z 0xd4d00000d4e;
  mkDevice 0x23f00000249 0xa2130000a21b (2623)%Z 0x0 (-1)%Z 0xd4e00000d52;
  mkDevice 0x23f00000249 0xa2430000a24a (2624)%Z 0x0 (-1)%Z 0xd5200000d68;
  mkDevice 0x2a1000002a7 0xa3710000a377 (2633)%Z 0x0 (3432)%Z 0x0;
  mkDevice 0x23b0000023d 0x5980000059d (2634)%Z 0x0 (-1)%Z 0xd6900000d6a;
  mkDevice 0x23f00000249 0xa3820000a389 (2635)%Z 0x0 (-1)%Z 0xd6a00000d9f;
  mkDevice 0x23b0000023d 0xa6b90000a6be (2687)%Z 0x0 (-1)%Z 0xd9f00000da1;
  mkDevice 0x2a1000002a7 0xa6cf0000a6d6 (2690)%Z 0x0 (-1)%Z 0xda100000da6;
  mkDevice 0x23f00000249 0xa6f60000a70e (2696)%Z 0x0 (3494)%Z 0x0;
  mkDevice 0x23f00000249 0xa70e0000a713 (2697)%Z 0x0 (3495)%Z 0x0;
  mkDevice 0x23b0000023d 0xa7190000a720 (-1)%Z 0xa7200000a727 (-1)%Z 0xda800000da9;
  mkDevice 0x23f00000249 0xa72f0000a735 (2698)%Z 0x0 (-1)%Z 0xda900000daa;
  mkDevice 0x2a1000002a7 0xa73e0000a743 (2699)%Z 0x0 (3498)%Z 0x0;
  mkDevice 0x23f00000249 0xa74d0000a753 (2700)%Z 0x0 (-1)%Z 0xdab00000db2;
  mkDevice 0x23f00000249 0xa7850000a78c (2704)%Z 0x0 (-1)%Z 0xdb200000db4;
  mkDevice 0x2a1000002a7 0xa79b0000a7a1 (2707)%Z 0x0 (3508)%Z 0x0;
  mkDevice 0x23f00000249 0xa7a10000a7a4 (2708)%Z 0x0 (3509)%Z 0x0;
  mkDevice 0x2a1000002a7 0xa7a40000a7aa (2709)%Z 0x0 (3510)%Z 0x0;
  mkDevice 0x2b1e00002b26 0xa7af0000a7b5 (2710)%Z 0x0 (3511)%Z 0x0;
  mkDevice 0x23f00000249 0xa7b50000a7ba (2711)%Z 0x0 (-1)%Z 0xdb800000dc8;
  mkDevice 0x2a1000002a7 0xa8ae0000a8b6 (2720)%Z 0x0 (3528)%Z 0x0;
  mkDevice 0x2a1000002a7 0xa8ba0000a8c0 (2721)%Z 0x0 (3529)%Z 0x0;
  mkDevice 0x23f00000249 0xa8c90000a8cc (2722)%Z 0x0 (-1)%Z 0xdca00000dd1;
  mkDevice 0x23f00000249 0xa9000000a908 (2726)%Z 0x0 (-1)%Z 0xdd100000de9;
  mkDevice 0x23f00000249 0xaa1e0000aa26 (2746)%Z 0x0 (-1)%Z 0xde900000dea;
  mkDevice 0x2a1000002a7 0xaa340000aa3b (2747)%Z 0x0 (-1)%Z 0xdea00000dec;
  mkDevice 0x23b0000023d 0xaa460000aa4a (2749)%Z 0x0 (3564)%Z 0x0;
  mkDevice 0x23b0000023d 0xaa4a0000aa51 (2750)%Z 0x0 (3565)%Z 0x0;
  mkDevice 0x2a1000002a7 0xaa510000aa54 (2751)%Z 0x0 (3566)%Z 0x0;
  mkDevice 0x23b0000023d 0xaa5e0000aa65 (2752)%Z 0x0 (-1)%Z 0xdef00000df1;
  mkDevice 0x23f00000249 0xaa650000aa6d (2755)%Z 0x0 (3569)%Z 0x0;
  mkDevice 0x23b0000023d 0xaa6d0000aa74 (2756)%Z 0x0 (3570)%Z 0x0;
  mkDevice 0x23b0000023d 0xaa740000aa86 (2757)%Z 0x0 (-1)%Z 0xdf300000df7;
  mkDevice 0x2a1000002a7 0xaac20000aac7 (2758)%Z 0x0 (3575)%Z 0x0;
  mkDevice 0x23f00000249 0xaac70000aad2 (2759)%Z 0x0 (-1)%Z 0xdf800000dfb;
  mkDevice 0x2a1000002a7 0xaadf0000aae6 (2763)%Z 0x0 (-1)%Z 0xdfb00000dfc;
  mkDevice 0x23b0000023d 0xaaf00000aaf5 (2765)%Z 0x0 (-1)%Z 0xdfc00000dff;
  mkDevice 0x23b0000023d 0xab110000ab16 (-1)%Z 0xab160000ab1e (3583)%Z 0x0;
  mkDevice 0x2a1000002a7 0xab1e0000ab24 (2767)%Z 0x0 (3584)%Z 0x0;
  mkDevice 0x23f00000249 0xab240000ab29 (2768)%Z 0x0 (3585)%Z 0x0;
  mkDevice 0x2a1000002a7 0xab290000ab34 (2769)%Z 0x0 (3586)%Z 0x0;
  mkDevice 0x2a1000002a7 0xab340000ab3a (2770)%Z 0x0 (3587)%Z 0x0;
  mkDevice 0x23f00000249 0xab3a0000ab48 (2771)%Z 0x0 (-1)%Z 0xe0400000e24;
  mkDevice 0x2a1000002a7 0xacaf0000acb6 (2779)%Z 0x0 (3620)%Z 0x0;
  mkDevice 0x23b0000023d 0xacb60000acc4 (2780)%Z 0x0 (3621)%Z 0x0
].
Definition d_dr_idx3_3 : list deviceTuple := [
  mkDevice 0x39a000003a7 0xacc40000accd (2781)%Z 0x0 (-1)%Z 0xe2600000e28;
  mkDevice 0x23f00000249 0xacd10000acd7 (2784)%Z 0x0 (-1)%Z 0xe2800000e2b;
  mkDevice 0x23b0000023d 0xace00000ace6 (2787)%Z 0x0 (3627)%Z 0x0;
  mkDevice 0x23f00000249 0xace60000aced (2788)%Z 0x0 (3628)%Z 0x0;
  mkDevice 0x39a000003a7 0xaced0000acf2 (2789)%Z 0x0 (3629)%Z 0x0;
  mkDevice 0x2a1000002a7 0xacf20000acf6 (2790)%Z 0x0 (-1)%Z 0xe2e00000e44;
  mkDevice 0x23f00000249 0xae270000ae2c (2797)%Z 0x0 (3652)%Z 0x0;
  mkDevice 0x2a1000002a7 0xae2c0000ae31 (2798)%Z 0x0 (-1)%Z 0xe4500000e46;
  mkDevice 0x23f00000249 0xae340000ae3c (2800)%Z 0x0 (-1)%Z 0xe4600000e4b;
  mkDevice 0x23f00000249 0xae6a0000ae71 (2804)%Z 0x0 (-1)%Z 0xe4b00000e5c;
  mkDevice 0x23f00000249 0xaf270000af2b (2811)%Z 0x0 (-1)%Z 0xe5c00000e61;
  mkDevice 0x23f00000249 0xaf3d0000af43 (2816)%Z 0x0 (-1)%Z 0xe6100000e65;
  mkDevice 0x23f00000249 0xaf4e0000af54 (2821)%Z 0x0 (-1)%Z 0xe6500000e86;
  mkDevice 0x2a1000002a7 0xb0490000b052 (2840)%Z 0x0 (3718)%Z 0x0;
  mkDevice 0x2a1000002a7 0xb0590000b05f (2841)%Z 0x0 (-1)%Z 0xe8700000e8a;
  mkDevice 0x23b0000023d 0xb0680000b070 (2845)%Z 0x0 (3722)%Z 0x0;
  mkDevice 0x23f00000249 0xb0700000b078 (2846)%Z 0x0 (3723)%Z 0x0;
  mkDevice 0x23f00000249 0xb07c0000b084 (2847)%Z 0x0 (-1)%Z 0xe8c00000e8e;
  mkDevice 0x2a1000002a7 0xb0a20000b0ac (-1)%Z 0xb0ac0000b0b2 (-1)%Z 0x0;
  mkDevice 0x23f00000249 0xb0b20000b0ba (2848)%Z 0x0 (-1)%Z 0xe8e00000e93;
  mkDevice 0x2b1e00002b26 0xb1040000b10b (-1)%Z 0xb10b0000b117 (3731)%Z 0x0;
  mkDevice 0x23f00000249 0xb1190000b123 (2850)%Z 0x0 (-1)%Z 0xe9400000e98;
  mkDevice 0x2a1000002a7 0xb15f0000b169 (2851)%Z 0x0 (-1)%Z 0xe9800000e9d;
  mkDevice 0x23b0000023d 0xb1a10000b1a9 (2854)%Z 0x0 (3741)%Z 0x0;
  mkDevice 0x23f00000249 0xb1a90000b1ad (2855)%Z 0x0 (-1)%Z 0xe9e00000ea0;
  mkDevice 0x23f00000249 0xb1ad0000b1b1 (2858)%Z 0x0 (-1)%Z 0xea000000eab;
  mkDevice 0x23f00000249 0xb1c90000b1cf (2870)%Z 0x0 (-1)%Z 0xeab00000ee4;
  mkDevice 0x23f00000249 0xb40e0000b416 (2904)%Z 0x0 (-1)%Z 0xee400000eec;
  mkDevice 0x23f00000249 0xb43a0000b441 (2913)%Z 0x0 (-1)%Z 0xeec00000eee;
  mkDevice 0x23f00000249 0xb4410000b446 (2915)%Z 0x0 (-1)%Z 0xeee00000ef3;
  mkDevice 0x39a000003a7 0xb4690000b472 (-1)%Z 0xb4720000b47b (-1)%Z 0xef300000ef5;
  mkDevice 0x23b0000023d 0xb47b0000b481 (2920)%Z 0x0 (-1)%Z 0x0;
  mkDevice 0x23f00000249 0xb4810000b486 (2921)%Z 0x0 (3829)%Z 0x0;
  mkDevice 0x2a1000002a7 0xb48d0000b497 (2922)%Z 0x0 (-1)%Z 0xef600000ef8;
  mkDevice 0x23f00000249 0xb49c0000b4a0 (2925)%Z 0x0 (-1)%Z 0xef800000efb;
  mkDevice 0x2a1000002a7 0xb4bc0000b4c6 (2927)%Z 0x0 (-1)%Z 0xefb00000efd;
  mkDevice 0x23f00000249 0xb4d80000b4e4 (2930)%Z 0x0 (-1)%Z 0xefd00000efe;
  mkDevice 0x23f00000249 0xb4f10000b4f9 (2931)%Z 0x0 (-1)%Z 0xefe00000eff;
  mkDevice 0x23f00000249 0xb5050000b50b (2933)%Z 0x0 (-1)%Z 0xeff00000f01;
  mkDevice 0x23f00000249 0xb5200000b526 (2935)%Z 0x0 (-1)%Z 0xf0100000f03;
  mkDevice 0x2a1000002a7 0xb5260000b530 (2938)%Z 0x0 (3843)%Z 0x0;
  mkDevice 0x23b0000023d 0xb5300000b537 (2939)%Z 0x0 (-1)%Z 0xf0400000f0b;
  mkDevice 0x23b0000023d 0xb5830000b58c (2944)%Z 0x0 (3851)%Z 0x0;
  mkDevice 0x23f00000249 0xb58c0000b590 (2945)%Z 0x0 (-1)%Z 0xf0c00000f12;
  mkDevice 0x23f00000249 0xb5d70000b5df (2951)%Z 0x0 (3858)%Z 0x0;
  mkDevice 0x23b0000023d 0xb5df0000b5e2 (2952)%Z 0x0 (-1)%Z 0xf1300000f1a;
  mkDevice 0x2a1000002a7 0xb6020000b608 (2960)%Z 0x0 (3866)%Z 0x0;
  mkDevice 0x2a1000002a7 0xb6080000b60d (2961)%Z 0x0 (3867)%Z 0x0;
  mkDevice 0x7cc000007d6 0xb60d0000b612 (-1)%Z 0xb60d0000b612 (-1)%Z 0xf1c00000f1d;
  mkDevice 0x2a1000002a7 0xb6240000b627 (2962)%Z 0x0 (-1)%Z 0xf1d00000f1e;
  mkDevice 0x23b0000023d 0xb6350000b638 (-1)%Z 0xb6380000b649 (3870)%Z 0x0;
  mkDevice 0x23f00000249 0xb6520000b656 (2963)%Z 0x0 (-1)%Z 0xf1f00000f20;
  mkDevice 0x23b0000023d 0xb65c0000b661 (2965)%Z 0x0 (-1)%Z 0xf2000000f24;
  mkDevice 0x23b0000023d 0xb68e0000b691 (-1)%Z 0xb6910000b695 (-1)%Z 0xf2400000f25;
  mkDevice 0x23b0000023d 0xb6a30000b6a8 (2970)%Z 0x0 (-1)%Z 0x0;
  mkDevice 0x23f00000249 0xb6a80000b6ab (2971)%Z 0x0 (-1)%Z 0xf2500000f2f;
  mkDevice 0x23b0000023d 0xb6f90000b702 (2973)%Z 0x0 (3887)%Z 0x0;
  mkDevice 0x2a1000002a7 0xb70c0000b711 (2974)%Z 0x0 (-1)%Z 0xf3000000f31;
  mkDevice 0x2a1000002a7 0xb7210000b729 (2975)%Z 0x0 (3889)%Z 0x0;
  mkDevice 0x2a1000002a7 0xb7290000b731 (-1)%Z 0xb7290000b731 (-1)%Z 0xf3200000f33;
  mkDevice 0x23f00000249 0xb7400000b742 (2977)%Z 0x0 (-1)%Z 0xf3300000f48;
  mkDevice 0x23f00000249 0xb8450000b848 (2989)%Z 0x0 (-1)%Z 0xf4800000fa5;
  mkDevice 0x23f00000249 0xbb7d0000bb83 (3074)%Z 0x0 (-1)%Z 0xfa500000fa7;
  mkDevice 0x23f00000249 0xbb870000bb8c (3077)%Z 0x0 (-1)%Z 0xfa700000fc4;
  mkDevice 0x23f00000249 0xbca90000bcaf (-1)%Z 0xbca90000bcaf (-1)%Z 0xfc400000fc5;
  mkDevice 0x23f00000249 0xbcb70000bcbc (3092)%Z 0x0 (4037)%Z 0x0;
  mkDevice 0x2a1000002a7 0xbcbc0000bcc2 (3093)%Z 0x0 (-1)%Z 0xfc600000fc7;
  mkDevice 0x23f00000249 0xbcce0000bcd4 (3095)%Z 0x0 (-1)%Z 0xfc700000fdb;
  mkDevice 0x2a1000002a7 0xbdb60000bdbe (3112)%Z 0x0 (-1)%Z 0xfdb00000fdd;
  mkDevice 0x2a1000002a7 0xbdbe0000bdc7 (3115)%Z 0x0 (-1)%Z 0xfdd00000fe4;
  mkDevice 0x2a1000002a7 0xbdfd0000be03 (3118)%Z 0x0 (4068)%Z 0x0;
  mkDevice 0x7cc000007d6 0xbe030000be0d (3119)%Z 0x0 (4069)%Z 0x0;
  mkDevice 0x23b0000023d 0xbe160000be1c (3120)%Z 0x0 (-1)%Z 0xfe600000fe8;
  mkDevice 0x23b0000023d 0xbe1c0000be23 (3123)%Z 0x0 (-1)%Z 0xfe800000feb;
  mkDevice 0x23f00000249 0xbe530000be58 (-1)%Z 0xbe530000be58 (-1)%Z 0xfeb00000fed;
  mkDevice 0x23b0000023d 0xbe580000be5f (3128)%Z 0x0 (4077)%Z 0x0;
  mkDevice 0x2a1000002a7 0xbe5f0000be67 (3129)%Z 0x0 (-1)%Z 0xfee00000ff2;
  mkDevice 0x23b0000023d 0xbe7d0000be83 (3134)%Z 0x0 (4082)%Z 0x0;
  mkDevice 0x23f00000249 0xbe830000be88 (3135)%Z 0x0 (4083)%Z 0x0;
  mkDevice 0x2a1000002a7 0xbe880000be90 (3136)%Z 0x0 (4084)%Z 0x0;
  mkDevice 0x23f00000249 0xbe9c0000bea4 (3137)%Z 0x0 (4085)%Z 0x0;
  mkDevice 0x2a1000002a7 0xbea60000beac (3138)%Z 0x0 (4086)%Z 0x0;
  mkDevice 0x23f00000249 0xbeac0000beae (3139)%Z 0x0 (-1)%Z 0xff700000fff;
  mkDevice 0x23f00000249 0xbee70000beee (3147)%Z 0x0 (-1)%Z 0xfff00001008;
  mkDevice 0x2a1000002a7 0xbf540000bf5c (3149)%Z 0x0 (4104)%Z 0x0;
  mkDevice 0xbf670000bf7c 0xbf630000bf67 (3150)%Z 0x0 (4105)%Z 0x0;
  mkDevice 0x2a1000002a7 0xbf860000bf8d (3151)%Z 0x0 (4106)%Z 0x0;
  mkDevice 0x2a1000002a7 0xbf8d0000bf91 (-1)%Z 0xbf910000bf96 (-1)%Z 0x100b0000100c;
  mkDevice 0x23f00000249 0xbfa10000bfa7 (3153)%Z 0x0 (-1)%Z 0x100c0000100f;
  mkDevice 0x23f00000249 0xbfb00000bfb5 (3156)%Z 0x0 (-1)%Z 0x100f00001012;
  mkDevice 0x23b0000023d 0xbfd30000bfd9 (3159)%Z 0x0 (-1)%Z 0x101200001016;
  mkDevice 0x23f00000249 0xbff00000bffa (3164)%Z 0x0 (-1)%Z 0x101600001040;
  mkDevice 0x2a1000002a7 0xc1750000c17e (3203)%Z 0x0 (-1)%Z 0x104000001043;
  mkDevice 0x23b0000023d 0xc17e0000c185 (3207)%Z 0x0 (-1)%Z 0x104300001049;
  mkDevice 0x23f00000249 0xc1b80000c1bf (3210)%Z 0x0 (-1)%Z 0x104900001086;
  mkDevice 0x23b0000023d 0xc39a0000c3a1 (3253)%Z 0x0 (-1)%Z 0x108600001087;
  mkDevice 0x23f00000249 0xc3a10000c3a7 (3255)%Z 0x0 (4231)%Z 0x0;
  mkDevice 0x23f00000249 0xc3a70000c3af (3256)%Z 0x0 (-1)%Z 0x10880000108b;
  mkDevice 0x23b0000023d 0xc3b30000c3bb (3260)%Z 0x0 (4235)%Z 0x0;
  mkDevice 0x2a1000002a7 0xc3bb0000c3c3 (3261)%Z 0x0 (-1)%Z 0x108c00001092;
  mkDevice 0x23f00000249 0xc4070000c40d (3267)%Z 0x0 (-1)%Z 0x109200001097;
  mkDevice 0x23f00000249 0xc4230000c42c (3271)%Z 0x0 (-1)%Z 0x10970000109b;
  mkDevice 0x23b0000023d 0xc4520000c459 (-1)%Z 0xc4520000c459 (-1)%Z 0x109b0000109d;
  mkDevice 0x23f00000249 0xc4750000c47a (3275)%Z 0x0 (-1)%Z 0x109d00001146;
  mkDevice 0x2a1000002a7 0xcdb40000cdb9 (3324)%Z 0x0 (-1)%Z 0x11460000114a;
  mkDevice 0x7cc000007d6 0xcdbc0000cdc4 (3329)%Z 0x0 (-1)%Z 0x114a0000114b;
  mkDevice 0x23b0000023d 0xcdc80000cdce (3331)%Z 0x0 (4427)%Z 0x0;
  mkDevice 0x23b0000023d 0xcdce0000cdd6 (3332)%Z 0x0 (4428)%Z 0x0;
  mkDevice 0x23f00000249 0xcdd60000cddb (3333)%Z 0x0 (-1)%Z 0x114d0000114f;
  mkDevice 0x23f00000249 0xcddb0000cde5 (3336)%Z 0x0 (-1)%Z 0x114f00001155;
  mkDevice 0x23f00000249 0xce240000ce2a (3337)%Z 0x0 (-1)%Z 0x115500001172;
  mkDevice 0x2a1000002a7 0xcf1f0000cf22 (3355)%Z 0x0 (-1)%Z 0x117200001175;
  mkDevice 0x23f00000249 0xcf370000cf3d (3359)%Z 0x0 (-1)%Z 0x117500001177;
  mkDevice 0x23f00000249 0xcf410000cf47 (3362)%Z 0x0 (-1)%Z 0x117700001178;
  mkDevice 0x23f00000249 0xcf470000cf4c (3364)%Z 0x0 (-1)%Z 0x11780000117a;
  mkDevice 0x23f00000249 0xcf6b0000cf71 (3367)%Z 0x0 (-1)%Z 0x117a0000137b;
  mkDevice 0x2a1000002a7 0xe8d20000e8da (3774)%Z 0x0 (-1)%Z 0x137b0000137d;
  mkDevice 0x2a1000002a7 0xe8ee0000e8f7 (-1)%Z 0xe8f70000e902 (-1)%Z 0x137d0000137f;
  mkDevice 0x23b0000023d 0xe9290000e92e (3778)%Z 0x0 (-1)%Z 0x137f00001382;
  mkDevice 0x23f00000249 0xe92e0000e937 (3782)%Z 0x0 (-1)%Z 0x138200001396;
  mkDevice 0x23f00000249 0xe9d60000e9dc (3787)%Z 0x0 (-1)%Z 0x139600001398;
  mkDevice 0x23f00000249 0xe9ea0000e9f0 (3789)%Z 0x0 (5016)%Z 0x0;
  mkDevice 0x2a1000002a7 0xe9f80000e9fe (-1)%Z 0xe9fe0000ea0c (5017)%Z 0x0;
  mkDevice 0x23f00000249 0xea130000ea19 (3790)%Z 0x0 (-1)%Z 0x139a0000139b;
  mkDevice 0x23f00000249 0xea190000ea20 (3792)%Z 0x0 (-1)%Z 0x139b000013c6;
  mkDevice 0x23f00000249 0xec4e0000ec52 (3808)%Z 0x0 (-1)%Z 0x13c6000013c8;
  mkDevice 0x23f00000249 0xec680000ec6e (-1)%Z 0xec6e0000ec73 (-1)%Z 0x0;
  mkDevice 0x2a1000002a7 0xec730000ec78 (3809)%Z 0x0 (5064)%Z 0x0;
  mkDevice 0x23f00000249 0xec8c0000ec92 (3810)%Z 0x0 (-1)%Z 0x13c9000013cb;
  mkDevice 0x39a000003a7 0xec9a0000ec9d (3812)%Z 0x0 (5067)%Z 0x0;
  mkDevice 0x23f00000249 0xeca50000ecaf (3813)%Z 0x0 (-1)%Z 0x13cc000013d1;
  mkDevice 0x23f00000249 0xeced0000ecf7 (3816)%Z 0x0 (-1)%Z 0x13d1000013d5;
  mkDevice 0x23f00000249 0xecfc0000ed06 (3821)%Z 0x0 (-1)%Z 0x13d5000013e9;
  mkDevice 0x8e00000099 0xed9a0000ed9f (3842)%Z 0x0 (5097)%Z 0x0;
  mkDevice 0x39a000003a7 0xed9f0000eda2 (3843)%Z 0x0 (-1)%Z 0x13ea000013ec;
  mkDevice 0x23f00000249 0xeda20000eda7 (3846)%Z 0x0 (-1)%Z 0x13ec000013f0;
  mkDevice 0x23b0000023d 0xedd20000edd7 (3848)%Z 0x0 (5104)%Z 0x0;
  mkDevice 0x23f00000249 0xedde0000ede1 (3849)%Z 0x0 (-1)%Z 0x13f1000013f4;
  mkDevice 0x2a1000002a7 0xedee0000edf1 (3853)%Z 0x0 (-1)%Z 0x13f4000013f6;
  mkDevice 0x2a1000002a7 0xee020000ee04 (3855)%Z 0x0 (-1)%Z 0x13f6000013f8;
  mkDevice 0x23f00000249 0xee190000ee1d (3857)%Z 0x0 (-1)%Z 0x13f8000013f9;
  mkDevice 0x2a1000002a7 0xee1d0000ee24 (3859)%Z 0x0 (-1)%Z 0x13f900001412;
  mkDevice 0x23b0000023d 0xf0930000f09d (3862)%Z 0x0 (5138)%Z 0x0;
  mkDevice 0x23b0000023d 0xf09d0000f0a1 (-1)%Z 0xf0a10000f0a5 (-1)%Z 0x141300001414;
  mkDevice 0x23f00000249 0xf0aa0000f0af (-1)%Z 0xf0af0000f0b5 (5140)%Z 0x0;
  mkDevice 0x2a1000002a7 0xf0b50000f0bf (3864)%Z 0x0 (-1)%Z 0x14150000141a;
  mkDevice 0x23f00000249 0xf0d10000f0d8 (3870)%Z 0x0 (-1)%Z 0x141a00001425;
  mkDevice 0x23f00000249 0xf1470000f14d (3874)%Z 0x0 (-1)%Z 0x142500001428;
  mkDevice 0x2a1000002a7 0xf17b0000f17f (3876)%Z 0x0 (-1)%Z 0x14280000142a;
  mkDevice 0x23f00000249 0xf1820000f186 (3879)%Z 0x0 (-1)%Z 0x142a00001431;
  mkDevice 0x23b0000023d 0xf1c20000f1ca (-1)%Z 0xf1ca0000f1d2 (5169)%Z 0x0;
  mkDevice 0x23f00000249 0xf1d20000f1db (3884)%Z 0x0 (-1)%Z 0x143200001435;
  mkDevice 0x23b0000023d 0xf1fd0000f208 (-1)%Z 0xf2080000f215 (5173)%Z 0x0;
  mkDevice 0x23f00000249 0xf2150000f21c (-1)%Z 0xf2150000f21c (-1)%Z 0x1436000014e7;
  mkDevice 0x23b0000023d 0xf7bc0000f7c3 (4061)%Z 0x0 (5351)%Z 0x0;
  mkDevice 0x23b0000023d 0xf7c30000f7ca (4062)%Z 0x0 (5352)%Z 0x0;
  mkDevice 0x23f00000249 0xf7ca0000f7cf (4063)%Z 0x0 (5353)%Z 0x0;
  mkDevice 0x23b0000023d 0xf7cf0000f7d3 (4064)%Z 0x0 (5354)%Z 0x0;
  mkDevice 0x23f00000249 0xf7db0000f7e0 (4065)%Z 0x0 (5355)%Z 0x0;
  mkDevice 0x23f00000249 0xf7e00000f7e6 (4066)%Z 0x0 (-1)%Z 0x14ec00001505;
  mkDevice 0x23f00000249 0xf92e0000f933 (4079)%Z 0x0 (5381)%Z 0x0;
  mkDevice 0x39a000003a7 0xf9330000f93d (4080)%Z 0x0 (5382)%Z 0x0;
  mkDevice 0x23f00000249 0xf9430000f947 (4081)%Z 0x0 (-1)%Z 0x150700001518;
  mkDevice 0x2a1000002a7 0xf9d40000f9dc (4095)%Z 0x0 (-1)%Z 0x151800001520;
  mkDevice 0xc9b00000ca2 0xfa5b0000fa60 (-1)%Z 0xfa600000fa6a (-1)%Z 0x152000001521;
  mkDevice 0x23f00000249 0xfa700000fa75 (4098)%Z 0x0 (-1)%Z 0x152100001543;
  mkDevice 0x23f00000249 0xfbfe0000fc04 (4131)%Z 0x0 (-1)%Z 0x154300001545;
  mkDevice 0x23b0000023d 0xfc040000fc09 (4134)%Z 0x0 (-1)%Z 0x154500001548;
  mkDevice 0x2a1000002a7 0xfc160000fc1b (4137)%Z 0x0 (-1)%Z 0x15480000154b;
  mkDevice 0x23f00000249 0xfc1b0000fc1f (4141)%Z 0x0 (-1)%Z 0x154b0000155c;
  mkDevice 0x2a1000002a7 0xfd0a0000fd12 (4149)%Z 0x0 (-1)%Z 0x155c00001561;
  mkDevice 0x23f00000249 0xfd510000fd56 (4154)%Z 0x0 (5473)%Z 0x0;
  mkDevice 0x23f00000249 0xfd560000fd59 (4155)%Z 0x0 (5474)%Z 0x0;
  mkDevice 0x2a1000002a7 0xfd590000fd5d (4156)%Z 0x0 (5475)%Z 0x0;
  mkDevice 0x2a1000002a7 0xfd5d0000fd61 (4157)%Z 0x0 (5476)%Z 0x0;
  mkDevice 0x2a1000002a7 0xfd610000fd67 (4158)%Z 0x0 (5477)%Z 0x0;
  mkDevice 0x23b0000023d 0xfd670000fd6a (4159)%Z 0x0 (-1)%Z 0x15660000156e;
  mkDevice 0x23f00000249 0xfd9d0000fda2 (4168)%Z 0x0 (-1)%Z 0x156e00001570;
  mkDevice 0x2a1000002a7 0xfdbe0000fdc6 (4169)%Z 0x0 (5488)%Z 0x0;
  mkDevice 0x2a1000002a7 0xfdcd0000fdd1 (4170)%Z 0x0 (-1)%Z 0x157100001573;
  mkDevice 0x23f00000249 0xfdde0000fde2 (4173)%Z 0x0 (-1)%Z 0x157300001575;
  mkDevice 0x23f00000249 0xfdf00000fdf5 (4175)%Z 0x0 (5493)%Z 0x0;
  mkDevice 0x23f00000249 0xfdfa0000fdff (4176)%Z 0x0 (-1)%Z 0x157600001579;
  mkDevice 0xc9b00000ca2 0xfe090000fe0d (4180)%Z 0x0 (-1)%Z 0x15790000157b;
  mkDevice 0x7cc000007d6 0xfe200000fe26 (4181)%Z 0x0 (5499)%Z 0x0;
  mkDevice 0x23f00000249 0xfe260000fe2b (4182)%Z 0x0 (-1)%Z 0x157c00001593;
  mkDevice 0x23f00000249 0xfec90000fecc (4206)%Z 0x0 (-1)%Z 0x159300001595;
  mkDevice 0x23f00000249 0xfed90000fedd (4209)%Z 0x0 (-1)%Z 0x15950000159d;
  mkDevice 0x23f00000249 0xff3b0000ff40 (-1)%Z 0xff3b0000ff40 (-1)%Z 0x0;
  mkDevice 0x23f00000249 0xff400000ff43 (4216)%Z 0x0 (-1)%Z 0x159d0000159e;
  mkDevice 0x2a1000002a7 0xff430000ff4a (4218)%Z 0x0 (5534)%Z 0x0;
  mkDevice 0x2a1000002a7 0xff4e0000ff54 (4219)%Z 0x0 (5535)%Z 0x0;
  mkDevice 0x23f00000249 0xff5c0000ff6b (-1)%Z 0xff6b0000ff74 (-1)%Z 0x15a0000015a1;
  mkDevice 0x23f00000249 0xff800000ff85 (4220)%Z 0x0 (-1)%Z 0x15a1000015a9;
  mkDevice 0x23f00000249 0xffe00000ffe6 (4225)%Z 0x0 (-1)%Z 0x15a9000015ab;
  mkDevice 0x23f00000249 0x100140001001b (4226)%Z 0x0 (-1)%Z 0x15ab000015b5;
  mkDevice 0x8e00000099 0x1009400010097 (4229)%Z 0x0 (5557)%Z 0x0;
  mkDevice 0x23b0000023d 0x1009e000100a3 (4230)%Z 0x0 (5558)%Z 0x0;
  mkDevice 0x39a000003a7 0x100a3000100a7 (4231)%Z 0x0 (-1)%Z 0x15b7000015bb;
  mkDevice 0x2a1000002a7 0x100c1000100c7 (4236)%Z 0x0 (-1)%Z 0x15bb000015c1
].
Definition d_dr_idx3_4 : list deviceTuple := [
  mkDevice 0x23f00000249 0x100f1000100f8 (4242)%Z 0x0 (5569)%Z 0x0;
  mkDevice 0x23f00000249 0x100f8000100fd (4243)%Z 0x0 (5570)%Z 0x0;
  mkDevice 0x23f00000249 0x100fd00010105 (4244)%Z 0x0 (-1)%Z 0x15c3000015c5;
  mkDevice 0x23b0000023d 0x1010d00010110 (4247)%Z 0x0 (5573)%Z 0x0;
  mkDevice 0x23f00000249 0x1011000010119 (4248)%Z 0x0 (5574)%Z 0x0;
  mkDevice 0x23f00000249 0x101190001011d (4249)%Z 0x0 (-1)%Z 0x15c7000015c9;
  mkDevice 0x23f00000249 0x1011d00010121 (4252)%Z 0x0 (-1)%Z 0x15c9000015cb;
  mkDevice 0x23f00000249 0x1012100010125 (4255)%Z 0x0 (-1)%Z 0x15cb000015cc;
  mkDevice 0x23f00000249 0x101280001012d (4257)%Z 0x0 (-1)%Z 0x15cc000015d2;
  mkDevice 0x23f00000249 0x101780001017f (4260)%Z 0x0 (5586)%Z 0x0;
  mkDevice 0x23b0000023d 0x1017f00010182 (4261)%Z 0x0 (5587)%Z 0x0;
  mkDevice 0x2a1000002a7 0x1018200010188 (-1)%Z 0x101880001018f (-1)%Z 0x15d4000015d5;
  mkDevice 0x23f00000249 0x101980001019b (4262)%Z 0x0 (5589)%Z 0x0;
  mkDevice 0x23f00000249 0x1019b0001019f (4263)%Z 0x0 (5590)%Z 0x0;
  mkDevice 0x2a1000002a7 0x1019f000101a5 (4264)%Z 0x0 (5591)%Z 0x0;
  mkDevice 0x23f00000249 0x101b0000101b6 (4265)%Z 0x0 (-1)%Z 0x15d8000015e9;
  mkDevice 0x2a1000002a7 0x102b5000102ba (4274)%Z 0x0 (-1)%Z 0x15e9000015f0;
  mkDevice 0x23f00000249 0x102f7000102fd (4280)%Z 0x0 (5616)%Z 0x0;
  mkDevice 0x23f00000249 0x102fd00010304 (4281)%Z 0x0 (-1)%Z 0x15f100001621;
  mkDevice 0x23f00000249 0x1059300010597 (4300)%Z 0x0 (-1)%Z 0x162100001626;
  mkDevice 0x23f00000249 0x105a6000105ab (4306)%Z 0x0 (-1)%Z 0x16260000162b;
  mkDevice 0x23f00000249 0x105dc000105e2 (-1)%Z 0x105e2000105e9 (-1)%Z 0x162b0000162c;
  mkDevice 0x23f00000249 0x105f500010606 (4310)%Z 0x0 (-1)%Z 0x162c00001637;
  mkDevice 0x23f00000249 0x1069f000106a4 (4315)%Z 0x0 (-1)%Z 0x16370000163a;
  mkDevice 0x23f00000249 0x106b9000106c0 (4317)%Z 0x0 (-1)%Z 0x163a00001641;
  mkDevice 0x23f00000249 0x106cf000106d7 (4325)%Z 0x0 (5697)%Z 0x0;
  mkDevice 0x23b0000023d 0x106ea000106f0 (4326)%Z 0x0 (5698)%Z 0x0;
  mkDevice 0x23f00000249 0x106f0000106f5 (4327)%Z 0x0 (-1)%Z 0x16430000164b;
  mkDevice 0x23b0000023d 0x107640001076b (-1)%Z 0x107640001076b (-1)%Z 0x0;
  mkDevice 0x23f00000249 0x1076b00010773 (4335)%Z 0x0 (-1)%Z 0x164b0000164d;
  mkDevice 0x23f00000249 0x1077800010780 (-1)%Z 0x1077800010780 (-1)%Z 0x164d0000164e;
  mkDevice 0x23f00000249 0x1078000010787 (4338)%Z 0x0 (-1)%Z 0x164e00001650;
  mkDevice 0x2a1000002a7 0x107870001078f (4341)%Z 0x0 (5712)%Z 0x0;
  mkDevice 0x23f00000249 0x1078f00010794 (4342)%Z 0x0 (-1)%Z 0x165100001653;
  mkDevice 0x23b0000023d 0x107ae000107b2 (4344)%Z 0x0 (-1)%Z 0x165300001656;
  mkDevice 0x23f00000249 0x107b8000107be (4348)%Z 0x0 (-1)%Z 0x16560000165a;
  mkDevice 0x2a1000002a7 0x107d7000107dd (4352)%Z 0x0 (-1)%Z 0x165a00001669;
  mkDevice 0x23f00000249 0x108080001080d (4368)%Z 0x0 (-1)%Z 0x166900001670;
  mkDevice 0x23f00000249 0x1084f00010854 (4374)%Z 0x0 (-1)%Z 0x167000001678;
  mkDevice 0x23f00000249 0x1088f00010893 (4379)%Z 0x0 (-1)%Z 0x16780000167a;
  mkDevice 0x23f00000249 0x1089300010898 (4382)%Z 0x0 (-1)%Z 0x167a00001684;
  mkDevice 0x23f00000249 0x108e5000108eb (4387)%Z 0x0 (-1)%Z 0x168400001694;
  mkDevice 0x23f00000249 0x1094c00010952 (4404)%Z 0x0 (-1)%Z 0x169400001699;
  mkDevice 0x23f00000249 0x109630001096a (4409)%Z 0x0 (5785)%Z 0x0;
  mkDevice 0x23f00000249 0x1096a00010970 (4410)%Z 0x0 (5786)%Z 0x0;
  mkDevice 0x23b0000023d 0x1097b00010980 (4411)%Z 0x0 (-1)%Z 0x169b0000169d;
  mkDevice 0x23f00000249 0x109890001098f (4413)%Z 0x0 (5789)%Z 0x0;
  mkDevice 0x2a1000002a7 0x1098f00010995 (4414)%Z 0x0 (5790)%Z 0x0;
  mkDevice 0x23b0000023d 0x109950001099a (4415)%Z 0x0 (5791)%Z 0x0;
  mkDevice 0x23f00000249 0x109a0000109ac (4416)%Z 0x0 (-1)%Z 0x16a0000016bc;
  mkDevice 0x23f00000249 0x10acb00010ad1 (4442)%Z 0x0 (5820)%Z 0x0;
  mkDevice 0x23f00000249 0x10ad100010ad5 (4443)%Z 0x0 (5821)%Z 0x0;
  mkDevice 0x23f00000249 0x10ad500010ada (4444)%Z 0x0 (-1)%Z 0x16be000016c0;
  mkDevice 0x2a1000002a7 0x10ada00010adf (4447)%Z 0x0 (-1)%Z 0x16c0000016c3;
  mkDevice 0x23f00000249 0x10af000010af7 (4451)%Z 0x0 (-1)%Z 0x16c300001716;
  mkDevice 0x2a1000002a7 0x10e2900010e2f (4526)%Z 0x0 (5910)%Z 0x0;
  mkDevice 0x23f00000249 0x10e2f00010e33 (4527)%Z 0x0 (-1)%Z 0x17170000171e;
  mkDevice 0x23f00000249 0x10e8b00010e90 (4529)%Z 0x0 (-1)%Z 0x171e00001720;
  mkDevice 0x23f00000249 0x10ea700010eae (4532)%Z 0x0 (5920)%Z 0x0;
  mkDevice 0x23f00000249 0x10ebb00010ebf (4533)%Z 0x0 (-1)%Z 0x172100001722;
  mkDevice 0x39a000003a7 0x10ebf00010ec2 (4535)%Z 0x0 (5922)%Z 0x0;
  mkDevice 0x2b1e00002b26 0x10ec200010ec7 (4536)%Z 0x0 (-1)%Z 0x172300001725;
  mkDevice 0x23f00000249 0x10ec700010ec9 (4539)%Z 0x0 (-1)%Z 0x172500001870;
  mkDevice 0x2a1000002a7 0x11abc00011ac2 (4771)%Z 0x0 (6256)%Z 0x0;
  mkDevice 0x39a000003a7 0x11ac200011ac7 (4772)%Z 0x0 (6257)%Z 0x0;
  mkDevice 0x2b1e00002b26 0x11ac700011acd (4773)%Z 0x0 (6258)%Z 0x0;
  mkDevice 0x23f00000249 0x11acd00011ad6 (4774)%Z 0x0 (-1)%Z 0x18730000188c;
  mkDevice 0x2a1000002a7 0x11b1800011b1e (4799)%Z 0x0 (-1)%Z 0x188c0000188f;
  mkDevice 0x23b0000023d 0x11b4d00011b50 (4801)%Z 0x0 (6287)%Z 0x0;
  mkDevice 0x2a1000002a7 0x11b5000011b52 (4802)%Z 0x0 (6288)%Z 0x0;
  mkDevice 0x23f00000249 0x11b5200011b55 (4803)%Z 0x0 (-1)%Z 0x1891000018b2;
  mkDevice 0x23f00000249 0x11d0d00011d19 (4807)%Z 0x0 (6322)%Z 0x0;
  mkDevice 0x23f00000249 0x11d2000011d2a (4808)%Z 0x0 (-1)%Z 0x18b3000018b8;
  mkDevice 0x23f00000249 0x11d5500011d5b (4812)%Z 0x0 (-1)%Z 0x18b8000018ba;
  mkDevice 0x23f00000249 0x11d6d00011d72 (4814)%Z 0x0 (6330)%Z 0x0;
  mkDevice 0x23f00000249 0x11d7200011d77 (4815)%Z 0x0 (-1)%Z 0x18bb000018c6;
  mkDevice 0x2a1000002a7 0x11df400011df8 (4824)%Z 0x0 (-1)%Z 0x18c6000018d6;
  mkDevice 0x2a1000002a7 0x11eea00011eef (4836)%Z 0x0 (-1)%Z 0x18d6000018d7;
  mkDevice 0x23f00000249 0x11efe00011f02 (4838)%Z 0x0 (-1)%Z 0x18d70000192e;
  mkDevice 0x2a1000002a7 0x121b8000121be (4907)%Z 0x0 (-1)%Z 0x192e00001932;
  mkDevice 0x23f00000249 0x121e0000121e6 (4911)%Z 0x0 (-1)%Z 0x193200001934;
  mkDevice 0x23f00000249 0x121f4000121f9 (4913)%Z 0x0 (-1)%Z 0x193400001946;
  mkDevice 0x23f00000249 0x1226d00012279 (4930)%Z 0x0 (-1)%Z 0x194600001954;
  mkDevice 0x23f00000249 0x1235c00012362 (4933)%Z 0x0 (-1)%Z 0x195400001966;
  mkDevice 0x2a1000002a7 0x124150001241c (4947)%Z 0x0 (6502)%Z 0x0;
  mkDevice 0x23f00000249 0x124260001242d (4948)%Z 0x0 (-1)%Z 0x196700001969;
  mkDevice 0x23b0000023d 0x1244900012450 (4951)%Z 0x0 (-1)%Z 0x19690000196a;
  mkDevice 0x23b0000023d 0x1245000012454 (4953)%Z 0x0 (6506)%Z 0x0;
  mkDevice 0x23b0000023d 0x124540001245a (4954)%Z 0x0 (6507)%Z 0x0;
  mkDevice 0x2a1000002a7 0x1245a0001245e (4955)%Z 0x0 (6508)%Z 0x0;
  mkDevice 0x7cc000007d6 0x1246400012469 (4956)%Z 0x0 (6509)%Z 0x0;
  mkDevice 0x23f00000249 0x1246900012470 (-1)%Z 0x1246900012470 (-1)%Z 0x196e0000196f;
  mkDevice 0x2a1000002a7 0x1247000012475 (4958)%Z 0x0 (-1)%Z 0x196f00001972;
  mkDevice 0x23f00000249 0x124970001249d (4960)%Z 0x0 (-1)%Z 0x197200001a36;
  mkDevice 0x23f00000249 0x12d2100012d27 (5114)%Z 0x0 (-1)%Z 0x1a3600001a3d;
  mkDevice 0x23f00000249 0x12d9a00012da1 (5117)%Z 0x0 (-1)%Z 0x1a3d00001a41;
  mkDevice 0x23f00000249 0x12dad00012db2 (5121)%Z 0x0 (6721)%Z 0x0;
  mkDevice 0x23f00000249 0x12dba00012dc0 (5122)%Z 0x0 (-1)%Z 0x1a4200001a51;
  mkDevice 0x2a1000002a7 0x12e5100012e59 (5127)%Z 0x0 (-1)%Z 0x1a5100001a68;
  mkDevice 0x23b0000023d 0x1303a00013042 (5130)%Z 0x0 (6760)%Z 0x0;
  mkDevice 0x23b0000023d 0x130420001304a (5131)%Z 0x0 (-1)%Z 0x0;
  mkDevice 0x23b0000023d 0x1304a0001304e (5132)%Z 0x0 (-1)%Z 0x1a6900001a6b;
  mkDevice 0x23f00000249 0x1306200013068 (5134)%Z 0x0 (-1)%Z 0x1a6b00001a70;
  mkDevice 0x23f00000249 0x130970001309e (5137)%Z 0x0 (-1)%Z 0x1a7000001a72;
  mkDevice 0x23f00000249 0x1309e000130a4 (5140)%Z 0x0 (6770)%Z 0x0;
  mkDevice 0x2a1000002a7 0x130a9000130af (5141)%Z 0x0 (-1)%Z 0x1a7300001a75;
  mkDevice 0x2a1000002a7 0x130af000130b4 (5144)%Z 0x0 (6773)%Z 0x0;
  mkDevice 0x23b0000023d 0x130bd000130c2 (5145)%Z 0x0 (-1)%Z 0x1a7600001a77;
  mkDevice 0x23f00000249 0x130cb000130d0 (5146)%Z 0x0 (-1)%Z 0x1a7700001a7e;
  mkDevice 0x23f00000249 0x130f300013103 (5153)%Z 0x0 (-1)%Z 0x1a7e00001a82;
  mkDevice 0x2a1000002a7 0x131380001313f (5155)%Z 0x0 (-1)%Z 0x1a8200001abc;
  mkDevice 0x23b0000023d 0x133a1000133a6 (5193)%Z 0x0 (-1)%Z 0x0;
  mkDevice 0x1060000010d 0x133a6000133ae (5194)%Z 0x0 (6844)%Z 0x0;
  mkDevice 0x23b0000023d 0x133b5000133bb (-1)%Z 0x133b5000133bb (-1)%Z 0x1abd00001abe;
  mkDevice 0x23f00000249 0x133c0000133c5 (5196)%Z 0x0 (6846)%Z 0x0;
  mkDevice 0x23f00000249 0x133c5000133cc (5197)%Z 0x0 (6847)%Z 0x0;
  mkDevice 0x23f00000249 0x133cc000133d3 (5198)%Z 0x0 (6848)%Z 0x0;
  mkDevice 0x23f00000249 0x133d3000133d8 (5199)%Z 0x0 (-1)%Z 0x1ac100001ac5;
  mkDevice 0x23f00000249 0x133e9000133ed (5204)%Z 0x0 (-1)%Z 0x1ac500001ac7;
  mkDevice 0x23b0000023d 0x133ed000133f2 (5207)%Z 0x0 (-1)%Z 0x0;
  mkDevice 0x2a1000002a7 0x133f2000133f8 (5208)%Z 0x0 (6855)%Z 0x0;
  mkDevice 0x23f00000249 0x133f8000133ff (5209)%Z 0x0 (-1)%Z 0x1ac800001acd;
  mkDevice 0x23f00000249 0x134250001342b (-1)%Z 0x134250001342b (-1)%Z 0x1acd00001ace;
  mkDevice 0x23f00000249 0x1342b00013431 (5214)%Z 0x0 (-1)%Z 0x1ace00001ad8;
  mkDevice 0x23f00000249 0x1348e00013494 (5220)%Z 0x0 (-1)%Z 0x1ad800001adb;
  mkDevice 0x7cc000007d6 0x134aa000134b3 (5223)%Z 0x0 (-1)%Z 0x1adb00001ade;
  mkDevice 0x23f00000249 0x134d5000134da (5224)%Z 0x0 (-1)%Z 0x1ade00001af7;
  mkDevice 0x23b0000023d 0x135f1000135f4 (5228)%Z 0x0 (6903)%Z 0x0;
  mkDevice 0x2a1000002a7 0x135f4000135f9 (5229)%Z 0x0 (6904)%Z 0x0;
  mkDevice 0x23f00000249 0x135f9000135fe (5230)%Z 0x0 (-1)%Z 0x1af900001afd;
  mkDevice 0x2a1000002a7 0x136180001361c (5234)%Z 0x0 (6909)%Z 0x0;
  mkDevice 0x23f00000249 0x1361c0001361f (5235)%Z 0x0 (6910)%Z 0x0;
  mkDevice 0x2a1000002a7 0x1361f00013622 (5236)%Z 0x0 (6911)%Z 0x0;
  mkDevice 0x23b0000023d 0x1362200013626 (5237)%Z 0x0 (-1)%Z 0x0;
  mkDevice 0x23f00000249 0x136260001362f (5238)%Z 0x0 (-1)%Z 0x1b0000001b05;
  mkDevice 0x23f00000249 0x1364c00013650 (5242)%Z 0x0 (-1)%Z 0x1b0500001b07;
  mkDevice 0x23b0000023d 0x1365000013657 (5245)%Z 0x0 (6919)%Z 0x0;
  mkDevice 0x23b0000023d 0x136570001365a (5246)%Z 0x0 (6920)%Z 0x0;
  mkDevice 0x2a1000002a7 0x1365a00013660 (5247)%Z 0x0 (6921)%Z 0x0;
  mkDevice 0x23f00000249 0x1366000013663 (5248)%Z 0x0 (6922)%Z 0x0;
  mkDevice 0x23f00000249 0x1366300013667 (5249)%Z 0x0 (-1)%Z 0x1b0b00001b0d;
  mkDevice 0x23f00000249 0x136750001367b (5252)%Z 0x0 (6925)%Z 0x0;
  mkDevice 0x23f00000249 0x1367b0001367f (5253)%Z 0x0 (-1)%Z 0x1b0e00001b10;
  mkDevice 0x23f00000249 0x1367f00013684 (5256)%Z 0x0 (-1)%Z 0x1b1000001b12;
  mkDevice 0x23f00000249 0x1368400013687 (5259)%Z 0x0 (-1)%Z 0x1b1200001b4e;
  mkDevice 0x23b0000023d 0x138d8000138de (5320)%Z 0x0 (6990)%Z 0x0;
  mkDevice 0x2a1000002a7 0x138de000138e5 (5321)%Z 0x0 (6991)%Z 0x0;
  mkDevice 0x2a1000002a7 0x138e5000138e8 (5322)%Z 0x0 (-1)%Z 0x1b5000001b53;
  mkDevice 0x23b0000023d 0x138f0000138f5 (5325)%Z 0x0 (-1)%Z 0x0;
  mkDevice 0x23f00000249 0x138f5000138f8 (5326)%Z 0x0 (-1)%Z 0x1b5300001b65;
  mkDevice 0x23f00000249 0x139d1000139d4 (5340)%Z 0x0 (-1)%Z 0x1b6500001b6e;
  mkDevice 0x23b0000023d 0x13a4b00013a53 (-1)%Z 0x13a5300013a5f (7022)%Z 0x0;
  mkDevice 0x2a1000002a7 0x13a5f00013a64 (-1)%Z 0x13a6400013a6b (7023)%Z 0x0;
  mkDevice 0x23f00000249 0x13a7400013a7a (5345)%Z 0x0 (7024)%Z 0x0;
  mkDevice 0x23f00000249 0x13a8400013a88 (5346)%Z 0x0 (-1)%Z 0x1b7100001b73;
  mkDevice 0x23b0000023d 0x13a9b00013aa2 (-1)%Z 0x13aa200013aab (-1)%Z 0x1b7300001b76;
  mkDevice 0x23b0000023d 0x13ad900013ae1 (5349)%Z 0x0 (-1)%Z 0x1b7600001b79;
  mkDevice 0x23f00000249 0x13b0400013b0a (5351)%Z 0x0 (-1)%Z 0x1b7900001b7b;
  mkDevice 0x23f00000249 0x13b1d00013b25 (5354)%Z 0x0 (-1)%Z 0x1b7b00001b8a;
  mkDevice 0x23f00000249 0x13b8e00013b94 (5368)%Z 0x0 (7050)%Z 0x0;
  mkDevice 0x23f00000249 0x13b9400013b99 (5369)%Z 0x0 (-1)%Z 0x1b8b00001b8d;
  mkDevice 0x23f00000249 0x13bb300013bb7 (5371)%Z 0x0 (-1)%Z 0x1b8d00001b8f;
  mkDevice 0x23f00000249 0x13bb700013bc7 (5374)%Z 0x0 (-1)%Z 0x1b8f00001b9a;
  mkDevice 0x7cc000007d6 0x13c4800013c4e (5378)%Z 0x0 (7066)%Z 0x0;
  mkDevice 0x23f00000249 0x13c4e00013c52 (5379)%Z 0x0 (7067)%Z 0x0;
  mkDevice 0x23f00000249 0x13c5200013c59 (5380)%Z 0x0 (-1)%Z 0x1b9c00001b9e;
  mkDevice 0x23f00000249 0x13c5e00013c64 (5383)%Z 0x0 (7070)%Z 0x0;
  mkDevice 0x23f00000249 0x13c6400013c6a (5384)%Z 0x0 (-1)%Z 0x1b9f00001ba1;
  mkDevice 0x23f00000249 0x13c6f00013c76 (5387)%Z 0x0 (-1)%Z 0x1ba100001bac;
  mkDevice 0x2a1000002a7 0x13ccc00013cd4 (5398)%Z 0x0 (-1)%Z 0x1bac00001bae;
  mkDevice 0x23b0000023d 0x13ce900013cf3 (5400)%Z 0x0 (-1)%Z 0x1bae00001bb0;
  mkDevice 0x2a1000002a7 0x13cf300013cfe (5403)%Z 0x0 (7088)%Z 0x0;
  mkDevice 0x2a1000002a7 0xc1910000c197 (5404)%Z 0x0 (-1)%Z 0x1bb100001bb4;
  mkDevice 0x23b0000023d 0x13d1a00013d22 (5407)%Z 0x0 (7092)%Z 0x0;
  mkDevice 0x23f00000249 0x13d2200013d28 (5408)%Z 0x0 (-1)%Z 0x1bb500001bbb;
  mkDevice 0x23f00000249 0x13d4700013d4e (5414)%Z 0x0 (7099)%Z 0x0;
  mkDevice 0x23f00000249 0x13d4e00013d55 (5415)%Z 0x0 (-1)%Z 0x1bbc00001bc0;
  mkDevice 0x23f00000249 0x13d6400013d6b (5419)%Z 0x0 (-1)%Z 0x1bc000001bc3;
  mkDevice 0x23b0000023d 0x13d7000013d77 (5423)%Z 0x0 (-1)%Z 0x0;
  mkDevice 0x23f00000249 0x13d7700013d7e (5424)%Z 0x0 (-1)%Z 0x1bc300001bd6;
  mkDevice 0x23f00000249 0x13e7e00013e82 (5437)%Z 0x0 (-1)%Z 0x1bd600001bd9;
  mkDevice 0x23f00000249 0x13e8900013e93 (5441)%Z 0x0 (-1)%Z 0x1bd900001bdc;
  mkDevice 0x23b0000023d 0x13ead00013eb3 (5444)%Z 0x0 (7132)%Z 0x0;
  mkDevice 0x23f00000249 0x13eb300013ebb (5445)%Z 0x0 (7133)%Z 0x0;
  mkDevice 0x2a1000002a7 0x13ec300013ec8 (5446)%Z 0x0 (-1)%Z 0x1bde00001be8;
  mkDevice 0x23b0000023d 0x13fa400013faa (5453)%Z 0x0 (-1)%Z 0x1be800001bf7;
  mkDevice 0x2a1000002a7 0x1400e00014016 (5469)%Z 0x0 (-1)%Z 0x1bf700001c3b;
  mkDevice 0x23f00000249 0x144b4000144ba (5535)%Z 0x0 (-1)%Z 0x1c3b00001c42;
  mkDevice 0x23f00000249 0x144cb000144d2 (5543)%Z 0x0 (-1)%Z 0x1c4200001c4a;
  mkDevice 0x23b0000023d 0x1450a00014513 (5550)%Z 0x0 (-1)%Z 0x1c4a00001c4b;
  mkDevice 0x23f00000249 0x145260001452b (5551)%Z 0x0 (-1)%Z 0x1c4b00001c56;
  mkDevice 0x23f00000249 0x145360001453b (5563)%Z 0x0 (-1)%Z 0x1c5600001c85;
  mkDevice 0x23f00000249 0x1461d00014624 (5607)%Z 0x0 (-1)%Z 0x1c8500001c88;
  mkDevice 0x2a1000002a7 0x1463f00014644 (5611)%Z 0x0 (-1)%Z 0x1c8800001c8c;
  mkDevice 0x2b1e00002b26 0x1467a0001467e (5616)%Z 0x0 (-1)%Z 0x1c8c00001c93;
  mkDevice 0x23b0000023d 0x146b7000146bb (-1)%Z 0x146bb000146c5 (7315)%Z 0x0;
  mkDevice 0x2a1000002a7 0x146c5000146ca (5618)%Z 0x0 (-1)%Z 0x1c9400001c98;
  mkDevice 0x23f00000249 0x146eb000146f3 (5623)%Z 0x0 (-1)%Z 0x1c9800001cd8;
  mkDevice 0x2a1000002a7 0x14a3600014a3e (5669)%Z 0x0 (-1)%Z 0x1cd800001cd9;
  mkDevice 0x23f00000249 0x12f00000138 (5671)%Z 0x0 (-1)%Z 0x1cd900001cf7
].
Definition d_dr_idx3_5 : list deviceTuple := [
  mkDevice 0x2a1000002a7 0x14bb700014bc0 (5686)%Z 0x0 (-1)%Z 0x1cf700001cf9;
  mkDevice 0x2a1000002a7 0x14bdb00014be3 (5688)%Z 0x0 (7417)%Z 0x0;
  mkDevice 0x23b0000023d 0x14be300014be8 (5689)%Z 0x0 (-1)%Z 0x1cfa00001d06;
  mkDevice 0x23f00000249 0x144ff00014503 (5695)%Z 0x0 (-1)%Z 0x1d0600001d0b;
  mkDevice 0x23f00000249 0x14c9c00014ca1 (5700)%Z 0x0 (-1)%Z 0x1d0b00001d10;
  mkDevice 0x23f00000249 0x14cc700014cca (5706)%Z 0x0 (-1)%Z 0x1d1000001d13;
  mkDevice 0x23f00000249 0x14cfe00014d03 (5709)%Z 0x0 (-1)%Z 0x1d1300001d1e;
  mkDevice 0x23f00000249 0x14d4c00014d51 (5718)%Z 0x0 (-1)%Z 0x1d1e00001d22;
  mkDevice 0x23b0000023d 0x14d7000014d80 (5722)%Z 0x0 (-1)%Z 0x0;
  mkDevice 0x23f00000249 0x14d8000014d84 (5723)%Z 0x0 (-1)%Z 0x1d2200001d26;
  mkDevice 0x39a000003a7 0x14d9300014d9d (5728)%Z 0x0 (-1)%Z 0x1d2600001d29;
  mkDevice 0x23f00000249 0x14d9d00014da3 (5732)%Z 0x0 (7465)%Z 0x0;
  mkDevice 0x23f00000249 0x14da300014da9 (5733)%Z 0x0 (-1)%Z 0x1d2a00001d2c;
  mkDevice 0x7cc000007d6 0x14db700014dbe (5735)%Z 0x0 (-1)%Z 0x1d2c00001d2e;
  mkDevice 0x23f00000249 0x14dd600014dde (5738)%Z 0x0 (-1)%Z 0x1d2e00001d34;
  mkDevice 0x23f00000249 0x14e1200014e19 (5741)%Z 0x0 (-1)%Z 0x1d3400001d73;
  mkDevice 0x23f00000249 0x150ed000150f6 (5755)%Z 0x0 (-1)%Z 0x1d7300001d90;
  mkDevice 0x23f00000249 0x152a7000152b5 (5775)%Z 0x0 (7568)%Z 0x0;
  mkDevice 0x23f00000249 0x152c1000152c8 (5776)%Z 0x0 (-1)%Z 0x1d9100001da0;
  mkDevice 0x23f00000249 0x153b6000153be (5778)%Z 0x0 (7584)%Z 0x0;
  mkDevice 0x2a1000002a7 0x153be000153c2 (5779)%Z 0x0 (-1)%Z 0x1da100001da2;
  mkDevice 0x2b1e00002b26 0x153c2000153c8 (5781)%Z 0x0 (7586)%Z 0x0;
  mkDevice 0xdfd00000e04 0x153d3000153d9 (5782)%Z 0x0 (-1)%Z 0x1da300001da6;
  mkDevice 0x23f00000249 0x153e3000153ee (5786)%Z 0x0 (-1)%Z 0x1da600001da7;
  mkDevice 0x2a1000002a7 0x1540000015407 (5787)%Z 0x0 (-1)%Z 0x1da700001dad;
  mkDevice 0x23f00000249 0x1543f00015444 (-1)%Z 0x1543f00015444 (-1)%Z 0x1dad00001daf;
  mkDevice 0x23f00000249 0x154440001544c (5795)%Z 0x0 (7599)%Z 0x0;
  mkDevice 0x23f00000249 0x154520001545a (5796)%Z 0x0 (-1)%Z 0x1db000001db1;
  mkDevice 0x23f00000249 0x154660001546b (5797)%Z 0x0 (7601)%Z 0x0;
  mkDevice 0x23f00000249 0x1546b00015473 (5798)%Z 0x0 (-1)%Z 0x1db200001ea2;
  mkDevice 0x23f00000249 0x160290001603b (5986)%Z 0x0 (7842)%Z 0x0;
  mkDevice 0x23f00000249 0x1603b00016040 (5987)%Z 0x0 (-1)%Z 0x1ea300001ea6;
  mkDevice 0x23f00000249 0x1604000016047 (5991)%Z 0x0 (-1)%Z 0x1ea600001ea7;
  mkDevice 0x23f00000249 0x160470001604c (5993)%Z 0x0 (-1)%Z 0x1ea700001ea9;
  mkDevice 0x2a1000002a7 0x1605f00016064 (5995)%Z 0x0 (-1)%Z 0x1ea900001eae;
  mkDevice 0x7cc000007d6 0x1607900016081 (6001)%Z 0x0 (7854)%Z 0x0;
  mkDevice 0x23f00000249 0x160810001608b (6002)%Z 0x0 (-1)%Z 0x1eaf00001ed2;
  mkDevice 0x2a1000002a7 0x161b4000161bf (6035)%Z 0x0 (7890)%Z 0x0;
  mkDevice 0x23b0000023d 0x161bf000161c5 (6036)%Z 0x0 (-1)%Z 0x1ed300001ed6;
  mkDevice 0x2a1000002a7 0x1620000016208 (6039)%Z 0x0 (7894)%Z 0x0;
  mkDevice 0x23f00000249 0x1620800016214 (6040)%Z 0x0 (-1)%Z 0x1ed700001ee5;
  mkDevice 0x2a1000002a7 0x1628b00016290 (6052)%Z 0x0 (-1)%Z 0x1ee500001ee8;
  mkDevice 0x23f00000249 0x162a0000162a6 (-1)%Z 0x162a6000162ad (-1)%Z 0x1ee800001eeb;
  mkDevice 0x2a1000002a7 0x162cc000162d2 (6057)%Z 0x0 (7915)%Z 0x0;
  mkDevice 0x2a1000002a7 0x162d2000162d8 (6058)%Z 0x0 (7916)%Z 0x0;
  mkDevice 0x23f00000249 0x162d8000162dd (6059)%Z 0x0 (-1)%Z 0x1eed00001ef4;
  mkDevice 0x23f00000249 0x163270001632c (6063)%Z 0x0 (7924)%Z 0x0;
  mkDevice 0x2a1000002a7 0x1632c00016333 (6064)%Z 0x0 (-1)%Z 0x1ef500001ef7;
  mkDevice 0x2a1000002a7 0x163390001633e (6067)%Z 0x0 (-1)%Z 0x1ef700001efe;
  mkDevice 0x2a1000002a7 0x1638300016388 (6072)%Z 0x0 (-1)%Z 0x1efe00001f00;
  mkDevice 0x23f00000249 0x163a6000163a9 (6073)%Z 0x0 (-1)%Z 0x1f0000001f0e;
  mkDevice 0x23b0000023d 0x1645100016455 (6088)%Z 0x0 (-1)%Z 0x1f0e00001f0f;
  mkDevice 0x23b0000023d 0x1645a00016460 (6090)%Z 0x0 (7951)%Z 0x0;
  mkDevice 0x23b0000023d 0x1646000016465 (6091)%Z 0x0 (7952)%Z 0x0;
  mkDevice 0x23b0000023d 0x164650001646b (6092)%Z 0x0 (-1)%Z 0x1f1100001f14;
  mkDevice 0x23b0000023d 0x1648d00016492 (6094)%Z 0x0 (7956)%Z 0x0;
  mkDevice 0x23f00000249 0x1649200016496 (6095)%Z 0x0 (7957)%Z 0x0;
  mkDevice 0x23b0000023d 0x164960001649f (6096)%Z 0x0 (7958)%Z 0x0;
  mkDevice 0x23f00000249 0x1649f000164a2 (6097)%Z 0x0 (-1)%Z 0x1f1700001f1e;
  mkDevice 0x23b0000023d 0x164e4000164e9 (6103)%Z 0x0 (7966)%Z 0x0;
  mkDevice 0x2a1000002a7 0x164e9000164f0 (-1)%Z 0x164e9000164f0 (-1)%Z 0x1f1f00001f21;
  mkDevice 0x23f00000249 0x1650d00016517 (6104)%Z 0x0 (7969)%Z 0x0;
  mkDevice 0x23f00000249 0x165170001651a (6105)%Z 0x0 (-1)%Z 0x1f2200001f36;
  mkDevice 0x23f00000249 0x165be000165c3 (6121)%Z 0x0 (7990)%Z 0x0;
  mkDevice 0x2a1000002a7 0x165d1000165d5 (6122)%Z 0x0 (-1)%Z 0x1f3700001f3d;
  mkDevice 0x23b0000023d 0x1661100016616 (6128)%Z 0x0 (7997)%Z 0x0;
  mkDevice 0x23f00000249 0x166160001661a (6129)%Z 0x0 (7998)%Z 0x0;
  mkDevice 0x23b0000023d 0x1661a00016622 (6130)%Z 0x0 (7999)%Z 0x0;
  mkDevice 0x23f00000249 0x1662f00016639 (6131)%Z 0x0 (-1)%Z 0x1f4000001f53;
  mkDevice 0x23f00000249 0x166bd000166c7 (6137)%Z 0x0 (-1)%Z 0x1f5300001f6b;
  mkDevice 0x2a1000002a7 0x167b5000167b9 (6141)%Z 0x0 (-1)%Z 0x1f6b00001f71;
  mkDevice 0x23f00000249 0x1683a0001683f (6144)%Z 0x0 (-1)%Z 0x1f7100001f72;
  mkDevice 0x23f00000249 0x168430001684e (6146)%Z 0x0 (-1)%Z 0x1f7200001f74;
  mkDevice 0x23b0000023d 0x1685900016861 (6149)%Z 0x0 (8052)%Z 0x0;
  mkDevice 0x23f00000249 0x1686100016868 (6150)%Z 0x0 (-1)%Z 0x1f7500001f7a;
  mkDevice 0x23f00000249 0x168c1000168c8 (6151)%Z 0x0 (-1)%Z 0x1f7a00001f7b;
  mkDevice 0x2a1000002a7 0x168d9000168e1 (6152)%Z 0x0 (8059)%Z 0x0;
  mkDevice 0x2a1000002a7 0x168e1000168e8 (6153)%Z 0x0 (-1)%Z 0x1f7c00001f81;
  mkDevice 0x23f00000249 0x168fb00016900 (6159)%Z 0x0 (-1)%Z 0x1f8100001f97;
  mkDevice 0x2a1000002a7 0x16a1d00016a23 (6181)%Z 0x0 (8087)%Z 0x0;
  mkDevice 0x23f00000249 0x16a2300016a2c (6182)%Z 0x0 (8088)%Z 0x0;
  mkDevice 0x23f00000249 0x16a2c00016a32 (6183)%Z 0x0 (-1)%Z 0x1f9900001f9e;
  mkDevice 0x23f00000249 0x16a5000016a56 (6187)%Z 0x0 (-1)%Z 0x1f9e00001fa1;
  mkDevice 0x23f00000249 0x16a5800016a5d (6191)%Z 0x0 (8097)%Z 0x0;
  mkDevice 0x2a1000002a7 0x16a5d00016a64 (6192)%Z 0x0 (-1)%Z 0x1fa200001fa6;
  mkDevice 0x2a1000002a7 0x16a8c00016a95 (6196)%Z 0x0 (8102)%Z 0x0;
  mkDevice 0x23b0000023d 0x16a9b00016aa1 (6197)%Z 0x0 (8103)%Z 0x0;
  mkDevice 0x23b0000023d 0x16aa100016aa7 (-1)%Z 0x16aa700016aad (-1)%Z 0x1fa800001faa;
  mkDevice 0x23b0000023d 0x16ab400016abb (-1)%Z 0x16abb00016ac1 (-1)%Z 0x1faa00001fab;
  mkDevice 0x2a1000002a7 0x16acc00016ad2 (6200)%Z 0x0 (8107)%Z 0x0;
  mkDevice 0x23f00000249 0x16ada00016ae2 (-1)%Z 0x16ae200016ae6 (-1)%Z 0x1fac00001fad;
  mkDevice 0x2a1000002a7 0x16ae600016aec (6202)%Z 0x0 (-1)%Z 0x1fad00001fae;
  mkDevice 0x2b1e00002b26 0x16aec00016af7 (6204)%Z 0x0 (8110)%Z 0x0;
  mkDevice 0x2a1000002a7 0x16af700016b01 (6205)%Z 0x0 (8111)%Z 0x0;
  mkDevice 0x23b0000023d 0x16b0100016b06 (6206)%Z 0x0 (8112)%Z 0x0;
  mkDevice 0x39a000003a7 0x16b0600016b0c (6207)%Z 0x0 (8113)%Z 0x0;
  mkDevice 0x23f00000249 0x16b0c00016b13 (6208)%Z 0x0 (-1)%Z 0x1fb200001fb5;
  mkDevice 0x23f00000249 0x16b5200016b58 (6209)%Z 0x0 (-1)%Z 0x1fb500001fb7;
  mkDevice 0x8e00000099 0x16b6800016b6e (6211)%Z 0x0 (8119)%Z 0x0;
  mkDevice 0x23f00000249 0x16b6e00016b75 (6212)%Z 0x0 (8120)%Z 0x0;
  mkDevice 0x23f00000249 0x16b7500016b79 (6213)%Z 0x0 (-1)%Z 0x1fb900001fbb;
  mkDevice 0x23b0000023d 0x16b7900016b7e (6216)%Z 0x0 (8123)%Z 0x0;
  mkDevice 0x23f00000249 0x16b8400016b8a (6217)%Z 0x0 (-1)%Z 0x1fbc00001fbe;
  mkDevice 0x23b0000023d 0x16b8a00016b99 (6220)%Z 0x0 (-1)%Z 0x1fbe00001fc9;
  mkDevice 0x2a1000002a7 0x16c0100016c09 (6224)%Z 0x0 (-1)%Z 0x1fc900001fd9;
  mkDevice 0x2a1000002a7 0x16cf700016cfe (6227)%Z 0x0 (8153)%Z 0x0;
  mkDevice 0x23f00000249 0x16cfe00016d05 (6228)%Z 0x0 (-1)%Z 0x1fda00001fdb;
  mkDevice 0x23f00000249 0x16d0500016d0a (-1)%Z 0x16d0a00016d0f (-1)%Z 0x1fdb00001fdd;
  mkDevice 0x23f00000249 0x16d0f00016d14 (6232)%Z 0x0 (8157)%Z 0x0;
  mkDevice 0x23f00000249 0x16d1400016d1a (6233)%Z 0x0 (-1)%Z 0x1fde00001fe2;
  mkDevice 0x23f00000249 0x16d1a00016d1f (6238)%Z 0x0 (-1)%Z 0x1fe200002035;
  mkDevice 0x23f00000249 0x170160001701a (6291)%Z 0x0 (-1)%Z 0x20350000206a;
  mkDevice 0x23f00000249 0x171990001719d (6344)%Z 0x0 (-1)%Z 0x206a00002071;
  mkDevice 0x23b0000023d 0x171ab000171b2 (-1)%Z 0x171b2000171ba (-1)%Z 0x0;
  mkDevice 0x23b0000023d 0x171ba000171c3 (6352)%Z 0x0 (8305)%Z 0x0;
  mkDevice 0x23b0000023d 0x171c3000171cc (6353)%Z 0x0 (-1)%Z 0x207200002073;
  mkDevice 0x2a1000002a7 0x171cc000171d5 (6355)%Z 0x0 (8307)%Z 0x0;
  mkDevice 0x23f00000249 0x171e3000171e6 (6356)%Z 0x0 (-1)%Z 0x20740000207a;
  mkDevice 0x23f00000249 0x172040001720b (6363)%Z 0x0 (-1)%Z 0x207a00002080;
  mkDevice 0x23f00000249 0x172490001724d (6367)%Z 0x0 (-1)%Z 0x208000002082;
  mkDevice 0x23b0000023d 0x172530001725a (-1)%Z 0x1725a00017263 (-1)%Z 0x208200002084;
  mkDevice 0x23b0000023d 0x1727e00017283 (6372)%Z 0x0 (8324)%Z 0x0;
  mkDevice 0x23f00000249 0x1728300017288 (6373)%Z 0x0 (-1)%Z 0x208500002089;
  mkDevice 0x23f00000249 0x172a0000172a7 (6377)%Z 0x0 (8329)%Z 0x0;
  mkDevice 0x23f00000249 0x172a7000172ac (6378)%Z 0x0 (8330)%Z 0x0;
  mkDevice 0x2a1000002a7 0x172b8000172c0 (6379)%Z 0x0 (8331)%Z 0x0;
  mkDevice 0x23f00000249 0x172c0000172c5 (6380)%Z 0x0 (-1)%Z 0x208c000020d4;
  mkDevice 0x23f00000249 0x1766e00017672 (6394)%Z 0x0 (-1)%Z 0x20d4000020d7;
  mkDevice 0x2a1000002a7 0x176760001767c (6398)%Z 0x0 (-1)%Z 0x20d7000020de;
  mkDevice 0x23f00000249 0x1770700017709 (6402)%Z 0x0 (-1)%Z 0x20de000020e8;
  mkDevice 0x23f00000249 0x1775600017758 (6413)%Z 0x0 (-1)%Z 0x20e8000020ee;
  mkDevice 0x7cc000007d6 0x177580001775d (6420)%Z 0x0 (8430)%Z 0x0;
  mkDevice 0x23f00000249 0x1775d00017762 (6421)%Z 0x0 (8431)%Z 0x0;
  mkDevice 0x2a1000002a7 0x1776200017766 (6422)%Z 0x0 (8432)%Z 0x0;
  mkDevice 0x23f00000249 0x177660001776a (6423)%Z 0x0 (-1)%Z 0x20f1000020f3;
  mkDevice 0x23b0000023d 0x177760001777a (6425)%Z 0x0 (-1)%Z 0x20f3000020f4;
  mkDevice 0x23f00000249 0x1777a0001777e (6427)%Z 0x0 (-1)%Z 0x20f4000020f8;
  mkDevice 0x2a1000002a7 0x1779300017796 (6429)%Z 0x0 (-1)%Z 0x20f8000020fb;
  mkDevice 0x23b0000023d 0x177ac000177b0 (6432)%Z 0x0 (-1)%Z 0x20fb000020ff;
  mkDevice 0x2a1000002a7 0x177be000177c7 (6436)%Z 0x0 (-1)%Z 0x20ff00002114;
  mkDevice 0x23f00000249 0x1790400017908 (6444)%Z 0x0 (-1)%Z 0x211400002258;
  mkDevice 0x23f00000249 0x1835e00018363 (6685)%Z 0x0 (-1)%Z 0x225800002264;
  mkDevice 0x23b0000023d 0x183c2000183c5 (6694)%Z 0x0 (-1)%Z 0x226400002266;
  mkDevice 0x23f00000249 0x183d6000183da (6695)%Z 0x0 (8806)%Z 0x0;
  mkDevice 0x23f00000249 0x183da000183df (-1)%Z 0x183da000183df (-1)%Z 0x22670000226b;
  mkDevice 0x2a1000002a7 0x184040001840a (6698)%Z 0x0 (-1)%Z 0x226b0000226c;
  mkDevice 0x23f00000249 0x1841300018418 (6700)%Z 0x0 (8812)%Z 0x0;
  mkDevice 0x23f00000249 0x184180001841c (6701)%Z 0x0 (-1)%Z 0x226d0000226f;
  mkDevice 0x2a1000002a7 0x1842300018429 (6704)%Z 0x0 (-1)%Z 0x226f00002271;
  mkDevice 0x23f00000249 0x184290001842f (6707)%Z 0x0 (-1)%Z 0x227100002273;
  mkDevice 0x23f00000249 0x184390001843d (6709)%Z 0x0 (8819)%Z 0x0;
  mkDevice 0x23f00000249 0x1843d00018440 (6710)%Z 0x0 (-1)%Z 0x227400002285;
  mkDevice 0x2a1000002a7 0x1849c000184a3 (6728)%Z 0x0 (-1)%Z 0x228500002287;
  mkDevice 0x2a1000002a7 0x184c3000184c7 (6731)%Z 0x0 (-1)%Z 0x2287000022c4;
  mkDevice 0x23f00000249 0x1898300018988 (6752)%Z 0x0 (-1)%Z 0x22c4000022c6;
  mkDevice 0x23f00000249 0x189a7000189ad (6754)%Z 0x0 (-1)%Z 0x22c6000022cb;
  mkDevice 0x23f00000249 0x189c5000189ca (6760)%Z 0x0 (-1)%Z 0x22cb000022cd;
  mkDevice 0x23f00000249 0x189dc000189e0 (6762)%Z 0x0 (-1)%Z 0x22cd000022d0;
  mkDevice 0x2a1000002a7 0x189fc00018a01 (6766)%Z 0x0 (8912)%Z 0x0;
  mkDevice 0x2a1000002a7 0x18a0100018a06 (6767)%Z 0x0 (8913)%Z 0x0;
  mkDevice 0x23f00000249 0x18a0e00018a15 (6768)%Z 0x0 (-1)%Z 0x22d2000022d3;
  mkDevice 0x23f00000249 0x18a1900018a1d (6770)%Z 0x0 (-1)%Z 0x22d3000022ea;
  mkDevice 0x23f00000249 0x18b7700018b7f (6788)%Z 0x0 (-1)%Z 0x22ea000022ed;
  mkDevice 0x2a1000002a7 0x18bb000018bb7 (6791)%Z 0x0 (8941)%Z 0x0;
  mkDevice 0x23f00000249 0x18bb700018bbe (6792)%Z 0x0 (-1)%Z 0x22ee00002344;
  mkDevice 0x23f00000249 0x18e8800018e8d (6858)%Z 0x0 (-1)%Z 0x234400002347;
  mkDevice 0x2a1000002a7 0x18e9b00018e9f (6862)%Z 0x0 (-1)%Z 0x23470000234a;
  mkDevice 0x23f00000249 0x18eab00018eb0 (6866)%Z 0x0 (-1)%Z 0x234a0000234c;
  mkDevice 0x23f00000249 0x18eb000018eb5 (-1)%Z 0x18eb500018ebd (9036)%Z 0x0;
  mkDevice 0x23b0000023d 0x18ebd00018ec4 (6869)%Z 0x0 (-1)%Z 0x234d0000234f;
  mkDevice 0x23f00000249 0x18ed000018eda (6872)%Z 0x0 (-1)%Z 0x234f00002354;
  mkDevice 0x23b0000023d 0x18f5400018f5b (6873)%Z 0x0 (-1)%Z 0x23540000235d;
  mkDevice 0x23f00000249 0x18fd600018fdc (6879)%Z 0x0 (-1)%Z 0x235d00002360;
  mkDevice 0x23f00000249 0x1900a00019010 (6881)%Z 0x0 (-1)%Z 0x236000002364;
  mkDevice 0x7cc000007d6 0x190180001901e (6886)%Z 0x0 (-1)%Z 0x236400002365;
  mkDevice 0x23f00000249 0x1902d00019033 (6887)%Z 0x0 (-1)%Z 0x236500002379;
  mkDevice 0x7cc000007d6 0x1911e00019127 (6898)%Z 0x0 (9081)%Z 0x0;
  mkDevice 0x23f00000249 0x191270001912c (6899)%Z 0x0 (-1)%Z 0x237a00002382;
  mkDevice 0x23b0000023d 0x1917a00019180 (6900)%Z 0x0 (9090)%Z 0x0;
  mkDevice 0x23b0000023d 0x1918000019188 (6901)%Z 0x0 (-1)%Z 0x238300002384;
  mkDevice 0x23f00000249 0x1918800019191 (6903)%Z 0x0 (9092)%Z 0x0;
  mkDevice 0x23b0000023d 0x14c9700014c9c (6904)%Z 0x0 (-1)%Z 0x238500002387;
  mkDevice 0x23f00000249 0x1919a0001919e (6907)%Z 0x0 (-1)%Z 0x23870000238c;
  mkDevice 0x23f00000249 0x191a6000191ad (6912)%Z 0x0 (-1)%Z 0x238c000023a1;
  mkDevice 0x2a1000002a7 0x1923200019239 (6928)%Z 0x0 (-1)%Z 0x23a1000023aa;
  mkDevice 0x23f00000249 0x192a6000192aa (-1)%Z 0x192aa000192b2 (9130)%Z 0x0;
  mkDevice 0x23f00000249 0x192b2000192b6 (6933)%Z 0x0 (-1)%Z 0x23ab000023ad;
  mkDevice 0x2a1000002a7 0x192c1000192c8 (6936)%Z 0x0 (-1)%Z 0x23ad000023bc;
  mkDevice 0x2a1000002a7 0x193470001934b (6949)%Z 0x0 (9148)%Z 0x0;
  mkDevice 0x23b0000023d 0x1935100019358 (6950)%Z 0x0 (9149)%Z 0x0;
  mkDevice 0x23f00000249 0x193580001935f (6951)%Z 0x0 (-1)%Z 0x23be000023c0;
  mkDevice 0x2a1000002a7 0x1936d00019373 (6953)%Z 0x0 (-1)%Z 0x23c0000023c1;
  mkDevice 0x2a1000002a7 0x1937b00019383 (-1)%Z 0x1938300019390 (9153)%Z 0x0;
  mkDevice 0x23f00000249 0x1939d000193a2 (6955)%Z 0x0 (-1)%Z 0x23c2000023ca;
  mkDevice 0x23f00000249 0x1941300019416 (6958)%Z 0x0 (-1)%Z 0x23ca000023cc;
  mkDevice 0x23f00000249 0x1942a00019437 (6960)%Z 0x0 (-1)%Z 0x23cc000023ce;
  mkDevice 0x2a1000002a7 0x194370001943b (6963)%Z 0x0 (-1)%Z 0x23ce000023d0;
  mkDevice 0x7cc000007d6 0x1944100019447 (6966)%Z 0x0 (9168)%Z 0x0;
  mkDevice 0x2a1000002a7 0x194470001944e (6967)%Z 0x0 (-1)%Z 0x23d1000023d5;
  mkDevice 0x23f00000249 0x1948200019488 (6970)%Z 0x0 (-1)%Z 0x23d5000023d6
].
Definition d_dr_idx3_6 : list deviceTuple := [
  mkDevice 0x2a1000002a7 0x1948e00019492 (6971)%Z 0x0 (-1)%Z 0x23d6000023d7;
  mkDevice 0x23f00000249 0x1949c000194a0 (6973)%Z 0x0 (-1)%Z 0x23d700002411;
  mkDevice 0x23f00000249 0x195de000195e4 (7025)%Z 0x0 (-1)%Z 0x241100002413;
  mkDevice 0x23f00000249 0x195ed000195f1 (7028)%Z 0x0 (9235)%Z 0x0;
  mkDevice 0x23f00000249 0x195f1000195f6 (7029)%Z 0x0 (9236)%Z 0x0;
  mkDevice 0x23b0000023d 0x195f6000195fc (-1)%Z 0x195fc00019605 (-1)%Z 0x241500002416;
  mkDevice 0x23b0000023d 0x196150001961c (7031)%Z 0x0 (-1)%Z 0x0;
  mkDevice 0x23f00000249 0x1961c00019621 (7032)%Z 0x0 (-1)%Z 0x241600002419;
  mkDevice 0x23b0000023d 0x1962100019626 (-1)%Z 0x1962600019632 (9241)%Z 0x0;
  mkDevice 0x23f00000249 0x1963800019651 (-1)%Z 0x1965100019660 (9242)%Z 0x0;
  mkDevice 0x2a1000002a7 0x196600001966c (7036)%Z 0x0 (-1)%Z 0x241b00002420;
  mkDevice 0x23b0000023d 0x196af000196b6 (-1)%Z 0x196b6000196c0 (9248)%Z 0x0;
  mkDevice 0x23f00000249 0x196c0000196c4 (7039)%Z 0x0 (-1)%Z 0x242100002427;
  mkDevice 0x2a1000002a7 0x196df000196e6 (-1)%Z 0x196e6000196ed (9255)%Z 0x0;
  mkDevice 0x23f00000249 0x196ed000196f6 (7044)%Z 0x0 (-1)%Z 0x242800002442;
  mkDevice 0x23b0000023d 0x197bd000197c4 (-1)%Z 0x197bd000197c4 (-1)%Z 0x244200002443;
  mkDevice 0x23f00000249 0x197c4000197c8 (7069)%Z 0x0 (9283)%Z 0x0;
  mkDevice 0x23b0000023d 0x197c8000197cf (7070)%Z 0x0 (9284)%Z 0x0;
  mkDevice 0x2a1000002a7 0x197cf000197d8 (7071)%Z 0x0 (9285)%Z 0x0;
  mkDevice 0x23f00000249 0x197d8000197df (7072)%Z 0x0 (-1)%Z 0x244600002451;
  mkDevice 0x23f00000249 0x1981b00019828 (7080)%Z 0x0 (9297)%Z 0x0;
  mkDevice 0x23f00000249 0x1982800019836 (7081)%Z 0x0 (-1)%Z 0x245200002454;
  mkDevice 0x23f00000249 0x198440001984a (7083)%Z 0x0 (-1)%Z 0x245400002456;
  mkDevice 0x23b0000023d 0x1987200019878 (7084)%Z 0x0 (-1)%Z 0x24560000245d;
  mkDevice 0x2a1000002a7 0x1989c000198a1 (7090)%Z 0x0 (-1)%Z 0x245d0000245f;
  mkDevice 0x2a1000002a7 0x198c5000198ce (7091)%Z 0x0 (-1)%Z 0x245f00002465;
  mkDevice 0x23b0000023d 0x198fb00019901 (-1)%Z 0x198fb00019901 (-1)%Z 0x246500002468;
  mkDevice 0x23f00000249 0x1993e00019945 (7098)%Z 0x0 (-1)%Z 0x24680000246e;
  mkDevice 0x23f00000249 0x1997300019979 (7105)%Z 0x0 (-1)%Z 0x246e00002475;
  mkDevice 0x23f00000249 0x199a3000199aa (7112)%Z 0x0 (-1)%Z 0x24750000248b;
  mkDevice 0x23f00000249 0x19a4200019a4a (7132)%Z 0x0 (-1)%Z 0x248b00002490;
  mkDevice 0x2a1000002a7 0x19a5d00019a61 (7138)%Z 0x0 (-1)%Z 0x249000002493;
  mkDevice 0x2b1e00002b26 0x19a6a00019a6e (7141)%Z 0x0 (-1)%Z 0x249300002496;
  mkDevice 0x23f00000249 0x19a8100019a88 (7144)%Z 0x0 (-1)%Z 0x24960000249e;
  mkDevice 0x2a1000002a7 0x19aa600019ab7 (7151)%Z 0x0 (9374)%Z 0x0;
  mkDevice 0x23f00000249 0x19ab700019abd (7152)%Z 0x0 (9375)%Z 0x0;
  mkDevice 0x23f00000249 0x19ac800019ad2 (7153)%Z 0x0 (9376)%Z 0x0;
  mkDevice 0x2a1000002a7 0x19ad200019ad7 (7154)%Z 0x0 (-1)%Z 0x24a1000024b7;
  mkDevice 0x2a1000002a7 0x19b7900019b89 (7171)%Z 0x0 (-1)%Z 0x24b7000024b9;
  mkDevice 0x2a1000002a7 0x19b9200019b99 (7174)%Z 0x0 (9401)%Z 0x0;
  mkDevice 0x23b0000023d 0x19b9900019ba1 (-1)%Z 0x19ba100019baa (-1)%Z 0x24ba000024bb;
  mkDevice 0x2a1000002a7 0x19bb200019bb8 (7176)%Z 0x0 (-1)%Z 0x24bb000024be;
  mkDevice 0x23f00000249 0x19bed00019bf1 (7178)%Z 0x0 (-1)%Z 0x24be000024c6;
  mkDevice 0x2a1000002a7 0x19c5100019c5a (7179)%Z 0x0 (9414)%Z 0x0;
  mkDevice 0x23f00000249 0x19c5a00019c5f (7180)%Z 0x0 (9415)%Z 0x0;
  mkDevice 0x2a1000002a7 0x19c5f00019c69 (7181)%Z 0x0 (-1)%Z 0x24c8000024cf;
  mkDevice 0x7cc000007d6 0x19c9700019ca3 (-1)%Z 0x19ca300019ca7 (-1)%Z 0x24cf000024d0;
  mkDevice 0x2a1000002a7 0x19ca700019cb4 (7189)%Z 0x0 (-1)%Z 0x24d0000024dd;
  mkDevice 0x23b0000023d 0x19dda00019ddf (7194)%Z 0x0 (-1)%Z 0x24dd000024de;
  mkDevice 0x23b0000023d 0x19ddf00019de8 (7196)%Z 0x0 (9438)%Z 0x0;
  mkDevice 0x23f00000249 0x19de800019df0 (7197)%Z 0x0 (-1)%Z 0x24df00002502;
  mkDevice 0x8e00000099 0x19f9a00019fa2 (7207)%Z 0x0 (-1)%Z 0x250200002503;
  mkDevice 0x2a1000002a7 0x19fb500019fbc (7208)%Z 0x0 (-1)%Z 0x250300002505;
  mkDevice 0x23f00000249 0x19fbc00019fc4 (7211)%Z 0x0 (-1)%Z 0x25050000252c;
  mkDevice 0x23f00000249 0x1a1820001a186 (7237)%Z 0x0 (-1)%Z 0x252c0000252e;
  mkDevice 0x23f00000249 0x1a1860001a18c (-1)%Z 0x1a18c0001a195 (9518)%Z 0x0;
  mkDevice 0x8e00000099 0x1a1950001a19c (-1)%Z 0x1a19c0001a1bb (-1)%Z 0x0;
  mkDevice 0x2a1000002a7 0x1a1bb0001a1c4 (7240)%Z 0x0 (9519)%Z 0x0;
  mkDevice 0x23f00000249 0x1a1c40001a1cc (7241)%Z 0x0 (-1)%Z 0x25300000253c;
  mkDevice 0x23f00000249 0x1a2480001a254 (7245)%Z 0x0 (-1)%Z 0x253c0000254c;
  mkDevice 0x2a1000002a7 0x1a2e10001a2e9 (7262)%Z 0x0 (9548)%Z 0x0;
  mkDevice 0x23f00000249 0x1a2f40001a300 (7263)%Z 0x0 (-1)%Z 0x254d0000254f;
  mkDevice 0x23f00000249 0x1a3190001a31f (7264)%Z 0x0 (-1)%Z 0x254f00002558;
  mkDevice 0x2a1000002a7 0x1a3840001a38d (7267)%Z 0x0 (-1)%Z 0x2558000025a3;
  mkDevice 0x2a1000002a7 0x1a8d30001a8db (7285)%Z 0x0 (-1)%Z 0x25a3000025a5;
  mkDevice 0x23f00000249 0x1a8eb0001a8f1 (7288)%Z 0x0 (-1)%Z 0x25a5000025b0;
  mkDevice 0x2a1000002a7 0x1a9370001a93d (7300)%Z 0x0 (-1)%Z 0x25b0000025ba;
  mkDevice 0x2a1000002a7 0x1a9b10001a9b8 (7304)%Z 0x0 (-1)%Z 0x25ba000025bc;
  mkDevice 0x2a1000002a7 0x1a9b80001a9bf (7307)%Z 0x0 (-1)%Z 0x25bc000025be;
  mkDevice 0x23b0000023d 0x1a9ca0001a9d3 (7310)%Z 0x0 (9662)%Z 0x0;
  mkDevice 0x2a1000002a7 0x1a9d30001a9da (7311)%Z 0x0 (-1)%Z 0x25bf000025c2;
  mkDevice 0x8e00000099 0x1a9ef0001a9f6 (7314)%Z 0x0 (9666)%Z 0x0;
  mkDevice 0x23f00000249 0x1a9f60001a9fe (7315)%Z 0x0 (9667)%Z 0x0;
  mkDevice 0x2a1000002a7 0x1a9fe0001aa03 (7316)%Z 0x0 (9668)%Z 0x0;
  mkDevice 0x23f00000249 0x1aa030001aa09 (-1)%Z 0x1aa090001aa11 (-1)%Z 0x25c5000025c6;
  mkDevice 0x23b0000023d 0x1aa110001aa16 (7317)%Z 0x0 (-1)%Z 0x0;
  mkDevice 0x23f00000249 0x1aa160001aa1d (7318)%Z 0x0 (-1)%Z 0x25c6000025c7;
  mkDevice 0x23f00000249 0x1aa1d0001aa23 (7320)%Z 0x0 (-1)%Z 0x25c7000025c9;
  mkDevice 0x23f00000249 0x1aa2b0001aa2e (7322)%Z 0x0 (9673)%Z 0x0;
  mkDevice 0x23f00000249 0x1aa2e0001aa31 (7323)%Z 0x0 (-1)%Z 0x25ca000025cc;
  mkDevice 0x2a1000002a7 0x1aa310001aa36 (7326)%Z 0x0 (-1)%Z 0x25cc000025cd;
  mkDevice 0x23f00000249 0x1aa3f0001aa46 (7328)%Z 0x0 (-1)%Z 0x25cd00002604;
  mkDevice 0x23f00000249 0x1acae0001acb3 (7353)%Z 0x0 (-1)%Z 0x260400002605;
  mkDevice 0x23b0000023d 0x1acb90001acbe (7355)%Z 0x0 (9733)%Z 0x0;
  mkDevice 0x23f00000249 0x1acbe0001acc4 (7356)%Z 0x0 (-1)%Z 0x260600002620;
  mkDevice 0x2a1000002a7 0x1ae0a0001ae11 (7364)%Z 0x0 (-1)%Z 0x262000002621;
  mkDevice 0x23f00000249 0x1ae110001ae1c (7366)%Z 0x0 (-1)%Z 0x262100002628;
  mkDevice 0x23f00000249 0x1ae650001ae69 (7373)%Z 0x0 (9768)%Z 0x0;
  mkDevice 0x2a1000002a7 0x1ae690001ae78 (7374)%Z 0x0 (9769)%Z 0x0;
  mkDevice 0x23f00000249 0x1ae830001ae8a (7375)%Z 0x0 (-1)%Z 0x262a00002634;
  mkDevice 0x23f00000249 0x1aec90001aecf (7386)%Z 0x0 (9780)%Z 0x0;
  mkDevice 0x23f00000249 0x1aecf0001aed3 (7387)%Z 0x0 (-1)%Z 0x263500002639;
  mkDevice 0x23f00000249 0x1aeeb0001aef2 (-1)%Z 0x1aef20001af01 (9785)%Z 0x0;
  mkDevice 0x23f00000249 0x61180000611d (7391)%Z 0x0 (-1)%Z 0x263a0000263b;
  mkDevice 0x23f00000249 0x1af070001af0d (7392)%Z 0x0 (-1)%Z 0x263b0000263c;
  mkDevice 0x2a1000002a7 0x1af120001af16 (7394)%Z 0x0 (-1)%Z 0x263c00002641;
  mkDevice 0x23b0000023d 0x1af330001af37 (-1)%Z 0x1af370001af3e (-1)%Z 0x264100002642;
  mkDevice 0x2a1000002a7 0x1af530001af58 (7400)%Z 0x0 (-1)%Z 0x264200002647;
  mkDevice 0x23b0000023d 0x1af8c0001af90 (7402)%Z 0x0 (9799)%Z 0x0;
  mkDevice 0x39a000003a7 0x1af960001af9a (7403)%Z 0x0 (9800)%Z 0x0;
  mkDevice 0x23b0000023d 0x1af9f0001afa3 (7404)%Z 0x0 (9801)%Z 0x0;
  mkDevice 0x23f00000249 0x1afa30001afae (7405)%Z 0x0 (-1)%Z 0x264a0000265a;
  mkDevice 0x2a1000002a7 0x1b09d0001b0a0 (7415)%Z 0x0 (9818)%Z 0x0;
  mkDevice 0x23f00000249 0x1b0a00001b0a3 (7416)%Z 0x0 (9819)%Z 0x0;
  mkDevice 0x23f00000249 0x1b0af0001b0b4 (-1)%Z 0x1b0b40001b0ba (-1)%Z 0x265c0000265d;
  mkDevice 0x2a1000002a7 0x1b0c00001b0c5 (7418)%Z 0x0 (-1)%Z 0x265d00002660;
  mkDevice 0x23f00000249 0x1b0c50001b0ca (7422)%Z 0x0 (-1)%Z 0x266000002661;
  mkDevice 0x23f00000249 0x1b0d10001b0d4 (7424)%Z 0x0 (-1)%Z 0x266100002678;
  mkDevice 0x2a1000002a7 0x1b1b50001b1bc (7440)%Z 0x0 (-1)%Z 0x267800002679;
  mkDevice 0x23b0000023d 0x1b1ca0001b1ce (7441)%Z 0x0 (9849)%Z 0x0;
  mkDevice 0x23f00000249 0x1b1ce0001b1d8 (7442)%Z 0x0 (-1)%Z 0x267a0000267c;
  mkDevice 0x23f00000249 0x1b1ef0001b1f2 (7444)%Z 0x0 (9852)%Z 0x0;
  mkDevice 0x23f00000249 0x1b1f90001b200 (7445)%Z 0x0 (-1)%Z 0x267d00002682;
  mkDevice 0x23f00000249 0x1b2320001b237 (7446)%Z 0x0 (-1)%Z 0x268200002687;
  mkDevice 0x7cc000007d6 0x1b2590001b262 (7450)%Z 0x0 (9863)%Z 0x0;
  mkDevice 0x23f00000249 0x1b2620001b267 (7451)%Z 0x0 (9864)%Z 0x0;
  mkDevice 0x23f00000249 0x1b2670001b26f (7452)%Z 0x0 (-1)%Z 0x26890000268a;
  mkDevice 0x23f00000249 0x1b2870001b28c (7453)%Z 0x0 (-1)%Z 0x268a0000268c;
  mkDevice 0x23f00000249 0x1b2a00001b2a5 (7454)%Z 0x0 (9868)%Z 0x0;
  mkDevice 0x2a1000002a7 0x1b2a50001b2ac (7455)%Z 0x0 (-1)%Z 0x268d00002690;
  mkDevice 0x23f00000249 0x1b2ba0001b2c0 (7459)%Z 0x0 (9872)%Z 0x0;
  mkDevice 0x23f00000249 0x1b2c00001b2c6 (7460)%Z 0x0 (-1)%Z 0x26910000276d;
  mkDevice 0x23b0000023d 0x1bb3b0001bb42 (7548)%Z 0x0 (-1)%Z 0x276d00002771;
  mkDevice 0x23f00000249 0x1bb5f0001bb66 (7552)%Z 0x0 (10097)%Z 0x0;
  mkDevice 0x2a1000002a7 0x1bb660001bb6c (7553)%Z 0x0 (-1)%Z 0x277200002773;
  mkDevice 0x2a1000002a7 0x1bb7c0001bb82 (7555)%Z 0x0 (-1)%Z 0x277300002776;
  mkDevice 0x2a1000002a7 0x1bba90001bbaf (7556)%Z 0x0 (-1)%Z 0x277600002795;
  mkDevice 0x23f00000249 0x1bda60001bdac (7564)%Z 0x0 (10133)%Z 0x0;
  mkDevice 0x2a1000002a7 0x1bdac0001bdb3 (7565)%Z 0x0 (10134)%Z 0x0;
  mkDevice 0x23f00000249 0x1bdb30001bdb9 (7566)%Z 0x0 (-1)%Z 0x279700002798;
  mkDevice 0x23b0000023d 0x1bdbd0001bdc3 (7568)%Z 0x0 (10136)%Z 0x0;
  mkDevice 0x1060000010d 0x18600000194 (-1)%Z 0x18600000194 (-1)%Z 0x27990000279c;
  mkDevice 0x23f00000249 0x1bdc30001bdc7 (7571)%Z 0x0 (-1)%Z 0x279c0000279e;
  mkDevice 0x23f00000249 0x1bddb0001bde4 (7573)%Z 0x0 (-1)%Z 0x279e0000279f;
  mkDevice 0x23f00000249 0x1bdec0001bdf1 (7574)%Z 0x0 (10143)%Z 0x0;
  mkDevice 0x7cc000007d6 0x1bdf80001bdfd (-1)%Z 0x1bdfd0001be03 (-1)%Z 0x27a0000027a1;
  mkDevice 0x23b0000023d 0x1be130001be1c (7575)%Z 0x0 (10145)%Z 0x0;
  mkDevice 0x23f00000249 0x1be200001be2d (-1)%Z 0x1be2d0001be3a (-1)%Z 0x27a2000027a3;
  mkDevice 0x23f00000249 0x1be4f0001be54 (7576)%Z 0x0 (10147)%Z 0x0;
  mkDevice 0x2a1000002a7 0x1be540001be5a (7577)%Z 0x0 (-1)%Z 0x27a4000027a6;
  mkDevice 0x23f00000249 0x1be660001be6e (7580)%Z 0x0 (10150)%Z 0x0;
  mkDevice 0x23f00000249 0x1be730001be7a (7581)%Z 0x0 (-1)%Z 0x27a7000027a8;
  mkDevice 0x23f00000249 0x1be7a0001be7e (7583)%Z 0x0 (-1)%Z 0x27a8000027ad;
  mkDevice 0x2a1000002a7 0x1beca0001bed0 (7587)%Z 0x0 (10157)%Z 0x0;
  mkDevice 0x2a1000002a7 0x1bed00001bed9 (-1)%Z 0x1bed90001beec (10158)%Z 0x0;
  mkDevice 0x23f00000249 0x1bef50001befd (7588)%Z 0x0 (10159)%Z 0x0;
  mkDevice 0x2a1000002a7 0x8faa00008fb0 (7589)%Z 0x0 (10160)%Z 0x0;
  mkDevice 0x23f00000249 0x1befd0001bf02 (7590)%Z 0x0 (-1)%Z 0x27b1000027b5;
  mkDevice 0x23b0000023d 0x1bf1a0001bf1e (7591)%Z 0x0 (-1)%Z 0x27b5000027b8;
  mkDevice 0x23b0000023d 0x1bf4c0001bf53 (7592)%Z 0x0 (-1)%Z 0x27b8000027be;
  mkDevice 0x23b0000023d 0x1bfa50001bfab (7596)%Z 0x0 (10174)%Z 0x0;
  mkDevice 0x2a1000002a7 0x1bfab0001bfb4 (7597)%Z 0x0 (10175)%Z 0x0;
  mkDevice 0x39a000003a7 0x1bfbb0001bfc0 (7598)%Z 0x0 (10176)%Z 0x0;
  mkDevice 0x2a1000002a7 0x1bfc00001bfcf (7599)%Z 0x0 (-1)%Z 0x27c1000027c6;
  mkDevice 0x23f00000249 0x1bff10001bff9 (7605)%Z 0x0 (-1)%Z 0x27c6000027c9;
  mkDevice 0x2a1000002a7 0x1c00b0001c011 (-1)%Z 0x1c00b0001c011 (-1)%Z 0x27c9000027cb;
  mkDevice 0x23f00000249 0x1c0210001c028 (7608)%Z 0x0 (-1)%Z 0x27cb000027cd;
  mkDevice 0x2a1000002a7 0x1c02d0001c036 (7610)%Z 0x0 (-1)%Z 0x27cd000027ce;
  mkDevice 0x23f00000249 0x1c0360001c03c (7612)%Z 0x0 (-1)%Z 0x27ce000027cf;
  mkDevice 0x23f00000249 0x1c0470001c04b (7614)%Z 0x0 (-1)%Z 0x27cf000027d3;
  mkDevice 0x23f00000249 0x1c0580001c05e (-1)%Z 0x1c05e0001c067 (10195)%Z 0x0;
  mkDevice 0x23f00000249 0x1c0670001c06c (7618)%Z 0x0 (-1)%Z 0x27d4000027d7;
  mkDevice 0x23b0000023d 0x1c0780001c07c (7620)%Z 0x0 (-1)%Z 0x27d7000027d9;
  mkDevice 0x23f00000249 0x1c0870001c08b (7622)%Z 0x0 (-1)%Z 0x27d9000027db;
  mkDevice 0x2a1000002a7 0x1c08b0001c092 (7625)%Z 0x0 (10203)%Z 0x0;
  mkDevice 0x23f00000249 0x1c0920001c098 (7626)%Z 0x0 (-1)%Z 0x27dc000027de;
  mkDevice 0x23f00000249 0x1c0980001c09d (7629)%Z 0x0 (-1)%Z 0x27de000027df;
  mkDevice 0x23f00000249 0x1c09d0001c0a2 (7631)%Z 0x0 (10207)%Z 0x0;
  mkDevice 0x23f00000249 0x1c0a90001c0ad (-1)%Z 0x1c0ad0001c0b4 (-1)%Z 0x27e0000027e2;
  mkDevice 0x2a1000002a7 0x1c0c50001c0ca (7632)%Z 0x0 (10210)%Z 0x0;
  mkDevice 0x7cc000007d6 0x1c0ca0001c0cf (7633)%Z 0x0 (10211)%Z 0x0;
  mkDevice 0x23b0000023d 0x1c0cf0001c0d2 (7634)%Z 0x0 (-1)%Z 0x0;
  mkDevice 0x23f00000249 0x1c0d20001c0da (7635)%Z 0x0 (-1)%Z 0x27e4000027e8;
  mkDevice 0x23b0000023d 0x1c0f20001c0f7 (7640)%Z 0x0 (10216)%Z 0x0;
  mkDevice 0x23f00000249 0x1c0f70001c0fc (7641)%Z 0x0 (10217)%Z 0x0;
  mkDevice 0x23f00000249 0x1c1020001c105 (7642)%Z 0x0 (-1)%Z 0x27ea00002805;
  mkDevice 0x2a1000002a7 0x1c21a0001c21e (7669)%Z 0x0 (-1)%Z 0x280500002807;
  mkDevice 0x23b0000023d 0x1c2360001c23c (-1)%Z 0x1c2360001c23c (-1)%Z 0x280700002809;
  mkDevice 0x23b0000023d 0x1c2590001c265 (7670)%Z 0x0 (-1)%Z 0x28090000280b;
  mkDevice 0x23f00000249 0x1c2810001c284 (7673)%Z 0x0 (10251)%Z 0x0;
  mkDevice 0x23f00000249 0x1c2840001c28e (7674)%Z 0x0 (-1)%Z 0x280c00002810;
  mkDevice 0x23f00000249 0x1c2e80001c2ef (7675)%Z 0x0 (-1)%Z 0x281000002812;
  mkDevice 0x23f00000249 0x1c3020001c30d (7677)%Z 0x0 (-1)%Z 0x281200002814;
  mkDevice 0x23b0000023d 0x1c3350001c339 (7678)%Z 0x0 (10260)%Z 0x0;
  mkDevice 0x23f00000249 0x1c3390001c33e (7679)%Z 0x0 (10261)%Z 0x0;
  mkDevice 0x23f00000249 0x1c33e0001c342 (7680)%Z 0x0 (10262)%Z 0x0;
  mkDevice 0x23f00000249 0x1c3490001c34d (7681)%Z 0x0 (-1)%Z 0x28170000281a;
  mkDevice 0x296a00002977 0x1c37f0001c384 (7683)%Z 0x0 (-1)%Z 0x281a00002824;
  mkDevice 0x23f00000249 0x1c3ae0001c3b2 (-1)%Z 0x1c3b20001c3bb (10276)%Z 0x0;
  mkDevice 0x2a1000002a7 0x1c3bb0001c3c0 (7693)%Z 0x0 (10277)%Z 0x0;
  mkDevice 0x2a1000002a7 0x1c3c00001c3c3 (7694)%Z 0x0 (-1)%Z 0x282600002846;
  mkDevice 0x23f00000249 0x1c5f60001c5fb (7702)%Z 0x0 (-1)%Z 0x284600002847;
  mkDevice 0x2a1000002a7 0x1c5fb0001c600 (7704)%Z 0x0 (10311)%Z 0x0;
  mkDevice 0x23f00000249 0x1c6030001c607 (7705)%Z 0x0 (10312)%Z 0x0;
  mkDevice 0x23f00000249 0x1c6070001c611 (7706)%Z 0x0 (-1)%Z 0x284900002853;
  mkDevice 0x23f00000249 0x1c6a40001c6af (7707)%Z 0x0 (10323)%Z 0x0;
  mkDevice 0x23f00000249 0x1c6af0001c6b2 (7708)%Z 0x0 (-1)%Z 0x28540000285b;
  mkDevice 0x23b0000023d 0x1c6f20001c6f8 (7712)%Z 0x0 (-1)%Z 0x285b0000285d;
  mkDevice 0x2a1000002a7 0x1c6ff0001c704 (7714)%Z 0x0 (10333)%Z 0x0;
  mkDevice 0x2a1000002a7 0x1c7060001c70d (7715)%Z 0x0 (-1)%Z 0x285e00002862
].
Definition d_dr_idx3_7 : list deviceTuple := [
  mkDevice 0x23f00000249 0x1c7420001c74f (7719)%Z 0x0 (-1)%Z 0x286200002866;
  mkDevice 0xbf670000bf7c 0x1c76e0001c773 (7723)%Z 0x0 (-1)%Z 0x286600002867;
  mkDevice 0x23f00000249 0x1c77b0001c77e (7725)%Z 0x0 (10343)%Z 0x0;
  mkDevice 0x2a1000002a7 0x1c7860001c78c (7726)%Z 0x0 (10344)%Z 0x0;
  mkDevice 0x23b0000023d 0x1c78c0001c790 (7727)%Z 0x0 (-1)%Z 0x28690000286b;
  mkDevice 0x23f00000249 0x1c7900001c799 (7730)%Z 0x0 (-1)%Z 0x286b00002877;
  mkDevice 0x23f00000249 0x1c85e0001c863 (7733)%Z 0x0 (-1)%Z 0x28770000287b;
  mkDevice 0x23b0000023d 0x1c8630001c86b (7738)%Z 0x0 (-1)%Z 0x287b00002880;
  mkDevice 0x23f00000249 0x1c8850001c88a (7743)%Z 0x0 (-1)%Z 0x288000002882;
  mkDevice 0x23b0000023d 0x1c8990001c89f (7746)%Z 0x0 (-1)%Z 0x288200002884;
  mkDevice 0x23b0000023d 0x1c89f0001c8a5 (7749)%Z 0x0 (-1)%Z 0x288400002886;
  mkDevice 0x23f00000249 0x180000001f (7751)%Z 0x0 (-1)%Z 0x288600002b5c;
  mkDevice 0x2a1000002a7 0x1f6420001f649 (8430)%Z 0x0 (11100)%Z 0x0;
  mkDevice 0x23b0000023d 0x1f6490001f650 (8431)%Z 0x0 (11101)%Z 0x0;
  mkDevice 0x23f00000249 0x1f6500001f655 (8432)%Z 0x0 (-1)%Z 0x2b5e00002b62;
  mkDevice 0x2a1000002a7 0x1f6640001f66a (-1)%Z 0x1f66a0001f673 (11106)%Z 0x0;
  mkDevice 0x23f00000249 0x1f67d0001f683 (8434)%Z 0x0 (-1)%Z 0x2b6300002b65;
  mkDevice 0x23f00000249 0x1f68a0001f690 (8436)%Z 0x0 (-1)%Z 0x2b6500002b7a;
  mkDevice 0x39a000003a7 0x1ac000001b1 (8458)%Z 0x0 (-1)%Z 0x2b7a00002b7f;
  mkDevice 0x23b0000023d 0x1f73c0001f741 (8464)%Z 0x0 (11135)%Z 0x0;
  mkDevice 0x23b0000023d 0x1f7410001f745 (8465)%Z 0x0 (11136)%Z 0x0;
  mkDevice 0x23b0000023d 0x1f7450001f74e (8466)%Z 0x0 (-1)%Z 0x0;
  mkDevice 0x23f00000249 0x1f74e0001f753 (8467)%Z 0x0 (-1)%Z 0x2b8100002b83;
  mkDevice 0x23b0000023d 0x1f7890001f78f (8468)%Z 0x0 (11139)%Z 0x0;
  mkDevice 0x23f00000249 0x1f78f0001f796 (8469)%Z 0x0 (11140)%Z 0x0;
  mkDevice 0x23f00000249 0x1f7960001f79c (-1)%Z 0x1f7960001f79c (-1)%Z 0x2b8500002b86;
  mkDevice 0x23f00000249 0x1f79c0001f7a2 (8471)%Z 0x0 (-1)%Z 0x2b8600002b88;
  mkDevice 0x2a1000002a7 0x1f7a20001f7ab (8474)%Z 0x0 (-1)%Z 0x2b8800002b8a;
  mkDevice 0x23b0000023d 0x1f7ab0001f7b2 (-1)%Z 0x1f7ab0001f7b2 (-1)%Z 0x2b8a00002b8b;
  mkDevice 0x23f00000249 0x1f7b20001f7b8 (-1)%Z 0x1f7b80001f7be (-1)%Z 0x2b8b00002b92;
  mkDevice 0x2a1000002a7 0x1f87f0001f885 (8478)%Z 0x0 (-1)%Z 0x2b9200002ba1;
  mkDevice 0x23b0000023d 0x1f9210001f928 (-1)%Z 0x1f9280001f92f (-1)%Z 0x2ba100002ba2;
  mkDevice 0x39a000003a7 0x1f9500001f955 (8494)%Z 0x0 (11170)%Z 0x0;
  mkDevice 0x2a1000002a7 0x1f9550001f95d (8495)%Z 0x0 (-1)%Z 0x2ba300002ba5;
  mkDevice 0x23f00000249 0x1f9760001f97d (8497)%Z 0x0 (11173)%Z 0x0;
  mkDevice 0x23f00000249 0x1f97d0001f982 (8498)%Z 0x0 (-1)%Z 0x2ba600002bb5;
  mkDevice 0x23f00000249 0x1f9bf0001f9c4 (8514)%Z 0x0 (-1)%Z 0x2bb500002bb7;
  mkDevice 0x7cc000007d6 0x1f9cd0001f9d2 (8517)%Z 0x0 (11191)%Z 0x0;
  mkDevice 0x23f00000249 0x1f9d20001f9d7 (8518)%Z 0x0 (-1)%Z 0x2bb800002c2e;
  mkDevice 0x23f00000249 0x1ff010001ff0d (8629)%Z 0x0 (11310)%Z 0x0;
  mkDevice 0x23b0000023d 0x1ff0d0001ff14 (8630)%Z 0x0 (11311)%Z 0x0;
  mkDevice 0x7cc000007d6 0x1ff1a0001ff23 (8631)%Z 0x0 (11312)%Z 0x0;
  mkDevice 0x2a1000002a7 0x1ff2e0001ff35 (8632)%Z 0x0 (11313)%Z 0x0;
  mkDevice 0x23f00000249 0x1ff350001ff39 (8633)%Z 0x0 (-1)%Z 0x2c3200002c41;
  mkDevice 0x23f00000249 0x1ffd40001ffdb (8638)%Z 0x0 (-1)%Z 0x2c4100002c46;
  mkDevice 0x23f00000249 0x106ca000106cf (8644)%Z 0x0 (-1)%Z 0x2c4600002c4e;
  mkDevice 0x23b0000023d 0x200470002004e (8652)%Z 0x0 (11342)%Z 0x0;
  mkDevice 0x23f00000249 0x2004e0002005b (-1)%Z 0x2005b00020067 (11343)%Z 0x0;
  mkDevice 0x2a1000002a7 0x200670002006e (8653)%Z 0x0 (-1)%Z 0x2c5000002c58;
  mkDevice 0x23f00000249 0x200ac000200b2 (8656)%Z 0x0 (11352)%Z 0x0;
  mkDevice 0x23f00000249 0x200b2000200ba (8657)%Z 0x0 (-1)%Z 0x2c5900002c5d;
  mkDevice 0x23f00000249 0x200d3000200da (8662)%Z 0x0 (-1)%Z 0x2c5d00002c5e;
  mkDevice 0x23f00000249 0x200df000200e9 (8664)%Z 0x0 (-1)%Z 0x2c5e00002c60;
  mkDevice 0x23f00000249 0x200f9000200ff (8667)%Z 0x0 (11360)%Z 0x0;
  mkDevice 0x23f00000249 0x1678200016785 (8668)%Z 0x0 (-1)%Z 0x2c6100002c8f;
  mkDevice 0x23b0000023d 0x203420002034b (8698)%Z 0x0 (-1)%Z 0x2c8f00002c91;
  mkDevice 0x23b0000023d 0xb6cf0000b6d6 (8701)%Z 0x0 (11409)%Z 0x0;
  mkDevice 0x23b0000023d 0x203530002035a (8702)%Z 0x0 (-1)%Z 0x2c9200002c94;
  mkDevice 0x23b0000023d 0x2035a00020362 (8705)%Z 0x0 (-1)%Z 0x2c9400002c99;
  mkDevice 0x23f00000249 0x203960002039b (8708)%Z 0x0 (-1)%Z 0x2c9900002c9b;
  mkDevice 0x2a1000002a7 0x203a9000203af (8711)%Z 0x0 (11419)%Z 0x0;
  mkDevice 0x23f00000249 0xf5750000f57a (8712)%Z 0x0 (-1)%Z 0x2c9c00002c9e;
  mkDevice 0x2a1000002a7 0x203c5000203d1 (8714)%Z 0x0 (-1)%Z 0x2c9e00002c9f;
  mkDevice 0x23b0000023d 0x203d7000203e1 (8716)%Z 0x0 (-1)%Z 0x0;
  mkDevice 0x2a1000002a7 0x203e1000203ea (8717)%Z 0x0 (-1)%Z 0x2c9f00002ca1;
  mkDevice 0x2a1000002a7 0x203ee000203f5 (8720)%Z 0x0 (11425)%Z 0x0;
  mkDevice 0x23f00000249 0x203f5000203fc (8721)%Z 0x0 (-1)%Z 0x2ca200002ca3;
  mkDevice 0x23f00000249 0x203fc00020405 (8723)%Z 0x0 (-1)%Z 0x2ca300002cb5;
  mkDevice 0x23f00000249 0x2050e00020517 (8728)%Z 0x0 (-1)%Z 0x2cb500002cc3;
  mkDevice 0x2a1000002a7 0x2056f00020575 (8739)%Z 0x0 (-1)%Z 0x2cc300002cc5;
  mkDevice 0x23f00000249 0x2058400020591 (8741)%Z 0x0 (-1)%Z 0x2cc500002ccc;
  mkDevice 0x23b0000023d 0x205db000205e5 (8748)%Z 0x0 (11468)%Z 0x0;
  mkDevice 0x7cc000007d6 0x205e5000205ee (-1)%Z 0x205e5000205ee (-1)%Z 0x2ccd00002cce;
  mkDevice 0x23f00000249 0x2061100020615 (8749)%Z 0x0 (-1)%Z 0x2cce00002cd0;
  mkDevice 0x23f00000249 0x2061e00020626 (8751)%Z 0x0 (-1)%Z 0x2cd000002cd3;
  mkDevice 0x23f00000249 0x2062600020630 (8755)%Z 0x0 (11475)%Z 0x0;
  mkDevice 0x23f00000249 0x2063000020636 (8756)%Z 0x0 (-1)%Z 0x2cd400002cdc;
  mkDevice 0x23f00000249 0x206ab000206b0 (8760)%Z 0x0 (-1)%Z 0x2cdc00002ce5;
  mkDevice 0x23f00000249 0x1e6000001ea (8770)%Z 0x0 (-1)%Z 0x2ce500002dc1;
  mkDevice 0x23b0000023d 0x210320002103a (8974)%Z 0x0 (11713)%Z 0x0;
  mkDevice 0x23b0000023d 0x2103a00021042 (8975)%Z 0x0 (11714)%Z 0x0;
  mkDevice 0x23f00000249 0x2104200021047 (8976)%Z 0x0 (-1)%Z 0x2dc300002dc6;
  mkDevice 0x23f00000249 0x2105c00021064 (8978)%Z 0x0 (-1)%Z 0x2dc600002dc7;
  mkDevice 0x23f00000249 0x2106400021069 (8979)%Z 0x0 (-1)%Z 0x2dc700002dd4;
  mkDevice 0x23f00000249 0x210c9000210d4 (8984)%Z 0x0 (11732)%Z 0x0;
  mkDevice 0x23f00000249 0x210d4000210dc (8985)%Z 0x0 (-1)%Z 0x2dd500002dd9;
  mkDevice 0x23f00000249 0x154c3000154c8 (8990)%Z 0x0 (-1)%Z 0x2dd900002de5;
  mkDevice 0x23b0000023d 0x211a3000211a9 (8999)%Z 0x0 (11749)%Z 0x0;
  mkDevice 0x23f00000249 0x211af000211b8 (9000)%Z 0x0 (-1)%Z 0x2de600002df4;
  mkDevice 0x23f00000249 0x212b1000212bb (9003)%Z 0x0 (-1)%Z 0x2df400002dfa;
  mkDevice 0x2a1000002a7 0x212ea000212f1 (9010)%Z 0x0 (11770)%Z 0x0;
  mkDevice 0x23b0000023d 0x212fe00021306 (9011)%Z 0x0 (-1)%Z 0x2dfb00002dfc;
  mkDevice 0x23b0000023d 0x2130e00021315 (9013)%Z 0x0 (-1)%Z 0x2dfc00002dfe;
  mkDevice 0x23f00000249 0x2132000021326 (9015)%Z 0x0 (-1)%Z 0x2dfe00002e00;
  mkDevice 0x2a1000002a7 0x2132c00021332 (9018)%Z 0x0 (-1)%Z 0x2e0000002e02;
  mkDevice 0x23f00000249 0x213510002135b (9020)%Z 0x0 (-1)%Z 0x2e0200002e03;
  mkDevice 0x23f00000249 0x2135b00021367 (9022)%Z 0x0 (-1)%Z 0x2e0300002e06;
  mkDevice 0x23f00000249 0x2136d00021372 (9026)%Z 0x0 (-1)%Z 0x2e0600002e34;
  mkDevice 0x23f00000249 0x2159100021596 (9039)%Z 0x0 (-1)%Z 0x2e3400002e36;
  mkDevice 0x23f00000249 0x215960002159b (9042)%Z 0x0 (-1)%Z 0x2e3600002e3b;
  mkDevice 0x2a1000002a7 0x215a9000215b2 (9048)%Z 0x0 (-1)%Z 0x2e3b00002e3d;
  mkDevice 0x23f00000249 0x215b2000215b8 (9051)%Z 0x0 (-1)%Z 0x2e3d00002e3f;
  mkDevice 0x23f00000249 0x215b8000215be (9054)%Z 0x0 (-1)%Z 0x2e3f00002e42;
  mkDevice 0x7cc000007d6 0x215da000215df (9057)%Z 0x0 (-1)%Z 0x2e4200002e45;
  mkDevice 0x23f00000249 0x215f9000215fe (9060)%Z 0x0 (-1)%Z 0x2e4500002e4c;
  mkDevice 0x2a1000002a7 0x2160c00021614 (9068)%Z 0x0 (11852)%Z 0x0;
  mkDevice 0x23b0000023d 0x216140002161b (9069)%Z 0x0 (-1)%Z 0x2e4d00002e51;
  mkDevice 0x23b0000023d 0x216320002163f (9074)%Z 0x0 (-1)%Z 0x0;
  mkDevice 0x23b0000023d 0x2163f00021647 (9075)%Z 0x0 (11857)%Z 0x0;
  mkDevice 0x2a1000002a7 0x2164d00021657 (9076)%Z 0x0 (11858)%Z 0x0;
  mkDevice 0x23b0000023d 0x216570002165e (9077)%Z 0x0 (-1)%Z 0x2e5300002e55;
  mkDevice 0x2a1000002a7 0x2167a00021682 (9078)%Z 0x0 (-1)%Z 0x2e5500002e57;
  mkDevice 0x23b0000023d 0x2168900021691 (-1)%Z 0x2168900021691 (-1)%Z 0x2e5700002e58;
  mkDevice 0x23f00000249 0x216a5000216aa (9080)%Z 0x0 (-1)%Z 0x2e5800002e5a;
  mkDevice 0x23f00000249 0x216aa000216b1 (9083)%Z 0x0 (11866)%Z 0x0;
  mkDevice 0x23f00000249 0x216b1000216b6 (9084)%Z 0x0 (11867)%Z 0x0;
  mkDevice 0x2a1000002a7 0x216bd000216c3 (9085)%Z 0x0 (-1)%Z 0x2e5c00002e5e;
  mkDevice 0x23b0000023d 0x216dc000216e1 (9087)%Z 0x0 (11870)%Z 0x0;
  mkDevice 0x23f00000249 0x216e1000216e6 (9088)%Z 0x0 (-1)%Z 0x2e5f00002e65;
  mkDevice 0x23f00000249 0x2171d00021726 (9092)%Z 0x0 (11877)%Z 0x0;
  mkDevice 0x23f00000249 0x217260002172c (9093)%Z 0x0 (11878)%Z 0x0;
  mkDevice 0x23f00000249 0x2173500021739 (9094)%Z 0x0 (-1)%Z 0x2e6700002e68;
  mkDevice 0x23f00000249 0x2173e00021746 (9096)%Z 0x0 (-1)%Z 0x2e6800002e77;
  mkDevice 0x2a1000002a7 0x217b3000217b8 (9106)%Z 0x0 (11895)%Z 0x0;
  mkDevice 0xc9b00000ca2 0x217b8000217c0 (-1)%Z 0x217b8000217c0 (-1)%Z 0x2e7800002e79;
  mkDevice 0x23f00000249 0x217ca000217d2 (9108)%Z 0x0 (-1)%Z 0x2e7900002e92;
  mkDevice 0x23b0000023d 0x218f4000218f7 (9127)%Z 0x0 (11922)%Z 0x0;
  mkDevice 0x23b0000023d 0x218f7000218fd (-1)%Z 0x218f7000218fd (-1)%Z 0x2e9300002e94;
  mkDevice 0x2a1000002a7 0x218fd00021905 (9129)%Z 0x0 (-1)%Z 0x2e9400002e97;
  mkDevice 0x23b0000023d 0x2192400021929 (9132)%Z 0x0 (-1)%Z 0x0;
  mkDevice 0x2a1000002a7 0x2192900021931 (9133)%Z 0x0 (-1)%Z 0x2e9700002e98;
  mkDevice 0x23f00000249 0x219390002193c (9135)%Z 0x0 (-1)%Z 0x2e9800002f11;
  mkDevice 0x23b0000023d 0x21ca700021cb1 (9235)%Z 0x0 (12049)%Z 0x0;
  mkDevice 0x23f00000249 0x21cb100021cb8 (9236)%Z 0x0 (-1)%Z 0x2f1200002f15;
  mkDevice 0x23b0000023d 0x21cd600021cdf (9237)%Z 0x0 (-1)%Z 0x2f1500002f17;
  mkDevice 0x23f00000249 0x21cee00021cf3 (-1)%Z 0x21cee00021cf3 (-1)%Z 0x2f1700002f18;
  mkDevice 0x2a1000002a7 0x21cf300021cfa (9240)%Z 0x0 (12056)%Z 0x0;
  mkDevice 0x23f00000249 0x21cfa00021cfe (9241)%Z 0x0 (12057)%Z 0x0;
  mkDevice 0x39a000003a7 0x21cfe00021d04 (-1)%Z 0x21cfe00021d04 (-1)%Z 0x2f1a00002f1c;
  mkDevice 0x23b0000023d 0x21d0400021d0d (9244)%Z 0x0 (12060)%Z 0x0;
  mkDevice 0x2a1000002a7 0x21d0d00021d10 (9245)%Z 0x0 (12061)%Z 0x0;
  mkDevice 0x2a1000002a7 0x21d1f00021d22 (9246)%Z 0x0 (12062)%Z 0x0;
  mkDevice 0x23f00000249 0x21d2200021d27 (9247)%Z 0x0 (-1)%Z 0x2f1f00002f20;
  mkDevice 0x7cc000007d6 0x21d2700021d2d (9249)%Z 0x0 (12064)%Z 0x0;
  mkDevice 0x2a1000002a7 0x21d2d00021d35 (9250)%Z 0x0 (12065)%Z 0x0;
  mkDevice 0x23b0000023d 0x21d3500021d3c (9251)%Z 0x0 (-1)%Z 0x2f2200002f23;
  mkDevice 0x2a1000002a7 0x21d3c00021d43 (9253)%Z 0x0 (-1)%Z 0x2f2300002f25;
  mkDevice 0x23b0000023d 0x21d4700021d4a (-1)%Z 0x21d4a00021d4e (12069)%Z 0x0;
  mkDevice 0x2a1000002a7 0x21d4e00021d52 (9256)%Z 0x0 (12070)%Z 0x0;
  mkDevice 0x23b0000023d 0x21d5200021d58 (-1)%Z 0x21d5800021d63 (12071)%Z 0x0;
  mkDevice 0x23f00000249 0x21d6900021d6f (-1)%Z 0x21d6900021d6f (-1)%Z 0x2f2800002f29;
  mkDevice 0x23b0000023d 0x9cbc00009cbf (9258)%Z 0x0 (12073)%Z 0x0;
  mkDevice 0x23f00000249 0x21d7300021d76 (9259)%Z 0x0 (12074)%Z 0x0;
  mkDevice 0x23f00000249 0x21d8400021d87 (9260)%Z 0x0 (-1)%Z 0x2f2b00002f2e;
  mkDevice 0x23f00000249 0x21d9c00021dab (9264)%Z 0x0 (-1)%Z 0x2f2e00002f31;
  mkDevice 0x2a1000002a7 0x21dbf00021dc2 (9267)%Z 0x0 (12081)%Z 0x0;
  mkDevice 0x23f00000249 0x21dc200021dce (9268)%Z 0x0 (12082)%Z 0x0;
  mkDevice 0x2a1000002a7 0x21dda00021de0 (9269)%Z 0x0 (12083)%Z 0x0;
  mkDevice 0x23f00000249 0x21de000021de6 (9270)%Z 0x0 (12084)%Z 0x0;
  mkDevice 0x23f00000249 0x21de600021deb (9271)%Z 0x0 (12085)%Z 0x0;
  mkDevice 0x23b0000023d 0x21deb00021df0 (9272)%Z 0x0 (-1)%Z 0x2f3600002f3b;
  mkDevice 0x7cc000007d6 0x21e0c00021e16 (9277)%Z 0x0 (-1)%Z 0x2f3b00002f3c;
  mkDevice 0x23f00000249 0x21e1600021e1c (9279)%Z 0x0 (12092)%Z 0x0;
  mkDevice 0x2a1000002a7 0x21e2400021e2b (9280)%Z 0x0 (-1)%Z 0x2f3d00002f4b;
  mkDevice 0x23f00000249 0x21ea000021ea8 (9289)%Z 0x0 (-1)%Z 0x2f4b00002f4c;
  mkDevice 0x23f00000249 0x21eb400021ebd (9291)%Z 0x0 (12108)%Z 0x0;
  mkDevice 0x2a1000002a7 0x21eca00021ed2 (9292)%Z 0x0 (-1)%Z 0x2f4d00002f4f;
  mkDevice 0x23b0000023d 0x21eec00021ef5 (9295)%Z 0x0 (12111)%Z 0x0;
  mkDevice 0x23b0000023d 0x21efe00021f06 (-1)%Z 0x21efe00021f06 (-1)%Z 0x0;
  mkDevice 0x2a1000002a7 0x21f0600021f0d (9296)%Z 0x0 (-1)%Z 0x2f5000002f81;
  mkDevice 0x23f00000249 0x2207700022083 (9324)%Z 0x0 (-1)%Z 0x2f8100003048;
  mkDevice 0x23f00000249 0x2281100022818 (9519)%Z 0x0 (-1)%Z 0x30480000304a;
  mkDevice 0x23f00000249 0x228360002283b (9521)%Z 0x0 (-1)%Z 0x304a0000304f;
  mkDevice 0x2a1000002a7 0x2284900022853 (9527)%Z 0x0 (-1)%Z 0x304f00003059;
  mkDevice 0x23f00000249 0x228b9000228bf (9533)%Z 0x0 (-1)%Z 0x30590000305d;
  mkDevice 0x23f00000249 0x228f3000228fa (9535)%Z 0x0 (-1)%Z 0x305d0000305f;
  mkDevice 0x23b0000023d 0x228fa000228ff (-1)%Z 0x228fa000228ff (-1)%Z 0x305f00003061;
  mkDevice 0x39a000003a7 0x2291b00022920 (-1)%Z 0x2291b00022920 (-1)%Z 0x306100003063;
  mkDevice 0x23b0000023d 0x2292000022926 (9540)%Z 0x0 (12387)%Z 0x0;
  mkDevice 0x23b0000023d 0x229260002292b (-1)%Z 0x2292b00022931 (-1)%Z 0x306400003065;
  mkDevice 0x23f00000249 0x229370002293c (9541)%Z 0x0 (-1)%Z 0x30650000306e;
  mkDevice 0x23f00000249 0x229a6000229b1 (9547)%Z 0x0 (-1)%Z 0x306e00003070;
  mkDevice 0x7cc000007d6 0x229b8000229bd (9549)%Z 0x0 (-1)%Z 0x307000003071;
  mkDevice 0x2a1000002a7 0x229c2000229cc (9551)%Z 0x0 (12401)%Z 0x0;
  mkDevice 0x23f00000249 0x229d1000229d9 (-1)%Z 0x229d1000229d9 (-1)%Z 0x307200003073;
  mkDevice 0x2a1000002a7 0x229d9000229de (9553)%Z 0x0 (12403)%Z 0x0;
  mkDevice 0x2a1000002a7 0x229e6000229eb (9554)%Z 0x0 (-1)%Z 0x307400003076;
  mkDevice 0x2a1000002a7 0x229fb00022a03 (9557)%Z 0x0 (12406)%Z 0x0;
  mkDevice 0x23f00000249 0x22a0d00022a10 (9558)%Z 0x0 (-1)%Z 0x30770000307e;
  mkDevice 0x2a1000002a7 0x22a2600022a2d (9565)%Z 0x0 (-1)%Z 0x307e00003092;
  mkDevice 0x23f00000249 0x22af200022af9 (9578)%Z 0x0 (12434)%Z 0x0;
  mkDevice 0x23f00000249 0x22af900022b00 (9579)%Z 0x0 (12435)%Z 0x0;
  mkDevice 0x23b0000023d 0x22b0000022b04 (9580)%Z 0x0 (-1)%Z 0x309400003098;
  mkDevice 0x2a1000002a7 0x22b2100022b27 (9583)%Z 0x0 (-1)%Z 0x30980000309a;
  mkDevice 0x23f00000249 0x22b3300022b39 (9586)%Z 0x0 (-1)%Z 0x309a0000309d;
  mkDevice 0x2a1000002a7 0x22b5400022b59 (9590)%Z 0x0 (12445)%Z 0x0;
  mkDevice 0x23f00000249 0x22b6100022b67 (9591)%Z 0x0 (-1)%Z 0x309e000030ac;
  mkDevice 0x23f00000249 0x22c2600022c2b (9597)%Z 0x0 (12460)%Z 0x0;
  mkDevice 0x23f00000249 0x22c2b00022c30 (9598)%Z 0x0 (12461)%Z 0x0;
  mkDevice 0x2a1000002a7 0x22c3000022c35 (9599)%Z 0x0 (12462)%Z 0x0
].
Definition d_dr_idx3_8 : list deviceTuple := [
  mkDevice 0x2a1000002a7 0x22c3500022c3b (9600)%Z 0x0 (12463)%Z 0x0;
  mkDevice 0x23f00000249 0x22c4800022c4c (9601)%Z 0x0 (12464)%Z 0x0;
  mkDevice 0x23f00000249 0x22c4c00022c51 (-1)%Z 0x22c5100022c56 (-1)%Z 0x30b1000030b3;
  mkDevice 0x23f00000249 0x22c5d00022c66 (9604)%Z 0x0 (-1)%Z 0x30b3000030b7;
  mkDevice 0x23b0000023d 0x22c9700022ca0 (9605)%Z 0x0 (-1)%Z 0x30b7000030bd;
  mkDevice 0x2a1000002a7 0x22cd800022ce1 (9607)%Z 0x0 (12477)%Z 0x0;
  mkDevice 0x39a000003a7 0x22cf300022cf9 (9608)%Z 0x0 (12478)%Z 0x0;
  mkDevice 0x23b0000023d 0x22cf900022d00 (9609)%Z 0x0 (12479)%Z 0x0;
  mkDevice 0x2a1000002a7 0x22d0400022d09 (9610)%Z 0x0 (-1)%Z 0x30c0000030c5;
  mkDevice 0x23f00000249 0x10c5100010c57 (9615)%Z 0x0 (-1)%Z 0x30c5000030cc;
  mkDevice 0x23f00000249 0x22d7300022d7a (9619)%Z 0x0 (-1)%Z 0x30cc000030e8;
  mkDevice 0x2a1000002a7 0x22ec200022ecc (9633)%Z 0x0 (12520)%Z 0x0;
  mkDevice 0x23f00000249 0x22ecc00022ed5 (9634)%Z 0x0 (-1)%Z 0x30e9000030ee;
  mkDevice 0x23b0000023d 0x22f0c00022f15 (9638)%Z 0x0 (-1)%Z 0x30ee000030f0;
  mkDevice 0x23f00000249 0x22f2300022f2b (9641)%Z 0x0 (12528)%Z 0x0;
  mkDevice 0x2a1000002a7 0x22f3500022f3d (9642)%Z 0x0 (-1)%Z 0x30f1000030fb;
  mkDevice 0x2a1000002a7 0x22fd100022fd6 (9649)%Z 0x0 (-1)%Z 0x30fb00003108;
  mkDevice 0x23b0000023d 0x230730002307b (9662)%Z 0x0 (12552)%Z 0x0;
  mkDevice 0x23b0000023d 0x2307b00023083 (9663)%Z 0x0 (12553)%Z 0x0;
  mkDevice 0x23f00000249 0x230830002308a (9664)%Z 0x0 (12554)%Z 0x0;
  mkDevice 0x23f00000249 0x2308a00023091 (9665)%Z 0x0 (-1)%Z 0x310b0000310e;
  mkDevice 0x23f00000249 0x230d3000230da (-1)%Z 0x230da000230e6 (-1)%Z 0x310e0000310f;
  mkDevice 0x23f00000249 0x230f5000230f9 (9667)%Z 0x0 (12559)%Z 0x0;
  mkDevice 0x23b0000023d 0x230fe00023107 (9668)%Z 0x0 (12560)%Z 0x0;
  mkDevice 0x23f00000249 0x231070002310b (9669)%Z 0x0 (-1)%Z 0x311100003125;
  mkDevice 0x23f00000249 0x232d5000232de (9682)%Z 0x0 (12581)%Z 0x0;
  mkDevice 0x23f00000249 0x232de000232e3 (9683)%Z 0x0 (12582)%Z 0x0;
  mkDevice 0x23f00000249 0x232e3000232f2 (9684)%Z 0x0 (12583)%Z 0x0;
  mkDevice 0x23f00000249 0x9fef00009ff4 (9685)%Z 0x0 (-1)%Z 0x312800003130;
  mkDevice 0x23f00000249 0x233340002333b (9694)%Z 0x0 (-1)%Z 0x31300000314b;
  mkDevice 0x2a1000002a7 0x2345d00023466 (9712)%Z 0x0 (-1)%Z 0x314b0000314f;
  mkDevice 0x2a1000002a7 0x2348a00023492 (9716)%Z 0x0 (12623)%Z 0x0;
  mkDevice 0x23f00000249 0x234920002349a (9717)%Z 0x0 (-1)%Z 0x315000003155;
  mkDevice 0x23b0000023d 0x234c4000234c9 (9723)%Z 0x0 (12629)%Z 0x0;
  mkDevice 0x2a1000002a7 0x234c9000234d0 (9724)%Z 0x0 (-1)%Z 0x315600003158;
  mkDevice 0x23f00000249 0x234d0000234d5 (9727)%Z 0x0 (12632)%Z 0x0;
  mkDevice 0x23f00000249 0x234d5000234e2 (-1)%Z 0x234e2000234ee (-1)%Z 0x31590000315a;
  mkDevice 0x23b0000023d 0x234f3000234fb (9729)%Z 0x0 (12634)%Z 0x0;
  mkDevice 0x23f00000249 0x234fb00023502 (9730)%Z 0x0 (-1)%Z 0x315b0000315f;
  mkDevice 0x23f00000249 0x2351b00023528 (-1)%Z 0x235280002352d (-1)%Z 0x315f00003161;
  mkDevice 0x23b0000023d 0x235480002354a (9736)%Z 0x0 (-1)%Z 0x316100003164;
  mkDevice 0x23b0000023d 0x235660002356b (9740)%Z 0x0 (-1)%Z 0x316400003165;
  mkDevice 0x23f00000249 0x2356b00023572 (9742)%Z 0x0 (-1)%Z 0x3165000031a2;
  mkDevice 0x23f00000249 0x2375400023759 (9771)%Z 0x0 (-1)%Z 0x31a2000031a4;
  mkDevice 0x23f00000249 0x237590002375d (9774)%Z 0x0 (-1)%Z 0x31a4000031a5;
  mkDevice 0x23f00000249 0x2375d00023763 (-1)%Z 0x2375d00023763 (-1)%Z 0x31a5000031a6;
  mkDevice 0x23f00000249 0x2376300023767 (9777)%Z 0x0 (-1)%Z 0x31a6000031aa;
  mkDevice 0x39a000003a7 0x2377f00023788 (9780)%Z 0x0 (12714)%Z 0x0;
  mkDevice 0x23f00000249 0x237880002378d (9781)%Z 0x0 (12715)%Z 0x0;
  mkDevice 0x23f00000249 0x2378d00023796 (9782)%Z 0x0 (12716)%Z 0x0;
  mkDevice 0x23b0000023d 0x237a0000237a5 (9783)%Z 0x0 (-1)%Z 0x31ad000031b1;
  mkDevice 0x23f00000249 0x237bf000237c4 (9787)%Z 0x0 (12721)%Z 0x0;
  mkDevice 0x23f00000249 0x237c4000237ca (9788)%Z 0x0 (-1)%Z 0x31b2000031b8;
  mkDevice 0x23f00000249 0x237dc000237e3 (9792)%Z 0x0 (-1)%Z 0x31b8000031e4;
  mkDevice 0x2a1000002a7 0x2394c00023950 (9827)%Z 0x0 (-1)%Z 0x31e4000031ef;
  mkDevice 0x23f00000249 0x239fc00023a01 (9838)%Z 0x0 (-1)%Z 0x31ef000031f0;
  mkDevice 0x23b0000023d 0x23a1900023a25 (9839)%Z 0x0 (-1)%Z 0x31f0000031f2;
  mkDevice 0x23f00000249 0x23a4900023a4f (9840)%Z 0x0 (12786)%Z 0x0;
  mkDevice 0x23f00000249 0x23a4f00023a57 (9841)%Z 0x0 (-1)%Z 0x31f300003204;
  mkDevice 0x23f00000249 0x23b2a00023b3e (9847)%Z 0x0 (12804)%Z 0x0;
  mkDevice 0x23f00000249 0x23b4500023b4b (9848)%Z 0x0 (12805)%Z 0x0;
  mkDevice 0x23f00000249 0x23b5200023b5a (9849)%Z 0x0 (-1)%Z 0x320600003208;
  mkDevice 0x23f00000249 0x23b5c00023b64 (-1)%Z 0x23b5c00023b64 (-1)%Z 0x32080000320a;
  mkDevice 0x23f00000249 0x23b6400023b6d (9854)%Z 0x0 (12810)%Z 0x0;
  mkDevice 0x23f00000249 0x23b6d00023b74 (9855)%Z 0x0 (-1)%Z 0x320b0000320d;
  mkDevice 0x23b0000023d 0x23b7e00023b8a (9858)%Z 0x0 (-1)%Z 0x320d0000320f;
  mkDevice 0x23f00000249 0x23bc700023bce (9859)%Z 0x0 (-1)%Z 0x320f0000321b;
  mkDevice 0x23f00000249 0x23c1400023c1b (9871)%Z 0x0 (-1)%Z 0x321b00003226;
  mkDevice 0x23f00000249 0x23c8c00023c9f (9872)%Z 0x0 (-1)%Z 0x322600003227;
  mkDevice 0x23f00000249 0x23ca200023caa (9874)%Z 0x0 (-1)%Z 0x32270000322a;
  mkDevice 0x23f00000249 0x23cc200023cc7 (9875)%Z 0x0 (-1)%Z 0x322a0000322d;
  mkDevice 0x2a1000002a7 0x23cc700023ccd (9879)%Z 0x0 (-1)%Z 0x322d0000322f;
  mkDevice 0x2a1000002a7 0x23cd900023cde (9881)%Z 0x0 (-1)%Z 0x322f00003230;
  mkDevice 0x23f00000249 0x23cde00023ce3 (9883)%Z 0x0 (12848)%Z 0x0;
  mkDevice 0x23b0000023d 0x23ce300023ce9 (9884)%Z 0x0 (12849)%Z 0x0;
  mkDevice 0x23f00000249 0x23ce900023cef (9885)%Z 0x0 (12850)%Z 0x0;
  mkDevice 0x2a1000002a7 0x1202300012025 (9886)%Z 0x0 (12851)%Z 0x0;
  mkDevice 0x23f00000249 0x23cef00023cf3 (9887)%Z 0x0 (-1)%Z 0x323400003236;
  mkDevice 0x2a1000002a7 0x23d0000023d04 (9889)%Z 0x0 (-1)%Z 0x323600003237;
  mkDevice 0x2a1000002a7 0x23d0c00023d11 (-1)%Z 0x23d1100023d1a (12855)%Z 0x0;
  mkDevice 0x2a1000002a7 0x23d2300023d2a (-1)%Z 0x23d2a00023d35 (12856)%Z 0x0;
  mkDevice 0x2a1000002a7 0x23d4100023d47 (9891)%Z 0x0 (12857)%Z 0x0;
  mkDevice 0x2a1000002a7 0x23d4700023d4d (9892)%Z 0x0 (-1)%Z 0x323a0000323b;
  mkDevice 0x23f00000249 0x23d4d00023d51 (9894)%Z 0x0 (12859)%Z 0x0;
  mkDevice 0x23f00000249 0x23d5100023d53 (9895)%Z 0x0 (-1)%Z 0x323c0000323f;
  mkDevice 0x23f00000249 0x23d6c00023d70 (9898)%Z 0x0 (12863)%Z 0x0;
  mkDevice 0x23f00000249 0x23d7000023d74 (9899)%Z 0x0 (-1)%Z 0x324000003243;
  mkDevice 0x23f00000249 0x23d7400023d79 (9903)%Z 0x0 (12867)%Z 0x0;
  mkDevice 0x23f00000249 0x23d7900023d80 (9904)%Z 0x0 (-1)%Z 0x32440000324a;
  mkDevice 0x23f00000249 0x23db300023db7 (9908)%Z 0x0 (-1)%Z 0x324a0000324c;
  mkDevice 0x23f00000249 0x23db700023dbd (9911)%Z 0x0 (-1)%Z 0x324c0000324d;
  mkDevice 0x2a1000002a7 0x23dc900023dd0 (9912)%Z 0x0 (-1)%Z 0x324d0000324f;
  mkDevice 0x23f00000249 0x23dd000023dd7 (9915)%Z 0x0 (-1)%Z 0x324f00003254;
  mkDevice 0x23f00000249 0x23dff00023e04 (-1)%Z 0x23dff00023e04 (-1)%Z 0x325400003257;
  mkDevice 0x23b0000023d 0x23e0c00023e16 (9920)%Z 0x0 (12887)%Z 0x0;
  mkDevice 0x2a1000002a7 0x23e1600023e1e (9921)%Z 0x0 (12888)%Z 0x0;
  mkDevice 0x23f00000249 0x23e1e00023e22 (9922)%Z 0x0 (-1)%Z 0x32590000325e;
  mkDevice 0x39a000003a7 0x23e7900023e82 (9924)%Z 0x0 (12894)%Z 0x0;
  mkDevice 0x23f00000249 0x23e8600023e8d (9925)%Z 0x0 (-1)%Z 0x325f00003263;
  mkDevice 0x2a1000002a7 0x23e9200023ea1 (9930)%Z 0x0 (12899)%Z 0x0;
  mkDevice 0x23f00000249 0x23ea900023eae (9931)%Z 0x0 (12900)%Z 0x0;
  mkDevice 0x23f00000249 0x23eae00023eb2 (9932)%Z 0x0 (-1)%Z 0x326500003266;
  mkDevice 0x23f00000249 0x23ebd00023ec1 (9933)%Z 0x0 (12902)%Z 0x0;
  mkDevice 0x23b0000023d 0x23ec100023ec6 (9934)%Z 0x0 (12903)%Z 0x0;
  mkDevice 0x2a1000002a7 0x23ec600023ecd (9935)%Z 0x0 (12904)%Z 0x0;
  mkDevice 0x2a1000002a7 0x23ecd00023ed6 (-1)%Z 0x23ed600023edd (-1)%Z 0x32690000326a;
  mkDevice 0x23f00000249 0x23edd00023ee4 (9937)%Z 0x0 (12906)%Z 0x0;
  mkDevice 0x2a1000002a7 0x23ee600023eec (9938)%Z 0x0 (-1)%Z 0x326b0000326f;
  mkDevice 0x23f00000249 0x23f2000023f25 (9942)%Z 0x0 (-1)%Z 0x326f00003270;
  mkDevice 0x2a1000002a7 0x23f2500023f2d (9944)%Z 0x0 (-1)%Z 0x327000003272;
  mkDevice 0x2a1000002a7 0x12dc400012dc8 (9947)%Z 0x0 (12914)%Z 0x0;
  mkDevice 0x2a1000002a7 0x23f3a00023f40 (-1)%Z 0x23f4000023f46 (-1)%Z 0x327300003274;
  mkDevice 0x23b0000023d 0x23f4600023f4b (9949)%Z 0x0 (12916)%Z 0x0;
  mkDevice 0x23f00000249 0x23f4b00023f50 (9950)%Z 0x0 (-1)%Z 0x327500003277;
  mkDevice 0x2a1000002a7 0x23f5a00023f61 (9953)%Z 0x0 (12919)%Z 0x0;
  mkDevice 0x2a1000002a7 0x23f6100023f69 (9954)%Z 0x0 (-1)%Z 0x32780000327b;
  mkDevice 0x2a1000002a7 0x23f9000023f96 (9958)%Z 0x0 (-1)%Z 0x327b0000327d;
  mkDevice 0x2a1000002a7 0x23fad00023fb4 (9961)%Z 0x0 (-1)%Z 0x327d00003284;
  mkDevice 0x23f00000249 0x240390002403f (9964)%Z 0x0 (-1)%Z 0x328400003290;
  mkDevice 0x2a1000002a7 0x240850002408c (9970)%Z 0x0 (12944)%Z 0x0;
  mkDevice 0x2a1000002a7 0x240970002409d (9971)%Z 0x0 (12945)%Z 0x0;
  mkDevice 0x23f00000249 0x2409d000240a3 (9972)%Z 0x0 (-1)%Z 0x32920000329e;
  mkDevice 0x39a000003a7 0x2411100024116 (9985)%Z 0x0 (-1)%Z 0x329e000032a5;
  mkDevice 0x23f00000249 0x241830002418b (-1)%Z 0x2418b00024193 (-1)%Z 0x32a5000032d0;
  mkDevice 0x23b0000023d 0x242c4000242c9 (10031)%Z 0x0 (-1)%Z 0x32d0000032d2;
  mkDevice 0x23f00000249 0x242f8000242fe (10032)%Z 0x0 (-1)%Z 0x32d2000032eb;
  mkDevice 0x2a1000002a7 0x2445400024459 (10044)%Z 0x0 (-1)%Z 0x32eb000032ed;
  mkDevice 0x23b0000023d 0x244780002447d (10046)%Z 0x0 (13037)%Z 0x0;
  mkDevice 0x2a1000002a7 0x2447d00024485 (10047)%Z 0x0 (13038)%Z 0x0;
  mkDevice 0x23f00000249 0x2449000024498 (10048)%Z 0x0 (-1)%Z 0x32ef000032ff;
  mkDevice 0x23b0000023d 0x245370002453d (10064)%Z 0x0 (13055)%Z 0x0;
  mkDevice 0x62600000633 0x2453d00024546 (10065)%Z 0x0 (-1)%Z 0x330000003307;
  mkDevice 0x23b0000023d 0x245930002459a (-1)%Z 0x245930002459a (-1)%Z 0x33070000330a;
  mkDevice 0x23b0000023d 0x245a2000245a7 (10075)%Z 0x0 (-1)%Z 0x330a00003312;
  mkDevice 0x23f00000249 0x2460a00024610 (10077)%Z 0x0 (13074)%Z 0x0;
  mkDevice 0x23f00000249 0x2461000024614 (10078)%Z 0x0 (-1)%Z 0x331300003316;
  mkDevice 0x2a1000002a7 0x97e9000097ee (10079)%Z 0x0 (13078)%Z 0x0;
  mkDevice 0x23f00000249 0x2463100024636 (10080)%Z 0x0 (-1)%Z 0x33170000331b;
  mkDevice 0x23f00000249 0x2464200024647 (10085)%Z 0x0 (-1)%Z 0x331b0000331d;
  mkDevice 0x23b0000023d 0x2464b0002465c (10088)%Z 0x0 (-1)%Z 0x331d0000331f;
  mkDevice 0x23f00000249 0x2466600024672 (10091)%Z 0x0 (-1)%Z 0x331f00003321;
  mkDevice 0x2a1000002a7 0x2468c00024697 (10092)%Z 0x0 (-1)%Z 0x332100003324;
  mkDevice 0x39a000003a7 0x246de000246e6 (10095)%Z 0x0 (-1)%Z 0x332400003327;
  mkDevice 0x2a1000002a7 0x246e6000246ec (10099)%Z 0x0 (-1)%Z 0x332700003328;
  mkDevice 0x23b0000023d 0x2470100024707 (10101)%Z 0x0 (13096)%Z 0x0;
  mkDevice 0x23f00000249 0x247070002470d (10102)%Z 0x0 (-1)%Z 0x33290000332f;
  mkDevice 0x23f00000249 0x2472400024729 (10108)%Z 0x0 (-1)%Z 0x332f0000333d;
  mkDevice 0x23f00000249 0x247860002478a (10123)%Z 0x0 (-1)%Z 0x333d00003535;
  mkDevice 0x23b0000023d 0x2574300025748 (10433)%Z 0x0 (-1)%Z 0x35350000353c;
  mkDevice 0x2a1000002a7 0x2575c00025761 (10438)%Z 0x0 (-1)%Z 0x353c0000353e;
  mkDevice 0x2a1000002a7 0x257760002577d (10441)%Z 0x0 (-1)%Z 0x353e00003540;
  mkDevice 0x23f00000249 0x2578c00025794 (10443)%Z 0x0 (-1)%Z 0x354000003576;
  mkDevice 0x23f00000249 0x25a8b00025a90 (-1)%Z 0x25a9000025a9b (-1)%Z 0x357600003577;
  mkDevice 0x23f00000249 0x1156100011565 (10467)%Z 0x0 (13687)%Z 0x0;
  mkDevice 0x23f00000249 0x25a9b00025aa1 (10468)%Z 0x0 (-1)%Z 0x357800003594;
  mkDevice 0x23b0000023d 0x25b9900025b9f (10493)%Z 0x0 (-1)%Z 0x35940000359c;
  mkDevice 0x23f00000249 0x25bd400025bda (10502)%Z 0x0 (-1)%Z 0x359c0000359e;
  mkDevice 0x2a1000002a7 0x25be200025be8 (10504)%Z 0x0 (-1)%Z 0x359e000035a4;
  mkDevice 0x23b0000023d 0x25c5b00025c60 (10505)%Z 0x0 (13732)%Z 0x0;
  mkDevice 0x7cc000007d6 0x25c6000025c66 (10506)%Z 0x0 (13733)%Z 0x0;
  mkDevice 0x23f00000249 0xe93d0000e943 (10507)%Z 0x0 (-1)%Z 0x35a6000035b1;
  mkDevice 0x23f00000249 0x25cc300025cc7 (10515)%Z 0x0 (-1)%Z 0x35b1000035b4;
  mkDevice 0x39a000003a7 0x25cc700025ccd (10519)%Z 0x0 (13748)%Z 0x0;
  mkDevice 0x2a1000002a7 0x25ccd00025cd1 (10520)%Z 0x0 (-1)%Z 0x35b5000035b8;
  mkDevice 0x23f00000249 0x25cd700025cdd (10524)%Z 0x0 (-1)%Z 0x35b8000035c3;
  mkDevice 0x23f00000249 0x25d2a00025d2e (10533)%Z 0x0 (-1)%Z 0x35c3000035cd;
  mkDevice 0x2a1000002a7 0x25d9700025da0 (10540)%Z 0x0 (13773)%Z 0x0;
  mkDevice 0x23f00000249 0xe96b0000e971 (10541)%Z 0x0 (-1)%Z 0x35ce000035d1;
  mkDevice 0x23f00000249 0x25db200025db9 (10545)%Z 0x0 (-1)%Z 0x35d1000035d2;
  mkDevice 0x2b1e00002b26 0x25dc200025dc5 (10547)%Z 0x0 (-1)%Z 0x35d2000035d8;
  mkDevice 0x2a1000002a7 0x25e0100025e04 (10551)%Z 0x0 (13784)%Z 0x0;
  mkDevice 0x23b0000023d 0x25e0400025e09 (10552)%Z 0x0 (-1)%Z 0x35d9000035db;
  mkDevice 0x23f00000249 0x25e0900025e0b (10555)%Z 0x0 (13787)%Z 0x0;
  mkDevice 0x23b0000023d 0x25e0b00025e0f (10556)%Z 0x0 (13788)%Z 0x0;
  mkDevice 0x2a1000002a7 0x25e1e00025e25 (10557)%Z 0x0 (13789)%Z 0x0;
  mkDevice 0x2a1000002a7 0x25e2500025e27 (10558)%Z 0x0 (13790)%Z 0x0;
  mkDevice 0x2a1000002a7 0x25e2700025e2e (10559)%Z 0x0 (13791)%Z 0x0;
  mkDevice 0x23b0000023d 0x25e2e00025e34 (10560)%Z 0x0 (-1)%Z 0x0;
  mkDevice 0x23f00000249 0x25e3400025e3a (10561)%Z 0x0 (-1)%Z 0x35e0000035f2;
  mkDevice 0x2a1000002a7 0x25f2b00025f32 (10574)%Z 0x0 (13810)%Z 0x0;
  mkDevice 0x23b0000023d 0x25f3b00025f41 (10575)%Z 0x0 (13811)%Z 0x0;
  mkDevice 0x8e00000099 0x25f4100025f49 (10576)%Z 0x0 (13812)%Z 0x0;
  mkDevice 0x2a1000002a7 0x25f5100025f57 (10577)%Z 0x0 (13813)%Z 0x0;
  mkDevice 0x2a1000002a7 0x25f5700025f60 (10578)%Z 0x0 (-1)%Z 0x35f6000035f7;
  mkDevice 0x23f00000249 0x25f6000025f66 (10580)%Z 0x0 (-1)%Z 0x35f7000035f8;
  mkDevice 0x23f00000249 0x25f7700025f7d (10581)%Z 0x0 (-1)%Z 0x35f8000035fa;
  mkDevice 0x23f00000249 0x25f9f00025fa6 (10582)%Z 0x0 (13818)%Z 0x0;
  mkDevice 0x23b0000023d 0x25fa600025fb5 (10583)%Z 0x0 (-1)%Z 0x35fb000035fc;
  mkDevice 0x23b0000023d 0x25fd000025fd6 (10584)%Z 0x0 (13820)%Z 0x0;
  mkDevice 0x23b0000023d 0x25fd600025fdf (10585)%Z 0x0 (-1)%Z 0x35fd000035fe;
  mkDevice 0x2a1000002a7 0x25fdf00025fe5 (10587)%Z 0x0 (-1)%Z 0x35fe00003607;
  mkDevice 0x2a1000002a7 0x2601400026019 (10597)%Z 0x0 (13831)%Z 0x0;
  mkDevice 0x23f00000249 0x260190002601f (10598)%Z 0x0 (13832)%Z 0x0;
  mkDevice 0x23f00000249 0x2601f00026024 (10599)%Z 0x0 (-1)%Z 0x36090000360b;
  mkDevice 0x23f00000249 0x2602400026028 (10602)%Z 0x0 (-1)%Z 0x360b0000368a;
  mkDevice 0x23b0000023d 0x264780002647f (10698)%Z 0x0 (13962)%Z 0x0;
  mkDevice 0x23f00000249 0x2647f00026487 (10699)%Z 0x0 (-1)%Z 0x368b00003693;
  mkDevice 0x23f00000249 0x264bf000264c4 (10706)%Z 0x0 (-1)%Z 0x369300003694;
  mkDevice 0x23f00000249 0x264dc000264e0 (10707)%Z 0x0 (-1)%Z 0x369400003699;
  mkDevice 0x23f00000249 0x2650c00026512 (10711)%Z 0x0 (-1)%Z 0x36990000369e
].
Definition d_dr_idx3_9 : list deviceTuple := [
  mkDevice 0x2a1000002a7 0x265330002653a (10715)%Z 0x0 (-1)%Z 0x369e000036a3;
  mkDevice 0x23f00000249 0x265440002654b (10721)%Z 0x0 (-1)%Z 0x36a3000036a4;
  mkDevice 0x2a1000002a7 0x2654b00026553 (-1)%Z 0x2655300026557 (13988)%Z 0x0;
  mkDevice 0x7cc000007d6 0x265570002655e (10723)%Z 0x0 (13989)%Z 0x0;
  mkDevice 0x7cc000007d6 0x2655e00026566 (10724)%Z 0x0 (13990)%Z 0x0;
  mkDevice 0x23f00000249 0x265660002656c (10725)%Z 0x0 (-1)%Z 0x36a7000036ad;
  mkDevice 0x23f00000249 0x265a4000265ac (10732)%Z 0x0 (13997)%Z 0x0;
  mkDevice 0x23f00000249 0x265b3000265b8 (10733)%Z 0x0 (-1)%Z 0x36ae000036b4;
  mkDevice 0x39a000003a7 0x2660400026608 (10734)%Z 0x0 (14004)%Z 0x0;
  mkDevice 0x23f00000249 0x266080002660b (10735)%Z 0x0 (-1)%Z 0x36b5000036b7;
  mkDevice 0x2a1000002a7 0x2663b00026641 (10736)%Z 0x0 (-1)%Z 0x36b7000036bc;
  mkDevice 0x23f00000249 0x266570002665c (10742)%Z 0x0 (14012)%Z 0x0;
  mkDevice 0x23f00000249 0x2666300026667 (10743)%Z 0x0 (14013)%Z 0x0;
  mkDevice 0x23f00000249 0x266670002666f (10744)%Z 0x0 (-1)%Z 0x36be000036c1;
  mkDevice 0x23f00000249 0x2668c00026692 (10746)%Z 0x0 (-1)%Z 0x36c1000036d4;
  mkDevice 0x23f00000249 0x2677f00026785 (10759)%Z 0x0 (-1)%Z 0x36d4000036dc;
  mkDevice 0x23b0000023d 0x268290002682c (-1)%Z 0x2682c00026834 (14044)%Z 0x0;
  mkDevice 0x23b0000023d 0x2683a0002683d (10762)%Z 0x0 (-1)%Z 0x36dd000036e4;
  mkDevice 0x23b0000023d 0x268b1000268b5 (10765)%Z 0x0 (-1)%Z 0x0;
  mkDevice 0x2a1000002a7 0x268b5000268b7 (10766)%Z 0x0 (14052)%Z 0x0;
  mkDevice 0x23f00000249 0x268b7000268bb (10767)%Z 0x0 (-1)%Z 0x36e5000036e7;
  mkDevice 0x23f00000249 0x268c1000268ca (10770)%Z 0x0 (14055)%Z 0x0;
  mkDevice 0x23b0000023d 0x268ca000268ce (10771)%Z 0x0 (-1)%Z 0x36e8000036e9;
  mkDevice 0x7cc000007d6 0x268ce000268d3 (10773)%Z 0x0 (-1)%Z 0x36e9000036eb;
  mkDevice 0x2a1000002a7 0x268eb000268f0 (10774)%Z 0x0 (14059)%Z 0x0;
  mkDevice 0x23f00000249 0x2690100026906 (10775)%Z 0x0 (-1)%Z 0x36ec000036ed;
  mkDevice 0x8e00000099 0x269130002691a (10776)%Z 0x0 (14061)%Z 0x0;
  mkDevice 0x23f00000249 0x2691a0002691f (10777)%Z 0x0 (14062)%Z 0x0;
  mkDevice 0x23b0000023d 0x2691f00026927 (10778)%Z 0x0 (14063)%Z 0x0;
  mkDevice 0x23f00000249 0x269270002692c (10779)%Z 0x0 (-1)%Z 0x36f0000036f6;
  mkDevice 0x62600000633 0x269460002694c (10784)%Z 0x0 (14070)%Z 0x0;
  mkDevice 0x23f00000249 0x2694c00026956 (10785)%Z 0x0 (-1)%Z 0x36f700003700;
  mkDevice 0x23f00000249 0x269a7000269ad (10795)%Z 0x0 (-1)%Z 0x370000003870;
  mkDevice 0x23f00000249 0x27baa00027bae (11111)%Z 0x0 (-1)%Z 0x387000003871;
  mkDevice 0x23f00000249 0x27bb200027bb6 (11113)%Z 0x0 (-1)%Z 0x38710000387b;
  mkDevice 0x2a1000002a7 0x27bed00027bf1 (11124)%Z 0x0 (-1)%Z 0x387b00003880;
  mkDevice 0x23f00000249 0x27c2700027c2e (11130)%Z 0x0 (14464)%Z 0x0;
  mkDevice 0x23f00000249 0x27c2e00027c34 (11131)%Z 0x0 (-1)%Z 0x388100003883;
  mkDevice 0x23f00000249 0x27c4000027c46 (11133)%Z 0x0 (-1)%Z 0x388300003887;
  mkDevice 0x23f00000249 0x27c5f00027c67 (11137)%Z 0x0 (-1)%Z 0x38870000388b;
  mkDevice 0x2a1000002a7 0x27c9800027c9d (11139)%Z 0x0 (14475)%Z 0x0;
  mkDevice 0x23b0000023d 0x27ca400027ca9 (-1)%Z 0x27ca900027caf (-1)%Z 0x388c0000388f;
  mkDevice 0x2a1000002a7 0x27cbd00027cc6 (11143)%Z 0x0 (14479)%Z 0x0;
  mkDevice 0x23f00000249 0x27cc600027ccb (11144)%Z 0x0 (-1)%Z 0x389000003891;
  mkDevice 0x2a1000002a7 0x27cdf00027ce5 (11145)%Z 0x0 (14481)%Z 0x0;
  mkDevice 0x2a1000002a7 0x27cef00027cf5 (11146)%Z 0x0 (-1)%Z 0x389200003894;
  mkDevice 0x23f00000249 0x27cf500027cfb (11149)%Z 0x0 (14484)%Z 0x0;
  mkDevice 0x23f00000249 0x27cfb00027cff (11150)%Z 0x0 (-1)%Z 0x38950000389c;
  mkDevice 0x2a1000002a7 0x27d6300027d69 (11153)%Z 0x0 (-1)%Z 0x389c0000389e;
  mkDevice 0x23b0000023d 0x27d6d00027d73 (11155)%Z 0x0 (14494)%Z 0x0;
  mkDevice 0x23f00000249 0x27d7300027d79 (11156)%Z 0x0 (-1)%Z 0x389f000038a4;
  mkDevice 0x2a1000002a7 0x27dcd00027dd3 (11160)%Z 0x0 (-1)%Z 0x38a4000038b4;
  mkDevice 0x23f00000249 0x27ede00027ee1 (11164)%Z 0x0 (-1)%Z 0x38b4000038b8;
  mkDevice 0x23f00000249 0x27f1000027f16 (11166)%Z 0x0 (-1)%Z 0x38b8000038ba;
  mkDevice 0x23f00000249 0x27f1600027f1a (11169)%Z 0x0 (-1)%Z 0x38ba000038cc;
  mkDevice 0x23b0000023d 0x27fde00027fe5 (11177)%Z 0x0 (14540)%Z 0x0;
  mkDevice 0x2a1000002a7 0x27fec00027ff0 (11178)%Z 0x0 (14541)%Z 0x0;
  mkDevice 0x23f00000249 0x27ff000027ff4 (11179)%Z 0x0 (-1)%Z 0x38ce000038d0;
  mkDevice 0x23b0000023d 0x2800000028005 (11182)%Z 0x0 (-1)%Z 0x38d0000038d1;
  mkDevice 0x23b0000023d 0x2800c00028012 (11184)%Z 0x0 (-1)%Z 0x38d1000038d3;
  mkDevice 0x23f00000249 0x280290002802e (11186)%Z 0x0 (-1)%Z 0x38d3000038d5;
  mkDevice 0x23f00000249 0x2802e00028030 (11189)%Z 0x0 (-1)%Z 0x38d5000038e0;
  mkDevice 0x2a1000002a7 0x280ac000280b3 (11193)%Z 0x0 (-1)%Z 0x38e0000038e1;
  mkDevice 0x23f00000249 0x280b3000280ba (11195)%Z 0x0 (-1)%Z 0x38e1000038e2;
  mkDevice 0x23b0000023d 0x1327400013278 (11197)%Z 0x0 (-1)%Z 0x38e2000038e4;
  mkDevice 0x23f00000249 0x280d1000280d6 (11200)%Z 0x0 (-1)%Z 0x38e4000038e7;
  mkDevice 0x23f00000249 0x280db000280e0 (11203)%Z 0x0 (14567)%Z 0x0;
  mkDevice 0x2a1000002a7 0x280e0000280e5 (11204)%Z 0x0 (14568)%Z 0x0;
  mkDevice 0x23b0000023d 0x280e5000280e9 (11205)%Z 0x0 (14569)%Z 0x0;
  mkDevice 0x23f00000249 0x280e9000280ed (11206)%Z 0x0 (-1)%Z 0x38ea00003902;
  mkDevice 0x23b0000023d 0x2824200028249 (11228)%Z 0x0 (14594)%Z 0x0;
  mkDevice 0x2a1000002a7 0x282490002824e (11229)%Z 0x0 (-1)%Z 0x390300003904;
  mkDevice 0x2a1000002a7 0x2824e00028251 (11231)%Z 0x0 (14596)%Z 0x0;
  mkDevice 0x2a1000002a7 0x2825100028256 (11232)%Z 0x0 (14597)%Z 0x0;
  mkDevice 0x23f00000249 0x2825600028259 (11233)%Z 0x0 (-1)%Z 0x390600003a34;
  mkDevice 0x23f00000249 0x28ff000028ff3 (11435)%Z 0x0 (-1)%Z 0x3a3400003a55;
  mkDevice 0x2a1000002a7 0x2911e00029121 (11453)%Z 0x0 (14933)%Z 0x0;
  mkDevice 0x2a1000002a7 0x2912100029126 (11454)%Z 0x0 (14934)%Z 0x0;
  mkDevice 0x2a1000002a7 0x291260002912d (11455)%Z 0x0 (14935)%Z 0x0;
  mkDevice 0x23f00000249 0x2912d00029132 (11456)%Z 0x0 (-1)%Z 0x3a5800003a5e;
  mkDevice 0x23b0000023d 0x291850002918b (11459)%Z 0x0 (14942)%Z 0x0;
  mkDevice 0x2b1e00002b26 0x2918b00029192 (11460)%Z 0x0 (-1)%Z 0x3a5f00003a61;
  mkDevice 0x23f00000249 0x291a9000291ae (11462)%Z 0x0 (-1)%Z 0x3a6100003a65;
  mkDevice 0x23f00000249 0x291ae000291b4 (-1)%Z 0x291b4000291ba (-1)%Z 0x3a6500003a66;
  mkDevice 0x23f00000249 0x291ba000291bf (11468)%Z 0x0 (-1)%Z 0x3a6600003a68;
  mkDevice 0x23f00000249 0x291bf000291c2 (11471)%Z 0x0 (-1)%Z 0x3a6800003a77;
  mkDevice 0x23f00000249 0x292760002927b (11486)%Z 0x0 (-1)%Z 0x3a7700003a7c;
  mkDevice 0x2a1000002a7 0x292b0000292b9 (11487)%Z 0x0 (-1)%Z 0x3a7c00003a7d;
  mkDevice 0x2a1000002a7 0x292c3000292c9 (11489)%Z 0x0 (14973)%Z 0x0;
  mkDevice 0x2a1000002a7 0x292cd000292dc (11490)%Z 0x0 (-1)%Z 0x3a7e00003a7f;
  mkDevice 0x23b0000023d 0x292dc000292e1 (11492)%Z 0x0 (14975)%Z 0x0;
  mkDevice 0x23f00000249 0x292e1000292e5 (11493)%Z 0x0 (-1)%Z 0x3a8000003a81;
  mkDevice 0x2a1000002a7 0x292f2000292f7 (11494)%Z 0x0 (-1)%Z 0x3a8100003a83;
  mkDevice 0x23f00000249 0x2933000029334 (11495)%Z 0x0 (-1)%Z 0x3a8300003a89;
  mkDevice 0x39a000003a7 0x293680002936d (11501)%Z 0x0 (-1)%Z 0x3a8900003a8b;
  mkDevice 0x2a1000002a7 0x293770002937c (11503)%Z 0x0 (-1)%Z 0x3a8b00003a8c;
  mkDevice 0x23f00000249 0x150c8000150cc (11505)%Z 0x0 (14988)%Z 0x0;
  mkDevice 0x23f00000249 0x2937c00029385 (11506)%Z 0x0 (14989)%Z 0x0;
  mkDevice 0x23f00000249 0x2938500029389 (11507)%Z 0x0 (-1)%Z 0x3a8e00003aa8;
  mkDevice 0x23f00000249 0x2943d00029441 (11534)%Z 0x0 (-1)%Z 0x3aa800003ace;
  mkDevice 0x2a1000002a7 0x296290002962d (11548)%Z 0x0 (-1)%Z 0x3ace00003ad3;
  mkDevice 0x2a1000002a7 0x296350002963a (-1)%Z 0x2963a0002963f (15059)%Z 0x0;
  mkDevice 0x7cc000007d6 0x2963f00029649 (-1)%Z 0x2964900029653 (-1)%Z 0x3ad400003ad5;
  mkDevice 0x23b0000023d 0x296530002965a (11555)%Z 0x0 (15061)%Z 0x0;
  mkDevice 0x23b0000023d 0x296630002966b (11556)%Z 0x0 (15062)%Z 0x0;
  mkDevice 0x23f00000249 0x2966b00029671 (11557)%Z 0x0 (-1)%Z 0x3ad700003ada;
  mkDevice 0x2a1000002a7 0x296820002968b (11559)%Z 0x0 (15066)%Z 0x0;
  mkDevice 0x23b0000023d 0x2968b00029695 (11560)%Z 0x0 (15067)%Z 0x0;
  mkDevice 0x23f00000249 0x2969500029698 (11561)%Z 0x0 (15068)%Z 0x0;
  mkDevice 0x23f00000249 0x296a1000296a5 (11562)%Z 0x0 (-1)%Z 0x3add00003ae2;
  mkDevice 0x23f00000249 0x2970200029704 (11564)%Z 0x0 (-1)%Z 0x3ae200003bb2;
  mkDevice 0x23f00000249 0x29cc800029ccd (11746)%Z 0x0 (-1)%Z 0x3bb200003bb4;
  mkDevice 0x2a1000002a7 0x29ce800029ced (11748)%Z 0x0 (-1)%Z 0x3bb400003bc0;
  mkDevice 0x23f00000249 0x29dfd00029e03 (11754)%Z 0x0 (15296)%Z 0x0;
  mkDevice 0x23f00000249 0x29e0300029e07 (11755)%Z 0x0 (15297)%Z 0x0;
  mkDevice 0x23b0000023d 0x29e0700029e0d (11756)%Z 0x0 (-1)%Z 0x3bc200003bc3;
  mkDevice 0x23b0000023d 0x29e0d00029e11 (11758)%Z 0x0 (-1)%Z 0x3bc300003bc5;
  mkDevice 0x2a1000002a7 0x29e3d00029e41 (11759)%Z 0x0 (15301)%Z 0x0;
  mkDevice 0x23f00000249 0x29e4100029e49 (11760)%Z 0x0 (-1)%Z 0x3bc600003bc8;
  mkDevice 0x23f00000249 0x29e6100029e66 (11762)%Z 0x0 (-1)%Z 0x3bc800003bd1;
  mkDevice 0x39a000003a7 0x29ea700029ead (11772)%Z 0x0 (15313)%Z 0x0;
  mkDevice 0x39a000003a7 0x29ead00029eb5 (11773)%Z 0x0 (-1)%Z 0x3bd200003bdc;
  mkDevice 0x2a1000002a7 0x29efc00029f01 (11782)%Z 0x0 (-1)%Z 0x3bdc00003beb;
  mkDevice 0x23f00000249 0x29fb800029fbe (11793)%Z 0x0 (-1)%Z 0x3beb00003bed;
  mkDevice 0x23f00000249 0x29fbe00029fc3 (11796)%Z 0x0 (-1)%Z 0x3bed00003bf7;
  mkDevice 0x7cc000007d6 0x2a0110002a016 (11804)%Z 0x0 (-1)%Z 0x3bf700003bf9;
  mkDevice 0x2a1000002a7 0x2a0220002a027 (11806)%Z 0x0 (15353)%Z 0x0;
  mkDevice 0x23f00000249 0x2a0310002a037 (11807)%Z 0x0 (-1)%Z 0x3bfa00003bfd;
  mkDevice 0x2a1000002a7 0x2a0580002a05c (11809)%Z 0x0 (15357)%Z 0x0;
  mkDevice 0x2a1000002a7 0x2a05c0002a060 (11810)%Z 0x0 (-1)%Z 0x3bfe00003c01;
  mkDevice 0x23b0000023d 0x2a0810002a08b (11813)%Z 0x0 (15361)%Z 0x0;
  mkDevice 0x23f00000249 0x2a0920002a097 (11814)%Z 0x0 (-1)%Z 0x3c0200003c29;
  mkDevice 0x39a000003a7 0x2a3e90002a3ee (11827)%Z 0x0 (15401)%Z 0x0;
  mkDevice 0x2a1000002a7 0x2a3ee0002a3f2 (11828)%Z 0x0 (15402)%Z 0x0;
  mkDevice 0x2a1000002a7 0x2a3f20002a3f8 (11829)%Z 0x0 (15403)%Z 0x0;
  mkDevice 0x23f00000249 0x2a4030002a406 (11830)%Z 0x0 (-1)%Z 0x3c2c00003c2e;
  mkDevice 0x23b0000023d 0x2a4060002a40b (11833)%Z 0x0 (15406)%Z 0x0;
  mkDevice 0x2a1000002a7 0x2a40b0002a410 (11834)%Z 0x0 (-1)%Z 0x3c2f00003c35;
  mkDevice 0x23f00000249 0x2a4470002a44a (11839)%Z 0x0 (-1)%Z 0x3c3500003c39;
  mkDevice 0x23f00000249 0x2a4780002a47c (11842)%Z 0x0 (15417)%Z 0x0;
  mkDevice 0x23f00000249 0x2a47c0002a481 (11843)%Z 0x0 (-1)%Z 0x3c3a00003c3d;
  mkDevice 0x2a1000002a7 0x2a4b90002a4bd (11844)%Z 0x0 (-1)%Z 0x3c3d00003c3f;
  mkDevice 0x2a1000002a7 0x2a4c50002a4ca (11847)%Z 0x0 (15423)%Z 0x0;
  mkDevice 0x2a1000002a7 0x2a4ca0002a4cf (11848)%Z 0x0 (-1)%Z 0x3c4000003c41;
  mkDevice 0x23f00000249 0x2a4df0002a4e3 (11849)%Z 0x0 (-1)%Z 0x3c4100003c47;
  mkDevice 0x23f00000249 0x2a4fe0002a508 (11856)%Z 0x0 (-1)%Z 0x3c4700003c4a;
  mkDevice 0x23f00000249 0x2a5260002a52c (11857)%Z 0x0 (-1)%Z 0x3c4a00003c51;
  mkDevice 0x23f00000249 0x2a55e0002a566 (11862)%Z 0x0 (15441)%Z 0x0;
  mkDevice 0x23f00000249 0x2a5660002a56d (-1)%Z 0x2a56d0002a574 (-1)%Z 0x3c5200003c53;
  mkDevice 0x23f00000249 0x2a5740002a578 (11864)%Z 0x0 (-1)%Z 0x3c5300003c6a;
  mkDevice 0x23f00000249 0x2a6a90002a6ad (11871)%Z 0x0 (-1)%Z 0x3c6a00003c6c;
  mkDevice 0x23f00000249 0x2a6ad0002a6b5 (11874)%Z 0x0 (15468)%Z 0x0;
  mkDevice 0x2a1000002a7 0x2a6bd0002a6c3 (11875)%Z 0x0 (15469)%Z 0x0;
  mkDevice 0x2a1000002a7 0x2a6c30002a6c8 (11876)%Z 0x0 (-1)%Z 0x3c6e00003c71;
  mkDevice 0x2a1000002a7 0x2a6d10002a6d6 (11880)%Z 0x0 (-1)%Z 0x3c7100003c73;
  mkDevice 0x23f00000249 0x2a6d60002a6db (11883)%Z 0x0 (-1)%Z 0x3c7300003c7b;
  mkDevice 0x23f00000249 0x2a6f50002a701 (11892)%Z 0x0 (-1)%Z 0x3c7b00003c7d;
  mkDevice 0x23f00000249 0x2a7060002a70b (11895)%Z 0x0 (15485)%Z 0x0;
  mkDevice 0x23f00000249 0x2a70b0002a70f (11896)%Z 0x0 (-1)%Z 0x3c7e00003ce6;
  mkDevice 0x23f00000249 0x2aa900002aa96 (11919)%Z 0x0 (15590)%Z 0x0;
  mkDevice 0x23f00000249 0x2aa9d0002aaa0 (11920)%Z 0x0 (-1)%Z 0x3ce700003ce9;
  mkDevice 0x2a1000002a7 0x2aaa80002aaad (11923)%Z 0x0 (-1)%Z 0x3ce900003ceb;
  mkDevice 0x23f00000249 0x2aac30002aac9 (11925)%Z 0x0 (-1)%Z 0x3ceb00003cf1;
  mkDevice 0x23f00000249 0x2aafd0002ab05 (11929)%Z 0x0 (-1)%Z 0x3cf100003cf2;
  mkDevice 0x2a1000002a7 0x2ab050002ab0b (11931)%Z 0x0 (15602)%Z 0x0;
  mkDevice 0x23f00000249 0x2ab0b0002ab0f (11932)%Z 0x0 (15603)%Z 0x0;
  mkDevice 0x2a1000002a7 0x2ab0f0002ab16 (11933)%Z 0x0 (-1)%Z 0x3cf400003cf6;
  mkDevice 0x2a1000002a7 0x2ab2f0002ab35 (11936)%Z 0x0 (15606)%Z 0x0;
  mkDevice 0x23f00000249 0x2ab350002ab3a (11937)%Z 0x0 (-1)%Z 0x3cf700003cf8;
  mkDevice 0x23f00000249 0x2ab480002ab4c (11939)%Z 0x0 (-1)%Z 0x3cf800003cfb;
  mkDevice 0x2a1000002a7 0x2ab690002ab6f (-1)%Z 0x2ab6f0002ab75 (-1)%Z 0x0;
  mkDevice 0x23f00000249 0x2ab750002ab7b (11942)%Z 0x0 (15611)%Z 0x0;
  mkDevice 0x23f00000249 0x2ab7b0002ab81 (11943)%Z 0x0 (-1)%Z 0x3cfc00003d00;
  mkDevice 0x23f00000249 0x2ab950002ab99 (11947)%Z 0x0 (15616)%Z 0x0;
  mkDevice 0x23b0000023d 0x2ab990002aba1 (11948)%Z 0x0 (15617)%Z 0x0;
  mkDevice 0x23f00000249 0x2aba10002abad (11949)%Z 0x0 (-1)%Z 0x3d0200003d1d;
  mkDevice 0x2a1000002a7 0x2ad410002ad45 (11966)%Z 0x0 (15645)%Z 0x0;
  mkDevice 0x2a1000002a7 0x2ad450002ad4c (11967)%Z 0x0 (-1)%Z 0x3d1e00003d22;
  mkDevice 0x2a1000002a7 0x2ad5b0002ad64 (11972)%Z 0x0 (-1)%Z 0x3d2200003d23;
  mkDevice 0x23b0000023d 0x2ad640002ad67 (11974)%Z 0x0 (-1)%Z 0x3d2300003d25;
  mkDevice 0x23f00000249 0x2ad840002ad8c (11975)%Z 0x0 (15653)%Z 0x0;
  mkDevice 0x23f00000249 0x2ad8c0002ad93 (11976)%Z 0x0 (-1)%Z 0x3d2600003d27;
  mkDevice 0x23b0000023d 0x2adb00002adb6 (11977)%Z 0x0 (15655)%Z 0x0;
  mkDevice 0x2a1000002a7 0x2adb60002adbb (11978)%Z 0x0 (-1)%Z 0x3d2800003d5b;
  mkDevice 0x23f00000249 0x2b10c0002b114 (11998)%Z 0x0 (-1)%Z 0x3d5b00003d5d;
  mkDevice 0x23b0000023d 0x2b11a0002b122 (12001)%Z 0x0 (15709)%Z 0x0;
  mkDevice 0x23f00000249 0x2b12a0002b12e (12002)%Z 0x0 (-1)%Z 0x3d5e00003d67
].
(** device_repo.go:10-2270, class 3. *)
Definition d_dr_idx3 : list deviceTuple :=
  concat [d_dr_idx3_0; d_dr_idx3_1; d_dr_idx3_2; d_dr_idx3_3; d_dr_idx3_4; d_dr_idx3_5; d_dr_idx3_6; d_dr_idx3_7; d_dr_idx3_8; d_dr_idx3_9].

Definition d_dr_idx4_0 : list deviceTuple := [
  mkDevice 0xc9b00000ca2 0x9bd000009c1 (12009)%Z 0x0 (-1)%Z 0x3d6700003d6a;
  mkDevice 0xc9b00000ca2 0x2b18d0002b196 (12013)%Z 0x0 (-1)%Z 0x3d6a00003d6e;
  mkDevice 0xc9b00000ca2 0x41190000411d (12018)%Z 0x0 (-1)%Z 0x3d6e00003d77;
  mkDevice 0xc9b00000ca2 0x7dc400007dc8 (12028)%Z 0x0 (-1)%Z 0x3d7700003d7b;
  mkDevice 0xc9b00000ca2 0xb7400000b742 (12029)%Z 0x0 (-1)%Z 0x3d7b00003d86;
  mkDevice 0xc9b00000ca2 0x124970001249d (12032)%Z 0x0 (-1)%Z 0x3d8600003d8a;
  mkDevice 0xc9b00000ca2 0x1f7450001f74e (12037)%Z 0x0 (15754)%Z 0x0;
  mkDevice 0xc9b00000ca2 0x22a2600022a2d (12038)%Z 0x0 (15755)%Z 0x0;
  mkDevice 0xc9b00000ca2 0x22d7300022d7a (-1)%Z 0x2b43f0002b44e (-1)%Z 0x3d8c00003d8e
].
(** device_repo.go:10-2270, class 4. *)
Definition d_dr_idx4 : list deviceTuple :=
  concat [d_dr_idx4_0].

Definition d_dr_idx5_0 : list deviceTuple := [
  mkDevice 0xbf670000bf7c 0x2b0300002b08 (12041)%Z 0x0 (-1)%Z 0x3d8e00003d96;
  mkDevice 0xbf670000bf7c 0x2b4ae0002b4b3 (12050)%Z 0x0 (15766)%Z 0x0;
  mkDevice 0xbf670000bf7c 0x2b4b30002b4b9 (12051)%Z 0x0 (15767)%Z 0x0;
  mkDevice 0xbf670000bf7c 0x2b4b90002b4c0 (-1)%Z 0x2b4b90002b4c0 (-1)%Z 0x3d9800003d99;
  mkDevice 0xbf670000bf7c 0x2b4c00002b4c4 (-1)%Z 0x2b4c00002b4c4 (-1)%Z 0x3d9900003d9b;
  mkDevice 0xbf670000bf7c 0x2b4d00002b4d5 (12054)%Z 0x0 (15771)%Z 0x0;
  mkDevice 0xbf670000bf7c 0x2b4d50002b4db (-1)%Z 0x2b4d50002b4db (-1)%Z 0x3d9c00003d9e;
  mkDevice 0xbf670000bf7c 0x12f00000138 (-1)%Z 0x2b4db0002b4eb (15774)%Z 0x0;
  mkDevice 0xbf670000bf7c 0x2b4f20002b4f8 (12057)%Z 0x0 (-1)%Z 0x3d9f00003da1;
  mkDevice 0xbf670000bf7c 0x196ed000196f6 (12059)%Z 0x0 (15777)%Z 0x0;
  mkDevice 0xbf670000bf7c 0x180000001f (12060)%Z 0x0 (-1)%Z 0x3da200003da9;
  mkDevice 0xbf670000bf7c 0x2b5a80002b5b0 (-1)%Z 0x2b5b00002b5bb (-1)%Z 0x3da900003daa;
  mkDevice 0xbf670000bf7c 0x2b5bb0002b5c2 (12063)%Z 0x0 (15786)%Z 0x0;
  mkDevice 0xbf670000bf7c 0x2b5c20002b5ca (12064)%Z 0x0 (15787)%Z 0x0;
  mkDevice 0xbf670000bf7c 0x2b5ca0002b5ce (12065)%Z 0x0 (15788)%Z 0x0
].
(** device_repo.go:10-2270, class 5. *)
Definition d_dr_idx5 : list deviceTuple :=
  concat [d_dr_idx5_0].

Definition d_dr_idx6_0 : list deviceTuple := [
  mkDevice 0x23b0000023d 0x2b5ce0002b5d3 (-1)%Z 0x2b5d30002b5de (-1)%Z 0x0;
  mkDevice 0x23b0000023d 0x55a0000055e (-1)%Z 0x2b5de0002b5e8 (-1)%Z 0x0;
  mkDevice 0x23b0000023d 0x4ae000004ae3 (-1)%Z 0x2b5e80002b5f1 (-1)%Z 0x0;
  mkDevice 0x23b0000023d 0x795c00007960 (-1)%Z 0x2b5f10002b5fb (-1)%Z 0x0;
  mkDevice 0x23b0000023d 0x7f4200007f47 (-1)%Z 0x2b5fb0002b606 (-1)%Z 0x0;
  mkDevice 0x23b0000023d 0x8a7600008a7a (-1)%Z 0x2b6060002b610 (-1)%Z 0x0;
  mkDevice 0x23b0000023d 0x91ed000091f4 (12066)%Z 0x0 (-1)%Z 0x0;
  mkDevice 0x23b0000023d 0xbeac0000beae (-1)%Z 0x2b6100002b618 (-1)%Z 0x0;
  mkDevice 0x23b0000023d 0xfd670000fd6a (-1)%Z 0x2b6180002b621 (-1)%Z 0x0;
  mkDevice 0x23b0000023d 0x2b6210002b626 (-1)%Z 0x2b6260002b631 (-1)%Z 0x0;
  mkDevice 0x23b0000023d 0x2b6310002b636 (-1)%Z 0x2b6360002b641 (-1)%Z 0x0;
  mkDevice 0x23b0000023d 0x1245000012454 (-1)%Z 0x2b6410002b64b (-1)%Z 0x0;
  mkDevice 0x23b0000023d 0x2b64b0002b651 (-1)%Z 0x2b6510002b65d (-1)%Z 0x0;
  mkDevice 0x23b0000023d 0x133d3000133d8 (-1)%Z 0x2b65d0002b668 (-1)%Z 0x0;
  mkDevice 0x23b0000023d 0x1632c00016333 (-1)%Z 0x2b6680002b675 (-1)%Z 0x0;
  mkDevice 0x23b0000023d 0x1727e00017283 (-1)%Z 0x2b6750002b680 (-1)%Z 0x0;
  mkDevice 0x23b0000023d 0x1afa30001afae (-1)%Z 0x2b6800002b688 (-1)%Z 0x0;
  mkDevice 0x23b0000023d 0x212fe00021306 (-1)%Z 0x2b6880002b696 (-1)%Z 0x0;
  mkDevice 0x23b0000023d 0x216a5000216aa (-1)%Z 0x2b6960002b6a1 (-1)%Z 0x0;
  mkDevice 0x23b0000023d 0x219390002193c (-1)%Z 0x2b6a10002b6a9 (-1)%Z 0x0;
  mkDevice 0x23b0000023d 0x2284900022853 (-1)%Z 0x2b6a90002b6b9 (-1)%Z 0x0;
  mkDevice 0x23b0000023d 0x22a2600022a2d (-1)%Z 0x2b6b90002b6c2 (-1)%Z 0x0;
  mkDevice 0x23b0000023d 0x1327400013278 (-1)%Z 0x2b6c20002b6cc (-1)%Z 0x0
].
(** device_repo.go:10-2270, class 6. *)
Definition d_dr_idx6 : list deviceTuple :=
  concat [d_dr_idx6_0].

Definition d_dr_idx7_0 : list deviceTuple := [
  mkDevice 0x23b0000023d 0x5350000053e (12067)%Z 0x0 (-1)%Z 0x3dad00003dae;
  mkDevice 0x23b0000023d 0x53e00000547 (12069)%Z 0x0 (-1)%Z 0x3dae00003db0;
  mkDevice 0x23b0000023d 0x6170000061a (-1)%Z 0x6170000061a (-1)%Z 0x3db000003db2;
  mkDevice 0x23b0000023d 0x63b00000640 (12074)%Z 0x0 (-1)%Z 0x3db200003db3;
  mkDevice 0x23b0000023d 0x84a0000084e (12075)%Z 0x0 (-1)%Z 0x3db300003db4;
  mkDevice 0x23b0000023d 0x84e00000852 (12077)%Z 0x0 (-1)%Z 0x3db400003db5;
  mkDevice 0x23b0000023d 0x2b6d60002b6d9 (12079)%Z 0x0 (-1)%Z 0x3db500003db6;
  mkDevice 0x23b0000023d 0x2b6d90002b6e0 (-1)%Z 0x2b6d90002b6e0 (-1)%Z 0x3db600003db7;
  mkDevice 0x23b0000023d 0x102400001028 (-1)%Z 0x2b6e00002b6eb (-1)%Z 0x3db700003db8;
  mkDevice 0x23b0000023d 0x1dad00001db5 (12083)%Z 0x0 (-1)%Z 0x3db800003db9;
  mkDevice 0x23b0000023d 0x2b6eb0002b6f5 (-1)%Z 0x2b6eb0002b6f5 (-1)%Z 0x3db900003dba;
  mkDevice 0x23b0000023d 0x2b6f50002b6fb (12086)%Z 0x0 (-1)%Z 0x0;
  mkDevice 0x23b0000023d 0x25b4000025b9 (12087)%Z 0x0 (-1)%Z 0x0;
  mkDevice 0x23b0000023d 0x25b9000025bf (12088)%Z 0x0 (-1)%Z 0x3dba00003dbb;
  mkDevice 0x23b0000023d 0x403f00004047 (-1)%Z 0x40470000404e (-1)%Z 0x0;
  mkDevice 0x23b0000023d 0x2b6fb0002b70d (12090)%Z 0x0 (-1)%Z 0x3dbb00003dbc;
  mkDevice 0x23b0000023d 0x48590000485e (-1)%Z 0x2b70d0002b712 (-1)%Z 0x3dbc00003dbd;
  mkDevice 0x23b0000023d 0x2b7190002b724 (-1)%Z 0x2b7240002b72f (15805)%Z 0x0;
  mkDevice 0x23b0000023d 0x4ccb00004ccf (12092)%Z 0x0 (-1)%Z 0x0;
  mkDevice 0x23b0000023d 0x50c6000050cf (12093)%Z 0x0 (-1)%Z 0x3dbe00003dbf;
  mkDevice 0x23b0000023d 0x59390000593f (12094)%Z 0x0 (-1)%Z 0x3dbf00003dc1;
  mkDevice 0x23b0000023d 0x5c8600005c8a (12097)%Z 0x0 (-1)%Z 0x3dc100003dc2;
  mkDevice 0x23b0000023d 0x2b7450002b74c (12099)%Z 0x0 (-1)%Z 0x3dc200003dc3;
  mkDevice 0x23b0000023d 0x2b74c0002b753 (12101)%Z 0x0 (-1)%Z 0x3dc300003dc4;
  mkDevice 0x23b0000023d 0x646200006468 (12103)%Z 0x0 (-1)%Z 0x0;
  mkDevice 0x23b0000023d 0x656800006571 (-1)%Z 0x656800006571 (-1)%Z 0x3dc400003dc5;
  mkDevice 0x23b0000023d 0x2b7530002b765 (12105)%Z 0x0 (-1)%Z 0x3dc500003dc6;
  mkDevice 0x23b0000023d 0x2b7650002b76c (-1)%Z 0x2b7650002b76c (15814)%Z 0x0;
  mkDevice 0x23b0000023d 0x77e8000077ed (12107)%Z 0x0 (-1)%Z 0x3dc700003dc8;
  mkDevice 0x23b0000023d 0x2b7720002b77c (12109)%Z 0x0 (-1)%Z 0x3dc800003dc9;
  mkDevice 0x23b0000023d 0x7aac00007ab3 (12111)%Z 0x0 (-1)%Z 0x3dc900003dca;
  mkDevice 0x23b0000023d 0x2b77c0002b781 (12113)%Z 0x0 (-1)%Z 0x3dca00003dcb;
  mkDevice 0x23b0000023d 0x2b7810002b786 (12115)%Z 0x0 (-1)%Z 0x3dcb00003dcc;
  mkDevice 0x23b0000023d 0x7c0d00007c13 (12117)%Z 0x0 (-1)%Z 0x3dcc00003dcd;
  mkDevice 0x23b0000023d 0x7e8d00007e95 (12119)%Z 0x0 (-1)%Z 0x3dcd00003dce;
  mkDevice 0x23b0000023d 0x2b7860002b796 (-1)%Z 0x2b7960002b799 (15822)%Z 0x0;
  mkDevice 0x23b0000023d 0x89f1000089f5 (12121)%Z 0x0 (-1)%Z 0x3dcf00003dd1;
  mkDevice 0x23b0000023d 0x2b7bd0002b7c9 (12123)%Z 0x0 (-1)%Z 0x3dd100003dd2;
  mkDevice 0x23b0000023d 0x8aad00008ab0 (12125)%Z 0x0 (-1)%Z 0x3dd200003dd3;
  mkDevice 0x23b0000023d 0x2b7c90002b7d3 (12127)%Z 0x0 (-1)%Z 0x3dd300003dd4;
  mkDevice 0x23b0000023d 0x2b7d30002b7d9 (12129)%Z 0x0 (-1)%Z 0x3dd400003dd5;
  mkDevice 0x23b0000023d 0x8c5000008c58 (12131)%Z 0x0 (-1)%Z 0x3dd500003dd6;
  mkDevice 0x23b0000023d 0x2b7d90002b7e4 (12133)%Z 0x0 (-1)%Z 0x3dd600003dd7;
  mkDevice 0x23b0000023d 0x92010000920b (12135)%Z 0x0 (-1)%Z 0x3dd700003dd8;
  mkDevice 0x23b0000023d 0x2b7e40002b7f0 (12137)%Z 0x0 (-1)%Z 0x3dd800003dd9;
  mkDevice 0x23b0000023d 0x2b7f00002b7f3 (12139)%Z 0x0 (-1)%Z 0x3dd900003dda;
  mkDevice 0x23b0000023d 0x2b7f30002b7f8 (12141)%Z 0x0 (-1)%Z 0x3dda00003ddb;
  mkDevice 0x23b0000023d 0x2b7f80002b7fd (12143)%Z 0x0 (-1)%Z 0x0;
  mkDevice 0x23b0000023d 0x2b7fd0002b800 (12144)%Z 0x0 (-1)%Z 0x3ddb00003ddc;
  mkDevice 0x23b0000023d 0x2b8000002b807 (12146)%Z 0x0 (-1)%Z 0x3ddc00003ddd;
  mkDevice 0x23b0000023d 0x9b2b00009b31 (12148)%Z 0x0 (-1)%Z 0x3ddd00003dde;
  mkDevice 0x23b0000023d 0x5980000059d (12150)%Z 0x0 (-1)%Z 0x3dde00003ddf;
  mkDevice 0x23b0000023d 0xa6b90000a6be (12152)%Z 0x0 (-1)%Z 0x0;
  mkDevice 0x23b0000023d 0x2b8070002b815 (12153)%Z 0x0 (-1)%Z 0x3ddf00003de0;
  mkDevice 0x23b0000023d 0x2b8150002b81a (12155)%Z 0x0 (-1)%Z 0x3de000003de1;
  mkDevice 0x23b0000023d 0xb47b0000b481 (12157)%Z 0x0 (-1)%Z 0x3de100003de2;
  mkDevice 0x23b0000023d 0xb5300000b537 (12159)%Z 0x0 (-1)%Z 0x3de200003de4;
  mkDevice 0x23b0000023d 0x2b81c0002b824 (12161)%Z 0x0 (-1)%Z 0x3de400003de5;
  mkDevice 0x23b0000023d 0x2b8240002b829 (12163)%Z 0x0 (-1)%Z 0x3de500003de6;
  mkDevice 0x7cc000007d6 0x2b8290002b82f (-1)%Z 0x2b8290002b82f (-1)%Z 0x0;
  mkDevice 0x23b0000023d 0x2b82f0002b836 (12165)%Z 0x0 (-1)%Z 0x3de600003de7;
  mkDevice 0x23b0000023d 0xbb870000bb8c (12167)%Z 0x0 (-1)%Z 0x3de700003de8;
  mkDevice 0x23b0000023d 0x2b8400002b849 (12168)%Z 0x0 (-1)%Z 0x3de800003de9;
  mkDevice 0x23b0000023d 0xbf540000bf5c (12170)%Z 0x0 (-1)%Z 0x3de900003dea;
  mkDevice 0x23b0000023d 0xc1b80000c1bf (12172)%Z 0x0 (-1)%Z 0x3dea00003dfa;
  mkDevice 0x23b0000023d 0xc39a0000c3a1 (12176)%Z 0x0 (-1)%Z 0x3dfa00003dfc;
  mkDevice 0x23b0000023d 0xa0a00000a0a7 (12178)%Z 0x0 (-1)%Z 0x3dfc00003dfd;
  mkDevice 0x23b0000023d 0x2b8cb0002b8db (12180)%Z 0x0 (-1)%Z 0x0;
  mkDevice 0x23b0000023d 0xe9290000e92e (12181)%Z 0x0 (-1)%Z 0x3dfd00003e04;
  mkDevice 0x23b0000023d 0xea190000ea20 (12184)%Z 0x0 (-1)%Z 0x3e0400003e06;
  mkDevice 0x23b0000023d 0x2b9300002b934 (-1)%Z 0x2b9300002b934 (-1)%Z 0x0;
  mkDevice 0x23b0000023d 0x2b9340002b93c (12187)%Z 0x0 (-1)%Z 0x3e0600003e07;
  mkDevice 0x23b0000023d 0x2b93c0002b941 (-1)%Z 0x2b93c0002b941 (-1)%Z 0x3e0700003e08;
  mkDevice 0x23b0000023d 0x2b9410002b948 (-1)%Z 0x2b9410002b948 (-1)%Z 0x3e0800003e0a;
  mkDevice 0x23b0000023d 0xfd670000fd6a (12192)%Z 0x0 (-1)%Z 0x3e0a00003e0d;
  mkDevice 0x23b0000023d 0x2b9590002b95d (12195)%Z 0x0 (-1)%Z 0x0;
  mkDevice 0x23b0000023d 0x101b0000101b6 (12196)%Z 0x0 (-1)%Z 0x3e0d00003e0e;
  mkDevice 0x23b0000023d 0x2b9640002b969 (12197)%Z 0x0 (-1)%Z 0x3e0e00003e0f;
  mkDevice 0x23b0000023d 0x2b9690002b96e (12199)%Z 0x0 (-1)%Z 0x3e0f00003e10;
  mkDevice 0x23b0000023d 0x10ec700010ec9 (12201)%Z 0x0 (-1)%Z 0x3e1000003e23;
  mkDevice 0x23b0000023d 0x2b9c50002b9cb (12213)%Z 0x0 (-1)%Z 0x3e2300003e24;
  mkDevice 0x23b0000023d 0x1247000012475 (12215)%Z 0x0 (-1)%Z 0x3e2400003e25;
  mkDevice 0x23b0000023d 0x130420001304a (12217)%Z 0x0 (-1)%Z 0x3e2500003e26;
  mkDevice 0x23b0000023d 0x2b9cb0002b9d1 (12219)%Z 0x0 (-1)%Z 0x3e2600003e27;
  mkDevice 0x23b0000023d 0x130bd000130c2 (12221)%Z 0x0 (-1)%Z 0x3e2700003e2a;
  mkDevice 0x23b0000023d 0x133a1000133a6 (12223)%Z 0x0 (-1)%Z 0x3e2a00003e2b;
  mkDevice 0x23b0000023d 0x133ed000133f2 (12225)%Z 0x0 (-1)%Z 0x3e2b00003e2c;
  mkDevice 0x23b0000023d 0x2b9d10002b9dc (12227)%Z 0x0 (-1)%Z 0x3e2c00003e2d;
  mkDevice 0x23b0000023d 0x2b9dc0002b9e0 (12229)%Z 0x0 (-1)%Z 0x3e2d00003e2e;
  mkDevice 0x23b0000023d 0x138f0000138f5 (12231)%Z 0x0 (-1)%Z 0x3e2e00003e2f;
  mkDevice 0x23b0000023d 0x138f5000138f8 (12233)%Z 0x0 (-1)%Z 0x3e2f00003e30;
  mkDevice 0x23b0000023d 0x2b9f50002b9fe (-1)%Z 0x2b9f50002b9fe (-1)%Z 0x3e3000003e31;
  mkDevice 0x23b0000023d 0x144b4000144ba (-1)%Z 0x144b4000144ba (-1)%Z 0x3e3100003e33;
  mkDevice 0x23b0000023d 0x146b7000146bb (-1)%Z 0x146b7000146bb (-1)%Z 0x3e3300003e34;
  mkDevice 0x23b0000023d 0x14d4c00014d51 (-1)%Z 0x2b9fe0002ba03 (-1)%Z 0x3e3400003e35;
  mkDevice 0x23b0000023d 0x14d7000014d80 (12238)%Z 0x0 (-1)%Z 0x3e3500003e36;
  mkDevice 0x23b0000023d 0x163270001632c (12240)%Z 0x0 (-1)%Z 0x3e3600003e37;
  mkDevice 0x23b0000023d 0x2ba0e0002ba12 (12242)%Z 0x0 (-1)%Z 0x3e3700003e38;
  mkDevice 0x23b0000023d 0x1648d00016492 (12244)%Z 0x0 (-1)%Z 0x3e3800003e39;
  mkDevice 0x23b0000023d 0x2ba120002ba18 (12246)%Z 0x0 (-1)%Z 0x3e3900003e3a;
  mkDevice 0x23b0000023d 0x2ba180002ba20 (12248)%Z 0x0 (-1)%Z 0x3e3a00003e3b;
  mkDevice 0x23b0000023d 0x168fb00016900 (12250)%Z 0x0 (-1)%Z 0x3e3b00003e3c;
  mkDevice 0x23b0000023d 0x1500a0001500d (12252)%Z 0x0 (-1)%Z 0x0;
  mkDevice 0x23b0000023d 0x16b8a00016b99 (12253)%Z 0x0 (-1)%Z 0x3e3c00003e3e;
  mkDevice 0x23b0000023d 0x16d1a00016d1f (12256)%Z 0x0 (-1)%Z 0x3e3e00003e3f;
  mkDevice 0x23b0000023d 0x171c3000171cc (12258)%Z 0x0 (-1)%Z 0x3e3f00003e40;
  mkDevice 0x23b0000023d 0x2ba200002ba27 (12260)%Z 0x0 (-1)%Z 0x3e4000003e41;
  mkDevice 0x23b0000023d 0x177ac000177b0 (12262)%Z 0x0 (-1)%Z 0x3e4100003e42;
  mkDevice 0x23b0000023d 0x2ba270002ba2c (12264)%Z 0x0 (-1)%Z 0x3e4200003e43;
  mkDevice 0x23b0000023d 0x194370001943b (-1)%Z 0x194370001943b (-1)%Z 0x3e4300003e44;
  mkDevice 0x23b0000023d 0x2ba2c0002ba30 (12267)%Z 0x0 (15940)%Z 0x0;
  mkDevice 0x23b0000023d 0x2ba300002ba37 (12268)%Z 0x0 (-1)%Z 0x3e4500003e46;
  mkDevice 0x23b0000023d 0x196150001961c (12270)%Z 0x0 (-1)%Z 0x3e4600003e48;
  mkDevice 0x23b0000023d 0x2ba370002ba3f (12273)%Z 0x0 (-1)%Z 0x3e4800003e49;
  mkDevice 0x23b0000023d 0x196ed000196f6 (-1)%Z 0x196ed000196f6 (-1)%Z 0x3e4900003e51;
  mkDevice 0x23b0000023d 0x199a3000199aa (12282)%Z 0x0 (-1)%Z 0x3e5100003e53;
  mkDevice 0x23b0000023d 0x19de800019df0 (12285)%Z 0x0 (-1)%Z 0x0;
  mkDevice 0x23b0000023d 0x1acbe0001acc4 (12286)%Z 0x0 (-1)%Z 0x3e5300003e54;
  mkDevice 0x23b0000023d 0x1afa30001afae (12288)%Z 0x0 (-1)%Z 0x3e5400003e55;
  mkDevice 0x23b0000023d 0x1b0c00001b0c5 (12290)%Z 0x0 (-1)%Z 0x3e5500003e56;
  mkDevice 0x23b0000023d 0x2ba5b0002ba68 (12292)%Z 0x0 (-1)%Z 0x3e5600003e57;
  mkDevice 0x23b0000023d 0x2ba680002ba71 (12294)%Z 0x0 (-1)%Z 0x3e5700003e58;
  mkDevice 0x23b0000023d 0x1c0cf0001c0d2 (12296)%Z 0x0 (-1)%Z 0x3e5800003e59;
  mkDevice 0x23b0000023d 0x2ba710002ba77 (12298)%Z 0x0 (-1)%Z 0x3e5900003e5a;
  mkDevice 0x23b0000023d 0x2ba770002ba81 (12300)%Z 0x0 (-1)%Z 0x3e5a00003e5b;
  mkDevice 0x23b0000023d 0x2ba810002ba88 (12302)%Z 0x0 (-1)%Z 0x3e5b00003e5c;
  mkDevice 0x23b0000023d 0x1c78c0001c790 (12304)%Z 0x0 (-1)%Z 0x3e5c00003e5d;
  mkDevice 0x23b0000023d 0x1c8990001c89f (12306)%Z 0x0 (-1)%Z 0x3e5d00003e5e;
  mkDevice 0x23b0000023d 0x180000001f (12308)%Z 0x0 (-1)%Z 0x3e5e00003e61;
  mkDevice 0x23b0000023d 0x1f7450001f74e (12311)%Z 0x0 (-1)%Z 0x3e6100003e62;
  mkDevice 0x23b0000023d 0x2baa10002baab (-1)%Z 0x2baa10002baab (-1)%Z 0x3e6200003e64;
  mkDevice 0x23b0000023d 0x1f9d20001f9d7 (12315)%Z 0x0 (-1)%Z 0x3e6400003e6d;
  mkDevice 0x23b0000023d 0x2baf60002bb05 (12321)%Z 0x0 (-1)%Z 0x3e6d00003e6e;
  mkDevice 0x23b0000023d 0x203530002035a (12323)%Z 0x0 (-1)%Z 0x3e6e00003e6f;
  mkDevice 0x23b0000023d 0x2035a00020362 (12325)%Z 0x0 (-1)%Z 0x3e6f00003e72;
  mkDevice 0x23b0000023d 0x2bb0e0002bb1e (12328)%Z 0x0 (-1)%Z 0x3e7200003e74;
  mkDevice 0x23b0000023d 0x203d7000203e1 (12331)%Z 0x0 (-1)%Z 0x3e7400003e75;
  mkDevice 0x23b0000023d 0x2bb1e0002bb23 (12333)%Z 0x0 (-1)%Z 0x0;
  mkDevice 0x23b0000023d 0x1e6000001ea (-1)%Z 0x1e6000001ea (-1)%Z 0x3e7500003e7b;
  mkDevice 0x23b0000023d 0x2bb340002bb3a (12340)%Z 0x0 (-1)%Z 0x3e7b00003e7c;
  mkDevice 0x23b0000023d 0x2bb3a0002bb44 (12342)%Z 0x0 (-1)%Z 0x0;
  mkDevice 0x23b0000023d 0x2130e00021315 (12343)%Z 0x0 (-1)%Z 0x3e7c00003e7d;
  mkDevice 0x23b0000023d 0x215f9000215fe (12345)%Z 0x0 (-1)%Z 0x3e7d00003e81;
  mkDevice 0x23b0000023d 0x2bb440002bb4b (12350)%Z 0x0 (-1)%Z 0x3e8100003e82;
  mkDevice 0x23b0000023d 0x2192400021929 (12352)%Z 0x0 (-1)%Z 0x3e8200003e83;
  mkDevice 0x23b0000023d 0x219390002193c (12354)%Z 0x0 (-1)%Z 0x3e8300003e86;
  mkDevice 0x23b0000023d 0x2bb4b0002bb53 (12358)%Z 0x0 (-1)%Z 0x3e8600003e89;
  mkDevice 0x23b0000023d 0x21ca700021cb1 (12360)%Z 0x0 (-1)%Z 0x3e8900003e8a;
  mkDevice 0x23b0000023d 0x2bb610002bb66 (12362)%Z 0x0 (-1)%Z 0x3e8a00003e8b;
  mkDevice 0x23b0000023d 0x2bb710002bb77 (12363)%Z 0x0 (-1)%Z 0x3e8b00003e8c;
  mkDevice 0x23b0000023d 0x21eb400021ebd (-1)%Z 0x21eb400021ebd (-1)%Z 0x3e8c00003e8e;
  mkDevice 0x23b0000023d 0x2bb770002bb82 (-1)%Z 0x2bb770002bb82 (-1)%Z 0x3e8e00003e8f;
  mkDevice 0x23b0000023d 0x2bb960002bb9e (12367)%Z 0x0 (-1)%Z 0x3e8f00003e90;
  mkDevice 0x23b0000023d 0x2bb9e0002bba9 (-1)%Z 0x2bb9e0002bba9 (-1)%Z 0x3e9000003e91;
  mkDevice 0x23b0000023d 0x21efe00021f06 (12370)%Z 0x0 (-1)%Z 0x3e9100003e92;
  mkDevice 0x23b0000023d 0x2281100022818 (12372)%Z 0x0 (-1)%Z 0x3e9200003e93;
  mkDevice 0x23b0000023d 0x2284900022853 (-1)%Z 0x2284900022853 (-1)%Z 0x3e9300003e94;
  mkDevice 0x23b0000023d 0x22a2600022a2d (12375)%Z 0x0 (-1)%Z 0x3e9400003e9b;
  mkDevice 0x23b0000023d 0x2bbe80002bbf0 (12382)%Z 0x0 (-1)%Z 0x3e9b00003e9c;
  mkDevice 0x23b0000023d 0x22d7300022d7a (12384)%Z 0x0 (-1)%Z 0x3e9c00003ea0;
  mkDevice 0x23b0000023d 0x2bbf70002bc08 (12388)%Z 0x0 (-1)%Z 0x3ea000003ea1;
  mkDevice 0x23b0000023d 0x233340002333b (12389)%Z 0x0 (-1)%Z 0x3ea100003ea2;
  mkDevice 0x23b0000023d 0x2bc100002bc16 (12391)%Z 0x0 (-1)%Z 0x3ea200003ea3;
  mkDevice 0x23b0000023d 0x23bc700023bce (12393)%Z 0x0 (-1)%Z 0x3ea300003ea6;
  mkDevice 0x23b0000023d 0x2bc160002bc1e (12397)%Z 0x0 (-1)%Z 0x3ea600003ea7;
  mkDevice 0x23b0000023d 0x2bc1e0002bc29 (12399)%Z 0x0 (-1)%Z 0x3ea700003ea8;
  mkDevice 0x23b0000023d 0x2bc290002bc38 (12401)%Z 0x0 (-1)%Z 0x3ea800003ea9;
  mkDevice 0x23b0000023d 0x242f8000242fe (12403)%Z 0x0 (-1)%Z 0x3ea900003eaa;
  mkDevice 0x23b0000023d 0x2bc380002bc40 (12405)%Z 0x0 (-1)%Z 0x3eaa00003eac;
  mkDevice 0x23b0000023d 0x2bc4b0002bc53 (12408)%Z 0x0 (-1)%Z 0x3eac00003ead;
  mkDevice 0x23b0000023d 0x2bc530002bc5d (12410)%Z 0x0 (-1)%Z 0x3ead00003eae;
  mkDevice 0x23b0000023d 0x2bc5d0002bc63 (12412)%Z 0x0 (-1)%Z 0x3eae00003eaf;
  mkDevice 0x23b0000023d 0x25e2e00025e34 (12414)%Z 0x0 (-1)%Z 0x3eaf00003eb0;
  mkDevice 0x23b0000023d 0x2bc630002bc6a (12416)%Z 0x0 (-1)%Z 0x3eb000003eb1;
  mkDevice 0x23b0000023d 0x2bc6a0002bc77 (12418)%Z 0x0 (-1)%Z 0x3eb100003eb4;
  mkDevice 0x23b0000023d 0x25fd000025fd6 (12419)%Z 0x0 (-1)%Z 0x3eb400003eb5;
  mkDevice 0x23b0000023d 0x2bc800002bc88 (12421)%Z 0x0 (-1)%Z 0x0;
  mkDevice 0x23b0000023d 0x268ca000268ce (12422)%Z 0x0 (-1)%Z 0x3eb500003eb6;
  mkDevice 0x23b0000023d 0x269a7000269ad (12424)%Z 0x0 (-1)%Z 0x3eb600003eb8;
  mkDevice 0x23b0000023d 0x2bc9c0002bca2 (12426)%Z 0x0 (-1)%Z 0x3eb800003eb9;
  mkDevice 0x23b0000023d 0x296820002968b (12428)%Z 0x0 (-1)%Z 0x3eb900003eba;
  mkDevice 0x23b0000023d 0x2bca20002bca8 (12430)%Z 0x0 (-1)%Z 0x3eba00003ebb;
  mkDevice 0x23b0000023d 0x2bca80002bcac (12432)%Z 0x0 (-1)%Z 0x3ebb00003ebc;
  mkDevice 0x23b0000023d 0x2ad640002ad67 (12434)%Z 0x0 (-1)%Z 0x3ebc00003ebd;
  mkDevice 0x23b0000023d 0x2adb00002adb6 (12436)%Z 0x0 (-1)%Z 0x3ebd00003ebe
].
(** device_repo.go:10-2270, class 7. *)
Definition d_dr_idx7 : list deviceTuple :=
  concat [d_dr_idx7_0].

Definition d_dr_idx : list (list deviceTuple) := [d_dr_idx0; d_dr_idx1; d_dr_idx2; d_dr_idx3; d_dr_idx4; d_dr_idx5; d_dr_idx6; d_dr_idx7].

Definition d_dr_buf_0 : blob := "NikoncameraCoolpix S800cSamsungEK-GN120Galaxy NXEK-GC100Galaxy CameraEK-GC110Galaxy Camera WiFi onlyEK-GC200Galaxy Camera 2Galaxy Camera $1BMWcar browserCar (2022)JeepWagoneerMAC AUDIOMac Audio SproSproS ProTeslaQtCarBrowserModel STopwaysp9853i_1h10_vmmTS9ArchosconsoleGamepad $1JXDJXD_S601WIFIS601 WiFiMicrosoftXboxXbox Series XXbox One XXbox OneXBOX_ONE_EDXbox One SXbox 360Nintendo$1OUYARetroid Pocket$1 PlusPocket 4 Pro4 ProSanyoAplix_SANYO3DO TRYSegaDreamcastAplix_SEGASATURNSaturnSonyPlayStation 5PlayStation 4 PROPlayStation 4 ProPlayStation 3PlayStation $110moonstv2EsmartphoneE500A (2019)E450 (2018)360N7N7 LiteN7 ProN6 LiteN6N6 ProQ5 PlusN4N5N4AN5SN4S3GNETT9003GOtabletAplay $13QQoo! P-PadQoo! Q-PadQoo! SurfTS9708BSurf TS1009BQoo! LiteQoo! MetaQoo! Q-BookQoo! Glaze4Good$1 3GLight $1People $1PeopleKIDS S45Kids S454ife5IVETarzan F17 MobileSwegueDRENADrenaKamba_2Kamba 2Kamba7Ke treeGT40promaxGT40 Pro Max8848A&Kfeature phoneA1Alpha 20 PlusAlpha 20Alpha 21Alpha EcoA1 AlphaAlphaA95XA95X Plu".
Definition d_dr_buf_1 : blob := "sPlusA95X F3 SlimF3 SlimMax+A95X_F3Air_IIF3 Air IIA95X MAXMaxA95X PROProA95X F3 AirF3 AirZ2 PlusAAUWM50ACDACD-Tab-10STab 10SAEEZOAFFIXelite AquariusElite AquariusAG MobileAGMGo Tab Access$1A9AGM_H_MAXH MaxH3H5 ProPad $1AI+AIDATAADT 1061ADT1012LADT 1012LELDE 10AIRONAirBook Pro 8SAISiris708LAVA PRO 4.5Kingcomm C500Super Smart Plus X3ALDI NORDALDI SÜDALLINmobileArenaAMAAMCVAMGOOAM350Jack ProTigoAM402ProntoAM410UnicoAM450SwiftAM508FuegoAM509UnoAM515D1AM518C1AM520AM523AM527GeoAM530AM535P1AM$1ANBERNICRGCUBERG CubeRG$1ANCELANSUL40ANS/L51L51ACK2326ArtiaANXONITAOCAOYODKGAOpensmart displayeTILE $1ARRISASSEAT&TCingular FlexCingular Flex 2Cingular Flip IVEA211005Fusion 5GU304AARadiant CoreU705AARadiant MaxEA211001Radiant Max 5GQS5509AAxiaSL219AVergeU318AACalypsoU319AACalypso 2U328AACalypso 3U380AACalypso 4U202AAMaestroEA1002Maestro MaxV350UMaestro PlusU626AAMaestro 3EA211002Motivate 2EABF22206AMotivate 3SL112AMotivate 4U668AAMotivate MaxWTATTRW2VistaU6080AAPropel 5GFusion ZATMANATMPC$1-$2ATOLperi".
Definition d_dr_buf_2 : blob := "pheralSmart_PrimeSmart PrimeSmart_Slim_plusSmart Slim PlusAUPOZeus 10 ProAURISAUXAVHExcer G5.$1Excer G5Excer 10 ProExcer 8AWOXAXENAXXAAYYAAyat101Ayat 101AZOMRiver 1AccentNeonNubia $1Cameleon C$1 PlusSpeed $1Speed X2 PlusCameleon $1Pearl A4 LitePearl A4 PlusPearl A$1Tank P55FAST7 3GSurf 1000Kidzy 70AccesstyleAceBuzz $1 UltraBuzz $1 NoteBuzz $1 PrimeBUZZ 5 Pro PlusBuzz 5 Pro+Buzz $1 ProBuzz $1 LiteBuzz $1 PlusBUZZ 4SBuzz 4SBuzz $1Clever $1URBAN 1 ProUrban 1 ProUrban $1AcelineAcepadA130 ($1)AcerDA220HQLDA241HLA410_4GA410 4GBattleZone LTEIconia AATAB$1EACTAB1021ACTAB$1ET-108-11AEnduro T1TPA60WIconia Tab 8Iconia Tab 7A1-830Iconia A1Iconia Talk SA3-A20FHDIconia A3 FHDIconia A10 M1Iconia A3Iconia Tab 10Iconia One 7Iconia B1Iconia Talk 7Iconia One 8Iconia One 10A101VangoghA200Picasso EPicassoAcer One 7 4GOne 7 4GAcer One 7One 7GT-810Predator 8Acer_one_8_T2One 8 T2One 8 T4-82LENDURO Urban T$1Liquid E700Liquid MiniLiquid ExpressLiquid E1 DuoLiquid E2 DuoLiquid E3Liquid S1Liquid S2neoTouch P400ne".
Definition d_dr_buf_3 : blob := "oTouch P300neoTouch S200beTouch E100Liquid Z$1Liquid Z110Liquid Z5 DuoLiquid Z4 DuoLiquid Jade ZLiquid Z530Liquid Z630Liquid Z630SLiquid ZestLiquid Zest 4GLiquid Zest PlusLiquid M330Liquid M220AcerTD600TD600Liquid JadeLiquid X2desktopTravelMate Spin $1TravelMate $1Aspire $1Iconia Tab A$1ActeckAT723CAikun AT723CBLECKBleckAdreamerLeoPad $1LeoPad 10AdronixMini Tab 7 3GAdvanADVAN M4M4ADVAN S40S40i7UI Lite i7US5E NXTI$1i4UI4UNASA PlusNASA ProNASAG5G5 EliteS50 4GG2 ProG3 ProE1C 3GE1C ProSketsa 2AdvanceIntroTR7989SmartPad SP$1Prime PR$1Hollogram HL$1Hollogram $1Advantage AirAfriOnephabletCygnus XCygnusGravity Z2Champion ProAileTVAILETVSmart TVAinolNumy 3G AX1Novo 7 Numy AX1 3GNumy 3G SwordNOVO10 SparkNovo 10 SparkAX10PRONumy AX10 ProNumy_3G_AX3Numy AX3 SwordNumy3GTalosNumy 3G TalosNumy_3G_BW1Numy 3G Talos 2Numy 3G AX9Numy 3G AX10RainbowII 3GNumy Rainbow-IIRainbow 3GNumy RainbowAurora-IINovo 7 Aurora IINovo7FireNovo 7 FireNovo 7 FlameNovo 7 ElfNovo 7Numy $1Novo $1 $2AirTouchAirTouch PERFORMANC".
Definition d_dr_buf_4 : blob := "EPERFORMANCE 10xPerformance 10xAirisTM50QZPhonePAD 83GAirnessAirphaHalo$1 ProAirtelAirpad 7-sAirPad 7SImagineVIDA_i501Vida i501AiutoAiwaAW790Z9 PLUSZ9 PlusAW500AWM$1M300AIWAAndroidTVAndroidTV BoxAjibajib ajib X1X1ajib l1L1ajib i10I10AkaiTAB $1AKTB-703MZiLike X$1 MetaliLike X3 Pro SlimX5_PROiLike X5 ProiLike U5 ProGlory $1Eco E2Smart TV ($1)Si2157LG32AlbaAlba 575.710 TABLET10 TabletAlcatel3088X3088SmartFlipGo Flip 3Go Flip 4Go Flip VA405DLMyFlipA406DLMyFlip 2Quick FlipCingular Flip II4087U1SE LightOne Touch Pop Star6044DOne Touch Pop UpOne Touch Pop C1One Touch Pop C1 Dual SIMOne Touch Pop C2One Touch Pop C2 Dual SIM5036DOne Touch Pop C5 Dual SIMOne Touch Pop C7One Touch Pop C7 Dual SIMOne Touch Pop D1One Touch Pop D3One Touch Pop D5One Touch Pop 2 4""One Touch Pop 2 4"" Dual SIMOne Touch Pop 2 4.5""One Touch Pop 2 4.5"" Dual SIMOne Touch Pop 2 5""One Touch Pop 2 5"" Dual SIMOne Touch Pop 3One Touch Pop 3 5""One Touch Pop 3 5.5""5015DOne Touch Pop 3 Dual SIMOne Touch Pop 45051DOne Touch Pop 4 D".
Definition d_dr_buf_5 : blob := "ual SIMOne Touch Pop 4SOne Touch Pop 4+7070XOne Touch Pop 4 6""5057MOne Touch Pop MirageOne Touch Pop S37045YOne Touch Pop S7One Touch Idol 25042TOne Touch AstroIdolX 6040One Touch Idol X5027BOne Touch DawnA7 XL1B (2020)1B (2022)OnyxVolta4034T1E5002F1A (2020)4063F1L Plus4065F1L Pro3LA576CCKora A576CCOne Touch Fierce 2One Touch Fierce 45054NOne Touch Fierce XL6042DOne Touch FlashOne Touch Idol 2 miniOne Touch Idol 2 mini Dual SIMOne Touch Idol 2 mini SOne Touch Idol 2SOne Touch Idol 3One Touch Idol 3 5.5""One Touch Idol 46070KOne Touch Idol 4SOne Touch Idol 5One Touch Idol 5SOne Touch Idol X+8030YOne Touch Hero 27055AOne Touch Hero 2C7053DOne Touch X15065NTRUA574BLRavenA577VLZipA466BGPixi Unite5056IOne Touch Optus X SmartA570BLOne Touch Pixi Avion LTEA571VLOne Touch Pixi Avion 4G LTEOne Touch Pixi FirstA464BGOne Touch Pixi GlitzA621BLOne Touch Pixi Glory4014DOne Touch Pixi 2One Touch Pixi 3 3.5""One Touch Pixi 3 3.5"" Dual SIMOne Touch Pixi 3 4""One Touch Pixi 3 4.5""One Touch Pixi 3 4.5"" 4G9".
Definition d_dr_buf_6 : blob := "002XOne Touch Pixi 3 7""9007AOne Touch Pixi 3 7"" 4G1T1T 101T 10 Smart1T 10 WiFiTEKE MiniSmart Tab 7"" WiFiOne Touch Pixi 3 7"" WiFi9009A1T 79009F1T 7"" 3G9309X1T 7"" (2021)1T 7.0""9022XOne Touch Pixi 3 8""9010XOne Touch Pixi 3 10""One Touch Pixi 4 3.5""One Touch Pixi 4 4""One Touch Pixi 4 4.5""One Touch Pixi 4 Plus PowerOne Touch Pixi 4 5"" 3G5041DOne Touch Pixi 4 5.0""One Touch Pixi 4 5.5"" 3GOne Touch Pixi 4 5"" 4G5098OOne Touch Pixi TheatreA501DLA503DLA1XAxelA3A3 PlusA3 XL9203AA3 7"" 3G3T 8.0""9026XA3 10""A5A5 LED5085NA5 Max LEDA7A305049SA30 Plus5049ZA30 FierceA503X (2019)5049WRevvl9006WOne Touch Pixi 2 7"" 4GOne Touch Pixi 4 6"" 3GOne Touch Pixi 4 6"" 3G Dual SIMOne Touch Pixi 4 6"" 4GOne Touch Pixi 4 7"" 3G9015BOne Touch Pixi 4 7"" 4G8063One Touch Pixi 4 7"" WiFiOne Touch Pixi 5One Touch Pixi 7I2139005XOne Touch Pixi 89025QOne Touch Pop 4 7"" 4GP320XOne Touch POP 8P310XOne Touch POP 7P330XOne Touch POP 7S9020AOne Touch Trek HDOne Touch Go PlayWaveALCATEL_ONE_TOUCH_768TIslandOne Touch TribeALCATEL_one_touch".
Definition d_dr_buf_7 : blob := "_585One Touch 585ALCATEL_ONE_TOUCH_838One Touch 838ALCATEL_one_touch_813dOne Touch 813DALCATEL_one_touch_813One Touch 813OT871AOne Touch 871AP360XOne Touch Pop 10One Touch $1One Touch$1Shine LiteTIMXLTIM XL5085CPulseMixU3U5U5 3GU5 HD4047GU5 Lite4047AU5 Plus4044OCingular Flip 2Go FlipU501 (2021)1 Ultra11C1C (2019)1X (2019)1V (2020)1V (2021)6002J1V (2022)3C (2019)1S1S (2020)5030E1SP (2020)1SE (2020)1V1X5059SAvalon V5V35029E3 (2020)3L (2020)3V3C6027A3H Plus3X3X (2020)56065A5H Plus6062W73T 10""3T 10.1""Joy TabJoy Tab 2Alcatel UPBig Easy Plus5041CTETRAAlcorAlfawiseZ28 ProAligatorRX850RX850 eXtremoAll StarAllCallSHINE 12TShine 12TSHINE 12 PROShine 12 ProSHINE 12Shine 12HERO_20_PROHero 20 ProHERO 20Hero 20AllCall_S1_XS1 XAllCall_S1S1AllCall_RIO_SRio SAllCall_RIO_PRORio ProAllCall_RIORioHeat $1Rio XHot $1AllDocubeSmile XKidz Pad ProM5XSkPadM5SM5M5XPower M3U63 PlusiPlay 10 Pro 10.1""XiPlay 8 ProT1201iPlay 60 ProiPlay60 mini TurboiPlay 60 Mini TurboiPlay $1 LiteiPlay $1 Mini ProiPlay $1 ProiPlay50 ".
Definition d_dr_buf_8 : blob := "MiniiPlay 50 MiniiPlay $1X GameAllviewA4YouA4 YouAX2_FrenzyAX2 FrenzyAX5NanoQAX5 Nano QC6_DuoC6 DuoE$1 LivingE$1 JumpE3_SignE3 SignE4_LiteE4 LiteM9_ConnectM9 ConnectP43_EasyP43 EasyP$1 eMagicP$1 LiteP6_plusP6 PlusP6_QmaxP6 QmaxP$1 ProP4_QuadP4 QuadP9_Energy_Lite_2017P9 Energy Lite (2017)P9_Energy_SP9 Energy SP$1 Energy LiteP8_Energy_PROP8 Energy ProP$1 Energy MiniP$1 EnergyP7_SeonP7 SeonP7_XtremeP7 XtremeP$1 LifeP10_LifeP10 LifeP10_MaxP10 MaxP10_StyleP10 StyleV$1 Viper I 4GV1_Viper_IV1 Viper IV4_Viper_PROV4 Viper ProV2_Viper_X_plusV2 Viper X PlusV2 Viper $1X4_Soul_VisionX4 Soul VisionX7_Soul_StyleX7 Soul StyleX8_Soul_ProX8 Soul ProX$1 Soul XtremeX4 Soul Infinity $1X4 Soul Infinity PlusX$1 Soul LiteX4 Soul Mini SX$1 Soul MiniX3_Soul_PLUSX3 Soul PlusX$1 Soul ProX2_Soul_Style_PlusX2 Soul Style PlusX$1 Soul StyleX$1 SoulV$1 ViperX2_TwinX2 TwinA5 EasyA$1 LiteA5 ReadyA5SmileyA5 SmileyA5_Quad_Plus_TMA5 Quad PlusA5_QuadA5 QuadA6_DuoA6 DuoA10_Lite_2019A10 Lite (2019)A10_Lite_2GBA10 LiteA$1 Plus".
Definition d_dr_buf_9 : blob := "A10_MaxA10 MaxImpera SALLVIEW P4iAllDro P4Allview_P2AllDroViva $1Viva_HomeViva HomeAllviewCityPlusCity PlusAllviewCityCityAllviewAX2FrenzyAllview2SpeedDuoAlldro 2 Speed DuoAllview3SpeedQuadAlldro 3 Speed QuadViva H1003 LTE Pro $1H1003_LTE_PROViva H1003 LTE ProViva_1003G_LiteViva 1003G LiteH1004_LTEViva H1004 LTEViva H$1 LTESpeed ISpeedALLVIEWSPEEDAX4 Nano PlusAX4NanoAX4 NanoALLVIEW_TX1_QuasarTX1 QuasarAX$1AllwinnerQUAD-CORE A64 p3A64 QUAD-CORE p3QUAD-CORE A33 y3A33 QUAD-CORE y3ZY-07BUltraOcta-T8Ultra Octa T8QUAD-CORE T3 K2001oQUAD-CORE T3 K2001OQUAD-CORE T3 K$1QUAD-CORE T3 P$1OCTA-CORE T8OCTOPUS-CORE T8QuadCore-R16QUAD-CORE R16AlpsAltiboxAlticeAltusAmazonFire TV Cube (Gen 1)Fire TV Cube (Gen 2)Fire TV Cube (Gen 3)Fire TV (Gen 3)Fire TV 4-Series (2021)Fire TV 4-Series (2023)Fire TV 2-Series (2023)Fire TV (2021-2022)Fire TV 2K (2022)Fire TV 4K (2021-2022)Fire TV HD (2023)Fire TV (Gen 1)Fire TV Stick (Gen 3)Fire TV Stick Lite (Gen 1)Fire TV Omni QLED (2022)Fire TV Omni QLED (2023)Fire TV ".
Definition d_dr_buf_10 : blob := "StickFire TV Stick 4KFire TV Stick 4K (2023)Fire TV Stick 4K MaxFire TV Stick 4K Max (2023)Fire 7""Fire 7"" (2019)Kindle Fire HDKindle Fire HD 8.9"" WiFiKindle Fire HD 8.9"" 4GKindle Fire HD 7"" WiFiKindle Fire HDX 7"" WiFiKindle Fire HDX 7"" 4GKindle Fire HDX 8.9"" WiFiKindle Fire HDX 8.9"" 4GFire Max 11Fire HD 6Fire HD 7Fire 7 (2022)Fire HD 7 (2017)Fire HD 8 (2015)Fire HD 8 (2022)Fire HD 8 (2016)Fire HD 8 (2017)Fire HD 8 (2018)Fire HD 8 (2020)Fire HDX 8.9Fire HDX 8.9 4GFire HD 10Fire HD 10 (2017)Fire HD 10 (2019)Fire HD 10 (2021)Fire HD 10 (2023)Fire HD 10 Plus (2021)SD4930URFire PhoneKindle FireKindlesmart speakerEchoEcho DotEcho Show $1Echo Show (Gen 2)Echo Show 5Echo Show 8Echo Show 15 (2021)AlexaMediaPlayerAlexaAmazon BasicsFire TV (2020)Fire TV 4K (2020)AmigooAminoAmigo7xAmigo 7xAmigo7Amigo 7AmoiClever Pad P7A862WCLEVER JOY S40Clever Joy S40AndowlAngelTechP80AngelcareF20 ProAnkerNebula SoundbarNebula CosmosNebula Cosmos MaxAnryAocosAocweiX$1AoroAosonR10$1 10.1""S7 Pro 7.0""S7 7.0""S8 Pro 8.".
Definition d_dr_buf_11 : blob := "0""ApoloSignAppleHomePodAirPlayWatch1,1wearableWatch 38mmWatch1,2Watch 42mmWatch2,6Watch Series 1 38mmWatch2,7Watch Series 1 42mmWatch2,3Watch Series 2 38mmWatch2,4Watch Series 2 42mmWatch Series 3 38mmWatch Series 3 42mmWatch SE 40mmWatch SE 44mmWatch SE (Gen 2) 40mmWatch SE (Gen 2) 44mmWatch Series 8 41mmWatch Series 8 45mmWatch6,18Watch UltraWatch7,5Watch Ultra 2Watch Series $1 40mmWatch Series $1 44mmWatch Series 7 41mmWatch Series 7 45mmWatch7,8Watch Series 10 42mmWatch7,9Watch Series 10 46mmWatch7,10Watch7,11Watch7,1Watch Series 9 41mmWatch7,3Watch7,2Watch Series 9 45mmWatch7,4WatchMac Pro (2006)Mac Pro (2007)Mac Pro (2008)Mac Pro (2009)Mac Pro (2010-2012)Mac Pro (2023)iMac (2006)iMac 17"" (2006)iMac 24"" (2006)iMac (2007)iMac (2008)iMac (2009)iMac 27"" (2009)iMac 21.5"" (2010)iMac 27"" (2010)iMac 21.5"" (2011)iMac 27"" (2011)iMac 21.5"" (2012-2013)iMac 27"" (2012)iMac 21.5"" (2013)iMac 27"" (2013)iMac 21.5"" (2014)iMac 27"" (2015)iMac 21.5"" (2017)iMac 27"" (2017)iMac 27"" (2019)iMac 21.5"" (2019".
Definition d_dr_buf_12 : blob := ")iMac 27"" (2020)iMac 24"" (2021)iMac 24"" (2023)iMac Pro 27"" (2017)MacBook 13"" (2006)MacBook 13"" (2006-2007)MacBook 13"" (2007)MacBook 13"" (2008)MacBook 13"" (2009)MacBook 13"" (2010)MacBook 12"" (2015)MacBook 12"" (2016)MacBook Air 13"" (2008)MacBook Air (2009)MacBook Air 11"" (2010)MacBook Air 13"" (2010)MacBook Air 11"" (2011)MacBook Air 13"" (2011)MacBook Air 11"" (2012)MacBook Air 13"" (2012)MacBook Air 11"" (2013-2014)MacBook Air 13"" (2013-2014)MacBook Air 11"" (2015)MacBook Air 13"" (2015-2017)MacBook Air 13"" (2018)MacBook Air 13"" (2019)MacBook Air 13"" (2020)MacBook Air 13"" (2022)MacBook Air 15"" (2023)MacBook Air 13"" (2024)MacBook Pro 15"" (2006)MacBook Pro 17"" (2006)MacBook Pro 17"" (2007)MacBook Pro 15"" (2007)MacBook Pro (2008)MacBook Pro 15"" (2008)MacBook Pro 17"" (2009)MacBook Pro 15"" (2009)MacBook Pro 13"" (2009)MacBook Pro 17"" (2010)MacBook Pro 15"" (2010)MacBook Pro 13"" (2010)MacBook Pro 13"" (2011)MacBook Pro 15"" (2011)MacBook Pro 17"" (2011)MacBook Pro 15"" (2012)MacBook Pro 13"" (2012)MacBook P".
Definition d_dr_buf_13 : blob := "ro 15"" (2012-2013)MacBook Pro 13"" (2012-2013)MacBook Pro 13"" (2013-2014)MacBook Pro 15"" (2013-2014)MacBook Pro 15"" (2015)MacBook Pro 13"" (2015)MacBook Pro 13"" (2016)MacBook Pro 15"" (2016)MacBook Pro 13"" (2017)MacBook Pro 15"" (2017)MacBook Pro 15"" (2018-2019)MacBook Pro 13"" (2018-2019)MacBook Pro 15"" (2019)MacBook Pro 13"" (2019)MacBook Pro 16"" (2019)MacBook Pro 13"" (2020)MacBook Pro 13"" (2022)MacBook Pro 16"" (2021)MacBook Pro 16"" (2023)MacBook Pro 16"" (2023-2024)MacBook Pro 14"" (2021)MacBook Pro 14"" (2023)MacBook Pro 14"" (2023-2024)Mac Mini (2006)Mac Mini (2007)Mac Mini (2009)Mac Mini (2010)Mac Mini (2011)Mac Mini (2012)Mac Mini (2014)Mac Mini (2018)Mac Mini (2020)Mac mini (2023)Power Macintosh G5 (2003)Power Macintosh G5 (2004-2005)iMac G5 (2005)Mac Mini G4 (2005)PowerBook G4 (2005)iBook G4 (2005)Mac Studio (2022)Mac Studio (2023)nook browseriPhoneiPhone 3GiPhone 3GSiPhone 4iPhone 4SiPhone 5iPhone 5CiPhone 5SiPhone 6 PlusiPhone 6iPhone 6siPhone 6s PlusiPhone SEiPhone 7 PlusiPhone 7iPho".
Definition d_dr_buf_14 : blob := "ne 8 PlusiPhone 8iPhone XS MaxiPhone XSiPhone XRiPhone XiPhone 11 Pro MaxiPhone 11 ProiPhone 11iPhone SE (2020)iPhone 12 MiniiPhone 12 Pro MaxiPhone 12 ProiPhone 12iPhone 13 Pro MaxiPhone 13 ProiPhone 13 MiniiPhone 13iPhone SE (2022)iPhone 14 Pro MaxiPhone 14 ProiPhone 14 PlusiPhone 14iPhone 15 Pro MaxiPhone 15 ProiPhone 15 PlusiPhone 15iPhone 16 Pro MaxiPhone 16 ProiPhone 16 PlusiPhone 16eiPhone 16iPhone 17 Pro MaxiPhone 17 ProiPhone 17iPhone AiriPadiPad 2iPad MiniiPad 3iPad 4iPad AiriPad Mini 2iPad Mini 3iPad Mini 4iPad Air 2iPad Pro 9.7iPad Pro 12.9iPad 5 9.7iPad Pro 2 12.9iPad Pro 10.5iPad 6 9.7iPad 7 10.2iPad Pro 2 11""iPad Pro 4 12.9""iPad Pro 11"" WiFiiPad Pro 11""iPad Pro 3 12.9iPad Mini 5iPad Air 3iPad 8 10.2""iPad 9 10.2"" WiFiiPad 9 10.2""iPad Pro 3 11"" WiFiiPad Pro 3 11""iPad Pro 5 12.9"" WiFiiPad Pro 5 12.9""iPad Air 5 WiFiiPad Air 5iPad 10 10.9"" WiFiiPad 10 10.9""iPad Air 4 WiFiiPad Air 4iPad Air 7 13"" WiFiiPad Air 7 13""iPad Mini 6 WiFiiPad Mini 6iPad Pro 4 11"" WiFiiPad Pro 4 11""iPa".
Definition d_dr_buf_15 : blob := "d Pro 6 12.9"" WiFiiPad Pro 6 12.9""iPad Air 6 11"" WiFiiPad Air 6 11""iPad Air 7 11"" WiFiiPad Air 7 11""iPad 11 10.9"" WiFiiPad 11 10.9""iPad Mini 7 WiFiiPad Mini 7iPad Pro 5 11"" WiFiiPad Pro 5 11""iPad Pro 7 13"" WiFiiPad Pro 7 13""iPad Pro M5 11"" WiFiiPad Pro M5 11""iPad Pro M5 13"" WiFiiPad Pro M5 13""Apple TV 2Apple TV 3Apple TV 4Apple TV 4KApple TV 4K (2021)Apple TViPad $1iPhone $1AquariusAquarius Pro, Std, Elt SeriesPro Std Elite SeriesCMP $1Archos 55 diamond Selfie55 Diamond Selfie50 Titanium 4G40C TIv240c Titanium v245B Titanium45b TitaniumAC45BHE45b Helium45 NeonX67 5G101B Helium 4GT96 WIFIT96 WiFi50B Helium 4G80 Oxygen101 Oxygen 4G70 Access 3GArchos Access 101 3G V2101 Access 3G V2AC101PL3GV2101 Platinum 3G V2101s Oxygen Ardoiz101s OxygenT$1 4GCore $1 3G UltraArchos Core 3g v4Core 101 3G V4Core $1 3GHello 79.4"" FFFSense 101 XTikeasy 10dT101 HD 4GT101 FHD WiFiArian Space100 ST1004PG10080 SS8003PG8071 ST7002PG7170 ST7001RW70ArivalBioniq P116ArkBenefit $1Impulse P1 PlusImpulse $1Edge $1Icon".
Definition d_dr_buf_16 : blob := " $1Wizard $1Elf S8Ukozi U$1Hercls L925ArmPhoneArnovaARCHM901M901AN7CG27c G27 G2AN7G37 G3AN7IG37i G3AN7BG37b G3AN7CG37c G3AN7DG3-CPChildpadAN7DG37d G3AN7FG37f G3AN7HG37h G3A80KSC8AN8G28 G2AN8G38 G3AN8BG38b G3AN8CG38c G3AN9G2I9i G2AN9G29 G2AN9G39 G310 G2A101B1010b G210b G3AN10CG310c G3AN10DG310d G3ARNOVA 90G390 G3ARNOVA 90 G490 G4ARNOVA 97G497 G4ARNOVA 101 G4101 G4ArtLineArtelR3 GTVGap Yo QU1 MiniU3 4GU$1AlloKomi 3Q21 ProQ21ArtizleeATL-21 PlusS9ArçelikArcelikAsano$1$2 $1.0""AsanzoS3 PlusAsk791SP 3GAsperaWrenJazz 2AssistantAsperAgioClubAS-601LSecretMax SecretSurfUnamiPrimaShotTargetShineGridRiderMax RitmAS-5412 MaxAP-721N ForceAP-941CetusAP-106 ForceAstro (UA)AsusXPad 10 LTEEee Pad MeMO 171Z906 10.1""ME172VMeMO PadMeMO Pad FHD 10MeMO Pad FHD 10 LTEMeMO Pad Smart 10Z101 PrimeZ101X Pad 10 LTEMeMO Pad 7MeMO Pad 10 ME103KMeMO Pad HD 7MeMO Pad 8MeMO Pad 8.9MeMO Pad HD 7 Dual SIMMeMO Pad 10Transformer Pad TF701TTransformer Pad TF103CTransformer Pad TF103CGTransformer Pad TF300TTransformer Pad TF".
Definition d_dr_buf_17 : blob := "303KTransformer Book TrioSlider SL101Eee Pad Slider SL101ZenPad C 7.0P008 BuildZenPad Z8P001ZenPad Z10ZenPad Z8sZenPad 7.0ZenPad 8.0ZenPad S 8.0P027ZenPad 3S 10ZenPad 3S 10 LTEZenPad 3 8.0ZenPad 10ASUS Tablet P1801-TTransformer AiO P1801 18.4""ASUS TAB A8TAB A8FonepadFonepad Note 6Fonepad 7Fonepad 7 Dual SIMFonepad 8ZenFone Max ShotPadFone SPadFone MiniPadFone X MiniPadFone T008PadFone EPadFone T004PadFone InfinityZenFone ARZenFone 11 UltraZenFone 12 UltraZenFone 8ZenFone 8 FlipZenFone 9ZenFone 10ZenFone VZenFone V LiveZenFone CZenFone Max M1ZenFone Max Pro M1ZenFone Max M2ZenFone 2ZenFone 2EZenFone LiveZenFone Live L1G553KLZenFone Lite L1ZenFone 2 LaserZenFone 4ZenFone 5 LTEZenFone 5 LiteZenFone 5ZZenFone 5ZenFone 6ZenFone 7 ProZenFone 7ZenFone MaxZenFone Max Plus M1ZenFone Max Pro M2ZenFone Go PlusZenFone GoZenFone Go TVZenFone Go LifeZenFone PegasusZenFone Pegasus 5000ZenFone Pegasus 2 PlusZenFone Pegasus 3S MaxZenFone 3 MaxZenFone 3 PegasusZenFone 3 ZoomZenFone 3 DeluxeZenFone Selfi".
Definition d_dr_buf_18 : blob := "eZenFone 3ZenFone 3 LaserZenFone 3 UltraZenFone 4 Selfie ProZenFone 4 SelfieZenFone 4 MaxZenFone 4 Max PlusZenFone 4 ProZenFone ZoomROG PhoneROG Phone 2ROG Phone 3ROG Phone 5ROG Phone 6ROG Phone 6DROG Phone 7ROG Phone 9 FEROG Phone 8 ProROG Phone 8ROG Phone 9ROG Phone 9 ProSmartphone for Snapdragon InsidersZN220ICZen AiO ZN220ICTinker Board$1asus_google_cubeCubeZenWatch$1Transformer $1Chromebook Flip $1AthesiAtmaca ElektronikATMACA_AtomAtouchS-Tab$1AtozeeCP20_GoldCP20 GoldYQ10S_MAXYQ10S MaxYQ10S_GoldYQ10S GoldAttilaAtvioAudiovoxCDM-$1AutanAvayaVantage K175AvenzoMob 4 4GMob 4 Pro 4GAvvioCHIVAS_55Chivas 55Mint_M353Mint M353Colombia_2018Colombia (2018)PADAwowAxiooPicoPhone $1PICOphone_M2PicoPhone M2 MPicoPad $1 3GAxxionATAB-$1AzeyouAzumi MobileAkaneA4 PlusSPEED55Speed 5.5""A50_Style_PlusA50 Style PlusIRO A55 QLT50 PlusKIREI A5Q PLUSKirei A5Q PlusNobu A55 ProAzupikBAFF$1Y FHD$1Y $2BARTECPixaviPixavi $1BAUHNBB MobileTechno 7.0"" Pioneer LTE S700BFTechno 10.0"" LTE TQ060XTechno 8.0"" Poplar LTE ".
Definition d_dr_buf_19 : blob := "TQ863QTechno 7.0"" Mozg LTE I700AJTechno 7.85"" Mozg I785APTechno 8.0"" Mozg X800BJTechno 10.1"" Mozg I101BITechno 7.0"" Kalash LTE TQ763ITechno $1"" 3GTechno Spark 3G X595BTBBK$1LEX-$2/$3$1LEX-$2/TS2C$1LEX-$2BDFM107ZL80BK960N MT$1BDQSMART_B19Smart B19DestinyBDsharingBDS2 PlusBGHY$1Y710 KIDSY710 KidsJOY X2Joy X2BIHEEBLISSBLISS-T6T6BMAXMaxPad I10 $1MaxPad I11MaxPad I$1 PlusBMXCBNCFBPad Mini SEBRAVEBRORBS MobileRune $1BYDFor BYD AUTOCarPadBYJU'SBYYBUOSmartPad $1BackcellBarnes & NobleNook $1BeafonTab Lite $1BeckerBeelinePro $1Tab $1TabE$1Smart $1Smart DualFast 2FastSmart 8 A239sBeebox $1BeelinkGT1GT1 MiniGT1 Mini 2GT King ProGT King IIGT KingR68 IIBeetelBeistaBekoBellFibeTVStreamerBellphoneBP 100 X-PlusBenQQS02BenQ-SiemensBenWeeW5 ProBencoAE9950V60AE9150V62AE9220V70AE9010V80AE9120V90AE9310V91AEOP520V91 PlusAH9110Y11AE9240AEOP513S1 PlusAE9260S1 ProAE9230Y32BenesseBenzoG-PADLITEGPad LiteBeyondSurve $1 ProSurve $1Home9Home 9BezkamBiegedyB$1BigbenGAMETAB-ONEGameTab-OneBigtech_BBigTech BBilimLandBil".
Definition d_dr_buf_20 : blob := "imBook MiniBillionCapture PlusBillowBioRuggedBioWolf 8-F30Ruggbo 20 LiteBirdBitelB ProBitmore$1 $2C 3GTab1011Q IIColorTab $1BittiumTough Mobile 2BkavBphone $1Black BearBlack BoxTV ProBlack FoxBMM443DB7 Fox+B8 FoxB8 Fox+BMM441WB8MBMM442DB7BMM531DB6BMM531AB5BMM541AB5+B4BMM441DB4 MiniBMM541BB4 Mini NFCBMM531BB4 Mini (2019)BMM542DB3+BMM541DB3BMM541WB7R FoxBMM 532 SBMM 532SBMM $1Blackpcs$1-BLBlackphoneK330BlacktonBt $1BlackviewA$1 ProA$1A8 MaxA80SA30-RU$1 LiteBV9000Pro-FBV9000 Pro$1 ProN6000 SEBV4800 SEE7sColor $1Xplore $1Fort $1Shark $1Wave $1CWAVE 8Wave 8HERO 10Hero 10SOLID_4G1Solid-4 G1SOLID 4 G2Solid-4 G2Active $1 ProActive 8Mega $1Tab $1 ProTab $1 WiFiTab 11 SEOmega ProBlaupunktDiscovery $1CDiscovery A10.302Discovery 1001ADiscovery 1001Soundphone S2Endeavour $1Polaris $1Atlantis_A10_G403Atlantis A10.G403Atlantis $1SLplus02SL Plus 02BP $1SM 02 2019SM 02 (2019)B-STREAMBox Stream55UW5000TBE $1BL-919845BE clever 7.0""BllocBlowLaserTAB10Laser Tab 10PlatinumTAB11_4GPlatinum Tab 11 4GPlatinumT".
Definition d_dr_buf_21 : blob := "AB8_4GPlatinum Tab 8 4GPlatinumTAB10V22Platinum Tab 10 V22Platinum Tab 10 4G $1BlackTab7_3G_V2Black Tab 3G V2BlackTAB7Black Tab 3GBluF92 E 5GAdvance A5 PlusAdvance A5 Plus LTEAdvance A5 LTEAdvance $1M6 (2021)STUDIO X MiniStudio X MiniStudio X10 2022Studio X10 (2022)Studio Mini 2023Studio Mini (2023)STUDIO G PLUSStudio G PlusSTUDIO G MaxStudio G MaxStudio $1Studio 5.0 KSTUDIO SELFIE LTEStudio Selfie LTESTUDIO ONEStudio OneSTUDIO ENERGYStudio EnergyStudio Selfie $1STUDIO SELFIEStudio SelfieNeo Energy MiniEnergy Diamond MiniENERGY DIAMONDEnergy DiamondDIAMOND MDiamond MGrand EnergyENERGY XLEnergy XLEnergy X 2ENERGY X PLUS 2Energy X Plus 2ENERGY X PLUSEnergy X PlusB300VFlexLIFE XLLife XLDash X Plus LTEDASH X PLUSDash X PlusDash 4.5Dash XLPure $1PURE MINIPure MiniBold $1Life One X2 MiniLife One $1LIFE ONELife OneLIFE X LTELife X LTELIFE X8Life X8LIFE MARKLife MarkNEO X PLUSNeo X PlusNeo $1G50 MegaG$1 PlusG$1 ProGrand 5.5 HDGrand X LTEGrand XL LTEGrand M2 LTEGrand $1Grand MaxGrand MiniGrand ".
Definition d_dr_buf_22 : blob := "M3B110DLView MegaB1550VLView Speed 5GView 2B135DLView 4B160VView 5B140DLView 3VIEW 1View 1R1 HDR2 LTER$1 PlusC$1 (20$2)Tank MegaTank Xtreme $1.0""Tank Xtreme ProTank XtremeVIVO AIR LTEVivo Air LTETouchbook G7C5 $1C6L MaxC$1L (20$2)C5L PlusC5L MaxC$1LVivo SelfieVivo 5 MiniVivo One Plus 2019Vivo One Plus (2019)Vivo $1 PlusVivo $1Vivo GoZoey SmartTouchbook M7 ProM$1L PlusM$1L ProM8L ($1)Studio 7.0"" IIAdvance A7Dash $1BluSlateEducational Tablet $1BlubooMaya BuildMayaXfire2Xfire 2Picasso 4GXfireD6 LiteS8_plus_aS8 PlusS8aD$1 ProD6BlueSkyBSS$1BluebirdBluedotBluegoodBLUEGOODV6Bluewave33GT HDWave 8 HD+WV8R-MWave 8 Red MarshmallowWV8-MWV8-LWave 8 Red NougatBmobileAX7OOAX700FUN 4 2018Fun 4 (2018)B60 ProBL40BL60BL$1 ProBL63BL60M_MV05BL60MB50ProB50 ProBL50 ProBL$1BL51BL53BL54 ProBL6$1BobarryK10 SEBolvaB-TAB1021BookeenBoostStrikaPlayStrika PlayBotech58BSE9503WZONEWzoneBowayBqeelY8 MAX S905X3Y8 MaxBrandCodeL1f-plussL1f PlusBrandcode B6SB6SBrandt$1 TVBravisA501 BRIGHTA501 BrightTrace ProCrystalDiscover".
Definition d_dr_buf_23 : blob := "yTauDeltaTrendB501EasyN1-570SpaceA554 GrandS500 DiamondA505 JOY PlusA505 Joy PlusA552 JOY MaxA552 Joy MaxAtlas A551A551 AtlasA503 JoyA504 TraceA512 Harmony ProA511 HarmonyA510_Jeans_4GA510 Jeans 4GA509_JeansA509 JeansBRAVIS NEOA401 NeoN1_550_CruiserN1-550 CruiserN1_551 GlossN1-551 GlossBRAVIS OMEGAOmegaBRAVIS BIZBizBRAVIS POWERPowerSparkSlim 3GNP 104 3GNP104 3GBRAVIS NP 103NP103BRAVIS NP 747 SDNP747 SDBRAVIS NP 844NP844BrightSignBrigmtonBTPC-BTPC-1022QC3G-TVBrondiCENTURION $1GLADIATOR $1GLORY $1LUXURY $1Midnight SkySENSUELLE $1VICTORY $1AMICO_SMARTPHONE_4GAmico Smartphone 4GAmico Smartphone $1SURFING TAB $1BubblegumBundySweet 5 Plus (2019)Sweet $1 PlusBTOUCH7_PLUSB-Touch 7 PlusBushBush10Nou10NouSpira B1 $1""$1TabletBUSH Spira B2 5 SmartphoneSpira B2 5""BuzzTVC IdeaCM$100 PlusC5 Mobilenoa X2 PlusNoa X2 Plusnoa_G1Noa G1noaXPowerNoa X PowerNOATABNoa TabCADENACAGICAGI-CAGI-OMEGACALME4G mega power4G Mega Power4G MAXX4G Maxx4G Hot4G Hero4G SMART4G Smart4G STAR4G Star4G Prime4G SPARK4G Spark4G ".
Definition d_dr_buf_24 : blob := "Premium4G LITE4G Lite4G POWER4G Power4G Music4G CloudCCITX EditionVogue 405KT$1 ProCENTEKCT-$1CEPTERCG MobileOmega $1Omega 6EON Blaze ProEON Blaze GoldBlaze $1CGVCHCNAVCKK MobileDUKE $1DUKE 2CMFA001Phone 2 ProA015Phone 1COLORROOMCOMPUMAXBlueS10Blue S10CONSUNGCOOD-ETV Box 4KCORNPlay25_Pro_4GPlay 25 Pro 4GCoco10_Ultra_4GCoco 10 Ultra 4GFenix 8 3GNote 1R$10Tronik $1C$1COYOTE1090 DVR Maximus ProCPDEVICEApollo 10 ProCUBOTTAB KINGKONG 2Tab King Kong 2TAB KINGKONGTab King KongPocket $1PocketCheetah$1RAINBOW 2Rainbow 2RAINBOWRainbowDINOSAURDinosaurKINGKONG X PROKing Kong X ProKing Kong Power $1King Kong PowerKing Kong AXKing Kong Ace $1King Kong Star 2King Kong StarKINGKONG MINI2 ProKing Kong Mini 2 ProKing Kong Mini $1KINGKONG_MINIKing Kong MiniKINGKONG 5 ProKing Kong 5 ProKing Kong $1KING KONG CSKing Kong CSKING KONGKing KongQUEST LITEQuest LiteQUESTQuestX20 PROX20 ProZORRO 001Zorro 001ManitoMagicMax $1NOTE PlusNote PlusNOTE 20 PRONote 20 ProNote $1Note SCUBOT_NOVANovaCUBOT_POWERCUBOT_X18_Pl".
Definition d_dr_buf_25 : blob := "usX18 PlusHafury V1CUD$1 ($2)CVTECXCX9006CaixunCAIXUN AndroidTVCamfoneFurious 7 ProCanaimaCanal DigitalOnePlaceCanal+CANAL PLUSTV BoxCanguroCapitelCaptivaCarbon MobileCarbon 1 Mark IIOne Mark IICarrefourCT820Touch Tablet Neo2CT$1CasioG'zOne RavineG'zOne CommandoG'zOne Commando 4G LTECasperVIA $1 PlusVIA $1CASPER_VIA_E1cVIA E1CL10 4.5GPad H10 PENPad H10 PenVIA $1 3GCatB15QCAT B35B35S61S62 ProS22 FLIPS22 FlipCavionSolid 4.5""Base 5.0""CAVION_10_3GRQBase 10 3GR QuadBase 7.1"" QuadBase 7.2"" QuadCavion Base 10Base 10Cavion Base 7 DualBase 7.0"" DualCavion Base 7 QuadBase 7.0"" QuadBase $1.0"" 3G SilverCeibalACRUXÁcruxBELLATRIXBellatrixBETELGEUSEBetelgeuseGACRUXGacruxKil-82WFDCKiland T8H133 Beta CruxCelcusCelkon4G Tab 8Millennia Hero2GBStar2GB Star2GBXpress2GB XpressCliQ 2Q4G PlusUniQCell-CSummitFantasyCELLC_EvolveEvolveCellAllureFashion2PlusFashion 2 PlusCHIC_X1Chic X1CellacomS62S51 LiteX501 PrimeCellutionCosmas $1CosmasPADUAPaduaCentricP1 PlusL3G1ChainwayChanghongHON H01HONPhone H01GHONGV12V12C".
Definition d_dr_buf_26 : blob := "herry MobileFlare HD $1Flare_HD_MAXFlare HD MaxFLARE LITEFlare LiteFlare S PlayFlare $1Flare J$1sFlare $1 PrimeFlare $1 DeluxeFlare $1 PowerFlare $1 ProFlare $1 LiteFlare $1 PlusFlare XL PlusFlare J3 PlusFlare X LiteFlare A5Flare X V$1Flare XL 2Flare $1 MiniFlare_J2_2018Flare J2 (2018)Flare S4 Max LTEFlare $1 MaxFlareS5LiteDTVFlare S5 Lite DTVFlare S2 DTVFlare InfinityFlare Lite S3Touch XL 2Omega HD $1Omega_HD_DuoOmega HD DuoOmega Icon Lite 2Omega Icon 2Omega Lite $1Omega XSpin Max 2Selfie_TwoSelfie TwoDesire R$1 LiteDesire R6 plusDesire R6 PlusDesire R6Desire R$1 PlusDesire R$1Desire EyeCOSMOS THREECosmos 3CUBIX CUBE 3Cubix Cube 3Revel 3GRadar Deluxe 2Superion Radar Deluxe 2Superion_S2_PlusSuperion S2 PlusSuperion S1 Plus DTVSuperion Tab ProFlare Tab Pro V$1Fusion Aura 3sFusion Aura 3SMAIA PAD PLUSMaia Pad PlusAM1010VOmega Lite 3Chico MobileALTO BomboAlto BomboALTO classicAlto ClassicAVANCE classicAvance ClassicALTO EstrellaAlto EstrellaALTO JUEGOAlto JuegoALTO SUBIRAlto SubirAlto $1O".
Definition d_dr_buf_27 : blob := "jos $1OJOS NUBEOjos NubeOJOS CAMBIOOjos CambioOJOS OROOjos OroOJOS LUNAOjos LunaOJOS CIELOOjos CieloOJOS PLUSOjos PlusOJOS VIVIROjos VivirOJOS DOS miniOjos DOS MiniOJOS DOSOjos DOSFUEGO MAXFuego MaxChiliGreenE-Board $1China MobileM651CYCMCC-M860N5 ProM653A3sM762GChina TelecomTYH622MMaimang 11 5GTYH611MMaimang 10 SE 5GTYH612MMaimang 10 5GTYH632MMaimang A20 5GTYH631MMaimang 20 5GTYH641MMaimang 30 5GTYH211UTianyi One (2021)TYH201HTianyi OneTYH651M-02Maimang 40 5GChuwiHi8AuPad MiniAuPad$1 Quad$1 Dual$1 $2HiBook ProHiBookHiPad XHiPad ProHiPad X ProHiPad AirHiPad PlusHiPad MaxHi$1 AirHi8 SEHi10_XPro_PadHi10 XPro PadHi10 XProHi$1 ProVi10 PlusVi10 ProVi10SurPadHiBox HeroCipherLabCitycallClarestaAirPhone $1ClarminB8LiteB8 LiteB8PlusB8 PlusB5ProB5 ProClearPHONEClementoniClempad ($1)MFC_2018Clempad (2018)MFC_8Clempad 8CLEMPAD_7_SClempad 7SClempad $1Clemphone $1Cloud MobileStratus_C5_EliteStratus C5 EliteCloudfoneThrill Boost 2 PlusThrill Boost $1Thrill BoostThrill SnapThrill Plus 16GBThrill Power".
Definition d_dr_buf_28 : blob := "Thrill AccessThrill LiteThrill HDExcite Prime 2 ProExcite Prime 2Excite PrimeExciteCExcite CNBA EditionNext LiteNextCloudpad C701TV+Cloudpad C700QTV+CloutHind 5.1X417 AmazeX418 ZestX421 NovaX422 ExoticX425 ShavitX428 AstuteClovertekCnMCnM Touchpad $1CobaltSM$1T$1 3GT$1 WiFiCoby KyrosCogecoEPICO 4KEpico 4K Cloud PVRColorsPride 1APride 7SPride 1EPride 5CPride 5XPride 1XComTrade TeslaEvo 5.0Impulse 10.1"" OCTASmartphone $1 LiteSmartphone 6.1Smartphone $1.$2 LiteSmartphone $1.$2Smartphone $1Tesla_Tablet_7857.85""TTH7H7TTL7 BuildL7Tesla_Tablet_L7_3GL7 3GTTL713GL7.1 3GTTL8 BuildL8TESLA_TABLET_M7M7Tesla_Tablet_M8M8TESLA XT550MediaBox XT550ComioGT100CT701WCT701G PLUSCT701G PlusCommScopeVIP7802CompalCompaqProfessional WorkstationConCordeReadMan $1ConceptumConcordFlyfix 6C-721Flyfix QPlus-$1 $2Dream_Edition_C-754Dream Edition C-754Concord_RANGE_HSRange HSCondorCTAB $1NOVA 70SENova 70 SENOVA60 iNova 60iNova $1PHS-601C8GT60 PROGT60 ProC4+ NoirC7 MiniPlume P4C2C5C8SC7Allure A9C6+C6 ProAllure A9 PlusG".
Definition d_dr_buf_29 : blob := "2SGriffe G4SP413Griffe T1PKT411Griffe G2PHQ519Griffe G4SPHQ520Griffe G5PAM524Griffe G5 PlusPHQ525Griffe G6PHQ526Griffe G6 ProPlume P7Plume P4 ProPlume P5Plume P6Infinity a4Infinity A4Infinity e5 proInfinity E5 ProInfinity E5Infinity I$1Griffe G4 PlusGriffe T3 ProGriffe T$1 PlusGriffe T$1P7 PlusPlume P4 PlusPlume P6 Pro LTEPlume P8Allure A55Allure A100Allure A55 SlimAllure A100 LitePlume P8 LiteAllure A8Allure A8 PlusAllure A55 PlusPlume H1Plume L$1 ProPlume L$1 PlusPlume L3 SmartPlume L$1Plume P8 ProPGN-$1ConnectceConnect Core 6ConnexSEN_1055_ARMSerenity 1055 10.1""ConquestS$1Conquest-F2F2ContixoCX-1045 3GCX-1065 3GGX-1035 4G 10.1""GT1160 4G 10.1""B105 3G 10.1""B108 4G 10.1""KT107 3G 10.1""KT109 4G 10.1""KT715 3G 7.0""KT995 3G 10.1""KT1100GTCoolpadCP23NV3Y60 5GCool Play 6Cool Play C7Cool Play 7N7 PlusREVVLPLUS C3701AREVVL PlusCP3667ATTasker8190Q1825-E0N5 LiteN5CBellazaCanvasLegacyLegacy SLegacy S SRLegacy BrisaSuvaN2MCool 1Cool SCool S1Cool 5Cool 3 PlusCool 3Cool 9Cool 9SCool 20Cool 20 ProCool ".
Definition d_dr_buf_30 : blob := "20S 5GCool 30iCP12PCP12s26Arise10AE501ModenaE502Modena 2Note 3Note 6Note 3 PlusNote 3 Lite6ADazen 6ACoopersCosmoteCosmote_My_mini_TabMy Mini TabCoviaCrescentWING 5Wing 5WING9Wing 9Venus $1CrestronCricketDebut FlipDebut FlexSL101AEDebut SmartU572ACDebut S3U6080ACMagic 5GU655ACMagic 2 5GU380ACDebut S2U680ACOutlastSN509COutlast 5GEC211001Dream 5GU304ACIconU325ACIcon 2EC211002Icon 3WTCKT01Icon 4SL112CIcon 5SL219CIcon 6V350CInfluenceEC211004Innovate 5GSN304AEInnovate E 5GU705ACOvationEC1002Ovation 2U668ACOvation 3EC211003SplendorSL100EAVision PlusCrony7021CrosscallAction-X3 ProAction-X$1Core-S4Core-$1 GoCore-$1ODYSSEY_PlusODYSSEY+Odyssey S1ODYSSEY S1Trekker-$1 CoreTrekker-$1Stellar-$1Core-T$1CrownBlossomB902Blossom B902CtroniqSNOOK-X10Snook X10Talk 8XU25GTU30GT2U27GTTalk 8U55GT_C8Talk 79Talk 7XU31GTTalk 10T8 UltimateU55GTT10 PLUST10 PlusU65GTTalk 9XiWork 8 AiriWork 8 3GiWork 8 UltimateiWork 10 UltimateiWork 10iWork 10 ProiWork 10 FlagshipT970 4GCuiudcuiudCuiud F7F7CUIUD A91A91CwowdefuCyrusC".
Definition d_dr_buf_31 : blob := "M17XACS$1 XAD-LinkD-TechDT07-TAB4GDT07 Tab 4GDASSDEALDIGDECModel 700DEXPIxion $1Ixion ES250 RageIxion ML 4.7""Ixion ES2 5Ixion ES2 5""Ixion M150 StormIxion M445 Onyx 24.5"" AL2505.0"" AL3505.45"" AS1555.85"" AS2606.22"" AS360Ursus 9EV mini 3GUrsus 9EV Mini 3GUrsus $1SeniorLarus_TV1FreyaAtlasDEYIDFJAGUAR-01Jaguar 01Saturn $1TIGER-01Tiger 01PUMA-01Puma 01DGTECDG101TBIPSDG101HSTBDIALNX8 UltraDIGICOMDTokDIGIFORSDIJITSUDCT 90Smart A11sDIMODING DINGDISHCelero 5G+SN339DCelero 5G SCCelero 3 5G+Celero3 5GCelero 3 5GCelero 5GDIXONHK7-3502SolisDN6015AstrumTS-$1-1TS_M103ATS-M103AXK1 3GDLYZU DS53Horizon H8DL_Horizon_SelfieHorizon SelfieTablet_DL_3910iPlayer KidsDMOAODNSS3504 Meteor 3.5""S4003AirTab $1DORLANDDPADPA_ZETAZetaDRAGONDSDevicesDSICDUDU AUTODUDU$1DUNNS MobileDaewooArchive 7PDanewKonnect $1GEODROID_A5Geodroid A5DBook $1DSlide $1DangcapHDD8 ProDanyMonster 4GXXMonster 4GAMAZE AX-50 AdvanceAmaze AX-50 AdvanceDariaDatalogicMemor $1DataminiDatangDATANGDatawindPocket Surfer 3G5DW-UBT7WUbislate 7WDatsunDA".
Definition d_dr_buf_32 : blob := "TSUNDATSUN_D5500D5500Datsun_D5001D5001DawlanceGSMART 4KTV4K Smart TVDbPhoneDB8PLUSDB8 PlusDbtelDcodeDS-CR1CypherCygnal $1 ProCygnal $1 LiteCygnal $1DS-BD1BoldDS-CL1CygnalDS-BD3 ProBold 3 ProDeWaltDellXCD35Venue $1VenueVenue ProVostro $1Chromebook $1Venue 7 $1DenaliE-Tab $1DenkaDENKA TVDenverTAQ-$1SDQ-$1DesayDialogDicamDigiDigicelDL3PlusProDL3 Plus ProDL3DL$1DL810DIGICELDL1plusDL1 PlusDigidragonDigihomeDigilandDL1008MDigitDigit4G Play1Digit4G Next UltraDigit4G Glory1Digit4G Infinity MaxDigit4G InfinityDigit4G Energy MaxDigit4G $1Digit4G LiteDigit4G Power MaxDigit4G E$1 ProDigmaHIT 3GDA6B8P01Q8 DA6B8P01K10 $1Pro Infinity $1Pro Wave $1Pro Eclipse $1Pro Empire $1Pro Pulse $1Pro Edge $1Pro Spark $1Pro Zoom $1Pro Quantum $1Pro Zenith $1Pro Spectrum $1iDx5HT5035PGHIT Q500 3GHT4039PGHIT Q401 3GVS5037PLVOX Fire 4GPS604MLinx 6.0LT4049PGLinx Atom 3GLT5048MGLinx Joy 3GLT5052MLLinx Base 4GLT4047MGLinx Alfa 3GLS4050MGLinx X1 3GLS4051MGLinx X1 Pro 3GLT4054MGLinx Argo 3GLS5041PLLinx Trix 4GLS5040PLLin".
Definition d_dr_buf_33 : blob := "x Rage 4GLS5053MLLinx Pay 4GLinx $1 3GPT452ELinx 4.5CITI ATL 4G CS5029MLCITI ATL 4GPro Prime 18 11"" 3GPro Hit 18 10.51""HS1007PLPro Hit 106 10.1""HS1009PLPro Hit 104 10.1""Pro Star 14TS7854MPlane 8.1"" 3GRS1249PLPro 1800F 4GHS1002PLPro Hit 16 10.4""HS1008PLHit 16 10.4""HS1004PLPro Hit 108E 10.1""HS1006PLPro Hit 14 10.4""HS1005PLPS1043MGPlane 10.3"" 3GTS1012E 3GPlane 10.1"" 3GiDx8MVM908HCZiDx9HIT 4G HT7074MLHIT 4GIDsD 10 3GCITI $1WS1262RWKids 1210BWS8253PLKids 8260CKids 8280CiDxD8 3GD-Plane2 8NS6902QLPlatina 7.2 4GNS9797MGPlatina 7.2 3GTT1004PGOptima 10.4"" 3GTT1002MGOptima D 10.4"" 3GTT7025MGOptima 7.5"" 3GTT7026MWOptima 7.6"" 3GTT7020MGOptima 7.3"" 3GTT7024MGOptima 7.4"" 3GOptima $1 $2GTS8289PLOptima 8305C 4GOptima $1 3GiD$1Q$2 3GiD$1Q$2TS7203RWOptima Kids 7TT7000MGOptima Prime 3G8402D 4G1402D 4G WS1250PL1402D 4GWS1251PLKids 1247CRS1267PLPro 1480E 4GDiMagic Cube $1VR L42DM-LED$1DinalinkDynalinkDinaxDX TA $1DisneyToy_storyTOY STORYDitecmaDivaDiverMaxSpeedBox 3DivisatJ-LINK IIJ-Link IIX-MediaOptima T-I".
Definition d_dr_buf_34 : blob := "IDoCoMoDofflerDolameeDom.ruDoogeeT$1 ProT30 MaxR$1T$1ST10ET20 Mini KidT$1 UltraT20 Mini ProT20MiniT20 MiniU10 KidBlade GT UltraBlade GT ProBlade GT PlayBlade GTBlade10 PowerBlade 10 PowerBlade10 EnergyBlade 10 EnergyBlade $1 UltraBlade $1 MaxBlade10 ProBlade 10 ProBlade20 TurboBlade 20 TurboBlade20 ProBlade 20 ProBlade20 PlayBlade 20 PlayBlade $1Fire $1 ProFire 3 UltraFire 6 PowerFire $1 MaxFire $1V Max PlusV Max PlayV Max ProV Max SV MaxS Punk ProS punkS PunkS cyber ProS Cyber ProS cyberS CyberV40 ProValencia2 Y100 PlusValencia2 Y100 ProValencia2 Y100Leo $1Iron Bone $1X$1 ProV30 ProN$1 ProN55 PlusNote 59 Pro+Note58 ProNote 58 ProNote56 PlusNote 56 PlusN$1SBL12000 PROBL12000 ProD60 ProBL5500 LiteBL12000V20ProV20 ProS41 MaxS$1 ProS$1 PlusS$1 LiteS96GTS96 GTKISSME-DG580Kissme DG580Hitman_DG850Hitman DG580X9 MiniSminiS Minix5_doogeeX5T5_LiteT5 LiteX5 Max ProX5max_SX5 Max SShoot $1Ibiza_F2Ibiza F2Y6_Piano_blackY6 Piano BlackY6_PianoY6 PianoY6 Max 3DY6 MaxY7PlusY7 PlusT6proT6 ProDG550DG550 ".
Definition d_dr_buf_35 : blob := "DaggerY100XNova Y100XTurbo_mini_F1Turbo Mini F1Y$1 PlusMix 2DooproP3DoovX11 Pro MaxX11 ProDopodDoppioDP355TexterDoraDoro80508020X8080Dragon TouchMAX 10Max 10T12MY88X__PLUSY88X PlusNotepad $1DreamStarDREAMSTARDreamgateSens 5DroidlogicDroxioDtacPhone $1Dune HDSolo 4kDuoTVduoTVDurabookDuubeeDykemannSternenschein $1Dyon2K Google TV2K Smart TVE-BodaRevo R77 GPSEclipse $1E-CerosRevolutionRevolution HDE-TACHIA5 SlimE-teli$1N$1Curiosity O9Q4EBENEBESTECONECOOAurora PlusAuroraECSTA10CA3TM105ATM105EERockEFTEGLEGL11QF611QF6EGOTEKEKOEKO Android TV 2K2K Android TVStar $1 $2EKTEK-$1ELARIELARI 4G Wink4G WinkKidPhone4GKidPhone 4GELE-GATEENACOMENIEE4ProE4 ProEPIK LearningHighQ $1ETOED1221EUROLUXEVPADEVBox PlusEVPAD-PRO-MAXEVBox Pro MaxEWISOCTA T720QOcta T720QOCTA-T700M-T2Octa T700M T2EXCEEDEXOWave i007 KidsEYUEagleEagleSoarEasypixEasyPad $1Echo MobilesECHO_HORIZON_LITEHORIZON LiteSTELLAR $1GECHO_SMART_4GSMART 4GEcoStarEdanixEdenwoodEhlelEhlel C7 PROModun C7 ProEinsteinEks MobilityX4UPlusX4U PlusElecsonM".
Definition d_dr_buf_36 : blob := "eePlus OneElectroneumElekta$1"" FHD LED Smart TV55"" UHD Curved LED Smart TV$1"" UHD LED Smart TV$1"" HD LED Smart TVElementElement 4K (2017)ElenbergElephoneTrunkVowney LiteVowneyP6000 PlusP6000 02P6000 01P6000 ProSoldierA6 MiniP8 MiniU3HC1 MaxPXElevateLuna $1Luna $1 LiteElistaElong MobileEltexNV-$1-WacNV-$1NV-$1-WBEmaticEmporiaS3miniS3 MiniE5miniE5 MiniEnergizerPower Max $1Energy $1 LTEEnergy 400SENERGY400Energy 400Energy S$1Energy $1Hard Case $1Ultimate 65GEnergy SistemEnergy Phone $1Energy Tablet $1ENERGY i10 DUALi10 DualEngelEnotEntityENT11QF12EnvizenClickTab DSH18EphoneEP19_starEP19 StarEP19EpicEpik OneK501 PlusLeo PlusRS550K501LeoK500Omega LiteK502K503TLeo TurboK503SLeo ProK503HDLeo HDK503Leo MaxK504Titan 3GX507TTitan IIK510BoltK511Bolt ProK534HadaK535Hada TurboK545RocketK536RoyalK540ExcaliburX400Pebble X400K573PantherK600JupiterK601Jupiter OneK406Pebble PlusK405Pebble IIT700PaletteEplutusEpsonProjectorHA14A LCD ProjectorSTI6110EF-100EquatorAxisErgoF501_MagicF501 MagicB502 BasicA503-".
Definition d_dr_buf_37 : blob := "OptimaA503 OptimaB506 IntroV550 VisionB504 UnitB505_Unit_4GB505 Unit 4GV551 AuraV540_LevelV540 LevelV570_BIG_BENV570 Big BenErgo F502F502 PlatinumA500 BestA550 MaxxPrime B400A502 AurumA551 Sky 4GA553 PowerA555 UniverseA556F500F501B500 FirstForce F500GoTab GBT9GoTab Gti8GoTab GTi8Tab Crystal LiteTab Hero IIERGO SmartBox SXSmartBox SXERGOGSGHS55EricssonR380ErissonEssentialPH-1EssentielbHEYou 20 PlusHEYou $1Wooze $1EtonEtulineEudoraE65 ProEurocaseEUTB_758G_TABI_Argos_KIDSTABI Argos Kids 758GEurostarOnyx $1ET7002C-H12ePad 4SEvercossA75A Star$1 MaxU50A PlusM50 StarM50 MaxU6 PRIMEU6 PrimeEverestEverPad DC-$1EverexFine 7BEverfineEverisEvertekEverpad $1$1 NanoM10 MaxEverMiracle PlusV4 PlusEverTrendy 4GEver$1 IIEvolioM4MAGICM4 MagicEvolio_M5ProM5 ProEvolveoEVOLVEO MultiMedia Box M4MultiMedia Box M4Android Box $1Smart TV $1Android Stick Q4Stick Q4StrongPhone D2 MiniStrongPhone G$1StrongPhone Q$1$2EvooEvroMediaPlaypad 3G GOOPlay Pad 3G GooPlay Pad 3G 2GooPlay Pad PROPlay Pad ProPLAY_PAD_PRO_XLPla".
Definition d_dr_buf_38 : blob := "y Pad Pro XLPlayPad 3GTab XLPlay Pad 3G Tab XL3G NOTE XLPlay Pad 3G Note XLExMobileChat 5 PlusEX $1iExertisHLLO $1ExmartExplayActiveD 7.4 3GScream 3GTornado 8Imperium $1 3GActiveD 8.2 3GCinemaTV 3GInfinityllInfinity IIInformer $1Surfer $1Surfer $1 3GsQuad $1Onliner $1Winner $1AtlantIndigoPulsarTornado 3GFreshJoyTVFinLagoonA350TVPartyRio PlayLeaderExtraLinkSmart Life ESP-300ExtremRock X$1+ROCK_X11Rock X11EyemooNXTEPaper-S1NXT EPaper S1EzioEzzeEZ$1F+SA55 2GBSA55SH$1LifeTabPlusLife Tab PlusF150B2 UltraRaptor 5GRaptor LTDRaptorAction $1 ProB2021F2 MobileZ8PLUSZ8 Plusi8_ROKRi8 RokrZ8POCKETZ8 PocketF80s_plusF80s PlusF80 PIABELLAF80 PiabellaC8FingerC8 FingerFEONALFFF SmartLifeTAB-10A4FILIXUltra M FX4423FISEFise_M32433 3GFLYCATOptimum $1Unicum $1FLYCOAYFMT16M4HI105024Netsurfer StormGlobal3 B01FMT-NM7058-02Flash176HS1050531Falcon176HS1050232B52175WT1050231175HS1050231Tomcat175FT1050241ViperFunPad-8MaxFunPad 8 MaxFNBSP5045VConeXis A1ConeXis A2ConeXis X1ConeXis X2FNFiFive Mini $1iFive $1ifiveMini".
Definition d_dr_buf_39 : blob := "3iFive Mini 3iFive Airifive Pro 2iFive Pro 2FONTELFOODOFORMEForeverFOSSiBOTDT1 LiteS3 ProF109 SF$1 ProF101 PF$1FPTFRESHFRESH SMART TVFaRao ProFacebookPortalTVPortal TVFacetelQ3Q10Q3 ProFacimeFleet 7FairphoneFamocoFamousRed 5 PlusRed Royal Edition5Plus5 PlusFamous 5Tab 10FantecM300HFarEasToneFarassooFengxiangFenotiFeroFero_Y1Y1Royale Y2 LiteRoyale $1FERO PACEPaceA4001 Plus 2019A4001 Plus (2019)A4001 PlusFiGOATRIUM II F55L2Atrium IITRIO F40LTTrio F40LTEPIC F50GEpic F50GULTRA M50GPrimeM405B_8GBVirtue II 8GBM405BVirtue IIVIRTUE3Virtue IIICENTRIC S50GCentric S50GUltraJ8Ultra J8Orbit_llOrbit IIF40G2Ultra Plus F40G2FiGiNopalP40 MaxP40Hola$1twoFjNote_1CNote 1CNote_5Note 5Note $1 ProNote $1 LiteFiggersFilimoFB-101FinePowerFinluxFINLUXFireFly MobileAurii ForceAurii VividAurii InspireAurii RazorAurii Razor PlusAurii DelightAurii Dream MiniAurii FameAurii Amuse 4GAurii Dream One 8Aurii Dream OneAurii UltraAurii Amuse 3GAurii FusionAurii MagnumAurii Vivid ProAurii Vivid PremiumAurii xCiteAurii Secr".
Definition d_dr_buf_40 : blob := "et $1Aurii $1Intense PowerIntense XTIntense Metal 4GIntense Metal 2Super SweetSweet MiniInspire_4GInspire 4GIntense $1FisionTV+FluoS554020LF_PlusF PlusFlyPanoramaVictoryView MaxSlimlinePower Plus 5000Photo ProLife AceLife JetLife SkyLife GeoLife ZenLife PlayLife BuzzLife Compact 4GFS506Cirrus 3FS403Cumulus 1Cirrus 6FS511Cirrus 7FS509Nimbus 9FS406Stratus 5FS404Stratus 3Cirrus 2FS407Stratus 6FS401Stratus 1FS402Stratus 2FS501Nimbus 3FS502Cirrus 1FS507Cirrus 4FS505Nimbus 7FS551Nimbus 4FS514Cirrus 8FS553Cirrus 9FS554Power Plus FHDPower Plus 3FS517Cirrus 11FS516Cirrus 12Cirrus 13FS520Selfie 1FS521Power Plus 1FS522Cirrus 14FS523Cirrus 16FS524KnockoutFS526Power Plus 2FS527Nimbus 17FS528Memory PlusFS529ChampFS530Power Plus XXLFS454Nimbus 8FS452Nimbus 2FS512Nimbus 10FS510Nimbus 12FS451Nimbus 1FS405Stratus 4FS408Stratus 8FS409Stratus 9FS455Nimbus 11FS456Nimbus 14FS457Nimbus 15FS459Nimbus 16FS458Stratus 7DynamicJazzWhizzPrideFirebirdMarathonTurboEvokeGloryEra Nano 1Era Nano 3Era Nano 4Era Nano 5Er".
Definition d_dr_buf_41 : blob := "a Nano 6Era Nano 9Era Nano 10EnergyEra Energy 2RadianceMiracle 2MiracleDiamond 2GeniusEra Life 1Era Life 2Era Life 4ChicHorizonHorizon 2Ego Vision 1Evo Tech 1Energy 3PhoenixPhoenix 2Energy 2CoralEvo Chic 3Evo Tech 3Era Style 3Era Style 4Evo Energy 5Tornado SlimIQ$1Flylife $1FobemFobem FondiFonosO3FormovieXmingFormulerS Turbo ProForstarAmosta 3G5FortisFortuneShipEnie E2Four MobileS185 Sky 2S186_Sky_3S186 Sky 3S61 Eco 2S62_Eco_3S62 Eco 3S710 RubyFourelEasy Smart M$1FoxconnInFocus M$1FoxxDFreeYond2305003MM5A2308005MM62308011M2306004MF9SFreetelFun +FTJ152CSamurai MiyabiRei 2 DualPriori 5Cricket WaveFTJ161AMusashiFTE171AIce 3Ice 2FTE161GIce 2 PlusFTJ162ERaijinFT141BNicoXMPriori 2FTJ152APriori 3Priori 4FTJ152BPriori 3S LTEFTJ152DSamurai KiwamiFTJ162BSamurai Kiwami 2FTJ161BSamurai ReiFTJ152EKatana 1SAKURA_FTE1Sakura FTE1FUN PLUSFun PlusFrunsi2K SMART TVFujitsuArrows 5G F-51AArrows NX F-01FEasy Phone $1Arrows Phone F-03LArrows NX F-01JArrows NX F-01KArrows Fit F-01HArrows X F-02EArrows NX F-02".
Definition d_dr_buf_42 : blob := "GArrows EF FJL21Arrows Z FJL22Arrows NX F-02HArrows NX9 F-52AArrows Kiss F-03DArrows Kiss F-03EDisney Mobile F-03FArrows SV F-03HArrows J 901FJArrows V F-04EArrows NX F-04GArrows X LTE F-05DArrows NX F-05FArrows Be F-05JArrows K-taiArrows Be F-04KArrows Be 3 F-02LArrows Be 4 F-41AArrows Be 4 Plus F-41BArrows NX F-06EArrows N F-51CArrows μ F-07DArrows WeArrows We Plus $1Arrows U 801FJDisney Mobile F-07EDisney Mobile F-08DANTEPRIMA F-09DRaku-Raku Smartphone Premium F-09ERaku-Raku Smartphone F-$1Arrows X F-10DArrows Me F-11DF-12CArrows M03Arrows RM02Arrows BZ02Arrows RXArrows M04 PremiumArrows M$1Arrows Tab $1FARTM933KZArrows Tab M504/HA4StylisticLIFEBOOK AH532LifeBook AH532FunaiFire TV 4K (2022)Fusion5$1v2 Pro$1v2F104EVII ProF104EVIIFuture Mobile TechnologyFxtecPro1 XG-GuardG GuardSMART TVG-PLUSGNE-N001SG-TabPad 10 ProG-TiDEShining7Shining 7G-TiDE V6EXTREME X9Extreme X9EX10G-TouchStella $1StellaG-VillGDLGEOFOXMID$1GEOZONGFivePresident Gold $1President Gpower 1President GPower 1President".
Definition d_dr_buf_43 : blob := " XHero $1President $1President Classic $1President G6 PlusPresident G10 FashionPresident G$1President Tango $1President Smart $1StarkSpeedo_1Speedo 14G Ultra Pro4G Style4G 6700GPad$1GIRASOLETAB5GLONYXQuartz $1GLXGLX ASAAsaSHAHIN IIIShahin IIIShahin IIMaad PlusMaadGOCLEVERQUANTUM $1INSIGNIA $1TQ700NQUANTUM 700NORION7oLORION 70LQUANTUM 700QUANTUM_1010_LiteQuantum 1010 LiteQuantum 2 $1 MobileQuantum $1 $2 RuggedQuantum $1 Rugged ProQuantum $1 $2 LiteQUANTUM_II_500_NQuantum 2 500 NQuantum $1 LiteQuantum $1 $2NETBOOK R103Netbook R103Terra $1Libra 97GOLDBERGEVO-VX1EVO VX1GOODTELG$1CNOTE 50GOtvGTMEDIAGTXJaculus $1GVC ProGalacticGalatecGalaxy InnovationsGI iTV912iTV912Gi-98Quick98 QuickGI UNI2Uni 2GI Fly T2Fly T2GammaGarmin-AsusGarminfone $1GatewayTablet $1""GazalGazal_100MIX100 MixGazal_100GazerGazer_TVGeaneeGeantGear MobileGeminiGeneral MobileGM 5 PlusG518GM Era 30G318GM Era 50G300GM 10G310GM 21G510GM 21 PlusG312GM 22G316GM 23G314GM 23 SEG512GM 22 PlusG702GM 22 ProG700GM 21 ProG301GM 20G501GM".
Definition d_dr_buf_44 : blob := " 20 ProG514GM 24 ProGM $1DGM 6GM $1GM8 goGM 8 GoG008GM 9 GoGM 9 ProG901GM Phoenix 5GGM 9 PlusG100GM 6 DSDiscovery $1Discovery II MiniGM Discovery IIGM Discovery tab 8Discovery Tab 84G DualGeneral Mobile 4G4GGenesisGenius DevicesGeo PhoneT19iGeotelNoteAmigoGeotexGetnordGfoneGhiaSveglio $1QS702GHIA_ZEUS_3GZeus 3GVECTOR_SLIMVector SlimGHIA_AXIS7PAxis 7PAXIS7_SLIMAxis 7 SlimAXIS7_LEDAxis 7 LEDGHIA_AXIS7_3GAxis 7 3GGHIA_AXIS7Axis 7A7_WFA7 WiFiVector 10.1""GTA7WFA7 ROJAGTA7PLUSA7 PlusTREO_TAB8GTREO TAB8GGT KIDS 7GTVR10SVector 10.1"" SlimGTABPNDKids PandaVENUS7VENUS 74104116NAny Diez.1GhongGhostG03GigabyteRoma R2GSmart Roma R2Simba SX1GSmart Simba SX1GigasetGigaset QV$1GS$1GS57-6ME ProGS55-6MEE940-2797-00GX4E940-2797-01GX4 ProE940-2766-00GS3E940-2795-00GS4E940-2849-00GX6E940-2849-01GX6 ProE940-2796-00GS5E940-2878-03GS5 LiteGS53-6ME PureGiniW$1S5 ProSW17W08S5Ginzzu$1 UltimateGioneeGNP21M02M12 Pad ProGN810GN8003LM6LWBL7519S6sWBL7361M6 LiteMax Pro20190619GK3 Pro20190418QK6GN8003GAU0820K8 ProGNS216".
Definition d_dr_buf_45 : blob := "1BM18GN$1M7 PowerM5 PlusM$1 MiniM11P5 miniM5 lite CDMAM5 Lite CDMAP7 MaxP8 MaxM6 MirrorGLY1620M50 ProF9 PlusF12 ProF103$1Dream D1GlobalSecTab TenGlobexX8GU6012BGlobmallGlocalMeS20iGlofiishGpad_UG Pad UGpad AirG Pad AirGlory StarStarOSGoMobileGO Onyx PlusGO Onyx miniGo Onyx MiniGO Onyx HDGo Onyx HDGO OnyxGo OnyxGo$1GocommaH1-C-ALADENGW5Gol MobileF10_PRIMEF10 PrimeF3PrimeF3 PrimeF9_PLUSTEAM_7_3GTeam 7.0 3GGoldMasterNetta 2 Proi-$1Netta 3BENGAL_6Bengal 6DETROIT 3Detroit 3GoldStarGolyGomeC72C71C51K1U1U7U7 MiniU9GoogleGlass 1Galaxy NexusAOSP on HammerHeadNexus 5AOSP on MantaNexus 10Pixel SlateFiber $1ChromecastChromecast HDChromecast HD (2022)Chromecast (2020)GoogleTVPixelPixel XLPixel 3Pixel 3aPixel 9 Pro XLPixel 3 XLPixel 2 XLPixel 3a XLPixel 4 XLPixel 4PIXEL4XPixel 4 XPixel 4aPixel 4a (5G)Pixel $1aPixel 5a 5GG011APixel 2Pixel 7 ProPixel 7Pixel 5Pixel 8 ProPixel 8Pixel 8aGPJ41Pixel 7aG8VOUPixel 6 ProGB7N6Pixel 6Pixel 10 Pro XLPixel 9Pixel 9 ProPixel 9 Pro FoldPixel 10 Pro FoldPixel $1 Pro".
Definition d_dr_buf_46 : blob := "Pixel $1PipitPixel FoldPixel CPixel Tablet 2Pixel TabletPixelbook GoPixelbookADT-2Nexus PlayerGoophoneI6 PlusI6I6SI6S PlusI7I7 PlusS4 MegaGooweelGplusGMC-7127MX20GMC-668NQ20SGMC-668MQ20GradienteGRADIENTEGraetzGrapeGTM-5$1Great AsiaTK-$1GreeG0515DTosot 5GG0615DTosot 7GGreen LionG-$1 UltraG-$1 ProGreen OrangeGO 55303C5 GOGreentelX1 Light LTEGressoREGAL R2Regal R2RegalGretelGroBerwertGrundigAFTEU014Vision 7 4K (2019)AFTEUFF014OLED 4K (2019)AFTEU011Vision 6 HD (2019)GrünbergGtelA727_Infinity_ProA727 Infinity ProInfinity 8sInfinity 9X$1 PlusX$1 MiniGuophoneH96Max RK$1Max X2Max V11Mini H8Pro+HAOQINHAOVMHAVITPJ209 PROPJ209 ProHDCH10_ONEH10 OneHEC50SSD-SMART TV-R1R1 50S 4KHEROSP-001HIPER$1-PadMEDIA STICK 4KMedia Stick 4KMedia TV $1HKCHKC 4K AI Smart TVHKProHMDPulse PlusPulse+Pulse ProPulseFusionSkylineVibe 5GVibeCRESTCrestXR21HMD ARCArcHOLLEBERGHGTV-LED$1HOMIIXBOOK_12XBOOK 12HONKUAHGHOTREALSTablet PC 10.1""HPHP Slate 6 Voice TabSlate 6 VoiceTabHP 10 Plus10 PlusSlate $1Slate 21 ProSlate 21Slate".
Definition d_dr_buf_47 : blob := " 10 HDcm_tenderloinTouch 9.7"" WiFiCompaq 8200 Elite SFF PCCompaq $1HP Pro Slate 8Pro Slate 8TouchPadiPAQ $1VeerProBook $1Engage One Pro AIOEliteBook $1Z240 Tower WorkstationHTCU PlayU UltraU11 PlusU12 PlusU$1 LifeU12 LifeU11 EyesImagioEvo 3GEvo 4GDesire 628 Dual SIMU11OneOne XOne MiniOne Mini 2One X2One X10JJ OneU23 ProJ ButterflyButterfly SOne M9_Prime Camera EditionOne M9 Prime Camera EditionOne M9 PlusOne M9One $1 Dual SIMDesire $1 Dual SIMOne M7One M8One M8 EyeOne E8One E9One E9 PlusOne S9One RemixOne X+One A9ADR6300Droid IncredibleHTC6435LVWDroid DNAADR6400LThunderBoltADR6410LRADroid Incredible 3SPV E600SPV E650Vox2PYB2Desire $1Desire 626SDesire 510Desire 530Desire 310Desire 320Desire 608tDesire 610Desire 601Desire 620Desire 626Desire 816Desire 526Desire 19sDesire 620G Dual SIMExodus 1U19eDesire 10 CompactDesire 10 Pro10 EvoDesire $1 Pro 5GDesire $1 ProDesire 10 Life StyleNexusHD2HD2Tattoo A3288P715aFlyerFlyer $1One Max$1 (Sprint)Wildfire $1 LiteWildfire $1 StarWildfire $1 PlusHaf".
Definition d_dr_buf_48 : blob := "uryGT20HaierA2_Lite_NFCAlpha A2 Lite NFCA4_LiteAlpha A4 LiteHM-N505-FLI8S5 SilkElegance E13HM-N700-FLHM-N701-FLHM-N501-FLL56HM-I559-FLL55sHM-I560-FLG7sHM-G553-FLG51P2Andromax C46B2HAndromax ECMintakahaierATVnipporihaierATVAndroid TVOLED TV S9haier Android TV DVB2KAndroid TV DVB2KAndroid TV FF ProHaipaiNoble S6HaixuHamletZelig Pad $1HammerConstruction 2 Thermal 5GConstruction 2 5GConstructionExplorer PlusExplorer ProEnergy 2 (2022)Hammer Titan 2Titan 2ForceIron $1IronExplorerActiveActive 2Active 2 LTEBlade V 5GHammer_Blade_5GBlade 5GHammer_Blade2_PROBlade 2 ProHandheldHannSpreeSN1AT71W(B)SN70T31SN70T3SN70T51ASN97T41WT7-QCSNAT71BUEHansonHardkernelODROID $1HarperHartensHTV-43F01-T2CHTY-24H06W-VZ-MHTY-24H06W-VZHT$1-$2HaseeHathwayHeadWolfHPad$1WPad$1FPad3WPad5HeimatHelioHemiltonPro Tab 1000HexaByteX7HezireHiBoost $1Boost GoVHIX-40F152MSYbVHIX-40F152MSYHX-$1VHIX-$1Hi NovaFIO-BD009 SEMNT-BD009z 5GHebe-BD009 ProHera-BD009ALH-BD00MGZ-BD0010 ProMRK-BD0010 SE 5G11SUP-BD0012 SEHi-LevelHLV-T$1HiByp".
Definition d_dr_buf_49 : blob := "ortable media playerR6 Gen IIIHiGraceHiHiHIHI-$1KH-TAB-01HiKingFun5Fun 5HiMaxPolymer$1Pure 3SPURE_IIIPure 3HibergQLED $1$1Y UHD-R$1Y UHDHighscreenPower Five ProPower Five Max LitePower Five Max 2Power Five EvoPower Five MaxPower FiveSpadeSpark 2Fest XL ProFest XLFest ProFestBayPower FourPure PowerPure FRazar ProRazarEasy $1 ProEasy $1Easy Power ProEasy PowerExplosionBoost 2Boost 2 SEBoost 3 SEBoost 3 Pro SEBoost 3Zera S PowerTastyVerge MWinWinExpanseHerculesThunderAlpha RagePrime Mini SEPrime $1COSMO DUOCosmo DuoOmega QHipstreetHiremcoX6-PROX6 ProMatrixMatador Pro AirMatador ProMatadorHisenseE270BSASero 7E22Sero 7 ProE2281Sero 8HLTE202NHLTE203TA5 Pro CCHLTE700TA6HLTE730TA6LHNR320THLTE556NM50 Lite 2021M50 Lite (2021)E50sInfinity E MAXInfinity E MaxE MaxHLTE501NV PlusKS907V3HLTE223EH30HLTE720EU30F26F28F29King Kong 4King Kong 4 ProKing Kong 5King Kong 6F8 MiniF30SF40F50F50 PlusH18H20HLTE103EE20Hisense E50 128GE50Hisense E50 Lite 64GE50 LiteHLTE229TR7 ProH11Infinity H40 LiteHLTEM800Xiaohai".
Definition d_dr_buf_50 : blob := "tun 2U40 LiteE9NanaInfinity H$1 ZoomInfinity E30 SETouchU3 (2019)U3 (2021)HitachiHitechHoffmannX $1HomaticsHometechALFA 10TX ProALFA $17_PREMIUM_PRO7 Premium ProIdeal Tab 7 IPS$1HT $1HomtomP30 ProS17HT$1 ProHT$1HoneywellScanPal $1EDA71ScanPal EDA71Dolphin $1HongTopHongTop_ProjectorHONGTOP_boxHonorMagic V5Play 10Magic 8 ProLOG-AN00Play 70 PlusMEP-AN00500 ProMEY-AN00500X7cX7dALT-NX1X7c 5GMagic V3X70ABR-AN00X70iX8cLLY-NX1200 Lite200200 ProAMG-AN00GTPPG-AN00GT ProAMM-AN00300AMP-AN00300 ProAMP-AN10300 UltraVER-N49DPMagic V2 RSRCLE-AN00Magic V Flip 2FLC-AN00Magic Vs3ALI-NX1X9bALI-NX3Magic 6 Lite 5GMagic 6 ProMagic 6 RSRBVL-AN00Magic 6Magic 7Magic 7 RSRMagic 7 ProMagic 7 LiteJDY-AN00Play 50 5GALT-AN00Play 60 PlusNIC-AN00Play 60KOZ-AL00CMPlay 20aCLK-AN00Play 8T400400 ProABR-NX1400 LiteX9cMTN-NX1MMagic 8 LiteMTN-NX1X9dBRC-NX1X9c SmartNLA-LX2PX5c PlusX5cGFY-LX2PX5b PlusGFY-LX2X5bLLY-AN00X50i+ 5GLYN-AN00X60i 5GBRC-AN00X60X60 ProAGI-AN00X60 GTX5 PlusX6cRKY-AN00Play 40 PlusRKY-AN10Play 7T 5GWDY-AN0".
Definition d_dr_buf_51 : blob := "0Play 40X7aX7bVNE-AN40Play 6CX8aRBN-NX3X8a 5GX8bX6aX6bALT-NX3X6b 5GVCA-AN00V Purse90 Lite90 Smart90MAG-AN0090 GTREP-AN0090 ProMAA-AN10100 ProMAA-AN00Magic V2LRA-AN00Magic V Flip 5GFRI-AN10Magic Vs UltimateVER-AN00Magic Vs2RMO-NX3Magic 5 LiteMagic 5Magic 5 ProPGT-AN20Magic 5 UltimateCLK-NX2X7b 5GRMO-NX1X9aCRT-AN00X50iALI-AN00X50ALP-AN00X50 Pro 5GTFY-AN40Play 6T ProDIO-AN00X40iADT-AN00X40 GTRMO-AN00X40CMA-AN00Play 30 PlusVNE-AN00Play 30VNE-N41X8 5GFNE-AN00FNE-NX970 5GSDY-AN0070 ProRBN-NX170 LiteANP-AN0080 ProAGT-AN0080 GTANB-AN0080 Pro FlatANN-AN0080 5GGIA-AN8080 SEHPB-AN0070 Pro+FRI-NX9Magic VsFRI-AN00Magic Vs 5GMagic 4 ProLGE-AN00Magic 4LGE-AN20Magic 4 Pro+ANY-LX1Magic 4 LiteCMA-AN40Play 6TX9 5GX9NNH-AN0050NTN-AN20X650 5GJLH-AN0050 SE50 Lite50 Pro 5GLSA-AN0060GIA-AN0060 SE 5GTNA-AN0060 ProELZ-AN00Magic 3ELZ-AN10Magic 3 ProELZ-AN20Magic 3 Pro+NEW-AN90Play 5 VitalityCHL-AL00Play 5T ProCHL-AN00X20 SEHJC-AN90Play 5KOZ-AL00Play 20HJC-LX9Play 20 ProPlay 5TGDI-W09MagicPad 13 WiFiROD2-W09Magic".
Definition d_dr_buf_52 : blob := "Pad 2 WiFiROD-W09Pad V8 Pro 12.1"" WiFiROD-W19Pad 9 Pro Soft Light Edition 12.1"" WiFiROL-W00Pad V9 11.5"" WiFiROL-W60Pad GT 11.5"" WiFiROD2-W69Pad GT Pro 12.3"" WiFiKRJ2-W09Pad V7 10.4"" WiFiKRJ2-AN00Pad V7 10.4"" 5GBRT-W09Pad V7 Pro 11"" WiFiBRT-AN09Pad V7 Pro 11"" 5GKOB2-W09HNPad X7 8"" WiFiKOB2-AL00HNPad X7 8"" LTEAGR-W09HNPad X6AGM-W09HNPad X8 Lite WiFiNDL-W09Pad X8a WiFiNDL-L09Pad X8a LTEAGR-AL09HNPad X6 9.7""ELN-W09Pad X9 11.5"" WiFiPad X9 11.5"" LTEELN2-L29Pad X9a 11.5"" LTEELN2-W29Pad X9a 11.5"" WiFiHEY3-W00Pad 10 12.1"" WiFiHEY3-N09Pad 10 12.1""HEY-W09Pad 8 12.0"" WiFiHEY2-W09Pad 9 12.1"" WiFiHEY2-N09Pad 9 12.1"" 5GAGM3-W09HNPad 7 10.1"" WiFiAGM3-AL09HNPad 7 10.1""HoozoF13HopelandHY$1HorionHorizontHosinHot PepperHPP-GS1HPPL60AChilacaHPPL63APancaVLE5PoblanoPuyaHPP-L55BSerranoHotwavCosmos V8 LiteHot 6Venus R8 PLUSVenus R8 PlusVenus X16Cyber $1 ProCyber XCyber $1Hyper 7 ProHyper 7SHyper 7T5 MaxSymbol $1W10M5iW11Pearl K$1 ($2)Symbol R60Note 12 EFNote 18 GTTab R$1 ProTab R$1 PlusTAB R6 UltraTab R6 Ultra".
Definition d_dr_buf_53 : blob := "Tab R$1Symbol ProSymbolHowHT-1001G Go KidsHT-$1HuadooHG11HuaganHuaviKHATAR H-10 MiniKHATAR H-20 ProHuaweiPura 70Pura 70 UltraPura 70 ProPura 70 Pro+LMU-LX9Pura 80 UltraHED-LX9Pura 80PLU-AL10Mate 70 RS Ultimate 5GMate 70 ProMate 70 5GPLA-AL10Mate 70 Pro+ 5GGFY-AL00Enjoy 70S9SAscend D1Ascend D3Ascend Y530Ascend Y320Ascend Y330Ascend Y5CAscend G300Ascend G527Ascend G620SAscend G630Ascend G7Ascend P7Ascend P6Ascend G730Ascend P1Ascend XT2Ascend Y221Ascend Y550Ascend Y560Ascend G700Enjoy 10Enjoy 10 PlusEnjoy 10EEnjoy 10SEnjoy 5SMGA-AL00Enjoy 50EVE-AL00Enjoy 50zMGA-AL40Enjoy 60MAO-AL00Enjoy 60 Pro 4GCTR-AL00Enjoy 50 ProSTG-AL00Enjoy 60XCTR-AL20Enjoy 70 ProFGD-AL00Enjoy 70GR3Enjoy 6Enjoy 6SEnjoy 7Enjoy 7SEnjoy 7 PlusEnjoy 8Enjoy 8 PlusEnjoy 8eEnjoy 9eEnjoy 20 Pro 5GEnjoy Z 5GEnjoy 20 SEEnjoy 20 Plus 5GEnjoy 20eFusion 2Y6pG PlayG Play MiniG621GR3 (2017)GR5GR5 (2017)RIO-L03GX8G8G7 PlusP60 ProP60P50 ProP50P50EP50 PocketBAL-AL60Pocket SLEM-AL00Pocket 2Honor 2Honor 3CHonor 3C LiteHonor 3XHN3-U01Ho".
Definition d_dr_buf_54 : blob := "nor 3YOK-AN10Honor V40ALA-AN70Honor V40 LiteKKG-AN70Honor X30 MaxANY-AN00Honor X30TFY-AN00Honor X30iAGS3-AL09HNHonor Pad 6 10.1""AGS3-W09HNHonor Pad 6 10.1"" WiFiHonor Pad V6 10.4"" 5GHonor Pad V6 10.4"" WiFiHonor 30 ProHonor 30 Pro PlusHonor 30SHonor 30IHonor 30 LiteHonor 30TNNH-AN00Honor Play 4Honor Play 4 ProHonor Play 4THonor 8A ProHonor 9AHonor 9CHonor 9x LiteHonor 9X LiteOXF-AN00Honor View 30OXF-AN10Honor View 30 ProHonor X10 MaxHonor X10 LiteHonor X10 5GX10 ProHonor X10 ProHonor Play 9AHonor 10 LiteHonor 10IHonor 20 LiteHonor 20IHonor 20 ProHonor 20SHonor 20Honor Play 3EHonor Play 3Honor Play 4CHonor 8AHonor 8SHonor 9SHonor 9X ProHonor 9XHonor Play 7Honor Play 8AHonor Play 8Honor 10Honor 8CHonor 8XHonor 8X MaxHonor Magic 2Honor Magic 2 3DHonor V20Honor View 20Honor 5 PlayMYA-TL10Honor 6 PlayHonor 7AHonor 7A ProHonor 7CHonor 7SHonor 8 LiteRVL-AL09Honor Note 10Honor PlayHonor 9Honor 9 LiteHonor 9iHonor View 10Honor V10Honor 7XHonor 6ADIG-L21HNHonor 6CHonor 6C ProHonor 8 ProEDI-AL10Hon".
Definition d_dr_buf_55 : blob := "or Note 8CAM-UL00Honor Holly 3NTS-AL00Honor MagicDUK-AL20Honor V9Honor V9 PlayHonor 4C ProHonor Play 4T ProHonor 5AHonor 5CHonor 5C Dual SIMHonor 6XHonor 7 LiteHonor 8VEN-L22Honor 8 SmartHonor V8Honor 4AHonor 4CHonor 5XHonor 7Honor 7iHolly-U19Honor HollyHonor 4XHonor 6Honor 6 PlusHonor Tab 5Honor Water Play 10.1Honor Water Play 8.0Honor Pad 2VKY-TL00P10 PlusP40 5GANA-NX9P40 DualIdeos X2Ideos X3Ideos X5Ideos X5 ProMaimang 5RIO-AL00Maimang 4Maimang 8Maimang 9TYH601MMaimang 9 5GMaimang $1Mate XSMate XS 2TAH-AN00Mate XMate X3ALT-AL10Mate X5Mate X6Mate X2TET-AN50Mate X2 5GMate 10Mate 10 LiteMate 10 ProMate 20Mate 20 LiteMate 20 ProMate 20 RSMate 20 XMate 30TAS-AN00Mate 30 5GMate 30 RS Porsche DesignMate 30 LiteMate 30 ProMate 30 Pro 5GMate 30E Pro 5GMate 40 ProNOH-AN80Mate 40E Pro 5GMate 40 Pro+Mate 40 RSMate 40Mate 40EMate 50 ProMate 50CET-AL60Mate 50EMate 60 ProALN-AL10Mate 60 Pro+BRA-AL00Mate 60Mate 8Mate 9Mate 9 LiteMate 9 ProMate RSMate RS Porsche DesignMate SMate SENova LiteNova PlusN".
Definition d_dr_buf_56 : blob := "ova Lite 3+Nova 2Nova 2 LiteNova 2 PlusNova 2 Plus Dual SIMNova 2INova 2SNova 3Nova 3eNova 3iNova 4Nova 4eNova 5Nova 5 ProNova 5iNova 5Tnova 5T ProNova 5T ProNova 5i ProNova 6 5GNova 6 SENova 6Nova 7 5GNova 7 Pro 5GNova 7 SE 5GMAO-LX9Nova 11iGOA-AL80UNova 11 UltraNova 11 ProNova 11Nova 12 LiteBON-AL00Nova 11 SEADA-AL00UNova 12 UltraADA-AL10UNova 12CTR-L81Nova 12iCTR-L91Nova 13iMIS-LX9Nova 13 ProADA-AL00Nova 12 ProBLK-AL00Nova 13TLR-AL00Nova 14Nova 7iNova 8iNova 8 5GJSC-AN00Nova 8 SE 5GNova 8 SE 4GCHL-AL60Nova 8 SE VitalityNova 8 Pro 4GNova 8 Pro 5GNova 8Nova 9Nova 9 ProNova 9 SENova 10 ProNova 10 4GNova 10 SECHA-AL80Nova 10zMAO-LX9NNova SmartNova YouthEnjoy 20 5GNova Y60Nova Y61Nova Y70GFY-LX1Nova Y72SNova Y90Nova Y91P smartP smart (2019)P smart (2020)P smart (2021)P smart ZP smart SP10P10 LiteP10 SelfieP20P20 LiteP20 ProP30P30 LiteMarie-L21BXP30 Lite NEP40 LiteP40 Lite EP40 Lite E NFCP40 ProP40 Pro PlusP8P8 PremiumP8 Lite (2015)P8 Lite (2017)P9P9 LiteP9 Lite PremiumP9 Lite MiniP9 Lite".
Definition d_dr_buf_57 : blob := " SmartP9 PlusG9 PlusG9 LiteShotXY MaxY3 (2017)Y3 (2018)Y3IIY5 (2017)Y5 (2018)Y5 (2019)Y5 LiteY5pY5 Lite (2017)Y5 Lite (2018)Y5 Prime (2018)Y5 Pro (2017)Y5IIY6Y6 II CompactY6 EliteY6 (2016)Y6 (2017)Y6 (2018)Y6 (2019)Y6 Prime (2018)Y6 ProY6 Pro (2019)Y625Y635Y635 Dual SIMY6IIY7 (2017)Y7 (2018)Y7 (2019)Y7 PrimeY7 Prime (2018)Y7 Pro (2019)Enjoy 9Y7aY7pY8pY9 (2018)Y9 (2019)Y9 Prime (2019)Y9aStream SGT3Evolucion 3Ultym 5Ascend G6Nexus 6PMate XT Ultimate DesignKOB2K-L09MatePad T8 8"" LTEBVE-W10Qinyun C5z 10.4"" WiFiQua Tab 02 10.1""MatePad 10.4"" (2022)MatePad 10.4"" (2022) WiFiMatePad 10.4""BAH3-W59MatePad 10.4"" WiFiBAH3-AN10MatePad 10.4"" 5GDBY-W09MatePad 11 WiFiAGS6-W09MatePad SE 11 WiFiAGS6-L09MatePad SE 11BKY-W09MatePad 12 X WiFiMatePad 11 (2023) WiFiMatePad Pro 11MatePad Pro 11 WiFiXYAO-W00MatePad Pro 11 (2024) WiFiMatePad 10.8"" WiFiMatePad 10.8""MatePad T10sMatePad T10s WiFiMatePad 10.4"" SEMatePad 11.5"" Air WiFiDBY2-L09MatePad 11.5"" AirBTK-AL09MatePad 11.5"" LTEBTK-W09MatePad 11.5"" WiFiBTKR-W09".
Definition d_dr_buf_58 : blob := "MatePad 11.5"" (2024) WiFiMatePad 11.5"" S WiFiMatePad 10.4"" SE WiFiMatePad Paper 10.3"" WiFiMatePad C5 8C3 9.6"" WiFiC3 9.6""C3 9.7"" (2020)C3 9.7"" (2020) WiFiC5 8"" LTEC5 10.4"" WiFiMediaPad M2 8.0""MediaPad M2 10.1""MediaPad M2 8.0"" WiFiMatePad Pro 10.8""MatePad Pro 10.8"" WiFiMatePad Pro 10.8"" (2021) WiFiMRO-W09MatePad Pro 12.2"" (2024) WiFiMatePad Pro 10.8"" 5GMatePad Pro 12.6"" WiFiWGR-AN19MatePad Pro 12.6""MatePad Pro 13.2"" WiFiMatePad Pro 13.2"" (2025) WiFiMediaPad M5 10.8MediaPad M5 Pro 10.8MediaPad M6 10.8""MediaPad X2MediaPad M5 LiteMediaPad M5 8.4MediaPad M6 8.4MediaPad M6 10.8"" WiFiMediaPad M3 8MediaPad M3 LiteMediaPad M3 Lite 10BTV-DL09MediaPad M3MediaPad T5 10MediaPad T 8.0""MediaPad T 10MediaPad T3 10MediaPad T3 8MediaPad T3 7MediaPad T2 7.0MediaPad T2 7.0 ProMediaPad T2 8.0 ProMediaPad T2 10.0"" ProMediaPad T1 10MediaPad T1 7MediaPad T1 8AGS3K-W20MediaPad SE 10.1"" WiFiAGS3K-W00MediaPad T10s 10.1"" WiFiAGS3K-W09MatePad T10s 10.1"" WiFiAGS3K-L09MatePad T10s 10.1"" LTEAGRK-W09MediaPad T10 9.7"" ".
Definition d_dr_buf_59 : blob := "WiFiAGRK-L09MediaPad T10 9.7"" LTEEnjoy Tablet 10.1Enjoy Tablet 2 10.1"" WiFiMediaPad C5 10.1BZT-W09MediaPad C5 10.1"" WiFiMON-AL19BMediaPad C5 8""MatePad C5e 10.1""MatePad C5e 10.1"" WiFiBZT3-W09BZT3-AL00C5 10.4""BZD-W00MediaPad C3 8.0"" WiFiBZD-AL00MediaPad C3 8.0""D Tab Compactdtab $1Smart Watch 2Smart Watch 2 SportGLL-AL01Watch 3 Pro EliteARC-AL00Watch 4BLM-00 SmartScreenEC6108V$1KANT-369Vision S 65""KANT-359Vision S 55""Smart Screen S 55""KANT-350SSmart Screen S Pro 55""KANT-360SSmart Screen S Pro 65""KANT-360Smart Screen S 65""KANT-370SSmart Screen S Pro 75""KANT-370Smart Screen S 75""Ideos$1Ascend Mate $1HugerockT101_2021T101 (2021)HumanwareBrailleNoteBrailleNote Touch PlusBrailleNote TouchHumaxHurricaneIgniteVortexGigaGlazeCobraDZIREDzireSAGESageBeamSlamVulcanFlame_PlusFlame PlusRidge PlusRush PlusIris Plus 2021Iris Plus (2021)VortexPlusVortex PlusExciteFlintHuskeeVULKANOVulkanoHyattaModel $1HykkerHykker_MyTab10MyTab10HyteraHyundaiUltra Vision PlusUltra $1Seoul S8Seoul MIXSeoul MixSeoul ECOSeou".
Definition d_dr_buf_60 : blob := "l EcoSeoul 5 PlusSeoul $1G25523KEternity G23Eternity $1G25524KEternity G24G24027KEternity G27W25042LEternity W42HP554OL503F PlusHYMI 5S PlusHymi 5S PlusE465GOE465 GoULTRA ROCKUltra RockL$1Koral 7W4HT0701L16Koral 7XLHT0701W16Koral 7W4XHT0703W08Koral 7W310LB1Koral 10LB1HT1004LI16Koral 10XLKoral_8W2Koral 8W2HT1004L16HT1003X16Koral 10XHT1002W16Koral 10WHT0703K16Koral 7M3XHT0704K08Koral 7M410WB1Koral 10WB110WB2HyTab Plus 10WB210LA1HyTab Pro 10LA1HT1002W32Koral 10X3 WiFiHyTab 7GB1HyTab Lite 7WD1HyvePryme 01ST01Storm ST01I KALLIKALLI-INNCommunicator 9.7"" 3GI-PlusiPlus P3IDCVoice 20IKI MobileGO5_55Go 5.5""Go 4.5""BLESS_GO55Bless Go 5.5""BLESSPLUSBless PlusIKU MobileT MaxIMO MobileQ$1 PlusQ$1 ProQ2S2Feel A2S50 LightS80 HeroS89 MiracleS88 DiscoveryS99 OceanS98 ChampionS87 RaptorS67 BlastS78 GloryQ8 ClarityDiscovery IIQQ$1Tab X9INCARINQINSYSHK9-4010AC7_DJ17AC7-DJ17IH9-L614MX IH9-L614IOTWET95 ProIQMVivaldiNewtonIRAIRA_DUODuo TabletITIT-1101-QUAD1101 QuadIUNIIconBITNT-3506MNetTAB Mercury Quad FHDNT-07".
Definition d_dr_buf_61 : blob := "04SNetTAB Sky LENT-0909TNetTAB Thor IZNT-1009TNetTAB Thor quad IINetTAB Thor LENT-1017TNetTAB Thor 3G quadNT-3601P/3602PNetTAB Pocket 3GNT-3603PNetTAB Pocket 3G SlimNT-3702SNetTAB Sky HD 3GNT-3805CNetTAB Skat 3G quadNT-3701SNetTAB Sky 3G duoNT-3905TNetTAB Thor ZX 3GNT-0701SNetTAB Sky netNT-0805CNetTAB Skat MXNT-0902SNetTAB Space quad RXNetTAB_Space_3GNetTAB Space 3GNT-3702MNetTAB Matrix 3G duoNT-3703MNetTAB Matrix 3GTMATRIX ULTRANetTAB Matrix UltraNT-1501CCallisto 100XLR3089Movie 2100TOUCAN NANO 4KToucan Nano 4KTOUCAN Smart 3D QuadToucan Smart 3D QuadTOUCAN Stick 4KToucan Stick 4KIcone GoldImaqIMAQTetraImoseBAM-IIImpressionImSmart $1ImPad $1InFocusIF9001Turbo 5IF9007IF9021Turbo 5 PlusIF9035A2IF9002M5sIF9003M6sIF9031Vision 3IF9029Vision 3 ProBig Tab IF$1aM$1InFoneGORILLA 9 PLUSGorilla 9 PlusX_RAINBOWX RainbowInch$1""IncoBloom 4Plain2 SPlain 2SMATTERMattereco_sEco SFlex $1Sphere$1InduramaINDURAMAInfinitonT5Earth 7"" 3GEARTH10Earth 10.1"" 3GInfinityProInfinityProTVInfinixGT 10 ProGT 20 ProGT".
Definition d_dr_buf_62 : blob := " 30 ProBuzzAlpha MarvelSurf SmartSurf Smart 3GSurf Smart 2Surf SpiceSurf BravoSurf NoirRaceRace LiteRace BoltRace Bolt QRace Bolt 2Race EagleRace JetZeroZero FlipZero 30Zero 30 5GZero 2Zero 20Zero 3Zero 40 5GZero 40Zero 4 PlusZero 4Zero 5Zero 5 ProZero 6Zero 6 ProZero 8iInfinix X6870Note 50S 5GZero 8Zero 5GZero XZero X ProZero X NeoZero UltraHotHot 2Hot 3Hot 30iHot 30Hot 30 PlayHot 30 5GHot 40iHot 40Hot 40 ProHot S3XHot SHot S2Hot 4Hot 4 ProHot 5Hot 50Hot 50iHot 50 5GHot 50 ProHot 50 Pro+Hot 5 LiteHot 60 ProHot 60 Pro+Hot 60 5GHot 60iHot 60i 5GHot 6XHot 6 ProHot 7Hot 7 ProHot 8Hot 9 ProHot 9Hot 9 PlaySmart 4 PlusSmart 4Hot 10 PlayHot 10Hot 10THot 11Infinix X689DHot 10s NFCInfinix X689Hot 10sHot 10iHot S3Hot 11SHot 11 (2020)Hot 12 Play NFCHot 12 PlayHot 12 ProHot 20iHot 20Hot 20 5GHot 20 PlayHot 20SHot 12iHot 12Smart HD (2021)SmartSmart 2Smart 2 HDSmart 3Smart 3 PlusSmart 2 ProSmart 9 HDSmart 9Smart 5Smart 6 PlusSmart 6Smart 6 HDSmart 7 PlusSmart 7Smart 7 HDSmart 8 ProSmart 8 PlusSmart ".
Definition d_dr_buf_63 : blob := "8S5 LiteS4Smart 10 PlusNote 40X 5GHot NoteNote 2Note 4Note 4 ProNote 5 StylusNote 7Note 7 LiteNote 8Note 8iNote 10 ProNote 10Note 12Note 12i (2022)Note 12iNote 12 ProNote 12 Pro 5GNote 12 VIPNote 12 NFCNote 11Note 11 ProNote 11SNote 12 5GNote 12 (2023)Note 30Note 30iNote 30 VIPNote 30 ProNote 30 5GNote 50 ProNote 50 Pro+ 5GNote 50X 5GNote 50Note 40SNote 40 ProNote 40 Pro+ 5GNote 40 Pro 5GNote 40 5GNote 40XPadHot $1$2InfoKitInfomirInhonInkaX96 miniInktiInnJooVOOM TAB 2Voom Tab 2X3Halo X LTEHalo PlusHalo 4 Mini LTEHalo 4Halo 2 LTEHalo $1 3GPro 2One 3G2 LTEFire2 Plus LTEFire 2 Plus LTEFire_Plus_LTEFire Plus LTEFire2 Air LTEFire 2 Air LTEFire2 Pro LTEFire 2 Pro LTEFire2 LTEFire 2 LTEFire3 miniFire 3 MiniFire 4 ProFire 4 PlusFire 4Superb_PLusSuperB PlusSuperbSuperBVISION LTEVision LTEInnosInnostreamINNO$1InoiPad Mini 2+32Pad 2+32Pad 4+128Pad Mini 1+16 WiFiinoiPad ProPad ProPad WiFi+3GINOI easyphoneEasy Phone$1 Lite ($2)A72A181_PlusA181 PlusA180A62InsigniaNS-P11A810011.6""Flex 10.1""NS-P16AT08".
Definition d_dr_buf_64 : blob := "Flex 8""NS-P08A71008""10.1""NS-P16AT785HDFlex Elite 7.85""AFTEAMR311HD (2018)AFTJMST124K (2018)IntelNUC10i3FNHNUC 10IntexIM0318NDAqua Lions 3Aqua Lions T1 LiteAqua Lions $1Aqua $1 PlusAqua $1Aqua Lions T1 PlusAqua Crystal PlusAqua Fulvu E5Aqua Jewel 2Aqua Life IIIAqua 4.0 4GAqua Mini 4GAqua Lions 4GAqua Prime 4GAqua ZenithAqua Power IVAqua Young 4GAqua Trend LiteAqua Amaze PlusAqua Supreme PlusAqua Style $1Aqua Strong 5.1 PlusAqua CrystalElyt Dual PlusElyt DualElyt $1IV0318NDIndie 11Lions 6Infie 77Cloud TreadInvensInvinKM5PROKM5 ProIrbisIrisVox $1SN30Vox FortisVox VeroVOX Alpha PlusVox Alpha PlusVOX STEEL PlusVox Steel PlusVOX AlphaVox AlphaVOX EnergyVox EnergyVOX POP plusVox Pop PlusVOX POP ProVox Pop ProNext_P_PRONext P ProNext $1IS$1 PlusIRS002-16I-S6IS2SX1 miniX1 MiniJAY-TechTablet PC PA10.1MTablet PC $1TPC-G1011LTETablet PC G 10.11"" LTEJFoneJKLJPayJRENJUSYEAJVCFire TV 4K (2019)Fire TV 4K (2021)Fire TV 2K (2020)JamboJP1JamboPhoneJP2JamboPhone 2JckkcfugA10 ProJekaJK $1 3GJK $1JesyJ9S_PR".
Definition d_dr_buf_65 : blob := "OJ9s ProJiakeJK-$1JiayuG4/G5JY-$1JideRemix ProRemix MiniJin TuJingaOptim 4GFresh 4GHotz M1Hit 4GPass PlusPass 3GGoal PlusTouch 4GStart 3GStart LTEStartPicasso NoteIGO L3Basco NeoBasco M500 3GBasco $1Trezor S1 PlusIGO L2IGO $1JioJioPhone NextJiviRevolution $1Opus S3JSPQ65JSP Q65Xtreme Klick $1Xtreme View Pro $1 PlusXtreme View $1Xtreme $1JollaJoyJoySurfJS10JumperEZpad $1Juniper SystemsJunipers/Cedar#CT8CT8Just5Cosmo $1Freedom $1FreedomSpacer 2SSpacer 2JUST5SPACERSpacerBLASTER 2Blaster 2BLASTERBlasterK-LiteKLT_K301K301NAVTECH_TOUCHY_F2Navtech Touchy F2K-TouchKT20201199KT20201188T12 Pro MaxLDOX-2130i13 Pro MaxLDOX-2123X13 ProLDOX-2121MT40LDXA-2022X27S ProLDXA-2122X27SPace 2 LiteKAPROiK-10KATV1KDDIiida InfoBar $1InfoBar A02KENSHIArmor I1 SlimArmor $1Pad Lite $1Pad Pro $1KENWOODKGTELKINGZONEK1 TurboKMCKN MobileKOPOKREZKRIPK$1KRONONET1100NET 1100NET $1NET_MATRIXNet MatrixNET_MAXNet MaxNet $1NETWORKNetworkKT-TechKTCKVADRAKVADRA_KVADRA_TTKZGKaanKaiomyKaiCloud $1KalleyBlack_G_2Black G 2Black $1".
Definition d_dr_buf_66 : blob := " ProBlack $1BLACK_PROBlack ProElement 4 PlusElement 5ELEMENT MAXElement MaxSilver Max Pro 2Silver Max $1SILVER_MAXSilver MaxELEMENT PLAYElement PlayELEMENT QElement QELEMENT_PRO_2Element Pro 2GOLD_PROGold ProK-BOOK$1Android TV $1KanjiCata 7KJ-GOCHIGochiAilu MaxYubi 3GAlfaKJ-$1KJ-SMART4KSmart 4KKapsysKarbonnK9 Kavach 4GK9 Music 4GK9 Smart Eco PlusK9 Smart EcoK9 Smart 4GK9 Smart SelfieK9 Smart GrandK9 Smart YuvaK9 Smart PlusK9 SmartA40 Indian PlusA$1 IndianK9 Viraat PlusAura Sleek PlusAura Power 4G PlusAura Note PlayAura Note 2Aura StormAura ChampAura Sleek 4GAura_PowerAura PowerAlfa A114 QuadK9 Viraat 4GMACHFIVEMach FiveMACHONEPLUSTitanium Mach One PlusMACHONETitanium Mach OneMACH SIX VRTitanium Mach Six VRTitanium S$1 PlusTitanium S$1Titanium Vista 4GTitanium Jumbo 2Titanium JumboTitanium MoghulTitanium Frames S7Titanium Octane PlusTitanium 3D PlexS2052GBTitanium S250 2GBK-lite F3K-Lite F3Sparkle VA41 PowerQuattro L$1 HDQuattro L$1 IPSQuattro L$1 VRKataI5T Mini 4Box 2KazamTornado 348Th".
Definition d_dr_buf_67 : blob := "under 450WTrooper X4.0Trooper X$1.$2KazunaKAZ-N20eTalk MYFLIXKempler & StraussAlumini 2Alumini 3 PlusAlumini3Alumini 3P$1P1 AmateurKEMPLER_TVTVKEMPLER_XKEMPLER_8_PLUS8 PlusKEMPLER_9ZKEMPLER PLUSZKempler PlusZKEMPLER_PROZKempler ProKenboE61ProE61 ProO31 PlusKeneksiLibertySunSigmaKenxindaThree Proofings W$1KhadasKianoSlim Tab $1CORE 10.1 DUAL 3GElegance $1.$2"" ProElegance 5.0"" LiteElegance 6Elegance 6 5.85""Elegance $1.$2""$2 $3KingboxKingelonN9000KingstarKingsunKinstoneKiowa$1 CristalS5 ULTRAS5 UltraKivi$1 v$2KlipadKL628_HLKL628HLKL4898-A50KocasoDX765 ProM6200M729MX780M851M1050sM1070MX736KodakIM5Seren $1EktraSmartway L1 ProSmartway $1Tablet $1PATH_7XPRO7XPROKoganAgora $1 PlusAgora XIAgora 11Agora GoAgora 4G ProAgora LiteKomuKonkaKC516 ProPhoenix ProKC516E5660SViva 5660sW830Tango 830Expose $1W990Tuxedo 990KonrowBigCoolLINK55Cool-KCool 55Soft 5Soft 5PCool FiveJust 5Link 5Easy 5City $1Sky 55Sweet $1K-Tab 1003KoobeeSL004TK100F2 PlusKoolneeKooperMobile W502Koraxera8K ProKoridyKoslamKraftKTV-$1".
Definition d_dr_buf_68 : blob := "Krüger&MatzMOVE8miniMOVE 8 MiniMOVE_6_miniMOVE 6 MiniMOVE $1DRIVE 4 mini LTEDRIVE $1FLOW $1 PlusFLOW 6 LiteFLOW $1LIVE 4 $1LIVE 4LIVE 5 $1LIVE 5 PlusLIVE 6 PlusLIVE $1SLIVE $1MOVE 9EAGLE $1 10.1""EAGLE $1 10.4""EAGLE 806 8.0""EAGLE 807 8.4""EAGLE $1EAGLE $1 10.5""EAGLE $1 7.1""EAGLE $1 8.0""EAGLE $1 7.0""KuliaoKultKumaiKurioTab 2Phone C14500KyoceraMilanoBalmuda $1One S$1RiseDigno GDigno EDigno CDigno JDigno TDigno XS2DignoDigno Dual 2Digno RafreDigno BXDigno BX 2Digno Keitai RMiraie FInfobar XVHydroHydro EDGEHydro XTRMC6730Hydro ICONC6750Hydro ELITEC6530NHydro LIFEHydro WAVEC6743Hydro ReachDuraForceDuraForce ProDuraForce Pro 2DuraForce Pro 3E7110DuraForce Ultra 5GC6930DuraForce 5GKC-S701TorqueKYG01Torque 5GDigno SMiraieTorque G01Torque G06Easy Mobile Phone $1MarveraMamorino 5Gratina 4GGratina $1Torque X01Keitai $1Torque G02Torque G03Torque G04BasioBasio 4Basio 3Kantan SumahoQua PhoneQua Phone QXQua Phone QZQua Tab QZ10Qua Tab QZ8Qua Tab 01RafreInfobar A03Urbano L01Urbano L02Urbano L03Urbano V".
Definition d_dr_buf_69 : blob := "01Urbano V02Urbano V03DuraForce EXDuraForce XDOne X3BrigadierDuraScoutLuceKatan Sumaho 2Katan Sumaho 2+Katan Sumaho 3Urbano ProgressoGzOne Type-XXS2151CoastKZ $1KyowonKzenUreki_U1Ureki U1Eva_E01Eva E01Victor V1REX RXRex RXLamia L01Majesty $1DART KZ07Dart KZ07L-MaxMega Plus $1Sapphire $1LAGENIOPanther 2 ProLAIQLCTLEMFOLGDisney Mobile DM-$1L70F70L90L80LG-D340F8L70 TriL30LG-D160L40L45L35L20L60L60iL65LM-X210APMPhoenix 4LG-P505RLM-X210VPPZone 4LM-X220PMTribute EmpireLG-SP200Tribute DynastyTribute 5Tribute 2LG-F570Band PlayVS930 4GSpectrum II 4GG2G2 MiniG3G3 VigorLG-F410SG3 AG3SG3 BeatG3 StylusLG-F460G3 Cat. 6LG-D724G3sG4G4cG4 StylusG4sLG-H735G4 BeatLG-H731G4 VigorG5 SEG6LM-Q850G7 FitLM-Q910G7 OneG FlexG Flex 2G Pro LiteLG-F430LGx2GxLM-G850G8X ThinQLM-G810G8S ThinQWine Smart H410Wine SmartWine Smart 3GWine Smart JazzK20F60AKALGL41CUltimate 2LGLS660TributeMagnaLGL63BLFiestaFiesta 2Bello 2L BelloL FinoRisioRisio 2X300SpreeLGM-X401SX500LGM-X100SSmart Folder X100SClassClassicOptimus OneOptimus E".
Definition d_dr_buf_70 : blob := "xceed 2Optimus GLG-F220KOptimus GKOptimus Dynamic IIOptimus G ProOptimus L3 IIOptimus L4 IIOptimus L4 II DualOptimus L40Optimus L5 IIOptimus L5Optimus L1 IIOptimus L9 IILG-P875Optimus F5Optimus F3Optimus F6LG-US780Optimus F7Optimus it $1Optimus LTE 2LG-F260SOptimus LTE 3LG-F120Optimus LTE TagLG-P705Optimus L7Optimus L7 IIOptimus L7 II DualOptimus L70Optimus LTE L-01DPRADA phone L-02DL-07COptimus Bright L-07CV20Q Stylus PlusL50 SportyLG-LS840Viper 4G LTE801LGQ StylusLG-M400Stylus 3Stylus 2Stylus 2 PlusQ7Q7+Q8+Q8Q9Q70Q52Qua Phone PXLG-MS870Sprint 4GStyleStyle 2Stylo 2Stylo 2 VStylo 2 PlusStyle 3G StyloStylo 3Stylo 3 PlusStylo 4Stylo 5Stylo 6G7 ThinQLMG820UM1G8 ThinQLG-M153FortuneLM-X210CMFortune 2Escape 2Premier ProPremier Pro PlusPremier Pro LTEPremierTreasureLM-X525Q60LM-K315IMW31K31LGL423DLSolo LTELG-F820LUX2X CamX MachX ChargeX StyleLG-F740LX SkinX ScreenX VentureLM-X510WMX Power 3X4X4+K11K30LMX130IMLM-K310IMLM-X600IMW30 ProLM-X440ZMWW30LM-K610IMW41LG-H522Prime Plus 4GLGL58VLRabel 2L".
Definition d_dr_buf_71 : blob := "G-X190RayVoltVolt IILM-X410LGM-K121LGM-X401LX401LM-X420NX4 (2019)K4K4 LTEK4 (2017)LM-X420K40K40SLM-K410K41SLG-X220K5LM-X540K50SK50402LGSprayL-02KJoJoLM-X625N1LM-X625NX6 (2019)AristoAristo 2Aristo 3X2 (2019)V40 ThinQV50 ThinQLM-V510NV50S ThinQLM-Q920NQ92LM-Q927LQ9 OneV10K8 (2017)LM-X220QMAK8sK8 4GK8 VK8 (2018)V30V30 PlusVelvet 5GVelvet 2 ProLM-G910Velvet 4GV60 ThinQ 5GOptimus ZoneV35Optimus Zone 2Optimus Zone 3K3K3 (2017)K7K8VS500PPK10K10 (2017)K20 PlusK22 PlusK22K92K33K42K51K51SK52K56K56 PlusQ51Q31Q61Q6LM-X440itHarmonyHarmony 4X PowerX Power 2Phoenix 3Optimus VuOptimus Vu IIOptimus VOptimus 4X HDLeonLeon 4G LTESpiritOptimus ProLGL158VLRebel 3Rebel 4RebelVS876Lucid 3G VistaLG-H740G Vista 2VS820LancetVS870 4GLucid 2VS810PPTranspyreLG-F580LGentleG Pro 2Vu 3LG-FL40L070 TouchLG-F440LIce Cream SmartL80 DualLG-D370L80 SingleY25WING10A30QUltra TabG Pad 5 10.1"" FHDG Pad 7.0"" LTELG-V533G Pad IV 8.0""G Pad F 7.0""LGLK430G Pad F 8.0""LG-LK460G Pad F2 8.0""G Pad 8.0G Pad 8.0"" LTEG Pad 8.3LG-V700G Pad 1".
Definition d_dr_buf_72 : blob := "0.1LG-V497G Pad II 8.0""G Pad II 10.1LG-V940G Pad II 10.1 FHDG Pad III 8.0G Pad III 8.0"" FHDG Pad III 10.1"" FHD LTELG-P530LG Pad IV 8.0"" FHD LTEVK810G Pad 8.3 LTEVK815G Pad X 8.3G Pad X 8.0""LG-V930G Pad X 10.1""LG-V530G Pad X2 8.0"" PlusG Pad X2 10.1""LGT32Qua Tad PZLGT31Qua Tad PXHF60LS-EU27ART10AKPLStandbyMEKEY0000010FWebOS TV47LA790W-ZANetCastLG Watch UrbaneWatch UrbaneG Watch$1LNMBBSLOGANLOKMATLT MobileLT_S9_NOTENote S9P7sS10 LiteS10W7P10iM15M40M60M25 PowerS33M$1 LiteLUNNENGround $1TL65611S01Ground 11TL4648S01Ground 8.4LUOLWLYFLS-4004Flame 2LS-5501Earth 1LS-5021Earth 2LS-5505Water F1LS-4503Flame LS-4503LS-4001Flame 3LS-4003Flame 4LS-4002Flame 5LS-4005Flame 6Flame 7LS-4008Flame 7SFlame 8LS-5002Water 1LS-5005Water 4LS-5006Water 6LS-5008Water 2LS-5009Wind 6LS-5013Wind 5LS-5014Wind 4LS-5010Wind 1LS-5015Water 8LS-5016Wind 7LS-5504Water 7LS-5507Water 7SLS-5017Water 11LS-5018Wind 4SLS-5020Water 10LS-5201Water F1SLS-5502Wind 3LS-5503Water 3LS-5506Water 9LS-6001Wind 2LYOTECH LABSLFi OneLand Rov".
Definition d_dr_buf_73 : blob := "erVphone X3LUXURYLuxuryPolar3Ioutdoor Polar 3LandvoS6 BuildS6XM$100$2LaninLanixILIUM_PAD_RX10v5Ilium Pad RX10 V5LANIX_PAD_E7Ilium Pad E7Ilium Pad $1X120CIlium X120CIlium $1Ilium Alpha $1Alpha $1VAlpha $1RLarkCumulus $1 HDFreeMe X2 $1 Version $2FreeMe X4 7 3G HDFreeMe X4 7HD 3GFreeMe X2 $1FreeMe X4 7HDFreeMe X4 9FreeMe X4 7FreeBird 5WiFiFreeBird 5 WiFiEvolution $1Ultimate $1PHABLET 7Phablet 7Phablet 6.0Bjorn SP-500Cirrus $1Impress_NodaImpress NodaLaserMID-1089IPSA100LavaBlaze 2Blaze Pro 5GBlaze ProBlazeBlaze NXTBlaze 5GBlaze X 5GLXX505Blaze CurveFlair $1Benco Y30Benco Y50Benco Y40Agni 5GAgni 2 5GZ61 ProA97 IPSR5s PlayA97 2GB PlusA76 PlusA3 MiniPixel V2 PlusPixel V$1X1 Atom LIris X1 SelfieX41 PlusLAVA Z3 UPZ3LEX402Z33Z$1Z50 ProZ6Z2LZG402 OMZ21Z3 ProZ60sV2V7V7 PrimeLE9940_WV7s PrimeZ53Z52Z62Z71Z93Iris 66Iris 52Iris 54Iris 59Iris 46Iris 45CIris 45Iris Atom 2XIris Alfa LZ41V8V+6Grand2cGrand 2CR1_LiteR1 LiteLE9820R5LE9810R3 NoteP7plusLZX415Yuva 3LZX414Yuva 3 ProLZX408Yuva 2 ProLIX402Yuva Pro".
Definition d_dr_buf_74 : blob := "LZG409Yuva StarLXX508Storm 5GIris 88 GoFuel F1 MiniIris Fuel F1 MiniDISCOVER136Discover 136KKT QUADRAKKT QuadraKKT40 Power PlusIvory $1T81N UpT81NT71Iris $1 LiteIris $1Le PanTC802ALe Pan MiniTC970 $1Le Pan $1LeBestL202206L19 ProLeEcoLe 1 ProMax X900+Le 1SLe 3S $1X900 BuildLe X900Le Pro 3Le Pro 3 AILe 2 $1Le 2lineage_c106Le Max 2Le X$1Le $1Le Max$1Leader PhoneN-45 lightN-45 LightVyper PROVyper ProLP DAISYDaisyLP_VEYRONVeyronLP_PRADOPradoLP_B-50B50LP_Spectrum_S2Spectrum S2INFINITY_lightInfinity LightInfinity PlusLP_INFINITYInfinityLP_EVORA_lightEvora LightLP T70 LiteT70 LiteLP_T70T70LeagooM$1 ProM5 EDGEM5 EdgeLead $1KIICAA POWERKICCAA PowerKIICAA MIXKICCAA MixElite $1Power 2 ProPower $1Venture 1Alfa $1XRover$1Leapad 7ProLeaPad 7 ProLEAGOO_LEAPAD7_8LeaPad 7LeaPad $1LectrusLECT-TAB$1LedstarTrendy 5.0Novus Premium 6.0""LeelboxLeffLegendLekePad-$1LemcoLemhoovLencoLENCO Diverso-700Diverso 700TDV900LenovoG780Lecoo P116GLecoo 5G Cloud TabletIdeaTab A7-40Tab A1020IdeaTab A1020TB373FUIdeaTab Pro 1".
Definition d_dr_buf_75 : blob := "2.7"" (2025)IdeaTab A7-50IdeaTab A8-50IdeaTab A10-70A2107A-HA2107A2109AIdeaTab A2109ATab 2 A10-30Tab K10Tab K10 (Gen 2)Yoga Tab 3Yoga Tab 11YT-K606FYoga Pad ProTB3-730XTAB3 7TAB3 7 EssentialTB-7703XTAB3 7 PlusTB3-X70LTAB3 10 PlusTB3-X70FTAB3 10 BusinessTAB3 8 PlusTB-8X04FTAB4 8 RELTAB 2 A8-50LCTAB2 A8-50LCTAB2 8.0""TAB 2 A10TAB3 8TAB3 8 DualTAB4 10TAB4 8TB-8704XTAB4 8 PlusTAB4 10 PlusTAB5 10.1""TAB10 10.1""Moto TabTab M10Tab M11Tab M9Tab P10Tab P11Tab P12 ProTB370FUTab P12TB351FUTab PlusTab K11Tab QT K11 Pro WiFiTab QT K11 WiFiTab P11 PlusTab P11 ProTab P11 Pro (Gen 2)Tab P11 (Gen 2)Tab K11 Pro 5GTab E7Tab E8TB-7304Tab 7 EssentialTab 7A301LVTab 7 5GPB-6505Tab V7A101LVTab 6Tab M10 FHD PlusTab M10 FHD RelTB-X605Tab M10 FHDTB-X306Tab M10 HDTab M10 5GTab M10 Plus (Gen 3)Tab M10 (Gen 3)Tab M7Tab M7 (Gen 3)Yoga Tablet 10Yoga Tablet 10 HDYoga Tablet 2 Pro 13.3""Yoga Tablet 2 10.1""Yoga Tablet 2 8.0""Yoga Tablet 8Yoga 3 ProYoga Tab 3 8YT3-850MYoga Tab 3 10Yoga Tab 3 PlusYoga Smart TabYoga BookTB-J716".
Definition d_dr_buf_76 : blob := "FXiaoXin Pad Pro 11.5"" (2021)TB138FCXiaoxin Pad Pro 11"" (2022)TB331FCXiaoxin Pad 11"" (2024)EveryPad2Yamada Every Pad 2Xiaoxin Pad Pro 12.7""XiaoXin Pad 2022Xiaoxin Pad Pro 10.6"" (2022)IdeaTab S6000IdeaTab $1ThinkPad Tablet $1ThinkPad Tablet$1TAB 2 A7-30TAB 2 A7TB-8504FTAB 4 8Tab 4 8"" PlusTB-X304XTab 4 10.1""TB-X304FM10E10TAB 2 A$1YB-Q501FYoga A12YT-X705XYoga Tablet$1Smart Tab M8Tab M8Tab M8 (Gen 3)Tab M8 (Gen 4)Tab M8 (Gen 4) (2024)Tab M8 FHDLegion Y700L71061Legion Y90L71091Legion Y70A5sA8Z2151ZUK EdgeZUK Z2Z2121ZUK Z2 ProZUK $1K3 NoteK$1 NoteK4 NoteK5 PlayK5 ProK10 PlusK5 NoteA6 NoteA6010 ProVibe K5 PlusVibe K5Vibe Z2Vibe CVibe X2Vibe X3Vibe X3 LiteVibe V7Vibe S6i PlusVibe S$1iLegion ProLegion 2 ProK9K5SK6 NoteK6 PowerVibe P1mVibe P1 TurboVibe P1Vibe BA PlusVibe ShotVibe S1Vibe S1 LiteZ5sZ5Z5 ProZ6 Pro 5GZ6 ProZ5 Pro GTZ6 YouthS5 Pro GTPhab 2PhabPhab PlusIdeaPad $1dtab Compact 42AXT2081-4K12A2010l36A2010K12 ProXT2129-3K13 ProVR-1541FMirage SoloNL5H00XXiaoxin 100Projector701Projector 701".
Definition d_dr_buf_77 : blob := "IdeaPad S145-15IILIdeaPad S145-15IWLFlex 14API 81SSIdeaCentre 520S-23IKUThinkPad Yoga 370LeotecLESPH5011Argon e250LESPH5003BArgon A250BLESPH5014Krypton K150Titanium T355Supernova $1Pulsar $1LETAB916L-Pad Star SLephoneS104GW7 PlusLesiaAnova A5LexandS4A1VegaS4A2IridaS4A3PalladaS4A5OxygenS4A4 NEONS4A4 NeonS5A1CallistoS5A2OveronS5A3CapellaS5A4ArgonS6A1Antares$1 PRO HD$1 HDLPH7_SmartyLPH7 SmartyLexibookMFC191FRTablet Ultra 3 XLMFC045FRTabTabMFC163FRTablet Master 3MFC142FRTablet KidsMFC250FRTablet JuniorMFC270FRTablet Junior Power TouchMFC280FRTablet Junior 2MFC156FRTablet OneMFC155FRTablet MasterMFC157FRTablet Master 2Tablet UltraMFC375FRTablet Ultra 2MFC162FRPower TabletMFC180FRTablet AdvancedMFC181FRTablet Advanced 2MFC500FRTablet XLMFC190BBFRBarbie TabletMFC195DCFRTablet Disney Cars HDMFC195FUFRFurby TabletMFC195DPFRTablet Disney Princesse HDMFC140FRLapTabMFC141FRLapTab 2LibertonLifemaxxLimeLimeZ2PLUSTV Box Z2+LingboVenus Pad $1L16 MaxL24 UltraG15 Pro MaxG$1 MiniLingwinLinnexLi $1LinsayL".
Definition d_dr_buf_78 : blob := "istoWebPad $1Loewe48A81FEVSLogicX60 PlusL68_UltraL68 Ultra$1 Lite 2Logic InstrumentFieldbook F1Fieldbook F1BFieldbook K101Fieldbook KS80LogicomTab_Stand_ProLa Tab Stand ProLa Tab $1La Tab StandLa Tab 79La Tab 124 HD PlusLa Tab Link $1logikids4Logikids 4L-ixir Tab 701 3GL_IXIR_TAB_1047HDL-ixir Tab 1047 HDLIXIR1041L-ixir Tab 1041L-ixir Tab $1L-ite $1L-ite Tab $1L-ement $1L-ement Tab $1POWER BOTM BOT $1VR BOT $1 PlusVR BOT $1$1 BOT Tab $2$1 BOT $2ElioYunoFive Pro 32Five ProSolar ProSOLARSolarLunar ProLUNARLunarLe LiftLe LinkLe WaveLe SwipeLe OmegaLe ConnectLe PulseLe PrimeLe Hola FRLe HolaLe Moov 2Le MoovLe Fit FRLe FitLe FizzLe HopLe HelloLe Smooth FRLe SmoothLe Must 2Le MustLe Starter LLe SparkL-EGANTONE-RL-Egant One RL-EGANTONEL-Egant OneLe UpLogikLogitechG CloudLongTVLOUiELovmeLumigonLumitelLumusINNO $1IonAEON $1LunaLuxorLvilleM-HorsePower1Power 1Top $1TOP_Note8Top Note 8M-KOPAM-TechEROS 4GEros 4GEros StarEros SmartEros PlusEros PowerACE9Ace 9JAZBAATEZ 4GFoto3Foto 3Turbo L$1M.T.T.MTT ".
Definition d_dr_buf_79 : blob := "IDEALIdealTablet$1M3 MobileM3US20WUS20WM3SL20SL20M3SM15XSM15XM4telSS1050SS1060LiveSS1070SenseSS1080Max OneSS1090Max UltraSS4020PlaySS4040In TouchSS4045SS4345Soul MiniSS4350SoulSS4445Style AccessSS4450ShareSS4451BelieveSS4452DreamSS4453-RR1 FeelR2_PlusR2 PlusSS4453InspirationSS4455SS4456EvolutionSS4457-REverSS4457EleganceFeel PlusSS4458AttitudeMAGMAGCHMAXVIMS531MS531 VegaMS502 OrionMAXXMBIMBKMBOXMDC StorePrime SNova ProGrand Pro$1 4GMEEGMEGAMAXMEOMESWAOMEUMIVOJazz $1 (2018)MIWANGMIXCMLLEDMLSiQTalk TwistNotch LiteNotch SenseiQTab 10iQTab Brave 3GiQTab Action 4GLife 10.1""Alu Plus 4G 10.1""iQTab Ideal 8.0""iQTab Care 8.0""Brain 3GiQTalk Verse 4GColor mini 4GTOP-S 4GTrend 4GiQTalk OnyxiQTalk FlameiQTalk SpicyiQTalk Titan 4GColor 3 4GRange 4GiQTalk Color 5.5 4GiQTab RoseiQTab MasteriQTab Novel 3GJet 3GTrophy 4GDiamond 5.2 4GiQTalk AuraSlice 4GAngel 3GAngel 3G (2018)Vital 4GStyle 4GF5Energy 4GMX 4GMX (2019)Fab 4GStatus 4GMore 4GWave 4GBrace 2018 4GLevel 4GRuby 4GDX 4GVista 4GSpace S 4GR3 4GPhab ".
Definition d_dr_buf_80 : blob := "6.0""D6 4GLiberalAlu 5.5""Pop 4GFlame 4G (2018)Color Fingerprint 4GT8 Fingerprint 4GiQF200MORTALMOVISUNMSIPrimo $1MStarMTCOsmartphonaSmart Race 4GSmart Race 2 4GSmart Sprint 4GSmart Start $1Smart_LINESmart LineSmart_LightSmart LightSmart BitSmart Run 4GSmart Surf 2 4GSmart Surf 4GSmart Turbo 4GRedbox Mini 5SB-$1DV8304-CSuperWave DV8304-CMTNFaith 29Ka ChocolateKafit V900KaFit V900Sm@rt Mini $1M560M3Smart SM561M3Smart TM571M3Smart KamunyeMTN-8978PSteppaMTN-$1MULTYNETMULTYNET FHDMYFONMYPAD7sMy Pad 7sMacooxMC-X7 MiniMafeMafe_M820Shine M820MagentaMagentaTVTV One (Gen 2)MagentaTV ONETV OneMagentaTV BoxMagicseeN5NOVAN5 NovaIron+N5Max_X4N5 Max X4MagnusBravo $1Infinity $1MajesticJackJoeUrano 77 LTEUrano $1Pluto $1Tab $1 Pro $2GTab $1 $2GTAB-714Tab 714 WiFiTAB_814Tab 814Tab$1Crono $1MalataMangoMango_AKABUTO_4GAkabuto 4GMannManta MultimediaMSP95012Titano 1MSP95014Titano 3MSP95015Mezo 2MSP95020Rocky 2MSP95021Rocky 3 ProMSP96017Forto 2MSP96002Forto 1MSP94501Easy SelfieMantraMaraMarshalME-$1MascomMass".
Definition d_dr_buf_81 : blob := "goVi2 SMasstelJuno Q5 PlusHapi $1N660STab 7 LTETab 10 WiFiTab 10 4GTab10UltraTab 10 UltraTab $1 PlusMaster-GNEOQC4GGPad Neo QC 4GMastertechMatco ToolsMATRIX GRAVITYGravity7116 A5MaunfeldMaxcom$1 StrongMS$1RS-401Neva Rise S1MaxfoneMaximusG10 MaxiX UltraMaxtronPlutoMaxwellMaxwestAstro $1Astro $1N LTEAstro X55 LTEAstro_5_GO_LTEAstro 5 Go LTEAstro 5 PROAstro 5 ProAstro $1""Virtue Z5Astro X4Nitro $1 GONitro 4s LTENitro 4sNitro $1Gravity $1 GOGravity_6PGravity 6PGravity 5.5 LTEAstro6Astro 6Nitro Phablet $1Astro_Phablet_9Astro Phablet 9MazeAlpha XMaze SpeedM1582C_MAXM1582C MaxSSB-$1McLautMeMobileGrace $1MecerXpress Smartlife M785X1010M17QF6 3G PlusM17QF$1 $2G800P31CXpress Smartlife 800P31C800P32CXpress Smartlife 800P32C101P51CXpress Smartlife 101P51CXpress Smartlife M7$1QF6Xpress Smartlife M716 PlusMF716Xpress Smartlife M716MecoolKM9 ProKM9 TV BoxBB2 ProKI PlusM8S Pro WM8S Plus DVBM8S Plus $1M8S Pro $1M8S Pro PlusM8S ProM8S MaxSMediacomSmartPad 750 3GSmartPad 970 S2 3GSmartPad 970 S2SmartPad 8".
Definition d_dr_buf_82 : blob := ".0"" MobileSmartPad 9.7"" MobileSmartPad MX 10.1""SmartPad MX 8.0""SmartPad HX 7.0""SmartPad MX 7.0""SmartPad HX 8.0"" HDSmartPad 7.0"" GoSmartPad 8.0"" S2SmartPad 8.0"" S2 3GSmartPad $1 S2SmartPad 875 S2 3GM-SP1AGO3GSmartPad 10 Go 3GM-SP7xGO3GSmartPad 10.1"" iPro 3G1AECSmartPad 10 EclipseSmartPad iyo 10 4GSmartPad 10.1"" S2SmartPad 10.1"" S2 3GSmartPad 8.0"" S4SmartPad 8.0"" S4 3GSmartPad 9.7"" S4 3GSmartPad 10.1"" S4SmartPad 7.0"" S4 HDSmartPad 10.1"" HD S4 3GSmartPad 10.1"" S4 3GSmartPad 10.1"" HX HDSmartPad 10.1"" MXSmartPad 10.1"" MX LiteSmartPad 8.0"" HD Pro 3GSmartPad 10.1"" HD ProSmartPad 10.1"" HD Pro 3GSmartPad 8.0"" HD iPro$1 3GSmartPad 10.0"" Azimut 2SmartPad 10.1"" Azimut 3 LiteSmartPad 10.1"" Azimut 3 ProSmartPad 10.1"" Azimut 3SmartPad 10.5"" Azimut 4SmartPad iyo 8""SmartPad 10 EdgeSmartPad 1EYWinPad W801SmartPad 7.0"" MobileSmartPad 7.0"" S2 3GSmartPad Mini MobilePhonePad Duo B400PhonePad Duo G550PhonePad Duo B500PhonePad Duo G530PhonePad Duo G700PhonePad Duo S531PhonePad Duo S550PhonePad Duo S650PhonePa".
Definition d_dr_buf_83 : blob := "d Duo S551UPhonePad Duo G4PhonePad Duo G500PhonePad Duo S500PhonePad Duo $1PhonePad Duo X$1UPhonePad Duo G$1PhonePad Duo S$1MedionLifetab $1Life $1MegaFonLogin+MFLogin4Login 4 LTELogin 3OptimaSP-A20iMintV9 PlusMegacableOTT Xview AV1Xview+MeituT8T8sT9M8s2MeizuM2 NoteM$1 Note20 Inf20 InfinityMblu 22 ProMblu $1Lucky 08M1EM2EM2M3 NoteM5 NoteM6 NoteM3sM3 MaxM5cMX2MX3MX4 ProMX4MX5m1 metalM1 MetalM8 LiteM8c ProPRO 7PRO $1 PlusPRO $1MX Dual Core16T16th Plus15 Plus15 Lite16th16X1616s ProM3MelroseS9 Plus2019 Ultra Slim 3.4""MemupSlidePad $1SlidePad NG$1SlidePad NG$1 3GSlidePad 704$1MetaPacificGoPortalGoPortal GoQuest 3SQuest 3Quest 2Quest ProMetzMETZ 2K TVMiXzoME$1 $2GMX1021 3GMX$1 4GME1025 3GMicroMaxAQ5001 Canvas PowerCanvas PowerAQ5001Canvas Juice 2Canvas Doodle 2Canvas Fire 4Canvas Juice 4Canvas Pulse4560MMXIN 2BIN 2CIN 1BCanvas A1Canvas Evok NoteCanvas 5Canvas 5 LiteCanvas TabBolt Q$1Q417Canvas MegaQ350RCanvas Magnus 2 PlusQ480Canvas Space 2Q380Canvas SparkQ351Canvas Spark 2 ProQ350Canvas Spa".
Definition d_dr_buf_84 : blob := "rk 2 PlusQ349Canvas Selfie 4Bolt PaceQ409Spark 4G (2017)Q415Canvas PaceQ340Selfie 2YU Yureka YU5040Yunique 2 PlusYU Yureka S YU5530Q424Bolt SelfieQ4101Bolt Warrior 1 PlusQ352Bolt Supreme 4Bolt $1Q306Bolt Prime 3GBharat 2 PlusQ426Canvas Mega 2N8216Infinity N11N8301Infinity N12Canvas Infinity ProCanvas InfinityCanvas Infinity LiteQ440 PlusQ353 PlusSpark 4G PrimeSelfie 2 NoteCanvas Magnus HDCanvas Xpress 2Canvas XpressVdeo 4Canvas 1 (2018)Canvas 2 PlusBharat $1 ProBharat $1 PlusBharat $1iOne NoteIN Note 1IN Note 2IN 1bCanvas Tab $1MicrolabGlowy $1Kin $1Lumia 430Lumia 435Lumia 532Lumia 535 Dual SIMLumia 535Lumia 540Lumia 550RM-1010Lumia 638Lumia 640 XL LTELumia 640 XLLumia 640 LTE Dual SIMLumia 640 LTELumia 640 Dual SIMLumia 640Lumia 650RM-1152Lumia 650 SSLumia 850Lumia 950 XL Dual SIMLumia 950 XLLumia 950 Dual SIMLumia 950Lumia 1320Lumia 1530Surface Book 3Surface Pro$1Surface Duo 2Surface DuoSurface 3Lumia $1MicrotechETW101GTE-Tab WiFiE-Tab LTEMightierMinixNEO-X8-HNEO X8HNEO U22-XJNEO U22".
Definition d_dr_buf_85 : blob := "NEO X$1 MiniNEO $1 PlusNEO X88iNEO-X7-216ANEO X7NEO-X5-116ANEO X5NEO X$1NEO-U1NEO U1NEO-Z64NEO Z64NEO-U9-HNEO U9HPearl $1EmeraldM4CRCloverVirGoOrionMinttCoolMintt $1UltraMintt $1FreshMintt $1MioMobix M6Mio TouchPad 7 Quad CoreTouchPad 7 Quad CoreMioneHero $1Mione IIIHero 3P2+Mione_PUBG_1PUBG 1Mione XS maxXS MaxN10 ProQ1Q11MirayTPM4G_WT8TPM4G WT8MIDM $1MPM $1Mitchell & BrownMito3255A37 Z1 PlusMitsubishiMitsuiMobellNOVA P3Nova P3MobiIoTMobiGo 2MobiPrint 4 PlusMobiWireKANUNAKanunaKWANITAKwanitaMobiGo2LMobiGo 2LV Smart 2MobicelEpic Pro $1IX PROIX ProRX PRORX ProIX-1IXLEGEND MAXLegend MaxLEGEND PRO_1Legend Pro 1Legend Pro LTEBLINKBlinkFORCEEpic $1BERRY1Berry 1BERRY PROBerry ProBERRY 2Berry 2TRENDY 2Trendy 2Berry PlusBERRYBerryTRENDY PLUSTrendy PlusTRENDY_LITETrendy LiteR4 LTEHYPE_XHype XHYPEHypeDANDY_ZAMDandy ZamDANDYDandyMETRO2Metro 2ASTROAstroVENUS_GVenus GoTANGO_LITETango LiteFENDY_DSFendy DSREBELRUBYRubyR7OREOOreoGLOTitan_1Titan 1ZOOM_1Zoom 1HERO_DSHero DSFAME_DSFame DSFAMEFameBEAMSHIFT".
Definition d_dr_buf_86 : blob := "ShiftCosmo LTENeo LTENEO_1NeoNeo_PlusNeo PlusRio $1switch plusSwitch PlusSwitch GoSwitch1SwitchR1PLUS_1R1 PlusClik plusClik PlusCLIKClikVX$1 ProVX$1PULSE_1Pulse 1PURE PLUSPure PlusFendy plusFendy PlusZOOM-HZoom HZOOMZoomFever Plus $1FEVER_PLUSFever PlusMobiistarX1 $1E1 SelfieXQ DualZumboLai Zumbo S Lite (2017)Lai Zumbo S (2017)Zumbo S2Lai Zumbo J (2017)Lai Zumbo JLai Zumbo J2mobiistar ZUMBO PowerZumbo PowerLai Yuna $1mobiistar LAI YukiLai YukiLai Zoro $1Lai ZenaLai Z$1mobiistar_ZORO_4GZoro 4Gmobiistar touch LAI 512Touch Lai 512Lai 504$1mobiistar LAI YLai Ymobiistar PRIME X 2017Prime XC1 LitePRIME X MAX 2018Prime X MaxKool$1mobiistar KAT 452 BuildKat 452mobiistar_LAI_YOLLO BuildLai YolloMobile KingdomGénesis 126MobiolaMS50X6Atmos IIPolys MS45L1MS55X6Atmos Pro IIMS55X5Atmos ProMS55L1GAIAMS50L1IntiMB-2900 QUATTROMB-2900 QuattroMS43A3000MS45A4000eOn 45MS50A4000eOn 50MS50A4500eOn 50 EleganceMS50A5000eOn 50 Quad 8MS50A6000eOn 50 Quad 16MS50B11000Wave5Wave 5MobistelMoboMobvoiTicWatch $1Mode ".
Definition d_dr_buf_87 : blob := "1RRRSMD-01PMode MobileMEP2Q421GEarnPhoneModecomXino Z$1 X$2ECHO LOLLYEcho LollyFreeTab $1FreeWay Tab $1MofutMoondropMIAD01Mosimosimomo3smomo3SMotivMotorolaMOT-V360V360moto tab g70Moto Tab G70XT2261-1Moto Tab G62PAGS0005INMoto One MacroSpiceThinkPhone 25ThinkPhoneMOTOROLA E6SMoto E6SMOTOROLA s50Moto S50Moto Razr 50 UltraMoto Razr 40 UltraXT2323-3Moto Razr 40Moto Razr 50motorola razr plus 2023Moto Razr+ (2023)motorola razr 2023Moto Razr (2023)XT2251-1Moto Razr (2022)razr ultra 2025Moto Razr Ultra (2025)Motosmart MEFireEdge SEdge ($1)Edge 40 NeoEdge S30motorola edge 30 ultraEdge 30 UltraEdge 30 NeoXT2201-1Edge 30 ProEdge 20Edge S ProDefy MiniMotosmartQuenchFire XTDefyDefy (2021)Defy XTAdmiralDroid ProMotoluxePrimusIronRockAtrixMotoluxe Dual-SIMAtrix TVAtrix HDMilestoneGlamMilestone 3Electrify 2Moto XT882Droid RAZR VDroid RAZR iDroid 4Photon QElectrify MDroid RAZR MDroid RAZRDroid RAZR D1Droid RAZR D3Droid RAZR HDDroid RAZR MaxxXT2527-3Moto G100 Promoto g52j 5GMoto G52j 5GMoto G52moto g53y".
Definition d_dr_buf_88 : blob := " 5GMoto G53y 5GMoto G53Moto G54 5GMoto G82 5GXT2427-4Moto G85 5GMoto G10 PowerXT2127-2Moto G10moto g04sMoto G04sMoto G8 PowerMoto G8 Power LiteXT2015-2Moto G8 PlayXT2087-1Moto G9 PlusMoto EMoto E (2020)Moto E3 PowerMoto E30Moto E2 (4G-LTE)Moto E5 PlusMoto E$1 PlusMoto E$1 PlayMoto E6 (XT2005DL)Moto E5 CruiseMoto E5 SupraMoto E5 GoMoto E$1 PowerMoto E$1Moto E$1sXT2081-1Moto E7 PlusDroid MiniDroid Maxx 2Moto X2Moto CMoto C PlusMoto G4 PlusDroid TurboMoto GMoto G2Moto G$1 5GMoto G4 PlayMoto G5s PlusMoto G5sMoto G5 PlusMoto G5Moto G6Moto G7 PlusMoto G30XT2235-2Moto G32XT2363-2Moto G34 5GMoto G50XT2171-3Moto G51XT2171-2Moto G51 5GXT2169-1Moto G71 5GXT2255-1Moto G72XT2437-4Moto G75 5GMoto XMoto X PlayMoto X StyleMoto X Pure EditionMoto X ForceMoto X50 UltraDroid UltraDroid Turbo 2Moto ZMoto Z4Moto Z3 PlayMoto Z PlayMoto Z2 PlayMoto Z2 ForceMoto Z3Moto MMoto X30 ProMoto S30 ProEdge X30Moto Edge X30 5GMoto Edge 60 ProMoto Edge 60Moto X40P30 PlayP30 NoteEdge Plus 5G UW (2022)Edge Plus ($1)Edge ".
Definition d_dr_buf_89 : blob := "PlusEdge $1 FusionEdge 20 LiteEdge $1 UltraEdge $1 ProEdge $1 NeoEdge 5G UW (2021)Edge (2021)XT2303-2Edge 40Edge 60 FusionEdgeOne Vision PlusOne VisionOne PowerOne HyperOne ZoomOne Fusion PlusOne FusionOne Actionmotorola one macroOne Macromotorola one 5G UW aceOne 5G UW Acemotorola one 5G UWOne 5G UWOne 5G Acemotorola one visionMoto G Stylus (XT2115DL)Moto G Stylus ($1)Moto G Stylus 5G ($1)Moto G Stylus 5G (2022)XT2315-1Moto G Stylus 5G (2023)XT2115-1Moto G Stylus (2021)Moto G Stylus 5Gmoto g stylusMoto G StylusMoto G Play (2021)Moto G Play (2023)Moto G PowerMoto G Power (2021)Moto G Power (2022)moto g powermoto g proMoto G ProMoto G PureMoto G Fastmoto g 5G plusMoto G 5G PlusMoto G 5G (2022)moto g 5GMoto G 5GMoto G40 FusionXT2233-2Moto G42Moto G60Moto G60sMoto G$1$2moto g24 powerMoto G24 PowerXT2231-1Moto G22XT2333-1Moto G23Moto G$1 (XT1925DL)Moto G$1 ForgeMoto G$1 Optimo (XT1952DL)Moto G$1 Optimo Maxx (XT1955DL)Moto G$1 Power LiteMoto G$1 PowerMoto G$1 SupraMoto G$1 PlusMoto G$1 Play".
Definition d_dr_buf_90 : blob := "Moto G$1moto g goMoto G GoMoto X$1One 5GMoto MaxxMoto $1$2$3Moto $1$2MotoroiXMoto 360Moto ACTVXT2071-4RAZR 5GRAZR ($1)RAZR $1RIZR $1RAZR $1 UltraDROID $1Motorola SolutionsMovicMovitelMoxeeMH-T60002160MT-T8$1MpmanMP100i OCTAMPQCG10 3GMultiPOSMultilaserElite 2F Pro 2G MaxG Max 2G Max 2 SEGE Lite$1 5GZAPPZAPP IIMS60F PlusMS45S_A6_SeniorMS45S A6 SeniorMS45S_A6_TeenMS45S A6 TeenM7 3G PlusM7S_PLUSM7S PlusM$1 WiFiM10 4G ProM8 4GM7SQC PlusM7 3G Quad Core 3M7 3G Quad CoreML$1-M7s Quad CoreM7s LiteML01-M7 SDM10A LiteM9 3GM7 3G A10X8 4GM$1 3GKidPad LiteMwalimuPlusMyGicaHDR $1 BoxQuad core Enjoy tv boxQuad Core Enjoy TV BoxATV$1MyMobileMyPhone (PH)myT$1 DTVmyA$1 DTVA898 DUOA898 DuoMyPhoneMY27my27MY807myX1myXI1 PlusmyXI1 PromyXI$1my$1myWX1 PlusBrown 1Brown 2MyPad $1MyTab8 Mini Dual CoreMyWigoMyWigo City3City 3Excite GIIIExcite G3MygPadMymagaMyriaMyria_FIVEFiveMyria_Grand_4GGrand 4GMyria_Wide_4GWide 4GMyria_Wide_2Wide 2MyrosMysteryMID-$1N-oneTAB011NPad MiniNPad PlusNPad AirNPad ProNpadSNPad SNpadQNP".
Definition d_dr_buf_91 : blob := "ad QNPad $1NASCOTANGO 7Tango 7SNAP_PROSnap ProNECMedias AmadanaMedias ULAVIE Tab E $1LAVIE Tab T10 FHD (Gen 3)LAVIE Tab T12 QHDLAVIE Tab T11 $1LAVIE Tab T7 $1LAVIE Tab T8 $1LAVIE Tab E TE$1LAVIE Tab S TS$1LAVIE Tab $1NEKOLT-$1NETWITNEVIRNEXBOXMXQ-Pro-NEXBOXMXQ ProMXQ-NEXBOXMXQNEXONNEXTNG OpticsNGMSmart5Plus32GBSmart 5 PlusYou Color P$1Dynamic JumpLDynamic Jump LNGponNINETECUltraTab 10 ProPlatinum 10 G3NINETOLOGYNOACore ForteHummerLEHummer LEHummer_2019_RHummer R (2019)Hummer LiteHummerMove SENextSENext SEVision H3SEVision H3LoopH4SEMG12H44SEH10LESPRINT4GSparkSESpark SEVivo 4GNOBUXSmart Volt NX5NOGANOGAPAD 7GNOGAPAD 10.1"" GHDNOGAPAD 10HDPC ProPC LivePC UltraNOVISNOVONTT WestHikariBox+ $1NUU MobileTab 8S6003LX6 PlusN5704LS6512LA15S6001LS5501LM19N5702LS6501LN5501LA5LN5002LA7LS6303LA9LN5502LA10LN6001LA23S5701LM4X ProS6702XB30 ProNYX MobileNYX_A1AlterNYX_BlinkNYX_EGOEgoNYX_FENIXFenixNYX_FLY_IIFly IINYX_FLY_MINIFly MiniNYX_FLYNYX_HITHitNYX_JAKJakNYX_JOINJoinNYX_NOBA_IINoba IINYX_NOBANobaNYX_".
Definition d_dr_buf_92 : blob := "ORBISOrbisRexNYX_SHADEShadeNYX_SKYSkyNYX_SPARKNYX_VOXNYX_ZEUZ_HDZeus HDGLAMARGONorbisNabiDream Tab HD 8.0""Big Tab HD $1.0""NBTY07SMKGBarbie Tab 7.0""NBFP07PMKGFisher Price Learning Tab 7.0""SNB02-NV7A2S TabNABI2-NV7A2 TabNanhoF101Naomi PhoneAmbarDammarNationalNavRoadNexo SmartyNexo handyNexo HandyNEXO SMART DUONexo Smart DuoNEXO EVONexo EvoMOVIO 2Movio 2NavcityNP-752GoNP-752 GoNavitechNavitel$1 LTERE900 Full HDNavonMizu M505 LTEMizu $1Supreme MaxSupreme Fine MiniSupreme Fine MicroSupreme Fine PlusSupreme FineSupreme ChiefSupreme Pure PlusSupreme PureSupreme ProPure MicroSpirit PlusT400 3G 2017T400 3G (2017)Platinum 10.1"" 3G$1Platinum 10.1"" 3G (2019)Orpheus 3GPredator $1Raptor 3G 8GBVision Tab $1NecnotNedaphoneNeffosC5LY50Neffos X20 ProNeffos X20NeolixT7NeomiNeon IQTab 10.1"" $1GTab 7"" $1GNQT-7WTab 7"" WiFiNeoregentKT1007NesonsNetBoxNETBOXShine SNetgearGTV100NeoTV PrimeNetmakNetPad 7NeuImageNIM-NeuTabNew BalanceNew BridgeNewalNewgenNewlandNLS-MT90MT90 OrcaNLS-MT65MT65 Beluga IVNLS-NFT10NFT10".
Definition d_dr_buf_93 : blob := " Pilot ProNewmanUE Pad 1UE 1 PADNewsMyNewsdayNexaNexarNTV-$1NexianNext & NextStar2000 WiFi2000 HD FTA2000-HD PLUS2000 HD Plus2000-HD2000 HDNEXT 64642071YE-2000HD CXYE-2000 USBMyBox$1 4KNextBookNX008HD8GPremium 8 HDNXA8QC116Ares 8NXA8LTE116Ares 8LNX16A8116KAres A8NX16A10132SAres A10NX16A11264Ares A11NEXT1015BAPAres 10NXA101LTE116Ares 10LNXA116QC164Ares 11NXM908HCPremium 9NX010HI8GPremium 10 HiNX785QC8GNXM900MC8 HDNXM726Premium 7NextTabNextbitNoainNOAINNobbyNoblexNokia6TA-1041Nokia 8 Sirocco8 SiroccoNokia 7 plus7 plus6.1 Plus5.1 Plus3.1 PlusNokia 1 Plus1 Plus2 V TellaNokia 8 V 5G UW8V 5G UWX+N152DLC100N156DLC110N151DLC200N150DLN1374DLG300 5GN155DLN1530DLG400 5GX2 DualRX-51 N900N900Asha 5005130 XpressMusicNokia5230NuronNokia52335233Nokia5800d-15800 XpressMusicNokia6210NavigatorNavigatorSapphire ArteNOKIA-RH-172280NOKIA-RH-276225NOKIA-RH-346585NOKIA-RH-483105NOKIA-RM-113205808 PureView$1 Classic$1 Slide$1 Flip$1 V FlipAsha $1Lumia 520TLumia 520Lumia 526RM-846Lumia 620Lumia 630Lumia 635RM-1".
Definition d_dr_buf_94 : blob := "027Lumia 636Lumia 710Lumia 720TRM-885Lumia 720Lumia 730Lumia 735Lumia 800CLumia 800Nokia 820Lumia 820RM-984Lumia 830Lumia 900Lumia 920Lumia 925Lumia 929Lumia IconRM-1045Lumia 930Lumia 1020Lumia 1520.1T$1Streaming $1Maemo RX-34N800NomiEvo M2Evo MEvo M3Evo M1i506 Shinei5730 InfinityNote-XIron-XIron-X1Iron-MEvo M4Evo X2Evo XEvo X1Evo ZBeat MBeat M1Space X2Space MSpace XSpace M1Infinity X1JumpC101010 Ultra2Ultra 2Ultra 3 ProUltra 3 LTEUltra 3 3GUltra 4 3GUltra 4 LTEUltra 4 Pro LTECorsaCorsa ProCorsa 2Corsa 3 LTECorsa 3 3GCorsa 4 Light 3GCorsa 4 LTECorsa 4 Pro LTELibra 3 3GLibra 2 3GLibra 4 LTELibra 4 3GStella PlusNomuT18S30 MiniS30NoontecNoontec NordfrostNordmendeNorthTechTouchPad 10.0""NosNovu IIINovu IINovuNeva 80RoyaNothingPhone 2A142PPhone 2a PlusPhone 2aA059PPhone 3a ProA059Phone 3aNousNS5511NovacomSPYBOXS11Spy Box S11 PlusSpy Box S11NovexNoveyForce $1Alpha A$1Pro K10NoviSeaNuAnsNEO ReloadedNuVisionNubiaRed Magic Gaming PadNP05JRed Magic AstraPad Pro 10.9"" WiFiZ6255CABlade A72NX724JFli".
Definition d_dr_buf_95 : blob := "p 5GNeo 3 GT 5G8150NNeo 5GZ2352NNeo 2 5GZ2353MusicZ2460Music 2Z2351NFocus Pro 5GNX302JFocus 5GNX711JZ50NX712JZ50 UltraNX713JZ50S ProNX721JZ60 UltraNX667JZ30 ProNX701JZ40 ProNX702JZ40s ProNX733JZ70 UltraNX737JZ70s UltraNX736JZ70 Ultra Starry NightNX709JRed Magic 7 ProNX729JRed Magic 8 ProNX769JRed Magic 9 ProNX789JRed Magic 10 ProNX779JRed Magic 10 AirNX709SRed Magic 7S ProRed Magic 7NX669JRed Magic 6NX666JRed Magic 6RNX619JRed Magic MarsNX629JRed Magic 3Z5 MiniZ5S MiniNX503AZ5SNX506JZ7NX507JZ7 MiniNX505JZ7 MaxNX508JZ9Z9 MiniZ9 MaxNX512JZ9 Max DualNX531JZ11NX523J_V1Z11 MaxZ11 Mini SZ11 MiniNX606JZ18NX616JZ18SNX611JZ18 MiniNX551JNX563JZ17Z17 MiniNX589JZ17 Mini SNX591JZ17 LiteNX595JZ17SNX612JV18NX627JZ20NX725JZ60S ProNX513JMy PragueNX601JNX609JRed MagicNX659JRed Magic 5GNX651JNX573JM2 LiteNX907JM2 PlayNX541JN1NX597JN1 LiteNX575JN2N3Nubia 8011N80NuvoND45NvidiaTegraNote-P1640Tegra Note P1640SHIELD TabletSHIELD Android TVNVIDIA_SHIELD_PRO_2019SHIELD TV ProNVIDIA ShieldSHIELD TVSHIELDSHIELD P".
Definition d_dr_buf_96 : blob := "ortableO+Air360 HD 2.0360 HD360 Alpha Plus 2.0360 Alpha Plus360 AlphaStream HDTVFab GoO2OASYSOINOMOKSIOKWUSIGMAPI PlusOLTOOMIXX600 NFCO1 NeoO1 IconONN2k TV stick2K TV StickONVOApollo PremiumONYX BOOXVolta $1NovaAirCNova Air CMC_NovaProNoteAir2PNova Air 2 PlusNoteAir2Nova Air 2Nova3ColorNova 3 ColorPoke2ColorPoke 2 ColorPoke3Poke 3KANT2Kant 2Kon Tiki $1Lomonosov $1LomonosovFaust $1Darwin $1MC_GAMA4Gama 4GALILEOGalileoGoColor7Go Color 7MC_Cristo4Monte Cristo 4Living Stone $1Note Air $1CTabUltraCProTab Ultra C ProOPPOA11A1 ProPJU110_A1A1x 5GA2x 5GA3x 5GCPH2641A3xCPH2725A5xPKW110A5x 5GPJB110A2 5GPKD110A3 EnergyA3 5GPKL110A3i 5GA3 Pro 5GCPH2711A5 ProA5 Pro 5GPLN110A6 Pro 5GA11xA12A15sA16sCPH2421A16eA16kCPH2477A17CPH2471A17kCPH2185PCHM00CPH1923A1kCPH2071A11kCPH1925A1sA16CPH2591A18A37f$1A37fA38A39A36A31A33PKV110A5 EnergyPKQ110A5 5GCPH2727A5 (2025)A5 (2020)A53 5GA32A35A52A53A53sA53s 5GA54 5GA54A54sA55 5GCPH2325A55A60CPH2683A60 5GA55s 5GPFVM10A56 5GA57A57 (2022)PHJ110CPH2577A58PFTM10A97PHA120A9".
Definition d_dr_buf_97 : blob := "6A5SCPH2773A5iCPH2755A5i ProA71A71 (2018)A73 5GA74A74 5GA72n 5GCPH2375A76A77A77 5GA78 5GA78A79A79 5GA77sA7nA7xA83A83 (2018)A9 (2020)A92A92sA93A93sPFUM10A96 5GCPH2529A98 5GA94PELM00A95 5GA95 4GA9xAX5AX5sAX7CPH2341F21 ProF21s ProF1 PlusCPH2527F23 5GCPH2603Reno 11 FCPH2643F27 Pro+ 5GF11F11 ProF17F17 ProF1sF3F3 PlusF5 YouthF7 YouthF9F9 ProF19sF19 ProF19 Pro PlusFind 5Find 5 MiniFind 7Find 7aFind N 5GFind NFind N2Find N2 FlipFind N3 FlipFind N3Find N5Find CloverFind GuitarFind MelodyFind MuseFind Way SUlike 2Find XFind X LamborghiniFind X2Find X2 LiteFind X2 ProFind X3Find X3 NeoFind X3 ProFind X3 LiteFind X5Find X5 ProPGEM10Find X6 ProPGFM10Find X6PHZ110Find X7PHY110Find X7 UltraPHY120Find X7 Ultra SEFind X8 ProFind X8 UltraFind X8PKT110Find X8sPLB110Find X8s+Joy PlusReno 3 YouthK7xK9xK10xK10 5GK9sK10 Pro 5GK11 5GK12s 5GA1 5GA2 Pro 5GK11x 5GK12 5GK12 PlusK12x 5GCPH2729K13 5GPLE110K13 Turbo Pro 5GPLM110K13 Turbo 5GN1 MiniNeo 3Neo 5Neo 7Neo 7sPianoR11R11 PlusR1KR1xR11s PlusR11sR15R15 ProR15x".
Definition d_dr_buf_98 : blob := "R17RX17NeoRX17 NeoR15 Dream MirrorR15 NeoR17 NeoR17 ProR1LR1SR7 LiteR7s PlusR7sR7 PlusR7 Plus FR9 PlusR9sR9s PlusRenoReno AReno 10X ZoomPCCT00Reno 10XPHW110Reno 10CPH2531Reno 10 5GReno 10 Pro 5GReno 10 Pro+ 5GReno 11 ProReno 11 F 5GReno 11Reno 12CPH2625Reno 12 5GCPH2637Reno 12 F 5GCPH2687Reno 12 F 4GReno 12 Pro 5GCPH2701Reno 13 FPKM110Reno 13CPH2699Reno 13 F 5GCPH2689Reno 13 5GCPH2697Reno 13 Pro 5GPKK110Reno 13 ProPKZ110Reno 14 ProCPH2739Reno 14 Pro 5GPLA110Reno 14CPH2737Reno 14 5GReno 2Reno 2FReno 2ZReno 3Reno 3AReno 3 5GReno 3 ProReno 3 LiteReno 4 4GReno 4 LiteReno 4 Pro 4GReno 4 5GReno 4 SE 5G Reno 4 Pro 5GReno 4Z 5GReno 4FReno 5AReno 5 LiteReno 5 5GReno 5KReno5 K 5GReno 5K 5GReno 5FReno 5ZReno 5 Pro 5GReno 5 Pro Plus 5GReno 5GReno 5Reno 6 Z 5GReno 6 ProReno 6 Pro 5GReno 6 Pro PlusReno 6Reno 7CPH2343Reno 7ZReno 7AReno 7 SEReno 7 ProReno 8 Pro 5GPFZM10Reno 8 Pro+CPH2457Reno 8 ZReno 8 5GReno 8TPHM110Reno 9PGW110Reno 9 Pro+PGX110Reno 9 ProReno 9 AK9 Pro 5GK9 5GReno Ace 2 EVAReno AceRen".
Definition d_dr_buf_99 : blob := "o Ace 2Reno K3Reno ZA59sCPH2617A59 5GPad AirOPD2409Pad 4 ProOPD2401Pad 3 ProOPD2301Pad Air 2Pad NeoPad 2OPD2101Pad WiFiWatch 46mmOW19W2Watch 41mmOW20W1Watch 2 46mmN1TOSCALMODERN 8Modern 8Marine $1Pilot $1C30 ProFlat $1CFlat $1S60ProS60 ProTiger $1Pad $1 WiFiSpider 8OTTMDTVLPX-G Box MaxOTTOOUJIA2018-S10MAXS10 MaxS20S27 PLUSS27 PlusOX TABOx-p010-2OYSINOaleApex $1OangccObaboxOBASMART_3OberObiSJ$1.$2SkipperFlaconPythonFoxWolverineLeopardBoa PlusBoaPelicanOctopusCraneHornbillAlligatorOdotpadDragon Fruit Fire V$1Pomelo Max+OdysXelio HD10 LTEXelio $1XELIOPHONETAB3Xelio Phonetab 3THANOS_10Thanos 10XELIO_NEXT_10_PLUS_3GXelio Next 10 Plus 3GXELIO_PHONE_TAB7_3GXelio Phonetab 7 3GXELIO10EXTREMEXelio 10 XtremeXELIO10_PLUS_3GXelio 10 Plus 3GXELIO10_HD_PLUS_3GXelio 10 HD Plus 3GXELIO_10_HDXelio 10 HDXELIO_PRO_10_LTEXelio Pro 10 LTEELEMENT10_PLUS_3GElement 10 Plus 3GCONNECT8PLUSConnect 8 PlusCONNECT7PROConnect 7 ProMAVEN_X10_HD_LTEMaven X10 HD LTEMaven_T10_proMaven T10 ProMAVEN_X10_HDMaven X10 HDMaven".
Definition d_dr_buf_100 : blob := " 10 Pro Plus 3GMaven 10 PlusMaven 10 ProMaven 10 HDMAVEN_7_PLUSMaven 7 PlusRapid 7 LTERapid 10 LTETAO_X10Tao X10SPACE10_PLUS_3GSpace 10 Plus 3GSPACE_ONE_10SESpace One 10 SESPACE_ONE10Space One 10SPACE10_PRO_3GSpace 10 Pro 3GThor 10JuniorT8ProJunior T8 ProJUNIOR_8_PROJunior 8 ProADM816HCNeo XEOS10EOS 10PACE_10_LTE_V2Pace 10 LTE V2Pace 10AEONAeonFALCON_10_PLUS_3GFalcon 10 Plus 3GFUSIONFusion 7Uno X$1ADM8000KPTitanTitan_10_LTETitan 10 LTEPYRO_7_PLUS_3GPyro 7 Plus 3GNOVA_X7_PLUS_3GNova X7 Plus 3GODYS_NOVA_X7Nova X7Thor 10 Plus 3GNOTOSplus3GNotos Plus 3GMAVEN_G10Maven G10PEDI_PLUS_WPedi Plus WNoteTab_ProNoteTab ProGOAL_10_PLUS_3GGoal 10 Plus 3GIeos Quad WIeos Next 10Ieos Quad ProNERONNeronNeo 6 LTESLADE_X55Slade X55Ieos $1NoonNoon ProOkapiOkapi 10Okapi_Tab8_ProTab 8 ProOkapiaSignature $1MirageMagic+OkingOK-smart11Smart 11OlaxOcean $1 ProOcean $1Prime 12OlkyaOllee008 TwoAOlympiaTrekOndaT9 SMIDV820W Dual OSV891W Dual OSV891 Dual OSV919 3G Air Dual OSV116w-DualOSV116w 3G Dual OSV919 Air Dual O".
Definition d_dr_buf_101 : blob := "SV919 Air CH DualOSV919 Air CH Dual OSV919 4G Air Core8V919 4G Air Core 8V972 Core4V919 Core 4V989 Air Core8V989 Air Core 8ONDA V989V989 Core 8oBook 20 Plus Dual OSoBook 20 PlusV10 10.1"" 4GV80 SEoBook 20 Dual OSoBook 20 SEoBook 10 SEV10 4GOneClickX-music II proX-Music II ProX-Music IIIX-Music $1OneLernOnePlus1313RPKX11013T12R12CPH248711R 5GCPH2551OpenPKG110Ace 5PLF110Ace 5 RacePLC110Ace 5 UltraPKR110Ace 5 ProPJX110Ace 3 Pro 5GPJF110Ace 3VPJE110Ace 3Ace 2Ace 2 ProAce 2VAce ProAce Racing EditionNord 5GNord 2TNord CE 5GCPH2613Nord CE 4Nord CE 5Nord 4CPH2709Nord 5Nord CE 4 Lite 5GNord CE 2 LiteNord CE 3 LiteNord CE 3 5GNord 3 5GNord N100Nord N200 5GCPH2389Nord N300 5GNord N20 5GNord N30 5GNord N30 SE 5GNord N20 SENord N10Nord N10 5GNord N10 LiteNord 2 5GNord CE 28 Pro8T8 Lite8 5G UW9RT 5G9R10R10R 5G10T 5G10 Pro Extreme Edition7 Pro7T7T Pro7T Pro 5G8T+ 5G3T5T6TOPWWE231Watch 2OPD2203Pad 11.61"" WiFiPad Lite 11.0""OPD2404Pad Pro 12.1""OPD2403Pad 2 12.1"" WiFiOPD2415Pad 3 13.2"" WiFiOPD2405Pad 3 11".
Definition d_dr_buf_102 : blob := ".61""OPD2304Pad Go 11.35""OnidaFire TV (2019)Onix8"" Tablet 3GOnkyoOokeeOokeeOneOoredooCrius Mea $1OpelMobileEasy_Smart_2Easy Smart 2Rugged60QRugged 60QOpelMobile_SmartJXSmartJXOpelMobile_SmartX1SmartX1 4GOpel Mobile SmartX6SmartX6OpenboxAS_4K_CI_PRO_PLUSAS 4K CI Pro PlusAS_4K_CI_LiteAS 4K CI LiteAS 4K CI ProAS 4K $1AS 4K PlusAS1_HDAS1 HDAS 4KOPENBOX GOLDGoldOphoneSigma_4_0Sigma 4.0Beeta_4_0Beeta 4.0Active 5.0OpssonIusai $1OptomaOptoma-UHDUHD55OrangeSC/IHD92Livebox PlayNeva LinkNeva MiniNola playNola PlayNola funNola FunNeva zenNeva ZenNeva startNeva StartNura 2SanzaSegoFunTab $1Orange Mouve 2Mouve Tab IIMouveTab7WIFIMouve Tab 7 WiFiorange_Tab_7_4GTab 7 4GDive $1 DualDive $1SPV $1Orange PiOrbicR678ELRC501LSlimRC545LMauiRC555LWonderRC2200LJourney VRC608LRC609LR8L5TTab8 5GOrbitaOrbsmartOrdissimoCRANE-EVBOukiOKP6 ProOukitelWP$1 UltraWP$1WP100 TITANWP100 TitanC38K7 Power$1 MixU8 Universe TapRT7 TITAN 5GRT7 Titan 5GOT6 KidsRT7 TITANRT7 TitanRT3 ProRT3 PlusOvermaxOV-V10Vertis YardVertis 5021 Ai".
Definition d_dr_buf_103 : blob := "mVertis 4004 YouVertis $1Livecore7032Livecore 7032Qualcore 1010Qualcore $1 $2GOvviJumbo X1OwwoCarnival B5OystersPacific 800iPacificEPacific EIndianVIndian VPacific $1Atlantic $1Arctic $1Antarctic ELife 4GUniversal Phone 1T74Mai_3GT74MAi 3GOyyuT11 3GOzoneHDPAGRAERPGR3042A35 ProPAPYREPad 7.1""PC SmartQUICKTAB PLUSQuickTab PlusPCBOXArt-PCB-V116ArtBee-PCB-V216BeeClap-PCB-I316ClapPCB-T103Curi LitePCB-T104Kova T730Kova_Plus_PCB_T735Kova Plus T735PCDPL571USJaguar Pro IIPCD ArgentinaPEAQPET $1PINE64PIRANHAPro IIUltra 4Ultra 5 Tab WhiteUltra 5Piranha80328032PIXPROL1 ProPLDTTelPad MT7POCOF6 ProF6X6 Pro 5GX6 5GX6 NeoX7 ProF5 ProM3 Pro 5GM4 Pro 5GM4 5G23128PC33IM6 5GM7 Pro 5G24108PCE2IM7 5G23076PC4BIM6 Pro 5G24066PC95IM6 Plus 5GM6 ProM4 ProM2010J19GCM3 SEX3 NFCX3 ProX3 GTX5 5GX4 GT ProX4 GTX5 Pro 5GX4 Pro 5GF3 GTF4 GTF4F7 ProF7 UltraC3C31C40C5022127PC95IC55C61C65C75C85F2 ProX5 GT Pro2405CPCFBGPad 12.1""POPTELP9000 MaxPPTVPRIMEPRISM+PrismPlus$1K Pro Smart TVPROFiLOPULIDPVBoxPVBOX_P5_PROP5 ProPacific ".
Definition d_dr_buf_104 : blob := "Research AllianceArmadillo PhonePackard BellDAYTONA-G12Daytona G12MONZA-T7Monza T7Silverstone $1EasyNote TV11HCPaladinPaladin TVPalmTreo $1TungstenPVG100PepitoPanacomT-i708DPanasonicP-smart KeitaiToughbook $1Eluga PEluga XEluga I7Eluga $1Lumix $1Lumix Phone P-02DToughpad $1Toughpad FZ-$1P55 Novo 4GP55 MaxP$1 NXTP902iPanasonic G00gle TVPanasonic MIL DLNAViera CastEluga Live 10.1""PanavoxPanoPanodicPanoramicPantechADR910LStar QIM-A860Vega No 6IM-A850Vega R3IM-A870KVega IronParrot MobilePartner MobileEV1 PROEV1 ProPelittPelitt T1 MAXT1 MaxPelitt T1 PLUST1 PlusPendooX8 Pro+pendoo miniMiniX11 PROA5X MaxPentaPS650Smart PS650WS704DXT-Pad WS704DXPentagramEon PrixQuadra 7 UltraSlimMonster X5Quadra $1PerfeoPerfeo_PF_A4551CHRONOPerfeo_PF_A4552RATEPerfeo_PF_A4553MATRIXPhicommClue LEnergy LEnergy 3+Energy 4SClue 2SClue $1PhilcoHIT P10aHit P10aHit $1PH60D16DSGWN4KPTB7PAPhilipsXenium $1$1/96 4K UHDSmart TV UHD ($1-20$2)$1 4G LTEM9 ProBlu-ray Player (BDP$1)NetTV SeriesUHD Android TVSmart TV UHDFisio $1".
Definition d_dr_buf_105 : blob := "NeoViu D1SCN550Screeneo U5PhonemaxSaturn XMarsVenus XPiPOPipoM9ProPicoNeo3 LinkNeo 3 LinkPioneerR1dvr700piDVR700PI 7.0""BDP-160Pioneer ComputersPixelaInfineum $1PixelphonePixusRide $1GPlay Three v$1Play TwoPlay FivehiPowerDeonSprintDriveWingLineFolioTouch 7 3GHiMax 9.6""Blast 10.1""Joker 10.1""Blaze 10.1"" 3GRazePixus_JetJetpixus hit 2Hit 2Planet ComputersGemini 4GPlatoonPlay NowPlay Now TV Box 2PloyerMOMOminiSMOMO mini Smomo mini 3GSMOMO Mini 3GSMOMO $1PlumZ405Gator 3Z407Axe 4Z516CompassZ518Compass 2Z519Gator 5Z811Optimax 11Z709Optimax 7Z712Optimax 12PlusStylePluzzPocketBookA10 3GA10SURFpad 2SURFpad 3 $1.$2""SURFpad 4 $1Point MobilePM80Point of ViewPOV_TV-HDMI-KB-01HDMI Smart TV DonglePOV_TV-HDMI-200BTMini PC HDMI DongleMOB-5045Mobii Phone 5045POV_TAB-P506ONYX 506 NaviONYX 507 NaviPOV_TAB-P527SONYX 527SPOV_TAB-P547ONYX 547 NaviPOV_TAB-PROTAB26ProTab 26 XXL IPSProTab 25XXLPOV_TAB-PL1015Mobii 1015TAB-P10232-3GTab P10232 3GProTab $1Mobii $1PolarPolarLinePolaroidP4005ATurbo C4P5005ATurbo C5P400".
Definition d_dr_buf_106 : blob := "6ATurbo D4PSPTD21NATurbo D2 PlusP4526ATurbo EPSPCL30A0Cosmo C6P5006ACosmo KP5526ACosmo K PlusPSPCK20NACosmo K2PSPCK21NACosmo K2 PlusP5026ACosmo LPSPCL20A0Cosmo L2PSPCM20A0Cosmo M2P5046ACosmo P5sP5525ACosmo Q5sP5047ACosmo ZPSPCZ20A0Cosmo Z2P5025AL5sPro4611PRO5023Phantom 5PROV400AgatePROV350ProV350Sigma 5Pro$1PSPT350Turbo 350 GrisPSN-H116SnapSMX4KSmartBox SPure 10.1""Mobility3GMobility 10.1"" 3GPolestarPolestar PhonePhonePolyPadPolytronR2508Rocket Q-FiveR2401Rocket 2XRocket R2402Rocket R1Rocket R2Rocket R3Rocket S1Rocket S2Rocket T1Rocket T3Rocket T6 SERocket T6Rocket T7Rocket T4Rocket JetzRocket Jetz 5.04G450Zap 5W6500Quadra RocketW7452Quadra S2W7550Quadra V5W8570Quadra V7Rocket L501Prime 7SPrime 7 Pro4G500Zap 6 CleoW8480Crystal 4 W8480W7531Wizard VW7430Quadra Mini W7430Zap 6 PoshZap 6 PowerZap 6 FlazZap 6 NoteZap 6 Posh NotePW1100SQ2352R255BPrime T8Cosmica T7800Rocket PadPompPoppoxPoppox P3PorschePorsche Rear Seat EntertainmentPortfolioPositivoYPY_S450YPY S450Twist 4 MiniTwist 5 MaxTwist".
Definition d_dr_buf_107 : blob := " 4 $1YOLOTwist 4 FitUP 32Twist 4 ProTwist 4GTwist 4T1085M10 4G PRO XM10 4G Pro XPositivo BGHSelfieTwist (2018)Twist Metal 32GBTwist MetalTwist MaxTwist MiniTwist 2 FitTwist 2 GoTwist 2 ProTwist XLTwist SETwist $1Mini IYpy $1Twist TabPowerwayDreamtab $1Premier StarMAXI 20Maxi 20Premier P50Premio186HS2080531AXE_IIAxe IIAxe186HS1050531P541185FT5050231P511186FT1080231P571186HS1050232P630X$1 (2021)PrestigioPrestigio 5500 DUOMultiPhone 5500 DuoMultiPhone $1 DuoMultiPhone $1PSP5551DUOGrace S5PSP7590DUOGrace V7 LTEPSP7551DUOGrace S7 LTEPSP5470DUOGrace X5PSP5530DUOGrace Z5PSP3533DUOGrace Z3PSP5515DUOGrace P5PSP5552DUOGrace R5 LTEPSP5506DUOGrace Q5PSP5511DUOGrace M5 LTEPSP7501DUOGrace R7PSP7570DUOGrace P7 LTEPSP7572DUOGrace B7PSP3552DUOMuze H3PSP5523DUOMuze H5 LTEPSP3515DUOMuze M3 LTEPSP3495DUOMuze V3 LTEPSP3534DUOMuze K3 LTEPSP5513DUOMuze D5 LTEPSP5520DUOMuze B5PSP5518DUOMuze X5 LTEPSP5553DUOMuze F5 LTEPSP5502DUOMuze A5PSP5545DUOMuze E5 LTEPSP7512DUOMuze E7 LTEPSP3511DUOMuze G3 LTEPSP5522DUOMuz".
Definition d_dr_buf_108 : blob := "e G5 LTEPSP7550DUOMuze G7 LTEPSP7510DUOMuze C7 LTEMuze C3PSP3512DUOMuze B3PSP3532DUOMuze F3PSP3470DUOMuze J3PSP5524DUOMuze J5PSP7511DUOMuze B7PSP3514DUOWize U3PSP3513DUOWize V3PSP3416DUOWize YA3PSP3406DUOWize Y3PSP3423DUOWize R3PSP3471DUOWize Q3 LTEPSP3510DUOWize G3PSP3537DUOWize NV3PSP3528DUOWize PX3PSP3527DUOWize NK3PSP3468DUOWize OK3SILVER POSSilver POSPMT3277_3GMultiPad Ranger 7.0"" 3GPMT4337_3GSeed A7 3GPMT3997_W_DSmartKidsPMT3103_WSmartKids MaxPMT3104_Wi_DSmartKids UpPMT4511_4GSmartKids ProPMT4208Node A8 3GPMT4771Root A10 3GPMP7070C3GMultiPad 4 Diamond 7.0"" 3GGeo Vision Tour 3Geo Vision 7777Geo Vision Tour 2Grace $1 $2GPMT3287_3GMultiPad Ranger 8.0 3GPMT4238_4GQ ProMultiPad Wize $1 $2GWize $1 $2GMuze $1 $2GX ProS MaxPTV$1CIS$2MultiCenter $1PrimepadPD-3127NCPD-3127PrimuxIOX PhoneDelta 6Kappa $1KappaBeta 2Omega 6 4GUPZonda 4Siroco 6Siroco YPritomM10_LiteM10 LiteM10 R0$1TOUCH 7Touch 7K7_A101K7 A101M10_AirM10 AirM10_PLUSM10 PlusM10 C01P7_EEAP7P7PROTronPad P7 ProPrixtonProScanPLT$1PLT$".
Definition d_dr_buf_109 : blob := "1GProVisionProlineFalcon XLM504Falcon XPrologyProtrulyPunosPurismLibrem 5Q-BoxQ-TouchQ.BellQTAB10EWQFXQINQLinkScepter 8QMobileJazzX JS7 PROJazz X JS7 ProJazz X JS$1Noir A1 liteNoir A1 LiteNoir $1Noir A600Z12 PRONoir Z12 ProE2 NoirHot Pro 2Noir LT$1 ProView Max ProX700 PRO IIX700 Pro IIX700 PRO LiteX700 Pro LiteX700 PROX700 ProM350 ProLUNA PROLuna ProVITA SVita SNICE SNice SV$1 Metali$1i (20$2)i10 (20$1)i6i 2020i6i (2020)i8i PROi8i Proi8i DualQMobile I8ii8ii6 Metal ONEi6 Metal Onei6 Metal HDi6 Metal ($1)Smart HD ProRocket ProRocket LiteMark $1Infinity Cinema 2Infinity Prime 2Infinity tripleInfinity TripleInfinity santosInfinity SantosQ Infinity PROQ Infinity ProQ Infinity E LiteQ Infinity $1Linq $1GLi LiteGLiV2 (2018)$1 TabQ InfinityQTECHQMP $1QWATTQiliveQ7S5IN4GQ7 5.0"" 4GQ7S55IN4GQ7 5.5"" 4GQ8S55IN4G2Q8 5.5"" 4GQ8S6IN4GQ8 6.0"" 4GQ8S5IN4GPQ8 5.1"" 4GQ9S5IN4GQ9 5.0"" 4GQ9S55IN4GQ9 5.5"" 4GQ10S53IN4GQ10 5.3"" 4GQ10S57IN4GQ10 5.7"" 4GQ10 5.0"" 4GQ10S6IN4GQ10 6.0"" 4GQ6T7INQ7T10INPQ7 10.1""Q8T10INQ8 ".
Definition d_dr_buf_110 : blob := "10.1""Q9T7IN4GQ9 7.0"" 4GQ9T9INQ9 9.0""Q9T10IN4GQ9 10.1"" 4GQT21101Q1-21QT2108BPQ4-2197R-297R2QiuwokyQnet MobilePassion $1Hynex Plus$1Stark K1Hynex $1 PlusHynex $1Levin $1Aston A$1 PlusQtekQuanta ComputerSlate AQT$1QuantumLio PlusGo 2QrashMUV ProMUV UpUpQ-Titano $1Q-Pulse 70MQ-Wave $1QuatroQuboMinervaX668_64GBX668T104QuechuaQuechua Phone 5RAPTORQuipusTinkuQumoVega $1YoodaSirius $1Quest $1QupiQupi TVQupi TV StartTV StartQwareTB-9718QPro 5TB-1380QPro 4TB-1317QPro 3TB-1517DTabbyR-TVBox $1R3DiFR150RAZZRCA TabletsRCARENO5011619RCT6513W87Galileo Pro 11.5""Voyager 7.0""Voyager III 7.0""RCT6773W22BVoyager II 7.0""Atlas 10.0""RCT6203W46LPro 10 Edition IIRCT6A06P22Endeavor 10.0"" HDViking Pro 10.0""RCT6603W47M7Viking II 10.0""RCT6613W23PDelta Pro 11.6""RCT$1RC$1RCTREDHydrogen OneRED-XRED_X_RX2441REGALRENSONep N$1RIMBlackBerry DTEK60KEYoneBBC100-1MotionKEY2 LEKEY2BBF100-8KEY2 SilverBBF100-9KEY2 BlackBBG100-1Evolve XBlackBerry PrivBlackBerry DTEK50BlackBerry $1BlackBerry Playbook9300Curve 3G 9300Curve $19630To".
Definition d_dr_buf_111 : blob := "ur 96309720Torch $1BlackBerryROADMAXFortius Quad 7ROCHRT ProjectShock $1popper2Popper 2RTKESKIMO!RakutenZR01Big3917JRBig SP710HandC330C330 MiniP780Hand 5GRamosMOS1maxMOS1 MaxW22PRO 3GW22 Pro 3GRaspberryRavozRaylandzXPOWER_P6000XPower P6000RazerRazer Edge 5GEdge 5GReachReadboyC18 MaxC$1 ProRealixRealmeRMX3844P1 Pro 5GRMX5004P1 Speed 5GRMX3870P1 5GRMX3987P2 Pro 5GP3 Ultra 5GRMX5079P3 5GRMX3944P3x 5GRMX5032P3 Pro 5GRMX5300P3 LiteRMX5116P4 Pro 5GRMX5110P4 5GRMX3834GT Neo 5RMX3852GT Neo 6GT 6RMX3853GT 6TGT 7 ProGT 7RMX5085GT 7TGT 8 ProRMX6699GT 8RMX3850GT Neo 6 SERMX3700GT Neo 5 SERMX5060RMX5062Neo 7 TurboRMX5071Neo 7xRMX5080Neo 7 SEQ3 Pro PlayRMX36632 ProRMX18273i3 ProRMX1993X2 ProRMX2117Q2 5GRMX2173Q2 ProRMX2205Q3 Pro 5GRMX3161Q3 5GRMX3462Q3tRMX3372Q5 ProRMX3478Q5RMX3574Q5iX7 5GX7 Pro 5GXT5 Pro5iRMX19295s6iRMX20026S6 ProRMX21037IRMX2170RMX3115X7 Pro Extreme EditionRMX30818iRMX33818sRMX32418 5G9iRMX36129i 5GRMX35219 5G9 Pro+ 5G9 Pro 5GRMX361710s10 Pro 5G10 Pro+ 5GRMX374111 Pro+ 5GRMX374011".
Definition d_dr_buf_112 : blob := " Pro+RMX377111 Pro 5GRMX377011 ProRMX378511x 5GRMX378011 5GRMX384212 Pro 5GRMX384312 ProRMX384112 Pro+RMX384012 Pro+ 5GRMX386712+ 5G12 5GRMX3871RMX399812x 5GRMX399312xRMX500213 Pro13 Pro 5G13 Pro+ 5GRMX500013+ 5GRMX395113 5GRMX395214x 5GRMX507014 5GRMX507814T 5G14 Pro+ 5GRMX505014 Pro+RMX505614 Pro 5GRMX505514 ProRMX510615 5GRMX510115 Pro 5GRMX510015 ProRMX511115TRMX525015x 5GRMX19255SRMX1811RMX2185C11RMX2189C12C15C15 Qualcomm EditionC17C20C21C21YC25C25sC25YC30RMX3690C30sC33C35RMX3710RMX3830RMX3765C51sC53RMX3950C63 5GRMX3910RMX3890C67RMX3782Narzo 60xRMX3997C65 5GRMX3941RMX5303RMX3945C73 5GRMX5020C75xRMX3231C11 (2021)RMX5090GT 5RMX3888GT 5 ProRMX3709GT 3GT 2 ProGT 2RMX3551GT 2 Explorer MasterRMX3031GT NeoRMX3370GT Neo 2GT Neo 3RMX3563GT Neo 3 150WGT Neo 3TGT Neo 2TRMX3701GT Master EditionGT Neo FlashNarzo 20 ProRMX2193Narzo 20RMX2050Narzo 20ARMX3171Narzo 30ARMX2156Narzo 30RMX3242Narzo 30 5GRMX3430Narzo 50ARMX3286Narzo 50RMX3572Narzo 50 5GRMX3395Narzo 50 ProRMX3396Narzo 50 Pro 5GNarzo 50".
Definition d_dr_buf_113 : blob := "A PrimeRMX3235Narzo 50iRMX3506Narzo 50i PrimeRMX3750Narzo 60 5GRMX3869Narzo 70 5GRMX5003Narzo 70 Turbo 5GRMX3868Narzo 70 Pro 5GRMX5033Narzo 80 Pro 5GRMX3761Narzo N53RMX3933Note 60X50 5GX50t 5GX50 ProX50 Pro PlayerX3 Super ZoomRMX2083Realme X7 Max 5GX7 Max 5GQ3sV5 5GV3 5GRMX3618V11 5GRMX3125V11s 5GV13 5GV15 5GRMX3571V23RMX3576V23iRMX3475V25RMX3619RMX3783V50sRMX3781RMX3995RMX3996V60sRMX3946RMX2202GT 5GRMX3938Note 60xRMX5313Note 70TPadPad XPad Mini4K Google TV StickRedLineRED360 Air 8KS$1 MaxIP-$1 MaxRedbeanRedfoxWizpad Valuer V8Redwayredway10_lite10 Literedway7_proRedway_7ReederA8i-Q2A8i Q2P11SE_ArtP11SE ArtM10SPlusM10S PlusM7PlusM7 PlusM7 GoM8Go2020M8 Go (2020)$1 GoM10 Blue MaxM10 Pro LTEP12CurveP12 CurveP13 Blue Max PLP13 Blue Pro LiteP13_Blue_MaksP13 Blue MaksP13_Blue_Plus_2022P13 Blue Plus (2022)P13_Blue_PlusP13 Blue PlusP13 Blue Max Pro 2021P13 Blue Max Pro (2021)P13 Blue Max LiteP13 Blue Max ProP13 Blue (202$1)P13 Blue Max (202$1)P13 Blue MaxP13_BlueP13 BlueS19 MaxS19 MaxL 128GBS19".
Definition d_dr_buf_114 : blob := " Max LS19 Max Pro S ZoomS19 Max Pro S EdgeS19 Max Pro SS19 Max ProS23 Pro MaxREEDER TVRelNATRelndooRemdunRD$1RenovaRevoRevo_YouplusYou PlusRevomovilS6523S21RhinoPace A1Ricohricoh_ricoh_mfpapnlMFPRikomagicMK$1Ringing BellsRINGING BELLSSmart 101Smart 101 4GRinnoRitmixRMD-$1RMP-$1RitzvivaS500CRivieraRivoSTORM_S8plusStorm S8 PlusSTORM_S8Storm S8Phantom PZ$1Phantom RX$1Rhythm RX$1RizzenRoadroverRoadrover ChangAn SChangAn SRoam CatRokitOrb SIO ProIO LightIO 3DRoku3930XExpressRoku4640XUltraDigital Video PlayerRombicamyPhone JetSmart Stick 4KTV-Impact-proTV Impact ProTV-ImpactTV ImpactCinema 4K v01RomsatRoss&MoorRM$1-$2RoverRover ComputersPro Q$1 LTESky 7.85"" 3G$1 7.85"" 3GRoyQueenBishop-RQ451BishopRoyoleFlexPai 2FlexPaiRugGearRG725RuggeTechRuggexRhino QuestRuioM671M4Cola 4GRunGeeRunGee X9RunboF1-TTRunboP2RupaPyramid A5XRyteS-ColorS-TELLS2TelSAILFI13 ProSANYSANY V8SANY V8 ProV8 ProSEBBESEEWOSEGSEMP TCLL9 PlusGO! 3C PlusGO! 3CSENNASERVO16 MaxSFRStarXtrem 2StarXtrem $1StarXtremStarTrail 3StarTrai".
Definition d_dr_buf_115 : blob := "l 2StarTrail $1 $2GStarTrail $1StarTrailAura PlusAura UltraAuraStarShine 2StarShine 3StarShineStarAddict 6StarAddict 4StarAddict 3StarAddict 2 PlusStarAddict 2StarAddictStarText 2StarTextStarNaute 2StarNaute $1StarNauteStarTabSGINSGIN_E10ME10MSGIN_X10X10SINGER4K GSMART TVSINGER ANDROID TVSK BroadbandBHX-UH200B TV Smart 3 (2021)SKGSKK MobileLYNX_LUXELynx LuxeHyper X DragonHYPER X BLADE IIHyper X Blade IIHYPER X BLADEHyper X BladeSMARTECSmartabS4Smartab S4SMT TelecomCRUSH_X565Crush X565BLAZE_X500Blaze X500SMUXSNAMISOLEPop S$1SOLOInspire_U5_PLUSInspire U5 PlusInspire_U5Inspire U5SONOSBR200BOOSTRoamBookshelfMovePlay:$1OneSLSubSOSHSoshPhoneSOWLYSPCGRAVITY_OCTACOREGravity OctaCoreGravity (2019) $1GGravity $1GGravity MaxGRAVITY PROGravity ProGRAVITY SEGravity SEGRAVITY-2-MAXGravity 2 MaxGravity 2GRAVITY ULTIMATE 2Gravity Ultimate 2GRAVITY_3_MINIGravity 3 MiniGRAVITY_3_SEGravity 3 SEGravity $1Glow 9.7""LightyearL70_LiteL70 LiteFLOW 7Flow 7LaikaZEUS_4G_PROZeus 4G ProZEUS_4GZeus 4GSmart UltimateS".
Definition d_dr_buf_116 : blob := "PC SMART PLUSSmart PlusSPC SMART LITESmart LiteSPC SMART MAXSmart MaxSPC SMARTSPC GEN MAXGen MaxSPC GEN LITEGen LiteSPC GEN PlusGen PlusSPC GENGenDISCOVERY_2_MEDiscovery 2 MeSPC_ALIEN_STICKAlien StickSPC_ALIENAlienSPURTSQOOLV$1SSKYSTF MobileFractalOrigins ProAERIAL PLUSAerial PlusAERIALAerialBLOCK_MINIBlock MiniBLOCK 3 miniBlock 3 MiniBLOCK 3Block 3BLOCK GOBlock GoSLAY IISlay IIJoy ProSTG TelecomSTKLife 8Life 7SStorm 2e PluzStorm 2e PlusSync 5z PlusTransporter 1STRONGLEAP-S1SUAATS3SUNWINDSky $1 $2 3GSKY Kids 70Sky Kids 70Sky $1 $2GSUN-LED$1SWISSMOBILITYSCHON R9PRA$1ZUR722MZ72 goZUR$1SWOFYM503 ProSYHYoung $1SZ TPSSabaSafaricomET KimemKimem Kerefa 4GNEON_RAY_PRONeon Ray ProNeon Ray Ultra MNeon Ray UltraNEON_RAYNeon RayNEON RAY 2Neon Ray 2NEON_NOVANeon NovaNEON PLUSNeon PlusNEON LITENeon LiteNeon StormSFCSTB2LITESTB2 LiteSagemSagemcomDCTIW362_PLAYDCTIW362 PlaySaietSicuro Smart $1SaloraSamboxSAMBOX_KM_35_PROKM35 ProKM$1GT-B9150Home SyncSMT-E5015Maple Maple2012Smart TV (2012)Galaxy Note 8.0".
Definition d_dr_buf_117 : blob := """Galaxy View 18.4"" LTEGalaxy View 18.4"" WiFiGalaxy Note 8.0"" WiFiGalaxy Note 8.0"" LTEGalaxy Note 10.1""Galaxy Note 10.1"" WiFiGalaxy Note 10.1"" LTEGalaxy TabGalaxy Tab 2 7""Galaxy Tab 2 7"" WiFiGalaxy Tab 2 10.1""Galaxy Tab 2 10.1"" WiFiGalaxy Tab 3 7.0"" 4GGalaxy Tab 3 10.1""Galaxy Tab 3 10.1"" WiFiGalaxy Tab 3 10.1"" LTEGalaxy Tab 7"" PlusGalaxy Tab 7"" Plus NGalaxy Tab 7.7""SC-01EGalaxy Tab 7.7"" PlusGalaxy Tab 10.1vGalaxy Tab 10.1""Galaxy Tab Pro 8.4"" 3GGalaxy Tab Pro 12.2"" LTEGalaxy Note 10.1"" 2014 Edition WiFiGalaxy Note 10.1"" 2014 EditionGalaxy Note 10.1"" 2014 Edition LTEGalaxy NotePRO 12.2"" WiFiGalaxy NotePRO 12.2""Galaxy NotePRO 12.2"" LTEGalaxy Tab A 10.1"" with S Pen (2016) LTEGalaxy Tab A 10.1"" with S Pen (2016) WiFiGalaxy Tab A 8.0"" with S Pen (2019) LTEGalaxy Tab A 8.0"" with S Pen (2019) WiFiGalaxy Tab A 8.4"" (2020) LTEGalaxy Tab A 8.0"" (2019) LTEGalaxy Tab A7 10.4"" (2020) LTEGalaxy Tab A7 10.4"" (2020) WiFiGalaxy Tab A7 10.4"" (2022) WiFiGalaxy Tab A7 Lite 8.7"" (2021) LTEGalaxy Tab A7 Lite ".
Definition d_dr_buf_118 : blob := "8.7"" (2021) WiFiGalaxy Tab A9+ 11.0"" 5GGalaxy Tab A9+ 11.0"" WiFiGalaxy Tab A9+ 11.0"" LTEGalaxy Tab A9 8.7""Galaxy Tab A9 8.7"" WiFiGalaxy Tab A11 8.7"" LTEGalaxy Tab 3 Lite 7.0"" WiFiGalaxy Tab A8 10.5"" LTEGalaxy Tab A8 10.5"" WiFiGalaxy Tab S4 10.5"" WiFiGalaxy Tab S4 10.5"" with S PenGalaxy Tab S4 10.5""Galaxy Tab S5e 10.5""Galaxy Tab S5e 10.5"" WiFiGalaxy Tab S6 10.5""Galaxy Tab S6 10.5"" LTEGalaxy Tab S6 Lite 10.4""Galaxy Tab S6 Lite 10.4"" (2024)Galaxy Tab S6 Lite 10.4"" (2024) WiFiGalaxy Tab S6 Lite 10.4"" WiFiGalaxy Tab S6 10.5"" WiFiGalaxy Tab S6 10.5"" 5GGalaxy Tab S8 11.0"" WiFiGalaxy Tab S8 Ultra 14.6"" WiFiGalaxy Tab S9 Ultra 14.6"" WiFiGalaxy Tab S9 Ultra 14.6"" 5GGalaxy Tab S9+ 12.4""Galaxy Tab S9+ 12.4"" 5GGalaxy Tab S9 12.4"" 5GGalaxy Tab S9 FE+ 12.4"" 5GGalaxy Tab S9 FE 10.9"" 5GGalaxy Tab S9 FE+ 12.4"" WiFiGalaxy Tab S9 11"" WiFiGalaxy Tab 3 Lite 7.0""Galaxy Tab S10 Ultra 14.6"" WiFiGalaxy Tab S10 Ultra 14.6"" 5GGalaxy Tab S10 FE+ 13.1""Galaxy Tab S10 FE+ 13.1"" 5GGalaxy Tab S9 FE 10.9"" WiFiGalaxy Tab".
Definition d_dr_buf_119 : blob := " S10 FE 10.9"" WiFiGalaxy Tab S10 FE 10.9"" 5GGalaxy Tab S10+ 12.4"" WiFiGalaxy Tab S10+ 12.4"" 5GGalaxy Tab S10 Lite WiFiGalaxy Tab S10 Lite 5GGalaxy Tab 3 VGalaxy Tab 3 7.0"" KidsGalaxy Tab 3 7.0"" WiFiGalaxy Tab 3 7.0""Galaxy Tab 4 7.0"" WiFiGalaxy Tab 4 7.0"" 3GGalaxy Tab 4 7.0"" LTEGalaxy Tab 4 7.0"" WiFi + 3GGalaxy Tab 3 8.0"" WiFiGalaxy Tab 3 8.0"" 3GGalaxy Tab 3 8.0""Galaxy Tab 3 8.0"" LTEGalaxy Tab 4 8.0"" WiFiGalaxy Tab 4 8.0"" LTEGalaxy TabPRO 10.1"" WiFiGalaxy Tab 4 10.1"" LTEGalaxy Tab 4 10.1"" AdvancedGalaxy Tab 4 10.1""Galaxy TabPRO 8.4"" WiFiGalaxy TabPRO 8.4"" LTEGalaxy TabPRO 10.1"" LTEGalaxy Tab 4 10.1"" WiFiGalaxy Tab S 8.4"" WiFiGalaxy Tab S 8.4"" LTEGalaxy Tab S 10.5"" WiFiGalaxy Tab S 10.5"" LTEGalaxy Tab S2 9.7"" WiFiGalaxy Tab S2 8.0"" LTEGalaxy Tab S2 8.0"" WiFiGalaxy Tab S2 9.7"" LTEGalaxy Tab S3 9.7"" WiFiGalaxy Tab S3 9.7"" LTEGalaxy Tab S7+ 12.4"" LTEGalaxy Tab S7+ 12.4"" WiFiGalaxy Tab S7+ 12.4"" 5GGalaxy Tab S7 11.0"" WiFiGalaxy Tab S7 11.0"" LTEGalaxy Tab S7 11.0"" 5GGalaxy Tab S7 FE 12.4"" LTE".
Definition d_dr_buf_120 : blob := "Galaxy Tab S7 FE 12.4"" 5GGalaxy Tab S7 FE 12.4"" WiFiGalaxy Tab S8 Ultra 14.6"" 5GGalaxy Tab S8+ 12.4"" 5GGalaxy Tab S8+ 12.4"" WiFiGalaxy Tab S8 11.0"" 5GGalaxy Tab S11 WiFiGalaxy TabPRO 12.2"" WiFiGalaxy Tab A 7.0"" WiFiGalaxy Tab A 7.0"" LTEGalaxy Tab A 8.0"" WiFiGalaxy Tab A 8.0"" LTEGalaxy Tab A 8.0"" (2018) LTEGalaxy Tab A 8.0"" (2019) WiFiGalaxy Tab A 9.7"" WiFiGalaxy Tab A 9.7"" LTEGalaxy Tab A 10.1"" (2016) WiFiGalaxy Tab A 10.1"" (2016) LTEGalaxy Tab A 10.5"" (2018) LTEGalaxy Tab A 10.1"" (2019)Galaxy Tab E 8.0""Galaxy Tab E 9.6"" WiFiGalaxy Tab E 9.6"" 3GGalaxy Tab E 9.6"" 4GGalaxy Tab Active 5 8.0"" 5GGalaxy Tab Active5 8.0 (2024) WiFiGalaxy Tab Active 4 Pro 10.1"" 5GGalaxy Tab Active 8.0""Galaxy Tab Active 8.0"" WiFiGalaxy Tab Active 2 8.0""Galaxy Tab Active 2 8.0"" WiFiGalaxy Tab Active 3 8.0""Galaxy Tab Active 3 8.0"" WiFiGalaxy Tab Active Pro 10.1""Galaxy Tab Active Pro 10.1"" WiFiGalaxy Note Pro 12.2""Galaxy Tab QSM-R820Galaxy Watch Active 2 44mmSM-V7000Galaxy GearSM-R3500Galaxy Gear FitSM-R3800Galaxy".
Definition d_dr_buf_121 : blob := " Gear 2SSM-R3810Galaxy Gear 2 NeoSM-R825Galaxy Watch Active 2 44mm LTESM-R830Galaxy Watch Active 2 40mmSM-R835Galaxy Watch Active 2 40mm LTESM-R800Galaxy Watch 46mmSM-R875Galaxy Watch 4 44mmGalaxy Watch 4 40mmGalaxy Watch 5 40mmGalaxy Watch 5 44mmSM-R925Galaxy Watch 5 Pro 50mmSM-R920Galaxy Watch 5 Pro 45mmSM-R960Galaxy Watch 6 Classic 47mmSM-R950Galaxy Watch 6 Classic 43mmSM-R805Galaxy Watch 46mm LTESM-R895Galaxy Watch 4 46mmSM-R810Galaxy Watch 42mmSM-R815Galaxy Watch 42mm LTESM-R885Galaxy Watch 4 Classic 42mmSM-R500Galaxy Watch ActiveSM-R600Galaxy Gear Sport 43mmSM-R760Galaxy Gear S3 Frontier 46mmSM-R720Galaxy Gear S2 43mmSM-R730Galaxy Gear S2 44mmSM-R750Gear S 40mmSM-R732Gear S2 42mmSM-R765Galaxy Gear S3 Frontier 33mmSM-R770Galaxy Gear S3 Classic 41mmSM-R845Galaxy Watch 3 45mm LTESM-R840Galaxy Watch 3 45mmSM-R850Galaxy Watch 3 41mmSM-R855Galaxy Watch 3 41mm 4GGear LiveFamily HubGalaxy A24Galaxy A25 5GGalaxy AlphaGalaxy ChatGalaxy JeanGalaxy Jean 2Galaxy Y ProGalaxy Y Pro DuosGalaxy P".
Definition d_dr_buf_122 : blob := "roGalaxy SpicaGalaxy ApolloGalaxy 3Omnia IIOmnia MOmnia WOmnia 7Focus FlashFocusFocus SGalaxy WGalaxy Active NeoGalaxy AceGalaxy Ace StyleGalaxy Ace 2Galaxy Ace 4Galaxy Ace 4 DuosGalaxy Ace 4 LiteGalaxy Ace 4 NeoGalaxy S IIGalaxy S II HD LTEGalaxy S III miniGalaxy S III mini Value EditionGalaxy CoreGalaxy Core AdvanceGalaxy Core LTEGalaxy Core Lite LTEH1Galaxy BeamGalaxy Beam 2Galaxy WideGalaxy Wide 5Galaxy Wide 7Galaxy Wide 8Galaxy WinGalaxy Win ProGalaxy ExpressGalaxy E5Galaxy E7Galaxy SGalaxy S PlusGalaxy SLGalaxy S Giorgio ArmaniGalaxy S AdvanceGalaxy S II WiMAXGalaxy RGalaxy S II PlusGalaxy S3 miniGalaxy S4 miniGalaxy S4 Value EditionGalaxy S4 ACTIVEGalaxy S IIIGalaxy S III LTEGalaxy S4Galaxy S4 with LTE+Galaxy S4 LTEGalaxy STARGalaxy POCKET PlusGalaxy POCKET NeoGalaxy POCKET 2Galaxy Y Hello KittyGalaxy YoungGalaxy Young DUOSGalaxy Young 2Galaxy Young 2 ProGalaxy FAME Lite with NFCGalaxy FAMEGalaxy FAME DuosGalaxy FeelGalaxy Feel 2Galaxy ACE 3Galaxy ACE PlusGalaxy TrendGalaxy Tren".
Definition d_dr_buf_123 : blob := "d LiteGalaxy Trend PlusGalaxy Trend 2Galaxy S DUOSGalaxy S DUOS 2Galaxy S DUOS 3Galaxy Xcover 2Galaxy Xcover 3Galaxy Xcover 3 VEGalaxy Xcover 4Galaxy Xcover 4sGalaxy Xcover ProGalaxy Xcover FieldProGalaxy Xcover 5Galaxy Xcover 6 ProGalaxy Xcover 7Wave IIWave 3Wave YWave MWave 525Wave 533Wave 578Wave 723Galaxy S4 zoomGalaxy K zoomGalaxy V PlusGalaxy Core 2Galaxy Core PlusGalaxy Core PrimeGalaxy Core Prime Value EditionGalaxy Core Mini 4GGalaxy Core MaxGalaxy EXPRESS IIGalaxy S5 miniGalaxy S5 Dual-SIMGalaxy S5 DuosGalaxy S5Galaxy S5 LTE+Galaxy S5 ActiveGalaxy S5 NeoGalaxy S5 K SportGalaxy S6Galaxy S6 EdgeGalaxy S6 Edge+Galaxy S7Galaxy S7 EdgeGalaxy S7 ActiveGalaxy S8Galaxy S8 LiteGalaxy S8 ActiveGalaxy S8+Galaxy S9Galaxy S9+Galaxy S10Galaxy S10 LiteGalaxy S10+SC-05LGalaxy S10+ Olympic Games EditionGalaxy S10eGalaxy S20Galaxy S20 5GGalaxy S20 FEGalaxy S20 FE 5GGalaxy S20 Ultra 5GGalaxy S20+Galaxy S20+ 5GGalaxy S21 5G UWGalaxy S21 5GGalaxy S21 FE 5GGalaxy S21 5G Olympic Games EditionGalaxy".
Definition d_dr_buf_124 : blob := " S21 Ultra 5GGalaxy S21+ 5GGalaxy S22Galaxy S22 UltraGalaxy S22+Galaxy S23Galaxy S23+Galaxy S23 UltraGalaxy S23 FEGalaxy S24Galaxy S24+Galaxy S24 FEGalaxy S24 UltraGalaxy S25+Galaxy S25Galaxy S25 EdgeGalaxy S25 UltraGalaxy Z FlipGalaxy Z Flip 5GGalaxy StellarGalaxy Style DuosGalaxy DiscoverGalaxy CenturaVollo Vi86Galaxy AvantGalaxy A QuantumGalaxy A01Galaxy A01 CoreGalaxy A02sGalaxy A03sGalaxy A03Galaxy A04sGalaxy A04eGalaxy A04Galaxy A03 CoreGalaxy A02Galaxy A05Galaxy A05sGalaxy A06 5GGalaxy A06Galaxy A2 CoreGalaxy A11Galaxy A14 5GGalaxy A14Galaxy A15 5GGalaxy A15Galaxy A16Galaxy A16 5GGalaxy A22Galaxy BuddyGalaxy Buddy 3Galaxy A22 5GGalaxy A3 (2015)Galaxy A3 (2016)Galaxy A3 (2017)Galaxy A34 5GGalaxy A35 5GGalaxy A36 5GGalaxy A4Galaxy A5Galaxy A5 DuosGalaxy A5 (2015)Galaxy A5 (2016)Galaxy A5 (2017)Galaxy A52Galaxy A52 5GGalaxy A52s 5GGalaxy A6Galaxy A6+Galaxy A6s (2018)Galaxy A60Galaxy A7Galaxy A7 (2016)Galaxy A7 (2017)Galaxy A7 (2018)Galaxy A71Galaxy A72Galaxy A73 5GGalaxy A71 5GGala".
Definition d_dr_buf_125 : blob := "xy A8Galaxy A8 StarGalaxy A8 (2016)Galaxy A8sGalaxy A8 (2018)Galaxy A8+ (2018)Galaxy A9Galaxy A9 7Galaxy A9 (2018)Galaxy A9 StarGalaxy A9 ProGalaxy A10Galaxy A10sGalaxy A10eGalaxy A12Galaxy A13 5GGalaxy A13Galaxy A20Galaxy A21Galaxy A21sGalaxy A20eGalaxy A20sGalaxy A23Galaxy A23 5GGalaxy A30Galaxy A30sGalaxy A31Galaxy A32Galaxy A32 5GGalaxy A33 5GGalaxy A40Galaxy A40sGalaxy A41Galaxy A42 5GGalaxy A50Galaxy A50sGalaxy A51Galaxy A51 5GGalaxy A53 5G UWGalaxy A53 5GGalaxy Quantum 4Galaxy Quantum 6Galaxy A54 5GGalaxy A55 5GGalaxy A56 5GGalaxy A70Galaxy A70sGalaxy A80Galaxy A90Galaxy A90 5GGalaxy F02sGalaxy F04Galaxy F05Galaxy F06 5GGalaxy F12Galaxy F13Galaxy F14 5GGalaxy F14Galaxy F15 5GGalaxy F16 5GGalaxy F22Galaxy F23 5GGalaxy F34 5GGalaxy F41Galaxy F42 5GGalaxy F52 5GGalaxy F54 5GGalaxy F62Galaxy S III NeoGalaxy LunaGalaxy LightGalaxy J1Galaxy J1 MiniGalaxy J1 mini PrimeGalaxy J1 (2016)Galaxy J1 AceGalaxy J2Galaxy J2 DuosGalaxy J2 PureGalaxy J2 CoreGalaxy J2 ProGalaxy J3 OrbitGalaxy J3 P".
Definition d_dr_buf_126 : blob := "roGalaxy J3 SkyGalaxy J3 Luna ProGalaxy J3 PrimeGalaxy J3 EmergeGalaxy J3 AuraGalaxy J3 StarGalaxy J3 MissionGalaxy J3 EclipseGalaxy J3 (2015)Galaxy J3 (2016)Galaxy J3 (2017)Galaxy J3 (2018)Galaxy J4Galaxy J5 (2015)Galaxy J5 (2016)Galaxy J5 Pro (2017)Galaxy J5 (2017)Galaxy J5 PrimeGalaxy J6Galaxy J6+Galaxy J4 CoreGalaxy J4+Galaxy On8Galaxy J7Galaxy J7 (2015)Galaxy J7 (2016)Galaxy J7 (2017)Galaxy J7 (2018)Galaxy J7+ (C7)Galaxy J7 PrimeGalaxy J7 Prime 2Galaxy J7 MaxGalaxy J7 Sky ProGalaxy J7 ProGalaxy J7 CoreGalaxy J7 DuoGalaxy J7 CrownGalaxy J7 VGalaxy J7 7SM-J8 PlusGalaxy J8 PlusSM-J8 ProGalaxy J8 ProGalaxy J8Galaxy J9 7 PrimeGalaxy J9 8 ProSM-A326Galaxy Jump 5GSM-M336KGalaxy Jump 2SM-M446KGalaxy Jump 3SM-M366KGalaxy Jump 4Galaxy M01Galaxy M04Galaxy M05Galaxy M01 CoreGalaxy M01sGalaxy M02sGalaxy M02Galaxy M10Galaxy M10sGalaxy M11Galaxy M12Galaxy M13Galaxy M13 5GGalaxy M14 5GGalaxy M14Galaxy M15 5GGalaxy M16 5GGalaxy M20Galaxy M21Galaxy M21 (2021)Galaxy M22Galaxy Buddy 2Galaxy M23 5GGal".
Definition d_dr_buf_127 : blob := "axy M30sGalaxy M30Galaxy M31Galaxy M32Galaxy M32 5GGalaxy M33 5GGalaxy M31sGalaxy M34 5GGalaxy M35 5GGalaxy M40Galaxy M42 5GGalaxy M51Galaxy M52 5GGalaxy Quantum 3Galaxy M53 5GGalaxy M54 5GGalaxy M62Galaxy M55 5GGalaxy W201$1Galaxy W22Galaxy W20Galaxy W21Galaxy Quantum 2Galaxy Golden 2Galaxy RoundGalaxy On5Galaxy On5 (2016)Galaxy On7Galaxy On7 (2016)Galaxy On7 PrimeGalaxy C5Galaxy C5 ProGalaxy C55 5GGalaxy C7Galaxy C7 ProGalaxy C8Galaxy C9 ProGalaxy Z1Galaxy Z2Galaxy Z3Galaxy Z4Galaxy FolderGalaxy Folder 2Galaxy SolGalaxy Sol 2Galaxy Sol 3Galaxy HaloGalaxy Amp Prime 2Galaxy Amp Prime 3 (2018)Galaxy FoldGalaxy W23 FoldGalaxy W25Galaxy W24 FoldGalaxy W23 FlipGalaxy W24 FlipGalaxy Z Flip 3Galaxy Z Flip 4Galaxy Z Flip 5Galaxy Z Flip 6Galaxy Z Fold 2 5GGalaxy Z Fold 3 5GGalaxy Z Fold 4Galaxy Z Fold 5Galaxy Z Fold 6Galaxy Grand NeoGalaxy Grand Neo DuosGalaxy GrandGalaxy Grand Neo+Galaxy Grand DuosGalaxy NoteGalaxy Note EdgeGalaxy Note Fan EditionGalaxy Note IIGalaxy Note II LTEGalaxy Grand 2".
Definition d_dr_buf_128 : blob := "Galaxy Grand MaxGalaxy Grand PrimeGalaxy Grand Prime VE DuosGalaxy Grand Prime PlusGalaxy J2 Prime (TV)Galaxy J2 PrimeGalaxy Note 3 Neo DuosGalaxy Note 3 NeoGalaxy Note 3 DuosGalaxy Note 3 LTEGalaxy Note 3Galaxy Note 4Galaxy Note 4 LTEGalaxy Note 4 EdgeGalaxy Note 5Galaxy Note 5 DuosGalaxy Mega 2Galaxy Mega 5.8Galaxy Mega 6.3Galaxy Note 7Galaxy Note 8Galaxy Note 9Galaxy Note 10+Galaxy Note 10Galaxy Note 10 LiteGalaxy Note 20 5GGalaxy Note 20 UltraGalaxy Note 20Galaxy Note 20 Ultra 5GAtiv SEGreatCall Touch 3E2152Chromebook 3Chromebook PlusSC-02CSMART-TVGalaxy $1SC-$1SCH-$1SamtechSamtronSaneiN83N918312DG101SankeyTAB7A3G05TAB-7A3G05SansuiS505024SantinBiTBiZ V58GAAMII G1GAAMIIHexin H2-ACandy U7 ProDream Plus 03AClass OneHaloveActoma AceMonicaHongQi HQ1GalazNewdunHexin $1HY-002 PlusG101-OGKatana Eclipse XIncognitoInnuendoSavioSberSchneiderSchokSchok Volt SV55Volt SV55FreedomTurboXLFreedom Turbo XLScooleScosmosSeatelSeekenSeleclineSelengaSelfixSELFIXSELFIX_SLASH6Slash 6VOYAGER-V45Voyager V45".
Definition d_dr_buf_129 : blob := "SELFIX_ES732_EXPERIUSES732 ExperiusSELFIX_Q5_URBANQ5 UrbanSELFIX_Q3_REBELQ3 RebelSELFIX_Q6_STALLIONQ6 StallionSELFIX_V41_PRO_MARDIGRASV41 Pro MardigrasSencorElement $1"" $2Element 7 V3Element 7 V2 BasicElement 7 V2Element 8 V3Element 8 V2Element 8Element 9.7 V3Element 9.7 V2Element 9.7Element 10.1$1.$2Element P$1SencromSENCROMRedrobox 4K PLUSRedro Box 4K PlusSendoSenkatelMaximusT1001Maximus T1001SenseitSenwaOdinInizioInizio PlusInizio LTEV705BPegasusThorSparklyDiamondSeuicAUTOID $1SewooSharpAquos Xx3STTM21VAPPRouvo VAquos Xx3 MiniAquos Xx2Aquos XxAquos eaAndroid OneAndroid One S3Android One S5Android One S7Android One X4Aquos WishAquos Wish 2Aquos Wish 3Aquos SH-M04Aquos Sense LiteAquos Sense 8Aquos Sense 9Aquos Sense PlusAquos Sense 4 BasicAquos Sense 4Aquos Sense 4 PlusAquos Sense 6Aquos Sense 6sAquos Sense 7 PlusAquos Sense 7Aquos Sense 5GAquos D10Aquos S3 Dual SIMAquos ZetaAquos ZeroAquos Zero 2Aquos Zero 6Aquos Zero 5G BasicAquos S2 (C10)Aquos Phone ZetaDragon QuestAquos Phone SH-0".
Definition d_dr_buf_130 : blob := "6DAquos Phone $1Aquos Phone XX $1Aquos L2Aquos RAquos R CompactAquos R2Aquos R2 CompactAquos R5GAquos S4 PlusAquos S4 SIMAquos VAquos V7+Aquos V6Aquos V6 5GAquos V6+Aquos K $1Simple Smartphone 4Simple Smartphone 6Aquos EverAquos CompactAquos CrystalAquos Crystal XAquos Crystal 2Aquos 3Aquos 2Aquos SAquos S BasicAquos P6Aquos S MiniAquos S2Aquos S2 PlusAquos S3 PlusAquos R3Aquos S3Aquos S3 MiniAquos S3 BasicAquos S3 LiteAquos S4 LiteAquos R6Aquos R7Aquos R8 ProAquos wish3Aquos R8Aquos ULuna SB10A2 LiteBasio 2Basio ActiveStar WarsSH-RM02Aquos SH-RM02401SHAquos 401SHDisney Mobile $1A001SHSimple Sumaho 5Aquos Keitai 3NPA205SHAquos Keitai 4NP807SHAquos Keitai 10NP501SHAquos KeitaiLeica Leitz Phone $1Galapagos $1Aquos K-taiPantone 6Sharp Aquos PadAquos Pad SHT21LCD_xxSUFOC475ALCD-60SU475AAquos Net PlusAquos TV$1Shift PhonesShivakiSTV-$1Shtrikh-MSmartpos F2ShuttleSicoPlus 2More_3More 3Plus3_4GPlus 3TopazMega2maxMega 2 MaxMega2Mega 2Nile XSSR3-1-51-5MSSD-1-53-13MInfinity MaxE1002Express3-MaxEx".
Definition d_dr_buf_131 : blob := "press 3 MaxExpress3Express 3SiemensX-StyleX-Treme PQ$1 MaxX-Treme PQ$1X-Style Tab A$1Tab_A1025_X-tremeX-Treme Tab A1025Tab A1010 NeoX-Style S$1SilelisSilent CircleBlackphone 2SimbansTangoTab $1TangoTabUltimaxValumaxPicasso Tab $1PrestoS72-BSX2WSimplySingtechInfinity I1Infinity I MixSiragonSP-$1Sirin LabsFinney U1SolarinSiswooAprix C55Platinum 5.0MPlatinum 5.5CPlatinum $1.$2 PlusPlatinum_4_0PlusPlatinum 4.0 PlusPlatinum 4.0Platinum $1 ProPlatinum B4Platinum $1Platinum View$1Pad 10 MaxPad 8 ProSKYVISIONVisionSky Vision2Vision 2Elite OctaPlusElite T8 PlusElite Octa XSElite Octa XElite OctaElite OctaMaxElite_5_5_OctaElite 5.5 OctaELITE PHOTOPROElite Photo ProElite M5PlusElite M5 PlusElite $155 MaxElite A63MaxElite A63 MaxSKY B63Elite B63Elite $1 ProElite $1.$2Fuego $1SKY_Pro_IIIPro IIIPRO_SELFIEPro SelfieSKY 55M55MPremier5Premier 5Prestige XPrestigeEM150Q MiniES130Q 1TBES140Q 2TBES240ES340Q 2TB V3SkyStreamIII PlusSkytechSkyworthFlowBox-F1VGK02DGO Smart StickSW-22AE NFSWTV-22AE NFSmadlSafar".
Definition d_dr_buf_132 : blob := "iMatri $1SmailoSmart PRIME IIPrime IISmart KasselSK5501Smart TechSmartBookSB13SmartabSmartexSmartfrenS7 BuildAndromax Tab 7.0PD6D1JAndromax V3sAD682JAndromax TAD688GAndromax C2AD689GAndromax i3AD682HAndromax i3sAD6B1HAndromax G2 HotAD9A1HAndromax G2AD683GAndromax IB26D2HAndromax LNew Andromax-iNew Andromax II46D1GAndromax REG680Andromax ZEG98Andromax U2Andromax $1SmartisanT1SM801T2SM901M1SM919M1LNut Pro 2sNut 3Nut 2Nut Pro 3JianGuo Pro 2Smartisan U3 ProU3 ProSmartyMini $1Maxi 10LSmooth MobileS2 AdvanceSmooth 5.5 LiteSmooth $1Smooth 6.26Smooth 6.26 $1Smooth Note 6.8SmotreshkaSobieTechSOBIETECH SLPSmart LED 3D ProjectorSodasoda FIRESoftbankSoho StyleSoloneE1457Earth Iron E1457W1450Wind Breeze W1450W1452Wind Air W1452SOLONE A47SL-A47Sun_S5501Sun S5501Elite L5501Sumo S5001SonimXP3400XP3XP3 PlusXP5sXP5XP6XP7XP8XP10Xperia X10 miniXperia X10 mini proXperia X8Xperia arcXperia arc SXperia neo VXperia neoXperia SolaXperia proXperia miniXperia activeXperia AceXperia rayXperia mini proXperia X10As".
Definition d_dr_buf_133 : blob := "penXperia PLAYXperia Acro SLive with Walkmantxttxt proJalouNaiteCedarElmHazelAinoYariSatioVivazVivaz proZyloSpiroYendoW960Mix WalkmanXperia AXXperia Pro IXperia ProSO-04FXperia A2SO-02DXperia NXG2299Xperia R1 PlusSO-04GXperia A4Xperia 10Xperia Ace IIXperia Ace IIIXperia 10 IIXperia 10 IIIXperia 10 VXperia 10 VIXperia 10 III LiteXperia 10 IVXperia 10 PlusXperia 10 DualXperia 1Xperia 1 Professional EditionXperia 1 IIXperia 1 IIIXperia 1 IVXperia 1 VXperia 1 VIXperia 1 VIIXperia PXperia VXperia 5 DualXperia 5Xperia 5 IIXperia 5 VXperia 5 IIIXperia 5 IVXperia 8Xperia 8 LiteXperia SLXperia SXperia arcoXperia arco HDXperia arco SXperia ionXperia TXXperia T LTEXperia TXperia tipo dualXperia tipoXperia miroXperia UXperia ULXperia VLXperia JXperia goXperia EXperia E DualXperia E4Xperia E4GXperia MXperia M DualXperia LXperia CXperia SPXperia ZRXperia ZLXperia ZL2Xperia ZXperia Z UltraXperia E1Xperia E1 DualXperia E3Xperia E3 DualXperia E4g DualXperia L2Xperia L2 DualI3312Xperia L3Xperia L3 DualX".
Definition d_dr_buf_134 : blob := "peria L4Xperia M2 DualXperia M2Xperia M2 AquaXperia M4 AquaXperia M4 Aqua DualXperia M5Xperia M5 DualXperia C3 DualXperia C3Xperia C4Xperia C4 DualXperia C5 UltraXperia C5 Ultra DualXperia T3Xperia T2 UltraXperia T2 Ultra DualXperia Z1 CompactXperia Z1Xperia Z3 CompactXperia Z2 Tablet WifiXperia Z2 Tablet WiFiXperia Z2 TabletXperia Z2D6563Xperia Z2aXperia Z3Xperia Z3 DualXperia Z3+Xperia Z3vXperia Z4E6508Xperia Z4vXperia Z5 CompactXperia Z5Xperia Z5 DualXperia Z5 PremiumXperia Z5 Premium DualXperia XAXperia XA DualXperia XA UltraXperia XA Ultra DualXperia XZXperia XZ1Xperia XZ1 CompactXperia E5Xperia XA1Xperia XA1 PlusXperia XA1 Plus DualXperia XA1 UltraXperia XA2Xperia XA2 DualXperia XA2 PlusH4433Xperia XA2 UltraXperia XZsXperia XZ PremiumXperia XZ2H8266Xperia XZ2 DualSO-05KXperia XZ2 CompactXperia XZ2 Premium DualXperia XZ3Xperia L1Xperia L1 DualXperia AXperia GXXperia SXXperia XXperia X DualXperia X CompactXperia X PerformanceXperia X Performance DualXperia Tablet ZXperia Tablet Z4X".
Definition d_dr_buf_135 : blob := "peria Tablet Z2Xperia Tablet Z3 CompactXperia Tablet SSmartWatch 3Bravia $1Bravia 4K (2015)Bravia VH1Walkman $1BDP7GBDP8G_AXBDP8G AXBDV7G_NVBDV7G NVBDP9G_AXDBDP9G AXDBlu-ray Player ($1)Blu-ray Playerarco IS11SXperia $1SoulLinkSoundmaxSoyesS10-HXS12 PROXS12 ProSpark NZSparxEdge 20 ProNeo $1iNeo 7 UltraNeo 8 LiteNeo $1 ProNeo $1 PlusUltra 11Ultra 8 ProUltra 8Sparx S7S7SpectralinkSpectrumVulcano 5.5""Carbono 5.0""Cuarzo 6.0""Diamante 5.0""Xlife $1Xlife M5Q+Xlife-M5 ProXlife M5 ProXlife-Victor5Xlife Victor 5Xlife-Proton5 ProXlife Proton 5 ProXlife-Electro55HDXlife Electro 55 HDMi-$1NMi-$1SpiderRed $1StarlightMilan_ProMilan ProGionee StarMy_Star_XMy Star XMy_star_18My Star 18RIO STARRio StarVENUS_PLUSVenus PlusC_Note_ProC Note ProC_NoteC NoteStar_Mix_2Star Mix 2I_STAR_PLUSI Star PlusI Star TwoI star oneI Star OneStarlight_ROME_XRome Xstar_plus_plusStar++StarmobilePlay GoAstraDiamond D1Play $1UP $1Engage 7 PlusStarwayAndromeda S$1StarwindSW-LED$1StilevsST65SMWOS4KStonexSTX $1StorexeZee'Tab$1STOR".
Definition d_dr_buf_136 : blob := "EX LinkBoxLinkBoxStrawBerryStreamSystemB3 ProStyloSonicSTEP_UPStep UpSWIFT_4GSwift 4GINKOSI_PRO_4GInkosi Pro 4G721_PRO721 ProS9 TopazSV61 Vector PlusSM61 Magic PlusS61 JAZZS61 JazzS57_AZURES57 AzureS57_ALURES57 AlureS56 MISTS56 MistCPE91S54 ZenS55 NovaS40_VISTAS40 VistaS50_JADES50 JadeS50_BOLDS50 BoldIthembaARCTICArcticEBY33S53_STARKS53 StarkS40_LIFES40 LifeLIFE_2Life 2MOSCOWMoscowAPEX_5GApex 5GS49 PoiseS49 MonoS49 EcoS64_ALPHAS64 AlphaDQR22INKOSI_PROInkosi ProINKOSIInkosiINKULU_PROInkulu ProBOLD_PLUSBold PlusBraveRAINRainSATURNDVK82 MercuryTaris Tab $1DVK87Orion 8 TabSirius Plus Tab 10SuborSugarY$1 MaxF7 MiniSumvisionSunVanSunmaxModel_6_pro_4GModel 6 Pro 4GSunmiT2s LiteV2_PRO-STV2 Pro STSunnyPrime TV StickSunstechSunvellT95Z PlusMini M8SMXQ-H3Super GeneralSuperBOXS2 ProSuperSonicSuperTVBLACK XBlack XWHITE XWhite XSuperTabK7 KidsSupermaxMX11 primeMX11 PrimeSupraSupraimSurgeVolt $1SuzukiSumoPad $1ECOPAD7ECOPad 7SveonSwipeKonnect PowerKonnect PrimeKonnect Neo 4GSlate 2Strike 8SwisstoneSw".
Definition d_dr_buf_137 : blob := "iteleSmart $1SycoRS-$1SymphonyPD1 4GZVIIIInnova $1ZVIIINOVAiNovaSymphony Atom iiAtom IIRoar $1G10 Plushelio 30SymTab $1EASY_NAV_2Easy Nav 2SyroxSystem76Galago ProT-MobileTMRVL4GREVVL VREVVL 4 PlusREVVL 4TMRV065GREVVL 6x 5GTMRV06P5GREVVL 6x Pro 5GREVVL 5GREVVL 2 PLUSREVVL 2 PlusREVVL V+ 5GREVVLRYREVVL 2REVVL 6 5GREVVL 7 5GREVVL 6 Pro 5GREVVL 7 Pro 5GTelekom PulsT Phone 2 ProT Phone Pro ($1)T Phone ($1)T Phone ProT Phone $1T PhoneTMRV5GTBREVVL Tab 5GT TabletT96TADAAMTAG TechTAGPhone advancedPhone AdvancedTAUBETB TouchIgnis $1TCLGala G60SignaIon XStylus 5G201205304303403305305i306T431P405406T506F406iT506T 406s408501T509K505T509A505 S40 SE20L20L Plus Premium Edition20L Plus20E30E20Y20BC9A3XL5L9L9SL10L10+L10 LiteT ProPlex10 5G10 5G UWLXA2XX4 5G40 XE 5G50 XL 5G50 XE 5G10L10 SE20 SE20 A30 SE4188V30 LE30+T676H3030 Z30 V 5GT603DL30 T30 5G30 XE 5G30 XL20R 5G20S20 XE20 5G20 Pro 5G40R 5GION VNxtPaper 40NxtPaper 50 Pro 5GNxtPaper 50 5G9494GNxtPaper 12 Pro9199SNxtPaper 10 5G9466XNxtPaper 119317X1Sma".
Definition d_dr_buf_138 : blob := "rt Tab 7TKEE MaxTab 8"" 4G9132GTab 8""9132STab Lite9295G10 TabMax 4G9296G10 TabMax WiFi9296Q10 TabMaxTab Pro 5GTab 10 5GTab 10sTab 10 WiFi (Gen 2)Tab 10 LTE (Gen 2)Tab 7 LiteTab 7L WiFiTab 10L WiFiTab 10 FHD 4GTab 10 HD 4G9137WTab 8 LE9166GTab 11 LTE8491XTab 10L9080GTab 10s 4GBeyond TV $1Smart TV (2020)smarttv_AFTMM-TCL-TS8011TS8011Fire TV 3-Series (2023)FHD Fire TV (2023)4K Fire TV (2023)4K Fire TV (2024)TD SystemsTD TechNAT-TN70N8 ProAVA-PA00TDT-MA01TECHNOSATX98miniX98 MiniTEENOTENPLUSTETCTIANYUTIMvisionTJCMetal Tablet 10TJDTOOGOTOPDONTOPSHOWSTORNADOTOSCIDOW109TOXTOX1TTECTTK-TVTTK Box 214SB-214TTfoneTT20TVCNuclear SX-SP5TWMAmazing $1SAmazing $1TWZ CorporationTabPlay $1OX_X1OX X1TYDTaiga SystemTaigaPhone 1TakaraTaliusTamboTanixTX$1sTX$1 MaxTX5 ProTX3 MiniTeachTouchTecToyON 128GBTechPadS813GTechPad10QC10QCTechPad_10xx10XX3Gx3G_163G-16XTAB $1M5 $1M6PlusM6 PlusNote 4 CamTech_Pad_Kaios_One_3GKaios One 3GTechmadeTechSmart $1TechniSatTechniPhone 5TechnopcUltraPad $1UltraPad UP10$1TechstormNit".
Definition d_dr_buf_139 : blob := "ro ProTechwoodTeclastTbook $1T10T2098P10SP20HDP40HDP80TP50CaseP50 CaseM50 MiniT50MiniT50 MiniApex P10HDP10HD_LiteApex P10HD LiteP30SP50AiT60AiM20_4GM20 4GM89 ProTLA002M30 4GTLA016M16M40AirM40 AirM40SEM40 SET$1 MaxT60PlusT60 PlusM$1 PlusM40ST40 ProT40 AirTLA001T40T40 PlusT$1HDM$1HDT50Pro_WT50 ProP80hArtPadProArt Pad ProP80XP30AirP30 AirTPad 98 10.1"" 4GX98 PowerX98 Air IIIX98 Air IITecno MobilePhantom6-PlusPhantom 6 PlusPhantom6SPhantom 6SPhantom $1Phantom X2Phantom X2 ProPhantom XPhantom V FoldPhantom V Fold 2Phantom V FlipPhantom V2 FlipPhantom 9Phantom 8TECNO WX3LTEWX3 LTETECNO-W3W3F4 ProCamon iCamon iTwinCamon iAir 2+Camon iAce 2Camon i2XCamon i2Camon iClick 2Camon iSkyCamon iSky 2Camon iSky 3DroidPad 7CDroidPad 7DDroidPad 7C ProDroidPad 7FDroidPad 7GDroidPad 10A ProDroidPad 10D 4GDroidPad 8DR7+Camon i4Camon C9Camon 11Camon 11 ProCamon 12Camon 12 ProCamon 12 AirCamon 15Camon 15 AirCamon 15 PremierCamon 15 ProCamon 16Camon 16 PremierCamon 16 ProCamon 16 SCamon 16 SECamon 17Camon 17 Pr".
Definition d_dr_buf_140 : blob := "oCamon 17PCamon 18 PremierCamon 18Camon 18PCamon 19Camon 19 NeoCamon 19 ProCamon 19 Pro 5GCamon 20 ProCamon 20Camon 20 Pro 5GCamon 20s Pro 5GCamon 20 Premier 5GCamon 30Camon 30 Premier 5GCamon 30 5GCamon 30 Pro 5GCamon 30S ProCamon 30SCamon 40Camon 40 ProCamon 40 Premier 5GCamon CMCamon XCamon X ProCamon CXCamon CX AirPop 1Pop 2Pop 2 MiniPop 2FPop 2SPop 2S ProPop 2 PlusPop 2 PowerPop 2X PlusPop 2X AirPop 2XPop 2 AirPop 3Pop 3 PlusPop 4Pop 4 ProPop 4 AirPop 4 LTEPop 5Pop 5XPop 5 GoPop 5CPop 5 LTEPop 5 ProPop 5PPop 6Pop 6 GoPop 6 ProPop 7Pop 7 ProPop 8Pop 9Pop 9 5GSA1s ProSpark Go (2022)Spark Go (2023)Spark Go (2024)Spark 20Spark 20CSpark 20 ProSpark 20 Pro 5GSpark 20 Pro+Spark 2 YouthSpark 3Spark 3 ProSpark 4Spark 4 AirSpark 4 LiteSpark 5 AirSpark 5Spark 5 ProSpark 6Spark 6 AirSpark 6 GoSpark 7Spark 7 ProSpark 7PSpark 7TSpark 8Spark 8CSpark 8PSpark 8TSpark 8 ProSpark 9 ProSpark 9Spark 9TSpark 10CSpark 10Spark 10 5GSpark 10 ProSpark GoSpark Go (2020)Spark Go 1SSpark 30CSpark 30Spark 30 P".
Definition d_dr_buf_141 : blob := "roSpark AirSpark PlusSpark YouthSpark CMDroidPad $1Pouvoir 2 ProPouvoir 2Pouvoir 1Pouvoir 3Pouvoir 3 AirPouvoir 3 PlusPouvoir 4Pouvoir 4 ProBoom J8R7 4GW3 ProWX3 ProTECNO S9PovaPova NeoPova Neo 2Pova Neo 3Pova Neo 5GPova 2Pova 3Pova 5GPova 4Pova 4 ProPova 5Pova 5 Pro 5GPova 6 Pro 5GPova 6Pova 6 NeoPova 6 Neo 5GL8 PlusMegaPad 11TeknosaPreo Teknosa P1Preo P1Preo P$1Tele2$1 1.1Midi 2.0TelefunkenTEL-1013GIQAGiqa 10.1"" 3GTEL-$1Foxtrot2Foxtrot 2LTE_LIMALima LTEDiamond_LTEDiamond LTELTE MikeMike LTETelegoTELEGO-W503W503Telego_JOY2Joy 2Wise2_plusWise 2 PlusTelenorTeliaNordicTV Box NordicTelia boxTelitTelkomTellyTY55_1TY55-1TelmaTelma_F1_Max_4GF1 Max 4GF1 Plus 4GF1x4GF1x 4GFeel_PlusFeelWi-Kif+ 3GWi-Kif+ 4GTelma_Wikif_Max_4GWi-Kif MaxTeloSystemsTELO_M5TelpoTPS$1TemigereevTG $1TeracubeTerraPad $1$2TescoHudl $1Op3n DottTetratabCasebook 3ThLKnight 2Box 1 ProBox 1ThomsonQM734-2QM734-8GQM735-8GQM736-8G (HD)3G 8950SPTEO10BK16TEO10BK16TEOX10-MT8SL128LTETEOX10TEO$1HERO10RKHero 10RKTlink$1Origin 679 ProO".
Definition d_dr_buf_142 : blob := "rigin 679Every$1Delight TH201Friendly_TH101Friendly TH101Serea 500ThurayaTiPhoneTiVoSTREAM 4KStream 4KTCD8F6000$2TibutaMasterPad $1TigersTIS001 S$1TIS001 T2TIS001$1Time2$1 10.1""TimoviTMOVI_YEAH_BEATYeah BeatYeahLIVEYeah LIVEInfinit X CamInfinit MX ProInfinit MXInfinit 2Infinit Lite$1Vision_PROVision ProVISION ULTRAVision UltraEpixYeah_GoYeah GoInsignia $1Insignia Delta $1TinaiTinmoTivaxTolinoTolino Tab $1ToneTookyTOOKYA9 PlusTop HouseCoto W418COTO_T117Coto T117X1013COTO_T40017T40017TopDeviceTDT4518_4GTDT4541_4GTDT3778_Wi_ETDT3887_Wi_DTDT4528_4G_ETopelotekKIDS$1 Kids TabletTopluxTopsionTP01TorexTOREX831BPad 831BDROIDZ $1DROIDZ Sky 3gDROIDZ Sky 3GDROIDZ ATOM SDROIDZ Atom SEGO $1EGO Phab 3GEGO Note 4GToshibaT-01CRegza T-01CT-01DRegza T-01DT-02DRegza T-02DIS04Regza IS04IS11TRegza IS11TAT7-CAT1S0Regza AT1S0AT300SERegza AT300SEAT500aRegza AT500aRegza AT$1Excite AT10$1-AAT10-AExcite AT10-ASATELLITE L50-CSatellite L50CSatellite $132WF2F53DB65UF3D63DAAFTKMST1243LF711U20AFTDCT314K UHD (2020)AFTB".
Definition d_dr_buf_143 : blob := "AMR31143LF421U19V35 Series (2021)TSBNetTV/Touch PlusTouchmateTM-MID870SBSuperMan 8""TM-MID1050WKDMega Matrix 10.1"" 3GTranspeedTR99 Mini PlusTrecfone17 Pro MaxTrekStorSurfTab 10.1ST13416-1SurfTab Theatre 13.4""Surftab theatre S11SurfTab Theatre S11PrimeTab P10SurfTab $1TFMTKAW01232SurfTab L15SurfTab Xintron I 10.1""TreviTAB $1 3G V8TAB 9 3G V8TAB 9 3GTAB 10 3G V16MINITAB 3GVMINITAB 3G VPhablet 4 CPhablet 4 SPhablet 4.5QPhablet 5 SPhablet 5.3 QPhablet 5.5 Q REVERSEPhablet 6 STriaPlayTricolorTridentTrifonePassion-1SPassion 1SPassion-PlusPassion PlusPassion_ProPassion ProTrimbleMobileMapperMobileMapper 60TrioV51DTTronsmartTrueAlpha 5GSmart Max 4.0 PlusSmart Champ 4.0Smart 4G Gen C $1""Smart 4G Speedy 5.0 PlusSMART 4G Adventure ProSmart 4G Adventure ProSMART 4G AdventureSmart 4G AdventureSmart 4G Max 5.5Smart 4G Speedy 5Smart 4G ChampionSmart 4G P1 PrimeSmart 4G P1Smart 4G M1 PlusSMART 4G M1Smart 4G M1SMART TAB 4G M1Smart Tab 4G M1SMART TAB 4G e-Biz PROSmart Tab 4G e-Biz ProSMART TAB 4G e-BizSm".
Definition d_dr_buf_144 : blob := "art Tab 4G e-BizTRUE BEYOND TAB 3GBeyond Tab 3GSmart Tab 7.0 QuadCoreHPH07ID TV HPH07True SlimTuCELTunisie TelecomStarTrail by TTX5 SpaceX5 HeroX RayX5 BlackX5 MaxX6 ZMonsterPad 7""Turbo-XTurbox_S3E3MercuryTurbo-X_epsilonEpsilonTurbo-X lamdaLamdaPi 4GTURBOX_I4GI 4GIceTurbo-X Coral IICoral IIAqua IIHive V 3GHive VIFire II WiFiBreeze IVRubik II 7""Rubik II 10.1""Rubik III 10.1""Rainbow III 3GCallTab II 10.1""Calltab2GB10CallTab 10.1""Calltab7inchCallTab 7""QUAD-CORE A33 inetTwisterTurboKidsMonsterpad 3GMonsterPad 3G3G NewTMNTTurboPadTurkcellTurbo T50T$10T21 Maxi Plus 5T21 Maxi Pro 5TuvioTwinMOSTymesTürk TelekomTurk TelekomTT175TürksatU-MagicEnjoy 30e 5GEnjoy 50 PlusU.S. CellularUSCC-USCC-E6762Kyocera DuraForceUDTV348 DVBTV348 ISDBTV358 DVBUGINEUMIDIGIMT01A11 TabMT07A13 TabMT06G3 TabG1 TabMT11G2 TabMT16G5 TabPA2310GBBA15TA11 Pro MaxMP17MP29C1 PlusMP07MP20MP21MP09MP19F3 Pro 5GMP13F3 5GMP18G1 MaxA11SA13SA15CG5 MechaPG2309GBAG6 5GG5AG3 MaxG3 PlusUMI TOUCH XTouch XUMI TOUCHPlus EOne ProBISON GTBis".
Definition d_dr_buf_145 : blob := "on GTPR4JBX20ABison X20Bison X10GBison N1Bison X10Bison GT2 5GBison GT2Bison 2BISON ProBison ProBISONBisonhammer_SHammer SDiamond_XDiamond XC NOTE 2C Note 2SuperZ ProS2 LITES2 LiteS2_PROPower 3Power 5SA13 Pro 5GA13 Pro Max 5GPower 7 MaxUNIWAUNNOUOOGOUUTOKDorel 3SDorel $1Hello 7QUTStarcomUTimeUZ MobileUzbekistanUgoosUT3 PlusTOX3_PlusTOX3 PlusUhansUhappyUP$1UP350UP580U580UlefoneBe Touch$1Be Pure LiteBe PureBe One LiteBe OneBe XBe ProU$1 ProP6000_PlusParis_liteParis LiteParis_XParis XRugKing 4 ProRugKingParisTiger_liteTiger LitePower Armor $1 ProPower Armor X11 ProPower Armor $1Armor 6SArmor 20WTArmor $1EArmor X$1 ProArmor X$1Armor $1SArmor XArmor 3WArmor 3WTArmor $1 5GArmor $1 ProArmor Pad$1Armor$1Gemini ProViennaNote $1PTab A11 ProUmaxVisionBook $1VisionBook $1Qa 3GVisionBook 10Q LTEVisionBook $1C LTE10L-PLUSVisionBook 10L PlusVisionBook 10Q ProVisionBook 10A LTEVisionBook 10Q PlusVisionBook P50 Plus LTEUmiioP60_Ultra_5GP60 Ultra 5GUnblock TechS900PROBTS900 Pro BTS900_ProS900 ProUnidenU".
Definition d_dr_buf_146 : blob := "nihertzJelly 2Jelly 2EJelly StarJelly MaxTitan_pocketTitan PocketTitan SlimTicktock-STicktock SUNIA62_S01Ticktock ETicktockTANK 01Tank 01TANK 2 PROTank 2 ProOB-A98Tank 4 ProTANK MINI 1Tank Mini 18849 Tank $1Tank Pad $1Unikalne SmartphonesBASE $1UnimaxUMX U$1UniqcellA4UniscopeUnistrongUnitechEA500 PlusUnited GroupSDOTT0202EON Smart Box (2019-2020)SDSTB02EON Smart Box (2023)UnknownWeb TVM10 UltraM8S+ 4KH10 Playi12 Pro MaxAudi KSWayDroid x86_64 DeviceUnnectoU513Drone XTU5151U611Quattro XU613Quattro SU615Quattro MU616U710Quattro U710U720Quattro ZU-830RushU903U905Air 5.5Unnion TechnologiesSP7UnoPhonePremier5MaxPremier 5 MaxUnonuUnowhyQOOQ V$1QOOQUrovoV-GenV-HOMEV-HOPEVAIOVPA051Phone AVALEV$1E LTEVALEMPHANTOM_ZPhantom ZVALTECHTAB7Q804VALTAB-7Q804VALVANWINVASOUNVAVAVCCactus-ProCactus Pro$1 IIVDVDVEONVETASVGO TELVenture V$1New $1Flex 2i_Smarti SmartV TAB 2V Tab 2VIDAVIIPOOvi20220819R6VIKUSHAVILLAONV6751LV30 RSV651WV40V651LV40sV501WV20 SEVIMOQA49 PlayVIVIBrightVIVIMAGEVIWALIGHT MINILight MiniLI".
Definition d_dr_buf_147 : blob := "GHT PLUSLight PlusLIGHT ONELight OneLight A5 PlusPOWER P1Power P1VK MobileVK$1VKworldT5 SEVNPT TechnologyVNT-Tab8VOCALVOGAVOGA 55909VVOIXVOLIAVOLKANOVUCATIMESVucaPadVVETIMEV1VankyoMatrixPad S$1MatrixPad $1QTab $1S10_ROWMatrixPad S10VargoVastkingKingPad $1 $2VeidooVEIDOOVektaVensoIsprit U50VenstarVenturerChallenger Pro 10.1""Mariner 10 ProVCT$1VericoUni Pad $1Uni Pad PM-$1VerizonEllipsis 10QTASUN1Ellipsis 8 HDQTASUN2Ellipsis 8 HD 4G LTEQTAQZ3KIDEllipsis Kids LTEQTAQZ3Ellipsis 8Ellipsis 7WTVIS01Visible MidnightVerneeApollo LiteApollo XApolloMars ProThor EThor PlusVernee_M5M7_EEAX2_euroVerssedMotion E1.1VersusVertexLuck L $1 $2GImpress MaxImpress EclipsePro P$1 4GImpress Luck 4G NFCImpress Lion $1$1 $2GTab X$1Tab $1G $2.$3""VertuAster$1VTL-202402Quantum FlipVTL-202101iVertu 5GVTL-202201Metavertu 5GVTL-202301Metavertu 2 5GConstellation XVerykoolverykoolLotusLotus JrLotus PlusSpark IISpark LTELotus IIMaverick ProEclipsePhantomHelix IIAlpha ProMaverick IIMaverick IIIMaverick III JrMaverick JrM".
Definition d_dr_buf_148 : blob := "averick LTESpearSpear JrApollo QuattroSol Quatro JrCyprus ProCyprus LTELeo 3GLeo IVLeo VDoradoOrion ProCosmo JrCosmoRoyale QuattroKolorPad LTEKolorPad IIKolorPad IVVestaVESTA32LD86SmartTV 32LD86SVESTA_SMART_TVSmartTVVestelVT97PROVTab 9.7 ProVP74VTab Lite IIVTAB10VTab 10V_TAB_7_ECO_IIIVTab 7 Eco 3V_TAB_7_LITE_IIIVTab 7 Lite 3VTab $1V3_5580_DualVenus V3 5580 DualVSP145MVenus 4.5VSP250GVenus 5.0VVSP250SVenus 5.0XVSP355GVenus 5.5VVSP355SVenus 5.5XVenus V$1$2Venus Z$1Venus E2 Plus DualVenus E2 PlusVenus E$1Vestel_5000_Dual5000 DualVestel_5000_2gb5000 2GB5530 DualVexiaVexia FCS E2 CLMElegance E2 CLMViBoxVicturioTouchPad $1VideoconVideocon_V1585V1585VT75CKryton 3KrytonKryton 22 PlusDelite 11Delite 21Metal Pro 2Metal Pro 1Starr 100Ultra 50Infinium Z45 $1Infinium Z45Q StarInfinium Z50 NovaViendoViewSonicV500A8 PlusViewPhone $1vsi7q_1ViewPad i7QViewPad $1ViewBoard IFP$150-3 $1"" 4KVinaboxX$1 ($2)VingaVMP-021-82021VMP-025-324025VMP-015-162015VMP-041-162041VMP-045-664045VMP-011-81011VMP-046-6640460".
Definition d_dr_buf_149 : blob := "23VinsocViosVMP0617VI65PB1401NA65PB1VTAB7ViproPro 2XEdge 2VirzoV$1cVision TechnologyXS100 MiniVision TouchVisionTouchLifeLifeInspireVisual LandPrestige Prime 10$1Elite10QHProPrestige Elite 10QH ProPrestige Elite $1VitelcomVitumiKids TV46410B01 10.1""VityazViumee$1 Elite$1 PlayEV5 XEV7VivaxFly 5 LiteFly 4Smart Fly V500Point X$1Fun S500Fun S$1Fly $1Fly V$1Smart Point X5010TPC-$1 $2GVivoPA2170PA2373PA2473PA2455Pad 3PA2353PA2511Pad SEiPA2375iQOO PadiPA2451iQOO Pad AiriPA2475iQOO Pad2 ProiPA2453iQOO Pad2PA2573Pad 5 ProX NoteV2256AX FlipV2178AX FoldV2266AX Fold 2X Fold 3V2330X Fold 3 ProV2229AX Fold+V2318AV2506AY500V2516AY500 ProV2506Y400 5GV2455Y400V2439Y400 Pro 5GX100 ProX100 UltraX100V2502AX300 ProX200 UltraV2503X200 FEX200 ProV2419AX200 Pro MiniX200V2458AX200sV2324HAX100s ProV2359AX100sY200 5GV2361GAY200 GTV2354AY200iY200e 5GV2353DAY200t 5GiQOOiQOO 3iQOO 9iQOO 9 SEiQOO 9 ProiQOO 9TV2218AiQOO 10 ProV2217AiQOO 10iQOO 11V2304AiQOO 11SV2254AiQOO 11 ProiQOO 12V2329AiQOO 12 ProiQOO 13V2505AiQOO".
Definition d_dr_buf_150 : blob := " 15iQOO 3 5GiQOO U5V2180GAiQOO U5xiQOO 7 LegendiQOO 7 IndiaiQOO 7iQOO Neo 10I2221iQOO Neo 10RV2425Y200V2426AiQOO Neo 10 ProV2463AiQOO Neo 10 Pro+V2196AiQOO Neo 6iQOO Neo 7V2232AiQOO Neo 7 Racing EditionI2217iQOO Neo 7 ProV2238AiQOO Neo 7 SEV2302AiQOO Neo 8 ProiQOO Neo 9 ProV2338AiQOO Neo 9V2339FAiQOO Neo 9S ProV2403AiQOO Neo 9S Pro+V2157AiQOO Neo 5 SEiQOO Neo 5SiQOO 7 5GiQOO ProiQOO Pro 5GiQOO NeoiQOO Neo 3iQOO Neo 855V2301AiQOO Neo 8iQOO Neo 5 LiteiQOO Neo 5iQOO Neo 6 SEiQOO Z1iQOO Z1xiQOO Z1x 5GV2445AiQOO Z10xI2404iQOO Z10x 5GiQOO Z10R 5GI2407iQOO Z10 5GV2452AiQOO Z10 TurboV2507AiQOO Z10 Turbo+I2502iQOO Z10 LiteI2409iQOO Z10 Lite 5GV2453AiQOO Z10 Turbo ProiQOO Z3Z5x 712iQOO Z5xV2131AiQOO Z5x 5GiQOO Z5 5GiQOO Z5iQOO Z6V2164KAiQOO Z6xiQOO Z6 ProiQOO Z6 LiteV2270AiQOO Z7V2230EAiQOO Z7iiQOO Z7 5GiQOO Z7 Pro 5GV2272AiQOO Z7xiQOO Z7x 5GiQOO Z7s 5GV2314AiQOO Z8V2312AiQOO Z8xV2361AiQOO Z9iQOO Z9 5GV2352GAiQOO Z9 Turbo EnduranceV2352AiQOO Z9 TurboV2417AiQOO Z9 Turbo+iQOO Z9x 5GI2403iQOO Z9s 5".
Definition d_dr_buf_151 : blob := "GI2305iQOO Z9s Pro 5GI2306iQOO Z9 Lite 5GiQOO U1iQOO U1xiQOO U3V2143AiQOO U3xiQOO U3x 5GiQOO 5 ProiQOO 5iQOO 8 ProiQOO 8V30eV40 SE 5GV21V21 5GV21eV21e 5GV20 (2021)U20U10NexNex 3Nex 3 5GNex 3SNex SNex 3S 5GNex ANex Dual DisplayV2334AS18eV2312BAY100i 5GT1 5GV2151T1 Pro 5GV2153T1 4GV2143T1xV2188AT2xT2x 5GV2222T2 5GV2321T2 Pro 5GV2240V2426T3 UltraV2404T3 Pro 5GV2334T3 5GT3 Lite 5GT3x 5GV2437T4x 5GV2518T4R 5GV2510T4 ProV2502T4 5GV2509T4 Lite 5GV1962BAG1 5GS15V2344AS18 ProV2362AS19 ProV2323AS18V2364AS19V2121AV2429AV2430AS20 ProV2464AV2465AS30 Pro MiniY04V2531Y04sV2130AS10e 5GV23eV2126V23e 5GV2130V23 5GV2132AX70tV2132V23 Pro 5GV2202V25 SEV25eV2230AY35 5GV2357EAY37mY39 5GV2230V27 ProV2237V27eV27V2250V29V2251V29 ProV2303V29eV2317AY12 (2023)V2317V29e 5GV2315Y28 5GV2351Y28s 5GV2407Y28e 5GY28Y29V2420Y29 5GV2527Y29t 5GV2446Y29s 5GV29 Lite 5GV2342V30 LiteV2327AY36tY38 5GV30 Lite 5GY100V40 LiteV2348V2347V40eV50V2428V50eV50 LiteV50 Lite 5GV2319V2513V60eV2511V2530V60 LiteV2529V60 Lite 5GV2207AS15 ProS6".
Definition d_dr_buf_152 : blob := " 5GS12 5GV2190AS15eV2244AS16V2245AS16 ProV2239AS16eV2283AV2282AS17tV2285AS17eV2284AS17 ProS7eS7tS7t 5GS9 (2021)S9eU3XV11 ProV11iV15V15 ProV17 ProV17 NeoV17V19V5V5 LiteV5 PlusV5sV77eV7 PlusV9V9 YouthV9 ProV3 MaxX9s PlusX9sX90X90 ProV2241HAX90sX5 ProX20 Plus UDX20 PlusX21iX21 UDX21X21SX23X27X27 ProX30X30 ProX50eX50 LiteX50 Pro PlusX60tX60 Pro PlusX70 ProX70 Pro+X70 5GX80V2242AV2227AX90 Pro+X80 ProX80 Lite 5GX Play 6Y1sY17Y17sY18Y18sV2350Y18eV2414Y18iV2408Y18tY16V2140AY10V2168AY10 T1V2313AY100 5GV2168V2118Y01Y01AY02sY02tY02Y02AY03Y03tY12V2163AY12 ProY12aY12iY15V2134Y15aY15sY15cY19V2432Y19 5GY19sY19s ProV2431Y19eY20iY20Y22V2249Y27V2322Y27sV2302Y27 5GY22sY20 (2021)Y20AY20GY20TY20G (2021)Y11sY20sV2279AY100iV2278AY78V2271AY78+Y72 5GV2009AY74s 5GV2102AY72T 5GV2117Y75V2219AY77V2169Y77 5GV2110Y21sV2520Y21dY21GY21Y21aY21eY21tY3V2044Y3sV1930AY3 StandardV2445EAY300+V2435AY300V2416Y300 5GV2410AY300 Pro 5GV2456AY300 Pro+V2444AY300iV2422Y300 Plus 5GY30Y30 5GY30 (2021)Y30gY31V2534Y31 Pro 5GY31sV2521Y31".
Definition d_dr_buf_153 : blob := " 5GV2158AV2158V25 ProV2180AY32tY33Y33sY33tY33s (2022)Y35Y36Y36 5GY37 5GY5sY50tY51Y51 PKY51 (2015)Y51sY51AY52sY52Y53iY53Y53sV2069AY53s T1Y55lY55sY55s (2021)V2164PAY73t 5GV2127Y55 5GV2154Y55V2045AY54sY56 5GV2355Y58 5GY65Y69Y70sY71Y71tY71iY73Y73 (2021)Y73sY76 5GY76sY7sY81Y81iY81sY83Y83 ProY89Y90Y91Y91iY9sY12sY12s (2021)Y93Y93sY95Y97Z1Z1 ProZ1iZ1xZ3xZ5xZ5x (2020)Y75 5GY75sX ShotX6S PlusX6SY66iX Play $1SX Play $1VizioVAP430ISV-B11D50u-D1VizmoTAB $1 7""TAB $1 10.1""VodacomKicka 5 Plus 4GVodafoneVFD 100Smart MiniVodafone Pro 4GPro 4GVFD720Smart N9VF685Smart KickaVF695Smart First 6VFD 200Smart First 7VFD 300Smart Mini 7VFD 301Smart Mini 7 DualSmart Turbo 7Smart E8Smart E9VFD 822Smart X9VFD 600Smart Prime 7VFD320Smart C9VFD 820VFD 610Smart N8VFD 630Smart N10VFD 620Smart N9 LiteSmart ultra 6Smart Ultra 6VFD 700Smart Ultra 7VFD 710Smart V8VFD 720VFD 730Smart V10SmartV22Smart V22VFD 900Smart Platinum 7Smart 4 MiniSmart 4GSmart 4 TurboSmart 4 PowerVodafoneSmartChatSmart ChatVF-696Smart Grand 6VF-795S".
Definition d_dr_buf_154 : blob := "mart Speed 6VF-895NSmart Prime 6VF-1397Tab Speed 6VF-1497Tab Prime 6VFD 1100Tab Mini 7VFD 1300Smart Tab N8VFD 1400Tab Prime 7Smart Tab 3GSmart Tab 4GSmart Tab 4Smart Tab 10Smart Tab II 7Smart Tab II 10Smart Tab III 7Smart Tab III 10GigaTVGiga TVVFD $1VollaVolla PhoneVoninoZun $1Xylo $1Volt S A7Volt SVolt XGyga QSGyga XSGyga $1Jax QSJax S A7Jax $1Jax MiniiMart_ProIMart ProPluri M$1 (2020)Pluri $17Pluri $18Druid $1Magnet M10 (2020)Magnet $1 ProMagnet $1Navo $1Orin_QSOrin QSSirius_QSSirius QSSpirit QSXavy $1MusicPAD $1VontarDQ08HK1 MaxKK MaxHK1 Mini PlusHK1 MiniHK1 PlusHK1 ProVoragoCELL-500VorcomSXPRO_classicSX Pro ClassicSXProSX ProS7-classicS7 ClassicQuartzLITEQuartz LiteQuartzPROQuartz ProULTRAPADUltra PadVorkeVormorZG65 ProHD65 ChoiceHD65 UltraHD65 SelectHD65 PlusT10M_ProT10M ProZTAB10Z Tab 10BTAB10B Tab 10VotoVoxtelVoyoi8 MaxVsmartJoy $1 PlusJoy $1Active 1 PlusBee 3Bee LiteStar $1Active $1HobsonAris ProArisVsunIllusionMars TouchMERCURY ToughMercury TouchMARS NOTEMars NoteMARS NOCAMMa".
Definition d_dr_buf_155 : blob := "rs NocamAqua ToughSaturn SelfieVue MicroTempo S13Tempo S11VölfenNexo TAB7W&OWO Pad MaxWO Pad $1WO$1 UltraWO Pad ProWO$1X9 CALL2X9 Call 2WAFWANSAWEWIWADream Player TVWOZIFANWSWainyokWalkerWaltonPrimo Walpad $1Primo S6 infinityPrimo S6 InfinityPrimo S8 miniPrimo S8 MiniPrimo H8 ProPrimo $1 MiniPrimo H8 TurboRX7 MiniOrbit Y$1Orbit M$1XANON X20Xanon X20XANON X90Xanon X90NEXG N71 PlusNexg N71 PlusNexg N$1WALTON GSMART 2KTVPrimo $1 PlusWaltterNeo 10.1""WeChipWebfleetPro 8475WecoolWeelikeitWeiimi20200808A1X16 ProWeimeiweplus_3WePlus 3WEIMEI_NEON2Neon 2WellcoMWestern DigitalStreamer2010Streamer (2010)WestonWestpointWexlerZEN 4.5ZEN 4.7ZEN 5ZEN 5 PlusTAB 10QTAB 10iQ 3GWhoopWieppoWigorWikoSHR-AN00Hi Enjoy 80 Pro 5GJLG-AN00Hi Enjoy 80S 5GGAR-AN60Hi Enjoy 60s 5GGAR-AN00Hi Enjoy 60 5GBAL-AN20Hi Enjoy 70 Pro 5GAix-AN00MKY-AN20Hi Enjoy 70M 5GT3VoixPower U10Power U20Power U30Cink Peax 2Cink$1Cink $1Highway PureHighway StarHighway$1Highway $1IggyFeverStairwayRidge Fab 4GRidge 4GRidgeRAINBOW LITERainbow".
Definition d_dr_buf_156 : blob := " LiteRainbow $1DarksideDarkmoonDarkfullDarknightSublimOzzyBarryBirdyBloom 2BloomJimmyJERRY MAXJerry MaxW_K300Jerry 3W-K420-TVMJerry 4Jerry 2JerryGetawayKennyGoaFreddyKiteW_K400Lenny 5Life 3Lenny 3 MaxLenny 4 PlusLenny $1LennySlide 2SlideSunset 2SunsetSunny 3 MiniSunny 3W-K200Sunny 3 PlusSunny 2 PlusSunny 2W-K360-TVSunny 4 PlusW-K130-TMVSunny 4W-K380-TVMSunny 5Sunny 5 LiteTommy 3Tommy 2 PlusTommy 2TommyWaxHarryW-V600Harry 2WIM LiteWIMPulp Fab 4GPulp FabPulp 4GPulpRobby$1U Pulse LiteU PulseU Feel LiteU Feel PrimeU FeelV3991ANU Feel FabView 2 GoView 2 PlusView XLView PrimeWC300View Litev12fnliteViewW_C800W_C860View 2 ProW_P200View GoView 3 LiteW-V851W-V850-EEAView 5 PlusW-K420-EEAW-K211W-K521Y60Y61Y62 PlusW-K610Y62Y80W-V680W-K630Y82View 3 ProView 4 LiteW-V745-TVMRideRide 2Ride 3K-KoolWildRedWileyfoxSpark +Wileyfox Spark XSpark XSwift 2 $1Swift 2cracklingWindsNOTE GRACE VNote Grace VWinkSWITRON-i12ASwitron i12AWinkBox MiniBox MiniWinmaxPolarH4Polar H4Tiger_X12Tiger X12WinnovoT10 LTEH$1Wins".
Definition d_dr_buf_157 : blob := "tarWintouchQ93SWiseasyWizarPosWolderWiam #65 LiteWiam #$1miSmart $1miTab PRO 10 PLUSmiTab $1WolfgangAT-AS$1WolkiWS054W5.5 LiteW55SEW5.5 SEWS626W6.26W626 LITEW6.26 LiteWS5SEW5 SEWS067W6 ProWonuWooSP5026i-ScorpioScorpioSP5040-CasiopeaCasiopea IIWoxterNimbus $1i-101Zielo $1X-AGEG1 LiteX-BOX-MobileX63ProX63 ProXM-SW1Smart WiFiX-TIGIX-TIGI_JOY10_PROJoy 10 ProX-TIGI_JOY10Joy 10Joy 7 TVJoy $1 MateHope $1 $2Hope 8 LTEHope 10 ProHope 10 PlusX-TIGI_JOY7_MAXJoy 7 MaxJOY10_LTEJoy 10 LTEBison1Bison 1V28 LTEV18 pro_AV18 ProA1 PlusPhoto P11Photo_P15_LitePhoto P15 LiteSharp $1X-ViewZEN U5+AMBER_KIDSAmber KidsProton_Amber_HDProton Amber HDProton_NeonProton NeonPROTON_JADE_2_PROProton Jade 2 ProX-ViewTabletTitaniumGTColorsGOTitanium GT Colors GOX88X88pro10Pro 10X96Air $1X96Max_Plus_UltraMax Plus UltraMax Plus $1X96Max_PlusMax PlusX96_X6_IX6iX96MATE_PLUSMate PlusX96MINI_11Mini 11X96QXBXCOMiSmartXElectronXGEMXGIMIXK03HHorizon ProMoGo ProXPPenMagic Drawing PadXREALX4000Beam ProXY AutoXcellXcruiserXgodyXGT_".
Definition d_dr_buf_158 : blob := "EEAXGTN01ProN01 ProN02XiaoduXiaolajiaoRed Pepper Note 3Red Pepper PlusE SportsRed Pepper 8X ProRed Pepper 9XMate 30 MaxXiaomiBlack SharkAWM-A0Black Shark HeloBlack Shark 2Black Shark 2 ProBlack Shark 3Black Shark 4 ProBlack Shark 3 5GBlack Shark 3 Pro 5GBlack Shark 3 ProBlack Shark 4Black Shark 5Black Shark 5 ProBlack Shark $1Hongmi 4GHongmi 1SHongmiHongmi 2 3GHongmi 2Hongmi 2 4GHongmi $1Mi PlayMi 9 SEMi 9 LiteMi 9Mi CC 9eMI CC9 Pro Premium EditionMi CC 9 Pro Premium EditionMi CC 9 ProMi CC 9Mi 10Mi 10 ProMi 1111i HyperCharge 5GMi 11XMi 11X ProMi 10T Pro 5GMi 10T Lite 5GMi 10T 5GMi 10 Ultra 5GMi 10SMi 10 Lite 5GMi 10iMi 11iMi 11T ProMi 11TMi 11 Lite 5G NEMi 11 Lite 5GMi 11 LiteMi 11 UltraMi 11 ProRedmi Note 12 Pro 4G12T12 Pro Dimensity12T Pro12S Pro12S12S Ultra12 Lite12X13 Lite13 Ultra13T Pro1414 UltraXiaomi 14 Pro Ti14 Pro Ti14 CiviMix Flip14T Pro14T1525042PN24C15S Pro2506BPN68G15T Pro25069PTEBG15 Ultra25098PN5AC17 Pro25113PN0EC172509FPN0BCMi 8 LiteMi 8 Explorer EditionMi 8 $1Mi 8Mi 9".
Definition d_dr_buf_159 : blob := "T ProMi 9 Pro 5GMi 9 Transparent EditionMi $1 LiteMi 5s PlusMi 5XMi 3Mi $1CMi 4WMi 4iMi 4 LTEMi Max3ProMi Max 3 ProMi Max $1Mi MaxMi Max 2Mi A2 LiteMi A3Mi Mix 4Mi Mix 2Mi Mix 2SMi Mix 3 5GMi Mix $1Mi Mix 2S ArtMi MixMix Fold 4Mi Note 3Pocophone F1Redmi GoRedmi Turbo 324129RT7CCRedmi Turbo 425053RT47CRedmi Turbo 4 ProRedmi 5 PlusRedmi 5Redmi 2Redmi 2 ProRedmi 2ARedmi 1SRedmi 1Redmi 8ARedmi 8Redmi 8A $1Redmi 10XRedmi 10CRedmi 13CRedmi 132406ERN9CIRedmi 13 5GRedmi 13C 5GRedmi 14C2411DRN47IRedmi 14C 5G2411DRN47CRedmi 14R 5GRedmi 15CRedmi 152508CRN2BERedmi 15C 5GRedmi 9Redmi 9 PrimeRedmi 9 PowerRedmi 9ARedmi 9iRedmi 9i SportRedmi 9CRedmi 9ATRedmi 9TRedmi 9T NFCRedmi 9C NFCRedmi 10 5GRedmi 10Redmi 10 PowerRedmi 10ARedmi 10 (2022)Redmi 10 Prime+ 5GRedmi 10 Prime (2022)Redmi 10 PrimeRedmi 10X Pro22120RN86CRedmi 11ARedmi 12CRedmi 12Redmi 12 5GRedmi 11 PrimeRedmi K20 Pro Premium EditionRedmi K20 ProM1903F10IRedmi K20Redmi K30 Pro Zoom EditionRedmi K30 Pro ZoomRedmi K30S UltraRedmi K$1 ProRedmi ".
Definition d_dr_buf_160 : blob := "K30 5GRedmi K30 4GRedmi K30i 5GRedmi K40Redmi K40SRedmi K40 GamingRedmi K40 Pro+Redmi K40 ProRedmi K30 Ultra22041211ACRedmi K50Redmi K50 Mercedes-AMG F1 Team22041216IRedmi K50i21121210CRedmi K50GRedmi K50 ProRedmi K50 Ultra22122RK93CRedmi K60ERedmi K60 ProRedmi K60 Ultra23117RK66CRedmi K70 Pro2311DRK48CRedmi K70E23113RKC6CRedmi K702407FRK8ECRedmi K70 UltraRedmi K80 Pro25060RK16CRedmi K80 UltraRedmi Y1 LiteRedmi Y3Redmi 6 Pro ExtremeXiaomi_M1805D1STRedmi 6 ProRedmi 7Redmi 7ARedmi $1 ProRedmi 4 PrimeRedmi A1+Redmi A1Redmi A2Redmi A2+Redmi 3Redmi A3x2312CRNCCLRedmi A32409BRN2CGRedmi A3 Pro24116RNC1IRedmi A4 5GRedmi A5QIN3ULTRAQin 3 UltraQin 2 ProQin 2CC11CiviCivi 223046PNC9CCivi 324053PY09CCivi 4 Pro25067PYE3CCivi 5 ProCivi 1SMi Pad 5 ProMi Pad 5Mi Pad 5 Pro 5GPad 6 ProPad 7 ProPad 7Pad 6Pad 6 Max 14Pad 6S Pro 12.4""Mi Pad 4 PlusMi Pad 4 WiFiMi Pad 4Mi Pad 3Mi Pad 2Mi PadRedmi PadRedmi Pad ProRedmi Pad SE 8.7""Redmi Pad SERedmi Pad Pro 5GRedmi Pad 2 4GRedmi Pad 225099RP13GRedmi Pad 2 Pro250".
Definition d_dr_buf_161 : blob := "9BRP2DGRedmi Pad 2 Pro 5GMiProjA1Mi Laser Projector 150""MiProjM05Mi Smart Compact ProjectorFengMi Projector A2Mi Box 3 ProMi Box $1Mi Box 1SMiTV 4SMiTV Q1MiTV StickMiTV Stick 4KMiTV P1MiTV R1MiTV A ProMiTV 4AMiTV 4A ProMiTV $1TV Box S (2nd Gen)Redmi Smart Fire TV 4KMi Mix FoldMix Fold 2Mix Fold 3Redmi NoteHongmi Note 1TDRedmi Note 4GRedmi Note 2kenzoRedmi Note 3Redmi Note 5A PrimeRedmi Note 5A LiteRedmi Note 9Redmi Note 9SRedmi Note 10XRedmi Note 10SRedmi Note 9T 5GRedmi Note 9 5GRedmi Note 9 Pro 5GRedmi Note 9 ProRedmi Note 10 LiteRedmi Note 9 Pro MaxRedmi Note 10Redmi Note 10TRedmi Note 10 5GRedmi Note 10T 5GRedmi Note 10 JERedmi Note 10 ProRedmi Note 12 DiscoveryRedmi Note 12 ProRedmi Note 12Redmi Note 12 Pro SpeedRedmi Note 12SRedmi Note 12R ProRedmi Note 12RRedmi Note 12TRedmi Note 12T ProRedmi Note 12 Pro DERedmi Note 12 Pro+ 5GRedmi Note 12 Pro+Redmi Note 11 ProRedmi Note 13 Pro2406ERN9CCRedmi Note 13RRedmi Note 13R ProRedmi Note 13 Pro 5GRedmi Note 13Redmi Note 13 Pro+Redmi Not".
Definition d_dr_buf_162 : blob := "e 14 Pro+Redmi Note 14 ProRedmi Note 14 Pro 5GRedmi Note 14 5GRedmi Note 142502FRA65GRedmi Note 14S25104RADACRedmi Note 15 Pro+25080RABDCRedmi Note 15 ProRedmi Note 13 Pro+ 5GRedmi Note 13 5GRedmi Note 11E ProRedmi Note 11ERedmi Note 11T ProRedmi Note 11T Pro+Redmi Note 11 Pro 5GRedmi Note 11 Pro+ 5GRedmi Note 11 Pro+Redmi Note 11 5GRedmi Note 11R 5GRedmi Note 11 4GRedmi Note 11 SERedmi Note 11SRedmi Note 11S 5GRedmi Note 11T 5G23013RK75CRedmi Note 12 Pro 5GRedmi Note 8Redmi Note 8 (2021)Redmi Note 8 ProRedmi Note 8TRedmi Note 7SRedmi Note 7 ProRedmi Note 7Redmi Note $1 Pro MaxRedmi Note $1 ProRedmi Note $1Redmi $1MI_NOTE_ProMi Note ProMi Note 10 ProMi Note 10 LiteMi Note 10Mi Note $1Qin 1s+Mi One PlusMi One $1Mi $1HM $1XionCE$1XoloBlack 1XEra 1X ProEra $1XEra 4X 2GBEra 2VEra $1Cube 5.0XoroTelePad $1 A3 4GTelePad $1MegaPad 3204 V5HMT $1HST 260XshitouXsmartCORE_XCore XXtouchXBot $1XP10_WifiXP10 WiFiXtratechXM14GIguanaPad XM14GX10MT16X10MT87IguanaPad 10.1""XwavexPad $1YASINYASIN $1K G Sma".
Definition d_dr_buf_163 : blob := "rt TVYELLYOUTHYEPENM20201419X12 Pro MaxYIKEMIPad 6 PlusYOTOPTYU FlyYUHOYUHO_Vast_PlusVast PlusYUHO_Y1_ACEY1 AceYUHO_Y1_StarSY1 Star SYUHO_Y1_STARY1 StarYUHO_O1_LITEO1 LiteYUMKEMU320YUNDOOYandexYandexModule2-00001ModuleYNDX-$1YNDX-000SBSmartSpeak Duo Maxyandexstation_2Station 2YarvikLuna TAB07-920NLuna 7Luna 7cLuna TAB274Luna TAB474Luna 10Luna TAB10-150Luna 10cTAB09-410Noble 9.7TAB10-410Noble 10.1TAB07-485Noble MiniXenta 7cTAB07-200Xenta 7icTAB08-200Xenta 8icTAB08-201-3GXenta 8cTAB9-200Xenta 9.7icTAB09-211Xenta 9.7ic+Xenta 10icTAB13-201Xenta 13cYesM631YAltitudeM651G_MYAltitude 2M685Y4Altitude 3YestelYezzAndy $1Yezz-AC4EIAndy 4EIART1_PROArt 1 ProART1Art 1ART2PROArt 2 ProART 3SArt 3SEPIC TEpic TGO $1LIV1LIV 3S LTELIV $1SLIV 3 LTELIV2 LTEMAX_1_PLUSMax 1 PlusMAX2 PLUSMax 2 PlusAndy $1 $2Andy $1.$2 $3Yoka TVKB2 ProYoozYotaPhone 3 PlusYouinYou-BoxYouweiMini 5Gyouwei boxBox X1YtoneYuYuphoriaYU5011Yunique 2YU5050YutopiaAO5510YurekaYU5200Yureka SYU5551Yureka 2Yureka PlusYU4711YuniqueYU5014YU 600".
Definition d_dr_buf_164 : blob := "0Yureka NoteYuandaoYunSongYS$1 ProULX-$1-T9ULX-$1YusunLA2-TYxtelZ-KaiZALAZH&KOdyssey J10 MiniOdyssey $1Odyssey AeonOdyssey AceOdyssey UltraOdyssey NextOdyssey PerriOdyssey FlameOdyssey EvoOdyssey VictoryOdyssey SwiftOdyssey TytanOdyssey SagaOdyssey SacredOdyssey PopoOdyssey RangeOdyssey Glaze PlusOdyssey GlazeOdyssey HighOdyssey SoarOdyssey EraINTENSE RISEIntense RiseINTENSE HypeIntense HypeINTENSE GAMEIntense GameZIFFLERZIFROZIKZIOVOZTE5G UG Phone U235G UG Phone U25Optus X (2021)Optus X Pro (2021)Voyage 10Voyage 20 ProVoyage 40 Pro+Voyage 30SS30 Pro 5GLibero 2Libero 3Libero 5GLibero 5G IILibero 5G IIILibero 5G IVLibero S10Anshin FamilyFresh 50Blade AF3Blade A3Blade A3 (2019)Blade A3 PlusBlade A$1 PlusBlade A7s (2020)Blade A7 (2020)Blade A7p (2020)Blade A71ZTE 7060Blade A73Z2359Blade A75N939ScBlade A711Blade A3v7540NBlade A72 5GBlade A7 VitaBlade A7Blade 10 VitaBlade 11 PrimeBlade 20 SmartAxon 7Axon 9 ProAxon 10 Pro 5GAxon 10s Pro 5GAxon 11 5GAxon 11Axon 11 SE 5GA2322GAxon 30 5GAxon 30".
Definition d_dr_buf_165 : blob := "A2022HAxon 31 Pro 5GA2022PGAxon 30 UltraA2022PAxon 30 Pro 5GA2022Axon 30 ProA2023HAxon A41 Ultra 5GA2023PAxon 40 UltraAxon 40 ProAxon 40 SEA2016Axon EliteZ2356Axon 60A2025HAxon 60 Ultra 5GZ2350Axon 60 LiteA2024HAxon 50 Ultra 5GBlade EgAllstarQuest PlusQuest 5Ctyon A9V5GV5SV5 MaxImperialImperial MaxAvidAvid 579Avid 589Prestige 2Tempo XWarp 4GVisible R2Blade ForceBlade T2Blade Q+Blade Q LuxBlade GF3Warp SyncWarp 7Boost MaxBoost Max+Max XLVitalV5 Red BullGrand Memo LTEV779MJoey Jump 2V807Blade CV809Blade C2Blade $1 PlusBlade 521Blade G PlusZTE_Blade_IIIBlade IIIBlade G ProV882LordV967SGrand X2Grand XGrand X3V965V8000Grand X4Z987Grand X Max+Grand EraUZTE GRAND V7Grand V7V788DKis PlusZ331N818SSmall Fresh 5Optus X Spirit 2Optus X Power 2Optus X WaveOptus X StartBlade A520Blade A$1 LiteBlade L2 PlusBlade L2Blade L3 PlusBlade L3 ApexBlade L3Blade L4Blade L4 ProBlade L5 PlusBlade L6Blade L7ABlade L$1Blade A$1 ($2)Blade A2Blade A$1 (2020)Blade A1Blade A$1 ProBlade A6Blade A6 MaxBlade A6 LiteBlad".
Definition d_dr_buf_166 : blob := "e S6 LiteBlade S6Blade A5 ProBlade S7Blade D LuxBlade A5Blade V UltraBlade V6 MaxBlade V6 PlusBlade V7 LiteBlade V7Blade V$1Blade V50Blade V50 DesignBlade V50 Design 5GBlade V50 VitaZ2458Blade V70 DesignZ2467Blade V70 MaxBlade V8Blade V10Blade X1 5GBlade X$1Blade X5Blade L5Blade V8QBlade V8 SEBlade V8 MiniBlade V9 VitaZTE 8030Blade V30 VitaZTE 8031Blade V2022 4GZTE 9030NBlade S30ZTE 9030Blade V30ZTE A7040Blade V40 SmartZTE A7050Blade A72sZTE 8045Blade V40 VitaZTE 8140NBlade V41 VitaZTE 9046Blade V40 ProZTE 8046Blade V40 DesignZTE 9045Blade V40Blade V$1 VitaBlade V8 LiteMidnightZ820ObsidianZ986UBlade Max 3Z6410SBlade Max 2sZ610DLBlade Max ViewZ971Blade SparkZ978Blade V8 ProZ839Blade VantageZ3153VBlade Vantage 2Z930LUnico LTEZ965Blade XZ6400CBlade X2 MaxZ981Blade Z Max ProZ982Blade Z MaxZ983Blade X MaxCitrine LTECymbal-C LTEZ233VCymbal LTEZ232TLCymbal-G LTEZ353VLCymbal-T LTEZ718TLJasper LTEKIS II MaxKis II MaxKis 3Majesty Pro LTEZ899VLMajesty Pro Plus LTEZ828TLMidnight Pro LTEFanfareMave".
Definition d_dr_buf_167 : blob := "nZMax OneZMax 5GZ815Fanfare 2Z831Maven 2Z832Sonata 3Z835Maven 3Prelude PlusZ851MOverture 3Z852Fanfare 3Z828Avid PlusZ855Avid 4Z833Avid TRIOZFive 2 LTEZ558VLZFive C LTEZ557BLZFive G LTEZFive L LTEZ916BLZMax Grand LTEZ917VLZMax Champ LTEZMax 2ZMax 3ZMax 10Z963VLMax Duo LTEZ970ZMax Z970Z986DLMAX Blue LTEAvail 2Axon MAxon MiniA2015Axon TianjiC2017Axon 7 MaxA2018Axon 7sB2017GAxon 7 MiniAxon 10 ProZ667TZingerSkate 2GeekZ716BLScoreX501GrooveF-450AdamantLeverMonoV865MOptus X VistaOptus X Pro LTELeo Q2Vergatario 5Vergatario 5 PlusV5 ProZTE 8012NBlade V2021 5GZTE 9000Blade V2020ZTE 8000Blade V2020 VitaKIS C341Kis C341MEO Smart A$1Atlas WZ2357NBlade A75 5GAxon 20 5GZTE 8010Blade V2020 SmartZXV10 B867REGrand X View 3Grand X View 4Grand X View 3.8Trek 2PrimeTimeBlade X10Blade X10 II Pro+AxonPhone $1ZTE Blade A52Blade A52Z2450Blade A55Blade A53+ZTE Blade A33sBlade A33sZ2453Blade A35Z2466Blade A35sZ2472Blade A36Blade A610ZYQQ638Q2624Cheer 3GQ2602TV NextQ2728Zone 3GQ2729Q2688Q2623Win 3GQ2626Care 3GQ36".
Definition d_dr_buf_168 : blob := "23Braw 3GQ3022Q328 m9Q328 M9Q328Speed 3GQ668TV I4J77Q.DeeQ.Up C5Q.UpQ.Boss P99Q.Dee R09Q.Good M9Q.Hi S1Q.HiQ.Hot P7 3GQ.HotQ.Me Phone 7 3GQ.Me Plus 7Q.MeQ.Mate R99Q.Next B7Q.Next J2Q.Top X8Q.YouQTAB Tab4QTab Tab4ZYQ-Q88Q88ZZBZaithZamolxeZatecWindZPLAY1_2018Zplay (2018)Zpower_2018Zpower (2018)Zpower_PlusZpower PlusZPAD_1ZPadZealotZeblazeThor $1THOR PROThor ProZebraZeekerZEEKERZeemiZenAdmireGlamAdmire GlamAdmire Sense+Admire Swadesh+Admire Sense DuoAdmire Curve NeoAdmire Curve+Admire Neo+Admire DuoAdmire ShineAdmire InfinityAdmire UnityAdmire StrongAdmire Glory+ZenekZ5517LeopardoZ6001LibelulaZ5007OsoZ5519PingûinoZ5516ZentalityC-$1 UltraZfinerY900Zhongyu DisplayZidooZigoEon45iEon 45iZinoxKidsLegacyTabProKids Legacy Tab ProZpad-X8-PROZpad X8 ProZioxAstra $1 4GAstra $1Astra $1 ProDuopix F9 ProDuo$1 $2ZondaZA409MuzicZonkoZoomSmartZopoC2 II9XX QuadZP980+Speed 7 PlusHero 2Speed 7Speed 8Leader MaxLibero HDLiberoColor CColor SColor F2F5 Color M5C2 Color M4Color XColor C5iFieldShiningPilotFlash ".
Definition d_dr_buf_169 : blob := "X2Flash G5 PlusOne $1ZuumNOVUS TABNovus TabAKUS PROAkus ProAkus $1Aura ZCOVET_PRO_LITECovet Pro LiteCOVET PROCovet ProCOVET MiniCovet MiniCovet$1Magno ProMAGNO PLUSMagno PlusMagno C PlusMAGNO-SMagno SMagno$1ONIX SOnix SONIXSens $1STEDIStediSTELLAR PROStellar ProSTELLAR PLUSStellar PlusStellar $1STELLAR MINIStellar MiniSTELLAR MaxStellar MaxSTELLARStellarGravity LifeAURA PRIMEAura PrimeAURA PLUS JLOAura Plus J.LoAURA PRO JLOAura Pro J.LoAURA PROAura ProAura $1RONIRoniULTRA ZUltra ZRocket $1UniqLimitGRANTGrantZyncCloud $1ZyrexZT216actiMirrorDesk21T-03allenteAllente 1alpsmartaltronAL-555OB-$1GI-626anderssonastro (MY)b2mDecade 53bogoBO-LFSP4LifeStyle 4DCBO-LFSPSL4LifeStyle 4SLBO-LFSPBS5LifeStyle 5BSBO-LFSPSL6QCILifeStyle 6QCbqStrike LTEStrike Power MaxStrike Power PlusMagic OMagic CMagic SCleverFunAurora SEMagic LHornet Plus ProBQ-8067LHornet PlusBQ-8052GBQ-8041LBQ-7084GSimpleBQ-7061GAndrosArmorBQ-7051GElbaBQ-7036LHornetCanionFnac 10 3GFnac 10"" 3GBQ-7021GBQ-7010GBQ-7006GUnionBQ-7003Jamaica".
Definition d_dr_buf_170 : blob := "BQ-6645L6645L ElementBQ-6061L6061L SlimBQ-6022GUniversePracticJumboNext MusicSpringJeansBQ-5522SilkFast PlusFast ProTwin ProTwinWideStrike ForwardBlissAmsterdamStrike Power Max 4GNext LTEIron MaxStrike Selfie MaxNice 2NiceNice MiniKawasakiVancouverVelvet 2Strike ViewVelvet ViewStrikeBalanceStrike SelfieSpace LiteSense 2WalletLikeBeliefChoiceChoice LTEStrike PowerStrike Power EasyStrike 2Magic ETurbo PlusBQ-5060LBasicBQ-6861LCoreBQ-6761UnitStrike Power 4GVelvetSharkShark RushHigh WayBondFirstRichRich MaxMonte CarloSpotVelvet EasyPragueBQ-5560LTrend (2021)BQ-5565LSydneyLos AngelesIntenseShark ProColomboColombo IIContactMilanTokyoBladeMontrealОsakaVeniceFox ViewFox PowerGolfRichmondSingaporeFlorenceSantiagoDubaiKingstonBQS-4501 BristolBristolFox EasyFox LTEShark MiniStrike MiniUp!OrleansShanghaiValenciaSeoulDusseldorfVeronaCoolOxfordAspen MiniBombayHornet Max ProBQ-1036LExion AdvantHornet MaxArmor Pro PlusArmor ProArmor Pro LTEPassionCorsikaHawaiiGraceAquaris $1Aquaris $14.5JavaBQ-9055LE".
Definition d_dr_buf_171 : blob := "xion Pro MiniBQ-8088LExion SurfFijiGrace 3GLuzonClarionMaltaCharmCharm PlusArmor PowerNeckerNexionLightExion Plus70831056LArmor Pro LTE+Exion ProExion OneExion MaxEdison 3AquarisBQ_32FSFO1B32FSF01BSmart_TV_BQeNOVAeNOVA TAB 10 LTETab 10"" LTEeSTAR$1 $2 Quad Core 3GGrand HD Quad Core$1eSTAR GRANDGrandMERCURY HD Quad coreMercury HD Quad coreeSTAR BEAUTY HD Quad coreBeauty HD Quad CoreeSTAR MOON HD Quad coreMoon HD Quad Core 3GeSTAR BEAUTY 2 HD Quad coreBeauty 2 HD Quad CoreMini 3Gtakee 1Takee 1Digni-SmartDigni SmarteTouchecomevvolifreeFreebox Player MiniFree_Wi-Kif4G_4GWi-Kif 4Ghocoi-CherryiCherry-C256C256 Nano 3Gi-JoyElektra MElektra LElektra XLElektra XXLNeon $1SygnusDeoxi-Call $1i-matei-mobilei-Style $1IQ X Pro 2IQ Big 2IQ $1IQ Z PROIQ Z ProIQ Z BRIGHTIQ Z BrightiBallAndi Wink 4GAndi 5G Blink 4GSlide DD-1GBCuddle A4Slide Cuddle A4Slide Dazzle 3500Slide 3GSpirit_X2Spirit X2Slide_Skye_03Slide Skye 03Brace X1iTAB BizniZiTAB BizniZ MiniiTAB Moviez ProiBerryiBritDiamond Pro Maxi5PlusI5 PlusP".
Definition d_dr_buf_172 : blob := "ower 6Speed ProSpeed PlusPower XZ2LiteZ2 LiteAF51iDataT3_ProT3 ProiDinoNotebook 6iDroidAPACHE G6Apache G6Royal V5Barl X7iFITiGetSmart S100E8_UltraEKINOX E8 UltraiHome LifeHLQ MAXiHuntStrong Tablet $1 ProTablet PC 10 PROTablet PC 10 ProCyber DOG 4GCyber Dog 4GLike_Hi10_2021Like Hi10 (2021)S10 Tank (20$1)S10 Tank PRO 2020S10 Tank Pro (2020)One_ Love_One LoveTian P3000Titan P11000 ProTITAN P15000 PRO 5GTitan P15000 Pro 5GTitan P$1 Pro (2021)Titan P8000 Ultra CarbonTitan_P6000_PROTitan P6000 ProTitan P6000Like_3_ProLike 3 ProLike 12 PROLike 12 ProLike Hi5Like $1Like_4ULike 4UiHunt_LikeX300 EliteS60_Discovery_2019S60 Discovery (2019)S60 Discovery PlusS60 Discovery Pro 2022S60 Discovery Pro (2022)AlienXLite2020Alien X Lite (2020)Alien X Lite PROAlien X Lite ProAlien X LiteAlien X Pro 2021Alien X Pro (2021)Alien_X_ApeX_2020Alien X ApeX (2020)Alien_X_ApeXAlien X ApeXS$1 ApeXAlien_XAlien XS21 Plus 2021S21 Plus (2021)S$1 Ultra ApeX (2021)S21 Ultra 4G 2021S21 Ultra 4G (2021)S$1 UltraLike 11 Panda".
Definition d_dr_buf_173 : blob := " Pro 2022Like 11 Panda Pro (2022)iKoMoiKoniKoniaJarvis 7.85iLAiLepoiLifeK3102 WIFIK3102 WiFiWTAB $1Zed Book GFivo PlusFivo LiteiMIVin3 SVin 3 SVin3 LiteVin 3 LiteVin $1Messi $1iManiMarsIMARS VEGA X7Vega X7VIVI_8VIVI 8MILKY_WAY_M2Milky Way M2iMuzmuPAD $1iNOVAiNaviITP-XD80LU+ Pad8iNewV3CV3-EV3 PlusV7AFire Tab 6iNo MobileiNO SCOUT 2Scout 2SGINO6iNO S9iOceanX7S-TX8 mini proX8 Mini ProX8 miniX8 MiniX7S EliteiOutdooriPEGTOPIPEGTOPiProIPRO_K2_3GK2 3GS501APlusS501A PlusKylin 5.0SKylin $1Kylin50iKylin 50iKYLIN40Kylin 40Opal 4SJade $1sAmber5S_ProAmber 5S ProAmber6Amber 6Amber7SAmber 7SAmber8s ProAmber 8S ProAmber8SAmber 8SAmber8Amber 8Benny10Benny 10Phonenix50SPhonenix 50SRuby5SRuby 5SSAMBA65SSamba 65SZafiroWave 4.0 IIWave 5.0MEGA7Mega 7iQ&TiReplaceFrog OneiRobotiRolaDX758 ProiRuluiSWAGActivKronosLynxMegaNemesisiSafe Mobile$1.RGiStariTelW6502L6503C671LCity 100A671LCA80A6610LA90W5505A507LVV52 LTEA632WA04A663LA05sS667LNS24S23S681LNS23+A662LMA60sA662LA667LA665LA70W5504P33W5503W5002A571WA37A631LA507".
Definition d_dr_buf_174 : blob := "LMAC50Vision 5Vision 5 PlusS663LS661WA551LP15P552WP17 ProP551WP17A666LP55P663LP55+P665LP55TP661NP55 5GP671LP65P666LP65CW5003S32 MiniL5502A44 AirL5505A47W5006XA510WA16 PlusL6006A48A571LA26S666LNRS4P651WP37A33 PlusP681LP37 ProW6501P36P661WP38L5007A24A511LPA24 ProA512WA513WA18sL6003PA55 LTEL6002PA511LQA23SA23 ProL5002PA25 ProL5002A25A507LSL5503A46A661LA49W6004PA56 ProA661WPA58 ProA661WA631WA58 LiteL6004LAC60W4001SV41W4001AC13W4002A14 PlusW4003A14 MaxA56 LTEW6001P33 PlusW5001PW6003A611WP683LP40+L6005Vision 1Vision 3 PlusP682LP38 ProP651LVision 2SL6501Vision 1 PlusL6502Vision 1 ProS661LGP10X2019iNote $1it$1Power ProS11 Plusitel it1701iNote Primeitel P10001LPad 1itel W7001KidPad 1itel W7002PrimeTab 1P10003LVista Tab 30iNote Prime $1iTruck7.0"" 3GiVALamcy $1iView744TPC plus744TPC PlusiVooMiInnelo_1Innelo 1iV 505Me 1i2_Litei2 Litei2Me 1+Me $1iWaylinkiXTechiYouiZotronMI7 Hero BetaMI7 Hero TabibowininovoI618 App Plus+ivviivvi P60_X11 PlusP60-X11 PluskidibyKIDIBYmPhonemeanITSmartphone_X5Q1 Plusmip".
Definition d_dr_buf_175 : blob := "omultiboxmyPhone (PL)C-Smart_pixC-Smart PixCube LTEFUN $1 LiteFUN $1 LTEFUN $1Hammer AXE ProHammer Axe PromyPhone AXE 3GHammer Axe 3GHammer Axe M LTELUNA_IILuna IIPocket ProPocket_18x9Pocket 18x9Prime 3 LitePrime_4_LitePrime 4 LitePrime 18x9$1Q-Smart BEQ-Smart PlusQ-Smart_III_PlusQ-Smart III PlusmyTab10IImyTab 10 IImyTab_10IIImyTab 10 IIISmartView_7_3GSmartView 7"" 3GSmartView_8_LTESmartView 8"" LTESmartView 9.6"" 3GmyTab $1nJoyneoCoreN1 G1E1+E1 R1E2noDROPOUTok.AFTWI0014K (2020)OK Google TVphoneOnerephone2000_000170_00rephone (Gen 1)simferteXetTM-9749X-pad Plus 7.1 3GTM-9746X-pad Plus 7 3GTM-8051X-pad Force 8i 3GTM-1058X-Force 10 3GTM-8048X-pad Force 8 3GTM-7055HDNaviPad 3GTM-9758X-pad Style 10.0""X-pad Shine 8.1"" 3GX-pad QUAD 10 3GX-pad Quad 10.0"" 3GX-pad QUAD 7 3GX-pad Quad 7.0"" 3GX-pad Quad 7.2"" 3GX-pad STYLE 8 3GX-pad Style 8.0"" 3GX-pad HIT 3GX-pad Hit 3GX-pad Lite $1""TM-9767X-pad Style 10.0"" 3GX-pad Style 10.1"" 3GX-pad NAVI 7.3"" 3GTM-7099X-pad NAVI 7.4"" 3GX-pad NAVI 7.5"" 3GX-pad Sky 8".
Definition d_dr_buf_176 : blob := ".1"" 3GX-pad NAVI 10.0"" 3GTM-7859X-pad NAVI 8.2"" 3GTM-7049NaviPad TM-7049 3GTM-7887NaviPad TM-7887 3GTM-8066X-pad Rapid 8.2"" 4GTM-4503X-QuadTM-5006X-LineTM-5007X-ShineTM_5011X-OmegaPay $1GPay 5.5"" $1GTM-5702Pay 5.7"" 3GTM-5703Pay 5.7"" ProTM-5201TM-4515X-Maxi 2TM-4071X-SmartTM-4982iX-MaxiiX-MiniTM-5010X-SelfieTM-4082RX-Driver QuadTM-5503X-MageTM-5508X-CosmoX-ForceX-PlusX-Medium PlusX PointX-Pointv-mobileXS Prowaipu.tv4K SticköwnFun $1Fun 5 4GOne PlusFun Value LiteFun Value 4GSmart Plus LTEAspire E5-421GAspire E5-511One 10AlienwareAlienware 15 R3Alienware 17 R4Area-51mAurora $1K50INK54LTransformer BookTransformer MiniZenBook FlipX550LBX553MAX555LNX556UQKLatitude E4300Inspiron 3541XPS 15 9530XPS 15 9550Compaq Presario CQ61 Notebook PCCompaq Presario CQ61HP Pavilion x2 DetachablePavilion x2HP Laptop 15-bs0xx15 Laptop PCHP ENVY x360 Convertible 15-bp0xxENVY x360 Convertible PCHP Pavilion dv6 Notebook PCPavilion dv6HP Pavilion NotebookPavilionHP Spectre x360 ConvertibleSpectre x360HP Pavilion".
Definition d_dr_buf_177 : blob := " All-in-One 24-r0xxPavilion 24-r0xx All-in-One Desktop PC23-f364Pavilion TouchSmart 23-f364 All-in-One Desktop PCThinkPad Helix 3702G50-80Ideapad 310-15ISKLegion Y720Notebook 14"" Cherry TrailPrestige TH-360R12.32CTWFBMD/Satellite iPod Touch 1GiPod Touch 2GiPod Touch 3iPod Touch 4iPod Touch 5iPod Touch 6iPod Touch 7iPod TouchCowonDiofoxFanvaceFiiOM11 Plus LTDKuGouMECHENMicrosoft ZuneHDZune HDOilskyM303-ProM303 ProGalaxy Player 4.0YP-G70Galaxy Player 5.0YP-GS1Galaxy Player 3.6YP-GI1Galaxy Player 4.2YP-GP1Galaxy Player 5.8YP-G50Galaxy Player 50YP-GB70DGalaxy Player 70 PlusShanlingShanling M6SurfansSylvaniaWizzAKIRAAKIRA ShellAMCV ShellBBK shellDEXP ShellDigma ShellECON ShellHi ShellJVC ShellKvantKvant ShellLebenLeben ShellLeff ShellLoviewLoview ShellLUMUS ShellMystery ShellNovex shellTCL/RCA-Starwind ShellSupra ShellTCL/TCL-Telefunken ShellTCL/THOM-Yuno ShellFS-ARS-01BAYAAirtiesLGE/SQY/RCAAltech UECAltimoAtlantic ElectricsATVIO55D1620BangOlufsenBangolufsenBeoVisionLC-65CUG8052ECLAYTONCeco".
Definition d_dr_buf_178 : blob := "tecContinental EdisonCreNovaCNV001CultraviewDIKOMDIORADream MultimediaDMMDreamboxSMART-32-X-EOSSmart 32 X-EOSEAS ElectricELECTRONIAENDUROElektrolandExpress LUCKF&UFINIXFITCOFOXFUJICOMGN ElectronicsGoGENG7HIGH1ONEHOFERHOTACKHUMElabLE55X7000UHanseatic32A35EEVS40A35EEVS50ADEVTOOL50A53FEVS50A6101EX50A683FEVS55A6100EE55A69FEVS55U62QGAVT50A6502EA50A60GEVS75U9KAATMICALIDVB688649D2900Hotel TV CompanyHMS1000SHMS-1000SFVP4000TFVP-4000THGS1000SHGS-1000SHDR1000SHDR-1000SHDR4000THDR-4000TIkeaInno HitIntekInvertoAFTSO0014K (2019)KUBO32D1620KendoKydosXU43WT180N43LJ614V-ZA43UN68006LA55SK850V-ZAKEY0000213F1zKEY0000213FKEY000000$1LM21U32LMLaurusLinsarMEGA VISIONMIIA$1KTV18$1K Android TVManhattanMIRAYLEDM-322NIPNABONILAITNORMANDEOCEANICOravaPPDSPREMIERPROSONICTX-50JX700EVIERA ($1)DIGA $1SCHAUB LORENZSCHONTECHSEHMAXSULPICE TVSUNGATEMaple_2011Smart TV (2011)SelevisionLC-$1BLA-43UMC_2KAndroidTV_2019UMC_AndroidTV_2021UMC_GoogleTV_2019Google TVSilva SchneiderSKWE20E21Smart ElectronicSolasKDL-GN$1BRAVIA $1Ssma".
Definition d_dr_buf_179 : blob := "rtStar-LightTALBERGTCL SCBCSCBC58643D1850TOKYOTOKTCLED32STUCSONTechnicoloruzw4054ttgUZW4054TTGTechnikaTechnoTrendPreo $1$1 28.0""$1 32.0""$1 43.0""$1 40.0""$1 49.0""$1 55.0""40FB5426Top-Tech40L2600Tsinghua TongfangLE40GY15UNITEDVANGUARDVORTEX (RO)VOX ElectronicsVideowebVideoWeb TVVisitechWELLINGTONWONDERWalthamWe. by Loewe.43A71FEVSX.VisionAFTANNA0F2 4K (2022)Zimmercoocaaelit".
(** device_repo.go:30775-41987. *)
Definition d_dr_buf : bytes :=
  concat (map unblob [d_dr_buf_0; d_dr_buf_1; d_dr_buf_2; d_dr_buf_3; d_dr_buf_4; d_dr_buf_5; d_dr_buf_6; d_dr_buf_7; d_dr_buf_8; d_dr_buf_9; d_dr_buf_10; d_dr_buf_11; d_dr_buf_12; d_dr_buf_13; d_dr_buf_14; d_dr_buf_15; d_dr_buf_16; d_dr_buf_17; d_dr_buf_18; d_dr_buf_19; d_dr_buf_20; d_dr_buf_21; d_dr_buf_22; d_dr_buf_23; d_dr_buf_24; d_dr_buf_25; d_dr_buf_26; d_dr_buf_27; d_dr_buf_28; d_dr_buf_29; d_dr_buf_30; d_dr_buf_31; d_dr_buf_32; d_dr_buf_33; d_dr_buf_34; d_dr_buf_35; d_dr_buf_36; d_dr_buf_37; d_dr_buf_38; d_dr_buf_39; d_dr_buf_40; d_dr_buf_41; d_dr_buf_42; d_dr_buf_43; d_dr_buf_44; d_dr_buf_45; d_dr_buf_46; d_dr_buf_47; d_dr_buf_48; d_dr_buf_49; d_dr_buf_50; d_dr_buf_51; d_dr_buf_52; d_dr_buf_53; d_dr_buf_54; d_dr_buf_55; d_dr_buf_56; d_dr_buf_57; d_dr_buf_58; d_dr_buf_59; d_dr_buf_60; d_dr_buf_61; d_dr_buf_62; d_dr_buf_63; d_dr_buf_64; d_dr_buf_65; d_dr_buf_66; d_dr_buf_67; d_dr_buf_68; d_dr_buf_69; d_dr_buf_70; d_dr_buf_71; d_dr_buf_72; d_dr_buf_73; d_dr_buf_74; d_dr_buf_75; d_dr_buf_76; d_dr_buf_77; d_dr_buf_78; d_dr_buf_79; d_dr_buf_80; d_dr_buf_81; d_dr_buf_82; d_dr_buf_83; d_dr_buf_84; d_dr_buf_85; d_dr_buf_86; d_dr_buf_87; d_dr_buf_88; d_dr_buf_89; d_dr_buf_90; d_dr_buf_91; d_dr_buf_92; d_dr_buf_93; d_dr_buf_94; d_dr_buf_95; d_dr_buf_96; d_dr_buf_97; d_dr_buf_98; d_dr_buf_99; d_dr_buf_100; d_dr_buf_101; d_dr_buf_102; d_dr_buf_103; d_dr_buf_104; d_dr_buf_105; d_dr_buf_106; d_dr_buf_107; d_dr_buf_108; d_dr_buf_109; d_dr_buf_110; d_dr_buf_111; d_dr_buf_112; d_dr_buf_113; d_dr_buf_114; d_dr_buf_115; d_dr_buf_116; d_dr_buf_117; d_dr_buf_118; d_dr_buf_119; d_dr_buf_120; d_dr_buf_121; d_dr_buf_122; d_dr_buf_123; d_dr_buf_124; d_dr_buf_125; d_dr_buf_126; d_dr_buf_127; d_dr_buf_128; d_dr_buf_129; d_dr_buf_130; d_dr_buf_131; d_dr_buf_132; d_dr_buf_133; d_dr_buf_134; d_dr_buf_135; d_dr_buf_136; d_dr_buf_137; d_dr_buf_138; d_dr_buf_139; d_dr_buf_140; d_dr_buf_141; d_dr_buf_142; d_dr_buf_143; d_dr_buf_144; d_dr_buf_145; d_dr_buf_146; d_dr_buf_147; d_dr_buf_148; d_dr_buf_149; d_dr_buf_150; d_dr_buf_151; d_dr_buf_152; d_dr_buf_153; d_dr_buf_154; d_dr_buf_155; d_dr_buf_156; d_dr_buf_157; d_dr_buf_158; d_dr_buf_159; d_dr_buf_160; d_dr_buf_161; d_dr_buf_162; d_dr_buf_163; d_dr_buf_164; d_dr_buf_165; d_dr_buf_166; d_dr_buf_167; d_dr_buf_168; d_dr_buf_169; d_dr_buf_170; d_dr_buf_171; d_dr_buf_172; d_dr_buf_173; d_dr_buf_174; d_dr_buf_175; d_dr_buf_176; d_dr_buf_177; d_dr_buf_178; d_dr_buf_179]).

