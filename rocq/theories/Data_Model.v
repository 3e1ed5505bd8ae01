(** The device models.  Written by tools/gen_tables.py from the sources; do not edit. *)
From Verif Require Import Model_Base Model_Blob Model_Ctx.
Open Scope N_scope.
Open Scope blob_scope.

Definition d_dr_dm_0 : list modelTuple := [
  mkModel 0x0 (-1)%Z 0x0 0xb00000018;
  mkModel 0x2700000027 (-1)%Z 0x1f00000027 0x2700000030;
  mkModel 0x2700000027 (-1)%Z 0x3000000038 0x3800000045;
  mkModel 0x2700000027 (-1)%Z 0x450000004d 0x4d00000064;
  mkModel 0x2700000027 (-1)%Z 0x640000006c 0x6c0000007b;
  mkModel 0x2700000027 (1)%Z 0x0 0x7b0000008b;
  mkModel 0x2700000027 (3)%Z 0x0 0x99000000a3;
  mkModel 0x2700000027 (5)%Z 0x0 0xa7000000af;
  mkModel 0x2700000027 (-1)%Z 0xc6000000ca 0xca000000cf;
  mkModel 0x2700000027 (-1)%Z 0xd4000000e0 0xe0000000e7;
  mkModel 0x2700000027 (7)%Z 0x0 0x2700000027;
  mkModel 0x2700000027 (-1)%Z 0xed000000fd 0xfd00000100;
  mkModel 0x0 (-1)%Z 0x0 0x10d00000117;
  mkModel 0x0 (-1)%Z 0x0 0x1260000012f;
  mkModel 0x2700000027 (-1)%Z 0x13c00000149 0x13c00000149;
  mkModel 0x2700000027 (-1)%Z 0x14900000153 0x14900000153;
  mkModel 0x2700000027 (-1)%Z 0x1530000015b 0x1530000015b;
  mkModel 0x2700000027 (-1)%Z 0x15b00000166 0x16600000170;
  mkModel 0x2700000027 (-1)%Z 0x1380000013c 0x17000000178;
  mkModel 0x0 (-1)%Z 0x0 0x18000000182;
  mkModel 0x0 (-1)%Z 0x0 0x18200000186;
  mkModel 0x2700000027 (10)%Z 0x0 0x1940000019b;
  mkModel 0x2700000027 (-1)%Z 0x19b000001a7 0x1a7000001ac;
  mkModel 0x2700000027 (11)%Z 0x0 0x18000000182;
  mkModel 0x0 (-1)%Z 0x0 0x1bc000001c3;
  mkModel 0x2700000027 (-1)%Z 0x1c7000001d0 0x1c7000001d0;
  mkModel 0x2700000027 (-1)%Z 0x1d0000001e0 0x1e0000001e6;
  mkModel 0x2700000027 (14)%Z 0x0 0x1ea000001f7;
  mkModel 0x2700000027 (-1)%Z 0x1f700000208 0x20800000219;
  mkModel 0x2700000027 (15)%Z 0x0 0x21900000226;
  mkModel 0x2700000027 (16)%Z 0x0 0x22600000234;
  mkModel 0x0 (-1)%Z 0x0 0x18000000182;
  mkModel 0x2700000027 (19)%Z 0x0 0x24900000255;
  mkModel 0x2700000027 (20)%Z 0x0 0x25500000260;
  mkModel 0x2700000027 (21)%Z 0x0 0x18000000182;
  mkModel 0x2700000027 (22)%Z 0x0 0x18000000182;
  mkModel 0x2700000027 (24)%Z 0x0 0x26300000265;
  mkModel 0x2700000027 (25)%Z 0x0 0x2650000026c;
  mkModel 0x2700000027 (26)%Z 0x0 0x26c00000272;
  mkModel 0x2700000027 (27)%Z 0x0 0x27200000279;
  mkModel 0x2700000027 (28)%Z 0x0 0x2790000027b;
  mkModel 0x2700000027 (29)%Z 0x0 0x27b00000281;
  mkModel 0x2700000027 (30)%Z 0x0 0x28100000288;
  mkModel 0x2700000027 (31)%Z 0x0 0x2880000028a;
  mkModel 0x2700000027 (32)%Z 0x0 0x28a0000028c;
  mkModel 0x2700000027 (33)%Z 0x0 0x28c0000028f;
  mkModel 0x2700000027 (34)%Z 0x0 0x28f00000292;
  mkModel 0x2700000027 (35)%Z 0x0 0x29200000295;
  mkModel 0x2700000027 (37)%Z 0x0 0x18000000182;
  mkModel 0x2700000027 (38)%Z 0x0 0x29a0000029e;
  mkModel 0x2a1000002a7 (40)%Z 0x0 0x2a7000002af;
  mkModel 0x2700000027 (42)%Z 0x0 0x2b1000002bb;
  mkModel 0x2700000027 (43)%Z 0x0 0x2bb000002c5;
  mkModel 0x2700000027 (44)%Z 0x0 0x2c5000002ce;
  mkModel 0x2700000027 (-1)%Z 0x2ce000002d5 0x2d5000002e1;
  mkModel 0x2700000027 (45)%Z 0x0 0x2e1000002ea;
  mkModel 0x2700000027 (46)%Z 0x0 0x2ea000002f3;
  mkModel 0x2700000027 (47)%Z 0x0 0x2f3000002fe;
  mkModel 0x2700000027 (48)%Z 0x0 0x2fe00000308;
  mkModel 0x2a1000002a7 (50)%Z 0x0 0x30d00000312;
  mkModel 0x2a1000002a7 (51)%Z 0x0 0x3120000031a;
  mkModel 0x2a1000002a7 (52)%Z 0x0 0x31a00000323;
  mkModel 0x2700000027 (53)%Z 0x0 0x32300000329;
  mkModel 0x2700000027 (54)%Z 0x0 0x18000000182;
  mkModel 0x2700000027 (-1)%Z 0x32900000331 0x33100000339;
  mkModel 0x2700000027 (55)%Z 0x0 0x18000000182;
  mkModel 0x0 (-1)%Z 0x0 0x18000000182;
  mkModel 0x0 (-1)%Z 0x0 0x3410000034a;
  mkModel 0x2700000027 (-1)%Z 0x35200000358 0x35200000358;
  mkModel 0x2700000027 (-1)%Z 0x3580000035d 0x35d00000362;
  mkModel 0x2700000027 (-1)%Z 0x36200000369 0x36900000370;
  mkModel 0x2700000027 (-1)%Z 0x37000000375 0x37000000375;
  mkModel 0x0 (-1)%Z 0x0 0x38700000393;
  mkModel 0x0 (-1)%Z 0x0 0x18000000182;
  mkModel 0x0 (-1)%Z 0x0 0x18000000182;
  mkModel 0x2700000027 (62)%Z 0x0 0x3a9000003b6;
  mkModel 0x2700000027 (-1)%Z 0x3b6000003be 0x3b6000003be;
  mkModel 0x2700000027 (-1)%Z 0x3be000003c6 0x3be000003c6;
  mkModel 0x2700000027 (-1)%Z 0x3c6000003cf 0x3c6000003cf;
  mkModel 0x2700000027 (-1)%Z 0x3cf000003d7 0x3d7000003dc;
  mkModel 0x2700000027 (-1)%Z 0x3e0000003e9 0x3e9000003ed;
  mkModel 0x2700000027 (-1)%Z 0x3ed000003f9 0x3f900000400;
  mkModel 0x2700000027 (63)%Z 0x0 0x40000000404;
  mkModel 0x2700000027 (-1)%Z 0x40400000411 0x4110000041a;
  mkModel 0x2700000027 (-1)%Z 0x41a00000422 0x42200000425;
  mkModel 0x2700000027 (-1)%Z 0x4250000042d 0x42d00000430;
  mkModel 0x2700000027 (-1)%Z 0x4300000043b 0x43b00000441;
  mkModel 0x2700000027 (64)%Z 0x0 0x44100000448;
  mkModel 0x2700000027 (65)%Z 0x0 0x18000000182;
  mkModel 0x0 (-1)%Z 0x0 0x44c0000044f;
  mkModel 0x0 (-1)%Z 0x0 0x45d00000464;
  mkModel 0x0 (-1)%Z 0x0 0x18000000182;
  mkModel 0x2700000027 (-1)%Z 0x46e0000047c 0x47c0000048a;
  mkModel 0x0 (-1)%Z 0x0 0x18000000182;
  mkModel 0x2a1000002a7 (71)%Z 0x0 0x496000004a5;
  mkModel 0x2700000027 (72)%Z 0x0 0x18000000182;
  mkModel 0x2700000027 (73)%Z 0x0 0x4a5000004a7;
  mkModel 0x2700000027 (-1)%Z 0x4a7000004b0 0x4b0000004b5;
  mkModel 0x2700000027 (74)%Z 0x0 0x4b5000004b7;
  mkModel 0x2700000027 (75)%Z 0x0 0x4b7000004bd;
  mkModel 0x2a1000002a7 (76)%Z 0x0 0x4bd000004c3;
  mkModel 0x2700000027 (77)%Z 0x0 0x18000000182;
  mkModel 0x0 (-1)%Z 0x0 0x18000000182;
  mkModel 0x2700000027 (80)%Z 0x0 0x4cc000004d4;
  mkModel 0x2700000027 (-1)%Z 0x4d4000004dc 0x4dc000004e5;
  mkModel 0x2700000027 (-1)%Z 0x4e5000004ec 0x4e5000004ec;
  mkModel 0x0 (-1)%Z 0x0 0x4f1000004ff;
  mkModel 0x2700000027 (-1)%Z 0x50200000509 0x50900000515;
  mkModel 0x2700000027 (-1)%Z 0x51500000522 0x52200000535;
  mkModel 0x0 (-1)%Z 0x0 0x55200000557;
  mkModel 0x0 (-1)%Z 0x0 0x18000000182;
  mkModel 0x0 (-1)%Z 0x0 0x18000000182;
  mkModel 0x2700000027 (-1)%Z 0x56300000568 0x56800000570;
  mkModel 0x2700000027 (89)%Z 0x0 0x57000000574;
  mkModel 0x2700000027 (-1)%Z 0x57400000579 0x5790000057f;
  mkModel 0x2700000027 (-1)%Z 0x57f00000584 0x58400000589;
  mkModel 0x2700000027 (-1)%Z 0x5890000058e 0x58e00000593;
  mkModel 0x2700000027 (-1)%Z 0x59300000598 0x5980000059d;
  mkModel 0x2700000027 (-1)%Z 0x59d000005a2 0x5a2000005a5;
  mkModel 0x2700000027 (-1)%Z 0x5a5000005aa 0x5aa000005ac;
  mkModel 0x2700000027 (-1)%Z 0x5ac000005b1 0x5b1000005b3;
  mkModel 0x2700000027 (-1)%Z 0x5b3000005b8 0x42d00000430;
  mkModel 0x2700000027 (-1)%Z 0x5b8000005bd 0x3e9000003ed;
  mkModel 0x2700000027 (-1)%Z 0x5bd000005c2 0x5c2000005c5;
  mkModel 0x2700000027 (-1)%Z 0x5c5000005ca 0x3a7000003a9;
  mkModel 0x2700000027 (-1)%Z 0x5ca000005cf 0x5cf000005d1;
  mkModel 0x2700000027 (90)%Z 0x0 0x5d1000005d5;
  mkModel 0x2700000027 (-1)%Z 0x5dd000005e3 0x5e3000005ea;
  mkModel 0x2700000027 (92)%Z 0x0 0x5ea000005ee;
  mkModel 0x2700000027 (93)%Z 0x0 0x18000000182;
  mkModel 0x2700000027 (-1)%Z 0x5f6000005fa 0x5f6000005fa;
  mkModel 0x2700000027 (-1)%Z 0x5fa00000601 0x60100000604;
  mkModel 0x2700000027 (-1)%Z 0x6040000060b 0x60b00000610;
  mkModel 0x0 (-1)%Z 0x0 0x18000000182;
  mkModel 0x2a1000002a7 (97)%Z 0x0 0x18000000182;
  mkModel 0x2700000027 (98)%Z 0x0 0x18000000182;
  mkModel 0x0 (-1)%Z 0x0 0x6330000063b;
  mkModel 0x2700000027 (101)%Z 0x0 0x18000000182;
  mkModel 0x2700000027 (102)%Z 0x0 0x18000000182;
  mkModel 0x2700000027 (103)%Z 0x0 0x18000000182;
  mkModel 0x0 (-1)%Z 0x0 0x18000000182;
  mkModel 0x39a000003a7 (106)%Z 0x0 0x64800000655;
  mkModel 0x39a000003a7 (107)%Z 0x0 0x65500000664;
  mkModel 0x39a000003a7 (108)%Z 0x0 0x66400000674;
  mkModel 0x2700000027 (-1)%Z 0x6740000067c 0x67c00000685;
  mkModel 0x2700000027 (-1)%Z 0x6850000068b 0x68b00000697;
  mkModel 0x2700000027 (-1)%Z 0x6970000069d 0x69d000006a8;
  mkModel 0x2700000027 (-1)%Z 0x6a8000006b0 0x6b0000006be;
  mkModel 0x2700000027 (-1)%Z 0x6be000006c5 0x6c5000006c9;
  mkModel 0x2700000027 (-1)%Z 0x6c9000006cf 0x6cf000006d4;
  mkModel 0x2700000027 (-1)%Z 0x6d4000006da 0x6da000006e1;
  mkModel 0x2700000027 (-1)%Z 0x6e1000006e7 0x6e7000006f0;
  mkModel 0x2700000027 (-1)%Z 0x6f0000006f6 0x6f6000006ff;
  mkModel 0x2700000027 (-1)%Z 0x6ff00000705 0x7050000070e;
  mkModel 0x2700000027 (-1)%Z 0x70e00000714 0x7140000071b;
  mkModel 0x2700000027 (-1)%Z 0x71b00000721 0x7210000072c;
  mkModel 0x2700000027 (-1)%Z 0x72c00000731 0x7310000073d;
  mkModel 0x2700000027 (-1)%Z 0x73d00000743 0x7430000074c;
  mkModel 0x2700000027 (-1)%Z 0x74c00000754 0x7540000075e;
  mkModel 0x2700000027 (-1)%Z 0x75e00000768 0x76800000772;
  mkModel 0x2700000027 (-1)%Z 0x77200000778 0x77800000782;
  mkModel 0x2700000027 (-1)%Z 0x78200000788 0x78800000794;
  mkModel 0x2700000027 (-1)%Z 0x7940000079c 0x79c000007a1;
  mkModel 0x2700000027 (-1)%Z 0x7a1000007a8 0x7a8000007b1;
  mkModel 0x2700000027 (109)%Z 0x0 0x7b1000007b9;
  mkModel 0x0 (-1)%Z 0x0 0x18000000182;
  mkModel 0x2700000027 (112)%Z 0x0 0x7c3000007c8;
  mkModel 0x2700000027 (-1)%Z 0x7d6000007e1 0x7e1000007ec;
  mkModel 0x2700000027 (-1)%Z 0x7ec000007fb 0x7fb0000080a;
  mkModel 0x2700000027 (114)%Z 0x0 0x18000000182;
  mkModel 0x2700000027 (116)%Z 0x0 0x80e00000819;
  mkModel 0x0 (-1)%Z 0x0 0x18000000182;
  mkModel 0x0 (-1)%Z 0x0 0x18000000182;
  mkModel 0x2700000027 (120)%Z 0x0 0x8240000082f;
  mkModel 0x2700000027 (121)%Z 0x0 0x82f00000837;
  mkModel 0x2700000027 (122)%Z 0x0 0x83700000843;
  mkModel 0x2700000027 (123)%Z 0x0 0x8430000084a;
  mkModel 0x2700000027 (125)%Z 0x0 0x18000000182;
  mkModel 0x2700000027 (126)%Z 0x0 0x18000000182;
  mkModel 0x0 (-1)%Z 0x0 0x18000000182;
  mkModel 0x2700000027 (129)%Z 0x0 0x1940000019b;
  mkModel 0x2700000027 (130)%Z 0x0 0x18000000182;
  mkModel 0x2700000027 (132)%Z 0x0 0x18000000182;
  mkModel 0x2700000027 (-1)%Z 0x85a00000861 0x86100000869;
  mkModel 0x2700000027 (-1)%Z 0x86d00000874 0x86d00000874;
  mkModel 0x2700000027 (135)%Z 0x0 0x87a0000087e;
  mkModel 0x2700000027 (136)%Z 0x0 0x87e00000886;
  mkModel 0x2700000027 (137)%Z 0x0 0x88600000897;
  mkModel 0x2700000027 (138)%Z 0x0 0x8970000089f;
  mkModel 0x2700000027 (139)%Z 0x0 0x89f000008ac;
  mkModel 0x2700000027 (140)%Z 0x0 0x8ac000008b7;
  mkModel 0x2700000027 (141)%Z 0x0 0x8b7000008c4;
  mkModel 0x2700000027 (142)%Z 0x0 0x8c4000008d1;
  mkModel 0x2700000027 (143)%Z 0x0 0x8d1000008da;
  mkModel 0x2700000027 (144)%Z 0x0 0x8da000008e2;
  mkModel 0x2a1000002a7 (145)%Z 0x0 0x8e2000008ea;
  mkModel 0x2a1000002a7 (146)%Z 0x0 0x8ea000008f3;
  mkModel 0x2a1000002a7 (147)%Z 0x0 0x8f3000008fb;
  mkModel 0x0 (-1)%Z 0x0 0x18000000182;
  mkModel 0x2700000027 (150)%Z 0x0 0x90800000915
].
Definition d_dr_dm_1 : list modelTuple := [
  mkModel 0x2700000027 (151)%Z 0x0 0x91500000921;
  mkModel 0x2700000027 (152)%Z 0x0 0x9210000092e;
  mkModel 0x2700000027 (-1)%Z 0x92e0000093d 0x93d00000948;
  mkModel 0x2700000027 (153)%Z 0x0 0x94800000953;
  mkModel 0x2700000027 (154)%Z 0x0 0x9530000095f;
  mkModel 0x2700000027 (155)%Z 0x0 0x95f0000096b;
  mkModel 0x2700000027 (-1)%Z 0x96b00000972 0x97200000979;
  mkModel 0x2700000027 (156)%Z 0x0 0x97900000980;
  mkModel 0x2700000027 (157)%Z 0x0 0x98000000989;
  mkModel 0x2700000027 (-1)%Z 0x98900000994 0x9940000099f;
  mkModel 0x2700000027 (158)%Z 0x0 0x99f000009a7;
  mkModel 0x0 (-1)%Z 0x0 0x18000000182;
  mkModel 0x2700000027 (161)%Z 0x0 0x9b4000009bd;
  mkModel 0x62600000633 (163)%Z 0x0 0x9c1000009c9;
  mkModel 0x62600000633 (164)%Z 0x0 0x9c9000009d0;
  mkModel 0x62600000633 (165)%Z 0x0 0x18000000182;
  mkModel 0x2a1000002a7 (-1)%Z 0x9d0000009d7 0x9d7000009de;
  mkModel 0x2a1000002a7 (166)%Z 0x0 0x9de000009ec;
  mkModel 0x2a1000002a7 (167)%Z 0x0 0x9ec000009f4;
  mkModel 0x2a1000002a7 (168)%Z 0x0 0x9f4000009fb;
  mkModel 0x2a1000002a7 (169)%Z 0x0 0x9fb00000a04;
  mkModel 0x2a1000002a7 (170)%Z 0x0 0xa0400000a0b;
  mkModel 0x2a1000002a7 (-1)%Z 0xa0b00000a15 0xa1500000a1e;
  mkModel 0x2a1000002a7 (-1)%Z 0xa1e00000a24 0xa1e00000a24;
  mkModel 0x2a1000002a7 (171)%Z 0x0 0xa2400000a30;
  mkModel 0x2a1000002a7 (172)%Z 0x0 0xa3000000a3c;
  mkModel 0x2a1000002a7 (-1)%Z 0xa3c00000a42 0xa4200000a4b;
  mkModel 0x2a1000002a7 (173)%Z 0x0 0xa4b00000a58;
  mkModel 0x2a1000002a7 (-1)%Z 0xa5800000a61 0xa6100000a6e;
  mkModel 0x2a1000002a7 (174)%Z 0x0 0xa6e00000a7b;
  mkModel 0x2a1000002a7 (175)%Z 0x0 0xa7b00000a84;
  mkModel 0x2a1000002a7 (176)%Z 0x0 0xa8400000a91;
  mkModel 0x2a1000002a7 (177)%Z 0x0 0xa9100000a9d;
  mkModel 0x2a1000002a7 (178)%Z 0x0 0xa9d00000aa6;
  mkModel 0x2a1000002a7 (179)%Z 0x0 0xaa600000ab3;
  mkModel 0x2a1000002a7 (180)%Z 0x0 0xab300000abf;
  mkModel 0x2a1000002a7 (181)%Z 0x0 0xabf00000acc;
  mkModel 0x2a1000002a7 (-1)%Z 0xacc00000ad0 0xad000000ad7;
  mkModel 0x2a1000002a7 (-1)%Z 0xad700000adb 0xadb00000ae4;
  mkModel 0x2a1000002a7 (182)%Z 0x0 0xae400000aeb;
  mkModel 0x2a1000002a7 (-1)%Z 0xaeb00000af8 0xaf800000b00;
  mkModel 0x2a1000002a7 (-1)%Z 0xb0000000b0a 0xb0a00000b0f;
  mkModel 0x2a1000002a7 (-1)%Z 0xb0f00000b15 0xb1500000b1f;
  mkModel 0x2a1000002a7 (183)%Z 0x0 0x18000000182;
  mkModel 0x2a1000002a7 (-1)%Z 0xb1f00000b2c 0xb2c00000b34;
  mkModel 0x2a1000002a7 (-1)%Z 0xb3400000b40 0xb3400000b40;
  mkModel 0x2a1000002a7 (184)%Z 0x0 0xb4000000b50;
  mkModel 0x2700000027 (185)%Z 0x0 0xb5000000b5b;
  mkModel 0x2700000027 (186)%Z 0x0 0xb5b00000b66;
  mkModel 0x2700000027 (187)%Z 0x0 0xb6600000b74;
  mkModel 0x2700000027 (188)%Z 0x0 0xb7400000b81;
  mkModel 0x2700000027 (189)%Z 0x0 0xb8100000b8e;
  mkModel 0x2700000027 (190)%Z 0x0 0xb8e00000b97;
  mkModel 0x2700000027 (191)%Z 0x0 0xb9700000ba0;
  mkModel 0x2700000027 (192)%Z 0x0 0xba000000ba9;
  mkModel 0x2700000027 (193)%Z 0x0 0xba900000bb6;
  mkModel 0x2700000027 (194)%Z 0x0 0xbb600000bc3;
  mkModel 0x2700000027 (195)%Z 0x0 0xbc300000bd0;
  mkModel 0x2700000027 (196)%Z 0x0 0xbd000000bdc;
  mkModel 0x2700000027 (197)%Z 0x0 0xbdc00000be6;
  mkModel 0x2700000027 (198)%Z 0x0 0xbe600000bf1;
  mkModel 0x2700000027 (199)%Z 0x0 0xbf100000bfe;
  mkModel 0x2700000027 (200)%Z 0x0 0xbfe00000c0b;
  mkModel 0x2700000027 (201)%Z 0x0 0xbdc00000be6;
  mkModel 0x2700000027 (202)%Z 0x0 0xc0b00000c18;
  mkModel 0x2700000027 (203)%Z 0x0 0xc1800000c23;
  mkModel 0x2700000027 (204)%Z 0x0 0xc2300000c2e;
  mkModel 0x2700000027 (205)%Z 0x0 0xc2e00000c3a;
  mkModel 0x2700000027 (206)%Z 0x0 0xc3a00000c45;
  mkModel 0x2700000027 (207)%Z 0x0 0xc4500000c53;
  mkModel 0x2700000027 (208)%Z 0x0 0xc5300000c63;
  mkModel 0x2700000027 (209)%Z 0x0 0xc6300000c6e;
  mkModel 0x2700000027 (210)%Z 0x0 0xc6e00000c79;
  mkModel 0x2700000027 (-1)%Z 0xc7900000c82 0xc8200000c87;
  mkModel 0x2700000027 (211)%Z 0x0 0xc8700000c92;
  mkModel 0x2700000027 (212)%Z 0x0 0xc9200000c9b;
  mkModel 0xc9b00000ca2 (213)%Z 0x0 0x18000000182;
  mkModel 0xc9b00000ca2 (214)%Z 0x0 0xca200000cb4;
  mkModel 0xc9b00000ca2 (215)%Z 0x0 0xcb400000cc1;
  mkModel 0xc9b00000ca2 (216)%Z 0x0 0x18000000182;
  mkModel 0xc9b00000ca2 (217)%Z 0x0 0xcc100000cca;
  mkModel 0xc9b00000ca2 (218)%Z 0x0 0x18000000182;
  mkModel 0x2a1000002a7 (219)%Z 0x0 0xcca00000cd8;
  mkModel 0x2700000027 (220)%Z 0x0 0x18000000182;
  mkModel 0x2700000027 (221)%Z 0x0 0x18000000182;
  mkModel 0x2700000027 (222)%Z 0x0 0x18000000182;
  mkModel 0x2700000027 (-1)%Z 0xcde00000ce4 0xce400000cf0;
  mkModel 0x2700000027 (-1)%Z 0xcf000000cf5 0xcf500000cfa;
  mkModel 0x2700000027 (225)%Z 0x0 0xd0200000d0b;
  mkModel 0x2700000027 (226)%Z 0x0 0xd0b00000d14;
  mkModel 0x2700000027 (228)%Z 0x0 0xd1b00000d28;
  mkModel 0x2700000027 (229)%Z 0x0 0x18000000182;
  mkModel 0x2700000027 (-1)%Z 0xd2d00000d35 0xd3500000d37;
  mkModel 0x2700000027 (-1)%Z 0xd3700000d40 0xd4000000d43;
  mkModel 0x2700000027 (-1)%Z 0xd4300000d46 0xd4600000d50;
  mkModel 0x2700000027 (231)%Z 0x0 0xd5000000d57;
  mkModel 0x2700000027 (232)%Z 0x0 0xd5700000d5a;
  mkModel 0x2700000027 (-1)%Z 0xd5a00000d5d 0xd5d00000d60;
  mkModel 0x2700000027 (233)%Z 0x0 0xd6000000d69;
  mkModel 0x2700000027 (234)%Z 0x0 0xd6900000d71;
  mkModel 0x2700000027 (235)%Z 0x0 0xd7100000d75;
  mkModel 0x2700000027 (236)%Z 0x0 0xd7500000d77;
  mkModel 0x2700000027 (237)%Z 0x0 0xd7700000d7f;
  mkModel 0x2700000027 (238)%Z 0x0 0xd7f00000d85;
  mkModel 0x2700000027 (239)%Z 0x0 0xd8500000d8b;
  mkModel 0x2700000027 (240)%Z 0x0 0xd8b00000d91;
  mkModel 0x2700000027 (241)%Z 0x0 0x18000000182;
  mkModel 0x2a1000002a7 (242)%Z 0x0 0xd9100000d97;
  mkModel 0x2a1000002a7 (-1)%Z 0xd9700000d9e 0xd9700000d9e;
  mkModel 0x2a1000002a7 (243)%Z 0x0 0x18000000182;
  mkModel 0x2a1000002a7 (244)%Z 0x0 0xd9e00000da6;
  mkModel 0x2a1000002a7 (246)%Z 0x0 0xdad00000db2;
  mkModel 0x2a1000002a7 (-1)%Z 0xdb200000db8 0xdb200000db8;
  mkModel 0x2a1000002a7 (247)%Z 0x0 0xdb800000dc5;
  mkModel 0x2a1000002a7 (248)%Z 0x0 0xdc500000dcf;
  mkModel 0x2700000027 (249)%Z 0x0 0xdcf00000ddd;
  mkModel 0x2700000027 (250)%Z 0x0 0xddd00000de9;
  mkModel 0x0 (-1)%Z 0x0 0x18000000182;
  mkModel 0x2700000027 (253)%Z 0x0 0xe0400000e0c;
  mkModel 0x2700000027 (254)%Z 0x0 0xe0c00000e12;
  mkModel 0x23f00000249 (255)%Z 0x0 0xe1200000e1c;
  mkModel 0x23f00000249 (256)%Z 0x0 0xe1c00000e28;
  mkModel 0x0 (-1)%Z 0x0 0xe3400000e3c;
  mkModel 0x2700000027 (-1)%Z 0xe4100000e4c 0xe4c00000e5e;
  mkModel 0x2700000027 (258)%Z 0x0 0xe5e00000e6b;
  mkModel 0x2700000027 (-1)%Z 0xe6b00000e77 0xe7700000e84;
  mkModel 0x2700000027 (-1)%Z 0xe8400000e8b 0xe8b00000e98;
  mkModel 0x2700000027 (-1)%Z 0xe9800000ea3 0xea300000eb1;
  mkModel 0x2700000027 (-1)%Z 0xeb100000ebc 0xebc00000ec9;
  mkModel 0x2700000027 (-1)%Z 0xec900000ed4 0xed400000ee3;
  mkModel 0x2700000027 (259)%Z 0x0 0xee300000eee;
  mkModel 0x2700000027 (260)%Z 0x0 0xeee00000efa;
  mkModel 0x2700000027 (261)%Z 0x0 0x18000000182;
  mkModel 0x2700000027 (-1)%Z 0xefa00000f06 0xf0600000f15;
  mkModel 0x2700000027 (-1)%Z 0xf1500000f1f 0xf1f00000f2b;
  mkModel 0x2700000027 (-1)%Z 0xf2b00000f34 0xf3400000f44;
  mkModel 0x2700000027 (-1)%Z 0xf4400000f4d 0xf4d00000f58;
  mkModel 0x2700000027 (262)%Z 0x0 0xf5800000f64;
  mkModel 0x2700000027 (263)%Z 0x0 0xf6400000f6e;
  mkModel 0x2700000027 (264)%Z 0x0 0xf6e00000f74;
  mkModel 0x2700000027 (265)%Z 0x0 0xf7400000f7b;
  mkModel 0x2700000027 (266)%Z 0x0 0xf7b00000f85;
  mkModel 0x2700000027 (-1)%Z 0xfa100000fb0 0xfb000000fbf;
  mkModel 0x2700000027 (268)%Z 0x0 0xfc400000fca;
  mkModel 0x2a1000002a7 (-1)%Z 0xfca00000fd6 0xfca00000fd6;
  mkModel 0x0 (-1)%Z 0x0 0x18000000182;
  mkModel 0x2700000027 (271)%Z 0x0 0xfe300000fed;
  mkModel 0x2a1000002a7 (-1)%Z 0xff300000ffd 0xffd00001006;
  mkModel 0x2700000027 (273)%Z 0x0 0x10060000100d;
  mkModel 0x2700000027 (-1)%Z 0x100d00001016 0x10160000101f;
  mkModel 0x0 (-1)%Z 0x0 0x18000000182;
  mkModel 0x2700000027 (276)%Z 0x0 0x10280000102d;
  mkModel 0x2700000027 (-1)%Z 0x102d00001034 0x10340000103b;
  mkModel 0x2700000027 (277)%Z 0x0 0x103b00001040;
  mkModel 0x2700000027 (278)%Z 0x0 0x104000001045;
  mkModel 0x2700000027 (279)%Z 0x0 0x18000000182;
  mkModel 0xdfd00000e04 (280)%Z 0x0 0x104500001049;
  mkModel 0x23b0000023d (281)%Z 0x0 0x18000000182;
  mkModel 0x2700000027 (-1)%Z 0x104900001056 0x105600001063;
  mkModel 0x2700000027 (-1)%Z 0x106c00001073 0x107300001075;
  mkModel 0x2700000027 (-1)%Z 0x10750000107c 0x107c0000107e;
  mkModel 0x2700000027 (-1)%Z 0x107e00001086 0x108600001089;
  mkModel 0x2a1000002a7 (283)%Z 0x0 0x108d00001093;
  mkModel 0x2a1000002a7 (-1)%Z 0x10930000109d 0x10930000109d;
  mkModel 0x2a1000002a7 (284)%Z 0x0 0x18000000182;
  mkModel 0x2700000027 (285)%Z 0x0 0x109d000010ac;
  mkModel 0x2700000027 (286)%Z 0x0 0x10ac000010bd;
  mkModel 0x2700000027 (-1)%Z 0x10bd000010c3 0x10c3000010cf;
  mkModel 0x2700000027 (-1)%Z 0x10cf000010db 0x10cf000010db;
  mkModel 0x2700000027 (287)%Z 0x0 0x10db000010e3;
  mkModel 0x2700000027 (288)%Z 0x0 0x10e3000010e9;
  mkModel 0x23b0000023d (289)%Z 0x0 0x10e9000010f6;
  mkModel 0x2700000027 (290)%Z 0x0 0x18000000182;
  mkModel 0x23b0000023d (291)%Z 0x0 0x18000000182;
  mkModel 0x23b0000023d (292)%Z 0x0 0x18000000182;
  mkModel 0x23b0000023d (-1)%Z 0x10f600001100 0x2700000027;
  mkModel 0x2700000027 (-1)%Z 0x11040000110b 0x110b0000110e;
  mkModel 0x2700000027 (294)%Z 0x0 0x18000000182;
  mkModel 0x2a1000002a7 (-1)%Z 0x110e00001117 0x111700001120;
  mkModel 0x2a1000002a7 (295)%Z 0x0 0x18000000182;
  mkModel 0x39a000003a7 (-1)%Z 0x11270000112c 0x112c00001130;
  mkModel 0x39a000003a7 (297)%Z 0x0 0x113000001139;
  mkModel 0x39a000003a7 (298)%Z 0x0 0x113900001142;
  mkModel 0x39a000003a7 (299)%Z 0x0 0x11420000114b;
  mkModel 0x39a000003a7 (300)%Z 0x0 0x114b00001154;
  mkModel 0x39a000003a7 (-1)%Z 0x11540000115a 0x115a00001160;
  mkModel 0x39a000003a7 (-1)%Z 0x116000001166 0x11660000116e;
  mkModel 0x39a000003a7 (301)%Z 0x0 0x116e00001178;
  mkModel 0x39a000003a7 (302)%Z 0x0 0x117800001188;
  mkModel 0x2700000027 (-1)%Z 0x11880000118d 0x118d00001196;
  mkModel 0x2700000027 (303)%Z 0x0 0x1196000011a8;
  mkModel 0x2700000027 (-1)%Z 0x11a8000011ad 0x11ad000011bd;
  mkModel 0x2700000027 (304)%Z 0x0 0x11bd000011cd;
  mkModel 0x2700000027 (305)%Z 0x0 0x11cd000011e6;
  mkModel 0x2700000027 (306)%Z 0x0 0x11e6000011f6;
  mkModel 0x2700000027 (307)%Z 0x0 0x11f60000120f;
  mkModel 0x2700000027 (-1)%Z 0x120f00001214 0x12140000122d;
  mkModel 0x2700000027 (308)%Z 0x0 0x122d0000123d;
  mkModel 0x2700000027 (309)%Z 0x0 0x123d00001256;
  mkModel 0x2700000027 (310)%Z 0x0 0x125600001266
].
Definition d_dr_dm_2 : list modelTuple := [
  mkModel 0x2700000027 (311)%Z 0x0 0x126600001276;
  mkModel 0x2700000027 (312)%Z 0x0 0x127600001286;
  mkModel 0x2700000027 (313)%Z 0x0 0x128600001298;
  mkModel 0x2700000027 (314)%Z 0x0 0x1298000012b3;
  mkModel 0x2700000027 (315)%Z 0x0 0x12b3000012c7;
  mkModel 0x2700000027 (316)%Z 0x0 0x12c7000012e4;
  mkModel 0x2700000027 (317)%Z 0x0 0x12e4000012f6;
  mkModel 0x2700000027 (318)%Z 0x0 0x12f600001311;
  mkModel 0x2700000027 (319)%Z 0x0 0x131100001320;
  mkModel 0x2700000027 (320)%Z 0x0 0x132000001332;
  mkModel 0x2700000027 (321)%Z 0x0 0x133200001346;
  mkModel 0x2700000027 (-1)%Z 0x13460000134b 0x134b00001363;
  mkModel 0x2700000027 (322)%Z 0x0 0x136300001372;
  mkModel 0x2700000027 (-1)%Z 0x137200001377 0x13770000138f;
  mkModel 0x2700000027 (323)%Z 0x0 0x138f0000139f;
  mkModel 0x2700000027 (324)%Z 0x0 0x139f000013af;
  mkModel 0x2700000027 (-1)%Z 0x13af000013b4 0x13b4000013c6;
  mkModel 0x2700000027 (-1)%Z 0x13c6000013cb 0x13cb000013df;
  mkModel 0x2700000027 (325)%Z 0x0 0x13df000013ef;
  mkModel 0x2700000027 (-1)%Z 0x13ef000013f4 0x13f400001404;
  mkModel 0x2700000027 (326)%Z 0x0 0x140400001414;
  mkModel 0x2700000027 (-1)%Z 0x141400001419 0x141900001428;
  mkModel 0x2700000027 (-1)%Z 0x142800001432 0x143200001442;
  mkModel 0x2700000027 (-1)%Z 0x144200001447 0x144700001455;
  mkModel 0x2700000027 (327)%Z 0x0 0x14550000145a;
  mkModel 0x2700000027 (328)%Z 0x0 0x145a00001463;
  mkModel 0x2700000027 (329)%Z 0x0 0x14630000146c;
  mkModel 0x2700000027 (330)%Z 0x0 0x146c00001470;
  mkModel 0x2700000027 (331)%Z 0x0 0x147000001475;
  mkModel 0x2700000027 (-1)%Z 0x14750000147a 0x147a0000147c;
  mkModel 0x2700000027 (-1)%Z 0x147c00001481 0x14810000148a;
  mkModel 0x2700000027 (-1)%Z 0x148a0000148f 0x148f00001496;
  mkModel 0x2700000027 (-1)%Z 0x14960000149b 0x149b000014a1;
  mkModel 0x2700000027 (332)%Z 0x0 0x14a1000014a3;
  mkModel 0x2700000027 (-1)%Z 0x14a3000014a9 0x14a9000014b4;
  mkModel 0x2700000027 (333)%Z 0x0 0x14b4000014c6;
  mkModel 0x2700000027 (334)%Z 0x0 0x14c6000014d8;
  mkModel 0x2700000027 (-1)%Z 0x14d8000014dd 0x14dd000014f0;
  mkModel 0x2700000027 (-1)%Z 0x14f0000014f5 0x14f500001504;
  mkModel 0x2700000027 (335)%Z 0x0 0x150400001519;
  mkModel 0x2700000027 (336)%Z 0x0 0x151900001537;
  mkModel 0x2700000027 (337)%Z 0x0 0x15370000154e;
  mkModel 0x2700000027 (338)%Z 0x0 0x154e0000155f;
  mkModel 0x2700000027 (339)%Z 0x0 0x155f0000156f;
  mkModel 0x2700000027 (340)%Z 0x0 0x156f00001584;
  mkModel 0x2700000027 (341)%Z 0x0 0x158400001594;
  mkModel 0x2700000027 (-1)%Z 0x159400001599 0x1599000015aa;
  mkModel 0x2700000027 (342)%Z 0x0 0x15aa000015ba;
  mkModel 0x2700000027 (343)%Z 0x0 0x15ba000015cb;
  mkModel 0x2700000027 (344)%Z 0x0 0x15aa000015ba;
  mkModel 0x2700000027 (345)%Z 0x0 0x15cb000015dc;
  mkModel 0x2700000027 (-1)%Z 0x15dc000015e1 0x15e1000015f1;
  mkModel 0x2700000027 (-1)%Z 0x15f1000015f6 0x15f600001607;
  mkModel 0x2700000027 (-1)%Z 0x16070000160c 0x160c00001618;
  mkModel 0x2700000027 (-1)%Z 0x16180000161d 0x161d00001620;
  mkModel 0x2700000027 (-1)%Z 0x162000001626 0x16260000162b;
  mkModel 0x2700000027 (-1)%Z 0x162b00001631 0x163100001634;
  mkModel 0x2700000027 (-1)%Z 0x16340000163a 0x163a00001644;
  mkModel 0x2700000027 (-1)%Z 0x164400001649 0x164900001660;
  mkModel 0x2700000027 (-1)%Z 0x166000001666 0x16660000167e;
  mkModel 0x2700000027 (-1)%Z 0x167e00001684 0x16840000169f;
  mkModel 0x2700000027 (346)%Z 0x0 0x169f000016b3;
  mkModel 0x2700000027 (-1)%Z 0x16b3000016b9 0x16b9000016cd;
  mkModel 0x2700000027 (-1)%Z 0x16cd000016d3 0x16d3000016e7;
  mkModel 0x2700000027 (-1)%Z 0x16e7000016ec 0x16ec000016fc;
  mkModel 0x2700000027 (347)%Z 0x0 0x16fc00001711;
  mkModel 0x2700000027 (348)%Z 0x0 0x17110000172f;
  mkModel 0x2700000027 (349)%Z 0x0 0x172f00001742;
  mkModel 0x2700000027 (350)%Z 0x0 0x174200001757;
  mkModel 0x2700000027 (351)%Z 0x0 0x17570000176f;
  mkModel 0xdfd00000e04 (-1)%Z 0x176f00001774 0x177400001787;
  mkModel 0x2a1000002a7 (-1)%Z 0x17870000178c 0x177400001787;
  mkModel 0x2a1000002a7 (352)%Z 0x0 0x178c000017a2;
  mkModel 0x2a1000002a7 (353)%Z 0x0 0x17a2000017a4;
  mkModel 0x2a1000002a7 (354)%Z 0x0 0x17a4000017a9;
  mkModel 0x2a1000002a7 (355)%Z 0x0 0x17a9000017b4;
  mkModel 0x2a1000002a7 (356)%Z 0x0 0x17b4000017be;
  mkModel 0x2a1000002a7 (357)%Z 0x0 0x17be000017c7;
  mkModel 0x2a1000002a7 (358)%Z 0x0 0x17c7000017d8;
  mkModel 0x2a1000002a7 (359)%Z 0x0 0x17d8000017f0;
  mkModel 0x2a1000002a7 (-1)%Z 0x17f0000017f5 0x17f5000017f9;
  mkModel 0x2a1000002a7 (-1)%Z 0x17f9000017fe 0x17fe00001806;
  mkModel 0x2a1000002a7 (-1)%Z 0x18060000180b 0x180b00001817;
  mkModel 0x2a1000002a7 (360)%Z 0x0 0x18170000181e;
  mkModel 0xdfd00000e04 (-1)%Z 0x181e00001823 0x182300001836;
  mkModel 0x2a1000002a7 (-1)%Z 0x18360000183b 0x183b0000184f;
  mkModel 0x2700000027 (361)%Z 0x0 0x184f00001864;
  mkModel 0x2700000027 (362)%Z 0x0 0x186400001877;
  mkModel 0x2700000027 (363)%Z 0x0 0x18770000188c;
  mkModel 0x2700000027 (364)%Z 0x0 0x188c000018a7;
  mkModel 0x2700000027 (365)%Z 0x0 0x18a7000018bd;
  mkModel 0x2700000027 (-1)%Z 0x18bd000018c2 0x18c2000018d7;
  mkModel 0x2700000027 (366)%Z 0x0 0x18d7000018ef;
  mkModel 0x2700000027 (367)%Z 0x0 0x18ef00001905;
  mkModel 0x2700000027 (-1)%Z 0x19050000190a 0x190a00001920;
  mkModel 0x2700000027 (-1)%Z 0x192000001926 0x3a7000003a9;
  mkModel 0x2700000027 (-1)%Z 0x19260000192c 0x192c0000192f;
  mkModel 0x2700000027 (368)%Z 0x0 0x192f00001933;
  mkModel 0x2700000027 (369)%Z 0x0 0x193300001935;
  mkModel 0x2700000027 (370)%Z 0x0 0x19350000193c;
  mkModel 0x2700000027 (371)%Z 0x0 0x193c00001941;
  mkModel 0x2a1000002a7 (-1)%Z 0x194100001946 0x19460000194e;
  mkModel 0x2a1000002a7 (372)%Z 0x0 0x194e00001955;
  mkModel 0x2a1000002a7 (-1)%Z 0x19550000195a 0x195a00001960;
  mkModel 0x2700000027 (373)%Z 0x0 0x196000001962;
  mkModel 0x2700000027 (374)%Z 0x0 0x196200001968;
  mkModel 0x2700000027 (-1)%Z 0x19680000196d 0x196d00001977;
  mkModel 0x2700000027 (375)%Z 0x0 0x197700001979;
  mkModel 0x2700000027 (376)%Z 0x0 0x19790000197c;
  mkModel 0x2700000027 (-1)%Z 0x197c00001981 0x198100001989;
  mkModel 0x2700000027 (-1)%Z 0x19890000198e 0x198e00001998;
  mkModel 0x2700000027 (377)%Z 0x0 0x19980000199b;
  mkModel 0x2700000027 (378)%Z 0x0 0x199b000019a4;
  mkModel 0x2700000027 (-1)%Z 0x19a4000019a9 0x19a9000019ae;
  mkModel 0x2a1000002a7 (-1)%Z 0x19ae000019b3 0x19b3000019c9;
  mkModel 0x2700000027 (379)%Z 0x0 0x19c9000019df;
  mkModel 0x2700000027 (380)%Z 0x0 0x19df000019fe;
  mkModel 0x2700000027 (381)%Z 0x0 0x19fe00001a14;
  mkModel 0x2a1000002a7 (382)%Z 0x0 0x1a1400001a2a;
  mkModel 0x2a1000002a7 (-1)%Z 0x1a2a00001a2f 0x1a2f00001a45;
  mkModel 0x2a1000002a7 (-1)%Z 0x1a4500001a49 0x1a4900001a61;
  mkModel 0x2a1000002a7 (383)%Z 0x0 0x1a6100001a71;
  mkModel 0x2a1000002a7 (384)%Z 0x0 0x1a7100001a81;
  mkModel 0x2a1000002a7 (-1)%Z 0x1a8100001a85 0x1a7100001a81;
  mkModel 0x2a1000002a7 (-1)%Z 0x1a8500001a8a 0x1a8a00001a9a;
  mkModel 0x2a1000002a7 (-1)%Z 0x1a9a00001a9f 0x1a9f00001ab4;
  mkModel 0x2a1000002a7 (-1)%Z 0x1ab400001ab9 0x1ab900001ac8;
  mkModel 0x2a1000002a7 (-1)%Z 0x1ac800001acd 0x1acd00001adc;
  mkModel 0x2a1000002a7 (-1)%Z 0x1adc00001ae1 0x1ae100001af1;
  mkModel 0x2a1000002a7 (-1)%Z 0x1af100001af6 0x1af600001b07;
  mkModel 0x2700000027 (385)%Z 0x0 0x1b0700001b18;
  mkModel 0x2700000027 (386)%Z 0x0 0x1b1800001b1c;
  mkModel 0x2700000027 (-1)%Z 0x1b1c00001b32 0x1b3200001b38;
  mkModel 0x2700000027 (387)%Z 0x0 0x1b3800001b47;
  mkModel 0x2700000027 (-1)%Z 0x1b4700001b5c 0x1b5c00001b69;
  mkModel 0x2700000027 (-1)%Z 0x1b6900001b7e 0x1b7e00001b8b;
  mkModel 0x2700000027 (-1)%Z 0x1b8b00001ba1 0x1ba100001baf;
  mkModel 0x2700000027 (-1)%Z 0x1baf00001bc4 0x1bc400001bd1;
  mkModel 0x2700000027 (-1)%Z 0x1bd100001bd7 0x1bd700001be5;
  mkModel 0x2700000027 (-1)%Z 0x1be500001bea 0x1bea00001bfa;
  mkModel 0x2a1000002a7 (388)%Z 0x0 0x1bfa00001c06;
  mkModel 0x2700000027 (389)%Z 0x0 0x1c0600001c11;
  mkModel 0x2700000027 (390)%Z 0x0 0x1c0600001c11;
  mkModel 0x2700000027 (391)%Z 0x0 0x1c1100001c1b;
  mkModel 0x2700000027 (-1)%Z 0x1c1b00001c20 0x1c2000001c26;
  mkModel 0x2700000027 (-1)%Z 0x1c2600001c2b 0x1c2b00001c33;
  mkModel 0x2700000027 (392)%Z 0x0 0x1c3300001c35;
  mkModel 0x2700000027 (393)%Z 0x0 0x1c3500001c37;
  mkModel 0x2700000027 (394)%Z 0x0 0x1c3700001c3c;
  mkModel 0x2700000027 (395)%Z 0x0 0x1c3c00001c41;
  mkModel 0x2700000027 (-1)%Z 0x1c4100001c46 0x1c4600001c4d;
  mkModel 0x2700000027 (-1)%Z 0x1c4d00001c52 0x1c5200001c59;
  mkModel 0x2700000027 (396)%Z 0x0 0x116e00001178;
  mkModel 0x2700000027 (-1)%Z 0x1c5900001c5e 0x1c5e00001c6d;
  mkModel 0x2700000027 (397)%Z 0x0 0x1c6d00001c74;
  mkModel 0x2700000027 (398)%Z 0x0 0x1c7400001c77;
  mkModel 0x2700000027 (399)%Z 0x0 0x1c7700001c7f;
  mkModel 0x2700000027 (400)%Z 0x0 0x1c7f00001c86;
  mkModel 0x2700000027 (401)%Z 0x0 0x1c8600001c87;
  mkModel 0x2700000027 (402)%Z 0x0 0x1c8700001c89;
  mkModel 0x2700000027 (403)%Z 0x0 0x1c8900001c92;
  mkModel 0x2700000027 (404)%Z 0x0 0x1c9200001c9b;
  mkModel 0x2700000027 (405)%Z 0x0 0x1c9b00001ca4;
  mkModel 0x2700000027 (406)%Z 0x0 0x1ca400001cad;
  mkModel 0x2700000027 (-1)%Z 0x1cad00001cb2 0x1cb200001cbb;
  mkModel 0x2700000027 (407)%Z 0x0 0x1cbb00001cc4;
  mkModel 0x2700000027 (408)%Z 0x0 0x1cc400001cc6;
  mkModel 0x2700000027 (409)%Z 0x0 0x1cc600001ccf;
  mkModel 0x2700000027 (-1)%Z 0x1ccf00001cd4 0x1cd400001cde;
  mkModel 0x2700000027 (410)%Z 0x0 0x1cde00001ce8;
  mkModel 0x2700000027 (411)%Z 0x0 0x1ce800001cea;
  mkModel 0x2700000027 (412)%Z 0x0 0x1cea00001cec;
  mkModel 0x2700000027 (-1)%Z 0x1cec00001cf1 0x1cf100001cf9;
  mkModel 0xdfd00000e04 (413)%Z 0x0 0x1cf900001cfb;
  mkModel 0x2700000027 (414)%Z 0x0 0x1cfb00001cfc;
  mkModel 0x2700000027 (-1)%Z 0x1cfc00001d01 0x1d0100001d09;
  mkModel 0x2700000027 (415)%Z 0x0 0x1d0900001d12;
  mkModel 0x2700000027 (416)%Z 0x0 0x1d1200001d14;
  mkModel 0x2700000027 (417)%Z 0x0 0x1d1400001d16;
  mkModel 0x2700000027 (-1)%Z 0x1d1600001d1b 0x1d1b00001d22;
  mkModel 0xdfd00000e04 (418)%Z 0x0 0x14a1000014a3;
  mkModel 0x2700000027 (419)%Z 0x0 0x1d2200001d24;
  mkModel 0x2700000027 (420)%Z 0x0 0x1d2400001d2d;
  mkModel 0x2700000027 (421)%Z 0x0 0x1d2d00001d2e;
  mkModel 0x2700000027 (-1)%Z 0x1d2e00001d33 0x1d3300001d3a;
  mkModel 0x2700000027 (-1)%Z 0x1d3a00001d3f 0x1d3f00001d40;
  mkModel 0x2a1000002a7 (422)%Z 0x0 0x1d4000001d46;
  mkModel 0x2a1000002a7 (423)%Z 0x0 0x1d4600001d4e;
  mkModel 0x2a1000002a7 (424)%Z 0x0 0x1d4e00001d55;
  mkModel 0x2a1000002a7 (425)%Z 0x0 0x1d5500001d5e;
  mkModel 0x2700000027 (-1)%Z 0x1d5e00001d68 0x2700000027;
  mkModel 0x2700000027 (426)%Z 0x0 0x1d6800001d75;
  mkModel 0x2700000027 (-1)%Z 0x1d7500001d7a 0x1d7a00001d7f;
  mkModel 0x2700000027 (427)%Z 0x0 0x18000000182;
  mkModel 0x2700000027 (428)%Z 0x0 0x18000000182;
  mkModel 0x2700000027 (429)%Z 0x0 0x18000000182;
  mkModel 0x2700000027 (430)%Z 0x0 0x18000000182;
  mkModel 0x0 (-1)%Z 0x0 0x18000000182;
  mkModel 0x2700000027 (433)%Z 0x0 0x18000000182;
  mkModel 0x2700000027 (434)%Z 0x0 0x1d8c00001d93
].
Definition d_dr_dm_3 : list modelTuple := [
  mkModel 0x2700000027 (435)%Z 0x0 0x18000000182;
  mkModel 0x2700000027 (-1)%Z 0x1d9b00001da0 0x1da000001dad;
  mkModel 0x2700000027 (437)%Z 0x0 0x18000000182;
  mkModel 0x0 (-1)%Z 0x0 0x18000000182;
  mkModel 0x2700000027 (-1)%Z 0x1dbc00001dc5 0x1dc500001dce;
  mkModel 0x2700000027 (-1)%Z 0x1dce00001dda 0x1dda00001de6;
  mkModel 0x2700000027 (-1)%Z 0x1de600001dee 0x1dee00001df6;
  mkModel 0x2700000027 (-1)%Z 0x1df600001e01 0x1e0100001e0c;
  mkModel 0x2700000027 (-1)%Z 0x1e0c00001e13 0x1e1300001e1a;
  mkModel 0x2700000027 (440)%Z 0x0 0x18000000182;
  mkModel 0x2700000027 (-1)%Z 0x1e1a00001e26 0x1e2600001e2a;
  mkModel 0x2700000027 (-1)%Z 0x1e2a00001e34 0x1e3400001e36;
  mkModel 0x2700000027 (-1)%Z 0x1e3600001e43 0x1e4300001e48;
  mkModel 0x2700000027 (-1)%Z 0x1e4800001e57 0x1e5700001e5e;
  mkModel 0x2700000027 (-1)%Z 0x1e5e00001e69 0x1e6900001e6c;
  mkModel 0x2700000027 (441)%Z 0x0 0x1e6c00001e73;
  mkModel 0x2700000027 (442)%Z 0x0 0x1e7300001e78;
  mkModel 0x2700000027 (443)%Z 0x0 0x18000000182;
  mkModel 0x2700000027 (444)%Z 0x0 0x1e7800001e7e;
  mkModel 0x2700000027 (446)%Z 0x0 0x1e8700001e8e;
  mkModel 0x2700000027 (447)%Z 0x0 0x1e8e00001e9a;
  mkModel 0x2700000027 (448)%Z 0x0 0x1e9a00001e9e;
  mkModel 0x2700000027 (449)%Z 0x0 0x1e9e00001ea2;
  mkModel 0x2700000027 (450)%Z 0x0 0x1ea200001ea5;
  mkModel 0x2700000027 (451)%Z 0x0 0x1ea500001ea7;
  mkModel 0x2700000027 (452)%Z 0x0 0x1ea700001eaa;
  mkModel 0x2700000027 (453)%Z 0x0 0x1eaa00001eb2;
  mkModel 0x2700000027 (454)%Z 0x0 0x1eb200001eba;
  mkModel 0x2700000027 (455)%Z 0x0 0x1eba00001ecc;
  mkModel 0x2700000027 (456)%Z 0x0 0x1ecc00001ecd;
  mkModel 0x2700000027 (457)%Z 0x0 0x1ecd00001ed8;
  mkModel 0x2700000027 (-1)%Z 0x1ed800001edd 0x1edd00001ee9;
  mkModel 0x2700000027 (-1)%Z 0x1ee900001efb 0x1efb00001f0e;
  mkModel 0x2700000027 (458)%Z 0x0 0x1f0e00001f1b;
  mkModel 0x2700000027 (459)%Z 0x0 0x1f1b00001f2c;
  mkModel 0x2700000027 (460)%Z 0x0 0x1f2c00001f38;
  mkModel 0x2700000027 (-1)%Z 0x1f3800001f44 0x1f4400001f51;
  mkModel 0x2700000027 (461)%Z 0x0 0x1f5100001f59;
  mkModel 0x2700000027 (462)%Z 0x0 0x1f5900001f5f;
  mkModel 0x2700000027 (463)%Z 0x0 0x1eaa00001eb2;
  mkModel 0x2700000027 (-1)%Z 0x1f6600001f6b 0x1f6b00001f71;
  mkModel 0x2a1000002a7 (-1)%Z 0x1f7100001f7b 0x1f7b00001f85;
  mkModel 0x2a1000002a7 (-1)%Z 0x1f8500001f8d 0x1f8d00001f97;
  mkModel 0x2700000027 (-1)%Z 0x1f9700001f9d 0x1f9d00001fa3;
  mkModel 0x2700000027 (465)%Z 0x0 0x1fa300001fad;
  mkModel 0x2700000027 (466)%Z 0x0 0x1fad00001fb5;
  mkModel 0x2700000027 (-1)%Z 0x1fb500001fbc 0x1fbc00001fc3;
  mkModel 0x2700000027 (-1)%Z 0x1fc300001fca 0x1fca00001fd1;
  mkModel 0x2700000027 (-1)%Z 0x1fd100001fdb 0x1fdb00001fe5;
  mkModel 0x2700000027 (-1)%Z 0x1fe500001fed 0x1fed00001ff5;
  mkModel 0x2700000027 (467)%Z 0x0 0x1ff500001fff;
  mkModel 0x2700000027 (468)%Z 0x0 0x1fff00002007;
  mkModel 0x2700000027 (-1)%Z 0x20070000200e 0x200e00002015;
  mkModel 0x2700000027 (-1)%Z 0x20150000201c 0x201c00002023;
  mkModel 0x2700000027 (469)%Z 0x0 0x20230000202a;
  mkModel 0x2700000027 (-1)%Z 0x202a00002031 0x203100002038;
  mkModel 0x2700000027 (-1)%Z 0x20380000204b 0x204b00002060;
  mkModel 0x2700000027 (-1)%Z 0x20600000206b 0x206b00002076;
  mkModel 0x2700000027 (470)%Z 0x0 0x207600002085;
  mkModel 0x2700000027 (-1)%Z 0x208500002092 0x20920000209f;
  mkModel 0x2700000027 (471)%Z 0x0 0x209f000020ae;
  mkModel 0x2700000027 (472)%Z 0x0 0x20ae000020b8;
  mkModel 0x2700000027 (-1)%Z 0x20b8000020bf 0x20bf000020c6;
  mkModel 0x2700000027 (-1)%Z 0x20c6000020cf 0x20cf000020d8;
  mkModel 0x2700000027 (473)%Z 0x0 0x20d8000020e0;
  mkModel 0x2700000027 (-1)%Z 0x20e0000020e8 0x20e8000020f0;
  mkModel 0x2700000027 (-1)%Z 0x20f0000020f7 0x20f7000020fe;
  mkModel 0x2700000027 (-1)%Z 0x20fe00002107 0x210700002110;
  mkModel 0x2700000027 (474)%Z 0x0 0x21100000211e;
  mkModel 0x2700000027 (-1)%Z 0x211e00002128 0x212800002132;
  mkModel 0x2700000027 (-1)%Z 0x21320000213e 0x213e0000214a;
  mkModel 0x2700000027 (-1)%Z 0x214a00002159 0x215900002168;
  mkModel 0x2700000027 (475)%Z 0x0 0x216800002173;
  mkModel 0x2700000027 (-1)%Z 0x217300002181 0x21810000218f;
  mkModel 0x2700000027 (-1)%Z 0x218f0000219c 0x219c000021a9;
  mkModel 0x2700000027 (-1)%Z 0x21a9000021b4 0x21b4000021bf;
  mkModel 0x2700000027 (476)%Z 0x0 0x21bf000021ce;
  mkModel 0x2700000027 (477)%Z 0x0 0x21ce000021e1;
  mkModel 0x2700000027 (478)%Z 0x0 0x21e1000021f6;
  mkModel 0x2700000027 (479)%Z 0x0 0x21f600002203;
  mkModel 0x2700000027 (480)%Z 0x0 0x220300002211;
  mkModel 0x2700000027 (481)%Z 0x0 0x22110000221e;
  mkModel 0x2700000027 (-1)%Z 0x221e0000222a 0x222a00002236;
  mkModel 0x2700000027 (482)%Z 0x0 0x223600002242;
  mkModel 0x2700000027 (-1)%Z 0x224200002254 0x225400002266;
  mkModel 0x2700000027 (483)%Z 0x0 0x226600002274;
  mkModel 0x2700000027 (484)%Z 0x0 0x22740000227c;
  mkModel 0x2700000027 (485)%Z 0x0 0x227c00002285;
  mkModel 0x2700000027 (-1)%Z 0x22850000228c 0x228c00002293;
  mkModel 0x2700000027 (486)%Z 0x0 0x22930000229a;
  mkModel 0x2700000027 (487)%Z 0x0 0x229a000022a2;
  mkModel 0x2700000027 (488)%Z 0x0 0x22a2000022aa;
  mkModel 0x2700000027 (-1)%Z 0x22aa000022b2 0x22b2000022bb;
  mkModel 0x2700000027 (-1)%Z 0x22bb000022ca 0x22ca000022d6;
  mkModel 0x2700000027 (-1)%Z 0x22d6000022dd 0x22dd000022e4;
  mkModel 0x2700000027 (-1)%Z 0x22e4000022ea 0x22ea000022f0;
  mkModel 0x2700000027 (-1)%Z 0x22f0000022fd 0x22fd0000230c;
  mkModel 0x2700000027 (-1)%Z 0x230c00002318 0x231800002320;
  mkModel 0x2700000027 (489)%Z 0x0 0x232000002328;
  mkModel 0x2700000027 (-1)%Z 0x23280000232f 0x232f00002336;
  mkModel 0x2700000027 (-1)%Z 0x23360000233e 0x23360000233e;
  mkModel 0x2700000027 (-1)%Z 0x233e00002349 0x234900002352;
  mkModel 0x2700000027 (-1)%Z 0x23520000235c 0x235c00002362;
  mkModel 0x2a1000002a7 (490)%Z 0x0 0x236200002369;
  mkModel 0x23b0000023d (-1)%Z 0x236900002372 0x23720000237b;
  mkModel 0x2a1000002a7 (-1)%Z 0x237b0000238a 0x238a00002393;
  mkModel 0x2a1000002a7 (-1)%Z 0x23930000239e 0x239e000023a2;
  mkModel 0x2a1000002a7 (-1)%Z 0x23a2000023b2 0x1f7b00001f85;
  mkModel 0x2a1000002a7 (-1)%Z 0x23b2000023c2 0x23c2000023d4;
  mkModel 0x2a1000002a7 (-1)%Z 0x23d4000023e5 0x23e5000023f8;
  mkModel 0x2a1000002a7 (491)%Z 0x0 0x23f80000240d;
  mkModel 0x2a1000002a7 (-1)%Z 0x240d0000241a 0x241a0000242c;
  mkModel 0x2a1000002a7 (-1)%Z 0x242c0000243b 0x243b0000244a;
  mkModel 0x2a1000002a7 (-1)%Z 0x244a00002453 0x245300002461;
  mkModel 0x2a1000002a7 (492)%Z 0x0 0x24610000246d;
  mkModel 0x2a1000002a7 (493)%Z 0x0 0x236200002369;
  mkModel 0x2a1000002a7 (494)%Z 0x0 0x246d00002474;
  mkModel 0x2a1000002a7 (495)%Z 0x0 0x247400002479;
  mkModel 0x2a1000002a7 (-1)%Z 0x247900002485 0x247400002479;
  mkModel 0x2a1000002a7 (496)%Z 0x0 0x248500002492;
  mkModel 0x2a1000002a7 (-1)%Z 0x249200002499 0x2499000024a1;
  mkModel 0x2a1000002a7 (-1)%Z 0x24a1000024b3 0x24b3000024bd;
  mkModel 0x2a1000002a7 (497)%Z 0x0 0x24bd000024c1;
  mkModel 0x2700000027 (498)%Z 0x0 0x18000000182;
  mkModel 0x2700000027 (499)%Z 0x0 0x18000000182;
  mkModel 0x2700000027 (-1)%Z 0x24ca000024da 0x24da000024ea;
  mkModel 0x2700000027 (-1)%Z 0x24ea000024fa 0x24fa0000250a;
  mkModel 0x2700000027 (-1)%Z 0x250a00002510 0x250a00002510;
  mkModel 0x8e00000099 (-1)%Z 0x25100000251c 0x251c00002529;
  mkModel 0x8e00000099 (-1)%Z 0x25290000253c 0x253c0000254f;
  mkModel 0x8e00000099 (501)%Z 0x0 0x254f0000255f;
  mkModel 0x8e00000099 (502)%Z 0x0 0x255f0000256f;
  mkModel 0x8e00000099 (-1)%Z 0x256f0000257b 0x256f0000257b;
  mkModel 0x8e00000099 (-1)%Z 0x257b0000258a 0x257b0000258a;
  mkModel 0x8e00000099 (-1)%Z 0x258a00002596 0x2596000025a3;
  mkModel 0x8e00000099 (504)%Z 0x0 0x18000000182;
  mkModel 0x8e00000099 (505)%Z 0x0 0x18000000182;
  mkModel 0x0 (-1)%Z 0x0 0xe3400000e3c;
  mkModel 0x2700000027 (507)%Z 0x0 0x18000000182;
  mkModel 0x2700000027 (508)%Z 0x0 0x18000000182;
  mkModel 0x23b0000023d (511)%Z 0x0 0x25bf000025d3;
  mkModel 0x23b0000023d (512)%Z 0x0 0x25d3000025e7;
  mkModel 0x23b0000023d (513)%Z 0x0 0x25e7000025fb;
  mkModel 0x23b0000023d (514)%Z 0x0 0x25fb0000260a;
  mkModel 0x23b0000023d (515)%Z 0x0 0x260a00002621;
  mkModel 0x23b0000023d (516)%Z 0x0 0x262100002638;
  mkModel 0x23b0000023d (517)%Z 0x0 0x26380000264f;
  mkModel 0x23b0000023d (518)%Z 0x0 0x264f00002662;
  mkModel 0x23b0000023d (519)%Z 0x0 0x266200002673;
  mkModel 0x23b0000023d (520)%Z 0x0 0x267300002689;
  mkModel 0x23b0000023d (521)%Z 0x0 0x26890000269a;
  mkModel 0x23b0000023d (522)%Z 0x0 0x269a000026a9;
  mkModel 0x23b0000023d (523)%Z 0x0 0x26a9000026be;
  mkModel 0x23b0000023d (524)%Z 0x0 0x26be000026d8;
  mkModel 0x23b0000023d (525)%Z 0x0 0x26d8000026f0;
  mkModel 0x23b0000023d (526)%Z 0x0 0x26f000002708;
  mkModel 0x23b0000023d (527)%Z 0x0 0x270800002715;
  mkModel 0x23b0000023d (528)%Z 0x0 0x271500002725;
  mkModel 0x23b0000023d (529)%Z 0x0 0x27250000273c;
  mkModel 0x23b0000023d (530)%Z 0x0 0x273c00002750;
  mkModel 0x23b0000023d (531)%Z 0x0 0x27500000276b;
  mkModel 0x2700000027 (532)%Z 0x0 0x276b00002772;
  mkModel 0x2700000027 (533)%Z 0x0 0x277200002780;
  mkModel 0x2700000027 (534)%Z 0x0 0x27800000278e;
  mkModel 0x2700000027 (535)%Z 0x0 0x278e000027a6;
  mkModel 0x2700000027 (536)%Z 0x0 0x27a6000027bc;
  mkModel 0x2700000027 (537)%Z 0x0 0x27bc000027d2;
  mkModel 0x2700000027 (538)%Z 0x0 0x27d2000027e9;
  mkModel 0x2700000027 (539)%Z 0x0 0x27e9000027fe;
  mkModel 0x2700000027 (540)%Z 0x0 0x27fe00002817;
  mkModel 0x2700000027 (541)%Z 0x0 0x28170000282e;
  mkModel 0x2700000027 (542)%Z 0x0 0x282e00002839;
  mkModel 0x2700000027 (543)%Z 0x0 0x283900002842;
  mkModel 0x2700000027 (544)%Z 0x0 0x28420000284b;
  mkModel 0x2700000027 (545)%Z 0x0 0x284b00002858;
  mkModel 0x2700000027 (546)%Z 0x0 0x285800002868;
  mkModel 0x2700000027 (547)%Z 0x0 0x286800002878;
  mkModel 0x2700000027 (548)%Z 0x0 0x287800002888;
  mkModel 0x2700000027 (549)%Z 0x0 0x288800002898;
  mkModel 0x2700000027 (550)%Z 0x0 0x2898000028a8;
  mkModel 0x2700000027 (551)%Z 0x0 0x28a8000028b8;
  mkModel 0x2700000027 (552)%Z 0x0 0x28b8000028c8;
  mkModel 0x2700000027 (553)%Z 0x0 0x28c8000028d4;
  mkModel 0x2700000027 (554)%Z 0x0 0x28d4000028e3;
  mkModel 0x2700000027 (555)%Z 0x0 0x28e3000028ed;
  mkModel 0x2700000027 (556)%Z 0x0 0x28ed000028fe;
  mkModel 0x2700000027 (557)%Z 0x0 0x28fe0000290f;
  mkModel 0x2700000027 (558)%Z 0x0 0x290f00002920;
  mkModel 0x2700000027 (559)%Z 0x0 0x292000002931;
  mkModel 0x2700000027 (560)%Z 0x0 0x293100002947;
  mkModel 0x23f00000249 (-1)%Z 0x29470000294f 0x294f00002959;
  mkModel 0x2700000027 (561)%Z 0x0 0x295900002964;
  mkModel 0x2700000027 (-1)%Z 0x29640000296a 0x29640000296a;
  mkModel 0x296a00002977 (562)%Z 0x0 0x29770000297b;
  mkModel 0x296a00002977 (563)%Z 0x0 0x29770000297b;
  mkModel 0x296a00002977 (564)%Z 0x0 0x297b00002983;
  mkModel 0x2700000027 (565)%Z 0x0 0x29830000298f;
  mkModel 0x296a00002977 (566)%Z 0x0 0x298f000029a0;
  mkModel 0x296a00002977 (567)%Z 0x0 0x29a0000029ab;
  mkModel 0x296a00002977 (568)%Z 0x0 0x29ab000029b6
].
Definition d_dr_dm_4 : list modelTuple := [
  mkModel 0x296a00002977 (569)%Z 0x0 0x29b6000029c9;
  mkModel 0x296a00002977 (-1)%Z 0x29c9000029d9 0x29d9000029de;
  mkModel 0x23b0000023d (570)%Z 0x0 0x2700000027;
  mkModel 0x2700000027 (572)%Z 0x0 0x29eb000029f9;
  mkModel 0x2700000027 (573)%Z 0x0 0x29f900002a0a;
  mkModel 0x0 (-1)%Z 0x0 0x18000000182;
  mkModel 0x2700000027 (-1)%Z 0x2a1500002a1c 0x2a1c00002a24;
  mkModel 0x2700000027 (-1)%Z 0x2a2400002a2a 0x2a2a00002a31;
  mkModel 0x2700000027 (-1)%Z 0x2a3500002a42 0x2a3500002a42;
  mkModel 0x2700000027 (-1)%Z 0x2a4200002a47 0x2a4200002a47;
  mkModel 0x2700000027 (-1)%Z 0x2a4700002a55 0x2a5500002a63;
  mkModel 0x2700000027 (577)%Z 0x0 0x98000000989;
  mkModel 0x39a000003a7 (578)%Z 0x0 0x18000000182;
  mkModel 0x2700000027 (579)%Z 0x0 0x18000000182;
  mkModel 0x2700000027 (580)%Z 0x0 0x18000000182;
  mkModel 0x0 (-1)%Z 0x0 0x18000000182;
  mkModel 0x0 (-1)%Z 0x0 0x2a7200002a75;
  mkModel 0x2700000027 (584)%Z 0x0 0x2a7e00002a85;
  mkModel 0x2700000027 (585)%Z 0x0 0x18000000182;
  mkModel 0x2700000027 (587)%Z 0x0 0x2a8a00002a99;
  mkModel 0x2700000027 (588)%Z 0x0 0x2a9900002aa6;
  mkModel 0x2700000027 (589)%Z 0x0 0x2aa600002ab7;
  mkModel 0x0 (-1)%Z 0x0 0x18000000182;
  mkModel 0x0 (-1)%Z 0x0 0x18000000182;
  mkModel 0x2700000027 (593)%Z 0x0 0x2ac600002ac9;
  mkModel 0x0 (-1)%Z 0x0 0x18000000182;
  mkModel 0x2700000027 (596)%Z 0x0 0x2ad200002add;
  mkModel 0x2700000027 (597)%Z 0x0 0x2add00002ae8;
  mkModel 0x2700000027 (598)%Z 0x0 0x2ae800002aef;
  mkModel 0x2700000027 (599)%Z 0x0 0x2aef00002afa;
  mkModel 0x2700000027 (600)%Z 0x0 0x18000000182;
  mkModel 0x0 (-1)%Z 0x0 0x18000000182;
  mkModel 0x296a00002977 (603)%Z 0x0 0x2b0800002b0f;
  mkModel 0x296a00002977 (-1)%Z 0x2b0f00002b16 0x2700000027;
  mkModel 0x2b1e00002b26 (-1)%Z 0x2b1600002b1e 0x2b2600002b30;
  mkModel 0x2b1e00002b26 (-1)%Z 0x2b3000002b38 0x2b3800002b42;
  mkModel 0x2b1e00002b26 (-1)%Z 0x2b4200002b4a 0x2b4a00002b5d;
  mkModel 0x2b1e00002b26 (-1)%Z 0x2b5d00002b65 0x2b6500002b78;
  mkModel 0x2b1e00002b26 (-1)%Z 0x2b7800002b80 0x2b8000002b93;
  mkModel 0x2b1e00002b26 (-1)%Z 0x2b9300002b9b 0x2b9b00002bae;
  mkModel 0x2b1e00002b26 (604)%Z 0x0 0x2bae00002bc1;
  mkModel 0x2b1e00002b26 (605)%Z 0x0 0x2bc100002bd4;
  mkModel 0x2b1e00002b26 (606)%Z 0x0 0x2bd400002be1;
  mkModel 0x2b1e00002b26 (607)%Z 0x0 0x2be100002bee;
  mkModel 0x2b1e00002b26 (608)%Z 0x0 0x2bee00002c03;
  mkModel 0x2b1e00002b26 (609)%Z 0x0 0x2c0300002c18;
  mkModel 0x2b1e00002b26 (610)%Z 0x0 0x2c1800002c2b;
  mkModel 0x2b1e00002b26 (611)%Z 0x0 0x2c2b00002c3e;
  mkModel 0x2b1e00002b26 (-1)%Z 0x2c3e00002c47 0x2c4700002c52;
  mkModel 0x2b1e00002b26 (-1)%Z 0x2c5200002c5a 0x2c5a00002c67;
  mkModel 0x2b1e00002b26 (612)%Z 0x0 0x2c6700002c7b;
  mkModel 0x2b1e00002b26 (613)%Z 0x0 0x2c7b00002c8f;
  mkModel 0x2b1e00002b26 (614)%Z 0x0 0x2c8f00002ca2;
  mkModel 0x2b1e00002b26 (615)%Z 0x0 0x2ca200002cb5;
  mkModel 0x2b1e00002b26 (-1)%Z 0x2cb500002cbd 0x2cbd00002cd1;
  mkModel 0x2b1e00002b26 (-1)%Z 0x2cd100002cd9 0x2cd900002ced;
  mkModel 0x2b1e00002b26 (-1)%Z 0x2ced00002cf6 0x2cbd00002cd1;
  mkModel 0x2b1e00002b26 (-1)%Z 0x2cf600002cff 0x2cd900002ced;
  mkModel 0x2b1e00002b26 (-1)%Z 0x2cff00002d07 0x2d0700002d1a;
  mkModel 0x2b1e00002b26 (-1)%Z 0x2d1a00002d22 0x2d0700002d1a;
  mkModel 0x2b1e00002b26 (-1)%Z 0x2d2200002d2a 0x2d2a00002d3d;
  mkModel 0x2b1e00002b26 (-1)%Z 0x2d3d00002d45 0x2d2a00002d3d;
  mkModel 0x2b1e00002b26 (616)%Z 0x0 0x2d4500002d4a;
  mkModel 0xc9b00000ca2 (617)%Z 0x0 0x2d4a00002d58;
  mkModel 0xc9b00000ca2 (618)%Z 0x0 0x2d5800002d66;
  mkModel 0xc9b00000ca2 (619)%Z 0x0 0x2d6600002d74;
  mkModel 0xc9b00000ca2 (620)%Z 0x0 0x2d7400002d82;
  mkModel 0xc9b00000ca2 (621)%Z 0x0 0x2d8200002d95;
  mkModel 0xc9b00000ca2 (622)%Z 0x0 0x2d9500002da3;
  mkModel 0xc9b00000ca2 (623)%Z 0x0 0x2da300002dae;
  mkModel 0xc9b00000ca2 (624)%Z 0x0 0x2dae00002dbd;
  mkModel 0xc9b00000ca2 (625)%Z 0x0 0x2dbd00002dcc;
  mkModel 0xc9b00000ca2 (626)%Z 0x0 0x2dcc00002dd7;
  mkModel 0xc9b00000ca2 (627)%Z 0x0 0x2dd700002de2;
  mkModel 0xc9b00000ca2 (628)%Z 0x0 0x2de200002ded;
  mkModel 0xc9b00000ca2 (629)%Z 0x0 0x2de200002ded;
  mkModel 0xc9b00000ca2 (630)%Z 0x0 0x2ded00002dfc;
  mkModel 0xc9b00000ca2 (631)%Z 0x0 0x2dfc00002e0d;
  mkModel 0xc9b00000ca2 (632)%Z 0x0 0x2e0d00002e1c;
  mkModel 0xc9b00000ca2 (633)%Z 0x0 0x2e1c00002e2d;
  mkModel 0xc9b00000ca2 (634)%Z 0x0 0x2e2d00002e3c;
  mkModel 0xc9b00000ca2 (635)%Z 0x0 0x2e3c00002e52;
  mkModel 0xc9b00000ca2 (636)%Z 0x0 0x2e5200002e61;
  mkModel 0xc9b00000ca2 (637)%Z 0x0 0x2e6100002e72;
  mkModel 0xc9b00000ca2 (638)%Z 0x0 0x2e7200002e81;
  mkModel 0xc9b00000ca2 (639)%Z 0x0 0x2e8100002e92;
  mkModel 0xc9b00000ca2 (640)%Z 0x0 0x2e9200002ea1;
  mkModel 0xc9b00000ca2 (641)%Z 0x0 0x2ea100002eb2;
  mkModel 0xc9b00000ca2 (642)%Z 0x0 0x2eb200002ec1;
  mkModel 0xc9b00000ca2 (643)%Z 0x0 0x2ec100002ed0;
  mkModel 0xc9b00000ca2 (644)%Z 0x0 0x2ed000002ee1;
  mkModel 0xc9b00000ca2 (645)%Z 0x0 0x2ee100002ef0;
  mkModel 0xc9b00000ca2 (646)%Z 0x0 0x2ef000002eff;
  mkModel 0xc9b00000ca2 (647)%Z 0x0 0x2eff00002f0e;
  mkModel 0xc9b00000ca2 (648)%Z 0x0 0x2f0e00002f21;
  mkModel 0xc9b00000ca2 (649)%Z 0x0 0x2f2100002f33;
  mkModel 0xc9b00000ca2 (650)%Z 0x0 0x2f3300002f4a;
  mkModel 0xc9b00000ca2 (651)%Z 0x0 0x2f4a00002f5c;
  mkModel 0xc9b00000ca2 (652)%Z 0x0 0x2f5c00002f6e;
  mkModel 0xc9b00000ca2 (653)%Z 0x0 0x2f6e00002f80;
  mkModel 0xc9b00000ca2 (654)%Z 0x0 0x2f6e00002f80;
  mkModel 0xc9b00000ca2 (655)%Z 0x0 0x2f8000002f92;
  mkModel 0xc9b00000ca2 (656)%Z 0x0 0x2f9200002fa4;
  mkModel 0xc9b00000ca2 (657)%Z 0x0 0x2fa400002fb6;
  mkModel 0xc9b00000ca2 (658)%Z 0x0 0x2fb600002fcc;
  mkModel 0xc9b00000ca2 (659)%Z 0x0 0x2fcc00002fde;
  mkModel 0xc9b00000ca2 (660)%Z 0x0 0x2fde00002ff4;
  mkModel 0xc9b00000ca2 (661)%Z 0x0 0x2ff40000300a;
  mkModel 0xc9b00000ca2 (662)%Z 0x0 0x300a00003020;
  mkModel 0xc9b00000ca2 (663)%Z 0x0 0x302000003036;
  mkModel 0xc9b00000ca2 (664)%Z 0x0 0x30360000304c;
  mkModel 0xc9b00000ca2 (665)%Z 0x0 0x304c00003062;
  mkModel 0xc9b00000ca2 (666)%Z 0x0 0x30620000307d;
  mkModel 0xc9b00000ca2 (667)%Z 0x0 0x307d00003098;
  mkModel 0xc9b00000ca2 (668)%Z 0x0 0x3098000030ae;
  mkModel 0xc9b00000ca2 (669)%Z 0x0 0x30ae000030c9;
  mkModel 0xc9b00000ca2 (670)%Z 0x0 0x30c9000030df;
  mkModel 0xc9b00000ca2 (671)%Z 0x0 0x30df000030f5;
  mkModel 0xc9b00000ca2 (672)%Z 0x0 0x30f50000310b;
  mkModel 0xc9b00000ca2 (673)%Z 0x0 0x30f50000310b;
  mkModel 0xc9b00000ca2 (674)%Z 0x0 0x310b00003121;
  mkModel 0xc9b00000ca2 (675)%Z 0x0 0x312100003137;
  mkModel 0xc9b00000ca2 (676)%Z 0x0 0x31370000314d;
  mkModel 0xc9b00000ca2 (677)%Z 0x0 0x314d00003163;
  mkModel 0xc9b00000ca2 (678)%Z 0x0 0x316300003179;
  mkModel 0xc9b00000ca2 (679)%Z 0x0 0x31790000318f;
  mkModel 0xc9b00000ca2 (680)%Z 0x0 0x318f000031a5;
  mkModel 0xc9b00000ca2 (681)%Z 0x0 0x31a5000031b7;
  mkModel 0xc9b00000ca2 (682)%Z 0x0 0x31b7000031cd;
  mkModel 0xc9b00000ca2 (683)%Z 0x0 0x31cd000031e3;
  mkModel 0xc9b00000ca2 (684)%Z 0x0 0x31e3000031f9;
  mkModel 0xc9b00000ca2 (685)%Z 0x0 0x31f90000320f;
  mkModel 0xc9b00000ca2 (686)%Z 0x0 0x320f00003225;
  mkModel 0xc9b00000ca2 (687)%Z 0x0 0x32250000323b;
  mkModel 0xc9b00000ca2 (688)%Z 0x0 0x323b00003251;
  mkModel 0xc9b00000ca2 (689)%Z 0x0 0x325100003267;
  mkModel 0xc9b00000ca2 (690)%Z 0x0 0x32670000327d;
  mkModel 0xc9b00000ca2 (691)%Z 0x0 0x327d00003293;
  mkModel 0xc9b00000ca2 (692)%Z 0x0 0x3293000032a9;
  mkModel 0xc9b00000ca2 (693)%Z 0x0 0x32a9000032bf;
  mkModel 0xc9b00000ca2 (694)%Z 0x0 0x32bf000032da;
  mkModel 0xc9b00000ca2 (695)%Z 0x0 0x32da000032f5;
  mkModel 0xc9b00000ca2 (696)%Z 0x0 0x32f500003310;
  mkModel 0xc9b00000ca2 (697)%Z 0x0 0x33100000332b;
  mkModel 0xc9b00000ca2 (698)%Z 0x0 0x332b00003341;
  mkModel 0xc9b00000ca2 (699)%Z 0x0 0x334100003357;
  mkModel 0xc9b00000ca2 (700)%Z 0x0 0x33570000336d;
  mkModel 0xc9b00000ca2 (701)%Z 0x0 0x336d00003383;
  mkModel 0xc9b00000ca2 (702)%Z 0x0 0x338300003399;
  mkModel 0xc9b00000ca2 (703)%Z 0x0 0x3399000033af;
  mkModel 0xc9b00000ca2 (704)%Z 0x0 0x33af000033ca;
  mkModel 0xc9b00000ca2 (705)%Z 0x0 0x33ca000033e5;
  mkModel 0xc9b00000ca2 (706)%Z 0x0 0x33e5000033fb;
  mkModel 0xc9b00000ca2 (707)%Z 0x0 0x33fb00003411;
  mkModel 0xc9b00000ca2 (708)%Z 0x0 0x341100003427;
  mkModel 0xc9b00000ca2 (709)%Z 0x0 0x34270000343d;
  mkModel 0xc9b00000ca2 (710)%Z 0x0 0x34270000343d;
  mkModel 0xc9b00000ca2 (711)%Z 0x0 0x343d00003453;
  mkModel 0xc9b00000ca2 (712)%Z 0x0 0x345300003469;
  mkModel 0xc9b00000ca2 (713)%Z 0x0 0x34690000347f;
  mkModel 0xc9b00000ca2 (714)%Z 0x0 0x347f0000349a;
  mkModel 0xc9b00000ca2 (715)%Z 0x0 0x349a000034b0;
  mkModel 0xc9b00000ca2 (716)%Z 0x0 0x34b0000034c6;
  mkModel 0xc9b00000ca2 (717)%Z 0x0 0x34c6000034e1;
  mkModel 0xc9b00000ca2 (718)%Z 0x0 0x34e1000034f0;
  mkModel 0xc9b00000ca2 (719)%Z 0x0 0x34f0000034ff;
  mkModel 0xc9b00000ca2 (720)%Z 0x0 0x34ff0000350e;
  mkModel 0xc9b00000ca2 (721)%Z 0x0 0x350e0000351d;
  mkModel 0xc9b00000ca2 (722)%Z 0x0 0x351d0000352c;
  mkModel 0xc9b00000ca2 (723)%Z 0x0 0x352c0000353b;
  mkModel 0xc9b00000ca2 (724)%Z 0x0 0x353b0000354a;
  mkModel 0xc9b00000ca2 (725)%Z 0x0 0x354a00003559;
  mkModel 0xc9b00000ca2 (726)%Z 0x0 0x355900003568;
  mkModel 0xc9b00000ca2 (727)%Z 0x0 0x356800003577;
  mkModel 0xc9b00000ca2 (728)%Z 0x0 0x357700003590;
  mkModel 0xc9b00000ca2 (729)%Z 0x0 0x3590000035ae;
  mkModel 0xc9b00000ca2 (730)%Z 0x0 0x35ae000035bc;
  mkModel 0xc9b00000ca2 (731)%Z 0x0 0x35bc000035ce;
  mkModel 0xc9b00000ca2 (732)%Z 0x0 0x35ae000035bc;
  mkModel 0xc9b00000ca2 (733)%Z 0x0 0x35ce000035e1;
  mkModel 0xc9b00000ca2 (734)%Z 0x0 0x35e1000035f0;
  mkModel 0xc9b00000ca2 (735)%Z 0x0 0x35f000003601;
  mkModel 0xc9b00000ca2 (736)%Z 0x0 0x360100003612;
  mkModel 0xc9b00000ca2 (-1)%Z 0x36120000361e 0x2700000027;
  mkModel 0x23f00000249 (737)%Z 0x0 0x361e00003624;
  mkModel 0x23f00000249 (738)%Z 0x0 0x36240000362d;
  mkModel 0x23f00000249 (739)%Z 0x0 0x362d00003637;
  mkModel 0x23f00000249 (740)%Z 0x0 0x36370000363f;
  mkModel 0x23f00000249 (741)%Z 0x0 0x363f00003648;
  mkModel 0x23f00000249 (742)%Z 0x0 0x364800003650;
  mkModel 0x23f00000249 (743)%Z 0x0 0x365000003659;
  mkModel 0x23f00000249 (744)%Z 0x0 0x365900003662;
  mkModel 0xdfd00000e04 (745)%Z 0x0 0x36620000366f;
  mkModel 0x23f00000249 (746)%Z 0x0 0x366f00003677;
  mkModel 0x23f00000249 (747)%Z 0x0 0x367700003680;
  mkModel 0xdfd00000e04 (748)%Z 0x0 0x36800000368e;
  mkModel 0x23f00000249 (749)%Z 0x0 0x368e00003697;
  mkModel 0xdfd00000e04 (750)%Z 0x0 0x3697000036a4;
  mkModel 0x23f00000249 (751)%Z 0x0 0x36a4000036ac;
  mkModel 0xdfd00000e04 (752)%Z 0x0 0x36ac000036b9
].
Definition d_dr_dm_5 : list modelTuple := [
  mkModel 0x23f00000249 (753)%Z 0x0 0x36b9000036c1;
  mkModel 0xdfd00000e04 (754)%Z 0x0 0x36c1000036ce;
  mkModel 0x23f00000249 (755)%Z 0x0 0x36ce000036d7;
  mkModel 0x23f00000249 (756)%Z 0x0 0x36d7000036e0;
  mkModel 0xdfd00000e04 (757)%Z 0x0 0x36e0000036e8;
  mkModel 0xdfd00000e04 (758)%Z 0x0 0x36e8000036f9;
  mkModel 0xdfd00000e04 (759)%Z 0x0 0x36f900003706;
  mkModel 0x23f00000249 (760)%Z 0x0 0x37060000370f;
  mkModel 0xdfd00000e04 (761)%Z 0x0 0x370f0000371f;
  mkModel 0x23f00000249 (762)%Z 0x0 0x371f0000372d;
  mkModel 0xdfd00000e04 (763)%Z 0x0 0x372d0000373e;
  mkModel 0xdfd00000e04 (764)%Z 0x0 0x373e0000374b;
  mkModel 0xdfd00000e04 (765)%Z 0x0 0x374b00003754;
  mkModel 0xdfd00000e04 (766)%Z 0x0 0x375400003765;
  mkModel 0xdfd00000e04 (767)%Z 0x0 0x376500003772;
  mkModel 0x23f00000249 (768)%Z 0x0 0x377200003780;
  mkModel 0xdfd00000e04 (769)%Z 0x0 0x378000003789;
  mkModel 0xdfd00000e04 (770)%Z 0x0 0x378900003799;
  mkModel 0xdfd00000e04 (771)%Z 0x0 0x3799000037aa;
  mkModel 0xdfd00000e04 (772)%Z 0x0 0x37aa000037b7;
  mkModel 0xdfd00000e04 (773)%Z 0x0 0x37b7000037c5;
  mkModel 0xdfd00000e04 (774)%Z 0x0 0x37c5000037ce;
  mkModel 0xdfd00000e04 (775)%Z 0x0 0x37ce000037df;
  mkModel 0xdfd00000e04 (776)%Z 0x0 0x37df000037ec;
  mkModel 0xdfd00000e04 (777)%Z 0x0 0x37ec000037fa;
  mkModel 0xdfd00000e04 (778)%Z 0x0 0x37fa00003803;
  mkModel 0xdfd00000e04 (779)%Z 0x0 0x380300003814;
  mkModel 0xdfd00000e04 (780)%Z 0x0 0x381400003821;
  mkModel 0xdfd00000e04 (781)%Z 0x0 0x38210000382f;
  mkModel 0xdfd00000e04 (782)%Z 0x0 0x382f00003839;
  mkModel 0xdfd00000e04 (783)%Z 0x0 0x383900003842;
  mkModel 0xdfd00000e04 (784)%Z 0x0 0x384200003853;
  mkModel 0xdfd00000e04 (785)%Z 0x0 0x385300003860;
  mkModel 0xdfd00000e04 (786)%Z 0x0 0x386000003869;
  mkModel 0xdfd00000e04 (787)%Z 0x0 0x386900003873;
  mkModel 0x2a1000002a7 (788)%Z 0x0 0x387300003877;
  mkModel 0x2a1000002a7 (789)%Z 0x0 0x38770000387d;
  mkModel 0x2a1000002a7 (790)%Z 0x0 0x387d00003886;
  mkModel 0x2a1000002a7 (791)%Z 0x0 0x38860000388c;
  mkModel 0x2a1000002a7 (792)%Z 0x0 0x388c00003892;
  mkModel 0x2a1000002a7 (793)%Z 0x0 0x38920000389a;
  mkModel 0x2a1000002a7 (794)%Z 0x0 0x389a000038a5;
  mkModel 0x2a1000002a7 (795)%Z 0x0 0x38a5000038b0;
  mkModel 0x2a1000002a7 (796)%Z 0x0 0x38b0000038bb;
  mkModel 0x2a1000002a7 (797)%Z 0x0 0x38bb000038c5;
  mkModel 0x2a1000002a7 (798)%Z 0x0 0x38c5000038d1;
  mkModel 0x2a1000002a7 (799)%Z 0x0 0x38d1000038de;
  mkModel 0x2a1000002a7 (800)%Z 0x0 0x38de000038e8;
  mkModel 0x2a1000002a7 (801)%Z 0x0 0x38e8000038f7;
  mkModel 0x2a1000002a7 (802)%Z 0x0 0x38f700003904;
  mkModel 0x2a1000002a7 (803)%Z 0x0 0x39040000390e;
  mkModel 0x2a1000002a7 (804)%Z 0x0 0x390e00003919;
  mkModel 0x2a1000002a7 (805)%Z 0x0 0x391900003927;
  mkModel 0x2a1000002a7 (806)%Z 0x0 0x392700003937;
  mkModel 0x2a1000002a7 (807)%Z 0x0 0x393700003948;
  mkModel 0x2a1000002a7 (808)%Z 0x0 0x394800003954;
  mkModel 0x2a1000002a7 (809)%Z 0x0 0x395400003963;
  mkModel 0x2a1000002a7 (810)%Z 0x0 0x39630000396e;
  mkModel 0x2a1000002a7 (811)%Z 0x0 0x396e00003978;
  mkModel 0x2a1000002a7 (812)%Z 0x0 0x397800003984;
  mkModel 0x2a1000002a7 (813)%Z 0x0 0x398400003995;
  mkModel 0x2a1000002a7 (814)%Z 0x0 0x3995000039a1;
  mkModel 0x2a1000002a7 (815)%Z 0x0 0x39a1000039b4;
  mkModel 0x2a1000002a7 (816)%Z 0x0 0x39b4000039c2;
  mkModel 0x2a1000002a7 (817)%Z 0x0 0x39c2000039d7;
  mkModel 0x2a1000002a7 (818)%Z 0x0 0x39d7000039e7;
  mkModel 0x2a1000002a7 (819)%Z 0x0 0x39e7000039f6;
  mkModel 0x2a1000002a7 (820)%Z 0x0 0x39f600003a00;
  mkModel 0x2a1000002a7 (821)%Z 0x0 0x3a0000003a12;
  mkModel 0x2a1000002a7 (822)%Z 0x0 0x3a1200003a1f;
  mkModel 0x2a1000002a7 (823)%Z 0x0 0x3a1f00003a2e;
  mkModel 0x2a1000002a7 (824)%Z 0x0 0x3a2e00003a38;
  mkModel 0x2a1000002a7 (825)%Z 0x0 0x3a3800003a4b;
  mkModel 0x2a1000002a7 (826)%Z 0x0 0x3a4b00003a59;
  mkModel 0x2a1000002a7 (827)%Z 0x0 0x3a5900003a69;
  mkModel 0x2a1000002a7 (828)%Z 0x0 0x3a6900003a74;
  mkModel 0x2a1000002a7 (829)%Z 0x0 0x3a7400003a87;
  mkModel 0x2a1000002a7 (830)%Z 0x0 0x3a8700003a95;
  mkModel 0x2a1000002a7 (831)%Z 0x0 0x3a9500003aaa;
  mkModel 0x2a1000002a7 (832)%Z 0x0 0x3aaa00003aba;
  mkModel 0x2a1000002a7 (833)%Z 0x0 0x3aba00003acd;
  mkModel 0x2a1000002a7 (834)%Z 0x0 0x3acd00003adb;
  mkModel 0x2a1000002a7 (835)%Z 0x0 0x3adb00003aee;
  mkModel 0x2a1000002a7 (836)%Z 0x0 0x3aee00003afc;
  mkModel 0x2a1000002a7 (837)%Z 0x0 0x3a3800003a4b;
  mkModel 0x2a1000002a7 (838)%Z 0x0 0x3a4b00003a59;
  mkModel 0x2a1000002a7 (839)%Z 0x0 0x3afc00003b0e;
  mkModel 0x2a1000002a7 (840)%Z 0x0 0x3b0e00003b1b;
  mkModel 0x2a1000002a7 (841)%Z 0x0 0x3b1b00003b2b;
  mkModel 0x2a1000002a7 (842)%Z 0x0 0x3b2b00003b36;
  mkModel 0x2a1000002a7 (843)%Z 0x0 0x3b3600003b49;
  mkModel 0x2a1000002a7 (844)%Z 0x0 0x3b4900003b57;
  mkModel 0x2a1000002a7 (845)%Z 0x0 0x3b5700003b6a;
  mkModel 0x2a1000002a7 (846)%Z 0x0 0x3b6a00003b78;
  mkModel 0x2a1000002a7 (847)%Z 0x0 0x3b7800003b8c;
  mkModel 0x2a1000002a7 (848)%Z 0x0 0x3b8c00003b9b;
  mkModel 0x2a1000002a7 (849)%Z 0x0 0x3b9b00003baf;
  mkModel 0x2a1000002a7 (850)%Z 0x0 0x3baf00003bbe;
  mkModel 0x23b0000023d (851)%Z 0x0 0x3bbe00003bc8;
  mkModel 0x23b0000023d (852)%Z 0x0 0x3bc800003bd2;
  mkModel 0x23b0000023d (853)%Z 0x0 0x3bd200003bdc;
  mkModel 0x23b0000023d (854)%Z 0x0 0x3bdc00003be7;
  mkModel 0x23b0000023d (855)%Z 0x0 0x3be700003bf9;
  mkModel 0x23b0000023d (856)%Z 0x0 0x3bf900003c01;
  mkModel 0x2a1000002a7 (857)%Z 0x0 0x3c0100003c08;
  mkModel 0x2a1000002a7 (858)%Z 0x0 0x387300003877;
  mkModel 0x23f00000249 (859)%Z 0x0 0x3c0800003c11;
  mkModel 0x23f00000249 (860)%Z 0x0 0x3c0800003c11;
  mkModel 0xc9b00000ca2 (-1)%Z 0x3c1900003c36 0x3c3600003c4a;
  mkModel 0x2700000027 (862)%Z 0x0 0x3c4a00003c50;
  mkModel 0x2700000027 (863)%Z 0x0 0x3c4a00003c50;
  mkModel 0x2700000027 (864)%Z 0x0 0x18000000182;
  mkModel 0x2700000027 (866)%Z 0x0 0x18000000182;
  mkModel 0x2700000027 (-1)%Z 0x3c5000003c68 0x3c6800003c79;
  mkModel 0x2700000027 (867)%Z 0x0 0x3c7900003c87;
  mkModel 0x2700000027 (-1)%Z 0x3c8700003c8f 0x3c8f00003c9e;
  mkModel 0x2700000027 (-1)%Z 0x3c9e00003caa 0x3caa00003cb6;
  mkModel 0x2700000027 (-1)%Z 0x3cb600003cbd 0x3cbd00003cc7;
  mkModel 0x2700000027 (868)%Z 0x0 0x3cc700003cce;
  mkModel 0x2700000027 (869)%Z 0x0 0x3cce00003cd4;
  mkModel 0x2a1000002a7 (870)%Z 0x0 0x1d2d00001d2e;
  mkModel 0x2a1000002a7 (871)%Z 0x0 0x3cd400003ce2;
  mkModel 0x2a1000002a7 (-1)%Z 0x3ce200003cea 0x3cea00003cf2;
  mkModel 0x2700000027 (872)%Z 0x0 0x3cf200003cff;
  mkModel 0x2a1000002a7 (873)%Z 0x0 0x3cff00003d08;
  mkModel 0x2a1000002a7 (874)%Z 0x0 0x3d0800003d15;
  mkModel 0x2a1000002a7 (875)%Z 0x0 0x3d1500003d21;
  mkModel 0x2a1000002a7 (-1)%Z 0x3d2100003d38 0x3d3800003d48;
  mkModel 0x2a1000002a7 (-1)%Z 0x3d4800003d53 0x3d5300003d65;
  mkModel 0x2a1000002a7 (876)%Z 0x0 0x3d6500003d77;
  mkModel 0x2a1000002a7 (877)%Z 0x0 0x3d7700003d82;
  mkModel 0x2a1000002a7 (878)%Z 0x0 0x3d8200003d88;
  mkModel 0x2a1000002a7 (879)%Z 0x0 0x3d8800003d98;
  mkModel 0x2a1000002a7 (-1)%Z 0x3d9800003da9 0x3da900003db7;
  mkModel 0x2a1000002a7 (880)%Z 0x0 0x3db700003dc1;
  mkModel 0x2a1000002a7 (881)%Z 0x0 0x3dc100003dc8;
  mkModel 0x2a1000002a7 (882)%Z 0x0 0x3dc800003dd0;
  mkModel 0x2a1000002a7 (883)%Z 0x0 0x3dd000003ddb;
  mkModel 0x2a1000002a7 (884)%Z 0x0 0x3ddb00003de6;
  mkModel 0x2a1000002a7 (885)%Z 0x0 0x3de600003df0;
  mkModel 0x2a1000002a7 (886)%Z 0x0 0x3df000003dfd;
  mkModel 0x2a1000002a7 (887)%Z 0x0 0x18000000182;
  mkModel 0x2a1000002a7 (888)%Z 0x0 0x18000000182;
  mkModel 0x2700000027 (889)%Z 0x0 0x18000000182;
  mkModel 0x2700000027 (-1)%Z 0x3e0800003e14 0x3e1400003e17;
  mkModel 0x2700000027 (-1)%Z 0x3e1700003e22 0x3e2200003e24;
  mkModel 0x2700000027 (-1)%Z 0x3e2400003e2f 0x3e2f00003e31;
  mkModel 0x2700000027 (-1)%Z 0x3e3100003e3c 0x3e3c00003e3e;
  mkModel 0x0 (-1)%Z 0x0 0x3e4400003e4f;
  mkModel 0x2700000027 (892)%Z 0x0 0x3e5200003e5c;
  mkModel 0x2700000027 (893)%Z 0x0 0x3e5c00003e6b;
  mkModel 0x2700000027 (894)%Z 0x0 0x3e6b00003e75;
  mkModel 0x2700000027 (895)%Z 0x0 0x3e7500003e7c;
  mkModel 0x2700000027 (896)%Z 0x0 0x3e7c00003e83;
  mkModel 0x2700000027 (897)%Z 0x0 0x3e8300003e8c;
  mkModel 0x2700000027 (898)%Z 0x0 0x3e8c00003e92;
  mkModel 0x2700000027 (899)%Z 0x0 0x3e9200003e9b;
  mkModel 0x2700000027 (900)%Z 0x0 0x3e9b00003ea6;
  mkModel 0x0 (-1)%Z 0x0 0x18000000182;
  mkModel 0x2700000027 (-1)%Z 0x3eb400003ebc 0x3ebc00003ec0;
  mkModel 0x2700000027 (-1)%Z 0x3ec000003ec6 0x3ec600003ecb;
  mkModel 0x2700000027 (903)%Z 0x0 0x3ecb00003ecf;
  mkModel 0x2700000027 (-1)%Z 0x3ecf00003ed4 0x3ed400003ed8;
  mkModel 0x2700000027 (-1)%Z 0x3ed800003ede 0x3ede00003ee3;
  mkModel 0x2700000027 (-1)%Z 0x3ee300003ee9 0x3ee900003eee;
  mkModel 0x2700000027 (-1)%Z 0x3eee00003ef4 0x3ef400003ef9;
  mkModel 0x2700000027 (-1)%Z 0x3ef900003f02 0x3f0200003f0a;
  mkModel 0x2700000027 (-1)%Z 0x3f0a00003f10 0x3f1000003f15;
  mkModel 0x2700000027 (-1)%Z 0x3f1500003f1b 0x3f1b00003f20;
  mkModel 0x2700000027 (-1)%Z 0x3f2000003f26 0x3f2600003f2b;
  mkModel 0x2700000027 (-1)%Z 0x3f2b00003f31 0x3f3100003f32;
  mkModel 0x2700000027 (-1)%Z 0x3f3200003f37 0x3f3700003f3b;
  mkModel 0x2700000027 (-1)%Z 0x3f3b00003f40 0x3f4000003f44;
  mkModel 0x2700000027 (-1)%Z 0x3f4400003f4a 0x3f4a00003f4f;
  mkModel 0x2700000027 (-1)%Z 0x3f4f00003f55 0x3f5500003f5a;
  mkModel 0x2700000027 (-1)%Z 0x3f5a00003f60 0x3f6000003f65;
  mkModel 0x2700000027 (-1)%Z 0x3f6500003f6a 0x3f6a00003f6e;
  mkModel 0x2700000027 (-1)%Z 0x3f6e00003f73 0x3f7300003f77;
  mkModel 0x2700000027 (904)%Z 0x0 0x3f7700003f7c;
  mkModel 0x2700000027 (-1)%Z 0x3f7c00003f81 0x3f8100003f83;
  mkModel 0x2700000027 (905)%Z 0x0 0x3f8300003f89;
  mkModel 0x2700000027 (906)%Z 0x0 0x3f8900003f8f;
  mkModel 0x2700000027 (-1)%Z 0x3f8f00003f96 0x3f9600003f9c;
  mkModel 0x2700000027 (-1)%Z 0x3f9c00003fa3 0x3fa300003fa9;
  mkModel 0x2700000027 (-1)%Z 0x3fa900003fb4 0x3fb400003fb9;
  mkModel 0x2700000027 (-1)%Z 0x3fb900003fc5 0x3fc500003fca;
  mkModel 0x2700000027 (-1)%Z 0x3fca00003fd5 0x3fd500003fda;
  mkModel 0x2700000027 (-1)%Z 0x3fda00003fe7 0x3fe700003fed;
  mkModel 0x2700000027 (907)%Z 0x0 0x18000000182;
  mkModel 0x0 (-1)%Z 0x0 0x18000000182;
  mkModel 0x23b0000023d (910)%Z 0x0 0x3ff900003fff;
  mkModel 0x2700000027 (911)%Z 0x0 0x3fff00004007;
  mkModel 0x2700000027 (912)%Z 0x0 0x40070000400e;
  mkModel 0x2700000027 (913)%Z 0x0 0x400e00004013;
  mkModel 0x2700000027 (914)%Z 0x0 0x401300004016;
  mkModel 0x2700000027 (915)%Z 0x0 0x40160000401a;
  mkModel 0x2700000027 (916)%Z 0x0 0x18000000182;
  mkModel 0x2700000027 (917)%Z 0x0 0x401a00004020;
  mkModel 0x2700000027 (918)%Z 0x0 0x402000004027;
  mkModel 0x2700000027 (919)%Z 0x0 0x40270000402a
].
Definition d_dr_dm_6 : list modelTuple := [
  mkModel 0x2a1000002a7 (920)%Z 0x0 0x18000000182;
  mkModel 0x39a000003a7 (921)%Z 0x0 0x18000000182;
  mkModel 0x2700000027 (923)%Z 0x0 0x40320000403d;
  mkModel 0x2700000027 (924)%Z 0x0 0x18000000182;
  mkModel 0x23f00000249 (925)%Z 0x0 0x403d0000403f;
  mkModel 0x2700000027 (927)%Z 0x0 0x40530000405d;
  mkModel 0x2700000027 (929)%Z 0x0 0x40630000406a;
  mkModel 0x2700000027 (930)%Z 0x0 0x18000000182;
  mkModel 0x2a1000002a7 (932)%Z 0x0 0x406d00004075;
  mkModel 0x2700000027 (933)%Z 0x0 0x18000000182;
  mkModel 0x2700000027 (935)%Z 0x0 0x18000000182;
  mkModel 0x2700000027 (936)%Z 0x0 0x407b0000407f;
  mkModel 0x2700000027 (937)%Z 0x0 0x407f00004085;
  mkModel 0x2700000027 (939)%Z 0x0 0x408e00004093;
  mkModel 0x2700000027 (940)%Z 0x0 0x409300004097;
  mkModel 0x2700000027 (941)%Z 0x0 0x40970000409b;
  mkModel 0x2700000027 (942)%Z 0x0 0x409b000040a2;
  mkModel 0x2700000027 (943)%Z 0x0 0x40a2000040a8;
  mkModel 0x2700000027 (944)%Z 0x0 0x40a8000040b2;
  mkModel 0x2700000027 (945)%Z 0x0 0x40b2000040b6;
  mkModel 0x2700000027 (946)%Z 0x0 0x40b6000040bb;
  mkModel 0x2700000027 (947)%Z 0x0 0x40bb000040c0;
  mkModel 0x2700000027 (948)%Z 0x0 0x40c0000040c4;
  mkModel 0x2700000027 (949)%Z 0x0 0x40c4000040ca;
  mkModel 0x2700000027 (950)%Z 0x0 0x40ca000040cf;
  mkModel 0x2700000027 (951)%Z 0x0 0x40cf000040d3;
  mkModel 0x2700000027 (952)%Z 0x0 0x40d3000040d8;
  mkModel 0x2700000027 (953)%Z 0x0 0x40d8000040e0;
  mkModel 0x2700000027 (954)%Z 0x0 0x40e0000040eb;
  mkModel 0x2a1000002a7 (955)%Z 0x0 0x40eb000040f8;
  mkModel 0x2a1000002a7 (956)%Z 0x0 0x40f8000040fe;
  mkModel 0x2a1000002a7 (957)%Z 0x0 0x40fe00004103;
  mkModel 0x2a1000002a7 (958)%Z 0x0 0x41030000410f;
  mkModel 0x2a1000002a7 (959)%Z 0x0 0x18000000182;
  mkModel 0x2700000027 (960)%Z 0x0 0x18000000182;
  mkModel 0x0 (-1)%Z 0x0 0x18000000182;
  mkModel 0x2a1000002a7 (963)%Z 0x0 0x411d00004128;
  mkModel 0x2a1000002a7 (964)%Z 0x0 0x412800004138;
  mkModel 0x2a1000002a7 (965)%Z 0x0 0x413800004142;
  mkModel 0x2a1000002a7 (-1)%Z 0x414200004148 0x414800004150;
  mkModel 0x2a1000002a7 (966)%Z 0x0 0x41500000415f;
  mkModel 0x2a1000002a7 (967)%Z 0x0 0x415f00004172;
  mkModel 0x2a1000002a7 (968)%Z 0x0 0x417200004183;
  mkModel 0x2a1000002a7 (969)%Z 0x0 0x41830000418d;
  mkModel 0x2a1000002a7 (970)%Z 0x0 0x418d00004191;
  mkModel 0x2a1000002a7 (971)%Z 0x0 0x41910000419d;
  mkModel 0x2a1000002a7 (972)%Z 0x0 0x419d000041a7;
  mkModel 0x2a1000002a7 (973)%Z 0x0 0x41a7000041b9;
  mkModel 0x2a1000002a7 (974)%Z 0x0 0x41b9000041c6;
  mkModel 0x2a1000002a7 (975)%Z 0x0 0x41c6000041d0;
  mkModel 0x2a1000002a7 (976)%Z 0x0 0x41d0000041dc;
  mkModel 0x2a1000002a7 (977)%Z 0x0 0x41dc000041f2;
  mkModel 0x2a1000002a7 (978)%Z 0x0 0x41f2000041fd;
  mkModel 0x2a1000002a7 (979)%Z 0x0 0x41fd00004213;
  mkModel 0x2a1000002a7 (980)%Z 0x0 0x421300004229;
  mkModel 0x2a1000002a7 (981)%Z 0x0 0x422900004240;
  mkModel 0x2a1000002a7 (982)%Z 0x0 0x424000004256;
  mkModel 0x2a1000002a7 (983)%Z 0x0 0x42560000426c;
  mkModel 0x2a1000002a7 (984)%Z 0x0 0x426c00004281;
  mkModel 0x2a1000002a7 (-1)%Z 0x42810000428d 0x428d000042a1;
  mkModel 0x2a1000002a7 (985)%Z 0x0 0x42a1000042ad;
  mkModel 0x2a1000002a7 (-1)%Z 0x42ad000042b7 0x42b7000042c0;
  mkModel 0x2a1000002a7 (-1)%Z 0x42c0000042c4 0x42c4000042ce;
  mkModel 0x2a1000002a7 (986)%Z 0x0 0x42ce000042d8;
  mkModel 0x2a1000002a7 (987)%Z 0x0 0x42d8000042e2;
  mkModel 0x2a1000002a7 (988)%Z 0x0 0x42e2000042ec;
  mkModel 0x2a1000002a7 (989)%Z 0x0 0x42ec000042f8;
  mkModel 0x2a1000002a7 (990)%Z 0x0 0x18000000182;
  mkModel 0x2a1000002a7 (-1)%Z 0x42f8000042fc 0x42fc00004308;
  mkModel 0x2a1000002a7 (991)%Z 0x0 0x430800004318;
  mkModel 0x2a1000002a7 (992)%Z 0x0 0x431800004324;
  mkModel 0x2a1000002a7 (993)%Z 0x0 0x43240000432d;
  mkModel 0x2a1000002a7 (-1)%Z 0x432d00004340 0x43400000435b;
  mkModel 0x2a1000002a7 (-1)%Z 0x435b00004366 0x43660000436c;
  mkModel 0xdfd00000e04 (994)%Z 0x0 0x436c00004373;
  mkModel 0xdfd00000e04 (995)%Z 0x0 0x437300004381;
  mkModel 0xdfd00000e04 (996)%Z 0x0 0x43810000438a;
  mkModel 0xdfd00000e04 (997)%Z 0x0 0x438a0000439c;
  mkModel 0xdfd00000e04 (998)%Z 0x0 0x439c000043a5;
  mkModel 0x2700000027 (999)%Z 0x0 0x43a5000043b5;
  mkModel 0x2700000027 (1000)%Z 0x0 0x43b5000043be;
  mkModel 0x2700000027 (1001)%Z 0x0 0x43be000043ca;
  mkModel 0x2700000027 (1002)%Z 0x0 0x43ca000043d8;
  mkModel 0x2700000027 (-1)%Z 0x43d8000043e4 0x43e4000043ed;
  mkModel 0x2700000027 (-1)%Z 0x43ed000043f9 0x43f900004409;
  mkModel 0x2700000027 (1003)%Z 0x0 0x440900004413;
  mkModel 0x2700000027 (1004)%Z 0x0 0x441300004423;
  mkModel 0x2700000027 (1005)%Z 0x0 0x442300004433;
  mkModel 0x2700000027 (1006)%Z 0x0 0x44330000443c;
  mkModel 0x2700000027 (1007)%Z 0x0 0x443c0000444a;
  mkModel 0x2700000027 (1008)%Z 0x0 0x444a00004453;
  mkModel 0x2700000027 (1009)%Z 0x0 0x44530000445d;
  mkModel 0x2700000027 (1010)%Z 0x0 0x445d00004466;
  mkModel 0x2700000027 (1011)%Z 0x0 0x446600004474;
  mkModel 0x2700000027 (1012)%Z 0x0 0x44740000447d;
  mkModel 0x2700000027 (1013)%Z 0x0 0x447d0000448b;
  mkModel 0x2700000027 (1014)%Z 0x0 0x448b0000449d;
  mkModel 0x2700000027 (1015)%Z 0x0 0x449d000044ab;
  mkModel 0x2700000027 (1016)%Z 0x0 0x44ab000044b4;
  mkModel 0x2700000027 (1017)%Z 0x0 0x44b4000044be;
  mkModel 0x2700000027 (1018)%Z 0x0 0x44be000044ca;
  mkModel 0x2700000027 (1019)%Z 0x0 0x44ca000044d9;
  mkModel 0x2700000027 (-1)%Z 0x44d9000044df 0x44df000044ee;
  mkModel 0x2700000027 (1020)%Z 0x0 0x44ee000044fd;
  mkModel 0x2700000027 (1021)%Z 0x0 0x44fd00004506;
  mkModel 0x2700000027 (1022)%Z 0x0 0x450600004513;
  mkModel 0x2700000027 (1023)%Z 0x0 0x451300004521;
  mkModel 0x2700000027 (1024)%Z 0x0 0x45210000452b;
  mkModel 0x2700000027 (1025)%Z 0x0 0x452b00004534;
  mkModel 0x2700000027 (1026)%Z 0x0 0x45340000453d;
  mkModel 0x2700000027 (1027)%Z 0x0 0x453d0000454a;
  mkModel 0x2700000027 (1028)%Z 0x0 0x454a00004553;
  mkModel 0x2700000027 (1029)%Z 0x0 0x45530000455e;
  mkModel 0x2700000027 (1030)%Z 0x0 0x455e00004571;
  mkModel 0x2700000027 (1031)%Z 0x0 0x448b0000449d;
  mkModel 0x2700000027 (1032)%Z 0x0 0x457100004583;
  mkModel 0x2700000027 (1033)%Z 0x0 0x458300004592;
  mkModel 0x2700000027 (1034)%Z 0x0 0x45920000459c;
  mkModel 0x2700000027 (1035)%Z 0x0 0x459c000045a9;
  mkModel 0x2700000027 (1036)%Z 0x0 0x45a9000045b8;
  mkModel 0x2700000027 (1037)%Z 0x0 0x45920000459c;
  mkModel 0x2700000027 (1038)%Z 0x0 0x45b8000045c7;
  mkModel 0x2700000027 (1039)%Z 0x0 0x45c7000045db;
  mkModel 0x2700000027 (1040)%Z 0x0 0x45db000045f1;
  mkModel 0x2700000027 (1041)%Z 0x0 0x45f100004607;
  mkModel 0x2700000027 (1042)%Z 0x0 0x460700004614;
  mkModel 0x2700000027 (1043)%Z 0x0 0x461400004625;
  mkModel 0x2700000027 (1044)%Z 0x0 0x462500004633;
  mkModel 0x2700000027 (1045)%Z 0x0 0x463300004643;
  mkModel 0x2700000027 (1046)%Z 0x0 0x464300004651;
  mkModel 0x2700000027 (1047)%Z 0x0 0x463300004643;
  mkModel 0x2700000027 (1048)%Z 0x0 0x46510000465a;
  mkModel 0x2700000027 (1049)%Z 0x0 0x465a00004669;
  mkModel 0x2700000027 (1050)%Z 0x0 0x466900004678;
  mkModel 0x2700000027 (1051)%Z 0x0 0x46780000468c;
  mkModel 0x2700000027 (1052)%Z 0x0 0x468c0000469c;
  mkModel 0x2700000027 (1053)%Z 0x0 0x44fd00004506;
  mkModel 0x2700000027 (1054)%Z 0x0 0x469c000046a9;
  mkModel 0x2700000027 (1055)%Z 0x0 0x46a9000046bb;
  mkModel 0x2700000027 (1056)%Z 0x0 0x46bb000046c8;
  mkModel 0x2700000027 (1057)%Z 0x0 0x46c8000046d4;
  mkModel 0x2700000027 (1058)%Z 0x0 0x46d4000046dd;
  mkModel 0x2700000027 (1059)%Z 0x0 0x46dd000046e8;
  mkModel 0x2700000027 (1060)%Z 0x0 0x46e8000046f3;
  mkModel 0x2700000027 (1061)%Z 0x0 0x46f3000046fe;
  mkModel 0x2700000027 (1062)%Z 0x0 0x46fe00004709;
  mkModel 0x2700000027 (1063)%Z 0x0 0x470900004715;
  mkModel 0x2700000027 (1064)%Z 0x0 0x471500004720;
  mkModel 0x2700000027 (1065)%Z 0x0 0x47200000472e;
  mkModel 0x2700000027 (1066)%Z 0x0 0x472e0000473d;
  mkModel 0x2700000027 (1067)%Z 0x0 0x473d00004748;
  mkModel 0x2700000027 (1068)%Z 0x0 0x474800004753;
  mkModel 0x2700000027 (1069)%Z 0x0 0x475300004762;
  mkModel 0x2700000027 (1070)%Z 0x0 0x476200004784;
  mkModel 0xc9b00000ca2 (-1)%Z 0x47840000478b 0x478b0000479a;
  mkModel 0xc9b00000ca2 (1071)%Z 0x0 0x18000000182;
  mkModel 0x7cc000007d6 (1072)%Z 0x0 0x479a000047a8;
  mkModel 0x23b0000023d (-1)%Z 0x47a8000047b8 0x47b8000047bc;
  mkModel 0x2b1e00002b26 (1073)%Z 0x0 0x47bc000047c6;
  mkModel 0x2700000027 (1074)%Z 0x0 0x18000000182;
  mkModel 0x2700000027 (1075)%Z 0x0 0x18000000182;
  mkModel 0x2700000027 (1076)%Z 0x0 0x18000000182;
  mkModel 0x2a1000002a7 (1077)%Z 0x0 0x47c6000047d4;
  mkModel 0xc9b00000ca2 (1078)%Z 0x0 0x47d4000047e6;
  mkModel 0x2700000027 (1080)%Z 0x0 0x18000000182;
  mkModel 0x0 (-1)%Z 0x0 0x18000000182;
  mkModel 0x2700000027 (1083)%Z 0x0 0x18000000182;
  mkModel 0x2700000027 (1084)%Z 0x0 0x480e00004815;
  mkModel 0x2700000027 (-1)%Z 0x481b00004824 0x48240000482d;
  mkModel 0x2700000027 (-1)%Z 0x482d00004836 0x48360000483f;
  mkModel 0x2700000027 (-1)%Z 0x483f00004849 0x484900004853;
  mkModel 0x2700000027 (1086)%Z 0x0 0x18000000182;
  mkModel 0x0 (-1)%Z 0x0 0x18000000182;
  mkModel 0x0 (-1)%Z 0x0 0x18000000182;
  mkModel 0x2700000027 (1090)%Z 0x0 0x18000000182;
  mkModel 0x2700000027 (1091)%Z 0x0 0x48660000486c;
  mkModel 0x2700000027 (1092)%Z 0x0 0x48660000486c;
  mkModel 0x2700000027 (1093)%Z 0x0 0x48660000486c;
  mkModel 0x2700000027 (1095)%Z 0x0 0x18000000182;
  mkModel 0x0 (-1)%Z 0x0 0x487600004882;
  mkModel 0x2700000027 (1098)%Z 0x0 0x488800004890;
  mkModel 0x2700000027 (1099)%Z 0x0 0x48900000489c;
  mkModel 0x2700000027 (-1)%Z 0x48a1000048aa 0x48aa000048b3;
  mkModel 0x2700000027 (-1)%Z 0x48b3000048bc 0x48bc000048c5;
  mkModel 0x2700000027 (-1)%Z 0x48c5000048d2 0x48d2000048e1;
  mkModel 0x2a1000002a7 (1101)%Z 0x0 0x48e1000048e4;
  mkModel 0x2700000027 (1102)%Z 0x0 0x18000000182;
  mkModel 0x2700000027 (1104)%Z 0x0 0x18000000182;
  mkModel 0x2700000027 (1106)%Z 0x0 0x18000000182;
  mkModel 0x2700000027 (1107)%Z 0x0 0x48ed000048f9;
  mkModel 0x2700000027 (-1)%Z 0x48f900004905 0x490500004913;
  mkModel 0x2a1000002a7 (1108)%Z 0x0 0x491300004920;
  mkModel 0x2700000027 (1110)%Z 0x0 0x49260000492d;
  mkModel 0x0 (-1)%Z 0x0 0x18000000182;
  mkModel 0x2700000027 (1113)%Z 0x0 0x493f00004944;
  mkModel 0x2700000027 (1114)%Z 0x0 0x49440000494b;
  mkModel 0x2700000027 (1115)%Z 0x0 0x18000000182;
  mkModel 0x2700000027 (1116)%Z 0x0 0x18000000182;
  mkModel 0x2700000027 (-1)%Z 0x494b00004952 0x49520000495c;
  mkModel 0x2700000027 (-1)%Z 0x495c0000496a 0x496a00004978
].
Definition d_dr_dm_7 : list modelTuple := [
  mkModel 0x2700000027 (-1)%Z 0x497800004981 0x497800004981;
  mkModel 0x2700000027 (1117)%Z 0x0 0x49810000498a;
  mkModel 0x2700000027 (-1)%Z 0x498a00004998 0x4998000049a6;
  mkModel 0x2700000027 (1118)%Z 0x0 0x49a6000049b2;
  mkModel 0x2700000027 (1120)%Z 0x0 0x49bc000049c3;
  mkModel 0x2700000027 (1121)%Z 0x0 0x49c3000049c9;
  mkModel 0x2700000027 (1122)%Z 0x0 0x49d5000049de;
  mkModel 0x2700000027 (1124)%Z 0x0 0x18000000182;
  mkModel 0x2700000027 (1126)%Z 0x0 0x49ec00004a0a;
  mkModel 0x2700000027 (1127)%Z 0x0 0x4a0a00004a21;
  mkModel 0x2700000027 (1128)%Z 0x0 0x4a2100004a3e;
  mkModel 0x2700000027 (1129)%Z 0x0 0x4a3e00004a59;
  mkModel 0x2700000027 (1130)%Z 0x0 0x4a5900004a71;
  mkModel 0x2700000027 (1131)%Z 0x0 0x4a7100004a88;
  mkModel 0x2700000027 (1132)%Z 0x0 0x4a8800004aa0;
  mkModel 0x2700000027 (1133)%Z 0x0 0x4aa000004abd;
  mkModel 0x2700000027 (1134)%Z 0x0 0x18000000182;
  mkModel 0x2700000027 (1135)%Z 0x0 0x4abd00004aca;
  mkModel 0x23f00000249 (1136)%Z 0x0 0x4aca00004ae0;
  mkModel 0x2700000027 (1138)%Z 0x0 0x4ae300004aee;
  mkModel 0x2700000027 (1139)%Z 0x0 0x4aee00004afb;
  mkModel 0x2700000027 (1140)%Z 0x0 0x4afb00004b03;
  mkModel 0x2700000027 (1142)%Z 0x0 0x18000000182;
  mkModel 0x2700000027 (1143)%Z 0x0 0x4b0600004b0a;
  mkModel 0x2700000027 (-1)%Z 0x4b0a00004b0e 0x4b0a00004b0e;
  mkModel 0x2700000027 (1144)%Z 0x0 0x4b0e00004b19;
  mkModel 0x2700000027 (-1)%Z 0x4b1c00004b25 0x4b2500004b2e;
  mkModel 0x2a1000002a7 (-1)%Z 0x4b2e00004b35 0x4b2e00004b35;
  mkModel 0x0 (-1)%Z 0x0 0x4b3e00004b47;
  mkModel 0x2a1000002a7 (1147)%Z 0x0 0x4b4a00004b4d;
  mkModel 0x2a1000002a7 (1148)%Z 0x0 0x18000000182;
  mkModel 0x2a1000002a7 (-1)%Z 0x4b4d00004b56 0x4b5600004b5f;
  mkModel 0x2700000027 (-1)%Z 0x4b5f00004b65 0x4b6500004b6b;
  mkModel 0x2700000027 (1149)%Z 0x0 0x18000000182;
  mkModel 0x2700000027 (1151)%Z 0x0 0x18000000182;
  mkModel 0x2700000027 (-1)%Z 0x4b7500004b7d 0x4b7d00004b7f;
  mkModel 0x2700000027 (1153)%Z 0x0 0x18000000182;
  mkModel 0x2700000027 (1155)%Z 0x0 0x4b8300004b90;
  mkModel 0x2700000027 (1156)%Z 0x0 0x4b9000004b9a;
  mkModel 0x2700000027 (1157)%Z 0x0 0x4b9a00004ba9;
  mkModel 0x2700000027 (1159)%Z 0x0 0x18000000182;
  mkModel 0x2700000027 (1160)%Z 0x0 0x18000000182;
  mkModel 0x0 (-1)%Z 0x0 0x4bb100004bbd;
  mkModel 0x0 (-1)%Z 0x0 0x18000000182;
  mkModel 0x0 (-1)%Z 0x0 0x18000000182;
  mkModel 0x2700000027 (1165)%Z 0x0 0x4bcf00004bd6;
  mkModel 0x0 (-1)%Z 0x0 0x4be500004beb;
  mkModel 0x2700000027 (1167)%Z 0x0 0x18000000182;
  mkModel 0x2700000027 (1169)%Z 0x0 0x4bf700004c02;
  mkModel 0x0 (-1)%Z 0x0 0x18000000182;
  mkModel 0x2700000027 (1172)%Z 0x0 0x4c1800004c1f;
  mkModel 0x2700000027 (1173)%Z 0x0 0x4c1800004c1f;
  mkModel 0x2700000027 (1174)%Z 0x0 0x4c1800004c1f;
  mkModel 0x2a1000002a7 (1176)%Z 0x0 0x4c2500004c30;
  mkModel 0x2700000027 (1177)%Z 0x0 0x18000000182;
  mkModel 0x0 (-1)%Z 0x0 0x18000000182;
  mkModel 0x2700000027 (1180)%Z 0x0 0x4c3d00004c43;
  mkModel 0x2a1000002a7 (1181)%Z 0x0 0x4c4300004c49;
  mkModel 0x2a1000002a7 (1182)%Z 0x0 0x4c4300004c49;
  mkModel 0x2a1000002a7 (-1)%Z 0x4c4900004c4c 0x4c4900004c4c;
  mkModel 0x2700000027 (1183)%Z 0x0 0x4c4c00004c4f;
  mkModel 0x2700000027 (1184)%Z 0x0 0x4c4f00004c57;
  mkModel 0x2700000027 (-1)%Z 0x4c5700004c61 0x4c5700004c61;
  mkModel 0x2700000027 (1185)%Z 0x0 0x4c6100004c67;
  mkModel 0x2700000027 (1186)%Z 0x0 0x4c6700004c6b;
  mkModel 0x2700000027 (1187)%Z 0x0 0x4c6b00004c78;
  mkModel 0x23b0000023d (1188)%Z 0x0 0x18000000182;
  mkModel 0x23b0000023d (1189)%Z 0x0 0x4c7800004c81;
  mkModel 0x2700000027 (1191)%Z 0x0 0x18000000182;
  mkModel 0x2700000027 (1192)%Z 0x0 0x4c8800004c8b;
  mkModel 0x2700000027 (1193)%Z 0x0 0x4c8b00004c93;
  mkModel 0x2700000027 (1194)%Z 0x0 0x4c9300004c9d;
  mkModel 0x2700000027 (1195)%Z 0x0 0x4c9d00004ca8;
  mkModel 0x2700000027 (1196)%Z 0x0 0x4ca800004cb2;
  mkModel 0x2700000027 (1197)%Z 0x0 0x4cb200004cb9;
  mkModel 0x2700000027 (1198)%Z 0x0 0x4cb900004cbf;
  mkModel 0x0 (-1)%Z 0x0 0x18000000182;
  mkModel 0x0 (-1)%Z 0x0 0x18000000182;
  mkModel 0x2700000027 (-1)%Z 0x4cd300004cd9 0x4cd300004cd9;
  mkModel 0x2700000027 (-1)%Z 0x4cd900004ce1 0x4cd900004ce1;
  mkModel 0x0 (-1)%Z 0x0 0x4cea00004cf7;
  mkModel 0x2700000027 (1205)%Z 0x0 0x18000000182;
  mkModel 0x2700000027 (1206)%Z 0x0 0x18000000182;
  mkModel 0x23b0000023d (-1)%Z 0x4cfb00004cff 0x4cfb00004cff;
  mkModel 0x0 (-1)%Z 0x0 0x18000000182;
  mkModel 0x2700000027 (1209)%Z 0x0 0x4d1100004d17;
  mkModel 0x2700000027 (1210)%Z 0x0 0x18000000182;
  mkModel 0x2700000027 (-1)%Z 0x4d1c00004d22 0x4d2200004d25;
  mkModel 0x2700000027 (-1)%Z 0x4d2500004d2b 0x4d2b00004d2e;
  mkModel 0x2700000027 (-1)%Z 0x4d2e00004d34 0x4d3400004d37;
  mkModel 0x2700000027 (-1)%Z 0x4d3700004d3d 0x4d3d00004d40;
  mkModel 0x2700000027 (-1)%Z 0x4d4000004d46 0x4d4600004d49;
  mkModel 0x2700000027 (-1)%Z 0x4d4900004d4f 0x4d4f00004d52;
  mkModel 0x2700000027 (-1)%Z 0x4d5200004d59 0x4d5900004d61;
  mkModel 0x2700000027 (-1)%Z 0x4d6100004d67 0x4d6700004d6a;
  mkModel 0x2700000027 (-1)%Z 0x4d6a00004d70 0x1e3400001e36;
  mkModel 0x2700000027 (-1)%Z 0x4d7000004d77 0x4d7700004d7e;
  mkModel 0x2700000027 (-1)%Z 0x4d7e00004d84 0x4d8400004d8a;
  mkModel 0x2700000027 (-1)%Z 0x4d8a00004d90 0x4d9000004d93;
  mkModel 0x0 (-1)%Z 0x0 0x18000000182;
  mkModel 0x2a1000002a7 (-1)%Z 0x4d9f00004da8 0x4da800004db1;
  mkModel 0x2700000027 (1214)%Z 0x0 0x18000000182;
  mkModel 0x2700000027 (1216)%Z 0x0 0x4db700004dc3;
  mkModel 0x2700000027 (1217)%Z 0x0 0x4dc300004dcb;
  mkModel 0x2700000027 (-1)%Z 0x4dcb00004dd0 0x4dd000004dd6;
  mkModel 0x0 (-1)%Z 0x0 0x18000000182;
  mkModel 0x0 (-1)%Z 0x0 0x4de300004de6;
  mkModel 0x2700000027 (-1)%Z 0x4dec00004df7 0x4df700004e02;
  mkModel 0x2700000027 (-1)%Z 0x4e0200004e0b 0x4e0b00004e14;
  mkModel 0x0 (-1)%Z 0x0 0x4e1d00004e2b;
  mkModel 0x0 (-1)%Z 0x0 0x4e3200004e3e;
  mkModel 0x0 (-1)%Z 0x0 0x18000000182;
  mkModel 0x2700000027 (1225)%Z 0x0 0x4e4d00004e5a;
  mkModel 0x2700000027 (-1)%Z 0x4e5a00004e68 0x4e5a00004e68;
  mkModel 0x2700000027 (1227)%Z 0x0 0x18000000182;
  mkModel 0x2700000027 (1228)%Z 0x0 0x18000000182;
  mkModel 0x2700000027 (1229)%Z 0x0 0x18000000182;
  mkModel 0x2700000027 (1231)%Z 0x0 0x18000000182;
  mkModel 0x2700000027 (1232)%Z 0x0 0x4e7100004e76;
  mkModel 0x2700000027 (1233)%Z 0x0 0x18000000182;
  mkModel 0x2700000027 (1235)%Z 0x0 0x4e7d00004e86;
  mkModel 0x2700000027 (1236)%Z 0x0 0x4e8600004e91;
  mkModel 0x2700000027 (1237)%Z 0x0 0x4e9100004e9c;
  mkModel 0x2700000027 (1238)%Z 0x0 0x4ea300004eb1;
  mkModel 0x0 (-1)%Z 0x0 0x4eb500004ebe;
  mkModel 0x0 (-1)%Z 0x0 0x18000000182;
  mkModel 0x2700000027 (1241)%Z 0x0 0x4ed100004ed7;
  mkModel 0x2700000027 (-1)%Z 0x4ee000004ee7 0x4ee700004eee;
  mkModel 0x2700000027 (1243)%Z 0x0 0x4eee00004ef4;
  mkModel 0x2700000027 (1244)%Z 0x0 0x4ef400004efb;
  mkModel 0x2700000027 (-1)%Z 0x4efb00004f02 0x4f0200004f05;
  mkModel 0x2700000027 (-1)%Z 0x4f0500004f0c 0x4f0c00004f0e;
  mkModel 0x2700000027 (-1)%Z 0x4f0e00004f15 0x4f1500004f17;
  mkModel 0x2700000027 (-1)%Z 0x4f1700004f1e 0x4f1e00004f20;
  mkModel 0x2700000027 (-1)%Z 0x4f2000004f27 0x4f2700004f2a;
  mkModel 0x2700000027 (1245)%Z 0x0 0x4f2a00004f2c;
  mkModel 0x2700000027 (-1)%Z 0x4f2c00004f33 0x4f3300004f3a;
  mkModel 0x2700000027 (-1)%Z 0x4f3a00004f41 0x4f4100004f4c;
  mkModel 0x2700000027 (-1)%Z 0x4f4c00004f53 0x4f5300004f61;
  mkModel 0x2700000027 (-1)%Z 0x4f6100004f68 0x4f6800004f6b;
  mkModel 0x2700000027 (-1)%Z 0x4f6b00004f72 0x4f7200004f74;
  mkModel 0x2700000027 (-1)%Z 0x4f7400004f7b 0x4f7b00004f82;
  mkModel 0x2700000027 (-1)%Z 0x4f8200004f8b 0x4f8b00004f93;
  mkModel 0x2700000027 (1246)%Z 0x0 0x4f9300004f99;
  mkModel 0x0 (-1)%Z 0x0 0x4fa100004fa6;
  mkModel 0x0 (-1)%Z 0x0 0x4fb000004fb4;
  mkModel 0x0 (-1)%Z 0x0 0x4fbc00004fc1;
  mkModel 0x2700000027 (1251)%Z 0x0 0x4fca00004fd1;
  mkModel 0x2700000027 (1252)%Z 0x0 0x4fd100004fd4;
  mkModel 0x2700000027 (1253)%Z 0x0 0x4fd400004fda;
  mkModel 0x2700000027 (1254)%Z 0x0 0x4fda00004fde;
  mkModel 0x2700000027 (-1)%Z 0x4fde00004fe4 0x19790000197c;
  mkModel 0x2700000027 (1255)%Z 0x0 0x1940000019b;
  mkModel 0x2700000027 (1256)%Z 0x0 0x4fe400004feb;
  mkModel 0x2700000027 (-1)%Z 0x4feb00004ff6 0x4ff600005000;
  mkModel 0x2700000027 (1257)%Z 0x0 0x500000005006;
  mkModel 0x2700000027 (-1)%Z 0x50060000500e 0x50060000500e;
  mkModel 0x2700000027 (-1)%Z 0x500e00005017 0x500e00005017;
  mkModel 0x2700000027 (1258)%Z 0x0 0x18000000182;
  mkModel 0x2700000027 (1259)%Z 0x0 0x50170000501a;
  mkModel 0x2700000027 (1260)%Z 0x0 0x18000000182;
  mkModel 0x2700000027 (1261)%Z 0x0 0x501a00005022;
  mkModel 0x2700000027 (1262)%Z 0x0 0x50220000502b;
  mkModel 0x2700000027 (1263)%Z 0x0 0x502b00005032;
  mkModel 0x2700000027 (1264)%Z 0x0 0x50320000503a;
  mkModel 0x2700000027 (1265)%Z 0x0 0x503a00005042;
  mkModel 0x2700000027 (-1)%Z 0x504200005048 0x50480000504e;
  mkModel 0x2700000027 (-1)%Z 0x504e00005055 0x50550000505c;
  mkModel 0x2700000027 (-1)%Z 0x505c00005065 0x50650000506f;
  mkModel 0x2700000027 (-1)%Z 0x506f00005079 0x507900005083;
  mkModel 0xdfd00000e04 (1266)%Z 0x0 0x18000000182;
  mkModel 0x2700000027 (1267)%Z 0x0 0x1940000019b;
  mkModel 0x2700000027 (1268)%Z 0x0 0x500000005006;
  mkModel 0x2700000027 (1269)%Z 0x0 0x18000000182;
  mkModel 0x2a1000002a7 (1270)%Z 0x0 0x508300005090;
  mkModel 0x2a1000002a7 (-1)%Z 0x509000005098 0x509000005098;
  mkModel 0x2a1000002a7 (1271)%Z 0x0 0x50980000509f;
  mkModel 0x2a1000002a7 (1272)%Z 0x0 0x509f000050a9;
  mkModel 0x2a1000002a7 (1273)%Z 0x0 0x4c4300004c49;
  mkModel 0x2a1000002a7 (1274)%Z 0x0 0x50a9000050b4;
  mkModel 0x2a1000002a7 (1275)%Z 0x0 0x50b4000050bd;
  mkModel 0x2a1000002a7 (1276)%Z 0x0 0x4c4300004c49;
  mkModel 0x2700000027 (1277)%Z 0x0 0x50bd000050c6;
  mkModel 0x2700000027 (1278)%Z 0x0 0x18000000182;
  mkModel 0x2700000027 (1280)%Z 0x0 0x50cf000050dc;
  mkModel 0x2700000027 (1281)%Z 0x0 0x50dc000050ed;
  mkModel 0x2700000027 (1282)%Z 0x0 0x50ed000050fc;
  mkModel 0x2700000027 (1283)%Z 0x0 0x50fc0000510a;
  mkModel 0x2700000027 (-1)%Z 0x510a00005117 0x510a00005117;
  mkModel 0x2700000027 (1284)%Z 0x0 0x511700005123;
  mkModel 0x2700000027 (1285)%Z 0x0 0x51230000512d;
  mkModel 0x2700000027 (-1)%Z 0x512d0000513e 0x513e0000514f;
  mkModel 0x2700000027 (1286)%Z 0x0 0x514f0000515a;
  mkModel 0x2700000027 (-1)%Z 0x515a00005162 0x51620000516c;
  mkModel 0x2700000027 (1287)%Z 0x0 0x516c00005171;
  mkModel 0x23f00000249 (1288)%Z 0x0 0x18000000182;
  mkModel 0x23f00000249 (1289)%Z 0x0 0x18000000182;
  mkModel 0x23f00000249 (-1)%Z 0x51710000517b 0x517b00005187;
  mkModel 0x23b0000023d (1290)%Z 0x0 0x18000000182;
  mkModel 0x23b0000023d (-1)%Z 0x51870000518f 0x518f00005199
].
Definition d_dr_dm_8 : list modelTuple := [
  mkModel 0x23b0000023d (-1)%Z 0x5199000051a2 0x5199000051a2;
  mkModel 0x2700000027 (1292)%Z 0x0 0x51a2000051a7;
  mkModel 0x2a1000002a7 (-1)%Z 0x51a7000051b0 0x51b0000051be;
  mkModel 0x0 (-1)%Z 0x0 0x18000000182;
  mkModel 0x2700000027 (-1)%Z 0x51c7000051d1 0x51d1000051dd;
  mkModel 0x2700000027 (-1)%Z 0x51dd000051ed 0x51ed000051ff;
  mkModel 0x2700000027 (-1)%Z 0x51ff0000520e 0x520e0000521f;
  mkModel 0x2700000027 (-1)%Z 0x521f0000522f 0x522f00005242;
  mkModel 0x2700000027 (1295)%Z 0x0 0x524200005257;
  mkModel 0x2700000027 (-1)%Z 0x525700005266 0x526600005275;
  mkModel 0x2700000027 (-1)%Z 0x52750000527e 0x527e0000528a;
  mkModel 0x2700000027 (-1)%Z 0x528d00005295 0x528d00005295;
  mkModel 0x2700000027 (-1)%Z 0x5295000052a4 0x52a4000052b7;
  mkModel 0x2700000027 (-1)%Z 0x52b7000052c5 0x52b7000052c5;
  mkModel 0x2700000027 (1297)%Z 0x0 0x52c5000052cf;
  mkModel 0x2700000027 (1298)%Z 0x0 0x52cf000052d8;
  mkModel 0x2700000027 (-1)%Z 0x52d8000052e5 0x52e5000052f2;
  mkModel 0x2700000027 (-1)%Z 0x52f200005301 0x530100005312;
  mkModel 0x2700000027 (-1)%Z 0x531200005322 0x532200005334;
  mkModel 0x2700000027 (-1)%Z 0x533400005341 0x53410000534e;
  mkModel 0x2700000027 (-1)%Z 0x534e0000535a 0x535a00005366;
  mkModel 0x2700000027 (1299)%Z 0x0 0x53660000536f;
  mkModel 0x2700000027 (1300)%Z 0x0 0x536f0000537b;
  mkModel 0x2700000027 (-1)%Z 0x537b0000538c 0x538c0000539d;
  mkModel 0x2700000027 (-1)%Z 0x539d000053a7 0x53a7000053b1;
  mkModel 0x2700000027 (-1)%Z 0x53b1000053be 0x53be000053cb;
  mkModel 0x2700000027 (1301)%Z 0x0 0x53660000536f;
  mkModel 0x2700000027 (1302)%Z 0x0 0x53cb000053db;
  mkModel 0x2700000027 (-1)%Z 0x53db000053e8 0x53e8000053f5;
  mkModel 0x2700000027 (1303)%Z 0x0 0x53f500005404;
  mkModel 0x2700000027 (1304)%Z 0x0 0x540400005417;
  mkModel 0x2700000027 (-1)%Z 0x541700005425 0x542500005433;
  mkModel 0x2700000027 (-1)%Z 0x54330000543c 0x543c00005445;
  mkModel 0x2700000027 (-1)%Z 0x544500005451 0x544500005451;
  mkModel 0x2700000027 (-1)%Z 0x54510000545a 0x545a00005463;
  mkModel 0x2700000027 (-1)%Z 0x54630000546d 0x54630000546d;
  mkModel 0x2700000027 (-1)%Z 0x546d0000547c 0x547c0000548b;
  mkModel 0x2700000027 (-1)%Z 0x548b00005498 0x5498000054a5;
  mkModel 0x2700000027 (-1)%Z 0x54a5000054aa 0x54aa000054ae;
  mkModel 0x2700000027 (-1)%Z 0x54ae000054b5 0x54b5000054bc;
  mkModel 0x2700000027 (1305)%Z 0x0 0x54bc000054cb;
  mkModel 0x2700000027 (-1)%Z 0x54cb000054d6 0x54d6000054e1;
  mkModel 0x2700000027 (1306)%Z 0x0 0x54e1000054e9;
  mkModel 0x2700000027 (-1)%Z 0x54e9000054f0 0x54e9000054f0;
  mkModel 0x2700000027 (1307)%Z 0x0 0x54f0000054f7;
  mkModel 0x2700000027 (-1)%Z 0x54f700005500 0x550000005509;
  mkModel 0x2700000027 (1308)%Z 0x0 0x550900005510;
  mkModel 0x2700000027 (-1)%Z 0x551000005520 0x551000005520;
  mkModel 0x2700000027 (1309)%Z 0x0 0x55200000552b;
  mkModel 0x2700000027 (-1)%Z 0x552b00005533 0x55330000553b;
  mkModel 0x2700000027 (-1)%Z 0x553b00005545 0x55450000554f;
  mkModel 0x2700000027 (-1)%Z 0x554f00005556 0x55560000555d;
  mkModel 0x2700000027 (-1)%Z 0x555d00005566 0x55660000556f;
  mkModel 0x2700000027 (-1)%Z 0x556f00005579 0x557900005583;
  mkModel 0x2700000027 (1310)%Z 0x0 0x558300005589;
  mkModel 0x2700000027 (-1)%Z 0x558900005591 0x558900005591;
  mkModel 0x2700000027 (1311)%Z 0x0 0x559100005599;
  mkModel 0x2700000027 (1312)%Z 0x0 0x5599000055a0;
  mkModel 0x2700000027 (1313)%Z 0x0 0x18000000182;
  mkModel 0x2700000027 (1314)%Z 0x0 0x18000000182;
  mkModel 0x2700000027 (1315)%Z 0x0 0x55a0000055ac;
  mkModel 0x2700000027 (-1)%Z 0x55ac000055b7 0x55ac000055b7;
  mkModel 0x2700000027 (-1)%Z 0x55b7000055c3 0x55b7000055c3;
  mkModel 0x2700000027 (-1)%Z 0x55c3000055cf 0x55c3000055cf;
  mkModel 0x2700000027 (1316)%Z 0x0 0x55cf000055d7;
  mkModel 0x2700000027 (-1)%Z 0x55d7000055e0 0x55d7000055e0;
  mkModel 0x2700000027 (-1)%Z 0x55e0000055ea 0x55e0000055ea;
  mkModel 0x2700000027 (-1)%Z 0x55ea000055f2 0x55ea000055f2;
  mkModel 0x2700000027 (-1)%Z 0x55f2000055f8 0x55f800005601;
  mkModel 0x2700000027 (-1)%Z 0x560100005608 0x560800005615;
  mkModel 0x2700000027 (1317)%Z 0x0 0x56150000561b;
  mkModel 0x2700000027 (-1)%Z 0x561b00005621 0x562100005627;
  mkModel 0x2700000027 (-1)%Z 0x56270000562c 0x562c00005632;
  mkModel 0x2700000027 (-1)%Z 0x563200005638 0x56380000563e;
  mkModel 0x2700000027 (-1)%Z 0x563e00005644 0x56440000564a;
  mkModel 0x2700000027 (-1)%Z 0x564a0000564f 0x564a0000564f;
  mkModel 0x2700000027 (-1)%Z 0x564f00005655 0x564f00005655;
  mkModel 0x2700000027 (1318)%Z 0x0 0x56550000565d;
  mkModel 0x2700000027 (1319)%Z 0x0 0x565d00005667;
  mkModel 0x2700000027 (1320)%Z 0x0 0x566700005670;
  mkModel 0x2700000027 (1321)%Z 0x0 0x567000005681;
  mkModel 0x2700000027 (-1)%Z 0x568100005690 0x568100005690;
  mkModel 0x2700000027 (-1)%Z 0x56900000569b 0x56900000569b;
  mkModel 0x2700000027 (-1)%Z 0x569b000056a7 0x56a7000056b3;
  mkModel 0x2700000027 (-1)%Z 0x56b3000056bf 0x56b3000056bf;
  mkModel 0x2700000027 (1322)%Z 0x0 0x56bf000056c4;
  mkModel 0x2700000027 (-1)%Z 0x56c4000056cb 0x56c4000056cb;
  mkModel 0x2700000027 (1323)%Z 0x0 0x56cb000056d6;
  mkModel 0x2700000027 (-1)%Z 0x56d6000056de 0x56d6000056de;
  mkModel 0x2700000027 (-1)%Z 0x56de000056e5 0x56de000056e5;
  mkModel 0x2700000027 (1324)%Z 0x0 0x56e5000056e9;
  mkModel 0x2700000027 (1325)%Z 0x0 0x56e9000056f4;
  mkModel 0x2700000027 (1326)%Z 0x0 0x56f4000056ff;
  mkModel 0x2700000027 (-1)%Z 0x56ff00005711 0x571100005725;
  mkModel 0x2700000027 (1327)%Z 0x0 0x572500005731;
  mkModel 0x2700000027 (1328)%Z 0x0 0x573100005738;
  mkModel 0x2700000027 (1329)%Z 0x0 0x57380000573f;
  mkModel 0x2700000027 (1330)%Z 0x0 0x573f00005749;
  mkModel 0x2700000027 (1331)%Z 0x0 0x18000000182;
  mkModel 0x2a1000002a7 (-1)%Z 0x574900005759 0x574900005759;
  mkModel 0x2a1000002a7 (1332)%Z 0x0 0x575900005762;
  mkModel 0x2a1000002a7 (1333)%Z 0x0 0x57620000576a;
  mkModel 0x2a1000002a7 (1334)%Z 0x0 0x576a00005772;
  mkModel 0x2a1000002a7 (1335)%Z 0x0 0x577200005780;
  mkModel 0x2a1000002a7 (-1)%Z 0x57800000578a 0x57800000578a;
  mkModel 0x2700000027 (1336)%Z 0x0 0x578a00005791;
  mkModel 0x2700000027 (1337)%Z 0x0 0x578a00005791;
  mkModel 0x2700000027 (1338)%Z 0x0 0x18000000182;
  mkModel 0x0 (-1)%Z 0x0 0x5799000057ae;
  mkModel 0x2700000027 (-1)%Z 0x57b4000057be 0x57be000057c2;
  mkModel 0x2700000027 (-1)%Z 0x57c2000057c8 0x57c8000057cf;
  mkModel 0x2700000027 (1341)%Z 0x0 0x57cf000057d9;
  mkModel 0x2700000027 (-1)%Z 0x57d9000057de 0x57d9000057de;
  mkModel 0x2700000027 (-1)%Z 0x57de000057e5 0x57de000057e5;
  mkModel 0x2700000027 (-1)%Z 0x57e5000057ee 0x57ee000057f5;
  mkModel 0x2700000027 (-1)%Z 0x57f5000057f8 0x57f5000057f8;
  mkModel 0x2700000027 (1342)%Z 0x0 0x57f8000057ff;
  mkModel 0x2700000027 (1343)%Z 0x0 0x57ee000057f5;
  mkModel 0x2700000027 (1344)%Z 0x0 0x57ff00005801;
  mkModel 0x2700000027 (1345)%Z 0x0 0x18000000182;
  mkModel 0x2700000027 (1346)%Z 0x0 0x18000000182;
  mkModel 0x0 (-1)%Z 0x0 0x58080000580d;
  mkModel 0x0 (-1)%Z 0x0 0x18000000182;
  mkModel 0x23f00000249 (1350)%Z 0x0 0x18000000182;
  mkModel 0x2700000027 (1351)%Z 0x0 0x18000000182;
  mkModel 0x2700000027 (-1)%Z 0x582c0000582e 0x582c0000582e;
  mkModel 0x2700000027 (-1)%Z 0x58360000583d 0x583d00005847;
  mkModel 0x2700000027 (-1)%Z 0x58470000584d 0x584d00005863;
  mkModel 0x2700000027 (-1)%Z 0x586300005868 0x50480000504e;
  mkModel 0x2700000027 (-1)%Z 0x58680000586d 0x583d00005847;
  mkModel 0x2700000027 (1353)%Z 0x0 0x586d0000587e;
  mkModel 0x2700000027 (1355)%Z 0x0 0x24bd000024c1;
  mkModel 0x2700000027 (-1)%Z 0x58850000588a 0x588a0000588f;
  mkModel 0x2700000027 (-1)%Z 0x588f00005899 0x5899000058a5;
  mkModel 0x2700000027 (1356)%Z 0x0 0x58a5000058ac;
  mkModel 0x2700000027 (1357)%Z 0x0 0x58ac000058b0;
  mkModel 0x2700000027 (1358)%Z 0x0 0x58b0000058b4;
  mkModel 0x2700000027 (1359)%Z 0x0 0x58b4000058bc;
  mkModel 0x2700000027 (1360)%Z 0x0 0x58bc000058c0;
  mkModel 0x2700000027 (-1)%Z 0x58c0000058ca 0x58ca000058cf;
  mkModel 0x2700000027 (-1)%Z 0x58cf000058d5 0x58d5000058dc;
  mkModel 0x2700000027 (1361)%Z 0x0 0x58dc000058e4;
  mkModel 0x2700000027 (1362)%Z 0x0 0x58e4000058e8;
  mkModel 0x2700000027 (1363)%Z 0x0 0x58e8000058ec;
  mkModel 0x2700000027 (1364)%Z 0x0 0x58ec000058f0;
  mkModel 0x2700000027 (1365)%Z 0x0 0x58f0000058f8;
  mkModel 0x2700000027 (1366)%Z 0x0 0x58f8000058fd;
  mkModel 0x2700000027 (1367)%Z 0x0 0x18000000182;
  mkModel 0x2700000027 (1368)%Z 0x0 0x18000000182;
  mkModel 0x0 (-1)%Z 0x0 0x59040000590a;
  mkModel 0x0 (-1)%Z 0x0 0x590f00005918;
  mkModel 0x0 (-1)%Z 0x0 0x18000000182;
  mkModel 0x2700000027 (1373)%Z 0x0 0x18000000182;
  mkModel 0x2a1000002a7 (1374)%Z 0x0 0x18000000182;
  mkModel 0x2a1000002a7 (-1)%Z 0x59240000592e 0x592e00005939;
  mkModel 0x2700000027 (-1)%Z 0x593f00005948 0x593f00005948;
  mkModel 0x2700000027 (-1)%Z 0x59480000594d 0x594d00005952;
  mkModel 0x2700000027 (1377)%Z 0x0 0x18000000182;
  mkModel 0x2700000027 (1378)%Z 0x0 0x18000000182;
  mkModel 0x2700000027 (1379)%Z 0x0 0x18000000182;
  mkModel 0x0 (-1)%Z 0x0 0x59690000596f;
  mkModel 0x2700000027 (-1)%Z 0x597800005981 0x598100005989;
  mkModel 0x2700000027 (-1)%Z 0x598900005996 0x599600005999;
  mkModel 0x23b0000023d (1382)%Z 0x0 0x599f000059a4;
  mkModel 0x2700000027 (1383)%Z 0x0 0x18000000182;
  mkModel 0x2700000027 (-1)%Z 0x59aa000059b5 0x59b5000059c0;
  mkModel 0x2700000027 (1385)%Z 0x0 0x59c0000059c9;
  mkModel 0x2700000027 (1386)%Z 0x0 0x59c9000059d0;
  mkModel 0x2700000027 (1387)%Z 0x0 0x59d0000059d9;
  mkModel 0x2700000027 (1388)%Z 0x0 0x59d9000059dc;
  mkModel 0x2700000027 (1389)%Z 0x0 0x59dc000059e1;
  mkModel 0x2700000027 (1390)%Z 0x0 0x59e1000059e6;
  mkModel 0x2700000027 (-1)%Z 0x59e6000059ea 0x59ea000059ee;
  mkModel 0x2700000027 (-1)%Z 0x59ee000059f4 0x59f4000059f9;
  mkModel 0x2700000027 (1391)%Z 0x0 0x59f900005a03;
  mkModel 0x2700000027 (1392)%Z 0x0 0x5a0300005a0f;
  mkModel 0x2700000027 (-1)%Z 0x5a0f00005a1c 0x5a1c00005a29;
  mkModel 0x2700000027 (-1)%Z 0x5a2900005a35 0x5a3500005a41;
  mkModel 0x2700000027 (-1)%Z 0x5a4100005a4b 0x5a4b00005a55;
  mkModel 0x2700000027 (-1)%Z 0x5a5500005a5d 0x5a5500005a5d;
  mkModel 0x2700000027 (-1)%Z 0x5a5d00005a67 0x5a5d00005a67;
  mkModel 0x2700000027 (-1)%Z 0x5a6700005a77 0x5a6700005a77;
  mkModel 0x2700000027 (-1)%Z 0x5a7700005a83 0x5a7700005a83;
  mkModel 0x2700000027 (-1)%Z 0x5a8300005a90 0x5a9000005a9d;
  mkModel 0x2700000027 (-1)%Z 0x5a9d00005aa7 0x5aa700005ab1;
  mkModel 0x2700000027 (-1)%Z 0x5ab100005abb 0x5abb00005ac3;
  mkModel 0x2700000027 (-1)%Z 0x5ac300005ad1 0x5ad100005adf;
  mkModel 0x2700000027 (-1)%Z 0x5adf00005aeb 0x5aeb00005af7;
  mkModel 0x2700000027 (-1)%Z 0x5af700005b03 0x5b0300005b08;
  mkModel 0x2700000027 (-1)%Z 0x5b0800005b12 0x5b1200005b15;
  mkModel 0x2700000027 (-1)%Z 0x5b1500005b21 0x5b2100005b26;
  mkModel 0x2700000027 (1393)%Z 0x0 0x5b2600005b2b;
  mkModel 0x2a1000002a7 (1394)%Z 0x0 0x5b2b00005b32;
  mkModel 0x2a1000002a7 (-1)%Z 0x5b3200005b3b 0x5b3b00005b43;
  mkModel 0x2a1000002a7 (-1)%Z 0x5b4300005b50 0x5b5000005b55;
  mkModel 0x2a1000002a7 (-1)%Z 0x5b5500005b65 0x5b6500005b6d;
  mkModel 0x2a1000002a7 (-1)%Z 0x5b6d00005b7a 0x5b7a00005b7f;
  mkModel 0x2700000027 (1395)%Z 0x0 0x18000000182;
  mkModel 0x2a1000002a7 (1396)%Z 0x0 0x18000000182;
  mkModel 0x2700000027 (1397)%Z 0x0 0x18000000182
].
Definition d_dr_dm_9 : list modelTuple := [
  mkModel 0x2a1000002a7 (-1)%Z 0x5b9600005ba6 0x5b9600005ba6;
  mkModel 0x2700000027 (1399)%Z 0x0 0x18000000182;
  mkModel 0x2700000027 (1400)%Z 0x0 0x5bac00005bb8;
  mkModel 0x2700000027 (1401)%Z 0x0 0x5bb800005bc4;
  mkModel 0x2700000027 (1402)%Z 0x0 0x5bc400005bcc;
  mkModel 0x2700000027 (1403)%Z 0x0 0x5bcc00005bd5;
  mkModel 0x2700000027 (1404)%Z 0x0 0x5bd500005be1;
  mkModel 0x2700000027 (1405)%Z 0x0 0x5be100005bed;
  mkModel 0x2700000027 (1406)%Z 0x0 0x5bed00005bf7;
  mkModel 0x2700000027 (-1)%Z 0x5bf700005c0a 0x5c0a00005c1d;
  mkModel 0x2700000027 (1407)%Z 0x0 0x5c1d00005c30;
  mkModel 0x2a1000002a7 (1408)%Z 0x0 0x5c3000005c3e;
  mkModel 0x2a1000002a7 (1409)%Z 0x0 0x5c3000005c3e;
  mkModel 0x0 (-1)%Z 0x0 0x18000000182;
  mkModel 0x2700000027 (1412)%Z 0x0 0x5c4c00005c5f;
  mkModel 0x2700000027 (1413)%Z 0x0 0x5c5f00005c6c;
  mkModel 0x2a1000002a7 (-1)%Z 0x5c6c00005c78 0x5c7800005c86;
  mkModel 0x2a1000002a7 (-1)%Z 0x5c8a00005c93 0x5c9300005c98;
  mkModel 0x2a1000002a7 (1415)%Z 0x0 0x5c9800005ca4;
  mkModel 0x2a1000002a7 (1416)%Z 0x0 0x5ca400005cac;
  mkModel 0x2700000027 (-1)%Z 0x5cac00005cc6 0x5cc600005cd1;
  mkModel 0x2700000027 (1417)%Z 0x0 0x18000000182;
  mkModel 0x2700000027 (1418)%Z 0x0 0x18000000182;
  mkModel 0x23b0000023d (1419)%Z 0x0 0x10e9000010f6;
  mkModel 0x23b0000023d (1420)%Z 0x0 0x2700000027;
  mkModel 0x0 (-1)%Z 0x0 0x18000000182;
  mkModel 0x2700000027 (1423)%Z 0x0 0x18000000182;
  mkModel 0x2700000027 (1424)%Z 0x0 0x5cdd00005ce8;
  mkModel 0x2700000027 (-1)%Z 0x5cf100005cfc 0x5cfc00005d07;
  mkModel 0x2700000027 (-1)%Z 0x5d0700005d0d 0x5d0d00005d13;
  mkModel 0x2700000027 (-1)%Z 0x5d1300005d1c 0x5d1c00005d27;
  mkModel 0x2a1000002a7 (-1)%Z 0x5d2700005d2d 0x5d2d00005d34;
  mkModel 0x2700000027 (1427)%Z 0x0 0x4c3d00004c43;
  mkModel 0x2700000027 (-1)%Z 0x5d4300005d4d 0x5b0300005b08;
  mkModel 0x2700000027 (1428)%Z 0x0 0x18000000182;
  mkModel 0x2700000027 (-1)%Z 0x5d5200005d5f 0x5d5f00005d6c;
  mkModel 0x2700000027 (-1)%Z 0x5d6c00005d73 0x5d7300005d7a;
  mkModel 0x2700000027 (-1)%Z 0x5d7a00005d80 0x5d7a00005d80;
  mkModel 0x2700000027 (1430)%Z 0x0 0x5d8000005d87;
  mkModel 0x2700000027 (-1)%Z 0x5d8700005d8f 0x5d8f00005d97;
  mkModel 0x2700000027 (-1)%Z 0x5d9700005d9e 0x5d9e00005da5;
  mkModel 0x2700000027 (-1)%Z 0x5da500005dad 0x5da500005dad;
  mkModel 0x2700000027 (-1)%Z 0x5dad00005db5 0x5db500005dbd;
  mkModel 0x2700000027 (-1)%Z 0x5dbd00005dc7 0x5dbd00005dc7;
  mkModel 0x2700000027 (-1)%Z 0x5dc700005dce 0x5dce00005dd5;
  mkModel 0x2700000027 (-1)%Z 0x5dd500005ddd 0x5ddd00005de5;
  mkModel 0x2700000027 (-1)%Z 0x5de500005ded 0x5de500005ded;
  mkModel 0x2700000027 (-1)%Z 0x5ded00005df5 0x5ded00005df5;
  mkModel 0x23f00000249 (1432)%Z 0x0 0x5df900005e02;
  mkModel 0x23f00000249 (1433)%Z 0x0 0x5e0200005e0b;
  mkModel 0x2700000027 (1434)%Z 0x0 0x5e0b00005e13;
  mkModel 0x2700000027 (1435)%Z 0x0 0x18000000182;
  mkModel 0x0 (-1)%Z 0x0 0x5e1900005e1e;
  mkModel 0x0 (-1)%Z 0x0 0x18000000182;
  mkModel 0x2700000027 (1439)%Z 0x0 0x5e2d00005e35;
  mkModel 0x2700000027 (1440)%Z 0x0 0x5e3500005e3c;
  mkModel 0x2700000027 (1441)%Z 0x0 0x5e3c00005e49;
  mkModel 0x2700000027 (1442)%Z 0x0 0x5e4900005e57;
  mkModel 0x2700000027 (1443)%Z 0x0 0x5e5700005e5f;
  mkModel 0x0 (-1)%Z 0x0 0x18000000182;
  mkModel 0x7cc000007d6 (1446)%Z 0x0 0x18000000182;
  mkModel 0x2700000027 (1448)%Z 0x0 0x5e7200005e79;
  mkModel 0x2700000027 (1449)%Z 0x0 0x5e7900005e7f;
  mkModel 0x2700000027 (1450)%Z 0x0 0x18000000182;
  mkModel 0x2700000027 (-1)%Z 0x5e8200005e86 0x5e8600005e91;
  mkModel 0x2700000027 (-1)%Z 0x5e9100005e95 0x5e9500005e9c;
  mkModel 0x0 (-1)%Z 0x0 0x18000000182;
  mkModel 0x2700000027 (-1)%Z 0x5ead00005eb4 0x5eb400005ebc;
  mkModel 0x0 (-1)%Z 0x0 0x18000000182;
  mkModel 0x2700000027 (1455)%Z 0x0 0x5ec900005ed2;
  mkModel 0x2700000027 (1457)%Z 0x0 0x18000000182;
  mkModel 0x2700000027 (-1)%Z 0x5ed600005ee3 0x5ee300005ef1;
  mkModel 0x2700000027 (-1)%Z 0x5ef100005f00 0x5f0000005f10;
  mkModel 0x2700000027 (1458)%Z 0x0 0x5f1000005f1a;
  mkModel 0x2700000027 (1459)%Z 0x0 0x5f1a00005f20;
  mkModel 0x2700000027 (1460)%Z 0x0 0x5f2000005f24;
  mkModel 0x2700000027 (1461)%Z 0x0 0x5f2400005f2d;
  mkModel 0x2700000027 (1462)%Z 0x0 0x5f2d00005f30;
  mkModel 0x2700000027 (1463)%Z 0x0 0x2ac600002ac9;
  mkModel 0x2700000027 (-1)%Z 0x5f3600005f4a 0x5f3600005f4a;
  mkModel 0x0 (-1)%Z 0x0 0x5f5200005f5f;
  mkModel 0x2a1000002a7 (-1)%Z 0x5f6400005f72 0x5f7200005f81;
  mkModel 0x2a1000002a7 (-1)%Z 0x5f8100005f8d 0x5f8d00005f9a;
  mkModel 0x2700000027 (1467)%Z 0x0 0x5f9a00005fa3;
  mkModel 0x2700000027 (-1)%Z 0x5fa300005fa9 0x5fa300005fa9;
  mkModel 0x2700000027 (1468)%Z 0x0 0x5fa900005fb2;
  mkModel 0x2700000027 (-1)%Z 0x5fb200005fbb 0x5fbb00005fc4;
  mkModel 0x2700000027 (-1)%Z 0x5fc400005fcb 0x5fcb00005fd2;
  mkModel 0x2700000027 (-1)%Z 0x5fd200005fda 0x5fda00005fe2;
  mkModel 0x2700000027 (-1)%Z 0x5fe200005ff0 0x5ff000005fff;
  mkModel 0x2700000027 (1469)%Z 0x0 0x5fff00006011;
  mkModel 0x2700000027 (1470)%Z 0x0 0x601100006020;
  mkModel 0x2700000027 (1471)%Z 0x0 0x60200000602c;
  mkModel 0x2700000027 (1472)%Z 0x0 0x602c0000603c;
  mkModel 0x2700000027 (1473)%Z 0x0 0x603c0000604c;
  mkModel 0x2700000027 (1474)%Z 0x0 0x604c0000605a;
  mkModel 0x2700000027 (-1)%Z 0x605a0000606c 0x606c00006080;
  mkModel 0x2700000027 (1475)%Z 0x0 0x608000006091;
  mkModel 0x2700000027 (-1)%Z 0x60910000609e 0x609e000060ac;
  mkModel 0x2700000027 (-1)%Z 0x60ac000060ba 0x60ba000060c9;
  mkModel 0x2700000027 (1476)%Z 0x0 0x60c9000060d5;
  mkModel 0x2700000027 (-1)%Z 0x60d5000060e1 0x60e1000060ed;
  mkModel 0x2700000027 (-1)%Z 0x60ed000060f6 0x60f6000060ff;
  mkModel 0x2700000027 (-1)%Z 0x60ff00006109 0x610900006113;
  mkModel 0x2700000027 (-1)%Z 0x611300006118 0x61180000611d;
  mkModel 0x2700000027 (-1)%Z 0x611d00006124 0x61240000612b;
  mkModel 0x2700000027 (-1)%Z 0x612b00006134 0x61340000613d;
  mkModel 0x2700000027 (1477)%Z 0x0 0x29770000297b;
  mkModel 0x2700000027 (1478)%Z 0x0 0x613d00006143;
  mkModel 0x2700000027 (1479)%Z 0x0 0x614300006148;
  mkModel 0x2700000027 (1480)%Z 0x0 0x61480000614e;
  mkModel 0x2700000027 (1481)%Z 0x0 0x42200000425;
  mkModel 0x2700000027 (-1)%Z 0x614e00006157 0x615700006160;
  mkModel 0x2700000027 (-1)%Z 0x61600000616b 0x616b00006176;
  mkModel 0x2700000027 (1482)%Z 0x0 0x500000005006;
  mkModel 0x2700000027 (1483)%Z 0x0 0x61760000617d;
  mkModel 0x2700000027 (1484)%Z 0x0 0x617d00006183;
  mkModel 0x2700000027 (-1)%Z 0x61830000618d 0x618d00006191;
  mkModel 0x2700000027 (-1)%Z 0x61910000619c 0x5b2100005b26;
  mkModel 0x2700000027 (-1)%Z 0x619c000061aa 0x61aa000061b2;
  mkModel 0x2700000027 (1485)%Z 0x0 0x61b2000061bb;
  mkModel 0x2700000027 (1486)%Z 0x0 0x18000000182;
  mkModel 0x2700000027 (1487)%Z 0x0 0x18000000182;
  mkModel 0x2700000027 (1488)%Z 0x0 0x18000000182;
  mkModel 0x2700000027 (1489)%Z 0x0 0x18000000182;
  mkModel 0x0 (-1)%Z 0x0 0x61be000061c5;
  mkModel 0x0 (-1)%Z 0x0 0x18000000182;
  mkModel 0x2a1000002a7 (-1)%Z 0x61cb000061d1 0x61cb000061d1;
  mkModel 0x2700000027 (-1)%Z 0x61d7000061e7 0xe3400000e3c;
  mkModel 0x2700000027 (1495)%Z 0x0 0x18000000182;
  mkModel 0x2700000027 (-1)%Z 0x61ee000061fb 0x61ee000061fb;
  mkModel 0x2700000027 (1496)%Z 0x0 0x18000000182;
  mkModel 0x2700000027 (1498)%Z 0x0 0x18000000182;
  mkModel 0x0 (-1)%Z 0x0 0x620f00006217;
  mkModel 0x2700000027 (1500)%Z 0x0 0x62270000622d;
  mkModel 0x0 (-1)%Z 0x0 0x18000000182;
  mkModel 0x0 (-1)%Z 0x0 0x18000000182;
  mkModel 0x0 (-1)%Z 0x0 0x4bd000004c3;
  mkModel 0x0 (-1)%Z 0x0 0x625f0000626a;
  mkModel 0x2700000027 (-1)%Z 0x627300006278 0x627800006289;
  mkModel 0x2700000027 (1505)%Z 0x0 0x62890000628d;
  mkModel 0x2700000027 (1506)%Z 0x0 0x62890000628d;
  mkModel 0x2700000027 (1508)%Z 0x0 0x62920000629f;
  mkModel 0x2700000027 (1509)%Z 0x0 0x629f000062ae;
  mkModel 0x2700000027 (1510)%Z 0x0 0x62ae000062c4;
  mkModel 0x2700000027 (1512)%Z 0x0 0x62ca000062d5;
  mkModel 0x2700000027 (1513)%Z 0x0 0x62d5000062db;
  mkModel 0x2700000027 (-1)%Z 0x62db000062e9 0x62e9000062f0;
  mkModel 0x2a1000002a7 (1514)%Z 0x0 0x62f0000062f8;
  mkModel 0x2a1000002a7 (-1)%Z 0x62f800006303 0x63030000630e;
  mkModel 0x2a1000002a7 (1515)%Z 0x0 0x18000000182;
  mkModel 0x2a1000002a7 (1516)%Z 0x0 0x630e00006317;
  mkModel 0x2a1000002a7 (1517)%Z 0x0 0x62d5000062db;
  mkModel 0x23f00000249 (-1)%Z 0x631a0000631e 0x631a0000631e;
  mkModel 0x23f00000249 (-1)%Z 0x631e00006325 0x632500006328;
  mkModel 0x23f00000249 (1519)%Z 0x0 0x63280000632b;
  mkModel 0x23f00000249 (-1)%Z 0x632b00006332 0x632b00006332;
  mkModel 0x23f00000249 (-1)%Z 0x63320000633a 0x633a00006342;
  mkModel 0x23f00000249 (1520)%Z 0x0 0x18000000182;
  mkModel 0x2700000027 (1521)%Z 0x0 0x18000000182;
  mkModel 0x2700000027 (1522)%Z 0x0 0x618d00006191;
  mkModel 0x39a000003a7 (1523)%Z 0x0 0x18000000182;
  mkModel 0x39a000003a7 (1524)%Z 0x0 0x18000000182;
  mkModel 0x2700000027 (1526)%Z 0x0 0x634800006352;
  mkModel 0x2700000027 (1527)%Z 0x0 0x63520000635b;
  mkModel 0x2a1000002a7 (-1)%Z 0x635b00006369 0x636900006379;
  mkModel 0x2a1000002a7 (1528)%Z 0x0 0x637900006387;
  mkModel 0x2a1000002a7 (1529)%Z 0x0 0x638700006395;
  mkModel 0x2a1000002a7 (-1)%Z 0x6395000063a3 0x63a3000063aa;
  mkModel 0x2a1000002a7 (-1)%Z 0x63aa000063bc 0x63bc000063ca;
  mkModel 0x2a1000002a7 (-1)%Z 0x63ca000063dc 0x63dc000063ea;
  mkModel 0x2a1000002a7 (1530)%Z 0x0 0x63ea000063fe;
  mkModel 0x2a1000002a7 (1531)%Z 0x0 0x18000000182;
  mkModel 0x2700000027 (-1)%Z 0x640400006409 0x64090000640f;
  mkModel 0x2700000027 (-1)%Z 0x640f00006418 0x641800006421;
  mkModel 0x2700000027 (-1)%Z 0x64210000642b 0x642b00006435;
  mkModel 0x2700000027 (-1)%Z 0x64350000643b 0x643b00006441;
  mkModel 0x2700000027 (-1)%Z 0x64410000644b 0x644b00006454;
  mkModel 0x2700000027 (1533)%Z 0x0 0x18000000182;
  mkModel 0x23f00000249 (1534)%Z 0x0 0x645400006462;
  mkModel 0x2a1000002a7 (1537)%Z 0x0 0x18000000182;
  mkModel 0x2a1000002a7 (1538)%Z 0x0 0x646e00006476;
  mkModel 0x2700000027 (-1)%Z 0x647600006484 0x647600006484;
  mkModel 0x2700000027 (-1)%Z 0x64840000648b 0x648b00006493;
  mkModel 0x2700000027 (-1)%Z 0x64930000649c 0x649c000064a6;
  mkModel 0x2700000027 (1539)%Z 0x0 0x64a6000064ac;
  mkModel 0x2700000027 (1540)%Z 0x0 0x64ac000064b4;
  mkModel 0x2700000027 (1541)%Z 0x0 0x64b4000064b8;
  mkModel 0x2700000027 (1542)%Z 0x0 0x18000000182;
  mkModel 0x2a1000002a7 (1543)%Z 0x0 0x18000000182;
  mkModel 0x2700000027 (1544)%Z 0x0 0x18000000182;
  mkModel 0x2700000027 (1545)%Z 0x0 0x18000000182;
  mkModel 0x2700000027 (1547)%Z 0x0 0x18000000182;
  mkModel 0x2700000027 (1548)%Z 0x0 0x64be000064c4;
  mkModel 0x2700000027 (1549)%Z 0x0 0x64c4000064cb;
  mkModel 0x2a1000002a7 (-1)%Z 0x64cb000064d7 0x64d7000064dd;
  mkModel 0x2700000027 (1551)%Z 0x0 0x18000000182;
  mkModel 0x2700000027 (-1)%Z 0x64e7000064f3 0x64f300006501;
  mkModel 0x2700000027 (-1)%Z 0x650100006508 0x65080000650f;
  mkModel 0x2700000027 (1553)%Z 0x0 0x65170000651a
].
Definition d_dr_dm_10 : list modelTuple := [
  mkModel 0x2700000027 (1554)%Z 0x0 0x651a00006522;
  mkModel 0x2700000027 (1555)%Z 0x0 0x65220000652c;
  mkModel 0x2700000027 (1557)%Z 0x0 0x65350000653e;
  mkModel 0x2700000027 (-1)%Z 0x653e00006544 0x653e00006544;
  mkModel 0x2700000027 (-1)%Z 0x654400006549 0x65490000654e;
  mkModel 0x2700000027 (1559)%Z 0x0 0x3a7000003a9;
  mkModel 0x2700000027 (1560)%Z 0x0 0x65550000655c;
  mkModel 0x2700000027 (1561)%Z 0x0 0x5cf000005d1;
  mkModel 0x2700000027 (1562)%Z 0x0 0x655c0000655e;
  mkModel 0x2700000027 (1563)%Z 0x0 0x655e00006560;
  mkModel 0x2700000027 (1564)%Z 0x0 0x107c0000107e;
  mkModel 0x2700000027 (1566)%Z 0x0 0x18000000182;
  mkModel 0x2700000027 (1568)%Z 0x0 0x18000000182;
  mkModel 0x2700000027 (-1)%Z 0x657100006578 0x657800006584;
  mkModel 0x2700000027 (-1)%Z 0x65840000658c 0x658c0000658f;
  mkModel 0x23b0000023d (1569)%Z 0x0 0x2700000027;
  mkModel 0x23b0000023d (1570)%Z 0x0 0x18000000182;
  mkModel 0x23b0000023d (1571)%Z 0x0 0x18000000182;
  mkModel 0x2700000027 (1573)%Z 0x0 0x18000000182;
  mkModel 0x2700000027 (1574)%Z 0x0 0x659c000065a7;
  mkModel 0x2700000027 (-1)%Z 0x65a7000065b3 0x65b3000065bf;
  mkModel 0x2700000027 (-1)%Z 0x65bf000065c9 0x65c9000065d3;
  mkModel 0x2700000027 (1575)%Z 0x0 0x65d3000065df;
  mkModel 0x2700000027 (1576)%Z 0x0 0x65df000065e7;
  mkModel 0x2700000027 (1577)%Z 0x0 0x65e7000065f1;
  mkModel 0x2700000027 (1578)%Z 0x0 0x65f1000065ff;
  mkModel 0x2700000027 (1579)%Z 0x0 0x65ff0000660e;
  mkModel 0x2700000027 (1580)%Z 0x0 0x660e0000661c;
  mkModel 0x2700000027 (1581)%Z 0x0 0x661c00006628;
  mkModel 0x2700000027 (1582)%Z 0x0 0x662800006635;
  mkModel 0x2700000027 (1583)%Z 0x0 0x663500006642;
  mkModel 0x2700000027 (-1)%Z 0x66420000664f 0x66420000664f;
  mkModel 0x2700000027 (1584)%Z 0x0 0x664f0000665c;
  mkModel 0x2700000027 (-1)%Z 0x665c00006668 0x665c00006668;
  mkModel 0x2700000027 (1585)%Z 0x0 0x666800006670;
  mkModel 0x2700000027 (1586)%Z 0x0 0x66700000667b;
  mkModel 0x2700000027 (1587)%Z 0x0 0x667b00006685;
  mkModel 0x2700000027 (1588)%Z 0x0 0x668500006692;
  mkModel 0x2700000027 (-1)%Z 0x66920000669f 0x669f000066ae;
  mkModel 0x2700000027 (-1)%Z 0x66ae000066be 0x66ae000066be;
  mkModel 0x2700000027 (1589)%Z 0x0 0x66be000066ca;
  mkModel 0x2700000027 (-1)%Z 0x66ca000066d8 0x66d8000066e9;
  mkModel 0x2700000027 (1590)%Z 0x0 0x66e9000066f5;
  mkModel 0x2700000027 (1591)%Z 0x0 0x66f500006703;
  mkModel 0x2700000027 (1592)%Z 0x0 0x670300006710;
  mkModel 0x2700000027 (1593)%Z 0x0 0x65df000065e7;
  mkModel 0x2700000027 (-1)%Z 0x67100000671a 0x67100000671a;
  mkModel 0x2700000027 (1594)%Z 0x0 0x671a00006725;
  mkModel 0x2700000027 (-1)%Z 0x672500006731 0x67310000673d;
  mkModel 0x2700000027 (-1)%Z 0x673d0000674e 0x673d0000674e;
  mkModel 0x2700000027 (-1)%Z 0x674e0000675a 0x674e0000675a;
  mkModel 0x2700000027 (1595)%Z 0x0 0x675a00006767;
  mkModel 0x2700000027 (1596)%Z 0x0 0x67670000676e;
  mkModel 0x2700000027 (-1)%Z 0x676e00006778 0x676e00006778;
  mkModel 0x2700000027 (-1)%Z 0x677800006782 0x67820000678c;
  mkModel 0x2700000027 (1597)%Z 0x0 0x678c0000679b;
  mkModel 0x2700000027 (-1)%Z 0x679b000067a9 0x67a9000067b7;
  mkModel 0x2700000027 (-1)%Z 0x67b7000067c0 0x67b7000067c0;
  mkModel 0x2700000027 (1598)%Z 0x0 0x67c0000067cf;
  mkModel 0x2700000027 (1599)%Z 0x0 0x67cf000067d9;
  mkModel 0x2700000027 (-1)%Z 0x67d9000067e3 0x67d9000067e3;
  mkModel 0x2700000027 (-1)%Z 0x67e3000067ef 0x67ef000067f7;
  mkModel 0x2700000027 (-1)%Z 0x67f700006803 0x68030000680f;
  mkModel 0x2700000027 (-1)%Z 0x680f00006817 0x680f00006817;
  mkModel 0x2a1000002a7 (-1)%Z 0x681700006825 0x68250000683c;
  mkModel 0x2a1000002a7 (-1)%Z 0x683c0000684c 0x684c0000685c;
  mkModel 0x2a1000002a7 (-1)%Z 0x685c00006870 0x685c00006870;
  mkModel 0x2a1000002a7 (-1)%Z 0x687000006880 0x687000006880;
  mkModel 0x2a1000002a7 (1600)%Z 0x0 0x688000006891;
  mkModel 0x2a1000002a7 (-1)%Z 0x68910000689f 0x689f000068ad;
  mkModel 0x2a1000002a7 (-1)%Z 0x68ad000068ba 0x68ba000068c7;
  mkModel 0x2a1000002a7 (1601)%Z 0x0 0x18000000182;
  mkModel 0x2700000027 (1602)%Z 0x0 0x18000000182;
  mkModel 0x2700000027 (-1)%Z 0x68c7000068ce 0x68ce000068da;
  mkModel 0x2700000027 (-1)%Z 0x68e6000068f0 0x68f0000068fa;
  mkModel 0x2700000027 (-1)%Z 0x68fa00006906 0x690600006912;
  mkModel 0x2700000027 (-1)%Z 0x691200006920 0x69200000692e;
  mkModel 0x2700000027 (-1)%Z 0x692e0000693b 0x693b00006948;
  mkModel 0x2700000027 (-1)%Z 0x694800006952 0x69520000695c;
  mkModel 0x2700000027 (-1)%Z 0x695c00006966 0x696600006970;
  mkModel 0x2700000027 (1604)%Z 0x0 0x697000006977;
  mkModel 0x2700000027 (1605)%Z 0x0 0x69770000697e;
  mkModel 0x2700000027 (-1)%Z 0x697e00006987 0x698700006990;
  mkModel 0x2700000027 (-1)%Z 0x69900000699b 0x699b000069a6;
  mkModel 0x2700000027 (-1)%Z 0x69a6000069ae 0x69ae000069b6;
  mkModel 0x2700000027 (-1)%Z 0x69b6000069bf 0x69bf000069c8;
  mkModel 0x2700000027 (-1)%Z 0x69c8000069d2 0x69d2000069dc;
  mkModel 0x2700000027 (-1)%Z 0x69dc000069e5 0x69e5000069ee;
  mkModel 0x2700000027 (-1)%Z 0x69ee000069f8 0x69f800006a02;
  mkModel 0x2700000027 (-1)%Z 0x6a0200006a0f 0x6a0f00006a1c;
  mkModel 0x2700000027 (-1)%Z 0x6a1c00006a24 0x6a2400006a2c;
  mkModel 0x2a1000002a7 (-1)%Z 0x6a2c00006a35 0x6a3500006a3e;
  mkModel 0x2700000027 (1607)%Z 0x0 0x6a4800006a52;
  mkModel 0x2700000027 (-1)%Z 0x6a5e00006a64 0x193300001935;
  mkModel 0x2700000027 (-1)%Z 0x6a6400006a6d 0x6a6d00006a73;
  mkModel 0x2700000027 (-1)%Z 0x6a7300006a77 0x6a7700006a7a;
  mkModel 0x2700000027 (-1)%Z 0x6a7a00006a7f 0x28a0000028c;
  mkModel 0x2700000027 (1609)%Z 0x0 0x18000000182;
  mkModel 0x2700000027 (-1)%Z 0x6a8c00006a93 0x6a9300006aa0;
  mkModel 0x2700000027 (-1)%Z 0x6aa000006aa7 0x6aa700006ab7;
  mkModel 0x2700000027 (-1)%Z 0x6ab700006abe 0x6abe00006acb;
  mkModel 0x2700000027 (-1)%Z 0x6acb00006ad2 0x6ad200006ae0;
  mkModel 0x2700000027 (-1)%Z 0x6ae000006ae7 0x6ae700006af4;
  mkModel 0x2700000027 (-1)%Z 0x6af400006afb 0x6afb00006b08;
  mkModel 0x2700000027 (-1)%Z 0x6b0800006b0f 0x6b0f00006b20;
  mkModel 0x2700000027 (-1)%Z 0x6b2000006b27 0x6b2700006b31;
  mkModel 0x2700000027 (-1)%Z 0x6b3100006b3b 0x6b3b00006b48;
  mkModel 0x2700000027 (1612)%Z 0x0 0x6b4d00006b50;
  mkModel 0x2700000027 (1613)%Z 0x0 0x6b5000006b5a;
  mkModel 0x2700000027 (1614)%Z 0x0 0x6b5a00006b5f;
  mkModel 0x2700000027 (1615)%Z 0x0 0x1940000019b;
  mkModel 0x2700000027 (1616)%Z 0x0 0x6b5f00006b66;
  mkModel 0x2700000027 (1617)%Z 0x0 0x6b6600006b6d;
  mkModel 0x2700000027 (1618)%Z 0x0 0x6b6d00006b72;
  mkModel 0x2700000027 (1619)%Z 0x0 0x500000005006;
  mkModel 0x2700000027 (1620)%Z 0x0 0x6b7200006b7c;
  mkModel 0x2700000027 (1621)%Z 0x0 0x6b7c00006b82;
  mkModel 0x2700000027 (1622)%Z 0x0 0x6b8200006b89;
  mkModel 0x2700000027 (1623)%Z 0x0 0x6b8900006b92;
  mkModel 0x2700000027 (1624)%Z 0x0 0x6b9200006b9d;
  mkModel 0x2700000027 (1625)%Z 0x0 0x6b9d00006ba6;
  mkModel 0x2700000027 (1626)%Z 0x0 0x6ba600006bb0;
  mkModel 0x2700000027 (1627)%Z 0x0 0x6bb000006bb9;
  mkModel 0x2700000027 (1628)%Z 0x0 0x6bb900006bc1;
  mkModel 0x2700000027 (1629)%Z 0x0 0x6bc100006bc7;
  mkModel 0x2700000027 (-1)%Z 0x6bc700006bd4 0x6bd400006be1;
  mkModel 0x2700000027 (1630)%Z 0x0 0x6be100006bea;
  mkModel 0x2700000027 (1631)%Z 0x0 0x6bea00006bf2;
  mkModel 0x2700000027 (1632)%Z 0x0 0x6bf200006bfb;
  mkModel 0x2700000027 (1633)%Z 0x0 0x6bfb00006c03;
  mkModel 0x2700000027 (1634)%Z 0x0 0x6c0300006c07;
  mkModel 0x2700000027 (1635)%Z 0x0 0x6c0700006c0d;
  mkModel 0xc9b00000ca2 (1636)%Z 0x0 0x6c0d00006c17;
  mkModel 0x2700000027 (1637)%Z 0x0 0x18000000182;
  mkModel 0x0 (-1)%Z 0x0 0x18000000182;
  mkModel 0x0 (-1)%Z 0x0 0x18000000182;
  mkModel 0x2700000027 (1641)%Z 0x0 0x6c3000006c3b;
  mkModel 0x2700000027 (1642)%Z 0x0 0x500000005006;
  mkModel 0x2700000027 (1643)%Z 0x0 0x18000000182;
  mkModel 0x2700000027 (-1)%Z 0x6c4200006c48 0x6c4800006c4f;
  mkModel 0x2700000027 (-1)%Z 0x6c4f00006c55 0x6c5500006c5c;
  mkModel 0x2700000027 (-1)%Z 0x6c5c00006c61 0x6c6100006c67;
  mkModel 0x2700000027 (1645)%Z 0x0 0x18000000182;
  mkModel 0x2700000027 (1646)%Z 0x0 0x18000000182;
  mkModel 0x2700000027 (1648)%Z 0x0 0x6c7b00006c87;
  mkModel 0x2700000027 (-1)%Z 0x6c8700006c8f 0x6c8f00006c9d;
  mkModel 0x2700000027 (-1)%Z 0x6c9d00006ca2 0x6ca200006cab;
  mkModel 0x2700000027 (-1)%Z 0x6cab00006cb6 0x6cb600006cc0;
  mkModel 0x2700000027 (1649)%Z 0x0 0x6cc000006cca;
  mkModel 0x23f00000249 (1650)%Z 0x0 0x6cca00006cd6;
  mkModel 0x2700000027 (-1)%Z 0x6ce200006cf2 0x6cf200006d02;
  mkModel 0x2700000027 (1652)%Z 0x0 0x18000000182;
  mkModel 0x2a1000002a7 (1653)%Z 0x0 0x18000000182;
  mkModel 0x2700000027 (1655)%Z 0x0 0x6d0b00006d1e;
  mkModel 0x2700000027 (1656)%Z 0x0 0x6d1e00006d2d;
  mkModel 0x2700000027 (1657)%Z 0x0 0x6d2d00006d39;
  mkModel 0x2700000027 (1658)%Z 0x0 0x6d3900006d44;
  mkModel 0x2700000027 (1659)%Z 0x0 0x6d4400006d54;
  mkModel 0x2700000027 (1660)%Z 0x0 0x6d5400006d60;
  mkModel 0x2700000027 (1661)%Z 0x0 0x6d6000006d6d;
  mkModel 0x2700000027 (1662)%Z 0x0 0x6d6d00006d78;
  mkModel 0x2700000027 (1663)%Z 0x0 0x6d7800006d81;
  mkModel 0x2700000027 (-1)%Z 0x6d8100006d93 0x6d8100006d93;
  mkModel 0x2700000027 (-1)%Z 0x6d9300006da1 0x6d9300006da1;
  mkModel 0x2700000027 (-1)%Z 0x6da100006dad 0x6da100006dad;
  mkModel 0x2700000027 (-1)%Z 0x6dad00006db4 0x6db400006dbc;
  mkModel 0x2700000027 (1664)%Z 0x0 0x6dbc00006dc7;
  mkModel 0x2700000027 (1665)%Z 0x0 0x18000000182;
  mkModel 0x2700000027 (1666)%Z 0x0 0x6dc700006dd0;
  mkModel 0x2700000027 (1667)%Z 0x0 0x6dd000006dd4;
  mkModel 0x2a1000002a7 (1668)%Z 0x0 0x6dd400006de4;
  mkModel 0x2a1000002a7 (1669)%Z 0x0 0x6de400006df5;
  mkModel 0x2700000027 (1671)%Z 0x0 0x6dfa00006e02;
  mkModel 0x2700000027 (1672)%Z 0x0 0x6e0200006e0c;
  mkModel 0x2700000027 (1673)%Z 0x0 0x6e0c00006e15;
  mkModel 0x2700000027 (1674)%Z 0x0 0x6e1500006e1e;
  mkModel 0x2700000027 (1675)%Z 0x0 0x6e1e00006e29;
  mkModel 0x2700000027 (1676)%Z 0x0 0x6e2900006e34;
  mkModel 0x2700000027 (1677)%Z 0x0 0x6e3400006e3f;
  mkModel 0x0 (-1)%Z 0x0 0x18000000182;
  mkModel 0x2700000027 (1679)%Z 0x0 0x6e4f00006e5a;
  mkModel 0x2700000027 (1681)%Z 0x0 0x6e6000006e64;
  mkModel 0x2a1000002a7 (1682)%Z 0x0 0x6e6400006e6a;
  mkModel 0x2a1000002a7 (1683)%Z 0x0 0x6e6a00006e72;
  mkModel 0x0 (-1)%Z 0x0 0x18000000182;
  mkModel 0x2700000027 (-1)%Z 0x6e8200006e8a 0x6e8a00006e9c;
  mkModel 0x2700000027 (1687)%Z 0x0 0x6ea200006eaa;
  mkModel 0x2700000027 (1688)%Z 0x0 0x6eaa00006eb2;
  mkModel 0x2700000027 (1689)%Z 0x0 0x6eb200006eba;
  mkModel 0x2700000027 (1690)%Z 0x0 0x6eba00006ec2;
  mkModel 0x2700000027 (1691)%Z 0x0 0x6ec200006eca;
  mkModel 0x2700000027 (1692)%Z 0x0 0x6eca00006ed2;
  mkModel 0x2700000027 (1693)%Z 0x0 0x18000000182;
  mkModel 0x2700000027 (1695)%Z 0x0 0x18000000182;
  mkModel 0x2700000027 (1696)%Z 0x0 0x6ee000006ee7;
  mkModel 0x2a1000002a7 (1697)%Z 0x0 0x18000000182;
  mkModel 0x2a1000002a7 (1698)%Z 0x0 0x18000000182;
  mkModel 0x2a1000002a7 (1699)%Z 0x0 0x6ee700006ef9;
  mkModel 0x2700000027 (1700)%Z 0x0 0x6ef900006f0b;
  mkModel 0x2700000027 (1701)%Z 0x0 0x6f0b00006f19
].
Definition d_dr_dm_11 : list modelTuple := [
  mkModel 0x2700000027 (1702)%Z 0x0 0x6f1900006f2e;
  mkModel 0x2700000027 (1703)%Z 0x0 0x6f2e00006f3e;
  mkModel 0x2700000027 (1704)%Z 0x0 0x6f3e00006f4b;
  mkModel 0x2700000027 (1705)%Z 0x0 0x6f3e00006f4b;
  mkModel 0x2700000027 (1706)%Z 0x0 0x6f3e00006f4b;
  mkModel 0x2a1000002a7 (-1)%Z 0x6f4b00006f5b 0x6f5b00006f60;
  mkModel 0x2a1000002a7 (-1)%Z 0x6f6000006f64 0x6f6400006f66;
  mkModel 0x2a1000002a7 (-1)%Z 0x6f6600006f70 0x6f7000006f72;
  mkModel 0x2a1000002a7 (-1)%Z 0x6f7200006f84 0x6f8400006f89;
  mkModel 0x2a1000002a7 (1707)%Z 0x0 0x18000000182;
  mkModel 0x2a1000002a7 (-1)%Z 0x6f8900006f90 0x6f9000006f97;
  mkModel 0x2a1000002a7 (1708)%Z 0x0 0x18000000182;
  mkModel 0x2a1000002a7 (1709)%Z 0x0 0x18000000182;
  mkModel 0x2a1000002a7 (-1)%Z 0x6f9700006fa1 0x6fa100006fa3;
  mkModel 0x2a1000002a7 (1710)%Z 0x0 0x18000000182;
  mkModel 0x2a1000002a7 (-1)%Z 0x6fa300006fb2 0x6fb200006fb4;
  mkModel 0x2a1000002a7 (-1)%Z 0x6fb400006fc3 0x6fc300006fc5;
  mkModel 0x23b0000023d (-1)%Z 0x6fc500006fd0 0x6fd000006fde;
  mkModel 0x23b0000023d (1711)%Z 0x0 0x2700000027;
  mkModel 0x2a1000002a7 (-1)%Z 0x6fe300006fe8 0x6fe300006fe8;
  mkModel 0x2a1000002a7 (-1)%Z 0x6fe800006fee 0x6fe800006fee;
  mkModel 0x2a1000002a7 (-1)%Z 0x6fee00006ff9 0x6ff900007004;
  mkModel 0x2700000027 (1713)%Z 0x0 0x18000000182;
  mkModel 0x0 (-1)%Z 0x0 0x700d00007014;
  mkModel 0x0 (-1)%Z 0x0 0x18000000182;
  mkModel 0x2700000027 (1717)%Z 0x0 0x18000000182;
  mkModel 0x2700000027 (1718)%Z 0x0 0x18000000182;
  mkModel 0xc9b00000ca2 (-1)%Z 0x702000007038 0x702000007038;
  mkModel 0x2700000027 (1720)%Z 0x0 0x18000000182;
  mkModel 0x2a1000002a7 (1721)%Z 0x0 0x4c4300004c49;
  mkModel 0x2a1000002a7 (1722)%Z 0x0 0x70400000704a;
  mkModel 0x2700000027 (1723)%Z 0x0 0x18000000182;
  mkModel 0x0 (-1)%Z 0x0 0x18000000182;
  mkModel 0x2700000027 (1726)%Z 0x0 0x18000000182;
  mkModel 0x2700000027 (-1)%Z 0x705a00007062 0x705a00007062;
  mkModel 0x2a1000002a7 (-1)%Z 0x706200007067 0x70670000706f;
  mkModel 0x2a1000002a7 (1727)%Z 0x0 0x706f00007079;
  mkModel 0x2a1000002a7 (-1)%Z 0x70790000708c 0x708c0000709f;
  mkModel 0x2a1000002a7 (-1)%Z 0x709f000070af 0x70af000070b7;
  mkModel 0x2a1000002a7 (1729)%Z 0x0 0x70bd000070c4;
  mkModel 0x2a1000002a7 (1730)%Z 0x0 0x6b6d00006b72;
  mkModel 0x2a1000002a7 (1731)%Z 0x0 0x18000000182;
  mkModel 0x2a1000002a7 (1732)%Z 0x0 0x6b6d00006b72;
  mkModel 0x39a000003a7 (1733)%Z 0x0 0x18000000182;
  mkModel 0x2700000027 (-1)%Z 0x70c4000070cd 0x70cd000070d7;
  mkModel 0x2700000027 (-1)%Z 0x70d7000070df 0x70df000070e7;
  mkModel 0x2700000027 (1734)%Z 0x0 0x70e7000070ee;
  mkModel 0x2700000027 (-1)%Z 0x70ee000070f5 0x70f5000070f7;
  mkModel 0x2700000027 (-1)%Z 0x70f7000070ff 0x70ff00007107;
  mkModel 0x2700000027 (1735)%Z 0x0 0x71070000710f;
  mkModel 0x2700000027 (1736)%Z 0x0 0x710f00007116;
  mkModel 0x2700000027 (1737)%Z 0x0 0x71160000711e;
  mkModel 0x2700000027 (1738)%Z 0x0 0x711e00007120;
  mkModel 0x2700000027 (1739)%Z 0x0 0x712000007122;
  mkModel 0x2700000027 (1740)%Z 0x0 0x712200007125;
  mkModel 0x2700000027 (1741)%Z 0x0 0x712500007127;
  mkModel 0x2700000027 (1742)%Z 0x0 0x1940000019b;
  mkModel 0x2700000027 (1743)%Z 0x0 0x500000005006;
  mkModel 0x2700000027 (1744)%Z 0x0 0x4fe400004feb;
  mkModel 0x2700000027 (1745)%Z 0x0 0x18000000182;
  mkModel 0x2700000027 (1746)%Z 0x0 0x712700007130;
  mkModel 0x2700000027 (1747)%Z 0x0 0x713000007133;
  mkModel 0x2700000027 (1748)%Z 0x0 0x713300007139;
  mkModel 0x2700000027 (1749)%Z 0x0 0x713900007147;
  mkModel 0x2700000027 (1750)%Z 0x0 0x71470000714a;
  mkModel 0x2700000027 (1751)%Z 0x0 0x714a00007153;
  mkModel 0x2700000027 (-1)%Z 0x715300007158 0x715800007161;
  mkModel 0x2700000027 (-1)%Z 0x716100007167 0x716700007170;
  mkModel 0x2700000027 (-1)%Z 0x717000007176 0x717600007180;
  mkModel 0x2700000027 (-1)%Z 0x718000007186 0x71860000718f;
  mkModel 0x2700000027 (-1)%Z 0x718f00007195 0x7195000071a3;
  mkModel 0x2700000027 (-1)%Z 0x71a3000071a9 0x71a9000071b2;
  mkModel 0x2700000027 (-1)%Z 0x71b2000071b8 0x71b8000071c5;
  mkModel 0x2700000027 (1752)%Z 0x0 0x71c5000071cd;
  mkModel 0x2700000027 (1753)%Z 0x0 0x71cd000071d9;
  mkModel 0x2700000027 (1754)%Z 0x0 0x71d9000071e1;
  mkModel 0x2700000027 (1755)%Z 0x0 0x71e1000071e9;
  mkModel 0x2700000027 (-1)%Z 0x71e9000071f4 0x71f4000071ff;
  mkModel 0x2700000027 (-1)%Z 0x71ff0000720e 0x720e0000721d;
  mkModel 0x2700000027 (-1)%Z 0x721d00007228 0x721d00007228;
  mkModel 0x2700000027 (1756)%Z 0x0 0x722800007234;
  mkModel 0x2700000027 (1757)%Z 0x0 0x723400007242;
  mkModel 0x2700000027 (1758)%Z 0x0 0x72420000724f;
  mkModel 0x2700000027 (1759)%Z 0x0 0x724f0000725e;
  mkModel 0x2700000027 (1760)%Z 0x0 0x725e00007268;
  mkModel 0x2700000027 (1761)%Z 0x0 0x200e00002015;
  mkModel 0x2700000027 (1762)%Z 0x0 0x72680000726f;
  mkModel 0x2700000027 (1763)%Z 0x0 0x726f0000727c;
  mkModel 0x2700000027 (1764)%Z 0x0 0x727c0000728c;
  mkModel 0x2700000027 (1765)%Z 0x0 0x728c00007294;
  mkModel 0x2700000027 (1766)%Z 0x0 0x72940000729e;
  mkModel 0x2700000027 (1767)%Z 0x0 0x729e000072a9;
  mkModel 0x2700000027 (1768)%Z 0x0 0x72a9000072b8;
  mkModel 0x2700000027 (1769)%Z 0x0 0x72b8000072c8;
  mkModel 0x2700000027 (1770)%Z 0x0 0x72c8000072d5;
  mkModel 0x2700000027 (1771)%Z 0x0 0x72d5000072de;
  mkModel 0x2700000027 (1772)%Z 0x0 0x72de000072ec;
  mkModel 0x2700000027 (1773)%Z 0x0 0x72ec000072fb;
  mkModel 0x2700000027 (-1)%Z 0x72fb00007303 0x72fb00007303;
  mkModel 0x2700000027 (1774)%Z 0x0 0x730300007310;
  mkModel 0x2700000027 (1775)%Z 0x0 0x73100000731e;
  mkModel 0x2700000027 (-1)%Z 0x731e0000732c 0x731e0000732c;
  mkModel 0x2700000027 (1776)%Z 0x0 0x732c00007335;
  mkModel 0x2700000027 (-1)%Z 0x733500007341 0x733500007341;
  mkModel 0x2700000027 (1777)%Z 0x0 0x734100007347;
  mkModel 0x0 (-1)%Z 0x0 0x73500000735e;
  mkModel 0x2700000027 (1780)%Z 0x0 0x18000000182;
  mkModel 0x2700000027 (-1)%Z 0x736400007370 0x737000007383;
  mkModel 0x2700000027 (1782)%Z 0x0 0x738b0000738e;
  mkModel 0x2700000027 (-1)%Z 0x738e00007399 0x73990000739b;
  mkModel 0x2700000027 (1784)%Z 0x0 0x73a2000073ac;
  mkModel 0x2700000027 (1785)%Z 0x0 0x73ac000073b6;
  mkModel 0x2700000027 (1786)%Z 0x0 0x73b6000073c6;
  mkModel 0x2700000027 (1787)%Z 0x0 0x73c6000073d5;
  mkModel 0x2700000027 (1788)%Z 0x0 0x73d5000073e2;
  mkModel 0x2700000027 (1789)%Z 0x0 0x73e2000073ef;
  mkModel 0x2700000027 (1790)%Z 0x0 0x73ef000073fd;
  mkModel 0x2700000027 (1791)%Z 0x0 0x73fd0000740b;
  mkModel 0x2700000027 (1792)%Z 0x0 0x740b00007418;
  mkModel 0x2700000027 (1793)%Z 0x0 0x741800007426;
  mkModel 0x2700000027 (1794)%Z 0x0 0x74260000742e;
  mkModel 0x2700000027 (-1)%Z 0x74350000743c 0x743c00007442;
  mkModel 0x2700000027 (1796)%Z 0x0 0x74420000744d;
  mkModel 0x2700000027 (1797)%Z 0x0 0x744d00007459;
  mkModel 0x2700000027 (1798)%Z 0x0 0x745900007464;
  mkModel 0x2700000027 (1799)%Z 0x0 0x74640000746b;
  mkModel 0xdfd00000e04 (-1)%Z 0x746b0000747b 0x747b00007485;
  mkModel 0x2a1000002a7 (-1)%Z 0x74850000748d 0x748d00007493;
  mkModel 0x2700000027 (1800)%Z 0x0 0x749300007498;
  mkModel 0x2700000027 (1801)%Z 0x0 0x28a0000028c;
  mkModel 0x2700000027 (-1)%Z 0x74980000749f 0x749f000074a6;
  mkModel 0x2700000027 (1802)%Z 0x0 0x74a6000074a9;
  mkModel 0x2700000027 (1803)%Z 0x0 0x74a9000074b0;
  mkModel 0x2700000027 (1804)%Z 0x0 0x74b0000074b6;
  mkModel 0x2700000027 (1805)%Z 0x0 0x74b6000074bc;
  mkModel 0x2700000027 (1806)%Z 0x0 0x74bc000074c4;
  mkModel 0x2700000027 (1807)%Z 0x0 0x74c4000074cf;
  mkModel 0x2700000027 (1808)%Z 0x0 0x74cf000074db;
  mkModel 0x2700000027 (1809)%Z 0x0 0x74db000074df;
  mkModel 0x2700000027 (1810)%Z 0x0 0x74df000074e2;
  mkModel 0x2700000027 (1811)%Z 0x0 0x74e2000074e8;
  mkModel 0x2700000027 (1812)%Z 0x0 0x74e8000074ee;
  mkModel 0x2700000027 (1813)%Z 0x0 0x1c8700001c89;
  mkModel 0x2700000027 (1814)%Z 0x0 0x74ee000074f5;
  mkModel 0x2700000027 (1815)%Z 0x0 0x74f5000074fb;
  mkModel 0x2700000027 (1816)%Z 0x0 0x74fb00007506;
  mkModel 0x2700000027 (1817)%Z 0x0 0x75060000750c;
  mkModel 0x2700000027 (1818)%Z 0x0 0x750c00007512;
  mkModel 0x2700000027 (1819)%Z 0x0 0x751200007519;
  mkModel 0x2700000027 (1820)%Z 0x0 0x751900007520;
  mkModel 0x2700000027 (1821)%Z 0x0 0x75200000752b;
  mkModel 0x2700000027 (1822)%Z 0x0 0x752b00007536;
  mkModel 0x2700000027 (1823)%Z 0x0 0x75360000753e;
  mkModel 0x2700000027 (1824)%Z 0x0 0x18000000182;
  mkModel 0x2700000027 (1825)%Z 0x0 0x753e00007543;
  mkModel 0x2700000027 (1826)%Z 0x0 0x754300007548;
  mkModel 0x2700000027 (1827)%Z 0x0 0x75480000754a;
  mkModel 0x2700000027 (1828)%Z 0x0 0x754a0000754f;
  mkModel 0x2700000027 (1829)%Z 0x0 0x18000000182;
  mkModel 0x2700000027 (1830)%Z 0x0 0x754f00007552;
  mkModel 0x2700000027 (-1)%Z 0x755200007556 0x75560000755c;
  mkModel 0x2700000027 (-1)%Z 0x755c00007560 0x756000007568;
  mkModel 0x2700000027 (1831)%Z 0x0 0x75680000756e;
  mkModel 0x2700000027 (1832)%Z 0x0 0x756e00007574;
  mkModel 0x2700000027 (1833)%Z 0x0 0x75740000757f;
  mkModel 0x2700000027 (1834)%Z 0x0 0x757f0000758a;
  mkModel 0x2700000027 (1835)%Z 0x0 0x18000000182;
  mkModel 0x2700000027 (1836)%Z 0x0 0x18000000182;
  mkModel 0x2700000027 (1837)%Z 0x0 0x18000000182;
  mkModel 0x2700000027 (1838)%Z 0x0 0x18000000182;
  mkModel 0x2700000027 (-1)%Z 0x758a0000758c 0x758c00007594;
  mkModel 0x0 (-1)%Z 0x0 0x18000000182;
  mkModel 0x2a1000002a7 (-1)%Z 0x75a2000075b5 0x75b5000075c0;
  mkModel 0x2700000027 (1840)%Z 0x0 0x18000000182;
  mkModel 0x0 (-1)%Z 0x0 0x18000000182;
  mkModel 0x2700000027 (-1)%Z 0x75cd000075d3 0x75d3000075d9;
  mkModel 0x2700000027 (-1)%Z 0x75d9000075de 0x75de000075e4;
  mkModel 0x2700000027 (1843)%Z 0x0 0x75e4000075ec;
  mkModel 0x39a000003a7 (1845)%Z 0x0 0x75fb00007605;
  mkModel 0x39a000003a7 (1846)%Z 0x0 0x76050000760f;
  mkModel 0x2700000027 (-1)%Z 0x760f00007616 0x761600007621;
  mkModel 0x2700000027 (-1)%Z 0x762100007627 0x76270000762f;
  mkModel 0x2700000027 (-1)%Z 0x762f00007636 0x76360000763e;
  mkModel 0x2700000027 (-1)%Z 0x763e00007644 0x76440000764e;
  mkModel 0x2700000027 (-1)%Z 0x764e00007654 0x76540000765c;
  mkModel 0x2700000027 (-1)%Z 0x765c00007662 0x766200007669;
  mkModel 0x2700000027 (-1)%Z 0x76690000766f 0x766f00007679;
  mkModel 0x2700000027 (-1)%Z 0x767900007681 0x768100007689;
  mkModel 0x2700000027 (-1)%Z 0x76890000768f 0x768f00007693;
  mkModel 0x2700000027 (-1)%Z 0x769300007699 0x76990000769f;
  mkModel 0x2700000027 (-1)%Z 0x769f000076a7 0x76a7000076ad;
  mkModel 0x2700000027 (-1)%Z 0x76ad000076b4 0x76b4000076ba;
  mkModel 0x2700000027 (-1)%Z 0x76ba000076c0 0x76c0000076c6;
  mkModel 0x2700000027 (-1)%Z 0x76c6000076cc 0x76cc000076d2;
  mkModel 0x2700000027 (-1)%Z 0x76d2000076d7 0x76d7000076e0;
  mkModel 0x2700000027 (-1)%Z 0x76e0000076e8 0x76e8000076f3;
  mkModel 0x2700000027 (-1)%Z 0x76f3000076fa 0x76fa00007707;
  mkModel 0x2700000027 (-1)%Z 0x77070000770d 0x770d00007714;
  mkModel 0x2700000027 (-1)%Z 0x77140000771a 0x771a00007723;
  mkModel 0x2700000027 (-1)%Z 0x772300007729 0x772900007732
].
Definition d_dr_dm_12 : list modelTuple := [
  mkModel 0x2700000027 (-1)%Z 0x77320000773a 0x773a00007742;
  mkModel 0x2700000027 (-1)%Z 0x774200007749 0x774900007754;
  mkModel 0x39a000003a7 (1847)%Z 0x0 0x18000000182;
  mkModel 0x0 (-1)%Z 0x0 0x77590000775d;
  mkModel 0x2700000027 (1850)%Z 0x0 0x776600007773;
  mkModel 0x2700000027 (1851)%Z 0x0 0x77730000777d;
  mkModel 0x39a000003a7 (1852)%Z 0x0 0x777d00007784;
  mkModel 0x2700000027 (1853)%Z 0x0 0x77840000778e;
  mkModel 0x2700000027 (1854)%Z 0x0 0x778e00007795;
  mkModel 0x2700000027 (1855)%Z 0x0 0x18000000182;
  mkModel 0x2700000027 (-1)%Z 0x7795000077a1 0x77a1000077a9;
  mkModel 0x2700000027 (-1)%Z 0x77a9000077b3 0x77b3000077bd;
  mkModel 0x2700000027 (1856)%Z 0x0 0x77bd000077cc;
  mkModel 0x2700000027 (1857)%Z 0x0 0x77cc000077d6;
  mkModel 0x2700000027 (1858)%Z 0x0 0x77d6000077e0;
  mkModel 0x2a1000002a7 (1859)%Z 0x0 0x77e0000077e8;
  mkModel 0x23b0000023d (1861)%Z 0x0 0x2700000027;
  mkModel 0x2700000027 (-1)%Z 0x77ed000077f8 0x77f800007804;
  mkModel 0x2700000027 (-1)%Z 0x780b00007814 0x78140000781d;
  mkModel 0x2700000027 (1864)%Z 0x0 0x781d00007824;
  mkModel 0x2700000027 (1865)%Z 0x0 0x782400007829;
  mkModel 0x2700000027 (1866)%Z 0x0 0x78290000782f;
  mkModel 0x2700000027 (-1)%Z 0x782f00007834 0x78340000783a;
  mkModel 0x2700000027 (-1)%Z 0x783a00007842 0x784200007849;
  mkModel 0x2700000027 (1867)%Z 0x0 0x784900007850;
  mkModel 0x2700000027 (-1)%Z 0x785000007855 0x78550000785c;
  mkModel 0x2700000027 (1868)%Z 0x0 0x785c00007867;
  mkModel 0x2700000027 (-1)%Z 0x78670000786c 0x784200007849;
  mkModel 0x2700000027 (-1)%Z 0x786c00007874 0x78740000787c;
  mkModel 0x2700000027 (-1)%Z 0x787c00007881 0x788100007888;
  mkModel 0x2700000027 (1869)%Z 0x0 0x788800007893;
  mkModel 0x2700000027 (1870)%Z 0x0 0x78930000789d;
  mkModel 0x2700000027 (1871)%Z 0x0 0x789d000078ad;
  mkModel 0x2700000027 (1872)%Z 0x0 0x78ad000078be;
  mkModel 0x2700000027 (1873)%Z 0x0 0x78be000078c6;
  mkModel 0x2700000027 (1874)%Z 0x0 0x78c6000078d2;
  mkModel 0x2700000027 (1875)%Z 0x0 0x78d2000078e3;
  mkModel 0x2700000027 (1876)%Z 0x0 0x78e3000078ea;
  mkModel 0x2700000027 (1877)%Z 0x0 0x18000000182;
  mkModel 0x2700000027 (1878)%Z 0x0 0x18000000182;
  mkModel 0x2700000027 (1879)%Z 0x0 0x18000000182;
  mkModel 0x2700000027 (-1)%Z 0x78f4000078fc 0x78fc000078fe;
  mkModel 0x2700000027 (-1)%Z 0x78fe00007907 0x79070000790a;
  mkModel 0x2700000027 (1881)%Z 0x0 0x18000000182;
  mkModel 0x2700000027 (1883)%Z 0x0 0x79170000791d;
  mkModel 0x2700000027 (1884)%Z 0x0 0x791d00007924;
  mkModel 0x2700000027 (1885)%Z 0x0 0x18000000182;
  mkModel 0x2700000027 (1886)%Z 0x0 0x18000000182;
  mkModel 0x0 (-1)%Z 0x0 0x18000000182;
  mkModel 0x2a1000002a7 (-1)%Z 0x79300000793a 0x793a00007945;
  mkModel 0x2a1000002a7 (1889)%Z 0x0 0x18000000182;
  mkModel 0x2700000027 (1890)%Z 0x0 0x18000000182;
  mkModel 0x0 (-1)%Z 0x0 0x18000000182;
  mkModel 0x0 (-1)%Z 0x0 0x18000000182;
  mkModel 0x0 (-1)%Z 0x0 0x79530000795c;
  mkModel 0x2700000027 (1895)%Z 0x0 0x796000007968;
  mkModel 0x2700000027 (1896)%Z 0x0 0x796800007978;
  mkModel 0x2700000027 (1897)%Z 0x0 0x797800007985;
  mkModel 0x2700000027 (-1)%Z 0x798500007990 0x79900000799c;
  mkModel 0x2700000027 (1898)%Z 0x0 0x796000007968;
  mkModel 0x2700000027 (1899)%Z 0x0 0x799c000079ac;
  mkModel 0x2700000027 (1900)%Z 0x0 0x79ac000079bd;
  mkModel 0x2700000027 (1901)%Z 0x0 0x79bd000079c7;
  mkModel 0x2700000027 (1902)%Z 0x0 0x79c7000079d1;
  mkModel 0x2700000027 (1903)%Z 0x0 0x79d1000079dc;
  mkModel 0xdfd00000e04 (1904)%Z 0x0 0x79dc000079e7;
  mkModel 0xdfd00000e04 (1905)%Z 0x0 0x79e7000079f2;
  mkModel 0x2a1000002a7 (-1)%Z 0x79f200007a03 0x7a0300007a14;
  mkModel 0x2a1000002a7 (1906)%Z 0x0 0x7a1400007a1c;
  mkModel 0x2a1000002a7 (1907)%Z 0x0 0x18000000182;
  mkModel 0x2a1000002a7 (1908)%Z 0x0 0x7a1400007a1c;
  mkModel 0x2a1000002a7 (1909)%Z 0x0 0x7a1400007a1c;
  mkModel 0x2700000027 (1910)%Z 0x0 0x61be000061c5;
  mkModel 0x2700000027 (1911)%Z 0x0 0x18000000182;
  mkModel 0x2700000027 (1912)%Z 0x0 0x7a1c00007a22;
  mkModel 0x39a000003a7 (-1)%Z 0x7a2200007a2b 0x7a2200007a2b;
  mkModel 0x1060000010d (1913)%Z 0x0 0x7a2b00007a30;
  mkModel 0x23b0000023d (1914)%Z 0x0 0x18000000182;
  mkModel 0xc9b00000ca2 (1915)%Z 0x0 0x7a3000007a35;
  mkModel 0x2700000027 (1916)%Z 0x0 0x18000000182;
  mkModel 0x2700000027 (1917)%Z 0x0 0x18000000182;
  mkModel 0x2700000027 (1918)%Z 0x0 0x18000000182;
  mkModel 0x0 (-1)%Z 0x0 0x18000000182;
  mkModel 0x2700000027 (-1)%Z 0x7a3b00007a44 0x7a4400007a4d;
  mkModel 0x2700000027 (1921)%Z 0x0 0x7a4d00007a56;
  mkModel 0x2700000027 (-1)%Z 0x7a5600007a5e 0x7a5e00007a66;
  mkModel 0x2700000027 (-1)%Z 0x7a6600007a6d 0x7a6d00007a74;
  mkModel 0x2a1000002a7 (1923)%Z 0x0 0x7a7900007a83;
  mkModel 0x2a1000002a7 (1924)%Z 0x0 0x7a8300007a8c;
  mkModel 0x0 (-1)%Z 0x0 0x7a9100007a99;
  mkModel 0x2700000027 (1927)%Z 0x0 0x18000000182;
  mkModel 0x23f00000249 (1928)%Z 0x0 0x7aa000007aa4;
  mkModel 0x0 (-1)%Z 0x0 0x4c4f00004c57;
  mkModel 0x2700000027 (-1)%Z 0x7ab300007ab9 0x7ab300007ab9;
  mkModel 0x2700000027 (1931)%Z 0x0 0x7ab900007ac3;
  mkModel 0x23b0000023d (1932)%Z 0x0 0x18000000182;
  mkModel 0x0 (-1)%Z 0x0 0x18000000182;
  mkModel 0x0 (-1)%Z 0x0 0x18000000182;
  mkModel 0x2700000027 (1936)%Z 0x0 0x7ad400007ade;
  mkModel 0x2700000027 (-1)%Z 0x7ade00007ae4 0x7ae400007af0;
  mkModel 0x2700000027 (1937)%Z 0x0 0x7af000007afc;
  mkModel 0x2700000027 (-1)%Z 0x7afc00007b06 0x7b0600007b11;
  mkModel 0x2700000027 (1938)%Z 0x0 0x7b1100007b1a;
  mkModel 0x2700000027 (1940)%Z 0x0 0x18000000182;
  mkModel 0x2700000027 (-1)%Z 0x7b1f00007b27 0x7b2700007b2c;
  mkModel 0x2700000027 (-1)%Z 0x7b2c00007b32 0x7b3200007b38;
  mkModel 0x2a1000002a7 (1941)%Z 0x0 0x7b3800007b3f;
  mkModel 0x2a1000002a7 (-1)%Z 0x7b3f00007b47 0x7b4700007b4f;
  mkModel 0x39a000003a7 (1942)%Z 0x0 0x7b4f00007b55;
  mkModel 0x2700000027 (1944)%Z 0x0 0x7b5700007b5f;
  mkModel 0x2700000027 (1945)%Z 0x0 0x7b5f00007b69;
  mkModel 0x2700000027 (-1)%Z 0x7b6900007b7a 0x7b7a00007b88;
  mkModel 0x2a1000002a7 (-1)%Z 0x7b8800007b96 0x7b9600007ba2;
  mkModel 0x2a1000002a7 (1946)%Z 0x0 0x18000000182;
  mkModel 0x2700000027 (1948)%Z 0x0 0x18000000182;
  mkModel 0x2700000027 (1950)%Z 0x0 0x7baa00007bbb;
  mkModel 0x2700000027 (1951)%Z 0x0 0x18000000182;
  mkModel 0x2700000027 (1952)%Z 0x0 0x7bbb00007bc0;
  mkModel 0x2a1000002a7 (1953)%Z 0x0 0x7bc000007bc9;
  mkModel 0x2700000027 (1954)%Z 0x0 0x18000000182;
  mkModel 0x0 (-1)%Z 0x0 0x18000000182;
  mkModel 0x2700000027 (-1)%Z 0x7bd300007bdb 0x7bdb00007bdf;
  mkModel 0x2700000027 (1957)%Z 0x0 0x18000000182;
  mkModel 0x0 (-1)%Z 0x0 0x18000000182;
  mkModel 0x0 (-1)%Z 0x0 0x18000000182;
  mkModel 0x0 (-1)%Z 0x0 0x18000000182;
  mkModel 0x0 (-1)%Z 0x0 0x7bfb00007c01;
  mkModel 0x2700000027 (1963)%Z 0x0 0x18000000182;
  mkModel 0x2a1000002a7 (1964)%Z 0x0 0x18000000182;
  mkModel 0x2700000027 (1966)%Z 0x0 0x7c1300007c1d;
  mkModel 0x23b0000023d (1967)%Z 0x0 0x18000000182;
  mkModel 0x23b0000023d (1968)%Z 0x0 0x18000000182;
  mkModel 0x2700000027 (1970)%Z 0x0 0x7c2200007c2c;
  mkModel 0x2a1000002a7 (-1)%Z 0x7c2c00007c37 0x7c3700007c42;
  mkModel 0x2a1000002a7 (1971)%Z 0x0 0x7c4200007c4a;
  mkModel 0x2a1000002a7 (1972)%Z 0x0 0x7c4a00007c53;
  mkModel 0x2700000027 (-1)%Z 0x7c5c00007c62 0x7c5c00007c62;
  mkModel 0x2700000027 (1974)%Z 0x0 0x18000000182;
  mkModel 0x2700000027 (-1)%Z 0x7c6600007c72 0x7c7200007c7c;
  mkModel 0x23b0000023d (-1)%Z 0x7c7c00007c8f 0x7c8f00007ca2;
  mkModel 0x0 (-1)%Z 0x0 0x18000000182;
  mkModel 0x0 (-1)%Z 0x0 0x7cb000007cb8;
  mkModel 0x0 (-1)%Z 0x0 0x18000000182;
  mkModel 0x2700000027 (1978)%Z 0x0 0x18000000182;
  mkModel 0x2700000027 (1979)%Z 0x0 0x18000000182;
  mkModel 0x2700000027 (1981)%Z 0x0 0x7cd400007ce5;
  mkModel 0x2a1000002a7 (-1)%Z 0x7ce500007ced 0x7ced00007cf8;
  mkModel 0x2700000027 (-1)%Z 0x7d0400007d10 0x7d1000007d15;
  mkModel 0x2700000027 (-1)%Z 0x7d1500007d21 0x7d2100007d26;
  mkModel 0x2700000027 (-1)%Z 0x7d2e00007d39 0x7d3900007d44;
  mkModel 0x0 (-1)%Z 0x0 0x7d5200007d5a;
  mkModel 0x0 (-1)%Z 0x0 0x18000000182;
  mkModel 0x2700000027 (-1)%Z 0x7d6400007d6a 0x7d6a00007d70;
  mkModel 0x2700000027 (1985)%Z 0x0 0x7d7000007d7d;
  mkModel 0x2700000027 (1986)%Z 0x0 0x7d7d00007d8b;
  mkModel 0x2700000027 (1987)%Z 0x0 0x7d8b00007d94;
  mkModel 0x2700000027 (-1)%Z 0x7d9400007d9a 0x7d9a00007d9e;
  mkModel 0x2700000027 (-1)%Z 0x7d9e00007da4 0x7da400007daa;
  mkModel 0x2700000027 (-1)%Z 0x7daa00007db4 0x7db400007dbe;
  mkModel 0x2700000027 (1988)%Z 0x0 0x550900005510;
  mkModel 0x2700000027 (1989)%Z 0x0 0x18000000182;
  mkModel 0x0 (-1)%Z 0x0 0x18000000182;
  mkModel 0x2700000027 (-1)%Z 0x7dc800007dcd 0x7dc800007dcd;
  mkModel 0x2a1000002a7 (1992)%Z 0x0 0x7dcd00007dd5;
  mkModel 0x2700000027 (1993)%Z 0x0 0x7dd500007dda;
  mkModel 0x2700000027 (1994)%Z 0x0 0x7dda00007de3;
  mkModel 0xc9b00000ca2 (1995)%Z 0x0 0x18000000182;
  mkModel 0xc9b00000ca2 (1996)%Z 0x0 0x7de300007dec;
  mkModel 0xc9b00000ca2 (1997)%Z 0x0 0x7dec00007df9;
  mkModel 0x2a1000002a7 (1998)%Z 0x0 0x7df900007e03;
  mkModel 0x2a1000002a7 (1999)%Z 0x0 0x6b6d00006b72;
  mkModel 0xc9b00000ca2 (2000)%Z 0x0 0x18000000182;
  mkModel 0x2a1000002a7 (2001)%Z 0x0 0x18000000182;
  mkModel 0x2700000027 (2002)%Z 0x0 0x18000000182;
  mkModel 0x2700000027 (2003)%Z 0x0 0x18000000182;
  mkModel 0x0 (-1)%Z 0x0 0x7e0900007e11;
  mkModel 0x0 (-1)%Z 0x0 0xe3400000e3c;
  mkModel 0x2700000027 (2006)%Z 0x0 0x7e2400007e2a;
  mkModel 0x2700000027 (2007)%Z 0x0 0x7e2400007e2a;
  mkModel 0x2700000027 (2008)%Z 0x0 0x18000000182;
  mkModel 0x23f00000249 (2009)%Z 0x0 0x7e2a00007e30;
  mkModel 0x2700000027 (2010)%Z 0x0 0x18000000182;
  mkModel 0x2700000027 (2011)%Z 0x0 0x18000000182;
  mkModel 0x2700000027 (2013)%Z 0x0 0x18000000182;
  mkModel 0x2700000027 (2014)%Z 0x0 0x18000000182;
  mkModel 0x0 (-1)%Z 0x0 0x18000000182;
  mkModel 0x0 (-1)%Z 0x0 0x18000000182;
  mkModel 0x2700000027 (-1)%Z 0x7e4b00007e55 0x7e5500007e61;
  mkModel 0x2700000027 (2018)%Z 0x0 0x7e6100007e64;
  mkModel 0x2700000027 (2019)%Z 0x0 0x7e6400007e68;
  mkModel 0x2700000027 (-1)%Z 0x7e6800007e6d 0x7e6800007e6d;
  mkModel 0x2700000027 (-1)%Z 0x7e6d00007e7b 0x7e7b00007e83;
  mkModel 0x2700000027 (2020)%Z 0x0 0x18000000182;
  mkModel 0x2700000027 (2022)%Z 0x0 0x18000000182;
  mkModel 0x23f00000249 (2025)%Z 0x0 0x18000000182;
  mkModel 0x2700000027 (-1)%Z 0x7e9d00007ea4 0x7e9d00007ea4;
  mkModel 0x2700000027 (2026)%Z 0x0 0x7e6400007e68;
  mkModel 0x2700000027 (2027)%Z 0x0 0x18000000182;
  mkModel 0x2700000027 (2029)%Z 0x0 0x7ea900007eb6;
  mkModel 0x2700000027 (2030)%Z 0x0 0x7eb600007ec8
].
Definition d_dr_dm_13 : list modelTuple := [
  mkModel 0x2700000027 (2031)%Z 0x0 0x7ec800007ed6;
  mkModel 0x2700000027 (2032)%Z 0x0 0x7ed600007eea;
  mkModel 0x2700000027 (2033)%Z 0x0 0x7eea00007efa;
  mkModel 0x2700000027 (2034)%Z 0x0 0x7efa00007f0c;
  mkModel 0x2700000027 (2035)%Z 0x0 0x7f0c00007f16;
  mkModel 0x2700000027 (2036)%Z 0x0 0x7f1600007f22;
  mkModel 0x2700000027 (2037)%Z 0x0 0x7f2200007f33;
  mkModel 0x2700000027 (2038)%Z 0x0 0x7f3300007f42;
  mkModel 0x2700000027 (2039)%Z 0x0 0x7f0c00007f16;
  mkModel 0x2a1000002a7 (2041)%Z 0x0 0x7f4700007f4d;
  mkModel 0x2a1000002a7 (-1)%Z 0x7f4d00007f55 0x7f5500007f60;
  mkModel 0x2a1000002a7 (2042)%Z 0x0 0x7f6000007f66;
  mkModel 0x2a1000002a7 (2043)%Z 0x0 0x7f6600007f75;
  mkModel 0x2a1000002a7 (2044)%Z 0x0 0x7f7500007f80;
  mkModel 0x2a1000002a7 (2045)%Z 0x0 0x7f8000007f8e;
  mkModel 0x2a1000002a7 (2046)%Z 0x0 0x7f8e00007f9b;
  mkModel 0x2a1000002a7 (2047)%Z 0x0 0x7f9b00007fa7;
  mkModel 0x2a1000002a7 (2048)%Z 0x0 0x7fa700007fb2;
  mkModel 0x2a1000002a7 (2049)%Z 0x0 0x7fb200007fbe;
  mkModel 0x2a1000002a7 (2050)%Z 0x0 0x7fbe00007fc9;
  mkModel 0x2a1000002a7 (2051)%Z 0x0 0x7fc900007fd7;
  mkModel 0x2a1000002a7 (2052)%Z 0x0 0x7fd700007fe4;
  mkModel 0x2a1000002a7 (2053)%Z 0x0 0x7fe400007ff3;
  mkModel 0x2700000027 (-1)%Z 0x7ff300007ff7 0x7ff300007ff7;
  mkModel 0x2700000027 (-1)%Z 0x7ff700007fff 0x7fff0000800a;
  mkModel 0x2700000027 (-1)%Z 0x800a00008012 0x80120000801d;
  mkModel 0x2700000027 (-1)%Z 0x801d00008025 0x802500008030;
  mkModel 0x2700000027 (2054)%Z 0x0 0x18000000182;
  mkModel 0x2700000027 (-1)%Z 0x803000008036 0x80360000803e;
  mkModel 0x2700000027 (-1)%Z 0x803e00008046 0x804600008052;
  mkModel 0x2700000027 (-1)%Z 0x80520000805a 0x805a00008065;
  mkModel 0x2700000027 (-1)%Z 0x80650000806d 0x806d00008079;
  mkModel 0x2700000027 (-1)%Z 0x807900008081 0x80810000808d;
  mkModel 0x2700000027 (-1)%Z 0x808d00008095 0x80950000809f;
  mkModel 0x2700000027 (-1)%Z 0x809f000080a7 0x80a7000080b5;
  mkModel 0x2700000027 (-1)%Z 0x80b5000080bd 0x80bd000080c9;
  mkModel 0x2700000027 (-1)%Z 0x80c9000080d1 0x80d1000080dd;
  mkModel 0x2700000027 (-1)%Z 0x80dd000080e5 0x80e5000080f1;
  mkModel 0x2700000027 (-1)%Z 0x80f1000080f9 0x80f900008104;
  mkModel 0x2700000027 (2055)%Z 0x0 0x81040000810e;
  mkModel 0x2700000027 (2056)%Z 0x0 0x18000000182;
  mkModel 0x2700000027 (-1)%Z 0x810e00008114 0x81140000811c;
  mkModel 0x2700000027 (-1)%Z 0x811c00008130 0x81300000813b;
  mkModel 0x2700000027 (2057)%Z 0x0 0x18000000182;
  mkModel 0x2700000027 (2058)%Z 0x0 0x18000000182;
  mkModel 0x2a1000002a7 (2059)%Z 0x0 0x813b0000814e;
  mkModel 0x2a1000002a7 (2060)%Z 0x0 0x814e0000815f;
  mkModel 0x2a1000002a7 (-1)%Z 0x815f00008167 0x816700008178;
  mkModel 0x2a1000002a7 (-1)%Z 0x817800008180 0x818000008191;
  mkModel 0x2a1000002a7 (2061)%Z 0x0 0x81910000819c;
  mkModel 0x2a1000002a7 (-1)%Z 0x819c000081a3 0x81a3000081b0;
  mkModel 0x2a1000002a7 (-1)%Z 0x81b0000081b8 0x81b8000081c4;
  mkModel 0x2a1000002a7 (-1)%Z 0x81c4000081cc 0x81cc000081dc;
  mkModel 0x2a1000002a7 (-1)%Z 0x81dc000081e4 0x818000008191;
  mkModel 0x2a1000002a7 (2062)%Z 0x0 0x81e4000081f0;
  mkModel 0x2a1000002a7 (-1)%Z 0x81f0000081f8 0x81f80000820a;
  mkModel 0x2a1000002a7 (-1)%Z 0x820a00008212 0x821200008222;
  mkModel 0x2a1000002a7 (-1)%Z 0x82220000822a 0x818000008191;
  mkModel 0x2a1000002a7 (-1)%Z 0x822a00008232 0x823200008240;
  mkModel 0x2a1000002a7 (-1)%Z 0x82400000824a 0x824a00008258;
  mkModel 0x2a1000002a7 (2063)%Z 0x0 0x82580000825c;
  mkModel 0x2a1000002a7 (-1)%Z 0x825c00008265 0x826500008269;
  mkModel 0x2a1000002a7 (2064)%Z 0x0 0x18000000182;
  mkModel 0x2700000027 (2065)%Z 0x0 0x18000000182;
  mkModel 0x2700000027 (2066)%Z 0x0 0x18000000182;
  mkModel 0x2a1000002a7 (-1)%Z 0x826900008278 0x82780000827e;
  mkModel 0x2a1000002a7 (2067)%Z 0x0 0x4c3d00004c43;
  mkModel 0x2a1000002a7 (2068)%Z 0x0 0x827e00008288;
  mkModel 0x2a1000002a7 (2069)%Z 0x0 0x82880000828f;
  mkModel 0x2a1000002a7 (-1)%Z 0x828f00008297 0x8297000082a1;
  mkModel 0x2a1000002a7 (-1)%Z 0x82a1000082a9 0x82a9000082b3;
  mkModel 0x2a1000002a7 (2070)%Z 0x0 0x82b3000082bd;
  mkModel 0x2a1000002a7 (2071)%Z 0x0 0x18000000182;
  mkModel 0x2a1000002a7 (-1)%Z 0x82bd000082c5 0x82c5000082cf;
  mkModel 0x2a1000002a7 (2072)%Z 0x0 0x18000000182;
  mkModel 0x2a1000002a7 (-1)%Z 0x82cf000082d7 0x82d7000082e5;
  mkModel 0x2a1000002a7 (-1)%Z 0x82e5000082ed 0x82ed000082fb;
  mkModel 0x2a1000002a7 (-1)%Z 0x82fb00008303 0x830300008312;
  mkModel 0x2a1000002a7 (-1)%Z 0x83120000831a 0x831a0000832b;
  mkModel 0x2a1000002a7 (-1)%Z 0x832b00008333 0x833300008341;
  mkModel 0x2a1000002a7 (-1)%Z 0x834100008349 0x834900008357;
  mkModel 0x2a1000002a7 (-1)%Z 0x83570000835f 0x835f0000836d;
  mkModel 0x2a1000002a7 (-1)%Z 0x836d00008375 0x837500008383;
  mkModel 0x2a1000002a7 (2073)%Z 0x0 0x838300008390;
  mkModel 0x2a1000002a7 (-1)%Z 0x839000008398 0x8398000083a7;
  mkModel 0x2a1000002a7 (2074)%Z 0x0 0x83a7000083b3;
  mkModel 0x2a1000002a7 (2075)%Z 0x0 0x83b3000083bd;
  mkModel 0x2a1000002a7 (2076)%Z 0x0 0x83bd000083c4;
  mkModel 0x2a1000002a7 (-1)%Z 0x83c4000083cc 0x83cc000083d9;
  mkModel 0x2a1000002a7 (-1)%Z 0x83d9000083e1 0x83e1000083f0;
  mkModel 0x2a1000002a7 (-1)%Z 0x83f0000083f8 0x83f0000083f8;
  mkModel 0x2a1000002a7 (-1)%Z 0x83f800008409 0x840900008411;
  mkModel 0x2a1000002a7 (-1)%Z 0x841100008419 0x841900008423;
  mkModel 0x2a1000002a7 (-1)%Z 0x84230000842b 0x842b00008437;
  mkModel 0x2a1000002a7 (2077)%Z 0x0 0x18000000182;
  mkModel 0x2a1000002a7 (2078)%Z 0x0 0x18000000182;
  mkModel 0x7cc000007d6 (2079)%Z 0x0 0x843700008446;
  mkModel 0x2b1e00002b26 (2080)%Z 0x0 0x84460000844c;
  mkModel 0x23b0000023d (2081)%Z 0x0 0x844c00008454;
  mkModel 0x2700000027 (2082)%Z 0x0 0x62270000622d;
  mkModel 0x0 (-1)%Z 0x0 0x846900008471;
  mkModel 0x2700000027 (-1)%Z 0x847700008480 0x848000008489;
  mkModel 0x2700000027 (2085)%Z 0x0 0x18000000182;
  mkModel 0x0 (-1)%Z 0x0 0x18000000182;
  mkModel 0x0 (-1)%Z 0x0 0x18000000182;
  mkModel 0x2700000027 (2088)%Z 0x0 0x849c000084a6;
  mkModel 0x2700000027 (-1)%Z 0x84ad000084b6 0x84b6000084bf;
  mkModel 0x2700000027 (2090)%Z 0x0 0x18000000182;
  mkModel 0x2700000027 (2091)%Z 0x0 0x84bf000084c6;
  mkModel 0x2700000027 (2092)%Z 0x0 0x84c6000084d1;
  mkModel 0x2700000027 (2094)%Z 0x0 0x18000000182;
  mkModel 0x2700000027 (2095)%Z 0x0 0x18000000182;
  mkModel 0x2700000027 (2096)%Z 0x0 0x18000000182;
  mkModel 0x2700000027 (2097)%Z 0x0 0x18000000182;
  mkModel 0x0 (-1)%Z 0x0 0x18000000182;
  mkModel 0x0 (-1)%Z 0x0 0x18000000182;
  mkModel 0x0 (-1)%Z 0x0 0x18000000182;
  mkModel 0x2a1000002a7 (2102)%Z 0x0 0x84f1000084f8;
  mkModel 0x2a1000002a7 (-1)%Z 0x84f8000084ff 0x84f8000084ff;
  mkModel 0x2a1000002a7 (2103)%Z 0x0 0x84ff00008502;
  mkModel 0x2a1000002a7 (2104)%Z 0x0 0x850200008506;
  mkModel 0x2a1000002a7 (2105)%Z 0x0 0x85060000850a;
  mkModel 0x2a1000002a7 (2106)%Z 0x0 0x78740000787c;
  mkModel 0x2a1000002a7 (2107)%Z 0x0 0x850a00008516;
  mkModel 0x2a1000002a7 (2108)%Z 0x0 0x85160000851f;
  mkModel 0x2a1000002a7 (2109)%Z 0x0 0x851f0000852b;
  mkModel 0x2a1000002a7 (-1)%Z 0x852b00008532 0x85320000853a;
  mkModel 0x2a1000002a7 (-1)%Z 0x853a00008541 0x853a00008541;
  mkModel 0x2700000027 (-1)%Z 0x85410000854f 0x85410000854f;
  mkModel 0x2700000027 (-1)%Z 0x854f0000855b 0x854f0000855b;
  mkModel 0x2700000027 (-1)%Z 0x855b00008568 0x855b00008568;
  mkModel 0x2700000027 (-1)%Z 0x856800008570 0x856800008570;
  mkModel 0x2700000027 (-1)%Z 0x85700000857d 0x857d0000858b;
  mkModel 0x2700000027 (-1)%Z 0x858b00008599 0x8599000085a8;
  mkModel 0x2700000027 (2110)%Z 0x0 0x85a8000085b6;
  mkModel 0x2700000027 (2111)%Z 0x0 0x85b6000085c2;
  mkModel 0x2700000027 (-1)%Z 0x85c2000085cd 0x85cd000085d9;
  mkModel 0x2700000027 (-1)%Z 0x85d9000085e6 0x85e6000085f4;
  mkModel 0x2700000027 (-1)%Z 0x85f4000085ff 0x85ff0000860b;
  mkModel 0x2700000027 (-1)%Z 0x860b00008617 0x861700008624;
  mkModel 0x2700000027 (2112)%Z 0x0 0x86240000862c;
  mkModel 0x2700000027 (2113)%Z 0x0 0x862c00008637;
  mkModel 0x2700000027 (-1)%Z 0x863700008643 0x863700008643;
  mkModel 0x2700000027 (-1)%Z 0x86430000864f 0x86430000864f;
  mkModel 0x2700000027 (2114)%Z 0x0 0x864f0000865a;
  mkModel 0x2700000027 (2115)%Z 0x0 0x865a00008661;
  mkModel 0x2700000027 (-1)%Z 0x86610000866b 0x86610000866b;
  mkModel 0x2700000027 (-1)%Z 0x866b00008675 0x866b00008675;
  mkModel 0x2700000027 (-1)%Z 0x86750000867e 0x86750000867e;
  mkModel 0x2700000027 (-1)%Z 0x867e00008685 0x867e00008685;
  mkModel 0x2700000027 (-1)%Z 0x86850000868a 0x86850000868a;
  mkModel 0x2700000027 (-1)%Z 0x868a00008694 0x868a00008694;
  mkModel 0x2700000027 (-1)%Z 0x86940000869a 0x869a000086a0;
  mkModel 0x2700000027 (-1)%Z 0x86a0000086ab 0x86ab000086b6;
  mkModel 0x2700000027 (-1)%Z 0x86b6000086bd 0x86bd000086c4;
  mkModel 0x2700000027 (-1)%Z 0x86c4000086cb 0x86c4000086cb;
  mkModel 0x2700000027 (2116)%Z 0x0 0x86cb000086de;
  mkModel 0x2700000027 (2117)%Z 0x0 0x86de000086f0;
  mkModel 0x2700000027 (2118)%Z 0x0 0x86f0000086fe;
  mkModel 0x2700000027 (2119)%Z 0x0 0x86fe00008704;
  mkModel 0x2700000027 (2120)%Z 0x0 0x870400008710;
  mkModel 0x2700000027 (2121)%Z 0x0 0x18000000182;
  mkModel 0x2700000027 (2122)%Z 0x0 0x871000008717;
  mkModel 0x2700000027 (2123)%Z 0x0 0x87170000871e;
  mkModel 0x2700000027 (2124)%Z 0x0 0x871e00008725;
  mkModel 0x2700000027 (-1)%Z 0x87250000872d 0x87250000872d;
  mkModel 0x2700000027 (2125)%Z 0x0 0x872d00008739;
  mkModel 0x2700000027 (-1)%Z 0x873900008743 0x87430000874e;
  mkModel 0x2700000027 (-1)%Z 0x874e00008759 0x875900008765;
  mkModel 0x2700000027 (2126)%Z 0x0 0x61760000617d;
  mkModel 0x2700000027 (2127)%Z 0x0 0x876500008769;
  mkModel 0x2700000027 (-1)%Z 0x876900008774 0x87740000877f;
  mkModel 0x2700000027 (-1)%Z 0x877f00008786 0x877f00008786;
  mkModel 0x2700000027 (2128)%Z 0x0 0x878600008791;
  mkModel 0x2700000027 (-1)%Z 0x879100008798 0x879100008798;
  mkModel 0x2700000027 (-1)%Z 0x87980000879e 0x879e000087a5;
  mkModel 0x2700000027 (-1)%Z 0x87a5000087ac 0x87a5000087ac;
  mkModel 0x2700000027 (2129)%Z 0x0 0x87ac000087b3;
  mkModel 0x2700000027 (2130)%Z 0x0 0x87b3000087bb;
  mkModel 0x2700000027 (2131)%Z 0x0 0x87bb000087c3;
  mkModel 0x2700000027 (-1)%Z 0x87c3000087c8 0x87c8000087ce;
  mkModel 0x2700000027 (-1)%Z 0x87ce000087da 0x87da000087e6;
  mkModel 0x2700000027 (-1)%Z 0x87e6000087f2 0x87f2000087fe;
  mkModel 0x2700000027 (-1)%Z 0x87fe00008805 0x87fe00008805;
  mkModel 0x2700000027 (-1)%Z 0x88050000880a 0x880a00008810;
  mkModel 0x2700000027 (-1)%Z 0x881000008819 0x88190000881b;
  mkModel 0x2700000027 (-1)%Z 0x881b00008822 0x882200008829;
  mkModel 0x2700000027 (2132)%Z 0x0 0x882900008833;
  mkModel 0x2700000027 (-1)%Z 0x88330000883a 0x883a00008842;
  mkModel 0x2700000027 (2133)%Z 0x0 0x88420000884a;
  mkModel 0x2700000027 (-1)%Z 0x884a00008852 0x88520000885a;
  mkModel 0x2700000027 (-1)%Z 0x885a00008868 0x886800008876;
  mkModel 0x2700000027 (-1)%Z 0x88760000887e 0x887e00008886;
  mkModel 0x2700000027 (-1)%Z 0x88860000888f 0x88860000888f;
  mkModel 0x2700000027 (-1)%Z 0x888f00008895 0x888f00008895;
  mkModel 0x2700000027 (-1)%Z 0x88950000889b 0x889b000088a2;
  mkModel 0x2700000027 (2134)%Z 0x0 0x871000008717;
  mkModel 0x2700000027 (-1)%Z 0x88a2000088a7 0x88a7000088ad;
  mkModel 0x2700000027 (-1)%Z 0x88ad000088b2 0x88b2000088be;
  mkModel 0x2700000027 (-1)%Z 0x88be000088c3 0x88c3000088cd
].
Definition d_dr_dm_14 : list modelTuple := [
  mkModel 0x2700000027 (-1)%Z 0x88cd000088da 0x88da000088e7;
  mkModel 0x2700000027 (2135)%Z 0x0 0x88e7000088ef;
  mkModel 0x2700000027 (2136)%Z 0x0 0x18000000182;
  mkModel 0x2700000027 (2137)%Z 0x0 0x18000000182;
  mkModel 0x2700000027 (2138)%Z 0x0 0x6b6d00006b72;
  mkModel 0x2700000027 (2139)%Z 0x0 0x18000000182;
  mkModel 0x2700000027 (2140)%Z 0x0 0x18000000182;
  mkModel 0x2700000027 (2141)%Z 0x0 0x88ef000088f4;
  mkModel 0x0 (-1)%Z 0x0 0x88fa000088fc;
  mkModel 0x2700000027 (2144)%Z 0x0 0x89000000890b;
  mkModel 0x2700000027 (2145)%Z 0x0 0x890b00008912;
  mkModel 0x2700000027 (2146)%Z 0x0 0x18000000182;
  mkModel 0x2700000027 (2147)%Z 0x0 0x18000000182;
  mkModel 0x0 (-1)%Z 0x0 0x18000000182;
  mkModel 0x2700000027 (2150)%Z 0x0 0x891d00008922;
  mkModel 0x2700000027 (2151)%Z 0x0 0x892200008928;
  mkModel 0x2700000027 (2152)%Z 0x0 0x18000000182;
  mkModel 0x0 (-1)%Z 0x0 0x18000000182;
  mkModel 0x2700000027 (2155)%Z 0x0 0x893000008934;
  mkModel 0x2700000027 (2156)%Z 0x0 0x893400008939;
  mkModel 0x2700000027 (2157)%Z 0x0 0x89390000893d;
  mkModel 0x2700000027 (2158)%Z 0x0 0x18000000182;
  mkModel 0x2700000027 (2159)%Z 0x0 0x18000000182;
  mkModel 0x2700000027 (-1)%Z 0x89490000894f 0x894f00008955;
  mkModel 0x2700000027 (-1)%Z 0x895500008959 0x895500008959;
  mkModel 0x2700000027 (-1)%Z 0x895900008963 0x89630000896c;
  mkModel 0x2700000027 (2161)%Z 0x0 0x896c00008976;
  mkModel 0x2700000027 (2162)%Z 0x0 0x18000000182;
  mkModel 0x2700000027 (2164)%Z 0x0 0x899100008997;
  mkModel 0x0 (-1)%Z 0x0 0x18000000182;
  mkModel 0x0 (-1)%Z 0x0 0x18000000182;
  mkModel 0x0 (-1)%Z 0x0 0x89ab000089b3;
  mkModel 0x2700000027 (2169)%Z 0x0 0x89ba000089c1;
  mkModel 0x2700000027 (2170)%Z 0x0 0x18000000182;
  mkModel 0x2700000027 (2171)%Z 0x0 0x18000000182;
  mkModel 0x0 (-1)%Z 0x0 0xe3400000e3c;
  mkModel 0x0 (-1)%Z 0x0 0x18000000182;
  mkModel 0x0 (-1)%Z 0x0 0x18000000182;
  mkModel 0x0 (-1)%Z 0x0 0x89e1000089f1;
  mkModel 0x2700000027 (-1)%Z 0x89f500008a01 0x8a0100008a0c;
  mkModel 0x2a1000002a7 (2177)%Z 0x0 0x18000000182;
  mkModel 0x2a1000002a7 (-1)%Z 0x8a1200008a1e 0x8a1200008a1e;
  mkModel 0x2700000027 (2178)%Z 0x0 0x8a1e00008a28;
  mkModel 0x2700000027 (2179)%Z 0x0 0x18000000182;
  mkModel 0x2700000027 (2181)%Z 0x0 0x8a2f00008a39;
  mkModel 0x2700000027 (2182)%Z 0x0 0x8a3900008a46;
  mkModel 0x0 (-1)%Z 0x0 0x8a4d00008a54;
  mkModel 0x2700000027 (2185)%Z 0x0 0x8a5900008a5c;
  mkModel 0x2700000027 (2186)%Z 0x0 0x8a5c00008a5f;
  mkModel 0x2700000027 (2187)%Z 0x0 0x8a5f00008a6b;
  mkModel 0x2a1000002a7 (2188)%Z 0x0 0x8a6b00008a6d;
  mkModel 0x0 (-1)%Z 0x0 0x18000000182;
  mkModel 0x2700000027 (2190)%Z 0x0 0x18000000182;
  mkModel 0x2700000027 (2191)%Z 0x0 0x18000000182;
  mkModel 0x0 (-1)%Z 0x0 0x18000000182;
  mkModel 0x2700000027 (2194)%Z 0x0 0x8a7e00008a89;
  mkModel 0x2700000027 (2195)%Z 0x0 0x8a8900008a8f;
  mkModel 0x2700000027 (2196)%Z 0x0 0x18000000182;
  mkModel 0x2700000027 (2198)%Z 0x0 0x8a9200008a99;
  mkModel 0x2700000027 (2199)%Z 0x0 0x18000000182;
  mkModel 0x2700000027 (2200)%Z 0x0 0x8a9900008a9f;
  mkModel 0x2700000027 (2201)%Z 0x0 0x8a9f00008aa4;
  mkModel 0x2a1000002a7 (2203)%Z 0x0 0x18000000182;
  mkModel 0x2700000027 (2204)%Z 0x0 0x8aa600008aaa;
  mkModel 0x2700000027 (2205)%Z 0x0 0x18000000182;
  mkModel 0x0 (-1)%Z 0x0 0x18000000182;
  mkModel 0x2a1000002a7 (-1)%Z 0x8ab000008ab8 0x8ab800008abd;
  mkModel 0x0 (-1)%Z 0x0 0x18000000182;
  mkModel 0x23b0000023d (2209)%Z 0x0 0x18000000182;
  mkModel 0x23b0000023d (-1)%Z 0x8ac600008ad7 0x8ad700008ae4;
  mkModel 0x2700000027 (2210)%Z 0x0 0x8ae400008aee;
  mkModel 0x2700000027 (2211)%Z 0x0 0x18000000182;
  mkModel 0x2700000027 (2212)%Z 0x0 0x18000000182;
  mkModel 0x2700000027 (2214)%Z 0x0 0x8af100008af6;
  mkModel 0x23f00000249 (2215)%Z 0x0 0x8af100008af6;
  mkModel 0x2700000027 (-1)%Z 0x8afb00008b08 0x8b0800008b0f;
  mkModel 0x2700000027 (-1)%Z 0x8b0f00008b19 0x8b1900008b24;
  mkModel 0x0 (-1)%Z 0x0 0x62270000622d;
  mkModel 0x0 (-1)%Z 0x0 0x18000000182;
  mkModel 0x2700000027 (-1)%Z 0x8b3600008b3b 0x8b3b00008b41;
  mkModel 0x2700000027 (2220)%Z 0x0 0x18000000182;
  mkModel 0x0 (-1)%Z 0x0 0x8b4e00008b56;
  mkModel 0x0 (-1)%Z 0x0 0x8b5a00008b5f;
  mkModel 0x2700000027 (2224)%Z 0x0 0x18000000182;
  mkModel 0x2700000027 (2226)%Z 0x0 0x8b6b00008b75;
  mkModel 0x2700000027 (2227)%Z 0x0 0x18000000182;
  mkModel 0x2700000027 (-1)%Z 0x8b7500008b82 0x8b8200008b8f;
  mkModel 0x2700000027 (-1)%Z 0x8b9300008b9d 0x8b9d00008ba7;
  mkModel 0x2700000027 (-1)%Z 0x8ba700008bb4 0x8bb400008bc1;
  mkModel 0x0 (-1)%Z 0x0 0x18000000182;
  mkModel 0x2700000027 (2231)%Z 0x0 0x8bca00008bd8;
  mkModel 0x2700000027 (2232)%Z 0x0 0x18000000182;
  mkModel 0x0 (-1)%Z 0x0 0x18000000182;
  mkModel 0x0 (-1)%Z 0x0 0x18000000182;
  mkModel 0x0 (-1)%Z 0x0 0x18000000182;
  mkModel 0x2700000027 (2237)%Z 0x0 0x18000000182;
  mkModel 0x2a1000002a7 (2238)%Z 0x0 0x8bf000008bfa;
  mkModel 0x2700000027 (-1)%Z 0x8c0600008c17 0x8c1700008c23;
  mkModel 0x2700000027 (2240)%Z 0x0 0x18000000182;
  mkModel 0x2700000027 (2241)%Z 0x0 0x8c2300008c2e;
  mkModel 0x2700000027 (-1)%Z 0x8c2e00008c3b 0x8c3b00008c43;
  mkModel 0x2700000027 (2242)%Z 0x0 0x18000000182;
  mkModel 0x0 (-1)%Z 0x0 0xe3400000e3c;
  mkModel 0x0 (-1)%Z 0x0 0x18000000182;
  mkModel 0x2700000027 (2246)%Z 0x0 0x10e9000010f6;
  mkModel 0x2700000027 (2247)%Z 0x0 0xe3400000e3c;
  mkModel 0x2700000027 (-1)%Z 0x8c5d00008c69 0x8c6900008c75;
  mkModel 0x0 (-1)%Z 0x0 0x18000000182;
  mkModel 0x2700000027 (2251)%Z 0x0 0x18000000182;
  mkModel 0x2700000027 (-1)%Z 0x8c8900008c90 0x8c9000008c98;
  mkModel 0x0 (-1)%Z 0x0 0x8c9f00008caa;
  mkModel 0x0 (-1)%Z 0x0 0x18000000182;
  mkModel 0x2700000027 (2255)%Z 0x0 0x8cbb00008ccf;
  mkModel 0x2700000027 (2256)%Z 0x0 0x8ccf00008cea;
  mkModel 0x2700000027 (2257)%Z 0x0 0x8cea00008cfe;
  mkModel 0x2700000027 (2258)%Z 0x0 0x8cfe00008d11;
  mkModel 0x0 (-1)%Z 0x0 0x8d1800008d29;
  mkModel 0x23b0000023d (2261)%Z 0x0 0x18000000182;
  mkModel 0x2700000027 (2262)%Z 0x0 0x18000000182;
  mkModel 0x2700000027 (2264)%Z 0x0 0x8d3900008d3e;
  mkModel 0x2700000027 (2265)%Z 0x0 0x8d3e00008d49;
  mkModel 0x2700000027 (2266)%Z 0x0 0x8d4900008d4f;
  mkModel 0x2700000027 (2267)%Z 0x0 0x8d4f00008d59;
  mkModel 0x2700000027 (2268)%Z 0x0 0x8d5900008d61;
  mkModel 0x2700000027 (2269)%Z 0x0 0x8d6100008d69;
  mkModel 0x2700000027 (2270)%Z 0x0 0x8d6900008d72;
  mkModel 0x2700000027 (2271)%Z 0x0 0x1fff00002007;
  mkModel 0x2700000027 (2272)%Z 0x0 0x8d7200008d79;
  mkModel 0x2700000027 (2273)%Z 0x0 0x8d7900008d80;
  mkModel 0x2700000027 (2274)%Z 0x0 0x8d8000008d87;
  mkModel 0x2700000027 (2275)%Z 0x0 0x500000005006;
  mkModel 0x2700000027 (2276)%Z 0x0 0x8d8700008d8a;
  mkModel 0x2700000027 (2277)%Z 0x0 0x8d8a00008d90;
  mkModel 0x2700000027 (2278)%Z 0x0 0x8d9000008d92;
  mkModel 0x2700000027 (2279)%Z 0x0 0x18000000182;
  mkModel 0x2700000027 (2280)%Z 0x0 0x18000000182;
  mkModel 0x2700000027 (2281)%Z 0x0 0x18000000182;
  mkModel 0x2700000027 (2283)%Z 0x0 0x8d9900008da0;
  mkModel 0x2700000027 (2284)%Z 0x0 0x8da000008dac;
  mkModel 0x2700000027 (2285)%Z 0x0 0x8d9900008da0;
  mkModel 0x0 (-1)%Z 0x0 0x18000000182;
  mkModel 0x0 (-1)%Z 0x0 0x18000000182;
  mkModel 0x2700000027 (2289)%Z 0x0 0x8dc300008dcc;
  mkModel 0x2700000027 (2290)%Z 0x0 0x8dcc00008dd1;
  mkModel 0x2700000027 (2291)%Z 0x0 0x8dd100008dd9;
  mkModel 0x0 (-1)%Z 0x0 0x18000000182;
  mkModel 0x2700000027 (-1)%Z 0x8de600008dec 0x8dec00008df3;
  mkModel 0x2700000027 (-1)%Z 0x8df300008df9 0x8df900008e00;
  mkModel 0x2700000027 (2294)%Z 0x0 0x18000000182;
  mkModel 0x2700000027 (2296)%Z 0x0 0x8e0900008e15;
  mkModel 0x2700000027 (2297)%Z 0x0 0x8e1500008e22;
  mkModel 0x2700000027 (2298)%Z 0x0 0x8e2200008e2d;
  mkModel 0x2700000027 (-1)%Z 0x8e2d00008e36 0x8e3600008e40;
  mkModel 0x2700000027 (2299)%Z 0x0 0x8e4000008e4a;
  mkModel 0x2700000027 (2300)%Z 0x0 0x8e4a00008e53;
  mkModel 0x2700000027 (2301)%Z 0x0 0x8e5300008e5f;
  mkModel 0x2700000027 (-1)%Z 0x8e5f00008e6b 0x8e5f00008e6b;
  mkModel 0x2700000027 (2302)%Z 0x0 0x18000000182;
  mkModel 0x2700000027 (2304)%Z 0x0 0x8e7800008e87;
  mkModel 0x2a1000002a7 (2305)%Z 0x0 0x8e8700008e97;
  mkModel 0x2a1000002a7 (-1)%Z 0x8e9700008ea6 0x8ea600008eae;
  mkModel 0x2a1000002a7 (2306)%Z 0x0 0x18000000182;
  mkModel 0x0 (-1)%Z 0x0 0x1940000019b;
  mkModel 0x0 (-1)%Z 0x0 0x18000000182;
  mkModel 0x0 (-1)%Z 0x0 0x8ebd00008ec6;
  mkModel 0x0 (-1)%Z 0x0 0x8ecd00008edb;
  mkModel 0x2700000027 (-1)%Z 0x8ee100008eea 0x8eea00008ef3;
  mkModel 0x2700000027 (-1)%Z 0x8ef300008ef7 0x8ef300008ef7;
  mkModel 0x0 (-1)%Z 0x0 0x18000000182;
  mkModel 0x2700000027 (-1)%Z 0x8f0300008f0c 0x8f0c00008f14;
  mkModel 0x2700000027 (-1)%Z 0x8f1400008f19 0x8f1400008f19;
  mkModel 0x2700000027 (-1)%Z 0x8f1900008f1d 0x8f1d00008f20;
  mkModel 0x2700000027 (-1)%Z 0x8f2000008f24 0x8f2400008f2e;
  mkModel 0x2700000027 (-1)%Z 0x8f2e00008f32 0x5b0300005b08;
  mkModel 0x2700000027 (-1)%Z 0x8f3200008f37 0x8f3700008f40;
  mkModel 0x2700000027 (-1)%Z 0x8f4000008f45 0x8f4500008f4c;
  mkModel 0x2700000027 (-1)%Z 0x8f4c00008f52 0x8f5200008f58;
  mkModel 0x2700000027 (-1)%Z 0x8f5800008f5c 0x8f5c00008f63;
  mkModel 0x2700000027 (-1)%Z 0x8f6300008f67 0x8f6700008f6f;
  mkModel 0x2700000027 (-1)%Z 0x8f6f00008f74 0x8f7400008f7c;
  mkModel 0x2700000027 (-1)%Z 0x8f7c00008f80 0x8f8000008f84;
  mkModel 0x2700000027 (-1)%Z 0x8f8400008f88 0x8f8800008f90;
  mkModel 0x2700000027 (-1)%Z 0x8f9000008f94 0x8f9400008f98;
  mkModel 0x2700000027 (-1)%Z 0x8f9800008f9c 0x8f9c00008fa6;
  mkModel 0x2700000027 (-1)%Z 0x8fa600008faa 0x8faa00008fb0;
  mkModel 0x2700000027 (-1)%Z 0x8fb000008fb4 0x8fb400008fb9;
  mkModel 0x2700000027 (-1)%Z 0x8fb900008fbd 0x8fbd00008fc6;
  mkModel 0x2700000027 (-1)%Z 0x8fc600008fca 0x8fca00008fd5;
  mkModel 0x2700000027 (-1)%Z 0x8fd500008fd9 0x8fd900008fe0;
  mkModel 0x2700000027 (-1)%Z 0x8fe000008fe4 0x8fe400008feb;
  mkModel 0x2700000027 (-1)%Z 0x8feb00008fef 0x8fef00008ffa;
  mkModel 0x2700000027 (-1)%Z 0x8ffa00008ffe 0x8ffe00009009;
  mkModel 0x2700000027 (-1)%Z 0x90090000900d 0x900d00009016;
  mkModel 0x2a1000002a7 (-1)%Z 0x90160000901a 0x901a00009021;
  mkModel 0x0 (-1)%Z 0x0 0x18000000182;
  mkModel 0x2700000027 (-1)%Z 0x902d00009036 0x903600009049;
  mkModel 0x2700000027 (-1)%Z 0x904900009050 0x905000009056;
  mkModel 0x0 (-1)%Z 0x0 0x905d00009061;
  mkModel 0x2700000027 (-1)%Z 0x90650000906f 0x906f00009079;
  mkModel 0x2700000027 (-1)%Z 0x907900009083 0x907900009083
].
Definition d_dr_dm_15 : list modelTuple := [
  mkModel 0x2700000027 (-1)%Z 0x90830000908e 0x908e00009099;
  mkModel 0x2700000027 (2318)%Z 0x0 0x9099000090a3;
  mkModel 0x2700000027 (2319)%Z 0x0 0x90a3000090ae;
  mkModel 0x2700000027 (2320)%Z 0x0 0x90ae000090b7;
  mkModel 0x2700000027 (-1)%Z 0x90b7000090c3 0x90c3000090cf;
  mkModel 0x2700000027 (2321)%Z 0x0 0x90cf000090d8;
  mkModel 0x2700000027 (-1)%Z 0x90d8000090e2 0x90e2000090ec;
  mkModel 0x2700000027 (-1)%Z 0x90ec000090f8 0x90f800009104;
  mkModel 0x2700000027 (-1)%Z 0x91040000910d 0x910d0000911a;
  mkModel 0x2700000027 (2322)%Z 0x0 0x911a00009123;
  mkModel 0x2700000027 (2323)%Z 0x0 0x91230000912c;
  mkModel 0x2700000027 (-1)%Z 0x912c00009136 0x912c00009136;
  mkModel 0x2700000027 (2324)%Z 0x0 0x913600009140;
  mkModel 0x2700000027 (2325)%Z 0x0 0x908e00009099;
  mkModel 0x2700000027 (-1)%Z 0x91400000914b 0x91400000914b;
  mkModel 0x2700000027 (-1)%Z 0x914b00009155 0x914b00009155;
  mkModel 0x2700000027 (-1)%Z 0x915500009162 0x915500009162;
  mkModel 0x2700000027 (2326)%Z 0x0 0x916200009166;
  mkModel 0x2700000027 (2327)%Z 0x0 0x91660000916a;
  mkModel 0x2700000027 (2328)%Z 0x0 0x916a0000916e;
  mkModel 0x2700000027 (-1)%Z 0x916e00009178 0x916e00009178;
  mkModel 0x2700000027 (-1)%Z 0x917800009182 0x917800009182;
  mkModel 0x2a1000002a7 (-1)%Z 0x91820000918c 0x91820000918c;
  mkModel 0x2a1000002a7 (-1)%Z 0x918c00009196 0x9196000091a0;
  mkModel 0x2a1000002a7 (2329)%Z 0x0 0x91a0000091b0;
  mkModel 0x2a1000002a7 (2330)%Z 0x0 0x91b0000091bb;
  mkModel 0x2a1000002a7 (2331)%Z 0x0 0x4c4300004c49;
  mkModel 0x23b0000023d (-1)%Z 0x91bb000091cb 0x91cb000091d6;
  mkModel 0x23b0000023d (2332)%Z 0x0 0x18000000182;
  mkModel 0x23b0000023d (-1)%Z 0x91d6000091dc 0x91dc000091e1;
  mkModel 0x2700000027 (2334)%Z 0x0 0x18000000182;
  mkModel 0x2700000027 (2335)%Z 0x0 0x91e9000091ed;
  mkModel 0x2700000027 (2336)%Z 0x0 0x18000000182;
  mkModel 0x0 (-1)%Z 0x0 0x18000000182;
  mkModel 0x2700000027 (-1)%Z 0x91fd00009201 0x91fd00009201;
  mkModel 0x2700000027 (2340)%Z 0x0 0x920b00009218;
  mkModel 0x2700000027 (2341)%Z 0x0 0x921800009220;
  mkModel 0x2700000027 (2342)%Z 0x0 0x922000009228;
  mkModel 0x23b0000023d (2343)%Z 0x0 0x18000000182;
  mkModel 0x2700000027 (2344)%Z 0x0 0x18000000182;
  mkModel 0x2700000027 (2345)%Z 0x0 0x18000000182;
  mkModel 0x2700000027 (2347)%Z 0x0 0x18000000182;
  mkModel 0x2a1000002a7 (2348)%Z 0x0 0x18000000182;
  mkModel 0x0 (-1)%Z 0x0 0x923900009240;
  mkModel 0x2700000027 (-1)%Z 0x924800009261 0x926100009275;
  mkModel 0x2700000027 (2352)%Z 0x0 0x927d00009284;
  mkModel 0x2a1000002a7 (-1)%Z 0x92840000928f 0x928f00009296;
  mkModel 0x2a1000002a7 (2353)%Z 0x0 0x18000000182;
  mkModel 0x23b0000023d (2354)%Z 0x0 0x18000000182;
  mkModel 0x2700000027 (2356)%Z 0x0 0x929e000092a7;
  mkModel 0x2700000027 (2357)%Z 0x0 0x92a7000092ad;
  mkModel 0x2700000027 (2358)%Z 0x0 0x92ad000092b6;
  mkModel 0x2700000027 (2359)%Z 0x0 0x92b6000092be;
  mkModel 0x2700000027 (2360)%Z 0x0 0x92be000092c5;
  mkModel 0x2700000027 (-1)%Z 0x92c5000092cd 0x92cd000092d5;
  mkModel 0x2700000027 (2361)%Z 0x0 0x18000000182;
  mkModel 0x2a1000002a7 (2362)%Z 0x0 0x18000000182;
  mkModel 0x2700000027 (2363)%Z 0x0 0x18000000182;
  mkModel 0x2700000027 (2365)%Z 0x0 0x92dc000092e9;
  mkModel 0x0 (-1)%Z 0x0 0x92ef000092f6;
  mkModel 0x0 (-1)%Z 0x0 0x18000000182;
  mkModel 0x0 (-1)%Z 0x0 0x18000000182;
  mkModel 0x2a1000002a7 (2370)%Z 0x0 0x930b00009315;
  mkModel 0x2700000027 (2371)%Z 0x0 0x93150000931c;
  mkModel 0x2700000027 (2372)%Z 0x0 0x931c00009323;
  mkModel 0x2700000027 (-1)%Z 0x932300009333 0x932300009333;
  mkModel 0x2700000027 (2373)%Z 0x0 0x93330000933a;
  mkModel 0x2700000027 (2374)%Z 0x0 0x933a00009347;
  mkModel 0x2700000027 (2375)%Z 0x0 0x934700009350;
  mkModel 0x2700000027 (2376)%Z 0x0 0x18000000182;
  mkModel 0x2700000027 (-1)%Z 0x93560000935d 0x935d00009365;
  mkModel 0x2700000027 (-1)%Z 0x936500009371 0x937100009377;
  mkModel 0x2700000027 (2378)%Z 0x0 0x18000000182;
  mkModel 0x23b0000023d (-1)%Z 0x937e00009397 0x9397000093a8;
  mkModel 0x23b0000023d (2380)%Z 0x0 0x93a8000093b6;
  mkModel 0x23b0000023d (2381)%Z 0x0 0x93b6000093c1;
  mkModel 0x23b0000023d (-1)%Z 0x93c1000093d1 0x93d1000093d9;
  mkModel 0x2700000027 (-1)%Z 0x93d9000093ec 0x93d9000093ec;
  mkModel 0x2700000027 (2382)%Z 0x0 0x93ec000093fb;
  mkModel 0x2700000027 (2383)%Z 0x0 0x93fb0000940c;
  mkModel 0x2700000027 (2384)%Z 0x0 0x18000000182;
  mkModel 0x0 (-1)%Z 0x0 0x18000000182;
  mkModel 0x2700000027 (-1)%Z 0x941900009427 0x942700009436;
  mkModel 0x2700000027 (-1)%Z 0x943600009446 0x943600009446;
  mkModel 0x2700000027 (-1)%Z 0x944600009452 0x94520000945e;
  mkModel 0x2700000027 (-1)%Z 0x945e0000946d 0x946d0000947c;
  mkModel 0x2700000027 (-1)%Z 0x947c0000948c 0x948c0000949e;
  mkModel 0x2700000027 (-1)%Z 0x949e000094a8 0x94a8000094bb;
  mkModel 0x2700000027 (2388)%Z 0x0 0x94c3000094ce;
  mkModel 0x2700000027 (2389)%Z 0x0 0x94ce000094d4;
  mkModel 0x0 (-1)%Z 0x0 0x94db000094e2;
  mkModel 0x0 (-1)%Z 0x0 0x18000000182;
  mkModel 0x2700000027 (2393)%Z 0x0 0x94ee000094fc;
  mkModel 0x2700000027 (-1)%Z 0x94fc00009505 0x94fc00009505;
  mkModel 0x2700000027 (-1)%Z 0x95050000950e 0x95050000950e;
  mkModel 0x2700000027 (2394)%Z 0x0 0x950e0000951c;
  mkModel 0x2700000027 (2395)%Z 0x0 0x951c0000952a;
  mkModel 0x2700000027 (2396)%Z 0x0 0x952a00009535;
  mkModel 0x2700000027 (-1)%Z 0x95350000953f 0x953f0000954a;
  mkModel 0x2700000027 (2397)%Z 0x0 0x954a00009555;
  mkModel 0x2700000027 (2398)%Z 0x0 0x95550000955e;
  mkModel 0x2700000027 (2399)%Z 0x0 0x955e0000956a;
  mkModel 0x2700000027 (2400)%Z 0x0 0x956a00009572;
  mkModel 0x2700000027 (2401)%Z 0x0 0x95720000957c;
  mkModel 0x2700000027 (2402)%Z 0x0 0x957c00009585;
  mkModel 0x2700000027 (2403)%Z 0x0 0x59d0000059d9;
  mkModel 0x23f00000249 (2404)%Z 0x0 0x95850000958b;
  mkModel 0x23f00000249 (2405)%Z 0x0 0x958b00009591;
  mkModel 0x23f00000249 (2406)%Z 0x0 0x959100009597;
  mkModel 0x23f00000249 (2407)%Z 0x0 0x9597000095a1;
  mkModel 0x23f00000249 (2408)%Z 0x0 0x146c00001470;
  mkModel 0x23f00000249 (2409)%Z 0x0 0x95a1000095a6;
  mkModel 0x23f00000249 (2410)%Z 0x0 0x95a6000095ab;
  mkModel 0x39a000003a7 (2411)%Z 0x0 0x95ab000095ae;
  mkModel 0x2700000027 (2412)%Z 0x0 0x95ae000095b4;
  mkModel 0x23f00000249 (2413)%Z 0x0 0x95b4000095ba;
  mkModel 0x2700000027 (2414)%Z 0x0 0x95ba000095bf;
  mkModel 0x2700000027 (2415)%Z 0x0 0x18000000182;
  mkModel 0x23f00000249 (2416)%Z 0x0 0x95bf000095c7;
  mkModel 0x2700000027 (-1)%Z 0x95c7000095cd 0x95c7000095cd;
  mkModel 0x0 (-1)%Z 0x0 0x95d6000095e8;
  mkModel 0x2700000027 (2419)%Z 0x0 0x95ee000095f7;
  mkModel 0x2700000027 (-1)%Z 0x95f7000095ff 0x95ff00009607;
  mkModel 0x0 (-1)%Z 0x0 0x961900009626;
  mkModel 0x0 (-1)%Z 0x0 0x18000000182;
  mkModel 0x2700000027 (2422)%Z 0x0 0x18000000182;
  mkModel 0x2700000027 (2423)%Z 0x0 0x962e00009632;
  mkModel 0x2700000027 (-1)%Z 0x96340000963c 0x963c00009640;
  mkModel 0x2700000027 (2425)%Z 0x0 0x964000009644;
  mkModel 0x2700000027 (2426)%Z 0x0 0x18000000182;
  mkModel 0x2700000027 (2427)%Z 0x0 0x18000000182;
  mkModel 0x2a1000002a7 (-1)%Z 0x96440000964f 0x964f0000965c;
  mkModel 0x2700000027 (-1)%Z 0x966000009668 0x966000009668;
  mkModel 0x2700000027 (-1)%Z 0x966800009671 0x966800009671;
  mkModel 0x2700000027 (-1)%Z 0x96710000967b 0x96710000967b;
  mkModel 0x2700000027 (-1)%Z 0x967b00009681 0x967b00009681;
  mkModel 0x2700000027 (2429)%Z 0x0 0x96810000968e;
  mkModel 0x2700000027 (2430)%Z 0x0 0x18000000182;
  mkModel 0x2700000027 (2431)%Z 0x0 0x968e00009693;
  mkModel 0x2700000027 (2432)%Z 0x0 0x18000000182;
  mkModel 0x2700000027 (-1)%Z 0x969c000096a2 0x96a2000096a9;
  mkModel 0x2700000027 (-1)%Z 0x96a9000096b0 0x96b0000096b7;
  mkModel 0x2700000027 (-1)%Z 0x96b7000096bf 0x96bf000096c8;
  mkModel 0x2700000027 (-1)%Z 0x96c8000096d1 0x96d1000096da;
  mkModel 0x2700000027 (-1)%Z 0x96da000096e6 0x96e6000096f2;
  mkModel 0x2700000027 (2434)%Z 0x0 0x18000000182;
  mkModel 0x2700000027 (-1)%Z 0x96f2000096fa 0x96fa00009703;
  mkModel 0x0 (-1)%Z 0x0 0x18000000182;
  mkModel 0x0 (-1)%Z 0x0 0x97160000971e;
  mkModel 0x0 (-1)%Z 0x0 0x972300009731;
  mkModel 0x39a000003a7 (2438)%Z 0x0 0x973a00009743;
  mkModel 0x2700000027 (2439)%Z 0x0 0x974900009753;
  mkModel 0x2a1000002a7 (2440)%Z 0x0 0x97530000975c;
  mkModel 0x0 (-1)%Z 0x0 0x18000000182;
  mkModel 0x2700000027 (-1)%Z 0x976600009772 0x977200009781;
  mkModel 0x2700000027 (-1)%Z 0x97810000978c 0x97810000978c;
  mkModel 0x2700000027 (-1)%Z 0x978c00009799 0x97990000979e;
  mkModel 0x2700000027 (-1)%Z 0x979e000097aa 0x97aa000097b0;
  mkModel 0x2700000027 (-1)%Z 0x97b0000097bc 0x97bc000097bf;
  mkModel 0x2700000027 (-1)%Z 0x97bf000097cb 0x8bdb00008be0;
  mkModel 0x2700000027 (-1)%Z 0x97cb000097d7 0x97d7000097dd;
  mkModel 0x2700000027 (-1)%Z 0x97dd000097e9 0x97e9000097ee;
  mkModel 0x2a1000002a7 (2443)%Z 0x0 0x18000000182;
  mkModel 0x2a1000002a7 (-1)%Z 0x97ee000097f9 0x97f900009805;
  mkModel 0x2700000027 (-1)%Z 0x98080000980f 0x98080000980f;
  mkModel 0x2700000027 (-1)%Z 0x980f00009819 0x980f00009819;
  mkModel 0x2700000027 (-1)%Z 0x981900009823 0x981900009823;
  mkModel 0x2700000027 (-1)%Z 0x98230000982d 0x98230000982d;
  mkModel 0x2700000027 (-1)%Z 0x982d00009837 0x982d00009837;
  mkModel 0x2700000027 (2446)%Z 0x0 0x983a00009847;
  mkModel 0x2700000027 (2447)%Z 0x0 0x98470000984f;
  mkModel 0x2700000027 (-1)%Z 0x984f00009859 0x985900009865;
  mkModel 0x2700000027 (2448)%Z 0x0 0x98650000986e;
  mkModel 0x2700000027 (-1)%Z 0x986e00009879 0x987900009884;
  mkModel 0x0 (-1)%Z 0x0 0x18000000182;
  mkModel 0x0 (-1)%Z 0x0 0x18000000182;
  mkModel 0x2700000027 (2452)%Z 0x0 0x98940000989b;
  mkModel 0x2700000027 (2453)%Z 0x0 0x18000000182;
  mkModel 0x2a1000002a7 (-1)%Z 0x98a3000098ab 0x98a3000098ab;
  mkModel 0x2a1000002a7 (2455)%Z 0x0 0x18000000182;
  mkModel 0x2700000027 (-1)%Z 0x98ab000098b1 0x98ab000098b1;
  mkModel 0x2700000027 (-1)%Z 0x98b1000098b7 0x98b1000098b7;
  mkModel 0x2700000027 (2456)%Z 0x0 0x98b7000098be;
  mkModel 0x2700000027 (-1)%Z 0x98be000098c4 0x98be000098c4;
  mkModel 0x2700000027 (2457)%Z 0x0 0x98c4000098c7;
  mkModel 0x0 (-1)%Z 0x0 0x18000000182;
  mkModel 0x0 (-1)%Z 0x0 0xe3400000e3c;
  mkModel 0x0 (-1)%Z 0x0 0x18000000182;
  mkModel 0x0 (-1)%Z 0x0 0x98f6000098ff;
  mkModel 0x2700000027 (2461)%Z 0x0 0x990600009908;
  mkModel 0x2700000027 (2462)%Z 0x0 0x99080000990b;
  mkModel 0x2700000027 (2463)%Z 0x0 0x990b00009911;
  mkModel 0x0 (-1)%Z 0x0 0x99170000991e;
  mkModel 0x0 (-1)%Z 0x0 0x18000000182;
  mkModel 0x0 (-1)%Z 0x0 0x18000000182;
  mkModel 0x2700000027 (2468)%Z 0x0 0x99330000993d;
  mkModel 0x2700000027 (-1)%Z 0x993d0000994e 0x993d0000994e;
  mkModel 0x2700000027 (-1)%Z 0x994e00009953 0x995300009959;
  mkModel 0x2700000027 (-1)%Z 0x995900009961 0x1d2d00001d2e;
  mkModel 0x2a1000002a7 (2469)%Z 0x0 0x996100009967
].
Definition d_dr_dm_16 : list modelTuple := [
  mkModel 0x0 (-1)%Z 0x0 0x996d00009972;
  mkModel 0x0 (-1)%Z 0x0 0x4c4f00004c57;
  mkModel 0x0 (-1)%Z 0x0 0x18000000182;
  mkModel 0x0 (-1)%Z 0x0 0x18000000182;
  mkModel 0x2700000027 (2475)%Z 0x0 0x18000000182;
  mkModel 0x2700000027 (-1)%Z 0x99970000999e 0x999e000099a0;
  mkModel 0x2700000027 (-1)%Z 0x99a0000099ae 0x99a0000099ae;
  mkModel 0x2700000027 (2477)%Z 0x0 0x99ae000099b7;
  mkModel 0x2700000027 (-1)%Z 0x99b7000099c0 0x99c0000099c4;
  mkModel 0x2700000027 (-1)%Z 0x99c4000099d3 0x99d3000099e4;
  mkModel 0x2700000027 (-1)%Z 0x99e4000099ee 0x99e4000099ee;
  mkModel 0x2700000027 (2478)%Z 0x0 0x18000000182;
  mkModel 0x2700000027 (-1)%Z 0x99f200009a01 0x9a0100009a0a;
  mkModel 0x2700000027 (2480)%Z 0x0 0x18000000182;
  mkModel 0x2700000027 (-1)%Z 0x9a0a00009a14 0x9a1400009a1e;
  mkModel 0x2700000027 (-1)%Z 0x9a1e00009a27 0x9a2700009a30;
  mkModel 0x2700000027 (2481)%Z 0x0 0x18000000182;
  mkModel 0x2700000027 (-1)%Z 0x9a3000009a3a 0x9a3a00009a3f;
  mkModel 0x2700000027 (-1)%Z 0x9a3f00009a48 0x9a4800009a55;
  mkModel 0x2700000027 (-1)%Z 0x9a5500009a5a 0x9a5a00009a63;
  mkModel 0x2700000027 (-1)%Z 0x9a6300009a6a 0x9a6a00009a74;
  mkModel 0x2700000027 (-1)%Z 0x9a7400009a80 0x9a8000009a8c;
  mkModel 0x2700000027 (-1)%Z 0x9a8c00009a93 0x9a9300009a9b;
  mkModel 0x2700000027 (-1)%Z 0x9a9b00009aa3 0x9aa300009aab;
  mkModel 0x2700000027 (-1)%Z 0x9aab00009ab0 0x9ab000009ac0;
  mkModel 0x2700000027 (-1)%Z 0x9ac400009ac9 0x9ac400009ac9;
  mkModel 0x2700000027 (2483)%Z 0x0 0x9ac900009ad0;
  mkModel 0x2700000027 (2484)%Z 0x0 0x9ad000009ad3;
  mkModel 0x2700000027 (-1)%Z 0x9ad300009ad7 0x9ad300009ad7;
  mkModel 0x2700000027 (2485)%Z 0x0 0x9ad700009adc;
  mkModel 0x2700000027 (2486)%Z 0x0 0x18000000182;
  mkModel 0x2700000027 (2487)%Z 0x0 0x9adc00009ade;
  mkModel 0x2700000027 (-1)%Z 0x9ade00009ae5 0x9ae500009aec;
  mkModel 0x2700000027 (-1)%Z 0x9aec00009af2 0x9af200009af8;
  mkModel 0xdfd00000e04 (2488)%Z 0x0 0x9af800009b03;
  mkModel 0xdfd00000e04 (2489)%Z 0x0 0x9b0300009b0f;
  mkModel 0x2700000027 (2490)%Z 0x0 0x18000000182;
  mkModel 0x2700000027 (2491)%Z 0x0 0x9b1c00009b22;
  mkModel 0x2a1000002a7 (2493)%Z 0x0 0x18000000182;
  mkModel 0x2700000027 (2494)%Z 0x0 0x18000000182;
  mkModel 0x2700000027 (2495)%Z 0x0 0x18000000182;
  mkModel 0x2700000027 (2497)%Z 0x0 0x9b4500009b50;
  mkModel 0x2700000027 (2498)%Z 0x0 0x9b5000009b5b;
  mkModel 0x2700000027 (2499)%Z 0x0 0x9b5b00009b68;
  mkModel 0x2700000027 (2500)%Z 0x0 0x9b6800009b73;
  mkModel 0x2700000027 (2501)%Z 0x0 0x9b7300009b83;
  mkModel 0x2700000027 (2502)%Z 0x0 0x9b8300009b90;
  mkModel 0x2700000027 (2503)%Z 0x0 0x9b9000009ba0;
  mkModel 0x2700000027 (2504)%Z 0x0 0x9ba000009baa;
  mkModel 0x2700000027 (2505)%Z 0x0 0x9baa00009bb8;
  mkModel 0x2700000027 (2506)%Z 0x0 0x9bb800009bc9;
  mkModel 0x2700000027 (2507)%Z 0x0 0x9bc900009bd8;
  mkModel 0x2700000027 (2508)%Z 0x0 0x9bd800009be3;
  mkModel 0x2700000027 (2509)%Z 0x0 0x9be300009bf1;
  mkModel 0x2700000027 (2510)%Z 0x0 0x9bf100009bfd;
  mkModel 0x2700000027 (2511)%Z 0x0 0x9bfd00009c09;
  mkModel 0x2700000027 (2512)%Z 0x0 0x9c0900009c18;
  mkModel 0x2700000027 (2513)%Z 0x0 0x9c1800009c2b;
  mkModel 0x2700000027 (2514)%Z 0x0 0x9c2b00009c36;
  mkModel 0x2700000027 (2515)%Z 0x0 0x9c3600009c45;
  mkModel 0x2700000027 (2516)%Z 0x0 0x9c4500009c4d;
  mkModel 0x2700000027 (2517)%Z 0x0 0x9c4d00009c5a;
  mkModel 0x2700000027 (2518)%Z 0x0 0x9c5a00009c64;
  mkModel 0x2700000027 (2519)%Z 0x0 0x9c6400009c74;
  mkModel 0x2700000027 (2520)%Z 0x0 0x9c7400009c83;
  mkModel 0x2700000027 (2521)%Z 0x0 0x9c8300009c8e;
  mkModel 0x2700000027 (2522)%Z 0x0 0x9c8e00009c98;
  mkModel 0x2700000027 (-1)%Z 0x9c9800009ca2 0x9ca200009cac;
  mkModel 0x2700000027 (2523)%Z 0x0 0x9cac00009cb6;
  mkModel 0x2700000027 (2524)%Z 0x0 0x18000000182;
  mkModel 0x0 (-1)%Z 0x0 0x9cbc00009cbf;
  mkModel 0x2700000027 (-1)%Z 0x9cc300009cca 0x9cca00009ccb;
  mkModel 0x2700000027 (-1)%Z 0x9ccb00009cd1 0x9cd100009cd7;
  mkModel 0x2a1000002a7 (2528)%Z 0x0 0x9cda00009ce2;
  mkModel 0x2700000027 (2529)%Z 0x0 0x9ce200009ce9;
  mkModel 0x2700000027 (2530)%Z 0x0 0x9ce900009cf1;
  mkModel 0x2700000027 (2531)%Z 0x0 0x9cf100009cf9;
  mkModel 0x2700000027 (2532)%Z 0x0 0x9cf900009d08;
  mkModel 0x2700000027 (2533)%Z 0x0 0x9d0800009d11;
  mkModel 0x2700000027 (2534)%Z 0x0 0x9d1100009d19;
  mkModel 0x2700000027 (2535)%Z 0x0 0x9d1900009d21;
  mkModel 0x2700000027 (2536)%Z 0x0 0x9d2100009d29;
  mkModel 0x2700000027 (2537)%Z 0x0 0x9d2900009d31;
  mkModel 0x2700000027 (2538)%Z 0x0 0x9d3100009d39;
  mkModel 0x2700000027 (2539)%Z 0x0 0x9d3900009d42;
  mkModel 0x2700000027 (2540)%Z 0x0 0x9d4200009d4b;
  mkModel 0x2700000027 (2541)%Z 0x0 0x9d4b00009d5a;
  mkModel 0x2700000027 (-1)%Z 0x9d5a00009d5f 0x9d5f00009d67;
  mkModel 0x2700000027 (-1)%Z 0x9d6700009d6c 0x9d6c00009d75;
  mkModel 0x2700000027 (2542)%Z 0x0 0x9d7500009d7d;
  mkModel 0x2700000027 (-1)%Z 0x9d7d00009d82 0x9d8200009d8a;
  mkModel 0x2700000027 (-1)%Z 0x9d8a00009d8f 0x9d8f00009d97;
  mkModel 0x2700000027 (-1)%Z 0x9d9700009d9c 0x9d9c00009da5;
  mkModel 0x2700000027 (-1)%Z 0x9da500009daa 0x9daa00009db3;
  mkModel 0x2700000027 (2543)%Z 0x0 0x9db300009dbb;
  mkModel 0x2700000027 (-1)%Z 0x9dbb00009dc0 0x9dc000009dc9;
  mkModel 0x2700000027 (-1)%Z 0x9dc900009dce 0x9dce00009dd7;
  mkModel 0x2700000027 (-1)%Z 0x9dd700009ddc 0x9ddc00009de5;
  mkModel 0x2700000027 (-1)%Z 0x9de500009dea 0x9dea00009df2;
  mkModel 0x2700000027 (-1)%Z 0x9df200009df7 0x9df700009dff;
  mkModel 0x2700000027 (-1)%Z 0x9dff00009e04 0x9e0400009e0c;
  mkModel 0x2700000027 (-1)%Z 0x9e0c00009e11 0x9e1100009e19;
  mkModel 0x2700000027 (-1)%Z 0x9e1900009e1e 0x9e1e00009e26;
  mkModel 0x2700000027 (-1)%Z 0x9e2600009e2b 0x9e2b00009e33;
  mkModel 0x2700000027 (-1)%Z 0x9e3300009e38 0x9e3800009e40;
  mkModel 0x2700000027 (-1)%Z 0x9e4000009e45 0x9e4500009e53;
  mkModel 0x2700000027 (-1)%Z 0x9e5300009e5f 0x9e5300009e5f;
  mkModel 0x2700000027 (-1)%Z 0x9e5f00009e64 0x9e6400009e6d;
  mkModel 0x2700000027 (-1)%Z 0x9e6d00009e72 0x9e7200009e7b;
  mkModel 0x2700000027 (2544)%Z 0x0 0x9e7b00009e84;
  mkModel 0x2700000027 (-1)%Z 0x9e8400009e89 0x9e8900009e91;
  mkModel 0x2700000027 (-1)%Z 0x9e9100009e96 0x9e9600009ea2;
  mkModel 0x2700000027 (-1)%Z 0x9ea200009ea7 0x9ea700009eb0;
  mkModel 0x2700000027 (-1)%Z 0x9eb000009eb5 0x9eb500009ebe;
  mkModel 0x2700000027 (-1)%Z 0x9ebe00009ec3 0x9ec300009ecb;
  mkModel 0x2700000027 (-1)%Z 0x9ecb00009ed0 0x9ed000009edc;
  mkModel 0x2700000027 (-1)%Z 0x9edc00009ee1 0x9ee100009eea;
  mkModel 0x2700000027 (-1)%Z 0x9eea00009eef 0x9eef00009efa;
  mkModel 0x2700000027 (-1)%Z 0x9efa00009eff 0x9eff00009f04;
  mkModel 0x2700000027 (-1)%Z 0x9f0400009f09 0x9f0900009f17;
  mkModel 0x2700000027 (-1)%Z 0x9f1700009f1c 0x9f1c00009f24;
  mkModel 0x2700000027 (-1)%Z 0x9f2400009f29 0x9f2900009f31;
  mkModel 0x2700000027 (-1)%Z 0x9f3100009f36 0x9f3600009f3f;
  mkModel 0x2700000027 (-1)%Z 0x9f3f00009f44 0x9f4400009f4d;
  mkModel 0x2700000027 (-1)%Z 0x9f4d00009f52 0x9f5200009f5a;
  mkModel 0x2700000027 (-1)%Z 0x9f5a00009f5f 0x9f5f00009f68;
  mkModel 0x2700000027 (-1)%Z 0x9f6800009f6d 0x9f6d00009f76;
  mkModel 0x2700000027 (-1)%Z 0x9f7600009f7b 0x9f7b00009f84;
  mkModel 0x2700000027 (-1)%Z 0x9f8400009f89 0x9f8900009f92;
  mkModel 0x2700000027 (-1)%Z 0x9f9200009f97 0x9f9700009fa0;
  mkModel 0x2700000027 (-1)%Z 0x9fa000009fa5 0x9fa500009fae;
  mkModel 0x2700000027 (-1)%Z 0x9fae00009fb3 0x9fb300009fbc;
  mkModel 0x2700000027 (-1)%Z 0x9fbc00009fc1 0x9fc100009fca;
  mkModel 0x2700000027 (2545)%Z 0x0 0x9fca00009fd1;
  mkModel 0x2700000027 (2546)%Z 0x0 0x9fd100009fd5;
  mkModel 0x2700000027 (2547)%Z 0x0 0x9fd500009fda;
  mkModel 0x2700000027 (2548)%Z 0x0 0x9fda00009fdf;
  mkModel 0x2700000027 (2549)%Z 0x0 0x9fdf00009fe7;
  mkModel 0x2700000027 (2550)%Z 0x0 0x9fe700009fef;
  mkModel 0x2700000027 (2551)%Z 0x0 0x9fef00009ff4;
  mkModel 0x2700000027 (2552)%Z 0x0 0x9ff400009ff9;
  mkModel 0x2700000027 (2553)%Z 0x0 0x9ff900009ffe;
  mkModel 0x2700000027 (2554)%Z 0x0 0x9ffe0000a008;
  mkModel 0x2700000027 (2555)%Z 0x0 0xa0080000a012;
  mkModel 0x2700000027 (2556)%Z 0x0 0xa0120000a01c;
  mkModel 0x2700000027 (2557)%Z 0x0 0xa01c0000a026;
  mkModel 0x2700000027 (2558)%Z 0x0 0xa0260000a030;
  mkModel 0x2700000027 (2559)%Z 0x0 0xa0300000a03a;
  mkModel 0x2700000027 (2560)%Z 0x0 0xa03a0000a045;
  mkModel 0x2700000027 (2561)%Z 0x0 0xa0450000a04b;
  mkModel 0x2700000027 (2562)%Z 0x0 0xa04b0000a057;
  mkModel 0x2700000027 (2563)%Z 0x0 0xa0570000a05f;
  mkModel 0x2700000027 (2564)%Z 0x0 0xa05f0000a068;
  mkModel 0x2700000027 (2565)%Z 0x0 0xa0680000a06f;
  mkModel 0x2700000027 (2566)%Z 0x0 0x59e1000059e6;
  mkModel 0x2700000027 (2567)%Z 0x0 0xa06f0000a078;
  mkModel 0x2700000027 (2568)%Z 0x0 0xa0780000a07e;
  mkModel 0x2700000027 (2569)%Z 0x0 0x614300006148;
  mkModel 0x2700000027 (2570)%Z 0x0 0xa07e0000a088;
  mkModel 0x2700000027 (2571)%Z 0x0 0xa0880000a092;
  mkModel 0x2700000027 (2572)%Z 0x0 0xa0920000a09c;
  mkModel 0x2700000027 (2573)%Z 0x0 0xa09c0000a0a0;
  mkModel 0x2700000027 (2574)%Z 0x0 0x5790000057f;
  mkModel 0x2700000027 (2575)%Z 0x0 0xa0a00000a0a7;
  mkModel 0x2700000027 (2576)%Z 0x0 0xa0a70000a0b0;
  mkModel 0x2700000027 (2577)%Z 0x0 0x79c000007a1;
  mkModel 0x2700000027 (2578)%Z 0x0 0xa0b00000a0bc;
  mkModel 0x2700000027 (2579)%Z 0x0 0xa0bc0000a0c6;
  mkModel 0x2700000027 (2580)%Z 0x0 0xa0c60000a0ce;
  mkModel 0x2700000027 (2581)%Z 0x0 0x5b2600005b2b;
  mkModel 0x2700000027 (2582)%Z 0x0 0xa0ce0000a0d5;
  mkModel 0x2700000027 (2583)%Z 0x0 0xa0d50000a0de;
  mkModel 0x2700000027 (2584)%Z 0x0 0xa0de0000a0e6;
  mkModel 0x2700000027 (2585)%Z 0x0 0xa0e60000a0eb;
  mkModel 0x2700000027 (2586)%Z 0x0 0xa0eb0000a0f5;
  mkModel 0x2700000027 (2587)%Z 0x0 0xa0f50000a0ff;
  mkModel 0x2700000027 (2588)%Z 0x0 0xa0ff0000a10a;
  mkModel 0x2700000027 (2589)%Z 0x0 0xa10a0000a115;
  mkModel 0x2700000027 (2590)%Z 0x0 0xa1150000a121;
  mkModel 0x2700000027 (2591)%Z 0x0 0xa1210000a12d;
  mkModel 0x2700000027 (2592)%Z 0x0 0xa12d0000a131;
  mkModel 0x39a000003a7 (2593)%Z 0x0 0x18000000182;
  mkModel 0x2a1000002a7 (2594)%Z 0x0 0xa1310000a13b;
  mkModel 0x2700000027 (2595)%Z 0x0 0x18000000182;
  mkModel 0x2700000027 (2596)%Z 0x0 0x18000000182;
  mkModel 0x2700000027 (2597)%Z 0x0 0x7d3900007d44;
  mkModel 0x2700000027 (2599)%Z 0x0 0x18000000182;
  mkModel 0x2a1000002a7 (2600)%Z 0x0 0x18000000182;
  mkModel 0x2700000027 (2601)%Z 0x0 0x18000000182;
  mkModel 0x2700000027 (2603)%Z 0x0 0x18000000182;
  mkModel 0x2700000027 (2604)%Z 0x0 0xa1500000a152;
  mkModel 0x2700000027 (2605)%Z 0x0 0xa15a0000a15f;
  mkModel 0x2700000027 (2607)%Z 0x0 0x18000000182;
  mkModel 0x2700000027 (2608)%Z 0x0 0xa1670000a172;
  mkModel 0x2700000027 (2610)%Z 0x0 0xa1790000a183;
  mkModel 0x0 (-1)%Z 0x0 0x18000000182;
  mkModel 0x0 (-1)%Z 0x0 0xa1940000a19b;
  mkModel 0x2700000027 (2614)%Z 0x0 0x18000000182;
  mkModel 0x2700000027 (2615)%Z 0x0 0xa1a60000a1b0;
  mkModel 0x2700000027 (-1)%Z 0xa1b00000a1ba 0xa1ba0000a1c4
].
Definition d_dr_dm_17 : list modelTuple := [
  mkModel 0x2700000027 (2616)%Z 0x0 0xa1c40000a1cd;
  mkModel 0x2700000027 (-1)%Z 0xa1cd0000a1d6 0xa1d60000a1df;
  mkModel 0x2700000027 (-1)%Z 0xa1df0000a1e8 0xa1df0000a1e8;
  mkModel 0x2700000027 (2618)%Z 0x0 0xa1ee0000a1fc;
  mkModel 0x2700000027 (2620)%Z 0x0 0xa2030000a20e;
  mkModel 0x2700000027 (2622)%Z 0x0 0x18000000182;
  mkModel 0x2700000027 (-1)%Z 0xa21b0000a223 0xa2230000a226;
  mkModel 0x2700000027 (-1)%Z 0xa2260000a22e 0xa22e0000a230;
  mkModel 0x2700000027 (-1)%Z 0xa2300000a238 0x1ea500001ea7;
  mkModel 0x2700000027 (-1)%Z 0xa2380000a240 0xa2400000a243;
  mkModel 0x2700000027 (2625)%Z 0x0 0xa24a0000a24f;
  mkModel 0x2700000027 (-1)%Z 0xa24f0000a256 0xa2560000a264;
  mkModel 0x2700000027 (2626)%Z 0x0 0xa2640000a26e;
  mkModel 0x2700000027 (2627)%Z 0x0 0xa26e0000a276;
  mkModel 0x2700000027 (2628)%Z 0x0 0xa2760000a282;
  mkModel 0x2700000027 (-1)%Z 0xa2820000a289 0xa2890000a290;
  mkModel 0x2700000027 (-1)%Z 0xa2900000a297 0xa2970000a29c;
  mkModel 0x2700000027 (2629)%Z 0x0 0xa29c0000a2a1;
  mkModel 0x2700000027 (-1)%Z 0xa2a10000a2a8 0xa2a80000a2b2;
  mkModel 0x2700000027 (-1)%Z 0xa2b20000a2b9 0xa2b90000a2bf;
  mkModel 0x2700000027 (-1)%Z 0xa2bf0000a2c5 0xa2c50000a2c9;
  mkModel 0x2700000027 (2630)%Z 0x0 0xa2c90000a2cb;
  mkModel 0x2700000027 (2631)%Z 0x0 0xa2cb0000a2d3;
  mkModel 0x2700000027 (-1)%Z 0xa2d30000a2da 0xa2da0000a2e2;
  mkModel 0x2700000027 (2632)%Z 0x0 0xa2e20000a2ea;
  mkModel 0x2700000027 (-1)%Z 0xa2ea0000a2f1 0xa2f10000a2fe;
  mkModel 0x2700000027 (-1)%Z 0xa2fe0000a305 0xa3050000a313;
  mkModel 0x2700000027 (-1)%Z 0xa3130000a31a 0xa31a0000a32a;
  mkModel 0x2700000027 (-1)%Z 0xa32a0000a331 0xa3310000a33c;
  mkModel 0x2700000027 (-1)%Z 0xa33c0000a343 0xa3430000a34b;
  mkModel 0x2700000027 (-1)%Z 0xa34b0000a356 0xa3560000a361;
  mkModel 0x2700000027 (-1)%Z 0xa3610000a369 0xa3690000a371;
  mkModel 0x0 (-1)%Z 0x0 0x18000000182;
  mkModel 0x2700000027 (-1)%Z 0xa3770000a382 0x8a0100008a0c;
  mkModel 0x2700000027 (2636)%Z 0x0 0xa3890000a398;
  mkModel 0x2700000027 (2637)%Z 0x0 0xa3980000a3a7;
  mkModel 0x2700000027 (2638)%Z 0x0 0xa3a70000a3b4;
  mkModel 0x2700000027 (2639)%Z 0x0 0xa3b40000a3c6;
  mkModel 0x2700000027 (2640)%Z 0x0 0xa3c60000a3d5;
  mkModel 0x2700000027 (2641)%Z 0x0 0xa3d50000a3e4;
  mkModel 0x2700000027 (2642)%Z 0x0 0xa3e40000a3f4;
  mkModel 0x2700000027 (2643)%Z 0x0 0xa3f40000a402;
  mkModel 0x2700000027 (2644)%Z 0x0 0xa4020000a411;
  mkModel 0x2700000027 (2645)%Z 0x0 0xa4110000a420;
  mkModel 0x2700000027 (2646)%Z 0x0 0xa4200000a42e;
  mkModel 0x2700000027 (2647)%Z 0x0 0xa42e0000a43d;
  mkModel 0x2700000027 (2648)%Z 0x0 0xa43d0000a44d;
  mkModel 0x2700000027 (2649)%Z 0x0 0xa44d0000a45e;
  mkModel 0x2700000027 (2650)%Z 0x0 0xa45e0000a46f;
  mkModel 0x2700000027 (2651)%Z 0x0 0xa46f0000a482;
  mkModel 0x2700000027 (2652)%Z 0x0 0xa4820000a491;
  mkModel 0x2700000027 (2653)%Z 0x0 0xa4910000a49f;
  mkModel 0x2700000027 (2654)%Z 0x0 0xa49f0000a4ad;
  mkModel 0x2700000027 (2655)%Z 0x0 0xa4ad0000a4bc;
  mkModel 0x2700000027 (2656)%Z 0x0 0xa4bc0000a4ce;
  mkModel 0x2700000027 (2657)%Z 0x0 0xa4ce0000a4dd;
  mkModel 0x2700000027 (2658)%Z 0x0 0xa4dd0000a4ec;
  mkModel 0x2700000027 (2659)%Z 0x0 0xa4ec0000a4f8;
  mkModel 0x2700000027 (2660)%Z 0x0 0xa4f80000a507;
  mkModel 0x2700000027 (2661)%Z 0x0 0xa5070000a518;
  mkModel 0x2700000027 (2662)%Z 0x0 0xa5180000a529;
  mkModel 0x2700000027 (2663)%Z 0x0 0xa5290000a53f;
  mkModel 0x2700000027 (2664)%Z 0x0 0xa53f0000a54e;
  mkModel 0x2700000027 (2665)%Z 0x0 0xa54e0000a55c;
  mkModel 0x2700000027 (2666)%Z 0x0 0xa55c0000a56b;
  mkModel 0x2700000027 (2667)%Z 0x0 0xa56b0000a574;
  mkModel 0x2700000027 (2668)%Z 0x0 0xa5740000a585;
  mkModel 0x2700000027 (2669)%Z 0x0 0xa5850000a593;
  mkModel 0x2700000027 (2670)%Z 0x0 0xa5930000a5a6;
  mkModel 0x2700000027 (2671)%Z 0x0 0xa5a60000a5b9;
  mkModel 0x2700000027 (2672)%Z 0x0 0xa5b90000a5c8;
  mkModel 0x2700000027 (2673)%Z 0x0 0xa5c80000a5ea;
  mkModel 0x2700000027 (2674)%Z 0x0 0xa5ea0000a603;
  mkModel 0x2700000027 (2675)%Z 0x0 0xa6030000a611;
  mkModel 0x2700000027 (2676)%Z 0x0 0xa6110000a620;
  mkModel 0x2700000027 (2677)%Z 0x0 0xa6200000a625;
  mkModel 0x2700000027 (2678)%Z 0x0 0x18000000182;
  mkModel 0x2700000027 (2679)%Z 0x0 0xa6250000a62f;
  mkModel 0x2700000027 (2680)%Z 0x0 0xa62f0000a63a;
  mkModel 0x2700000027 (2681)%Z 0x0 0xa63a0000a645;
  mkModel 0x2700000027 (2682)%Z 0x0 0xa6450000a64e;
  mkModel 0x2700000027 (2683)%Z 0x0 0xa64e0000a660;
  mkModel 0x2700000027 (2684)%Z 0x0 0xa6600000a66a;
  mkModel 0x2a1000002a7 (2685)%Z 0x0 0xa66a0000a677;
  mkModel 0x2a1000002a7 (-1)%Z 0xa6770000a681 0xa6810000a694;
  mkModel 0x2a1000002a7 (2686)%Z 0x0 0xa6940000a69d;
  mkModel 0xc9b00000ca2 (-1)%Z 0xa69d0000a6ab 0xa6ab0000a6b9;
  mkModel 0x2700000027 (2688)%Z 0x0 0xa6be0000a6cf;
  mkModel 0x2700000027 (2689)%Z 0x0 0x18000000182;
  mkModel 0x2700000027 (2691)%Z 0x0 0xa6d60000a6de;
  mkModel 0x2700000027 (2692)%Z 0x0 0xa6de0000a6e2;
  mkModel 0x2700000027 (2693)%Z 0x0 0xa6e20000a6ee;
  mkModel 0x2700000027 (2694)%Z 0x0 0xa6ee0000a6f6;
  mkModel 0x2700000027 (2695)%Z 0x0 0x18000000182;
  mkModel 0x0 (-1)%Z 0x0 0x18000000182;
  mkModel 0x0 (-1)%Z 0x0 0xa7130000a719;
  mkModel 0x2700000027 (-1)%Z 0xa7270000a72f 0xe3400000e3c;
  mkModel 0x2700000027 (-1)%Z 0xa7350000a73e 0x193300001935;
  mkModel 0x0 (-1)%Z 0x0 0xa7430000a74d;
  mkModel 0x2700000027 (-1)%Z 0xa7530000a75b 0xa75b0000a764;
  mkModel 0x2700000027 (2701)%Z 0x0 0x18000000182;
  mkModel 0x2700000027 (-1)%Z 0xa7640000a76d 0x582c0000582e;
  mkModel 0x2700000027 (-1)%Z 0xa76d0000a777 0xa7770000a781;
  mkModel 0x2700000027 (-1)%Z 0xa7810000a785 0xa7810000a785;
  mkModel 0x2700000027 (2702)%Z 0x0 0x18000000182;
  mkModel 0x2a1000002a7 (2703)%Z 0x0 0x18000000182;
  mkModel 0x2700000027 (2705)%Z 0x0 0xa78c0000a795;
  mkModel 0x2700000027 (2706)%Z 0x0 0xa7950000a79b;
  mkModel 0x0 (-1)%Z 0x0 0x18000000182;
  mkModel 0x0 (-1)%Z 0x0 0x18000000182;
  mkModel 0x0 (-1)%Z 0x0 0xa7aa0000a7af;
  mkModel 0x0 (-1)%Z 0x0 0x18000000182;
  mkModel 0x2700000027 (2712)%Z 0x0 0xa7ba0000a7cb;
  mkModel 0x2700000027 (-1)%Z 0xa7cb0000a7dd 0xa7dd0000a7ef;
  mkModel 0x2700000027 (2713)%Z 0x0 0xa7ef0000a801;
  mkModel 0x2700000027 (2714)%Z 0x0 0xa8010000a80d;
  mkModel 0x2700000027 (2715)%Z 0x0 0xa80d0000a821;
  mkModel 0x2700000027 (-1)%Z 0xa8210000a832 0xa8210000a832;
  mkModel 0x2700000027 (-1)%Z 0xa8320000a847 0xa8320000a847;
  mkModel 0x2700000027 (2716)%Z 0x0 0xa8470000a854;
  mkModel 0x2700000027 (2717)%Z 0x0 0xa8540000a866;
  mkModel 0x2700000027 (2718)%Z 0x0 0xa8660000a878;
  mkModel 0x2700000027 (-1)%Z 0xa8780000a87d 0xa8780000a87d;
  mkModel 0x2700000027 (-1)%Z 0xa87d0000a885 0xa8850000a88d;
  mkModel 0x2700000027 (-1)%Z 0xa88d0000a899 0xa88d0000a899;
  mkModel 0x2700000027 (-1)%Z 0xa8990000a8a1 0xa8990000a8a1;
  mkModel 0x2700000027 (-1)%Z 0xa8a10000a8a8 0xa8a10000a8a8;
  mkModel 0x2a1000002a7 (2719)%Z 0x0 0xa8a80000a8ae;
  mkModel 0x0 (-1)%Z 0x0 0xa8b60000a8ba;
  mkModel 0x0 (-1)%Z 0x0 0xa8c00000a8c9;
  mkModel 0x2700000027 (-1)%Z 0xa8cc0000a8d3 0xa8d30000a8d6;
  mkModel 0x2700000027 (-1)%Z 0xa8d60000a8e0 0xa8e00000a8ea;
  mkModel 0x2700000027 (-1)%Z 0xa8ea0000a8f3 0xa8ea0000a8f3;
  mkModel 0x2700000027 (2723)%Z 0x0 0xa8f30000a8fc;
  mkModel 0x2700000027 (-1)%Z 0xa8fc0000a900 0xa8fc0000a900;
  mkModel 0x2700000027 (2724)%Z 0x0 0x18000000182;
  mkModel 0x2a1000002a7 (2725)%Z 0x0 0x18000000182;
  mkModel 0x2a1000002a7 (2727)%Z 0x0 0xa9080000a912;
  mkModel 0x2a1000002a7 (2728)%Z 0x0 0xa9120000a91d;
  mkModel 0x2a1000002a7 (2729)%Z 0x0 0x6b6d00006b72;
  mkModel 0x2a1000002a7 (-1)%Z 0xa91d0000a923 0xa9230000a92f;
  mkModel 0x2a1000002a7 (-1)%Z 0xa92f0000a937 0xa9370000a940;
  mkModel 0x2a1000002a7 (2730)%Z 0x0 0xa9400000a94b;
  mkModel 0x2a1000002a7 (-1)%Z 0xa94b0000a95c 0xa95c0000a96d;
  mkModel 0x2a1000002a7 (2731)%Z 0x0 0xa96d0000a980;
  mkModel 0x2700000027 (2732)%Z 0x0 0xa9800000a994;
  mkModel 0x2700000027 (2733)%Z 0x0 0xa9940000a9a9;
  mkModel 0x2700000027 (2734)%Z 0x0 0xa9a90000a9bb;
  mkModel 0x2700000027 (-1)%Z 0xa9bb0000a9cb 0xa9cb0000a9da;
  mkModel 0x2700000027 (2735)%Z 0x0 0xa9da0000a9e9;
  mkModel 0x2700000027 (2736)%Z 0x0 0xa9e90000a9f6;
  mkModel 0x2700000027 (2737)%Z 0x0 0x18000000182;
  mkModel 0xc9b00000ca2 (-1)%Z 0xa9f60000aa02 0xaa020000aa0e;
  mkModel 0x2a1000002a7 (2738)%Z 0x0 0xaa0e0000aa16;
  mkModel 0x2a1000002a7 (2739)%Z 0x0 0x108d00001093;
  mkModel 0x2700000027 (2740)%Z 0x0 0x18000000182;
  mkModel 0x2a1000002a7 (2741)%Z 0x0 0x108d00001093;
  mkModel 0x2700000027 (2742)%Z 0x0 0x18000000182;
  mkModel 0x2a1000002a7 (2743)%Z 0x0 0x108d00001093;
  mkModel 0x2700000027 (2744)%Z 0x0 0x18000000182;
  mkModel 0x2a1000002a7 (2745)%Z 0x0 0xaa160000aa1e;
  mkModel 0x2700000027 (-1)%Z 0xaa260000aa2d 0xaa2d0000aa34;
  mkModel 0x2700000027 (2748)%Z 0x0 0xaa3b0000aa3e;
  mkModel 0x23f00000249 (-1)%Z 0xaa3e0000aa46 0xaa3e0000aa46;
  mkModel 0x0 (-1)%Z 0x0 0x18000000182;
  mkModel 0x0 (-1)%Z 0x0 0x18000000182;
  mkModel 0x0 (-1)%Z 0x0 0xaa540000aa5e;
  mkModel 0x2700000027 (2753)%Z 0x0 0x18000000182;
  mkModel 0x2700000027 (2754)%Z 0x0 0x18000000182;
  mkModel 0x0 (-1)%Z 0x0 0x18000000182;
  mkModel 0x0 (-1)%Z 0x0 0x18000000182;
  mkModel 0x2700000027 (-1)%Z 0xaa860000aa8f 0xaa8f0000aa95;
  mkModel 0x2700000027 (-1)%Z 0xaa950000aa9f 0xaa9f0000aaa7;
  mkModel 0x2700000027 (-1)%Z 0xaaa70000aaae 0xaaae0000aab3;
  mkModel 0x2700000027 (-1)%Z 0xaab30000aabc 0xaabc0000aac2;
  mkModel 0x0 (-1)%Z 0x0 0x18000000182;
  mkModel 0x2700000027 (2760)%Z 0x0 0xaad20000aadf;
  mkModel 0x2700000027 (2761)%Z 0x0 0x18000000182;
  mkModel 0x2700000027 (2762)%Z 0x0 0x18000000182;
  mkModel 0x2700000027 (2764)%Z 0x0 0xaae60000aaf0;
  mkModel 0x2700000027 (-1)%Z 0xaaf50000ab01 0xab010000ab08;
  mkModel 0x2700000027 (-1)%Z 0xab080000ab11 0x3e1400003e17;
  mkModel 0x2700000027 (2766)%Z 0x0 0x18000000182;
  mkModel 0x0 (-1)%Z 0x0 0xe3400000e3c;
  mkModel 0x0 (-1)%Z 0x0 0x18000000182;
  mkModel 0x0 (-1)%Z 0x0 0x18000000182;
  mkModel 0x0 (-1)%Z 0x0 0x18000000182;
  mkModel 0x0 (-1)%Z 0x0 0x18000000182;
  mkModel 0x2700000027 (-1)%Z 0xab480000ab51 0xab480000ab51;
  mkModel 0x2700000027 (-1)%Z 0xab510000ab55 0xab550000ab5e;
  mkModel 0x2700000027 (-1)%Z 0xab5e0000ab62 0xab620000ab6b;
  mkModel 0x2700000027 (-1)%Z 0xab6b0000ab6f 0xab6f0000ab74;
  mkModel 0x2700000027 (-1)%Z 0xab740000ab78 0xab780000ab7d;
  mkModel 0x2700000027 (-1)%Z 0xab7d0000ab81 0xab810000ab8b;
  mkModel 0x2700000027 (-1)%Z 0xab8b0000ab8f 0xab8f0000ab94;
  mkModel 0x2700000027 (-1)%Z 0xab940000ab98 0xab980000ab9d;
  mkModel 0x2700000027 (-1)%Z 0xab9d0000aba1 0xaba10000aba9;
  mkModel 0x2700000027 (-1)%Z 0xaba90000abad 0xabad0000abb7;
  mkModel 0x2700000027 (-1)%Z 0xabb70000abbb 0xabbb0000abc4;
  mkModel 0x2700000027 (-1)%Z 0xabc40000abc8 0xabc80000abd1
].
Definition d_dr_dm_18 : list modelTuple := [
  mkModel 0x2700000027 (-1)%Z 0xabd10000abd5 0xabd50000abda;
  mkModel 0x2700000027 (-1)%Z 0xabda0000abde 0xabde0000abe7;
  mkModel 0x2700000027 (-1)%Z 0xabe70000abeb 0xabeb0000abf4;
  mkModel 0x2700000027 (2772)%Z 0x0 0xabf40000abfa;
  mkModel 0x2700000027 (2773)%Z 0x0 0xabfa0000abfe;
  mkModel 0x2700000027 (2774)%Z 0x0 0xabfe0000ac03;
  mkModel 0x2700000027 (-1)%Z 0xac030000ac09 0xac090000ac10;
  mkModel 0x2700000027 (-1)%Z 0xac100000ac14 0xac140000ac1b;
  mkModel 0x2700000027 (-1)%Z 0xac1b0000ac23 0xac1b0000ac23;
  mkModel 0x2700000027 (-1)%Z 0xac230000ac27 0xac270000ac34;
  mkModel 0x2700000027 (-1)%Z 0xac340000ac3d 0xac340000ac3d;
  mkModel 0x2700000027 (-1)%Z 0xac3d0000ac41 0xac410000ac48;
  mkModel 0x2700000027 (2775)%Z 0x0 0xac480000ac54;
  mkModel 0x2700000027 (-1)%Z 0xac540000ac65 0xac540000ac65;
  mkModel 0x2700000027 (-1)%Z 0xac650000ac74 0xac650000ac74;
  mkModel 0x2a1000002a7 (-1)%Z 0xac740000ac86 0xac860000ac95;
  mkModel 0x2700000027 (2776)%Z 0x0 0x59d0000059d9;
  mkModel 0x2700000027 (2777)%Z 0x0 0xac950000ac9c;
  mkModel 0x2700000027 (-1)%Z 0xac9c0000acad 0xacad0000acaf;
  mkModel 0x2a1000002a7 (2778)%Z 0x0 0x7e0900007e11;
  mkModel 0x0 (-1)%Z 0x0 0x18000000182;
  mkModel 0x0 (-1)%Z 0x0 0x18000000182;
  mkModel 0x2700000027 (2782)%Z 0x0 0x18000000182;
  mkModel 0x2700000027 (2783)%Z 0x0 0xaccd0000acd1;
  mkModel 0x2700000027 (-1)%Z 0x655e00006560 0x655e00006560;
  mkModel 0x2700000027 (2785)%Z 0x0 0xacd70000acdb;
  mkModel 0x2700000027 (2786)%Z 0x0 0xacdb0000ace0;
  mkModel 0x0 (-1)%Z 0x0 0x18000000182;
  mkModel 0x0 (-1)%Z 0x0 0x18000000182;
  mkModel 0x0 (-1)%Z 0x0 0x18000000182;
  mkModel 0x23f00000249 (2791)%Z 0x0 0xacf60000ad00;
  mkModel 0x23f00000249 (-1)%Z 0xad000000ad05 0xad000000ad05;
  mkModel 0x23f00000249 (-1)%Z 0xad050000ad11 0xad110000ad18;
  mkModel 0x23f00000249 (2792)%Z 0x0 0x18000000182;
  mkModel 0x2700000027 (-1)%Z 0xad180000ad23 0xad230000ad2e;
  mkModel 0x2700000027 (-1)%Z 0xad2e0000ad39 0xad390000ad40;
  mkModel 0x2700000027 (-1)%Z 0xad400000ad4a 0xad4a0000ad55;
  mkModel 0x2700000027 (-1)%Z 0xad550000ad5e 0xad5e0000ad68;
  mkModel 0x2700000027 (-1)%Z 0xad680000ad75 0xad750000ad7e;
  mkModel 0x2700000027 (-1)%Z 0xad7e0000ad88 0xad880000ad8e;
  mkModel 0x2700000027 (-1)%Z 0xad8e0000ad93 0xad930000ad9a;
  mkModel 0x2700000027 (2793)%Z 0x0 0xad9a0000ada6;
  mkModel 0x2700000027 (-1)%Z 0xada60000adac 0xadac0000adb3;
  mkModel 0x2700000027 (-1)%Z 0xadb30000adbb 0xadbb0000adc2;
  mkModel 0x2700000027 (-1)%Z 0xadc20000adcc 0xadcc0000add6;
  mkModel 0x2700000027 (2794)%Z 0x0 0xadd60000addf;
  mkModel 0x2700000027 (-1)%Z 0xaddf0000ade6 0xade60000adf7;
  mkModel 0x2700000027 (-1)%Z 0xadf70000adfe 0xadfe0000ae08;
  mkModel 0x2700000027 (-1)%Z 0xae080000ae0e 0xae0e0000ae15;
  mkModel 0x2700000027 (-1)%Z 0xae150000ae1d 0xae1d0000ae27;
  mkModel 0x2700000027 (2795)%Z 0x0 0x18000000182;
  mkModel 0x2700000027 (2796)%Z 0x0 0x18000000182;
  mkModel 0x0 (-1)%Z 0x0 0x18000000182;
  mkModel 0x2700000027 (2799)%Z 0x0 0xae310000ae34;
  mkModel 0x2700000027 (-1)%Z 0xae3c0000ae43 0xae430000ae51;
  mkModel 0x2700000027 (2801)%Z 0x0 0x18000000182;
  mkModel 0x2700000027 (2802)%Z 0x0 0x18000000182;
  mkModel 0x2700000027 (2803)%Z 0x0 0x18000000182;
  mkModel 0x2700000027 (-1)%Z 0xae510000ae5a 0xae5a0000ae6a;
  mkModel 0x2a1000002a7 (2805)%Z 0x0 0xae710000ae7d;
  mkModel 0x2700000027 (2806)%Z 0x0 0x559100005599;
  mkModel 0x2700000027 (2807)%Z 0x0 0xae7d0000ae81;
  mkModel 0x2700000027 (2808)%Z 0x0 0x18000000182;
  mkModel 0x2700000027 (-1)%Z 0xae810000ae87 0xae870000ae8d;
  mkModel 0x2700000027 (-1)%Z 0xae8d0000ae93 0xae930000ae95;
  mkModel 0x2700000027 (-1)%Z 0xae950000aea1 0xaea10000aea4;
  mkModel 0x2700000027 (-1)%Z 0xaea40000aeb0 0xaeb00000aeb7;
  mkModel 0x2700000027 (-1)%Z 0xaeb70000aec3 0xaec30000aec6;
  mkModel 0x2700000027 (-1)%Z 0xaec60000aed2 0xaed20000aed5;
  mkModel 0x2700000027 (-1)%Z 0xaed50000aee1 0xaee10000aee4;
  mkModel 0x2700000027 (-1)%Z 0xaee40000aef0 0xaef00000aef7;
  mkModel 0x2700000027 (-1)%Z 0xaef70000af03 0xaf030000af06;
  mkModel 0x2700000027 (-1)%Z 0xaf060000af12 0xaf120000af1a;
  mkModel 0x2700000027 (-1)%Z 0xaf1a0000af20 0xaf200000af27;
  mkModel 0x2700000027 (2809)%Z 0x0 0x18000000182;
  mkModel 0x2700000027 (2810)%Z 0x0 0x18000000182;
  mkModel 0x2700000027 (2812)%Z 0x0 0xaf2b0000af2e;
  mkModel 0x2700000027 (2813)%Z 0x0 0x8a5c00008a5f;
  mkModel 0x2700000027 (2814)%Z 0x0 0xaf2e0000af34;
  mkModel 0x2700000027 (-1)%Z 0xaf340000af3b 0xaf3b0000af3d;
  mkModel 0x2a1000002a7 (2815)%Z 0x0 0x4c4300004c49;
  mkModel 0x2700000027 (2817)%Z 0x0 0x18000000182;
  mkModel 0x2a1000002a7 (2818)%Z 0x0 0x18000000182;
  mkModel 0x2700000027 (2819)%Z 0x0 0xaf430000af4e;
  mkModel 0x2700000027 (2820)%Z 0x0 0x18000000182;
  mkModel 0x2a1000002a7 (-1)%Z 0xaf540000af5c 0xaf5c0000af67;
  mkModel 0xdfd00000e04 (2822)%Z 0x0 0xaf670000af6c;
  mkModel 0x2700000027 (-1)%Z 0xaf6c0000af73 0xaf730000af76;
  mkModel 0x2700000027 (-1)%Z 0xaf760000af7d 0xaf7d0000af80;
  mkModel 0x2700000027 (-1)%Z 0xaf800000af87 0xaf870000af8e;
  mkModel 0x2700000027 (2823)%Z 0x0 0xaf8e0000af95;
  mkModel 0x2700000027 (-1)%Z 0xaf950000af9e 0xaf9e0000afa4;
  mkModel 0x2700000027 (-1)%Z 0xafa40000afad 0xafad0000afaf;
  mkModel 0x2700000027 (-1)%Z 0xafaf0000afb5 0xa22e0000a230;
  mkModel 0x2700000027 (-1)%Z 0xafb50000afbc 0xafbc0000afc2;
  mkModel 0x2700000027 (-1)%Z 0xafc20000afca 0xafca0000afcd;
  mkModel 0x2700000027 (2824)%Z 0x0 0xafcd0000afd1;
  mkModel 0x2700000027 (2825)%Z 0x0 0x18000000182;
  mkModel 0x2700000027 (2826)%Z 0x0 0xafd10000afd9;
  mkModel 0x2700000027 (-1)%Z 0xafd90000afe0 0xafd90000afe0;
  mkModel 0x2700000027 (2827)%Z 0x0 0xafe00000afe8;
  mkModel 0x2700000027 (2828)%Z 0x0 0xafe80000afeb;
  mkModel 0x2700000027 (-1)%Z 0xafeb0000aff2 0xafeb0000aff2;
  mkModel 0x2700000027 (-1)%Z 0xaff20000affe 0xaffe0000b00a;
  mkModel 0x2700000027 (-1)%Z 0xb00a0000b010 0xb00a0000b010;
  mkModel 0x2700000027 (-1)%Z 0xb0100000b016 0xb0100000b016;
  mkModel 0x2700000027 (2829)%Z 0x0 0x4fe400004feb;
  mkModel 0x2700000027 (2830)%Z 0x0 0xb0160000b01f;
  mkModel 0x2700000027 (-1)%Z 0xb01f0000b026 0xb0260000b02d;
  mkModel 0x2700000027 (2831)%Z 0x0 0xb02d0000b034;
  mkModel 0x2700000027 (2832)%Z 0x0 0xb0340000b03b;
  mkModel 0x2700000027 (2833)%Z 0x0 0xb03b0000b041;
  mkModel 0x2700000027 (2834)%Z 0x0 0x18000000182;
  mkModel 0x2700000027 (2835)%Z 0x0 0xb0410000b049;
  mkModel 0x2700000027 (2836)%Z 0x0 0x18000000182;
  mkModel 0x2700000027 (2837)%Z 0x0 0x500000005006;
  mkModel 0x2700000027 (2838)%Z 0x0 0x18000000182;
  mkModel 0x39a000003a7 (2839)%Z 0x0 0x18000000182;
  mkModel 0x0 (-1)%Z 0x0 0xb0520000b059;
  mkModel 0x2700000027 (2842)%Z 0x0 0xb05f0000b061;
  mkModel 0x2700000027 (2843)%Z 0x0 0xb0610000b068;
  mkModel 0x2700000027 (2844)%Z 0x0 0x18000000182;
  mkModel 0x0 (-1)%Z 0x0 0x18000000182;
  mkModel 0x0 (-1)%Z 0x0 0xb0780000b07c;
  mkModel 0x2700000027 (-1)%Z 0xb0840000b08a 0xb08a0000b091;
  mkModel 0x2a1000002a7 (-1)%Z 0xb0910000b099 0xb0990000b0a2;
  mkModel 0x2700000027 (-1)%Z 0xb0ba0000b0c6 0xb0ba0000b0c6;
  mkModel 0x2700000027 (-1)%Z 0xb0c60000b0d2 0xb0d20000b0de;
  mkModel 0x2700000027 (-1)%Z 0xb0de0000b0e8 0xb0e80000b0f2;
  mkModel 0x2700000027 (-1)%Z 0xb0f20000b0f9 0xb0f90000b100;
  mkModel 0x2700000027 (2849)%Z 0x0 0xb1000000b104;
  mkModel 0x0 (-1)%Z 0x0 0xb1170000b119;
  mkModel 0x2700000027 (-1)%Z 0xb1230000b12c 0xb12c0000b135;
  mkModel 0x2700000027 (-1)%Z 0xb1350000b13c 0xb13c0000b144;
  mkModel 0x2700000027 (-1)%Z 0xb1440000b14b 0xb02d0000b034;
  mkModel 0x2a1000002a7 (-1)%Z 0xb14b0000b154 0xb1540000b15f;
  mkModel 0x23b0000023d (-1)%Z 0xb1690000b174 0xb1690000b174;
  mkModel 0x23b0000023d (2852)%Z 0x0 0xb1740000b178;
  mkModel 0x23b0000023d (2853)%Z 0x0 0xb1780000b17f;
  mkModel 0x2700000027 (-1)%Z 0xb17f0000b187 0xb1870000b18f;
  mkModel 0x2700000027 (-1)%Z 0xb18f0000b198 0xb1980000b1a1;
  mkModel 0x0 (-1)%Z 0x0 0x18000000182;
  mkModel 0x2700000027 (2856)%Z 0x0 0x18000000182;
  mkModel 0x2700000027 (2857)%Z 0x0 0x18000000182;
  mkModel 0x2700000027 (2859)%Z 0x0 0xb1b10000b1b4;
  mkModel 0x2700000027 (2860)%Z 0x0 0x712500007127;
  mkModel 0x2700000027 (2861)%Z 0x0 0xb1b40000b1b7;
  mkModel 0x2700000027 (2862)%Z 0x0 0xb1b70000b1ba;
  mkModel 0x2700000027 (2863)%Z 0x0 0xb1ba0000b1bc;
  mkModel 0x2700000027 (2864)%Z 0x0 0xb1bc0000b1be;
  mkModel 0x2700000027 (2865)%Z 0x0 0xb1be0000b1c0;
  mkModel 0x2700000027 (2866)%Z 0x0 0xb1c00000b1c7;
  mkModel 0x2700000027 (2867)%Z 0x0 0xb1c70000b1c9;
  mkModel 0x2700000027 (2868)%Z 0x0 0x18000000182;
  mkModel 0xdfd00000e04 (2869)%Z 0x0 0x18000000182;
  mkModel 0x2b1e00002b26 (-1)%Z 0xb1cf0000b1d6 0xb1cf0000b1d6;
  mkModel 0x2700000027 (-1)%Z 0xb1d60000b1e2 0xb1d60000b1e2;
  mkModel 0x2700000027 (-1)%Z 0xb1e20000b1f4 0xb1f40000b1fb;
  mkModel 0x2700000027 (2871)%Z 0x0 0x18000000182;
  mkModel 0xdfd00000e04 (2872)%Z 0x0 0x18000000182;
  mkModel 0x2a1000002a7 (2873)%Z 0x0 0x18000000182;
  mkModel 0x2a1000002a7 (-1)%Z 0xb1fb0000b208 0xb2080000b210;
  mkModel 0x2a1000002a7 (-1)%Z 0xb2100000b21b 0xb2100000b21b;
  mkModel 0x23b0000023d (2874)%Z 0x0 0xb21b0000b223;
  mkModel 0x296a00002977 (2875)%Z 0x0 0xb2230000b22d;
  mkModel 0x23b0000023d (2876)%Z 0x0 0xb2230000b22d;
  mkModel 0x23b0000023d (-1)%Z 0xb22d0000b23a 0xb23a0000b24e;
  mkModel 0x23b0000023d (-1)%Z 0xb2230000b22d 0xb24e0000b25f;
  mkModel 0x23b0000023d (-1)%Z 0xb25f0000b267 0xb25f0000b267;
  mkModel 0x2700000027 (2877)%Z 0x0 0xb2670000b26c;
  mkModel 0x2700000027 (-1)%Z 0xb26c0000b274 0xb26c0000b274;
  mkModel 0x2700000027 (2878)%Z 0x0 0xb2740000b27b;
  mkModel 0x2700000027 (2879)%Z 0x0 0xb27b0000b283;
  mkModel 0x2700000027 (2880)%Z 0x0 0xb2830000b291;
  mkModel 0x2700000027 (2881)%Z 0x0 0xb2910000b29b;
  mkModel 0x2700000027 (2882)%Z 0x0 0xb29b0000b2a5;
  mkModel 0x2700000027 (2883)%Z 0x0 0xb2a50000b2b0;
  mkModel 0x2700000027 (2884)%Z 0x0 0xb2b00000b2ba;
  mkModel 0x2700000027 (2885)%Z 0x0 0xb2ba0000b2c1;
  mkModel 0x2700000027 (-1)%Z 0xb2c10000b2c8 0xb2c80000b2d1;
  mkModel 0x2700000027 (2886)%Z 0x0 0xb2d10000b2d9;
  mkModel 0x2700000027 (2887)%Z 0x0 0xb2d90000b2e6;
  mkModel 0x2700000027 (2888)%Z 0x0 0xb2e60000b2ef;
  mkModel 0x2700000027 (2889)%Z 0x0 0xb2ef0000b2fa;
  mkModel 0x2700000027 (-1)%Z 0xb2fa0000b2ff 0xb2ff0000b306;
  mkModel 0x2700000027 (2890)%Z 0x0 0xb3060000b311;
  mkModel 0x2700000027 (2891)%Z 0x0 0xb3110000b318;
  mkModel 0x2700000027 (2892)%Z 0x0 0xb3180000b31f;
  mkModel 0x2700000027 (2893)%Z 0x0 0xb31f0000b32a;
  mkModel 0x2700000027 (2894)%Z 0x0 0xb32a0000b331;
  mkModel 0x2700000027 (2895)%Z 0x0 0xb3310000b339;
  mkModel 0x2700000027 (-1)%Z 0xb3390000b33e 0xb32a0000b331;
  mkModel 0x2700000027 (2896)%Z 0x0 0xb33e0000b346;
  mkModel 0x2700000027 (-1)%Z 0xb3460000b34b 0xb34b0000b356;
  mkModel 0x2700000027 (-1)%Z 0xb3560000b35b 0xb35b0000b362;
  mkModel 0x2700000027 (2897)%Z 0x0 0xb29b0000b2a5;
  mkModel 0x2700000027 (-1)%Z 0xb3620000b371 0xb3620000b371;
  mkModel 0x2700000027 (2898)%Z 0x0 0xb3710000b378;
  mkModel 0x2700000027 (2899)%Z 0x0 0xb3780000b383;
  mkModel 0xdfd00000e04 (2900)%Z 0x0 0xb3830000b393
].
Definition d_dr_dm_19 : list modelTuple := [
  mkModel 0xdfd00000e04 (-1)%Z 0xb3930000b3a4 0xb3930000b3a4;
  mkModel 0x2700000027 (2901)%Z 0x0 0xb3a40000b3b0;
  mkModel 0x2700000027 (2902)%Z 0x0 0xb3b00000b3b8;
  mkModel 0xdfd00000e04 (-1)%Z 0xb3b80000b3bd 0xb3b80000b3bd;
  mkModel 0xdfd00000e04 (2903)%Z 0x0 0xb3bd0000b3c7;
  mkModel 0x2a1000002a7 (-1)%Z 0xb3c70000b3ce 0xb3c70000b3ce;
  mkModel 0x2a1000002a7 (-1)%Z 0xb3ce0000b3dc 0xb3ce0000b3dc;
  mkModel 0x2a1000002a7 (-1)%Z 0xb3dc0000b3e8 0xb3dc0000b3e8;
  mkModel 0xc9b00000ca2 (-1)%Z 0xb3e80000b3f4 0xb3e80000b3f4;
  mkModel 0x2a1000002a7 (-1)%Z 0xb3f40000b3fd 0xb3f40000b3fd;
  mkModel 0x23b0000023d (-1)%Z 0xb3fd0000b402 0xb3fd0000b402;
  mkModel 0x23b0000023d (-1)%Z 0xb4020000b40e 0xb4020000b40e;
  mkModel 0x2700000027 (2905)%Z 0x0 0xb4160000b41d;
  mkModel 0x2700000027 (2906)%Z 0x0 0xb41d0000b41f;
  mkModel 0x2700000027 (2907)%Z 0x0 0xb41f0000b422;
  mkModel 0x2700000027 (2908)%Z 0x0 0xb4220000b42a;
  mkModel 0x2700000027 (2909)%Z 0x0 0xb42a0000b42c;
  mkModel 0x2700000027 (2910)%Z 0x0 0xb42c0000b433;
  mkModel 0x2700000027 (2911)%Z 0x0 0xb4330000b43a;
  mkModel 0x2700000027 (2912)%Z 0x0 0xd5700000d5a;
  mkModel 0x2700000027 (2914)%Z 0x0 0x18000000182;
  mkModel 0x2700000027 (-1)%Z 0x937100009377 0x937100009377;
  mkModel 0x2700000027 (-1)%Z 0xb4460000b44f 0xb44f0000b452;
  mkModel 0x2700000027 (-1)%Z 0xb4520000b45a 0xb45a0000b45e;
  mkModel 0x2700000027 (-1)%Z 0xb45e0000b466 0xb4660000b469;
  mkModel 0x2700000027 (2916)%Z 0x0 0x18000000182;
  mkModel 0x23b0000023d (2917)%Z 0x0 0x18000000182;
  mkModel 0x2700000027 (2918)%Z 0x0 0x18000000182;
  mkModel 0x2700000027 (2919)%Z 0x0 0x18000000182;
  mkModel 0x0 (-1)%Z 0x0 0xb4860000b48d;
  mkModel 0x2700000027 (2923)%Z 0x0 0xb4970000b49c;
  mkModel 0x2700000027 (2924)%Z 0x0 0x18000000182;
  mkModel 0x2700000027 (-1)%Z 0xb4a00000b4a6 0xb4a60000b4ae;
  mkModel 0x2700000027 (-1)%Z 0xb4ae0000b4b4 0xb4b40000b4bc;
  mkModel 0x2700000027 (2926)%Z 0x0 0x18000000182;
  mkModel 0x2700000027 (2928)%Z 0x0 0xb4c60000b4d0;
  mkModel 0x2700000027 (2929)%Z 0x0 0xb4d00000b4d8;
  mkModel 0x2700000027 (-1)%Z 0xb4e40000b4ec 0xb4ec0000b4f1;
  mkModel 0x2700000027 (2932)%Z 0x0 0xb4f90000b505;
  mkModel 0x2700000027 (-1)%Z 0xb50b0000b513 0xb5130000b51b;
  mkModel 0x2700000027 (2934)%Z 0x0 0xb51b0000b520;
  mkModel 0x2700000027 (2936)%Z 0x0 0x18000000182;
  mkModel 0x2700000027 (2937)%Z 0x0 0x18000000182;
  mkModel 0x0 (-1)%Z 0x0 0x18000000182;
  mkModel 0x2a1000002a7 (2940)%Z 0x0 0x18000000182;
  mkModel 0x2700000027 (2941)%Z 0x0 0xe3400000e3c;
  mkModel 0x2700000027 (2942)%Z 0x0 0x18000000182;
  mkModel 0x2700000027 (2943)%Z 0x0 0xaa3b0000aa3e;
  mkModel 0x2700000027 (-1)%Z 0xb5370000b53f 0xb53f0000b551;
  mkModel 0x2700000027 (-1)%Z 0xb5510000b55b 0xb55b0000b569;
  mkModel 0x2700000027 (-1)%Z 0xb5690000b571 0xb5710000b583;
  mkModel 0x0 (-1)%Z 0x0 0x18000000182;
  mkModel 0x2700000027 (-1)%Z 0xb5900000b5a1 0xb5a10000b5b2;
  mkModel 0x2700000027 (2946)%Z 0x0 0xb5b20000b5bd;
  mkModel 0x2700000027 (2947)%Z 0x0 0xb5bd0000b5c7;
  mkModel 0x2700000027 (2948)%Z 0x0 0xb5c70000b5cf;
  mkModel 0x2700000027 (2949)%Z 0x0 0xb5cf0000b5d7;
  mkModel 0x2700000027 (2950)%Z 0x0 0x18000000182;
  mkModel 0x0 (-1)%Z 0x0 0x18000000182;
  mkModel 0x2700000027 (2953)%Z 0x0 0xb5e20000b5ea;
  mkModel 0x2700000027 (2954)%Z 0x0 0xb5ea0000b5f0;
  mkModel 0x2700000027 (2955)%Z 0x0 0xb5f00000b5f7;
  mkModel 0x2700000027 (2956)%Z 0x0 0x42200000425;
  mkModel 0x2700000027 (2957)%Z 0x0 0xb5f70000b5fe;
  mkModel 0x2700000027 (2958)%Z 0x0 0x3e9000003ed;
  mkModel 0x2700000027 (2959)%Z 0x0 0xb5fe0000b602;
  mkModel 0x0 (-1)%Z 0x0 0x18000000182;
  mkModel 0x0 (-1)%Z 0x0 0x18000000182;
  mkModel 0x2700000027 (-1)%Z 0xb6120000b61b 0xb61b0000b624;
  mkModel 0x2700000027 (-1)%Z 0xb6270000b62e 0xb62e0000b635;
  mkModel 0x0 (-1)%Z 0x0 0xb6490000b652;
  mkModel 0x2700000027 (2964)%Z 0x0 0xb6560000b65c;
  mkModel 0x2a1000002a7 (2966)%Z 0x0 0xb6610000b667;
  mkModel 0x2700000027 (-1)%Z 0xb6670000b675 0xb6750000b683;
  mkModel 0x2700000027 (2967)%Z 0x0 0xb6830000b68e;
  mkModel 0x2700000027 (2968)%Z 0x0 0x18000000182;
  mkModel 0x2700000027 (2969)%Z 0x0 0xb6950000b6a3;
  mkModel 0x2700000027 (-1)%Z 0xb6ab0000b6b5 0xb6b50000b6bb;
  mkModel 0x2700000027 (-1)%Z 0xb6bb0000b6c4 0xb6bb0000b6c4;
  mkModel 0x2700000027 (-1)%Z 0xb6c40000b6c9 0xb6c40000b6c9;
  mkModel 0x2700000027 (-1)%Z 0xb6c90000b6cf 0xb6c90000b6cf;
  mkModel 0x2700000027 (-1)%Z 0xb6cf0000b6d6 0xb6cf0000b6d6;
  mkModel 0x2700000027 (-1)%Z 0xb6d60000b6dd 0xb6d60000b6dd;
  mkModel 0x2700000027 (2972)%Z 0x0 0xb6dd0000b6e1;
  mkModel 0x2700000027 (-1)%Z 0xb6e10000b6e6 0xb6e60000b6eb;
  mkModel 0x2700000027 (-1)%Z 0xb6eb0000b6ef 0xb6eb0000b6ef;
  mkModel 0x2700000027 (-1)%Z 0xb6ef0000b6f6 0xb6f60000b6f9;
  mkModel 0x0 (-1)%Z 0x0 0xb7020000b70c;
  mkModel 0x2700000027 (-1)%Z 0xb7110000b719 0xb7190000b721;
  mkModel 0x0 (-1)%Z 0x0 0x18000000182;
  mkModel 0x2700000027 (2976)%Z 0x0 0xb7310000b740;
  mkModel 0xdfd00000e04 (-1)%Z 0xb7420000b756 0xb7560000b766;
  mkModel 0x2a1000002a7 (-1)%Z 0xb7660000b770 0xb7700000b777;
  mkModel 0x2a1000002a7 (2978)%Z 0x0 0xb7770000b77f;
  mkModel 0x2a1000002a7 (-1)%Z 0xb77f0000b78b 0xb77f0000b78b;
  mkModel 0x2a1000002a7 (-1)%Z 0xb78b0000b793 0xb78b0000b793;
  mkModel 0x2a1000002a7 (-1)%Z 0xb7930000b79e 0xb7930000b79e;
  mkModel 0x2a1000002a7 (-1)%Z 0xb79e0000b7ab 0xb7ab0000b7ba;
  mkModel 0xc9b00000ca2 (-1)%Z 0xb7ba0000b7d2 0xb7ba0000b7d2;
  mkModel 0x2a1000002a7 (2979)%Z 0x0 0xb7d20000b7db;
  mkModel 0x2a1000002a7 (-1)%Z 0xb7db0000b7e9 0xb7e90000b7f4;
  mkModel 0x2a1000002a7 (2980)%Z 0x0 0xb7770000b77f;
  mkModel 0x2a1000002a7 (2981)%Z 0x0 0xb7770000b77f;
  mkModel 0x2a1000002a7 (2982)%Z 0x0 0xb7f40000b7fc;
  mkModel 0x2700000027 (2983)%Z 0x0 0x18000000182;
  mkModel 0x2700000027 (2984)%Z 0x0 0xb7fc0000b803;
  mkModel 0x2700000027 (2985)%Z 0x0 0xb8030000b807;
  mkModel 0xc9b00000ca2 (2986)%Z 0x0 0xb8070000b811;
  mkModel 0xc9b00000ca2 (-1)%Z 0xb8110000b823 0xb8110000b823;
  mkModel 0xc9b00000ca2 (2987)%Z 0x0 0x7dec00007df9;
  mkModel 0xc9b00000ca2 (2988)%Z 0x0 0xb8230000b82f;
  mkModel 0xc9b00000ca2 (-1)%Z 0xb82f0000b845 0xb82f0000b845;
  mkModel 0x2700000027 (2990)%Z 0x0 0xb8480000b84e;
  mkModel 0x2700000027 (2991)%Z 0x0 0xb84e0000b855;
  mkModel 0x2700000027 (2992)%Z 0x0 0xb8550000b85d;
  mkModel 0x2700000027 (2993)%Z 0x0 0xb85d0000b865;
  mkModel 0x2700000027 (2994)%Z 0x0 0xb8650000b86d;
  mkModel 0x2700000027 (2995)%Z 0x0 0xb86d0000b875;
  mkModel 0x2700000027 (2996)%Z 0x0 0xb8750000b87d;
  mkModel 0x2700000027 (2997)%Z 0x0 0xb87d0000b883;
  mkModel 0x2700000027 (2998)%Z 0x0 0xb8830000b889;
  mkModel 0x2700000027 (2999)%Z 0x0 0xb8890000b88f;
  mkModel 0x2700000027 (3000)%Z 0x0 0xb88f0000b8a2;
  mkModel 0x2700000027 (3001)%Z 0x0 0xb8a20000b8a5;
  mkModel 0x2700000027 (3002)%Z 0x0 0xb8a50000b8a8;
  mkModel 0x2700000027 (3003)%Z 0x0 0xb8a80000b8ad;
  mkModel 0x2700000027 (3004)%Z 0x0 0xb8ad0000b8b5;
  mkModel 0x2700000027 (3005)%Z 0x0 0xb8b50000b8bf;
  mkModel 0x2700000027 (3006)%Z 0x0 0xb8bf0000b8c5;
  mkModel 0x2700000027 (3007)%Z 0x0 0xb8c50000b8cc;
  mkModel 0x2700000027 (3008)%Z 0x0 0xb8cc0000b8cd;
  mkModel 0x2700000027 (3009)%Z 0x0 0xb8cd0000b8d2;
  mkModel 0x2700000027 (3010)%Z 0x0 0xb8d20000b8d9;
  mkModel 0x2700000027 (3011)%Z 0x0 0xb8d90000b8e4;
  mkModel 0x2700000027 (3012)%Z 0x0 0xb8e40000b8ef;
  mkModel 0x2700000027 (-1)%Z 0xb8ef0000b90a 0xb90a0000b925;
  mkModel 0x2700000027 (3013)%Z 0x0 0xb9250000b930;
  mkModel 0x2700000027 (3014)%Z 0x0 0xb9300000b936;
  mkModel 0x2700000027 (3015)%Z 0x0 0xb9360000b945;
  mkModel 0x2700000027 (3016)%Z 0x0 0xb9450000b957;
  mkModel 0x2700000027 (3017)%Z 0x0 0xb9570000b95d;
  mkModel 0x2700000027 (3018)%Z 0x0 0xb95d0000b963;
  mkModel 0x2700000027 (3019)%Z 0x0 0xb9630000b96d;
  mkModel 0x2700000027 (3020)%Z 0x0 0xb96d0000b973;
  mkModel 0x2700000027 (3021)%Z 0x0 0xb9730000b979;
  mkModel 0x2700000027 (3022)%Z 0x0 0xb9790000b984;
  mkModel 0x2700000027 (3023)%Z 0x0 0xb9840000b98a;
  mkModel 0x2700000027 (3024)%Z 0x0 0xb98a0000b993;
  mkModel 0x2700000027 (3025)%Z 0x0 0xb9930000b999;
  mkModel 0x2700000027 (3026)%Z 0x0 0xb9990000b99f;
  mkModel 0x2700000027 (-1)%Z 0xb99f0000b9a6 0xb9a60000b9b6;
  mkModel 0x2700000027 (-1)%Z 0xb9b60000b9c0 0xb9c00000b9c9;
  mkModel 0x2700000027 (-1)%Z 0xb9c90000b9d1 0xb9d10000b9dc;
  mkModel 0x2700000027 (-1)%Z 0xb9dc0000b9e6 0xb9e60000b9f8;
  mkModel 0x2700000027 (-1)%Z 0xb9f80000ba00 0x8fbd00008fc6;
  mkModel 0x2700000027 (-1)%Z 0xba000000ba08 0xba080000ba0b;
  mkModel 0x2700000027 (-1)%Z 0xba0b0000ba10 0x8f8000008f84;
  mkModel 0x2700000027 (3027)%Z 0x0 0x3f8100003f83;
  mkModel 0x2700000027 (3028)%Z 0x0 0xba100000ba19;
  mkModel 0x2700000027 (3029)%Z 0x0 0xba190000ba24;
  mkModel 0x2700000027 (3030)%Z 0x0 0xba240000ba2e;
  mkModel 0x2700000027 (3031)%Z 0x0 0xba2e0000ba38;
  mkModel 0x2700000027 (3032)%Z 0x0 0xba380000ba42;
  mkModel 0x2700000027 (3033)%Z 0x0 0xba420000ba4c;
  mkModel 0x2700000027 (3034)%Z 0x0 0xba4c0000ba57;
  mkModel 0x2700000027 (3035)%Z 0x0 0xba570000ba61;
  mkModel 0x2700000027 (3036)%Z 0x0 0xba610000ba6b;
  mkModel 0x2700000027 (3037)%Z 0x0 0xba6b0000ba75;
  mkModel 0x2700000027 (3038)%Z 0x0 0xba750000ba7f;
  mkModel 0x2700000027 (3039)%Z 0x0 0xba7f0000ba89;
  mkModel 0x2700000027 (3040)%Z 0x0 0xba890000ba93;
  mkModel 0x2700000027 (3041)%Z 0x0 0xba930000ba9d;
  mkModel 0x2700000027 (3042)%Z 0x0 0xba9d0000bab1;
  mkModel 0x2700000027 (3043)%Z 0x0 0xbab10000bab9;
  mkModel 0x2700000027 (3044)%Z 0x0 0xbab90000babd;
  mkModel 0x2700000027 (3045)%Z 0x0 0xbabd0000bace;
  mkModel 0x2700000027 (3046)%Z 0x0 0xbace0000badb;
  mkModel 0x2700000027 (3047)%Z 0x0 0xbadb0000bae1;
  mkModel 0x2700000027 (3048)%Z 0x0 0xbae10000baf1;
  mkModel 0x2700000027 (3049)%Z 0x0 0xbaf10000bafe;
  mkModel 0x2700000027 (3050)%Z 0x0 0xbafe0000bb12;
  mkModel 0x2700000027 (-1)%Z 0xbb120000bb1a 0xbb1a0000bb1d;
  mkModel 0x2700000027 (3051)%Z 0x0 0xbb1d0000bb29;
  mkModel 0x2a1000002a7 (3052)%Z 0x0 0xbb290000bb2e;
  mkModel 0x2a1000002a7 (3053)%Z 0x0 0xbb2e0000bb33;
  mkModel 0x2a1000002a7 (3054)%Z 0x0 0x1940000019b;
  mkModel 0x2a1000002a7 (3055)%Z 0x0 0x18000000182;
  mkModel 0x2a1000002a7 (3056)%Z 0x0 0xbb330000bb3b;
  mkModel 0xdfd00000e04 (3057)%Z 0x0 0xbb3b0000bb42;
  mkModel 0x2700000027 (3058)%Z 0x0 0x18000000182;
  mkModel 0x2a1000002a7 (3059)%Z 0x0 0xbb420000bb4d;
  mkModel 0x2700000027 (3060)%Z 0x0 0xbb420000bb4d;
  mkModel 0x2700000027 (3061)%Z 0x0 0xbb4d0000bb5d;
  mkModel 0x2700000027 (3062)%Z 0x0 0xbb5d0000bb6d;
  mkModel 0x2700000027 (3063)%Z 0x0 0xbb6d0000bb7d;
  mkModel 0x2700000027 (3064)%Z 0x0 0x18000000182;
  mkModel 0x2700000027 (3065)%Z 0x0 0x18000000182;
  mkModel 0x2700000027 (3066)%Z 0x0 0x18000000182;
  mkModel 0x2700000027 (3067)%Z 0x0 0x18000000182;
  mkModel 0x2700000027 (3068)%Z 0x0 0x18000000182
].
Definition d_dr_dm_20 : list modelTuple := [
  mkModel 0x2700000027 (3069)%Z 0x0 0x6b6d00006b72;
  mkModel 0x2700000027 (3070)%Z 0x0 0x18000000182;
  mkModel 0x2700000027 (3071)%Z 0x0 0x18000000182;
  mkModel 0x2700000027 (3072)%Z 0x0 0x18000000182;
  mkModel 0x2700000027 (3073)%Z 0x0 0x3f8100003f83;
  mkModel 0x2700000027 (3075)%Z 0x0 0xbb830000bb87;
  mkModel 0x2700000027 (3076)%Z 0x0 0x18000000182;
  mkModel 0x2700000027 (-1)%Z 0xbb8c0000bb97 0xbb970000bba8;
  mkModel 0x2700000027 (-1)%Z 0xbba80000bbaf 0xbbaf0000bbbc;
  mkModel 0x2700000027 (-1)%Z 0xbbbc0000bbc6 0xbbc60000bbc8;
  mkModel 0x2700000027 (-1)%Z 0xbbc80000bbcf 0xbbc80000bbcf;
  mkModel 0x2700000027 (3078)%Z 0x0 0xbbcf0000bbdb;
  mkModel 0x2700000027 (-1)%Z 0xbbdb0000bbe5 0x6f7000006f72;
  mkModel 0x2700000027 (-1)%Z 0xbbe50000bbef 0x6fa100006fa3;
  mkModel 0x2700000027 (-1)%Z 0xbbef0000bbf9 0xbbf90000bbfc;
  mkModel 0x2700000027 (-1)%Z 0xbbfc0000bc06 0xbc060000bc0a;
  mkModel 0x2700000027 (-1)%Z 0xbc0a0000bc14 0xbc140000bc17;
  mkModel 0x2700000027 (-1)%Z 0xbc170000bc21 0xbc210000bc24;
  mkModel 0x2700000027 (3079)%Z 0x0 0xbc240000bc26;
  mkModel 0x2700000027 (-1)%Z 0xbc260000bc35 0xbc350000bc40;
  mkModel 0x2700000027 (3080)%Z 0x0 0x18000000182;
  mkModel 0x2700000027 (3081)%Z 0x0 0x18000000182;
  mkModel 0x2700000027 (3082)%Z 0x0 0xaf2b0000af2e;
  mkModel 0x2a1000002a7 (3083)%Z 0x0 0xbc400000bc47;
  mkModel 0x2a1000002a7 (3084)%Z 0x0 0x18000000182;
  mkModel 0x2a1000002a7 (3085)%Z 0x0 0x18000000182;
  mkModel 0x23b0000023d (3086)%Z 0x0 0xe3400000e3c;
  mkModel 0x23b0000023d (-1)%Z 0xbc470000bc56 0x8ad700008ae4;
  mkModel 0x23b0000023d (-1)%Z 0xbc560000bc5e 0xbc5e0000bc68;
  mkModel 0x23b0000023d (-1)%Z 0xbc680000bc72 0xbc680000bc72;
  mkModel 0x23b0000023d (-1)%Z 0xbc720000bc88 0xbc880000bc98;
  mkModel 0x23b0000023d (-1)%Z 0xbc980000bca9 0xbc980000bca9;
  mkModel 0x2700000027 (3087)%Z 0x0 0x18000000182;
  mkModel 0x2700000027 (3088)%Z 0x0 0x18000000182;
  mkModel 0x2700000027 (3089)%Z 0x0 0x18000000182;
  mkModel 0x39a000003a7 (3090)%Z 0x0 0x18000000182;
  mkModel 0x2700000027 (3091)%Z 0x0 0xbcaf0000bcb7;
  mkModel 0x0 (-1)%Z 0x0 0x18000000182;
  mkModel 0x2700000027 (3094)%Z 0x0 0xbcc20000bcce;
  mkModel 0x2700000027 (3096)%Z 0x0 0xbcd40000bced;
  mkModel 0x2700000027 (3097)%Z 0x0 0xbced0000bcfe;
  mkModel 0x2700000027 (3098)%Z 0x0 0xbcfe0000bd0a;
  mkModel 0x2700000027 (3099)%Z 0x0 0xbd0a0000bd17;
  mkModel 0x2700000027 (3100)%Z 0x0 0xbd170000bd23;
  mkModel 0x2700000027 (3101)%Z 0x0 0xbd230000bd32;
  mkModel 0x2700000027 (3102)%Z 0x0 0x8e4a00008e53;
  mkModel 0x2700000027 (3103)%Z 0x0 0xa0450000a04b;
  mkModel 0x2700000027 (-1)%Z 0xbd320000bd40 0xbd400000bd47;
  mkModel 0x2700000027 (3104)%Z 0x0 0xbd470000bd4c;
  mkModel 0x2700000027 (3105)%Z 0x0 0xbd4c0000bd53;
  mkModel 0x2700000027 (3106)%Z 0x0 0xbd530000bd57;
  mkModel 0x2700000027 (3107)%Z 0x0 0xbd570000bd5f;
  mkModel 0x2700000027 (3108)%Z 0x0 0xbd5f0000bd65;
  mkModel 0x2700000027 (3109)%Z 0x0 0xbd650000bd6d;
  mkModel 0x2700000027 (3110)%Z 0x0 0xbd6d0000bd79;
  mkModel 0x2700000027 (-1)%Z 0xbd790000bd83 0xbd790000bd83;
  mkModel 0x2700000027 (-1)%Z 0xbd830000bd92 0xbd920000bd9a;
  mkModel 0x2700000027 (-1)%Z 0xbd9a0000bdab 0xbdab0000bdb6;
  mkModel 0x2700000027 (3111)%Z 0x0 0x86240000862c;
  mkModel 0x23f00000249 (3113)%Z 0x0 0x18000000182;
  mkModel 0x2700000027 (3114)%Z 0x0 0x18000000182;
  mkModel 0x2700000027 (3116)%Z 0x0 0x18000000182;
  mkModel 0x2700000027 (3117)%Z 0x0 0xbdc70000bdd2;
  mkModel 0x2700000027 (-1)%Z 0xbdd20000bdd9 0xbdd20000bdd9;
  mkModel 0x2700000027 (-1)%Z 0xbdd90000bddf 0xbdd90000bddf;
  mkModel 0x2700000027 (-1)%Z 0xbddf0000bde7 0xbddf0000bde7;
  mkModel 0x2700000027 (-1)%Z 0xbde70000bdef 0xbde70000bdef;
  mkModel 0x2700000027 (-1)%Z 0xbdef0000bdf4 0xbdf40000bdfd;
  mkModel 0x0 (-1)%Z 0x0 0x18000000182;
  mkModel 0x0 (-1)%Z 0x0 0xbe0d0000be16;
  mkModel 0x2700000027 (3121)%Z 0x0 0x18000000182;
  mkModel 0x2700000027 (3122)%Z 0x0 0x18000000182;
  mkModel 0x2700000027 (3124)%Z 0x0 0xbe230000be30;
  mkModel 0x2700000027 (-1)%Z 0xbe300000be3f 0xbe3f0000be4c;
  mkModel 0x2700000027 (3125)%Z 0x0 0xbe4c0000be53;
  mkModel 0x2700000027 (3126)%Z 0x0 0x18000000182;
  mkModel 0x2700000027 (3127)%Z 0x0 0x18000000182;
  mkModel 0x0 (-1)%Z 0x0 0x18000000182;
  mkModel 0x2700000027 (3130)%Z 0x0 0xbe670000be6d;
  mkModel 0x2700000027 (3131)%Z 0x0 0xbe6d0000be73;
  mkModel 0x2700000027 (3132)%Z 0x0 0xbe730000be78;
  mkModel 0x2700000027 (3133)%Z 0x0 0xbe780000be7d;
  mkModel 0x0 (-1)%Z 0x0 0x18000000182;
  mkModel 0x0 (-1)%Z 0x0 0x18000000182;
  mkModel 0x0 (-1)%Z 0x0 0xbe900000be9c;
  mkModel 0x0 (-1)%Z 0x0 0xbea40000bea6;
  mkModel 0x0 (-1)%Z 0x0 0x18000000182;
  mkModel 0x2700000027 (3140)%Z 0x0 0xbeae0000beb6;
  mkModel 0x2700000027 (3141)%Z 0x0 0x591f00005924;
  mkModel 0x2700000027 (3142)%Z 0x0 0xbeb60000bebe;
  mkModel 0x2700000027 (3143)%Z 0x0 0x18000000182;
  mkModel 0x23b0000023d (-1)%Z 0xbebe0000becd 0xbecd0000bedb;
  mkModel 0x23b0000023d (3144)%Z 0x0 0xbedb0000bee0;
  mkModel 0x23b0000023d (3145)%Z 0x0 0xbee00000bee7;
  mkModel 0x23b0000023d (3146)%Z 0x0 0x18000000182;
  mkModel 0x2700000027 (-1)%Z 0xbeee0000bef6 0xbef60000befa;
  mkModel 0x2700000027 (-1)%Z 0xbefa0000bf02 0xbf020000bf07;
  mkModel 0x2700000027 (-1)%Z 0xbf070000bf10 0xbf100000bf15;
  mkModel 0x2700000027 (-1)%Z 0xbf150000bf1e 0xbf1e0000bf1f;
  mkModel 0x2700000027 (-1)%Z 0xbf1f0000bf27 0x3f8100003f83;
  mkModel 0x2700000027 (-1)%Z 0xbf270000bf2f 0xbf2f0000bf35;
  mkModel 0x2700000027 (-1)%Z 0xbf350000bf3d 0xbf3d0000bf45;
  mkModel 0x2700000027 (3148)%Z 0x0 0xbf450000bf47;
  mkModel 0x2700000027 (-1)%Z 0xbf470000bf4f 0xbf4f0000bf54;
  mkModel 0x0 (-1)%Z 0x0 0xbf5c0000bf63;
  mkModel 0x0 (-1)%Z 0x0 0xbf7c0000bf86;
  mkModel 0x0 (-1)%Z 0x0 0x18000000182;
  mkModel 0x2700000027 (3152)%Z 0x0 0xbf960000bfa1;
  mkModel 0x2700000027 (3154)%Z 0x0 0x18000000182;
  mkModel 0x2700000027 (3155)%Z 0x0 0x18000000182;
  mkModel 0x2700000027 (-1)%Z 0xbfa70000bfab 0xbfab0000bfb0;
  mkModel 0x2700000027 (3157)%Z 0x0 0xbfb50000bfbe;
  mkModel 0x2700000027 (3158)%Z 0x0 0xbfbe0000bfc5;
  mkModel 0x2700000027 (-1)%Z 0xbfc50000bfcd 0xbfcd0000bfd3;
  mkModel 0x2700000027 (3160)%Z 0x0 0xbfd90000bfe0;
  mkModel 0x2700000027 (3161)%Z 0x0 0xbfe00000bfe9;
  mkModel 0x2700000027 (3162)%Z 0x0 0xbfe90000bff0;
  mkModel 0x2700000027 (3163)%Z 0x0 0x18000000182;
  mkModel 0x2700000027 (3165)%Z 0x0 0x18000000182;
  mkModel 0x2700000027 (3166)%Z 0x0 0xbffa0000c008;
  mkModel 0x2700000027 (3167)%Z 0x0 0xc0080000c01b;
  mkModel 0x2700000027 (3168)%Z 0x0 0xc01b0000c02b;
  mkModel 0x2700000027 (3169)%Z 0x0 0xc02b0000c039;
  mkModel 0x2700000027 (3170)%Z 0x0 0xc0390000c047;
  mkModel 0x2700000027 (3171)%Z 0x0 0xc0470000c051;
  mkModel 0x2700000027 (3172)%Z 0x0 0xc0510000c056;
  mkModel 0x2700000027 (3173)%Z 0x0 0xc0560000c05d;
  mkModel 0x2700000027 (3174)%Z 0x0 0xc05d0000c068;
  mkModel 0x2700000027 (3175)%Z 0x0 0xc0680000c06f;
  mkModel 0x2700000027 (3176)%Z 0x0 0xc06f0000c077;
  mkModel 0x2700000027 (3177)%Z 0x0 0xc0770000c07b;
  mkModel 0x2700000027 (3178)%Z 0x0 0xc07b0000c07e;
  mkModel 0x2700000027 (3179)%Z 0x0 0xc07e0000c088;
  mkModel 0x2700000027 (3180)%Z 0x0 0xc0880000c092;
  mkModel 0x2700000027 (3181)%Z 0x0 0xc0920000c098;
  mkModel 0x2700000027 (3182)%Z 0x0 0xc0980000c0a1;
  mkModel 0x2700000027 (3183)%Z 0x0 0xc0a10000c0a6;
  mkModel 0x2700000027 (3184)%Z 0x0 0xc0a60000c0b1;
  mkModel 0x2700000027 (3185)%Z 0x0 0xc0b10000c0b8;
  mkModel 0x2700000027 (3186)%Z 0x0 0xc0b80000c0c6;
  mkModel 0x2700000027 (3187)%Z 0x0 0xc0c60000c0d0;
  mkModel 0x2700000027 (-1)%Z 0xc0d00000c0d9 0xc0d00000c0d9;
  mkModel 0x2700000027 (3188)%Z 0x0 0xc0d90000c0e0;
  mkModel 0x2700000027 (3189)%Z 0x0 0xc0e00000c0ea;
  mkModel 0x2700000027 (3190)%Z 0x0 0xc0ea0000c0f4;
  mkModel 0x2700000027 (3191)%Z 0x0 0xc0f40000c102;
  mkModel 0x2700000027 (3192)%Z 0x0 0xc1020000c109;
  mkModel 0x2700000027 (3193)%Z 0x0 0xc1090000c115;
  mkModel 0x2700000027 (3194)%Z 0x0 0xc1150000c11a;
  mkModel 0x2700000027 (3195)%Z 0x0 0xc11a0000c121;
  mkModel 0x2700000027 (3196)%Z 0x0 0xc1210000c127;
  mkModel 0x2700000027 (3197)%Z 0x0 0xc1270000c12e;
  mkModel 0x2700000027 (3198)%Z 0x0 0xc12e0000c136;
  mkModel 0x2700000027 (-1)%Z 0xc1360000c13d 0xc1360000c13d;
  mkModel 0x2700000027 (3199)%Z 0x0 0xc13d0000c147;
  mkModel 0x2700000027 (3200)%Z 0x0 0xa29c0000a2a1;
  mkModel 0x2700000027 (3201)%Z 0x0 0xc1470000c154;
  mkModel 0x2700000027 (3202)%Z 0x0 0xc1540000c15c;
  mkModel 0x2700000027 (-1)%Z 0xc15c0000c165 0xc1650000c16e;
  mkModel 0x2700000027 (-1)%Z 0xc16e0000c175 0xc16e0000c175;
  mkModel 0x2700000027 (3204)%Z 0x0 0xb6c40000b6c9;
  mkModel 0x2700000027 (3205)%Z 0x0 0xa0ce0000a0d5;
  mkModel 0x2700000027 (3206)%Z 0x0 0x18000000182;
  mkModel 0x2700000027 (-1)%Z 0xc1850000c18b 0xc18b0000c191;
  mkModel 0x2700000027 (-1)%Z 0xc1910000c197 0xc1910000c197;
  mkModel 0x2700000027 (-1)%Z 0xc1970000c1a6 0xc1970000c1a6;
  mkModel 0x2700000027 (3208)%Z 0x0 0xc1a60000c1b1;
  mkModel 0x2700000027 (-1)%Z 0xc1b10000c1b8 0xc1b10000c1b8;
  mkModel 0x2700000027 (3209)%Z 0x0 0xe3400000e3c;
  mkModel 0x2a1000002a7 (-1)%Z 0xc1bf0000c1c6 0xc1c60000c1cc;
  mkModel 0x2a1000002a7 (3211)%Z 0x0 0xc1cc0000c1cf;
  mkModel 0x2a1000002a7 (3212)%Z 0x0 0xc1cf0000c1d9;
  mkModel 0x2a1000002a7 (-1)%Z 0xc1d90000c1de 0xc1de0000c1e4;
  mkModel 0x2700000027 (-1)%Z 0xc1e40000c1ec 0x196000001962;
  mkModel 0x2700000027 (-1)%Z 0xc1ec0000c1f4 0xc1f40000c1fd;
  mkModel 0x2700000027 (-1)%Z 0xc1fd0000c205 0xc2050000c207;
  mkModel 0x2700000027 (-1)%Z 0xc2070000c20f 0xc20f0000c212;
  mkModel 0x2700000027 (-1)%Z 0xc2120000c219 0x197700001979;
  mkModel 0x2700000027 (-1)%Z 0xc2190000c221 0x4a5000004a7;
  mkModel 0x2700000027 (-1)%Z 0xc2210000c22e 0xc22e0000c23d;
  mkModel 0x2700000027 (3213)%Z 0x0 0xc23d0000c241;
  mkModel 0x2700000027 (-1)%Z 0xc2410000c24f 0xc24f0000c25d;
  mkModel 0x2700000027 (3214)%Z 0x0 0xc25d0000c262;
  mkModel 0x2700000027 (-1)%Z 0xc2620000c26a 0xc26a0000c270;
  mkModel 0x2700000027 (-1)%Z 0xc2700000c275 0xc2750000c277;
  mkModel 0x2700000027 (-1)%Z 0xc2770000c27f 0xc27f0000c282;
  mkModel 0x2700000027 (-1)%Z 0xc2820000c28a 0xc28a0000c28d;
  mkModel 0x2700000027 (3215)%Z 0x0 0xc28d0000c290;
  mkModel 0x2700000027 (3216)%Z 0x0 0xc2900000c293;
  mkModel 0x2700000027 (3217)%Z 0x0 0xc2930000c296;
  mkModel 0x2700000027 (3218)%Z 0x0 0xc2960000c2a1;
  mkModel 0x2700000027 (3219)%Z 0x0 0xc2a10000c2b0;
  mkModel 0x2700000027 (3220)%Z 0x0 0xc2b00000c2bb;
  mkModel 0x2700000027 (3221)%Z 0x0 0x60ba000060c9;
  mkModel 0x2700000027 (3222)%Z 0x0 0xc2bb0000c2c6;
  mkModel 0x2700000027 (3223)%Z 0x0 0xc2c60000c2cd;
  mkModel 0x2700000027 (3224)%Z 0x0 0xc2cd0000c2d1;
  mkModel 0x2700000027 (3225)%Z 0x0 0xc2d10000c2d4;
  mkModel 0x2700000027 (3226)%Z 0x0 0xc2d40000c2d7;
  mkModel 0x2700000027 (3227)%Z 0x0 0xc2d70000c2df
].
Definition d_dr_dm_21 : list modelTuple := [
  mkModel 0x2700000027 (3228)%Z 0x0 0xc2df0000c2e2;
  mkModel 0x2700000027 (3229)%Z 0x0 0xc2e20000c2e5;
  mkModel 0x2700000027 (-1)%Z 0xc2e50000c2ed 0xc2ed0000c2f0;
  mkModel 0x2700000027 (-1)%Z 0xc2f00000c300 0xc3000000c303;
  mkModel 0x2700000027 (-1)%Z 0xc3030000c317 0xc3170000c31f;
  mkModel 0x2700000027 (-1)%Z 0xc31f0000c327 0xc3270000c32d;
  mkModel 0x2700000027 (3230)%Z 0x0 0xc32d0000c330;
  mkModel 0x2700000027 (3231)%Z 0x0 0xc3300000c341;
  mkModel 0x2700000027 (-1)%Z 0xc3410000c349 0xc3490000c355;
  mkModel 0xdfd00000e04 (3232)%Z 0x0 0xc28a0000c28d;
  mkModel 0x2700000027 (3233)%Z 0x0 0xc3550000c35d;
  mkModel 0x2700000027 (3234)%Z 0x0 0x18000000182;
  mkModel 0x2700000027 (3235)%Z 0x0 0xc35d0000c35f;
  mkModel 0x2700000027 (3236)%Z 0x0 0xc35f0000c363;
  mkModel 0x2700000027 (3237)%Z 0x0 0x500000005006;
  mkModel 0x2700000027 (3238)%Z 0x0 0xc3630000c374;
  mkModel 0x2700000027 (3239)%Z 0x0 0xc3740000c383;
  mkModel 0x2700000027 (3240)%Z 0x0 0x18000000182;
  mkModel 0x23b0000023d (3241)%Z 0x0 0x18000000182;
  mkModel 0x23b0000023d (3242)%Z 0x0 0x18000000182;
  mkModel 0x23b0000023d (3243)%Z 0x0 0x18000000182;
  mkModel 0x23b0000023d (3244)%Z 0x0 0x10e9000010f6;
  mkModel 0x23b0000023d (3245)%Z 0x0 0x18000000182;
  mkModel 0xbf670000bf7c (3246)%Z 0x0 0xc3830000c388;
  mkModel 0x2700000027 (3247)%Z 0x0 0xc3880000c391;
  mkModel 0x2700000027 (3248)%Z 0x0 0xc3910000c39a;
  mkModel 0x2700000027 (3249)%Z 0x0 0x500000005006;
  mkModel 0x2700000027 (3250)%Z 0x0 0x1940000019b;
  mkModel 0x2700000027 (3251)%Z 0x0 0x18000000182;
  mkModel 0x2700000027 (3252)%Z 0x0 0x18000000182;
  mkModel 0x2700000027 (3254)%Z 0x0 0x18000000182;
  mkModel 0x0 (-1)%Z 0x0 0x18000000182;
  mkModel 0x2700000027 (3257)%Z 0x0 0x558300005589;
  mkModel 0x2700000027 (3258)%Z 0x0 0xc3af0000c3b3;
  mkModel 0x2700000027 (3259)%Z 0x0 0xc3af0000c3b3;
  mkModel 0x0 (-1)%Z 0x0 0x18000000182;
  mkModel 0x2700000027 (3262)%Z 0x0 0x18000000182;
  mkModel 0x2700000027 (3263)%Z 0x0 0xc3c30000c3d0;
  mkModel 0x2700000027 (3264)%Z 0x0 0xc3d00000c3d7;
  mkModel 0x2700000027 (-1)%Z 0xc3d70000c3e4 0xc3e40000c3f1;
  mkModel 0x2700000027 (3265)%Z 0x0 0xc3f10000c402;
  mkModel 0x2700000027 (3266)%Z 0x0 0xc4020000c407;
  mkModel 0x2700000027 (-1)%Z 0xc40d0000c414 0xc40d0000c414;
  mkModel 0x2700000027 (-1)%Z 0xc4140000c417 0xc4140000c417;
  mkModel 0x2700000027 (3268)%Z 0x0 0xc4170000c41f;
  mkModel 0x2700000027 (3269)%Z 0x0 0xc41f0000c423;
  mkModel 0x2700000027 (3270)%Z 0x0 0x18000000182;
  mkModel 0x2700000027 (3272)%Z 0x0 0x18000000182;
  mkModel 0x2700000027 (3273)%Z 0x0 0xc42c0000c436;
  mkModel 0x2a1000002a7 (-1)%Z 0xc4360000c43b 0xc43b0000c448;
  mkModel 0x7cc000007d6 (3274)%Z 0x0 0xc4480000c452;
  mkModel 0x7cc000007d6 (-1)%Z 0xc4590000c46a 0x902d00009036;
  mkModel 0x2700000027 (-1)%Z 0xc46a0000c475 0xe3400000e3c;
  mkModel 0xdfd00000e04 (3276)%Z 0x0 0xc47a0000c482;
  mkModel 0x2700000027 (3277)%Z 0x0 0xc4820000c489;
  mkModel 0x2700000027 (3278)%Z 0x0 0xc4890000c494;
  mkModel 0x2700000027 (-1)%Z 0xc4940000c49c 0xc49c0000c4a8;
  mkModel 0x2700000027 (-1)%Z 0xc4a80000c4b0 0xc4b00000c4b7;
  mkModel 0x2700000027 (-1)%Z 0xc4b70000c4bf 0xc4bf0000c4c2;
  mkModel 0x2700000027 (3279)%Z 0x0 0xc4c20000c4c5;
  mkModel 0x2700000027 (3280)%Z 0x0 0xc4c50000c4c8;
  mkModel 0x2700000027 (-1)%Z 0xc4c80000c4cf 0xc4cf0000c4d5;
  mkModel 0x2700000027 (3281)%Z 0x0 0x5b2100005b26;
  mkModel 0xdfd00000e04 (3282)%Z 0x0 0xc4d50000c4dd;
  mkModel 0x2700000027 (3283)%Z 0x0 0xc4dd0000c4e0;
  mkModel 0x2700000027 (-1)%Z 0xc4e00000c4e8 0xc4e80000c4ec;
  mkModel 0x2700000027 (3284)%Z 0x0 0xc4ec0000c4ef;
  mkModel 0x2700000027 (-1)%Z 0xc4ef0000c4f6 0xc4f60000c4fe;
  mkModel 0x2700000027 (3285)%Z 0x0 0xc4fe0000c501;
  mkModel 0x2700000027 (3286)%Z 0x0 0xc5010000c508;
  mkModel 0x2700000027 (-1)%Z 0xc5080000c510 0xc5100000c512;
  mkModel 0x2700000027 (-1)%Z 0xc5120000c51a 0xc51a0000c520;
  mkModel 0x2700000027 (-1)%Z 0xc5200000c528 0xc5280000c52b;
  mkModel 0x2700000027 (-1)%Z 0xc52b0000c533 0xc5330000c53a;
  mkModel 0x2700000027 (-1)%Z 0xc53a0000c542 0xc5420000c54b;
  mkModel 0x2700000027 (-1)%Z 0xc54b0000c554 0xc5540000c560;
  mkModel 0x2700000027 (-1)%Z 0xc5600000c568 0xc5680000c576;
  mkModel 0x2700000027 (-1)%Z 0xc5760000c57e 0xc57e0000c587;
  mkModel 0x2700000027 (-1)%Z 0xc5870000c58e 0xc58e0000c591;
  mkModel 0x2700000027 (-1)%Z 0xc5910000c598 0xc5980000c5a7;
  mkModel 0x2700000027 (3287)%Z 0x0 0xc5a70000c5b2;
  mkModel 0x2700000027 (3288)%Z 0x0 0xc5b20000c5bd;
  mkModel 0x2700000027 (-1)%Z 0xc5bd0000c5c5 0xc5c50000c5cc;
  mkModel 0x2700000027 (3289)%Z 0x0 0xc5cc0000c5d3;
  mkModel 0x2700000027 (3290)%Z 0x0 0xc5d30000c5de;
  mkModel 0x2700000027 (3291)%Z 0x0 0xc5de0000c5e9;
  mkModel 0x2700000027 (3292)%Z 0x0 0xc5e90000c5f5;
  mkModel 0x2700000027 (-1)%Z 0xc5f50000c5fd 0xc5fd0000c607;
  mkModel 0x2700000027 (-1)%Z 0xc6070000c60f 0xc60f0000c61b;
  mkModel 0x2700000027 (-1)%Z 0xc61b0000c623 0xc6230000c62a;
  mkModel 0x2700000027 (-1)%Z 0xc62a0000c634 0xc6340000c63c;
  mkModel 0x2700000027 (-1)%Z 0xc63c0000c644 0xc6440000c64b;
  mkModel 0x2700000027 (3293)%Z 0x0 0xc64b0000c64e;
  mkModel 0x2700000027 (3294)%Z 0x0 0xc64e0000c655;
  mkModel 0x2700000027 (-1)%Z 0xc6550000c65c 0xc65c0000c664;
  mkModel 0x2700000027 (-1)%Z 0xc4b70000c4bf 0xc4bf0000c4c2;
  mkModel 0x2700000027 (3295)%Z 0x0 0xc6640000c667;
  mkModel 0x2700000027 (-1)%Z 0xc6670000c66f 0xc66f0000c67b;
  mkModel 0x2700000027 (-1)%Z 0xc67b0000c682 0xc6820000c685;
  mkModel 0x2700000027 (-1)%Z 0xc6850000c68c 0xc68c0000c695;
  mkModel 0x2700000027 (-1)%Z 0xc6950000c69d 0xc69d0000c6a5;
  mkModel 0x2700000027 (3296)%Z 0x0 0xc6a50000c6a8;
  mkModel 0x2700000027 (-1)%Z 0xc6a80000c6b0 0xc6b00000c6b8;
  mkModel 0x2700000027 (-1)%Z 0xc6b80000c6bf 0xc6bf0000c6c2;
  mkModel 0x2700000027 (-1)%Z 0xc6c20000c6ca 0xc6ca0000c6d2;
  mkModel 0x2700000027 (-1)%Z 0xc6d20000c6da 0xc6da0000c6e1;
  mkModel 0x2700000027 (-1)%Z 0xc6e10000c6e9 0xc6e90000c6ec;
  mkModel 0x2700000027 (3297)%Z 0x0 0xc6ec0000c6f3;
  mkModel 0x2700000027 (-1)%Z 0xc6f30000c6fb 0xc6fb0000c701;
  mkModel 0x2700000027 (3298)%Z 0x0 0xc7010000c708;
  mkModel 0x2700000027 (3299)%Z 0x0 0xc7080000c70b;
  mkModel 0x2700000027 (-1)%Z 0xc70b0000c713 0xc7130000c71f;
  mkModel 0x2700000027 (-1)%Z 0xc71f0000c727 0xc7270000c731;
  mkModel 0x2700000027 (-1)%Z 0xc7310000c739 0xc7390000c740;
  mkModel 0x2700000027 (3300)%Z 0x0 0xc7400000c743;
  mkModel 0x2700000027 (3301)%Z 0x0 0xc7430000c746;
  mkModel 0x2700000027 (-1)%Z 0xc7460000c74e 0xc74e0000c755;
  mkModel 0x2700000027 (3302)%Z 0x0 0xc7550000c758;
  mkModel 0x2700000027 (-1)%Z 0xc7580000c75f 0xc75f0000c765;
  mkModel 0x2700000027 (3303)%Z 0x0 0xc7650000c768;
  mkModel 0x2700000027 (3304)%Z 0x0 0xc7680000c76b;
  mkModel 0x2700000027 (3305)%Z 0x0 0xc76b0000c76e;
  mkModel 0x2700000027 (-1)%Z 0xc76e0000c775 0xc7750000c77b;
  mkModel 0x2700000027 (-1)%Z 0xc77b0000c783 0xc7830000c78a;
  mkModel 0x2700000027 (3306)%Z 0x0 0xc78a0000c791;
  mkModel 0x2700000027 (3307)%Z 0x0 0xc7910000c799;
  mkModel 0x2700000027 (3308)%Z 0x0 0xc7990000c79b;
  mkModel 0x2700000027 (-1)%Z 0xc79b0000c7a3 0xc7a30000c7a8;
  mkModel 0x2700000027 (-1)%Z 0xc7a80000c7b0 0xc7b00000c7b6;
  mkModel 0x2700000027 (-1)%Z 0xc7b60000c7be 0xc7be0000c7c5;
  mkModel 0x2700000027 (-1)%Z 0xc7c50000c7cd 0x3e1400003e17;
  mkModel 0x2700000027 (3309)%Z 0x0 0xc7cd0000c7d5;
  mkModel 0x2700000027 (-1)%Z 0xc7d50000c7dd 0xc7dd0000c7ec;
  mkModel 0x2700000027 (-1)%Z 0xc7ec0000c7f4 0xc7f40000c805;
  mkModel 0x2700000027 (-1)%Z 0xc8050000c80d 0xc80d0000c816;
  mkModel 0x2700000027 (-1)%Z 0xc8160000c81d 0xc81d0000c829;
  mkModel 0x2700000027 (3310)%Z 0x0 0xc8290000c830;
  mkModel 0x2700000027 (3311)%Z 0x0 0xc8300000c83b;
  mkModel 0x2700000027 (-1)%Z 0xc83b0000c843 0xc8430000c853;
  mkModel 0x2700000027 (-1)%Z 0xc8530000c85a 0xc85a0000c860;
  mkModel 0x2700000027 (-1)%Z 0xc8600000c867 0xc8670000c86a;
  mkModel 0x2700000027 (-1)%Z 0xc86a0000c872 0xc8720000c876;
  mkModel 0x2700000027 (-1)%Z 0xc8760000c87e 0xc87e0000c881;
  mkModel 0x2700000027 (-1)%Z 0xc8810000c889 0xc8890000c893;
  mkModel 0x2700000027 (-1)%Z 0xc8930000c89b 0xc89b0000c8a6;
  mkModel 0x2700000027 (-1)%Z 0xc8a60000c8ae 0xc8ae0000c8b2;
  mkModel 0x2700000027 (-1)%Z 0xc8b20000c8ba 0xc8ba0000c8c0;
  mkModel 0x2700000027 (-1)%Z 0xc8c00000c8c8 0xc8c80000c8cb;
  mkModel 0x2700000027 (-1)%Z 0xc8cb0000c8d3 0xc8d30000c8df;
  mkModel 0x2700000027 (-1)%Z 0xc8df0000c8e7 0xc8e70000c8ee;
  mkModel 0x2700000027 (3312)%Z 0x0 0xbea40000bea6;
  mkModel 0x2700000027 (3313)%Z 0x0 0xb05f0000b061;
  mkModel 0x2700000027 (-1)%Z 0xc8ee0000c8f5 0xc8f50000c8fa;
  mkModel 0x2700000027 (-1)%Z 0xc8fa0000c902 0x3e3c00003e3e;
  mkModel 0x2700000027 (-1)%Z 0xc9020000c909 0xc9090000c90e;
  mkModel 0x2700000027 (-1)%Z 0xc90e0000c916 0xc9160000c91c;
  mkModel 0x2700000027 (-1)%Z 0xc91c0000c923 0xc9230000c92a;
  mkModel 0x2700000027 (-1)%Z 0xc92a0000c932 0xc9320000c938;
  mkModel 0x2700000027 (-1)%Z 0xc9380000c940 0xc9400000c945;
  mkModel 0x2700000027 (-1)%Z 0xc9450000c94d 0xc94d0000c958;
  mkModel 0x2700000027 (-1)%Z 0xc9580000c960 0xc9600000c965;
  mkModel 0x2700000027 (-1)%Z 0xc9650000c96d 0xc96d0000c972;
  mkModel 0x2700000027 (-1)%Z 0xc9720000c97a 0xc97a0000c981;
  mkModel 0x2700000027 (-1)%Z 0xc9810000c988 0xc9880000c990;
  mkModel 0x2700000027 (-1)%Z 0xc9900000c998 0xc9980000c9a3;
  mkModel 0x2700000027 (3314)%Z 0x0 0xc9a30000c9ae;
  mkModel 0x2700000027 (-1)%Z 0xc9ae0000c9b6 0xc9b60000c9bd;
  mkModel 0x2700000027 (-1)%Z 0xc9bd0000c9c5 0xc9c50000c9d1;
  mkModel 0x2700000027 (-1)%Z 0xc9d10000c9d8 0xc9d80000c9e4;
  mkModel 0x2700000027 (-1)%Z 0xc9e40000c9ec 0xc9ec0000c9f3;
  mkModel 0x2700000027 (3315)%Z 0x0 0xc9f30000c9f8;
  mkModel 0x2700000027 (3316)%Z 0x0 0xc9f80000c9fa;
  mkModel 0x2700000027 (3317)%Z 0x0 0x88190000881b;
  mkModel 0x2700000027 (-1)%Z 0xc9fa0000ca02 0xca020000ca04;
  mkModel 0x2700000027 (-1)%Z 0xca040000ca0c 0xb44f0000b452;
  mkModel 0x2700000027 (3318)%Z 0x0 0xca0c0000ca0e;
  mkModel 0x2700000027 (3319)%Z 0x0 0xca0e0000ca13;
  mkModel 0x2700000027 (-1)%Z 0xca130000ca1b 0xca1b0000ca20;
  mkModel 0x2700000027 (3320)%Z 0x0 0xca200000ca27;
  mkModel 0x2700000027 (3321)%Z 0x0 0xca270000ca30;
  mkModel 0x2700000027 (-1)%Z 0xca300000ca38 0xca380000ca3a;
  mkModel 0x2700000027 (-1)%Z 0xca3a0000ca42 0xca420000ca4a;
  mkModel 0x2700000027 (-1)%Z 0xca4a0000ca52 0xca520000ca58;
  mkModel 0x2700000027 (-1)%Z 0xca580000ca60 0xca600000ca67;
  mkModel 0x2700000027 (-1)%Z 0xca670000ca6f 0xca6f0000ca7a;
  mkModel 0x2700000027 (-1)%Z 0xca7a0000ca82 0xca820000ca8e;
  mkModel 0x2700000027 (-1)%Z 0xca8e0000ca96 0xca960000caa5;
  mkModel 0x2700000027 (-1)%Z 0xcaa50000caad 0xcaad0000cab8;
  mkModel 0x2700000027 (-1)%Z 0xcab80000cac0 0xcac00000cac6;
  mkModel 0x2700000027 (-1)%Z 0xcac60000cace 0xcace0000cad4;
  mkModel 0x2700000027 (-1)%Z 0xcad40000cadc 0xcadc0000cae3;
  mkModel 0x2700000027 (-1)%Z 0xcae30000caea 0xcaea0000caf5;
  mkModel 0x2700000027 (3322)%Z 0x0 0xcaf50000cafc;
  mkModel 0x2a1000002a7 (-1)%Z 0xcafc0000cb03 0xcb030000cb13;
  mkModel 0x2a1000002a7 (-1)%Z 0xcb130000cb1b 0xcb1b0000cb2a;
  mkModel 0x2a1000002a7 (-1)%Z 0xcb2a0000cb31 0xcb310000cb46;
  mkModel 0x2a1000002a7 (-1)%Z 0xcb460000cb4d 0xcb4d0000cb74;
  mkModel 0x2a1000002a7 (-1)%Z 0xcb740000cb7b 0xcb7b0000cb8c;
  mkModel 0x2a1000002a7 (-1)%Z 0xcb8c0000cb93 0xcb930000cba4;
  mkModel 0x2a1000002a7 (-1)%Z 0xcba40000cbac 0xcbac0000cbc1
].
Definition d_dr_dm_22 : list modelTuple := [
  mkModel 0x2a1000002a7 (-1)%Z 0xcbc10000cbc9 0xcbc90000cbda;
  mkModel 0x2a1000002a7 (-1)%Z 0xcbda0000cbe3 0xcbe30000cbf2;
  mkModel 0x2a1000002a7 (-1)%Z 0xcbf20000cbf9 0xcbf90000cc0c;
  mkModel 0x2a1000002a7 (-1)%Z 0xcc0c0000cc14 0xcc140000cc25;
  mkModel 0x2a1000002a7 (-1)%Z 0xcc250000cc2f 0xcc2f0000cc3d;
  mkModel 0x2a1000002a7 (-1)%Z 0xcc3d0000cc48 0xcc480000cc55;
  mkModel 0x2a1000002a7 (-1)%Z 0xcc550000cc5e 0xcc5e0000cc64;
  mkModel 0x2a1000002a7 (-1)%Z 0xcc640000cc6d 0xcc6d0000cc7d;
  mkModel 0x2a1000002a7 (-1)%Z 0xcc7d0000cc84 0xcc840000cc90;
  mkModel 0x2a1000002a7 (-1)%Z 0xcc900000cc97 0xcc970000cca2;
  mkModel 0x2a1000002a7 (-1)%Z 0xcca20000ccac 0xccac0000ccb7;
  mkModel 0x2a1000002a7 (-1)%Z 0xccb70000ccbe 0xccbe0000cccf;
  mkModel 0x2a1000002a7 (3323)%Z 0x0 0xcccf0000ccdf;
  mkModel 0x2a1000002a7 (-1)%Z 0xccdf0000cce7 0xcce70000ccf8;
  mkModel 0x2a1000002a7 (-1)%Z 0xccf80000cd00 0xcd000000cd12;
  mkModel 0x2a1000002a7 (-1)%Z 0xcd120000cd1a 0xcd1a0000cd2b;
  mkModel 0x2a1000002a7 (-1)%Z 0xcd2b0000cd33 0xcd330000cd3f;
  mkModel 0x2a1000002a7 (-1)%Z 0xcd3f0000cd46 0xcd460000cd56;
  mkModel 0x2a1000002a7 (-1)%Z 0xcd560000cd5e 0xcd5e0000cd6e;
  mkModel 0x2a1000002a7 (-1)%Z 0xcd6e0000cd76 0xcd760000cd84;
  mkModel 0x2a1000002a7 (-1)%Z 0xcd840000cd8e 0xcd8e0000cd9e;
  mkModel 0x2a1000002a7 (-1)%Z 0xcd9e0000cda9 0xcda90000cdb4;
  mkModel 0x2700000027 (3325)%Z 0x0 0x18000000182;
  mkModel 0x2700000027 (3326)%Z 0x0 0x18000000182;
  mkModel 0x2700000027 (3327)%Z 0x0 0xcdb90000cdbc;
  mkModel 0x23f00000249 (3328)%Z 0x0 0x18000000182;
  mkModel 0x2700000027 (3330)%Z 0x0 0xcdc40000cdc8;
  mkModel 0x0 (-1)%Z 0x0 0x18000000182;
  mkModel 0x0 (-1)%Z 0x0 0x18000000182;
  mkModel 0x2700000027 (3334)%Z 0x0 0x18000000182;
  mkModel 0x2700000027 (3335)%Z 0x0 0x18000000182;
  mkModel 0x2700000027 (-1)%Z 0xcde50000cdec 0xae2c0000ae31;
  mkModel 0x2700000027 (-1)%Z 0xcdec0000cdf3 0xcdf30000cdfa;
  mkModel 0x2700000027 (-1)%Z 0xcdfa0000ce01 0xce010000ce06;
  mkModel 0x2700000027 (-1)%Z 0xce060000ce0a 0xce0a0000ce11;
  mkModel 0x2a1000002a7 (-1)%Z 0xce110000ce15 0xce110000ce15;
  mkModel 0x2700000027 (-1)%Z 0xce150000ce1d 0xce1d0000ce24;
  mkModel 0x2700000027 (3338)%Z 0x0 0xce2a0000ce38;
  mkModel 0x2700000027 (3339)%Z 0x0 0xce380000ce3d;
  mkModel 0x2700000027 (-1)%Z 0xce3d0000ce4a 0xce4a0000ce57;
  mkModel 0x2700000027 (3340)%Z 0x0 0xce570000ce60;
  mkModel 0x2700000027 (3341)%Z 0x0 0x75e4000075ec;
  mkModel 0x2700000027 (3342)%Z 0x0 0xce600000ce6c;
  mkModel 0x2700000027 (-1)%Z 0xce6c0000ce73 0xce6c0000ce73;
  mkModel 0x2700000027 (3343)%Z 0x0 0xce730000ce7b;
  mkModel 0x2700000027 (-1)%Z 0xce7b0000ce86 0xce7b0000ce86;
  mkModel 0x2700000027 (-1)%Z 0xce860000ce8e 0xce860000ce8e;
  mkModel 0x2700000027 (-1)%Z 0xce8e0000ce95 0xce8e0000ce95;
  mkModel 0x2700000027 (-1)%Z 0xce950000ce9b 0xce950000ce9b;
  mkModel 0x2700000027 (3344)%Z 0x0 0xce9b0000cea4;
  mkModel 0x2700000027 (3345)%Z 0x0 0x500000005006;
  mkModel 0x2700000027 (3346)%Z 0x0 0xcea40000cea7;
  mkModel 0x2700000027 (3347)%Z 0x0 0x18000000182;
  mkModel 0x2700000027 (3348)%Z 0x0 0xcea70000ceaa;
  mkModel 0x2700000027 (3349)%Z 0x0 0xceaa0000cead;
  mkModel 0x2700000027 (3350)%Z 0x0 0xcead0000cebb;
  mkModel 0xdfd00000e04 (-1)%Z 0xcebb0000cec5 0xcebb0000cec5;
  mkModel 0xdfd00000e04 (-1)%Z 0xcec50000cecf 0xcec50000cecf;
  mkModel 0xdfd00000e04 (-1)%Z 0xcecf0000ced9 0xcecf0000ced9;
  mkModel 0x2a1000002a7 (3351)%Z 0x0 0xced90000cee4;
  mkModel 0x2a1000002a7 (3352)%Z 0x0 0xcee40000cef0;
  mkModel 0x2a1000002a7 (-1)%Z 0xcef00000cefc 0xcefc0000cf08;
  mkModel 0x2a1000002a7 (3353)%Z 0x0 0xcf080000cf0f;
  mkModel 0x2700000027 (3354)%Z 0x0 0x18000000182;
  mkModel 0x2700000027 (-1)%Z 0xcf0f0000cf19 0xcf0f0000cf19;
  mkModel 0x2700000027 (-1)%Z 0xcf190000cf1f 0xcf190000cf1f;
  mkModel 0x2700000027 (3356)%Z 0x0 0x18000000182;
  mkModel 0x2700000027 (3357)%Z 0x0 0xcf220000cf32;
  mkModel 0x2700000027 (3358)%Z 0x0 0xcf320000cf37;
  mkModel 0x2700000027 (3360)%Z 0x0 0x18000000182;
  mkModel 0x2700000027 (3361)%Z 0x0 0xcf3d0000cf41;
  mkModel 0x2700000027 (3363)%Z 0x0 0x18000000182;
  mkModel 0x2700000027 (3365)%Z 0x0 0xcf4c0000cf5c;
  mkModel 0x2700000027 (3366)%Z 0x0 0xcf5c0000cf6b;
  mkModel 0x2700000027 (3368)%Z 0x0 0xcf710000cf78;
  mkModel 0x2700000027 (3369)%Z 0x0 0xcf780000cf85;
  mkModel 0x2700000027 (3370)%Z 0x0 0xcf850000cf90;
  mkModel 0x2700000027 (3371)%Z 0x0 0xcf900000cf9c;
  mkModel 0x2700000027 (-1)%Z 0xcf9c0000cfa3 0xcfa30000cfb0;
  mkModel 0x2700000027 (-1)%Z 0xcfb00000cfb7 0xcfb70000cfbe;
  mkModel 0x2700000027 (-1)%Z 0xcfbe0000cfc6 0xcfc60000cfdc;
  mkModel 0x2700000027 (3372)%Z 0x0 0xcfdc0000cfe7;
  mkModel 0x2700000027 (3373)%Z 0x0 0xcfe70000cff1;
  mkModel 0x2700000027 (-1)%Z 0xcff10000cff9 0xcff90000d008;
  mkModel 0x2700000027 (-1)%Z 0xd0080000d010 0xd0100000d019;
  mkModel 0x2700000027 (3374)%Z 0x0 0xd0190000d01b;
  mkModel 0x2700000027 (3375)%Z 0x0 0xd01b0000d024;
  mkModel 0x2700000027 (3376)%Z 0x0 0xd0240000d02d;
  mkModel 0x2700000027 (3377)%Z 0x0 0xd02d0000d038;
  mkModel 0x2700000027 (3378)%Z 0x0 0xd0380000d043;
  mkModel 0x2700000027 (3379)%Z 0x0 0xd0430000d04e;
  mkModel 0x2700000027 (3380)%Z 0x0 0xd04e0000d058;
  mkModel 0x2700000027 (3381)%Z 0x0 0xd0580000d063;
  mkModel 0x2700000027 (3382)%Z 0x0 0xd0630000d06e;
  mkModel 0x2700000027 (3383)%Z 0x0 0xd06e0000d07a;
  mkModel 0x2700000027 (3384)%Z 0x0 0xd07a0000d085;
  mkModel 0x2700000027 (3385)%Z 0x0 0xd0850000d08e;
  mkModel 0x2700000027 (3386)%Z 0x0 0xd08e0000d097;
  mkModel 0x2700000027 (3387)%Z 0x0 0xd0970000d0a0;
  mkModel 0x2700000027 (3388)%Z 0x0 0xd0a00000d0ab;
  mkModel 0x2700000027 (3389)%Z 0x0 0xd0ab0000d0b4;
  mkModel 0x2700000027 (3390)%Z 0x0 0xd0b40000d0be;
  mkModel 0x2700000027 (3391)%Z 0x0 0xd0be0000d0c9;
  mkModel 0x2700000027 (3392)%Z 0x0 0xd0c90000d0d4;
  mkModel 0x2700000027 (3393)%Z 0x0 0xd0d40000d0df;
  mkModel 0x2700000027 (3394)%Z 0x0 0xd0df0000d0ea;
  mkModel 0x2700000027 (3395)%Z 0x0 0xd0ea0000d0f2;
  mkModel 0x2700000027 (3396)%Z 0x0 0xd0f20000d0ff;
  mkModel 0x2700000027 (3397)%Z 0x0 0xd0ff0000d108;
  mkModel 0x2700000027 (3398)%Z 0x0 0xd1080000d111;
  mkModel 0x2700000027 (3399)%Z 0x0 0xd1110000d119;
  mkModel 0x2700000027 (-1)%Z 0xd1190000d121 0xd1210000d129;
  mkModel 0x2700000027 (-1)%Z 0xd1290000d131 0xd1310000d13a;
  mkModel 0x2700000027 (-1)%Z 0xd13a0000d142 0xd1420000d14a;
  mkModel 0x2700000027 (-1)%Z 0xd14a0000d152 0xd1520000d161;
  mkModel 0x2700000027 (-1)%Z 0xd1610000d169 0xd1690000d175;
  mkModel 0x2700000027 (-1)%Z 0xd1750000d17d 0xd17d0000d186;
  mkModel 0x2700000027 (-1)%Z 0xd1860000d18e 0xd18e0000d19a;
  mkModel 0x2700000027 (-1)%Z 0xd19a0000d1a2 0xd1a20000d1aa;
  mkModel 0x2700000027 (3400)%Z 0x0 0xd1aa0000d1ad;
  mkModel 0x2700000027 (3401)%Z 0x0 0xd1ad0000d1b4;
  mkModel 0x2700000027 (3402)%Z 0x0 0xd1b40000d1bc;
  mkModel 0x2700000027 (3403)%Z 0x0 0xd1bc0000d1c3;
  mkModel 0x2700000027 (3404)%Z 0x0 0xd1c30000d1cb;
  mkModel 0x2700000027 (3405)%Z 0x0 0xd1cb0000d1d7;
  mkModel 0x2700000027 (3406)%Z 0x0 0xd1d70000d1de;
  mkModel 0x2700000027 (3407)%Z 0x0 0xd1de0000d1ea;
  mkModel 0x2700000027 (3408)%Z 0x0 0xd1ea0000d1f2;
  mkModel 0x2700000027 (3409)%Z 0x0 0xd1f20000d1fa;
  mkModel 0x2700000027 (3410)%Z 0x0 0xd1fa0000d209;
  mkModel 0x2700000027 (3411)%Z 0x0 0xd2090000d213;
  mkModel 0x2700000027 (3412)%Z 0x0 0xd2130000d21e;
  mkModel 0x2700000027 (3413)%Z 0x0 0xd21e0000d22e;
  mkModel 0x2700000027 (3414)%Z 0x0 0xd22e0000d237;
  mkModel 0x2700000027 (3415)%Z 0x0 0xd2370000d23f;
  mkModel 0x2700000027 (3416)%Z 0x0 0xd23f0000d242;
  mkModel 0x2700000027 (3417)%Z 0x0 0xd2420000d248;
  mkModel 0x2700000027 (3418)%Z 0x0 0xd2480000d253;
  mkModel 0x2700000027 (3419)%Z 0x0 0xd2530000d257;
  mkModel 0x2700000027 (3420)%Z 0x0 0xd2570000d261;
  mkModel 0x2700000027 (3421)%Z 0x0 0xd2610000d264;
  mkModel 0x2700000027 (3422)%Z 0x0 0xd2640000d26e;
  mkModel 0x2700000027 (-1)%Z 0xd26e0000d275 0xd2750000d278;
  mkModel 0x2700000027 (3423)%Z 0x0 0xd2780000d27a;
  mkModel 0x2700000027 (3424)%Z 0x0 0xd27a0000d281;
  mkModel 0x2700000027 (3425)%Z 0x0 0xd2810000d288;
  mkModel 0x2700000027 (3426)%Z 0x0 0xd2880000d28b;
  mkModel 0x2700000027 (3427)%Z 0x0 0xd28b0000d292;
  mkModel 0x2700000027 (3428)%Z 0x0 0xd2920000d295;
  mkModel 0x2700000027 (3429)%Z 0x0 0xd2950000d299;
  mkModel 0x2700000027 (3430)%Z 0x0 0xd2990000d2a3;
  mkModel 0x2700000027 (-1)%Z 0xd2a30000d2ab 0xd2ab0000d2b3;
  mkModel 0x2700000027 (-1)%Z 0xd2b30000d2bb 0xd2bb0000d2c3;
  mkModel 0x2700000027 (3431)%Z 0x0 0xc4750000c47a;
  mkModel 0x2700000027 (3432)%Z 0x0 0xd2c30000d2ca;
  mkModel 0x2700000027 (3433)%Z 0x0 0xd2ca0000d2d2;
  mkModel 0x2700000027 (3434)%Z 0x0 0xd2d20000d2df;
  mkModel 0x2700000027 (3435)%Z 0x0 0xd2df0000d2e7;
  mkModel 0x2700000027 (-1)%Z 0xd2e70000d2ee 0xd2ee0000d2f5;
  mkModel 0x2700000027 (-1)%Z 0xd2f50000d2fd 0xd2fd0000d306;
  mkModel 0x2700000027 (-1)%Z 0xd3060000d30e 0xd30e0000d31c;
  mkModel 0x2700000027 (-1)%Z 0xd31c0000d324 0xd3240000d331;
  mkModel 0x2700000027 (-1)%Z 0xd3310000d339 0xd3390000d342;
  mkModel 0x2700000027 (-1)%Z 0xd3420000d34a 0xd34a0000d354;
  mkModel 0x2a1000002a7 (-1)%Z 0xd3540000d35f 0xd35f0000d370;
  mkModel 0x2a1000002a7 (-1)%Z 0xd3700000d37a 0xd37a0000d390;
  mkModel 0x2a1000002a7 (3436)%Z 0x0 0xd3900000d3a5;
  mkModel 0x2a1000002a7 (3437)%Z 0x0 0xd3a50000d3bc;
  mkModel 0x2700000027 (3438)%Z 0x0 0xd3bc0000d3c8;
  mkModel 0x2700000027 (3439)%Z 0x0 0xd3c80000d3d9;
  mkModel 0x2700000027 (3440)%Z 0x0 0xd3d90000d3e2;
  mkModel 0x2700000027 (3441)%Z 0x0 0xd3e20000d3eb;
  mkModel 0x2700000027 (3442)%Z 0x0 0xd3eb0000d3f8;
  mkModel 0x2700000027 (3443)%Z 0x0 0xd3f80000d400;
  mkModel 0x2700000027 (-1)%Z 0xd4000000d409 0xd4090000d415;
  mkModel 0x2700000027 (3444)%Z 0x0 0xd4150000d425;
  mkModel 0x2700000027 (3445)%Z 0x0 0xd4250000d432;
  mkModel 0x2700000027 (3446)%Z 0x0 0xd4320000d43e;
  mkModel 0x2700000027 (3447)%Z 0x0 0xd43e0000d446;
  mkModel 0x2700000027 (3448)%Z 0x0 0xd4460000d44e;
  mkModel 0x2700000027 (-1)%Z 0xd44e0000d45b 0xd45b0000d468;
  mkModel 0x2700000027 (-1)%Z 0xd4680000d470 0xd4700000d47d;
  mkModel 0x2700000027 (-1)%Z 0xd47d0000d485 0xd4850000d496;
  mkModel 0xdfd00000e04 (3449)%Z 0x0 0xd4960000d4a3;
  mkModel 0x2700000027 (3450)%Z 0x0 0xd4a30000d4b1;
  mkModel 0x2700000027 (3451)%Z 0x0 0xd4b10000d4bd;
  mkModel 0x2700000027 (-1)%Z 0xd4bd0000d4c4 0xd4c40000d4d1;
  mkModel 0x2700000027 (3452)%Z 0x0 0xd4d10000d4de;
  mkModel 0x2700000027 (3453)%Z 0x0 0xd4de0000d4eb;
  mkModel 0x2700000027 (3454)%Z 0x0 0xd4eb0000d4f4;
  mkModel 0x2700000027 (3455)%Z 0x0 0xd4f40000d501;
  mkModel 0x2700000027 (3456)%Z 0x0 0xd5010000d50a;
  mkModel 0x2700000027 (3457)%Z 0x0 0xd50a0000d516;
  mkModel 0x2700000027 (3458)%Z 0x0 0xd5160000d51f;
  mkModel 0x2700000027 (3459)%Z 0x0 0xd51f0000d527;
  mkModel 0x2700000027 (3460)%Z 0x0 0xd5270000d534;
  mkModel 0x2700000027 (3461)%Z 0x0 0xd5340000d540;
  mkModel 0x2700000027 (3462)%Z 0x0 0xd5400000d54d;
  mkModel 0x2700000027 (3463)%Z 0x0 0xd54d0000d555;
  mkModel 0x2700000027 (3464)%Z 0x0 0xd5550000d55d
].
Definition d_dr_dm_23 : list modelTuple := [
  mkModel 0x2700000027 (3465)%Z 0x0 0xd55d0000d565;
  mkModel 0x2700000027 (3466)%Z 0x0 0xd5650000d571;
  mkModel 0x2700000027 (3467)%Z 0x0 0xd5710000d579;
  mkModel 0x2700000027 (3468)%Z 0x0 0xd5790000d585;
  mkModel 0x2700000027 (3469)%Z 0x0 0xd5850000d592;
  mkModel 0x2700000027 (-1)%Z 0xd5920000d59e 0xd5920000d59e;
  mkModel 0x2700000027 (3470)%Z 0x0 0xd59e0000d5a6;
  mkModel 0x2700000027 (3471)%Z 0x0 0xd5a60000d5ae;
  mkModel 0x2700000027 (3472)%Z 0x0 0xd5ae0000d5b6;
  mkModel 0x2700000027 (3473)%Z 0x0 0xd5b60000d5c2;
  mkModel 0x2700000027 (3474)%Z 0x0 0xd5c20000d5cf;
  mkModel 0x2700000027 (-1)%Z 0xd5cf0000d5df 0xd5cf0000d5df;
  mkModel 0x2700000027 (3475)%Z 0x0 0xd5df0000d5e8;
  mkModel 0x2700000027 (3476)%Z 0x0 0xd5e80000d5f5;
  mkModel 0x2700000027 (3477)%Z 0x0 0xd5f50000d601;
  mkModel 0x2700000027 (-1)%Z 0xd6010000d609 0xd6090000d615;
  mkModel 0x2700000027 (3478)%Z 0x0 0xd6150000d61d;
  mkModel 0x2700000027 (3479)%Z 0x0 0xd61d0000d629;
  mkModel 0x2700000027 (3480)%Z 0x0 0xd6290000d631;
  mkModel 0x2700000027 (3481)%Z 0x0 0xd6310000d639;
  mkModel 0x2700000027 (3482)%Z 0x0 0xd6390000d645;
  mkModel 0x2700000027 (-1)%Z 0xd6450000d64d 0xd64d0000d65a;
  mkModel 0x2700000027 (3483)%Z 0x0 0xd65a0000d664;
  mkModel 0x2700000027 (3484)%Z 0x0 0xd6640000d66b;
  mkModel 0x2700000027 (3485)%Z 0x0 0xd66b0000d677;
  mkModel 0x2700000027 (3486)%Z 0x0 0xd6770000d67f;
  mkModel 0x2700000027 (3487)%Z 0x0 0xd67f0000d68c;
  mkModel 0x2700000027 (3488)%Z 0x0 0xd68c0000d695;
  mkModel 0x2700000027 (3489)%Z 0x0 0xd6950000d69d;
  mkModel 0x2700000027 (3490)%Z 0x0 0xd69d0000d6a5;
  mkModel 0x2700000027 (-1)%Z 0xd6a50000d6ae 0xd6ae0000d6b6;
  mkModel 0x2700000027 (3491)%Z 0x0 0xd6b60000d6c2;
  mkModel 0x2700000027 (3492)%Z 0x0 0xd6c20000d6cd;
  mkModel 0x2700000027 (-1)%Z 0xd6cd0000d6d5 0xd6d50000d6e1;
  mkModel 0x2700000027 (-1)%Z 0xd6e10000d6e9 0xd6e90000d6f6;
  mkModel 0x2700000027 (-1)%Z 0xd6f60000d6fe 0xd6fe0000d709;
  mkModel 0x2700000027 (-1)%Z 0xd7090000d711 0xd7110000d719;
  mkModel 0x2700000027 (3493)%Z 0x0 0xd7190000d726;
  mkModel 0x2700000027 (3494)%Z 0x0 0xd7260000d732;
  mkModel 0x2700000027 (3495)%Z 0x0 0xd7320000d743;
  mkModel 0x2700000027 (3496)%Z 0x0 0xd7430000d74b;
  mkModel 0x2700000027 (3497)%Z 0x0 0xd74b0000d753;
  mkModel 0x2700000027 (3498)%Z 0x0 0xd7530000d764;
  mkModel 0x2700000027 (3499)%Z 0x0 0xd7640000d76c;
  mkModel 0x2700000027 (3500)%Z 0x0 0xd76c0000d778;
  mkModel 0x2700000027 (3501)%Z 0x0 0xd7780000d77f;
  mkModel 0x2700000027 (-1)%Z 0xd77f0000d786 0xd7860000d793;
  mkModel 0x2700000027 (3502)%Z 0x0 0xd7930000d79b;
  mkModel 0x2700000027 (3503)%Z 0x0 0xd79b0000d7a3;
  mkModel 0x2700000027 (3504)%Z 0x0 0xd7a30000d7ab;
  mkModel 0x2700000027 (3505)%Z 0x0 0xd7ab0000d7b3;
  mkModel 0x2700000027 (3506)%Z 0x0 0xd7b30000d7ba;
  mkModel 0x2700000027 (3507)%Z 0x0 0xd7ba0000d7c2;
  mkModel 0x2700000027 (-1)%Z 0xd7c20000d7cb 0xd7cb0000d7d6;
  mkModel 0x2700000027 (3508)%Z 0x0 0xd7d60000d7de;
  mkModel 0x2700000027 (3509)%Z 0x0 0xd7de0000d7e5;
  mkModel 0x2700000027 (3510)%Z 0x0 0xd7e50000d7f1;
  mkModel 0x2a1000002a7 (3511)%Z 0x0 0xd7f10000d7fc;
  mkModel 0x2a1000002a7 (3512)%Z 0x0 0xd7fc0000d811;
  mkModel 0x2a1000002a7 (3513)%Z 0x0 0xd8110000d825;
  mkModel 0x2a1000002a7 (3514)%Z 0x0 0xd8250000d830;
  mkModel 0x2700000027 (-1)%Z 0xd8300000d838 0xd8380000d840;
  mkModel 0x2700000027 (3515)%Z 0x0 0xc40d0000c414;
  mkModel 0x2700000027 (3516)%Z 0x0 0xd8400000d846;
  mkModel 0x2700000027 (3517)%Z 0x0 0x9ad000009ad3;
  mkModel 0x2700000027 (-1)%Z 0xd8460000d84d 0xd84d0000d855;
  mkModel 0x2700000027 (3518)%Z 0x0 0xd8550000d85d;
  mkModel 0x2700000027 (3519)%Z 0x0 0xd85d0000d865;
  mkModel 0x2700000027 (3520)%Z 0x0 0xd8650000d86d;
  mkModel 0x2700000027 (3521)%Z 0x0 0xd86d0000d879;
  mkModel 0x2700000027 (3522)%Z 0x0 0xd8790000d882;
  mkModel 0x2700000027 (-1)%Z 0xd8820000d88a 0xd88a0000d893;
  mkModel 0x2700000027 (3523)%Z 0x0 0xd8930000d89c;
  mkModel 0x2700000027 (3524)%Z 0x0 0xd89c0000d8a5;
  mkModel 0x2700000027 (-1)%Z 0xd8a50000d8ac 0xd8ac0000d8b8;
  mkModel 0x2700000027 (3525)%Z 0x0 0xd8b80000d8c2;
  mkModel 0x2700000027 (3526)%Z 0x0 0xd8c20000d8c9;
  mkModel 0x2700000027 (3527)%Z 0x0 0xd8c90000d8d2;
  mkModel 0x2700000027 (-1)%Z 0xd8d20000d8da 0xd8da0000d8e0;
  mkModel 0x2700000027 (3528)%Z 0x0 0xd8e00000d8e7;
  mkModel 0x2700000027 (-1)%Z 0xd8e70000d8ef 0xd8ef0000d8f6;
  mkModel 0x2700000027 (3529)%Z 0x0 0xd8f60000d8fd;
  mkModel 0x2700000027 (3530)%Z 0x0 0xd8fd0000d904;
  mkModel 0x2700000027 (-1)%Z 0xd9040000d90c 0xd90c0000d916;
  mkModel 0x2700000027 (3531)%Z 0x0 0xd9160000d91d;
  mkModel 0x2700000027 (3532)%Z 0x0 0xd91d0000d929;
  mkModel 0x2700000027 (3533)%Z 0x0 0xd9290000d934;
  mkModel 0x2700000027 (3534)%Z 0x0 0xd9340000d93b;
  mkModel 0x2700000027 (3535)%Z 0x0 0xd93b0000d947;
  mkModel 0x2700000027 (3536)%Z 0x0 0xd9470000d952;
  mkModel 0x2700000027 (3537)%Z 0x0 0xd9520000d95c;
  mkModel 0x2700000027 (3538)%Z 0x0 0xd95c0000d965;
  mkModel 0x2700000027 (3539)%Z 0x0 0xd9650000d96c;
  mkModel 0x2700000027 (-1)%Z 0xd96c0000d974 0xd9740000d97e;
  mkModel 0x2700000027 (3540)%Z 0x0 0xd97e0000d997;
  mkModel 0x2700000027 (3541)%Z 0x0 0xd9970000d9a3;
  mkModel 0x2700000027 (3542)%Z 0x0 0xd9a30000d9ae;
  mkModel 0x2700000027 (3543)%Z 0x0 0xd9ae0000d9bc;
  mkModel 0x2700000027 (3544)%Z 0x0 0xd9bc0000d9cb;
  mkModel 0x2700000027 (3545)%Z 0x0 0xd9cb0000d9d6;
  mkModel 0x2700000027 (-1)%Z 0xd9d60000d9de 0xd9de0000d9ed;
  mkModel 0x2700000027 (3546)%Z 0x0 0xd9ed0000d9f9;
  mkModel 0x2700000027 (3547)%Z 0x0 0xd9f90000da03;
  mkModel 0x2700000027 (3548)%Z 0x0 0xda030000da0a;
  mkModel 0x2700000027 (3549)%Z 0x0 0xda0a0000da12;
  mkModel 0x2700000027 (3550)%Z 0x0 0xda120000da1d;
  mkModel 0x2700000027 (3551)%Z 0x0 0xda1d0000da24;
  mkModel 0x2700000027 (-1)%Z 0xda240000da2c 0xda2c0000da34;
  mkModel 0x2700000027 (3552)%Z 0x0 0xda340000da3f;
  mkModel 0x2700000027 (-1)%Z 0xda3f0000da47 0xda470000da53;
  mkModel 0x2700000027 (-1)%Z 0xda530000da5b 0xda5b0000da62;
  mkModel 0x2700000027 (3553)%Z 0x0 0xda620000da68;
  mkModel 0x2700000027 (3554)%Z 0x0 0xda680000da6e;
  mkModel 0x2700000027 (3555)%Z 0x0 0xda6e0000da79;
  mkModel 0x2700000027 (3556)%Z 0x0 0xda790000da83;
  mkModel 0x2700000027 (3557)%Z 0x0 0xda830000da8a;
  mkModel 0x2700000027 (3558)%Z 0x0 0xda8a0000daa0;
  mkModel 0x2700000027 (3559)%Z 0x0 0xdaa00000daa6;
  mkModel 0x2700000027 (3560)%Z 0x0 0xdaa60000daad;
  mkModel 0x2700000027 (3561)%Z 0x0 0x618d00006191;
  mkModel 0x2700000027 (3562)%Z 0x0 0xdaad0000dab6;
  mkModel 0x2700000027 (3563)%Z 0x0 0xdab60000dabf;
  mkModel 0x2700000027 (3564)%Z 0x0 0xdabf0000dacb;
  mkModel 0x2700000027 (3565)%Z 0x0 0xdacb0000dad1;
  mkModel 0x2700000027 (3566)%Z 0x0 0xdad10000dadc;
  mkModel 0x2700000027 (3567)%Z 0x0 0xdadc0000dae7;
  mkModel 0x2700000027 (3568)%Z 0x0 0xdae70000dafb;
  mkModel 0x2700000027 (3569)%Z 0x0 0xdafb0000db02;
  mkModel 0x2700000027 (3570)%Z 0x0 0xdb020000db09;
  mkModel 0x2700000027 (3571)%Z 0x0 0xdb090000db0f;
  mkModel 0x2700000027 (3572)%Z 0x0 0xdb0f0000db16;
  mkModel 0x2700000027 (3573)%Z 0x0 0xdb160000db1d;
  mkModel 0x2700000027 (3574)%Z 0x0 0xdb1d0000db23;
  mkModel 0x2700000027 (3575)%Z 0x0 0xdb230000db2a;
  mkModel 0x2700000027 (3576)%Z 0x0 0xdb2a0000db30;
  mkModel 0x2700000027 (3577)%Z 0x0 0xdb300000db3a;
  mkModel 0x2700000027 (3578)%Z 0x0 0xdb3a0000db41;
  mkModel 0x2700000027 (3579)%Z 0x0 0xdb410000db48;
  mkModel 0x2700000027 (-1)%Z 0xdb480000db53 0xdb530000db5e;
  mkModel 0x2700000027 (3580)%Z 0x0 0xdb5e0000db69;
  mkModel 0x2700000027 (3581)%Z 0x0 0xdb690000db72;
  mkModel 0x2700000027 (3582)%Z 0x0 0xdb720000db7b;
  mkModel 0x2700000027 (3583)%Z 0x0 0xdb7b0000db81;
  mkModel 0x2700000027 (3584)%Z 0x0 0xdb810000db8a;
  mkModel 0x2700000027 (3585)%Z 0x0 0xdb8a0000db97;
  mkModel 0x2700000027 (3586)%Z 0x0 0xdb970000dba3;
  mkModel 0x2700000027 (-1)%Z 0xdba30000dbaa 0xdbaa0000dbb2;
  mkModel 0x2700000027 (-1)%Z 0xdbb20000dbbb 0xdbbb0000dbc8;
  mkModel 0x2700000027 (3587)%Z 0x0 0xdbc80000dbd3;
  mkModel 0x2700000027 (3588)%Z 0x0 0xdbd30000dbda;
  mkModel 0x2700000027 (3589)%Z 0x0 0xdbda0000dbe6;
  mkModel 0x2700000027 (-1)%Z 0xdbe60000dbee 0xdbee0000dbf8;
  mkModel 0x2700000027 (-1)%Z 0xdbf80000dc01 0xdc010000dc0e;
  mkModel 0x2700000027 (-1)%Z 0xdc0e0000dc17 0xdc170000dc1e;
  mkModel 0x2700000027 (-1)%Z 0xdc1e0000dc25 0xdc250000dc2d;
  mkModel 0x2700000027 (-1)%Z 0xdc2d0000dc34 0xdc340000dc3c;
  mkModel 0x2700000027 (-1)%Z 0xdc3c0000dc43 0xdc430000dc4e;
  mkModel 0x2700000027 (-1)%Z 0xdc4e0000dc56 0xdc560000dc61;
  mkModel 0x2700000027 (-1)%Z 0xdc610000dc69 0xdc170000dc1e;
  mkModel 0x2700000027 (3590)%Z 0x0 0xdc690000dc70;
  mkModel 0x2700000027 (-1)%Z 0xdc700000dc78 0xdc780000dc7f;
  mkModel 0x2700000027 (3591)%Z 0x0 0xdc7f0000dc86;
  mkModel 0x2700000027 (3592)%Z 0x0 0xdc860000dc8d;
  mkModel 0x2700000027 (3593)%Z 0x0 0xdc8d0000dc96;
  mkModel 0x2700000027 (-1)%Z 0xdc960000dc9e 0xdc9e0000dcaa;
  mkModel 0x2700000027 (3594)%Z 0x0 0xdcaa0000dcb6;
  mkModel 0x2700000027 (-1)%Z 0xdcb60000dcbe 0xdcbe0000dcd0;
  mkModel 0x2700000027 (3595)%Z 0x0 0xdcd00000dcdd;
  mkModel 0x2700000027 (3596)%Z 0x0 0xdcdd0000dcea;
  mkModel 0x2700000027 (3597)%Z 0x0 0xdcea0000dcf0;
  mkModel 0x2700000027 (3598)%Z 0x0 0xdcf00000dcf6;
  mkModel 0x2700000027 (3599)%Z 0x0 0xdcf60000dd00;
  mkModel 0x2700000027 (3600)%Z 0x0 0xdd000000dd09;
  mkModel 0x2700000027 (3601)%Z 0x0 0xdd090000dd14;
  mkModel 0x2700000027 (3602)%Z 0x0 0xdd140000dd1e;
  mkModel 0x2700000027 (3603)%Z 0x0 0xdd1e0000dd28;
  mkModel 0x2700000027 (-1)%Z 0xdd280000dd30 0xdd300000dd38;
  mkModel 0x2700000027 (-1)%Z 0xdd380000dd40 0xdbaa0000dbb2;
  mkModel 0x2700000027 (3604)%Z 0x0 0xdd400000dd4a;
  mkModel 0x2700000027 (3605)%Z 0x0 0xdd4a0000dd54;
  mkModel 0x2700000027 (3606)%Z 0x0 0xdd540000dd5f;
  mkModel 0x2700000027 (3607)%Z 0x0 0xdd5f0000dd67;
  mkModel 0x2700000027 (3608)%Z 0x0 0xdd670000dd6f;
  mkModel 0x2700000027 (3609)%Z 0x0 0xdd6f0000dd77;
  mkModel 0x2700000027 (-1)%Z 0xdd770000dd7e 0xdd7e0000dd87;
  mkModel 0x2700000027 (3610)%Z 0x0 0xdd870000dd8f;
  mkModel 0x2700000027 (3611)%Z 0x0 0xdd8f0000dd97;
  mkModel 0x2700000027 (3612)%Z 0x0 0xdd970000dd9e;
  mkModel 0x2700000027 (3613)%Z 0x0 0xdd9e0000ddac;
  mkModel 0x2700000027 (3614)%Z 0x0 0xddac0000ddba;
  mkModel 0x2700000027 (3615)%Z 0x0 0xddba0000ddc8;
  mkModel 0x2700000027 (3616)%Z 0x0 0xddc80000ddd1;
  mkModel 0x2700000027 (3617)%Z 0x0 0xddd10000ddda;
  mkModel 0x2700000027 (3618)%Z 0x0 0xddda0000dddd;
  mkModel 0x2700000027 (3619)%Z 0x0 0xdddd0000dde5;
  mkModel 0x2700000027 (3620)%Z 0x0 0xd8380000d840;
  mkModel 0x2700000027 (3621)%Z 0x0 0xdde50000ddef;
  mkModel 0x2700000027 (3622)%Z 0x0 0xddef0000ddf2;
  mkModel 0x2700000027 (3623)%Z 0x0 0xddf20000ddfa;
  mkModel 0x2700000027 (3624)%Z 0x0 0xddfa0000de01
].
Definition d_dr_dm_24 : list modelTuple := [
  mkModel 0x2700000027 (3625)%Z 0x0 0xde010000de04;
  mkModel 0x2700000027 (3626)%Z 0x0 0xde040000de0c;
  mkModel 0x2700000027 (-1)%Z 0xde0c0000de17 0xde170000de22;
  mkModel 0x2700000027 (3627)%Z 0x0 0xc40d0000c414;
  mkModel 0x2700000027 (3628)%Z 0x0 0x9ad000009ad3;
  mkModel 0x2700000027 (3629)%Z 0x0 0xde220000de2a;
  mkModel 0x2700000027 (3630)%Z 0x0 0xde2a0000de34;
  mkModel 0x2700000027 (3631)%Z 0x0 0xde340000de42;
  mkModel 0x2700000027 (3632)%Z 0x0 0xde420000de49;
  mkModel 0x2700000027 (3633)%Z 0x0 0xde490000de55;
  mkModel 0x2700000027 (3634)%Z 0x0 0xde550000de57;
  mkModel 0x2700000027 (3635)%Z 0x0 0xb0100000b016;
  mkModel 0x2700000027 (3636)%Z 0x0 0xde570000de61;
  mkModel 0x2700000027 (3637)%Z 0x0 0xde610000de6f;
  mkModel 0x2700000027 (3638)%Z 0x0 0xde6f0000de7d;
  mkModel 0x2700000027 (3639)%Z 0x0 0xde7d0000de7f;
  mkModel 0x2700000027 (3640)%Z 0x0 0xde7f0000de86;
  mkModel 0x2700000027 (3641)%Z 0x0 0xde860000de95;
  mkModel 0x2700000027 (3642)%Z 0x0 0xde950000dea1;
  mkModel 0x2700000027 (3643)%Z 0x0 0xdea10000deae;
  mkModel 0x2700000027 (3644)%Z 0x0 0xdeae0000deb5;
  mkModel 0x2700000027 (3645)%Z 0x0 0xdeb50000debc;
  mkModel 0x2700000027 (3646)%Z 0x0 0xdebc0000dec3;
  mkModel 0x2700000027 (3647)%Z 0x0 0xdec30000dec8;
  mkModel 0x2700000027 (3648)%Z 0x0 0x401300004016;
  mkModel 0x2700000027 (3649)%Z 0x0 0xdec80000decd;
  mkModel 0x2700000027 (3650)%Z 0x0 0xdecd0000ded6;
  mkModel 0x2700000027 (3651)%Z 0x0 0xded60000dedf;
  mkModel 0x2700000027 (3652)%Z 0x0 0xdedf0000dee3;
  mkModel 0x2700000027 (3653)%Z 0x0 0xdee30000deec;
  mkModel 0x2700000027 (3654)%Z 0x0 0xdeec0000def5;
  mkModel 0x2700000027 (3655)%Z 0x0 0xdef50000defe;
  mkModel 0x2700000027 (3656)%Z 0x0 0xdefe0000df05;
  mkModel 0x2700000027 (3657)%Z 0x0 0xdf050000df08;
  mkModel 0x2700000027 (3658)%Z 0x0 0xdf080000df16;
  mkModel 0x2700000027 (3659)%Z 0x0 0xdf160000df24;
  mkModel 0x2700000027 (3660)%Z 0x0 0xdf240000df33;
  mkModel 0x2700000027 (3661)%Z 0x0 0xdf330000df40;
  mkModel 0x2700000027 (3662)%Z 0x0 0xdf400000df44;
  mkModel 0x2700000027 (3663)%Z 0x0 0xdf440000df46;
  mkModel 0x2700000027 (3664)%Z 0x0 0xdf460000df53;
  mkModel 0x2700000027 (3665)%Z 0x0 0xdf530000df5b;
  mkModel 0x2700000027 (3666)%Z 0x0 0xdf5b0000df64;
  mkModel 0x2700000027 (3667)%Z 0x0 0xdf640000df6d;
  mkModel 0x2700000027 (3668)%Z 0x0 0xdf6d0000df76;
  mkModel 0x2700000027 (3669)%Z 0x0 0xdf760000df7f;
  mkModel 0x2700000027 (3670)%Z 0x0 0xdf7f0000df8e;
  mkModel 0x2700000027 (3671)%Z 0x0 0xdf8e0000df94;
  mkModel 0x2700000027 (3672)%Z 0x0 0xdf940000dfa1;
  mkModel 0x2700000027 (3673)%Z 0x0 0xdfa10000dfa5;
  mkModel 0x2700000027 (3674)%Z 0x0 0xdfa50000dfa9;
  mkModel 0x2700000027 (3675)%Z 0x0 0xdfa90000dfb6;
  mkModel 0x2700000027 (3676)%Z 0x0 0xdfb60000dfba;
  mkModel 0x2700000027 (3677)%Z 0x0 0xdfba0000dfc3;
  mkModel 0x2700000027 (3678)%Z 0x0 0xdfc30000dfcc;
  mkModel 0x2700000027 (3679)%Z 0x0 0xdfcc0000dfd5;
  mkModel 0x2700000027 (3680)%Z 0x0 0xdfd50000dfdd;
  mkModel 0x2700000027 (3681)%Z 0x0 0xdfdd0000dfec;
  mkModel 0x2700000027 (3682)%Z 0x0 0xdfec0000dff9;
  mkModel 0x2700000027 (3683)%Z 0x0 0xdff90000e000;
  mkModel 0x2700000027 (3684)%Z 0x0 0xdfec0000dff9;
  mkModel 0x2700000027 (3685)%Z 0x0 0xe0000000e003;
  mkModel 0x2700000027 (3686)%Z 0x0 0xe0030000e006;
  mkModel 0x2700000027 (3687)%Z 0x0 0xe0060000e009;
  mkModel 0x2700000027 (3688)%Z 0x0 0xe0090000e012;
  mkModel 0x2700000027 (3689)%Z 0x0 0xe0120000e01b;
  mkModel 0x2700000027 (3690)%Z 0x0 0xe01b0000e02a;
  mkModel 0x2700000027 (3691)%Z 0x0 0xe02a0000e02d;
  mkModel 0x2700000027 (3692)%Z 0x0 0xe02d0000e035;
  mkModel 0x2700000027 (3693)%Z 0x0 0xe0350000e038;
  mkModel 0x2700000027 (3694)%Z 0x0 0xe0380000e043;
  mkModel 0x2700000027 (3695)%Z 0x0 0xe0430000e04a;
  mkModel 0x2700000027 (3696)%Z 0x0 0xe04a0000e053;
  mkModel 0xdfd00000e04 (3697)%Z 0x0 0xe0530000e05b;
  mkModel 0xdfd00000e04 (3698)%Z 0x0 0xe05b0000e072;
  mkModel 0x2a1000002a7 (-1)%Z 0xe0720000e07b 0xe07b0000e08c;
  mkModel 0x2a1000002a7 (-1)%Z 0xe08c0000e093 0xe0930000e0a8;
  mkModel 0x2a1000002a7 (3699)%Z 0x0 0xe0a80000e0b8;
  mkModel 0x2a1000002a7 (3700)%Z 0x0 0xe0b80000e0cc;
  mkModel 0x2a1000002a7 (3701)%Z 0x0 0xe0cc0000e0e5;
  mkModel 0x2a1000002a7 (3702)%Z 0x0 0xe0e50000e0f2;
  mkModel 0x2a1000002a7 (-1)%Z 0xe0f20000e0fa 0xe0fa0000e10c;
  mkModel 0x2a1000002a7 (-1)%Z 0xe10c0000e115 0xe1150000e125;
  mkModel 0x2a1000002a7 (-1)%Z 0xe1250000e12c 0xe12c0000e13b;
  mkModel 0x2a1000002a7 (-1)%Z 0xe13b0000e143 0xe1430000e155;
  mkModel 0x2a1000002a7 (-1)%Z 0xe1550000e15d 0xe15d0000e16a;
  mkModel 0x2a1000002a7 (-1)%Z 0xe16a0000e171 0xe1710000e182;
  mkModel 0x2a1000002a7 (3703)%Z 0x0 0xe1820000e198;
  mkModel 0x2a1000002a7 (3704)%Z 0x0 0xe1980000e1a6;
  mkModel 0x2a1000002a7 (3705)%Z 0x0 0xe1a60000e1b9;
  mkModel 0x2a1000002a7 (-1)%Z 0xe1b90000e1c1 0xe1c10000e1db;
  mkModel 0x2a1000002a7 (3706)%Z 0x0 0xe1db0000e1ed;
  mkModel 0x2a1000002a7 (3707)%Z 0x0 0xe1ed0000e1fa;
  mkModel 0x2a1000002a7 (3708)%Z 0x0 0xe1fa0000e206;
  mkModel 0x2a1000002a7 (3709)%Z 0x0 0xe2060000e217;
  mkModel 0x2a1000002a7 (3710)%Z 0x0 0xe2170000e227;
  mkModel 0x2a1000002a7 (3711)%Z 0x0 0xe2270000e23d;
  mkModel 0x2a1000002a7 (-1)%Z 0xe23d0000e245 0xe2450000e256;
  mkModel 0x2a1000002a7 (-1)%Z 0xe2560000e25e 0xe25e0000e26f;
  mkModel 0x2a1000002a7 (-1)%Z 0xe26f0000e276 0xe2760000e288;
  mkModel 0x2a1000002a7 (-1)%Z 0xe2880000e290 0xe2900000e2a9;
  mkModel 0x2a1000002a7 (3712)%Z 0x0 0xe2a90000e2bd;
  mkModel 0x2a1000002a7 (3713)%Z 0x0 0xe2bd0000e2d2;
  mkModel 0x2a1000002a7 (3714)%Z 0x0 0xe2d20000e2ea;
  mkModel 0x2a1000002a7 (3715)%Z 0x0 0xe2ea0000e2f6;
  mkModel 0x2a1000002a7 (3716)%Z 0x0 0xe2f60000e302;
  mkModel 0x2a1000002a7 (3717)%Z 0x0 0xe3020000e309;
  mkModel 0x2a1000002a7 (3718)%Z 0x0 0xe3090000e317;
  mkModel 0x2a1000002a7 (3719)%Z 0x0 0xe3170000e32a;
  mkModel 0x2a1000002a7 (3720)%Z 0x0 0xe32a0000e333;
  mkModel 0x2a1000002a7 (3721)%Z 0x0 0xe3330000e340;
  mkModel 0x2a1000002a7 (3722)%Z 0x0 0xe3400000e350;
  mkModel 0x2a1000002a7 (3723)%Z 0x0 0xe3500000e361;
  mkModel 0x2a1000002a7 (3724)%Z 0x0 0xe3610000e376;
  mkModel 0x2a1000002a7 (3725)%Z 0x0 0xe3760000e387;
  mkModel 0x2a1000002a7 (3726)%Z 0x0 0xe3870000e39d;
  mkModel 0x2a1000002a7 (3727)%Z 0x0 0xe39d0000e3ba;
  mkModel 0x2a1000002a7 (-1)%Z 0xe3ba0000e3c1 0xe3c10000e3de;
  mkModel 0x2a1000002a7 (3728)%Z 0x0 0xe3de0000e3f2;
  mkModel 0x2a1000002a7 (3729)%Z 0x0 0xe3f20000e408;
  mkModel 0x2a1000002a7 (-1)%Z 0xe4080000e410 0xe4100000e421;
  mkModel 0x2a1000002a7 (3730)%Z 0x0 0xe4210000e437;
  mkModel 0x2a1000002a7 (3731)%Z 0x0 0xe4370000e454;
  mkModel 0x2a1000002a7 (3732)%Z 0x0 0xe4540000e464;
  mkModel 0x2a1000002a7 (3733)%Z 0x0 0xe4640000e478;
  mkModel 0x2a1000002a7 (3734)%Z 0x0 0xe4780000e489;
  mkModel 0x2a1000002a7 (3735)%Z 0x0 0xe4890000e494;
  mkModel 0x2a1000002a7 (3736)%Z 0x0 0xe4940000e4a4;
  mkModel 0x2a1000002a7 (3737)%Z 0x0 0xe4a40000e4b3;
  mkModel 0x2a1000002a7 (3738)%Z 0x0 0xe4b30000e4c2;
  mkModel 0x2a1000002a7 (3739)%Z 0x0 0xe4c20000e4d8;
  mkModel 0x2a1000002a7 (3740)%Z 0x0 0xe4d80000e4e5;
  mkModel 0x2a1000002a7 (3741)%Z 0x0 0xe4e50000e4f5;
  mkModel 0x2a1000002a7 (3742)%Z 0x0 0xe4f50000e508;
  mkModel 0x2a1000002a7 (-1)%Z 0xe5080000e510 0xe5100000e51b;
  mkModel 0x2a1000002a7 (3743)%Z 0x0 0xe51b0000e529;
  mkModel 0x2a1000002a7 (3744)%Z 0x0 0xe5290000e538;
  mkModel 0x2a1000002a7 (3745)%Z 0x0 0xe5380000e545;
  mkModel 0x2a1000002a7 (3746)%Z 0x0 0xe5450000e553;
  mkModel 0x2a1000002a7 (3747)%Z 0x0 0xe5530000e560;
  mkModel 0x2a1000002a7 (3748)%Z 0x0 0xe5600000e56d;
  mkModel 0x2a1000002a7 (3749)%Z 0x0 0xe56d0000e57c;
  mkModel 0x2a1000002a7 (3750)%Z 0x0 0xe57c0000e58f;
  mkModel 0x2a1000002a7 (3751)%Z 0x0 0xe58f0000e5a2;
  mkModel 0x2a1000002a7 (3752)%Z 0x0 0xe5a20000e5b7;
  mkModel 0x2a1000002a7 (3753)%Z 0x0 0xe5b70000e5c5;
  mkModel 0x2a1000002a7 (3754)%Z 0x0 0xe5c50000e5d2;
  mkModel 0x2a1000002a7 (3755)%Z 0x0 0xe5d20000e5df;
  mkModel 0x2a1000002a7 (-1)%Z 0xe5df0000e5e8 0xe5e80000e5fe;
  mkModel 0x2a1000002a7 (-1)%Z 0xe5fe0000e607 0xe6070000e61f;
  mkModel 0x2a1000002a7 (-1)%Z 0xe61f0000e628 0xe6280000e63f;
  mkModel 0x2a1000002a7 (-1)%Z 0xe63f0000e648 0xe6480000e65e;
  mkModel 0x2a1000002a7 (-1)%Z 0xe65e0000e666 0xe6660000e67c;
  mkModel 0x2a1000002a7 (-1)%Z 0xe67c0000e684 0xe6840000e699;
  mkModel 0x2a1000002a7 (3756)%Z 0x0 0xe6990000e6aa;
  mkModel 0x2a1000002a7 (3757)%Z 0x0 0xe6aa0000e6c3;
  mkModel 0x2a1000002a7 (3758)%Z 0x0 0xe6c30000e6d3;
  mkModel 0x2a1000002a7 (-1)%Z 0xe6d30000e6da 0xe6da0000e6f0;
  mkModel 0x2a1000002a7 (-1)%Z 0xe6f00000e6f9 0xe6f90000e707;
  mkModel 0x2a1000002a7 (3759)%Z 0x0 0xe7070000e718;
  mkModel 0x2a1000002a7 (3760)%Z 0x0 0xe7180000e72e;
  mkModel 0x2a1000002a7 (-1)%Z 0xe72e0000e736 0xe3330000e340;
  mkModel 0x2a1000002a7 (-1)%Z 0xe7360000e73f 0xe73f0000e747;
  mkModel 0x2a1000002a7 (-1)%Z 0xe7470000e74e 0xe74e0000e763;
  mkModel 0x2a1000002a7 (-1)%Z 0xe7630000e76b 0xe76b0000e77b;
  mkModel 0x2a1000002a7 (3761)%Z 0x0 0xe77b0000e788;
  mkModel 0x2a1000002a7 (3762)%Z 0x0 0xe7880000e78f;
  mkModel 0x2b1e00002b26 (3763)%Z 0x0 0xe78f0000e79c;
  mkModel 0x2b1e00002b26 (3764)%Z 0x0 0xe79c0000e7af;
  mkModel 0x2b1e00002b26 (-1)%Z 0xe7af0000e7b7 0xe7b70000e7c8;
  mkModel 0x2b1e00002b26 (-1)%Z 0xe7c80000e7d0 0xe7d00000e7d7;
  mkModel 0x62600000633 (3765)%Z 0x0 0xe7d70000e7e9;
  mkModel 0x23b0000023d (3766)%Z 0x0 0xe7e90000e7f2;
  mkModel 0x23b0000023d (-1)%Z 0xe7f20000e7fa 0xe7fa0000e806;
  mkModel 0x23b0000023d (-1)%Z 0xe8060000e80e 0xe80e0000e81a;
  mkModel 0x23b0000023d (3767)%Z 0x0 0xe81a0000e82c;
  mkModel 0x23b0000023d (-1)%Z 0xe82c0000e835 0xe8350000e84b;
  mkModel 0x23b0000023d (-1)%Z 0xe84b0000e854 0xe8540000e86a;
  mkModel 0x23b0000023d (-1)%Z 0xe86a0000e872 0xe8720000e884;
  mkModel 0x23b0000023d (-1)%Z 0xe8840000e88d 0xe88d0000e8a3;
  mkModel 0x23b0000023d (-1)%Z 0xe8a30000e8ab 0xe8ab0000e8bd;
  mkModel 0x2a1000002a7 (3768)%Z 0x0 0x18000000182;
  mkModel 0x2700000027 (3769)%Z 0x0 0xe8bd0000e8c4;
  mkModel 0xdfd00000e04 (3770)%Z 0x0 0xe8c40000e8d2;
  mkModel 0x2700000027 (3771)%Z 0x0 0x18000000182;
  mkModel 0x2700000027 (3772)%Z 0x0 0x18000000182;
  mkModel 0x2700000027 (3773)%Z 0x0 0x18000000182;
  mkModel 0x2700000027 (3775)%Z 0x0 0x18000000182;
  mkModel 0x2700000027 (-1)%Z 0xe8da0000e8e3 0xe8e30000e8ee;
  mkModel 0x2700000027 (3776)%Z 0x0 0xe9020000e918;
  mkModel 0x2700000027 (3777)%Z 0x0 0xe9180000e929;
  mkModel 0x2700000027 (3779)%Z 0x0 0x18000000182;
  mkModel 0x2700000027 (3780)%Z 0x0 0x18000000182;
  mkModel 0x8e00000099 (3781)%Z 0x0 0x18000000182;
  mkModel 0x2700000027 (3783)%Z 0x0 0xe9370000e93d;
  mkModel 0x2700000027 (3784)%Z 0x0 0x8f8000008f84;
  mkModel 0x2700000027 (3785)%Z 0x0 0xe93d0000e943;
  mkModel 0x2700000027 (3786)%Z 0x0 0xe9430000e947;
  mkModel 0x2700000027 (-1)%Z 0xe9470000e94c 0xe9470000e94c;
  mkModel 0x2700000027 (-1)%Z 0xe94c0000e951 0xe94c0000e951
].
Definition d_dr_dm_25 : list modelTuple := [
  mkModel 0x2700000027 (-1)%Z 0xe9510000e956 0xe9560000e95b;
  mkModel 0x2700000027 (-1)%Z 0xe95b0000e95f 0xe95f0000e963;
  mkModel 0x2700000027 (-1)%Z 0xe9630000e967 0xe9630000e967;
  mkModel 0x2700000027 (-1)%Z 0xe9670000e96b 0xe9670000e96b;
  mkModel 0x2700000027 (-1)%Z 0x8ef700008efb 0x8ef700008efb;
  mkModel 0x2700000027 (-1)%Z 0xe96b0000e971 0xe96b0000e971;
  mkModel 0x2700000027 (-1)%Z 0xe9710000e97b 0xe97b0000e985;
  mkModel 0x2700000027 (-1)%Z 0xe9850000e98f 0xe9850000e98f;
  mkModel 0x2700000027 (-1)%Z 0xe98f0000e998 0xe98f0000e998;
  mkModel 0x2700000027 (-1)%Z 0xe9980000e9a6 0xe9a60000e9b6;
  mkModel 0x2700000027 (-1)%Z 0xe9b60000e9c0 0xe9c00000e9cb;
  mkModel 0x2700000027 (-1)%Z 0xe9cb0000e9d1 0xe9cb0000e9d1;
  mkModel 0x2700000027 (-1)%Z 0xe9d10000e9d6 0xe9d10000e9d6;
  mkModel 0x2700000027 (-1)%Z 0x8fd900008fe0 0x8fd900008fe0;
  mkModel 0x2700000027 (-1)%Z 0xe9dc0000e9e3 0xe9e30000e9ea;
  mkModel 0x2a1000002a7 (3788)%Z 0x0 0x18000000182;
  mkModel 0x0 (-1)%Z 0x0 0xe9f00000e9f8;
  mkModel 0x0 (-1)%Z 0x0 0xea0c0000ea13;
  mkModel 0x7cc000007d6 (3791)%Z 0x0 0x18000000182;
  mkModel 0x2700000027 (3793)%Z 0x0 0xea200000ea31;
  mkModel 0x2700000027 (3794)%Z 0x0 0xea310000ea39;
  mkModel 0x2700000027 (-1)%Z 0xea390000ea41 0xea390000ea41;
  mkModel 0x2700000027 (-1)%Z 0xea410000ea4a 0xea4a0000ea53;
  mkModel 0x2700000027 (-1)%Z 0xea530000ea5c 0xea5c0000ea65;
  mkModel 0x2700000027 (-1)%Z 0xea650000ea71 0xea650000ea71;
  mkModel 0x2700000027 (3795)%Z 0x0 0xea710000ea79;
  mkModel 0x2700000027 (-1)%Z 0xea790000ea80 0xea800000ea8c;
  mkModel 0x2700000027 (3796)%Z 0x0 0xea8c0000ea97;
  mkModel 0x2700000027 (-1)%Z 0xea970000ea9e 0xea9e0000eaaa;
  mkModel 0x2700000027 (-1)%Z 0xeaaa0000eab1 0xeab10000eabd;
  mkModel 0x2700000027 (-1)%Z 0xeabd0000eac4 0xeac40000ead0;
  mkModel 0x2700000027 (-1)%Z 0xead00000ead6 0xead00000ead6;
  mkModel 0x2700000027 (-1)%Z 0xead60000eae0 0xead60000eae0;
  mkModel 0x2700000027 (-1)%Z 0xeae00000eaec 0xeaec0000eaf8;
  mkModel 0x2700000027 (-1)%Z 0xeaf80000eafe 0xeafe0000eb05;
  mkModel 0x2700000027 (-1)%Z 0xeb050000eb0f 0xeb0f0000eb19;
  mkModel 0x2700000027 (3797)%Z 0x0 0x4c4c00004c4f;
  mkModel 0x2700000027 (3798)%Z 0x0 0xeb190000eb1c;
  mkModel 0x2700000027 (3799)%Z 0x0 0x18000000182;
  mkModel 0x23b0000023d (3800)%Z 0x0 0x18000000182;
  mkModel 0x23b0000023d (3801)%Z 0x0 0x18000000182;
  mkModel 0x23b0000023d (3802)%Z 0x0 0x18000000182;
  mkModel 0x2a1000002a7 (3803)%Z 0x0 0xeb1c0000eb25;
  mkModel 0x2a1000002a7 (-1)%Z 0xeb250000eb2e 0xeb2e0000eb37;
  mkModel 0x2a1000002a7 (-1)%Z 0xeb370000eb40 0xeb400000eb4a;
  mkModel 0x2a1000002a7 (-1)%Z 0xeb4a0000eb53 0xeb530000eb5c;
  mkModel 0x2a1000002a7 (-1)%Z 0xeb5c0000eb61 0xeb610000eb6c;
  mkModel 0x2a1000002a7 (-1)%Z 0xeb6c0000eb76 0xeb760000eb80;
  mkModel 0x2a1000002a7 (-1)%Z 0xeb800000eb89 0xeb890000eb92;
  mkModel 0x2a1000002a7 (-1)%Z 0xeb920000eb9b 0xeb760000eb80;
  mkModel 0x2a1000002a7 (-1)%Z 0xeb9b0000eba4 0xeba40000ebad;
  mkModel 0x2a1000002a7 (-1)%Z 0xebad0000ebb6 0xebb60000ebbf;
  mkModel 0x2a1000002a7 (-1)%Z 0xebbf0000ebc8 0xebc80000ebd2;
  mkModel 0x2a1000002a7 (-1)%Z 0xebd20000ebdb 0xebdb0000ebe4;
  mkModel 0x2a1000002a7 (-1)%Z 0xebe40000ebe9 0xebe90000ebf4;
  mkModel 0x2a1000002a7 (-1)%Z 0xebf40000ebf9 0xebf90000ec09;
  mkModel 0x2a1000002a7 (-1)%Z 0xec090000ec0e 0xec0e0000ec1d;
  mkModel 0x2a1000002a7 (-1)%Z 0xec1d0000ec26 0xec260000ec35;
  mkModel 0x2a1000002a7 (3804)%Z 0x0 0xec350000ec3f;
  mkModel 0x2a1000002a7 (3805)%Z 0x0 0xec3f0000ec4e;
  mkModel 0x2a1000002a7 (3806)%Z 0x0 0x18000000182;
  mkModel 0x2a1000002a7 (3807)%Z 0x0 0x18000000182;
  mkModel 0x2700000027 (-1)%Z 0xec520000ec5a 0xec520000ec5a;
  mkModel 0x2700000027 (-1)%Z 0xec5a0000ec5e 0xec5e0000ec68;
  mkModel 0x0 (-1)%Z 0x0 0xec780000ec8c;
  mkModel 0x2700000027 (-1)%Z 0xec920000ec9a 0x88fa000088fc;
  mkModel 0x2700000027 (3811)%Z 0x0 0x18000000182;
  mkModel 0x0 (-1)%Z 0x0 0xec9d0000eca5;
  mkModel 0x2700000027 (-1)%Z 0xecaf0000ecb5 0xecb50000ecbc;
  mkModel 0x2700000027 (3814)%Z 0x0 0xecbc0000ecc3;
  mkModel 0x2700000027 (-1)%Z 0xecc30000eccd 0xeccd0000ecda;
  mkModel 0x2700000027 (-1)%Z 0xecda0000ece3 0xece30000eced;
  mkModel 0x2700000027 (3815)%Z 0x0 0x18000000182;
  mkModel 0x2700000027 (3817)%Z 0x0 0x18000000182;
  mkModel 0x2700000027 (3818)%Z 0x0 0x18000000182;
  mkModel 0x2a1000002a7 (3819)%Z 0x0 0x18000000182;
  mkModel 0x2a1000002a7 (3820)%Z 0x0 0xecf70000ecfc;
  mkModel 0x2700000027 (3822)%Z 0x0 0xed060000ed0e;
  mkModel 0x2700000027 (3823)%Z 0x0 0xed0e0000ed15;
  mkModel 0x2700000027 (3824)%Z 0x0 0xed150000ed17;
  mkModel 0x2700000027 (3825)%Z 0x0 0xed170000ed19;
  mkModel 0x2700000027 (3826)%Z 0x0 0xed190000ed20;
  mkModel 0x2700000027 (3827)%Z 0x0 0xed200000ed29;
  mkModel 0x2700000027 (3828)%Z 0x0 0xed290000ed31;
  mkModel 0x2700000027 (3829)%Z 0x0 0xed310000ed3c;
  mkModel 0x2700000027 (3830)%Z 0x0 0xed3c0000ed49;
  mkModel 0x2700000027 (3831)%Z 0x0 0xed490000ed52;
  mkModel 0x2700000027 (3832)%Z 0x0 0xed520000ed5e;
  mkModel 0x2700000027 (3833)%Z 0x0 0xed5e0000ed68;
  mkModel 0x2700000027 (3834)%Z 0x0 0xed680000ed71;
  mkModel 0x2700000027 (3835)%Z 0x0 0xed710000ed7a;
  mkModel 0x2700000027 (3836)%Z 0x0 0xed7a0000ed84;
  mkModel 0x2700000027 (3837)%Z 0x0 0xed840000ed90;
  mkModel 0x2700000027 (3838)%Z 0x0 0xed900000ed91;
  mkModel 0x2700000027 (3839)%Z 0x0 0xed910000ed94;
  mkModel 0x2a1000002a7 (3840)%Z 0x0 0x4c4300004c49;
  mkModel 0x2a1000002a7 (3841)%Z 0x0 0xed940000ed9a;
  mkModel 0x0 (-1)%Z 0x0 0x18000000182;
  mkModel 0x2700000027 (3844)%Z 0x0 0x18000000182;
  mkModel 0x23f00000249 (3845)%Z 0x0 0x18000000182;
  mkModel 0x2700000027 (-1)%Z 0xeda70000edaf 0xeda70000edaf;
  mkModel 0x2700000027 (-1)%Z 0xedaf0000edb7 0xedb70000edbf;
  mkModel 0x2700000027 (-1)%Z 0xedbf0000edc7 0xedc70000edd2;
  mkModel 0x2a1000002a7 (3847)%Z 0x0 0x18000000182;
  mkModel 0x0 (-1)%Z 0x0 0xedd70000edde;
  mkModel 0x2700000027 (3850)%Z 0x0 0xae400000aeb;
  mkModel 0x2700000027 (3851)%Z 0x0 0xede10000ede8;
  mkModel 0x2700000027 (3852)%Z 0x0 0xede80000edee;
  mkModel 0x2700000027 (3854)%Z 0x0 0x18000000182;
  mkModel 0x2700000027 (-1)%Z 0xedf10000edf8 0xedf80000ee02;
  mkModel 0x2700000027 (-1)%Z 0xee040000ee10 0xee100000ee19;
  mkModel 0x2700000027 (3856)%Z 0x0 0x18000000182;
  mkModel 0x2700000027 (3858)%Z 0x0 0x18000000182;
  mkModel 0x23f00000249 (-1)%Z 0xee240000ee2c 0xee2c0000ee43;
  mkModel 0x2700000027 (-1)%Z 0xee430000ee4b 0xee4b0000ee58;
  mkModel 0x2700000027 (-1)%Z 0xee580000ee60 0xee600000ee6e;
  mkModel 0x2700000027 (-1)%Z 0xee6e0000ee76 0xee760000ee89;
  mkModel 0x2700000027 (3860)%Z 0x0 0xee890000ee97;
  mkModel 0x2700000027 (-1)%Z 0xee970000ee9f 0xee9f0000eeb2;
  mkModel 0x2700000027 (-1)%Z 0xeeb20000eec0 0xeec00000eed0;
  mkModel 0x2700000027 (-1)%Z 0xeed00000eed8 0xeed80000eeed;
  mkModel 0x2700000027 (-1)%Z 0xeeed0000eef5 0xeef50000ef05;
  mkModel 0x2700000027 (-1)%Z 0xef050000ef0d 0xef0d0000ef20;
  mkModel 0x2700000027 (-1)%Z 0xef200000ef28 0xef280000ef39;
  mkModel 0x2700000027 (-1)%Z 0xef390000ef41 0xef410000ef52;
  mkModel 0x2700000027 (-1)%Z 0xef520000ef5a 0xef5a0000ef68;
  mkModel 0x2700000027 (-1)%Z 0xef680000ef70 0xef700000ef7e;
  mkModel 0x2700000027 (-1)%Z 0xef7e0000ef86 0xef860000ef9a;
  mkModel 0x2700000027 (-1)%Z 0xef9a0000efa9 0xefa90000efb8;
  mkModel 0x2700000027 (-1)%Z 0xefb80000efc0 0xefc00000efd4;
  mkModel 0x2700000027 (-1)%Z 0xefd40000efdc 0xefdc0000efed;
  mkModel 0x2700000027 (-1)%Z 0xefed0000eff9 0xeff90000f00c;
  mkModel 0x2b1e00002b26 (-1)%Z 0xf00c0000f014 0xf0140000f020;
  mkModel 0x23b0000023d (-1)%Z 0xf0200000f027 0xf0270000f031;
  mkModel 0x23b0000023d (-1)%Z 0xf0310000f03f 0xf03f0000f04d;
  mkModel 0x23b0000023d (-1)%Z 0xf04d0000f061 0xf0610000f075;
  mkModel 0x23b0000023d (-1)%Z 0xf0750000f084 0xf0840000f093;
  mkModel 0x23b0000023d (3861)%Z 0x0 0x18000000182;
  mkModel 0x0 (-1)%Z 0x0 0x18000000182;
  mkModel 0x2700000027 (3863)%Z 0x0 0xf0a50000f0aa;
  mkModel 0x0 (-1)%Z 0x0 0xf0af0000f0b5;
  mkModel 0x23f00000249 (3865)%Z 0x0 0x18000000182;
  mkModel 0x23f00000249 (3866)%Z 0x0 0xf0bf0000f0c9;
  mkModel 0x2700000027 (3867)%Z 0x0 0xf0c90000f0d1;
  mkModel 0x23f00000249 (3868)%Z 0x0 0x18000000182;
  mkModel 0x2700000027 (3869)%Z 0x0 0x18000000182;
  mkModel 0x2700000027 (-1)%Z 0xf0d80000f0de 0xf0de0000f0e5;
  mkModel 0x2700000027 (3871)%Z 0x0 0x18000000182;
  mkModel 0x2700000027 (-1)%Z 0xf0e50000f0eb 0x193300001935;
  mkModel 0x2700000027 (-1)%Z 0xf0eb0000f0f1 0xf0f10000f0fd;
  mkModel 0x2700000027 (-1)%Z 0xf0fd0000f103 0xf1030000f105;
  mkModel 0x2700000027 (-1)%Z 0xf1050000f10b 0xf10b0000f10e;
  mkModel 0x2700000027 (-1)%Z 0xf10e0000f114 0xf1140000f117;
  mkModel 0x2700000027 (-1)%Z 0xf1170000f11d 0xf11d0000f125;
  mkModel 0x2700000027 (-1)%Z 0xf1250000f12b 0xf12b0000f137;
  mkModel 0x2a1000002a7 (3872)%Z 0x0 0xf1370000f144;
  mkModel 0x2700000027 (3873)%Z 0x0 0xf1440000f147;
  mkModel 0x2700000027 (-1)%Z 0xf14d0000f15b 0xf15b0000f169;
  mkModel 0x2700000027 (-1)%Z 0xf1690000f172 0xf1720000f17b;
  mkModel 0x2700000027 (3875)%Z 0x0 0x18000000182;
  mkModel 0x2700000027 (3877)%Z 0x0 0xf17f0000f182;
  mkModel 0x2700000027 (3878)%Z 0x0 0x18000000182;
  mkModel 0x2700000027 (3880)%Z 0x0 0xf1860000f18d;
  mkModel 0x2700000027 (3881)%Z 0x0 0x18000000182;
  mkModel 0x2700000027 (-1)%Z 0xf18d0000f195 0xf1950000f19d;
  mkModel 0x2700000027 (-1)%Z 0xf19d0000f1a3 0xf1a30000f1a9;
  mkModel 0x2700000027 (-1)%Z 0xf1a90000f1ae 0xf1ae0000f1b3;
  mkModel 0x2700000027 (3882)%Z 0x0 0xf1b30000f1ba;
  mkModel 0x2a1000002a7 (3883)%Z 0x0 0xf1ba0000f1c2;
  mkModel 0x0 (-1)%Z 0x0 0xe3400000e3c;
  mkModel 0x2700000027 (3885)%Z 0x0 0xf1db0000f1dd;
  mkModel 0x2a1000002a7 (3886)%Z 0x0 0xf1dd0000f1e8;
  mkModel 0x2a1000002a7 (-1)%Z 0xf1e80000f1ef 0xf1ef0000f1fd;
  mkModel 0x0 (-1)%Z 0x0 0xe3400000e3c;
  mkModel 0x2700000027 (3887)%Z 0x0 0xf21c0000f225;
  mkModel 0x2700000027 (3888)%Z 0x0 0xf2250000f22e;
  mkModel 0x2700000027 (3889)%Z 0x0 0xf22e0000f237;
  mkModel 0x2700000027 (3890)%Z 0x0 0xf2370000f23b;
  mkModel 0x2700000027 (3891)%Z 0x0 0xf23b0000f247;
  mkModel 0x2700000027 (3892)%Z 0x0 0x3d7000003dc;
  mkModel 0x2700000027 (3893)%Z 0x0 0xf2470000f251;
  mkModel 0x2700000027 (3894)%Z 0x0 0xf2510000f25e;
  mkModel 0x2700000027 (3895)%Z 0x0 0xf25e0000f26a;
  mkModel 0x2700000027 (3896)%Z 0x0 0xf26a0000f274;
  mkModel 0x2700000027 (3897)%Z 0x0 0xf2740000f27e;
  mkModel 0x2700000027 (3898)%Z 0x0 0xf27e0000f287;
  mkModel 0x2700000027 (3899)%Z 0x0 0xf2870000f28b;
  mkModel 0x2700000027 (3900)%Z 0x0 0xf28b0000f294;
  mkModel 0x2700000027 (3901)%Z 0x0 0xf2940000f29d;
  mkModel 0x2700000027 (3902)%Z 0x0 0xf29d0000f2a8;
  mkModel 0x2700000027 (3903)%Z 0x0 0xf2a80000f2b3;
  mkModel 0x2700000027 (3904)%Z 0x0 0xf2b30000f2bd;
  mkModel 0x2700000027 (3905)%Z 0x0 0xf2bd0000f2c5;
  mkModel 0x2700000027 (3906)%Z 0x0 0xf2c50000f2c9;
  mkModel 0x2700000027 (3907)%Z 0x0 0xf2c90000f2d2;
  mkModel 0x2700000027 (3908)%Z 0x0 0xf2d20000f2d9;
  mkModel 0x2700000027 (3909)%Z 0x0 0xf2d90000f2e3;
  mkModel 0x2700000027 (3910)%Z 0x0 0xf2e30000f2e9;
  mkModel 0x2700000027 (3911)%Z 0x0 0xf2e90000f2f0;
  mkModel 0x2700000027 (3912)%Z 0x0 0xf2f00000f2f6
].
Definition d_dr_dm_26 : list modelTuple := [
  mkModel 0x2700000027 (3913)%Z 0x0 0xf2f60000f300;
  mkModel 0x2700000027 (3914)%Z 0x0 0xf3000000f307;
  mkModel 0x2700000027 (3915)%Z 0x0 0xf3070000f312;
  mkModel 0x2700000027 (3916)%Z 0x0 0xf3120000f318;
  mkModel 0x2700000027 (3917)%Z 0x0 0xf3180000f31e;
  mkModel 0x2700000027 (3918)%Z 0x0 0xf31e0000f328;
  mkModel 0x2700000027 (3919)%Z 0x0 0xf3280000f32e;
  mkModel 0x2700000027 (3920)%Z 0x0 0xf32e0000f338;
  mkModel 0xdfd00000e04 (3921)%Z 0x0 0xf3380000f33f;
  mkModel 0xdfd00000e04 (-1)%Z 0xf33f0000f34c 0xf34c0000f357;
  mkModel 0xdfd00000e04 (3922)%Z 0x0 0xf3570000f35d;
  mkModel 0xdfd00000e04 (3923)%Z 0x0 0xf35d0000f364;
  mkModel 0xdfd00000e04 (3924)%Z 0x0 0xf3640000f36a;
  mkModel 0xdfd00000e04 (3925)%Z 0x0 0xf35d0000f364;
  mkModel 0xdfd00000e04 (3926)%Z 0x0 0xf36a0000f374;
  mkModel 0xdfd00000e04 (3927)%Z 0x0 0xf3740000f37e;
  mkModel 0xdfd00000e04 (3928)%Z 0x0 0xf37e0000f388;
  mkModel 0x2700000027 (3929)%Z 0x0 0xf3880000f38b;
  mkModel 0x2700000027 (3930)%Z 0x0 0xf38b0000f390;
  mkModel 0x2700000027 (3931)%Z 0x0 0xf3900000f395;
  mkModel 0x2700000027 (3932)%Z 0x0 0xf3950000f39c;
  mkModel 0x2700000027 (3933)%Z 0x0 0xf39c0000f3a2;
  mkModel 0x2700000027 (3934)%Z 0x0 0xf3a20000f3ad;
  mkModel 0x2700000027 (3935)%Z 0x0 0xf3ad0000f3b6;
  mkModel 0x2700000027 (3936)%Z 0x0 0xf3b60000f3bd;
  mkModel 0x2700000027 (3937)%Z 0x0 0xf3bd0000f3c3;
  mkModel 0x2700000027 (3938)%Z 0x0 0xf3c30000f3cd;
  mkModel 0x2700000027 (3939)%Z 0x0 0xf3cd0000f3d4;
  mkModel 0x2700000027 (3940)%Z 0x0 0xf3d40000f3d9;
  mkModel 0x2700000027 (3941)%Z 0x0 0xf3d90000f3df;
  mkModel 0x2700000027 (3942)%Z 0x0 0xf3df0000f3e4;
  mkModel 0x2700000027 (3943)%Z 0x0 0xf3e40000f3ed;
  mkModel 0x2700000027 (3944)%Z 0x0 0xf3ed0000f3f2;
  mkModel 0x2700000027 (3945)%Z 0x0 0xf3f20000f3f8;
  mkModel 0x2700000027 (3946)%Z 0x0 0xf3f80000f3ff;
  mkModel 0x2700000027 (3947)%Z 0x0 0xf3ff0000f408;
  mkModel 0x2700000027 (3948)%Z 0x0 0xf4080000f412;
  mkModel 0x2700000027 (3949)%Z 0x0 0xf4120000f41d;
  mkModel 0x2700000027 (3950)%Z 0x0 0xf41d0000f427;
  mkModel 0x2700000027 (3951)%Z 0x0 0xce380000ce3d;
  mkModel 0x2700000027 (3952)%Z 0x0 0xf4270000f431;
  mkModel 0x2700000027 (3953)%Z 0x0 0xf4310000f43c;
  mkModel 0x2700000027 (3954)%Z 0x0 0xf43c0000f445;
  mkModel 0x2700000027 (3955)%Z 0x0 0xf4450000f44c;
  mkModel 0x2700000027 (3956)%Z 0x0 0xf44c0000f456;
  mkModel 0x2700000027 (3957)%Z 0x0 0xf4560000f45c;
  mkModel 0x2700000027 (3958)%Z 0x0 0xf45c0000f465;
  mkModel 0x2700000027 (3959)%Z 0x0 0xf4650000f46a;
  mkModel 0x2700000027 (3960)%Z 0x0 0xf46a0000f473;
  mkModel 0x2700000027 (3961)%Z 0x0 0xf4730000f478;
  mkModel 0x2700000027 (3962)%Z 0x0 0xf4780000f481;
  mkModel 0x2700000027 (3963)%Z 0x0 0xf4810000f486;
  mkModel 0x2700000027 (3964)%Z 0x0 0xf4860000f490;
  mkModel 0x2700000027 (3965)%Z 0x0 0xf4900000f49c;
  mkModel 0x2700000027 (3966)%Z 0x0 0xf49c0000f4a3;
  mkModel 0x2700000027 (3967)%Z 0x0 0xf4a30000f4ae;
  mkModel 0x2700000027 (3968)%Z 0x0 0xf4ae0000f4b4;
  mkModel 0x2700000027 (3969)%Z 0x0 0xf4b40000f4bb;
  mkModel 0x2700000027 (3970)%Z 0x0 0xf4bb0000f4c1;
  mkModel 0x2700000027 (-1)%Z 0xf4c10000f4ce 0xf4ce0000f4d9;
  mkModel 0x2700000027 (-1)%Z 0xf4d90000f4e5 0xf4e50000f4ec;
  mkModel 0x2700000027 (3971)%Z 0x0 0xf4ec0000f4f3;
  mkModel 0x2700000027 (3972)%Z 0x0 0xf4f30000f4f9;
  mkModel 0x2700000027 (3973)%Z 0x0 0xf4f90000f500;
  mkModel 0x2700000027 (3974)%Z 0x0 0xf5000000f50d;
  mkModel 0x2700000027 (3975)%Z 0x0 0xf4bb0000f4c1;
  mkModel 0x2700000027 (3976)%Z 0x0 0xf50d0000f51c;
  mkModel 0x2700000027 (3977)%Z 0x0 0xf51c0000f527;
  mkModel 0x2700000027 (3978)%Z 0x0 0xf5270000f531;
  mkModel 0x2700000027 (3979)%Z 0x0 0xf5310000f538;
  mkModel 0x2700000027 (3980)%Z 0x0 0xf5380000f53e;
  mkModel 0x2700000027 (3981)%Z 0x0 0xf53e0000f547;
  mkModel 0x2700000027 (3982)%Z 0x0 0xf5470000f552;
  mkModel 0x2700000027 (3983)%Z 0x0 0xf5520000f559;
  mkModel 0x2700000027 (3984)%Z 0x0 0xf5590000f560;
  mkModel 0x2700000027 (3985)%Z 0x0 0xf5600000f566;
  mkModel 0x2700000027 (3986)%Z 0x0 0xf5660000f575;
  mkModel 0x2700000027 (3987)%Z 0x0 0xf5750000f57a;
  mkModel 0x2700000027 (3988)%Z 0x0 0xf57a0000f581;
  mkModel 0x2700000027 (3989)%Z 0x0 0xf5810000f58b;
  mkModel 0x2700000027 (3990)%Z 0x0 0xf58b0000f592;
  mkModel 0x2700000027 (3991)%Z 0x0 0xf5920000f59e;
  mkModel 0x2700000027 (3992)%Z 0x0 0xf59e0000f5a9;
  mkModel 0x2700000027 (3993)%Z 0x0 0xf5a90000f5b3;
  mkModel 0x2700000027 (3994)%Z 0x0 0xf5b30000f5ba;
  mkModel 0x2700000027 (3995)%Z 0x0 0xf49c0000f4a3;
  mkModel 0x2700000027 (3996)%Z 0x0 0xf5ba0000f5c1;
  mkModel 0x2700000027 (3997)%Z 0x0 0xf5c10000f5cd;
  mkModel 0x2700000027 (3998)%Z 0x0 0xf5cd0000f5d4;
  mkModel 0x2700000027 (3999)%Z 0x0 0xf5d40000f5de;
  mkModel 0x2700000027 (4000)%Z 0x0 0xf5de0000f5ea;
  mkModel 0x2700000027 (4001)%Z 0x0 0xf5ea0000f5f1;
  mkModel 0x2700000027 (4002)%Z 0x0 0xf5f10000f5fb;
  mkModel 0x2700000027 (4003)%Z 0x0 0xf5fb0000f606;
  mkModel 0x2700000027 (4004)%Z 0x0 0xf6060000f612;
  mkModel 0x2700000027 (4005)%Z 0x0 0xf6120000f619;
  mkModel 0x2700000027 (4006)%Z 0x0 0xf6190000f620;
  mkModel 0x2700000027 (4007)%Z 0x0 0xf6200000f622;
  mkModel 0x2700000027 (4008)%Z 0x0 0xf6190000f620;
  mkModel 0x2700000027 (4009)%Z 0x0 0xaf3b0000af3d;
  mkModel 0x2700000027 (4010)%Z 0x0 0xaf2e0000af34;
  mkModel 0x2700000027 (4011)%Z 0x0 0xf6220000f62f;
  mkModel 0xdfd00000e04 (4012)%Z 0x0 0xf62f0000f63a;
  mkModel 0xdfd00000e04 (4013)%Z 0x0 0xf63a0000f642;
  mkModel 0xdfd00000e04 (4014)%Z 0x0 0xf6420000f648;
  mkModel 0xdfd00000e04 (4015)%Z 0x0 0x75680000756e;
  mkModel 0xdfd00000e04 (4016)%Z 0x0 0xf6480000f64e;
  mkModel 0xdfd00000e04 (4017)%Z 0x0 0xf64e0000f658;
  mkModel 0xdfd00000e04 (4018)%Z 0x0 0x9af200009af8;
  mkModel 0xdfd00000e04 (4019)%Z 0x0 0xf6580000f665;
  mkModel 0xdfd00000e04 (4020)%Z 0x0 0x756e00007574;
  mkModel 0xdfd00000e04 (4021)%Z 0x0 0xf6650000f66b;
  mkModel 0xdfd00000e04 (4022)%Z 0x0 0xf66b0000f676;
  mkModel 0xdfd00000e04 (4023)%Z 0x0 0xf6760000f67c;
  mkModel 0xdfd00000e04 (4024)%Z 0x0 0xf67c0000f683;
  mkModel 0xdfd00000e04 (4025)%Z 0x0 0xf6830000f68e;
  mkModel 0xdfd00000e04 (4026)%Z 0x0 0xf68e0000f695;
  mkModel 0xdfd00000e04 (4027)%Z 0x0 0xf6950000f69c;
  mkModel 0xdfd00000e04 (4028)%Z 0x0 0xf69c0000f6ab;
  mkModel 0xdfd00000e04 (4029)%Z 0x0 0xf6ab0000f6b3;
  mkModel 0xdfd00000e04 (4030)%Z 0x0 0xf6b30000f6be;
  mkModel 0xdfd00000e04 (4031)%Z 0x0 0xf6be0000f6cc;
  mkModel 0xdfd00000e04 (4032)%Z 0x0 0xf6cc0000f6d7;
  mkModel 0xdfd00000e04 (4033)%Z 0x0 0xf6d70000f6e2;
  mkModel 0xdfd00000e04 (4034)%Z 0x0 0xf6e20000f6e9;
  mkModel 0xdfd00000e04 (4035)%Z 0x0 0xf6e90000f6f4;
  mkModel 0xdfd00000e04 (4036)%Z 0x0 0xf6f40000f6fc;
  mkModel 0xdfd00000e04 (4037)%Z 0x0 0xf6950000f69c;
  mkModel 0xdfd00000e04 (4038)%Z 0x0 0xf6fc0000f706;
  mkModel 0xdfd00000e04 (4039)%Z 0x0 0xf7060000f714;
  mkModel 0xdfd00000e04 (4040)%Z 0x0 0xf7140000f71b;
  mkModel 0xdfd00000e04 (4041)%Z 0x0 0xf71b0000f723;
  mkModel 0xdfd00000e04 (4042)%Z 0x0 0xf7230000f72e;
  mkModel 0xdfd00000e04 (4043)%Z 0x0 0xf72e0000f739;
  mkModel 0xdfd00000e04 (4044)%Z 0x0 0xf7390000f743;
  mkModel 0xdfd00000e04 (4045)%Z 0x0 0xf7430000f74e;
  mkModel 0xdfd00000e04 (4046)%Z 0x0 0xf74e0000f75d;
  mkModel 0xdfd00000e04 (4047)%Z 0x0 0xf75d0000f768;
  mkModel 0xdfd00000e04 (4048)%Z 0x0 0xf7680000f76f;
  mkModel 0xdfd00000e04 (4049)%Z 0x0 0xf76f0000f777;
  mkModel 0xdfd00000e04 (4050)%Z 0x0 0xf7770000f782;
  mkModel 0xdfd00000e04 (4051)%Z 0x0 0xf7820000f791;
  mkModel 0xdfd00000e04 (4052)%Z 0x0 0xf7910000f79f;
  mkModel 0xdfd00000e04 (4053)%Z 0x0 0xf79f0000f7a9;
  mkModel 0xdfd00000e04 (4054)%Z 0x0 0xf7a90000f7b0;
  mkModel 0x2a1000002a7 (4055)%Z 0x0 0xf7b00000f7b4;
  mkModel 0x2700000027 (4056)%Z 0x0 0xf7b40000f7bc;
  mkModel 0x2a1000002a7 (4057)%Z 0x0 0x18000000182;
  mkModel 0x2700000027 (4058)%Z 0x0 0x18000000182;
  mkModel 0x2700000027 (4059)%Z 0x0 0x18000000182;
  mkModel 0x2700000027 (4060)%Z 0x0 0x18000000182;
  mkModel 0x0 (-1)%Z 0x0 0x18000000182;
  mkModel 0x0 (-1)%Z 0x0 0x18000000182;
  mkModel 0x0 (-1)%Z 0x0 0x18000000182;
  mkModel 0x0 (-1)%Z 0x0 0xf7d30000f7db;
  mkModel 0x0 (-1)%Z 0x0 0x18000000182;
  mkModel 0x2a1000002a7 (-1)%Z 0xf7e60000f7f0 0xf7f00000f7fa;
  mkModel 0x2700000027 (4067)%Z 0x0 0xf7fa0000f7fc;
  mkModel 0x2700000027 (4068)%Z 0x0 0xf7fc0000f806;
  mkModel 0x2700000027 (4069)%Z 0x0 0x1ecc00001ecd;
  mkModel 0x2700000027 (4070)%Z 0x0 0xf8060000f80f;
  mkModel 0x2700000027 (4071)%Z 0x0 0xf80f0000f81e;
  mkModel 0x2700000027 (4072)%Z 0x0 0xf81e0000f824;
  mkModel 0x2700000027 (4073)%Z 0x0 0xf8240000f82e;
  mkModel 0x2700000027 (4074)%Z 0x0 0xf82e0000f838;
  mkModel 0x2700000027 (4075)%Z 0x0 0xf8380000f83d;
  mkModel 0x2700000027 (4076)%Z 0x0 0xf83d0000f843;
  mkModel 0x2700000027 (4077)%Z 0x0 0xf8430000f848;
  mkModel 0x2700000027 (4078)%Z 0x0 0x18000000182;
  mkModel 0x2700000027 (-1)%Z 0xf8480000f856 0xf8560000f865;
  mkModel 0x2700000027 (-1)%Z 0xf8650000f872 0xf8720000f87f;
  mkModel 0x2700000027 (-1)%Z 0xf87f0000f88c 0xf88c0000f89a;
  mkModel 0x2700000027 (-1)%Z 0xf89a0000f8a7 0xf8a70000f8b5;
  mkModel 0x2700000027 (-1)%Z 0xf8b50000f8be 0xf8be0000f8c8;
  mkModel 0x2700000027 (-1)%Z 0xf8c80000f8d2 0xf8d20000f8dd;
  mkModel 0x2700000027 (-1)%Z 0xf8dd0000f8e7 0xf8dd0000f8e7;
  mkModel 0x2700000027 (-1)%Z 0xf8e70000f8f2 0xf8e70000f8f2;
  mkModel 0x2700000027 (-1)%Z 0xf8f20000f8f8 0xf8f20000f8f8;
  mkModel 0x2700000027 (-1)%Z 0xf8f80000f903 0xf9030000f90e;
  mkModel 0x2700000027 (-1)%Z 0xf90e0000f914 0xf9140000f91a;
  mkModel 0x2700000027 (-1)%Z 0xf91a0000f924 0xf9240000f92e;
  mkModel 0x0 (-1)%Z 0x0 0x18000000182;
  mkModel 0x0 (-1)%Z 0x0 0xf93d0000f943;
  mkModel 0x2a1000002a7 (4082)%Z 0x0 0xf9470000f954;
  mkModel 0x2a1000002a7 (4083)%Z 0x0 0xf9540000f95c;
  mkModel 0x2a1000002a7 (4084)%Z 0x0 0xf95c0000f965;
  mkModel 0x2a1000002a7 (4085)%Z 0x0 0xf9650000f977;
  mkModel 0x2a1000002a7 (-1)%Z 0xf9770000f982 0xf9820000f989;
  mkModel 0x2a1000002a7 (4086)%Z 0x0 0xf9890000f994;
  mkModel 0x2700000027 (-1)%Z 0xf9940000f9a2 0xf9a20000f9ac;
  mkModel 0x2700000027 (4087)%Z 0x0 0xf9ac0000f9b8;
  mkModel 0x2700000027 (4088)%Z 0x0 0x4fe400004feb;
  mkModel 0x2700000027 (4089)%Z 0x0 0x18000000182;
  mkModel 0x2700000027 (4090)%Z 0x0 0xf9b80000f9bb;
  mkModel 0x2700000027 (-1)%Z 0xf9bb0000f9c4 0xf9c40000f9cd;
  mkModel 0x2700000027 (4091)%Z 0x0 0x4fd100004fd4;
  mkModel 0x2700000027 (-1)%Z 0xf9cd0000f9d1 0xf6950000f69c;
  mkModel 0x2700000027 (4092)%Z 0x0 0xf9d10000f9d4;
  mkModel 0x2700000027 (4093)%Z 0x0 0x61be000061c5;
  mkModel 0x2700000027 (4094)%Z 0x0 0x18000000182
].
Definition d_dr_dm_27 : list modelTuple := [
  mkModel 0x2700000027 (-1)%Z 0xf9dc0000f9e7 0xf9e70000f9ec;
  mkModel 0x2700000027 (4096)%Z 0x0 0xf9ec0000f9f6;
  mkModel 0x2700000027 (-1)%Z 0xf9f60000fa00 0xfa000000fa07;
  mkModel 0x2700000027 (-1)%Z 0xfa070000fa12 0xfa120000fa14;
  mkModel 0x2700000027 (4097)%Z 0x0 0xfa140000fa19;
  mkModel 0x2700000027 (-1)%Z 0xfa190000fa26 0xfa260000fa36;
  mkModel 0x23b0000023d (-1)%Z 0xfa360000fa40 0xfa400000fa49;
  mkModel 0x23b0000023d (-1)%Z 0xfa490000fa52 0xfa520000fa5b;
  mkModel 0x2700000027 (-1)%Z 0xfa600000fa6a 0xfa6a0000fa70;
  mkModel 0x2700000027 (-1)%Z 0xfa750000fa7d 0xfa7d0000fa89;
  mkModel 0x2700000027 (4099)%Z 0x0 0xfa890000fa9b;
  mkModel 0x2700000027 (4100)%Z 0x0 0xfa9b0000faa8;
  mkModel 0x2700000027 (4101)%Z 0x0 0xfaa80000fab4;
  mkModel 0x2700000027 (4102)%Z 0x0 0xfab40000fabb;
  mkModel 0x2700000027 (4103)%Z 0x0 0xfabb0000facd;
  mkModel 0x2700000027 (4104)%Z 0x0 0xfacd0000fade;
  mkModel 0x2700000027 (4105)%Z 0x0 0xfade0000faeb;
  mkModel 0x2700000027 (4106)%Z 0x0 0xfaeb0000faf7;
  mkModel 0x2700000027 (4107)%Z 0x0 0xfaf70000fb04;
  mkModel 0x2700000027 (4108)%Z 0x0 0xfb040000fb0f;
  mkModel 0x2700000027 (4109)%Z 0x0 0xfb0f0000fb1b;
  mkModel 0x2700000027 (4110)%Z 0x0 0xfb1b0000fb28;
  mkModel 0x2700000027 (4111)%Z 0x0 0xfb280000fb35;
  mkModel 0x2700000027 (4112)%Z 0x0 0xfb350000fb40;
  mkModel 0x2700000027 (4113)%Z 0x0 0xfb400000fb4d;
  mkModel 0x2700000027 (4114)%Z 0x0 0xfb4d0000fb5a;
  mkModel 0x2700000027 (4115)%Z 0x0 0xfb5a0000fb69;
  mkModel 0x2700000027 (4116)%Z 0x0 0xfb690000fb78;
  mkModel 0x2700000027 (4117)%Z 0x0 0xfb780000fb89;
  mkModel 0x2700000027 (4118)%Z 0x0 0xfb890000fb96;
  mkModel 0x2700000027 (4119)%Z 0x0 0xfb960000fbaa;
  mkModel 0x2700000027 (4120)%Z 0x0 0xfbaa0000fbb6;
  mkModel 0x2700000027 (4121)%Z 0x0 0xfbb60000fbc4;
  mkModel 0x2700000027 (4122)%Z 0x0 0xfbc40000fbcd;
  mkModel 0x2700000027 (4123)%Z 0x0 0xfbcd0000fbd4;
  mkModel 0x2700000027 (-1)%Z 0xfbd40000fbdc 0xfbdc0000fbe4;
  mkModel 0x2700000027 (4124)%Z 0x0 0xfbe40000fbeb;
  mkModel 0x2700000027 (4125)%Z 0x0 0xfbeb0000fbf3;
  mkModel 0x2700000027 (4126)%Z 0x0 0x18000000182;
  mkModel 0x2700000027 (4127)%Z 0x0 0xfbf30000fbfe;
  mkModel 0x2700000027 (4128)%Z 0x0 0x18000000182;
  mkModel 0x2700000027 (4129)%Z 0x0 0x6b6d00006b72;
  mkModel 0x2700000027 (4130)%Z 0x0 0x18000000182;
  mkModel 0x2700000027 (4132)%Z 0x0 0x61480000614e;
  mkModel 0x2700000027 (4133)%Z 0x0 0x18000000182;
  mkModel 0x2700000027 (4135)%Z 0x0 0x18000000182;
  mkModel 0x2700000027 (-1)%Z 0xfc090000fc0f 0xfc0f0000fc16;
  mkModel 0x2700000027 (4136)%Z 0x0 0x18000000182;
  mkModel 0x2700000027 (4138)%Z 0x0 0x18000000182;
  mkModel 0x23f00000249 (4139)%Z 0x0 0x18000000182;
  mkModel 0x23b0000023d (4140)%Z 0x0 0x18000000182;
  mkModel 0x2700000027 (4142)%Z 0x0 0xfc1f0000fc26;
  mkModel 0x2700000027 (4143)%Z 0x0 0xfc260000fc29;
  mkModel 0x2700000027 (4144)%Z 0x0 0xfc290000fc33;
  mkModel 0x2700000027 (4145)%Z 0x0 0xfc330000fc3b;
  mkModel 0x2700000027 (-1)%Z 0xfc3b0000fc49 0xfc490000fc57;
  mkModel 0x2700000027 (-1)%Z 0xfc570000fc65 0xfc650000fc73;
  mkModel 0x2700000027 (-1)%Z 0xfc730000fc7c 0xfc7c0000fc85;
  mkModel 0x2700000027 (-1)%Z 0xfc850000fc8f 0xfc8f0000fc99;
  mkModel 0x2700000027 (-1)%Z 0xfc990000fca5 0xfca50000fcb1;
  mkModel 0x2700000027 (-1)%Z 0xfcb10000fcbc 0xfcbc0000fcc7;
  mkModel 0x2700000027 (-1)%Z 0xfcc70000fcd1 0xfcd10000fcdb;
  mkModel 0x2700000027 (4146)%Z 0x0 0xfcdb0000fce2;
  mkModel 0x2700000027 (4147)%Z 0x0 0xfce20000fceb;
  mkModel 0x2700000027 (-1)%Z 0xfceb0000fcf4 0xfcf40000fcf8;
  mkModel 0x2700000027 (-1)%Z 0xfcf80000fcfc 0xfcf80000fcfc;
  mkModel 0x2700000027 (-1)%Z 0xfcfc0000fd03 0xfd030000fd0a;
  mkModel 0x2a1000002a7 (4148)%Z 0x0 0x18000000182;
  mkModel 0x2700000027 (4150)%Z 0x0 0xfd120000fd23;
  mkModel 0x2700000027 (4151)%Z 0x0 0xfd230000fd2f;
  mkModel 0x2700000027 (-1)%Z 0xfd2f0000fd3b 0xfd3b0000fd51;
  mkModel 0x2700000027 (4152)%Z 0x0 0xfd230000fd2f;
  mkModel 0x2700000027 (4153)%Z 0x0 0x18000000182;
  mkModel 0x0 (-1)%Z 0x0 0x18000000182;
  mkModel 0x0 (-1)%Z 0x0 0x18000000182;
  mkModel 0x0 (-1)%Z 0x0 0x18000000182;
  mkModel 0x0 (-1)%Z 0x0 0x18000000182;
  mkModel 0x0 (-1)%Z 0x0 0x18000000182;
  mkModel 0x2700000027 (4160)%Z 0x0 0x18000000182;
  mkModel 0x2700000027 (4161)%Z 0x0 0xfd6a0000fd7b;
  mkModel 0x2700000027 (4162)%Z 0x0 0xfd7b0000fd8c;
  mkModel 0x2700000027 (4163)%Z 0x0 0xfd8c0000fd9d;
  mkModel 0x2700000027 (4164)%Z 0x0 0x18000000182;
  mkModel 0x23b0000023d (4165)%Z 0x0 0x2700000027;
  mkModel 0x23b0000023d (4166)%Z 0x0 0xe3400000e3c;
  mkModel 0x2a1000002a7 (4167)%Z 0x0 0x18000000182;
  mkModel 0x2700000027 (-1)%Z 0xfda20000fda5 0xfda50000fdaf;
  mkModel 0x2700000027 (-1)%Z 0xfdaf0000fdb2 0xfdb20000fdbe;
  mkModel 0x0 (-1)%Z 0x0 0xfdc60000fdcd;
  mkModel 0x2700000027 (4171)%Z 0x0 0xfdd10000fdd9;
  mkModel 0x2700000027 (4172)%Z 0x0 0xfdd90000fdde;
  mkModel 0x2700000027 (-1)%Z 0xfde20000fde9 0xfde90000fdf0;
  mkModel 0x2700000027 (4174)%Z 0x0 0x18000000182;
  mkModel 0x0 (-1)%Z 0x0 0xfdf50000fdfa;
  mkModel 0x2700000027 (4177)%Z 0x0 0xfdff0000fe04;
  mkModel 0x2700000027 (4178)%Z 0x0 0x18000000182;
  mkModel 0x2700000027 (4179)%Z 0x0 0xfe040000fe09;
  mkModel 0x2a1000002a7 (-1)%Z 0xfe0d0000fe16 0xfe0d0000fe16;
  mkModel 0x2700000027 (-1)%Z 0xfe160000fe20 0xfe160000fe20;
  mkModel 0x0 (-1)%Z 0x0 0x18000000182;
  mkModel 0x2700000027 (4183)%Z 0x0 0xfe2b0000fe33;
  mkModel 0x2700000027 (4184)%Z 0x0 0xfe330000fe3b;
  mkModel 0x2700000027 (4185)%Z 0x0 0xfe3b0000fe42;
  mkModel 0x2700000027 (4186)%Z 0x0 0xfe420000fe48;
  mkModel 0x2700000027 (4187)%Z 0x0 0xfe480000fe51;
  mkModel 0x2700000027 (4188)%Z 0x0 0xfe510000fe58;
  mkModel 0x2700000027 (4189)%Z 0x0 0xfe580000fe61;
  mkModel 0x2700000027 (4190)%Z 0x0 0x500000005006;
  mkModel 0x2700000027 (4191)%Z 0x0 0xfe610000fe69;
  mkModel 0x2700000027 (4192)%Z 0x0 0xfe690000fe71;
  mkModel 0x2700000027 (4193)%Z 0x0 0xfe710000fe7a;
  mkModel 0x2700000027 (4194)%Z 0x0 0xfe7a0000fe7f;
  mkModel 0x2700000027 (4195)%Z 0x0 0xfe7f0000fe8b;
  mkModel 0x2700000027 (4196)%Z 0x0 0xbd530000bd57;
  mkModel 0x2700000027 (4197)%Z 0x0 0x95a1000095a6;
  mkModel 0x2700000027 (4198)%Z 0x0 0xfe8b0000fe91;
  mkModel 0x2700000027 (4199)%Z 0x0 0xfe910000fe9a;
  mkModel 0x2700000027 (4200)%Z 0x0 0xfe9a0000fea7;
  mkModel 0x2700000027 (4201)%Z 0x0 0xfea70000feaf;
  mkModel 0x2700000027 (4202)%Z 0x0 0xfeaf0000febd;
  mkModel 0x2700000027 (4203)%Z 0x0 0xfebd0000fec3;
  mkModel 0x2700000027 (4204)%Z 0x0 0xfec30000fec9;
  mkModel 0x2700000027 (4205)%Z 0x0 0x18000000182;
  mkModel 0x2700000027 (4207)%Z 0x0 0xfecc0000fed9;
  mkModel 0x2700000027 (4208)%Z 0x0 0x18000000182;
  mkModel 0x2700000027 (4210)%Z 0x0 0xfedd0000feea;
  mkModel 0x2700000027 (-1)%Z 0xfeea0000fef1 0xfeea0000fef1;
  mkModel 0x2700000027 (-1)%Z 0xfef10000fef7 0xfef70000fefe;
  mkModel 0x2700000027 (4211)%Z 0x0 0xfefe0000ff0d;
  mkModel 0x2700000027 (4212)%Z 0x0 0xc1540000c15c;
  mkModel 0x2700000027 (4213)%Z 0x0 0xff0d0000ff24;
  mkModel 0x2700000027 (4214)%Z 0x0 0xff240000ff32;
  mkModel 0x2700000027 (4215)%Z 0x0 0xff320000ff3b;
  mkModel 0x2700000027 (4217)%Z 0x0 0x18000000182;
  mkModel 0x0 (-1)%Z 0x0 0xff4a0000ff4e;
  mkModel 0x0 (-1)%Z 0x0 0xff540000ff5c;
  mkModel 0x2a1000002a7 (-1)%Z 0xff740000ff7d 0xff7d0000ff80;
  mkModel 0x2700000027 (4221)%Z 0x0 0xff850000ff8d;
  mkModel 0x2700000027 (4222)%Z 0x0 0xff8d0000ff97;
  mkModel 0x2700000027 (-1)%Z 0xff970000ff9e 0xff970000ff9e;
  mkModel 0x2700000027 (4223)%Z 0x0 0xff9e0000ffa7;
  mkModel 0x2700000027 (4224)%Z 0x0 0xffa70000ffaf;
  mkModel 0x2700000027 (-1)%Z 0xffaf0000ffba 0xffba0000ffc0;
  mkModel 0x2700000027 (-1)%Z 0xffc00000ffc9 0xffc90000ffd2;
  mkModel 0x2700000027 (-1)%Z 0xffd20000ffd9 0xffd90000ffe0;
  mkModel 0x2700000027 (-1)%Z 0xffe60000ffee 0xffee0000fff2;
  mkModel 0x2700000027 (-1)%Z 0xfff200010003 0x1000300010014;
  mkModel 0x2700000027 (-1)%Z 0x1001b00010025 0xd2810000d288;
  mkModel 0x2700000027 (-1)%Z 0x100250001002f 0x1002f0001003a;
  mkModel 0x2700000027 (-1)%Z 0x1003a00010043 0x100430001004e;
  mkModel 0x2700000027 (-1)%Z 0x1004e00010057 0x100570001005e;
  mkModel 0x2700000027 (-1)%Z 0x1005e00010067 0x100670001006b;
  mkModel 0x2700000027 (-1)%Z 0x1006b00010074 0x100740001007c;
  mkModel 0x2700000027 (-1)%Z 0x1007c00010085 0x1008500010089;
  mkModel 0x2700000027 (-1)%Z 0x1008900010094 0x1008900010094;
  mkModel 0x2700000027 (4227)%Z 0x0 0x18000000182;
  mkModel 0x2700000027 (4228)%Z 0x0 0x18000000182;
  mkModel 0x0 (-1)%Z 0x0 0x100970001009e;
  mkModel 0x0 (-1)%Z 0x0 0x500000005006;
  mkModel 0x2700000027 (4232)%Z 0x0 0x18000000182;
  mkModel 0x23f00000249 (4233)%Z 0x0 0x100a7000100b6;
  mkModel 0x23f00000249 (4234)%Z 0x0 0x100b6000100c1;
  mkModel 0x23f00000249 (4235)%Z 0x0 0xb8d90000b8e4;
  mkModel 0x23f00000249 (-1)%Z 0x100c7000100d4 0x100c7000100d4;
  mkModel 0x23f00000249 (4237)%Z 0x0 0x100d4000100dc;
  mkModel 0x2700000027 (4238)%Z 0x0 0x18000000182;
  mkModel 0x2700000027 (4239)%Z 0x0 0x100dc000100e7;
  mkModel 0x2700000027 (4240)%Z 0x0 0x100e7000100f1;
  mkModel 0x2700000027 (4241)%Z 0x0 0x18000000182;
  mkModel 0x0 (-1)%Z 0x0 0x18000000182;
  mkModel 0x0 (-1)%Z 0x0 0x18000000182;
  mkModel 0x2700000027 (4245)%Z 0x0 0x18000000182;
  mkModel 0x2700000027 (4246)%Z 0x0 0x101050001010d;
  mkModel 0x0 (-1)%Z 0x0 0x18000000182;
  mkModel 0x0 (-1)%Z 0x0 0x18000000182;
  mkModel 0x2700000027 (4250)%Z 0x0 0x18000000182;
  mkModel 0x2700000027 (4251)%Z 0x0 0x18000000182;
  mkModel 0x2700000027 (4253)%Z 0x0 0x18000000182;
  mkModel 0x2a1000002a7 (4254)%Z 0x0 0x30d00000312;
  mkModel 0x2700000027 (4256)%Z 0x0 0x1012500010128;
  mkModel 0x2700000027 (-1)%Z 0x1012d00010134 0x101340001013c;
  mkModel 0x2700000027 (4258)%Z 0x0 0x1013c00010142;
  mkModel 0x2a1000002a7 (-1)%Z 0x101420001014c 0x1014c00010156;
  mkModel 0x2a1000002a7 (-1)%Z 0x101560001015d 0x1015d00010164;
  mkModel 0x2a1000002a7 (4259)%Z 0x0 0x101640001016a;
  mkModel 0x2a1000002a7 (-1)%Z 0x1016a00010171 0x1017100010178;
  mkModel 0x0 (-1)%Z 0x0 0x18000000182;
  mkModel 0x0 (-1)%Z 0x0 0x18000000182;
  mkModel 0x2700000027 (-1)%Z 0x1018f00010197 0x1019700010198;
  mkModel 0x0 (-1)%Z 0x0 0x18000000182;
  mkModel 0x0 (-1)%Z 0x0 0x18000000182;
  mkModel 0x0 (-1)%Z 0x0 0x101a5000101b0;
  mkModel 0x2700000027 (-1)%Z 0x101b6000101bf 0x101bf000101c8;
  mkModel 0x2700000027 (4266)%Z 0x0 0x101c8000101d4;
  mkModel 0x2700000027 (4267)%Z 0x0 0x101d4000101dc;
  mkModel 0x2700000027 (-1)%Z 0x101dc000101e5 0x101e5000101ee;
  mkModel 0x2700000027 (-1)%Z 0x101ee000101fc 0x101ee000101fc;
  mkModel 0x2700000027 (4268)%Z 0x0 0x101fc00010205;
  mkModel 0x2700000027 (-1)%Z 0x1020500010210 0x102100001021b;
  mkModel 0x2700000027 (4269)%Z 0x0 0x1021b0001022b
].
Definition d_dr_dm_28 : list modelTuple := [
  mkModel 0x2700000027 (4270)%Z 0x0 0x1022b00010238;
  mkModel 0x2700000027 (-1)%Z 0x1023800010242 0x102420001024c;
  mkModel 0x2700000027 (-1)%Z 0x1024c00010258 0x1025800010264;
  mkModel 0x2700000027 (-1)%Z 0x102640001026d 0x1026d00010276;
  mkModel 0x2700000027 (-1)%Z 0x1027600010283 0x1028300010290;
  mkModel 0x2700000027 (-1)%Z 0x1029000010298 0x10298000102a0;
  mkModel 0x2a1000002a7 (4271)%Z 0x0 0x102a0000102a8;
  mkModel 0x23b0000023d (4272)%Z 0x0 0x102a8000102b5;
  mkModel 0x23b0000023d (4273)%Z 0x0 0x18000000182;
  mkModel 0x2700000027 (4275)%Z 0x0 0x102ba000102c0;
  mkModel 0x2700000027 (-1)%Z 0x102c0000102c8 0x102c8000102cd;
  mkModel 0x2700000027 (4276)%Z 0x0 0x102cd000102d5;
  mkModel 0x2700000027 (4277)%Z 0x0 0x102d5000102dc;
  mkModel 0x2700000027 (4278)%Z 0x0 0x102dc000102e0;
  mkModel 0x2700000027 (4279)%Z 0x0 0x102e0000102e5;
  mkModel 0x23b0000023d (-1)%Z 0x102e5000102ef 0x102ef000102f7;
  mkModel 0x0 (-1)%Z 0x0 0x18000000182;
  mkModel 0x2700000027 (-1)%Z 0x1030400010310 0x1030400010310;
  mkModel 0x2700000027 (-1)%Z 0x103100001031b 0x103100001031b;
  mkModel 0x2700000027 (-1)%Z 0x1031b0001032c 0x1031b0001032c;
  mkModel 0x2700000027 (-1)%Z 0x1032c00010338 0x1032c00010338;
  mkModel 0x2700000027 (-1)%Z 0x1033800010343 0x1033800010343;
  mkModel 0x2700000027 (-1)%Z 0x1034300010352 0x1034300010352;
  mkModel 0x2700000027 (-1)%Z 0x1035200010360 0x1035200010360;
  mkModel 0x2700000027 (-1)%Z 0x103600001036d 0x103600001036d;
  mkModel 0x2700000027 (4282)%Z 0x0 0x1036d0001037a;
  mkModel 0x2700000027 (4283)%Z 0x0 0x1037a00010382;
  mkModel 0x2700000027 (-1)%Z 0x1038200010391 0x1038200010391;
  mkModel 0x2700000027 (4284)%Z 0x0 0x103910001039b;
  mkModel 0x2700000027 (4285)%Z 0x0 0x1039b000103a9;
  mkModel 0x2700000027 (-1)%Z 0x103a9000103b8 0x103a9000103b8;
  mkModel 0x2700000027 (-1)%Z 0x103b8000103ca 0x103b8000103ca;
  mkModel 0x2700000027 (-1)%Z 0x103ca000103d8 0x103ca000103d8;
  mkModel 0x2700000027 (-1)%Z 0x103d8000103e3 0x103d8000103e3;
  mkModel 0x2700000027 (-1)%Z 0x103e3000103ed 0x103e3000103ed;
  mkModel 0x2700000027 (-1)%Z 0x103ed000103f7 0x103ed000103f7;
  mkModel 0x2700000027 (-1)%Z 0x103f700010404 0x103f700010404;
  mkModel 0x2700000027 (-1)%Z 0x104040001040e 0x1040e00010418;
  mkModel 0x2700000027 (-1)%Z 0x1041800010426 0x1041800010426;
  mkModel 0x2700000027 (4286)%Z 0x0 0x1042600010432;
  mkModel 0x2700000027 (-1)%Z 0x104320001043a 0x1043a00010443;
  mkModel 0x2700000027 (-1)%Z 0x104430001044e 0x1044e00010464;
  mkModel 0x2700000027 (-1)%Z 0x104640001046b 0x1046b0001047c;
  mkModel 0x2700000027 (-1)%Z 0x1047c00010487 0x104870001049b;
  mkModel 0x2700000027 (4287)%Z 0x0 0x1049b000104ac;
  mkModel 0x2700000027 (4288)%Z 0x0 0x104ac000104b8;
  mkModel 0x2700000027 (4289)%Z 0x0 0x104b8000104c9;
  mkModel 0x2700000027 (-1)%Z 0x104c9000104d9 0x104c9000104d9;
  mkModel 0x2700000027 (-1)%Z 0x104d9000104e7 0x104d9000104e7;
  mkModel 0x2700000027 (4290)%Z 0x0 0x104e7000104f6;
  mkModel 0x2700000027 (-1)%Z 0x104f600010508 0x104f600010508;
  mkModel 0x2700000027 (-1)%Z 0x105080001051c 0x105080001051c;
  mkModel 0x2700000027 (4291)%Z 0x0 0x1051c0001052c;
  mkModel 0x2700000027 (-1)%Z 0x1052c00010533 0x1053300010544;
  mkModel 0x2700000027 (-1)%Z 0x105440001054d 0x1054d00010556;
  mkModel 0x2700000027 (-1)%Z 0x105560001055f 0x105560001055f;
  mkModel 0x2700000027 (-1)%Z 0x1055f00010568 0x1055f00010568;
  mkModel 0x2700000027 (4292)%Z 0x0 0x1056800010576;
  mkModel 0x2700000027 (4293)%Z 0x0 0x1057600010585;
  mkModel 0x2700000027 (4294)%Z 0x0 0x1058500010593;
  mkModel 0x39a000003a7 (4295)%Z 0x0 0x18000000182;
  mkModel 0x39a000003a7 (4296)%Z 0x0 0x18000000182;
  mkModel 0x2700000027 (4297)%Z 0x0 0x18000000182;
  mkModel 0x2700000027 (4298)%Z 0x0 0x18000000182;
  mkModel 0x2700000027 (4299)%Z 0x0 0x18000000182;
  mkModel 0x2700000027 (4301)%Z 0x0 0x18000000182;
  mkModel 0x2700000027 (4302)%Z 0x0 0x1059700010599;
  mkModel 0x2a1000002a7 (4303)%Z 0x0 0x18000000182;
  mkModel 0x2a1000002a7 (4304)%Z 0x0 0x10599000105a1;
  mkModel 0x23b0000023d (4305)%Z 0x0 0x105a1000105a6;
  mkModel 0x2700000027 (-1)%Z 0x105ab000105b6 0x105ab000105b6;
  mkModel 0x2700000027 (-1)%Z 0x105b6000105c2 0x105b6000105c2;
  mkModel 0x2700000027 (4307)%Z 0x0 0x105c2000105ce;
  mkModel 0x2700000027 (4308)%Z 0x0 0x105ce000105dc;
  mkModel 0x2700000027 (4309)%Z 0x0 0x18000000182;
  mkModel 0x2700000027 (-1)%Z 0x105e2000105e9 0x105e9000105f5;
  mkModel 0x2700000027 (4311)%Z 0x0 0x106060001060f;
  mkModel 0x2700000027 (4312)%Z 0x0 0x1060f0001061d;
  mkModel 0x2700000027 (-1)%Z 0x1061d00010625 0x106250001062e;
  mkModel 0x2700000027 (4313)%Z 0x0 0x1062e00010631;
  mkModel 0x2700000027 (4314)%Z 0x0 0x106310001063b;
  mkModel 0x2700000027 (-1)%Z 0x1063b00010645 0x1064500010647;
  mkModel 0x2700000027 (-1)%Z 0x1064700010650 0x1ecc00001ecd;
  mkModel 0x2700000027 (-1)%Z 0x106500001065e 0x1065e00010664;
  mkModel 0x2700000027 (-1)%Z 0x106640001066d 0xbf1e0000bf1f;
  mkModel 0x2a1000002a7 (-1)%Z 0x1066d0001067a 0x1067a00010687;
  mkModel 0x2a1000002a7 (-1)%Z 0x1068700010693 0x106930001069f;
  mkModel 0x2700000027 (-1)%Z 0x106a4000106aa 0x106aa000106b1;
  mkModel 0x2700000027 (-1)%Z 0x106b1000106b9 0x106b1000106b9;
  mkModel 0x2700000027 (4316)%Z 0x0 0x18000000182;
  mkModel 0x2700000027 (4318)%Z 0x0 0x18000000182;
  mkModel 0x2700000027 (4319)%Z 0x0 0x106c0000106c7;
  mkModel 0x2700000027 (4320)%Z 0x0 0x97990000979e;
  mkModel 0x2700000027 (4321)%Z 0x0 0x106c7000106ca;
  mkModel 0x2700000027 (4322)%Z 0x0 0x7bdb00007bdf;
  mkModel 0x2700000027 (4323)%Z 0x0 0x106ca000106cf;
  mkModel 0x2700000027 (4324)%Z 0x0 0x18000000182;
  mkModel 0x0 (-1)%Z 0x0 0x106d7000106ea;
  mkModel 0x0 (-1)%Z 0x0 0x18000000182;
  mkModel 0x2a1000002a7 (4328)%Z 0x0 0x106f500010700;
  mkModel 0x2a1000002a7 (4329)%Z 0x0 0x1070000010711;
  mkModel 0x2700000027 (4330)%Z 0x0 0x1071100010724;
  mkModel 0x2700000027 (4331)%Z 0x0 0x1072400010736;
  mkModel 0x2700000027 (-1)%Z 0x1073600010740 0x1074000010750;
  mkModel 0x2700000027 (4332)%Z 0x0 0x107500001075f;
  mkModel 0x2a1000002a7 (4333)%Z 0x0 0x1075f00010764;
  mkModel 0x2700000027 (4334)%Z 0x0 0x18000000182;
  mkModel 0x2700000027 (-1)%Z 0x1077300010778 0x1077300010778;
  mkModel 0x2700000027 (4336)%Z 0x0 0x8a5c00008a5f;
  mkModel 0x2700000027 (4337)%Z 0x0 0x18000000182;
  mkModel 0x2700000027 (4339)%Z 0x0 0x18000000182;
  mkModel 0x2700000027 (4340)%Z 0x0 0x18000000182;
  mkModel 0x0 (-1)%Z 0x0 0x18000000182;
  mkModel 0x2700000027 (4343)%Z 0x0 0x107940001079e;
  mkModel 0x2700000027 (-1)%Z 0x1079e000107a6 0x107a6000107ae;
  mkModel 0x2700000027 (4345)%Z 0x0 0x107b2000107b8;
  mkModel 0x2700000027 (4346)%Z 0x0 0x18000000182;
  mkModel 0x2700000027 (4347)%Z 0x0 0x18000000182;
  mkModel 0x2700000027 (4349)%Z 0x0 0x18000000182;
  mkModel 0x2a1000002a7 (4350)%Z 0x0 0x18000000182;
  mkModel 0x2a1000002a7 (-1)%Z 0x107be000107c6 0x107c6000107cd;
  mkModel 0x2a1000002a7 (4351)%Z 0x0 0x107cd000107d7;
  mkModel 0x2700000027 (4353)%Z 0x0 0x107dd000107e6;
  mkModel 0x2700000027 (4354)%Z 0x0 0x107e6000107eb;
  mkModel 0x2700000027 (4355)%Z 0x0 0x107eb000107ef;
  mkModel 0x2700000027 (4356)%Z 0x0 0xf1440000f147;
  mkModel 0x2700000027 (4357)%Z 0x0 0xf1440000f147;
  mkModel 0x2700000027 (4358)%Z 0x0 0x107ef000107f4;
  mkModel 0x2700000027 (4359)%Z 0x0 0xf1440000f147;
  mkModel 0x2700000027 (4360)%Z 0x0 0xf1440000f147;
  mkModel 0x2700000027 (4361)%Z 0x0 0x107f4000107f8;
  mkModel 0x2700000027 (4362)%Z 0x0 0x107f8000107fe;
  mkModel 0x2700000027 (4363)%Z 0x0 0xf1440000f147;
  mkModel 0x2700000027 (4364)%Z 0x0 0x107fe00010803;
  mkModel 0x2700000027 (4365)%Z 0x0 0x1080300010808;
  mkModel 0x2700000027 (4366)%Z 0x0 0x18000000182;
  mkModel 0x2700000027 (4367)%Z 0x0 0x18000000182;
  mkModel 0x2700000027 (-1)%Z 0x1080d00010810 0x1080d00010810;
  mkModel 0x2700000027 (4369)%Z 0x0 0x1081000010818;
  mkModel 0x2700000027 (4370)%Z 0x0 0x108180001081d;
  mkModel 0x2700000027 (4371)%Z 0x0 0x1081d0001082c;
  mkModel 0x2700000027 (4372)%Z 0x0 0x1082c00010837;
  mkModel 0x2a1000002a7 (4373)%Z 0x0 0x1083700010840;
  mkModel 0x23b0000023d (-1)%Z 0x108400001084a 0x1084a0001084f;
  mkModel 0x23b0000023d (4375)%Z 0x0 0x18000000182;
  mkModel 0x2700000027 (4376)%Z 0x0 0x1085400010861;
  mkModel 0x2700000027 (-1)%Z 0x1086100010869 0x1086900010871;
  mkModel 0x2700000027 (-1)%Z 0x1087100010879 0x1087100010879;
  mkModel 0x2700000027 (-1)%Z 0x1087900010885 0x1087900010885;
  mkModel 0x2700000027 (-1)%Z 0x108850001088f 0x108850001088f;
  mkModel 0x2700000027 (4377)%Z 0x0 0x18000000182;
  mkModel 0x2700000027 (4378)%Z 0x0 0x18000000182;
  mkModel 0x2700000027 (4380)%Z 0x0 0x18000000182;
  mkModel 0x2700000027 (4381)%Z 0x0 0x18000000182;
  mkModel 0x2700000027 (-1)%Z 0x10898000108a1 0x108a1000108ac;
  mkModel 0x2700000027 (-1)%Z 0x108ac000108b1 0xa0ce0000a0d5;
  mkModel 0x2700000027 (-1)%Z 0x108b1000108b7 0x108b7000108c1;
  mkModel 0x2700000027 (-1)%Z 0x108c1000108c5 0x108c5000108ce;
  mkModel 0x2700000027 (4383)%Z 0x0 0x108ce000108d7;
  mkModel 0x2700000027 (-1)%Z 0x108d7000108db 0x108db000108e5;
  mkModel 0x2700000027 (4384)%Z 0x0 0x18000000182;
  mkModel 0x23b0000023d (-1)%Z 0x8ad700008ae4 0x8a0100008a0c;
  mkModel 0x23b0000023d (4385)%Z 0x0 0x18000000182;
  mkModel 0x39a000003a7 (4386)%Z 0x0 0x18000000182;
  mkModel 0x2700000027 (4388)%Z 0x0 0x108eb000108f2;
  mkModel 0x2700000027 (4389)%Z 0x0 0x108f2000108f8;
  mkModel 0x2700000027 (4390)%Z 0x0 0x108f8000108fe;
  mkModel 0x2700000027 (4391)%Z 0x0 0x108fe00010905;
  mkModel 0x2700000027 (4392)%Z 0x0 0x109050001090b;
  mkModel 0x2700000027 (4393)%Z 0x0 0x1090b00010912;
  mkModel 0x2700000027 (4394)%Z 0x0 0x109120001091b;
  mkModel 0x2700000027 (4395)%Z 0x0 0x1091b00010921;
  mkModel 0x2700000027 (4396)%Z 0x0 0x1092100010927;
  mkModel 0x2700000027 (4397)%Z 0x0 0xc0b10000c0b8;
  mkModel 0x2700000027 (4398)%Z 0x0 0x109270001092d;
  mkModel 0x2700000027 (4399)%Z 0x0 0x1092d00010934;
  mkModel 0x2700000027 (4400)%Z 0x0 0x109340001093a;
  mkModel 0x2700000027 (4401)%Z 0x0 0x1093a00010942;
  mkModel 0x2a1000002a7 (4402)%Z 0x0 0x18000000182;
  mkModel 0x2a1000002a7 (4403)%Z 0x0 0x109420001094c;
  mkModel 0x2700000027 (-1)%Z 0x1095200010958 0x109580001095c;
  mkModel 0x2700000027 (4405)%Z 0x0 0x1095c00010963;
  mkModel 0x2700000027 (4406)%Z 0x0 0x18000000182;
  mkModel 0x2700000027 (4407)%Z 0x0 0x18000000182;
  mkModel 0x2700000027 (4408)%Z 0x0 0x18000000182;
  mkModel 0x0 (-1)%Z 0x0 0x18000000182;
  mkModel 0x0 (-1)%Z 0x0 0x109700001097b;
  mkModel 0x2700000027 (-1)%Z 0x1098000010989 0x1098000010989;
  mkModel 0x2700000027 (4412)%Z 0x0 0x18000000182;
  mkModel 0x0 (-1)%Z 0x0 0x18000000182;
  mkModel 0x0 (-1)%Z 0x0 0x18000000182;
  mkModel 0x0 (-1)%Z 0x0 0x1099a000109a0;
  mkModel 0x2700000027 (-1)%Z 0x109ac000109b5 0x109b5000109c0;
  mkModel 0x2700000027 (-1)%Z 0x109c0000109cb 0x109cb000109d6;
  mkModel 0x2700000027 (4417)%Z 0x0 0x109d6000109dd;
  mkModel 0x2700000027 (-1)%Z 0x109dd000109ed 0x109dd000109ed;
  mkModel 0x2700000027 (4418)%Z 0x0 0x109ed000109f5;
  mkModel 0x2700000027 (4419)%Z 0x0 0x109f500010a01;
  mkModel 0x2700000027 (4420)%Z 0x0 0x10a0100010a0c;
  mkModel 0x2700000027 (4421)%Z 0x0 0x10a0c00010a13
].
Definition d_dr_dm_29 : list modelTuple := [
  mkModel 0x2700000027 (4422)%Z 0x0 0x10a1300010a1c;
  mkModel 0x2700000027 (4423)%Z 0x0 0x10a1c00010a22;
  mkModel 0x2700000027 (4424)%Z 0x0 0x10a2200010a2b;
  mkModel 0x2700000027 (4425)%Z 0x0 0x10a2b00010a36;
  mkModel 0x2700000027 (4426)%Z 0x0 0x10a3600010a41;
  mkModel 0x2700000027 (4427)%Z 0x0 0x10a4100010a49;
  mkModel 0x2700000027 (4428)%Z 0x0 0x10a4900010a50;
  mkModel 0x2700000027 (4429)%Z 0x0 0x10a5000010a56;
  mkModel 0x2a1000002a7 (4430)%Z 0x0 0x10a5600010a64;
  mkModel 0x2a1000002a7 (4431)%Z 0x0 0x10a6400010a72;
  mkModel 0x2a1000002a7 (4432)%Z 0x0 0x10a7200010a80;
  mkModel 0x2a1000002a7 (4433)%Z 0x0 0x10a8000010a8e;
  mkModel 0x2a1000002a7 (4434)%Z 0x0 0x10a6400010a72;
  mkModel 0x2a1000002a7 (4435)%Z 0x0 0x10a8e00010a96;
  mkModel 0x2a1000002a7 (4436)%Z 0x0 0x10a9600010aa4;
  mkModel 0x2a1000002a7 (4437)%Z 0x0 0x10a5600010a64;
  mkModel 0x2a1000002a7 (4438)%Z 0x0 0x10aa400010ab1;
  mkModel 0x2a1000002a7 (4439)%Z 0x0 0x10ab100010abe;
  mkModel 0x2a1000002a7 (4440)%Z 0x0 0x10abe00010acb;
  mkModel 0x23b0000023d (4441)%Z 0x0 0x18000000182;
  mkModel 0x0 (-1)%Z 0x0 0x18000000182;
  mkModel 0x0 (-1)%Z 0x0 0x18000000182;
  mkModel 0x2700000027 (4445)%Z 0x0 0x18000000182;
  mkModel 0x2700000027 (4446)%Z 0x0 0x18000000182;
  mkModel 0x2700000027 (4448)%Z 0x0 0x10adf00010ae4;
  mkModel 0x2700000027 (4449)%Z 0x0 0x18000000182;
  mkModel 0x23f00000249 (4450)%Z 0x0 0x10ae400010af0;
  mkModel 0x2700000027 (4452)%Z 0x0 0x10af700010afd;
  mkModel 0x2700000027 (4453)%Z 0x0 0x10afd00010b07;
  mkModel 0x2700000027 (4454)%Z 0x0 0x10b0700010b0e;
  mkModel 0x2700000027 (4455)%Z 0x0 0x10b0e00010b12;
  mkModel 0x2700000027 (4456)%Z 0x0 0x10b1200010b19;
  mkModel 0x2700000027 (4457)%Z 0x0 0x10b1900010b20;
  mkModel 0x2700000027 (4458)%Z 0x0 0x10b2000010b27;
  mkModel 0x2700000027 (4459)%Z 0x0 0x10b2700010b2e;
  mkModel 0x2700000027 (4460)%Z 0x0 0x10b2e00010b35;
  mkModel 0x2700000027 (4461)%Z 0x0 0x10b3500010b3e;
  mkModel 0x2700000027 (4462)%Z 0x0 0x10b3e00010b43;
  mkModel 0x2700000027 (4463)%Z 0x0 0x10b4300010b4f;
  mkModel 0x2700000027 (4464)%Z 0x0 0x10b4f00010b5a;
  mkModel 0x2700000027 (4465)%Z 0x0 0x10b5a00010b62;
  mkModel 0x2700000027 (4466)%Z 0x0 0x10b6200010b6c;
  mkModel 0x2700000027 (4467)%Z 0x0 0x10b6c00010b7a;
  mkModel 0x2700000027 (4468)%Z 0x0 0x10b7a00010b82;
  mkModel 0x2700000027 (4469)%Z 0x0 0x10b8200010b8c;
  mkModel 0x2700000027 (4470)%Z 0x0 0x10b8c00010b91;
  mkModel 0x2700000027 (4471)%Z 0x0 0x10b9100010b9b;
  mkModel 0x2700000027 (4472)%Z 0x0 0x10b9b00010ba5;
  mkModel 0x2700000027 (-1)%Z 0x10ba500010baa 0x10baa00010bb4;
  mkModel 0x2700000027 (-1)%Z 0x10bb400010bb9 0x10bb900010bc4;
  mkModel 0x2700000027 (-1)%Z 0x10bc400010bca 0x10bca00010bd4;
  mkModel 0x2700000027 (4473)%Z 0x0 0x10bd400010bde;
  mkModel 0x2700000027 (-1)%Z 0x10bde00010be3 0x10be300010bee;
  mkModel 0x2700000027 (4474)%Z 0x0 0x10bee00010bf7;
  mkModel 0x2700000027 (4475)%Z 0x0 0x10bf700010c04;
  mkModel 0x2700000027 (4476)%Z 0x0 0x10c0400010c13;
  mkModel 0x2700000027 (4477)%Z 0x0 0x10c1300010c22;
  mkModel 0x2700000027 (-1)%Z 0x10c2200010c27 0x10c2700010c39;
  mkModel 0x2700000027 (-1)%Z 0x10c3900010c3e 0x10c3e00010c4a;
  mkModel 0x2700000027 (-1)%Z 0x10c4a00010c51 0x10c5100010c57;
  mkModel 0x2700000027 (-1)%Z 0x10c5700010c5c 0x10c5c00010c65;
  mkModel 0x2700000027 (4478)%Z 0x0 0x10c6500010c6c;
  mkModel 0x2700000027 (4479)%Z 0x0 0x10c6c00010c72;
  mkModel 0x2700000027 (4480)%Z 0x0 0x10c7200010c7c;
  mkModel 0x2700000027 (4481)%Z 0x0 0x10c7c00010c86;
  mkModel 0x2700000027 (4482)%Z 0x0 0x10c8600010c9a;
  mkModel 0x2700000027 (4483)%Z 0x0 0x10c9a00010ca1;
  mkModel 0x2700000027 (4484)%Z 0x0 0x10ca100010cab;
  mkModel 0x2700000027 (4485)%Z 0x0 0x10cab00010cb5;
  mkModel 0x2700000027 (4486)%Z 0x0 0x10cb500010cbf;
  mkModel 0x2700000027 (4487)%Z 0x0 0x10cbf00010cc9;
  mkModel 0x2700000027 (4488)%Z 0x0 0x10cc900010cd2;
  mkModel 0x2700000027 (4489)%Z 0x0 0x10cd200010cdc;
  mkModel 0x2700000027 (4490)%Z 0x0 0x10cdc00010ce6;
  mkModel 0x2700000027 (4491)%Z 0x0 0x10ce600010cf0;
  mkModel 0x2700000027 (4492)%Z 0x0 0x10cf000010cf5;
  mkModel 0x2700000027 (4493)%Z 0x0 0x10cf500010cfc;
  mkModel 0x2700000027 (4494)%Z 0x0 0x10cfc00010d03;
  mkModel 0x2700000027 (4495)%Z 0x0 0x10d0300010d10;
  mkModel 0x2700000027 (4496)%Z 0x0 0x10d1000010d19;
  mkModel 0x2700000027 (4497)%Z 0x0 0x10d1900010d25;
  mkModel 0x2700000027 (4498)%Z 0x0 0x10d2500010d31;
  mkModel 0x2a1000002a7 (4499)%Z 0x0 0x10d3100010d3d;
  mkModel 0x2a1000002a7 (4500)%Z 0x0 0x10d3d00010d48;
  mkModel 0x2a1000002a7 (4501)%Z 0x0 0x10d4800010d52;
  mkModel 0x2700000027 (4502)%Z 0x0 0x10d5200010d57;
  mkModel 0x2700000027 (4503)%Z 0x0 0x10d5700010d62;
  mkModel 0x2700000027 (4504)%Z 0x0 0x10d6200010d6c;
  mkModel 0x2700000027 (4505)%Z 0x0 0x10d6c00010d76;
  mkModel 0x2700000027 (4506)%Z 0x0 0x10d7600010d80;
  mkModel 0x2700000027 (4507)%Z 0x0 0x10d8000010d8a;
  mkModel 0x2700000027 (4508)%Z 0x0 0x10d8a00010d94;
  mkModel 0x2700000027 (4509)%Z 0x0 0x10d9400010d9e;
  mkModel 0x2700000027 (4510)%Z 0x0 0x10d9e00010daa;
  mkModel 0x2700000027 (4511)%Z 0x0 0x10daa00010db6;
  mkModel 0x2700000027 (4512)%Z 0x0 0x10db600010dbc;
  mkModel 0x2700000027 (4513)%Z 0x0 0x10dbc00010dc5;
  mkModel 0x2700000027 (4514)%Z 0x0 0x10dc500010dce;
  mkModel 0x2700000027 (4515)%Z 0x0 0x10dce00010dd2;
  mkModel 0x2700000027 (4516)%Z 0x0 0x18000000182;
  mkModel 0x2a1000002a7 (4517)%Z 0x0 0x18000000182;
  mkModel 0x2700000027 (4518)%Z 0x0 0x10dd200010de0;
  mkModel 0x2700000027 (4519)%Z 0x0 0x10de000010def;
  mkModel 0x2700000027 (4520)%Z 0x0 0x10def00010dfd;
  mkModel 0x2700000027 (4521)%Z 0x0 0x10dfd00010e0d;
  mkModel 0x2700000027 (4522)%Z 0x0 0x10e0d00010e1a;
  mkModel 0x39a000003a7 (-1)%Z 0x10e1a00010e1f 0x10e1f00010e24;
  mkModel 0x2700000027 (4523)%Z 0x0 0x10e2400010e29;
  mkModel 0x2700000027 (4524)%Z 0x0 0x18000000182;
  mkModel 0x2700000027 (4525)%Z 0x0 0x7c3000007c8;
  mkModel 0x0 (-1)%Z 0x0 0x18000000182;
  mkModel 0x2700000027 (-1)%Z 0x10e3300010e3b 0x10e3b00010e43;
  mkModel 0x2700000027 (-1)%Z 0x10e4300010e4a 0x10e4a00010e51;
  mkModel 0x2700000027 (-1)%Z 0x10e5100010e5a 0x10e5100010e5a;
  mkModel 0x2700000027 (-1)%Z 0x10e5a00010e60 0x10e6000010e66;
  mkModel 0x2700000027 (-1)%Z 0x10e6600010e6f 0x10e6600010e6f;
  mkModel 0x2700000027 (4528)%Z 0x0 0x10e6f00010e79;
  mkModel 0x2a1000002a7 (-1)%Z 0x10e7900010e82 0x10e8200010e8b;
  mkModel 0x2700000027 (4530)%Z 0x0 0x10e9000010e9c;
  mkModel 0x2700000027 (4531)%Z 0x0 0x10e9c00010ea7;
  mkModel 0x0 (-1)%Z 0x0 0x10eae00010ebb;
  mkModel 0x2700000027 (4534)%Z 0x0 0x18000000182;
  mkModel 0x0 (-1)%Z 0x0 0x18000000182;
  mkModel 0x2700000027 (4537)%Z 0x0 0x500000005006;
  mkModel 0x2700000027 (4538)%Z 0x0 0x18000000182;
  mkModel 0x2700000027 (4540)%Z 0x0 0x10ec900010edc;
  mkModel 0x2700000027 (4541)%Z 0x0 0x10edc00010edf;
  mkModel 0x2700000027 (4542)%Z 0x0 0x10edf00010ee2;
  mkModel 0x2700000027 (4543)%Z 0x0 0x10ee200010ee5;
  mkModel 0x2700000027 (4544)%Z 0x0 0x10ee500010ee8;
  mkModel 0x2700000027 (-1)%Z 0x10ee800010ef1 0x10ef100010ef8;
  mkModel 0x2700000027 (4545)%Z 0x0 0x10ef800010efb;
  mkModel 0x2700000027 (-1)%Z 0x10efb00010f02 0x10f0200010f05;
  mkModel 0x2700000027 (4546)%Z 0x0 0x10f0500010f08;
  mkModel 0x2700000027 (4547)%Z 0x0 0x10f0800010f0b;
  mkModel 0x2700000027 (4548)%Z 0x0 0x10f0b00010f0e;
  mkModel 0x2700000027 (4549)%Z 0x0 0x10f0e00010f11;
  mkModel 0x2700000027 (4550)%Z 0x0 0x10f1100010f15;
  mkModel 0x2700000027 (4551)%Z 0x0 0x10f1500010f18;
  mkModel 0x2700000027 (-1)%Z 0x10f1800010f22 0x10f2200010f2b;
  mkModel 0x2700000027 (-1)%Z 0x10f2b00010f33 0xa0ce0000a0d5;
  mkModel 0x2700000027 (-1)%Z 0x10f3300010f3d 0x10f3d00010f43;
  mkModel 0x2700000027 (-1)%Z 0x10f4300010f4c 0x10f4c00010f5a;
  mkModel 0x2700000027 (-1)%Z 0x10f5a00010f62 0x10f6200010f71;
  mkModel 0x2700000027 (4552)%Z 0x0 0x10f7100010f7a;
  mkModel 0x2700000027 (4553)%Z 0x0 0x10f7a00010f83;
  mkModel 0x2700000027 (-1)%Z 0x10f8300010f8a 0x10f8a00010f93;
  mkModel 0x2700000027 (-1)%Z 0x10f9300010f9b 0x10f9b00010fa9;
  mkModel 0x2700000027 (4554)%Z 0x0 0x10fa900010fab;
  mkModel 0x2700000027 (4555)%Z 0x0 0x10fab00010fb2;
  mkModel 0x2700000027 (4556)%Z 0x0 0x10fb200010fb4;
  mkModel 0x2700000027 (4557)%Z 0x0 0x10fb400010fbc;
  mkModel 0x2700000027 (-1)%Z 0x10fbc00010fc4 0x10fc400010fc8;
  mkModel 0x2700000027 (4558)%Z 0x0 0x10fc800010fcb;
  mkModel 0x2700000027 (4559)%Z 0x0 0x10fcb00010fd2;
  mkModel 0x2700000027 (4560)%Z 0x0 0x10fd200010fdb;
  mkModel 0x2700000027 (-1)%Z 0x10fdb00010fe2 0x10fe200010feb;
  mkModel 0x2700000027 (-1)%Z 0x10feb00010ff2 0x10ff200010ff5;
  mkModel 0x2700000027 (4561)%Z 0x0 0x10ff500010ff7;
  mkModel 0x2700000027 (4562)%Z 0x0 0x10ff700010ffa;
  mkModel 0x2700000027 (4563)%Z 0x0 0xff400000ff43;
  mkModel 0x2700000027 (4564)%Z 0x0 0x10ffa00011003;
  mkModel 0x2700000027 (4565)%Z 0x0 0x1100300011006;
  mkModel 0x2700000027 (-1)%Z 0x110060001100d 0x1100d00011014;
  mkModel 0x2700000027 (-1)%Z 0x110140001101b 0x1101b00011023;
  mkModel 0x2700000027 (4566)%Z 0x0 0xd7500000d77;
  mkModel 0x2700000027 (4567)%Z 0x0 0x1102300011028;
  mkModel 0x2700000027 (4568)%Z 0x0 0x110280001102a;
  mkModel 0x2700000027 (-1)%Z 0x1102a00011031 0x1103100011037;
  mkModel 0x2700000027 (-1)%Z 0x110370001103e 0x1103e00011044;
  mkModel 0x2700000027 (4569)%Z 0x0 0x110440001104a;
  mkModel 0x2700000027 (4570)%Z 0x0 0x1104a00011052;
  mkModel 0x2700000027 (4571)%Z 0x0 0x110520001105c;
  mkModel 0x2700000027 (4572)%Z 0x0 0xd2780000d27a;
  mkModel 0x2700000027 (-1)%Z 0x1105c00011064 0x1106400011067;
  mkModel 0x2700000027 (4573)%Z 0x0 0x1106700011069;
  mkModel 0x2700000027 (-1)%Z 0x1106900011070 0x1107000011079;
  mkModel 0x2700000027 (-1)%Z 0x1107900011080 0x1108000011089;
  mkModel 0x2700000027 (4574)%Z 0x0 0x1107000011079;
  mkModel 0x2700000027 (4575)%Z 0x0 0x1108900011098;
  mkModel 0x2700000027 (4576)%Z 0x0 0x11098000110a2;
  mkModel 0x2700000027 (4577)%Z 0x0 0x110a2000110af;
  mkModel 0x2700000027 (4578)%Z 0x0 0x110af000110be;
  mkModel 0x2700000027 (4579)%Z 0x0 0x110be000110c1;
  mkModel 0x2700000027 (4580)%Z 0x0 0x110c1000110c4;
  mkModel 0x2700000027 (4581)%Z 0x0 0x110c4000110c7;
  mkModel 0x2700000027 (-1)%Z 0x110c7000110cd 0x110cd000110d7;
  mkModel 0x2700000027 (-1)%Z 0x110d7000110de 0x110de000110e5;
  mkModel 0x2700000027 (4582)%Z 0x0 0x110e5000110ea;
  mkModel 0x2700000027 (-1)%Z 0x110ea000110f1 0x110f1000110f7;
  mkModel 0x2700000027 (4583)%Z 0x0 0x110f7000110ff;
  mkModel 0x2700000027 (4584)%Z 0x0 0x110ff00011106;
  mkModel 0x2700000027 (4585)%Z 0x0 0x111060001110d;
  mkModel 0x2700000027 (4586)%Z 0x0 0x1110d00011113;
  mkModel 0x2700000027 (4587)%Z 0x0 0x1111300011118;
  mkModel 0x2700000027 (4588)%Z 0x0 0xf2c50000f2c9;
  mkModel 0x2700000027 (4589)%Z 0x0 0x111180001111f;
  mkModel 0x2700000027 (4590)%Z 0x0 0x1111f00011123;
  mkModel 0x2700000027 (4591)%Z 0x0 0x1112300011128;
  mkModel 0x2700000027 (-1)%Z 0x1112800011131 0x8fc600008fca
].
Definition d_dr_dm_30 : list modelTuple := [
  mkModel 0x2700000027 (4592)%Z 0x0 0x1113100011135;
  mkModel 0x2700000027 (-1)%Z 0x111350001113e 0x1113e00011150;
  mkModel 0x2700000027 (4593)%Z 0x0 0x1115000011155;
  mkModel 0x2700000027 (4594)%Z 0x0 0x111550001115c;
  mkModel 0x2700000027 (4595)%Z 0x0 0x1115c00011167;
  mkModel 0x2700000027 (4596)%Z 0x0 0x1116700011177;
  mkModel 0x2700000027 (4597)%Z 0x0 0x1117700011180;
  mkModel 0x2700000027 (-1)%Z 0x1118000011188 0x1118800011192;
  mkModel 0x2700000027 (4598)%Z 0x0 0x11192000111a4;
  mkModel 0x2700000027 (4599)%Z 0x0 0x111a4000111b1;
  mkModel 0x2700000027 (4600)%Z 0x0 0x111b1000111be;
  mkModel 0x2700000027 (4601)%Z 0x0 0x111be000111cb;
  mkModel 0x2700000027 (4602)%Z 0x0 0x111cb000111dd;
  mkModel 0x2700000027 (4603)%Z 0x0 0x111dd000111e8;
  mkModel 0x2700000027 (4604)%Z 0x0 0x111e8000111f5;
  mkModel 0x2700000027 (4605)%Z 0x0 0x111f5000111ff;
  mkModel 0x2700000027 (4606)%Z 0x0 0x111ff0001120c;
  mkModel 0x2700000027 (4607)%Z 0x0 0x1120c00011219;
  mkModel 0x2700000027 (-1)%Z 0x1121900011220 0x112200001122a;
  mkModel 0x2700000027 (4608)%Z 0x0 0x1122a00011234;
  mkModel 0x2700000027 (4609)%Z 0x0 0x112340001123e;
  mkModel 0x2700000027 (-1)%Z 0x1123e00011246 0x1124600011250;
  mkModel 0x2700000027 (4610)%Z 0x0 0x112500001125d;
  mkModel 0x2700000027 (4611)%Z 0x0 0x1125d0001126a;
  mkModel 0x2700000027 (-1)%Z 0x1126a00011272 0x112720001127f;
  mkModel 0x2700000027 (-1)%Z 0x1127f00011286 0x1128600011295;
  mkModel 0x2700000027 (-1)%Z 0x112950001129c 0x1129c000112a6;
  mkModel 0x2700000027 (4612)%Z 0x0 0x112a6000112b3;
  mkModel 0x2700000027 (4613)%Z 0x0 0x112b3000112c5;
  mkModel 0x2700000027 (4614)%Z 0x0 0x112c5000112d0;
  mkModel 0x2700000027 (4615)%Z 0x0 0x112d0000112e1;
  mkModel 0x2700000027 (4616)%Z 0x0 0x112e1000112f2;
  mkModel 0x2700000027 (-1)%Z 0x112f2000112f7 0x112f70001130b;
  mkModel 0x2700000027 (4617)%Z 0x0 0x1130b0001130e;
  mkModel 0x2700000027 (4618)%Z 0x0 0x1130e0001131b;
  mkModel 0x2700000027 (4619)%Z 0x0 0x1131b00011325;
  mkModel 0x2700000027 (-1)%Z 0x113250001132d 0x1132d00011339;
  mkModel 0x2700000027 (-1)%Z 0x113390001133e 0x1133e00011346;
  mkModel 0x2700000027 (-1)%Z 0x113460001134d 0x1134d00011355;
  mkModel 0x2700000027 (4620)%Z 0x0 0x113550001135d;
  mkModel 0x2700000027 (4621)%Z 0x0 0x1135d0001136a;
  mkModel 0x2700000027 (4622)%Z 0x0 0x1136a0001136c;
  mkModel 0x2700000027 (4623)%Z 0x0 0x1136c0001136f;
  mkModel 0x2700000027 (4624)%Z 0x0 0x1136f00011372;
  mkModel 0x2700000027 (4625)%Z 0x0 0x1137200011374;
  mkModel 0x2700000027 (4626)%Z 0x0 0x1137400011376;
  mkModel 0x2700000027 (4627)%Z 0x0 0x1137600011379;
  mkModel 0x2700000027 (4628)%Z 0x0 0x113790001137c;
  mkModel 0x2700000027 (4629)%Z 0x0 0x1137c00011388;
  mkModel 0x2700000027 (-1)%Z 0x1138800011390 0x1139000011399;
  mkModel 0x2700000027 (4630)%Z 0x0 0x113990001139e;
  mkModel 0x2700000027 (4631)%Z 0x0 0x1139e000113a5;
  mkModel 0x2700000027 (4632)%Z 0x0 0x113a5000113ac;
  mkModel 0x2700000027 (4633)%Z 0x0 0x113ac000113b5;
  mkModel 0x2700000027 (4634)%Z 0x0 0x113b5000113c1;
  mkModel 0x2700000027 (4635)%Z 0x0 0x113c1000113c8;
  mkModel 0x2700000027 (4636)%Z 0x0 0x113c8000113cf;
  mkModel 0x2700000027 (4637)%Z 0x0 0x113cf000113d6;
  mkModel 0x2700000027 (4638)%Z 0x0 0x113d6000113e2;
  mkModel 0x2700000027 (4639)%Z 0x0 0x113e2000113e9;
  mkModel 0x2700000027 (4640)%Z 0x0 0x113e9000113f0;
  mkModel 0x2700000027 (4641)%Z 0x0 0x113f0000113f7;
  mkModel 0x2700000027 (4642)%Z 0x0 0x113f7000113ff;
  mkModel 0x2700000027 (-1)%Z 0x113ff00011408 0x1140800011410;
  mkModel 0x2700000027 (-1)%Z 0x1141000011417 0x114170001141e;
  mkModel 0x2700000027 (-1)%Z 0x1141e00011427 0x1142700011430;
  mkModel 0x2700000027 (4643)%Z 0x0 0x1143000011438;
  mkModel 0x2700000027 (4644)%Z 0x0 0x1143800011443;
  mkModel 0x2700000027 (4645)%Z 0x0 0x1144300011453;
  mkModel 0x2700000027 (4646)%Z 0x0 0x1145300011462;
  mkModel 0x2700000027 (4647)%Z 0x0 0x1146200011469;
  mkModel 0x2700000027 (4648)%Z 0x0 0x1146900011471;
  mkModel 0x2700000027 (-1)%Z 0x1147100011478 0x114780001147b;
  mkModel 0x2700000027 (-1)%Z 0x1147b00011484 0x1148400011487;
  mkModel 0x2700000027 (4649)%Z 0x0 0x114870001148a;
  mkModel 0x2700000027 (-1)%Z 0x1148a00011492 0x114920001149a;
  mkModel 0x2700000027 (-1)%Z 0x1149a000114a2 0x114a2000114a3;
  mkModel 0x2700000027 (4650)%Z 0x0 0x114a3000114a5;
  mkModel 0x2700000027 (4651)%Z 0x0 0x114a5000114aa;
  mkModel 0x2700000027 (4652)%Z 0x0 0x114aa000114b0;
  mkModel 0x2700000027 (4653)%Z 0x0 0x114b0000114b8;
  mkModel 0x2700000027 (4654)%Z 0x0 0x114b8000114bf;
  mkModel 0x2700000027 (-1)%Z 0x114bf000114c7 0x114c7000114cd;
  mkModel 0x2700000027 (4655)%Z 0x0 0x114cd000114d5;
  mkModel 0x2700000027 (4656)%Z 0x0 0x114d5000114de;
  mkModel 0x2700000027 (-1)%Z 0x114de000114e7 0x114e7000114f0;
  mkModel 0x2700000027 (4657)%Z 0x0 0x114f0000114f2;
  mkModel 0x2700000027 (4658)%Z 0x0 0x114f2000114f5;
  mkModel 0x2700000027 (4659)%Z 0x0 0x114f5000114f8;
  mkModel 0x2700000027 (4660)%Z 0x0 0x114f8000114fb;
  mkModel 0x2700000027 (-1)%Z 0x114fb00011503 0xcea40000cea7;
  mkModel 0x2700000027 (-1)%Z 0x115030001150c 0xceaa0000cead;
  mkModel 0x2700000027 (-1)%Z 0x1150c00011515 0x115150001151c;
  mkModel 0x2700000027 (-1)%Z 0x1151c00011526 0x1152600011529;
  mkModel 0x2700000027 (-1)%Z 0x1152900011532 0x1153200011535;
  mkModel 0x2700000027 (-1)%Z 0x115350001153c 0x1153c00011549;
  mkModel 0x2700000027 (-1)%Z 0x1154900011550 0x1155000011557;
  mkModel 0x2700000027 (-1)%Z 0x115570001155e 0x1155e00011561;
  mkModel 0x2700000027 (4661)%Z 0x0 0x1156100011565;
  mkModel 0x2700000027 (4662)%Z 0x0 0x115650001156c;
  mkModel 0x2700000027 (-1)%Z 0x1156c00011573 0x1156c00011573;
  mkModel 0x2700000027 (-1)%Z 0x115730001157b 0x8fc600008fca;
  mkModel 0x2700000027 (-1)%Z 0x1157b00011584 0x1158400011588;
  mkModel 0x2700000027 (-1)%Z 0x1158800011590 0x1159000011599;
  mkModel 0x2700000027 (4663)%Z 0x0 0x115990001159b;
  mkModel 0x2700000027 (4664)%Z 0x0 0x1159b000115a1;
  mkModel 0x2700000027 (4665)%Z 0x0 0x115a1000115aa;
  mkModel 0x2700000027 (-1)%Z 0x115aa000115b1 0x115b1000115b4;
  mkModel 0x2700000027 (4666)%Z 0x0 0x115b4000115b8;
  mkModel 0x2700000027 (-1)%Z 0x115b8000115bf 0x115bf000115c3;
  mkModel 0x2700000027 (-1)%Z 0x115c3000115ca 0x115ca000115cc;
  mkModel 0x2700000027 (-1)%Z 0x115cc000115d3 0x115d3000115d7;
  mkModel 0x2700000027 (4667)%Z 0x0 0x115d7000115da;
  mkModel 0x2700000027 (-1)%Z 0x115da000115df 0x115df000115e4;
  mkModel 0x2700000027 (-1)%Z 0x115e4000115e9 0x115e9000115ed;
  mkModel 0x2700000027 (4668)%Z 0x0 0x88190000881b;
  mkModel 0x2700000027 (-1)%Z 0x115ed000115f6 0xca0c0000ca0e;
  mkModel 0x2700000027 (-1)%Z 0x115f6000115fe 0x115fe00011607;
  mkModel 0x2700000027 (4669)%Z 0x0 0x116070001160d;
  mkModel 0x2700000027 (4670)%Z 0x0 0x1160d00011615;
  mkModel 0x2700000027 (4671)%Z 0x0 0x116150001161d;
  mkModel 0x2700000027 (4672)%Z 0x0 0x1161d00011626;
  mkModel 0x2700000027 (4673)%Z 0x0 0x116260001162f;
  mkModel 0x2700000027 (4674)%Z 0x0 0x1162f00011638;
  mkModel 0x2700000027 (-1)%Z 0x1163800011640 0x116400001164a;
  mkModel 0x2700000027 (-1)%Z 0x1164a00011652 0x1165200011655;
  mkModel 0x2700000027 (-1)%Z 0x116550001165d 0x1165d00011663;
  mkModel 0x2700000027 (4675)%Z 0x0 0x1166300011666;
  mkModel 0x2700000027 (4676)%Z 0x0 0x116660001166f;
  mkModel 0x2700000027 (-1)%Z 0x1166f00011679 0x116790001167c;
  mkModel 0x2700000027 (4677)%Z 0x0 0x1167c00011681;
  mkModel 0x2700000027 (4678)%Z 0x0 0x1168100011685;
  mkModel 0x2700000027 (4679)%Z 0x0 0x116850001168e;
  mkModel 0x2700000027 (4680)%Z 0x0 0x1130b0001130e;
  mkModel 0x2700000027 (4681)%Z 0x0 0x1168e00011691;
  mkModel 0x2700000027 (4682)%Z 0x0 0x879e000087a5;
  mkModel 0x2700000027 (4683)%Z 0x0 0x1169100011699;
  mkModel 0x2700000027 (4684)%Z 0x0 0x4d2200004d25;
  mkModel 0x2700000027 (4685)%Z 0x0 0x11699000116a2;
  mkModel 0x2700000027 (4686)%Z 0x0 0x116a2000116ae;
  mkModel 0x2700000027 (-1)%Z 0x116ae000116b5 0x116b5000116be;
  mkModel 0x2700000027 (4687)%Z 0x0 0x116be000116ca;
  mkModel 0x2700000027 (4688)%Z 0x0 0x116ca000116d6;
  mkModel 0x2700000027 (4689)%Z 0x0 0x116d6000116d9;
  mkModel 0x2700000027 (4690)%Z 0x0 0x116d9000116e7;
  mkModel 0x2700000027 (4691)%Z 0x0 0x116e7000116f5;
  mkModel 0x2700000027 (4692)%Z 0x0 0x116f5000116f7;
  mkModel 0x2700000027 (4693)%Z 0x0 0x116f700011700;
  mkModel 0x2700000027 (4694)%Z 0x0 0x1170000011702;
  mkModel 0x2700000027 (4695)%Z 0x0 0x1170200011704;
  mkModel 0x2700000027 (-1)%Z 0x117040001170b 0x1168100011685;
  mkModel 0x2700000027 (4696)%Z 0x0 0x1170b0001170e;
  mkModel 0x2700000027 (4697)%Z 0x0 0x1170e00011718;
  mkModel 0x2700000027 (4698)%Z 0x0 0x110be000110c1;
  mkModel 0x2700000027 (4699)%Z 0x0 0x1171800011720;
  mkModel 0x2700000027 (4700)%Z 0x0 0x1172000011728;
  mkModel 0x2700000027 (4701)%Z 0x0 0x117280001172b;
  mkModel 0x2700000027 (4702)%Z 0x0 0x1172b0001172e;
  mkModel 0x2700000027 (4703)%Z 0x0 0x114870001148a;
  mkModel 0x2700000027 (4704)%Z 0x0 0x1172e00011731;
  mkModel 0x2700000027 (4705)%Z 0x0 0x1173100011734;
  mkModel 0x2700000027 (4706)%Z 0x0 0x1173400011737;
  mkModel 0x2700000027 (4707)%Z 0x0 0x117370001173b;
  mkModel 0x2700000027 (4708)%Z 0x0 0x1173b0001173e;
  mkModel 0x2700000027 (4709)%Z 0x0 0x1173e00011741;
  mkModel 0x2700000027 (4710)%Z 0x0 0x1174100011749;
  mkModel 0x2700000027 (4711)%Z 0x0 0x117490001174c;
  mkModel 0x2700000027 (4712)%Z 0x0 0x1174c0001174f;
  mkModel 0x2700000027 (4713)%Z 0x0 0x1174f00011752;
  mkModel 0x2700000027 (4714)%Z 0x0 0x1175200011754;
  mkModel 0x2700000027 (-1)%Z 0x117540001175b 0x1152600011529;
  mkModel 0x2700000027 (4715)%Z 0x0 0x1175b0001175d;
  mkModel 0x2700000027 (4716)%Z 0x0 0x1175d00011764;
  mkModel 0x2700000027 (4717)%Z 0x0 0x117640001176d;
  mkModel 0x2700000027 (4718)%Z 0x0 0x1176d00011774;
  mkModel 0x2700000027 (4719)%Z 0x0 0x117740001177d;
  mkModel 0x2700000027 (4720)%Z 0x0 0xa0d50000a0de;
  mkModel 0x2700000027 (4721)%Z 0x0 0x1177d00011786;
  mkModel 0x2700000027 (4722)%Z 0x0 0x1178600011790;
  mkModel 0x2700000027 (4723)%Z 0x0 0x117900001179d;
  mkModel 0x2700000027 (4724)%Z 0x0 0x1179d000117a6;
  mkModel 0x2700000027 (4725)%Z 0x0 0x117a6000117b3;
  mkModel 0x2700000027 (4726)%Z 0x0 0x117b3000117b7;
  mkModel 0x2700000027 (4727)%Z 0x0 0x117b7000117c2;
  mkModel 0x2700000027 (4728)%Z 0x0 0x117c2000117c8;
  mkModel 0x2700000027 (4729)%Z 0x0 0x117c8000117d3;
  mkModel 0x2700000027 (-1)%Z 0x117d3000117db 0x117db000117e2;
  mkModel 0x2700000027 (4730)%Z 0x0 0x117e2000117e9;
  mkModel 0x2700000027 (4731)%Z 0x0 0x117e9000117ee;
  mkModel 0x2700000027 (-1)%Z 0x117ee000117f3 0x117f3000117fa;
  mkModel 0x2700000027 (4732)%Z 0x0 0x117fa00011801;
  mkModel 0x2700000027 (-1)%Z 0x1180100011808 0x1180800011811;
  mkModel 0x2700000027 (-1)%Z 0x1181100011816 0x118160001181c;
  mkModel 0x2700000027 (-1)%Z 0x1181c00011824 0x118240001182b;
  mkModel 0x2700000027 (-1)%Z 0x1182b00011832 0x118320001183b;
  mkModel 0x2700000027 (-1)%Z 0x1183b00011843 0x1184300011849;
  mkModel 0x2700000027 (4733)%Z 0x0 0x1184900011850;
  mkModel 0x2700000027 (4734)%Z 0x0 0x1185000011854;
  mkModel 0x2700000027 (-1)%Z 0x118540001185c 0x1185c00011865;
  mkModel 0x2700000027 (-1)%Z 0x118650001186d 0x1186d0001187c
].
Definition d_dr_dm_31 : list modelTuple := [
  mkModel 0x2700000027 (4735)%Z 0x0 0x1187c00011884;
  mkModel 0x2700000027 (-1)%Z 0x118840001188b 0x1188b00011895;
  mkModel 0x2700000027 (4736)%Z 0x0 0x1189500011898;
  mkModel 0xdfd00000e04 (4737)%Z 0x0 0x118980001189c;
  mkModel 0x2a1000002a7 (-1)%Z 0x1189c000118a2 0x118a2000118ab;
  mkModel 0x2a1000002a7 (4738)%Z 0x0 0x118ab000118bc;
  mkModel 0x2a1000002a7 (4739)%Z 0x0 0x118bc000118ca;
  mkModel 0x2a1000002a7 (-1)%Z 0x118ca000118d1 0x118d1000118de;
  mkModel 0x2a1000002a7 (4740)%Z 0x0 0x118de000118ea;
  mkModel 0x2a1000002a7 (-1)%Z 0x118ea000118f1 0x118de000118ea;
  mkModel 0x2a1000002a7 (4741)%Z 0x0 0x118f1000118fd;
  mkModel 0x2a1000002a7 (-1)%Z 0x118fd00011905 0x1190500011912;
  mkModel 0x2a1000002a7 (4742)%Z 0x0 0x119120001191b;
  mkModel 0x2a1000002a7 (4743)%Z 0x0 0x1191b00011929;
  mkModel 0x2a1000002a7 (4744)%Z 0x0 0x1192900011932;
  mkModel 0x2a1000002a7 (-1)%Z 0x1193200011939 0x1193900011943;
  mkModel 0x2a1000002a7 (-1)%Z 0x119430001194a 0x1194a00011957;
  mkModel 0x2a1000002a7 (4745)%Z 0x0 0x1195700011964;
  mkModel 0x2a1000002a7 (-1)%Z 0x119640001196b 0x1196b0001197c;
  mkModel 0x2a1000002a7 (4746)%Z 0x0 0x1197c00011989;
  mkModel 0x2a1000002a7 (4747)%Z 0x0 0x119890001199b;
  mkModel 0x2a1000002a7 (4748)%Z 0x0 0x1199b000119b2;
  mkModel 0x2a1000002a7 (-1)%Z 0x119b2000119ba 0x119ba000119cf;
  mkModel 0x2a1000002a7 (-1)%Z 0x119cf000119d4 0x119d4000119e1;
  mkModel 0x2a1000002a7 (-1)%Z 0x119e1000119e6 0x119e6000119f1;
  mkModel 0x2a1000002a7 (4749)%Z 0x0 0x119f1000119fd;
  mkModel 0x2a1000002a7 (-1)%Z 0x119fd00011a04 0x11a0400011a11;
  mkModel 0x2a1000002a7 (-1)%Z 0x11a1100011a18 0x11a1800011a2a;
  mkModel 0x2a1000002a7 (4750)%Z 0x0 0x11a2a00011a38;
  mkModel 0x2a1000002a7 (-1)%Z 0x11a3800011a3d 0x11a3d00011a47;
  mkModel 0x2a1000002a7 (-1)%Z 0x11a4700011a4c 0x11a4c00011a56;
  mkModel 0x7cc000007d6 (-1)%Z 0x11a5600011a5f 0x11a5600011a5f;
  mkModel 0x7cc000007d6 (-1)%Z 0x11a5f00011a6a 0x11a6a00011a73;
  mkModel 0x23b0000023d (-1)%Z 0x11a7300011a7e 0x11a7300011a7e;
  mkModel 0x23b0000023d (4751)%Z 0x0 0x11a7e00011a86;
  mkModel 0x23b0000023d (4752)%Z 0x0 0x18000000182;
  mkModel 0x23b0000023d (4753)%Z 0x0 0x18000000182;
  mkModel 0x23b0000023d (4754)%Z 0x0 0x18000000182;
  mkModel 0x23b0000023d (4755)%Z 0x0 0x18000000182;
  mkModel 0x23b0000023d (-1)%Z 0x11a8600011a91 0x11a8600011a91;
  mkModel 0x23b0000023d (4756)%Z 0x0 0x11a7e00011a86;
  mkModel 0x23b0000023d (4757)%Z 0x0 0x11a9100011a98;
  mkModel 0x2b1e00002b26 (-1)%Z 0x11a9800011aa7 0x11aa700011ab3;
  mkModel 0x2b1e00002b26 (4758)%Z 0x0 0x11ab300011abc;
  mkModel 0x2700000027 (4759)%Z 0x0 0x18000000182;
  mkModel 0x2700000027 (4760)%Z 0x0 0x18000000182;
  mkModel 0x2700000027 (4761)%Z 0x0 0x18000000182;
  mkModel 0x2700000027 (4762)%Z 0x0 0x18000000182;
  mkModel 0x2a1000002a7 (4763)%Z 0x0 0x18000000182;
  mkModel 0x2700000027 (4764)%Z 0x0 0x18000000182;
  mkModel 0x2700000027 (4765)%Z 0x0 0x18000000182;
  mkModel 0x2700000027 (4766)%Z 0x0 0x18000000182;
  mkModel 0x2700000027 (4767)%Z 0x0 0x18000000182;
  mkModel 0x2700000027 (4768)%Z 0x0 0x18000000182;
  mkModel 0x2700000027 (4769)%Z 0x0 0x18000000182;
  mkModel 0x23b0000023d (4770)%Z 0x0 0x2700000027;
  mkModel 0x0 (-1)%Z 0x0 0x18000000182;
  mkModel 0x0 (-1)%Z 0x0 0x18000000182;
  mkModel 0x0 (-1)%Z 0x0 0x18000000182;
  mkModel 0x2700000027 (4775)%Z 0x0 0x61760000617d;
  mkModel 0x2700000027 (-1)%Z 0x11ad600011ae0 0x11ae000011ae7;
  mkModel 0x2700000027 (4776)%Z 0x0 0xde7d0000de7f;
  mkModel 0x2700000027 (4777)%Z 0x0 0xddda0000dddd;
  mkModel 0x2700000027 (4778)%Z 0x0 0x9ad000009ad3;
  mkModel 0x2700000027 (4779)%Z 0x0 0x11ae700011aea;
  mkModel 0x2700000027 (4780)%Z 0x0 0xd8380000d840;
  mkModel 0x2700000027 (4781)%Z 0x0 0xddef0000ddf2;
  mkModel 0x2700000027 (4782)%Z 0x0 0xde010000de04;
  mkModel 0x2700000027 (4783)%Z 0x0 0x18000000182;
  mkModel 0x2700000027 (4784)%Z 0x0 0x11aea00011af2;
  mkModel 0x2700000027 (4785)%Z 0x0 0x11af200011af5;
  mkModel 0x2700000027 (4786)%Z 0x0 0x11af500011af7;
  mkModel 0x2700000027 (4787)%Z 0x0 0x11af700011afb;
  mkModel 0x2700000027 (4788)%Z 0x0 0x44c0000044f;
  mkModel 0x2700000027 (4789)%Z 0x0 0x11afb00011afe;
  mkModel 0x2700000027 (4790)%Z 0x0 0x11afe00011b01;
  mkModel 0x2700000027 (4791)%Z 0x0 0x11b0100011b04;
  mkModel 0x2700000027 (4792)%Z 0x0 0x11b0400011b0d;
  mkModel 0x2700000027 (4793)%Z 0x0 0x11b0d00011b10;
  mkModel 0x2700000027 (4794)%Z 0x0 0x1062e00010631;
  mkModel 0x2700000027 (4795)%Z 0x0 0x4c4c00004c4f;
  mkModel 0x2700000027 (4796)%Z 0x0 0x5f2d00005f30;
  mkModel 0x2700000027 (4797)%Z 0x0 0x11b1000011b18;
  mkModel 0x2700000027 (4798)%Z 0x0 0xf1440000f147;
  mkModel 0x2700000027 (4800)%Z 0x0 0x11b1e00011b27;
  mkModel 0x2700000027 (-1)%Z 0x11b2700011b31 0x11b3100011b3a;
  mkModel 0x2700000027 (-1)%Z 0x11b3a00011b43 0x11b4300011b4d;
  mkModel 0x0 (-1)%Z 0x0 0x18000000182;
  mkModel 0x0 (-1)%Z 0x0 0x18000000182;
  mkModel 0x2700000027 (-1)%Z 0x11b5500011b5c 0x11b5c00011b63;
  mkModel 0x2700000027 (-1)%Z 0x11b6300011b6a 0x11b6a00011b71;
  mkModel 0x2700000027 (-1)%Z 0x11b7100011b78 0x11b7800011b7f;
  mkModel 0x2700000027 (-1)%Z 0x11b7f00011b86 0x11b8600011b8e;
  mkModel 0x2700000027 (-1)%Z 0x11b8e00011b95 0x11b9500011ba2;
  mkModel 0x2700000027 (-1)%Z 0x11ba200011ba9 0x11ba900011bb0;
  mkModel 0x2700000027 (-1)%Z 0x11bb000011bb7 0x11bb700011bbe;
  mkModel 0x2700000027 (-1)%Z 0x11bbe00011bc5 0x11bc500011bcc;
  mkModel 0x2700000027 (-1)%Z 0x11bcc00011bd3 0x11bd300011bda;
  mkModel 0x2700000027 (4804)%Z 0x0 0x11bda00011be1;
  mkModel 0x2700000027 (-1)%Z 0x11be100011be8 0x11be800011bf0;
  mkModel 0x2700000027 (4805)%Z 0x0 0x11bf000011bf7;
  mkModel 0x2700000027 (-1)%Z 0x11bf700011bfe 0x11bfe00011c05;
  mkModel 0x2700000027 (-1)%Z 0x11c0500011c0c 0x11c0c00011c13;
  mkModel 0x2700000027 (-1)%Z 0x11c1300011c1a 0x11c1a00011c21;
  mkModel 0x2700000027 (-1)%Z 0x11c2100011c28 0x11c2800011c2f;
  mkModel 0x2700000027 (-1)%Z 0x11c2f00011c36 0x11c3600011c3c;
  mkModel 0x2700000027 (-1)%Z 0x11c3c00011c43 0x11c4300011c49;
  mkModel 0x2700000027 (-1)%Z 0x11c4900011c50 0x11c5000011c56;
  mkModel 0x2700000027 (-1)%Z 0x11c5600011c5d 0x11c5d00011c63;
  mkModel 0x2700000027 (-1)%Z 0x11c6300011c6a 0x11c6a00011c71;
  mkModel 0x2700000027 (-1)%Z 0x11c7100011c78 0x11c7800011c7e;
  mkModel 0x2700000027 (-1)%Z 0x11c7e00011c85 0x11c8500011c8c;
  mkModel 0x2700000027 (-1)%Z 0x11c8c00011c93 0x11c9300011c9b;
  mkModel 0x2700000027 (-1)%Z 0x11c9b00011ca2 0x11ca200011caa;
  mkModel 0x2700000027 (-1)%Z 0x11caa00011cb1 0x11cb100011cb8;
  mkModel 0x2700000027 (-1)%Z 0x11cb800011cbf 0x11cbf00011cc7;
  mkModel 0x2700000027 (-1)%Z 0x11cc700011cce 0x11cce00011cd7;
  mkModel 0x2700000027 (-1)%Z 0x11cd700011cde 0x11cde00011ce4;
  mkModel 0x2700000027 (-1)%Z 0x11ce400011ceb 0x11ceb00011cf2;
  mkModel 0x2700000027 (-1)%Z 0x11cf200011cf9 0x11cf900011d00;
  mkModel 0x2700000027 (-1)%Z 0x11d0000011d07 0x11d0700011d0d;
  mkModel 0x2700000027 (4806)%Z 0x0 0x18000000182;
  mkModel 0x0 (-1)%Z 0x0 0x11d1900011d20;
  mkModel 0x2700000027 (4809)%Z 0x0 0x18000000182;
  mkModel 0x2700000027 (4810)%Z 0x0 0x11d2a00011d33;
  mkModel 0x2700000027 (-1)%Z 0x11d3300011d39 0x11d3900011d3f;
  mkModel 0x2700000027 (-1)%Z 0x11d3f00011d45 0x11d4500011d55;
  mkModel 0x2a1000002a7 (4811)%Z 0x0 0x18000000182;
  mkModel 0x2700000027 (-1)%Z 0x11d5b00011d63 0x11d6300011d65;
  mkModel 0x2700000027 (4813)%Z 0x0 0x11d6500011d6d;
  mkModel 0x0 (-1)%Z 0x0 0x18000000182;
  mkModel 0x2a1000002a7 (-1)%Z 0x11d7700011d87 0x11d8700011d98;
  mkModel 0x2a1000002a7 (-1)%Z 0x11d9800011da4 0x11da400011db0;
  mkModel 0x2a1000002a7 (4816)%Z 0x0 0x11db000011dbc;
  mkModel 0x2700000027 (-1)%Z 0x11dbc00011dc1 0x11dc100011dcc;
  mkModel 0x2700000027 (4817)%Z 0x0 0x11dcc00011dd4;
  mkModel 0x2700000027 (4818)%Z 0x0 0x11dcc00011dd4;
  mkModel 0x2700000027 (4819)%Z 0x0 0x11dd400011de2;
  mkModel 0x2700000027 (4820)%Z 0x0 0x11de200011deb;
  mkModel 0x2700000027 (4821)%Z 0x0 0x11deb00011df4;
  mkModel 0x2700000027 (4822)%Z 0x0 0x18000000182;
  mkModel 0x39a000003a7 (4823)%Z 0x0 0x18000000182;
  mkModel 0x23f00000249 (4825)%Z 0x0 0x11df800011e05;
  mkModel 0x2700000027 (4826)%Z 0x0 0x11e0500011e1c;
  mkModel 0x2700000027 (-1)%Z 0x11e1c00011e2d 0x11e2d00011e3d;
  mkModel 0x2700000027 (4827)%Z 0x0 0x11e3d00011e49;
  mkModel 0x2700000027 (4828)%Z 0x0 0x11e4900011e56;
  mkModel 0x2700000027 (4829)%Z 0x0 0x11e5600011e61;
  mkModel 0x2700000027 (-1)%Z 0x11e6100011e6c 0x11e6100011e6c;
  mkModel 0x2700000027 (-1)%Z 0x11e6c00011e7a 0x11e7a00011e89;
  mkModel 0x2700000027 (4830)%Z 0x0 0x11e8900011e95;
  mkModel 0x2700000027 (4831)%Z 0x0 0x11e9500011ea0;
  mkModel 0x2700000027 (-1)%Z 0x11ea000011ea9 0x11ea900011eb2;
  mkModel 0x23f00000249 (4832)%Z 0x0 0x11eb200011ebd;
  mkModel 0x23f00000249 (4833)%Z 0x0 0x11ebd00011ec9;
  mkModel 0x23f00000249 (4834)%Z 0x0 0x11ec900011ed2;
  mkModel 0x23f00000249 (4835)%Z 0x0 0x18000000182;
  mkModel 0x23f00000249 (-1)%Z 0x11ed200011ede 0x11ede00011eea;
  mkModel 0x2700000027 (4837)%Z 0x0 0x11eef00011efe;
  mkModel 0x2700000027 (4839)%Z 0x0 0x11f0200011f09;
  mkModel 0x2700000027 (4840)%Z 0x0 0x11f0900011f15;
  mkModel 0x2700000027 (4841)%Z 0x0 0x11f1500011f1e;
  mkModel 0x2700000027 (4842)%Z 0x0 0x11f1e00011f23;
  mkModel 0x2700000027 (4843)%Z 0x0 0x11f2300011f2c;
  mkModel 0x2700000027 (4844)%Z 0x0 0x11f2c00011f34;
  mkModel 0x2700000027 (4845)%Z 0x0 0x11f3400011f3e;
  mkModel 0x2700000027 (-1)%Z 0x11f3e00011f44 0x11f4400011f4f;
  mkModel 0x2700000027 (4846)%Z 0x0 0x11f4f00011f57;
  mkModel 0x2700000027 (4847)%Z 0x0 0x11f5700011f60;
  mkModel 0x2700000027 (4848)%Z 0x0 0x11f6000011f69;
  mkModel 0x2700000027 (4849)%Z 0x0 0x11f6900011f72;
  mkModel 0x2700000027 (4850)%Z 0x0 0x11f7200011f79;
  mkModel 0x2700000027 (4851)%Z 0x0 0x11f7900011f82;
  mkModel 0x2700000027 (4852)%Z 0x0 0x11f8200011f89;
  mkModel 0x2700000027 (4853)%Z 0x0 0x11f8900011f90;
  mkModel 0x2700000027 (4854)%Z 0x0 0x11f9000011f98;
  mkModel 0x2700000027 (4855)%Z 0x0 0x11f9800011fa4;
  mkModel 0x2700000027 (4856)%Z 0x0 0x11fa400011fac;
  mkModel 0x2700000027 (4857)%Z 0x0 0x11fac00011fb3;
  mkModel 0x2700000027 (4858)%Z 0x0 0x11fb300011fc0;
  mkModel 0x2700000027 (4859)%Z 0x0 0x11fc000011fc9;
  mkModel 0x2700000027 (4860)%Z 0x0 0x11fc900011fd2;
  mkModel 0x2700000027 (4861)%Z 0x0 0x11fd200011fe0;
  mkModel 0x2700000027 (4862)%Z 0x0 0x11fe000011fe8;
  mkModel 0x2700000027 (4863)%Z 0x0 0x4fd100004fd4;
  mkModel 0x2700000027 (4864)%Z 0x0 0x84ff00008502;
  mkModel 0x2700000027 (-1)%Z 0x11fe800011ff2 0x11ff200011ff4;
  mkModel 0x2700000027 (-1)%Z 0x11ff400011ffa 0x11ffa00011ffd;
  mkModel 0x2700000027 (4865)%Z 0x0 0x11ffd00012000;
  mkModel 0x2700000027 (4866)%Z 0x0 0x1200000012007;
  mkModel 0x2700000027 (4867)%Z 0x0 0x1200700012009;
  mkModel 0x2700000027 (4868)%Z 0x0 0x120090001200b;
  mkModel 0x2700000027 (-1)%Z 0x1200b00012014 0x1201400012017;
  mkModel 0x2700000027 (4869)%Z 0x0 0x114a3000114a5;
  mkModel 0x2700000027 (4870)%Z 0x0 0x120090001200b;
  mkModel 0x2700000027 (4871)%Z 0x0 0x120170001201d;
  mkModel 0x2700000027 (4872)%Z 0x0 0x11ff200011ff4;
  mkModel 0x2700000027 (4873)%Z 0x0 0x1200700012009;
  mkModel 0x2700000027 (4874)%Z 0x0 0x1201d00012021;
  mkModel 0x2700000027 (4875)%Z 0x0 0x1202100012023
].
Definition d_dr_dm_32 : list modelTuple := [
  mkModel 0x2700000027 (4876)%Z 0x0 0x1202300012025;
  mkModel 0x2700000027 (4877)%Z 0x0 0x120250001202d;
  mkModel 0x2700000027 (-1)%Z 0x1202d00012035 0x120350001203e;
  mkModel 0x2700000027 (4878)%Z 0x0 0x1203e00012041;
  mkModel 0x2700000027 (4879)%Z 0x0 0x1204100012044;
  mkModel 0x2700000027 (4880)%Z 0x0 0x1204400012047;
  mkModel 0x2700000027 (4881)%Z 0x0 0x120470001204a;
  mkModel 0x2700000027 (4882)%Z 0x0 0x1204a0001204d;
  mkModel 0x2700000027 (4883)%Z 0x0 0x1204d00012054;
  mkModel 0x2700000027 (4884)%Z 0x0 0x120540001205b;
  mkModel 0x2700000027 (4885)%Z 0x0 0x1205b00012062;
  mkModel 0x2700000027 (4886)%Z 0x0 0x1206200012069;
  mkModel 0x2700000027 (4887)%Z 0x0 0x1206900012070;
  mkModel 0x2700000027 (4888)%Z 0x0 0x1207000012078;
  mkModel 0x2700000027 (4889)%Z 0x0 0x120780001207f;
  mkModel 0x2700000027 (4890)%Z 0x0 0x1207f0001208b;
  mkModel 0x2700000027 (4891)%Z 0x0 0x1208b00012096;
  mkModel 0x2700000027 (4892)%Z 0x0 0x1209600012099;
  mkModel 0x2700000027 (4893)%Z 0x0 0x120990001209b;
  mkModel 0x2700000027 (4894)%Z 0x0 0x1209b0001209e;
  mkModel 0x2700000027 (-1)%Z 0x1209e000120a5 0x120a5000120ad;
  mkModel 0x2700000027 (-1)%Z 0x120ad000120b4 0x120b4000120bb;
  mkModel 0x2700000027 (-1)%Z 0x120bb000120c1 0x120c1000120c3;
  mkModel 0x2700000027 (-1)%Z 0x120c3000120c9 0x120c9000120d0;
  mkModel 0x2700000027 (-1)%Z 0x120d0000120d6 0x72680000726f;
  mkModel 0x2700000027 (-1)%Z 0x120d6000120dc 0x120dc000120e2;
  mkModel 0x2700000027 (-1)%Z 0x120e2000120e8 0x120e8000120f2;
  mkModel 0x2700000027 (-1)%Z 0x120f2000120f8 0x120f800012102;
  mkModel 0x2700000027 (-1)%Z 0x1210200012108 0x1210800012110;
  mkModel 0x2700000027 (-1)%Z 0x1211000012116 0x121160001211f;
  mkModel 0x2700000027 (-1)%Z 0x1211f00012125 0x121250001212d;
  mkModel 0x2700000027 (4895)%Z 0x0 0x1940000019b;
  mkModel 0x2700000027 (4896)%Z 0x0 0x18000000182;
  mkModel 0x2700000027 (4897)%Z 0x0 0x1212d00012137;
  mkModel 0x2700000027 (-1)%Z 0x1213700012143 0x1214300012154;
  mkModel 0x39a000003a7 (-1)%Z 0x121540001215f 0x1215f0001216b;
  mkModel 0x39a000003a7 (-1)%Z 0x1216b00012175 0x121750001217f;
  mkModel 0x39a000003a7 (4898)%Z 0x0 0x1217f0001218f;
  mkModel 0x2a1000002a7 (4899)%Z 0x0 0x1218f00012197;
  mkModel 0x2a1000002a7 (4900)%Z 0x0 0x121970001219e;
  mkModel 0x2a1000002a7 (4901)%Z 0x0 0x1219e000121a2;
  mkModel 0x2a1000002a7 (4902)%Z 0x0 0x121a2000121a5;
  mkModel 0x2700000027 (4903)%Z 0x0 0x121a5000121b1;
  mkModel 0x2700000027 (4904)%Z 0x0 0x121b1000121b8;
  mkModel 0x2700000027 (4905)%Z 0x0 0x18000000182;
  mkModel 0x39a000003a7 (4906)%Z 0x0 0x18000000182;
  mkModel 0x2700000027 (-1)%Z 0x121be000121c4 0x121c4000121cf;
  mkModel 0x2700000027 (4908)%Z 0x0 0x121cf000121d7;
  mkModel 0x2700000027 (4909)%Z 0x0 0x121d7000121e0;
  mkModel 0x2700000027 (4910)%Z 0x0 0x18000000182;
  mkModel 0x2700000027 (-1)%Z 0x121e6000121ed 0x121ed000121f4;
  mkModel 0x2700000027 (4912)%Z 0x0 0x18000000182;
  mkModel 0x2700000027 (4914)%Z 0x0 0x121f900012201;
  mkModel 0x2700000027 (4915)%Z 0x0 0x122010001220a;
  mkModel 0x2700000027 (4916)%Z 0x0 0x1220a0001220f;
  mkModel 0x2700000027 (4917)%Z 0x0 0x1220f00012217;
  mkModel 0x2700000027 (4918)%Z 0x0 0x18000000182;
  mkModel 0x2700000027 (-1)%Z 0x1221700012221 0x1222100012228;
  mkModel 0x2700000027 (4919)%Z 0x0 0x1222800012230;
  mkModel 0x2700000027 (4920)%Z 0x0 0x122300001223b;
  mkModel 0x2700000027 (4921)%Z 0x0 0x1223b00012242;
  mkModel 0x2700000027 (4922)%Z 0x0 0x1224200012246;
  mkModel 0x2700000027 (-1)%Z 0x1224600012252 0x74e2000074e8;
  mkModel 0x2700000027 (4923)%Z 0x0 0x122520001225a;
  mkModel 0x2700000027 (4924)%Z 0x0 0x1225a00012260;
  mkModel 0x2700000027 (4925)%Z 0x0 0x1225a00012260;
  mkModel 0x2700000027 (4926)%Z 0x0 0x1226000012265;
  mkModel 0x2700000027 (4927)%Z 0x0 0x122650001226d;
  mkModel 0x2700000027 (4928)%Z 0x0 0x122650001226d;
  mkModel 0x2700000027 (4929)%Z 0x0 0x18000000182;
  mkModel 0x2700000027 (-1)%Z 0x1227900012283 0x122830001228d;
  mkModel 0x2700000027 (-1)%Z 0x1228d00012296 0x122960001229f;
  mkModel 0x2700000027 (-1)%Z 0x1229f000122a7 0x122a7000122ac;
  mkModel 0x2700000027 (-1)%Z 0x122ac000122b5 0x122b5000122bb;
  mkModel 0x2700000027 (-1)%Z 0x122bb000122c3 0x122c3000122c8;
  mkModel 0x2700000027 (-1)%Z 0x122c8000122cf 0x122cf000122d2;
  mkModel 0x2700000027 (-1)%Z 0x122d2000122e0 0x122e0000122eb;
  mkModel 0x2700000027 (-1)%Z 0x122eb000122f9 0x122f900012307;
  mkModel 0x2700000027 (4931)%Z 0x0 0x1230700012314;
  mkModel 0x2700000027 (-1)%Z 0x123140001231f 0x1231f00012327;
  mkModel 0x2700000027 (-1)%Z 0x1232700012335 0x1233500012340;
  mkModel 0x2a1000002a7 (-1)%Z 0x123400001234b 0x1234b00012353;
  mkModel 0x2a1000002a7 (-1)%Z 0x1235300012359 0x123590001235c;
  mkModel 0x2700000027 (4932)%Z 0x0 0x18000000182;
  mkModel 0x2700000027 (4934)%Z 0x0 0x1236200012369;
  mkModel 0x2700000027 (4935)%Z 0x0 0x18000000182;
  mkModel 0x2700000027 (-1)%Z 0x1236900012370 0x1237000012377;
  mkModel 0x2700000027 (4936)%Z 0x0 0x123770001237e;
  mkModel 0x2700000027 (-1)%Z 0x1237e0001238a 0x1238a00012396;
  mkModel 0x2700000027 (-1)%Z 0x12396000123a0 0x123a0000123aa;
  mkModel 0x2700000027 (4937)%Z 0x0 0x123aa000123b2;
  mkModel 0x2700000027 (4938)%Z 0x0 0x50320000503a;
  mkModel 0x2700000027 (4939)%Z 0x0 0x123b2000123bd;
  mkModel 0x2700000027 (4940)%Z 0x0 0x123bd000123c5;
  mkModel 0x2700000027 (4941)%Z 0x0 0x123c5000123ce;
  mkModel 0x2700000027 (4942)%Z 0x0 0x123ce000123d5;
  mkModel 0x2700000027 (4943)%Z 0x0 0x123d5000123dd;
  mkModel 0x2700000027 (4944)%Z 0x0 0x18000000182;
  mkModel 0x2700000027 (4945)%Z 0x0 0x18000000182;
  mkModel 0x2a1000002a7 (-1)%Z 0x123dd000123e8 0x123e8000123f4;
  mkModel 0x2a1000002a7 (-1)%Z 0x123f400012404 0x124040001240c;
  mkModel 0x2a1000002a7 (4946)%Z 0x0 0x1240c00012415;
  mkModel 0x0 (-1)%Z 0x0 0x1241c00012426;
  mkModel 0x2700000027 (4949)%Z 0x0 0x1242d00012437;
  mkModel 0x2700000027 (4950)%Z 0x0 0x1243700012449;
  mkModel 0x2700000027 (4952)%Z 0x0 0x2700000027;
  mkModel 0x0 (-1)%Z 0x0 0x18000000182;
  mkModel 0x0 (-1)%Z 0x0 0x7c3000007c8;
  mkModel 0x0 (-1)%Z 0x0 0x1245e00012464;
  mkModel 0x0 (-1)%Z 0x0 0x18000000182;
  mkModel 0x2700000027 (4957)%Z 0x0 0x18000000182;
  mkModel 0xbf670000bf7c (-1)%Z 0x1247500012486 0x1248600012491;
  mkModel 0x2700000027 (-1)%Z 0x1249100012497 0x1249100012497;
  mkModel 0x2700000027 (4959)%Z 0x0 0x18000000182;
  mkModel 0xc9b00000ca2 (4961)%Z 0x0 0x1249d000124a1;
  mkModel 0x2a1000002a7 (-1)%Z 0x124a1000124ac 0x124ac000124c1;
  mkModel 0x2a1000002a7 (4962)%Z 0x0 0x124c1000124ce;
  mkModel 0x2a1000002a7 (-1)%Z 0x124ce000124d7 0x124d7000124e4;
  mkModel 0x2a1000002a7 (-1)%Z 0x124e4000124eb 0x124eb00012503;
  mkModel 0x2a1000002a7 (4963)%Z 0x0 0x1250300012510;
  mkModel 0x2a1000002a7 (4964)%Z 0x0 0x125100001251d;
  mkModel 0x2a1000002a7 (4965)%Z 0x0 0x1251d0001252b;
  mkModel 0x2a1000002a7 (-1)%Z 0x1252b00012533 0x1253300012538;
  mkModel 0x2a1000002a7 (-1)%Z 0x125380001253e 0x1253e0001254c;
  mkModel 0x2a1000002a7 (4966)%Z 0x0 0x1254c00012558;
  mkModel 0x2a1000002a7 (4967)%Z 0x0 0x125580001255f;
  mkModel 0x2a1000002a7 (4968)%Z 0x0 0x1255f0001256e;
  mkModel 0x2a1000002a7 (4969)%Z 0x0 0x1256e00012578;
  mkModel 0x2a1000002a7 (4970)%Z 0x0 0x1257800012583;
  mkModel 0x2a1000002a7 (-1)%Z 0x125830001258b 0x1258b00012597;
  mkModel 0x2a1000002a7 (-1)%Z 0x125970001259f 0x1259f000125a5;
  mkModel 0x2a1000002a7 (4971)%Z 0x0 0x125a5000125b5;
  mkModel 0x2a1000002a7 (-1)%Z 0x125b5000125bd 0x125bd000125c8;
  mkModel 0x2a1000002a7 (-1)%Z 0x125c8000125d0 0x125d0000125dc;
  mkModel 0x2a1000002a7 (-1)%Z 0x125dc000125e4 0x125e4000125f4;
  mkModel 0x2a1000002a7 (4972)%Z 0x0 0x125f4000125ff;
  mkModel 0x2a1000002a7 (-1)%Z 0x125ff00012607 0x1260700012611;
  mkModel 0x2a1000002a7 (-1)%Z 0x126110001261e 0x1261e0001262a;
  mkModel 0x2a1000002a7 (4973)%Z 0x0 0x1262a00012633;
  mkModel 0x2a1000002a7 (4974)%Z 0x0 0x126330001263c;
  mkModel 0x2a1000002a7 (4975)%Z 0x0 0x1263c00012642;
  mkModel 0x2a1000002a7 (4976)%Z 0x0 0x126420001264d;
  mkModel 0x2a1000002a7 (4977)%Z 0x0 0x1264d00012654;
  mkModel 0x2a1000002a7 (4978)%Z 0x0 0x126540001265a;
  mkModel 0x2a1000002a7 (-1)%Z 0x1265a00012662 0x126620001266d;
  mkModel 0x2a1000002a7 (4979)%Z 0x0 0x1266d00012679;
  mkModel 0x2a1000002a7 (4980)%Z 0x0 0x1267900012683;
  mkModel 0x2a1000002a7 (4981)%Z 0x0 0x126830001268e;
  mkModel 0x2a1000002a7 (4982)%Z 0x0 0x1268e00012696;
  mkModel 0x2a1000002a7 (4983)%Z 0x0 0x126960001269d;
  mkModel 0x2a1000002a7 (4984)%Z 0x0 0x1269d000126a4;
  mkModel 0x2a1000002a7 (4985)%Z 0x0 0x126a4000126aa;
  mkModel 0x2a1000002a7 (4986)%Z 0x0 0x126aa000126b1;
  mkModel 0x2a1000002a7 (4987)%Z 0x0 0x126b1000126b8;
  mkModel 0x2a1000002a7 (4988)%Z 0x0 0x126b8000126c3;
  mkModel 0x2a1000002a7 (-1)%Z 0x126c3000126ca 0x126ca000126d1;
  mkModel 0x2a1000002a7 (-1)%Z 0x126d1000126d8 0x126d8000126e0;
  mkModel 0x2a1000002a7 (4989)%Z 0x0 0x126e0000126e7;
  mkModel 0x2a1000002a7 (4990)%Z 0x0 0x126e7000126fa;
  mkModel 0x2a1000002a7 (4991)%Z 0x0 0x126fa00012709;
  mkModel 0x2a1000002a7 (4992)%Z 0x0 0x1270900012715;
  mkModel 0x2a1000002a7 (4993)%Z 0x0 0x1271500012720;
  mkModel 0x2a1000002a7 (4994)%Z 0x0 0x1272000012733;
  mkModel 0x2a1000002a7 (4995)%Z 0x0 0x1273300012742;
  mkModel 0x2a1000002a7 (4996)%Z 0x0 0x1274200012750;
  mkModel 0x2a1000002a7 (4997)%Z 0x0 0x1275000012756;
  mkModel 0x2a1000002a7 (4998)%Z 0x0 0x127560001275c;
  mkModel 0x2a1000002a7 (-1)%Z 0x1275c00012763 0x1276300012772;
  mkModel 0x2a1000002a7 (4999)%Z 0x0 0x1277200012777;
  mkModel 0x2a1000002a7 (-1)%Z 0x127770001277d 0x1277d00012785;
  mkModel 0x2a1000002a7 (-1)%Z 0x127850001278c 0x1278c00012792;
  mkModel 0x2a1000002a7 (-1)%Z 0x1279200012798 0x127980001279d;
  mkModel 0x2a1000002a7 (5000)%Z 0x0 0x1279d000127ad;
  mkModel 0x2a1000002a7 (5001)%Z 0x0 0x127ad000127bc;
  mkModel 0x2a1000002a7 (-1)%Z 0x127bc000127c3 0x127c3000127ce;
  mkModel 0x2a1000002a7 (-1)%Z 0x127ce000127d5 0x127d5000127df;
  mkModel 0x2a1000002a7 (5002)%Z 0x0 0x127df000127e9;
  mkModel 0x2a1000002a7 (5003)%Z 0x0 0x127e9000127fd;
  mkModel 0x2a1000002a7 (5004)%Z 0x0 0x127fd0001280c;
  mkModel 0x2a1000002a7 (5005)%Z 0x0 0x126960001269d;
  mkModel 0x2a1000002a7 (5006)%Z 0x0 0x1280c00012812;
  mkModel 0x2a1000002a7 (5007)%Z 0x0 0x1281200012820;
  mkModel 0x2a1000002a7 (5008)%Z 0x0 0x128200001282e;
  mkModel 0x2a1000002a7 (5009)%Z 0x0 0x1282e0001283f;
  mkModel 0x2a1000002a7 (5010)%Z 0x0 0x1283f00012856;
  mkModel 0x2a1000002a7 (5011)%Z 0x0 0x1285600012869;
  mkModel 0x2a1000002a7 (5012)%Z 0x0 0x128690001287b;
  mkModel 0x2a1000002a7 (5013)%Z 0x0 0x1287b00012888;
  mkModel 0x2a1000002a7 (5014)%Z 0x0 0x1288800012892;
  mkModel 0x2a1000002a7 (5015)%Z 0x0 0x128920001289e;
  mkModel 0x2a1000002a7 (-1)%Z 0x1289e000128a6 0x128a6000128b3;
  mkModel 0x2a1000002a7 (5016)%Z 0x0 0x128b3000128c2;
  mkModel 0x2a1000002a7 (5017)%Z 0x0 0x128c2000128d0;
  mkModel 0x2a1000002a7 (5018)%Z 0x0 0x128d0000128d9;
  mkModel 0x2a1000002a7 (-1)%Z 0x128d9000128e1 0x128e1000128fd;
  mkModel 0x2a1000002a7 (-1)%Z 0x128fd00012904 0x129040001291e;
  mkModel 0x2a1000002a7 (-1)%Z 0x1291e00012925 0x129250001293b;
  mkModel 0x2a1000002a7 (-1)%Z 0x1293b00012944 0x1294400012956;
  mkModel 0x2a1000002a7 (5019)%Z 0x0 0x129560001296b;
  mkModel 0x2a1000002a7 (-1)%Z 0x1296b0001297b 0x1297b00012997
].
Definition d_dr_dm_33 : list modelTuple := [
  mkModel 0x2a1000002a7 (5020)%Z 0x0 0x12997000129a4;
  mkModel 0x2a1000002a7 (5021)%Z 0x0 0x129a4000129ae;
  mkModel 0x2a1000002a7 (5022)%Z 0x0 0x129ae000129c0;
  mkModel 0x2a1000002a7 (5023)%Z 0x0 0x129c0000129d1;
  mkModel 0x2a1000002a7 (5024)%Z 0x0 0x129d1000129dc;
  mkModel 0x2a1000002a7 (5025)%Z 0x0 0x129dc000129e4;
  mkModel 0x2a1000002a7 (-1)%Z 0x129e4000129ec 0x129ec000129f3;
  mkModel 0x2a1000002a7 (5026)%Z 0x0 0x129f300012a00;
  mkModel 0x2a1000002a7 (-1)%Z 0x12a0000012a08 0x12a0800012a13;
  mkModel 0x2a1000002a7 (-1)%Z 0x12a1300012a1b 0x1264d00012654;
  mkModel 0x2a1000002a7 (5027)%Z 0x0 0x12a1b00012a1e;
  mkModel 0x2a1000002a7 (5028)%Z 0x0 0x12a1e00012a21;
  mkModel 0x2a1000002a7 (5029)%Z 0x0 0x12a2100012a2a;
  mkModel 0x2a1000002a7 (5030)%Z 0x0 0x129a4000129ae;
  mkModel 0x2a1000002a7 (-1)%Z 0x12a2a00012a32 0x12a3200012a3a;
  mkModel 0x2a1000002a7 (-1)%Z 0x12a3a00012a42 0x128c2000128d0;
  mkModel 0x2a1000002a7 (5031)%Z 0x0 0x12a4200012a4f;
  mkModel 0x2a1000002a7 (5032)%Z 0x0 0x12a4f00012a5b;
  mkModel 0x2a1000002a7 (5033)%Z 0x0 0x12a5b00012a61;
  mkModel 0x2a1000002a7 (5034)%Z 0x0 0x12a6100012a6f;
  mkModel 0x2a1000002a7 (5035)%Z 0x0 0x12a6f00012a7d;
  mkModel 0x2a1000002a7 (5036)%Z 0x0 0x12a7d00012a92;
  mkModel 0x2a1000002a7 (5037)%Z 0x0 0x12a9200012a9c;
  mkModel 0x2a1000002a7 (5038)%Z 0x0 0x12a9c00012aa7;
  mkModel 0x2a1000002a7 (5039)%Z 0x0 0x18000000182;
  mkModel 0x2700000027 (-1)%Z 0x12aa700012aad 0x12aad00012ab7;
  mkModel 0x2700000027 (-1)%Z 0x12ab700012abd 0x12abd00012ac7;
  mkModel 0x2700000027 (5040)%Z 0x0 0x738b0000738e;
  mkModel 0x2700000027 (5041)%Z 0x0 0x116f5000116f7;
  mkModel 0x2700000027 (5042)%Z 0x0 0x196000001962;
  mkModel 0x2700000027 (5043)%Z 0x0 0x12ac700012aca;
  mkModel 0x2700000027 (5044)%Z 0x0 0x197700001979;
  mkModel 0x2700000027 (5045)%Z 0x0 0x12aca00012acc;
  mkModel 0x2700000027 (5046)%Z 0x0 0x1200700012009;
  mkModel 0x2700000027 (-1)%Z 0x44100000448 0x44100000448;
  mkModel 0x2700000027 (-1)%Z 0x12acc00012ad1 0x12ad100012ad9;
  mkModel 0x2700000027 (5047)%Z 0x0 0x12ad900012adf;
  mkModel 0x2700000027 (-1)%Z 0x12adf00012ae4 0x12ae400012aee;
  mkModel 0x2700000027 (5048)%Z 0x0 0x12aee00012af4;
  mkModel 0x2700000027 (5049)%Z 0x0 0x711e00007120;
  mkModel 0x2700000027 (5050)%Z 0x0 0x12af400012afb;
  mkModel 0x2700000027 (5051)%Z 0x0 0x12afb00012b03;
  mkModel 0x2700000027 (5052)%Z 0x0 0x12b0300012b0a;
  mkModel 0x2700000027 (5053)%Z 0x0 0x115ca000115cc;
  mkModel 0x2700000027 (5054)%Z 0x0 0x12b0a00012b11;
  mkModel 0x2700000027 (5055)%Z 0x0 0x12b1100012b17;
  mkModel 0x2700000027 (5056)%Z 0x0 0x12b1700012b1f;
  mkModel 0x2700000027 (5057)%Z 0x0 0x12b1f00012b26;
  mkModel 0x2700000027 (5058)%Z 0x0 0x12b2600012b2d;
  mkModel 0x2700000027 (5059)%Z 0x0 0x114870001148a;
  mkModel 0x2700000027 (5060)%Z 0x0 0x12b2d00012b36;
  mkModel 0x2700000027 (5061)%Z 0x0 0x12b3600012b42;
  mkModel 0x2700000027 (5062)%Z 0x0 0x12b4200012b49;
  mkModel 0x2700000027 (5063)%Z 0x0 0x12b4900012b50;
  mkModel 0x2700000027 (5064)%Z 0x0 0x12b5000012b56;
  mkModel 0x2700000027 (5065)%Z 0x0 0x12b5600012b5d;
  mkModel 0x2700000027 (5066)%Z 0x0 0x12b5d00012b64;
  mkModel 0x2700000027 (5067)%Z 0x0 0x12b6400012b70;
  mkModel 0x2700000027 (5068)%Z 0x0 0x12b7000012b77;
  mkModel 0x2700000027 (5069)%Z 0x0 0x12b7700012b84;
  mkModel 0x2700000027 (5070)%Z 0x0 0x12b8400012b8d;
  mkModel 0x2700000027 (5071)%Z 0x0 0x12b8d00012b97;
  mkModel 0x2700000027 (5072)%Z 0x0 0x12b9700012ba3;
  mkModel 0x2700000027 (5073)%Z 0x0 0xafad0000afaf;
  mkModel 0x2700000027 (5074)%Z 0x0 0x12ba300012ba5;
  mkModel 0x2700000027 (5075)%Z 0x0 0x114f5000114f8;
  mkModel 0x2700000027 (5076)%Z 0x0 0xbc240000bc26;
  mkModel 0x2700000027 (5077)%Z 0x0 0x12ba500012ba8;
  mkModel 0x2700000027 (5078)%Z 0x0 0x12ba800012baf;
  mkModel 0x2700000027 (5079)%Z 0x0 0x12baf00012bb7;
  mkModel 0x2700000027 (5080)%Z 0x0 0x12bb700012bbf;
  mkModel 0x2700000027 (5081)%Z 0x0 0x12bbf00012bcc;
  mkModel 0x2700000027 (5082)%Z 0x0 0x12bcc00012bd3;
  mkModel 0x2700000027 (5083)%Z 0x0 0x12bd300012bd9;
  mkModel 0x2700000027 (5084)%Z 0x0 0x12bd900012bdf;
  mkModel 0x2700000027 (5085)%Z 0x0 0x12bdf00012be8;
  mkModel 0x2700000027 (5086)%Z 0x0 0x12be800012bef;
  mkModel 0x2700000027 (5087)%Z 0x0 0x12bef00012bfb;
  mkModel 0x2700000027 (5088)%Z 0x0 0x12bfb00012bfe;
  mkModel 0x2700000027 (5089)%Z 0x0 0x12bfe00012c00;
  mkModel 0x2700000027 (5090)%Z 0x0 0x12c0000012c06;
  mkModel 0x2700000027 (5091)%Z 0x0 0x12c0600012c0f;
  mkModel 0x2700000027 (5092)%Z 0x0 0x12c0f00012c15;
  mkModel 0x2700000027 (5093)%Z 0x0 0x12c1500012c1e;
  mkModel 0x2700000027 (5094)%Z 0x0 0x12c1e00012c26;
  mkModel 0x2700000027 (5095)%Z 0x0 0xaf2e0000af34;
  mkModel 0x2700000027 (5096)%Z 0x0 0x12c2600012c2f;
  mkModel 0x2700000027 (5097)%Z 0x0 0x193300001935;
  mkModel 0x2700000027 (5098)%Z 0x0 0x12c2f00012c35;
  mkModel 0x2700000027 (5099)%Z 0x0 0x12c3500012c39;
  mkModel 0x2700000027 (5100)%Z 0x0 0x12c3900012c42;
  mkModel 0x2700000027 (5101)%Z 0x0 0x18000000182;
  mkModel 0x2a1000002a7 (5102)%Z 0x0 0x12c4200012c4c;
  mkModel 0x2a1000002a7 (5103)%Z 0x0 0x12c4c00012c5c;
  mkModel 0x2700000027 (-1)%Z 0x12c5c00012c64 0x12c6400012c67;
  mkModel 0x2700000027 (-1)%Z 0x12c6700012c6f 0x12c6f00012c74;
  mkModel 0x2700000027 (5104)%Z 0x0 0x12c7400012c7b;
  mkModel 0x2700000027 (5105)%Z 0x0 0x114a3000114a5;
  mkModel 0x2700000027 (-1)%Z 0x12c7b00012c83 0x12c8300012c8a;
  mkModel 0x2b1e00002b26 (-1)%Z 0x12c8a00012c92 0x12c9200012c9d;
  mkModel 0x7cc000007d6 (-1)%Z 0x12c9d00012ca4 0x12ca400012caf;
  mkModel 0x7cc000007d6 (-1)%Z 0x12caf00012cbb 0x12cbb00012cc8;
  mkModel 0xc9b00000ca2 (5106)%Z 0x0 0x12cc800012cda;
  mkModel 0xc9b00000ca2 (5107)%Z 0x0 0x12cda00012cec;
  mkModel 0xc9b00000ca2 (5108)%Z 0x0 0x12cec00012cfb;
  mkModel 0xc9b00000ca2 (5109)%Z 0x0 0x12cfb00012d10;
  mkModel 0xc9b00000ca2 (5110)%Z 0x0 0x12d1000012d21;
  mkModel 0x2a1000002a7 (5111)%Z 0x0 0x108d00001093;
  mkModel 0x2700000027 (5112)%Z 0x0 0x18000000182;
  mkModel 0x2700000027 (5113)%Z 0x0 0x18000000182;
  mkModel 0x2700000027 (-1)%Z 0x12d2700012d30 0x12d3000012d3a;
  mkModel 0x2700000027 (-1)%Z 0x12d3a00012d44 0x12d4400012d4f;
  mkModel 0x2700000027 (-1)%Z 0x12d4f00012d58 0x12d5800012d64;
  mkModel 0x2700000027 (-1)%Z 0x12d6400012d71 0x12d6400012d71;
  mkModel 0x2a1000002a7 (5115)%Z 0x0 0x12d7100012d7d;
  mkModel 0x2a1000002a7 (5116)%Z 0x0 0x12d7d00012d86;
  mkModel 0x2a1000002a7 (-1)%Z 0x12d8600012d8e 0x12d8e00012d9a;
  mkModel 0x39a000003a7 (5118)%Z 0x0 0x18000000182;
  mkModel 0x2700000027 (-1)%Z 0x12da100012da6 0x12da100012da6;
  mkModel 0x2700000027 (5119)%Z 0x0 0x12da600012dad;
  mkModel 0x2700000027 (5120)%Z 0x0 0x18000000182;
  mkModel 0x0 (-1)%Z 0x0 0x12db200012dba;
  mkModel 0x2a1000002a7 (5123)%Z 0x0 0x4fd100004fd4;
  mkModel 0x2700000027 (-1)%Z 0x12dc000012dc4 0x12dc400012dc8;
  mkModel 0x2700000027 (-1)%Z 0x12dc800012dcc 0x12dcc00012dd1;
  mkModel 0x2700000027 (-1)%Z 0x12dd100012dd5 0x12dd500012ddc;
  mkModel 0x2700000027 (-1)%Z 0x12ddc00012de0 0x12de000012de6;
  mkModel 0x2700000027 (-1)%Z 0x12de600012def 0x12def00012df8;
  mkModel 0x2700000027 (-1)%Z 0x12df800012dfc 0x12dfc00012e04;
  mkModel 0x2700000027 (-1)%Z 0x12e0400012e08 0x12e0800012e0e;
  mkModel 0x2700000027 (-1)%Z 0x12e0e00012e12 0x12e1200012e19;
  mkModel 0x2700000027 (-1)%Z 0x12e1900012e1d 0x12e1d00012e22;
  mkModel 0x2700000027 (-1)%Z 0x12e2200012e26 0x12e2600012e2d;
  mkModel 0x2a1000002a7 (5124)%Z 0x0 0x12e2d00012e36;
  mkModel 0x2a1000002a7 (5125)%Z 0x0 0x12e3600012e3b;
  mkModel 0x2700000027 (-1)%Z 0x12e3b00012e46 0x12e4600012e51;
  mkModel 0x2700000027 (5126)%Z 0x0 0x18000000182;
  mkModel 0x2700000027 (-1)%Z 0x12e5900012e61 0x12e6100012e72;
  mkModel 0x2700000027 (-1)%Z 0x12e7200012e7a 0x12e7a00012e80;
  mkModel 0x2700000027 (-1)%Z 0x12e8000012e88 0x12e8800012e97;
  mkModel 0x2700000027 (-1)%Z 0x12e9700012e9f 0x12e9f00012eaa;
  mkModel 0x2700000027 (-1)%Z 0x12eaa00012eb2 0x12eb200012ebf;
  mkModel 0x2700000027 (-1)%Z 0x12ebf00012ec7 0x12ec700012ee0;
  mkModel 0x2700000027 (-1)%Z 0x12ee000012ee8 0x12ee800012ef7;
  mkModel 0x2700000027 (-1)%Z 0x12ef700012eff 0x12eff00012f09;
  mkModel 0x2700000027 (-1)%Z 0x12f0900012f11 0x12f1100012f1e;
  mkModel 0x2700000027 (-1)%Z 0x12f1e00012f26 0x12f2600012f35;
  mkModel 0x2700000027 (5128)%Z 0x0 0x12f3500012f41;
  mkModel 0x2700000027 (-1)%Z 0x12f4100012f49 0x12f4900012f57;
  mkModel 0x2700000027 (-1)%Z 0x12f5700012f5f 0x12f5f00012f6b;
  mkModel 0x2700000027 (-1)%Z 0x12f6b00012f73 0x12f7300012f82;
  mkModel 0x2700000027 (-1)%Z 0x12f8200012f8a 0x12f8a00012f9b;
  mkModel 0x2700000027 (-1)%Z 0x12f9b00012fa3 0x12fa300012fac;
  mkModel 0x2700000027 (-1)%Z 0x12fac00012fb6 0x12fb600012fc3;
  mkModel 0x2700000027 (-1)%Z 0x12fc300012fcd 0x12fcd00012fe2;
  mkModel 0x2700000027 (-1)%Z 0x12fe200012fec 0x12fec00012ff8;
  mkModel 0x2700000027 (-1)%Z 0x12ff800013002 0x130020001301c;
  mkModel 0x2700000027 (-1)%Z 0x1301c00013024 0x130240001302a;
  mkModel 0x2700000027 (-1)%Z 0x1302a00013032 0x130320001303a;
  mkModel 0x2700000027 (5129)%Z 0x0 0x18000000182;
  mkModel 0x0 (-1)%Z 0x0 0x18000000182;
  mkModel 0x2700000027 (-1)%Z 0x1304e00013058 0x1305800013062;
  mkModel 0x2700000027 (5133)%Z 0x0 0x18000000182;
  mkModel 0x2a1000002a7 (5135)%Z 0x0 0x1306800013074;
  mkModel 0x2a1000002a7 (-1)%Z 0x130740001307b 0x130740001307b;
  mkModel 0x2700000027 (-1)%Z 0x1307b00013084 0x1307b00013084;
  mkModel 0x2700000027 (-1)%Z 0x130840001308f 0x130840001308f;
  mkModel 0x2700000027 (5136)%Z 0x0 0x1308f00013097;
  mkModel 0x2700000027 (5138)%Z 0x0 0x18000000182;
  mkModel 0x2700000027 (5139)%Z 0x0 0x18000000182;
  mkModel 0x0 (-1)%Z 0x0 0x130a4000130a9;
  mkModel 0x2700000027 (5142)%Z 0x0 0x18000000182;
  mkModel 0x2700000027 (5143)%Z 0x0 0x18000000182;
  mkModel 0x0 (-1)%Z 0x0 0x130b4000130bd;
  mkModel 0x2700000027 (-1)%Z 0x130c2000130cb 0x130c2000130cb;
  mkModel 0x2700000027 (5147)%Z 0x0 0x130d0000130d8;
  mkModel 0x2700000027 (-1)%Z 0x130d8000130e1 0x130e1000130ea;
  mkModel 0x2700000027 (5148)%Z 0x0 0x4fe400004feb;
  mkModel 0x2700000027 (5149)%Z 0x0 0x18000000182;
  mkModel 0x2700000027 (5150)%Z 0x0 0x130ea000130f3;
  mkModel 0x2700000027 (5151)%Z 0x0 0x18000000182;
  mkModel 0x2700000027 (5152)%Z 0x0 0x18000000182;
  mkModel 0x2700000027 (5154)%Z 0x0 0x131030001310f;
  mkModel 0x2700000027 (-1)%Z 0x1310f0001311c 0x1310f0001311c;
  mkModel 0x2a1000002a7 (-1)%Z 0x1311c0001312a 0x1311c0001312a;
  mkModel 0x2a1000002a7 (-1)%Z 0x1312a00013138 0x1312a00013138;
  mkModel 0x2700000027 (-1)%Z 0x1313f0001314c 0x1314c0001315c;
  mkModel 0x2700000027 (5156)%Z 0x0 0x1315c00013165;
  mkModel 0x2700000027 (5157)%Z 0x0 0x1316500013171;
  mkModel 0x2700000027 (5158)%Z 0x0 0x131710001317a;
  mkModel 0x2700000027 (5159)%Z 0x0 0x1317a0001318c;
  mkModel 0x2700000027 (5160)%Z 0x0 0x1318c0001319a;
  mkModel 0x2700000027 (-1)%Z 0x1319a000131a3 0x131a3000131ad;
  mkModel 0x2700000027 (5161)%Z 0x0 0x131ad000131be;
  mkModel 0x2700000027 (-1)%Z 0x131be000131cf 0x131cf000131e1;
  mkModel 0x2700000027 (-1)%Z 0x131e1000131ea 0x131ea000131f9;
  mkModel 0x2700000027 (5162)%Z 0x0 0x131f900013206;
  mkModel 0x23f00000249 (5163)%Z 0x0 0x132060001320e;
  mkModel 0x2700000027 (5164)%Z 0x0 0x1320e0001321a;
  mkModel 0x23f00000249 (5165)%Z 0x0 0x1321a00013224
].
Definition d_dr_dm_34 : list modelTuple := [
  mkModel 0x2700000027 (5166)%Z 0x0 0x1322400013232;
  mkModel 0x2700000027 (5167)%Z 0x0 0x1322400013232;
  mkModel 0x2700000027 (5168)%Z 0x0 0x18000000182;
  mkModel 0x2700000027 (-1)%Z 0x132320001323b 0x132320001323b;
  mkModel 0x23f00000249 (5169)%Z 0x0 0x1323b00013243;
  mkModel 0x23f00000249 (5170)%Z 0x0 0x1324300013251;
  mkModel 0x23f00000249 (5171)%Z 0x0 0x132510001325a;
  mkModel 0x2700000027 (5172)%Z 0x0 0x1325a00013267;
  mkModel 0x2700000027 (5173)%Z 0x0 0x1326700013270;
  mkModel 0x23f00000249 (-1)%Z 0x1327000013274 0x1327000013274;
  mkModel 0x23f00000249 (-1)%Z 0x1327400013278 0x1327400013278;
  mkModel 0x23f00000249 (-1)%Z 0x1327800013283 0x1327800013283;
  mkModel 0x23f00000249 (-1)%Z 0x132830001328b 0x132830001328b;
  mkModel 0x23f00000249 (-1)%Z 0x1328b00013294 0x1328b00013294;
  mkModel 0x23f00000249 (-1)%Z 0x1329400013299 0x132990001329e;
  mkModel 0x23f00000249 (-1)%Z 0x1329e000132a7 0x1329e000132a7;
  mkModel 0x23f00000249 (-1)%Z 0x132a7000132ac 0x132ac000132b1;
  mkModel 0x23f00000249 (-1)%Z 0x132b1000132b8 0x132b1000132b8;
  mkModel 0x23f00000249 (-1)%Z 0x132b8000132bf 0x132b8000132bf;
  mkModel 0x23f00000249 (-1)%Z 0x132bf000132c6 0x132bf000132c6;
  mkModel 0x23f00000249 (-1)%Z 0x132c6000132ce 0x132c6000132ce;
  mkModel 0x23f00000249 (-1)%Z 0x132ce000132d6 0x132ce000132d6;
  mkModel 0x23f00000249 (5174)%Z 0x0 0x132d6000132e0;
  mkModel 0x23f00000249 (5175)%Z 0x0 0x132e0000132e8;
  mkModel 0x23f00000249 (5176)%Z 0x0 0x132e8000132f0;
  mkModel 0x23f00000249 (5177)%Z 0x0 0x132f0000132fa;
  mkModel 0x23f00000249 (5178)%Z 0x0 0x132fa00013301;
  mkModel 0x23f00000249 (5179)%Z 0x0 0x133010001330a;
  mkModel 0x23f00000249 (5180)%Z 0x0 0x1330a00013311;
  mkModel 0x23f00000249 (5181)%Z 0x0 0x133110001331a;
  mkModel 0x23f00000249 (5182)%Z 0x0 0x1331a00013320;
  mkModel 0x23f00000249 (-1)%Z 0x1332000013327 0x1332000013327;
  mkModel 0x23f00000249 (5183)%Z 0x0 0x133270001332d;
  mkModel 0x23f00000249 (5184)%Z 0x0 0x1332d00013335;
  mkModel 0x23f00000249 (5185)%Z 0x0 0x1333500013341;
  mkModel 0x23f00000249 (5186)%Z 0x0 0x133410001334a;
  mkModel 0x23f00000249 (5187)%Z 0x0 0x1334a00013353;
  mkModel 0x23f00000249 (5188)%Z 0x0 0x133530001335a;
  mkModel 0x23f00000249 (5189)%Z 0x0 0x1335a00013366;
  mkModel 0x23f00000249 (5190)%Z 0x0 0x133660001336e;
  mkModel 0x23f00000249 (5191)%Z 0x0 0x132e8000132f0;
  mkModel 0x23f00000249 (-1)%Z 0x1336e0001337a 0x1337a00013387;
  mkModel 0x23f00000249 (-1)%Z 0x1338700013391 0x133910001339c;
  mkModel 0x23f00000249 (5192)%Z 0x0 0x1339c000133a1;
  mkModel 0x0 (-1)%Z 0x0 0x133ae000133b5;
  mkModel 0x2700000027 (5195)%Z 0x0 0x133bb000133c0;
  mkModel 0x0 (-1)%Z 0x0 0x18000000182;
  mkModel 0x0 (-1)%Z 0x0 0x18000000182;
  mkModel 0x0 (-1)%Z 0x0 0x18000000182;
  mkModel 0x2700000027 (5200)%Z 0x0 0x558300005589;
  mkModel 0x2700000027 (5201)%Z 0x0 0x133d8000133df;
  mkModel 0x2700000027 (5202)%Z 0x0 0x133df000133e2;
  mkModel 0x2700000027 (5203)%Z 0x0 0x133e2000133e9;
  mkModel 0x2700000027 (5205)%Z 0x0 0x18000000182;
  mkModel 0x2700000027 (5206)%Z 0x0 0x18000000182;
  mkModel 0x0 (-1)%Z 0x0 0x18000000182;
  mkModel 0x2700000027 (5210)%Z 0x0 0x54f0000054f7;
  mkModel 0x2700000027 (-1)%Z 0x133ff00013405 0x134050001340c;
  mkModel 0x2700000027 (5211)%Z 0x0 0x1340c00013412;
  mkModel 0x2700000027 (-1)%Z 0x134120001341b 0x1341b00013425;
  mkModel 0x2700000027 (5212)%Z 0x0 0x18000000182;
  mkModel 0x2700000027 (5213)%Z 0x0 0x18000000182;
  mkModel 0x2700000027 (-1)%Z 0x1343100013438 0x134380001343f;
  mkModel 0x2700000027 (5215)%Z 0x0 0x1343f00013448;
  mkModel 0x2700000027 (5216)%Z 0x0 0x1344800013452;
  mkModel 0x2700000027 (5217)%Z 0x0 0x134520001345b;
  mkModel 0x2700000027 (5218)%Z 0x0 0x1345b00013465;
  mkModel 0x2700000027 (-1)%Z 0x1346500013469 0x134690001346e;
  mkModel 0x2700000027 (-1)%Z 0x1346e00013474 0x1346e00013474;
  mkModel 0x2700000027 (-1)%Z 0x134740001347a 0x134740001347a;
  mkModel 0x2700000027 (-1)%Z 0x1347a0001347f 0x1347f00013485;
  mkModel 0x2700000027 (5219)%Z 0x0 0x134850001348e;
  mkModel 0x2700000027 (-1)%Z 0x134940001349d 0x1349d000134a2;
  mkModel 0x2a1000002a7 (5221)%Z 0x0 0x134a2000134aa;
  mkModel 0x2700000027 (5222)%Z 0x0 0x18000000182;
  mkModel 0x2700000027 (-1)%Z 0x134b3000134ba 0x134ba000134bf;
  mkModel 0x2700000027 (-1)%Z 0x134bf000134c5 0x134c5000134c9;
  mkModel 0x2700000027 (-1)%Z 0x134c9000134d0 0x134d0000134d5;
  mkModel 0x2700000027 (-1)%Z 0x134da000134e0 0xff400000ff43;
  mkModel 0x2700000027 (-1)%Z 0x134e0000134e6 0x134e6000134ea;
  mkModel 0x2700000027 (-1)%Z 0x134ea000134f0 0x134f0000134f5;
  mkModel 0x2700000027 (-1)%Z 0x134f5000134fb 0x134fb00013502;
  mkModel 0x2700000027 (-1)%Z 0x1350200013508 0x1350800013511;
  mkModel 0x2700000027 (-1)%Z 0x1351100013517 0x135170001351b;
  mkModel 0x2700000027 (-1)%Z 0x1351b00013521 0x1352100013529;
  mkModel 0x2700000027 (-1)%Z 0x135290001352f 0x113990001139e;
  mkModel 0x2700000027 (-1)%Z 0x1352f00013535 0x135350001353e;
  mkModel 0x2700000027 (-1)%Z 0x1353e00013544 0x1354400013548;
  mkModel 0x2700000027 (-1)%Z 0x135480001354e 0x1354e0001355a;
  mkModel 0x2700000027 (-1)%Z 0x1355a00013560 0x1356000013565;
  mkModel 0x2700000027 (-1)%Z 0x135650001356b 0x1356b00013572;
  mkModel 0x2700000027 (-1)%Z 0x1357200013578 0x135780001357d;
  mkModel 0x2700000027 (-1)%Z 0x1357d00013585 0x135850001358c;
  mkModel 0x2700000027 (-1)%Z 0x1358c00013593 0x135930001359a;
  mkModel 0x2700000027 (-1)%Z 0x1359a000135a0 0x135a0000135ab;
  mkModel 0x2700000027 (-1)%Z 0x135ab000135b1 0xe9cb0000e9d1;
  mkModel 0x2700000027 (-1)%Z 0x135b1000135b7 0x135b7000135c0;
  mkModel 0x2700000027 (-1)%Z 0x135c0000135c8 0x135c8000135cc;
  mkModel 0x2700000027 (-1)%Z 0x135cc000135d2 0x135d2000135da;
  mkModel 0x2700000027 (5225)%Z 0x0 0x135da000135e3;
  mkModel 0x2700000027 (-1)%Z 0x135e3000135e9 0x135e9000135f1;
  mkModel 0x2700000027 (5226)%Z 0x0 0x4de300004de6;
  mkModel 0x2700000027 (5227)%Z 0x0 0x84ff00008502;
  mkModel 0x0 (-1)%Z 0x0 0x18000000182;
  mkModel 0x0 (-1)%Z 0x0 0x18000000182;
  mkModel 0x2700000027 (5231)%Z 0x0 0x18000000182;
  mkModel 0x2700000027 (-1)%Z 0x135fe00013603 0x136030001360d;
  mkModel 0x2700000027 (5232)%Z 0x0 0x1360d00013618;
  mkModel 0x39a000003a7 (5233)%Z 0x0 0x18000000182;
  mkModel 0x0 (-1)%Z 0x0 0x18000000182;
  mkModel 0x0 (-1)%Z 0x0 0x18000000182;
  mkModel 0x0 (-1)%Z 0x0 0x18000000182;
  mkModel 0x2700000027 (5239)%Z 0x0 0x1362f00013636;
  mkModel 0x2700000027 (-1)%Z 0x136360001363e 0x136360001363e;
  mkModel 0x2700000027 (-1)%Z 0x1363e00013647 0x1363e00013647;
  mkModel 0x2700000027 (5240)%Z 0x0 0x136470001364c;
  mkModel 0x2700000027 (5241)%Z 0x0 0x1ea500001ea7;
  mkModel 0x2700000027 (5243)%Z 0x0 0x18000000182;
  mkModel 0x2700000027 (5244)%Z 0x0 0x18000000182;
  mkModel 0x0 (-1)%Z 0x0 0x18000000182;
  mkModel 0x0 (-1)%Z 0x0 0x5ec900005ed2;
  mkModel 0x0 (-1)%Z 0x0 0x18000000182;
  mkModel 0x0 (-1)%Z 0x0 0x18000000182;
  mkModel 0x2700000027 (5250)%Z 0x0 0x18000000182;
  mkModel 0x2700000027 (5251)%Z 0x0 0x1366700013675;
  mkModel 0x0 (-1)%Z 0x0 0x18000000182;
  mkModel 0x2700000027 (5254)%Z 0x0 0x18000000182;
  mkModel 0x2700000027 (5255)%Z 0x0 0x18000000182;
  mkModel 0x2700000027 (5257)%Z 0x0 0x18000000182;
  mkModel 0x2700000027 (5258)%Z 0x0 0x18000000182;
  mkModel 0x2700000027 (5260)%Z 0x0 0x1368700013693;
  mkModel 0x2700000027 (5261)%Z 0x0 0x136930001369d;
  mkModel 0x2700000027 (5262)%Z 0x0 0x1369d000136a8;
  mkModel 0x2a1000002a7 (5263)%Z 0x0 0x136a8000136b0;
  mkModel 0x2a1000002a7 (5264)%Z 0x0 0x136b0000136be;
  mkModel 0x2a1000002a7 (5265)%Z 0x0 0x136be000136cd;
  mkModel 0x2a1000002a7 (5266)%Z 0x0 0x136cd000136d7;
  mkModel 0x2a1000002a7 (5267)%Z 0x0 0x136d7000136e8;
  mkModel 0x2a1000002a7 (5268)%Z 0x0 0x136e8000136f8;
  mkModel 0x2a1000002a7 (5269)%Z 0x0 0x136f800013707;
  mkModel 0x2700000027 (5270)%Z 0x0 0x137070001370f;
  mkModel 0x2700000027 (5271)%Z 0x0 0x1370f0001371e;
  mkModel 0x2700000027 (5272)%Z 0x0 0x1371e0001372b;
  mkModel 0x2700000027 (5273)%Z 0x0 0x1372b00013733;
  mkModel 0x2700000027 (5274)%Z 0x0 0x137330001373b;
  mkModel 0x2700000027 (5275)%Z 0x0 0x1373b00013746;
  mkModel 0x2700000027 (5276)%Z 0x0 0x1374600013752;
  mkModel 0x2700000027 (5277)%Z 0x0 0x137520001375e;
  mkModel 0x2700000027 (5278)%Z 0x0 0x1375e0001376d;
  mkModel 0x2700000027 (5279)%Z 0x0 0x1376d00013777;
  mkModel 0x2700000027 (5280)%Z 0x0 0x137770001377f;
  mkModel 0x2700000027 (5281)%Z 0x0 0x1377f00013792;
  mkModel 0x2a1000002a7 (5282)%Z 0x0 0x137920001379c;
  mkModel 0x2a1000002a7 (5283)%Z 0x0 0x1379c000137a8;
  mkModel 0x2a1000002a7 (5284)%Z 0x0 0x137a8000137b6;
  mkModel 0x2a1000002a7 (5285)%Z 0x0 0x137b6000137bc;
  mkModel 0x2a1000002a7 (5286)%Z 0x0 0x137bc000137c5;
  mkModel 0x2700000027 (5287)%Z 0x0 0x137c5000137d3;
  mkModel 0x2700000027 (5288)%Z 0x0 0x137d3000137de;
  mkModel 0x2700000027 (5289)%Z 0x0 0x137de000137e6;
  mkModel 0x2a1000002a7 (5290)%Z 0x0 0x137e6000137ee;
  mkModel 0x2a1000002a7 (5291)%Z 0x0 0x137ee000137fd;
  mkModel 0x2a1000002a7 (5292)%Z 0x0 0x137fd00013805;
  mkModel 0x2700000027 (5293)%Z 0x0 0x138050001380d;
  mkModel 0x2700000027 (5294)%Z 0x0 0x1380d0001380f;
  mkModel 0x2700000027 (5295)%Z 0x0 0x1380f00013818;
  mkModel 0x2700000027 (5296)%Z 0x0 0x138180001381d;
  mkModel 0x2700000027 (5297)%Z 0x0 0x1381d00013826;
  mkModel 0x2700000027 (5298)%Z 0x0 0x138260001382c;
  mkModel 0x2700000027 (5299)%Z 0x0 0x1382c00013835;
  mkModel 0x2700000027 (5300)%Z 0x0 0x138350001383c;
  mkModel 0x2700000027 (5301)%Z 0x0 0x1383c00013843;
  mkModel 0x2a1000002a7 (5302)%Z 0x0 0x1384300013850;
  mkModel 0x2a1000002a7 (5303)%Z 0x0 0x1385000013858;
  mkModel 0x2700000027 (5304)%Z 0x0 0x9ca200009cac;
  mkModel 0x2700000027 (5305)%Z 0x0 0x138580001385f;
  mkModel 0x2700000027 (5306)%Z 0x0 0x1385f00013864;
  mkModel 0x2a1000002a7 (5307)%Z 0x0 0x138640001386c;
  mkModel 0x2a1000002a7 (5308)%Z 0x0 0x1386c00013876;
  mkModel 0x2700000027 (5309)%Z 0x0 0x138760001387b;
  mkModel 0x2700000027 (5310)%Z 0x0 0xb51b0000b520;
  mkModel 0xdfd00000e04 (5311)%Z 0x0 0x1387b00013884;
  mkModel 0x2700000027 (5312)%Z 0x0 0x1388400013889;
  mkModel 0x2700000027 (5313)%Z 0x0 0x1388900013890;
  mkModel 0x2700000027 (5314)%Z 0x0 0x1389000013898;
  mkModel 0x2700000027 (5315)%Z 0x0 0x138980001389e;
  mkModel 0x2700000027 (5316)%Z 0x0 0x1389e000138ad;
  mkModel 0x2700000027 (5317)%Z 0x0 0x138ad000138c1;
  mkModel 0x2a1000002a7 (5318)%Z 0x0 0x138c1000138d2;
  mkModel 0x2700000027 (5319)%Z 0x0 0x138d2000138d8;
  mkModel 0x0 (-1)%Z 0x0 0x18000000182;
  mkModel 0x0 (-1)%Z 0x0 0x18000000182;
  mkModel 0x2700000027 (5323)%Z 0x0 0x138e8000138f0;
  mkModel 0x2700000027 (-1)%Z 0xd1cb0000d1d7 0xd1cb0000d1d7;
  mkModel 0xc9b00000ca2 (5324)%Z 0x0 0x18000000182;
  mkModel 0x2700000027 (-1)%Z 0x138f800013903 0x138f800013903;
  mkModel 0x2700000027 (5327)%Z 0x0 0x18000000182;
  mkModel 0x2a1000002a7 (5328)%Z 0x0 0x18000000182;
  mkModel 0x2700000027 (5329)%Z 0x0 0x1390300013910;
  mkModel 0x2700000027 (5330)%Z 0x0 0x139100001391f
].
Definition d_dr_dm_35 : list modelTuple := [
  mkModel 0x2700000027 (5331)%Z 0x0 0x1391f0001392e;
  mkModel 0x2700000027 (5332)%Z 0x0 0x1392e0001393c;
  mkModel 0x2700000027 (-1)%Z 0x1393c00013946 0x1394600013950;
  mkModel 0x2700000027 (-1)%Z 0x139500001395b 0x1395b00013966;
  mkModel 0x2700000027 (-1)%Z 0x139660001396f 0x139660001396f;
  mkModel 0x2700000027 (5333)%Z 0x0 0x1396f0001397b;
  mkModel 0x2700000027 (5334)%Z 0x0 0x1397b0001398a;
  mkModel 0x2700000027 (5335)%Z 0x0 0x1398a00013997;
  mkModel 0x2700000027 (5336)%Z 0x0 0x13997000139a5;
  mkModel 0x23b0000023d (5337)%Z 0x0 0x139a5000139b2;
  mkModel 0x23b0000023d (5338)%Z 0x0 0x139b2000139b7;
  mkModel 0x23b0000023d (-1)%Z 0x139b7000139bf 0x139bf000139d1;
  mkModel 0x23b0000023d (5339)%Z 0x0 0x18000000182;
  mkModel 0x2700000027 (5341)%Z 0x0 0x139d4000139dc;
  mkModel 0x2700000027 (5342)%Z 0x0 0x139dc000139e8;
  mkModel 0x2700000027 (-1)%Z 0x139e8000139f2 0x139f2000139fc;
  mkModel 0x2700000027 (5343)%Z 0x0 0x139fc00013a09;
  mkModel 0x2700000027 (-1)%Z 0x13a0900013a0f 0x13a0f00013a16;
  mkModel 0x2700000027 (-1)%Z 0x13a1600013a1c 0x13a1c00013a23;
  mkModel 0x2700000027 (-1)%Z 0x13a2300013a29 0x13a2900013a36;
  mkModel 0x2a1000002a7 (-1)%Z 0x13a3600013a3f 0x13a3f00013a45;
  mkModel 0x2700000027 (5344)%Z 0x0 0x13a4500013a4b;
  mkModel 0x0 (-1)%Z 0x0 0xe3400000e3c;
  mkModel 0x0 (-1)%Z 0x0 0x13a6b00013a74;
  mkModel 0x0 (-1)%Z 0x0 0x13a7a00013a84;
  mkModel 0x2700000027 (-1)%Z 0x13a8800013a91 0x13a9100013a9b;
  mkModel 0x2700000027 (5347)%Z 0x0 0x18000000182;
  mkModel 0x2700000027 (5348)%Z 0x0 0x13aab00013ab9;
  mkModel 0x2700000027 (-1)%Z 0x13ab900013ac6 0x13ac600013acc;
  mkModel 0x2700000027 (-1)%Z 0x13acc00013ad9 0x62270000622d;
  mkModel 0x2700000027 (-1)%Z 0x13ae100013ae7 0x13ae700013aee;
  mkModel 0x2700000027 (5350)%Z 0x0 0x13aee00013af3;
  mkModel 0x2700000027 (-1)%Z 0x13af300013afb 0x13afb00013b04;
  mkModel 0x2700000027 (5352)%Z 0x0 0x13b0a00013b12;
  mkModel 0x2700000027 (5353)%Z 0x0 0x13b1200013b1d;
  mkModel 0x2700000027 (5355)%Z 0x0 0x13b2500013b29;
  mkModel 0x2700000027 (5356)%Z 0x0 0x13b2900013b2c;
  mkModel 0x2700000027 (5357)%Z 0x0 0x13b2c00013b38;
  mkModel 0x2700000027 (5358)%Z 0x0 0x13b3800013b40;
  mkModel 0x2700000027 (5359)%Z 0x0 0x13b4000013b48;
  mkModel 0x2a1000002a7 (5360)%Z 0x0 0x13b4800013b56;
  mkModel 0x2a1000002a7 (5361)%Z 0x0 0x13b5600013b60;
  mkModel 0x2a1000002a7 (-1)%Z 0x13b6000013b67 0x13b6700013b73;
  mkModel 0x2a1000002a7 (-1)%Z 0x13b7300013b7a 0x13b7a00013b81;
  mkModel 0x2a1000002a7 (5362)%Z 0x0 0x13b8100013b86;
  mkModel 0x2a1000002a7 (5363)%Z 0x0 0x13b8100013b86;
  mkModel 0x2700000027 (5364)%Z 0x0 0x18000000182;
  mkModel 0x2700000027 (5365)%Z 0x0 0x18000000182;
  mkModel 0x2700000027 (5366)%Z 0x0 0x13b8600013b8e;
  mkModel 0x2700000027 (5367)%Z 0x0 0x13b8600013b8e;
  mkModel 0x0 (-1)%Z 0x0 0x18000000182;
  mkModel 0x39a000003a7 (-1)%Z 0x13b9900013ba9 0x13ba900013bb3;
  mkModel 0x2700000027 (5370)%Z 0x0 0x18000000182;
  mkModel 0x2700000027 (5372)%Z 0x0 0x18000000182;
  mkModel 0x2700000027 (5373)%Z 0x0 0x18000000182;
  mkModel 0x2a1000002a7 (5375)%Z 0x0 0x18000000182;
  mkModel 0x2700000027 (-1)%Z 0x13bc700013bcf 0x13bcf00013bd7;
  mkModel 0x2700000027 (-1)%Z 0x13bd700013bdf 0x13bdf00013be7;
  mkModel 0x2700000027 (-1)%Z 0x13be700013bef 0x13bef00013bf5;
  mkModel 0x2700000027 (-1)%Z 0x13bf500013bfd 0x13bfd00013c04;
  mkModel 0x2700000027 (-1)%Z 0x13c0400013c0c 0x13c0c00013c17;
  mkModel 0x2700000027 (-1)%Z 0x13c1700013c1f 0x13c1f00013c26;
  mkModel 0x2700000027 (-1)%Z 0x13c2600013c2e 0x13c2e00013c35;
  mkModel 0x2700000027 (-1)%Z 0x13c3500013c3d 0x13c3d00013c48;
  mkModel 0x2700000027 (5376)%Z 0x0 0x18000000182;
  mkModel 0x23b0000023d (5377)%Z 0x0 0x18000000182;
  mkModel 0x0 (-1)%Z 0x0 0x18000000182;
  mkModel 0x0 (-1)%Z 0x0 0x18000000182;
  mkModel 0x2a1000002a7 (5381)%Z 0x0 0x13c5900013c5e;
  mkModel 0x2700000027 (5382)%Z 0x0 0x13c5900013c5e;
  mkModel 0x0 (-1)%Z 0x0 0x18000000182;
  mkModel 0x2700000027 (5385)%Z 0x0 0x13c6a00013c6f;
  mkModel 0x2700000027 (5386)%Z 0x0 0x18000000182;
  mkModel 0x2700000027 (5388)%Z 0x0 0x13c7600013c82;
  mkModel 0x2700000027 (5389)%Z 0x0 0x13c8200013c89;
  mkModel 0x2700000027 (5390)%Z 0x0 0x13c8900013c8e;
  mkModel 0x2700000027 (5391)%Z 0x0 0x18000000182;
  mkModel 0x2a1000002a7 (5392)%Z 0x0 0x13c8e00013c97;
  mkModel 0x2a1000002a7 (5393)%Z 0x0 0x13c9700013ca2;
  mkModel 0x2a1000002a7 (5394)%Z 0x0 0x13ca200013cab;
  mkModel 0x2a1000002a7 (-1)%Z 0x13cab00013cb5 0x13cb500013cc1;
  mkModel 0x2a1000002a7 (5395)%Z 0x0 0x13cc100013ccc;
  mkModel 0x2a1000002a7 (5396)%Z 0x0 0x4c4300004c49;
  mkModel 0x2700000027 (5397)%Z 0x0 0x18000000182;
  mkModel 0x2700000027 (-1)%Z 0x13cd400013cdb 0x13cdb00013ce9;
  mkModel 0x23b0000023d (5399)%Z 0x0 0x18000000182;
  mkModel 0x2700000027 (5401)%Z 0x0 0x18000000182;
  mkModel 0x2a1000002a7 (5402)%Z 0x0 0x18000000182;
  mkModel 0x0 (-1)%Z 0x0 0x18000000182;
  mkModel 0x23f00000249 (-1)%Z 0x13cfe00013d0c 0x13d0c00013d13;
  mkModel 0x2700000027 (5405)%Z 0x0 0x18000000182;
  mkModel 0x2700000027 (5406)%Z 0x0 0x13d1300013d1a;
  mkModel 0x0 (-1)%Z 0x0 0x18000000182;
  mkModel 0x2700000027 (5409)%Z 0x0 0x1940000019b;
  mkModel 0x2700000027 (5410)%Z 0x0 0x13d2800013d31;
  mkModel 0x2700000027 (5411)%Z 0x0 0x13d3100013d35;
  mkModel 0x2700000027 (5412)%Z 0x0 0x18000000182;
  mkModel 0x2700000027 (5413)%Z 0x0 0x13d3500013d3b;
  mkModel 0x2700000027 (-1)%Z 0x13d3b00013d47 0x13d3b00013d47;
  mkModel 0x0 (-1)%Z 0x0 0x18000000182;
  mkModel 0x2700000027 (5416)%Z 0x0 0x18000000182;
  mkModel 0x2700000027 (5417)%Z 0x0 0x13d5500013d5c;
  mkModel 0x2700000027 (-1)%Z 0x13d5c00013d64 0x13d5c00013d64;
  mkModel 0x2a1000002a7 (5418)%Z 0x0 0x18000000182;
  mkModel 0x2700000027 (5420)%Z 0x0 0x13d6b00013d70;
  mkModel 0x2700000027 (5421)%Z 0x0 0x18000000182;
  mkModel 0x2a1000002a7 (5422)%Z 0x0 0x18000000182;
  mkModel 0x2700000027 (5425)%Z 0x0 0x13d7e00013d86;
  mkModel 0x2700000027 (5426)%Z 0x0 0x13d8600013d93;
  mkModel 0x2700000027 (5427)%Z 0x0 0x13d9300013da0;
  mkModel 0x2700000027 (-1)%Z 0x13da000013dae 0x13dae00013dbc;
  mkModel 0x2700000027 (-1)%Z 0x13dbc00013dc7 0x13dc700013dd2;
  mkModel 0x2700000027 (5428)%Z 0x0 0x13d7e00013d86;
  mkModel 0x2700000027 (5429)%Z 0x0 0x13dd200013ddb;
  mkModel 0x2700000027 (-1)%Z 0x13ddb00013de4 0x13ddb00013de4;
  mkModel 0x2700000027 (5430)%Z 0x0 0x13de400013dec;
  mkModel 0x2700000027 (5431)%Z 0x0 0x13dec00013df7;
  mkModel 0x2700000027 (-1)%Z 0x13df700013e03 0x13df700013e03;
  mkModel 0x2700000027 (5432)%Z 0x0 0x13e0300013e0b;
  mkModel 0x2700000027 (5433)%Z 0x0 0x13e0b00013e13;
  mkModel 0x2700000027 (5434)%Z 0x0 0x13e1300013e20;
  mkModel 0x2700000027 (-1)%Z 0x13e2000013e2a 0x13e2a00013e34;
  mkModel 0x2700000027 (5435)%Z 0x0 0x13e3400013e43;
  mkModel 0xdfd00000e04 (-1)%Z 0x13e4300013e49 0x13e4900013e50;
  mkModel 0x2a1000002a7 (5436)%Z 0x0 0x13e5000013e60;
  mkModel 0x2a1000002a7 (-1)%Z 0x13e6000013e6f 0x13e6f00013e7e;
  mkModel 0x2700000027 (5438)%Z 0x0 0x13e8200013e89;
  mkModel 0x2700000027 (5439)%Z 0x0 0x3d7000003dc;
  mkModel 0x2700000027 (5440)%Z 0x0 0x18000000182;
  mkModel 0x2700000027 (-1)%Z 0x13e9300013e9d 0x13e9d00013ea7;
  mkModel 0x2700000027 (5442)%Z 0x0 0x18000000182;
  mkModel 0x2700000027 (5443)%Z 0x0 0x13ea700013ead;
  mkModel 0x0 (-1)%Z 0x0 0xe3400000e3c;
  mkModel 0x0 (-1)%Z 0x0 0x13ebb00013ec3;
  mkModel 0x2700000027 (5447)%Z 0x0 0x13ec800013edd;
  mkModel 0x2700000027 (5448)%Z 0x0 0x13edd00013ee2;
  mkModel 0x2700000027 (5449)%Z 0x0 0x13ee200013ef0;
  mkModel 0x2700000027 (5450)%Z 0x0 0x13ef000013efb;
  mkModel 0x2700000027 (-1)%Z 0x13efb00013f02 0x13f0200013f1a;
  mkModel 0x2700000027 (-1)%Z 0x13f1a00013f21 0x13f2100013f39;
  mkModel 0x2700000027 (-1)%Z 0x13f3900013f40 0x13f4000013f58;
  mkModel 0x2700000027 (5451)%Z 0x0 0x13f5800013f70;
  mkModel 0x2700000027 (5452)%Z 0x0 0x13f7000013f8a;
  mkModel 0x2700000027 (-1)%Z 0x13f8a00013f8f 0x13f8f00013fa4;
  mkModel 0x2700000027 (5454)%Z 0x0 0x13faa00013fb1;
  mkModel 0x2700000027 (5455)%Z 0x0 0x13fb100013fbb;
  mkModel 0x2700000027 (5456)%Z 0x0 0x13fbb00013fc2;
  mkModel 0x2700000027 (5457)%Z 0x0 0x500000005006;
  mkModel 0x2700000027 (5458)%Z 0x0 0x13fc200013fc9;
  mkModel 0x2700000027 (5459)%Z 0x0 0x13fc900013fd2;
  mkModel 0x2700000027 (5460)%Z 0x0 0x13fd200013fde;
  mkModel 0x2700000027 (5461)%Z 0x0 0x13fde00013fe9;
  mkModel 0x2700000027 (5462)%Z 0x0 0x13fe900013ff3;
  mkModel 0x2700000027 (5463)%Z 0x0 0x13ff300013fff;
  mkModel 0x2700000027 (5464)%Z 0x0 0x13fff00014006;
  mkModel 0x2700000027 (5465)%Z 0x0 0x140060001400d;
  mkModel 0x2700000027 (5466)%Z 0x0 0x1400d0001400e;
  mkModel 0x2700000027 (5467)%Z 0x0 0x1012500010128;
  mkModel 0x2700000027 (5468)%Z 0x0 0x18000000182;
  mkModel 0x2700000027 (5470)%Z 0x0 0x1401600014025;
  mkModel 0x2700000027 (5471)%Z 0x0 0x1402500014037;
  mkModel 0x2700000027 (5472)%Z 0x0 0x1403700014046;
  mkModel 0x2700000027 (5473)%Z 0x0 0x140460001405a;
  mkModel 0x2700000027 (5474)%Z 0x0 0x1405a0001406e;
  mkModel 0x2700000027 (5475)%Z 0x0 0x1406e0001407f;
  mkModel 0x2700000027 (5476)%Z 0x0 0x1407f0001408f;
  mkModel 0x2700000027 (5477)%Z 0x0 0x1408f0001409f;
  mkModel 0x2700000027 (5478)%Z 0x0 0x1409f000140af;
  mkModel 0x2700000027 (5479)%Z 0x0 0x140af000140c2;
  mkModel 0x2700000027 (5480)%Z 0x0 0x140c2000140d2;
  mkModel 0x2700000027 (5481)%Z 0x0 0x140d2000140e2;
  mkModel 0x2700000027 (5482)%Z 0x0 0x140e2000140f5;
  mkModel 0x2700000027 (5483)%Z 0x0 0x140f500014103;
  mkModel 0x2700000027 (5484)%Z 0x0 0x1410300014115;
  mkModel 0x2700000027 (-1)%Z 0x141150001411f 0x1411f00014130;
  mkModel 0x2700000027 (-1)%Z 0x141300001413a 0x1413a00014150;
  mkModel 0x2700000027 (-1)%Z 0x1415000014154 0x1415400014167;
  mkModel 0x2700000027 (5485)%Z 0x0 0x1416700014179;
  mkModel 0x2700000027 (5486)%Z 0x0 0x141790001418a;
  mkModel 0x2700000027 (5487)%Z 0x0 0x1418a0001419e;
  mkModel 0x2700000027 (5488)%Z 0x0 0x1419e000141ae;
  mkModel 0x2700000027 (5489)%Z 0x0 0x141ae000141c1;
  mkModel 0x2700000027 (5490)%Z 0x0 0x141c1000141d4;
  mkModel 0x2700000027 (5491)%Z 0x0 0x141d4000141e5;
  mkModel 0x2700000027 (5492)%Z 0x0 0x141e5000141f8;
  mkModel 0x2700000027 (5493)%Z 0x0 0x141f80001420f;
  mkModel 0x2700000027 (5494)%Z 0x0 0x1420f00014223;
  mkModel 0x2700000027 (5495)%Z 0x0 0x1422300014237;
  mkModel 0x2700000027 (5496)%Z 0x0 0x1423700014248;
  mkModel 0x2700000027 (5497)%Z 0x0 0x142480001425e;
  mkModel 0x2700000027 (5498)%Z 0x0 0x1425e00014275;
  mkModel 0x2700000027 (5499)%Z 0x0 0x142750001428a;
  mkModel 0x2700000027 (5500)%Z 0x0 0x1428a000142a2;
  mkModel 0x2700000027 (5501)%Z 0x0 0x142a2000142bc;
  mkModel 0x2700000027 (5502)%Z 0x0 0x142bc000142d3;
  mkModel 0x2700000027 (5503)%Z 0x0 0x142d3000142ef;
  mkModel 0x2700000027 (5504)%Z 0x0 0x142ef0001430a;
  mkModel 0x2700000027 (5505)%Z 0x0 0x1430a00014321;
  mkModel 0x2700000027 (5506)%Z 0x0 0x1432100014338;
  mkModel 0x2700000027 (5507)%Z 0x0 0x1433800014347
].
Definition d_dr_dm_36 : list modelTuple := [
  mkModel 0x2700000027 (5508)%Z 0x0 0x1434700014357;
  mkModel 0x2700000027 (5509)%Z 0x0 0x1435700014363;
  mkModel 0x2700000027 (5510)%Z 0x0 0x143630001436e;
  mkModel 0x2700000027 (5511)%Z 0x0 0x18000000182;
  mkModel 0xdfd00000e04 (5512)%Z 0x0 0x1436e00014382;
  mkModel 0xdfd00000e04 (5513)%Z 0x0 0x1438200014395;
  mkModel 0xdfd00000e04 (5514)%Z 0x0 0x14395000143a9;
  mkModel 0xdfd00000e04 (5515)%Z 0x0 0x143a9000143ba;
  mkModel 0xdfd00000e04 (5516)%Z 0x0 0x143ba000143cb;
  mkModel 0xdfd00000e04 (5517)%Z 0x0 0x143cb000143dc;
  mkModel 0xdfd00000e04 (5518)%Z 0x0 0x143dc000143ed;
  mkModel 0xdfd00000e04 (5519)%Z 0x0 0x143ed000143fe;
  mkModel 0xdfd00000e04 (5520)%Z 0x0 0x143fe0001440f;
  mkModel 0xdfd00000e04 (5521)%Z 0x0 0x1440f00014420;
  mkModel 0xdfd00000e04 (5522)%Z 0x0 0x1442000014431;
  mkModel 0xdfd00000e04 (5523)%Z 0x0 0x1443100014443;
  mkModel 0x23f00000249 (5524)%Z 0x0 0x1444300014452;
  mkModel 0x23f00000249 (5525)%Z 0x0 0x1445200014463;
  mkModel 0x23f00000249 (5526)%Z 0x0 0x1446300014474;
  mkModel 0x23f00000249 (5527)%Z 0x0 0x1447400014483;
  mkModel 0x23f00000249 (5528)%Z 0x0 0x1448300014494;
  mkModel 0x23f00000249 (5529)%Z 0x0 0x14494000144a4;
  mkModel 0x23f00000249 (5530)%Z 0x0 0x144a4000144b4;
  mkModel 0x23f00000249 (5531)%Z 0x0 0x14494000144a4;
  mkModel 0x23f00000249 (5532)%Z 0x0 0x1447400014483;
  mkModel 0xdfd00000e04 (5533)%Z 0x0 0x1447400014483;
  mkModel 0x2700000027 (5534)%Z 0x0 0x4bf700004c02;
  mkModel 0x2a1000002a7 (5536)%Z 0x0 0x144ba000144c4;
  mkModel 0x2700000027 (5537)%Z 0x0 0x144c4000144cb;
  mkModel 0x2700000027 (5538)%Z 0x0 0x18000000182;
  mkModel 0x2a1000002a7 (5539)%Z 0x0 0x18000000182;
  mkModel 0x2a1000002a7 (5540)%Z 0x0 0x144ba000144c4;
  mkModel 0x2700000027 (5541)%Z 0x0 0x18000000182;
  mkModel 0x23b0000023d (5542)%Z 0x0 0x2700000027;
  mkModel 0x2700000027 (5544)%Z 0x0 0x144d2000144d8;
  mkModel 0x2700000027 (-1)%Z 0x144d8000144e0 0x144e0000144eb;
  mkModel 0x2a1000002a7 (5545)%Z 0x0 0x144eb000144f2;
  mkModel 0x2700000027 (5546)%Z 0x0 0x144f2000144f8;
  mkModel 0x2700000027 (-1)%Z 0x144f8000144ff 0x144ff00014503;
  mkModel 0x2700000027 (5547)%Z 0x0 0x18000000182;
  mkModel 0x2a1000002a7 (5548)%Z 0x0 0x145030001450a;
  mkModel 0x23b0000023d (5549)%Z 0x0 0x18000000182;
  mkModel 0x2700000027 (-1)%Z 0x1451300014520 0x1452000014526;
  mkModel 0x2700000027 (5552)%Z 0x0 0xa22e0000a230;
  mkModel 0x2700000027 (5553)%Z 0x0 0xf1140000f117;
  mkModel 0x2700000027 (5554)%Z 0x0 0x1452b0001452d;
  mkModel 0x2700000027 (5555)%Z 0x0 0x582c0000582e;
  mkModel 0x2700000027 (5556)%Z 0x0 0x1202300012025;
  mkModel 0x2700000027 (5557)%Z 0x0 0x1452d00014530;
  mkModel 0x2700000027 (5558)%Z 0x0 0x1453000014532;
  mkModel 0x2700000027 (5559)%Z 0x0 0x6fc300006fc5;
  mkModel 0x2700000027 (5560)%Z 0x0 0x1453200014535;
  mkModel 0x2700000027 (5561)%Z 0x0 0x1453500014536;
  mkModel 0x2700000027 (5562)%Z 0x0 0x18000000182;
  mkModel 0xdfd00000e04 (5564)%Z 0x0 0x1453b00014542;
  mkModel 0xdfd00000e04 (5565)%Z 0x0 0x145420001454a;
  mkModel 0x2700000027 (-1)%Z 0x1454a00014550 0x145500001455b;
  mkModel 0x2700000027 (-1)%Z 0x1455b00014566 0x1455b00014566;
  mkModel 0x2700000027 (5566)%Z 0x0 0x145660001456d;
  mkModel 0x2700000027 (-1)%Z 0x1456d00014575 0x1456d00014575;
  mkModel 0x2700000027 (5567)%Z 0x0 0x1457500014578;
  mkModel 0x2700000027 (5568)%Z 0x0 0x145780001457b;
  mkModel 0x2700000027 (5569)%Z 0x0 0x1457b0001457d;
  mkModel 0xdfd00000e04 (5570)%Z 0x0 0x1457d00014584;
  mkModel 0xdfd00000e04 (5571)%Z 0x0 0x145840001458b;
  mkModel 0x2700000027 (5572)%Z 0x0 0xa22e0000a230;
  mkModel 0xdfd00000e04 (5573)%Z 0x0 0x1458b00014592;
  mkModel 0x2700000027 (5574)%Z 0x0 0x18000000182;
  mkModel 0x2700000027 (5575)%Z 0x0 0x1459200014595;
  mkModel 0x2700000027 (5576)%Z 0x0 0x145950001459b;
  mkModel 0x2700000027 (5577)%Z 0x0 0x1ea200001ea5;
  mkModel 0x2700000027 (5578)%Z 0x0 0x1459b0001459e;
  mkModel 0x2700000027 (5579)%Z 0x0 0x1459e000145a1;
  mkModel 0x2700000027 (5580)%Z 0x0 0x145a1000145a4;
  mkModel 0x2700000027 (5581)%Z 0x0 0x145a4000145ab;
  mkModel 0x2700000027 (5582)%Z 0x0 0x145ab000145ae;
  mkModel 0x2700000027 (5583)%Z 0x0 0x145ae000145b1;
  mkModel 0x2700000027 (-1)%Z 0x145b1000145b9 0x145b9000145c1;
  mkModel 0x2700000027 (5584)%Z 0x0 0x6fc300006fc5;
  mkModel 0x2700000027 (5585)%Z 0x0 0x145c1000145c8;
  mkModel 0x2700000027 (5586)%Z 0x0 0x145c8000145cf;
  mkModel 0x2700000027 (5587)%Z 0x0 0x145cf000145d4;
  mkModel 0x2700000027 (5588)%Z 0x0 0x145d4000145df;
  mkModel 0x2700000027 (5589)%Z 0x0 0x145df000145e5;
  mkModel 0x2700000027 (5590)%Z 0x0 0x145e5000145f1;
  mkModel 0x2700000027 (5591)%Z 0x0 0xb05f0000b061;
  mkModel 0x2700000027 (5592)%Z 0x0 0xf6760000f67c;
  mkModel 0x2700000027 (5593)%Z 0x0 0x145f1000145f4;
  mkModel 0x2700000027 (5594)%Z 0x0 0x145f4000145fd;
  mkModel 0x2700000027 (5595)%Z 0x0 0x145fd00014604;
  mkModel 0x2700000027 (5596)%Z 0x0 0x146040001460b;
  mkModel 0x2700000027 (5597)%Z 0x0 0x1460b0001460f;
  mkModel 0x2700000027 (5598)%Z 0x0 0x1460f00014612;
  mkModel 0x2700000027 (5599)%Z 0x0 0x1461200014614;
  mkModel 0x2700000027 (5600)%Z 0x0 0x146140001461b;
  mkModel 0x2700000027 (5601)%Z 0x0 0x500000005006;
  mkModel 0x2700000027 (5602)%Z 0x0 0x1461b0001461d;
  mkModel 0xdfd00000e04 (5603)%Z 0x0 0x61760000617d;
  mkModel 0x2700000027 (5604)%Z 0x0 0x18000000182;
  mkModel 0x2700000027 (5605)%Z 0x0 0x18000000182;
  mkModel 0x2700000027 (5606)%Z 0x0 0x18000000182;
  mkModel 0x2700000027 (5608)%Z 0x0 0x146240001462b;
  mkModel 0x2700000027 (5609)%Z 0x0 0x18000000182;
  mkModel 0x2700000027 (5610)%Z 0x0 0x1462b0001463f;
  mkModel 0x2700000027 (5612)%Z 0x0 0x146440001464f;
  mkModel 0x2700000027 (5613)%Z 0x0 0x1464f0001465c;
  mkModel 0x2700000027 (5614)%Z 0x0 0x1465c0001466c;
  mkModel 0x2700000027 (5615)%Z 0x0 0x1466c0001467a;
  mkModel 0x2700000027 (-1)%Z 0x1467e00014685 0x1468500014687;
  mkModel 0x62600000633 (-1)%Z 0x146870001468f 0x1468f00014698;
  mkModel 0x2700000027 (-1)%Z 0x14698000146a0 0x14698000146a0;
  mkModel 0x2700000027 (-1)%Z 0x146a0000146a7 0x146a0000146a7;
  mkModel 0x2700000027 (5617)%Z 0x0 0x146a7000146ae;
  mkModel 0x2700000027 (-1)%Z 0x146ae000146b7 0x146ae000146b7;
  mkModel 0x2700000027 (-1)%Z 0x61180000611d 0x61180000611d;
  mkModel 0x0 (-1)%Z 0x0 0x8a0100008a0c;
  mkModel 0x2700000027 (5619)%Z 0x0 0x146ca000146d2;
  mkModel 0x2700000027 (5620)%Z 0x0 0x146d2000146db;
  mkModel 0x2700000027 (5621)%Z 0x0 0x146db000146e2;
  mkModel 0x2700000027 (5622)%Z 0x0 0x146e2000146eb;
  mkModel 0x2700000027 (-1)%Z 0x146f300014706 0x1470600014712;
  mkModel 0x2700000027 (-1)%Z 0x1471200014718 0x1471800014726;
  mkModel 0x2700000027 (5624)%Z 0x0 0x1472600014735;
  mkModel 0x2700000027 (5625)%Z 0x0 0x1473500014742;
  mkModel 0x2700000027 (5626)%Z 0x0 0x1474200014750;
  mkModel 0x2700000027 (5627)%Z 0x0 0x147500001475c;
  mkModel 0x2700000027 (5628)%Z 0x0 0x1475c00014763;
  mkModel 0x2700000027 (5629)%Z 0x0 0x1476300014768;
  mkModel 0x2700000027 (5630)%Z 0x0 0x147680001476d;
  mkModel 0x2700000027 (5631)%Z 0x0 0x1476d00014772;
  mkModel 0x2700000027 (5632)%Z 0x0 0x147720001477b;
  mkModel 0x2700000027 (5633)%Z 0x0 0x1477b0001478b;
  mkModel 0x2700000027 (5634)%Z 0x0 0x1478b00014793;
  mkModel 0x2700000027 (5635)%Z 0x0 0x14793000147a0;
  mkModel 0x2a1000002a7 (5636)%Z 0x0 0x147a0000147aa;
  mkModel 0x2700000027 (5637)%Z 0x0 0x147aa000147b2;
  mkModel 0x2700000027 (-1)%Z 0x147b2000147b6 0x147b6000147c1;
  mkModel 0x2700000027 (-1)%Z 0x147c1000147c6 0x147c6000147da;
  mkModel 0x2700000027 (-1)%Z 0x147da000147de 0x147de000147ec;
  mkModel 0x2700000027 (-1)%Z 0x147ec000147f0 0x147f0000147fc;
  mkModel 0x2700000027 (-1)%Z 0x147fc00014800 0x1480000014812;
  mkModel 0x2700000027 (-1)%Z 0x1481200014816 0x1481600014829;
  mkModel 0x2700000027 (-1)%Z 0x148290001482d 0x1482d0001483c;
  mkModel 0x2700000027 (5638)%Z 0x0 0x1483c00014845;
  mkModel 0x2700000027 (-1)%Z 0x1484500014849 0x1484900014858;
  mkModel 0x2700000027 (-1)%Z 0x148580001485c 0x1485c00014867;
  mkModel 0x2700000027 (-1)%Z 0x148670001486b 0x1486b00014873;
  mkModel 0x2700000027 (5639)%Z 0x0 0x1487300014883;
  mkModel 0x2700000027 (5640)%Z 0x0 0x1488300014891;
  mkModel 0x2700000027 (5641)%Z 0x0 0x14891000148a3;
  mkModel 0x2700000027 (-1)%Z 0x148a3000148a7 0x148a7000148b2;
  mkModel 0x2700000027 (-1)%Z 0x148b2000148b7 0x148b7000148ca;
  mkModel 0x2700000027 (-1)%Z 0x148ca000148ce 0x148ce000148dc;
  mkModel 0x2700000027 (5642)%Z 0x0 0x148dc000148e3;
  mkModel 0x2700000027 (-1)%Z 0x148e3000148e7 0x148e7000148f4;
  mkModel 0x2700000027 (5643)%Z 0x0 0x148f400014901;
  mkModel 0x2700000027 (-1)%Z 0x1490100014905 0x1490500014912;
  mkModel 0x2700000027 (-1)%Z 0x1491200014917 0x1491700014923;
  mkModel 0x2700000027 (-1)%Z 0x1492300014928 0x1492800014934;
  mkModel 0x2700000027 (5644)%Z 0x0 0x1493400014947;
  mkModel 0x2700000027 (5645)%Z 0x0 0x1494700014956;
  mkModel 0x2700000027 (5646)%Z 0x0 0x149560001496a;
  mkModel 0x2700000027 (5647)%Z 0x0 0x1496a00014973;
  mkModel 0x2700000027 (5648)%Z 0x0 0x149730001497c;
  mkModel 0x2700000027 (5649)%Z 0x0 0x1497c0001498a;
  mkModel 0x2700000027 (5650)%Z 0x0 0x1498a00014997;
  mkModel 0x2700000027 (5651)%Z 0x0 0x14997000149a7;
  mkModel 0x2700000027 (5652)%Z 0x0 0x149a7000149b6;
  mkModel 0x2700000027 (5653)%Z 0x0 0x149b6000149c3;
  mkModel 0x2700000027 (5654)%Z 0x0 0x149c3000149c9;
  mkModel 0x2700000027 (5655)%Z 0x0 0x149c9000149d8;
  mkModel 0x2700000027 (5656)%Z 0x0 0x149d8000149e5;
  mkModel 0x2700000027 (5657)%Z 0x0 0x149e5000149f2;
  mkModel 0x2700000027 (5658)%Z 0x0 0x149f200014a00;
  mkModel 0x2700000027 (5659)%Z 0x0 0x14a0000014a09;
  mkModel 0x2700000027 (5660)%Z 0x0 0x14a0900014a12;
  mkModel 0x2700000027 (5661)%Z 0x0 0x14a1200014a1b;
  mkModel 0x2700000027 (5662)%Z 0x0 0x14a1b00014a24;
  mkModel 0x2700000027 (5663)%Z 0x0 0x14a2400014a29;
  mkModel 0x2700000027 (5664)%Z 0x0 0x6c6100006c67;
  mkModel 0x2a1000002a7 (5665)%Z 0x0 0x14a2900014a36;
  mkModel 0x39a000003a7 (5666)%Z 0x0 0x18000000182;
  mkModel 0x2a1000002a7 (5667)%Z 0x0 0x18000000182;
  mkModel 0x2700000027 (5668)%Z 0x0 0x18000000182;
  mkModel 0x2700000027 (5670)%Z 0x0 0x14a3e00014a46;
  mkModel 0x39a000003a7 (5672)%Z 0x0 0x14a4600014a4c;
  mkModel 0x2700000027 (5673)%Z 0x0 0x14a4c00014a55;
  mkModel 0x2700000027 (5674)%Z 0x0 0x14a5500014a5e;
  mkModel 0x2700000027 (5675)%Z 0x0 0x14a5e00014a67;
  mkModel 0x2700000027 (-1)%Z 0x14a6700014a79 0x14a6700014a79;
  mkModel 0x2700000027 (5676)%Z 0x0 0x14a7900014a82;
  mkModel 0x2700000027 (5677)%Z 0x0 0x14a8200014a8b;
  mkModel 0x2700000027 (5678)%Z 0x0 0x14a8b00014a94;
  mkModel 0x2700000027 (-1)%Z 0x14a9400014a9b 0x14a9b00014aa4;
  mkModel 0xdfd00000e04 (-1)%Z 0x14aa400014ab4 0x14aa400014ab4;
  mkModel 0xdfd00000e04 (5679)%Z 0x0 0x14ab400014ac0;
  mkModel 0x2700000027 (-1)%Z 0x14ac000014ad6 0x14ac000014ad6;
  mkModel 0x2700000027 (-1)%Z 0x14ad600014ae3 0x14ad600014ae3;
  mkModel 0x2700000027 (-1)%Z 0x14ae300014af5 0x14ae300014af5;
  mkModel 0x2700000027 (5680)%Z 0x0 0x14af500014afe
].
Definition d_dr_dm_37 : list modelTuple := [
  mkModel 0x2700000027 (5681)%Z 0x0 0x14afe00014b07;
  mkModel 0x2700000027 (-1)%Z 0x14b0700014b0e 0x14b0e00014b1a;
  mkModel 0x2700000027 (-1)%Z 0x14b1a00014b23 0x14b1a00014b23;
  mkModel 0xdfd00000e04 (-1)%Z 0x14b2300014b38 0x14b2300014b38;
  mkModel 0xdfd00000e04 (-1)%Z 0x14b3800014b44 0x14b3800014b44;
  mkModel 0x2700000027 (-1)%Z 0x14b4400014b56 0x14b4400014b56;
  mkModel 0x2700000027 (5682)%Z 0x0 0x14b5600014b5f;
  mkModel 0x2700000027 (5683)%Z 0x0 0x14b5f00014b69;
  mkModel 0x2700000027 (-1)%Z 0x14b6900014b73 0x14b6900014b73;
  mkModel 0xc9b00000ca2 (-1)%Z 0x14b7300014b81 0x14b7300014b81;
  mkModel 0xc9b00000ca2 (5684)%Z 0x0 0x14b8100014b8e;
  mkModel 0x2a1000002a7 (-1)%Z 0x14b8e00014b9b 0x14b8e00014b9b;
  mkModel 0x2a1000002a7 (-1)%Z 0x14b9b00014ba6 0x14b9b00014ba6;
  mkModel 0x2a1000002a7 (-1)%Z 0x14ba600014baf 0x14ba600014baf;
  mkModel 0x2700000027 (5685)%Z 0x0 0x14baf00014bb7;
  mkModel 0x2700000027 (-1)%Z 0x14bc000014bc8 0x14bc800014bd2;
  mkModel 0x2700000027 (5687)%Z 0x0 0x14bd200014bdb;
  mkModel 0x0 (-1)%Z 0x0 0x18000000182;
  mkModel 0x2700000027 (-1)%Z 0x14be800014bf0 0x14bf000014bf7;
  mkModel 0x2700000027 (-1)%Z 0x14bf700014c01 0x14c0100014c08;
  mkModel 0x2700000027 (5690)%Z 0x0 0x14c0800014c14;
  mkModel 0x2700000027 (5691)%Z 0x0 0x14c1400014c1f;
  mkModel 0x2700000027 (5692)%Z 0x0 0x14c1f00014c27;
  mkModel 0x2700000027 (-1)%Z 0x14c2700014c32 0x14c3200014c38;
  mkModel 0x2700000027 (-1)%Z 0x14c3800014c43 0x14c4300014c49;
  mkModel 0x2700000027 (5693)%Z 0x0 0x14c4900014c50;
  mkModel 0x2700000027 (-1)%Z 0x14c5000014c56 0x14c5600014c5c;
  mkModel 0x2700000027 (-1)%Z 0x14c5c00014c63 0x14c6300014c6a;
  mkModel 0x2700000027 (-1)%Z 0x14c6a00014c72 0x14c7200014c79;
  mkModel 0x2700000027 (5694)%Z 0x0 0x18000000182;
  mkModel 0x2700000027 (5696)%Z 0x0 0x14c7900014c81;
  mkModel 0x2700000027 (5697)%Z 0x0 0x14c8100014c88;
  mkModel 0x2700000027 (-1)%Z 0x14c8800014c8c 0x14c8c00014c92;
  mkModel 0x2700000027 (5698)%Z 0x0 0x14c9200014c97;
  mkModel 0x2700000027 (5699)%Z 0x0 0x14c9700014c9c;
  mkModel 0x2700000027 (5701)%Z 0x0 0x18000000182;
  mkModel 0x2700000027 (5702)%Z 0x0 0x14ca100014cad;
  mkModel 0x2700000027 (5703)%Z 0x0 0x14cad00014cba;
  mkModel 0x2a1000002a7 (5704)%Z 0x0 0x14cad00014cba;
  mkModel 0x2a1000002a7 (5705)%Z 0x0 0x14cba00014cc7;
  mkModel 0x2700000027 (5707)%Z 0x0 0x14cca00014cd2;
  mkModel 0x2700000027 (5708)%Z 0x0 0x18000000182;
  mkModel 0x2a1000002a7 (-1)%Z 0x14cd200014cea 0x14cea00014cfe;
  mkModel 0x2700000027 (5710)%Z 0x0 0x14d0300014d0a;
  mkModel 0x2700000027 (-1)%Z 0x14d0a00014d13 0x14d1300014d19;
  mkModel 0x2700000027 (5711)%Z 0x0 0x14d1900014d1c;
  mkModel 0x2700000027 (-1)%Z 0x14d1c00014d28 0x14d2800014d2e;
  mkModel 0x2700000027 (-1)%Z 0x14d2e00014d3a 0x14d3a00014d40;
  mkModel 0x2700000027 (5712)%Z 0x0 0xb1bc0000b1be;
  mkModel 0x2700000027 (5713)%Z 0x0 0x42d00000430;
  mkModel 0x2700000027 (5714)%Z 0x0 0xb5fe0000b602;
  mkModel 0x2700000027 (5715)%Z 0x0 0x14d4000014d47;
  mkModel 0x2700000027 (5716)%Z 0x0 0x14d4700014d49;
  mkModel 0x2700000027 (5717)%Z 0x0 0x14d4900014d4c;
  mkModel 0x2a1000002a7 (-1)%Z 0x14d5100014d5a 0x14d5a00014d63;
  mkModel 0x2a1000002a7 (5719)%Z 0x0 0x14d6300014d6a;
  mkModel 0x2700000027 (5720)%Z 0x0 0x14d6a00014d70;
  mkModel 0x23b0000023d (5721)%Z 0x0 0x18000000182;
  mkModel 0x23b0000023d (5724)%Z 0x0 0x14d8400014d88;
  mkModel 0x2700000027 (5725)%Z 0x0 0x14d8800014d93;
  mkModel 0x2700000027 (5726)%Z 0x0 0x18000000182;
  mkModel 0x2a1000002a7 (5727)%Z 0x0 0x18000000182;
  mkModel 0x2700000027 (5729)%Z 0x0 0x18000000182;
  mkModel 0x2700000027 (5730)%Z 0x0 0x18000000182;
  mkModel 0x2700000027 (5731)%Z 0x0 0x18000000182;
  mkModel 0x0 (-1)%Z 0x0 0x18000000182;
  mkModel 0x2700000027 (5734)%Z 0x0 0x18000000182;
  mkModel 0x2700000027 (-1)%Z 0x14da900014db0 0x14db000014db7;
  mkModel 0x2700000027 (5736)%Z 0x0 0x14dbe00014dc6;
  mkModel 0x2700000027 (5737)%Z 0x0 0x14dc600014dd6;
  mkModel 0x2700000027 (-1)%Z 0x14dde00014de4 0x14de400014dea;
  mkModel 0x2700000027 (-1)%Z 0x14dea00014df1 0x14df100014df8;
  mkModel 0x2700000027 (-1)%Z 0x14df800014e00 0x14e0000014e09;
  mkModel 0x2700000027 (-1)%Z 0x14e0900014e12 0x14e0900014e12;
  mkModel 0x2700000027 (5739)%Z 0x0 0x4c4f00004c57;
  mkModel 0x2700000027 (5740)%Z 0x0 0x18000000182;
  mkModel 0x2700000027 (5742)%Z 0x0 0x14e1900014e24;
  mkModel 0x2700000027 (-1)%Z 0x14e2400014e2a 0x14e2a00014e30;
  mkModel 0x2700000027 (-1)%Z 0x14e3000014e36 0x14e3600014e3c;
  mkModel 0x2700000027 (-1)%Z 0x14e3c00014e40 0x14e3c00014e40;
  mkModel 0x2700000027 (5743)%Z 0x0 0x14e4000014e42;
  mkModel 0x2700000027 (-1)%Z 0xc1910000c197 0xc1910000c197;
  mkModel 0x2700000027 (-1)%Z 0x14e4200014e4c 0x14e4c00014e56;
  mkModel 0x2700000027 (-1)%Z 0x14e5600014e62 0x14e6200014e6e;
  mkModel 0x2700000027 (-1)%Z 0x14e6e00014e7c 0x14e6e00014e7c;
  mkModel 0x2700000027 (-1)%Z 0x14e7c00014e81 0x14e8100014e86;
  mkModel 0x2700000027 (-1)%Z 0x14e8600014e8b 0xbd470000bd4c;
  mkModel 0x2700000027 (5744)%Z 0x0 0x14e8b00014e92;
  mkModel 0x2700000027 (-1)%Z 0x14e9200014e98 0x14e9800014e9f;
  mkModel 0x2700000027 (-1)%Z 0x14e9f00014ea8 0x14ea800014eb1;
  mkModel 0x2700000027 (-1)%Z 0x14eb100014eb8 0x14eb800014ebf;
  mkModel 0x2700000027 (-1)%Z 0x14ebf00014ec7 0x14ec700014ecf;
  mkModel 0x2700000027 (5745)%Z 0x0 0x14ecf00014ed9;
  mkModel 0x2700000027 (-1)%Z 0x14ed900014ede 0x14ede00014ee3;
  mkModel 0x2700000027 (-1)%Z 0x14ee300014eee 0x14eee00014ef9;
  mkModel 0x2700000027 (-1)%Z 0x14ef900014f04 0x14f0400014f0f;
  mkModel 0x2700000027 (-1)%Z 0x14f0f00014f15 0x14f0f00014f15;
  mkModel 0x2700000027 (-1)%Z 0x14f1500014f1b 0x14f1b00014f21;
  mkModel 0x2700000027 (-1)%Z 0x14f2100014f25 0x14f2500014f29;
  mkModel 0x2700000027 (-1)%Z 0x14f2900014f32 0x14f3200014f3b;
  mkModel 0x2700000027 (-1)%Z 0x14f3b00014f40 0x14f4000014f45;
  mkModel 0x2700000027 (-1)%Z 0x14f4500014f4b 0x14f4b00014f52;
  mkModel 0x2700000027 (-1)%Z 0x14f5200014f57 0x14f5700014f5c;
  mkModel 0x2700000027 (-1)%Z 0x14f5c00014f63 0x14f6300014f6b;
  mkModel 0x2700000027 (-1)%Z 0x14f6b00014f75 0x14f7500014f7f;
  mkModel 0x2700000027 (-1)%Z 0x14f7f00014f87 0x14f8700014f8f;
  mkModel 0x2700000027 (-1)%Z 0x14f8f00014f94 0x117e9000117ee;
  mkModel 0x2700000027 (-1)%Z 0x14f9400014f98 0x14f9800014f9c;
  mkModel 0x2700000027 (5746)%Z 0x0 0x14f9c00014f9e;
  mkModel 0x2700000027 (-1)%Z 0x14f9e00014fa2 0x14fa200014fa6;
  mkModel 0x2700000027 (5747)%Z 0x0 0x14fa600014fa9;
  mkModel 0x2700000027 (-1)%Z 0x14fa900014fb0 0x14fb000014fb7;
  mkModel 0x2700000027 (-1)%Z 0x14fb700014fbd 0x14fbd00014fc3;
  mkModel 0x2700000027 (-1)%Z 0x14fc300014fca 0x14fca00014fd1;
  mkModel 0x2700000027 (-1)%Z 0x14fd100014fd8 0x14fd800014fdf;
  mkModel 0x2700000027 (-1)%Z 0x14fdf00014fe3 0x14fe300014fe7;
  mkModel 0x2700000027 (-1)%Z 0x14fe700014feb 0xe9630000e967;
  mkModel 0x2700000027 (-1)%Z 0x14feb00014ff0 0x14ff000014ff5;
  mkModel 0x2700000027 (-1)%Z 0x14ff500014ffe 0x14ff500014ffe;
  mkModel 0x2700000027 (5748)%Z 0x0 0x14ffe00015005;
  mkModel 0x2700000027 (-1)%Z 0x150050001500a 0x1500a0001500d;
  mkModel 0x2700000027 (-1)%Z 0x1500d00015015 0x150150001501d;
  mkModel 0x2700000027 (5749)%Z 0x0 0x1501d00015023;
  mkModel 0x2700000027 (-1)%Z 0x150230001502e 0x1502e00015039;
  mkModel 0x2700000027 (5750)%Z 0x0 0x1503900015042;
  mkModel 0x2700000027 (-1)%Z 0x1504200015049 0x150490001504f;
  mkModel 0x2700000027 (-1)%Z 0x1504f00015057 0x150570001505e;
  mkModel 0x2700000027 (-1)%Z 0x1505e00015067 0x1506700015070;
  mkModel 0x2700000027 (-1)%Z 0x1507000015074 0x1507400015078;
  mkModel 0x2700000027 (5751)%Z 0x0 0x1507800015080;
  mkModel 0x2700000027 (5752)%Z 0x0 0x1508000015084;
  mkModel 0x2700000027 (-1)%Z 0x150840001508b 0x1508b00015092;
  mkModel 0x2700000027 (-1)%Z 0x150920001509b 0x1509b000150a4;
  mkModel 0x2700000027 (-1)%Z 0x150a4000150ae 0x150ae000150b8;
  mkModel 0x2700000027 (5753)%Z 0x0 0x18000000182;
  mkModel 0x2a1000002a7 (-1)%Z 0x150b8000150be 0x150be000150c4;
  mkModel 0x2a1000002a7 (-1)%Z 0x150c4000150c8 0x150c8000150cc;
  mkModel 0x2a1000002a7 (5754)%Z 0x0 0x150cc000150d9;
  mkModel 0x2a1000002a7 (-1)%Z 0x150d9000150e3 0x150e3000150ed;
  mkModel 0x2700000027 (5756)%Z 0x0 0x150f6000150fb;
  mkModel 0x2700000027 (5757)%Z 0x0 0x150fb00015104;
  mkModel 0x2700000027 (5758)%Z 0x0 0x151040001510b;
  mkModel 0x2700000027 (5759)%Z 0x0 0x1510b00015110;
  mkModel 0x2700000027 (5760)%Z 0x0 0x1511000015127;
  mkModel 0x2700000027 (5761)%Z 0x0 0x1512700015139;
  mkModel 0x2700000027 (5762)%Z 0x0 0x1513900015141;
  mkModel 0x2700000027 (5763)%Z 0x0 0x1514100015153;
  mkModel 0x2700000027 (5764)%Z 0x0 0x151530001515e;
  mkModel 0x2700000027 (5765)%Z 0x0 0x1515e0001516a;
  mkModel 0x2700000027 (5766)%Z 0x0 0x1513900015141;
  mkModel 0x2700000027 (-1)%Z 0x1516a0001517f 0x1517f0001518a;
  mkModel 0x2700000027 (5767)%Z 0x0 0x1518a00015195;
  mkModel 0x2700000027 (-1)%Z 0x15195000151a7 0x151a7000151af;
  mkModel 0x2700000027 (5768)%Z 0x0 0x151af000151ba;
  mkModel 0x2700000027 (5769)%Z 0x0 0x151ba000151c2;
  mkModel 0x2700000027 (5770)%Z 0x0 0x151c2000151c9;
  mkModel 0x2700000027 (-1)%Z 0x151c9000151da 0x151da000151e1;
  mkModel 0x2700000027 (-1)%Z 0x151e1000151f8 0x151f800015205;
  mkModel 0x2700000027 (5771)%Z 0x0 0x152050001520e;
  mkModel 0x2700000027 (-1)%Z 0x1520e0001521d 0x1521d00015222;
  mkModel 0x2700000027 (-1)%Z 0x1522200015238 0x152380001523f;
  mkModel 0x2700000027 (-1)%Z 0x1523f00015246 0x1523f00015246;
  mkModel 0x2700000027 (5772)%Z 0x0 0xc1540000c15c;
  mkModel 0x2700000027 (-1)%Z 0x1524600015256 0x1525600015261;
  mkModel 0x2700000027 (5773)%Z 0x0 0x1526100015267;
  mkModel 0x2700000027 (-1)%Z 0x152670001527e 0x1527e00015285;
  mkModel 0x2700000027 (-1)%Z 0x152850001529e 0x1529e000152a7;
  mkModel 0x2700000027 (5774)%Z 0x0 0x18000000182;
  mkModel 0x0 (-1)%Z 0x0 0x152b5000152c1;
  mkModel 0x2700000027 (-1)%Z 0x152c8000152ce 0x152ce000152d6;
  mkModel 0x2700000027 (5777)%Z 0x0 0x152d6000152e2;
  mkModel 0x2700000027 (-1)%Z 0x152e2000152e8 0x152e8000152f4;
  mkModel 0x2700000027 (-1)%Z 0x152f4000152fa 0x152fa00015303;
  mkModel 0x2700000027 (-1)%Z 0x1530300015309 0x153090001530d;
  mkModel 0x2700000027 (-1)%Z 0x1530d00015313 0x1531300015317;
  mkModel 0x2700000027 (-1)%Z 0x1531700015326 0x1532600015335;
  mkModel 0x2700000027 (-1)%Z 0x153350001533e 0x153350001533e;
  mkModel 0x2700000027 (-1)%Z 0x1533e00015347 0x153470001534d;
  mkModel 0x2700000027 (-1)%Z 0x1534d00015356 0x153560001535c;
  mkModel 0x2700000027 (-1)%Z 0x1535c00015365 0x1536500015374;
  mkModel 0x2700000027 (-1)%Z 0x153740001537d 0x1537d0001538a;
  mkModel 0x2700000027 (-1)%Z 0x1538a00015393 0x15393000153a1;
  mkModel 0x2700000027 (-1)%Z 0x153a1000153ab 0x153a1000153ab;
  mkModel 0x2700000027 (-1)%Z 0x153ab000153b0 0x153b0000153b6;
  mkModel 0x0 (-1)%Z 0x0 0x18000000182;
  mkModel 0x2700000027 (5780)%Z 0x0 0x18000000182;
  mkModel 0x0 (-1)%Z 0x0 0x153c8000153d3;
  mkModel 0x2700000027 (5783)%Z 0x0 0x153d9000153db;
  mkModel 0x2700000027 (5784)%Z 0x0 0x153db000153dd;
  mkModel 0x23f00000249 (5785)%Z 0x0 0x153dd000153e3;
  mkModel 0x2700000027 (-1)%Z 0x153ee000153f7 0x153f700015400;
  mkModel 0x23f00000249 (5788)%Z 0x0 0x1540700015413;
  mkModel 0x2700000027 (-1)%Z 0x154130001541d 0x1541d00015427;
  mkModel 0x2700000027 (5789)%Z 0x0 0x1542700015431;
  mkModel 0x2700000027 (5790)%Z 0x0 0x1542700015431;
  mkModel 0x2700000027 (5791)%Z 0x0 0x154310001543f;
  mkModel 0x2700000027 (5792)%Z 0x0 0x154310001543f;
  mkModel 0x2700000027 (5793)%Z 0x0 0x18000000182;
  mkModel 0x2700000027 (5794)%Z 0x0 0x18000000182;
  mkModel 0x0 (-1)%Z 0x0 0x1544c00015452
].
Definition d_dr_dm_38 : list modelTuple := [
  mkModel 0x2700000027 (-1)%Z 0x1545a00015460 0x1546000015466;
  mkModel 0x0 (-1)%Z 0x0 0x18000000182;
  mkModel 0x39a000003a7 (-1)%Z 0x154730001547b 0x1547b0001547f;
  mkModel 0x2a1000002a7 (-1)%Z 0x1547f0001548b 0x1548b00015497;
  mkModel 0x2a1000002a7 (-1)%Z 0x154970001549f 0x1549f000154ab;
  mkModel 0x2700000027 (-1)%Z 0x154ab000154b5 0x154b5000154c3;
  mkModel 0x2700000027 (5799)%Z 0x0 0x154c3000154c8;
  mkModel 0x2700000027 (-1)%Z 0x154c8000154d5 0x154c8000154d5;
  mkModel 0x2700000027 (-1)%Z 0x154d5000154df 0x154d5000154df;
  mkModel 0x2700000027 (-1)%Z 0x154df000154eb 0x154eb000154f3;
  mkModel 0x2700000027 (-1)%Z 0x154f3000154ff 0x154ff00015507;
  mkModel 0x2700000027 (5800)%Z 0x0 0x1550700015519;
  mkModel 0x2700000027 (5801)%Z 0x0 0x155190001552b;
  mkModel 0x2700000027 (-1)%Z 0x1552b00015533 0x155330001553f;
  mkModel 0x2700000027 (5802)%Z 0x0 0x1553f0001554b;
  mkModel 0x2700000027 (-1)%Z 0x1554b00015562 0x1556200015573;
  mkModel 0x2700000027 (-1)%Z 0x1557300015585 0x1558500015595;
  mkModel 0x2700000027 (-1)%Z 0x155950001559d 0x1559d000155ad;
  mkModel 0x2700000027 (-1)%Z 0x155ad000155bc 0x155bc000155d2;
  mkModel 0x2700000027 (5803)%Z 0x0 0x155d2000155de;
  mkModel 0x2700000027 (5804)%Z 0x0 0x155de000155e2;
  mkModel 0x2700000027 (5805)%Z 0x0 0x155e2000155e8;
  mkModel 0x2700000027 (5806)%Z 0x0 0x155e8000155f1;
  mkModel 0x2700000027 (5807)%Z 0x0 0x155f1000155fc;
  mkModel 0x2700000027 (5808)%Z 0x0 0x155fc00015604;
  mkModel 0x2700000027 (-1)%Z 0x156040001561a 0x1561a00015627;
  mkModel 0x2700000027 (5809)%Z 0x0 0x1562700015632;
  mkModel 0x2700000027 (-1)%Z 0x156320001563a 0x1563a00015645;
  mkModel 0x2700000027 (5810)%Z 0x0 0x156450001564c;
  mkModel 0x2700000027 (5811)%Z 0x0 0x1564c00015656;
  mkModel 0x2700000027 (5812)%Z 0x0 0x156560001565f;
  mkModel 0x2700000027 (5813)%Z 0x0 0x1565f00015668;
  mkModel 0x2700000027 (5814)%Z 0x0 0x156680001566e;
  mkModel 0x2700000027 (5815)%Z 0x0 0x1566e00015675;
  mkModel 0x2700000027 (5816)%Z 0x0 0x1567500015679;
  mkModel 0x2700000027 (5817)%Z 0x0 0x1567900015684;
  mkModel 0x2700000027 (5818)%Z 0x0 0x156840001568b;
  mkModel 0x2700000027 (5819)%Z 0x0 0x1568b00015692;
  mkModel 0x2700000027 (5820)%Z 0x0 0x156920001569b;
  mkModel 0x2700000027 (5821)%Z 0x0 0x1569b000156a3;
  mkModel 0x2700000027 (5822)%Z 0x0 0x156a3000156a9;
  mkModel 0x2700000027 (5823)%Z 0x0 0x156a9000156b1;
  mkModel 0x2700000027 (5824)%Z 0x0 0x156b1000156b6;
  mkModel 0x2700000027 (5825)%Z 0x0 0x156b6000156c7;
  mkModel 0x2700000027 (5826)%Z 0x0 0x156c7000156cf;
  mkModel 0x2700000027 (5827)%Z 0x0 0x156cf000156d7;
  mkModel 0x2700000027 (5828)%Z 0x0 0x156d7000156e0;
  mkModel 0x2700000027 (5829)%Z 0x0 0x156e0000156e4;
  mkModel 0x2700000027 (5830)%Z 0x0 0x156e4000156ef;
  mkModel 0x2700000027 (5831)%Z 0x0 0x156ef000156fa;
  mkModel 0x2700000027 (5832)%Z 0x0 0x156fa00015704;
  mkModel 0x2700000027 (5833)%Z 0x0 0x1570400015710;
  mkModel 0x2700000027 (5834)%Z 0x0 0x157100001571c;
  mkModel 0x2700000027 (5835)%Z 0x0 0x1571c00015723;
  mkModel 0x2700000027 (5836)%Z 0x0 0x157230001572b;
  mkModel 0x2700000027 (5837)%Z 0x0 0x1572b00015736;
  mkModel 0x2700000027 (5838)%Z 0x0 0x1573600015742;
  mkModel 0x2700000027 (5839)%Z 0x0 0x157420001574c;
  mkModel 0x2700000027 (5840)%Z 0x0 0x1574c00015759;
  mkModel 0x2700000027 (5841)%Z 0x0 0x1575900015766;
  mkModel 0x2700000027 (5842)%Z 0x0 0x1576600015773;
  mkModel 0x2700000027 (5843)%Z 0x0 0x1577300015782;
  mkModel 0x2700000027 (-1)%Z 0x157820001578a 0x1578a00015797;
  mkModel 0x2700000027 (-1)%Z 0x15797000157a3 0x157a3000157af;
  mkModel 0x2700000027 (5844)%Z 0x0 0x157af000157b7;
  mkModel 0x2700000027 (-1)%Z 0x157b7000157c3 0x157c3000157cf;
  mkModel 0x2700000027 (5845)%Z 0x0 0x157cf000157d7;
  mkModel 0x2700000027 (5846)%Z 0x0 0x157d7000157e2;
  mkModel 0x2700000027 (5847)%Z 0x0 0x157e2000157ed;
  mkModel 0x2700000027 (-1)%Z 0x157ed000157f5 0x157f500015800;
  mkModel 0x2700000027 (5848)%Z 0x0 0x158000001580e;
  mkModel 0x2700000027 (-1)%Z 0x1580e00015816 0x158160001581e;
  mkModel 0x2700000027 (-1)%Z 0x1581e00015827 0x1582700015830;
  mkModel 0x2700000027 (-1)%Z 0x158300001583d 0x158300001583d;
  mkModel 0x2700000027 (5849)%Z 0x0 0x1583d0001584f;
  mkModel 0x2700000027 (-1)%Z 0x1584f00015857 0x1585700015863;
  mkModel 0x2700000027 (-1)%Z 0x158630001586b 0x1586b00015877;
  mkModel 0x2700000027 (5850)%Z 0x0 0x158770001587d;
  mkModel 0x2700000027 (5851)%Z 0x0 0x1587d0001588a;
  mkModel 0x2700000027 (5852)%Z 0x0 0x1588a00015897;
  mkModel 0x2700000027 (5853)%Z 0x0 0x158970001589f;
  mkModel 0x2700000027 (5854)%Z 0x0 0x1589f000158af;
  mkModel 0x2700000027 (5855)%Z 0x0 0x158af000158bb;
  mkModel 0x2700000027 (5856)%Z 0x0 0x158bb000158c8;
  mkModel 0x2700000027 (5857)%Z 0x0 0x158c8000158d5;
  mkModel 0x2700000027 (5858)%Z 0x0 0x158c8000158d5;
  mkModel 0x2700000027 (5859)%Z 0x0 0x158d5000158e7;
  mkModel 0x2700000027 (5860)%Z 0x0 0x158e7000158f5;
  mkModel 0x2700000027 (5861)%Z 0x0 0x158f500015902;
  mkModel 0x2700000027 (5862)%Z 0x0 0x159020001590c;
  mkModel 0x2700000027 (5863)%Z 0x0 0x1590c0001591a;
  mkModel 0x2700000027 (5864)%Z 0x0 0x1591a00015922;
  mkModel 0x2700000027 (5865)%Z 0x0 0x159220001592b;
  mkModel 0x2700000027 (5866)%Z 0x0 0x159220001592b;
  mkModel 0x2700000027 (5867)%Z 0x0 0x158770001587d;
  mkModel 0x2700000027 (-1)%Z 0x1592b00015933 0x159330001593f;
  mkModel 0x2700000027 (5868)%Z 0x0 0x1593f00015949;
  mkModel 0x2700000027 (5869)%Z 0x0 0x1594900015955;
  mkModel 0x2700000027 (5870)%Z 0x0 0x159550001595c;
  mkModel 0x2700000027 (5871)%Z 0x0 0x1595c00015962;
  mkModel 0x2700000027 (5872)%Z 0x0 0x159620001596d;
  mkModel 0x2700000027 (-1)%Z 0x1596d00015979 0x1596d00015979;
  mkModel 0x2700000027 (5873)%Z 0x0 0x1597900015984;
  mkModel 0x2700000027 (5874)%Z 0x0 0x159840001598a;
  mkModel 0x2700000027 (5875)%Z 0x0 0x1598a00015991;
  mkModel 0x2700000027 (5876)%Z 0x0 0x159910001599c;
  mkModel 0x2700000027 (5877)%Z 0x0 0x1599c000159a8;
  mkModel 0x2700000027 (5878)%Z 0x0 0x159a8000159b5;
  mkModel 0x2700000027 (5879)%Z 0x0 0x159b5000159bd;
  mkModel 0x2700000027 (5880)%Z 0x0 0x159bd000159c9;
  mkModel 0x2700000027 (5881)%Z 0x0 0x159c9000159d0;
  mkModel 0x2700000027 (5882)%Z 0x0 0x159d0000159d7;
  mkModel 0x2700000027 (5883)%Z 0x0 0x159d7000159e3;
  mkModel 0x2700000027 (5884)%Z 0x0 0x159e3000159eb;
  mkModel 0x2700000027 (-1)%Z 0x159eb000159f3 0x159f3000159fb;
  mkModel 0x2700000027 (-1)%Z 0x159fb00015a03 0x15a0300015a0e;
  mkModel 0x2700000027 (5885)%Z 0x0 0x15a0e00015a16;
  mkModel 0x2700000027 (-1)%Z 0x15a1600015a1e 0x15a1e00015a26;
  mkModel 0x2700000027 (-1)%Z 0x15a2600015a2e 0x15a2e00015a39;
  mkModel 0x2700000027 (-1)%Z 0x15a3900015a41 0x15a4100015a4c;
  mkModel 0x2700000027 (-1)%Z 0x15a4c00015a54 0x15a5400015a5c;
  mkModel 0x2700000027 (-1)%Z 0x15a5c00015a64 0x15a6400015a6f;
  mkModel 0x2700000027 (5886)%Z 0x0 0x15a6f00015a75;
  mkModel 0x2700000027 (5887)%Z 0x0 0x15a7500015a80;
  mkModel 0x2700000027 (5888)%Z 0x0 0x15a8000015a8c;
  mkModel 0x2700000027 (5889)%Z 0x0 0x15a8c00015a9f;
  mkModel 0x2700000027 (5890)%Z 0x0 0x15a9f00015aab;
  mkModel 0x2700000027 (5891)%Z 0x0 0x15aab00015ab9;
  mkModel 0x2700000027 (5892)%Z 0x0 0x15ab900015ac4;
  mkModel 0x2700000027 (5893)%Z 0x0 0x15ac400015ad1;
  mkModel 0x2700000027 (5894)%Z 0x0 0x15ad100015ad7;
  mkModel 0x2700000027 (5895)%Z 0x0 0x15ad700015ade;
  mkModel 0x2700000027 (5896)%Z 0x0 0x15ade00015aea;
  mkModel 0x2700000027 (5897)%Z 0x0 0x15aea00015af5;
  mkModel 0x2700000027 (5898)%Z 0x0 0x15af500015b01;
  mkModel 0x2700000027 (5899)%Z 0x0 0x15b0100015b0e;
  mkModel 0x2700000027 (5900)%Z 0x0 0x15b0e00015b15;
  mkModel 0x2700000027 (5901)%Z 0x0 0x15b1500015b1b;
  mkModel 0x2700000027 (5902)%Z 0x0 0x15b1b00015b27;
  mkModel 0x2700000027 (5903)%Z 0x0 0x15b2700015b33;
  mkModel 0x2700000027 (5904)%Z 0x0 0x154ff00015507;
  mkModel 0x2700000027 (5905)%Z 0x0 0x15b3300015b3b;
  mkModel 0x2700000027 (5906)%Z 0x0 0x15b3b00015b4b;
  mkModel 0x2700000027 (5907)%Z 0x0 0x15b4b00015b5b;
  mkModel 0x2700000027 (5908)%Z 0x0 0x15b5b00015b67;
  mkModel 0x2700000027 (5909)%Z 0x0 0x15b6700015b6f;
  mkModel 0x2700000027 (5910)%Z 0x0 0xde010000de04;
  mkModel 0x2700000027 (5911)%Z 0x0 0x15b6f00015b77;
  mkModel 0x2700000027 (5912)%Z 0x0 0x15b7700015b7f;
  mkModel 0x2700000027 (5913)%Z 0x0 0x15b7f00015b95;
  mkModel 0x2700000027 (5914)%Z 0x0 0x15b9500015ba3;
  mkModel 0x2700000027 (5915)%Z 0x0 0x15ba300015bac;
  mkModel 0x2700000027 (5916)%Z 0x0 0x15bac00015bba;
  mkModel 0x2700000027 (5917)%Z 0x0 0x15bba00015bc6;
  mkModel 0x2700000027 (5918)%Z 0x0 0x15bac00015bba;
  mkModel 0x2700000027 (5919)%Z 0x0 0x15bc600015bd3;
  mkModel 0x2700000027 (5920)%Z 0x0 0x15bd300015bde;
  mkModel 0x2700000027 (5921)%Z 0x0 0x15bde00015be9;
  mkModel 0x2700000027 (5922)%Z 0x0 0x15be900015bfa;
  mkModel 0x2700000027 (5923)%Z 0x0 0x3e7500003e7c;
  mkModel 0x2700000027 (5924)%Z 0x0 0x15bfa00015c05;
  mkModel 0x2700000027 (-1)%Z 0x15c0500015c0d 0x15c0d00015c14;
  mkModel 0x2700000027 (5925)%Z 0x0 0x15c1400015c22;
  mkModel 0x2700000027 (5926)%Z 0x0 0x15c2200015c26;
  mkModel 0x2700000027 (5927)%Z 0x0 0x15c2600015c35;
  mkModel 0x2700000027 (5928)%Z 0x0 0x15c3500015c3f;
  mkModel 0x2700000027 (5929)%Z 0x0 0x15c3f00015c48;
  mkModel 0x2700000027 (5930)%Z 0x0 0x15c4800015c51;
  mkModel 0x2700000027 (5931)%Z 0x0 0x15c5100015c59;
  mkModel 0x2700000027 (5932)%Z 0x0 0x15c5900015c68;
  mkModel 0x2700000027 (5933)%Z 0x0 0x15c6800015c72;
  mkModel 0x2700000027 (5934)%Z 0x0 0x15c7200015c7c;
  mkModel 0x2700000027 (-1)%Z 0x15c7c00015c8e 0x15c8e00015c97;
  mkModel 0x2700000027 (-1)%Z 0x15c9700015cad 0x15cad00015cba;
  mkModel 0x2700000027 (-1)%Z 0x15cba00015ccc 0x15ccc00015cd5;
  mkModel 0x2700000027 (5935)%Z 0x0 0x15cd500015cdf;
  mkModel 0x2700000027 (-1)%Z 0x15cdf00015cf2 0x15c3500015c3f;
  mkModel 0x2700000027 (5936)%Z 0x0 0x15cf200015d0a;
  mkModel 0x2700000027 (5937)%Z 0x0 0x15d0a00015d1c;
  mkModel 0x2700000027 (5938)%Z 0x0 0x15d1c00015d31;
  mkModel 0x2700000027 (5939)%Z 0x0 0x15d3100015d48;
  mkModel 0x2700000027 (-1)%Z 0x15d4800015d50 0x15d5000015d67;
  mkModel 0x2700000027 (-1)%Z 0x15d6700015d6f 0x15d6f00015d83;
  mkModel 0x2700000027 (5940)%Z 0x0 0x15d8300015d93;
  mkModel 0x2700000027 (-1)%Z 0x15d9300015da0 0x15da000015dad;
  mkModel 0x2700000027 (5941)%Z 0x0 0x15dad00015dbf;
  mkModel 0x2700000027 (5942)%Z 0x0 0x15dbf00015dd1;
  mkModel 0x2700000027 (5943)%Z 0x0 0x15dd100015ddd;
  mkModel 0x2700000027 (5944)%Z 0x0 0x15ddd00015df0;
  mkModel 0x2700000027 (5945)%Z 0x0 0x15df000015e03;
  mkModel 0x2700000027 (-1)%Z 0x15e0300015e0f 0x15dd100015ddd;
  mkModel 0x2700000027 (-1)%Z 0x15e0f00015e19 0x15e1900015e23;
  mkModel 0x2700000027 (5946)%Z 0x0 0x15e2300015e2e;
  mkModel 0x2700000027 (5947)%Z 0x0 0x15e2e00015e39;
  mkModel 0x2700000027 (-1)%Z 0x15e3900015e47 0x15e4700015e55;
  mkModel 0x2700000027 (5948)%Z 0x0 0x15e5500015e65;
  mkModel 0x2700000027 (-1)%Z 0x15e6500015e6e 0x15e6e00015e77;
  mkModel 0x2700000027 (5949)%Z 0x0 0x15e7700015e86;
  mkModel 0x2700000027 (-1)%Z 0x15e8600015e8e 0x15e8e00015e96;
  mkModel 0x2700000027 (5950)%Z 0x0 0x15e9600015e9e
].
Definition d_dr_dm_39 : list modelTuple := [
  mkModel 0x2700000027 (5951)%Z 0x0 0x15e9e00015ea7;
  mkModel 0x2700000027 (5952)%Z 0x0 0x15ea700015eb1;
  mkModel 0x2700000027 (-1)%Z 0x15eb100015ebf 0x15ebf00015ecd;
  mkModel 0x2700000027 (-1)%Z 0x15ecd00015ed5 0x15ed500015edd;
  mkModel 0x2700000027 (-1)%Z 0x15edd00015ee5 0x15ee500015eed;
  mkModel 0x2700000027 (5953)%Z 0x0 0x15eed00015f00;
  mkModel 0x2700000027 (5954)%Z 0x0 0x15f0000015f0e;
  mkModel 0x2700000027 (5955)%Z 0x0 0x15f0e00015f28;
  mkModel 0x2700000027 (5956)%Z 0x0 0x15f2800015f47;
  mkModel 0x2700000027 (5957)%Z 0x0 0x15f4700015f5a;
  mkModel 0x2700000027 (5958)%Z 0x0 0x15f5a00015f68;
  mkModel 0x2700000027 (5959)%Z 0x0 0x15f6800015f76;
  mkModel 0x2700000027 (5960)%Z 0x0 0x15f7600015f83;
  mkModel 0x2700000027 (5961)%Z 0x0 0x15f8300015f90;
  mkModel 0x2700000027 (5962)%Z 0x0 0x15f9000015f98;
  mkModel 0x2700000027 (5963)%Z 0x0 0x15f9000015f98;
  mkModel 0x2700000027 (-1)%Z 0x15f9800015fa1 0x15fa100015faa;
  mkModel 0x2700000027 (5964)%Z 0x0 0x1591a00015922;
  mkModel 0x2700000027 (5965)%Z 0x0 0x15faa00015fb2;
  mkModel 0x2700000027 (5966)%Z 0x0 0x15fb200015fb8;
  mkModel 0x2700000027 (5967)%Z 0x0 0x15fb800015fc1;
  mkModel 0x2700000027 (5968)%Z 0x0 0x15fc100015fcc;
  mkModel 0x2700000027 (5969)%Z 0x0 0x15fc100015fcc;
  mkModel 0x2700000027 (5970)%Z 0x0 0x15fcc00015fd5;
  mkModel 0x2700000027 (-1)%Z 0x15fd500015fdd 0x15fd500015fdd;
  mkModel 0x2b1e00002b26 (-1)%Z 0x15fdd00015fe5 0x15fdd00015fe5;
  mkModel 0x2b1e00002b26 (5971)%Z 0x0 0x15fe500015fee;
  mkModel 0x2700000027 (-1)%Z 0x15fee00015ff6 0x15ff600015ffd;
  mkModel 0x2700000027 (5972)%Z 0x0 0x15ffd00016006;
  mkModel 0x2700000027 (5973)%Z 0x0 0x160060001600d;
  mkModel 0x2700000027 (5974)%Z 0x0 0x1600d00016014;
  mkModel 0x2700000027 (5975)%Z 0x0 0x1601400016021;
  mkModel 0x2700000027 (5976)%Z 0x0 0x160060001600d;
  mkModel 0x2700000027 (5977)%Z 0x0 0x18000000182;
  mkModel 0x2700000027 (5978)%Z 0x0 0x18000000182;
  mkModel 0x2700000027 (5979)%Z 0x0 0x18000000182;
  mkModel 0x2700000027 (5980)%Z 0x0 0x1602100016029;
  mkModel 0x2700000027 (5981)%Z 0x0 0x1602100016029;
  mkModel 0x2700000027 (5982)%Z 0x0 0x18000000182;
  mkModel 0x2a1000002a7 (5983)%Z 0x0 0x18000000182;
  mkModel 0x2a1000002a7 (5984)%Z 0x0 0x18000000182;
  mkModel 0x2700000027 (5985)%Z 0x0 0x18000000182;
  mkModel 0x0 (-1)%Z 0x0 0x18000000182;
  mkModel 0x2700000027 (5988)%Z 0x0 0x1012500010128;
  mkModel 0x2700000027 (5989)%Z 0x0 0xaf2b0000af2e;
  mkModel 0x2700000027 (5990)%Z 0x0 0x18000000182;
  mkModel 0x2700000027 (5992)%Z 0x0 0xf1440000f147;
  mkModel 0x2700000027 (-1)%Z 0x1604c00016054 0x1605400016058;
  mkModel 0x2a1000002a7 (5994)%Z 0x0 0x160580001605f;
  mkModel 0x2700000027 (5996)%Z 0x0 0x18000000182;
  mkModel 0x2700000027 (5997)%Z 0x0 0x160640001606f;
  mkModel 0x2700000027 (5998)%Z 0x0 0x1606f00016079;
  mkModel 0x2700000027 (5999)%Z 0x0 0x18000000182;
  mkModel 0x23f00000249 (6000)%Z 0x0 0x18000000182;
  mkModel 0x0 (-1)%Z 0x0 0x18000000182;
  mkModel 0x2700000027 (6003)%Z 0x0 0x500000005006;
  mkModel 0x2700000027 (6004)%Z 0x0 0x1608b00016092;
  mkModel 0x2700000027 (6005)%Z 0x0 0x1609200016099;
  mkModel 0x2700000027 (6006)%Z 0x0 0x160990001609e;
  mkModel 0x2700000027 (6007)%Z 0x0 0x1609e000160a5;
  mkModel 0x2700000027 (6008)%Z 0x0 0x160a5000160af;
  mkModel 0x2700000027 (6009)%Z 0x0 0x160af000160b0;
  mkModel 0x2700000027 (6010)%Z 0x0 0x10fa900010fab;
  mkModel 0x2700000027 (6011)%Z 0x0 0x160b0000160b6;
  mkModel 0x2700000027 (6012)%Z 0x0 0x160b6000160bb;
  mkModel 0x2700000027 (6013)%Z 0x0 0x18000000182;
  mkModel 0x2700000027 (6014)%Z 0x0 0x160bb000160bf;
  mkModel 0x2700000027 (6015)%Z 0x0 0x160bf000160c6;
  mkModel 0x2700000027 (6016)%Z 0x0 0x160c6000160d0;
  mkModel 0x2700000027 (-1)%Z 0x160d0000160df 0x160df000160ee;
  mkModel 0x2700000027 (-1)%Z 0x160ee000160fb 0x160fb00016108;
  mkModel 0x2700000027 (6017)%Z 0x0 0x18000000182;
  mkModel 0x2a1000002a7 (6018)%Z 0x0 0x1610800016112;
  mkModel 0x2a1000002a7 (-1)%Z 0x161120001611a 0x1611a00016122;
  mkModel 0x2a1000002a7 (6019)%Z 0x0 0x161220001612a;
  mkModel 0x2a1000002a7 (6020)%Z 0x0 0x1612a00016134;
  mkModel 0x2a1000002a7 (6021)%Z 0x0 0x1613400016139;
  mkModel 0x2a1000002a7 (6022)%Z 0x0 0x1613900016143;
  mkModel 0x2a1000002a7 (6023)%Z 0x0 0x1614300016154;
  mkModel 0x2a1000002a7 (6024)%Z 0x0 0x1615400016163;
  mkModel 0x2a1000002a7 (6025)%Z 0x0 0x1616300016175;
  mkModel 0x2a1000002a7 (6026)%Z 0x0 0x161750001617d;
  mkModel 0x2a1000002a7 (6027)%Z 0x0 0x1617d00016187;
  mkModel 0x2a1000002a7 (6028)%Z 0x0 0x1618700016190;
  mkModel 0x2a1000002a7 (6029)%Z 0x0 0x1619000016195;
  mkModel 0x2a1000002a7 (6030)%Z 0x0 0x161950001619e;
  mkModel 0x2a1000002a7 (6031)%Z 0x0 0x1619e000161a3;
  mkModel 0x2a1000002a7 (6032)%Z 0x0 0x161a3000161a9;
  mkModel 0x2a1000002a7 (6033)%Z 0x0 0x161a9000161b4;
  mkModel 0x2700000027 (6034)%Z 0x0 0x18000000182;
  mkModel 0x0 (-1)%Z 0x0 0x18000000182;
  mkModel 0x2700000027 (6037)%Z 0x0 0x161c5000161cf;
  mkModel 0x2700000027 (-1)%Z 0x161cf000161e5 0x161e5000161fb;
  mkModel 0x2700000027 (6038)%Z 0x0 0x161fb00016200;
  mkModel 0x0 (-1)%Z 0x0 0x18000000182;
  mkModel 0x2a1000002a7 (6041)%Z 0x0 0x162140001621d;
  mkModel 0x2700000027 (6042)%Z 0x0 0x1621d00016226;
  mkModel 0x2700000027 (-1)%Z 0x162260001622e 0x1622e00016236;
  mkModel 0x2700000027 (-1)%Z 0x1623600016241 0x1624100016245;
  mkModel 0x2700000027 (-1)%Z 0x162450001624a 0x1624a0001624e;
  mkModel 0x2700000027 (6043)%Z 0x0 0x1624e00016258;
  mkModel 0x2700000027 (6044)%Z 0x0 0x1625800016261;
  mkModel 0x2700000027 (6045)%Z 0x0 0x1626100016267;
  mkModel 0x2700000027 (6046)%Z 0x0 0x162670001626b;
  mkModel 0x2700000027 (6047)%Z 0x0 0x1626b00016275;
  mkModel 0x2700000027 (6048)%Z 0x0 0x162750001627c;
  mkModel 0x2700000027 (6049)%Z 0x0 0x1627c00016283;
  mkModel 0x2700000027 (6050)%Z 0x0 0x18000000182;
  mkModel 0x2a1000002a7 (6051)%Z 0x0 0x162830001628b;
  mkModel 0x2700000027 (6053)%Z 0x0 0x16290000162a0;
  mkModel 0x2700000027 (6054)%Z 0x0 0x78670000786c;
  mkModel 0x2700000027 (6055)%Z 0x0 0x147000001475;
  mkModel 0x2700000027 (-1)%Z 0x162ad000162b2 0x162b2000162b8;
  mkModel 0x2700000027 (-1)%Z 0x162b8000162c3 0x162c3000162cc;
  mkModel 0x2700000027 (6056)%Z 0x0 0x18000000182;
  mkModel 0x0 (-1)%Z 0x0 0x18000000182;
  mkModel 0x0 (-1)%Z 0x0 0x18000000182;
  mkModel 0x2700000027 (-1)%Z 0x162dd000162e7 0x162e7000162eb;
  mkModel 0x2700000027 (6060)%Z 0x0 0x18000000182;
  mkModel 0x2700000027 (-1)%Z 0x162eb000162f9 0x162f900016301;
  mkModel 0x2700000027 (-1)%Z 0x163010001630e 0x1630e00016315;
  mkModel 0x2700000027 (-1)%Z 0x1631500016321 0x1632100016327;
  mkModel 0x2a1000002a7 (6061)%Z 0x0 0x18000000182;
  mkModel 0x2700000027 (6062)%Z 0x0 0x18000000182;
  mkModel 0x0 (-1)%Z 0x0 0x18000000182;
  mkModel 0x2700000027 (6065)%Z 0x0 0x1633300016339;
  mkModel 0x23b0000023d (6066)%Z 0x0 0x18000000182;
  mkModel 0x2700000027 (-1)%Z 0x1633e00016344 0x163440001634d;
  mkModel 0x2700000027 (6068)%Z 0x0 0x1634d00016356;
  mkModel 0x2700000027 (6069)%Z 0x0 0x163560001635e;
  mkModel 0x2700000027 (6070)%Z 0x0 0x1635e00016366;
  mkModel 0x2700000027 (-1)%Z 0x163660001636b 0x1636b00016371;
  mkModel 0x2700000027 (-1)%Z 0x1637100016376 0x163760001637c;
  mkModel 0x2700000027 (6071)%Z 0x0 0x1637c00016383;
  mkModel 0x2700000027 (-1)%Z 0x163880001638f 0x1638f00016396;
  mkModel 0x23f00000249 (-1)%Z 0x163960001639e 0x1639e000163a6;
  mkModel 0x2700000027 (6074)%Z 0x0 0x163a9000163b7;
  mkModel 0x2700000027 (6075)%Z 0x0 0x163b7000163bf;
  mkModel 0x2700000027 (6076)%Z 0x0 0x18000000182;
  mkModel 0x2700000027 (6077)%Z 0x0 0x18000000182;
  mkModel 0x2700000027 (6078)%Z 0x0 0x18000000182;
  mkModel 0x2a1000002a7 (6079)%Z 0x0 0x163bf000163cd;
  mkModel 0x2a1000002a7 (6080)%Z 0x0 0x163cd000163e6;
  mkModel 0x2a1000002a7 (6081)%Z 0x0 0x163e6000163f7;
  mkModel 0x2a1000002a7 (6082)%Z 0x0 0x163f700016407;
  mkModel 0x2a1000002a7 (6083)%Z 0x0 0x1640700016416;
  mkModel 0x2a1000002a7 (6084)%Z 0x0 0x1641600016425;
  mkModel 0x2a1000002a7 (6085)%Z 0x0 0x1642500016435;
  mkModel 0x2a1000002a7 (6086)%Z 0x0 0x1643500016445;
  mkModel 0x2a1000002a7 (6087)%Z 0x0 0x1644500016451;
  mkModel 0x2700000027 (6089)%Z 0x0 0x164550001645a;
  mkModel 0x0 (-1)%Z 0x0 0x18000000182;
  mkModel 0x0 (-1)%Z 0x0 0x18000000182;
  mkModel 0x2700000027 (-1)%Z 0x1646b00016479 0x1647900016480;
  mkModel 0x2700000027 (-1)%Z 0x164800001648a 0x1648a0001648d;
  mkModel 0x2700000027 (6093)%Z 0x0 0x18000000182;
  mkModel 0x0 (-1)%Z 0x0 0x18000000182;
  mkModel 0x0 (-1)%Z 0x0 0x18000000182;
  mkModel 0x0 (-1)%Z 0x0 0x18000000182;
  mkModel 0x2700000027 (-1)%Z 0x164a2000164b0 0x164b0000164bc;
  mkModel 0x2700000027 (6098)%Z 0x0 0x164bc000164c9;
  mkModel 0x2700000027 (-1)%Z 0x164c9000164d6 0x164d6000164e4;
  mkModel 0x2700000027 (6099)%Z 0x0 0x6b6d00006b72;
  mkModel 0x2700000027 (6100)%Z 0x0 0x6b6d00006b72;
  mkModel 0x2700000027 (6101)%Z 0x0 0x18000000182;
  mkModel 0x2700000027 (6102)%Z 0x0 0x18000000182;
  mkModel 0x0 (-1)%Z 0x0 0x18000000182;
  mkModel 0x2700000027 (-1)%Z 0x164f0000164ff 0x164f0000164ff;
  mkModel 0x2700000027 (-1)%Z 0x164ff0001650d 0x164ff0001650d;
  mkModel 0x0 (-1)%Z 0x0 0x18000000182;
  mkModel 0x2700000027 (6106)%Z 0x0 0x1651a00016524;
  mkModel 0x2700000027 (-1)%Z 0x165240001652c 0x1652c00016535;
  mkModel 0x2700000027 (-1)%Z 0x1653500016542 0x1654200016551;
  mkModel 0x2700000027 (6107)%Z 0x0 0x165510001655c;
  mkModel 0x2700000027 (6108)%Z 0x0 0x1655c00016562;
  mkModel 0x2700000027 (6109)%Z 0x0 0x1656200016569;
  mkModel 0x2700000027 (-1)%Z 0x165690001656f 0x1656f00016576;
  mkModel 0x2700000027 (6110)%Z 0x0 0x6dd000006dd4;
  mkModel 0x2700000027 (6111)%Z 0x0 0x1657600016581;
  mkModel 0x2700000027 (6112)%Z 0x0 0x165810001658a;
  mkModel 0x2700000027 (6113)%Z 0x0 0x1658a0001658e;
  mkModel 0x2700000027 (6114)%Z 0x0 0x1658e00016592;
  mkModel 0x2700000027 (6115)%Z 0x0 0x1659200016596;
  mkModel 0x2700000027 (6116)%Z 0x0 0x165960001659b;
  mkModel 0x2700000027 (6117)%Z 0x0 0x1659b000165a0;
  mkModel 0x2700000027 (-1)%Z 0x165a0000165a8 0x1139000011399;
  mkModel 0x2700000027 (-1)%Z 0x165a8000165af 0x165af000165b7;
  mkModel 0x2a1000002a7 (6118)%Z 0x0 0x18000000182;
  mkModel 0x2700000027 (6119)%Z 0x0 0x165b7000165be;
  mkModel 0x2700000027 (6120)%Z 0x0 0x18000000182;
  mkModel 0x0 (-1)%Z 0x0 0x165c3000165d1;
  mkModel 0x2700000027 (6123)%Z 0x0 0x165d5000165df;
  mkModel 0x2700000027 (6124)%Z 0x0 0x165df000165f0;
  mkModel 0x2700000027 (-1)%Z 0x165f0000165fc 0x165f0000165fc;
  mkModel 0x23b0000023d (6125)%Z 0x0 0x165fc00016602;
  mkModel 0x23b0000023d (6126)%Z 0x0 0x1660200016609;
  mkModel 0x23b0000023d (6127)%Z 0x0 0x1660900016611;
  mkModel 0x0 (-1)%Z 0x0 0x18000000182;
  mkModel 0x0 (-1)%Z 0x0 0x18000000182;
  mkModel 0x0 (-1)%Z 0x0 0x166220001662f
].
Definition d_dr_dm_40 : list modelTuple := [
  mkModel 0x2a1000002a7 (6132)%Z 0x0 0x166390001663e;
  mkModel 0x2700000027 (6133)%Z 0x0 0x4fd100004fd4;
  mkModel 0x2700000027 (6134)%Z 0x0 0xf1440000f147;
  mkModel 0x2700000027 (6135)%Z 0x0 0x88190000881b;
  mkModel 0x2700000027 (-1)%Z 0x1663e00016644 0x166440001664b;
  mkModel 0x2700000027 (-1)%Z 0x1664b00016651 0x655e00006560;
  mkModel 0x2700000027 (-1)%Z 0x1665100016657 0x166570001665a;
  mkModel 0x2700000027 (-1)%Z 0x1665a00016660 0x10fa900010fab;
  mkModel 0x2700000027 (-1)%Z 0x1666000016666 0x1666600016669;
  mkModel 0x2700000027 (-1)%Z 0x166690001666f 0x10fb200010fb4;
  mkModel 0x2700000027 (-1)%Z 0x1666f00016675 0xd7500000d77;
  mkModel 0x2700000027 (-1)%Z 0x166750001667b 0x1667b0001667e;
  mkModel 0x2700000027 (-1)%Z 0x1667e00016684 0x1668400016687;
  mkModel 0x2700000027 (-1)%Z 0x166870001668d 0x1668d00016690;
  mkModel 0x2700000027 (-1)%Z 0x1669000016696 0x166960001669a;
  mkModel 0x2700000027 (-1)%Z 0x1669a000166a0 0x166a0000166a3;
  mkModel 0x2700000027 (-1)%Z 0x166a3000166a9 0x166a9000166b0;
  mkModel 0x2700000027 (-1)%Z 0x166b0000166b6 0x166b6000166bd;
  mkModel 0x2700000027 (6136)%Z 0x0 0x18000000182;
  mkModel 0x2700000027 (-1)%Z 0x166c7000166cd 0x3a7000003a9;
  mkModel 0x2700000027 (6138)%Z 0x0 0x166cd000166d2;
  mkModel 0x2700000027 (-1)%Z 0x166d2000166db 0x14e8100014e86;
  mkModel 0x2700000027 (-1)%Z 0x166db000166e2 0x166e2000166e5;
  mkModel 0x2700000027 (-1)%Z 0x166e5000166ee 0x166ee000166f3;
  mkModel 0x2700000027 (-1)%Z 0x166f3000166fd 0x166fd00016703;
  mkModel 0x2700000027 (-1)%Z 0x167030001670f 0x1670f00016717;
  mkModel 0x2700000027 (-1)%Z 0x167170001671e 0x9cd700009cda;
  mkModel 0x2700000027 (-1)%Z 0x1671e00016725 0x1672500016728;
  mkModel 0x2700000027 (-1)%Z 0x167280001672f 0x1672f00016732;
  mkModel 0x2700000027 (-1)%Z 0x167320001673a 0x1673a0001673e;
  mkModel 0x2700000027 (-1)%Z 0x1673e00016749 0x1674900016750;
  mkModel 0x2700000027 (-1)%Z 0x1675000016758 0x167580001675c;
  mkModel 0x2700000027 (-1)%Z 0x1675c00016765 0x167650001676a;
  mkModel 0x2700000027 (6139)%Z 0x0 0x1676a0001676d;
  mkModel 0x2700000027 (-1)%Z 0x1676d00016776 0x167760001677b;
  mkModel 0x2700000027 (-1)%Z 0x1677b00016782 0x1678200016785;
  mkModel 0x2700000027 (-1)%Z 0x167850001678e 0x5b2600005b2b;
  mkModel 0x2700000027 (-1)%Z 0x1678e00016795 0xba080000ba0b;
  mkModel 0x2700000027 (-1)%Z 0x16795000167a0 0x167a0000167a7;
  mkModel 0x2700000027 (-1)%Z 0x167a7000167ab 0x156e0000156e4;
  mkModel 0x2700000027 (-1)%Z 0x167ab000167b0 0x12e1d00012e22;
  mkModel 0x2700000027 (6140)%Z 0x0 0x18000000182;
  mkModel 0x2700000027 (-1)%Z 0x167b0000167b5 0x167650001676a;
  mkModel 0x2700000027 (6142)%Z 0x0 0x167b9000167ca;
  mkModel 0x2700000027 (6143)%Z 0x0 0x167ca000167da;
  mkModel 0x2700000027 (-1)%Z 0x167da000167e4 0x167e4000167f3;
  mkModel 0x2700000027 (-1)%Z 0x167f3000167fd 0x167fd0001681b;
  mkModel 0x2700000027 (-1)%Z 0x1681b00016825 0x168250001682b;
  mkModel 0x2700000027 (-1)%Z 0x1682b00016835 0x168350001683a;
  mkModel 0x2700000027 (6145)%Z 0x0 0x1683f00016843;
  mkModel 0x2700000027 (6147)%Z 0x0 0x1684e00016853;
  mkModel 0x2700000027 (6148)%Z 0x0 0x1685300016859;
  mkModel 0x0 (-1)%Z 0x0 0x18000000182;
  mkModel 0x2700000027 (-1)%Z 0x1686800016873 0x1686800016873;
  mkModel 0x2700000027 (-1)%Z 0x168730001687d 0x1687d00016887;
  mkModel 0x2a1000002a7 (-1)%Z 0x1688700016895 0x16895000168a3;
  mkModel 0x2a1000002a7 (-1)%Z 0x168a3000168ab 0x168ab000168b3;
  mkModel 0x2a1000002a7 (-1)%Z 0x168b3000168ba 0x168ba000168c1;
  mkModel 0x2700000027 (-1)%Z 0x168c8000168d0 0x168d0000168d9;
  mkModel 0x0 (-1)%Z 0x0 0x6b6d00006b72;
  mkModel 0x2700000027 (6154)%Z 0x0 0x30d00000312;
  mkModel 0x2700000027 (6155)%Z 0x0 0x168e8000168ee;
  mkModel 0x2700000027 (6156)%Z 0x0 0x18000000182;
  mkModel 0x2700000027 (6157)%Z 0x0 0x84f1000084f8;
  mkModel 0x2700000027 (6158)%Z 0x0 0x168ee000168fb;
  mkModel 0x2700000027 (6160)%Z 0x0 0x169000001690d;
  mkModel 0x2700000027 (6161)%Z 0x0 0x1690d00016914;
  mkModel 0x2700000027 (6162)%Z 0x0 0x169140001691f;
  mkModel 0x2700000027 (6163)%Z 0x0 0x1691f00016930;
  mkModel 0x2700000027 (6164)%Z 0x0 0x1693000016942;
  mkModel 0x2700000027 (6165)%Z 0x0 0x1694200016953;
  mkModel 0x2700000027 (6166)%Z 0x0 0x169530001695f;
  mkModel 0x2700000027 (6167)%Z 0x0 0x1695f0001696c;
  mkModel 0x2700000027 (6168)%Z 0x0 0x1696c0001697d;
  mkModel 0x2700000027 (6169)%Z 0x0 0x1697d00016989;
  mkModel 0x2700000027 (6170)%Z 0x0 0x1698900016994;
  mkModel 0x2700000027 (6171)%Z 0x0 0x169940001699e;
  mkModel 0x2700000027 (6172)%Z 0x0 0x1699e000169a9;
  mkModel 0x2700000027 (-1)%Z 0x169a9000169b5 0x169b5000169c3;
  mkModel 0x2700000027 (6173)%Z 0x0 0x1231f00012327;
  mkModel 0x2700000027 (6174)%Z 0x0 0x18000000182;
  mkModel 0x2a1000002a7 (6175)%Z 0x0 0x169c3000169d6;
  mkModel 0x2a1000002a7 (6176)%Z 0x0 0x169d6000169ee;
  mkModel 0x2a1000002a7 (6177)%Z 0x0 0x169ee000169f8;
  mkModel 0x2a1000002a7 (6178)%Z 0x0 0x169f800016a03;
  mkModel 0x2a1000002a7 (6179)%Z 0x0 0x16a0300016a10;
  mkModel 0x2a1000002a7 (6180)%Z 0x0 0x16a1000016a1d;
  mkModel 0x0 (-1)%Z 0x0 0x18000000182;
  mkModel 0x0 (-1)%Z 0x0 0x18000000182;
  mkModel 0x2700000027 (6184)%Z 0x0 0x16a3200016a35;
  mkModel 0x2700000027 (6185)%Z 0x0 0x16a3500016a38;
  mkModel 0x2700000027 (-1)%Z 0x16a3800016a46 0x61240000612b;
  mkModel 0x2700000027 (-1)%Z 0x16a4600016a50 0xb44f0000b452;
  mkModel 0x2700000027 (6186)%Z 0x0 0x18000000182;
  mkModel 0x2700000027 (6188)%Z 0x0 0x16a5600016a58;
  mkModel 0x2700000027 (6189)%Z 0x0 0x1c8700001c89;
  mkModel 0x2700000027 (6190)%Z 0x0 0x18000000182;
  mkModel 0x0 (-1)%Z 0x0 0x558300005589;
  mkModel 0x2700000027 (6193)%Z 0x0 0x18000000182;
  mkModel 0x2700000027 (6194)%Z 0x0 0x16a6400016a71;
  mkModel 0x2700000027 (6195)%Z 0x0 0x16a7100016a7b;
  mkModel 0x2700000027 (-1)%Z 0x16a7b00016a81 0x16a8100016a8c;
  mkModel 0x0 (-1)%Z 0x0 0x16a9500016a9b;
  mkModel 0x0 (-1)%Z 0x0 0x18000000182;
  mkModel 0x2700000027 (6198)%Z 0x0 0x9a3a00009a3f;
  mkModel 0x2700000027 (6199)%Z 0x0 0x16aad00016ab4;
  mkModel 0x2700000027 (-1)%Z 0x16abb00016ac1 0x16ac100016acc;
  mkModel 0x0 (-1)%Z 0x0 0x16ad200016ada;
  mkModel 0x2700000027 (6201)%Z 0x0 0x18000000182;
  mkModel 0x2700000027 (6203)%Z 0x0 0xb1ba0000b1bc;
  mkModel 0x0 (-1)%Z 0x0 0x18000000182;
  mkModel 0x0 (-1)%Z 0x0 0x18000000182;
  mkModel 0x0 (-1)%Z 0x0 0x18000000182;
  mkModel 0x0 (-1)%Z 0x0 0x18000000182;
  mkModel 0x2700000027 (-1)%Z 0x16b1300016b1b 0x16b1b00016b24;
  mkModel 0x7cc000007d6 (-1)%Z 0x16b2400016b2c 0x16b2c00016b3a;
  mkModel 0x2700000027 (-1)%Z 0x16b3a00016b43 0x16b4300016b52;
  mkModel 0x2700000027 (6210)%Z 0x0 0x18000000182;
  mkModel 0x2a1000002a7 (-1)%Z 0x16b5800016b60 0x16b6000016b68;
  mkModel 0x0 (-1)%Z 0x0 0x18000000182;
  mkModel 0x0 (-1)%Z 0x0 0x18000000182;
  mkModel 0x2700000027 (6214)%Z 0x0 0x18000000182;
  mkModel 0x2a1000002a7 (6215)%Z 0x0 0x18000000182;
  mkModel 0x0 (-1)%Z 0x0 0x16b7e00016b84;
  mkModel 0x2700000027 (6218)%Z 0x0 0x18000000182;
  mkModel 0x2700000027 (6219)%Z 0x0 0x18000000182;
  mkModel 0x2700000027 (-1)%Z 0x16b9900016ba2 0x16b9900016ba2;
  mkModel 0x2700000027 (-1)%Z 0x16ba200016bad 0x16ba200016bad;
  mkModel 0x2700000027 (-1)%Z 0x16bad00016bb9 0x16bb900016bc5;
  mkModel 0x2700000027 (-1)%Z 0x16bc500016bcc 0x16bcc00016bd3;
  mkModel 0x2700000027 (-1)%Z 0x16bd300016bda 0x16bda00016bdc;
  mkModel 0x2700000027 (-1)%Z 0x16bdc00016be0 0x16bdc00016be0;
  mkModel 0x2700000027 (-1)%Z 0x16be000016bec 0x16be000016bec;
  mkModel 0x2700000027 (-1)%Z 0x16bec00016bf7 0x16bec00016bf7;
  mkModel 0x2700000027 (6221)%Z 0x0 0x16bf700016bfc;
  mkModel 0x2700000027 (6222)%Z 0x0 0x16bfc00016c01;
  mkModel 0x2700000027 (6223)%Z 0x0 0x18000000182;
  mkModel 0x2700000027 (6225)%Z 0x0 0x18000000182;
  mkModel 0x2700000027 (-1)%Z 0x16c0900016c12 0x16c1200016c1e;
  mkModel 0x2700000027 (-1)%Z 0x16c1e00016c27 0x16c2700016c2d;
  mkModel 0x2700000027 (-1)%Z 0x16c2d00016c37 0x16c3700016c3e;
  mkModel 0x2700000027 (-1)%Z 0x16c3e00016c48 0x16c4800016c4f;
  mkModel 0x2700000027 (-1)%Z 0x16c4f00016c5a 0x16c5a00016c62;
  mkModel 0x2700000027 (-1)%Z 0x16c6200016c6c 0x16c6c00016c74;
  mkModel 0x2700000027 (-1)%Z 0x16c7400016c7f 0x16c7f00016c86;
  mkModel 0x2700000027 (-1)%Z 0x16c8600016c92 0x16c9200016c9a;
  mkModel 0x2700000027 (-1)%Z 0x16c9a00016ca5 0x16ca500016cac;
  mkModel 0x2700000027 (-1)%Z 0x16cac00016cb4 0x16cb400016cbd;
  mkModel 0x2700000027 (-1)%Z 0x16cbd00016cc6 0x16cc600016cd3;
  mkModel 0x2700000027 (-1)%Z 0x16cd300016cdc 0x3f3100003f32;
  mkModel 0x2700000027 (-1)%Z 0x16cdc00016ce4 0x16ce400016ce8;
  mkModel 0x2700000027 (-1)%Z 0x16ce800016cee 0x16cee00016cf7;
  mkModel 0x2700000027 (6226)%Z 0x0 0xfcdb0000fce2;
  mkModel 0x0 (-1)%Z 0x0 0x18000000182;
  mkModel 0x2700000027 (6229)%Z 0x0 0x18000000182;
  mkModel 0x2700000027 (6230)%Z 0x0 0x18000000182;
  mkModel 0x2700000027 (6231)%Z 0x0 0x18000000182;
  mkModel 0x0 (-1)%Z 0x0 0x18000000182;
  mkModel 0x2700000027 (6234)%Z 0x0 0x18000000182;
  mkModel 0x2700000027 (6235)%Z 0x0 0x18000000182;
  mkModel 0x2700000027 (6236)%Z 0x0 0x18000000182;
  mkModel 0x2a1000002a7 (6237)%Z 0x0 0x18000000182;
  mkModel 0x2700000027 (6239)%Z 0x0 0x1453500014536;
  mkModel 0x2700000027 (6240)%Z 0x0 0x1cfb00001cfc;
  mkModel 0x2700000027 (6241)%Z 0x0 0x1d2d00001d2e;
  mkModel 0x2700000027 (6242)%Z 0x0 0x16d1f00016d20;
  mkModel 0x2700000027 (-1)%Z 0x16d2000016d27 0x1d3f00001d40;
  mkModel 0x2700000027 (6243)%Z 0x0 0x3f3100003f32;
  mkModel 0x2700000027 (-1)%Z 0x16d2700016d36 0x16d3600016d3f;
  mkModel 0x2700000027 (-1)%Z 0x16d3f00016d4b 0x16d4b00016d51;
  mkModel 0x2700000027 (6244)%Z 0x0 0x16d5100016d59;
  mkModel 0x2700000027 (6245)%Z 0x0 0x16d5900016d61;
  mkModel 0x2700000027 (6246)%Z 0x0 0x16d6100016d69;
  mkModel 0x2700000027 (-1)%Z 0x16d6900016d75 0x16d7500016d7b;
  mkModel 0x2700000027 (6247)%Z 0x0 0x16d7b00016d84;
  mkModel 0x2700000027 (-1)%Z 0x16d8400016d93 0x16d9300016d9b;
  mkModel 0x2700000027 (6248)%Z 0x0 0x16d9b00016d9d;
  mkModel 0x2700000027 (-1)%Z 0x16d9d00016da3 0x16da300016da7;
  mkModel 0x2700000027 (-1)%Z 0x16da700016dad 0x16dad00016db1;
  mkModel 0x2700000027 (-1)%Z 0x16db100016db7 0x16db700016dbb;
  mkModel 0x2700000027 (-1)%Z 0x16dbb00016dc1 0xac3d0000ac41;
  mkModel 0x2700000027 (-1)%Z 0x16dc100016dc8 0x16dc800016dcf;
  mkModel 0x2700000027 (-1)%Z 0x16dcf00016dd5 0xab6b0000ab6f;
  mkModel 0x2700000027 (-1)%Z 0x16dd500016ddc 0x16ddc00016de3;
  mkModel 0x2700000027 (6249)%Z 0x0 0x16de300016dea;
  mkModel 0x2700000027 (-1)%Z 0x16dea00016df4 0x16df400016df8;
  mkModel 0x2700000027 (6250)%Z 0x0 0x16df800016e00;
  mkModel 0x2700000027 (6251)%Z 0x0 0x16e0000016e10;
  mkModel 0x2700000027 (-1)%Z 0x16e1000016e19 0x16e1900016e1e;
  mkModel 0x2700000027 (-1)%Z 0x16e1e00016e27 0x16e2700016e2b;
  mkModel 0x2700000027 (-1)%Z 0x16e2b00016e37 0x16e3700016e47;
  mkModel 0x2700000027 (-1)%Z 0x16e4700016e59 0x16e5900016e62;
  mkModel 0x2700000027 (6252)%Z 0x0 0x16e6200016e6f;
  mkModel 0x2700000027 (-1)%Z 0x16e6f00016e7a 0x16e7a00016e7e;
  mkModel 0x2700000027 (-1)%Z 0x16e7e00016e89 0x16e8900016e8d;
  mkModel 0x2700000027 (-1)%Z 0x16e8d00016e98 0x16e9800016e9c;
  mkModel 0x2700000027 (-1)%Z 0x16e9c00016ea7 0x16ea700016eab;
  mkModel 0x2700000027 (-1)%Z 0x16eab00016eb6 0x16eb600016eba;
  mkModel 0x2700000027 (6253)%Z 0x0 0x16eba00016ec6;
  mkModel 0x2700000027 (6254)%Z 0x0 0x16ec600016ed0
].
Definition d_dr_dm_41 : list modelTuple := [
  mkModel 0x2700000027 (6255)%Z 0x0 0x16ed000016ed8;
  mkModel 0x2700000027 (6256)%Z 0x0 0x16ed800016edf;
  mkModel 0x2700000027 (6257)%Z 0x0 0x16edf00016ee8;
  mkModel 0x2700000027 (6258)%Z 0x0 0x18000000182;
  mkModel 0x2700000027 (6259)%Z 0x0 0x16ee800016eef;
  mkModel 0x2700000027 (6260)%Z 0x0 0x18000000182;
  mkModel 0x2700000027 (6261)%Z 0x0 0x16eef00016ef9;
  mkModel 0x2700000027 (6262)%Z 0x0 0x16ef900016f02;
  mkModel 0x2700000027 (6263)%Z 0x0 0x16f0200016f0b;
  mkModel 0x2700000027 (-1)%Z 0x16f0b00016f11 0x16f1100016f1a;
  mkModel 0x2700000027 (6264)%Z 0x0 0x16f1a00016f23;
  mkModel 0x2700000027 (6265)%Z 0x0 0x16f2300016f2c;
  mkModel 0x2700000027 (-1)%Z 0x16f2c00016f33 0x16f3300016f3c;
  mkModel 0x2700000027 (6266)%Z 0x0 0x16f3c00016f45;
  mkModel 0x2700000027 (6267)%Z 0x0 0x16f4500016f4f;
  mkModel 0x2700000027 (-1)%Z 0x16f4f00016f55 0x16f5500016f5e;
  mkModel 0x2700000027 (-1)%Z 0x16f5e00016f67 0x16f5e00016f67;
  mkModel 0x2700000027 (6268)%Z 0x0 0x16f6700016f70;
  mkModel 0x2700000027 (6269)%Z 0x0 0x16f7000016f7a;
  mkModel 0x2700000027 (6270)%Z 0x0 0x16f7a00016f83;
  mkModel 0x2700000027 (-1)%Z 0x16f8300016f8c 0x16f8c00016f95;
  mkModel 0x2700000027 (-1)%Z 0x16f9500016f9b 0x16f9b00016fa4;
  mkModel 0x2700000027 (6271)%Z 0x0 0x16fa400016fad;
  mkModel 0x2700000027 (6272)%Z 0x0 0x16fad00016fb6;
  mkModel 0x2700000027 (6273)%Z 0x0 0x16fb600016fbf;
  mkModel 0x2700000027 (-1)%Z 0x16fbf00016fc8 0x16fc800016fd2;
  mkModel 0x2700000027 (-1)%Z 0x16fd200016fd9 0x16fd900016fe2;
  mkModel 0x2700000027 (6274)%Z 0x0 0x16fe200016fec;
  mkModel 0x2700000027 (6275)%Z 0x0 0x16fec00016ff8;
  mkModel 0x2a1000002a7 (6276)%Z 0x0 0x16ff800016ffb;
  mkModel 0x23b0000023d (6277)%Z 0x0 0x16ffb00017007;
  mkModel 0x2700000027 (6278)%Z 0x0 0x18000000182;
  mkModel 0x2700000027 (6279)%Z 0x0 0x18000000182;
  mkModel 0x2700000027 (6280)%Z 0x0 0x8a5c00008a5f;
  mkModel 0x2700000027 (6281)%Z 0x0 0x18000000182;
  mkModel 0x2700000027 (6282)%Z 0x0 0x18000000182;
  mkModel 0x2700000027 (6283)%Z 0x0 0x18000000182;
  mkModel 0xdfd00000e04 (6284)%Z 0x0 0x18000000182;
  mkModel 0x2700000027 (6285)%Z 0x0 0x18000000182;
  mkModel 0x2700000027 (6286)%Z 0x0 0x18000000182;
  mkModel 0x2700000027 (-1)%Z 0x1700700017012 0x1701200017016;
  mkModel 0x2700000027 (6287)%Z 0x0 0x2700000027;
  mkModel 0x2700000027 (6288)%Z 0x0 0x18000000182;
  mkModel 0x2700000027 (6289)%Z 0x0 0x18000000182;
  mkModel 0x39a000003a7 (6290)%Z 0x0 0x18000000182;
  mkModel 0x2700000027 (6292)%Z 0x0 0x1701a00017020;
  mkModel 0x2700000027 (6293)%Z 0x0 0x1702000017025;
  mkModel 0x2700000027 (6294)%Z 0x0 0x170250001702b;
  mkModel 0x2700000027 (6295)%Z 0x0 0x1702b00017031;
  mkModel 0x2700000027 (6296)%Z 0x0 0x170310001703b;
  mkModel 0x2700000027 (6297)%Z 0x0 0x1703b00017049;
  mkModel 0x2700000027 (6298)%Z 0x0 0x170490001704f;
  mkModel 0x2700000027 (6299)%Z 0x0 0x1704f00017055;
  mkModel 0x2700000027 (6300)%Z 0x0 0x170550001705c;
  mkModel 0x2700000027 (6301)%Z 0x0 0x1705c00017062;
  mkModel 0x2700000027 (6302)%Z 0x0 0x1706200017068;
  mkModel 0x2700000027 (6303)%Z 0x0 0x170680001706e;
  mkModel 0x2700000027 (6304)%Z 0x0 0x1706e00017073;
  mkModel 0x2700000027 (6305)%Z 0x0 0x1707300017079;
  mkModel 0x2700000027 (6306)%Z 0x0 0x170790001707e;
  mkModel 0x2700000027 (6307)%Z 0x0 0x1707e00017084;
  mkModel 0x2700000027 (6308)%Z 0x0 0x170840001708b;
  mkModel 0x2700000027 (6309)%Z 0x0 0x1708b00017093;
  mkModel 0x2700000027 (6310)%Z 0x0 0x170930001709a;
  mkModel 0x2700000027 (6311)%Z 0x0 0x1709a000170a1;
  mkModel 0x2700000027 (6312)%Z 0x0 0x170a1000170a9;
  mkModel 0x2700000027 (6313)%Z 0x0 0x170a9000170b4;
  mkModel 0x2700000027 (6314)%Z 0x0 0xa0450000a04b;
  mkModel 0x2700000027 (6315)%Z 0x0 0x8a5900008a5c;
  mkModel 0x2700000027 (6316)%Z 0x0 0x5b2600005b2b;
  mkModel 0x2700000027 (6317)%Z 0x0 0x170b4000170b8;
  mkModel 0x2700000027 (6318)%Z 0x0 0x135780001357d;
  mkModel 0x2700000027 (6319)%Z 0x0 0x1940000019b;
  mkModel 0x23b0000023d (6320)%Z 0x0 0x18000000182;
  mkModel 0x2a1000002a7 (-1)%Z 0x170b8000170c6 0x170c6000170cd;
  mkModel 0x2a1000002a7 (6321)%Z 0x0 0x170cd000170d8;
  mkModel 0x2a1000002a7 (6322)%Z 0x0 0x170d8000170e3;
  mkModel 0x2a1000002a7 (6323)%Z 0x0 0x170e3000170ed;
  mkModel 0x2a1000002a7 (6324)%Z 0x0 0x170ed000170f7;
  mkModel 0x2a1000002a7 (6325)%Z 0x0 0x170f700017102;
  mkModel 0x2a1000002a7 (6326)%Z 0x0 0x1710200017111;
  mkModel 0x2a1000002a7 (6327)%Z 0x0 0x1711100017116;
  mkModel 0x2a1000002a7 (6328)%Z 0x0 0x171160001711f;
  mkModel 0x2a1000002a7 (6329)%Z 0x0 0x1711f00017126;
  mkModel 0x2a1000002a7 (6330)%Z 0x0 0x1712600017131;
  mkModel 0x2a1000002a7 (6331)%Z 0x0 0x171310001713b;
  mkModel 0x2a1000002a7 (6332)%Z 0x0 0x1713b0001714b;
  mkModel 0x2a1000002a7 (6333)%Z 0x0 0x1714b00017156;
  mkModel 0x2a1000002a7 (6334)%Z 0x0 0x1715600017165;
  mkModel 0x2a1000002a7 (6335)%Z 0x0 0x171650001716f;
  mkModel 0x2a1000002a7 (6336)%Z 0x0 0x1716f00017179;
  mkModel 0x2a1000002a7 (6337)%Z 0x0 0x1717900017184;
  mkModel 0x2a1000002a7 (6338)%Z 0x0 0x171840001718e;
  mkModel 0x2a1000002a7 (6339)%Z 0x0 0x106ca000106cf;
  mkModel 0x2a1000002a7 (6340)%Z 0x0 0x1718e00017199;
  mkModel 0x2a1000002a7 (6341)%Z 0x0 0x18000000182;
  mkModel 0x2700000027 (6342)%Z 0x0 0x18000000182;
  mkModel 0x2700000027 (6343)%Z 0x0 0x18000000182;
  mkModel 0x2700000027 (6345)%Z 0x0 0x1719d000171a0;
  mkModel 0x2700000027 (6346)%Z 0x0 0x11af200011af5;
  mkModel 0x2700000027 (6347)%Z 0x0 0x171a0000171a8;
  mkModel 0x2700000027 (6348)%Z 0x0 0x171a8000171ab;
  mkModel 0x2700000027 (6349)%Z 0x0 0x87ac000087b3;
  mkModel 0x2700000027 (6350)%Z 0x0 0x18000000182;
  mkModel 0x2700000027 (6351)%Z 0x0 0x18000000182;
  mkModel 0x0 (-1)%Z 0x0 0x18000000182;
  mkModel 0x2700000027 (6354)%Z 0x0 0x18000000182;
  mkModel 0x0 (-1)%Z 0x0 0x171d5000171e3;
  mkModel 0x2700000027 (6357)%Z 0x0 0x162e7000162eb;
  mkModel 0x2700000027 (6358)%Z 0x0 0x171e6000171ee;
  mkModel 0x2700000027 (6359)%Z 0x0 0x171ee000171f5;
  mkModel 0x2700000027 (6360)%Z 0x0 0x171f5000171f9;
  mkModel 0x2700000027 (6361)%Z 0x0 0x171f900017200;
  mkModel 0x2700000027 (6362)%Z 0x0 0x1720000017204;
  mkModel 0x2700000027 (6364)%Z 0x0 0x5e9500005e9c;
  mkModel 0x2700000027 (6365)%Z 0x0 0x1720b00017212;
  mkModel 0x2700000027 (-1)%Z 0x1721200017217 0x1721700017224;
  mkModel 0x2700000027 (6366)%Z 0x0 0x172240001722c;
  mkModel 0x2700000027 (-1)%Z 0x1722c00017231 0x172310001723d;
  mkModel 0x2700000027 (-1)%Z 0x1723d00017241 0x1724100017249;
  mkModel 0x2700000027 (6368)%Z 0x0 0x1724d00017253;
  mkModel 0x2700000027 (6369)%Z 0x0 0x18000000182;
  mkModel 0x2700000027 (6370)%Z 0x0 0x1726300017273;
  mkModel 0x2700000027 (6371)%Z 0x0 0x172730001727e;
  mkModel 0x0 (-1)%Z 0x0 0x18000000182;
  mkModel 0x2700000027 (6374)%Z 0x0 0x1728800017290;
  mkModel 0x2700000027 (6375)%Z 0x0 0x1729000017299;
  mkModel 0x2700000027 (-1)%Z 0x17299000172a0 0x17299000172a0;
  mkModel 0x2700000027 (6376)%Z 0x0 0x18000000182;
  mkModel 0x0 (-1)%Z 0x0 0x18000000182;
  mkModel 0x0 (-1)%Z 0x0 0x172ac000172b8;
  mkModel 0x0 (-1)%Z 0x0 0x18000000182;
  mkModel 0x2a1000002a7 (6381)%Z 0x0 0x172c5000172d9;
  mkModel 0x2a1000002a7 (-1)%Z 0x172d9000172de 0x172de000172ed;
  mkModel 0x2a1000002a7 (6382)%Z 0x0 0x172ed000172ff;
  mkModel 0x2700000027 (-1)%Z 0x172ff00017306 0x173060001730f;
  mkModel 0x2700000027 (-1)%Z 0x1730f00017315 0x173150001731c;
  mkModel 0x2700000027 (6383)%Z 0x0 0x1731c00017327;
  mkModel 0x2700000027 (-1)%Z 0x173270001732c 0x1732c00017332;
  mkModel 0x2700000027 (-1)%Z 0x1733200017338 0x1733800017340;
  mkModel 0x2700000027 (-1)%Z 0x1734000017345 0x173450001734a;
  mkModel 0x2700000027 (-1)%Z 0x1734a0001734f 0x1734f00017356;
  mkModel 0x2700000027 (-1)%Z 0x173560001735c 0x1735c00017368;
  mkModel 0x2700000027 (-1)%Z 0x173680001736e 0x1736e00017376;
  mkModel 0x2700000027 (-1)%Z 0x173760001737c 0x1737c0001737f;
  mkModel 0x2700000027 (-1)%Z 0x1737f00017385 0x173850001738e;
  mkModel 0x2700000027 (-1)%Z 0x1738e00017394 0x173940001739c;
  mkModel 0x2700000027 (-1)%Z 0x1739c000173a2 0x173a2000173ab;
  mkModel 0x2700000027 (-1)%Z 0x173ab000173b1 0x173b1000173b8;
  mkModel 0x2700000027 (-1)%Z 0x173b8000173be 0x173be000173c5;
  mkModel 0x2700000027 (-1)%Z 0x173c5000173cb 0x173cb000173d3;
  mkModel 0x2700000027 (-1)%Z 0x173d3000173d9 0x173d9000173e2;
  mkModel 0x2700000027 (-1)%Z 0x173e2000173e8 0x173e8000173f2;
  mkModel 0x2700000027 (-1)%Z 0x173f2000173f8 0x173f80001740e;
  mkModel 0x2700000027 (-1)%Z 0x1740e00017414 0x1741400017423;
  mkModel 0x2700000027 (-1)%Z 0x1742300017429 0x1742900017438;
  mkModel 0x2700000027 (-1)%Z 0x174380001743e 0x1743e0001744d;
  mkModel 0x2700000027 (-1)%Z 0x1744d00017453 0x1745300017463;
  mkModel 0x2700000027 (-1)%Z 0x1746300017469 0x1746900017479;
  mkModel 0x2700000027 (-1)%Z 0x174790001747f 0x1747f0001748f;
  mkModel 0x2700000027 (6384)%Z 0x0 0x1748f0001749a;
  mkModel 0x2700000027 (-1)%Z 0x1749a000174a0 0x174a0000174ab;
  mkModel 0x2700000027 (-1)%Z 0x174ab000174b1 0x174b1000174bd;
  mkModel 0x2700000027 (-1)%Z 0x174bd000174c3 0x174c3000174d1;
  mkModel 0x2700000027 (-1)%Z 0x174d1000174d7 0x174d7000174e2;
  mkModel 0x2700000027 (6385)%Z 0x0 0x174e2000174e9;
  mkModel 0x2700000027 (6386)%Z 0x0 0x174e9000174f1;
  mkModel 0x2700000027 (-1)%Z 0x174f1000174f7 0x174f7000174fa;
  mkModel 0x2700000027 (-1)%Z 0x174fa00017500 0x1750000017502;
  mkModel 0x2700000027 (-1)%Z 0x1750200017508 0x175080001750f;
  mkModel 0x2700000027 (-1)%Z 0x1750f00017515 0x175150001751b;
  mkModel 0x2700000027 (-1)%Z 0x1751b00017521 0x1752100017523;
  mkModel 0x2700000027 (6387)%Z 0x0 0x175230001752a;
  mkModel 0x2700000027 (6388)%Z 0x0 0x1752a00017530;
  mkModel 0x2700000027 (-1)%Z 0x1753000017536 0x1753600017541;
  mkModel 0x2700000027 (-1)%Z 0x1754100017547 0x175470001754a;
  mkModel 0x2700000027 (-1)%Z 0x1754a00017553 0x175530001755a;
  mkModel 0x2700000027 (6389)%Z 0x0 0x1755a00017564;
  mkModel 0x2700000027 (6390)%Z 0x0 0x175640001756c;
  mkModel 0x2700000027 (-1)%Z 0x1756c00017572 0x1757200017575;
  mkModel 0x2700000027 (-1)%Z 0x175750001757b 0x1757b0001757f;
  mkModel 0x2700000027 (-1)%Z 0x1757f00017585 0x175850001758d;
  mkModel 0x2700000027 (-1)%Z 0x1758d00017593 0x1457b0001457d;
  mkModel 0x2700000027 (-1)%Z 0x1759300017599 0x175990001759c;
  mkModel 0x2700000027 (6391)%Z 0x0 0x1759c000175a4;
  mkModel 0x2700000027 (-1)%Z 0x175a4000175aa 0x175aa000175b4;
  mkModel 0x2700000027 (-1)%Z 0x175b4000175ba 0x175ba000175c2;
  mkModel 0x2700000027 (-1)%Z 0x175c2000175c8 0x175c8000175cc;
  mkModel 0x2700000027 (-1)%Z 0x175cc000175d2 0x175d2000175d5;
  mkModel 0x2700000027 (-1)%Z 0x175d5000175db 0x175db000175de;
  mkModel 0x2700000027 (-1)%Z 0x175de000175e4 0x175e4000175ec;
  mkModel 0x2700000027 (-1)%Z 0x175ec000175f2 0x175f2000175fb;
  mkModel 0x2700000027 (-1)%Z 0x175fb00017601 0xca0c0000ca0e;
  mkModel 0x2700000027 (-1)%Z 0x1760100017607 0x1760700017610;
  mkModel 0x2700000027 (-1)%Z 0x1761000017616 0x1761600017622;
  mkModel 0x2700000027 (-1)%Z 0x1762200017628 0x135170001351b;
  mkModel 0x2700000027 (-1)%Z 0x176280001762e 0x1762e00017635;
  mkModel 0x2700000027 (-1)%Z 0x176350001763b 0x1763b00017642;
  mkModel 0x2700000027 (-1)%Z 0x1764200017648 0x176480001764a;
  mkModel 0x2700000027 (-1)%Z 0x1764a00017650 0x1765000017657
].
Definition d_dr_dm_42 : list modelTuple := [
  mkModel 0x2700000027 (-1)%Z 0x176570001765d 0x1765d0001765f;
  mkModel 0x2700000027 (6392)%Z 0x0 0x1765f00017661;
  mkModel 0x2700000027 (-1)%Z 0x176610001766b 0x1766b0001766e;
  mkModel 0x2700000027 (6393)%Z 0x0 0x18000000182;
  mkModel 0x2700000027 (6395)%Z 0x0 0x18000000182;
  mkModel 0x2700000027 (6396)%Z 0x0 0x18000000182;
  mkModel 0x2700000027 (6397)%Z 0x0 0x1767200017676;
  mkModel 0x2700000027 (-1)%Z 0x1767c0001768b 0x1768b0001769b;
  mkModel 0x2700000027 (6399)%Z 0x0 0x1769b000176a8;
  mkModel 0x2700000027 (6400)%Z 0x0 0x18000000182;
  mkModel 0x23b0000023d (6401)%Z 0x0 0x176a8000176b9;
  mkModel 0x23b0000023d (-1)%Z 0x176b9000176cf 0x176cf000176dc;
  mkModel 0x23b0000023d (-1)%Z 0x176dc000176e9 0x176e9000176f2;
  mkModel 0x1060000010d (-1)%Z 0x176f2000176f8 0x176f800017707;
  mkModel 0x2700000027 (6403)%Z 0x0 0x18000000182;
  mkModel 0x2700000027 (6404)%Z 0x0 0x177090001770c;
  mkModel 0x2700000027 (6405)%Z 0x0 0x1770c00017716;
  mkModel 0x2700000027 (6406)%Z 0x0 0x177160001771c;
  mkModel 0x2700000027 (6407)%Z 0x0 0x1771c0001772e;
  mkModel 0x2700000027 (6408)%Z 0x0 0x1772e0001773c;
  mkModel 0x2700000027 (6409)%Z 0x0 0x1773c00017745;
  mkModel 0x2700000027 (6410)%Z 0x0 0x26000000263;
  mkModel 0x2a1000002a7 (6411)%Z 0x0 0x1774500017750;
  mkModel 0x2a1000002a7 (6412)%Z 0x0 0x1775000017756;
  mkModel 0x23b0000023d (6414)%Z 0x0 0x62270000622d;
  mkModel 0x2700000027 (6415)%Z 0x0 0x18000000182;
  mkModel 0x2700000027 (6416)%Z 0x0 0x18000000182;
  mkModel 0x39a000003a7 (6417)%Z 0x0 0x18000000182;
  mkModel 0x2700000027 (6418)%Z 0x0 0x18000000182;
  mkModel 0x2700000027 (6419)%Z 0x0 0x18000000182;
  mkModel 0x0 (-1)%Z 0x0 0x18000000182;
  mkModel 0x0 (-1)%Z 0x0 0x18000000182;
  mkModel 0x0 (-1)%Z 0x0 0x18000000182;
  mkModel 0x2700000027 (-1)%Z 0x1776a0001776f 0x106ca000106cf;
  mkModel 0x2700000027 (6424)%Z 0x0 0x1776f00017776;
  mkModel 0x2700000027 (6426)%Z 0x0 0x18000000182;
  mkModel 0x2700000027 (-1)%Z 0x1777e00017786 0x1777e00017786;
  mkModel 0x2700000027 (-1)%Z 0x177860001778c 0x177860001778c;
  mkModel 0x2700000027 (-1)%Z 0x1778c00017793 0x1778c00017793;
  mkModel 0x2700000027 (6428)%Z 0x0 0x2ac600002ac9;
  mkModel 0x2700000027 (6430)%Z 0x0 0x18000000182;
  mkModel 0x23b0000023d (6431)%Z 0x0 0x18000000182;
  mkModel 0x23b0000023d (-1)%Z 0x17796000177a1 0x177a1000177ac;
  mkModel 0x2700000027 (6433)%Z 0x0 0x18000000182;
  mkModel 0x2700000027 (6434)%Z 0x0 0x18000000182;
  mkModel 0x2700000027 (6435)%Z 0x0 0x177b0000177be;
  mkModel 0x2700000027 (-1)%Z 0xa7270000a72f 0xe3400000e3c;
  mkModel 0x2700000027 (6437)%Z 0x0 0x177c7000177cf;
  mkModel 0x2700000027 (-1)%Z 0x177cf000177d7 0x177d7000177e1;
  mkModel 0x2700000027 (-1)%Z 0x177e1000177eb 0x136360001363e;
  mkModel 0x2700000027 (-1)%Z 0x177eb000177f4 0x177f400017803;
  mkModel 0x2700000027 (-1)%Z 0x178030001780b 0x1780b00017815;
  mkModel 0x2700000027 (-1)%Z 0x178150001781f 0x1781f0001782b;
  mkModel 0x2700000027 (-1)%Z 0x1782b00017835 0x1783500017841;
  mkModel 0x2700000027 (-1)%Z 0x1784100017846 0x178460001784c;
  mkModel 0x2700000027 (-1)%Z 0x1784c00017851 0x1785100017857;
  mkModel 0x2700000027 (6438)%Z 0x0 0x1785700017862;
  mkModel 0x2700000027 (6439)%Z 0x0 0x178620001786e;
  mkModel 0x2700000027 (-1)%Z 0x1786e00017877 0x1786e00017877;
  mkModel 0x2700000027 (6440)%Z 0x0 0x178770001787f;
  mkModel 0x2700000027 (6441)%Z 0x0 0x1787f00017888;
  mkModel 0x2700000027 (-1)%Z 0x1788800017890 0x1789000017896;
  mkModel 0x2700000027 (-1)%Z 0x178960001789d 0x1789d000178a4;
  mkModel 0x2700000027 (-1)%Z 0x178a4000178ac 0x178ac000178b6;
  mkModel 0x2700000027 (-1)%Z 0x178b6000178c0 0x178c0000178ce;
  mkModel 0x2700000027 (6442)%Z 0x0 0x178ce000178dd;
  mkModel 0x2700000027 (6443)%Z 0x0 0x178dd000178e9;
  mkModel 0x2700000027 (-1)%Z 0x178e9000178f5 0x178f500017904;
  mkModel 0x2700000027 (6445)%Z 0x0 0x179080001790b;
  mkModel 0x2700000027 (6446)%Z 0x0 0x1790b00017911;
  mkModel 0x2700000027 (-1)%Z 0x179110001791a 0x1791a00017920;
  mkModel 0x2700000027 (6447)%Z 0x0 0x1792000017926;
  mkModel 0x2700000027 (6448)%Z 0x0 0x179260001792c;
  mkModel 0x2700000027 (-1)%Z 0x1792c00017933 0x1793300017936;
  mkModel 0x2700000027 (-1)%Z 0x179360001793d 0x1793d00017940;
  mkModel 0x2700000027 (-1)%Z 0x1794000017946 0x179460001794c;
  mkModel 0x2700000027 (-1)%Z 0x1794c00017952 0x1795200017957;
  mkModel 0x2700000027 (-1)%Z 0x179570001795d 0x1795d00017966;
  mkModel 0x2700000027 (6449)%Z 0x0 0x179660001796b;
  mkModel 0x2700000027 (-1)%Z 0x1796b00017971 0x1797100017977;
  mkModel 0x2700000027 (6450)%Z 0x0 0x1797700017980;
  mkModel 0x2700000027 (-1)%Z 0x1798000017987 0x179870001798d;
  mkModel 0x2700000027 (6451)%Z 0x0 0x1798d00017996;
  mkModel 0x2700000027 (-1)%Z 0x179960001799c 0x1799c000179a5;
  mkModel 0x2700000027 (6452)%Z 0x0 0x179a5000179a9;
  mkModel 0x2700000027 (6453)%Z 0x0 0x179a9000179ac;
  mkModel 0x2700000027 (6454)%Z 0x0 0x179ac000179b0;
  mkModel 0x2700000027 (6455)%Z 0x0 0x179b0000179b4;
  mkModel 0x2700000027 (-1)%Z 0x179b4000179bb 0x179bb000179bf;
  mkModel 0x2700000027 (6456)%Z 0x0 0x179bf000179c3;
  mkModel 0x2700000027 (-1)%Z 0x179c3000179ca 0x179ca000179cd;
  mkModel 0x2700000027 (-1)%Z 0x179cd000179d4 0x179d4000179d8;
  mkModel 0x2700000027 (-1)%Z 0x179d8000179df 0x166570001665a;
  mkModel 0x2700000027 (-1)%Z 0x179df000179e5 0x179a5000179a9;
  mkModel 0x2700000027 (-1)%Z 0x179e5000179ec 0x179ec000179ef;
  mkModel 0x2700000027 (-1)%Z 0x179ef000179f6 0x179f6000179fa;
  mkModel 0x2700000027 (-1)%Z 0x179fa00017a01 0x17a0100017a04;
  mkModel 0x2700000027 (6457)%Z 0x0 0x17a0400017a07;
  mkModel 0x2700000027 (-1)%Z 0x17a0700017a0e 0x17a0e00017a11;
  mkModel 0x2700000027 (6458)%Z 0x0 0x193300001935;
  mkModel 0x2700000027 (6459)%Z 0x0 0x17a1100017a17;
  mkModel 0x2700000027 (6460)%Z 0x0 0x17a1700017a1b;
  mkModel 0x2700000027 (6461)%Z 0x0 0x17a1b00017a1e;
  mkModel 0x2700000027 (6462)%Z 0x0 0x17a1e00017a21;
  mkModel 0x2700000027 (6463)%Z 0x0 0x17a2100017a24;
  mkModel 0x2700000027 (6464)%Z 0x0 0x17a2400017a27;
  mkModel 0x2700000027 (6465)%Z 0x0 0x17a2700017a2a;
  mkModel 0x2700000027 (6466)%Z 0x0 0x6a7700006a7a;
  mkModel 0x2700000027 (6467)%Z 0x0 0x196000001962;
  mkModel 0x2700000027 (-1)%Z 0x17a2a00017a30 0x17a3000017a39;
  mkModel 0x2700000027 (-1)%Z 0x17a3900017a3f 0x17a3f00017a44;
  mkModel 0x2700000027 (-1)%Z 0x17a4400017a4b 0x17a4b00017a54;
  mkModel 0x2700000027 (6468)%Z 0x0 0x17a5400017a5d;
  mkModel 0x2700000027 (6469)%Z 0x0 0x17a5d00017a63;
  mkModel 0x2700000027 (6470)%Z 0x0 0x17a6300017a66;
  mkModel 0x2700000027 (6471)%Z 0x0 0x17a6600017a69;
  mkModel 0x2700000027 (6472)%Z 0x0 0x17a6900017a6c;
  mkModel 0x2700000027 (6473)%Z 0x0 0x17a6c00017a6f;
  mkModel 0x2700000027 (6474)%Z 0x0 0x17a6f00017a73;
  mkModel 0x2700000027 (6475)%Z 0x0 0x17a7300017a7a;
  mkModel 0x2700000027 (6476)%Z 0x0 0x17a7a00017a80;
  mkModel 0x2700000027 (6477)%Z 0x0 0x17a8000017a83;
  mkModel 0x2700000027 (6478)%Z 0x0 0x17a8300017a87;
  mkModel 0x2700000027 (6479)%Z 0x0 0x17a8700017a8d;
  mkModel 0x2700000027 (-1)%Z 0x17a8d00017a94 0x17a9400017a97;
  mkModel 0x2700000027 (6480)%Z 0x0 0x17a9700017a9a;
  mkModel 0x2700000027 (-1)%Z 0x17a9a00017aa1 0x17aa100017aa7;
  mkModel 0x2700000027 (6481)%Z 0x0 0x17aa700017aae;
  mkModel 0x2700000027 (-1)%Z 0x17aae00017ab4 0x17ab400017aba;
  mkModel 0x2700000027 (6482)%Z 0x0 0x17aba00017abd;
  mkModel 0x2700000027 (6483)%Z 0x0 0x17abd00017ac7;
  mkModel 0x2700000027 (-1)%Z 0x17ac700017acd 0x1791a00017920;
  mkModel 0x2700000027 (-1)%Z 0x17acd00017ad4 0x17ad400017ad7;
  mkModel 0x2700000027 (-1)%Z 0x17ad700017add 0x17add00017ae0;
  mkModel 0x2700000027 (-1)%Z 0x17ae000017ae6 0x17ae600017ae9;
  mkModel 0x2700000027 (6484)%Z 0x0 0x17ae900017aec;
  mkModel 0x2700000027 (-1)%Z 0x17aec00017af3 0x17af300017af6;
  mkModel 0x2700000027 (-1)%Z 0x17af600017afd 0x17afd00017b04;
  mkModel 0x2700000027 (6485)%Z 0x0 0x197700001979;
  mkModel 0x2700000027 (6486)%Z 0x0 0x17b0400017b07;
  mkModel 0x2700000027 (6487)%Z 0x0 0x17b0700017b11;
  mkModel 0x2700000027 (6488)%Z 0x0 0xf9b80000f9bb;
  mkModel 0x2700000027 (6489)%Z 0x0 0x17b1100017b17;
  mkModel 0x2700000027 (6490)%Z 0x0 0x17b1700017b1a;
  mkModel 0x2700000027 (6491)%Z 0x0 0x17b1a00017b20;
  mkModel 0x2700000027 (6492)%Z 0x0 0x17b2000017b27;
  mkModel 0x2700000027 (-1)%Z 0x17b2700017b2e 0x17b2e00017b31;
  mkModel 0x2700000027 (6493)%Z 0x0 0x17b3100017b34;
  mkModel 0x2700000027 (6494)%Z 0x0 0x17b3400017b3a;
  mkModel 0x2700000027 (6495)%Z 0x0 0x17b3a00017b40;
  mkModel 0x2700000027 (6496)%Z 0x0 0x17b4000017b43;
  mkModel 0x2700000027 (6497)%Z 0x0 0x17b4300017b46;
  mkModel 0x2700000027 (6498)%Z 0x0 0x17b4600017b4c;
  mkModel 0x2700000027 (6499)%Z 0x0 0x17b4c00017b50;
  mkModel 0x2700000027 (6500)%Z 0x0 0x17b5000017b53;
  mkModel 0x2700000027 (6501)%Z 0x0 0x17b5300017b56;
  mkModel 0x2700000027 (6502)%Z 0x0 0x12aca00012acc;
  mkModel 0x2700000027 (6503)%Z 0x0 0x17b5600017b59;
  mkModel 0x2700000027 (6504)%Z 0x0 0x17b5900017b63;
  mkModel 0x2700000027 (6505)%Z 0x0 0x4a5000004a7;
  mkModel 0x2700000027 (6506)%Z 0x0 0x17b6300017b6c;
  mkModel 0x2700000027 (6507)%Z 0x0 0x79070000790a;
  mkModel 0x2700000027 (6508)%Z 0x0 0x17b6c00017b6f;
  mkModel 0x2700000027 (6509)%Z 0x0 0x17b6f00017b73;
  mkModel 0x2700000027 (6510)%Z 0x0 0x17b7300017b76;
  mkModel 0x2700000027 (6511)%Z 0x0 0x17b7600017b7a;
  mkModel 0x2700000027 (-1)%Z 0x17b7a00017b80 0x17b8000017b86;
  mkModel 0x2700000027 (-1)%Z 0x17b8600017b8d 0x17b8d00017b93;
  mkModel 0x2700000027 (6512)%Z 0x0 0x17b9300017b96;
  mkModel 0x2700000027 (6513)%Z 0x0 0x17ae600017ae9;
  mkModel 0x2700000027 (6514)%Z 0x0 0x17b1a00017b20;
  mkModel 0x2700000027 (-1)%Z 0x17b9600017b9c 0x17b9c00017ba2;
  mkModel 0x2700000027 (6515)%Z 0x0 0x17ba200017ba8;
  mkModel 0x2700000027 (6516)%Z 0x0 0x17ba800017bab;
  mkModel 0x2700000027 (6517)%Z 0x0 0x17bab00017bae;
  mkModel 0x2700000027 (6518)%Z 0x0 0x17bae00017bb2;
  mkModel 0x2700000027 (6519)%Z 0x0 0x17bb200017bb5;
  mkModel 0x2700000027 (-1)%Z 0x17bb500017bbc 0x17bbc00017bc3;
  mkModel 0x2700000027 (6520)%Z 0x0 0x17bc300017bcb;
  mkModel 0x2700000027 (6521)%Z 0x0 0x17bcb00017bd2;
  mkModel 0x2700000027 (-1)%Z 0x17bd200017bd9 0x17bd900017bdf;
  mkModel 0x2700000027 (-1)%Z 0x17bdf00017be6 0x17be600017bef;
  mkModel 0x2700000027 (-1)%Z 0x17bef00017bf6 0x17bf600017c01;
  mkModel 0x2700000027 (6522)%Z 0x0 0x17c0100017c04;
  mkModel 0x2700000027 (6523)%Z 0x0 0x17c0400017c0b;
  mkModel 0x2700000027 (6524)%Z 0x0 0x17c0b00017c0e;
  mkModel 0x2700000027 (6525)%Z 0x0 0x17c0e00017c15;
  mkModel 0x2700000027 (6526)%Z 0x0 0x17c1500017c18;
  mkModel 0x2700000027 (6527)%Z 0x0 0x17c1800017c1a;
  mkModel 0x2700000027 (6528)%Z 0x0 0x17c1a00017c21;
  mkModel 0x2700000027 (6529)%Z 0x0 0x1380d0001380f;
  mkModel 0x2700000027 (6530)%Z 0x0 0x17c2100017c29;
  mkModel 0x2700000027 (6531)%Z 0x0 0x78fc000078fe;
  mkModel 0x2700000027 (-1)%Z 0x17c2900017c31 0x17c2900017c31;
  mkModel 0x2700000027 (6532)%Z 0x0 0x17c3100017c33;
  mkModel 0x2700000027 (6533)%Z 0x0 0x17c3300017c39;
  mkModel 0x2700000027 (6534)%Z 0x0 0x17c3900017c3d;
  mkModel 0x2700000027 (6535)%Z 0x0 0x17c3d00017c44;
  mkModel 0x2700000027 (6536)%Z 0x0 0x17c4400017c50;
  mkModel 0x2700000027 (6537)%Z 0x0 0x17c5000017c56
].
Definition d_dr_dm_43 : list modelTuple := [
  mkModel 0x2700000027 (6538)%Z 0x0 0x17c5600017c61;
  mkModel 0x2700000027 (6539)%Z 0x0 0x17c6100017c67;
  mkModel 0x2700000027 (6540)%Z 0x0 0x17c6700017c6e;
  mkModel 0x2700000027 (6541)%Z 0x0 0x17c6e00017c77;
  mkModel 0x2700000027 (6542)%Z 0x0 0x17c7700017c7d;
  mkModel 0x2700000027 (6543)%Z 0x0 0x17c7d00017c84;
  mkModel 0x2700000027 (6544)%Z 0x0 0x17c8400017c90;
  mkModel 0x2700000027 (6545)%Z 0x0 0x17c9000017c9c;
  mkModel 0x2700000027 (6546)%Z 0x0 0x17c9c00017ca3;
  mkModel 0x2700000027 (6547)%Z 0x0 0x17ca300017caa;
  mkModel 0x2700000027 (6548)%Z 0x0 0x17caa00017cb5;
  mkModel 0x2700000027 (6549)%Z 0x0 0x17cb500017cc0;
  mkModel 0x2700000027 (6550)%Z 0x0 0x17cc000017ccb;
  mkModel 0x2700000027 (6551)%Z 0x0 0x17ccb00017cd4;
  mkModel 0x2700000027 (6552)%Z 0x0 0x17cd400017cde;
  mkModel 0x2700000027 (6553)%Z 0x0 0x17cde00017ce5;
  mkModel 0x2700000027 (6554)%Z 0x0 0x17ce500017ceb;
  mkModel 0x2700000027 (6555)%Z 0x0 0x17ceb00017cfd;
  mkModel 0x2700000027 (6556)%Z 0x0 0x17cfd00017d04;
  mkModel 0x2700000027 (6557)%Z 0x0 0x17d0400017d10;
  mkModel 0x2700000027 (6558)%Z 0x0 0x17d1000017d1b;
  mkModel 0x2700000027 (6559)%Z 0x0 0x17d1b00017d22;
  mkModel 0x2700000027 (6560)%Z 0x0 0x17d2200017d2d;
  mkModel 0x2700000027 (6561)%Z 0x0 0x17d2d00017d38;
  mkModel 0x2700000027 (6562)%Z 0x0 0x17d3800017d44;
  mkModel 0x2700000027 (6563)%Z 0x0 0x17d4400017d4b;
  mkModel 0x2700000027 (6564)%Z 0x0 0x17d4b00017d56;
  mkModel 0x2700000027 (-1)%Z 0x17d5600017d5c 0x17d5c00017d67;
  mkModel 0x2700000027 (-1)%Z 0x17d6700017d6d 0x17d6d00017d74;
  mkModel 0x2700000027 (-1)%Z 0x17d7400017d7a 0x17d7a00017d81;
  mkModel 0x2700000027 (-1)%Z 0x17d8100017d87 0x17d8700017d94;
  mkModel 0x2700000027 (-1)%Z 0x17d9400017d9a 0x17d9a00017daa;
  mkModel 0x2700000027 (6565)%Z 0x0 0x17daa00017db5;
  mkModel 0x2700000027 (6566)%Z 0x0 0x17db500017dc2;
  mkModel 0x2700000027 (6567)%Z 0x0 0x17dc200017dc9;
  mkModel 0x2700000027 (-1)%Z 0x17dc900017dcf 0x17dcf00017dd7;
  mkModel 0x2700000027 (-1)%Z 0x17dd700017ddd 0x17ddd00017de6;
  mkModel 0x2700000027 (6568)%Z 0x0 0x17de600017dee;
  mkModel 0x2700000027 (6569)%Z 0x0 0xb1ba0000b1bc;
  mkModel 0x2700000027 (6570)%Z 0x0 0x5b1000005b3;
  mkModel 0x2700000027 (6571)%Z 0x0 0x116f5000116f7;
  mkModel 0x2700000027 (6572)%Z 0x0 0x115ca000115cc;
  mkModel 0x2700000027 (6573)%Z 0x0 0x17dee00017dfa;
  mkModel 0x2700000027 (6574)%Z 0x0 0x17dfa00017dfd;
  mkModel 0x2700000027 (6575)%Z 0x0 0x17dfd00017e00;
  mkModel 0x2700000027 (6576)%Z 0x0 0x17e0000017e04;
  mkModel 0x2700000027 (6577)%Z 0x0 0x1170b0001170e;
  mkModel 0x2700000027 (6578)%Z 0x0 0x17e0400017e0a;
  mkModel 0x2700000027 (6579)%Z 0x0 0x17e0a00017e0d;
  mkModel 0x2700000027 (6580)%Z 0x0 0x17e0d00017e17;
  mkModel 0x2700000027 (6581)%Z 0x0 0x17e1700017e1d;
  mkModel 0x2700000027 (6582)%Z 0x0 0x17e1d00017e24;
  mkModel 0x2700000027 (6583)%Z 0x0 0x17e2400017e29;
  mkModel 0x2700000027 (6584)%Z 0x0 0x17e2900017e32;
  mkModel 0x2700000027 (6585)%Z 0x0 0x17e3200017e39;
  mkModel 0x2700000027 (6586)%Z 0x0 0x17e3900017e3f;
  mkModel 0x2700000027 (6587)%Z 0x0 0x17e3f00017e47;
  mkModel 0x2700000027 (6588)%Z 0x0 0x17e4700017e4e;
  mkModel 0x2700000027 (-1)%Z 0x17e4e00017e55 0x17e5500017e5b;
  mkModel 0x2700000027 (-1)%Z 0x17e5b00017e61 0x17e6100017e71;
  mkModel 0x2700000027 (-1)%Z 0x17e7100017e77 0x17e7700017e83;
  mkModel 0x2700000027 (6589)%Z 0x0 0x17e8300017e8a;
  mkModel 0x2700000027 (6590)%Z 0x0 0x1765f00017661;
  mkModel 0x2700000027 (6591)%Z 0x0 0x1500a0001500d;
  mkModel 0x2700000027 (6592)%Z 0x0 0x17e8a00017e8f;
  mkModel 0x2700000027 (6593)%Z 0x0 0x17e8f00017e94;
  mkModel 0x2700000027 (6594)%Z 0x0 0x17e9400017e99;
  mkModel 0x2700000027 (6595)%Z 0x0 0x17e9900017e9f;
  mkModel 0x2700000027 (6596)%Z 0x0 0x17e9f00017ea4;
  mkModel 0x2700000027 (6597)%Z 0x0 0x17ea400017ea7;
  mkModel 0x2700000027 (6598)%Z 0x0 0x17ea700017eaf;
  mkModel 0x2700000027 (6599)%Z 0x0 0x17eaf00017eb2;
  mkModel 0x2700000027 (6600)%Z 0x0 0x17eb200017eb5;
  mkModel 0x2700000027 (6601)%Z 0x0 0x17eb500017ebe;
  mkModel 0x2700000027 (6602)%Z 0x0 0x17ebe00017ec2;
  mkModel 0x2700000027 (6603)%Z 0x0 0x17ec200017ec5;
  mkModel 0x2700000027 (6604)%Z 0x0 0x17ec500017ecc;
  mkModel 0x2700000027 (6605)%Z 0x0 0x17ecc00017ed0;
  mkModel 0x2700000027 (6606)%Z 0x0 0x17ed000017ed3;
  mkModel 0x2700000027 (-1)%Z 0x17ed300017eda 0x17eda00017ee2;
  mkModel 0x2700000027 (-1)%Z 0x17ee200017ef2 0x17ee200017ef2;
  mkModel 0x2700000027 (-1)%Z 0x17ef200017ef9 0x17ef200017ef9;
  mkModel 0x2700000027 (6607)%Z 0x0 0x17ef900017f00;
  mkModel 0x2700000027 (6608)%Z 0x0 0x17f0000017f07;
  mkModel 0x2700000027 (6609)%Z 0x0 0x17f0700017f0a;
  mkModel 0x2700000027 (6610)%Z 0x0 0x17f0a00017f0d;
  mkModel 0x2700000027 (6611)%Z 0x0 0x120c1000120c3;
  mkModel 0x2700000027 (6612)%Z 0x0 0x17f0d00017f14;
  mkModel 0x2700000027 (6613)%Z 0x0 0x17f1400017f1c;
  mkModel 0x2700000027 (6614)%Z 0x0 0x17f1c00017f1f;
  mkModel 0x2700000027 (6615)%Z 0x0 0x14f9c00014f9e;
  mkModel 0x2700000027 (6616)%Z 0x0 0x17f1f00017f26;
  mkModel 0x2700000027 (6617)%Z 0x0 0x17f2600017f2f;
  mkModel 0x2700000027 (6618)%Z 0x0 0x17f2f00017f36;
  mkModel 0x2700000027 (6619)%Z 0x0 0x17f3600017f39;
  mkModel 0x2700000027 (6620)%Z 0x0 0x17f3900017f41;
  mkModel 0x2700000027 (6621)%Z 0x0 0x17f4100017f45;
  mkModel 0x2700000027 (6622)%Z 0x0 0x17f4500017f4b;
  mkModel 0x2700000027 (6623)%Z 0x0 0x17f4b00017f58;
  mkModel 0x2700000027 (-1)%Z 0x17f5800017f5e 0x17f5e00017f66;
  mkModel 0x2700000027 (-1)%Z 0x17f6600017f6c 0x17f6c00017f73;
  mkModel 0x2700000027 (-1)%Z 0x17f7300017f7a 0x17f7a00017f84;
  mkModel 0x2700000027 (6624)%Z 0x0 0x17f8400017f92;
  mkModel 0x2700000027 (6625)%Z 0x0 0x17f9200017fa1;
  mkModel 0x2700000027 (6626)%Z 0x0 0x17fa100017fac;
  mkModel 0x2700000027 (-1)%Z 0x17be600017bef 0x17fac00017fb8;
  mkModel 0x2700000027 (6627)%Z 0x0 0x17fb800017fbf;
  mkModel 0x2700000027 (6628)%Z 0x0 0x17fbf00017fc6;
  mkModel 0x2700000027 (-1)%Z 0x17fc600017fcd 0x17fcd00017fd7;
  mkModel 0x2700000027 (-1)%Z 0x17fd700017fde 0x17fde00017fea;
  mkModel 0x2700000027 (-1)%Z 0x17fea00017ff1 0x17ff100017ffd;
  mkModel 0x2700000027 (6629)%Z 0x0 0x17ffd0001800b;
  mkModel 0x2700000027 (-1)%Z 0x1800b00018012 0x180120001801b;
  mkModel 0x2700000027 (-1)%Z 0x1801b00018021 0x1802100018028;
  mkModel 0x2700000027 (-1)%Z 0x180280001802f 0x1802f0001803b;
  mkModel 0x2700000027 (-1)%Z 0x1803b00018042 0x180420001804c;
  mkModel 0x2700000027 (-1)%Z 0x1804c00018053 0x1805300018061;
  mkModel 0x2700000027 (-1)%Z 0x1806100018067 0x1806700018072;
  mkModel 0x2700000027 (-1)%Z 0x1807200018078 0x1807800018083;
  mkModel 0x2700000027 (-1)%Z 0x180830001808a 0x1808a00018098;
  mkModel 0x2700000027 (-1)%Z 0x180980001809e 0x1809e000180a5;
  mkModel 0x2700000027 (-1)%Z 0x180a5000180ac 0x180ac000180b6;
  mkModel 0x2700000027 (6630)%Z 0x0 0x180b6000180bc;
  mkModel 0x2700000027 (6631)%Z 0x0 0x180bc000180c3;
  mkModel 0x2700000027 (6632)%Z 0x0 0x180c3000180ca;
  mkModel 0x2700000027 (6633)%Z 0x0 0x180ca000180d0;
  mkModel 0x2700000027 (6634)%Z 0x0 0x180d0000180d7;
  mkModel 0x2700000027 (6635)%Z 0x0 0x180d7000180e0;
  mkModel 0x2700000027 (6636)%Z 0x0 0x180e0000180ea;
  mkModel 0x2700000027 (6637)%Z 0x0 0x180ea000180f5;
  mkModel 0x2700000027 (6638)%Z 0x0 0x180f5000180fe;
  mkModel 0x2700000027 (6639)%Z 0x0 0x180fe00018109;
  mkModel 0x2700000027 (6640)%Z 0x0 0x1810900018116;
  mkModel 0x2700000027 (6641)%Z 0x0 0x181160001811f;
  mkModel 0x2700000027 (6642)%Z 0x0 0x1811f0001812c;
  mkModel 0x2700000027 (6643)%Z 0x0 0x1812c00018139;
  mkModel 0x2700000027 (6644)%Z 0x0 0x1813900018143;
  mkModel 0x2700000027 (6645)%Z 0x0 0x181430001814a;
  mkModel 0x2700000027 (6646)%Z 0x0 0x1814a00018151;
  mkModel 0x2700000027 (6647)%Z 0x0 0x181510001815c;
  mkModel 0x2700000027 (6648)%Z 0x0 0x1815c00018165;
  mkModel 0x2700000027 (6649)%Z 0x0 0x181650001816c;
  mkModel 0x2700000027 (-1)%Z 0x1816c00018176 0x1817600018180;
  mkModel 0x2700000027 (6650)%Z 0x0 0x1818000018187;
  mkModel 0x2700000027 (6651)%Z 0x0 0x181870001818e;
  mkModel 0x2700000027 (6652)%Z 0x0 0x1818e0001819b;
  mkModel 0x2700000027 (6653)%Z 0x0 0x1819b000181ad;
  mkModel 0x2700000027 (6654)%Z 0x0 0x181ad000181b4;
  mkModel 0x2700000027 (6655)%Z 0x0 0x181b4000181ba;
  mkModel 0x2700000027 (6656)%Z 0x0 0x181ba000181c5;
  mkModel 0x2700000027 (6657)%Z 0x0 0x181c5000181cf;
  mkModel 0x2700000027 (6658)%Z 0x0 0x181cf000181dc;
  mkModel 0x2700000027 (6659)%Z 0x0 0x181dc000181eb;
  mkModel 0x2700000027 (6660)%Z 0x0 0x181eb000181f1;
  mkModel 0x2700000027 (6661)%Z 0x0 0x181f1000181f7;
  mkModel 0x2700000027 (-1)%Z 0x181f7000181fe 0x181fe00018205;
  mkModel 0x2700000027 (6662)%Z 0x0 0x182050001820c;
  mkModel 0x2700000027 (6663)%Z 0x0 0x1820c00018215;
  mkModel 0x2700000027 (6664)%Z 0x0 0x182150001821f;
  mkModel 0x2700000027 (6665)%Z 0x0 0x1821f0001822c;
  mkModel 0x2700000027 (-1)%Z 0x1822c00018232 0x182320001823d;
  mkModel 0x2700000027 (-1)%Z 0x1823d00018244 0x182440001824c;
  mkModel 0x2700000027 (6666)%Z 0x0 0x1824c00018255;
  mkModel 0x2700000027 (6667)%Z 0x0 0x182550001825c;
  mkModel 0x2700000027 (-1)%Z 0x1825c00018262 0x1826200018268;
  mkModel 0x2700000027 (-1)%Z 0x182680001826e 0x1826e00018279;
  mkModel 0x2700000027 (-1)%Z 0x182790001827f 0x1827f00018289;
  mkModel 0x2700000027 (6668)%Z 0x0 0x1828900018291;
  mkModel 0x2700000027 (6669)%Z 0x0 0x182910001829a;
  mkModel 0x2700000027 (6670)%Z 0x0 0x1829a0001829f;
  mkModel 0x2700000027 (-1)%Z 0x1829f000182ad 0x1829f000182ad;
  mkModel 0x2700000027 (6671)%Z 0x0 0x182ad000182b5;
  mkModel 0x2700000027 (6672)%Z 0x0 0x182b5000182bf;
  mkModel 0x2700000027 (6673)%Z 0x0 0x182bf000182c6;
  mkModel 0x2700000027 (6674)%Z 0x0 0x182c6000182cc;
  mkModel 0x2700000027 (6675)%Z 0x0 0x182cc000182d0;
  mkModel 0x2700000027 (-1)%Z 0x182d0000182d7 0x182d7000182dd;
  mkModel 0x23b0000023d (6676)%Z 0x0 0x18000000182;
  mkModel 0x2a1000002a7 (6677)%Z 0x0 0x182dd000182e4;
  mkModel 0x2a1000002a7 (-1)%Z 0x182e4000182eb 0x182eb000182f4;
  mkModel 0x2a1000002a7 (-1)%Z 0x182f4000182fb 0x182fb00018304;
  mkModel 0x2a1000002a7 (-1)%Z 0x183040001830b 0x1830b00018314;
  mkModel 0x2a1000002a7 (6678)%Z 0x0 0x183140001831b;
  mkModel 0x2a1000002a7 (6679)%Z 0x0 0x1831b00018320;
  mkModel 0x2a1000002a7 (-1)%Z 0x1832000018327 0x183270001832f;
  mkModel 0x2b1e00002b26 (6680)%Z 0x0 0x1832f00018339;
  mkModel 0x2b1e00002b26 (-1)%Z 0x183390001833f 0x1833f00018349;
  mkModel 0x2b1e00002b26 (-1)%Z 0x183490001834f 0x1834f0001835b;
  mkModel 0xdfd00000e04 (6681)%Z 0x0 0x1835b0001835e;
  mkModel 0x2700000027 (6682)%Z 0x0 0x84ff00008502;
  mkModel 0x2700000027 (6683)%Z 0x0 0x18000000182;
  mkModel 0x2700000027 (6684)%Z 0x0 0x18000000182;
  mkModel 0x2700000027 (-1)%Z 0x183630001836b 0x1836b00018373;
  mkModel 0x2700000027 (6686)%Z 0x0 0x183730001837c;
  mkModel 0x2700000027 (6687)%Z 0x0 0x1837c00018384;
  mkModel 0x2700000027 (-1)%Z 0x183840001838b 0x183840001838b;
  mkModel 0x2700000027 (6688)%Z 0x0 0x1838b00018393;
  mkModel 0x2700000027 (6689)%Z 0x0 0x183930001839a;
  mkModel 0x2700000027 (-1)%Z 0x1839a000183a0 0x183a0000183a7;
  mkModel 0x2700000027 (6690)%Z 0x0 0x183a7000183af
].
Definition d_dr_dm_44 : list modelTuple := [
  mkModel 0x2700000027 (6691)%Z 0x0 0x18000000182;
  mkModel 0x2a1000002a7 (6692)%Z 0x0 0x183af000183ba;
  mkModel 0x2a1000002a7 (6693)%Z 0x0 0x4bd000004c3;
  mkModel 0x2a1000002a7 (-1)%Z 0x183ba000183c2 0x183ba000183c2;
  mkModel 0x2700000027 (-1)%Z 0x183c5000183c9 0x183c5000183c9;
  mkModel 0x2700000027 (-1)%Z 0x183c9000183d6 0x183c9000183d6;
  mkModel 0x0 (-1)%Z 0x0 0x18000000182;
  mkModel 0x2700000027 (-1)%Z 0x183df000183ea 0x183ea000183f1;
  mkModel 0x2700000027 (6696)%Z 0x0 0x183f1000183f4;
  mkModel 0x2700000027 (-1)%Z 0x183f4000183fc 0x183fc00018404;
  mkModel 0x2700000027 (6697)%Z 0x0 0x18000000182;
  mkModel 0x2700000027 (6699)%Z 0x0 0x1840a00018413;
  mkModel 0x0 (-1)%Z 0x0 0x18000000182;
  mkModel 0x2700000027 (6702)%Z 0x0 0x500000005006;
  mkModel 0x2700000027 (6703)%Z 0x0 0x1841c00018423;
  mkModel 0x2700000027 (6705)%Z 0x0 0x4c4300004c49;
  mkModel 0x2700000027 (6706)%Z 0x0 0x4c4300004c49;
  mkModel 0x2700000027 (-1)%Z 0x1842f00018439 0xf58b0000f592;
  mkModel 0x2700000027 (6708)%Z 0x0 0x18000000182;
  mkModel 0x0 (-1)%Z 0x0 0x18000000182;
  mkModel 0x2700000027 (6711)%Z 0x0 0x1844000018447;
  mkModel 0x2700000027 (6712)%Z 0x0 0x184470001844e;
  mkModel 0x2700000027 (6713)%Z 0x0 0x1844e00018454;
  mkModel 0x2700000027 (6714)%Z 0x0 0x184540001845a;
  mkModel 0x2700000027 (6715)%Z 0x0 0x1845a0001845d;
  mkModel 0x2700000027 (6716)%Z 0x0 0x18000000182;
  mkModel 0x2700000027 (6717)%Z 0x0 0x1845d00018466;
  mkModel 0x2700000027 (6718)%Z 0x0 0x184660001846d;
  mkModel 0x2700000027 (6719)%Z 0x0 0x1846d00018475;
  mkModel 0x2700000027 (6720)%Z 0x0 0x1847500018478;
  mkModel 0x2700000027 (6721)%Z 0x0 0x184780001847f;
  mkModel 0x2700000027 (6722)%Z 0x0 0x1847f00018486;
  mkModel 0x2700000027 (6723)%Z 0x0 0x184860001848b;
  mkModel 0x2700000027 (6724)%Z 0x0 0x1848b00018493;
  mkModel 0x2700000027 (6725)%Z 0x0 0x184930001849c;
  mkModel 0x2700000027 (6726)%Z 0x0 0x18000000182;
  mkModel 0x2700000027 (6727)%Z 0x0 0x18000000182;
  mkModel 0x2700000027 (6729)%Z 0x0 0x184a3000184b8;
  mkModel 0x2700000027 (6730)%Z 0x0 0x184b8000184c3;
  mkModel 0x2700000027 (6732)%Z 0x0 0x184c7000184d5;
  mkModel 0x2700000027 (6733)%Z 0x0 0x184d5000184dd;
  mkModel 0x2700000027 (-1)%Z 0x184dd000184eb 0x184eb000184fb;
  mkModel 0x2700000027 (-1)%Z 0x184fb00018504 0x185040001850d;
  mkModel 0x2700000027 (-1)%Z 0x1850d00018522 0x1852200018537;
  mkModel 0x2700000027 (-1)%Z 0x185370001854a 0x1854a0001855d;
  mkModel 0x2700000027 (-1)%Z 0x1855d0001856b 0x1856b0001857a;
  mkModel 0x2700000027 (-1)%Z 0x1857a00018589 0x1858900018599;
  mkModel 0x2700000027 (-1)%Z 0x18599000185ab 0x185ab000185be;
  mkModel 0x2700000027 (-1)%Z 0x185be000185c9 0x185c9000185d4;
  mkModel 0x2700000027 (-1)%Z 0x185d4000185e4 0x185e4000185f4;
  mkModel 0x2700000027 (-1)%Z 0x185f400018605 0x1860500018617;
  mkModel 0x2700000027 (-1)%Z 0x1861700018623 0x1862300018631;
  mkModel 0x2700000027 (-1)%Z 0x186310001863c 0x1863c00018649;
  mkModel 0x2700000027 (-1)%Z 0x1864900018659 0x1865900018669;
  mkModel 0x2700000027 (-1)%Z 0x1866900018676 0x1867600018683;
  mkModel 0x2700000027 (-1)%Z 0x186830001868f 0x1868f0001869b;
  mkModel 0x2700000027 (6734)%Z 0x0 0x1869b000186af;
  mkModel 0x2700000027 (6735)%Z 0x0 0x186af000186bc;
  mkModel 0x2700000027 (6736)%Z 0x0 0x186bc000186c8;
  mkModel 0x2700000027 (6737)%Z 0x0 0x186c8000186d3;
  mkModel 0x2700000027 (-1)%Z 0x186d3000186df 0x186df000186eb;
  mkModel 0x2700000027 (6738)%Z 0x0 0x186eb000186f6;
  mkModel 0x2700000027 (6739)%Z 0x0 0x186f600018702;
  mkModel 0x2700000027 (-1)%Z 0x1870200018709 0x1870900018710;
  mkModel 0x2700000027 (-1)%Z 0x187100001871f 0x1871f0001872f;
  mkModel 0x2700000027 (-1)%Z 0x1872f0001873d 0x1873d0001874c;
  mkModel 0x2700000027 (-1)%Z 0x1874c00018757 0x1875700018763;
  mkModel 0x2700000027 (-1)%Z 0x1876300018771 0x1877100018780;
  mkModel 0x2700000027 (6740)%Z 0x0 0x1878000018787;
  mkModel 0x2700000027 (-1)%Z 0x1878700018792 0x187920001879f;
  mkModel 0x2700000027 (-1)%Z 0x1879f000187ab 0x187ab000187b7;
  mkModel 0x2700000027 (-1)%Z 0x187b7000187bf 0x187bf000187c4;
  mkModel 0x2700000027 (-1)%Z 0x187c4000187c9 0x187c9000187cf;
  mkModel 0x2700000027 (-1)%Z 0x187cf000187dd 0x187dd000187eb;
  mkModel 0x2700000027 (6741)%Z 0x0 0x187eb000187f2;
  mkModel 0x2700000027 (-1)%Z 0x187f2000187f6 0x187f6000187fa;
  mkModel 0x2700000027 (-1)%Z 0x187fa0001880b 0x1880b0001881c;
  mkModel 0x2700000027 (-1)%Z 0x1881c00018822 0x188220001882a;
  mkModel 0x2700000027 (6742)%Z 0x0 0x1882a00018831;
  mkModel 0x2700000027 (-1)%Z 0x188310001883a 0x1883a0001883f;
  mkModel 0x2700000027 (-1)%Z 0x1883f0001884b 0x1884b00018857;
  mkModel 0x2700000027 (-1)%Z 0x1885700018865 0x1886500018873;
  mkModel 0x2700000027 (-1)%Z 0x1887300018882 0x1888200018891;
  mkModel 0x2700000027 (-1)%Z 0x188910001889d 0x1889d000188a4;
  mkModel 0x2700000027 (6743)%Z 0x0 0x188a4000188b3;
  mkModel 0x2700000027 (-1)%Z 0x188b3000188be 0x188be000188cb;
  mkModel 0x2700000027 (-1)%Z 0x188cb000188d4 0x188d4000188dd;
  mkModel 0x2700000027 (-1)%Z 0x188dd000188e8 0x188e8000188f3;
  mkModel 0x2700000027 (-1)%Z 0x188f3000188fe 0x188fe00018909;
  mkModel 0x2700000027 (-1)%Z 0x1890900018918 0x1891800018927;
  mkModel 0x2700000027 (6744)%Z 0x0 0x1892700018932;
  mkModel 0x2700000027 (6745)%Z 0x0 0x189320001893e;
  mkModel 0x2700000027 (6746)%Z 0x0 0x1893e0001894b;
  mkModel 0x2700000027 (-1)%Z 0x1894b00018950 0x1895000018955;
  mkModel 0x23f00000249 (6747)%Z 0x0 0x189550001895e;
  mkModel 0x23f00000249 (-1)%Z 0x1895e00018967 0x1896700018970;
  mkModel 0x2700000027 (6748)%Z 0x0 0x1897000018977;
  mkModel 0x2700000027 (6749)%Z 0x0 0x189770001897b;
  mkModel 0x2700000027 (6750)%Z 0x0 0x1897b00018983;
  mkModel 0x2700000027 (6751)%Z 0x0 0x18000000182;
  mkModel 0x2700000027 (6753)%Z 0x0 0x1898800018990;
  mkModel 0x2700000027 (-1)%Z 0x189900001899e 0x1899e000189a7;
  mkModel 0x2700000027 (6755)%Z 0x0 0x189ad000189b9;
  mkModel 0x2700000027 (6756)%Z 0x0 0x107300001075;
  mkModel 0x2700000027 (6757)%Z 0x0 0x189b9000189bf;
  mkModel 0x2700000027 (6758)%Z 0x0 0x189bf000189c5;
  mkModel 0x2700000027 (6759)%Z 0x0 0x614300006148;
  mkModel 0x2700000027 (-1)%Z 0x189ca000189d4 0x189d4000189dc;
  mkModel 0x2700000027 (6761)%Z 0x0 0x18000000182;
  mkModel 0x2a1000002a7 (6763)%Z 0x0 0x189e0000189ec;
  mkModel 0x2a1000002a7 (6764)%Z 0x0 0x189ec000189f4;
  mkModel 0x2700000027 (6765)%Z 0x0 0x189f4000189fc;
  mkModel 0x0 (-1)%Z 0x0 0x18000000182;
  mkModel 0x0 (-1)%Z 0x0 0x18a0600018a0e;
  mkModel 0x2700000027 (6769)%Z 0x0 0x18a1500018a19;
  mkModel 0x2700000027 (6771)%Z 0x0 0x18a1d00018a21;
  mkModel 0x2a1000002a7 (6772)%Z 0x0 0x18a2100018a24;
  mkModel 0x2a1000002a7 (6773)%Z 0x0 0x18a2400018a31;
  mkModel 0x2a1000002a7 (6774)%Z 0x0 0x18a3100018a3e;
  mkModel 0x2a1000002a7 (6775)%Z 0x0 0x18a3e00018a4a;
  mkModel 0x2a1000002a7 (6776)%Z 0x0 0x18a4a00018a5d;
  mkModel 0x2a1000002a7 (-1)%Z 0x18a5d00018a69 0x18a6900018a79;
  mkModel 0x2a1000002a7 (6777)%Z 0x0 0x18a7900018a89;
  mkModel 0x2a1000002a7 (-1)%Z 0x18a8900018a9b 0x18a9b00018aae;
  mkModel 0x2a1000002a7 (-1)%Z 0x18aae00018abf 0x18abf00018ad1;
  mkModel 0x2a1000002a7 (-1)%Z 0x18ad100018adb 0x18adb00018ae6;
  mkModel 0x2a1000002a7 (-1)%Z 0x18ae600018af4 0x18af400018b03;
  mkModel 0x2a1000002a7 (-1)%Z 0x18b0300018b0c 0x18b0c00018b17;
  mkModel 0x2a1000002a7 (6778)%Z 0x0 0x18b1700018b2c;
  mkModel 0x2a1000002a7 (6779)%Z 0x0 0x18b2c00018b39;
  mkModel 0x2a1000002a7 (6780)%Z 0x0 0x18b3900018b45;
  mkModel 0x2a1000002a7 (6781)%Z 0x0 0x18b4500018b4b;
  mkModel 0x2a1000002a7 (6782)%Z 0x0 0x18b4b00018b5b;
  mkModel 0x2a1000002a7 (6783)%Z 0x0 0x18b5b00018b66;
  mkModel 0x2a1000002a7 (6784)%Z 0x0 0x18b6600018b71;
  mkModel 0x2a1000002a7 (6785)%Z 0x0 0x18b7100018b77;
  mkModel 0x2700000027 (6786)%Z 0x0 0x18000000182;
  mkModel 0x2700000027 (6787)%Z 0x0 0x18000000182;
  mkModel 0x2700000027 (-1)%Z 0x18b7f00018b8d 0x18b8d00018b9b;
  mkModel 0x2700000027 (6789)%Z 0x0 0x18b9b00018ba6;
  mkModel 0x2700000027 (6790)%Z 0x0 0x18ba600018bb0;
  mkModel 0x0 (-1)%Z 0x0 0x18000000182;
  mkModel 0x2700000027 (6793)%Z 0x0 0x18bbe00018bc0;
  mkModel 0x2700000027 (6794)%Z 0x0 0x18bc000018bc3;
  mkModel 0x2700000027 (-1)%Z 0x18bc300018bc9 0x18bc900018bcc;
  mkModel 0x2700000027 (6795)%Z 0x0 0x18bcc00018bcf;
  mkModel 0x2700000027 (6796)%Z 0x0 0x18bcf00018bd1;
  mkModel 0x2700000027 (6797)%Z 0x0 0xbf450000bf47;
  mkModel 0x2700000027 (-1)%Z 0x18bd100018bd8 0x18bd800018bde;
  mkModel 0x2700000027 (-1)%Z 0x18bde00018be5 0x18be500018be9;
  mkModel 0x2700000027 (-1)%Z 0x18bde00018be5 0x18be500018be9;
  mkModel 0x2700000027 (-1)%Z 0x18be900018bef 0x18bef00018bf4;
  mkModel 0x2700000027 (-1)%Z 0x18bf400018bfa 0x18bfa00018c04;
  mkModel 0x2700000027 (-1)%Z 0x18c0400018c0a 0x18c0a00018c15;
  mkModel 0x2700000027 (-1)%Z 0x18c1500018c1b 0x18c1b00018c24;
  mkModel 0x2700000027 (-1)%Z 0x18c2400018c2a 0x18c2a00018c36;
  mkModel 0x2700000027 (-1)%Z 0x18c3600018c3c 0x18c3c00018c42;
  mkModel 0x2700000027 (-1)%Z 0x18c4200018c48 0x18c4800018c4d;
  mkModel 0x2700000027 (6798)%Z 0x0 0x18c4d00018c52;
  mkModel 0x2700000027 (6799)%Z 0x0 0x18c5200018c5b;
  mkModel 0x2700000027 (6800)%Z 0x0 0x90500000908;
  mkModel 0x2700000027 (6801)%Z 0x0 0x18c5b00018c61;
  mkModel 0x2700000027 (6802)%Z 0x0 0x18c6100018c68;
  mkModel 0x2700000027 (6803)%Z 0x0 0x18c6800018c7a;
  mkModel 0x2700000027 (6804)%Z 0x0 0x18c7a00018c81;
  mkModel 0x2700000027 (6805)%Z 0x0 0x18c8100018c88;
  mkModel 0x2700000027 (6806)%Z 0x0 0x18c8800018c92;
  mkModel 0x2700000027 (-1)%Z 0x18c9200018c99 0x18c9900018ca2;
  mkModel 0x2700000027 (6807)%Z 0x0 0x18ca200018cab;
  mkModel 0x2700000027 (6808)%Z 0x0 0x18cab00018cb1;
  mkModel 0x2700000027 (-1)%Z 0x18cb100018cb8 0x18cb800018cbe;
  mkModel 0x2700000027 (6809)%Z 0x0 0x18cbe00018ccf;
  mkModel 0x2700000027 (6810)%Z 0x0 0x18ccf00018cdd;
  mkModel 0x2700000027 (6811)%Z 0x0 0x18cdd00018ceb;
  mkModel 0x2700000027 (6812)%Z 0x0 0x18ceb00018cf7;
  mkModel 0x2700000027 (6813)%Z 0x0 0x18cf700018d00;
  mkModel 0x2700000027 (6814)%Z 0x0 0x14c8c00014c92;
  mkModel 0x2700000027 (6815)%Z 0x0 0x18d0000018d09;
  mkModel 0x2700000027 (6816)%Z 0x0 0x18d0900018d15;
  mkModel 0x2700000027 (-1)%Z 0x18d1500018d1c 0x18d1c00018d28;
  mkModel 0x2700000027 (6817)%Z 0x0 0x18d2800018d33;
  mkModel 0x2700000027 (6818)%Z 0x0 0x18d3300018d3e;
  mkModel 0x2700000027 (6819)%Z 0x0 0x18d3e00018d4c;
  mkModel 0x2700000027 (6820)%Z 0x0 0x18d4c00018d57;
  mkModel 0x2700000027 (6821)%Z 0x0 0x18d5700018d5f;
  mkModel 0x2700000027 (6822)%Z 0x0 0x18d5f00018d6a;
  mkModel 0x2700000027 (6823)%Z 0x0 0x18d6a00018d77;
  mkModel 0x2700000027 (6824)%Z 0x0 0x18d7700018d80;
  mkModel 0x2700000027 (6825)%Z 0x0 0x18d8000018d89;
  mkModel 0x2700000027 (6826)%Z 0x0 0x18d8900018d8e;
  mkModel 0x2700000027 (6827)%Z 0x0 0x18d8e00018d90;
  mkModel 0x2700000027 (6828)%Z 0x0 0x18d9000018d96;
  mkModel 0x2700000027 (6829)%Z 0x0 0x3f3100003f32;
  mkModel 0x2700000027 (6830)%Z 0x0 0x18d9600018d9d;
  mkModel 0x2700000027 (6831)%Z 0x0 0xbf1e0000bf1f;
  mkModel 0x2700000027 (6832)%Z 0x0 0x18d9d00018da3;
  mkModel 0x2700000027 (6833)%Z 0x0 0x18da300018da5;
  mkModel 0x2700000027 (6834)%Z 0x0 0x18da500018da8;
  mkModel 0x2700000027 (6835)%Z 0x0 0x18da800018dae;
  mkModel 0x2700000027 (6836)%Z 0x0 0x18dae00018db4
].
Definition d_dr_dm_45 : list modelTuple := [
  mkModel 0x2700000027 (6837)%Z 0x0 0xbf100000bf15;
  mkModel 0x2700000027 (6838)%Z 0x0 0x18db400018dca;
  mkModel 0x2700000027 (6839)%Z 0x0 0xbf2f0000bf35;
  mkModel 0x2700000027 (6840)%Z 0x0 0x18dca00018dcf;
  mkModel 0x2700000027 (6841)%Z 0x0 0x1d3f00001d40;
  mkModel 0x2700000027 (6842)%Z 0x0 0x18dcf00018dd1;
  mkModel 0x2700000027 (6843)%Z 0x0 0x18dd100018dd7;
  mkModel 0x2700000027 (6844)%Z 0x0 0x18dd700018de0;
  mkModel 0x2700000027 (6845)%Z 0x0 0x18d8e00018d90;
  mkModel 0x2700000027 (6846)%Z 0x0 0x18de000018de6;
  mkModel 0x2700000027 (6847)%Z 0x0 0xb8a50000b8a8;
  mkModel 0x2700000027 (6848)%Z 0x0 0x1453500014536;
  mkModel 0x2700000027 (6849)%Z 0x0 0x1ecc00001ecd;
  mkModel 0x2700000027 (6850)%Z 0x0 0x18de600018de8;
  mkModel 0x2700000027 (6851)%Z 0x0 0x1cfb00001cfc;
  mkModel 0x2700000027 (6852)%Z 0x0 0x18de800018dea;
  mkModel 0x2700000027 (6853)%Z 0x0 0x1d2d00001d2e;
  mkModel 0x2700000027 (6854)%Z 0x0 0x16d1f00016d20;
  mkModel 0x2700000027 (6855)%Z 0x0 0x18dea00018dec;
  mkModel 0x2b1e00002b26 (-1)%Z 0x18dec00018df4 0x18df400018dfb;
  mkModel 0x2a1000002a7 (-1)%Z 0x18dfb00018e02 0x18e0200018e11;
  mkModel 0x2a1000002a7 (6856)%Z 0x0 0x18e1100018e1f;
  mkModel 0x2a1000002a7 (-1)%Z 0x18e1f00018e26 0x18e2600018e33;
  mkModel 0x2a1000002a7 (-1)%Z 0x18e3300018e3a 0x18e3a00018e4a;
  mkModel 0x2a1000002a7 (-1)%Z 0x18e4a00018e51 0x18e5100018e61;
  mkModel 0x2a1000002a7 (-1)%Z 0x18e6100018e68 0x18e6800018e74;
  mkModel 0x2a1000002a7 (-1)%Z 0x18e7400018e7b 0x18e7b00018e88;
  mkModel 0x2700000027 (6857)%Z 0x0 0x18000000182;
  mkModel 0x2700000027 (6859)%Z 0x0 0x18000000182;
  mkModel 0x23b0000023d (6860)%Z 0x0 0x18e8d00018e9b;
  mkModel 0x23b0000023d (6861)%Z 0x0 0x29eb000029f9;
  mkModel 0x2700000027 (6863)%Z 0x0 0x18000000182;
  mkModel 0x2700000027 (6864)%Z 0x0 0x18e9f00018eab;
  mkModel 0x23f00000249 (6865)%Z 0x0 0x18000000182;
  mkModel 0x2a1000002a7 (6867)%Z 0x0 0x18000000182;
  mkModel 0x2700000027 (6868)%Z 0x0 0x18000000182;
  mkModel 0x0 (-1)%Z 0x0 0xb8a50000b8a8;
  mkModel 0x2700000027 (6870)%Z 0x0 0x62270000622d;
  mkModel 0x2a1000002a7 (6871)%Z 0x0 0x18ec400018ed0;
  mkModel 0x2700000027 (-1)%Z 0x18eda00018ee6 0x18ee600018ef2;
  mkModel 0x2700000027 (-1)%Z 0x18ef200018efb 0x18efb00018f05;
  mkModel 0x2700000027 (-1)%Z 0x18f0500018f17 0x18f1700018f1e;
  mkModel 0x2700000027 (-1)%Z 0x18f1e00018f30 0x18f3000018f3a;
  mkModel 0x2700000027 (-1)%Z 0x18f3a00018f4d 0x18f4d00018f54;
  mkModel 0x2700000027 (6874)%Z 0x0 0x18000000182;
  mkModel 0x2700000027 (-1)%Z 0x18f5b00018f6c 0x18f6c00018f7d;
  mkModel 0x2700000027 (-1)%Z 0x18f7d00018f8a 0x18f8a00018f97;
  mkModel 0x2700000027 (6875)%Z 0x0 0x18f9700018fa3;
  mkModel 0x2700000027 (6876)%Z 0x0 0x18fa300018fab;
  mkModel 0x2700000027 (6877)%Z 0x0 0x18fab00018fb5;
  mkModel 0x2700000027 (-1)%Z 0x18fb500018fbb 0x18fbb00018fc1;
  mkModel 0x2700000027 (6878)%Z 0x0 0x18fc100018fc6;
  mkModel 0x2700000027 (-1)%Z 0x18fc600018fd2 0x18fd200018fd6;
  mkModel 0x2700000027 (-1)%Z 0x18fdc00018fe5 0x18fe500018fee;
  mkModel 0x2700000027 (-1)%Z 0x18fee00018ff7 0x18ff700019000;
  mkModel 0x2700000027 (6880)%Z 0x0 0x190000001900a;
  mkModel 0x2700000027 (6882)%Z 0x0 0x1901000019018;
  mkModel 0x2700000027 (6883)%Z 0x0 0x1901000019018;
  mkModel 0x2700000027 (6884)%Z 0x0 0x18000000182;
  mkModel 0x2700000027 (6885)%Z 0x0 0x18000000182;
  mkModel 0x2700000027 (-1)%Z 0x1901e00019028 0x190280001902d;
  mkModel 0x23b0000023d (-1)%Z 0x190330001903b 0x1903b00019047;
  mkModel 0x23b0000023d (6888)%Z 0x0 0x62270000622d;
  mkModel 0x2700000027 (6889)%Z 0x0 0x1904700019050;
  mkModel 0x2700000027 (6890)%Z 0x0 0x1905000019059;
  mkModel 0x2700000027 (-1)%Z 0x1905900019062 0x190620001906b;
  mkModel 0x2700000027 (-1)%Z 0x1906b00019073 0x190730001907b;
  mkModel 0x2700000027 (-1)%Z 0x1907b00019083 0x190830001908b;
  mkModel 0x2700000027 (-1)%Z 0x1908b00019095 0x190950001909f;
  mkModel 0x2700000027 (-1)%Z 0x1909f000190a5 0x1909f000190a5;
  mkModel 0x2700000027 (6891)%Z 0x0 0x190a5000190aa;
  mkModel 0x2a1000002a7 (-1)%Z 0x190aa000190ae 0x190aa000190ae;
  mkModel 0x2a1000002a7 (6892)%Z 0x0 0x190ae000190b7;
  mkModel 0x2a1000002a7 (-1)%Z 0x190b7000190c5 0x190c5000190d1;
  mkModel 0x2a1000002a7 (-1)%Z 0x190d1000190de 0x190de000190ee;
  mkModel 0x2a1000002a7 (-1)%Z 0x190ee000190fd 0x190fd00019105;
  mkModel 0x2700000027 (6893)%Z 0x0 0x6b6d00006b72;
  mkModel 0x2700000027 (6894)%Z 0x0 0x1910500019111;
  mkModel 0x2700000027 (6895)%Z 0x0 0x1911100019118;
  mkModel 0x2700000027 (6896)%Z 0x0 0x18000000182;
  mkModel 0x2700000027 (6897)%Z 0x0 0x191180001911e;
  mkModel 0x0 (-1)%Z 0x0 0x18000000182;
  mkModel 0x2700000027 (-1)%Z 0x1912c00019132 0x76360000763e;
  mkModel 0x2700000027 (-1)%Z 0x1913200019138 0x191380001913c;
  mkModel 0x2700000027 (-1)%Z 0x1913c00019142 0x1914200019146;
  mkModel 0x2700000027 (-1)%Z 0x191460001914c 0x1914c00019152;
  mkModel 0x2700000027 (-1)%Z 0x1915200019159 0x1915900019162;
  mkModel 0x2700000027 (-1)%Z 0x1916200019168 0xff400000ff43;
  mkModel 0x2700000027 (-1)%Z 0x191680001916e 0x99080000990b;
  mkModel 0x2a1000002a7 (-1)%Z 0x1916e00019173 0x191730001917a;
  mkModel 0x0 (-1)%Z 0x0 0x18000000182;
  mkModel 0x2700000027 (6902)%Z 0x0 0x18000000182;
  mkModel 0x0 (-1)%Z 0x0 0x18000000182;
  mkModel 0x2700000027 (6905)%Z 0x0 0x2700000027;
  mkModel 0x2a1000002a7 (6906)%Z 0x0 0x191910001919a;
  mkModel 0x2700000027 (-1)%Z 0x1919e000191a6 0x1919e000191a6;
  mkModel 0x2700000027 (6908)%Z 0x0 0x18000000182;
  mkModel 0x2700000027 (6909)%Z 0x0 0x18000000182;
  mkModel 0x2700000027 (6910)%Z 0x0 0x18000000182;
  mkModel 0x2700000027 (6911)%Z 0x0 0x18000000182;
  mkModel 0x2700000027 (6913)%Z 0x0 0x191ad000191b7;
  mkModel 0x2700000027 (6914)%Z 0x0 0x191b7000191bb;
  mkModel 0x2700000027 (-1)%Z 0x191bb000191c6 0x191c6000191d1;
  mkModel 0x2700000027 (6915)%Z 0x0 0x191d1000191d4;
  mkModel 0x2700000027 (6916)%Z 0x0 0x500000005006;
  mkModel 0x2700000027 (6917)%Z 0x0 0x191d4000191dc;
  mkModel 0x2700000027 (6918)%Z 0x0 0x92a7000092ad;
  mkModel 0x2700000027 (6919)%Z 0x0 0x1940000019b;
  mkModel 0x2700000027 (6920)%Z 0x0 0x4fe400004feb;
  mkModel 0x2700000027 (6921)%Z 0x0 0x191dc000191e2;
  mkModel 0x2700000027 (6922)%Z 0x0 0x191e2000191f1;
  mkModel 0x2700000027 (6923)%Z 0x0 0x18000000182;
  mkModel 0x2700000027 (6924)%Z 0x0 0x1012500010128;
  mkModel 0x2a1000002a7 (-1)%Z 0x191f1000191fd 0x191fd00019209;
  mkModel 0x2a1000002a7 (-1)%Z 0x1920900019211 0x1920900019211;
  mkModel 0x2a1000002a7 (-1)%Z 0x192110001921a 0x1921a00019223;
  mkModel 0x2a1000002a7 (-1)%Z 0x192230001922a 0x192230001922a;
  mkModel 0x2a1000002a7 (-1)%Z 0x1922a00019232 0x1922a00019232;
  mkModel 0x2a1000002a7 (6925)%Z 0x0 0x18000000182;
  mkModel 0x2700000027 (6926)%Z 0x0 0x18000000182;
  mkModel 0x2700000027 (6927)%Z 0x0 0x18000000182;
  mkModel 0x23f00000249 (-1)%Z 0x192390001923f 0x1923f0001924a;
  mkModel 0x23f00000249 (-1)%Z 0x1924a00019259 0x1924a00019259;
  mkModel 0x23f00000249 (-1)%Z 0x1925900019268 0x1925900019268;
  mkModel 0x23f00000249 (6929)%Z 0x0 0x1926800019271;
  mkModel 0x2700000027 (-1)%Z 0x192710001927d 0x1927d0001928a;
  mkModel 0x2700000027 (-1)%Z 0x1928a00019297 0x1928a00019297;
  mkModel 0x2700000027 (6930)%Z 0x0 0x19297000192a6;
  mkModel 0x2700000027 (6931)%Z 0x0 0x19297000192a6;
  mkModel 0x2700000027 (6932)%Z 0x0 0x18000000182;
  mkModel 0x0 (-1)%Z 0x0 0x192aa000192b2;
  mkModel 0x2700000027 (6934)%Z 0x0 0x18000000182;
  mkModel 0x2700000027 (6935)%Z 0x0 0x192b6000192c1;
  mkModel 0x23f00000249 (6937)%Z 0x0 0x192c8000192d4;
  mkModel 0x23f00000249 (-1)%Z 0x192d4000192dc 0x192dc000192e5;
  mkModel 0x23f00000249 (-1)%Z 0x192e5000192ec 0x192ec000192f4;
  mkModel 0x23f00000249 (6938)%Z 0x0 0x192f4000192fe;
  mkModel 0x23f00000249 (6939)%Z 0x0 0x192fe00019309;
  mkModel 0x23f00000249 (6940)%Z 0x0 0x1930900019312;
  mkModel 0x23f00000249 (6941)%Z 0x0 0x193120001931d;
  mkModel 0x23f00000249 (6942)%Z 0x0 0x1931d00019324;
  mkModel 0x23f00000249 (6943)%Z 0x0 0x1932400019335;
  mkModel 0x23f00000249 (6944)%Z 0x0 0x18000000182;
  mkModel 0x2700000027 (6945)%Z 0x0 0x18000000182;
  mkModel 0x2700000027 (6946)%Z 0x0 0x6b6d00006b72;
  mkModel 0x2700000027 (-1)%Z 0x193350001933e 0x1933e00019347;
  mkModel 0x2700000027 (6947)%Z 0x0 0x18000000182;
  mkModel 0x2700000027 (6948)%Z 0x0 0x18000000182;
  mkModel 0x0 (-1)%Z 0x0 0x1934b00019351;
  mkModel 0x0 (-1)%Z 0x0 0x18000000182;
  mkModel 0x2700000027 (-1)%Z 0x1935f00019366 0x193660001936d;
  mkModel 0x2700000027 (6952)%Z 0x0 0x18000000182;
  mkModel 0x2700000027 (6954)%Z 0x0 0x193730001937b;
  mkModel 0x0 (-1)%Z 0x0 0x193900001939d;
  mkModel 0x2700000027 (-1)%Z 0x193a2000193ae 0x193ae000193b1;
  mkModel 0x2700000027 (-1)%Z 0x193b1000193bd 0x193bd000193c0;
  mkModel 0x2700000027 (-1)%Z 0x193c0000193cd 0x193cd000193d1;
  mkModel 0x2a1000002a7 (-1)%Z 0x193d1000193d9 0x193d9000193e2;
  mkModel 0x2a1000002a7 (-1)%Z 0x193e2000193ea 0x97990000979e;
  mkModel 0x2a1000002a7 (6956)%Z 0x0 0x16ff800016ffb;
  mkModel 0x2a1000002a7 (6957)%Z 0x0 0x193ea000193f3;
  mkModel 0x2a1000002a7 (-1)%Z 0x193f300019405 0x1940500019413;
  mkModel 0x2700000027 (-1)%Z 0x194160001941d 0x1941d0001942a;
  mkModel 0x2700000027 (6959)%Z 0x0 0x18000000182;
  mkModel 0x2700000027 (6961)%Z 0x0 0x18000000182;
  mkModel 0x2700000027 (6962)%Z 0x0 0x18000000182;
  mkModel 0x2700000027 (6964)%Z 0x0 0x1943b00019441;
  mkModel 0x23b0000023d (6965)%Z 0x0 0x18000000182;
  mkModel 0x0 (-1)%Z 0x0 0x18000000182;
  mkModel 0x2700000027 (6968)%Z 0x0 0x1944e00019454;
  mkModel 0x2700000027 (6969)%Z 0x0 0x194540001945b;
  mkModel 0x2700000027 (-1)%Z 0x1945b0001946c 0x1946c00019473;
  mkModel 0x2700000027 (-1)%Z 0x194730001947e 0x1947e00019482;
  mkModel 0x2700000027 (-1)%Z 0x194880001948e 0x194880001948e;
  mkModel 0x7cc000007d6 (6972)%Z 0x0 0x194920001949c;
  mkModel 0x2700000027 (6974)%Z 0x0 0x114a3000114a5;
  mkModel 0x2700000027 (6975)%Z 0x0 0x194a0000194a6;
  mkModel 0x2700000027 (6976)%Z 0x0 0x194a6000194a8;
  mkModel 0x2700000027 (6977)%Z 0x0 0x194a8000194b1;
  mkModel 0x2700000027 (6978)%Z 0x0 0x194b1000194b6;
  mkModel 0x2700000027 (6979)%Z 0x0 0x194b6000194bc;
  mkModel 0x2700000027 (6980)%Z 0x0 0x194bc000194c2;
  mkModel 0x2700000027 (6981)%Z 0x0 0xbea40000bea6;
  mkModel 0x2700000027 (6982)%Z 0x0 0x17c1800017c1a;
  mkModel 0x2700000027 (6983)%Z 0x0 0x194c2000194c8;
  mkModel 0x2700000027 (6984)%Z 0x0 0x1380d0001380f;
  mkModel 0x2700000027 (6985)%Z 0x0 0x1457b0001457d;
  mkModel 0x2700000027 (6986)%Z 0x0 0x194c8000194d1;
  mkModel 0x2700000027 (6987)%Z 0x0 0x1236200012369;
  mkModel 0x2700000027 (6988)%Z 0x0 0x194d1000194da;
  mkModel 0x2700000027 (6989)%Z 0x0 0x194da000194df;
  mkModel 0x2700000027 (6990)%Z 0x0 0x1ea500001ea7;
  mkModel 0x2700000027 (6991)%Z 0x0 0xf10b0000f10e;
  mkModel 0x2700000027 (-1)%Z 0x194df000194e9 0x194e9000194ee;
  mkModel 0x2700000027 (6992)%Z 0x0 0xa22e0000a230;
  mkModel 0x2700000027 (6993)%Z 0x0 0x194ee000194f7;
  mkModel 0x2700000027 (-1)%Z 0x194f700019501 0x1950100019506;
  mkModel 0x2700000027 (6994)%Z 0x0 0x6fb200006fb4;
  mkModel 0x2700000027 (-1)%Z 0x1950600019510 0x1951000019519;
  mkModel 0x2700000027 (-1)%Z 0x1951900019523 0x195230001952d
].
Definition d_dr_dm_46 : list modelTuple := [
  mkModel 0x2700000027 (6995)%Z 0x0 0x1952d00019533;
  mkModel 0x2700000027 (6996)%Z 0x0 0x1953300019539;
  mkModel 0x2700000027 (6997)%Z 0x0 0x1461b0001461d;
  mkModel 0x2700000027 (-1)%Z 0x1953900019543 0x1954300019548;
  mkModel 0x2700000027 (6998)%Z 0x0 0x195480001954e;
  mkModel 0x2700000027 (6999)%Z 0x0 0x1954e00019554;
  mkModel 0x2700000027 (7000)%Z 0x0 0x1955400019559;
  mkModel 0x2700000027 (7001)%Z 0x0 0xf7fa0000f7fc;
  mkModel 0x2700000027 (7002)%Z 0x0 0x195590001955e;
  mkModel 0x2700000027 (7003)%Z 0x0 0x1955e00019567;
  mkModel 0x2700000027 (7004)%Z 0x0 0x195670001956c;
  mkModel 0x2700000027 (7005)%Z 0x0 0x1956c00019575;
  mkModel 0x2700000027 (7006)%Z 0x0 0x195750001957e;
  mkModel 0x2700000027 (7007)%Z 0x0 0x1957e00019583;
  mkModel 0x2700000027 (7008)%Z 0x0 0x1958300019588;
  mkModel 0x2700000027 (7009)%Z 0x0 0x195880001958a;
  mkModel 0x2700000027 (7010)%Z 0x0 0x1958a00019590;
  mkModel 0x2700000027 (7011)%Z 0x0 0x1959000019598;
  mkModel 0x2700000027 (7012)%Z 0x0 0x78fc000078fe;
  mkModel 0x2700000027 (7013)%Z 0x0 0x195980001959a;
  mkModel 0x2700000027 (7014)%Z 0x0 0x1959a0001959d;
  mkModel 0x2700000027 (7015)%Z 0x0 0x1959d000195a0;
  mkModel 0x2700000027 (7016)%Z 0x0 0xb1b70000b1ba;
  mkModel 0x2700000027 (7017)%Z 0x0 0x195a0000195a3;
  mkModel 0x2700000027 (-1)%Z 0x195a3000195ad 0x195ad000195b0;
  mkModel 0x2700000027 (7018)%Z 0x0 0x195b0000195b3;
  mkModel 0x2700000027 (7019)%Z 0x0 0x195b3000195b6;
  mkModel 0x2700000027 (7020)%Z 0x0 0x195b6000195b9;
  mkModel 0x2700000027 (7021)%Z 0x0 0xb1b40000b1b7;
  mkModel 0x2700000027 (7022)%Z 0x0 0x195b9000195bc;
  mkModel 0x2700000027 (7023)%Z 0x0 0x195bc000195c2;
  mkModel 0x2700000027 (7024)%Z 0x0 0x195c2000195cb;
  mkModel 0x2a1000002a7 (-1)%Z 0x195cb000195d5 0x195d5000195de;
  mkModel 0x2700000027 (7026)%Z 0x0 0x195e4000195ed;
  mkModel 0x2700000027 (7027)%Z 0x0 0xb1ba0000b1bc;
  mkModel 0x0 (-1)%Z 0x0 0x18000000182;
  mkModel 0x0 (-1)%Z 0x0 0x18000000182;
  mkModel 0x2700000027 (7030)%Z 0x0 0x1960500019615;
  mkModel 0x2700000027 (7033)%Z 0x0 0x98c4000098c7;
  mkModel 0x2700000027 (7034)%Z 0x0 0x18000000182;
  mkModel 0x2700000027 (7035)%Z 0x0 0x18000000182;
  mkModel 0x0 (-1)%Z 0x0 0x1963200019638;
  mkModel 0x0 (-1)%Z 0x0 0x1965100019660;
  mkModel 0x23f00000249 (-1)%Z 0x1966c00019677 0x1967700019682;
  mkModel 0x2700000027 (-1)%Z 0x196820001968a 0x1968a00019692;
  mkModel 0x2700000027 (7037)%Z 0x0 0x19692000196a0;
  mkModel 0x2700000027 (7038)%Z 0x0 0x18000000182;
  mkModel 0xc9b00000ca2 (-1)%Z 0x196a0000196af 0x196a0000196af;
  mkModel 0x0 (-1)%Z 0x0 0x62270000622d;
  mkModel 0x2700000027 (7040)%Z 0x0 0x6b6d00006b72;
  mkModel 0x2700000027 (7041)%Z 0x0 0x18000000182;
  mkModel 0x2700000027 (7042)%Z 0x0 0x196c4000196cb;
  mkModel 0x2700000027 (-1)%Z 0x196cb000196d3 0x196cb000196d3;
  mkModel 0x2700000027 (-1)%Z 0x196d3000196d9 0x196d9000196df;
  mkModel 0x2700000027 (7043)%Z 0x0 0x2700000027;
  mkModel 0x0 (-1)%Z 0x0 0x196e6000196ed;
  mkModel 0x2700000027 (7045)%Z 0x0 0x196f600019704;
  mkModel 0x2700000027 (7046)%Z 0x0 0x1970400019710;
  mkModel 0x2700000027 (7047)%Z 0x0 0x1971000019717;
  mkModel 0x2700000027 (7048)%Z 0x0 0x197170001971e;
  mkModel 0x2700000027 (7049)%Z 0x0 0x1971e00019726;
  mkModel 0x2700000027 (7050)%Z 0x0 0x197260001972e;
  mkModel 0x2700000027 (7051)%Z 0x0 0x197260001972e;
  mkModel 0x50000000b (7052)%Z 0x0 0x1972e00019736;
  mkModel 0x2700000027 (7053)%Z 0x0 0x1973600019747;
  mkModel 0x2700000027 (7054)%Z 0x0 0x1974700019752;
  mkModel 0x2a1000002a7 (7055)%Z 0x0 0x1975200019760;
  mkModel 0x2700000027 (7056)%Z 0x0 0x197600001976b;
  mkModel 0x2700000027 (-1)%Z 0x1976b00019772 0x1976b00019772;
  mkModel 0x2700000027 (7057)%Z 0x0 0x1977200019779;
  mkModel 0x39a000003a7 (7058)%Z 0x0 0x197790001977e;
  mkModel 0x2700000027 (-1)%Z 0x1977e00019791 0xe3400000e3c;
  mkModel 0x23b0000023d (7059)%Z 0x0 0x10e9000010f6;
  mkModel 0x23b0000023d (7060)%Z 0x0 0x10e9000010f6;
  mkModel 0x23b0000023d (-1)%Z 0x19791000197a3 0x197a3000197ad;
  mkModel 0x23b0000023d (7061)%Z 0x0 0xe3400000e3c;
  mkModel 0x23b0000023d (7062)%Z 0x0 0x18000000182;
  mkModel 0x23b0000023d (7063)%Z 0x0 0x2700000027;
  mkModel 0x23b0000023d (7064)%Z 0x0 0x18000000182;
  mkModel 0x2700000027 (7065)%Z 0x0 0x18000000182;
  mkModel 0x2700000027 (7066)%Z 0x0 0x18000000182;
  mkModel 0x2a1000002a7 (7067)%Z 0x0 0x197ad000197bd;
  mkModel 0x2700000027 (7068)%Z 0x0 0xe3400000e3c;
  mkModel 0x0 (-1)%Z 0x0 0x18000000182;
  mkModel 0x0 (-1)%Z 0x0 0x62270000622d;
  mkModel 0x0 (-1)%Z 0x0 0x18000000182;
  mkModel 0x2700000027 (-1)%Z 0x197df000197e6 0x197e6000197ec;
  mkModel 0x2700000027 (-1)%Z 0x197ec000197f3 0x197f3000197fc;
  mkModel 0x2700000027 (-1)%Z 0x197fc00019803 0x198030001980a;
  mkModel 0x2700000027 (-1)%Z 0x1980a00019812 0x198120001981b;
  mkModel 0x2a1000002a7 (7073)%Z 0x0 0x18000000182;
  mkModel 0x2700000027 (7074)%Z 0x0 0x18000000182;
  mkModel 0x2700000027 (7075)%Z 0x0 0x18000000182;
  mkModel 0x2700000027 (7076)%Z 0x0 0x18000000182;
  mkModel 0x2700000027 (7077)%Z 0x0 0x500000005006;
  mkModel 0x2700000027 (7078)%Z 0x0 0x18000000182;
  mkModel 0x2700000027 (7079)%Z 0x0 0x18000000182;
  mkModel 0x0 (-1)%Z 0x0 0x18000000182;
  mkModel 0x2700000027 (7082)%Z 0x0 0x135b7000135c0;
  mkModel 0x2700000027 (-1)%Z 0x198360001983d 0x1983d00019844;
  mkModel 0x2700000027 (-1)%Z 0x1984a00019857 0x198570001985d;
  mkModel 0x2700000027 (-1)%Z 0x1985d0001986b 0x1986b00019872;
  mkModel 0x2700000027 (7085)%Z 0x0 0x1940000019b;
  mkModel 0x2700000027 (7086)%Z 0x0 0x198780001987f;
  mkModel 0x2700000027 (7087)%Z 0x0 0x18000000182;
  mkModel 0x2700000027 (-1)%Z 0x1987f0001988a 0x1988a0001988e;
  mkModel 0x2700000027 (-1)%Z 0x1988e00019895 0x890b00008912;
  mkModel 0x2700000027 (7088)%Z 0x0 0x198950001989c;
  mkModel 0x2a1000002a7 (7089)%Z 0x0 0x18000000182;
  mkModel 0x2700000027 (-1)%Z 0x198a1000198a6 0x198a6000198b1;
  mkModel 0x2700000027 (-1)%Z 0x198b1000198b8 0x198b8000198c5;
  mkModel 0x2700000027 (7092)%Z 0x0 0x198ce000198d6;
  mkModel 0x2700000027 (7093)%Z 0x0 0x198d6000198e8;
  mkModel 0x23f00000249 (7094)%Z 0x0 0x198e8000198f2;
  mkModel 0x2700000027 (7095)%Z 0x0 0x198f2000198fb;
  mkModel 0x2700000027 (7096)%Z 0x0 0x4c4300004c49;
  mkModel 0x23f00000249 (7097)%Z 0x0 0x18000000182;
  mkModel 0x2700000027 (-1)%Z 0x1990100019910 0x1991000019916;
  mkModel 0x2700000027 (-1)%Z 0x1991600019925 0x1992500019929;
  mkModel 0x2700000027 (-1)%Z 0x1992900019938 0x199380001993e;
  mkModel 0x2700000027 (7099)%Z 0x0 0x199450001994b;
  mkModel 0x2700000027 (7100)%Z 0x0 0x1994b00019953;
  mkModel 0x2700000027 (7101)%Z 0x0 0x199530001995c;
  mkModel 0x2700000027 (7102)%Z 0x0 0x1995c00019965;
  mkModel 0x2700000027 (7103)%Z 0x0 0x199650001996c;
  mkModel 0x2700000027 (7104)%Z 0x0 0x1996c00019973;
  mkModel 0x2700000027 (-1)%Z 0x1997900019981 0x1998100019989;
  mkModel 0x2700000027 (7106)%Z 0x0 0x199890001998f;
  mkModel 0x2700000027 (7107)%Z 0x0 0x18000000182;
  mkModel 0x2a1000002a7 (7108)%Z 0x0 0x18000000182;
  mkModel 0x23b0000023d (7109)%Z 0x0 0x2700000027;
  mkModel 0x23b0000023d (7110)%Z 0x0 0x1998f0001999d;
  mkModel 0x2a1000002a7 (7111)%Z 0x0 0x1999d000199a3;
  mkModel 0x62600000633 (7113)%Z 0x0 0x18000000182;
  mkModel 0x2700000027 (7114)%Z 0x0 0x199aa000199b3;
  mkModel 0x2700000027 (7115)%Z 0x0 0x199aa000199b3;
  mkModel 0x2700000027 (7116)%Z 0x0 0x18000000182;
  mkModel 0x23b0000023d (7117)%Z 0x0 0xbc5e0000bc68;
  mkModel 0x2a1000002a7 (7118)%Z 0x0 0x18000000182;
  mkModel 0x23b0000023d (7119)%Z 0x0 0x18000000182;
  mkModel 0x23b0000023d (7120)%Z 0x0 0x2700000027;
  mkModel 0x23b0000023d (7121)%Z 0x0 0x18000000182;
  mkModel 0x23b0000023d (7122)%Z 0x0 0x199b3000199bf;
  mkModel 0x23b0000023d (7123)%Z 0x0 0x199bf000199d5;
  mkModel 0x2a1000002a7 (7124)%Z 0x0 0x199d5000199de;
  mkModel 0x2a1000002a7 (7125)%Z 0x0 0x18000000182;
  mkModel 0x2a1000002a7 (7126)%Z 0x0 0x199de000199e4;
  mkModel 0x23b0000023d (7127)%Z 0x0 0x199e4000199fa;
  mkModel 0x23b0000023d (7128)%Z 0x0 0x18000000182;
  mkModel 0x23b0000023d (7129)%Z 0x0 0x199fa00019a06;
  mkModel 0x23b0000023d (-1)%Z 0x19a0600019a14 0x19a1400019a20;
  mkModel 0x2700000027 (7130)%Z 0x0 0x19a2000019a28;
  mkModel 0x7cc000007d6 (-1)%Z 0x19a2800019a31 0x19a2800019a31;
  mkModel 0x7cc000007d6 (-1)%Z 0x19a3100019a37 0x19a3700019a42;
  mkModel 0x2700000027 (7131)%Z 0x0 0x18000000182;
  mkModel 0x2700000027 (7133)%Z 0x0 0x19a4a00019a52;
  mkModel 0x2700000027 (7134)%Z 0x0 0x1e0000001e6;
  mkModel 0x2700000027 (7135)%Z 0x0 0x19a5200019a56;
  mkModel 0x2700000027 (7136)%Z 0x0 0x19a5600019a5d;
  mkModel 0x2700000027 (7137)%Z 0x0 0x13bfd00013c04;
  mkModel 0x2700000027 (7139)%Z 0x0 0x18000000182;
  mkModel 0x2700000027 (-1)%Z 0x19a6100019a6a 0x199de000199e4;
  mkModel 0x23b0000023d (7140)%Z 0x0 0x18000000182;
  mkModel 0x2700000027 (-1)%Z 0x19a6e00019a77 0x19a7700019a81;
  mkModel 0x2700000027 (7142)%Z 0x0 0x18000000182;
  mkModel 0x2700000027 (7143)%Z 0x0 0x18000000182;
  mkModel 0x2a1000002a7 (7145)%Z 0x0 0x19a8800019a8a;
  mkModel 0x2a1000002a7 (-1)%Z 0x19a8a00019a92 0x19a9200019a9f;
  mkModel 0xbf670000bf7c (7146)%Z 0x0 0x18000000182;
  mkModel 0x8e00000099 (7147)%Z 0x0 0x18000000182;
  mkModel 0x23b0000023d (-1)%Z 0x19a9f00019aa6 0x19a9f00019aa6;
  mkModel 0x23b0000023d (7148)%Z 0x0 0x18000000182;
  mkModel 0x2700000027 (7149)%Z 0x0 0x18000000182;
  mkModel 0x2700000027 (7150)%Z 0x0 0x18000000182;
  mkModel 0x0 (-1)%Z 0x0 0x18000000182;
  mkModel 0x0 (-1)%Z 0x0 0x19abd00019ac8;
  mkModel 0x0 (-1)%Z 0x0 0x1e3400001e36;
  mkModel 0x2700000027 (7155)%Z 0x0 0x19ad700019adf;
  mkModel 0x2700000027 (7156)%Z 0x0 0x19adf00019aed;
  mkModel 0x2700000027 (-1)%Z 0x19aed00019af5 0x19aed00019af5;
  mkModel 0x2700000027 (-1)%Z 0x19af500019afe 0x19af500019afe;
  mkModel 0x2700000027 (-1)%Z 0x19afe00019b05 0x19afe00019b05;
  mkModel 0x2700000027 (7157)%Z 0x0 0x55200000557;
  mkModel 0x2700000027 (7158)%Z 0x0 0x19b0500019b09;
  mkModel 0x2700000027 (7159)%Z 0x0 0x19b0900019b0f;
  mkModel 0x2700000027 (7160)%Z 0x0 0x19b0f00019b14;
  mkModel 0x2700000027 (7161)%Z 0x0 0x19b1400019b18;
  mkModel 0x2700000027 (7162)%Z 0x0 0x19b1800019b1c;
  mkModel 0x2700000027 (7163)%Z 0x0 0x1883a0001883f;
  mkModel 0x2700000027 (7164)%Z 0x0 0x19b1c00019b21;
  mkModel 0x2700000027 (7165)%Z 0x0 0x19b2100019b2b;
  mkModel 0x2700000027 (7166)%Z 0x0 0x19b2b00019b35;
  mkModel 0x2700000027 (7167)%Z 0x0 0x19b3500019b40;
  mkModel 0x2700000027 (7168)%Z 0x0 0x19b4000019b4b;
  mkModel 0x2700000027 (7169)%Z 0x0 0x19b4b00019b59;
  mkModel 0x2700000027 (7170)%Z 0x0 0xbcce0000bcd4;
  mkModel 0x23f00000249 (-1)%Z 0x19b5900019b5d 0x19b5900019b5d;
  mkModel 0x23f00000249 (-1)%Z 0x19b5d00019b66 0x19b6600019b69;
  mkModel 0x23f00000249 (-1)%Z 0x19b6900019b74 0x19b7400019b79;
  mkModel 0x2700000027 (7172)%Z 0x0 0x18000000182
].
Definition d_dr_dm_47 : list modelTuple := [
  mkModel 0x2700000027 (7173)%Z 0x0 0x19b8900019b92;
  mkModel 0x0 (-1)%Z 0x0 0x18000000182;
  mkModel 0x2700000027 (7175)%Z 0x0 0x19baa00019bb2;
  mkModel 0x2700000027 (-1)%Z 0x19bb800019bc1 0x19bc100019bcc;
  mkModel 0x2700000027 (-1)%Z 0x19bcc00019bd9 0x19bd900019be6;
  mkModel 0x2700000027 (7177)%Z 0x0 0x19be600019bed;
  mkModel 0x2700000027 (-1)%Z 0x19bf100019bf5 0x19bf500019bfc;
  mkModel 0x2700000027 (-1)%Z 0x19bfc00019c00 0x19c0000019c05;
  mkModel 0x2700000027 (-1)%Z 0x19c0500019c09 0x19c0900019c10;
  mkModel 0x2700000027 (-1)%Z 0x19c1000019c14 0x19c1400019c1d;
  mkModel 0x2700000027 (-1)%Z 0x19c1d00019c21 0x19c2100019c28;
  mkModel 0x2a1000002a7 (-1)%Z 0x19c2800019c2c 0x19c2c00019c36;
  mkModel 0x2a1000002a7 (-1)%Z 0x19c3600019c3a 0x19c3a00019c43;
  mkModel 0x2a1000002a7 (-1)%Z 0x19c4300019c47 0x19c4700019c51;
  mkModel 0x0 (-1)%Z 0x0 0x4c4300004c49;
  mkModel 0x0 (-1)%Z 0x0 0x18000000182;
  mkModel 0x2700000027 (7182)%Z 0x0 0x197700001979;
  mkModel 0x2700000027 (7183)%Z 0x0 0x19c6900019c6f;
  mkModel 0x2700000027 (7184)%Z 0x0 0x19c6f00019c72;
  mkModel 0x2700000027 (7185)%Z 0x0 0x19c7200019c7b;
  mkModel 0x2700000027 (7186)%Z 0x0 0x19c7b00019c8b;
  mkModel 0x2700000027 (7187)%Z 0x0 0x19c8b00019c97;
  mkModel 0x2700000027 (7188)%Z 0x0 0x18000000182;
  mkModel 0x2700000027 (-1)%Z 0x19ca300019ca7 0x19ca300019ca7;
  mkModel 0x23b0000023d (-1)%Z 0x19cb400019cc5 0x19cc500019cd9;
  mkModel 0x23b0000023d (-1)%Z 0x19cd900019cea 0x19cea00019cfd;
  mkModel 0x23f00000249 (-1)%Z 0x19cfd00019d05 0x19d0500019d15;
  mkModel 0x2700000027 (-1)%Z 0x19d1500019d21 0x19d2100019d2e;
  mkModel 0x2700000027 (7190)%Z 0x0 0x19d2e00019d3b;
  mkModel 0x2700000027 (-1)%Z 0x19d3b00019d48 0x19d4800019d51;
  mkModel 0x2700000027 (-1)%Z 0x19d5100019d5d 0x19d5d00019d6a;
  mkModel 0x2700000027 (-1)%Z 0x19d6a00019d7a 0x19d7a00019d8b;
  mkModel 0x2700000027 (7191)%Z 0x0 0x19d8b00019d97;
  mkModel 0x2700000027 (-1)%Z 0x19d9700019da5 0x19da500019daf;
  mkModel 0x2700000027 (-1)%Z 0x19daf00019dbc 0x19dbc00019dc9;
  mkModel 0x2700000027 (7192)%Z 0x0 0x19dc900019dd2;
  mkModel 0x2700000027 (7193)%Z 0x0 0x19dd200019dda;
  mkModel 0x2700000027 (7195)%Z 0x0 0x18000000182;
  mkModel 0x0 (-1)%Z 0x0 0x18000000182;
  mkModel 0x2700000027 (-1)%Z 0x19df000019df6 0x19df600019dfe;
  mkModel 0x2700000027 (-1)%Z 0x19dfe00019e04 0x19e0400019e0c;
  mkModel 0x2700000027 (-1)%Z 0x19e0c00019e12 0x19e1200019e1a;
  mkModel 0x2700000027 (-1)%Z 0x19e1a00019e23 0x19e2300019e30;
  mkModel 0x2700000027 (-1)%Z 0x19e3000019e36 0x19e3600019e3d;
  mkModel 0x2700000027 (7198)%Z 0x0 0xff850000ff8d;
  mkModel 0x2700000027 (-1)%Z 0x19e3d00019e46 0x19e4600019e4e;
  mkModel 0x2700000027 (-1)%Z 0x19e4e00019e54 0x19e5400019e5b;
  mkModel 0x2700000027 (-1)%Z 0x19e5b00019e61 0x19e6100019e6d;
  mkModel 0x2700000027 (-1)%Z 0x19e6d00019e76 0x19e7600019e7e;
  mkModel 0x2700000027 (-1)%Z 0x19e7e00019e87 0x19e8700019e94;
  mkModel 0x2700000027 (-1)%Z 0x19e9400019e9a 0x19e9a00019ea1;
  mkModel 0x2700000027 (-1)%Z 0x19ea100019eaa 0x19eaa00019eb2;
  mkModel 0x2700000027 (-1)%Z 0x19eb200019ebb 0x19ebb00019ec3;
  mkModel 0x2700000027 (-1)%Z 0x19ec300019ec9 0x19ec900019ed2;
  mkModel 0x2700000027 (-1)%Z 0x19ed200019ed8 0x19ed800019ee1;
  mkModel 0x2700000027 (-1)%Z 0x19ee100019ee7 0x19ee700019eee;
  mkModel 0x2700000027 (-1)%Z 0x19eee00019ef7 0x19ef700019eff;
  mkModel 0x2700000027 (-1)%Z 0x19eff00019f05 0x19f0500019f08;
  mkModel 0x2700000027 (7199)%Z 0x0 0x19f0800019f0f;
  mkModel 0x2700000027 (-1)%Z 0x19f0f00019f16 0x19f1600019f1f;
  mkModel 0x2700000027 (-1)%Z 0x19f1f00019f26 0x19f2600019f2b;
  mkModel 0x2700000027 (-1)%Z 0x19f2b00019f32 0x19f3200019f39;
  mkModel 0x2700000027 (7200)%Z 0x0 0x19f3900019f40;
  mkModel 0x2700000027 (7201)%Z 0x0 0x19f4000019f45;
  mkModel 0x2700000027 (-1)%Z 0x19f4500019f4c 0x19f4c00019f5a;
  mkModel 0x2700000027 (-1)%Z 0x19f5a00019f62 0x19f6200019f66;
  mkModel 0x23b0000023d (-1)%Z 0x19f6600019f6b 0x19f6b00019f75;
  mkModel 0x23b0000023d (7202)%Z 0x0 0x2700000027;
  mkModel 0x2a1000002a7 (7203)%Z 0x0 0x19f7500019f7f;
  mkModel 0x2a1000002a7 (-1)%Z 0x19f7f00019f89 0x19f8900019f9a;
  mkModel 0x2a1000002a7 (7204)%Z 0x0 0x18000000182;
  mkModel 0x2a1000002a7 (7205)%Z 0x0 0x18000000182;
  mkModel 0x2a1000002a7 (7206)%Z 0x0 0x18000000182;
  mkModel 0x2a1000002a7 (-1)%Z 0x19de800019df0 0x2700000027;
  mkModel 0x23f00000249 (-1)%Z 0x19fa200019fb0 0x19fb000019fb5;
  mkModel 0x2700000027 (7209)%Z 0x0 0x18000000182;
  mkModel 0x2700000027 (7210)%Z 0x0 0x18000000182;
  mkModel 0x2700000027 (-1)%Z 0x19fc400019fc9 0x8faa00008fb0;
  mkModel 0x2700000027 (7212)%Z 0x0 0x19fc900019fd6;
  mkModel 0x2700000027 (-1)%Z 0x19fd600019fdb 0x19fdb00019fe4;
  mkModel 0x2700000027 (7213)%Z 0x0 0x19fe400019ff0;
  mkModel 0x2700000027 (7214)%Z 0x0 0x19ff000019ff9;
  mkModel 0x2700000027 (7215)%Z 0x0 0x19ff90001a002;
  mkModel 0x2700000027 (7216)%Z 0x0 0x1a0020001a00b;
  mkModel 0x2700000027 (7217)%Z 0x0 0x1a00b0001a014;
  mkModel 0x2700000027 (7218)%Z 0x0 0x1a0140001a01d;
  mkModel 0x2700000027 (7219)%Z 0x0 0x1a01d0001a026;
  mkModel 0x2700000027 (7220)%Z 0x0 0x1a0260001a02f;
  mkModel 0x2700000027 (7221)%Z 0x0 0x1a02f0001a03b;
  mkModel 0x2700000027 (7222)%Z 0x0 0x1a03b0001a044;
  mkModel 0x2700000027 (7223)%Z 0x0 0x1a0440001a04d;
  mkModel 0x2700000027 (7224)%Z 0x0 0x1a04d0001a056;
  mkModel 0x2700000027 (7225)%Z 0x0 0x1a0560001a061;
  mkModel 0x2700000027 (7226)%Z 0x0 0x1a0610001a070;
  mkModel 0x2700000027 (-1)%Z 0x1a0700001a075 0x1a0750001a07a;
  mkModel 0x2700000027 (-1)%Z 0x1a07a0001a07f 0x1a07f0001a08c;
  mkModel 0x2700000027 (-1)%Z 0x1a08c0001a091 0x1a0910001a09a;
  mkModel 0x2700000027 (-1)%Z 0x1a09a0001a09f 0x1a09f0001a0a8;
  mkModel 0x2700000027 (-1)%Z 0x1a0a80001a0ad 0x1a0ad0001a0b6;
  mkModel 0x2700000027 (7227)%Z 0x0 0x1a0b60001a0c1;
  mkModel 0x2700000027 (7228)%Z 0x0 0x1a0c10001a0c9;
  mkModel 0x2700000027 (7229)%Z 0x0 0x1a0c90001a0d4;
  mkModel 0x2700000027 (-1)%Z 0x1a0d40001a0d9 0x1a0d90001a0e3;
  mkModel 0x2700000027 (-1)%Z 0x1a0e30001a0e8 0x1a0e80001a0f7;
  mkModel 0x2700000027 (-1)%Z 0x1a0f70001a0fc 0x1a0fc0001a104;
  mkModel 0x2700000027 (-1)%Z 0x1a1040001a109 0x1a1090001a11a;
  mkModel 0x2700000027 (7230)%Z 0x0 0x1a11a0001a124;
  mkModel 0x2700000027 (7231)%Z 0x0 0x1a1240001a12f;
  mkModel 0x2700000027 (7232)%Z 0x0 0x1a12f0001a139;
  mkModel 0x2700000027 (7233)%Z 0x0 0x1a1390001a143;
  mkModel 0x2700000027 (7234)%Z 0x0 0x1a1430001a152;
  mkModel 0x2700000027 (-1)%Z 0x1a1520001a159 0x1a1520001a159;
  mkModel 0x2700000027 (-1)%Z 0x1a1590001a15e 0x1a1590001a15e;
  mkModel 0x2700000027 (-1)%Z 0x1a15e0001a163 0x1a1630001a16b;
  mkModel 0x2a1000002a7 (7235)%Z 0x0 0x1a16b0001a178;
  mkModel 0x2a1000002a7 (7236)%Z 0x0 0x1a1780001a182;
  mkModel 0x2700000027 (7238)%Z 0x0 0x18000000182;
  mkModel 0x2700000027 (7239)%Z 0x0 0x18000000182;
  mkModel 0x0 (-1)%Z 0x0 0x88fa000088fc;
  mkModel 0x0 (-1)%Z 0x0 0x18000000182;
  mkModel 0x2700000027 (-1)%Z 0x1a1cc0001a1d4 0x1a1d40001a1dc;
  mkModel 0x2700000027 (7242)%Z 0x0 0x8fc600008fca;
  mkModel 0x2700000027 (7243)%Z 0x0 0x18000000182;
  mkModel 0x2700000027 (-1)%Z 0x1a1dc0001a1e8 0x1a1dc0001a1e8;
  mkModel 0x2700000027 (-1)%Z 0x1a1e80001a1f3 0x1a1e80001a1f3;
  mkModel 0x2700000027 (7244)%Z 0x0 0x1a1f30001a1fd;
  mkModel 0x2700000027 (-1)%Z 0x1a1fd0001a201 0x1a2010001a20c;
  mkModel 0x2700000027 (-1)%Z 0x1a20c0001a211 0x1a2110001a21c;
  mkModel 0x2700000027 (-1)%Z 0x1a21c0001a224 0x1a21c0001a224;
  mkModel 0x2700000027 (-1)%Z 0x1a2240001a22b 0x1a2240001a22b;
  mkModel 0x2a1000002a7 (-1)%Z 0x1a22b0001a230 0x1a22b0001a230;
  mkModel 0x2a1000002a7 (-1)%Z 0x1a2300001a23c 0x1a23c0001a248;
  mkModel 0x2700000027 (7246)%Z 0x0 0x1a2540001a25a;
  mkModel 0x2700000027 (7247)%Z 0x0 0x1a25a0001a266;
  mkModel 0x2700000027 (7248)%Z 0x0 0x1a2660001a276;
  mkModel 0x2700000027 (7249)%Z 0x0 0x1a2760001a281;
  mkModel 0x2700000027 (7250)%Z 0x0 0x1a2810001a28a;
  mkModel 0x2700000027 (7251)%Z 0x0 0x1a28a0001a294;
  mkModel 0x2700000027 (7252)%Z 0x0 0x1a2940001a29f;
  mkModel 0x2700000027 (7253)%Z 0x0 0x1a29f0001a2a9;
  mkModel 0x2700000027 (7254)%Z 0x0 0x1a2a90001a2b4;
  mkModel 0x2700000027 (7255)%Z 0x0 0x1a2b40001a2bc;
  mkModel 0x2700000027 (7256)%Z 0x0 0x1a2bc0001a2c4;
  mkModel 0x2700000027 (7257)%Z 0x0 0x1a2c40001a2cc;
  mkModel 0x2700000027 (7258)%Z 0x0 0x1a2cc0001a2d2;
  mkModel 0x2a1000002a7 (7259)%Z 0x0 0x18000000182;
  mkModel 0x2a1000002a7 (7260)%Z 0x0 0x1a2d20001a2d8;
  mkModel 0x2a1000002a7 (7261)%Z 0x0 0x1a2d80001a2e1;
  mkModel 0x0 (-1)%Z 0x0 0x1a2e90001a2f4;
  mkModel 0x2700000027 (-1)%Z 0x1a3000001a307 0x1a3070001a30e;
  mkModel 0x2700000027 (-1)%Z 0x1a30e0001a319 0xd2920000d295;
  mkModel 0x2700000027 (-1)%Z 0x1a31f0001a32b 0x107300001075;
  mkModel 0x2700000027 (-1)%Z 0x1a32b0001a331 0x1a3310001a337;
  mkModel 0x2700000027 (-1)%Z 0x1a3370001a33a 0x1a3370001a33a;
  mkModel 0x2700000027 (-1)%Z 0x1a33a0001a346 0x1a3460001a34a;
  mkModel 0x2700000027 (-1)%Z 0x1a34a0001a356 0x1a3560001a35a;
  mkModel 0x2700000027 (-1)%Z 0x1a35a0001a366 0x1a3660001a36a;
  mkModel 0x2700000027 (-1)%Z 0x1a36a0001a376 0x1a3760001a37a;
  mkModel 0x2700000027 (7265)%Z 0x0 0x1a37a0001a384;
  mkModel 0x2700000027 (7266)%Z 0x0 0x18000000182;
  mkModel 0x23f00000249 (-1)%Z 0x1a38d0001a39f 0x1a39f0001a3b2;
  mkModel 0x23f00000249 (7268)%Z 0x0 0x1a3b20001a3c3;
  mkModel 0x23f00000249 (7269)%Z 0x0 0x1a3c30001a3d0;
  mkModel 0x23f00000249 (-1)%Z 0x1a3d00001a3da 0x1a3da0001a3e2;
  mkModel 0x23f00000249 (-1)%Z 0x1a3e20001a3ec 0x1a3ec0001a3f8;
  mkModel 0x23f00000249 (-1)%Z 0x1a3f80001a402 0x1a4020001a40e;
  mkModel 0x23f00000249 (-1)%Z 0x1a40e0001a418 0x1a4180001a420;
  mkModel 0x23f00000249 (-1)%Z 0x1a4200001a42a 0x1a42a0001a432;
  mkModel 0x23f00000249 (-1)%Z 0x1a4320001a43c 0x1a43c0001a444;
  mkModel 0x23f00000249 (-1)%Z 0x1a4440001a44e 0x1a44e0001a456;
  mkModel 0x23f00000249 (-1)%Z 0x1a4560001a460 0x1a4600001a46c;
  mkModel 0x23f00000249 (-1)%Z 0x1a46c0001a476 0x1a4760001a47e;
  mkModel 0x23f00000249 (-1)%Z 0x1a47e0001a488 0x1a4880001a494;
  mkModel 0x23f00000249 (-1)%Z 0x1a4940001a49e 0x1a49e0001a4a6;
  mkModel 0x23f00000249 (-1)%Z 0x1a4a60001a4b0 0x1a4b00001a4bc;
  mkModel 0x23f00000249 (-1)%Z 0x1a4bc0001a4c6 0x1a4c60001a4ce;
  mkModel 0x23f00000249 (-1)%Z 0x1a4ce0001a4d8 0x1a4d80001a4df;
  mkModel 0x23f00000249 (-1)%Z 0x1a4df0001a4e9 0x1a4e90001a4f4;
  mkModel 0x23f00000249 (-1)%Z 0x1a4f40001a4fe 0x1a4fe0001a509;
  mkModel 0x23f00000249 (-1)%Z 0x1a5090001a513 0x1a5130001a51e;
  mkModel 0x23f00000249 (-1)%Z 0x1a51e0001a528 0x1a5280001a533;
  mkModel 0x23f00000249 (-1)%Z 0x1a5330001a53d 0x1a53d0001a548;
  mkModel 0x23f00000249 (-1)%Z 0x1a5480001a552 0x1a5520001a559;
  mkModel 0x23f00000249 (-1)%Z 0x1a5590001a563 0x1a5630001a56e;
  mkModel 0x23f00000249 (-1)%Z 0x1a56e0001a578 0x1a5780001a583;
  mkModel 0x23f00000249 (-1)%Z 0x1a5830001a58d 0x1a58d0001a594;
  mkModel 0x23f00000249 (-1)%Z 0x1a5940001a59e 0x1a59e0001a5a9;
  mkModel 0x23f00000249 (-1)%Z 0x1a5a90001a5b3 0x1a5b30001a5be;
  mkModel 0x23f00000249 (-1)%Z 0x1a5be0001a5c8 0x1a5c80001a5d3;
  mkModel 0x23f00000249 (-1)%Z 0x1a5d30001a5dd 0x1a5dd0001a5e8;
  mkModel 0x23f00000249 (-1)%Z 0x1a5e80001a5f2 0x1a5f20001a5fd;
  mkModel 0x23f00000249 (-1)%Z 0x1a5fd0001a607 0x1a6070001a612;
  mkModel 0x23f00000249 (7270)%Z 0x0 0x1a6120001a619;
  mkModel 0x23f00000249 (-1)%Z 0x1a6190001a623 0x1a6230001a62a;
  mkModel 0x23f00000249 (-1)%Z 0x1a62a0001a634 0x1a6340001a63b;
  mkModel 0x23f00000249 (-1)%Z 0x1a63b0001a645 0x1a6450001a64c;
  mkModel 0x23f00000249 (-1)%Z 0x1a64c0001a656 0x1a6560001a65d;
  mkModel 0x23f00000249 (-1)%Z 0x1a65d0001a667 0x1a6670001a66e;
  mkModel 0x23f00000249 (-1)%Z 0x1a66e0001a678 0x1a6780001a67f;
  mkModel 0x23f00000249 (-1)%Z 0x1a67f0001a689 0x1a6890001a690
].
Definition d_dr_dm_48 : list modelTuple := [
  mkModel 0x23f00000249 (-1)%Z 0x1a6900001a69a 0x1a69a0001a6a2;
  mkModel 0x23f00000249 (-1)%Z 0x1a6a20001a6ac 0x1a6ac0001a6b3;
  mkModel 0x23f00000249 (-1)%Z 0x1a6b30001a6bd 0x1a6bd0001a6c4;
  mkModel 0x23f00000249 (-1)%Z 0x1a6c40001a6ce 0x1a6ce0001a6d9;
  mkModel 0x23f00000249 (-1)%Z 0x1a6d90001a6e3 0x1a6e30001a6ea;
  mkModel 0x23f00000249 (-1)%Z 0x1a6ea0001a6f4 0x1a6f40001a6fc;
  mkModel 0x23f00000249 (-1)%Z 0x1a6fc0001a706 0x1a7060001a70e;
  mkModel 0x23f00000249 (-1)%Z 0x1a70e0001a718 0x1a7180001a720;
  mkModel 0x23f00000249 (-1)%Z 0x1a7200001a72a 0x1a72a0001a732;
  mkModel 0x2700000027 (-1)%Z 0x1a7320001a73c 0x1a73c0001a746;
  mkModel 0x2700000027 (-1)%Z 0x1a7460001a750 0x1a7500001a767;
  mkModel 0x2700000027 (-1)%Z 0x1a7670001a771 0x1a7710001a77b;
  mkModel 0x2700000027 (-1)%Z 0x1a77b0001a786 0x1a7860001a78f;
  mkModel 0x2700000027 (-1)%Z 0x1a78f0001a798 0x1a7980001a7a5;
  mkModel 0x2700000027 (-1)%Z 0x1a7a50001a7b1 0x1a7b10001a7bd;
  mkModel 0x2700000027 (-1)%Z 0x1a7bd0001a7c7 0x1a7c70001a7d4;
  mkModel 0x2700000027 (-1)%Z 0x1a7d40001a7db 0x1a7db0001a7e5;
  mkModel 0x2700000027 (-1)%Z 0x1a7e50001a7ec 0x1a7ec0001a7f7;
  mkModel 0x2700000027 (-1)%Z 0x1a7f70001a801 0x1a8010001a81b;
  mkModel 0x2700000027 (7271)%Z 0x0 0x1a81b0001a82c;
  mkModel 0x2700000027 (7272)%Z 0x0 0x1a82c0001a83b;
  mkModel 0x2700000027 (7273)%Z 0x0 0x1a83b0001a84c;
  mkModel 0x2700000027 (7274)%Z 0x0 0x1a84c0001a858;
  mkModel 0x2700000027 (-1)%Z 0x1a8580001a862 0x1a8620001a878;
  mkModel 0x2700000027 (-1)%Z 0x1a8780001a882 0x1a8820001a887;
  mkModel 0x2700000027 (7275)%Z 0x0 0x1a8870001a89b;
  mkModel 0x2700000027 (7276)%Z 0x0 0x1a89b0001a8a6;
  mkModel 0x2700000027 (7277)%Z 0x0 0x1a8a60001a8b1;
  mkModel 0x2700000027 (7278)%Z 0x0 0x1a8b10001a8b6;
  mkModel 0x2700000027 (7279)%Z 0x0 0x1a8b60001a8bb;
  mkModel 0x23b0000023d (7280)%Z 0x0 0x1a8bb0001a8c5;
  mkModel 0x23b0000023d (7281)%Z 0x0 0x1a8c50001a8d3;
  mkModel 0x23b0000023d (7282)%Z 0x0 0x18000000182;
  mkModel 0x2700000027 (7283)%Z 0x0 0x18000000182;
  mkModel 0x23f00000249 (7284)%Z 0x0 0x18000000182;
  mkModel 0x2700000027 (7286)%Z 0x0 0x1a8db0001a8e4;
  mkModel 0x2700000027 (7287)%Z 0x0 0x1a8e40001a8eb;
  mkModel 0x2700000027 (7289)%Z 0x0 0x1a8f10001a8fa;
  mkModel 0x2700000027 (7290)%Z 0x0 0x1a8fa0001a901;
  mkModel 0x2700000027 (7291)%Z 0x0 0x1a9010001a909;
  mkModel 0x2700000027 (7292)%Z 0x0 0x1a9090001a90e;
  mkModel 0x2700000027 (7293)%Z 0x0 0x1a90e0001a914;
  mkModel 0x2700000027 (7294)%Z 0x0 0x5e2d00005e35;
  mkModel 0x2700000027 (7295)%Z 0x0 0x1a9140001a91e;
  mkModel 0x2a1000002a7 (7296)%Z 0x0 0x1a91e0001a920;
  mkModel 0x2a1000002a7 (7297)%Z 0x0 0x1a9200001a927;
  mkModel 0x2a1000002a7 (7298)%Z 0x0 0x1a9270001a92f;
  mkModel 0x2a1000002a7 (7299)%Z 0x0 0x1a92f0001a937;
  mkModel 0x2700000027 (-1)%Z 0x1a93d0001a945 0x1a9450001a94d;
  mkModel 0x2700000027 (7301)%Z 0x0 0x1a94d0001a955;
  mkModel 0x2700000027 (-1)%Z 0x1a9550001a95c 0x1a95c0001a963;
  mkModel 0x2700000027 (-1)%Z 0x1a9630001a96a 0x1a96a0001a971;
  mkModel 0x2700000027 (-1)%Z 0x1a9710001a978 0x1a9780001a97f;
  mkModel 0x2700000027 (-1)%Z 0x1a97f0001a987 0x1a9870001a98f;
  mkModel 0x2700000027 (7302)%Z 0x0 0x1a98f0001a996;
  mkModel 0x2700000027 (7303)%Z 0x0 0x12a1b00012a1e;
  mkModel 0x2700000027 (-1)%Z 0x1a9960001a99c 0x1a99c0001a99e;
  mkModel 0x2700000027 (-1)%Z 0x1a99e0001a9a3 0x1a9a30001a9b1;
  mkModel 0x23f00000249 (7305)%Z 0x0 0x18000000182;
  mkModel 0x2700000027 (7306)%Z 0x0 0x18000000182;
  mkModel 0x2700000027 (7308)%Z 0x0 0x1a9bf0001a9c4;
  mkModel 0x2700000027 (7309)%Z 0x0 0x1a9c40001a9ca;
  mkModel 0x0 (-1)%Z 0x0 0x18000000182;
  mkModel 0x23f00000249 (7312)%Z 0x0 0x1a9da0001a9e3;
  mkModel 0x23f00000249 (-1)%Z 0x1a9e30001a9e7 0x1a9e70001a9ef;
  mkModel 0x2700000027 (7313)%Z 0x0 0x18000000182;
  mkModel 0x0 (-1)%Z 0x0 0x18000000182;
  mkModel 0x0 (-1)%Z 0x0 0x18000000182;
  mkModel 0x0 (-1)%Z 0x0 0x18000000182;
  mkModel 0x2700000027 (-1)%Z 0x1aa090001aa11 0x1aa090001aa11;
  mkModel 0x2700000027 (7319)%Z 0x0 0x18000000182;
  mkModel 0x2700000027 (7321)%Z 0x0 0x18000000182;
  mkModel 0x2a1000002a7 (-1)%Z 0x1aa230001aa2b 0x1aa230001aa2b;
  mkModel 0x0 (-1)%Z 0x0 0x18000000182;
  mkModel 0x2700000027 (7324)%Z 0x0 0x98b7000098be;
  mkModel 0x2700000027 (7325)%Z 0x0 0x98c4000098c7;
  mkModel 0x2700000027 (7327)%Z 0x0 0x1aa360001aa3f;
  mkModel 0x2700000027 (-1)%Z 0x1aa460001aa53 0x1aa530001aa61;
  mkModel 0x2700000027 (7329)%Z 0x0 0x1aa610001aa6c;
  mkModel 0x2700000027 (-1)%Z 0x1aa6c0001aa78 0x1aa780001aa84;
  mkModel 0x2700000027 (7330)%Z 0x0 0x1aa840001aa8b;
  mkModel 0x2700000027 (-1)%Z 0x10340000103b 0x10340000103b;
  mkModel 0x2700000027 (7331)%Z 0x0 0x1aa8b0001aa94;
  mkModel 0x2700000027 (-1)%Z 0x1aa940001aa9b 0x1aa9b0001aaa7;
  mkModel 0x2700000027 (7332)%Z 0x0 0x1aa840001aa8b;
  mkModel 0x2700000027 (-1)%Z 0x1aaa70001aaae 0x1aaa70001aaae;
  mkModel 0x2700000027 (-1)%Z 0x1aaae0001aab7 0x1aaae0001aab7;
  mkModel 0x2700000027 (7333)%Z 0x0 0x500000005006;
  mkModel 0x2700000027 (-1)%Z 0xf3ed0000f3f2 0xf3ed0000f3f2;
  mkModel 0x2700000027 (7334)%Z 0x0 0x1aab70001aac4;
  mkModel 0x2700000027 (-1)%Z 0x1aac40001aad0 0x1aac40001aad0;
  mkModel 0x2700000027 (-1)%Z 0x1aad00001aadb 0x1aadb0001aae6;
  mkModel 0x2700000027 (-1)%Z 0x1aae60001aaf3 0x1aaf30001ab00;
  mkModel 0x2700000027 (-1)%Z 0x1ab000001ab08 0x1ab080001ab10;
  mkModel 0x2700000027 (-1)%Z 0x1ab100001ab18 0x1ab100001ab18;
  mkModel 0x2700000027 (-1)%Z 0x1ab180001ab20 0x1ab200001ab28;
  mkModel 0x2700000027 (-1)%Z 0x1ab280001ab2e 0x1ab2e0001ab34;
  mkModel 0x2700000027 (-1)%Z 0x1ab340001ab3a 0x1ab3a0001ab40;
  mkModel 0x2700000027 (7335)%Z 0x0 0x1ab400001ab49;
  mkModel 0x2700000027 (7336)%Z 0x0 0x1ab490001ab54;
  mkModel 0x2700000027 (7337)%Z 0x0 0x1ab540001ab5e;
  mkModel 0x2700000027 (-1)%Z 0x1ab5e0001ab66 0x1ab660001ab70;
  mkModel 0x2700000027 (-1)%Z 0x1ab700001ab77 0x1ab770001ab7e;
  mkModel 0x2700000027 (-1)%Z 0x1ab7e0001ab86 0x1ab7e0001ab86;
  mkModel 0x2700000027 (-1)%Z 0x1ab860001ab91 0x1ab910001ab94;
  mkModel 0x2700000027 (-1)%Z 0x1ab940001aba0 0x1aba00001abac;
  mkModel 0x2700000027 (-1)%Z 0x1abac0001abb7 0x1abac0001abb7;
  mkModel 0x2700000027 (7338)%Z 0x0 0x1abb70001abc4;
  mkModel 0x2700000027 (-1)%Z 0x1abc40001abd0 0x1abc40001abd0;
  mkModel 0x2700000027 (-1)%Z 0x1abd00001abda 0x1abd00001abda;
  mkModel 0x2700000027 (-1)%Z 0x1abda0001abe5 0x1abda0001abe5;
  mkModel 0x2700000027 (7339)%Z 0x0 0x1abe50001abec;
  mkModel 0x2700000027 (7340)%Z 0x0 0x18000000182;
  mkModel 0x2700000027 (-1)%Z 0x1abec0001abfd 0x1abec0001abfd;
  mkModel 0x2700000027 (-1)%Z 0x1abfd0001ac0d 0x1abfd0001ac0d;
  mkModel 0x2700000027 (-1)%Z 0x1ac0d0001ac1c 0x1ac1c0001ac2b;
  mkModel 0x2700000027 (-1)%Z 0x1ac2b0001ac3a 0x1ac3a0001ac49;
  mkModel 0x2700000027 (-1)%Z 0x1ac490001ac57 0x1ac570001ac65;
  mkModel 0x2700000027 (-1)%Z 0x1ac650001ac76 0x1ac650001ac76;
  mkModel 0x2700000027 (7341)%Z 0x0 0x1ac760001ac83;
  mkModel 0x2700000027 (7342)%Z 0x0 0x18000000182;
  mkModel 0x2700000027 (7343)%Z 0x0 0x1ac830001ac8a;
  mkModel 0x2700000027 (7344)%Z 0x0 0x1ac8a0001ac92;
  mkModel 0x2700000027 (7345)%Z 0x0 0x1ac920001ac95;
  mkModel 0x2700000027 (7346)%Z 0x0 0x1ac950001ac9e;
  mkModel 0x2700000027 (7347)%Z 0x0 0x8e4a00008e53;
  mkModel 0x2a1000002a7 (7348)%Z 0x0 0x1ac9e0001aca4;
  mkModel 0x2a1000002a7 (7349)%Z 0x0 0x1ac9e0001aca4;
  mkModel 0x2700000027 (7350)%Z 0x0 0x1940000019b;
  mkModel 0x2700000027 (7351)%Z 0x0 0x500000005006;
  mkModel 0x2700000027 (7352)%Z 0x0 0x18000000182;
  mkModel 0x2700000027 (-1)%Z 0x1aca40001acae 0x1aca40001acae;
  mkModel 0x2700000027 (7354)%Z 0x0 0x1acb30001acb9;
  mkModel 0x0 (-1)%Z 0x0 0x18000000182;
  mkModel 0x2700000027 (-1)%Z 0x1acc40001accc 0x1accc0001acd6;
  mkModel 0x2700000027 (-1)%Z 0x1acd60001acdf 0x1acdf0001ace9;
  mkModel 0x2700000027 (-1)%Z 0x1ace90001acf3 0x1acf30001acfd;
  mkModel 0x2700000027 (-1)%Z 0x1acfd0001ad05 0x1ad050001ad0f;
  mkModel 0x2700000027 (-1)%Z 0x1ad0f0001ad18 0x1ad180001ad22;
  mkModel 0x2700000027 (-1)%Z 0x1ad220001ad2a 0x1ad2a0001ad34;
  mkModel 0x2700000027 (-1)%Z 0x1ad340001ad3d 0x1ad3d0001ad47;
  mkModel 0x2700000027 (-1)%Z 0x1ad470001ad51 0x1ad510001ad5c;
  mkModel 0x2700000027 (-1)%Z 0x1ad5c0001ad66 0x1ad660001ad71;
  mkModel 0x2700000027 (7357)%Z 0x0 0x1ad710001ad7c;
  mkModel 0x2700000027 (-1)%Z 0x1ad7c0001ad85 0x1ad850001ad90;
  mkModel 0x2a1000002a7 (-1)%Z 0x1ad900001ad96 0x1175200011754;
  mkModel 0x2a1000002a7 (-1)%Z 0x1ad960001ad9e 0x1ad9e0001ada6;
  mkModel 0x2a1000002a7 (-1)%Z 0x1ada60001adad 0x1adad0001adb5;
  mkModel 0x2a1000002a7 (-1)%Z 0x1adb50001adbd 0x1adbd0001adc7;
  mkModel 0x2a1000002a7 (-1)%Z 0x1adc70001adcd 0x1adcd0001add4;
  mkModel 0x2a1000002a7 (-1)%Z 0x1add40001addd 0x1addd0001ade8;
  mkModel 0x2a1000002a7 (7358)%Z 0x0 0x18000000182;
  mkModel 0x2a1000002a7 (-1)%Z 0x1ade80001adef 0x1adef0001adf4;
  mkModel 0x2a1000002a7 (-1)%Z 0x1adf40001adfc 0x1adfc0001ae01;
  mkModel 0x2a1000002a7 (7359)%Z 0x0 0x18000000182;
  mkModel 0x2700000027 (7360)%Z 0x0 0x18000000182;
  mkModel 0x2700000027 (7361)%Z 0x0 0x18000000182;
  mkModel 0x2a1000002a7 (-1)%Z 0x1ae010001ae06 0x1ae060001ae0a;
  mkModel 0x2a1000002a7 (7362)%Z 0x0 0x18000000182;
  mkModel 0x23b0000023d (7363)%Z 0x0 0xe3400000e3c;
  mkModel 0x2700000027 (7365)%Z 0x0 0x18000000182;
  mkModel 0x2700000027 (7367)%Z 0x0 0x1ae1c0001ae26;
  mkModel 0x2700000027 (7368)%Z 0x0 0x1ae260001ae32;
  mkModel 0x2700000027 (-1)%Z 0x1ae320001ae3a 0x1ae320001ae3a;
  mkModel 0x2700000027 (7369)%Z 0x0 0x1ae3a0001ae47;
  mkModel 0x2700000027 (7370)%Z 0x0 0x1ae470001ae4f;
  mkModel 0x2700000027 (7371)%Z 0x0 0x1ae4f0001ae57;
  mkModel 0x2700000027 (7372)%Z 0x0 0x1ae570001ae65;
  mkModel 0x0 (-1)%Z 0x0 0x18000000182;
  mkModel 0x0 (-1)%Z 0x0 0x1ae780001ae83;
  mkModel 0x2700000027 (7376)%Z 0x0 0x1ae8a0001ae92;
  mkModel 0x2700000027 (7377)%Z 0x0 0x1ae920001ae96;
  mkModel 0x2700000027 (7378)%Z 0x0 0x1ae960001ae9b;
  mkModel 0x2700000027 (7379)%Z 0x0 0x18000000182;
  mkModel 0x2700000027 (7380)%Z 0x0 0x1ae9b0001aea2;
  mkModel 0x2700000027 (7381)%Z 0x0 0x1aea20001aea8;
  mkModel 0x2700000027 (7382)%Z 0x0 0x1aea80001aeaa;
  mkModel 0x2700000027 (7383)%Z 0x0 0x1aeaa0001aeb5;
  mkModel 0x2a1000002a7 (7384)%Z 0x0 0x1aeb50001aec0;
  mkModel 0x2a1000002a7 (7385)%Z 0x0 0x1aec00001aec9;
  mkModel 0x0 (-1)%Z 0x0 0x18000000182;
  mkModel 0x2700000027 (7388)%Z 0x0 0x1aed30001aeda;
  mkModel 0x2700000027 (-1)%Z 0x1aeda0001aee3 0x1aee30001aee7;
  mkModel 0x2700000027 (7389)%Z 0x0 0x18000000182;
  mkModel 0x2a1000002a7 (7390)%Z 0x0 0x1aee70001aeeb;
  mkModel 0x0 (-1)%Z 0x0 0x1aef20001af01;
  mkModel 0x2700000027 (-1)%Z 0x1af010001af07 0x967b00009681;
  mkModel 0x2700000027 (7393)%Z 0x0 0x1af0d0001af12;
  mkModel 0x2700000027 (7395)%Z 0x0 0x1af160001af1d;
  mkModel 0x2700000027 (7396)%Z 0x0 0x1af1d0001af22;
  mkModel 0x2700000027 (7397)%Z 0x0 0x1af220001af2b;
  mkModel 0x2700000027 (7398)%Z 0x0 0x18000000182;
  mkModel 0x23f00000249 (7399)%Z 0x0 0x1af2b0001af33;
  mkModel 0x2700000027 (-1)%Z 0x1af3e0001af4b 0x1af4b0001af53;
  mkModel 0x2700000027 (-1)%Z 0x1af580001af60 0x1af600001af65;
  mkModel 0x2700000027 (-1)%Z 0x1af650001af6d 0x1af6d0001af72;
  mkModel 0x2700000027 (-1)%Z 0x1af720001af7a 0x1af7a0001af7f;
  mkModel 0x2700000027 (-1)%Z 0x1af7f0001af87 0x1af870001af8c;
  mkModel 0x2700000027 (7401)%Z 0x0 0x18000000182;
  mkModel 0x0 (-1)%Z 0x0 0x1af900001af96
].
Definition d_dr_dm_49 : list modelTuple := [
  mkModel 0x0 (-1)%Z 0x0 0x1af9a0001af9f;
  mkModel 0x0 (-1)%Z 0x0 0x18000000182;
  mkModel 0x2700000027 (-1)%Z 0x1afae0001afbc 0x17f4100017f45;
  mkModel 0x2700000027 (7406)%Z 0x0 0x18000000182;
  mkModel 0x2a1000002a7 (-1)%Z 0x1afbc0001afc6 0x1afc60001afd7;
  mkModel 0x2a1000002a7 (7407)%Z 0x0 0x1afd70001afe3;
  mkModel 0x2a1000002a7 (7408)%Z 0x0 0x1afe30001aff3;
  mkModel 0x2a1000002a7 (-1)%Z 0x1aff30001affe 0x1affe0001b00d;
  mkModel 0x2a1000002a7 (7409)%Z 0x0 0x1b00d0001b018;
  mkModel 0x2a1000002a7 (-1)%Z 0x1b0180001b023 0x1b0230001b034;
  mkModel 0x2a1000002a7 (-1)%Z 0x1b0340001b03e 0x1b03e0001b04f;
  mkModel 0x2a1000002a7 (7410)%Z 0x0 0x1b04f0001b05f;
  mkModel 0x2a1000002a7 (-1)%Z 0x1b05f0001b06b 0x1b06b0001b07a;
  mkModel 0x2a1000002a7 (-1)%Z 0x1b07a0001b085 0x1b0850001b094;
  mkModel 0xbf670000bf7c (7411)%Z 0x0 0x18000000182;
  mkModel 0x23b0000023d (7412)%Z 0x0 0x18000000182;
  mkModel 0x2a1000002a7 (7413)%Z 0x0 0x1b0940001b099;
  mkModel 0x2a1000002a7 (7414)%Z 0x0 0x1b0990001b09d;
  mkModel 0x0 (-1)%Z 0x0 0x18000000182;
  mkModel 0x0 (-1)%Z 0x0 0x1b0a30001b0af;
  mkModel 0x2700000027 (7417)%Z 0x0 0x1b0ba0001b0c0;
  mkModel 0x2700000027 (7419)%Z 0x0 0x18000000182;
  mkModel 0x23b0000023d (7420)%Z 0x0 0xe3400000e3c;
  mkModel 0x23b0000023d (7421)%Z 0x0 0x2700000027;
  mkModel 0x2700000027 (7423)%Z 0x0 0x1b0ca0001b0d1;
  mkModel 0x2700000027 (7425)%Z 0x0 0x1b0d40001b0e5;
  mkModel 0x2700000027 (7426)%Z 0x0 0x1b0e50001b0eb;
  mkModel 0x2700000027 (-1)%Z 0x1b0eb0001b0f3 0x8a8900008a8f;
  mkModel 0x2700000027 (7427)%Z 0x0 0x1b0f30001b0f9;
  mkModel 0x2700000027 (7428)%Z 0x0 0x1b0f90001b100;
  mkModel 0x2700000027 (7429)%Z 0x0 0x1b1000001b104;
  mkModel 0x2700000027 (-1)%Z 0x1b1040001b10c 0x1b10c0001b117;
  mkModel 0x2700000027 (-1)%Z 0x1b1170001b11f 0x1b11f0001b129;
  mkModel 0x2700000027 (-1)%Z 0x1b1290001b131 0x64d7000064dd;
  mkModel 0x2700000027 (7430)%Z 0x0 0x1b1310001b139;
  mkModel 0x2700000027 (7431)%Z 0x0 0x550900005510;
  mkModel 0x2700000027 (7432)%Z 0x0 0x1b1390001b148;
  mkModel 0x2700000027 (7433)%Z 0x0 0x1b1480001b159;
  mkModel 0x2700000027 (7434)%Z 0x0 0x1b1590001b166;
  mkModel 0x2a1000002a7 (7435)%Z 0x0 0x1b1660001b179;
  mkModel 0x2700000027 (7436)%Z 0x0 0x1b1590001b166;
  mkModel 0x2700000027 (7437)%Z 0x0 0x1b1590001b166;
  mkModel 0x2700000027 (-1)%Z 0x1b1790001b17d 0x1b17d0001b18a;
  mkModel 0x2700000027 (7438)%Z 0x0 0x1b18a0001b192;
  mkModel 0x2700000027 (-1)%Z 0x1b1920001b196 0x1b1960001b19f;
  mkModel 0x2700000027 (-1)%Z 0x1b19f0001b1a3 0x1b19f0001b1a3;
  mkModel 0x2700000027 (7439)%Z 0x0 0x1b1a30001b1ab;
  mkModel 0x2700000027 (-1)%Z 0x1b1ab0001b1b5 0x1b1ab0001b1b5;
  mkModel 0x2700000027 (-1)%Z 0x1b1bc0001b1ca 0x1b1bc0001b1ca;
  mkModel 0x0 (-1)%Z 0x0 0x18000000182;
  mkModel 0x2700000027 (7443)%Z 0x0 0x1b1d80001b1e0;
  mkModel 0x2700000027 (-1)%Z 0x1b1e00001b1e7 0x1b1e70001b1ef;
  mkModel 0x0 (-1)%Z 0x0 0x1b1f20001b1f9;
  mkModel 0x2700000027 (-1)%Z 0x1b2000001b204 0x1b2040001b207;
  mkModel 0x2700000027 (-1)%Z 0x1b2070001b20d 0x1b20d0001b212;
  mkModel 0x2700000027 (-1)%Z 0x1b2120001b216 0x1b2160001b21a;
  mkModel 0x2700000027 (-1)%Z 0x1b21a0001b21e 0x1b21e0001b227;
  mkModel 0x2700000027 (-1)%Z 0x1b2270001b22b 0x1b22b0001b232;
  mkModel 0x2700000027 (7447)%Z 0x0 0x18000000182;
  mkModel 0x2700000027 (7448)%Z 0x0 0x18000000182;
  mkModel 0x2700000027 (-1)%Z 0x1b2370001b23e 0x1b23e0001b246;
  mkModel 0x2a1000002a7 (-1)%Z 0x1b2460001b24f 0x1b24f0001b259;
  mkModel 0x2a1000002a7 (7449)%Z 0x0 0x18000000182;
  mkModel 0x0 (-1)%Z 0x0 0x18000000182;
  mkModel 0x0 (-1)%Z 0x0 0x18000000182;
  mkModel 0x2700000027 (-1)%Z 0x1b26f0001b27b 0x1b27b0001b287;
  mkModel 0x1060000010d (-1)%Z 0x1b28c0001b299 0x1b2990001b2a0;
  mkModel 0x2700000027 (-1)%Z 0x1720b00017212 0x1720b00017212;
  mkModel 0x0 (-1)%Z 0x0 0x18000000182;
  mkModel 0x2700000027 (7456)%Z 0x0 0x1b2ac0001b2b3;
  mkModel 0x2700000027 (7457)%Z 0x0 0x1b2b30001b2ba;
  mkModel 0x2700000027 (7458)%Z 0x0 0x18000000182;
  mkModel 0x0 (-1)%Z 0x0 0x18000000182;
  mkModel 0x2700000027 (-1)%Z 0x1b2c60001b2cd 0x1b2cd0001b2d6;
  mkModel 0x2700000027 (-1)%Z 0x1b2d60001b2dd 0x1b2dd0001b2e8;
  mkModel 0x2700000027 (-1)%Z 0x1b2e80001b2ef 0x1b2ef0001b2f4;
  mkModel 0x2700000027 (-1)%Z 0x1b2f40001b2fb 0x1b2fb0001b304;
  mkModel 0x2700000027 (7461)%Z 0x0 0x1b3040001b30f;
  mkModel 0x2700000027 (-1)%Z 0x1b30f0001b316 0x1b3160001b31b;
  mkModel 0x2700000027 (-1)%Z 0x1b31b0001b322 0x1b3220001b328;
  mkModel 0x2700000027 (-1)%Z 0x1b3280001b32f 0x1b32f0001b338;
  mkModel 0x2700000027 (-1)%Z 0x1b3380001b33f 0x1b33f0001b346;
  mkModel 0x2700000027 (-1)%Z 0x1b3460001b34d 0x1b34d0001b356;
  mkModel 0x2700000027 (-1)%Z 0x1b3560001b35d 0x1b35d0001b362;
  mkModel 0x2700000027 (-1)%Z 0x1b3620001b369 0xf7680000f76f;
  mkModel 0x2700000027 (7462)%Z 0x0 0x1b3690001b371;
  mkModel 0x2700000027 (-1)%Z 0x1b3710001b378 0x1b3780001b380;
  mkModel 0x2700000027 (7463)%Z 0x0 0x1b3800001b384;
  mkModel 0x2700000027 (-1)%Z 0x1b3840001b38b 0x1b38b0001b390;
  mkModel 0x2700000027 (7464)%Z 0x0 0x1b3900001b398;
  mkModel 0x2700000027 (7465)%Z 0x0 0x1b3980001b39c;
  mkModel 0x2700000027 (-1)%Z 0x1b39c0001b3a3 0x1b3a30001b3a8;
  mkModel 0x2700000027 (7466)%Z 0x0 0x1b3a80001b3b0;
  mkModel 0x2700000027 (-1)%Z 0x1b3b00001b3b7 0x1b3b70001b3bb;
  mkModel 0x2700000027 (-1)%Z 0x1b3bb0001b3c2 0x1b3c20001b3cd;
  mkModel 0x2700000027 (-1)%Z 0x1b3cd0001b3d4 0x1b3d40001b3df;
  mkModel 0x2700000027 (-1)%Z 0x1b3df0001b3e6 0x17e9400017e99;
  mkModel 0x2700000027 (-1)%Z 0x1b3e60001b3ed 0x1b3ed0001b3f8;
  mkModel 0x2700000027 (-1)%Z 0x1b3f80001b3ff 0x1b3ff0001b405;
  mkModel 0x2700000027 (-1)%Z 0x1b4050001b40c 0x1b40c0001b414;
  mkModel 0x2700000027 (7467)%Z 0x0 0x1b4140001b41f;
  mkModel 0x2700000027 (7468)%Z 0x0 0x1c8600001c87;
  mkModel 0x2700000027 (-1)%Z 0x1b41f0001b426 0xbf2f0000bf35;
  mkModel 0x2700000027 (7469)%Z 0x0 0x1453500014536;
  mkModel 0x2700000027 (7470)%Z 0x0 0x1b4260001b42b;
  mkModel 0x2700000027 (7471)%Z 0x0 0x1cfb00001cfc;
  mkModel 0x2700000027 (-1)%Z 0x1b42b0001b432 0x1b4320001b434;
  mkModel 0x2700000027 (7472)%Z 0x0 0x1b4340001b439;
  mkModel 0x2700000027 (7473)%Z 0x0 0x1ecc00001ecd;
  mkModel 0x2700000027 (7474)%Z 0x0 0x114a3000114a5;
  mkModel 0x2700000027 (-1)%Z 0x1b4390001b440 0x16de300016dea;
  mkModel 0x2700000027 (7475)%Z 0x0 0x1b4400001b446;
  mkModel 0x2700000027 (-1)%Z 0x1b4460001b44d 0x1b44d0001b452;
  mkModel 0x2700000027 (-1)%Z 0x1b4520001b459 0x1b4590001b45f;
  mkModel 0x2700000027 (-1)%Z 0x1b45f0001b466 0x1b4660001b46f;
  mkModel 0x2700000027 (-1)%Z 0x1b46f0001b476 0x1b4760001b47b;
  mkModel 0x2700000027 (-1)%Z 0x1b47b0001b482 0x1b4820001b485;
  mkModel 0x2700000027 (-1)%Z 0x1b4850001b48c 0x1b48c0001b492;
  mkModel 0x2700000027 (-1)%Z 0x1b4920001b499 0x1b4990001b49b;
  mkModel 0x2700000027 (-1)%Z 0x1b49b0001b4a2 0x1b4a20001b4a5;
  mkModel 0x2700000027 (7476)%Z 0x0 0x1b4a50001b4aa;
  mkModel 0x2700000027 (7477)%Z 0x0 0x1b4aa0001b4b3;
  mkModel 0x2700000027 (7478)%Z 0x0 0x1b4b30001b4b5;
  mkModel 0x2700000027 (7479)%Z 0x0 0x1d2d00001d2e;
  mkModel 0x2700000027 (7480)%Z 0x0 0x1b4b50001b4ba;
  mkModel 0x2700000027 (7481)%Z 0x0 0x1b4ba0001b4bc;
  mkModel 0x2700000027 (-1)%Z 0x1b4bc0001b4c3 0x1b4c30001b4c5;
  mkModel 0x2700000027 (7482)%Z 0x0 0x16d1f00016d20;
  mkModel 0x2700000027 (7483)%Z 0x0 0x1b4c50001b4c7;
  mkModel 0x2700000027 (-1)%Z 0x1b4c70001b4ce 0x1b4ce0001b4d0;
  mkModel 0x2700000027 (7484)%Z 0x0 0x1b4d00001b4d5;
  mkModel 0x2700000027 (7485)%Z 0x0 0x1d3f00001d40;
  mkModel 0x2700000027 (-1)%Z 0x1b4d50001b4dc 0x1b4dc0001b4de;
  mkModel 0x2700000027 (-1)%Z 0x1b4de0001b4e5 0x18dca00018dcf;
  mkModel 0x2700000027 (-1)%Z 0x1b4e50001b4ec 0x1b4ec0001b502;
  mkModel 0x2700000027 (-1)%Z 0x1b5020001b509 0x18d8900018d8e;
  mkModel 0x2700000027 (7486)%Z 0x0 0x3f3100003f32;
  mkModel 0x2700000027 (7487)%Z 0x0 0x1b5090001b50b;
  mkModel 0x2700000027 (-1)%Z 0x1b50b0001b512 0x1b5120001b514;
  mkModel 0x2700000027 (-1)%Z 0x1b5140001b51b 0x1b51b0001b51f;
  mkModel 0x2700000027 (7488)%Z 0x0 0x1b51f0001b521;
  mkModel 0x2700000027 (-1)%Z 0x1b5210001b528 0x1b5280001b52d;
  mkModel 0x2700000027 (-1)%Z 0x1b52d0001b534 0xbf1e0000bf1f;
  mkModel 0x2700000027 (7489)%Z 0x0 0x1b5340001b538;
  mkModel 0x2700000027 (7490)%Z 0x0 0x1b5380001b541;
  mkModel 0x2700000027 (7491)%Z 0x0 0x1b5410001b549;
  mkModel 0x2700000027 (7492)%Z 0x0 0x3f8100003f83;
  mkModel 0x2700000027 (-1)%Z 0x1b5490001b550 0x1b5500001b553;
  mkModel 0x2700000027 (7493)%Z 0x0 0x1b5530001b55c;
  mkModel 0x2700000027 (7494)%Z 0x0 0x1b55c0001b566;
  mkModel 0x2700000027 (-1)%Z 0x1b5660001b56d 0x1b56d0001b577;
  mkModel 0x2700000027 (-1)%Z 0x1b5770001b57e 0x1b57e0001b585;
  mkModel 0x2700000027 (-1)%Z 0x1b5850001b58c 0x1b58c0001b595;
  mkModel 0x2700000027 (-1)%Z 0x1b5950001b59c 0x1b59c0001b5a2;
  mkModel 0x2700000027 (-1)%Z 0x1b5a20001b5a9 0x1b5a90001b5af;
  mkModel 0x2700000027 (7495)%Z 0x0 0xbf450000bf47;
  mkModel 0x2700000027 (-1)%Z 0x1b5af0001b5b6 0x1b5b60001b5bb;
  mkModel 0x2700000027 (-1)%Z 0x1b5bb0001b5c2 0x1b5c20001b5cb;
  mkModel 0x2700000027 (-1)%Z 0x1b5cb0001b5d2 0x1b5d20001b5d8;
  mkModel 0x2700000027 (-1)%Z 0x1b5d80001b5df 0x1b5df0001b5e6;
  mkModel 0x2700000027 (-1)%Z 0x1b5e60001b5ed 0x1b5ed0001b5f7;
  mkModel 0x2700000027 (-1)%Z 0x1b5f70001b5fe 0x1b5fe0001b604;
  mkModel 0x2700000027 (7496)%Z 0x0 0x1b6040001b609;
  mkModel 0x2700000027 (-1)%Z 0x1b6090001b610 0x18bcf00018bd1;
  mkModel 0x2700000027 (-1)%Z 0x1b6100001b617 0x1b6170001b61d;
  mkModel 0x2700000027 (-1)%Z 0x1b61d0001b624 0x1b6240001b627;
  mkModel 0x2700000027 (-1)%Z 0x1b6270001b62e 0x1b62e0001b634;
  mkModel 0x2700000027 (7497)%Z 0x0 0x1b6340001b63d;
  mkModel 0x2700000027 (7498)%Z 0x0 0x1b63d0001b647;
  mkModel 0x2700000027 (-1)%Z 0x1b6470001b64e 0x1b64e0001b654;
  mkModel 0x2700000027 (-1)%Z 0x1b6540001b65b 0x1b65b0001b660;
  mkModel 0x2700000027 (-1)%Z 0x1b6600001b667 0x18bbe00018bc0;
  mkModel 0x2700000027 (7499)%Z 0x0 0x1b6670001b66d;
  mkModel 0x2700000027 (-1)%Z 0x1b66d0001b674 0x1b6740001b679;
  mkModel 0x2700000027 (-1)%Z 0x1b6790001b680 0x1b6800001b686;
  mkModel 0x2700000027 (7500)%Z 0x0 0x1b6860001b690;
  mkModel 0x2700000027 (-1)%Z 0x1b6900001b697 0x1b6970001b69e;
  mkModel 0x2700000027 (-1)%Z 0x1b69e0001b6a5 0x1b6a50001b6ae;
  mkModel 0x2700000027 (-1)%Z 0x1b6ae0001b6b5 0x1b6b50001b6bb;
  mkModel 0x2700000027 (-1)%Z 0x1b6bb0001b6c2 0x1b6c20001b6c7;
  mkModel 0x2700000027 (-1)%Z 0x1b6c70001b6ce 0x1b6ce0001b6d7;
  mkModel 0x2700000027 (-1)%Z 0x1b6d70001b6de 0x1b6de0001b6e4;
  mkModel 0x2700000027 (-1)%Z 0x1b6e40001b6eb 0x1b6eb0001b6ee;
  mkModel 0x2700000027 (-1)%Z 0x1b6ee0001b6f5 0x1b6f50001b6fb;
  mkModel 0x2700000027 (-1)%Z 0x1b6fb0001b702 0x1b7020001b704;
  mkModel 0x2700000027 (-1)%Z 0x1b7040001b70b 0x5b1000005b3;
  mkModel 0x2700000027 (7501)%Z 0x0 0x711e00007120;
  mkModel 0x2700000027 (7502)%Z 0x0 0x195980001959a;
  mkModel 0x2700000027 (-1)%Z 0x1b70b0001b712 0x1b7120001b715;
  mkModel 0x2700000027 (-1)%Z 0x1b7150001b71c 0x1b71c0001b71f;
  mkModel 0x2700000027 (7503)%Z 0x0 0x1b71f0001b722;
  mkModel 0x2700000027 (7504)%Z 0x0 0x1b7220001b736;
  mkModel 0x2700000027 (7505)%Z 0x0 0x1b7360001b739;
  mkModel 0x2700000027 (7506)%Z 0x0 0x1b7390001b73c;
  mkModel 0x2700000027 (7507)%Z 0x0 0x1b73c0001b73f;
  mkModel 0x2700000027 (7508)%Z 0x0 0x1b73f0001b743;
  mkModel 0x2700000027 (7509)%Z 0x0 0x1b7430001b746;
  mkModel 0x2700000027 (7510)%Z 0x0 0x1b7460001b74a;
  mkModel 0x2700000027 (7511)%Z 0x0 0x1b74a0001b74e;
  mkModel 0x2700000027 (7512)%Z 0x0 0x1959a0001959d
].
Definition d_dr_dm_50 : list modelTuple := [
  mkModel 0x2700000027 (7513)%Z 0x0 0x1b74e0001b751;
  mkModel 0x2700000027 (-1)%Z 0x1b7510001b758 0x1b7580001b75c;
  mkModel 0x2700000027 (7514)%Z 0x0 0x1b75c0001b75f;
  mkModel 0x2700000027 (7515)%Z 0x0 0x1b75f0001b762;
  mkModel 0x2700000027 (-1)%Z 0x1b7620001b769 0x195ad000195b0;
  mkModel 0x2700000027 (-1)%Z 0x1b7690001b770 0xb1b70000b1ba;
  mkModel 0x2700000027 (-1)%Z 0x1b7700001b777 0x1b7770001b77b;
  mkModel 0x2700000027 (7516)%Z 0x0 0x1b77b0001b77e;
  mkModel 0x2700000027 (7517)%Z 0x0 0x195b0000195b3;
  mkModel 0x2700000027 (-1)%Z 0x1b77e0001b785 0x1b7850001b78b;
  mkModel 0x2700000027 (-1)%Z 0x1b78b0001b792 0x195b3000195b6;
  mkModel 0x2700000027 (-1)%Z 0x1b7920001b799 0x1b7990001b79c;
  mkModel 0x2700000027 (-1)%Z 0x1b79c0001b7a3 0x1b7a30001b7ac;
  mkModel 0x2700000027 (-1)%Z 0x1b7ac0001b7b3 0x1b7b30001b7b9;
  mkModel 0x2700000027 (-1)%Z 0x1b7b90001b7c0 0x195b6000195b9;
  mkModel 0x2700000027 (-1)%Z 0x1b7c00001b7c7 0xb1b40000b1b7;
  mkModel 0x2700000027 (-1)%Z 0x1b7c70001b7ce 0x1b7ce0001b7d4;
  mkModel 0x2700000027 (-1)%Z 0x1b7d40001b7db 0x1b7db0001b7df;
  mkModel 0x2700000027 (-1)%Z 0x1b7df0001b7e6 0x1b7e60001b7f0;
  mkModel 0x2700000027 (-1)%Z 0x1b7f00001b7f7 0x1b3900001b398;
  mkModel 0x2700000027 (7518)%Z 0x0 0x1b7f70001b7fb;
  mkModel 0x2700000027 (-1)%Z 0x1b7fb0001b802 0x1b8020001b80a;
  mkModel 0x2700000027 (-1)%Z 0x1b80a0001b811 0x1b8110001b815;
  mkModel 0x2700000027 (7519)%Z 0x0 0x1b8150001b81d;
  mkModel 0x2700000027 (7520)%Z 0x0 0x1b81d0001b821;
  mkModel 0x2700000027 (-1)%Z 0x1b8210001b828 0x1b8280001b83c;
  mkModel 0x2700000027 (-1)%Z 0x1b83c0001b843 0x1b8430001b849;
  mkModel 0x2700000027 (-1)%Z 0x1b8490001b850 0x1b8500001b858;
  mkModel 0x2700000027 (7521)%Z 0x0 0x1b8580001b860;
  mkModel 0x2700000027 (-1)%Z 0x1b8600001b867 0x1b8670001b874;
  mkModel 0x2700000027 (7522)%Z 0x0 0x1b8740001b87d;
  mkModel 0x2700000027 (7523)%Z 0x0 0x1b87d0001b886;
  mkModel 0x2700000027 (-1)%Z 0x1b8860001b88d 0x1b3d40001b3df;
  mkModel 0x2700000027 (7524)%Z 0x0 0x1b88d0001b89e;
  mkModel 0x2700000027 (7525)%Z 0x0 0x1b89e0001b8aa;
  mkModel 0x2700000027 (7526)%Z 0x0 0x1b8aa0001b8b6;
  mkModel 0x2700000027 (-1)%Z 0x1b8b60001b8bd 0x1b8bd0001b8c5;
  mkModel 0x2700000027 (-1)%Z 0x1b8c50001b8cc 0x1b8cc0001b8d5;
  mkModel 0x2700000027 (-1)%Z 0x1b8d50001b8dc 0x1b8dc0001b8e5;
  mkModel 0x2700000027 (-1)%Z 0x1b8e50001b8ec 0x1b8ec0001b8f4;
  mkModel 0x2700000027 (-1)%Z 0x1b8f40001b8fb 0x1b8fb0001b906;
  mkModel 0x2700000027 (-1)%Z 0x1b9060001b90d 0x1b90d0001b916;
  mkModel 0x2700000027 (-1)%Z 0x1b9160001b91d 0x1b91d0001b925;
  mkModel 0x2700000027 (-1)%Z 0x1b9250001b92c 0x1b92c0001b937;
  mkModel 0x2700000027 (-1)%Z 0x1b9370001b93e 0x1b93e0001b94a;
  mkModel 0x2700000027 (-1)%Z 0x1b94a0001b951 0x1b9510001b960;
  mkModel 0x2700000027 (7527)%Z 0x0 0x1b9600001b96f;
  mkModel 0x2700000027 (-1)%Z 0x1b96f0001b976 0x1b9760001b97f;
  mkModel 0x2700000027 (-1)%Z 0x1b97f0001b986 0x1b9860001b995;
  mkModel 0x2700000027 (-1)%Z 0x1b9950001b99c 0x1b99c0001b9a7;
  mkModel 0x2700000027 (-1)%Z 0x1b9a70001b9ae 0x1b9ae0001b9b9;
  mkModel 0x2700000027 (-1)%Z 0x1b9b90001b9c0 0x1b9c00001b9d1;
  mkModel 0x2700000027 (-1)%Z 0x1b9d10001b9d8 0x1b9d80001b9e7;
  mkModel 0x2700000027 (-1)%Z 0x1b9e70001b9ee 0x1b9ee0001b9fd;
  mkModel 0x2700000027 (-1)%Z 0x1b9fd0001ba04 0x1ba040001ba0d;
  mkModel 0x2700000027 (-1)%Z 0x1ba0d0001ba14 0x1ba140001ba1b;
  mkModel 0x2700000027 (7528)%Z 0x0 0xb1bc0000b1be;
  mkModel 0x2700000027 (7529)%Z 0x0 0x1ba1b0001ba21;
  mkModel 0x2700000027 (7530)%Z 0x0 0x1ba210001ba28;
  mkModel 0x2700000027 (7531)%Z 0x0 0x1ba280001ba2f;
  mkModel 0x2700000027 (7532)%Z 0x0 0xc8890000c893;
  mkModel 0x2700000027 (7533)%Z 0x0 0x1ba2f0001ba3d;
  mkModel 0x2700000027 (7534)%Z 0x0 0xf7fa0000f7fc;
  mkModel 0x2700000027 (7535)%Z 0x0 0x1ba3d0001ba4a;
  mkModel 0x2700000027 (-1)%Z 0x1ba4a0001ba51 0xf7fa0000f7fc;
  mkModel 0x2700000027 (-1)%Z 0x1ba510001ba61 0x1ba610001ba6a;
  mkModel 0x2700000027 (7536)%Z 0x0 0x1ba6a0001ba6d;
  mkModel 0x2700000027 (7537)%Z 0x0 0x1ba6d0001ba72;
  mkModel 0x2700000027 (7538)%Z 0x0 0x1ba720001ba77;
  mkModel 0x2700000027 (-1)%Z 0x1ba770001ba7e 0x1168e00011691;
  mkModel 0x2700000027 (7539)%Z 0x0 0x1ba7e0001ba84;
  mkModel 0x2700000027 (-1)%Z 0x1ba840001ba8b 0x1ba8b0001ba92;
  mkModel 0x2700000027 (7540)%Z 0x0 0x1ba920001ba98;
  mkModel 0x2700000027 (7541)%Z 0x0 0x1ba980001ba9e;
  mkModel 0x2700000027 (7542)%Z 0x0 0x1130b0001130e;
  mkModel 0x2700000027 (-1)%Z 0x1ba9e0001baa5 0x1baa50001baa8;
  mkModel 0x2700000027 (-1)%Z 0x1baa80001baaf 0x1baaf0001bab3;
  mkModel 0x2700000027 (-1)%Z 0x1bab30001baba 0x1baba0001babd;
  mkModel 0x2700000027 (-1)%Z 0x1babd0001bac4 0x1168e00011691;
  mkModel 0x2700000027 (-1)%Z 0x1bac40001bacb 0x1bacb0001bacf;
  mkModel 0x2700000027 (-1)%Z 0x1bacf0001bad6 0x1bacb0001bacf;
  mkModel 0x2700000027 (-1)%Z 0x1bad60001badd 0x4d2200004d25;
  mkModel 0x2700000027 (-1)%Z 0x1badd0001bae4 0x1bae40001bae8;
  mkModel 0x2700000027 (-1)%Z 0x1bae80001baef 0x4d3400004d37;
  mkModel 0x2700000027 (-1)%Z 0x1baef0001baf6 0x1baf60001bafb;
  mkModel 0x2700000027 (-1)%Z 0x1bafb0001bb02 0x1bb020001bb0a;
  mkModel 0x2700000027 (-1)%Z 0x1bb0a0001bb11 0x1bb110001bb19;
  mkModel 0x2700000027 (7543)%Z 0x0 0x500000005006;
  mkModel 0x2a1000002a7 (7544)%Z 0x0 0x1bb190001bb1c;
  mkModel 0x2a1000002a7 (7545)%Z 0x0 0x1831b00018320;
  mkModel 0x2a1000002a7 (7546)%Z 0x0 0x1bb1c0001bb21;
  mkModel 0x2a1000002a7 (7547)%Z 0x0 0x1bb210001bb29;
  mkModel 0x23b0000023d (-1)%Z 0x1bb290001bb3b 0x1bb290001bb3b;
  mkModel 0x2a1000002a7 (7549)%Z 0x0 0x18000000182;
  mkModel 0x2700000027 (-1)%Z 0x1bb420001bb4f 0x1bb420001bb4f;
  mkModel 0x2700000027 (7550)%Z 0x0 0x1bb4f0001bb56;
  mkModel 0x2700000027 (7551)%Z 0x0 0x1bb560001bb5f;
  mkModel 0x0 (-1)%Z 0x0 0x18000000182;
  mkModel 0x2700000027 (7554)%Z 0x0 0x1bb6c0001bb7c;
  mkModel 0x2700000027 (-1)%Z 0x1bb820001bb8f 0x1bb8f0001bb96;
  mkModel 0x2700000027 (-1)%Z 0x1bb960001bba1 0x18dca00018dcf;
  mkModel 0x2700000027 (-1)%Z 0x1bba10001bba9 0x1d3f00001d40;
  mkModel 0x2700000027 (-1)%Z 0x1bbaf0001bbb5 0x1bbb50001bbbb;
  mkModel 0x2700000027 (-1)%Z 0x1bbbb0001bbc4 0x1bbc40001bbcd;
  mkModel 0x2700000027 (7557)%Z 0x0 0x18000000182;
  mkModel 0x2700000027 (-1)%Z 0x1bbcd0001bbd5 0x1bbd50001bbde;
  mkModel 0x2700000027 (-1)%Z 0x1bbde0001bbe4 0x1bbe40001bbeb;
  mkModel 0x2700000027 (7558)%Z 0x0 0x1bbeb0001bbf0;
  mkModel 0x2700000027 (-1)%Z 0x1bbf00001bbf8 0x1bbf80001bc04;
  mkModel 0x2700000027 (7559)%Z 0x0 0x1bc040001bc09;
  mkModel 0x2700000027 (-1)%Z 0x1bc090001bc15 0x1bc090001bc15;
  mkModel 0x2700000027 (-1)%Z 0x1bc150001bc20 0x1bc150001bc20;
  mkModel 0x23f00000249 (-1)%Z 0x1bc200001bc28 0x1bc280001bc31;
  mkModel 0x23f00000249 (-1)%Z 0x1bc310001bc40 0x1bc400001bc51;
  mkModel 0x23f00000249 (-1)%Z 0x1bc510001bc5e 0x1bc5e0001bc6b;
  mkModel 0x23f00000249 (-1)%Z 0x1bc6b0001bc7d 0x1bc7d0001bc91;
  mkModel 0x23f00000249 (-1)%Z 0x1bc910001bc9e 0x1bc9e0001bcab;
  mkModel 0x23f00000249 (-1)%Z 0x1bcab0001bcc0 0x1bcc00001bcd7;
  mkModel 0x23f00000249 (-1)%Z 0x1bcd70001bce8 0x1bcd70001bce8;
  mkModel 0x23f00000249 (-1)%Z 0x1bce80001bcf8 0x1bce80001bcf8;
  mkModel 0x23f00000249 (7560)%Z 0x0 0x1bcf80001bd08;
  mkModel 0x23f00000249 (7561)%Z 0x0 0x1bd080001bd1c;
  mkModel 0x23f00000249 (7562)%Z 0x0 0x1bd1c0001bd28;
  mkModel 0x23f00000249 (-1)%Z 0x1bd280001bd30 0x1bd300001bd38;
  mkModel 0x23f00000249 (7563)%Z 0x0 0x1bd380001bd3f;
  mkModel 0x23f00000249 (-1)%Z 0x1bd3f0001bd4d 0x1bd4d0001bd56;
  mkModel 0x23f00000249 (-1)%Z 0x1bd560001bd68 0x1bd560001bd68;
  mkModel 0x23f00000249 (-1)%Z 0x1bd680001bd7a 0x1bd680001bd7a;
  mkModel 0x23f00000249 (-1)%Z 0x1bd7a0001bd87 0x1bd7a0001bd87;
  mkModel 0x23f00000249 (-1)%Z 0x1bd870001bd92 0x1bd870001bd92;
  mkModel 0x23f00000249 (-1)%Z 0x1bd380001bd3f 0x1bd380001bd3f;
  mkModel 0x23f00000249 (-1)%Z 0x1bd920001bd9d 0x1bd920001bd9d;
  mkModel 0x23b0000023d (-1)%Z 0x1bd9d0001bda6 0xe3400000e3c;
  mkModel 0x0 (-1)%Z 0x0 0x18000000182;
  mkModel 0x0 (-1)%Z 0x0 0x18000000182;
  mkModel 0x2700000027 (7567)%Z 0x0 0x1bdb90001bdbd;
  mkModel 0x0 (-1)%Z 0x0 0x18000000182;
  mkModel 0x2700000027 (7569)%Z 0x0 0x1940000019b;
  mkModel 0x2700000027 (-1)%Z 0x19b000001a7 0x1a7000001ac;
  mkModel 0x2700000027 (7570)%Z 0x0 0x18000000182;
  mkModel 0x2700000027 (-1)%Z 0x1bdc70001bdd3 0x1bdd30001bddb;
  mkModel 0x2700000027 (7572)%Z 0x0 0x18000000182;
  mkModel 0x2700000027 (-1)%Z 0x1bde40001bde9 0x1bde90001bdec;
  mkModel 0x0 (-1)%Z 0x0 0x1bdf10001bdf8;
  mkModel 0x2700000027 (-1)%Z 0x1be030001be10 0x1be100001be13;
  mkModel 0x0 (-1)%Z 0x0 0x1be1c0001be20;
  mkModel 0x2700000027 (-1)%Z 0x1be3a0001be43 0x1be430001be4f;
  mkModel 0x0 (-1)%Z 0x0 0x18000000182;
  mkModel 0x2700000027 (7578)%Z 0x0 0x1be5a0001be60;
  mkModel 0x23f00000249 (7579)%Z 0x0 0x1be600001be66;
  mkModel 0x0 (-1)%Z 0x0 0x1be6e0001be73;
  mkModel 0x2700000027 (7582)%Z 0x0 0x18000000182;
  mkModel 0x2700000027 (-1)%Z 0x1be7e0001be8a 0x1be8a0001be97;
  mkModel 0x2700000027 (-1)%Z 0x1be970001be9f 0x1be9f0001bea7;
  mkModel 0x2700000027 (7584)%Z 0x0 0x1bea70001beb3;
  mkModel 0x2700000027 (7585)%Z 0x0 0x1beb30001bebf;
  mkModel 0x2700000027 (7586)%Z 0x0 0x1bebf0001beca;
  mkModel 0x0 (-1)%Z 0x0 0x18000000182;
  mkModel 0x0 (-1)%Z 0x0 0x1beec0001bef5;
  mkModel 0x0 (-1)%Z 0x0 0x18000000182;
  mkModel 0x0 (-1)%Z 0x0 0x18000000182;
  mkModel 0x2700000027 (-1)%Z 0x1bf020001bf07 0x1bf020001bf07;
  mkModel 0x2700000027 (-1)%Z 0x1bf070001bf0d 0x1bf070001bf0d;
  mkModel 0x2700000027 (-1)%Z 0x1bf0d0001bf15 0x1bf0d0001bf15;
  mkModel 0x2700000027 (-1)%Z 0x1bf150001bf1a 0x1bf150001bf1a;
  mkModel 0x2700000027 (-1)%Z 0x1bf1e0001bf23 0x1bf230001bf2a;
  mkModel 0x2700000027 (-1)%Z 0x1bf2a0001bf33 0x1bf330001bf38;
  mkModel 0x2700000027 (-1)%Z 0x2700000027 0x1bf380001bf4c;
  mkModel 0x23f00000249 (-1)%Z 0x1bf530001bf5e 0x1bf530001bf5e;
  mkModel 0x2700000027 (7593)%Z 0x0 0x1bf5e0001bf6c;
  mkModel 0x2700000027 (-1)%Z 0x1bf6c0001bf79 0x1bf790001bf86;
  mkModel 0x2700000027 (-1)%Z 0x1bf860001bf8f 0x1bf8f0001bf98;
  mkModel 0x2700000027 (7594)%Z 0x0 0x1bf980001bfa5;
  mkModel 0x2700000027 (7595)%Z 0x0 0x18000000182;
  mkModel 0x0 (-1)%Z 0x0 0x18000000182;
  mkModel 0x0 (-1)%Z 0x0 0x1bfb40001bfbb;
  mkModel 0x0 (-1)%Z 0x0 0x18000000182;
  mkModel 0x23f00000249 (7600)%Z 0x0 0x2700000027;
  mkModel 0x2700000027 (7601)%Z 0x0 0x1bfcf0001bfda;
  mkModel 0x2700000027 (7602)%Z 0x0 0x1bfda0001bfe6;
  mkModel 0x2700000027 (7603)%Z 0x0 0x1bfe60001bff1;
  mkModel 0x2700000027 (7604)%Z 0x0 0x18000000182;
  mkModel 0x2700000027 (7606)%Z 0x0 0x18000000182;
  mkModel 0x2700000027 (-1)%Z 0x1bff90001c005 0x1c0050001c00b;
  mkModel 0x2a1000002a7 (7607)%Z 0x0 0x18000000182;
  mkModel 0x2700000027 (-1)%Z 0x1c0110001c01a 0x1c0110001c01a;
  mkModel 0x2700000027 (-1)%Z 0x1c01a0001c021 0x1c01a0001c021;
  mkModel 0x2700000027 (7609)%Z 0x0 0x18000000182;
  mkModel 0x2700000027 (-1)%Z 0x1c0280001c02d 0x1c0280001c02d;
  mkModel 0x2700000027 (7611)%Z 0x0 0x18000000182;
  mkModel 0x2700000027 (7613)%Z 0x0 0x1c03c0001c047;
  mkModel 0x2700000027 (7615)%Z 0x0 0x18000000182;
  mkModel 0x2700000027 (7616)%Z 0x0 0x1940000019b;
  mkModel 0x2700000027 (-1)%Z 0x1c04b0001c051 0x1c0510001c058;
  mkModel 0x2700000027 (7617)%Z 0x0 0x18000000182;
  mkModel 0x0 (-1)%Z 0x0 0xc9f80000c9fa;
  mkModel 0x2700000027 (7619)%Z 0x0 0x18000000182;
  mkModel 0x2700000027 (-1)%Z 0x1c06c0001c071 0x1c06c0001c071;
  mkModel 0x2a1000002a7 (-1)%Z 0x1c0710001c078 0xbc240000bc26;
  mkModel 0x2700000027 (-1)%Z 0x1c07c0001c087 0x1c07c0001c087
].
Definition d_dr_dm_51 : list modelTuple := [
  mkModel 0x2700000027 (7621)%Z 0x0 0xe3400000e3c;
  mkModel 0x2700000027 (7623)%Z 0x0 0x18000000182;
  mkModel 0x2a1000002a7 (7624)%Z 0x0 0x18000000182;
  mkModel 0x0 (-1)%Z 0x0 0x18000000182;
  mkModel 0x2700000027 (7627)%Z 0x0 0x18000000182;
  mkModel 0x2700000027 (7628)%Z 0x0 0xf1440000f147;
  mkModel 0x2a1000002a7 (7630)%Z 0x0 0x18000000182;
  mkModel 0x0 (-1)%Z 0x0 0x1c0a20001c0a9;
  mkModel 0x2700000027 (-1)%Z 0x1c0b40001c0bf 0x1c0bf0001c0c5;
  mkModel 0x2700000027 (-1)%Z 0x1c0ad0001c0b4 0x120990001209b;
  mkModel 0x0 (-1)%Z 0x0 0x18000000182;
  mkModel 0x0 (-1)%Z 0x0 0x18000000182;
  mkModel 0x2700000027 (7636)%Z 0x0 0x1c0da0001c0e1;
  mkModel 0x2700000027 (7637)%Z 0x0 0x1c0e10001c0ec;
  mkModel 0x2700000027 (7638)%Z 0x0 0x1c0ec0001c0f2;
  mkModel 0x2700000027 (7639)%Z 0x0 0x18000000182;
  mkModel 0x0 (-1)%Z 0x0 0x18000000182;
  mkModel 0x0 (-1)%Z 0x0 0x1c0fc0001c102;
  mkModel 0x2700000027 (7643)%Z 0x0 0x1c1050001c110;
  mkModel 0x2700000027 (7644)%Z 0x0 0x1c1100001c11c;
  mkModel 0x2700000027 (7645)%Z 0x0 0x1c11c0001c125;
  mkModel 0x2700000027 (7646)%Z 0x0 0x1c1250001c130;
  mkModel 0x2700000027 (7647)%Z 0x0 0x1c1300001c13b;
  mkModel 0x2700000027 (7648)%Z 0x0 0x1c13b0001c14b;
  mkModel 0x2700000027 (7649)%Z 0x0 0x1c14b0001c157;
  mkModel 0x2700000027 (7650)%Z 0x0 0x1c1570001c160;
  mkModel 0x2700000027 (7651)%Z 0x0 0x1c1600001c169;
  mkModel 0x2700000027 (7652)%Z 0x0 0x1c1690001c173;
  mkModel 0x2700000027 (7653)%Z 0x0 0x1c1730001c177;
  mkModel 0x2700000027 (7654)%Z 0x0 0x1c1770001c182;
  mkModel 0x2700000027 (7655)%Z 0x0 0x1c1820001c18d;
  mkModel 0x2700000027 (7656)%Z 0x0 0x1c18d0001c196;
  mkModel 0x2700000027 (7657)%Z 0x0 0x1c1960001c1a2;
  mkModel 0x2700000027 (7658)%Z 0x0 0x1c1a20001c1ae;
  mkModel 0x2700000027 (7659)%Z 0x0 0x1c1ae0001c1ba;
  mkModel 0x2700000027 (7660)%Z 0x0 0x1c1ba0001c1cb;
  mkModel 0x2700000027 (7661)%Z 0x0 0x1c1cb0001c1d7;
  mkModel 0x2700000027 (7662)%Z 0x0 0x1c1d70001c1e1;
  mkModel 0x2700000027 (7663)%Z 0x0 0x1c1e10001c1eb;
  mkModel 0x2700000027 (7664)%Z 0x0 0x1c1eb0001c1f3;
  mkModel 0x2700000027 (7665)%Z 0x0 0x1c1f30001c1fe;
  mkModel 0x2700000027 (7666)%Z 0x0 0x1c1fe0001c20a;
  mkModel 0x2700000027 (7667)%Z 0x0 0x1c20a0001c213;
  mkModel 0x2a1000002a7 (-1)%Z 0x1c2130001c21a 0x1c2130001c21a;
  mkModel 0x2700000027 (7668)%Z 0x0 0x18000000182;
  mkModel 0x2700000027 (-1)%Z 0x1c21e0001c227 0x1c2270001c22b;
  mkModel 0x2700000027 (-1)%Z 0x1c22b0001c233 0x1c2330001c236;
  mkModel 0x2700000027 (-1)%Z 0x1c23c0001c248 0x7d3900007d44;
  mkModel 0x2700000027 (-1)%Z 0x1c2480001c259 0xe3400000e3c;
  mkModel 0x2700000027 (7671)%Z 0x0 0x1c2650001c26e;
  mkModel 0x2700000027 (7672)%Z 0x0 0x1c26e0001c281;
  mkModel 0x0 (-1)%Z 0x0 0x18000000182;
  mkModel 0x2700000027 (-1)%Z 0x1c28e0001c297 0x1c2970001c2a0;
  mkModel 0x2700000027 (-1)%Z 0x1c2a00001c2ae 0x1c2a00001c2ae;
  mkModel 0x2700000027 (-1)%Z 0x1c2ae0001c2be 0x1c2be0001c2ce;
  mkModel 0x2700000027 (-1)%Z 0x1c2ce0001c2db 0x1c2db0001c2e8;
  mkModel 0x2700000027 (7676)%Z 0x0 0x18000000182;
  mkModel 0x2a1000002a7 (-1)%Z 0x1c2ef0001c2f8 0x1c2f80001c302;
  mkModel 0x2700000027 (-1)%Z 0x1c30d0001c317 0x1c3170001c321;
  mkModel 0x2700000027 (-1)%Z 0x1c3210001c32b 0x1c32b0001c335;
  mkModel 0x0 (-1)%Z 0x0 0x3a7000003a9;
  mkModel 0x0 (-1)%Z 0x0 0x18000000182;
  mkModel 0x0 (-1)%Z 0x0 0x1c3420001c349;
  mkModel 0x2700000027 (7682)%Z 0x0 0x18000000182;
  mkModel 0x2700000027 (-1)%Z 0x1c34d0001c35c 0x1c35c0001c36b;
  mkModel 0x2700000027 (-1)%Z 0x1c36b0001c375 0x1c3750001c37f;
  mkModel 0x2700000027 (7684)%Z 0x0 0x18000000182;
  mkModel 0x2700000027 (7685)%Z 0x0 0xe9630000e967;
  mkModel 0x2700000027 (-1)%Z 0x1c3840001c389 0x1c3890001c38e;
  mkModel 0x2700000027 (7686)%Z 0x0 0x1c38e0001c392;
  mkModel 0x2700000027 (7687)%Z 0x0 0x1c3920001c39b;
  mkModel 0x2700000027 (7688)%Z 0x0 0x1c39b0001c39f;
  mkModel 0x2700000027 (7689)%Z 0x0 0x1c39f0001c3a6;
  mkModel 0x2700000027 (7690)%Z 0x0 0xb8a50000b8a8;
  mkModel 0x2700000027 (7691)%Z 0x0 0x1c3a60001c3ab;
  mkModel 0x2700000027 (7692)%Z 0x0 0x1c3ab0001c3ae;
  mkModel 0x0 (-1)%Z 0x0 0x1c3b20001c3bb;
  mkModel 0x0 (-1)%Z 0x0 0x18000000182;
  mkModel 0x2700000027 (-1)%Z 0x1c3c30001c3d3 0x1c3d30001c3e3;
  mkModel 0x2700000027 (7695)%Z 0x0 0x1c3e30001c3f5;
  mkModel 0x2700000027 (7696)%Z 0x0 0x1c3f50001c400;
  mkModel 0x2700000027 (-1)%Z 0x1c4000001c40b 0x1c4000001c40b;
  mkModel 0x2700000027 (-1)%Z 0x1c40b0001c416 0x1c4160001c421;
  mkModel 0x2700000027 (-1)%Z 0x1c4210001c42b 0x1c42b0001c435;
  mkModel 0x2700000027 (-1)%Z 0x1c4350001c442 0x1c4420001c44f;
  mkModel 0x2700000027 (7697)%Z 0x0 0x1c44f0001c458;
  mkModel 0x2700000027 (-1)%Z 0x1c4580001c46a 0x1c46a0001c47c;
  mkModel 0x2700000027 (-1)%Z 0x1c47c0001c48a 0x1c48a0001c498;
  mkModel 0x2700000027 (-1)%Z 0x1c4980001c4a4 0x1c4a40001c4b0;
  mkModel 0x2700000027 (7698)%Z 0x0 0x1c4b00001c4ba;
  mkModel 0x2700000027 (7699)%Z 0x0 0x1c4ba0001c4c3;
  mkModel 0x2700000027 (-1)%Z 0x1c4c30001c4cc 0x1c4c30001c4cc;
  mkModel 0x2700000027 (-1)%Z 0x1c4cc0001c4d4 0x1c4d40001c4dc;
  mkModel 0x2700000027 (-1)%Z 0x1c4dc0001c4e2 0x1c4e20001c4e8;
  mkModel 0x2700000027 (-1)%Z 0x1c4e80001c4ed 0x1c4e80001c4ed;
  mkModel 0x23f00000249 (-1)%Z 0x1c4ed0001c4f8 0x1c4f80001c503;
  mkModel 0x23f00000249 (-1)%Z 0x1c5030001c50a 0x1c50a0001c511;
  mkModel 0x23f00000249 (7700)%Z 0x0 0x1c5110001c51f;
  mkModel 0x23f00000249 (-1)%Z 0x1c51f0001c52d 0x1c52d0001c537;
  mkModel 0x23f00000249 (-1)%Z 0x1c5370001c545 0x1c5450001c54f;
  mkModel 0x23f00000249 (-1)%Z 0x1c54f0001c55c 0x1c55c0001c565;
  mkModel 0x23f00000249 (-1)%Z 0x1c5650001c56e 0xf5750000f57a;
  mkModel 0x23f00000249 (-1)%Z 0x1c56e0001c579 0x1c5790001c580;
  mkModel 0x23f00000249 (-1)%Z 0x1c5800001c58c 0x1c58c0001c594;
  mkModel 0x23f00000249 (-1)%Z 0x1c5940001c5a0 0x1c5a00001c5a8;
  mkModel 0x23f00000249 (-1)%Z 0x1c5a80001c5af 0x1c5af0001c5b2;
  mkModel 0x23f00000249 (-1)%Z 0x1c5b20001c5c0 0x1c5c00001c5ce;
  mkModel 0x23f00000249 (7701)%Z 0x0 0x18000000182;
  mkModel 0x23b0000023d (-1)%Z 0x1c5ce0001c5dd 0x1c5dd0001c5e8;
  mkModel 0x23b0000023d (-1)%Z 0x1c5e80001c5f1 0x1c5f10001c5f6;
  mkModel 0x2700000027 (7703)%Z 0x0 0x1012500010128;
  mkModel 0x0 (-1)%Z 0x0 0x1c6000001c603;
  mkModel 0x0 (-1)%Z 0x0 0x18000000182;
  mkModel 0x2700000027 (-1)%Z 0x1c6110001c618 0x1c6110001c618;
  mkModel 0x2700000027 (-1)%Z 0x1c6180001c623 0x1c6180001c623;
  mkModel 0x2700000027 (-1)%Z 0x1c6230001c62e 0x1c62e0001c639;
  mkModel 0x2700000027 (-1)%Z 0x1c6390001c63f 0x1c63f0001c645;
  mkModel 0x2700000027 (-1)%Z 0x1c6450001c64f 0x1c64f0001c659;
  mkModel 0x2700000027 (-1)%Z 0x1c6590001c665 0x1c6650001c671;
  mkModel 0x2700000027 (-1)%Z 0x1c6710001c678 0x1c6780001c67f;
  mkModel 0x2700000027 (-1)%Z 0x1c67f0001c687 0x1c6870001c68f;
  mkModel 0x2700000027 (-1)%Z 0x1c68f0001c696 0x1c6960001c69d;
  mkModel 0x2700000027 (-1)%Z 0x1c69d0001c6a4 0x1c69d0001c6a4;
  mkModel 0x0 (-1)%Z 0x0 0x18000000182;
  mkModel 0x2700000027 (-1)%Z 0x1c6b20001c6b8 0x1c6b20001c6b8;
  mkModel 0x2700000027 (-1)%Z 0x1c6b80001c6bf 0x1c6b80001c6bf;
  mkModel 0x2700000027 (-1)%Z 0x1c6bf0001c6cc 0x1c6cc0001c6d9;
  mkModel 0x2700000027 (-1)%Z 0x1c6d90001c6e5 0x1c6d90001c6e5;
  mkModel 0x2700000027 (7709)%Z 0x0 0x1c6e50001c6f2;
  mkModel 0x2700000027 (7710)%Z 0x0 0x18000000182;
  mkModel 0x2700000027 (7711)%Z 0x0 0x18000000182;
  mkModel 0x2700000027 (-1)%Z 0x1c6f80001c6ff 0x1c6f80001c6ff;
  mkModel 0x2700000027 (7713)%Z 0x0 0x7c3000007c8;
  mkModel 0x0 (-1)%Z 0x0 0x1c7040001c706;
  mkModel 0x2700000027 (7716)%Z 0x0 0x1c70d0001c719;
  mkModel 0x2700000027 (-1)%Z 0x1c7190001c724 0x1c7240001c72f;
  mkModel 0x2700000027 (7717)%Z 0x0 0x1c72f0001c739;
  mkModel 0x23b0000023d (7718)%Z 0x0 0x1c7390001c742;
  mkModel 0x2700000027 (7720)%Z 0x0 0x1c74f0001c757;
  mkModel 0x2700000027 (7721)%Z 0x0 0x1c7570001c75c;
  mkModel 0xdfd00000e04 (-1)%Z 0x1c75c0001c763 0x1c7630001c769;
  mkModel 0x2a1000002a7 (7722)%Z 0x0 0x1c7690001c76e;
  mkModel 0x2700000027 (7724)%Z 0x0 0x1c7730001c77b;
  mkModel 0x0 (-1)%Z 0x0 0x1c77e0001c786;
  mkModel 0x0 (-1)%Z 0x0 0x18000000182;
  mkModel 0x2700000027 (7728)%Z 0x0 0x18000000182;
  mkModel 0x2700000027 (7729)%Z 0x0 0xe3400000e3c;
  mkModel 0x2700000027 (7731)%Z 0x0 0x1c7990001c7a1;
  mkModel 0x2700000027 (7732)%Z 0x0 0x1c7a10001c7b0;
  mkModel 0x2700000027 (-1)%Z 0x1c7b00001c7bc 0x1c7bc0001c7c8;
  mkModel 0x2700000027 (-1)%Z 0x1c7c80001c7d8 0x1c7c80001c7d8;
  mkModel 0x2700000027 (-1)%Z 0x1c7d80001c7e6 0x1c7d80001c7e6;
  mkModel 0x2700000027 (-1)%Z 0x1c7e60001c7ee 0x1c7ee0001c7f6;
  mkModel 0x2700000027 (-1)%Z 0x1c7f60001c800 0x1c8000001c80a;
  mkModel 0x2700000027 (-1)%Z 0x1c80a0001c813 0x1c8130001c81c;
  mkModel 0x2700000027 (-1)%Z 0x1c81c0001c825 0x1c8250001c82e;
  mkModel 0x2700000027 (-1)%Z 0x1c82e0001c837 0x1c8370001c840;
  mkModel 0x2700000027 (-1)%Z 0x1c8400001c84a 0x1c8400001c84a;
  mkModel 0x23b0000023d (-1)%Z 0x1c84a0001c855 0x1c8550001c85e;
  mkModel 0x39a000003a7 (7734)%Z 0x0 0x18000000182;
  mkModel 0x2700000027 (7735)%Z 0x0 0x18000000182;
  mkModel 0x2700000027 (7736)%Z 0x0 0x18000000182;
  mkModel 0x2700000027 (7737)%Z 0x0 0x18000000182;
  mkModel 0x2700000027 (-1)%Z 0x1c86b0001c878 0x1c8780001c885;
  mkModel 0x2700000027 (7739)%Z 0x0 0x18000000182;
  mkModel 0x2700000027 (7740)%Z 0x0 0x18000000182;
  mkModel 0x2700000027 (7741)%Z 0x0 0x18000000182;
  mkModel 0x2700000027 (7742)%Z 0x0 0x18000000182;
  mkModel 0x2700000027 (7744)%Z 0x0 0x1c88a0001c899;
  mkModel 0x2700000027 (7745)%Z 0x0 0x18000000182;
  mkModel 0x2700000027 (7747)%Z 0x0 0x10e9000010f6;
  mkModel 0x2700000027 (7748)%Z 0x0 0xe3400000e3c;
  mkModel 0x2700000027 (-1)%Z 0x1c8a50001c8b5 0x1c8b50001c8bd;
  mkModel 0x2700000027 (7750)%Z 0x0 0x1c8bd0001c8c1;
  mkModel 0x23b0000023d (-1)%Z 0x1c8c10001c8c9 0x1c8c90001c8d2;
  mkModel 0x23b0000023d (7752)%Z 0x0 0x1c8d20001c8db;
  mkModel 0x23b0000023d (-1)%Z 0x1c8db0001c8e1 0x2700000027;
  mkModel 0x23b0000023d (7753)%Z 0x0 0x18000000182;
  mkModel 0x23b0000023d (7754)%Z 0x0 0x10e9000010f6;
  mkModel 0x23b0000023d (-1)%Z 0x1c8e10001c8ea 0x1c8ea0001c8f9;
  mkModel 0x2a1000002a7 (7755)%Z 0x0 0x1c8f90001c909;
  mkModel 0x2a1000002a7 (7756)%Z 0x0 0x1c9090001c91e;
  mkModel 0x2a1000002a7 (7757)%Z 0x0 0x1c91e0001c934;
  mkModel 0x2a1000002a7 (7758)%Z 0x0 0x1c9340001c949;
  mkModel 0x2a1000002a7 (7759)%Z 0x0 0x1c9490001c95d;
  mkModel 0x2a1000002a7 (7760)%Z 0x0 0x1c95d0001c96e;
  mkModel 0x2a1000002a7 (7761)%Z 0x0 0x1c96e0001c984;
  mkModel 0x2a1000002a7 (7762)%Z 0x0 0x1c9840001c999;
  mkModel 0x2a1000002a7 (7763)%Z 0x0 0x1c9990001c9a3;
  mkModel 0x2a1000002a7 (7764)%Z 0x0 0x1c9a30001c9b2;
  mkModel 0x2a1000002a7 (7765)%Z 0x0 0x1c9b20001c9c6;
  mkModel 0x2a1000002a7 (7766)%Z 0x0 0x1c9c60001c9d8;
  mkModel 0x2a1000002a7 (7767)%Z 0x0 0x1c9d80001c9ef;
  mkModel 0x2a1000002a7 (7768)%Z 0x0 0x1c9ef0001ca03;
  mkModel 0x2a1000002a7 (7769)%Z 0x0 0x1ca030001ca15;
  mkModel 0x2a1000002a7 (7770)%Z 0x0 0x1ca150001ca2c;
  mkModel 0x2a1000002a7 (7771)%Z 0x0 0x1ca2c0001ca42;
  mkModel 0x2a1000002a7 (7772)%Z 0x0 0x1ca420001ca54;
  mkModel 0x2a1000002a7 (7773)%Z 0x0 0x1ca540001ca68;
  mkModel 0x2a1000002a7 (7774)%Z 0x0 0x1ca680001ca77
].
Definition d_dr_dm_52 : list modelTuple := [
  mkModel 0x2a1000002a7 (-1)%Z 0x1ca770001ca7d 0x1ca7d0001ca91;
  mkModel 0x2a1000002a7 (7775)%Z 0x0 0x1ca910001caa1;
  mkModel 0x2a1000002a7 (7776)%Z 0x0 0x1caa10001cab1;
  mkModel 0x2a1000002a7 (7777)%Z 0x0 0x1cab10001cac7;
  mkModel 0x2a1000002a7 (7778)%Z 0x0 0x1cac70001cadf;
  mkModel 0x2a1000002a7 (7779)%Z 0x0 0x1cadf0001cb02;
  mkModel 0x2a1000002a7 (7780)%Z 0x0 0x1cb020001cb20;
  mkModel 0x2a1000002a7 (7781)%Z 0x0 0x1cb200001cb42;
  mkModel 0x2a1000002a7 (7782)%Z 0x0 0x1cb420001cb5b;
  mkModel 0x2a1000002a7 (7783)%Z 0x0 0x1cb5b0001cb6f;
  mkModel 0x2a1000002a7 (7784)%Z 0x0 0x1cb6f0001cb87;
  mkModel 0x2a1000002a7 (7785)%Z 0x0 0x1cb870001cbaf;
  mkModel 0x2a1000002a7 (7786)%Z 0x0 0x1cbaf0001cbd8;
  mkModel 0x2a1000002a7 (7787)%Z 0x0 0x1cbd80001cbff;
  mkModel 0x2a1000002a7 (7788)%Z 0x0 0x1cbff0001cc27;
  mkModel 0x2a1000002a7 (7789)%Z 0x0 0x1cc270001cc43;
  mkModel 0x2a1000002a7 (7790)%Z 0x0 0x1cc430001cc5f;
  mkModel 0x2a1000002a7 (7791)%Z 0x0 0x1cc5f0001cc7d;
  mkModel 0x2a1000002a7 (7792)%Z 0x0 0x1cc7d0001cc9c;
  mkModel 0x2a1000002a7 (7793)%Z 0x0 0x1cc9c0001ccbb;
  mkModel 0x2a1000002a7 (7794)%Z 0x0 0x1ccbb0001ccdd;
  mkModel 0x2a1000002a7 (7795)%Z 0x0 0x1ccdd0001cd00;
  mkModel 0x2a1000002a7 (7796)%Z 0x0 0x1cd000001cd17;
  mkModel 0x2a1000002a7 (7797)%Z 0x0 0x1cd000001cd17;
  mkModel 0x2a1000002a7 (7798)%Z 0x0 0x1cd170001cd30;
  mkModel 0x2a1000002a7 (7799)%Z 0x0 0x1cd300001cd48;
  mkModel 0x2a1000002a7 (7800)%Z 0x0 0x1cd480001cd5a;
  mkModel 0x2a1000002a7 (7801)%Z 0x0 0x1cd5a0001cd71;
  mkModel 0x2a1000002a7 (7802)%Z 0x0 0x1cd710001cd88;
  mkModel 0x2a1000002a7 (7803)%Z 0x0 0x1cd880001cda3;
  mkModel 0x2a1000002a7 (7804)%Z 0x0 0x1cda30001cdba;
  mkModel 0x2a1000002a7 (7805)%Z 0x0 0x1cdba0001cdd2;
  mkModel 0x2a1000002a7 (7806)%Z 0x0 0x1cdd20001cdea;
  mkModel 0x2a1000002a7 (7807)%Z 0x0 0x1cdea0001ce08;
  mkModel 0x2a1000002a7 (7808)%Z 0x0 0x1ce080001ce1b;
  mkModel 0x2a1000002a7 (7809)%Z 0x0 0x1ce1b0001ce2f;
  mkModel 0x2a1000002a7 (7810)%Z 0x0 0x1ce2f0001ce48;
  mkModel 0x2a1000002a7 (7811)%Z 0x0 0x1ce480001ce5b;
  mkModel 0x2a1000002a7 (7812)%Z 0x0 0x1ce5b0001ce72;
  mkModel 0x2a1000002a7 (7813)%Z 0x0 0x1ce720001ce8a;
  mkModel 0x2a1000002a7 (7814)%Z 0x0 0x1ce8a0001cea9;
  mkModel 0x2a1000002a7 (7815)%Z 0x0 0x1cea90001cecd;
  mkModel 0x2a1000002a7 (7816)%Z 0x0 0x1cecd0001ceea;
  mkModel 0x2a1000002a7 (7817)%Z 0x0 0x1ceea0001cf02;
  mkModel 0x2a1000002a7 (7818)%Z 0x0 0x1cf020001cf18;
  mkModel 0x2a1000002a7 (7819)%Z 0x0 0x1cf180001cf30;
  mkModel 0x2a1000002a7 (7820)%Z 0x0 0x1cf300001cf4e;
  mkModel 0x2a1000002a7 (7821)%Z 0x0 0x1cf4e0001cf6c;
  mkModel 0x2a1000002a7 (7822)%Z 0x0 0x1cf6c0001cf88;
  mkModel 0x2a1000002a7 (7823)%Z 0x0 0x1cf880001cf9c;
  mkModel 0x2a1000002a7 (7824)%Z 0x0 0x1cf9c0001cfb3;
  mkModel 0x2a1000002a7 (7825)%Z 0x0 0x1cfb30001cfc9;
  mkModel 0x2a1000002a7 (7826)%Z 0x0 0x1cfc90001cfe3;
  mkModel 0x2a1000002a7 (7827)%Z 0x0 0x1cfe30001cffc;
  mkModel 0x2a1000002a7 (7828)%Z 0x0 0x1cffc0001d018;
  mkModel 0x2a1000002a7 (7829)%Z 0x0 0x1d0180001d02e;
  mkModel 0x2a1000002a7 (7830)%Z 0x0 0x1d02e0001d044;
  mkModel 0x2a1000002a7 (7831)%Z 0x0 0x1d0440001d063;
  mkModel 0x2a1000002a7 (7832)%Z 0x0 0x1d0630001d080;
  mkModel 0x2a1000002a7 (7833)%Z 0x0 0x1d0800001d098;
  mkModel 0x2a1000002a7 (7834)%Z 0x0 0x1d0980001d0b3;
  mkModel 0x2a1000002a7 (7835)%Z 0x0 0x1d0b30001d0ce;
  mkModel 0x2a1000002a7 (7836)%Z 0x0 0x1d0ce0001d0ea;
  mkModel 0x2a1000002a7 (7837)%Z 0x0 0x1d0ea0001d104;
  mkModel 0x2a1000002a7 (7838)%Z 0x0 0x1d1040001d11e;
  mkModel 0x2a1000002a7 (7839)%Z 0x0 0x1d11e0001d136;
  mkModel 0x2a1000002a7 (7840)%Z 0x0 0x1d1360001d14e;
  mkModel 0x2a1000002a7 (7841)%Z 0x0 0x1d14e0001d164;
  mkModel 0x2a1000002a7 (7842)%Z 0x0 0x1d1640001d172;
  mkModel 0x2a1000002a7 (7843)%Z 0x0 0x1d1720001d188;
  mkModel 0x2a1000002a7 (7844)%Z 0x0 0x1d1880001d19e;
  mkModel 0x2a1000002a7 (7845)%Z 0x0 0x1d19e0001d1af;
  mkModel 0x2a1000002a7 (7846)%Z 0x0 0x1d1af0001d1c5;
  mkModel 0x2a1000002a7 (7847)%Z 0x0 0x1d1c50001d1d9;
  mkModel 0x2a1000002a7 (7848)%Z 0x0 0x1d1d90001d1ee;
  mkModel 0x2a1000002a7 (7849)%Z 0x0 0x1d1ee0001d209;
  mkModel 0x2a1000002a7 (7850)%Z 0x0 0x1d2090001d21f;
  mkModel 0x2a1000002a7 (7851)%Z 0x0 0x1d21f0001d233;
  mkModel 0x2a1000002a7 (7852)%Z 0x0 0x1d2330001d244;
  mkModel 0x2a1000002a7 (7853)%Z 0x0 0x1d2440001d259;
  mkModel 0x2a1000002a7 (7854)%Z 0x0 0x1d2590001d26f;
  mkModel 0x2a1000002a7 (7855)%Z 0x0 0x1d26f0001d284;
  mkModel 0x2a1000002a7 (7856)%Z 0x0 0x1d2840001d29c;
  mkModel 0x2a1000002a7 (7857)%Z 0x0 0x1d29c0001d2b2;
  mkModel 0x2a1000002a7 (7858)%Z 0x0 0x1d2b20001d2cd;
  mkModel 0x2a1000002a7 (7859)%Z 0x0 0x1d2cd0001d2df;
  mkModel 0x2a1000002a7 (7860)%Z 0x0 0x1d2df0001d2f6;
  mkModel 0x2a1000002a7 (7861)%Z 0x0 0x1d2f60001d30c;
  mkModel 0x2a1000002a7 (7862)%Z 0x0 0x1d30c0001d323;
  mkModel 0x2a1000002a7 (7863)%Z 0x0 0x1d3230001d33a;
  mkModel 0x2a1000002a7 (7864)%Z 0x0 0x1d33a0001d350;
  mkModel 0x2a1000002a7 (7865)%Z 0x0 0x1d3500001d365;
  mkModel 0x2a1000002a7 (7866)%Z 0x0 0x1d3650001d37c;
  mkModel 0x2a1000002a7 (7867)%Z 0x0 0x1d37c0001d392;
  mkModel 0x2a1000002a7 (7868)%Z 0x0 0x1d3920001d3a9;
  mkModel 0x2a1000002a7 (7869)%Z 0x0 0x1d3a90001d3bf;
  mkModel 0x2a1000002a7 (7870)%Z 0x0 0x1d3bf0001d3d6;
  mkModel 0x2a1000002a7 (7871)%Z 0x0 0x1d3d60001d3ec;
  mkModel 0x2a1000002a7 (7872)%Z 0x0 0x1d3ec0001d403;
  mkModel 0x2a1000002a7 (7873)%Z 0x0 0x1d4030001d419;
  mkModel 0x2a1000002a7 (7874)%Z 0x0 0x1d4190001d431;
  mkModel 0x2a1000002a7 (7875)%Z 0x0 0x1d4310001d44a;
  mkModel 0x2a1000002a7 (7876)%Z 0x0 0x1d44a0001d461;
  mkModel 0x2a1000002a7 (7877)%Z 0x0 0x1d4610001d479;
  mkModel 0x2a1000002a7 (7878)%Z 0x0 0x1d4790001d490;
  mkModel 0x2a1000002a7 (7879)%Z 0x0 0x1d4900001d4a6;
  mkModel 0x2a1000002a7 (7880)%Z 0x0 0x1d4a60001d4c0;
  mkModel 0x2a1000002a7 (7881)%Z 0x0 0x1d4c00001d4d9;
  mkModel 0x2a1000002a7 (7882)%Z 0x0 0x1d4d90001d4f4;
  mkModel 0x2a1000002a7 (7883)%Z 0x0 0x1d4f40001d510;
  mkModel 0x2a1000002a7 (7884)%Z 0x0 0x1d5100001d527;
  mkModel 0x2a1000002a7 (7885)%Z 0x0 0x1d5270001d540;
  mkModel 0x2a1000002a7 (7886)%Z 0x0 0x1d5400001d556;
  mkModel 0x2a1000002a7 (7887)%Z 0x0 0x1d5560001d569;
  mkModel 0x2a1000002a7 (7888)%Z 0x0 0x1d5690001d581;
  mkModel 0x2a1000002a7 (7889)%Z 0x0 0x1d5810001d597;
  mkModel 0x2a1000002a7 (7890)%Z 0x0 0x1d5970001d5ac;
  mkModel 0x2a1000002a7 (7891)%Z 0x0 0x1d5ac0001d5c2;
  mkModel 0x2a1000002a7 (7892)%Z 0x0 0x1d5c20001d5d7;
  mkModel 0x2a1000002a7 (7893)%Z 0x0 0x1d5d70001d5f3;
  mkModel 0x2a1000002a7 (7894)%Z 0x0 0x1cc430001cc5f;
  mkModel 0x2a1000002a7 (7895)%Z 0x0 0x1d5f30001d610;
  mkModel 0x2a1000002a7 (7896)%Z 0x0 0x1d6100001d626;
  mkModel 0x2a1000002a7 (7897)%Z 0x0 0x1d6260001d63b;
  mkModel 0x2a1000002a7 (7898)%Z 0x0 0x1d63b0001d659;
  mkModel 0x2a1000002a7 (7899)%Z 0x0 0x1d6590001d676;
  mkModel 0x2a1000002a7 (7900)%Z 0x0 0x1d6760001d693;
  mkModel 0x2a1000002a7 (7901)%Z 0x0 0x1d6930001d6ac;
  mkModel 0x2a1000002a7 (7902)%Z 0x0 0x1d6ac0001d6bd;
  mkModel 0x2a1000002a7 (7903)%Z 0x0 0x1d6bd0001d6d3;
  mkModel 0x2a1000002a7 (7904)%Z 0x0 0x1d6d30001d6e7;
  mkModel 0x2a1000002a7 (7905)%Z 0x0 0x1d6e70001d6fb;
  mkModel 0x2a1000002a7 (7906)%Z 0x0 0x1d6fb0001d716;
  mkModel 0x2a1000002a7 (7907)%Z 0x0 0x1d7160001d738;
  mkModel 0x2a1000002a7 (7908)%Z 0x0 0x1d7380001d758;
  mkModel 0x2a1000002a7 (7909)%Z 0x0 0x1d7580001d76e;
  mkModel 0x2a1000002a7 (7910)%Z 0x0 0x1d76e0001d789;
  mkModel 0x2a1000002a7 (7911)%Z 0x0 0x1d7890001d7a1;
  mkModel 0x2a1000002a7 (7912)%Z 0x0 0x1d7a10001d7be;
  mkModel 0x2a1000002a7 (7913)%Z 0x0 0x1d7be0001d7d6;
  mkModel 0x2a1000002a7 (7914)%Z 0x0 0x1d7d60001d7f3;
  mkModel 0x2a1000002a7 (7915)%Z 0x0 0x1d7f30001d80e;
  mkModel 0x2a1000002a7 (7916)%Z 0x0 0x1d80e0001d82e;
  mkModel 0x2a1000002a7 (7917)%Z 0x0 0x1d82e0001d843;
  mkModel 0x2a1000002a7 (7918)%Z 0x0 0x1d8430001d84f;
  mkModel 0x2b1e00002b26 (-1)%Z 0x1d84f0001d856 0x1d8560001d870;
  mkModel 0x2b1e00002b26 (-1)%Z 0x1d8700001d878 0x1d8780001d883;
  mkModel 0x2b1e00002b26 (-1)%Z 0x1d8830001d88b 0x1d88b0001d89a;
  mkModel 0x2b1e00002b26 (-1)%Z 0x1d89a0001d8a2 0x1d8a20001d8af;
  mkModel 0x2b1e00002b26 (-1)%Z 0x1d8af0001d8b8 0x1d8b80001d8c9;
  mkModel 0x2b1e00002b26 (-1)%Z 0x1d8c90001d8d0 0x1d8d00001d8ee;
  mkModel 0x2b1e00002b26 (-1)%Z 0x1d8ee0001d8f5 0x1d8f50001d90f;
  mkModel 0x2b1e00002b26 (-1)%Z 0x1d90f0001d916 0x1d9160001d934;
  mkModel 0x2b1e00002b26 (-1)%Z 0x1d9340001d93b 0x1d93b0001d94c;
  mkModel 0x2b1e00002b26 (-1)%Z 0x1d94c0001d953 0x1d9530001d966;
  mkModel 0x2b1e00002b26 (7919)%Z 0x0 0x1d9660001d979;
  mkModel 0x2b1e00002b26 (7920)%Z 0x0 0x1d9790001d98c;
  mkModel 0x2b1e00002b26 (7921)%Z 0x0 0x1d98c0001d99f;
  mkModel 0x2b1e00002b26 (-1)%Z 0x1d99f0001d9a6 0x1d9a60001d9bd;
  mkModel 0x2b1e00002b26 (-1)%Z 0x1d9bd0001d9c4 0x1d9c40001d9db;
  mkModel 0x2b1e00002b26 (-1)%Z 0x1d9db0001d9e2 0x1d9e20001d9fd;
  mkModel 0x2b1e00002b26 (-1)%Z 0x1d9fd0001da04 0x1da040001da1f;
  mkModel 0x2b1e00002b26 (-1)%Z 0x1da1f0001da26 0x1da260001da3b;
  mkModel 0x2b1e00002b26 (-1)%Z 0x1da3b0001da42 0x1da420001da55;
  mkModel 0x2b1e00002b26 (-1)%Z 0x1da550001da5c 0x1da5c0001da6d;
  mkModel 0x2b1e00002b26 (-1)%Z 0x1da6d0001da74 0x1da740001da89;
  mkModel 0x2b1e00002b26 (-1)%Z 0x1da890001da90 0x1da900001daab;
  mkModel 0x2b1e00002b26 (-1)%Z 0x1daab0001dab2 0x1dab20001dac5;
  mkModel 0x2b1e00002b26 (-1)%Z 0x1dac50001dacc 0x1dacc0001dae2;
  mkModel 0x2b1e00002b26 (-1)%Z 0x1dae20001dae9 0x1dae90001db05;
  mkModel 0x2b1e00002b26 (-1)%Z 0x1db050001db0c 0x1db0c0001db1f;
  mkModel 0x2b1e00002b26 (-1)%Z 0x1db1f0001db26 0x1db260001db39;
  mkModel 0x2b1e00002b26 (-1)%Z 0x1db390001db40 0x1db400001db4b;
  mkModel 0x2b1e00002b26 (-1)%Z 0x1db4b0001db52 0x1db520001db5e;
  mkModel 0x2b1e00002b26 (-1)%Z 0x1db5e0001db65 0x1db650001db81;
  mkModel 0x2b1e00002b26 (-1)%Z 0x1db810001db88 0x1db880001dba3;
  mkModel 0x2b1e00002b26 (-1)%Z 0x1dba30001dbaa 0x1dbaa0001dbc1;
  mkModel 0x2b1e00002b26 (-1)%Z 0x1dbc10001dbc8 0x1dbc80001dbdb;
  mkModel 0x2b1e00002b26 (-1)%Z 0x1dbdb0001dbe2 0x1dbe20001dbf5;
  mkModel 0x2b1e00002b26 (-1)%Z 0x1dbf50001dbfc 0x1dbfc0001dc12;
  mkModel 0x2b1e00002b26 (-1)%Z 0x1dc120001dc1b 0x1dc120001dc1b;
  mkModel 0x7cc000007d6 (7922)%Z 0x0 0x1dc1b0001dc25;
  mkModel 0x2700000027 (7923)%Z 0x0 0x1dc250001dc2f;
  mkModel 0x2700000027 (7924)%Z 0x0 0x1dc2f0001dc3c;
  mkModel 0x2700000027 (7925)%Z 0x0 0x1dc3c0001dc48;
  mkModel 0x2700000027 (7926)%Z 0x0 0x1dc480001dc53;
  mkModel 0x2700000027 (7927)%Z 0x0 0x1dc530001dc5e;
  mkModel 0x2700000027 (7928)%Z 0x0 0x1dc5e0001dc6b;
  mkModel 0x2700000027 (7929)%Z 0x0 0x1dc6b0001dc77;
  mkModel 0x2700000027 (7930)%Z 0x0 0x1dc770001dc88;
  mkModel 0x2700000027 (7931)%Z 0x0 0x1dc880001dc92;
  mkModel 0x2700000027 (7932)%Z 0x0 0x1dc920001dc9e;
  mkModel 0x2700000027 (7933)%Z 0x0 0x1dc9e0001dcab;
  mkModel 0x2700000027 (7934)%Z 0x0 0x1dcab0001dcb3;
  mkModel 0x2700000027 (7935)%Z 0x0 0x1dcb30001dcbb;
  mkModel 0x2700000027 (7936)%Z 0x0 0x1dcbb0001dcc2;
  mkModel 0x2700000027 (7937)%Z 0x0 0x1dcc20001dcc9;
  mkModel 0x2700000027 (7938)%Z 0x0 0x1dcc90001dcd0;
  mkModel 0x2700000027 (7939)%Z 0x0 0x1dcd00001dcdb;
  mkModel 0x2700000027 (7940)%Z 0x0 0x1dcdb0001dce0
].
Definition d_dr_dm_53 : list modelTuple := [
  mkModel 0x2700000027 (7941)%Z 0x0 0x1dce00001dce7;
  mkModel 0x2700000027 (7942)%Z 0x0 0x1dce70001dcef;
  mkModel 0x2700000027 (7943)%Z 0x0 0x1dcef0001dd00;
  mkModel 0x2700000027 (7944)%Z 0x0 0x1dd000001dd0a;
  mkModel 0x2700000027 (7945)%Z 0x0 0x1dd0a0001dd1a;
  mkModel 0x2700000027 (7946)%Z 0x0 0x1dd1a0001dd26;
  mkModel 0x2700000027 (7947)%Z 0x0 0x1dd260001dd32;
  mkModel 0x2700000027 (7948)%Z 0x0 0x1dd320001dd43;
  mkModel 0x2700000027 (7949)%Z 0x0 0x1dd430001dd54;
  mkModel 0x2700000027 (7950)%Z 0x0 0x1dd540001dd64;
  mkModel 0x2700000027 (7951)%Z 0x0 0x1dd640001dd6f;
  mkModel 0x2700000027 (7952)%Z 0x0 0x1dd6f0001dd81;
  mkModel 0x2700000027 (7953)%Z 0x0 0x1dd810001dd92;
  mkModel 0x2700000027 (7954)%Z 0x0 0x1dd920001ddb1;
  mkModel 0x2700000027 (7955)%Z 0x0 0x1ddb10001ddbc;
  mkModel 0x2700000027 (7956)%Z 0x0 0x1ddbc0001ddcf;
  mkModel 0x2700000027 (7957)%Z 0x0 0x1ddcf0001ddde;
  mkModel 0x2700000027 (7958)%Z 0x0 0x1ddde0001ddf2;
  mkModel 0x2700000027 (7959)%Z 0x0 0x1ddf20001ddf4;
  mkModel 0x2700000027 (7960)%Z 0x0 0x1ddf40001ddff;
  mkModel 0x2700000027 (7961)%Z 0x0 0x1ddff0001de0c;
  mkModel 0x2700000027 (7962)%Z 0x0 0x1de0c0001de17;
  mkModel 0x2700000027 (7963)%Z 0x0 0x1de170001de24;
  mkModel 0x2700000027 (7964)%Z 0x0 0x1de240001de31;
  mkModel 0x2700000027 (7965)%Z 0x0 0x1de310001de3e;
  mkModel 0x2700000027 (7966)%Z 0x0 0x1de3e0001de48;
  mkModel 0x2700000027 (7967)%Z 0x0 0x1de480001de56;
  mkModel 0x2700000027 (7968)%Z 0x0 0x1ddbc0001ddcf;
  mkModel 0x2700000027 (7969)%Z 0x0 0x1de560001de64;
  mkModel 0x2700000027 (7970)%Z 0x0 0x1de640001de6d;
  mkModel 0x2700000027 (7971)%Z 0x0 0x1de6d0001de76;
  mkModel 0x2700000027 (7972)%Z 0x0 0x1de760001de7e;
  mkModel 0x2700000027 (7973)%Z 0x0 0x1de7e0001de8b;
  mkModel 0x2700000027 (7974)%Z 0x0 0x1de8b0001de94;
  mkModel 0x2700000027 (7975)%Z 0x0 0x1de940001deab;
  mkModel 0x2700000027 (7976)%Z 0x0 0x1deab0001debb;
  mkModel 0x2700000027 (7977)%Z 0x0 0x1dd640001dd6f;
  mkModel 0x2700000027 (7978)%Z 0x0 0x1debb0001decc;
  mkModel 0x2700000027 (7979)%Z 0x0 0x1decc0001ded4;
  mkModel 0x2700000027 (7980)%Z 0x0 0x1ded40001dee4;
  mkModel 0x2700000027 (7981)%Z 0x0 0x1dee40001def2;
  mkModel 0x2700000027 (7982)%Z 0x0 0x1def20001df00;
  mkModel 0x2700000027 (7983)%Z 0x0 0x1df000001df17;
  mkModel 0x2700000027 (7984)%Z 0x0 0x1df170001df27;
  mkModel 0x2700000027 (7985)%Z 0x0 0x1df270001df33;
  mkModel 0x2700000027 (7986)%Z 0x0 0x1df330001df43;
  mkModel 0x2700000027 (7987)%Z 0x0 0x1df430001df4c;
  mkModel 0x2700000027 (7988)%Z 0x0 0x1df4c0001df5f;
  mkModel 0x2700000027 (7989)%Z 0x0 0x1df5f0001df6c;
  mkModel 0x2700000027 (7990)%Z 0x0 0x1df6c0001df77;
  mkModel 0x2700000027 (7991)%Z 0x0 0x1df770001df89;
  mkModel 0x2700000027 (7992)%Z 0x0 0x1df890001df9a;
  mkModel 0x2700000027 (7993)%Z 0x0 0x1df9a0001dfa9;
  mkModel 0x2700000027 (7994)%Z 0x0 0x1dfa90001dfbd;
  mkModel 0x2700000027 (7995)%Z 0x0 0x1dfbd0001dfc9;
  mkModel 0x2700000027 (7996)%Z 0x0 0x1dfc90001dfda;
  mkModel 0x2700000027 (7997)%Z 0x0 0x1dfda0001dfe8;
  mkModel 0x2700000027 (7998)%Z 0x0 0x1dfe80001dffa;
  mkModel 0x2700000027 (7999)%Z 0x0 0x1dffa0001e013;
  mkModel 0x2700000027 (8000)%Z 0x0 0x1e0130001e01e;
  mkModel 0x2700000027 (8001)%Z 0x0 0x1e01e0001e02e;
  mkModel 0x2700000027 (8002)%Z 0x0 0x1e02e0001e039;
  mkModel 0x2700000027 (8003)%Z 0x0 0x1e0390001e046;
  mkModel 0x2700000027 (8004)%Z 0x0 0x1e0460001e052;
  mkModel 0x2700000027 (8005)%Z 0x0 0x1e0520001e061;
  mkModel 0x2700000027 (8006)%Z 0x0 0x1e0610001e06d;
  mkModel 0x2700000027 (8007)%Z 0x0 0x1e06d0001e07e;
  mkModel 0x2700000027 (8008)%Z 0x0 0x1e07e0001e08f;
  mkModel 0x2700000027 (8009)%Z 0x0 0x1e08f0001e09d;
  mkModel 0x2700000027 (8010)%Z 0x0 0x1e09d0001e0aa;
  mkModel 0x2700000027 (8011)%Z 0x0 0x1e0aa0001e0b9;
  mkModel 0x2700000027 (8012)%Z 0x0 0x1e0b90001e0c8;
  mkModel 0x2700000027 (8013)%Z 0x0 0x1e0c80001e0d7;
  mkModel 0x2700000027 (8014)%Z 0x0 0x1e0d70001e0e6;
  mkModel 0x2700000027 (8015)%Z 0x0 0x1e0e60001e0f8;
  mkModel 0x2700000027 (8016)%Z 0x0 0x1e0f80001e107;
  mkModel 0x2700000027 (8017)%Z 0x0 0x1e1070001e117;
  mkModel 0x2700000027 (8018)%Z 0x0 0x1e1170001e128;
  mkModel 0x2700000027 (8019)%Z 0x0 0x1e1280001e13e;
  mkModel 0x2700000027 (8020)%Z 0x0 0x1e13e0001e14d;
  mkModel 0x2700000027 (8021)%Z 0x0 0x1e14d0001e160;
  mkModel 0x2700000027 (8022)%Z 0x0 0x1e1600001e16f;
  mkModel 0x2700000027 (8023)%Z 0x0 0x1b1800001b1c;
  mkModel 0x2700000027 (8024)%Z 0x0 0x1e16f0001e176;
  mkModel 0x2700000027 (8025)%Z 0x0 0x1e1760001e17c;
  mkModel 0x2700000027 (8026)%Z 0x0 0x1e17c0001e182;
  mkModel 0x2700000027 (8027)%Z 0x0 0x1e1820001e188;
  mkModel 0x2700000027 (8028)%Z 0x0 0x1e1880001e190;
  mkModel 0x2700000027 (8029)%Z 0x0 0x1e1900001e198;
  mkModel 0x2700000027 (8030)%Z 0x0 0x1e1980001e1a0;
  mkModel 0x2700000027 (8031)%Z 0x0 0x1e1a00001e1a8;
  mkModel 0x2700000027 (8032)%Z 0x0 0x1e1a80001e1b6;
  mkModel 0x2700000027 (8033)%Z 0x0 0x1e1b60001e1c3;
  mkModel 0x2700000027 (8034)%Z 0x0 0x1e1c30001e1d0;
  mkModel 0x2700000027 (8035)%Z 0x0 0x1e1d00001e1dd;
  mkModel 0x2700000027 (8036)%Z 0x0 0x1e1dd0001e1ed;
  mkModel 0x2700000027 (8037)%Z 0x0 0x1e1ed0001e1fe;
  mkModel 0x2700000027 (8038)%Z 0x0 0x1e1fe0001e21d;
  mkModel 0x2700000027 (8039)%Z 0x0 0x1ddcf0001ddde;
  mkModel 0x2700000027 (8040)%Z 0x0 0x1e21d0001e230;
  mkModel 0x2700000027 (8041)%Z 0x0 0x1e2300001e23f;
  mkModel 0x2700000027 (8042)%Z 0x0 0x1e23f0001e250;
  mkModel 0x2700000027 (8043)%Z 0x0 0x1e2500001e25e;
  mkModel 0x2700000027 (8044)%Z 0x0 0x1e25e0001e270;
  mkModel 0x2700000027 (8045)%Z 0x0 0x1e2700001e27e;
  mkModel 0x2700000027 (8046)%Z 0x0 0x1e27e0001e287;
  mkModel 0x2700000027 (8047)%Z 0x0 0x1e2870001e295;
  mkModel 0x2700000027 (8048)%Z 0x0 0x1e2950001e2a5;
  mkModel 0x2700000027 (8049)%Z 0x0 0x1e2a50001e2b2;
  mkModel 0x2700000027 (8050)%Z 0x0 0x1e2b20001e2c3;
  mkModel 0x2700000027 (8051)%Z 0x0 0x1e2c30001e2cc;
  mkModel 0x2700000027 (8052)%Z 0x0 0x1e2950001e2a5;
  mkModel 0x2700000027 (8053)%Z 0x0 0x1e2cc0001e2da;
  mkModel 0x2700000027 (8054)%Z 0x0 0x1e2da0001e2e9;
  mkModel 0x2700000027 (8055)%Z 0x0 0x1e2e90001e2f2;
  mkModel 0x2700000027 (8056)%Z 0x0 0x1e2f20001e300;
  mkModel 0x2700000027 (8057)%Z 0x0 0x1e3000001e310;
  mkModel 0x2700000027 (8058)%Z 0x0 0x1e3100001e319;
  mkModel 0x2700000027 (8059)%Z 0x0 0x1e3190001e327;
  mkModel 0x2700000027 (8060)%Z 0x0 0x1e3270001e337;
  mkModel 0x2700000027 (8061)%Z 0x0 0x1e3370001e341;
  mkModel 0x2700000027 (8062)%Z 0x0 0x1e3410001e34a;
  mkModel 0x2700000027 (8063)%Z 0x0 0x1e34a0001e354;
  mkModel 0x2700000027 (8064)%Z 0x0 0x1e3540001e35e;
  mkModel 0x2700000027 (8065)%Z 0x0 0x1e35e0001e36d;
  mkModel 0x2700000027 (8066)%Z 0x0 0x1e36d0001e378;
  mkModel 0x2700000027 (-1)%Z 0x1e3780001e37e 0x1e37e0001e39f;
  mkModel 0x2700000027 (8067)%Z 0x0 0x1e39f0001e3aa;
  mkModel 0x2700000027 (8068)%Z 0x0 0x1e3aa0001e3b4;
  mkModel 0x2700000027 (8069)%Z 0x0 0x1e3b40001e3c1;
  mkModel 0x2700000027 (8070)%Z 0x0 0x1e3c10001e3ce;
  mkModel 0x2700000027 (8071)%Z 0x0 0x1e3ce0001e3de;
  mkModel 0x2700000027 (8072)%Z 0x0 0x1e3de0001e3f1;
  mkModel 0x2700000027 (8073)%Z 0x0 0x1e3f10001e3fc;
  mkModel 0x2700000027 (8074)%Z 0x0 0x1e3fc0001e40a;
  mkModel 0x2700000027 (8075)%Z 0x0 0x1e40a0001e41a;
  mkModel 0x2700000027 (8076)%Z 0x0 0x1e41a0001e427;
  mkModel 0x2700000027 (8077)%Z 0x0 0x1e4270001e437;
  mkModel 0x2700000027 (8078)%Z 0x0 0x1e4370001e45a;
  mkModel 0x2700000027 (8079)%Z 0x0 0x1e45a0001e46d;
  mkModel 0x2700000027 (8080)%Z 0x0 0x1e46d0001e47b;
  mkModel 0x2700000027 (8081)%Z 0x0 0x1e47b0001e485;
  mkModel 0x2700000027 (8082)%Z 0x0 0x1e4850001e495;
  mkModel 0x2700000027 (8083)%Z 0x0 0x1e4950001e4a0;
  mkModel 0x2700000027 (8084)%Z 0x0 0x1e4a00001e4aa;
  mkModel 0x2700000027 (8085)%Z 0x0 0x1e4aa0001e4b5;
  mkModel 0x2700000027 (8086)%Z 0x0 0x1e4b50001e4c5;
  mkModel 0x2700000027 (8087)%Z 0x0 0x1e4c50001e4d2;
  mkModel 0x2700000027 (8088)%Z 0x0 0x1e4d20001e4dc;
  mkModel 0x2700000027 (8089)%Z 0x0 0x1e4dc0001e4e7;
  mkModel 0x2700000027 (8090)%Z 0x0 0x1e4e70001e4f4;
  mkModel 0x2700000027 (8091)%Z 0x0 0x1e4f40001e504;
  mkModel 0x2700000027 (8092)%Z 0x0 0x1e5040001e50f;
  mkModel 0x2700000027 (8093)%Z 0x0 0x1e50f0001e519;
  mkModel 0x2700000027 (8094)%Z 0x0 0x1e5190001e528;
  mkModel 0x2700000027 (8095)%Z 0x0 0x1e5280001e538;
  mkModel 0x2700000027 (8096)%Z 0x0 0x1e5380001e545;
  mkModel 0x2700000027 (8097)%Z 0x0 0x1e5450001e555;
  mkModel 0x2700000027 (8098)%Z 0x0 0x1e5550001e563;
  mkModel 0x2700000027 (8099)%Z 0x0 0x1e5630001e574;
  mkModel 0x2700000027 (8100)%Z 0x0 0x1e5740001e583;
  mkModel 0x2700000027 (8101)%Z 0x0 0x1e5830001e591;
  mkModel 0x2700000027 (8102)%Z 0x0 0x1e5910001e59b;
  mkModel 0x2700000027 (8103)%Z 0x0 0x1e59b0001e5a7;
  mkModel 0x2700000027 (8104)%Z 0x0 0x1e5a70001e5b7;
  mkModel 0x2700000027 (8105)%Z 0x0 0x1e5b70001e5c1;
  mkModel 0x2700000027 (8106)%Z 0x0 0x1e5c10001e5d0;
  mkModel 0x2700000027 (8107)%Z 0x0 0x1e5d00001e5db;
  mkModel 0x2700000027 (8108)%Z 0x0 0x1e5db0001e5e6;
  mkModel 0x2700000027 (8109)%Z 0x0 0x1e5e60001e5f0;
  mkModel 0x2700000027 (8110)%Z 0x0 0x1e5f00001e5fb;
  mkModel 0x2700000027 (8111)%Z 0x0 0x1e5fb0001e606;
  mkModel 0x2700000027 (8112)%Z 0x0 0x1e6060001e610;
  mkModel 0x2700000027 (8113)%Z 0x0 0x1e6100001e61f;
  mkModel 0x2700000027 (8114)%Z 0x0 0x1e61f0001e629;
  mkModel 0x2700000027 (8115)%Z 0x0 0x1e6290001e633;
  mkModel 0x2700000027 (8116)%Z 0x0 0x1e6330001e63e;
  mkModel 0x2700000027 (8117)%Z 0x0 0x1e63e0001e64b;
  mkModel 0x2700000027 (8118)%Z 0x0 0x1e64b0001e655;
  mkModel 0x2700000027 (8119)%Z 0x0 0x1e6550001e663;
  mkModel 0x2700000027 (8120)%Z 0x0 0x1e6630001e66d;
  mkModel 0x2700000027 (8121)%Z 0x0 0x1e66d0001e67a;
  mkModel 0x2700000027 (8122)%Z 0x0 0x1e67a0001e684;
  mkModel 0x2700000027 (8123)%Z 0x0 0x1e6840001e691;
  mkModel 0x2700000027 (8124)%Z 0x0 0x1e6910001e69b;
  mkModel 0x2700000027 (8125)%Z 0x0 0x1e69b0001e6a5;
  mkModel 0x2700000027 (8126)%Z 0x0 0x1e6a50001e6b2;
  mkModel 0x2700000027 (8127)%Z 0x0 0x1e6b20001e6bc;
  mkModel 0x2700000027 (8128)%Z 0x0 0x1e6bc0001e6c8;
  mkModel 0x2700000027 (8129)%Z 0x0 0x1e6c80001e6d6;
  mkModel 0x2700000027 (8130)%Z 0x0 0x1e6d60001e6e3;
  mkModel 0x2700000027 (8131)%Z 0x0 0x1e6e30001e6f3;
  mkModel 0x2700000027 (8132)%Z 0x0 0x1e6f30001e703;
  mkModel 0x2700000027 (8133)%Z 0x0 0x1e7030001e713;
  mkModel 0x2700000027 (8134)%Z 0x0 0x1e7130001e720;
  mkModel 0x2700000027 (8135)%Z 0x0 0x1e7200001e72d;
  mkModel 0x2700000027 (8136)%Z 0x0 0x1e72d0001e73a;
  mkModel 0x2700000027 (8137)%Z 0x0 0x1e73a0001e743;
  mkModel 0x2700000027 (8138)%Z 0x0 0x1e7430001e74c;
  mkModel 0x2700000027 (8139)%Z 0x0 0x1e74c0001e75a
].
Definition d_dr_dm_54 : list modelTuple := [
  mkModel 0x2700000027 (8140)%Z 0x0 0x1e75a0001e76a;
  mkModel 0x2700000027 (8141)%Z 0x0 0x1e76a0001e77a;
  mkModel 0x2700000027 (8142)%Z 0x0 0x1e77a0001e78a;
  mkModel 0x2700000027 (8143)%Z 0x0 0x1e78a0001e794;
  mkModel 0x2700000027 (8144)%Z 0x0 0x1e7940001e7a1;
  mkModel 0x2700000027 (8145)%Z 0x0 0x1e7a10001e7af;
  mkModel 0x2700000027 (8146)%Z 0x0 0x1e7af0001e7b8;
  mkModel 0x2700000027 (8147)%Z 0x0 0x1e7b80001e7c2;
  mkModel 0x2700000027 (8148)%Z 0x0 0x1e7c20001e7d3;
  mkModel 0x2700000027 (8149)%Z 0x0 0x1e7d30001e7dd;
  mkModel 0x2700000027 (8150)%Z 0x0 0x1e7dd0001e7e6;
  mkModel 0x2700000027 (8151)%Z 0x0 0x1e7e60001e7f6;
  mkModel 0x2700000027 (8152)%Z 0x0 0x1e7f60001e806;
  mkModel 0x2700000027 (8153)%Z 0x0 0x1e8060001e816;
  mkModel 0x2700000027 (8154)%Z 0x0 0x1e8160001e820;
  mkModel 0x2700000027 (8155)%Z 0x0 0x1e8200001e82a;
  mkModel 0x2700000027 (8156)%Z 0x0 0x1e82a0001e837;
  mkModel 0x2700000027 (8157)%Z 0x0 0x1e8370001e844;
  mkModel 0x2700000027 (8158)%Z 0x0 0x1e8440001e84d;
  mkModel 0x2700000027 (8159)%Z 0x0 0x1e84d0001e85b;
  mkModel 0x2700000027 (8160)%Z 0x0 0x1e85b0001e86b;
  mkModel 0x2700000027 (8161)%Z 0x0 0x1e86b0001e875;
  mkModel 0x2700000027 (8162)%Z 0x0 0x1e8750001e885;
  mkModel 0x2700000027 (8163)%Z 0x0 0x1e8850001e896;
  mkModel 0x2700000027 (8164)%Z 0x0 0x1e8960001e89f;
  mkModel 0x2700000027 (8165)%Z 0x0 0x1e89f0001e8aa;
  mkModel 0x2700000027 (8166)%Z 0x0 0x1e8aa0001e8ba;
  mkModel 0x2700000027 (8167)%Z 0x0 0x1e8ba0001e8c8;
  mkModel 0x2700000027 (8168)%Z 0x0 0x1e8c80001e8d5;
  mkModel 0x2700000027 (8169)%Z 0x0 0x1e8d50001e8df;
  mkModel 0x2700000027 (8170)%Z 0x0 0x1e8df0001e8ea;
  mkModel 0x2700000027 (8171)%Z 0x0 0x1e8ea0001e8f5;
  mkModel 0x2700000027 (8172)%Z 0x0 0x1e6630001e66d;
  mkModel 0x2700000027 (8173)%Z 0x0 0x1e8f50001e8ff;
  mkModel 0x2700000027 (8174)%Z 0x0 0x1e8ff0001e90c;
  mkModel 0x2700000027 (8175)%Z 0x0 0x1e90c0001e916;
  mkModel 0x2700000027 (8176)%Z 0x0 0x1e9160001e920;
  mkModel 0x2700000027 (8177)%Z 0x0 0x1e9200001e92a;
  mkModel 0x2700000027 (8178)%Z 0x0 0x1e92a0001e935;
  mkModel 0x2700000027 (8179)%Z 0x0 0x1e9350001e940;
  mkModel 0x2700000027 (8180)%Z 0x0 0x1e9400001e94b;
  mkModel 0x2700000027 (8181)%Z 0x0 0x1e94b0001e955;
  mkModel 0x2700000027 (8182)%Z 0x0 0x1e9550001e962;
  mkModel 0x2700000027 (8183)%Z 0x0 0x1e9620001e96c;
  mkModel 0x2700000027 (8184)%Z 0x0 0x1e96c0001e977;
  mkModel 0x2700000027 (8185)%Z 0x0 0x1e9770001e981;
  mkModel 0x2700000027 (8186)%Z 0x0 0x1e9810001e98b;
  mkModel 0x2700000027 (8187)%Z 0x0 0x1e98b0001e998;
  mkModel 0x2700000027 (8188)%Z 0x0 0x1e9980001e9a5;
  mkModel 0x2700000027 (8189)%Z 0x0 0x1e9a50001e9af;
  mkModel 0x2700000027 (8190)%Z 0x0 0x1e9af0001e9ba;
  mkModel 0x2700000027 (8191)%Z 0x0 0x1e9ba0001e9c4;
  mkModel 0x2700000027 (8192)%Z 0x0 0x1e9c40001e9d1;
  mkModel 0x2700000027 (8193)%Z 0x0 0x1e9d10001e9db;
  mkModel 0x2700000027 (8194)%Z 0x0 0x1e9db0001e9e6;
  mkModel 0x2700000027 (8195)%Z 0x0 0x1e9db0001e9e6;
  mkModel 0x2700000027 (8196)%Z 0x0 0x1e9e60001e9f0;
  mkModel 0x2700000027 (8197)%Z 0x0 0x1e9f00001e9fd;
  mkModel 0x2700000027 (8198)%Z 0x0 0x1e9fd0001ea0d;
  mkModel 0x2700000027 (8199)%Z 0x0 0x1ea0d0001ea1a;
  mkModel 0x2700000027 (8200)%Z 0x0 0x1ea1a0001ea2a;
  mkModel 0x2700000027 (8201)%Z 0x0 0x1ea2a0001ea3a;
  mkModel 0x2700000027 (8202)%Z 0x0 0x1ea3a0001ea47;
  mkModel 0x2700000027 (8203)%Z 0x0 0x1ea470001ea54;
  mkModel 0x2700000027 (8204)%Z 0x0 0x1ea540001ea61;
  mkModel 0x2700000027 (8205)%Z 0x0 0x1ea610001ea6b;
  mkModel 0x2700000027 (8206)%Z 0x0 0x1ea6b0001ea76;
  mkModel 0x2700000027 (8207)%Z 0x0 0x1ea760001ea80;
  mkModel 0x2700000027 (8208)%Z 0x0 0x1ea800001ea8a;
  mkModel 0x2700000027 (8209)%Z 0x0 0x1ea8a0001ea97;
  mkModel 0x2700000027 (8210)%Z 0x0 0x1ea970001eaa2;
  mkModel 0x2700000027 (8211)%Z 0x0 0x1eaa20001eaac;
  mkModel 0x2700000027 (8212)%Z 0x0 0x1eaac0001eab6;
  mkModel 0x2700000027 (8213)%Z 0x0 0x1eab60001eac3;
  mkModel 0x2700000027 (8214)%Z 0x0 0x1eac30001eacd;
  mkModel 0x2700000027 (8215)%Z 0x0 0x1eacd0001ead7;
  mkModel 0x2700000027 (8216)%Z 0x0 0x1ead70001eae4;
  mkModel 0x2700000027 (8217)%Z 0x0 0x1eae40001eaee;
  mkModel 0x2700000027 (8218)%Z 0x0 0x1eaee0001eafb;
  mkModel 0x2700000027 (8219)%Z 0x0 0x1eafb0001eb08;
  mkModel 0x2700000027 (8220)%Z 0x0 0x1eb080001eb12;
  mkModel 0x2700000027 (8221)%Z 0x0 0x1eb120001eb1f;
  mkModel 0x2700000027 (8222)%Z 0x0 0x1eb1f0001eb2c;
  mkModel 0x2700000027 (8223)%Z 0x0 0x1eb2c0001eb36;
  mkModel 0x2700000027 (8224)%Z 0x0 0x1eb360001eb43;
  mkModel 0x2700000027 (8225)%Z 0x0 0x1eb430001eb50;
  mkModel 0x2700000027 (8226)%Z 0x0 0x1eb500001eb5d;
  mkModel 0x2700000027 (8227)%Z 0x0 0x1eb5d0001eb67;
  mkModel 0x2700000027 (8228)%Z 0x0 0x1eb670001eb77;
  mkModel 0x2700000027 (8229)%Z 0x0 0x1eb770001eb82;
  mkModel 0x2700000027 (8230)%Z 0x0 0x1eb820001eb8e;
  mkModel 0x2700000027 (8231)%Z 0x0 0x1eb8e0001eb97;
  mkModel 0x2700000027 (8232)%Z 0x0 0x1eb970001eba5;
  mkModel 0x2700000027 (8233)%Z 0x0 0x1eba50001ebb9;
  mkModel 0x2700000027 (8234)%Z 0x0 0x1ebb90001ebc9;
  mkModel 0x2700000027 (8235)%Z 0x0 0x1ebc90001ebd6;
  mkModel 0x2700000027 (8236)%Z 0x0 0x1ebd60001ebdf;
  mkModel 0x2700000027 (8237)%Z 0x0 0x1ebdf0001ebed;
  mkModel 0x2700000027 (8238)%Z 0x0 0x1ebed0001ebfb;
  mkModel 0x2700000027 (8239)%Z 0x0 0x1ebfb0001ec09;
  mkModel 0x2700000027 (8240)%Z 0x0 0x1ec090001ec16;
  mkModel 0x2700000027 (8241)%Z 0x0 0x1ec160001ec25;
  mkModel 0x2700000027 (8242)%Z 0x0 0x1ec250001ec32;
  mkModel 0x2700000027 (8243)%Z 0x0 0x1ec320001ec3f;
  mkModel 0x2700000027 (8244)%Z 0x0 0x1ec3f0001ec51;
  mkModel 0x2700000027 (8245)%Z 0x0 0x1ec510001ec60;
  mkModel 0x2700000027 (8246)%Z 0x0 0x1ec600001ec70;
  mkModel 0x2700000027 (8247)%Z 0x0 0x1ec700001ec7e;
  mkModel 0x2700000027 (8248)%Z 0x0 0x1ec7e0001ec8c;
  mkModel 0x2700000027 (8249)%Z 0x0 0x1ec8c0001ec9d;
  mkModel 0x2700000027 (8250)%Z 0x0 0x1ec9d0001ecae;
  mkModel 0x2700000027 (8251)%Z 0x0 0x1ec3f0001ec51;
  mkModel 0x2700000027 (8252)%Z 0x0 0x1ecae0001ecbe;
  mkModel 0x2700000027 (8253)%Z 0x0 0x1ecbe0001ecce;
  mkModel 0x2700000027 (8254)%Z 0x0 0x1ecce0001ecde;
  mkModel 0x2700000027 (8255)%Z 0x0 0x1ecde0001ecee;
  mkModel 0x2700000027 (8256)%Z 0x0 0x1ecee0001ecf7;
  mkModel 0x2700000027 (8257)%Z 0x0 0x1ecf70001ed07;
  mkModel 0x2700000027 (8258)%Z 0x0 0x1ed070001ed17;
  mkModel 0x2700000027 (8259)%Z 0x0 0x1ed170001ed2b;
  mkModel 0x2700000027 (8260)%Z 0x0 0x1ed2b0001ed3b;
  mkModel 0x2700000027 (8261)%Z 0x0 0x1ed3b0001ed4a;
  mkModel 0x2700000027 (8262)%Z 0x0 0x1ed4a0001ed53;
  mkModel 0x2700000027 (8263)%Z 0x0 0x1ed530001ed5d;
  mkModel 0x2700000027 (8264)%Z 0x0 0x1ed5d0001ed6b;
  mkModel 0x2700000027 (8265)%Z 0x0 0x1ed6b0001ed75;
  mkModel 0x2700000027 (8266)%Z 0x0 0x1ed750001ed7f;
  mkModel 0x2700000027 (8267)%Z 0x0 0x1ed7f0001ed88;
  mkModel 0x2700000027 (8268)%Z 0x0 0x1ed880001ed98;
  mkModel 0x2700000027 (8269)%Z 0x0 0x1ed980001eda8;
  mkModel 0x2700000027 (8270)%Z 0x0 0x1eda80001edb8;
  mkModel 0x2700000027 (8271)%Z 0x0 0x1edb80001edc8;
  mkModel 0x2700000027 (8272)%Z 0x0 0x1edc80001edd7;
  mkModel 0x2700000027 (8273)%Z 0x0 0x1edd70001ede6;
  mkModel 0x2700000027 (8274)%Z 0x0 0x1ede60001edf7;
  mkModel 0x2700000027 (8275)%Z 0x0 0x1edf70001ee04;
  mkModel 0x2700000027 (8276)%Z 0x0 0x1ee040001ee15;
  mkModel 0x2700000027 (8277)%Z 0x0 0x1ee150001ee22;
  mkModel 0x2700000027 (8278)%Z 0x0 0x1ee220001ee30;
  mkModel 0x2700000027 (8279)%Z 0x0 0x1ee300001ee3d;
  mkModel 0x2700000027 (8280)%Z 0x0 0x1ee3d0001ee4c;
  mkModel 0x2700000027 (8281)%Z 0x0 0x1ee4c0001ee57;
  mkModel 0x2700000027 (8282)%Z 0x0 0x1ee570001ee62;
  mkModel 0x2700000027 (-1)%Z 0x1ee620001ee6c 0x1ee6c0001ee7a;
  mkModel 0x2700000027 (-1)%Z 0x1ee7a0001ee83 0x1ee830001ee90;
  mkModel 0x2700000027 (8283)%Z 0x0 0x1ee900001ee99;
  mkModel 0x2700000027 (8284)%Z 0x0 0x1ee990001eeaa;
  mkModel 0x2700000027 (8285)%Z 0x0 0x1eeaa0001eeb9;
  mkModel 0x2700000027 (-1)%Z 0x1eeb90001eec0 0x1eec00001eece;
  mkModel 0x2700000027 (-1)%Z 0x1eece0001eed6 0x1eed60001eee3;
  mkModel 0x2700000027 (-1)%Z 0x1eee30001eeeb 0x1eeeb0001eef8;
  mkModel 0x2700000027 (-1)%Z 0x1eef80001ef00 0x1ef000001ef0d;
  mkModel 0x2700000027 (8286)%Z 0x0 0x1ef0d0001ef17;
  mkModel 0x2700000027 (8287)%Z 0x0 0x1ef170001ef21;
  mkModel 0x2700000027 (8288)%Z 0x0 0x1ef210001ef2b;
  mkModel 0x2700000027 (8289)%Z 0x0 0x1ef2b0001ef3a;
  mkModel 0x2700000027 (8290)%Z 0x0 0x1ef3a0001ef45;
  mkModel 0x2700000027 (8291)%Z 0x0 0x1ef450001ef50;
  mkModel 0x2700000027 (8292)%Z 0x0 0x1ef500001ef5a;
  mkModel 0x2700000027 (8293)%Z 0x0 0x1ef5a0001ef64;
  mkModel 0x2700000027 (8294)%Z 0x0 0x1ef640001ef6f;
  mkModel 0x2700000027 (8295)%Z 0x0 0x1ef6f0001ef79;
  mkModel 0x2700000027 (8296)%Z 0x0 0x1ef790001ef83;
  mkModel 0x2700000027 (8297)%Z 0x0 0x1ef830001ef8d;
  mkModel 0x2700000027 (8298)%Z 0x0 0x1ef8d0001ef9a;
  mkModel 0x2700000027 (8299)%Z 0x0 0x1ef9a0001efa7;
  mkModel 0x2700000027 (8300)%Z 0x0 0x1efa70001efb1;
  mkModel 0x2700000027 (8301)%Z 0x0 0x1efb10001efbe;
  mkModel 0x2700000027 (8302)%Z 0x0 0x1efbe0001efcb;
  mkModel 0x2700000027 (8303)%Z 0x0 0x1efcb0001efd5;
  mkModel 0x2700000027 (8304)%Z 0x0 0x1efd50001efdf;
  mkModel 0x2700000027 (8305)%Z 0x0 0x1efdf0001eff0;
  mkModel 0x2700000027 (8306)%Z 0x0 0x1eff00001effa;
  mkModel 0x2700000027 (8307)%Z 0x0 0x1effa0001f008;
  mkModel 0x2700000027 (8308)%Z 0x0 0x1f0080001f015;
  mkModel 0x2700000027 (8309)%Z 0x0 0x1f0150001f020;
  mkModel 0x2700000027 (8310)%Z 0x0 0x1f0200001f02a;
  mkModel 0x2700000027 (8311)%Z 0x0 0x1f02a0001f034;
  mkModel 0x2700000027 (8312)%Z 0x0 0x1f0340001f03e;
  mkModel 0x2700000027 (8313)%Z 0x0 0x1f03e0001f04b;
  mkModel 0x2700000027 (8314)%Z 0x0 0x1f04b0001f058;
  mkModel 0x2700000027 (8315)%Z 0x0 0x1f0580001f063;
  mkModel 0x2700000027 (8316)%Z 0x0 0x1f0630001f070;
  mkModel 0x2700000027 (8317)%Z 0x0 0x1f0700001f07d;
  mkModel 0x2700000027 (8318)%Z 0x0 0x1f07d0001f087;
  mkModel 0x2700000027 (8319)%Z 0x0 0x1f0870001f094;
  mkModel 0x2700000027 (8320)%Z 0x0 0x1f0940001f09e;
  mkModel 0x2700000027 (8321)%Z 0x0 0x1f09e0001f0ab;
  mkModel 0x2700000027 (8322)%Z 0x0 0x1f0ab0001f0bb;
  mkModel 0x2700000027 (8323)%Z 0x0 0x1f0bb0001f0c8;
  mkModel 0x2700000027 (8324)%Z 0x0 0x1f0c80001f0d5;
  mkModel 0x2700000027 (8325)%Z 0x0 0x1f0d50001f0df;
  mkModel 0x2700000027 (8326)%Z 0x0 0x1f0df0001f0ec;
  mkModel 0x2700000027 (8327)%Z 0x0 0x1f0ec0001f0f9;
  mkModel 0x2700000027 (8328)%Z 0x0 0x1f0f90001f103;
  mkModel 0x2700000027 (8329)%Z 0x0 0x1f1030001f10d;
  mkModel 0x2700000027 (8330)%Z 0x0 0x1f10d0001f117;
  mkModel 0x2700000027 (8331)%Z 0x0 0x1f1170001f127;
  mkModel 0x2700000027 (8332)%Z 0x0 0x1f1270001f136;
  mkModel 0x2700000027 (8333)%Z 0x0 0x1f1360001f142
].
Definition d_dr_dm_55 : list modelTuple := [
  mkModel 0x2700000027 (8334)%Z 0x0 0x1f1420001f14c;
  mkModel 0x2700000027 (8335)%Z 0x0 0x1f14c0001f15d;
  mkModel 0x2700000027 (8336)%Z 0x0 0x1f15d0001f167;
  mkModel 0x2700000027 (8337)%Z 0x0 0x1f1670001f178;
  mkModel 0x2700000027 (8338)%Z 0x0 0x1f1780001f188;
  mkModel 0x2700000027 (8339)%Z 0x0 0x1f1880001f191;
  mkModel 0x2700000027 (8340)%Z 0x0 0x1f1910001f19e;
  mkModel 0x2700000027 (8341)%Z 0x0 0x1f19e0001f1ab;
  mkModel 0x2700000027 (8342)%Z 0x0 0x1f1ab0001f1b4;
  mkModel 0x2700000027 (8343)%Z 0x0 0x1f1b40001f1c1;
  mkModel 0x2700000027 (8344)%Z 0x0 0x1f1c10001f1ca;
  mkModel 0x2700000027 (8345)%Z 0x0 0x1f1ca0001f1d7;
  mkModel 0x2700000027 (8346)%Z 0x0 0x1f1d70001f1e0;
  mkModel 0x2700000027 (8347)%Z 0x0 0x1f1e00001f1e9;
  mkModel 0x2700000027 (8348)%Z 0x0 0x1f1e90001f1f2;
  mkModel 0x2700000027 (8349)%Z 0x0 0x1f1f20001f1fb;
  mkModel 0x2700000027 (8350)%Z 0x0 0x1f1fb0001f208;
  mkModel 0x2700000027 (8351)%Z 0x0 0x1f2080001f217;
  mkModel 0x2700000027 (8352)%Z 0x0 0x1f2170001f221;
  mkModel 0x2700000027 (8353)%Z 0x0 0x1f2210001f22d;
  mkModel 0x2700000027 (8354)%Z 0x0 0x1f22d0001f239;
  mkModel 0x2700000027 (8355)%Z 0x0 0x1f2390001f244;
  mkModel 0x2700000027 (8356)%Z 0x0 0x1f2440001f256;
  mkModel 0x2700000027 (8357)%Z 0x0 0x1f2560001f26f;
  mkModel 0xdfd00000e04 (8358)%Z 0x0 0x1f26f0001f27a;
  mkModel 0xdfd00000e04 (8359)%Z 0x0 0x1f27a0001f289;
  mkModel 0xdfd00000e04 (8360)%Z 0x0 0x1f2890001f293;
  mkModel 0xdfd00000e04 (8361)%Z 0x0 0x1f2930001f2a2;
  mkModel 0xdfd00000e04 (8362)%Z 0x0 0x1f2a20001f2b1;
  mkModel 0xdfd00000e04 (8363)%Z 0x0 0x1f2b10001f2c0;
  mkModel 0xdfd00000e04 (8364)%Z 0x0 0x1f2c00001f2cf;
  mkModel 0xdfd00000e04 (8365)%Z 0x0 0x1f2cf0001f2de;
  mkModel 0xdfd00000e04 (8366)%Z 0x0 0x1f2de0001f2ed;
  mkModel 0xdfd00000e04 (8367)%Z 0x0 0x1f2ed0001f2fc;
  mkModel 0xdfd00000e04 (8368)%Z 0x0 0x1f2fc0001f30e;
  mkModel 0xdfd00000e04 (8369)%Z 0x0 0x1f30e0001f320;
  mkModel 0xdfd00000e04 (8370)%Z 0x0 0x1f3200001f32f;
  mkModel 0xdfd00000e04 (8371)%Z 0x0 0x1f32f0001f33e;
  mkModel 0xdfd00000e04 (8372)%Z 0x0 0x1f33e0001f34d;
  mkModel 0xdfd00000e04 (8373)%Z 0x0 0x1f34d0001f35d;
  mkModel 0xdfd00000e04 (8374)%Z 0x0 0x1f35d0001f372;
  mkModel 0xdfd00000e04 (8375)%Z 0x0 0x1f3720001f37e;
  mkModel 0xdfd00000e04 (8376)%Z 0x0 0x1f37e0001f38f;
  mkModel 0xdfd00000e04 (8377)%Z 0x0 0x1f38f0001f3a0;
  mkModel 0xdfd00000e04 (8378)%Z 0x0 0x1f3a00001f3ab;
  mkModel 0xdfd00000e04 (8379)%Z 0x0 0x1f3ab0001f3bb;
  mkModel 0xdfd00000e04 (8380)%Z 0x0 0x1f3bb0001f3d2;
  mkModel 0xdfd00000e04 (8381)%Z 0x0 0x1f3d20001f3e0;
  mkModel 0xdfd00000e04 (8382)%Z 0x0 0x1f3e00001f3f2;
  mkModel 0xdfd00000e04 (8383)%Z 0x0 0x1f3f20001f400;
  mkModel 0x2700000027 (8384)%Z 0x0 0x1f4000001f410;
  mkModel 0xdfd00000e04 (8385)%Z 0x0 0x1f4100001f422;
  mkModel 0xdfd00000e04 (8386)%Z 0x0 0x1f4220001f43c;
  mkModel 0xdfd00000e04 (8387)%Z 0x0 0x1f43c0001f453;
  mkModel 0xdfd00000e04 (8388)%Z 0x0 0x1f4530001f467;
  mkModel 0xdfd00000e04 (8389)%Z 0x0 0x1f4670001f476;
  mkModel 0xdfd00000e04 (8390)%Z 0x0 0x1f4760001f48c;
  mkModel 0xdfd00000e04 (8391)%Z 0x0 0x1f48c0001f49d;
  mkModel 0xdfd00000e04 (8392)%Z 0x0 0x1f49d0001f4af;
  mkModel 0xdfd00000e04 (8393)%Z 0x0 0x1f4af0001f4c0;
  mkModel 0xdfd00000e04 (8394)%Z 0x0 0x1f4c00001f4cd;
  mkModel 0xdfd00000e04 (8395)%Z 0x0 0x1f4cd0001f4da;
  mkModel 0xdfd00000e04 (8396)%Z 0x0 0x1f4da0001f4eb;
  mkModel 0xdfd00000e04 (8397)%Z 0x0 0x1f4eb0001f4fd;
  mkModel 0xdfd00000e04 (8398)%Z 0x0 0x1f4fd0001f50a;
  mkModel 0xdfd00000e04 (8399)%Z 0x0 0x1f50a0001f51c;
  mkModel 0xdfd00000e04 (8400)%Z 0x0 0x1f51c0001f529;
  mkModel 0xdfd00000e04 (8401)%Z 0x0 0x1f5290001f538;
  mkModel 0xdfd00000e04 (8402)%Z 0x0 0x1f5380001f547;
  mkModel 0xdfd00000e04 (8403)%Z 0x0 0x1f5470001f554;
  mkModel 0xdfd00000e04 (8404)%Z 0x0 0x1f5540001f561;
  mkModel 0xdfd00000e04 (8405)%Z 0x0 0x1f5610001f56e;
  mkModel 0xdfd00000e04 (8406)%Z 0x0 0x1f56e0001f57d;
  mkModel 0xdfd00000e04 (8407)%Z 0x0 0x1f57d0001f58b;
  mkModel 0xdfd00000e04 (8408)%Z 0x0 0x1f58b0001f59e;
  mkModel 0xdfd00000e04 (8409)%Z 0x0 0x1f59e0001f5af;
  mkModel 0xdfd00000e04 (8410)%Z 0x0 0x1f5af0001f5c3;
  mkModel 0xdfd00000e04 (8411)%Z 0x0 0x1f5c30001f5d1;
  mkModel 0xdfd00000e04 (8412)%Z 0x0 0x1f5d10001f5e8;
  mkModel 0x2700000027 (8413)%Z 0x0 0x1f5e80001f5ef;
  mkModel 0x2700000027 (8414)%Z 0x0 0x1f5ef0001f600;
  mkModel 0x39a000003a7 (8415)%Z 0x0 0x1f6000001f605;
  mkModel 0xc9b00000ca2 (-1)%Z 0x1f6050001f611 0x1f6050001f611;
  mkModel 0xc9b00000ca2 (-1)%Z 0x1f6110001f620 0x1f6110001f620;
  mkModel 0x2a1000002a7 (8416)%Z 0x0 0x18000000182;
  mkModel 0x2700000027 (-1)%Z 0x1f6200001f626 0x1dd640001dd6f;
  mkModel 0x2a1000002a7 (8417)%Z 0x0 0x18000000182;
  mkModel 0x2700000027 (8418)%Z 0x0 0x18000000182;
  mkModel 0x23b0000023d (-1)%Z 0x1f6260001f62e 0xe3400000e3c;
  mkModel 0x2700000027 (8419)%Z 0x0 0x1f62e0001f637;
  mkModel 0x2700000027 (8420)%Z 0x0 0x1f62e0001f637;
  mkModel 0x2700000027 (8421)%Z 0x0 0x18000000182;
  mkModel 0x2700000027 (8422)%Z 0x0 0x18000000182;
  mkModel 0x2700000027 (8423)%Z 0x0 0x18000000182;
  mkModel 0x2700000027 (8424)%Z 0x0 0x18000000182;
  mkModel 0x2700000027 (8425)%Z 0x0 0x1f6370001f63c;
  mkModel 0x2700000027 (8426)%Z 0x0 0x18000000182;
  mkModel 0x2700000027 (8427)%Z 0x0 0x1f63c0001f642;
  mkModel 0x2700000027 (8428)%Z 0x0 0x18000000182;
  mkModel 0x2700000027 (8429)%Z 0x0 0x1f63c0001f642;
  mkModel 0x0 (-1)%Z 0x0 0x18000000182;
  mkModel 0x0 (-1)%Z 0x0 0x18000000182;
  mkModel 0x2700000027 (-1)%Z 0x1f6550001f658 0x1f6550001f658;
  mkModel 0x2700000027 (-1)%Z 0x1f6580001f65b 0x1f6580001f65b;
  mkModel 0x2700000027 (-1)%Z 0x1f65b0001f660 0x1f6600001f664;
  mkModel 0x2700000027 (8433)%Z 0x0 0xaa3b0000aa3e;
  mkModel 0x0 (-1)%Z 0x0 0x1f6730001f67d;
  mkModel 0x2700000027 (-1)%Z 0x1f6830001f68a 0xa0a70000a0b0;
  mkModel 0x2700000027 (8435)%Z 0x0 0x18000000182;
  mkModel 0x2700000027 (8437)%Z 0x0 0x1f6900001f69a;
  mkModel 0x2700000027 (8438)%Z 0x0 0x1f69a0001f6a3;
  mkModel 0x2700000027 (8439)%Z 0x0 0x1f6a30001f6a9;
  mkModel 0x2700000027 (8440)%Z 0x0 0x1f6a90001f6b3;
  mkModel 0x2700000027 (8441)%Z 0x0 0x1f6b30001f6bf;
  mkModel 0x2700000027 (8442)%Z 0x0 0x1f6bf0001f6cd;
  mkModel 0x2700000027 (8443)%Z 0x0 0xb4d80000b4e4;
  mkModel 0x2700000027 (8444)%Z 0x0 0x1f6cd0001f6d6;
  mkModel 0x2700000027 (8445)%Z 0x0 0x1f6d60001f6dc;
  mkModel 0x2700000027 (8446)%Z 0x0 0x1f6dc0001f6e6;
  mkModel 0x2700000027 (8447)%Z 0x0 0x1f6e60001f6ec;
  mkModel 0x2700000027 (8448)%Z 0x0 0x1f6ec0001f6f6;
  mkModel 0x2700000027 (8449)%Z 0x0 0x5b2100005b26;
  mkModel 0x2700000027 (8450)%Z 0x0 0x1f6f60001f6fb;
  mkModel 0x2700000027 (8451)%Z 0x0 0x1f6fb0001f701;
  mkModel 0x2700000027 (8452)%Z 0x0 0x1f7010001f709;
  mkModel 0x2700000027 (8453)%Z 0x0 0x1f7090001f714;
  mkModel 0x2a1000002a7 (8454)%Z 0x0 0x1f7140001f71b;
  mkModel 0x2700000027 (8455)%Z 0x0 0x18000000182;
  mkModel 0x2700000027 (8456)%Z 0x0 0x18000000182;
  mkModel 0x2700000027 (8457)%Z 0x0 0x18000000182;
  mkModel 0x2700000027 (8459)%Z 0x0 0x1f71b0001f72b;
  mkModel 0x2700000027 (8460)%Z 0x0 0x1f72b0001f734;
  mkModel 0x2700000027 (8461)%Z 0x0 0x1f7340001f73c;
  mkModel 0x2700000027 (8462)%Z 0x0 0x18000000182;
  mkModel 0x2700000027 (8463)%Z 0x0 0x18000000182;
  mkModel 0x0 (-1)%Z 0x0 0x18000000182;
  mkModel 0x0 (-1)%Z 0x0 0x18000000182;
  mkModel 0x2700000027 (-1)%Z 0x1f7530001f762 0x1f7620001f76b;
  mkModel 0x2700000027 (-1)%Z 0x1f76b0001f779 0x1f7790001f789;
  mkModel 0x0 (-1)%Z 0x0 0x18000000182;
  mkModel 0x0 (-1)%Z 0x0 0x18000000182;
  mkModel 0x2700000027 (8470)%Z 0x0 0x18000000182;
  mkModel 0x2700000027 (8472)%Z 0x0 0x18000000182;
  mkModel 0x2a1000002a7 (8473)%Z 0x0 0x18000000182;
  mkModel 0x2700000027 (8475)%Z 0x0 0x18000000182;
  mkModel 0x2700000027 (8476)%Z 0x0 0x3f8100003f83;
  mkModel 0x2700000027 (8477)%Z 0x0 0x18000000182;
  mkModel 0x2700000027 (-1)%Z 0x1f7be0001f7cb 0x1f7cb0001f7d2;
  mkModel 0x2700000027 (-1)%Z 0x1f7d20001f7dd 0x1f7dd0001f7e8;
  mkModel 0x2700000027 (-1)%Z 0x1f7e80001f7fd 0x1f7fd0001f80b;
  mkModel 0x2700000027 (-1)%Z 0x1f80b0001f81a 0x1f81a0001f822;
  mkModel 0x2700000027 (-1)%Z 0x1f8220001f831 0x1f8310001f839;
  mkModel 0x2700000027 (-1)%Z 0x1f8390001f84b 0x1f84b0001f856;
  mkModel 0x2700000027 (-1)%Z 0x1f8560001f86e 0x1f86e0001f87f;
  mkModel 0x2700000027 (8479)%Z 0x0 0x1f8850001f893;
  mkModel 0x2700000027 (8480)%Z 0x0 0x1f8930001f89f;
  mkModel 0x2700000027 (8481)%Z 0x0 0x1f89f0001f8b1;
  mkModel 0x2700000027 (8482)%Z 0x0 0x1f8b10001f8bd;
  mkModel 0x2700000027 (8483)%Z 0x0 0x1f8bd0001f8c9;
  mkModel 0x2700000027 (8484)%Z 0x0 0x1f8c90001f8d5;
  mkModel 0x2700000027 (8485)%Z 0x0 0x1f8d50001f8de;
  mkModel 0x2700000027 (8486)%Z 0x0 0x1f8de0001f8ec;
  mkModel 0x2700000027 (8487)%Z 0x0 0x1f8ec0001f8fa;
  mkModel 0x2700000027 (8488)%Z 0x0 0x1f8fa0001f905;
  mkModel 0x2700000027 (8489)%Z 0x0 0x1f9050001f911;
  mkModel 0x2700000027 (8490)%Z 0x0 0x18000000182;
  mkModel 0x2700000027 (8491)%Z 0x0 0x1f9110001f916;
  mkModel 0x23f00000249 (8492)%Z 0x0 0x1f9160001f921;
  mkModel 0x2700000027 (8493)%Z 0x0 0x18000000182;
  mkModel 0x2700000027 (-1)%Z 0x1f92f0001f93f 0x1f93f0001f950;
  mkModel 0x0 (-1)%Z 0x0 0x18000000182;
  mkModel 0x2700000027 (-1)%Z 0x1f95d0001f969 0x1f9690001f976;
  mkModel 0x2700000027 (8496)%Z 0x0 0x18000000182;
  mkModel 0x0 (-1)%Z 0x0 0x18000000182;
  mkModel 0x2700000027 (8499)%Z 0x0 0x9fd100009fd5;
  mkModel 0x2700000027 (8500)%Z 0x0 0x239e000023a2;
  mkModel 0x2700000027 (8501)%Z 0x0 0x1f9820001f986;
  mkModel 0x2700000027 (8502)%Z 0x0 0x1f9820001f986;
  mkModel 0x2700000027 (8503)%Z 0x0 0x1f9860001f98c;
  mkModel 0x2700000027 (8504)%Z 0x0 0x1f98c0001f997;
  mkModel 0x2700000027 (8505)%Z 0x0 0x1f9970001f9a1;
  mkModel 0x2700000027 (8506)%Z 0x0 0x738b0000738e;
  mkModel 0x2700000027 (8507)%Z 0x0 0x1f9a10001f9a6;
  mkModel 0x2700000027 (8508)%Z 0x0 0x135b7000135c0;
  mkModel 0x2700000027 (8509)%Z 0x0 0x1f9a60001f9ad;
  mkModel 0x2700000027 (8510)%Z 0x0 0x1f9ad0001f9b1;
  mkModel 0x2700000027 (8511)%Z 0x0 0x1f9b10001f9b8;
  mkModel 0x2700000027 (8512)%Z 0x0 0x1f9b80001f9bf;
  mkModel 0x2700000027 (8513)%Z 0x0 0x18000000182;
  mkModel 0x2700000027 (8515)%Z 0x0 0x18000000182;
  mkModel 0x2700000027 (8516)%Z 0x0 0x1f9c40001f9cd;
  mkModel 0x0 (-1)%Z 0x0 0x18000000182;
  mkModel 0x2700000027 (8519)%Z 0x0 0x1f9d70001f9e0;
  mkModel 0x2700000027 (-1)%Z 0x1f9e00001f9ea 0x1f9ea0001f9f1;
  mkModel 0x2700000027 (8520)%Z 0x0 0x1f9f10001f9ff;
  mkModel 0x2700000027 (8521)%Z 0x0 0x1f9ff0001fa08;
  mkModel 0x2700000027 (8522)%Z 0x0 0x1fa080001fa10;
  mkModel 0x2700000027 (8523)%Z 0x0 0x1fa100001fa18;
  mkModel 0x2700000027 (8524)%Z 0x0 0x1fa180001fa23;
  mkModel 0x2700000027 (8525)%Z 0x0 0x1fa230001fa31
].
Definition d_dr_dm_56 : list modelTuple := [
  mkModel 0x2700000027 (8526)%Z 0x0 0x1fa310001fa3f;
  mkModel 0x2700000027 (8527)%Z 0x0 0x1fa3f0001fa4d;
  mkModel 0x2700000027 (8528)%Z 0x0 0x1fa4d0001fa5b;
  mkModel 0x2700000027 (8529)%Z 0x0 0x1fa5b0001fa65;
  mkModel 0x2700000027 (8530)%Z 0x0 0x1fa650001fa71;
  mkModel 0x2700000027 (8531)%Z 0x0 0x1fa710001fa7d;
  mkModel 0x2700000027 (8532)%Z 0x0 0x1fa7d0001fa89;
  mkModel 0x2700000027 (8533)%Z 0x0 0x1fa890001fa99;
  mkModel 0x2700000027 (8534)%Z 0x0 0x1fa990001faa6;
  mkModel 0x2700000027 (8535)%Z 0x0 0x1faa60001fab3;
  mkModel 0x2700000027 (8536)%Z 0x0 0x1fab30001fac3;
  mkModel 0x2700000027 (8537)%Z 0x0 0x1fac30001fad6;
  mkModel 0x2700000027 (8538)%Z 0x0 0x1fad60001fae3;
  mkModel 0x2700000027 (8539)%Z 0x0 0x1fae30001faf5;
  mkModel 0x2700000027 (8540)%Z 0x0 0x1faf50001fb02;
  mkModel 0x2700000027 (8541)%Z 0x0 0x1fb020001fb10;
  mkModel 0x2700000027 (8542)%Z 0x0 0x1fb100001fb22;
  mkModel 0x2700000027 (8543)%Z 0x0 0x1fb220001fb2f;
  mkModel 0x2700000027 (8544)%Z 0x0 0x1fb2f0001fb3d;
  mkModel 0x2700000027 (8545)%Z 0x0 0x1fb3d0001fb46;
  mkModel 0x2700000027 (8546)%Z 0x0 0x1fb460001fb57;
  mkModel 0x2700000027 (8547)%Z 0x0 0x1fb570001fb61;
  mkModel 0x2700000027 (8548)%Z 0x0 0x1fb610001fb6b;
  mkModel 0x2700000027 (8549)%Z 0x0 0x1fb6b0001fb77;
  mkModel 0x2700000027 (8550)%Z 0x0 0x1fb770001fb83;
  mkModel 0x2700000027 (8551)%Z 0x0 0x1fb830001fb96;
  mkModel 0x2700000027 (8552)%Z 0x0 0x1fb960001fba4;
  mkModel 0x2700000027 (8553)%Z 0x0 0x1fba40001fbb4;
  mkModel 0x2700000027 (8554)%Z 0x0 0x1fbb40001fbc0;
  mkModel 0x2700000027 (8555)%Z 0x0 0x1fbc00001fbd2;
  mkModel 0x2700000027 (8556)%Z 0x0 0x1fbd20001fbe0;
  mkModel 0x2700000027 (8557)%Z 0x0 0x1fbe00001fbf1;
  mkModel 0x2700000027 (8558)%Z 0x0 0x1fbf10001fbf9;
  mkModel 0x2700000027 (8559)%Z 0x0 0x1fbf90001fc00;
  mkModel 0x2700000027 (8560)%Z 0x0 0x1fc000001fc0f;
  mkModel 0x2700000027 (8561)%Z 0x0 0x1fc0f0001fc17;
  mkModel 0x2700000027 (8562)%Z 0x0 0x1fc170001fc27;
  mkModel 0x2700000027 (8563)%Z 0x0 0x1fc270001fc30;
  mkModel 0x2700000027 (8564)%Z 0x0 0x1fc300001fc3d;
  mkModel 0x2700000027 (8565)%Z 0x0 0x1fc3d0001fc49;
  mkModel 0x2700000027 (8566)%Z 0x0 0x1fc490001fc50;
  mkModel 0x2700000027 (8567)%Z 0x0 0x1fc500001fc59;
  mkModel 0x2700000027 (8568)%Z 0x0 0x1fc590001fc61;
  mkModel 0x2700000027 (8569)%Z 0x0 0x1fc610001fc6c;
  mkModel 0x2700000027 (8570)%Z 0x0 0x1fc6c0001fc75;
  mkModel 0x2700000027 (8571)%Z 0x0 0x1fc750001fc7f;
  mkModel 0x2700000027 (8572)%Z 0x0 0x1fc7f0001fc92;
  mkModel 0x2700000027 (8573)%Z 0x0 0x1fc920001fca5;
  mkModel 0x2700000027 (8574)%Z 0x0 0x1fca50001fcaf;
  mkModel 0x2700000027 (8575)%Z 0x0 0x1fcaf0001fcbc;
  mkModel 0x2700000027 (8576)%Z 0x0 0x1fcbc0001fcc9;
  mkModel 0x2700000027 (8577)%Z 0x0 0x1fcc90001fcd8;
  mkModel 0x2700000027 (8578)%Z 0x0 0x1fcd80001fce7;
  mkModel 0x2700000027 (8579)%Z 0x0 0x1fce70001fcee;
  mkModel 0x2700000027 (8580)%Z 0x0 0x1fcee0001fcf5;
  mkModel 0x2700000027 (8581)%Z 0x0 0x1fcf50001fcfc;
  mkModel 0x2700000027 (8582)%Z 0x0 0x1fcfc0001fd09;
  mkModel 0x2700000027 (8583)%Z 0x0 0x1fd090001fd11;
  mkModel 0x2700000027 (8584)%Z 0x0 0x1fd110001fd1d;
  mkModel 0x2700000027 (8585)%Z 0x0 0x1fd1d0001fd25;
  mkModel 0x2700000027 (8586)%Z 0x0 0x1fd250001fd32;
  mkModel 0x2700000027 (8587)%Z 0x0 0x1fd320001fd3f;
  mkModel 0x2700000027 (8588)%Z 0x0 0x1fd3f0001fd47;
  mkModel 0x2700000027 (8589)%Z 0x0 0x1fd470001fd4f;
  mkModel 0x2700000027 (8590)%Z 0x0 0x1fd4f0001fd5c;
  mkModel 0x2700000027 (8591)%Z 0x0 0x1fd5c0001fd6a;
  mkModel 0x2700000027 (8592)%Z 0x0 0x1fd6a0001fd77;
  mkModel 0x2700000027 (8593)%Z 0x0 0x1fd770001fd84;
  mkModel 0x2700000027 (8594)%Z 0x0 0x1fc270001fc30;
  mkModel 0x2700000027 (8595)%Z 0x0 0x1fd840001fd8c;
  mkModel 0x2700000027 (8596)%Z 0x0 0x1fd8c0001fd94;
  mkModel 0x2700000027 (8597)%Z 0x0 0x1fd940001fda0;
  mkModel 0x2700000027 (8598)%Z 0x0 0x1fda00001fdab;
  mkModel 0x2700000027 (8599)%Z 0x0 0x1fdab0001fdb3;
  mkModel 0x2700000027 (8600)%Z 0x0 0x1fdb30001fdba;
  mkModel 0x2700000027 (8601)%Z 0x0 0x1fdba0001fdc0;
  mkModel 0x2700000027 (8602)%Z 0x0 0x1fdc00001fdc3;
  mkModel 0x2700000027 (8603)%Z 0x0 0x1fdc30001fdca;
  mkModel 0x2700000027 (8604)%Z 0x0 0xf1030000f105;
  mkModel 0x2700000027 (8605)%Z 0x0 0x120090001200b;
  mkModel 0x2700000027 (8606)%Z 0x0 0x11ff200011ff4;
  mkModel 0x2700000027 (8607)%Z 0x0 0x19a8800019a8a;
  mkModel 0x2700000027 (8608)%Z 0x0 0x17f0a00017f0d;
  mkModel 0x2700000027 (8609)%Z 0x0 0x1fdca0001fdd1;
  mkModel 0x2700000027 (8610)%Z 0x0 0x1fdd10001fddd;
  mkModel 0x2700000027 (8611)%Z 0x0 0x1fddd0001fde6;
  mkModel 0x2700000027 (-1)%Z 0x1fde60001fded 0x1fded0001fdfa;
  mkModel 0x2700000027 (-1)%Z 0x1fdfa0001fdff 0x1fdff0001fe0a;
  mkModel 0x2700000027 (8612)%Z 0x0 0x1fe0a0001fe1a;
  mkModel 0x2700000027 (-1)%Z 0x1fe1a0001fe20 0x1fe200001fe2f;
  mkModel 0x2700000027 (8613)%Z 0x0 0x1fe2f0001fe3d;
  mkModel 0x2700000027 (-1)%Z 0x1fe3d0001fe45 0x1fe450001fe53;
  mkModel 0x2700000027 (-1)%Z 0x1fe530001fe5a 0x1fe5a0001fe69;
  mkModel 0x2700000027 (-1)%Z 0x1fe690001fe70 0x1fe700001fe7c;
  mkModel 0x2700000027 (8614)%Z 0x0 0x1fe7c0001fe90;
  mkModel 0x2700000027 (8615)%Z 0x0 0x1fe900001fe9c;
  mkModel 0x2700000027 (8616)%Z 0x0 0x1fbd20001fbe0;
  mkModel 0x2700000027 (8617)%Z 0x0 0x1fe9c0001fea7;
  mkModel 0x2700000027 (8618)%Z 0x0 0x1fea70001feb0;
  mkModel 0x2a1000002a7 (8619)%Z 0x0 0x1feb00001febf;
  mkModel 0x2a1000002a7 (8620)%Z 0x0 0x1febf0001fece;
  mkModel 0x2a1000002a7 (8621)%Z 0x0 0xe7880000e78f;
  mkModel 0x2a1000002a7 (8622)%Z 0x0 0x18000000182;
  mkModel 0x23b0000023d (8623)%Z 0x0 0x18000000182;
  mkModel 0x23b0000023d (-1)%Z 0x1fece0001fedd 0x1fedd0001fee9;
  mkModel 0x23b0000023d (8624)%Z 0x0 0x1fee90001fef7;
  mkModel 0x2700000027 (8625)%Z 0x0 0x18000000182;
  mkModel 0x23b0000023d (8626)%Z 0x0 0x1fef70001ff01;
  mkModel 0x2700000027 (8627)%Z 0x0 0x18000000182;
  mkModel 0x2700000027 (8628)%Z 0x0 0x18000000182;
  mkModel 0x0 (-1)%Z 0x0 0x18000000182;
  mkModel 0x0 (-1)%Z 0x0 0x1ff140001ff1a;
  mkModel 0x0 (-1)%Z 0x0 0x1ff230001ff2e;
  mkModel 0x0 (-1)%Z 0x0 0x18000000182;
  mkModel 0x2700000027 (8634)%Z 0x0 0x1ff390001ff3f;
  mkModel 0x2700000027 (-1)%Z 0x1ff3f0001ff45 0x1ff450001ff4b;
  mkModel 0x2700000027 (-1)%Z 0x1ff4b0001ff53 0x1ff530001ff59;
  mkModel 0x2700000027 (8635)%Z 0x0 0x3e9000003ed;
  mkModel 0x2700000027 (8636)%Z 0x0 0x1ff590001ff5e;
  mkModel 0x2700000027 (-1)%Z 0x1ff5e0001ff66 0x1ff660001ff70;
  mkModel 0x2700000027 (-1)%Z 0x1ff700001ff75 0x1ff750001ff7b;
  mkModel 0x2700000027 (-1)%Z 0x1ff7b0001ff81 0x1ff7b0001ff81;
  mkModel 0x2700000027 (-1)%Z 0x1ff810001ff8d 0x1af7a0001af7f;
  mkModel 0x2700000027 (-1)%Z 0x1ff8d0001ff99 0x1f9b80001f9bf;
  mkModel 0x2700000027 (-1)%Z 0xa06f0000a078 0xa06f0000a078;
  mkModel 0x2700000027 (-1)%Z 0x1ff990001ffa5 0x1ff990001ffa5;
  mkModel 0x2a1000002a7 (8637)%Z 0x0 0x1ffa50001ffaa;
  mkModel 0x2a1000002a7 (-1)%Z 0x1ffaa0001ffb6 0x1ffb60001ffc3;
  mkModel 0x2a1000002a7 (-1)%Z 0x1ffc30001ffcb 0x1ffcb0001ffd4;
  mkModel 0x39a000003a7 (8639)%Z 0x0 0x18000000182;
  mkModel 0x2700000027 (8640)%Z 0x0 0x18000000182;
  mkModel 0x2700000027 (8641)%Z 0x0 0x18000000182;
  mkModel 0x2700000027 (8642)%Z 0x0 0x18000000182;
  mkModel 0x2700000027 (8643)%Z 0x0 0x18000000182;
  mkModel 0x2700000027 (8645)%Z 0x0 0x1ffdb0001ffe2;
  mkModel 0x2700000027 (8646)%Z 0x0 0x1ffe20001fff2;
  mkModel 0x2700000027 (8647)%Z 0x0 0x1fff20001fffe;
  mkModel 0x2a1000002a7 (8648)%Z 0x0 0x1fffe0002000d;
  mkModel 0x2a1000002a7 (-1)%Z 0x2000d0002001e 0x2001e0002002f;
  mkModel 0x2a1000002a7 (8649)%Z 0x0 0x4c4300004c49;
  mkModel 0x2a1000002a7 (8650)%Z 0x0 0x2002f0002003c;
  mkModel 0x2700000027 (8651)%Z 0x0 0x2003c00020047;
  mkModel 0x0 (-1)%Z 0x0 0x18000000182;
  mkModel 0x0 (-1)%Z 0x0 0x2005b00020067;
  mkModel 0x2700000027 (8654)%Z 0x0 0x2006e00020079;
  mkModel 0x2700000027 (-1)%Z 0x2007900020081 0x2007900020081;
  mkModel 0x2700000027 (-1)%Z 0x2008100020088 0x2008100020088;
  mkModel 0x2700000027 (-1)%Z 0x200880002008f 0x200880002008f;
  mkModel 0x2700000027 (8655)%Z 0x0 0x2008f0002009d;
  mkModel 0x2700000027 (-1)%Z 0x2009d000200a3 0x2009d000200a3;
  mkModel 0x2700000027 (-1)%Z 0x200a3000200a8 0x200a3000200a8;
  mkModel 0x2700000027 (-1)%Z 0x200a8000200ac 0x200a8000200ac;
  mkModel 0x0 (-1)%Z 0x0 0x18000000182;
  mkModel 0x2700000027 (8658)%Z 0x0 0x10e9c00010ea7;
  mkModel 0x2700000027 (8659)%Z 0x0 0x18000000182;
  mkModel 0x2700000027 (8660)%Z 0x0 0x200ba000200c5;
  mkModel 0x2700000027 (8661)%Z 0x0 0x200c5000200d3;
  mkModel 0x2700000027 (8663)%Z 0x0 0x200da000200df;
  mkModel 0x2700000027 (8665)%Z 0x0 0x200e9000200f2;
  mkModel 0x2700000027 (8666)%Z 0x0 0x200f2000200f9;
  mkModel 0x0 (-1)%Z 0x0 0x200ff00020108;
  mkModel 0x2700000027 (8669)%Z 0x0 0x2010800020115;
  mkModel 0x2700000027 (8670)%Z 0x0 0x2011500020122;
  mkModel 0x2700000027 (8671)%Z 0x0 0x2012200020135;
  mkModel 0x2700000027 (-1)%Z 0x2013500020145 0x2014500020156;
  mkModel 0x2700000027 (8672)%Z 0x0 0x2015600020162;
  mkModel 0x2700000027 (8673)%Z 0x0 0x2016200020171;
  mkModel 0x2700000027 (8674)%Z 0x0 0x201710002017c;
  mkModel 0x2700000027 (8675)%Z 0x0 0x2017c00020187;
  mkModel 0x2a1000002a7 (8676)%Z 0x0 0x2018700020196;
  mkModel 0x2a1000002a7 (8677)%Z 0x0 0x20196000201a0;
  mkModel 0x2a1000002a7 (8678)%Z 0x0 0x201a0000201a9;
  mkModel 0x2a1000002a7 (8679)%Z 0x0 0x4bd000004c3;
  mkModel 0x2a1000002a7 (-1)%Z 0x201a9000201b2 0x201b2000201b8;
  mkModel 0x2a1000002a7 (-1)%Z 0x201b8000201c3 0x201c3000201cb;
  mkModel 0x2a1000002a7 (8680)%Z 0x0 0x201cb000201d9;
  mkModel 0x2a1000002a7 (8681)%Z 0x0 0x201d9000201e6;
  mkModel 0x2a1000002a7 (8682)%Z 0x0 0x201e6000201f3;
  mkModel 0x2a1000002a7 (8683)%Z 0x0 0x201f3000201ff;
  mkModel 0x2a1000002a7 (8684)%Z 0x0 0x201ff00020209;
  mkModel 0x2a1000002a7 (8685)%Z 0x0 0x2020900020216;
  mkModel 0x2700000027 (-1)%Z 0x2021600020224 0x2022400020232;
  mkModel 0x2700000027 (-1)%Z 0x2023200020240 0x202400002024f;
  mkModel 0x2700000027 (-1)%Z 0x2024f0002025b 0x2025b00020268;
  mkModel 0x2700000027 (8686)%Z 0x0 0x2026800020276;
  mkModel 0x2700000027 (-1)%Z 0x2027600020282 0x202820002028f;
  mkModel 0x2700000027 (-1)%Z 0x2028f00020296 0x202960002029f;
  mkModel 0x2700000027 (8687)%Z 0x0 0x123aa000123b2;
  mkModel 0x2a1000002a7 (8688)%Z 0x0 0x2029f000202ab;
  mkModel 0x2a1000002a7 (8689)%Z 0x0 0x123aa000123b2;
  mkModel 0x2700000027 (8690)%Z 0x0 0x202ab000202b6;
  mkModel 0x2700000027 (8691)%Z 0x0 0x202b6000202be;
  mkModel 0x2700000027 (8692)%Z 0x0 0x101d4000101dc;
  mkModel 0x2700000027 (-1)%Z 0x202be000202c9 0x202c9000202d0;
  mkModel 0x2700000027 (-1)%Z 0x202d0000202da 0x202da000202e4;
  mkModel 0x2700000027 (8693)%Z 0x0 0x1944e00019454;
  mkModel 0x2700000027 (-1)%Z 0x202e4000202eb 0x202eb000202ee;
  mkModel 0x2700000027 (-1)%Z 0x202ee000202f6 0x202f6000202ff;
  mkModel 0x2700000027 (8694)%Z 0x0 0x202ff00020309;
  mkModel 0x2700000027 (8695)%Z 0x0 0x2030900020311
].
Definition d_dr_dm_57 : list modelTuple := [
  mkModel 0x2700000027 (8696)%Z 0x0 0x18000000182;
  mkModel 0x23b0000023d (-1)%Z 0x2031100020316 0x203160002031c;
  mkModel 0x23b0000023d (-1)%Z 0x2031c00020321 0x2032100020326;
  mkModel 0x23b0000023d (-1)%Z 0x203260002032b 0x2032b00020330;
  mkModel 0x23b0000023d (-1)%Z 0x2033000020335 0x2032b00020330;
  mkModel 0x23b0000023d (-1)%Z 0x203350002033a 0x2033a00020342;
  mkModel 0x23b0000023d (8697)%Z 0x0 0x18000000182;
  mkModel 0x2700000027 (8699)%Z 0x0 0x2034b00020353;
  mkModel 0x2700000027 (8700)%Z 0x0 0xb8a50000b8a8;
  mkModel 0x0 (-1)%Z 0x0 0x18000000182;
  mkModel 0x2700000027 (8703)%Z 0x0 0x18000000182;
  mkModel 0x2700000027 (8704)%Z 0x0 0x18000000182;
  mkModel 0x2700000027 (-1)%Z 0x203620002036c 0x203620002036c;
  mkModel 0x2700000027 (-1)%Z 0x2036c00020371 0x2037100020380;
  mkModel 0x2700000027 (-1)%Z 0x203800002038a 0x2038a00020396;
  mkModel 0x2700000027 (8706)%Z 0x0 0x18000000182;
  mkModel 0x2700000027 (8707)%Z 0x0 0x18000000182;
  mkModel 0x2700000027 (8709)%Z 0x0 0x2039b000203a1;
  mkModel 0x2700000027 (8710)%Z 0x0 0x203a1000203a9;
  mkModel 0x0 (-1)%Z 0x0 0x18000000182;
  mkModel 0x2700000027 (-1)%Z 0x203af000203bd 0x203bd000203c5;
  mkModel 0x2700000027 (8713)%Z 0x0 0x18000000182;
  mkModel 0x2700000027 (8715)%Z 0x0 0x203d1000203d7;
  mkModel 0x2700000027 (8718)%Z 0x0 0x203ea000203ee;
  mkModel 0x2700000027 (8719)%Z 0x0 0x18000000182;
  mkModel 0x0 (-1)%Z 0x0 0x18000000182;
  mkModel 0x2700000027 (8722)%Z 0x0 0x18000000182;
  mkModel 0x2a1000002a7 (-1)%Z 0x204050002040d 0x2040d0002041d;
  mkModel 0x2700000027 (-1)%Z 0x2041d00020423 0x204230002042f;
  mkModel 0x2700000027 (-1)%Z 0x2042f00020435 0x204350002043f;
  mkModel 0x2700000027 (-1)%Z 0x2043f00020445 0x2044500020450;
  mkModel 0x2700000027 (-1)%Z 0x2045000020456 0x2045600020461;
  mkModel 0x2700000027 (-1)%Z 0x2046100020467 0x2046700020473;
  mkModel 0x2700000027 (-1)%Z 0x2047300020479 0x2047900020488;
  mkModel 0x2700000027 (-1)%Z 0x204880002048e 0x2048e00020499;
  mkModel 0x2700000027 (-1)%Z 0x204990002049f 0x2049f000204a9;
  mkModel 0x2700000027 (-1)%Z 0x204a9000204af 0x204af000204b9;
  mkModel 0x2700000027 (-1)%Z 0x204b9000204c7 0x204c7000204d5;
  mkModel 0x2700000027 (-1)%Z 0x204d5000204db 0x204db000204e5;
  mkModel 0x2700000027 (-1)%Z 0x204e5000204ea 0x204ea000204f4;
  mkModel 0x2700000027 (-1)%Z 0x204f4000204f8 0x204f800020503;
  mkModel 0x2700000027 (8724)%Z 0x0 0x205030002050e;
  mkModel 0x2700000027 (8725)%Z 0x0 0x205030002050e;
  mkModel 0x2700000027 (8726)%Z 0x0 0x18000000182;
  mkModel 0x2a1000002a7 (8727)%Z 0x0 0x18000000182;
  mkModel 0x2700000027 (8729)%Z 0x0 0x2051700020519;
  mkModel 0x2700000027 (-1)%Z 0x205190002051e 0x2051e00020520;
  mkModel 0x2700000027 (-1)%Z 0x2052000020525 0x2052500020527;
  mkModel 0x2700000027 (-1)%Z 0x205270002052c 0x2052c0002052f;
  mkModel 0x2700000027 (8730)%Z 0x0 0xb1bc0000b1be;
  mkModel 0x2700000027 (8731)%Z 0x0 0x42d00000430;
  mkModel 0x2700000027 (8732)%Z 0x0 0xf8380000f83d;
  mkModel 0x2700000027 (8733)%Z 0x0 0x19a8800019a8a;
  mkModel 0x2700000027 (8734)%Z 0x0 0x2052f00020539;
  mkModel 0x2700000027 (8735)%Z 0x0 0x205390002053e;
  mkModel 0x2700000027 (8736)%Z 0x0 0x2053e00020543;
  mkModel 0x2700000027 (8737)%Z 0x0 0x205430002054c;
  mkModel 0x2700000027 (8738)%Z 0x0 0x2054c00020559;
  mkModel 0x2700000027 (-1)%Z 0x2055900020569 0x205690002056f;
  mkModel 0x2700000027 (8740)%Z 0x0 0x205750002057c;
  mkModel 0x2700000027 (-1)%Z 0x2057c00020584 0x2057c00020584;
  mkModel 0x2700000027 (-1)%Z 0x205910002059b 0x205910002059b;
  mkModel 0x2700000027 (8742)%Z 0x0 0x2059b000205aa;
  mkModel 0x2700000027 (8743)%Z 0x0 0x205aa000205b3;
  mkModel 0x2700000027 (8744)%Z 0x0 0x205b3000205be;
  mkModel 0x2700000027 (8745)%Z 0x0 0x205be000205cc;
  mkModel 0x2700000027 (8746)%Z 0x0 0x205cc000205db;
  mkModel 0x2a1000002a7 (8747)%Z 0x0 0x205aa000205b3;
  mkModel 0x0 (-1)%Z 0x0 0x18000000182;
  mkModel 0x2700000027 (-1)%Z 0x205ee000205fb 0x205fb00020611;
  mkModel 0x2700000027 (-1)%Z 0x206150002061e 0x155de000155e2;
  mkModel 0x2700000027 (8750)%Z 0x0 0x18000000182;
  mkModel 0x2700000027 (8752)%Z 0x0 0x18000000182;
  mkModel 0x2700000027 (8753)%Z 0x0 0x18000000182;
  mkModel 0x2700000027 (8754)%Z 0x0 0x18000000182;
  mkModel 0x0 (-1)%Z 0x0 0x18000000182;
  mkModel 0x2700000027 (-1)%Z 0x206360002063b 0x2063b0002064b;
  mkModel 0x2700000027 (-1)%Z 0x2064b00020650 0x2065000020661;
  mkModel 0x2700000027 (-1)%Z 0x2066100020666 0x2066600020674;
  mkModel 0x2700000027 (-1)%Z 0x206740002067e 0x2067e00020684;
  mkModel 0x2700000027 (-1)%Z 0x206840002068d 0x2068d00020696;
  mkModel 0x2700000027 (8757)%Z 0x0 0x20696000206a1;
  mkModel 0x2700000027 (8758)%Z 0x0 0x206a1000206ab;
  mkModel 0x2700000027 (8759)%Z 0x0 0x18000000182;
  mkModel 0x39a000003a7 (8761)%Z 0x0 0x206b0000206b6;
  mkModel 0x2700000027 (8762)%Z 0x0 0x206b6000206b9;
  mkModel 0x2700000027 (8763)%Z 0x0 0x206b9000206c1;
  mkModel 0x2700000027 (8764)%Z 0x0 0x206c1000206c5;
  mkModel 0x2700000027 (8765)%Z 0x0 0x206c5000206c8;
  mkModel 0x2700000027 (8766)%Z 0x0 0x206c8000206cb;
  mkModel 0x2700000027 (8767)%Z 0x0 0x206cb000206ce;
  mkModel 0x2700000027 (8768)%Z 0x0 0x206ce000206d1;
  mkModel 0x2700000027 (8769)%Z 0x0 0x206d1000206d5;
  mkModel 0x2700000027 (8771)%Z 0x0 0x206d5000206e4;
  mkModel 0x2700000027 (8772)%Z 0x0 0x206e4000206f7;
  mkModel 0x2700000027 (8773)%Z 0x0 0x206f700020700;
  mkModel 0x2700000027 (8774)%Z 0x0 0x207000002070a;
  mkModel 0x2700000027 (8775)%Z 0x0 0x2070a00020716;
  mkModel 0x2700000027 (8776)%Z 0x0 0x2071600020722;
  mkModel 0x2700000027 (8777)%Z 0x0 0x207220002072c;
  mkModel 0x2700000027 (8778)%Z 0x0 0x2072c00020737;
  mkModel 0x2700000027 (8779)%Z 0x0 0x2073700020741;
  mkModel 0x2700000027 (8780)%Z 0x0 0x207410002074c;
  mkModel 0x2700000027 (8781)%Z 0x0 0x2074c00020759;
  mkModel 0x2700000027 (8782)%Z 0x0 0x2075900020763;
  mkModel 0x2700000027 (8783)%Z 0x0 0x207630002076d;
  mkModel 0x2700000027 (8784)%Z 0x0 0x2076d0002077c;
  mkModel 0x2700000027 (8785)%Z 0x0 0x2077c00020786;
  mkModel 0x2700000027 (8786)%Z 0x0 0x207860002078b;
  mkModel 0x2700000027 (8787)%Z 0x0 0x2078b00020796;
  mkModel 0x2700000027 (-1)%Z 0x20796000207a3 0x20796000207a3;
  mkModel 0x2700000027 (8788)%Z 0x0 0x207a3000207b4;
  mkModel 0x39a000003a7 (8789)%Z 0x0 0x207b4000207b7;
  mkModel 0x39a000003a7 (8790)%Z 0x0 0x207b7000207be;
  mkModel 0x39a000003a7 (8791)%Z 0x0 0x207be000207c3;
  mkModel 0x39a000003a7 (8792)%Z 0x0 0x207c3000207c8;
  mkModel 0x39a000003a7 (8793)%Z 0x0 0x207c8000207cd;
  mkModel 0x39a000003a7 (8794)%Z 0x0 0x207cd000207d0;
  mkModel 0x39a000003a7 (8795)%Z 0x0 0x207d0000207d5;
  mkModel 0x39a000003a7 (8796)%Z 0x0 0x207d5000207d9;
  mkModel 0x39a000003a7 (8797)%Z 0x0 0x207d9000207dd;
  mkModel 0x39a000003a7 (8798)%Z 0x0 0x207dd000207e2;
  mkModel 0x39a000003a7 (8799)%Z 0x0 0x207e2000207e7;
  mkModel 0x39a000003a7 (8800)%Z 0x0 0x207e7000207f0;
  mkModel 0x39a000003a7 (8801)%Z 0x0 0x207f0000207f4;
  mkModel 0x39a000003a7 (8802)%Z 0x0 0x207f4000207f9;
  mkModel 0x39a000003a7 (8803)%Z 0x0 0x207f9000207fe;
  mkModel 0x39a000003a7 (8804)%Z 0x0 0x207fe00020802;
  mkModel 0x39a000003a7 (8805)%Z 0x0 0x208020002080d;
  mkModel 0x2700000027 (8806)%Z 0x0 0x2080d00020816;
  mkModel 0x2700000027 (8807)%Z 0x0 0x2081600020822;
  mkModel 0x2700000027 (8808)%Z 0x0 0x208220002082c;
  mkModel 0x2700000027 (-1)%Z 0x2082c00020832 0x208320002083b;
  mkModel 0x2700000027 (-1)%Z 0x2083b00020841 0x208410002084a;
  mkModel 0x2700000027 (-1)%Z 0x2084a0002084f 0x2084f0002085d;
  mkModel 0x2700000027 (-1)%Z 0x2085d00020863 0x208630002086c;
  mkModel 0x2700000027 (8809)%Z 0x0 0x2086c00020875;
  mkModel 0x2700000027 (8810)%Z 0x0 0x2075900020763;
  mkModel 0x2700000027 (8811)%Z 0x0 0x2087500020882;
  mkModel 0x2700000027 (8812)%Z 0x0 0x2088200020890;
  mkModel 0x2700000027 (8813)%Z 0x0 0x208900002089c;
  mkModel 0x2700000027 (8814)%Z 0x0 0x2089c000208a9;
  mkModel 0x2700000027 (8815)%Z 0x0 0x208a9000208b4;
  mkModel 0x2700000027 (8816)%Z 0x0 0x208b4000208c0;
  mkModel 0x2700000027 (8817)%Z 0x0 0x208c0000208d2;
  mkModel 0x2700000027 (8818)%Z 0x0 0x208d2000208de;
  mkModel 0x2700000027 (8819)%Z 0x0 0x208de000208ec;
  mkModel 0x2700000027 (8820)%Z 0x0 0x208ec000208fa;
  mkModel 0x2700000027 (8821)%Z 0x0 0x208fa00020902;
  mkModel 0x2700000027 (8822)%Z 0x0 0x209020002091f;
  mkModel 0x2700000027 (8823)%Z 0x0 0x2091f0002092a;
  mkModel 0x2700000027 (8824)%Z 0x0 0x2092a00020936;
  mkModel 0x2700000027 (8825)%Z 0x0 0x2093600020941;
  mkModel 0x2700000027 (8826)%Z 0x0 0x209410002094b;
  mkModel 0x2700000027 (8827)%Z 0x0 0x2094b00020956;
  mkModel 0x2700000027 (8828)%Z 0x0 0x2095600020962;
  mkModel 0x2700000027 (8829)%Z 0x0 0x209620002096a;
  mkModel 0x2700000027 (8830)%Z 0x0 0x2096a00020972;
  mkModel 0x2700000027 (8831)%Z 0x0 0x209720002097f;
  mkModel 0x2700000027 (8832)%Z 0x0 0x2097f00020987;
  mkModel 0x2700000027 (8833)%Z 0x0 0x2098700020992;
  mkModel 0x2700000027 (8834)%Z 0x0 0x209920002099c;
  mkModel 0x2700000027 (8835)%Z 0x0 0x2099c000209a8;
  mkModel 0x2700000027 (8836)%Z 0x0 0x209a8000209b3;
  mkModel 0x2700000027 (8837)%Z 0x0 0x209b3000209bb;
  mkModel 0x2700000027 (8838)%Z 0x0 0x209bb000209c8;
  mkModel 0x2700000027 (8839)%Z 0x0 0x209c8000209d1;
  mkModel 0x2700000027 (8840)%Z 0x0 0x209d1000209d9;
  mkModel 0x2700000027 (8841)%Z 0x0 0x209d9000209e4;
  mkModel 0x2700000027 (8842)%Z 0x0 0x209e4000209f2;
  mkModel 0x2700000027 (8843)%Z 0x0 0x209f2000209ff;
  mkModel 0x2700000027 (8844)%Z 0x0 0x209ff00020a09;
  mkModel 0x2700000027 (8845)%Z 0x0 0x20a0900020a12;
  mkModel 0x2700000027 (8846)%Z 0x0 0x20a1200020a1e;
  mkModel 0x2700000027 (8847)%Z 0x0 0x20a1e00020a26;
  mkModel 0x2700000027 (8848)%Z 0x0 0x20a2600020a36;
  mkModel 0x2700000027 (8849)%Z 0x0 0x20a3600020a41;
  mkModel 0x2700000027 (8850)%Z 0x0 0x20a4100020a4c;
  mkModel 0x2700000027 (8851)%Z 0x0 0x20a4c00020a54;
  mkModel 0x2700000027 (8852)%Z 0x0 0x20a5400020a5d;
  mkModel 0x2700000027 (8853)%Z 0x0 0x20a5d00020a66;
  mkModel 0x2700000027 (8854)%Z 0x0 0x20a6600020a6e;
  mkModel 0x2700000027 (8855)%Z 0x0 0x20a6e00020a77;
  mkModel 0x2700000027 (8856)%Z 0x0 0x20a7700020a7f;
  mkModel 0x2700000027 (8857)%Z 0x0 0x20a7f00020a8c;
  mkModel 0x2700000027 (8858)%Z 0x0 0x20a8c00020a95;
  mkModel 0x2700000027 (8859)%Z 0x0 0x20a9500020a9f;
  mkModel 0x2700000027 (8860)%Z 0x0 0x20a9f00020aa7;
  mkModel 0x2700000027 (8861)%Z 0x0 0x20aa700020ab4;
  mkModel 0x2700000027 (8862)%Z 0x0 0x20ab400020abc;
  mkModel 0x2700000027 (8863)%Z 0x0 0x20abc00020ac4;
  mkModel 0x2700000027 (8864)%Z 0x0 0x20ac400020acd;
  mkModel 0x2700000027 (8865)%Z 0x0 0x20acd00020ad6;
  mkModel 0x2700000027 (8866)%Z 0x0 0x20ad600020adf;
  mkModel 0x2700000027 (8867)%Z 0x0 0x20adf00020ae9;
  mkModel 0x2700000027 (8868)%Z 0x0 0x20ae900020af1;
  mkModel 0xdfd00000e04 (8869)%Z 0x0 0x20af100020aff;
  mkModel 0x2700000027 (8870)%Z 0x0 0x20ae900020af1;
  mkModel 0x2700000027 (8871)%Z 0x0 0x20aff00020b08;
  mkModel 0x2700000027 (8872)%Z 0x0 0x20b0800020b16
].
Definition d_dr_dm_58 : list modelTuple := [
  mkModel 0x2700000027 (8873)%Z 0x0 0x20b1600020b1f;
  mkModel 0x2700000027 (8874)%Z 0x0 0x20b1f00020b2d;
  mkModel 0x2700000027 (8875)%Z 0x0 0x20b2d00020b3c;
  mkModel 0x2700000027 (8876)%Z 0x0 0x20b3c00020b45;
  mkModel 0x2700000027 (8877)%Z 0x0 0x20b4500020b53;
  mkModel 0x2700000027 (-1)%Z 0x20b5300020b58 0x20b5800020b61;
  mkModel 0x2700000027 (8878)%Z 0x0 0x20b6100020b6f;
  mkModel 0x2700000027 (8879)%Z 0x0 0x20b6f00020b78;
  mkModel 0x2700000027 (8880)%Z 0x0 0x20b7800020b86;
  mkModel 0x2700000027 (8881)%Z 0x0 0x20b8600020b8f;
  mkModel 0x2700000027 (8882)%Z 0x0 0x20b8f00020b9d;
  mkModel 0x2700000027 (8883)%Z 0x0 0x20b9d00020bab;
  mkModel 0x2700000027 (8884)%Z 0x0 0x20bab00020bbe;
  mkModel 0x2700000027 (8885)%Z 0x0 0x20bbe00020bc7;
  mkModel 0x2700000027 (8886)%Z 0x0 0x20bc700020bd5;
  mkModel 0x2700000027 (8887)%Z 0x0 0x20bd500020be3;
  mkModel 0x2700000027 (8888)%Z 0x0 0x20be300020bec;
  mkModel 0x2700000027 (8889)%Z 0x0 0x20bec00020bf5;
  mkModel 0x2700000027 (8890)%Z 0x0 0x20bf500020c03;
  mkModel 0x2700000027 (8891)%Z 0x0 0x20c0300020c12;
  mkModel 0x2700000027 (8892)%Z 0x0 0x20c1200020c26;
  mkModel 0x2700000027 (8893)%Z 0x0 0x20c2600020c2f;
  mkModel 0xdfd00000e04 (8894)%Z 0x0 0x20c2f00020c3e;
  mkModel 0xdfd00000e04 (8895)%Z 0x0 0x20c3e00020c52;
  mkModel 0x2700000027 (8896)%Z 0x0 0x20c5200020c63;
  mkModel 0x2700000027 (8897)%Z 0x0 0x20c6300020c6c;
  mkModel 0x2700000027 (8898)%Z 0x0 0x20c6c00020c7d;
  mkModel 0x2a1000002a7 (-1)%Z 0x20c7d00020c92 0x20c9200020ca7;
  mkModel 0x2a1000002a7 (8899)%Z 0x0 0x20ca700020cb7;
  mkModel 0x2700000027 (8900)%Z 0x0 0x20cb700020cc0;
  mkModel 0x2700000027 (-1)%Z 0x20cc000020cc5 0x20cc500020ccf;
  mkModel 0x2700000027 (8901)%Z 0x0 0x20ccf00020cd8;
  mkModel 0x2700000027 (8902)%Z 0x0 0x20cd800020ce6;
  mkModel 0x2700000027 (8903)%Z 0x0 0x20ce600020cf0;
  mkModel 0x2700000027 (8904)%Z 0x0 0x20cf000020cfa;
  mkModel 0x2700000027 (8905)%Z 0x0 0x20cfa00020d03;
  mkModel 0x2700000027 (-1)%Z 0x20d0300020d08 0x20d0800020d12;
  mkModel 0x2a1000002a7 (8906)%Z 0x0 0x20cfa00020d03;
  mkModel 0x2700000027 (8907)%Z 0x0 0x20d1200020d23;
  mkModel 0x2700000027 (8908)%Z 0x0 0x20d2300020d2c;
  mkModel 0x2700000027 (8909)%Z 0x0 0x20d2c00020d3a;
  mkModel 0x2700000027 (8910)%Z 0x0 0x20d3a00020d4b;
  mkModel 0x2700000027 (8911)%Z 0x0 0x20d4b00020d61;
  mkModel 0x2700000027 (8912)%Z 0x0 0x20d6100020d6a;
  mkModel 0x2700000027 (8913)%Z 0x0 0x20d6a00020d78;
  mkModel 0x2700000027 (8914)%Z 0x0 0x20d7800020d87;
  mkModel 0x2700000027 (8915)%Z 0x0 0x20d8700020d9b;
  mkModel 0x2700000027 (8916)%Z 0x0 0x20d9b00020da4;
  mkModel 0x2700000027 (8917)%Z 0x0 0x20da400020dae;
  mkModel 0x2700000027 (8918)%Z 0x0 0x20dae00020dc0;
  mkModel 0x2700000027 (8919)%Z 0x0 0x20dc000020dc9;
  mkModel 0x2700000027 (8920)%Z 0x0 0x20dc900020dd3;
  mkModel 0x2700000027 (8921)%Z 0x0 0x20dd300020de2;
  mkModel 0x2700000027 (8922)%Z 0x0 0x20de200020df6;
  mkModel 0x2700000027 (8923)%Z 0x0 0x20df600020e06;
  mkModel 0x2700000027 (8924)%Z 0x0 0x20e0600020e10;
  mkModel 0x2700000027 (8925)%Z 0x0 0x20e1000020e1f;
  mkModel 0x2700000027 (8926)%Z 0x0 0x20e1f00020e2e;
  mkModel 0x2700000027 (-1)%Z 0x20e2e00020e33 0x20e2e00020e33;
  mkModel 0x2700000027 (8927)%Z 0x0 0x20e3300020e43;
  mkModel 0x2700000027 (8928)%Z 0x0 0x20e4300020e4d;
  mkModel 0x2700000027 (8929)%Z 0x0 0x20e4d00020e5e;
  mkModel 0x2700000027 (8930)%Z 0x0 0x20e5e00020e68;
  mkModel 0x2700000027 (-1)%Z 0x20e6800020e6d 0x20e6d00020e7c;
  mkModel 0x2700000027 (-1)%Z 0x20e7c00020e82 0x20e8200020e94;
  mkModel 0x2700000027 (8931)%Z 0x0 0x20e9400020eab;
  mkModel 0x2700000027 (8932)%Z 0x0 0x20eab00020eb5;
  mkModel 0x2700000027 (8933)%Z 0x0 0x20eb500020ebe;
  mkModel 0x2700000027 (8934)%Z 0x0 0x20ebe00020ecc;
  mkModel 0x2700000027 (8935)%Z 0x0 0x20ecc00020ed4;
  mkModel 0x2700000027 (8936)%Z 0x0 0x20ed400020edd;
  mkModel 0x2700000027 (8937)%Z 0x0 0x20edd00020ee6;
  mkModel 0x2700000027 (8938)%Z 0x0 0x20ee600020eee;
  mkModel 0x2700000027 (8939)%Z 0x0 0x20eee00020efb;
  mkModel 0x2700000027 (8940)%Z 0x0 0x20efb00020f0b;
  mkModel 0x2700000027 (8941)%Z 0x0 0x20f0b00020f1f;
  mkModel 0x2700000027 (8942)%Z 0x0 0x20f1f00020f38;
  mkModel 0x2a1000002a7 (8943)%Z 0x0 0x20f3800020f47;
  mkModel 0x2a1000002a7 (8944)%Z 0x0 0x20f4700020f57;
  mkModel 0x2a1000002a7 (8945)%Z 0x0 0x20f5700020f67;
  mkModel 0x2a1000002a7 (8946)%Z 0x0 0x20f6700020f7f;
  mkModel 0x2a1000002a7 (8947)%Z 0x0 0x20f7f00020f8e;
  mkModel 0x2b1e00002b26 (-1)%Z 0x20f8e00020f9a 0x20f8e00020f9a;
  mkModel 0x23b0000023d (8948)%Z 0x0 0x20f9a00020fa3;
  mkModel 0x23b0000023d (8949)%Z 0x0 0x20fa300020fb3;
  mkModel 0x23b0000023d (8950)%Z 0x0 0x18000000182;
  mkModel 0x23b0000023d (8951)%Z 0x0 0x20fb300020fbd;
  mkModel 0xbf670000bf7c (8952)%Z 0x0 0x20fbd00020fc7;
  mkModel 0x23b0000023d (-1)%Z 0x20fc700020fcc 0x20fc700020fcc;
  mkModel 0x23b0000023d (-1)%Z 0x20fcc00020fd4 0x20fd400020fdc;
  mkModel 0x23b0000023d (-1)%Z 0x20fdc00020fe4 0x20fe400020fec;
  mkModel 0x23b0000023d (-1)%Z 0x20fec00020ff5 0x20ff500020ffe;
  mkModel 0x23b0000023d (8953)%Z 0x0 0x18000000182;
  mkModel 0x23b0000023d (8954)%Z 0x0 0x20ffe00021011;
  mkModel 0x23b0000023d (8955)%Z 0x0 0x210110002101f;
  mkModel 0x23b0000023d (8956)%Z 0x0 0x18000000182;
  mkModel 0x23b0000023d (8957)%Z 0x0 0x18000000182;
  mkModel 0x2700000027 (8958)%Z 0x0 0x18000000182;
  mkModel 0x2700000027 (8959)%Z 0x0 0x18000000182;
  mkModel 0x2700000027 (8960)%Z 0x0 0x1012500010128;
  mkModel 0x2700000027 (8961)%Z 0x0 0x2101f00021029;
  mkModel 0x2700000027 (8962)%Z 0x0 0x18000000182;
  mkModel 0x39a000003a7 (8963)%Z 0x0 0x18000000182;
  mkModel 0x2700000027 (8964)%Z 0x0 0x18000000182;
  mkModel 0xc9b00000ca2 (8965)%Z 0x0 0x18000000182;
  mkModel 0x2a1000002a7 (8966)%Z 0x0 0x18000000182;
  mkModel 0x2a1000002a7 (8967)%Z 0x0 0x18000000182;
  mkModel 0x2a1000002a7 (8968)%Z 0x0 0x2102900021032;
  mkModel 0x2700000027 (8969)%Z 0x0 0x2102900021032;
  mkModel 0x2700000027 (8970)%Z 0x0 0x2102900021032;
  mkModel 0x2700000027 (8971)%Z 0x0 0x18000000182;
  mkModel 0x2700000027 (8972)%Z 0x0 0x18000000182;
  mkModel 0x2700000027 (8973)%Z 0x0 0x18000000182;
  mkModel 0x0 (-1)%Z 0x0 0x18000000182;
  mkModel 0x0 (-1)%Z 0x0 0x18000000182;
  mkModel 0x2700000027 (8977)%Z 0x0 0x18000000182;
  mkModel 0x2700000027 (-1)%Z 0x210470002104c 0x210470002104c;
  mkModel 0x2700000027 (-1)%Z 0x2104c00021054 0x210540002105c;
  mkModel 0x2700000027 (-1)%Z 0x1ff530001ff59 0x1ff530001ff59;
  mkModel 0x2700000027 (-1)%Z 0x2106900021074 0x2106900021074;
  mkModel 0x2700000027 (-1)%Z 0x156450001564c 0x156450001564c;
  mkModel 0x2700000027 (8980)%Z 0x0 0x210740002107b;
  mkModel 0x2700000027 (-1)%Z 0x2107b00021086 0x2107b00021086;
  mkModel 0x2700000027 (-1)%Z 0x2108600021090 0x2108600021090;
  mkModel 0x2700000027 (8981)%Z 0x0 0x210900002109a;
  mkModel 0x2700000027 (8982)%Z 0x0 0x2109a000210a5;
  mkModel 0x2700000027 (8983)%Z 0x0 0x558300005589;
  mkModel 0x2700000027 (-1)%Z 0x187bf000187c4 0x187bf000187c4;
  mkModel 0x2700000027 (-1)%Z 0x210a5000210ad 0x210a5000210ad;
  mkModel 0x2700000027 (-1)%Z 0x210ad000210b8 0x210ad000210b8;
  mkModel 0x2700000027 (-1)%Z 0x210b8000210bf 0x210b8000210bf;
  mkModel 0x2700000027 (-1)%Z 0x210bf000210c7 0x210c7000210c9;
  mkModel 0x0 (-1)%Z 0x0 0x18000000182;
  mkModel 0x2700000027 (8986)%Z 0x0 0x210dc000210e8;
  mkModel 0x2700000027 (8987)%Z 0x0 0x210e8000210f4;
  mkModel 0x2700000027 (8988)%Z 0x0 0x210f4000210ff;
  mkModel 0x2700000027 (8989)%Z 0x0 0x210ff0002110c;
  mkModel 0x2700000027 (8991)%Z 0x0 0x2110c00021114;
  mkModel 0x2700000027 (8992)%Z 0x0 0x211140002111e;
  mkModel 0x2700000027 (-1)%Z 0x2111e0002112a 0x2112a00021136;
  mkModel 0x2700000027 (-1)%Z 0x2113600021143 0x2114300021151;
  mkModel 0x2700000027 (-1)%Z 0x2115100021162 0x2116200021174;
  mkModel 0x2700000027 (-1)%Z 0x2117400021185 0x2118500021198;
  mkModel 0x2a1000002a7 (8993)%Z 0x0 0x211980002119e;
  mkModel 0x2a1000002a7 (8994)%Z 0x0 0x2119e000211a3;
  mkModel 0x2700000027 (8995)%Z 0x0 0x211980002119e;
  mkModel 0x2700000027 (8996)%Z 0x0 0x2119e000211a3;
  mkModel 0x2700000027 (8997)%Z 0x0 0x18000000182;
  mkModel 0x2700000027 (8998)%Z 0x0 0x18000000182;
  mkModel 0x0 (-1)%Z 0x0 0x211a9000211af;
  mkModel 0x2700000027 (-1)%Z 0x211b8000211c1 0x211c1000211ca;
  mkModel 0x2700000027 (9001)%Z 0x0 0x211ca000211d5;
  mkModel 0x2700000027 (-1)%Z 0x211d5000211de 0x211de000211e7;
  mkModel 0x2700000027 (-1)%Z 0x211e7000211f1 0x211f1000211fb;
  mkModel 0x2700000027 (-1)%Z 0x211fb00021203 0x212030002120b;
  mkModel 0x2700000027 (-1)%Z 0x2120b00021215 0x212150002121f;
  mkModel 0x2700000027 (-1)%Z 0x2121f00021229 0x2122900021233;
  mkModel 0x2700000027 (-1)%Z 0x2123300021239 0x212390002123f;
  mkModel 0x2700000027 (-1)%Z 0x2123f00021249 0x2124900021253;
  mkModel 0x2700000027 (-1)%Z 0x212530002125e 0x2125e00021269;
  mkModel 0x2700000027 (9002)%Z 0x0 0x2126900021273;
  mkModel 0x2700000027 (-1)%Z 0x212730002127d 0x2127d00021287;
  mkModel 0x2700000027 (-1)%Z 0x2128700021297 0x212970002129d;
  mkModel 0x2700000027 (-1)%Z 0x2129d000212ab 0x212ab000212b1;
  mkModel 0x2700000027 (9004)%Z 0x0 0x212bb000212c2;
  mkModel 0x2700000027 (9005)%Z 0x0 0x212c2000212c7;
  mkModel 0x2700000027 (9006)%Z 0x0 0x212c7000212d1;
  mkModel 0x2700000027 (9007)%Z 0x0 0x212d1000212d8;
  mkModel 0x2700000027 (9008)%Z 0x0 0x212d8000212dd;
  mkModel 0x2a1000002a7 (9009)%Z 0x0 0x212dd000212ea;
  mkModel 0x0 (-1)%Z 0x0 0x212f1000212fe;
  mkModel 0x2700000027 (9012)%Z 0x0 0x213060002130e;
  mkModel 0x2700000027 (-1)%Z 0x2131500021320 0x2131500021320;
  mkModel 0x2700000027 (9014)%Z 0x0 0xe3400000e3c;
  mkModel 0x2700000027 (9016)%Z 0x0 0x213260002132c;
  mkModel 0x2700000027 (9017)%Z 0x0 0x213260002132c;
  mkModel 0x2700000027 (9019)%Z 0x0 0x213320002133c;
  mkModel 0x23b0000023d (-1)%Z 0x2133c0002134a 0x2134a00021351;
  mkModel 0x2700000027 (9021)%Z 0x0 0x18000000182;
  mkModel 0x2700000027 (9023)%Z 0x0 0x18000000182;
  mkModel 0x2700000027 (9024)%Z 0x0 0x213670002136d;
  mkModel 0x23b0000023d (9025)%Z 0x0 0x18000000182;
  mkModel 0x2700000027 (9027)%Z 0x0 0x18000000182;
  mkModel 0x2700000027 (9028)%Z 0x0 0x2137200021377;
  mkModel 0x2700000027 (-1)%Z 0x213770002137e 0x2137e00021385;
  mkModel 0x2700000027 (-1)%Z 0x213850002138d 0x2138d00021395;
  mkModel 0x2700000027 (-1)%Z 0x21395000213a2 0x213a2000213af;
  mkModel 0x2700000027 (-1)%Z 0x213af000213b6 0x213b6000213bd;
  mkModel 0x2700000027 (9029)%Z 0x0 0x18000000182;
  mkModel 0x2700000027 (9030)%Z 0x0 0x213bd000213c5;
  mkModel 0x2700000027 (9031)%Z 0x0 0x213c5000213d5;
  mkModel 0x2700000027 (9032)%Z 0x0 0x213d5000213e4;
  mkModel 0x2700000027 (-1)%Z 0x213e4000213ec 0x213ec000213f4;
  mkModel 0x2700000027 (-1)%Z 0x213f4000213fd 0x213fd00021406;
  mkModel 0x2700000027 (-1)%Z 0x214060002140f 0x2140f00021418;
  mkModel 0x2700000027 (-1)%Z 0x2141800021420 0x2142000021428;
  mkModel 0x2700000027 (-1)%Z 0x214280002142d 0x2142d00021434;
  mkModel 0x2700000027 (-1)%Z 0x214340002143c 0x214340002143c;
  mkModel 0x2700000027 (-1)%Z 0x2143c00021445 0x214450002144e;
  mkModel 0x2700000027 (-1)%Z 0x2144e00021456 0x214560002145e
].
Definition d_dr_dm_59 : list modelTuple := [
  mkModel 0x2700000027 (-1)%Z 0x2145e00021466 0x214660002146e;
  mkModel 0x2700000027 (-1)%Z 0x2146e00021475 0x2146e00021475;
  mkModel 0x2700000027 (-1)%Z 0x214750002147b 0x2147b00021481;
  mkModel 0x2700000027 (-1)%Z 0x2148100021486 0xa0a00000a0a7;
  mkModel 0x2700000027 (-1)%Z 0x214860002148f 0x2148f00021498;
  mkModel 0x2700000027 (-1)%Z 0x21498000214a0 0x214a0000214a8;
  mkModel 0x2700000027 (-1)%Z 0x214a8000214ae 0x214ae000214b4;
  mkModel 0x2700000027 (-1)%Z 0x214b4000214ba 0x214ba000214c0;
  mkModel 0x2700000027 (-1)%Z 0x214c0000214c7 0x214c7000214ce;
  mkModel 0x2700000027 (9033)%Z 0x0 0x214ce000214d7;
  mkModel 0x2700000027 (9034)%Z 0x0 0x214d7000214df;
  mkModel 0x2700000027 (9035)%Z 0x0 0x214df000214e6;
  mkModel 0x2700000027 (-1)%Z 0x214e6000214ef 0x214ef000214f8;
  mkModel 0x2700000027 (-1)%Z 0x133e9000133ed 0x133e9000133ed;
  mkModel 0x2700000027 (-1)%Z 0x214f8000214fd 0x8fe400008feb;
  mkModel 0x2700000027 (-1)%Z 0x214fd00021507 0x2150700021511;
  mkModel 0x2700000027 (-1)%Z 0x2151100021517 0x215170002151d;
  mkModel 0x2700000027 (-1)%Z 0x2151d00021527 0x2152700021531;
  mkModel 0x2700000027 (-1)%Z 0x215310002153a 0x2153a00021543;
  mkModel 0x2700000027 (-1)%Z 0x4bbd00004bc2 0x2154300021548;
  mkModel 0x2700000027 (-1)%Z 0x215480002154c 0x2154c00021550;
  mkModel 0x2700000027 (-1)%Z 0x2155000021556 0x1e0000001e6;
  mkModel 0x2700000027 (-1)%Z 0x2155600021563 0x2155600021563;
  mkModel 0x2700000027 (9036)%Z 0x0 0x18000000182;
  mkModel 0x2700000027 (9037)%Z 0x0 0x18000000182;
  mkModel 0x2a1000002a7 (9038)%Z 0x0 0x215630002156f;
  mkModel 0x2a1000002a7 (-1)%Z 0x2156f00021574 0x215740002157f;
  mkModel 0x2a1000002a7 (-1)%Z 0x2157f00021591 0x2157f00021591;
  mkModel 0x2700000027 (9040)%Z 0x0 0x18000000182;
  mkModel 0x2700000027 (9041)%Z 0x0 0x12b1700012b1f;
  mkModel 0x2700000027 (9043)%Z 0x0 0x2159b000215a2;
  mkModel 0x2700000027 (9044)%Z 0x0 0x183a0000183a7;
  mkModel 0x2700000027 (9045)%Z 0x0 0x215a2000215a9;
  mkModel 0x2700000027 (9046)%Z 0x0 0x6b6600006b6d;
  mkModel 0x2700000027 (9047)%Z 0x0 0x18000000182;
  mkModel 0x2700000027 (9049)%Z 0x0 0x18000000182;
  mkModel 0x23b0000023d (9050)%Z 0x0 0x18000000182;
  mkModel 0x2700000027 (9052)%Z 0x0 0x18000000182;
  mkModel 0x2700000027 (9053)%Z 0x0 0x18000000182;
  mkModel 0x2700000027 (-1)%Z 0x215be000215cc 0x215cc000215da;
  mkModel 0x2700000027 (9055)%Z 0x0 0x18000000182;
  mkModel 0x2700000027 (9056)%Z 0x0 0x18000000182;
  mkModel 0x62600000633 (9058)%Z 0x0 0x215df000215e7;
  mkModel 0x2700000027 (9059)%Z 0x0 0x18000000182;
  mkModel 0x2700000027 (-1)%Z 0x215e7000215f0 0x215f0000215f9;
  mkModel 0x2700000027 (9061)%Z 0x0 0x18000000182;
  mkModel 0x2700000027 (9062)%Z 0x0 0x18000000182;
  mkModel 0x2a1000002a7 (9063)%Z 0x0 0x18000000182;
  mkModel 0x23b0000023d (9064)%Z 0x0 0xe3400000e3c;
  mkModel 0x23b0000023d (9065)%Z 0x0 0x215fe0002160c;
  mkModel 0x23b0000023d (9066)%Z 0x0 0x18000000182;
  mkModel 0x23b0000023d (9067)%Z 0x0 0x18000000182;
  mkModel 0x0 (-1)%Z 0x0 0x18000000182;
  mkModel 0x2700000027 (9070)%Z 0x0 0x2161b00021624;
  mkModel 0x2700000027 (9071)%Z 0x0 0x500000005006;
  mkModel 0x2700000027 (9072)%Z 0x0 0x216240002162c;
  mkModel 0x2700000027 (9073)%Z 0x0 0x2162c00021632;
  mkModel 0x0 (-1)%Z 0x0 0x216470002164d;
  mkModel 0x0 (-1)%Z 0x0 0x18000000182;
  mkModel 0x2700000027 (-1)%Z 0x2165e00021665 0x216650002166c;
  mkModel 0x2700000027 (-1)%Z 0x2166c00021673 0x216730002167a;
  mkModel 0x2700000027 (9079)%Z 0x0 0x18000000182;
  mkModel 0x2700000027 (-1)%Z 0x2168200021689 0x2168200021689;
  mkModel 0x2700000027 (-1)%Z 0x216910002169b 0x2169b000216a5;
  mkModel 0x2a1000002a7 (9081)%Z 0x0 0x18000000182;
  mkModel 0x2a1000002a7 (9082)%Z 0x0 0x18000000182;
  mkModel 0x0 (-1)%Z 0x0 0x18000000182;
  mkModel 0x0 (-1)%Z 0x0 0x216b6000216bd;
  mkModel 0x2700000027 (9086)%Z 0x0 0x216c3000216cd;
  mkModel 0x2700000027 (-1)%Z 0x216cd000216d4 0x216d4000216dc;
  mkModel 0x0 (-1)%Z 0x0 0x18000000182;
  mkModel 0x2700000027 (-1)%Z 0x216e6000216f3 0x216e6000216f3;
  mkModel 0x2700000027 (-1)%Z 0x216f300021700 0x216f300021700;
  mkModel 0x2700000027 (-1)%Z 0x217000002170e 0x217000002170e;
  mkModel 0x2700000027 (9089)%Z 0x0 0x123aa000123b2;
  mkModel 0x2a1000002a7 (9090)%Z 0x0 0x2170e00021715;
  mkModel 0x2a1000002a7 (9091)%Z 0x0 0x217150002171d;
  mkModel 0x0 (-1)%Z 0x0 0x18000000182;
  mkModel 0x0 (-1)%Z 0x0 0x2172c00021735;
  mkModel 0x2700000027 (9095)%Z 0x0 0x217390002173e;
  mkModel 0x2700000027 (9097)%Z 0x0 0x217460002174c;
  mkModel 0x2700000027 (-1)%Z 0x2174c00021751 0x2174c00021751;
  mkModel 0x2700000027 (9098)%Z 0x0 0x217510002175a;
  mkModel 0x2700000027 (-1)%Z 0x2175a0002175e 0x2175a0002175e;
  mkModel 0x2700000027 (-1)%Z 0x2175e00021763 0x2176300021768;
  mkModel 0x2700000027 (-1)%Z 0x2176800021778 0x217780002177f;
  mkModel 0x2700000027 (9099)%Z 0x0 0x2177f00021786;
  mkModel 0x2700000027 (9100)%Z 0x0 0x500000005006;
  mkModel 0x2700000027 (9101)%Z 0x0 0x1940000019b;
  mkModel 0x2700000027 (9102)%Z 0x0 0x217860002178e;
  mkModel 0x2700000027 (-1)%Z 0x2178e00021796 0x2178e00021796;
  mkModel 0x2700000027 (9103)%Z 0x0 0x18000000182;
  mkModel 0x2700000027 (9104)%Z 0x0 0x18000000182;
  mkModel 0x2a1000002a7 (9105)%Z 0x0 0x217960002179f;
  mkModel 0x2a1000002a7 (-1)%Z 0x2179f000217a9 0x217a9000217b3;
  mkModel 0x0 (-1)%Z 0x0 0x18000000182;
  mkModel 0x2700000027 (9107)%Z 0x0 0x217c0000217ca;
  mkModel 0x2700000027 (-1)%Z 0x217d2000217d9 0x217d9000217e0;
  mkModel 0x2700000027 (9109)%Z 0x0 0x217e0000217ec;
  mkModel 0x2700000027 (9110)%Z 0x0 0x217ec000217f3;
  mkModel 0x2700000027 (-1)%Z 0x217f3000217fb 0x217fb00021806;
  mkModel 0x2700000027 (-1)%Z 0x218060002180f 0x2180f0002181e;
  mkModel 0x2700000027 (9111)%Z 0x0 0x2181e00021826;
  mkModel 0x2700000027 (-1)%Z 0x2182600021832 0x218320002183e;
  mkModel 0x2700000027 (9112)%Z 0x0 0x2183e00021849;
  mkModel 0x2700000027 (-1)%Z 0x2184900021850 0x747b00007485;
  mkModel 0x2700000027 (9113)%Z 0x0 0x2185000021857;
  mkModel 0x2700000027 (9114)%Z 0x0 0x2185700021861;
  mkModel 0x2700000027 (9115)%Z 0x0 0x218610002186b;
  mkModel 0x2700000027 (9116)%Z 0x0 0x2186b00021879;
  mkModel 0x2700000027 (9117)%Z 0x0 0x2187900021887;
  mkModel 0x2700000027 (9118)%Z 0x0 0x2188700021893;
  mkModel 0x2700000027 (-1)%Z 0x21893000218a0 0x21893000218a0;
  mkModel 0x2700000027 (9119)%Z 0x0 0x218a0000218b0;
  mkModel 0x2700000027 (9120)%Z 0x0 0x218b0000218bc;
  mkModel 0x2700000027 (9121)%Z 0x0 0x218bc000218c7;
  mkModel 0x2700000027 (9122)%Z 0x0 0x218c7000218d1;
  mkModel 0x2700000027 (9123)%Z 0x0 0x218d1000218d8;
  mkModel 0x2a1000002a7 (-1)%Z 0x218d8000218e0 0x218e0000218ec;
  mkModel 0x2a1000002a7 (9124)%Z 0x0 0x218ec000218f4;
  mkModel 0x2700000027 (9125)%Z 0x0 0x18000000182;
  mkModel 0x2700000027 (9126)%Z 0x0 0x18000000182;
  mkModel 0x0 (-1)%Z 0x0 0x1988a0001988e;
  mkModel 0x2700000027 (9128)%Z 0x0 0x62270000622d;
  mkModel 0x2700000027 (9130)%Z 0x0 0x4c4300004c49;
  mkModel 0x23f00000249 (-1)%Z 0x2190500021916 0x2191600021924;
  mkModel 0x23f00000249 (9131)%Z 0x0 0x19fb000019fb5;
  mkModel 0x2700000027 (9134)%Z 0x0 0x2193100021939;
  mkModel 0x2700000027 (9136)%Z 0x0 0x2193c00021944;
  mkModel 0x2700000027 (9137)%Z 0x0 0x2194400021949;
  mkModel 0x2700000027 (9138)%Z 0x0 0x219490002194e;
  mkModel 0x2700000027 (9139)%Z 0x0 0x133df000133e2;
  mkModel 0x2700000027 (9140)%Z 0x0 0x2194e00021957;
  mkModel 0x2700000027 (9141)%Z 0x0 0x219570002195a;
  mkModel 0x2700000027 (9142)%Z 0x0 0x2195a0002195d;
  mkModel 0x2700000027 (9143)%Z 0x0 0x2195d00021960;
  mkModel 0x2700000027 (9144)%Z 0x0 0x2196000021963;
  mkModel 0x2700000027 (9145)%Z 0x0 0x2196300021966;
  mkModel 0x2700000027 (9146)%Z 0x0 0x2196600021969;
  mkModel 0x2700000027 (9147)%Z 0x0 0x219690002196d;
  mkModel 0x2700000027 (9148)%Z 0x0 0x2196d00021970;
  mkModel 0x2700000027 (-1)%Z 0x2197000021975 0x2196300021966;
  mkModel 0x2700000027 (9149)%Z 0x0 0x2197500021978;
  mkModel 0x2700000027 (9150)%Z 0x0 0x219780002197b;
  mkModel 0x2700000027 (-1)%Z 0x2197b00021980 0x2198000021984;
  mkModel 0x2700000027 (-1)%Z 0x2198400021989 0x219890002198e;
  mkModel 0x2700000027 (9151)%Z 0x0 0x2198e00021991;
  mkModel 0x2700000027 (9152)%Z 0x0 0x2199100021994;
  mkModel 0x2700000027 (-1)%Z 0x2199400021999 0x219990002199c;
  mkModel 0x2700000027 (-1)%Z 0x2199c000219a1 0x219a1000219a6;
  mkModel 0x2700000027 (9153)%Z 0x0 0x219a6000219ab;
  mkModel 0x2700000027 (9154)%Z 0x0 0x219ab000219ae;
  mkModel 0x2700000027 (9155)%Z 0x0 0x219ae000219c6;
  mkModel 0x2700000027 (9156)%Z 0x0 0x219c6000219ce;
  mkModel 0x2700000027 (9157)%Z 0x0 0x219ce000219d1;
  mkModel 0x2700000027 (9158)%Z 0x0 0x219d1000219d4;
  mkModel 0x2700000027 (9159)%Z 0x0 0x219d4000219d7;
  mkModel 0x2700000027 (9160)%Z 0x0 0x219d7000219da;
  mkModel 0x2700000027 (9161)%Z 0x0 0x219da000219dc;
  mkModel 0x2700000027 (9162)%Z 0x0 0x193300001935;
  mkModel 0x2700000027 (9163)%Z 0x0 0x219dc000219df;
  mkModel 0x2700000027 (9164)%Z 0x0 0x19790000197c;
  mkModel 0x2700000027 (9165)%Z 0x0 0x712000007122;
  mkModel 0x2700000027 (9166)%Z 0x0 0x219df000219e1;
  mkModel 0x2700000027 (9167)%Z 0x0 0x6f7000006f72;
  mkModel 0x2700000027 (9168)%Z 0x0 0x219e1000219e3;
  mkModel 0x2700000027 (9169)%Z 0x0 0x1c0da0001c0e1;
  mkModel 0x2700000027 (9170)%Z 0x0 0x219e3000219e6;
  mkModel 0x2700000027 (9171)%Z 0x0 0x219e6000219e9;
  mkModel 0x2700000027 (9172)%Z 0x0 0x219e9000219ed;
  mkModel 0x2700000027 (9173)%Z 0x0 0x219ed000219f5;
  mkModel 0x2700000027 (9174)%Z 0x0 0x1453000014532;
  mkModel 0x2700000027 (9175)%Z 0x0 0x219f5000219fa;
  mkModel 0x2700000027 (9176)%Z 0x0 0x219fa000219fe;
  mkModel 0x2700000027 (9177)%Z 0x0 0xb7700000b777;
  mkModel 0x2700000027 (9178)%Z 0x0 0x219fe00021a03;
  mkModel 0x2700000027 (9179)%Z 0x0 0x21a0300021a0b;
  mkModel 0x2700000027 (9180)%Z 0x0 0x18000000182;
  mkModel 0x2700000027 (9181)%Z 0x0 0x18000000182;
  mkModel 0x2700000027 (9182)%Z 0x0 0x18000000182;
  mkModel 0x2700000027 (9183)%Z 0x0 0x21a0b00021a0d;
  mkModel 0x2700000027 (9184)%Z 0x0 0xf1030000f105;
  mkModel 0x2700000027 (9185)%Z 0x0 0x21a0d00021a10;
  mkModel 0x2700000027 (9186)%Z 0x0 0x21a1000021a15;
  mkModel 0x2700000027 (9187)%Z 0x0 0x21a1500021a1d;
  mkModel 0x2700000027 (9188)%Z 0x0 0x21a1d00021a25;
  mkModel 0x2700000027 (9189)%Z 0x0 0xca1b0000ca20;
  mkModel 0x2700000027 (9190)%Z 0x0 0x21a2500021a2d;
  mkModel 0x2700000027 (9191)%Z 0x0 0x21a2d00021a30;
  mkModel 0x2700000027 (9192)%Z 0x0 0x21a3000021a35;
  mkModel 0x2700000027 (9193)%Z 0x0 0x21a3500021a3a;
  mkModel 0x2700000027 (9194)%Z 0x0 0x21a3a00021a3e;
  mkModel 0x2700000027 (9195)%Z 0x0 0x21a3e00021a43;
  mkModel 0x2700000027 (-1)%Z 0x21a4300021a48 0x21a4800021a4d;
  mkModel 0x2700000027 (9196)%Z 0x0 0x21a4d00021a50;
  mkModel 0x2700000027 (-1)%Z 0x21a5000021a55 0x21a5500021a57;
  mkModel 0x2700000027 (9197)%Z 0x0 0x21a5700021a5b;
  mkModel 0x2700000027 (9198)%Z 0x0 0x21a5b00021a62;
  mkModel 0x2700000027 (-1)%Z 0x21a6200021a68 0x21a6800021a6c;
  mkModel 0x2700000027 (9199)%Z 0x0 0x21a6c00021a71
].
Definition d_dr_dm_60 : list modelTuple := [
  mkModel 0x2700000027 (9200)%Z 0x0 0x21a7100021a79;
  mkModel 0x2700000027 (9201)%Z 0x0 0x21a7900021a7e;
  mkModel 0x2700000027 (9202)%Z 0x0 0x21a7e00021a84;
  mkModel 0x2700000027 (9203)%Z 0x0 0x21a8400021a87;
  mkModel 0x2700000027 (9204)%Z 0x0 0x21a8700021a8c;
  mkModel 0x2700000027 (9205)%Z 0x0 0x21a8c00021a91;
  mkModel 0x2700000027 (9206)%Z 0x0 0x21a9100021a9a;
  mkModel 0x2700000027 (9207)%Z 0x0 0xbf2f0000bf35;
  mkModel 0x2700000027 (9208)%Z 0x0 0x21a9a00021aa0;
  mkModel 0x2700000027 (9209)%Z 0x0 0x21aa000021aa5;
  mkModel 0xdfd00000e04 (9210)%Z 0x0 0x21aa500021ab0;
  mkModel 0xdfd00000e04 (9211)%Z 0x0 0x21ab000021ac2;
  mkModel 0xdfd00000e04 (9212)%Z 0x0 0x21ac200021ad0;
  mkModel 0x2a1000002a7 (-1)%Z 0x21ad000021ad5 0x21ad500021ae4;
  mkModel 0x2a1000002a7 (-1)%Z 0x21ae400021ae9 0x21ae900021af7;
  mkModel 0x2a1000002a7 (-1)%Z 0x21af700021afc 0x21afc00021b07;
  mkModel 0x2a1000002a7 (-1)%Z 0x21b0700021b0d 0x21b0d00021b18;
  mkModel 0x2a1000002a7 (9213)%Z 0x0 0x21b1800021b20;
  mkModel 0x2a1000002a7 (9214)%Z 0x0 0x21b2000021b29;
  mkModel 0x2a1000002a7 (-1)%Z 0x21b2900021b2e 0x21b2e00021b34;
  mkModel 0x2a1000002a7 (-1)%Z 0x21b3400021b39 0x21b3900021b41;
  mkModel 0x2a1000002a7 (-1)%Z 0x21b4100021b46 0x21b4600021b52;
  mkModel 0x2a1000002a7 (-1)%Z 0x21b5200021b57 0x21b5700021b65;
  mkModel 0x2a1000002a7 (-1)%Z 0x21b6500021b6a 0x21b6a00021b73;
  mkModel 0x2a1000002a7 (9215)%Z 0x0 0x21b7300021b7d;
  mkModel 0x2a1000002a7 (9216)%Z 0x0 0x996100009967;
  mkModel 0x2a1000002a7 (9217)%Z 0x0 0x21b7d00021b86;
  mkModel 0x2a1000002a7 (9218)%Z 0x0 0x21b8600021b8d;
  mkModel 0x2a1000002a7 (9219)%Z 0x0 0x21b8d00021ba0;
  mkModel 0x2a1000002a7 (9220)%Z 0x0 0x21ba000021bb2;
  mkModel 0x2a1000002a7 (9221)%Z 0x0 0x21bb200021bbc;
  mkModel 0x2a1000002a7 (9222)%Z 0x0 0x21bbc00021bc7;
  mkModel 0x2a1000002a7 (9223)%Z 0x0 0x21bc700021bd3;
  mkModel 0x2a1000002a7 (9224)%Z 0x0 0x21bd300021be0;
  mkModel 0x2a1000002a7 (9225)%Z 0x0 0x21be000021bec;
  mkModel 0x2a1000002a7 (-1)%Z 0x21bec00021bf1 0x21bf100021bf9;
  mkModel 0x2a1000002a7 (-1)%Z 0x21bf900021bfe 0x21bfe00021c08;
  mkModel 0x2a1000002a7 (-1)%Z 0x21c0800021c0d 0x21c0d00021c14;
  mkModel 0x2a1000002a7 (-1)%Z 0x21c1400021c19 0x21c1900021c23;
  mkModel 0x23b0000023d (9226)%Z 0x0 0x18000000182;
  mkModel 0x23b0000023d (9227)%Z 0x0 0x21c2300021c2f;
  mkModel 0x23b0000023d (9228)%Z 0x0 0x18000000182;
  mkModel 0x2700000027 (9229)%Z 0x0 0x21c2f00021c3e;
  mkModel 0x23b0000023d (-1)%Z 0x21c3e00021c56 0x21c5600021c5c;
  mkModel 0x23b0000023d (9230)%Z 0x0 0x21c5c00021c73;
  mkModel 0x23b0000023d (9231)%Z 0x0 0x21c7300021c85;
  mkModel 0x23b0000023d (9232)%Z 0x0 0x21c8500021c96;
  mkModel 0x23b0000023d (9233)%Z 0x0 0x21c9600021ca7;
  mkModel 0x23b0000023d (9234)%Z 0x0 0x18000000182;
  mkModel 0x0 (-1)%Z 0x0 0x18000000182;
  mkModel 0x2700000027 (-1)%Z 0x21cb800021cc0 0x21cc000021cc6;
  mkModel 0x2700000027 (-1)%Z 0x21cc600021cce 0xd2920000d295;
  mkModel 0x2700000027 (-1)%Z 0x21cce00021cd6 0x11afe00011b01;
  mkModel 0x2700000027 (-1)%Z 0x21cdf00021ce6 0x21ce600021cee;
  mkModel 0x2700000027 (9238)%Z 0x0 0x18000000182;
  mkModel 0x2700000027 (9239)%Z 0x0 0x18000000182;
  mkModel 0x0 (-1)%Z 0x0 0x18000000182;
  mkModel 0x0 (-1)%Z 0x0 0x18000000182;
  mkModel 0x2700000027 (9242)%Z 0x0 0x18000000182;
  mkModel 0x2700000027 (9243)%Z 0x0 0x18000000182;
  mkModel 0x0 (-1)%Z 0x0 0x62270000622d;
  mkModel 0x0 (-1)%Z 0x0 0x21d1000021d1f;
  mkModel 0x0 (-1)%Z 0x0 0x18000000182;
  mkModel 0x2700000027 (9248)%Z 0x0 0x18000000182;
  mkModel 0x0 (-1)%Z 0x0 0x18000000182;
  mkModel 0x0 (-1)%Z 0x0 0x18000000182;
  mkModel 0x2700000027 (9252)%Z 0x0 0x18000000182;
  mkModel 0x2700000027 (9254)%Z 0x0 0x18000000182;
  mkModel 0x2700000027 (9255)%Z 0x0 0x21d4300021d47;
  mkModel 0x0 (-1)%Z 0x0 0x1c8600001c87;
  mkModel 0x0 (-1)%Z 0x0 0x18000000182;
  mkModel 0x0 (-1)%Z 0x0 0x21d6300021d69;
  mkModel 0x2700000027 (9257)%Z 0x0 0x21d6f00021d73;
  mkModel 0x0 (-1)%Z 0x0 0xe3400000e3c;
  mkModel 0x0 (-1)%Z 0x0 0x21d7600021d84;
  mkModel 0x2700000027 (9261)%Z 0x0 0x21d8700021d92;
  mkModel 0x2700000027 (9262)%Z 0x0 0x21d9200021d9c;
  mkModel 0x2a1000002a7 (9263)%Z 0x0 0x21d9200021d9c;
  mkModel 0x2a1000002a7 (9265)%Z 0x0 0x21dab00021db5;
  mkModel 0x2700000027 (9266)%Z 0x0 0x18000000182;
  mkModel 0x2700000027 (-1)%Z 0x21db500021dba 0x21dba00021dbf;
  mkModel 0x0 (-1)%Z 0x0 0x18000000182;
  mkModel 0x0 (-1)%Z 0x0 0x21dce00021dda;
  mkModel 0x0 (-1)%Z 0x0 0x18000000182;
  mkModel 0x0 (-1)%Z 0x0 0x18000000182;
  mkModel 0x0 (-1)%Z 0x0 0x18000000182;
  mkModel 0x2700000027 (9273)%Z 0x0 0x21df000021df5;
  mkModel 0x2700000027 (9274)%Z 0x0 0x18000000182;
  mkModel 0x2700000027 (9275)%Z 0x0 0x21df500021dfd;
  mkModel 0x2700000027 (-1)%Z 0x21dfd00021e04 0x21dfd00021e04;
  mkModel 0x2700000027 (9276)%Z 0x0 0x21e0400021e0c;
  mkModel 0x2700000027 (9278)%Z 0x0 0x18000000182;
  mkModel 0x0 (-1)%Z 0x0 0x21e1c00021e24;
  mkModel 0x2700000027 (-1)%Z 0x21e2b00021e30 0x21e2b00021e30;
  mkModel 0x2700000027 (-1)%Z 0x21e3000021e3b 0x21e3b00021e3f;
  mkModel 0x2700000027 (-1)%Z 0x21e3f00021e4b 0x21e4b00021e4f;
  mkModel 0x2700000027 (9281)%Z 0x0 0x18000000182;
  mkModel 0x2700000027 (9282)%Z 0x0 0x21e4f00021e52;
  mkModel 0x2700000027 (-1)%Z 0x21e5200021e57 0x21e5700021e5c;
  mkModel 0x2700000027 (9283)%Z 0x0 0x18000000182;
  mkModel 0x2700000027 (9284)%Z 0x0 0x21e5c00021e63;
  mkModel 0x2700000027 (9285)%Z 0x0 0x21e5c00021e63;
  mkModel 0x23f00000249 (9286)%Z 0x0 0x21e6300021e68;
  mkModel 0x23f00000249 (-1)%Z 0x21e6800021e6e 0x21e6e00021e75;
  mkModel 0x23f00000249 (9287)%Z 0x0 0x21e7500021e7f;
  mkModel 0x39a000003a7 (-1)%Z 0x21e7f00021e94 0x21e9400021ea0;
  mkModel 0x23f00000249 (9288)%Z 0x0 0x18000000182;
  mkModel 0x2700000027 (9290)%Z 0x0 0x21ea800021eb4;
  mkModel 0x0 (-1)%Z 0x0 0x21ebd00021eca;
  mkModel 0x2700000027 (9293)%Z 0x0 0x21ed200021edd;
  mkModel 0x2700000027 (9294)%Z 0x0 0x21edd00021eec;
  mkModel 0x0 (-1)%Z 0x0 0x21ef500021efe;
  mkModel 0x2700000027 (9297)%Z 0x0 0x21f0d00021f15;
  mkModel 0x2700000027 (9298)%Z 0x0 0x21f1500021f18;
  mkModel 0x2700000027 (9299)%Z 0x0 0x21f1800021f1b;
  mkModel 0x2700000027 (9300)%Z 0x0 0x1c2330001c236;
  mkModel 0x2700000027 (9301)%Z 0x0 0x21f1b00021f1d;
  mkModel 0x2700000027 (9302)%Z 0x0 0x21f1d00021f21;
  mkModel 0x2700000027 (9303)%Z 0x0 0x21f2100021f26;
  mkModel 0x2700000027 (-1)%Z 0x21f2600021f2b 0x21f2600021f2b;
  mkModel 0x2700000027 (-1)%Z 0x21f2b00021f2f 0x21f2b00021f2f;
  mkModel 0x2700000027 (-1)%Z 0x21f2f00021f36 0x21f3600021f3e;
  mkModel 0x2700000027 (9304)%Z 0x0 0x21f3e00021f46;
  mkModel 0x2700000027 (-1)%Z 0x21f4600021f4d 0x21f4d00021f55;
  mkModel 0x2700000027 (9305)%Z 0x0 0x21f5500021f5f;
  mkModel 0x2700000027 (-1)%Z 0x21f5f00021f69 0x21f6900021f78;
  mkModel 0x2700000027 (9306)%Z 0x0 0x2a7200002a75;
  mkModel 0x2700000027 (-1)%Z 0x21f7800021f7c 0x21f7800021f7c;
  mkModel 0x2700000027 (9307)%Z 0x0 0x1062e00010631;
  mkModel 0x2700000027 (-1)%Z 0x21f7c00021f81 0x21f7c00021f81;
  mkModel 0x2700000027 (-1)%Z 0x21f8100021f86 0x21f8100021f86;
  mkModel 0x2700000027 (9308)%Z 0x0 0x1236200012369;
  mkModel 0x2700000027 (-1)%Z 0xb0260000b02d 0xb0260000b02d;
  mkModel 0x2700000027 (-1)%Z 0x21f8600021f8c 0x21f8c00021f92;
  mkModel 0x2700000027 (-1)%Z 0x21f9200021f99 0x21f9200021f99;
  mkModel 0x2700000027 (-1)%Z 0x21f9900021f9f 0x21f9f00021fa5;
  mkModel 0x2700000027 (-1)%Z 0x21fa500021fab 0x21fab00021fae;
  mkModel 0x2700000027 (-1)%Z 0x21fae00021fb4 0x21fb400021fbb;
  mkModel 0x2700000027 (9309)%Z 0x0 0x11afe00011b01;
  mkModel 0x2700000027 (-1)%Z 0x21fbb00021fc0 0x21fc000021fc6;
  mkModel 0x2700000027 (9310)%Z 0x0 0x21fc600021fcd;
  mkModel 0x2700000027 (-1)%Z 0x21fcd00021fd4 0x21fd400021fdc;
  mkModel 0x2700000027 (9311)%Z 0x0 0x21fdc00021fe4;
  mkModel 0x2700000027 (9312)%Z 0x0 0x21fe400021fe8;
  mkModel 0x2700000027 (9313)%Z 0x0 0x21fe800021fef;
  mkModel 0x2700000027 (-1)%Z 0x21fef00021ff6 0x21fef00021ff6;
  mkModel 0x2700000027 (-1)%Z 0x21ff600021ffc 0x21ffc00021fff;
  mkModel 0x2700000027 (9314)%Z 0x0 0x21fff00022007;
  mkModel 0x2700000027 (9315)%Z 0x0 0x220070002200c;
  mkModel 0x2700000027 (9316)%Z 0x0 0x2200c00022011;
  mkModel 0x2700000027 (-1)%Z 0x2201100022019 0x2201900022020;
  mkModel 0x2700000027 (9317)%Z 0x0 0x2202000022024;
  mkModel 0x2700000027 (-1)%Z 0x220240002202d 0x2202d00022038;
  mkModel 0x2700000027 (9318)%Z 0x0 0x18000000182;
  mkModel 0x2700000027 (-1)%Z 0x220380002203c 0x220380002203c;
  mkModel 0x2700000027 (-1)%Z 0x2203c00022042 0x2204200022049;
  mkModel 0x2700000027 (9319)%Z 0x0 0x2204900022059;
  mkModel 0x2700000027 (9320)%Z 0x0 0x2205900022062;
  mkModel 0x2700000027 (9321)%Z 0x0 0x220620002206d;
  mkModel 0x2700000027 (9322)%Z 0x0 0x2206d00022077;
  mkModel 0x2700000027 (9323)%Z 0x0 0x18000000182;
  mkModel 0x2700000027 (-1)%Z 0x2208300022090 0x220900002209e;
  mkModel 0x2700000027 (-1)%Z 0x2209e000220a7 0x220a7000220b1;
  mkModel 0x2700000027 (9325)%Z 0x0 0x220b1000220bb;
  mkModel 0x2700000027 (9326)%Z 0x0 0x220bb000220c5;
  mkModel 0x2700000027 (9327)%Z 0x0 0x220c5000220d3;
  mkModel 0x2700000027 (9328)%Z 0x0 0x220d3000220dc;
  mkModel 0x2700000027 (9329)%Z 0x0 0x220dc000220ea;
  mkModel 0x2700000027 (9330)%Z 0x0 0x220ea000220fa;
  mkModel 0x2700000027 (9331)%Z 0x0 0x220fa00022108;
  mkModel 0x2700000027 (9332)%Z 0x0 0x2210800022117;
  mkModel 0x2700000027 (9333)%Z 0x0 0x2211700022120;
  mkModel 0x2700000027 (9334)%Z 0x0 0x2212000022129;
  mkModel 0x2700000027 (-1)%Z 0x2212900022135 0x221350002213c;
  mkModel 0x2700000027 (-1)%Z 0x2213c00022144 0x2214400022146;
  mkModel 0x2700000027 (9335)%Z 0x0 0x221460002214c;
  mkModel 0x2700000027 (9336)%Z 0x0 0x2214c00022153;
  mkModel 0x2700000027 (9337)%Z 0x0 0x221530002215e;
  mkModel 0x2700000027 (9338)%Z 0x0 0x2215e0002216b;
  mkModel 0x2700000027 (9339)%Z 0x0 0x2216b00022177;
  mkModel 0x2700000027 (9340)%Z 0x0 0x2217700022180;
  mkModel 0x2700000027 (9341)%Z 0x0 0x2218000022188;
  mkModel 0x2700000027 (9342)%Z 0x0 0x2218800022196;
  mkModel 0x2700000027 (9343)%Z 0x0 0x22196000221a0;
  mkModel 0x2700000027 (9344)%Z 0x0 0x221a0000221ac;
  mkModel 0x2700000027 (9345)%Z 0x0 0x221ac000221b8;
  mkModel 0x2a1000002a7 (9346)%Z 0x0 0x221b8000221c3;
  mkModel 0x2a1000002a7 (9347)%Z 0x0 0x221c3000221ce;
  mkModel 0x2a1000002a7 (9348)%Z 0x0 0x221ce000221dd;
  mkModel 0x2a1000002a7 (9349)%Z 0x0 0x221dd000221e8;
  mkModel 0x2a1000002a7 (9350)%Z 0x0 0x221e8000221f3;
  mkModel 0x2a1000002a7 (9351)%Z 0x0 0x221f300022203;
  mkModel 0x2a1000002a7 (9352)%Z 0x0 0x2220300022212;
  mkModel 0x2a1000002a7 (9353)%Z 0x0 0x222120002221d;
  mkModel 0x2700000027 (9354)%Z 0x0 0x2221d00022220;
  mkModel 0x2700000027 (9355)%Z 0x0 0x2222000022228;
  mkModel 0x2700000027 (9356)%Z 0x0 0x2222800022230;
  mkModel 0x2700000027 (9357)%Z 0x0 0x2223000022238;
  mkModel 0x2700000027 (9358)%Z 0x0 0x2223800022244;
  mkModel 0x2700000027 (9359)%Z 0x0 0x222440002224c
].
Definition d_dr_dm_61 : list modelTuple := [
  mkModel 0x2700000027 (9360)%Z 0x0 0x2224c00022258;
  mkModel 0x2700000027 (9361)%Z 0x0 0x2225800022264;
  mkModel 0x2700000027 (9362)%Z 0x0 0x222640002226c;
  mkModel 0x2700000027 (9363)%Z 0x0 0x2226c00022278;
  mkModel 0x2700000027 (9364)%Z 0x0 0x2227800022288;
  mkModel 0x2700000027 (9365)%Z 0x0 0x2228800022294;
  mkModel 0x2700000027 (9366)%Z 0x0 0x222940002229c;
  mkModel 0x2700000027 (9367)%Z 0x0 0x2229c000222ac;
  mkModel 0x2700000027 (9368)%Z 0x0 0x222ac000222b8;
  mkModel 0x2700000027 (9369)%Z 0x0 0x222b8000222c2;
  mkModel 0x2700000027 (9370)%Z 0x0 0x222c2000222cd;
  mkModel 0x2700000027 (9371)%Z 0x0 0x222cd000222d5;
  mkModel 0x2700000027 (9372)%Z 0x0 0x222d5000222e1;
  mkModel 0x2700000027 (9373)%Z 0x0 0x222e1000222ea;
  mkModel 0x2700000027 (9374)%Z 0x0 0x222ea000222fa;
  mkModel 0x2700000027 (9375)%Z 0x0 0x222fa00022302;
  mkModel 0x2700000027 (9376)%Z 0x0 0x223020002230b;
  mkModel 0x2700000027 (9377)%Z 0x0 0x2230b00022313;
  mkModel 0x2700000027 (9378)%Z 0x0 0x223130002231f;
  mkModel 0x2700000027 (9379)%Z 0x0 0x2231f0002232b;
  mkModel 0x2700000027 (9380)%Z 0x0 0x2232b0002233a;
  mkModel 0x2700000027 (9381)%Z 0x0 0x2233a00022346;
  mkModel 0x2700000027 (9382)%Z 0x0 0x223460002234e;
  mkModel 0x2700000027 (9383)%Z 0x0 0x2234e0002235d;
  mkModel 0x2700000027 (9384)%Z 0x0 0x2235d0002236d;
  mkModel 0x2700000027 (9385)%Z 0x0 0x2236d00022380;
  mkModel 0x2700000027 (9386)%Z 0x0 0x2238000022388;
  mkModel 0x2700000027 (9387)%Z 0x0 0x223880002239b;
  mkModel 0x2700000027 (9388)%Z 0x0 0x2239b000223a6;
  mkModel 0x2700000027 (9389)%Z 0x0 0x223a6000223b5;
  mkModel 0x2700000027 (9390)%Z 0x0 0x223b5000223c2;
  mkModel 0x2700000027 (9391)%Z 0x0 0x223c2000223cb;
  mkModel 0x2700000027 (9392)%Z 0x0 0x223cb000223d3;
  mkModel 0x2700000027 (9393)%Z 0x0 0x223d3000223df;
  mkModel 0x2700000027 (9394)%Z 0x0 0x223df000223f2;
  mkModel 0x2700000027 (9395)%Z 0x0 0x223f2000223fa;
  mkModel 0x2700000027 (9396)%Z 0x0 0x223fa00022401;
  mkModel 0x2700000027 (9397)%Z 0x0 0x224010002240c;
  mkModel 0x2700000027 (9398)%Z 0x0 0x2240c00022414;
  mkModel 0x2700000027 (9399)%Z 0x0 0x2241400022420;
  mkModel 0x2700000027 (9400)%Z 0x0 0x2242000022425;
  mkModel 0x2700000027 (9401)%Z 0x0 0x224250002242a;
  mkModel 0x2700000027 (9402)%Z 0x0 0x2242a00022434;
  mkModel 0x2700000027 (9403)%Z 0x0 0x224340002243a;
  mkModel 0x2700000027 (9404)%Z 0x0 0x2243a00022440;
  mkModel 0x2700000027 (9405)%Z 0x0 0x224400002244a;
  mkModel 0x2700000027 (9406)%Z 0x0 0x2244a00022454;
  mkModel 0x2700000027 (9407)%Z 0x0 0x224540002245f;
  mkModel 0x2700000027 (9408)%Z 0x0 0x2245f0002246a;
  mkModel 0x2700000027 (9409)%Z 0x0 0x2246a00022474;
  mkModel 0x2700000027 (9410)%Z 0x0 0x224740002247a;
  mkModel 0x2700000027 (9411)%Z 0x0 0x224340002243a;
  mkModel 0x2700000027 (9412)%Z 0x0 0x2247a00022483;
  mkModel 0x2700000027 (9413)%Z 0x0 0x2248300022488;
  mkModel 0x2700000027 (9414)%Z 0x0 0x2248800022492;
  mkModel 0x2700000027 (9415)%Z 0x0 0x2249200022497;
  mkModel 0x2700000027 (9416)%Z 0x0 0x22497000224a0;
  mkModel 0x2700000027 (9417)%Z 0x0 0x224a0000224a9;
  mkModel 0x2700000027 (9418)%Z 0x0 0x224a9000224b2;
  mkModel 0x2700000027 (9419)%Z 0x0 0x224b2000224b7;
  mkModel 0x2700000027 (9420)%Z 0x0 0x224b7000224bd;
  mkModel 0x2700000027 (9421)%Z 0x0 0x224bd000224c5;
  mkModel 0x2700000027 (9422)%Z 0x0 0x224c5000224cb;
  mkModel 0x2700000027 (9423)%Z 0x0 0x224cb000224d4;
  mkModel 0x2700000027 (9424)%Z 0x0 0x224d4000224dd;
  mkModel 0x2700000027 (9425)%Z 0x0 0x224dd000224e3;
  mkModel 0x2700000027 (9426)%Z 0x0 0x224e3000224e8;
  mkModel 0x2700000027 (9427)%Z 0x0 0x224e8000224f0;
  mkModel 0x2700000027 (9428)%Z 0x0 0x224f0000224f9;
  mkModel 0x2700000027 (9429)%Z 0x0 0x224f9000224fe;
  mkModel 0x2700000027 (9430)%Z 0x0 0x224fe00022507;
  mkModel 0x2700000027 (9431)%Z 0x0 0x225070002250c;
  mkModel 0x2700000027 (9432)%Z 0x0 0x2250c00022511;
  mkModel 0x2700000027 (9433)%Z 0x0 0x2251100022519;
  mkModel 0x2700000027 (9434)%Z 0x0 0x2251900022521;
  mkModel 0x2700000027 (9435)%Z 0x0 0x2252100022530;
  mkModel 0x2700000027 (9436)%Z 0x0 0x225300002253f;
  mkModel 0x2700000027 (9437)%Z 0x0 0x2253f0002254e;
  mkModel 0x2700000027 (9438)%Z 0x0 0x2254e00022556;
  mkModel 0x2700000027 (9439)%Z 0x0 0x225560002255f;
  mkModel 0x2700000027 (9440)%Z 0x0 0x2255f0002256b;
  mkModel 0x2700000027 (9441)%Z 0x0 0x2256b0002257a;
  mkModel 0x2700000027 (9442)%Z 0x0 0x2257a00022587;
  mkModel 0x2700000027 (9443)%Z 0x0 0xc0560000c05d;
  mkModel 0x2700000027 (9444)%Z 0x0 0x2258700022594;
  mkModel 0x2700000027 (9445)%Z 0x0 0x225940002259b;
  mkModel 0x2700000027 (9446)%Z 0x0 0x2259b000225a6;
  mkModel 0x2700000027 (9447)%Z 0x0 0x225a6000225ad;
  mkModel 0x2700000027 (9448)%Z 0x0 0x225ad000225b8;
  mkModel 0x2700000027 (9449)%Z 0x0 0x225b8000225c4;
  mkModel 0x2700000027 (9450)%Z 0x0 0x225c4000225cf;
  mkModel 0x2700000027 (9451)%Z 0x0 0x225cf000225d6;
  mkModel 0x2700000027 (9452)%Z 0x0 0x225d6000225e1;
  mkModel 0x2700000027 (9453)%Z 0x0 0x225e1000225e8;
  mkModel 0x2700000027 (9454)%Z 0x0 0x225e8000225f3;
  mkModel 0x2700000027 (9455)%Z 0x0 0x225f3000225fd;
  mkModel 0x2700000027 (9456)%Z 0x0 0x225fd00022604;
  mkModel 0x2700000027 (9457)%Z 0x0 0x226040002260f;
  mkModel 0x2700000027 (9458)%Z 0x0 0x2260f00022617;
  mkModel 0x2700000027 (9459)%Z 0x0 0x226170002261f;
  mkModel 0x2700000027 (9460)%Z 0x0 0x2261f00022626;
  mkModel 0x2700000027 (9461)%Z 0x0 0x226260002262e;
  mkModel 0x2700000027 (9462)%Z 0x0 0x2262e00022636;
  mkModel 0x2700000027 (9463)%Z 0x0 0x226360002263e;
  mkModel 0x2700000027 (9464)%Z 0x0 0x2263e00022649;
  mkModel 0x2700000027 (9465)%Z 0x0 0x2264900022654;
  mkModel 0x2700000027 (9466)%Z 0x0 0x226540002265b;
  mkModel 0x2700000027 (9467)%Z 0x0 0x2265b00022663;
  mkModel 0x2700000027 (9468)%Z 0x0 0x226630002266c;
  mkModel 0x2700000027 (9469)%Z 0x0 0x2266c00022674;
  mkModel 0x2700000027 (9470)%Z 0x0 0x226740002267f;
  mkModel 0x2700000027 (9471)%Z 0x0 0x2267f0002268b;
  mkModel 0x2700000027 (9472)%Z 0x0 0x2268b00022693;
  mkModel 0x2700000027 (9473)%Z 0x0 0x22693000226a2;
  mkModel 0x2700000027 (9474)%Z 0x0 0x2252100022530;
  mkModel 0x2700000027 (9475)%Z 0x0 0x226a2000226ad;
  mkModel 0x2700000027 (9476)%Z 0x0 0x226ad000226b6;
  mkModel 0x2700000027 (9477)%Z 0x0 0x226b6000226be;
  mkModel 0x2700000027 (9478)%Z 0x0 0x226be000226ca;
  mkModel 0x2700000027 (9479)%Z 0x0 0x226ca000226d3;
  mkModel 0x2700000027 (9480)%Z 0x0 0x226d3000226dd;
  mkModel 0x2700000027 (9481)%Z 0x0 0x226dd000226e8;
  mkModel 0x2700000027 (9482)%Z 0x0 0x226e8000226f0;
  mkModel 0x2a1000002a7 (9483)%Z 0x0 0x222120002221d;
  mkModel 0x2a1000002a7 (9484)%Z 0x0 0x226f0000226fb;
  mkModel 0x2700000027 (9485)%Z 0x0 0x226fb00022708;
  mkModel 0x2700000027 (9486)%Z 0x0 0x2270800022711;
  mkModel 0x2700000027 (9487)%Z 0x0 0x227110002271a;
  mkModel 0x2700000027 (9488)%Z 0x0 0x2271a00022723;
  mkModel 0x2700000027 (9489)%Z 0x0 0x2272300022730;
  mkModel 0x2700000027 (9490)%Z 0x0 0x227300002273e;
  mkModel 0x2700000027 (9491)%Z 0x0 0x2273e00022747;
  mkModel 0x2700000027 (9492)%Z 0x0 0x2274700022754;
  mkModel 0x2700000027 (9493)%Z 0x0 0x227540002275b;
  mkModel 0x2700000027 (9494)%Z 0x0 0x2275b00022760;
  mkModel 0x2700000027 (9495)%Z 0x0 0x2276000022766;
  mkModel 0x2700000027 (9496)%Z 0x0 0x227660002276d;
  mkModel 0xdfd00000e04 (-1)%Z 0x2276d00022775 0x403d0000403f;
  mkModel 0xdfd00000e04 (9497)%Z 0x0 0x2277500022779;
  mkModel 0xdfd00000e04 (9498)%Z 0x0 0x2277900022781;
  mkModel 0xdfd00000e04 (9499)%Z 0x0 0x227810002278b;
  mkModel 0xdfd00000e04 (9500)%Z 0x0 0x2278b00022795;
  mkModel 0xdfd00000e04 (9501)%Z 0x0 0x22795000227a0;
  mkModel 0xdfd00000e04 (9502)%Z 0x0 0x227a0000227a6;
  mkModel 0xdfd00000e04 (9503)%Z 0x0 0x227a6000227ac;
  mkModel 0xdfd00000e04 (9504)%Z 0x0 0x227ac000227b3;
  mkModel 0xdfd00000e04 (9505)%Z 0x0 0x227b3000227b9;
  mkModel 0xdfd00000e04 (9506)%Z 0x0 0x227b9000227c3;
  mkModel 0xdfd00000e04 (9507)%Z 0x0 0x227c3000227c9;
  mkModel 0xdfd00000e04 (9508)%Z 0x0 0x227c9000227d6;
  mkModel 0xdfd00000e04 (9509)%Z 0x0 0x227d6000227e3;
  mkModel 0xdfd00000e04 (9510)%Z 0x0 0x227e3000227e9;
  mkModel 0xdfd00000e04 (9511)%Z 0x0 0x227e9000227f3;
  mkModel 0xdfd00000e04 (9512)%Z 0x0 0x227f300022800;
  mkModel 0x2700000027 (9513)%Z 0x0 0x168e8000168ee;
  mkModel 0x2700000027 (9514)%Z 0x0 0x2280000022807;
  mkModel 0x39a000003a7 (9515)%Z 0x0 0x18000000182;
  mkModel 0x2a1000002a7 (9516)%Z 0x0 0x2280700022811;
  mkModel 0x2700000027 (9517)%Z 0x0 0x18000000182;
  mkModel 0x2700000027 (9518)%Z 0x0 0x18000000182;
  mkModel 0x2700000027 (-1)%Z 0x2281800022827 0x228270002282e;
  mkModel 0x2700000027 (9520)%Z 0x0 0x2282e00022836;
  mkModel 0x2700000027 (9522)%Z 0x0 0x582c0000582e;
  mkModel 0x2700000027 (9523)%Z 0x0 0x2283b00022841;
  mkModel 0x2700000027 (9524)%Z 0x0 0x2284100022849;
  mkModel 0x2700000027 (9525)%Z 0x0 0x18000000182;
  mkModel 0x2700000027 (9526)%Z 0x0 0x18000000182;
  mkModel 0x2700000027 (-1)%Z 0x228530002285f 0x2285f0002286c;
  mkModel 0x2700000027 (9528)%Z 0x0 0x2286c00022872;
  mkModel 0x23f00000249 (-1)%Z 0x228720002287a 0x2287a00022883;
  mkModel 0x23f00000249 (-1)%Z 0x228830002288b 0x2288b00022893;
  mkModel 0x23f00000249 (-1)%Z 0x228930002289e 0x2289e000228a9;
  mkModel 0x23f00000249 (-1)%Z 0x228a9000228b1 0x228b1000228b9;
  mkModel 0x23f00000249 (9529)%Z 0x0 0x18000000182;
  mkModel 0x2700000027 (9530)%Z 0x0 0x18000000182;
  mkModel 0x23b0000023d (9531)%Z 0x0 0x18000000182;
  mkModel 0x23b0000023d (9532)%Z 0x0 0x2700000027;
  mkModel 0x2700000027 (-1)%Z 0x228bf000228ca 0x228ca000228ce;
  mkModel 0x2700000027 (-1)%Z 0x228ce000228d9 0x228d9000228de;
  mkModel 0x2700000027 (-1)%Z 0x228de000228e8 0x228e8000228f3;
  mkModel 0x2700000027 (9534)%Z 0x0 0x18000000182;
  mkModel 0x2700000027 (9536)%Z 0x0 0x18000000182;
  mkModel 0x2700000027 (9537)%Z 0x0 0x13b1200013b1d;
  mkModel 0x2700000027 (-1)%Z 0x228ff00022905 0x2290500022912;
  mkModel 0x2700000027 (-1)%Z 0x229120002291b 0x62270000622d;
  mkModel 0x2700000027 (9538)%Z 0x0 0x18000000182;
  mkModel 0x2700000027 (9539)%Z 0x0 0x18000000182;
  mkModel 0x0 (-1)%Z 0x0 0x18000000182;
  mkModel 0x2700000027 (-1)%Z 0x2292b00022931 0x2293100022937;
  mkModel 0x2700000027 (-1)%Z 0x2293c0002294b 0x2294b00022954;
  mkModel 0x2700000027 (9542)%Z 0x0 0x229540002295e;
  mkModel 0x2700000027 (-1)%Z 0x2295e00022963 0x2296300022969;
  mkModel 0x2700000027 (-1)%Z 0x2296900022972 0x135da000135e3;
  mkModel 0x2700000027 (9543)%Z 0x0 0x2297200022976;
  mkModel 0x2700000027 (9544)%Z 0x0 0x18000000182;
  mkModel 0x2700000027 (9545)%Z 0x0 0x2297600022980;
  mkModel 0x2700000027 (9546)%Z 0x0 0x229800002298a;
  mkModel 0x2700000027 (-1)%Z 0x2298a0002299c 0x2299c000229a6;
  mkModel 0x2700000027 (9548)%Z 0x0 0x18000000182;
  mkModel 0x7cc000007d6 (-1)%Z 0x229b1000229b8 0x1ea500001ea7
].
Definition d_dr_dm_62 : list modelTuple := [
  mkModel 0x2700000027 (9550)%Z 0x0 0x229bd000229c2;
  mkModel 0x0 (-1)%Z 0x0 0x229cc000229d1;
  mkModel 0x2700000027 (9552)%Z 0x0 0x18000000182;
  mkModel 0x0 (-1)%Z 0x0 0x229de000229e6;
  mkModel 0x2700000027 (9555)%Z 0x0 0x229eb000229f2;
  mkModel 0x2700000027 (9556)%Z 0x0 0x229f2000229fb;
  mkModel 0x0 (-1)%Z 0x0 0x22a0300022a0d;
  mkModel 0x2700000027 (-1)%Z 0x22a1000022a18 0x22a1000022a18;
  mkModel 0x2700000027 (9559)%Z 0x0 0x18000000182;
  mkModel 0x2700000027 (9560)%Z 0x0 0x18000000182;
  mkModel 0x23b0000023d (9561)%Z 0x0 0x22a1800022a21;
  mkModel 0x23b0000023d (9562)%Z 0x0 0x22a2100022a26;
  mkModel 0x2700000027 (9563)%Z 0x0 0x18000000182;
  mkModel 0x2700000027 (9564)%Z 0x0 0x18000000182;
  mkModel 0x2700000027 (9566)%Z 0x0 0x138e8000138f0;
  mkModel 0x2700000027 (-1)%Z 0x22a2d00022a34 0x22a2d00022a34;
  mkModel 0x2700000027 (-1)%Z 0x22a3400022a3c 0x22a3400022a3c;
  mkModel 0x2700000027 (-1)%Z 0x22a3c00022a44 0x22a3c00022a44;
  mkModel 0x2700000027 (9567)%Z 0x0 0x22a4400022a51;
  mkModel 0x2700000027 (9568)%Z 0x0 0x22a5100022a58;
  mkModel 0x2700000027 (-1)%Z 0x22a5800022a63 0x22a6300022a6c;
  mkModel 0x2700000027 (-1)%Z 0x22a6c00022a7e 0x22a7e00022a84;
  mkModel 0x2700000027 (9569)%Z 0x0 0x22a8400022a89;
  mkModel 0x2700000027 (-1)%Z 0x22a8900022a91 0x22a9100022a9a;
  mkModel 0x23f00000249 (9570)%Z 0x0 0x18000000182;
  mkModel 0x23f00000249 (9571)%Z 0x0 0x22a9a00022aa1;
  mkModel 0x23f00000249 (9572)%Z 0x0 0x22aa100022aaf;
  mkModel 0x23f00000249 (9573)%Z 0x0 0x22aaf00022ab9;
  mkModel 0x23f00000249 (9574)%Z 0x0 0x22ab900022ac0;
  mkModel 0x23f00000249 (-1)%Z 0x22ac000022acd 0x22ac000022acd;
  mkModel 0x23f00000249 (-1)%Z 0x22acd00022adb 0x22adb00022ae9;
  mkModel 0x23f00000249 (9575)%Z 0x0 0x22ae900022af2;
  mkModel 0x23b0000023d (9576)%Z 0x0 0x18000000182;
  mkModel 0x23b0000023d (9577)%Z 0x0 0x18000000182;
  mkModel 0x0 (-1)%Z 0x0 0x18000000182;
  mkModel 0x0 (-1)%Z 0x0 0x18000000182;
  mkModel 0x2700000027 (-1)%Z 0x22b0400022b0d 0x22b0d00022b16;
  mkModel 0x2700000027 (-1)%Z 0x22b1600022b1f 0x22b1600022b1f;
  mkModel 0x2700000027 (9581)%Z 0x0 0x18000000182;
  mkModel 0x2700000027 (9582)%Z 0x0 0x22b1f00022b21;
  mkModel 0x2700000027 (9584)%Z 0x0 0x22b2700022b33;
  mkModel 0x2700000027 (9585)%Z 0x0 0x509f000050a9;
  mkModel 0x2700000027 (9587)%Z 0x0 0x22b3900022b43;
  mkModel 0x2700000027 (9588)%Z 0x0 0x22b4300022b4c;
  mkModel 0x2700000027 (9589)%Z 0x0 0x22b4c00022b54;
  mkModel 0x0 (-1)%Z 0x0 0x22b5900022b61;
  mkModel 0x2700000027 (9592)%Z 0x0 0x9a3a00009a3f;
  mkModel 0x2700000027 (-1)%Z 0x22b6700022b76 0x22b7600022b7f;
  mkModel 0x2700000027 (-1)%Z 0x22b7f00022b87 0x22b8700022b90;
  mkModel 0x2700000027 (9593)%Z 0x0 0x22b9000022b9d;
  mkModel 0x2700000027 (-1)%Z 0x22b9d00022bab 0x22b9d00022bab;
  mkModel 0x2700000027 (-1)%Z 0x22bab00022bb5 0x22bab00022bb5;
  mkModel 0x2700000027 (-1)%Z 0x22bb500022bbe 0x22bb500022bbe;
  mkModel 0x2700000027 (9594)%Z 0x0 0x22bbe00022bcc;
  mkModel 0x2700000027 (-1)%Z 0x22bcc00022bd6 0x22bd600022be0;
  mkModel 0x2700000027 (-1)%Z 0x22be000022bec 0x22bec00022bf8;
  mkModel 0x2700000027 (-1)%Z 0x22bf800022bfc 0x22bf800022bfc;
  mkModel 0x2700000027 (-1)%Z 0x22bfc00022c03 0x22c0300022c0a;
  mkModel 0x2a1000002a7 (9595)%Z 0x0 0x22c0a00022c15;
  mkModel 0x2a1000002a7 (9596)%Z 0x0 0x22c1500022c26;
  mkModel 0x0 (-1)%Z 0x0 0x18000000182;
  mkModel 0x0 (-1)%Z 0x0 0x18000000182;
  mkModel 0x0 (-1)%Z 0x0 0x18000000182;
  mkModel 0x0 (-1)%Z 0x0 0x22c3b00022c48;
  mkModel 0x0 (-1)%Z 0x0 0x18000000182;
  mkModel 0x2700000027 (9602)%Z 0x0 0x18000000182;
  mkModel 0x2700000027 (9603)%Z 0x0 0x22c5600022c5d;
  mkModel 0x2700000027 (-1)%Z 0x22c6600022c6f 0x22c6600022c6f;
  mkModel 0x2a1000002a7 (-1)%Z 0x22c6f00022c78 0x22c7800022c81;
  mkModel 0x2a1000002a7 (-1)%Z 0x22c8100022c86 0x22c8100022c86;
  mkModel 0x2700000027 (-1)%Z 0x22c8600022c91 0x22c9100022c97;
  mkModel 0x2700000027 (9606)%Z 0x0 0x18000000182;
  mkModel 0x2a1000002a7 (-1)%Z 0x22ca000022caa 0x12aca00012acc;
  mkModel 0x2a1000002a7 (-1)%Z 0x22caa00022cb4 0x19c6f00019c72;
  mkModel 0x2a1000002a7 (-1)%Z 0x22cb400022cc0 0x1170200011704;
  mkModel 0x2a1000002a7 (-1)%Z 0x22cc000022ccc 0x1170000011702;
  mkModel 0x2a1000002a7 (-1)%Z 0x22ccc00022cd8 0x70f5000070f7;
  mkModel 0x0 (-1)%Z 0x0 0x22ce100022cf3;
  mkModel 0x0 (-1)%Z 0x0 0x18000000182;
  mkModel 0x0 (-1)%Z 0x0 0x22d0000022d04;
  mkModel 0x2700000027 (9611)%Z 0x0 0x18000000182;
  mkModel 0x2700000027 (-1)%Z 0x22d0900022d12 0x22d1200022d1a;
  mkModel 0x2700000027 (9612)%Z 0x0 0x4bd000004c3;
  mkModel 0x2700000027 (9613)%Z 0x0 0x201a0000201a9;
  mkModel 0x23f00000249 (9614)%Z 0x0 0x18000000182;
  mkModel 0x2a1000002a7 (9616)%Z 0x0 0x22d1a00022d23;
  mkModel 0x2700000027 (-1)%Z 0x22d2300022d30 0x22d3000022d3d;
  mkModel 0x2700000027 (-1)%Z 0x22d3d00022d4a 0x22d4a00022d57;
  mkModel 0x2700000027 (9617)%Z 0x0 0x22d1a00022d23;
  mkModel 0x2700000027 (9618)%Z 0x0 0x22d5700022d5d;
  mkModel 0xdfd00000e04 (-1)%Z 0x22d5d00022d68 0x22d5d00022d68;
  mkModel 0x2700000027 (-1)%Z 0x22d6800022d73 0x22d6800022d73;
  mkModel 0x2700000027 (-1)%Z 0x22d7a00022d7f 0x22d7f00022d8a;
  mkModel 0x2700000027 (-1)%Z 0x22d8a00022d8f 0x22d8f00022d9a;
  mkModel 0x2700000027 (-1)%Z 0x22d9a00022d9f 0x22d9f00022daa;
  mkModel 0x2700000027 (-1)%Z 0x22daa00022dae 0x22dae00022db8;
  mkModel 0x2700000027 (-1)%Z 0x22db800022dbd 0x22dbd00022dc8;
  mkModel 0x2a1000002a7 (-1)%Z 0x22dc800022dcd 0xe9cb0000e9d1;
  mkModel 0x2a1000002a7 (-1)%Z 0x22dcd00022dd2 0x22dd200022ddd;
  mkModel 0x2a1000002a7 (-1)%Z 0x22ddd00022de4 0x22de400022df1;
  mkModel 0x2a1000002a7 (-1)%Z 0x22df100022df7 0x22df700022e03;
  mkModel 0x2a1000002a7 (9620)%Z 0x0 0x22e0300022e0d;
  mkModel 0x2a1000002a7 (9621)%Z 0x0 0x22e0d00022e1c;
  mkModel 0x2a1000002a7 (-1)%Z 0x22e1c00022e22 0x22e2200022e2f;
  mkModel 0xc9b00000ca2 (-1)%Z 0x22e2f00022e3e 0x22e3e00022e4c;
  mkModel 0xc9b00000ca2 (9622)%Z 0x0 0x22e4c00022e58;
  mkModel 0x23b0000023d (9623)%Z 0x0 0x22e5800022e62;
  mkModel 0x23b0000023d (9624)%Z 0x0 0x22e6200022e6c;
  mkModel 0x23b0000023d (-1)%Z 0x22e6c00022e75 0x22e7500022e7f;
  mkModel 0x23b0000023d (-1)%Z 0x22e7f00022e87 0x22e8700022e94;
  mkModel 0x23b0000023d (-1)%Z 0x22e9400022e9e 0x22e9e00022ea8;
  mkModel 0x23b0000023d (9625)%Z 0x0 0x22ea800022eb9;
  mkModel 0x23b0000023d (9626)%Z 0x0 0xfd7b0000fd8c;
  mkModel 0x23b0000023d (9627)%Z 0x0 0xa6be0000a6cf;
  mkModel 0x23b0000023d (9628)%Z 0x0 0x18000000182;
  mkModel 0x23b0000023d (9629)%Z 0x0 0x2700000027;
  mkModel 0x23b0000023d (-1)%Z 0x22eb900022ec2 0x2700000027;
  mkModel 0x2700000027 (9630)%Z 0x0 0x18000000182;
  mkModel 0x2700000027 (9631)%Z 0x0 0x18000000182;
  mkModel 0x2700000027 (9632)%Z 0x0 0x18000000182;
  mkModel 0x0 (-1)%Z 0x0 0x18000000182;
  mkModel 0x2a1000002a7 (9635)%Z 0x0 0x18000000182;
  mkModel 0x2a1000002a7 (-1)%Z 0x22ed500022ee0 0x22ee000022eeb;
  mkModel 0x2a1000002a7 (-1)%Z 0x22eeb00022ef8 0x22ef800022f0c;
  mkModel 0x2700000027 (9636)%Z 0x0 0x18000000182;
  mkModel 0x2700000027 (9637)%Z 0x0 0x18000000182;
  mkModel 0x2700000027 (9639)%Z 0x0 0x22f1500022f23;
  mkModel 0x2700000027 (9640)%Z 0x0 0x18000000182;
  mkModel 0x0 (-1)%Z 0x0 0x22f2b00022f35;
  mkModel 0x2700000027 (9643)%Z 0x0 0x22f3d00022f49;
  mkModel 0x2700000027 (-1)%Z 0x22f4900022f52 0x22f5200022f67;
  mkModel 0x2700000027 (-1)%Z 0x22f6700022f7a 0x22f7a00022f8d;
  mkModel 0x2700000027 (-1)%Z 0x22f8d00022f99 0x22f8d00022f99;
  mkModel 0x2700000027 (9644)%Z 0x0 0x18000000182;
  mkModel 0x2700000027 (9645)%Z 0x0 0x22f9900022fa3;
  mkModel 0x2700000027 (9646)%Z 0x0 0x22f9900022fa3;
  mkModel 0x2700000027 (-1)%Z 0x22fa300022faf 0x22faf00022fba;
  mkModel 0x2700000027 (9647)%Z 0x0 0x18000000182;
  mkModel 0x2700000027 (9648)%Z 0x0 0x22fba00022fd1;
  mkModel 0x2700000027 (9650)%Z 0x0 0x22fd600022fe2;
  mkModel 0x2700000027 (9651)%Z 0x0 0x22fe200022fed;
  mkModel 0x2700000027 (9652)%Z 0x0 0x22fed00022ff5;
  mkModel 0x2700000027 (9653)%Z 0x0 0x22ff500023002;
  mkModel 0x2700000027 (-1)%Z 0x230020002300d 0x2300d00023019;
  mkModel 0x23f00000249 (9654)%Z 0x0 0x2301900023024;
  mkModel 0x23f00000249 (9655)%Z 0x0 0x230240002302f;
  mkModel 0x23f00000249 (9656)%Z 0x0 0x2302f0002303b;
  mkModel 0x23f00000249 (9657)%Z 0x0 0x2303b00023046;
  mkModel 0xdfd00000e04 (9658)%Z 0x0 0x2304600023053;
  mkModel 0xdfd00000e04 (9659)%Z 0x0 0x2305300023068;
  mkModel 0xdfd00000e04 (9660)%Z 0x0 0x2306800023073;
  mkModel 0x2700000027 (9661)%Z 0x0 0x18000000182;
  mkModel 0x0 (-1)%Z 0x0 0x62270000622d;
  mkModel 0x0 (-1)%Z 0x0 0x18000000182;
  mkModel 0x0 (-1)%Z 0x0 0x18000000182;
  mkModel 0x2700000027 (-1)%Z 0x230910002309b 0x2309b000230a5;
  mkModel 0x2700000027 (-1)%Z 0x230a5000230b1 0x230b1000230bd;
  mkModel 0x2700000027 (-1)%Z 0x230bd000230c8 0x230c8000230d3;
  mkModel 0x2700000027 (9666)%Z 0x0 0x230e6000230f5;
  mkModel 0x0 (-1)%Z 0x0 0x230f9000230fe;
  mkModel 0x0 (-1)%Z 0x0 0x18000000182;
  mkModel 0x2700000027 (9670)%Z 0x0 0x2310b00023113;
  mkModel 0x2700000027 (9671)%Z 0x0 0x2311300023125;
  mkModel 0x2700000027 (9672)%Z 0x0 0x2312500023134;
  mkModel 0x2700000027 (9673)%Z 0x0 0x2313400023146;
  mkModel 0x2700000027 (9674)%Z 0x0 0x231460002315e;
  mkModel 0x2700000027 (-1)%Z 0x2315e00023174 0x231740002318a;
  mkModel 0x2700000027 (-1)%Z 0x2318a0002319c 0x2319c000231ae;
  mkModel 0x2700000027 (9675)%Z 0x0 0x231ae000231be;
  mkModel 0x2700000027 (9676)%Z 0x0 0x231be000231cf;
  mkModel 0x2700000027 (9677)%Z 0x0 0x231cf000231e0;
  mkModel 0x2700000027 (9678)%Z 0x0 0x231e0000231f1;
  mkModel 0x2700000027 (9679)%Z 0x0 0x231f1000231fc;
  mkModel 0x2700000027 (9680)%Z 0x0 0x231fc0002320c;
  mkModel 0x2700000027 (-1)%Z 0x2320c00023217 0x2321700023222;
  mkModel 0x2a1000002a7 (-1)%Z 0x2322200023231 0x2323100023240;
  mkModel 0x2a1000002a7 (-1)%Z 0x2324000023256 0x232560002326c;
  mkModel 0x2a1000002a7 (-1)%Z 0x2326c0002327e 0x2327e00023290;
  mkModel 0x2a1000002a7 (-1)%Z 0x23290000232a2 0x232a2000232af;
  mkModel 0x2a1000002a7 (9681)%Z 0x0 0x232af000232c5;
  mkModel 0x23b0000023d (-1)%Z 0x232c5000232ca 0x232ca000232d5;
  mkModel 0x0 (-1)%Z 0x0 0x18000000182;
  mkModel 0x0 (-1)%Z 0x0 0x18000000182;
  mkModel 0x0 (-1)%Z 0x0 0x232f200023301;
  mkModel 0x2700000027 (9686)%Z 0x0 0x2330100023309;
  mkModel 0x2700000027 (9687)%Z 0x0 0x2330900023310;
  mkModel 0x2700000027 (9688)%Z 0x0 0x2331000023315;
  mkModel 0x2700000027 (9689)%Z 0x0 0x233150002331d;
  mkModel 0x2700000027 (9690)%Z 0x0 0x2331d00023323;
  mkModel 0x2700000027 (9691)%Z 0x0 0x2332300023327;
  mkModel 0x2700000027 (9692)%Z 0x0 0xb05f0000b061;
  mkModel 0x2a1000002a7 (9693)%Z 0x0 0x2332700023334;
  mkModel 0x2700000027 (-1)%Z 0x135780001357d 0x135780001357d;
  mkModel 0x2700000027 (-1)%Z 0x2333b00023344 0x1c7040001c706;
  mkModel 0x2700000027 (9695)%Z 0x0 0xf1030000f105;
  mkModel 0x2700000027 (9696)%Z 0x0 0x2334400023346;
  mkModel 0x2700000027 (9697)%Z 0x0 0x233460002334d;
  mkModel 0x2700000027 (-1)%Z 0x2334d0002335c 0x2335c00023363;
  mkModel 0x2700000027 (-1)%Z 0x2336300023370 0x2337000023375;
  mkModel 0x2700000027 (9698)%Z 0x0 0x233750002337a
].
Definition d_dr_dm_63 : list modelTuple := [
  mkModel 0x2700000027 (-1)%Z 0x2337a00023384 0x2338400023388;
  mkModel 0x2a1000002a7 (9699)%Z 0x0 0x233880002338b;
  mkModel 0x2a1000002a7 (-1)%Z 0x2338b0002339b 0x2339b000233a3;
  mkModel 0x2a1000002a7 (9700)%Z 0x0 0x233a3000233aa;
  mkModel 0x2a1000002a7 (9701)%Z 0x0 0x233aa000233b3;
  mkModel 0x2a1000002a7 (-1)%Z 0x233b3000233ba 0x233b3000233ba;
  mkModel 0x2a1000002a7 (9702)%Z 0x0 0x233ba000233c6;
  mkModel 0x2a1000002a7 (9703)%Z 0x0 0x233c6000233cf;
  mkModel 0x2a1000002a7 (9704)%Z 0x0 0x233cf000233da;
  mkModel 0x2a1000002a7 (9705)%Z 0x0 0x233da000233e8;
  mkModel 0x2a1000002a7 (9706)%Z 0x0 0x233e8000233f7;
  mkModel 0x2a1000002a7 (9707)%Z 0x0 0x233f700023405;
  mkModel 0x2a1000002a7 (9708)%Z 0x0 0x2340500023415;
  mkModel 0x2a1000002a7 (-1)%Z 0x2341500023421 0x234210002342e;
  mkModel 0x2a1000002a7 (-1)%Z 0x2342e0002343a 0x2343a00023444;
  mkModel 0x2a1000002a7 (-1)%Z 0x2344400023456 0x234560002345d;
  mkModel 0x23b0000023d (9709)%Z 0x0 0x2700000027;
  mkModel 0x2a1000002a7 (9710)%Z 0x0 0x18000000182;
  mkModel 0x2700000027 (9711)%Z 0x0 0x18000000182;
  mkModel 0x2700000027 (-1)%Z 0x2346600023473 0x2347300023480;
  mkModel 0x2700000027 (9713)%Z 0x0 0x2348000023486;
  mkModel 0x2700000027 (9714)%Z 0x0 0x234860002348a;
  mkModel 0x2700000027 (9715)%Z 0x0 0x18000000182;
  mkModel 0x0 (-1)%Z 0x0 0x18000000182;
  mkModel 0x2700000027 (9718)%Z 0x0 0x2349a000234a3;
  mkModel 0x2700000027 (9719)%Z 0x0 0x234a3000234a7;
  mkModel 0x2700000027 (9720)%Z 0x0 0x234a7000234b6;
  mkModel 0x2700000027 (9721)%Z 0x0 0x234b6000234c4;
  mkModel 0x2a1000002a7 (9722)%Z 0x0 0x218ec000218f4;
  mkModel 0x0 (-1)%Z 0x0 0x18000000182;
  mkModel 0x2700000027 (9725)%Z 0x0 0x18000000182;
  mkModel 0x2700000027 (9726)%Z 0x0 0x18000000182;
  mkModel 0x0 (-1)%Z 0x0 0x18000000182;
  mkModel 0x2700000027 (9728)%Z 0x0 0x234ee000234f3;
  mkModel 0x0 (-1)%Z 0x0 0x18000000182;
  mkModel 0x2700000027 (9731)%Z 0x0 0xd21e0000d22e;
  mkModel 0x2700000027 (9732)%Z 0x0 0xdd540000dd5f;
  mkModel 0x2700000027 (9733)%Z 0x0 0x235020002350e;
  mkModel 0x2700000027 (9734)%Z 0x0 0x2350e0002351b;
  mkModel 0x2700000027 (-1)%Z 0x2352d00023537 0x2353700023548;
  mkModel 0x2700000027 (9735)%Z 0x0 0x18000000182;
  mkModel 0x2700000027 (9737)%Z 0x0 0x2354a00023553;
  mkModel 0x2700000027 (9738)%Z 0x0 0x235530002355d;
  mkModel 0x2700000027 (9739)%Z 0x0 0x2355d00023566;
  mkModel 0x2700000027 (9741)%Z 0x0 0x18000000182;
  mkModel 0x2a1000002a7 (-1)%Z 0x2357200023576 0x235760002357d;
  mkModel 0x2a1000002a7 (-1)%Z 0x2357d00023581 0x2358100023588;
  mkModel 0x2a1000002a7 (-1)%Z 0x235880002358c 0x2358c00023592;
  mkModel 0x2a1000002a7 (9743)%Z 0x0 0x2359200023598;
  mkModel 0x2a1000002a7 (-1)%Z 0x235980002359c 0x2359c000235a2;
  mkModel 0x2a1000002a7 (-1)%Z 0x235a2000235a6 0x235a6000235ac;
  mkModel 0x2700000027 (9744)%Z 0x0 0x500000005006;
  mkModel 0x2700000027 (-1)%Z 0x235ac000235b5 0x235b5000235b9;
  mkModel 0x2700000027 (-1)%Z 0x235b9000235c4 0x235b9000235c4;
  mkModel 0x2700000027 (-1)%Z 0x235c4000235c8 0x8d8a00008d90;
  mkModel 0x2700000027 (-1)%Z 0x235c8000235cc 0x235cc000235d3;
  mkModel 0x2700000027 (-1)%Z 0x235d3000235d7 0x5b1000005b3;
  mkModel 0x2700000027 (-1)%Z 0x235d7000235db 0x711e00007120;
  mkModel 0x2700000027 (-1)%Z 0x235db000235df 0x10fa900010fab;
  mkModel 0x2700000027 (-1)%Z 0x235df000235e3 0x17c1800017c1a;
  mkModel 0x2700000027 (-1)%Z 0x235e3000235e7 0x235e7000235f0;
  mkModel 0x2700000027 (-1)%Z 0x235f0000235f4 0x235f4000235f9;
  mkModel 0x2700000027 (-1)%Z 0x235f9000235fd 0x235fd00023603;
  mkModel 0x2700000027 (9745)%Z 0x0 0x2360300023607;
  mkModel 0x2700000027 (9746)%Z 0x0 0x236070002360b;
  mkModel 0x2700000027 (9747)%Z 0x0 0x166570001665a;
  mkModel 0x2700000027 (9748)%Z 0x0 0x2360b0002360f;
  mkModel 0x2700000027 (9749)%Z 0x0 0x2360f00023617;
  mkModel 0x2700000027 (9750)%Z 0x0 0xd7500000d77;
  mkModel 0x2700000027 (-1)%Z 0x2361700023620 0x2362000023625;
  mkModel 0x2700000027 (9751)%Z 0x0 0x2362500023628;
  mkModel 0x2700000027 (9752)%Z 0x0 0x10fb200010fb4;
  mkModel 0x2700000027 (9753)%Z 0x0 0x236280002362e;
  mkModel 0x2700000027 (9754)%Z 0x0 0x2362e00023635;
  mkModel 0x2700000027 (-1)%Z 0x2363500023640 0x2364000023647;
  mkModel 0x2700000027 (-1)%Z 0x2364700023650 0xc3830000c388;
  mkModel 0x2700000027 (-1)%Z 0x2365000023656 0x2365000023656;
  mkModel 0x2700000027 (-1)%Z 0x236560002365d 0x236560002365d;
  mkModel 0x2700000027 (9755)%Z 0x0 0x212970002129d;
  mkModel 0x2700000027 (-1)%Z 0x2365d00023665 0x236650002366d;
  mkModel 0x2700000027 (-1)%Z 0x2366d00023676 0x236760002367f;
  mkModel 0x2700000027 (9756)%Z 0x0 0x2367f00023689;
  mkModel 0x2700000027 (-1)%Z 0x2368900023691 0x2368900023691;
  mkModel 0x2700000027 (9757)%Z 0x0 0x236910002369a;
  mkModel 0x2700000027 (9758)%Z 0x0 0x2369a000236a6;
  mkModel 0x2700000027 (9759)%Z 0x0 0x236a6000236af;
  mkModel 0x2700000027 (9760)%Z 0x0 0x236af000236b6;
  mkModel 0x2700000027 (-1)%Z 0x236b6000236bf 0x236bf000236c8;
  mkModel 0x2700000027 (-1)%Z 0x236c8000236cd 0x236cd000236d2;
  mkModel 0x2700000027 (-1)%Z 0x236d2000236da 0x236da000236e2;
  mkModel 0x2700000027 (-1)%Z 0x236e2000236eb 0x236eb000236f4;
  mkModel 0x2700000027 (-1)%Z 0x236f4000236fc 0x236fc00023704;
  mkModel 0x2700000027 (9761)%Z 0x0 0x2370400023709;
  mkModel 0x2700000027 (9762)%Z 0x0 0xf2c50000f2c9;
  mkModel 0x2700000027 (-1)%Z 0x237090002370e 0x237090002370e;
  mkModel 0x2700000027 (-1)%Z 0x2370e00023715 0x237150002371c;
  mkModel 0x2700000027 (-1)%Z 0x2371c00023722 0x216470002164d;
  mkModel 0x2700000027 (-1)%Z 0x2372200023729 0x2372200023729;
  mkModel 0x2700000027 (9763)%Z 0x0 0x2372900023731;
  mkModel 0x2700000027 (9764)%Z 0x0 0x655e00006560;
  mkModel 0x2700000027 (9765)%Z 0x0 0x237310002373b;
  mkModel 0x2700000027 (9766)%Z 0x0 0x2373b00023749;
  mkModel 0x2700000027 (9767)%Z 0x0 0x2374900023754;
  mkModel 0x2700000027 (9768)%Z 0x0 0x18000000182;
  mkModel 0x2700000027 (9769)%Z 0x0 0x18000000182;
  mkModel 0x2700000027 (9770)%Z 0x0 0x18000000182;
  mkModel 0x2700000027 (9772)%Z 0x0 0x18000000182;
  mkModel 0x2700000027 (9773)%Z 0x0 0x18000000182;
  mkModel 0x2700000027 (9775)%Z 0x0 0x18000000182;
  mkModel 0x2700000027 (9776)%Z 0x0 0x18000000182;
  mkModel 0x2700000027 (9778)%Z 0x0 0x18000000182;
  mkModel 0x2700000027 (-1)%Z 0x237670002376f 0x237670002376f;
  mkModel 0x2700000027 (9779)%Z 0x0 0x2376f00023777;
  mkModel 0x2a1000002a7 (-1)%Z 0x237770002377f 0x237770002377f;
  mkModel 0x0 (-1)%Z 0x0 0x18000000182;
  mkModel 0x0 (-1)%Z 0x0 0x18000000182;
  mkModel 0x0 (-1)%Z 0x0 0x23796000237a0;
  mkModel 0x2700000027 (9784)%Z 0x0 0x237a5000237ad;
  mkModel 0x2700000027 (-1)%Z 0x237ad000237b6 0x237b6000237bf;
  mkModel 0x2700000027 (9785)%Z 0x0 0x18000000182;
  mkModel 0x2700000027 (9786)%Z 0x0 0x18000000182;
  mkModel 0x0 (-1)%Z 0x0 0x18000000182;
  mkModel 0x2700000027 (9789)%Z 0x0 0x237ca000237ce;
  mkModel 0x2700000027 (-1)%Z 0x237ce000237d3 0x237ce000237d3;
  mkModel 0x2700000027 (-1)%Z 0x237d3000237d8 0x237d3000237d8;
  mkModel 0x2700000027 (-1)%Z 0x237d8000237dc 0x237d8000237dc;
  mkModel 0x2700000027 (9790)%Z 0x0 0x18000000182;
  mkModel 0x2700000027 (9791)%Z 0x0 0x18000000182;
  mkModel 0x2700000027 (9793)%Z 0x0 0x87ac000087b3;
  mkModel 0x2700000027 (9794)%Z 0x0 0x237e3000237ed;
  mkModel 0x2700000027 (9795)%Z 0x0 0x237ed000237f9;
  mkModel 0x2700000027 (9796)%Z 0x0 0x237f900023800;
  mkModel 0x2700000027 (9797)%Z 0x0 0x238000002380b;
  mkModel 0x2700000027 (9798)%Z 0x0 0x2380b00023811;
  mkModel 0x2700000027 (9799)%Z 0x0 0x2381100023815;
  mkModel 0x2700000027 (9800)%Z 0x0 0x238150002381b;
  mkModel 0x2700000027 (9801)%Z 0x0 0x2381b00023822;
  mkModel 0x2700000027 (-1)%Z 0x238220002382c 0x8d4f00008d59;
  mkModel 0x2700000027 (-1)%Z 0x2382c00023836 0x2383600023840;
  mkModel 0x2700000027 (-1)%Z 0x2384000023847 0x238470002384e;
  mkModel 0x2700000027 (-1)%Z 0x2384e0002385b 0x2384e0002385b;
  mkModel 0x2700000027 (-1)%Z 0x2385b00023862 0x2385b00023862;
  mkModel 0x2700000027 (-1)%Z 0x2386200023867 0x2386200023867;
  mkModel 0x2700000027 (-1)%Z 0x2386700023871 0x238710002387b;
  mkModel 0x2700000027 (9802)%Z 0x0 0x2387b0002388d;
  mkModel 0x2700000027 (-1)%Z 0x2388d000238a0 0x2388d000238a0;
  mkModel 0x2700000027 (9803)%Z 0x0 0x238a0000238ae;
  mkModel 0x2700000027 (9804)%Z 0x0 0x238ae000238b6;
  mkModel 0x2700000027 (9805)%Z 0x0 0x238b6000238c0;
  mkModel 0x2700000027 (9806)%Z 0x0 0x238c0000238c9;
  mkModel 0x2700000027 (9807)%Z 0x0 0x238c9000238d6;
  mkModel 0x2700000027 (9808)%Z 0x0 0x238d6000238df;
  mkModel 0x2700000027 (9809)%Z 0x0 0x238df000238e8;
  mkModel 0x2700000027 (9810)%Z 0x0 0x238e8000238ef;
  mkModel 0x2700000027 (9811)%Z 0x0 0x238ef000238f7;
  mkModel 0x2700000027 (9812)%Z 0x0 0x238f700023900;
  mkModel 0x2700000027 (9813)%Z 0x0 0x239000002390b;
  mkModel 0x2700000027 (9814)%Z 0x0 0x2390b00023917;
  mkModel 0x2700000027 (9815)%Z 0x0 0x100d4000100dc;
  mkModel 0x2a1000002a7 (9816)%Z 0x0 0x2391700023922;
  mkModel 0x2700000027 (9817)%Z 0x0 0x2392200023929;
  mkModel 0x2700000027 (9818)%Z 0x0 0x2392900023933;
  mkModel 0x2700000027 (-1)%Z 0x2393300023939 0x2393300023939;
  mkModel 0x2700000027 (9819)%Z 0x0 0x123bd000123c5;
  mkModel 0x2700000027 (9820)%Z 0x0 0x61760000617d;
  mkModel 0x2700000027 (9821)%Z 0x0 0x9af800009b03;
  mkModel 0xdfd00000e04 (9822)%Z 0x0 0x2393900023941;
  mkModel 0x2a1000002a7 (-1)%Z 0x239410002394c 0x239410002394c;
  mkModel 0x2a1000002a7 (9823)%Z 0x0 0x4c4300004c49;
  mkModel 0x2700000027 (9824)%Z 0x0 0x18000000182;
  mkModel 0x2700000027 (9825)%Z 0x0 0x18000000182;
  mkModel 0x2700000027 (9826)%Z 0x0 0x18000000182;
  mkModel 0x2700000027 (9828)%Z 0x0 0x18000000182;
  mkModel 0x2700000027 (9829)%Z 0x0 0x239500002395d;
  mkModel 0x2700000027 (9830)%Z 0x0 0x2395d0002396f;
  mkModel 0x2700000027 (9831)%Z 0x0 0x2396f00023981;
  mkModel 0x2700000027 (9832)%Z 0x0 0x2398100023993;
  mkModel 0x2700000027 (-1)%Z 0x239930002399b 0x2399b000239ae;
  mkModel 0x2700000027 (9833)%Z 0x0 0x239ae000239c0;
  mkModel 0x2700000027 (9834)%Z 0x0 0x239c0000239d2;
  mkModel 0x2700000027 (9835)%Z 0x0 0x239d2000239e5;
  mkModel 0x23f00000249 (9836)%Z 0x0 0x239e5000239fc;
  mkModel 0x23f00000249 (9837)%Z 0x0 0x18000000182;
  mkModel 0x2700000027 (-1)%Z 0x23a0100023a0d 0x23a0d00023a19;
  mkModel 0x2700000027 (-1)%Z 0x23a2500023a2e 0x23a2e00023a39;
  mkModel 0x2700000027 (-1)%Z 0x23a3900023a41 0x23a4100023a49;
  mkModel 0x0 (-1)%Z 0x0 0x18000000182;
  mkModel 0x2700000027 (9842)%Z 0x0 0x500000005006;
  mkModel 0x2700000027 (9843)%Z 0x0 0x23a5700023a5e;
  mkModel 0x2700000027 (-1)%Z 0x23a5e00023a66 0x23a5e00023a66;
  mkModel 0x2700000027 (-1)%Z 0x23a6600023a70 0x23a6600023a70;
  mkModel 0x2700000027 (-1)%Z 0x23a7000023a79 0x23a7000023a79;
  mkModel 0x2700000027 (-1)%Z 0x23a7900023a85 0x23a8500023a91;
  mkModel 0x2700000027 (-1)%Z 0x23a9100023a9b 0x23a9100023a9b;
  mkModel 0x2700000027 (-1)%Z 0x23a9b00023aa5 0x23aa500023aaf;
  mkModel 0x2700000027 (-1)%Z 0x23aaf00023ab9 0x23ab900023ac3;
  mkModel 0x2700000027 (-1)%Z 0x23ac300023acb 0x23ac300023acb;
  mkModel 0x2700000027 (-1)%Z 0x23acb00023ad2 0x23ad200023ad9;
  mkModel 0x2700000027 (9844)%Z 0x0 0x18000000182;
  mkModel 0x2700000027 (-1)%Z 0x23ad900023ae3 0x23ae300023aed
].
Definition d_dr_dm_64 : list modelTuple := [
  mkModel 0x2700000027 (-1)%Z 0x23aed00023af3 0x23af300023afd;
  mkModel 0x2700000027 (-1)%Z 0x23afd00023b08 0x23b0800023b13;
  mkModel 0x2700000027 (9845)%Z 0x0 0x23b1300023b1f;
  mkModel 0x2a1000002a7 (9846)%Z 0x0 0x23b1f00023b2a;
  mkModel 0x0 (-1)%Z 0x0 0x23b3e00023b45;
  mkModel 0x0 (-1)%Z 0x0 0x23b4b00023b52;
  mkModel 0x2700000027 (9850)%Z 0x0 0x23b5a00023b5c;
  mkModel 0x2700000027 (9851)%Z 0x0 0x18000000182;
  mkModel 0x2700000027 (9852)%Z 0x0 0x18000000182;
  mkModel 0x2700000027 (9853)%Z 0x0 0x18000000182;
  mkModel 0x0 (-1)%Z 0x0 0x18000000182;
  mkModel 0x2700000027 (9856)%Z 0x0 0x23b7400023b7e;
  mkModel 0x2700000027 (9857)%Z 0x0 0x18000000182;
  mkModel 0x2700000027 (-1)%Z 0x23b8a00023b93 0x23b9300023bac;
  mkModel 0x2700000027 (-1)%Z 0x23bac00023bb3 0x23bb300023bc7;
  mkModel 0x23b0000023d (9860)%Z 0x0 0x18000000182;
  mkModel 0x23b0000023d (9861)%Z 0x0 0x23bce00023bd4;
  mkModel 0xdfd00000e04 (9862)%Z 0x0 0x23bd400023bdd;
  mkModel 0x23b0000023d (9863)%Z 0x0 0x18000000182;
  mkModel 0x23b0000023d (9864)%Z 0x0 0x2700000027;
  mkModel 0x23b0000023d (9865)%Z 0x0 0x23bdd00023be4;
  mkModel 0x23b0000023d (9866)%Z 0x0 0x23be400023bec;
  mkModel 0x23b0000023d (9867)%Z 0x0 0x2700000027;
  mkModel 0x2700000027 (9868)%Z 0x0 0x23bec00023bf7;
  mkModel 0x8e00000099 (9869)%Z 0x0 0x23bf700023bfe;
  mkModel 0xc9b00000ca2 (-1)%Z 0x23bfe00023c14 0x2700000027;
  mkModel 0xc9b00000ca2 (9870)%Z 0x0 0x2700000027;
  mkModel 0x2700000027 (-1)%Z 0x23c1b00023c1f 0x23c1f00023c27;
  mkModel 0x2700000027 (-1)%Z 0x23c2700023c2c 0x8f8000008f84;
  mkModel 0x2700000027 (-1)%Z 0x23c2c00023c30 0x23c3000023c39;
  mkModel 0x2700000027 (-1)%Z 0x23c3900023c3d 0x23c3d00023c46;
  mkModel 0x2700000027 (-1)%Z 0x23c4600023c4a 0x23c4a00023c53;
  mkModel 0x2700000027 (-1)%Z 0x23c5300023c57 0x23c5300023c57;
  mkModel 0x2700000027 (-1)%Z 0x23c5700023c5b 0x23c5b00023c67;
  mkModel 0x2700000027 (-1)%Z 0x23c6700023c6b 0x23c6b00023c74;
  mkModel 0x2700000027 (-1)%Z 0x23c7400023c79 0x23c7900023c7d;
  mkModel 0x2700000027 (-1)%Z 0x23c7d00023c81 0x177090001770c;
  mkModel 0x2700000027 (-1)%Z 0x23c8100023c85 0x23c8500023c8c;
  mkModel 0x2700000027 (9873)%Z 0x0 0x23c9f00023ca2;
  mkModel 0x2700000027 (-1)%Z 0x23caa00023cb5 0x23cb500023cc2;
  mkModel 0x2700000027 (-1)%Z 0x202ee000202f6 0x202f6000202ff;
  mkModel 0x2700000027 (-1)%Z 0x1143800011443 0x1143800011443;
  mkModel 0x2700000027 (9876)%Z 0x0 0x18000000182;
  mkModel 0x2700000027 (9877)%Z 0x0 0x18000000182;
  mkModel 0x2700000027 (9878)%Z 0x0 0x18000000182;
  mkModel 0x2700000027 (9880)%Z 0x0 0x23ccd00023cd5;
  mkModel 0x2700000027 (-1)%Z 0x23cd500023cd9 0x23cd500023cd9;
  mkModel 0x7cc000007d6 (9882)%Z 0x0 0x18000000182;
  mkModel 0x0 (-1)%Z 0x0 0x18000000182;
  mkModel 0x0 (-1)%Z 0x0 0x18000000182;
  mkModel 0x0 (-1)%Z 0x0 0x18000000182;
  mkModel 0x0 (-1)%Z 0x0 0x18000000182;
  mkModel 0x2700000027 (-1)%Z 0x23cf300023cf9 0x23cf900023d00;
  mkModel 0x2700000027 (9888)%Z 0x0 0x18000000182;
  mkModel 0x2700000027 (9890)%Z 0x0 0x23d0400023d0c;
  mkModel 0x0 (-1)%Z 0x0 0x23d1a00023d23;
  mkModel 0x0 (-1)%Z 0x0 0x23d3500023d41;
  mkModel 0x0 (-1)%Z 0x0 0x18000000182;
  mkModel 0x2700000027 (9893)%Z 0x0 0x7c3000007c8;
  mkModel 0x0 (-1)%Z 0x0 0x18000000182;
  mkModel 0x2700000027 (9896)%Z 0x0 0x18000000182;
  mkModel 0x2700000027 (-1)%Z 0x23d5300023d5d 0x23d5d00023d67;
  mkModel 0x2700000027 (9897)%Z 0x0 0x23d6700023d6c;
  mkModel 0x0 (-1)%Z 0x0 0x18000000182;
  mkModel 0x2700000027 (9900)%Z 0x0 0x18000000182;
  mkModel 0x23b0000023d (9901)%Z 0x0 0x7d3900007d44;
  mkModel 0x23b0000023d (9902)%Z 0x0 0x18000000182;
  mkModel 0x0 (-1)%Z 0x0 0x18000000182;
  mkModel 0x2700000027 (9905)%Z 0x0 0x23d8000023d8b;
  mkModel 0x2700000027 (9906)%Z 0x0 0x189ec000189f4;
  mkModel 0x2700000027 (9907)%Z 0x0 0x23d8b00023d91;
  mkModel 0x2700000027 (-1)%Z 0x23d9100023d97 0x23d9100023d97;
  mkModel 0x2700000027 (-1)%Z 0x23d9700023d9e 0x23d9e00023da5;
  mkModel 0x2a1000002a7 (-1)%Z 0x23da500023dac 0x23dac00023db3;
  mkModel 0x2700000027 (9909)%Z 0x0 0x8a5900008a5c;
  mkModel 0x2700000027 (9910)%Z 0x0 0x18000000182;
  mkModel 0x2700000027 (-1)%Z 0x23dbd00023dc7 0x23dc700023dc9;
  mkModel 0x2700000027 (9913)%Z 0x0 0x1940000019b;
  mkModel 0x2700000027 (9914)%Z 0x0 0x18000000182;
  mkModel 0x2700000027 (-1)%Z 0x23dd700023ddd 0x23ddd00023de3;
  mkModel 0x2700000027 (-1)%Z 0x23de300023de8 0x23de800023deb;
  mkModel 0x2700000027 (-1)%Z 0x23deb00023df0 0x23df000023df4;
  mkModel 0x2700000027 (-1)%Z 0x23df400023df9 0x23df900023dff;
  mkModel 0x2700000027 (9916)%Z 0x0 0x18000000182;
  mkModel 0x2700000027 (9917)%Z 0x0 0x23e0400023e0c;
  mkModel 0x2700000027 (9918)%Z 0x0 0x9ad000009ad3;
  mkModel 0x2700000027 (9919)%Z 0x0 0xf11d0000f125;
  mkModel 0x0 (-1)%Z 0x0 0x18000000182;
  mkModel 0x0 (-1)%Z 0x0 0x18000000182;
  mkModel 0x2700000027 (-1)%Z 0x23e2200023e2c 0x23e2c00023e36;
  mkModel 0x2700000027 (-1)%Z 0x23e3600023e40 0x23e4000023e4a;
  mkModel 0x2700000027 (-1)%Z 0x23e4a00023e53 0x23e5300023e5c;
  mkModel 0x2700000027 (9923)%Z 0x0 0x23e5c00023e69;
  mkModel 0x2700000027 (-1)%Z 0x23e6900023e71 0x23e7100023e79;
  mkModel 0x0 (-1)%Z 0x0 0x23e8200023e86;
  mkModel 0x2700000027 (9926)%Z 0x0 0x92a7000092ad;
  mkModel 0x2700000027 (9927)%Z 0x0 0x500000005006;
  mkModel 0x2700000027 (9928)%Z 0x0 0x23e8d00023e92;
  mkModel 0x2700000027 (9929)%Z 0x0 0x23e8200023e86;
  mkModel 0x0 (-1)%Z 0x0 0x23ea100023ea9;
  mkModel 0x0 (-1)%Z 0x0 0x18000000182;
  mkModel 0x2700000027 (-1)%Z 0x23eb200023ebc 0x23ebc00023ebd;
  mkModel 0x0 (-1)%Z 0x0 0x18000000182;
  mkModel 0x0 (-1)%Z 0x0 0x18000000182;
  mkModel 0x0 (-1)%Z 0x0 0x18000000182;
  mkModel 0x2700000027 (9936)%Z 0x0 0x18000000182;
  mkModel 0x0 (-1)%Z 0x0 0x23ee400023ee6;
  mkModel 0x2700000027 (9939)%Z 0x0 0x23eec00023ef9;
  mkModel 0x2700000027 (9940)%Z 0x0 0x23ef900023f05;
  mkModel 0x2700000027 (9941)%Z 0x0 0x23f0500023f0c;
  mkModel 0x2700000027 (-1)%Z 0x23f0c00023f13 0x23f1300023f20;
  mkModel 0x2700000027 (9943)%Z 0x0 0x18000000182;
  mkModel 0x2700000027 (9945)%Z 0x0 0x23f2d00023f3a;
  mkModel 0x2700000027 (9946)%Z 0x0 0x18000000182;
  mkModel 0x0 (-1)%Z 0x0 0x18000000182;
  mkModel 0x2700000027 (9948)%Z 0x0 0x1940000019b;
  mkModel 0x0 (-1)%Z 0x0 0x18000000182;
  mkModel 0x2700000027 (9951)%Z 0x0 0x23f5000023f5a;
  mkModel 0x2700000027 (9952)%Z 0x0 0x18000000182;
  mkModel 0x0 (-1)%Z 0x0 0x18000000182;
  mkModel 0x2700000027 (9955)%Z 0x0 0x23f6900023f7d;
  mkModel 0x2700000027 (9956)%Z 0x0 0x23f7d00023f8b;
  mkModel 0x2700000027 (9957)%Z 0x0 0x23f8b00023f90;
  mkModel 0x2700000027 (9959)%Z 0x0 0x23f9600023fa0;
  mkModel 0x2700000027 (9960)%Z 0x0 0x23fa000023fad;
  mkModel 0x2700000027 (9962)%Z 0x0 0x23fb400023fbf;
  mkModel 0x2700000027 (-1)%Z 0x23fbf00023fc6 0x23fc600023fd3;
  mkModel 0x2700000027 (-1)%Z 0x23fd300023fda 0x23fda00023fee;
  mkModel 0x2700000027 (-1)%Z 0x23fee00023ff7 0x23ff700024008;
  mkModel 0x2700000027 (-1)%Z 0x240080002400e 0x2400e00024018;
  mkModel 0x2700000027 (9963)%Z 0x0 0x2401800024022;
  mkModel 0x23f00000249 (-1)%Z 0x2402200024029 0x2402900024039;
  mkModel 0x2700000027 (9965)%Z 0x0 0x2403f0002404a;
  mkModel 0x2700000027 (9966)%Z 0x0 0x2404a00024052;
  mkModel 0x2700000027 (-1)%Z 0x2405200024058 0x2405200024058;
  mkModel 0x2700000027 (-1)%Z 0x2405800024060 0x2405800024060;
  mkModel 0x2700000027 (-1)%Z 0x2406000024066 0x2406000024066;
  mkModel 0x2700000027 (-1)%Z 0x240660002406f 0x240660002406f;
  mkModel 0x2700000027 (-1)%Z 0x2406f00024078 0x1ea500001ea7;
  mkModel 0x2700000027 (-1)%Z 0x240780002407e 0x6fb200006fb4;
  mkModel 0x2700000027 (-1)%Z 0x2407e00024085 0x114a3000114a5;
  mkModel 0x2700000027 (9967)%Z 0x0 0x500000005006;
  mkModel 0x2700000027 (9968)%Z 0x0 0x18000000182;
  mkModel 0x2700000027 (9969)%Z 0x0 0x18000000182;
  mkModel 0x0 (-1)%Z 0x0 0x2408c00024097;
  mkModel 0x0 (-1)%Z 0x0 0x18000000182;
  mkModel 0x2700000027 (9973)%Z 0x0 0x240a3000240b0;
  mkModel 0x2700000027 (9974)%Z 0x0 0x18000000182;
  mkModel 0x2700000027 (9975)%Z 0x0 0x240b0000240bb;
  mkModel 0x2700000027 (9976)%Z 0x0 0x240bb000240ca;
  mkModel 0x2700000027 (9977)%Z 0x0 0x240ca000240d4;
  mkModel 0x2700000027 (9978)%Z 0x0 0x240d4000240e7;
  mkModel 0x2700000027 (9979)%Z 0x0 0x240e7000240f6;
  mkModel 0x2700000027 (9980)%Z 0x0 0x240f6000240fc;
  mkModel 0x2700000027 (9981)%Z 0x0 0x18000000182;
  mkModel 0x2a1000002a7 (9982)%Z 0x0 0x18000000182;
  mkModel 0x2a1000002a7 (9983)%Z 0x0 0x240fc00024103;
  mkModel 0x2a1000002a7 (9984)%Z 0x0 0x2410300024111;
  mkModel 0x23f00000249 (9986)%Z 0x0 0x241160002411d;
  mkModel 0x23f00000249 (-1)%Z 0x2411d00024127 0x2412700024133;
  mkModel 0x23f00000249 (-1)%Z 0x241330002413d 0x2413d00024146;
  mkModel 0x23f00000249 (-1)%Z 0x2414600024150 0x241500002415c;
  mkModel 0x23f00000249 (-1)%Z 0x2415c00024166 0x2416600024174;
  mkModel 0x23f00000249 (9987)%Z 0x0 0x2417400024183;
  mkModel 0x2700000027 (9988)%Z 0x0 0x18000000182;
  mkModel 0x2700000027 (9989)%Z 0x0 0x19b6600019b69;
  mkModel 0x2700000027 (9990)%Z 0x0 0x2419300024198;
  mkModel 0x2700000027 (9991)%Z 0x0 0x24198000241a0;
  mkModel 0x2700000027 (9992)%Z 0x0 0x241a0000241aa;
  mkModel 0x2700000027 (9993)%Z 0x0 0x241aa000241b2;
  mkModel 0x2700000027 (9994)%Z 0x0 0x241b2000241bb;
  mkModel 0x2700000027 (9995)%Z 0x0 0x1b1800001b1c;
  mkModel 0x2700000027 (9996)%Z 0x0 0x241bb000241c3;
  mkModel 0x2700000027 (9997)%Z 0x0 0x241c3000241cf;
  mkModel 0x2700000027 (9998)%Z 0x0 0x241cf000241d6;
  mkModel 0x2700000027 (9999)%Z 0x0 0x241d6000241dd;
  mkModel 0x2700000027 (10000)%Z 0x0 0x241dd000241e5;
  mkModel 0x2700000027 (10001)%Z 0x0 0x241e5000241ee;
  mkModel 0x2700000027 (10002)%Z 0x0 0x3d7000003dc;
  mkModel 0x2700000027 (10003)%Z 0x0 0x241ee000241f9;
  mkModel 0x2700000027 (10004)%Z 0x0 0x241f900024205;
  mkModel 0x2700000027 (10005)%Z 0x0 0x2420500024214;
  mkModel 0x2700000027 (10006)%Z 0x0 0x242140002421f;
  mkModel 0x2700000027 (10007)%Z 0x0 0x2421f0002422b;
  mkModel 0x2700000027 (10008)%Z 0x0 0x2422b00024230;
  mkModel 0x2700000027 (10009)%Z 0x0 0x2423000024238;
  mkModel 0x2700000027 (10010)%Z 0x0 0x2423800024246;
  mkModel 0x2700000027 (10011)%Z 0x0 0x2405200024058;
  mkModel 0x2700000027 (-1)%Z 0x2424600024253 0x2424600024253;
  mkModel 0x2700000027 (10012)%Z 0x0 0x242530002425d;
  mkModel 0x2700000027 (10013)%Z 0x0 0x2425d00024267;
  mkModel 0x2700000027 (10014)%Z 0x0 0x242670002426d;
  mkModel 0x2700000027 (10015)%Z 0x0 0x2426d00024273;
  mkModel 0x2700000027 (10016)%Z 0x0 0x2427300024278;
  mkModel 0x2700000027 (10017)%Z 0x0 0x242780002427e;
  mkModel 0x2700000027 (10018)%Z 0x0 0x133e9000133ed;
  mkModel 0x2700000027 (10019)%Z 0x0 0x14c9700014c9c;
  mkModel 0x2700000027 (10020)%Z 0x0 0x2427e00024287;
  mkModel 0x2700000027 (10021)%Z 0x0 0x242870002428f;
  mkModel 0x2700000027 (10022)%Z 0x0 0x2428f00024294
].
Definition d_dr_dm_65 : list modelTuple := [
  mkModel 0x2700000027 (10023)%Z 0x0 0x24294000242a2;
  mkModel 0x2700000027 (10024)%Z 0x0 0x8f8800008f90;
  mkModel 0x2700000027 (10025)%Z 0x0 0x8faa00008fb0;
  mkModel 0x2a1000002a7 (10026)%Z 0x0 0x242a2000242ae;
  mkModel 0x2a1000002a7 (10027)%Z 0x0 0x242ae000242b9;
  mkModel 0x2a1000002a7 (10028)%Z 0x0 0x242b9000242c4;
  mkModel 0x2700000027 (10029)%Z 0x0 0x18000000182;
  mkModel 0x2700000027 (10030)%Z 0x0 0x18000000182;
  mkModel 0x2700000027 (-1)%Z 0x242c9000242d4 0x242d4000242e3;
  mkModel 0x2700000027 (-1)%Z 0x242e3000242f1 0x242f1000242f8;
  mkModel 0x2a1000002a7 (-1)%Z 0x242fe00024305 0x2430500024311;
  mkModel 0x2a1000002a7 (-1)%Z 0x2431100024315 0x2431500024321;
  mkModel 0x2a1000002a7 (-1)%Z 0x2432100024327 0x243270002432e;
  mkModel 0x2a1000002a7 (-1)%Z 0x2432e0002433d 0x2433d00024349;
  mkModel 0x2a1000002a7 (-1)%Z 0x2434900024359 0x2435900024366;
  mkModel 0x2a1000002a7 (10033)%Z 0x0 0x243660002436d;
  mkModel 0x2a1000002a7 (10034)%Z 0x0 0x243660002436d;
  mkModel 0x2700000027 (-1)%Z 0x2436d00024379 0x243790002438b;
  mkModel 0x2700000027 (-1)%Z 0x2438b00024392 0x243920002439b;
  mkModel 0x2700000027 (-1)%Z 0x2439b000243a2 0x243a2000243ac;
  mkModel 0x2700000027 (-1)%Z 0x243ac000243b3 0x243b3000243bd;
  mkModel 0x2700000027 (-1)%Z 0x243bd000243c4 0x243c4000243ce;
  mkModel 0x2700000027 (-1)%Z 0x243ce000243d5 0x243d5000243df;
  mkModel 0x2700000027 (10035)%Z 0x0 0x243df000243ea;
  mkModel 0x2700000027 (10036)%Z 0x0 0x243ea000243f3;
  mkModel 0x2700000027 (10037)%Z 0x0 0x14f6300014f6b;
  mkModel 0x2700000027 (-1)%Z 0x243f300024405 0x243f300024405;
  mkModel 0x2700000027 (10038)%Z 0x0 0x2440500024412;
  mkModel 0x2700000027 (10039)%Z 0x0 0x244120002441b;
  mkModel 0x2700000027 (-1)%Z 0x2441b0002442b 0x2442b00024434;
  mkModel 0x2700000027 (-1)%Z 0x2443400024443 0x244430002444b;
  mkModel 0x2700000027 (10040)%Z 0x0 0x2444b00024454;
  mkModel 0x2700000027 (10041)%Z 0x0 0x18000000182;
  mkModel 0x23b0000023d (10042)%Z 0x0 0x10e9000010f6;
  mkModel 0x23b0000023d (10043)%Z 0x0 0x2700000027;
  mkModel 0x2700000027 (-1)%Z 0x2445900024469 0x2446900024478;
  mkModel 0x2700000027 (10045)%Z 0x0 0x18000000182;
  mkModel 0x0 (-1)%Z 0x0 0x500000005006;
  mkModel 0x0 (-1)%Z 0x0 0x2448500024490;
  mkModel 0x39a000003a7 (-1)%Z 0x24498000244a6 0x244a6000244ab;
  mkModel 0x2700000027 (10049)%Z 0x0 0x18000000182;
  mkModel 0x2a1000002a7 (10050)%Z 0x0 0x244ab000244b0;
  mkModel 0x2700000027 (10051)%Z 0x0 0x244b0000244b8;
  mkModel 0x2700000027 (10052)%Z 0x0 0x244b8000244be;
  mkModel 0x2700000027 (10053)%Z 0x0 0x244be000244cc;
  mkModel 0x2700000027 (10054)%Z 0x0 0x244cc000244d5;
  mkModel 0x2700000027 (10055)%Z 0x0 0x244d5000244de;
  mkModel 0x2700000027 (10056)%Z 0x0 0x244de000244e9;
  mkModel 0x2700000027 (10057)%Z 0x0 0x244e9000244f4;
  mkModel 0x2700000027 (10058)%Z 0x0 0x244f4000244fd;
  mkModel 0x2700000027 (10059)%Z 0x0 0x244fd00024505;
  mkModel 0x2700000027 (10060)%Z 0x0 0x18000000182;
  mkModel 0x2700000027 (10061)%Z 0x0 0x2450500024514;
  mkModel 0x2700000027 (10062)%Z 0x0 0x2451400024526;
  mkModel 0x2700000027 (10063)%Z 0x0 0x2452600024537;
  mkModel 0x0 (-1)%Z 0x0 0x18000000182;
  mkModel 0x23f00000249 (10066)%Z 0x0 0x245460002454a;
  mkModel 0x23f00000249 (10067)%Z 0x0 0x2454a00024551;
  mkModel 0x23f00000249 (10068)%Z 0x0 0x245510002455d;
  mkModel 0x2a1000002a7 (-1)%Z 0x2455d00024564 0x245640002456f;
  mkModel 0x2a1000002a7 (10069)%Z 0x0 0x2456f00024579;
  mkModel 0x2700000027 (10070)%Z 0x0 0x18000000182;
  mkModel 0x2700000027 (10071)%Z 0x0 0x2457900024593;
  mkModel 0x2700000027 (10072)%Z 0x0 0x2459a000245a2;
  mkModel 0x2700000027 (10073)%Z 0x0 0xb5c70000b5cf;
  mkModel 0x2700000027 (10074)%Z 0x0 0x18000000182;
  mkModel 0x2700000027 (-1)%Z 0x245a7000245b1 0x245b1000245b4;
  mkModel 0x2700000027 (-1)%Z 0x245b4000245bf 0x245bf000245c2;
  mkModel 0x2700000027 (-1)%Z 0x245c2000245cd 0x245cd000245d0;
  mkModel 0x2700000027 (-1)%Z 0x245d0000245db 0x245db000245de;
  mkModel 0x2700000027 (-1)%Z 0x245de000245e9 0x245e9000245ec;
  mkModel 0x2700000027 (-1)%Z 0x245ec000245f6 0x245f6000245f9;
  mkModel 0x2700000027 (-1)%Z 0x245f900024604 0x2460400024607;
  mkModel 0x2700000027 (10076)%Z 0x0 0x246070002460a;
  mkModel 0x0 (-1)%Z 0x0 0x18000000182;
  mkModel 0x2700000027 (-1)%Z 0x246140002461b 0x246140002461b;
  mkModel 0x2700000027 (-1)%Z 0x2461b00024627 0x246270002462c;
  mkModel 0x2a1000002a7 (-1)%Z 0x2462c00024631 0x2462c00024631;
  mkModel 0x0 (-1)%Z 0x0 0x18000000182;
  mkModel 0x2700000027 (10081)%Z 0x0 0x183f1000183f4;
  mkModel 0x2700000027 (10082)%Z 0x0 0x246360002463c;
  mkModel 0x2700000027 (10083)%Z 0x0 0x2463c00024642;
  mkModel 0x2700000027 (10084)%Z 0x0 0x4c3d00004c43;
  mkModel 0x2700000027 (10086)%Z 0x0 0x246470002464b;
  mkModel 0x2a1000002a7 (10087)%Z 0x0 0x18000000182;
  mkModel 0x2700000027 (10089)%Z 0x0 0x2465c00024666;
  mkModel 0x2700000027 (10090)%Z 0x0 0x18000000182;
  mkModel 0x2700000027 (-1)%Z 0x2467200024681 0x2468100024685;
  mkModel 0x2700000027 (-1)%Z 0x246850002468c 0x246850002468c;
  mkModel 0x2700000027 (10093)%Z 0x0 0x24697000246aa;
  mkModel 0x2700000027 (-1)%Z 0x246aa000246b6 0x246b6000246cd;
  mkModel 0x2700000027 (10094)%Z 0x0 0x246cd000246de;
  mkModel 0x2700000027 (10096)%Z 0x0 0x18000000182;
  mkModel 0x2700000027 (10097)%Z 0x0 0x18000000182;
  mkModel 0x2700000027 (10098)%Z 0x0 0x18000000182;
  mkModel 0x2700000027 (10100)%Z 0x0 0x246ec00024701;
  mkModel 0x0 (-1)%Z 0x0 0x18000000182;
  mkModel 0x2700000027 (10103)%Z 0x0 0x500000005006;
  mkModel 0x2700000027 (10104)%Z 0x0 0x2470d00024715;
  mkModel 0x2700000027 (10105)%Z 0x0 0x247150002471c;
  mkModel 0x2700000027 (-1)%Z 0x2471c00024721 0x2471c00024721;
  mkModel 0x2700000027 (10106)%Z 0x0 0x2472100024724;
  mkModel 0x2700000027 (10107)%Z 0x0 0x4c4f00004c57;
  mkModel 0x2700000027 (10109)%Z 0x0 0x2472900024733;
  mkModel 0x2700000027 (10110)%Z 0x0 0x2473300024738;
  mkModel 0x2700000027 (10111)%Z 0x0 0x2473800024746;
  mkModel 0x2700000027 (10112)%Z 0x0 0x247460002474f;
  mkModel 0x2700000027 (10113)%Z 0x0 0x2474f00024757;
  mkModel 0x2700000027 (10114)%Z 0x0 0x247570002475e;
  mkModel 0x2700000027 (10115)%Z 0x0 0x2475e00024764;
  mkModel 0x2700000027 (10116)%Z 0x0 0x247640002476b;
  mkModel 0x2700000027 (10117)%Z 0x0 0x18000000182;
  mkModel 0x2700000027 (10118)%Z 0x0 0x2476b0002477c;
  mkModel 0x2700000027 (10119)%Z 0x0 0x4c3d00004c43;
  mkModel 0x2a1000002a7 (10120)%Z 0x0 0x2477c00024786;
  mkModel 0x2a1000002a7 (10121)%Z 0x0 0x2477c00024786;
  mkModel 0x23b0000023d (10122)%Z 0x0 0x18000000182;
  mkModel 0x2a1000002a7 (-1)%Z 0x2478a00024790 0x1bb190001bb1c;
  mkModel 0x2a1000002a7 (-1)%Z 0x2479000024796 0x1831b00018320;
  mkModel 0x2a1000002a7 (-1)%Z 0x247960002479c 0x182fb00018304;
  mkModel 0x2a1000002a7 (-1)%Z 0x2479c000247a2 0x247a2000247a7;
  mkModel 0x2a1000002a7 (-1)%Z 0x247a7000247ad 0x182dd000182e4;
  mkModel 0x2a1000002a7 (-1)%Z 0x247ad000247b3 0x247b3000247b9;
  mkModel 0x2a1000002a7 (-1)%Z 0x247b9000247c0 0x247c0000247c8;
  mkModel 0x2a1000002a7 (-1)%Z 0x247c8000247cf 0x247cf000247db;
  mkModel 0x2a1000002a7 (-1)%Z 0x247db000247e2 0x247e2000247ef;
  mkModel 0x2a1000002a7 (-1)%Z 0x247ef000247f6 0x247f6000247ff;
  mkModel 0x2a1000002a7 (-1)%Z 0x247ff00024805 0x248050002480e;
  mkModel 0xdfd00000e04 (10124)%Z 0x0 0x2480e00024814;
  mkModel 0xdfd00000e04 (-1)%Z 0x248140002481a 0x2481a00024820;
  mkModel 0xdfd00000e04 (-1)%Z 0x2482000024826 0x248260002482c;
  mkModel 0xdfd00000e04 (-1)%Z 0x2482c00024832 0x248320002483a;
  mkModel 0xdfd00000e04 (10125)%Z 0x0 0x2483a00024842;
  mkModel 0xdfd00000e04 (-1)%Z 0x2484200024847 0x2484700024853;
  mkModel 0xdfd00000e04 (-1)%Z 0x2485300024859 0x2485900024860;
  mkModel 0x2700000027 (10126)%Z 0x0 0x18000000182;
  mkModel 0x2700000027 (-1)%Z 0x2486000024866 0x10fa900010fab;
  mkModel 0x2700000027 (-1)%Z 0x248660002486c 0x2486c00024870;
  mkModel 0x2700000027 (-1)%Z 0x2487000024876 0x248760002487e;
  mkModel 0x2700000027 (-1)%Z 0x2487e00024883 0x248830002488a;
  mkModel 0x2700000027 (-1)%Z 0x2488a0002488f 0x2488f00024893;
  mkModel 0x2700000027 (-1)%Z 0x2489300024898 0x24898000248a3;
  mkModel 0x2700000027 (10127)%Z 0x0 0x248a3000248ab;
  mkModel 0x2700000027 (10128)%Z 0x0 0x248ab000248b5;
  mkModel 0x2700000027 (10129)%Z 0x0 0x248b5000248b9;
  mkModel 0x2700000027 (-1)%Z 0x248b9000248bf 0x248bf000248c7;
  mkModel 0x2700000027 (10130)%Z 0x0 0x248c7000248d1;
  mkModel 0x2700000027 (-1)%Z 0x248d1000248d6 0x248d6000248dd;
  mkModel 0x2700000027 (10131)%Z 0x0 0x248dd000248e5;
  mkModel 0x2700000027 (-1)%Z 0x248e5000248eb 0x248eb000248f8;
  mkModel 0x2700000027 (10132)%Z 0x0 0x248f8000248fc;
  mkModel 0x2700000027 (-1)%Z 0x248fc00024902 0x2490200024907;
  mkModel 0x2700000027 (-1)%Z 0x249070002490e 0x2490e00024917;
  mkModel 0x2700000027 (-1)%Z 0x249170002491d 0x2491d00024922;
  mkModel 0x2700000027 (10133)%Z 0x0 0x2492200024929;
  mkModel 0x2700000027 (-1)%Z 0x2492900024930 0x2493000024937;
  mkModel 0x2700000027 (-1)%Z 0x249370002493d 0x2493d00024942;
  mkModel 0x2700000027 (10134)%Z 0x0 0x249420002494a;
  mkModel 0x2700000027 (-1)%Z 0x2494a00024951 0x2495100024959;
  mkModel 0x2700000027 (10135)%Z 0x0 0x249590002495d;
  mkModel 0x2700000027 (10136)%Z 0x0 0x2495d00024963;
  mkModel 0x2700000027 (10137)%Z 0x0 0x2496300024969;
  mkModel 0x2700000027 (10138)%Z 0x0 0x2496900024972;
  mkModel 0x2700000027 (10139)%Z 0x0 0x249720002497c;
  mkModel 0x2700000027 (10140)%Z 0x0 0x2497c00024983;
  mkModel 0x2700000027 (-1)%Z 0x2498300024989 0x2498900024994;
  mkModel 0x2700000027 (-1)%Z 0x249940002499a 0x2499a000249a1;
  mkModel 0x2700000027 (10141)%Z 0x0 0x249a1000249a8;
  mkModel 0x2700000027 (-1)%Z 0x249a8000249ae 0x249ae000249b6;
  mkModel 0x2700000027 (-1)%Z 0x249b6000249bc 0x249bc000249c7;
  mkModel 0x2700000027 (10142)%Z 0x0 0x249c7000249ce;
  mkModel 0x2700000027 (-1)%Z 0x249ce000249d4 0x249d4000249df;
  mkModel 0x2700000027 (10143)%Z 0x0 0x249df000249e6;
  mkModel 0x2700000027 (-1)%Z 0x249e6000249ec 0x249ec000249f3;
  mkModel 0x2700000027 (10144)%Z 0x0 0x249f3000249fc;
  mkModel 0x2700000027 (10145)%Z 0x0 0x249fc00024a03;
  mkModel 0x2700000027 (-1)%Z 0x24a0300024a0a 0x24a0a00024a12;
  mkModel 0x2700000027 (-1)%Z 0x24a1200024a1f 0x24a1200024a1f;
  mkModel 0x2700000027 (-1)%Z 0x24a1f00024a2b 0x24a1f00024a2b;
  mkModel 0x2700000027 (10146)%Z 0x0 0x24a2b00024a31;
  mkModel 0x2700000027 (10147)%Z 0x0 0x24a3100024a3c;
  mkModel 0x2700000027 (-1)%Z 0x24a3c00024a41 0x24a4100024a4d;
  mkModel 0x2700000027 (-1)%Z 0x24a4d00024a52 0x24a5200024a56;
  mkModel 0x2700000027 (-1)%Z 0x24a5600024a5c 0x24a5c00024a6b;
  mkModel 0x2700000027 (-1)%Z 0x24a6b00024a71 0x24a7100024a81;
  mkModel 0x2700000027 (-1)%Z 0x24a8100024a87 0x24a8700024a91;
  mkModel 0x2700000027 (10148)%Z 0x0 0x24a9100024a9b;
  mkModel 0x2700000027 (-1)%Z 0x24a9b00024aa1 0x24aa100024aba;
  mkModel 0x2700000027 (-1)%Z 0x24aba00024abf 0x24abf00024acd;
  mkModel 0x2700000027 (-1)%Z 0x24acd00024ad3 0x24ad300024ae0;
  mkModel 0x2700000027 (-1)%Z 0x24ae000024ae6 0x24ae600024af4;
  mkModel 0x2700000027 (10149)%Z 0x0 0x24af400024b02;
  mkModel 0x2700000027 (-1)%Z 0x24b0200024b08 0x24b0800024b12;
  mkModel 0x2700000027 (-1)%Z 0x24b1200024b19 0x24b1900024b28;
  mkModel 0x2700000027 (-1)%Z 0x24b2800024b2e 0x24b2e00024b3e;
  mkModel 0x2700000027 (-1)%Z 0x24b3e00024b44 0x24b4400024b51;
  mkModel 0x2700000027 (10150)%Z 0x0 0x24b5100024b5c;
  mkModel 0x2700000027 (10151)%Z 0x0 0x24b5c00024b65;
  mkModel 0x2700000027 (10152)%Z 0x0 0x24b6500024b6d;
  mkModel 0x2700000027 (10153)%Z 0x0 0x24b6d00024b78
].
Definition d_dr_dm_66 : list modelTuple := [
  mkModel 0x2700000027 (10154)%Z 0x0 0x24b7800024b80;
  mkModel 0x2700000027 (10155)%Z 0x0 0x24b8000024b8a;
  mkModel 0x2700000027 (10156)%Z 0x0 0x24b8a00024b96;
  mkModel 0x2700000027 (-1)%Z 0x24b9600024b9c 0x24b9c00024ba6;
  mkModel 0x2700000027 (10157)%Z 0x0 0x24ba600024bb5;
  mkModel 0x2700000027 (10158)%Z 0x0 0x24bb500024bbf;
  mkModel 0x2700000027 (10159)%Z 0x0 0x24bbf00024bcc;
  mkModel 0x2700000027 (10160)%Z 0x0 0x24bcc00024bd3;
  mkModel 0x2700000027 (10161)%Z 0x0 0x24bd300024bdb;
  mkModel 0x2700000027 (10162)%Z 0x0 0x24bdb00024be6;
  mkModel 0x2700000027 (-1)%Z 0x24be600024bec 0x24bec00024bf5;
  mkModel 0x2700000027 (-1)%Z 0x24bf500024bfa 0x24bfa00024c06;
  mkModel 0x2700000027 (10163)%Z 0x0 0x24c0600024c12;
  mkModel 0x2700000027 (-1)%Z 0x24c1200024c17 0x24c1700024c22;
  mkModel 0x2700000027 (-1)%Z 0x24c2200024c28 0x24c2800024c36;
  mkModel 0x2700000027 (-1)%Z 0x24c3600024c3c 0x24c3c00024c4b;
  mkModel 0x2700000027 (-1)%Z 0x24c4b00024c50 0x24c5000024c5d;
  mkModel 0x2700000027 (-1)%Z 0x24c5d00024c62 0x24c6200024c72;
  mkModel 0x2700000027 (-1)%Z 0x24c7200024c78 0x24c7800024c8a;
  mkModel 0x2700000027 (10164)%Z 0x0 0x24c8a00024c91;
  mkModel 0x2700000027 (-1)%Z 0x24c9100024c98 0x24c9100024c98;
  mkModel 0x2700000027 (10165)%Z 0x0 0x24c9800024ca0;
  mkModel 0x2700000027 (-1)%Z 0x24ca000024ca6 0x24ca600024cb1;
  mkModel 0x2700000027 (10166)%Z 0x0 0x24cb100024cbb;
  mkModel 0x2700000027 (10167)%Z 0x0 0x24cbb00024cc2;
  mkModel 0x2700000027 (10168)%Z 0x0 0x24cc200024cc9;
  mkModel 0x2700000027 (-1)%Z 0x24cc900024cd0 0x24cd000024cd8;
  mkModel 0x2700000027 (10169)%Z 0x0 0x24cd800024ce3;
  mkModel 0x2700000027 (10170)%Z 0x0 0x24ce300024cef;
  mkModel 0x2700000027 (-1)%Z 0x24cef00024cf5 0x24cf500024cfc;
  mkModel 0x2700000027 (-1)%Z 0x24cfc00024d03 0x24d0300024d0b;
  mkModel 0x2700000027 (10171)%Z 0x0 0x24d0b00024d15;
  mkModel 0x2700000027 (10172)%Z 0x0 0x24d1500024d23;
  mkModel 0x2700000027 (-1)%Z 0x24d2300024d29 0x24d2900024d31;
  mkModel 0x2700000027 (10173)%Z 0x0 0x24d3100024d3c;
  mkModel 0x2700000027 (10174)%Z 0x0 0x24d3c00024d47;
  mkModel 0x2700000027 (-1)%Z 0x24d4700024d4d 0x24d4d00024d54;
  mkModel 0x2700000027 (-1)%Z 0x24d5400024d5a 0x24d5a00024d62;
  mkModel 0x2700000027 (-1)%Z 0x24d6200024d68 0x24d6800024d6f;
  mkModel 0x2700000027 (10175)%Z 0x0 0x24d6f00024d79;
  mkModel 0x2700000027 (-1)%Z 0x24d7900024d80 0x24d8000024d97;
  mkModel 0x2700000027 (-1)%Z 0x24d9700024d9d 0x24d9d00024daa;
  mkModel 0x2700000027 (-1)%Z 0x24daa00024db0 0x24db000024dbe;
  mkModel 0x2700000027 (10176)%Z 0x0 0x24dbe00024dc9;
  mkModel 0x2700000027 (-1)%Z 0x24dc900024dce 0x24dce00024dd9;
  mkModel 0x2700000027 (-1)%Z 0x24dd900024dde 0x24dde00024ded;
  mkModel 0x2700000027 (-1)%Z 0x24ded00024df2 0x24df200024e01;
  mkModel 0x2700000027 (10177)%Z 0x0 0x24e0100024e08;
  mkModel 0x2700000027 (10178)%Z 0x0 0x24e0800024e10;
  mkModel 0x2700000027 (10179)%Z 0x0 0x24e1000024e17;
  mkModel 0x2700000027 (-1)%Z 0x24e1700024e1d 0x24e1d00024e25;
  mkModel 0x2700000027 (10180)%Z 0x0 0x24e2500024e30;
  mkModel 0x2700000027 (10181)%Z 0x0 0x24e3000024e3a;
  mkModel 0x2700000027 (10182)%Z 0x0 0x24e3a00024e40;
  mkModel 0x2700000027 (10183)%Z 0x0 0x24e4000024e4a;
  mkModel 0x2700000027 (10184)%Z 0x0 0x24e4a00024e50;
  mkModel 0x2700000027 (10185)%Z 0x0 0x24e5000024e54;
  mkModel 0x2700000027 (10186)%Z 0x0 0x24e5400024e5d;
  mkModel 0x2700000027 (10187)%Z 0x0 0x1130b0001130e;
  mkModel 0x2700000027 (10188)%Z 0x0 0x24e5d00024e60;
  mkModel 0x2700000027 (10189)%Z 0x0 0x24e6000024e66;
  mkModel 0x2700000027 (10190)%Z 0x0 0x24e6600024e6a;
  mkModel 0x2700000027 (10191)%Z 0x0 0x24e6a00024e71;
  mkModel 0x2700000027 (10192)%Z 0x0 0x24e7100024e7b;
  mkModel 0x2700000027 (10193)%Z 0x0 0x24e7b00024e7e;
  mkModel 0x2700000027 (10194)%Z 0x0 0x24e7e00024e81;
  mkModel 0x2700000027 (10195)%Z 0x0 0x24e8100024e84;
  mkModel 0x2700000027 (10196)%Z 0x0 0x24e8400024e89;
  mkModel 0x2700000027 (10197)%Z 0x0 0x24e8900024e91;
  mkModel 0x2700000027 (10198)%Z 0x0 0x24e9100024e97;
  mkModel 0x2700000027 (10199)%Z 0x0 0x24e9700024e9c;
  mkModel 0x2700000027 (10200)%Z 0x0 0x24e9c00024ea5;
  mkModel 0x2700000027 (10201)%Z 0x0 0x24ea500024eaa;
  mkModel 0x2700000027 (10202)%Z 0x0 0x24e8100024e84;
  mkModel 0x2700000027 (10203)%Z 0x0 0x24eaa00024eba;
  mkModel 0x2700000027 (10204)%Z 0x0 0xb8a50000b8a8;
  mkModel 0x2700000027 (-1)%Z 0x24eba00024ec0 0x24ec000024ec4;
  mkModel 0x2700000027 (-1)%Z 0x24ec400024ecb 0x24ecb00024ed3;
  mkModel 0x2700000027 (10205)%Z 0x0 0x24ed300024ed8;
  mkModel 0x2700000027 (-1)%Z 0x24ed800024edd 0x24edd00024ee6;
  mkModel 0x2700000027 (-1)%Z 0x24ee600024eeb 0x24eeb00024ef0;
  mkModel 0x2700000027 (-1)%Z 0x24ef000024ef5 0x24ef500024ef8;
  mkModel 0x2700000027 (-1)%Z 0x24ef800024efe 0x24efe00024f01;
  mkModel 0x2700000027 (10206)%Z 0x0 0x24f0100024f07;
  mkModel 0x2700000027 (10207)%Z 0x0 0x2051e00020520;
  mkModel 0x2700000027 (-1)%Z 0x24f0700024f0c 0x24f0c00024f11;
  mkModel 0x2700000027 (-1)%Z 0x24f1100024f16 0x24f1600024f1f;
  mkModel 0x2700000027 (-1)%Z 0x24f1f00024f24 0x24f0c00024f11;
  mkModel 0x2700000027 (-1)%Z 0x24f2400024f29 0x24f2900024f31;
  mkModel 0x2700000027 (-1)%Z 0x24f3100024f36 0x24f3600024f3f;
  mkModel 0x2700000027 (-1)%Z 0x24f3f00024f44 0x24f4400024f49;
  mkModel 0x2700000027 (10208)%Z 0x0 0x24f4900024f53;
  mkModel 0x2700000027 (10209)%Z 0x0 0x24f5300024f59;
  mkModel 0x2700000027 (-1)%Z 0x24f5900024f5e 0x24f5e00024f64;
  mkModel 0x2700000027 (-1)%Z 0x24f6400024f69 0x24f6900024f6f;
  mkModel 0x2700000027 (-1)%Z 0x24f6f00024f74 0x24f7400024f7a;
  mkModel 0x2700000027 (-1)%Z 0x24f7a00024f7f 0x24f7f00024f84;
  mkModel 0x2700000027 (-1)%Z 0x24f8400024f89 0x24f8900024f93;
  mkModel 0x2700000027 (-1)%Z 0x24f9300024f9a 0x24f9a00024f9f;
  mkModel 0x2700000027 (10210)%Z 0x0 0x24f9f00024fa2;
  mkModel 0x2700000027 (-1)%Z 0x24fa200024fa8 0x24fa800024faf;
  mkModel 0x2700000027 (-1)%Z 0x24faf00024fb5 0x24fb500024fbc;
  mkModel 0x2700000027 (-1)%Z 0x24fbc00024fc2 0x24fc200024fc5;
  mkModel 0x2700000027 (-1)%Z 0x24fc500024fcb 0x24fcb00024fce;
  mkModel 0x2700000027 (10211)%Z 0x0 0x1e3400001e36;
  mkModel 0x2700000027 (10212)%Z 0x0 0x4d8400004d8a;
  mkModel 0x2700000027 (-1)%Z 0x24fce00024fd4 0x11af200011af5;
  mkModel 0x2700000027 (-1)%Z 0x24fd400024fda 0x183f1000183f4;
  mkModel 0x2700000027 (-1)%Z 0x24fda00024fe0 0x24fe000024fe7;
  mkModel 0x2700000027 (-1)%Z 0x24fe700024fed 0x171a8000171ab;
  mkModel 0x2700000027 (-1)%Z 0x24fed00024ff3 0x24ff300024fff;
  mkModel 0x2700000027 (10213)%Z 0x0 0x24fff00025002;
  mkModel 0x2700000027 (-1)%Z 0x2500200025007 0x250070002500b;
  mkModel 0x2700000027 (-1)%Z 0x2500b00025011 0x2501100025018;
  mkModel 0x2700000027 (10214)%Z 0x0 0x250180002501c;
  mkModel 0x2700000027 (-1)%Z 0x2501c00025021 0x2502100025028;
  mkModel 0x2700000027 (-1)%Z 0x250280002502d 0x2502d00025033;
  mkModel 0x2700000027 (-1)%Z 0x2503300025039 0x250390002503d;
  mkModel 0x2700000027 (-1)%Z 0x2503d00025042 0x250420002504c;
  mkModel 0x2700000027 (-1)%Z 0x2504c00025051 0x2505100025057;
  mkModel 0x2700000027 (10215)%Z 0x0 0x250570002505b;
  mkModel 0x2700000027 (-1)%Z 0x2505b00025061 0x2506100025067;
  mkModel 0x2700000027 (-1)%Z 0x250670002506e 0x2506e00025072;
  mkModel 0x2700000027 (10216)%Z 0x0 0x2507200025078;
  mkModel 0x2700000027 (-1)%Z 0x250780002507d 0x2507d00025084;
  mkModel 0x2700000027 (-1)%Z 0x2508400025089 0x250890002508d;
  mkModel 0x2700000027 (10217)%Z 0x0 0x2508d00025090;
  mkModel 0x2700000027 (-1)%Z 0x2509000025095 0x2509500025098;
  mkModel 0x2700000027 (-1)%Z 0x250980002509d 0x2509d000250a4;
  mkModel 0x2700000027 (-1)%Z 0x250a4000250a9 0x250a9000250ad;
  mkModel 0x2700000027 (-1)%Z 0x250ad000250b3 0x250b3000250bd;
  mkModel 0x2700000027 (-1)%Z 0x250bd000250c2 0x250c2000250c9;
  mkModel 0x2700000027 (-1)%Z 0x250c9000250ce 0x250ce000250d4;
  mkModel 0x2700000027 (-1)%Z 0x250d4000250d9 0x250d9000250e0;
  mkModel 0x2700000027 (-1)%Z 0x250e0000250e5 0x250e5000250ec;
  mkModel 0x2700000027 (10218)%Z 0x0 0x250ec000250ef;
  mkModel 0x2700000027 (10219)%Z 0x0 0x250ef000250f2;
  mkModel 0x2700000027 (-1)%Z 0x250f2000250f7 0x250f7000250fd;
  mkModel 0x2700000027 (-1)%Z 0x250fd00025102 0x2510200025109;
  mkModel 0x2700000027 (-1)%Z 0x251090002510e 0x2510e00025115;
  mkModel 0x2700000027 (10220)%Z 0x0 0x2511500025120;
  mkModel 0x2700000027 (10221)%Z 0x0 0x1168e00011691;
  mkModel 0x2700000027 (-1)%Z 0x2512000025125 0x251250002512d;
  mkModel 0x2700000027 (-1)%Z 0x2512d00025133 0x2513300025137;
  mkModel 0x2700000027 (10222)%Z 0x0 0x251370002513d;
  mkModel 0x2700000027 (10223)%Z 0x0 0x2513d00025148;
  mkModel 0x2700000027 (10224)%Z 0x0 0x251480002514c;
  mkModel 0x2700000027 (10225)%Z 0x0 0x2514c00025154;
  mkModel 0x2700000027 (-1)%Z 0x2515400025159 0x23de800023deb;
  mkModel 0x2700000027 (-1)%Z 0x251590002515e 0x86c4000086cb;
  mkModel 0x2700000027 (10226)%Z 0x0 0x2515e00025162;
  mkModel 0x2700000027 (10227)%Z 0x0 0x2516200025165;
  mkModel 0x2700000027 (-1)%Z 0x251650002516a 0x2516a0002516e;
  mkModel 0x2700000027 (10228)%Z 0x0 0x2516e00025176;
  mkModel 0x2700000027 (10229)%Z 0x0 0x2517600025181;
  mkModel 0x2700000027 (-1)%Z 0x2518100025186 0x87170000871e;
  mkModel 0x2700000027 (-1)%Z 0x251860002518b 0x2518b0002518f;
  mkModel 0x2700000027 (-1)%Z 0x2518f00025194 0x4d2200004d25;
  mkModel 0x2700000027 (-1)%Z 0x2519400025199 0x25199000251a1;
  mkModel 0x2700000027 (-1)%Z 0x251a1000251a6 0x251a6000251b1;
  mkModel 0x2700000027 (10230)%Z 0x0 0xaf3b0000af3d;
  mkModel 0x2700000027 (-1)%Z 0x251b1000251b7 0x251b7000251be;
  mkModel 0x2700000027 (10231)%Z 0x0 0x251be000251c3;
  mkModel 0x2700000027 (10232)%Z 0x0 0x251c3000251c9;
  mkModel 0x2700000027 (-1)%Z 0x251c9000251cf 0x251cf000251d3;
  mkModel 0x2700000027 (-1)%Z 0x251d3000251d9 0x251d9000251dc;
  mkModel 0x2700000027 (-1)%Z 0x251dc000251e2 0x251e2000251e9;
  mkModel 0x2700000027 (-1)%Z 0x251e9000251ef 0x251ef000251f3;
  mkModel 0x2700000027 (10233)%Z 0x0 0x210c7000210c9;
  mkModel 0x2700000027 (-1)%Z 0x251f3000251f9 0xc4140000c417;
  mkModel 0x2700000027 (-1)%Z 0x251f9000251ff 0x251ff00025203;
  mkModel 0x2700000027 (-1)%Z 0x2520300025209 0x252090002520d;
  mkModel 0x2700000027 (-1)%Z 0x2520d00025213 0x252130002521a;
  mkModel 0x2700000027 (10234)%Z 0x0 0x2521a0002521d;
  mkModel 0x2700000027 (10235)%Z 0x0 0x2521d00025220;
  mkModel 0x2700000027 (10236)%Z 0x0 0x2522000025226;
  mkModel 0x2700000027 (10237)%Z 0x0 0x252260002522f;
  mkModel 0x2700000027 (10238)%Z 0x0 0x2522f00025232;
  mkModel 0x2700000027 (10239)%Z 0x0 0x1c3300001c35;
  mkModel 0x2700000027 (10240)%Z 0x0 0x2523200025235;
  mkModel 0x2700000027 (10241)%Z 0x0 0x252350002523c;
  mkModel 0x2700000027 (10242)%Z 0x0 0x2523c00025240;
  mkModel 0x2700000027 (10243)%Z 0x0 0x2524000025243;
  mkModel 0x2700000027 (10244)%Z 0x0 0x252430002524a;
  mkModel 0x2700000027 (10245)%Z 0x0 0x2524a00025251;
  mkModel 0x2700000027 (10246)%Z 0x0 0x2525100025258;
  mkModel 0x2700000027 (10247)%Z 0x0 0x252580002525b;
  mkModel 0x2700000027 (10248)%Z 0x0 0x4d8400004d8a;
  mkModel 0x2700000027 (10249)%Z 0x0 0x2525b0002525e;
  mkModel 0x2700000027 (10250)%Z 0x0 0x23df900023dff;
  mkModel 0x2700000027 (10251)%Z 0x0 0x879e000087a5;
  mkModel 0x2700000027 (10252)%Z 0x0 0x2525e00025260;
  mkModel 0x2700000027 (10253)%Z 0x0 0x2526000025267;
  mkModel 0x2700000027 (10254)%Z 0x0 0x252670002526e;
  mkModel 0x2700000027 (10255)%Z 0x0 0x2526e00025271;
  mkModel 0x2700000027 (10256)%Z 0x0 0x1202300012025;
  mkModel 0x2700000027 (10257)%Z 0x0 0x2527100025275;
  mkModel 0x2700000027 (10258)%Z 0x0 0x252750002527c;
  mkModel 0x2700000027 (10259)%Z 0x0 0x2527c0002527e;
  mkModel 0x2700000027 (10260)%Z 0x0 0x2527e00025286
].
Definition d_dr_dm_67 : list modelTuple := [
  mkModel 0x2700000027 (10261)%Z 0x0 0x252860002528c;
  mkModel 0x2700000027 (10262)%Z 0x0 0x2528c00025292;
  mkModel 0x2700000027 (10263)%Z 0x0 0x252920002529a;
  mkModel 0x2700000027 (10264)%Z 0x0 0x2529a0002529d;
  mkModel 0x2700000027 (10265)%Z 0x0 0x2529d000252a0;
  mkModel 0x2700000027 (10266)%Z 0x0 0x252a0000252a7;
  mkModel 0x2700000027 (-1)%Z 0x252a7000252ae 0x252ae000252b2;
  mkModel 0x2700000027 (10267)%Z 0x0 0x252b2000252b8;
  mkModel 0x2700000027 (10268)%Z 0x0 0x252b8000252c3;
  mkModel 0x2700000027 (10269)%Z 0x0 0xb44f0000b452;
  mkModel 0x2700000027 (10270)%Z 0x0 0x252c3000252cb;
  mkModel 0x2700000027 (10271)%Z 0x0 0x252cb000252cf;
  mkModel 0x2700000027 (10272)%Z 0x0 0x252cf000252d5;
  mkModel 0x2700000027 (10273)%Z 0x0 0x252d5000252d8;
  mkModel 0x2700000027 (10274)%Z 0x0 0x252d8000252dc;
  mkModel 0x2700000027 (10275)%Z 0x0 0x252dc000252df;
  mkModel 0x2700000027 (10276)%Z 0x0 0x252dc000252df;
  mkModel 0x2700000027 (10277)%Z 0x0 0x252df000252e2;
  mkModel 0x2700000027 (10278)%Z 0x0 0x252e2000252e9;
  mkModel 0x2700000027 (10279)%Z 0x0 0x252e9000252ec;
  mkModel 0x2700000027 (10280)%Z 0x0 0x252ec000252f3;
  mkModel 0x2700000027 (10281)%Z 0x0 0xc87e0000c881;
  mkModel 0x2700000027 (10282)%Z 0x0 0x252f3000252f7;
  mkModel 0x2700000027 (10283)%Z 0x0 0x1ba1b0001ba21;
  mkModel 0x2700000027 (10284)%Z 0x0 0x252f7000252ff;
  mkModel 0x2700000027 (10285)%Z 0x0 0x1ba280001ba2f;
  mkModel 0x2700000027 (10286)%Z 0x0 0x252ff0002530b;
  mkModel 0x2700000027 (10287)%Z 0x0 0xc6e90000c6ec;
  mkModel 0x2700000027 (10288)%Z 0x0 0x2530b0002530f;
  mkModel 0x2700000027 (10289)%Z 0x0 0xc6ec0000c6f3;
  mkModel 0x2700000027 (10290)%Z 0x0 0x2530f0002531b;
  mkModel 0x2700000027 (10291)%Z 0x0 0x2531b00025322;
  mkModel 0x2700000027 (10292)%Z 0x0 0x253220002532a;
  mkModel 0x2700000027 (10293)%Z 0x0 0xc4dd0000c4e0;
  mkModel 0x2700000027 (10294)%Z 0x0 0x2532a00025330;
  mkModel 0x2700000027 (10295)%Z 0x0 0x2533000025333;
  mkModel 0x2700000027 (-1)%Z 0x2533300025339 0x252a0000252a7;
  mkModel 0x2700000027 (-1)%Z 0x253390002533f 0x2533f00025347;
  mkModel 0x2700000027 (10296)%Z 0x0 0x253470002534e;
  mkModel 0x2700000027 (10297)%Z 0x0 0x2534e00025359;
  mkModel 0x2700000027 (10298)%Z 0x0 0xb5c70000b5cf;
  mkModel 0x2700000027 (10299)%Z 0x0 0x2535900025361;
  mkModel 0x2700000027 (10300)%Z 0x0 0x2536100025364;
  mkModel 0x2700000027 (10301)%Z 0x0 0x2536400025367;
  mkModel 0x2700000027 (10302)%Z 0x0 0x253670002536b;
  mkModel 0x2700000027 (10303)%Z 0x0 0x2536b0002536e;
  mkModel 0x2700000027 (10304)%Z 0x0 0x2536e00025372;
  mkModel 0x2700000027 (-1)%Z 0x2537200025377 0x253770002537b;
  mkModel 0x2700000027 (-1)%Z 0x2537b00025380 0x2538000025384;
  mkModel 0x2700000027 (-1)%Z 0x2538400025389 0x253890002538d;
  mkModel 0x2700000027 (10305)%Z 0x0 0x2538d00025390;
  mkModel 0x2700000027 (10306)%Z 0x0 0x4d6700004d6a;
  mkModel 0x2700000027 (-1)%Z 0x2539000025396 0x2539600025399;
  mkModel 0x2700000027 (-1)%Z 0x253990002539f 0x2539f000253a5;
  mkModel 0x2700000027 (-1)%Z 0x253a5000253ab 0x253ab000253b2;
  mkModel 0x2700000027 (10307)%Z 0x0 0x251480002514c;
  mkModel 0x2700000027 (-1)%Z 0x253b2000253b7 0x2051700020519;
  mkModel 0x2700000027 (-1)%Z 0x253b7000253bc 0x253bc000253bf;
  mkModel 0x2700000027 (10308)%Z 0x0 0x253bf000253c3;
  mkModel 0x2700000027 (10309)%Z 0x0 0x253c3000253c7;
  mkModel 0x2700000027 (10310)%Z 0x0 0x253c7000253cb;
  mkModel 0x2700000027 (10311)%Z 0x0 0x253cb000253ce;
  mkModel 0x2700000027 (10312)%Z 0x0 0x253ce000253d2;
  mkModel 0x2700000027 (10313)%Z 0x0 0x253d2000253d5;
  mkModel 0x2700000027 (10314)%Z 0x0 0x253d5000253d9;
  mkModel 0x2700000027 (10315)%Z 0x0 0x253d9000253dc;
  mkModel 0x2700000027 (-1)%Z 0x253dc000253e2 0x253e2000253e9;
  mkModel 0x2700000027 (10316)%Z 0x0 0x253e9000253ed;
  mkModel 0x2700000027 (10317)%Z 0x0 0x253ed000253f1;
  mkModel 0x2700000027 (10318)%Z 0x0 0x253f1000253f4;
  mkModel 0x2700000027 (-1)%Z 0x253f4000253f9 0x253f9000253fd;
  mkModel 0x2700000027 (10319)%Z 0x0 0x253fd00025401;
  mkModel 0x2700000027 (10320)%Z 0x0 0x2540100025405;
  mkModel 0x2700000027 (10321)%Z 0x0 0x2540500025408;
  mkModel 0x2700000027 (-1)%Z 0x254080002540d 0x2540d00025413;
  mkModel 0x2700000027 (10322)%Z 0x0 0x2541300025417;
  mkModel 0x2700000027 (10323)%Z 0x0 0x254170002541f;
  mkModel 0x2700000027 (-1)%Z 0x2541f00025424 0x2542400025428;
  mkModel 0x2700000027 (10324)%Z 0x0 0x254280002542c;
  mkModel 0x2700000027 (10325)%Z 0x0 0x2542c0002542f;
  mkModel 0x2700000027 (10326)%Z 0x0 0x2542f00025432;
  mkModel 0x2700000027 (-1)%Z 0x2543200025437 0x254370002543a;
  mkModel 0x2700000027 (-1)%Z 0x2543a0002543f 0x2543f00025443;
  mkModel 0x2700000027 (-1)%Z 0x2544300025448 0x254480002544e;
  mkModel 0x2700000027 (10327)%Z 0x0 0x2544e00025452;
  mkModel 0x2700000027 (10328)%Z 0x0 0x1189500011898;
  mkModel 0x2700000027 (10329)%Z 0x0 0x254520002545c;
  mkModel 0x2700000027 (10330)%Z 0x0 0x2545c00025460;
  mkModel 0x2700000027 (10331)%Z 0x0 0x2546000025464;
  mkModel 0x2700000027 (10332)%Z 0x0 0x2546400025468;
  mkModel 0x2700000027 (10333)%Z 0x0 0x2546800025473;
  mkModel 0x2700000027 (10334)%Z 0x0 0x2547300025477;
  mkModel 0x2700000027 (10335)%Z 0x0 0x254770002547b;
  mkModel 0x2700000027 (10336)%Z 0x0 0x254520002545c;
  mkModel 0x2700000027 (-1)%Z 0x2547b00025481 0x2548100025486;
  mkModel 0x2700000027 (-1)%Z 0x254860002548c 0x2548c0002548f;
  mkModel 0x2700000027 (-1)%Z 0x2548f00025495 0x2549500025499;
  mkModel 0x2700000027 (10337)%Z 0x0 0x254990002549f;
  mkModel 0x2700000027 (-1)%Z 0x2549f000254a5 0x254a5000254ac;
  mkModel 0x2700000027 (-1)%Z 0x254ac000254b2 0x254b2000254b9;
  mkModel 0x2700000027 (-1)%Z 0x254b9000254be 0x254be000254c1;
  mkModel 0x2700000027 (-1)%Z 0x254c1000254c7 0x254c7000254ca;
  mkModel 0x2700000027 (-1)%Z 0x254ca000254cf 0x254cf000254d5;
  mkModel 0x2700000027 (10338)%Z 0x0 0x254280002542c;
  mkModel 0x2700000027 (-1)%Z 0x254d5000254da 0x254da000254de;
  mkModel 0x2700000027 (-1)%Z 0x254de000254e3 0x254e3000254e7;
  mkModel 0x2700000027 (10339)%Z 0x0 0x254e7000254eb;
  mkModel 0x2700000027 (10340)%Z 0x0 0x254eb000254ee;
  mkModel 0x2700000027 (10341)%Z 0x0 0x254ee000254f2;
  mkModel 0x2700000027 (10342)%Z 0x0 0x254f2000254f6;
  mkModel 0x2700000027 (10343)%Z 0x0 0x254f6000254fa;
  mkModel 0x2700000027 (10344)%Z 0x0 0x23df900023dff;
  mkModel 0x2700000027 (10345)%Z 0x0 0x254fa000254fc;
  mkModel 0x2700000027 (-1)%Z 0x254fc00025501 0x2550100025504;
  mkModel 0x2700000027 (-1)%Z 0x255040002550a 0x2550a00025515;
  mkModel 0x2700000027 (-1)%Z 0x255150002551c 0x2551c00025521;
  mkModel 0x2700000027 (-1)%Z 0x2552100025527 0x255270002552b;
  mkModel 0x2700000027 (-1)%Z 0x2552b00025530 0x2553000025537;
  mkModel 0x2700000027 (-1)%Z 0x255370002553d 0x2553d00025548;
  mkModel 0x2700000027 (-1)%Z 0x255480002554e 0x2554e00025557;
  mkModel 0x2700000027 (-1)%Z 0x255570002555d 0x2555d00025562;
  mkModel 0x2700000027 (-1)%Z 0x2556200025567 0x2556700025573;
  mkModel 0x2700000027 (10346)%Z 0x0 0x2557300025576;
  mkModel 0x2700000027 (10347)%Z 0x0 0x255760002557c;
  mkModel 0x2700000027 (10348)%Z 0x0 0x2557c00025586;
  mkModel 0x2700000027 (10349)%Z 0x0 0x255860002558a;
  mkModel 0x2700000027 (10350)%Z 0x0 0x2558a0002558d;
  mkModel 0x2700000027 (-1)%Z 0x2558d00025592 0x255920002559c;
  mkModel 0x2700000027 (10351)%Z 0x0 0x2559c000255a0;
  mkModel 0x2700000027 (-1)%Z 0x255a0000255a5 0x255a5000255ab;
  mkModel 0x2700000027 (-1)%Z 0x2558d00025592 0x255920002559c;
  mkModel 0x2700000027 (-1)%Z 0x255ab000255b1 0x4d9000004d93;
  mkModel 0x2700000027 (10352)%Z 0x0 0x1baba0001babd;
  mkModel 0x2700000027 (-1)%Z 0x255b1000255b6 0x255b6000255bd;
  mkModel 0x2700000027 (-1)%Z 0x255bd000255c3 0x255c3000255c7;
  mkModel 0x2700000027 (10353)%Z 0x0 0x255c7000255ca;
  mkModel 0x2700000027 (10354)%Z 0x0 0x255ca000255ce;
  mkModel 0x2700000027 (10355)%Z 0x0 0x255ce000255d2;
  mkModel 0x2700000027 (10356)%Z 0x0 0x255d2000255dd;
  mkModel 0x2700000027 (10357)%Z 0x0 0x255dd000255e0;
  mkModel 0x2700000027 (10358)%Z 0x0 0x255e0000255e3;
  mkModel 0x2700000027 (10359)%Z 0x0 0x255e3000255e9;
  mkModel 0x2700000027 (10360)%Z 0x0 0x255e9000255ef;
  mkModel 0x2700000027 (10361)%Z 0x0 0x255ef000255f2;
  mkModel 0x2700000027 (10362)%Z 0x0 0x16a3500016a38;
  mkModel 0x2700000027 (10363)%Z 0x0 0x255f2000255f6;
  mkModel 0x2700000027 (10364)%Z 0x0 0x255f6000255f9;
  mkModel 0x2700000027 (10365)%Z 0x0 0x255f9000255ff;
  mkModel 0x2700000027 (10366)%Z 0x0 0x255ff00025609;
  mkModel 0x2700000027 (10367)%Z 0x0 0x256090002560d;
  mkModel 0x2700000027 (10368)%Z 0x0 0x2560d00025611;
  mkModel 0x2700000027 (10369)%Z 0x0 0x2559c000255a0;
  mkModel 0x2700000027 (10370)%Z 0x0 0x2561100025615;
  mkModel 0x2700000027 (10371)%Z 0x0 0x2561500025618;
  mkModel 0x2700000027 (10372)%Z 0x0 0x256180002561c;
  mkModel 0x2700000027 (10373)%Z 0x0 0x2561c0002561f;
  mkModel 0x2700000027 (10374)%Z 0x0 0x2561f00025623;
  mkModel 0x2700000027 (-1)%Z 0x2562300025629 0x2562900025630;
  mkModel 0x2700000027 (10375)%Z 0x0 0x2563000025634;
  mkModel 0x2700000027 (10376)%Z 0x0 0x2563400025638;
  mkModel 0x2700000027 (10377)%Z 0x0 0x2563800025643;
  mkModel 0x2700000027 (-1)%Z 0x256430002564a 0x2564a00025651;
  mkModel 0x2700000027 (-1)%Z 0x2565100025656 0x256560002565c;
  mkModel 0x2700000027 (-1)%Z 0x2565c00025661 0x2566100025664;
  mkModel 0x2700000027 (-1)%Z 0x256640002566a 0x2566a0002566e;
  mkModel 0x2700000027 (10378)%Z 0x0 0x2566e00025674;
  mkModel 0x2700000027 (-1)%Z 0x2567400025679 0x256790002567f;
  mkModel 0x2700000027 (10379)%Z 0x0 0x2567f00025682;
  mkModel 0x2700000027 (10380)%Z 0x0 0x2568200025685;
  mkModel 0x2700000027 (10381)%Z 0x0 0x2568500025689;
  mkModel 0x2700000027 (10382)%Z 0x0 0x1ba280001ba2f;
  mkModel 0x2700000027 (10383)%Z 0x0 0x256890002568c;
  mkModel 0x2700000027 (10384)%Z 0x0 0x2568c00025690;
  mkModel 0x2700000027 (10385)%Z 0x0 0x2569000025694;
  mkModel 0x2700000027 (10386)%Z 0x0 0x2569400025697;
  mkModel 0x2700000027 (10387)%Z 0x0 0x25697000256a1;
  mkModel 0x2700000027 (10388)%Z 0x0 0x256a1000256a5;
  mkModel 0x2700000027 (10389)%Z 0x0 0x256a5000256ab;
  mkModel 0x2700000027 (10390)%Z 0x0 0x256ab000256af;
  mkModel 0x2700000027 (10391)%Z 0x0 0x256af000256b2;
  mkModel 0x2700000027 (10392)%Z 0x0 0x256b2000256b5;
  mkModel 0x2700000027 (10393)%Z 0x0 0x256b5000256b9;
  mkModel 0x2700000027 (10394)%Z 0x0 0x256b9000256bd;
  mkModel 0x2700000027 (10395)%Z 0x0 0x256bd000256c0;
  mkModel 0x2700000027 (10396)%Z 0x0 0x256c0000256c7;
  mkModel 0x2700000027 (10397)%Z 0x0 0x256c7000256ca;
  mkModel 0x2700000027 (10398)%Z 0x0 0x256ca000256cd;
  mkModel 0x2700000027 (10399)%Z 0x0 0x256cd000256d0;
  mkModel 0x2700000027 (10400)%Z 0x0 0x256d0000256d4;
  mkModel 0x2700000027 (10401)%Z 0x0 0x256d4000256d7;
  mkModel 0x2700000027 (10402)%Z 0x0 0x256d7000256db;
  mkModel 0x2700000027 (10403)%Z 0x0 0x256db000256e6;
  mkModel 0x2700000027 (10404)%Z 0x0 0x256d0000256d4;
  mkModel 0x2700000027 (10405)%Z 0x0 0x256e6000256e9;
  mkModel 0x2700000027 (10406)%Z 0x0 0x256e9000256ed;
  mkModel 0x2700000027 (10407)%Z 0x0 0x256ed000256f0;
  mkModel 0x2700000027 (10408)%Z 0x0 0x256f0000256f3;
  mkModel 0x2700000027 (10409)%Z 0x0 0x256f3000256f5;
  mkModel 0x2700000027 (10410)%Z 0x0 0x256f5000256fb;
  mkModel 0x2700000027 (10411)%Z 0x0 0x256fb000256fe
].
Definition d_dr_dm_68 : list modelTuple := [
  mkModel 0x2700000027 (10412)%Z 0x0 0x256fe00025701;
  mkModel 0x2700000027 (10413)%Z 0x0 0x11ff200011ff4;
  mkModel 0x2700000027 (10414)%Z 0x0 0x2570100025704;
  mkModel 0x2700000027 (10415)%Z 0x0 0x12bfe00012c00;
  mkModel 0x2700000027 (10416)%Z 0x0 0x2570400025707;
  mkModel 0x2700000027 (10417)%Z 0x0 0x2570700025711;
  mkModel 0x2700000027 (10418)%Z 0x0 0x1200700012009;
  mkModel 0x2700000027 (10419)%Z 0x0 0x2571100025717;
  mkModel 0x2700000027 (10420)%Z 0x0 0x257170002571b;
  mkModel 0x2700000027 (10421)%Z 0x0 0x2571b00025721;
  mkModel 0x2700000027 (10422)%Z 0x0 0x2572100025729;
  mkModel 0x2700000027 (10423)%Z 0x0 0x257290002572c;
  mkModel 0x2700000027 (10424)%Z 0x0 0x2ac600002ac9;
  mkModel 0x2700000027 (10425)%Z 0x0 0x252b2000252b8;
  mkModel 0x2700000027 (10426)%Z 0x0 0x2572c00025730;
  mkModel 0x2700000027 (10427)%Z 0x0 0x4b4a00004b4d;
  mkModel 0x2700000027 (10428)%Z 0x0 0x257300002573a;
  mkModel 0x2700000027 (10429)%Z 0x0 0x2573a00025743;
  mkModel 0x2700000027 (10430)%Z 0x0 0x18000000182;
  mkModel 0x2700000027 (10431)%Z 0x0 0x18000000182;
  mkModel 0x2700000027 (10432)%Z 0x0 0x18000000182;
  mkModel 0x2700000027 (-1)%Z 0x257480002574e 0x257480002574e;
  mkModel 0x2700000027 (-1)%Z 0x2574e00025755 0x2574e00025755;
  mkModel 0x2700000027 (-1)%Z 0x257550002575c 0x257550002575c;
  mkModel 0x2700000027 (10434)%Z 0x0 0x18000000182;
  mkModel 0x2700000027 (10435)%Z 0x0 0x18000000182;
  mkModel 0x2700000027 (10436)%Z 0x0 0x18000000182;
  mkModel 0x2a1000002a7 (10437)%Z 0x0 0x18000000182;
  mkModel 0x2700000027 (10439)%Z 0x0 0x257610002576a;
  mkModel 0x2700000027 (10440)%Z 0x0 0x2576a00025776;
  mkModel 0x23f00000249 (-1)%Z 0x2577d0002578c 0x2577d0002578c;
  mkModel 0x2700000027 (10442)%Z 0x0 0x18000000182;
  mkModel 0x2700000027 (-1)%Z 0x257940002579b 0x2579b000257a5;
  mkModel 0x2700000027 (-1)%Z 0x257a5000257b4 0x257b4000257ba;
  mkModel 0x2700000027 (-1)%Z 0x257ba000257c0 0x257c0000257c8;
  mkModel 0x2700000027 (-1)%Z 0x257c8000257cd 0x257cd000257d8;
  mkModel 0x2700000027 (-1)%Z 0x257d8000257dd 0x257dd000257ea;
  mkModel 0x2700000027 (-1)%Z 0x257ea000257f1 0x257f1000257fe;
  mkModel 0x2700000027 (-1)%Z 0x257fe00025805 0x2580500025811;
  mkModel 0x2700000027 (-1)%Z 0x2581100025818 0x2581800025829;
  mkModel 0x2700000027 (10444)%Z 0x0 0x2582900025836;
  mkModel 0x2700000027 (10445)%Z 0x0 0x258360002583e;
  mkModel 0x2700000027 (10446)%Z 0x0 0x2583e00025846;
  mkModel 0x2700000027 (-1)%Z 0x258460002584d 0x2584d00025855;
  mkModel 0x2700000027 (-1)%Z 0x258550002585c 0x2585c00025869;
  mkModel 0x2700000027 (-1)%Z 0x258690002586f 0x2586f00025877;
  mkModel 0x2700000027 (-1)%Z 0x258770002587e 0x2584d00025855;
  mkModel 0x2700000027 (-1)%Z 0x2587e00025885 0x258850002588d;
  mkModel 0x2700000027 (-1)%Z 0x2588d00025894 0x258940002589d;
  mkModel 0x2700000027 (-1)%Z 0x2589d000258a4 0x258a4000258b1;
  mkModel 0x2700000027 (-1)%Z 0x258b1000258be 0x258be000258cb;
  mkModel 0x2700000027 (-1)%Z 0x258cb000258d2 0x258d2000258df;
  mkModel 0x2700000027 (-1)%Z 0x258df000258e6 0x258e6000258ee;
  mkModel 0x2700000027 (-1)%Z 0x258ee000258f5 0x257c0000257c8;
  mkModel 0x2700000027 (-1)%Z 0x258f5000258fc 0x258fc00025905;
  mkModel 0x2700000027 (-1)%Z 0x259050002590d 0x2590d00025916;
  mkModel 0x2700000027 (-1)%Z 0x259160002591d 0x2591d0002592d;
  mkModel 0x2700000027 (10447)%Z 0x0 0x2579b000257a5;
  mkModel 0x2700000027 (10448)%Z 0x0 0xf58b0000f592;
  mkModel 0x2700000027 (10449)%Z 0x0 0x2592d00025939;
  mkModel 0x2700000027 (10450)%Z 0x0 0x2593900025941;
  mkModel 0x2700000027 (10451)%Z 0x0 0x259410002594e;
  mkModel 0x2700000027 (10452)%Z 0x0 0x2594e0002595b;
  mkModel 0x2700000027 (-1)%Z 0x2595b0002596c 0x2596c00025976;
  mkModel 0x2700000027 (-1)%Z 0x259760002597c 0x2597c00025989;
  mkModel 0x2700000027 (-1)%Z 0x259890002598f 0x2598f0002599c;
  mkModel 0x2700000027 (-1)%Z 0x2599c000259a3 0x259a3000259b0;
  mkModel 0x2a1000002a7 (-1)%Z 0x259b0000259b7 0x259b7000259c2;
  mkModel 0x2a1000002a7 (-1)%Z 0x259c2000259c9 0x259c9000259d4;
  mkModel 0x2a1000002a7 (-1)%Z 0x259d4000259dc 0x259dc000259e6;
  mkModel 0x2a1000002a7 (-1)%Z 0x259e6000259ee 0x259ee000259fa;
  mkModel 0x2a1000002a7 (-1)%Z 0x259fa00025a02 0x25a0200025a0d;
  mkModel 0x2a1000002a7 (10453)%Z 0x0 0x25a0d00025a19;
  mkModel 0x2a1000002a7 (10454)%Z 0x0 0x25a1900025a25;
  mkModel 0x2a1000002a7 (10455)%Z 0x0 0x25a2500025a30;
  mkModel 0x2a1000002a7 (10456)%Z 0x0 0x21b0d00021b18;
  mkModel 0x2a1000002a7 (10457)%Z 0x0 0x25a3000025a3c;
  mkModel 0x2a1000002a7 (10458)%Z 0x0 0x25a3c00025a4a;
  mkModel 0x2a1000002a7 (10459)%Z 0x0 0x25a4a00025a59;
  mkModel 0x2a1000002a7 (10460)%Z 0x0 0x25a5900025a68;
  mkModel 0x2a1000002a7 (10461)%Z 0x0 0x25a6800025a78;
  mkModel 0x23b0000023d (10462)%Z 0x0 0x1064500010647;
  mkModel 0x23b0000023d (-1)%Z 0x25a7800025a7e 0x25a7e00025a85;
  mkModel 0x2700000027 (10463)%Z 0x0 0x25a8500025a8b;
  mkModel 0x2700000027 (10464)%Z 0x0 0x18000000182;
  mkModel 0x2700000027 (10465)%Z 0x0 0x18000000182;
  mkModel 0x2700000027 (10466)%Z 0x0 0x89ab000089b3;
  mkModel 0x0 (-1)%Z 0x0 0x18000000182;
  mkModel 0x2700000027 (10469)%Z 0x0 0x25aa100025aa7;
  mkModel 0x2700000027 (10470)%Z 0x0 0x25aa700025aae;
  mkModel 0x2700000027 (10471)%Z 0x0 0x25aae00025ab7;
  mkModel 0x2700000027 (10472)%Z 0x0 0x25ab700025abd;
  mkModel 0x2700000027 (10473)%Z 0x0 0x25abd00025ac3;
  mkModel 0x2700000027 (10474)%Z 0x0 0x25ac300025aca;
  mkModel 0x2700000027 (10475)%Z 0x0 0x25aca00025ad1;
  mkModel 0x2700000027 (10476)%Z 0x0 0x25ad100025ad8;
  mkModel 0x2700000027 (10477)%Z 0x0 0x25ad800025ade;
  mkModel 0x2700000027 (10478)%Z 0x0 0x25ade00025ae6;
  mkModel 0x2700000027 (10479)%Z 0x0 0x25ae600025aec;
  mkModel 0x2700000027 (10480)%Z 0x0 0x25aec00025af4;
  mkModel 0x2a1000002a7 (-1)%Z 0x25af400025afd 0x25afd00025b06;
  mkModel 0x2a1000002a7 (10481)%Z 0x0 0x14e8b00014e92;
  mkModel 0x2a1000002a7 (10482)%Z 0x0 0x25b0600025b16;
  mkModel 0x2a1000002a7 (10483)%Z 0x0 0x25b1600025b1f;
  mkModel 0x2a1000002a7 (10484)%Z 0x0 0x25b1f00025b28;
  mkModel 0x2a1000002a7 (10485)%Z 0x0 0x25b2800025b30;
  mkModel 0x2a1000002a7 (10486)%Z 0x0 0x25b3000025b41;
  mkModel 0x2a1000002a7 (10487)%Z 0x0 0x25b4100025b4e;
  mkModel 0x2a1000002a7 (10488)%Z 0x0 0x25b4e00025b57;
  mkModel 0x2a1000002a7 (10489)%Z 0x0 0x25b5700025b5e;
  mkModel 0x2a1000002a7 (10490)%Z 0x0 0x927d00009284;
  mkModel 0x2a1000002a7 (-1)%Z 0x25b5e00025b65 0x25b6500025b6c;
  mkModel 0x2a1000002a7 (-1)%Z 0x25b6c00025b75 0x25b7500025b7e;
  mkModel 0x2a1000002a7 (-1)%Z 0x25b7e00025b87 0x25b7e00025b87;
  mkModel 0x2a1000002a7 (10491)%Z 0x0 0x25b8700025b8e;
  mkModel 0xbf670000bf7c (10492)%Z 0x0 0x25b8e00025b99;
  mkModel 0x2700000027 (10494)%Z 0x0 0x25b9f00025ba3;
  mkModel 0x2700000027 (10495)%Z 0x0 0x18000000182;
  mkModel 0x2700000027 (10496)%Z 0x0 0x25ba300025baa;
  mkModel 0x2700000027 (10497)%Z 0x0 0x25baa00025bb0;
  mkModel 0x2700000027 (10498)%Z 0x0 0x25bb000025bbd;
  mkModel 0x2700000027 (10499)%Z 0x0 0x25bbd00025bc5;
  mkModel 0x2700000027 (10500)%Z 0x0 0x25bc500025bcd;
  mkModel 0x2700000027 (10501)%Z 0x0 0x25bcd00025bd4;
  mkModel 0x2700000027 (-1)%Z 0x25bda00025be2 0x25bda00025be2;
  mkModel 0x2a1000002a7 (10503)%Z 0x0 0x18000000182;
  mkModel 0x2700000027 (-1)%Z 0x25be800025bf5 0x25bf500025c03;
  mkModel 0x2700000027 (-1)%Z 0x25c0300025c08 0x25c0800025c0e;
  mkModel 0x2700000027 (-1)%Z 0x25c0e00025c18 0x25c1800025c22;
  mkModel 0x2700000027 (-1)%Z 0x25c2200025c2c 0x25c2c00025c37;
  mkModel 0x2700000027 (-1)%Z 0x25c3700025c40 0x25c4000025c4a;
  mkModel 0x2700000027 (-1)%Z 0x25c4a00025c52 0x25c5200025c5b;
  mkModel 0x0 (-1)%Z 0x0 0x18000000182;
  mkModel 0x0 (-1)%Z 0x0 0x252b2000252b8;
  mkModel 0x2700000027 (-1)%Z 0x25c6600025c6e 0x25c6600025c6e;
  mkModel 0x2700000027 (10508)%Z 0x0 0x25c6e00025c79;
  mkModel 0x2700000027 (10509)%Z 0x0 0x25c7900025c83;
  mkModel 0x2700000027 (10510)%Z 0x0 0x25c8300025c8e;
  mkModel 0x2700000027 (10511)%Z 0x0 0x25c8e00025c97;
  mkModel 0x2700000027 (10512)%Z 0x0 0x18000000182;
  mkModel 0x2a1000002a7 (10513)%Z 0x0 0x18000000182;
  mkModel 0x2a1000002a7 (-1)%Z 0x25c9700025c9f 0x25c9f00025ca7;
  mkModel 0x2a1000002a7 (-1)%Z 0x25ca700025cad 0x25cad00025cb5;
  mkModel 0x2a1000002a7 (-1)%Z 0x25cb500025cbb 0x25cbb00025cc3;
  mkModel 0x23b0000023d (10514)%Z 0x0 0x18000000182;
  mkModel 0x2700000027 (10516)%Z 0x0 0x18000000182;
  mkModel 0x2700000027 (10517)%Z 0x0 0x18000000182;
  mkModel 0x2700000027 (10518)%Z 0x0 0x18000000182;
  mkModel 0x0 (-1)%Z 0x0 0x18000000182;
  mkModel 0x2700000027 (10521)%Z 0x0 0x25cd100025cd7;
  mkModel 0x2700000027 (10522)%Z 0x0 0x136470001364c;
  mkModel 0x2700000027 (10523)%Z 0x0 0x18000000182;
  mkModel 0x2700000027 (10525)%Z 0x0 0x25cdd00025ce8;
  mkModel 0x2700000027 (10526)%Z 0x0 0x25ce800025cee;
  mkModel 0x2700000027 (10527)%Z 0x0 0x25cee00025cfb;
  mkModel 0x2700000027 (10528)%Z 0x0 0x25cfb00025d00;
  mkModel 0x2700000027 (-1)%Z 0x25d0000025d08 0x25d0000025d08;
  mkModel 0x2700000027 (10529)%Z 0x0 0x193bd000193c0;
  mkModel 0x2700000027 (10530)%Z 0x0 0x25d0800025d0f;
  mkModel 0x2700000027 (10531)%Z 0x0 0x25d0f00025d18;
  mkModel 0x2700000027 (10532)%Z 0x0 0x25d1800025d1e;
  mkModel 0x2700000027 (-1)%Z 0x25d1e00025d26 0x25d1e00025d26;
  mkModel 0x2700000027 (-1)%Z 0x25d2600025d2a 0x25d2600025d2a;
  mkModel 0x2700000027 (10534)%Z 0x0 0x25d2e00025d36;
  mkModel 0x2700000027 (10535)%Z 0x0 0x25d3600025d40;
  mkModel 0x2700000027 (-1)%Z 0x25d4000025d4d 0x25d4d00025d5a;
  mkModel 0x2700000027 (-1)%Z 0x25d5a00025d63 0x25d6300025d6c;
  mkModel 0x2700000027 (-1)%Z 0x25d6c00025d76 0x25d7600025d80;
  mkModel 0x2700000027 (-1)%Z 0x25d8000025d8a 0x25d8000025d8a;
  mkModel 0x2700000027 (10536)%Z 0x0 0x25d8a00025d97;
  mkModel 0x2700000027 (10537)%Z 0x0 0xf2870000f28b;
  mkModel 0x2700000027 (10538)%Z 0x0 0xc3830000c388;
  mkModel 0x2700000027 (10539)%Z 0x0 0x18000000182;
  mkModel 0x0 (-1)%Z 0x0 0x18000000182;
  mkModel 0x2700000027 (10542)%Z 0x0 0x18000000182;
  mkModel 0x2700000027 (10543)%Z 0x0 0x25da000025da9;
  mkModel 0x2700000027 (10544)%Z 0x0 0x25da900025db2;
  mkModel 0x2a1000002a7 (10546)%Z 0x0 0x25db900025dc2;
  mkModel 0x2a1000002a7 (-1)%Z 0x25dc500025dcf 0x25dc500025dcf;
  mkModel 0x2a1000002a7 (10548)%Z 0x0 0x25dcf00025dd8;
  mkModel 0x2a1000002a7 (10549)%Z 0x0 0x25dd800025de2;
  mkModel 0x2a1000002a7 (-1)%Z 0x25de200025dec 0x25de200025dec;
  mkModel 0x2a1000002a7 (10550)%Z 0x0 0x25dec00025df0;
  mkModel 0x2700000027 (-1)%Z 0x25df000025df8 0x25df800025e01;
  mkModel 0x0 (-1)%Z 0x0 0x18000000182;
  mkModel 0x2700000027 (10553)%Z 0x0 0x18000000182;
  mkModel 0x2700000027 (10554)%Z 0x0 0x18000000182;
  mkModel 0x0 (-1)%Z 0x0 0x18000000182;
  mkModel 0x0 (-1)%Z 0x0 0x25e0f00025e1e;
  mkModel 0x0 (-1)%Z 0x0 0xcea40000cea7;
  mkModel 0x0 (-1)%Z 0x0 0x18000000182;
  mkModel 0x0 (-1)%Z 0x0 0x18000000182;
  mkModel 0x2a1000002a7 (10562)%Z 0x0 0x25e3a00025e49;
  mkModel 0x2700000027 (-1)%Z 0x25e4900025e5a 0x25e5a00025e6b;
  mkModel 0x2700000027 (-1)%Z 0x25e6b00025e78 0x25e7800025e85;
  mkModel 0x2700000027 (10563)%Z 0x0 0x25e8500025e91;
  mkModel 0x2700000027 (10564)%Z 0x0 0x25e9100025e9e;
  mkModel 0x2700000027 (10565)%Z 0x0 0x25e9e00025eac;
  mkModel 0x2700000027 (10566)%Z 0x0 0x25eac00025eb4;
  mkModel 0x2700000027 (10567)%Z 0x0 0x25eb400025ebd
].
Definition d_dr_dm_69 : list modelTuple := [
  mkModel 0x2700000027 (10568)%Z 0x0 0x25ebd00025ec6;
  mkModel 0x2700000027 (-1)%Z 0x25ec600025ecf 0x25ecf00025ed8;
  mkModel 0x2700000027 (-1)%Z 0x25ed800025ee1 0x25ee100025eea;
  mkModel 0x2700000027 (-1)%Z 0x25eea00025ef7 0x25ef700025f04;
  mkModel 0x2700000027 (10569)%Z 0x0 0x25f0400025f0c;
  mkModel 0x2700000027 (10570)%Z 0x0 0x18000000182;
  mkModel 0x23b0000023d (-1)%Z 0x25f0c00025f1e 0x8a0100008a0c;
  mkModel 0x2700000027 (10571)%Z 0x0 0x25f1e00025f2b;
  mkModel 0x2700000027 (10572)%Z 0x0 0x138e8000138f0;
  mkModel 0x2700000027 (10573)%Z 0x0 0x18000000182;
  mkModel 0x0 (-1)%Z 0x0 0x25f3200025f3b;
  mkModel 0x0 (-1)%Z 0x0 0x1166300011666;
  mkModel 0x0 (-1)%Z 0x0 0x25f4900025f51;
  mkModel 0x0 (-1)%Z 0x0 0x18000000182;
  mkModel 0x2700000027 (10579)%Z 0x0 0x18000000182;
  mkModel 0x2700000027 (-1)%Z 0x25f6600025f70 0x25f7000025f77;
  mkModel 0x2700000027 (-1)%Z 0x25f7d00025f85 0x25f8500025f8d;
  mkModel 0x2700000027 (-1)%Z 0x25f8d00025f99 0x25f9900025f9f;
  mkModel 0x0 (-1)%Z 0x0 0x18000000182;
  mkModel 0x2700000027 (-1)%Z 0x25fb500025fc1 0x25fc100025fd0;
  mkModel 0x0 (-1)%Z 0x0 0x18000000182;
  mkModel 0x2700000027 (10586)%Z 0x0 0x18000000182;
  mkModel 0x23f00000249 (10588)%Z 0x0 0x25fe500025fec;
  mkModel 0x23f00000249 (10589)%Z 0x0 0x25fec00025ff3;
  mkModel 0x23f00000249 (10590)%Z 0x0 0x25ff300025ff8;
  mkModel 0x23f00000249 (10591)%Z 0x0 0x25ff800026002;
  mkModel 0x2700000027 (10592)%Z 0x0 0x2600200026009;
  mkModel 0x2700000027 (10593)%Z 0x0 0x2600900026014;
  mkModel 0x2700000027 (10594)%Z 0x0 0x18000000182;
  mkModel 0x2700000027 (10595)%Z 0x0 0x18000000182;
  mkModel 0x2700000027 (10596)%Z 0x0 0x18000000182;
  mkModel 0x0 (-1)%Z 0x0 0x18000000182;
  mkModel 0x0 (-1)%Z 0x0 0x18000000182;
  mkModel 0x2700000027 (10600)%Z 0x0 0x18000000182;
  mkModel 0x2700000027 (10601)%Z 0x0 0x18000000182;
  mkModel 0x2700000027 (-1)%Z 0x2602800026030 0x2603000026042;
  mkModel 0x2700000027 (-1)%Z 0x260420002604a 0x2604a00026059;
  mkModel 0x2700000027 (-1)%Z 0x2605900026061 0x2606100026070;
  mkModel 0x2700000027 (-1)%Z 0x2607000026078 0x2607800026086;
  mkModel 0x2700000027 (-1)%Z 0x260860002608e 0x2608e000260a0;
  mkModel 0x2700000027 (-1)%Z 0x260a0000260a8 0x21f1800021f1b;
  mkModel 0x2700000027 (-1)%Z 0x260a8000260b0 0x260b0000260bf;
  mkModel 0x2700000027 (10603)%Z 0x0 0x260bf000260c1;
  mkModel 0x2700000027 (10604)%Z 0x0 0x3f8100003f83;
  mkModel 0x2700000027 (10605)%Z 0x0 0x260c1000260c5;
  mkModel 0x2700000027 (10606)%Z 0x0 0x260c5000260ce;
  mkModel 0x2700000027 (10607)%Z 0x0 0x260ce000260d7;
  mkModel 0x2700000027 (10608)%Z 0x0 0x260d7000260e0;
  mkModel 0x2700000027 (10609)%Z 0x0 0x260e0000260eb;
  mkModel 0x2700000027 (10610)%Z 0x0 0x260eb000260f1;
  mkModel 0x2700000027 (10611)%Z 0x0 0x260f1000260f8;
  mkModel 0x2700000027 (10612)%Z 0x0 0x260f800026104;
  mkModel 0x2700000027 (10613)%Z 0x0 0x2610400026110;
  mkModel 0x2700000027 (10614)%Z 0x0 0x2611000026119;
  mkModel 0x2700000027 (10615)%Z 0x0 0x2611900026123;
  mkModel 0x2700000027 (10616)%Z 0x0 0x2612300026127;
  mkModel 0x2700000027 (10617)%Z 0x0 0x261270002612c;
  mkModel 0x2700000027 (10618)%Z 0x0 0x2612c00026134;
  mkModel 0x2700000027 (10619)%Z 0x0 0x2613400026140;
  mkModel 0x2700000027 (10620)%Z 0x0 0x2614000026148;
  mkModel 0x2700000027 (10621)%Z 0x0 0x261480002614d;
  mkModel 0x2700000027 (-1)%Z 0x2614d00026159 0x2615900026165;
  mkModel 0x2700000027 (10622)%Z 0x0 0x261650002616f;
  mkModel 0x2700000027 (10623)%Z 0x0 0x5fcb00005fd2;
  mkModel 0x2700000027 (10624)%Z 0x0 0x2616f00026177;
  mkModel 0x2700000027 (10625)%Z 0x0 0x261770002617f;
  mkModel 0x2700000027 (10626)%Z 0x0 0x2617f00026187;
  mkModel 0x2700000027 (10627)%Z 0x0 0x2618700026190;
  mkModel 0x2700000027 (10628)%Z 0x0 0x2619000026196;
  mkModel 0x2700000027 (10629)%Z 0x0 0x261960002619a;
  mkModel 0x2700000027 (10630)%Z 0x0 0x2619a0002619f;
  mkModel 0x2700000027 (10631)%Z 0x0 0x2619f000261a4;
  mkModel 0x2700000027 (10632)%Z 0x0 0x261a4000261ab;
  mkModel 0x2700000027 (10633)%Z 0x0 0x261ab000261b0;
  mkModel 0x2700000027 (10634)%Z 0x0 0x261b0000261b5;
  mkModel 0x2700000027 (-1)%Z 0x261b5000261be 0x261be000261c7;
  mkModel 0x2700000027 (-1)%Z 0x261c7000261cd 0x261cd000261d4;
  mkModel 0x2700000027 (-1)%Z 0x261d4000261de 0x261de000261e5;
  mkModel 0x2700000027 (10635)%Z 0x0 0x261e5000261ec;
  mkModel 0x2700000027 (10636)%Z 0x0 0x261ec000261f1;
  mkModel 0x2700000027 (10637)%Z 0x0 0x261f1000261f8;
  mkModel 0x2700000027 (10638)%Z 0x0 0x261f8000261fd;
  mkModel 0x2700000027 (10639)%Z 0x0 0x261fd00026200;
  mkModel 0x2700000027 (10640)%Z 0x0 0x2620000026206;
  mkModel 0x2700000027 (10641)%Z 0x0 0x262060002620a;
  mkModel 0x2700000027 (-1)%Z 0x2620a00026210 0x2621000026217;
  mkModel 0x2700000027 (10642)%Z 0x0 0x2468100024685;
  mkModel 0x2700000027 (10643)%Z 0x0 0x214ae000214b4;
  mkModel 0x2700000027 (10644)%Z 0x0 0x262170002621d;
  mkModel 0x2700000027 (10645)%Z 0x0 0x261f8000261fd;
  mkModel 0x2700000027 (10646)%Z 0x0 0x2621d00026228;
  mkModel 0x2700000027 (10647)%Z 0x0 0x2622800026234;
  mkModel 0x2700000027 (10648)%Z 0x0 0x262340002623c;
  mkModel 0x2700000027 (10649)%Z 0x0 0x2623c00026241;
  mkModel 0x2700000027 (10650)%Z 0x0 0x2624100026248;
  mkModel 0x2700000027 (10651)%Z 0x0 0x262480002624d;
  mkModel 0x2700000027 (10652)%Z 0x0 0x2624d00026255;
  mkModel 0x2700000027 (10653)%Z 0x0 0x262550002625b;
  mkModel 0x2700000027 (10654)%Z 0x0 0x2625b00026267;
  mkModel 0x2700000027 (10655)%Z 0x0 0x262670002626e;
  mkModel 0x2700000027 (-1)%Z 0x2626e00026274 0x2627400026280;
  mkModel 0x2700000027 (10656)%Z 0x0 0x262800002628c;
  mkModel 0x2700000027 (10657)%Z 0x0 0x2628c00026293;
  mkModel 0x2700000027 (-1)%Z 0x262930002629c 0x2629c000262a8;
  mkModel 0x2700000027 (-1)%Z 0x262a8000262b2 0x262b2000262b9;
  mkModel 0x2700000027 (-1)%Z 0x262b9000262c3 0x262c3000262ca;
  mkModel 0x2700000027 (10658)%Z 0x0 0x262ca000262d6;
  mkModel 0x2700000027 (10659)%Z 0x0 0x215f9000215fe;
  mkModel 0x2700000027 (10660)%Z 0x0 0x262d6000262dd;
  mkModel 0x2700000027 (10661)%Z 0x0 0x262dd000262e9;
  mkModel 0x2700000027 (10662)%Z 0x0 0x262e9000262f0;
  mkModel 0x2700000027 (10663)%Z 0x0 0x262f0000262f5;
  mkModel 0x2700000027 (10664)%Z 0x0 0x262f5000262f8;
  mkModel 0x2700000027 (10665)%Z 0x0 0x262f8000262fd;
  mkModel 0x2700000027 (-1)%Z 0x262fd00026303 0x263030002630a;
  mkModel 0x2700000027 (10666)%Z 0x0 0x2630a00026312;
  mkModel 0x2700000027 (10667)%Z 0x0 0x2631200026315;
  mkModel 0x2700000027 (10668)%Z 0x0 0x2631500026320;
  mkModel 0x2700000027 (10669)%Z 0x0 0x2632000026328;
  mkModel 0x2700000027 (10670)%Z 0x0 0x263280002632f;
  mkModel 0x2700000027 (10671)%Z 0x0 0x2632f00026333;
  mkModel 0x2700000027 (10672)%Z 0x0 0x263330002633a;
  mkModel 0x2700000027 (10673)%Z 0x0 0x2633a00026346;
  mkModel 0x2700000027 (10674)%Z 0x0 0x263460002634d;
  mkModel 0x2700000027 (10675)%Z 0x0 0x2634d00026358;
  mkModel 0x2700000027 (10676)%Z 0x0 0x2635800026364;
  mkModel 0x2700000027 (10677)%Z 0x0 0x263640002636a;
  mkModel 0x2700000027 (-1)%Z 0x2636a00026371 0x263710002637b;
  mkModel 0x2700000027 (10678)%Z 0x0 0x2637b00026384;
  mkModel 0x2700000027 (10679)%Z 0x0 0x263840002638f;
  mkModel 0x2700000027 (10680)%Z 0x0 0x2638f00026396;
  mkModel 0x2700000027 (10681)%Z 0x0 0x26396000263a0;
  mkModel 0x2700000027 (-1)%Z 0x263a0000263a5 0x263a5000263ae;
  mkModel 0x2700000027 (-1)%Z 0x263ae000263b7 0x263b7000263bb;
  mkModel 0x2700000027 (-1)%Z 0x263bb000263c1 0x56150000561b;
  mkModel 0x2700000027 (-1)%Z 0x263c1000263c7 0x263c7000263d1;
  mkModel 0x2700000027 (-1)%Z 0x263d1000263d7 0x9ce900009cf1;
  mkModel 0x2700000027 (10682)%Z 0x0 0x263d7000263de;
  mkModel 0x2700000027 (10683)%Z 0x0 0x263de000263e9;
  mkModel 0x2700000027 (-1)%Z 0x263e9000263ef 0x562c00005632;
  mkModel 0x2700000027 (-1)%Z 0x263ef000263f9 0x263f900026404;
  mkModel 0x2700000027 (10684)%Z 0x0 0x16a3500016a38;
  mkModel 0x2700000027 (-1)%Z 0x264040002640e 0x16a3500016a38;
  mkModel 0x2700000027 (-1)%Z 0x2640e00026414 0x255f6000255f9;
  mkModel 0x2700000027 (-1)%Z 0x264140002641a 0x2561500025618;
  mkModel 0x2700000027 (10685)%Z 0x0 0x2641a0002641d;
  mkModel 0x2700000027 (10686)%Z 0x0 0x2641d00026420;
  mkModel 0x2700000027 (10687)%Z 0x0 0x2642000026428;
  mkModel 0x2700000027 (-1)%Z 0x264280002642e 0x2642e00026431;
  mkModel 0x2700000027 (10688)%Z 0x0 0x2643100026434;
  mkModel 0x2700000027 (-1)%Z 0x264340002643a 0x256b2000256b5;
  mkModel 0x2700000027 (-1)%Z 0x2643a00026440 0x2644000026443;
  mkModel 0x2700000027 (10689)%Z 0x0 0x56380000563e;
  mkModel 0x2700000027 (10690)%Z 0x0 0x264430002644d;
  mkModel 0x2700000027 (10691)%Z 0x0 0x562100005627;
  mkModel 0x2700000027 (10692)%Z 0x0 0x2644d00026458;
  mkModel 0x2700000027 (-1)%Z 0x2645800026462 0x260c5000260ce;
  mkModel 0x2700000027 (10693)%Z 0x0 0x2646200026466;
  mkModel 0x2700000027 (10694)%Z 0x0 0x264660002646c;
  mkModel 0x2700000027 (10695)%Z 0x0 0x2646c00026472;
  mkModel 0x2700000027 (10696)%Z 0x0 0x2647200026478;
  mkModel 0x2700000027 (10697)%Z 0x0 0x18000000182;
  mkModel 0x0 (-1)%Z 0x0 0x18000000182;
  mkModel 0x2700000027 (10700)%Z 0x0 0x264870002648e;
  mkModel 0x2700000027 (10701)%Z 0x0 0x42d00000430;
  mkModel 0x2700000027 (-1)%Z 0x2648e0002649e 0x2649e000264a5;
  mkModel 0x2700000027 (10702)%Z 0x0 0x264a5000264af;
  mkModel 0x2700000027 (10703)%Z 0x0 0x264af000264b6;
  mkModel 0x2700000027 (-1)%Z 0x264b6000264bf 0x58e00000593;
  mkModel 0x2700000027 (10704)%Z 0x0 0x18000000182;
  mkModel 0x2700000027 (10705)%Z 0x0 0x18000000182;
  mkModel 0x2700000027 (-1)%Z 0x264c4000264d0 0x264d0000264dc;
  mkModel 0x23b0000023d (-1)%Z 0x264e0000264ec 0x264ec000264f8;
  mkModel 0x23b0000023d (10708)%Z 0x0 0x1af900001af96;
  mkModel 0x23b0000023d (-1)%Z 0x264f800026504 0x265040002650c;
  mkModel 0x2700000027 (10709)%Z 0x0 0x18000000182;
  mkModel 0x2a1000002a7 (10710)%Z 0x0 0x18000000182;
  mkModel 0x2700000027 (-1)%Z 0x2651200026519 0x2651900026521;
  mkModel 0x2700000027 (-1)%Z 0x265210002652a 0x2652a00026533;
  mkModel 0x2700000027 (10712)%Z 0x0 0x18000000182;
  mkModel 0x2a1000002a7 (10713)%Z 0x0 0x18000000182;
  mkModel 0x39a000003a7 (10714)%Z 0x0 0x18000000182;
  mkModel 0x2700000027 (10716)%Z 0x0 0x2653a00026541;
  mkModel 0x2700000027 (10717)%Z 0x0 0x2654100026544;
  mkModel 0x2700000027 (10718)%Z 0x0 0x18000000182;
  mkModel 0x23f00000249 (10719)%Z 0x0 0x18000000182;
  mkModel 0x23f00000249 (10720)%Z 0x0 0x18000000182;
  mkModel 0x2700000027 (10722)%Z 0x0 0xaf3b0000af3d;
  mkModel 0x0 (-1)%Z 0x0 0x2655300026557;
  mkModel 0x0 (-1)%Z 0x0 0x18000000182;
  mkModel 0x0 (-1)%Z 0x0 0x18000000182;
  mkModel 0x2700000027 (10726)%Z 0x0 0x2656c00026579;
  mkModel 0x2700000027 (10727)%Z 0x0 0x2657900026581;
  mkModel 0x2700000027 (10728)%Z 0x0 0x2657900026581;
  mkModel 0x2700000027 (10729)%Z 0x0 0x265810002658b;
  mkModel 0x2a1000002a7 (10730)%Z 0x0 0x2658b0002659c;
  mkModel 0x2a1000002a7 (10731)%Z 0x0 0x2659c000265a4;
  mkModel 0x0 (-1)%Z 0x0 0x265ac000265b3;
  mkModel 0x2700000027 (-1)%Z 0x265b8000265bd 0x265bd000265c6;
  mkModel 0x2700000027 (-1)%Z 0x265c6000265cb 0x265cb000265d2
].
Definition d_dr_dm_70 : list modelTuple := [
  mkModel 0x2700000027 (-1)%Z 0x265d2000265d7 0x265d7000265dc;
  mkModel 0x2700000027 (-1)%Z 0x265dc000265e5 0x265e5000265ef;
  mkModel 0x2700000027 (-1)%Z 0x265ef000265f4 0x265f4000265f9;
  mkModel 0x2700000027 (-1)%Z 0x265f9000265fe 0x265fe00026604;
  mkModel 0x0 (-1)%Z 0x0 0x18000000182;
  mkModel 0x2700000027 (-1)%Z 0x2660b0002661a 0x2661a00026621;
  mkModel 0x2700000027 (-1)%Z 0x2662100026630 0x266300002663b;
  mkModel 0x2700000027 (10737)%Z 0x0 0x266410002664a;
  mkModel 0x2700000027 (10738)%Z 0x0 0x2664a0002664f;
  mkModel 0x2700000027 (10739)%Z 0x0 0x6b6d00006b72;
  mkModel 0x23f00000249 (10740)%Z 0x0 0x2664f00026657;
  mkModel 0x2700000027 (10741)%Z 0x0 0x18000000182;
  mkModel 0x0 (-1)%Z 0x0 0x2665c00026663;
  mkModel 0x0 (-1)%Z 0x0 0x18000000182;
  mkModel 0x2700000027 (10745)%Z 0x0 0xbea40000bea6;
  mkModel 0x2700000027 (-1)%Z 0x2666f00026675 0x266750002667c;
  mkModel 0x2700000027 (-1)%Z 0x2667c00026682 0x266820002668c;
  mkModel 0x2a1000002a7 (-1)%Z 0x26692000266a2 0x266a2000266ac;
  mkModel 0x2a1000002a7 (-1)%Z 0x266ac000266b8 0x266b8000266be;
  mkModel 0x2a1000002a7 (10747)%Z 0x0 0x266be000266c6;
  mkModel 0x2a1000002a7 (10748)%Z 0x0 0x266c6000266d1;
  mkModel 0x2a1000002a7 (10749)%Z 0x0 0x266d1000266db;
  mkModel 0x2a1000002a7 (10750)%Z 0x0 0x266db000266e5;
  mkModel 0x2a1000002a7 (10751)%Z 0x0 0x266e5000266f0;
  mkModel 0x2a1000002a7 (10752)%Z 0x0 0x266f0000266fc;
  mkModel 0x2a1000002a7 (-1)%Z 0x266fc0002670b 0x2670b00026714;
  mkModel 0x2a1000002a7 (-1)%Z 0x267140002671d 0x2671d00026727;
  mkModel 0x2700000027 (-1)%Z 0x267270002672d 0x2672d00026734;
  mkModel 0x2700000027 (10753)%Z 0x0 0x267340002673b;
  mkModel 0x2700000027 (10754)%Z 0x0 0x2525b0002525e;
  mkModel 0x2700000027 (-1)%Z 0x2673b00026744 0x267440002674b;
  mkModel 0x2700000027 (10755)%Z 0x0 0x2674b00026752;
  mkModel 0x2700000027 (10756)%Z 0x0 0x267520002675b;
  mkModel 0x2700000027 (-1)%Z 0x2675b00026769 0x2676900026777;
  mkModel 0x2700000027 (10757)%Z 0x0 0x267770002677f;
  mkModel 0x2700000027 (10758)%Z 0x0 0x18000000182;
  mkModel 0x2700000027 (10760)%Z 0x0 0x267850002678c;
  mkModel 0x2a1000002a7 (-1)%Z 0x2678c00026796 0x26796000267a0;
  mkModel 0x2a1000002a7 (-1)%Z 0x267a0000267af 0x267af000267be;
  mkModel 0x2a1000002a7 (-1)%Z 0x267be000267c9 0x267c9000267d4;
  mkModel 0x2a1000002a7 (-1)%Z 0x267d4000267e5 0x267e5000267f6;
  mkModel 0x2a1000002a7 (-1)%Z 0x267f600026802 0x2700000027;
  mkModel 0x2a1000002a7 (-1)%Z 0x2680200026814 0x2681400026829;
  mkModel 0x2a1000002a7 (10761)%Z 0x0 0x18000000182;
  mkModel 0x0 (-1)%Z 0x0 0x268340002683a;
  mkModel 0x2700000027 (10763)%Z 0x0 0x2683d00026843;
  mkModel 0x2700000027 (-1)%Z 0x2684300026854 0x2685400026862;
  mkModel 0x2700000027 (10764)%Z 0x0 0x268620002686d;
  mkModel 0x2700000027 (-1)%Z 0x2686d00026878 0x2687800026880;
  mkModel 0x2700000027 (-1)%Z 0x2688000026888 0x268880002688b;
  mkModel 0x2700000027 (-1)%Z 0x2688b00026897 0x26897000268a0;
  mkModel 0x2700000027 (-1)%Z 0x268a0000268aa 0x268aa000268b1;
  mkModel 0x0 (-1)%Z 0x0 0x18000000182;
  mkModel 0x2700000027 (10768)%Z 0x0 0x18000000182;
  mkModel 0x2700000027 (10769)%Z 0x0 0x268bb000268c1;
  mkModel 0x0 (-1)%Z 0x0 0x18000000182;
  mkModel 0x2700000027 (10772)%Z 0x0 0x18000000182;
  mkModel 0x2700000027 (-1)%Z 0x268d3000268d8 0x268d8000268e3;
  mkModel 0x2700000027 (-1)%Z 0x268e3000268eb 0x268e3000268eb;
  mkModel 0x0 (-1)%Z 0x0 0x268f000026901;
  mkModel 0x2700000027 (-1)%Z 0x269060002690b 0x2690b00026913;
  mkModel 0x0 (-1)%Z 0x0 0x18000000182;
  mkModel 0x0 (-1)%Z 0x0 0x18000000182;
  mkModel 0x0 (-1)%Z 0x0 0x18000000182;
  mkModel 0x2700000027 (10780)%Z 0x0 0x2536400025367;
  mkModel 0x2700000027 (10781)%Z 0x0 0x2540500025408;
  mkModel 0x2a1000002a7 (-1)%Z 0x2692c00026933 0x2693300026936;
  mkModel 0x2a1000002a7 (-1)%Z 0x269360002693c 0x2693c00026943;
  mkModel 0x2a1000002a7 (10782)%Z 0x0 0x2694300026946;
  mkModel 0x23b0000023d (10783)%Z 0x0 0x2683a0002683d;
  mkModel 0x0 (-1)%Z 0x0 0x18000000182;
  mkModel 0x2700000027 (10786)%Z 0x0 0x2695600026967;
  mkModel 0x2700000027 (10787)%Z 0x0 0x5f1a00005f20;
  mkModel 0x2700000027 (10788)%Z 0x0 0x18000000182;
  mkModel 0x2700000027 (10789)%Z 0x0 0x18000000182;
  mkModel 0x2700000027 (10790)%Z 0x0 0x2696700026976;
  mkModel 0x2700000027 (10791)%Z 0x0 0x269760002697e;
  mkModel 0x2700000027 (10792)%Z 0x0 0x2697e0002698f;
  mkModel 0x2700000027 (10793)%Z 0x0 0x2698f0002699c;
  mkModel 0x2700000027 (10794)%Z 0x0 0x2699c000269a7;
  mkModel 0x2700000027 (10796)%Z 0x0 0x269ad000269b8;
  mkModel 0x2700000027 (-1)%Z 0x269b8000269be 0x269be000269ce;
  mkModel 0x2700000027 (10797)%Z 0x0 0x269ce000269db;
  mkModel 0x2700000027 (10798)%Z 0x0 0x269db000269ec;
  mkModel 0x2700000027 (10799)%Z 0x0 0x269ec000269f9;
  mkModel 0x2700000027 (10800)%Z 0x0 0x269f900026a0a;
  mkModel 0x2700000027 (10801)%Z 0x0 0x26a0a00026a1a;
  mkModel 0x2700000027 (10802)%Z 0x0 0x26a1a00026a2e;
  mkModel 0x2700000027 (10803)%Z 0x0 0x26a2e00026a3f;
  mkModel 0x2700000027 (10804)%Z 0x0 0x26a3f00026a4c;
  mkModel 0x2700000027 (10805)%Z 0x0 0x26a4c00026a59;
  mkModel 0x2700000027 (10806)%Z 0x0 0x26a5900026a6a;
  mkModel 0x2700000027 (10807)%Z 0x0 0x26a6a00026a78;
  mkModel 0x2700000027 (10808)%Z 0x0 0x26a7800026a81;
  mkModel 0x2700000027 (10809)%Z 0x0 0x26a8100026a8a;
  mkModel 0x2700000027 (10810)%Z 0x0 0x26a8a00026a90;
  mkModel 0x2700000027 (10811)%Z 0x0 0x26a9000026a9b;
  mkModel 0x2700000027 (10812)%Z 0x0 0x26a9b00026aa3;
  mkModel 0x2700000027 (10813)%Z 0x0 0x26aa300026aae;
  mkModel 0x2700000027 (10814)%Z 0x0 0x26aae00026ab7;
  mkModel 0x2700000027 (10815)%Z 0x0 0x26ab700026abe;
  mkModel 0x2700000027 (10816)%Z 0x0 0x26abe00026ac5;
  mkModel 0x2700000027 (10817)%Z 0x0 0x26ac500026ace;
  mkModel 0x2700000027 (10818)%Z 0x0 0x26ace00026ad2;
  mkModel 0x2700000027 (10819)%Z 0x0 0x26ad200026ada;
  mkModel 0x2700000027 (-1)%Z 0x26ada00026af4 0x26af400026b0f;
  mkModel 0x2700000027 (10820)%Z 0x0 0x26b0f00026b1a;
  mkModel 0x2700000027 (10821)%Z 0x0 0x26b1a00026b21;
  mkModel 0x2700000027 (10822)%Z 0x0 0x26b2100026b26;
  mkModel 0x2700000027 (10823)%Z 0x0 0x26b2600026b2f;
  mkModel 0x2700000027 (10824)%Z 0x0 0x26b2f00026b34;
  mkModel 0x2700000027 (10825)%Z 0x0 0x26b3400026b46;
  mkModel 0x2700000027 (10826)%Z 0x0 0x26b4600026b4c;
  mkModel 0x2700000027 (10827)%Z 0x0 0x26b4c00026b56;
  mkModel 0x2700000027 (10828)%Z 0x0 0x26b5600026b63;
  mkModel 0x2700000027 (10829)%Z 0x0 0x26b6300026b71;
  mkModel 0x2700000027 (10830)%Z 0x0 0x26b7100026b7a;
  mkModel 0x2700000027 (10831)%Z 0x0 0x26b7a00026b88;
  mkModel 0x2700000027 (10832)%Z 0x0 0x26b8800026b8e;
  mkModel 0x2700000027 (10833)%Z 0x0 0x26b8e00026b9b;
  mkModel 0x2700000027 (10834)%Z 0x0 0x26b9b00026ba1;
  mkModel 0x2700000027 (10835)%Z 0x0 0x26ba100026ba7;
  mkModel 0x2700000027 (10836)%Z 0x0 0x26ba700026bb1;
  mkModel 0x2700000027 (10837)%Z 0x0 0x26bb100026bb7;
  mkModel 0x2700000027 (10838)%Z 0x0 0x26bb700026bc7;
  mkModel 0x2700000027 (10839)%Z 0x0 0x26bc700026bd4;
  mkModel 0x2700000027 (10840)%Z 0x0 0x26bd400026bde;
  mkModel 0x2700000027 (10841)%Z 0x0 0x26bde00026be9;
  mkModel 0x2700000027 (10842)%Z 0x0 0x26be900026bf2;
  mkModel 0x2700000027 (10843)%Z 0x0 0x1b5d20001b5d8;
  mkModel 0x2700000027 (10844)%Z 0x0 0x18bcf00018bd1;
  mkModel 0x2700000027 (10845)%Z 0x0 0x26bf200026c06;
  mkModel 0x2700000027 (10846)%Z 0x0 0x26c0600026c09;
  mkModel 0x2700000027 (10847)%Z 0x0 0x26c0900026c19;
  mkModel 0x2700000027 (10848)%Z 0x0 0x26c1900026c20;
  mkModel 0x2700000027 (10849)%Z 0x0 0x26c2000026c27;
  mkModel 0x2700000027 (10850)%Z 0x0 0x26c2700026c2a;
  mkModel 0x2700000027 (10851)%Z 0x0 0x26c2a00026c33;
  mkModel 0x2700000027 (10852)%Z 0x0 0x26c3300026c3a;
  mkModel 0x2700000027 (10853)%Z 0x0 0x26c3a00026c3d;
  mkModel 0x2700000027 (10854)%Z 0x0 0x1b62e0001b634;
  mkModel 0x2700000027 (10855)%Z 0x0 0x26c3d00026c44;
  mkModel 0x2700000027 (10856)%Z 0x0 0x18bbe00018bc0;
  mkModel 0x2700000027 (10857)%Z 0x0 0x26c4400026c4c;
  mkModel 0x2700000027 (10858)%Z 0x0 0x26c4c00026c53;
  mkModel 0x2700000027 (10859)%Z 0x0 0x18bc900018bcc;
  mkModel 0x2700000027 (10860)%Z 0x0 0x26c5300026c55;
  mkModel 0x2700000027 (10861)%Z 0x0 0x26c5500026c5d;
  mkModel 0x2700000027 (-1)%Z 0x26c5d00026c6d 0x26c6d00026c76;
  mkModel 0x2700000027 (10862)%Z 0x0 0x26c7600026c7d;
  mkModel 0x2700000027 (10863)%Z 0x0 0x1b6b50001b6bb;
  mkModel 0x2700000027 (10864)%Z 0x0 0x26c7d00026c85;
  mkModel 0x2700000027 (10865)%Z 0x0 0x26c8500026c8c;
  mkModel 0x2700000027 (10866)%Z 0x0 0x26c8c00026c8f;
  mkModel 0x2700000027 (10867)%Z 0x0 0x1b6de0001b6e4;
  mkModel 0x2700000027 (10868)%Z 0x0 0x26c8f00026c91;
  mkModel 0x2700000027 (-1)%Z 0x26c9100026c9b 0x26c9b00026ca2;
  mkModel 0x2700000027 (-1)%Z 0x26ca200026cac 0x26cac00026cb3;
  mkModel 0x2700000027 (-1)%Z 0x26cb300026cbd 0x1b6eb0001b6ee;
  mkModel 0x2700000027 (10869)%Z 0x0 0x26cbd00026cc5;
  mkModel 0x2700000027 (-1)%Z 0x26cc500026ccf 0x26ccf00026cd5;
  mkModel 0x2700000027 (-1)%Z 0x26cd500026cdf 0x26cdf00026ce1;
  mkModel 0x2700000027 (-1)%Z 0x26ce100026ceb 0x22f2b00022f35;
  mkModel 0x2700000027 (10870)%Z 0x0 0x26ceb00026cf4;
  mkModel 0x2700000027 (10871)%Z 0x0 0x26cf400026d09;
  mkModel 0x2700000027 (10872)%Z 0x0 0x26d0900026d10;
  mkModel 0x2700000027 (10873)%Z 0x0 0x26d1000026d14;
  mkModel 0x2700000027 (10874)%Z 0x0 0x26d1400026d1d;
  mkModel 0x2700000027 (10875)%Z 0x0 0x26d1d00026d28;
  mkModel 0x2700000027 (10876)%Z 0x0 0x26d2800026d40;
  mkModel 0x2700000027 (10877)%Z 0x0 0x26d4000026d4a;
  mkModel 0x2700000027 (10878)%Z 0x0 0x26d4a00026d54;
  mkModel 0x2700000027 (10879)%Z 0x0 0x26d5400026d59;
  mkModel 0x2700000027 (10880)%Z 0x0 0x26d5900026d5d;
  mkModel 0x2700000027 (10881)%Z 0x0 0x26d5d00026d63;
  mkModel 0x2700000027 (10882)%Z 0x0 0x26d6300026d68;
  mkModel 0x2700000027 (10883)%Z 0x0 0x26d6800026d6d;
  mkModel 0x2700000027 (10884)%Z 0x0 0x26d6d00026d75;
  mkModel 0x2700000027 (-1)%Z 0x26d7500026d7f 0x26d7f00026d8b;
  mkModel 0x2700000027 (10885)%Z 0x0 0x26d8b00026d94;
  mkModel 0x2700000027 (10886)%Z 0x0 0x26d9400026d9a;
  mkModel 0x2700000027 (10887)%Z 0x0 0x26d9a00026da2;
  mkModel 0x2700000027 (10888)%Z 0x0 0x26da200026dac;
  mkModel 0x2700000027 (10889)%Z 0x0 0x26dac00026db1;
  mkModel 0x2700000027 (10890)%Z 0x0 0x26db100026db9;
  mkModel 0x2700000027 (10891)%Z 0x0 0x26db900026dc1;
  mkModel 0x2700000027 (10892)%Z 0x0 0x26dc100026dca;
  mkModel 0x2700000027 (10893)%Z 0x0 0x26dca00026dd5;
  mkModel 0x2700000027 (10894)%Z 0x0 0x26dd500026dde;
  mkModel 0x2700000027 (10895)%Z 0x0 0x26dde00026deb;
  mkModel 0x2700000027 (10896)%Z 0x0 0x26dc100026dca;
  mkModel 0x2700000027 (10897)%Z 0x0 0x26deb00026df1;
  mkModel 0x2700000027 (10898)%Z 0x0 0x26c7d00026c85;
  mkModel 0x2700000027 (10899)%Z 0x0 0x26df100026dfb;
  mkModel 0x2700000027 (10900)%Z 0x0 0x26dfb00026e04;
  mkModel 0x2700000027 (10901)%Z 0x0 0x26e0400026e10;
  mkModel 0x2700000027 (10902)%Z 0x0 0x26e1000026e18;
  mkModel 0x2700000027 (10903)%Z 0x0 0x26e1800026e25;
  mkModel 0x2700000027 (-1)%Z 0x26e2500026e2f 0x26e2f00026e3c;
  mkModel 0x2700000027 (-1)%Z 0x26e3c00026e46 0x26e4600026e57
].
Definition d_dr_dm_71 : list modelTuple := [
  mkModel 0x2700000027 (-1)%Z 0x26e5700026e63 0x26e5700026e63;
  mkModel 0x2700000027 (10904)%Z 0x0 0x26e6300026e6a;
  mkModel 0x2700000027 (10905)%Z 0x0 0x26e6a00026e71;
  mkModel 0x2700000027 (10906)%Z 0x0 0x26e7100026e7c;
  mkModel 0x2700000027 (10907)%Z 0x0 0x26e7c00026e84;
  mkModel 0x2700000027 (10908)%Z 0x0 0x26e8400026e8c;
  mkModel 0x2700000027 (10909)%Z 0x0 0x26e8c00026e93;
  mkModel 0x2700000027 (10910)%Z 0x0 0x26e9300026e9b;
  mkModel 0x2700000027 (10911)%Z 0x0 0x26e9b00026ea2;
  mkModel 0x2700000027 (10912)%Z 0x0 0x26ea200026ead;
  mkModel 0x2700000027 (10913)%Z 0x0 0x26ead00026eb6;
  mkModel 0x2700000027 (10914)%Z 0x0 0x26eb600026ebf;
  mkModel 0x2700000027 (10915)%Z 0x0 0x26ebf00026ec8;
  mkModel 0x2700000027 (10916)%Z 0x0 0x26ec800026ed0;
  mkModel 0x2700000027 (-1)%Z 0x26ed000026eda 0x26eda00026ee5;
  mkModel 0x2700000027 (10917)%Z 0x0 0x26ee500026ef1;
  mkModel 0x2700000027 (10918)%Z 0x0 0x26ef100026efa;
  mkModel 0x2700000027 (-1)%Z 0x26efa00026f04 0x26f0400026f10;
  mkModel 0x2700000027 (-1)%Z 0x26f1000026f1a 0x26f1a00026f26;
  mkModel 0x2700000027 (10919)%Z 0x0 0x26f2600026f2f;
  mkModel 0x2700000027 (10920)%Z 0x0 0x26f2f00026f37;
  mkModel 0x2700000027 (-1)%Z 0x26f3700026f41 0x26f4100026f4d;
  mkModel 0x2700000027 (10921)%Z 0x0 0x26f4d00026f54;
  mkModel 0x2700000027 (10922)%Z 0x0 0x26f5400026f61;
  mkModel 0x2700000027 (10923)%Z 0x0 0x26f6100026f6e;
  mkModel 0x2700000027 (10924)%Z 0x0 0x26f6e00026f76;
  mkModel 0x2700000027 (10925)%Z 0x0 0x26f7600026f7e;
  mkModel 0x2700000027 (10926)%Z 0x0 0x26f7e00026f8c;
  mkModel 0x2700000027 (10927)%Z 0x0 0x26f8c00026f94;
  mkModel 0x2700000027 (10928)%Z 0x0 0x26f9400026f9d;
  mkModel 0x2700000027 (10929)%Z 0x0 0x26f9d00026fa5;
  mkModel 0x2700000027 (10930)%Z 0x0 0x26fa500026fb1;
  mkModel 0x2700000027 (10931)%Z 0x0 0x26fb100026fbd;
  mkModel 0x2700000027 (10932)%Z 0x0 0x26fbd00026fc8;
  mkModel 0x2700000027 (10933)%Z 0x0 0x26fc800026fd0;
  mkModel 0x2700000027 (10934)%Z 0x0 0x26fd000026fde;
  mkModel 0x2700000027 (10935)%Z 0x0 0x26fde00026fe7;
  mkModel 0x2700000027 (10936)%Z 0x0 0x26fe700026ff6;
  mkModel 0x2700000027 (10937)%Z 0x0 0x26ff600027008;
  mkModel 0x2700000027 (10938)%Z 0x0 0x270080002701d;
  mkModel 0x2700000027 (10939)%Z 0x0 0x2701d0002702b;
  mkModel 0x2700000027 (10940)%Z 0x0 0x2702b00027038;
  mkModel 0x2700000027 (-1)%Z 0x2703800027042 0x270420002704b;
  mkModel 0x2700000027 (10941)%Z 0x0 0x2704b00027054;
  mkModel 0x2700000027 (10942)%Z 0x0 0x270540002705c;
  mkModel 0x2700000027 (10943)%Z 0x0 0x2705c00027067;
  mkModel 0x2700000027 (10944)%Z 0x0 0x2706700027075;
  mkModel 0x2700000027 (10945)%Z 0x0 0x2707500027092;
  mkModel 0x2700000027 (10946)%Z 0x0 0x270920002709f;
  mkModel 0x2700000027 (-1)%Z 0x2709f000270a8 0x270a8000270b1;
  mkModel 0x2700000027 (10947)%Z 0x0 0x270b1000270cb;
  mkModel 0x2700000027 (10948)%Z 0x0 0x270cb000270dd;
  mkModel 0x2700000027 (10949)%Z 0x0 0x270dd000270ed;
  mkModel 0x2700000027 (10950)%Z 0x0 0x270ed000270fa;
  mkModel 0x2700000027 (10951)%Z 0x0 0x270fa00027106;
  mkModel 0x2700000027 (10952)%Z 0x0 0x2710600027112;
  mkModel 0x2700000027 (10953)%Z 0x0 0x271120002711f;
  mkModel 0x2700000027 (10954)%Z 0x0 0x2711f00027128;
  mkModel 0x2700000027 (10955)%Z 0x0 0x2712800027132;
  mkModel 0x2700000027 (10956)%Z 0x0 0x2713200027142;
  mkModel 0x2700000027 (10957)%Z 0x0 0x2714200027150;
  mkModel 0x2700000027 (10958)%Z 0x0 0x271500002715d;
  mkModel 0x2700000027 (10959)%Z 0x0 0x2715d0002716c;
  mkModel 0x2700000027 (-1)%Z 0x2716c00027176 0x271760002717f;
  mkModel 0x2700000027 (-1)%Z 0x2717f0002719d 0x2717f0002719d;
  mkModel 0x2700000027 (-1)%Z 0x2719d000271a6 0x271a6000271b0;
  mkModel 0x2700000027 (-1)%Z 0x271b0000271b9 0x271b9000271c3;
  mkModel 0x2700000027 (10960)%Z 0x0 0x271c3000271d0;
  mkModel 0x2700000027 (-1)%Z 0x271d0000271df 0x271d0000271df;
  mkModel 0x2700000027 (-1)%Z 0x271df000271e9 0x271e9000271f3;
  mkModel 0x2700000027 (10961)%Z 0x0 0x271f300027200;
  mkModel 0x2700000027 (10962)%Z 0x0 0x272000002720f;
  mkModel 0x2700000027 (-1)%Z 0x2720f00027219 0x2721900027226;
  mkModel 0x2700000027 (-1)%Z 0x2722600027230 0x272300002723a;
  mkModel 0x2700000027 (-1)%Z 0x2723a00027244 0x272440002724d;
  mkModel 0x2700000027 (-1)%Z 0x2724d00027257 0x2725700027266;
  mkModel 0x2700000027 (10963)%Z 0x0 0x2726600027273;
  mkModel 0x2700000027 (-1)%Z 0x272730002727d 0x2727d0002728c;
  mkModel 0x2700000027 (10964)%Z 0x0 0x2728c00027299;
  mkModel 0x2700000027 (10965)%Z 0x0 0x27299000272a1;
  mkModel 0x2700000027 (-1)%Z 0x272a1000272b4 0x272a1000272b4;
  mkModel 0x2700000027 (-1)%Z 0x272b4000272c4 0x272c4000272cf;
  mkModel 0x2700000027 (10966)%Z 0x0 0x272cf000272d6;
  mkModel 0x2700000027 (10967)%Z 0x0 0x272d6000272de;
  mkModel 0x2700000027 (10968)%Z 0x0 0x272de000272ea;
  mkModel 0x2700000027 (10969)%Z 0x0 0x272ea000272f7;
  mkModel 0x2700000027 (10970)%Z 0x0 0x272f700027300;
  mkModel 0x2700000027 (10971)%Z 0x0 0x2730000027308;
  mkModel 0x2700000027 (10972)%Z 0x0 0x2730800027310;
  mkModel 0x2700000027 (10973)%Z 0x0 0x2731000027319;
  mkModel 0x2700000027 (10974)%Z 0x0 0x2731900027320;
  mkModel 0x2700000027 (10975)%Z 0x0 0x2732000027329;
  mkModel 0x2700000027 (-1)%Z 0x2732900027333 0x273330002733b;
  mkModel 0x2700000027 (-1)%Z 0x2733b00027345 0x2734500027351;
  mkModel 0x2700000027 (-1)%Z 0x273510002735b 0x2735b00027366;
  mkModel 0x2700000027 (10976)%Z 0x0 0x273660002736e;
  mkModel 0x2700000027 (-1)%Z 0x2736e00027377 0x2737700027382;
  mkModel 0x2700000027 (10977)%Z 0x0 0x273820002738b;
  mkModel 0x2700000027 (10978)%Z 0x0 0x2738b00027390;
  mkModel 0x2700000027 (10979)%Z 0x0 0x2739000027394;
  mkModel 0x2700000027 (10980)%Z 0x0 0x2739400027398;
  mkModel 0x2700000027 (10981)%Z 0x0 0x273980002739e;
  mkModel 0x2700000027 (-1)%Z 0x2739e000273a8 0x273a8000273ae;
  mkModel 0x2700000027 (-1)%Z 0x273ae000273b8 0x273b8000273c2;
  mkModel 0x2700000027 (-1)%Z 0x273c2000273cc 0x273cc000273d6;
  mkModel 0x2700000027 (10982)%Z 0x0 0x273d6000273dd;
  mkModel 0x2a1000002a7 (10983)%Z 0x0 0x273dd000273e9;
  mkModel 0x2a1000002a7 (10984)%Z 0x0 0x273e9000273f1;
  mkModel 0x2a1000002a7 (10985)%Z 0x0 0x273f100027400;
  mkModel 0x2a1000002a7 (10986)%Z 0x0 0x2740000027409;
  mkModel 0x2a1000002a7 (10987)%Z 0x0 0x2740900027412;
  mkModel 0x2a1000002a7 (10988)%Z 0x0 0x2741200027417;
  mkModel 0x2a1000002a7 (10989)%Z 0x0 0x274170002741c;
  mkModel 0x2a1000002a7 (10990)%Z 0x0 0x2741c00027428;
  mkModel 0x2a1000002a7 (10991)%Z 0x0 0x2742800027438;
  mkModel 0x2a1000002a7 (10992)%Z 0x0 0x2743800027445;
  mkModel 0x2a1000002a7 (10993)%Z 0x0 0x2744500027452;
  mkModel 0x2a1000002a7 (10994)%Z 0x0 0x274520002745a;
  mkModel 0x2a1000002a7 (10995)%Z 0x0 0x2745a00027462;
  mkModel 0x2a1000002a7 (10996)%Z 0x0 0x274620002746a;
  mkModel 0x2a1000002a7 (10997)%Z 0x0 0x2746a00027470;
  mkModel 0x2a1000002a7 (10998)%Z 0x0 0x2747000027479;
  mkModel 0x2a1000002a7 (10999)%Z 0x0 0x2747900027486;
  mkModel 0x2a1000002a7 (11000)%Z 0x0 0x2748600027497;
  mkModel 0x2a1000002a7 (11001)%Z 0x0 0x27497000274a3;
  mkModel 0x2a1000002a7 (11002)%Z 0x0 0x274a3000274b3;
  mkModel 0x2a1000002a7 (11003)%Z 0x0 0x274b3000274c1;
  mkModel 0x2a1000002a7 (11004)%Z 0x0 0x274c1000274cc;
  mkModel 0x2a1000002a7 (-1)%Z 0x274cc000274d6 0x274d6000274e5;
  mkModel 0x2a1000002a7 (-1)%Z 0x274e5000274ef 0x274ef00027501;
  mkModel 0x7cc000007d6 (-1)%Z 0x2750100027509 0x2750900027520;
  mkModel 0x7cc000007d6 (-1)%Z 0x2752000027529 0x2752900027543;
  mkModel 0x23b0000023d (11005)%Z 0x0 0x2754300027556;
  mkModel 0x23b0000023d (11006)%Z 0x0 0x2755600027562;
  mkModel 0x23b0000023d (11007)%Z 0x0 0x275620002756b;
  mkModel 0x23b0000023d (11008)%Z 0x0 0x2756b00027574;
  mkModel 0x23b0000023d (11009)%Z 0x0 0x275740002757b;
  mkModel 0x23b0000023d (11010)%Z 0x0 0x2757b00027582;
  mkModel 0x23b0000023d (11011)%Z 0x0 0x275820002758c;
  mkModel 0x23b0000023d (11012)%Z 0x0 0x2758c00027599;
  mkModel 0x23b0000023d (11013)%Z 0x0 0x27599000275a0;
  mkModel 0x23b0000023d (11014)%Z 0x0 0x275a0000275a7;
  mkModel 0x23b0000023d (11015)%Z 0x0 0x2757b00027582;
  mkModel 0x23b0000023d (11016)%Z 0x0 0x275a7000275b1;
  mkModel 0x23b0000023d (11017)%Z 0x0 0x275b1000275b8;
  mkModel 0x23b0000023d (11018)%Z 0x0 0x275b8000275c3;
  mkModel 0x23b0000023d (11019)%Z 0x0 0x275c3000275ca;
  mkModel 0x23b0000023d (11020)%Z 0x0 0x275ca000275dc;
  mkModel 0x23b0000023d (11021)%Z 0x0 0x275dc000275f2;
  mkModel 0x23b0000023d (11022)%Z 0x0 0x275c3000275ca;
  mkModel 0xdfd00000e04 (11023)%Z 0x0 0x275f2000275fd;
  mkModel 0xdfd00000e04 (11024)%Z 0x0 0x275fd00027607;
  mkModel 0xdfd00000e04 (11025)%Z 0x0 0x2760700027611;
  mkModel 0xdfd00000e04 (11026)%Z 0x0 0x276110002761b;
  mkModel 0xdfd00000e04 (11027)%Z 0x0 0x2761b0002762a;
  mkModel 0xdfd00000e04 (11028)%Z 0x0 0x2762a00027637;
  mkModel 0xdfd00000e04 (11029)%Z 0x0 0x2763700027643;
  mkModel 0xdfd00000e04 (-1)%Z 0x2764300027648 0x2764800027654;
  mkModel 0xdfd00000e04 (-1)%Z 0x2765400027667 0x2765400027667;
  mkModel 0xdfd00000e04 (-1)%Z 0x2766700027679 0x2766700027679;
  mkModel 0xdfd00000e04 (11030)%Z 0x0 0x2767900027685;
  mkModel 0xdfd00000e04 (11031)%Z 0x0 0x2768500027692;
  mkModel 0xdfd00000e04 (11032)%Z 0x0 0x27692000276a0;
  mkModel 0xdfd00000e04 (11033)%Z 0x0 0x276a0000276ae;
  mkModel 0xdfd00000e04 (11034)%Z 0x0 0x276ae000276be;
  mkModel 0xdfd00000e04 (11035)%Z 0x0 0x276be000276cd;
  mkModel 0xdfd00000e04 (11036)%Z 0x0 0x276cd000276e0;
  mkModel 0xdfd00000e04 (11037)%Z 0x0 0x276e0000276f0;
  mkModel 0xdfd00000e04 (11038)%Z 0x0 0x276f000027702;
  mkModel 0xdfd00000e04 (11039)%Z 0x0 0x2770200027716;
  mkModel 0xdfd00000e04 (11040)%Z 0x0 0x2771600027723;
  mkModel 0xdfd00000e04 (11041)%Z 0x0 0x2772300027731;
  mkModel 0xdfd00000e04 (11042)%Z 0x0 0x276a0000276ae;
  mkModel 0xdfd00000e04 (11043)%Z 0x0 0x2773100027741;
  mkModel 0xdfd00000e04 (11044)%Z 0x0 0x2774100027752;
  mkModel 0xdfd00000e04 (11045)%Z 0x0 0x2775200027762;
  mkModel 0xdfd00000e04 (11046)%Z 0x0 0x2776200027773;
  mkModel 0xdfd00000e04 (11047)%Z 0x0 0x277730002778a;
  mkModel 0xdfd00000e04 (11048)%Z 0x0 0x2778a0002779b;
  mkModel 0xdfd00000e04 (11049)%Z 0x0 0x2779b000277a8;
  mkModel 0xdfd00000e04 (11050)%Z 0x0 0x277a8000277bf;
  mkModel 0xdfd00000e04 (11051)%Z 0x0 0x277bf000277cd;
  mkModel 0xdfd00000e04 (11052)%Z 0x0 0x2779b000277a8;
  mkModel 0xdfd00000e04 (11053)%Z 0x0 0x277cd000277df;
  mkModel 0xdfd00000e04 (11054)%Z 0x0 0x277df000277ed;
  mkModel 0xdfd00000e04 (11055)%Z 0x0 0x277ed000277fb;
  mkModel 0xdfd00000e04 (11056)%Z 0x0 0x277fb0002780d;
  mkModel 0xdfd00000e04 (11057)%Z 0x0 0x2780d00027821;
  mkModel 0xdfd00000e04 (11058)%Z 0x0 0x2782100027836;
  mkModel 0xdfd00000e04 (11059)%Z 0x0 0x277730002778a;
  mkModel 0xdfd00000e04 (11060)%Z 0x0 0x2783600027848;
  mkModel 0xdfd00000e04 (11061)%Z 0x0 0x2779b000277a8;
  mkModel 0xdfd00000e04 (11062)%Z 0x0 0x2784800027859;
  mkModel 0xdfd00000e04 (11063)%Z 0x0 0x278590002786a;
  mkModel 0xdfd00000e04 (-1)%Z 0x2786a00027874 0x2787400027882;
  mkModel 0xdfd00000e04 (11064)%Z 0x0 0x2788200027894;
  mkModel 0xdfd00000e04 (11065)%Z 0x0 0x27894000278a8;
  mkModel 0xdfd00000e04 (11066)%Z 0x0 0x278a8000278b5;
  mkModel 0xdfd00000e04 (11067)%Z 0x0 0x278b5000278c7;
  mkModel 0xdfd00000e04 (11068)%Z 0x0 0x278c7000278d9
].
Definition d_dr_dm_72 : list modelTuple := [
  mkModel 0xdfd00000e04 (11069)%Z 0x0 0x278d9000278ea;
  mkModel 0xdfd00000e04 (11070)%Z 0x0 0x278ea000278fe;
  mkModel 0xdfd00000e04 (11071)%Z 0x0 0x278fe0002790e;
  mkModel 0xdfd00000e04 (11072)%Z 0x0 0x2790e0002791b;
  mkModel 0xdfd00000e04 (-1)%Z 0x2791b00027925 0x2792500027933;
  mkModel 0xdfd00000e04 (-1)%Z 0x279330002793d 0x2793d0002794f;
  mkModel 0xdfd00000e04 (-1)%Z 0x2794f00027959 0x279590002796a;
  mkModel 0xdfd00000e04 (11073)%Z 0x0 0x2796a0002797f;
  mkModel 0xdfd00000e04 (11074)%Z 0x0 0x2797f0002798f;
  mkModel 0xdfd00000e04 (11075)%Z 0x0 0x2798f000279a1;
  mkModel 0xdfd00000e04 (11076)%Z 0x0 0x279a1000279af;
  mkModel 0xdfd00000e04 (11077)%Z 0x0 0x279af000279c1;
  mkModel 0xdfd00000e04 (11078)%Z 0x0 0x279c1000279d4;
  mkModel 0xdfd00000e04 (11079)%Z 0x0 0x279d4000279e8;
  mkModel 0xdfd00000e04 (11080)%Z 0x0 0x279e8000279fd;
  mkModel 0xdfd00000e04 (11081)%Z 0x0 0x279fd00027a0f;
  mkModel 0xdfd00000e04 (11082)%Z 0x0 0x27a0f00027a1f;
  mkModel 0xdfd00000e04 (11083)%Z 0x0 0x27a1f00027a30;
  mkModel 0xdfd00000e04 (11084)%Z 0x0 0x27a3000027a40;
  mkModel 0xdfd00000e04 (11085)%Z 0x0 0x27a4000027a50;
  mkModel 0xdfd00000e04 (11086)%Z 0x0 0x27a5000027a5e;
  mkModel 0xdfd00000e04 (11087)%Z 0x0 0x27a5e00027a6f;
  mkModel 0xdfd00000e04 (11088)%Z 0x0 0x27a6f00027a80;
  mkModel 0xdfd00000e04 (-1)%Z 0x27a8000027a8a 0x27a8a00027a9e;
  mkModel 0xdfd00000e04 (11089)%Z 0x0 0x27a9e00027aaa;
  mkModel 0xdfd00000e04 (11090)%Z 0x0 0x27aaa00027abd;
  mkModel 0xdfd00000e04 (11091)%Z 0x0 0x27abd00027acd;
  mkModel 0xdfd00000e04 (11092)%Z 0x0 0x27acd00027ada;
  mkModel 0xdfd00000e04 (11093)%Z 0x0 0x27ada00027ae7;
  mkModel 0xdfd00000e04 (11094)%Z 0x0 0x27ae700027af7;
  mkModel 0xdfd00000e04 (11095)%Z 0x0 0x27af700027b03;
  mkModel 0xdfd00000e04 (11096)%Z 0x0 0x27b0300027b18;
  mkModel 0xdfd00000e04 (11097)%Z 0x0 0x27b1800027b29;
  mkModel 0xdfd00000e04 (11098)%Z 0x0 0x27b2900027b36;
  mkModel 0x2700000027 (11099)%Z 0x0 0x27b3600027b3e;
  mkModel 0xdfd00000e04 (-1)%Z 0x27b3e00027b49 0x27b4900027b54;
  mkModel 0xdfd00000e04 (11100)%Z 0x0 0x27b5400027b62;
  mkModel 0xdfd00000e04 (-1)%Z 0x27b6200027b71 0x27b6200027b71;
  mkModel 0xdfd00000e04 (11101)%Z 0x0 0x27b7100027b7b;
  mkModel 0xdfd00000e04 (11102)%Z 0x0 0x27b7b00027b85;
  mkModel 0x2700000027 (11103)%Z 0x0 0x27b8500027b8c;
  mkModel 0x2700000027 (11104)%Z 0x0 0x27b8c00027b97;
  mkModel 0x2700000027 (11105)%Z 0x0 0x27b9700027ba0;
  mkModel 0x2700000027 (11106)%Z 0x0 0x27ba000027ba5;
  mkModel 0x2700000027 (11107)%Z 0x0 0x27ba000027ba5;
  mkModel 0xdfd00000e04 (11108)%Z 0x0 0xacd70000acdb;
  mkModel 0x2700000027 (11109)%Z 0x0 0x27ba500027baa;
  mkModel 0x2700000027 (11110)%Z 0x0 0x18000000182;
  mkModel 0x2700000027 (11112)%Z 0x0 0x27bae00027bb2;
  mkModel 0x2700000027 (11114)%Z 0x0 0x27bb600027bbe;
  mkModel 0x2700000027 (11115)%Z 0x0 0x27bbe00027bc8;
  mkModel 0x2700000027 (11116)%Z 0x0 0x27bc800027bcf;
  mkModel 0x2700000027 (11117)%Z 0x0 0x27bcf00027bd9;
  mkModel 0x2700000027 (11118)%Z 0x0 0x27bd900027bdf;
  mkModel 0x2700000027 (11119)%Z 0x0 0x27bdf00027be5;
  mkModel 0x2700000027 (11120)%Z 0x0 0x27be500027bed;
  mkModel 0x2700000027 (11121)%Z 0x0 0x18000000182;
  mkModel 0x2700000027 (11122)%Z 0x0 0x18000000182;
  mkModel 0x2700000027 (11123)%Z 0x0 0x18000000182;
  mkModel 0x2700000027 (11125)%Z 0x0 0x27bf100027c01;
  mkModel 0x2700000027 (11126)%Z 0x0 0x27c0100027c0b;
  mkModel 0x2700000027 (11127)%Z 0x0 0x27c0b00027c1a;
  mkModel 0xbf670000bf7c (11128)%Z 0x0 0x27c1a00027c20;
  mkModel 0x23b0000023d (11129)%Z 0x0 0x27c2000027c27;
  mkModel 0x0 (-1)%Z 0x0 0x18000000182;
  mkModel 0x2700000027 (-1)%Z 0x27c3400027c3a 0x27c3a00027c40;
  mkModel 0x2700000027 (11132)%Z 0x0 0x18000000182;
  mkModel 0x2700000027 (11134)%Z 0x0 0x18000000182;
  mkModel 0x2700000027 (11135)%Z 0x0 0xc9f80000c9fa;
  mkModel 0x2700000027 (11136)%Z 0x0 0x27c4600027c4d;
  mkModel 0x2a1000002a7 (-1)%Z 0x27c4d00027c56 0x27c5600027c5f;
  mkModel 0x2700000027 (11138)%Z 0x0 0x18000000182;
  mkModel 0x2a1000002a7 (-1)%Z 0x27c6700027c6c 0x27c6c00027c7b;
  mkModel 0x2a1000002a7 (-1)%Z 0x27c7b00027c82 0x27c7b00027c82;
  mkModel 0x2a1000002a7 (-1)%Z 0x27c8200027c89 0x27c8900027c98;
  mkModel 0x0 (-1)%Z 0x0 0x27c9d00027ca4;
  mkModel 0x2700000027 (11140)%Z 0x0 0x27caf00027cbd;
  mkModel 0x2700000027 (11141)%Z 0x0 0x8a0100008a0c;
  mkModel 0x2700000027 (11142)%Z 0x0 0x7d3900007d44;
  mkModel 0x0 (-1)%Z 0x0 0x18000000182;
  mkModel 0x2700000027 (-1)%Z 0x27ccb00027cd4 0x27cd400027cdf;
  mkModel 0x0 (-1)%Z 0x0 0x27ce500027cef;
  mkModel 0x2700000027 (11147)%Z 0x0 0x18000000182;
  mkModel 0x2700000027 (11148)%Z 0x0 0x18000000182;
  mkModel 0x0 (-1)%Z 0x0 0x18000000182;
  mkModel 0x2700000027 (11151)%Z 0x0 0x500000005006;
  mkModel 0x2700000027 (-1)%Z 0x27cff00027d0d 0x27d0d00027d16;
  mkModel 0x2700000027 (-1)%Z 0x27d1600027d21 0x27d2100027d27;
  mkModel 0x2700000027 (-1)%Z 0x27d2700027d34 0x27d3400027d3d;
  mkModel 0x2700000027 (-1)%Z 0x27d3d00027d49 0x27d4900027d50;
  mkModel 0x2700000027 (-1)%Z 0x27d5000027d5c 0x27d5c00027d63;
  mkModel 0x2700000027 (11152)%Z 0x0 0x18000000182;
  mkModel 0x2700000027 (11154)%Z 0x0 0x18000000182;
  mkModel 0x2700000027 (-1)%Z 0x27d6900027d6d 0x27d6900027d6d;
  mkModel 0x0 (-1)%Z 0x0 0x18000000182;
  mkModel 0x23b0000023d (-1)%Z 0x27d7900027d8c 0x27d8c00027d92;
  mkModel 0x23b0000023d (11157)%Z 0x0 0x27d9200027d99;
  mkModel 0x2700000027 (11158)%Z 0x0 0x27d9900027da3;
  mkModel 0x296a00002977 (11159)%Z 0x0 0x27da300027db5;
  mkModel 0x296a00002977 (-1)%Z 0x27db500027dc4 0x27dc400027dcd;
  mkModel 0x2700000027 (-1)%Z 0x27dd300027de2 0x27de200027de8;
  mkModel 0x2700000027 (11161)%Z 0x0 0x27de800027def;
  mkModel 0x2700000027 (-1)%Z 0x27def00027dfa 0x27de800027def;
  mkModel 0x2700000027 (-1)%Z 0x27dfa00027e05 0x27e0500027e0c;
  mkModel 0x2700000027 (-1)%Z 0x27e0c00027e1a 0x27e1a00027e22;
  mkModel 0x2700000027 (-1)%Z 0x27e2200027e2b 0x27e2b00027e34;
  mkModel 0x2700000027 (-1)%Z 0x27e3400027e3d 0x27e3d00027e47;
  mkModel 0x2700000027 (-1)%Z 0x27e4700027e50 0x27e5000027e5a;
  mkModel 0x2700000027 (11162)%Z 0x0 0x27e5a00027e62;
  mkModel 0x2700000027 (-1)%Z 0x27e6200027e6b 0x27e6b00027e74;
  mkModel 0x2700000027 (-1)%Z 0x27e7400027e7d 0x27e7d00027e86;
  mkModel 0x2700000027 (-1)%Z 0x27e8600027e92 0x27e9200027e9a;
  mkModel 0x2700000027 (-1)%Z 0x27e9a00027ea2 0x27ea200027ead;
  mkModel 0x2700000027 (-1)%Z 0x27ead00027eb6 0x27eb600027ec2;
  mkModel 0x2700000027 (11163)%Z 0x0 0x27ec200027ecc;
  mkModel 0x2700000027 (-1)%Z 0x27ecc00027ed5 0x27ed500027ede;
  mkModel 0x2700000027 (-1)%Z 0x27ee100027ee6 0x27ee600027eee;
  mkModel 0x2700000027 (-1)%Z 0x27eee00027ef6 0x27ef600027f00;
  mkModel 0x2700000027 (-1)%Z 0x27f0000027f06 0x27f0600027f10;
  mkModel 0x2700000027 (11165)%Z 0x0 0x18000000182;
  mkModel 0x2700000027 (11167)%Z 0x0 0xde010000de04;
  mkModel 0x2a1000002a7 (11168)%Z 0x0 0x18000000182;
  mkModel 0x2700000027 (11170)%Z 0x0 0x27f1a00027f21;
  mkModel 0x2700000027 (-1)%Z 0x27f2100027f2b 0x27f2b00027f33;
  mkModel 0x2700000027 (-1)%Z 0x27f3300027f3b 0x27f3b00027f44;
  mkModel 0x2700000027 (-1)%Z 0x27f4400027f48 0x27f4800027f4d;
  mkModel 0x2700000027 (-1)%Z 0x27f4d00027f54 0x27f5400027f5d;
  mkModel 0x2700000027 (-1)%Z 0x27f5d00027f63 0x27f6300027f69;
  mkModel 0x2700000027 (-1)%Z 0x27f6900027f6f 0x27f6f00027f75;
  mkModel 0x2700000027 (11171)%Z 0x0 0x27f7500027f7a;
  mkModel 0x2700000027 (-1)%Z 0x27f7a00027f7e 0x27f7a00027f7e;
  mkModel 0x2700000027 (-1)%Z 0x27f7e00027f88 0x27f7e00027f88;
  mkModel 0x2700000027 (11172)%Z 0x0 0x27f8800027f8f;
  mkModel 0x2700000027 (-1)%Z 0x27f8f00027f98 0x27f8f00027f98;
  mkModel 0x2700000027 (11173)%Z 0x0 0x27f9800027fa0;
  mkModel 0x2700000027 (-1)%Z 0x27fa000027faa 0x27faa00027fb4;
  mkModel 0x2700000027 (-1)%Z 0x27fb400027fbd 0x27fbd00027fc7;
  mkModel 0x2700000027 (11174)%Z 0x0 0x27fc700027fd1;
  mkModel 0x2700000027 (11175)%Z 0x0 0x27fd100027fde;
  mkModel 0x2700000027 (11176)%Z 0x0 0x27fc700027fd1;
  mkModel 0x0 (-1)%Z 0x0 0x27fe500027fec;
  mkModel 0x0 (-1)%Z 0x0 0x162830001628b;
  mkModel 0x2700000027 (11180)%Z 0x0 0x1720b00017212;
  mkModel 0x2700000027 (11181)%Z 0x0 0x27ff400028000;
  mkModel 0x2700000027 (11183)%Z 0x0 0x280050002800c;
  mkModel 0x2700000027 (11185)%Z 0x0 0x2801200028019;
  mkModel 0x2700000027 (-1)%Z 0x2801900028023 0x2802300028029;
  mkModel 0x2700000027 (11187)%Z 0x0 0x18000000182;
  mkModel 0x2700000027 (11188)%Z 0x0 0x18000000182;
  mkModel 0x2700000027 (11190)%Z 0x0 0x2803000028038;
  mkModel 0x2700000027 (-1)%Z 0x280380002803e 0x2803e00028047;
  mkModel 0x2700000027 (-1)%Z 0x280470002804d 0x2804d00028054;
  mkModel 0x2700000027 (-1)%Z 0x280540002805a 0x2805a00028060;
  mkModel 0x2700000027 (-1)%Z 0x2806000028066 0x280660002806e;
  mkModel 0x2700000027 (-1)%Z 0x2806e00028074 0x280740002807c;
  mkModel 0x2700000027 (11191)%Z 0x0 0x2807c00028087;
  mkModel 0x2700000027 (-1)%Z 0x280870002808d 0x2808d00028094;
  mkModel 0x2700000027 (-1)%Z 0x280940002809a 0x90500000908;
  mkModel 0x2700000027 (-1)%Z 0x2809a000280a1 0x280a1000280ac;
  mkModel 0x2700000027 (11192)%Z 0x0 0x18000000182;
  mkModel 0x2700000027 (11194)%Z 0x0 0x8a5c00008a5f;
  mkModel 0x2700000027 (11196)%Z 0x0 0x280ba000280c2;
  mkModel 0x2700000027 (11198)%Z 0x0 0x280c2000280cb;
  mkModel 0x2700000027 (11199)%Z 0x0 0x280cb000280d1;
  mkModel 0x2700000027 (-1)%Z 0x280d6000280db 0x280d6000280db;
  mkModel 0x2700000027 (11201)%Z 0x0 0x18000000182;
  mkModel 0x2700000027 (11202)%Z 0x0 0x18000000182;
  mkModel 0x0 (-1)%Z 0x0 0x18000000182;
  mkModel 0x0 (-1)%Z 0x0 0x18000000182;
  mkModel 0x0 (-1)%Z 0x0 0x18000000182;
  mkModel 0x2700000027 (11207)%Z 0x0 0x280ed000280fd;
  mkModel 0x2700000027 (11208)%Z 0x0 0x280fd00028107;
  mkModel 0x2700000027 (11209)%Z 0x0 0x2810700028113;
  mkModel 0x2700000027 (11210)%Z 0x0 0x281130002811e;
  mkModel 0x2700000027 (11211)%Z 0x0 0x2811e0002812b;
  mkModel 0x2700000027 (11212)%Z 0x0 0x2812b00028137;
  mkModel 0x2700000027 (11213)%Z 0x0 0x2813700028144;
  mkModel 0x2700000027 (11214)%Z 0x0 0x2814400028151;
  mkModel 0x2700000027 (11215)%Z 0x0 0x281510002815c;
  mkModel 0x2700000027 (11216)%Z 0x0 0x2815c0002816b;
  mkModel 0x2700000027 (11217)%Z 0x0 0x2816b00028178;
  mkModel 0x2700000027 (11218)%Z 0x0 0x2817800028185;
  mkModel 0x2700000027 (11219)%Z 0x0 0x2818500028191;
  mkModel 0x2700000027 (11220)%Z 0x0 0x281910002819f;
  mkModel 0x2700000027 (11221)%Z 0x0 0x2819f000281ab;
  mkModel 0x2700000027 (11222)%Z 0x0 0x281ab000281b8;
  mkModel 0x2700000027 (11223)%Z 0x0 0x281b8000281ca;
  mkModel 0x2700000027 (11224)%Z 0x0 0x281ca000281d7;
  mkModel 0x2700000027 (11225)%Z 0x0 0x281d7000281e3;
  mkModel 0x2700000027 (11226)%Z 0x0 0x281e3000281ef;
  mkModel 0x2700000027 (11227)%Z 0x0 0x281ef000281fa;
  mkModel 0x2700000027 (-1)%Z 0x281fa00028206 0x2820600028212;
  mkModel 0x2700000027 (-1)%Z 0x282120002821e 0x2821e0002822a;
  mkModel 0x2700000027 (-1)%Z 0x2822a00028236 0x2823600028242;
  mkModel 0x0 (-1)%Z 0x0 0x18000000182;
  mkModel 0x2700000027 (11230)%Z 0x0 0x30d00000312;
  mkModel 0x0 (-1)%Z 0x0 0x18000000182;
  mkModel 0x0 (-1)%Z 0x0 0x18000000182;
  mkModel 0x2700000027 (11234)%Z 0x0 0x2825900028268;
  mkModel 0x2700000027 (-1)%Z 0x2826800028277 0x2826800028277
].
Definition d_dr_dm_73 : list modelTuple := [
  mkModel 0x2700000027 (11235)%Z 0x0 0x2827700028285;
  mkModel 0x2700000027 (11236)%Z 0x0 0x2828500028297;
  mkModel 0x2700000027 (11237)%Z 0x0 0x28297000282a0;
  mkModel 0x2700000027 (11238)%Z 0x0 0x282a0000282ad;
  mkModel 0x2700000027 (11239)%Z 0x0 0x282ad000282bb;
  mkModel 0x2700000027 (11240)%Z 0x0 0x282bb000282c5;
  mkModel 0x2700000027 (11241)%Z 0x0 0x282c5000282cf;
  mkModel 0x2700000027 (11242)%Z 0x0 0x282cf000282d7;
  mkModel 0x2700000027 (11243)%Z 0x0 0x282d7000282df;
  mkModel 0x2700000027 (11244)%Z 0x0 0x282df000282e8;
  mkModel 0x2700000027 (11245)%Z 0x0 0x282e8000282f4;
  mkModel 0x2700000027 (11246)%Z 0x0 0x282f400028301;
  mkModel 0x2700000027 (11247)%Z 0x0 0x283010002830d;
  mkModel 0x2700000027 (11248)%Z 0x0 0x2830d00028317;
  mkModel 0x2700000027 (11249)%Z 0x0 0x2831700028324;
  mkModel 0x2700000027 (11250)%Z 0x0 0x3a7000003a9;
  mkModel 0x2700000027 (11251)%Z 0x0 0x283240002832c;
  mkModel 0x2700000027 (11252)%Z 0x0 0x2832c00028335;
  mkModel 0x2700000027 (11253)%Z 0x0 0x283350002833d;
  mkModel 0x2700000027 (11254)%Z 0x0 0x2833d0002834c;
  mkModel 0x2700000027 (11255)%Z 0x0 0x2834c00028359;
  mkModel 0x2700000027 (11256)%Z 0x0 0x2835900028367;
  mkModel 0x2700000027 (11257)%Z 0x0 0x2836700028377;
  mkModel 0x2700000027 (11258)%Z 0x0 0x2837700028386;
  mkModel 0x2700000027 (11259)%Z 0x0 0x2838600028396;
  mkModel 0x2700000027 (11260)%Z 0x0 0x283960002839f;
  mkModel 0x2700000027 (-1)%Z 0x2839f000283a7 0x283a7000283b0;
  mkModel 0x2700000027 (-1)%Z 0x283b0000283b5 0x283b5000283be;
  mkModel 0x2700000027 (-1)%Z 0x283be000283c4 0x283c4000283ce;
  mkModel 0x2700000027 (11261)%Z 0x0 0x283ce000283d7;
  mkModel 0x2700000027 (-1)%Z 0x283d7000283dc 0x283dc000283e8;
  mkModel 0x2700000027 (11262)%Z 0x0 0x283e8000283f5;
  mkModel 0x2700000027 (11263)%Z 0x0 0x283f5000283fd;
  mkModel 0x2700000027 (11264)%Z 0x0 0x283fd0002840a;
  mkModel 0x2700000027 (11265)%Z 0x0 0x2840a00028418;
  mkModel 0x2700000027 (11266)%Z 0x0 0x2841800028426;
  mkModel 0x2700000027 (11267)%Z 0x0 0x284260002842c;
  mkModel 0x2700000027 (11268)%Z 0x0 0x2842c00028436;
  mkModel 0x2700000027 (11269)%Z 0x0 0x2843600028444;
  mkModel 0x2700000027 (11270)%Z 0x0 0x2844400028453;
  mkModel 0x2700000027 (11271)%Z 0x0 0x284530002845d;
  mkModel 0x2700000027 (11272)%Z 0x0 0x2845d00028464;
  mkModel 0x2700000027 (11273)%Z 0x0 0x2846400028471;
  mkModel 0x2700000027 (-1)%Z 0x2847100028477 0x2847700028481;
  mkModel 0x2700000027 (11274)%Z 0x0 0x2848100028488;
  mkModel 0x2700000027 (-1)%Z 0x284880002848e 0x2848e0002849c;
  mkModel 0x2700000027 (-1)%Z 0x2849c000284a3 0x284a3000284b0;
  mkModel 0x2700000027 (-1)%Z 0x284b0000284b6 0x284b6000284c4;
  mkModel 0x2700000027 (-1)%Z 0x284c4000284c9 0x284c9000284d4;
  mkModel 0x2700000027 (-1)%Z 0x284d4000284da 0x284da000284eb;
  mkModel 0x2700000027 (-1)%Z 0x284eb000284f1 0x284f1000284fe;
  mkModel 0x2700000027 (11275)%Z 0x0 0x284fe00028509;
  mkModel 0x2700000027 (11276)%Z 0x0 0x2850900028513;
  mkModel 0x2700000027 (-1)%Z 0x2851300028518 0x2851800028522;
  mkModel 0x2700000027 (-1)%Z 0x2852200028527 0x285270002852e;
  mkModel 0x2700000027 (-1)%Z 0x2852e00028534 0x2853400028544;
  mkModel 0x2700000027 (-1)%Z 0x2854400028549 0x2854900028555;
  mkModel 0x2700000027 (-1)%Z 0x285550002855b 0x2855b0002856b;
  mkModel 0x2700000027 (11277)%Z 0x0 0x2856b00028573;
  mkModel 0x2700000027 (11278)%Z 0x0 0x285730002857a;
  mkModel 0x2700000027 (11279)%Z 0x0 0x2857a00028584;
  mkModel 0x2700000027 (11280)%Z 0x0 0x285840002858b;
  mkModel 0x2700000027 (11281)%Z 0x0 0x2858b00028593;
  mkModel 0x2700000027 (11282)%Z 0x0 0x2859300028596;
  mkModel 0x2700000027 (11283)%Z 0x0 0x2859600028599;
  mkModel 0x2700000027 (11284)%Z 0x0 0x285990002859f;
  mkModel 0x2700000027 (11285)%Z 0x0 0x2859f000285a7;
  mkModel 0x2700000027 (11286)%Z 0x0 0x285a7000285b3;
  mkModel 0x2700000027 (11287)%Z 0x0 0x285b3000285b7;
  mkModel 0x2700000027 (11288)%Z 0x0 0x285b7000285bf;
  mkModel 0x2700000027 (11289)%Z 0x0 0x285bf000285c7;
  mkModel 0x2700000027 (11290)%Z 0x0 0x247400002479;
  mkModel 0x2700000027 (11291)%Z 0x0 0x2030900020311;
  mkModel 0x2700000027 (11292)%Z 0x0 0x285c7000285d1;
  mkModel 0x2700000027 (11293)%Z 0x0 0x285d1000285d8;
  mkModel 0x2700000027 (11294)%Z 0x0 0x2525e00025260;
  mkModel 0x2700000027 (11295)%Z 0x0 0x285d8000285df;
  mkModel 0x2700000027 (11296)%Z 0x0 0x285df000285e9;
  mkModel 0x2700000027 (11297)%Z 0x0 0x285e9000285f4;
  mkModel 0x2700000027 (11298)%Z 0x0 0x285f4000285fc;
  mkModel 0x2700000027 (11299)%Z 0x0 0x285fc00028604;
  mkModel 0x2700000027 (11300)%Z 0x0 0x286040002860f;
  mkModel 0x2700000027 (11301)%Z 0x0 0x2860f00028618;
  mkModel 0x2700000027 (11302)%Z 0x0 0x2861800028621;
  mkModel 0x2700000027 (11303)%Z 0x0 0x2862100028627;
  mkModel 0x2700000027 (11304)%Z 0x0 0x2862700028630;
  mkModel 0x2700000027 (11305)%Z 0x0 0x286300002863a;
  mkModel 0x2700000027 (11306)%Z 0x0 0x2863a00028640;
  mkModel 0x2700000027 (11307)%Z 0x0 0x2864000028645;
  mkModel 0x2700000027 (11308)%Z 0x0 0x2864500028650;
  mkModel 0x2700000027 (11309)%Z 0x0 0x286500002865e;
  mkModel 0x2700000027 (-1)%Z 0x2865e00028663 0x286630002866e;
  mkModel 0x2700000027 (-1)%Z 0x2866e00028672 0x2867200028679;
  mkModel 0x2700000027 (-1)%Z 0x286790002867d 0x2867d00028685;
  mkModel 0x2700000027 (11310)%Z 0x0 0x2868500028692;
  mkModel 0x2700000027 (11311)%Z 0x0 0x286920002869b;
  mkModel 0x2700000027 (-1)%Z 0x2869b000286a7 0x2869b000286a7;
  mkModel 0x2700000027 (-1)%Z 0x286a7000286b4 0x286b4000286bd;
  mkModel 0x2700000027 (11312)%Z 0x0 0x286bd000286c8;
  mkModel 0x2700000027 (-1)%Z 0x286c8000286cc 0x286cc000286d0;
  mkModel 0x2700000027 (-1)%Z 0x286d0000286d5 0x286d5000286dd;
  mkModel 0x2700000027 (11313)%Z 0x0 0x286dd000286e4;
  mkModel 0x2700000027 (11314)%Z 0x0 0x286e4000286ec;
  mkModel 0x2700000027 (11315)%Z 0x0 0x286ec000286f0;
  mkModel 0x2700000027 (-1)%Z 0x286f0000286f5 0xdb1d0000db23;
  mkModel 0x2700000027 (11316)%Z 0x0 0x286f5000286fd;
  mkModel 0x2700000027 (-1)%Z 0x286fd00028701 0x287010002870d;
  mkModel 0x2700000027 (11317)%Z 0x0 0x2870d00028716;
  mkModel 0x2700000027 (-1)%Z 0x2871600028723 0x287230002872b;
  mkModel 0x2700000027 (-1)%Z 0x2872b00028730 0x2873000028738;
  mkModel 0x2700000027 (11318)%Z 0x0 0x287380002873c;
  mkModel 0x2700000027 (11319)%Z 0x0 0x2873c00028741;
  mkModel 0x2700000027 (11320)%Z 0x0 0x287410002874e;
  mkModel 0x2700000027 (11321)%Z 0x0 0x2874e0002875e;
  mkModel 0x2700000027 (11322)%Z 0x0 0x2875e0002876d;
  mkModel 0x2700000027 (11323)%Z 0x0 0x2876d00028779;
  mkModel 0x2700000027 (11324)%Z 0x0 0x2877900028786;
  mkModel 0x2700000027 (11325)%Z 0x0 0x2878600028790;
  mkModel 0x2700000027 (11326)%Z 0x0 0x287900002879e;
  mkModel 0x2700000027 (11327)%Z 0x0 0x2879e000287ab;
  mkModel 0x2700000027 (11328)%Z 0x0 0x287ab000287b3;
  mkModel 0x2700000027 (11329)%Z 0x0 0x287b3000287c0;
  mkModel 0x2700000027 (11330)%Z 0x0 0x287c0000287cd;
  mkModel 0x2700000027 (11331)%Z 0x0 0x287cd000287d5;
  mkModel 0x2700000027 (11332)%Z 0x0 0x287d5000287dd;
  mkModel 0x2700000027 (11333)%Z 0x0 0x287dd000287e9;
  mkModel 0x2700000027 (11334)%Z 0x0 0x287e9000287f6;
  mkModel 0x2700000027 (11335)%Z 0x0 0x287f6000287fe;
  mkModel 0x2700000027 (11336)%Z 0x0 0x287fe00028807;
  mkModel 0x2700000027 (11337)%Z 0x0 0x2880700028810;
  mkModel 0x2700000027 (11338)%Z 0x0 0x288100002881e;
  mkModel 0x2700000027 (11339)%Z 0x0 0x2881e00028826;
  mkModel 0x2700000027 (11340)%Z 0x0 0x2882600028836;
  mkModel 0x2700000027 (11341)%Z 0x0 0x288360002883e;
  mkModel 0x2700000027 (11342)%Z 0x0 0x287900002879e;
  mkModel 0x2700000027 (11343)%Z 0x0 0x2883e0002884b;
  mkModel 0x2700000027 (11344)%Z 0x0 0x2868500028692;
  mkModel 0x2700000027 (11345)%Z 0x0 0x2884b00028853;
  mkModel 0x2700000027 (11346)%Z 0x0 0x288530002885f;
  mkModel 0x2700000027 (11347)%Z 0x0 0x2885f0002886c;
  mkModel 0x2700000027 (11348)%Z 0x0 0x2886c00028879;
  mkModel 0x2700000027 (11349)%Z 0x0 0x2887900028881;
  mkModel 0x2700000027 (11350)%Z 0x0 0x288810002888d;
  mkModel 0x2700000027 (11351)%Z 0x0 0x2888d00028895;
  mkModel 0x2700000027 (11352)%Z 0x0 0x28895000288a0;
  mkModel 0x2700000027 (11353)%Z 0x0 0x2880700028810;
  mkModel 0x2700000027 (11354)%Z 0x0 0x288a0000288a8;
  mkModel 0x2700000027 (11355)%Z 0x0 0x288a8000288b5;
  mkModel 0x2700000027 (11356)%Z 0x0 0x288b5000288c1;
  mkModel 0x2700000027 (11357)%Z 0x0 0x288c1000288ce;
  mkModel 0x2700000027 (11358)%Z 0x0 0x288ce000288db;
  mkModel 0x2700000027 (11359)%Z 0x0 0x288db000288e3;
  mkModel 0x2700000027 (11360)%Z 0x0 0x288e3000288ec;
  mkModel 0x2700000027 (11361)%Z 0x0 0x288ec000288f5;
  mkModel 0x2700000027 (11362)%Z 0x0 0x288f500028905;
  mkModel 0x2700000027 (11363)%Z 0x0 0x2890500028918;
  mkModel 0x2700000027 (11364)%Z 0x0 0x2891800028926;
  mkModel 0x2700000027 (-1)%Z 0x289260002892b 0x2892b0002893b;
  mkModel 0x2700000027 (-1)%Z 0x2893b00028940 0x289400002894d;
  mkModel 0x2700000027 (11365)%Z 0x0 0x2894d00028955;
  mkModel 0x2700000027 (11366)%Z 0x0 0x289550002895e;
  mkModel 0x2700000027 (11367)%Z 0x0 0x2895e00028969;
  mkModel 0x2700000027 (11368)%Z 0x0 0x2896900028972;
  mkModel 0x2700000027 (11369)%Z 0x0 0x289720002897a;
  mkModel 0x2700000027 (11370)%Z 0x0 0x2897a00028982;
  mkModel 0x2700000027 (11371)%Z 0x0 0x289820002898b;
  mkModel 0x2700000027 (11372)%Z 0x0 0x2898b00028996;
  mkModel 0x2700000027 (11373)%Z 0x0 0x28996000289a3;
  mkModel 0x2700000027 (11374)%Z 0x0 0x289a3000289b0;
  mkModel 0x2700000027 (-1)%Z 0x289b0000289b8 0x289b8000289c6;
  mkModel 0x2700000027 (-1)%Z 0x289c6000289ce 0x289ce000289dc;
  mkModel 0x2700000027 (-1)%Z 0x289dc000289e5 0x289e5000289ee;
  mkModel 0x2700000027 (-1)%Z 0x289ee000289f6 0x289f6000289ff;
  mkModel 0x2700000027 (-1)%Z 0x289ff00028a08 0x28a0800028a17;
  mkModel 0x2700000027 (-1)%Z 0x28a1700028a20 0x28a2000028a2a;
  mkModel 0x2700000027 (-1)%Z 0x28a2a00028a32 0x28a3200028a40;
  mkModel 0x2700000027 (-1)%Z 0x28a4000028a49 0x28a4900028a57;
  mkModel 0x2700000027 (-1)%Z 0x28a5700028a5f 0x28a5f00028a6c;
  mkModel 0x2700000027 (-1)%Z 0x28a6c00028a74 0x28a7400028a84;
  mkModel 0x2700000027 (-1)%Z 0x28a8400028a8c 0x28a8c00028a95;
  mkModel 0x2700000027 (11375)%Z 0x0 0x28a9500028aa3;
  mkModel 0x2700000027 (11376)%Z 0x0 0x288e3000288ec;
  mkModel 0x2700000027 (11377)%Z 0x0 0x28aa300028ab0;
  mkModel 0x2700000027 (11378)%Z 0x0 0x86240000862c;
  mkModel 0x2700000027 (11379)%Z 0x0 0x28ab000028ab8;
  mkModel 0x2700000027 (-1)%Z 0x28ab800028abc 0x28abc00028ac4;
  mkModel 0x2700000027 (-1)%Z 0x28ac400028ac9 0x28ac900028ad4;
  mkModel 0x2700000027 (-1)%Z 0x28ad400028ada 0x28ada00028ae6;
  mkModel 0x2700000027 (-1)%Z 0x28ae600028aec 0x28aec00028afa;
  mkModel 0x2700000027 (-1)%Z 0x28afa00028afe 0x28afe00028b09;
  mkModel 0x2700000027 (-1)%Z 0x28b0900028b0d 0x28b0d00028b19;
  mkModel 0x2700000027 (-1)%Z 0x28b1900028b1d 0x28b1d00028b2a;
  mkModel 0x2700000027 (-1)%Z 0x28b2a00028b30 0x28b3000028b3f;
  mkModel 0x2700000027 (-1)%Z 0x28b3f00028b44 0x28b4400028b4d;
  mkModel 0x2700000027 (-1)%Z 0x28b4d00028b51 0x28b5100028b58;
  mkModel 0x2700000027 (-1)%Z 0x28b5800028b5e 0x28b5e00028b6a;
  mkModel 0x2700000027 (-1)%Z 0x28b6a00028b6e 0x28b6e00028b7d;
  mkModel 0x2700000027 (-1)%Z 0x28b7d00028b81 0x28b8100028b8c;
  mkModel 0x2700000027 (-1)%Z 0x28b8c00028b90 0x28b9000028b9b;
  mkModel 0x2700000027 (11380)%Z 0x0 0x28b9b00028ba6
].
Definition d_dr_dm_74 : list modelTuple := [
  mkModel 0x2700000027 (11381)%Z 0x0 0x28ba600028bb2;
  mkModel 0x2700000027 (-1)%Z 0x28bb200028bb7 0x28bb700028bc1;
  mkModel 0x2700000027 (-1)%Z 0x28bc100028bc7 0x28bc700028bd3;
  mkModel 0x2700000027 (-1)%Z 0x28bd300028bd9 0x28bd900028be5;
  mkModel 0x2700000027 (-1)%Z 0x28be500028beb 0x28beb00028bf5;
  mkModel 0x2700000027 (-1)%Z 0x28bf500028bff 0x28bff00028c09;
  mkModel 0x2700000027 (-1)%Z 0x28c0900028c0e 0x28c0900028c0e;
  mkModel 0x2700000027 (11382)%Z 0x0 0x28c0e00028c1d;
  mkModel 0x2700000027 (-1)%Z 0x28c1d00028c23 0x28c2300028c37;
  mkModel 0x2700000027 (-1)%Z 0x28c3700028c3d 0x28c3d00028c4d;
  mkModel 0x2700000027 (11383)%Z 0x0 0x28c4d00028c54;
  mkModel 0x2700000027 (11384)%Z 0x0 0x28c5400028c59;
  mkModel 0x2700000027 (11385)%Z 0x0 0x28c5900028c61;
  mkModel 0x2700000027 (11386)%Z 0x0 0x28c6100028c68;
  mkModel 0x2700000027 (-1)%Z 0x28c6800028c6c 0x28c6c00028c75;
  mkModel 0x2700000027 (-1)%Z 0x28c7500028c79 0x28c7900028c80;
  mkModel 0x2700000027 (-1)%Z 0x28c8000028c84 0x28c8400028c8c;
  mkModel 0x2700000027 (-1)%Z 0x28c8c00028c90 0x28c9000028c97;
  mkModel 0x2700000027 (11387)%Z 0x0 0x28c9700028ca3;
  mkModel 0x2700000027 (-1)%Z 0x28ca300028ca8 0x28ca800028cb2;
  mkModel 0x2700000027 (-1)%Z 0x28cb200028cb6 0x28cb600028cbf;
  mkModel 0x2700000027 (-1)%Z 0x28cbf00028cc3 0x28cc300028ccc;
  mkModel 0x2700000027 (-1)%Z 0x28ccc00028cd0 0x28cd000028cd6;
  mkModel 0x2700000027 (-1)%Z 0x28cd600028cda 0x28cda00028ce3;
  mkModel 0x2700000027 (11388)%Z 0x0 0x28ce300028cee;
  mkModel 0x2700000027 (-1)%Z 0x28cee00028cf4 0x28cf400028cff;
  mkModel 0x2700000027 (-1)%Z 0x28cff00028d05 0x28d0500028d10;
  mkModel 0x2700000027 (11389)%Z 0x0 0x28d1000028d1b;
  mkModel 0x2700000027 (-1)%Z 0x28d1b00028d21 0x28d2100028d2f;
  mkModel 0x2700000027 (-1)%Z 0x28d2f00028d35 0x28d3500028d43;
  mkModel 0x2700000027 (11390)%Z 0x0 0x28d4300028d49;
  mkModel 0x2700000027 (11391)%Z 0x0 0x28d4900028d4f;
  mkModel 0x2700000027 (11392)%Z 0x0 0x28d4f00028d56;
  mkModel 0x2700000027 (-1)%Z 0x28d5600028d5c 0x28d5c00028d67;
  mkModel 0x2700000027 (-1)%Z 0x28d6700028d6b 0x28d6b00028d74;
  mkModel 0x2700000027 (-1)%Z 0x28d7400028d7a 0x28d7a00028d86;
  mkModel 0x2700000027 (11393)%Z 0x0 0x28d8600028d8d;
  mkModel 0x2700000027 (11394)%Z 0x0 0x28d8d00028d93;
  mkModel 0x2700000027 (11395)%Z 0x0 0x28d9300028d9c;
  mkModel 0x2700000027 (-1)%Z 0x28d9c00028da1 0x28da100028dac;
  mkModel 0x2700000027 (11396)%Z 0x0 0x284260002842c;
  mkModel 0x2700000027 (-1)%Z 0x28dac00028db1 0x28db100028dbb;
  mkModel 0x2700000027 (-1)%Z 0x28dbb00028dc0 0x28dc000028dc7;
  mkModel 0x2700000027 (-1)%Z 0x28dc700028dcd 0x28dcd00028dd8;
  mkModel 0x2700000027 (11397)%Z 0x0 0x28dd800028de3;
  mkModel 0x2700000027 (-1)%Z 0x28de300028de8 0x28de800028dee;
  mkModel 0x2700000027 (-1)%Z 0x28dee00028df5 0x28dee00028df5;
  mkModel 0x2700000027 (11398)%Z 0x0 0x28df500028df9;
  mkModel 0x2700000027 (-1)%Z 0x28df900028dff 0x28b9b00028ba6;
  mkModel 0x2700000027 (-1)%Z 0x1113100011135 0x28dff00028e04;
  mkModel 0x2700000027 (-1)%Z 0x28e0400028e08 0x28e0800028e0e;
  mkModel 0x2700000027 (11399)%Z 0x0 0x1e6900001e6c;
  mkModel 0x2700000027 (-1)%Z 0x28e0e00028e13 0x28e1300028e1a;
  mkModel 0x2700000027 (11400)%Z 0x0 0x28e1a00028e1f;
  mkModel 0x2700000027 (11401)%Z 0x0 0x28e1f00028e23;
  mkModel 0x2700000027 (11402)%Z 0x0 0x28e2300028e28;
  mkModel 0x2700000027 (11403)%Z 0x0 0x28e2800028e35;
  mkModel 0x2700000027 (11404)%Z 0x0 0x28e3500028e44;
  mkModel 0x2700000027 (11405)%Z 0x0 0x28e4400028e4a;
  mkModel 0x2700000027 (11406)%Z 0x0 0x28e4a00028e56;
  mkModel 0x2700000027 (11407)%Z 0x0 0x28e5600028e67;
  mkModel 0x2700000027 (11408)%Z 0x0 0x28e6700028e6d;
  mkModel 0x2700000027 (-1)%Z 0x28e6d00028e76 0x28e7600028e84;
  mkModel 0x2700000027 (-1)%Z 0x28e8400028e8c 0x28e8c00028e97;
  mkModel 0x2700000027 (-1)%Z 0x28e9700028e9f 0x28e9f00028eaf;
  mkModel 0x2700000027 (-1)%Z 0x28eaf00028eb7 0x28eb700028ebf;
  mkModel 0x2700000027 (11409)%Z 0x0 0x28ebf00028ecc;
  mkModel 0x2700000027 (11410)%Z 0x0 0x28ebf00028ecc;
  mkModel 0x2700000027 (11411)%Z 0x0 0x28ecc00028ed3;
  mkModel 0x2700000027 (-1)%Z 0x28ed300028ed9 0x28ed900028ee5;
  mkModel 0xdfd00000e04 (11412)%Z 0x0 0x28ee500028eef;
  mkModel 0xdfd00000e04 (-1)%Z 0x28eef00028ef7 0x28ef700028f08;
  mkModel 0x23b0000023d (11413)%Z 0x0 0x28f0800028f14;
  mkModel 0x2a1000002a7 (11414)%Z 0x0 0x28f1400028f22;
  mkModel 0x2a1000002a7 (11415)%Z 0x0 0x28f2200028f30;
  mkModel 0x2a1000002a7 (11416)%Z 0x0 0x28f3000028f40;
  mkModel 0x2a1000002a7 (11417)%Z 0x0 0x28f4000028f46;
  mkModel 0x2a1000002a7 (11418)%Z 0x0 0x28f4600028f4f;
  mkModel 0x2a1000002a7 (11419)%Z 0x0 0x28f4f00028f58;
  mkModel 0x2a1000002a7 (11420)%Z 0x0 0x28f5800028f69;
  mkModel 0x2700000027 (11421)%Z 0x0 0x28f6900028f75;
  mkModel 0x2700000027 (11422)%Z 0x0 0x18000000182;
  mkModel 0x2a1000002a7 (11423)%Z 0x0 0x18000000182;
  mkModel 0x2700000027 (11424)%Z 0x0 0x86240000862c;
  mkModel 0x2700000027 (-1)%Z 0x28f7500028f82 0x28f8200028f8b;
  mkModel 0x2700000027 (-1)%Z 0x28f8b00028f90 0x28f9000028f99;
  mkModel 0x2700000027 (11425)%Z 0x0 0x28f9900028fa3;
  mkModel 0x2700000027 (-1)%Z 0x28fa300028fb1 0x28fb100028fbb;
  mkModel 0x2700000027 (-1)%Z 0x28fbb00028fc0 0x28fc000028fc9;
  mkModel 0x2700000027 (-1)%Z 0x28fc900028fce 0x28fce00028fd8;
  mkModel 0x2700000027 (-1)%Z 0x28fd800028fdd 0x28fdd00028fe6;
  mkModel 0x2700000027 (11426)%Z 0x0 0x288db000288e3;
  mkModel 0x2700000027 (11427)%Z 0x0 0x2894d00028955;
  mkModel 0x2700000027 (11428)%Z 0x0 0x289550002895e;
  mkModel 0x2700000027 (11429)%Z 0x0 0x86240000862c;
  mkModel 0x2700000027 (11430)%Z 0x0 0x86240000862c;
  mkModel 0x2700000027 (11431)%Z 0x0 0x28fe600028ff0;
  mkModel 0x2700000027 (11432)%Z 0x0 0x18000000182;
  mkModel 0x2700000027 (11433)%Z 0x0 0x18000000182;
  mkModel 0x2700000027 (11434)%Z 0x0 0x18000000182;
  mkModel 0x2700000027 (-1)%Z 0x28ff300028ff7 0xb42a0000b42c;
  mkModel 0x2700000027 (-1)%Z 0x28ff700028ffc 0x28ffc00029004;
  mkModel 0x2700000027 (-1)%Z 0x2900400029009 0x2900900029010;
  mkModel 0x2700000027 (-1)%Z 0x2901000029015 0x290150002901c;
  mkModel 0x2700000027 (-1)%Z 0x2901c00029021 0x2901c00029021;
  mkModel 0x2700000027 (-1)%Z 0x2902100029026 0x2902100029026;
  mkModel 0x2700000027 (-1)%Z 0x290260002902b 0x2902b00029031;
  mkModel 0x2700000027 (-1)%Z 0x2903100029036 0x290360002903d;
  mkModel 0x2700000027 (-1)%Z 0x2903d00029042 0x2904200029049;
  mkModel 0x2700000027 (-1)%Z 0x290490002904e 0x290490002904e;
  mkModel 0x2700000027 (-1)%Z 0x2904e00029055 0x290550002905c;
  mkModel 0x2700000027 (-1)%Z 0x2905c00029060 0x2906000029068;
  mkModel 0x2700000027 (-1)%Z 0x290680002906c 0x2906c00029071;
  mkModel 0x2700000027 (-1)%Z 0x2907100029074 0x2907400029079;
  mkModel 0x2700000027 (11436)%Z 0x0 0x2907900029080;
  mkModel 0x2700000027 (11437)%Z 0x0 0x2908000029084;
  mkModel 0x2700000027 (11438)%Z 0x0 0x290840002908e;
  mkModel 0x2700000027 (11439)%Z 0x0 0x2908e00029097;
  mkModel 0x2700000027 (11440)%Z 0x0 0x29097000290a0;
  mkModel 0x2700000027 (11441)%Z 0x0 0x290a0000290a7;
  mkModel 0x2700000027 (11442)%Z 0x0 0x290a7000290ab;
  mkModel 0x2700000027 (11443)%Z 0x0 0x290ab000290b6;
  mkModel 0x2700000027 (11444)%Z 0x0 0x290b6000290bb;
  mkModel 0x2700000027 (11445)%Z 0x0 0x290bb000290ca;
  mkModel 0x2700000027 (11446)%Z 0x0 0x290ca000290d5;
  mkModel 0x2700000027 (11447)%Z 0x0 0x290d5000290d9;
  mkModel 0x2700000027 (11448)%Z 0x0 0x290d9000290e3;
  mkModel 0x2700000027 (11449)%Z 0x0 0x290e3000290ec;
  mkModel 0x2700000027 (11450)%Z 0x0 0x290ec000290f5;
  mkModel 0x2700000027 (11451)%Z 0x0 0x290f5000290fd;
  mkModel 0x2700000027 (11452)%Z 0x0 0x290fd00029102;
  mkModel 0x2a1000002a7 (-1)%Z 0x291020002910b 0x2910b00029114;
  mkModel 0x2a1000002a7 (-1)%Z 0x291140002911b 0x2911b0002911e;
  mkModel 0x0 (-1)%Z 0x0 0x18000000182;
  mkModel 0x0 (-1)%Z 0x0 0x18000000182;
  mkModel 0x0 (-1)%Z 0x0 0x18000000182;
  mkModel 0x2700000027 (11457)%Z 0x0 0x13d0c00013d13;
  mkModel 0x2700000027 (11458)%Z 0x0 0x2913200029136;
  mkModel 0x2700000027 (-1)%Z 0x2913600029141 0x291410002914d;
  mkModel 0x2700000027 (-1)%Z 0x2914d00029158 0x2915800029165;
  mkModel 0x2700000027 (-1)%Z 0x2916500029170 0x291700002917b;
  mkModel 0x2a1000002a7 (-1)%Z 0x2917b00029181 0x2918100029185;
  mkModel 0x0 (-1)%Z 0x0 0x62270000622d;
  mkModel 0x2700000027 (11461)%Z 0x0 0x2919200029199;
  mkModel 0x2700000027 (-1)%Z 0x29199000291a1 0x291a1000291a9;
  mkModel 0x2700000027 (11463)%Z 0x0 0x18000000182;
  mkModel 0x2a1000002a7 (11464)%Z 0x0 0x18000000182;
  mkModel 0x7cc000007d6 (11465)%Z 0x0 0x18000000182;
  mkModel 0x8e00000099 (11466)%Z 0x0 0x18000000182;
  mkModel 0x2700000027 (11467)%Z 0x0 0x18000000182;
  mkModel 0x2700000027 (11469)%Z 0x0 0x18000000182;
  mkModel 0x2700000027 (11470)%Z 0x0 0x18000000182;
  mkModel 0x2700000027 (-1)%Z 0x291c2000291cc 0x291cc000291d7;
  mkModel 0x2700000027 (11472)%Z 0x0 0x291d7000291e4;
  mkModel 0x2700000027 (11473)%Z 0x0 0x291e4000291f3;
  mkModel 0x2700000027 (11474)%Z 0x0 0x291f300029203;
  mkModel 0x2700000027 (11475)%Z 0x0 0x2920300029213;
  mkModel 0x2700000027 (11476)%Z 0x0 0x2921300029220;
  mkModel 0x2700000027 (11477)%Z 0x0 0x292200002922b;
  mkModel 0x2700000027 (11478)%Z 0x0 0x2922b00029235;
  mkModel 0x2700000027 (11479)%Z 0x0 0x2923500029241;
  mkModel 0x2700000027 (11480)%Z 0x0 0x2924100029250;
  mkModel 0x2700000027 (11481)%Z 0x0 0x292500002925c;
  mkModel 0x2700000027 (11482)%Z 0x0 0x2925c00029269;
  mkModel 0x2700000027 (11483)%Z 0x0 0x2926900029276;
  mkModel 0x2700000027 (11484)%Z 0x0 0x18000000182;
  mkModel 0x2700000027 (11485)%Z 0x0 0x18000000182;
  mkModel 0x2700000027 (-1)%Z 0x2927b00029280 0x2928000029288;
  mkModel 0x2700000027 (-1)%Z 0x292880002928d 0x2928d00029295;
  mkModel 0x2700000027 (-1)%Z 0x292950002929a 0x2929a0002929d;
  mkModel 0x2700000027 (-1)%Z 0x2929d000292a2 0x292a2000292ab;
  mkModel 0x2700000027 (-1)%Z 0x292ab000292b0 0x291a9000291ae;
  mkModel 0x2700000027 (11488)%Z 0x0 0x292b9000292c3;
  mkModel 0x0 (-1)%Z 0x0 0x292c9000292cd;
  mkModel 0xc9b00000ca2 (11491)%Z 0x0 0x18000000182;
  mkModel 0x0 (-1)%Z 0x0 0x18000000182;
  mkModel 0x2700000027 (-1)%Z 0x292e5000292eb 0x292eb000292f2;
  mkModel 0x2700000027 (-1)%Z 0x292f700029307 0x293070002931a;
  mkModel 0x2700000027 (-1)%Z 0x2931a00029325 0x2932500029330;
  mkModel 0x2700000027 (11496)%Z 0x0 0x17c3300017c39;
  mkModel 0x2700000027 (11497)%Z 0x0 0x293340002933f;
  mkModel 0x2700000027 (11498)%Z 0x0 0x2933f00029347;
  mkModel 0x2700000027 (11499)%Z 0x0 0x2934700029353;
  mkModel 0x2700000027 (-1)%Z 0x2935300029360 0x2935300029360;
  mkModel 0x2700000027 (11500)%Z 0x0 0x2936000029368;
  mkModel 0x23f00000249 (-1)%Z 0x2936d00029372 0x2937200029377;
  mkModel 0x2700000027 (11502)%Z 0x0 0x18000000182;
  mkModel 0x2700000027 (11504)%Z 0x0 0x1012500010128;
  mkModel 0x0 (-1)%Z 0x0 0x18000000182;
  mkModel 0x0 (-1)%Z 0x0 0x18000000182;
  mkModel 0x2700000027 (11508)%Z 0x0 0x293890002938e;
  mkModel 0x2700000027 (11509)%Z 0x0 0x2938e00029396;
  mkModel 0x2700000027 (11510)%Z 0x0 0x293960002939c;
  mkModel 0x2700000027 (11511)%Z 0x0 0x2661a00026621;
  mkModel 0x2700000027 (11512)%Z 0x0 0x2939c000293a8;
  mkModel 0x2700000027 (11513)%Z 0x0 0x293a8000293ae;
  mkModel 0x2700000027 (11514)%Z 0x0 0x293ae000293b5;
  mkModel 0x2700000027 (11515)%Z 0x0 0x293b5000293bc;
  mkModel 0x2700000027 (11516)%Z 0x0 0x293bc000293c6;
  mkModel 0x2700000027 (11517)%Z 0x0 0x95c7000095cd
].
Definition d_dr_dm_75 : list modelTuple := [
  mkModel 0x2700000027 (11518)%Z 0x0 0x293c6000293cf;
  mkModel 0x2700000027 (11519)%Z 0x0 0x293cf000293d5;
  mkModel 0x2700000027 (11520)%Z 0x0 0x293d5000293dc;
  mkModel 0x2700000027 (11521)%Z 0x0 0x293dc000293e3;
  mkModel 0x2700000027 (11522)%Z 0x0 0x293e3000293eb;
  mkModel 0x2700000027 (11523)%Z 0x0 0x293eb000293f6;
  mkModel 0x2700000027 (11524)%Z 0x0 0x293f600029401;
  mkModel 0x2700000027 (11525)%Z 0x0 0x2940100029408;
  mkModel 0x2700000027 (11526)%Z 0x0 0x2940800029411;
  mkModel 0x2700000027 (11527)%Z 0x0 0x2941100029416;
  mkModel 0x2700000027 (11528)%Z 0x0 0x294160002941d;
  mkModel 0x2700000027 (11529)%Z 0x0 0x2941d00029422;
  mkModel 0x2700000027 (11530)%Z 0x0 0x294220002942a;
  mkModel 0x2700000027 (11531)%Z 0x0 0x2942a00029437;
  mkModel 0x2700000027 (11532)%Z 0x0 0x294370002943d;
  mkModel 0x2700000027 (11533)%Z 0x0 0x18000000182;
  mkModel 0x2a1000002a7 (-1)%Z 0x294410002944a 0x2944a00029453;
  mkModel 0x2700000027 (-1)%Z 0x294530002945b 0x2945b00029463;
  mkModel 0x2700000027 (11535)%Z 0x0 0x294630002946a;
  mkModel 0x2700000027 (11536)%Z 0x0 0x2946a00029470;
  mkModel 0x2700000027 (-1)%Z 0x294700002947e 0x2947e0002948c;
  mkModel 0x2700000027 (-1)%Z 0x2948c00029495 0x294950002949e;
  mkModel 0x2700000027 (-1)%Z 0x2949e000294a8 0x294a8000294b2;
  mkModel 0x2700000027 (11537)%Z 0x0 0x294b2000294b9;
  mkModel 0x2700000027 (-1)%Z 0x294b9000294c2 0x294b9000294c2;
  mkModel 0x2700000027 (-1)%Z 0x294c2000294cc 0x294cc000294d6;
  mkModel 0x2700000027 (-1)%Z 0x294d6000294e2 0x294d6000294e2;
  mkModel 0x2700000027 (-1)%Z 0x294e2000294e9 0x294e9000294f0;
  mkModel 0x2700000027 (11538)%Z 0x0 0x294f0000294f7;
  mkModel 0x2700000027 (-1)%Z 0x294f7000294fd 0x294fd00029503;
  mkModel 0x2700000027 (-1)%Z 0x2950300029507 0x18e9b00018e9f;
  mkModel 0x2700000027 (11539)%Z 0x0 0x295070002950e;
  mkModel 0x2700000027 (-1)%Z 0x2950e00029513 0x2951300029518;
  mkModel 0x2700000027 (-1)%Z 0x2951800029523 0x295230002952e;
  mkModel 0x2700000027 (-1)%Z 0x2952e0002953a 0x2953a00029546;
  mkModel 0x2700000027 (11540)%Z 0x0 0x2954600029550;
  mkModel 0x2700000027 (-1)%Z 0x295500002955c 0x2955c00029568;
  mkModel 0x2700000027 (-1)%Z 0x2956800029573 0x295730002957e;
  mkModel 0x2700000027 (-1)%Z 0x2957e00029585 0x295850002958c;
  mkModel 0x2700000027 (11541)%Z 0x0 0x1c4b00001c4ba;
  mkModel 0x2700000027 (-1)%Z 0x2958c00029598 0x2958c00029598;
  mkModel 0x2700000027 (-1)%Z 0x29598000295a2 0x295a2000295ac;
  mkModel 0x2700000027 (-1)%Z 0x295ac000295b9 0x295b9000295c7;
  mkModel 0x2700000027 (-1)%Z 0x295c7000295d3 0x295d3000295e0;
  mkModel 0x2700000027 (-1)%Z 0x295e0000295e8 0x295e8000295f0;
  mkModel 0x2700000027 (11542)%Z 0x0 0x295f0000295f7;
  mkModel 0x2700000027 (-1)%Z 0x295f7000295fb 0x295fb000295ff;
  mkModel 0x2700000027 (-1)%Z 0x295ff00029606 0x296060002960d;
  mkModel 0x2700000027 (11543)%Z 0x0 0x2960d00029616;
  mkModel 0x2700000027 (11544)%Z 0x0 0x296160002961a;
  mkModel 0x2700000027 (11545)%Z 0x0 0x2961a0002961f;
  mkModel 0x2700000027 (-1)%Z 0x2961f00029624 0x2962400029629;
  mkModel 0x2700000027 (11546)%Z 0x0 0x18000000182;
  mkModel 0x2700000027 (11547)%Z 0x0 0x18000000182;
  mkModel 0x2700000027 (11549)%Z 0x0 0x18000000182;
  mkModel 0x2700000027 (11550)%Z 0x0 0x18000000182;
  mkModel 0x2700000027 (11551)%Z 0x0 0x2962d00029635;
  mkModel 0x2700000027 (11552)%Z 0x0 0x2962d00029635;
  mkModel 0x2700000027 (11553)%Z 0x0 0x18000000182;
  mkModel 0x0 (-1)%Z 0x0 0x2963a0002963f;
  mkModel 0x2700000027 (11554)%Z 0x0 0x18000000182;
  mkModel 0x0 (-1)%Z 0x0 0x2965a00029663;
  mkModel 0x0 (-1)%Z 0x0 0x18000000182;
  mkModel 0x2700000027 (-1)%Z 0x2967100029677 0x2967100029677;
  mkModel 0x2700000027 (11558)%Z 0x0 0x296770002967c;
  mkModel 0xdfd00000e04 (-1)%Z 0x2967c00029682 0x2967c00029682;
  mkModel 0x0 (-1)%Z 0x0 0x18000000182;
  mkModel 0x0 (-1)%Z 0x0 0x18000000182;
  mkModel 0x0 (-1)%Z 0x0 0x29698000296a1;
  mkModel 0x2700000027 (-1)%Z 0x296a5000296ad 0x296ad000296ba;
  mkModel 0x2700000027 (-1)%Z 0x296ba000296c4 0x296c4000296d1;
  mkModel 0x2700000027 (-1)%Z 0x296d1000296db 0x296db000296e8;
  mkModel 0x2700000027 (-1)%Z 0x296e8000296f5 0x296f500029702;
  mkModel 0x2700000027 (11563)%Z 0x0 0x18000000182;
  mkModel 0x2700000027 (11565)%Z 0x0 0x297040002970e;
  mkModel 0x2700000027 (11566)%Z 0x0 0x2970e0002971e;
  mkModel 0x2700000027 (11567)%Z 0x0 0x2971e0002972f;
  mkModel 0x2700000027 (11568)%Z 0x0 0xff400000ff43;
  mkModel 0x2700000027 (11569)%Z 0x0 0x614300006148;
  mkModel 0x2700000027 (11570)%Z 0x0 0x2972f00029736;
  mkModel 0x2700000027 (11571)%Z 0x0 0x297360002973d;
  mkModel 0x2700000027 (11572)%Z 0x0 0x2973d00029744;
  mkModel 0x2700000027 (11573)%Z 0x0 0x297440002974a;
  mkModel 0x2700000027 (11574)%Z 0x0 0x95a1000095a6;
  mkModel 0x2700000027 (11575)%Z 0x0 0x2974a0002974d;
  mkModel 0x2700000027 (11576)%Z 0x0 0x2974d00029756;
  mkModel 0x2700000027 (11577)%Z 0x0 0x8a8900008a8f;
  mkModel 0x2700000027 (11578)%Z 0x0 0x297560002975d;
  mkModel 0x2a1000002a7 (11579)%Z 0x0 0x201b2000201b8;
  mkModel 0x2700000027 (11580)%Z 0x0 0x2975d0002976c;
  mkModel 0x2a1000002a7 (-1)%Z 0x2976c00029774 0x297740002977f;
  mkModel 0x2a1000002a7 (-1)%Z 0x2977f00029787 0x2977f00029787;
  mkModel 0x2a1000002a7 (-1)%Z 0x297870002978f 0x193ae000193b1;
  mkModel 0x2a1000002a7 (-1)%Z 0x2978f00029797 0x297970002979d;
  mkModel 0x2a1000002a7 (-1)%Z 0x2979d000297a5 0x297a5000297ab;
  mkModel 0x2a1000002a7 (11581)%Z 0x0 0x297ab000297b0;
  mkModel 0x2a1000002a7 (-1)%Z 0x297b0000297b8 0x297b8000297bc;
  mkModel 0x2a1000002a7 (-1)%Z 0x297bc000297c4 0x297c4000297ca;
  mkModel 0x2a1000002a7 (11582)%Z 0x0 0x297ca000297d0;
  mkModel 0x2a1000002a7 (-1)%Z 0x297d0000297da 0x297da000297e5;
  mkModel 0x2a1000002a7 (-1)%Z 0x297e5000297ed 0x1672500016728;
  mkModel 0x2a1000002a7 (-1)%Z 0x297ed000297f5 0x42200000425;
  mkModel 0x2a1000002a7 (-1)%Z 0x297f5000297fd 0x297fd00029802;
  mkModel 0x2a1000002a7 (-1)%Z 0x2980200029809 0x2980900029810;
  mkModel 0x2700000027 (11583)%Z 0x0 0x8a8900008a8f;
  mkModel 0x2700000027 (11584)%Z 0x0 0x40b2000040b6;
  mkModel 0x2700000027 (-1)%Z 0x2981000029818 0x2981800029825;
  mkModel 0x2700000027 (-1)%Z 0x298250002982d 0x2982d00029837;
  mkModel 0x2700000027 (-1)%Z 0x298370002983f 0x1c1730001c177;
  mkModel 0x2700000027 (11585)%Z 0x0 0x2983f00029847;
  mkModel 0x2700000027 (11586)%Z 0x0 0x298470002984e;
  mkModel 0x2700000027 (11587)%Z 0x0 0x2984e00029853;
  mkModel 0x2700000027 (11588)%Z 0x0 0x298530002985d;
  mkModel 0x2700000027 (11589)%Z 0x0 0x2985d00029863;
  mkModel 0x2700000027 (11590)%Z 0x0 0x1709a000170a1;
  mkModel 0x2700000027 (11591)%Z 0x0 0x2986300029868;
  mkModel 0x2700000027 (-1)%Z 0x298680002986f 0x6dd000006dd4;
  mkModel 0x2700000027 (11592)%Z 0x0 0x2986f00029873;
  mkModel 0x2700000027 (11593)%Z 0x0 0x298730002987c;
  mkModel 0x2700000027 (11594)%Z 0x0 0x2987c00029884;
  mkModel 0x2700000027 (11595)%Z 0x0 0x298840002988c;
  mkModel 0x2700000027 (11596)%Z 0x0 0x2988c00029890;
  mkModel 0x2700000027 (11597)%Z 0x0 0x2989000029894;
  mkModel 0x2700000027 (11598)%Z 0x0 0x4c6700004c6b;
  mkModel 0x2700000027 (11599)%Z 0x0 0x29894000298a2;
  mkModel 0x2700000027 (11600)%Z 0x0 0x298a2000298a7;
  mkModel 0x2700000027 (11601)%Z 0x0 0x298a7000298b0;
  mkModel 0x2700000027 (11602)%Z 0x0 0x298b0000298c3;
  mkModel 0x2700000027 (11603)%Z 0x0 0x2970e0002971e;
  mkModel 0x2700000027 (11604)%Z 0x0 0x298c3000298cb;
  mkModel 0x2700000027 (11605)%Z 0x0 0x298cb000298d3;
  mkModel 0x2700000027 (11606)%Z 0x0 0x298d3000298e4;
  mkModel 0x2700000027 (11607)%Z 0x0 0x298e4000298ea;
  mkModel 0x2700000027 (11608)%Z 0x0 0x298ea000298ee;
  mkModel 0x2700000027 (11609)%Z 0x0 0x298ee000298f7;
  mkModel 0x2700000027 (11610)%Z 0x0 0xbcce0000bcd4;
  mkModel 0x2700000027 (11611)%Z 0x0 0x298f7000298ff;
  mkModel 0x2700000027 (11612)%Z 0x0 0x298ff00029908;
  mkModel 0x2700000027 (11613)%Z 0x0 0xda600000dad;
  mkModel 0x2700000027 (11614)%Z 0x0 0x2990800029910;
  mkModel 0x2700000027 (11615)%Z 0x0 0x299100002991b;
  mkModel 0x2700000027 (11616)%Z 0x0 0x2991b00029926;
  mkModel 0x2700000027 (11617)%Z 0x0 0x299260002992c;
  mkModel 0x2700000027 (11618)%Z 0x0 0x2992c00029933;
  mkModel 0x2700000027 (11619)%Z 0x0 0x2993300029940;
  mkModel 0x2700000027 (11620)%Z 0x0 0x201b2000201b8;
  mkModel 0x2700000027 (11621)%Z 0x0 0x299400002994a;
  mkModel 0x2700000027 (11622)%Z 0x0 0x59f4000059f9;
  mkModel 0x2700000027 (11623)%Z 0x0 0x2994a00029951;
  mkModel 0x2700000027 (11624)%Z 0x0 0x2995100029957;
  mkModel 0x2700000027 (11625)%Z 0x0 0x299570002995b;
  mkModel 0x2700000027 (11626)%Z 0x0 0x2995b00029961;
  mkModel 0x2700000027 (11627)%Z 0x0 0x2996100029967;
  mkModel 0x2700000027 (11628)%Z 0x0 0x2996700029971;
  mkModel 0x2700000027 (11629)%Z 0x0 0x299710002997d;
  mkModel 0x2700000027 (11630)%Z 0x0 0x2997d0002998e;
  mkModel 0x2700000027 (11631)%Z 0x0 0x2998e00029996;
  mkModel 0x2700000027 (11632)%Z 0x0 0x95a1000095a6;
  mkModel 0x2700000027 (11633)%Z 0x0 0x299960002999d;
  mkModel 0x2700000027 (11634)%Z 0x0 0x2999d000299a7;
  mkModel 0x2700000027 (11635)%Z 0x0 0x59c9000059d0;
  mkModel 0x2700000027 (11636)%Z 0x0 0x134f0000134f5;
  mkModel 0x2700000027 (-1)%Z 0x299a7000299af 0x299af000299b4;
  mkModel 0x2700000027 (-1)%Z 0x299b4000299bc 0x299bc000299c0;
  mkModel 0x2700000027 (-1)%Z 0x299c0000299c7 0x299c7000299cb;
  mkModel 0x2700000027 (11637)%Z 0x0 0x1354400013548;
  mkModel 0x2700000027 (11638)%Z 0x0 0x4c6700004c6b;
  mkModel 0x2700000027 (11639)%Z 0x0 0x299cb000299da;
  mkModel 0x2700000027 (11640)%Z 0x0 0x299da000299e0;
  mkModel 0x2700000027 (11641)%Z 0x0 0x299e0000299e5;
  mkModel 0x2700000027 (11642)%Z 0x0 0x299e5000299ef;
  mkModel 0x2700000027 (11643)%Z 0x0 0x8d1100008d18;
  mkModel 0x2700000027 (11644)%Z 0x0 0x299ef000299f7;
  mkModel 0x2700000027 (11645)%Z 0x0 0x299f7000299fb;
  mkModel 0x2700000027 (11646)%Z 0x0 0x299fb00029a00;
  mkModel 0x2700000027 (11647)%Z 0x0 0x2996100029967;
  mkModel 0x2700000027 (11648)%Z 0x0 0x29a0000029a04;
  mkModel 0x2700000027 (11649)%Z 0x0 0x29a0400029a0c;
  mkModel 0x2700000027 (11650)%Z 0x0 0x29a0c00029a17;
  mkModel 0x2700000027 (11651)%Z 0x0 0x29a1700029a1b;
  mkModel 0x2700000027 (11652)%Z 0x0 0x29a1b00029a26;
  mkModel 0x2700000027 (11653)%Z 0x0 0x29a2600029a2c;
  mkModel 0x2700000027 (11654)%Z 0x0 0x59e1000059e6;
  mkModel 0x2700000027 (-1)%Z 0x29a2c00029a34 0x29a3400029a40;
  mkModel 0x2700000027 (-1)%Z 0x29a4000029a48 0xc0770000c07b;
  mkModel 0x2700000027 (11655)%Z 0x0 0x29a4800029a4e;
  mkModel 0x2700000027 (11656)%Z 0x0 0x2154300021548;
  mkModel 0x2700000027 (11657)%Z 0x0 0xbd530000bd57;
  mkModel 0x2700000027 (11658)%Z 0x0 0x29a4e00029a59;
  mkModel 0x2700000027 (11659)%Z 0x0 0x29a5900029a60;
  mkModel 0x2700000027 (11660)%Z 0x0 0x2386200023867;
  mkModel 0x2700000027 (11661)%Z 0x0 0x29a6000029a69;
  mkModel 0x2700000027 (11662)%Z 0x0 0x2974a0002974d;
  mkModel 0x2700000027 (11663)%Z 0x0 0x29a6900029a70;
  mkModel 0x2700000027 (11664)%Z 0x0 0x29a7000029a7a;
  mkModel 0x2700000027 (11665)%Z 0x0 0x29a7a00029a81;
  mkModel 0x2700000027 (11666)%Z 0x0 0x29a8100029a86;
  mkModel 0x2700000027 (11667)%Z 0x0 0x29a8600029a8b;
  mkModel 0x2700000027 (11668)%Z 0x0 0x29a8b00029a90;
  mkModel 0x2700000027 (11669)%Z 0x0 0x29a9000029a98
].
Definition d_dr_dm_76 : list modelTuple := [
  mkModel 0x2700000027 (11670)%Z 0x0 0x29a9800029a9e;
  mkModel 0x2700000027 (11671)%Z 0x0 0x29a9e00029aa4;
  mkModel 0x2700000027 (11672)%Z 0x0 0x29aa400029aac;
  mkModel 0x2700000027 (11673)%Z 0x0 0x29aac00029ab5;
  mkModel 0x2700000027 (11674)%Z 0x0 0x19b0f00019b14;
  mkModel 0x2700000027 (11675)%Z 0x0 0x29ab500029ab9;
  mkModel 0x2700000027 (11676)%Z 0x0 0x9fef00009ff4;
  mkModel 0x2700000027 (11677)%Z 0x0 0x29ab900029ac1;
  mkModel 0x2700000027 (11678)%Z 0x0 0x1845a0001845d;
  mkModel 0x2700000027 (11679)%Z 0x0 0x2393300023939;
  mkModel 0x2700000027 (11680)%Z 0x0 0x29ac100029aca;
  mkModel 0x2700000027 (11681)%Z 0x0 0x214ba000214c0;
  mkModel 0x2700000027 (11682)%Z 0x0 0x29aca00029ad2;
  mkModel 0x2700000027 (11683)%Z 0x0 0x29ad200029ada;
  mkModel 0x2700000027 (11684)%Z 0x0 0x29ada00029adf;
  mkModel 0x2700000027 (11685)%Z 0x0 0x29adf00029ae7;
  mkModel 0x2700000027 (-1)%Z 0x29ae700029af7 0x29af700029afe;
  mkModel 0x2700000027 (11686)%Z 0x0 0x29afe00029b06;
  mkModel 0x2700000027 (11687)%Z 0x0 0x29b0600029b0d;
  mkModel 0x2700000027 (11688)%Z 0x0 0x29b0d00029b17;
  mkModel 0x2700000027 (11689)%Z 0x0 0x29b1700029b22;
  mkModel 0x2700000027 (11690)%Z 0x0 0x29b2200029b25;
  mkModel 0x2700000027 (11691)%Z 0x0 0x207860002078b;
  mkModel 0x2700000027 (11692)%Z 0x0 0x29b2500029b2c;
  mkModel 0x2700000027 (11693)%Z 0x0 0x29b2c00029b34;
  mkModel 0x2700000027 (11694)%Z 0x0 0x29b3400029b3c;
  mkModel 0x2700000027 (11695)%Z 0x0 0x29b3c00029b41;
  mkModel 0x2700000027 (11696)%Z 0x0 0x29b4100029b4b;
  mkModel 0x2700000027 (11697)%Z 0x0 0x29b4b00029b51;
  mkModel 0x2700000027 (11698)%Z 0x0 0x29b5100029b55;
  mkModel 0x2700000027 (11699)%Z 0x0 0x29b5500029b5b;
  mkModel 0x2700000027 (11700)%Z 0x0 0x29b5b00029b65;
  mkModel 0x2700000027 (11701)%Z 0x0 0x29b6500029b6b;
  mkModel 0x2a1000002a7 (11702)%Z 0x0 0x29b6b00029b79;
  mkModel 0x2a1000002a7 (-1)%Z 0x29b7900029b81 0x29b8100029b8d;
  mkModel 0x2a1000002a7 (11703)%Z 0x0 0x29b8d00029b97;
  mkModel 0x2a1000002a7 (11704)%Z 0x0 0x29b9700029ba5;
  mkModel 0x2a1000002a7 (11705)%Z 0x0 0x29ba500029bae;
  mkModel 0x2a1000002a7 (11706)%Z 0x0 0x29bae00029bbb;
  mkModel 0x2a1000002a7 (11707)%Z 0x0 0x29bbb00029bc2;
  mkModel 0x2a1000002a7 (11708)%Z 0x0 0x29bc200029bc9;
  mkModel 0x2a1000002a7 (11709)%Z 0x0 0x29bc900029bcf;
  mkModel 0x2a1000002a7 (11710)%Z 0x0 0x29bcf00029bd4;
  mkModel 0x2a1000002a7 (11711)%Z 0x0 0x29bd400029bde;
  mkModel 0x2700000027 (11712)%Z 0x0 0x29bde00029beb;
  mkModel 0x2700000027 (11713)%Z 0x0 0x2985d00029863;
  mkModel 0x2700000027 (11714)%Z 0x0 0x233460002334d;
  mkModel 0x2700000027 (11715)%Z 0x0 0x191380001913c;
  mkModel 0x2a1000002a7 (11716)%Z 0x0 0x18000000182;
  mkModel 0x2a1000002a7 (11717)%Z 0x0 0x29beb00029bef;
  mkModel 0x2a1000002a7 (-1)%Z 0x29bef00029bf7 0x29bf700029c05;
  mkModel 0x2a1000002a7 (-1)%Z 0x29c0500029c0d 0x29c0d00029c17;
  mkModel 0x2a1000002a7 (11718)%Z 0x0 0x29c1700029c1b;
  mkModel 0x2a1000002a7 (11719)%Z 0x0 0x29c1b00029c23;
  mkModel 0x2a1000002a7 (11720)%Z 0x0 0x29c2300029c28;
  mkModel 0x2a1000002a7 (11721)%Z 0x0 0x29c2800029c2f;
  mkModel 0x2a1000002a7 (11722)%Z 0x0 0xb6c90000b6cf;
  mkModel 0x2a1000002a7 (11723)%Z 0x0 0x29c2f00029c34;
  mkModel 0x2a1000002a7 (11724)%Z 0x0 0x29c3400029c39;
  mkModel 0x2a1000002a7 (11725)%Z 0x0 0x29c3900029c43;
  mkModel 0x2a1000002a7 (11726)%Z 0x0 0x23e4000023e4a;
  mkModel 0x2a1000002a7 (11727)%Z 0x0 0x1914200019146;
  mkModel 0x2a1000002a7 (11728)%Z 0x0 0x29c4300029c4e;
  mkModel 0x2a1000002a7 (11729)%Z 0x0 0x29c4e00029c54;
  mkModel 0x2a1000002a7 (11730)%Z 0x0 0x14c9700014c9c;
  mkModel 0x2a1000002a7 (11731)%Z 0x0 0x29c5400029c5a;
  mkModel 0x2a1000002a7 (11732)%Z 0x0 0x29c5a00029c5f;
  mkModel 0x2a1000002a7 (11733)%Z 0x0 0x29c5f00029c69;
  mkModel 0x2a1000002a7 (11734)%Z 0x0 0x29c6900029c6d;
  mkModel 0x2a1000002a7 (11735)%Z 0x0 0x29c6d00029c72;
  mkModel 0x2a1000002a7 (11736)%Z 0x0 0x29c7200029c80;
  mkModel 0x2a1000002a7 (11737)%Z 0x0 0x29c8000029c89;
  mkModel 0x2a1000002a7 (11738)%Z 0x0 0x29c8900029c92;
  mkModel 0x2a1000002a7 (11739)%Z 0x0 0x29c9200029c9b;
  mkModel 0x2a1000002a7 (11740)%Z 0x0 0x29c3400029c39;
  mkModel 0x2a1000002a7 (11741)%Z 0x0 0x29c9b00029ca3;
  mkModel 0x2700000027 (11742)%Z 0x0 0x29bd400029bde;
  mkModel 0x2700000027 (11743)%Z 0x0 0x29ca300029caa;
  mkModel 0x23b0000023d (-1)%Z 0x29caa00029cb5 0x29cb500029cbd;
  mkModel 0x23b0000023d (11744)%Z 0x0 0x18000000182;
  mkModel 0x23b0000023d (-1)%Z 0x29cbd00029cc8 0x2700000027;
  mkModel 0x2a1000002a7 (11745)%Z 0x0 0x18000000182;
  mkModel 0x2a1000002a7 (-1)%Z 0x29ccd00029cdd 0x29cdd00029ce8;
  mkModel 0x2a1000002a7 (11747)%Z 0x0 0x18000000182;
  mkModel 0x2700000027 (11749)%Z 0x0 0x29ced00029cff;
  mkModel 0x2700000027 (11750)%Z 0x0 0x18000000182;
  mkModel 0x2700000027 (11751)%Z 0x0 0x29cff00029d13;
  mkModel 0x2700000027 (-1)%Z 0x29d1300029d1e 0x29d1e00029d23;
  mkModel 0x2700000027 (-1)%Z 0x29d2300029d37 0x29d3700029d4b;
  mkModel 0x2700000027 (-1)%Z 0x29d4b00029d64 0x29d6400029d77;
  mkModel 0x2700000027 (-1)%Z 0x29d7700029d8e 0x29d8e00029da2;
  mkModel 0x2700000027 (-1)%Z 0x29da200029dbd 0x29dbd00029dd2;
  mkModel 0x2700000027 (11752)%Z 0x0 0x29dd200029dd9;
  mkModel 0x2700000027 (11753)%Z 0x0 0x18000000182;
  mkModel 0x23f00000249 (-1)%Z 0x29dd900029de0 0x29de000029de7;
  mkModel 0x23f00000249 (-1)%Z 0x29de700029df2 0x29df200029dfd;
  mkModel 0x0 (-1)%Z 0x0 0x18000000182;
  mkModel 0x0 (-1)%Z 0x0 0x18000000182;
  mkModel 0x2700000027 (11757)%Z 0x0 0x18000000182;
  mkModel 0x2700000027 (-1)%Z 0x29e1100029e24 0x29e1100029e24;
  mkModel 0x39a000003a7 (-1)%Z 0x29e2400029e34 0x29e3400029e3d;
  mkModel 0x0 (-1)%Z 0x0 0x18000000182;
  mkModel 0x2700000027 (11761)%Z 0x0 0x18000000182;
  mkModel 0x2a1000002a7 (-1)%Z 0x29e4900029e55 0x29e5500029e61;
  mkModel 0x2700000027 (11763)%Z 0x0 0x29e6600029e6f;
  mkModel 0x2700000027 (11764)%Z 0x0 0x29e6f00029e78;
  mkModel 0x2700000027 (11765)%Z 0x0 0x29e7800029e82;
  mkModel 0xdfd00000e04 (11766)%Z 0x0 0x29e8200029e8d;
  mkModel 0x2a1000002a7 (11767)%Z 0x0 0x29e8d00029e94;
  mkModel 0x2a1000002a7 (11768)%Z 0x0 0x29e9400029e9a;
  mkModel 0x2a1000002a7 (11769)%Z 0x0 0x29e9a00029e9e;
  mkModel 0x2700000027 (11770)%Z 0x0 0x29e9e00029ea7;
  mkModel 0x2700000027 (11771)%Z 0x0 0x18000000182;
  mkModel 0x0 (-1)%Z 0x0 0x18000000182;
  mkModel 0x2a1000002a7 (11774)%Z 0x0 0x18000000182;
  mkModel 0x23f00000249 (11775)%Z 0x0 0x29eb500029ebf;
  mkModel 0x23f00000249 (11776)%Z 0x0 0x29ebf00029ec9;
  mkModel 0x23f00000249 (11777)%Z 0x0 0x29ec900029ed1;
  mkModel 0x23f00000249 (11778)%Z 0x0 0x29ed100029ed6;
  mkModel 0x23f00000249 (-1)%Z 0x29ed600029ede 0x29ede00029ee6;
  mkModel 0x23f00000249 (-1)%Z 0x29ee600029ef1 0x29ef100029efc;
  mkModel 0x23f00000249 (11779)%Z 0x0 0x18000000182;
  mkModel 0x2700000027 (11780)%Z 0x0 0x18000000182;
  mkModel 0x2700000027 (11781)%Z 0x0 0x18000000182;
  mkModel 0x23f00000249 (-1)%Z 0x29f0100029f0d 0x29f0100029f0d;
  mkModel 0x23f00000249 (-1)%Z 0x29f0d00029f1d 0x29f0d00029f1d;
  mkModel 0x2700000027 (11783)%Z 0x0 0x18000000182;
  mkModel 0x2700000027 (11784)%Z 0x0 0x262480002624d;
  mkModel 0x2700000027 (11785)%Z 0x0 0x29f1d00029f29;
  mkModel 0x2700000027 (-1)%Z 0x29f2900029f32 0x29f3200029f41;
  mkModel 0x2700000027 (11786)%Z 0x0 0x29f4100029f52;
  mkModel 0x2700000027 (11787)%Z 0x0 0x29f5200029f5a;
  mkModel 0x2700000027 (-1)%Z 0x29f5a00029f63 0x29f6300029f6c;
  mkModel 0x2700000027 (-1)%Z 0x29f6c00029f79 0x29f7900029f86;
  mkModel 0x2700000027 (11788)%Z 0x0 0x29f8600029f8e;
  mkModel 0x2700000027 (11789)%Z 0x0 0x29f8e00029f99;
  mkModel 0x2700000027 (11790)%Z 0x0 0x29f9900029fa9;
  mkModel 0x2700000027 (11791)%Z 0x0 0x29fa900029fb8;
  mkModel 0x2700000027 (11792)%Z 0x0 0x18000000182;
  mkModel 0x2a1000002a7 (11794)%Z 0x0 0x18000000182;
  mkModel 0x2700000027 (11795)%Z 0x0 0x18000000182;
  mkModel 0x2700000027 (-1)%Z 0x29fc300029fd2 0x29fc300029fd2;
  mkModel 0x2700000027 (11797)%Z 0x0 0xd5700000d5a;
  mkModel 0x2700000027 (-1)%Z 0x29fd200029fd8 0x29fd800029fdf;
  mkModel 0x2700000027 (11798)%Z 0x0 0x29fdf00029fe6;
  mkModel 0x2700000027 (11799)%Z 0x0 0x29fe600029fef;
  mkModel 0x2700000027 (11800)%Z 0x0 0x247400002479;
  mkModel 0x2700000027 (11801)%Z 0x0 0x29fef00029ff9;
  mkModel 0x2700000027 (11802)%Z 0x0 0x29ff90002a000;
  mkModel 0x2700000027 (-1)%Z 0x2a0000002a006 0x2a0060002a00d;
  mkModel 0x2700000027 (11803)%Z 0x0 0x2a00d0002a011;
  mkModel 0x2700000027 (-1)%Z 0x2a0160002a01c 0x2a01c0002a022;
  mkModel 0x2700000027 (11805)%Z 0x0 0x18000000182;
  mkModel 0x0 (-1)%Z 0x0 0x2a0270002a031;
  mkModel 0x2700000027 (-1)%Z 0x2a0370002a040 0x2a0400002a049;
  mkModel 0x2700000027 (-1)%Z 0x2a0490002a051 0x2a0490002a051;
  mkModel 0x2700000027 (11808)%Z 0x0 0x2a0510002a058;
  mkModel 0x0 (-1)%Z 0x0 0x19c0900019c10;
  mkModel 0x2700000027 (11811)%Z 0x0 0x2a0600002a06a;
  mkModel 0x2700000027 (11812)%Z 0x0 0x4c4f00004c57;
  mkModel 0x23f00000249 (-1)%Z 0x2a06a0002a072 0x2a0720002a081;
  mkModel 0x0 (-1)%Z 0x0 0x2a08b0002a092;
  mkModel 0x2a1000002a7 (11815)%Z 0x0 0x2a0970002a0ab;
  mkModel 0x2a1000002a7 (-1)%Z 0x2a0ab0002a0bb 0x2a0bb0002a0cb;
  mkModel 0x2700000027 (-1)%Z 0x2a0cb0002a0d7 0x2a0d70002a0e3;
  mkModel 0x2700000027 (-1)%Z 0x2a0e30002a0f1 0x2a0f10002a101;
  mkModel 0x2700000027 (11816)%Z 0x0 0x2a1010002a110;
  mkModel 0x2700000027 (-1)%Z 0x2a1100002a121 0x2a1210002a134;
  mkModel 0x2700000027 (-1)%Z 0x2a1340002a13e 0x2a13e0002a146;
  mkModel 0x2700000027 (11817)%Z 0x0 0x2a1460002a150;
  mkModel 0x2700000027 (11818)%Z 0x0 0x2a1500002a160;
  mkModel 0x2700000027 (-1)%Z 0x2a1600002a173 0x2a1730002a186;
  mkModel 0x2700000027 (11819)%Z 0x0 0x2a1860002a19a;
  mkModel 0x2700000027 (-1)%Z 0x2a19a0002a1b2 0x2a19a0002a1b2;
  mkModel 0x2700000027 (-1)%Z 0x2a1b20002a1c1 0x2a1c10002a1d0;
  mkModel 0x2700000027 (11820)%Z 0x0 0x2a1d00002a1db;
  mkModel 0x2700000027 (-1)%Z 0x2a1db0002a1e5 0x2a1e50002a1ef;
  mkModel 0x2700000027 (-1)%Z 0x2a1ef0002a1fa 0x2a1fa0002a205;
  mkModel 0x2700000027 (-1)%Z 0x2a2050002a20d 0x2a2050002a20d;
  mkModel 0x2700000027 (11821)%Z 0x0 0x2a20d0002a214;
  mkModel 0x2700000027 (-1)%Z 0x2a2140002a21b 0x2a21b0002a222;
  mkModel 0x2700000027 (-1)%Z 0x2a2220002a22c 0x299570002995b;
  mkModel 0x2700000027 (-1)%Z 0x2a22c0002a236 0x2a22c0002a236;
  mkModel 0x2700000027 (-1)%Z 0x2a2360002a248 0x2a2480002a25c;
  mkModel 0x2700000027 (-1)%Z 0x2a25c0002a26e 0x2a25c0002a26e;
  mkModel 0x2700000027 (-1)%Z 0x2a26e0002a284 0x2a2840002a29c;
  mkModel 0x2700000027 (-1)%Z 0x2a29c0002a2aa 0x2a2aa0002a2bd;
  mkModel 0x2700000027 (-1)%Z 0x2a2bd0002a2cd 0x2a2cd0002a2dd;
  mkModel 0x2700000027 (-1)%Z 0x2a2dd0002a2e9 0x2a2dd0002a2e9;
  mkModel 0x2700000027 (-1)%Z 0x2a2e90002a2f9 0x2a2f90002a30b;
  mkModel 0x2700000027 (-1)%Z 0x2a30b0002a31c 0x2a31c0002a32f;
  mkModel 0x2700000027 (-1)%Z 0x2a32f0002a33b 0x2a33b0002a347;
  mkModel 0x2700000027 (11822)%Z 0x0 0x2a3470002a34f;
  mkModel 0x2700000027 (-1)%Z 0x2a34f0002a356 0x2a3560002a35d;
  mkModel 0x2700000027 (-1)%Z 0x2a35d0002a36a 0x2a36a0002a379;
  mkModel 0x2700000027 (11823)%Z 0x0 0x2a3790002a38e;
  mkModel 0x2700000027 (-1)%Z 0x2a38e0002a39f 0x2a39f0002a3b2;
  mkModel 0x2700000027 (11824)%Z 0x0 0x2a3b20002a3bb;
  mkModel 0x2700000027 (11825)%Z 0x0 0x87b3000087bb;
  mkModel 0x2700000027 (-1)%Z 0x2a3bb0002a3d1 0x2a3d10002a3e9
].
Definition d_dr_dm_77 : list modelTuple := [
  mkModel 0x2700000027 (11826)%Z 0x0 0x18000000182;
  mkModel 0x0 (-1)%Z 0x0 0x18000000182;
  mkModel 0x0 (-1)%Z 0x0 0x18000000182;
  mkModel 0x0 (-1)%Z 0x0 0x2a3f80002a403;
  mkModel 0x2700000027 (11831)%Z 0x0 0x4fe400004feb;
  mkModel 0x2700000027 (11832)%Z 0x0 0x18000000182;
  mkModel 0x0 (-1)%Z 0x0 0x18000000182;
  mkModel 0x2700000027 (-1)%Z 0x2a4100002a41a 0x2a41a0002a424;
  mkModel 0x2700000027 (11835)%Z 0x0 0x2a4240002a42b;
  mkModel 0x2700000027 (11836)%Z 0x0 0x18000000182;
  mkModel 0x2700000027 (-1)%Z 0x2a42b0002a435 0x2a42b0002a435;
  mkModel 0x23f00000249 (11837)%Z 0x0 0x2a4350002a43e;
  mkModel 0x23f00000249 (11838)%Z 0x0 0x2a43e0002a447;
  mkModel 0x2700000027 (-1)%Z 0x2a44a0002a450 0x2a4500002a457;
  mkModel 0x2700000027 (-1)%Z 0x2a4570002a460 0x2a4600002a46a;
  mkModel 0x2700000027 (11840)%Z 0x0 0x2a46a0002a470;
  mkModel 0x2700000027 (11841)%Z 0x0 0x2a4700002a478;
  mkModel 0x0 (-1)%Z 0x0 0x18000000182;
  mkModel 0x2700000027 (-1)%Z 0x2a4810002a48e 0x2a48e0002a495;
  mkModel 0x2700000027 (-1)%Z 0x2a4950002a49b 0x2a49b0002a4a1;
  mkModel 0x2700000027 (-1)%Z 0x2a4a10002a4ad 0x2a4ad0002a4b9;
  mkModel 0x2700000027 (11845)%Z 0x0 0x18000000182;
  mkModel 0x2700000027 (11846)%Z 0x0 0x2a4bd0002a4c5;
  mkModel 0x0 (-1)%Z 0x0 0x18000000182;
  mkModel 0x2700000027 (-1)%Z 0x2a4cf0002a4d8 0x2a4d80002a4df;
  mkModel 0x2700000027 (11850)%Z 0x0 0x2a4e30002a4e6;
  mkModel 0x2700000027 (11851)%Z 0x0 0x2a4e60002a4ea;
  mkModel 0x2700000027 (11852)%Z 0x0 0x2a4ea0002a4f1;
  mkModel 0x2700000027 (11853)%Z 0x0 0x2a4f10002a4f4;
  mkModel 0x2a1000002a7 (11854)%Z 0x0 0x2a4f40002a4fe;
  mkModel 0x2700000027 (11855)%Z 0x0 0x18000000182;
  mkModel 0x2700000027 (-1)%Z 0x2a5080002a513 0x2a5130002a51a;
  mkModel 0x2700000027 (-1)%Z 0x2a51a0002a520 0x16d1f00016d20;
  mkModel 0x2700000027 (-1)%Z 0x2a5200002a526 0x403d0000403f;
  mkModel 0x2700000027 (-1)%Z 0x2a52c0002a531 0x2a52c0002a531;
  mkModel 0x2700000027 (-1)%Z 0x2a5310002a53c 0x2a53c0002a547;
  mkModel 0x2700000027 (-1)%Z 0x2a5470002a54e 0x2a54e0002a555;
  mkModel 0x2700000027 (11858)%Z 0x0 0x2a5550002a55e;
  mkModel 0x2700000027 (11859)%Z 0x0 0x18000000182;
  mkModel 0x2700000027 (11860)%Z 0x0 0x18000000182;
  mkModel 0x2700000027 (11861)%Z 0x0 0x18000000182;
  mkModel 0x0 (-1)%Z 0x0 0x18000000182;
  mkModel 0x2700000027 (11863)%Z 0x0 0x18000000182;
  mkModel 0x2700000027 (-1)%Z 0x2a5780002a582 0x2a5820002a587;
  mkModel 0x2700000027 (-1)%Z 0x2a5870002a590 0x2a5900002a59a;
  mkModel 0x2700000027 (11865)%Z 0x0 0x2a59a0002a5a4;
  mkModel 0x2700000027 (11866)%Z 0x0 0x2a5a40002a5ac;
  mkModel 0x2700000027 (-1)%Z 0x2a5ac0002a5b4 0x2a5b40002a5bd;
  mkModel 0x2700000027 (-1)%Z 0x2a5bd0002a5c4 0x2a5c40002a5cc;
  mkModel 0x2700000027 (-1)%Z 0x2a5cc0002a5d3 0x2a5cc0002a5d3;
  mkModel 0x2700000027 (11867)%Z 0x0 0x2a5d30002a5db;
  mkModel 0x2700000027 (-1)%Z 0x2a5db0002a5e6 0x2a5e60002a5f2;
  mkModel 0x2700000027 (-1)%Z 0x2a5f20002a5f8 0x2a5f80002a5ff;
  mkModel 0x2700000027 (-1)%Z 0x2a5ff0002a606 0x2a6060002a60e;
  mkModel 0x2700000027 (-1)%Z 0x2a60e0002a619 0x2a6190002a625;
  mkModel 0x2700000027 (-1)%Z 0x2a6250002a62c 0x2a62c0002a634;
  mkModel 0x2700000027 (-1)%Z 0x2a6340002a63a 0x2a63a0002a641;
  mkModel 0x2700000027 (-1)%Z 0x2a6410002a648 0x2a6480002a650;
  mkModel 0x2700000027 (-1)%Z 0x2a6500002a65b 0x2a65b0002a667;
  mkModel 0x2700000027 (-1)%Z 0x2a6670002a66d 0x2a66d0002a674;
  mkModel 0x2700000027 (-1)%Z 0x2a6740002a67c 0x2a67c0002a685;
  mkModel 0x2700000027 (-1)%Z 0x2a6850002a68b 0x2a6850002a68b;
  mkModel 0x2700000027 (11868)%Z 0x0 0x2a68b0002a696;
  mkModel 0x2700000027 (11869)%Z 0x0 0x2a6960002a69e;
  mkModel 0x2700000027 (11870)%Z 0x0 0x18000000182;
  mkModel 0x2a1000002a7 (-1)%Z 0x2a69e0002a6a3 0x2a6a30002a6a9;
  mkModel 0x2700000027 (11872)%Z 0x0 0x18000000182;
  mkModel 0x2700000027 (11873)%Z 0x0 0x18000000182;
  mkModel 0x0 (-1)%Z 0x0 0x2a6b50002a6bd;
  mkModel 0x0 (-1)%Z 0x0 0x18000000182;
  mkModel 0x2700000027 (11877)%Z 0x0 0x2a6c80002a6d1;
  mkModel 0x2700000027 (11878)%Z 0x0 0x18000000182;
  mkModel 0x2700000027 (11879)%Z 0x0 0x18000000182;
  mkModel 0x2700000027 (11881)%Z 0x0 0x18000000182;
  mkModel 0x23f00000249 (11882)%Z 0x0 0x18000000182;
  mkModel 0x2700000027 (11884)%Z 0x0 0x2a6db0002a6e0;
  mkModel 0x2700000027 (11885)%Z 0x0 0x2a6e00002a6e6;
  mkModel 0x2700000027 (11886)%Z 0x0 0x2a6e60002a6ea;
  mkModel 0x2700000027 (11887)%Z 0x0 0x2a6ea0002a6ee;
  mkModel 0x2700000027 (11888)%Z 0x0 0x13c4800013c4e;
  mkModel 0x2700000027 (11889)%Z 0x0 0x2a6ee0002a6f5;
  mkModel 0x2700000027 (11890)%Z 0x0 0x1500a0001500d;
  mkModel 0x2700000027 (11891)%Z 0x0 0x97e9000097ee;
  mkModel 0x2700000027 (11893)%Z 0x0 0x18000000182;
  mkModel 0x2700000027 (11894)%Z 0x0 0x2a7010002a706;
  mkModel 0x0 (-1)%Z 0x0 0x18000000182;
  mkModel 0xdfd00000e04 (-1)%Z 0x2a70f0002a714 0x251d9000251dc;
  mkModel 0xdfd00000e04 (-1)%Z 0x2a7140002a719 0x251e2000251e9;
  mkModel 0x2700000027 (-1)%Z 0x2a7190002a71e 0x2a71e0002a726;
  mkModel 0x2700000027 (-1)%Z 0x2a7260002a72c 0x2a72c0002a72f;
  mkModel 0x2700000027 (-1)%Z 0x2a72f0002a735 0x2a7350002a738;
  mkModel 0x2700000027 (-1)%Z 0x2a7380002a73d 0x17a2100017a24;
  mkModel 0x2700000027 (-1)%Z 0x2a73d0002a743 0x2a7430002a74a;
  mkModel 0x2700000027 (-1)%Z 0x2a74a0002a74f 0x2a74f0002a752;
  mkModel 0x2700000027 (-1)%Z 0x2a7520002a757 0x2a7570002a75b;
  mkModel 0x2700000027 (-1)%Z 0x2a75b0002a761 0x2a7610002a764;
  mkModel 0x2700000027 (11897)%Z 0x0 0x2a7640002a767;
  mkModel 0x2700000027 (-1)%Z 0x2a7670002a76d 0x2a76d0002a771;
  mkModel 0x2700000027 (-1)%Z 0x2a7710002a777 0x2a7770002a77b;
  mkModel 0x2700000027 (-1)%Z 0x2a77b0002a780 0x17a9700017a9a;
  mkModel 0x2700000027 (-1)%Z 0x2a7800002a785 0x19980000199b;
  mkModel 0x2700000027 (-1)%Z 0x2a7850002a78a 0x2a78a0002a78d;
  mkModel 0x2700000027 (-1)%Z 0x2a78d0002a792 0x2a7920002a795;
  mkModel 0x2700000027 (-1)%Z 0x2a7950002a79a 0x3d7000003dc;
  mkModel 0x2700000027 (-1)%Z 0x2a79a0002a79f 0x17a6600017a69;
  mkModel 0x2700000027 (-1)%Z 0x2a79f0002a7a4 0x2a7a40002a7a7;
  mkModel 0x2700000027 (-1)%Z 0x2a7a70002a7ac 0x23e0400023e0c;
  mkModel 0x2700000027 (-1)%Z 0x2a7ac0002a7b2 0x2a7b20002a7b6;
  mkModel 0x2700000027 (11898)%Z 0x0 0x24f9f00024fa2;
  mkModel 0x2700000027 (11899)%Z 0x0 0x2a7b60002a7be;
  mkModel 0x2700000027 (11900)%Z 0x0 0x2a7be0002a7cb;
  mkModel 0x2700000027 (-1)%Z 0x2a7cb0002a7d0 0x24fc200024fc5;
  mkModel 0x2700000027 (-1)%Z 0x2a7d00002a7d5 0xc4140000c417;
  mkModel 0x2700000027 (-1)%Z 0x2a7d50002a7da 0x252130002521a;
  mkModel 0x2700000027 (11901)%Z 0x0 0x2a7da0002a7dd;
  mkModel 0x2700000027 (-1)%Z 0x2a7dd0002a7e2 0x2a7e20002a7e9;
  mkModel 0x2700000027 (-1)%Z 0x2a7e90002a7ee 0x2a7ee0002a7f1;
  mkModel 0x2700000027 (-1)%Z 0x2a7f10002a7f6 0x2a7f60002a7f9;
  mkModel 0x2700000027 (-1)%Z 0x2a7f90002a7fe 0x2a7fe0002a802;
  mkModel 0x2700000027 (-1)%Z 0x2a8020002a807 0x2a8070002a80b;
  mkModel 0x2700000027 (-1)%Z 0x2a80b0002a810 0x2a8100002a816;
  mkModel 0x2700000027 (-1)%Z 0x2a8160002a81b 0x2a81b0002a81e;
  mkModel 0x2700000027 (-1)%Z 0x2a81e0002a823 0x2a8230002a827;
  mkModel 0x2700000027 (-1)%Z 0x2a8270002a82c 0x2a82c0002a834;
  mkModel 0x2700000027 (-1)%Z 0x2a8340002a839 0x2a8390002a840;
  mkModel 0x2700000027 (-1)%Z 0x2a8400002a845 0x2a8450002a848;
  mkModel 0x2700000027 (-1)%Z 0x2a8480002a84e 0x179ca000179cd;
  mkModel 0x2700000027 (-1)%Z 0x2a84e0002a853 0x2a8530002a85b;
  mkModel 0x2700000027 (-1)%Z 0x2a85b0002a860 0x2a8600002a863;
  mkModel 0x2700000027 (-1)%Z 0x2a8630002a868 0x2a8680002a86b;
  mkModel 0x2700000027 (-1)%Z 0x2a86b0002a871 0x2a8710002a874;
  mkModel 0x2700000027 (-1)%Z 0x2a8740002a879 0x2a8790002a87c;
  mkModel 0x2700000027 (11902)%Z 0x0 0x2a87c0002a884;
  mkModel 0x2700000027 (-1)%Z 0x2a8840002a889 0x2a8890002a890;
  mkModel 0x2700000027 (-1)%Z 0x2a8900002a895 0x2a8950002a898;
  mkModel 0x2700000027 (-1)%Z 0x2a8980002a89d 0x2a89d0002a8a0;
  mkModel 0x2700000027 (-1)%Z 0x2a8a00002a8a5 0x2a8a50002a8a8;
  mkModel 0x2700000027 (-1)%Z 0x2a8a80002a8ae 0x2a8ae0002a8b5;
  mkModel 0x2700000027 (-1)%Z 0x2a8b50002a8ba 0x17a0e00017a11;
  mkModel 0x2700000027 (-1)%Z 0x2a8ba0002a8bf 0x2a8bf0002a8c3;
  mkModel 0x2700000027 (-1)%Z 0x2a8c30002a8c9 0x2a8c90002a8d0;
  mkModel 0x2700000027 (-1)%Z 0x2a8d00002a8d6 0x251b7000251be;
  mkModel 0x2700000027 (11903)%Z 0x0 0x251e2000251e9;
  mkModel 0x2700000027 (-1)%Z 0x2a8d60002a8dc 0x2a8dc0002a8e0;
  mkModel 0x2700000027 (11904)%Z 0x0 0x2a8e00002a8e7;
  mkModel 0x2700000027 (-1)%Z 0x2a8e70002a8ed 0x2a8ed0002a8f4;
  mkModel 0x2700000027 (-1)%Z 0x2a8f40002a8f9 0x2a8f90002a8fc;
  mkModel 0x2700000027 (-1)%Z 0x2a8fc0002a902 0x2a8a50002a8a8;
  mkModel 0x2700000027 (-1)%Z 0x2a9020002a907 0x2a9070002a90a;
  mkModel 0x2700000027 (-1)%Z 0x2a90a0002a90f 0x2a90f0002a912;
  mkModel 0x2700000027 (-1)%Z 0x2a9120002a918 0x2a9180002a91f;
  mkModel 0x2700000027 (-1)%Z 0x2a91f0002a925 0x2a9250002a92c;
  mkModel 0x2700000027 (-1)%Z 0x2a92c0002a931 0x17ad400017ad7;
  mkModel 0x2700000027 (-1)%Z 0x2a9310002a936 0x2a9360002a93e;
  mkModel 0x2700000027 (-1)%Z 0x2a93e0002a944 0x2a9440002a948;
  mkModel 0x2700000027 (-1)%Z 0x2a9480002a94e 0x2a94e0002a951;
  mkModel 0x2700000027 (-1)%Z 0x2a9510002a956 0x2a9560002a95a;
  mkModel 0x2700000027 (-1)%Z 0x2a95a0002a95f 0x2a95f0002a967;
  mkModel 0x2700000027 (-1)%Z 0x2a9670002a96c 0x2a96c0002a973;
  mkModel 0x2700000027 (11905)%Z 0x0 0x2a9730002a97a;
  mkModel 0x2700000027 (-1)%Z 0x2a97a0002a97f 0x2a97f0002a987;
  mkModel 0x2700000027 (-1)%Z 0x2a9870002a98d 0x17a2700017a2a;
  mkModel 0x2700000027 (-1)%Z 0x2a98d0002a992 0x17a9400017a97;
  mkModel 0x2700000027 (-1)%Z 0x2a9920002a997 0x17aba00017abd;
  mkModel 0x2700000027 (11906)%Z 0x0 0x166570001665a;
  mkModel 0x2700000027 (11907)%Z 0x0 0x9ad000009ad3;
  mkModel 0x2700000027 (-1)%Z 0x2a9970002a99c 0x2a99c0002a9a0;
  mkModel 0x2700000027 (-1)%Z 0x2a9a00002a9a5 0x2a9a50002a9ad;
  mkModel 0x2700000027 (11908)%Z 0x0 0x2a9ad0002a9ba;
  mkModel 0x2700000027 (-1)%Z 0x2a9ba0002a9bf 0x2a9bf0002a9c6;
  mkModel 0x2700000027 (-1)%Z 0x2a9c60002a9cb 0x2a9cb0002a9d4;
  mkModel 0x2700000027 (-1)%Z 0x2a9d40002a9d9 0x2a9d90002a9e6;
  mkModel 0x2700000027 (-1)%Z 0x2a9e60002a9eb 0x2a9eb0002a9f7;
  mkModel 0x2700000027 (-1)%Z 0x2a9f70002a9fc 0xf11d0000f125;
  mkModel 0x2700000027 (-1)%Z 0x2a9fc0002aa05 0x2a9fc0002aa05;
  mkModel 0x2700000027 (11909)%Z 0x0 0x2aa050002aa0d;
  mkModel 0x2700000027 (11910)%Z 0x0 0x2aa050002aa0d;
  mkModel 0x2700000027 (11911)%Z 0x0 0x2aa0d0002aa11;
  mkModel 0x2700000027 (11912)%Z 0x0 0x2aa110002aa1a;
  mkModel 0x2700000027 (11913)%Z 0x0 0x2aa1a0002aa22;
  mkModel 0x2700000027 (11914)%Z 0x0 0x18000000182;
  mkModel 0x2a1000002a7 (-1)%Z 0x2aa220002aa2d 0x2aa2d0002aa38;
  mkModel 0x2a1000002a7 (-1)%Z 0x2aa380002aa44 0x2aa440002aa49;
  mkModel 0x2a1000002a7 (-1)%Z 0x2aa490002aa53 0x2aa530002aa5b;
  mkModel 0x2a1000002a7 (-1)%Z 0x2aa5b0002aa65 0x2aa650002aa6f;
  mkModel 0x2a1000002a7 (-1)%Z 0x2aa6f0002aa76 0x2aa760002aa82;
  mkModel 0x2a1000002a7 (11915)%Z 0x0 0x2aa820002aa90;
  mkModel 0x2700000027 (11916)%Z 0x0 0x232000002328;
  mkModel 0x2700000027 (11917)%Z 0x0 0x18000000182;
  mkModel 0x2700000027 (11918)%Z 0x0 0x18000000182;
  mkModel 0x0 (-1)%Z 0x0 0x2aa960002aa9d;
  mkModel 0x2700000027 (11921)%Z 0x0 0x2aaa00002aaa8;
  mkModel 0x2700000027 (11922)%Z 0x0 0x11d6300011d65;
  mkModel 0x2700000027 (-1)%Z 0x2aaad0002aab8 0x2aab80002aac3;
  mkModel 0x2700000027 (11924)%Z 0x0 0x18000000182;
  mkModel 0x2700000027 (-1)%Z 0x2aac90002aad1 0x2aad10002aad9;
  mkModel 0x2700000027 (-1)%Z 0x2aad90002aadf 0x2aadf0002aae3;
  mkModel 0x2700000027 (-1)%Z 0x2aae30002aaea 0x2aaea0002aaf1;
  mkModel 0x2700000027 (11926)%Z 0x0 0x2aaf10002aaf3;
  mkModel 0x2700000027 (11927)%Z 0x0 0x2aaf30002aaf8
].
Definition d_dr_dm_78 : list modelTuple := [
  mkModel 0x2700000027 (11928)%Z 0x0 0x2aaf80002aafd;
  mkModel 0x7cc000007d6 (11930)%Z 0x0 0x18000000182;
  mkModel 0x0 (-1)%Z 0x0 0x18000000182;
  mkModel 0x0 (-1)%Z 0x0 0x18000000182;
  mkModel 0x2700000027 (11934)%Z 0x0 0x2ab160002ab23;
  mkModel 0x2700000027 (11935)%Z 0x0 0x2ab230002ab2f;
  mkModel 0x0 (-1)%Z 0x0 0x18000000182;
  mkModel 0x2700000027 (11938)%Z 0x0 0x2ab3a0002ab48;
  mkModel 0x2700000027 (-1)%Z 0x2ab4c0002ab5d 0x2ab5d0002ab69;
  mkModel 0x2700000027 (11940)%Z 0x0 0x7c3000007c8;
  mkModel 0x2700000027 (11941)%Z 0x0 0x18000000182;
  mkModel 0x0 (-1)%Z 0x0 0x18000000182;
  mkModel 0x2700000027 (-1)%Z 0x2ab810002ab8e 0x88190000881b;
  mkModel 0x2700000027 (11944)%Z 0x0 0x2ab8e0002ab95;
  mkModel 0x2700000027 (11945)%Z 0x0 0x18000000182;
  mkModel 0x2a1000002a7 (11946)%Z 0x0 0x18000000182;
  mkModel 0x0 (-1)%Z 0x0 0x18000000182;
  mkModel 0x0 (-1)%Z 0x0 0x18000000182;
  mkModel 0x2700000027 (-1)%Z 0x2abad0002abb8 0x2abb80002abc3;
  mkModel 0x2700000027 (11950)%Z 0x0 0x2abc30002abcb;
  mkModel 0x2700000027 (11951)%Z 0x0 0x2abcb0002abd6;
  mkModel 0x2700000027 (11952)%Z 0x0 0x2abd60002abe0;
  mkModel 0x2700000027 (11953)%Z 0x0 0x2abe00002abe6;
  mkModel 0x2700000027 (-1)%Z 0x2abe60002abf4 0x2abf40002ac02;
  mkModel 0x2700000027 (-1)%Z 0x2ac020002ac10 0x2ac100002ac1d;
  mkModel 0x2700000027 (11954)%Z 0x0 0x2ac1d0002ac2d;
  mkModel 0x2700000027 (11955)%Z 0x0 0x13b1200013b1d;
  mkModel 0x2700000027 (-1)%Z 0x2ac2d0002ac34 0x2ac340002ac3b;
  mkModel 0x2700000027 (11956)%Z 0x0 0xd2bb0000d2c3;
  mkModel 0x2700000027 (11957)%Z 0x0 0x5fa300005fa9;
  mkModel 0x2700000027 (11958)%Z 0x0 0x2ac3b0002ac45;
  mkModel 0x2700000027 (-1)%Z 0x2ac450002ac50 0x2ac500002ac5b;
  mkModel 0x2700000027 (11959)%Z 0x0 0x2ac5b0002ac67;
  mkModel 0x2700000027 (-1)%Z 0x2ac670002ac73 0x2ac730002ac7f;
  mkModel 0x2700000027 (11960)%Z 0x0 0x2ac7f0002ac8b;
  mkModel 0x2700000027 (11961)%Z 0x0 0x2ac8b0002ac95;
  mkModel 0x2700000027 (11962)%Z 0x0 0x2ac950002aca1;
  mkModel 0x2700000027 (-1)%Z 0x2aca10002acb1 0x2acb10002acc1;
  mkModel 0x2a1000002a7 (-1)%Z 0x2acc10002acca 0x2acca0002acd5;
  mkModel 0x2a1000002a7 (-1)%Z 0x2acd50002ace0 0x2ace00002acec;
  mkModel 0x2a1000002a7 (-1)%Z 0x2acec0002acfa 0x2acfa0002ad09;
  mkModel 0x2a1000002a7 (-1)%Z 0x2ad090002ad18 0x2ad180002ad28;
  mkModel 0x2a1000002a7 (11963)%Z 0x0 0x2ad280002ad39;
  mkModel 0x2700000027 (11964)%Z 0x0 0x18000000182;
  mkModel 0x2a1000002a7 (11965)%Z 0x0 0x2ad390002ad41;
  mkModel 0x0 (-1)%Z 0x0 0x18000000182;
  mkModel 0x2700000027 (11968)%Z 0x0 0x2ad4c0002ad51;
  mkModel 0x2700000027 (11969)%Z 0x0 0x2ad510002ad54;
  mkModel 0x2700000027 (11970)%Z 0x0 0x2ad540002ad59;
  mkModel 0x2700000027 (11971)%Z 0x0 0x2ad590002ad5b;
  mkModel 0x2700000027 (11973)%Z 0x0 0x18000000182;
  mkModel 0x2700000027 (-1)%Z 0x2ad670002ad6f 0x2ad6f0002ad78;
  mkModel 0x2700000027 (-1)%Z 0x2ad780002ad84 0xe3400000e3c;
  mkModel 0x0 (-1)%Z 0x0 0x18000000182;
  mkModel 0x2700000027 (-1)%Z 0x2ad930002ada1 0x2ada10002adb0;
  mkModel 0x0 (-1)%Z 0x0 0x18000000182;
  mkModel 0x2700000027 (-1)%Z 0x2adbb0002adc2 0x2adc20002add3;
  mkModel 0x2700000027 (-1)%Z 0x2add30002adda 0x2adda0002ade9;
  mkModel 0x2700000027 (-1)%Z 0x2ade90002adf0 0x2adf00002ae01;
  mkModel 0x2700000027 (-1)%Z 0x2ae010002ae08 0x2ae080002ae15;
  mkModel 0x2700000027 (-1)%Z 0x2ae150002ae1c 0x2ae1c0002ae2c;
  mkModel 0x2700000027 (11979)%Z 0x0 0x18000000182;
  mkModel 0x2700000027 (-1)%Z 0x2ae2c0002ae35 0x2ae350002ae3f;
  mkModel 0x2700000027 (-1)%Z 0x2ae3f0002ae46 0x2ae460002ae57;
  mkModel 0x2700000027 (11980)%Z 0x0 0x2ae570002ae6a;
  mkModel 0x2700000027 (-1)%Z 0x2ae6a0002ae7a 0x2ae7a0002ae8d;
  mkModel 0x2700000027 (-1)%Z 0x2ae8d0002ae9c 0x2ae9c0002aeae;
  mkModel 0x2700000027 (11981)%Z 0x0 0x2aeae0002aec0;
  mkModel 0x2700000027 (-1)%Z 0x2aec00002aed0 0x2aed00002aee3;
  mkModel 0x2700000027 (-1)%Z 0x2aee30002aeef 0x2aeef0002aefb;
  mkModel 0x2700000027 (11982)%Z 0x0 0x2aefb0002af09;
  mkModel 0x2700000027 (-1)%Z 0x2af090002af10 0x2af100002af24;
  mkModel 0x2700000027 (11983)%Z 0x0 0x2af240002af38;
  mkModel 0x2700000027 (11984)%Z 0x0 0x18000000182;
  mkModel 0x2700000027 (11985)%Z 0x0 0x2af380002af4a;
  mkModel 0x2700000027 (-1)%Z 0x2af4a0002af51 0x2af510002af63;
  mkModel 0x2700000027 (11986)%Z 0x0 0x2af630002af75;
  mkModel 0x2700000027 (11987)%Z 0x0 0x2af750002af86;
  mkModel 0x2700000027 (11988)%Z 0x0 0x2af860002af99;
  mkModel 0x2700000027 (-1)%Z 0x2af990002afa0 0x2afa00002afb2;
  mkModel 0x2700000027 (-1)%Z 0x2afb20002afb9 0x2afb90002afcb;
  mkModel 0x2700000027 (-1)%Z 0x2afcb0002afd2 0x2afd20002afe4;
  mkModel 0x2700000027 (-1)%Z 0x2afe40002afeb 0x2afeb0002affe;
  mkModel 0x2700000027 (11989)%Z 0x0 0x18000000182;
  mkModel 0x23f00000249 (-1)%Z 0x2affe0002b005 0x2b0050002b00b;
  mkModel 0x23f00000249 (11990)%Z 0x0 0x18000000182;
  mkModel 0x23f00000249 (-1)%Z 0x2b00b0002b012 0x2b0120002b018;
  mkModel 0x23f00000249 (-1)%Z 0x2b0180002b01f 0x2b01f0002b026;
  mkModel 0x23f00000249 (-1)%Z 0x2b0260002b02d 0x2b02d0002b034;
  mkModel 0x23f00000249 (11991)%Z 0x0 0x2b0340002b03b;
  mkModel 0x23f00000249 (11992)%Z 0x0 0x2b03b0002b047;
  mkModel 0x23f00000249 (-1)%Z 0x2b0470002b04e 0x2b04e0002b059;
  mkModel 0x23f00000249 (-1)%Z 0x2b0590002b060 0x2b0600002b06c;
  mkModel 0x23f00000249 (-1)%Z 0x2b06c0002b073 0x8aa600008aaa;
  mkModel 0x23f00000249 (-1)%Z 0x2b0730002b07a 0x1ffdb0001ffe2;
  mkModel 0x23f00000249 (11993)%Z 0x0 0x2b07a0002b082;
  mkModel 0x23f00000249 (-1)%Z 0x2b0820002b089 0x2b0890002b090;
  mkModel 0x23f00000249 (-1)%Z 0x2b0900002b097 0x2b0970002b09e;
  mkModel 0x23f00000249 (11994)%Z 0x0 0x2b09e0002b0a5;
  mkModel 0x23f00000249 (-1)%Z 0x2b0a50002b0ac 0x2b0ac0002b0b4;
  mkModel 0x23f00000249 (-1)%Z 0x2b0b40002b0bc 0x2b0bc0002b0c9;
  mkModel 0x23f00000249 (-1)%Z 0x2b0c90002b0d0 0x2b0d00002b0d6;
  mkModel 0x23f00000249 (-1)%Z 0x2b0d60002b0dd 0x2b0dd0002b0e4;
  mkModel 0x23f00000249 (11995)%Z 0x0 0x2b0e40002b0eb;
  mkModel 0x23f00000249 (11996)%Z 0x0 0x2b0eb0002b0f1;
  mkModel 0x23f00000249 (11997)%Z 0x0 0x2b0f10002b0fe;
  mkModel 0x23f00000249 (-1)%Z 0x2b0fe0002b105 0x2b1050002b10c;
  mkModel 0x2700000027 (11999)%Z 0x0 0x18000000182;
  mkModel 0x2700000027 (12000)%Z 0x0 0x2b1140002b11a;
  mkModel 0x0 (-1)%Z 0x0 0x2b1220002b12a;
  mkModel 0x2700000027 (12003)%Z 0x0 0x2b12e0002b134;
  mkModel 0x2700000027 (12004)%Z 0x0 0x2b1340002b13c;
  mkModel 0x2700000027 (12005)%Z 0x0 0x18000000182;
  mkModel 0x2700000027 (-1)%Z 0x2b13c0002b144 0x2b13c0002b144;
  mkModel 0x2700000027 (-1)%Z 0xb8a50000b8a8 0xb8a50000b8a8;
  mkModel 0x2700000027 (-1)%Z 0x2b1440002b152 0x2b1440002b152;
  mkModel 0x2700000027 (12006)%Z 0x0 0x2b1520002b15e;
  mkModel 0x2700000027 (12007)%Z 0x0 0x4c4f00004c57;
  mkModel 0x2700000027 (12008)%Z 0x0 0x2b15e0002b16c;
  mkModel 0x2700000027 (12010)%Z 0x0 0x2b16c0002b17a;
  mkModel 0x2700000027 (12011)%Z 0x0 0x2b17a0002b187;
  mkModel 0x2700000027 (12012)%Z 0x0 0x2b1870002b18d;
  mkModel 0x2700000027 (12014)%Z 0x0 0x2b1960002b1a5;
  mkModel 0x2700000027 (12015)%Z 0x0 0x2b1a50002b1b4;
  mkModel 0x2700000027 (12016)%Z 0x0 0x2b1b40002b1bc;
  mkModel 0x2700000027 (12017)%Z 0x0 0x2b1bc0002b1c5;
  mkModel 0x2700000027 (12019)%Z 0x0 0x2b1c50002b1ca;
  mkModel 0x2700000027 (12020)%Z 0x0 0x2b1ca0002b1ce;
  mkModel 0x2700000027 (12021)%Z 0x0 0x2b1ce0002b1de;
  mkModel 0x2700000027 (12022)%Z 0x0 0x2b1de0002b1ee;
  mkModel 0x2700000027 (12023)%Z 0x0 0x2b1ee0002b1fa;
  mkModel 0x2700000027 (12024)%Z 0x0 0x2b1fa0002b200;
  mkModel 0x2700000027 (12025)%Z 0x0 0x2b2000002b206;
  mkModel 0x2700000027 (12026)%Z 0x0 0x2b2060002b20c;
  mkModel 0x2700000027 (12027)%Z 0x0 0x2b20c0002b213;
  mkModel 0x2700000027 (-1)%Z 0x2b2130002b221 0x2b2130002b221;
  mkModel 0x2700000027 (-1)%Z 0x2b2210002b22e 0x2b2210002b22e;
  mkModel 0x2700000027 (-1)%Z 0x2b22e0002b239 0x2b22e0002b239;
  mkModel 0x2700000027 (-1)%Z 0x2b2390002b244 0x2b2390002b244;
  mkModel 0x2700000027 (-1)%Z 0x2b2440002b264 0x2b2640002b278;
  mkModel 0x2700000027 (-1)%Z 0x2b2780002b291 0x2b2910002b29c;
  mkModel 0x2700000027 (-1)%Z 0x2b29c0002b2ae 0x2b2ae0002b2ba;
  mkModel 0x2700000027 (-1)%Z 0x2b2ba0002b2db 0x2b2db0002b2f3;
  mkModel 0x2700000027 (12030)%Z 0x0 0xb8230000b82f;
  mkModel 0x2700000027 (12031)%Z 0x0 0xb8070000b811;
  mkModel 0x2700000027 (-1)%Z 0x2b2f30002b30e 0x2b30e0002b31a;
  mkModel 0x2700000027 (-1)%Z 0x2b31a0002b32e 0x2b32e0002b336;
  mkModel 0x2700000027 (-1)%Z 0x2b3360002b351 0x2b3510002b35d;
  mkModel 0xc9b00000ca2 (-1)%Z 0x2b35d0002b37b 0x2b37b0002b3a1;
  mkModel 0xc9b00000ca2 (-1)%Z 0x2b3a10002b3a8 0x2b3a80002b3d9;
  mkModel 0x2700000027 (12033)%Z 0x0 0x2b3d90002b3ec;
  mkModel 0x2700000027 (12034)%Z 0x0 0x2b3ec0002b3f2;
  mkModel 0x2700000027 (12035)%Z 0x0 0x2b3f20002b403;
  mkModel 0x2700000027 (12036)%Z 0x0 0x2b4030002b40e;
  mkModel 0x0 (-1)%Z 0x0 0x2b40e0002b427;
  mkModel 0x0 (-1)%Z 0x0 0x2b4270002b43f;
  mkModel 0x2700000027 (12039)%Z 0x0 0x22e4c00022e58;
  mkModel 0x2700000027 (12040)%Z 0x0 0x22e4c00022e58;
  mkModel 0x2700000027 (12042)%Z 0x0 0x2b44e0002b45b;
  mkModel 0x2700000027 (12043)%Z 0x0 0x2b45b0002b468;
  mkModel 0x2700000027 (12044)%Z 0x0 0x2b4680002b474;
  mkModel 0x2700000027 (12045)%Z 0x0 0x2b4740002b480;
  mkModel 0x2700000027 (12046)%Z 0x0 0x2b4800002b48c;
  mkModel 0x2700000027 (12047)%Z 0x0 0x2b48c0002b498;
  mkModel 0x2700000027 (12048)%Z 0x0 0x2b4980002b4a4;
  mkModel 0x2700000027 (12049)%Z 0x0 0x2b4a40002b4ae;
  mkModel 0x0 (-1)%Z 0x0 0x18000000182;
  mkModel 0x0 (-1)%Z 0x0 0x18000000182;
  mkModel 0x2700000027 (12052)%Z 0x0 0x18000000182;
  mkModel 0x2700000027 (-1)%Z 0x2b4c40002b4d0 0x2b4c40002b4d0;
  mkModel 0x2700000027 (12053)%Z 0x0 0xf1440000f147;
  mkModel 0x0 (-1)%Z 0x0 0x18000000182;
  mkModel 0x2700000027 (12055)%Z 0x0 0x500000005006;
  mkModel 0x2700000027 (12056)%Z 0x0 0x18000000182;
  mkModel 0x0 (-1)%Z 0x0 0x2b4eb0002b4f2;
  mkModel 0x2700000027 (-1)%Z 0x2b4f80002b500 0x2b5000002b508;
  mkModel 0x2700000027 (12058)%Z 0x0 0x18000000182;
  mkModel 0x0 (-1)%Z 0x0 0x18000000182;
  mkModel 0x2700000027 (12061)%Z 0x0 0x2b5080002b519;
  mkModel 0x2700000027 (-1)%Z 0x2b5190002b51f 0x2b51f0002b530;
  mkModel 0x2700000027 (-1)%Z 0x2b5300002b536 0x2b5360002b547;
  mkModel 0x2700000027 (-1)%Z 0x2b5470002b54d 0x2b54d0002b55e;
  mkModel 0x2700000027 (-1)%Z 0x2b55e0002b564 0x2b5640002b575;
  mkModel 0x2700000027 (-1)%Z 0x2b5750002b57b 0x2b57b0002b58b;
  mkModel 0x2700000027 (-1)%Z 0x2b58b0002b593 0x2b5930002b5a8;
  mkModel 0x2700000027 (12062)%Z 0x0 0x18000000182;
  mkModel 0x0 (-1)%Z 0x0 0x18000000182;
  mkModel 0x0 (-1)%Z 0x0 0x18000000182;
  mkModel 0x0 (-1)%Z 0x0 0x18000000182;
  mkModel 0x2700000027 (12068)%Z 0x0 0x10e9000010f6;
  mkModel 0x2700000027 (12070)%Z 0x0 0x2700000027;
  mkModel 0x2700000027 (12071)%Z 0x0 0x10e9000010f6;
  mkModel 0x2700000027 (12072)%Z 0x0 0x18000000182;
  mkModel 0x2700000027 (12073)%Z 0x0 0x18000000182;
  mkModel 0x2700000027 (-1)%Z 0x2b6cc0002b6d6 0x2b6cc0002b6d6;
  mkModel 0x2700000027 (12076)%Z 0x0 0x18000000182;
  mkModel 0x2700000027 (12078)%Z 0x0 0x18000000182;
  mkModel 0x2700000027 (12080)%Z 0x0 0x10e9000010f6;
  mkModel 0x2700000027 (12081)%Z 0x0 0x18000000182;
  mkModel 0x2700000027 (12082)%Z 0x0 0x18000000182
].
Definition d_dr_dm_79 : list modelTuple := [
  mkModel 0x2700000027 (12084)%Z 0x0 0x18000000182;
  mkModel 0x2700000027 (12085)%Z 0x0 0x18000000182;
  mkModel 0x2700000027 (12089)%Z 0x0 0x18000000182;
  mkModel 0x2700000027 (12091)%Z 0x0 0x10e9000010f6;
  mkModel 0x2700000027 (-1)%Z 0x2b7120002b719 0x2b7120002b719;
  mkModel 0x0 (-1)%Z 0x0 0x2b72f0002b738;
  mkModel 0x2700000027 (-1)%Z 0x2b7380002b745 0x2b7380002b745;
  mkModel 0x2700000027 (12095)%Z 0x0 0x18000000182;
  mkModel 0x2700000027 (12096)%Z 0x0 0x18000000182;
  mkModel 0x2700000027 (12098)%Z 0x0 0x10e9000010f6;
  mkModel 0x2700000027 (12100)%Z 0x0 0x10e9000010f6;
  mkModel 0x2700000027 (12102)%Z 0x0 0x10e9000010f6;
  mkModel 0x2700000027 (12104)%Z 0x0 0x18000000182;
  mkModel 0x2700000027 (12106)%Z 0x0 0x10e9000010f6;
  mkModel 0x0 (-1)%Z 0x0 0x2b76c0002b772;
  mkModel 0x2700000027 (12108)%Z 0x0 0x10e9000010f6;
  mkModel 0x2700000027 (12110)%Z 0x0 0x10e9000010f6;
  mkModel 0x2700000027 (12112)%Z 0x0 0x18000000182;
  mkModel 0x2700000027 (12114)%Z 0x0 0x10e9000010f6;
  mkModel 0x2700000027 (12116)%Z 0x0 0x10e9000010f6;
  mkModel 0x2700000027 (12118)%Z 0x0 0x10e9000010f6;
  mkModel 0x2700000027 (12120)%Z 0x0 0x10e9000010f6;
  mkModel 0x0 (-1)%Z 0x0 0x2b7990002b7a1;
  mkModel 0x2700000027 (-1)%Z 0x2b7a10002b7af 0x2b7af0002b7bd;
  mkModel 0x2700000027 (12122)%Z 0x0 0x18000000182;
  mkModel 0x2700000027 (12124)%Z 0x0 0x10e9000010f6;
  mkModel 0x2700000027 (12126)%Z 0x0 0x10e9000010f6;
  mkModel 0x2700000027 (12128)%Z 0x0 0x10e9000010f6;
  mkModel 0x2700000027 (12130)%Z 0x0 0x10e9000010f6;
  mkModel 0x2700000027 (12132)%Z 0x0 0x10e9000010f6;
  mkModel 0x2700000027 (12134)%Z 0x0 0x10e9000010f6;
  mkModel 0x2700000027 (12136)%Z 0x0 0x10e9000010f6;
  mkModel 0x2700000027 (12138)%Z 0x0 0x599f000059a4;
  mkModel 0x2700000027 (12140)%Z 0x0 0x10e9000010f6;
  mkModel 0x2700000027 (12142)%Z 0x0 0x10e9000010f6;
  mkModel 0x2700000027 (12145)%Z 0x0 0x18000000182;
  mkModel 0x2700000027 (12147)%Z 0x0 0x10e9000010f6;
  mkModel 0x2700000027 (12149)%Z 0x0 0x10e9000010f6;
  mkModel 0x2700000027 (12151)%Z 0x0 0x10e9000010f6;
  mkModel 0x2700000027 (12154)%Z 0x0 0x10e9000010f6;
  mkModel 0x2700000027 (12156)%Z 0x0 0x10e9000010f6;
  mkModel 0x2700000027 (12158)%Z 0x0 0x10e9000010f6;
  mkModel 0x2700000027 (-1)%Z 0x2b81a0002b81c 0x2b81a0002b81c;
  mkModel 0x2700000027 (12160)%Z 0x0 0x18000000182;
  mkModel 0x2700000027 (12162)%Z 0x0 0x10e9000010f6;
  mkModel 0x2700000027 (12164)%Z 0x0 0x10e9000010f6;
  mkModel 0x2700000027 (12166)%Z 0x0 0x10e9000010f6;
  mkModel 0x2700000027 (-1)%Z 0x2b8360002b840 0x2b8360002b840;
  mkModel 0x2700000027 (12169)%Z 0x0 0x10e9000010f6;
  mkModel 0x2700000027 (12171)%Z 0x0 0x10e9000010f6;
  mkModel 0x2700000027 (-1)%Z 0x2b8490002b852 0x2b8490002b852;
  mkModel 0x2700000027 (-1)%Z 0x2b8520002b85b 0x2b8520002b85b;
  mkModel 0x2700000027 (-1)%Z 0x2b85b0002b865 0x2b85b0002b865;
  mkModel 0x2700000027 (-1)%Z 0x2b8650002b86e 0x2b8650002b86e;
  mkModel 0x2700000027 (-1)%Z 0x2b86e0002b877 0x2b86e0002b877;
  mkModel 0x2700000027 (-1)%Z 0x2b8770002b881 0x2b8770002b881;
  mkModel 0x2700000027 (-1)%Z 0x2b8810002b88a 0x2b8810002b88a;
  mkModel 0x2700000027 (-1)%Z 0x2b88a0002b893 0x2b88a0002b893;
  mkModel 0x2700000027 (-1)%Z 0x2b8930002b89d 0x2b8930002b89d;
  mkModel 0x2700000027 (-1)%Z 0x2b89d0002b8a6 0x2b89d0002b8a6;
  mkModel 0x2700000027 (-1)%Z 0x2b8a60002b8af 0x2b8a60002b8af;
  mkModel 0x2700000027 (-1)%Z 0x2b8af0002b8b7 0x2b8af0002b8b7;
  mkModel 0x2700000027 (-1)%Z 0x2b8b70002b8c4 0x2b8b70002b8c4;
  mkModel 0x2700000027 (12173)%Z 0x0 0x18000000182;
  mkModel 0x2700000027 (12174)%Z 0x0 0x18000000182;
  mkModel 0x2700000027 (12175)%Z 0x0 0x10e9000010f6;
  mkModel 0x2700000027 (-1)%Z 0x2b8c40002b8cb 0x2b8c40002b8cb;
  mkModel 0x2700000027 (12177)%Z 0x0 0x10e9000010f6;
  mkModel 0x2700000027 (12179)%Z 0x0 0x10e9000010f6;
  mkModel 0x2700000027 (12182)%Z 0x0 0x18000000182;
  mkModel 0x2700000027 (-1)%Z 0x2b8db0002b8e3 0x2b8e30002b8ec;
  mkModel 0x2700000027 (-1)%Z 0x2b8ec0002b8f4 0x2b8f40002b8fd;
  mkModel 0x2700000027 (-1)%Z 0x2b8fd0002b905 0x2b9050002b90e;
  mkModel 0x2700000027 (-1)%Z 0x2b90e0002b916 0x2b9160002b91f;
  mkModel 0x2700000027 (-1)%Z 0x2b91f0002b927 0x2b9270002b930;
  mkModel 0x2700000027 (12183)%Z 0x0 0x18000000182;
  mkModel 0x2700000027 (12185)%Z 0x0 0x18000000182;
  mkModel 0x2700000027 (12186)%Z 0x0 0x10e9000010f6;
  mkModel 0x2700000027 (12188)%Z 0x0 0x18000000182;
  mkModel 0x2700000027 (12189)%Z 0x0 0x18000000182;
  mkModel 0x2700000027 (12190)%Z 0x0 0x18000000182;
  mkModel 0x2700000027 (12191)%Z 0x0 0x18000000182;
  mkModel 0x2700000027 (-1)%Z 0x2b9480002b950 0x2b9500002b959;
  mkModel 0x2700000027 (12193)%Z 0x0 0x18000000182;
  mkModel 0x2700000027 (12194)%Z 0x0 0x10e9000010f6;
  mkModel 0x2700000027 (-1)%Z 0x2b95d0002b964 0x2b95d0002b964;
  mkModel 0x2700000027 (12198)%Z 0x0 0x10e9000010f6;
  mkModel 0x2700000027 (12200)%Z 0x0 0x10e9000010f6;
  mkModel 0x2700000027 (-1)%Z 0x2b96e0002b978 0x2b96e0002b978;
  mkModel 0x2700000027 (-1)%Z 0x2b9780002b983 0x2b9780002b983;
  mkModel 0x2700000027 (-1)%Z 0x2b9830002b98e 0x2b9830002b98e;
  mkModel 0x2700000027 (-1)%Z 0x2b98e0002b999 0x2b98e0002b999;
  mkModel 0x2700000027 (-1)%Z 0x2b9990002b9a6 0x2b9990002b9a6;
  mkModel 0x2700000027 (-1)%Z 0x2b9a60002b9b1 0x2b9a60002b9b1;
  mkModel 0x2700000027 (12202)%Z 0x0 0x2b9b10002b9bc;
  mkModel 0x2700000027 (12203)%Z 0x0 0x18000000182;
  mkModel 0x2700000027 (12204)%Z 0x0 0x18000000182;
  mkModel 0x2700000027 (12205)%Z 0x0 0x18000000182;
  mkModel 0x2700000027 (12206)%Z 0x0 0x18000000182;
  mkModel 0x2700000027 (12207)%Z 0x0 0x18000000182;
  mkModel 0x2700000027 (12208)%Z 0x0 0x18000000182;
  mkModel 0x2700000027 (12209)%Z 0x0 0x18000000182;
  mkModel 0x2700000027 (12210)%Z 0x0 0x18000000182;
  mkModel 0x2700000027 (12211)%Z 0x0 0x18000000182;
  mkModel 0x2700000027 (12212)%Z 0x0 0x18000000182;
  mkModel 0x2700000027 (-1)%Z 0x2b9bc0002b9c1 0x2b9bc0002b9c1;
  mkModel 0x2700000027 (-1)%Z 0x2b9c10002b9c5 0x2b9c10002b9c5;
  mkModel 0x2700000027 (12214)%Z 0x0 0x10e9000010f6;
  mkModel 0x2700000027 (12216)%Z 0x0 0x10e9000010f6;
  mkModel 0x2700000027 (12218)%Z 0x0 0x10e9000010f6;
  mkModel 0x2700000027 (12220)%Z 0x0 0x10e9000010f6;
  mkModel 0x2700000027 (-1)%Z 0x2b8520002b85b 0x2b8520002b85b;
  mkModel 0x2700000027 (-1)%Z 0x2b8770002b881 0x2b8770002b881;
  mkModel 0x2700000027 (12222)%Z 0x0 0x18000000182;
  mkModel 0x2700000027 (12224)%Z 0x0 0x10e9000010f6;
  mkModel 0x2700000027 (12226)%Z 0x0 0x10e9000010f6;
  mkModel 0x2700000027 (12228)%Z 0x0 0x10e9000010f6;
  mkModel 0x2700000027 (12230)%Z 0x0 0x18000000182;
  mkModel 0x2700000027 (12232)%Z 0x0 0x2b9e00002b9e7;
  mkModel 0x2700000027 (12234)%Z 0x0 0x2b9e70002b9f5;
  mkModel 0x2700000027 (-1)%Z 0x260bf000260c1 0x260bf000260c1;
  mkModel 0x2700000027 (12235)%Z 0x0 0x2700000027;
  mkModel 0x2700000027 (12236)%Z 0x0 0x10e9000010f6;
  mkModel 0x2700000027 (12237)%Z 0x0 0x18000000182;
  mkModel 0x2700000027 (-1)%Z 0x2ba030002ba0e 0x2ba030002ba0e;
  mkModel 0x2700000027 (12239)%Z 0x0 0x10e9000010f6;
  mkModel 0x2700000027 (12241)%Z 0x0 0x10e9000010f6;
  mkModel 0x2700000027 (12243)%Z 0x0 0x10e9000010f6;
  mkModel 0x2700000027 (12245)%Z 0x0 0x10e9000010f6;
  mkModel 0x2700000027 (12247)%Z 0x0 0x10e9000010f6;
  mkModel 0x2700000027 (12249)%Z 0x0 0x10e9000010f6;
  mkModel 0x2700000027 (12251)%Z 0x0 0x10e9000010f6;
  mkModel 0x2700000027 (12254)%Z 0x0 0x18000000182;
  mkModel 0x2700000027 (12255)%Z 0x0 0x10e9000010f6;
  mkModel 0x2700000027 (12257)%Z 0x0 0x10e9000010f6;
  mkModel 0x2700000027 (12259)%Z 0x0 0x10e9000010f6;
  mkModel 0x2700000027 (12261)%Z 0x0 0x10e9000010f6;
  mkModel 0x2700000027 (12263)%Z 0x0 0x18000000182;
  mkModel 0x2700000027 (12265)%Z 0x0 0x10e9000010f6;
  mkModel 0x2700000027 (12266)%Z 0x0 0x18000000182;
  mkModel 0x0 (-1)%Z 0x0 0x18000000182;
  mkModel 0x2700000027 (12269)%Z 0x0 0x18000000182;
  mkModel 0x2700000027 (12271)%Z 0x0 0x18000000182;
  mkModel 0x2700000027 (12272)%Z 0x0 0x10e9000010f6;
  mkModel 0x2700000027 (12274)%Z 0x0 0x10e9000010f6;
  mkModel 0x2700000027 (-1)%Z 0x2ba3f0002ba4a 0x2ba3f0002ba4a;
  mkModel 0x2700000027 (12275)%Z 0x0 0x2ba4a0002ba54;
  mkModel 0x2700000027 (12276)%Z 0x0 0x18000000182;
  mkModel 0x2700000027 (12277)%Z 0x0 0x2ba540002ba5b;
  mkModel 0x2700000027 (12278)%Z 0x0 0x10e9000010f6;
  mkModel 0x2700000027 (12279)%Z 0x0 0x10e9000010f6;
  mkModel 0x2700000027 (12280)%Z 0x0 0x10e9000010f6;
  mkModel 0x2700000027 (12281)%Z 0x0 0x10e9000010f6;
  mkModel 0x2700000027 (12283)%Z 0x0 0x18000000182;
  mkModel 0x2700000027 (12284)%Z 0x0 0x199fa00019a06;
  mkModel 0x2700000027 (12287)%Z 0x0 0x10e9000010f6;
  mkModel 0x2700000027 (12289)%Z 0x0 0x18000000182;
  mkModel 0x2700000027 (12291)%Z 0x0 0x10e9000010f6;
  mkModel 0x2700000027 (12293)%Z 0x0 0x10e9000010f6;
  mkModel 0x2700000027 (12295)%Z 0x0 0x10e9000010f6;
  mkModel 0x2700000027 (12297)%Z 0x0 0x10e9000010f6;
  mkModel 0x2700000027 (12299)%Z 0x0 0x10e9000010f6;
  mkModel 0x2700000027 (12301)%Z 0x0 0x10e9000010f6;
  mkModel 0x2700000027 (12303)%Z 0x0 0x18000000182;
  mkModel 0x2700000027 (12305)%Z 0x0 0x10e9000010f6;
  mkModel 0x2700000027 (12307)%Z 0x0 0x10e9000010f6;
  mkModel 0x2700000027 (12309)%Z 0x0 0x22b1f00022b21;
  mkModel 0x2700000027 (12310)%Z 0x0 0x10e9000010f6;
  mkModel 0x2700000027 (-1)%Z 0x2ba880002ba92 0x2ba920002baa1;
  mkModel 0x2700000027 (12312)%Z 0x0 0x18000000182;
  mkModel 0x2700000027 (12313)%Z 0x0 0x18000000182;
  mkModel 0x2700000027 (12314)%Z 0x0 0x18000000182;
  mkModel 0x2700000027 (12316)%Z 0x0 0x2700000027;
  mkModel 0x2700000027 (12317)%Z 0x0 0x18000000182;
  mkModel 0x2700000027 (12318)%Z 0x0 0x18000000182;
  mkModel 0x2700000027 (12319)%Z 0x0 0x18000000182;
  mkModel 0x2700000027 (12320)%Z 0x0 0x2baab0002bab0;
  mkModel 0x2700000027 (-1)%Z 0x2bab00002bab6 0x2bab00002bab6;
  mkModel 0x2700000027 (-1)%Z 0x2bab60002baca 0x8ad700008ae4;
  mkModel 0x2700000027 (-1)%Z 0x2baca0002badc 0xbc5e0000bc68;
  mkModel 0x2700000027 (-1)%Z 0x2badc0002baed 0x2baed0002baf6;
  mkModel 0x2700000027 (12322)%Z 0x0 0x10e9000010f6;
  mkModel 0x2700000027 (12324)%Z 0x0 0x18000000182;
  mkModel 0x2700000027 (-1)%Z 0x2bb050002bb0e 0x2bb050002bb0e;
  mkModel 0x2700000027 (12326)%Z 0x0 0x18000000182;
  mkModel 0x2700000027 (12327)%Z 0x0 0x10e9000010f6;
  mkModel 0x2700000027 (12329)%Z 0x0 0x18000000182;
  mkModel 0x2700000027 (12330)%Z 0x0 0x18000000182;
  mkModel 0x2700000027 (12332)%Z 0x0 0x18000000182;
  mkModel 0x2700000027 (12334)%Z 0x0 0x18000000182;
  mkModel 0x2700000027 (12335)%Z 0x0 0x2bb230002bb2b;
  mkModel 0x2700000027 (12336)%Z 0x0 0x2bb2b0002bb34;
  mkModel 0x2700000027 (12337)%Z 0x0 0x18000000182;
  mkModel 0x2700000027 (12338)%Z 0x0 0x18000000182;
  mkModel 0x2700000027 (12339)%Z 0x0 0x18000000182;
  mkModel 0x2700000027 (12341)%Z 0x0 0x18000000182;
  mkModel 0x2700000027 (12344)%Z 0x0 0x18000000182;
  mkModel 0x2700000027 (12346)%Z 0x0 0x18000000182;
  mkModel 0x2700000027 (12347)%Z 0x0 0x18000000182;
  mkModel 0x2700000027 (12348)%Z 0x0 0x10e9000010f6
].
Definition d_dr_dm_80 : list modelTuple := [
  mkModel 0x2700000027 (12349)%Z 0x0 0xe3400000e3c;
  mkModel 0x2700000027 (12351)%Z 0x0 0x10e9000010f6;
  mkModel 0x2700000027 (12353)%Z 0x0 0x18000000182;
  mkModel 0x2700000027 (12355)%Z 0x0 0x18000000182;
  mkModel 0x2700000027 (12356)%Z 0x0 0x18000000182;
  mkModel 0x2700000027 (12357)%Z 0x0 0x18000000182;
  mkModel 0x2700000027 (-1)%Z 0x2bb530002bb5a 0x2bb530002bb5a;
  mkModel 0x2700000027 (-1)%Z 0x2bb5a0002bb61 0x2bb5a0002bb61;
  mkModel 0x2700000027 (12359)%Z 0x0 0x21c2f00021c3e;
  mkModel 0x2700000027 (12361)%Z 0x0 0x10e9000010f6;
  mkModel 0x2700000027 (-1)%Z 0x2bb660002bb71 0x2bb660002bb71;
  mkModel 0x2700000027 (12364)%Z 0x0 0x10e9000010f6;
  mkModel 0x2700000027 (12365)%Z 0x0 0x18000000182;
  mkModel 0x2700000027 (12366)%Z 0x0 0x10e9000010f6;
  mkModel 0x2700000027 (-1)%Z 0x2bb820002bb8c 0x2bb8c0002bb96;
  mkModel 0x2700000027 (12368)%Z 0x0 0x10e9000010f6;
  mkModel 0x2700000027 (12369)%Z 0x0 0x18000000182;
  mkModel 0x2700000027 (12371)%Z 0x0 0x10e9000010f6;
  mkModel 0x2700000027 (12373)%Z 0x0 0x2bba90002bbb0;
  mkModel 0x2700000027 (12374)%Z 0x0 0x10e9000010f6;
  mkModel 0x2700000027 (12376)%Z 0x0 0x2bbb00002bbb8;
  mkModel 0x2700000027 (12377)%Z 0x0 0x2bbb80002bbc0;
  mkModel 0x2700000027 (12378)%Z 0x0 0x2bbc00002bbc8;
  mkModel 0x2700000027 (12379)%Z 0x0 0x2bbc80002bbd0;
  mkModel 0x2700000027 (12380)%Z 0x0 0x2bbd00002bbd8;
  mkModel 0x2700000027 (12381)%Z 0x0 0x2bbd80002bbe0;
  mkModel 0x2700000027 (-1)%Z 0x2bbe00002bbe8 0x2bbe00002bbe8;
  mkModel 0x2700000027 (12383)%Z 0x0 0x10e9000010f6;
  mkModel 0x2700000027 (-1)%Z 0x2bbf00002bbf7 0x2bbf00002bbf7;
  mkModel 0x2700000027 (12385)%Z 0x0 0x18000000182;
  mkModel 0x2700000027 (12386)%Z 0x0 0x18000000182;
  mkModel 0x2700000027 (12387)%Z 0x0 0x10e9000010f6;
  mkModel 0x2700000027 (-1)%Z 0x2bc080002bc10 0x2bc080002bc10;
  mkModel 0x2700000027 (12390)%Z 0x0 0x10e9000010f6;
  mkModel 0x2700000027 (12392)%Z 0x0 0x10e9000010f6;
  mkModel 0x2700000027 (12394)%Z 0x0 0x18000000182;
  mkModel 0x2700000027 (12395)%Z 0x0 0x10e9000010f6;
  mkModel 0x2700000027 (12396)%Z 0x0 0x10e9000010f6;
  mkModel 0x2700000027 (12398)%Z 0x0 0x10e9000010f6;
  mkModel 0x2700000027 (12400)%Z 0x0 0x10e9000010f6;
  mkModel 0x2700000027 (12402)%Z 0x0 0x10e9000010f6;
  mkModel 0x2700000027 (12404)%Z 0x0 0x10e9000010f6;
  mkModel 0x2700000027 (12406)%Z 0x0 0x18000000182;
  mkModel 0x2700000027 (12407)%Z 0x0 0x2bc400002bc4b;
  mkModel 0x2700000027 (12409)%Z 0x0 0x10e9000010f6;
  mkModel 0x2700000027 (12411)%Z 0x0 0x10e9000010f6;
  mkModel 0x2700000027 (12413)%Z 0x0 0x10e9000010f6;
  mkModel 0x2700000027 (12415)%Z 0x0 0x10e9000010f6;
  mkModel 0x2700000027 (12417)%Z 0x0 0x10e9000010f6;
  mkModel 0x2700000027 (-1)%Z 0x2b8520002b85b 0x2b8520002b85b;
  mkModel 0x2700000027 (-1)%Z 0x2bc770002bc80 0x2bc770002bc80;
  mkModel 0x2700000027 (-1)%Z 0x2b8770002b881 0x2b8770002b881;
  mkModel 0x2700000027 (12420)%Z 0x0 0x18000000182;
  mkModel 0x2700000027 (12423)%Z 0x0 0x18000000182;
  mkModel 0x2700000027 (-1)%Z 0x2bc880002bc90 0x2bc900002bc9c;
  mkModel 0x2700000027 (12425)%Z 0x0 0x18000000182;
  mkModel 0x2700000027 (12427)%Z 0x0 0x18000000182;
  mkModel 0x2700000027 (12429)%Z 0x0 0x10e9000010f6;
  mkModel 0x2700000027 (12431)%Z 0x0 0x18000000182;
  mkModel 0x2700000027 (12433)%Z 0x0 0x10e9000010f6;
  mkModel 0x2700000027 (12435)%Z 0x0 0x10e9000010f6;
  mkModel 0x2700000027 (12437)%Z 0x0 0x18000000182
].
(** device_repo.go:2271-18334. *)
Definition d_dr_dm : list modelTuple :=
  concat [d_dr_dm_0; d_dr_dm_1; d_dr_dm_2; d_dr_dm_3; d_dr_dm_4; d_dr_dm_5; d_dr_dm_6; d_dr_dm_7; d_dr_dm_8; d_dr_dm_9; d_dr_dm_10; d_dr_dm_11; d_dr_dm_12; d_dr_dm_13; d_dr_dm_14; d_dr_dm_15; d_dr_dm_16; d_dr_dm_17; d_dr_dm_18; d_dr_dm_19; d_dr_dm_20; d_dr_dm_21; d_dr_dm_22; d_dr_dm_23; d_dr_dm_24; d_dr_dm_25; d_dr_dm_26; d_dr_dm_27; d_dr_dm_28; d_dr_dm_29; d_dr_dm_30; d_dr_dm_31; d_dr_dm_32; d_dr_dm_33; d_dr_dm_34; d_dr_dm_35; d_dr_dm_36; d_dr_dm_37; d_dr_dm_38; d_dr_dm_39; d_dr_dm_40; d_dr_dm_41; d_dr_dm_42; d_dr_dm_43; d_dr_dm_44; d_dr_dm_45; d_dr_dm_46; d_dr_dm_47; d_dr_dm_48; d_dr_dm_49; d_dr_dm_50; d_dr_dm_51; d_dr_dm_52; d_dr_dm_53; d_dr_dm_54; d_dr_dm_55; d_dr_dm_56; d_dr_dm_57; d_dr_dm_58; d_dr_dm_59; d_dr_dm_60; d_dr_dm_61; d_dr_dm_62; d_dr_dm_63; d_dr_dm_64; d_dr_dm_65; d_dr_dm_66; d_dr_dm_67; d_dr_dm_68; d_dr_dm_69; d_dr_dm_70; d_dr_dm_71; d_dr_dm_72; d_dr_dm_73; d_dr_dm_74; d_dr_dm_75; d_dr_dm_76; d_dr_dm_77; d_dr_dm_78; d_dr_dm_79; d_dr_dm_80].

