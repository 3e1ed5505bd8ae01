(** The client tables.  Written by tools/gen_tables.py from the sources; do not edit. *)
From Verif Require Import Model_Base Model_Blob Model_Ctx.
Open Scope N_scope.
Open Scope blob_scope.

Definition d_cr_idx0_0 : list clientTuple := [
  mkClient (-1)%Z 0x8 0x8 0x0 (-1)%Z 0x0 (-1)%Z 0x0 0x0;
  mkClient (-1)%Z 0x80000000d 0xd00000011 0x0 (-1)%Z 0x0 (-1)%Z 0x0 0x0;
  mkClient (-1)%Z 0x1100000018 0x1100000018 0x0 (-1)%Z 0x0 (-1)%Z 0x0 0x0;
  mkClient (0)%Z 0x0 0x180000001d 0x0 (-1)%Z 0x0 (-1)%Z 0x0 0x0;
  mkClient (1)%Z 0x0 0x1d00000023 0x0 (-1)%Z 0x0 (-1)%Z 0x0 0x0;
  mkClient (-1)%Z 0x2300000029 0x2300000029 0x0 (-1)%Z 0x0 (-1)%Z 0x0 0x0;
  mkClient (-1)%Z 0x290000002f 0x290000002f 0x0 (-1)%Z 0x0 (-1)%Z 0x0 0x0;
  mkClient (2)%Z 0x0 0x2f00000035 0x0 (-1)%Z 0x0 (-1)%Z 0x0 0x0;
  mkClient (3)%Z 0x0 0x350000003a 0x0 (-1)%Z 0x0 (-1)%Z 0x0 0x0;
  mkClient (-1)%Z 0x3a0000003f 0x3a0000003f 0x0 (-1)%Z 0x0 (-1)%Z 0x0 0x0;
  mkClient (-1)%Z 0x3f00000046 0x3f00000046 0x0 (-1)%Z 0x0 (-1)%Z 0x0 0x0;
  mkClient (-1)%Z 0x460000004b 0x460000004b 0x0 (-1)%Z 0x0 (-1)%Z 0x0 0x0;
  mkClient (4)%Z 0x0 0x4b00000054 0x0 (-1)%Z 0x0 (-1)%Z 0x0 0x0;
  mkClient (-1)%Z 0x5400000062 0x6200000069 0x0 (-1)%Z 0x0 (-1)%Z 0x0 0x0;
  mkClient (5)%Z 0x0 0x690000006f 0x0 (-1)%Z 0x0 (-1)%Z 0x0 0x0;
  mkClient (-1)%Z 0x6f00000076 0x760000007c 0x0 (-1)%Z 0x0 (-1)%Z 0x0 0x0;
  mkClient (6)%Z 0x0 0x7c00000081 0x0 (-1)%Z 0x0 (-1)%Z 0x0 0x0
].
(** client_repo.go:11-1499, class 0. *)
Definition d_cr_idx0 : list clientTuple :=
  concat [d_cr_idx0_0].

Definition d_cr_idx1_0 : list clientTuple := [
  mkClient (7)%Z 0x0 0x8100000091 0x0 (1)%Z 0x0 (-1)%Z 0x0 0x0;
  mkClient (8)%Z 0x0 0x9100000097 0x0 (-1)%Z 0x0 (-1)%Z 0x0 0x0;
  mkClient (9)%Z 0x0 0x97000000a3 0x0 (1)%Z 0x0 (-1)%Z 0x0 0x0;
  mkClient (10)%Z 0x0 0xa3000000a9 0x0 (1)%Z 0x0 (-1)%Z 0x0 0x0;
  mkClient (11)%Z 0x0 0xa9000000b6 0x0 (1)%Z 0x0 (-1)%Z 0x0 0x0;
  mkClient (12)%Z 0x0 0xb6000000bd 0x0 (1)%Z 0x180000001d (-1)%Z 0x0 0x0;
  mkClient (13)%Z 0x0 0xbd000000c8 0x0 (1)%Z 0x1d00000023 (-1)%Z 0x0 0x0;
  mkClient (14)%Z 0x0 0x7c00000081 0x0 (1)%Z 0x7c00000081 (-1)%Z 0x0 0x0;
  mkClient (15)%Z 0x0 0xc8000000d1 0x0 (1)%Z 0x180000001d (-1)%Z 0x0 0x0;
  mkClient (-1)%Z 0xd1000000df 0xdf000000ef 0x0 (-1)%Z 0x0 (-1)%Z 0x0 0x0;
  mkClient (-1)%Z 0xef000000f8 0xf800000102 0x0 (-1)%Z 0x0 (-1)%Z 0x0 0x0;
  mkClient (-1)%Z 0x1020000010f 0x10f00000117 0x0 (-1)%Z 0x180000001d (-1)%Z 0x0 0x0;
  mkClient (-1)%Z 0x1170000011f 0x1170000011f 0x0 (-1)%Z 0x0 (-1)%Z 0x0 0x0;
  mkClient (-1)%Z 0x11f0000012d 0x12d0000013c 0x0 (-1)%Z 0x180000001d (-1)%Z 0x0 0x0;
  mkClient (16)%Z 0x0 0x13c00000140 0x0 (1)%Z 0x0 (-1)%Z 0x0 0x0;
  mkClient (17)%Z 0x0 0x14000000145 0x0 (1)%Z 0x0 (-1)%Z 0x0 0x0;
  mkClient (18)%Z 0x0 0x14500000150 0x0 (1)%Z 0x0 (-1)%Z 0x0 0x0;
  mkClient (19)%Z 0x0 0x15000000165 0x0 (1)%Z 0x0 (-1)%Z 0x0 0x0;
  mkClient (20)%Z 0x0 0x1650000016a 0x0 (1)%Z 0x0 (-1)%Z 0x0 0x0;
  mkClient (21)%Z 0x0 0x16a00000171 0x0 (1)%Z 0x1d00000023 (-1)%Z 0x0 0x0;
  mkClient (22)%Z 0x0 0x17100000175 0x0 (1)%Z 0x0 (-1)%Z 0x0 0x0;
  mkClient (23)%Z 0x0 0x1750000017e 0x0 (-1)%Z 0x0 (-1)%Z 0x0 0x0;
  mkClient (24)%Z 0x0 0x17e00000183 0x0 (1)%Z 0x1d00000023 (-1)%Z 0x0 0x0;
  mkClient (25)%Z 0x0 0x18300000191 0x0 (1)%Z 0x0 (-1)%Z 0x0 0x0;
  mkClient (26)%Z 0x0 0x191000001aa 0x0 (1)%Z 0x0 (-1)%Z 0x0 0x0;
  mkClient (27)%Z 0x0 0x1aa000001b6 0x0 (1)%Z 0x0 (-1)%Z 0x0 0x0;
  mkClient (28)%Z 0x0 0x1b6000001bb 0x0 (1)%Z 0x350000003a (-1)%Z 0x0 0x0;
  mkClient (29)%Z 0x0 0x1bb000001c4 0x0 (1)%Z 0x1d00000023 (-1)%Z 0x0 0x0;
  mkClient (30)%Z 0x0 0x1c4000001ca 0x0 (1)%Z 0x0 (-1)%Z 0x0 0x0;
  mkClient (31)%Z 0x0 0x1ca000001d5 0x0 (1)%Z 0x350000003a (-1)%Z 0x0 0x0;
  mkClient (32)%Z 0x0 0x1d5000001e3 0x0 (1)%Z 0x0 (-1)%Z 0x0 0x0;
  mkClient (33)%Z 0x0 0x1e3000001e6 0x0 (1)%Z 0x0 (-1)%Z 0x0 0x0;
  mkClient (34)%Z 0x0 0x1e6000001f5 0x0 (1)%Z 0x350000003a (-1)%Z 0x0 0x0;
  mkClient (35)%Z 0x0 0x1f500000201 0x0 (1)%Z 0x1d00000023 (-1)%Z 0x0 0x0;
  mkClient (36)%Z 0x0 0x6200000069 0x0 (1)%Z 0x0 (-1)%Z 0x0 0x0;
  mkClient (37)%Z 0x0 0x20100000217 0x0 (1)%Z 0x0 (-1)%Z 0x0 0x0;
  mkClient (38)%Z 0x0 0x2170000021f 0x0 (1)%Z 0x690000006f (-1)%Z 0x0 0x0;
  mkClient (39)%Z 0x0 0x21f00000223 0x0 (1)%Z 0x0 (-1)%Z 0x0 0x0;
  mkClient (-1)%Z 0x22300000232 0x2320000023c 0x0 (-1)%Z 0x0 (-1)%Z 0x0 0x0;
  mkClient (40)%Z 0x0 0x23c00000243 0x0 (1)%Z 0x0 (-1)%Z 0x0 0x0;
  mkClient (41)%Z 0x0 0x2430000024d 0x0 (1)%Z 0x0 (-1)%Z 0x0 0x0;
  mkClient (42)%Z 0x0 0x24d00000257 0x0 (1)%Z 0x0 (-1)%Z 0x0 0x0;
  mkClient (-1)%Z 0x25700000267 0x26700000272 0x0 (-1)%Z 0x0 (-1)%Z 0x0 0x0;
  mkClient (43)%Z 0x0 0x2720000027b 0x0 (1)%Z 0x0 (-1)%Z 0x0 0x0;
  mkClient (-1)%Z 0x27b00000280 0x27b00000280 0x0 (-1)%Z 0x0 (-1)%Z 0x0 0x0;
  mkClient (44)%Z 0x0 0x28000000283 0x0 (1)%Z 0x2830000028d (-1)%Z 0x0 0x0;
  mkClient (-1)%Z 0x28d00000297 0x297000002a0 0x0 (1)%Z 0x2f00000035 (-1)%Z 0x0 0x0;
  mkClient (45)%Z 0x0 0x2a0000002ac 0x0 (1)%Z 0x350000003a (-1)%Z 0x0 0x0;
  mkClient (46)%Z 0x0 0x2ac000002b4 0x0 (1)%Z 0x350000003a (-1)%Z 0x0 0x0;
  mkClient (47)%Z 0x0 0x2b4000002b8 0x0 (1)%Z 0x0 (-1)%Z 0x0 0x0;
  mkClient (48)%Z 0x0 0x2b8000002c4 0x0 (1)%Z 0x0 (-1)%Z 0x0 0x0;
  mkClient (49)%Z 0x0 0x2c4000002d4 0x0 (1)%Z 0x0 (-1)%Z 0x0 0x0;
  mkClient (-1)%Z 0x2d4000002e0 0x2d4000002e0 0x0 (-1)%Z 0x1100000018 (-1)%Z 0x0 0x0;
  mkClient (50)%Z 0x0 0x2e0000002e7 0x0 (1)%Z 0x0 (-1)%Z 0x0 0x0;
  mkClient (51)%Z 0x0 0x2e7000002f4 0x0 (1)%Z 0x0 (-1)%Z 0x0 0x0;
  mkClient (52)%Z 0x0 0x2f400000300 0x0 (1)%Z 0x0 (-1)%Z 0x0 0x0;
  mkClient (53)%Z 0x0 0x30000000304 0x0 (1)%Z 0x0 (-1)%Z 0x0 0x0;
  mkClient (54)%Z 0x0 0x3040000030f 0x0 (1)%Z 0x0 (-1)%Z 0x0 0x0;
  mkClient (55)%Z 0x0 0x30f0000031c 0x0 (1)%Z 0x0 (-1)%Z 0x0 0x0;
  mkClient (-1)%Z 0x31c00000328 0x31c00000328 0x0 (-1)%Z 0x1100000018 (-1)%Z 0x0 0x0;
  mkClient (56)%Z 0x0 0x3280000032d 0x0 (1)%Z 0x0 (-1)%Z 0x0 0x0;
  mkClient (57)%Z 0x0 0x32d0000033a 0x0 (1)%Z 0x0 (-1)%Z 0x0 0x0;
  mkClient (58)%Z 0x0 0x33a0000034e 0x0 (1)%Z 0x0 (-1)%Z 0x0 0x0;
  mkClient (59)%Z 0x0 0x34e0000035b 0x0 (-1)%Z 0x0 (-1)%Z 0x0 0x0;
  mkClient (60)%Z 0x0 0x35b00000369 0x0 (1)%Z 0x0 (-1)%Z 0x0 0x0;
  mkClient (61)%Z 0x0 0x3690000036f 0x0 (1)%Z 0x0 (-1)%Z 0x0 0x0;
  mkClient (62)%Z 0x0 0x36f00000384 0x0 (1)%Z 0x0 (-1)%Z 0x0 0x0;
  mkClient (63)%Z 0x0 0x38400000391 0x0 (1)%Z 0x0 (-1)%Z 0x0 0x0;
  mkClient (64)%Z 0x0 0x391000003a4 0x0 (1)%Z 0x0 (-1)%Z 0x0 0x0;
  mkClient (65)%Z 0x0 0x3a4000003a8 0x0 (1)%Z 0x1d00000023 (-1)%Z 0x0 0x0;
  mkClient (66)%Z 0x0 0x3a8000003af 0x0 (-1)%Z 0x0 (-1)%Z 0x0 0x0;
  mkClient (67)%Z 0x0 0x3af000003b3 0x0 (1)%Z 0x0 (-1)%Z 0x0 0x0;
  mkClient (68)%Z 0x0 0x3b3000003c9 0x0 (1)%Z 0x0 (-1)%Z 0x0 0x0;
  mkClient (69)%Z 0x0 0x3c9000003ce 0x0 (1)%Z 0x0 (-1)%Z 0x0 0x0;
  mkClient (-1)%Z 0x3ce000003d9 0x3d9000003e5 0x0 (-1)%Z 0x0 (-1)%Z 0x0 0x0;
  mkClient (70)%Z 0x0 0x3e5000003ee 0x0 (1)%Z 0x0 (-1)%Z 0x0 0x0;
  mkClient (71)%Z 0x0 0x3ee000003f4 0x0 (1)%Z 0x0 (-1)%Z 0x0 0x0;
  mkClient (72)%Z 0x0 0x3f4000003fc 0x0 (1)%Z 0x0 (-1)%Z 0x0 0x0;
  mkClient (73)%Z 0x0 0x3fc0000040e 0x0 (1)%Z 0x350000003a (-1)%Z 0x0 0x0;
  mkClient (74)%Z 0x0 0x40e0000041d 0x0 (1)%Z 0x0 (-1)%Z 0x0 0x0;
  mkClient (75)%Z 0x0 0x41d0000042f 0x0 (1)%Z 0x0 (-1)%Z 0x0 0x0;
  mkClient (76)%Z 0x0 0x42f00000437 0x0 (1)%Z 0x0 (-1)%Z 0x0 0x0;
  mkClient (77)%Z 0x0 0x43700000444 0x0 (-1)%Z 0x0 (-1)%Z 0x0 0x0;
  mkClient (78)%Z 0x0 0x4440000044b 0x0 (1)%Z 0x0 (-1)%Z 0x0 0x0;
  mkClient (79)%Z 0x0 0x44b00000456 0x0 (1)%Z 0x180000001d (-1)%Z 0x0 0x0;
  mkClient (80)%Z 0x0 0x45600000467 0x0 (1)%Z 0x0 (-1)%Z 0x0 0x0;
  mkClient (81)%Z 0x0 0x46700000476 0x0 (1)%Z 0x0 (-1)%Z 0x0 0x0;
  mkClient (82)%Z 0x0 0x4760000047a 0x0 (1)%Z 0x180000001d (-1)%Z 0x0 0x0;
  mkClient (83)%Z 0x0 0x47a00000484 0x0 (-1)%Z 0x180000001d (-1)%Z 0x0 0x0;
  mkClient (84)%Z 0x0 0x4840000048b 0x0 (-1)%Z 0x180000001d (-1)%Z 0x0 0x0;
  mkClient (85)%Z 0x0 0x48b00000495 0x0 (-1)%Z 0x180000001d (-1)%Z 0x0 0x0;
  mkClient (86)%Z 0x0 0x495000004a2 0x0 (-1)%Z 0x180000001d (-1)%Z 0x0 0x0;
  mkClient (87)%Z 0x0 0x4a2000004af 0x0 (-1)%Z 0x1d00000023 (-1)%Z 0x0 0x0;
  mkClient (-1)%Z 0x4af000004b4 0x4b4000004b8 0x0 (-1)%Z 0x0 (-1)%Z 0x0 0x0;
  mkClient (88)%Z 0x0 0x4b8000004bd 0x0 (1)%Z 0x0 (-1)%Z 0x0 0x0;
  mkClient (89)%Z 0x0 0x4bd000004c3 0x0 (1)%Z 0x0 (-1)%Z 0x0 0x0;
  mkClient (90)%Z 0x0 0x4c3000004d9 0x0 (1)%Z 0x180000001d (-1)%Z 0x0 0x0;
  mkClient (91)%Z 0x0 0x4d9000004e3 0x0 (1)%Z 0x1d00000023 (-1)%Z 0x0 0x0;
  mkClient (92)%Z 0x0 0x4e3000004ee 0x0 (1)%Z 0x1d00000023 (-1)%Z 0x0 0x0;
  mkClient (93)%Z 0x0 0x4ee000004fa 0x0 (1)%Z 0x180000001d (-1)%Z 0x0 0x0;
  mkClient (94)%Z 0x0 0x4fa00000506 0x0 (1)%Z 0x180000001d (-1)%Z 0x0 0x0;
  mkClient (95)%Z 0x0 0x5060000050a 0x0 (1)%Z 0x180000001d (-1)%Z 0x0 0x0;
  mkClient (96)%Z 0x0 0x50a00000520 0x0 (1)%Z 0x180000001d (-1)%Z 0x0 0x0;
  mkClient (97)%Z 0x0 0x5200000052b 0x0 (1)%Z 0x180000001d (-1)%Z 0x0 0x0;
  mkClient (98)%Z 0x0 0x52b00000536 0x0 (-1)%Z 0x180000001d (-1)%Z 0x0 0x0;
  mkClient (99)%Z 0x0 0x5360000053a 0x0 (1)%Z 0x180000001d (-1)%Z 0x0 0x0;
  mkClient (-1)%Z 0x53a00000548 0x54800000557 0x0 (-1)%Z 0x0 (-1)%Z 0x0 0x0;
  mkClient (100)%Z 0x0 0x55700000567 0x0 (1)%Z 0x0 (-1)%Z 0x0 0x0;
  mkClient (101)%Z 0x0 0x56700000573 0x0 (2)%Z 0x180000001d (-1)%Z 0x0 0x0;
  mkClient (-1)%Z 0x57300000579 0x5790000057f 0x0 (-1)%Z 0x180000001d (-1)%Z 0x0 0x0;
  mkClient (102)%Z 0x0 0x57f00000588 0x0 (2)%Z 0x180000001d (-1)%Z 0x0 0x0;
  mkClient (103)%Z 0x0 0x58800000595 0x0 (1)%Z 0x180000001d (-1)%Z 0x0 0x0;
  mkClient (104)%Z 0x0 0x595000005a3 0x0 (1)%Z 0x1d00000023 (0)%Z 0x0 0x0;
  mkClient (105)%Z 0x0 0x595000005a3 0x0 (-1)%Z 0x1d00000023 (-1)%Z 0x0 0x0;
  mkClient (106)%Z 0x0 0x5a3000005a7 0x0 (1)%Z 0x180000001d (-1)%Z 0x0 0x0;
  mkClient (107)%Z 0x0 0x5a3000005a7 0x0 (-1)%Z 0x1d00000023 (-1)%Z 0x0 0x0;
  mkClient (108)%Z 0x0 0x5a7000005b3 0x0 (1)%Z 0x180000001d (-1)%Z 0x0 0x0;
  mkClient (109)%Z 0x0 0x5b3000005b9 0x0 (1)%Z 0x350000003a (-1)%Z 0x0 0x0;
  mkClient (110)%Z 0x0 0x5b9000005c5 0x0 (1)%Z 0x180000001d (-1)%Z 0x0 0x0;
  mkClient (-1)%Z 0x5c5000005cc 0x5c5000005cc 0x0 (-1)%Z 0x180000001d (-1)%Z 0x0 0x0;
  mkClient (-1)%Z 0x5cc000005df 0x5df000005e6 0x0 (-1)%Z 0x180000001d (-1)%Z 0x0 0x0;
  mkClient (-1)%Z 0x5e6000005f5 0x5df000005e6 0x0 (-1)%Z 0x1d00000023 (-1)%Z 0x0 0x0;
  mkClient (111)%Z 0x0 0x5f500000604 0x0 (1)%Z 0x180000001d (-1)%Z 0x0 0x0;
  mkClient (112)%Z 0x0 0x6040000060e 0x0 (-1)%Z 0x0 (-1)%Z 0x0 0x0;
  mkClient (113)%Z 0x0 0x60e00000618 0x0 (1)%Z 0x180000001d (-1)%Z 0x0 0x0;
  mkClient (114)%Z 0x0 0x61800000621 0x0 (1)%Z 0x0 (-1)%Z 0x0 0x0;
  mkClient (115)%Z 0x0 0x6210000062a 0x0 (1)%Z 0x180000001d (-1)%Z 0x0 0x0;
  mkClient (116)%Z 0x0 0x6210000062a 0x0 (1)%Z 0x0 (-1)%Z 0x0 0x0;
  mkClient (117)%Z 0x0 0x62a0000063f 0x0 (1)%Z 0x0 (-1)%Z 0x0 0x0;
  mkClient (118)%Z 0x0 0x63f00000648 0x0 (1)%Z 0x180000001d (-1)%Z 0x0 0x0;
  mkClient (119)%Z 0x0 0x6480000065e 0x0 (1)%Z 0x180000001d (-1)%Z 0x0 0x0;
  mkClient (120)%Z 0x0 0x65e0000066a 0x0 (1)%Z 0x180000001d (-1)%Z 0x0 0x0;
  mkClient (121)%Z 0x0 0x66a00000677 0x0 (1)%Z 0x180000001d (-1)%Z 0x0 0x0;
  mkClient (122)%Z 0x0 0x67700000685 0x0 (1)%Z 0x180000001d (-1)%Z 0x0 0x0;
  mkClient (123)%Z 0x0 0x6850000068f 0x0 (1)%Z 0x180000001d (-1)%Z 0x0 0x0;
  mkClient (124)%Z 0x0 0x68f0000069e 0x0 (1)%Z 0x180000001d (-1)%Z 0x0 0x0;
  mkClient (125)%Z 0x0 0x69e000006b0 0x0 (1)%Z 0x180000001d (-1)%Z 0x0 0x0;
  mkClient (126)%Z 0x0 0x6b0000006be 0x0 (1)%Z 0x180000001d (-1)%Z 0x0 0x0;
  mkClient (127)%Z 0x0 0x6be000006c4 0x0 (1)%Z 0x180000001d (-1)%Z 0x0 0x0;
  mkClient (128)%Z 0x0 0x6c4000006d3 0x0 (1)%Z 0x180000001d (-1)%Z 0x0 0x0;
  mkClient (129)%Z 0x0 0x6d3000006e0 0x0 (1)%Z 0x180000001d (-1)%Z 0x0 0x0;
  mkClient (130)%Z 0x0 0x6e0000006ee 0x0 (1)%Z 0x180000001d (-1)%Z 0x0 0x0;
  mkClient (131)%Z 0x0 0x6ee000006f3 0x0 (1)%Z 0x180000001d (-1)%Z 0x0 0x0;
  mkClient (132)%Z 0x0 0x6f3000006ff 0x0 (1)%Z 0x180000001d (-1)%Z 0x0 0x0;
  mkClient (133)%Z 0x0 0x6ff00000707 0x0 (1)%Z 0x180000001d (-1)%Z 0x0 0x0;
  mkClient (134)%Z 0x0 0x70700000710 0x0 (1)%Z 0x180000001d (-1)%Z 0x0 0x0;
  mkClient (135)%Z 0x0 0x71000000715 0x0 (1)%Z 0x180000001d (-1)%Z 0x0 0x0;
  mkClient (136)%Z 0x0 0x71500000721 0x0 (1)%Z 0x180000001d (-1)%Z 0x0 0x0;
  mkClient (137)%Z 0x0 0x72100000727 0x0 (1)%Z 0x350000003a (-1)%Z 0x0 0x0;
  mkClient (138)%Z 0x0 0x72700000730 0x0 (1)%Z 0x180000001d (-1)%Z 0x0 0x0;
  mkClient (139)%Z 0x0 0x73000000736 0x0 (1)%Z 0x1d00000023 (-1)%Z 0x0 0x0;
  mkClient (140)%Z 0x0 0x7360000073c 0x0 (1)%Z 0x180000001d (-1)%Z 0x0 0x0;
  mkClient (141)%Z 0x0 0x73c00000749 0x0 (1)%Z 0x1d00000023 (1)%Z 0x0 0x0;
  mkClient (142)%Z 0x0 0x74900000750 0x0 (1)%Z 0x180000001d (-1)%Z 0x0 0x0;
  mkClient (143)%Z 0x0 0x7500000075a 0x0 (1)%Z 0x180000001d (-1)%Z 0x0 0x0;
  mkClient (144)%Z 0x0 0x75a00000760 0x0 (1)%Z 0x350000003a (-1)%Z 0x0 0x0;
  mkClient (145)%Z 0x0 0x7600000076b 0x0 (1)%Z 0x180000001d (-1)%Z 0x0 0x0;
  mkClient (146)%Z 0x0 0x76b00000776 0x0 (1)%Z 0x180000001d (-1)%Z 0x0 0x0;
  mkClient (147)%Z 0x0 0x77600000786 0x0 (1)%Z 0x180000001d (-1)%Z 0x0 0x0;
  mkClient (148)%Z 0x0 0x78600000790 0x0 (1)%Z 0x0 (-1)%Z 0x0 0x0;
  mkClient (149)%Z 0x0 0x79000000797 0x0 (1)%Z 0x0 (-1)%Z 0x0 0x0;
  mkClient (150)%Z 0x0 0x797000007a1 0x0 (1)%Z 0x180000001d (-1)%Z 0x0 0x0;
  mkClient (151)%Z 0x0 0x7a1000007ac 0x0 (1)%Z 0x180000001d (-1)%Z 0x0 0x0;
  mkClient (152)%Z 0x0 0x7a1000007ac 0x0 (1)%Z 0x0 (-1)%Z 0x0 0x0;
  mkClient (153)%Z 0x0 0x7ac000007b1 0x0 (1)%Z 0x180000001d (-1)%Z 0x0 0x0;
  mkClient (154)%Z 0x0 0x7b1000007bc 0x0 (1)%Z 0x350000003a (-1)%Z 0x0 0x0;
  mkClient (155)%Z 0x0 0x7bc000007c5 0x0 (1)%Z 0x180000001d (-1)%Z 0x0 0x0;
  mkClient (156)%Z 0x0 0x7bc000007c5 0x0 (1)%Z 0x0 (-1)%Z 0x0 0x0;
  mkClient (157)%Z 0x0 0x7c5000007d6 0x0 (1)%Z 0x180000001d (-1)%Z 0x0 0x0;
  mkClient (158)%Z 0x0 0x7d6000007ea 0x0 (1)%Z 0x180000001d (-1)%Z 0x0 0x0;
  mkClient (159)%Z 0x0 0x7ea000007f7 0x0 (1)%Z 0x180000001d (-1)%Z 0x0 0x0;
  mkClient (160)%Z 0x0 0x7f700000804 0x0 (1)%Z 0x180000001d (-1)%Z 0x0 0x0;
  mkClient (161)%Z 0x0 0x7f700000804 0x0 (1)%Z 0x0 (-1)%Z 0x0 0x0;
  mkClient (162)%Z 0x0 0x80400000809 0x0 (1)%Z 0x180000001d (-1)%Z 0x0 0x0;
  mkClient (163)%Z 0x0 0x80400000809 0x0 (1)%Z 0x0 (-1)%Z 0x0 0x0;
  mkClient (164)%Z 0x0 0x80900000817 0x0 (1)%Z 0x180000001d (-1)%Z 0x0 0x0;
  mkClient (165)%Z 0x0 0x81700000820 0x0 (1)%Z 0x180000001d (-1)%Z 0x0 0x0;
  mkClient (166)%Z 0x0 0x82000000824 0x0 (1)%Z 0x0 (-1)%Z 0x0 0x0;
  mkClient (167)%Z 0x0 0x82400000830 0x0 (-1)%Z 0x180000001d (-1)%Z 0x0 0x0;
  mkClient (168)%Z 0x0 0x83000000834 0x0 (1)%Z 0x4b00000054 (-1)%Z 0x0 0x0;
  mkClient (169)%Z 0x0 0x83000000834 0x0 (1)%Z 0x4b00000054 (-1)%Z 0x0 0x0;
  mkClient (170)%Z 0x0 0x8340000083a 0x0 (1)%Z 0x1d00000023 (-1)%Z 0x0 0x0;
  mkClient (171)%Z 0x0 0x83a00000840 0x0 (1)%Z 0x0 (-1)%Z 0x0 0x0;
  mkClient (172)%Z 0x0 0x8400000084f 0x0 (1)%Z 0x1d00000023 (-1)%Z 0x0 0x0;
  mkClient (173)%Z 0x0 0x84f0000085e 0x0 (1)%Z 0x0 (-1)%Z 0x0 0x0;
  mkClient (174)%Z 0x0 0x85e00000862 0x0 (1)%Z 0x0 (-1)%Z 0x0 0x0;
  mkClient (175)%Z 0x0 0x86200000869 0x0 (1)%Z 0x1d00000023 (-1)%Z 0x0 0x0;
  mkClient (176)%Z 0x0 0x86900000879 0x0 (1)%Z 0x0 (-1)%Z 0x0 0x0;
  mkClient (177)%Z 0x0 0x87900000881 0x0 (1)%Z 0x180000001d (-1)%Z 0x0 0x0;
  mkClient (178)%Z 0x0 0x88100000885 0x0 (1)%Z 0x180000001d (-1)%Z 0x0 0x0;
  mkClient (179)%Z 0x0 0x8850000088e 0x0 (1)%Z 0x180000001d (-1)%Z 0x0 0x0;
  mkClient (180)%Z 0x0 0x6040000060e 0x0 (1)%Z 0x180000001d (-1)%Z 0x0 0x0;
  mkClient (181)%Z 0x0 0x88e0000089e 0x0 (1)%Z 0x180000001d (-1)%Z 0x0 0x0;
  mkClient (182)%Z 0x0 0x89e000008a3 0x0 (1)%Z 0x180000001d (-1)%Z 0x0 0x0;
  mkClient (183)%Z 0x0 0x89e000008a3 0x0 (1)%Z 0x0 (-1)%Z 0x0 0x0;
  mkClient (184)%Z 0x0 0x8a3000008b1 0x0 (1)%Z 0x0 (-1)%Z 0x0 0x0;
  mkClient (185)%Z 0x0 0x8b1000008be 0x0 (1)%Z 0x180000001d (-1)%Z 0x0 0x0;
  mkClient (186)%Z 0x0 0x8be000008cb 0x0 (1)%Z 0x180000001d (-1)%Z 0x0 0x0;
  mkClient (187)%Z 0x0 0x8cb000008d7 0x0 (1)%Z 0x0 (-1)%Z 0x0 0x0;
  mkClient (188)%Z 0x0 0x8d7000008e1 0x0 (1)%Z 0x180000001d (-1)%Z 0x0 0x0
].
Definition d_cr_idx1_1 : list clientTuple := [
  mkClient (189)%Z 0x0 0x8e1000008ea 0x0 (1)%Z 0x180000001d (-1)%Z 0x0 0x0;
  mkClient (190)%Z 0x0 0x8ea000008fe 0x0 (1)%Z 0x180000001d (-1)%Z 0x0 0x0;
  mkClient (191)%Z 0x0 0x8ea000008fe 0x0 (1)%Z 0x0 (-1)%Z 0x0 0x0;
  mkClient (-1)%Z 0x8fe00000905 0x8fe00000905 0x0 (-1)%Z 0x0 (-1)%Z 0x0 0x0;
  mkClient (192)%Z 0x0 0x9050000090c 0x0 (1)%Z 0x180000001d (-1)%Z 0x0 0x0;
  mkClient (193)%Z 0x0 0x90c00000917 0x0 (1)%Z 0x180000001d (-1)%Z 0x0 0x0;
  mkClient (194)%Z 0x0 0x91700000929 0x0 (1)%Z 0x0 (-1)%Z 0x0 0x0;
  mkClient (195)%Z 0x0 0x92900000935 0x0 (1)%Z 0x180000001d (-1)%Z 0x0 0x0;
  mkClient (196)%Z 0x0 0x93500000944 0x0 (1)%Z 0x0 (-1)%Z 0x0 0x0;
  mkClient (197)%Z 0x0 0x9440000094f 0x0 (1)%Z 0x0 (-1)%Z 0x0 0x0;
  mkClient (198)%Z 0x0 0x94f00000967 0x0 (1)%Z 0x0 (-1)%Z 0x0 0x0;
  mkClient (-1)%Z 0x9670000096c 0x9670000096c 0x0 (-1)%Z 0x0 (-1)%Z 0x0 0x0;
  mkClient (199)%Z 0x0 0x96c00000979 0x0 (1)%Z 0x350000003a (-1)%Z 0x0 0x0;
  mkClient (200)%Z 0x0 0x96c00000979 0x0 (1)%Z 0x0 (-1)%Z 0x0 0x0;
  mkClient (201)%Z 0x0 0x9790000098a 0x0 (1)%Z 0x0 (-1)%Z 0x0 0x0;
  mkClient (202)%Z 0x0 0x98a00000991 0x0 (1)%Z 0x0 (-1)%Z 0x0 0x0;
  mkClient (203)%Z 0x0 0x99100000996 0x0 (1)%Z 0x0 (-1)%Z 0x0 0x0;
  mkClient (204)%Z 0x0 0x9960000099e 0x0 (1)%Z 0x0 (-1)%Z 0x0 0x0;
  mkClient (205)%Z 0x0 0x99e000009a4 0x0 (1)%Z 0x0 (-1)%Z 0x0 0x0;
  mkClient (206)%Z 0x0 0x9a4000009b8 0x0 (1)%Z 0x0 (-1)%Z 0x0 0x0;
  mkClient (207)%Z 0x0 0x9b8000009c6 0x0 (1)%Z 0x0 (-1)%Z 0x0 0x0;
  mkClient (208)%Z 0x0 0x9c6000009cf 0x0 (1)%Z 0x180000001d (-1)%Z 0x0 0x0;
  mkClient (209)%Z 0x0 0x9c6000009cf 0x0 (1)%Z 0x0 (-1)%Z 0x0 0x0;
  mkClient (210)%Z 0x0 0x9cf000009d7 0x0 (1)%Z 0x0 (-1)%Z 0x0 0x0;
  mkClient (211)%Z 0x0 0x9d7000009e4 0x0 (1)%Z 0x0 (-1)%Z 0x0 0x0;
  mkClient (212)%Z 0x0 0x9e4000009e9 0x0 (1)%Z 0x0 (-1)%Z 0x0 0x0;
  mkClient (213)%Z 0x0 0x9e9000009f6 0x0 (1)%Z 0x0 (-1)%Z 0x0 0x0;
  mkClient (214)%Z 0x0 0x9f6000009fc 0x0 (1)%Z 0x1d00000023 (2)%Z 0x0 0x0;
  mkClient (215)%Z 0x0 0x9fc00000a0b 0x0 (1)%Z 0x0 (-1)%Z 0x0 0x0;
  mkClient (216)%Z 0x0 0xa0b00000a17 0x0 (1)%Z 0x1100000018 (-1)%Z 0x0 0x0;
  mkClient (217)%Z 0x0 0xa1700000a22 0x0 (1)%Z 0x0 (-1)%Z 0x0 0x0;
  mkClient (218)%Z 0x0 0xa2200000a32 0x0 (1)%Z 0x0 (-1)%Z 0x0 0x0;
  mkClient (219)%Z 0x0 0xa3200000a37 0x0 (1)%Z 0x0 (-1)%Z 0x0 0x0;
  mkClient (220)%Z 0x0 0xa3700000a4c 0x0 (1)%Z 0x0 (-1)%Z 0x0 0x0;
  mkClient (221)%Z 0x0 0xa4c00000a57 0x0 (1)%Z 0x0 (-1)%Z 0x0 0x0;
  mkClient (222)%Z 0x0 0xa5700000a5b 0x0 (1)%Z 0x180000001d (-1)%Z 0x0 0x0;
  mkClient (223)%Z 0x0 0xa5b00000a61 0x0 (1)%Z 0x0 (-1)%Z 0x0 0x0;
  mkClient (224)%Z 0x0 0xa6100000a70 0x0 (-1)%Z 0x0 (-1)%Z 0x0 0x0;
  mkClient (225)%Z 0x0 0xa7000000a82 0x0 (1)%Z 0x1d00000023 (3)%Z 0x0 0x0;
  mkClient (226)%Z 0x0 0xa7000000a82 0x0 (1)%Z 0x180000001d (-1)%Z 0x0 0x0;
  mkClient (227)%Z 0x0 0xa8200000a98 0x0 (1)%Z 0x0 (-1)%Z 0x0 0x0;
  mkClient (228)%Z 0x0 0xa9800000aa7 0x0 (1)%Z 0x0 (-1)%Z 0x0 0x0;
  mkClient (229)%Z 0x0 0xaa700000ab4 0x0 (1)%Z 0x180000001d (-1)%Z 0x0 0x0;
  mkClient (230)%Z 0x0 0xab400000abd 0x0 (1)%Z 0x0 (-1)%Z 0x0 0x0;
  mkClient (231)%Z 0x0 0xabd00000ac5 0x0 (1)%Z 0x1d00000023 (4)%Z 0x0 0x0;
  mkClient (232)%Z 0x0 0xac500000ad7 0x0 (1)%Z 0x180000001d (-1)%Z 0x0 0x0;
  mkClient (233)%Z 0x0 0xad700000ae2 0x0 (1)%Z 0x0 (-1)%Z 0x0 0x0;
  mkClient (234)%Z 0x0 0xae200000aef 0x0 (1)%Z 0x0 (-1)%Z 0x0 0x0;
  mkClient (235)%Z 0x0 0xaef00000af5 0x0 (1)%Z 0x0 (-1)%Z 0x0 0x0;
  mkClient (236)%Z 0x0 0xaf500000afa 0x0 (1)%Z 0x0 (-1)%Z 0x0 0x0;
  mkClient (237)%Z 0x0 0xafa00000b02 0x0 (1)%Z 0x0 (-1)%Z 0x0 0x0;
  mkClient (238)%Z 0x0 0xb0200000b0b 0x0 (1)%Z 0x0 (-1)%Z 0x0 0x0;
  mkClient (239)%Z 0x0 0xb0b00000b11 0x0 (1)%Z 0x0 (-1)%Z 0x0 0x0;
  mkClient (240)%Z 0x0 0xb1100000b26 0x0 (1)%Z 0x0 (-1)%Z 0x0 0x0;
  mkClient (-1)%Z 0xb2600000b38 0xb2600000b38 0x0 (-1)%Z 0x0 (-1)%Z 0x0 0x0;
  mkClient (241)%Z 0x0 0xb3800000b3d 0x0 (1)%Z 0x0 (-1)%Z 0x0 0x0;
  mkClient (242)%Z 0x0 0xb3d00000b45 0x0 (1)%Z 0x1d00000023 (5)%Z 0x0 0x0;
  mkClient (243)%Z 0x0 0xb4500000b51 0x0 (1)%Z 0x0 (-1)%Z 0x0 0x0;
  mkClient (244)%Z 0x0 0xb5100000b57 0x0 (1)%Z 0x0 (-1)%Z 0x0 0x0;
  mkClient (245)%Z 0x0 0xb5700000b64 0x0 (1)%Z 0x0 (-1)%Z 0x0 0x0;
  mkClient (246)%Z 0x0 0xb6400000b6f 0x0 (1)%Z 0x0 (-1)%Z 0x0 0x0;
  mkClient (247)%Z 0x0 0xb6f00000b75 0x0 (1)%Z 0x0 (-1)%Z 0x0 0x0;
  mkClient (248)%Z 0x0 0xb7500000b87 0x0 (1)%Z 0x180000001d (-1)%Z 0x0 0x0;
  mkClient (249)%Z 0x0 0xb8700000b99 0x0 (1)%Z 0x180000001d (-1)%Z 0x0 0x0;
  mkClient (250)%Z 0x0 0xb9900000b9e 0x0 (1)%Z 0x180000001d (-1)%Z 0x0 0x0;
  mkClient (251)%Z 0x0 0xb9e00000ba9 0x0 (1)%Z 0x180000001d (-1)%Z 0x0 0x0;
  mkClient (252)%Z 0x0 0xba900000bb1 0x0 (1)%Z 0x290000002f (-1)%Z 0x0 0x0;
  mkClient (253)%Z 0x0 0xbb100000bc0 0x0 (1)%Z 0x180000001d (-1)%Z 0x0 0x0;
  mkClient (254)%Z 0x0 0xbc000000bc9 0x0 (1)%Z 0x180000001d (-1)%Z 0x0 0x0;
  mkClient (255)%Z 0x0 0xbc900000bd7 0x0 (1)%Z 0x180000001d (-1)%Z 0x0 0x0;
  mkClient (256)%Z 0x0 0xbd700000be0 0x0 (1)%Z 0x180000001d (-1)%Z 0x0 0x0;
  mkClient (257)%Z 0x0 0xbe000000bee 0x0 (1)%Z 0x180000001d (-1)%Z 0x0 0x0;
  mkClient (258)%Z 0x0 0xbee00000bfb 0x0 (1)%Z 0x180000001d (-1)%Z 0x0 0x0;
  mkClient (259)%Z 0x0 0xbfb00000c03 0x0 (1)%Z 0x180000001d (-1)%Z 0x0 0x0;
  mkClient (260)%Z 0x0 0xc0300000c0a 0x0 (1)%Z 0x180000001d (-1)%Z 0x0 0x0;
  mkClient (261)%Z 0x0 0xc0a00000c0f 0x0 (1)%Z 0x180000001d (-1)%Z 0x0 0x0;
  mkClient (262)%Z 0x0 0xc0f00000c16 0x0 (1)%Z 0x180000001d (-1)%Z 0x0 0x0;
  mkClient (263)%Z 0x0 0xc1600000c2b 0x0 (1)%Z 0x180000001d (-1)%Z 0x0 0x0;
  mkClient (264)%Z 0x0 0xc2b00000c39 0x0 (1)%Z 0x180000001d (-1)%Z 0x0 0x0;
  mkClient (265)%Z 0x0 0xc3900000c44 0x0 (1)%Z 0x0 (-1)%Z 0x0 0x0;
  mkClient (266)%Z 0x0 0xc4400000c50 0x0 (1)%Z 0x0 (-1)%Z 0x0 0x0;
  mkClient (267)%Z 0x0 0xc5000000c5e 0x0 (1)%Z 0x0 (-1)%Z 0x0 0x0;
  mkClient (268)%Z 0x0 0xc5e00000c6c 0x0 (1)%Z 0x180000001d (-1)%Z 0x0 0x0;
  mkClient (269)%Z 0x0 0xc6c00000c78 0x0 (1)%Z 0x1d00000023 (-1)%Z 0x0 0x0;
  mkClient (270)%Z 0x0 0xc6c00000c78 0x0 (1)%Z 0x180000001d (-1)%Z 0x0 0x0;
  mkClient (271)%Z 0x0 0xc6c00000c78 0x0 (1)%Z 0x0 (-1)%Z 0x0 0x0;
  mkClient (272)%Z 0x0 0xc6c00000c78 0x0 (1)%Z 0x350000003a (-1)%Z 0x0 0x0;
  mkClient (273)%Z 0x0 0xc7800000c82 0x0 (1)%Z 0x350000003a (-1)%Z 0x0 0x0;
  mkClient (274)%Z 0x0 0xc8200000c90 0x0 (1)%Z 0x180000001d (-1)%Z 0x0 0x0;
  mkClient (275)%Z 0x0 0xc9000000c9a 0x0 (1)%Z 0x350000003a (-1)%Z 0x0 0x0;
  mkClient (276)%Z 0x0 0xc9a00000ca8 0x0 (1)%Z 0x1d00000023 (-1)%Z 0x0 0x0;
  mkClient (277)%Z 0x0 0xc9a00000ca8 0x0 (1)%Z 0xd00000011 (-1)%Z 0x0 0x0;
  mkClient (278)%Z 0x0 0xc9a00000ca8 0x0 (1)%Z 0x1d00000023 (-1)%Z 0x0 0x0;
  mkClient (279)%Z 0x0 0xc9a00000ca8 0x0 (1)%Z 0x180000001d (-1)%Z 0x0 0x0;
  mkClient (280)%Z 0x0 0xc9a00000ca8 0x0 (1)%Z 0x180000001d (-1)%Z 0x0 0x0;
  mkClient (281)%Z 0x0 0xca800000cbb 0x0 (1)%Z 0x760000007c (-1)%Z 0x0 0x0;
  mkClient (282)%Z 0x0 0xcbb00000ccd 0x0 (1)%Z 0x0 (-1)%Z 0x0 0x0;
  mkClient (283)%Z 0x0 0xcbb00000ccd 0x0 (1)%Z 0x0 (-1)%Z 0x0 0x0;
  mkClient (284)%Z 0x0 0xccd00000cde 0x0 (1)%Z 0x0 (-1)%Z 0x0 0x0;
  mkClient (285)%Z 0x0 0xcde00000cee 0x0 (1)%Z 0x0 (-1)%Z 0x0 0x0;
  mkClient (286)%Z 0x0 0xcee00000cf4 0x0 (1)%Z 0x350000003a (-1)%Z 0x0 0x0;
  mkClient (-1)%Z 0xcf400000cfb 0xcf400000cfb 0x0 (-1)%Z 0x350000003a (-1)%Z 0x0 0x0;
  mkClient (287)%Z 0x0 0xcfb00000d01 0x0 (1)%Z 0x350000003a (-1)%Z 0x0 0x0;
  mkClient (288)%Z 0x0 0xd0100000d09 0x0 (1)%Z 0x350000003a (-1)%Z 0x0 0x0;
  mkClient (289)%Z 0x0 0xd0900000d14 0x0 (1)%Z 0x180000001d (-1)%Z 0x0 0x0;
  mkClient (290)%Z 0x0 0xd1400000d21 0x0 (1)%Z 0x180000001d (-1)%Z 0x0 0x0;
  mkClient (291)%Z 0x0 0xd1400000d21 0x0 (1)%Z 0x0 (-1)%Z 0x0 0x0;
  mkClient (-1)%Z 0xd2100000d27 0xd1400000d21 0x0 (-1)%Z 0x0 (-1)%Z 0x0 0x0;
  mkClient (292)%Z 0x0 0xd2700000d34 0x0 (1)%Z 0x180000001d (-1)%Z 0x0 0x0;
  mkClient (293)%Z 0x0 0xd2700000d34 0x0 (1)%Z 0x1d00000023 (-1)%Z 0x0 0x0;
  mkClient (294)%Z 0x0 0xd3400000d48 0x0 (1)%Z 0x180000001d (-1)%Z 0x0 0x0;
  mkClient (295)%Z 0x0 0xd3400000d48 0x0 (1)%Z 0x1d00000023 (-1)%Z 0x0 0x0;
  mkClient (296)%Z 0x0 0xd3400000d48 0x0 (-1)%Z 0x180000001d (-1)%Z 0x0 0x0;
  mkClient (297)%Z 0x0 0xd4800000d4c 0x0 (1)%Z 0x350000003a (-1)%Z 0x0 0x0;
  mkClient (298)%Z 0x0 0xd4c00000d52 0x0 (1)%Z 0x350000003a (-1)%Z 0x0 0x0;
  mkClient (299)%Z 0x0 0xd5200000d58 0x0 (1)%Z 0x350000003a (-1)%Z 0x0 0x0;
  mkClient (300)%Z 0x0 0xd5200000d58 0x0 (1)%Z 0x350000003a (-1)%Z 0x0 0x0;
  mkClient (301)%Z 0x0 0xd5800000d68 0x0 (1)%Z 0x0 (-1)%Z 0x0 0x0;
  mkClient (302)%Z 0x0 0xd6800000d75 0x0 (-1)%Z 0x0 (-1)%Z 0x0 0x0;
  mkClient (303)%Z 0x0 0xd7500000d81 0x0 (1)%Z 0x0 (-1)%Z 0x0 0x0;
  mkClient (304)%Z 0x0 0xd8100000d86 0x0 (1)%Z 0x1d00000023 (6)%Z 0x0 0x0;
  mkClient (305)%Z 0x0 0xd8600000d98 0x0 (1)%Z 0x0 (-1)%Z 0x0 0x0;
  mkClient (306)%Z 0x0 0xd9800000da1 0x0 (1)%Z 0x0 (-1)%Z 0x0 0x0;
  mkClient (307)%Z 0x0 0xda100000da6 0x0 (1)%Z 0x180000001d (-1)%Z 0x0 0x0;
  mkClient (308)%Z 0x0 0xda100000da6 0x0 (1)%Z 0x180000001d (-1)%Z 0x0 0x0;
  mkClient (309)%Z 0x0 0xda600000dad 0x0 (1)%Z 0x1d00000023 (7)%Z 0x0 0x0;
  mkClient (310)%Z 0x0 0xdad00000db6 0x0 (1)%Z 0x350000003a (-1)%Z 0x0 0x0;
  mkClient (-1)%Z 0xdb600000dc1 0xdb600000dc1 0x0 (-1)%Z 0x1d00000023 (-1)%Z 0x0 0x0;
  mkClient (311)%Z 0x0 0xdc100000dca 0x0 (1)%Z 0x290000002f (-1)%Z 0x0 0x0;
  mkClient (312)%Z 0x0 0xdc100000dca 0x0 (1)%Z 0x350000003a (-1)%Z 0x0 0x0;
  mkClient (313)%Z 0x0 0xdca00000dd3 0x0 (1)%Z 0x350000003a (-1)%Z 0x0 0x0;
  mkClient (314)%Z 0x0 0xdd300000ddc 0x0 (1)%Z 0x350000003a (-1)%Z 0x0 0x0;
  mkClient (315)%Z 0x0 0xddc00000de1 0x0 (1)%Z 0x350000003a (8)%Z 0x0 0x0;
  mkClient (316)%Z 0x0 0xde100000df1 0x0 (1)%Z 0x0 (-1)%Z 0x0 0x0;
  mkClient (317)%Z 0x0 0xdf100000dfc 0x0 (1)%Z 0x0 (-1)%Z 0x0 0x0;
  mkClient (318)%Z 0x0 0xdfc00000e02 0x0 (1)%Z 0x350000003a (-1)%Z 0x0 0x0;
  mkClient (319)%Z 0x0 0xe0200000e06 0x0 (1)%Z 0x350000003a (-1)%Z 0x0 0x0;
  mkClient (320)%Z 0x0 0xe0600000e1c 0x0 (1)%Z 0x0 (-1)%Z 0x0 0x0;
  mkClient (321)%Z 0x0 0xe1c00000e25 0x0 (1)%Z 0x0 (-1)%Z 0x0 0x0;
  mkClient (322)%Z 0x0 0xe2500000e38 0x0 (1)%Z 0x0 (-1)%Z 0x0 0x0;
  mkClient (323)%Z 0x0 0xe3800000e42 0x0 (1)%Z 0x0 (-1)%Z 0x0 0x0;
  mkClient (324)%Z 0x0 0xe4200000e4c 0x0 (1)%Z 0x290000002f (-1)%Z 0x0 0x0;
  mkClient (325)%Z 0x0 0xe4c00000e51 0x0 (1)%Z 0x290000002f (-1)%Z 0x0 0x0;
  mkClient (326)%Z 0x0 0xe5100000e59 0x0 (1)%Z 0x290000002f (-1)%Z 0x0 0x0;
  mkClient (327)%Z 0x0 0xe5900000e66 0x0 (1)%Z 0x0 (-1)%Z 0x0 0x0;
  mkClient (328)%Z 0x0 0xe6600000e6e 0x0 (1)%Z 0x350000003a (-1)%Z 0x0 0x0;
  mkClient (329)%Z 0x0 0xe6e00000e76 0x0 (1)%Z 0x350000003a (-1)%Z 0x0 0x0;
  mkClient (330)%Z 0x0 0xe7600000e83 0x0 (1)%Z 0x0 (-1)%Z 0x0 0x0;
  mkClient (331)%Z 0x0 0xe8300000e92 0x0 (1)%Z 0x0 (-1)%Z 0x0 0x0;
  mkClient (332)%Z 0x0 0xe8300000e92 0x0 (-1)%Z 0x0 (-1)%Z 0x0 0x0;
  mkClient (333)%Z 0x0 0xe8300000e92 0x0 (1)%Z 0x180000001d (-1)%Z 0x0 0x0;
  mkClient (334)%Z 0x0 0xe9200000ea2 0x0 (1)%Z 0x0 (-1)%Z 0x0 0x0;
  mkClient (335)%Z 0x0 0xe9200000ea2 0x0 (-1)%Z 0x0 (-1)%Z 0x0 0x0;
  mkClient (336)%Z 0x0 0xea200000eac 0x0 (1)%Z 0x760000007c (-1)%Z 0x0 0x0;
  mkClient (337)%Z 0x0 0xea200000eac 0x0 (1)%Z 0x0 (-1)%Z 0x0 0x0;
  mkClient (338)%Z 0x0 0xea200000eac 0x0 (1)%Z 0x0 (-1)%Z 0x0 0x0;
  mkClient (-1)%Z 0xeac00000eba 0xea200000eac 0x0 (-1)%Z 0x0 (-1)%Z 0x0 0x0;
  mkClient (339)%Z 0x0 0xea200000eac 0x0 (1)%Z 0x1d00000023 (-1)%Z 0x0 0x0;
  mkClient (340)%Z 0x0 0xea200000eac 0x0 (1)%Z 0x180000001d (-1)%Z 0x0 0x0;
  mkClient (341)%Z 0x0 0xea200000eac 0x0 (1)%Z 0x350000003a (-1)%Z 0x0 0x0;
  mkClient (342)%Z 0x0 0xeba00000ec8 0x0 (1)%Z 0x460000004b (-1)%Z 0x0 0x0;
  mkClient (343)%Z 0x0 0xeba00000ec8 0x0 (1)%Z 0x350000003a (-1)%Z 0x0 0x0;
  mkClient (344)%Z 0x0 0xec800000eda 0x0 (1)%Z 0x1d00000023 (-1)%Z 0x0 0x0;
  mkClient (345)%Z 0x0 0xeda00000ee1 0x0 (1)%Z 0x460000004b (-1)%Z 0x0 0x0;
  mkClient (346)%Z 0x0 0xeda00000ee1 0x0 (1)%Z 0x350000003a (-1)%Z 0x0 0x0;
  mkClient (347)%Z 0x0 0xeda00000ee1 0x0 (1)%Z 0x350000003a (-1)%Z 0x0 0x0;
  mkClient (348)%Z 0x0 0xee100000eeb 0x0 (1)%Z 0x0 (-1)%Z 0x0 0x0;
  mkClient (349)%Z 0x0 0xeeb00000ef3 0x0 (1)%Z 0x0 (-1)%Z 0x0 0x0;
  mkClient (350)%Z 0x0 0xef300000f04 0x0 (1)%Z 0x0 (-1)%Z 0x0 0x0;
  mkClient (351)%Z 0x0 0xf0400000f0c 0x0 (1)%Z 0x1d00000023 (-1)%Z 0x0 0x0;
  mkClient (352)%Z 0x0 0xf0c00000f1d 0x0 (1)%Z 0x0 (-1)%Z 0x0 0x0;
  mkClient (353)%Z 0x0 0xf1d00000f24 0x0 (1)%Z 0x0 (-1)%Z 0x0 0x0;
  mkClient (354)%Z 0x0 0xf2400000f2c 0x0 (1)%Z 0x0 (-1)%Z 0x0 0x0;
  mkClient (355)%Z 0x0 0xf2c00000f34 0x0 (1)%Z 0x0 (-1)%Z 0x0 0x0;
  mkClient (356)%Z 0x0 0xf3400000f3c 0x0 (1)%Z 0x0 (-1)%Z 0x0 0x0;
  mkClient (357)%Z 0x0 0xf3c00000f42 0x0 (1)%Z 0x0 (-1)%Z 0x0 0x0;
  mkClient (358)%Z 0x0 0xf4200000f4f 0x0 (1)%Z 0x180000001d (-1)%Z 0x0 0x0;
  mkClient (359)%Z 0x0 0xf4f00000f54 0x0 (1)%Z 0x0 (-1)%Z 0x0 0x0;
  mkClient (360)%Z 0x0 0xf4f00000f54 0x0 (-1)%Z 0x0 (-1)%Z 0x0 0x0;
  mkClient (361)%Z 0x0 0xf5400000f5c 0x0 (1)%Z 0x180000001d (-1)%Z 0x0 0x0;
  mkClient (362)%Z 0x0 0xf5400000f5c 0x0 (1)%Z 0x1d00000023 (-1)%Z 0x0 0x0;
  mkClient (363)%Z 0x0 0xf5400000f5c 0x0 (-1)%Z 0x1d00000023 (-1)%Z 0x0 0x0;
  mkClient (364)%Z 0x0 0xf5c00000f68 0x0 (1)%Z 0x2300000029 (9)%Z 0x0 0x0;
  mkClient (365)%Z 0x0 0xf6800000f72 0x0 (1)%Z 0x180000001d (-1)%Z 0x0 0x0;
  mkClient (366)%Z 0x0 0xf7200000f7f 0x0 (1)%Z 0x180000001d (-1)%Z 0x0 0x0;
  mkClient (367)%Z 0x0 0xf7f00000f8a 0x0 (1)%Z 0x1d00000023 (-1)%Z 0x0 0x0;
  mkClient (368)%Z 0x0 0xf7f00000f8a 0x0 (-1)%Z 0x1d00000023 (-1)%Z 0x0 0x0;
  mkClient (369)%Z 0x0 0xf8a00000f8f 0x0 (-1)%Z 0x1d00000023 (-1)%Z 0x0 0x0;
  mkClient (370)%Z 0x0 0xf7f00000f8a 0x0 (1)%Z 0x0 (-1)%Z 0x0 0x0;
  mkClient (371)%Z 0x0 0xf5c00000f68 0x0 (1)%Z 0x2300000029 (10)%Z 0x0 0x0;
  mkClient (372)%Z 0x0 0xf8f00000f99 0x0 (1)%Z 0x2300000029 (-1)%Z 0x0 0x0;
  mkClient (373)%Z 0x0 0xf8f00000f99 0x0 (1)%Z 0x2300000029 (-1)%Z 0x0 0x0;
  mkClient (374)%Z 0x0 0xf9900000fa7 0x0 (1)%Z 0x1d00000023 (-1)%Z 0x0 0x0;
  mkClient (375)%Z 0x0 0xf9900000fa7 0x0 (1)%Z 0x1d00000023 (-1)%Z 0x0 0x0;
  mkClient (376)%Z 0x0 0xfa700000fb1 0x0 (1)%Z 0x2300000029 (11)%Z 0x0 0x0;
  mkClient (377)%Z 0x0 0xfa700000fb1 0x0 (1)%Z 0x2300000029 (12)%Z 0x0 0x0;
  mkClient (378)%Z 0x0 0xf8a00000f8f 0x0 (1)%Z 0x0 (13)%Z 0x0 0x0;
  mkClient (379)%Z 0x0 0xf8a00000f8f 0x0 (-1)%Z 0x180000001d (-1)%Z 0x0 0x0;
  mkClient (380)%Z 0x0 0xfb800000fbe 0x0 (1)%Z 0x1d00000023 (-1)%Z 0x0 0x0;
  mkClient (381)%Z 0x0 0xfbe00000fc6 0x0 (1)%Z 0x0 (-1)%Z 0x0 0x0
].
Definition d_cr_idx1_2 : list clientTuple := [
  mkClient (382)%Z 0x0 0xfc600000fd3 0x0 (1)%Z 0x1d00000023 (14)%Z 0x0 0x0;
  mkClient (383)%Z 0x0 0xfd300000fdd 0x0 (1)%Z 0x0 (-1)%Z 0x0 0x0;
  mkClient (384)%Z 0x0 0xfdd00000fe5 0x0 (1)%Z 0x350000003a (-1)%Z 0x0 0x0;
  mkClient (385)%Z 0x0 0xfe500000fee 0x0 (1)%Z 0x3a0000003f (15)%Z 0x0 0x0;
  mkClient (386)%Z 0x0 0xfee00000ffb 0x0 (1)%Z 0x0 (-1)%Z 0x0 0x0;
  mkClient (387)%Z 0x0 0xffb00001008 0x0 (1)%Z 0x0 (-1)%Z 0x0 0x0;
  mkClient (388)%Z 0x0 0x100800001013 0x0 (1)%Z 0x0 (-1)%Z 0x0 0x0;
  mkClient (389)%Z 0x0 0x101300001021 0x0 (1)%Z 0x1d00000023 (-1)%Z 0x0 0x0;
  mkClient (390)%Z 0x0 0x101300001021 0x0 (1)%Z 0x1d00000023 (-1)%Z 0x0 0x0;
  mkClient (391)%Z 0x0 0x102100001034 0x0 (1)%Z 0x180000001d (-1)%Z 0x0 0x0;
  mkClient (392)%Z 0x0 0x103400001047 0x0 (1)%Z 0x180000001d (-1)%Z 0x0 0x0;
  mkClient (393)%Z 0x0 0x101300001021 0x0 (0)%Z 0x180000001d (-1)%Z 0x0 0x0;
  mkClient (394)%Z 0x0 0x101300001021 0x0 (1)%Z 0x180000001d (-1)%Z 0x0 0x0;
  mkClient (395)%Z 0x0 0x10470000104e 0x0 (1)%Z 0x180000001d (-1)%Z 0x0 0x0;
  mkClient (396)%Z 0x0 0x104e00001058 0x0 (1)%Z 0x180000001d (-1)%Z 0x0 0x0;
  mkClient (397)%Z 0x0 0x10580000105e 0x0 (1)%Z 0x180000001d (-1)%Z 0x0 0x0;
  mkClient (398)%Z 0x0 0x10580000105e 0x0 (1)%Z 0x1d00000023 (-1)%Z 0x0 0x0;
  mkClient (399)%Z 0x0 0x105e00001065 0x0 (1)%Z 0x0 (-1)%Z 0x0 0x0;
  mkClient (400)%Z 0x0 0x10650000106c 0x0 (-1)%Z 0x180000001d (-1)%Z 0x0 0x0;
  mkClient (401)%Z 0x0 0x10650000106c 0x0 (1)%Z 0x1d00000023 (16)%Z 0x0 0x0;
  mkClient (402)%Z 0x0 0x10650000106c 0x0 (1)%Z 0x0 (17)%Z 0x0 0x0;
  mkClient (403)%Z 0x0 0x10650000106c 0x0 (-1)%Z 0x0 (-1)%Z 0x0 0x0;
  mkClient (404)%Z 0x0 0x106c00001080 0x0 (1)%Z 0x0 (-1)%Z 0x0 0x0;
  mkClient (405)%Z 0x0 0x108000001095 0x0 (1)%Z 0x0 (-1)%Z 0x0 0x0;
  mkClient (406)%Z 0x0 0x1095000010a7 0x0 (1)%Z 0x0 (-1)%Z 0x0 0x0;
  mkClient (407)%Z 0x0 0x10a7000010b2 0x0 (1)%Z 0x0 (-1)%Z 0x0 0x0;
  mkClient (408)%Z 0x0 0x10b2000010b6 0x0 (1)%Z 0x1d00000023 (18)%Z 0x0 0x0;
  mkClient (409)%Z 0x0 0x10b2000010b6 0x0 (1)%Z 0x1d00000023 (19)%Z 0x0 0x0;
  mkClient (410)%Z 0x0 0x10b6000010bf 0x0 (1)%Z 0x350000003a (20)%Z 0x0 0x0;
  mkClient (411)%Z 0x0 0x10bf000010c9 0x0 (1)%Z 0x0 (-1)%Z 0x0 0x0;
  mkClient (412)%Z 0x0 0x10c9000010d8 0x0 (1)%Z 0x0 (-1)%Z 0x0 0x0;
  mkClient (413)%Z 0x0 0x10d8000010e6 0x0 (1)%Z 0x0 (-1)%Z 0x0 0x0;
  mkClient (414)%Z 0x0 0x10e6000010f5 0x0 (1)%Z 0x0 (-1)%Z 0x0 0x0;
  mkClient (415)%Z 0x0 0x10f500001104 0x0 (1)%Z 0x0 (-1)%Z 0x0 0x0;
  mkClient (416)%Z 0x0 0x11040000110e 0x0 (1)%Z 0x0 (-1)%Z 0x0 0x0;
  mkClient (417)%Z 0x0 0x110e00001118 0x0 (1)%Z 0x0 (-1)%Z 0x0 0x0;
  mkClient (418)%Z 0x0 0x11180000111f 0x0 (1)%Z 0x1d00000023 (21)%Z 0x0 0x0;
  mkClient (419)%Z 0x0 0x111f00001139 0x0 (1)%Z 0x0 (-1)%Z 0x0 0x0;
  mkClient (420)%Z 0x0 0x111f00001139 0x0 (1)%Z 0x180000001d (-1)%Z 0x0 0x0;
  mkClient (421)%Z 0x0 0x113900001148 0x0 (1)%Z 0x0 (-1)%Z 0x0 0x0;
  mkClient (422)%Z 0x0 0x11480000115a 0x0 (1)%Z 0x0 (-1)%Z 0x0 0x0;
  mkClient (423)%Z 0x0 0x11480000115a 0x0 (1)%Z 0x0 (-1)%Z 0x0 0x0;
  mkClient (424)%Z 0x0 0x115a00001165 0x0 (1)%Z 0x0 (-1)%Z 0x0 0x0;
  mkClient (425)%Z 0x0 0x11650000116d 0x0 (1)%Z 0x180000001d (-1)%Z 0x0 0x0;
  mkClient (426)%Z 0x0 0x116d00001174 0x0 (1)%Z 0x0 (-1)%Z 0x0 0x0;
  mkClient (-1)%Z 0x11740000117b 0x117b00001182 0x0 (-1)%Z 0x0 (-1)%Z 0x0 0x0;
  mkClient (427)%Z 0x0 0x118200001190 0x0 (1)%Z 0x180000001d (-1)%Z 0x0 0x0;
  mkClient (428)%Z 0x0 0x11900000119c 0x0 (1)%Z 0x180000001d (-1)%Z 0x0 0x0;
  mkClient (429)%Z 0x0 0x11900000119c 0x0 (1)%Z 0x0 (-1)%Z 0x0 0x0;
  mkClient (430)%Z 0x0 0x119c000011aa 0x0 (1)%Z 0x180000001d (-1)%Z 0x0 0x0;
  mkClient (431)%Z 0x0 0x119c000011aa 0x0 (1)%Z 0x1d00000023 (-1)%Z 0x0 0x0;
  mkClient (432)%Z 0x0 0x11aa000011be 0x0 (1)%Z 0x0 (-1)%Z 0x0 0x0;
  mkClient (433)%Z 0x0 0x11be000011ca 0x0 (1)%Z 0x0 (-1)%Z 0x0 0x0;
  mkClient (434)%Z 0x0 0x11ca000011d0 0x0 (1)%Z 0x0 (22)%Z 0x0 0x0;
  mkClient (-1)%Z 0x11d0000011d9 0x11d9000011e3 0x0 (-1)%Z 0x0 (-1)%Z 0x0 0x0;
  mkClient (435)%Z 0x0 0x11e3000011f1 0x0 (1)%Z 0x180000001d (-1)%Z 0x0 0x0;
  mkClient (436)%Z 0x0 0x11e3000011f1 0x0 (1)%Z 0x1d00000023 (-1)%Z 0x0 0x0;
  mkClient (-1)%Z 0x11f1000011fc 0x11fc00001200 0x0 (-1)%Z 0x0 (-1)%Z 0x0 0x0;
  mkClient (437)%Z 0x0 0x12000000120c 0x0 (1)%Z 0x0 (-1)%Z 0x0 0x0;
  mkClient (438)%Z 0x0 0x120c00001217 0x0 (1)%Z 0x180000001d (-1)%Z 0x0 0x0;
  mkClient (439)%Z 0x0 0x120c00001217 0x0 (1)%Z 0x1d00000023 (-1)%Z 0x0 0x0;
  mkClient (440)%Z 0x0 0x121700001224 0x0 (1)%Z 0x0 (-1)%Z 0x0 0x0;
  mkClient (441)%Z 0x0 0x12240000122c 0x0 (1)%Z 0x0 (-1)%Z 0x0 0x0;
  mkClient (442)%Z 0x0 0x122c00001233 0x0 (1)%Z 0x0 (-1)%Z 0x0 0x0;
  mkClient (443)%Z 0x0 0x12330000124a 0x0 (1)%Z 0x0 (-1)%Z 0x0 0x0;
  mkClient (444)%Z 0x0 0x12330000124a 0x0 (1)%Z 0x0 (-1)%Z 0x0 0x0;
  mkClient (445)%Z 0x0 0x124a00001255 0x0 (1)%Z 0x1d00000023 (-1)%Z 0x0 0x0;
  mkClient (446)%Z 0x0 0x12550000125e 0x0 (1)%Z 0x0 (-1)%Z 0x0 0x0;
  mkClient (447)%Z 0x0 0x125e0000126b 0x0 (1)%Z 0x0 (-1)%Z 0x0 0x0;
  mkClient (448)%Z 0x0 0x125e0000126b 0x126b0000126e (-1)%Z 0x0 (-1)%Z 0x0 0x0;
  mkClient (449)%Z 0x0 0x126e0000127f 0x0 (1)%Z 0x0 (-1)%Z 0x0 0x0;
  mkClient (450)%Z 0x0 0x127f00001290 0x0 (1)%Z 0x0 (-1)%Z 0x0 0x0;
  mkClient (451)%Z 0x0 0x125e0000126b 0x0 (-1)%Z 0x0 (-1)%Z 0x0 0x0;
  mkClient (452)%Z 0x0 0x129000001298 0x0 (1)%Z 0x0 (-1)%Z 0x0 0x0;
  mkClient (453)%Z 0x0 0x1298000012a5 0x0 (1)%Z 0x0 (-1)%Z 0x0 0x0;
  mkClient (454)%Z 0x0 0x12a5000012ab 0x0 (1)%Z 0x0 (-1)%Z 0x0 0x0;
  mkClient (455)%Z 0x0 0x12ab000012b0 0x0 (1)%Z 0x0 (-1)%Z 0x0 0x0;
  mkClient (456)%Z 0x0 0x12b0000012c0 0x0 (1)%Z 0x180000001d (-1)%Z 0x0 0x0;
  mkClient (457)%Z 0x0 0x12c0000012cc 0x0 (1)%Z 0x180000001d (-1)%Z 0x0 0x0;
  mkClient (458)%Z 0x0 0x12cc000012d9 0x0 (1)%Z 0x180000001d (-1)%Z 0x0 0x0;
  mkClient (459)%Z 0x0 0x12d9000012e0 0x0 (1)%Z 0x180000001d (-1)%Z 0x0 0x0;
  mkClient (460)%Z 0x0 0x12e0000012e9 0x0 (1)%Z 0x1d00000023 (23)%Z 0x0 0x0;
  mkClient (461)%Z 0x0 0x12e9000012f5 0x0 (-1)%Z 0x180000001d (-1)%Z 0x0 0x0;
  mkClient (462)%Z 0x0 0x12f5000012ff 0x0 (1)%Z 0x0 (-1)%Z 0x0 0x0;
  mkClient (463)%Z 0x0 0x12ff0000130a 0x0 (1)%Z 0x0 (-1)%Z 0x0 0x0;
  mkClient (464)%Z 0x0 0x130a0000131b 0x0 (1)%Z 0x1d00000023 (-1)%Z 0x0 0x0;
  mkClient (465)%Z 0x0 0x131b00001329 0x0 (1)%Z 0x1d00000023 (24)%Z 0x0 0x0;
  mkClient (466)%Z 0x0 0x132900001336 0x0 (1)%Z 0x1d00000023 (25)%Z 0x0 0x0;
  mkClient (467)%Z 0x0 0x130a0000131b 0x0 (1)%Z 0x1d00000023 (-1)%Z 0x0 0x0;
  mkClient (468)%Z 0x0 0x132900001336 0x0 (1)%Z 0x1d00000023 (26)%Z 0x0 0x0;
  mkClient (469)%Z 0x0 0x133600001342 0x0 (1)%Z 0x1d00000023 (-1)%Z 0x0 0x0;
  mkClient (470)%Z 0x0 0x13420000134a 0x0 (1)%Z 0x1d00000023 (27)%Z 0x0 0x0;
  mkClient (471)%Z 0x0 0x13420000134a 0x0 (1)%Z 0x1d00000023 (28)%Z 0x0 0x0;
  mkClient (472)%Z 0x0 0x134a00001359 0x0 (1)%Z 0x180000001d (-1)%Z 0x0 0x0;
  mkClient (473)%Z 0x0 0x13590000135f 0x0 (1)%Z 0x1d00000023 (29)%Z 0x0 0x0;
  mkClient (-1)%Z 0x135f0000136a 0x136a0000137c 0x0 (-1)%Z 0x1d00000023 (-1)%Z 0x0 0x0;
  mkClient (474)%Z 0x0 0x137c00001389 0x0 (1)%Z 0x0 (-1)%Z 0x0 0x0;
  mkClient (475)%Z 0x0 0x137c00001389 0x0 (1)%Z 0x1d00000023 (30)%Z 0x0 0x0;
  mkClient (476)%Z 0x0 0x138900001394 0x0 (1)%Z 0x0 (-1)%Z 0x0 0x0;
  mkClient (477)%Z 0x0 0x13940000139c 0x0 (1)%Z 0x0 (-1)%Z 0x0 0x0;
  mkClient (478)%Z 0x0 0x139c000013a6 0x0 (1)%Z 0x0 (-1)%Z 0x0 0x0;
  mkClient (479)%Z 0x0 0x13a6000013b1 0x0 (1)%Z 0x0 (-1)%Z 0x0 0x0;
  mkClient (480)%Z 0x0 0x13b1000013ba 0x0 (1)%Z 0x0 (-1)%Z 0x0 0x0;
  mkClient (481)%Z 0x0 0x13ba000013c1 0x0 (1)%Z 0x0 (-1)%Z 0x0 0x0;
  mkClient (482)%Z 0x0 0x13c1000013c5 0x0 (1)%Z 0x2830000028d (-1)%Z 0x0 0x0;
  mkClient (483)%Z 0x0 0x13c5000013d0 0x0 (1)%Z 0x0 (-1)%Z 0x0 0x0;
  mkClient (484)%Z 0x0 0x13d0000013da 0x0 (1)%Z 0x0 (-1)%Z 0x0 0x0;
  mkClient (485)%Z 0x0 0x13da000013e1 0x0 (1)%Z 0x0 (-1)%Z 0x0 0x0;
  mkClient (486)%Z 0x0 0x13e1000013e6 0x0 (1)%Z 0x0 (-1)%Z 0x0 0x0;
  mkClient (487)%Z 0x0 0x13e6000013f3 0x0 (1)%Z 0x0 (-1)%Z 0x0 0x0;
  mkClient (488)%Z 0x0 0x13f3000013fd 0x0 (1)%Z 0x0 (-1)%Z 0x0 0x0;
  mkClient (489)%Z 0x0 0x13fd00001402 0x0 (1)%Z 0x1d00000023 (-1)%Z 0x0 0x0;
  mkClient (490)%Z 0x0 0x140200001408 0x0 (1)%Z 0x350000003a (-1)%Z 0x0 0x0;
  mkClient (491)%Z 0x0 0x14080000140e 0x0 (1)%Z 0x1d00000023 (-1)%Z 0x0 0x0;
  mkClient (492)%Z 0x0 0x140e00001415 0x0 (1)%Z 0x0 (-1)%Z 0x0 0x0;
  mkClient (493)%Z 0x0 0x14150000141b 0x0 (1)%Z 0x0 (-1)%Z 0x0 0x0;
  mkClient (494)%Z 0x0 0x141b00001423 0x0 (1)%Z 0x0 (-1)%Z 0x0 0x0;
  mkClient (-1)%Z 0x14230000142b 0x14230000142b 0x0 (-1)%Z 0x1d00000023 (-1)%Z 0x0 0x0;
  mkClient (495)%Z 0x0 0x142b00001430 0x0 (1)%Z 0x142b00001430 (-1)%Z 0x0 0x0;
  mkClient (496)%Z 0x0 0x143000001437 0x0 (1)%Z 0x1d00000023 (-1)%Z 0x0 0x0;
  mkClient (497)%Z 0x0 0x14370000143d 0x0 (1)%Z 0x2830000028d (-1)%Z 0x0 0x0;
  mkClient (498)%Z 0x0 0x143d0000144c 0x0 (1)%Z 0x0 (-1)%Z 0x0 0x0;
  mkClient (499)%Z 0x0 0x144c00001456 0x0 (1)%Z 0x0 (-1)%Z 0x0 0x0;
  mkClient (500)%Z 0x0 0x14560000145e 0x0 (1)%Z 0x350000003a (-1)%Z 0x0 0x0;
  mkClient (501)%Z 0x0 0x145e00001463 0x0 (1)%Z 0x1d00000023 (-1)%Z 0x0 0x0;
  mkClient (502)%Z 0x0 0x146300001469 0x0 (1)%Z 0x350000003a (-1)%Z 0x0 0x0;
  mkClient (503)%Z 0x0 0x146900001479 0x0 (1)%Z 0x1d00000023 (-1)%Z 0x0 0x0;
  mkClient (504)%Z 0x0 0x146900001479 0x0 (1)%Z 0x1d00000023 (-1)%Z 0x0 0x0;
  mkClient (505)%Z 0x0 0x147900001485 0x0 (1)%Z 0x1d00000023 (-1)%Z 0x0 0x0;
  mkClient (506)%Z 0x0 0x14850000148c 0x0 (1)%Z 0x0 (-1)%Z 0x0 0x0;
  mkClient (507)%Z 0x0 0x148c00001497 0x0 (1)%Z 0x1d00000023 (-1)%Z 0x0 0x0;
  mkClient (508)%Z 0x0 0x14970000149b 0x0 (1)%Z 0x14970000149b (31)%Z 0x0 0x0;
  mkClient (509)%Z 0x0 0x149b000014a8 0x0 (1)%Z 0x1100000018 (-1)%Z 0x0 0x0;
  mkClient (510)%Z 0x0 0x14a8000014b1 0x0 (1)%Z 0x1100000018 (-1)%Z 0x0 0x0;
  mkClient (511)%Z 0x0 0x14a8000014b1 0x0 (1)%Z 0x1100000018 (-1)%Z 0x0 0x0;
  mkClient (512)%Z 0x0 0x14b1000014c2 0x14c2000014c5 (-1)%Z 0x1100000018 (-1)%Z 0x0 0x0;
  mkClient (513)%Z 0x0 0x14b1000014c2 0x14c5000014c8 (-1)%Z 0x1100000018 (-1)%Z 0x0 0x0;
  mkClient (514)%Z 0x0 0x14b1000014c2 0x14c8000014cc (-1)%Z 0x1100000018 (-1)%Z 0x0 0x0;
  mkClient (515)%Z 0x0 0x14b1000014c2 0x14cc000014d0 (-1)%Z 0x1100000018 (-1)%Z 0x0 0x0;
  mkClient (516)%Z 0x0 0x14b1000014c2 0x0 (1)%Z 0x1100000018 (-1)%Z 0x0 0x0;
  mkClient (517)%Z 0x0 0x14b1000014c2 0x0 (1)%Z 0x1100000018 (-1)%Z 0x0 0x0;
  mkClient (518)%Z 0x0 0x14d0000014e8 0x0 (1)%Z 0x1100000018 (-1)%Z 0x0 0x0;
  mkClient (519)%Z 0x0 0x14e8000014f6 0x0 (1)%Z 0x0 (-1)%Z 0x0 0x0;
  mkClient (520)%Z 0x0 0x14f6000014fe 0x0 (1)%Z 0x350000003a (-1)%Z 0x0 0x0;
  mkClient (521)%Z 0x0 0x14fe00001503 0x0 (1)%Z 0x2830000028d (-1)%Z 0x0 0x0;
  mkClient (522)%Z 0x0 0x150300001509 0x0 (1)%Z 0x0 (-1)%Z 0x0 0x0;
  mkClient (523)%Z 0x0 0x150900001510 0x0 (1)%Z 0x1d00000023 (-1)%Z 0x0 0x0;
  mkClient (524)%Z 0x0 0x151000001517 0x0 (1)%Z 0x0 (-1)%Z 0x0 0x0;
  mkClient (525)%Z 0x0 0x151700001527 0x0 (1)%Z 0x1d00000023 (-1)%Z 0x0 0x0;
  mkClient (526)%Z 0x0 0x152700001534 0x0 (1)%Z 0x8 (-1)%Z 0x0 0x0;
  mkClient (527)%Z 0x0 0x8 0x0 (1)%Z 0x8 (-1)%Z 0x0 0x0;
  mkClient (528)%Z 0x0 0x8 0x0 (1)%Z 0x8 (-1)%Z 0x0 0x0;
  mkClient (529)%Z 0x0 0x8 0x0 (-1)%Z 0x0 (-1)%Z 0x0 0x0;
  mkClient (530)%Z 0x0 0x15340000153f 0x0 (1)%Z 0x0 (-1)%Z 0x0 0x0;
  mkClient (531)%Z 0x0 0x153f00001552 0x0 (1)%Z 0x0 (-1)%Z 0x0 0x0;
  mkClient (-1)%Z 0x15520000155a 0x155a00001564 0x0 (-1)%Z 0x0 (-1)%Z 0x0 0x0;
  mkClient (532)%Z 0x0 0x15640000156b 0x0 (1)%Z 0x0 (-1)%Z 0x0 0x0;
  mkClient (533)%Z 0x0 0x156b00001572 0x0 (1)%Z 0x0 (-1)%Z 0x0 0x0;
  mkClient (534)%Z 0x0 0x15720000157e 0x0 (1)%Z 0x0 (-1)%Z 0x0 0x0;
  mkClient (535)%Z 0x0 0x157e00001584 0x0 (1)%Z 0x1d00000023 (-1)%Z 0x0 0x0;
  mkClient (536)%Z 0x0 0x15840000158b 0x0 (1)%Z 0x0 (-1)%Z 0x0 0x0;
  mkClient (537)%Z 0x0 0x158b00001593 0x0 (1)%Z 0x1d00000023 (-1)%Z 0x0 0x0;
  mkClient (538)%Z 0x0 0x15930000159a 0x0 (1)%Z 0x0 (-1)%Z 0x0 0x0;
  mkClient (-1)%Z 0x159a000015a7 0x15a7000015b4 0x0 (-1)%Z 0x0 (-1)%Z 0x0 0x0;
  mkClient (539)%Z 0x0 0x15b4000015b9 0x0 (1)%Z 0x0 (-1)%Z 0x0 0x0;
  mkClient (540)%Z 0x0 0x15b9000015cb 0x0 (-1)%Z 0x0 (-1)%Z 0x0 0x0;
  mkClient (541)%Z 0x0 0x15cb000015d3 0x0 (1)%Z 0x0 (-1)%Z 0x0 0x0;
  mkClient (542)%Z 0x0 0x15d3000015e2 0x0 (-1)%Z 0x1d00000023 (-1)%Z 0x0 0x0;
  mkClient (543)%Z 0x0 0x15e2000015e7 0x0 (1)%Z 0x0 (-1)%Z 0x0 0x0;
  mkClient (544)%Z 0x0 0x15e2000015e7 0x0 (1)%Z 0x1d00000023 (-1)%Z 0x0 0x0;
  mkClient (545)%Z 0x0 0x15e7000015eb 0x0 (1)%Z 0x1d00000023 (-1)%Z 0x0 0x0;
  mkClient (546)%Z 0x0 0x15eb00001604 0x0 (1)%Z 0x1d00000023 (-1)%Z 0x0 0x0;
  mkClient (547)%Z 0x0 0x160400001611 0x0 (1)%Z 0x1d00000023 (-1)%Z 0x0 0x0;
  mkClient (548)%Z 0x0 0x160400001611 0x0 (1)%Z 0x1d00000023 (-1)%Z 0x0 0x0;
  mkClient (549)%Z 0x0 0x160400001611 0x0 (1)%Z 0x1d00000023 (-1)%Z 0x0 0x0;
  mkClient (550)%Z 0x0 0x160400001611 0x0 (-1)%Z 0x1d00000023 (-1)%Z 0x0 0x0;
  mkClient (551)%Z 0x0 0x161100001617 0x0 (1)%Z 0x1d00000023 (-1)%Z 0x0 0x0;
  mkClient (552)%Z 0x0 0x161100001617 0x0 (1)%Z 0x1d00000023 (-1)%Z 0x0 0x0;
  mkClient (-1)%Z 0x161700001620 0x161100001617 0x0 (-1)%Z 0x1d00000023 (-1)%Z 0x0 0x0;
  mkClient (553)%Z 0x0 0x162000001626 0x0 (1)%Z 0x0 (-1)%Z 0x0 0x0;
  mkClient (554)%Z 0x0 0x3f00000046 0x0 (1)%Z 0x3f00000046 (-1)%Z 0x0 0x0;
  mkClient (-1)%Z 0x16260000162a 0x16260000162a 0x0 (-1)%Z 0x0 (-1)%Z 0x0 0x0;
  mkClient (-1)%Z 0x162a00001637 0x162a00001637 0x0 (-1)%Z 0x0 (-1)%Z 0x0 0x0;
  mkClient (555)%Z 0x0 0x16370000163a 0x0 (1)%Z 0x350000003a (-1)%Z 0x0 0x0;
  mkClient (556)%Z 0x0 0x163a00001644 0x0 (1)%Z 0x0 (-1)%Z 0x0 0x0;
  mkClient (557)%Z 0x0 0x164400001654 0x0 (-1)%Z 0x0 (-1)%Z 0x0 0x0;
  mkClient (558)%Z 0x0 0x16540000165e 0x0 (1)%Z 0x1d00000023 (-1)%Z 0x0 0x0;
  mkClient (559)%Z 0x0 0xeda00000ee1 0x0 (-1)%Z 0x350000003a (-1)%Z 0x0 0x0
].
(** client_repo.go:11-1499, class 1. *)
Definition d_cr_idx1 : list clientTuple :=
  concat [d_cr_idx1_0; d_cr_idx1_1; d_cr_idx1_2].

Definition d_cr_idx2_0 : list clientTuple := [
  mkClient (560)%Z 0x0 0x165e00001667 0x0 (1)%Z 0x0 (-1)%Z 0x166700001688 0x0;
  mkClient (561)%Z 0x0 0x168800001694 0x0 (1)%Z 0x0 (-1)%Z 0x1694000016f6 0x0;
  mkClient (-1)%Z 0x16f600001700 0x16f600001700 0x0 (-1)%Z 0x0 (-1)%Z 0x17000000171f 0x0;
  mkClient (562)%Z 0x0 0x171f00001726 0x0 (1)%Z 0x0 (-1)%Z 0x172600001740 0x0;
  mkClient (563)%Z 0x0 0x174000001749 0x0 (1)%Z 0x0 (-1)%Z 0x174900001762 0x0;
  mkClient (564)%Z 0x0 0x176200001775 0x0 (1)%Z 0x0 (-1)%Z 0x1775000017b2 0x0;
  mkClient (565)%Z 0x0 0x17b2000017ba 0x0 (1)%Z 0x0 (-1)%Z 0x17ba000017ce 0x0;
  mkClient (566)%Z 0x0 0x17ce000017d5 0x0 (1)%Z 0x0 (-1)%Z 0x17d5000017e8 0x0;
  mkClient (567)%Z 0x0 0x17e8000017fd 0x0 (1)%Z 0x0 (-1)%Z 0x17fd00001822 0x0;
  mkClient (568)%Z 0x0 0x182200001829 0x0 (1)%Z 0x0 (-1)%Z 0x18290000183f 0x0;
  mkClient (569)%Z 0x0 0x183f0000184a 0x0 (1)%Z 0x0 (-1)%Z 0x184a00001864 0x0;
  mkClient (570)%Z 0x0 0x186400001877 0x0 (1)%Z 0x0 (-1)%Z 0x18770000188e 0x0;
  mkClient (571)%Z 0x0 0x188e00001896 0x0 (1)%Z 0x0 (-1)%Z 0x18770000188e 0x0;
  mkClient (572)%Z 0x0 0x1896000018a0 0x0 (1)%Z 0x0 (-1)%Z 0x18a0000018ba 0x0;
  mkClient (573)%Z 0x0 0x18ba000018c5 0x0 (1)%Z 0x0 (-1)%Z 0x18c5000018d7 0x0;
  mkClient (574)%Z 0x0 0x18d7000018db 0x0 (1)%Z 0x0 (-1)%Z 0x18db000018fb 0x0;
  mkClient (575)%Z 0x0 0x18fb00001902 0x0 (1)%Z 0x0 (-1)%Z 0x190200001918 0x0;
  mkClient (576)%Z 0x0 0x19180000191e 0x0 (1)%Z 0x0 (-1)%Z 0x191e00001933 0x0;
  mkClient (577)%Z 0x0 0x19330000193d 0x0 (1)%Z 0x0 (-1)%Z 0x193d00001956 0x0;
  mkClient (578)%Z 0x0 0x195600001960 0x0 (1)%Z 0x0 (-1)%Z 0x1960000019a5 0x0;
  mkClient (579)%Z 0x0 0x19a5000019ab 0x0 (1)%Z 0x0 (-1)%Z 0x19ab000019c2 0x0;
  mkClient (-1)%Z 0x19c2000019ca 0x19c2000019ca 0x0 (-1)%Z 0x0 (-1)%Z 0x19ca000019ed 0x0;
  mkClient (580)%Z 0x0 0x19ed000019f4 0x0 (1)%Z 0x0 (-1)%Z 0x19f400001a12 0x0;
  mkClient (581)%Z 0x0 0x1a1200001a19 0x0 (1)%Z 0x0 (-1)%Z 0x1a1900001a35 0x0;
  mkClient (582)%Z 0x0 0x1a3500001a3d 0x0 (1)%Z 0x0 (-1)%Z 0x1a3d00001a5c 0x0;
  mkClient (583)%Z 0x0 0x1a5c00001a64 0x0 (1)%Z 0x0 (-1)%Z 0x1a6400001a79 0x0;
  mkClient (584)%Z 0x0 0x1a7900001a81 0x0 (1)%Z 0x0 (-1)%Z 0x1a8100001aa7 0x0;
  mkClient (585)%Z 0x0 0x19180000191e 0x0 (1)%Z 0x0 (-1)%Z 0x1aa700001abd 0x0
].
(** client_repo.go:11-1499, class 2. *)
Definition d_cr_idx2 : list clientTuple :=
  concat [d_cr_idx2_0].

Definition d_cr_idx3_0 : list clientTuple := [
  mkClient (586)%Z 0x0 0x1abd00001ac6 0x0 (1)%Z 0x0 (-1)%Z 0x1ac600001adc 0x0;
  mkClient (587)%Z 0x0 0x1adc00001ae2 0x0 (1)%Z 0x0 (-1)%Z 0x1ae200001afb 0x0;
  mkClient (588)%Z 0x0 0x1afb00001b04 0x0 (1)%Z 0x0 (-1)%Z 0x1b0400001b18 0x0;
  mkClient (589)%Z 0x0 0x1b1800001b25 0x0 (1)%Z 0x0 (-1)%Z 0x1b0400001b18 0x0;
  mkClient (590)%Z 0x0 0x1b2500001b29 0x0 (1)%Z 0x0 (-1)%Z 0x1b2900001b45 0x0;
  mkClient (-1)%Z 0x1b4500001b53 0x1b4500001b53 0x0 (-1)%Z 0x0 (-1)%Z 0x1b5300001b71 0x0;
  mkClient (-1)%Z 0x1b7100001b7b 0x1b7b00001b85 0x0 (-1)%Z 0x0 (-1)%Z 0x1b8500001ba5 0x0;
  mkClient (591)%Z 0x0 0x1ba500001bb0 0x0 (1)%Z 0x0 (-1)%Z 0x1bb000001bd3 0x0;
  mkClient (592)%Z 0x0 0x1bd300001bd6 0x0 (1)%Z 0x0 (-1)%Z 0x1bd600001bf9 0x0;
  mkClient (-1)%Z 0x1bf900001c01 0x1bf900001c01 0x0 (-1)%Z 0x0 (-1)%Z 0x1c0100001c25 0x0;
  mkClient (593)%Z 0x0 0x1c2500001c28 0x0 (1)%Z 0x0 (-1)%Z 0x1c2800001c44 0x0;
  mkClient (594)%Z 0x0 0x1c4400001c4b 0x0 (-1)%Z 0x0 (-1)%Z 0x1c4b00001c74 0x0;
  mkClient (595)%Z 0x0 0x1c7400001c86 0x0 (1)%Z 0x0 (-1)%Z 0x1c8600001cbe 0x0;
  mkClient (596)%Z 0x0 0x1cbe00001cc2 0x0 (1)%Z 0x0 (-1)%Z 0x1cc200001cd3 0x0;
  mkClient (597)%Z 0x0 0x1cd300001cd9 0x0 (1)%Z 0x0 (-1)%Z 0x1cd900001cf7 0x0;
  mkClient (598)%Z 0x0 0x1cf700001cfc 0x0 (1)%Z 0x0 (-1)%Z 0x1cfc00001d19 0x0;
  mkClient (599)%Z 0x0 0x1d1900001d21 0x0 (1)%Z 0x0 (-1)%Z 0x1d2100001d44 0x0;
  mkClient (600)%Z 0x0 0x1d4400001d50 0x0 (1)%Z 0x0 (-1)%Z 0x1d5000001d76 0x0;
  mkClient (601)%Z 0x0 0x1d7600001d84 0x0 (1)%Z 0x0 (-1)%Z 0x1d8400001db4 0x0;
  mkClient (602)%Z 0x0 0x1db400001dc6 0x0 (1)%Z 0x0 (-1)%Z 0x1dc600001ddd 0x0;
  mkClient (603)%Z 0x0 0x1ddd00001dea 0x0 (1)%Z 0x0 (-1)%Z 0x1dea00001e11 0x0;
  mkClient (604)%Z 0x0 0x1e1100001e19 0x0 (1)%Z 0x0 (-1)%Z 0x1e1900001e32 0x0;
  mkClient (605)%Z 0x0 0x1e3200001e37 0x0 (1)%Z 0x0 (-1)%Z 0x1e3700001e4d 0x0;
  mkClient (606)%Z 0x0 0x1e4d00001e54 0x0 (1)%Z 0x0 (-1)%Z 0x1e5400001e79 0x0;
  mkClient (607)%Z 0x0 0x1e7900001e7d 0x0 (1)%Z 0x0 (-1)%Z 0x0 0x0;
  mkClient (608)%Z 0x0 0x1e7d00001e95 0x0 (1)%Z 0x0 (-1)%Z 0x0 0x0;
  mkClient (609)%Z 0x0 0x1e9500001e9c 0x0 (1)%Z 0x0 (-1)%Z 0x0 0x0;
  mkClient (610)%Z 0x0 0x1e9c00001ea0 0x0 (1)%Z 0x0 (-1)%Z 0x0 0x0;
  mkClient (611)%Z 0x0 0x1ea000001eaf 0x0 (1)%Z 0x0 (-1)%Z 0x0 0x0;
  mkClient (612)%Z 0x0 0x1eaf00001eb7 0x0 (1)%Z 0x0 (-1)%Z 0x1eb700001ed9 0x0;
  mkClient (613)%Z 0x0 0x1ed900001ee6 0x0 (1)%Z 0x0 (-1)%Z 0x0 0x0;
  mkClient (614)%Z 0x0 0x1ee600001ef8 0x0 (1)%Z 0x0 (-1)%Z 0x0 0x0;
  mkClient (615)%Z 0x0 0x1ef800001f08 0x0 (1)%Z 0x0 (-1)%Z 0x0 0x0;
  mkClient (616)%Z 0x0 0x1f0800001f0c 0x0 (1)%Z 0x0 (-1)%Z 0x0 0x0;
  mkClient (617)%Z 0x0 0x1f0c00001f10 0x0 (1)%Z 0x0 (-1)%Z 0x0 0x0;
  mkClient (618)%Z 0x0 0x1f1000001f19 0x0 (1)%Z 0x0 (-1)%Z 0x1f1900001f3a 0x0;
  mkClient (619)%Z 0x0 0x1f3a00001f40 0x0 (1)%Z 0x0 (-1)%Z 0x0 0x0;
  mkClient (620)%Z 0x0 0x1f3a00001f40 0x0 (1)%Z 0x0 (-1)%Z 0x0 0x0;
  mkClient (621)%Z 0x0 0x1f4000001f4d 0x0 (1)%Z 0x0 (-1)%Z 0x1f4d00001f77 0x0;
  mkClient (622)%Z 0x0 0x1f7700001f80 0x0 (1)%Z 0x0 (-1)%Z 0x1f8000001faa 0x0;
  mkClient (623)%Z 0x0 0x1faa00001fb1 0x0 (1)%Z 0x0 (-1)%Z 0x0 0x0;
  mkClient (624)%Z 0x0 0x1fb100001fc8 0x0 (1)%Z 0x0 (-1)%Z 0x0 0x0;
  mkClient (625)%Z 0x0 0x1fc800001fd5 0x0 (1)%Z 0x0 (-1)%Z 0x0 0x0;
  mkClient (626)%Z 0x0 0x1fd500001fdc 0x0 (1)%Z 0x0 (-1)%Z 0x1fdc00002001 0x0;
  mkClient (627)%Z 0x0 0x20010000200f 0x0 (1)%Z 0x0 (-1)%Z 0x0 0x0;
  mkClient (628)%Z 0x0 0x200f0000201f 0x0 (1)%Z 0x0 (-1)%Z 0x0 0x0;
  mkClient (629)%Z 0x0 0x201f00002025 0x0 (1)%Z 0x0 (-1)%Z 0x0 0x0;
  mkClient (630)%Z 0x0 0x20250000202b 0x0 (1)%Z 0x0 (-1)%Z 0x0 0x0;
  mkClient (631)%Z 0x0 0x202b0000203f 0x0 (1)%Z 0x0 (-1)%Z 0x0 0x0;
  mkClient (632)%Z 0x0 0x203f00002048 0x0 (1)%Z 0x0 (-1)%Z 0x20480000206e 0x0;
  mkClient (633)%Z 0x0 0x206e00002079 0x0 (1)%Z 0x0 (-1)%Z 0x20790000209e 0x0;
  mkClient (634)%Z 0x0 0x209e000020af 0x0 (1)%Z 0x0 (-1)%Z 0x20af000020d4 0x0;
  mkClient (635)%Z 0x0 0x20d4000020de 0x0 (1)%Z 0x0 (-1)%Z 0x20de00002106 0x0;
  mkClient (636)%Z 0x0 0x210600002114 0x0 (1)%Z 0x0 (-1)%Z 0x211400002140 0x0;
  mkClient (637)%Z 0x0 0x21400000214c 0x0 (1)%Z 0x0 (-1)%Z 0x214c00002174 0x0;
  mkClient (638)%Z 0x0 0x217400002183 0x0 (1)%Z 0x0 (-1)%Z 0x2183000021b1 0x0;
  mkClient (639)%Z 0x0 0x21b1000021c5 0x0 (1)%Z 0x0 (-1)%Z 0x21c5000021da 0x0;
  mkClient (640)%Z 0x0 0x21da000021f4 0x0 (1)%Z 0x0 (-1)%Z 0x21f400002218 0x0;
  mkClient (641)%Z 0x0 0x22180000222e 0x0 (1)%Z 0x0 (-1)%Z 0x0 0x0;
  mkClient (-1)%Z 0x222e00002235 0x223500002241 0x0 (-1)%Z 0x0 (-1)%Z 0x0 0x0;
  mkClient (642)%Z 0x0 0x224100002257 0x0 (1)%Z 0x0 (-1)%Z 0x0 0x0;
  mkClient (643)%Z 0x0 0x225700002265 0x0 (1)%Z 0x0 (-1)%Z 0x0 0x0;
  mkClient (644)%Z 0x0 0x22650000226e 0x0 (1)%Z 0x0 (-1)%Z 0x0 0x0;
  mkClient (645)%Z 0x0 0x226e00002277 0x0 (1)%Z 0x0 (-1)%Z 0x0 0x0;
  mkClient (646)%Z 0x0 0x22770000227c 0x0 (1)%Z 0x0 (-1)%Z 0x0 0x0;
  mkClient (647)%Z 0x0 0x227c00002284 0x0 (-1)%Z 0x0 (-1)%Z 0x0 0x0;
  mkClient (648)%Z 0x0 0x228400002288 0x0 (1)%Z 0x0 (-1)%Z 0x0 0x0;
  mkClient (-1)%Z 0x228800002295 0x228800002295 0x0 (-1)%Z 0x0 (-1)%Z 0x0 0x0;
  mkClient (649)%Z 0x0 0x2295000022a1 0x0 (1)%Z 0x0 (-1)%Z 0x0 0x0;
  mkClient (650)%Z 0x0 0x22a1000022b4 0x0 (1)%Z 0x0 (-1)%Z 0x0 0x0;
  mkClient (651)%Z 0x0 0x22b4000022c4 0x0 (1)%Z 0x0 (-1)%Z 0x0 0x0;
  mkClient (652)%Z 0x0 0x22c4000022c9 0x0 (1)%Z 0x0 (-1)%Z 0x0 0x0;
  mkClient (653)%Z 0x0 0x22c9000022d0 0x0 (1)%Z 0x0 (-1)%Z 0x0 0x0;
  mkClient (654)%Z 0x0 0x22d0000022d5 0x0 (1)%Z 0x0 (-1)%Z 0x0 0x0;
  mkClient (655)%Z 0x0 0x22d5000022da 0x0 (1)%Z 0x0 (-1)%Z 0x0 0x0;
  mkClient (656)%Z 0x0 0x22da000022f1 0x0 (1)%Z 0x0 (-1)%Z 0x0 0x0;
  mkClient (657)%Z 0x0 0x22f1000022fc 0x0 (1)%Z 0x0 (-1)%Z 0x0 0x0;
  mkClient (658)%Z 0x0 0x22fc0000230e 0x0 (1)%Z 0x0 (-1)%Z 0x0 0x0;
  mkClient (659)%Z 0x0 0x230e00002315 0x0 (1)%Z 0x0 (-1)%Z 0x0 0x0;
  mkClient (660)%Z 0x0 0x23150000231d 0x0 (1)%Z 0x0 (-1)%Z 0x0 0x0;
  mkClient (661)%Z 0x0 0x231d00002327 0x0 (1)%Z 0x0 (-1)%Z 0x0 0x0;
  mkClient (662)%Z 0x0 0x232700002331 0x0 (1)%Z 0x0 (-1)%Z 0x0 0x0;
  mkClient (663)%Z 0x0 0x233100002336 0x0 (1)%Z 0x0 (-1)%Z 0x0 0x0;
  mkClient (664)%Z 0x0 0x23360000233c 0x0 (1)%Z 0x0 (-1)%Z 0x0 0x0;
  mkClient (665)%Z 0x0 0x233c00002351 0x0 (1)%Z 0x0 (-1)%Z 0x0 0x0;
  mkClient (666)%Z 0x0 0x235100002357 0x0 (1)%Z 0x0 (-1)%Z 0x0 0x0;
  mkClient (667)%Z 0x0 0x23570000235d 0x0 (1)%Z 0x0 (-1)%Z 0x0 0x0;
  mkClient (668)%Z 0x0 0x235d00002361 0x0 (1)%Z 0x0 (-1)%Z 0x0 0x0;
  mkClient (-1)%Z 0x236100002377 0x23770000238d 0x0 (-1)%Z 0x0 (-1)%Z 0x0 0x0;
  mkClient (669)%Z 0x0 0x238d00002392 0x0 (1)%Z 0x0 (-1)%Z 0x0 0x0;
  mkClient (670)%Z 0x0 0x23920000239d 0x0 (1)%Z 0x0 (-1)%Z 0x0 0x0;
  mkClient (671)%Z 0x0 0x239d000023a1 0x0 (1)%Z 0x0 (-1)%Z 0x0 0x0;
  mkClient (672)%Z 0x0 0x23a1000023a5 0x0 (1)%Z 0x0 (-1)%Z 0x0 0x0;
  mkClient (673)%Z 0x0 0x23a5000023ab 0x0 (1)%Z 0x0 (-1)%Z 0x0 0x0;
  mkClient (674)%Z 0x0 0x23ab000023b9 0x0 (1)%Z 0x0 (-1)%Z 0x0 0x0;
  mkClient (675)%Z 0x0 0x23b9000023c2 0x0 (1)%Z 0x0 (-1)%Z 0x0 0x0;
  mkClient (676)%Z 0x0 0x23c2000023cb 0x0 (1)%Z 0x0 (-1)%Z 0x0 0x0;
  mkClient (677)%Z 0x0 0x23cb000023d4 0x0 (1)%Z 0x0 (-1)%Z 0x0 0x0;
  mkClient (-1)%Z 0x23d4000023e4 0x23d4000023e4 0x0 (-1)%Z 0x0 (-1)%Z 0x0 0x0;
  mkClient (678)%Z 0x0 0x23e4000023eb 0x0 (1)%Z 0x0 (-1)%Z 0x0 0x0;
  mkClient (679)%Z 0x0 0x23eb0000240f 0x0 (1)%Z 0x0 (-1)%Z 0x0 0x0;
  mkClient (680)%Z 0x0 0x240f0000241b 0x0 (-1)%Z 0x0 (-1)%Z 0x0 0x0;
  mkClient (681)%Z 0x0 0x241b00002422 0x0 (1)%Z 0x0 (-1)%Z 0x0 0x0;
  mkClient (682)%Z 0x0 0x242200002430 0x0 (-1)%Z 0x0 (-1)%Z 0x0 0x0;
  mkClient (683)%Z 0x0 0x243000002434 0x0 (-1)%Z 0x0 (-1)%Z 0x0 0x0;
  mkClient (684)%Z 0x0 0x243400002447 0x0 (1)%Z 0x0 (-1)%Z 0x0 0x0;
  mkClient (685)%Z 0x0 0x24470000244d 0x0 (-1)%Z 0x0 (-1)%Z 0x0 0x0;
  mkClient (686)%Z 0x0 0x244d00002452 0x0 (1)%Z 0x0 (-1)%Z 0x0 0x0;
  mkClient (687)%Z 0x0 0x245200002467 0x0 (1)%Z 0x0 (-1)%Z 0x0 0x0;
  mkClient (688)%Z 0x0 0x246700002479 0x0 (1)%Z 0x0 (-1)%Z 0x0 0x0;
  mkClient (689)%Z 0x0 0x24790000247f 0x0 (-1)%Z 0x0 (-1)%Z 0x0 0x0;
  mkClient (690)%Z 0x0 0x247f0000248e 0x0 (-1)%Z 0x0 (-1)%Z 0x0 0x0;
  mkClient (691)%Z 0x0 0x248e00002499 0x0 (1)%Z 0x0 (-1)%Z 0x2499000024bf 0x0;
  mkClient (-1)%Z 0x24bf000024d6 0x24d6000024de 0x0 (-1)%Z 0x0 (-1)%Z 0x24de000024fd 0x0;
  mkClient (692)%Z 0x0 0x24fd00002504 0x0 (1)%Z 0x0 (-1)%Z 0x250400002527 0x0;
  mkClient (693)%Z 0x0 0x252700002533 0x0 (1)%Z 0x0 (-1)%Z 0x25330000256f 0x0;
  mkClient (694)%Z 0x0 0x256f00002576 0x0 (-1)%Z 0x0 (-1)%Z 0x257600002599 0x0;
  mkClient (695)%Z 0x0 0x2599000025a9 0x0 (1)%Z 0x0 (-1)%Z 0x25a9000025d2 0x0;
  mkClient (696)%Z 0x0 0x25d2000025e3 0x0 (1)%Z 0x0 (-1)%Z 0x25e30000260d 0x0;
  mkClient (697)%Z 0x0 0x260d00002621 0x0 (1)%Z 0x0 (-1)%Z 0x262100002648 0x0;
  mkClient (698)%Z 0x0 0x26480000264f 0x0 (1)%Z 0x0 (-1)%Z 0x264f0000266d 0x0;
  mkClient (699)%Z 0x0 0x266d00002677 0x0 (1)%Z 0x0 (-1)%Z 0x26770000269a 0x0;
  mkClient (-1)%Z 0x269a000026a1 0x269a000026a1 0x0 (-1)%Z 0x0 (-1)%Z 0x26a1000026b9 0x0;
  mkClient (700)%Z 0x0 0x26b9000026c0 0x0 (-1)%Z 0x0 (-1)%Z 0x26c0000026e2 0x0;
  mkClient (701)%Z 0x0 0x26e2000026e8 0x0 (1)%Z 0x0 (-1)%Z 0x26e800002708 0x0;
  mkClient (702)%Z 0x0 0x27080000270e 0x0 (1)%Z 0x0 (-1)%Z 0x270e0000273b 0x0;
  mkClient (703)%Z 0x0 0x273b00002740 0x0 (1)%Z 0x0 (-1)%Z 0x27400000275d 0x0;
  mkClient (704)%Z 0x0 0x275d00002764 0x0 (1)%Z 0x0 (-1)%Z 0x276400002791 0x0;
  mkClient (705)%Z 0x0 0x27910000279c 0x0 (1)%Z 0x0 (-1)%Z 0x279c000027c7 0x0;
  mkClient (706)%Z 0x0 0x27c7000027cd 0x0 (1)%Z 0x0 (-1)%Z 0x27cd000027e4 0x0;
  mkClient (707)%Z 0x0 0x27e4000027f6 0x0 (1)%Z 0x0 (-1)%Z 0x27f60000284b 0x0;
  mkClient (708)%Z 0x0 0x284b00002856 0x0 (1)%Z 0x0 (-1)%Z 0x28560000287a 0x0;
  mkClient (709)%Z 0x0 0x287a00002880 0x0 (1)%Z 0x0 (-1)%Z 0x288000002893 0x0;
  mkClient (710)%Z 0x0 0x28930000289c 0x0 (1)%Z 0x0 (-1)%Z 0x289c000028be 0x0;
  mkClient (711)%Z 0x0 0x28be000028c1 0x0 (1)%Z 0x0 (-1)%Z 0x0 0x0;
  mkClient (712)%Z 0x0 0x28c1000028cb 0x0 (1)%Z 0x0 (-1)%Z 0x0 0x0;
  mkClient (713)%Z 0x0 0x28cb000028ce 0x0 (1)%Z 0x0 (-1)%Z 0x28ce000028dd 0x0;
  mkClient (714)%Z 0x0 0x28dd000028e3 0x0 (1)%Z 0x0 (-1)%Z 0x28e3000028f6 0x0;
  mkClient (715)%Z 0x0 0x28f6000028fc 0x0 (1)%Z 0x0 (-1)%Z 0x28fc0000291c 0x0;
  mkClient (716)%Z 0x0 0x291c00002929 0x0 (1)%Z 0x0 (-1)%Z 0x292900002955 0x0;
  mkClient (717)%Z 0x0 0x29550000295c 0x0 (1)%Z 0x0 (-1)%Z 0x295c00002974 0x0;
  mkClient (-1)%Z 0x29740000297f 0x29740000297f 0x0 (-1)%Z 0x0 (-1)%Z 0x297f000029a5 0x0;
  mkClient (-1)%Z 0x29a5000029b9 0x29a5000029b9 0x0 (-1)%Z 0x0 (-1)%Z 0x29b9000029e4 0x0;
  mkClient (718)%Z 0x0 0x29e4000029e9 0x0 (1)%Z 0x0 (-1)%Z 0x29e900002a09 0x0
].
(** client_repo.go:11-1499, class 3. *)
Definition d_cr_idx3 : list clientTuple :=
  concat [d_cr_idx3_0].

Definition d_cr_idx4_0 : list clientTuple := [
  mkClient (719)%Z 0x0 0x2a0900002a12 0x0 (1)%Z 0x0 (-1)%Z 0x0 0x0;
  mkClient (720)%Z 0x0 0x2a1200002a17 0x0 (1)%Z 0x0 (-1)%Z 0x0 0x0;
  mkClient (721)%Z 0x0 0x2a1700002a1e 0x0 (1)%Z 0x0 (-1)%Z 0x0 0x0;
  mkClient (722)%Z 0x0 0x2a1e00002a23 0x0 (1)%Z 0x0 (-1)%Z 0x0 0x0;
  mkClient (723)%Z 0x0 0x2a2300002a2d 0x0 (1)%Z 0x0 (-1)%Z 0x0 0x0;
  mkClient (724)%Z 0x0 0x2a2d00002a33 0x0 (1)%Z 0x0 (-1)%Z 0x0 0x0;
  mkClient (725)%Z 0x0 0x2a3300002a39 0x0 (1)%Z 0x0 (-1)%Z 0x0 0x0;
  mkClient (726)%Z 0x0 0x2a3900002a40 0x0 (1)%Z 0x0 (-1)%Z 0x0 0x0;
  mkClient (727)%Z 0x0 0x2a4000002a4a 0x0 (1)%Z 0x0 (-1)%Z 0x0 0x0;
  mkClient (728)%Z 0x0 0x2a4a00002a55 0x0 (1)%Z 0x0 (-1)%Z 0x0 0x0;
  mkClient (729)%Z 0x0 0x2a5500002a59 0x0 (1)%Z 0x0 (-1)%Z 0x0 0x0;
  mkClient (730)%Z 0x0 0x2a5900002a62 0x0 (1)%Z 0x0 (-1)%Z 0x0 0x0;
  mkClient (731)%Z 0x0 0x2a6200002a6d 0x0 (1)%Z 0x0 (-1)%Z 0x0 0x0;
  mkClient (732)%Z 0x0 0x2a6d00002a76 0x0 (1)%Z 0x0 (-1)%Z 0x0 0x0;
  mkClient (733)%Z 0x0 0x2a7600002a7e 0x0 (1)%Z 0x0 (-1)%Z 0x0 0x0;
  mkClient (734)%Z 0x0 0x2a7e00002a87 0x0 (1)%Z 0x0 (-1)%Z 0x0 0x0;
  mkClient (735)%Z 0x0 0x2a8700002a8c 0x0 (1)%Z 0x0 (-1)%Z 0x0 0x0;
  mkClient (736)%Z 0x0 0x2a8c00002a8f 0x0 (1)%Z 0x0 (-1)%Z 0x0 0x0;
  mkClient (737)%Z 0x0 0x2a8f00002a95 0x0 (1)%Z 0x0 (-1)%Z 0x0 0x0;
  mkClient (738)%Z 0x0 0x2a9500002aa8 0x0 (1)%Z 0x0 (-1)%Z 0x0 0x0;
  mkClient (739)%Z 0x0 0x2aa800002abc 0x0 (1)%Z 0x0 (-1)%Z 0x0 0x0;
  mkClient (740)%Z 0x0 0x2abc00002ac0 0x0 (1)%Z 0x0 (-1)%Z 0x0 0x0;
  mkClient (741)%Z 0x0 0x2ac000002ac4 0x0 (1)%Z 0x0 (-1)%Z 0x0 0x0;
  mkClient (742)%Z 0x0 0x2ac400002acf 0x0 (1)%Z 0x0 (-1)%Z 0x0 0x0;
  mkClient (743)%Z 0x0 0x2acf00002ade 0x0 (1)%Z 0x0 (-1)%Z 0x0 0x0;
  mkClient (744)%Z 0x0 0x2ade00002af1 0x0 (1)%Z 0x0 (-1)%Z 0x0 0x0;
  mkClient (745)%Z 0x0 0x2af100002af4 0x0 (1)%Z 0x0 (-1)%Z 0x0 0x0;
  mkClient (-1)%Z 0x2af400002b08 0x2af400002b08 0x0 (-1)%Z 0x0 (-1)%Z 0x0 0x0;
  mkClient (746)%Z 0x0 0x2b0800002b15 0x0 (1)%Z 0x0 (-1)%Z 0x0 0x0;
  mkClient (747)%Z 0x0 0x2b1500002b1c 0x0 (1)%Z 0x0 (-1)%Z 0x0 0x0;
  mkClient (748)%Z 0x0 0x2b1c00002b24 0x0 (1)%Z 0x0 (-1)%Z 0x0 0x0;
  mkClient (749)%Z 0x0 0x2b2400002b29 0x0 (1)%Z 0x0 (-1)%Z 0x0 0x0;
  mkClient (750)%Z 0x0 0x2b2900002b33 0x0 (1)%Z 0x0 (-1)%Z 0x0 0x0;
  mkClient (751)%Z 0x0 0x2b3300002b38 0x0 (1)%Z 0x0 (-1)%Z 0x0 0x0;
  mkClient (752)%Z 0x0 0x2b3800002b40 0x0 (1)%Z 0x0 (-1)%Z 0x0 0x0;
  mkClient (753)%Z 0x0 0x2b4000002b48 0x0 (1)%Z 0x0 (-1)%Z 0x0 0x0;
  mkClient (754)%Z 0x0 0x2b4800002b4e 0x0 (1)%Z 0x0 (-1)%Z 0x0 0x0;
  mkClient (755)%Z 0x0 0x2b4e00002b57 0x0 (1)%Z 0x0 (-1)%Z 0x0 0x0;
  mkClient (756)%Z 0x0 0x2b5700002b64 0x0 (1)%Z 0x0 (-1)%Z 0x0 0x0;
  mkClient (757)%Z 0x0 0x2b6400002b70 0x0 (1)%Z 0x0 (-1)%Z 0x0 0x0;
  mkClient (758)%Z 0x0 0x2b7000002b7d 0x0 (-1)%Z 0x0 (-1)%Z 0x0 0x0;
  mkClient (759)%Z 0x0 0x2b7d00002b81 0x0 (1)%Z 0x0 (-1)%Z 0x0 0x0;
  mkClient (760)%Z 0x0 0x2b8100002b88 0x0 (1)%Z 0x0 (-1)%Z 0x0 0x0
].
(** client_repo.go:11-1499, class 4. *)
Definition d_cr_idx4 : list clientTuple :=
  concat [d_cr_idx4_0].

Definition d_cr_idx5_0 : list clientTuple := [
  mkClient (761)%Z 0x0 0x2b8800002b8d 0x0 (1)%Z 0x0 (-1)%Z 0x0 0x0;
  mkClient (762)%Z 0x0 0x2b8d00002b91 0x0 (1)%Z 0x0 (-1)%Z 0x0 0x0;
  mkClient (763)%Z 0x0 0x2b9100002b95 0x0 (-1)%Z 0x0 (-1)%Z 0x0 0x0;
  mkClient (764)%Z 0x0 0x2b9500002b9f 0x0 (1)%Z 0x0 (-1)%Z 0x0 0x0;
  mkClient (765)%Z 0x0 0x2b9f00002ba4 0x0 (1)%Z 0x0 (-1)%Z 0x0 0x0;
  mkClient (766)%Z 0x0 0x2b9f00002ba4 0x0 (1)%Z 0x0 (-1)%Z 0x0 0x0;
  mkClient (767)%Z 0x0 0x2b9f00002ba4 0x0 (1)%Z 0x0 (-1)%Z 0x0 0x0;
  mkClient (768)%Z 0x0 0x2ba400002bb4 0x0 (1)%Z 0x0 (-1)%Z 0x0 0x0;
  mkClient (769)%Z 0x0 0x2bb400002bbb 0x0 (1)%Z 0x0 (-1)%Z 0x0 0x0;
  mkClient (770)%Z 0x0 0x2bbb00002bd1 0x0 (1)%Z 0x0 (-1)%Z 0x0 0x0;
  mkClient (771)%Z 0x0 0x2bd100002bdb 0x0 (1)%Z 0x0 (-1)%Z 0x0 0x0;
  mkClient (772)%Z 0x0 0x2bdb00002be3 0x0 (-1)%Z 0x0 (-1)%Z 0x0 0x0;
  mkClient (773)%Z 0x0 0x2be300002bfc 0x0 (1)%Z 0x0 (-1)%Z 0x0 0x0;
  mkClient (774)%Z 0x0 0x2bfc00002c13 0x0 (1)%Z 0x0 (-1)%Z 0x0 0x0;
  mkClient (775)%Z 0x0 0x2c1300002c25 0x0 (1)%Z 0x0 (-1)%Z 0x0 0x0;
  mkClient (776)%Z 0x0 0x2c1300002c25 0x0 (-1)%Z 0x0 (-1)%Z 0x0 0x0;
  mkClient (777)%Z 0x0 0x2c2500002c34 0x0 (1)%Z 0x0 (-1)%Z 0x0 0x0;
  mkClient (778)%Z 0x0 0x2c3400002c41 0x0 (1)%Z 0x0 (-1)%Z 0x0 0x0;
  mkClient (779)%Z 0x0 0x2c4100002c54 0x0 (1)%Z 0x0 (-1)%Z 0x0 0x0;
  mkClient (780)%Z 0x0 0x2c5400002c5c 0x0 (1)%Z 0x0 (-1)%Z 0x0 0x0;
  mkClient (781)%Z 0x0 0x2c5400002c5c 0x0 (-1)%Z 0x0 (-1)%Z 0x0 0x0;
  mkClient (782)%Z 0x0 0x2c5c00002c65 0x0 (1)%Z 0x0 (-1)%Z 0x0 0x0;
  mkClient (783)%Z 0x0 0x2c6500002c6c 0x0 (1)%Z 0x0 (-1)%Z 0x0 0x0;
  mkClient (784)%Z 0x0 0x2c6c00002c71 0x0 (1)%Z 0x0 (-1)%Z 0x0 0x0;
  mkClient (785)%Z 0x0 0x2c7100002c7a 0x0 (-1)%Z 0x0 (-1)%Z 0x0 0x0;
  mkClient (786)%Z 0x0 0x2c7100002c7a 0x0 (1)%Z 0x0 (-1)%Z 0x0 0x0;
  mkClient (787)%Z 0x0 0x2c7a00002c87 0x0 (-1)%Z 0x0 (-1)%Z 0x0 0x0;
  mkClient (788)%Z 0x0 0x2c8700002c9c 0x0 (-1)%Z 0x0 (-1)%Z 0x0 0x0;
  mkClient (789)%Z 0x0 0x2c9c00002ca7 0x0 (-1)%Z 0x0 (-1)%Z 0x0 0x0;
  mkClient (790)%Z 0x0 0x2ca700002cb3 0x0 (1)%Z 0x0 (-1)%Z 0x0 0x0;
  mkClient (791)%Z 0x0 0x2cb300002cc3 0x0 (1)%Z 0x0 (-1)%Z 0x0 0x0;
  mkClient (792)%Z 0x0 0x2cc300002cce 0x0 (1)%Z 0x0 (-1)%Z 0x0 0x0;
  mkClient (793)%Z 0x0 0x2cce00002cd4 0x0 (-1)%Z 0x0 (-1)%Z 0x0 0x0;
  mkClient (794)%Z 0x0 0x2cd400002cd9 0x0 (1)%Z 0x0 (-1)%Z 0x0 0x0;
  mkClient (795)%Z 0x0 0x2cd900002cdf 0x0 (1)%Z 0x0 (-1)%Z 0x0 0x0;
  mkClient (796)%Z 0x0 0x2cd900002cdf 0x0 (1)%Z 0x0 (-1)%Z 0x0 0x0;
  mkClient (797)%Z 0x0 0x2cdf00002cf5 0x0 (1)%Z 0x0 (-1)%Z 0x0 0x0;
  mkClient (798)%Z 0x0 0x2cf500002cfd 0x0 (1)%Z 0x0 (-1)%Z 0x0 0x0;
  mkClient (799)%Z 0x0 0x2cfd00002d07 0x0 (1)%Z 0x0 (-1)%Z 0x0 0x0;
  mkClient (800)%Z 0x0 0x2d0700002d10 0x0 (1)%Z 0x0 (-1)%Z 0x0 0x0;
  mkClient (-1)%Z 0x2d1000002d21 0x2d1000002d21 0x0 (-1)%Z 0x0 (-1)%Z 0x0 0x0;
  mkClient (801)%Z 0x0 0x2d2100002d28 0x0 (1)%Z 0x0 (-1)%Z 0x0 0x0;
  mkClient (802)%Z 0x0 0x2d2100002d28 0x0 (1)%Z 0x0 (-1)%Z 0x0 0x0;
  mkClient (803)%Z 0x0 0x2d2800002d2e 0x0 (1)%Z 0x0 (-1)%Z 0x0 0x0;
  mkClient (804)%Z 0x0 0x2d2e00002d35 0x0 (1)%Z 0x0 (-1)%Z 0x0 0x0;
  mkClient (805)%Z 0x0 0x2b1c00002b24 0x0 (1)%Z 0x0 (-1)%Z 0x0 0x0;
  mkClient (806)%Z 0x0 0x2d3500002d3a 0x0 (-1)%Z 0x0 (-1)%Z 0x0 0x0;
  mkClient (807)%Z 0x0 0x2d3500002d3a 0x0 (1)%Z 0x0 (-1)%Z 0x0 0x0;
  mkClient (808)%Z 0x0 0x2d3a00002d40 0x0 (-1)%Z 0x0 (-1)%Z 0x0 0x0;
  mkClient (809)%Z 0x0 0x2d4000002d51 0x0 (1)%Z 0x0 (-1)%Z 0x0 0x0;
  mkClient (810)%Z 0x0 0x2d5100002d59 0x0 (1)%Z 0x0 (-1)%Z 0x0 0x0;
  mkClient (811)%Z 0x0 0x2d5900002d63 0x0 (1)%Z 0x0 (-1)%Z 0x0 0x0;
  mkClient (812)%Z 0x0 0x2d6300002d6e 0x0 (1)%Z 0x0 (-1)%Z 0x0 0x0;
  mkClient (813)%Z 0x0 0x2d6e00002d78 0x0 (1)%Z 0x0 (-1)%Z 0x0 0x0;
  mkClient (814)%Z 0x0 0x2d7800002d83 0x0 (1)%Z 0x0 (-1)%Z 0x0 0x0;
  mkClient (815)%Z 0x0 0x2d8300002d8e 0x0 (1)%Z 0x0 (-1)%Z 0x0 0x0;
  mkClient (816)%Z 0x0 0x2d8e00002d96 0x0 (-1)%Z 0x0 (-1)%Z 0x0 0x0;
  mkClient (817)%Z 0x0 0x2d9600002da3 0x0 (1)%Z 0x0 (-1)%Z 0x0 0x0;
  mkClient (818)%Z 0x0 0x2da300002da7 0x0 (1)%Z 0x0 (-1)%Z 0x0 0x0;
  mkClient (819)%Z 0x0 0x2da700002db0 0x0 (1)%Z 0x0 (-1)%Z 0x0 0x0;
  mkClient (820)%Z 0x0 0x2db000002dbc 0x0 (1)%Z 0x0 (-1)%Z 0x0 0x0;
  mkClient (821)%Z 0x0 0x2dbc00002dc2 0x0 (1)%Z 0x0 (-1)%Z 0x0 0x0;
  mkClient (-1)%Z 0x2dc200002dcb 0x2dc200002dcb 0x0 (-1)%Z 0x0 (-1)%Z 0x0 0x0;
  mkClient (822)%Z 0x0 0x2dcb00002dd3 0x0 (1)%Z 0x0 (-1)%Z 0x0 0x0;
  mkClient (823)%Z 0x0 0x2dd300002dda 0x0 (1)%Z 0x0 (-1)%Z 0x0 0x0;
  mkClient (824)%Z 0x0 0x2dda00002de5 0x0 (2)%Z 0x0 (-1)%Z 0x0 0x0;
  mkClient (825)%Z 0x0 0x2de500002df5 0x0 (1)%Z 0x0 (-1)%Z 0x0 0x0;
  mkClient (826)%Z 0x0 0x2df500002dfb 0x0 (1)%Z 0x0 (-1)%Z 0x0 0x0;
  mkClient (827)%Z 0x0 0x2dfb00002e03 0x0 (1)%Z 0x0 (-1)%Z 0x0 0x0;
  mkClient (-1)%Z 0x2dfb00002e03 0x2dfb00002e03 0x0 (-1)%Z 0x0 (-1)%Z 0x0 0x0;
  mkClient (-1)%Z 0x2e0300002e0e 0x2e0300002e0e 0x0 (-1)%Z 0x0 (-1)%Z 0x0 0x0;
  mkClient (828)%Z 0x0 0x2e0e00002e24 0x0 (1)%Z 0x0 (-1)%Z 0x0 0x0;
  mkClient (829)%Z 0x0 0x2dbc00002dc2 0x0 (1)%Z 0x0 (-1)%Z 0x0 0x0;
  mkClient (830)%Z 0x0 0x2e2400002e2c 0x0 (1)%Z 0x0 (-1)%Z 0x0 0x0;
  mkClient (831)%Z 0x0 0x2e2c00002e37 0x0 (1)%Z 0x0 (-1)%Z 0x0 0x0;
  mkClient (832)%Z 0x0 0x2e3700002e43 0x0 (1)%Z 0x0 (-1)%Z 0x0 0x0;
  mkClient (833)%Z 0x0 0x2e4300002e4b 0x0 (1)%Z 0x0 (-1)%Z 0x0 0x0;
  mkClient (834)%Z 0x0 0x2e4b00002e5a 0x0 (1)%Z 0x0 (-1)%Z 0x0 0x0;
  mkClient (835)%Z 0x0 0x2e5a00002e69 0x0 (1)%Z 0x0 (-1)%Z 0x0 0x0;
  mkClient (836)%Z 0x0 0x2e6900002e6e 0x0 (1)%Z 0x0 (-1)%Z 0x0 0x0;
  mkClient (837)%Z 0x0 0x2e6e00002e78 0x0 (1)%Z 0x0 (-1)%Z 0x0 0x0;
  mkClient (838)%Z 0x0 0x2e7800002e89 0x0 (1)%Z 0x0 (-1)%Z 0x0 0x0;
  mkClient (839)%Z 0x0 0x2e7800002e89 0x0 (1)%Z 0x0 (-1)%Z 0x0 0x0;
  mkClient (840)%Z 0x0 0x2e8900002e94 0x0 (1)%Z 0x0 (-1)%Z 0x0 0x0;
  mkClient (841)%Z 0x0 0x2e9400002ea1 0x0 (1)%Z 0x0 (-1)%Z 0x0 0x0;
  mkClient (842)%Z 0x0 0x2ea100002eb3 0x0 (1)%Z 0x0 (-1)%Z 0x0 0x0;
  mkClient (843)%Z 0x0 0x2eb300002ec0 0x0 (1)%Z 0x0 (-1)%Z 0x0 0x0;
  mkClient (844)%Z 0x0 0x2ec000002ecb 0x0 (1)%Z 0x0 (-1)%Z 0x0 0x0;
  mkClient (845)%Z 0x0 0x2ecb00002ed7 0x0 (1)%Z 0x0 (-1)%Z 0x0 0x0;
  mkClient (846)%Z 0x0 0x2ed700002ee3 0x0 (1)%Z 0x0 (-1)%Z 0x0 0x0;
  mkClient (847)%Z 0x0 0x2ee300002eea 0x0 (1)%Z 0x0 (-1)%Z 0x0 0x0;
  mkClient (848)%Z 0x0 0x2ee300002eea 0x0 (1)%Z 0x0 (-1)%Z 0x0 0x0;
  mkClient (849)%Z 0x0 0x2ee300002eea 0x0 (1)%Z 0x0 (-1)%Z 0x0 0x0;
  mkClient (850)%Z 0x0 0x2db000002dbc 0x0 (-1)%Z 0x0 (-1)%Z 0x0 0x0;
  mkClient (851)%Z 0x0 0x2eea00002eef 0x0 (1)%Z 0x0 (-1)%Z 0x0 0x0;
  mkClient (852)%Z 0x0 0x2eef00002ef6 0x0 (1)%Z 0x0 (-1)%Z 0x0 0x0;
  mkClient (853)%Z 0x0 0x2ef600002efe 0x0 (1)%Z 0x0 (-1)%Z 0x0 0x0;
  mkClient (-1)%Z 0x2efe00002f12 0x2ef600002efe 0x0 (-1)%Z 0x0 (-1)%Z 0x0 0x0;
  mkClient (854)%Z 0x0 0x2f1200002f1d 0x0 (1)%Z 0x0 (-1)%Z 0x0 0x0;
  mkClient (855)%Z 0x0 0x2f1d00002f23 0x0 (-1)%Z 0x0 (-1)%Z 0x0 0x0;
  mkClient (856)%Z 0x0 0x2f2300002f2a 0x0 (1)%Z 0x0 (-1)%Z 0x0 0x0;
  mkClient (857)%Z 0x0 0x2f2a00002f35 0x0 (1)%Z 0x0 (-1)%Z 0x0 0x0;
  mkClient (858)%Z 0x0 0x2f3500002f3d 0x0 (1)%Z 0x0 (-1)%Z 0x0 0x0;
  mkClient (859)%Z 0x0 0x2f3d00002f43 0x0 (1)%Z 0x0 (-1)%Z 0x0 0x0;
  mkClient (860)%Z 0x0 0x2f4300002f48 0x0 (1)%Z 0x0 (-1)%Z 0x0 0x0;
  mkClient (-1)%Z 0x2f4800002f4e 0x2f4e00002f52 0x2f5200002f55 (-1)%Z 0x0 (-1)%Z 0x0 0x0;
  mkClient (861)%Z 0x0 0x2f5500002f5d 0x0 (1)%Z 0x0 (-1)%Z 0x0 0x0;
  mkClient (862)%Z 0x0 0x2f5d00002f67 0x0 (1)%Z 0x0 (-1)%Z 0x0 0x0;
  mkClient (863)%Z 0x0 0x2f6700002f7e 0x0 (1)%Z 0x0 (-1)%Z 0x0 0x0;
  mkClient (864)%Z 0x0 0x2f7e00002f8d 0x0 (1)%Z 0x0 (-1)%Z 0x0 0x0;
  mkClient (865)%Z 0x0 0x2f8d00002f90 0x0 (1)%Z 0x0 (-1)%Z 0x0 0x0;
  mkClient (866)%Z 0x0 0x2f9000002f97 0x0 (1)%Z 0x0 (-1)%Z 0x0 0x0;
  mkClient (867)%Z 0x0 0x2f9700002fa1 0x0 (-1)%Z 0x0 (-1)%Z 0x0 0x0;
  mkClient (868)%Z 0x0 0x2fa100002fa8 0x0 (1)%Z 0x0 (-1)%Z 0x0 0x0;
  mkClient (869)%Z 0x0 0x2fa100002fa8 0x0 (-1)%Z 0x0 (-1)%Z 0x0 0x0;
  mkClient (870)%Z 0x0 0x2fa800002fb5 0x0 (1)%Z 0x0 (-1)%Z 0x0 0x0;
  mkClient (871)%Z 0x0 0x2fb500002fbd 0x0 (-1)%Z 0x0 (-1)%Z 0x0 0x0;
  mkClient (872)%Z 0x0 0x2fbd00002fc6 0x0 (1)%Z 0x0 (-1)%Z 0x0 0x0;
  mkClient (873)%Z 0x0 0x2fc600002fcd 0x0 (-1)%Z 0x0 (-1)%Z 0x0 0x0;
  mkClient (874)%Z 0x0 0x2f3500002f3d 0x0 (-1)%Z 0x0 (-1)%Z 0x0 0x0;
  mkClient (875)%Z 0x0 0x2fcd00002fd6 0x0 (1)%Z 0x0 (-1)%Z 0x0 0x0;
  mkClient (876)%Z 0x0 0x2fd600002fe9 0x0 (2)%Z 0x0 (-1)%Z 0x0 0x0;
  mkClient (877)%Z 0x0 0x2fe900002ff9 0x0 (1)%Z 0x0 (-1)%Z 0x0 0x0;
  mkClient (878)%Z 0x0 0x2fe900002ff9 0x0 (1)%Z 0x0 (-1)%Z 0x0 0x0;
  mkClient (879)%Z 0x0 0x2ff900003007 0x0 (1)%Z 0x0 (-1)%Z 0x0 0x0;
  mkClient (880)%Z 0x0 0x30070000301c 0x0 (-1)%Z 0x0 (-1)%Z 0x0 0x0;
  mkClient (881)%Z 0x0 0x301c00003026 0x0 (1)%Z 0x0 (-1)%Z 0x0 0x0;
  mkClient (882)%Z 0x0 0x302600003038 0x0 (1)%Z 0x0 (-1)%Z 0x0 0x0;
  mkClient (-1)%Z 0x30380000305c 0x2fe900002ff9 0x0 (-1)%Z 0x0 (-1)%Z 0x0 0x0;
  mkClient (883)%Z 0x0 0x305c00003073 0x0 (1)%Z 0x0 (-1)%Z 0x0 0x0;
  mkClient (884)%Z 0x0 0x307300003078 0x0 (1)%Z 0x0 (-1)%Z 0x0 0x0;
  mkClient (885)%Z 0x0 0x30780000308a 0x0 (1)%Z 0x0 (-1)%Z 0x0 0x0;
  mkClient (886)%Z 0x0 0x30780000308a 0x0 (1)%Z 0x0 (-1)%Z 0x0 0x0;
  mkClient (-1)%Z 0x308a00003094 0x30940000309f 0x0 (-1)%Z 0x0 (-1)%Z 0x0 0x0;
  mkClient (887)%Z 0x0 0x309f000030a6 0x0 (1)%Z 0x0 (-1)%Z 0x0 0x0;
  mkClient (888)%Z 0x0 0x30a6000030ac 0x0 (1)%Z 0x0 (-1)%Z 0x0 0x0;
  mkClient (889)%Z 0x0 0x30a6000030ac 0x0 (1)%Z 0x0 (-1)%Z 0x0 0x0;
  mkClient (890)%Z 0x0 0x30ac000030b7 0x0 (1)%Z 0x0 (-1)%Z 0x0 0x0;
  mkClient (891)%Z 0x0 0x30b7000030bd 0x0 (1)%Z 0x0 (-1)%Z 0x0 0x0;
  mkClient (892)%Z 0x0 0x30bd000030c3 0x0 (-1)%Z 0x0 (-1)%Z 0x0 0x0;
  mkClient (893)%Z 0x0 0x30c3000030ce 0x0 (1)%Z 0x0 (-1)%Z 0x0 0x0;
  mkClient (894)%Z 0x0 0x30ce000030d4 0x0 (1)%Z 0x0 (-1)%Z 0x0 0x0;
  mkClient (895)%Z 0x0 0x30d4000030dc 0x0 (-1)%Z 0x0 (-1)%Z 0x0 0x0;
  mkClient (896)%Z 0x0 0x30dc000030e1 0x0 (-1)%Z 0x0 (-1)%Z 0x0 0x0;
  mkClient (897)%Z 0x0 0x30dc000030e1 0x0 (1)%Z 0x0 (-1)%Z 0x0 0x0;
  mkClient (898)%Z 0x0 0x30e1000030ea 0x0 (1)%Z 0x0 (-1)%Z 0x0 0x0;
  mkClient (899)%Z 0x0 0x30ea000030f0 0x0 (1)%Z 0x0 (-1)%Z 0x0 0x0;
  mkClient (900)%Z 0x0 0x30f0000030f6 0x0 (-1)%Z 0x0 (-1)%Z 0x0 0x0;
  mkClient (901)%Z 0x0 0x30f6000030fc 0x0 (1)%Z 0x0 (-1)%Z 0x0 0x0;
  mkClient (902)%Z 0x0 0x30fc00003102 0x0 (1)%Z 0x0 (-1)%Z 0x0 0x0;
  mkClient (903)%Z 0x0 0x310200003109 0x0 (1)%Z 0x0 (-1)%Z 0x0 0x0;
  mkClient (904)%Z 0x0 0x310900003120 0x0 (-1)%Z 0x0 (-1)%Z 0x0 0x0;
  mkClient (905)%Z 0x0 0x31200000312c 0x0 (1)%Z 0x0 (-1)%Z 0x0 0x0;
  mkClient (906)%Z 0x0 0x312c00003133 0x0 (-1)%Z 0x0 (-1)%Z 0x0 0x0;
  mkClient (907)%Z 0x0 0x31330000313e 0x0 (1)%Z 0x0 (-1)%Z 0x0 0x0;
  mkClient (908)%Z 0x0 0x313e00003142 0x0 (1)%Z 0x0 (-1)%Z 0x0 0x0;
  mkClient (909)%Z 0x0 0x314200003148 0x0 (-1)%Z 0x0 (-1)%Z 0x0 0x0;
  mkClient (910)%Z 0x0 0x31480000314b 0x0 (1)%Z 0x0 (-1)%Z 0x0 0x0;
  mkClient (911)%Z 0x0 0x314b00003154 0x0 (1)%Z 0x0 (-1)%Z 0x0 0x0;
  mkClient (912)%Z 0x0 0x31540000315b 0x0 (1)%Z 0x0 (-1)%Z 0x0 0x0;
  mkClient (913)%Z 0x0 0x315b0000315e 0x0 (1)%Z 0x0 (-1)%Z 0x0 0x0;
  mkClient (914)%Z 0x0 0x315e00003165 0x0 (1)%Z 0x0 (-1)%Z 0x0 0x0;
  mkClient (915)%Z 0x0 0x316500003175 0x0 (1)%Z 0x0 (-1)%Z 0x0 0x0;
  mkClient (916)%Z 0x0 0x317500003181 0x0 (1)%Z 0x0 (-1)%Z 0x0 0x0;
  mkClient (917)%Z 0x0 0x318100003189 0x0 (1)%Z 0x0 (-1)%Z 0x0 0x0;
  mkClient (918)%Z 0x0 0x31890000318e 0x0 (1)%Z 0x0 (-1)%Z 0x0 0x0;
  mkClient (919)%Z 0x0 0x318e00003199 0x0 (1)%Z 0x0 (-1)%Z 0x0 0x0;
  mkClient (920)%Z 0x0 0x31990000319f 0x0 (1)%Z 0x0 (-1)%Z 0x0 0x0;
  mkClient (921)%Z 0x0 0x319f000031ad 0x0 (1)%Z 0x0 (-1)%Z 0x0 0x0;
  mkClient (922)%Z 0x0 0x31ad000031b8 0x0 (1)%Z 0x0 (-1)%Z 0x0 0x0;
  mkClient (923)%Z 0x0 0x31b8000031bf 0x0 (-1)%Z 0x0 (-1)%Z 0x0 0x0;
  mkClient (924)%Z 0x0 0x31bf000031d0 0x0 (1)%Z 0x0 (-1)%Z 0x0 0x0;
  mkClient (925)%Z 0x0 0x31d0000031d5 0x0 (1)%Z 0x0 (-1)%Z 0x0 0x0;
  mkClient (926)%Z 0x0 0x31d5000031db 0x0 (1)%Z 0x0 (-1)%Z 0x0 0x0;
  mkClient (927)%Z 0x0 0x31db000031df 0x0 (1)%Z 0x0 (-1)%Z 0x0 0x0;
  mkClient (928)%Z 0x0 0x31df000031e5 0x0 (1)%Z 0x0 (-1)%Z 0x0 0x0;
  mkClient (929)%Z 0x0 0x31e5000031e9 0x0 (1)%Z 0x0 (-1)%Z 0x0 0x0;
  mkClient (930)%Z 0x0 0x31e9000031f0 0x0 (1)%Z 0x0 (-1)%Z 0x0 0x0;
  mkClient (931)%Z 0x0 0x31f0000031f9 0x0 (1)%Z 0x0 (-1)%Z 0x0 0x0;
  mkClient (932)%Z 0x0 0x31f900003200 0x0 (1)%Z 0x0 (-1)%Z 0x0 0x0;
  mkClient (933)%Z 0x0 0x31f900003200 0x0 (1)%Z 0x0 (-1)%Z 0x0 0x0;
  mkClient (934)%Z 0x0 0x320000003208 0x0 (1)%Z 0x0 (-1)%Z 0x0 0x0;
  mkClient (935)%Z 0x0 0x320800003215 0x0 (1)%Z 0x0 (-1)%Z 0x0 0x0;
  mkClient (936)%Z 0x0 0x32150000321b 0x0 (1)%Z 0x0 (-1)%Z 0x0 0x0;
  mkClient (937)%Z 0x0 0x321b00003220 0x0 (1)%Z 0x0 (-1)%Z 0x0 0x0;
  mkClient (938)%Z 0x0 0x321b00003220 0x0 (-1)%Z 0x0 (-1)%Z 0x0 0x0;
  mkClient (939)%Z 0x0 0x322000003228 0x0 (1)%Z 0x0 (-1)%Z 0x0 0x0;
  mkClient (940)%Z 0x0 0x322800003236 0x0 (1)%Z 0x0 (-1)%Z 0x0 0x0;
  mkClient (941)%Z 0x0 0x32360000323b 0x0 (1)%Z 0x0 (-1)%Z 0x0 0x0;
  mkClient (942)%Z 0x0 0x323b00003242 0x0 (1)%Z 0x0 (-1)%Z 0x0 0x0;
  mkClient (943)%Z 0x0 0x324200003247 0x0 (1)%Z 0x0 (-1)%Z 0x0 0x0;
  mkClient (944)%Z 0x0 0x324700003256 0x0 (1)%Z 0x0 (-1)%Z 0x0 0x0;
  mkClient (945)%Z 0x0 0x32560000325f 0x0 (-1)%Z 0x0 (-1)%Z 0x0 0x0;
  mkClient (946)%Z 0x0 0x325f00003269 0x0 (1)%Z 0x0 (-1)%Z 0x0 0x0;
  mkClient (947)%Z 0x0 0x32690000326f 0x0 (1)%Z 0x0 (-1)%Z 0x0 0x0;
  mkClient (948)%Z 0x0 0x326f00003275 0x0 (1)%Z 0x0 (-1)%Z 0x0 0x0;
  mkClient (949)%Z 0x0 0x32750000327b 0x0 (1)%Z 0x0 (-1)%Z 0x0 0x0;
  mkClient (950)%Z 0x0 0x327b00003285 0x0 (1)%Z 0x0 (-1)%Z 0x0 0x0;
  mkClient (-1)%Z 0x32850000328e 0x328e00003297 0x0 (-1)%Z 0x0 (-1)%Z 0x0 0x0;
  mkClient (-1)%Z 0x3297000032ae 0x32ae000032c0 0x0 (-1)%Z 0x0 (-1)%Z 0x0 0x0
].
Definition d_cr_idx5_1 : list clientTuple := [
  mkClient (951)%Z 0x0 0x32c0000032ce 0x0 (1)%Z 0x0 (-1)%Z 0x0 0x0;
  mkClient (952)%Z 0x0 0x32ce000032db 0x0 (1)%Z 0x0 (-1)%Z 0x0 0x0;
  mkClient (953)%Z 0x0 0x32db000032e7 0x0 (1)%Z 0x0 (-1)%Z 0x0 0x0;
  mkClient (954)%Z 0x0 0x32e7000032f1 0x0 (1)%Z 0x0 (-1)%Z 0x0 0x0;
  mkClient (955)%Z 0x0 0x32f1000032ff 0x0 (1)%Z 0x0 (-1)%Z 0x0 0x0;
  mkClient (956)%Z 0x0 0x32ff00003315 0x0 (1)%Z 0x0 (-1)%Z 0x0 0x0;
  mkClient (957)%Z 0x0 0x331500003327 0x0 (1)%Z 0x0 (-1)%Z 0x0 0x0;
  mkClient (958)%Z 0x0 0x332700003330 0x0 (1)%Z 0x0 (-1)%Z 0x0 0x0;
  mkClient (-1)%Z 0x333000003338 0x333800003348 0x0 (-1)%Z 0x0 (-1)%Z 0x0 0x0;
  mkClient (-1)%Z 0x334800003358 0x335800003365 0x0 (-1)%Z 0x0 (-1)%Z 0x0 0x0;
  mkClient (959)%Z 0x0 0x336500003368 0x0 (1)%Z 0x0 (-1)%Z 0x0 0x0;
  mkClient (960)%Z 0x0 0x2acf00002ade 0x0 (1)%Z 0x0 (-1)%Z 0x0 0x0;
  mkClient (961)%Z 0x0 0x336800003379 0x0 (-1)%Z 0x0 (-1)%Z 0x0 0x0;
  mkClient (-1)%Z 0x337900003398 0x3398000033b5 0x0 (-1)%Z 0x0 (-1)%Z 0x0 0x0;
  mkClient (-1)%Z 0x33b5000033c9 0x33c9000033dd 0x0 (-1)%Z 0x0 (-1)%Z 0x0 0x0;
  mkClient (962)%Z 0x0 0x33dd000033e7 0x0 (-1)%Z 0x0 (-1)%Z 0x0 0x0;
  mkClient (963)%Z 0x0 0x33e7000033f2 0x0 (1)%Z 0x0 (-1)%Z 0x0 0x0;
  mkClient (964)%Z 0x0 0x33f2000033f7 0x0 (-1)%Z 0x0 (-1)%Z 0x0 0x0;
  mkClient (-1)%Z 0x33f7000033fd 0x33f7000033fd 0x0 (-1)%Z 0x0 (-1)%Z 0x0 0x0;
  mkClient (965)%Z 0x0 0x33fd00003406 0x0 (1)%Z 0x0 (-1)%Z 0x0 0x0;
  mkClient (966)%Z 0x0 0xabd00000ac5 0x0 (1)%Z 0x0 (-1)%Z 0x0 0x0;
  mkClient (967)%Z 0x0 0x340600003411 0x0 (1)%Z 0x0 (-1)%Z 0x0 0x0;
  mkClient (968)%Z 0x0 0x34110000341e 0x0 (1)%Z 0x0 (-1)%Z 0x0 0x0;
  mkClient (-1)%Z 0x341e00003428 0x341e00003428 0x0 (-1)%Z 0x0 (-1)%Z 0x0 0x0;
  mkClient (-1)%Z 0x342800003432 0x34320000343d 0x0 (-1)%Z 0x0 (-1)%Z 0x0 0x0;
  mkClient (969)%Z 0x0 0x343d00003444 0x0 (1)%Z 0x0 (-1)%Z 0x0 0x0;
  mkClient (970)%Z 0x0 0x34440000344e 0x0 (1)%Z 0x0 (-1)%Z 0x0 0x0;
  mkClient (971)%Z 0x0 0x344e00003462 0x0 (1)%Z 0x0 (-1)%Z 0x0 0x0;
  mkClient (972)%Z 0x0 0x346200003476 0x0 (1)%Z 0x0 (-1)%Z 0x0 0x0;
  mkClient (973)%Z 0x0 0x34760000347f 0x0 (1)%Z 0x0 (-1)%Z 0x0 0x0;
  mkClient (974)%Z 0x0 0x347f000034a1 0x0 (1)%Z 0x0 (-1)%Z 0x0 0x0;
  mkClient (975)%Z 0x0 0x34a1000034c8 0x0 (1)%Z 0x0 (-1)%Z 0x0 0x0;
  mkClient (-1)%Z 0x34c8000034d8 0x34d8000034f1 0x0 (-1)%Z 0x0 (-1)%Z 0x0 0x0;
  mkClient (976)%Z 0x0 0x34f100003504 0x0 (1)%Z 0x0 (-1)%Z 0x0 0x0;
  mkClient (-1)%Z 0x35040000351e 0x351e00003524 0x0 (-1)%Z 0x0 (-1)%Z 0x0 0x0;
  mkClient (977)%Z 0x0 0x35240000352e 0x0 (1)%Z 0x0 (-1)%Z 0x0 0x0;
  mkClient (978)%Z 0x0 0x352e00003537 0x0 (1)%Z 0x0 (-1)%Z 0x0 0x0;
  mkClient (979)%Z 0x0 0x353700003542 0x0 (1)%Z 0x0 (-1)%Z 0x0 0x0;
  mkClient (980)%Z 0x0 0x35420000354f 0x0 (1)%Z 0x0 (-1)%Z 0x0 0x0;
  mkClient (981)%Z 0x0 0x354f00003558 0x0 (1)%Z 0x0 (-1)%Z 0x0 0x0;
  mkClient (982)%Z 0x0 0x355800003562 0x0 (1)%Z 0x0 (-1)%Z 0x0 0x0;
  mkClient (983)%Z 0x0 0x356200003571 0x0 (1)%Z 0x0 (-1)%Z 0x0 0x0;
  mkClient (984)%Z 0x0 0x357100003577 0x0 (1)%Z 0x0 (-1)%Z 0x0 0x0;
  mkClient (-1)%Z 0x357700003591 0x35910000359c 0x0 (-1)%Z 0x0 (-1)%Z 0x0 0x0;
  mkClient (985)%Z 0x0 0x359c000035a5 0x0 (1)%Z 0x0 (-1)%Z 0x0 0x0;
  mkClient (986)%Z 0x0 0x35a5000035ad 0x0 (1)%Z 0x0 (-1)%Z 0x0 0x0;
  mkClient (987)%Z 0x0 0x31b8000031bf 0x0 (1)%Z 0x0 (-1)%Z 0x0 0x0;
  mkClient (988)%Z 0x0 0x35ad000035b7 0x0 (1)%Z 0x0 (-1)%Z 0x0 0x0;
  mkClient (989)%Z 0x0 0x35b7000035ba 0x0 (1)%Z 0x0 (-1)%Z 0x0 0x0;
  mkClient (990)%Z 0x0 0x35ba000035c6 0x0 (1)%Z 0x0 (-1)%Z 0x0 0x0;
  mkClient (991)%Z 0x0 0x35c6000035c8 0x0 (1)%Z 0x0 (-1)%Z 0x0 0x0;
  mkClient (992)%Z 0x0 0x35c8000035cf 0x0 (1)%Z 0x0 (-1)%Z 0x0 0x0;
  mkClient (-1)%Z 0x35cf000035e0 0x35e0000035e5 0x0 (-1)%Z 0x0 (-1)%Z 0x0 0x0;
  mkClient (993)%Z 0x0 0x35e5000035ee 0x0 (1)%Z 0x0 (-1)%Z 0x0 0x0;
  mkClient (994)%Z 0x0 0x2d2e00002d35 0x0 (1)%Z 0x0 (-1)%Z 0x0 0x0;
  mkClient (995)%Z 0x0 0x35ee00003600 0x0 (1)%Z 0x0 (-1)%Z 0x0 0x0;
  mkClient (996)%Z 0x0 0x360000003612 0x0 (1)%Z 0x0 (-1)%Z 0x0 0x0;
  mkClient (997)%Z 0x0 0x36120000361c 0x0 (1)%Z 0x0 (-1)%Z 0x0 0x0;
  mkClient (998)%Z 0x0 0x361c00003626 0x0 (1)%Z 0x0 (-1)%Z 0x0 0x0;
  mkClient (999)%Z 0x0 0x362600003633 0x0 (1)%Z 0x0 (-1)%Z 0x0 0x0;
  mkClient (1000)%Z 0x0 0x363300003639 0x0 (1)%Z 0x0 (-1)%Z 0x0 0x0;
  mkClient (1001)%Z 0x0 0x363900003641 0x0 (1)%Z 0x0 (-1)%Z 0x0 0x0;
  mkClient (1002)%Z 0x0 0x36410000364c 0x0 (1)%Z 0x0 (-1)%Z 0x0 0x0;
  mkClient (1003)%Z 0x0 0x364c00003657 0x0 (1)%Z 0x0 (-1)%Z 0x0 0x0;
  mkClient (1004)%Z 0x0 0x365700003661 0x0 (1)%Z 0x0 (-1)%Z 0x0 0x0;
  mkClient (1005)%Z 0x0 0x36610000366d 0x0 (1)%Z 0x0 (-1)%Z 0x0 0x0;
  mkClient (1006)%Z 0x0 0x366d00003679 0x0 (1)%Z 0x0 (-1)%Z 0x0 0x0;
  mkClient (-1)%Z 0x367900003688 0x368800003697 0x0 (-1)%Z 0x0 (-1)%Z 0x0 0x0;
  mkClient (1007)%Z 0x0 0x3697000036a3 0x0 (1)%Z 0x0 (-1)%Z 0x0 0x0;
  mkClient (1008)%Z 0x0 0x36a3000036bc 0x0 (1)%Z 0x0 (-1)%Z 0x0 0x0;
  mkClient (1009)%Z 0x0 0x36bc000036da 0x0 (1)%Z 0x0 (-1)%Z 0x0 0x0;
  mkClient (1010)%Z 0x0 0x36da000036e8 0x0 (1)%Z 0x0 (-1)%Z 0x0 0x0;
  mkClient (1011)%Z 0x0 0x36da000036e8 0x0 (1)%Z 0x0 (-1)%Z 0x0 0x0;
  mkClient (1012)%Z 0x0 0x36e8000036eb 0x0 (1)%Z 0x0 (-1)%Z 0x0 0x0;
  mkClient (1013)%Z 0x0 0x36eb000036fc 0x0 (1)%Z 0x0 (-1)%Z 0x0 0x0;
  mkClient (1014)%Z 0x0 0x36fc00003704 0x0 (1)%Z 0x0 (-1)%Z 0x0 0x0;
  mkClient (1015)%Z 0x0 0x37040000370f 0x0 (1)%Z 0x0 (-1)%Z 0x0 0x0;
  mkClient (1016)%Z 0x0 0x370f0000371c 0x0 (1)%Z 0x0 (-1)%Z 0x0 0x0;
  mkClient (-1)%Z 0x371c00003728 0x371c00003728 0x0 (-1)%Z 0x0 (-1)%Z 0x0 0x0;
  mkClient (-1)%Z 0x372800003734 0x373400003741 0x0 (-1)%Z 0x0 (-1)%Z 0x0 0x0;
  mkClient (-1)%Z 0x37410000375e 0x375e0000376d 0x0 (-1)%Z 0x0 (-1)%Z 0x0 0x0;
  mkClient (1017)%Z 0x0 0x376d00003777 0x0 (1)%Z 0x0 (-1)%Z 0x0 0x0;
  mkClient (1018)%Z 0x0 0x37770000377f 0x0 (-1)%Z 0x0 (-1)%Z 0x0 0x0;
  mkClient (-1)%Z 0x377f0000378b 0x378b00003795 0x0 (-1)%Z 0x0 (-1)%Z 0x0 0x0;
  mkClient (-1)%Z 0x3795000037a1 0x37a1000037a7 0x0 (-1)%Z 0x0 (-1)%Z 0x0 0x0;
  mkClient (-1)%Z 0x37a7000037b8 0x2f7e00002f8d 0x0 (-1)%Z 0x0 (-1)%Z 0x0 0x0;
  mkClient (1019)%Z 0x0 0x37b8000037c6 0x0 (-1)%Z 0x0 (-1)%Z 0x0 0x0;
  mkClient (-1)%Z 0x37c6000037cc 0x37c6000037cc 0x0 (-1)%Z 0x0 (-1)%Z 0x0 0x0;
  mkClient (1020)%Z 0x0 0x37cc000037d5 0x0 (-1)%Z 0x0 (-1)%Z 0x0 0x0;
  mkClient (1021)%Z 0x0 0x37d5000037e1 0x0 (1)%Z 0x0 (-1)%Z 0x0 0x0;
  mkClient (1022)%Z 0x0 0x37e1000037ef 0x0 (1)%Z 0x0 (-1)%Z 0x0 0x0;
  mkClient (1023)%Z 0x0 0x37ef00003803 0x0 (1)%Z 0x0 (-1)%Z 0x0 0x0;
  mkClient (-1)%Z 0x380300003812 0x381200003822 0x0 (-1)%Z 0x0 (-1)%Z 0x0 0x0;
  mkClient (1024)%Z 0x0 0x38220000383d 0x0 (-1)%Z 0x0 (-1)%Z 0x0 0x0;
  mkClient (-1)%Z 0x383d0000384b 0x384b00003856 0x0 (-1)%Z 0x0 (-1)%Z 0x0 0x0;
  mkClient (-1)%Z 0x385600003865 0x38650000386c 0x0 (-1)%Z 0x0 (-1)%Z 0x0 0x0;
  mkClient (1025)%Z 0x0 0x386c0000387d 0x0 (1)%Z 0x0 (-1)%Z 0x0 0x0;
  mkClient (1026)%Z 0x0 0x387d0000388c 0x0 (-1)%Z 0x0 (-1)%Z 0x0 0x0;
  mkClient (-1)%Z 0x388c000038a2 0x38a2000038af 0x0 (-1)%Z 0x0 (-1)%Z 0x0 0x0;
  mkClient (1027)%Z 0x0 0x38af000038b4 0x0 (1)%Z 0x0 (-1)%Z 0x0 0x0;
  mkClient (1028)%Z 0x0 0x38b4000038c5 0x0 (1)%Z 0x0 (-1)%Z 0x0 0x0;
  mkClient (1029)%Z 0x0 0x38c5000038d6 0x0 (1)%Z 0x0 (-1)%Z 0x0 0x0;
  mkClient (-1)%Z 0x38d6000038e0 0x38e0000038e6 0x0 (-1)%Z 0x0 (-1)%Z 0x0 0x0;
  mkClient (1030)%Z 0x0 0x38e6000038ef 0x0 (1)%Z 0x0 (-1)%Z 0x0 0x0;
  mkClient (1031)%Z 0x0 0x38ef000038f3 0x0 (1)%Z 0x0 (-1)%Z 0x0 0x0;
  mkClient (1032)%Z 0x0 0x38f3000038f7 0x0 (1)%Z 0x0 (-1)%Z 0x0 0x0;
  mkClient (-1)%Z 0x38f7000038fa 0x38fa00003903 0x0 (-1)%Z 0x0 (-1)%Z 0x0 0x0;
  mkClient (1033)%Z 0x0 0x39030000390c 0x0 (1)%Z 0x0 (-1)%Z 0x0 0x0;
  mkClient (1034)%Z 0x0 0x390c00003918 0x0 (1)%Z 0x0 (-1)%Z 0x0 0x0;
  mkClient (1035)%Z 0x0 0x391800003925 0x0 (1)%Z 0x0 (-1)%Z 0x0 0x0;
  mkClient (1036)%Z 0x0 0x392500003934 0x0 (1)%Z 0x0 (-1)%Z 0x0 0x0;
  mkClient (1037)%Z 0x0 0x39340000393d 0x0 (1)%Z 0x0 (-1)%Z 0x0 0x0;
  mkClient (1038)%Z 0x0 0x39340000393d 0x0 (2)%Z 0x0 (-1)%Z 0x0 0x0;
  mkClient (-1)%Z 0x393d00003948 0x394800003952 0x0 (-1)%Z 0x0 (-1)%Z 0x0 0x0;
  mkClient (1039)%Z 0x0 0x395200003966 0x0 (1)%Z 0x0 (-1)%Z 0x0 0x0;
  mkClient (1040)%Z 0x0 0x2fcd00002fd6 0x0 (1)%Z 0x0 (-1)%Z 0x0 0x0;
  mkClient (-1)%Z 0x396600003976 0x397600003980 0x0 (-1)%Z 0x0 (-1)%Z 0x0 0x0;
  mkClient (-1)%Z 0x39800000398c 0x39800000398c 0x0 (-1)%Z 0x0 (-1)%Z 0x0 0x0;
  mkClient (1041)%Z 0x0 0x398c0000399b 0x0 (1)%Z 0x0 (-1)%Z 0x0 0x0;
  mkClient (-1)%Z 0x399b000039b2 0x39b2000039c0 0x0 (-1)%Z 0x0 (-1)%Z 0x0 0x0;
  mkClient (1042)%Z 0x0 0x39c0000039d2 0x0 (-1)%Z 0x0 (-1)%Z 0x0 0x0;
  mkClient (1043)%Z 0x0 0x39d2000039d6 0x0 (1)%Z 0x0 (-1)%Z 0x0 0x0;
  mkClient (-1)%Z 0x39d6000039dd 0x39dd000039e4 0x0 (-1)%Z 0x0 (-1)%Z 0x0 0x0;
  mkClient (1044)%Z 0x0 0x39e4000039ea 0x0 (1)%Z 0x0 (-1)%Z 0x0 0x0;
  mkClient (1045)%Z 0x0 0x39ea000039f9 0x0 (1)%Z 0x0 (-1)%Z 0x0 0x0;
  mkClient (1046)%Z 0x0 0x39f900003a00 0x0 (1)%Z 0x0 (-1)%Z 0x0 0x0;
  mkClient (1047)%Z 0x0 0x3a0000003a0c 0x0 (1)%Z 0x0 (-1)%Z 0x0 0x0;
  mkClient (1048)%Z 0x0 0x3a0c00003a12 0x0 (1)%Z 0x0 (-1)%Z 0x0 0x0;
  mkClient (1049)%Z 0x0 0x3a1200003a13 0x0 (1)%Z 0x0 (-1)%Z 0x0 0x0;
  mkClient (-1)%Z 0x3a1300003a20 0x3a2000003a28 0x0 (-1)%Z 0x0 (-1)%Z 0x0 0x0;
  mkClient (1050)%Z 0x0 0x3a2800003a2f 0x0 (1)%Z 0x0 (-1)%Z 0x0 0x0;
  mkClient (1051)%Z 0x0 0x2dcb00002dd3 0x0 (1)%Z 0x0 (-1)%Z 0x0 0x0;
  mkClient (1052)%Z 0x0 0x3a2f00003a41 0x0 (-1)%Z 0x0 (-1)%Z 0x0 0x0;
  mkClient (1053)%Z 0x0 0x3a4100003a48 0x0 (1)%Z 0x0 (-1)%Z 0x0 0x0;
  mkClient (1054)%Z 0x0 0x3a4800003a4d 0x0 (1)%Z 0x0 (-1)%Z 0x0 0x0;
  mkClient (1055)%Z 0x0 0x3a4d00003a52 0x0 (1)%Z 0x0 (-1)%Z 0x0 0x0;
  mkClient (1056)%Z 0x0 0x3a5200003a60 0x0 (1)%Z 0x0 (-1)%Z 0x0 0x0;
  mkClient (1057)%Z 0x0 0x3a6000003a67 0x0 (1)%Z 0x0 (-1)%Z 0x0 0x0;
  mkClient (1058)%Z 0x0 0x3a6700003a76 0x0 (1)%Z 0x0 (-1)%Z 0x0 0x0;
  mkClient (1059)%Z 0x0 0x3a7600003a7b 0x0 (1)%Z 0x0 (-1)%Z 0x0 0x0;
  mkClient (1060)%Z 0x0 0x3a7b00003a80 0x0 (1)%Z 0x0 (-1)%Z 0x0 0x0;
  mkClient (1061)%Z 0x0 0x3a8000003a84 0x0 (1)%Z 0x0 (-1)%Z 0x0 0x0;
  mkClient (1062)%Z 0x0 0x3a8400003a8c 0x0 (1)%Z 0x0 (-1)%Z 0x0 0x0;
  mkClient (1063)%Z 0x0 0x3a8c00003a9d 0x0 (1)%Z 0x0 (-1)%Z 0x0 0x0;
  mkClient (1064)%Z 0x0 0x3a9d00003aad 0x0 (1)%Z 0x0 (-1)%Z 0x0 0x0;
  mkClient (1065)%Z 0x0 0x3aad00003ab8 0x0 (-1)%Z 0x0 (-1)%Z 0x0 0x0;
  mkClient (1066)%Z 0x0 0x3ab800003abe 0x0 (1)%Z 0x0 (-1)%Z 0x0 0x0;
  mkClient (1067)%Z 0x0 0x3abe00003ac6 0x0 (1)%Z 0x0 (-1)%Z 0x0 0x0;
  mkClient (1068)%Z 0x0 0x3ac600003acd 0x0 (1)%Z 0x0 (-1)%Z 0x0 0x0;
  mkClient (1069)%Z 0x0 0x3acd00003ad7 0x0 (1)%Z 0x0 (-1)%Z 0x0 0x0;
  mkClient (1070)%Z 0x0 0x3ad700003add 0x0 (1)%Z 0x0 (-1)%Z 0x0 0x0;
  mkClient (1071)%Z 0x0 0x3add00003af3 0x0 (1)%Z 0x0 (-1)%Z 0x0 0x0;
  mkClient (1072)%Z 0x0 0x3af300003b01 0x0 (-1)%Z 0x0 (-1)%Z 0x0 0x0;
  mkClient (1073)%Z 0x0 0x3b0100003b07 0x0 (1)%Z 0x0 (-1)%Z 0x0 0x0;
  mkClient (1074)%Z 0x0 0x3b0700003b15 0x0 (1)%Z 0x0 (-1)%Z 0x0 0x0;
  mkClient (1075)%Z 0x0 0x3b1500003b23 0x0 (1)%Z 0x0 (-1)%Z 0x0 0x0;
  mkClient (1076)%Z 0x0 0x3b2300003b32 0x0 (1)%Z 0x0 (-1)%Z 0x0 0x0;
  mkClient (1077)%Z 0x0 0x3b3200003b3a 0x0 (1)%Z 0x0 (-1)%Z 0x0 0x0;
  mkClient (1078)%Z 0x0 0x3b3a00003b40 0x0 (1)%Z 0x0 (-1)%Z 0x0 0x0;
  mkClient (1079)%Z 0x0 0x3b4000003b45 0x0 (1)%Z 0x0 (-1)%Z 0x0 0x0;
  mkClient (1080)%Z 0x0 0x3b4500003b4e 0x0 (-1)%Z 0x0 (-1)%Z 0x0 0x0;
  mkClient (1081)%Z 0x0 0x3b4e00003b53 0x0 (1)%Z 0x0 (-1)%Z 0x0 0x0;
  mkClient (1082)%Z 0x0 0x3b5300003b57 0x0 (1)%Z 0x0 (-1)%Z 0x0 0x0;
  mkClient (1083)%Z 0x0 0x3b5700003b5c 0x0 (1)%Z 0x0 (-1)%Z 0x0 0x0;
  mkClient (1084)%Z 0x0 0x3b5c00003b60 0x0 (1)%Z 0x0 (-1)%Z 0x0 0x0;
  mkClient (1085)%Z 0x0 0x3b6000003b6a 0x0 (1)%Z 0x0 (-1)%Z 0x0 0x0;
  mkClient (1086)%Z 0x0 0x3b6a00003b6e 0x0 (1)%Z 0x0 (-1)%Z 0x0 0x0;
  mkClient (1087)%Z 0x0 0x3b6e00003b76 0x0 (1)%Z 0x0 (-1)%Z 0x0 0x0;
  mkClient (1088)%Z 0x0 0x3b7600003b85 0x0 (1)%Z 0x0 (-1)%Z 0x0 0x0;
  mkClient (1089)%Z 0x0 0x3b8500003b89 0x0 (-1)%Z 0x0 (-1)%Z 0x0 0x0;
  mkClient (1090)%Z 0x0 0x3b8900003b8e 0x0 (1)%Z 0x0 (-1)%Z 0x0 0x0;
  mkClient (1091)%Z 0x0 0x3b8e00003b97 0x0 (1)%Z 0x0 (-1)%Z 0x0 0x0;
  mkClient (-1)%Z 0x3b9700003bb1 0x3bb100003bc9 0x0 (-1)%Z 0x0 (-1)%Z 0x0 0x0;
  mkClient (1092)%Z 0x0 0x3bc900003bd4 0x0 (1)%Z 0x0 (-1)%Z 0x0 0x0;
  mkClient (1093)%Z 0x0 0x3bd400003bdf 0x0 (1)%Z 0x0 (-1)%Z 0x0 0x0;
  mkClient (1094)%Z 0x0 0x3bdf00003be7 0x0 (1)%Z 0x0 (-1)%Z 0x0 0x0;
  mkClient (1095)%Z 0x0 0x3be700003bee 0x0 (1)%Z 0x0 (-1)%Z 0x0 0x0;
  mkClient (1096)%Z 0x0 0x3bee00003bf8 0x0 (1)%Z 0x0 (-1)%Z 0x0 0x0;
  mkClient (1097)%Z 0x0 0x3bf800003c02 0x0 (1)%Z 0x0 (-1)%Z 0x0 0x0;
  mkClient (1098)%Z 0x0 0x3c0200003c0a 0x0 (1)%Z 0x0 (-1)%Z 0x0 0x0;
  mkClient (1099)%Z 0x0 0x2dd300002dda 0x0 (1)%Z 0x0 (-1)%Z 0x0 0x0;
  mkClient (1100)%Z 0x0 0x3c0a00003c14 0x0 (1)%Z 0x0 (-1)%Z 0x0 0x0;
  mkClient (1101)%Z 0x0 0x3c1400003c1a 0x0 (1)%Z 0x0 (-1)%Z 0x0 0x0;
  mkClient (1102)%Z 0x0 0x3c1a00003c23 0x0 (1)%Z 0x0 (-1)%Z 0x0 0x0;
  mkClient (1103)%Z 0x0 0x3c2300003c27 0x0 (1)%Z 0x0 (-1)%Z 0x0 0x0;
  mkClient (1104)%Z 0x0 0x3c2700003c2c 0x0 (1)%Z 0x0 (-1)%Z 0x0 0x0;
  mkClient (1105)%Z 0x0 0x3c2c00003c38 0x0 (1)%Z 0x0 (-1)%Z 0x0 0x0;
  mkClient (1106)%Z 0x0 0x3c3800003c40 0x0 (1)%Z 0x0 (-1)%Z 0x0 0x0;
  mkClient (1107)%Z 0x0 0x3c4000003c57 0x0 (-1)%Z 0x0 (-1)%Z 0x0 0x0;
  mkClient (1108)%Z 0x0 0x3c5700003c5f 0x0 (1)%Z 0x0 (-1)%Z 0x0 0x0;
  mkClient (1109)%Z 0x0 0x3c5f00003c65 0x0 (1)%Z 0x0 (-1)%Z 0x0 0x0;
  mkClient (1110)%Z 0x0 0x3c6500003c6f 0x0 (1)%Z 0x0 (-1)%Z 0x0 0x0;
  mkClient (1111)%Z 0x0 0x3c6f00003c7c 0x0 (1)%Z 0x0 (-1)%Z 0x0 0x0;
  mkClient (1112)%Z 0x0 0x3c7c00003c80 0x0 (1)%Z 0x0 (-1)%Z 0x0 0x0;
  mkClient (1113)%Z 0x0 0x3c8000003c85 0x0 (1)%Z 0x0 (-1)%Z 0x0 0x0;
  mkClient (1114)%Z 0x0 0x3c8500003c8b 0x0 (1)%Z 0x0 (-1)%Z 0x0 0x0;
  mkClient (1115)%Z 0x0 0x3c8b00003c96 0x0 (1)%Z 0x0 (-1)%Z 0x0 0x0;
  mkClient (1116)%Z 0x0 0x3c9600003c9b 0x0 (1)%Z 0x0 (-1)%Z 0x0 0x0;
  mkClient (1117)%Z 0x0 0x3c9b00003ca3 0x0 (1)%Z 0x0 (-1)%Z 0x0 0x0;
  mkClient (1118)%Z 0x0 0x3ca300003cb2 0x0 (1)%Z 0x0 (-1)%Z 0x0 0x0
].
Definition d_cr_idx5_2 : list clientTuple := [
  mkClient (1119)%Z 0x0 0x3cb200003cc3 0x0 (1)%Z 0x0 (-1)%Z 0x0 0x0;
  mkClient (1120)%Z 0x0 0x3cc300003cc7 0x0 (1)%Z 0x0 (-1)%Z 0x0 0x0;
  mkClient (1121)%Z 0x0 0x3cc700003cd0 0x0 (1)%Z 0x0 (-1)%Z 0x0 0x0;
  mkClient (1122)%Z 0x0 0x3cd000003cd6 0x0 (1)%Z 0x0 (-1)%Z 0x0 0x0;
  mkClient (1123)%Z 0x0 0x3cd600003cde 0x0 (1)%Z 0x0 (-1)%Z 0x0 0x0;
  mkClient (1124)%Z 0x0 0x3cde00003ce8 0x0 (1)%Z 0x0 (-1)%Z 0x0 0x0;
  mkClient (1125)%Z 0x0 0x3ce800003cf7 0x0 (-1)%Z 0x0 (-1)%Z 0x0 0x0;
  mkClient (1126)%Z 0x0 0x3cf700003d00 0x0 (1)%Z 0x0 (-1)%Z 0x0 0x0;
  mkClient (1127)%Z 0x0 0x3d0000003d06 0x0 (1)%Z 0x0 (-1)%Z 0x0 0x0;
  mkClient (1128)%Z 0x0 0x3d0600003d0e 0x0 (1)%Z 0x0 (-1)%Z 0x0 0x0;
  mkClient (1129)%Z 0x0 0x3d0e00003d18 0x0 (1)%Z 0x0 (-1)%Z 0x0 0x0;
  mkClient (1130)%Z 0x0 0x3d1800003d1d 0x0 (1)%Z 0x0 (-1)%Z 0x0 0x0;
  mkClient (1131)%Z 0x0 0x3d1d00003d26 0x0 (1)%Z 0x0 (-1)%Z 0x0 0x0;
  mkClient (1132)%Z 0x0 0x3d2600003d2c 0x0 (1)%Z 0x0 (-1)%Z 0x0 0x0;
  mkClient (1133)%Z 0x0 0x3d2c00003d34 0x0 (1)%Z 0x0 (-1)%Z 0x0 0x0;
  mkClient (1134)%Z 0x0 0x3d3400003d40 0x0 (1)%Z 0x0 (-1)%Z 0x0 0x0;
  mkClient (1135)%Z 0x0 0x3d4000003d4b 0x0 (1)%Z 0x0 (-1)%Z 0x0 0x0;
  mkClient (1136)%Z 0x0 0x3d4b00003d55 0x0 (1)%Z 0x0 (-1)%Z 0x0 0x0;
  mkClient (1137)%Z 0x0 0x3d5500003d5a 0x0 (1)%Z 0x0 (-1)%Z 0x0 0x0;
  mkClient (1138)%Z 0x0 0x3d5a00003d5d 0x0 (1)%Z 0x0 (-1)%Z 0x0 0x0;
  mkClient (1139)%Z 0x0 0x3d5d00003d65 0x0 (1)%Z 0x0 (-1)%Z 0x0 0x0;
  mkClient (1140)%Z 0x0 0x3d6500003d6b 0x0 (-1)%Z 0x0 (-1)%Z 0x0 0x0;
  mkClient (1141)%Z 0x0 0x30e1000030ea 0x0 (1)%Z 0x0 (-1)%Z 0x0 0x0;
  mkClient (1142)%Z 0x0 0x3d6b00003d76 0x0 (1)%Z 0x0 (-1)%Z 0x0 0x0;
  mkClient (1143)%Z 0x0 0x3d7600003d7d 0x0 (1)%Z 0x0 (-1)%Z 0x0 0x0;
  mkClient (1144)%Z 0x0 0x3d7d00003d82 0x0 (1)%Z 0x0 (-1)%Z 0x0 0x0;
  mkClient (1145)%Z 0x0 0x3d8200003d8b 0x0 (1)%Z 0x0 (-1)%Z 0x0 0x0;
  mkClient (1146)%Z 0x0 0x3d8b00003d8e 0x0 (1)%Z 0x0 (-1)%Z 0x0 0x0;
  mkClient (1147)%Z 0x0 0x3d8e00003d97 0x0 (1)%Z 0x0 (-1)%Z 0x0 0x0;
  mkClient (1148)%Z 0x0 0x3d9700003d9d 0x0 (1)%Z 0x0 (-1)%Z 0x0 0x0;
  mkClient (1149)%Z 0x0 0x3d9d00003da2 0x0 (1)%Z 0x0 (-1)%Z 0x0 0x0;
  mkClient (1150)%Z 0x0 0x3da200003dad 0x0 (1)%Z 0x0 (-1)%Z 0x0 0x0;
  mkClient (1151)%Z 0x0 0x3dad00003db5 0x0 (1)%Z 0x0 (-1)%Z 0x0 0x0;
  mkClient (1152)%Z 0x0 0x3db500003dbe 0x0 (-1)%Z 0x0 (-1)%Z 0x0 0x0;
  mkClient (1153)%Z 0x0 0x3dbe00003dc6 0x0 (1)%Z 0x0 (-1)%Z 0x0 0x0;
  mkClient (1154)%Z 0x0 0x3dc600003dd0 0x0 (1)%Z 0x0 (-1)%Z 0x0 0x0;
  mkClient (1155)%Z 0x0 0x3dd000003dd5 0x0 (1)%Z 0x0 (-1)%Z 0x0 0x0;
  mkClient (1156)%Z 0x0 0x3dd500003dde 0x0 (1)%Z 0x0 (-1)%Z 0x0 0x0;
  mkClient (1157)%Z 0x0 0x3dde00003de4 0x0 (1)%Z 0x0 (-1)%Z 0x0 0x0;
  mkClient (1158)%Z 0x0 0x3de400003deb 0x0 (1)%Z 0x0 (-1)%Z 0x0 0x0;
  mkClient (1159)%Z 0x0 0x3deb00003df1 0x0 (-1)%Z 0x0 (-1)%Z 0x0 0x0;
  mkClient (1160)%Z 0x0 0x3df100003dfa 0x0 (1)%Z 0x0 (-1)%Z 0x0 0x0;
  mkClient (1161)%Z 0x0 0x3dfa00003dfd 0x0 (1)%Z 0x0 (-1)%Z 0x0 0x0;
  mkClient (1162)%Z 0x0 0x3dfd00003e04 0x0 (1)%Z 0x0 (-1)%Z 0x0 0x0;
  mkClient (1163)%Z 0x0 0x3e0400003e0f 0x0 (1)%Z 0x0 (-1)%Z 0x0 0x0;
  mkClient (1164)%Z 0x0 0x3e0f00003e18 0x0 (1)%Z 0x0 (-1)%Z 0x0 0x0;
  mkClient (1165)%Z 0x0 0x3e1800003e1f 0x0 (1)%Z 0x0 (-1)%Z 0x0 0x0;
  mkClient (1166)%Z 0x0 0x3e1f00003e28 0x0 (-1)%Z 0x0 (-1)%Z 0x0 0x0;
  mkClient (1167)%Z 0x0 0x3e2800003e2e 0x0 (1)%Z 0x0 (-1)%Z 0x0 0x0;
  mkClient (1168)%Z 0x0 0x3e2e00003e3a 0x0 (1)%Z 0x0 (-1)%Z 0x0 0x0;
  mkClient (1169)%Z 0x0 0x3e3a00003e48 0x0 (1)%Z 0x0 (-1)%Z 0x0 0x0;
  mkClient (1170)%Z 0x0 0x2de500002df5 0x0 (1)%Z 0x0 (-1)%Z 0x0 0x0;
  mkClient (1171)%Z 0x0 0x3e4800003e51 0x0 (1)%Z 0x0 (-1)%Z 0x0 0x0;
  mkClient (1172)%Z 0x0 0x3e5100003e5a 0x0 (-1)%Z 0x0 (-1)%Z 0x0 0x0;
  mkClient (1173)%Z 0x0 0x3e5a00003e64 0x0 (1)%Z 0x0 (-1)%Z 0x0 0x0;
  mkClient (1174)%Z 0x0 0x3e6400003e6f 0x0 (1)%Z 0x0 (-1)%Z 0x0 0x0;
  mkClient (1175)%Z 0x0 0x3e6f00003e74 0x0 (1)%Z 0x0 (-1)%Z 0x0 0x0;
  mkClient (1176)%Z 0x0 0x3e7400003e7d 0x0 (1)%Z 0x0 (-1)%Z 0x0 0x0;
  mkClient (1177)%Z 0x0 0x3e7d00003e84 0x0 (1)%Z 0x0 (-1)%Z 0x0 0x0;
  mkClient (1178)%Z 0x0 0x31990000319f 0x0 (1)%Z 0x0 (-1)%Z 0x0 0x0;
  mkClient (1179)%Z 0x0 0x3e8400003e8b 0x0 (-1)%Z 0x0 (-1)%Z 0x0 0x0;
  mkClient (1180)%Z 0x0 0x3e8b00003e98 0x0 (1)%Z 0x0 (-1)%Z 0x0 0x0;
  mkClient (1181)%Z 0x0 0x3e9800003e9d 0x0 (1)%Z 0x0 (-1)%Z 0x0 0x0;
  mkClient (1182)%Z 0x0 0x3e9d00003ea2 0x0 (1)%Z 0x0 (-1)%Z 0x0 0x0;
  mkClient (1183)%Z 0x0 0x3ea200003ea7 0x0 (1)%Z 0x0 (-1)%Z 0x0 0x0;
  mkClient (1184)%Z 0x0 0x3ea700003eac 0x0 (1)%Z 0x0 (-1)%Z 0x0 0x0;
  mkClient (1185)%Z 0x0 0x3eac00003eb4 0x0 (1)%Z 0x0 (-1)%Z 0x0 0x0;
  mkClient (1186)%Z 0x0 0x3eb400003ebb 0x0 (1)%Z 0x0 (-1)%Z 0x0 0x0;
  mkClient (1187)%Z 0x0 0x3ebb00003ebf 0x0 (1)%Z 0x0 (-1)%Z 0x0 0x0;
  mkClient (1188)%Z 0x0 0x3ebf00003ec7 0x0 (1)%Z 0x0 (-1)%Z 0x0 0x0;
  mkClient (1189)%Z 0x0 0x3ec700003ed1 0x0 (-1)%Z 0x0 (-1)%Z 0x0 0x0;
  mkClient (1190)%Z 0x0 0x3ed100003ed8 0x0 (1)%Z 0x0 (-1)%Z 0x0 0x0;
  mkClient (1191)%Z 0x0 0x3ed800003ee0 0x0 (-1)%Z 0x0 (-1)%Z 0x0 0x0;
  mkClient (1192)%Z 0x0 0x3ee000003ee8 0x0 (1)%Z 0x0 (-1)%Z 0x0 0x0;
  mkClient (1193)%Z 0x0 0x3ee800003ef3 0x0 (1)%Z 0x0 (-1)%Z 0x0 0x0;
  mkClient (1194)%Z 0x0 0x3ef300003efb 0x0 (2)%Z 0x0 (-1)%Z 0x0 0x0;
  mkClient (1195)%Z 0x0 0x3efb00003f05 0x0 (1)%Z 0x0 (-1)%Z 0x0 0x0;
  mkClient (1196)%Z 0x0 0x3f0500003f0f 0x0 (1)%Z 0x0 (-1)%Z 0x0 0x0;
  mkClient (1197)%Z 0x0 0x3f0f00003f18 0x0 (1)%Z 0x0 (-1)%Z 0x0 0x0;
  mkClient (1198)%Z 0x0 0x3f1800003f1d 0x0 (1)%Z 0x0 (-1)%Z 0x0 0x0;
  mkClient (1199)%Z 0x0 0x3f1d00003f26 0x0 (1)%Z 0x0 (-1)%Z 0x0 0x0;
  mkClient (1200)%Z 0x0 0x3f2600003f2d 0x0 (1)%Z 0x0 (-1)%Z 0x0 0x0;
  mkClient (1201)%Z 0x0 0x3f2d00003f3d 0x0 (-1)%Z 0x0 (-1)%Z 0x0 0x0;
  mkClient (1202)%Z 0x0 0x3f3d00003f48 0x0 (1)%Z 0x0 (-1)%Z 0x0 0x0;
  mkClient (1203)%Z 0x0 0x3f4800003f4e 0x0 (1)%Z 0x0 (-1)%Z 0x0 0x0;
  mkClient (1204)%Z 0x0 0x3f4e00003f5a 0x0 (1)%Z 0x0 (-1)%Z 0x0 0x0;
  mkClient (1205)%Z 0x0 0x3f5a00003f62 0x0 (1)%Z 0x0 (-1)%Z 0x0 0x0;
  mkClient (1206)%Z 0x0 0x3f6200003f67 0x0 (1)%Z 0x0 (-1)%Z 0x0 0x0;
  mkClient (1207)%Z 0x0 0x3f6700003f6d 0x0 (1)%Z 0x0 (-1)%Z 0x0 0x0;
  mkClient (1208)%Z 0x0 0x3f6d00003f73 0x0 (1)%Z 0x0 (-1)%Z 0x0 0x0;
  mkClient (1209)%Z 0x0 0x3f7300003f85 0x0 (-1)%Z 0x0 (-1)%Z 0x0 0x0;
  mkClient (1210)%Z 0x0 0x3f8500003f8c 0x0 (1)%Z 0x0 (-1)%Z 0x0 0x0;
  mkClient (1211)%Z 0x0 0x3f8c00003f96 0x0 (1)%Z 0x0 (-1)%Z 0x0 0x0;
  mkClient (1212)%Z 0x0 0x3f9600003f9e 0x0 (1)%Z 0x0 (-1)%Z 0x0 0x0;
  mkClient (1213)%Z 0x0 0x3f9e00003fa6 0x0 (-1)%Z 0x0 (-1)%Z 0x0 0x0;
  mkClient (1214)%Z 0x0 0x3fa600003fb0 0x0 (1)%Z 0x0 (-1)%Z 0x0 0x0;
  mkClient (1215)%Z 0x0 0x3fb000003fb8 0x0 (1)%Z 0x0 (-1)%Z 0x0 0x0;
  mkClient (1216)%Z 0x0 0x3fb800003fc3 0x0 (1)%Z 0x0 (-1)%Z 0x0 0x0;
  mkClient (1217)%Z 0x0 0x3fc300003fcc 0x0 (1)%Z 0x0 (-1)%Z 0x0 0x0;
  mkClient (1218)%Z 0x0 0x3fcc00003fd6 0x0 (1)%Z 0x0 (-1)%Z 0x0 0x0;
  mkClient (1219)%Z 0x0 0x3fd600003fe2 0x0 (-1)%Z 0x0 (-1)%Z 0x0 0x0;
  mkClient (1220)%Z 0x0 0x3fe200003ffb 0x0 (-1)%Z 0x0 (-1)%Z 0x0 0x0;
  mkClient (1221)%Z 0x0 0x3ffb00004011 0x0 (-1)%Z 0x0 (-1)%Z 0x0 0x0;
  mkClient (1222)%Z 0x0 0x401100004034 0x0 (-1)%Z 0x0 (-1)%Z 0x0 0x0;
  mkClient (1223)%Z 0x0 0x40340000403c 0x0 (1)%Z 0x0 (-1)%Z 0x0 0x0;
  mkClient (1224)%Z 0x0 0x403c00004046 0x0 (1)%Z 0x0 (-1)%Z 0x0 0x0;
  mkClient (1225)%Z 0x0 0x404600004052 0x0 (1)%Z 0x0 (-1)%Z 0x0 0x0;
  mkClient (1226)%Z 0x0 0x40520000405e 0x0 (-1)%Z 0x0 (-1)%Z 0x0 0x0;
  mkClient (1227)%Z 0x0 0x405e00004062 0x0 (1)%Z 0x0 (-1)%Z 0x0 0x0;
  mkClient (1228)%Z 0x0 0x406200004066 0x0 (-1)%Z 0x0 (-1)%Z 0x0 0x0;
  mkClient (1229)%Z 0x0 0x40660000406b 0x0 (1)%Z 0x0 (-1)%Z 0x0 0x0;
  mkClient (1230)%Z 0x0 0x406b0000406e 0x0 (1)%Z 0x0 (-1)%Z 0x0 0x0;
  mkClient (1231)%Z 0x0 0x406e00004074 0x0 (1)%Z 0x0 (-1)%Z 0x0 0x0;
  mkClient (1232)%Z 0x0 0x40740000407e 0x0 (-1)%Z 0x0 (-1)%Z 0x0 0x0;
  mkClient (1233)%Z 0x0 0x407e00004090 0x0 (1)%Z 0x0 (-1)%Z 0x0 0x0;
  mkClient (1234)%Z 0x0 0x409000004096 0x0 (1)%Z 0x0 (-1)%Z 0x0 0x0;
  mkClient (1235)%Z 0x0 0x40960000409a 0x0 (1)%Z 0x0 (-1)%Z 0x0 0x0;
  mkClient (1236)%Z 0x0 0x409a000040a2 0x0 (1)%Z 0x0 (-1)%Z 0x0 0x0;
  mkClient (1237)%Z 0x0 0x40a2000040a6 0x0 (1)%Z 0x0 (-1)%Z 0x0 0x0;
  mkClient (1238)%Z 0x0 0x40a6000040ae 0x0 (1)%Z 0x0 (-1)%Z 0x0 0x0;
  mkClient (1239)%Z 0x0 0x40ae000040b5 0x0 (1)%Z 0x0 (-1)%Z 0x0 0x0;
  mkClient (1240)%Z 0x0 0x40b5000040bb 0x0 (1)%Z 0x0 (-1)%Z 0x0 0x0;
  mkClient (1241)%Z 0x0 0x40bb000040c3 0x0 (1)%Z 0x0 (-1)%Z 0x0 0x0;
  mkClient (1242)%Z 0x0 0x40c3000040c9 0x0 (1)%Z 0x0 (-1)%Z 0x0 0x0;
  mkClient (1243)%Z 0x0 0x40c9000040d1 0x0 (-1)%Z 0x0 (-1)%Z 0x0 0x0;
  mkClient (1244)%Z 0x0 0x40d1000040dd 0x0 (1)%Z 0x0 (-1)%Z 0x0 0x0;
  mkClient (1245)%Z 0x0 0x40dd000040e5 0x0 (-1)%Z 0x0 (-1)%Z 0x0 0x0;
  mkClient (1246)%Z 0x0 0x40e5000040ec 0x0 (-1)%Z 0x0 (-1)%Z 0x0 0x0;
  mkClient (1247)%Z 0x0 0x40ec000040f5 0x0 (1)%Z 0x0 (-1)%Z 0x0 0x0;
  mkClient (1248)%Z 0x0 0x40f5000040fe 0x0 (1)%Z 0x0 (-1)%Z 0x0 0x0;
  mkClient (1249)%Z 0x0 0x40fe0000410a 0x0 (1)%Z 0x0 (-1)%Z 0x0 0x0;
  mkClient (-1)%Z 0x410a00004115 0x410a00004115 0x0 (-1)%Z 0x0 (-1)%Z 0x0 0x0;
  mkClient (1250)%Z 0x0 0x41150000411f 0x0 (1)%Z 0x0 (-1)%Z 0x0 0x0;
  mkClient (1251)%Z 0x0 0x411f00004129 0x0 (1)%Z 0x0 (-1)%Z 0x0 0x0;
  mkClient (1252)%Z 0x0 0x41290000413b 0x0 (1)%Z 0x0 (-1)%Z 0x0 0x0;
  mkClient (1253)%Z 0x0 0x413b00004148 0x0 (1)%Z 0x0 (-1)%Z 0x0 0x0;
  mkClient (1254)%Z 0x0 0x414800004155 0x0 (-1)%Z 0x0 (-1)%Z 0x0 0x0;
  mkClient (1255)%Z 0x0 0x41550000415e 0x0 (1)%Z 0x0 (-1)%Z 0x0 0x0;
  mkClient (-1)%Z 0x415e00004166 0x415e00004166 0x0 (-1)%Z 0x0 (-1)%Z 0x0 0x0;
  mkClient (1256)%Z 0x0 0x41660000416a 0x0 (1)%Z 0x0 (-1)%Z 0x0 0x0;
  mkClient (1257)%Z 0x0 0x416a00004175 0x0 (1)%Z 0x0 (-1)%Z 0x0 0x0;
  mkClient (1258)%Z 0x0 0x41750000418b 0x0 (1)%Z 0x0 (-1)%Z 0x0 0x0;
  mkClient (1259)%Z 0x0 0x418b00004193 0x0 (1)%Z 0x0 (-1)%Z 0x0 0x0;
  mkClient (-1)%Z 0x4193000041a0 0x41a0000041a5 0x0 (-1)%Z 0x0 (-1)%Z 0x0 0x0;
  mkClient (1260)%Z 0x0 0x41a5000041bb 0x0 (1)%Z 0x0 (-1)%Z 0x0 0x0;
  mkClient (-1)%Z 0x41bb000041c9 0x41c9000041cf 0x0 (-1)%Z 0x0 (-1)%Z 0x0 0x0;
  mkClient (1261)%Z 0x0 0x41cf000041db 0x0 (1)%Z 0x0 (-1)%Z 0x0 0x0;
  mkClient (1262)%Z 0x0 0x41db000041e5 0x0 (1)%Z 0x0 (-1)%Z 0x0 0x0;
  mkClient (1263)%Z 0x0 0x41e5000041ed 0x0 (1)%Z 0x0 (-1)%Z 0x0 0x0;
  mkClient (1264)%Z 0x0 0x41ed000041f9 0x0 (1)%Z 0x0 (-1)%Z 0x0 0x0;
  mkClient (1265)%Z 0x0 0x41f900004201 0x0 (1)%Z 0x0 (-1)%Z 0x0 0x0;
  mkClient (-1)%Z 0x420100004209 0x420100004209 0x0 (-1)%Z 0x0 (-1)%Z 0x0 0x0;
  mkClient (1266)%Z 0x0 0x420900004212 0x0 (1)%Z 0x0 (-1)%Z 0x0 0x0;
  mkClient (-1)%Z 0x362600003633 0x362600003633 0x0 (-1)%Z 0x0 (-1)%Z 0x0 0x0;
  mkClient (1267)%Z 0x0 0x42120000421a 0x0 (1)%Z 0x0 (-1)%Z 0x0 0x0;
  mkClient (1268)%Z 0x0 0x421a0000421e 0x0 (1)%Z 0x0 (-1)%Z 0x0 0x0;
  mkClient (1269)%Z 0x0 0x421e00004224 0x0 (1)%Z 0x0 (-1)%Z 0x0 0x0;
  mkClient (1270)%Z 0x0 0x42240000422b 0x0 (1)%Z 0x0 (-1)%Z 0x0 0x0;
  mkClient (1271)%Z 0x0 0x422b0000422f 0x0 (1)%Z 0x0 (-1)%Z 0x0 0x0;
  mkClient (1272)%Z 0x0 0x422f00004233 0x0 (1)%Z 0x0 (-1)%Z 0x0 0x0;
  mkClient (1273)%Z 0x0 0x423300004237 0x0 (1)%Z 0x0 (-1)%Z 0x0 0x0;
  mkClient (1274)%Z 0x0 0x42370000423b 0x0 (1)%Z 0x0 (-1)%Z 0x0 0x0;
  mkClient (1275)%Z 0x0 0x423b0000424a 0x0 (1)%Z 0x0 (-1)%Z 0x0 0x0;
  mkClient (1276)%Z 0x0 0x424a00004256 0x0 (1)%Z 0x0 (-1)%Z 0x0 0x0;
  mkClient (1277)%Z 0x0 0x425600004260 0x0 (1)%Z 0x0 (-1)%Z 0x0 0x0;
  mkClient (1278)%Z 0x0 0x426000004268 0x0 (1)%Z 0x0 (-1)%Z 0x0 0x0;
  mkClient (-1)%Z 0x426800004272 0x426800004272 0x0 (-1)%Z 0x0 (-1)%Z 0x0 0x0;
  mkClient (-1)%Z 0x427200004278 0x427200004278 0x0 (-1)%Z 0x0 (-1)%Z 0x0 0x0;
  mkClient (1279)%Z 0x0 0x42780000427d 0x0 (1)%Z 0x0 (-1)%Z 0x0 0x0;
  mkClient (1280)%Z 0x0 0x427d0000428a 0x0 (1)%Z 0x0 (-1)%Z 0x0 0x0;
  mkClient (-1)%Z 0x428a00004294 0x42940000429a 0x0 (-1)%Z 0x0 (-1)%Z 0x0 0x0;
  mkClient (1281)%Z 0x0 0x429a000042a9 0x0 (1)%Z 0x0 (-1)%Z 0x0 0x0;
  mkClient (1282)%Z 0x0 0x42a9000042b4 0x0 (1)%Z 0x0 (-1)%Z 0x0 0x0;
  mkClient (1283)%Z 0x0 0x42b4000042bc 0x0 (1)%Z 0x0 (-1)%Z 0x0 0x0;
  mkClient (1284)%Z 0x0 0x42bc000042ca 0x0 (1)%Z 0x0 (-1)%Z 0x0 0x0;
  mkClient (1285)%Z 0x0 0x42ca000042ce 0x0 (1)%Z 0x0 (-1)%Z 0x0 0x0;
  mkClient (1286)%Z 0x0 0x42ce000042d6 0x0 (1)%Z 0x0 (-1)%Z 0x0 0x0;
  mkClient (1287)%Z 0x0 0x42d6000042da 0x0 (1)%Z 0x0 (-1)%Z 0x0 0x0;
  mkClient (1288)%Z 0x0 0x42da000042e0 0x0 (1)%Z 0x0 (-1)%Z 0x0 0x0;
  mkClient (1289)%Z 0x0 0x42e0000042e7 0x0 (1)%Z 0x0 (-1)%Z 0x0 0x0;
  mkClient (1290)%Z 0x0 0x42e7000042f1 0x0 (1)%Z 0x0 (-1)%Z 0x0 0x0;
  mkClient (1291)%Z 0x0 0x42f100004303 0x0 (1)%Z 0x0 (-1)%Z 0x0 0x0;
  mkClient (1292)%Z 0x0 0x43030000430f 0x0 (1)%Z 0x0 (-1)%Z 0x0 0x0;
  mkClient (1293)%Z 0x0 0x430f00004314 0x0 (-1)%Z 0x0 (-1)%Z 0x0 0x0;
  mkClient (1294)%Z 0x0 0x43140000431a 0x0 (1)%Z 0x0 (-1)%Z 0x0 0x0;
  mkClient (1295)%Z 0x0 0x431a0000432e 0x0 (1)%Z 0x0 (-1)%Z 0x0 0x0;
  mkClient (1296)%Z 0x0 0x432e00004338 0x0 (1)%Z 0x0 (-1)%Z 0x0 0x0;
  mkClient (1297)%Z 0x0 0x43380000433f 0x0 (1)%Z 0x0 (-1)%Z 0x0 0x0;
  mkClient (1298)%Z 0x0 0x433f00004344 0x0 (1)%Z 0x0 (-1)%Z 0x0 0x0;
  mkClient (1299)%Z 0x0 0x434400004349 0x0 (1)%Z 0x0 (-1)%Z 0x0 0x0;
  mkClient (1300)%Z 0x0 0x43490000434d 0x0 (1)%Z 0x0 (-1)%Z 0x0 0x0;
  mkClient (-1)%Z 0x434d00004353 0x435300004358 0x0 (-1)%Z 0x0 (-1)%Z 0x0 0x0;
  mkClient (1301)%Z 0x0 0x435800004364 0x0 (1)%Z 0x0 (-1)%Z 0x0 0x0;
  mkClient (1302)%Z 0x0 0x436400004369 0x0 (1)%Z 0x0 (-1)%Z 0x0 0x0;
  mkClient (1303)%Z 0x0 0x436900004379 0x0 (1)%Z 0x0 (-1)%Z 0x0 0x0;
  mkClient (1304)%Z 0x0 0x43790000437e 0x0 (1)%Z 0x0 (-1)%Z 0x0 0x0;
  mkClient (1305)%Z 0x0 0x43790000437e 0x0 (1)%Z 0x0 (-1)%Z 0x0 0x0;
  mkClient (1306)%Z 0x0 0x437e00004389 0x0 (1)%Z 0x0 (-1)%Z 0x0 0x0;
  mkClient (1307)%Z 0x0 0x43890000438e 0x0 (1)%Z 0x0 (-1)%Z 0x0 0x0;
  mkClient (1308)%Z 0x0 0x438e00004393 0x0 (1)%Z 0x0 (-1)%Z 0x0 0x0
].
Definition d_cr_idx5_3 : list clientTuple := [
  mkClient (1309)%Z 0x0 0x439300004397 0x0 (1)%Z 0x0 (-1)%Z 0x0 0x0;
  mkClient (-1)%Z 0x43970000439f 0x439f000043a7 0x0 (-1)%Z 0x0 (-1)%Z 0x0 0x0;
  mkClient (1310)%Z 0x0 0x43a7000043ab 0x0 (1)%Z 0x0 (-1)%Z 0x0 0x0;
  mkClient (1311)%Z 0x0 0x43ab000043b2 0x0 (1)%Z 0x0 (-1)%Z 0x0 0x0;
  mkClient (1312)%Z 0x0 0x43ab000043b2 0x0 (1)%Z 0x0 (-1)%Z 0x0 0x0;
  mkClient (1313)%Z 0x0 0x43b2000043ba 0x0 (1)%Z 0x0 (-1)%Z 0x0 0x0;
  mkClient (1314)%Z 0x0 0x43ba000043c1 0x0 (1)%Z 0x0 (-1)%Z 0x0 0x0;
  mkClient (1315)%Z 0x0 0x43c1000043c8 0x0 (1)%Z 0x0 (-1)%Z 0x0 0x0;
  mkClient (1316)%Z 0x0 0x43c8000043ca 0x0 (2)%Z 0x0 (-1)%Z 0x0 0x0;
  mkClient (1317)%Z 0x0 0x43ca000043cc 0x0 (1)%Z 0x0 (-1)%Z 0x0 0x0;
  mkClient (1318)%Z 0x0 0x43c8000043ca 0x0 (2)%Z 0x0 (-1)%Z 0x0 0x0
].
(** client_repo.go:11-1499, class 5. *)
Definition d_cr_idx5 : list clientTuple :=
  concat [d_cr_idx5_0; d_cr_idx5_1; d_cr_idx5_2; d_cr_idx5_3].

Definition d_cr_idx6_0 : list clientTuple := [
  mkClient (1319)%Z 0x0 0x43cc000043db 0x0 (1)%Z 0x0 (-1)%Z 0x0 0x0;
  mkClient (1320)%Z 0x0 0x43db000043ec 0x0 (1)%Z 0x0 (-1)%Z 0x0 0x0;
  mkClient (1321)%Z 0x0 0x43db000043ec 0x0 (1)%Z 0x0 (-1)%Z 0x0 0x0;
  mkClient (1322)%Z 0x0 0x43ec000043f8 0x0 (1)%Z 0x0 (-1)%Z 0x0 0x0;
  mkClient (1323)%Z 0x0 0x43f800004403 0x0 (1)%Z 0x0 (-1)%Z 0x0 0x0;
  mkClient (1324)%Z 0x0 0x44030000440c 0x0 (1)%Z 0x0 (-1)%Z 0x0 0x0;
  mkClient (1325)%Z 0x0 0x440c00004413 0x0 (1)%Z 0x0 (-1)%Z 0x0 0x0;
  mkClient (1326)%Z 0x0 0x44130000441e 0x0 (1)%Z 0x0 (-1)%Z 0x0 0x0;
  mkClient (1327)%Z 0x0 0x441e00004423 0x0 (1)%Z 0x0 (-1)%Z 0x0 0x0;
  mkClient (1328)%Z 0x0 0x44230000442a 0x0 (1)%Z 0x0 (-1)%Z 0x0 0x0;
  mkClient (1329)%Z 0x0 0x442a00004431 0x0 (1)%Z 0x0 (-1)%Z 0x0 0x0;
  mkClient (1330)%Z 0x0 0x443100004439 0x0 (1)%Z 0x0 (-1)%Z 0x0 0x0;
  mkClient (1331)%Z 0x0 0x443900004441 0x0 (1)%Z 0x0 (-1)%Z 0x0 0x0;
  mkClient (1332)%Z 0x0 0x44410000444a 0x0 (1)%Z 0x0 (-1)%Z 0x0 0x0;
  mkClient (1333)%Z 0x0 0x444a00004451 0x0 (1)%Z 0x0 (-1)%Z 0x0 0x0;
  mkClient (-1)%Z 0x44510000445a 0x445a00004462 0x0 (-1)%Z 0x0 (-1)%Z 0x0 0x0;
  mkClient (-1)%Z 0x44620000446e 0x446e00004479 0x0 (-1)%Z 0x0 (-1)%Z 0x0 0x0;
  mkClient (1334)%Z 0x0 0x447900004484 0x0 (1)%Z 0x0 (-1)%Z 0x0 0x0;
  mkClient (1335)%Z 0x0 0x448400004489 0x0 (1)%Z 0x0 (-1)%Z 0x0 0x0;
  mkClient (1336)%Z 0x0 0x448900004493 0x0 (1)%Z 0x0 (-1)%Z 0x0 0x0;
  mkClient (1337)%Z 0x0 0x449300004499 0x0 (1)%Z 0x0 (-1)%Z 0x0 0x0;
  mkClient (1338)%Z 0x0 0x4499000044a1 0x0 (1)%Z 0x0 (-1)%Z 0x0 0x0;
  mkClient (1339)%Z 0x0 0x44a1000044a9 0x0 (1)%Z 0x0 (-1)%Z 0x0 0x0;
  mkClient (1340)%Z 0x0 0x44a9000044b3 0x0 (1)%Z 0x0 (-1)%Z 0x0 0x0;
  mkClient (1341)%Z 0x0 0x44b3000044bb 0x0 (1)%Z 0x0 (-1)%Z 0x0 0x0;
  mkClient (-1)%Z 0x44bb000044c7 0x44c7000044d1 0x0 (-1)%Z 0x0 (-1)%Z 0x0 0x0;
  mkClient (1342)%Z 0x0 0x44d1000044dc 0x0 (1)%Z 0x0 (-1)%Z 0x0 0x0;
  mkClient (1343)%Z 0x0 0x44dc000044e5 0x0 (1)%Z 0x0 (-1)%Z 0x0 0x0;
  mkClient (1344)%Z 0x0 0x44e5000044ef 0x0 (1)%Z 0x0 (-1)%Z 0x0 0x0;
  mkClient (1345)%Z 0x0 0x44ef000044f9 0x0 (1)%Z 0x0 (-1)%Z 0x0 0x0;
  mkClient (1346)%Z 0x0 0x44f900004500 0x0 (1)%Z 0x0 (-1)%Z 0x0 0x0;
  mkClient (1347)%Z 0x0 0x45000000450b 0x0 (1)%Z 0x0 (-1)%Z 0x0 0x0;
  mkClient (1348)%Z 0x0 0x450b00004513 0x0 (1)%Z 0x0 (-1)%Z 0x0 0x0;
  mkClient (1349)%Z 0x0 0x45130000451a 0x0 (1)%Z 0x0 (-1)%Z 0x0 0x0;
  mkClient (-1)%Z 0x451a00004527 0x45270000452c 0x0 (-1)%Z 0x0 (-1)%Z 0x0 0x0
].
(** client_repo.go:11-1499, class 6. *)
Definition d_cr_idx6 : list clientTuple :=
  concat [d_cr_idx6_0].

Definition d_cr_idx : list (list clientTuple) := [d_cr_idx0; d_cr_idx1; d_cr_idx2; d_cr_idx3; d_cr_idx4; d_cr_idx5; d_cr_idx6].

Definition d_cr_re_0 : list blob := [
  "(?i)(?:^|[^A-Z0-9\-_]|[^A-Z0-9\-]_|sprd-|MZ-)(?:Chr[o0]me/)";
  "(?i)(?:^|[^A-Z0-9\-_]|[^A-Z0-9\-]_|sprd-|MZ-)(?:(?:Apple)?WebKit)";
  "(?i)(?:^|[^A-Z0-9\-_]|[^A-Z0-9\-]_|sprd-|MZ-)(?:Clecko)";
  "(?i)(?:^|[^A-Z0-9\-_]|[^A-Z0-9\-]_|sprd-|MZ-)(?:Gecko)";
  "(?i)(?:^|[^A-Z0-9\-_]|[^A-Z0-9\-]_|sprd-|MZ-)(?:Ekioh(?:Flow)?)";
  "(?i)(?:^|[^A-Z0-9\-_]|[^A-Z0-9\-]_|sprd-|MZ-)(?:LibWeb\+LibJs)";
  "(?i)(?:^|[^A-Z0-9\-_]|[^A-Z0-9\-]_|sprd-|MZ-)(?:Maple (\d+[.\d]+)|Maple\d{4})";
  "(?i)(?:^|[^A-Z0-9\-_]|[^A-Z0-9\-]_|sprd-|MZ-)(?:FireSendBrowser/([\d.]+))";
  "(?i)(?:^|[^A-Z0-9\-_]|[^A-Z0-9\-]_|sprd-|MZ-)(?:buscari/([\d.]+))";
  "(?i)(?:^|[^A-Z0-9\-_]|[^A-Z0-9\-]_|sprd-|MZ-)(?:ArtisReader/([\d.]+))";
  "(?i)(?:^|[^A-Z0-9\-_]|[^A-Z0-9\-]_|sprd-|MZ-)(?:SamanthaDoubao/([\d.]+))";
  "(?i)(?:^|[^A-Z0-9\-_]|[^A-Z0-9\-]_|sprd-|MZ-)(?:HeyTapBrowser/([\d.]+))";
  "(?i)(?:^|[^A-Z0-9\-_]|[^A-Z0-9\-]_|sprd-|MZ-)(?:QuarkPC/(\d+\.[\.\d]+))";
  "(?i)(?:^|[^A-Z0-9\-_]|[^A-Z0-9\-]_|sprd-|MZ-)(?:AltiBrowser/([\d.]+))";
  "(?i)(?:^|[^A-Z0-9\-_]|[^A-Z0-9\-]_|sprd-|MZ-)(?:Maple (\d+[.\d]+)|Maple\d{4})";
  "(?i)(?:^|[^A-Z0-9\-_]|[^A-Z0-9\-]_|sprd-|MZ-)(?:Singlebox/(\d+\.[\.\d]+))";
  "(?i)(?:^|[^A-Z0-9\-_]|[^A-Z0-9\-]_|sprd-|MZ-)(?:TUSK/(\d+[.\d]+))";
  "(?i)(?:^|[^A-Z0-9\-_]|[^A-Z0-9\-]_|sprd-|MZ-)(?:Dezor/(\d+[.\d]+))";
  "(?i)(?:^|[^A-Z0-9\-_]|[^A-Z0-9\-]_|sprd-|MZ-)(?:OJR Browser/([\d.]+))";
  "(?i)(?:^|[^A-Z0-9\-_]|[^A-Z0-9\-]_|sprd-|MZ-)(?:SecureBrowser/([\d.]+))";
  "(?i)(?:^|[^A-Z0-9\-_]|[^A-Z0-9\-]_|sprd-|MZ-)(?:Veera/([\d.]+))";
  "(?i)(?:^|[^A-Z0-9\-_]|[^A-Z0-9\-]_|sprd-|MZ-)(?:Ninesky(?:-android-mobile)?/([\d.]+))";
  "(?i)(?:^|[^A-Z0-9\-_]|[^A-Z0-9\-]_|sprd-|MZ-)(?:Perk/([\d.]+))";
  "(?i)(?:^|[^A-Z0-9\-_]|[^A-Z0-9\-]_|sprd-|MZ-)(?:Presearch \(Tempest\))";
  "(?i)(?:^|[^A-Z0-9\-_]|[^A-Z0-9\-]_|sprd-|MZ-)(?:QtWeb Internet Browser(?:/(\d+[.\d]+))?)";
  "(?i)(?:^|[^A-Z0-9\-_]|[^A-Z0-9\-]_|sprd-|MZ-)(?:UPhoneWebBrowser(\d+[.\d]+))";
  "(?i)(?:^|[^A-Z0-9\-_]|[^A-Z0-9\-]_|sprd-|MZ-)(?:(?:MIB|MotorolaWebKit.*Version)/(\d+[.\d]+))";
  "(?i)(?:^|[^A-Z0-9\-_]|[^A-Z0-9\-]_|sprd-|MZ-)(?:iNet Browser(?: (\d+[.\d]+))?)";
  "(?i)(?:^|[^A-Z0-9\-_]|[^A-Z0-9\-]_|sprd-|MZ-)(?:Prism/([\d.]+))";
  "(?i)(?:^|[^A-Z0-9\-_]|[^A-Z0-9\-]_|sprd-|MZ-)(?:Awesomium/([\d.]+))";
  "(?i)(?:^|[^A-Z0-9\-_]|[^A-Z0-9\-]_|sprd-|MZ-)(?:Roccat(?:/(\d+[.\d]+))?)";
  "(?i)(?:^|[^A-Z0-9\-_]|[^A-Z0-9\-]_|sprd-|MZ-)(?:Swiftweasel(?:/(\d+[.\d]+))?)";
  "(?i)(?:^|[^A-Z0-9\-_]|[^A-Z0-9\-]_|sprd-|MZ-)(?:wkbrowser (\d+[.\d]+))";
  "(?i)(?:^|[^A-Z0-9\-_]|[^A-Z0-9\-]_|sprd-|MZ-)(?:KUN/(\d+[.\d]+))";
  "(?i)(?:^|[^A-Z0-9\-_]|[^A-Z0-9\-]_|sprd-|MZ-)(?:NaenaraBrowser(?:/(\d+[.\d]+))?)";
  "(?i)(?:^|[^A-Z0-9\-_]|[^A-Z0-9\-]_|sprd-|MZ-)(?:nook browser(?:/(\d+[.\d]+))?)";
  "(?i)(?:^|[^A-Z0-9\-_]|[^A-Z0-9\-]_|sprd-|MZ-)(?:xChaos_Arachne/5\.(\d+\.[.\d]+))";
  "(?i)(?:^|[^A-Z0-9\-_]|[^A-Z0-9\-]_|sprd-|MZ-)(?:WeltweitimnetzBrowser/(\d+\.[.\d]+))";
  "(?i)(?:^|[^A-Z0-9\-_]|[^A-Z0-9\-]_|sprd-|MZ-)(?:(?:Ladybird|LibWeb\+LibJS/.*Browser)/(\d+\.[.\d]+))";
  "(?i)(?:^|[^A-Z0-9\-_]|[^A-Z0-9\-]_|sprd-|MZ-)(?:Kitt/(\d+\.[.\d]+))";
  "(?i)(?:^|[^A-Z0-9\-_]|[^A-Z0-9\-]_|sprd-|MZ-)(?:SkyLeap/(\d+\.[.\d]+))";
  "(?i)(?:^|[^A-Z0-9\-_]|[^A-Z0-9\-]_|sprd-|MZ-)(?:MaxBrowser/(\d+\.[.\d]+))";
  "(?i)(?:^|[^A-Z0-9\-_]|[^A-Z0-9\-]_|sprd-|MZ-)(?:YouBrowser/(\d+\.[.\d]+))";
  "(?i)(?:^|[^A-Z0-9\-_]|[^A-Z0-9\-]_|sprd-|MZ-)(?:EudoraWeb (\d+[.\d]+))";
  "(?i)(?:^|[^A-Z0-9\-_]|[^A-Z0-9\-]_|sprd-|MZ-)(?:^w3m/(\d+[.\d]+))";
  "(?i)(?:^|[^A-Z0-9\-_]|[^A-Z0-9\-]_|sprd-|MZ-)(?:WebianShell/(\d+[.\d]+))";
  "(?i)(?:^|[^A-Z0-9\-_]|[^A-Z0-9\-]_|sprd-|MZ-)(?:Vonkeror(?:/(\d+[.\d]+))?)";
  "(?i)(?:^|[^A-Z0-9\-_]|[^A-Z0-9\-]_|sprd-|MZ-)(?:Wyzo/(\d+\.[.\d]+))";
  "(?i)(?:^|[^A-Z0-9\-_]|[^A-Z0-9\-]_|sprd-|MZ-)(?:Liri/(\d+\.[.\d]+))";
  "(?i)(?:^|[^A-Z0-9\-_]|[^A-Z0-9\-]_|sprd-|MZ-)(?:Columbus/(\d+\.[.\d]+))";
  "(?i)(?:^|[^A-Z0-9\-_]|[^A-Z0-9\-]_|sprd-|MZ-)(?:K-Ninja/(\d+\.[.\d]+))";
  "(?i)(?:^|[^A-Z0-9\-_]|[^A-Z0-9\-]_|sprd-|MZ-)(?:^PB(\d+\.[.\d]+))";
  "(?i)(?:^|[^A-Z0-9\-_]|[^A-Z0-9\-]_|sprd-|MZ-)(?:EastBrowser/(\d+\.[.\d]+))";
  "(?i)(?:^|[^A-Z0-9\-_]|[^A-Z0-9\-]_|sprd-|MZ-)(?:Qiyu/(\d+\.[.\d]+))";
  "(?i)(?:^|[^A-Z0-9\-_]|[^A-Z0-9\-]_|sprd-|MZ-)(?:WebDiscover/(\d+\.[.\d]+))";
  "(?i)(?:^|[^A-Z0-9\-_]|[^A-Z0-9\-]_|sprd-|MZ-)(?:LeganBrowser/(\d+\.[.\d]+))";
  "(?i)(?:^|[^A-Z0-9\-_]|[^A-Z0-9\-]_|sprd-|MZ-)(?:Aplix_.*_browser/(\d+\.[.\d]+))";
  "(?i)(?:^|[^A-Z0-9\-_]|[^A-Z0-9\-]_|sprd-|MZ-)(?:Mogok/(\d+\.[.\d]+))";
  "(?i)(?:^|[^A-Z0-9\-_]|[^A-Z0-9\-]_|sprd-|MZ-)(?:(?:IOS)?TrueLocationBrowser/(\d+\.[.\d]+))";
  "(?i)(?:^|[^A-Z0-9\-_]|[^A-Z0-9\-]_|sprd-|MZ-)(?:DiigoBrowser$)";
  "(?i)(?:^|[^A-Z0-9\-_]|[^A-Z0-9\-]_|sprd-|MZ-)(?:.*OnBrowserLite(\d+\.[.\d]+))";
  "(?i)(?:^|[^A-Z0-9\-_]|[^A-Z0-9\-]_|sprd-|MZ-)(?:Bluefy/(\d+\.[.\d]+))";
  "(?i)(?:^|[^A-Z0-9\-_]|[^A-Z0-9\-]_|sprd-|MZ-)(?:(?:Novarra-Vision|Vision-Browser)(?:/(\d+[.\d]+))?)";
  "(?i)(?:^|[^A-Z0-9\-_]|[^A-Z0-9\-]_|sprd-|MZ-)(?:SurfyBrowser/(\d+[.\d]+))";
  "(?i)(?:^|[^A-Z0-9\-_]|[^A-Z0-9\-]_|sprd-|MZ-)(?:18\+/([\d.]+))";
  "(?i)(?:^|[^A-Z0-9\-_]|[^A-Z0-9\-]_|sprd-|MZ-)(?:GoKu-iOS/(\d+[.\d]+))";
  "(?i)(?:^|[^A-Z0-9\-_]|[^A-Z0-9\-]_|sprd-|MZ-)(?:Ask\.com Mobile Browser)";
  "(?i)(?:^|[^A-Z0-9\-_]|[^A-Z0-9\-]_|sprd-|MZ-)(?:Bang/(\d+[.\d]+))";
  "(?i)(?:^|[^A-Z0-9\-_]|[^A-Z0-9\-]_|sprd-|MZ-)(?:ManagedBrowser(?:/(\d+[.\d]+))?)";
  "(?i)(?:^|[^A-Z0-9\-_]|[^A-Z0-9\-]_|sprd-|MZ-)(?:Lotus/(\d+[.\d]+))";
  "(?i)(?:^|[^A-Z0-9\-_]|[^A-Z0-9\-]_|sprd-|MZ-)(?:Ninetails(?:/(\d+[.\d]+))?)";
  "(?i)(?:^|[^A-Z0-9\-_]|[^A-Z0-9\-]_|sprd-|MZ-)(?:Wexond(?:/(\d+[.\d]+))?)";
  "(?i)(?:^|[^A-Z0-9\-_]|[^A-Z0-9\-]_|sprd-|MZ-)(?:catalyst(?:/(\d+[.\d]+))?)";
  "(?i)(?:^|[^A-Z0-9\-_]|[^A-Z0-9\-]_|sprd-|MZ-)(?:Impervious(?:/(\d+[.\d]+))?)";
  "(?i)(?:^|[^A-Z0-9\-_]|[^A-Z0-9\-]_|sprd-|MZ-)(?:RakutenBrowser(?:/(\d+[.\d]+))?)";
  "(?i)(?:^|[^A-Z0-9\-_]|[^A-Z0-9\-]_|sprd-|MZ-)(?:RakutenWebSearch(?:/(\d+[.\d]+))?)";
  "(?i)(?:^|[^A-Z0-9\-_]|[^A-Z0-9\-]_|sprd-|MZ-)(?:VibeMate(?:/(\d+[.\d]+))?)";
  "(?i)(?:^|[^A-Z0-9\-_]|[^A-Z0-9\-]_|sprd-|MZ-)(?:yixia\.browser/com\.donerbrowser\.app/)";
  "(?i)(?:^|[^A-Z0-9\-_]|[^A-Z0-9\-]_|sprd-|MZ-)(?:tararia/(\d+\.[.\d]+))";
  "(?i)(?:^|[^A-Z0-9\-_]|[^A-Z0-9\-]_|sprd-|MZ-)(?:SberBrowser/(\d+\.[.\d]+))";
  "(?i)(?:^|[^A-Z0-9\-_]|[^A-Z0-9\-]_|sprd-|MZ-)(?:Raspbian Chromium/(?:(\d+[.\d]+))?)";
  "(?i)(?:^|[^A-Z0-9\-_]|[^A-Z0-9\-]_|sprd-|MZ-)(?:Quick Search TV(?:/(?:Wild Moon Edition )?(\d+[.\d]+))?)";
  "(?i)(?:^|[^A-Z0-9\-_]|[^A-Z0-9\-]_|sprd-|MZ-)(?:Skye/(\d+\.[.\d]+))";
  "(?i)(?:^|[^A-Z0-9\-_]|[^A-Z0-9\-]_|sprd-|MZ-)(?:VD/\d+)";
  "(?i)(?:^|[^A-Z0-9\-_]|[^A-Z0-9\-]_|sprd-|MZ-)(?:\[(?:HB/29|PB/(?:66|81))\])";
  "(?i)(?:^|[^A-Z0-9\-_]|[^A-Z0-9\-]_|sprd-|MZ-)(?:\[HS/\d+\])";
  "(?i)(?:^|[^A-Z0-9\-_]|[^A-Z0-9\-]_|sprd-|MZ-)(?:\[PB/\d+\])";
  "(?i)(?:^|[^A-Z0-9\-_]|[^A-Z0-9\-]_|sprd-|MZ-)(?:^Normalized (?:iPad|iPhone) \(iOS Safari\))";
  "(?i)(?:^|[^A-Z0-9\-_]|[^A-Z0-9\-]_|sprd-|MZ-)(?:Nuviu/(?:(\d+[.\d]+))?)";
  "(?i)(?:^|[^A-Z0-9\-_]|[^A-Z0-9\-]_|sprd-|MZ-)(?:DoCoMo/(?:(\d+[.\d]+))?)";
  "(?i)(?:^|[^A-Z0-9\-_]|[^A-Z0-9\-]_|sprd-|MZ-)(?:com\.airfind\.browser/(?:(\d+[.\d]+))?)";
  "(?i)(?:^|[^A-Z0-9\-_]|[^A-Z0-9\-]_|sprd-|MZ-)(?:ArcMobile2(?:/(\d+\.[.\d]+);)?)";
  "(?i)(?:^|[^A-Z0-9\-_]|[^A-Z0-9\-]_|sprd-|MZ-)(?:Nuanti(?:Meta)?/(\d+\.[.\d]+))";
  "(?i)(?:^|[^A-Z0-9\-_]|[^A-Z0-9\-]_|sprd-|MZ-)(?:RokuBrowser/(\d+\.[.\d]+))";
  "(?i)(?:^|[^A-Z0-9\-_]|[^A-Z0-9\-]_|sprd-|MZ-)(?:PicoBrowser/(\d+\.[.\d]+))";
  "(?i)(?:^|[^A-Z0-9\-_]|[^A-Z0-9\-]_|sprd-|MZ-)(?:Alva/(\d+\.[.\d]+))";
  "(?i)(?:^|[^A-Z0-9\-_]|[^A-Z0-9\-]_|sprd-|MZ-)(?:Norton/(\d+\.[.\d]+))";
  "(?i)(?:^|[^A-Z0-9\-_]|[^A-Z0-9\-]_|sprd-|MZ-)(?:Odd/(\d+\.[.\d]+))";
  "(?i)(?:^|[^A-Z0-9\-_]|[^A-Z0-9\-]_|sprd-|MZ-)(?:Safari/537\.36 (?:Browser|Navegador))";
  "(?i)(?:^|[^A-Z0-9\-_]|[^A-Z0-9\-]_|sprd-|MZ-)(?:YAGI/(\d+\.[.\d]+))";
  "(?i)(?:^|[^A-Z0-9\-_]|[^A-Z0-9\-]_|sprd-|MZ-)(?:Keepsafe Browser(?:/(\d+[.\d]+))?)";
  "(?i)(?:^|[^A-Z0-9\-_]|[^A-Z0-9\-]_|sprd-|MZ-)(?:(.*)Vast Browser/(\d+\.[.\d]+))";
  "(?i)(?:^|[^A-Z0-9\-_]|[^A-Z0-9\-]_|sprd-|MZ-)(?:(.*)U Browser(\d+\.[.\d]+))";
  "(?i)(?:^|[^A-Z0-9\-_]|[^A-Z0-9\-]_|sprd-|MZ-)(?:Chrome/(\d+\.[.\d]+).+TeslaBrowser/)";
  "(?i)(?:^|[^A-Z0-9\-_]|[^A-Z0-9\-]_|sprd-|MZ-)(?:Chrome/(\d+\.[.\d]+).+Sparrow)";
  "(?i)(?:^|[^A-Z0-9\-_]|[^A-Z0-9\-]_|sprd-|MZ-)(?:Sparrow/.+CFNetwork)";
  "(?i)(?:^|[^A-Z0-9\-_]|[^A-Z0-9\-]_|sprd-|MZ-)(?:Lilo/(\d+\.[.\d]+))";
  "(?i)(?:^|[^A-Z0-9\-_]|[^A-Z0-9\-]_|sprd-|MZ-)(?:Lilo/.+CFNetwork)";
  "(?i)(?:^|[^A-Z0-9\-_]|[^A-Z0-9\-]_|sprd-|MZ-)(?:lexi/(\d+[.\d]+))";
  "(?i)(?:^|[^A-Z0-9\-_]|[^A-Z0-9\-]_|sprd-|MZ-)(?:Floorp/(\d+[.\d]+))";
  "(?i)(?:^|[^A-Z0-9\-_]|[^A-Z0-9\-]_|sprd-|MZ-)(?:SurfBrowser/(\d+[.\d]+))";
  "(?i)(?:^|[^A-Z0-9\-_]|[^A-Z0-9\-]_|sprd-|MZ-)(?:ABB/(\d+[.\d]+))";
  "(?i)(?:^|[^A-Z0-9\-_]|[^A-Z0-9\-]_|sprd-|MZ-)(?:\d+/tclwebkit(?:\d+[.\d]*))";
  "(?i)(?:^|[^A-Z0-9\-_]|[^A-Z0-9\-]_|sprd-|MZ-)(?:HiBrowser/v?(\d+[.\d]+))";
  "(?i)(?:^|[^A-Z0-9\-_]|[^A-Z0-9\-]_|sprd-|MZ-)(?:CYBrowser/(\d+[.\d]+))";
  "(?i)(?:^|[^A-Z0-9\-_]|[^A-Z0-9\-]_|sprd-|MZ-)(?:Chrome/.+ SiteKiosk (\d+[.\d]+))";
  "(?i)(?:^|[^A-Z0-9\-_]|[^A-Z0-9\-]_|sprd-|MZ-)(?:SiteKiosk (\d+[.\d]+))";
  "(?i)(?:^|[^A-Z0-9\-_]|[^A-Z0-9\-]_|sprd-|MZ-)(?:ReqwirelessWeb/(\d+[.\d]+))";
  "(?i)(?:^|[^A-Z0-9\-_]|[^A-Z0-9\-]_|sprd-|MZ-)(?:T\+Browser/(\d+[.\d]+))";
  "(?i)(?:^|[^A-Z0-9\-_]|[^A-Z0-9\-]_|sprd-|MZ-)(?:Private Browser/(\d+[.\d]+) Chrome/)";
  "(?i)(?:^|[^A-Z0-9\-_]|[^A-Z0-9\-]_|sprd-|MZ-)(?:ChanjetCloud/(\d+[.\d]+))";
  "(?i)(?:^|[^A-Z0-9\-_]|[^A-Z0-9\-]_|sprd-|MZ-)(?:SushiBrowser/(\d+[.\d]+))";
  "(?i)(?:^|[^A-Z0-9\-_]|[^A-Z0-9\-]_|sprd-|MZ-)(?:dBrowser/(\d+[.\d]+))";
  "(?i)(?:^|[^A-Z0-9\-_]|[^A-Z0-9\-]_|sprd-|MZ-)(?:LTBrowser/(\d+[.\d]+))";
  "(?i)(?:^|[^A-Z0-9\-_]|[^A-Z0-9\-]_|sprd-|MZ-)(?:lagatos-browser/(\d+[.\d]+))";
  "(?i)(?:^|[^A-Z0-9\-_]|[^A-Z0-9\-]_|sprd-|MZ-)(?:psi-secure-browser/(\d+[.\d]+))";
  "(?i)(?:^|[^A-Z0-9\-_]|[^A-Z0-9\-]_|sprd-|MZ-)(?:Harman_Browser/(\d+[.\d]+))";
  "(?i)(?:^|[^A-Z0-9\-_]|[^A-Z0-9\-]_|sprd-|MZ-)(?:bonsai-browser/(\d+[.\d]+))";
  "(?i)(?:^|[^A-Z0-9\-_]|[^A-Z0-9\-]_|sprd-|MZ-)(?:spectre-browser/(\d+[.\d]+))";
  "(?i)(?:^|[^A-Z0-9\-_]|[^A-Z0-9\-]_|sprd-|MZ-)(?:FlashBrowser/(\d+[.\d]+))";
  "(?i)(?:^|[^A-Z0-9\-_]|[^A-Z0-9\-]_|sprd-|MZ-)(?:Secure/(?:(\d+[.\d]+))?)";
  "(?i)(?:^|[^A-Z0-9\-_]|[^A-Z0-9\-]_|sprd-|MZ-)(?:Arvin/(\d+[.\d]+))";
  "(?i)(?:^|[^A-Z0-9\-_]|[^A-Z0-9\-]_|sprd-|MZ-)(?:Version/.+Chrome/.+EdgW/(\d+[.\d]+))";
  "(?i)(?:^|[^A-Z0-9\-_]|[^A-Z0-9\-]_|sprd-|MZ-)(?:Mandarin Browser/(\d+[.\d]+))";
  "(?i)(?:^|[^A-Z0-9\-_]|[^A-Z0-9\-]_|sprd-|MZ-)(?:Torrent/(\d+[.\d]+))";
  "(?i)(?:^|[^A-Z0-9\-_]|[^A-Z0-9\-]_|sprd-|MZ-)(?:Helio/(\d+[.\d]+))";
  "(?i)(?:^|[^A-Z0-9\-_]|[^A-Z0-9\-]_|sprd-|MZ-)(?:7654Browser/(\d+[.\d]+))";
  "(?i)(?:^|[^A-Z0-9\-_]|[^A-Z0-9\-]_|sprd-|MZ-)(?:Qazweb/(\d+[.\d]+))";
  "(?i)(?:^|[^A-Z0-9\-_]|[^A-Z0-9\-]_|sprd-|MZ-)(?:Degdegan/(\d+[.\d]+))";
  "(?i)(?:^|[^A-Z0-9\-_]|[^A-Z0-9\-]_|sprd-|MZ-)(?:JavaFX/(\d+[.\d]+))";
  "(?i)(?:^|[^A-Z0-9\-_]|[^A-Z0-9\-]_|sprd-|MZ-)(?:Chedot/(\d+[.\d]+))";
  "(?i)(?:^|[^A-Z0-9\-_]|[^A-Z0-9\-]_|sprd-|MZ-)(?:Chrome/(\d+\.[.\d]+) .*\(Chromium GOST\))";
  "(?i)(?:^|[^A-Z0-9\-_]|[^A-Z0-9\-]_|sprd-|MZ-)(?:(?:DeledaoPersonal|DeledaoFamily)/(\d+[.\d]+))";
  "(?i)(?:^|[^A-Z0-9\-_]|[^A-Z0-9\-]_|sprd-|MZ-)(?:HasBrowser/(\d+[.\d]+))";
  "(?i)(?:^|[^A-Z0-9\-_]|[^A-Z0-9\-]_|sprd-|MZ-)(?:Byffox/(\d+[.\d]+))";
  "(?i)(?:^|[^A-Z0-9\-_]|[^A-Z0-9\-]_|sprd-|MZ-)(?:Chrome/(\d+\.[.\d]+) .*AgentWeb.+UCBrowser)";
  "(?i)(?:^|[^A-Z0-9\-_]|[^A-Z0-9\-]_|sprd-|MZ-)(?:DotBrowser/(\d+[.\d]+))";
  "(?i)(?:^|[^A-Z0-9\-_]|[^A-Z0-9\-]_|sprd-|MZ-)(?:CravingExplorer/(\d+[.\d]+))";
  "(?i)(?:^|[^A-Z0-9\-_]|[^A-Z0-9\-]_|sprd-|MZ-)(?:DeskBrowse/(\d+[.\d]+))";
  "(?i)(?:^|[^A-Z0-9\-_]|[^A-Z0-9\-]_|sprd-|MZ-)(?:Lolifox/(\d+[.\d]+))";
  "(?i)(?:^|[^A-Z0-9\-_]|[^A-Z0-9\-]_|sprd-|MZ-)(?:PiBrowser/(\d+[.\d]+))";
  "(?i)(?:^|[^A-Z0-9\-_]|[^A-Z0-9\-]_|sprd-|MZ-)(?:qutebrowser/(\d+\.[.\d]+) .*Chrome)";
  "(?i)(?:^|[^A-Z0-9\-_]|[^A-Z0-9\-]_|sprd-|MZ-)(?:qutebrowser(?:/(\d+[.\d]+))?)";
  "(?i)(?:^|[^A-Z0-9\-_]|[^A-Z0-9\-]_|sprd-|MZ-)(?:flast/(\d+[.\d]+))";
  "(?i)(?:^|[^A-Z0-9\-_]|[^A-Z0-9\-]_|sprd-|MZ-)(?:PolyBrowser/(\d+[.\d]+))";
  "(?i)(?:^|[^A-Z0-9\-_]|[^A-Z0-9\-]_|sprd-|MZ-)(?:Chrome.+BriskBard/(\d+[.\d]+))";
  "(?i)(?:^|[^A-Z0-9\-_]|[^A-Z0-9\-]_|sprd-|MZ-)(?:BriskBard(?:/(\d+[.\d]+))?)";
  "(?i)(?:^|[^A-Z0-9\-_]|[^A-Z0-9\-]_|sprd-|MZ-)(?:GinxDroid(?:Browser)?/(\d+[.\d]+))";
  "(?i)(?:^|[^A-Z0-9\-_]|[^A-Z0-9\-]_|sprd-|MZ-)(?:Avira(?:Scout)?/(\d+[.\d]+))";
  "(?i)(?:^|[^A-Z0-9\-_]|[^A-Z0-9\-]_|sprd-|MZ-)(?:VenusBrowser/(\d+[.\d]+))";
  "(?i)(?:^|[^A-Z0-9\-_]|[^A-Z0-9\-]_|sprd-|MZ-)(?:Chrome.+Otter(?:[ /](\d+[.\d]+))?)";
  "(?i)(?:^|[^A-Z0-9\-_]|[^A-Z0-9\-]_|sprd-|MZ-)(?:Otter(?:[ /](\d+[.\d]+))?)";
  "(?i)(?:^|[^A-Z0-9\-_]|[^A-Z0-9\-]_|sprd-|MZ-)(?:Chrome.+Smooz/(\d+[.\d]+))";
  "(?i)(?:^|[^A-Z0-9\-_]|[^A-Z0-9\-]_|sprd-|MZ-)(?:Smooz/(\d+[.\d]+))";
  "(?i)(?:^|[^A-Z0-9\-_]|[^A-Z0-9\-]_|sprd-|MZ-)(?:BanglaBrowser/(\d+\.[.\d]+))";
  "(?i)(?:^|[^A-Z0-9\-_]|[^A-Z0-9\-]_|sprd-|MZ-)(?:Cornowser/(\d+[.\d]+))";
  "(?i)(?:^|[^A-Z0-9\-_]|[^A-Z0-9\-]_|sprd-|MZ-)(?:Orca/(\d+[.\d]+))";
  "(?i)(?:^|[^A-Z0-9\-_]|[^A-Z0-9\-]_|sprd-|MZ-)(?:Android (?:[\d.]+;) ?(?:[^;]+;)? Flow\) AppleWebKit/537.+Chrome/\d{3})";
  "(?i)(?:^|[^A-Z0-9\-_]|[^A-Z0-9\-]_|sprd-|MZ-)(?:Flow/(?:(\d+[.\d]+)))";
  "(?i)(?:^|[^A-Z0-9\-_]|[^A-Z0-9\-]_|sprd-|MZ-)(?:Ekioh/(?:(\d+[.\d]+)))";
  "(?i)(?:^|[^A-Z0-9\-_]|[^A-Z0-9\-]_|sprd-|MZ-)(?:xStand/(\d+[.\d]+))";
  "(?i)(?:^|[^A-Z0-9\-_]|[^A-Z0-9\-]_|sprd-|MZ-)(?:Biyubi/(\d+[.\d]+))";
  "(?i)(?:^|[^A-Z0-9\-_]|[^A-Z0-9\-]_|sprd-|MZ-)(?:(?:Perfect%20Browser(?:-iPad)?|Perfect(?:BrowserPro)?)/(\d+[.\d]+))";
  "(?i)(?:^|[^A-Z0-9\-_]|[^A-Z0-9\-]_|sprd-|MZ-)(?:Browser/Phantom/V(\d+[.\d]+))";
  "(?i)(?:^|[^A-Z0-9\-_]|[^A-Z0-9\-]_|sprd-|MZ-)(?:AwoX(?:/(\d+[.\d]+))? Browser)";
  "(?i)(?:^|[^A-Z0-9\-_]|[^A-Z0-9\-]_|sprd-|MZ-)(?:Zetakey/(\d+[.\d]+))";
  "(?i)(?:^|[^A-Z0-9\-_]|[^A-Z0-9\-]_|sprd-|MZ-)(?:PlayFreeBrowser/(?:(\d+[.\d]+))?)";
  "(?i)(?:^|[^A-Z0-9\-_]|[^A-Z0-9\-]_|sprd-|MZ-)(?:(?:chimlac_browser|chimlac)/(?:(\d+[.\d]+)))";
  "(?i)(?:^|[^A-Z0-9\-_]|[^A-Z0-9\-]_|sprd-|MZ-)(?:Odin/(?:(\d+[.\d]+)))";
  "(?i)(?:^|[^A-Z0-9\-_]|[^A-Z0-9\-]_|sprd-|MZ-)(?:Tbrowser/(\d+[.\d]+))";
  "(?i)(?:^|[^A-Z0-9\-_]|[^A-Z0-9\-]_|sprd-|MZ-)(?:com\.tcl\.browser)";
  "(?i)(?:^|[^A-Z0-9\-_]|[^A-Z0-9\-]_|sprd-|MZ-)(?:WhaleBrowser/(\d+[.\d]+))";
  "(?i)(?:^|[^A-Z0-9\-_]|[^A-Z0-9\-]_|sprd-|MZ-)(?:SFive(?:_Android)?/.+ Chrome/(\d+[.\d]+))";
  "(?i)(?:^|[^A-Z0-9\-_]|[^A-Z0-9\-]_|sprd-|MZ-)(?:SFive_IOS/(\d+[.\d]+))";
  "(?i)(?:^|[^A-Z0-9\-_]|[^A-Z0-9\-]_|sprd-|MZ-)(?:Navigateur web/(?:(\d+[.\d]+))?)";
  "(?i)(?:^|[^A-Z0-9\-_]|[^A-Z0-9\-]_|sprd-|MZ-)(?:Sraf(?:[/ ](\d+[.\d]+))?)";
  "(?i)(?:^|[^A-Z0-9\-_]|[^A-Z0-9\-]_|sprd-|MZ-)(?:SeewoBrowser/(?:(\d+[.\d]+))?)";
  "(?i)(?:^|[^A-Z0-9\-_]|[^A-Z0-9\-]_|sprd-|MZ-)(?:(?:Kode(?:iOS)?/(?:(\d+[.\d]+))?|TansoDL))";
  "(?i)(?:^|[^A-Z0-9\-_]|[^A-Z0-9\-]_|sprd-|MZ-)(?:UR/(?:(\d+[.\d]+)))";
  "(?i)(?:^|[^A-Z0-9\-_]|[^A-Z0-9\-]_|sprd-|MZ-)(?:OceanHero/([.\d]+))";
  "(?i)(?:^|[^A-Z0-9\-_]|[^A-Z0-9\-]_|sprd-|MZ-)(?:Chrome/.+ SLBrowser/(?:(\d+[.\d]+))?)";
  "(?i)(?:^|[^A-Z0-9\-_]|[^A-Z0-9\-]_|sprd-|MZ-)(?:SLBrowser/(?:(\d+[.\d]+))?)";
  "(?i)(?:^|[^A-Z0-9\-_]|[^A-Z0-9\-]_|sprd-|MZ-)(?:Stargon/(?:(\d+[.\d]+))?)";
  "(?i)(?:^|[^A-Z0-9\-_]|[^A-Z0-9\-]_|sprd-|MZ-)(?:NFSBrowser/(?:(\d+[.\d]+))?)";
  "(?i)(?:^|[^A-Z0-9\-_]|[^A-Z0-9\-]_|sprd-|MZ-)(?:Borealis/(\d+[.\d]+))";
  "(?i)(?:^|[^A-Z0-9\-_]|[^A-Z0-9\-]_|sprd-|MZ-)(?:YoloBrowser/(?:(\d+[.\d]+))?)";
  "(?i)(?:^|[^A-Z0-9\-_]|[^A-Z0-9\-]_|sprd-|MZ-)(?:PHX/(?:(\d+[.\d]+))?)";
  "(?i)(?:^|[^A-Z0-9\-_]|[^A-Z0-9\-]_|sprd-|MZ-)(?:PrivacyWall/(?:(\d+[.\d]+))?)";
  "(?i)(?:^|[^A-Z0-9\-_]|[^A-Z0-9\-]_|sprd-|MZ-)(?:Ghostery:?(\d+[.\d]+)?)";
  "(?i)(?:^|[^A-Z0-9\-_]|[^A-Z0-9\-]_|sprd-|MZ-)(?:Firefox/.*(?:Turkcell-)?YaaniBrowser(?:/(\d+[.\d]+))?)"
].
Definition d_cr_re_1 : list blob := [
  "(?i)(?:^|[^A-Z0-9\-_]|[^A-Z0-9\-]_|sprd-|MZ-)(?:(?:Turkcell-)?YaaniBrowser(?:/(\d+[.\d]+))?)";
  "(?i)(?:^|[^A-Z0-9\-_]|[^A-Z0-9\-]_|sprd-|MZ-)(?:SEB/(?:(\d+[.\d]+))?)";
  "(?i)(?:^|[^A-Z0-9\-_]|[^A-Z0-9\-]_|sprd-|MZ-)(?:Colibri/(?:(\d+[.\d]+))?)";
  "(?i)(?:^|[^A-Z0-9\-_]|[^A-Z0-9\-]_|sprd-|MZ-)(?:Xvast/(?:(\d+[.\d]+))?)";
  "(?i)(?:^|[^A-Z0-9\-_]|[^A-Z0-9\-]_|sprd-|MZ-)(?:TungstenBrowser/(?:(\d+[.\d]+))?)";
  "(?i)(?:^|[^A-Z0-9\-_]|[^A-Z0-9\-]_|sprd-|MZ-)(?:Lulumi-browser/(?:(\d+[.\d]+))?)";
  "(?i)(?:^|[^A-Z0-9\-_]|[^A-Z0-9\-]_|sprd-|MZ-)(?:ybrowser/(?:(\d+[.\d]+))?)";
  "(?i)(?:^|[^A-Z0-9\-_]|[^A-Z0-9\-]_|sprd-|MZ-)(?:iLunascapeLite/(?:(\d+\.[.\d]+))?)";
  "(?i)(?:^|[^A-Z0-9\-_]|[^A-Z0-9\-]_|sprd-|MZ-)(?:Chrome/.+ i?Lunascape(?:[/ ](\d+\.[.\d]+))?)";
  "(?i)(?:^|[^A-Z0-9\-_]|[^A-Z0-9\-]_|sprd-|MZ-)(?:i?Lunascape(?:[/ ](\d+\.[.\d]+))?)";
  "(?i)(?:^|[^A-Z0-9\-_]|[^A-Z0-9\-]_|sprd-|MZ-)(?:Polypane/(?:(\d+[.\d]+))?)";
  "(?i)(?:^|[^A-Z0-9\-_]|[^A-Z0-9\-]_|sprd-|MZ-)(?:OhHaiBrowser/(?:(\d+[.\d]+))?)";
  "(?i)(?:^|[^A-Z0-9\-_]|[^A-Z0-9\-]_|sprd-|MZ-)(?:Sizzy/(?:(\d+[.\d]+))?)";
  "(?i)(?:^|[^A-Z0-9\-_]|[^A-Z0-9\-]_|sprd-|MZ-)(?:GlassBrowser/(?:(\d+[.\d]+))?)";
  "(?i)(?:^|[^A-Z0-9\-_]|[^A-Z0-9\-]_|sprd-|MZ-)(?:ToGate/(?:(\d+[.\d]+))?)";
  "(?i)(?:^|[^A-Z0-9\-_]|[^A-Z0-9\-]_|sprd-|MZ-)(?:(?:AirWatch Browser v|AirWatchBrowser/)(?:(\d+[.\d]+))?)";
  "(?i)(?:^|[^A-Z0-9\-_]|[^A-Z0-9\-]_|sprd-|MZ-)(?:AOL (\d+[.\d]+))";
  "(?i)(?:^|[^A-Z0-9\-_]|[^A-Z0-9\-]_|sprd-|MZ-)(?:ADG/(?:(\d+[.\d]+))?)";
  "(?i)(?:^|[^A-Z0-9\-_]|[^A-Z0-9\-]_|sprd-|MZ-)(?:Elements Browser/(?:(\d+[.\d]+))?)";
  "(?i)(?:^|[^A-Z0-9\-_]|[^A-Z0-9\-]_|sprd-|MZ-)(?:Light/(\d+[.\d]+))";
  "(?i)(?:^|[^A-Z0-9\-_]|[^A-Z0-9\-]_|sprd-|MZ-)(?:Valve Steam GameOverlay/(?:(\d+[.\d]+))?)";
  "(?i)(?:^|[^A-Z0-9\-_]|[^A-Z0-9\-]_|sprd-|MZ-)(?:115Browser/(?:(\d+[.\d]+))?)";
  "(?i)(?:^|[^A-Z0-9\-_]|[^A-Z0-9\-]_|sprd-|MZ-)(?:Atom/(?:(\d+[.\d]+))?)";
  "(?i)(?:^|[^A-Z0-9\-_]|[^A-Z0-9\-]_|sprd-|MZ-)(?:Wolvic/(\d+\.[.\d]+))";
  "(?i)(?:^|[^A-Z0-9\-_]|[^A-Z0-9\-]_|sprd-|MZ-)(?:Mobile VR.+Firefox)";
  "(?i)(?:^|[^A-Z0-9\-_]|[^A-Z0-9\-]_|sprd-|MZ-)(?:AVG/(\d+[.\d]+))";
  "(?i)(?:^|[^A-Z0-9\-_]|[^A-Z0-9\-]_|sprd-|MZ-)(?:AT/(\d+[.\d]+))";
  "(?i)(?:^|[^A-Z0-9\-_]|[^A-Z0-9\-]_|sprd-|MZ-)(?:Start/(?:(\d+[.\d]+))?)";
  "(?i)(?:^|[^A-Z0-9\-_]|[^A-Z0-9\-]_|sprd-|MZ-)(?:Lovense(?:/(\d+[.\d]+))?)";
  "(?i)(?:^|[^A-Z0-9\-_]|[^A-Z0-9\-]_|sprd-|MZ-)(?:(?:com\.airfind\.deltabrowser|AirSearch)(?:/(\d+[.\d]+))?)";
  "(?i)(?:^|[^A-Z0-9\-_]|[^A-Z0-9\-]_|sprd-|MZ-)(?:(?:Ordissimo|webissimo3)(?:/(\d+[.\d]+))?)";
  "(?i)(?:^|[^A-Z0-9\-_]|[^A-Z0-9\-]_|sprd-|MZ-)(?:CCleaner(?:/(\d+[.\d]+))?)";
  "(?i)(?:^|[^A-Z0-9\-_]|[^A-Z0-9\-]_|sprd-|MZ-)(?:AlohaLite(?:/(\d+[.\d]+))?)";
  "(?i)(?:^|[^A-Z0-9\-_]|[^A-Z0-9\-]_|sprd-|MZ-)(?:TaoBrowser(?:/(\d+[.\d]+))?)";
  "(?i)(?:^|[^A-Z0-9\-_]|[^A-Z0-9\-]_|sprd-|MZ-)(?:Atlas/(\d+[.\d]+)$)";
  "(?i)(?:^|[^A-Z0-9\-_]|[^A-Z0-9\-]_|sprd-|MZ-)(?:Falkon(?:/(\d+[.\d]+))?)";
  "(?i)(?:^|[^A-Z0-9\-_]|[^A-Z0-9\-]_|sprd-|MZ-)(?:mCent(?:/(\d+[.\d]+))?)";
  "(?i)(?:^|[^A-Z0-9\-_]|[^A-Z0-9\-]_|sprd-|MZ-)(?:SalamWeb(?:/(\d+[.\d]+))?)";
  "(?i)(?:^|[^A-Z0-9\-_]|[^A-Z0-9\-]_|sprd-|MZ-)(?:BlackHawk(?:/(\d+[.\d]+))?)";
  "(?i)(?:^|[^A-Z0-9\-_]|[^A-Z0-9\-]_|sprd-|MZ-)(?:Minimo(?:/(\d+[.\d]+))?)";
  "(?i)(?:^|[^A-Z0-9\-_]|[^A-Z0-9\-]_|sprd-|MZ-)(?:WIB/(\d+[.\d]+))";
  "(?i)(?:^|[^A-Z0-9\-_]|[^A-Z0-9\-]_|sprd-|MZ-)(?:Kinza(?:/(\d+[.\d]+))?)";
  "(?i)(?:^|[^A-Z0-9\-_]|[^A-Z0-9\-]_|sprd-|MZ-)(?:Beamrise(?:/(\d+[.\d]+))?)";
  "(?i)(?:^|[^A-Z0-9\-_]|[^A-Z0-9\-]_|sprd-|MZ-)(?:Faux(?:/(\d+[.\d]+))?)";
  "(?i)(?:^|[^A-Z0-9\-_]|[^A-Z0-9\-]_|sprd-|MZ-)(?:splash Version(?:/(\d+[.\d]+))?)";
  "(?i)(?:^|[^A-Z0-9\-_]|[^A-Z0-9\-]_|sprd-|MZ-)(?:MZBrowser(?:/(\d+[.\d]+))?)";
  "(?i)(?:^|[^A-Z0-9\-_]|[^A-Z0-9\-]_|sprd-|MZ-)(?:COSBrowser(?:/(\d+[.\d]+))?)";
  "(?i)(?:^|[^A-Z0-9\-_]|[^A-Z0-9\-]_|sprd-|MZ-)(?:Crusta(?:/(\d+[.\d]+))?)";
  "(?i)(?:^|[^A-Z0-9\-_]|[^A-Z0-9\-]_|sprd-|MZ-)(?:Hawk/TurboBrowser(?:/v?(\d+[.\d]+))?)";
  "(?i)(?:^|[^A-Z0-9\-_]|[^A-Z0-9\-]_|sprd-|MZ-)(?:Hawk/QuickBrowser(?:/v?(\d+[.\d]+))?)";
  "(?i)(?:^|[^A-Z0-9\-_]|[^A-Z0-9\-]_|sprd-|MZ-)(?:FreeU(?:/(\d+[.\d]+))?)";
  "(?i)(?:^|[^A-Z0-9\-_]|[^A-Z0-9\-]_|sprd-|MZ-)(?:NoxBrowser(?:/(\d+[.\d]+))?)";
  "(?i)(?:^|[^A-Z0-9\-_]|[^A-Z0-9\-]_|sprd-|MZ-)(?:Basilisk(?:/(\d+[.\d]+))?)";
  "(?i)(?:^|[^A-Z0-9\-_]|[^A-Z0-9\-]_|sprd-|MZ-)(?:SputnikBrowser(?:/(\d+[.\d]+))?)";
  "(?i)(?:^|[^A-Z0-9\-_]|[^A-Z0-9\-]_|sprd-|MZ-)(?:TNSBrowser(?:/(\d+[.\d]+))?)";
  "(?i)(?:^|[^A-Z0-9\-_]|[^A-Z0-9\-]_|sprd-|MZ-)(?:OculusBrowser(?:/(\d+[.\d]+))?)";
  "(?i)(?:^|[^A-Z0-9\-_]|[^A-Z0-9\-]_|sprd-|MZ-)(?:Jio(?:Browser|Pages|Sphere)(?:/(\d+[.\d]+))?)";
  "(?i)(?:^|[^A-Z0-9\-_]|[^A-Z0-9\-]_|sprd-|MZ-)(?:SY/(\d+[.\d]+) Chrome/)";
  "(?i)(?:^|[^A-Z0-9\-_]|[^A-Z0-9\-]_|sprd-|MZ-)(?:Chrome/.+ Hola(?:/(\d+[.\d]+))?)";
  "(?i)(?:^|[^A-Z0-9\-_]|[^A-Z0-9\-]_|sprd-|MZ-)(?:SlimBoat/(?:(\d+[.\d]+)))";
  "(?i)(?:^|[^A-Z0-9\-_]|[^A-Z0-9\-]_|sprd-|MZ-)(?:Slimjet/(?:(\d+[.\d]+)))";
  "(?i)(?:^|[^A-Z0-9\-_]|[^A-Z0-9\-]_|sprd-|MZ-)(?:(?:7Star|Kuaiso)/(?:(\d+[.\d]+)))";
  "(?i)(?:^|[^A-Z0-9\-_]|[^A-Z0-9\-]_|sprd-|MZ-)(?:MxNitro/(?:(\d+[.\d]+)))";
  "(?i)(?:^|[^A-Z0-9\-_]|[^A-Z0-9\-]_|sprd-|MZ-)(?:HuaweiBrowser(?:/(\d+[.\d]+))?)";
  "(?i)(?:^|[^A-Z0-9\-_]|[^A-Z0-9\-]_|sprd-|MZ-)(?:HBPC/(\d+[.\d]+))";
  "(?i)(?:^|[^A-Z0-9\-_]|[^A-Z0-9\-]_|sprd-|MZ-)(?:ZTE ?Browser/)";
  "(?i)(?:^|[^A-Z0-9\-_]|[^A-Z0-9\-]_|sprd-|MZ-)(?:VivoBrowser(?:/(\d+[.\d]+))?)";
  "(?i)(?:^|[^A-Z0-9\-_]|[^A-Z0-9\-]_|sprd-|MZ-)(?:RealmeBrowser(?:/(\d+[.\d]+))?)";
  "(?i)(?:^|[^A-Z0-9\-_]|[^A-Z0-9\-]_|sprd-|MZ-)(?:Beaker ?Browser(?:[/ ](\d+[.\d]+))?)";
  "(?i)(?:^|[^A-Z0-9\-_]|[^A-Z0-9\-]_|sprd-|MZ-)(?:QwantiOS/(\d+[.\d]+))";
  "(?i)(?:^|[^A-Z0-9\-_]|[^A-Z0-9\-]_|sprd-|MZ-)(?:Chrome/.*QwantMobile(?:/(\d+[.\d]+))?)";
  "(?i)(?:^|[^A-Z0-9\-_]|[^A-Z0-9\-]_|sprd-|MZ-)(?:QwantMobile(?:/(\d+[.\d]+))?)";
  "(?i)(?:^|[^A-Z0-9\-_]|[^A-Z0-9\-]_|sprd-|MZ-)(?:Qwant/(\d+[.\d]+))";
  "(?i)(?:^|[^A-Z0-9\-_]|[^A-Z0-9\-]_|sprd-|MZ-)(?:TenFourFox(?:/(\d+[.\d]+))?)";
  "(?i)(?:^|[^A-Z0-9\-_]|[^A-Z0-9\-]_|sprd-|MZ-)(?:Chrome/.+ AOLShield(?:/(\d+[.\d]+))?)";
  "(?i)(?:^|[^A-Z0-9\-_]|[^A-Z0-9\-]_|sprd-|MZ-)(?:AOLShield(?:/(\d+[.\d]+))?)";
  "(?i)(?:^|[^A-Z0-9\-_]|[^A-Z0-9\-]_|sprd-|MZ-)(?:Edge/(\d+[.\d]+) CFNetwork)";
  "(?i)(?:^|[^A-Z0-9\-_]|[^A-Z0-9\-]_|sprd-|MZ-)(?:Edge[ /](\d+[.\d]+))";
  "(?i)(?:^|[^A-Z0-9\-_]|[^A-Z0-9\-]_|sprd-|MZ-)(?:EdgiOS[ /](\d+[.\d]+))";
  "(?i)(?:^|[^A-Z0-9\-_]|[^A-Z0-9\-]_|sprd-|MZ-)(?:EdgA[ /](\d+[.\d]+))";
  "(?i)(?:^|[^A-Z0-9\-_]|[^A-Z0-9\-]_|sprd-|MZ-)(?:Edg[ /](\d+[.\d]+))";
  "(?i)(?:^|[^A-Z0-9\-_]|[^A-Z0-9\-]_|sprd-|MZ-)(?:Browser/harmony360Browser/(\d+[.\d]+)$)";
  "(?i)(?:^|[^A-Z0-9\-_]|[^A-Z0-9\-]_|sprd-|MZ-)(?:QIHU 360[ES]E|QihooBrowserHD/(\d+[.\d]+))";
  "(?i)(?:^|[^A-Z0-9\-_]|[^A-Z0-9\-]_|sprd-|MZ-)(?:Chrome.+Safari/537\.36/(\d+[.\d]+)$)";
  "(?i)(?:^|[^A-Z0-9\-_]|[^A-Z0-9\-]_|sprd-|MZ-)(?:360 Aphone Browser(?:[ /]?\(?(\d+[.\d]+)(?:beta)?\)?)?)";
  "(?i)(?:^|[^A-Z0-9\-_]|[^A-Z0-9\-]_|sprd-|MZ-)(?:SailfishBrowser(?:/(\d+[.\d]+))?)";
  "(?i)(?:^|[^A-Z0-9\-_]|[^A-Z0-9\-]_|sprd-|MZ-)(?:IceCat(?:/(\d+[.\d]+))?)";
  "(?i)(?:^|[^A-Z0-9\-_]|[^A-Z0-9\-]_|sprd-|MZ-)(?:Camino(?:/(\d+[.\d]+))?)";
  "(?i)(?:^|[^A-Z0-9\-_]|[^A-Z0-9\-]_|sprd-|MZ-)(?:Waterfox(?:/(\d+[.\d]+))?)";
  "(?i)(?:^|[^A-Z0-9\-_]|[^A-Z0-9\-]_|sprd-|MZ-)(?:VertexSurf/(\d+\.[.\d]+))";
  "(?i)(?:^|[^A-Z0-9\-_]|[^A-Z0-9\-]_|sprd-|MZ-)(?:Chrome/.+ AlohaBrowser(?:/(\d+[.\d]+))?)";
  "(?i)(?:^|[^A-Z0-9\-_]|[^A-Z0-9\-]_|sprd-|MZ-)(?:AlohaBrowser(?:App)?(?:/(\d+[.\d]+))?)";
  "(?i)(?:^|[^A-Z0-9\-_]|[^A-Z0-9\-]_|sprd-|MZ-)(?:Chrome/.+Tenta/(\d+[.\d]+))";
  "(?i)(?:^|[^A-Z0-9\-_]|[^A-Z0-9\-]_|sprd-|MZ-)(?:Tenta/(\d+[.\d]+))";
  "(?i)(?:^|[^A-Z0-9\-_]|[^A-Z0-9\-]_|sprd-|MZ-)(?:Chrome.+(?:Avast(?:SecureBrowser)?|ASW|Safer)(?:/(\d+[.\d]+))?)";
  "(?i)(?:^|[^A-Z0-9\-_]|[^A-Z0-9\-]_|sprd-|MZ-)(?:(?:Avast(?:SecureBrowser)?|ASW|Safer)(?:/(\d+[.\d]+))?)";
  "(?i)(?:^|[^A-Z0-9\-_]|[^A-Z0-9\-]_|sprd-|MZ-)(?:Android \d+; [A-Za-z0-9]{10}; U; [^;]+\) AppleWebKit/.+Chrome/)";
  "(?i)(?:^|[^A-Z0-9\-_]|[^A-Z0-9\-]_|sprd-|MZ-)(?:Epic(?:/(\d+[.\d]+)))";
  "(?i)(?:^|[^A-Z0-9\-_]|[^A-Z0-9\-]_|sprd-|MZ-)(?:Fennec(?:/(\d+[.\d]+))?)";
  "(?i)(?:^|[^A-Z0-9\-_]|[^A-Z0-9\-]_|sprd-|MZ-)(?:Firefox.*Tablet browser (\d+[.\d]+))";
  "(?i)(?:^|[^A-Z0-9\-_]|[^A-Z0-9\-]_|sprd-|MZ-)(?:Maemo Browser(?: (\d+[.\d]+))?)";
  "(?i)(?:^|[^A-Z0-9\-_]|[^A-Z0-9\-]_|sprd-|MZ-)(?:Deepnet Explorer (\d+[.\d]+)?)";
  "(?i)(?:^|[^A-Z0-9\-_]|[^A-Z0-9\-]_|sprd-|MZ-)(?:Avant ?Browser)";
  "(?i)(?:^|[^A-Z0-9\-_]|[^A-Z0-9\-]_|sprd-|MZ-)(?:OppoBrowser(?:/(\d+[.\d]+))?)";
  "(?i)(?:^|[^A-Z0-9\-_]|[^A-Z0-9\-]_|sprd-|MZ-)(?:Chrome/(\d+\.[.\d]+) .*MRCHROME)";
  "(?i)(?:^|[^A-Z0-9\-_]|[^A-Z0-9\-]_|sprd-|MZ-)(?:AtomicBrowser(?:/(\d+[.\d]+))?)";
  "(?i)(?:^|[^A-Z0-9\-_]|[^A-Z0-9\-]_|sprd-|MZ-)(?:Bunjalloo(?:/(\d+[.\d]+))?)";
  "(?i)(?:^|[^A-Z0-9\-_]|[^A-Z0-9\-]_|sprd-|MZ-)(?:Chrome/(\d+\.[.\d]+).*Brave/)";
  "(?i)(?:^|[^A-Z0-9\-_]|[^A-Z0-9\-]_|sprd-|MZ-)(?:Brave(?: Chrome)?(?:/(\d+[.\d]+))?)";
  "(?i)(?:^|[^A-Z0-9\-_]|[^A-Z0-9\-]_|sprd-|MZ-)(?:Iridium(?:/(\d+[.\d]+))?)";
  "(?i)(?:^|[^A-Z0-9\-_]|[^A-Z0-9\-]_|sprd-|MZ-)(?:Iceweasel(?:/(\d+[.\d]+))?)";
  "(?i)(?:^|[^A-Z0-9\-_]|[^A-Z0-9\-]_|sprd-|MZ-)(?:.*Goanna.*PaleMoon(?:/(\d+[.\d]+))?)";
  "(?i)(?:^|[^A-Z0-9\-_]|[^A-Z0-9\-]_|sprd-|MZ-)(?:PaleMoon(?:/(\d+[.\d]+))?)";
  "(?i)(?:^|[^A-Z0-9\-_]|[^A-Z0-9\-]_|sprd-|MZ-)(?:CometBird(?:/(\d+[.\d]+))?)";
  "(?i)(?:^|[^A-Z0-9\-_]|[^A-Z0-9\-]_|sprd-|MZ-)(?:IceDragon(?:/(\d+[.\d]+))?)";
  "(?i)(?:^|[^A-Z0-9\-_]|[^A-Z0-9\-]_|sprd-|MZ-)(?:Flock(?:/(\d+[.\d]+))?)";
  "(?i)(?:^|[^A-Z0-9\-_]|[^A-Z0-9\-]_|sprd-|MZ-)(?:JigBrowserPlus/(?:(\d+[.\d]+))?)";
  "(?i)(?:^|[^A-Z0-9\-_]|[^A-Z0-9\-]_|sprd-|MZ-)(?:jig browser(?: web;|9i?)?(?:[/ ](\d+[.\d]+))?)";
  "(?i)(?:^|[^A-Z0-9\-_]|[^A-Z0-9\-]_|sprd-|MZ-)(?:Kapiko(?:/(\d+[.\d]+))?)";
  "(?i)(?:^|[^A-Z0-9\-_]|[^A-Z0-9\-]_|sprd-|MZ-)(?:Kylo(?:/(\d+[.\d]+))?)";
  "(?i)(?:^|[^A-Z0-9\-_]|[^A-Z0-9\-]_|sprd-|MZ-)(?:Origin/(?:(\d+[.\d]+))?)";
  "(?i)(?:^|[^A-Z0-9\-_]|[^A-Z0-9\-]_|sprd-|MZ-)(?:Cunaguaro(?:/(\d+[.\d]+))?)";
  "(?i)(?:^|[^A-Z0-9\-_]|[^A-Z0-9\-]_|sprd-|MZ-)(?:(?:TO-Browser/TOB|DT-Browser/DTB)(\d+[.\d]+))";
  "(?i)(?:^|[^A-Z0-9\-_]|[^A-Z0-9\-]_|sprd-|MZ-)(?:Kazehakase(?:/(\d+[.\d]+))?)";
  "(?i)(?:^|[^A-Z0-9\-_]|[^A-Z0-9\-]_|sprd-|MZ-)(?:ArcticFox(?:/(\d+[.\d]+))?)";
  "(?i)(?:^|[^A-Z0-9\-_]|[^A-Z0-9\-]_|sprd-|MZ-)(?:Mypal(?:/(\d+[.\d]+))?)";
  "(?i)(?:^|[^A-Z0-9\-_]|[^A-Z0-9\-]_|sprd-|MZ-)(?:Centaury(?:/(\d+[.\d]+))?)";
  "(?i)(?:^|[^A-Z0-9\-_]|[^A-Z0-9\-]_|sprd-|MZ-)(?:(?:Focus|Klar)(?:/(\d+[.\d]+)))";
  "(?i)(?:^|[^A-Z0-9\-_]|[^A-Z0-9\-]_|sprd-|MZ-)(?:Cyberfox(?:/(\d+[.\d]+))?)";
  "(?i)(?:^|[^A-Z0-9\-_]|[^A-Z0-9\-]_|sprd-|MZ-)(?:Firefox/(\d+\.[.\d]+).*\(Swiftfox\))";
  "(?i)(?:^|[^A-Z0-9\-_]|[^A-Z0-9\-]_|sprd-|MZ-)(?:UCBrowserHD/(\d[\d.]+))";
  "(?i)(?:^|[^A-Z0-9\-_]|[^A-Z0-9\-]_|sprd-|MZ-)(?:UCMini(?:[ /]?(\d+[.\d]+))?)";
  "(?i)(?:^|[^A-Z0-9\-_]|[^A-Z0-9\-]_|sprd-|MZ-)(?:UC[ ]?Browser.* \(UCMini\))";
  "(?i)(?:^|[^A-Z0-9\-_]|[^A-Z0-9\-]_|sprd-|MZ-)(?:Chrome.+uc mini browser(\d+[.\d]+)?)";
  "(?i)(?:^|[^A-Z0-9\-_]|[^A-Z0-9\-]_|sprd-|MZ-)(?:UCTurbo(?:[ /]?(\d+[.\d]+))?)";
  "(?i)(?:^|[^A-Z0-9\-_]|[^A-Z0-9\-]_|sprd-|MZ-)(?:UC[ ]?Browser.* \(UCTurbo\))";
  "(?i)(?:^|[^A-Z0-9\-_]|[^A-Z0-9\-]_|sprd-|MZ-)(?:ArkWeb/(?:\d+[.\d]+) (?:Mobile )?UC[ ]?Browser(?:[ /]?(\d+[.\d]+))?$)";
  "(?i)(?:^|[^A-Z0-9\-_]|[^A-Z0-9\-]_|sprd-|MZ-)(?:UC[ ]?Browser(?:[ /]?(\d+[.\d]+))?)";
  "(?i)(?:^|[^A-Z0-9\-_]|[^A-Z0-9\-]_|sprd-|MZ-)(?:UCWEB(?:[ /]?(\d+[.\d]+))?)";
  "(?i)(?:^|[^A-Z0-9\-_]|[^A-Z0-9\-]_|sprd-|MZ-)(?:UC%20Browser/(\d+[.\d]+)? CFNetwork/.+Darwin/.+)";
  "(?i)(?:^|[^A-Z0-9\-_]|[^A-Z0-9\-]_|sprd-|MZ-)(?:Chrome.+UC Browser(\d+[.\d]+))";
  "(?i)(?:^|[^A-Z0-9\-_]|[^A-Z0-9\-]_|sprd-|MZ-)(?:Firefox.+UCKai/(\d+[.\d]+))";
  "(?i)(?:^|[^A-Z0-9\-_]|[^A-Z0-9\-]_|sprd-|MZ-)(?:(?:Mobile|Tablet).*Servo.*Firefox(?:/(\d+[.\d]+))?)";
  "(?i)(?:^|[^A-Z0-9\-_]|[^A-Z0-9\-]_|sprd-|MZ-)(?:(?:Mobile|Tablet).*Firefox(?:/(\d+[.\d]+))?)";
  "(?i)(?:^|[^A-Z0-9\-_]|[^A-Z0-9\-]_|sprd-|MZ-)(?:FxiOS/(\d+[.\d]+))";
  "(?i)(?:^|[^A-Z0-9\-_]|[^A-Z0-9\-]_|sprd-|MZ-)(?:.*Servo.*Firefox(?:/(\d+[.\d]+))?)";
  "(?i)(?:^|[^A-Z0-9\-_]|[^A-Z0-9\-]_|sprd-|MZ-)(?:Firefox(?:[ /](\d+[.\d]+))?)";
  "(?i)(?:^|[^A-Z0-9\-_]|[^A-Z0-9\-]_|sprd-|MZ-)(?:(?:BonEcho|GranParadiso|Lorentz|Minefield|Namoroka|Shiretoko)[ /](\d+[.\d]+))";
  "(?i)(?:^|[^A-Z0-9\-_]|[^A-Z0-9\-]_|sprd-|MZ-)(?:ANTFresco(?:[/ ](\d+[.\d]+))?)";
  "(?i)(?:^|[^A-Z0-9\-_]|[^A-Z0-9\-]_|sprd-|MZ-)(?:ANTGalio(?:/(\d+[.\d]+))?)";
  "(?i)(?:^|[^A-Z0-9\-_]|[^A-Z0-9\-]_|sprd-|MZ-)(?:(?:Espial|Escape)(?:[/ ](\d+[.\d]+))?)";
  "(?i)(?:^|[^A-Z0-9\-_]|[^A-Z0-9\-]_|sprd-|MZ-)(?:RockMelt(?:/(\d+[.\d]+))?)";
  "(?i)(?:^|[^A-Z0-9\-_]|[^A-Z0-9\-]_|sprd-|MZ-)(?:Fireweb Navigator(?:/(\d+[.\d]+))?)";
  "(?i)(?:^|[^A-Z0-9\-_]|[^A-Z0-9\-]_|sprd-|MZ-)(?:Fireweb(?:/(\d+[.\d]+))?)";
  "(?i)(?:^|[^A-Z0-9\-_]|[^A-Z0-9\-]_|sprd-|MZ-)(?:(?:Navigator|Netscape6?)(?:/(\d+[.\d]+))?)";
  "(?i)(?:^|[^A-Z0-9\-_]|[^A-Z0-9\-]_|sprd-|MZ-)(?:(?:Polarity)(?:[/ ](\d+[.\d]+))?)";
  "(?i)(?:^|[^A-Z0-9\-_]|[^A-Z0-9\-]_|sprd-|MZ-)(?:(?:QupZilla)(?:[/ ](\d+[.\d]+))?)";
  "(?i)(?:^|[^A-Z0-9\-_]|[^A-Z0-9\-]_|sprd-|MZ-)(?:(?:Dooble)(?:[/ ](\d+[.\d]+))?)";
  "(?i)(?:^|[^A-Z0-9\-_]|[^A-Z0-9\-]_|sprd-|MZ-)(?:Whale/(\d+[.\d]+))";
  "(?i)(?:^|[^A-Z0-9\-_]|[^A-Z0-9\-]_|sprd-|MZ-)(?:Obigo[ ]?(?:InternetBrowser|Browser)?(?:[ /]([a-z0-9]*))?)";
  "(?i)(?:^|[^A-Z0-9\-_]|[^A-Z0-9\-]_|sprd-|MZ-)(?:Obigo|Teleca)";
  "(?i)(?:^|[^A-Z0-9\-_]|[^A-Z0-9\-]_|sprd-|MZ-)(?:Chrome/.+ OP(?:RG)?X(?:/(\d+[.\d]+))?)";
  "(?i)(?:^|[^A-Z0-9\-_]|[^A-Z0-9\-]_|sprd-|MZ-)(?:OP(?:RG)?X(?:/(\d+[.\d]+))?)";
  "(?i)(?:^|[^A-Z0-9\-_]|[^A-Z0-9\-]_|sprd-|MZ-)(?:Opera(?:%20)?GX/.+CFNetwork/.+Darwin/)";
  "(?i)(?:^|[^A-Z0-9\-_]|[^A-Z0-9\-]_|sprd-|MZ-)(?:(?:Opera Tablet.*Version|Opera/.+Opera Mobi.+Version|Mobile.+OPR)/(\d+[.\d]+))";
  "(?i)(?:^|[^A-Z0-9\-_]|[^A-Z0-9\-]_|sprd-|MZ-)(?:MMS/(\d+[.\d]+))";
  "(?i)(?:^|[^A-Z0-9\-_]|[^A-Z0-9\-]_|sprd-|MZ-)(?:OMI/(\d+[.\d]+))";
  "(?i)(?:^|[^A-Z0-9\-_]|[^A-Z0-9\-]_|sprd-|MZ-)(?:Opera%20Touch/(\d+[.\d]+)?.+CFNetwork)";
  "(?i)(?:^|[^A-Z0-9\-_]|[^A-Z0-9\-]_|sprd-|MZ-)(?:Opera%20Touch/.+CFNetwork)";
  "(?i)(?:^|[^A-Z0-9\-_]|[^A-Z0-9\-]_|sprd-|MZ-)(?:Opera/.+CFNetwork)";
  "(?i)(?:^|[^A-Z0-9\-_]|[^A-Z0-9\-]_|sprd-|MZ-)(?:OPT/(\d+[.\d]+))";
  "(?i)(?:^|[^A-Z0-9\-_]|[^A-Z0-9\-]_|sprd-|MZ-)(?:Opera/(\d+\.[.\d]+) .*Opera Mobi)";
  "(?i)(?:^|[^A-Z0-9\-_]|[^A-Z0-9\-]_|sprd-|MZ-)(?:Opera ?Mini/(?:att/)?(\d+[.\d]+))";
  "(?i)(?:^|[^A-Z0-9\-_]|[^A-Z0-9\-]_|sprd-|MZ-)(?:Opera ?Mini.+Version/(\d+[.\d]+))";
  "(?i)(?:^|[^A-Z0-9\-_]|[^A-Z0-9\-]_|sprd-|MZ-)(?:OPiOS/(\d+[.\d]+))";
  "(?i)(?:^|[^A-Z0-9\-_]|[^A-Z0-9\-]_|sprd-|MZ-)(?:Opera%20Mini/(\d+[.\d]+) CFNetwork)";
  "(?i)(?:^|[^A-Z0-9\-_]|[^A-Z0-9\-]_|sprd-|MZ-)(?:Opera.+Edition Next.+Version/(\d+[.\d]+))";
  "(?i)(?:^|[^A-Z0-9\-_]|[^A-Z0-9\-]_|sprd-|MZ-)(?:(?:Opera|OPR)[/ ](?:9\.80.*Version/)?(\d+\.[.\d]+) .*Edition Next)";
  "(?i)(?:^|[^A-Z0-9\-_]|[^A-Z0-9\-]_|sprd-|MZ-)(?:(?:Opera[/ ]?|OPR[/ ])(?:9\.80.*Version/)?(\d+[.\d]+))";
  "(?i)(?:^|[^A-Z0-9\-_]|[^A-Z0-9\-]_|sprd-|MZ-)(?:Chrome.+Opera/)";
  "(?i)(?:^|[^A-Z0-9\-_]|[^A-Z0-9\-]_|sprd-|MZ-)(?:rekonq(?:/(\d+[.\d]+))?)";
  "(?i)(?:^|[^A-Z0-9\-_]|[^A-Z0-9\-]_|sprd-|MZ-)(?:CoolNovo(?:/(\d+[.\d]+))?)";
  "(?i)(?:^|[^A-Z0-9\-_]|[^A-Z0-9\-]_|sprd-|MZ-)(?:(?:Comodo[ _])?Dragon/(\d+[.\d]+))";
  "(?i)(?:^|[^A-Z0-9\-_]|[^A-Z0-9\-]_|sprd-|MZ-)(?:ChromePlus(?:/(\d+[.\d]+))?)";
  "(?i)(?:^|[^A-Z0-9\-_]|[^A-Z0-9\-]_|sprd-|MZ-)(?:Conkeror(?:/(\d+[.\d]+))?)";
  "(?i)(?:^|[^A-Z0-9\-_]|[^A-Z0-9\-]_|sprd-|MZ-)(?:Konqueror(?:/(\d+[.\d]+))?)";
  "(?i)(?:^|[^A-Z0-9\-_]|[^A-Z0-9\-]_|sprd-|MZ-)(?:bdhonorbrowser/(\d+[.\d]+))";
  "(?i)(?:^|[^A-Z0-9\-_]|[^A-Z0-9\-]_|sprd-|MZ-)(?:(?:baidubrowser|bdbrowser(?:(?:hd)?_i18n)?|FlyFlow|BaiduHD)(?:[/ ](\d+[.\d]*))?)";
  "(?i)(?:^|[^A-Z0-9\-_]|[^A-Z0-9\-]_|sprd-|MZ-)(?:(?:(?:BD)?Spark(?:Safe)?|BIDUBrowser)[/ ](\d+[.\d]*))";
  "(?i)(?:^|[^A-Z0-9\-_]|[^A-Z0-9\-]_|sprd-|MZ-)(?:YaBrowser(?:/(\d+[.\d]*)) YaApp_iOS)";
  "(?i)(?:^|[^A-Z0-9\-_]|[^A-Z0-9\-]_|sprd-|MZ-)(?:iP(?:hone|ad).*YaBrowser(?:/(\d+[.\d]*)))";
  "(?i)(?:^|[^A-Z0-9\-_]|[^A-Z0-9\-]_|sprd-|MZ-)(?:YaBrowser(?:/(\d+[.\d]*)) \(lite\)?)";
  "(?i)(?:^|[^A-Z0-9\-_]|[^A-Z0-9\-]_|sprd-|MZ-)(?:YaBrowser/(\d+[.\d]*).*corp)";
  "(?i)(?:^|[^A-Z0-9\-_]|[^A-Z0-9\-]_|sprd-|MZ-)(?:YaBrowser(?:/(\d+[.\d]*))(?: \((alpha|beta)\))?)";
  "(?i)(?:^|[^A-Z0-9\-_]|[^A-Z0-9\-]_|sprd-|MZ-)(?:Ya(?:ndex)?SearchBrowser(?:/(\d+[.\d]*)))";
  "(?i)(?:^|[^A-Z0-9\-_]|[^A-Z0-9\-]_|sprd-|MZ-)(?:Viv(?:aldi)?/(\d+[.\d]+))";
  "(?i)(?:^|[^A-Z0-9\-_]|[^A-Z0-9\-]_|sprd-|MZ-)(?:TweakStyle(?:/(\d+[.\d]+))?)";
  "(?i)(?:^|[^A-Z0-9\-_]|[^A-Z0-9\-]_|sprd-|MZ-)(?:Chrome.+Midori Browser/(\d+[.\d]+))";
  "(?i)(?:^|[^A-Z0-9\-_]|[^A-Z0-9\-]_|sprd-|MZ-)(?:Midori(?:[ /](\d+[.\d]+))?)";
  "(?i)(?:^|[^A-Z0-9\-_]|[^A-Z0-9\-]_|sprd-|MZ-)(?:Mercury/(?:(\d+[.\d]+))?)"
].
Definition d_cr_re_2 : list blob := [
  "(?i)(?:^|[^A-Z0-9\-_]|[^A-Z0-9\-]_|sprd-|MZ-)(?:Chrome.+Maxthon/\d{4})";
  "(?i)(?:^|[^A-Z0-9\-_]|[^A-Z0-9\-]_|sprd-|MZ-)(?:Chrome.+(?:MxBrowser|Maxthon)(?:.+\(portable\))?/(\d+\.[.\d]+))";
  "(?i)(?:^|[^A-Z0-9\-_]|[^A-Z0-9\-]_|sprd-|MZ-)(?:(?:Maxthon(?:%20Browser)?|MxBrowser(?:-inhouse|-iPhone)?|MXiOS)[ /](\d+[.\d]+)?)";
  "(?i)(?:^|[^A-Z0-9\-_]|[^A-Z0-9\-]_|sprd-|MZ-)(?:(?:Maxthon|MyIE2))";
  "(?i)(?:^|[^A-Z0-9\-_]|[^A-Z0-9\-]_|sprd-|MZ-)(?:Puffin/(\d+[.\d]+)FP)";
  "(?i)(?:^|[^A-Z0-9\-_]|[^A-Z0-9\-]_|sprd-|MZ-)(?:Puffin/(\d+[.\d]+)(?:[LMW]D))";
  "(?i)(?:^|[^A-Z0-9\-_]|[^A-Z0-9\-]_|sprd-|MZ-)(?:Puffin/(\d+[.\d]+)(?:[AILW][PT]|M)?)";
  "(?i)(?:^|[^A-Z0-9\-_]|[^A-Z0-9\-]_|sprd-|MZ-)(?:MobileIron(?:/(\d+[.\d]+))?)";
  "(?i)(?:^|[^A-Z0-9\-_]|[^A-Z0-9\-]_|sprd-|MZ-)(?:Chrome(?:/(\d+\.[.\d]+) )?.*Iron)";
  "(?i)(?:^|[^A-Z0-9\-_]|[^A-Z0-9\-]_|sprd-|MZ-)(?:Iron/(\d+[.\d]+))";
  "(?i)(?:^|[^A-Z0-9\-_]|[^A-Z0-9\-]_|sprd-|MZ-)(?:Epiphany(?:/(\d+[.\d]+))?)";
  "(?i)(?:^|[^A-Z0-9\-_]|[^A-Z0-9\-]_|sprd-|MZ-)(?:LieBaoFast(?:[ /](\d+[.\d]+))?)";
  "(?i)(?:^|[^A-Z0-9\-_]|[^A-Z0-9\-]_|sprd-|MZ-)(?:LBBrowser(?:[ /](\d+[.\d]+))?)";
  "(?i)(?:^|[^A-Z0-9\-_]|[^A-Z0-9\-]_|sprd-|MZ-)(?:SE (\d+[.\d]+))";
  "(?i)(?:^|[^A-Z0-9\-_]|[^A-Z0-9\-]_|sprd-|MZ-)(?:QQBrowserLite/([\d.]+))";
  "(?i)(?:^|[^A-Z0-9\-_]|[^A-Z0-9\-]_|sprd-|MZ-)(?:M?QQBrowser/Mini([.\d]+)?)";
  "(?i)(?:^|[^A-Z0-9\-_]|[^A-Z0-9\-]_|sprd-|MZ-)(?:M?QQ(?:Browser|浏览器)(?:/([.\d]+))?)";
  "(?i)(?:^|[^A-Z0-9\-_]|[^A-Z0-9\-]_|sprd-|MZ-)(?:(?:MIUIBrowser|MiuiBrowser)(?:/(\d+[.\d]+))?)";
  "(?i)(?:^|[^A-Z0-9\-_]|[^A-Z0-9\-]_|sprd-|MZ-)(?:(?:coc_coc_browser|coccocbrowser|CocCoc)(?:/(\d+[.\d]+))?)";
  "(?i)(?:^|[^A-Z0-9\-_]|[^A-Z0-9\-]_|sprd-|MZ-)(?:(?:DuckDuckGo|Ddg)/(\d+[.\d]*))";
  "(?i)(?:^|[^A-Z0-9\-_]|[^A-Z0-9\-]_|sprd-|MZ-)(?:(?:DDG-Android-|ddg_android/)(\d+[.\d]*))";
  "(?i)(?:^|[^A-Z0-9\-_]|[^A-Z0-9\-]_|sprd-|MZ-)(?:Samsung ?Browser(?:[/ ](\d+[.\d]+))?)";
  "(?i)(?:^|[^A-Z0-9\-_]|[^A-Z0-9\-]_|sprd-|MZ-)(?:(?:SFB(?:rowser)?)/(\d+[.\d]+))";
  "(?i)(?:^|[^A-Z0-9\-_]|[^A-Z0-9\-]_|sprd-|MZ-)(?:com\.browser\.tssomas(?:/(\d+[.\d]+))?)";
  "(?i)(?:^|[^A-Z0-9\-_]|[^A-Z0-9\-]_|sprd-|MZ-)(?:EUI Browser(?:/(\d+[.\d]+))?)";
  "(?i)(?:^|[^A-Z0-9\-_]|[^A-Z0-9\-]_|sprd-|MZ-)(?:UBrowser(?:/(\d+[.\d]+))?)";
  "(?i)(?:^|[^A-Z0-9\-_]|[^A-Z0-9\-]_|sprd-|MZ-)(?:Streamy(?:/(\d+[.\d]+))?)";
  "(?i)(?:^|[^A-Z0-9\-_]|[^A-Z0-9\-]_|sprd-|MZ-)(?:Rocket/(\d+[.\d]+))";
  "(?i)(?:^|[^A-Z0-9\-_]|[^A-Z0-9\-]_|sprd-|MZ-)(?:Web Explorer/(\d+\.[.\d]+) .*Chrome)";
  "(?i)(?:^|[^A-Z0-9\-_]|[^A-Z0-9\-]_|sprd-|MZ-)(?:webexplorer/(\d+))";
  "(?i)(?:^|[^A-Z0-9\-_]|[^A-Z0-9\-]_|sprd-|MZ-)(?:Chrome.+SznProhlizec/(\d+[.\d]+))";
  "(?i)(?:^|[^A-Z0-9\-_]|[^A-Z0-9\-]_|sprd-|MZ-)(?:SznProhlizec/(\d+[.\d]+))";
  "(?i)(?:^|[^A-Z0-9\-_]|[^A-Z0-9\-]_|sprd-|MZ-)(?:SogouMobileBrowser/(\d+[.\d]+))";
  "(?i)(?:^|[^A-Z0-9\-_]|[^A-Z0-9\-]_|sprd-|MZ-)(?:Mint Browser/(\d+[.\d]+))";
  "(?i)(?:^|[^A-Z0-9\-_]|[^A-Z0-9\-]_|sprd-|MZ-)(?:Ecosia (?:android|ios)@(\d+[.\d]+))";
  "(?i)(?:^|[^A-Z0-9\-_]|[^A-Z0-9\-]_|sprd-|MZ-)(?:Chrome/.+ (?:LeBrowser|MobileLenovoBrowser)(?:/(\d+[.\d]+))?)";
  "(?i)(?:^|[^A-Z0-9\-_]|[^A-Z0-9\-]_|sprd-|MZ-)(?:LeBrowser(?:/(\d+[.\d]+))?)";
  "(?i)(?:^|[^A-Z0-9\-_]|[^A-Z0-9\-]_|sprd-|MZ-)(?:Mb2345Browser/(\d+[.\d]+))";
  "(?i)(?:^|[^A-Z0-9\-_]|[^A-Z0-9\-]_|sprd-|MZ-)(?:Silk/(\d+[.\d]+) like Chrome)";
  "(?i)(?:^|[^A-Z0-9\-_]|[^A-Z0-9\-]_|sprd-|MZ-)(?:Silk(?:/(\d+[.\d]+))?)";
  "(?i)(?:^|[^A-Z0-9\-_]|[^A-Z0-9\-]_|sprd-|MZ-)(?:iBrowser/Mini(\d+\.\d+))";
  "(?i)(?:^|[^A-Z0-9\-_]|[^A-Z0-9\-]_|sprd-|MZ-)(?:iBrowser/(\d+\.[.\d]+)?)";
  "(?i)(?:^|[^A-Z0-9\-_]|[^A-Z0-9\-]_|sprd-|MZ-)(?:IBrowse(?:[ /](\d+[.\d]+))?)";
  "(?i)(?:^|[^A-Z0-9\-_]|[^A-Z0-9\-]_|sprd-|MZ-)(?:UP\.Browser(?:/(\d+[.\d]+))?)";
  "(?i)(?:^|[^A-Z0-9\-_]|[^A-Z0-9\-]_|sprd-|MZ-)(?:Openwave(?:/(\d+[.\d]+))?)";
  "(?i)(?:^|[^A-Z0-9\-_]|[^A-Z0-9\-]_|sprd-|MZ-)(?:OneBrowser(?:[ /](\d+[.\d]+))?)";
  "(?i)(?:^|[^A-Z0-9\-_]|[^A-Z0-9\-]_|sprd-|MZ-)(?:GoBrowser(?:/(\d+[.\d]+))?)";
  "(?i)(?:^|[^A-Z0-9\-_]|[^A-Z0-9\-]_|sprd-|MZ-)(?:(?:NokiaBrowser|BrowserNG|WicKed|Nokia-Communicator-WWW-Browser)(?:/(\d+[.\d]+))?)";
  "(?i)(?:^|[^A-Z0-9\-_]|[^A-Z0-9\-]_|sprd-|MZ-)(?:Series60/5\.0)";
  "(?i)(?:^|[^A-Z0-9\-_]|[^A-Z0-9\-]_|sprd-|MZ-)(?:Series60/(\d+[.\d]+))";
  "(?i)(?:^|[^A-Z0-9\-_]|[^A-Z0-9\-]_|sprd-|MZ-)(?:S40OviBrowser/(\d+[.\d]+))";
  "(?i)(?:^|[^A-Z0-9\-_]|[^A-Z0-9\-]_|sprd-|MZ-)(?:^Nokia|Nokia[EN]?\d+)";
  "(?i)(?:^|[^A-Z0-9\-_]|[^A-Z0-9\-]_|sprd-|MZ-)(?:Sleipnir(?:(?:%20Browser)?[ /](\d+[.\d]+))?)";
  "(?i)(?:^|[^A-Z0-9\-_]|[^A-Z0-9\-]_|sprd-|MZ-)(?:NTENTBrowser(?:/(\d+[.\d]+))?)";
  "(?i)(?:^|[^A-Z0-9\-_]|[^A-Z0-9\-]_|sprd-|MZ-)(?:TV Bro/(\d+[.\d]+))";
  "(?i)(?:^|[^A-Z0-9\-_]|[^A-Z0-9\-]_|sprd-|MZ-)(?:Quark(?:/(\d+[.\d]+))?)";
  "(?i)(?:^|[^A-Z0-9\-_]|[^A-Z0-9\-]_|sprd-|MZ-)(?:MonumentBrowser(?:/(\d+[.\d]+))?)";
  "(?i)(?:^|[^A-Z0-9\-_]|[^A-Z0-9\-]_|sprd-|MZ-)(?:BlueBrowser(?:/(\d+[.\d]+))?)";
  "(?i)(?:^|[^A-Z0-9\-_]|[^A-Z0-9\-]_|sprd-|MZ-)(?:JAPAN Browser(?:/(\d+[.\d]+))?)";
  "(?i)(?:^|[^A-Z0-9\-_]|[^A-Z0-9\-]_|sprd-|MZ-)(?:OpenFin/(?:(\d+[.\d]+)))";
  "(?i)(?:^|[^A-Z0-9\-_]|[^A-Z0-9\-]_|sprd-|MZ-)(?:SuperBird(?:/(\d+[.\d]+))?)";
  "(?i)(?:^|[^A-Z0-9\-_]|[^A-Z0-9\-]_|sprd-|MZ-)(?:Soul(?:Browser)?$|Soul/)";
  "(?i)(?:^|[^A-Z0-9\-_]|[^A-Z0-9\-]_|sprd-|MZ-)(?:LG Browser(?:/(\d+[.\d]+)))";
  "(?i)(?:^|[^A-Z0-9\-_]|[^A-Z0-9\-]_|sprd-|MZ-)(?:QtWebEngine/(\d+[.\d]+))";
  "(?i)(?:^|[^A-Z0-9\-_]|[^A-Z0-9\-]_|sprd-|MZ-)(?:(?:iPad|iPhone);.* like Mac OS X.* Chrome(?:/(\d+[.\d]+))? Mobile/\w{5,7} Safari/)";
  "(?i)(?:^|[^A-Z0-9\-_]|[^A-Z0-9\-]_|sprd-|MZ-)(?:(?: wv\)|Version/).* Chrome(?:/(\d+[.\d]+))?)";
  "(?i)(?:^|[^A-Z0-9\-_]|[^A-Z0-9\-]_|sprd-|MZ-)(?:CrMo(?:/(\d+[.\d]+))?)";
  "(?i)(?:^|[^A-Z0-9\-_]|[^A-Z0-9\-]_|sprd-|MZ-)(?:CriOS(?:/(\d+[.\d]+))?)";
  "(?i)(?:^|[^A-Z0-9\-_]|[^A-Z0-9\-]_|sprd-|MZ-)(?:Chrome(?:/(\d+[.\d]+))? Mobile)";
  "(?i)(?:^|[^A-Z0-9\-_]|[^A-Z0-9\-]_|sprd-|MZ-)(?:chromeframe(?:/(\d+[.\d]+))?)";
  "(?i)(?:^|[^A-Z0-9\-_]|[^A-Z0-9\-]_|sprd-|MZ-)(?:Chromium(?:/(\d+[.\d]+))?)";
  "(?i)(?:^|[^A-Z0-9\-_]|[^A-Z0-9\-]_|sprd-|MZ-)(?:.*Chromium(?:_(\d+[.\d]+))?)";
  "(?i)(?:^|[^A-Z0-9\-_]|[^A-Z0-9\-]_|sprd-|MZ-)(?:HeadlessChrome(?:/(\d+[.\d]+))?)";
  "(?i)(?:^|[^A-Z0-9\-_]|[^A-Z0-9\-]_|sprd-|MZ-)(?:Chrome(?:/(\d+[.\d]+))?)";
  "(?i)(?:^|[^A-Z0-9\-_]|[^A-Z0-9\-]_|sprd-|MZ-)(?:(?:Tizen|SLP) ?Browser(?:/(\d+[.\d]+))?)";
  "(?i)(?:^|[^A-Z0-9\-_]|[^A-Z0-9\-]_|sprd-|MZ-)(?:Tizen (?:\d+\.[.\d]+)[^\.\d].* Version/(\d+[.\d]+) (?:TV|Mobile|like))";
  "(?i)(?:^|[^A-Z0-9\-_]|[^A-Z0-9\-]_|sprd-|MZ-)(?:Blazer(?:/(\d+[.\d]+))?)";
  "(?i)(?:^|[^A-Z0-9\-_]|[^A-Z0-9\-]_|sprd-|MZ-)(?:Pre/(\d+[.\d]+))";
  "(?i)(?:^|[^A-Z0-9\-_]|[^A-Z0-9\-]_|sprd-|MZ-)(?:(?:hpw|web)OS/(\d+[.\d]+))";
  "(?i)(?:^|[^A-Z0-9\-_]|[^A-Z0-9\-]_|sprd-|MZ-)(?:WebPro(?:[ /](\d+[.\d]+))?)";
  "(?i)(?:^|[^A-Z0-9\-_]|[^A-Z0-9\-]_|sprd-|MZ-)(?:Palmscape(?:[ /](\d+[.\d]+))?)";
  "(?i)(?:^|[^A-Z0-9\-_]|[^A-Z0-9\-]_|sprd-|MZ-)(?:Jasmine(?:[ /](\d+[.\d]+))?)";
  "(?i)(?:^|[^A-Z0-9\-_]|[^A-Z0-9\-]_|sprd-|MZ-)(?:Lynx(?:/(\d+[.\d]+))?)";
  "(?i)(?:^|[^A-Z0-9\-_]|[^A-Z0-9\-]_|sprd-|MZ-)(?:NCSA_Mosaic(?:/(\d+[.\d]+))?)";
  "(?i)(?:^|[^A-Z0-9\-_]|[^A-Z0-9\-]_|sprd-|MZ-)(?:VMS_Mosaic(?:/(\d+[.\d]+))?)";
  "(?i)(?:^|[^A-Z0-9\-_]|[^A-Z0-9\-]_|sprd-|MZ-)(?:ABrowse(?: (\d+[.\d]+))?)";
  "(?i)(?:^|[^A-Z0-9\-_]|[^A-Z0-9\-]_|sprd-|MZ-)(?:amaya(?:/(\d+[.\d]+))?)";
  "(?i)(?:^|[^A-Z0-9\-_]|[^A-Z0-9\-]_|sprd-|MZ-)(?:AmigaVoyager(?:/(\d+[.\d]+))?)";
  "(?i)(?:^|[^A-Z0-9\-_]|[^A-Z0-9\-]_|sprd-|MZ-)(?:Amiga-Aweb(?:/(\d+[.\d]+))?)";
  "(?i)(?:^|[^A-Z0-9\-_]|[^A-Z0-9\-]_|sprd-|MZ-)(?:Arora(?:/(\d+[.\d]+))?)";
  "(?i)(?:^|[^A-Z0-9\-_]|[^A-Z0-9\-]_|sprd-|MZ-)(?:Beonex(?:/(\d+[.\d]+))?)";
  "(?i)(?:^|[^A-Z0-9\-_]|[^A-Z0-9\-]_|sprd-|MZ-)(?:bline(?:/(\d+[.\d]+))?)";
  "(?i)(?:^|[^A-Z0-9\-_]|[^A-Z0-9\-]_|sprd-|MZ-)(?:BrowseX \((\d+[.\d]+))";
  "(?i)(?:^|[^A-Z0-9\-_]|[^A-Z0-9\-]_|sprd-|MZ-)(?:Charon(?:[/ ](\d+[.\d]+))?)";
  "(?i)(?:^|[^A-Z0-9\-_]|[^A-Z0-9\-]_|sprd-|MZ-)(?:Cheshire(?:/(\d+[.\d]+))?)";
  "(?i)(?:^|[^A-Z0-9\-_]|[^A-Z0-9\-]_|sprd-|MZ-)(?:Dillo(?:/(\d+[.\d]+))?)";
  "(?i)(?:^|[^A-Z0-9\-_]|[^A-Z0-9\-]_|sprd-|MZ-)(?:Dolfin(?:/(\d+[.\d]+))?|dolphin)";
  "(?i)(?:^|[^A-Z0-9\-_]|[^A-Z0-9\-]_|sprd-|MZ-)(?:Elinks(?:[ /](\d+[.\d]+))?)";
  "(?i)(?:^|[^A-Z0-9\-_]|[^A-Z0-9\-]_|sprd-|MZ-)(?:Element Browser(?:[ /](\d+[.\d]+))?)";
  "(?i)(?:^|[^A-Z0-9\-_]|[^A-Z0-9\-]_|sprd-|MZ-)(?:eZBrowser(?:/(\d+[.\d]+))?)";
  "(?i)(?:^|[^A-Z0-9\-_]|[^A-Z0-9\-]_|sprd-|MZ-)(?:Firebird(?:/(\d+[.\d]+))?)";
  "(?i)(?:^|[^A-Z0-9\-_]|[^A-Z0-9\-]_|sprd-|MZ-)(?:Fluid(?:/(\d+[.\d]+))?)";
  "(?i)(?:^|[^A-Z0-9\-_]|[^A-Z0-9\-]_|sprd-|MZ-)(?:Galeon(?:/(\d+[.\d]+))?)";
  "(?i)(?:^|[^A-Z0-9\-_]|[^A-Z0-9\-]_|sprd-|MZ-)(?:(?:Google Earth Pro|Google%20Earth%20Pro)(?:/(\d+[.\d]+))?)";
  "(?i)(?:^|[^A-Z0-9\-_]|[^A-Z0-9\-]_|sprd-|MZ-)(?:GoogleEarth/(\d+\.[.\d]+)[^\.\d].*client:(?:Plus|Pro))";
  "(?i)(?:^|[^A-Z0-9\-_]|[^A-Z0-9\-]_|sprd-|MZ-)(?:Google ?Earth(?:/v?(\d+[.\d]+))?)";
  "(?i)(?:^|[^A-Z0-9\-_]|[^A-Z0-9\-]_|sprd-|MZ-)(?:HotJava(?:/(\d+[.\d]+))?)";
  "(?i)(?:^|[^A-Z0-9\-_]|[^A-Z0-9\-]_|sprd-|MZ-)(?:iCabMobile(?:[ /](\d+[.\d]+))?)";
  "(?i)(?:^|[^A-Z0-9\-_]|[^A-Z0-9\-]_|sprd-|MZ-)(?:iCab(?:[ /](\d+[.\d]+))?)";
  "(?i)(?:^|[^A-Z0-9\-_]|[^A-Z0-9\-]_|sprd-|MZ-)(?:Crazy Browser (\d+[.\d]+))";
  "(?i)(?:^|[^A-Z0-9\-_]|[^A-Z0-9\-]_|sprd-|MZ-)(?:IEMobile[ /](\d+[.\d]+))";
  "(?i)(?:^|[^A-Z0-9\-_]|[^A-Z0-9\-]_|sprd-|MZ-)(?:MSIE (\d+\.[.\d]+)[^\.\d].*XBLWP7)";
  "(?i)(?:^|[^A-Z0-9\-_]|[^A-Z0-9\-]_|sprd-|MZ-)(?:MSIE.*Trident/4\.0)";
  "(?i)(?:^|[^A-Z0-9\-_]|[^A-Z0-9\-]_|sprd-|MZ-)(?:MSIE.*Trident/5\.0)";
  "(?i)(?:^|[^A-Z0-9\-_]|[^A-Z0-9\-]_|sprd-|MZ-)(?:MSIE.*Trident/6\.0)";
  "(?i)(?:^|[^A-Z0-9\-_]|[^A-Z0-9\-]_|sprd-|MZ-)(?:Trident/[78]\.0)";
  "(?i)(?:^|[^A-Z0-9\-_]|[^A-Z0-9\-]_|sprd-|MZ-)(?:MSIE (\d+[.\d]+))";
  "(?i)(?:^|[^A-Z0-9\-_]|[^A-Z0-9\-]_|sprd-|MZ-)(?:IE[ /](\d+[.\d]+))";
  "(?i)(?:^|[^A-Z0-9\-_]|[^A-Z0-9\-]_|sprd-|MZ-)(?:(?:MSPIE|Pocket Internet Explorer)[ /](\d+[.\d]+))";
  "(?i)(?:^|[^A-Z0-9\-_]|[^A-Z0-9\-]_|sprd-|MZ-)(?:Kindle/(\d+[.\d]+))";
  "(?i)(?:^|[^A-Z0-9\-_]|[^A-Z0-9\-]_|sprd-|MZ-)(?:K-meleon(?:/(\d+[.\d]+))?)";
  "(?i)(?:^|[^A-Z0-9\-_]|[^A-Z0-9\-]_|sprd-|MZ-)(?:Links(?: \((\d+[.\d]+))?)";
  "(?i)(?:^|[^A-Z0-9\-_]|[^A-Z0-9\-]_|sprd-|MZ-)(?:LuaKit(?:/(\d+[.\d]+))?)";
  "(?i)(?:^|[^A-Z0-9\-_]|[^A-Z0-9\-]_|sprd-|MZ-)(?:OmniWeb(?:/[v]?(\d+[.\d]+))?)";
  "(?i)(?:^|[^A-Z0-9\-_]|[^A-Z0-9\-]_|sprd-|MZ-)(?:Phoenix(?:/(\d+[.\d]+))?)";
  "(?i)(?:^|[^A-Z0-9\-_]|[^A-Z0-9\-]_|sprd-|MZ-)(?:NintendoBrowser(?:/(\d+[.\d]+))?)";
  "(?i)(?:^|[^A-Z0-9\-_]|[^A-Z0-9\-]_|sprd-|MZ-)(?:NetFrontLifeBrowser(?:/(\d+[.\d]+))?)";
  "(?i)(?:^|[^A-Z0-9\-_]|[^A-Z0-9\-]_|sprd-|MZ-)(?:Browser/(?:NetFont-|NF|NetFront)(\d+[.\d]+))";
  "(?i)(?:^|[^A-Z0-9\-_]|[^A-Z0-9\-]_|sprd-|MZ-)(?:NetFront(?:/(\d+[.\d]+))?)";
  "(?i)(?:^|[^A-Z0-9\-_]|[^A-Z0-9\-]_|sprd-|MZ-)(?:PLAYSTATION|NINTENDO 3|AppleWebKit.+ N[XF]/\d+\.\d+\.\d+)";
  "(?i)(?:^|[^A-Z0-9\-_]|[^A-Z0-9\-]_|sprd-|MZ-)(?:NetPositive(?:/(\d+[.\d]+))?)";
  "(?i)(?:^|[^A-Z0-9\-_]|[^A-Z0-9\-]_|sprd-|MZ-)(?:Odyssey Web Browser(?:.*OWB/(\d+[.\d]+))?)";
  "(?i)(?:^|[^A-Z0-9\-_]|[^A-Z0-9\-]_|sprd-|MZ-)(?:(?:Oregano|OreganMediaBrowser)(?:[ /](\d+[.\d]+))?)";
  "(?i)(?:^|[^A-Z0-9\-_]|[^A-Z0-9\-]_|sprd-|MZ-)(?:(?:Polaris|Embider)(?:[/ ](\d+[.\d]+))?)";
  "(?i)(?:^|[^A-Z0-9\-_]|[^A-Z0-9\-]_|sprd-|MZ-)(?:SEMC-Browser(?:[/ ](\d+[.\d]+))?)";
  "(?i)(?:^|[^A-Z0-9\-_]|[^A-Z0-9\-]_|sprd-|MZ-)(?:Shiira(?:[/ ](\d+[.\d]+))?)";
  "(?i)(?:^|[^A-Z0-9\-_]|[^A-Z0-9\-]_|sprd-|MZ-)(?:Skyfire(?:[/ ](\d+[.\d]+))?)";
  "(?i)(?:^|[^A-Z0-9\-_]|[^A-Z0-9\-]_|sprd-|MZ-)(?:Snowshoe(?:/(\d+[.\d]+))?)";
  "(?i)(?:^|[^A-Z0-9\-_]|[^A-Z0-9\-]_|sprd-|MZ-)(?:Sunrise(?:Browser)?(?:/(\d+[.\d]+))?)";
  "(?i)(?:^|[^A-Z0-9\-_]|[^A-Z0-9\-]_|sprd-|MZ-)(?:Xiino(?:/(\d+[.\d]+))?)";
  "(?i)(?:^|[^A-Z0-9\-_]|[^A-Z0-9\-]_|sprd-|MZ-)(?:BlackBerry|PlayBook|BB10)";
  "(?i)(?:^|[^A-Z0-9\-_]|[^A-Z0-9\-]_|sprd-|MZ-)(?:Browlser/(\d+[.\d]+))";
  "(?i)(?:^|[^A-Z0-9\-_]|[^A-Z0-9\-]_|sprd-|MZ-)(?:Android)";
  "(?i)(?:^|[^A-Z0-9\-_]|[^A-Z0-9\-]_|sprd-|MZ-)(?:Coast(?:/(\d+[.\d]+))?)";
  "(?i)(?:^|[^A-Z0-9\-_]|[^A-Z0-9\-]_|sprd-|MZ-)(?:Opera%20Coast/(\d+[.\d]+)? CFNetwork/.+Darwin/.+)";
  "(?i)(?:^|[^A-Z0-9\-_]|[^A-Z0-9\-]_|sprd-|MZ-)(?:Surf(?:/(\d+[.\d]+))?)";
  "(?i)(?:^|[^A-Z0-9\-_]|[^A-Z0-9\-]_|sprd-|MZ-)(?:Safari%20Technology%20Preview/(\d+[.\d]+))";
  "(?i)(?:^|[^A-Z0-9\-_]|[^A-Z0-9\-]_|sprd-|MZ-)(?:(?:(?:iPod|iPad|iPhone).+Version|MobileSafari)/(\d+[.\d]+))";
  "(?i)(?:^|[^A-Z0-9\-_]|[^A-Z0-9\-]_|sprd-|MZ-)(?:NetworkingExtension/.+ Network/.+ iOS/(\d+[.\d]+))";
  "(?i)(?:^|[^A-Z0-9\-_]|[^A-Z0-9\-]_|sprd-|MZ-)(?:(?:Version/(\d+\.[.\d]+) .*)?Mobile.*Safari/)";
  "(?i)(?:^|[^A-Z0-9\-_]|[^A-Z0-9\-]_|sprd-|MZ-)(?:(?:iPod|iPhone|iPad))";
  "(?i)(?:^|[^A-Z0-9\-_]|[^A-Z0-9\-]_|sprd-|MZ-)(?:Version/(\d+\.[.\d]+) .*Safari/|(?:Safari|Safari(?:%20)?%E6%B5%8F%E8%A7%88%E5%99%A8)/?\d+)";
  "(?i)(?:^|[^A-Z0-9\-_]|[^A-Z0-9\-]_|sprd-|MZ-)(?:(?:com\.apple\.WebKit\.Networking|NetworkingExtension)/(\d+[.\d]+).+ CFNetwork)";
  "(?i)(?:^|[^A-Z0-9\-_]|[^A-Z0-9\-]_|sprd-|MZ-)(?:(?:\w{1,5}[_ ])?Dorado(?: WAP-Browser)?(?:[/ ]?(\d+[.\d]+))?)";
  "(?i)(?:^|[^A-Z0-9\-_]|[^A-Z0-9\-]_|sprd-|MZ-)(?:NetSurf(?:/(\d+[.\d]+))?)";
  "(?i)(?:^|[^A-Z0-9\-_]|[^A-Z0-9\-]_|sprd-|MZ-)(?:Zvu(?:/(\d+[.\d]+))?)";
  "(?i)(?:^|[^A-Z0-9\-_]|[^A-Z0-9\-]_|sprd-|MZ-)(?:GOGGalaxyClient/(\d+[.\d]+)?)";
  "(?i)(?:^|[^A-Z0-9\-_]|[^A-Z0-9\-]_|sprd-|MZ-)(?:WAP Browser/MAUI|(?:\w*)Maui Wap Browser|MAUI[- ]Browser)";
  "(?i)(?:^|[^A-Z0-9\-_]|[^A-Z0-9\-]_|sprd-|MZ-)(?:SP%20Browser/(\d+[.\d]+))";
  "(?i)(?:^|[^A-Z0-9\-_]|[^A-Z0-9\-]_|sprd-|MZ-)(?:Gecko)";
  "(?i)(?:^|[^A-Z0-9\-_]|[^A-Z0-9\-]_|sprd-|MZ-)(?:Akregator(?:/(\d+[.\d]+))?)";
  "(?i)(?:^|[^A-Z0-9\-_]|[^A-Z0-9\-]_|sprd-|MZ-)(?:Apple-PubSub(?:/(\d+[.\d]+))?)";
  "(?i)(?:^|[^A-Z0-9\-_]|[^A-Z0-9\-]_|sprd-|MZ-)(?:Breaker/v?([\d.]+))";
  "(?i)(?:^|[^A-Z0-9\-_]|[^A-Z0-9\-]_|sprd-|MZ-)(?:FeedDemon(?:/(\d+[.\d]+))?)";
  "(?i)(?:^|[^A-Z0-9\-_]|[^A-Z0-9\-]_|sprd-|MZ-)(?:Feeddler(?:RSS|PRO)(?:[/ ](\d+[.\d]+))?)";
  "(?i)(?:^|[^A-Z0-9\-_]|[^A-Z0-9\-]_|sprd-|MZ-)(?:QuiteRSS(?:[/ ](\d+[.\d]+))?)";
  "(?i)(?:^|[^A-Z0-9\-_]|[^A-Z0-9\-]_|sprd-|MZ-)(?:gPodder/([\d.]+))";
  "(?i)(?:^|[^A-Z0-9\-_]|[^A-Z0-9\-]_|sprd-|MZ-)(?:JetBrains Omea Reader(?:[/ ](\d+[.\d]+))?)";
  "(?i)(?:^|[^A-Z0-9\-_]|[^A-Z0-9\-]_|sprd-|MZ-)(?:Liferea(?:[/ ](\d+[.\d]+))?)";
  "(?i)(?:^|[^A-Z0-9\-_]|[^A-Z0-9\-]_|sprd-|MZ-)(?:(?:NetNewsWire|Evergreen.+MacOS)(?:[/ ](\d+[.\d]+))?)";
  "(?i)(?:^|[^A-Z0-9\-_]|[^A-Z0-9\-]_|sprd-|MZ-)(?:NewsBlur (?:iPhone|iPad) App(?: v(\d+[.\d]+))?)";
  "(?i)(?:^|[^A-Z0-9\-_]|[^A-Z0-9\-]_|sprd-|MZ-)(?:NewsBlur(?:/(\d+[.\d]+)))";
  "(?i)(?:^|[^A-Z0-9\-_]|[^A-Z0-9\-]_|sprd-|MZ-)(?:newsbeuter(?:[/ ](\d+[.\d]+))?)";
  "(?i)(?:^|[^A-Z0-9\-_]|[^A-Z0-9\-]_|sprd-|MZ-)(?:PritTorrent/([\d.]+))";
  "(?i)(?:^|[^A-Z0-9\-_]|[^A-Z0-9\-]_|sprd-|MZ-)(?:Pulp[/ ](\d+[.\d]+))";
  "(?i)(?:^|[^A-Z0-9\-_]|[^A-Z0-9\-]_|sprd-|MZ-)(?:ReadKit(?:[/ ](\d+[.\d]+))?)";
  "(?i)(?:^|[^A-Z0-9\-_]|[^A-Z0-9\-]_|sprd-|MZ-)(?:Reeder[/ ](\d+[.\d]+))";
  "(?i)(?:^|[^A-Z0-9\-_]|[^A-Z0-9\-]_|sprd-|MZ-)(?:RSSBandit(?:[/ ](\d+[.\d]+))?)";
  "(?i)(?:^|[^A-Z0-9\-_]|[^A-Z0-9\-]_|sprd-|MZ-)(?:RSS Junkie(?:[/ ](\d+[.\d]+))?)";
  "(?i)(?:^|[^A-Z0-9\-_]|[^A-Z0-9\-]_|sprd-|MZ-)(?:RSSOwl(?:[/ ](\d+[.\d]+))?)";
  "(?i)(?:^|[^A-Z0-9\-_]|[^A-Z0-9\-]_|sprd-|MZ-)(?:^castero (\d+\.[.\d]+))";
  "(?i)(?:^|[^A-Z0-9\-_]|[^A-Z0-9\-]_|sprd-|MZ-)(?:^castget (\d+\.[.\d]+))";
  "(?i)(?:^|[^A-Z0-9\-_]|[^A-Z0-9\-]_|sprd-|MZ-)(?:^Newsboat/([a-z\d\.]+))";
  "(?i)(?:^|[^A-Z0-9\-_]|[^A-Z0-9\-]_|sprd-|MZ-)(?:^Playapod(?: Lite)?/(\d+\.[.\d]+))";
  "(?i)(?:^|[^A-Z0-9\-_]|[^A-Z0-9\-]_|sprd-|MZ-)(?:PodPuppy (\d+\.[.\d]+))";
  "(?i)(?:^|[^A-Z0-9\-_]|[^A-Z0-9\-]_|sprd-|MZ-)(?:^Reeder/([\d.]+))";
  "(?i)(?:^|[^A-Z0-9\-_]|[^A-Z0-9\-]_|sprd-|MZ-)(?:PhantomJS(?:/(\d+[.\d]+))?)";
  "(?i)(?:^|[^A-Z0-9\-_]|[^A-Z0-9\-]_|sprd-|MZ-)(?:IPinfoClient/.*/(\d+[.\d]+))";
  "(?i)(?:^|[^A-Z0-9\-_]|[^A-Z0-9\-]_|sprd-|MZ-)(?:kiwi-tcms/(\d+[.\d]+))";
  "(?i)(?:^|[^A-Z0-9\-_]|[^A-Z0-9\-]_|sprd-|MZ-)(?:tcms-api/(\d+[.\d]+))";
  "(?i)(?:^|[^A-Z0-9\-_]|[^A-Z0-9\-]_|sprd-|MZ-)(?:Fuzz Faster U Fool v(\d+[.\d]+))";
  "(?i)(?:^|[^A-Z0-9\-_]|[^A-Z0-9\-]_|sprd-|MZ-)(?:HTMLParser(?:/(\d+[.\d]+))?)";
  "(?i)(?:^|[^A-Z0-9\-_]|[^A-Z0-9\-]_|sprd-|MZ-)(?:^got(?:/(\d+\.[.\d]+))? \()";
  "(?i)(?:^|[^A-Z0-9\-_]|[^A-Z0-9\-]_|sprd-|MZ-)(?:req/v([.\d]+))";
  "(?i)(?:^|[^A-Z0-9\-_]|[^A-Z0-9\-]_|sprd-|MZ-)(?:quic-go[ -]HTTP/3)";
  "(?i)(?:^|[^A-Z0-9\-_]|[^A-Z0-9\-]_|sprd-|MZ-)(?:azure-data-factory(?:/(\d+[.\d]+))?)";
  "(?i)(?:^|[^A-Z0-9\-_]|[^A-Z0-9\-]_|sprd-|MZ-)(?:Dart/(\d+[.\d]+))";
  "(?i)(?:^|[^A-Z0-9\-_]|[^A-Z0-9\-]_|sprd-|MZ-)(?:r-curl(?:/(\d+[.\d]+))?)";
  "(?i)(?:^|[^A-Z0-9\-_]|[^A-Z0-9\-]_|sprd-|MZ-)(?:python-httpx(?:/(\d+[.\d]+))?)";
  "(?i)(?:^|[^A-Z0-9\-_]|[^A-Z0-9\-]_|sprd-|MZ-)(?:fasthttp(?:/(\d+[.\d]+))?)"
].
Definition d_cr_re_3 : list blob := [
  "(?i)(?:^|[^A-Z0-9\-_]|[^A-Z0-9\-]_|sprd-|MZ-)(?:geoipupdate(?:/(\d+[.\d]+))?)";
  "(?i)(?:^|[^A-Z0-9\-_]|[^A-Z0-9\-]_|sprd-|MZ-)(?:PHP-Curl-Class(?:/(\d+[.\d]+))?)";
  "(?i)(?:^|[^A-Z0-9\-_]|[^A-Z0-9\-]_|sprd-|MZ-)(?:Cpanel-HTTP-Client(?:/(\d+[.\d]+))?)";
  "(?i)(?:^|[^A-Z0-9\-_]|[^A-Z0-9\-]_|sprd-|MZ-)(?:AnyEvent-HTTP(?:/(\d+[.\d]+))?)";
  "(?i)(?:^|[^A-Z0-9\-_]|[^A-Z0-9\-]_|sprd-|MZ-)(?:SlimerJS/(\d+[.\d]+))";
  "(?i)(?:^|[^A-Z0-9\-_]|[^A-Z0-9\-]_|sprd-|MZ-)(?:Jaunt/(\d+[.\d]+))";
  "(?i)(?:^|[^A-Z0-9\-_]|[^A-Z0-9\-]_|sprd-|MZ-)(?:Cypress/(\d+[.\d]+))";
  "(?i)(?:^|[^A-Z0-9\-_]|[^A-Z0-9\-]_|sprd-|MZ-)(?:Wget(?:/(\d+[.\d]+))?)";
  "(?i)(?:^|[^A-Z0-9\-_]|[^A-Z0-9\-]_|sprd-|MZ-)(?:Guzzle(?:Http)?(?:/(\d+[.\d]+))?)";
  "(?i)(?:^|[^A-Z0-9\-_]|[^A-Z0-9\-]_|sprd-|MZ-)(?:^Symfony HttpClient/)";
  "(?i)(?:^|[^A-Z0-9\-_]|[^A-Z0-9\-]_|sprd-|MZ-)(?:(?:lib)?curl(?:/(\d+[.\d]+))?)";
  "(?i)(?:^|[^A-Z0-9\-_]|[^A-Z0-9\-]_|sprd-|MZ-)(?:python-requests(?:/(\d+[.\d]+))?)";
  "(?i)(?:^|[^A-Z0-9\-_]|[^A-Z0-9\-]_|sprd-|MZ-)(?:Python-httplib2(?:/(\d+[.\d]+))?)";
  "(?i)(?:^|[^A-Z0-9\-_]|[^A-Z0-9\-]_|sprd-|MZ-)(?:Python-urllib3?(?:/?(\d+[.\d]+))?)";
  "(?i)(?:^|[^A-Z0-9\-_]|[^A-Z0-9\-]_|sprd-|MZ-)(?:Apache-HttpClient(?:/?(\d+[.\d]+))?)";
  "(?i)(?:^|[^A-Z0-9\-_]|[^A-Z0-9\-]_|sprd-|MZ-)(?:Java-http-client(?:/?(\d+[.\d]+))?)";
  "(?i)(?:^|[^A-Z0-9\-_]|[^A-Z0-9\-]_|sprd-|MZ-)(?:Java/?(\d+[.\d]+))";
  "(?i)(?:^|[^A-Z0-9\-_]|[^A-Z0-9\-]_|sprd-|MZ-)(?:(?:perlclient|libwww-perl)(?:/?(\d+[.\d]+))?)";
  "(?i)(?:^|[^A-Z0-9\-_]|[^A-Z0-9\-]_|sprd-|MZ-)(?:grpc-java-okhttp/([\d.]+))";
  "(?i)(?:^|[^A-Z0-9\-_]|[^A-Z0-9\-]_|sprd-|MZ-)(?:(?:okhttp|network-okhttp3)/([\d.]+))";
  "(?i)(?:^|[^A-Z0-9\-_]|[^A-Z0-9\-]_|sprd-|MZ-)(?:okhttp3-([\d.]+))";
  "(?i)(?:^|[^A-Z0-9\-_]|[^A-Z0-9\-]_|sprd-|MZ-)(?:HTTP_Request2(?:/(\d+[.\d]+))?)";
  "(?i)(?:^|[^A-Z0-9\-_]|[^A-Z0-9\-]_|sprd-|MZ-)(?:Mechanize(?:/(\d+[.\d]+))?)";
  "(?i)(?:^|[^A-Z0-9\-_]|[^A-Z0-9\-]_|sprd-|MZ-)(?:aiohttp(?:/(\d+[.\d]+))?)";
  "(?i)(?:^|[^A-Z0-9\-_]|[^A-Z0-9\-]_|sprd-|MZ-)(?:Google-HTTP-Java-Client(?:/(\d+[\.\w-]+))?)";
  "(?i)(?:^|[^A-Z0-9\-_]|[^A-Z0-9\-]_|sprd-|MZ-)(?:WWW-Mechanize(?:/(\d+[.\d]+))?)";
  "(?i)(?:^|[^A-Z0-9\-_]|[^A-Z0-9\-]_|sprd-|MZ-)(?:Faraday(?: v(\d+[.\d]+))?)";
  "(?i)(?:^|[^A-Z0-9\-_]|[^A-Z0-9\-]_|sprd-|MZ-)(?:(?:Go-http-client|^Go )/?(?:(\d+[.\d]+))?(?: package http)?)";
  "(?i)(?:^|[^A-Z0-9\-_]|[^A-Z0-9\-]_|sprd-|MZ-)(?:urlgrabber(?:/(\d+[.\d]+))?)";
  "(?i)(?:^|[^A-Z0-9\-_]|[^A-Z0-9\-]_|sprd-|MZ-)(?:libdnf(?:/(\d+[.\d]+))?)";
  "(?i)(?:^|[^A-Z0-9\-_]|[^A-Z0-9\-]_|sprd-|MZ-)(?:HTTPie(?:/(\d+[.\d]+))?)";
  "(?i)(?:^|[^A-Z0-9\-_]|[^A-Z0-9\-]_|sprd-|MZ-)(?:rest-client/(\d+\.[.\d]+) .*ruby)";
  "(?i)(?:^|[^A-Z0-9\-_]|[^A-Z0-9\-]_|sprd-|MZ-)(?:RestSharp/(\d+[.\d]+))";
  "(?i)(?:^|[^A-Z0-9\-_]|[^A-Z0-9\-]_|sprd-|MZ-)(?:scalaj-http/(\d+[.\d]+))";
  "(?i)(?:^|[^A-Z0-9\-_]|[^A-Z0-9\-]_|sprd-|MZ-)(?:REST::Client/(\d+))";
  "(?i)(?:^|[^A-Z0-9\-_]|[^A-Z0-9\-]_|sprd-|MZ-)(?:node-fetch/?(\d+[.\d]+)?)";
  "(?i)(?:^|[^A-Z0-9\-_]|[^A-Z0-9\-]_|sprd-|MZ-)(?:electron-fetch/?(\d+[.\d]+)?)";
  "(?i)(?:^|[^A-Z0-9\-_]|[^A-Z0-9\-]_|sprd-|MZ-)(?:ReactorNetty/(\d+[.\d]+))";
  "(?i)(?:^|[^A-Z0-9\-_]|[^A-Z0-9\-]_|sprd-|MZ-)(?:PostmanRuntime(?:/(\d+[.\d]+))?)";
  "(?i)(?:^|[^A-Z0-9\-_]|[^A-Z0-9\-]_|sprd-|MZ-)(?:insomnia(?:/(\d+[.\d]+))?)";
  "(?i)(?:^|[^A-Z0-9\-_]|[^A-Z0-9\-]_|sprd-|MZ-)(?:Jakarta Commons-HttpClient/([.\d]+))";
  "(?i)(?:^|[^A-Z0-9\-_]|[^A-Z0-9\-]_|sprd-|MZ-)(?:WinHttp\.WinHttpRequest.+([.\d]+))";
  "(?i)(?:^|[^A-Z0-9\-_]|[^A-Z0-9\-]_|sprd-|MZ-)(?:Embarcadero URI Client/([.\d]+))";
  "(?i)(?:^|[^A-Z0-9\-_]|[^A-Z0-9\-]_|sprd-|MZ-)(?:Mikrotik/([.\d]+))";
  "(?i)(?:^|[^A-Z0-9\-_]|[^A-Z0-9\-]_|sprd-|MZ-)(?:GRequests(?:/(\d+[.\d]+))?)";
  "(?i)(?:^|[^A-Z0-9\-_]|[^A-Z0-9\-]_|sprd-|MZ-)(?:akka-http/([.\d]+))";
  "(?i)(?:^|[^A-Z0-9\-_]|[^A-Z0-9\-]_|sprd-|MZ-)(?:aria2(?:/(\d+[.\d]+))?)";
  "(?i)(?:^|[^A-Z0-9\-_]|[^A-Z0-9\-]_|sprd-|MZ-)(?:(?:BTWebClient/|^uTorrent/))";
  "(?i)(?:^|[^A-Z0-9\-_]|[^A-Z0-9\-]_|sprd-|MZ-)(?:gvfs/(?:(\d+[.\d]+))?)";
  "(?i)(?:^|[^A-Z0-9\-_]|[^A-Z0-9\-]_|sprd-|MZ-)(?:cpprestsdk/([.\d]+))";
  "(?i)(?:^|[^A-Z0-9\-_]|[^A-Z0-9\-]_|sprd-|MZ-)(?:lua-resty-http/([.\d]+).+ngx_)";
  "(?i)(?:^|[^A-Z0-9\-_]|[^A-Z0-9\-]_|sprd-|MZ-)(?:unirest-java/([.\d]+))";
  "(?i)(?:^|[^A-Z0-9\-_]|[^A-Z0-9\-]_|sprd-|MZ-)(?:jsdom/([.\d]+))";
  "(?i)(?:^|[^A-Z0-9\-_]|[^A-Z0-9\-]_|sprd-|MZ-)(?:hackney/([.\d]+))";
  "(?i)(?:^|[^A-Z0-9\-_]|[^A-Z0-9\-]_|sprd-|MZ-)(?:go-resty/([.\d]+))";
  "(?i)(?:^|[^A-Z0-9\-_]|[^A-Z0-9\-]_|sprd-|MZ-)(?:pa11y/([.\d]+))";
  "(?i)(?:^|[^A-Z0-9\-_]|[^A-Z0-9\-]_|sprd-|MZ-)(?:ultimate_sitemap_parser/([.\d]+))";
  "(?i)(?:^|[^A-Z0-9\-_]|[^A-Z0-9\-]_|sprd-|MZ-)(?:Artifactory/([.\d]+))";
  "(?i)(?:^|[^A-Z0-9\-_]|[^A-Z0-9\-]_|sprd-|MZ-)(?:BSRPC ([.\d]+))";
  "(?i)(?:^|[^A-Z0-9\-_]|[^A-Z0-9\-]_|sprd-|MZ-)(?:Buildah/([.\d]+))";
  "(?i)(?:^|[^A-Z0-9\-_]|[^A-Z0-9\-]_|sprd-|MZ-)(?:buildkit/v?([.\d]+))";
  "(?i)(?:^|[^A-Z0-9\-_]|[^A-Z0-9\-]_|sprd-|MZ-)(?:containerd/v?([.\d]+))";
  "(?i)(?:^|[^A-Z0-9\-_]|[^A-Z0-9\-]_|sprd-|MZ-)(?:containers/([.\d]+))";
  "(?i)(?:^|[^A-Z0-9\-_]|[^A-Z0-9\-]_|sprd-|MZ-)(?:cri-o/([.\d]+))";
  "(?i)(?:^|[^A-Z0-9\-_]|[^A-Z0-9\-]_|sprd-|MZ-)(?:docker/([.\d]+))";
  "(?i)(?:^|[^A-Z0-9\-_]|[^A-Z0-9\-]_|sprd-|MZ-)(?:go-containerregistry/v([.\d]+))";
  "(?i)(?:^|[^A-Z0-9\-_]|[^A-Z0-9\-]_|sprd-|MZ-)(?:libpod/([.\d]+))";
  "(?i)(?:^|[^A-Z0-9\-_]|[^A-Z0-9\-]_|sprd-|MZ-)(?:skopeo/([.\d]+))";
  "(?i)(?:^|[^A-Z0-9\-_]|[^A-Z0-9\-]_|sprd-|MZ-)(?:Helm/([.\d]+))";
  "(?i)(?:^|[^A-Z0-9\-_]|[^A-Z0-9\-]_|sprd-|MZ-)(?:axios(?:/?(\d+[.\d]+))?)";
  "(?i)(?:^|[^A-Z0-9\-_]|[^A-Z0-9\-]_|sprd-|MZ-)(?:^CarrierWave/(\d+\.[.\d]+))";
  "(?i)(?:^|[^A-Z0-9\-_]|[^A-Z0-9\-]_|sprd-|MZ-)(?:^Deno/(\d+\.[.\d]+))";
  "(?i)(?:^|[^A-Z0-9\-_]|[^A-Z0-9\-]_|sprd-|MZ-)(?:^Down/(\d+\.[.\d]+))";
  "(?i)(?:^|[^A-Z0-9\-_]|[^A-Z0-9\-]_|sprd-|MZ-)(?:^Lavf/)";
  "(?i)(?:^|[^A-Z0-9\-_]|[^A-Z0-9\-]_|sprd-|MZ-)(?:^FileDownloader/(\d+\.[.\d]+))";
  "(?i)(?:^|[^A-Z0-9\-_]|[^A-Z0-9\-]_|sprd-|MZ-)(?:^git-annex/(\d+\.[.\d]+))";
  "(?i)(?:^|[^A-Z0-9\-_]|[^A-Z0-9\-]_|sprd-|MZ-)(?:^GStreamer(?: souphttpsrc)[ /](\d+\.[.\d]+)?)";
  "(?i)(?:^|[^A-Z0-9\-_]|[^A-Z0-9\-]_|sprd-|MZ-)(?:^HTTP-Tiny/(\d+\.[.\d]+))";
  "(?i)(?:^|[^A-Z0-9\-_]|[^A-Z0-9\-]_|sprd-|MZ-)(?:^libsoup/(\d+\.[.\d]+))";
  "(?i)(?:^|[^A-Z0-9\-_]|[^A-Z0-9\-]_|sprd-|MZ-)(?:^Android\.LVLDM$)";
  "(?i)(?:^|[^A-Z0-9\-_]|[^A-Z0-9\-]_|sprd-|MZ-)(?:^PRDownloader$)";
  "(?i)(?:^|[^A-Z0-9\-_]|[^A-Z0-9\-]_|sprd-|MZ-)(?:^reqwest/(\d+\.[.\d]+))";
  "(?i)(?:^|[^A-Z0-9\-_]|[^A-Z0-9\-]_|sprd-|MZ-)(?:^resty-requests)";
  "(?i)(?:^|[^A-Z0-9\-_]|[^A-Z0-9\-]_|sprd-|MZ-)(?:^Ruby)";
  "(?i)(?:^|[^A-Z0-9\-_]|[^A-Z0-9\-]_|sprd-|MZ-)(?:^SafariViewService/(\d+\.[.\d]+))";
  "(?i)(?:^|[^A-Z0-9\-_]|[^A-Z0-9\-]_|sprd-|MZ-)(?:^undici$)";
  "(?i)(?:^|[^A-Z0-9\-_]|[^A-Z0-9\-]_|sprd-|MZ-)(?:^URL/Emacs Emacs/(\d+\.[.\d]+))";
  "(?i)(?:^|[^A-Z0-9\-_]|[^A-Z0-9\-]_|sprd-|MZ-)(?:^FDM[ /]([\d.]+))";
  "(?i)(?:^|[^A-Z0-9\-_]|[^A-Z0-9\-]_|sprd-|MZ-)(?:OkDownload/([\d.]+))";
  "(?i)(?:^|[^A-Z0-9\-_]|[^A-Z0-9\-]_|sprd-|MZ-)(?:^Libsyn4-?(?:peek|download)$)";
  "(?i)(?:^|[^A-Z0-9\-_]|[^A-Z0-9\-]_|sprd-|MZ-)(?:AppleCoreMedia/1\.0\.0)";
  "(?i)(?:^|[^A-Z0-9\-_]|[^A-Z0-9\-]_|sprd-|MZ-)(?:cpp-httplib(?:/(\d+[.\d]+))?)";
  "(?i)(?:^|[^A-Z0-9\-_]|[^A-Z0-9\-]_|sprd-|MZ-)(?:Stealer ([\d.]+))";
  "(?i)(?:^|[^A-Z0-9\-_]|[^A-Z0-9\-]_|sprd-|MZ-)(?:Mandrill-PHP(?:/(\d+[.\d]+))?)";
  "(?i)(?:^|[^A-Z0-9\-_]|[^A-Z0-9\-]_|sprd-|MZ-)(?:^Podgrab)";
  "(?i)(?:^|[^A-Z0-9\-_]|[^A-Z0-9\-]_|sprd-|MZ-)(?:^Podcast Provider.*?Radio Downloader ([\d.]+))";
  "(?i)(?:^|[^A-Z0-9\-_]|[^A-Z0-9\-]_|sprd-|MZ-)(?:^ESP32 HTTP Client/([\d.]+))";
  "(?i)(?:^|[^A-Z0-9\-_]|[^A-Z0-9\-]_|sprd-|MZ-)(?:babashka\.http-client(?:/(\d+[.\d]+))?)";
  "(?i)(?:^|[^A-Z0-9\-_]|[^A-Z0-9\-]_|sprd-|MZ-)(?:http\.rb(?:/(\d+[.\d]+))?)";
  "(?i)(?:^|[^A-Z0-9\-_]|[^A-Z0-9\-]_|sprd-|MZ-)(?:node-superagent(?:/(\d+[.\d]+))?)";
  "(?i)(?:^|[^A-Z0-9\-_]|[^A-Z0-9\-]_|sprd-|MZ-)(?:request\.js)";
  "(?i)(?:^|[^A-Z0-9\-_]|[^A-Z0-9\-]_|sprd-|MZ-)(?:qbhttp(?:/(\d+[.\d]+))?)";
  "(?i)(?:^|[^A-Z0-9\-_]|[^A-Z0-9\-]_|sprd-|MZ-)(?:httprs(?:/(\d+[.\d]+))?)";
  "(?i)(?:^|[^A-Z0-9\-_]|[^A-Z0-9\-]_|sprd-|MZ-)(?:Boto3(?:/(\d+[.\d]+))?)";
  "(?i)(?:^|[^A-Z0-9\-_]|[^A-Z0-9\-]_|sprd-|MZ-)(?:Python-xmlrpc(?:/(\d+[.\d]+))?)";
  "(?i)(?:^|[^A-Z0-9\-_]|[^A-Z0-9\-]_|sprd-|MZ-)(?:ICAP-Client-Library(?:/(\d+[.\d]+))?)";
  "(?i)(?:^|[^A-Z0-9\-_]|[^A-Z0-9\-]_|sprd-|MZ-)(?:Cygwin-Setup(?:/(\d+[.\d]+))?)";
  "(?i)(?:^|[^A-Z0-9\-_]|[^A-Z0-9\-]_|sprd-|MZ-)(?:azsdk-python-storage-blob(?:/(\d+[.\d]+))?)";
  "(?i)(?:^|[^A-Z0-9\-_]|[^A-Z0-9\-]_|sprd-|MZ-)(?:trafilatura(?:/(\d+[.\d]+))?)";
  "(?i)(?:^|[^A-Z0-9\-_]|[^A-Z0-9\-]_|sprd-|MZ-)(?:sqlmap(?:/(\d+[.\d]+))?)";
  "(?i)(?:^|[^A-Z0-9\-_]|[^A-Z0-9\-]_|sprd-|MZ-)(?:vimeo\.php(?: (\d+[.\d]+))?)";
  "(?i)(?:^|[^A-Z0-9\-_]|[^A-Z0-9\-]_|sprd-|MZ-)(?:^PHP/?(\d+[.\d]+))";
  "(?i)(?:^|[^A-Z0-9\-_]|[^A-Z0-9\-]_|sprd-|MZ-)(?:go-network-v(\d+[.\d]+))";
  "(?i)(?:^|[^A-Z0-9\-_]|[^A-Z0-9\-]_|sprd-|MZ-)(?:Bun/(\d+\.[.\d]+))";
  "(?i)(?:^|[^A-Z0-9\-_]|[^A-Z0-9\-]_|sprd-|MZ-)(?:Apidog/(\d+\.[.\d]+))";
  "(?i)(?:^|[^A-Z0-9\-_]|[^A-Z0-9\-]_|sprd-|MZ-)(?:webchk v(\d+\.[.\d]+))";
  "(?i)(?:^|[^A-Z0-9\-_]|[^A-Z0-9\-]_|sprd-|MZ-)(?:MatomoTrackerSDK/(\d+[.\d]+))";
  "(?i)(?:^|[^A-Z0-9\-_]|[^A-Z0-9\-]_|sprd-|MZ-)(?:libHTTP/(\d+[.\d]+))";
  "(?i)(?:^|[^A-Z0-9\-_]|[^A-Z0-9\-]_|sprd-|MZ-)(?:^Hubot/(\d+[.\d]+))";
  "(?i)(?:^|[^A-Z0-9\-_]|[^A-Z0-9\-]_|sprd-|MZ-)(?:Audacious(?:[ /]([\d.]+))?)";
  "(?i)(?:^|[^A-Z0-9\-_]|[^A-Z0-9\-]_|sprd-|MZ-)(?:(?:AlexaMediaPlayer/|^AlexaMediaPlayer/|^Echo/|Amazon;Echo(?:_|;)|^AlexaService/|^Alexa Mobile Voice/)([a-z\d]+\.[a-z.\d]+)?)";
  "(?i)(?:^|[^A-Z0-9\-_]|[^A-Z0-9\-]_|sprd-|MZ-)(?:Banshee(?:[ /]([\d.]+))?)";
  "(?i)(?:^|[^A-Z0-9\-_]|[^A-Z0-9\-]_|sprd-|MZ-)(?:Boxee(?:[ /]([\d.]+))?)";
  "(?i)(?:^|[^A-Z0-9\-_]|[^A-Z0-9\-]_|sprd-|MZ-)(?:Clementine(?:[ /]([\d.]+))?)";
  "(?i)(?:^|[^A-Z0-9\-_]|[^A-Z0-9\-]_|sprd-|MZ-)(?:Deezer(?:/([\d.]+))?)";
  "(?i)(?:^|[^A-Z0-9\-_]|[^A-Z0-9\-]_|sprd-|MZ-)(?:iTunes(?:-iPhone|-iPad)?(?:/([\d.]+))?)";
  "(?i)(?:^|[^A-Z0-9\-_]|[^A-Z0-9\-]_|sprd-|MZ-)(?:FlyCast(?:/([\d.]+))?)";
  "(?i)(?:^|[^A-Z0-9\-_]|[^A-Z0-9\-]_|sprd-|MZ-)(?:foobar2000(?:/([\d.]+))?)";
  "(?i)(?:^|[^A-Z0-9\-_]|[^A-Z0-9\-]_|sprd-|MZ-)(?:MediaMonkey(?:[ /](\d+[.\d]+))?)";
  "(?i)(?:^|[^A-Z0-9\-_]|[^A-Z0-9\-]_|sprd-|MZ-)(?:Miro(?:/(\d+[.\d]+))?)";
  "(?i)(?:^|[^A-Z0-9\-_]|[^A-Z0-9\-]_|sprd-|MZ-)(?:NexPlayer(?:/(\d+[.\d]+))?)";
  "(?i)(?:^|[^A-Z0-9\-_]|[^A-Z0-9\-]_|sprd-|MZ-)(?:Nightingale(?:/([\d.]+))?)";
  "(?i)(?:^|[^A-Z0-9\-_]|[^A-Z0-9\-]_|sprd-|MZ-)(?:QuickTime(?:(?:(?:.+qtver=)|(?:(?: E-)?[\./]))([\d.]+))?)";
  "(?i)(?:^|[^A-Z0-9\-_]|[^A-Z0-9\-]_|sprd-|MZ-)(?:Songbird(?:/([\d.]+))?)";
  "(?i)(?:^|[^A-Z0-9\-_]|[^A-Z0-9\-]_|sprd-|MZ-)(?:SubStream(?:/([\d.]+))?)";
  "(?i)(?:^|[^A-Z0-9\-_]|[^A-Z0-9\-]_|sprd-|MZ-)(?:Sonos/([\d.]+)?)";
  "(?i)(?:^|[^A-Z0-9\-_]|[^A-Z0-9\-]_|sprd-|MZ-)(?:(?:Lib)?VLC(?:/([\d.]+))?)";
  "(?i)(?:^|[^A-Z0-9\-_]|[^A-Z0-9\-]_|sprd-|MZ-)(?:Winamp(?:MPEG)?(?:/(\d+[.\d]+))?)";
  "(?i)(?:^|[^A-Z0-9\-_]|[^A-Z0-9\-]_|sprd-|MZ-)(?:J\. River Internet Reader/(\d+\.[.\d]+))";
  "(?i)(?:^|[^A-Z0-9\-_]|[^A-Z0-9\-]_|sprd-|MZ-)(?:(?:Windows-Media-Player|NSPlayer)(?:/(\d+[.\d]+))?)";
  "(?i)(?:^|[^A-Z0-9\-_]|[^A-Z0-9\-]_|sprd-|MZ-)(?:XBMC(?:/([\d.]+))?)";
  "(?i)(?:^|[^A-Z0-9\-_]|[^A-Z0-9\-]_|sprd-|MZ-)(?:Kodi(?:/([\d.]+))?)";
  "(?i)(?:^|[^A-Z0-9\-_]|[^A-Z0-9\-]_|sprd-|MZ-)(?:stagefright(?:/([\d.]+))?)";
  "(?i)(?:^|[^A-Z0-9\-_]|[^A-Z0-9\-]_|sprd-|MZ-)(?:GoogleChirp(?:/(\d+[.\d]+))?)";
  "(?i)(?:^|[^A-Z0-9\-_]|[^A-Z0-9\-]_|sprd-|MZ-)(?:Music Player Daemon (?:(\d+[.\d]+))?)";
  "(?i)(?:^|[^A-Z0-9\-_]|[^A-Z0-9\-]_|sprd-|MZ-)(?:mpv (?:(\d+[.\d]+))?)";
  "(?i)(?:^|[^A-Z0-9\-_]|[^A-Z0-9\-]_|sprd-|MZ-)(?:MediaGo(?:/([\w\.]+))?)";
  "(?i)(?:^|[^A-Z0-9\-_]|[^A-Z0-9\-]_|sprd-|MZ-)(?:MPlayer[ /](\d+\.[\d.]))";
  "(?i)(?:^|[^A-Z0-9\-_]|[^A-Z0-9\-]_|sprd-|MZ-)(?:Downcast/(\d+\.[\d.]+)?)";
  "(?i)(?:^|[^A-Z0-9\-_]|[^A-Z0-9\-]_|sprd-|MZ-)(?:^Juice/([\d.]+))";
  "(?i)(?:^|[^A-Z0-9\-_]|[^A-Z0-9\-]_|sprd-|MZ-)(?:just_audio/(\d+\.[.\d]+))";
  "(?i)(?:^|[^A-Z0-9\-_]|[^A-Z0-9\-]_|sprd-|MZ-)(?:^Kasts/(\d+\.[.\d]+))";
  "(?i)(?:^|[^A-Z0-9\-_]|[^A-Z0-9\-]_|sprd-|MZ-)(?:MixerBox(?:%20Pro)?/([.\d]+))";
  "(?i)(?:^|[^A-Z0-9\-_]|[^A-Z0-9\-]_|sprd-|MZ-)(?:^MusicBee(?:/(\d+\.[.\d]+))?)";
  "(?i)(?:^|[^A-Z0-9\-_]|[^A-Z0-9\-]_|sprd-|MZ-)(?:^amarok/(\d+\.[.\d]+))";
  "(?i)(?:^|[^A-Z0-9\-_]|[^A-Z0-9\-]_|sprd-|MZ-)(?:Hubhopper/([\d.]+))";
  "(?i)(?:^|[^A-Z0-9\-_]|[^A-Z0-9\-]_|sprd-|MZ-)(?:StudioDisplay/(\d+\.[\d.]+))";
  "(?i)(?:^|[^A-Z0-9\-_]|[^A-Z0-9\-]_|sprd-|MZ-)(?:JHV/SWHV-([.\d+]+))";
  "(?i)(?:^|[^A-Z0-9\-_]|[^A-Z0-9\-]_|sprd-|MZ-)(?:com\.devcoder\.iptvxtreamplayer)";
  "(?i)(?:^|[^A-Z0-9\-_]|[^A-Z0-9\-]_|sprd-|MZ-)(?:DIGA(?:Plus/(\d+\.[.\d]+))?)";
  "(?i)(?:^|[^A-Z0-9\-_]|[^A-Z0-9\-]_|sprd-|MZ-)(?:YouView(?:HTML/(\d+\.[.\d]+))?)";
  "(?i)(?:^|[^A-Z0-9\-_]|[^A-Z0-9\-]_|sprd-|MZ-)(?:jpameblo;(\d+\.[.\d]+))";
  "(?i)(?:^|[^A-Z0-9\-_]|[^A-Z0-9\-]_|sprd-|MZ-)(?:CSDNApp/(\d+\.[.\d]+))";
  "(?i)(?:^|[^A-Z0-9\-_]|[^A-Z0-9\-]_|sprd-|MZ-)(?:binu(?:/(\d+[.\d]+))?)";
  "(?i)(?:^|[^A-Z0-9\-_]|[^A-Z0-9\-]_|sprd-|MZ-)(?:KPN_Veilig[ /](\d+\.[.\d]+))";
  "(?i)(?:^|[^A-Z0-9\-_]|[^A-Z0-9\-]_|sprd-|MZ-)(?:NAVER/(\d+[.\d]+) CFNetwork)";
  "(?i)(?:^|[^A-Z0-9\-_]|[^A-Z0-9\-]_|sprd-|MZ-)(?:NAVER\(inapp; search; .+; (\d+[.\d]+);.+\))";
  "(?i)(?:^|[^A-Z0-9\-_]|[^A-Z0-9\-]_|sprd-|MZ-)(?:NAVER\(inapp; search; .+; (\d+[.\d]+)\))";
  "(?i)(?:^|[^A-Z0-9\-_]|[^A-Z0-9\-]_|sprd-|MZ-)(?:NAVER\(inapp; naverdicapp; .+; (\d+[.\d]+)\))";
  "(?i)(?:^|[^A-Z0-9\-_]|[^A-Z0-9\-]_|sprd-|MZ-)(?:Chrome/Soldier_([\d.]+))";
  "(?i)(?:^|[^A-Z0-9\-_]|[^A-Z0-9\-]_|sprd-|MZ-)(?:AndroidDownloadManager(?:[ /]([\d.]+))?)";
  "(?i)(?:^|[^A-Z0-9\-_]|[^A-Z0-9\-]_|sprd-|MZ-)(?:(?:Apple)?News(?:[ /][\d.]+)? Version(?:[ /]([\d.]+))?)";
  "(?i)(?:^|[^A-Z0-9\-_]|[^A-Z0-9\-]_|sprd-|MZ-)(?:appletv\.client)";
  "(?i)(?:^|[^A-Z0-9\-_]|[^A-Z0-9\-]_|sprd-|MZ-)(?:AudienceNetworkForAndroid.+(?:FBAV)(?:[ /]([\d.]+))?)";
  "(?i)(?:^|[^A-Z0-9\-_]|[^A-Z0-9\-]_|sprd-|MZ-)(?:(?:mLite|MessengerLite(?:ForiOS)?).*(?:FBAV)(?:[ /]([\d.]+))?)";
  "(?i)(?:^|[^A-Z0-9\-_]|[^A-Z0-9\-]_|sprd-|MZ-)(?:(?:MessengerForiOS|MESSENGER|(?:FB_IAB|FBAN)/Orca-Android).*(?:FBAV)(?:[ /]([\d.]+))?)";
  "(?i)(?:^|[^A-Z0-9\-_]|[^A-Z0-9\-]_|sprd-|MZ-)(?:(?:MessengerForiOS|(?:FB_IAB|FBAN)/Orca-Android))";
  "(?i)(?:^|[^A-Z0-9\-_]|[^A-Z0-9\-]_|sprd-|MZ-)(?:(?:GroupsForiOS).*(?:FBAV)(?:[ /]([\d.]+))?)";
  "(?i)(?:^|[^A-Z0-9\-_]|[^A-Z0-9\-]_|sprd-|MZ-)(?:FBAN/EMA.+FBAV(?:[ /]([\d.]+))?)";
  "(?i)(?:^|[^A-Z0-9\-_]|[^A-Z0-9\-]_|sprd-|MZ-)(?:FBAN/FBPageAdmin.+FBAV(?:[ /]([\d.]+))?)";
  "(?i)(?:^|[^A-Z0-9\-_]|[^A-Z0-9\-]_|sprd-|MZ-)(?:(?:FBAV|com\.facebook\.katana|facebook-mobile/1\.0|facebook-mobile/|Facebook/)(?:[ /]([\d.]+))?)";
  "(?i)(?:^|[^A-Z0-9\-_]|[^A-Z0-9\-]_|sprd-|MZ-)(?:(?:FBAN|FBSV|FBID|FBBV)/)";
  "(?i)(?:^|[^A-Z0-9\-_]|[^A-Z0-9\-]_|sprd-|MZ-)(?:Instagram[ /]([\d.]+)?)";
  "(?i)(?:^|[^A-Z0-9\-_]|[^A-Z0-9\-]_|sprd-|MZ-)(?:Barcelona[ /]([\d.]+)?)";
  "(?i)(?:^|[^A-Z0-9\-_]|[^A-Z0-9\-]_|sprd-|MZ-)(?:FeedR(?:/([\d.]+))?)";
  "(?i)(?:^|[^A-Z0-9\-_]|[^A-Z0-9\-]_|sprd-|MZ-)(?:com\.google\.android\.apps\.searchlite)";
  "(?i)(?:^|[^A-Z0-9\-_]|[^A-Z0-9\-]_|sprd-|MZ-)(?:NSTNWV(?:/([\d.]+))?)";
  "(?i)(?:^|[^A-Z0-9\-_]|[^A-Z0-9\-]_|sprd-|MZ-)(?:com\.google\.android\.apps\.photos)";
  "(?i)(?:^|[^A-Z0-9\-_]|[^A-Z0-9\-]_|sprd-|MZ-)(?:com\.google\.android\.apps\.magazines)";
  "(?i)(?:^|[^A-Z0-9\-_]|[^A-Z0-9\-]_|sprd-|MZ-)(?:com\.google\.GooglePlus)";
  "(?i)(?:^|[^A-Z0-9\-_]|[^A-Z0-9\-]_|sprd-|MZ-)(?:Google\.DriveExtension(?:/([\d.]+))?)";
  "(?i)(?:^|[^A-Z0-9\-_]|[^A-Z0-9\-]_|sprd-|MZ-)(?:OPA/([\d.]+))";
  "(?i)(?:^|[^A-Z0-9\-_]|[^A-Z0-9\-]_|sprd-|MZ-)(?:com\.google\.Maps/([\d.]+))";
  "(?i)(?:^|[^A-Z0-9\-_]|[^A-Z0-9\-]_|sprd-|MZ-)(?:com\.google\.android\.googlequicksearchbox)";
  "(?i)(?:^|[^A-Z0-9\-_]|[^A-Z0-9\-]_|sprd-|MZ-)(?:wxwork/(\d+[.\d]+))";
  "(?i)(?:^|[^A-Z0-9\-_]|[^A-Z0-9\-]_|sprd-|MZ-)(?:MicroMessenger/([\d.]+))";
  "(?i)(?:^|[^A-Z0-9\-_]|[^A-Z0-9\-]_|sprd-|MZ-)(?:WeChat/([\d.]+))";
  "(?i)(?:^|[^A-Z0-9\-_]|[^A-Z0-9\-]_|sprd-|MZ-)(?:WeChatShareExtensionNew/([\d.]+))";
  "(?i)(?:^|[^A-Z0-9\-_]|[^A-Z0-9\-]_|sprd-|MZ-)(?:DingTalk/([0-9.]+))";
  "(?i)(?:^|[^A-Z0-9\-_]|[^A-Z0-9\-]_|sprd-|MZ-)(?:.*__weibo__([0-9.]+)__)"
].
Definition d_cr_re_4 : list blob := [
  "(?i)(?:^|[^A-Z0-9\-_]|[^A-Z0-9\-]_|sprd-|MZ-)(?:Pinterest(?: for (?:Android(?: Tablet)?|iOS))?(?:/([\d.]+))?)";
  "(?i)(?:^|[^A-Z0-9\-_]|[^A-Z0-9\-]_|sprd-|MZ-)(?:com\.google\.(?:android|ios)\.youtube(?:/([\d.]+))?)";
  "(?i)(?:^|[^A-Z0-9\-_]|[^A-Z0-9\-]_|sprd-|MZ-)(?:YouTube/([\d.]+)[JK])";
  "(?i)(?:^|[^A-Z0-9\-_]|[^A-Z0-9\-]_|sprd-|MZ-)(?:Rutube(?:TV)?BlackAndroid)";
  "(?i)(?:^|[^A-Z0-9\-_]|[^A-Z0-9\-]_|sprd-|MZ-)(?:com\.netflix\.mediaclient(?:/(\d+\.[\d.]+))?)";
  "(?i)(?:^|[^A-Z0-9\-_]|[^A-Z0-9\-]_|sprd-|MZ-)(?:Downcast/(\d+\.[\d.]+)?(?:.+(?:!Mac)|$))";
  "(?i)(?:^|[^A-Z0-9\-_]|[^A-Z0-9\-]_|sprd-|MZ-)(?:Flipp-iOS/.+CFNetwork)";
  "(?i)(?:^|[^A-Z0-9\-_]|[^A-Z0-9\-]_|sprd-|MZ-)(?:Flipp-iOS/(\d+[.\d]+))";
  "(?i)(?:^|[^A-Z0-9\-_]|[^A-Z0-9\-]_|sprd-|MZ-)(?:WhatsApp(?:/2)?$)";
  "(?i)(?:^|[^A-Z0-9\-_]|[^A-Z0-9\-]_|sprd-|MZ-)(?:WhatsApp/([\d.]+).+CloudAPI)";
  "(?i)(?:^|[^A-Z0-9\-_]|[^A-Z0-9\-]_|sprd-|MZ-)(?:WhatsApp(?:Electron|\-app|\-linux-app)?(?:[ /]([\d.]+))?)";
  "(?i)(?:^|[^A-Z0-9\-_]|[^A-Z0-9\-]_|sprd-|MZ-)(?:YoWhatsApp2Plus(?:/(\d+[.\d]+))?)";
  "(?i)(?:^|[^A-Z0-9\-_]|[^A-Z0-9\-]_|sprd-|MZ-)(?:YoFMWhatsApp(?:/(\d+[.\d]+))?)";
  "(?i)(?:^|[^A-Z0-9\-_]|[^A-Z0-9\-]_|sprd-|MZ-)(?:(?:Yo)?GBWhatsApp(?:/(\d+[.\d]+))?)";
  "(?i)(?:^|[^A-Z0-9\-_]|[^A-Z0-9\-]_|sprd-|MZ-)(?:YoYoWhatsApp(?:/(\d+[.\d]+))?)";
  "(?i)(?:^|[^A-Z0-9\-_]|[^A-Z0-9\-]_|sprd-|MZ-)(?:ANWhatsApp(?:/(\d+[.\d]+))?)";
  "(?i)(?:^|[^A-Z0-9\-_]|[^A-Z0-9\-]_|sprd-|MZ-)(?:Telegram/(\d+[.\d]+) CFNetwork)";
  "(?i)(?:^|[^A-Z0-9\-_]|[^A-Z0-9\-]_|sprd-|MZ-)(?:(?:^com\.google\.android\.apps\.youtube\.music/|^YouTubeMusic(?:Dev)?/)([\d.]+)?)";
  "(?i)(?:^|[^A-Z0-9\-_]|[^A-Z0-9\-]_|sprd-|MZ-)(?:Line(?:[ /]([\d.]+)))";
  "(?i)(?:^|[^A-Z0-9\-_]|[^A-Z0-9\-]_|sprd-|MZ-)(?:Instacast(?:HD)?/([\d\.abc]+) CFNetwork/([\d.]+) Darwin/([\d.]+))";
  "(?i)(?:^|[^A-Z0-9\-_]|[^A-Z0-9\-]_|sprd-|MZ-)(?:Pocket Casts(?:, (?:Android|iOS) v([\d.]+))?)";
  "(?i)(?:^|[^A-Z0-9\-_]|[^A-Z0-9\-]_|sprd-|MZ-)(?:Podcat/([\d.]+))";
  "(?i)(?:^|[^A-Z0-9\-_]|[^A-Z0-9\-]_|sprd-|MZ-)(?:(?:^Overcast/([\d.]+)|^Overcast.*Apple Watch))";
  "(?i)(?:^|[^A-Z0-9\-_]|[^A-Z0-9\-]_|sprd-|MZ-)(?:(?:CastBox|fm\.castbox\.audiobook\.radio\.podcast)/?([\d.]+)?)";
  "(?i)(?:^|[^A-Z0-9\-_]|[^A-Z0-9\-]_|sprd-|MZ-)(?:Podkicker( (?:Pro|Classic))?/([\d.]+))";
  "(?i)(?:^|[^A-Z0-9\-_]|[^A-Z0-9\-]_|sprd-|MZ-)(?:PodcastRepublic/([\d.]+))";
  "(?i)(?:^|[^A-Z0-9\-_]|[^A-Z0-9\-]_|sprd-|MZ-)(?:Castro/(\d+))";
  "(?i)(?:^|[^A-Z0-9\-_]|[^A-Z0-9\-]_|sprd-|MZ-)(?:Castro 2 ([\d.]+)/[\d]+ Like iTunes)";
  "(?i)(?:^|[^A-Z0-9\-_]|[^A-Z0-9\-]_|sprd-|MZ-)(?:(?:PodcastAddict/v([\d]+)|^Podcast Addict))";
  "(?i)(?:^|[^A-Z0-9\-_]|[^A-Z0-9\-]_|sprd-|MZ-)(?:Podcat(?:%202)?/([\d]+) CFNetwork)";
  "(?i)(?:^|[^A-Z0-9\-_]|[^A-Z0-9\-]_|sprd-|MZ-)(?:iCatcher[^\d]+([\d.]+))";
  "(?i)(?:^|[^A-Z0-9\-_]|[^A-Z0-9\-]_|sprd-|MZ-)(?:YelpApp/([\d.]+))";
  "(?i)(?:^|[^A-Z0-9\-_]|[^A-Z0-9\-]_|sprd-|MZ-)(?:jp\.co\.yahoo\.(?:android\.yjtop|ipn\.appli)/([\d.]+))";
  "(?i)(?:^|[^A-Z0-9\-_]|[^A-Z0-9\-]_|sprd-|MZ-)(?:RSSRadio/([\d]+)?)";
  "(?i)(?:^|[^A-Z0-9\-_]|[^A-Z0-9\-]_|sprd-|MZ-)(?:SogouSearch Android[\d.]+ version([\d.]+)?)";
  "(?i)(?:^|[^A-Z0-9\-_]|[^A-Z0-9\-]_|sprd-|MZ-)(?:NewsArticle/([\d.]+)?)";
  "(?i)(?:^|[^A-Z0-9\-_]|[^A-Z0-9\-]_|sprd-|MZ-)(?:tieba/([\d.]+)?)";
  "(?i)(?:^|[^A-Z0-9\-_]|[^A-Z0-9\-]_|sprd-|MZ-)(?:com\.douban\.group/([\d.]+)?)";
  "(?i)(?:^|[^A-Z0-9\-_]|[^A-Z0-9\-]_|sprd-|MZ-)(?:(?:com\.google\.GoogleMobile|GSA|GoogleApp)/([\d.]+)?)";
  "(?i)(?:^|[^A-Z0-9\-_]|[^A-Z0-9\-]_|sprd-|MZ-)(?:Google/(\d+[.\d]+)? CFNetwork)";
  "(?i)(?:^|[^A-Z0-9\-_]|[^A-Z0-9\-]_|sprd-|MZ-)(?:(?:Google|SearchWith)Lens/(\d+[.\d]+)?)";
  "(?i)(?:^|[^A-Z0-9\-_]|[^A-Z0-9\-]_|sprd-|MZ-)(?:Flipboard/([\d.]+)?)";
  "(?i)(?:^|[^A-Z0-9\-_]|[^A-Z0-9\-]_|sprd-|MZ-)(?:lite baiduboxapp/([\d.]+)?)";
  "(?i)(?:^|[^A-Z0-9\-_]|[^A-Z0-9\-]_|sprd-|MZ-)(?:baiduboxapp/([\d.]+)?)";
  "(?i)(?:^|[^A-Z0-9\-_]|[^A-Z0-9\-]_|sprd-|MZ-)(?:baiduinput/([\d.]+)?)";
  "(?i)(?:^|[^A-Z0-9\-_]|[^A-Z0-9\-]_|sprd-|MZ-)(?:PetalSearch/([\d.]+)?)";
  "(?i)(?:^|[^A-Z0-9\-_]|[^A-Z0-9\-]_|sprd-|MZ-)(?:Crosswalk/([\d.]+)?)";
  "(?i)(?:^|[^A-Z0-9\-_]|[^A-Z0-9\-]_|sprd-|MZ-)(?:Twitter for iPhone[/]?([\d.]+)?)";
  "(?i)(?:^|[^A-Z0-9\-_]|[^A-Z0-9\-]_|sprd-|MZ-)(?:Twitter/([\d.]+))";
  "(?i)(?:^|[^A-Z0-9\-_]|[^A-Z0-9\-]_|sprd-|MZ-)(?:TwitterAndroid[/]?([\d.]+)?)";
  "(?i)(?:^|[^A-Z0-9\-_]|[^A-Z0-9\-]_|sprd-|MZ-)(?:^Pocket Casts)";
  "(?i)(?:^|[^A-Z0-9\-_]|[^A-Z0-9\-]_|sprd-|MZ-)(?:(?:^GaanaAndroid-|^Gaana-iOS|^Gaana/)([\d.]+)?)";
  "(?i)(?:^|[^A-Z0-9\-_]|[^A-Z0-9\-]_|sprd-|MZ-)(?:TopBuzz/([\d.]+))";
  "(?i)(?:^|[^A-Z0-9\-_]|[^A-Z0-9\-]_|sprd-|MZ-)(?:(?:Safari/[\d.]+)?Snapchat/?([\d.]+))";
  "(?i)(?:^|[^A-Z0-9\-_]|[^A-Z0-9\-]_|sprd-|MZ-)(?:AhaRadio2/([\d.]+))";
  "(?i)(?:^|[^A-Z0-9\-_]|[^A-Z0-9\-]_|sprd-|MZ-)(?:Unibox/([\d.]+))";
  "(?i)(?:^|[^A-Z0-9\-_]|[^A-Z0-9\-]_|sprd-|MZ-)(?:strimio(?:-desktop)/(\d+\.(?:[.\d]+))?)";
  "(?i)(?:^|[^A-Z0-9\-_]|[^A-Z0-9\-]_|sprd-|MZ-)(?:UnityPlayer/([\d.]+))";
  "(?i)(?:^|[^A-Z0-9\-_]|[^A-Z0-9\-]_|sprd-|MZ-)(?:UCURSOS/v([\d.]+))";
  "(?i)(?:^|[^A-Z0-9\-_]|[^A-Z0-9\-]_|sprd-|MZ-)(?:RobloxApp/([\d.]+))";
  "(?i)(?:^|[^A-Z0-9\-_]|[^A-Z0-9\-]_|sprd-|MZ-)(?:Viber(?:/(\d+[.\d]+))?)";
  "(?i)(?:^|[^A-Z0-9\-_]|[^A-Z0-9\-]_|sprd-|MZ-)(?:LinkedIn(?:App)?(?:\]?/([\d.]+))?)";
  "(?i)(?:^|[^A-Z0-9\-_]|[^A-Z0-9\-]_|sprd-|MZ-)(?:Instapaper/([\d.]+))";
  "(?i)(?:^|[^A-Z0-9\-_]|[^A-Z0-9\-]_|sprd-|MZ-)(?:Keeper/([\d.]+))";
  "(?i)(?:^|[^A-Z0-9\-_]|[^A-Z0-9\-]_|sprd-|MZ-)(?:Skyeng Teachers/([\d.]+))";
  "(?i)(?:^|[^A-Z0-9\-_]|[^A-Z0-9\-]_|sprd-|MZ-)(?:Kik/([\d.]+) \(Android)";
  "(?i)(?:^|[^A-Z0-9\-_]|[^A-Z0-9\-]_|sprd-|MZ-)(?:Procast/?([\d.]+)?)";
  "(?i)(?:^|[^A-Z0-9\-_]|[^A-Z0-9\-]_|sprd-|MZ-)(?:DeviantArt/([\d.]+))";
  "(?i)(?:^|[^A-Z0-9\-_]|[^A-Z0-9\-]_|sprd-|MZ-)(?:discord/([\d.]+).+Electron)";
  "(?i)(?:^|[^A-Z0-9\-_]|[^A-Z0-9\-]_|sprd-|MZ-)(?:discord(?:-Updater)?/([\d.]+))";
  "(?i)(?:^|[^A-Z0-9\-_]|[^A-Z0-9\-]_|sprd-|MZ-)(?:Covenant%20Eyes/([\d.]+))";
  "(?i)(?:^|[^A-Z0-9\-_]|[^A-Z0-9\-]_|sprd-|MZ-)(?:HP%20Smart/([\d.]+))";
  "(?i)(?:^|[^A-Z0-9\-_]|[^A-Z0-9\-]_|sprd-|MZ-)(?:Bitsboard/([\d.]+))";
  "(?i)(?:^|[^A-Z0-9\-_]|[^A-Z0-9\-]_|sprd-|MZ-)(?:Betbull/([\d.]+))";
  "(?i)(?:^|[^A-Z0-9\-_]|[^A-Z0-9\-]_|sprd-|MZ-)(?:U-Cursos/([\d.]+))";
  "(?i)(?:^|[^A-Z0-9\-_]|[^A-Z0-9\-]_|sprd-|MZ-)(?:1PasswordThumbs/([\d.]+))";
  "(?i)(?:^|[^A-Z0-9\-_]|[^A-Z0-9\-]_|sprd-|MZ-)(?:(?:Microsoft Office )?(Access|Excel|OneDrive for Business|OneNote|PowerPoint|Project|Publisher|Visio|Word)(?: 20\d{2})?[ /]\(?(\d+\.[\d.]*))";
  "(?i)(?:^|[^A-Z0-9\-_]|[^A-Z0-9\-]_|sprd-|MZ-)(?:^Mozilla/4\.0 \(compatible; ms-office; MSOffice[ /]([\d.]+))";
  "(?i)(?:^|[^A-Z0-9\-_]|[^A-Z0-9\-]_|sprd-|MZ-)(?:Microsoft Office SyncProc ([\d.]+))";
  "(?i)(?:^|[^A-Z0-9\-_]|[^A-Z0-9\-]_|sprd-|MZ-)(?:Microsoft Lync ([\d.]+))";
  "(?i)(?:^|[^A-Z0-9\-_]|[^A-Z0-9\-]_|sprd-|MZ-)(?:Microsoft\.Data\.Mashup)";
  "(?i)(?:^|[^A-Z0-9\-_]|[^A-Z0-9\-]_|sprd-|MZ-)(?:WpsM?office/([\d.]+))";
  "(?i)(?:^|[^A-Z0-9\-_]|[^A-Z0-9\-]_|sprd-|MZ-)(?:OneDriveiOSApp/([\d.]+))";
  "(?i)(?:^|[^A-Z0-9\-_]|[^A-Z0-9\-]_|sprd-|MZ-)(?:(?:Microsoft Office Mobile|officemobile)[ /]([\d.]+))";
  "(?i)(?:^|[^A-Z0-9\-_]|[^A-Z0-9\-]_|sprd-|MZ-)(?:Skype/([\d.]+))";
  "(?i)(?:^|[^A-Z0-9\-_]|[^A-Z0-9\-]_|sprd-|MZ-)(?:OC/([\d.]+) \(Skype for Business\))";
  "(?i)(?:^|[^A-Z0-9\-_]|[^A-Z0-9\-]_|sprd-|MZ-)(?:iPhoneLync/([\d.]+))";
  "(?i)(?:^|[^A-Z0-9\-_]|[^A-Z0-9\-]_|sprd-|MZ-)(?:GroupMe/([\d.]+))";
  "(?i)(?:^|[^A-Z0-9\-_]|[^A-Z0-9\-]_|sprd-|MZ-)(?:AppName/(?:musical_ly|trill) app_version/([\d.]+))";
  "(?i)(?:^|[^A-Z0-9\-_]|[^A-Z0-9\-]_|sprd-|MZ-)(?:(?:TikTok[/ ]|com\.zhiliaoapp\.musically|musical_ly_|trill_)(\d+\.(?:[.\d]+))?)";
  "(?i)(?:^|[^A-Z0-9\-_]|[^A-Z0-9\-]_|sprd-|MZ-)(?:(?:musically_go|ultralite) app_version/([\d.]+))";
  "(?i)(?:^|[^A-Z0-9\-_]|[^A-Z0-9\-]_|sprd-|MZ-)(?:aweme(?: app_version)?/([\d.]+))";
  "(?i)(?:^|[^A-Z0-9\-_]|[^A-Z0-9\-]_|sprd-|MZ-)(?:Copied/(\d+[.\d]+) CFNetwork)";
  "(?i)(?:^|[^A-Z0-9\-_]|[^A-Z0-9\-]_|sprd-|MZ-)(?:Pic%20Collage/(\d+[.\d]+) CFNetwork)";
  "(?i)(?:^|[^A-Z0-9\-_]|[^A-Z0-9\-]_|sprd-|MZ-)(?:Papers/(\d+[.\d]+) CFNetwork)";
  "(?i)(?:^|[^A-Z0-9\-_]|[^A-Z0-9\-]_|sprd-|MZ-)(?:RoboForm/(\d+[.\d]+) CFNetwork)";
  "(?i)(?:^|[^A-Z0-9\-_]|[^A-Z0-9\-]_|sprd-|MZ-)(?:Slack/(\d+[.\d]+) CFNetwork)";
  "(?i)(?:^|[^A-Z0-9\-_]|[^A-Z0-9\-]_|sprd-|MZ-)(?:com\.tinyspeck\.chatlyio/(\d+[.\d]+))";
  "(?i)(?:^|[^A-Z0-9\-_]|[^A-Z0-9\-]_|sprd-|MZ-)(?:KAKAOTALK (\d+\.(?:[.\d]+))?)";
  "(?i)(?:^|[^A-Z0-9\-_]|[^A-Z0-9\-]_|sprd-|MZ-)(?:ShopeeVN/([\d.]+))";
  "(?i)(?:^|[^A-Z0-9\-_]|[^A-Z0-9\-]_|sprd-|MZ-)(?:SPORT1/([\d.]+))";
  "(?i)(?:^|[^A-Z0-9\-_]|[^A-Z0-9\-]_|sprd-|MZ-)(?:Clovia/([\d.]+))";
  "(?i)(?:^|[^A-Z0-9\-_]|[^A-Z0-9\-]_|sprd-|MZ-)(?:ShowMe/([\d.]+))";
  "(?i)(?:^|[^A-Z0-9\-_]|[^A-Z0-9\-]_|sprd-|MZ-)(?:Wattpad/([\d.]+))";
  "(?i)(?:^|[^A-Z0-9\-_]|[^A-Z0-9\-]_|sprd-|MZ-)(?:WSJ/([\d.]+))";
  "(?i)(?:^|[^A-Z0-9\-_]|[^A-Z0-9\-]_|sprd-|MZ-)(?:WH%20Questions/([\d.]+))";
  "(?i)(?:^|[^A-Z0-9\-_]|[^A-Z0-9\-]_|sprd-|MZ-)(?:whisper/([\d.]+))";
  "(?i)(?:^|[^A-Z0-9\-_]|[^A-Z0-9\-]_|sprd-|MZ-)(?:Opal/([\d.]+))";
  "(?i)(?:^|[^A-Z0-9\-_]|[^A-Z0-9\-]_|sprd-|MZ-)(?:Zalo/([\d.]+)|Zalo (?:android|iOS))";
  "(?i)(?:^|[^A-Z0-9\-_]|[^A-Z0-9\-]_|sprd-|MZ-)(?:Yandex/([\d.]+))";
  "(?i)(?:^|[^A-Z0-9\-_]|[^A-Z0-9\-]_|sprd-|MZ-)(?:ZenKit/([\d.]+))";
  "(?i)(?:^|[^A-Z0-9\-_]|[^A-Z0-9\-]_|sprd-|MZ-)(?:Zoho%20Chat/([\d.]+))";
  "(?i)(?:^|[^A-Z0-9\-_]|[^A-Z0-9\-]_|sprd-|MZ-)(?:Thunder/(\d+[.\d]+))";
  "(?i)(?:^|[^A-Z0-9\-_]|[^A-Z0-9\-]_|sprd-|MZ-)(?:CGNBrowser/(\d+[.\d]+))";
  "(?i)(?:^|[^A-Z0-9\-_]|[^A-Z0-9\-]_|sprd-|MZ-)(?:(?:Podbean/.+App |Podbean/Android generic |Podbean/iOS \([^)]+\) )(\d+[.\d]+))";
  "(?i)(?:^|[^A-Z0-9\-_]|[^A-Z0-9\-]_|sprd-|MZ-)(?:TuneIn Radio Pro(?:[^/]*)/(\d+[.\d]+))";
  "(?i)(?:^|[^A-Z0-9\-_]|[^A-Z0-9\-]_|sprd-|MZ-)(?:TuneIn(?:(?: |%20)Radio(?:[^/]*))?/?(\d+[.\d]+)?)";
  "(?i)(?:^|[^A-Z0-9\-_]|[^A-Z0-9\-]_|sprd-|MZ-)(?:devcasts/(\d+[.\d]+))";
  "(?i)(?:^|[^A-Z0-9\-_]|[^A-Z0-9\-]_|sprd-|MZ-)(?:Swoot/(\d+[.\d]+))";
  "(?i)(?:^|[^A-Z0-9\-_]|[^A-Z0-9\-]_|sprd-|MZ-)(?:(?:^RadioPublic[/ ](?:Android|iOS)[- ])(\d+\.[.\d]+))";
  "(?i)(?:^|[^A-Z0-9\-_]|[^A-Z0-9\-]_|sprd-|MZ-)(?:Podimo/(\d+[.\d]+))";
  "(?i)(?:^|[^A-Z0-9\-_]|[^A-Z0-9\-]_|sprd-|MZ-)(?:com\.evolve\.podcast/(\d+[.\d]+))";
  "(?i)(?:^|[^A-Z0-9\-_]|[^A-Z0-9\-]_|sprd-|MZ-)(?:Rocket\.Chat\+?/(\d+[.\d]+))";
  "(?i)(?:^|[^A-Z0-9\-_]|[^A-Z0-9\-]_|sprd-|MZ-)(?:^Pandora Audio.+Android)";
  "(?i)(?:^|[^A-Z0-9\-_]|[^A-Z0-9\-]_|sprd-|MZ-)(?:^WirtschaftsWoche-iOS-(\d+[.\d]+))";
  "(?i)(?:^|[^A-Z0-9\-_]|[^A-Z0-9\-]_|sprd-|MZ-)(?:^TVirl/(\d+[.\d]+))";
  "(?i)(?:^|[^A-Z0-9\-_]|[^A-Z0-9\-]_|sprd-|MZ-)(?:2?chMate/(\d+[.\d]+))";
  "(?i)(?:^|[^A-Z0-9\-_]|[^A-Z0-9\-]_|sprd-|MZ-)(?:2tch/(\d+[.\d]+))";
  "(?i)(?:^|[^A-Z0-9\-_]|[^A-Z0-9\-]_|sprd-|MZ-)(?:Ciisaa/(\d+[.\d]+))";
  "(?i)(?:^|[^A-Z0-9\-_]|[^A-Z0-9\-]_|sprd-|MZ-)(?:BB2C (\d+[.\d]+))";
  "(?i)(?:^|[^A-Z0-9\-_]|[^A-Z0-9\-]_|sprd-|MZ-)(?:twinkle/(\d+[.\d]+))";
  "(?i)(?:^|[^A-Z0-9\-_]|[^A-Z0-9\-]_|sprd-|MZ-)(?:JaneStyle_iOS/(\d+[.\d]+))";
  "(?i)(?:^|[^A-Z0-9\-_]|[^A-Z0-9\-]_|sprd-|MZ-)(?:BNC/.+\(Android (\d+[.\d]+)\))";
  "(?i)(?:^|[^A-Z0-9\-_]|[^A-Z0-9\-]_|sprd-|MZ-)(?:Binance/(\d+[.\d]+))";
  "(?i)(?:^|[^A-Z0-9\-_]|[^A-Z0-9\-]_|sprd-|MZ-)(?:ru\.mail\.my/(\d+[.\d]+))";
  "(?i)(?:^|[^A-Z0-9\-_]|[^A-Z0-9\-]_|sprd-|MZ-)(?:OK(?:Android|iOS)/([\d.]+))";
  "(?i)(?:^|[^A-Z0-9\-_]|[^A-Z0-9\-]_|sprd-|MZ-)(?:yakyak/(\d+[.\d]+))";
  "(?i)(?:^|[^A-Z0-9\-_]|[^A-Z0-9\-]_|sprd-|MZ-)(?:(?:maglev|Teams)/(\d+[.\d]+))";
  "(?i)(?:^|[^A-Z0-9\-_]|[^A-Z0-9\-]_|sprd-|MZ-)(?:TeamsMobile-(?:Android|iOS))";
  "(?i)(?:^|[^A-Z0-9\-_]|[^A-Z0-9\-]_|sprd-|MZ-)(?:SohuNews/(\d+\.[.\d]+))";
  "(?i)(?:^|[^A-Z0-9\-_]|[^A-Z0-9\-]_|sprd-|MZ-)(?:StreamlabsOBS/(\d+[.\d]+))";
  "(?i)(?:^|[^A-Z0-9\-_]|[^A-Z0-9\-]_|sprd-|MZ-)(?:Blitz/([\d.]+))";
  "(?i)(?:^|[^A-Z0-9\-_]|[^A-Z0-9\-]_|sprd-|MZ-)(?:OfferUp/([\d.]+))";
  "(?i)(?:^|[^A-Z0-9\-_]|[^A-Z0-9\-]_|sprd-|MZ-)(?:Vuhuv/([\d.]+))";
  "(?i)(?:^|[^A-Z0-9\-_]|[^A-Z0-9\-]_|sprd-|MZ-)(?:.+/(?:gfibertv|gftv200)-([\d]+)-)";
  "(?i)(?:^|[^A-Z0-9\-_]|[^A-Z0-9\-]_|sprd-|MZ-)(?:QuickCast$)";
  "(?i)(?:^|[^A-Z0-9\-_]|[^A-Z0-9\-]_|sprd-|MZ-)(?:Aliexpress(?:Android)?/([\d.]+))";
  "(?i)(?:^|[^A-Z0-9\-_]|[^A-Z0-9\-]_|sprd-|MZ-)(?:(?:lazada_android|AliApp\(LA)[/ _](\d+\.[\d.]+))";
  "(?i)(?:^|[^A-Z0-9\-_]|[^A-Z0-9\-]_|sprd-|MZ-)(?:(?:taobao_android|AliApp\(TB)[/ _](\d+\.[\d.]+))";
  "(?i)(?:^|[^A-Z0-9\-_]|[^A-Z0-9\-]_|sprd-|MZ-)(?:(?:AlipayClient|AliApp\(AP)[/ _](\d+\.[\d.]+))";
  "(?i)(?:^|[^A-Z0-9\-_]|[^A-Z0-9\-]_|sprd-|MZ-)(?:Blue Proxy/([\d.]+))";
  "(?i)(?:^|[^A-Z0-9\-_]|[^A-Z0-9\-]_|sprd-|MZ-)(?:GitHub ?Desktop/([\d.]+))";
  "(?i)(?:^|[^A-Z0-9\-_]|[^A-Z0-9\-]_|sprd-|MZ-)(?:logioptionsplus/([\d.]+))";
  "(?i)(?:^|[^A-Z0-9\-_]|[^A-Z0-9\-]_|sprd-|MZ-)(?:EmbyTheater/([\d.]+))";
  "(?i)(?:^|[^A-Z0-9\-_]|[^A-Z0-9\-]_|sprd-|MZ-)(?:y8-browser/([\d.]+))";
  "(?i)(?:^|[^A-Z0-9\-_]|[^A-Z0-9\-]_|sprd-|MZ-)(?:NuMuKiBrowser/([\d.]+))";
  "(?i)(?:^|[^A-Z0-9\-_]|[^A-Z0-9\-]_|sprd-|MZ-)(?:LandisGyrAIMbrowser/(\d+[.\d]+))";
  "(?i)(?:^|[^A-Z0-9\-_]|[^A-Z0-9\-]_|sprd-|MZ-)(?:(?:Code/|VSCode )(\d+[.\d]+))";
  "(?i)(?:^|[^A-Z0-9\-_]|[^A-Z0-9\-]_|sprd-|MZ-)(?:Wireshark/(\d+[.\d]+))";
  "(?i)(?:^|[^A-Z0-9\-_]|[^A-Z0-9\-]_|sprd-|MZ-)(?:git/(\d+[.\d]+))";
  "(?i)(?:^|[^A-Z0-9\-_]|[^A-Z0-9\-]_|sprd-|MZ-)(?:^GooglePodcasts/(\d+\.[.\d]+))";
  "(?i)(?:^|[^A-Z0-9\-_]|[^A-Z0-9\-]_|sprd-|MZ-)(?:Microsoft-CryptoAPI/(\d+[.\d]+))";
  "(?i)(?:^|[^A-Z0-9\-_]|[^A-Z0-9\-]_|sprd-|MZ-)(?:^MSDW)";
  "(?i)(?:^|[^A-Z0-9\-_]|[^A-Z0-9\-]_|sprd-|MZ-)(?:qBittorrent/(\d+[.\d]+))";
  "(?i)(?:^|[^A-Z0-9\-_]|[^A-Z0-9\-]_|sprd-|MZ-)(?:^CPUID)";
  "(?i)(?:^|[^A-Z0-9\-_]|[^A-Z0-9\-]_|sprd-|MZ-)(?:HandBrake Win Upd (\d+[.\d]+))";
  "(?i)(?:^|[^A-Z0-9\-_]|[^A-Z0-9\-]_|sprd-|MZ-)(?:CCleaner, (\d+[.\d]+))";
  "(?i)(?:^|[^A-Z0-9\-_]|[^A-Z0-9\-]_|sprd-|MZ-)(?:Microsoft Edge Update/(\d+[.\d]+))";
  "(?i)(?:^|[^A-Z0-9\-_]|[^A-Z0-9\-]_|sprd-|MZ-)(?:Google(?:Software| )Update/(\d+[.\d]+))";
  "(?i)(?:^|[^A-Z0-9\-_]|[^A-Z0-9\-]_|sprd-|MZ-)(?:Cortana (\d+[.\d]+))";
  "(?i)(?:^|[^A-Z0-9\-_]|[^A-Z0-9\-]_|sprd-|MZ-)(?:Opera News/(\d+[.\d]+))";
  "(?i)(?:^|[^A-Z0-9\-_]|[^A-Z0-9\-]_|sprd-|MZ-)(?:(?:Acrobat|ReaderServices)/(\d+[.\d]+))";
  "(?i)(?:^|[^A-Z0-9\-_]|[^A-Z0-9\-]_|sprd-|MZ-)(?:CreativeCloud/(\d+[.\d]+))";
  "(?i)(?:^|[^A-Z0-9\-_]|[^A-Z0-9\-]_|sprd-|MZ-)(?:rekordbox/(\d+[.\d]+))";
  "(?i)(?:^|[^A-Z0-9\-_]|[^A-Z0-9\-]_|sprd-|MZ-)(?:Microsoft-WNS/(\d+[.\d]+))";
  "(?i)(?:^|[^A-Z0-9\-_]|[^A-Z0-9\-]_|sprd-|MZ-)(?:Microsoft BITS/(\d+[.\d]+))";
  "(?i)(?:^|[^A-Z0-9\-_]|[^A-Z0-9\-]_|sprd-|MZ-)(?:EpicGamesLauncher/(\d+[.\d]+))";
  "(?i)(?:^|[^A-Z0-9\-_]|[^A-Z0-9\-]_|sprd-|MZ-)(?:Battle\.net/(\d+[.\d]+))";
  "(?i)(?:^|[^A-Z0-9\-_]|[^A-Z0-9\-]_|sprd-|MZ-)(?:Bookshelf-Android/(\d+[.\d]+))";
  "(?i)(?:^|[^A-Z0-9\-_]|[^A-Z0-9\-]_|sprd-|MZ-)(?:RaveSocial/(\d+[.\d]+))";
  "(?i)(?:^|[^A-Z0-9\-_]|[^A-Z0-9\-]_|sprd-|MZ-)(?:wordcookies/(\d+[.\d]+))";
  "(?i)(?:^|[^A-Z0-9\-_]|[^A-Z0-9\-]_|sprd-|MZ-)(?:com\.meevii\.bibleKJV/(\d+[.\d]+))";
  "(?i)(?:^|[^A-Z0-9\-_]|[^A-Z0-9\-]_|sprd-|MZ-)(?:MetaTrader 5 Terminal/(\d+[.\d]+))";
  "(?i)(?:^|[^A-Z0-9\-_]|[^A-Z0-9\-]_|sprd-|MZ-)(?:com\.paint\.bynumber/(\d+[.\d]+))";
  "(?i)(?:^|[^A-Z0-9\-_]|[^A-Z0-9\-]_|sprd-|MZ-)(?:zepeto_global/(\d+[.\d]+))";
  "(?i)(?:^|[^A-Z0-9\-_]|[^A-Z0-9\-]_|sprd-|MZ-)(?:(?:mirall|Nextcloud-android)/(\d+[.\d]+))";
  "(?i)(?:^|[^A-Z0-9\-_]|[^A-Z0-9\-]_|sprd-|MZ-)(?:GoNativeIOS/(\d+[.\d]+))";
  "(?i)(?:^|[^A-Z0-9\-_]|[^A-Z0-9\-]_|sprd-|MZ-)(?:Pandora/(\d+[.\d]+))";
  "(?i)(?:^|[^A-Z0-9\-_]|[^A-Z0-9\-]_|sprd-|MZ-)(?:Blackboard/(\d+[.\d]+)?)";
  "(?i)(?:^|[^A-Z0-9\-_]|[^A-Z0-9\-]_|sprd-|MZ-)(?:TIM/(\d+[.\d]+))";
  "(?i)(?:^|[^A-Z0-9\-_]|[^A-Z0-9\-]_|sprd-|MZ-)(?:TencentDocs/(\d+[.\d]+))";
  "(?i)(?:^|[^A-Z0-9\-_]|[^A-Z0-9\-]_|sprd-|MZ-)(?:QQ/(\d+[.\d]+) V1_IPH_SQ_)";
  "(?i)(?:^|[^A-Z0-9\-_]|[^A-Z0-9\-]_|sprd-|MZ-)(?:QQMusic/(\d+[.\d]+))";
  "(?i)(?:^|[^A-Z0-9\-_]|[^A-Z0-9\-]_|sprd-|MZ-)(?:Avid Link Desktop App/(\d+[.\d]+))";
  "(?i)(?:^|[^A-Z0-9\-_]|[^A-Z0-9\-]_|sprd-|MZ-)(?:Netflix/(\d+[.\d]+))";
  "(?i)(?:^|[^A-Z0-9\-_]|[^A-Z0-9\-]_|sprd-|MZ-)(?:GoogleTagManager/(\d+[.\d]+))";
  "(?i)(?:^|[^A-Z0-9\-_]|[^A-Z0-9\-]_|sprd-|MZ-)(?:Adobe Synchronizer (\d+[.\d]+))";
  "(?i)(?:^|[^A-Z0-9\-_]|[^A-Z0-9\-]_|sprd-|MZ-)(?:BlueStacks(?: 5)?/(\d+[.\d]+))";
  "(?i)(?:^|[^A-Z0-9\-_]|[^A-Z0-9\-]_|sprd-|MZ-)(?:WindowsPowerShell/(\d+[.\d]+))";
  "(?i)(?:^|[^A-Z0-9\-_]|[^A-Z0-9\-]_|sprd-|MZ-)(?:PAN GlobalProtect/(\d+[.\d]+))"
].
Definition d_cr_re_5 : list blob := [
  "(?i)(?:^|[^A-Z0-9\-_]|[^A-Z0-9\-]_|sprd-|MZ-)(?:Theyub v(\d+[.\d]+))";
  "(?i)(?:^|[^A-Z0-9\-_]|[^A-Z0-9\-]_|sprd-|MZ-)(?:BBCNewsUKWatchApp/(\d+[.\d]+))";
  "(?i)(?:^|[^A-Z0-9\-_]|[^A-Z0-9\-]_|sprd-|MZ-)(?:TradingView/(\d+[.\d]+))";
  "(?i)(?:^|[^A-Z0-9\-_]|[^A-Z0-9\-]_|sprd-|MZ-)(?:Instabridge(?:/([\d.]+))?)";
  "(?i)(?:^|[^A-Z0-9\-_]|[^A-Z0-9\-]_|sprd-|MZ-)(?:Be Focused/(\d+\.[.\d]+)?)";
  "(?i)(?:^|[^A-Z0-9\-_]|[^A-Z0-9\-]_|sprd-|MZ-)(?:Focus Matrix/(\d+\.[.\d]+)?)";
  "(?i)(?:^|[^A-Z0-9\-_]|[^A-Z0-9\-]_|sprd-|MZ-)(?:Focuskeeper/(\d+\.[.\d]+)?)";
  "(?i)(?:^|[^A-Z0-9\-_]|[^A-Z0-9\-]_|sprd-|MZ-)(?:Asus Update/(\d+\.[.\d]+))";
  "(?i)(?:^|[^A-Z0-9\-_]|[^A-Z0-9\-]_|sprd-|MZ-)(?:imoAndroid/(20\d{2}\.[.\d]+))";
  "(?i)(?:^|[^A-Z0-9\-_]|[^A-Z0-9\-]_|sprd-|MZ-)(?:imoAndroid/(\d+\.[.\d]+))";
  "(?i)(?:^|[^A-Z0-9\-_]|[^A-Z0-9\-]_|sprd-|MZ-)(?:(?:Bing)?Sapphire/(\d+\.[.\d]+))";
  "(?i)(?:^|[^A-Z0-9\-_]|[^A-Z0-9\-]_|sprd-|MZ-)(?:BingWeb(?:/([\d.]+))?|bingipadclient)";
  "(?i)(?:^|[^A-Z0-9\-_]|[^A-Z0-9\-]_|sprd-|MZ-)(?:NewsSapphire/(\d+\.[.\d]+))";
  "(?i)(?:^|[^A-Z0-9\-_]|[^A-Z0-9\-]_|sprd-|MZ-)(?:CopilotSapphire/(\d+\.[.\d]+))";
  "(?i)(?:^|[^A-Z0-9\-_]|[^A-Z0-9\-]_|sprd-|MZ-)(?:.+HiSearch/(\d+\.[.\d]+))";
  "(?i)(?:^|[^A-Z0-9\-_]|[^A-Z0-9\-]_|sprd-|MZ-)(?:RDDocuments/(\d+\.[.\d]+))";
  "(?i)(?:^|[^A-Z0-9\-_]|[^A-Z0-9\-]_|sprd-|MZ-)(?:FSCDCSafe[ /](\d+\.[.\d]+))";
  "(?i)(?:^|[^A-Z0-9\-_]|[^A-Z0-9\-]_|sprd-|MZ-)(?:com\.Nanoteq\.QmunicateH10p.+/(\d+\.[.\d]+) \()";
  "(?i)(?:^|[^A-Z0-9\-_]|[^A-Z0-9\-]_|sprd-|MZ-)(?:NET\.mede)";
  "(?i)(?:^|[^A-Z0-9\-_]|[^A-Z0-9\-]_|sprd-|MZ-)(?:(Millennium/|Millennium%20Corp))";
  "(?i)(?:^|[^A-Z0-9\-_]|[^A-Z0-9\-]_|sprd-|MZ-)(?:(MEmpresas|Millennium%20Empresas))";
  "(?i)(?:^|[^A-Z0-9\-_]|[^A-Z0-9\-]_|sprd-|MZ-)(?:OrangeRadio/(\d+\.[.\d]+))";
  "(?i)(?:^|[^A-Z0-9\-_]|[^A-Z0-9\-]_|sprd-|MZ-)(?:Radio%20Italiane/(\d+\.[.\d]+))";
  "(?i)(?:^|[^A-Z0-9\-_]|[^A-Z0-9\-]_|sprd-|MZ-)(?:com\.apple\.Safari\.SearchHelper/(\d+\.[.\d]+))";
  "(?i)(?:^|[^A-Z0-9\-_]|[^A-Z0-9\-]_|sprd-|MZ-)(?:com\.mercbank\.s1mobileipad)";
  "(?i)(?:^|[^A-Z0-9\-_]|[^A-Z0-9\-]_|sprd-|MZ-)(?:Windows Antivirus (\d+\.[.\d]+))";
  "(?i)(?:^|[^A-Z0-9\-_]|[^A-Z0-9\-]_|sprd-|MZ-)(?:^Reflect)";
  "(?i)(?:^|[^A-Z0-9\-_]|[^A-Z0-9\-]_|sprd-|MZ-)(?:Ballz/(\d+\.[.\d]+))";
  "(?i)(?:^|[^A-Z0-9\-_]|[^A-Z0-9\-]_|sprd-|MZ-)(?:rnps-action-cards/(\d+\.[.\d]+))";
  "(?i)(?:^|[^A-Z0-9\-_]|[^A-Z0-9\-]_|sprd-|MZ-)(?:PlexMediaServer/(\d+\.[.\d]+))";
  "(?i)(?:^|[^A-Z0-9\-_]|[^A-Z0-9\-]_|sprd-|MZ-)(?:Surfshark(?:Android)?/([\d.]+))";
  "(?i)(?:^|[^A-Z0-9\-_]|[^A-Z0-9\-]_|sprd-|MZ-)(?:APP/yym-hago-and(\d+\.[.\d]+))";
  "(?i)(?:^|[^A-Z0-9\-_]|[^A-Z0-9\-]_|sprd-|MZ-)(?:Azureus (\d+\.[.\d]+))";
  "(?i)(?:^|[^A-Z0-9\-_]|[^A-Z0-9\-]_|sprd-|MZ-)(?:Adobe NGL|NGL Client/(\d+\.[.\d]+))";
  "(?i)(?:^|[^A-Z0-9\-_]|[^A-Z0-9\-]_|sprd-|MZ-)(?:/Satoshi:(\d+\.[.\d]+)/)";
  "(?i)(?:^|[^A-Z0-9\-_]|[^A-Z0-9\-]_|sprd-|MZ-)(?:/Shibetoshi:(\d+\.[.\d]+)/)";
  "(?i)(?:^|[^A-Z0-9\-_]|[^A-Z0-9\-]_|sprd-|MZ-)(?:Amazon\.com/(\d+\.[.\d]+))";
  "(?i)(?:^|[^A-Z0-9\-_]|[^A-Z0-9\-]_|sprd-|MZ-)(?:de\.mobile\.android\.app/(\d+\.[.\d]+))";
  "(?i)(?:^|[^A-Z0-9\-_]|[^A-Z0-9\-]_|sprd-|MZ-)(?:de\.mobile\.android\.app/(.*) \((\d+\.[.\d]+)\))";
  "(?i)(?:^|[^A-Z0-9\-_]|[^A-Z0-9\-]_|sprd-|MZ-)(?:Waste My Time! Extension/(\d+\.[.\d]+))";
  "(?i)(?:^|[^A-Z0-9\-_]|[^A-Z0-9\-]_|sprd-|MZ-)(?:1Password/(\d+\.[.\d]+))";
  "(?i)(?:^|[^A-Z0-9\-_]|[^A-Z0-9\-]_|sprd-|MZ-)(?:OneSearch/(\d+\.[.\d]+))";
  "(?i)(?:^|[^A-Z0-9\-_]|[^A-Z0-9\-]_|sprd-|MZ-)(?:Anonymisiert durch AlMiSoft)";
  "(?i)(?:^|[^A-Z0-9\-_]|[^A-Z0-9\-]_|sprd-|MZ-)(?:DaumApps/(\d+\.[.\d]+)?)";
  "(?i)(?:^|[^A-Z0-9\-_]|[^A-Z0-9\-]_|sprd-|MZ-)(?:Reddit/Version (\d+\.[.\d]+)/)";
  "(?i)(?:^|[^A-Z0-9\-_]|[^A-Z0-9\-]_|sprd-|MZ-)(?:TuyaSmart/(\d+\.[.\d]+))";
  "(?i)(?:^|[^A-Z0-9\-_]|[^A-Z0-9\-]_|sprd-|MZ-)(?:(?:Spotify(?:-Lite)?/(\d+\.[.\d]+|12\d+)|^spotify_))";
  "(?i)(?:^|[^A-Z0-9\-_]|[^A-Z0-9\-]_|sprd-|MZ-)(?:(?:AmazonMusic|^Harley)(?:(?:%2F|/)(\d+\.[.\d]+))?)";
  "(?i)(?:^|[^A-Z0-9\-_]|[^A-Z0-9\-]_|sprd-|MZ-)(?:Klarna/(\d+\.[.\d]+)?)";
  "(?i)(?:^|[^A-Z0-9\-_]|[^A-Z0-9\-]_|sprd-|MZ-)(?:^R/(\d+[.\d]+))";
  "(?i)(?:^|[^A-Z0-9\-_]|[^A-Z0-9\-]_|sprd-|MZ-)(?:^(?:Audible, Android, |com\.audible\.playersdk\.player/|Audible/)(\d+\.[.\d]+)?)";
  "(?i)(?:^|[^A-Z0-9\-_]|[^A-Z0-9\-]_|sprd-|MZ-)(?:Overcast/?(\d+\.[.\d]+)? \(\+http://overcast\.fm/; (?:Apple Watch|iOS) podcast)";
  "(?i)(?:^|[^A-Z0-9\-_]|[^A-Z0-9\-]_|sprd-|MZ-)(?:^HTTPrequestmaker)";
  "(?i)(?:^|[^A-Z0-9\-_]|[^A-Z0-9\-]_|sprd-|MZ-)(?:^bonprix mobile App (\d+\.[.\d]+))";
  "(?i)(?:^|[^A-Z0-9\-_]|[^A-Z0-9\-]_|sprd-|MZ-)(?:Safari Quora (\d+\.[.\d]+))";
  "(?i)(?:^|[^A-Z0-9\-_]|[^A-Z0-9\-]_|sprd-|MZ-)(?:RelesysApp/(\d+\.[.\d]+) \(\d{1,2}\) net\.relesysapp\.jj2go)";
  "(?i)(?:^|[^A-Z0-9\-_]|[^A-Z0-9\-]_|sprd-|MZ-)(?:MyWatchParty/(\d+\.[.\d]+))";
  "(?i)(?:^|[^A-Z0-9\-_]|[^A-Z0-9\-]_|sprd-|MZ-)(?:LoseIt!/(\d+\.[.\d]+))";
  "(?i)(?:^|[^A-Z0-9\-_]|[^A-Z0-9\-]_|sprd-|MZ-)(?:ActionExtension/([\d.]+))";
  "(?i)(?:^|[^A-Z0-9\-_]|[^A-Z0-9\-]_|sprd-|MZ-)(?:^Adori(?:-Dev|-Listen)?/([\d.]+))";
  "(?i)(?:^|[^A-Z0-9\-_]|[^A-Z0-9\-]_|sprd-|MZ-)(?:^Agora/([\d.]+))";
  "(?i)(?:^|[^A-Z0-9\-_]|[^A-Z0-9\-]_|sprd-|MZ-)(?:^Airr(?:%20Beta)?/([\d.]+)|^Airr \()";
  "(?i)(?:^|[^A-Z0-9\-_]|[^A-Z0-9\-]_|sprd-|MZ-)(?:^Airsonic/(\d+\.[.\d]+))";
  "(?i)(?:^|[^A-Z0-9\-_]|[^A-Z0-9\-]_|sprd-|MZ-)(?:(?:AllYouCanBooksApp|^AllYouCanBooks/([\d.]+)))";
  "(?i)(?:^|[^A-Z0-9\-_]|[^A-Z0-9\-]_|sprd-|MZ-)(?:^AllHitMusicRadio/([\d.]+))";
  "(?i)(?:^|[^A-Z0-9\-_]|[^A-Z0-9\-]_|sprd-|MZ-)(?:^Amazon;AF)";
  "(?i)(?:^|[^A-Z0-9\-_]|[^A-Z0-9\-]_|sprd-|MZ-)(?:^Anchor/([\d.]+))";
  "(?i)(?:^|[^A-Z0-9\-_]|[^A-Z0-9\-]_|sprd-|MZ-)(?:^AnchorFM/(\d+\.[.\d]+))";
  "(?i)(?:^|[^A-Z0-9\-_]|[^A-Z0-9\-]_|sprd-|MZ-)(?:(?:^Anghami Android |^Anghami/|^أنغامي/)([\d.]+))";
  "(?i)(?:^|[^A-Z0-9\-_]|[^A-Z0-9\-]_|sprd-|MZ-)(?:(?:^AntennaPod/|^de\.danoeh\.antennapod/|antenna/)([\d.]+)?)";
  "(?i)(?:^|[^A-Z0-9\-_]|[^A-Z0-9\-]_|sprd-|MZ-)(?:^Anybox/([\d.]+))";
  "(?i)(?:^|[^A-Z0-9\-_]|[^A-Z0-9\-]_|sprd-|MZ-)(?:^Anytime/(\d+\.[.\d]+).*amugofjava)";
  "(?i)(?:^|[^A-Z0-9\-_]|[^A-Z0-9\-]_|sprd-|MZ-)(?:^APKXDL)";
  "(?i)(?:^|[^A-Z0-9\-_]|[^A-Z0-9\-]_|sprd-|MZ-)(?:^Apollo/([\d.]+))";
  "(?i)(?:^|[^A-Z0-9\-_]|[^A-Z0-9\-]_|sprd-|MZ-)(?:(?:^MessagesViewService/|^Messages/|^Messages Share Extension/|^MessagesNotificationExtension/)([\d.]+))";
  "(?i)(?:^|[^A-Z0-9\-_]|[^A-Z0-9\-]_|sprd-|MZ-)(?:(?:^Podcasts/|^Balados/|^Podcasti/|^Podcastit/|^Podcasturi/|^Podcasty/|^Podcast’ler/|^Podkaster/|^Podcaster/|^Podcastok/|^Подкасти/|^Подкасты/|^פודקאסטים/|^البودكاست/|^पॉडकास्ट/|^พ็อดคาสท์/|^播客/|^팟캐스트/|^ポッドキャスト/|^إسمعلي/|^Подкасттар/|^Podcast/|AirPodcasts/)([\d.]+)?)";
  "(?i)(?:^|[^A-Z0-9\-_]|[^A-Z0-9\-]_|sprd-|MZ-)(?:^Recordatorios/([\d.]+))";
  "(?i)(?:^|[^A-Z0-9\-_]|[^A-Z0-9\-]_|sprd-|MZ-)(?:^Arvocast/([\d.]+))";
  "(?i)(?:^|[^A-Z0-9\-_]|[^A-Z0-9\-]_|sprd-|MZ-)(?:^Radio\.com/(\d+\.[.\d]+))";
  "(?i)(?:^|[^A-Z0-9\-_]|[^A-Z0-9\-]_|sprd-|MZ-)(?:^Audio/([\d.]+))";
  "(?i)(?:^|[^A-Z0-9\-_]|[^A-Z0-9\-]_|sprd-|MZ-)(?:^Android_AudioNow)";
  "(?i)(?:^|[^A-Z0-9\-_]|[^A-Z0-9\-]_|sprd-|MZ-)(?:^Awasu/(\d+\.[.\d]+))";
  "(?i)(?:^|[^A-Z0-9\-_]|[^A-Z0-9\-]_|sprd-|MZ-)(?:^Bear/([\d.]+))";
  "(?i)(?:^|[^A-Z0-9\-_]|[^A-Z0-9\-]_|sprd-|MZ-)(?:^Bible/([\d.]+))";
  "(?i)(?:^|[^A-Z0-9\-_]|[^A-Z0-9\-]_|sprd-|MZ-)(?:^Bolt/([\d.]+))";
  "(?i)(?:^|[^A-Z0-9\-_]|[^A-Z0-9\-]_|sprd-|MZ-)(?:^Bookmobile/([\d.]+))";
  "(?i)(?:^|[^A-Z0-9\-_]|[^A-Z0-9\-]_|sprd-|MZ-)(?:^Boom/([\d.]+))";
  "(?i)(?:^|[^A-Z0-9\-_]|[^A-Z0-9\-]_|sprd-|MZ-)(?:^Boomplay/(\d+\.[.\d]+))";
  "(?i)(?:^|[^A-Z0-9\-_]|[^A-Z0-9\-]_|sprd-|MZ-)(?:^Bose/(\d+\.[.\d]+))";
  "(?i)(?:^|[^A-Z0-9\-_]|[^A-Z0-9\-]_|sprd-|MZ-)(?:^bPod$)";
  "(?i)(?:^|[^A-Z0-9\-_]|[^A-Z0-9\-]_|sprd-|MZ-)(?:^breez/(\d+\.[.\d]+))";
  "(?i)(?:^|[^A-Z0-9\-_]|[^A-Z0-9\-]_|sprd-|MZ-)(?:^Broadcast/(\d+\.[.\d]+))";
  "(?i)(?:^|[^A-Z0-9\-_]|[^A-Z0-9\-]_|sprd-|MZ-)(?:^(?:Browser|browser_iso)/([\d.]+))";
  "(?i)(?:^|[^A-Z0-9\-_]|[^A-Z0-9\-]_|sprd-|MZ-)(?:^BrowserPlus/([\d.]+))";
  "(?i)(?:^|[^A-Z0-9\-_]|[^A-Z0-9\-]_|sprd-|MZ-)(?:^Bullhorn(?:/([\d.]+))?)";
  "(?i)(?:^|[^A-Z0-9\-_]|[^A-Z0-9\-]_|sprd-|MZ-)(?:^Capital/([\d.]+))";
  "(?i)(?:^|[^A-Z0-9\-_]|[^A-Z0-9\-]_|sprd-|MZ-)(?:^capsule\.fm/([\d.]+)|^capsule-android)";
  "(?i)(?:^|[^A-Z0-9\-_]|[^A-Z0-9\-]_|sprd-|MZ-)(?:^Castamatic/([\d.]+))";
  "(?i)(?:^|[^A-Z0-9\-_]|[^A-Z0-9\-]_|sprd-|MZ-)(?:^Castaway/([\d.]+))";
  "(?i)(?:^|[^A-Z0-9\-_]|[^A-Z0-9\-]_|sprd-|MZ-)(?:^CastBox/(\d+\.[.\d]+))";
  "(?i)(?:^|[^A-Z0-9\-_]|[^A-Z0-9\-]_|sprd-|MZ-)(?:^Classic FM/([\d.]+))";
  "(?i)(?:^|[^A-Z0-9\-_]|[^A-Z0-9\-]_|sprd-|MZ-)(?:^Client/([\d.]+))";
  "(?i)(?:^|[^A-Z0-9\-_]|[^A-Z0-9\-]_|sprd-|MZ-)(?:^Cosmicast/([\d.]+))";
  "(?i)(?:^|[^A-Z0-9\-_]|[^A-Z0-9\-]_|sprd-|MZ-)(?:CPod/(\d+\.[.\d]+))";
  "(?i)(?:^|[^A-Z0-9\-_]|[^A-Z0-9\-]_|sprd-|MZ-)(?:^damus/([\d.]+))";
  "(?i)(?:^|[^A-Z0-9\-_]|[^A-Z0-9\-]_|sprd-|MZ-)(?:(?:be\.standaard\.audio|^DS podcast/|DS%20Podcast/)([\d.]+)?)";
  "(?i)(?:^|[^A-Z0-9\-_]|[^A-Z0-9\-]_|sprd-|MZ-)(?:^DManager/([\d.]+))";
  "(?i)(?:^|[^A-Z0-9\-_]|[^A-Z0-9\-]_|sprd-|MZ-)(?:^doubleTwist CloudPlayer)";
  "(?i)(?:^|[^A-Z0-9\-_]|[^A-Z0-9\-]_|sprd-|MZ-)(?:^Doughnut/([\d.]+))";
  "(?i)(?:^|[^A-Z0-9\-_]|[^A-Z0-9\-]_|sprd-|MZ-)(?:^Downie/([\d.]+))";
  "(?i)(?:^|[^A-Z0-9\-_]|[^A-Z0-9\-]_|sprd-|MZ-)(?:^Downloader/([\d.]+))";
  "(?i)(?:^|[^A-Z0-9\-_]|[^A-Z0-9\-]_|sprd-|MZ-)(?:^EMAudioPlayer (\d+\.[.\d]+))";
  "(?i)(?:^|[^A-Z0-9\-_]|[^A-Z0-9\-]_|sprd-|MZ-)(?:^Expo/(\d+\.[.\d]+))";
  "(?i)(?:^|[^A-Z0-9\-_]|[^A-Z0-9\-]_|sprd-|MZ-)(?:^CFR%20Plus/([\d.]+))";
  "(?i)(?:^|[^A-Z0-9\-_]|[^A-Z0-9\-]_|sprd-|MZ-)(?:^Fathom/([\d.]+))";
  "(?i)(?:^|[^A-Z0-9\-_]|[^A-Z0-9\-]_|sprd-|MZ-)(?:^FeedStation/(\d+\.[.\d]+))";
  "(?i)(?:^|[^A-Z0-9\-_]|[^A-Z0-9\-]_|sprd-|MZ-)(?:^Files/([\d.]+))";
  "(?i)(?:^|[^A-Z0-9\-_]|[^A-Z0-9\-]_|sprd-|MZ-)(?:^Fountain(?:app)?/([\d.]+))";
  "(?i)(?:^|[^A-Z0-9\-_]|[^A-Z0-9\-]_|sprd-|MZ-)(?:^Garmin fenix 5X Plus/(\d+\.[.\d]+))";
  "(?i)(?:^|[^A-Z0-9\-_]|[^A-Z0-9\-]_|sprd-|MZ-)(?:^Garmin Forerunner (?:\d+)(?: Music| Solar)?/(\d+\.[.\d]+))";
  "(?i)(?:^|[^A-Z0-9\-_]|[^A-Z0-9\-]_|sprd-|MZ-)(?:^Gold/([\d.]+))";
  "(?i)(?:^|[^A-Z0-9\-_]|[^A-Z0-9\-]_|sprd-|MZ-)(?:^GoldenPod/(\d+\.[.\d]+))";
  "(?i)(?:^|[^A-Z0-9\-_]|[^A-Z0-9\-]_|sprd-|MZ-)(?:^GoLoud/([\d.]+))";
  "(?i)(?:^|[^A-Z0-9\-_]|[^A-Z0-9\-]_|sprd-|MZ-)(?:Goodpods(?:\.Android|\.iOS)? ?/ ?([\d.]+))";
  "(?i)(?:^|[^A-Z0-9\-_]|[^A-Z0-9\-]_|sprd-|MZ-)(?:^GoodReader(?:4|IPad)?/([\d.]+))";
  "(?i)(?:^|[^A-Z0-9\-_]|[^A-Z0-9\-]_|sprd-|MZ-)(?:\(Fuchsia\).* CrKey/(:?\d+\.[.\d]+))";
  "(?i)(?:^|[^A-Z0-9\-_]|[^A-Z0-9\-]_|sprd-|MZ-)(?:^Guacamole/([\d.]+))";
  "(?i)(?:^|[^A-Z0-9\-_]|[^A-Z0-9\-]_|sprd-|MZ-)(?:^Hammel/([\d.]+))";
  "(?i)(?:^|[^A-Z0-9\-_]|[^A-Z0-9\-]_|sprd-|MZ-)(?:^HardCast/([\d.]+))";
  "(?i)(?:^|[^A-Z0-9\-_]|[^A-Z0-9\-]_|sprd-|MZ-)(?:^Hark/([\d.]+))";
  "(?i)(?:^|[^A-Z0-9\-_]|[^A-Z0-9\-]_|sprd-|MZ-)(?:^Heart/([\d.]+))";
  "(?i)(?:^|[^A-Z0-9\-_]|[^A-Z0-9\-]_|sprd-|MZ-)(?:hermespod\.com/v?([\d.]+))";
  "(?i)(?:^|[^A-Z0-9\-_]|[^A-Z0-9\-]_|sprd-|MZ-)(?:^HiCast/([\d.]+))";
  "(?i)(?:^|[^A-Z0-9\-_]|[^A-Z0-9\-]_|sprd-|MZ-)(?:^Himalaya(?:_test)?/([\d.]+))";
  "(?i)(?:^|[^A-Z0-9\-_]|[^A-Z0-9\-]_|sprd-|MZ-)(?:^HyperCatcher/([\d.]+))";
  "(?i)(?:^|[^A-Z0-9\-_]|[^A-Z0-9\-]_|sprd-|MZ-)(?:^(?:iHeartRadio|iHeartPodcasts)/([\d.]+))";
  "(?i)(?:^|[^A-Z0-9\-_]|[^A-Z0-9\-]_|sprd-|MZ-)(?:^IOSAudiobooks/([\d.]+))";
  "(?i)(?:^|[^A-Z0-9\-_]|[^A-Z0-9\-]_|sprd-|MZ-)(?:^iVoox(?:App|New)?[ /]?([\d.]+)?)";
  "(?i)(?:^|[^A-Z0-9\-_]|[^A-Z0-9\-]_|sprd-|MZ-)(?:^Jam/(\d+\.[.\d]+))";
  "(?i)(?:^|[^A-Z0-9\-_]|[^A-Z0-9\-]_|sprd-|MZ-)(?:^(?:com\.jio\.media\.jiobeats/(\d+\.[.\d]+)|com\.saavn\.android|^[sS]aavn))";
  "(?i)(?:^|[^A-Z0-9\-_]|[^A-Z0-9\-]_|sprd-|MZ-)(?:KajabiMobileApp|KajabiPodcast)";
  "(?i)(?:^|[^A-Z0-9\-_]|[^A-Z0-9\-]_|sprd-|MZ-)(?:^KakaoTalk/(\d+\.[.\d]+))";
  "(?i)(?:^|[^A-Z0-9\-_]|[^A-Z0-9\-]_|sprd-|MZ-)(?:^Kids(?:%20| )Listen/([\d.]+))";
  "(?i)(?:^|[^A-Z0-9\-_]|[^A-Z0-9\-]_|sprd-|MZ-)(?:^KidspodMobileClient/([\d.]+))";
  "(?i)(?:^|[^A-Z0-9\-_]|[^A-Z0-9\-]_|sprd-|MZ-)(?:^KKBOX/(\d+\.[.\d]+))";
  "(?i)(?:^|[^A-Z0-9\-_]|[^A-Z0-9\-]_|sprd-|MZ-)(?:^(?:Laughable.+iOS|Laughable)/(\d+\.[.\d]+))";
  "(?i)(?:^|[^A-Z0-9\-_]|[^A-Z0-9\-]_|sprd-|MZ-)(?:^LBC/([\d.]+))";
  "(?i)(?:^|[^A-Z0-9\-_]|[^A-Z0-9\-]_|sprd-|MZ-)(?:LG Player (\d+\.[.\d]+))";
  "(?i)(?:^|[^A-Z0-9\-_]|[^A-Z0-9\-]_|sprd-|MZ-)(?:^Listen(?:(?: |%20)App)?/([\d.]+))";
  "(?i)(?:^|[^A-Z0-9\-_]|[^A-Z0-9\-]_|sprd-|MZ-)(?:^Liulo/([\d.]+))";
  "(?i)(?:^|[^A-Z0-9\-_]|[^A-Z0-9\-]_|sprd-|MZ-)(?:Listen5[ /]([\d.]+))";
  "(?i)(?:^|[^A-Z0-9\-_]|[^A-Z0-9\-]_|sprd-|MZ-)(?:^(?:Luminary(?:Preprod)?|luminary\.next)/([\d.]+))";
  "(?i)(?:^|[^A-Z0-9\-_]|[^A-Z0-9\-]_|sprd-|MZ-)(?:^Megaphone\.fm)";
  "(?i)(?:^|[^A-Z0-9\-_]|[^A-Z0-9\-]_|sprd-|MZ-)(?:^Menucast/(\d+\.[.\d]+))";
  "(?i)(?:^|[^A-Z0-9\-_]|[^A-Z0-9\-]_|sprd-|MZ-)(?:^Messenger/([\d.]+))";
  "(?i)(?:^|[^A-Z0-9\-_]|[^A-Z0-9\-]_|sprd-|MZ-)(?:^Mimir(?:-macOS)?/([\d.]+))";
  "(?i)(?:^|[^A-Z0-9\-_]|[^A-Z0-9\-]_|sprd-|MZ-)(?:^MobileSMS/([\d.]+))";
  "(?i)(?:^|[^A-Z0-9\-_]|[^A-Z0-9\-]_|sprd-|MZ-)(?:^Moon ?FM/([\d.]+))";
  "(?i)(?:^|[^A-Z0-9\-_]|[^A-Z0-9\-]_|sprd-|MZ-)(?:^myTuner(?:(?:%20Radio%20app|iOS%20Free|_podcasts_androidplayer)/ ?([\d.]+)?)?)";
  "(?i)(?:^|[^A-Z0-9\-_]|[^A-Z0-9\-]_|sprd-|MZ-)(?:^Newsly$)";
  "(?i)(?:^|[^A-Z0-9\-_]|[^A-Z0-9\-]_|sprd-|MZ-)(?:^NRC(?: |%20)Audio/([\d.]+))";
  "(?i)(?:^|[^A-Z0-9\-_]|[^A-Z0-9\-]_|sprd-|MZ-)(?:(?:NRC-Nieuws/|nl\.nrc\.nrcapp |com\.twipemobile\.nrc )([\d.]+))";
  "(?i)(?:^|[^A-Z0-9\-_]|[^A-Z0-9\-]_|sprd-|MZ-)(?:^Outcast[/ ]?([\d.]+)?)";
  "(?i)(?:^|[^A-Z0-9\-_]|[^A-Z0-9\-]_|sprd-|MZ-)(?:^Podcast Overhaul/(\d+\.[.\d]+))";
  "(?i)(?:^|[^A-Z0-9\-_]|[^A-Z0-9\-]_|sprd-|MZ-)(?:^Palco MP3/(\d+\.[.\d]+))";
  "(?i)(?:^|[^A-Z0-9\-_]|[^A-Z0-9\-]_|sprd-|MZ-)(?:^PeaCast/(\d+\.[.\d]+))";
  "(?i)(?:^|[^A-Z0-9\-_]|[^A-Z0-9\-]_|sprd-|MZ-)(?:^Player FM|^Player%20FM|^Alpha%20PlayerFM/)";
  "(?i)(?:^|[^A-Z0-9\-_]|[^A-Z0-9\-]_|sprd-|MZ-)(?:^Podbay/([\d.]+))";
  "(?i)(?:^|[^A-Z0-9\-_]|[^A-Z0-9\-]_|sprd-|MZ-)(?:^PodcastGuru[ /]([\d.]+))";
  "(?i)(?:^|[^A-Z0-9\-_]|[^A-Z0-9\-]_|sprd-|MZ-)(?:^Podcast Player/(\d+\.[.\d]+))";
  "(?i)(?:^|[^A-Z0-9\-_]|[^A-Z0-9\-]_|sprd-|MZ-)(?:^PodcastRepublic/(\d+\.[.\d]+))";
  "(?i)(?:^|[^A-Z0-9\-_]|[^A-Z0-9\-]_|sprd-|MZ-)(?:^Podcastly[/ ]?(\d+\.[.\d]+)?)";
  "(?i)(?:^|[^A-Z0-9\-_]|[^A-Z0-9\-]_|sprd-|MZ-)(?:^Podchaser |^Podchaser-Parser)";
  "(?i)(?:^|[^A-Z0-9\-_]|[^A-Z0-9\-]_|sprd-|MZ-)(?:^Podclipper/([\d.]+))";
  "(?i)(?:^|[^A-Z0-9\-_]|[^A-Z0-9\-]_|sprd-|MZ-)(?:^PodCruncher/(\d+\.[.\d]+))";
  "(?i)(?:^|[^A-Z0-9\-_]|[^A-Z0-9\-]_|sprd-|MZ-)(?:^Podeo/([\d.]+))";
  "(?i)(?:^|[^A-Z0-9\-_]|[^A-Z0-9\-]_|sprd-|MZ-)(?:^Podfriend[ /](\d+\.[.\d]+))";
  "(?i)(?:^|[^A-Z0-9\-_]|[^A-Z0-9\-]_|sprd-|MZ-)(?:(?:^Podhero(?:%20Alpha)?/|^Swoot[/ ](?:Agent[/ ])?)([\d.]+))";
  "(?i)(?:^|[^A-Z0-9\-_]|[^A-Z0-9\-]_|sprd-|MZ-)(?:^Podimo/(\d+\.[.\d]+))";
  "(?i)(?:^|[^A-Z0-9\-_]|[^A-Z0-9\-]_|sprd-|MZ-)(?:PodKast$)";
  "(?i)(?:^|[^A-Z0-9\-_]|[^A-Z0-9\-]_|sprd-|MZ-)(?:^Podkicker(?: Pro)/(\d+\.[.\d]+))";
  "(?i)(?:^|[^A-Z0-9\-_]|[^A-Z0-9\-]_|sprd-|MZ-)(?:PodLP/(\d+\.[.\d]+))";
  "(?i)(?:^|[^A-Z0-9\-_]|[^A-Z0-9\-]_|sprd-|MZ-)(?:^(?:Podme android app|PodMe)/(\d+\.[.\d]+)?)";
  "(?i)(?:^|[^A-Z0-9\-_]|[^A-Z0-9\-]_|sprd-|MZ-)(?:^PodMN/(?:iOS|Android) (\d+\.[.\d]+))";
  "(?i)(?:^|[^A-Z0-9\-_]|[^A-Z0-9\-]_|sprd-|MZ-)(?:^PodNL/([\d.]+))";
  "(?i)(?:^|[^A-Z0-9\-_]|[^A-Z0-9\-]_|sprd-|MZ-)(?:^(?:Podopolo|podopolo)/?([\d.]+))";
  "(?i)(?:^|[^A-Z0-9\-_]|[^A-Z0-9\-]_|sprd-|MZ-)(?:^Podplay/(\d+\.[.\d]+))";
  "(?i)(?:^|[^A-Z0-9\-_]|[^A-Z0-9\-]_|sprd-|MZ-)(?:^Pods/)";
  "(?i)(?:^|[^A-Z0-9\-_]|[^A-Z0-9\-]_|sprd-|MZ-)(?:^Podurama/(\d+\.[.\d]+))";
  "(?i)(?:^|[^A-Z0-9\-_]|[^A-Z0-9\-]_|sprd-|MZ-)(?:^PodTrapper$)";
  "(?i)(?:^|[^A-Z0-9\-_]|[^A-Z0-9\-]_|sprd-|MZ-)(?:^Podvine/(\d+\.[.\d]+))";
  "(?i)(?:^|[^A-Z0-9\-_]|[^A-Z0-9\-]_|sprd-|MZ-)(?:^Podverse/)";
  "(?i)(?:^|[^A-Z0-9\-_]|[^A-Z0-9\-]_|sprd-|MZ-)(?:(?:Podyssey App|com\.toysinboxes\.Echo|fm\.podyssey\.podcasts|^Podyssey)/?([\d.]+)?)";
  "(?i)(?:^|[^A-Z0-9\-_]|[^A-Z0-9\-]_|sprd-|MZ-)(?:^PugpigBolt (\d+\.[.\d]+))";
  "(?i)(?:^|[^A-Z0-9\-_]|[^A-Z0-9\-]_|sprd-|MZ-)(?:^radio\.([a-z]{2}|net)[ /]([\d.]+))";
  "(?i)(?:^|[^A-Z0-9\-_]|[^A-Z0-9\-]_|sprd-|MZ-)(?:^GetPodcast[ /]([\d.]+))";
  "(?i)(?:^|[^A-Z0-9\-_]|[^A-Z0-9\-]_|sprd-|MZ-)(?:^radio\.next[ /]([\d.]+))";
  "(?i)(?:^|[^A-Z0-9\-_]|[^A-Z0-9\-]_|sprd-|MZ-)(?:(?:^Radioline%202/(\d+\.[.\d]+)|^Radioline$))";
  "(?i)(?:^|[^A-Z0-9\-_]|[^A-Z0-9\-]_|sprd-|MZ-)(?:^Repod/(\d+\.[.\d]+))";
  "(?i)(?:^|[^A-Z0-9\-_]|[^A-Z0-9\-]_|sprd-|MZ-)(?:^rhythmbox/(\d+\.[.\d]+))"
].
Definition d_cr_re_6 : list blob := [
  "(?i)(?:^|[^A-Z0-9\-_]|[^A-Z0-9\-]_|sprd-|MZ-)(?:^SachNoi\.?app/([\d.]+))";
  "(?i)(?:^|[^A-Z0-9\-_]|[^A-Z0-9\-]_|sprd-|MZ-)(?:^sp-agent)";
  "(?i)(?:^|[^A-Z0-9\-_]|[^A-Z0-9\-]_|sprd-|MZ-)(?:^(?:ServeStream(?: Dynamo)?/?(\d+\.[.\d]+)?))";
  "(?i)(?:^|[^A-Z0-9\-_]|[^A-Z0-9\-]_|sprd-|MZ-)(?:^Shadow/([\d.]+))";
  "(?i)(?:^|[^A-Z0-9\-_]|[^A-Z0-9\-]_|sprd-|MZ-)(?:^Shadowrocket/([\d.]+))";
  "(?i)(?:^|[^A-Z0-9\-_]|[^A-Z0-9\-]_|sprd-|MZ-)(?:^(?:SiriusXM|sxm-android|sxm-apple)/([\d.]+))";
  "(?i)(?:^|[^A-Z0-9\-_]|[^A-Z0-9\-]_|sprd-|MZ-)(?:^Snipd/([\d.]+))";
  "(?i)(?:^|[^A-Z0-9\-_]|[^A-Z0-9\-]_|sprd-|MZ-)(?:^Sodes/([\d.]+))";
  "(?i)(?:^|[^A-Z0-9\-_]|[^A-Z0-9\-]_|sprd-|MZ-)(?:(?:Sonnet/(?:Android|iOS)|^Simple Podcast Player/(\d+\.[.\d]+)))";
  "(?i)(?:^|[^A-Z0-9\-_]|[^A-Z0-9\-]_|sprd-|MZ-)(?:^sony_tv;ps5;)";
  "(?i)(?:^|[^A-Z0-9\-_]|[^A-Z0-9\-]_|sprd-|MZ-)(?:^SoundOn/([\d.]+))";
  "(?i)(?:^|[^A-Z0-9\-_]|[^A-Z0-9\-]_|sprd-|MZ-)(?:^SoundWaves-(\d+\.[.\d]+))";
  "(?i)(?:^|[^A-Z0-9\-_]|[^A-Z0-9\-]_|sprd-|MZ-)(?:Spreaker/([\d.]+))";
  "(?i)(?:^|[^A-Z0-9\-_]|[^A-Z0-9\-]_|sprd-|MZ-)(?:^Stitcher/|^Stitcher Demo/|^AlexaMediaPlayer/Stitcher)";
  "(?i)(?:^|[^A-Z0-9\-_]|[^A-Z0-9\-]_|sprd-|MZ-)(?:^StoryShots/(\d+\.[.\d]+))";
  "(?i)(?:^|[^A-Z0-9\-_]|[^A-Z0-9\-]_|sprd-|MZ-)(?:^Swinsian/([\d.]+))";
  "(?i)(?:^|[^A-Z0-9\-_]|[^A-Z0-9\-]_|sprd-|MZ-)(?:^ThePodcastApp/(\d+\.[.\d]+))";
  "(?i)(?:^|[^A-Z0-9\-_]|[^A-Z0-9\-]_|sprd-|MZ-)(?:^TREBLE/([\d.]+))";
  "(?i)(?:^|[^A-Z0-9\-_]|[^A-Z0-9\-]_|sprd-|MZ-)(?:^Turtlecast/(\d+\.[.\d]+))";
  "(?i)(?:^|[^A-Z0-9\-_]|[^A-Z0-9\-]_|sprd-|MZ-)(?:^Ubook Player$)";
  "(?i)(?:^|[^A-Z0-9\-_]|[^A-Z0-9\-]_|sprd-|MZ-)(?:^VictorReader Stream Trek)";
  "(?i)(?:^|[^A-Z0-9\-_]|[^A-Z0-9\-]_|sprd-|MZ-)(?:^VictorReader Stream V3)";
  "(?i)(?:^|[^A-Z0-9\-_]|[^A-Z0-9\-]_|sprd-|MZ-)(?:^(?:VictorReader Stream 503|VictorReader_))";
  "(?i)(?:^|[^A-Z0-9\-_]|[^A-Z0-9\-]_|sprd-|MZ-)(?:^Vodacast/([\d.]+))";
  "(?i)(?:^|[^A-Z0-9\-_]|[^A-Z0-9\-]_|sprd-|MZ-)(?:^WynkMusic/(\d+\.[.\d]+))";
  "(?i)(?:^|[^A-Z0-9\-_]|[^A-Z0-9\-]_|sprd-|MZ-)(?:^Xiaoyuzhou/(\d+\.[.\d]+))";
  "(?i)(?:^|[^A-Z0-9\-_]|[^A-Z0-9\-]_|sprd-|MZ-)(?:^Ya(ndex)?\.Music/)";
  "(?i)(?:^|[^A-Z0-9\-_]|[^A-Z0-9\-]_|sprd-|MZ-)(?:^yapa/([\d.]+))";
  "(?i)(?:^|[^A-Z0-9\-_]|[^A-Z0-9\-]_|sprd-|MZ-)(?:Zune/(\d+\.[.\d]+))";
  "(?i)(?:^|[^A-Z0-9\-_]|[^A-Z0-9\-]_|sprd-|MZ-)(?:UCast/([\d.]+))";
  "(?i)(?:^|[^A-Z0-9\-_]|[^A-Z0-9\-]_|sprd-|MZ-)(?:(?:^NPROneAndroid$|(?:^NPR%20One|nprone_android)/([\d.]+)))";
  "(?i)(?:^|[^A-Z0-9\-_]|[^A-Z0-9\-]_|sprd-|MZ-)(?:Uforia/([\d.]+))";
  "(?i)(?:^|[^A-Z0-9\-_]|[^A-Z0-9\-]_|sprd-|MZ-)(?:^LAT-Native-App)";
  "(?i)(?:^|[^A-Z0-9\-_]|[^A-Z0-9\-]_|sprd-|MZ-)(?:(?:^NYT(?: |%20)?Audio(?:-iOS)?|nytios)/([\d.]+))";
  "(?i)(?:^|[^A-Z0-9\-_]|[^A-Z0-9\-]_|sprd-|MZ-)(?:^LiSTNR[.\w]*/([\d.]+))";
  "(?i)(?:^|[^A-Z0-9\-_]|[^A-Z0-9\-]_|sprd-|MZ-)(?:^Podu_player$)";
  "(?i)(?:^|[^A-Z0-9\-_]|[^A-Z0-9\-]_|sprd-|MZ-)(?:^TiviMate/([\d.]+))";
  "(?i)(?:^|[^A-Z0-9\-_]|[^A-Z0-9\-]_|sprd-|MZ-)(?:IPTV/([\d.]+))";
  "(?i)(?:^|[^A-Z0-9\-_]|[^A-Z0-9\-]_|sprd-|MZ-)(?:IPTV Pro/([\d.]+))";
  "(?i)(?:^|[^A-Z0-9\-_]|[^A-Z0-9\-]_|sprd-|MZ-)(?:^com\.audials(?:\.paid)?/([\d.]+))";
  "(?i)(?:^|[^A-Z0-9\-_]|[^A-Z0-9\-]_|sprd-|MZ-)(?:^CoolerFM/([\d.]+))";
  "(?i)(?:^|[^A-Z0-9\-_]|[^A-Z0-9\-]_|sprd-|MZ-)(?:^Metacast/([\d.]+))";
  "(?i)(?:^|[^A-Z0-9\-_]|[^A-Z0-9\-]_|sprd-|MZ-)(?:^mowPod/([\d.]+))";
  "(?i)(?:^|[^A-Z0-9\-_]|[^A-Z0-9\-]_|sprd-|MZ-)(?:com\.meecel\.feedreader\.RssDemonAd)";
  "(?i)(?:^|[^A-Z0-9\-_]|[^A-Z0-9\-]_|sprd-|MZ-)(?:^Virgin(?:%20|\s)Radio/([\d.]+))";
  "(?i)(?:^|[^A-Z0-9\-_]|[^A-Z0-9\-]_|sprd-|MZ-)(?:MetaMask(?:Mobile)?)";
  "(?i)(?:^|[^A-Z0-9\-_]|[^A-Z0-9\-]_|sprd-|MZ-)(?:\+Simple Browser)";
  "(?i)(?:^|[^A-Z0-9\-_]|[^A-Z0-9\-]_|sprd-|MZ-)(?:Bitwarden_Mobile/([\d.]+))";
  "(?i)(?:^|[^A-Z0-9\-_]|[^A-Z0-9\-]_|sprd-|MZ-)(?:MXPlayer/([\d.]+))";
  "(?i)(?:^|[^A-Z0-9\-_]|[^A-Z0-9\-]_|sprd-|MZ-)(?:HistoryHound/([\d.]+))";
  "(?i)(?:^|[^A-Z0-9\-_]|[^A-Z0-9\-]_|sprd-|MZ-)(?:CamScanner/([\d.]+))";
  "(?i)(?:^|[^A-Z0-9\-_]|[^A-Z0-9\-]_|sprd-|MZ-)(?:OBS/(\d+[.\d]+))";
  "(?i)(?:^|[^A-Z0-9\-_]|[^A-Z0-9\-]_|sprd-|MZ-)(?:XSplitBroadcaster/(\d+[.\d]+))";
  "(?i)(?:^|[^A-Z0-9\-_]|[^A-Z0-9\-]_|sprd-|MZ-)(?:twitch-desktop-electron-platform.*spotlight/(\d+[.\d]+))";
  "(?i)(?:^|[^A-Z0-9\-_]|[^A-Z0-9\-]_|sprd-|MZ-)(?:Stream Master$)";
  "(?i)(?:^|[^A-Z0-9\-_]|[^A-Z0-9\-]_|sprd-|MZ-)(?:Freespoke/(\d+\.[.\d]+))";
  "(?i)(?:^|[^A-Z0-9\-_]|[^A-Z0-9\-]_|sprd-|MZ-)(?:Lark/(\d+[.\d]+))";
  "(?i)(?:^|[^A-Z0-9\-_]|[^A-Z0-9\-]_|sprd-|MZ-)(?:SearchCraft/(\d+[.\d]+))";
  "(?i)(?:^|[^A-Z0-9\-_]|[^A-Z0-9\-]_|sprd-|MZ-)(?:DeFiWallet/(\d+[.\d]+))";
  "(?i)(?:^|[^A-Z0-9\-_]|[^A-Z0-9\-]_|sprd-|MZ-)(?:Clipbox\+/(\d+[.\d]+))";
  "(?i)(?:^|[^A-Z0-9\-_]|[^A-Z0-9\-]_|sprd-|MZ-)(?:HMSCore(?:[ /]([\d.]+))?)";
  "(?i)(?:^|[^A-Z0-9\-_]|[^A-Z0-9\-]_|sprd-|MZ-)(?:Autopliuslt(?:/([\d.]+))?)";
  "(?i)(?:^|[^A-Z0-9\-_]|[^A-Z0-9\-]_|sprd-|MZ-)(?:HCom(?:/([\d.]+))?)";
  "(?i)(?:^|[^A-Z0-9\-_]|[^A-Z0-9\-]_|sprd-|MZ-)(?:CoinbaseRetail(?:/([\d.]+))?)";
  "(?i)(?:^|[^A-Z0-9\-_]|[^A-Z0-9\-]_|sprd-|MZ-)(?:De Telegraaf(?:/([\d.]+))?)";
  "(?i)(?:^|[^A-Z0-9\-_]|[^A-Z0-9\-]_|sprd-|MZ-)(?:waipu/([\d.]+))";
  "(?i)(?:^|[^A-Z0-9\-_]|[^A-Z0-9\-]_|sprd-|MZ-)(?:com\.topbuzz\.videoen/([\d.]+))";
  "(?i)(?:^|[^A-Z0-9\-_]|[^A-Z0-9\-]_|sprd-|MZ-)(?:Trade Me(?:/([\d.]+))?)";
  "(?i)(?:^|[^A-Z0-9\-_]|[^A-Z0-9\-]_|sprd-|MZ-)(?:XING(?:-iPhone)?/([\d.]+))";
  "(?i)(?:^|[^A-Z0-9\-_]|[^A-Z0-9\-]_|sprd-|MZ-)(?:Bridge/([\d.]+))";
  "(?i)(?:^|[^A-Z0-9\-_]|[^A-Z0-9\-]_|sprd-|MZ-)(?:iPlayTV/([\d.]+))";
  "(?i)(?:^|[^A-Z0-9\-_]|[^A-Z0-9\-]_|sprd-|MZ-)(?:momoWebView/([\d.]+))";
  "(?i)(?:^|[^A-Z0-9\-_]|[^A-Z0-9\-]_|sprd-|MZ-)(?:nate_app;appver:([\d.]+))";
  "(?i)(?:^|[^A-Z0-9\-_]|[^A-Z0-9\-]_|sprd-|MZ-)(?:SOFI_APP_VERSION=([\d.]+))";
  "(?i)(?:^|[^A-Z0-9\-_]|[^A-Z0-9\-]_|sprd-|MZ-)(?:WNYC(?: App)?[/ ]?([\d.]+)?)";
  "(?i)(?:^|[^A-Z0-9\-_]|[^A-Z0-9\-]_|sprd-|MZ-)(?:com\.theepochtimes\.mobile/([\d.]+))";
  "(?i)(?:^|[^A-Z0-9\-_]|[^A-Z0-9\-]_|sprd-|MZ-)(?:ReutersNews(?: App)?[/ ]?([\d.]+)?)";
  "(?i)(?:^|[^A-Z0-9\-_]|[^A-Z0-9\-]_|sprd-|MZ-)(?:WatchFree/([\d.]+))";
  "(?i)(?:^|[^A-Z0-9\-_]|[^A-Z0-9\-]_|sprd-|MZ-)(?:obsidian/([\d.]+))";
  "(?i)(?:^|[^A-Z0-9\-_]|[^A-Z0-9\-]_|sprd-|MZ-)(?:VISHAAPP ([\d.]+))";
  "(?i)(?:^|[^A-Z0-9\-_]|[^A-Z0-9\-]_|sprd-|MZ-)(?:nyt_android/([\d.]+))";
  "(?i)(?:^|[^A-Z0-9\-_]|[^A-Z0-9\-]_|sprd-|MZ-)(?:Fiddler/(\d+[.\d]+))";
  "(?i)(?:^|[^A-Z0-9\-_]|[^A-Z0-9\-]_|sprd-|MZ-)(?:ZONApp/(?:iOS|Android)/([\d.]+))";
  "(?i)(?:^|[^A-Z0-9\-_]|[^A-Z0-9\-]_|sprd-|MZ-)(?:tracepal(?:\.app)?/([\d.]+))";
  "(?i)(?:^|[^A-Z0-9\-_]|[^A-Z0-9\-]_|sprd-|MZ-)(?:topsecret\.chat/([\d.]+))";
  "(?i)(?:^|[^A-Z0-9\-_]|[^A-Z0-9\-]_|sprd-|MZ-)(?:Kwai/([\d.]+))";
  "(?i)(?:^|[^A-Z0-9\-_]|[^A-Z0-9\-]_|sprd-|MZ-)(?:Kwai_Pro/([\d.]+))";
  "(?i)(?:^|[^A-Z0-9\-_]|[^A-Z0-9\-]_|sprd-|MZ-)(?:Sooplive Webview/([\d.]+))";
  "(?i)(?:^|[^A-Z0-9\-_]|[^A-Z0-9\-]_|sprd-|MZ-)(?:GoEuro(?:Android|IOS )/([\d.]+))";
  "(?i)(?:^|[^A-Z0-9\-_]|[^A-Z0-9\-]_|sprd-|MZ-)(?:BOOM v([\d.]+))";
  "(?i)(?:^|[^A-Z0-9\-_]|[^A-Z0-9\-]_|sprd-|MZ-)(?:WallaNews/([\d.]+))";
  "(?i)(?:^|[^A-Z0-9\-_]|[^A-Z0-9\-]_|sprd-|MZ-)(?:TRP_iPhone_App/([\d.]+))";
  "(?i)(?:^|[^A-Z0-9\-_]|[^A-Z0-9\-]_|sprd-|MZ-)(?:Townnews-Now/([\d.]+))";
  "(?i)(?:^|[^A-Z0-9\-_]|[^A-Z0-9\-]_|sprd-|MZ-)(?:^Klara/)";
  "(?i)(?:^|[^A-Z0-9\-_]|[^A-Z0-9\-]_|sprd-|MZ-)(?:EdmodoAndroid/([\d.]+))";
  "(?i)(?:^|[^A-Z0-9\-_]|[^A-Z0-9\-]_|sprd-|MZ-)(?:HFEducationIOS/([\d.]+))";
  "(?i)(?:^|[^A-Z0-9\-_]|[^A-Z0-9\-]_|sprd-|MZ-)(?:HFIOS/([\d.]+))";
  "(?i)(?:^|[^A-Z0-9\-_]|[^A-Z0-9\-]_|sprd-|MZ-)(?:OpenVAS-VT ([\d.]+))";
  "(?i)(?:^|[^A-Z0-9\-_]|[^A-Z0-9\-]_|sprd-|MZ-)(?:appdb/([\d.]+))";
  "(?i)(?:^|[^A-Z0-9\-_]|[^A-Z0-9\-]_|sprd-|MZ-)(?:smzdm ([\d.]+))";
  "(?i)(?:^|[^A-Z0-9\-_]|[^A-Z0-9\-]_|sprd-|MZ-)(?:Zite/([\d.]+))";
  "(?i)(?:^|[^A-Z0-9\-_]|[^A-Z0-9\-]_|sprd-|MZ-)(?:anythingllm-desktop/([\d.]+))";
  "(?i)(?:^|[^A-Z0-9\-_]|[^A-Z0-9\-]_|sprd-|MZ-)(?:opgg-electron-app/([\d.]+))";
  "(?i)(?:^|[^A-Z0-9\-_]|[^A-Z0-9\-]_|sprd-|MZ-)(?:VidJuiceUniTube/([\d.]+))";
  "(?i)(?:^|[^A-Z0-9\-_]|[^A-Z0-9\-]_|sprd-|MZ-)(?:^Seekr/([\d\.]+).*Android)";
  "(?i)(?:^|[^A-Z0-9\-_]|[^A-Z0-9\-]_|sprd-|MZ-)(?:^Seekr/([\d\.]+).*CFNetwork)";
  "(?i)(?:^|[^A-Z0-9\-_]|[^A-Z0-9\-]_|sprd-|MZ-)(?:^Superbalist/([\d.]+))";
  "(?i)(?:^|[^A-Z0-9\-_]|[^A-Z0-9\-]_|sprd-|MZ-)(?:KeplrWalletMobile/([\d.]+))";
  "(?i)(?:^|[^A-Z0-9\-_]|[^A-Z0-9\-]_|sprd-|MZ-)(?:lookr/([\d.]+))";
  "(?i)(?:^|[^A-Z0-9\-_]|[^A-Z0-9\-]_|sprd-|MZ-)(?:Kimi/([\d.]+))";
  "(?i)(?:^|[^A-Z0-9\-_]|[^A-Z0-9\-]_|sprd-|MZ-)(?:Hulu/([\d.]+))";
  "(?i)(?:^|[^A-Z0-9\-_]|[^A-Z0-9\-]_|sprd-|MZ-)(?:TeraBox/([\d.]+))";
  "(?i)(?:^|[^A-Z0-9\-_]|[^A-Z0-9\-]_|sprd-|MZ-)(?:dubox;([\d.]+);)";
  "(?i)(?:^|[^A-Z0-9\-_]|[^A-Z0-9\-]_|sprd-|MZ-)(?:DeepSeek Chat/([\d.]+))";
  "(?i)(?:^|[^A-Z0-9\-_]|[^A-Z0-9\-]_|sprd-|MZ-)(?:ChatGPT/([\d.]+))";
  "(?i)(?:^|[^A-Z0-9\-_]|[^A-Z0-9\-]_|sprd-|MZ-)(?:REDLINECLIENT.+V([\d.]+))";
  "(?i)(?:^|[^A-Z0-9\-_]|[^A-Z0-9\-]_|sprd-|MZ-)(?: ([a-z0-9]*)(?:-desktop|-electron-app)?/(\d+\.[\d.]+).*Electron/)";
  "(?i)(?:^|[^A-Z0-9\-_]|[^A-Z0-9\-]_|sprd-|MZ-)(?:AppVersion/([\d.]+).+appname/([^/; ]*))";
  "(?i)(?:^|[^A-Z0-9\-_]|[^A-Z0-9\-]_|sprd-|MZ-)(?:([^/;]*)/(\d+\.[\d.]+) \((?:iPhone|iPad); (?:iOS|iPadOS) [0-9.]+; Scale/[0-9.]+\))";
  "(?i)(?:^|[^A-Z0-9\-_]|[^A-Z0-9\-]_|sprd-|MZ-)(?:Outlook-Express(?:/(\d+[.\d]+))?)";
  "(?i)(?:^|[^A-Z0-9\-_]|[^A-Z0-9\-]_|sprd-|MZ-)(?:^Outlook-iOS/(?:.+\((\d+[.\d]+)\)$)?)";
  "(?i)(?:^|[^A-Z0-9\-_]|[^A-Z0-9\-]_|sprd-|MZ-)(?:(?:(?:Microsoft )?Outlook|MacOutlook)(?:[/ ](\d+[.\d]+))?)";
  "(?i)(?:^|[^A-Z0-9\-_]|[^A-Z0-9\-]_|sprd-|MZ-)(?:WindowsMail(?:/(\d+[.\d]+)))";
  "(?i)(?:^|[^A-Z0-9\-_]|[^A-Z0-9\-]_|sprd-|MZ-)(?:(?:Thunderbird|Icedove|Shredder)(?:/(\d+[.\d]+))?)";
  "(?i)(?:^|[^A-Z0-9\-_]|[^A-Z0-9\-]_|sprd-|MZ-)(?:Spicebird/(\d+\.[.\d]+))";
  "(?i)(?:^|[^A-Z0-9\-_]|[^A-Z0-9\-]_|sprd-|MZ-)(?:Airmail(?: (\d+[.\d]+))?)";
  "(?i)(?:^|[^A-Z0-9\-_]|[^A-Z0-9\-]_|sprd-|MZ-)(?:Lotus-Notes(?:/(\d+[.\d]+))?)";
  "(?i)(?:^|[^A-Z0-9\-_]|[^A-Z0-9\-]_|sprd-|MZ-)(?:Barca(?:Pro)?(?:[/ ](\d+[.\d]+))?)";
  "(?i)(?:^|[^A-Z0-9\-_]|[^A-Z0-9\-]_|sprd-|MZ-)(?:Postbox(?:[/ ](\d+[.\d]+))?)";
  "(?i)(?:^|[^A-Z0-9\-_]|[^A-Z0-9\-]_|sprd-|MZ-)(?:MailBar(?:[/ ](\d+[.\d]+))?)";
  "(?i)(?:^|[^A-Z0-9\-_]|[^A-Z0-9\-]_|sprd-|MZ-)(?:The Bat!(?: Voyager)?(?:[/ ](\d+[.\d]+))?)";
  "(?i)(?:^|[^A-Z0-9\-_]|[^A-Z0-9\-]_|sprd-|MZ-)(?:DAVdroid(?:/(\d+[.\d]+))?)";
  "(?i)(?:^|[^A-Z0-9\-_]|[^A-Z0-9\-]_|sprd-|MZ-)(?:(?:SeaMonkey|Iceape)(?:/(\d+[.\d]+))?)";
  "(?i)(?:^|[^A-Z0-9\-_]|[^A-Z0-9\-]_|sprd-|MZ-)(?:Live5ch/(\d+[.\d]+))";
  "(?i)(?:^|[^A-Z0-9\-_]|[^A-Z0-9\-]_|sprd-|MZ-)(?:Raindrop\.io/(\d+[.\d]+))";
  "(?i)(?:^|[^A-Z0-9\-_]|[^A-Z0-9\-]_|sprd-|MZ-)(?:Franz/(\d+[.\d]+))";
  "(?i)(?:^|[^A-Z0-9\-_]|[^A-Z0-9\-]_|sprd-|MZ-)(?:Mailspring/(\d+[.\d]+))";
  "(?i)(?:^|[^A-Z0-9\-_]|[^A-Z0-9\-]_|sprd-|MZ-)(?:Notion/(\d+[.\d]+))";
  "(?i)(?:^|[^A-Z0-9\-_]|[^A-Z0-9\-]_|sprd-|MZ-)(?:Basecamp[0-9]/?(\d+[.\d]+))";
  "(?i)(?:^|[^A-Z0-9\-_]|[^A-Z0-9\-]_|sprd-|MZ-)(?:Evernote/?(\d+[.\d]+))";
  "(?i)(?:^|[^A-Z0-9\-_]|[^A-Z0-9\-]_|sprd-|MZ-)(?:ramboxpro/(\d+\.[.\d]+)?)";
  "(?i)(?:^|[^A-Z0-9\-_]|[^A-Z0-9\-]_|sprd-|MZ-)(?:Mailbird/(\d+\.[.\d]+)/)";
  "(?i)(?:^|[^A-Z0-9\-_]|[^A-Z0-9\-]_|sprd-|MZ-)(?:jp.co.yahoo.ymail/([\d.]+))";
  "(?i)(?:^|[^A-Z0-9\-_]|[^A-Z0-9\-]_|sprd-|MZ-)(?:eM ?Client/(\d+\.[.\d]+))";
  "(?i)(?:^|[^A-Z0-9\-_]|[^A-Z0-9\-]_|sprd-|MZ-)(?:NaverMailApp/(\d+\.[.\d]+))";
  "(?i)(?:^|[^A-Z0-9\-_]|[^A-Z0-9\-]_|sprd-|MZ-)(?:^Mail/([\d.]+))";
  "(?i)(?:^|[^A-Z0-9\-_]|[^A-Z0-9\-]_|sprd-|MZ-)(?:Foxmail/(\d+[.\d]+))";
  "(?i)(?:^|[^A-Z0-9\-_]|[^A-Z0-9\-]_|sprd-|MZ-)(?:MailMaster(?:PC|_Android_Mobile)?/(\d+[.\d]+))";
  "(?i)(?:^|[^A-Z0-9\-_]|[^A-Z0-9\-]_|sprd-|MZ-)(?:BlueMail/(\d+[.\d]+))";
  "(?i)(?:^|[^A-Z0-9\-_]|[^A-Z0-9\-]_|sprd-|MZ-)(?:mailapp/(\d+\.[.\d]+))"
].
(** client_repo.go:1500-2851. *)
Definition d_cr_re : list blob :=
  concat [d_cr_re_0; d_cr_re_1; d_cr_re_2; d_cr_re_3; d_cr_re_4; d_cr_re_5; d_cr_re_6].

Definition d_cr_ef_0 : list engineFn := [
  ([(unblob "28", 0x180000001d)], 0x1d00000023);
  ([(unblob "28", 0x180000001d)], 0x1d00000023);
  ([(unblob "28", 0x180000001d)], 0x1d00000023);
  ([(unblob "28", 0x180000001d)], 0x1d00000023);
  ([(unblob "28", 0x180000001d)], 0x1d00000023);
  ([(unblob "28", 0x180000001d)], 0x1d00000023);
  ([(unblob "28", 0x180000001d)], 0x1d00000023);
  ([(unblob "28", 0x180000001d)], 0x1d00000023);
  ([(unblob "3", 0x1d00000023)], 0x350000003a);
  ([(unblob "15", 0x180000001d)], 0x2300000029);
  ([(unblob "15", 0x180000001d)], 0x2300000029);
  ([(unblob "15", 0x180000001d)], 0x2300000029);
  ([(unblob "15", 0x180000001d)], 0x2300000029);
  ([(unblob "15", 0x180000001d); (unblob "3.5", 0xfb100000fb8); (unblob "7", 0x2300000029)], 0x0);
  ([(unblob "28", 0x180000001d)], 0x1d00000023);
  ([(unblob "4", 0xfee00000fee)], 0x3a0000003f);
  ([(unblob "4.2", 0x180000001d)], 0x1d00000023);
  ([(unblob "3", 0x1d00000023)], 0x0);
  ([(unblob "28", 0x180000001d)], 0x1d00000023);
  ([(unblob "28", 0x180000001d)], 0x1d00000023);
  ([(unblob "2.28", 0x1d00000023); (unblob "2.9.16", 0xfee00000fee)], 0x350000003a);
  ([(unblob "28", 0x180000001d)], 0x1d00000023);
  ([(unblob "28", 0x180000001d)], 0x0);
  ([(unblob "28", 0x180000001d)], 0x1d00000023);
  ([(unblob "28", 0x180000001d)], 0x1d00000023);
  ([(unblob "28", 0x180000001d)], 0x1d00000023);
  ([(unblob "28", 0x180000001d)], 0x1d00000023);
  ([(unblob "28", 0x180000001d)], 0x1d00000023);
  ([(unblob "28", 0x180000001d)], 0x1d00000023);
  ([(unblob "28", 0x180000001d)], 0x1d00000023);
  ([(unblob "4", 0x180000001d)], 0x1d00000023);
  ([(unblob "4", 0x1d00000023)], 0x14970000149b)
].
(** client_repo.go:2852-3054. *)
Definition d_cr_ef : list engineFn :=
  concat [d_cr_ef_0].

Definition d_cr_ev_0 : list (N * Z) := [
  (0x760000007c, 0%Z);
  (0x180000001d, 1%Z);
  (0x2f00000035, 2%Z);
  (0x142b00001430, 3%Z);
  (0xd00000011, 4%Z);
  (0x4b00000054, 5%Z);
  (0xfb100000fb8, 6%Z);
  (0x350000003a, 7%Z);
  (0x290000002f, 8%Z);
  (0x3a0000003f, 9%Z);
  (0x690000006f, 10%Z);
  (0x7c00000081, 11%Z);
  (0x8, 12%Z);
  (0x3f00000046, 13%Z);
  (0x2300000029, 14%Z);
  (0x460000004b, 15%Z);
  (0x2830000028d, 16%Z);
  (0x1100000018, 17%Z);
  (0x1d00000023, 18%Z);
  (0x14970000149b, 19%Z)
].
(** client_repo.go:3055-3076. *)
Definition d_cr_ev : list (N * Z) :=
  concat [d_cr_ev_0].

Definition d_cr_evre_0 : list blob := [
  "(?i)ArkWeb\s*[/\s]\s*(\d+(?:.\d+)+)";
  "(?i)Chrome\s*[/\s]\s*(\d+(?:.\d+)+)";
  "(?i)Clecko\s*[/\s]\s*(\d+(?:.\d+)+)";
  "(?i)Dillo\s*[/\s]\s*(\d+(?:.\d+)+)";
  "(?i)Edge\s*[/\s]\s*(\d+(?:.\d+)+)";
  "(?i)EkiohFlow\s*[/\s]\s*(\d+(?:.\d+)+)";
  "(?i)Elektra\s*[/\s]\s*(\d+(?:.\d+)+)";
  "(?i)[ ](?:rv[: ]([0-9\.]+)).*gecko/[0-9.]+";
  "(?i)Goanna\s*[/\s]\s*(\d+(?:.\d+)+)";
  "(?i)KHTML\s*[/\s]\s*(\d+(?:.\d+)+)";
  "(?i)LibWeb\s*[/\s]\s*(\d+(?:.\d+)+)";
  "(?i)Maple\s*[/\s]\s*(\d+(?:.\d+)+)";
  "(?i)NetFront\s*[/\s]\s*(\d+(?:.\d+)+)";
  "(?i)NetSurf\s*[/\s]\s*(\d+(?:.\d+)+)";
  "(?i)Presto\s*[/\s]\s*(\d+(?:.\d+)+)";
  "(?i)Servo\s*[/\s]\s*(\d+(?:.\d+)+)";
  "(?i)Text-based\s*[/\s]\s*(\d+(?:.\d+)+)";
  "(?i)Trident\s*[/\s]\s*(\d+(?:.\d+)+)";
  "(?i)WebKit\s*[/\s]\s*(\d+(?:.\d+)+)";
  "(?i)iCab\s*[/\s]\s*(\d+(?:.\d+)+)"
].
(** client_repo.go:3077-3098. *)
Definition d_cr_evre : list blob :=
  concat [d_cr_evre_0].

Definition d_cr_buf_0 : blob := "NetFrontEdge/EdgeTridentBlinkWebKitPrestoGoannaCleckoGeckoKHTMLNetSurfServoEkiohFlowxChaos_ArachneArachneLibWebArkWeb/ArkWebMapleFireSend BrowserSeekeeArtisBrowserDoubaoHeyTapBrowserQuarkPCAltiBrowserSingleboxRCATorExplorerRCA Tor ExplorerTQBrowserTQ BrowserXXXAndroidAppXnBrowseProxyFoxPrivacyBrowserPrivacy BrowserTUSKDezorOJR BrowserAppTec Secure BrowserVeeraNineskyPerkPresearchQtWebUPhone BrowserMotorola Internet BrowseriNet BrowserPrismAwesomiumRoccatSwiftweaselWukong BrowserKUNNaenara BrowserNook BrowserWeltweitimnetz BrowserLadybirdKittsppm_bizbrowserBizBrowserSkyLeapMaxBrowserYouBrowserMixerBox-BrowserMixerBox AIEudoraWebEoliew3mText-basedClassilla/ClassillaWebian ShellVonkerorWyzoLiri BrowserColumbus BrowserGreenBrowserK-NinjaPirateBrowserEast BrowserQiyuWebDiscoverLegan BrowserAcoo BrowserAplixMogok BrowserTrueLocation BrowserDiigo BrowserOnBrowser LiteBluefyVision Mobile BrowserSurfy Browser18+ Privacy BrowserGoKuAsk.comBangIntune Managed BrowserLotusJuziBrowserJUZI BrowserNin".
Definition d_cr_buf_1 : blob := "etailsWexondCatalystImpervious BrowserRakuten BrowserRakuten Web SearchVibeMateColom BrowsertarariaSberBrowserRaspbian ChromiumQuick Search TVSkyeVD BrowserSecureXHotBrowserProxy BrowserOnion BrowserfGet/fGetNuviuDoCoMoAirfind Secure BrowserArc SearchNuanti MetaRoku BrowserPICO BrowserALVANorton Private BrowserOdd BrowserAPN BrowserYAGIInspectBrowserInspect BrowserKeepsafe BrowserVast BrowserbloketBloketU BrowserTesla BrowserViasat BrowserLiloLexi BrowserFloorpSurf BrowserDecentryoucare-android-appYouCareyoucare-ios-appAdBlock BrowserBrowseHereHi BrowserCyBrowserSiteKioskReqwireless WebViewerT+BrowserSecure Private BrowserChanjetCloudSushi BrowserPeeps dBrowserLT BrowserLagatos BrowserPSI Secure BrowserHarman BrowserBonsaiSpectre BrowserFlash BrowserSecure BrowserArvinEdge WebViewMandarinMaelstromHelio7654 BrowserQazwebdeg-deganJavaFXChedotChromium GOSTDeledaoHasBrowserByffoxCoolBrowserDot BrowserCraving ExplorerDeskBrowseLolifoxPi BrowserQutebrowserFlastPolyBrowserBriskBardGinxDroid B".
Definition d_cr_buf_2 : blob := "rowserAvira Secure BrowserVenus BrowserOtter BrowserSmoozBangla BrowserCornowserOrcaFlow BrowserFlowxStandBiyubiPerfect BrowserPhantom BrowserAwoXZetakeyPlayFree BrowserChim LacOdinT-BrowserWhale TV BrowserSFiveNavigateur WebSeraphic SrafSeewo BrowserKode BrowserUR BrowserOceanHeroSmart Lenovo BrowserBrowzarStargonNFS BrowserBorealis NavigatorYolo BrowserPhoenix BrowserPrivacyWallGhostery Privacy BrowserCliqzYaani BrowserSafe Exam BrowserColibriXvastTungstenLulumiYahoo! Japan BrowserLunascape LiteLunascapePolypaneOhHai BrowserSizzyGlass BrowserToGateVMware AirWatchAOL ExplorerAOL DesktopElements BrowserLightSteam In-Game Overlay115 BrowserAtomWolvicFirefox RealityAVG Secure BrowserSTART Internet BrowserLovense BrowserDelta BrowserOrdissimoCCleanerAloha Browser LiteTao BrowserChatGPT AtlasFalkonmCentSalamWebBlackHawkMinimoWear Internet BrowserOrigyn Web BrowserKinzaBeamriseFaux BrowserSplashMeizu BrowserCOS BrowserCrustaHawk Turbo BrowserHawk Quick BrowserFreeUNox BrowserBasiliskSputnik".
Definition d_cr_buf_3 : blob := " BrowserK.BrowserOculus BrowserJioSphereStampy Browserhola! BrowserSlimBoatSlimjet7StarMxNitroHuawei Browser MobileHuawei BrowserZTE Browservivo BrowserRealme BrowserBeaker BrowserQwant MobileTenFourFoxAOL Shield ProAOL ShieldMicrosoft EdgeHarmony 360 Browser360 Secure Browser360 Phone BrowserSailfish BrowserIceCatMobicipCaminoWaterfoxVertex SurfAloha BrowserAloha/Tenta BrowserAvast Secure BrowserEpicFennecMicroBDeepnet ExplorerAvant BrowserOppo BrowserAmigoAtomic Web BrowserBunjallooBraveIridiumIceweaselWebPositivePale MoonCometBirdIceDragonFlockJig Browser PlusJig BrowserKapikoKyloOrigin In-Game OverlayCunaguarot-online.de BrowserKazehakaseArctic FoxMypalCentauryFirefox FocusCyberfoxSwiftfoxUC Browser HDUC Browser MiniUC Browser TurboUC BrowserUC AppleWebKitFirefox MobileFirefox Mobile iOSFirefoxANT FrescoANTGalioEspial TV BrowserRockMeltFireweb NavigatorFirewebNetscapePolarityQupZillaDoobleWhale BrowserObigoOpera GXOpera MobileOpera NeonOpera DevicesOpera TouchOperaOpera MiniOpera M".
Definition d_cr_buf_4 : blob := "ini iOSOpera NextElektraRekonqCoolNovoComodo DragonChromePlusConkerorKonquerorHONOR BrowserBaidu BrowserBaidu SparkYandex BrowserYandex Browser LiteYandex Browser CorpVivaldiTweakStyleMidoriMercuryMaxthonPuffin Cloud BrowserPuffin Secure BrowserPuffin Web BrowserIron MobileIronGNOME WebLieBaoFastCheetah BrowserSogou ExplorerQQ Browser LiteQQ Browser MiniQQ BrowserMi BrowserCoc CocDuckDuckGo Privacy BrowserSamsung BrowserSuper Fast BrowserEUI BrowserUBrowserStreamyisiviooIsiviooFirefox RocketWeb ExplorerSeznam BrowserSogou Mobile BrowserMint BrowserEcosiaACHEETAHICM BrowserLenovo BrowserKiwi ChromeKiwi2345 BrowserMobile SilkiBrowser MiniiBrowserIBrowseOpenwave Mobile BrowserONE BrowserGoBrowserNokia Browser7.0Nokia OSS BrowserNokia Ovi BrowserSleipnirNTENT BrowserTV BroQuarkMonument BrowserBlue BrowserJapan BrowserOpenFinSuperBirdSoul BrowserLG BrowserQtWebEngineChrome Mobile iOSChrome WebviewChrome MobileChrome FrameChromiumHeadless ChromeChromePocketBook/PocketBook BrowserTizen Browse".
Definition d_cr_buf_5 : blob := "rPalm BlazerPalm PrewOSBrowserPalm WebProPalmscapeJasmineLynxNCSA MosaicVMS MosaicABrowseAmayaAmiga VoyagerAmiga AwebAroraBeonexB-LineBrowseXCharonCheshiredbrowserDilloDolphinElinksElement BrowsereZ BrowserFirebirdFluidGaleonGoogle Earth ProGoogle EarthHotJavaiCab MobileiCabCrazy BrowserIE MobileInternet Explorer8.09.010.011.0Pocket Internet ExplorerKindle BrowserK-meleonLinksLuaKitOmniWebPhoenixNintendo BrowserNetFront LifeNetPositiveOdyssey Web BrowserOffByOneOff By OneOreganoPolarisSEMC-BrowserShiiraSkyfireSnowshoeSunriseWeTab-BrowserWeTab BrowserXiinoBlackBerry BrowserBrowlserAndroid BrowserCoastsurfSafari Technology PreviewMobile SafariSafariMacintoshDoradoUzblSimpleBrowserZvuGOG GalaxyMAUI WAP BrowserSP BrowserAkregatorhttp://userbase.kde.org/AkregatorApple PubSubhttps://developer.apple.com/library/mac/documentation/Darwin/Reference/ManPages/man1/pubsub.1.htmlBashPodderhttp://lincgeek.org/bashpodder/Breakerhttps://www.breaker.audio/FeedDemonhttp://www.feeddemon.com/Feeddler RSS R".
Definition d_cr_buf_6 : blob := "eaderhttp://www.chebinliu.com/projects/iphone/feeddler-rss-reader/QuiteRSShttps://quiterss.orggPodderhttp://gpodder.org/JetBrains Omea Readerhttp://www.jetbrains.com/omea/reader/Lifereahttp://liferea.sf.net/NetNewsWirehttp://netnewswireapp.com/NewsBlur Mobile Apphttp://www.newsblur.comNewsBlurNewsbeuterhttp://www.newsbeuter.org/PritTorrenthttp://bitlove.orgPulphttp://www.acrylicapps.com/pulp/ReadKithttp://readkitapp.com/Reederhttp://reederapp.com/RSS Bandithttp://www.rssbandit.org)RSS Junkiehttps://play.google.com/store/apps/details?id=com.bitpowder.rssjunkieRSSOwlhttps://www.rssowl.org/Stringerhttps://github.com/swanson/stringercasterohttps://github.com/xgi/casterocastgethttps://castget.johndal.com/Newsboathttps://newsboat.org/index.htmlPlayapodhttps://playapod.com/PodPuppyhttps://github.com/felixwatts/PodPuppyhttps://reederapp.com/PhantomJShttps://phantomjs.org/IPinfohttps://github.com/ipinfoKiwi TCMShttps://kiwitcms.orgKiwi TCMS APIFFUFhttps://github.com/ffuf/ffufSlim Frameworkhttps".
Definition d_cr_buf_7 : blob := "://www.slimframework.com/msray-plusMsray-Plushttps://github.com/super-l/msrayHTML Parserhttps://htmlparser.sourceforge.net/gothttps://github.com/sindresorhus/gotTyphoeushttps://github.com/typhoeus/typhoeusreqhttps://github.com/imroc/reqquic-gohttps://github.com/lucas-clemente/quic-goAzure Data Factoryhttps://azure.microsoft.com/en-us/products/data-factory/Darthttps://dart.dev/r-curlhttps://github.com/jeroen/curlHTTPXhttps://www.python-httpx.org/fasthttphttps://github.com/valyala/fasthttpGeoIP Updatehttps://github.com/maxmind/geoipupdatePHP cURL Classhttps://github.com/php-curl-class/php-curl-classcPanel HTTP Clienthttps://www.cpanel.net/AnyEvent HTTPhttp://software.schmorp.de/pkg/AnyEventSlimerJShttps://www.slimerjs.org/Jaunthttps://jaunt-api.com/Cypresshttps://github.com/cypress-io/cypressWgetGuzzle (PHP HTTP Client)SymfonycurlPython Requestshttplib2https://pypi.org/project/httplib2/Python urllibApache HTTP ClientJava HTTP ClientJavaPerlgRPC-Javahttps://github.com/grpc/grpc-javaOkHttp".
Definition d_cr_buf_8 : blob := "HTTP_Request2https://pear.php.net/package/http_request2Mechanizehttps://github.com/sparklemotion/mechanizeaiohttpGoogle HTTP Java ClientWWW-MechanizeFaradayhttps://github.com/lostisland/faradayGo-http-clienturlgrabber (yum)libdnfHTTPieREST Client for RubyRestSharphttps://github.com/restsharp/RestSharpScalaJ HTTPhttps://github.com/scalaj/scalaj-httpPerl REST::Clienthttps://metacpan.org/pod/REST::ClientNode Fetchhttps://github.com/node-fetch/node-fetchElectron Fetchhttps://github.com/arantes555/electron-fetchReactorNettyhttps://github.com/reactor/reactor-nettyPostman Desktophttps://github.com/postmanlabs/postman-runtimeInsomnia REST Clienthttps://insomnia.restJakarta Commons HttpClienthttps://hc.apache.org/httpclient-3.xWinHttp WinHttpRequestWinHTTPWindows HTTPEmbarcadero URI ClientMikrotik FetchGRequestsAkka HTTPAria2uTorrentgvfsuclient-fetchC++ REST SDKLUA OpenResty NGINXUnirest for JavajsdomhackneyRestyPa11yUltimate Sitemap ParserArtifactoryOpen Build ServiceBuildahBuildKitContainerdc".
Definition d_cr_buf_9 : blob := "ontainerscri-odockergo-container registrylibpodSkopeoHelmharbor-registry-clientHarbor registry clientAxiosCarrierWaveDenoDownffmpegFileDownloadergit-annexGStreamerHTTP:TinyKaiOS DownloaderlibsoupAndroid License Verification LibraryPRDownloaderreqwestresty-requestsrubySafari View ServiceundiciEmacsFree Download ManagerOKDownload LibraryLibsyniOS Applicationcpp-httplibhttps://github.com/yhirose/cpp-httplibDefinitely-Not-RequestsRequestshttps://github.com/psf/requestsStealerhttps://github.com/hotrush/stealer/Mandrill PHPhttps://bitbucket.org/mailchimp/mandrill-api-php/src/master/Podgrabhttps://github.com/akhilrex/podgrabRadio Downloaderhttps://nerdoftheherd.com/tools/radiodld/ESP32 HTTP Clienthttps://github.com/espressif/arduino-esp32Babashka HTTP Clienthttps://github.com/babashka/http-clienthttp.rbhttps://github.com/httprb/httpsuperagenthttps://github.com/ladjs/superagentCakePHPhttps://www.cakephp.org/requesthttps://github.com/request/requestQbHttphttps://github.com/OpenQb/QbHttphttprsht".
Definition d_cr_buf_10 : blob := "tps://github.com/http-server-rs/http-serverBoto3https://github.com/boto/boto3XML-RPChttps://docs.python.org/3/library/xmlrpc.htmlICAP Clienthttps://github.com/Peoplecantfly/icapserverCygwinhttps://www.cygwin.com/Azure Blob Storagehttps://learn.microsoft.com/en-us/azure/storage/blobs/storage-quickstart-blobs-pythontrafilaturahttps://github.com/adbar/trafilaturasqlmaphttps://sqlmap.org/vimeo.phphttps://github.com/vimeo/vimeo.phpPHPgo-networkBunhttps://bun.sh/Apidoghttps://apidog.com/webchkhttps://github.com/amgedr/webchkMatomoTrackerhttps://github.com/matomo-org/matomo-sdk-iosLibHTTPhttps://www.libhttp.org/BIC Trackerhttps://github.com/Simbiat/BIC-TrackerLodestone PHP Parserhttps://github.com/Simbiat/lodestone-parserHubothttps://github.com/hubotio/hubotAudaciousAlexaBansheeBoxeeClementineDeezeriTunesFlyCastFoobar2000MediaMonkeyMiroNexPlayerNightingaleQuickTimeSongbirdSubStreamSONOSVLCWinampJRiver Media CenterWindows Media PlayerXBMCKodiStagefrightGoogle PodcastsMusic Player DaemonmpvHTC ".
Definition d_cr_buf_11 : blob := "Streaming PlayerSony Media GoMPlayerDowncastJuiceJust AudioKastsMixerBoxMusicBeeAmarokHubhopperStudioDisplayJHelioviewerXtream PlayerDIGAYouViewAmebaCSDNMoyaKPN VeiligNaverNAVER DictionarySoldierAndroidDownloadManagerApple NewsApple TVFacebook Audience NetworkFacebook Messenger LiteFacebook MessengerFacebook GroupsFacebook LiteMeta Business SuiteFacebookInstagramThreadsFeedRGoogle GoGoogle PhotosGoogle Play NewsstandGoogle PlusGoogle DriveGoogle AssistantGoogle MapsGoogleWeComWeChatWeChat Share ExtensionDingTalkSina WeiboPinterestPodcatcher DeluxeYouTubeRutubeNetflixFlippSignalWhatsApp BusinessWhatsAppWhatsApp+2FM WhatsAppGBWhatsAppYo WhatsAppAN WhatsAppTelegramYoutube MusicLineInstacastPocket CastsPodcatBeyondPodOvercastCastBoxPodkicker$1Podcast RepublicCastroCastro 2DoggCatcherPodcast & Radio AddictiCatcherYelp MobileYahoo! JapanRSSRadioSogouSearch AppNewsArticle Apptiebadouban AppGoogle Search AppGoogle LensFlipboard AppBaidu Box App LiteBaidu Box AppBaidu InputPetal SearchCrosswalk".
Definition d_cr_buf_12 : blob := "AppTwitterGaanaTopBuzzSnapchatCronetSnapDevSheldonAha Radio 2UniboxStrimioUnityPlayerU-CursosRobloxViberSiri/1Siri1.0LinkedInInstapaperKeeper Password ManagerSkyeng TeachersKikProcastDeviantArtDiscordCovenant EyesHP SmartBitsboardBetBull1PasswordMicrosoft Office $1Microsoft OfficeMicrosoft LyncMicrosoft Power QueryWPS OfficeMicrosoft OneDriveMicrosoft Office Existence DiscoveryMicrosoft Office MobileSkypeSkype for BusinessWebexTeamsWebex TeamsGroupMeTikTokTikTok LiteDouyinCopiedPic CollagePapersRoboFormSlackKakaoTalkShopeeSPORT1CloviaShowMeWattpadThe Wall Street JournalWH QuestionsWhisperOpal TravelZaloYandexZenZoho ChatThunderCGNPodbeanTuneIn Radio ProTuneIn RadioDevCastsSwootRadioPublicPodimoEvolve PodcastRocket ChatPandoraWirtschafts WocheTVirlChMate2tchCiisaaBB2CtwinkleJaneStyleBinanceMy WorldOdnoklassnikiYakYakTeamsSohuNewsStreamlabs OBSBlitzOfferUpVuhuvGoogle Fiber TVQuickCastAliExpressLazadaTaobaoAlipayBlue Proxyntvmobil/NTV MobilCOAF%20SMART%20Citizen/COAF SMART CitizenGitHub D".
Definition d_cr_buf_13 : blob := "esktopLogi Options+Emby TheaterY8 BrowserNuMuKi BrowserLandis+Gyr AIM BrowserVisual Studio CodeWiresharkMagicianSamsung MagicianRazer Central PCRazer SynapseGitWindows CryptoAPIMicrosoft-Delivery-OptimizationWindows Delivery OptimizationWindows-Update-AgentWindows Update AgentDr. WatsonqBittorrentCPU-ZAIDA64HandBrakeEdge UpdateChrome UpdateBose MusicHikConnectHik-ConnectCortanaOpera NewsAdobe Acrobat ReaderAdobe Creative CloudrekordboxWindows Push Notification ServicesBackground Intelligent Transfer ServiceERA Agent UpdateESET Remote AdministratorEpic Games LauncherMicrosoft-WebDAV-MiniRedirWebDAVBattle.netBookshelfRave SocialWord Cookies!Bible KJVMetaTraderPaint by NumberZEPETOJungle Disk Workgroup HTTPJungle DiskNextcloudGoNativeBlackboardTIMTencent DocsQQQQMusicetoro-cordova-appeToroAvid LinkGoogle Tag ManagerAdobe SynchronizerBlueStacksPowerShellGlobalProtectTheyubBBC NewsTradingViewInstabridgeBe FocusedFocus MatrixFocus KeeperWindowsStoreSDKMicrosoft StoreASUS UpdaterIMO HD Video ".
Definition d_cr_buf_14 : blob := "Calls & ChatIMO International Calls & ChatMicrosoft BingMSNMicrosoft CopilotHiSearchRDDocumentsF-Secure SAFETwitterrificUconnectLiveUconnect LIVEWayback%20Machine%20ExtensionWayback MachineQ-municateNET.medeMy%20BentleyMy BentleySkyeng%20AppSkyengSkyeng%20TeachersBank MilleniumMBolsaMEmpresasOrange RadioRadio ItalianeSafari Search HelperCitrix%20ViewerCitrix WorkspaceMercantile Bank of MichiganD-Stream%20AirDStream AirExpediaBookingsExpediaWindows AntivirusMacrium ReflectOpera autoupdate agentOpera UpdaterBallzRNPS Action CardsPlex Media ServerFreeSafeIPSafeIPSurfsharkHagoVuzeIPMAdobe IPMAdobe NGLBitcoin CoreDogecoin CoreAmazon Shoppingmobile.dejitsi-meet/Jitsi MeetDon't Waste My Time!iOSStartsidenAppStartsidenHisThumbnailYahoo OneSearchanonymized by AbelssoftAntiBrowserSpyBrowser-AnonymizerDaumAT&T TVDIRECTVRedditTuya Smart LifeSpotifyAmazon MusicKlarnaRRadioAppFree/RadioAppAudibleHTTP request makerBonPrixQuoraJJ2GOMy Watch PartyLoseIt!ActionExtensionAdoriAgoraAirrAirsonicAll You Can ".
Definition d_cr_buf_15 : blob := "BooksAllHitMusicRadioAmazon FireAnchorAnchorFMAnghamiAntennaPodAnyboxAnytime Podcast PlayerAPK DownloaderApolloApple iMessageApple PodcastsApple RemindersArvocastAudacyAudioAudio NowAwasuBearBibleBoltBookmobileBoomBoomplayBose SoundTouchbPodBreezBroadcastBroadwayPodcastNetwork/iOSBroadway Podcast NetworkBrowser appBrowserPlusBullhornCapitalcapsule.fmCastamaticCastawayClassic FMClientCosmicastCPodDamusDe StandaardDManagerDoubleTwist CloudPlayerDoughnutDownieDownloaderEMAudioPlayerExpofaidrFathomFeedStationFilesFountainGarmin fenix 5XGarmin ForerunnerGoldGoldenPodGoLoudGoodpodsGoodReaderGoogle Nest HubGuacamoleHammelHardCastHark AudioHeartHermesPodHiCastHimalayaHyperCatcheriHeartRadioAudiobooksiVooxJamJioSaavnKajabiKids ListenKidsPodKKBOXLaughableLBCLG PlayerListenLiuloJust ListenLuminaryMegaphoneMenucastMessengerXMimirMobileSMSMoonFMMyTunerNewslyNRC AudioNRCOutcastOverhaul FMPalco MP3PeaCastPlayer FMPodbayPodcast GuruPodcast PlayerPodcastlyPodchaserPodclipperPodCruncherPodeoPodfriendPod".
Definition d_cr_buf_16 : blob := "heroPodKastPodkicker ProPodLPPodMePodMNPodNLPodopoloPodplayPodsPoduramaPodTrapperPodvinePodversePodysseyPugPig Boltradio.$1GetPodcastRadio NextRadiolineRepodRhythmboxSachNoiSamsung PodcastsServeStreamShadowShadowrocketSiriusXMSnipd'sodesSonnetSony PlayStation 5SoundOnSoundWavesSpreakerStitcherStoryShotsSwinsianPodcast AppTreble.fmTurtlecastUbook PlayerVictor Reader Stream TrekVictor Reader Stream 3Victor Reader Stream New GenerationVodacastWynk MusicXiao Yu ZhouYandex MusicYapaZuneUCastNPRUforiaL.A. TimesThe New York TimesLiSTNRpodUTiviMateIPTVIPTV ProAudialsCoolerMetacastmowPodRSSDemonVirgin RadioMetaMask+SimpleBitwardenMX PlayerHistoryHoundQuicksilverCamScannerOBS StudioXSplit BroadcasterTwitch StudioStream MasterFreespokeWhatplayLarkSearchCraftCrypto.com DeFi WalletClipbox+appname/HideXHideXHuawei Mobile Servicesappname/PLAYitPLAYitAutoplius.ltHotels.comCoinbaseDe Telegraafwaipu.tvRedditorBuzzVideoTrade MeXINGBridgeiPlayTVMOMOnateSoFiWNYCThe Epoch TimesReuters NewsWatchFree+Obsidian".
Definition d_cr_buf_17 : blob := "PerplexityXShareVishaThe Crosswordmojeek-appMojeekFiddler ClassicZEIT ONLINETracePalTopSecret ChatKwaiKwai ProSOOPGoEuroBoom360Walla NewsTRP Retail LocatorTownNews NowKlaraEdmodoHeartFocus EducationHeartFocusOpenVASappdbsmzdmZiteDeepL/DeepLAnything LLMOP.GGVidJuice UniTubeSeekrSuperbalistKeplrLookrKimigensparkGensparkHuluTeraBoxDeepSeekChatGPTRedline$1$2Outlook ExpressMicrosoft OutlookWindows MailThunderbirdSpicebirdAirmailLotus NotesBarcaPostboxMailBarThe Bat!DAVdroidSeaMonkeyLive5chJaneView/JaneViewBathyScaphe/BathyScapheRaindrop.ioFranzMailspringNotionBasecampEvernoteRambox ProMailbirdYahoo%20MailYahoo MailYahoo! MaileM ClientNAVER MailApple MailFoxmailMail MasterBlueMailMailAppAndroid-GmailGmail".
(** client_repo.go:3099-4207. *)
Definition d_cr_buf : bytes :=
  concat (map unblob [d_cr_buf_0; d_cr_buf_1; d_cr_buf_2; d_cr_buf_3; d_cr_buf_4; d_cr_buf_5; d_cr_buf_6; d_cr_buf_7; d_cr_buf_8; d_cr_buf_9; d_cr_buf_10; d_cr_buf_11; d_cr_buf_12; d_cr_buf_13; d_cr_buf_14; d_cr_buf_15; d_cr_buf_16; d_cr_buf_17]).

