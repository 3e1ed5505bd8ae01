(** The device patterns (part 2 of 2).  Written by tools/gen_tables.py from the sources; do not edit. *)
From Verif Require Import Model_Base Model_Blob Model_Ctx.
Open Scope N_scope.
Open Scope blob_scope.

Definition d_dr_re1_0 : list blob := [
  "(?i)S?Nexian-([a-z0-9]+)";
  "(?i)^NEXT |LGE; YE-[0-9a-z]+(?:-4K)?;|MyBox(?:[);/ ]|$)";
  "(?i)MyBox(?:[);/ ]|$)";
  "(?i)LGE; (YE-[0-9a-z]+)-4K;";
  "(?i)LGE; (YE-[0-9a-z]+);";
  "(?i)Next[0-9]|NX(?:785QC8G|M900MC|008HD8G|010HI8G|M908HC|M726|16A8116K|A8QC116|A8LTE116|16A10132S|16A11264|A116QC164|A101LTE116)|(?:BRT81)(?:[);/ ]|$)";
  "(?i)(BRT81)(?:[);/ ]|$)";
  "(?i)Next([0-9]+[^;/]+) Build";
  "(?i)TAB (A40[13]0)(?:[);/ ]|$)";
  "(?i)Nextbit|(?:Robin)(?: Build|\))";
  "(?i)(Robin)(?:[);/ ]|$)";
  "(?i)NOAIN[ _-]([^;/]+) Build";
  "(?i)NOAIN[ _-]([^;/)]+)(?:[;/)]|$)";
  "(?i)Nobby[ ](S500|X800(?: Pro)?|S300(?: Pro)?)(?:[);/ ]|$)";
  "(?i)Noblex|NBX-|(?:A[56]0UNS|T7A6INC|T7A6N)(?:[);/ ]|$)";
  "(?i)(?:Noblex|NBX)[ _-]([^;/]+) Build";
  "(?i)(?:Noblex|NBX)[ _-]([^;/)]+)(?:[;/)]|$)";
  "(?i)(A[56]0)UNS";
  "(?i)(T7A6INC|T7A6N)";
  "(?i)Nokia|Lumia|Maemo RX|portalmmm/2\.0 N7|portalmmm/2\.0 NK|nok[0-9]+|Symbian.*\s([a-z0-9]+)$|RX-51 N900|TA-[0-9]{4}|N(?:1374|1530|15[01256])DL|ARM; 909";
  "(?i)TA-10(07|23|29|35)";
  "(?i)TA-10(20|28|32|38)";
  "(?i)TA-10(24|27|44|53)";
  "(?i)TA-10(00|03|21|25|33|39|54)";
  "(?i)TA-10(04|12|52)";
  "(?i)Nokia 6\.1 Plus";
  "(?i)Nokia 5\.1 Plus";
  "(?i)Nokia 3\.1 Plus";
  "(?i)Nokia 2 V(?:[);/ ]|$)";
  "(?i)Nokia[_ ]Xplus";
  "(?i)Nokia ?X2DS";
  "(?i)(?: )?(Nokia500|nokiaasha500(?:dualsim)?)(?: Build|[_);/])";
  "(?i)Nokia5130c(?:-2)?";
  "(?i)Nokia8800e?";
  "(?i)Nokia808 ?PureView";
  "(?i)Nokia ?([0-9]{4})c(?:-)?";
  "(?i)Nokia ?([0-9]{4})s(?:-)?";
  "(?i)Nokia[ _]?([0-9]{4})[ _]?Flip";
  "(?i)Nokia[ _]?([0-9]{4})[ _]?V[ _]?Flip";
  "(?i)Nokia ?([0-9]{4})";
  "(?i)(?: )?Nokia([235][0-9]{2})(?: Build|[_);/])";
  "(?i)Nokia([CEX]-?[0-9]{1,2}i?)-[0-9]{1,2}u?(?: Build|[_);/])";
  "(?i)Nokia;? 520T";
  "(?i)RM-91[45]";
  "(?i)RM-997|Nokia 526";
  "(?i)RM-97[68]";
  "(?i)RM-97[45]";
  "(?i)NOKIA;? 710";
  "(?i)Nokia;? 720T";
  "(?i)RM-103[89]";
  "(?i)Nokia;? 800C";
  "(?i)Nokia;? 800";
  "(?i)Nokia;? 900";
  "(?i)(RM-82[12]|Nokia;? 920)(?: Build|[_);/])";
  "(?i)(RM-89[23]|RM-910|Nokia;? 925)(?: Build|[a_);/])";
  "(?i)(ARM; 909|NOKIA;? 909|NOKIA; id300)(?: Build|[_);/])";
  "(?i)NOKIA;? 1520\.1";
  "(?i)Nokia T([12]0|21)";
  "(?i)Streaming (Stick 800|Box 8000)(?:[);/ ]|$)";
  "(?i)Nokia ([A-Za-z0-9\. ]+)(?: Build|\))";
  "(?i)Nokia(N[0-9]+)";
  "(?i)Nokia-([a-z0-9]+)";
  "(?i)NOKIA; ([a-z0-9\- ]+)";
  "(?i)NOKIA[ _]?([a-z0-9-]+)";
  "(?i)NOKIA/([a-z0-9 ]+)";
  "(?i)(Lumia [a-z0-9-]+ XL)";
  "(?i)(Lumia [a-z0-9-]+)";
  "(?i)Maemo RX-51 ([a-z0-9]+)";
  "(?i)NokiaInternal|Nokia-WAP-Toolkit|Nokia-MIT-Browser|Nokia Mobile|Nokia Browser|Nokia/Series";
  "(?i)portalmmm/2\.0 (N7[37]|NK[a-z0-9]+)";
  "(?i)nok([0-9]+)";
  "(?i)Symbian.*\s([a-z0-9]+)$";
  "(?i)Nomi[ _-]|(C101010 Ultra2|i501[234]|i5032|i50[537]0|i5031|i55[13]0|i5532|C0(700(?:[02358]|2HD)|7850)|C1010[0-3]|i(?:50[0158]|450|40[01]|55[02])|i504 Dream|AB5116-01)(?:[);/ ]|$)";
  "(?i)i501[23](?:[);/ ]|$)";
  "(?i)Nomi[ _]i5010(?:[);/ ]|$)";
  "(?i)Nomi[ _]i5001(?:[);/ ]|$)";
  "(?i)Nomi[ _]i5011(?:[);/ ]|$)";
  "(?i)Nomi[ _]i506(?:[);/ ]|$)";
  "(?i)Nomi[ _]i5730(?:[);/ ]|$)";
  "(?i)Nomi[ _]i6030(?:[);/ ]|$)";
  "(?i)I5070(?:[);/ ]|$)";
  "(?i)i5071(?:[);/ ]|$)";
  "(?i)Nomi[_ ]I4070(?:[);/ ]|$)";
  "(?i)i5014(?:[);/ ]|$)";
  "(?i)i5032(?:[);/ ]|$)";
  "(?i)i5030(?:[);/ ]|$)";
  "(?i)i5031(?:[);/ ]|$)";
  "(?i)i5050(?:[);/ ]|$)";
  "(?i)(?:Nomi_)?i4510(?:[);/ ]|$)";
  "(?i)(?:Nomi_)?i4500(?:[);/ ]|$)";
  "(?i)i5532(?:[);/ ]|$)";
  "(?i)i5510(?:[);/ ]|$)";
  "(?i)i5530(?:[);/ ]|$)";
  "(?i)Nomi[_ ]i5511(?:[);/ ]|$)";
  "(?i)(?:Nomi_)?i5710(?:[);/ ]|$)";
  "(?i)i508(?:[);/ ]|$)";
  "(?i)(?:Nomi[ _])?i(50[015]|450|40[01]|55[02])(?:[);/ ]|$)";
  "(?i)Nomi[ _]i507(?:[);/ ]|$)";
  "(?i)Nomi[ _]i503(?:[);/ ]|$)";
  "(?i)(?:Nomi[ _]i504|i504 Dream)(?:[);/ ]|$)";
  "(?i)Nomi[ _](\w+)[ _]PLUS(?:[);/ ]|$)";
  "(?i)(AB5116-01)(?:[);/ ]|$)";
  "(?i)(?:Nomi_)?C101040";
  "(?i)(?:Nomi_)?C101030";
  "(?i)(?:Nomi_)?C101012";
  "(?i)(?:Nomi_)?C101014";
  "(?i)(?:Nomi_)?C101034";
  "(?i)(?:Nomi_)?C101044";
  "(?i)(?:Nomi_)?C070010";
  "(?i)(?:Nomi_)?C070020";
  "(?i)(?:Nomi_)?C070011";
  "(?i)(?:Nomi_)?C070030";
  "(?i)(?:Nomi_)?C070012";
  "(?i)(?:Nomi_)?C070014L";
  "(?i)(?:Nomi_)?C0700[13]4";
  "(?i)(?:Nomi_)?C070044";
  "(?i)(?:Nomi_)?C080012";
  "(?i)(?:Nomi_)?C080010";
  "(?i)(?:Nomi_)?C080034";
  "(?i)(?:Nomi_)?C080014";
  "(?i)(?:Nomi_)?C07008";
  "(?i)(?:Nomi_)?C10105";
  "(?i)(?:Nomi[ _])?(C0(?:700(?:[0235]|2HD)|7850|9600)|C1010[0-3])(?:[);/ ]|$)";
  "(?i)Nomi[ _-]([^;/]+) Build";
  "(?i)Nomi[ _-]([^;/)]+)(?:[;/)]|$)";
  "(?i)(?:Nomu[ _-](?:T18|S30mini|S10)|(?:V1600S|S10 PRO|S50_Pro)|LMCV1|Xeno V1)(?:[);/ ]|$)";
  "(?i)Nomu[ _-]T18(?:[);/ ]|$)";
  "(?i)Nomu[ _-]s10(?:[);/ ]|$)";
  "(?i)Nomu[ _-]S30mini(?:[);/ ]|$)";
  "(?i)LMCV1(?:[);/ ]|$)";
  "(?i)S([15]0)[_ ]PRO(?:[);/ ]|$)";
  "(?i)(V1600S)(?:[);/ ]|$)";
  "(?i)(Xeno V1)(?:[);/ ]|$)";
  "(?i)(Y-(?:4301|4001)-FHD-R)(?:[);/ ]|$)";
  "(?i)NORDMENDE[ _;,]";
  "(?i)NORDMENDE[_ ](43NM6000F|55NM6000U)(?:[);/ ]|$)";
  "(?i)(NT-TP10)(?:[);/ ]|$)";
  "(?i)Nos (?:FIVE|NOVU|NEVA|Roya)(?:[);/ ]|$)";
  "(?i)NOS FIVE(?:[);/ ]|$)";
  "(?i)NOS NOVU III(?:[);/ ]|$)";
  "(?i)NOS NOVU II(?:[);/ ]|$)";
  "(?i)NOS NOVU(?:[);/ ]|$)";
  "(?i)NOS NEVA 80(?:[);/ ]|$)";
  "(?i)NOS Roya(?:[);/ ]|$)";
  "(?i)(?:A06[35]|AIN065|A142P?|Phone \(2a\)|A059P?)(?:[);/ ]|$)";
  "(?i)A063|A015";
  "(?i)A(?:IN)?065";
  "(?i)A142|Phone \(2a\)";
  "(?i)(?:NS(?:[356]|500[2-68]|5511|5502)|NS 5511)(?:[);/ ]|$)";
  "(?i)NS 5511(?:[);/ ]|$)";
  "(?i)(NS[0-9]{1,4})(?:[);/ ]|$)";
  "(?i)SPYBOXS11_PLUS(?:[);/ ]|$)";
  "(?i)SPYBOXS11(?:[);/ ]|$)";
  "(?i)(NWX-40F171MSY|NVX-32H219MSY|NVX-43U329MSY|NVX-39H211MSY|NWX-43F149MSYv?|NWX-24H121MSY|NWX-24H121WSY|NWX-32H171MSY|NVX-55U321MSY|NVX-50U329MSY|NWX-65U169TSY-A|NVX-65U321MSY|NVX-75U131MSY)x?(?:[);/ ]|$)";
  "(?i)Novey|(?:Pro K10|(?:Force (?:F15|G20)|Alpha A1[06]))(?:[);/ ]|$)";
  "(?i)Force (F15|G20)";
  "(?i)Alpha A(1[06])";
  "(?i)Novey (L2)(?:[);/ ]|$)";
  "(?i)NoviSea[ _](A10)(?:[);/ ]|$)";
  "(?i)NEO \[Reloaded\](?:[);/ ]|$)";
  "(?i)(TM800A620M|TM101A620M)(?:[);/ ]|$)";
  "(?i)Nubia[ _]|(?:NX(?:302J|403A|404H|406E|40[X2]|503A|50[5678]J|51[0123]J|521J|523J_V1|529Jq?|5[345]1J|5[48]9J|569[HJ]|5[67]3J|575J|59[157]J|60[1689]J|61[12679]J|62[79]J|65[19]J|6[126]9J|66[67]J|679[JS]|70[129]J|71[123]J|72[1459]J|73[367]J|769J|779J|709S|907J|789J)|NP0[13]J|Z235[12]N|Z6255CA|Z2353|Z246[45]N|NT01|NP05J)(?:[);/ ]|$)";
  "(?i)NP0[13]J";
  "(?i)NT01(?:[);/ ]|$)";
  "(?i)Z246[45]N";
  "(?i)NX679[JS]";
  "(?i)NX40[X2]";
  "(?i)NX(403[AE]|406E|404H)";
  "(?i)(?:NX5[12]1J|Nubia Z9 mini)";
  "(?i)(?:NX510J|Nubia Z9 Max)";
  "(?i)(?:NX549J|Nubia Z11 mini S)";
  "(?i)(?:NX529Jq?|Nubia Z11 mini)";
  "(?i)NX569[HJ]";
  "(?i)NX6(?:08|17)J";
  "(?i)Nubia[_ ]([^;)/]+)( build|[;)])";
  "(?i)Nuvo[_ ](NS35|Blue ND40|Green[_ ]ND[_ ]45)(?:[);/ ]|$)";
  "(?i)Nuvo[_ ](NS35)(?:[);/ ]|$)";
  "(?i)Blue (ND40)(?:[);/ ]|$)";
  "(?i)Green[_ ]ND[_ ]45(?:[);/ ]|$)";
  "(?i)NVIDIA|SHIELD|Tegra(Note-P1640| Note 7)|wx_na_wf|wx_un_do";
  "(?i)wx_na_wf|wx_un_do";
  "(?i)(SHIELD Tablet(?: K1)?|Tegra Note 7)(?: Build|[;)])";
  "(?i)SHIELD Andr[o0]id TV";
  "(?i)O\+[ _](Presto 700 LTE|FAB GO|360|8\.(?:3[178]z|[15]2|37y|3[38]|9[12378]|1[75]|6)|Air|Grande|Crunch|Ultra|Xfinit|Upsized|Venti|EVO 4G|Sonic|360[ _]ALPHA[ _]PLUS[ _]2\.0|360[ _]HD[ _]2\.0|Stream HDTV)";
  "(?i)O\+[ _](Presto 700 LTE|Grande|Crunch|Ultra 2\.0|Xfinit|Ultra Lite|Ultra|Sonic|Upsized|Venti 4G|EVO 4G|8\.(?:3[178]z|37y|3[38]|[15]2|9[12378]|1[75]|6))";
  "(?i)O\+_AIR";
  "(?i)O\+[ _]360[ _]HD[ _]2\.0";
  "(?i)O\+[ _]360[ _]HD";
  "(?i)O\+[ _]360[ _]ALPHA[ _]PLUS[ _]2\.0";
  "(?i)O\+[ _]360 ALPHA Plus";
  "(?i)O\+[ _]360 ALPHA";
  "(?i)O\+[ _]360";
  "(?i)O\+ Stream HDTV";
  "(?i)O\+ FAB GO";
  "(?i)Xda|O2[ -]|COCOON";
  "(?i)O2 TV Box(?:[);/ ]|$)";
  "(?i)(Xda[ _][a-z0-9_]+)";
  "(?i)(COCOON)";
  "(?i)O2-(X[12]i|X4)";
  "(?i)O2 ([a-z0-9 ]+)"
].
Definition d_dr_re1_1 : list blob := [
  "(?i)O2-([a-z0-9]+)";
  "(?i)(TEG9300)(?:[);/ ]|$)";
  "(?i)OINOM[_ ](V9D|V7H|V[679])(?:[);/ ]|$)";
  "(?i)(GEN-10|GT1001)(?:[);/ ]|$)";
  "(?i)(?:OKWU SIGMA|PI[_ ]Plus)(?:[);/ ]|$)";
  "(?i)PI[_ ]Plus";
  "(?i)OLTO[_-]|(?:43ST20[HU]|32ST[23]0H)(?:[);/ ]|$)";
  "(?i)(?:OLTO-)?(\d{2}ST\d{2}[HU])";
  "(?i)OMIX[ _.]|(?:X600 NFC|O1 Neo|O1 Icon|Android 1[12](?:[\d.]*);(?: [\w-]+;)? X[467]00)(?:[);/ ]|$)";
  "(?i)X(\d*)";
  "(?i)onn\.|Onn 2k|(?:1000(?:7148[135]|0356[12]|0520[6-9]|11886(?:C?A|_GTW)|26191|43279|44018G?|7148[1356]A?|92980A?|1188[56]|15685-[AE])|ONA19TB00[327]|1001(?:10027|10603|4666[03]|35794|3592[0345])|O8HD|TBBVNC10000520[78])(?:[);/ ]|$)";
  "(?i)(1000(?:92980A?|7148[135]A|0356[12]|0520[6-9]|11886(?:C?A|_GTW)|1188[56]|15685-[AE]|26191|43279|44018G?|7148[1356]A?)|ONA19TB00[327]|O8HD|1001(?:4666[03]|10027|10603|35794|3592[0345])|TBBVNC10000520[78])(?:[);/ ]|$)";
  "(?i)(4K Streaming Box)";
  "(?i)ONVO[ _]|\d{2}OV|(?:Apollo Premium4K TV|0V50500|OV43400)(?:[);/ ]|$)";
  "(?i)(0V50500|OV43400)[,;]?";
  "(?i)(?:ONVO[_ ])?(\d{2}OV[a-z0-9]+)(?:[);/ ]|$)";
  "(?i)Apollo Premium4K TV(?:[);/ ]|$)";
  "(?i)(?:KON_TIKI(2)?|Nova3Color|GoColor7|Lomonosov3?|Poke2Color|NovaAirC|NoteAir(?:2P?|[34]C)|TabUltraCPro|LIVINGSTONE[23]|MC_FAUST[23]|DARWIN[9X]|MC_DARWIN[678]|MC_GAMA4|MC_Cristo4|MC_NovaPro|VOLTA[45]|Kon_Tiki3|FAUST[56]|GALILEO|Poke3|KANT2)(?:[);/ ]|$)";
  "(?i)VOLTA([45])";
  "(?i)KON_TIKI([23])?";
  "(?i)Lomonosov(3)";
  "(?i)(?:MC_)?FAUST([2356])";
  "(?i)(?:MC_)?DARWIN([6789X])";
  "(?i)LIVINGSTONE([23])";
  "(?i)NoteAir([34])C";
  "(?i)(?:OB-)?OPPO[ _]?([a-z0-9]+)|N1T|R8001|R820[16]|A101OP|OPG0[1-4]|A00[12]OP|(?:X90[07][0679]|U70[57]T?|X909T?|R(?:10[01]1|2001|201[07]|6007|7005|7007|80[13579]|81[13579]|82[01379]|83[013]|800[067]|8015|810[679]|811[13]|820[057]|15 Neo)[KLSTW]?|N520[79]|N5117|A33[wf]|A33fw|A37fw?|PAAM00|A303OP|PAAT00|PAC[TM]00|R7kf|R7plus[fmt]?|A1601|CPH[0-9]{4}|CPH19(69|79|23|1[179])|PB(A[TM]00|CT10|BT30|CM[13]0|[FD]M00)|P(E[RFHG]M\d{2}|E[GH]T\d{2}|DAM10|ADM00|AF[TM]00|ADT00|AHM00|BBM[03]0|BBT00|BDT00|BFT00|[CB]E[MT]00|CA[MT]00|C[CDG]M00|CA[MT]10|[CD]PM00|CRM00|CDT00|CD[TM]10|CHM[013]0|CKM[08]0|CLM[15]0|DEM[13]0|DHM00|D[RK][TM]00|DPT00|DB[TM]00|DCM00|[CD]NM00|DVM00|DY[TM][12]0|DNT00|EA[TM]00|CRT01|EDM00)|PFDM00|PEG[MT]10|PEM[MT][02]0|PDCT00|PDET10|PDS[TM]00|PEC[MT]30|PE[QYPEXNLU]M00|PCHT[13]0|PCRT00|PFGM00|PF[VU]M10|A102OP|PFCM00|PFJM10|PGCM10|PECM20|PDAT10|A103OP|PCCT00|PFTM[12]0|PFFM20|OW19W[123]|OW20W1|PGJM10|PGAM10|PF[EF]M10|Reno ?(?:[4567]|Ace|1[012])|Find X[23]|Find N| R7sf| 1201|[56].*; (?:R7[gf])|OPD(?:210[12]A?|220[12]|230[123]|240[19])|PFZM10|PGIM10|A1603|A201OP|PESM10|PGBM10|PH[WQJMU]110|PH[AY]120|PGGM10|PG[WX]110|PGU110|PCCM40|PGT110|PGEM10|RX17Neo|R15 Dream Mirror|R9 Plustm A|PGFM10|A301OP|P(?:J[CGJSU]|H[FVSTNYZ])110|K9 Pro 5G| K9[xs]|CPH1821EX|PJ[HYBVRW]110|CHP(?:1723|2219|2365)|PKD130|RX17Pro|F7 Youth|A302OP|PJT110|PK[ABCDVJHPLKSTMZQUW]110|PL[ABEDJNM]110|PKC130|PJU110_A1|PHJ110_A1|PKH120|PERM10_K10)(?:[);/ ]|$)";
  "(?i)PCH[TM]10(?:[);/ ]|$)";
  "(?i)PHQ110(?:[);/ ]|$)";
  "(?i)PJU110|PJS110|PHJ110_A1";
  "(?i)CPH2681|PKD130";
  "(?i)PKA110|CPH2693";
  "(?i)PJY110|CPH2665|CPH2639";
  "(?i)PKP110|CPH2695";
  "(?i)PCHT30(?:[);/ ]|$)";
  "(?i)(?:CPH2083|CPH2077)(?:[);/ ]|$)";
  "(?i)(?:CPH2179)(?:[);/ ]|$)";
  "(?i)(?:CPH2271)(?:[);/ ]|$)";
  "(?i)CPH2349|CPH2351";
  "(?i)CPH22(?:69|75)(?:[);/ ]|$)";
  "(?i)(?:OPPO[ _]?)?(CPH1837|CPH2669|PAD[TM]00)(?:[);/ ]|$)";
  "(?i)(?:OPPO[ _]?)?A37f(w)(?:[);/ ]|$)";
  "(?i)A37f(?:[);/ ]|$)";
  "(?i)CPH2579(?:[);/ ]|$)";
  "(?i)(?:OPPO[ _]?)?CPH1605(?:[);/ ]|$)";
  "(?i)PESM10(?:[);/ ]|$)";
  "(?i)CPH20(?:81|73|31|15)(?:[);/ ]|$)";
  "(?i)CPH2137(?:[);/ ]|$)";
  "(?i)(?:OPPO[ _]?)?(?:CPH18(?:0[35]|53)|PBBM30)(?:[);/ ]|$)";
  "(?i)(?:OPPO[ _]?)?(?:CPH1809|PBA[TM]00|PBBT30)(?:[);/ ]|$)";
  "(?i)CPH19(?:3[13]|43)(?:[);/ ]|$)";
  "(?i)(?:PEC[MT]30|PECM20)(?:[);/ ]|$)";
  "(?i)PDVM00(?:[);/ ]|$)";
  "(?i)PEFM00(?:[);/ ]|$)";
  "(?i)(?:PDA[TM]10|CPH2069|CPH2061)(?:[);/ ]|$)";
  "(?i)CPH(?:2127|213[19])(?:[);/ ]|$)";
  "(?i)CPH2135(?:[);/ ]|$)";
  "(?i)CPH2321(?:[);/ ]|$)";
  "(?i)(?:CPH2195|OPG02|CPH2303)(?:[);/ ]|$)";
  "(?i)(?:CPH2239|CPH2241)(?:[);/ ]|$)";
  "(?i)CPH2273(?:[);/ ]|$)";
  "(?i)PEM[MT][02]0(?:[);/ ]|$)";
  "(?i)CPH2631|CPH3669";
  "(?i)(?:A102OP|CPH2309)(?:[);/ ]|$)";
  "(?i)(?:OPPO[ _]?)?(?:CPH170[15]|CPH2407)(?:[);/ ]|$)";
  "(?i)PFTM20|CPH2387";
  "(?i)CPH19(?:09|1[02])(?:[);/ ]|$)";
  "(?i)(?:OPPO[ _]?)?(?:CPH190[15]|PBF[TM]00)(?:[);/ ]|$)";
  "(?i)(?:OPPO[ _]?)?CPH1717(?:[);/ ]|$)";
  "(?i)(?:OPPO[ _]?)?CPH1801(?:[);/ ]|$)";
  "(?i)(?:OPPO[ _]?)?(?:PDY[TM]20|CPH2067)(?:[);/ ]|$)";
  "(?i)CPH(?:2161|2099)(?:[);/ ]|$)";
  "(?i)(?:CHP|CPH)2219(?:[);/ ]|$)";
  "(?i)CPH2263(?:[);/ ]|$)";
  "(?i)(?:OPPO[ _]?)?(?:PDY[TM]10)(?:[);/ ]|$)";
  "(?i)(?:OPPO[ _]?)?(?:CPH1715)(?:[);/ ]|$)";
  "(?i)(?:OPPO[ _]?)?(?:CPH2339|CPH2385)";
  "(?i)(?:OPPO[ _]?)?(?:CPH2495|CPH2483)";
  "(?i)(?:OPPO[ _]?)?CPH2565";
  "(?i)(?:OPPO[ _]?)?A79kt";
  "(?i)(?:OPPO[ _]?)?(?:CPH255[37]|A303OP)";
  "(?i)(?:OPPO[ _]?)?CPH2473";
  "(?i)PCD[TM]00(?:[);/ ]|$)";
  "(?i)(PBBT00|PBBM00)(?:[);/ ]|$)";
  "(?i)(?:OPPO[ _]?)?(?:PDBM00)(?:[);/ ]|$)";
  "(?i)(?:OPPO[ _]?)?CPH1729(?:[);/ ]|$)";
  "(?i)(?:OPPO[ _]?)?CPH1827(?:[);/ ]|$)";
  "(?i)(?:OPPO[ _]?)?(?:PCA[TM]10|CPH193[89])(?:[);/ ]|$)";
  "(?i)(CPH1937|CPH1941|PCHM30)(?:[);/ ]|$)";
  "(?i)(?:PCPM00|CPH20[02]1)(?:[);/ ]|$)";
  "(?i)CPH2059(?:[);/ ]|$)";
  "(?i)PDK[TM]00(?:[);/ ]|$)";
  "(?i)(?:PEH[MT]00|CPH212[13])(?:[);/ ]|$)";
  "(?i)(?:PFGM00)(?:[);/ ]|$)";
  "(?i)CPH2203(?:[);/ ]|$)";
  "(?i)CPH2333(?:[);/ ]|$)";
  "(?i)(?:CPH2197)(?:[);/ ]|$)";
  "(?i)CHP2365|CPH2365";
  "(?i)PCE[TM]00(?:[);/ ]|$)";
  "(?i)(?:OPPO[ _]?)?CPH1851(?:[);/ ]|$)";
  "(?i)CPH1920(?:[);/ ]|$)";
  "(?i)(?:OPPO[ _]?)?CPH1903(?:[);/ ]|$)";
  "(?i)CPH2455|CPH2461";
  "(?i)(?:OPPO[ _]?)?X9009(?:[);/ ]|$)";
  "(?i)CPH191[135](?:[);/ ]|$)";
  "(?i)CPH19(?:69|87)(?:[);/ ]|$)";
  "(?i)(?:OPPO[ _]?)?CPH2095";
  "(?i)(?:OPPO[ _]?)?(?:CPH2119)(?:[);/ ]|$)";
  "(?i)(?:OPPO[ _]?)?A1601(?:[);/ ]|$)";
  "(?i)(?:OPPO[ _]?)?CPH1609(?:[);/ ]|$)";
  "(?i)(?:OPPO[ _]?)?CPH1613(?:[);/ ]|$)";
  "(?i)(?:OPPO[ _]?)?(?:CPH172[37]|CHP1723)(?:[);/ ]|$)";
  "(?i)(?:OPPO[ _]?)?CPH1725(?:[);/ ]|$)";
  "(?i)(?:OPPO[ _]?)?CPH18(?:[15]9|21|21EX)(?:[);/ ]|$)";
  "(?i)(?:OPPO[ _]?)?(?:CPH1825|CPH1881)(?:[);/ ]|$)";
  "(?i)(?:OPPO[ _]?)?CPH1823(?:[);/ ]|$)";
  "(?i)(?:OPPO[ _]?)?CPH2223(?:[);/ ]|$)";
  "(?i)(?:OPPO[ _]?)?(?:CPH2285|F19 Pro)(?:[);/ ]|$)";
  "(?i)(?:OPPO[ _]?)?CPH2213(?:[);/ ]|$)";
  "(?i)(?:OPPO[ _]?)?X909T?(?:[);/ ]|$)";
  "(?i)(?:OPPO[ _]?)?R827T?(?:[);/ ]|$)";
  "(?i)(?:OPPO[ _]?)?X907[067](?:[);/ ]|$)";
  "(?i)(?:OPPO[ _]?)?X900[067](?:[);/ ]|$)";
  "(?i)(?:OPPO[ _]?)?PEUM00";
  "(?i)(?:OPPO[ _]?)?Find N(?:[);/ ]|$)";
  "(?i)(?:OPPO[ _]?)?(?:PGU110|CPH2439)(?:[);/ ]|$)";
  "(?i)(?:OPPO[ _]?)?(?:CPH2437|PGT110)(?:[);/ ]|$)";
  "(?i)(?:OPPO[ _]?)?(?:CPH2519|PHT110)(?:[);/ ]|$)";
  "(?i)(?:OPPO[ _]?)?(?:PHN110|CPH2499)";
  "(?i)(?:OPPO[ _]?)?(?:PKH1[12]0|CPH2671)";
  "(?i)(?:OPPO[ _]?)?R815[TW]?(?:[);/ ]|$)";
  "(?i)(?:OPPO[ _]?)?R8015(?:[);/ ]|$)";
  "(?i)(?:OPPO[ _]?)?R8111(?:[);/ ]|$)";
  "(?i)(?:OPPO[ _]?)?R821T?(?:[);/ ]|$)";
  "(?i)(?:OPPO[ _]?)?U707T?(?:[);/ ]|$)";
  "(?i)(?:OPPO[ _]?)?U705T(?:[);/ ]|$)";
  "(?i)(?:OPPO[ _]?)?(?:CPH187[15]|PAF[MT]00)(?:[);/ ]|$)";
  "(?i)(?:OPPO[ _]?)?(?:PAHM00)(?:[);/ ]|$)";
  "(?i)(?:OPPO[ _]?)?(?:PDE[TM]10|CPH2023)(?:[);/ ]|$)";
  "(?i)(?:OPPO[ _]?)?(?:CPH2005|Find X2 Lite)(?:[);/ ]|$)";
  "(?i)(?:OPPO[ _]?)?(?:PDEM30|OPG01|CPH2025|Find X2 Pro)(?:[);/ ]|$)";
  "(?i)PEDM00(?:[);/ ]|$)";
  "(?i)Find X3 Neo(?:[);/ ]|$)";
  "(?i)(?:PEEM00|CPH2173|OPG03|Find X3 Pro)(?:[);/ ]|$)";
  "(?i)Find X3 Lite(?:[);/ ]|$)";
  "(?i)CPH2307|PFFM10";
  "(?i)CPH2305|PFEM10|PFFM20";
  "(?i)PKC1[13]0|CPH2659";
  "(?i)PK[JU]110";
  "(?i)CPH2651|PKB110";
  "(?i)(?:OPPO[ _]?)?R1011 Build";
  "(?i)(?:OPPO[ _]?)?(PBC(?:M30|T10))(?:[);/ ]|$)";
  "(?i)A1603(?:[);/ ]|$)";
  "(?i)CPH1955(?:[);/ ]|$)";
  "(?i)(?:OPPO[ _]?)?(PCNM00)(?:[);/ ]|$)";
  "(?i)(?:OPPO[ _]?)?(PCLM50)(?:[);/ ]|$)";
  "(?i)(?:OPPO[ _]?)?(PERM00)(?:[);/ ]|$)";
  "(?i)(?:OPPO[ _]?)?PGCM10| K9x(?:[);/ ]|$)";
  "(?i)(?:OPPO[ _]?)?PGGM10";
  "(?i)(?:OPPO[ _]?)?CPH2373";
  "(?i)(?:OPPO[ _]?)?(?:PGJM10|CPH2337|PERM10_K10)";
  "(?i)(?:OPPO[ _]?)?PERM10| K9s(?:[);/ ]|$)";
  "(?i)(?:OPPO[ _]?)?PGIM10";
  "(?i)(?:OPPO[ _]?)?PJC110";
  "(?i)(?:OPPO[ _]?)?PLD110";
  "(?i)(?:OPPO[ _]?)?PHS110";
  "(?i)(?:OPPO[ _]?)?PJG110";
  "(?i)(?:OPPO[ _]?)?PHF110";
  "(?i)(?:OPPO[ _]?)?PJR110";
  "(?i)(?:OPPO[ _]?)?PKS110";
  "(?i)CPH2667|PJT110";
  "(?i)(?:OPPO[ _]?)?N5117(?:[);/ ]|$)";
  "(?i)(?:OPPO[ _]?)?N520[79](?:[);/ ]|$)";
  "(?i)(?:OPPO[ _]?)?R831T?(?:[);/ ]|$)";
  "(?i)(?:OPPO[ _]?)?R831K(?:[);/ ]|$)";
  "(?i)(?:OPPO[ _]?)?(?:R831[SL]|1201)(?:[);/ ]|$)";
  "(?i)(?:OPPO[ _]?)?A33[wf](?:[);/ ]|$)";
  "(?i)(?:OPPO[ _]?)?A33fw(?:[);/ ]|$)";
  "(?i)(?:OPPO[ _]?)?R8113(?:[);/ ]|$)";
  "(?i)(?:OPPO[ _]?)?CPH1707(?:[);/ ]|$)";
  "(?i)(?:OPPO[ _]?)?R11 Plusk?t?(?:[);/ ]|$)";
  "(?i)R8001(?:[);/ ]|$)";
  "(?i)R820[16](?:[);/ ]|$)";
  "(?i)(?:OPPO[ _]?)?(?:CPH1721|R11s Plust?)(?:[);/ ]|$)";
  "(?i)(?:OPPO[ _]?)?(?:CPH1719|R11st?)(?:[);/ ]|$)";
  "(?i)(?:OPPO[ _]?)?(?:CPH1835|PAC[TM]00|PAAM00)(?:[);/ ]|$)";
  "(?i)(?:OPPO[ _]?)?(?:CPH183[13]|PAAT00)(?:[);/ ]|$)";
  "(?i)PBCM10(?:[);/ ]|$)";
  "(?i)(?:OPPO[ _]?)?(?:CPH1879|PBE[MT]00)(?:[);/ ]|$)";
  "(?i)(?:OPPO[ _]?)?(?:CPH1893)(?:[);/ ]|$)";
  "(?i)(?:OPPO[ _]?)?(?:CPH1877|PBD[MT]00|RX17Pro)(?:[);/ ]|$)";
  "(?i)(?:OPPO[ _]?)?R8006(?:[);/ ]|$)";
  "(?i)(?:OPPO[ _]?)?R800[07](?:[);/ ]|$)";
  "(?i)(?:OPPO[ _]?)?R810[679](?:[);/ ]|$)";
  "(?i)(?:OPPO[ _]?)?R7kf(?:[);/ ]|$)";
  "(?i)(?:OPPO[ _]?)?R7sPlus(?:[);/ ]|$)";
  "(?i)(?:OPPO[ _]?)?R7sf(?:[);/ ]|$)";
  "(?i)(?:OPPO[ _]?)?R7[gf](?:[);/ ]|$)";
  "(?i)(?:OPPO[ _]?)?R7Plus[mt]?(?:[);/ ]|$)";
  "(?i)(?:OPPO[ _]?)?R7Plusf(?:[);/ ]|$)";
  "(?i)(?:OPPO[ _]?)?(?:X9079|R9 Plustm A)(?:[);/ ]|$)"
].
Definition d_dr_re1_2 : list blob := [
  "(?i)(?:OPPO[ _]?)?(?:CPH1607|R9sk)(?:[);/ ]|$)";
  "(?i)(?:OPPO[ _]?)?(?:CPH1611|R9s Plus)(?:[);/ ]|$)";
  "(?i)(?:CPH1917|PCA[MT]00)(?:[);/ ]|$)";
  "(?i)CPH1983(?:[);/ ]|$)";
  "(?i)(?:CPH1919|PCCM00)(?:[);/ ]|$)";
  "(?i)(?:CPH2525|PHV110|A302OP|Reno10 Pro)(?:[);/ ]|$)";
  "(?i)CPH2521|PHU110";
  "(?i)PJJ110|CPH2607|Reno 11 Pro";
  "(?i)CPH2599|PJH110";
  "(?i)PJ[VW]110";
  "(?i)CPH2629|Reno12 Pro";
  "(?i)(?:PCKM00|CPH1907)(?:[);/ ]|$)";
  "(?i)CPH1989(?:[);/ ]|$)";
  "(?i)(?:PCKM80|CPH1945|CPH1951)(?:[);/ ]|$)";
  "(?i)(?:CPH2043|PDCT00)(?:[);/ ]|$)";
  "(?i)(?:CPH2013|A002OP)(?:[);/ ]|$)";
  "(?i)(?:PDCM00|A001OP|CPH2048)(?:[);/ ]|$)";
  "(?i)(?:PCR[MT]00|CPH203[567]|CPH2009)";
  "(?i)PCRT01(?:[);/ ]|$)";
  "(?i)CPH2113(?:[);/ ]|$)";
  "(?i)CPH2125(?:[);/ ]|$)";
  "(?i)(?:CPH2109|Reno 4 Pro)(?:[);/ ]|$)";
  "(?i)(?:PDP[TM]00|CPH2091)(?:[);/ ]|$)";
  "(?i)(?:PEA[TM]00|Reno4 SE 5G)(?:[);/ ]|$)";
  "(?i)(?:PDN[TM]00|CPH2089)(?:[);/ ]|$)";
  "(?i)CPH2065|Reno4 Z 5G";
  "(?i)CPH2209(?:[);/ ]|$)";
  "(?i)(?:CPH2199|A10[13]OP)|Reno5 A 5G(?: Build|[;)])";
  "(?i)CPH2205|Reno5 Lite(?: Build|[;)])";
  "(?i)(?:PEG[MT]00|CPH2145|Reno5 5G)(?:[);/ ]|$)";
  "(?i)PEG[MT]10(?:[);/ ]|$)";
  "(?i)CPH2217(?:[);/ ]|$)";
  "(?i)(?:CPH2211|Reno5 Z 5G)(?:[);/ ]|$)";
  "(?i)(?:PDS[TM]00|CPH220[17]|Reno5 Pro 5G)(?:[);/ ]|$)";
  "(?i)PDR[TM]00(?:[);/ ]|$)";
  "(?i)(?:CPH1921|PCCM40)(?:[);/ ]|$)";
  "(?i)CPH2159|(?:Reno5 4G|Reno 5)(?: Build|[;)])";
  "(?i)CPH2237|Reno6 Z 5G(?: Build|[;)])";
  "(?i)PEPM00(?:[);/ ]|$)";
  "(?i)CPH224[79]|Reno6 Pro 5G(?: Build|[;)])";
  "(?i)PENM00(?:[);/ ]|$)";
  "(?i)(?:CPH2235|PEQM00|CPH2251|Reno6 5G|Reno 6)(?:[);/ ]|$)";
  "(?i)PFJM10|CPH2371|CPH2363|Reno7(?: Build|[;)])";
  "(?i)CPH2353|OPG04|A201OP";
  "(?i)PFCM00|Reno7 SE(?: Build|[;)])";
  "(?i)(?:PFDM00|CPH2293|Reno7 Pro)(?:[);/ ]|$)";
  "(?i)CPH2357|PGAM10";
  "(?i)PGBM10|CPH2359";
  "(?i)CPH2481|CPH2505";
  "(?i)CPH252[34]|A301OP";
  "(?i)(?:PEYM00|K9 Pro 5G)(?:[);/ ]|$)";
  "(?i)(?:PEXM00)(?:[);/ ]|$)";
  "(?i)PCLM10(?:[);/ ]|$)";
  "(?i)PDHM00(?:[);/ ]|$)";
  "(?i)PCGM00(?:[);/ ]|$)";
  "(?i)(?:OPPO[ _]?)?(?:CPH1979|PCD[TM]10)(?:[);/ ]|$)";
  "(?i)A59st(?:[);/ ]|$)";
  "(?i)OPPO ?(CNM632)";
  "(?i)OPD2102A?";
  "(?i)OPD230[23]";
  "(?i)OPD220[12]";
  "(?i)OW19W[13]";
  "(?i)N1T?(?:[);/ ]|$)";
  "(?i)R([0-9]{3,4}[KSTW]?)(?:[);/ ]|$)";
  "(?i)(CPH[0-9]{4})";
  "(?i)(?:OB-)?OPPO[ _]?([a-z0-9]+)";
  "(?i)(?:Spider 8|S60Pro|MARINE [12]|MODERN 8|PILOT [123]|FLAT [12]C?|Tiger 1[023]|android 13(?:[\d.]*);(?: [\w-]+;)? (?:Pad 1[158]|Pad 8)|android 12(?:[\d.]*);(?: [\w-]+;)? (?:C[678]0|C30 Pro|Pad (?:[167]0|13))|Pad [78]0 WiFi|Pad 100)(?:[);/ ]|$)";
  "(?i)MARINE ([12])";
  "(?i)PILOT ([123])";
  "(?i)FLAT ([12])C";
  "(?i)FLAT (2)";
  "(?i)Tiger (1[023])";
  "(?i)(C[678]0)(?:[);/ ]|$)";
  "(?i)Pad ([78]0) WiFi";
  "(?i)Pad (100|[167]0|1[1358]|8)";
  "(?i)MDTV|LPX-G BOX";
  "(?i)OTTO (CR05)(?:[);/ ]|$)";
  "(?i)OUJIA(?:2018)?[-_ ]S20";
  "(?i)OUJIA[ _](S10|S8|S11|T50|S2[79]|2019)(?:[);/ ]|$)";
  "(?i)Ox-([^;/)]+)(?: Build|[;)])";
  "(?i)Ox-p010-2(?:[);/ ]|$)";
  "(?i)OYSIN[ _]([^/;)]+)(?: Build|[);])";
  "(?i)(?:Apex(?:[123])|CC1 PRO)(?:[);/ ]|$)";
  "(?i)(CC1) PRO";
  "(?i)Apex([123])";
  "(?i)(?:Tab_A6|A1[35]_EEA)(?:[);/ ]|$)";
  "(?i)Tab_(A6)";
  "(?i)(A1[35])_EEA";
  "(?i)(?:OBA_?(?:SMART_3|Conecta_Max|Conecta_4G))(?:[);/ ]|$)";
  "(?i)OBA_(Conecta_(?:Max|4G))";
  "(?i)OBER[_ ](Primo E8)(?:[);/ ]|$)";
  "(?i)Obi[ _-]|(?:(?:SJ1\.5|SJ2\.6|S(400|452\+|45[13]|50[127]|503\+?|520|55[01])|falcon)|SJ1-5|SJ[23]\.2| SF1)(?:[);/ ]|$)";
  "(?i)SJ(\d)[.-](\d)";
  "(?i)(?:Obi_)?S400";
  "(?i)(?:Obi_)?S451|falcon";
  "(?i)(?:Obi_)?S452\+";
  "(?i)(?:Obi_)?S453";
  "(?i)(?:Obi[_ ])?(SF1)(?:[);/ ]|$)";
  "(?i)(?:Obi_)?S501";
  "(?i)(?:Obi_)?S502";
  "(?i)(?:Obi_)?S503\+";
  "(?i)(?:Obi_)?S503";
  "(?i)(?:Obi_)?S507";
  "(?i)(?:Obi_)?S520";
  "(?i)(?:Obi_)?S550";
  "(?i)(?:Obi_)?S551";
  "(?i)(?:Obi_)?S454";
  "(?i)Obi[ _-]([^;/]+) Build";
  "(?i)Obi[ _-]([^;/)]+)(?:[;/)]|$)";
  "(?i)(?:FIRE_V[78]|POMELO-MAX\+)(?:[);/ ]|$)";
  "(?i)FIRE_V([78])";
  "(?i)POMELO-MAX\+";
  "(?i)ODYS[ _-]|IEOS[_ ]([^/;]+)|NOON(?:_PRO)? Build|SPACE10_(?:PLUS|PRO)_3G|THOR_?10|TAO_X10|RAPID_?(?:10|7)_?LTE|MAVEN_?10_|CONNECT[78]|ELEMENT10_PLUS_3G|XELIO[_0-9P]|PACE_10_LTE|(?:ADM816HC|ADM8000KP|NEO6_LTE|EOS10|AEON|FALCON_10_PLUS_3G|SPACE_ONE_?10(?:SE)?|FUSION|THANOS_10|MAVEN_X10_HD(?:_LTE)?|JUNIOR_8_PRO|JuniorT8Pro|(?:NOVA|PYRO)_X?7_PLUS_3G|UNO_X8|MAVEN_[GT]10(?:_pro)?|MAVEN_7_PLUS|SLADE_X55|XELIO_PRO_10_LTE|GOAL_10_PLUS_3G|NOTOSplus3G|PACE ?10|Titan_10_LTE|PEDI_PLUS_W|NoteTab_Pro|UNO_X10|NERON)(?:[);/ ]|$)";
  "(?i)XELIO[_ ]HD10[_ ]LTE";
  "(?i)XELIO[_ ](HD10|A10)";
  "(?i)MAVEN_?10_PRO_PLUS_3G";
  "(?i)MAVEN_?10_?PLUS";
  "(?i)MAVEN_?10_?PRO";
  "(?i)MAVEN_?10_?HD";
  "(?i)RAPID_?7_?LTE";
  "(?i)RAPID_?10_?LTE";
  "(?i)THOR_?10 Build";
  "(?i)PACE ?10";
  "(?i)UNO[_ ]X(8|10)";
  "(?i)THOR_?10_PLUS_3G";
  "(?i)IEOS[_ ]QUAD[_ ]W";
  "(?i)IEOS[_ ]NEXT[_ ]10";
  "(?i)IEOS[_ ]QUAD[_ ]PRO";
  "(?i)NEO6[_ ]LTE";
  "(?i)IEOS[ _]([^/;]+) Build";
  "(?i)(?:ODYS[ _-])?NOON Build";
  "(?i)(?:ODYS[ _-])?NOON_PRO";
  "(?i)Odys[ _-]([^/;]+) Build";
  "(?i)Okapi";
  "(?i)Okapi10(?:[);/ ]|$)";
  "(?i)Okapia|Signature (?:L|Pro|Touch)|(?:MAGIC\+)(?:[);/ ]|$)";
  "(?i)Signature (L|Pro|Touch)";
  "(?i)Okapia X1(?:[);/ ]|$)";
  "(?i)Okapia[_ ]Mirage(?:[);/ ]|$)";
  "(?i)MAGIC\+(?:[);/ ]|$)";
  "(?i)Okapia[_ ]?Magic(?:[);/ ]|$)";
  "(?i)OK-(?:LS[12]|smart11|LX[56])(?:[);/ ]|$)";
  "(?i)OK-(LS[12]|LX[56])";
  "(?i)Olax |Ocean K(?:10|8)(?:[);/ ]|$)";
  "(?i)Ocean (K8) Pro";
  "(?i)Ocean (K10|K8)(?:[);/ ]|$)";
  "(?i)Olax Prime 12(?:[);/ ]|$)";
  "(?i)Olkya (Liger 71G)(?:[);/ ]|$)";
  "(?i)Ollee008twoa(?:[);/ ]|$)";
  "(?i)TREK(?:[);/ ]|$)";
  "(?i)TREK(?:[);/ ]|$)";
  "(?i)Onda|(?:(?:V820w|V891[w]?|V919(?: 3G)? Air)[ _-]DualOS|(?:V919 4G Air|V989 Air|V972) Core[48]|T2101L2B1C| V10 4G|OBOOK20[_ ]PLUS|OBOOK (?:20 SE|20 DualOS|20 PLUS(?: DUALOS)?)|OBOOK10 SE|V10_4G|V919 Air CH DualOS| T9S|V116w-DualOS|V80[ _]SE)(?:[);/ ]|$)";
  "(?i)(?: T9S)(?:[);/ ]|$)";
  "(?i)ONDA[ _]MID";
  "(?i)V820w[ _-]DualOS";
  "(?i)V891W[ _-]DualOS";
  "(?i)V891[ _-]DualOS";
  "(?i)V919 3G Air[ _-]DualOS";
  "(?i)V919 Air[ _-]DualOS";
  "(?i)T2101L2B1C|OBOOK 20 PLUS DUALOS";
  "(?i)OBOOK[_ ]?20[_ ]PLUS";
  "(?i)V10 4G(?:[);/ ]|$)";
  "(?i)V80[ _]SE(?:[);/ ]|$)";
  "(?i)OBOOK 20 DualOS(?:[);/ ]|$)";
  "(?i)OBOOK 20 SE(?:[);/ ]|$)";
  "(?i)OBOOK10 SE(?:[);/ ]|$)";
  "(?i)V10_4G(?:[);/ ]|$)";
  "(?i)([a-z0-9]+)[ _]Onda";
  "(?i)Onda ([a-z0-9]+)";
  "(?i)X-music II pro|X-music (?:S|Ⅲ|III)";
  "(?i)X-music (?:Ⅲ|III)";
  "(?i)X-music (S)";
  "(?i)OneLern(DB\d{3})(?:[);/ ]|$)";
  "(?i)(?:du_)?ONEPLUS|(?:PGKM10|CPH25(?:1[35]|51|69|73|8[135])|CPH24(?:0[19]|1[1579]|[12]3|6[579]|87|9[31]|4[79]|5[91])|CPH271[79]|CPH2709|CPH2399|CPH238[19]|A0001|A200[135]|AC200[13]|A300[03]|A3010|A5000|A60[01][03]|BE201[1235]|BE202[5689]|E100[135]|GM191[03517]|GM190[0135]|GM192[05]|HD191[0137]|HD190[01357]|HD1925|IN201[013579]|IN202[0135]|KB200[01357]|LE211[01357]|LE212[035]|GN2200|Nord N10 5G|LE210[01]|LE212[17]|DE211[78]|DN210[13]|EB210[13]|MT211[01]|IV2201|NE221[01357]|PG[PZ]110|PH[BKP]110|OPD(?:2203|2403|2304|240[45]|2415|248[01])|PK[GRX]110|PJ[ADEFXZ]110|CPH26(?:0[59]|1[139]|21|4[579]|5[35]|6[13]|91)|OPWWE231|PLF110|PLC110)(?: Build|[;)])";
  "(?i)PJZ110|CPH265[35]|CPH2649";
  "(?i)CPH2691|CPH264[57]";
  "(?i)(?:CPH2585|CPH2611|CPH2609)(?:[);/ ]|$)";
  "(?i)(?:PJD110|CPH258[13]|CPH2573)(?:[);/ ]|$)";
  "(?i)(?:CPH244[79]|PHB110|CPH2451)(?:[);/ ]|$)";
  "(?i)PHK110(?:[);/ ]|$)";
  "(?i)PJA110(?:[);/ ]|$)";
  "(?i)PGKM10(?:[);/ ]|$)";
  "(?i)PHP110(?:[);/ ]|$)";
  "(?i)PGP110(?:[);/ ]|$)";
  "(?i)PGZ110(?:[);/ ]|$)";
  "(?i)AC200[13](?:[);/ ]|$)";
  "(?i)(?:CPH2399|CPH2401)(?:[);/ ]|$)";
  "(?i)EB210[13](?:[);/ ]|$)";
  "(?i)CPH271[79]";
  "(?i)CPH266[13]";
  "(?i)CPH26(?:19|21)";
  "(?i)CPH(?:2381|2409)(?:[);/ ]|$)";
  "(?i)CPH246[57](?:[);/ ]|$)";
  "(?i)CPH2569(?:[);/ ]|$)";
  "(?i)CPH249[13]";
  "(?i)BE2012(?:[);/ ]|$)";
  "(?i)BE201[135](?:[);/ ]|$)";
  "(?i)DE211[78](?:[);/ ]|$)";
  "(?i)(?:GN2200|CPH2459)(?:[);/ ]|$)";
  "(?i)(?:CPH251[35])(?:[);/ ]|$)"
].
Definition d_dr_re1_3 : list blob := [
  "(?i)(?:CPH2605)(?:[);/ ]|$)";
  "(?i)CPH2469(?:[);/ ]|$)";
  "(?i)BE2025(?:[);/ ]|$)";
  "(?i)(BE202[69]|Nord N10 5G)(?:[);/ ]|$)";
  "(?i)BE2028(?:[);/ ]|$)";
  "(?i)DN210[13](?:[);/ ]|$)";
  "(?i)IV2201(?:[);/ ]|$)";
  "(?i)IN202[0135](?:[);/ ]|$)";
  "(?i)KB2000(?:[);/ ]|$)";
  "(?i)OnePlus 8 Lite(?:[);/ ]|$)";
  "(?i)(?:IN201[01357]|OnePlus 8)(?:[);/ ]|$)";
  "(?i)IN2019(?:[);/ ]|$)";
  "(?i)LE211[01357](?:[);/ ]|$)";
  "(?i)MT211[01](?:[);/ ]|$)";
  "(?i)LE210[01](?:[);/ ]|$)";
  "(?i)CPH2423(?:[);/ ]|$)";
  "(?i)CPH2411(?:[);/ ]|$)";
  "(?i)CPH241[3579](?:[);/ ]|$)";
  "(?i)LE212[01357](?:[);/ ]|$)";
  "(?i)NE2210(?:[);/ ]|$)";
  "(?i)NE221[1357](?:[);/ ]|$)";
  "(?i)(?:GM191[01357]|OnePlus 7 Pro)(?:[);/ ]|$)";
  "(?i)GM190[0135](?:[);/ ]|$)";
  "(?i)HD190[01357](?:[);/ ]|$)";
  "(?i)(?:HD191[0137]|OnePlus 7T Pro)(?:[);/ ]|$)";
  "(?i)(?:HD1925|GM192[05])(?:[);/ ]|$)";
  "(?i)KB200[135](?:[);/ ]|$)";
  "(?i)(?:KB2007|OnePlus ?8TMO)(?:[);/ ]|$)";
  "(?i)A0001(?:[);/ ]|$)";
  "(?i)A200[135]|OnePlus2";
  "(?i)E100[135](?:[);/ ]|$)";
  "(?i)A3010|OnePlus3T";
  "(?i)A300[03]|OnePlus3";
  "(?i)A5010|OnePlus[ ]?5T";
  "(?i)A5000|OnePlus5";
  "(?i)A600[03]|OnePlus6";
  "(?i)A601[03](?:[);/ ]|$)";
  "(?i)OPD248[01]";
  "(?i)(?:du_)?ONEPLUS[ _]?([^;/,)(]+)(?: Build|[;,)])";
  "(?i)ONIDA[_ ](i4G1)|(?:AFTLE|AFTTIFF55)(?:[);/ ]|$)";
  "(?i)ONIDA[_ ](i4G1)";
  "(?i)AFTLE(?:[);/ ]|$)";
  "(?i)AFTTIFF55(?:[);/ ]|$)";
  "(?i)(?:ONIX S405|AT101-1116|ONIX_8_3G_01)(?:[);/ ]|$)";
  "(?i)(AT101-1116)(?:[);/ ]|$)";
  "(?i)ONIX_8_3G_01(?:[);/ ]|$)";
  "(?i)(S405)(?:[);/ ]|$)";
  "(?i)(?:DP-CMX1|TA2C-M8)(?:[);/ ]|$)";
  "(?i)(TA2C-M8)";
  "(?i)(DP-CMX1)";
  "(?i)Sagemcom DIW387_UHD_OOR|(Q7A\+?)(?:[);/ ]|$)";
  "(?i)Sagemcom DIW387_UHD_OOR(?:[);/ ]|$)";
  "(?i)(Q7A\+?)(?:[);/ ]|$)";
  "(?i)Opel ?Mobile|(?:OpelMobile_Smart(?:JX|X1)|Easy_Smart_2|Rugged60Q)(?:[);/ ]|$)";
  "(?i)(?:Openbox (?:A[3489](?: (?:Pro|Lite))?|GOLD)|AS1_HD|AS_?4K[_-](?:CI(?:_PRO|_Lite)?(?:_PLUS)?|PLUS|2X)|AS_?4K)(?:[);/ ]|$)";
  "(?i)Openbox (A[3489](?: (?:Pro|Lite))?)(?:[);/ ]|$)";
  "(?i)AS_?4K_CI_PRO";
  "(?i)AS_?4K[_-](2X|CI)";
  "(?i)AS_?4K[_-]PLUS";
  "(?i)AS_?4K";
  "(?i)(?:(?:Sigma|Beeta)_4_0|Active 5\.0)(?:[);/ ]|$)";
  "(?i)Active 5\.0";
  "(?i)Opsson|IUSAI";
  "(?i)IUSAI[ _]([^/;]+) Build";
  "(?i)IUSAI[ _]([^/;\)]+)[/;\)]";
  "(?i)Opsson[ _]([^/;]+) Build";
  "(?i)(?:Opsson-)?Opsson[ -_]([^/;]+)/";
  "(?i)Optoma[-_ ]";
  "(?i)SPV[ -]?([a-z0-9]+)|Orange[ _-]([^/;]+)( Build|\))|SC/IHD92|Nura 2|FunTab ([^/;]+) Build|Orange[ _](?:Mahpee|Nevalink|Nevamini)|Dive 50|MouveTab7WIFI|(?:Sanza-)?M56[02]F3(?:[);/ ]|$)";
  "(?i)Orange TV Box(?:[);/ ]|$)";
  "(?i)Orange_Nevalink(?:[);/ ]|$)";
  "(?i)Orange_Nevamini(?:[);/ ]|$)";
  "(?i)(?:Sanza-)?M56[02]F3";
  "(?i)FunTab ([^/;]+) Build";
  "(?i)Orange[ _-](Rise) ?(3[125]|5[12])(?:[);/ ]|$)";
  "(?i)(?:Orange[ _-])?Dive ?(\d+) Dual(?:[);/ ]|$)";
  "(?i)(?:Orange[ _-])?Dive ?(\d+)(?:[);/ ]|$)";
  "(?i)Orange[ _-](Daytona|Dublin|Fova|Gova|Hi 4G|Hiro|Kivo|Monte Carlo|Neva 80|Neva play|Nura|Reyo|Rise[_ ](3[034]|40|5[345])|Rono|Roya|San Francisco|Tactile internet 2|Tado|Yomi|Yumo|Zali|Mahpee|Neva leaf|Sanza touch|Viking L508|Zilo)(?:[);/ ]|$)";
  "(?i)SPV[ -]?([a-z0-9]+)";
  "(?i)OrangePi[_ ]?([^;/)]+)( Build|[;)])";
  "(?i)(?:RC(?:2200|501|545|555|60[89])L|R678EL|R8L5T|RC608L2)(?:[);/ ]|$)";
  "(?i)(OT-DVB\d{2})(?:[);/ ]|$)";
  "(?i)Orbsmart[_ ]";
  "(?i)Orbsmart[_ ]([^/;)]+)(?: Build|[);])";
  "(?i)(LeNumero[12])(?:[);/ ]|$)";
  "(?i)ORION, ([a-z0-9_ -]+), (?:wired|wireless)|CRANE-EVB";
  "(?i)ORION, ([a-z0-9_ -]+), (?:wired|wireless)";
  "(?i)(CRANE-EVB)";
  "(?i)OUKI|OK[AU][0-9]+[a-z]* Build|OKP6 Pro";
  "(?i)OUKI[ _-]?([^;/]+) Build";
  "(?i)([^;/)]+) Build/OUKI";
  "(?i)OUKI[ _-]?([^;/)]+)(?:[;/)]|$)";
  "(?i)(OK[AU][0-9]+[a-z]*) Build";
  "(?i)OU[Kc]ITEL|(?:Android 10(?:[\d.]*);(?: [\w-]+;)? (?:C19|C22)|Android 8(?:[\d.]*);(?: [\w-]+;)? (?:C11|U23)|Android 9(?:[\d.]*);(?: [\w-]+;)? (?:K12)|Android 11(?:[\d.]*);(?: [\w-]+;)? (?:C25)|Android 12(?:[\d.]*);(?: [\w-]+;)? (?:C3[12])|Android 1[2-4](?:[\d.]*);(?: [\w-]+;)? (?:RT[89])|Android 1[23](?:[\d.]*);(?: [\w-]+;)? (?:K16|C51|C3[3568])|Android 7(?:[\d.]*);(?: [\w-]+;)? (?:U1[78]|U22)|(?:C1[569]|K10000|K[46]000)(?:[ _]Pro)|K4000Pro|C1[18]_Pro|C1[0237] Pro|C2[13] Pro|C12 Plus|[UK]15 Pro|K15_Plus|U16 Max|C11_F|U7 Max|U7 Plus|U11[_ ]Plus|U20_Plus|C21 Plus|OK6000 Plus|WP5000|WP[58] Pro|K[46]000[ _](?:Plus|Lite)|K9 Pro|Y4800|K10000|K7 Power|K[4-8]000| RT[12356]| OT[568]| C 38| OT11| WP(?:[125-79]|1[02356789]|2[0123678]|3[0235689]|5[02356]|60|300)|K[37]_Pro|WP32_Pro|WP100 TITAN|WP2[01]0 Pro|K13_Pro|U25_Pro|OKT[13]|UniverseTap|RT7 TITAN(?: 5G)?)(?:[);/ ]|$)";
  "(?i)WP(21|55) Ultra";
  "(?i)WP(28 [ES]|35 S|53 S)";
  "(?i) C 38(?:[);/ ]|$)";
  "(?i)(C1[0-9]|C2[13]|C31|K10000|K[46]000|WP\d+|U[12]5|K[379]|K1[35])[ _]?Pro(?:[);/ ]|$)";
  "(?i)K7 Power(?:[);/ ]|$)";
  "(?i)(K10000|U16|U7)[ _]Max(?:[);/ ]|$)";
  "(?i)(U20|K[46]000|U7|U11|OK6000|K15|C12|C21|WP\d+)[_ ]?Plus(?:[);/ ]|$)";
  "(?i)(K4000)[_ ]Lite(?:[);/ ]|$)";
  "(?i)(K10000)[_ ]Mix(?:[);/ ]|$)";
  "(?i)UniverseTap(?:[);/ ]|$)";
  "(?i)(?:Oukitel-)?(Y4800|K10000|K[4-8]000|WP5000|[CU]2|U1[078]|U2[23]|C1[19]|C[23]2|C3|C3[13568]|C51|WP15 S|C25)(?:[);/ ]|$)";
  "(?i)(?:OUKITEL)? K([37]|1[26])(?:[);/ ]|$)";
  "(?i)(RT[1235689]|OKT[13]|OT5 S|OT[568]|OT11)(?:[);/ ]|$)";
  "(?i)(?:OUKITEL)? (WP\d+|C11_F)(?:[);/ ]|$)";
  "(?i)OUKITEL; ([^;]+);";
  "(?i)OV-[a-z]+(?:[^;(/]*)[();/ ]|Qualcore 10(?:10|27)|Livecore7032|Vertis 5021 Aim|Vertis 4004 You|OV1027[34]G";
  "(?i)OV-Vertis[ _-]([^;/]+) Build";
  "(?i)OV(\d+)([34])G";
  "(?i)(?:OV-)?Qualcore[-_ ](\d+)[-_ ]([34])G";
  "(?i)(OV-[a-z]+(?:[^/();]+))(?: Build|[();])";
  "(?i)(?:OWWO[ _]?(?:[1457]S|Q[78])|CARNIVAL B5)(?:[);/ ]|$)";
  "(?i)OWWO[ _]?([1457]S|Q[78])(?:[);/ ]|$)";
  "(?i)CARNIVAL B5(?:[);/ ]|$)";
  "(?i)Oysters|T84ERI[ _]3G|T72HM(s_)?3G|T102MS_3G|T102ER3G|T72ER3G|(T74HMi|T84Bi)[_ ]4G|T74MR4G|T74RD|T84Ni[_ ][34]G|Pacific(?:[ ]?800i|E)|T104B_[34]G|IndianV|T72HA_3G|T12V? 3G|T74D_3G|T74N_3G|T74SC_3G|T74Mai_3G|T74MRi3G|T104MBi_3G|T104SCi_3G|T104ER4G|Arctic450|Atlantic(?:4G|454|[EV])|AntarcticE|Life4G|T7V 3G|UBS1|Pacific(?:VS?|I?4G|454)";
  "(?i)Pacific[ ]?800i";
  "(?i)(?:Oysters[_ ])?Pacific(VS?|I?4G|454)";
  "(?i)Atlantic(454|[EV]|4G)(?:[);/ ]|$)";
  "(?i)Arctic(450)(?:[);/ ]|$)";
  "(?i)AntarcticE(?:[);/ ]|$)";
  "(?i)Life4G(?:[);/ ]|$)";
  "(?i)UBS1(?:[);/ ]|$)";
  "(?i)Oysters ((?:Arctic|Indian|Atlantic|Pacific)[^/;]+) Build";
  "(?i)(T84ERI[ _]3G|T72HM(s_)?3G|(?:(T74HMi|T84Bi)[_ ]4G)|T84Ni[_ ][34]G)";
  "(?i)(T74MR|T102MS|T104B|T74SC|T74[DN]|T72HA|T102ER|T72ER|T104SCi|T104MBi|T104ER|T7V|T12V?|T74MRi)[ _]?([34]G)";
  "(?i)(T74RD)";
  "(?i)Oysters ([^/;]+)( Build|\))";
  "(?i)OYYUT11(?:[);/ ]|$)";
  "(?i)Ozone HD|OzoneHD[ _]?(T2 WiFi|Nexo|4K(?: TV)?|Fun|Neo)(?:[);/ ]|$)";
  "(?i)(?:PAGRAER (?:P50 Pro)|PGR3042)(?:[);/ ]|$)";
  "(?i)PAGRAER (P50 Pro)";
  "(?i)PAPYRE[_ ]";
  "(?i)PAPYRE[_ ]pad_7\.1";
  "(?i)Art-PCB-V116|Bee-PCB-V216|Clap-PCB-I316|PCB-T(?:10[34]|715|750)|Kova[ _-]PCB-\w+|Kova_Plus_PCB_T735";
  "(?i)PCB-T(715|750)";
  "(?i)Kova[ _-]PCB-T730";
  "(?i)(?:PCD[ _])?(?:PL5507|PL571US|PH3501|PH400[12]|E400|PL620)(?:[);/ ]|$)";
  "(?i)(?:PCD[ _])?(P[HL]\d{4}|E400|PL620)";
  "(?i)PCD[ ]?50[689]|(?:P63L)(?:[);/ ]|$)";
  "(?i)PCD[ ]?(50[689])";
  "(?i)(P63L)";
  "(?i)PEAQ[ _]|PET \d{3}|LGE; (?:PQ[a-z0-9-]+);";
  "(?i)PET ([^/;)]+)(?: Build|[;)])";
  "(?i)LGE; (PQ[a-z0-9-]+);";
  "(?i)PINE ([^/;)]+)(?: Build|[);])";
  "(?i)PIRANHA[_ ]|(?:Ultra 4 Tab 9\.0|Ultra 5 Tab White|Piranha8032)(?:[);/ ]|$)";
  "(?i)Pro II Tab 7\.0";
  "(?i)Ultra 4 Tab 9\.0";
  "(?i)PIXPRO[_ ]";
  "(?i)Aura[_ ]TELPAD[_ ]MT7";
  "(?i)Aura[_ ]TELPAD[_ ]MT7";
  "(?i)(?:POCO[ _](?:X[2-7](?:_SN)?|F[267] PRO|M[2-7]|M5s|F[3567]|F4(?: GT)?|C40|C3|C[567]1|C[678]5)|M2010J19(?:C[GI]|GC)|M2007J20C[ITG]|M2012K11AG|M2006C3MI|M2004J19PI|M2102J20S[GI]|M2103K19P[IGY]|21091116AG|21061110AG|M2104K10I|211033MI|220111[67]P[GI]|camellian?|21121210G|2203(?:1116AI|33QPG)|22021211R[GI]|2204121(?:6U?G|9P[GI])|2207(?:1219C[GI]|33SP[IH]|117BPG)|22101320[GI]|22111317P[GI]|23013PC75G|2302EPCC4[HI]|23049PCD8[GI]|2305EPCC4G|22127PC95I|2310FPCA4[GI]|MZB0(?:GGWIN|E6DIN|7Z[0-4]IN)|23076PC4BI|2312(?:FRAFDI|BPC51[HX]|FPCA6G|2PCD1[GI]|8PC33I)|2311(?:3RKC6G|DRK48[GI])|2406(?:9PC21[GI]|6PC95I)|2404APC5FG|2405CPCFBG|2409(?:5PCAD[GI]|FPCC4[GI])|2410(?:FPCC5G|8PCE2I)|MZB9965IN|MZB874[13456]IN|M2004J11G|MZB0A0MIN|2412(?:DPC0A[GI](?:-art)?|2RKC7G)|24117RK2CG|25028PC03[GI]|25053PC47G|25078PC3EG|25062PC34[GE])(?:[);/ ]|$)";
  "(?i)(?:POCO X2|MZB874[13456]IN)(?:[);/ ]|$)";
  "(?i)23113RKC6G|POCO F6 Pro(?:[);/ ]|$)";
  "(?i)24069PC21[GI]|POCO F6(?:[);/ ]|$)";
  "(?i)2311DRK48[GI]|POCO X6 Pro 5G(?: Build|[;)])";
  "(?i)23122PCD1[GI]|POCO X6 5G(?: Build|[;)])";
  "(?i)2312FRAFDI|MZB0GGWIN";
  "(?i)2412DPC0A[GI]|POCO X7 Pro";
  "(?i)24095PCAD[GI]|POCO X7";
  "(?i)(?:M2012K11AG|POCO F3)(?:[);/ ]|$)";
  "(?i)23013PC75G|POCO F5 Pro";
  "(?i)23049PCD8[GI]|POCO F5";
  "(?i)M2004J19PI(?:[);/ ]|$)";
  "(?i)(?:M2103K19P[IGY]|M3 Pro 5G|camellian?)(?:[);/ ]|$)";
  "(?i)POCO M([23]) Pro(?:[);/ ]|$)";
  "(?i)21091116AG|M4 Pro 5G";
  "(?i)22041219P[IG]|POCO M4 5G(?: Build|[;)])";
  "(?i)22071219C[IG]|POCO M5(?: Build|[;)])";
  "(?i)2207117BPG|POCO M5s";
  "(?i)2404APC5FG|POCO M6(?: Build|[;)])";
  "(?i)2409FPCC4[GI]|POCO M7 Pro 5G";
  "(?i)25062PC34[GE]|POCO M7";
  "(?i)2312FPCA6G|POCO M6 Pro(?: Build|[;)])";
  "(?i)2201117P[GI]|POCO M4 Pro";
  "(?i)(?:M2010J19C[GI]|POCO M3)(?:[);/ ]|$)";
  "(?i)(?:M2007J20C[GT]|POCO X3 NFC)(?:[);/ ]|$)";
  "(?i)(?:M2102J20S[GI]|POCO X3 Pro)(?:[);/ ]|$)";
  "(?i)(?:21061110AG|POCO X3 GT)(?:[);/ ]|$)";
  "(?i)(?:M2007J20CI|MZB9965IN|POCO X3(?:_SN)?|MZB07Z[0-4]IN)(?:[);/ ]|$)";
  "(?i)(?:22111317P[GI]|POCO X5 5G)(?:[);/ ]|$)";
  "(?i)(?:22041216UG|POCO X4 GT Pro)(?:[);/ ]|$)";
  "(?i)(?:22041216G|POCO X4 GT)(?:[);/ ]|$)";
  "(?i)(?:22101320[GI]|POCO X5 Pro 5G)(?:[);/ ]|$)";
  "(?i)2201116P[GI]|POCO X4 Pro 5G";
  "(?i)(?:M2104K10I)(?:[);/ ]|$)";
  "(?i)(?:21121210G|POCO F4 GT)(?:[);/ ]|$)";
  "(?i)22021211R[GI]|POCO F4";
  "(?i)24117RK2CG|POCO F7 Pro";
  "(?i)24122RKC7G|Poco F7 Ultra";
  "(?i)25053PC47G|POCO F7";
  "(?i)(?:M2006C3MI|POCO C3)(?:[);/ ]|$)";
  "(?i)(?:211033MI|22031116AI|MZB0A0MIN)(?:[);/ ]|$)";
  "(?i)(?:220333QPG|POCO C40)(?:[);/ ]|$)";
  "(?i)2305EPCC4G|MZB0E6DIN|2302EPCC4[HI]|POCO C51(?: Build|[;)])";
  "(?i)220733SP[IH]";
  "(?i)2312BPC51[HX]|POCO C61"
].
Definition d_dr_re1_4 : list blob := [
  "(?i)2310FPCA4[GI]|POCO C65";
  "(?i)2410FPCC5G|POCO C75";
  "(?i)25028PC03[GI]|POCO C71";
  "(?i)25078PC3EG|POCO C85";
  "(?i)(?:POCO F2 PRO|M2004J11G)(?:[);/ ]|$)";
  "(?i)X5 GT PRO(?:[);/ ]|$)";
  "(?i)POPTEL|P9000_MAX(?:[);/ ]|$)";
  "(?i)P9000_MAX(?:[);/ ]|$)";
  "(?i)POPTEL K1(?:[);/ ]|$)";
  "(?i)(KING 7S?)";
  "(?i)PRIME (O8)(?:[);/ ]|$)";
  "(?i)(\d)K Pro Android TV";
  "(?i)PROFILO(?:[);/ ]|$)";
  "(?i)PULID[ _]|F1[01357]\+? Build";
  "(?i)F(1[01357]\+?) Build";
  "(?i)PULID[ _]([^;/]+) Build";
  "(?i)PULID[ _]([a-z0-9_]+)\)";
  "(?i)(PB1009|M10[45]00|M7500|M7600-D|DAYTONA-G12|MONZA-T7|SILVERSTONE-T(?:5A|10)|EasyNote TV11HC)(?:[);/ ]|$)";
  "(?i)SILVERSTONE-(T5A|T10)";
  "(?i)(PB1009|M10[45]00|M7500|M7600-D)(?:[);/ ]|$)";
  "(?i)(?:Pre|Pixi)/(\d+)\.(\d+)|Palm|Treo|Xiino|PVG100(?:E_RU|E)?(?:[);/ ]|$)";
  "(?i)((?:Pre|Pixi))/(\d+\.\d+)";
  "(?i)Palm(?:[ -])?([a-z0-9]+)";
  "(?i)Treo([a-z0-9]+)";
  "(?i)Xiino|Palmscape";
  "(?i)Panasonic|PANATV[0-9]+|Viera/|4KTV-0SU|(?:P902i|P-0[28]D|FZ-B2D|FZ-[NX]1|FZ-A2A|DMC-CM1|P-01[JK]|P-0[23]E|P55 Max)(?:[);/ ]|$)|Eluga[ _]|P55 Novo 4G";
  "(?i)P-01J(?:[);/ ]|$)";
  "(?i)(P-01K)(?:[);/ ]|$)";
  "(?i)P-03E(?:[);/ ]|$)";
  "(?i)P-02E(?:[);/ ]|$)";
  "(?i)Eluga[ _]I7(?:_EE)?";
  "(?i)(?:Panasonic_)?Eluga[ _-]([^;/]+) Build";
  "(?i)(?:Panasonic_)?Eluga[ _-]([^);/]+)[;/)]";
  "(?i)(DMC-CM1)";
  "(?i)P-02D(?:[);/ ]|$)";
  "(?i)(FZ-[XN]1)(?:[);/ ]|$)";
  "(?i)FZ-(B2D|A2A)(?:[);/ ]|$)";
  "(?i)P55 Novo(?: 4G)?";
  "(?i)P(\d*) NXT";
  "(?i)P902i(?:[);/ ]|$)";
  "(?i)Panasonic\..+\.([0-9]{4})(?:[);/ ]|$)";
  "(?i)Panasonic\..+\.([0-9]{4})\.Mediatek";
  "(?i)PANATV[0-9]+|Viera/";
  "(?i)(43D1200|(?:32|43)D1270|32D1280|4KTV-0SU[WF]?)";
  "(?i)PANASONIC, ([a-z0-9_ -]+), (?:wired|wireless)";
  "(?i)PANASONIC,([a-z0-9_ -]+),(?:wired|wireless)";
  "(?i)Panasonic[ _-]?([a-z0-9]+)";
  "(?i)portalmmm/2\.0 (P[a-z0-9]+)";
  "(?i)P-08D(?:[);/ ]|$)";
  "(?i)Panavox Android TV(?:[);/ ]|$)";
  "(?i)(Boom P1)(?:[);/ ]|$)";
  "(?i)Panodic(?:[);/ ]|$)";
  "(?i)Panoramic[_ ](FQ-058/2)(?:[);/ ]|$)";
  "(?i)Pantech|P[GN]-|PT-[a-z0-9]{3,}|TX[T]?[0-9]+|IM-[a-z0-9]+(?:[);/ ]|$)|ADR910L";
  "(?i)Pantech[ -]?(P4100)";
  "(?i)Pantech[ -]?([a-z0-9]+)";
  "(?i)Pantech_([a-z0-9-]+)";
  "(?i)(P[GTN]-[a-z0-9]+)";
  "(?i)(TX[T]?[0-9]+) Pro";
  "(?i)(TX[T]?[0-9]+)";
  "(?i)(IM-[a-z0-9]+)(?:[);/ ]|$)";
  "(?i)(Xplorer_2)(?:[);/ ]|$)";
  "(?i)EV1 PRO|Partner[_ ]Evolution(?:[);/ ]|$)";
  "(?i)Partner[_ ]Evolution";
  "(?i)Pelitt[ _]";
  "(?i)Pendoo|A5X MAX(?:[\.-]\w+)?\.01\.d4|(?:PNDP60L10BLK|PNDP60M7PUR)(?:[);/ ]|$)";
  "(?i)Pendoo ?(T95Z|X10) PLUS";
  "(?i)Pendoo ?X8PRO+";
  "(?i)Pendoo[ \.]?(X9[29]|T95)";
  "(?i)A5X MAX(?:[\.-]\w+)?\.01\.d4";
  "(?i)(PNDP60L10BLK|PNDP60M7PUR)";
  "(?i)Penta[ _]|(?:PS650)(?:[);/ ]|$)";
  "(?i)Pentagram|Quadra|Monster X5";
  "(?i)(?:PENTAGRAM[_ ])?EON[_ ]PRIX";
  "(?i)Quadra 7(?: UltraSlim)?";
  "(?i)Monster X5?";
  "(?i)Quadra ?([^);/]*) Build";
  "(?i)Pentagram ?TAB ?([^);/]*) Build";
  "(?i)Pentagram ?([^);/]*) Build";
  "(?i)(PHICOMM|E5051)(?:[);/ ]|$)";
  "(?i)C630 \(CLUE L\)(?:[);/ ]|$)";
  "(?i)E653\(ENERGY L\)(?:[);/ ]|$)";
  "(?i)PHICOMM ENERGY 3\+(?:[);/ ]|$)";
  "(?i)E5051(?:[);/ ]|$)";
  "(?i)C6051(?:[);/ ]|$)";
  "(?i)PHICOMM[ _]Clue[ _]([^/;)]+)(?: Build|[);])";
  "(?i)PHILCO[ /]|(PCS0[12]|PH350B|PTB(?:10|[78])R|PTB7PAP_PTB7PAB_PTB7PAR|Hit Max|Hit P1[023]|HIT P8|HIT P10a|TP7A4|TP10A1I)(?:[);/ ]|$)";
  "(?i)Hit (P1[023]|P8)";
  "(?i)(PCS0[12]|PH350B|Hit Max)(?:[);/ ]|$)";
  "(?i)(PTB(?:10|[78])R|TP7A4|TP10A1I)(?:[);/ ]|$)";
  "(?i)PHILCO Android TV(?:[);/ ]|$)";
  "(?i)PH60D16DSGWN4K(?:[);/ ]|$)";
  "(?i)PTB7PAP_PTB7PAB_PTB7PAR(?:[);/ ]|$)";
  "(?i)Philips|NETTV/|2020/2021 UHD Android|10BDL4151T|Xenium (?:S[25]66|S706)|(?:NeoViu D1|PI3210G|TPM1[79]1E|70PUH6774_96|QM152E|QM16[134]E|TLE(?:821L|722G)|AND1E|S397|W5510|S410J|SCN550)(?:[);/ ]|$)";
  "(?i)(10BDL4151T)";
  "(?i)(?:Philips[_ ])?Xenium[ _](S[25]66|V787|S706)(?:[);/ ]|$)";
  "(?i)(?:Philips[_ ])?(X818|X588)(?:[);/ ]|$)";
  "(?i)(?:Philips[_ ])?(S397|W5510)(?:[);/ ]|$)";
  "(?i)(?:AND1E|Google)(?: TV)?(?:[);/ ]|$)";
  "(?i)(PI3210G)";
  "(?i)(TPM1[79]1E)";
  "(?i)QM152E(?:[);/ ]|$)";
  "(?i)(QM16[134]E)";
  "(?i)(70PUH6774)_96";
  "(?i)(202[01])/(?:20)?(2[12]) (?:Philips )?UHD Android";
  "(?i)(TLE821L)(?:[);/ ]|$)";
  "(?i)(TLE722G)(?:[);/ ]|$)";
  "(?i)(?:S410J)(?:[);/ ]|$)";
  "(?i)Philips, BDP([0-9]{4})";
  "(?i)Philips, ([a-z0-9-]+)";
  "(?i)(NETTV/[0-9.]{5})";
  "(?i)Philips-FISIO ([a-z0-9]+)";
  "(?i)Philips[ _-]?([a-z0-9\-@]+)";
  "(?i)(?:PHONEMAX[_ ](?:Saturn(?:[_ ]X)?|Mars|Venus X)|Rocky 2)(?:[);/ ]|$)";
  "(?i)PHONEMAX[_ ]Saturn[_ ]X(?:[);/ ]|$)";
  "(?i)PHONEMAX[_ ]Saturn(?:[);/ ]|$)";
  "(?i)PHONEMAX[_ ]Mars(?:[);/ ]|$)";
  "(?i)PHONEMAX[_ ]Venus X(?:[);/ ]|$)";
  "(?i)Rocky 2(?:[);/ ]|$)";
  "(?i)Pipo[_ ]|PipoM9Pro";
  "(?i)Pipo[_ ]([TP]9)";
  "(?i)PIPO[_ ](X10|X9S)";
  "(?i)(?:Pico (?:G2 4K|Neo ?3|4)|A8110)(?:[);/ ]|$)";
  "(?i)Pico (G2 4K|Neo 3|4)(?:[);/ ]|$)";
  "(?i)(A8110)(?:[);/ ]|$)";
  "(?i)Pioneer|.*; R1 Build|(?:dvr700pi|XDP-300R|F9212[AB]|SDA-835TAB|SDA-80?TAB)(?:[);/ ]|$)";
  "(?i).*; R1 Build";
  "(?i)(XDP-300R)";
  "(?i)(F9212[AB]|SDA-835TAB|SDA-80?TAB)";
  "(?i)Pioneer, ?([a-z0-9_ -]+), ?(?:wired|wireless)";
  "(?i)Pioneer[ _-]?([^;/]+) Build";
  "(?i)Pioneer[ _-]?([^;/)]+)(?:[;/)]|$)";
  "(?i)PIONEER COMPUTERS (DreamBook)";
  "(?i)Infineum[_ ](Z4?5)(?:[);/ ]|$)";
  "(?i)Pixelphone S1(?:[);/ ]|$)";
  "(?i)Pixus|(hiPower|Touch_7_3G|Ride[_ ][34]G|Play[ _]Three[ _]v(?:[234]\.0|3\.1))(?:[);/ ]|$)";
  "(?i)Ride[_ ]([34])G";
  "(?i)Play[ _]Three[ _]v([234]\.0|3.1)";
  "(?i)Pixus[ _]Arena";
  "(?i)Pixus[ _]Deon";
  "(?i)Pixus[ _]Sprint";
  "(?i)Pixus[ _]Drive";
  "(?i)Pixus[ _]Wing";
  "(?i)Pixus[ _]Line";
  "(?i)Pixus[ _]Titan";
  "(?i)Pixus[ _]Folio";
  "(?i)(?:Pixus_)?Touch[ _]7[ _]3G";
  "(?i)Pixus[ _]hiMax";
  "(?i)Pixus[ _]Blast";
  "(?i)Pixus[ _]Joker";
  "(?i)Pixus Blaze 10\.1 3G";
  "(?i)Pixus[_ ]Hammer";
  "(?i)(?:Cosmo_Communicator|Gemini[_ ]4G)(?:[);/ ]|$)";
  "(?i)(Cosmo_Communicator)(?:[);/ ]|$)";
  "(?i)(?:Gemini[_ ]4G)(?:[);/ ]|$)";
  "(?i)(PLT-[12]00)(?:[);/ ]|$)";
  "(?i)PLAY NOW TV BOX 2(?:[);/ ]|$)";
  "(?i)MOMO([0-9]|[ ]?mini[ ]?(?:S|3GS)?)";
  "(?i)MOMO([0-9][^);/]*)(?: Build|[;)])";
  "(?i)PLUM[ _]|(?:Z51[89])(?:[);/ ]|$)";
  "(?i)PS_TAB_(WB01)(?:[);/ ]|$)";
  "(?i)Pluzz[_-](Z552|PL5[05]10|PL4010|PL501[46]|Elite_Dual)(?:[);/ ]|$)";
  "(?i)PocketBook[ _/]";
  "(?i)A7(?:[);/ ]|$)";
  "(?i)A10 3G(?:[);/ ]|$)";
  "(?i)A10(?:[);/ ]|$)";
  "(?i)SURFpad2(?:[);/ ]|$)";
  "(?i)PocketBook SURFpad 3 \(([\d]+)[,.]([\d]+)[""]?\)(?:[);/ ]|$)";
  "(?i)SURFpad 4 ([LMS])(?:[);/ ]|$)";
  "(?i)PocketBook/(515|614|62[23467]|63[012]|64[01]|650|740|801|840|970)(?:[);/ ]|$)";
  "(?i)POV_TV|POV_TAB|MOB-5045|TAB-P10232-3G";
  "(?i)POV_TAB[_-]NAVI7[_-]3G[_-]M";
  "(?i)POV_TAB-PROTAB25XXL8?";
  "(?i)POV_TAB-PROTAB([a-z0-9]+)";
  "(?i)POV_TAB-P?([a-z0-9]+)";
  "(?i)Polar(?:_W?K?)?[_ ]P\d{2}|(?:P42L31T2CSM|P32L33T2CSM)(?:[);/ ]|$)";
  "(?i)(?:Polar(?:_W?K?)?[_ ])?(P\d{2}[LU]\d{2}T2S?CSM)(?:[);/ ]|$)";
  "(?i)PolarLine[_ ](?:W?K?[_ ])?(\d{2}P[LU]\d{2}S?TC-SM)(?:[);/ ]|$)";
  "(?i)Polaroid|POLPAROID|(?:PMID|MIDC)[0-9a-z]+(?:[);/ ]|$)|MID(?:1014|0714)|PRO[VG]?(?:[0-9]{3,}[a-z]*|[0-9]{2}[a-z])|(?:P(?:400[56]|4526|500[56]|502[56]|504[67]|552[56])A|P902/A900|PSPC(?:505|550|[MZL]20A0|K2[01]NA)|SIGMA 5|MIDI109PDE|MIDI156PDE|MIDB1048PHE|MIDS145PXE|MIDS747PX|MID4004JBL|MIDS185PR|PSPTD21NA|POMDTB00[56]|PSPCL30A0|PSN-H116|BDL0232PR|Mobility3G|BDL1064PR001|SMX4K)(?:[);/ ]|$)";
  "(?i)PSPC(505|550)";
  "(?i)PRO4611(?:PR201)?";
  "(?i)SIGMA 5(?:[);/ ]|$)";
  "(?i)PRO([VG]?(?:[0-9]{3,}[a-z]*|[0-9]{2}[a-z]))";
  "(?i)POLAROID, ([a-z0-9_ -]+), (?:wired|wireless)";
  "(?i)MIDS185PR|POLPAROID PURE";
  "(?i)(MID(?:1014|0714|S145PXE|S747PX|4004JBL|B1048PHE|I109PDE|I156PDE)|POMDTB00[56]|BDL0232PR|BDL1064PR001)";
  "(?i)((?:PMID|MIDC)[0-9a-z]+)(?:[);/ ]|$)";
  "(?i)(P902/A900)(?:[);/ ]|$)";
  "(?i)Polestar(?:[);/ ]|$)";
  "(?i)POLY ?PAD";
  "(?i)POLY ?PAD[_ .]([a-z0-9]+)(?:[);/ ]|$)";
  "(?i)POLY ?PAD[_.]([a-z0-9]+)";
  "(?i)POLYTRON|W8480|W7430|PW1100S|W7550|W7531|W8570|R2401|R255B";
  "(?i)POLYTRON[ _]R1500";
  "(?i)POLYTRON[ _-]R2402";
  "(?i)POLYTRON[ _-]R2403";
  "(?i)POLYTRON[ _-]R2406";
  "(?i)POLYTRON[ _-]R2407";
  "(?i)POLYTRON[ _-]R2452";
  "(?i)POLYTRON[ _-]R2457"
].
Definition d_dr_re1_5 : list blob := [
  "(?i)POLYTRON[ _-]R2501";
  "(?i)POLYTRON[ _-]R2507";
  "(?i)POLYTRON[ _-]R2509SE";
  "(?i)POLYTRON[ _-]R2509";
  "(?i)POLYTRON[ _-]R250A";
  "(?i)POLYTRON[ _-]R2506";
  "(?i)POLYTRON[ _-](?:R3450|W1400)";
  "(?i)POLYTRON[ _-]R3500";
  "(?i)POLYTRON[ _]L501";
  "(?i)POLYTRON[ _]P520";
  "(?i)POLYTRON[ _]P552";
  "(?i)POLYTRON[ _]4G501";
  "(?i)POLYTRON[ _]4G502";
  "(?i)POLYTRON[ _]4G503";
  "(?i)POLYTRON[_ ]?[ _]4G550";
  "(?i)POLYTRON[ _]4G551";
  "(?i)POLYTRON[ _]T7800";
  "(?i)POLYTRON[ _]T7700";
  "(?i)POMP[ _-]";
  "(?i)POMP[ _-]([^;/]+) Build";
  "(?i)POMP[ _-]([^;/)]+)(?:[;/)]|$)";
  "(?i)(V100M4L)(?:[);/ ]|$)";
  "(?i)(?:YPY_S450|Twist 4(?: Fit|Pro)?|Twist (?:4G|5 Max)|T1085|Positivo (?:Q20|Slim)|M10 4G PRO X|UP 32|YOLO|Android 4([\d.]*);(?: [\w-]+;)? X400)(?:[);/ ]|$)";
  "(?i)X400(?:[);/ ]|$)";
  "(?i)Positivo (Q20|Slim)(?:[);/ ]|$)";
  "(?i)Twist 4 (Fit|Pro)";
  "(?i)(?:T1060B|S455|Positivo (?:Twist|Ypy|Mini I)|Twist[ _](?:\(2018\)|2 (?:Fit|Pro)|Mini|Tab|Metal(?: 32GB)?|Max|XL|SE|[23SM])|KC770|G1101T)(?:[);/ ]|$)";
  "(?i)S455(?:[);/ ]|$)";
  "(?i)Twist \(2018\)(?:[);/ ]|$)";
  "(?i)Twist Metal 32GB(?:[);/ ]|$)";
  "(?i)Twist Metal(?:[);/ ]|$)";
  "(?i)Twist Max(?:[);/ ]|$)";
  "(?i)Twist[ _]Mini(?:[);/ ]|$)";
  "(?i)Twist 2 Fit(?:[);/ ]|$)";
  "(?i)Twist 2 Go(?:[);/ ]|$)";
  "(?i)Twist 2 Pro(?:[);/ ]|$)";
  "(?i)Twist XL(?:[);/ ]|$)";
  "(?i)Twist SE(?:[);/ ]|$)";
  "(?i)(?:Positivo )?Twist ([23SM])(?:[);/ ]|$)";
  "(?i)(?:Positivo )Mini I(?:[);/ ]|$)";
  "(?i)(T1060B|KC770|G1101T)(?:[);/ ]|$)";
  "(?i)Positivo Ypy (AB7F|AB10H|L1050E)(?:[);/ ]|$)";
  "(?i)Twist Tab(?:[);/ ]|$)";
  "(?i)(DRN-[78]09)(?:[);/ ]|$)";
  "(?i)(?:MAXI 20|Premier P50)(?:[);/ ]|$)";
  "(?i)(?:AXE_II|186HS2080531|186HS1050531|186HS1050232|186FT1080231|185FT5050231|X7[05]-2021|PREMIO[ _](?:S50|P420|P451)|Android 8(?:[\d.]*);(?: [\w-]+;)? Axe)(?:[);/ ]|$)";
  "(?i)X(7[05])-2021";
  "(?i)PREMIO[ _](S50|P420|P451)(?:[);/ ]|$)";
  "(?i)Prestigio 5500 DUO|(?:PMP|PAP|PMT|PSP|PGPS)[0-9]+[a-z0-9_]+(?:[);/ ]|$)|Muze C3|PTV50SS04X_CIS_BK|PTV50SS08X|PTV32SS08Z|PTV40SS04Y_CIS_ML|PTV32SS04Z_CIS_(?:ML|BK)|SILVER POS|PAB4411|GV7777";
  "(?i)P[AS]P(5517|5503|550[578])DUO(?:[);/ ]|$)";
  "(?i)PAP(7500)(?:[);/ ]|$)";
  "(?i)(?:Muze C3|PSP3504DUO)(?:[);/ ]|$)";
  "(?i)PGPS7799CIS08GBPG(?:[);/ ]|$)";
  "(?i)GV7777(?:[);/ ]|$)";
  "(?i)PGPS7797(?:[);/ ]|$)";
  "(?i)PMT(3118|38[74]8|3[123]01|3[12]57|778[18]|4[789]91|5588|5718|5791|577[18]|4327|3768)[_ ]([34])G";
  "(?i)PMT(1177|3208|3618|31[357]1|1157|1196|3[10]96|3[17]61|3407)[_ ]([34])GE?";
  "(?i)PMT(1107|3[456]37|3[34]27|3317|4638|4311|413[17]|411[178]|3771)[_ ]([34])GE?";
  "(?i)PMT(3231|37[01]8|4231|4667|38[3678]1)[_ ]([34])GE?";
  "(?i)PSP7546DUO([ _][A-Z]{2})?";
  "(?i)PSP7610DUO([ _][A-Z]{2})?";
  "(?i)PTV(\w+)_CIS_(ML|BK)";
  "(?i)(PAB4411)";
  "(?i)(PTV32SS08Z|PTV50SS08X)";
  "(?i)(PM[PT][0-9]+[a-z0-9_]+)(?:[);/ ]|$)";
  "(?i)((?:PAP|PSP)[0-9]+[a-z0-9_]+(?: DUO)?)(?:[);/ ]|$)";
  "(?i)PD\-(3127NC|3127) Build";
  "(?i)PD\-3127NC Build";
  "(?i)PD\-3127 Build";
  "(?i)Primux|SirocoY|Omega6_4G(?:[);/ ]|$)";
  "(?i)Primux_ioxphone(?:[);/ ]|$)";
  "(?i)PrimuxDelta6(?:[);/ ]|$)";
  "(?i)PrimuxKappa(P50[01])(?:[);/ ]|$)";
  "(?i)PrimuxKappa(?:[);/ ]|$)";
  "(?i)Primux_Beta2(?:[);/ ]|$)";
  "(?i)Primux_?Omega([57])(?:[);/ ]|$)";
  "(?i)Omega6_4G(?:[);/ ]|$)";
  "(?i)PrimuxUP(?:[);/ ]|$)";
  "(?i)PrimuxZonda4(?:[);/ ]|$)";
  "(?i)Primux_Siroco6(?:[);/ ]|$)";
  "(?i)SirocoY(?:[);/ ]|$)";
  "(?i)Pritom_|(?:K7_A101(?:_EEA)?|Android 1[01](?:[\d.]*);(?: [\w-]+;)? (?:M10_Lite|M10_EEA|M10_(?:PLUS|Air)(?:_EEA)?|P7_EEA)|M10_R0[24]|P7PRO|M10_C01_EEA|TOUCH 7)(?:[);/ ]|$)";
  "(?i)M10_R0([24])";
  "(?i)(?:Pritom[_ ])?M10_C01";
  "(?i)Pritom[_ ]M10|M10_EEA";
  "(?i)(?:T1700Q-)?PRIXTON|(T7012Q)(?:[);/ ]|$)";
  "(?i)PRIXTON (C18)";
  "(?i)(T701[24]Q|T1700Q)";
  "(?i)PLT([^;/]+) Build|PLT(?:777[045]|9774|107[47]|9999)G(?:[);/ ]|$)";
  "(?i)PLT([^;/]+) Build";
  "(?i)PLT(777[045]|9774|107[47]|9999)G";
  "(?i)ProVision (S1)(?:[);/ ]|$)";
  "(?i)Proline_|(?:H10882M-TN|H1088[28]M|H1010|M504)(?:[);/ ]|$)";
  "(?i)Proline[_ ]FalconXL";
  "(?i)(H10882M-TN|H1088[28]M|H1010)";
  "(?i)(MPC-(?:[57]0|65|100)|MPC-110DSP)(?:[);/ ]|$)";
  "(?i)PROTRULY[ _](D[78]|V10S)(?:[);/ ]|$)";
  "(?i)Punos (10)";
  "(?i)QBOX(?:[);/ ]|$)";
  "(?i)Qtouch_|[ ](Q09|QS701|Q0[15]A|QS31)(?:[);/ ]|$)";
  "(?i)(?:Qtouch[_ ])?[ ]?(Q09|QS701|Q0[15]A|Q85|QS31)(?:[);/ ]|$)";
  "(?i)(QPHONE[_ ](?:10\.1|9\.[12]|7\.1|5\.[246])|QTAB10EW)(?:[);/ ]|$)";
  "(?i)(QPHONE[_ ](?:10\.1|9\.[12]|7\.1|5\.[246]))(?:[);/ ]|$)";
  "(?i)(TLW-100[BG]?)(?:[);/ ]|$)";
  "(?i)(?:Android 12(?:[\d.]*);(?: [\w-]+;)? F22 ?Pro|(?:Android 11(?:[\d.]*);(?: [\w-]+;)? (?:F22|F21 Pro))(?: Build|[;)]))";
  "(?i)F(\d+) ?Pro(?:[);/ ]|$)";
  "(?i)F(22)(?:[);/ ]|$)";
  "(?i)(?:Scepter[ _]?8(?: Tablet)?)(?:[);/ ]|$)";
  "(?i)Scepter[ _]?8";
  "(?i)QMobile|QTab|Q-?Smart|LINQ (?:L10|X100)|(?:Mark [25]|E2 Noir|Noir[ _](A[18]|X1S)|LUNA PRO|NICE S|JazzX JS(?:[27]|10)(?: PRO)?|LT[57]00[ _]PRO|LT950|Infinity (?:Cinema 2|triple|santos|Prime 2)|Q Infinity|Hot 5|Hot Pro 2|VITA S|i7i 2020|i10[ _]20(?:20|19)|V2 2018|Z12 PRO|Smart HD Pro|V[67]_Metal|Rocket (?:Lite|Pro)| GLi|i6i 2020|i6 Metal|Android 6(?:[\d.]*);(?: [\w-]+;)? (?:J5|S2 Pro|J7 PRO|M350 Pro)|Android 5(?:[\d.]*);(?: [\w-]+;)? Z9 Plus|i8i Dual|View Max Pro)(?:[);/ ]|$)";
  "(?i)JazzX JS(2|10)";
  "(?i)Noir[ _](A[18]|X1S)(?:[);/ ]|$)";
  "(?i)A600(?:[);/ ]|$)";
  "(?i)QMobile (Z9|J2)";
  "(?i)(J7|S2) Pro";
  "(?i)LT([57]00)[ _]PRO";
  "(?i)V([67])_Metal";
  "(?i)i(\d+)i 20(20|1[89])";
  "(?i)i10[ _]20(20|19)";
  "(?i)i6 Metal (201[78])";
  "(?i)Mark ([25])";
  "(?i)QSmart (X[124]0)";
  "(?i)Q Infinity ([FCB])";
  "(?i)(LT950|J5)(?:[);/ ]|$)";
  "(?i)LINQ (L10|X100)";
  "(?i)GLi Lite(?:[);/ ]|$)";
  "(?i)GLi(?:[);/ ]|$)";
  "(?i)V2 2018(?:[);/ ]|$)";
  "(?i)QMobile ENERGY (X[12])(?:[);/ ]|$)";
  "(?i)QTab[ _-]([^;/]+) Build";
  "(?i)QTab[ _-]([^;/)]+)(?:[;/)]|$)";
  "(?i)(?:QMobile|Q-?Smart)[ _-]([^;/)]+) Plus(?: Build|[;)])";
  "(?i)(?:QMobile|Q-?Smart)[ _-]([^;/)]+) PRO(?: Build|[;)])";
  "(?i)(?:QMobile|Q-?Smart)[ _-]([^;/)]+)(?: Build|[;)])";
  "(?i)(?:QMP_K8| QMP-M1-N-IP)(?:[);/ ]|$)";
  "(?i)QMP[_-](K8|M1)";
  "(?i)(Q\d{2}Y[FHK]-(?:M[GB]|PB))(?:[);/ ]|$)";
  "(?i)Qilive [0-9][^;/]*|QILIVE|Q(7S5[5]?IN4G|T19101|T22101B|T23109BP|T21101|7T10INP|T19101HV|8T10IN|8S55IN4G2|8S[56]IN4G|9T9IN|9T(?:7|10)IN4G|9S55IN4G|10S5[37]IN4G|10S[56]IN4G|10S[56]IN4GR|9S5IN4G|6T7IN|T2108BP)";
  "(?i)Q10S5IN4G[R]?";
  "(?i)(QT19101HV|QT19101|QT23109BP|QT22101B)";
  "(?i)Qilive (1\d+[^;/)]*)(?: Build|[;)])";
  "(?i)Qilive ([0-5][^;/)]*)(?: Build|[;)])";
  "(?i)Qilive ([0-5]*)/";
  "(?i)Qilive ([6-9][^;/)]*)(?: Build|[;)])";
  "(?i)QILIVE[; ]Smart ?TV";
  "(?i)(?:Android 14(?:[\d.]*);(?: [\w-]+;)? (?:C10S))(?:[);/ ]|$)";
  "(?i)(C10S)";
  "(?i)Passion[ _]P|Hynex plus|Stark K1|Hynex H[356]|Levin V[12]|Aston A[357]\+";
  "(?i)Passion[ _](P[0-9]+)";
  "(?i)Hynex plus( 2)?";
  "(?i)Hynex (H[356])\+";
  "(?i)Hynex (H[35])";
  "(?i)Levin (V[12])";
  "(?i)Aston A([357])\+";
  "(?i)Qtek[ _]?([a-z0-9]+)";
  "(?i)AQT(100|8[02])(?:[);/ ]|$)";
  "(?i)Qrash|(?:Quantum (?:Fit|Five|Fly|UP|MUV (?:PRO|UP)|Go|Mini|M|V|You [2E])|GO 2|Q[23]0|LIO\+|Q-TITANO(_007i|-H2)?|Q-Pulse70M|Q-Wave(?:101|71M))(?:[);/ ]|$)";
  "(?i)LIO\+(?:[);/ ]|$)";
  "(?i)GO 2(?:[);/ ]|$)";
  "(?i)Qrash(?:[);/ ]|$)";
  "(?i)Quantum (Fit|Five|Go|Mini|[MV]|Fly|You [2E]|Q[23]0)(?:[);/ ]|$)";
  "(?i)Quantum MUV PRO(?:[);/ ]|$)";
  "(?i)Quantum MUV UP(?:[);/ ]|$)";
  "(?i)Quantum UP(?:[);/ ]|$)";
  "(?i)Q-TITANO[ _-](BOS|X|M1|007i|H[12]|AK47)(?:[);/ ]|$)";
  "(?i)Q-Pulse70M(?:[);/ ]|$)";
  "(?i)Q-Wave(101|71M)(?:[);/ ]|$)";
  "(?i)Quatro (8|10|FSM1453)(?:[);/ ]|$)";
  "(?i)(?:Cronos|MINERVA(?:_32GB)?|X668_64GB|X626_4G|Hermes|T104_64GB)(?:[);/ ]|$)";
  "(?i)MINERVA(?:_32GB)?(?:[);/ ]|$)";
  "(?i)(Cronos|Hermes|X626_4G)(?:[);/ ]|$)";
  "(?i)T104_64GB(?:[);/ ]|$)";
  "(?i)Android 1[012](?:[\d.]*);(?: [\w-]+;)? RAPTOR(?:[);/ ]|$)";
  "(?i)TINKU LTE(?:[);/ ]|$)";
  "(?i)TINKU LTE(?:[);/ ]|$)";
  "(?i)QUMO[ _]?|(?:Quest[ _]?(?:408|410|45[56]|50[679])|Vega[ _]?78[23]|Sirius[ _]?(?:1001|890))(?:[);/ ]|$)";
  "(?i)(?:QUMO[ _]?)?Vega[ _]?(78[23]|8002)(?:[);/ ]|$)";
  "(?i)Yooda(?:[);/ ]|$)";
  "(?i)Sirius[ _]?(1001|890)(?:[);/ ]|$)";
  "(?i)(?:QUMO[ _]?)?(Sirius 101-4G 8GB Black|Altair 701 8GB Black|Altair 71 4GB Black|Altair 700[24]|Altair 70[16]|Vega_803i)(?:[);/ ]|$)";
  "(?i)(?:QUMO[ _])?Quest[ _]?(35[34]|40[268]|410|45[2568]|47[46]|50[679]|5[137]0|574|600)(?:[);/ ]|$)";
  "(?i)QW[ _-]TB-\w+";
  "(?i)QW[ _-](TB-\w+)";
  "(?i)R-TV BOX[ _]?(MINI\+|X99|X10 PRO|[RXS]10)";
  "(?i)R3Di_FR150(?:[);/ ]|$)";
  "(?i)(C50USY24F|K55USY23|H43QSY24F)(?:[);/ ]|$)";
  "(?i)RCA-OEM[;,]|RC[AT]([^;/]+)(?: Build|[;)]|$)|RWOSU6547|RCA RLTP4028|RLTP5567|RLTP5573|RC7T3G21|DRP(?:29101|2091)";
  "(?i)(?:RCA[ _])?(RLTP4028|RLTP5567|RLTP5573)";
  "(?i)RCT6873W42M|RCT6876Q22N?|RCT6873W42BMF9E";
  "(?i)RCT6973W43(?:MD)?";
  "(?i)RCT6703W12|RCT6B06P23";
  "(?i)RCT(?:6303W87(?:DK|M)|6K03W13)";
  "(?i)(DRP29101|DRP2091)";
  "(?i)(RWOSU6547)";
  "(?i)RCT([^;/)]+)(?: Build|[;)])";
  "(?i)RC([^;/)]+)(?: Build|[;)])";
  "(?i)(MX101M[23])(?:[);/ ]|$)";
  "(?i)(?:H1A1000)(?:[);/ ]|$)";
  "(?i)RED_X_RX2441_4G(?:[);/ ]|$)";
  "(?i)Regal (?:TAB 10\.1|G[o0][o0]gle TV)|REGAL, ([a-z0-9_ -]+), (?:wired|wireless)"
].
Definition d_dr_re1_6 : list blob := [
  "(?i)Regal (TAB 10\.1)";
  "(?i)Regal G[o0][o0]gle TV";
  "(?i)REGAL, ([a-z0-9_ -]+), (?:wired|wireless)";
  "(?i)(?:NEP N(?:11?|9))(?:[);/ ]|$)";
  "(?i)NEP N(11?|9)";
  "(?i)BB10;|BlackBerry|rim[0-9]+|PlayBook|STV100-[1234]|STH100-[12]|BBA100-[12]|BBB100-[1234567]|BBD100-[126]|BB[EF]100-[123456789]|BB[CGH]100-1";
  "(?i)BBA100-[12]";
  "(?i)BBB100-[1234567]";
  "(?i)BBD100-[126]|BlackBerry Motion";
  "(?i)BBE100-[123456789]";
  "(?i)BBF100-[1234567]|BlackBerry Key2";
  "(?i)BBH100-1|Evolve X";
  "(?i)(?:BlackBerry )?(9000|9790)";
  "(?i)STV100-[1234]";
  "(?i)STH100-[12]";
  "(?i)BB10; ([a-z0-9\- ]+)\)";
  "(?i)PlayBook.+RIM Tablet OS";
  "(?i)BlackBerry(?: )?([a-z0-9]+)";
  "(?i)rim([0-9]+)";
  "(?i)(8520|8530|9220|9320|9360)";
  "(?i)(9800|9860)";
  "(?i)FORTIUS QUAD 7(?:[);/ ]|$)";
  "(?i)(RH-LE\d{2}DSY-C)(?:[);/ ]|$)";
  "(?i)(?:Shock ?(?:5|5\.5)|popper2)(?:[);/ ]|$)";
  "(?i)Shock ?(5\.5|5)";
  "(?i)ESKIMO_K5001(?:[);/ ]|$)";
  "(?i)(?:ZR01|3917JR|P710|P780|C330)(?:[);/ ]|$)";
  "(?i)Ramos ?([^/);]+)(?: Build|[);])|(?:MOS1(?:max)?|W22PRO 3G)(?:[);/ ]|$)";
  "(?i)(?:Ramos[ _])?(R10|R9|M7)(?:[);/ ]|$)";
  "(?i)(MOS1)(?:[);/ ]|$)";
  "(?i)Ramos ?([^/;]+)(?: Build|[);])";
  "(?i)Raspberry (Pi [0-9]+)(?:[);/ ]|$)";
  "(?i)RAVOZ[ _](Z[3567] (?:Lite|Pro)|Z[3-7]|R[4789]|V[1235])(?:[);/ ]|$)";
  "(?i)XPOWER_P6000(?:[);/ ]|$)";
  "(?i)(?:Phone 2|Razer Edge 5G)(?:[);/ ]|$)";
  "(?i)(Allure[_ ](?:Ultra(?:[_]Curve)?|Secure|Admire|Rise)|Opulent X)(?:[);/ ]|$)";
  "(?i)Readboy[ _-]";
  "(?i)Readboy[ _-]C18Max";
  "(?i)Readboy[ _-]C(\d+)Pro";
  "(?i)Readboy[ _-]([^;/)]+)(?: Build|[;)])";
  "(?i)(RxIS202)(?:[);/ ]|$)";
  "(?i)Realme[ _]|(?:RMX(?:18(0[13579]|11|3[13]|2[1257]|[45]1|53|45)|19(03|4[1235]|19|9[23]|2[1579]|[01379]1|73)|20(?:[025-7]1|42|[0357]2|03|2[257]|63|7[56]|63L1|8[1356]|[2-5]0)|21(?:0[13]|1[27]|[12]1|4[24]|5[156]|6[13]|7[036]|8[0359]|9[345])|220[0125]|30(?:[3468]1|4[23]|9[23]|63|85)|31(?:15|2[125]|42|51|6[16]|71|9[1357])|32(?:0[13]|35|42|[346]1|6[0235689]|86)|33(?:[0157]0|[17]2|71|6[036]|[0186]1|57|88|9[12356])|34(?:30|78|[69]1|[67]2|7[145]|9[23])|35(?:0[1236]|1[12367]|21|[578]1|6[0123]|7[246])|36(?:1[0125789]|[39]0|36|2[347](?:_Natv_vf)?|8[67]|6[013])|37(?:0[0689]|6[125]|[14-7]0|[0457]1|8[01235])|38(?:[039]0|2[03]|34|4[01234]|5[0123]|6[789]|7[01]|88)|39(?:10|2[01]|3[0389]|4[013-6]|5[012]|8[87]|9[0325-9])|50(?:0[0234]|1[01]|20|3[0-3]|5[01456]|6[012]|7[0189]|8[05]|90)|51(?:0[016]|1[016])|53(?:0[03]|13)|52[015]0|66(?:88|99))|(?:OPPO[ _]?)?CPH1861|RMP220[45]|RMP210[235-8]|4K Google TV Stick)(?:[);/ ]|$)";
  "(?i)RMX503[01]";
  "(?i)RMX370[68]";
  "(?i)RMX38(?:51|00)";
  "(?i)RMX501[01]";
  "(?i)RMX(?:6688|5061)";
  "(?i)RMX52[01]0";
  "(?i)(?:OPPO[ _]?)?RMX3142(?:[);/ ]|$)";
  "(?i)(?:OPPO[ _]?)?CPH1861(?:[);/ ]|$)";
  "(?i)RMX180[59]";
  "(?i)RMX180[137]";
  "(?i)RMX(?:182[125])";
  "(?i)RMX185[13]";
  "(?i)RMX190[13]|Realme X(?:[);/ ]|$)";
  "(?i)RMX199[12]";
  "(?i)RMX1931|Realme X2 Pro(?:[);/ ]|$)";
  "(?i)RMX2176(?:[);/ ]|$)";
  "(?i)RMX2121(?:[);/ ]|$)";
  "(?i)RMX1921|Realme XT(?:[);/ ]|$)";
  "(?i)RMX19(1[19]|27)";
  "(?i)RMX197[13]";
  "(?i)RMX203[02]";
  "(?i)RMX200[13]";
  "(?i)RMX204[02]";
  "(?i)RMX206[13](?:L1)?(?:[);/ ]|$)";
  "(?i)RMX215[15]";
  "(?i)RMX3085|Realme 8(?:[);/ ]|$)";
  "(?i)RMX3151|Realme 8i(?:[);/ ]|$)";
  "(?i)RMX349[123]";
  "(?i)RMX3388|RMX3474";
  "(?i)RMX339[23]";
  "(?i)RMX347[12]";
  "(?i)RMX36(?:30|15)";
  "(?i)RMX366[01]";
  "(?i)RMX368[67]";
  "(?i)RMX3(?:636|751)";
  "(?i)RMX399[29]";
  "(?i)RMX39(?:88|90)";
  "(?i)RMX392[01]";
  "(?i)RMX394[03]";
  "(?i)RMX505[14]";
  "(?i)RMX194[1235]";
  "(?i)(?:RMX202[1207]|Realme G70 Series)(?:[);/ ]|$)";
  "(?i)RMX218[03]";
  "(?i)RMX219[45]";
  "(?i)RMX2101(?:[);/ ]|$)";
  "(?i)RMX306[13]";
  "(?i)RMX320[13]";
  "(?i)RMX326[123]";
  "(?i)RMX319[13]|realme C25 Series";
  "(?i)RMX319[57]";
  "(?i)RMX326[589]";
  "(?i)RMX350[123]";
  "(?i)RMX(?:3581|3623)";
  "(?i)RMX362[47]";
  "(?i)RMX351[123]";
  "(?i)RMX376[02]";
  "(?i)RMX393[09]";
  "(?i)RMX382[03]";
  "(?i)RMX330[01]";
  "(?i)RMX331[012]";
  "(?i)RMX356[012]";
  "(?i)RMX3371(?:[);/ ]|$)";
  "(?i)RMX3357(?:[);/ ]|$)";
  "(?i)RMX336[0136]";
  "(?i)RMX3350(?:[);/ ]|$)";
  "(?i)RMX216[13](?:[);/ ]|$)";
  "(?i)RMX351[67]";
  "(?i)RMX183[13](?:[);/ ]|$)";
  "(?i)RMX(?:20(?:51|[2]5)|2144)(?:[);/ ]|$)";
  "(?i)RMX2052(?:[);/ ]|$)";
  "(?i)RMX2071(?:[);/ ]|$)";
  "(?i)RMX207[56](?:[);/ ]|$)";
  "(?i)RMX2072(?:[);/ ]|$)";
  "(?i)RMX(2142|2081)(?:[);/ ]|$)";
  "(?i)RMX208[56]";
  "(?i)RMX346[12]";
  "(?i)RMX211[12]";
  "(?i)RMX220[01]";
  "(?i)RMX312[12]";
  "(?i)RMX304[123]";
  "(?i)RMX309[23]";
  "(?i)RMX361[01]";
  "(?i)Realme[ _]([1-9])[ _]Pro(?:[);/ ]|$)";
  "(?i)RMP210[23](?:[);/ ]|$)";
  "(?i)RMP220[45]";
  "(?i)RMP210[78]";
  "(?i)RMP210[56](?:[);/ ]|$)";
  "(?i)(?:Space_M10|S[678]00[ _]MAX|IP-[678]0 MAX|RED360 Air 8K)(?:[);/ ]|$)";
  "(?i)(Space_M10)";
  "(?i)S([678]00)[ _]MAX";
  "(?i)IP-([678]0) MAX";
  "(?i)(i-Jupiter)(?: Build|[);])";
  "(?i)(?:Wizpad_)?Valuer_V8";
  "(?i)(?:Wizpad_)?Valuer_V8";
  "(?i)(?:Redway_7|redway7_pro|redway10_lite)(?:[);/ ]|$)";
  "(?i)(?:reeder[_ ](?:3G_Tablet|A7iC|A[78]i[_ ]Quad|A8i Q2|M8 Plus|[TM]8|M10 Plus|P11SE|M7_Go|TV)|M8_Go|M8Go2020|M10SPlus|P12Curve|M10 Pro LTE|M10 Blue Max|P13[ _]Blue[ _]Plus(?:[ _]2022)?|P13_Max_Blue|P13[_ ]Blue[_ ]Ma(?:ks|x|xL)|P13_Blue|P13[ _]Blue[ _]202[12]|M7Plus|A8i-Q2|M7Go_2019|S19 Max(?: Pro S(?: Zoom)?| \d{2}GB|L 128GB| Pro)|M10 GO|S23 Pro Max|S19 Max|P11SE_Art)(?:[);/ ]|$)";
  "(?i)reeder[_ ](3G_Tablet|A7iC|A[78]i[_ ]Quad|A8i Q2|M8 Plus|[TM]8|M10 Plus|P11SE)(?:[);/ ]|$)";
  "(?i)(?:reeder_)?(?:M7Go_2019|M7_Go)";
  "(?i)(?:reeder_)?(M8|M10)[_ ]Go";
  "(?i)P13 Blue 202([12])";
  "(?i)P13 Blue MaxL? 202([012])";
  "(?i)P13[_ ]Blue[_ ]Max|P13_Max_Blue";
  "(?i)S19 Max (?:32|64)GB";
  "(?i)RelNAT[_ ](Premier)(?:[);/ ]|$)";
  "(?i) (TB02)(?:[);/ ]|$)";
  "(?i)RD(?:16Q|86E)(?:[);/ ]|$)";
  "(?i)RD(16Q|86E)(?:[);/ ]|$)";
  "(?i)(TLE-(?:32|43F|50U)SBM)(?:[);/ ]|$)";
  "(?i)Pocket ([23]) ?(?:Plus|\+)";
  "(?i)Pocket ([235])";
  "(?i)Revo[_ ](?:Youplus|555)|RevoYou";
  "(?i)Revo[ _]?(You|555)";
  "(?i)(?:S6523(?:[ _]RU)?)(?:[);/ ]|$)";
  "(?i)(?:PACE A1)(?:[);/ ]|$)";
  "(?i)(?:RKM[_ ])?MK(902II|902|80[28][^/;]*)(?: Build|[;)])";
  "(?i)Rinno (R(?:400|505))";
  "(?i)(RMD[-_](?:10(?:2[689]|30|5[089])|1121|75[017]|726|85[57]|870)|RMP-(?:450|50[56]|530|600))(?:[);/ ]|$)";
  "(?i)RMD[-_](10(?:2[689]|30|5[089])|1121|75[017]|726|85[57]|870)(?:[);/ ]|$)";
  "(?i)RMP[-_](450|50[56]|530|600)(?:[);/ ]|$)";
  "(?i)(RITZVIVA[_ ]S500C)(?:[);/ ]|$)";
  "(?i)RIVIERA[ _]";
  "(?i)RIVIERA[ _](F23|U963)";
  "(?i)PHANTOM (?:PZ|RX)|RHYTHM[ _]RX|(?:STORM_S8(?: ?plus)?)(?:[);/ ]|$)";
  "(?i)PHANTOM PZ ?(2[05]|[13]5|4|18)(?:[);/ ]|$)";
  "(?i)PHANTOM RX ?(298|387)(?:[);/ ]|$)";
  "(?i)RHYTHM[ _]RX ?([15-9]0|[467]5|[12]80|150|[14]00)(?:[);/ ]|$)";
  "(?i)(NovaTab_R10)(?:[);/ ]|$)";
  "(?i)ROAM[_ ]CAT[ _](M8)";
  "(?i)(ZC-P95)(?:[);/ ]|$)";
  "(?i)(?:IO (?:Pro|3D|Light)|Orb S)(?:[);/ ]|$)";
  "(?i)Roku(?:OS|4640X)?/(?:DVP|Pluto)?-?|QSP; Roku";
  "(?i)Rombica[_ ]|(TV-Impact(?:-pro)?|SSQ-A0500|Smart Box v[0-9]+|Smart Box (?:[ABCDXYZ]1|[GDFQ]2|[AF]3|H4)|myPhone Jet|5[05]MT-UDG54G|65MT-UDG54G|55XT-UD2G64N)(?:[);/ ]|$)";
  "(?i)SSQ-A0500(?:[);/ ]|$)";
  "(?i)(?:Rombica[_ ])?Cinema4K_v01";
  "(?i)(\d{2}MT-UDG54G|Infinity K8|Smart Box (?:Q1|v00[3-9]|Quad|Ultra HD v002|4K V001|[ABCDXYZ]1|[AGDFQL]2|[AFG]3|H4)|TV (?:Ultima|Fly)|Smart Stick Pro|TV Mercury|TV Emotion|TV Air|55XT-UD2G64N)(?:[);/ ]|$)";
  "(?i)(43FSQ2020T2|32HSQ1220T2)(?:[);/ ]|$)";
  "(?i)RM(D)?[-_](974R|600|550|790)(?:[);/ ]|$)";
  "(?i)Rover ([0-9]+)";
  "(?i)(?:Rover[ ]?Pad|RoverPhone|(?:Air|Art|Sky) 7\.85 3G|Pro_Q(?:8|10)_LTE)(?:[);/ ]|$)";
  "(?i)RoverPhone(?:[);/ ]|$)";
  "(?i)Pro_Q(8|10)_LTE(?:[);/ ]|$)";
  "(?i)(?:Rover[ ]?Pad)?sky 7\.85(?: 3G)?(?:[);/ ]|$)";
  "(?i)(Air|Art) 7\.85 3G";
  "(?i)RoverPad (10\.4|Air S70|9\.7 3G|Sky 9\.7|3W A73|3W7|3WT70|3W9\.4)(?:[);/ ]|$)";
  "(?i)(?:RQ[ -](Regal R8|713S|712|768)|Bishop-RQ451)(?:[);/ ]|$)";
  "(?i)RQ (Regal R8)";
  "(?i)RQ-(713S|712|768)";
  "(?i)(?:RugGear|RG(?:310|500|65[05]|702|7[13]0|850)|RG725)(?:[);/ ]|$)";
  "(?i)(RG[0-9]+)(?:[);/ ]|$)";
  "(?i)(FieldPad 8)(?:[);/ ]|$)";
  "(?i)(FieldPad 8)";
  "(?i)Rhino-Quest(?:[);/ ]|$)";
  "(?i)Rhino-Quest(?:[);/ ]|$)";
  "(?i)Ruio[ _]|(?:M671M4|i7Plus|S5[05]06|S518)(?:[);/ ]|$)";
  "(?i)Ruio[ _](S4)(?:[);/ ]|$)";
  "(?i)(?:Ruio[ _])?(S5|i7)Plus(?:[);/ ]|$)";
  "(?i)(S5[05]06|S518)(?:[);/ ]|$)";
  "(?i)Runbo|F1-TT(?:[);/ ]|$)"
].
Definition d_dr_re1_7 : list blob := [
  "(?i)Runbo[ _-]?(X5-W|F1 Plus|[PF]1-TT|F1-EN|[FH]1|TT|Q5-S|X5-King|X6|Q5)(?:[);/ ]|$)";
  "(?i)Pyramid A5X|RUPA[_.]smartTV";
  "(?i)RUPA[_.]smartTV";
  "(?i)(?:RYTE U55 LTE|RT701)(?:[);/ ]|$)";
  "(?i)RYTE (U55 LTE)";
  "(?i)(RT701)";
  "(?i)(GT40 Ultra|SU15 Pro)(?: Build|[);])";
  "(?i)S-TELL|(?:M630|M55[78]|P760|P750i|M555i|M580|M457|M655)(?:[);/ ]|$)";
  "(?i)(P760|P750i)(?:[);/ ]|$)";
  "(?i)(?:S-TELL[ _])?M([0-9]{3}|555i|M580|M655)(?:[);/ ]|$)";
  "(?i)S2TEL[ _-]";
  "(?i)S2TEL-(Q8)";
  "(?i)(?:20220728MT)(?:[);/ ]|$)";
  "(?i)(S2[23])_EEA(?:[);/ ]|$)";
  "(?i)SEEWO[ _](SD02)(?:[);/ ]|$)";
  "(?i)SEG, ([a-z0-9_ -]+), (?:wired|wireless)";
  "(?i)(?:GO[35]E|5101J|GO3C(?: Plus)?)(?:[);/ ]|$)";
  "(?i)5101J(?:[);/ ]|$)";
  "(?i)GO3C Plus(?:[);/ ]|$)";
  "(?i)GO3C(?:[);/ ]|$)";
  "(?i)(GO[35]E)(?:[);/ ]|$)";
  "(?i)(?:SENNA_)?(32SN6000H|43SN6000F)(?:[);/ ]|$)";
  "(?i)(?:SERVO 16MAX)(?:[);/ ]|$)";
  "(?i)StarShine|StarTrail|STARADDICT|StarText|StarNaute|StarXtrem|StarTab|(?:Android 8(?:[\d.]*);(?: [\w-]+;)? (?:AURA (?:PLUS|ULTRA)|AURA))(?: Build|[;)])";
  "(?i)StarXtrem II(?:[);/ ]|$)";
  "(?i)StarXtrem ?([3-6])(?:[);/ ]|$)";
  "(?i)StarXtrem(?:[);/ ]|$)";
  "(?i)StarTrail III(?:[);/ ]|$)";
  "(?i)StarTrail II(?:[);/ ]|$)";
  "(?i)StarTrail[ _]?([1-9])[ _]([34])G(?:[);/ ]|$)";
  "(?i)StarTrail[ _]?([1-9])(?:[);/ ]|$)";
  "(?i)StarTrail(?:[);/ ]|$)";
  "(?i)AURA PLUS(?:[);/ ]|$)";
  "(?i)aura ULTRA(?:[);/ ]|$)";
  "(?i)AURA(?:[);/ ]|$)";
  "(?i)StarShine II(?:[);/ ]|$)";
  "(?i)StarShine III(?:[);/ ]|$)";
  "(?i)StarShine(?:[);/ ]|$)";
  "(?i)STARADDICT 6(?:[);/ ]|$)";
  "(?i)STARADDICT 4(?:[);/ ]|$)";
  "(?i)STARADDICT III(?:[);/ ]|$)";
  "(?i)STARADDICT II Plus(?:[);/ ]|$)";
  "(?i)STARADDICT II(?:[);/ ]|$)";
  "(?i)STARADDICT(?:[);/ ]|$)";
  "(?i)StarText II(?:[);/ ]|$)";
  "(?i)StarText(?:[);/ ]|$)";
  "(?i)StarNaute II(?:[);/ ]|$)";
  "(?i)STARNAUTE ?([1-4])(?:[);/ ]|$)";
  "(?i)StarNaute(?:[);/ ]|$)";
  "(?i)((?:StarShine|StarTrail|STARADDICT|StarText|StarNaute|StarXtrem)[^;/]*) Build";
  "(?i)SGIN_(?:E10M|X10)(?:[);/ ]|$)";
  "(?i)BHX-UH200|BID-AT200";
  "(?i)BHX-UH200(?:[);/ ]|$)";
  "(?i)BID-AT200(?:[);/ ]|$)";
  "(?i)(Modern[ _](?:S10?|S[3679]))(?:[);/ ]|$)";
  "(?i)(?:LYNX_LUXE|Hyper X Dragon|HYPER X BLADE(?: II)?)(?:[);/ ]|$)";
  "(?i)(?:Atractivo|SmartabS4)(?:[);/ ]|$)";
  "(?i)(Atractivo)";
  "(?i)(?:CRUSH_X565|BLAZE_X500)(?:[);/ ]|$)";
  "(?i)SMUX ?BOX A1(?:[);/ ]|$)";
  "(?i)SNAMI[_ ]([^/;)]+)(?: Build|[);])";
  "(?i)SOLE[_ ]POP[_ ]S([45]0)(?:[);/ ]|$)";
  "(?i)(?:SOLO[_ ](?:Aspire(?: M)?)|Inspire_U5(?:_PLUS)?)(?:[);/ ]|$)";
  "(?i)(?:SOLO[_ ](Aspire(?: M)?))";
  "(?i)(?:Sonos/.+\((?:(?:BR|ZP).+)\)|Sonos;|Sonos/.+\(?:Arc|ANVIL|Play:\d\))";
  "(?i)\((ZPS(?:[13569]|1[1-9]|2[0-467]|3[013-9]|4[1345]|5[45])|ZP(?:90|120))\)";
  "(?i)Sonos;Beam;";
  "(?i)Sonos;Roam;";
  "(?i)Sonos;Bookshelf;";
  "(?i)Sonos;Move;";
  "(?i)Play:?(\d)";
  "(?i)Sonos;One;";
  "(?i)Sonos;OneSL";
  "(?i)\(ANVIL\)";
  "(?i)AG_1088_(A133P?|A523P)";
  "(?i)(?:GRAVITY [34]G(?:_2019)?|GRAVITY2-4G|GRAVITY_4|GRAVITY_OCTACORE|GRAVITY[ -_](?:Max|SE|PRO|2-MAX|[23]|3_MINI|3_SE|ULTIMATE 2)|SPC (?:GEN|SMART)|SPC_ALIEN(?:_STICK)?|ZEUS_4G(?:_PRO)?|SPC Glow9\.7|Lightyear|Laika|L70_Lite|L60 Turbo|L60 Pro|FLOW 7|SMART_ULTIMATE(?:_64)?|DISCOVERY_2_ME|Discovery (?:Pro|SE))(?:[);/ ]|$)";
  "(?i)GRAVITY ([34])G_2019";
  "(?i)GRAVITY ([34])G";
  "(?i)GRAVITY 2|GRAVITY2-4G";
  "(?i)GRAVITY_([43])";
  "(?i)SPC Glow9\.7";
  "(?i)SMART_ULTIMATE(?:_64)?";
  "(?i)(L60 Turbo|L60 Pro|Discovery (?:Pro|SE))";
  "(?i)Spurt[_ ]|(?: K700)(?:[);/ ]|$)";
  "(?i)(?:Spurt[_ ])?K([78]00)";
  "(?i)SQOOL-V(41?)(?:[);/ ]|$)";
  "(?i)(Y777_Fire)(?:[);/ ]|$)";
  "(?i)(?:AERIAL(?: PLUS)?|BLOCK_MINI|BLOCK GO|BLOCK 3|Fractal|Joy Pro|Origins Pro|SLAY II)(?:[);/ ]|$)";
  "(?i)STG[ _](A[12] Pro|[AS]1|X[1-3]|X20|S[1-3]0|[BCHP]10)(?:[);/ ]|$)";
  "(?i)STK[_ ]|(?:Storm 2e Pluz|Life 7S)(?:[);/ ]|$)";
  "(?i)STK[_ ]Transporter[_ ]1";
  "(?i)STK[_ ]([^/;)]+)(?: Build|[;)])";
  "(?i)STK[_ ]([a-z0-9]+)";
  "(?i)LEAP-S1|SH6B7CE_EU012";
  "(?i)(SH6B7CE)_(EU012)";
  "(?i)(?:S3_U_EEA)(?:[);/ ]|$)";
  "(?i)SUNWIND[_ ]|SUN[-_]LED\d+|(?:SKY 9 [EA]\d+ 3G|Sky (?:126[24]C|1123B|7143B|8244B|8421D|1430D) [43]G|SKY Kids 70 SS7238PG)(?:[);/ ]|$)";
  "(?i)SKY ([79]) ([EA]\d+) 3G";
  "(?i)Sky (\d{4}[BCD]) ([34])G";
  "(?i)SUN[-_]LED(\d+\w{1,2}\d+)";
  "(?i)(?:SCHR9G[RL]|PRA(?:U8|100|557|507)|ZUR(?:722M|70016W?|700[RW]|805A))(?:[);/ ]|$)";
  "(?i)SCHR9G[RL]";
  "(?i)PRA(U8|100|557|507)(?:[);/ ]|$)";
  "(?i)ZUR(70016W?|700[RW]|805A)(?:[);/ ]|$)";
  "(?i)SWOFY[_ ]";
  "(?i)SWOFY[_ ]M503-Pro";
  "(?i)Young (Y56|Y36\+|Y[35]5|Y51\+)(?:[);/ ]|$)";
  "(?i)TPS-(SC10)(?:[);/ ]|$)";
  "(?i)Saba[_ ]|(?:32SB6000H|42SB6000F)(?:[);/ ]|$)";
  "(?i)(?:Saba[_ ])?(\d{2}SB\d{4}[HF])(?:[);/ ]|$)";
  "(?i)SMART TV(?:[);/ ]|$)";
  "(?i)Safaricom|NEON[_ ]RAY|(?:NEON_NOVA|NEON PLUS|NEON PLUS|NEON LITE|Neon Storm|SFCSTB2LITE)(?:[);/ ]|$)";
  "(?i)ET Kimem(?:[);/ ]|$)";
  "(?i)Safaricom_Kimem_Kerefa_4G(?:[);/ ]|$)";
  "(?i)SAGEM|portalmmm/2\.0 (?:SG|my)";
  "(?i)SAGEM-(my[a-z0-9-]+)";
  "(?i)SAGEM ([a-z0-9]+)";
  "(?i)SAGEM-([a-z0-9-]+)";
  "(?i)portalmmm/2\.0 ((?:SG|my)[a-z0-9]+)";
  "(?i)Sagemcom[;, \-_]|(DIW3930|DCTIW362_PLAY)(?:[);/ ]|$)";
  "(?i)(DI384|DIW350|DIW387|DIW3930)(?:[);/ ]|$)";
  "(?i)Sagemcom[;,] ([a-z0-9]+)(?:[);/ ]|$)";
  "(?i)Sagemcom\-OTT\-([a-z0-9]+)(?:[);/ ]|$)";
  "(?i)Sagemcom_Broadband_SAS,([a-z0-9_ -]+),(?:wired|wireless)";
  "(?i)(?:STS5[57]0|STS502|STS602)(?:[);/ ]|$)";
  "(?i)(STS5[57]0|STS602)";
  "(?i)(STS502)";
  "(?i)Salora(?:_cx)?[;,]";
  "(?i)_TV_[A-Z0-9]+_([0-9]{4});";
  "(?i)SmartTV;";
  "(?i)SAMBOX[_ ]|KM22(?:[);/ ]|$)";
  "(?i)KM(22)";
  "(?i)SAMSUNG|FamilyHub|SmartHub|SMART-TV.+Tizen.+SamsungBrowser|Gear Live|(?:SEC_)?SC-(?:001|01[EFGHKLM]|02[CGHJKLMF]|03[EFJKL]|04[EFJLG]|05[GL]|(?:4[12]|5[1-4])A|5[1-5][BC]|51E|5[15]D|56C|5[23]D)|N[57]100|N5110|N9100|S(?:CH|GH|PH|EC|AM|HV|HW|M)-|GT-|Galaxy|(?:portalmmm|o2imode)/2\.0 [SZ]|sam[rua]|beyond[02]q?|crownq?lte|vollo Vi86(?:[);/ ]|$)|(?:lineage_|aokp_|rr_)?(?:serranoltexx|j5y17lte|Santos103G|fortuna3g|Verizon-SM)|(?:OTV-)?SMT-E5015|ISW11SC|40[34]SC|SC(?:G1[6789]|G2[0-7]|V3[1-9]|V4[0-9]|51Aa|-56B|T21|G0[1-9]|G1[0-5]|L2[234])(?:-[uj])?(?:[);/ ]|$)";
  "(?i)(?:OTV-)?SMT-E5015";
  "(?i)Samsung, ([a-z0-9_ -]+), (?:wired|wireless)";
  "(?i)SmartTV\+(201[345])";
  "(?i)(?:SAMSUNG-)?(?:GT-)?N5100";
  "(?i)(?:SAMSUNG-)?SM-T677(?:[ATV]|N[KL])?(?:[);/ ]|$)";
  "(?i)(?:SAMSUNG-)?SM-T670(?:[);/ ]|$)";
  "(?i)(?:SAMSUNG-)?(?:GT-)?N5110";
  "(?i)(?:SAMSUNG-)?GT-N5120";
  "(?i)(?:SAMSUNG-)?(?:GT|SM)-N8000";
  "(?i)(?:SAMSUNG-)?GT-N8010";
  "(?i)(?:SAMSUNG-)?GT-N8020";
  "(?i)(?:SAMSUNG-)?GT-P1000M?|SCH-I800";
  "(?i)(?:SAMSUNG-)?GT-P3100B?";
  "(?i)(?:SAMSUNG-)?GT-P311[03]";
  "(?i)(?:SAMSUNG-)?GT-P5100|SCH-I915";
  "(?i)(?:SAMSUNG-)?GT-P511[03]";
  "(?i)(?:SAMSUNG-)?SM-T217T";
  "(?i)(?:SAMSUNG-)?GT-P5200|Santos103G";
  "(?i)(?:SAMSUNG-)?GT-P5210";
  "(?i)(?:SAMSUNG-)?GT-P5220";
  "(?i)(?:SAMSUNG-)?GT-P6200";
  "(?i)(?:SAMSUNG-)?GT-P6201";
  "(?i)(?:SAMSUNG-)?GT-P6810";
  "(?i)(?:SAMSUNG-)?GT-P7100";
  "(?i)(?:SAMSUNG-)?GT-P75[01]0";
  "(?i)(?:SAMSUNG-)?SM-T321";
  "(?i)(?:SAMSUNG-)?SM-T905";
  "(?i)(?:SAMSUNG-)?SM-P600";
  "(?i)(?:SAMSUNG-)?SM-P60[12]";
  "(?i)(?:SAMSUNG-)?SM-(?:P605|P607T)";
  "(?i)(?:SAMSUNG-)?SM-P900";
  "(?i)(?:SAMSUNG-)?SM-P901";
  "(?i)(?:SAMSUNG-)?SM-P905";
  "(?i)(?:SAMSUNG-)?SM-(?:P587|P588C)(?:[);/ ]|$)";
  "(?i)(?:SAMSUNG-)?SM-P583(?:[);/ ]|$)";
  "(?i)(?:SAMSUNG-)?SM-P205(?:[);/ ]|$)";
  "(?i)(?:SAMSUNG-)?SM-P200(?:[);/ ]|$)";
  "(?i)(?:SAMSUNG-)?SM-T307U(?:[);/ ]|$)";
  "(?i)(?:SAMSUNG-)?SM-T297";
  "(?i)(?:SAMSUNG-)?SM-(?:T505[CN]?|T507)(?:[);/ ]|$)";
  "(?i)(?:SAMSUNG-)?SM-T500(?:[);/ ]|$)";
  "(?i)(?:SAMSUNG-)?SM-T503(?:[);/ ]|$)";
  "(?i)(?:SAMSUNG-)?SM-T22[57]";
  "(?i)(?:SAMSUNG-)?SM-T220(?:[);/ ]|$)";
  "(?i)(?:SAMSUNG-)?SM-X216";
  "(?i)(?:SAMSUNG-)?SM-X218";
  "(?i)(?:SAMSUNG-)?SM-X210";
  "(?i)(?:SAMSUNG-)?SM-X215";
  "(?i)(?:SAMSUNG-)?SM-X115";
  "(?i)(?:SAMSUNG-)?SM-X110";
  "(?i)(?:SAMSUNG-)?SM-X135";
  "(?i)(?:SAMSUNG-)?SM-T11[03]";
  "(?i)(?:SAMSUNG-)?SM-X205";
  "(?i)(?:SAMSUNG-)?SM-X200";
  "(?i)(?:SAMSUNG-)?SM-(?:T830[X]?|T837R4)(?:[);/ ]|$)";
  "(?i)(?:SAMSUNG-)?SM-T837P(?:[);/ ]|$)";
  "(?i)(?:SAMSUNG-)?SM-(?:T835[CN]?|T837[VTA]?)(?:[);/ ]|$)";
  "(?i)(?:SAMSUNG-)?SM-(?:T725[CN]?|T720X|T727(?:R4|[AUV])?)(?:[);/ ]|$)";
  "(?i)(?:SAMSUNG-)?SM-T720(?:[);/ ]|$)";
  "(?i)(?:SAMSUNG-)?SM-T865N?(?:[);/ ]|$)";
  "(?i)(?:SAMSUNG-)?SM-T867(?:R4|[VU])?(?:[);/ ]|$)";
  "(?i)(?:SAMSUNG-)?SM-(?:P615[CN]?|P61[379])(?:[);/ ]|$)";
  "(?i)(?:SAMSUNG-)?SM-P625";
  "(?i)(?:SAMSUNG-)?SM-P620";
  "(?i)(?:SAMSUNG-)?SM-(?:P610X?)(?:[);/ ]|$)";
  "(?i)(?:SAMSUNG-)?SM-T860X?(?:[);/ ]|$)";
  "(?i)(?:SAMSUNG-)?SM-T866N(?:[);/ ]|$)"
].
Definition d_dr_re1_8 : list blob := [
  "(?i)(?:SAMSUNG-)?SM-X700";
  "(?i)(?:SAMSUNG-)?SM-X900";
  "(?i)(?:SAMSUNG-)?SM-X910(?:[);/ ]|$)";
  "(?i)(?:SAMSUNG-)?SM-X916[CB]";
  "(?i)(?:SAMSUNG-)?SM-X810";
  "(?i)(?:SAMSUNG-)?(?:SM-X818U|SM-X816[BN])";
  "(?i)(?:SAMSUNG-)?SM-X716";
  "(?i)(?:SAMSUNG-)?SM-X616";
  "(?i)(?:SAMSUNG-)?SM-X(?:518U|516)";
  "(?i)(?:SAMSUNG-)?SM-X610";
  "(?i)(?:SAMSUNG-)?SM-X710";
  "(?i)(?:SAMSUNG-)?SM-T111";
  "(?i)(?:SAMSUNG-)?SM-X920";
  "(?i)(?:SAMSUNG-)?SM-X926";
  "(?i)(?:SAMSUNG-)?SM-X620";
  "(?i)(?:SAMSUNG-)?SM-X626B";
  "(?i)(?:SAMSUNG-)?SM-X510";
  "(?i)(?:SAMSUNG-)?SM-X520";
  "(?i)(?:SAMSUNG-)?SM-X526";
  "(?i)(?:SAMSUNG-)?SM-X820";
  "(?i)(?:SAMSUNG-)?SM-X826";
  "(?i)(?:SAMSUNG-)?SM-X400";
  "(?i)(?:SAMSUNG-)?SM-X406";
  "(?i)(?:SAMSUNG-)?SM-T116(?:BU|NU|NY)?";
  "(?i)(?:SAMSUNG-)?SM-(?:T2105|T212)";
  "(?i)(?:SAMSUNG-)?SM-T210R?";
  "(?i)(?:SAMSUNG-)?SM-T21(?:[15]|7[AS])";
  "(?i)(?:SAMSUNG-)?SM-T230(?:NU)?";
  "(?i)(?:SAMSUNG-)?SM-T23[15]|403SC|SM-T321";
  "(?i)(?:SAMSUNG-)?SM-(?:T239|T237[PV])";
  "(?i)(?:SAMSUNG-)?SM-T232(?:[);/ ]|$)";
  "(?i)(?:SAMSUNG-)?SM-T310";
  "(?i)(?:SAMSUNG-)?SM-T312";
  "(?i)(?:SAMSUNG-)?SM-T311";
  "(?i)(?:SAMSUNG-)?SM-T315";
  "(?i)(?:SAMSUNG-)?SM-T330";
  "(?i)(?:SAMSUNG-)?SM-(?:T33[215]|T337[AVT])";
  "(?i)(?:SAMSUNG-)?SM-T520";
  "(?i)(?:SAMSUNG-)?SM-(?:T53[15]|T537[AV])";
  "(?i)(?:SAMSUNG-)?SM-T536(?:[);/ ]|$)";
  "(?i)(?:SAMSUNG-)?SM-T532(?:[);/ ]|$)";
  "(?i)(?:SAMSUNG-)?SM-T320";
  "(?i)(?:SAMSUNG-)?SM-T325";
  "(?i)(?:SAMSUNG-)?SM-T525";
  "(?i)(?:SAMSUNG-)?SM-(?:T530(?:NU)?|T533)";
  "(?i)(?:SAMSUNG-)?SM-T700";
  "(?i)(?:SAMSUNG-)?SM-(?:T705|T707[AV])";
  "(?i)(?:SAMSUNG-)?SM-T800";
  "(?i)(?:SAMSUNG-)?(?:SM-(?:T805|T807[PV]?)|SCT21)";
  "(?i)(?:SAMSUNG-)?SM-(?:T813|T810)";
  "(?i)(?:SAMSUNG-)?SM-(?:T719[CY]?|T715(?:N0|[CY])?)(?:[);/ ]|$)";
  "(?i)(?:SAMSUNG-)?SM-(?:T71[03]|T710X)(?:[);/ ]|$)";
  "(?i)(?:SAMSUNG-)?SM-(?:T815|T817[ATW]?|T818[ATVW]?|T819[Y]?)";
  "(?i)(?:SAMSUNG-)?SM-T820";
  "(?i)(?:SAMSUNG-)?SM-T82[57]";
  "(?i)(?:SAMSUNG-)?SM-T975N?(?:[);/ ]|$)";
  "(?i)(?:SAMSUNG-)?SM-T970(?:[);/ ]|$)";
  "(?i)(?:SAMSUNG-)?SM-(?:T976[BN]|T978U)(?:[);/ ]|$)";
  "(?i)(?:SAMSUNG-)?SM-T870(?:[);/ ]|$)";
  "(?i)(?:SAMSUNG-)?SM-T875N?(?:[);/ ]|$)";
  "(?i)(?:SAMSUNG-)?SM-T878U(?:[);/ ]|$)";
  "(?i)(?:SAMSUNG-)?SM-T73[57]";
  "(?i)(?:SAMSUNG-)?(?:SM-T736|SM-T738[UTV])";
  "(?i)(?:SAMSUNG-)?SM-T733";
  "(?i)(?:SAMSUNG-)?SM-X906";
  "(?i)(?:SAMSUNG-)?SM-X80[68]";
  "(?i)(?:SAMSUNG-)?SM-X800";
  "(?i)(?:SAMSUNG-)?SM-X706";
  "(?i)(?:SAMSUNG-)?SM-X730";
  "(?i)(?:SAMSUNG-)?SM-T900";
  "(?i)(?:SAMSUNG-)?SM-T280";
  "(?i)(?:SAMSUNG-)?SM-T285";
  "(?i)(?:SAMSUNG-)?SM-T3[58]0";
  "(?i)(?:SAMSUNG-)?SM-(?:P350|T3[58]5|T357[TW])";
  "(?i)(?:SAMSUNG-)?SM-T387(?:AA|R4|VK|[TPVW])";
  "(?i)(?:SAMSUNG-)?SM-T295";
  "(?i)(?:SAMSUNG-)?SM-T290";
  "(?i)(?:SAMSUNG-)?SM-(?:P355([MY])?|T550)";
  "(?i)(?:SAMSUNG-)?SM-(?:P550|P555(M)?|T555)";
  "(?i)(?:SAMSUNG-)?SM-(?:T58[05]|P58[05])";
  "(?i)(?:SAMSUNG-)?SM-T587[P]?";
  "(?i)(?:SAMSUNG-)?SM-T59[057]";
  "(?i)(?:SAMSUNG-)?SM-T51(?:7P|[057])";
  "(?i)(?:SAMSUNG-)?SM-(?:T37[57]|T378[KLSV])";
  "(?i)(?:SAMSUNG-)?SM-T56[02]";
  "(?i)(?:SAMSUNG-)?SM-T561";
  "(?i)(?:SAMSUNG-)?SM-T567V";
  "(?i)(?:SAMSUNG-)?SM-X306";
  "(?i)(?:SAMSUNG-)?SM-X300";
  "(?i)(?:SAMSUNG-)?SM-T636";
  "(?i)(?:SAMSUNG-)?SM-T365(?:F0|[MY])?(?:[);/ ]|$)";
  "(?i)(?:SAMSUNG-)?SM-T360(?:[);/ ]|$)";
  "(?i)(?:SAMSUNG-)?SM-(?:T395[CN]?|T397U)(?:[);/ ]|$)";
  "(?i)(?:SAMSUNG-)?SM-T390(?:[);/ ]|$)";
  "(?i)(?:SAMSUNG-)?SM-(?:T575N?|T577U?)(?:[);/ ]|$)";
  "(?i)(?:SAMSUNG-)?SM-T570(?:[);/ ]|$)";
  "(?i)(?:SAMSUNG-)?SM-(?:T545|T547U?)(?:[);/ ]|$)";
  "(?i)(?:SAMSUNG-)?SM-T540(?:[);/ ]|$)";
  "(?i)(?:SAMSUNG-)?SM-(?:P902|P907A)(?:[);/ ]|$)";
  "(?i)(?:SAMSUNG[- ])?SM-T2519";
  "(?i)SM-R8[76]0";
  "(?i)SM-R90[05]";
  "(?i)SM-R91[05]";
  "(?i)Family ?Hub";
  "(?i)(?:SAMSUNG-)?SM-A245";
  "(?i)(?:SAMSUNG-)?SM-A256";
  "(?i)(?:SAMSUNG-)?SM-G850(?:8S|[AFKLMSWXY])";
  "(?i)(?:SAMSUNG-)?GT-B5330";
  "(?i)(?:SAMSUNG-)?SM-A605K";
  "(?i)(?:SAMSUNG-)?SM-A202K";
  "(?i)(?:SAMSUNG-)?GT-B5510";
  "(?i)(?:SAMSUNG-)?GT-B5512";
  "(?i)(?:SAMSUNG-)?GT-B7510";
  "(?i)(?:SAMSUNG-)?GT-I5700";
  "(?i)(?:SAMSUNG-)?GT-I5801";
  "(?i)(?:SAMSUNG-)?GT-I5800";
  "(?i)(?:SAMSUNG-)?GT-I8000";
  "(?i)(?:SAMSUNG-)?GT-S7530";
  "(?i)(?:SAMSUNG-)?GT-I8350";
  "(?i)(?:SAMSUNG-)?OMNIA7";
  "(?i)(?:SAMSUNG-)?SGH-i677";
  "(?i)(?:SAMSUNG-)?SGH-i917";
  "(?i)(?:SAMSUNG-)?SGH-i937";
  "(?i)(?:SAMSUNG-)?(?:GT-I8150|SM-T255S)";
  "(?i)SC-01H(?:[);/ ]|$)";
  "(?i)(?:SAMSUNG-)?GT-S5830";
  "(?i)(?:SAMSUNG-)?SM-(?:G357(?:FZ|M)|G310HN)";
  "(?i)(?:SAMSUNG-)?GT-I8160";
  "(?i)(?:SAMSUNG-)?SM-G313(?:HY|M[LUY]|[FM])";
  "(?i)(?:SAMSUNG-)?SM-G316M";
  "(?i)(?:SAMSUNG-)?SM-G313[HU]";
  "(?i)(?:SAMSUNG-)?SM-(?:G316U|G318(?:H|ML))(?:[);/ ]|$)";
  "(?i)(?:SAMSUNG-)?SM-G9100(?:[);/ ]|$)";
  "(?i)(?:SAMSUNG-)?SHV-E120";
  "(?i)(?:SAMSUNG-)?GT-I8190";
  "(?i)(?:SAMSUNG-)?GT-I8200";
  "(?i)(?:SAMSUNG-)?GT-I826[02]";
  "(?i)(?:SAMSUNG-)?SHW-M570S";
  "(?i)(?:SAMSUNG-)?SM-G386W";
  "(?i)(?:SAMSUNG-)?SM-G3589W";
  "(?i)(?:SAMSUNG-)?GT-I8320";
  "(?i)(?:SAMSUNG-)?GT-I85[23]0";
  "(?i)(?:SAMSUNG-)?SM-G3858";
  "(?i)(?:SAMSUNG-)?SM-G600S";
  "(?i)(?:SAMSUNG-)?SM-E426S";
  "(?i)(?:SAMSUNG-)?SM-M156S";
  "(?i)(?:SAMSUNG-)?SM-M166S";
  "(?i)(?:SAMSUNG-)?GT-I855[028]";
  "(?i)(?:SAMSUNG-)?SM-G381[28]";
  "(?i)(?:SAMSUNG-)?GT-I8580";
  "(?i)(?:SAMSUNG-)?GT-I8730";
  "(?i)(?:SAMSUNG-)?SM-(?:E500(?:HQ|YZ|[0FHM])|S978L)";
  "(?i)(?:SAMSUNG-)?SM-E700[09FHM]";
  "(?i)(?:SAMSUNG-)?GT-I90(?:00|08|18|88)";
  "(?i)(?:SAMSUNG-)?GT-I9001";
  "(?i)(?:SAMSUNG-)?GT-I9003";
  "(?i)(?:SAMSUNG-)?GT-I9010";
  "(?i)(?:SAMSUNG-)?GT-I9070";
  "(?i)(?:SAMSUNG-)?GT-I910[08]";
  "(?i)(?:SAMSUNG-)?ISW11SC";
  "(?i)(?:SAMSUNG-)?GT-I9103";
  "(?i)(?:SAMSUNG-)?GT-I9105";
  "(?i)(?:SAMSUNG-)?SM-G730(?:W8|[AV])";
  "(?i)(?:SAMSUNG-)?(?:GT-I919[025]|SCH-I435)|(?:lineage_|aokp_)?serranoltexx";
  "(?i)(?:SAMSUNG-)?GT-I9515";
  "(?i)(?:SAMSUNG-)?(?:GT-I9295|SHV-E470S)";
  "(?i)(?:SAMSUNG-)?(?:GT-I9300|SCH-(?:I535|I939|L710))|SC-03E";
  "(?i)(?:SAMSUNG-)?(?:GT-I9305|SCH-R530)";
  "(?i)(?:SAMSUNG-)?(?:SM-S975L|GT-I950[025]|SC-04E|SCH-(?:I545|I959|R970)|SGH-M919N?|Galaxy-S4|SHV-E300K)";
  "(?i)(?:SAMSUNG-)?(?:GT-I9506)";
  "(?i)(?:SAMSUNG-)?SHV-E330";
  "(?i)(?:SAMSUNG-)?GT-S5280";
  "(?i)(?:SAMSUNG-)?GT-S5301";
  "(?i)(?:SAMSUNG-)?GT-S5310";
  "(?i)(?:SAMSUNG-)?SM-G110[BHM]";
  "(?i)(?:SAMSUNG-)?GT-S5360";
  "(?i)(?:SAMSUNG-)?GT-S6310";
  "(?i)(?:SAMSUNG-)?GT-S6312";
  "(?i)(?:SAMSUNG-)?SM-G130(?:BT|HN|[EHMU])";
  "(?i)(?:SAMSUNG-)?SM-G130BU";
  "(?i)(?:SAMSUNG-)?GT-S6790";
  "(?i)(?:SAMSUNG-)?GT-S6810";
  "(?i)(?:SAMSUNG-)?GT-S6812";
  "(?i)SC-04J(?:[);/ ]|$)";
  "(?i)SC-02L(?:[);/ ]|$)";
  "(?i)(?:SAMSUNG-)?GT-S7275";
  "(?i)(?:SAMSUNG-)?GT-S7500";
  "(?i)(?:SAMSUNG-)?(?:GT-S7560|SCH-I699)";
  "(?i)(?:SAMSUNG-)?GT-S7390";
  "(?i)(?:SAMSUNG-)?GT-S7580";
  "(?i)(?:SAMSUNG-)?SCH-I739";
  "(?i)(?:SAMSUNG-)?(?:GT-S7562|SCH-I919)";
  "(?i)(?:SAMSUNG-)?GT-S7582";
  "(?i)(?:SAMSUNG-)?SM-(?:G31[36]HU|G313HZ)";
  "(?i)(?:SAMSUNG-)?GT-S7710";
  "(?i)(?:SAMSUNG-)?SM-G388F";
  "(?i)(?:SAMSUNG-)?SM-G389F";
  "(?i)(?:SAMSUNG-)?SM-G390[FWY]";
  "(?i)(?:SAMSUNG-)?SM-G398FN";
  "(?i)(?:SAMSUNG-)?SM-G715(?:FN|U1|[AUW])"
].
Definition d_dr_re1_9 : list blob := [
  "(?i)(?:SAMSUNG-)?SM-G889(?:YB|[AFG])";
  "(?i)(?:SAMSUNG-)?SM-G525[FN]";
  "(?i)(?:SAMSUNG-)?SM-G736";
  "(?i)(?:SAMSUNG-)?SM-G556";
  "(?i)(?:SAMSUNG-)?GT-S8500";
  "(?i)(?:SAMSUNG-)?GT-S8530";
  "(?i)(?:SAMSUNG-)?GT-S8600";
  "(?i)(?:SAMSUNG-)?GT-S5380";
  "(?i)(?:SAMSUNG-)?GT-S7250";
  "(?i)(?:SAMSUNG-)?GT-S5250";
  "(?i)(?:SAMSUNG-)?GT-S5330";
  "(?i)(?:SAMSUNG-)?GT-S5780";
  "(?i)(?:SAMSUNG-)?GT-S7230";
  "(?i)(?:SAMSUNG-)?SM-(?:C101|C105([AL])?)";
  "(?i)(?:SAMSUNG-)?SM-(?:C111(M)?|C115)";
  "(?i)(?:SAMSUNG-)?SM-G318[HM]Z";
  "(?i)(?:SAMSUNG-)?SM-G355(?:6D|[89HM])";
  "(?i)(?:SAMSUNG-)?SM-G350";
  "(?i)(?:SAMSUNG-)?SM-(?:G360[FH]?|S820L)";
  "(?i)(?:SAMSUNG-)?SM-G361[FH]?";
  "(?i)(?:SAMSUNG-)?SM-(?:G386F|G3518(?:_TD)?|G3586V)";
  "(?i)(?:SAMSUNG-)?SM-G3568V";
  "(?i)(?:SAMSUNG-)?SM-G5108Q?";
  "(?i)(?:SAMSUNG-)?SM-G3815";
  "(?i)(?:SAMSUNG-)?SM-G80[01]";
  "(?i)(?:SAMSUNG-)?SM-G9009D";
  "(?i)(?:SAMSUNG-)?SM-G900FD";
  "(?i)(?:SAMSUNG-)?SM-(?:G900|G906[KLS]|S902L|S903VL|G490F)|Galaxy-S5|SCL23|SC-04F";
  "(?i)(?:SAMSUNG-)?SM-G901F";
  "(?i)(?:SAMSUNG-)?SM-G870[AFW]|SC-02G";
  "(?i)(?:SAMSUNG-)?SM-G903[FMW]";
  "(?i)(?:SAMSUNG-)?SM-G860P";
  "(?i)(?:SAMSUNG-)?(?:SM-G920(?:F[DQ]|W8|[089AFIKLPRSTVX])?|SM-S906L|SM-S907VL)|SC-05G";
  "(?i)(?:SAMSUNG-)?SM-G890A";
  "(?i)(?:SAMSUNG-)?(?:SM-G925[0ADFJIKLPRSTVWX]|SCV31|404SC|SC-04G|SM-G828)";
  "(?i)(?:SAMSUNG-)?SM-G928(?:7C|N0|R4|W8|[07ACFGIKLPSTVX])";
  "(?i)(?:SAMSUNG-|Verizon-)?SM-G930(?:AZ|FD|R[467]|T1|V[CL]|W8|[0AFKLPRSTUVX8])?(?:[);/ ]|$)";
  "(?i)(?:SAMSUNG-)?SM-G935(?:R4|W8|[0AFKLPSTUVX])|SC-02H|SCV33|Galaxy s7 edge";
  "(?i)(?:SAMSUNG-)?SM-G891A";
  "(?i)(?:SAMSUNG-)?SM-G950[08FNUW]?|SCV36|SC-02J";
  "(?i)(?:SAMSUNG-)?SM-G8750";
  "(?i)(?:SAMSUNG-)?SM-G892[AU]";
  "(?i)(?:SAMSUNG-)?SM-G955[0AFKLNPRTUVWX]?|SCV35|SC-03J";
  "(?i)(?:SAMSUNG-)?SM-G960[0FNUWX]?|SCV38|SC-02K";
  "(?i)(?:SAMSUNG-)?SM-G965[0FNUWX]|SCV39|SC-03K";
  "(?i)(?:SAMSUNG-)?(?:SM-(?:G973|G977[BNPTU])|SCV41|SC-03L)";
  "(?i)(?:SAMSUNG-)?SM-(?:S10 Lite|G770(?:U1|F))";
  "(?i)(?:SAMSUNG-)?(?:SM-G975[08FUNWX]|SCV42|SC-04L)";
  "(?i)(?:(?:SAMSUNG-)?SM-G970(?:U1|[08FUNWX])|beyond0q?)(?:[);/ ]|$)";
  "(?i)(?:SAMSUNG-)?SM-G980F";
  "(?i)(?:SAMSUNG-)?SM-G981(?:U1|[0BNUVW])|SCG01|SC-51A|SC51Aa";
  "(?i)(?:SAMSUNG-)?SM-G780";
  "(?i)(?:SAMSUNG-)?SM-G781(?:U1|[0BNUVW])";
  "(?i)(?:SAMSUNG-)?SM-G988(?:U1|[0BNQUW])|SCG03";
  "(?i)(?:SAMSUNG-)?SM-G985F|SCG02";
  "(?i)(?:SAMSUNG-)?SM-G986(?:U1|[0BNUW])|SC-52A";
  "(?i)(?:SAMSUNG-)?SM-G991V";
  "(?i)(?:SAMSUNG-)?SM-G991(?:U1|R4|[0ABNWQU])|SCG09";
  "(?i)(?:SAMSUNG-)?SM-G990";
  "(?i)(?:SAMSUNG-)?SC-51B";
  "(?i)(?:SAMSUNG-)?(?:SM-G998(?:U1|[0BNUWTP])|SC-52B)";
  "(?i)(?:SAMSUNG-)?SM-G996(?:U1|[0BNWUP])|SCG10";
  "(?i)(?:SAMSUNG-)?SM-S901(?:U1|[0BENUW])|SC-51C|SCG13";
  "(?i)(?:SAMSUNG-)?SM-S908(?:U1|[0BENUW])|SCG14|SC-52C";
  "(?i)(?:SAMSUNG-)?SM-S906(?:U1|[0BENUW])";
  "(?i)(?:SAMSUNG-)?(?:SM-S911|SCG19|SC-51D)";
  "(?i)(?:SAMSUNG-)?SM-S916";
  "(?i)(?:SAMSUNG-)?(?:SM-S918|SC-52D|SCG20)";
  "(?i)(?:SAMSUNG-)?(?:SM-S711|SCG24)";
  "(?i)(?:SAMSUNG-)?(?:SM-S921|SCG25|SC-51E)";
  "(?i)(?:SAMSUNG-)?(?:SM-S926)";
  "(?i)(?:SAMSUNG-)?(?:SM-S721|SCG30)";
  "(?i)(?:SAMSUNG-)?(?:SM-S928|SCG26)";
  "(?i)(?:SAMSUNG-)?(?:SM-S936)";
  "(?i)(?:SAMSUNG-)?(?:SM-S931)";
  "(?i)(?:SAMSUNG-)?(?:SM-S937)";
  "(?i)(?:SAMSUNG-)?(?:SM-S938)";
  "(?i)(?:SAMSUNG-)?SM-F700(?:U1|[0FNUW])|SCV47";
  "(?i)(?:SAMSUNG-)?SM-F707(?:U1|[0BNUW])|SCG04";
  "(?i)(?:SAMSUNG-)?SCH-I200";
  "(?i)(?:SAMSUNG-)?SCH-I829";
  "(?i)(?:SAMSUNG-)?(?:SCH-R740|SGH-S730)";
  "(?i)(?:SAMSUNG-)?SCH-S738";
  "(?i)vollo Vi86(?:[);/ ]|$)";
  "(?i)(?:SAMSUNG-)?SM-G386(?:T1|T)";
  "(?i)(?:SAMSUNG-)?SM-A716S";
  "(?i)(?:SAMSUNG-)?SM-(?:A015(?:DL|[TU]1|[AFGMUV])|S111DL)";
  "(?i)(?:SAMSUNG-)?SM-A013[FGM]";
  "(?i)(?:SAMSUNG-)?SM-(?:A025(?:[AFGM]|AZ)?|S124DL)";
  "(?i)(?:SAMSUNG-)?(?:SM-A037[F]?|SM-S13[45]DL)";
  "(?i)(?:SAMSUNG-)?SM-A035[F]?";
  "(?i)(?:SAMSUNG-)?SM-A047";
  "(?i)(?:SAMSUNG-)?SM-A042[FM]";
  "(?i)(?:SAMSUNG-)?SM-A045";
  "(?i)(?:SAMSUNG-)?SM-A032[F]?";
  "(?i)(?:SAMSUNG-)?SM-A022[GMF]?";
  "(?i)(?:SAMSUNG-)?SM-A055";
  "(?i)(?:SAMSUNG-)?SM-A057";
  "(?i)(?:SAMSUNG-)?SM-A066";
  "(?i)(?:SAMSUNG-)?SM-A065";
  "(?i)(?:SAMSUNG-)?SM-A260[FG]";
  "(?i)(?:SAMSUNG-)?(?:SM-S115(?:DL)?|SM-A115V)";
  "(?i)(?:SAMSUNG-)?(?:SM-[AS]146)";
  "(?i)(?:SAMSUNG-)?(?:SM-A145)";
  "(?i)(?:SAMSUNG-)?(?:SM-A156|SM-S156V)";
  "(?i)(?:SAMSUNG-)?(?:SM-A155)";
  "(?i)(?:SAMSUNG-)?(?:SM-A165)";
  "(?i)(?:SAMSUNG-)?(?:SM-[AS]166)";
  "(?i)(?:SAMSUNG-)?SM-A225[F]?";
  "(?i)(?:SAMSUNG-)?SM-A226L";
  "(?i)(?:SAMSUNG-)?SM-A156L";
  "(?i)(?:SAMSUNG-)?SM-A226|SC-56B";
  "(?i)(?:SAMSUNG-)?SM-A300(?:FU|YZ|XU|XZ|[09FGHMXY])";
  "(?i)(?:SAMSUNG-)?SM-A310(?:N0|[FMXY])";
  "(?i)(?:SAMSUNG-)?SM-A320(?:FL|[FXY])";
  "(?i)(?:SAMSUNG-)?SM-A346";
  "(?i)(?:SAMSUNG-)?SM-A356";
  "(?i)(?:SAMSUNG-)?SM-A366";
  "(?i)(?:SAMSUNG-)?SM-A430F";
  "(?i)(?:SAMSUNG-)?(?:SM-A500(?:YZ|[9LSWY])?|SM-A5OOH)(?:[);/ ]|$)";
  "(?i)(?:SAMSUNG-)?SM-A500[0FGHKM]";
  "(?i)(?:SAMSUNG-)?SM-A500(?:FU|X)";
  "(?i)(?:SAMSUNG-)?SM-A510[08FKLMSXY]";
  "(?i)(?:SAMSUNG-)?SM-A520[FKLSWX]";
  "(?i)(?:SAMSUNG-)?SM-A525";
  "(?i)(?:SAMSUNG-)?(?:SC-53B|SM-A526)";
  "(?i)(?:SAMSUNG-)?SM-A528";
  "(?i)(?:SAMSUNG-)?SM-A600(?:AZ|FN|GN|T1|[AFGNPTUX])|SM-A6(?:[);/ ]|$)";
  "(?i)(?:SAMSUNG-)?SM-A605(?:[FG]N|[08FGX])|SM-A6\+";
  "(?i)(?:SAMSUNG-)?SM-G6200";
  "(?i)(?:SAMSUNG-)?SM-A606[0Y]";
  "(?i)(?:SAMSUNG-)?SM-A700(?:YD|[09FHKLSX])";
  "(?i)(?:SAMSUNG-)?SM-A710[08FKLMSXY]";
  "(?i)(?:SAMSUNG-)?SM-A720[FMSX]";
  "(?i)(?:SAMSUNG-)?SM-A750(?:GN|[CFGNX])";
  "(?i)(?:SAMSUNG-)?SM-A71(?:5[FW])?(?:[);/ ]|$)";
  "(?i)(?:SAMSUNG-)?SM-A725[FM](?:[);/ ]|$)";
  "(?i)(?:SAMSUNG-)?SM-A736";
  "(?i)(?:SAMSUNG-)?SM-A716(?:U1|[0BUVT])(?:[);/ ]|$)";
  "(?i)(?:SAMSUNG-)?SM-A(?:530F|800[0FISXY])|SCV32";
  "(?i)(?:SAMSUNG-)?SM-G885[FSY]";
  "(?i)(?:SAMSUNG-)?SM-A810(?:YZ|[FS])";
  "(?i)(?:SAMSUNG-)?SM-(?:A8s|G887[0F])";
  "(?i)(?:SAMSUNG-)?SM-A530[MNWX]";
  "(?i)(?:SAMSUNG-)?SM-A730[FX]";
  "(?i)(?:SAMSUNG-)?SM-A900[0F]";
  "(?i)SM-A9\[7\]";
  "(?i)(?:SAMSUNG-)?SM-A920[0FXN]";
  "(?i)(?:SAMSUNG-)?SM-G885[08]";
  "(?i)(?:SAMSUNG-)?SM-(?:A9 Pro|A910[0F]|G887N)";
  "(?i)(?:SAMSUNG-)?SM-A105[FGMN]";
  "(?i)(?:SAMSUNG-)?SM-A107[FM]";
  "(?i)(?:SAMSUNG-)?SM-(?:S102DL|A102[NUW])";
  "(?i)(?:SAMSUNG-)?SM-A115(?:A[PZ]|U1|[AFMUW])";
  "(?i)(?:SAMSUNG-)?SM-(?:A12(?:5[AFMNUWTPV]|7[FM])|S127DL)";
  "(?i)(?:SAMSUNG-)?SM-(?:A136(?:U1|[BMWUS])|S136DL)";
  "(?i)(?:SAMSUNG-)?(?:SM-A135|SM-A137F)";
  "(?i)(?:SAMSUNG-)?SM-(?:A205(?:U1|YN|[FGSWU])|S205DL)|SC-02M|SCV46";
  "(?i)(?:SAMSUNG-)?(?:SM-A215(?:DL|R4|U1|[UWTP])|SM-S215DL|SC-42A|SCV49|SM-A102J)(?:[);/ ]|$)";
  "(?i)(?:SAMSUNG-)?SM-A217";
  "(?i)(?:SAMSUNG-)?SM-A202[FG]";
  "(?i)(?:SAMSUNG-)?SM-A207[0FM]";
  "(?i)(?:SAMSUNG-)?SM-A235";
  "(?i)(?:SAMSUNG-)?SM-A23[36]|SM-S236|SC-56C|SCG18";
  "(?i)(?:SAMSUNG-)?(?:SM-A305(?:[FGY]N|GT|[FGN])|SCV43)";
  "(?i)(?:SAMSUNG-)?SM-A307(?:FN|GN|GT|[FG])";
  "(?i)(?:SAMSUNG-)?SM-A315[FGN](?:[);/ ]|$)";
  "(?i)(?:SAMSUNG-)?SM-A325";
  "(?i)(?:SAMSUNG-)?(?:SM-(?:A326(?:BR|U1|[BUWJ])|S326DL)|SCG08)";
  "(?i)(?:SAMSUNG-)?SM-A336";
  "(?i)(?:SAMSUNG-)?SM-A405(?:F[NM]|S)";
  "(?i)(?:SAMSUNG-)?SM-A305[018](?:[);/ ]|$)";
  "(?i)(?:SAMSUNG-)?(?:SM-A415F|SC-41A|SCV48)(?:[);/ ]|$)";
  "(?i)(?:SAMSUNG-)?SM-[AS]426";
  "(?i)(?:SAMSUNG-)?SM-(?:A505(?:F[GN]|U1|YN|[FGNUWX])|S506DL|505FN)";
  "(?i)(?:SAMSUNG-)?SM-A5070(?:[);/ ]|$)";
  "(?i)(?:SAMSUNG-)?SM-A507FN";
  "(?i)(?:SAMSUNG-)?SM-(?:A515[FUW]|S515DL)";
  "(?i)(?:SAMSUNG-)?(?:SM-A516(?:U1|[0BNUVTF])|SC-54A|SCG07)";
  "(?i)(?:SAMSUNG-)?SM-A536V";
  "(?i)(?:SAMSUNG-)?(?:SM-A536|SC-53C|SCG15|SM-S536DL)";
  "(?i)(?:SAMSUNG-)?SM-A546S";
  "(?i)(?:SAMSUNG-)?SM-A566S";
  "(?i)(?:SAMSUNG-)?(?:SM-[AS]546|SC-53D|SCG21)";
  "(?i)(?:SAMSUNG-)?(?:SM-A556|SCG27)";
  "(?i)(?:SAMSUNG-)?(?:SM-A566)";
  "(?i)(?:SAMSUNG-)?SM-A705(?:GM|[MYF]N|[0FUWX])";
  "(?i)(?:SAMSUNG-)?SM-A707[0FW]";
  "(?i)(?:SAMSUNG-)?SM-A805[0FNX]";
  "(?i)(?:SAMSUNG-)?SM-A908[BN]";
  "(?i)(?:SAMSUNG-)?SM-A9080";
  "(?i)(?:SAMSUNG-)?SM-E025F";
  "(?i)(?:SAMSUNG-)?SM-E045F";
  "(?i)(?:SAMSUNG-)?SM-E055";
  "(?i)(?:SAMSUNG-)?SM-E066";
  "(?i)(?:SAMSUNG-)?SM-F127G(?:[);/ ]|$)";
  "(?i)(?:SAMSUNG-)?SM-E135F";
  "(?i)(?:SAMSUNG-)?SM-E146B";
  "(?i)(?:SAMSUNG-)?SM-E145F";
  "(?i)(?:SAMSUNG-)?SM-E156B"
].
Definition d_dr_re1_10 : list blob := [
  "(?i)(?:SAMSUNG-)?SM-E166P";
  "(?i)(?:SAMSUNG-)?SM-E225F(?:[);/ ]|$)";
  "(?i)(?:SAMSUNG-)?SM-E236";
  "(?i)(?:SAMSUNG-)?SM-E346";
  "(?i)(?:SAMSUNG-)?SM-F415F(?:[);/ ]|$)";
  "(?i)(?:SAMSUNG-)?SM-E426B(?:[);/ ]|$)";
  "(?i)(?:SAMSUNG-)?SM-E5260(?:[);/ ]|$)";
  "(?i)(?:SAMSUNG-)?SM-E546";
  "(?i)(?:SAMSUNG-)?SM-E625";
  "(?i)(?:SAMSUNG-)?GT-I9301I";
  "(?i)(?:SAMSUNG-)?SM-S120VL";
  "(?i)(?:SAMSUNG-)?SGH-T399";
  "(?i)(?:SAMSUNG-)?SM-(?:J100(?:FN|VPP|MU|[FGHMY])|S777C)";
  "(?i)(?:SAMSUNG-)?SM-J105[BFHYM]";
  "(?i)(?:SAMSUNG-)?SM-J106[BFHM]";
  "(?i)(?:SAMSUNG-)?SM-(?:J120(?:ZN|[AFGHMPTW])|J05H)";
  "(?i)(?:SAMSUNG-)?SM-(?:J110[FGHLM]|J111[FM])";
  "(?i)(?:SAMSUNG-)?SM-J200[FGHMY]";
  "(?i)(?:SAMSUNG-)?SM-J200BT";
  "(?i)(?:SAMSUNG-)?SM-J260AZ";
  "(?i)(?:SAMSUNG-)?SM-(?:J260([AFGMY]|T1)|S260DL)";
  "(?i)(?:SAMSUNG-)?SM-J(?:210F|250[FGMNY])";
  "(?i)(?:SAMSUNG-)?SM-(?:S367VL|S357BL)";
  "(?i)(?:SAMSUNG-)?SM-J311(?:[09]|9S)";
  "(?i)(?:SAMSUNG-)?SM-S320VL(?:[);/ ]|$)";
  "(?i)(?:SAMSUNG-)?SM-S327VL(?:[);/ ]|$)";
  "(?i)(?:SAMSUNG-)?SM-J327(?:T1|[ATW])(?:[);/ ]|$)";
  "(?i)(?:SAMSUNG-)?SM-J327(?:[FP]|R4)";
  "(?i)(?:SAMSUNG-)?SM-J337R4(?:[);/ ]|$)";
  "(?i)(?:SAMSUNG-)?SM-J337T(?:[);/ ]|$)";
  "(?i)(?:SAMSUNG-)?SM-J327VPP";
  "(?i)(?:SAMSUNG-)?SM-J327V";
  "(?i)(?:SAMSUNG-)?SM-S337TL";
  "(?i)(?:SAMSUNG-)?SM-J3109";
  "(?i)(?:SAMSUNG-)?SM-(?:J300H|J320(?:[ZF]N|R4|W8|YZ|[AFGHMNPVY]))";
  "(?i)(?:SAMSUNG-)?SM-(?:J330(?:FN|[08FGLN])|J327(?:R[76]|U))(?:[);/ ]|$)";
  "(?i)(?:SAMSUNG-)?SM-J337(?:VPP|[AWPUV])(?:[);/ ]|$)";
  "(?i)(?:SAMSUNG-)?SM-(?:G400[FG]|J400[FGM])";
  "(?i)(?:SAMSUNG-)?SM-J500(?:FN|N0|[78FGHMY])(?:[);/ ]|$)";
  "(?i)(?:SAMSUNG-)?SM-(?:J510(?:[FGMU]N|FQ|[8FGHKLSY])?|5108|G510H)(?:[);/ ]|$)";
  "(?i)(?:SAMSUNG-)?SM-J530[GY]";
  "(?i)(?:SAMSUNG-)?SM-J530|(?:lineage_)?j5y17lte";
  "(?i)(?:SAMSUNG-)?SM-G570[0FMY]";
  "(?i)(?:SAMSUNG-)?SM-J600[FGLN]";
  "(?i)(?:SAMSUNG-)?SM-J610[FG]";
  "(?i)(?:SAMSUNG-)?SM-J410[FG]";
  "(?i)(?:SAMSUNG-)?SM-J415(?:[FG]N|[FGN])";
  "(?i)(?:SAMSUNG-)?SM-J710FN(?:[);/ ]|$)";
  "(?i)(?:SAMSUNG-)?SM-J7[01]0(?:FN|MN|[8FHKM])";
  "(?i)(?:SAMSUNG-)?SM-J700P";
  "(?i)(?:SAMSUNG-)?SM-(?:J700(?:T1|T)|J710GN|J7109?)";
  "(?i)(?:SAMSUNG-)?SM-(?:J730[K]|J727(?:R4|[AFSU]))(?:[);/ ]|$)";
  "(?i)(?:SAMSUNG-)?SM-J737(?:R4|T1|VPP|[APSTUV])(?:[);/ ]|$)";
  "(?i)(?:SAMSUNG-)?SM-C710F";
  "(?i)(?:SAMSUNG-)?SM-G610[FMY]";
  "(?i)(?:SAMSUNG-)?SM-G611(?:FF|MT|M)";
  "(?i)(?:SAMSUNG-)?SM-G615F";
  "(?i)(?:SAMSUNG-)?SM-(?:S727VL|S737TL)";
  "(?i)(?:SAMSUNG-)?SM-(?:J7 Pro|J730(?:GM|[FG]))";
  "(?i)(?:SAMSUNG-)?SM-J701[FM]";
  "(?i)(?:SAMSUNG-)?SM-J720[FM]";
  "(?i)(?:SAMSUNG-)?SM-(?:S767VL|S757BL)";
  "(?i)(?:SAMSUNG-)?SM-J727[PTV]";
  "(?i)SM-J7\[7\]";
  "(?i)(?:SAMSUNG-)?SM-J810|SM-J8(?:[);/ ]|$)";
  "(?i)SM-J9\[7\] Prime";
  "(?i)SM-J9\[8\] Pro";
  "(?i)(?:SAMSUNG-)?SM-M015[FG]";
  "(?i)(?:SAMSUNG-)?SM-M045F";
  "(?i)(?:SAMSUNG-)?SM-M055F";
  "(?i)(?:SAMSUNG-)?SM-M013F";
  "(?i)(?:SAMSUNG-)?SM-M017F";
  "(?i)(?:SAMSUNG-)?SM-M025F";
  "(?i)(?:SAMSUNG-)?SM-M022[FGM]";
  "(?i)(?:SAMSUNG-)?SM-M105[FGMY]";
  "(?i)(?:SAMSUNG-)?SM-M107F";
  "(?i)(?:SAMSUNG-)?SM-M115[FM]";
  "(?i)(?:SAMSUNG-)?SM-M127[FGN]";
  "(?i)(?:SAMSUNG-)?SM-M135";
  "(?i)(?:SAMSUNG-)?SM-M136";
  "(?i)(?:SAMSUNG-)?SM-M146B";
  "(?i)(?:SAMSUNG-)?SM-M145F";
  "(?i)(?:SAMSUNG-)?SM-M156B";
  "(?i)(?:SAMSUNG-)?SM-M166P";
  "(?i)(?:SAMSUNG-)?SM-(?:M205(?:[FGMN]|FN)|M20)(?:[);/ ]|$)";
  "(?i)(?:SAMSUNG-)?SM-M215F";
  "(?i)(?:SAMSUNG-)?SM-M215G";
  "(?i)(?:SAMSUNG-)?SM-M225";
  "(?i)(?:SAMSUNG-)?SM-M236L";
  "(?i)(?:SAMSUNG-)?SM-M236";
  "(?i)(?:SAMSUNG-)?SM-(?:M307(?:FN|[0F])|M30s)";
  "(?i)(?:SAMSUNG-)?SM-M305?";
  "(?i)(?:SAMSUNG-)?SM-M315F";
  "(?i)(?:SAMSUNG-)?SM-M325F";
  "(?i)(?:SAMSUNG-)?SM-M326";
  "(?i)(?:SAMSUNG-)?SM-M336";
  "(?i)(?:SAMSUNG-)?SM-M317F";
  "(?i)(?:SAMSUNG-)?SM-M346";
  "(?i)(?:SAMSUNG-)?SM-M356";
  "(?i)(?:SAMSUNG-)?SM-M405";
  "(?i)(?:SAMSUNG-)?SM-M426";
  "(?i)(?:SAMSUNG-)?SM-M515F";
  "(?i)(?:SAMSUNG-)?SM-M526";
  "(?i)(?:SAMSUNG-)?SM-M536S";
  "(?i)(?:SAMSUNG-)?SM-M536";
  "(?i)(?:SAMSUNG-)?SM-M546";
  "(?i)(?:SAMSUNG-)?SM-M625";
  "(?i)(?:SAMSUNG-)?SM-M556";
  "(?i)(?:SAMSUNG-)?SM-W201([689])";
  "(?i)(?:SAMSUNG-)?SM-W2022";
  "(?i)(?:SAMSUNG-)?SM-W2020";
  "(?i)(?:SAMSUNG-)?SM-W2021";
  "(?i)(?:SAMSUNG-)?SM-A826";
  "(?i)(?:SAMSUNG-)?SM-W2015";
  "(?i)(?:SAMSUNG-)?SM-G910S";
  "(?i)(?:SAMSUNG-)?SM-(?:G550(?:FY|T[12]?)|S550TL|G55[01]0|G5520)";
  "(?i)(?:SAMSUNG-)?SM-G5528";
  "(?i)(?:SAMSUNG-)?SM-G600(?:FY|[0F])";
  "(?i)(?:SAMSUNG-)?SM-G610[0KLS]";
  "(?i)(?:SAMSUNG-)?SM-G611[FKLS]";
  "(?i)(?:SAMSUNG-)?SM-C500[0X]";
  "(?i)(?:SAMSUNG-)?SM-C501[08]";
  "(?i)(?:SAMSUNG-)?SM-C5560";
  "(?i)(?:SAMSUNG-)?SM-C700[0X]";
  "(?i)(?:SAMSUNG-)?SM-C701[08FX]";
  "(?i)(?:SAMSUNG-)?SM-C710[08]";
  "(?i)(?:SAMSUNG-)?SM-C900[08FY]";
  "(?i)(?:SAMSUNG-)?SM-Z130H";
  "(?i)(?:SAMSUNG-)?SM-Z200[FMY]";
  "(?i)(?:SAMSUNG-)?SM-Z300H";
  "(?i)(?:SAMSUNG-)?SM-Z400[FY]";
  "(?i)(?:SAMSUNG-)?SM-(?:G150(?:N[0KLS])?|G155S)(?:[);/ ]|$)";
  "(?i)(?:SAMSUNG-)?(?:SM-G16(?:0N|[05]0?|5N))(?:[);/ ]|$)";
  "(?i)(?:SAMSUNG-)?SM-J321AZ(?:[);/ ]|$)";
  "(?i)(?:SAMSUNG-)?SM-J326AZ(?:[);/ ]|$)";
  "(?i)(?:SAMSUNG-)?SM-J336AZ(?:[);/ ]|$)";
  "(?i)(?:SAMSUNG-)?SM-J727AZ(?:[);/ ]|$)";
  "(?i)(?:SAMSUNG-)?SM-J327AZ";
  "(?i)(?:SAMSUNG-)?SM-J337AZ";
  "(?i)(?:SAMSUNG-)?SM-(?:F900[0FUW]|F907[BN])|SCV44";
  "(?i)(?:SAMSUNG-)?SM-W9023";
  "(?i)(?:SAMSUNG-)?SM-W9025";
  "(?i)(?:SAMSUNG-)?SM-W9024";
  "(?i)(?:SAMSUNG-)?SM-W7023";
  "(?i)(?:SAMSUNG-)?SM-W7024";
  "(?i)(?:SAMSUNG-)?(?:SM-F711|SCG12|SC-54B)";
  "(?i)(?:SAMSUNG-)?(?:SM-F721|SC-54C|SCG17)";
  "(?i)(?:SAMSUNG-)?(?:SM-F731|SCG23)";
  "(?i)(?:SAMSUNG-)?(?:SM-F741)";
  "(?i)(?:SAMSUNG-)?SM-F916(?:U1|[0BNQUW])|SCG05";
  "(?i)(?:SAMSUNG-)?(?:SM-F926|SC-55B|SCG11)";
  "(?i)(?:SAMSUNG-)?(?:SM-F936|SCG16|SC-55C)";
  "(?i)(?:SAMSUNG-)?(?:SM-F946|SCG22|SC-55D)";
  "(?i)(?:SAMSUNG-)?(?:SM-F956|SCG28|SC-55E)";
  "(?i)(?:SAMSUNG-)?GT-I9060(?:[);/ ]|$)";
  "(?i)(?:SAMSUNG-)?GT-I9063";
  "(?i)(?:SAMSUNG-)?GT-I9(?:080|128)";
  "(?i)(?:SAMSUNG-)?GT-I9168";
  "(?i)(?:SAMSUNG-)?GT-I9082";
  "(?i)(?:SAMSUNG-)?GT-N7000";
  "(?i)(?:SC-01G|SCL24)(?:[);/ ]|$)";
  "(?i)(?:SAMSUNG-)?SM-N935[FSLK](?:[);/ ]|$)";
  "(?i)(?:SAMSUNG-)?(?:(?:GT-)?N7100|SCH-(?:I605|N719|R950)|SPH-L900|Galaxy Note 2)(?:[);/ ]|$)";
  "(?i)(?:SAMSUNG-)?GT-N7105";
  "(?i)(?:SAMSUNG-)?SM-G710(?:2T|5[HL]|[25689KLS])?(?:[);/ ]|$)";
  "(?i)(?:SAMSUNG-)?SM-G720(?:AX|N0|[02])(?:[);/ ]|$)";
  "(?i)(?:(?:SAMSUNG-)?SM-(?:G530(?:[689]W|[AF]Z|BT|MU|R[47]|[AFHMPTWY])|G531[FH]|S920L)|(?:rr_)?fortuna3g)(?:[);/ ]|$)";
  "(?i)(?:SAMSUNG-)?SM-G531(?:BT|[MY])(?:[);/ ]|$)";
  "(?i)(?:SAMSUNG-)?SM-G532F(?:[);/ ]|$)";
  "(?i)(?:SAMSUNG-)?SM-G532MT(?:[);/ ]|$)";
  "(?i)(?:SAMSUNG-)?SM-G532[MG](?:[);/ ]|$)";
  "(?i)(?:SAMSUNG-)?SM-N7502(?:[);/ ]|$)";
  "(?i)(?:SAMSUNG-)?SM-N750[05LQ]?";
  "(?i)(?:SAMSUNG-)?SM-N9002(?:[);/ ]|$)";
  "(?i)(?:SAMSUNG-)?SM-9005(?:[);/ ]|$)";
  "(?i)(?:SAMSUNG-)?(?:SM-N900(?:W8|[05689][VQ]?|[AKLPSTV])?|SCL22|SC-01F|SC-02F)";
  "(?i)(?:SAMSUNG-)?SM-(?:N910|910U)|N9100(?:[);/ ]|$)";
  "(?i)(?:SAMSUNG-)?SM-N916[KLS]";
  "(?i)(?:SAMSUNG-)?SM-N915";
  "(?i)(?:SAMSUNG-)?SM-N920(?:R[467]|W8|[0ACFGIKLPSTVX])";
  "(?i)(?:SAMSUNG-)?SM-N9208";
  "(?i)(?:SAMSUNG-)?SM-G750(?:8Q|[9AFH])";
  "(?i)(?:SAMSUNG-)?GT-I915[028]";
  "(?i)(?:SAMSUNG-)?GT-I920[05]";
  "(?i)(?:SAMSUNG-)?(?:SM-N930(?:R[467]|W8|[0AFKLPSTUVX])|SCV34)";
  "(?i)(?:SAMSUNG[- ])?SM-N950|SCV37|SC-01K";
  "(?i)(?:SAMSUNG[- ])?(?:SM-N960|SCV40|SC-01L)|crownqlte";
  "(?i)(?:SAMSUNG[- ])?(?:SM-N975(?:U1|XU|[0CFUWX])|SM-N976[0BVNQU]|SC-01M|SCV45)|Galaxy Note 10\+";
  "(?i)(?:SAMSUNG[- ])?SM-(?:N970(?:U1|W8|[089DFJKLSUWX])|N971N)|Galaxy Note 10";
  "(?i)(?:SAMSUNG[- ])?SM-N770[FX]";
  "(?i)(?:SAMSUNG[- ])?(?:SM-N981(?:B/DS|U1|[0BNUW]))";
  "(?i)(?:SAMSUNG[- ])?(?:SM-N985(?:F/DS|F))|Galaxy Note 20 Ultra";
  "(?i)(?:SAMSUNG[- ])?(?:SM-N980(?:F/DS|F)|Galaxy Note 20)";
  "(?i)(?:SAMSUNG[- ])?(?:SM-N986(?:B/DS|U1|[0BCNUW])|SC-53A|SCG06)";
  "(?i)(?:SAMSUNG-)?SM-W750V";
  "(?i)(?:SAMSUNG-)?SM-G310R5";
  "(?i)(?:SAMSUNG-)?GT-E2152";
  "(?i)(?:SAMSUNG-)?(GT-(P|N8|N5)[0-9]+[a-z]?)";
  "(?i)(?:SAMSUNG-)?((?:SM-[TNP]|GT-P)[a-z0-9_-]+)";
  "(?i)((?:SCH|SGH|SPH|SHV|SHW|GT|SM)-[a-z0-9_-]+)"
].
Definition d_dr_re1_11 : list blob := [
  "(?i)Galaxy ([^/;)]+)(?: Build|[;)])";
  "(?i)Galaxy ([a-z0-9]+)";
  "(?i)SAMSUNG[\-][ ]?([a-z0-9]+[\-_][a-z0-9]+)";
  "(?i)SAMSUNG;[ ]?([a-z0-9]+[\-_][a-z0-9]+)";
  "(?i)SAMSUNG[ _/\-]?([a-z0-9-]+)";
  "(?i)SAMSUNG;[ ]?([a-z0-9 ]+)";
  "(?i)SEC_SC-([a-z0-9]+)";
  "(?i)SEC-([a-z0-9]+)";
  "(?i)SAM-([a-z0-9]+)";
  "(?i)(?:portalmmm|o2imode)/2\.0 ([SZ][a-z0-9]+)";
  "(?i)sam([rua][0-9]+)";
  "(?i)(T3G_04|TWIFI-06)(?:[);/ ]|$)";
  "(?i)(?:SAMTRON(?:_W)?_)?(43SA70[15]|50SA707|55SA703|43SA701)(?:[);/ ]|$)";
  "(?i)(?:8312D|G(60[25]|70[3568]G?|785|803)|N83(?:-2cpu)?|N91) Build";
  "(?i)G(60[25]|70[3568]G?|785|803)";
  "(?i)Sansui[_ ]|(?:S505024)(?:[);/ ]|$)";
  "(?i)Sansui[_ ](Switch|Play|Fun|SA4[01]|U4[56]|U3[02]|Nova)(?:[);/ ]|$)";
  "(?i)SANTIN|(?:BiTBiZ_V58|ACTOMA ACE|DREAMPLUS03A|Candy U7 Pro|GAAMII|RS635H|HY-002 Plus|HongQi HQ1|G101-OG|HEXIN-H2-A)(?:[);/ ]|$)";
  "(?i)BiTBiZ_V58(?:[);/ ]|$)";
  "(?i)GAAMII G1(?:[);/ ]|$)";
  "(?i)GAAMII(?:[);/ ]|$)";
  "(?i)HEXIN-H2-A(?:[);/ ]|$)";
  "(?i)Candy U7 Pro(?:[);/ ]|$)";
  "(?i)DREAMPLUS03A(?:[);/ ]|$)";
  "(?i)GreenOrange(?:[);/ ]|$)";
  "(?i)CLASSONE(?:[);/ ]|$)";
  "(?i)halove(?:[);/ ]|$)";
  "(?i)ACTOMA ACE(?:[);/ ]|$)";
  "(?i)monica(?:[);/ ]|$)";
  "(?i)HongQi HQ1(?:[);/ ]|$)";
  "(?i)POWER(?:[);/ ]|$)";
  "(?i)GALAZ(?:[);/ ]|$)";
  "(?i)NEWDUN(?:[);/ ]|$)";
  "(?i)HEXIN[_ -](H2-A|H3)(?:[);/ ]|$)";
  "(?i)HY-002 Plus(?:[);/ ]|$)";
  "(?i)G101-OG(?:[);/ ]|$)";
  "(?i)SANTIN[ _][#]?(Dante|Candy U7|Armor(?: 2)?|YSL-Y7|ANT\.W|N[13]|JS|S6|V9(?:[ _]Pro)?|Life Shine|ovvi|D|11 XS Max|SHUGUO)(?:[);/ ]|$)";
  "(?i)(RS635H)(?:[);/ ]|$)";
  "(?i)Santin[ _#]?([^;/)]+)(?: Build|[;)])";
  "(?i)Sanyo|MobilePhone[ ;]";
  "(?i)SCP-?6750";
  "(?i)SCP-?6760";
  "(?i)SCP-?6780";
  "(?i)SANYO[ /_-]([a-z0-9-]+)";
  "(?i)MobilePhone ([a-z0-9-]+)";
  "(?i) (TB-PO1|TB-B01|TB-G01)(?:[);/ ]|$)";
  "(?i)(SberBox|SaluteTV|SBDV-00006)(?:[);/ ]|$)";
  "(?i)SCHNEIDER[;,]";
  "(?i)Schok[ _]|FreedomTurboXL";
  "(?i)(SL-LED\d{2}S\d{2}T2SU?)(?:[);/ ]|$)";
  "(?i)(Pi 5\.5L)(?:[);/ ]|$)";
  "(?i)Seatel[ _](L2|V8[AE]|T[5-8]|R6|V[89])(?:[);/ ]|$)";
  "(?i)Seeken[ _-]";
  "(?i)Seeken[_ -](SG1|SJ1)";
  "(?i)Seeken[_ -](ST-101)";
  "(?i)Selecline[ _]|(?:S4T7IN|ST19101|S3T10IN)(?:[);/ ]|$)";
  "(?i)(ST19101|S4T7IN|S3T10IN)(?:[);/ ]|$)";
  "(?i)Selecline 10(?:[);/ ]|$)";
  "(?i)Selenga[ _](A[1345])(?:[);/ ]|$)";
  "(?i)Sencor|(?:ELEMENT[ _]?(?:(?:7|8|9\.7|10[ _]1)(?:[ _]?V[23])?|P[0-9]+|10\.1 Q001)|10_1Q205|ELEMENT-P5501)(?:[);/ ]|$)";
  "(?i)(?:SENCOR[ _])?Element (10\.1) (Q001)";
  "(?i)(?:SENCOR[ _])?ELEMENT[ _]?7[ _]?V3";
  "(?i)(?:SENCOR[ _])?ELEMENT[ _]?7[ _]?V2[ _]BASIC";
  "(?i)(?:SENCOR[ _])?ELEMENT[ _]?7[ _]?V2";
  "(?i)(?:SENCOR[ _])?ELEMENT[ _]8[ _]?V3";
  "(?i)(?:SENCOR[ _])?ELEMENT[ _]8[ _]?V2";
  "(?i)(?:SENCOR[ _])?ELEMENT8";
  "(?i)(?:SENCOR[ _])?ELEMENT[ _]9\.7[ _]?V3";
  "(?i)(?:SENCOR[ _])?ELEMENT[ _]9\.7[ _]?V2";
  "(?i)(?:SENCOR[ _])?ELEMENT[ _]9\.7";
  "(?i)(?:SENCOR[ _])?ELEMENT10[ _]1";
  "(?i)(?:SENCOR[ _])?(7Q105)(?:[);/ ]|$)";
  "(?i)(?:SENCOR[ _])?(10)_(1Q205|1Q102)(?:[);/ ]|$)";
  "(?i)(?:SENCOR[ _])?ELEMENT[ _-]?P([0-9]+)";
  "(?i)Sencor[ _]([^;/]+) Build";
  "(?i)Sendo([a-z0-9]+)";
  "(?i)Senkatel[ _]|(?:MaximusT1001)(?:[);/ ]|$)";
  "(?i)Senkatel[ _](T1009|T8002|T701[12]|T9702)";
  "(?i)SENSEIT[ _]?([^;/)]+)( Build|\))";
  "(?i)Senwa|(?:S\-?(?:471|7[12]5|6[01]5|915|905TL|1000|5018)|V705B|LS50F| LS50?|LS5518H|LS5718|LS5018FP?)(?:[);/ ]|$)";
  "(?i)S-?471(?:[);/ ]|$)";
  "(?i)S-?605(?:[);/ ]|$)";
  "(?i)S-?905TL(?:[);/ ]|$)";
  "(?i)S-?1000(?:[);/ ]|$)";
  "(?i)S-?5018(?:[);/ ]|$)";
  "(?i)LS5018FP(?:[);/ ]|$)";
  "(?i)LS5018F(?:[);/ ]|$)";
  "(?i)S-?(615|7[12]5|915)(?:[);/ ]|$)";
  "(?i)V705B(?:[);/ ]|$)";
  "(?i)LS50F(?:[);/ ]|$)";
  "(?i)LS50(?:[);/ ]|$)";
  "(?i)LS5(?:[);/ ]|$)";
  "(?i)LS5518H(?:[);/ ]|$)";
  "(?i)LS5718(?:[);/ ]|$)";
  "(?i)Senwa[ _-]*([^;/]+)(?: Build|[;)])";
  "(?i)(?:AUTOID ?(?:9N|Q[79])|CRUISE[12])(?:[);/ ]|$)";
  "(?i)(CRUISE[12])(?:[);/ ]|$)";
  "(?i)AUTOID ?(9N|Q[79])(?:[);/ ]|$)";
  "(?i)(NBP-60)(?:[);/ ]|$)";
  "(?i)SHARP|SBM|SH-?[0-9]+[a-z]?(?:[);/ ]|$)|AQUOS|(?:SH-T01|SH-M26|SH-M0[14-9]|SH-(?:M1[1-7]|M19s)(?:-y)?|S[357]-SH|SH-[MZ]([12]0|01|22)|SH-C0[3-6]|SH-[CL]02|SH-RM(?:1[1258]|02)|SH-R?M19s?|SH-R10A|[34]04SH|401SH|[45]02SH|306SH|[36]05SH|70[1246]SH|80[138]SH|90[1678]SH|50[3679]SH|SHL2[1235]|SHV4[0-8]|SHV3[1-9](?:[-_]u)?|FS80(?:1[08]|32|28|0[29])|TG-L900S|NP601SH|403SH|603SH|SHF3[1-4]|SHV4[035][-_]u|SW001SH|SHG0[1-9]|X4-SH|A002SH|DM-01[JH]|A[01]01SH|606SH|FS801[56]|d-41A|d-51C|NP80[567]SH|NP501SH|A00[34]SH|A102SH|IS05|SH-(?:S50|53A|51B|[HDA]01|01FDQ|S40P|M24)|LP-0[12]|FS8014|SBM00[35]SH|SBM103SH|A10[345]SH|lineage_ss2|LCD_xxSUFOC475A|A20[1248]SH|FS802[56]|ADS1|STTM21VAPP|NPA205SH|SHG10|SHT21|A30[12]SH|SH-M29)(?:[);/ ]|$)";
  "(?i)506SH(?:[);/ ]|$)";
  "(?i)603SH(?:[);/ ]|$)";
  "(?i)50[23]SH(?:[);/ ]|$)";
  "(?i)[34]04SH(?:[);/ ]|$)";
  "(?i)606SH(?:[);/ ]|$)";
  "(?i)507SH(?:[);/ ]|$)";
  "(?i)S3-SH(?:[);/ ]|$)";
  "(?i)S5-SH(?:[);/ ]|$)";
  "(?i)S7-SH(?:[);/ ]|$)";
  "(?i)X4-SH(?:[);/ ]|$)";
  "(?i)(?:SHG06|A10[34]SH|SH-M20)(?:[);/ ]|$)";
  "(?i)(?:SH-51C|A204SH|SHG08)(?:[);/ ]|$)";
  "(?i)(?:SH-53D)(?:[);/ ]|$)";
  "(?i)SH-M04(?:[);/ ]|$)";
  "(?i)SH-M05(?:[);/ ]|$)";
  "(?i)SH-(?:M26|54D)(?:[);/ ]|$)";
  "(?i)SH-M29(?:[);/ ]|$)";
  "(?i)SH-M07(?:[);/ ]|$)";
  "(?i)A003SH(?:[);/ ]|$)";
  "(?i)SH-41A(?:[);/ ]|$)";
  "(?i)SH-S40P(?:[);/ ]|$)";
  "(?i)(?:SH-54B|SHG05|SH-R?M19|SH-M19s-y)(?:[);/ ]|$)";
  "(?i)(?:SHG07|SH-RM19s)(?:[);/ ]|$)";
  "(?i)A208SH(?:[);/ ]|$)";
  "(?i)(?:SH-53C|SH-M24|SHG10)(?:[);/ ]|$)";
  "(?i)(?:SHG03|A004SH|SH-M17|SH-53A|A105SH|SH-S50)(?:[);/ ]|$)";
  "(?i)SH-D01(?:[);/ ]|$)";
  "(?i)SH-M12(?:-y)?(?:[);/ ]|$)";
  "(?i)SH-H01(?:[);/ ]|$)";
  "(?i)(?:SH-[MZ]10|801SH)(?:[);/ ]|$)";
  "(?i)(?:SH-M13|906SH|SH-01M)(?:[);/ ]|$)";
  "(?i)(?:SHG04|A102SH|SH-RM18|Aquos zero6)(?:[);/ ]|$)";
  "(?i)(?:SHG02|A002SH)(?:[);/ ]|$)";
  "(?i)(?:SH-Z01|Aquos S2 4/64)(?:[);/ ]|$)";
  "(?i)(?:SH-02E|SH-01[GH]|SH-04H|SH-09D)(?:[);/ ]|$)";
  "(?i)SH-01FDQ(?:[);/ ]|$)";
  "(?i)SH-?06D(?:[);/ ]|$)";
  "(?i)(SHL2[1235]|SH-M01|SH-01E)(?:[);/ ]|$)";
  "(?i)SBM(203SH|30[23]SH)(?:[);/ ]|$)";
  "(?i)SH-L02(?:[);/ ]|$)";
  "(?i)(?:605SH|SH-03J|SHV39)(?:[);/ ]|$)";
  "(?i)(?:701SH|SHV41|SH-M06)(?:[);/ ]|$)";
  "(?i)(?:SH-M09|SHV42|706SH|SH-03K)(?:[);/ ]|$)";
  "(?i)803SH(?:[);/ ]|$)";
  "(?i)(?:908SH|SHG01|SH-M14)(?:[);/ ]|$)";
  "(?i)SH-M16(?:[);/ ]|$)";
  "(?i)SH-M15(?:[);/ ]|$)";
  "(?i)SH-C02(?:[);/ ]|$)";
  "(?i)SH-C06(?:[);/ ]|$)";
  "(?i)SH-C03(?:[);/ ]|$)";
  "(?i)SH-C05(?:[);/ ]|$)";
  "(?i)SH-C04(?:[);/ ]|$)";
  "(?i)(SHF3[1-4])(?:[);/ ]|$)";
  "(?i)704SH(?:[);/ ]|$)";
  "(?i)A201SH(?:[);/ ]|$)";
  "(?i)(?:SH-02J|SH-04G)(?:[);/ ]|$)";
  "(?i)SH-02H(?:[);/ ]|$)";
  "(?i)30[56]SH(?:[);/ ]|$)";
  "(?i)402SH(?:[);/ ]|$)";
  "(?i)403SH(?:[);/ ]|$)";
  "(?i)(?:509SH|SH-R10A)(?:[);/ ]|$)";
  "(?i)NP601SH(?:[);/ ]|$)";
  "(?i)(?:SHV40|SHV3[24])(?:_u)?(?:[);/ ]|$)";
  "(?i)702SH(?:[);/ ]|$)";
  "(?i)Aquos P6(?:[);/ ]|$)";
  "(?i)SHV3[183](?:[);/ ]|$)";
  "(?i)(?:FS8010|SH-M08|SHV43(?:-u)?|SH-01[KL]|lineage_ss2|Aquos S2)(?:[);/ ]|$)";
  "(?i)FS8016(?:[);/ ]|$)";
  "(?i)(?:SHV46|SH-R?M11|901SH)(?:[);/ ]|$)";
  "(?i)(?:SHV44|808SH|SH-04L|SH-03G)(?:[);/ ]|$)";
  "(?i)(?:FS8032|FS8015|SH-02M|SHV45(?:-U)?)(?:[);/ ]|$)";
  "(?i)FS8018(?:[);/ ]|$)";
  "(?i)(?:SHV48|907SH)(?:[);/ ]|$)";
  "(?i)SH-RM12(?:[);/ ]|$)";
  "(?i)SH-RM15(?:[);/ ]|$)";
  "(?i)SH-51A(?:[);/ ]|$)";
  "(?i)(?:SH-51B|A101SH|SH-M22)(?:[);/ ]|$)";
  "(?i)(?:A202SH|SH-52C)(?:[);/ ]|$)";
  "(?i)(?:SH-51D|A301SH)(?:[);/ ]|$)";
  "(?i)A302SH(?:[);/ ]|$)";
  "(?i)(?:SH-52D)(?:[);/ ]|$)";
  "(?i)SHV3[57](?:_u)?(?:[);/ ]|$)";
  "(?i)TG-L900S(?:[);/ ]|$)";
  "(?i)SH-A01(?:[);/ ]|$)";
  "(?i)FS8026(?:[);/ ]|$)";
  "(?i)FS8025(?:[);/ ]|$)";
  "(?i)(?:FS8002|SHV47)(?:[);/ ]|$)";
  "(?i)FS8009(?:[);/ ]|$)";
  "(?i)FS8014(?:[);/ ]|$)";
  "(?i)FS8028(?:[);/ ]|$)";
  "(?i)SHV36(?:[);/ ]|$)";
  "(?i)SHG09(?:[);/ ]|$)";
  "(?i)SW001SH(?:[);/ ]|$)";
  "(?i)(DM-01[JH])";
  "(?i)NP80[56]SH";
  "(?i)LP-0([12])(?:[);/ ]|$)";
  "(?i)SBM(00[35]SH)(?:[);/ ]|$)";
  "(?i)SBM(103SH)(?:[);/ ]|$)";
  "(?i)SH-02L(?:[);/ ]|$)";
  "(?i)SBM200SH(?:[);/ ]|$)"
].
Definition d_dr_re1_12 : list blob := [
  "(?i)SH-08E(?:[);/ ]|$)";
  "(?i)SHT21(?:[);/ ]|$)";
  "(?i)(d-41A|d-51C)(?:[);/ ]|$)";
  "(?i)(SH-T01)(?:[);/ ]|$)";
  "(?i)(LC-(?:[0-9]{2})[a-z0-9]+)(?:[);/ ]|$)";
  "(?i)SHARP-AQUOS|AQUOSBrowser";
  "(?i)SHARP[ -]([a-z0-9-]+)";
  "(?i)AQUOS[ _-]TV([a-z0-9-]+)";
  "(?i)(?:SHARP|SBM)([a-z0-9]+)";
  "(?i)(SH-?[0-9]+[a-z]?|IS05|ADS1)(?:[);/ ]|$)";
  "(?i)(SHIFT6mq?)(?:[);/ ]|$)";
  "(?i)STV[-_](55LED41|40LED25S|40LED42S|32LED42S|32LED30C)(?:[);/ ]|$)";
  "(?i)SHTRIH-SMARTPOS-F2(?:[);/ ]|$)";
  "(?i)(PNT-704[025])(?:[);/ ]|$)";
  "(?i)SICO[_ ](?:PLUS|e1002|Topaz)|(?:Express3-Max|SSR3-1-51-5M|SSD-1-53-13M|Mega2(?:max)?|Express3|Diamond 2|Plus3_4G|Plus2 4G|Infinity Max|Nile X|More_3)(?:[);/ ]|$)";
  "(?i)SICO[_ ]PLUS2|Plus2 4G";
  "(?i)SICO[_ ]PLUS";
  "(?i)SICO[_ ]Topaz";
  "(?i)SICO[_ ]e1002";
  "(?i)SIEMENS|SIE-|portalmmm/2\.0 SI|(?:S55|SL45i)(?:[);/ ]|$)";
  "(?i)(?:SIE-)?(S[56]5|S40|C45|ME45|SLIK)(?:[);/ ]|$)";
  "(?i)SIEMENS[ -]([a-z0-9]+)";
  "(?i)SIE(?:MENS )?[\-]?([a-z0-9]+)";
  "(?i)(?:SIE-)?(SL45i)";
  "(?i)portalmmm/2\.0 (SI[a-z0-9]+)";
  "(?i)Sigma|(X[_-]Style[ _]?Tab[_ ]A(\d+)|Tab_A1025_X-treme|X[-_ ]?treme[-_ ]?(?:PQ[0-9]{2}|PQ18_MAX)|X-Style_(?:S550[12]|S3502)|Tab A1015|Tab A802|Tab_A1010_Neo)(?:[);/ ]|$)";
  "(?i)SIGMAMOBILE-S3500-3G(?:[);/ ]|$)";
  "(?i)(?:Sigma[ _])?X[-_ ]?treme[-_ ]?PQ([0-9]{2})[_ ]Max(?:[);/ ]|$)";
  "(?i)(?:Sigma[ _])?X[-_ ]?treme[-_ ]?PQ([0-9]{2})(?:[);/ ]|$)";
  "(?i)X[_-]Style[ _]?Tab[_ ]A(\d+)(?:[);/ ]|$)";
  "(?i)Tab (A1015|A802)(?:[);/ ]|$)";
  "(?i)Tab_A1010_Neo(?:[);/ ]|$)";
  "(?i)(?:Sigma[ _])?X[-_ ]?Style[-_ ]S([0-9]+)(?:[);/ ]|$)";
  "(?i)Silelis[ _](T-1)(?:[);/ ]|$)";
  "(?i)TangoTab|Presto[ )]|PicassoTab_[X9]|PICASSOTABX14|Ultimax|Valumax|S72-B|SX2W";
  "(?i)TangoTab[_ ]?(\d+|X)";
  "(?i)PicassoTab_?(X14|XL?|9)";
  "(?i)(NP602SI)(?:[);/ ]|$)";
  "(?i)Singtech|(?:Sapphire[_ ](?:H50S|H7S?|H90)|Infinity_I(?:1|_Mix))(?:[);/ ]|$)";
  "(?i)Sapphire[_ ](H50S|H7S?|H90)(?:[);/ ]|$)";
  "(?i)Singtech[ _](Q2|S1)(?:[);/ ]|$)";
  "(?i)Infinity_I1(?:[);/ ]|$)";
  "(?i)Infinity_I_Mix(?:[);/ ]|$)";
  "(?i)Siragon|(?:SP[_-](?:5[0124]50|5[34]00|61[05]0|7200))(?:[);/ ]|$)";
  "(?i)(?:Siragon[_ ])?(?:SP[_-](5[0124]50|5[34]00|61[05]0|7200))";
  "(?i)(?:FINNEY U1|SOLARIN)(?:[);/ ]|$)";
  "(?i)(?:FINNEY U1)(?:[);/ ]|$)";
  "(?i)(?:SOLARIN)(?:[);/ ]|$)";
  "(?i)APRIX C55(?:[);/ ]|$)";
  "(?i)(?:SKY|Elite|Fuego)[_ ][3-7]\.[05](?:[A-Z]{1,2})?|Elite[ _](?:Max|PHOTOPRO|5_0T|M45|[45]T|45T|GO|A63Max|M5Plus|T8Plus|T[46]|[ABCDHP]5|A6|5_5_Octa|Octa|[A-HJLNPTVR]55|[AB]65|[CG]63|T10)|Platinum[_ ](?:5\.0M|5\.5C|[56]\.[05]\+?|[ABCMP]4|[ACGKV]55|[ABDEFGHJKM]5|A7|A57|P9|X|UNO|VIEW2|O|4\.0|4_0Plus)|PLATINUMVIEW|SKY[ _](?:55M|Pro_III|PAD10|PAD8)|SKYVISION|SKY B(?:lack|63)| SKY[ _]Prestige|Sky Vision2|PRO_SELFIE|Sky,";
  "(?i)Platinum[_ ](?:5\.0M|M5)";
  "(?i)Platinum[_ ]5\.5C";
  "(?i)Platinum[_ ]([56])\.([05])\+";
  "(?i)Platinum[ _]4\.0";
  "(?i)Platinum[_ ](P9) Pro(?:[);/ ]|$)";
  "(?i)Platinum[_ ]B4P(?:[);/ ]|$)";
  "(?i)Platinum[_ ]([ABCMP]4|[ACGK]55|[ABDEFGHJKM]5|A7|A57|P9|X|UNO|O|6\.0)(?:[);/ ]|$)";
  "(?i)Platinum[_ ]?VIEW(2)?(?:[);/ ]|$)";
  "(?i)SKY[ _]PAD10Max";
  "(?i)SKY[ _]PAD8Pro";
  "(?i)SKY[ _]PAD(10|8)";
  "(?i)Elite_Octaplus(?:[);/ ]|$)";
  "(?i)Elite[_ ]T8Plus(?:[);/ ]|$)";
  "(?i)Elite_OctaXS(?:[);/ ]|$)";
  "(?i)Elite OctaX(?:[);/ ]|$)";
  "(?i)Elite Octa(?:[);/ ]|$)";
  "(?i)Elite OctaMax(?:[);/ ]|$)";
  "(?i)Elite ([ENP])55Max";
  "(?i)Elite[ _](Max|M45|Go|[45]T|T[46]|[ABCDHP]5|A6|[A-HJLNPTVR]55|[AB]65|[CG]63|45T)(?:[);/ ]|$)";
  "(?i)Elite (T10) Pro";
  "(?i)Elite (T10)";
  "(?i)Elite[_ ]([3-7])[\._]([05](?:[A-Z]{1,2})?\+?)";
  "(?i)Fuego[_ ]([3-7]\.[05](?:[A-Z]{1,2})?\+?)";
  "(?i)SKY Black ?(2)?";
  "(?i)SKY 5\.0Pro II";
  "(?i)SKY[ _]PrestigeX";
  "(?i)SKY[ _]Prestige";
  "(?i)SKY[_ ]([3-7]\.[05](?:[A-Z]{1,2})?)";
  "(?i)Sky, (XiOneUK|LlamaUK), (?:wired|wireless)";
  "(?i)SKYSTREAM[_ ](?:3Plus|One)(?:[);/ ]|$)";
  "(?i)SKYSTREAM[_ ]3Plus";
  "(?i)SKYSTREAM[_ ]One";
  "(?i)(?:SKYLINE[_ ])?(32YST5970|50UST5970|24YST5970|40LST597[05]|32YST5975|43LST5975|43U6510|5[58]U7510|43LST5970)(?:[);/ ]|$)";
  "(?i)LGE; ST-[0-9a-z]+;|(?:50ST3204)(?:[);/ ]|$)";
  "(?i)(50ST3204)(?:[);/ ]|$)";
  "(?i)LGE; (ST-[0-9a-z]+);";
  "(?i)Sky_?worth|SWTV-|SKW690|(?:FlowBox-F1|SWTV|VGK02|SW-22AE NF)(?:[);/ ]|$)";
  "(?i)(SWTV-2[02]AE(?:-PRO|-FHD)?)";
  "(?i)Sky_?worth ([^;/)]+)(?: Build|[;)])";
  "(?i)Android.+(?:Safari)(?: Build|\) AppleWebKit)|SMADL[ _]";
  "(?i)Android.+(?:Safari)(?: Build|\) AppleWebKit)";
  "(?i)SMADL[ _]Matri([2X])";
  "(?i)Smailo_(2GO)(?:[);/ ]|$)";
  "(?i)(?:Coral 4|Slide Lite|Notrino|Smart PRIME II)(?:[);/ ]|$)";
  "(?i)(Coral 4|Slide Lite|Notrino|Smart PRIME II)";
  "(?i)SK5501(?:[);/ ]|$)";
  "(?i)SK5501(?:[);/ ]|$)";
  "(?i)Smarttech[;,]";
  "(?i)SMARTBOOK[ _]S";
  "(?i)SMARTBOOK[ _]SB ?13";
  "(?i)SMARTBOOK[ _](S9Q9|S7QS|S9\+)";
  "(?i)(ST1009|ST7160|ST1009X)(?:[);/ ]|$)";
  "(?i)(?:Android 7(?:[\d.]*);(?: [\w-]+;)? M512| M520| M700)(?:[);/ ]|$)";
  "(?i)(M512|M520|M700)(?:[);/ ]|$)";
  "(?i)Smartfren|Androtab|Andromax|PD6D1J|AD682J|AD68[89]G|AD6B1H|AD9A1H|AD682H|AD683G|I46D1G|EG680|EG98";
  "(?i)Andromax[ _-]([^/;]+) Build";
  "(?i)Andromax[ _-]([a-z0-9]+)";
  "(?i)Smartfren[ _-]([^/;\)]+)(?: Build|[/;\)])";
  "(?i)(Androtab[^/;]+) Build";
  "(?i)Smartisan[_ ]|(SM(?:70[15]|[89]01|919)|OD10[35]|YQ60[1357]|DT2002C|DE106|DT190[12]A|O[CE]106|OS103|O[CS]105)[ /;\)]";
  "(?i)SM70[15]";
  "(?i)YQ60[1357]";
  "(?i)OD10[35]";
  "(?i)OS105[ /;\)]";
  "(?i)DE106[ /;\)]";
  "(?i)OE106[ /;\)]";
  "(?i)OC10[56][ /;\)]";
  "(?i)DT2002C[ /;\)]";
  "(?i)DT190[12]A[ /;\)]";
  "(?i)OS103[ /;\)]";
  "(?i)Smarty[_ ]";
  "(?i)Mini ?(7L?)";
  "(?i)Smooth|S2 Advance(?:[);/ ]|$)";
  "(?i)Smooth 5\.5 lite";
  "(?i)Smooth (5\.[05]|6\.[015])(?:[);/ ]|$)";
  "(?i)Smooth626(?:[);/ ]|$)";
  "(?i)Smooth 6\.26 (Lite|Max|Pro)(?:[);/ ]|$)";
  "(?i)Smooth Note 6\.8(?:[);/ ]|$)";
  "(?i)Smooth (8GT)(?:[);/ ]|$)";
  "(?i)Smotreshka Box (115NA|413NA|213a?)(?:[);/ ]|$)";
  "(?i)soda (?:S2|[SE]1|FIRE)(?:[);/ ]|$)";
  "(?i)soda (S2|[SE]1)";
  "(?i)Softbank|J-PHONE";
  "(?i)Softbank/[12]\.0/([a-z0-9]+)";
  "(?i)([a-z0-9]+);Softbank;";
  "(?i)J-PHONE/[0-9]\.[0-9]/([a-z0-9-]+)";
  "(?i)((?:S1586K|SS(?:5[23]14|5[47]24)G))(?:[);/ ]|$)";
  "(?i)SOLONE|(?:E1457|W145[02]|Sun_S5501)(?:[);/ ]|$)";
  "(?i)SOLONE[ _]Elite[ _]L5501";
  "(?i)SOLONE[ _]SUMO[_ ]S5001";
  "(?i)SOLONE[ _](SL-K40|S5002)(?:[);/ ]|$)";
  "(?i)Sonim[ -]|XP(?:[67]7|[358]8|99)00(?:[);/ ]|$)";
  "(?i)(?:Sonim-)?XP3400";
  "(?i)(?:Sonim-)?XP3800";
  "(?i)(?:Sonim-)?XP3900";
  "(?i)(?:Sonim-)?XP5800";
  "(?i)(?:Sonim-)?XP5700";
  "(?i)(?:Sonim-)?XP6700";
  "(?i)(?:Sonim-)?XP7700";
  "(?i)(?:Sonim-)?XP8800";
  "(?i)(?:Sonim-)?XP9900";
  "(?i)Sony(?: ?Ericsson)?|SGP|Xperia|(?:[4-9]0[12])SO|C1[569]0[45]|C2[01]0[45]|C230[45]|C530[236]|C550[23]|C6[56]0[236]|C6616|C68(?:0[26]|[34]3)|C69(?:0[236]|16|43)|D(?:200[45]|21(?:0[45]|14)|22(?:0[236]|12|43)|230[2356]|240[36]|2502|2533|510[236]|530[36]|5316|5322|5503|58[03]3|65(?:0[23]|43|63)|66[03458]3|66[14]6|6708)|E(?:20[0345]3|2006|210[45]|2115|2124|230[36]|2312|23[356]3|530[36]|53[3456]3|5506|55[356]3|56[46305][36]|58[02]3|6508|65[35]3|66[0358]3|68[358]3)|F(?:311[12356]|331[13]|321[12356]|5[13]21|5122|813[12]|833[12])|G(?:2299|312[135]|311[26]|322[136]|3212|331[123]|3412|3416|342[136]|823[12]|834[123]|8[14]4[12]|8188)|H(?:3113|3123|3133|3213|3223|3311|3321|3413|4113|4133|4213|4233|4311|4331|4413|4433|4493|8116|8166|82[1679]6|83[12]4|8416|9436|9493)|I(?:3[12]23|3213|[34]113|[34]312|4193|42[19]3|4332)|J(?:3173|3273|81[17]0|82[17]0|91[15]0|92[16]0)|(?:WT|LT|SO|ST|SK|MK)[0-9]+[a-z]+[0-9]*(?: Build|\))|X?L39H|XM50[ht]|XQ-[A-Z]{2}[0-9]{2}|W960|portalmmm/2\.0 K|S3[69]h|SOG(?:0[1-9]|1[0-3])|SOL2[2-6]|SOT[23]1|SOV3[1-9]|SOV4[0-3]|X10[ia]v?|E1[05][ai]v?|MT[0-9]{2}[a-z]? Build|SO-0(?:[12]C|[2-5]D|[1-4]E|[1-5]F|[1-5]G|[1-4]H|[1-4]J|[1-5]K|1M|[1-3]L)|R800[aix]|LiveWithWalkman|BRAVIA|SGP771|E3 Dual|A[012]01SO|A204SO|A[123]02SO|SO-[45]1[AB]|SO-5[1234][ABCDE]|A[12]03SO|A002SO|A301SO|NW-(A[13]00|ZX500|Z1000)Series|NSZ-GS7|SmartWatch 3|SVP-DTV15";
  "(?i)(?:Sony(?:Ericsson)?)?E10[ai]v?";
  "(?i)(?:Sony(?:Ericsson)?)?U20";
  "(?i)(?:Sony(?:Ericsson)?)?E15[ai]v?";
  "(?i)(?:Sony(?:Ericsson)?)?(LT15[ai]?v?|SO-01C)";
  "(?i)(?:Sony(?:Ericsson)?)?LT18[ai]v?";
  "(?i)(?:Sony(?:Ericsson)?)?MT11";
  "(?i)(?:Sony(?:Ericsson)?)?MT15";
  "(?i)(?:Sony(?:Ericsson)?)?MT27";
  "(?i)(?:Sony(?:Ericsson)?)?MK16[ai]";
  "(?i)(?:Sony(?:Ericsson)?)?ST15[ai]";
  "(?i)(?:Sony(?:Ericsson)?)?ST17[ai]";
  "(?i)(?:Sony(?:Ericsson)?)?SO-02L";
  "(?i)(?:Sony(?:Ericsson)?)?ST18[ai]";
  "(?i)(?:Sony(?:Ericsson)?)?SK17[ai]?";
  "(?i)(?:Sony(?:Ericsson)?)?X10[ai]v?";
  "(?i)(?:Sony(?:Ericsson)?)M1";
  "(?i)(?:Sony(?:Ericsson)?)?R800";
  "(?i)(?:Sony(?:Ericsson)?)?WT19|LiveWithWalkman";
  "(?i)(?:Sony(?:Ericsson)?)?CK13i";
  "(?i)(?:Sony(?:Ericsson)?)?CK15[ai]";
  "(?i)(?:Sony(?:Ericsson)?)?F100i";
  "(?i)(?:Sony(?:Ericsson)?)?J105";
  "(?i)(?:Sony(?:Ericsson)?)?J108";
  "(?i)(?:Sony(?:Ericsson)?)?J10";
  "(?i)(?:Sony(?:Ericsson)?)?J20";
  "(?i)(?:Sony(?:Ericsson)?)?U10";
  "(?i)(?:Sony(?:Ericsson)?)?U100";
  "(?i)(?:Sony(?:Ericsson)?)?U1";
  "(?i)(?:Sony(?:Ericsson)?)?U5";
  "(?i)(?:Sony(?:Ericsson)?)?U8";
  "(?i)(?:Sony(?:Ericsson)?)?W20";
  "(?i)(?:Sony(?:Ericsson)?)?W100";
  "(?i)(?:Sony(?:Ericsson)?)?W150";
  "(?i)(?:Sony(?:Ericsson)?)?W960";
  "(?i)(?:Sony(?:Ericsson)?)?WT13";
  "(?i)SO-01E(?:[);/ ]|$)";
  "(?i)XQ-BE[4-7]2";
  "(?i)XQ-AQ[56]2";
  "(?i)(?:Sony(?:Ericsson)?)?I(?:4113|31[12]3)";
  "(?i)(?:Sony(?:Ericsson)?)?J3173(?:[);/ ]|$)";
  "(?i)SO-41B(?:[);/ ]|$)";
  "(?i)(?:A203SO|SO-53C|SOG08)(?:[);/ ]|$)";
  "(?i)(?:A001SO|XQ-AU42|XQ-AU51|XQ-A[TU]52|SO-41A|SOV43)(?:[);/ ]|$)";
  "(?i)(?:A10[12]SO|SO-52B|SOG04|XQ-BT52)(?:[);/ ]|$)";
  "(?i)(?:SO-52D|XQ-DC72|XQ-DC54|A302SO|SOG11)(?:[);/ ]|$)";
  "(?i)(?:XQ-ES[45]4|XQ-ES72|SOG14|SO-52E|A402SO)(?:[);/ ]|$)";
  "(?i)XQ-BT44(?:[);/ ]|$)";
  "(?i)(?:XQ-CC72|XQ-CC[45]4|SOG07|SO-52C|A202SO)(?:[);/ ]|$)"
].
Definition d_dr_re1_13 : list blob := [
  "(?i)(?:Sony(?:Ericsson)?)?I(?:42[19]3|32[12]3)";
  "(?i)(?:Sony(?:Ericsson)?)?I4193";
  "(?i)(?:Sony(?:Ericsson)?)?(?:J(?:9110|81[17]0)|SOV40|SO-03L|802SO)";
  "(?i)(?:Sony(?:Ericsson)?)?(?:J9150)";
  "(?i)(?:Sony(?:Ericsson)?)?(?:SOG01|SO-51A|XQ-AT42|XQ-AT51|SO51Aa|XQ-AT72)(?:[);/ ]|$)";
  "(?i)(?:Sony(?:Ericsson)?)?(?:SO-51B|SOG03|XQ-BC[4567]2)(?:[);/ ]|$)";
  "(?i)(?:Sony(?:Ericsson)?)?(?:SOG06|XQ-CT[67]2|SO-51C|A201SO|XQ-CT[45]4)(?:[);/ ]|$)";
  "(?i)(?:Sony(?:Ericsson)?)?(?:SOG10|A301SO|SO-51D|XQ-DQ(?:[67]2|[45]4))(?:[);/ ]|$)";
  "(?i)(?:XQ-EC72|XQ-EC54|XQ-EC44|SOG13|SO-51E|A401SO|SOG13)(?:[);/ ]|$)";
  "(?i)XQ-FS(?:72|44)";
  "(?i)(?:Sony(?:Ericsson)?)?LT22i|Xperia P";
  "(?i)(?:Sony(?:Ericsson)?)?LT25i|Xperia V";
  "(?i)(?:Sony(?:Ericsson)?)?J92[16]0";
  "(?i)(?:Sony(?:Ericsson)?)?(?:J82[17]0|SO-01M|SOV41|901SO)";
  "(?i)(?:Sony(?:Ericsson)?)?(?:SOG02|A002SO|XQ-AS[4567]2|SO-52A)";
  "(?i)(?:Sony(?:Ericsson)?)?(?:XQ-DE72|XQ-DE[45]4|SOG12)";
  "(?i)(?:Sony(?:Ericsson)?)?(?:SO-53B|A103SO|SOG05|XQ-BQ[4567]2)";
  "(?i)(?:SOG09|XQ-CQ72|SO-54C|XQ-CQ[45]4|XQ-CQ62|A204SO)";
  "(?i)(?:Sony(?:Ericsson)?)?(?:SOV42|902SO)";
  "(?i)(?:Sony(?:Ericsson)?)?J3273";
  "(?i)(?:Sony(?:Ericsson)?)?LT26ii";
  "(?i)(?:Sony(?:Ericsson)?)?LT26i|Xperia S(?:[);/ ]|$)";
  "(?i)(?:Sony(?:Ericsson)?)?SO-02C";
  "(?i)(?:Sony(?:Ericsson)?)?SO-03D";
  "(?i)(?:Sony(?:Ericsson)?)?LT26w";
  "(?i)(?:Sony(?:Ericsson)?)?LT28[aih]";
  "(?i)(?:Sony(?:Ericsson)?)?LT29i|Xperia TX(?:[);/ ]|$)";
  "(?i)(?:Sony(?:Ericsson)?)?LT30a";
  "(?i)(?:Sony(?:Ericsson)?)?LT30p";
  "(?i)(?:Sony(?:Ericsson)?)?ST21[ia]2";
  "(?i)(?:Sony(?:Ericsson)?)?ST21[ia]";
  "(?i)(?:Sony(?:Ericsson)?)?ST23[ia]";
  "(?i)(?:Sony(?:Ericsson)?)?ST25[ia]";
  "(?i)(?:Sony(?:Ericsson)?)?SOL22";
  "(?i)(?:Sony(?:Ericsson)?)?SOL21";
  "(?i)(?:Sony(?:Ericsson)?)?ST26[ia]";
  "(?i)(?:Sony(?:Ericsson)?)?ST27[ia]";
  "(?i)(?:Sony(?:Ericsson)?)?C150[45]";
  "(?i)(?:Sony(?:Ericsson)?)?C160[45]";
  "(?i)(?:Sony(?:Ericsson)?)?(?:E210[45]|E2115|E2124)";
  "(?i)(?:Sony(?:Ericsson)?)?E20[05]3|E2006";
  "(?i)(?:Sony(?:Ericsson)?)?C190[45]";
  "(?i)(?:Sony(?:Ericsson)?)?C200[45]";
  "(?i)(?:Sony(?:Ericsson)?)?C210[45]|S36h";
  "(?i)(?:Sony(?:Ericsson)?)?C230[45]|S39h";
  "(?i)(?:Sony(?:Ericsson)?)?C530[236]|Xperia SP(?:[);/ ]|$)";
  "(?i)(?:Sony(?:Ericsson)?)?C550[23]";
  "(?i)(?:Sony(?:Ericsson)?)?C650[236]|Xperia ZL(?:[);/ ]|$)";
  "(?i)(?:Sony(?:Ericsson)?)?SOL25(?:[);/ ]|$)";
  "(?i)(?:Sony(?:Ericsson)?)?(?:C66(?:0[236]|16)|SO-02E)";
  "(?i)(?:Sony(?:Ericsson)?)?(?:C68(?:0[26]|[34]3)|XL39H|SOL24)|Xperia Z Ultra(?:[);/ ]|$)";
  "(?i)Xperia Z(?:[);/ ]|$)";
  "(?i)(?:Sony(?:Ericsson)?)?D200[45]";
  "(?i)(?:Sony(?:Ericsson)?)?D21(?:0[45]|14)";
  "(?i)(?:Sony(?:Ericsson)?)?D22(?:0[236]|43)";
  "(?i)(?:Sony(?:Ericsson)?)?D2212|E3 Dual";
  "(?i)(?:Sony(?:Ericsson)?)?E20[34]3";
  "(?i)H33[12]1";
  "(?i)H43[13]1";
  "(?i)I43[13]2";
  "(?i)XQ-AD5[12]";
  "(?i)(?:Sony(?:Ericsson)?)?D2302";
  "(?i)(?:Sony(?:Ericsson)?)?D230[356]";
  "(?i)(?:Sony(?:Ericsson)?)?D240[36]";
  "(?i)(?:Sony(?:Ericsson)?)?(?:E230[36]|E23[35]3)";
  "(?i)(?:Sony(?:Ericsson)?)?(?:E2312|E2363)";
  "(?i)(?:Sony(?:Ericsson)?)?E56[05][36]";
  "(?i)(?:Sony(?:Ericsson)?)?E56[436]3";
  "(?i)(?:Sony(?:Ericsson)?)?D2502";
  "(?i)(?:Sony(?:Ericsson)?)?D2533";
  "(?i)(?:Sony(?:Ericsson)?)?E53[05]3|E5306";
  "(?i)(?:Sony(?:Ericsson)?)?E53[0346]3";
  "(?i)(?:Sony(?:Ericsson)?)?E5506|E5553";
  "(?i)(?:Sony(?:Ericsson)?)?E55[36]3";
  "(?i)(?:Sony(?:Ericsson)?)?D510[236]";
  "(?i)(?:Sony(?:Ericsson)?)?(?:D530[36]|D5316|XM50[ht])";
  "(?i)(?:Sony(?:Ericsson)?)?D5322";
  "(?i)(?:Sony(?:Ericsson)?)?D5503|Xperia Z1 Compact";
  "(?i)(?:Sony(?:Ericsson)?)?(?:C69(?:0[236]|16|43)|SOL23|L39H|SO-0[12]F)|Xperia Z1(?:[);/ ]|$)";
  "(?i)(?:Sony(?:Ericsson)?)?(?:D58[03]3|SO-02G)|Xperia Z3 Compact(?:[);/ ]|$)";
  "(?i)SGP561|SOT21(?:[);/ ]|$)";
  "(?i)(?:Sony(?:Ericsson)?)?(?:D65(?:0[23]|43)|SO-03F)|Xperia Z2(?:[);/ ]|$)";
  "(?i)(?:Sony(?:Ericsson)?)?(?:D66[045]3|D66[14]6|SO-01G|SOL26|401SO)|Xperia Z3(?:[);/ ]|$)";
  "(?i)(?:Sony(?:Ericsson)?)?(?:D6633|D6683)";
  "(?i)(?:Sony(?:Ericsson)?)?(?:E65[35]3)";
  "(?i)(?:Sony(?:Ericsson)?)?(?:D6708)";
  "(?i)SOV31|402SO|SO-03G";
  "(?i)SGP771|SOT31|SO-05G";
  "(?i)(?:Sony(?:Ericsson)?)?(?:E58[02]3|SO-02H)";
  "(?i)(?:Sony(?:Ericsson)?)?(?:E66[05]3|SOV32|501SO|SO-01H)";
  "(?i)(?:Sony(?:Ericsson)?)?E66[38]3";
  "(?i)(?:Sony(?:Ericsson)?)?(?:E68[58]3|SO-03H)";
  "(?i)(?:Sony(?:Ericsson)?)?E6833";
  "(?i)(?:Sony(?:Ericsson)?)?F311[135]";
  "(?i)(?:Sony(?:Ericsson)?)?F311[26]";
  "(?i)(?:Sony(?:Ericsson)?)?F321[135]";
  "(?i)(?:Sony(?:Ericsson)?)?F321[26]";
  "(?i)(?:Sony(?:Ericsson)?)?F833[12]|SOV34|601SO|SO-01J";
  "(?i)(?:Sony(?:Ericsson)?)?(?:701SO|SOV36|G834[123]|SO-01K)";
  "(?i)(?:Sony(?:Ericsson)?)?G8441|SO-02K";
  "(?i)(?:Sony(?:Ericsson)?)?F331[13]";
  "(?i)(?:Sony(?:Ericsson)?)?G312[135]|G311[26]";
  "(?i)(?:Sony(?:Ericsson)?)?G341[26]|G342[13]";
  "(?i)(?:Sony(?:Ericsson)?)?G3426";
  "(?i)(?:Sony(?:Ericsson)?)?G322[136]|G3212";
  "(?i)(?:Sony(?:Ericsson)?)?H31[123]3";
  "(?i)(?:Sony(?:Ericsson)?)?H41[13]3";
  "(?i)H44[19]3|H3413";
  "(?i)(?:Sony(?:Ericsson)?)?H(?:3213|3223|4213|4233)";
  "(?i)(?:Sony(?:Ericsson)?)?G823[12]|SOV35|602SO|SO-03J";
  "(?i)(?:Sony(?:Ericsson)?)?(?:G814[12]|G8188|SO-04[JK])";
  "(?i)(?:Sony(?:Ericsson)?)?(?:H83[12]4|H82[17]6|SOV37|SO-03K|H8296|702SO)";
  "(?i)(?:H81[16]6|SOV38)(?:[);/ ]|$)";
  "(?i)(?:Sony(?:Ericsson)?)?(?:H(8416|9436|9493)|SO-01L|SOV39|801SO)";
  "(?i)(?:Sony(?:Ericsson)?)?G331[13]";
  "(?i)(?:Sony(?:Ericsson)?)?G3312";
  "(?i)(?:Sony(?:Ericsson)?)?SO-04E";
  "(?i)(?:Sony(?:Ericsson)?)?SO-04D";
  "(?i)(?:Sony(?:Ericsson)?)?SO-05D";
  "(?i)(?:Sony(?:Ericsson)?)?F5121";
  "(?i)(?:Sony(?:Ericsson)?)?F5122";
  "(?i)(?:Sony(?:Ericsson)?)?F5321|SO-02J";
  "(?i)(?:Sony(?:Ericsson)?)?(?:F8131|502SO|SOV33|SO-04H)";
  "(?i)(?:Sony(?:Ericsson)?)?F8132";
  "(?i)(?:Sony)?(?:SGP(?:311|312|321)|(Sony)?SO-03E|Tablet Z LTE)(?:[);/ ]|$)";
  "(?i)SGP712(?:[);/ ]|$)";
  "(?i)SGP(?:511|512|521)(?:[);/ ]|$)|SO-05F";
  "(?i)SGP(?:6[124]1|612)(?:[);/ ]|$)";
  "(?i)SGPT(?:12|121|122|123|13|131|132|133)(?:[);/ ]|$)";
  "(?i)(?:BRAVIA )(2K GB ATV3|[48]K UR[123]|4K GB ATV3|4K GB|4K VH21|4K VH2|4K 2015|2015|VH1|VU[12]|VU31)(?:[);/ ]|$)";
  "(?i)SVP-DTV15(?:[);/ ]|$)";
  "(?i)(NSZ-GS7)(?:[);/ ]|$)";
  "(?i)Sony-BRAVIA-VH1(?:[);/ ]|$)";
  "(?i)NW-(A[13]00|Z1000|ZX500)Series";
  "(?i)BDPlayer; ([0-9a-z\-_]+);";
  "(?i)BDP(201[3-7])";
  "(?i)SonyBDP|SonyDBV|BDPlayer";
  "(?i)(?:Sony-)?(KDL?-?[0-9a-z]+)";
  "(?i)Opera TV Store.*(?:Sony-)([0-9a-z\-_]+)";
  "(?i)((?:WT|SO|ST|SK|MK)[0-9]+[a-z]*[0-9]*)(?: Build|\))";
  "(?i)(MT[0-9]{2}[a-z]?)(?:[);/ ]|$)";
  "(?i)portalmmm/2\.0 K([a-z0-9]+)";
  "(?i)SonyEricsson ?IS11S";
  "(?i)Sony ?Ericsson?([^/;]*) Build";
  "(?i)SonyEricsson([CGJKPTWZ][0-9]+[a-z]+)/";
  "(?i)Sony ?Ericsson ?([a-z0-9-]+)";
  "(?i)Sony Corporation/([^/;]*)\)";
  "(?i)Sony (Tablet[^/;]*) Build";
  "(?i)(SGP[^/;]*) Build";
  "(?i)Xperia ([^/;]*Tablet[^/;]*) Build";
  "(?i)Xperia ([^;/]+) \(AOSP\) Build";
  "(?i)Xperia ([^;/]+) Build";
  "(?i)(XQ-[A-Z]{2}[0-9]{2})";
  "(?i)Sony[ -]?([^/;]*) Build";
  "(?i)Sony[ -]?([a-z0-9-]+)";
  "(?i)Soullink[ _](S1)";
  "(?i)((?:SM-LED32M(?:1[0214]|0[479])S)|SM-QLED(?:50T2|50T21|55T21)SU|SM-LED(?:24M(?:0[69]|11)S|43M02S|40M04S|(?:5[05]|43)M0[1234]SU|32M1[35]S|65M0[12]SU))(?:_-Ver01)?(?:[);/ ]|$)";
  "(?i)(?:SOYES[ _](?:[67]S|XS|XS11)|S10-H|XS12 PRO)(?:[);/ ]|$)";
  "(?i)SOYES[ _]([67]S|XS11|XS)";
  "(?i)Spark Plus 3(?:[);/ ]|$)";
  "(?i)Sparx[ _]|(?:Android 1[34](?:[\d.]*);(?: [\w-]+;)? Neo 11|NEO_6|NEO 5|Neo_6_plus|Neo 5 Pro|Neo X|Neo 8 Lite|Edge 20 Pro|Ultra 8 Pro|Ultra 8)(?: Build|[;)])";
  "(?i)Neo ([89])i";
  "(?i)Neo ([578]) Pro";
  "(?i)Neo[ _]([5687])[ _]Plus";
  "(?i)Neo[ _]([567]|11)";
  "(?i)(Versity (?:9640|9553))(?:[);/ ]|$)";
  "(?i)(CARBONO_5|CUARZO_6|DIAMANTE_5|VULCANO_55)(?:[);/ ]|$)";
  "(?i)VULCANO_55(?:[);/ ]|$)";
  "(?i)CARBONO_5(?:[);/ ]|$)";
  "(?i)CUARZO_6(?:[);/ ]|$)";
  "(?i)DIAMANTE_5(?:[);/ ]|$)";
  "(?i)Spice|(?:Xlife[-_ ](?:\d+Q?|Victor5|M5q\+|M5 Pro|Proton5|Electro55HD))(?:[);/ ]|$)";
  "(?i)(?:Spice_)?Xlife[-_ ](\d+Q?|M5\+)(?:[);/ ]|$)";
  "(?i)Xlife-M5q\+";
  "(?i)Spice[-_ ]?Mi-?(7\d{2})N(?:[);/ ]|$)";
  "(?i)Spice[-_ ]?Mi-?(7\d{2})(?:[);/ ]|$)";
  "(?i)Spice[-_ ]?Mi-?(\d{3})N(?:[);/ ]|$)";
  "(?i)Spice[-_ ]?Mi-?(\d{3})(?:[);/ ]|$)";
  "(?i)Spice[-_ ]?([^/;]+)(?: Build|[;)])";
  "(?i)Spice[-_ ]?([^/;]+)(?:/|$)";
  "(?i)RED ([1369]0)(?:[);/ ]|$)";
  "(?i)Starlight|(?:VENUS_PLUS|My_Star_X|My_star_18|RIO STAR|C_Note(?:_Pro)?|Star_Mix_2|I_STAR_PLUS|star_plus_plus|star_two|I star (?:one|two)|Milan_Pro|Gionee_?Star)(?:[);/ ]|$)";
  "(?i)Gionee_?Star";
  "(?i)I star two|star_two";
  "(?i)(?:Starmobile (?:Play (?:Neo|Spark|GO|Click|Max)|Astra)|DIAMOND D1|UP[_ ](?:Sense|Rave|Groove|Octa|Prime|Selfie|Snap|Xtreme|XL|Max|Vision|Neo)|PLAY (?:Club|Style|Click LTE|Dash)|ENGAGE7\+)(?:[);/ ]|$)";
  "(?i)Starmobile PLAY GO(?:[);/ ]|$)";
  "(?i)Starmobile ASTRA(?:[);/ ]|$)";
  "(?i)DIAMOND D1(?:[);/ ]|$)";
  "(?i)(?:Starmobile )?Play (Neo|Spark|Click|Club|Style|Max|Dash)(?:[);/ ]|$)";
  "(?i)UP[_ ](Sense|Rave|Groove|Octa|Prime|Selfie|Snap|Xtreme|XL|Max|Vision|Neo)(?:[);/ ]|$)";
  "(?i)ENGAGE7\+";
  "(?i)Andromeda[ _]S(707|84[05]|850|8)(?:[);/ ]|$)";
  "(?i)Smart_Starwind|(?:SW-LED(?:24SG303|32SB30[024]|42SB300|43SB30[04]|40SG300|40SB30[04]|43SG30[20]|43UB40[04]|43UG40[0135]|32SG3(?:0[01245]|11)|55UG40[03]|58UG401|5[05]UB401|50UG40[03]|65UG403|5[08]UB400|58UA401|65UG402))(?:[);/ ]|$)";
  "(?i)SW-LED(\d{2}[SU][ABG]\d{3})";
  "(?i)STILEVS|ST65SMWOS4K(?:[);/ ]|$)";
  "(?i)STILEVS SMART TV(?:[);/ ]|$)";
  "(?i)STX[ -]([^;/]+)|STONE EVO";
  "(?i)STX[ -]([^;/]+) Build";
  "(?i)STX[ -]([a-z0-9_-]+)";
  "(?i)eZee[^a-z]*Tab ?([^;/]*) Build|STOREX LinkBox"
].
Definition d_dr_re1_14 : list blob := [
  "(?i)eZee[^a-z]*Tab ?([^;/]*) Build";
  "(?i)StrawBerry[ _]";
  "(?i)StrawBerry[ _](SX|QX15)(?:[);/ ]|$)";
  "(?i)LGE; WSTR[0-9a-z]+;|(B3 (?:Maxi|Simply)|B3Pro|Android 8(?:[\d.]*);(?: [\w-]+;)? (?:B1s|HT28|HT16))(?:[);/ ]|$)";
  "(?i)(B3 (?:Maxi|Simply)|B1s|HT28|HT16)(?:[);/ ]|$)";
  "(?i)B3Pro(?:[);/ ]|$)";
  "(?i)LGE; (WSTR[0-9a-z]+);";
  "(?i)STYLO|(?:TARISTAB[234]|Luna|CPE91|VS571|VS5502|S57_A[ZL]URE|BOLD_PLUS|INKOSI(?:_PRO)?|INKULU_PRO|Ithemba|S56 MIST|S55 Nova|INKOSI_PRO_4G|S40_VISTA|S50_JADE|S50_BOLD|S64_ALPHA|S53_STARK|S40_LIFE|LIFE_2|S49[_ ](?:MONO|POISE|ECO)| [27]21|721_PRO|DQR22|MOSCOW|SWIFT_4G|STEP_UP|APEX_5G|ARCTIC|S61 JAZZ|Sirius Plus Tab 10|DVK87 Orion 8 Tab|DVK82 Mercury|EBY33)(?:[);/ ]|$)| (?:BRAVE|SATURN)(?: Build|[;)])";
  "(?i)STYLO[ _](F1|Viva)";
  "(?i)STYLO[ _]SONIC";
  "(?i)([27]21)(?:[);/ ]|$)";
  "(?i)STYLO[ _]S9[_ ]TOPAZ";
  "(?i)SV61 VECTOR\+";
  "(?i)SM61 MAGIC\+";
  "(?i)S49[_ ]POISE";
  "(?i)S49[_ ]MONO";
  "(?i)S49[_ ]ECO";
  "(?i)Stylo[_ ](521)";
  "(?i)(VS571|VS5502)";
  "(?i)TARISTAB([2-4])";
  "(?i)SUBOR[ _]";
  "(?i)SUBOR[ _](S5|2019)(?:[);/ ]|$)";
  "(?i)SUBOR[_ ]K10PLUS(?:[);/ ]|$)";
  "(?i)SUGAR[ _]";
  "(?i)SUGAR Y([78]) MAX(?:[);/ ]|$)";
  "(?i)SUGAR S60 pro(?:[);/ ]|$)";
  "(?i)SUGAR F7 Mini(?:[);/ ]|$)";
  "(?i)SUGAR[ _]([^);/]+) ?Dual(?: Build|[);])";
  "(?i)SUGAR[ _]([^);/]+)(?: Build|[);])";
  "(?i)Cyclone (?:Voyager|X8)(?:[);/ ]|$)";
  "(?i)(Cyclone (?:Voyager 2|Voyager))(?:[);/ ]|$)";
  "(?i)(Cyclone X8)(?:[);/ ]|$)";
  "(?i)SUNVAN[ _-]";
  "(?i)SUNVAN[ _-]?([^/;]+) Build";
  "(?i)SUNVAN[ _-]?([^);/ ]+)";
  "(?i)Model[ _][6ADSY](?:[ _]pro)?(?:[ _]4G)?(?:[);/ ]|$)";
  "(?i)(Model S 4G)";
  "(?i)(Model [6ADSY])";
  "(?i)(?:V1s-G|T2s_LITE|V2_PRO-ST)(?:[);/ ]|$)";
  "(?i)T2s_LITE(?:[);/ ]|$)";
  "(?i)(V1s)-G";
  "(?i)LGE; SNY?[0-9]{2}[0-9a-z]+(?:-[0-9]+)?;|(?:SS4G9 Mira|SS4G7 Sole|SS4G1 Luna|SS4G8 Nora|SS4G6 Lola|SN7014S?|SN7016|SN10016|SN01DNGL300|SUNNY ?(?:SS01|S52D|SN55UAL253-?)|SUNNY;SmartTV)(?:[);/ ]|$)";
  "(?i)(SS4G9 Mira|SS4G7 Sole|SS4G1 Luna|SS4G8 Nora|SS4G6 Lola)(?:[);/ ]|$)";
  "(?i)SUNNY (SS01|S52D)";
  "(?i)(SN7014S?|SN7016|SN10016)(?:[);/ ]|$)";
  "(?i)SUNNY;SmartTV";
  "(?i)SN01DNGL300(?:[);/ ]|$)";
  "(?i)(?:SUNNY[_ ]?)?(SN55UAL253)";
  "(?i)LGE; (SNY?[0-9]{2}[0-9a-z]+)(?:-[0-9]+)?;";
  "(?i)(TAB(?:2323GMQC|1081|918QC|917QC-(?:8|16)GB)|TAB1090)(?:[);/ ]|$)";
  "(?i)(?:Sunwell_)?(?:T95ZPLUS|T95[KU]PRO|MINIM8S|MXQ-H3)(?:[);/ ]|$)";
  "(?i)(?:Sunwell_)?T95ZPLUS";
  "(?i)(T95[KU])PRO";
  "(?i)MINIM8S(?:[);/ ]|$)";
  "(?i)MXQ-H3(?:[);/ ]|$)";
  "(?i)SUPER GENERAL[;,]";
  "(?i)SuperBOX_S2PRO(?:[);/ ]|$)";
  "(?i)(SC-[0-9]+[a-z]+|SC-2110)";
  "(?i)Android 7(?:[\d.]*); (?:BLACK|WHITE) X(?:[);/ ]|$)";
  "(?i)(?:SuperTab(?:A10|K7|S7G)|K7 Kids)(?:[);/ ]|$)";
  "(?i)SuperTab(A10|K7|S7G)";
  "(?i)SUPRA|NVTAB 7\.0 3G|M74C 3G";
  "(?i)SUPRA[ _]([^;/)]+)(?: Build|[;)])";
  "(?i)(NVTAB 7\.0 3G|M74C 3G)";
  "(?i)(SN10)(?:[);/ ]|$)";
  "(?i)VOLT_(5XL)(?:[);/ ]|$)";
  "(?i)SUZUKI[ _]|(?:ECOPAD7|SUMOPad10)(?:[);/ ]|$)";
  "(?i)SUMOPAD(8100|10)(?:[);/ ]|$)";
  "(?i)(SBX604)(?:[);/ ]|$)";
  "(?i)(?:Slate2|Swipe_(?:Elite_3M?|Strike8)|Elite_(?:Grace|VR)|EliteDual|Elite (?:Prime|Star|Note|Sense|Power)|Konnect (?:Prime|Power|Neo 4G))(?:[);/ ]|$)";
  "(?i)(?:Swipe_)?Elite[_ ]?(Sense|VR|3M?|Grace|Star|Prime|Note|Dual|Power)(?:[);/ ]|$)";
  "(?i)Slate2(?:[);/ ]|$)";
  "(?i)Swipe[_ ]Strike8";
  "(?i)swisstone (SD 5[13]0)(?:[);/ ]|$)";
  "(?i)eSmart[_ ]([EM]2|M3)(?:[);/ ]|$)";
  "(?i)SYCO[ _]|RS-4(?:03|42)(?:[);/ ]|$)";
  "(?i)RS-(\d{3})";
  "(?i)SYMPHONY[ \_]([a-z0-9]+)|(?:(?:roar[ _](?:V20|A50|V78|E80|V150))|innova[123]0|roarV95|ZVIII?|V10[25]|V1[23]0|V128|V14[012]|V1[45]5|SYMTAB\d+| (?:i9[79]|i7[245]|i8[05]|i6[568]|i30|i1[58]|i120|Z30 pro|Z60 plus|[ZR]30|V9[246789]|V75m)|INOVA|Android 7(?:[\d.]*);(?: [\w-]+;)? P11|Android 6.*; (?:V75|i2[015])|EASY_NAV_2|G10\+|helio 30)(?:[);/ ]|$)";
  "(?i)Symphony_PD1_4G_4G(?:[);/ ]|$)";
  "(?i)innova([123]0)";
  "(?i)roar[ _]?(V20|A50|E80|V78|V95|V150)(?:[);/ ]|$)";
  "(?i)(Z30|P7) pro";
  "(?i)(Z60) plus";
  "(?i)G10\+";
  "(?i)(V141|V1[23]0|V10[25]|V128|V14[012]|i9[79]|i7[245]|i8[05]|i6[568]|i30|i1[58]|i120|V1[45]5|[ZR]30|V9[246789]|V75m?|i2[015]|P11)(?:[);/ ]|$)";
  "(?i)SYMPHONY[ \_]([a-z0-9]+)";
  "(?i)SYMTAB(\d+)";
  "(?i)(SYX-(?:T70[04]|T10[12]))(?:[);/ ]|$)";
  "(?i)System76 Galago Pro(?:[);/ ]|$)";
  "(?i)T-Mobile[ _][a-z0-9 ]+|(?:REVVLRY\+?|REVVL V\+ 5G|REVVL 2(?: PLUS)?|5062[ZW]|5007[ZW]|T790[WZ]|Telekom Puls|TMAF0[23]5G|TMRVL4G|TMRV5GTB|TMRV0[67]P?5G|T Phone|T Tablet)(?:[);/ ]|$)";
  "(?i)5062[ZW]";
  "(?i)5007[ZW]";
  "(?i)T790[WZ]";
  "(?i)REVVL V\+ 5G";
  "(?i)REVVL 2(?:[);/ ]|$)";
  "(?i)TMAF025G(?:[);/ ]|$)";
  "(?i)TMRV075G(?:[);/ ]|$)";
  "(?i)TMAF035G(?:[);/ ]|$)";
  "(?i)TMRV07P5G(?:[);/ ]|$)";
  "(?i)Telekom Puls(?:[);/ ]|$)";
  "(?i)T Phone Pro \((2023)\)";
  "(?i)T Phone \((2023)\)";
  "(?i)T Phone Pro(?:[);/ ]|$)";
  "(?i)T Phone (\d*)(?:[);/ ]|$)";
  "(?i)T Phone(?:[);/ ]|$)";
  "(?i)T Tablet(?:[);/ ]|$)";
  "(?i)T-Mobile[ _]([a-z0-9_ ]+) Build";
  "(?i)T-Mobile[ _]([a-z0-9_ ]+)";
  "(?i)T96mini(?:[);/ ]|$)";
  "(?i)TADAAM BOX(?:[);/ ]|$)";
  "(?i)(?:TAG[ -]TAB[ -]III?|TAGPhone)(?:[);/ ]|$)";
  "(?i)TAG[ -]TAB[ -](III?)";
  "(?i)TAGPhone(?:[);/ ]|$)";
  "(?i)TAUBE[;,]";
  "(?i)Ignis [89]";
  "(?i)Ignis ([89])";
  "(?i)TCL,|TCL[a-z0-9]+;|smarttv_AFTMM-TCL|AFTDEC012E|AFTMD002|AFTSHN02|AFTMD001|TCL[_ -][a-z0-9]+|(?:TCL[_ -][^;/]+ Build)|(?:TCLGalaG60(?:\(9108A\))?|T431P|4163D|4187[DMU]|4188[CLRSVO]|5004S|5033TP|5087Z|5101A|5102[BKLMOP]|5107G|5124J|5130[JMEI]|5133MP|5133A|5148A|5152D|5159[AJ]|5164[AD]|5199I|6102[ADH]|6125[ADFH]|6127[AI]|6156[ADH]|6159[AK]|6165[AHS]|7040N|8491X|9048S|9060[GX]|9080G|9081X|9295G|9296[GQ]|A(?:50[2789]|600)DL|T(?:60[123]|701)DL|T(?:506D|671[EFGHO]|676[HJK]|766[AHJSU]|767[GHW]|770[BH]|771K|773O|774[BH]|775[BH]|776[HO]|779W|780H|781SPP|781S|781|782H|790[SY]|799[BH]|810[HS])|Percee TV|9183W|9198S|9309X2|9317X1|8[14]96G|916[016]G| 9061| 8182| 8167| 8095|BeyondTV\d?|UnionTV|T507[DU]|5131[AG]|T610[KE]|T611B|T612B|T614D|T702[DW]|9132[GS]|9137W|T430W|T431[DUQ]|T501[CL]|T768S|T803D|9199S|9494G|9460G|9466X|T60[79]DL|T433[DE]|T506[AGKTF]|T509[AK])(?:_(?:RU|EEA|TR))?(?:[);/ ]|$)";
  "(?i)TCLGalaG60(?:\(9108A\))?(?:[);/ ]|$)";
  "(?i)5004S(?:[);/ ]|$)";
  "(?i)T430W(?:[);/ ]|$)";
  "(?i)T501[CL](?:[);/ ]|$)";
  "(?i)T779W(?:[);/ ]|$)";
  "(?i)5[01]33[MT]P(?:[);/ ]|$)";
  "(?i)4187D(?:[);/ ]|$)";
  "(?i)(?:4163D|4188S)(?:[);/ ]|$)";
  "(?i)5131[AG]";
  "(?i)T431[DUQ](?:[);/ ]|$)";
  "(?i)6102[AD](?:[);/ ]|$)";
  "(?i)5164[AD](?:[);/ ]|$)";
  "(?i)6102H(?:[);/ ]|$)";
  "(?i)T506[AD]";
  "(?i)T506[GK]";
  "(?i)T507[DU]";
  "(?i)T433[DE]";
  "(?i)T610[KE](?:[);/ ]|$)";
  "(?i)T774[BH](?:[);/ ]|$)";
  "(?i)T775B(?:[);/ ]|$)";
  "(?i)T775H(?:[);/ ]|$)";
  "(?i)6125[ADFH]";
  "(?i)6127[AI]";
  "(?i)6156[ADH]";
  "(?i)6159[AK]";
  "(?i)5199I(?:[);/ ]|$)";
  "(?i)A509DL(?:[);/ ]|$)";
  "(?i)A600DL(?:[);/ ]|$)";
  "(?i)5102[LO](?:[);/ ]|$)";
  "(?i)5152D(?:[);/ ]|$)";
  "(?i)5133A(?:[);/ ]|$)";
  "(?i)5102[BKMP](?:[);/ ]|$)";
  "(?i)5159[AJ](?:[);/ ]|$)";
  "(?i)5101A(?:[);/ ]|$)";
  "(?i)5107G(?:[);/ ]|$)";
  "(?i)5124J(?:[);/ ]|$)";
  "(?i)5130[JEI](?:[);/ ]|$)";
  "(?i)4187[MU](?:[);/ ]|$)";
  "(?i)5148A(?:[);/ ]|$)";
  "(?i)5130M(?:[);/ ]|$)";
  "(?i)T780H(?:[);/ ]|$)";
  "(?i)T782H(?:[);/ ]|$)";
  "(?i)T790Y(?:[);/ ]|$)";
  "(?i)(?:T790S|TCL 10 5G UW)(?:[);/ ]|$)";
  "(?i)TCL[_ -]([^;/]+) Build";
  "(?i)TCL[_ -]([a-z0-9]+)";
  "(?i)(7040N)(?:[);/ ]|$)";
  "(?i)A502DL(?:[);/ ]|$)";
  "(?i)A507DL(?:[);/ ]|$)";
  "(?i)A508DL(?:[);/ ]|$)";
  "(?i)T601DL(?:[);/ ]|$)";
  "(?i)T609DL(?:[);/ ]|$)";
  "(?i)T702W(?:[);/ ]|$)";
  "(?i)T611B(?:[);/ ]|$)";
  "(?i)T614D(?:[);/ ]|$)";
  "(?i)T770[HB](?:[);/ ]|$)";
  "(?i)T766[AHJSU](?:_(?:EEA|TR|RU))?(?:[);/ ]|$)";
  "(?i)T671[HFEO](?:_EEA)?(?:[);/ ]|$)";
  "(?i)T768S(?:_EEA)?(?:[);/ ]|$)";
  "(?i)6165[AHS]";
  "(?i)T676[KJ]";
  "(?i)(?:4188[CLRO]|T602DL)(?:[);/ ]|$)";
  "(?i)(?:T781S|T781SPP)(?:[);/ ]|$)";
  "(?i)T776[HO]";
  "(?i)T767[GW](?:[);/ ]|$)";
  "(?i)(?:T671G|T701DL)(?:[);/ ]|$)";
  "(?i)T767H(?:[);/ ]|$)";
  "(?i)T773O(?:[);/ ]|$)";
  "(?i)5087Z(?:[);/ ]|$)";
  "(?i)T781(?:[);/ ]|$)";
  "(?i)T810[SH](?:[);/ ]|$)";
  "(?i)T799[BH]";
  "(?i)T771K(?:[);/ ]|$)";
  "(?i)T607DL(?:[);/ ]|$)";
  "(?i)T612B(?:[);/ ]|$)";
  "(?i)T803[DE](?:[);/ ]|$)";
  "(?i)T702D(?:[);/ ]|$)";
  "(?i)8095(?:[);/ ]|$)";
  "(?i)9048S(?:[);/ ]|$)";
  "(?i)9198S(?:[);/ ]|$)";
  "(?i)9460G(?:[);/ ]|$)";
  "(?i)9183W(?:[);/ ]|$)";
  "(?i)(?:9061|9081X)(?:[);/ ]|$)"
].
Definition d_dr_re1_15 : list blob := [
  "(?i)8496G(?:[);/ ]|$)";
  "(?i)8196G(?:[);/ ]|$)";
  "(?i)9309X2(?:_EEA)?(?:[);/ ]|$)";
  "(?i)(?:8167)(?:[);/ ]|$)";
  "(?i)(?:8182)(?:[);/ ]|$)";
  "(?i)9060G|9161G";
  "(?i)9060X|9160G";
  "(?i)(Percee TV|UnionTV)(?:[);/ ]|$)";
  "(?i)BeyondTV(\d)?(?:[);/ ]|$)";
  "(?i)((?:43|55)S62FS|(?:43|50)P65US|U(?:43|60|65)P60|65P4USM|(?:40|49)S62|L32S6|55P610|50P8S|55S62|(?:43|50)P6US|55DP60)";
  "(?i)_TV_[A-Z0-9]+_Tbrowser_2k20";
  "(?i)AFTMD002(?:[);/ ]|$)";
  "(?i)AFTSHN02(?:[);/ ]|$)";
  "(?i)AFTMD001(?:[);/ ]|$)";
  "(?i)AFTDEC012E(?:[);/ ]|$)";
  "(?i)TCL,([a-z0-9_ -]+),(?:wired|wireless)";
  "(?i)(K(?:24|32)DLX9HS|K40DLM8FS|K40DLX9FS|K50DLX9US|K50DLJ10US|K43DLJ10US|K32DLX10HS|K32DLJ12HS)(?:[);/ ]|$)";
  "(?i)Build/TDTech|(?:NAT-TN70|TDT-MA01|AVA-PA00)(?:[);/ ]|$)";
  "(?i)TECHNOSAT[ _]";
  "(?i)TECHNOSAT[ _](W2)";
  "(?i)TEENO[_ ](S9|A1|i12|S11)(?:[);/ ]|$)";
  "(?i)TENPLUS[_ ]([^/;)]+)(?: Build|[);])";
  "(?i)TETC[ -](F\d)(?:[);/ ]|$)";
  "(?i)TIANYU ([a-z0-9]+)";
  "(?i)TIANYU-KTOUCH/([a-z0-9]+)";
  "(?i)(?:TIMVISIONBOX|TIM_BOX)(?:[);/ ]|$)";
  "(?i)Metal_Tablet_10(?:[);/ ]|$)";
  "(?i)(MT-1011QR)(?:[);/ ]|$)";
  "(?i)TOOGO[_ ]";
  "(?i)TOOGO[_ ]([^/;)]+)(?: Build|[);])";
  "(?i)(ArtiDiag800 BT)(?:[);/ ]|$)";
  "(?i)TOPSHOWS[ _-](X[19])(?:[);/ ]|$)";
  "(?i)TORNADO[;,)]";
  "(?i)TORNADO, ?([a-z0-9_ -]+)\*?, ?(?:wired|wireless)";
  "(?i)(?:(?:T1[235]|T151|T2[1268]|T181|P101)-EEA|W-?109)(?:[);/ ]|$)";
  "(?i)(T1[235]|T151|T2[1268]|P101|T181)-EEA(?:[);/ ]|$)";
  "(?i)W-?109(?:[);/ ]|$)";
  "(?i)(Magictab (?:9GX|7GE|718))(?:[);/ ]|$)";
  "(?i)TT20(?:[);/ ]|$)";
  "(?i)(?:TVPLUS BOX)(?:[);/ ]|$)";
  "(?i)(NuclearSX-SP5)";
  "(?i)Amazing[ _](X[35]s|X[123567]|A5S|A3[025]|A[468]|A4S|A5[057]|P6)(?:[);/ ]|$)";
  "(?i)Amazing[ _](X[35])s(?:[);/ ]|$)";
  "(?i)Amazing[ _](A5S|X[123567]|A[468]|A4S|A5[057]|A3[025])(?:[);/ ]|$)";
  "(?i)Amazing[ _](P6)(?:[);/ ]|$)";
  "(?i)TWZ[-_ ](?:TabPlay|Y6[08]|Y52|A49|A[59]5|A567|AA8|QQ[12])|TWZQQ1|(?:OX_X1)(?:[);/ ]|$)";
  "(?i)TWZ[_ ]TabPlay[_ ](12[56])";
  "(?i)TWZ[-_ ]?(Y6[08]|Y52|A49|A[59]5|A567|AA8|QQ[12])";
  "(?i)(TYD-109([_ ]Pro)?)(?:[);/ ]|$)";
  "(?i)(?:TP_1_3000)(?:[);/ ]|$)";
  "(?i)(MID169|MID211H)(?:[);/ ]|$)";
  "(?i)(Nitro 551)(?:[);/ ]|$)";
  "(?i)(TA-(?:2[_ ](?:3G|Pro)|5[05][_ ]Power|[1-4]|[1246]0))(?:[);/ ]|$)";
  "(?i)Tanix|(?:TX[53] MAX|TX[69]s|TX3 Mini|TX3MINI|TX5 Pro)(?:[);/ ]|$)";
  "(?i)TX([69])s";
  "(?i)Tanix (A3)";
  "(?i)TX([35]) MAX";
  "(?i)(?:Tanix_)?(?:TX3[ _]?Mini)";
  "(?i)TeachTouch[_ ]";
  "(?i)TeachTouch (Table)";
  "(?i)TECTOY_5029Y(?:[);/ ]|$)";
  "(?i)Tech[ _]?pad|XTAB[ _-]|(?:3G_16|Dual (?:C1081HD|C981HD)|S813G|NOTE[_ ]4CAM|M5(?:Go|Plus)|M6Plus|Android 8(?:[\d.]*);(?: [\w-]+;)? 816x?)(?:[);/ ]|$)";
  "(?i)Tech ?Pad[_ ]?(10Y|9x|i700|10Z|7QC|10QC|832|703)";
  "(?i)TechPad[_ ]3Gx";
  "(?i)Android 8(?:[\d.]*);(?: [\w-]+;)? (816x?)";
  "(?i)Dual (C981HD|C1081HD)";
  "(?i)XTAB[ _-]([^/;)]+)(?: Build|[;)])";
  "(?i)M5(Go|Plus)";
  "(?i)NOTE[ _]4CAM";
  "(?i)Tech ?pad[ _-]([^/;)]+)(?: Build|[;)])";
  "(?i)TECHSMART[_ ]";
  "(?i)TECHSMART[_ ]([^/;)]+)(?: Build|[);])";
  "(?i)TechniPhone 5(?:[);/ ]|$)";
  "(?i)(?:UP10SI[34]6LA|UP918|UP7[67]8|UP1018|UP10_SH36LAG|Ultrapad_UP10\.S36LA)(?:[);/ ]|$)";
  "(?i)(UP10SI[34]6LA|UP918|UP778|UP768|UP1018)";
  "(?i)(?:Ultrapad_)?UP10[_.](SH36LAG|S36LA)";
  "(?i)Allwinner Nitro Pro(?:[);/ ]|$)";
  "(?i)Teclast|P80_G3M2|TLA00[12]|TLA016|X98 Air III|M20_4G|X98 Air II\(HG5N\)|Tbook|X80 Power\(B2N4\)|P80H\(D1C2\)|T20\(T2E1\)|(?:[TM]40 Plus|T30|P80[XHT]|P20HD|P10[_ ]HD|M40|P10SE?|M30_Pro|M40SE|P8[05]|P25(?:_T)?|P85T|P[23]0S|P[34]0HD|T40S)_(?:ROW|EEA|RUS|W_EEA)|P20HD\(N6H5\)|T40 Plus\(M7T3\)|T40Pro|T40 PRO(?:\(T1A1\))?|T10\(E3C[56]\)|P10S\(N4H5\)|98\(M1E[45789]\)|98\(M3E3\)|X10 \(M1D3\)|M89 Pro|M40\(N9H[123]\)|P20HD\(N6H7\)|M40SE\(M5T3\)|M50S|M40(?:SE?|Pro|Air)_(?:ROW|EEA|RUS)|M50Plus|[MT]50Mini|P30Air|P10HD_Lite|(?:T60Ai|P50Ai|P50_[BT]|T50|M40_?Plus|M40 Pro|T50Pro_W|TLG01|P26T|P40S|P50|P25T|T70|T50Max|T50HD|T60Plus|T65Max|ArtPadPro)_(?:ROW|EEA)|M50[-_]ROW|M40Plus_EEA|P40HD_T_(?:EEA|ROW)|T40_Plus_RUS|T40 Air|P50_B|P50Case|(?: (?:T4[05]HD|P30T|P80X|M50HD)|98 \(M1E3\))|(?:Android 13(?:[\d.]*);(?: [\w-]+;)? (?:M50 Pro|T[56]0)|T50HD)(?:[);/ ]|$)";
  "(?i)Tbook[_ -]([^;/]+)(?: Build|[;)]|$)";
  "(?i)T10\(E3C[56]\)";
  "(?i)T20\(T2E1\)";
  "(?i)X10 \(M1D3\)";
  "(?i)98 \(M1E3\)";
  "(?i)P10S(?:\(N4H5\)|_(?:ROW|EEA))(?:[);/ ]|$)";
  "(?i)P20HD_?(?:ROW|EEA|RUS)|P20HD\(N6H[57]\)";
  "(?i)M50 ?Mini";
  "(?i)P10[_ ]HD_(?:ROW|EEA)";
  "(?i)P80[_ ](?:ROW|EEA)|P80_G3M2";
  "(?i)P(50|85)[_ ](?:ROW|EEA|RUS|[BT])";
  "(?i)M([43]0)[_ ]?Pro[_ ](?:ROW|EEA|RUS)";
  "(?i)M40\(N9H[123]\)";
  "(?i)T(50|65)Max";
  "(?i)M([45]0)[_ ]?Plus_?";
  "(?i)M40S[_ ](?:ROW|EEA|RUS)";
  "(?i)T40 ?PRO";
  "(?i)T40[ _]Plus(?:_(?:ROW|EEA|RUS)|\(M7T3\))";
  "(?i)T(4[05])HD";
  "(?i)M(50)HD";
  "(?i)P80H\(D1C2\)";
  "(?i)(P80[Xh]|P30HD|T30|M40|P25(?:_T)?|P10SE|T40S|P[24]0S|T[56]0|TLG01|P26T|P85T|P30T|T50HD|P25T|M50S?|T70)(?:[_ -](?:ROW|EEA))?(?:[);/ ]|$)";
  "(?i)98\(M1E[45789]\)|98\(M3E3\)";
  "(?i)X80 Power\(B2N4\)(?:[);/ ]|$)";
  "(?i)X98 Air III(?:[);/ ]|$)";
  "(?i)X98 Air II\(HG5N\)(?:[);/ ]|$)";
  "(?i)Teclast[_ -]([^;/]+) Build";
  "(?i)Tecno|Camon|Phantom[56]|Phantom6-Plus|Phantom6S|DP7C ?Pro-SGA1|(?:DP7CPRO|DP8D)(?:[);/ ]|$)";
  "(?i)Phantom([56])";
  "(?i)TECNO[ _]AD8";
  "(?i)TECNO[ _]AD9";
  "(?i)TECNO[ _]AC8(?:[);/ ]|$)";
  "(?i)TECNO[ _]AD10(?:[);/ ]|$)";
  "(?i)TECNO[ _]AE10(?:[);/ ]|$)";
  "(?i)TECNO[ _]AD11(?:[);/ ]|$)";
  "(?i)TECNO[ _]AE11(?:[);/ ]|$)";
  "(?i)TECNO[ _]AB7(?:[);/ ]|$)";
  "(?i)TECNO[ _]AX8(?:[);/ ]|$)";
  "(?i)TECNO[ _]F4 Pro(?:[);/ ]|$)";
  "(?i)TECNO[ _]IN5(?:[);/ ]|$)";
  "(?i)TECNO[ _]IA5(?:[);/ ]|$)";
  "(?i)TECNO[ _]ID3k(?:[);/ ]|$)";
  "(?i)TECNO[ _]KB2(?:[);/ ]|$)";
  "(?i)TECNO[ _]ID5b(?:[);/ ]|$)";
  "(?i)TECNO[ _]ID5a(?:[);/ ]|$)";
  "(?i)TECNO[ _]ID6(?:[);/ ]|$)";
  "(?i)TECNO[ _]IN2(?:[);/ ]|$)";
  "(?i)TECNO[ _]IN1 Pro(?:[);/ ]|$)";
  "(?i)TECNO[ _]KB3(?:[);/ ]|$)";
  "(?i)Tecno[ _]7C(?:[);/ ]|$)";
  "(?i)Tecno[ _]P701(?:[);/ ]|$)";
  "(?i)(?:DP7C ?Pro-SGA1|TECNO[ _]DP7CPRO|DP7CPRO)(?:[);/ ]|$)";
  "(?i)Tecno[ _]P703(?:[);/ ]|$)";
  "(?i)Tecno[ _]P704a(?:[);/ ]|$)";
  "(?i)TECNO[ _]DP10A Pro(?:[);/ ]|$)";
  "(?i)TECNO[ _]P904(?:[);/ ]|$)";
  "(?i)DP8D(?:[);/ ]|$)";
  "(?i)Tecno[ _]RC6(?:[);/ ]|$)";
  "(?i)Tecno[ _]CB7[j]?";
  "(?i)Tecno[- _]C9(?:[);/ ]|$)";
  "(?i)Tecno[ _]CF7[kS]?(?:[);/ ]|$)";
  "(?i)Tecno[ _]CF8(?:[);/ ]|$)";
  "(?i)Tecno[ _]CC7S?(?:[);/ ]|$)";
  "(?i)Tecno[ _]CC9(?:[);/ ]|$)";
  "(?i)Tecno[ _](?:CC6|KC3)(?:[);/ ]|$)";
  "(?i)Tecno[ _-]CD7(?:[);/ ]|$)";
  "(?i)Tecno[ _-]CD6S?(?:[);/ ]|$)";
  "(?i)Tecno[ _-]CD8j(?:[);/ ]|$)";
  "(?i)Tecno[ _-]CD8(?:[);/ ]|$)";
  "(?i)Tecno[ _-](?:CE9h|CE7)(?:[);/ ]|$)";
  "(?i)Tecno[ _-]CE9(?:[);/ ]|$)";
  "(?i)Tecno[ _-]CE8(?:[);/ ]|$)";
  "(?i)Tecno[ _-]CD6j(?:[);/ ]|$)";
  "(?i)Tecno[ _-]CE7j(?:[);/ ]|$)";
  "(?i)Tecno[ _-]CG6j?(?:[);/ ]|$)";
  "(?i)Tecno[ _-]CG8h?(?:[);/ ]|$)";
  "(?i)Tecno[ _-]CG7n?(?:[);/ ]|$)";
  "(?i)Tecno[ _-](?:Mobile )?CH9n?(?:[);/ ]|$)";
  "(?i)Tecno[ _-](?:Mobile )?CH6[nh]?(?:[);/ ]|$)";
  "(?i)Tecno[ _-]CH7n?(?:[);/ ]|$)";
  "(?i)Tecno[ _-](?:Mobile )?CI6n?(?:[);/ ]|$)";
  "(?i)Tecno[ _-](?:Mobile )?CH6i(?:[);/ ]|$)";
  "(?i)Tecno[ _-](?:Mobile )?CI8n?(?:[);/ ]|$)";
  "(?i)Tecno[ _-]CI7n(?:[);/ ]|$)";
  "(?i)(?:Tecno[ _-]CK7n?|Camon 20 Pro)(?:[);/ ]|$)";
  "(?i)Tecno[ _-]CK6n?(?:[);/ ]|$)";
  "(?i)Tecno[ _-]CK8n(?:[);/ ]|$)";
  "(?i)Tecno[ _-]CK8nB(?:[);/ ]|$)";
  "(?i)Tecno[ _-]CK9n(?:[);/ ]|$)";
  "(?i)Tecno[ _-]CL6[ks]?(?:[);/ ]|$)";
  "(?i)Tecno[ _-]CL9(?:[);/ ]|$)";
  "(?i)Tecno[ _-]CL7[ks]?(?:[);/ ]|$)";
  "(?i)Tecno[ _-]CL8(?:[);/ ]|$)";
  "(?i)Tecno[ _-]CLA6(?:[);/ ]|$)";
  "(?i)Tecno[ _-]CLA5(?:[);/ ]|$)";
  "(?i)Tecno[ _-]CM5(?:[);/ ]|$)";
  "(?i)Tecno[ _-]CM6(?:[);/ ]|$)";
  "(?i)Tecno[ _-]CM8(?:[);/ ]|$)";
  "(?i)Tecno[ _-]CA6S?(?:[);/ ]|$)";
  "(?i)Tecno[ _-]CA7(?:[);/ ]|$)";
  "(?i)Tecno[ _-]CA8S?(?:[);/ ]|$)";
  "(?i)Tecno[ _-]Camon CX(?:[);/ ]|$)";
  "(?i)Tecno[ _-]CX Air(?:[);/ ]|$)";
  "(?i)TECNO[ _]F3(?:[);/ ]|$)";
  "(?i)TECNO[ _]B1(?:[);/ ]|$)";
  "(?i)TECNO[ _]SA2S(?:[);/ ]|$)";
  "(?i)TECNO[ _]B1[fg](?:[);/ ]|$)";
  "(?i)TECNO[ _](?:RA8|KB2h)(?:[);/ ]|$)";
  "(?i)TECNO[ _]KB2j(?:[);/ ]|$)";
  "(?i)TECNO[ _]BA2(?:[);/ ]|$)";
  "(?i)TECNO[ _]B1p(?:[);/ ]|$)";
  "(?i)TECNO[ _]RB8S(?:[);/ ]|$)";
  "(?i)TECNO[ _]RB6S(?:[);/ ]|$)";
  "(?i)TECNO[ _]RB7S(?:[);/ ]|$)";
  "(?i)TECNO[ _]B1c(?:[);/ ]|$)";
  "(?i)TECNO[ _]SC7S(?:[);/ ]|$)";
  "(?i)TECNO[ _]BB2(?:[);/ ]|$)";
  "(?i)TECNO[ _]BB4(?:[);/ ]|$)";
  "(?i)TECNO[ _]BC2c?(?:[);/ ]|$)";
  "(?i)TECNO[ _]BC3?(?:[);/ ]|$)";
  "(?i)TECNO[ _]BC1(?:[);/ ]|$)";
  "(?i)TECNO[ _]BC1s(?:[);/ ]|$)"
].
Definition d_dr_re1_16 : list blob := [
  "(?i)TECNO[ _]BD2[dp]?(?:[);/ ]|$)";
  "(?i)TECNO[ _]L6502S(?:[);/ ]|$)";
  "(?i)TECNO[ _]BD1(?:[);/ ]|$)";
  "(?i)TECNO[ _]W5006S(?:[);/ ]|$)";
  "(?i)TECNO[ _]BD4[ai]?(?:[);/ ]|$)";
  "(?i)TECNO[ _]BD4[jh](?:[);/ ]|$)";
  "(?i)TECNO[ _]BD3(?:[);/ ]|$)";
  "(?i)TECNO[ _]BE7(?:[);/ ]|$)";
  "(?i)TECNO[ _]BE6j?(?:[);/ ]|$)";
  "(?i)TECNO[ _]BE8[i]?(?:[);/ ]|$)";
  "(?i)TECNO[ _](?:Mobile )?BF6(?:[);/ ]|$)";
  "(?i)TECNO[ _]BF7h?(?:[);/ ]|$)";
  "(?i)TECNO[ _]BG6[ih](?:[);/ ]|$)";
  "(?i)TECNO[ _]KL4(?:[);/ ]|$)";
  "(?i)TECNO[ _]KL8h(?:[);/ ]|$)";
  "(?i)Tecno[ _]SA1S Pro(?:[);/ ]|$)";
  "(?i)Tecno[ _]KG5[mh]?(?:[);/ ]|$)";
  "(?i)Tecno[ _](?:Mobile )?BF7n(?:[);/ ]|$)";
  "(?i)Tecno[ _](?:Mobile )?BG6[ms]?(?:[);/ ]|$)";
  "(?i)Tecno[ _](?:Mobile )?KJ5n?(?:[);/ ]|$)";
  "(?i)Tecno[ _](?:Mobile )?BG7n?(?:[);/ ]|$)";
  "(?i)Tecno[ _](?:Mobile )?KJ6(?:[);/ ]|$)";
  "(?i)Tecno[ _](?:Mobile )?KJ8(?:[);/ ]|$)";
  "(?i)Tecno[ _](?:Mobile )?KJ7s?(?:[);/ ]|$)";
  "(?i)Tecno[ _]KA7O?(?:[);/ ]|$)";
  "(?i)Tecno[ _]LB6?(?:[);/ ]|$)";
  "(?i)Tecno[ _]KB7j?(?:[);/ ]|$)";
  "(?i)Tecno[ _]KB8?(?:[);/ ]|$)";
  "(?i)Tecno[ _](?:KC8S?|KC2j?)(?:[);/ ]|$)";
  "(?i)Tecno[ _](?:KC6S?|KC1j)(?:[);/ ]|$)";
  "(?i)Tecno[ _]BB4k(?:[);/ ]|$)";
  "(?i)Tecno[ _]KD6a?(?:[);/ ]|$)";
  "(?i)Tecno[ _]KD7[hS](?:[);/ ]|$)";
  "(?i)Tecno[ _]KD7(?:[);/ ]|$)";
  "(?i)TECNO[ _]KE7(?:[);/ ]|$)";
  "(?i)TECNO[ _]KE6j?(?:[);/ ]|$)";
  "(?i)TECNO[ _]KE5[jk]?(?:[);/ ]|$)";
  "(?i)TECNO[ _](?:KF6(?:ks|[nhmjki])?|PR651[EH]?)(?:[);/ ]|$)";
  "(?i)TECNO[ _]KF8(?:[);/ ]|$)";
  "(?i)TECNO[ _]KF7j(?:[);/ ]|$)";
  "(?i)TECNO[ _]KF6p(?:[);/ ]|$)";
  "(?i)TECNO[ _](?:Mobile )?KG6k?(?:[);/ ]|$)";
  "(?i)TECNO[ _](?:Mobile )?KG5[nkjq]?(?:[);/ ]|$)";
  "(?i)TECNO[ _]KG7[nh]?(?:[);/ ]|$)";
  "(?i)TECNO(?: Mobile)?[ _]KG6p(?:[);/ ]|$)";
  "(?i)TECNO(?: Mobile)?[ _]KG8(?:[);/ ]|$)";
  "(?i)TECNO[ _]KH7[nh]?(?:[);/ ]|$)";
  "(?i)TECNO[ _]KG5p(?:[);/ ]|$)";
  "(?i)TECNO[ _]KH6(?:[);/ ]|$)";
  "(?i)TECNO[ _](?:Mobile[ _])?KI5[km]";
  "(?i)TECNO[ _](?:Mobile[ _])?KI5";
  "(?i)TECNO[ _]KI8";
  "(?i)TECNO[ _](?:Mobile[ _])?KI7";
  "(?i)TECNO[ _]KC1h(?:[);/ ]|$)";
  "(?i)TECNO[ _]KE5S(?:[);/ ]|$)";
  "(?i)TECNO[ _]KG5m(?:[);/ ]|$)";
  "(?i)TECNO[ _]KL4h(?:[);/ ]|$)";
  "(?i)TECNO[ _](?:Mobile )?KL5n?(?:[);/ ]|$)";
  "(?i)TECNO[ _](?:Mobile )?KL6(?:[);/ ]|$)";
  "(?i)TECNO[ _](?:Mobile )?KL7(?:[);/ ]|$)";
  "(?i)TECNO[ _]KC1(?:[);/ ]|$)";
  "(?i)TECNO[ _]K9(?:[);/ ]|$)";
  "(?i)TECNO[ _]KA6(?:[);/ ]|$)";
  "(?i)TECNO[ _]KA9(?:[);/ ]|$)";
  "(?i)Tecno[ _]DP8D(?:[);/ ]|$)";
  "(?i)Tecno[ _](P702AS)(?:[);/ ]|$)";
  "(?i)TECNO[ _]LA7 Pro(?:[);/ ]|$)";
  "(?i)TECNO[ _]LA7(?:[);/ ]|$)";
  "(?i)TECNO[ _]LA6(?:[);/ ]|$)";
  "(?i)TECNO[ _]LB7(?:[);/ ]|$)";
  "(?i)TECNO[ _]LC6a?(?:[);/ ]|$)";
  "(?i)Tecno[ _]LB8a?";
  "(?i)TECNO[ _]LC7S?(?:[);/ ]|$)";
  "(?i)TECNO[ _]LC8(?:[);/ ]|$)";
  "(?i)Tecno[ _-]J8(?:[);/ ]|$)";
  "(?i)Tecno[ _-]RA7(?:[);/ ]|$)";
  "(?i)Tecno[ _-]W3 Pro(?:[);/ ]|$)";
  "(?i)Tecno[ _-]WX3P(?:[);/ ]|$)";
  "(?i)TECNO[ _]LD7j?(?:[);/ ]|$)";
  "(?i)TECNO[ _]LE6h?(?:[);/ ]|$)";
  "(?i)TECNO[ _](?:Mobile )?LG6n(?:[);/ ]|$)";
  "(?i)TECNO[ _]LH6n(?:[);/ ]|$)";
  "(?i)TECNO[ _]LE6j(?:[);/ ]|$)";
  "(?i)TECNO[ _]LE7n?(?:[);/ ]|$)";
  "(?i)TECNO[ _]LF7n?(?:[);/ ]|$)";
  "(?i)TECNO[ _]LE8(?:[);/ ]|$)";
  "(?i)TECNO[ _]LG7n(?:[);/ ]|$)";
  "(?i)TECNO[ _]LG8n(?:[);/ ]|$)";
  "(?i)TECNO[ _]LH7n(?:[);/ ]|$)";
  "(?i)TECNO[ _](?:Mobile )?LH8n(?:[);/ ]|$)";
  "(?i)TECNO[ _](?:Mobile )?LI9(?:[);/ ]|$)";
  "(?i)TECNO[ _](?:Mobile )?LI7(?:[);/ ]|$)";
  "(?i)TECNO[ _](?:Mobile )?LI6(?:[);/ ]|$)";
  "(?i)TECNO[ _](?:Mobile )?KL8(?:[);/ ]|$)";
  "(?i)Tecno (F2) ?LTE";
  "(?i)(?:TECNO[-_])?L8Plus";
  "(?i)TECNO[ _-]?(T611)(?:[);/ ]|$)";
  "(?i)TECNO[ _-]?(T1101)(?:[);/ ]|$)";
  "(?i)Tecno[ _]([^;/]+)(?: Build|[);])";
  "(?i)Tecno[ _-]?([a-z0-9_-]+)";
  "(?i)Preo[ _]";
  "(?i)Preo[ _]P([23])";
  "(?i)Tele2[ _]|Tele2fon";
  "(?i)Tele2fon[_ ]V6";
  "(?i)Tele2[ _](Mi[dn]i)[ _]1[_.]1(?:[);/ ]|$)";
  "(?i)Tele2[ _]Midi[ _]2[_.]0(?:[);/ ]|$)";
  "(?i)Tele2[ _]((?:Maxi|Midi)(?:[_ ](?:Plus|LTE))?)(?:[);/ ]|$)";
  "(?i)Tele2[ _](Mi[dn]i)(?:[);/ ]|$)";
  "(?i)TELEFUNKEN|Foxtrot|TEL-1013GIQA|TEL-1014GIQ|TEL-73GIQA|TEL-74GIQ|TF-SP(?:500[12]|4002)|(TF-MID(?:[78]02G|70[78]G|80[46]G|9705RG|9707G|7805G|100[57]G|1010G))| TF5X| TF6|TF500|TF501_EC|(TF-LED(?:32S14T2S|43S9[57]T2SU|50S0[34]T2SU|50S25T2SU|55S11T2SU|58S06T2SU|65S75T2SU|32S39T2S|32S08T2S|32S5[289]T2S|32S60T2S|32S7[045]T2S|40S63T2S|40S19T2S|40S41T2S|43S94T2S|43S22T2SU)(?:-1)?)|LTE_LIMA|LTE Mike|Diamond_LTE|Outdoor (?:LTE|WT4|WT4-S)|TELP-1013KBC";
  "(?i)TEL-(1014GIQ|74GIQ|73GIQA(?:11)?)";
  "(?i)(?:TELEFUNKEN)?(TF-SP(?:500[12]|4002)|Outdoor (?:LTE|WT4-S|WT4)|Foxtrot|TF5X|TF6)";
  "(?i)(TF-MID(?:[78]02G|70[78]G|80[46]G|9705RG|9707G|7805G|100[57]G|1010G)|TF501_EC|TELP-1013KBC)";
  "(?i)(TF-LED(?:\d{2}S\d{2}T2SU?)|TF500)";
  "(?i)TELEFUNKEN, ([a-z0-9_ -]+), (?:wired|wireless)";
  "(?i)TELEGO|Wise2_plus";
  "(?i)Telego[ _-]([^/;)]+)(?: Build|[;)])";
  "(?i)Telenor|(?:Infinity[_ ](?:E[2-5]|K2?|A2))(?:[);/ ]|$)";
  "(?i)Telenor[ _]([^;/]+)(?: Build|[;)])";
  "(?i)Infinity[ _](E[2-5]|K2?|A2)";
  "(?i)Telit_Mobile_Terminals-([a-z0-9]+)";
  "(?i)Telit[\-_]?([a-z0-9]+)";
  "(?i)(TVB-100)(?:[);/ ]|$)";
  "(?i)Telma|(?:F1x4G|Feel_Plus)(?:[);/ ]|$)";
  "(?i)TELMA F1\+4G";
  "(?i)TELMA[_ ]FEEL";
  "(?i)Telma[_ ](F2|Titan[_ ]4G|EGO)";
  "(?i)Telma_Wi-Kif\+3G_3G";
  "(?i)Telma_Wi-Kif\+4G_4G";
  "(?i)TELO[_ ](?:TE6|M5|TE580_CO)(?:[);/ ]|$)";
  "(?i)TELO[_ ](TE6|TE580_CO)(?:[);/ ]|$)";
  "(?i)TPS3[29]0";
  "(?i)TPS(3[29]0)";
  "(?i)TG ?(15|30)(?:[);/ ]|$)";
  "(?i)Teracube (2e|One)(?:[);/ ]|$)";
  "(?i)TERRA[ _]PAD[ _](\d+)(_V2)?(?:[);/ ]|$)";
  "(?i)Hudl (?:[^/;]+)(?: Build|[;)])|W032i-C3(?:[);/ ]|$)";
  "(?i)Hudl ([^/;]+)(?: Build|[;)])";
  "(?i)W032i-C3(?:[);/ ]|$)";
  "(?i)CASEBOOK_3(?:[);/ ]|$)";
  "(?i)ThL[ _-]|(?:Knight 2|THL5000|T200)(?:[);/ ]|$)";
  "(?i)THL ?(5000)";
  "(?i)(T200)(?:[);/ ]|$)";
  "(?i)Box 1 Pro(?:[);/ ]|$)";
  "(?i)Box 1(?:[);/ ]|$)";
  "(?i)ThL[ _-]*([^;/)]+)(?: Build|[;)])";
  "(?i)ThL[ _-]*([^ ;/)]+)(?:[);/ ]|$)";
  "(?i)(?:Primo(7|8)|QM73[45]-8G|QM734-2|QM736-8G\(HD\)|8950|MID1002|5014G|TEO(?:13P|10[SM]|8M|7RK|X10[23]|104G)|Friendly_TH101|Delight TH201|TEOX10-MT8SL128LTE|HERO10RK|SPTEO10BK16|T43FSM5160|Origin_679(?:_Pro)?)(?:[);/ ]|$)|(?:Tlink|Every)[0-9]+|THOMSON[, ]";
  "(?i)Primo(7|8)";
  "(?i)QM736-8G\(HD\)";
  "(?i)8950(?:[);/ ]|$)";
  "(?i)TEO(13P|10[SM]|7RK|104G|X10[23]|8M)(?:[);/ ]|$)";
  "(?i)(5014G|T510H)(?:[);/ ]|$)";
  "(?i)Tlink([0-9]+)";
  "(?i)Origin[_ ]679[_ ]Pro";
  "(?i)Origin[_ ]679";
  "(?i)Every([0-9]+)";
  "(?i)THOMSON[ _]SEREA500";
  "(?i)(T43FSM5160)";
  "(?i)THOMSON,([a-z0-9_ -]+)(?:\*[0-9])?,(?:wired|wireless)";
  "(?i)Thuraya[ _](X5-Touch)(?:[);/ ]|$)";
  "(?i)TiPhone ?([a-z0-9]+)";
  "(?i)TIVO[ ,-]";
  "(?i)(?:TiVo|VirginMedia), (?:OnDemand_)?([a-z0-9]+), (?:wired|wireless)";
  "(?i)TiVo-([a-z0-9]+)-([a-z0-9]+)";
  "(?i)Tibuta[_ ]|TAB_868_PRO(?:[);/ ]|$)";
  "(?i)Tibuta[_ ]MasterPad-(E100)";
  "(?i)TAB_(868)_PRO";
  "(?i)TIS001[_-]|TIS_?001";
  "(?i)TIS001[_-]S([34])(?:[);/ ]|$)";
  "(?i)TIS001[_-]T2(?:[);/ ]|$)";
  "(?i)TIS_?001([ABC])?";
  "(?i)(TC1050G)(?:[);/ ]|$)";
  "(?i)Tmovi[ _]|(?:Infinit[ _](?:Lite[_ ]2|X[_ ]CAM)|Infinit (?:MX(?: Pro)?|2)|Vision_PRO|VISION ULTRA|Epix|Yeah_Go|Insignia Delta 2|Insignia_(?:Delta3|Lab))(?:[);/ ]|$)";
  "(?i)Tmovi[ _]Prime";
  "(?i)Infinit[_ ]X[_ ]CAM";
  "(?i)Infinit[_ ]Lite([_ ]2)?";
  "(?i)Insignia_(Lab)";
  "(?i)Insignia[ _]Delta[ _]?([32])";
  "(?i)Tinai (K[12])(?:[);/ ]|$)";
  "(?i)TiNMO[- _](A11|K3)(?:[);/ ]|$)";
  "(?i)(MiTraveler 958)";
  "(?i)Tolino Tab ([^/);]+)(?: Build|[);])";
  "(?i)TONE[ _-](e19|m1[57]|e2[01])(?:[);/ ]|$)";
  "(?i)TOOKY (A19|W1|T8[368]|T1982)(?:[);/ ]|$)";
  "(?i)TOOKY A9PLUS(?:[);/ ]|$)";
  "(?i)Coto[_ ]|X1013";
  "(?i)TopDevice|TDTV\d{2}[BC][SQ]\d{2}[FHU]|TDT45(?:18|41)_4G|TDT3778_Wi_E|TDT3887_Wi_D|TDT4528_4G_E";
  "(?i)(?:TopDevice_)?(TDTV\d{2}[BC][SQ]\d{2}[FHU])";
  "(?i)KIDS(09|708)";
  "(?i)Toplux ([a-z0-9]+)";
  "(?i)TOPSION|TP01_box(?:[);/ ]|$)";
  "(?i)(?:TOREX[- _](?:PS12|S18|S27|PAD 8 ?PRO|PAD818)|PAD831B|TOREX831B)(?:[);/ ]|$)";
  "(?i)TOREX-(PS12)";
  "(?i)(?:TOREX[_ ])?PAD(831B|818)";
  "(?i)TOREX PAD 8 ?PRO";
  "(?i)TOREX[- ](S18|S27)";
  "(?i)(?:EGO[ _](?:Max[ _]S|Surf[_ ][iS]|Phab 3G|Note 4G)|DROIDZ (?:Drive\+|ATOM [SX]|Portal(?: X)?|Swivel|Smart|Trend|Force|Span|Play|Blast|Sport|Excel|Motion|Sky 3g|Rotate|Duo(?: Slim)?|Dash(?: X)?|Quad|Match TV|Beat TV|Avatar TV|Easy|Push i|Edge\+))(?:[);/ ]|$)";
  "(?i)DROIDZ (Duo(?: Slim)?|Dash(?: X)?|Push i|Edge\+|Drive\+|Portal(?: X)?)";
  "(?i)DROIDZ (Swivel|Trend|Force|Span|Smart|Atom X|Blast|Sport|Quad|Beat TV|Avatar TV|Match TV|Easy|Excel|Play|Rotate|Motion)";
  "(?i)EGO[ _](Max[ _]S|Surf[_ ][iS])"
].
Definition d_dr_re1_17 : list blob := [
  "(?i)Toshiba|TSBNetTV/|portalmmm/[12]\.0 TS|(?:T-01C|T-0[12]D|IS04|IS11T|AT1S0|AT300SE|AFT6E0FA|AFTBOXE1|AFTDCT31|AFTHA00[2-4]|AT(?:7-C|10-A|10[PL]E-A|100|200|270|300|330|374|400|470|500a?|503|570|703|830)|AFTKMST12|AFTBAMR311|SATELLITE (?:C655|L50-C|Pro L300|A100))(?:[);/ ]|$)";
  "(?i)AT(100|200|270|300|330|374|400|470|500|503|570|703|830)";
  "(?i)AT10([PL])E-A";
  "(?i)SATELLITE (C655|Pro L300|A100)";
  "(?i)AFT6E0FA(?:[);/ ]|$)";
  "(?i)AFTBOXE1(?:[);/ ]|$)";
  "(?i)AFTHA002(?:[);/ ]|$)";
  "(?i)AFTHA003(?:[);/ ]|$)";
  "(?i)AFTHA004(?:[);/ ]|$)";
  "(?i)TOSHIBA;SmartTV;([a-z0-9_ -]+);";
  "(?i)TOSHIBA, ([a-z0-9_ -]+), (?:wired|wireless)";
  "(?i)Toshiba[ /_\-]?([a-z0-9_ -]+) Build";
  "(?i)Toshiba[ /_\-]?([a-z0-9_-]+)";
  "(?i)portalmmm/[12]\.0 (TS[a-z0-9 ]+)";
  "(?i) (770[NG]|1100AS)(?:[);/ ]|$)";
  "(?i)TOUCHMATE|(TM-(?:MID870SB|MID1050WKD|MID1020A|MID794C|MID795|MID710|MID798|MID792|MID788D|SM500N|SM410|MID1010|MID1065))";
  "(?i)(TM-(?:MID1020A|MID794C|MID795|MID710|MID798|MID792|MID788D|MID10[14]0|MID1065))";
  "(?i)(TM-(?:SM500N|SM410))";
  "(?i)Touchmate ([^/;]+) Build";
  "(?i)Transpeed[_ ]|(?:TR99 MINI\+|TR99|8K618-T)(?:[);/ ]|$)";
  "(?i)TR99 MINI\+";
  "(?i)(?:Transpeed[_ ])?(TR99|H616|6K|X4S?|8K618-T)(?:[);/ ]|$)";
  "(?i)17_Pro_Max(?:[);/ ]|$)";
  "(?i)(?:TrekStor|Surftab) ([^/;]+)(?: Build|\))|Surftab[^;\)]*(?:[;\)]|$)|ST10216-2A|ST13416-1|VT10416-[12]|TFQCOAL01232|TFMTKAW01232|Xintroni10\.1";
  "(?i)ST10216-2A|VT10416-[12]";
  "(?i)TrekStor ([^/;]+) Build";
  "(?i)Surftab ([^/;]+) Build";
  "(?i)Surftab[ _]([^;\)]*)(?:[;\)]|$)";
  "(?i)(TFQCOAL01232)";
  "(?i)Xintroni10\.1";
  "(?i)Trevi[ _]|TAB[ _]10[ _]3G[ _]V16|TAB[ _](7|8)[ _]3G[ _]V8|TAB9 3G|MINITAB 3GV|Phablet[ _](?:4|4\.5|5|5\,3|6)[ _]?[CSQ]|REVERSE[ _]5\.5[ _]?Q";
  "(?i)TAB[ _]?(7|8)[ _]3G[ _]V8";
  "(?i)TAB[ _]?9[ _]3G[ _]V8";
  "(?i)TAB[ _]?9[ _]3G";
  "(?i)TAB[ _]10[ _]3G[ _]V16";
  "(?i)(?:Trevi_)?Phablet[ _]4[ _]?C";
  "(?i)(?:Trevi_)?Phablet[ _]4[ _]?S";
  "(?i)(?:Trevi_)?Phablet[ _]4\.5[ _]?Q";
  "(?i)(?:Trevi_)?PHABLET[ _]5[ _]?S";
  "(?i)(?:Trevi_)?PHABLET[ _]5,3[ _]?Q";
  "(?i)(?:Trevi_)?REVERSE[ _]5\.5[ _]?Q";
  "(?i)(?:Trevi_)?PHABLET[ _]6[ _]?S";
  "(?i)Trevi[_]([^;/]+) Build";
  "(?i)TriaPlayBox(?:[);/ ]|$)";
  "(?i)(K43UH90[12]|K32HH902|H32H500[01]SA)(?:[);/ ]|$)";
  "(?i)(A23 Max|A75 Pro Max)(?:[);/ ]|$)";
  "(?i)Passion[-_](?:1S|PRO|PLUS)(?:[);/ ]|$)";
  "(?i)MobileMapper60(?:_2)?(?:[);/ ]|$)";
  "(?i)Trio V51 DT(?:[);/ ]|$)";
  "(?i)(Orion R68G|Draco AW80|Draco H3|Vega S95_(?:Meta|Pro|Telos))(?:[);/ ]|$)";
  "(?i)TRUE BEYOND TAB 3G|HPH07|SMART[ _](4G Adventure(?: Pro)?|MAX 4\.0 PLUS|4G[ _](?:MAX 5\.5|GEN C [45]\.[05]|M1 Plus|Champion|Speedy 5\.0 Plus|Speedy[_ ]5inch|P1))|Alpha 5G|SMART Champ 4\.0|TRUE SMART 7\.0 Quadcore|SMART 4G M1|SMART TAB 4G (?:e-Biz|M1)";
  "(?i)Alpha 5G(?:[);/ ]|$)";
  "(?i)SMART MAX 4\.0 PLUS";
  "(?i)SMART Champ 4\.0";
  "(?i)SMART 4G Gen C ([45]\.[05])";
  "(?i)SMART 4G Speedy 5\.0 Plus";
  "(?i)SMART 4G MAX 5\.5";
  "(?i)SMART[ _]4G[_ ]Speedy[_ ]5inch";
  "(?i)SMART[ _]4G[_ ]Champion";
  "(?i)SMART[ _]4G[_ ]P1 Prime";
  "(?i)SMART[ _]4G[_ ]P1";
  "(?i)SMART[ _]4G M1 Plus";
  "(?i)TRUE SMART 7\.0 Quadcore";
  "(?i)(SSB-508[ED])(?:[);/ ]|$)";
  "(?i)(TL554B|TC504B)(?:[);/ ]|$)";
  "(?i)StarTrail TT(?:[);/ ]|$)";
  "(?i)(?:Turbo[_ ]?(?:X5[_ ]?(?:Max|Black|Space|Hero)|X8|X6[ _]Z|X[ _]Ray)|Monsterpad7)(?:[);/ ]|$)";
  "(?i)TurboX5Space(?:[);/ ]|$)";
  "(?i)TurboX5Hero(?:[);/ ]|$)";
  "(?i)TurboX[ _]Ray(?:[);/ ]|$)";
  "(?i)Turbo[ _]?X5[ _]?Black(?:[);/ ]|$)";
  "(?i)Turbo[ _]X5[ _]Max(?:[);/ ]|$)";
  "(?i)Turbo[ _]X6[ _]Z(?:[);/ ]|$)";
  "(?i)Turbo[ _]X8(?:[);/ ]|$)";
  "(?i)Monsterpad7(?:[);/ ]|$)";
  "(?i)Turbo[-_]X|(?:TURBOX_I4G|Hive V 3G|Calltab10\.1|Calltab2GB10|Calltab7inch|Turbox_S3|Fire_II_WiFi|Breeze IV|Aqua_II|RainbowIII3G|RubikII7|Rubik 10\.1 II|Rubik_10_III|QUAD-CORE A33 inet)(?:[);/ ]|$)|Mercury|(?:android 8([\d.]*);(?: [\w-]+;)? Dream)(?:[);/ ]|$)";
  "(?i)Turbo-X_A2(?:[);/ ]|$)";
  "(?i)Turbo-X_e3(?:[);/ ]|$)";
  "(?i)Mercury";
  "(?i)Turbo-X_pi_4G|Turbo_X_Pi 1 4G";
  "(?i)Turbo-X Ice(?:[);/ ]|$)";
  "(?i)Aqua_II(?:[);/ ]|$)";
  "(?i)Hive V 3G(?:[);/ ]|$)";
  "(?i)Fire_II_WiFi(?:[);/ ]|$)";
  "(?i)Breeze IV(?:[);/ ]|$)";
  "(?i)RubikII7(?:[);/ ]|$)";
  "(?i)Rubik 10\.1 II(?:[);/ ]|$)";
  "(?i)Rubik_10_III(?:[);/ ]|$)";
  "(?i)RainbowIII3G(?:[);/ ]|$)";
  "(?i)Calltab10\.1";
  "(?i)TURBO-X, ([a-z0-9_ -]+), (?:wired|wireless)";
  "(?i)Turbo-X Tablet([^;/)]+)(?: Build|[;)])";
  "(?i)Turbo-X ([^;)/]+)(?: Build|[;)])";
  "(?i)(?:Turbokids[-_ ]?(TMNT|3G|S4|Princess|3GNEW)|Monsterpad 3G| TMNT)(?:[);/ ]|$)";
  "(?i)Turbokids[-_ ]?3GNEW";
  "(?i)TMNT(?:[);/ ]|$)";
  "(?i)Turbokids[-_ ]?(TMNT|3G|S4|Princess)";
  "(?i)Turbopad[-_ ]?(72[34]|80[23]|912|101[456]|Pro)(?:NEW)?(?:[);/ ]|$)";
  "(?i)TURKCELL[_ ]";
  "(?i)Turbo T50(?:[);/ ]|$)";
  "(?i)T([124-8])0(?:[);/ ]|$)";
  "(?i)Maxi Plus 5(?:[);/ ]|$)";
  "(?i)MaxiPRO5(?:[);/ ]|$)";
  "(?i)Turkcell_T_Tablet(?:[);/ ]|$)";
  "(?i)(STV-32DHBK2R-T9|STV-32FDFBK1R|STV-65DUBK1R|STV-43FDUBK1R|TQ55UFBTV1|TD86UFBTV1|TQ50UFBCV1|TD32HF[GW]EV1|TD43FFGTV1|TD50UFGEV1|TD55UFBHV1|TD55UFGEV1|TQ65UFBCV1|TD(?:[67]5|43)UFGCV1|TD43[UF]FBHV1|TD50UF[BG]HV1|TD65UFBSV1|TD55UFGHV1|TQ65UFBHV1|TD43UFBSV1|TD32HFBHV1|TD24HFBHV1|TD43FFBSV1)(?:[);/ ]|$)";
  "(?i)TwinTAB|(?:MQ703G)(?:_1)?(?:[);/ ]|$)";
  "(?i)(MQ703G)(?:_1)?";
  "(?i)TwinTAB-(T103GQ1)";
  "(?i)Tymes[ _](V5)(?:[);/ ]|$)";
  "(?i)TT175(?:[);/ ]|$)";
  "(?i)(KF-1500)(?:[);/ ]|$)";
  "(?i)(?:Liantong)?(?:VP00[1235])(?:[);/ ]|$)";
  "(?i)(?:Liantong)?VP001";
  "(?i)(?:Liantong)?VP002";
  "(?i)(?:Liantong)?VP003";
  "(?i)(?:Liantong)?VP005";
  "(?i)(USCC-[a-z0-9_-]+)";
  "(?i)TV3[45]8_?(?:DVB|ISDB)(?:[);/ ]|$)";
  "(?i)TV348_DVB(?:[);/ ]|$)";
  "(?i)TV348_ISDB(?:[);/ ]|$)";
  "(?i)TV358DVB(?:[);/ ]|$)";
  "(?i)UGINE(?:[);/ ]|$)";
  "(?i)UGINE;SmartTV;([a-z0-9_ -]+)V[ST];";
  "(?i)UMI(?:DIGI)?[ _]|(?:A[5]_Pro|.+; A[79] Pro|S3_Pro|ROME[_ ]X|BISON|hammer_S|S2 LITE|London|Z2_PRO|C NOTE 2|A11 Pro Max|Power 3|Android 10(?:[\d.]*);(?: [\w-]+;)? (?:A3[SX]|A7S)|RP0[1234]|MT0[167]|MT1[016]|MP0[1-9]|MP1[3789]|MP2[0134-79]|MP34|Plus E|S2_PRO|RP05|One Pro|Diamond_X|TG3DBG1MA|Android [67](?:[\d.]*);(?: [\w-]+;)? Z Pro|Android 8(?:[\d.]*);(?: [\w-]+;)? A1_PRO|RP08|MP3[38]|PR4JBX20A|PG2309GBA|PA2310GBB)(?:[;/) ]|$)";
  "(?i)TG3DBG1MA|MT10";
  "(?i)(A[13579]|Z2|S3)[_ ]Pro";
  "(?i)MP01(?:[;/) ]|$)";
  "(?i)MP05(?:[;/) ]|$)";
  "(?i)MP33(?:[;/) ]|$)";
  "(?i)MP34(?:[;/) ]|$)";
  "(?i)RP08(?:[;/) ]|$)";
  "(?i)MP27(?:[;/) ]|$)";
  "(?i)MP38(?:[;/) ]|$)";
  "(?i)MP24(?:[;/) ]|$)";
  "(?i)MP26(?:[;/) ]|$)";
  "(?i)MP25(?:[;/) ]|$)";
  "(?i)ROME[_ ]X";
  "(?i)RP05(?:[;/) ]|$)";
  "(?i)RP01(?:[;/) ]|$)";
  "(?i)RP02(?:[;/) ]|$)";
  "(?i)RP03(?:[;/) ]|$)";
  "(?i)RP04(?:[;/) ]|$)";
  "(?i)UMI[_ ]SUPER";
  "(?i)UMI[_ ]ZERO";
  "(?i)MP02(?:[;/) ]|$)";
  "(?i)MP08(?:[;/) ]|$)";
  "(?i)MP03(?:[;/) ]|$)";
  "(?i)MP04(?:[;/) ]|$)";
  "(?i)MP06(?:[;/) ]|$)";
  "(?i)(A3[SX]|A7S)(?:[;/) ]|$)";
  "(?i)(?:UMI_)?(London|Diamond(?:_X)?)";
  "(?i)UMI(?:DIGI)?[ _]([^/;)]+)(?: Build|[;)])";
  "(?i)UNIWA[ _]|(?:W888)(?:[);/ ]|$)";
  "(?i)UNIWA[ _](X5|F40)";
  "(?i)(W888)";
  "(?i)UNNO[_ ]";
  "(?i)UNNO[_ ]([^/;)]+)(?: Build|[);])";
  "(?i)UOOGOU[_ ]([^/;)]+)(?: Build|[);])";
  "(?i)UTOK (45[01]D)|(?:Dorel \d|Dorel 3S|Hello 7Q)(?:[);/ ]|$)";
  "(?i)UTOK (45[01]D)";
  "(?i)Dorel (\d)";
  "(?i)utstar[ _-]?([a-z0-9]+)";
  "(?i)UTIME[ _](U6|G7|U100|[TX]1|FX)(?:[);/ ]|$)";
  "(?i)Uzbekistan(?:[);/ ]|$)";
  "(?i)UGOOS[-_ ]|(?:Android 11(?:[\d.]*);(?: [\w-]+;)? UT8|TOX[34](?:_Plus)?)(?:[);/ ]|$)";
  "(?i)UGOOS-UT3 ?Plus";
  "(?i)(UT8|TOX[34])(?:[);/ ]|$)";
  "(?i)UGOOS[- _](\w{2}\d+\w?)(?:[);/ ]|$)";
  "(?i)(A101S)(?:[);/ ]|$)";
  "(?i)Uhappy|UP?580|UP350|UP[35679]20";
  "(?i)UP([35679]20)";
  "(?i)Uhappy[ _-]([^;/]+) Build";
  "(?i)Uhappy[ _-]?([^;/)]+)(?:[);/ ]|$)";
  "(?i)Ulefone|Gemini Pro|Power[ _]Armor14|Power 3S|Power_[356]|Power_5S|S(?:10|9)_Pro|(?:Note [89]P|Note 1[23]P|Armor(?:[ _](?:[2367]|2S|X[236]|6[SE]|3WT|3W|X))?|U00[78][ _]Pro|Be[ _]X|Be[ _]Touch(?:[ _][23])?|Be[ _](?:One|Pure|Pro)(?:[ _]Lite)?|Note 14|Note (?:11P|7T)|Note 16 Pro|Tiger_lite|Note_7P|Note 10P|Paris_(?:Lite|X)|Paris|P6000_Plus|Vienna|RugKing|GQ3060TF3|Android 11(?:[\d.]*);(?: [\w-]+;)? Note 6P?|Tab A11 Pro)(?:[);/ ]|$)";
  "(?i)S(10|9)_Pro";
  "(?i)Be[ _]Touch([ _][23])?";
  "(?i)Be[ _]Pure[ _]Lite";
  "(?i)Be[ _]Pure";
  "(?i)Be[ _]One[ _]Lite";
  "(?i)Be[ _]One";
  "(?i)Be[ _]X";
  "(?i)Be[ _]Pro";
  "(?i)U(00[78]) Pro";
  "(?i)Power[ _]Armor[ _]?(\d+)[ _]Pro";
  "(?i)Power Armor (\d+|19T|X11|18T|16S)(?:[);/ ]|$)";
  "(?i)Armor[ _]6S(?:[);/ ]|$)";
  "(?i)GQ3060TF3(?:[);/ ]|$)";
  "(?i)Armor[ _]([679])E(?:[);/ ]|$)";
  "(?i)Armor[ _]X(\d+) Pro(?:[);/ ]|$)";
  "(?i)Armor[ _]X(\d+)(?:[);/ ]|$)";
  "(?i)Armor[ _]([25])S(?:[);/ ]|$)";
  "(?i)Armor[ _]X(?:[);/ ]|$)";
  "(?i)Armor[ _]3W(?:[);/ ]|$)";
  "(?i)Armor[ _]3WT(?:[);/ ]|$)";
  "(?i)Armor[ _](1\d|11T) 5G(?:[);/ ]|$)";
  "(?i)Armor[ _](8) Pro(?:[);/ ]|$)";
  "(?i)Armor[ _]([236789])(?:[);/ ]|$)";
  "(?i)Armor Pad([^;/)]*)(?: Build|[);])";
  "(?i)Armor([^;/)]*)(?: Build|[);])";
  "(?i)Gemini Pro(?:[);/ ]|$)"
].
Definition d_dr_re1_18 : list blob := [
  "(?i)Power[_ ]([356][SL]?)";
  "(?i)Note[ _]([78]P|7T|6|14)(?:[);/ ]|$)";
  "(?i)Note[ _](16) Pro(?:[);/ ]|$)";
  "(?i)Note ([69]|1[123]|10)P(?:[);/ ]|$)";
  "(?i)Ulefone[_ ]Tab[_ ]([^;/)]+)(?: Build|[);])";
  "(?i)Ulefone[_ ](X|S1[ _]Pro|S[17])(?:[);/ ]|$)";
  "(?i)Ulefone[ _-]?([^;/]+) Build";
  "(?i)Ulefone[ _-]?([^;/)]+)(?:[;/)]|$)";
  "(?i)VisionBook[ _]|([78]Qa_3G|7A_3G|VB_10Q_Plus|10A_LTE_eea|(?:8|10)C_LTE|10L-PLUS)(?:[);/ ]|$)";
  "(?i)(VisionBook[ _](?:10Qi|7Q[i]?|8Q[ei]?|P70|8Qi_3G)(?:[ _](?:[34]G|Plus|LTE))?)(?:[);/ ]|$)";
  "(?i)(7A(?:[ _](?:[34]G)))(?:[);/ ]|$)";
  "(?i)([78])Qa_3G(?:[);/ ]|$)";
  "(?i)VisionBook_10Q_LTE(?:[);/ ]|$)";
  "(?i)(8|10)C_LTE(?:[);/ ]|$)";
  "(?i)VisionBook_10Q_Pro(?:[);/ ]|$)";
  "(?i)10A_LTE_eea(?:[);/ ]|$)";
  "(?i)VB_10Q_Plus(?:[);/ ]|$)";
  "(?i)VisionBook_P50Plus_LTE(?:[);/ ]|$)";
  "(?i)(VisionBook[ _](?:P50 LTE|P55 X2 LTE|P55 LTE(?: Pro)?))(?:[);/ ]|$)";
  "(?i)P60_Ultra_5G(?:[);/ ]|$)";
  "(?i)(?:S900PROBT|S900_Pro)(?:[);/ ]|$)";
  "(?i)Uniden[ _](C505|Prime 500)(?:[);/ ]|$)";
  "(?i)(Titan(_pocket)?|Jelly(?:-Pro| Star| Max|2(?:_JP)?| 2E)|Atom_X?L|Ticktock(?:-S)?|UNIA62_S01|Titan Slim|TANK 01|TANK 2 PRO|TANK2|TANK 3|TANK MINI 1|OB-(?:P10|P08|A98))(?:[);/ ]|$)";
  "(?i)(Jelly)-Pro(?:[);/ ]|$)";
  "(?i)Jelly2(?:_JP)?(?:[);/ ]|$)";
  "(?i)(Titan|Atom_X?L)(?:[);/ ]|$)";
  "(?i)TANK ?([23])";
  "(?i)OB-(P10|P08)";
  "(?i)BASE[_ ](Varia)";
  "(?i)U((?:67[013]|680)C|(?:452|504)TL|683CL|69[36]CL)(?:[);/ ]|$)";
  "(?i)UNIQCELL_|(?:[AQ]5\.8|UNI (?:10X|GO))(?:[;/) ]|$)";
  "(?i)UNIQCELL_A4(?:[;/) ]|$)";
  "(?i)(Space A5\.8|Q5\.8|UNI (?:10X|GO))(?:[;/) ]|$)";
  "(?i)Uniscope[ _-]?([^/;]+) Build";
  "(?i)Uniscope[ _-]?([^);/ ]+)";
  "(?i)(UT10)(?:[;/) ]|$)";
  "(?i)EA(?:500Plus|520|602|630)(?:_US)?(?:[);/ ]|$)";
  "(?i)EA500Plus(?:[);/ ]|$)";
  "(?i)(EA(?:520|602|630))(?:_US)?(?:[);/ ]|$)";
  "(?i)(?:SDOTT0202|SDSTB02)(?:[;/) ]|$)";
  "(?i)Plasma Mobile|WebTV/(\d+\.\d+)|PC; OpenHarmony|TV Bro| BOX|BOX | BOX |roku|YouView|DirectFB|avdn/|wired|wireless|AndroidTV|cordova-amazon-fireos|wv-atv|SDSTB|SDOTT|(?:M10 Ultra|FO-R15|TVBOX|Smart[ _-]?TV|SmartATV|M8S\+ 4K|PCBox|rk(?:3128|322x|3368)(?:[_-]box)?|H10 PLAY|Smart AIO TV|TVBOX_L|L-BOX|TVBOX-5G|mips.+(?:Opera TV|wireless|wired)|smartbox|TV BOX|BOX TV|I12Pro Max|(?:audi_)?ks1280x480|AT&T TV|RealtekATV|AOSP on r33a0|tv001 on rtd289x|hx322x_box|X98_S500|8K3528-T|MX10|V88|H8S|X92|AI PONT|tv\.plus|WayDroid x86_64 Device|MediaBox|Cloud Phone|HK1RBOX-X4)(?:[);/ ]|$)";
  "(?i)LGE; ([a-z0-9-]+);";
  "(?i)WebTV/(\d+\.\d+)";
  "(?i)M10 Ultra(?:[);/ ]|$)";
  "(?i)(FO-R15|X98_S500|8K3528-T|MX10|V88|H8S|X92|AI PONT)(?:[);/ ]|$)";
  "(?i)BOX|BOX | BOX |roku|YouView|DirectFB|avdn/|wired|wireless|AndroidTV|cordova-amazon-fireos|wv-atv|SDSTB|SDOTT|(Smart[ _-]?TV|SmartATV|PCBox|hx322x_box|rk(?:3128|322x|3368)(?:[_-]box)?|TVBOX|Smart AIO TV|TVBOX_L|L-BOX|TVBOX-5G|AT&T TV|RealtekATV|TV Bro|AOSP on r33a0|tv001 on rtd289x|tv.plus|MediaBox|HK1RBOX-X4)(?:[);/ ]|$)";
  "(?i)M8S\+ 4K(?:[);/ ]|$)";
  "(?i)H10 PLAY(?:[);/ ]|$)";
  "(?i)(?:Opera TV|wireless|wired|smartbox|TV BOX|BOX TV)(?:[);/ ]|$)";
  "(?i)I12Pro Max(?:[);/ ]|$)";
  "(?i)(?:audi_)?ks1280x480";
  "(?i)PC; OpenHarmony";
  "(?i)Unnecto|(?:U513|U5151|U61[1356]|U7[12]0|U-830|U90[35])(?:[);/ ]|$)";
  "(?i)UNSP7(?:[);/ ]|$)";
  "(?i)UNSP7(?:[);/ ]|$)";
  "(?i)(?:Premier5Max|Premier5|Premier Pro)(?:[);/ ]|$)";
  "(?i)Unonu[ _-]|(?:U4001|UT3G)(?:[);/ ]|$)";
  "(?i)(U4001|UT3G)(?:[);/ ]|$)";
  "(?i)Unonu[ _-]([^;/]+) Build";
  "(?i)Unonu[ _-]?([^;/)]+)(?:[);/ ]|$)";
  "(?i)(?:QOOQ|QOOQ-V[1-5]0?)(?:[);/ ]|$)";
  "(?i)QOOQ-V([1-5])0?";
  "(?i)(?:DT[245]0|i6200[AS])(?:[);/ ]|$)";
  "(?i)(DT[245]0|i6200[AS])";
  "(?i)(Albatros C2)(?:[);/ ]|$)";
  "(?i)(?:V-HOME_)?(32LH1210|43LF1210|(?:5[05]|65|43)LU1210|24LH1211|24LH1203)(?:[);/ ]|$)";
  "(?i)V[- ]hope[_ ]([^/;)]+)(?: Build|[);])";
  "(?i)(BUV7TBLT10A)(?:[);/ ]|$)";
  "(?i)(?:VPA051|VA-10J)(?:[);/ ]|$)";
  "(?i)(VA-10J)";
  "(?i)(?:V12E-LTE-8128|V10E-LTE-464)(?:[);/ ]|$)";
  "(?i)V(1[02])E-LTE";
  "(?i)VANWIN[ -_]?(V62)(?:[);/ ]|$)";
  "(?i)(L10-T11|L10_T08)(?:[_-]EEA)?(?:[);/ ]|$)";
  "(?i)(L10)[_-](T11|T08)";
  "(?i)VAVA[ _](X3)(?:[);/ ]|$)";
  "(?i)(?:Camellia_II|Cactus II|Maple III|Maple-II|Cactus-Pro|LavenderII|Jasmine-II)(?:[);/ ]|$)";
  "(?i)(Camellia_II|Cactus II|Maple III)(?:[);/ ]|$)";
  "(?i)(Maple|Jasmine|Lavender)-?II(?:[);/ ]|$)";
  "(?i)VDVD[_ ](P20|IX21)(?:[);/ ]|$)";
  "(?i)VEON[_ ]|(?:VEON[_ ](?:C8680)|VN50WOS2021)(?:[);/ ]|$)";
  "(?i)VEON[_ ](C8680)(?:[);/ ]|$)";
  "(?i)VEON 4K Smart TV(?:[);/ ]|$)";
  "(?i)(VN50WOS2021)";
  "(?i)VETAS[_ ]([^/;)]+)(?: Build|[);])";
  "(?i)VGOTEL|(?:Flex 2|Venture V(?:[278]|12)|VentureV10|Ocean[_ ][689]|Ocean9L|NEW (?:1[01256]|2[02456]|[57])|V TAB 2|i_Smart)(?:[);/ ]|$)";
  "(?i)Venture ?V([278]|1[02])(?:[);/ ]|$)";
  "(?i)Ocean[_ ]?([689]|9L)(?:[);/ ]|$)";
  "(?i)NEW (\d+)";
  "(?i)VIDA[-_ ](?:i-?(401|512|450)|V401)(?:[);/ ]|$)";
  "(?i)VIDA[-_ ](?:i-?(\d+))";
  "(?i)VIDA[-_ ](V401)";
  "(?i)(?:vi20220819)(?:[);/ ]|$)";
  "(?i)(?:V-Z[45]0|V-Z80Plus)(?:[);/ ]|$)";
  "(?i)(V-Z80)Plus";
  "(?i)(V-Z[45]0)(?:[);/ ]|$)";
  "(?i)VILLAON[_ ]";
  "(?i)VILLAON[_ ]([^;/)]+)(?: Build|[);])";
  "(?i)A631LO(?:[);/ ]|$)";
  "(?i)P662LO(?:[);/ ]|$)";
  "(?i)S661LS(?:[);/ ]|$)";
  "(?i)(F30UP)(?:[);/ ]|$)";
  "(?i)VIVIMAGE[ _]([^/;)]+)(?:_EEA)?(?: Build|[);])";
  "(?i)(?:LIGHT MINI|VIWA A5\+|LIGHT PLUS|LIGHT ONE|POWER P1)(?:[);/ ]|$)";
  "(?i)VIWA A5\+";
  "(?i)VK-VK([79]00)(?:[);/ ]|$)";
  "(?i)(?:(?:VK700)-MAX|VK700 Pro|T5SE|VK700[0X]|vk6050|vk6735|vk700)(?:[);/ ]|$)";
  "(?i)(VK700)-MAX(?:[);/ ]|$)";
  "(?i)(VK700) Pro(?:[);/ ]|$)";
  "(?i)T5SE(?:[);/ ]|$)";
  "(?i)VK(700[0X]|6050|6735|700)(?:[);/ ]|$)";
  "(?i)VNT_Tab8(?:[);/ ]|$)";
  "(?i)VOCAL[ _](V[01]|V11|V2 Lite|V0Core)(?:[);/ ]|$)";
  "(?i)VOGA[ _]";
  "(?i)VOIX[_](U10)(?:[);/ ]|$)";
  "(?i)(VOL001)(?:[);/ ]|$)";
  "(?i)(VK-740-BL)(?:[);/ ]|$)";
  "(?i)VucaPad_(\w+)";
  "(?i)ZYVV1(?:[);/ ]|$)";
  "(?i)Vankyo[_ ]|(?:QTAB1010X|S10_ROW|S[23]0_EEA|Z[14]_EEA)(?:[);/ ]|$)";
  "(?i)Vankyo[_ ]S(10|[78])";
  "(?i)(S[23]0|Z[14])_EEA";
  "(?i)QTAB(1010X)";
  "(?i)Vargo[; _]|(?:V210101|Android 8(?:[\d.]*);(?: [\w-]+;)? VX4)(?:[);/ ]|$)";
  "(?i)(V210101|VX4)(?:[);/ ]|$)";
  "(?i)(?:M910A|M783K|M783K-16G|M1072R-3G|KingPad[_ ](?:[KM]10|SA10|SA8|Z10)(?:Pro)?)(?:_EEA)?(?:[);/ ]|$)";
  "(?i)KingPad[_ ]([KM]10|SA10|SA8|Z10)(Pro)?";
  "(?i)(M910A|M783K|M783K-16G|M1072R-3G)(?:[);/ ]|$)";
  "(?i)Vega (Q7128)(?:[);/ ]|$)";
  "(?i)VEIDOO_(T60)_PLUS(?:[);/ ]|$)";
  "(?i)(LD-24SR(?:4715|4815|4850)BS|LD-65SU8815BS|LD-32SR(?:4850|4815|511[25])BS|LD-32SF4850BS|LD-39SR4815BS|LD-50SU(?:8921|8815)BS|LD-55SU8815BS|LD-43SU8821BS|LD-43SF(?:4850|4815)BS(?:-T9)?)(?:[);/ ]|$)";
  "(?i)(?:CX-508|CX-551|Reiv 500|Creon F5|Isprit U50|Isprit-U50-LTE)(?:[);/ ]|$)";
  "(?i)Isprit U50|Isprit-U50-LTE";
  "(?i)(CX-508|CX-551|Reiv 500|Creon F5)";
  "(?i)(ACE10)(?:[);/ ]|$)";
  "(?i)(?:VCT([a-z0-9_-]+)|CT9A03W23|CT9A06P23)(?:[);/ ]|$)";
  "(?i)VCT9B06Q22(?:[);/ ]|$)";
  "(?i)(?:CT9A03W23|CT9A06P23)(?:[);/ ]|$)";
  "(?i)VCT([a-z0-9_-]+)";
  "(?i)(?:RP-UDM0[12]A|RP-UDP05A|JO-UQM10A|UQM1[23]A)(?:[);/ ]|$)";
  "(?i)(RP-UDM0[12]A|RP-UDP05A|JO-UQM10A)";
  "(?i)(UQM1[23]A)";
  "(?i)QTA(SUN[12]|XIA1|QZ3|QZ3KID|IR7)|QMV7[AB]|WTVIS01";
  "(?i)QTAXIA1|QTAIR7";
  "(?i)QMV7[AB]";
  "(?i)Vernee|(?:Mars Pro|Apollo[ _](?:Lite|X)|Thor (?:E|Plus)|X2_euro|M7_EEA|T3 Pro|V2 Pro|Apollo)(?:[);/ ]|$)";
  "(?i)Apollo[ _]Lite";
  "(?i)Apollo[ _]X";
  "(?i)(V2|T3) Pro";
  "(?i)Vernee[ _-]([^;/]+) Build";
  "(?i)Vernee[ _-]([a-z0-9_-]+)";
  "(?i)MotionE11(?:[);/ ]|$)";
  "(?i)(V-Pad Pop)(?:[);/ ]|$)";
  "(?i)Vertex[_ -]|(?:Luck|Luck_L1[02]0_[34]G|Lion_Dual|V709X|TAB X8|TAB X10|Tab [43]G (?:7-2|8-1|10-1)|Tab_3G_7-1|Pro_P3[01]0_4G|Lion_DC|Baccara|Eagle[ _]4G|ImpressMAX|Lion [1-3])(?:[);/ ]|$)|Impress[ _]([^;/]+)(?:Build|\))";
  "(?i)(?:Vertex_)?Luck[_ ]L[_ ](5045)[_ ]([34])G";
  "(?i)(Lion_Dual|Lion_DC|Baccara|Eagle[ _]4G|Luck[_ ]L1[023]0(?:[_ ][34]G)?|Luck)(?:[);/ ]|$)";
  "(?i)Impress ?MAX(?:[);/ ]|$)";
  "(?i)IMPRESS ECLIPSE(?:[);/ ]|$)";
  "(?i)Pro_P(3[01]0)_4G(?:[);/ ]|$)";
  "(?i)Impress_Luck[_ ]?4G_NFC(?:[);/ ]|$)";
  "(?i)Lion ([1-3])(?:[);/ ]|$)";
  "(?i)(Impress[ _][a-z]+)([34])G(?:Build|\))";
  "(?i)(Impress[ _](?:[^;/]+))(?:Build|\))";
  "(?i)(V709X)";
  "(?i)TAB X(8|10)(?:[);/ ]|$)";
  "(?i)Tab[ _]([43])G[ _]([78]|10)-([21])";
  "(?i)Vertu[ ]?([a-z0-9]+)|(?:ASTER(?: [PT])?|CONSTELLATION X|VTL-(?:202[123]01|202402))(?:[);/ ]|$)";
  "(?i)ASTER( [PT])?(?:[);/ ]|$)";
  "(?i)CONSTELLATION X(?:[);/ ]|$)";
  "(?i)Vertu[ ]?([a-z0-9]+)";
  "(?i)verykool[ _]?SL5009";
  "(?i)verykool[ _]?S5001";
  "(?i)verykool[ _]?S5004";
  "(?i)verykool[ _]?S5007";
  "(?i)verykool[ _]?s5015";
  "(?i)verykool[ _]?SL5011";
  "(?i)verykool[ _]?s5019";
  "(?i)verykool[ _]?S5005";
  "(?i)verykool[ _]?SL5560";
  "(?i)verykool[ _]?SL5200";
  "(?i)verykool[ _]?SL5050";
  "(?i)verykool[ _]?S5030";
  "(?i)verykool[ _]?s5527";
  "(?i)verykool[ _]?s5526";
  "(?i)verykool[ _]?S5530";
  "(?i)verykool[ _]?S5525";
  "(?i)verykool[ _]?S5524";
  "(?i)verykool[ _]?s5516";
  "(?i)verykool[ _]?SL5550";
  "(?i)verykool[ _]?s5035";
  "(?i)verykool[ _]?s5034";
  "(?i)verykool[ _]?s5037";
  "(?i)verykool[ _]?s5036";
  "(?i)verykool[ _]?s6005x";
  "(?i)verykool[ _]?SL6010";
  "(?i)verykool[ _]?S4006[QT]?";
  "(?i)verykool[ _]?S4007";
  "(?i)verykool[ _]?S4008";
  "(?i)verykool[ _]?s5017|Dorado s5017";
  "(?i)verykool[ _]?s4510"
].
Definition d_dr_re1_19 : list blob := [
  "(?i)verykool[ _]?s5204";
  "(?i)verykool[ _]?s5205";
  "(?i)verykool[ _]?s5528Jr";
  "(?i)verykool[ _]?s5528";
  "(?i)verykool[ _]?s5702";
  "(?i)verykool[ _]?SL5029";
  "(?i)verykool[ _]?SL5565";
  "(?i)verykool[ _]?TL8010";
  "(?i)verykool[ _]?T7440";
  "(?i)verykool[ _]?T7445";
  "(?i)verykool[ _]?([^/;)]+)(?:[ _]SL?[0-9]{4}[QT]?)(?: Build|[);])";
  "(?i)verykool[ _]?([^/;)]+)(?: Build|[);])";
  "(?i)VESTA_SMART|VESTA32LD86(?:[);/ ]|$)";
  "(?i)Vestel[ _,/\-]|Venus[ _](GO|E[2-5]|V[1-9]|Z[1-9]0)|V_?TAB|VP74|VT97PRO|VSP145M|VSP250[GS]|VSP355[GS]|V3_5580_Dual|V TAB Z[12]";
  "(?i)V_TAB_([0-9]{4}[A-Z]?)";
  "(?i)V[_ ]TAB[_ ](Z[12])";
  "(?i)Venus[ _]V([1-9])([ _][0-9]{4})?";
  "(?i)Venus[ _]Z([1-9]0)";
  "(?i)Venus[ _]GO";
  "(?i)Venus[ _]E2 Plus";
  "(?i)Venus[ _]E([345])";
  "(?i)Vestel[ _]5530[ _]Dual";
  "(?i)Vestel[ _](5000|5530)";
  "(?i)VESTEL\-v\.tv\.([0-9]{4})";
  "(?i)VESTEL, ([a-z0-9_ -]+), (?:wired|wireless)|\+CE-HTML";
  "(?i)(?:Zippers Tab 10i 3G)|Vexia FCS E2 CLM";
  "(?i)(Zippers Tab 10i 3G)";
  "(?i)ViBox[ _](V[25])[_ ]Pro(?:[);/ ]|$)";
  "(?i)(VI10[68]|VI86)(?:[);/ ]|$)";
  "(?i)Videocon[_ -]|(?:VT75C|V50DC|V406018|V512930|V50(?:2430|3630|4730|5024|5430|4630|5[98]20)|Z45_(?:Dazzle|Amaze)|Z45Q Star|Z50 Nova)(?:[);/ ]|$)";
  "(?i)Videocon[_ -]([a-z0-9]+)";
  "(?i)VT75C(?:[);/ ]|$)";
  "(?i)V502430(?:[);/ ]|$)";
  "(?i)V50DC(?:[);/ ]|$)";
  "(?i)V505024(?:[);/ ]|$)";
  "(?i)V503630(?:[);/ ]|$)";
  "(?i)V504730(?:[);/ ]|$)";
  "(?i)V505920(?:[);/ ]|$)";
  "(?i)V505820(?:[);/ ]|$)";
  "(?i)V406018(?:[);/ ]|$)";
  "(?i)V512930(?:[);/ ]|$)";
  "(?i)(V505430|V504630)(?:[);/ ]|$)";
  "(?i)Z45_(Dazzle|Amaze)(?:[);/ ]|$)";
  "(?i)Z45Q Star(?:[);/ ]|$)";
  "(?i)Z50 Nova(?:[);/ ]|$)";
  "(?i)(V65G2)(?:[);/ ]|$)";
  "(?i)ViewSonic|ViewPad|ViewPhone|(?:IFP(?:98|86|[67]5)50-3|VSD[0-9]+|vsi7q_1)(?:[);/ ]|$)";
  "(?i)(?:ViewSonic-)?V500(?:[);/ ]|$)";
  "(?i)ViewSonic A8\+(?:[);/ ]|$)";
  "(?i)(?:ViewSonic-)?ViewPhone ?([^;/]+)(?: Build|[;)])";
  "(?i)(?:ViewSonic-)?ViewPad[ _]?([^;/)]+)(?: Build|[;)])";
  "(?i)(VSD[0-9]+)(?:[);/ ]|$)";
  "(?i)IFP(98|86|[67]5)50-3";
  "(?i)Vinabox[-_ ]X(\d*)[-_ ](2018)";
  "(?i)Vinabox[-_ ]X(\d*)[-_ ]?Plus";
  "(?i)Vinabox[-_ ]([^/;)]+)(?: Build|[);])";
  "(?i)VMP-(015-162|021-82|041-162|011-81|025-324|045-664|046-664)(?:[);/ ]|$)|VMP023\.";
  "(?i)VMP023\.";
  "(?i)(XA Pro) Build";
  "(?i)(?:VMP0617|VI65PB1401NA|VTAB7)(?:[);/ ]|$)";
  "(?i)(Z08MK)(?:[);/ ]|$)";
  "(?i)VIPRO[_ ]";
  "(?i)ViPro S20(?:[);/ ]|$)";
  "(?i)VIPRO PRO2X(?:[);/ ]|$)";
  "(?i)Vipro Edge 2(?:[);/ ]|$)";
  "(?i)VIPRO PRO[ _-]?([0-9])(?:[);/ ]|$)";
  "(?i)(?:V608C|V50[15]c|VT701)(?:[);/ ]|$)";
  "(?i)V(50[15]|608)C(?:[);/ ]|$)";
  "(?i)(VT701)";
  "(?i)LGE; VS-[0-9a-z]+;|XS100MINI(?:[);/ ]|$)";
  "(?i)XS100MINI(?:[);/ ]|$)";
  "(?i)LGE; (VS-[0-9a-z]+);";
  "(?i)Vision ?Touch";
  "(?i)(?:Prime10(?:SE|ES)|Elite(?:7QS|8QI|9QL|10QH(?:Pro)?))(?:[);/ ]|$)";
  "(?i)Prime10(SE|ES)";
  "(?i)Elite(7QS|8QI|9QL|10QH)";
  "(?i)Vitelcom|portalmmm/[12]\.0 TSM";
  "(?i)TSM-([a-z0-9]+)";
  "(?i)TSM([a-z0-9-]+)";
  "(?i)portalmmm/[12]\.0 (TSM[a-z0-9 ]+)";
  "(?i)Vitumi[_ ]";
  "(?i)Vitumi 10.1";
  "(?i)(24LH1207|(?:43|5[05])LU1222|43L[FU]1204|50LU1204|43LF1212|32LH1212|32LH1221)(?:-V)?(?:[);/ ]|$)";
  "(?i)(?:SMART[_ ]EV[56]|EV7_Pro|EV6 ELITE|EV5 X|EV7_Play| EV7)(?:[);/ ]|$)";
  "(?i)(EV7)_Pro";
  "(?i)(EV6) ELITE";
  "(?i)(EV7)_Play";
  "(?i)EV7(?:[);/ ]|$)";
  "(?i)SMART[_ ](EV[56])";
  "(?i)VIVAX|(?:Fly4|Fly5[_ ]Lite|Fun[_ ]S500|Point[_ ](?:X[12]|X50[123]|X450)|SMART FLY V500|PRO3|32LE77SM|40LE77SM|FUN S1|FUN_S20|TPC[-_ ](?:7121|80[56])3G)(?:[);/ ]|$)";
  "(?i)Fly5[_ ]Lite(?:[);/ ]|$)";
  "(?i)Fly4(?:[);/ ]|$)";
  "(?i)SMART FLY V500(?:[);/ ]|$)";
  "(?i)Point_X([12])(?:[);/ ]|$)";
  "(?i)Fun[_ ]S500(?:[);/ ]|$)";
  "(?i)FUN[ _]S(10?|20)(?:[);/ ]|$)";
  "(?i)VIVAX[ _]Fly ?(\d)(?:[);/ ]|$)";
  "(?i)VIVAX[ _]Fly[ _]V(1|550)(?:[);/ ]|$)";
  "(?i)(?:VIVAX )?(Point[ _](?:X551|X50[123]|X450))(?:[);/ ]|$)";
  "(?i)SMART Point X5010(?:[);/ ]|$)";
  "(?i)VIVAX[_ ]PRO[_ ]?(3|M1)";
  "(?i)(?:VIVAX[ _])?TPC[-_ ](105|7121|806)_?([34])G";
  "(?i)(?:TABLET )?TPC[-_ ](\d+) ?([34])G(?:[);/ ]|$)";
  "(?i)(?:VIVAX-)?(40LE78T2S2SM|32LE77SM|40LE77SM)";
  "(?i)((?:VIV-|BBG-)?vivo)|iQOO Neo \d|(?:V1730(D[AT]|GA)|V18(?:01A0|13B[AT])|1819|V1937|I(?:192[78]|201[28]|2218)|V(?:2026|2031|2036|2043)_21|V1916[AT]|V1936TL|V1936AL|V(?:1732|1809|181[3468]|182[149]|183[1268]|1901|191[13469]|192[1-48]|193[0246]|194[15]|195[05]|196[235]|198[16]|1990|201[12]|202[03-5]|203[146]|204[6789]|205[45679]|2066B|206[1568]|207[23]|208[05]|2099|2106|211[18]|212[135]|213[346]|214[1358]|2162)A|V1824BA|V(?:1731|1818|2020)CA|V(?:1818|1938)CT|V(?:1730|2031)EA|V(?:1732|1809|181[3468]|182[19]|183[1268]|1901|1913|1938)T|I201[19]|I212[67]|X50 Pro\+|I220[123678]|I24(?:0[134579]|10)|I22(?:1[234679]|2[013])|I230[1-6]|I20(?:09|17|22)|I25(?:0[25])|V1962BA|V1930|PA2170|PA23[57]3|PA24(?:73|55)|PA25(?:73|11)|V20(?:0[1256]|0[2159]A|[34]4|29_PK|4[57]A?|23EA|2[2-9]|3[0-35-9]|4[0-3568]|5[02-5789]|6[015689]|69B?A|70)|V21(?:0[12459]|1[01]|2[04-79]|3[012459]A?|7[12]A|4[0-79]|40A|6[0289]|64[KP]A|6[234568]A|7[08]A|1[4-8]A?|0[28]A?|5[4678]A|5[0-478]|8[03568]A|80GA|66(?:BA)?|56FA|9[069]A|99GA)|V22(?:8[2345]A|7[01289]A|5[0123]|30EA|4[0246789]|41HA|5[46]A?|3[016789]|34(?:_PK)?|3[01289]A|4[2345]A|[34]1A|2[12589]|2[079]A|[36]6A|0[37]A|0[1-9]|1[789]A|1[24789])|V23(?:4[34]A|4[1-8]|12BA|24HA|61GA|66[GH]A|3[0-46789]|3[4789]A|39FA|0[1-479]A|0[23789]|52GA|5[01256]|5[23479]A|53DA|57EA|6[124]A|2[0-57]|2[3479]A|1[0124-9]|1[23478]A)|V24(?:0[1346-9]|1[02-9]|2[02-8]|3[0-9]|35A|4[01368]|4[45]A|45EA|0[358]A|05DA|54D?A|2[569]A|1[0579]A|30A|5[135]|5[2368]A|6[345]A)|V25(?:0[236-9]|0[2567]A|1[0138]|2[0179]|3[014])|S7t 5G| (?:Y30g|Y20T|Y31s 5G|Y33s|Y50t|Y55s 5G)|iQOO (?:U[13]x?|Z1x 5G|Z5x|[578]|Z[153])|V17 SD665|NEX 3s? 5G|Z5x 712|iPA2375|iPA24(?:5[13]|75)|Y51A|Y51 PK|1907_19|V2111-EG|Android 8(?:[\d.]*);(?: [\w-]+;)? (?:Y85A?|Y83A|Y71A?)|X21i A|X21A|Y52s|Y71t|Y76s)(?:[);/ ]|$)";
  "(?i)V2170A(?:[);/ ]|$)";
  "(?i)V2303A|V2337A";
  "(?i)(Y20T|Y30g|X21i A|X21A)(?:[);/ ]|$)";
  "(?i)V2324A|V2309(?:[);/ ]|$)";
  "(?i)V2366[GH]A";
  "(?i)V2309A|V2308";
  "(?i)V2454D?A";
  "(?i)V2405D?A|V2413";
  "(?i)V2415A?";
  "(?i)(?:V2307|V2343A|V2401)(?:[);/ ]|$)";
  "(?i)V2336(?:[);/ ]|$)";
  "(?i)V1824[B]?A(?:[);/ ]|$)";
  "(?i)V1955A(?:[);/ ]|$)";
  "(?i)(?:V2171A|I2017)(?:[);/ ]|$)";
  "(?i)I2019(?:[);/ ]|$)";
  "(?i)(?:V2172A|I2022)(?:[);/ ]|$)";
  "(?i)I2201(?:[);/ ]|$)";
  "(?i)(?:V2243A|I2212)(?:[);/ ]|$)";
  "(?i)I2220|V2307A";
  "(?i)V2408A|I2401";
  "(?i)I192[78](?:[);/ ]|$)";
  "(?i)V2165A(?:[);/ ]|$)";
  "(?i)(?:V2049A|I2009|iQOO 7)(?:[);/ ]|$)";
  "(?i)V2425A|I2405";
  "(?i)(?:V2231A|I2214)(?:[);/ ]|$)";
  "(?i)I2304|V2339A";
  "(?i)V2154A|iQOO Neo 5S";
  "(?i)I2012(?:[);/ ]|$)";
  "(?i)V1922A(?:[);/ ]|$)";
  "(?i)V1916[AT]";
  "(?i)V1914A(?:[);/ ]|$)";
  "(?i)(?:V1981A|iQOO Neo 3)(?:[);/ ]|$)";
  "(?i)V1936(?:TL|A[L]?)(?:[);/ ]|$)";
  "(?i)(?:V2118A|iQOO Neo 5 Lite)(?:[);/ ]|$)";
  "(?i)(?:V2055A|iQOO Neo 5)(?:[);/ ]|$)";
  "(?i)V2199A(?:[);/ ]|$)";
  "(?i)(?:V1986A|iQOO Z1)(?:[);/ ]|$)";
  "(?i)V2012A(?:[);/ ]|$)";
  "(?i)iQOO Z1x 5G(?:[);/ ]|$)";
  "(?i)I2505|I2410";
  "(?i)(?:V2073A|I2011|iQOO Z3 5G)(?:[);/ ]|$)";
  "(?i)V1919A|iQOO Z5x";
  "(?i)I2018(?:[);/ ]|$)";
  "(?i)V2148A|iQOO Z5";
  "(?i)(?:I220[236]|I2127|V2220A)(?:[);/ ]|$)";
  "(?i)I2126(?:[);/ ]|$)";
  "(?i)I2208(?:[);/ ]|$)";
  "(?i)I22(?:13|07)(?:[);/ ]|$)";
  "(?i)I2301(?:[);/ ]|$)";
  "(?i)I2216(?:[);/ ]|$)";
  "(?i)I2223(?:[);/ ]|$)";
  "(?i)I2302|I2218";
  "(?i)I2219|V2353A";
  "(?i)(?:V2023A|iQOO U1)(?:[);/ ]|$)";
  "(?i)(?:V2065A|iQOO U1x)(?:[);/ ]|$)";
  "(?i)(?:V2061A|iQOO U3)(?:[);/ ]|$)";
  "(?i)(?:V2106A|iQOO U3x 5G)(?:[);/ ]|$)";
  "(?i)(?:V2025A|iQOO 5 Pro)(?:[);/ ]|$)";
  "(?i)(?:V2024A|iQOO 5)(?:[);/ ]|$)";
  "(?i)(?:V2141A|iQOO 8 Pro)(?:[);/ ]|$)";
  "(?i)(?:V2136A|iQOO 8)(?:[);/ ]|$)";
  "(?i)V2339(?:[);/ ]|$)";
  "(?i)V2337(?:[);/ ]|$)";
  "(?i)(?:V2025)(?:[);/ ]|$)";
  "(?i)(?:V2066|V2108)(?:[);/ ]|$)";
  "(?i)(?:V2050)(?:[);/ ]|$)";
  "(?i)V2061(?:[);/ ]|$)";
  "(?i)V2055(?:[);/ ]|$)";
  "(?i)V2040(?:[);/ ]|$)";
  "(?i)Vivo 1921(?:[);/ ]|$)";
  "(?i)Vivo 1916(?:[);/ ]|$)";
  "(?i)vivo 1805(?:[);/ ]|$)";
  "(?i)(?:vivo 1912|V1923A)(?:[);/ ]|$)";
  "(?i)(?:V1924A|NEX 3 5G)(?:[);/ ]|$)";
  "(?i)V1950A(?:[);/ ]|$)";
  "(?i)vivo NEX S(?:[);/ ]|$)";
  "(?i)NEX 3s 5G(?:[);/ ]|$)";
  "(?i)vivo NEX A(?:[);/ ]|$)";
  "(?i)vivo NEX(?:[);/ ]|$)";
  "(?i)(?:V1821[AT]|vivo 1813)(?:[);/ ]|$)";
  "(?i)Vivo ONE(?:[);/ ]|$)";
  "(?i)V2115A|V2141|V2157|V2150";
  "(?i)V2253|V2312";
  "(?i)V2320|V2199GA";
  "(?i)V23[45]6(?:[);/ ]|$)";
  "(?i)V2338(?:[);/ ]|$)";
  "(?i)V2203A(?:[);/ ]|$)";
  "(?i)V1831[AT]";
  "(?i)V1832[AT](?:[);/ ]|$)";
  "(?i)V243[08]";
  "(?i)V211[56]";
  "(?i)V220[19]|V2242(?:[);/ ]|$)";
  "(?i)V2436|V2443";
  "(?i)V22(?:31|46)";
  "(?i)V2352|V2433"
].
Definition d_dr_re1_20 : list blob := [
  "(?i)V243[45](?:[);/ ]|$)";
  "(?i)V2244(?:[);/ ]|$)";
  "(?i)V2318(?:[);/ ]|$)";
  "(?i)V2343(?:[);/ ]|$)";
  "(?i)V2314(?:[);/ ]|$)";
  "(?i)V2327(?:[);/ ]|$)";
  "(?i)(?:V2341|V2424|V2417)(?:[);/ ]|$)";
  "(?i)(?:V2418|V2403)(?:[);/ ]|$)";
  "(?i)V24(?:51|27|48)";
  "(?i)V2441|V2453";
  "(?i)V24[45]0";
  "(?i)V1932[AT](?:[);/ ]|$)";
  "(?i)V1962A(?:[);/ ]|$)";
  "(?i)V2162A?";
  "(?i)V2020C?A(?:[);/ ]|$)";
  "(?i)V2031EA(?:[);/ ]|$)";
  "(?i)V2080A(?:[);/ ]|$)";
  "(?i)S7t 5G(?:[);/ ]|$)";
  "(?i)V2072A(?:[);/ ]|$)";
  "(?i)V2048A(?:[);/ ]|$)";
  "(?i)V1941A(?:[);/ ]|$)";
  "(?i)V1928A(?:[);/ ]|$)";
  "(?i)vivo 1804(?:[);/ ]|$)";
  "(?i)vivo 1806(?:[);/ ]|$)";
  "(?i)1819(?:[);/ ]|$)";
  "(?i)vivo 1818(?:[);/ ]|$)";
  "(?i)vivo 19(?:10|09)(?:[);/ ]|$)";
  "(?i)(?:vivo 1907(?:_19)?|1907_19)(?:[);/ ]|$)";
  "(?i)(?:vivo 1919|V17 SD665)(?:[);/ ]|$)";
  "(?i)vivo 1920(?:_20)?(?:[);/ ]|$)";
  "(?i)vivo 1933(?:[);/ ]|$)";
  "(?i)V2022(?:[);/ ]|$)";
  "(?i)vivo 2018(?:[);/ ]|$)";
  "(?i)(?:VIV-|BBG-)?vivo[ _]1601(?:[);/ ]|$)";
  "(?i)vivo 1609(?:[);/ ]|$)";
  "(?i)vivo 1611(?:[);/ ]|$)";
  "(?i)vivo (1713|1612)(?:[);/ ]|$)";
  "(?i)vivo 1718(?:[);/ ]|$)";
  "(?i)V2166BA(?:[);/ ]|$)";
  "(?i)vivo (?:1716|1850)(?:[);/ ]|$)";
  "(?i)vivo 1723(?:[);/ ]|$)";
  "(?i)(?:vivo 1727|V9Youth)(?:[);/ ]|$)";
  "(?i)vivo (?:1851|V9Pro)(?:[);/ ]|$)";
  "(?i)vivo V3Max(?: [AL])?(?:[);/ ]|$)";
  "(?i)vivo X9s Plus(?:[);/ ]|$)";
  "(?i)vivo X9s(?: [AL])?(?:[);/ ]|$)";
  "(?i)V2241A|V2218(?:[);/ ]|$)";
  "(?i)V2219(?:[);/ ]|$)";
  "(?i)vivo X5Pro(?:[);/ ]|$)";
  "(?i)vivo X20Plus UD(?:[);/ ]|$)";
  "(?i)vivo 1721(?:[);/ ]|$)";
  "(?i)(?:X20Plus(?: a)?|vivo 1720)(?:[);/ ]|$)";
  "(?i)vivo X21i(?: A)?(?:[);/ ]|$)";
  "(?i)vivo X21UD(?: A)?(?:[);/ ]|$)";
  "(?i)vivo (?:1725|X21)(?:[);/ ]|$)";
  "(?i)V1814[AT](?:[);/ ]|$)";
  "(?i)V1809[AT](?:[);/ ]|$)";
  "(?i)V1816[AT](?:[);/ ]|$)";
  "(?i)V18(38|29)[AT](?:[);/ ]|$)";
  "(?i)V1836[AT](?:[);/ ]|$)";
  "(?i)V1938CT(?:[);/ ]|$)";
  "(?i)V1938T(?:[);/ ]|$)";
  "(?i)(?:V2001A|vivo 2004)(?:[);/ ]|$)";
  "(?i)V1930(?:[);/ ]|$)";
  "(?i)vivo 2005(?:[);/ ]|$)";
  "(?i)(?:vivo 1937|V1937)(?:[);/ ]|$)";
  "(?i)(?:V2005A|vivo 2006)(?:[);/ ]|$)";
  "(?i)(?:V2011A|X50 Pro\+)(?:[);/ ]|$)";
  "(?i)(?:V20(?:46|59)A|V2045)(?:[);/ ]|$)";
  "(?i)V2085A(?:[);/ ]|$)";
  "(?i)(?:V2047A|V2046)(?:[);/ ]|$)";
  "(?i)(?:V2056A|V2047)(?:[);/ ]|$)";
  "(?i)(?:V2134A|V2105)(?:[);/ ]|$)";
  "(?i)(?:V2145A|V2114)(?:[);/ ]|$)";
  "(?i)V2133A(?:[);/ ]|$)";
  "(?i)V2104(?:[);/ ]|$)";
  "(?i)(?:V2144|V2183A)(?:[);/ ]|$)";
  "(?i)V218[56]A|V2145";
  "(?i)V2208(?:[);/ ]|$)";
  "(?i)X([0-9])Plus(?: A)?(?:[);/ ]|$)";
  "(?i)vivo Xplay6(?:[);/ ]|$)";
  "(?i)vivo (?:1929|2015)(?:_21)?(?:[);/ ]|$)";
  "(?i)vivo 1902(?:[);/ ]|$)";
  "(?i)V2310|V2331";
  "(?i)(?:V2333|V2345)(?:[);/ ]|$)";
  "(?i)V2410(?:[);/ ]|$)";
  "(?i)V22[01]4(?:[);/ ]|$)";
  "(?i)(?:vivo 1906(?:_20)?|V2236A)(?:[);/ ]|$)";
  "(?i)V2239|V2412";
  "(?i)V2166(?:[);/ ]|$)";
  "(?i)(?:V2203|V222[19])(?:[);/ ]|$)";
  "(?i)(?:V225[24]|V2325)(?:[);/ ]|$)";
  "(?i)(?:V2217|V2236|V2234_PK)(?:[);/ ]|$)";
  "(?i)(?:V2234)(?:[);/ ]|$)";
  "(?i)V2332|V2406";
  "(?i)V2409|V2344";
  "(?i)vivo 19(?:04|40)(?:[);/ ]|$)";
  "(?i)V2102(?:[);/ ]|$)";
  "(?i)vivo 2007(?:[);/ ]|$)";
  "(?i)vivo 1901(?:_19)?(?:[);/ ]|$)";
  "(?i)(?:V212[05]|V2139)(?:[);/ ]|$)";
  "(?i)V2147|V2212";
  "(?i)vivo 1915(?:[);/ ]|$)";
  "(?i)(?:V2419|V2423)(?:[);/ ]|$)";
  "(?i)V250[78]";
  "(?i)V2027(?:_PK)?(?:[);/ ]|$)";
  "(?i)V2029(?:_PK)?(?:[);/ ]|$)";
  "(?i)(?:V2207|V2238)(?:[);/ ]|$)";
  "(?i)V2206(?:[);/ ]|$)";
  "(?i)vivo 1613(?:[);/ ]|$)";
  "(?i)(?:V2043_21|V2048)(?:[);/ ]|$)";
  "(?i)(?:V205[24]|V2070|V2101|V2034)(?:[);/ ]|$)";
  "(?i)V2037(?:[);/ ]|$)";
  "(?i)V2129(?:[);/ ]|$)";
  "(?i)V2065(?:[);/ ]|$)";
  "(?i)V2028(?:[);/ ]|$)";
  "(?i)V2038(?:[);/ ]|$)";
  "(?i)V2043(?:[);/ ]|$)";
  "(?i)V(?:2041|2060)(?:[);/ ]|$)";
  "(?i)V2032(?:[);/ ]|$)";
  "(?i)V2152(?:[);/ ]|$)";
  "(?i)V2111(?:[);/ ]|$)";
  "(?i)V2149|V2111-EG";
  "(?i)V2140(?:[);/ ]|$)";
  "(?i)V213[15](?:[);/ ]|$)";
  "(?i)V2023(?:[);/ ]|$)";
  "(?i)V1901[AT](?:[);/ ]|$)";
  "(?i)(?:vivo 193[89]|V203[46]A)(?:[);/ ]|$)";
  "(?i)V2160(?:[);/ ]|$)";
  "(?i)V2099A(?:[);/ ]|$)";
  "(?i)V2066[B]?A(?:[);/ ]|$)";
  "(?i)V2036(?:_21)?(?:[);/ ]|$)";
  "(?i)V2068A?(?:[);/ ]|$)";
  "(?i)V2228(?:[);/ ]|$)";
  "(?i)V2057(?:[);/ ]|$)";
  "(?i)(?:V2109|Y33s)(?:[);/ ]|$)";
  "(?i)V2146(?:[);/ ]|$)";
  "(?i)V2166A(?:[);/ ]|$)";
  "(?i)V2205(?:[);/ ]|$)";
  "(?i)(?:V2247|V2324)(?:[);/ ]|$)";
  "(?i)V2248(?:[);/ ]|$)";
  "(?i)V2357A(?:[);/ ]|$)";
  "(?i)V1934A(?:[);/ ]|$)";
  "(?i)(?:V1965A|vivo 1935)(?:[);/ ]|$)";
  "(?i)(?:V2023EA|Y50t)(?:[);/ ]|$)";
  "(?i)V(?:2024|203[05])(?:[);/ ]|$)";
  "(?i)Y51 PK(?:[);/ ]|$)";
  "(?i)vivo 1707(?:[);/ ]|$)";
  "(?i)V2031(?:_21)?(?:[);/ ]|$)";
  "(?i)Y51A(?:[);/ ]|$)";
  "(?i)(?:V2054A|Y31s 5G)(?:[);/ ]|$)";
  "(?i)(?:V2057A|Y52s)(?:[);/ ]|$)";
  "(?i)V2053(?:[);/ ]|$)";
  "(?i)vivo 1606(?:[);/ ]|$)";
  "(?i)vivo 1606a(?:[);/ ]|$)";
  "(?i)(?:V2058|V2111A|V2123A)(?:[);/ ]|$)";
  "(?i)vivo 1603(?:[);/ ]|$)";
  "(?i)vivo 1610(?:[);/ ]|$)";
  "(?i)V2164A|Y55s 5G";
  "(?i)V2311|V2225";
  "(?i)vivo 1719(?:[);/ ]|$)";
  "(?i)vivo (?:1714|Y69A?)(?:[);/ ]|$)";
  "(?i)V2002A(?:[);/ ]|$)";
  "(?i)V2006(?:[);/ ]|$)";
  "(?i)vivo (?:1724|Y71A?)(?:[);/ ]|$)";
  "(?i)Y71t(?:[);/ ]|$)";
  "(?i)vivo 1801i?(?:[);/ ]|$)";
  "(?i)V1731CA(?:[);/ ]|$)";
  "(?i)V2059(?:[);/ ]|$)";
  "(?i)V2031A(?:[);/ ]|$)";
  "(?i)V2124(?:[);/ ]|$)";
  "(?i)V2156F?A|Y76s(?:[);/ ]|$)";
  "(?i)V1913[AT](?:[);/ ]|$)";
  "(?i)vivo 180([38]|8i)(?:[);/ ]|$)";
  "(?i)vivo 1812(?:_19)?(?:[);/ ]|$)";
  "(?i)V1732[AT](?:[);/ ]|$)";
  "(?i)vivo (?:Y83A?|1802)(?:[);/ ]|$)";
  "(?i)vivo 1726(?:[);/ ]|$)";
  "(?i)V1730EA(?:[);/ ]|$)";
  "(?i)vivo (?:1823|1908)(?:_19)?(?:[);/ ]|$)";
  "(?i)vivo 181[17](?:[);/ ]|$)";
  "(?i)vivo 1820(?:_19)?(?:[);/ ]|$)";
  "(?i)V1945A(?:[);/ ]|$)";
  "(?i)(?:V2026|V2033|V2042)(?:[);/ ]|$)";
  "(?i)(?:V20[63]9|V2026_21)(?:[);/ ]|$)";
  "(?i)vivo 18(16|20)(?:[);/ ]|$)";
  "(?i)(V1818[AT]|vivo 181[45])(?:[);/ ]|$)";
  "(?i)V1818C[AT](?:[);/ ]|$)";
  "(?i)vivo 1807(?:[);/ ]|$)";
  "(?i)V1813[AT](?:[);/ ]|$)";
  "(?i)V1801A0(?:[);/ ]|$)";
  "(?i)vivo (?:1918|1951|Z1Pro)(?:[);/ ]|$)";
  "(?i)V1730D[AT](?:[);/ ]|$)";
  "(?i)vivo 1917(?:[);/ ]|$)";
  "(?i)V1813B[AT](?:[);/ ]|$)";
  "(?i)(?:vivo Z3x|V1730GA)(?:[);/ ]|$)";
  "(?i)V1921A(?:[);/ ]|$)";
  "(?i)V1911A(?:[);/ ]|$)";
  "(?i)V1990A(?:[);/ ]|$)";
  "(?i)V1963A(?:[);/ ]|$)"
].
Definition d_dr_re1_21 : list blob := [
  "(?i)V2142(?:[);/ ]|$)";
  "(?i)(?:vivo Y75s|V2069BA)(?:[);/ ]|$)";
  "(?i)vivo X710L?(?:[);/ ]|$)";
  "(?i)X6SPlus(?: [AD])?(?:[);/ ]|$)";
  "(?i)vivo X6S(?: A)?(?:[);/ ]|$)";
  "(?i)vivo X([5679]|20)[ALD]?(?:[);/ ]|$)";
  "(?i)vivo X5Pro(?: L)?(?:[);/ ]|$)";
  "(?i)vivo Y66i(?: A)?(?:[);/ ]|$)";
  "(?i)vivo Y(\d{2})[AL]?(?:[);/ ]|$)";
  "(?i)vivo Xplay(\d)S(?:[);/ ]|$)";
  "(?i)vivo Xplay(\d)[AL]?(?:[);/ ]|$)";
  "(?i)(?:VIV-|BBG-)?vivo[ _]([^/;]+) Build";
  "(?i)(?:VIV-|BBG-)?vivo[ _]([^);/]+)(?:[);/ ]|$)";
  "(?i) (Y85A?|Y83A|Y71A?)(?:[);/ ]|$)";
  "(?i)Vizio|(?:VAP430|VTAB1008|XR6[PM]10)(?:[);/ ]|$)";
  "(?i)VIZIO ([a-z0-9_-]+) ViziOS/";
  "(?i)Model/([a-z0-9_-]+)\)";
  "(?i)Vizio, ([a-z0-9_-]+), (?:wired|wireless)";
  "(?i)(VTAB1008|XR6[PM]10)";
  "(?i)VIZ(?:101|070)TAB[78]11";
  "(?i)VIZ070TAB(\d{3})";
  "(?i)VIZ101TAB(\d{3})";
  "(?i)(?:Vodacom)[ _]|(?:Kicka 5 Plus 4G)(?:[);/ ]|$)";
  "(?i)(?:Vodacom)[ _](Power Tab 10)(?:[);/ ]|$)";
  "(?i)Vodafone[ _-]|VodafoneSmartChat|Smart Ultra 6|Smart ?Tab ?(?:III? ?)?(?:4G|7|10)[;/ )-]|(?:GigaTV|VFD[ _][0-9]+|VFD[37]20|VF6[89]5|VF-(696|1397|795|895N|1497)|SmartV22)(?:[);/ ]|$)";
  "(?i)VFD 50[012]";
  "(?i)VFD 51[0123]";
  "(?i)VFD 52[789]";
  "(?i)Vodafone[ _]875(?:[);/ ]|$)";
  "(?i)Vodafone[ _]975N?(?:[);/ ]|$)";
  "(?i)Vodafone[ _]785(?:[);/ ]|$)";
  "(?i)VFD 525(?:[);/ ]|$)";
  "(?i)Vodafone[ _]890N(?:[);/ ]|$)";
  "(?i)Vodafone[ _]985N(?:[);/ ]|$)";
  "(?i)Smart ?Tab ?3G";
  "(?i)Smart ?Tab ?4G";
  "(?i)Smart ?Tab ?4";
  "(?i)SmartTab7[);/ -]";
  "(?i)SmartTab10[);/ -]";
  "(?i)Smart ?Tab ?II ?7";
  "(?i)Smart ?Tab ?II ?10";
  "(?i)Smart ?Tab ?III ?7";
  "(?i)Smart ?Tab ?III ?10";
  "(?i)Vodafone TV(?:[);/ ]|$)";
  "(?i)VFD[ _]([0-9]+)(?:[);/ ]|$)";
  "(?i)Vodafone[ _-]([^;/]+) Build";
  "(?i)Vodafone[ _-]([a-z0-9_-]+)";
  "(?i)Volla Phone (22|X23)";
  "(?i)VOLT[_ ](SV451[_ ]Vision)(?:[);/ ]|$)";
  "(?i)Vonino|Epic (?:E8|P7)|Epic_(?:M8|P7)|Gyga[ _](?:X|S|QS|XS)|Jax[ _](?:QS|[SXQN]|Mini)|Magnet[ _](?:M[19]|G[135]0|W10)|Navo_QS|Navo[ _][SP]|Onyx_(QS|Z)|Orin_QS|Pluri[ _](?:[BCMQ]7|[CQM]8)|Sirius_QS|Spirit QS|Volt[ _][XS]|Xavy[_ ]([GT]7|L8)|Xylo[ _][XSPQT]|Zun[ _](?:N|X[OS]?)|JAX_N|Druid_L10|iMart_Pro|MusicPAD_[HM]1";
  "(?i)Zun[ _](N|X[OS]?)";
  "(?i)Xylo[ _]([PSXQT])";
  "(?i)Volt[ _]S_A7";
  "(?i)Volt[ _]S";
  "(?i)Volt[ _]X";
  "(?i)Gyga[ _]QS";
  "(?i)Gyga[ _]XS";
  "(?i)Gyga[ _](S|X)";
  "(?i)Jax[ _]QS";
  "(?i)Jax[ _]S_A7";
  "(?i)Jax[ _]([SQXN])";
  "(?i)Jax[ _]Mini";
  "(?i)Epic[_ ]([EM]8|P7)";
  "(?i)Pluri_M([78])_2020";
  "(?i)Pluri[ _]([BCMQ])7";
  "(?i)Pluri[ _]([CQM])8";
  "(?i)Druid[_ ](L10)";
  "(?i)Magnet[_ ]M10[_ ]2020";
  "(?i)Magnet[_ ](G50)[_ ]Pro";
  "(?i)Magnet[ _](M[19]|G[135]0|W10)";
  "(?i)Navo[_ ](Q?[SP])";
  "(?i)Onyx_(QS|Z)";
  "(?i)Xavy[_ ]([GT]7|L8)";
  "(?i)MusicPAD_([HM]1)";
  "(?i)(HK1 (?:Max|MINI\+?|PLUS|PRO)|KK MAX|VONTAR[_ -](?:Z[58]|[VH]1|KIII|MX-4K|X[234]|R3|H728)|H618|DQ08)(?:[);/ ]|$)";
  "(?i)DQ08(?:[);/ ]|$)";
  "(?i)VONTAR[_ -](Z[58]|[VH]1|KIII|MX-4K|X[234]|H618|H728|R3)(?:[);/ ]|$)";
  "(?i)HK1 Max(?:[);/ ]|$)";
  "(?i)KK MAX(?:[);/ ]|$)";
  "(?i)HK1 MINI\+(?:[);/ ]|$)";
  "(?i)HK1 MINI(?:[);/ ]|$)";
  "(?i)HK1 PLUS(?:[);/ ]|$)";
  "(?i)HK1 PRO(?:[);/ ]|$)";
  "(?i)VORAGO|(?:PAD-7-V5|PAD-7)(?:[);/ ]|$)";
  "(?i)(PAD-7-V5|PAD-7)";
  "(?i)(?:SXPro|S7-classic|SXPRO_classic|Quartz(?:PRO|LITE)|ULTRAPAD)(?:[);/ ]|$)";
  "(?i)VORKE[ _](Z[157]|Z6(?: Plus)?)(?:[);/ ]|$)";
  "(?i)VORMOR-X5-pro(?:[);/ ]|$)";
  "(?i)(Android 13(?:[\d.]*);(?: [\w-]+;)? (?:HD65)|ZG65|SYNQ|CMG101|CM62|CG65|T10M_Pro|HD55|HD60[iL]?|HD62|HD68|ZTAB10|BTAB10|HD65[ _](?:Choice|Select|Ultra|PLUS)|ZG55|ZG65 Pro|V39TPHE01S|V32TPHDE1S|V24TPHDE1S)(?:[);/ ]|$)";
  "(?i)HD65[_ ]Choice";
  "(?i)HD65[_ ]Ultra";
  "(?i)HD65[_ ]Select";
  "(?i)HD65[_ ]PLUS";
  "(?i)(SYNQ|CM62|CG65|ZG55|HD55|HD60[iL]?|HD6[258]|ZG65)";
  "(?i)(CMG101)";
  "(?i)(V39TPHE01S|V32TPHDE1S|V24TPHDE1S)";
  "(?i)VOTO[ _-]|VT8[89]8(?:[);/ ]|$)";
  "(?i)VOTO[ _-]?([^/;]+) Build";
  "(?i)VOTO[ _-]?([^);/ ]+)";
  "(?i)(VT8[89]8)(?:[);/ ]|$)";
  "(?i)Voxtel_([a-z0-9]+)";
  "(?i)(?:VOYO[_ ](?:A15)|i8-Max|Q101-4G)(?:[);/ ]|$)";
  "(?i)i8-Max(?:[);/ ]|$)";
  "(?i)(Q101)-4G(?:[);/ ]|$)";
  "(?i)VOYO[_ ](A15)(?:[);/ ]|$)";
  "(?i)(?:Joy [123]\+|Joy [34]|Active 1\+|Bee 3|Active [13]|V341U|Bee Lite|Aris| Bee|Star [345])(?:[);/ ]|$)";
  "(?i)Joy ([123])\+(?:[);/ ]|$)";
  "(?i)Joy ([34])(?:[);/ ]|$)";
  "(?i)Active 1\+(?:[);/ ]|$)";
  "(?i)Bee 3(?:[);/ ]|$)";
  "(?i)Bee(?:[);/ ]|$)";
  "(?i)Star (\d)(?:[);/ ]|$)";
  "(?i)Active (\d)(?:[);/ ]|$)";
  "(?i)V341U(?:[);/ ]|$)";
  "(?i)(?:VSUN (?:ILLUSION|RACE|V9|TOUCH)|Aqua Tough|MERCURY Tough|MARS TOUCH|MARS NOTE|MARS NOCAM|SATURN SELFIE)(?:[);/ ]|$)";
  "(?i)ILLUSION(?:[);/ ]|$)";
  "(?i)MARS TOUCH(?:[);/ ]|$)";
  "(?i)SATURN SELFIE(?:[);/ ]|$)";
  "(?i)RACE(?:[);/ ]|$)";
  "(?i)VSUN TOUCH(?:[);/ ]|$)";
  "(?i)(V9)(?:[);/ ]|$)";
  "(?i) (81V)(?:[);/ ]|$)";
  "(?i)(?:VP5004A|VS5513|VS4011|VR6031)(?:[);/ ]|$)";
  "(?i)(VP5004A|VR6031)(?:[);/ ]|$)";
  "(?i)VS5513(?:[);/ ]|$)";
  "(?i)VS4011(?:[);/ ]|$)";
  "(?i)Nexo-TAB-7(?: Build|[;)])";
  "(?i)Nexo-TAB-7(?: Build|[;)])";
  "(?i)(?:X9 CALL2| WO (?:[789]|1[02])(?: Ultra)?|WO Pad (?:Pro|Max|\d{2}))(?: Build|[);])";
  "(?i)WO Pad (13)";
  "(?i)WO ([89]) Ultra";
  "(?i)WO (1[02]|[789])";
  "(?i)(F808NM|F803YM)(?:[);/ ]|$)";
  "(?i)LGE; WLE[0-9a-z]+;|(?:WUD55H7762SN|WUD55G7762S)(?:[);/ ]|$)";
  "(?i)(WUD55H7762SN|WUD55G7762S)(?:[);/ ]|$)";
  "(?i)LGE; (WLE[0-9a-z]+);";
  "(?i)WE (A[15]0|B3|F[12]0|E[12]|L[3469]|R[34]|V[34]|S1|X[13]|T1)(?:[);/ ]|$)";
  "(?i)WIWA DREAM PLAYER(?:[);/ ]|$)";
  "(?i)W10_EEA(?:[);/ ]|$)";
  "(?i)(TD-TP010G-2)(?:[);/ ]|$)";
  "(?i) (P10X)(?:[);/ ]|$)";
  "(?i)WALKER[;,]";
  "(?i)Walton|Walpad|RX7 Mini|Primo[ _](?:C[1234]?|D[1-689]|E[1-589]|F8s|EF[23]?|EM|F[1-79]i?|G[1-9]|GF[234]?|GH[23]?|GM|H[2-689M]|H10|H7s|N[F1]?|NX2?|R[1-689]|R[HM]2?|RX[23]?|S[1-8]|V1|X[1-4]|Z|[ZV]X)|Orbit M20|Orbit Y(?:2[10]|12|[57]0)|XANON X[29]0|NEXG N(?:7[0-4]|2[56]|[689])|LT750";
  "(?i)Walpad[ _]?([^;/)]+)(?: Build|[);])";
  "(?i)Primo H8 Pro(?:[);/ ]|$)";
  "(?i)Primo (RM2|ZX2|NX4|X2) ?mini(?:[);/ ]|$)";
  "(?i)Primo H8(?:[);/ ]|$)";
  "(?i)RX7 Mini(?:[);/ ]|$)";
  "(?i)Orbit Y(\d{2})";
  "(?i)Orbit M(\d{2})";
  "(?i)NEXG N(7[0-4]|2[56]|[689])";
  "(?i)(LT750)";
  "(?i)Primo[ _]([^;/)]+)[ _]Plus(?: Build|[;)])";
  "(?i)Primo[ _]([^;/)]+)(?: Build|[;)])";
  "(?i)Walton[ _]([^;/)]+)(?: Build|[;)])";
  "(?i)Waltter NEO 10\.1";
  "(?i)V10(?:[);/ ]|$)";
  "(?i)PRO 8475(?:[);/ ]|$)";
  "(?i)(WM1001)(?:[);/ ]|$)";
  "(?i)(?:C81W_EEA|P16W|F21W)(?:[);/ ]|$)";
  "(?i)(P16W|C81W|F21W)(?:_EEA)?";
  "(?i)(?:20200808A1)(?:[);/ ]|$)";
  "(?i)weplus_3|WEIMEI_NEON2";
  "(?i)WELLCOM[ _\-/]([a-z0-9]+)";
  "(?i)Westerndigital|WDSimpleBrowser";
  "(?i)(65WS3205)(?:[);/ ]|$)";
  "(?i)WESTPOINT[;,]";
  "(?i)(TETS-4919SM)";
  "(?i)Wexler|(?:MOBI 7 LTE|ULTIMA 7 TWIST PLUS|ULTIMA 7|ULTIMA [78] TWIST|TAB10iQ3G|TAB[ _]10Q)(?:[);/ ]|$)|ZEN[ _](?:4\.[57]|5)";
  "(?i)(?:Wexler[ _.-])?ZEN[ _]4\.5(?:[);/ ]|$)";
  "(?i)(?:Wexler[ _.-])?ZEN[ _]4\.7(?:[);/ ]|$)";
  "(?i)(?:Wexler[ _.-])?ZEN[ _]5(?:[);/ ]|$)";
  "(?i)ZEN[ _]5\+(?:[);/ ]|$)";
  "(?i)(?:Wexler[._-])?TAB[ _]?10Q(?:[);/ ]|$)";
  "(?i)TAB10iQ3G(?:[);/ ]|$)";
  "(?i)Wexler[ _.-]([^;/]+) Build";
  "(?i)Wexler[ _.-]([^);/]+)(?:[);/ ]|$)";
  "(?i)(ULTIMA 7 TWIST PLUS|ULTIMA [78] TWIST|ULTIMA 7 OCTA|ULTIMA 7|MOBI 7 LTE)(?:[);/ ]|$)";
  "(?i)(TAB-8US2|TAB-10US)(?:[);/ ]|$)";
  "(?i)Wieppo (S6 Lite|S[658]|E1)(?:[);/ ]|$)";
  "(?i)(?:Wigor (?:V4))(?:[);/ ]|$)|Android 7(?:[\d.]*);(?: [\w-]+;)? V3(?: Build|[;)])";
  "(?i)Wigor (V4)(?:[);/ ]|$)";
  "(?i)(V3)(?: Build|[;)])";
  "(?i)(?:WIKO[_ -])|(?:WIKO-)?CINK_[a-z0-9_]+|(?:WIKO-)?HIGHWAY_[a-z0-9_]+|(?:WIKO-)?(?:Cink([^/;]*)|Highway([^/;]*)|Iggy|Stairway|Rainbow ?(Jam|Lite|Up)?|Darkside|Darkmoon|Darkfull|Darknight|Freddy|FEVER|Jerry[2]?|Sublim|Ozzy|JIMMY|Barry|Birdy|Bloom|Getaway|Goa|Kite|Robby|Lenny[2-9]?|Slide2?|Sunset[2-9]?|Sunny[2-9]?|Tommy[2-9]?|PULP(?: Fab)?|Wax|HARRY|Ridge(?: Fab)?|U FEEL(?: Prime| Lite)?|U PULSE(?: LITE)?|View2 (?:Go|Plus)|View XL|View Prime)(?: Plus)?(?: 4G)?(?: Build|$)?|W_(?:C8[06]0|K[346]00|P130|P200|C200SN)|WC300|W-(?:V7[23]0|V745|V755|V8[035]0|P[36]11|K130|K211|K3[68]0|K420|K510S?|K521|K560|K610|K630)-(?:BYT|EEA|FRA|OPE|SU[IN]|SWI|TIM|TRU|TMV|TVM|DU|T[HV]|ID)|WIM Lite|W-V851|W-V6[08]0|W-V750BN|W-V770|W-K200|W-U300|(?:U307AS|CINK PEAX 2|HIGHWAY PURE|C210AE|v3913|U614AS|V3991AN|v12fnlite|K-KOOL|p6901|U616AT|VHEM|KENNY|View Go| WIM|SHR-AN00|JLG-AN00|Aix-AN00|BAL-AN20|MKY-AN20|GAR-AN[06]0)(?:[);/ ]|$)";
  "(?i)(?:WIKO-)?W-V770";
  "(?i)(?:WIKO-)?VHEM";
  "(?i)(?:WIKO-)?U616AT";
  "(?i)(?:WIKO-)?W-V745";
  "(?i)(?:WIKO-)?W-V750";
  "(?i)(?:WIKO-)?W-V755-EEA";
  "(?i)(?:WIKO-)?Cink Peax 2";
  "(?i)(?:Wiko-)?Cink([^/;]*) Build";
  "(?i)(?:WIKO-)?CINK_([a-z0-9_]+)";
  "(?i)(?:WIKO-)?HIGHWAY PURE";
  "(?i)(?:WIKO-)?HIGHWAY STAR";
  "(?i)(?:Wiko-)?Highway([^/;]*) Build";
  "(?i)(?:WIKO-)?HIGHWAY_([a-z0-9_]+)";
  "(?i)(?:WIKO-)?Iggy";
  "(?i)(?:WIKO-)?FEVER";
  "(?i)(?:WIKO-)?Stairway"
].
Definition d_dr_re1_22 : list blob := [
  "(?i)(?:WIKO-)?Ridge Fab 4G";
  "(?i)(?:WIKO-)?Ridge 4G";
  "(?i)(?:WIKO-)?Ridge";
  "(?i)(?:WIKO-)?Rainbow ([^/;]+) Build";
  "(?i)(?:WIKO-)?Rainbow";
  "(?i)(?:WIKO-)?Darkside";
  "(?i)(?:WIKO-)?Darkmoon";
  "(?i)(?:WIKO-)?Darkfull";
  "(?i)(?:WIKO-)?Darknight";
  "(?i)(?:WIKO-)?Sublim";
  "(?i)(?:WIKO-)?Ozzy";
  "(?i)(?:WIKO-)?Barry";
  "(?i)(?:WIKO-)?Birdy";
  "(?i)(?:WIKO-)?Bloom2";
  "(?i)(?:WIKO-)?Bloom";
  "(?i)(?:WIKO-)?JIMMY";
  "(?i)(?:WIKO-)?Jerry2";
  "(?i)(?:WIKO-)?Jerry";
  "(?i)(?:WIKO-)?Getaway";
  "(?i)(?:WIKO-)?KENNY";
  "(?i)(?:WIKO-)?Goa";
  "(?i)(?:WIKO-)?Freddy";
  "(?i)(?:WIKO-)?Kite";
  "(?i)C210AE(?:[);/ ]|$)";
  "(?i)U307AS(?:[);/ ]|$)";
  "(?i)U316AT(?:[);/ ]|$)";
  "(?i)v3913(?:[);/ ]|$)";
  "(?i)(?:WIKO-)?Lenny[ -_]?3 Max";
  "(?i)(?:WIKO-)?Lenny[ -_]?4 Plus";
  "(?i)(?:WIKO-)?Lenny[ -_]?([2-9])";
  "(?i)(?:WIKO-)?Lenny";
  "(?i)(?:WIKO-)?Slide2";
  "(?i)(?:WIKO-)?Slide";
  "(?i)(?:WIKO-)?Sunset2";
  "(?i)(?:WIKO-)?Sunset";
  "(?i)(?:WIKO-)?Sunny3 Mini";
  "(?i)(?:WIKO-)?Sunny3";
  "(?i)(?:WIKO-)?Sunny2 Plus";
  "(?i)(?:WIKO-)?Sunny2";
  "(?i)W-K211-(?:TH|TVM)";
  "(?i)(?:WIKO-)?Sunny";
  "(?i)(?:W_K600|Tommy3|W_C200SN)";
  "(?i)(?:WIKO-)?Tommy2 Plus";
  "(?i)(?:WIKO-)?Tommy2";
  "(?i)(?:WIKO-)?Tommy";
  "(?i)(?:WIKO-)?Wax";
  "(?i)(?:WIKO-)?HARRY";
  "(?i)(?:WIKO-)?WIM Lite|p6901";
  "(?i)(?:WIKO-)?WIM";
  "(?i)(?:WIKO-)?Pulp Fab 4G";
  "(?i)(?:WIKO-)?Pulp Fab";
  "(?i)(?:WIKO-)?Pulp 4G";
  "(?i)(?:WIKO-)?Pulp";
  "(?i)(?:WIKO-)?Robby(2)?";
  "(?i)(?:WIKO-)?U PULSE LITE";
  "(?i)(?:WIKO-)?U PULSE";
  "(?i)(?:WIKO-)?U FEEL LITE";
  "(?i)(?:WIKO-)?U FEEL PRIME";
  "(?i)(?:WIKO-)?U FEEL";
  "(?i)(?:WIKO-)?View2 Go";
  "(?i)(?:WIKO-)?View2 Plus";
  "(?i)(?:WIKO-)?View XL";
  "(?i)(?:WIKO-)?View Prime";
  "(?i)W_P130|View Go";
  "(?i)W-V800-(TVM|TIM|EEA|OPE|DU)";
  "(?i)W-K130-(?:OPE|EEA|BYT)";
  "(?i)W-K510-(?:TVM|EEA|OPE|SUN|BYT|TH)|W-K510S-SWI";
  "(?i)W-K560-(?:EEA|TVM)";
  "(?i)W-K610-(?:SUI|FRA)";
  "(?i)W-V720-(?:EEA|OPE|SUN)";
  "(?i)W-P311-(?:EEA|OPE|TVM)";
  "(?i)W-P611-(?:EEA|OPE)";
  "(?i)W-V830-(?:EEA|OPE|ID)";
  "(?i)W-V730-(?:EEA|TVM|ID|OPE)";
  "(?i)W-U300(?:[);/ ]|$)";
  "(?i)U520AS(?:[);/ ]|$)";
  "(?i)U614AS(?:[);/ ]|$)";
  "(?i)K-KOOL(?:[);/ ]|$)";
  "(?i)Wiko ([^/;)]+)(?: Build|[;)])";
  "(?i)(42QWS9001|32QWS9002)(?:[);/ ]|$)";
  "(?i)Wileyfox|(?:Swift 2|crackling)(?:[);/ ]|$)";
  "(?i)Wileyfox Spark \+";
  "(?i)Wileyfox; Pro";
  "(?i)Swift 2 (X|Plus)(?:[);/ ]|$)";
  "(?i)Swift 2(?:[);/ ]|$)";
  "(?i)Wileyfox (Spark|Swift)";
  "(?i)Wileyfox ([^/)]+)(?: Build|[);])";
  "(?i)(?:NOTE GRACE V)(?:[);/ ]|$)";
  "(?i)Wink[_ ]|SWITRON-i12A|WinkBox (?:[23]|Mini)";
  "(?i)WinkBox ([23])";
  "(?i)Wink[_ ]((?:Glory|World|Share|City)(?:[_ ](?:SE|S))?)(?:[);/ ]|$)";
  "(?i)Wink[ _](Primo|Highway)(?:[);/ ]|$)";
  "(?i)(?:Winmax[ _](?:XC14|XC[46]|TX30)|PolarH4|Tiger_X12)(?:[);/ ]|$)|MAUI.+Winmax_BD45";
  "(?i)Winmax[ _](XC14|XC[46])(?:[);/ ]|$)";
  "(?i)Winmax[ _](TX30)(?:[);/ ]|$)";
  "(?i)MAUI.+Winmax_(BD45)";
  "(?i)Winnovo|(?:T10LTE|H(?:7|10)_US)(?:[);/ ]|$)";
  "(?i)T10LTE(?:[);/ ]|$)";
  "(?i)H(7|10)_US(?:[);/ ]|$)";
  "(?i)Winnovo[ _]?(M866|M798|VTab|750[PK]|T2)(?:[);/ ]|$)";
  "(?i)Winnovo[ _](V51)";
  "(?i)Winnovo[ _](K5[46]|K43)[a-z]{2}";
  "(?i)Winstar S-?5";
  "(?i)Winstar S-?5";
  "(?i)(WISENET5|WPOS-3)(?:[);/ ]|$)";
  "(?i)WIZARPOS[ _]([^/;)]+)(?: Build|[);])";
  "(?i)miSmart|miTab|WIAM[ _]\#?\d+|WOLDER";
  "(?i)WIAM[_ ]\#?65[_ ]lite";
  "(?i)(?:WOLDER_)?WIAM[ _]\#?(\d+)";
  "(?i)WOLDER[_ ](\d+)";
  "(?i)miSmart[ \-_]?([^/]+) Build";
  "(?i)miTab[_ ]PRO[_ ]10[_ ]plus";
  "(?i)miTab[ \-_]?([^/)]+)(?: Build|[;)])";
  "(?i)AT[ _-]AS([0-9A-Z]+)(?:[);/ ]|$)";
  "(?i)(?:W55SE|W626 LITE|WS054|WS067|WS5SE|WS626)(?:[);/ ]|$)";
  "(?i)Wonu ([a-z0-9]+)";
  "(?i)SP5026i-Scorpio|SP5040-Casiopea";
  "(?i)Woxter[ _]|Nimbus 101Q";
  "(?i)Nimbus ?(101Q|115|1100RX)(?:[);/ ]|$)";
  "(?i)WOXTER[ _]I-101(?:[);/ ]|$)";
  "(?i)Woxter[ _]([SQ]X) ?([0-9A-Z]+)(?:[);/ ]|$)";
  "(?i)Woxter[_ ](?:Zielo[ _])?(Q27|Z800|Z420)(?:[);/ ]|$)";
  "(?i)Woxter[ _]([^/;)]+)(?: Build|\))";
  "(?i)G1LITE(?:[);/ ]|$)";
  "(?i)X[-]?BO (V[78]|V1[01]|V[89]\+)(?:[);/ ]|$)";
  "(?i)XMOBILE|(?:XM-SW1|X63Pro)(?:[);/ ]|$)";
  "(?i)(?:XMOBILE) X7(?:[);/ ]|$)";
  "(?i)X[-_]TIGI|Hope(?:[78]|10)[_ ](?:Mate|Max|Pro|Plus|LTE)|JOY(?:10|8) Mate|JOY10_LTE|Photo_P15_Lite|SHARP_2|SHARP1|V18 pro_A|Bison1";
  "(?i)X[_ ]TIGI[_ ]JOY7_TV";
  "(?i)(?:X_TIGI_)?JOY(10|[78])[ _]Mate";
  "(?i)Hope([78])[_ ](Mate|Max)";
  "(?i)Hope ?8 LTE";
  "(?i)Hope10[_ ]Pro";
  "(?i)Hope10[_ ]Plus";
  "(?i)X-TIGI[_ ]V28[_ ]LTE";
  "(?i)X[-_]TIGI[_ ]V19";
  "(?i)X[-_]TIGI[_ ]A1[_ ]?Plus";
  "(?i)X-TIGI[_ ]Photo[_ ]P11";
  "(?i)SHARP_?([12])";
  "(?i)X[-_]TIGI[ _-]([^/;)]+)(?: Build|[;)])";
  "(?i)X-View|(?:ZEN_U5\+|AMBER_KIDS|Proton_(?:Amber_HD|Neon|JADE_2_PRO)|TitaniumGTColorsGO|FTB13)(?:[);/ ]|$)";
  "(?i)ZEN_U5\+";
  "(?i)(FTB13)";
  "(?i)(?:X96Air_(?:A100|100W|V2|P[1-3])|X96_X6_I|X96Max_Plus_?(?:Ultra|[25]|Q[12])?|X96MATE_PLUS|X96MINI_11)(?:[);/ ]|$)";
  "(?i)X96Air_(100W|A100|V2|P[1-3])";
  "(?i)X96Max_Plus_?([25]|Q[12])";
  "(?i)X96Q(?:[);/ ]|$)";
  "(?i)(XB-T11i)(?:[);/ ]|$)";
  "(?i)XCOM[ _](?:X520|ISMART)(?:[);/ ]|$)";
  "(?i)XCOM[ _](X520)";
  "(?i)XCOM[ _]ISMART";
  "(?i)(V1277)(?:[);/ ]|$)";
  "(?i)XGEM[;,]";
  "(?i)XGEM[;,] ?([a-z0-9]+)(?:[);/ ]|$)";
  "(?i)(?:XGIMI TV|XK03H|MoGo Pro)(?:[);/ ]|$)";
  "(?i)(?:MagicDrawingPad)(?:[);/ ]|$)";
  "(?i)(?:X4000)(?:[);/ ]|$)";
  "(?i)(YT5760[ABL]|YT5716C?|YT7216C?|YT7260[BL]|YT9216[BC]J|YT9213AJ|YT9270)(?:[);/ ]|$)";
  "(?i)(Enia)(?:[);/ ]|$)";
  "(?i)(XDSR785HDR_AVANT)(?:[);/ ]|$)";
  "(?i)XGODY|(?:Y19\(EU\)|XGT_EEA|N01Pro| N02)(?:[);/ ]|$)";
  "(?i)XGODY Y17(?:[);/ ]|$)";
  "(?i)Y19\(EU\)";
  "(?i) N02(?:[);/ ]|$)";
  "(?i)XGODY_X96(?:[);/ ]|$)";
  "(?i)(XDH-(?:0F-A1|1[78]-A1|21-A1|29-B1|2A-B1)|XD-SDD05-2101)(?:[);/ ]|$)";
  "(?i)(LA2-(?:L|S[N]?)|HLA Note(?:3|1-L)|L7620DE|20190416Q|20170608S|20180322D|20190325D|20190718Q|20190417Q|20180101M|20170605Q)(?:[);/ ]|$)";
  "(?i)HLA Note3(?:[);/ ]|$)";
  "(?i)HLA Note1-L(?:[);/ ]|$)";
  "(?i)(LA2-(?:L|S[N]?))(?:[);/ ]|$)";
  "(?i)(20190416Q|L7620DE|20180101M|20170605Q)(?:[);/ ]|$)";
  "(?i)20170608S(?:[);/ ]|$)";
  "(?i)20180322D(?:[);/ ]|$)";
  "(?i)20190325D(?:[);/ ]|$)";
  "(?i)20190718Q(?:[);/ ]|$)";
  "(?i)20190417Q(?:[);/ ]|$)";
  "(?i)Xiaomi| ONC(?: Build|[;)])|MiTV-\w|Mi9 ?(?:Lite|SE)|MiProj(?:A1|M05)|Mi9 Pro 5G|(?:Mi5X|MI [a-z0-9]+|Mi-4c|MI-One[ _]?[a-z0-9]+|MIX(?: 2S?)?|MIX 2S ART|pomelo|rubyplus|AFTBTX4)(?:[);/ ]|$)|HM (?:[^/;]+) (?:Build|MIUI)|(?:2014501|2014011|201481[12378]|201302[23]|2013061) Build|Redmi|POCOPHONE|(?:SHARK )?KTUS-[AH]0|(?:SHARK )?(KLE|KSR|MBU|PAR)-[AH]0|SK[RW]-[AH]0|PRS-[AH]0|POCO F1|DLT-[AH]0|MIBOX[234]([_ ]PRO)?|MiTV4[ACSX]?|AWM-A0|MI CC 9 Meitu Edition|MiBOX1S|M2006J10C|M2006C3(?:L[IGC]|LVG|MN?G|MT)|M2007J1(?:7[CGI]|SC)|M2002(?:J9[SEG]|F4LG)|HM2014819|WT88047|210611(?:8C|19(?:BI|[AD]G|AL))|M2001(?:J[12]G|J2I|C3K3I)|M2004J1(?:5SC|9AG)|M2004J(?:7[AB]|19)[CG]|M2012K11(?:[CGI]|A[CI])|M2011K2[CG]|M2011J18C|M2006C3[ML]II|M2003J(?:15SC|15SS|6B2G|6A1G|6[AB]1I)|M2007J3S[ICYGP]|M2007J22[CG]|M2103K19[CGYI]|M2101K(?:[79]AG|7AI|7B[GI]|6[GIRP]|7BNY|9[GCR])|M2010J19S[CGYIL]|M2102(?:K1AC|K1[CG]|J2SC)|HM NOTE 1(?:LTE|W)|MI[_ ]PLAY|Qin 1s\+|Qin ?2(?: Pro)?|MI_(NOTE_Pro|5X|4i|(?:A2|8)_Lite)|A001XM|lancelot|XIG0[1-57]|2107119DC|M1810(?:F6LI|F6[GI])|M2101K(?:7BL|9AI)|A101XM|M2012K10C|M2104K10AC|M19(?:01F7[1S]|10F4S|08(?:F1XE|C3JGG)|08C3J[IH]|06F9S[IH]|02F1G|03C3GI)|21051182[CG]|21081111RG|2109119D[GI]|21091116(?:AI|[AU]?C|i|U[GI])|220111(?:7T[LGIY]|19TI|19UY|6S[IRC]|6TG|[67]SG|7SL)|21121(?:119S[CG]|23A[CG]|119VL|210C)|2204121(?:6[CI]|6UC|9[CGI]|9NY|1AC)|220333Q(?:AG|NY|L|BI)|2107113S[IGR]|22031(?:29G|116BG|21C)|PAR-H0|M2105K81A?C|2109119BC|2202(?:1119KR|1211RC|33L2[CGI])|22011(?:2[23][CG]|211C|16TI|17S[YI])|joyeuse|galahad|hydrogen|begonia|kenzo|willow|beryllium|rosemary|biloba| MD(?:G1|E5)|KLE-AO|Mi ?Pad ?\d|220612(?:18C|[23]SC)|2207(?:12(?:2MC|12AG|19AI)|33S(?:F?G|[ILH])|43FI)|2208(?:7RA4DI|1212(?:U?G|[CR])|128(?:1AC|3[GC]))|Black Shark|MZB82(?:98|5[57])IN|MZB0A5[HE]IN|2210(?:1317C|1320C|1316(?:U[PG]|UCP?|[CIG])|1(?:29SG|32[CG]))|2211(?:13(?:3[CG]|17I)|1317G)|23013RK75C|2305(?:3RN02[AYLI]|4RA19C)|2209(?:5RA98C|116AG|129SC)|2212(?:0RN86[CGIH]|6RN91Y|ARNC4L|2RK93C|7RK46C)|2302(?:6RN54G|1RAA(?:EI|EG|2[YG])|7RAD4I|8R(?:N4D[GI]|A60L|NCA[GI]))|angelican|vnd_camellia|2304(?:9RAD8C|FPN6D[GC]|6RP50C|3RP34[CGI]|6PNC9C)|2303(?:0RAC7Y|CRA44A|ERA42L)|M1908C3(?:[KJI]G|KH|I[CH])|M1906G7G|M1901F7G|M1903(?:F10I|C3GG|C3E[IG])|M1904F3BG|Hongmi [45]A?|M1912G7B[CE]|2307(?:7RABDC|6RN4BI|6RA4BR|6RN8DY|8PND5G|8RKD5C|6RA4BC|3RPBF[GCL]|BRPDCC)|2310(?:6RN0DA|8RN04Y)|2312(?:CRNCCL|DRA50G|9RAA4G|9RA5FL|9RN51[HX]|CRAD3C|DRAAB[CGI]|7PN0C[CG]|DRA50[CI]|4RA7EO|4RN87[CIG])|2311(?:6PN5B[CG]|BPN23C|7RA68G|DRN14I|7RK66C|FRAFDC|DRK48C|3RKC6C)|2308(?:CPXD0C|8PND5R)|24018RPAC[CG]|2404(?:ARN45A|8RN6C[GI]|0RN64Y|4RN32L|9RN28L)|2405(?:3PY09[CI]|CRPFD[CGL]|CPX3D[CG])|2306EPN60G|23090(?:RA98[CGI])|23100RN82L|2406(?:9RA21C|ERN9C[IC]|APNFAG)|2403(?:1PN0DC|0PN60G)|QIN3ULTRA|FengMiProjA2|A401XM|MZB8458IN|M1805E10A|M1803D5XA|2407(?:6RP19[GI]|FPN8E[GR]|2PX77C|FRK8EC|4RPD2[GI]|5RP89G)|2410CRP4C[CGI]|2411(?:DRN47[CI]|6RACCG|6RNC1I|5RA8E[CGI]|7RK2CC|7RN76[OLEG])|A201XM|2409(?:0RA29[CGI]|BRN2C[ACILGY]|4RAD4[CIG]|1RPAD[CG])| Mi8|MDE40|A301XM|2410DPN6CC|2412(?:9PN74[CGI]|9RT7CC|7RK2CC|2RKC7C)|2501(?:0PN30[CGI]|9PNF3C)|2502(?:8RN03[ALIY]|FRA65G)|2504(?:2PN24C|0RP0A[EG])|2505(3RT47C|DRP06[EGI])|2506(?:7PYE3C|0RK16C|BPN68G|9PTEBG|2RN2D[AELY])|25078RA3E[AEYL]|2508(?:CRN2BE|0RABDC)|2509(?:8PN5AC|FPN0BC|9RP13G|BRP2DG)|25113PN0EC|25104RADAC";
  "(?i)SKR-[AH]0";
  "(?i)SKW-[AH]0";
  "(?i)DLT-[AH]0";
  "(?i)(?:SHARK )?KLE-A[0O]";
  "(?i)(?:SHARK )?KSR-[AH]0";
  "(?i)(?:SHARK )?KLE-H0";
  "(?i)(?:SHARK )?MBU-H0";
  "(?i)(?:SHARK )?MBU-A0";
  "(?i)(?:SHARK )?PRS-[AH]0";
  "(?i)(?:SHARK )?PAR-[AH]0";
  "(?i)(?:SHARK )?KTUS-[AH]0";
  "(?i)Black Shark ([^/);]+)(?: Build|[;)])";
  "(?i)Xiaomi_2014501|2014501 Build";
  "(?i)Xiaomi_2014011|2014011 Build";
  "(?i)Xiaomi_201302[23]|201302[23] Build";
  "(?i)Xiaomi[_-]2014818|2014818 Build";
  "(?i)Xiaomi_2014817|2014817 Build";
  "(?i)Xiaomi[_-]201481[123]|201481[123] Build";
  "(?i)Hongmi ([45]A?)";
  "(?i)MI[_ ]PLAY(?:[);/ ]|$)";
  "(?i)Mi ?9 ?SE(?:[);/ ]|$)";
  "(?i)(?:Mi ?9 Lite|M1904F3BG)(?:[);/ ]|$)";
  "(?i)(?:Xiaomi_)?M1902F1[GT]"
].
Definition d_dr_re1_23 : list blob := [
  "(?i)MI CC 9e|MI CC9e";
  "(?i)MI CC ?9 Pro";
  "(?i)MI CC 9(?: Meitu Edition)?(?:[);/ ]|$)";
  "(?i)(?:Xiaomi_)?(?:M2001J2E_TD-LTE|M2001J2[GI])(?:[);/ ]|$)";
  "(?i)(?:Xiaomi_)?(?:Mi 10 Pro|M2001J1[EG](?:_TD-LTE)?)(?:[);/ ]|$)";
  "(?i)M2011K2[CG](?:[);/ ]|$)";
  "(?i)21091116UI(?:[);/ ]|$)";
  "(?i)M2012K11AI(?:[);/ ]|$)";
  "(?i)(?:M2012K11I|Mi 11X Pro)(?:[);/ ]|$)";
  "(?i)M2007J3S[GI](?:[);/ ]|$)";
  "(?i)M2007J17G(?:[);/ ]|$)";
  "(?i)M2007J3S[CYP](?:[);/ ]|$)";
  "(?i)M2007J1SC(?:[);/ ]|$)";
  "(?i)M2102J2SC(?:[);/ ]|$)";
  "(?i)(?:M2002J9[EGS]|XIG01|Mi 10 Lite 5G)(?:[);/ ]|$)";
  "(?i)M2007J17I(?:[);/ ]|$)";
  "(?i)(?:M2012K11G|MZB0A5EIN)(?:[);/ ]|$)";
  "(?i)(?:2107113S[IGR]|Xiaomi 11T Pro)(?:[);/ ]|$)";
  "(?i)(?:21081111RG|Xiaomi 11T)(?:[);/ ]|$)";
  "(?i)(?:2109119DI|(?:Xiao)?mi 11 Lite (?:5G )?NE)(?:[);/ ]|$)";
  "(?i)(?:M2101K9[GCR]|2109119DG|Mi 11 Lite 5G)(?:[);/ ]|$)";
  "(?i)(?:M2101K9A[GI]|Mi 11 Lite)(?:[);/ ]|$)";
  "(?i)M2102K1[CG](?:[);/ ]|$)";
  "(?i)(?:M2102K1AC|Mi 11 Pro)(?:[);/ ]|$)";
  "(?i)2201122[CG](?:[);/ ]|$)";
  "(?i)2201123[CG](?:[);/ ]|$)";
  "(?i)2209116AG(?:[);/ ]|$)";
  "(?i)22071212AG(?:[);/ ]|$)";
  "(?i)(?:2207122MC|Xiaomi 12 Pro Dimensity)(?:[);/ ]|$)";
  "(?i)(?:22081212(?:U?G|[CR])|Xiaomi 12T Pro|A201XM)(?:[);/ ]|$)";
  "(?i)(?:2206122SC|Xiaomi 12S Pro)(?:[);/ ]|$)";
  "(?i)(?:2206123SC)(?:[);/ ]|$)";
  "(?i)(?:2203121C|Xiaomi 12S Ultra)(?:[);/ ]|$)";
  "(?i)2203129G(?:[);/ ]|$)";
  "(?i)(?:2112123A[CG]|Xiaomi 12X)(?:[);/ ]|$)";
  "(?i)2210132[CG](?:[);/ ]|$)";
  "(?i)(?:2210129SG|Xiaomi 13 Lite)(?:[);/ ]|$)";
  "(?i)2211133[CG](?:[);/ ]|$)|Xiaomi 13(?: Build|[;)])";
  "(?i)(?:2304FPN6D[CG]|Xiaomi 13 Ultra)(?:[);/ ]|$)";
  "(?i)(?:23078PND5G|23088PND5R|Xiaomi 13T Pro|A301XM)(?:[);/ ]|$)";
  "(?i)(?:2306EPN60G|XIG04)(?:[);/ ]|$)";
  "(?i)23127PN0C[CG](?:[);/ ]|$)";
  "(?i)(?:24031PN0DC|24030PN60G|Xiaomi 14 Ultra)(?:[);/ ]|$)";
  "(?i)24053PY09I(?:[);/ ]|$)";
  "(?i)(?:23116PN5B[CG]|Xiaomi 14 Pro)(?:[);/ ]|$)";
  "(?i)(?:2311BPN23C)(?:[);/ ]|$)";
  "(?i)(2407FPN8E[GR]|2406APNFAG|Xiaomi 14T Pro)(?:[);/ ]|$)";
  "(?i)XIG07(?:[);/ ]|$)";
  "(?i)2410DPN6CC|Xiaomi15 Pro";
  "(?i)24129PN74[CGI]";
  "(?i)2501(?:0PN30[CGI]|9PNF3C)";
  "(?i)MI[ _]8[ _]?Lite(?:[);/ ]|$)";
  "(?i)MI 8 Explorer Edition(?:[);/ ]|$)";
  "(?i)MI ?8 ?([a-z]+)(?:[);/ ]|$)";
  "(?i)Mi ?8(?:[);/ ]|$)";
  "(?i)Mi 9T Pro(?:[);/ ]|$)";
  "(?i)(?:Mi ?9 Pro 5G|M1908F1XE)(?:[);/ ]|$)";
  "(?i)MI 9 Transparent Edition(?:[);/ ]|$)";
  "(?i)MI ([89]) Lite(?:[);/ ]|$)";
  "(?i)MI 5s Plus(?:[);/ ]|$)";
  "(?i)Xiaomi_MDT2|Mi5X(?:[);/ ]|$)";
  "(?i)Xiaomi_2013061|2013061 Build";
  "(?i)Mi[- ]([43])c(?:[);/ ]|$)";
  "(?i)MI 4W(?:[);/ ]|$)";
  "(?i)Mi_4i(?:[);/ ]|$)";
  "(?i)MI 4 ?LTE(?:[);/ ]|$)";
  "(?i)MI MAX ([23])(?:[);/ ]|$)";
  "(?i)(?:MI MAX|hydrogen)(?:[);/ ]|$)";
  "(?i)MDE40(?:[);/ ]|$)";
  "(?i)Mi[ _]A2[ _]Lite(?:[);/ ]|$)";
  "(?i)M1906F9S[IH](?:[);/ ]|$)";
  "(?i)2106118C(?:[);/ ]|$)";
  "(?i)MDE5(?:[);/ ]|$)";
  "(?i)M1803D5XA(?:[);/ ]|$)";
  "(?i)Mi MIX 3 5G(?:[);/ ]|$)";
  "(?i)MIX ([23])(?:[);/ ]|$)";
  "(?i)MIX 2S ART(?:[);/ ]|$)";
  "(?i)MIX 2S(?:[);/ ]|$)";
  "(?i)MIX(?:[);/ ]|$)";
  "(?i)2405CPX3D[CG]";
  "(?i)24072PX77C(?:[);/ ]|$)";
  "(?i)Mi Note 3(?:[);/ ]|$)";
  "(?i)POCOPHONE[ _]F1|POCO F1|beryllium|M1805E10A";
  "(?i)M1903C3G[IG]";
  "(?i)24069RA21C|Redmi Turbo 3";
  "(?i)MDG1(?:[);/ ]|$)";
  "(?i)WT88047(?:[);/ ]|$)";
  "(?i)HM2014819(?:[);/ ]|$)";
  "(?i)HM 2A(?:[);/ ]|$)";
  "(?i)HM 1S[CW]?(?:[);/ ]|$)";
  "(?i)HM 1(?:[);/ ]|$)";
  "(?i)(?:M2001C3K3I|MZB8298IN|M1908C3K[GH]|MZB8458IN)(?:[);/ ]|$)";
  "(?i)(?:MZB825[57]IN|M1908C3I[CG]|M1908C3IH)(?:[);/ ]|$)";
  "(?i)Redmi 8A (Dual|Pro)(?:[);/ ]|$)";
  "(?i)(?:M2004J7AC|M2004J15SC|Redmi 10X (?:4G|LTE))(?:[);/ ]|$)";
  "(?i)220333Q(?:AG|NY|L)(?:[);/ ]|$)";
  "(?i)(?:2310(?:6RN0DA|8RN04Y|0RN82L)|2311DRN14I)(?:[);/ ]|$)";
  "(?i)2404(?:ARN45A|0RN64Y|9RN28L)";
  "(?i)23124RN87[CIG]";
  "(?i)2409BRN2C[ACILY]";
  "(?i)25078RA3E[AEYL]";
  "(?i)25062RN2D[AELY]";
  "(?i)(?:M2004J19[CG]|M2006C3MII|lancelot|galahad|M2004J19AG)(?:[);/ ]|$)";
  "(?i)(?:M2004J19I|Redmi 9 Prime)(?:[);/ ]|$)";
  "(?i)(?:M2010J19S[IL]|Redmi 9 Power)(?:[);/ ]|$)";
  "(?i)M2006C3L[GCI](?:[);/ ]|$)";
  "(?i)M2006C3LII(?:[);/ ]|$)";
  "(?i)MZB0A5HIN(?:[);/ ]|$)";
  "(?i)M2006C3M[GT](?:[);/ ]|$)";
  "(?i)M2006C3LVG(?:[);/ ]|$)";
  "(?i)(?:M2010J19S[GY]|pomelo|Redmi 9T, Note 9 4G, 9 Power)(?:[);/ ]|$)";
  "(?i)Redmi 9T NFC(?:_SN)?(?:[);/ ]|$)";
  "(?i)(?:M2006C3MNG|Redmi 9C NFC|angelican)(?:[);/ ]|$)";
  "(?i)(?:22041219(?:G|NY)|Redmi 10 5G)(?:[);/ ]|$)";
  "(?i)(?:21061119D[CG])(?:[);/ ]|$)";
  "(?i)(?:220333QBI|Redmi 10 Power)(?:[);/ ]|$)";
  "(?i)220233L2[CGI](?:[);/ ]|$)";
  "(?i)(?:21061119A[GL]|21121119(?:SG|VL)|22011119UY|Redmi 10 2022)(?:[);/ ]|$)";
  "(?i)(?:22041219I|Redmi 10 Prime\+ 5G)(?:[);/ ]|$)";
  "(?i)22011119TI(?:[);/ ]|$)";
  "(?i)(?:21061119[BT]I|Redmi 10 Prime)(?:[);/ ]|$)";
  "(?i)(?:M2004J7BC|Redmi 10X Pro)(?:[);/ ]|$)";
  "(?i)22120RN86[GIH]|22126RN91Y|2212ARNC4L";
  "(?i)23053RN02[AYLI]";
  "(?i)(?:23076(?:RN8DY|RA4BR|RN4BI)|23077RABDC|XIG03|Redmi 12 5G|A401XM)(?:[);/ ]|$)";
  "(?i)22071219AI(?:[);/ ]|$)";
  "(?i)Redmi K20 Pro Premium Edition(?:[);/ ]|$)";
  "(?i)Redmi K20Pro(?:[);/ ]|$)";
  "(?i)Redmi K30 Pro Zoom Edition(?:[);/ ]|$)";
  "(?i)Redmi K30 Pro Zoom(?:[);/ ]|$)";
  "(?i)Redmi K30S Ultra(?:[);/ ]|$)";
  "(?i)Redmi K([23]0) Pro(?:[);/ ]|$)";
  "(?i)Redmi K30 5G(?:[);/ ]|$)";
  "(?i)M1912G7B[CE](?:[);/ ]|$)";
  "(?i)Redmi K30i 5G(?:[);/ ]|$)";
  "(?i)M2012K11AC(?:[);/ ]|$)";
  "(?i)22021211RC(?:[);/ ]|$)";
  "(?i)(?:M2012K10C|Redmi K40 Gaming)(?:[);/ ]|$)";
  "(?i)Redmi K40 Pro\+(?:[);/ ]|$)";
  "(?i)(?:M2012K11C|Redmi K40 Pro)(?:[);/ ]|$)";
  "(?i)(?:M2006J10C|Redmi K30 Ultra)(?:[);/ ]|$)";
  "(?i)22011211C|Redmi K50 Pro";
  "(?i)22127RK46C|Redmi K60 Pro";
  "(?i)23078RKD5C|Redmi K60 Ultra";
  "(?i)241[12]7RK2CC|24122RKC7C";
  "(?i)Redmi Y1 Lite(?:[);/ ]|$)";
  "(?i)M1810F6[GI]";
  "(?i)ONC(?: Build|[;)])|M1810F6LI";
  "(?i)M1903C3E[IG]";
  "(?i)Redmi (\d+) Pro(?:[);/ ]|$)";
  "(?i)Redmi 4 Prime(?:[);/ ]|$)";
  "(?i)(?:220733SFG|Redmi A1\+|220743FI)(?:[);/ ]|$)";
  "(?i)220733S[GHIL](?:[);/ ]|$)";
  "(?i)2302(?:8RN4D[GI]|6RN54G)";
  "(?i)23028RNCA[GI]";
  "(?i)23129RN51[XH]";
  "(?i)2404(?:4RN32L|8RN6C[GI])";
  "(?i)25028RN03[ALIY]";
  "(?i)Qin ?2 Pro(?:[);/ ]|$)";
  "(?i)Qin 2(?:[);/ ]|$)";
  "(?i)2107119DC(?:[);/ ]|$)";
  "(?i)2109119BC(?:[);/ ]|$)";
  "(?i)2209129SC(?:[);/ ]|$)";
  "(?i)Civi 1S(?:[);/ ]|$)";
  "(?i)(?:M2105K81AC|22081281AC|(?:Xiao)?mi Pad 5 Pro)(?:[);/ ]|$)";
  "(?i)(?:21051182[CG]|(?:Xiao)?mi Pad 5)(?:[);/ ]|$)";
  "(?i)M2105K81C(?:[);/ ]|$)";
  "(?i)(?:23046RP50C|Pad 6 Pro)(?:[);/ ]|$)";
  "(?i)24091RPAD[CG]";
  "(?i)2410CRP4C[CGI]";
  "(?i)23043RP34[CGI]|Xiaomi Pad 6(?: Build|[;)])";
  "(?i)2307BRPDCC(?:[);/ ]|$)";
  "(?i)(?:24018RPAC[CG]|Xiaomi Pad 6S Pro 12\.4)(?:[);/ ]|$)";
  "(?i)MI (?:PAD ?4 ?PLUS|Pad4\+)(?:[);/ ]|$)";
  "(?i)MI PAD4 Wi-?Fi(?:[);/ ]|$)";
  "(?i)MI PAD 4(?:[);/ ]|$)";
  "(?i)MI ?PAD 3(?:[);/ ]|$)";
  "(?i)MI PAD 2(?:[);/ ]|$)";
  "(?i)MI PAD(?:[);/ ]|$)";
  "(?i)22081283[GC](?:[);/ ]|$)";
  "(?i)2405CRPFD[CGL](?:[);/ ]|$)";
  "(?i)2407(?:6RP19[GI]|5RP89G)|Redmi Pad SE 8\.7";
  "(?i)(?:23073RPBF[GCL]|Redmi Pad SE)(?:[);/ ]|$)";
  "(?i)24074RPD2[CGI]";
  "(?i)2505DRP06[EG]";
  "(?i)25040RP0A[EG]";
  "(?i)FengMiProjA2(?:[);/ ]|$)";
  "(?i)MIBOX3[ _]Pro(?:[);/ ]|$)";
  "(?i)MIBOX([234])(?:[);/ ]|$)";
  "(?i)MiBOX1S(?:[);/ ]|$)";
  "(?i)MiTV-MSSP[123](?:[);/ ]|$)";
  "(?i)MiTV-MTEQ0(?:[);/ ]|$)";
  "(?i)MiTV-AESP0(?:[);/ ]|$)";
  "(?i)MiTV-(?:ANSP0|AYFR0)(?:[);/ ]|$)";
  "(?i)MiTV-MOOQ0(?:[);/ ]|$)";
  "(?i)MiTV-MOSR1(?:[);/ ]|$)";
  "(?i)MiTV-MOOQ1(?:[);/ ]|$)";
  "(?i)MiTV-MOOR4(?:[);/ ]|$)";
  "(?i)(?:MiTV-AXSO0|MiTV4(?:A|-ANSM0)|MiTV-MSSP0)(?:[);/ ]|$)";
  "(?i)MiTV-AXSO[12](?:[);/ ]|$)"
].
Definition d_dr_re1_24 : list blob := [
  "(?i)MiTV(4[CSXI]|4)(?:[);/ ]|$)";
  "(?i)MiTV-AFKR0(?:[);/ ]|$)";
  "(?i)AFTBTX4(?:[);/ ]|$)";
  "(?i)MiTV-([A-Z]{4}[0-9]{1})(?:[);/ ]|$)";
  "(?i)M2011J18C(?:[);/ ]|$)";
  "(?i)22061218C(?:[);/ ]|$)";
  "(?i)(?:2308CPXD0C|Mix Fold 3)(?:[);/ ]|$)";
  "(?i)HM NOTE 1W(?:[);/ ]|$)";
  "(?i)HM NOTE 1TD (?:Build|MIUI)";
  "(?i)HM NOTE 1(?:LTE|S)(?:W|GLOBAL|TD)? (?:Build|MIUI)|HM NOTE 1LTE";
  "(?i)Xiaomi[_ ]2015052";
  "(?i)(?:M2010J19SC|M2003J15SS|Redmi Note 9 4G)(?:[);/ ]|$)";
  "(?i)M2003J6A1G(?:[);/ ]|$)";
  "(?i)M2003J15SC(?:[);/ ]|$)";
  "(?i)(?:M2101K7BL|rosemary)(?:[);/ ]|$)";
  "(?i)(?:M2007J22G|A001XM)(?:[);/ ]|$)";
  "(?i)M2007J22C(?:[);/ ]|$)";
  "(?i)M2007J17C(?:[);/ ]|$)";
  "(?i)(?:joyeuse|M2003J6(?:B2G|A1I))(?:[);/ ]|$)";
  "(?i)Redmi Note 10 Lite|M2002F4LG(?:[);/ ]|$)";
  "(?i)(?:Redmi Note ?9 Pro Max|M2003J6B1I)(?:[);/ ]|$)";
  "(?i)M2101K7A[GI]";
  "(?i)M2103K19Y|22021119KR";
  "(?i)M2101K7B(?:[GI]|NY)(?:[);/ ]|$)";
  "(?i)(?:M2103K19[GC]|Redmi Note 10 5G|vnd_camellia)(?:[);/ ]|$)";
  "(?i)M2103K19I|A101XM|Redmi Note 10T 5G";
  "(?i)XIG02(?:[);/ ]|$)";
  "(?i)(?:M2101K6[GIRP]|M2104K10AC|Redmi Note 10 Pro)(?:[);/ ]|$)";
  "(?i)rubyplus(?:[);/ ]|$)";
  "(?i)22101316[CIG]";
  "(?i)23021RAA(?:EI|2G)";
  "(?i)(?:22101320C|Redmi Note 12 Pro Speed)(?:[);/ ]|$)";
  "(?i)2303(?:0RAC7Y|CRA44A|ERA42L|Redmi Note 12S)(?:[);/ ]|$)";
  "(?i)(?:2302(?:1RAA2Y|1RAAEG|8RA60L|7RAD4I)|22101317C|22111317G)(?:[);/ ]|$)";
  "(?i)(?:Redmi Note 12R Pro)(?:[);/ ]|$)";
  "(?i)(?:23076RA4BC|Redmi Note 12R)(?:[);/ ]|$)";
  "(?i)(?:23049RAD8C)(?:[);/ ]|$)";
  "(?i)(?:23054RA19C)(?:[);/ ]|$)";
  "(?i)(?:22101316UC)(?:[);/ ]|$)";
  "(?i)(?:22101316UG|Redmi Note 12 Pro\+ 5G)(?:[);/ ]|$)";
  "(?i)22101316UP(?:[);/ ]|$)";
  "(?i)22101316UCP(?:[);/ ]|$)";
  "(?i)22111317I(?:[);/ ]|$)";
  "(?i)(?:21091116C|2201116T[IG])(?:[);/ ]|$)";
  "(?i)(?:2312(?:CRAD3C|DRA50C)|23117RA68G)(?:[);/ ]|$)";
  "(?i)(?:2311FRAFDC)(?:[);/ ]|$)";
  "(?i)(?:2312DRA50[GI]|Redmi Note 13 Pro 5G|XIG05)(?:[);/ ]|$)";
  "(?i)2312(?:4RA7EO|9RAA4G|9RA5FL)(?:[);/ ]|$)";
  "(?i)(?:23090RA98C)(?:[);/ ]|$)";
  "(?i)(?:24115RA8E[CGI])(?:[);/ ]|$)";
  "(?i)(?:24090RA29C|24116RACCG)(?:[);/ ]|$)";
  "(?i)24090RA29[GI]";
  "(?i)2409(?:4RAD4[CIG])";
  "(?i)24117RN76[OLEG]";
  "(?i)(?:23090RA98[GI]|Redmi Note 13 Pro\+ 5G)(?:[);/ ]|$)";
  "(?i)(?:2312DRAAB[CGI]|Redmi Note 13 5G)(?:[);/ ]|$)";
  "(?i)(?:2201116SC|Redmi Note 11E Pro)(?:[);/ ]|$)";
  "(?i)(?:22041219C|Redmi Note 11E)(?:[);/ ]|$)";
  "(?i)(?:22041216C|Redmi Note 11T Pro)(?:[);/ ]|$)";
  "(?i)22041216UC(?:[);/ ]|$)";
  "(?i)(?:2201116S[GR]|Redmi Note 11 Pro 5G)(?:[);/ ]|$)";
  "(?i)(?:2201116SI|Redmi Note 11 Pro\+ 5G)(?:[);/ ]|$)";
  "(?i)(?:21091116U[CG]|Redmi Note 11 Pro\+)(?:[);/ ]|$)";
  "(?i)21091116AC(?:[);/ ]|$)";
  "(?i)22095RA98C(?:[);/ ]|$)";
  "(?i)(?:21121119SC|2201117T[GILY]|Redmi Note 11 4G)(?:[);/ ]|$)";
  "(?i)(?:22087RA4DI|Redmi Note 11 SE)(?:[);/ ]|$)";
  "(?i)2201117S[GIYL]";
  "(?i)(?:22031116BG|Redmi Note 11S 5G)(?:[);/ ]|$)";
  "(?i)(?:21091116(?:AI|I)|Redmi Note 11T 5G)(?:[);/ ]|$)";
  "(?i)(?:M1908C3J[IH]|M1908C3JG)(?:[);/ ]|$)";
  "(?i)(?:M1908C3JGG|Redmi Note 8 \(2021\)|biloba)(?:[);/ ]|$)";
  "(?i)(?:begonia|M1906G7G)(?:[);/ ]|$)";
  "(?i)willow(?:[);/ ]|$)";
  "(?i)M1901F71(?:[);/ ]|$)";
  "(?i)M1901F7S(?:[);/ ]|$)";
  "(?i)M1901F7G(?:[);/ ]|$)";
  "(?i)Redmi Note (\d+) Pro Max(?:[);/ ]|$)";
  "(?i)Redmi Note (\d+) Pro(?:[);/ ]|$)";
  "(?i)Redmi[ _]Note[ _]([^;/) ]+)?";
  "(?i)Redmi[ _]([^;/) ]+)?";
  "(?i)Mi Note 10 Pro|M1910F4S(?:[);/ ]|$)";
  "(?i)Mi Note 10|M1910F4G(?:[);/ ]|$)";
  "(?i)MI[ _]Note[ _]([^;/) ]+)?";
  "(?i)Qin 1s\+";
  "(?i)MI[- ]One[ _]?Plus(?:[);/ ]|$)";
  "(?i)Mi[- ]One[ _]?([a-z0-9]+)?(?: Build|[);])";
  "(?i)MI[ _]([^;/]*) Build";
  "(?i)MI[ _]([a-z0-9]+)(?:[);/ ]|$)";
  "(?i)HM Note ([^/;]+) (?:Build|MIUI)";
  "(?i)HM ([^/;]+) (?:Build|MIUI)";
  "(?i)Xiaomi[ _-]([^/;]+)(?: Build|$)";
  "(?i)XI[_-]CE(?:655|U55|U[48])";
  "(?i)XI[_-]CE(655|U55|U[48])";
  "(?i)Xolo|(?:Q600|Q700s?|Q800|Q1000s|Q1000[ _]Opus|Q1010i|Q2000|Omega[ _]5\.[05]|Era5X|Era[ _]2[VX](?:[_ ]3GB)?|era[ _]X|era_HD|era[_ ]4[GK]|Era_4?X(?:_2GB)?|BLACK-1XM|A1000s_Lite|cube 5\.0_2GB|Opus 3|era1X|era [2X]|era1Xpro)(?:[);/ ]|$)";
  "(?i)BLACK-?1XM?";
  "(?i)Era[ _]?1X ?Pro";
  "(?i)Era[_ ]?([145])X(?:[);/ ]|$)";
  "(?i)Era_4X_2GB(?:[);/ ]|$)";
  "(?i)Era[ _]2V(?:[);/ ]|$)";
  "(?i)era[_ ](HD|4[GK]|2X?|X)";
  "(?i)cube 5\.0_2GB";
  "(?i)(Q600 Club|Q600|Q700s?|Q800|Q1000s Plus|Q1000s|Q1000[ _]Opus|Q1010i|Q2000|Omega[ _]5\.[05]|A1000s_Lite|Opus 3)(?:[);/ ]|$)";
  "(?i)Xolo[ _]?([^;/]+) Build";
  "(?i)Xolo[ _]?([a-z0-9_-]+)";
  "(?i)XORO[ _]|(?:TelePAD(?:795|731|1032|10A3|7A3)|HMT(?:390Q?|400)|HST 260)(?:[);/ ]|$)";
  "(?i)TelePAD(7|10)A3 4G(?:[);/ ]|$)";
  "(?i)TelePAD(795|731|1032)(?:[);/ ]|$)";
  "(?i)MegaPAD3204V5(?:[);/ ]|$)";
  "(?i)HMT(390Q?|400)(?:[);/ ]|$)";
  "(?i)HST 260(?:[);/ ]|$)";
  "(?i)Xshitou[_ ](P7)(?:[);/ ]|$)";
  "(?i)(?:Xsmart (?:Nova 7|Mate 10)|CORE_X)(?:[);/ ]|$)";
  "(?i)Xsmart (Nova 7|Mate 10)";
  "(?i)(?:Xtouch[ _](?:X10|A5|X)|XBot[_ ](?:Senior|Junior)|X9_16GB|XP10_Wifi)(?:[);/ ]|$)";
  "(?i)Xtouch[ _](X10|A5|X)(?:[);/ ]|$)";
  "(?i)X9_16GB(?:[);/ ]|$)";
  "(?i)XBot[_ ](Senior|Junior)";
  "(?i)(?:BRIO[_ ]X31|XM14G|X10MT(?:16|87))(?:[);/ ]|$)";
  "(?i)(BRIO[_ ]X31)";
  "(?i)Xpad_(M9_3G)";
  "(?i)YASIN ([24])K G Smart TV";
  "(?i)YASIN (?:Android|2K) (?:Android )?TV(?:[);/ ]|$)";
  "(?i)YASIN 4K Android TV(?:[);/ ]|$)";
  "(?i)(YY-\d{3}[a-z]?)";
  "(?i)M20201419(?:[);/ ]|$)";
  "(?i)Pad6 PLUS(?:[);/ ]|$)";
  "(?i)(?:X109|(?:Y103|Y61|Q11)[-_]EEA)(?:[);/ ]|$)";
  "(?i)(Y103|Q11|Y61)[-_]EEA";
  "(?i)(X109)(?:[);/ ]|$)";
  "(?i)YU Fly (\w+)";
  "(?i)YUHO_|(?:Netra(?:[_ ](?:Plus|Lite))?)(?:[);/ ]|$)";
  "(?i)YUHO_(O2|H2|Y[123])_PRO";
  "(?i)(?:YUHO_)?(Vast2?|O[12]|Y2|Netra(?:[_ ](?:Plus|Lite))?)(?:[);/ ]|$)";
  "(?i)(?:U320|(?:L211|N10|U221|U310)-EEA)(?:[);/ ]|$)";
  "(?i)(L211|N10|U221|U310)-EEA";
  "(?i)YUNDOO[ _-]([^/;)]+)(?: Build|[);])";
  "(?i)(?:YNDX-?00(?:0SB|10[12]|055|07[1-9]|08[01]|09[1-6])|YandexModule2-00001|yandexstation_2)(?:[);/ ]|$)";
  "(?i)YNDX-?(0007[1-9]|0008[01]|0009[1-6]|0010[12])";
  "(?i)YNDX-?000SB";
  "(?i)YNDX-?00055";
  "(?i)Xenta[ -]Tab|Luna TAB|TAB09-410|TAB10-410|TAB07-485|TAB0[78]-200|TAB08-201-3G|TAB9-200|TAB09-211|TAB10-2[01]1|TAB13-201";
  "(?i)Luna TAB07-10[01]";
  "(?i)Xenta-TAB07-21[01]";
  "(?i)TAB10-2[01]1";
  "(?i)M631Y|M685Y4|M651G_MY|YES (?:Altitude 4|MPY(?:48|54))";
  "(?i)YES (Altitude 4|MPY(?:48|54))";
  "(?i)yestel|(?:T5|T13|X2)_EEA(?:[);/ ]|$)";
  "(?i)yestel P30(?:[);/ ]|$)";
  "(?i)(X2|T5|T13)_EEA(?:[);/ ]|$)";
  "(?i)Yezz|ANDY[ _]|(?: (?:4E4|5EQ)|A5EI|LIV[ _][13]S?|LIV1|LIV2[_ ]?LTE|ART ?[123](?:_?PRO|S)?|MAX_1_PLUS|MAX2 PLUS|EPIC T|GO ?[123])(?:[);/ ]|$)";
  "(?i)(?:YEZZ[_-])?(4E4|5EQ|A4M|A5EI)";
  "(?i)GO ?([123])";
  "(?i)LIV[ _]([13])S";
  "(?i)LIV2[_ ]?LTE";
  "(?i)Andy[ _]([A-Z]*[0-9]\.[0-9][A-Z0-9]*)(?:[ _](LTE))?";
  "(?i)Andy[ _]([A-Z]*[0-9])([0-9][A-Z0-9]*)(?:[ _](LTE))?";
  "(?i)Andy[ _]([A-Z]*[0-9][A-Z0-9]+)(?:[ _](LTE))?";
  "(?i)KB2 PRO(?:[);/ ]|$)";
  "(?i)YPAD(P70[12])(?:[);/ ]|$)";
  "(?i)(YD20[16]|YOTA 3[+])(?:[);/ ]|$)";
  "(?i)YD20[16](?:[);/ ]|$)";
  "(?i)YOTA 3[+](?:[);/ ]|$)";
  "(?i)YOU-BOX(?:[);/ ]|$)";
  "(?i)YOU-BOX(?:[);/ ]|$)";
  "(?i)Youwei[ _]";
  "(?i)youwei[ _]mini5G(?:[);/ ]|$)";
  "(?i)YTONE[ _-]";
  "(?i)YTONE[ _-]?([^/;]+) Build";
  "(?i)YTONE[ _-]?([^);/ ]+)";
  "(?i)(?:YU5[05]10[A]?|YU(?:4711|5200|5050|501[14]|5551)|AO5510|YU Yureka Black|YU 6000)(?:[);/ ]|$)";
  "(?i)YU5010[A]?";
  "(?i)YU5510[A]?";
  "(?i)YU (Yureka Black)";
  "(?i)(?:N101[ _]DUAL(?:[ _]CORE)?(?:[ _]?2)?(?:[ _]V11)?|N70 DUAL CORE)(?:[);/ ]|$)";
  "(?i)N(101|70)[ _]DUAL(?:[ _]CORE)?(?:[ _]?2)?";
  "(?i)(?:YS[78]pro|YS6 Pro)(?:[);/ ]|$)";
  "(?i)YS([678]) ?pro";
  "(?i)YUNO\.|ULX-(?:55UTCS3234|32TCS226|43UTCS347|39TCS222|50UTCS3234|43FTCS2234|32TCSW2234|24TCS221)";
  "(?i)ULX-(\d{2}[FU]?TCSW?\d{2,4})-T9";
  "(?i)ULX-(\d{2}[FU]?TCSW?\d{2,4})";
  "(?i)Yusun|LA2-T";
  "(?i)Yusun ([^;/]+) Build";
  "(?i)Yusun ([a-z0-9_\-\+]+)";
  "(?i)YXTEL_([HU]1|U3)(?:[);/ ]|$)";
  "(?i)(ZMOOTH)(?:[);/ ]|$)";
  "(?i)ZALA(?: SmartBox)? (DV9135)(?:[);/ ]|$)";
  "(?i)(?:Odyssey[_ ](?:evo|DTV[67]|J[59]|J10|GLAZE\+?|RANGE|ACE|AEON|VICTORY|SACRED|SAGA|SWIFT|O2|ULTRA|FLAME|POPO|PERRI|TYTAN|HIGH|SOAR|ERA)|ODYSSEY[ _]?NEXT|INTENSE (?:RISE|Hype|GAME))(?:[);/ ]|$)";
  "(?i)ODYSSEY[ _]J10[ _]Mini";
  "(?i)ODYSSEY[ _](O2|J[95]|DTV[67]|J10)";
  "(?i)ODYSSEY[_ ]AEON";
  "(?i)ODYSSEY[_ ]ACE";
  "(?i)ODYSSEY[_ ]ULTRA";
  "(?i)ODYSSEY[ _]?NEXT";
  "(?i)ODYSSEY[ _]PERRI";
  "(?i)ODYSSEY[_ ]FLAME";
  "(?i)ODYSSEY[_ ]evo";
  "(?i)ODYSSEY[_ ]Victory";
  "(?i)ODYSSEY[_ ]SWIFT";
  "(?i)ODYSSEY[_ ]TYTAN"
].
Definition d_dr_re1_25 : list blob := [
  "(?i)ODYSSEY[_ ]SAGA";
  "(?i)ODYSSEY[_ ]SACRED";
  "(?i)ODYSSEY[_ ]POPO";
  "(?i)ODYSSEY[_ ]RANGE";
  "(?i)Odyssey[_ ]GLAZE\+";
  "(?i)Odyssey[_ ]GLAZE";
  "(?i)Odyssey[_ ]HIGH";
  "(?i)Odyssey[_ ]SOAR";
  "(?i)Odyssey[_ ]ERA";
  "(?i)(65W600U)(?:[);/ ]|$)";
  "(?i)ZIFRO|(?:ZT-97003G)(?:[);/ ]|$)";
  "(?i)(ZT-9700)3G";
  "(?i)ZIK[_ ](W1027)(?:[);/ ]|$)";
  "(?i)(Z168)_EEA(?:[);/ ]|$)";
  "(?i)ZTE|AxonPhone|([a-z0-9]+)_USA_Cricket|(?:Blade[ _](?:A[57] 20(?:19|20)(?:RU)?|(?:V1000|L8)RU|E01|V0820|L110|L[2357]|L210(?:RU)?|L7A|L8|S6|V[6789]|V8Q|V8 SE|V9 VITA|X7|A(310?|320|460|465|475|510|520|530|602|51|30|3)|V580|V Ultra|Q Lux)|N9[15]8St|N818S|N951[0579]|N91[38]0|N9101|N913[267]|N952[01]|N9560|N9810|N799D|[UV]9180|[UV]9815|Z(?:5151V|610DL|6250CC|6400C|6410S|233V|331|5031O|559DL|6621O|667T|6750M|768G|792|81[25]|818L|82[08]|83[12359]|85[125]|851M|992|(557|71[67]|798|836|861|916)BL|986DL|(232|718|828)TL|(?:233|353|558|717|799|837|862|899|917|963)VL|955A|95[678]|965|97[018]|98[1237]|986U|999|936L)|V769M|Blade Apex2|G (LTE|Lux)|Vec|Z959|V865M|Z3001S|902ZT|KIS II Max|Kis 3|K3DX-V5G|Z930L|Optus X|Blade[ _](A[357] 2019(?:-T)?|A[35] 2020-T|A7S 2020-T|A6 MAX|A0622|X9)|Z3153V|Z836F|Ctyon-A9|602ZT|MO-01[JK]|Z963U|402ZT|P545|P609|P650 Pro|dandelion|901ZT|A00[13]ZT|Z-01K|UZTE (?:GRAND V7|V808)|ZTG01|K8[37]CA|K87CC|VERGATARIO ?5(?:PLUS)?|Axon mini|KIS C341|A[13]03ZT|Z335(?:1S|[23]CA)|Z5156CC|Z5157[VY]|B867RE|MEO Smart A[48]0|SmartA35|P65[10] 2021|Z6201V|Z6252CA|Z6251V?|A2020N3|A2322G|A202ZT|A302ZT|Z719DL|Z5158|Z235[069]|Z246[67]|Z245[038]|B2017G|5G UG Phone U2[35]|ATLAS[ _]W|A2121G|A2022|A202[23]P|A0622|A0616|2050RU|Z7540|A2022PG|A2019G|Z2472|Z2357N|A2025H)(?:[);/ ]|$)";
  "(?i)5G UG Phone U23|ZTE 7160N";
  "(?i)P651 2021(?:[);/ ]|$)";
  "(?i)P650 2021(?:[);/ ]|$)";
  "(?i)7530N(?:[);/ ]|$)";
  "(?i)9040N(?:[);/ ]|$)";
  "(?i)9042N(?:[);/ ]|$)";
  "(?i)7531N(?:[);/ ]|$)";
  "(?i)A2122H(?:[);/ ]|$)";
  "(?i)602ZT(?:[);/ ]|$)";
  "(?i)A001ZT(?:[);/ ]|$)";
  "(?i)A003ZT(?:[);/ ]|$)";
  "(?i)A103ZT(?:[);/ ]|$)";
  "(?i)A202ZT(?:[);/ ]|$)";
  "(?i)A302ZT(?:[);/ ]|$)";
  "(?i)901ZT(?:[);/ ]|$)";
  "(?i)A303ZT(?:[);/ ]|$)";
  "(?i)ZTG01(?:[);/ ]|$)";
  "(?i)7543N(?:[);/ ]|$)";
  "(?i)ZTE T221(?:[);/ ]|$)";
  "(?i)A0616(?:[);/ ]|$)";
  "(?i)Z3352CA(?:[);/ ]|$)";
  "(?i)Z3353CA(?:[);/ ]|$)";
  "(?i)ZTE[_ ]Blade[_ ]A(3[13])[_ ]?(?:Plus|\+)";
  "(?i)(?:A7020(?:RU)?|Blade A7S 2020-T)(?:[);/ ]|$)";
  "(?i)A7000(?:[);/ ]|$)";
  "(?i)Z6252CA(?:[);/ ]|$)";
  "(?i)A7030|A71 5G";
  "(?i)Z5157[VY]";
  "(?i)A0722(?:[);/ ]|$)";
  "(?i)Z6201V(?:[);/ ]|$)";
  "(?i)Blade 10 Vita(?:[);/ ]|$)";
  "(?i)Z6251V(?:[);/ ]|$)";
  "(?i)(?:ZTE)? (?:2050|V1050)(?:RU)?";
  "(?i)ZTE Axon 7(?:[);/ ]|$)";
  "(?i)A2019G? Pro(?:[);/ ]|$)";
  "(?i)(?:902ZT|A2020N[23] Pro|A2020N3)(?:[);/ ]|$)";
  "(?i)A2020 SP(?:[);/ ]|$)";
  "(?i)(?:A2021[LGH]?|ZTE Axon 11 5G)(?:[);/ ]|$)";
  "(?i)A2021E(?:[);/ ]|$)";
  "(?i)9000N(?:[);/ ]|$)";
  "(?i)A2322|A2022L";
  "(?i)A2023G?";
  "(?i)ZTE[ _]?9047";
  "(?i)N799D(?:[);/ ]|$)";
  "(?i)Z818L(?:[);/ ]|$)";
  "(?i)Z3001S(?:[);/ ]|$)";
  "(?i)Z3351S(?:[);/ ]|$)";
  "(?i)Ctyon-A9(?:[);/ ]|$)";
  "(?i)K3DX-V5G(?:[);/ ]|$)";
  "(?i)(?:ZTE)?N918St(?:[);/ ]|$)";
  "(?i)N958St(?:[);/ ]|$)";
  "(?i)N9101(?:[);/ ]|$)";
  "(?i)Z963U(?:[);/ ]|$)";
  "(?i)N9120(?:[);/ ]|$)";
  "(?i)Z5156CC(?:[);/ ]|$)";
  "(?i)Z5158(?:[);/ ]|$)";
  "(?i)N9130(?:[);/ ]|$)";
  "(?i)N9132(?:[);/ ]|$)";
  "(?i)N9136(?:[);/ ]|$)";
  "(?i)N9137(?:[);/ ]|$)";
  "(?i)N9180(?:[);/ ]|$)";
  "(?i)N9510(?:[);/ ]|$)";
  "(?i)Z5151V(?:[);/ ]|$)";
  "(?i)N9517(?:[);/ ]|$)";
  "(?i)Z559DL(?:[);/ ]|$)";
  "(?i)402ZT(?:[);/ ]|$)";
  "(?i)(?:ZTE[_ ])?Blade[ _]Q[ _]Lux(?:[);/ ]|$)";
  "(?i)ZTE T320(?:[);/ ]|$)";
  "(?i)N9515(?:[);/ ]|$)";
  "(?i)N9519(?:[);/ ]|$)";
  "(?i)N9520(?:[);/ ]|$)";
  "(?i)N9521(?:[);/ ]|$)";
  "(?i)N9560(?:[);/ ]|$)";
  "(?i)N9810(?:[);/ ]|$)";
  "(?i)[UV]9180(?:[);/ ]|$)";
  "(?i)[UV]9815(?:[);/ ]|$)";
  "(?i)ZTE[_ ]Blade[_ ](C2|V7)[_ ]Plus";
  "(?i)(?:ZTE[_ ])?BA521";
  "(?i)(?:ZTE_)?V829";
  "(?i)V970M?|V987";
  "(?i)Z959(?:[);/ ]|$)";
  "(?i)(?:[RV]880H|V965)(?:[);/ ]|$)";
  "(?i)Z95[67]";
  "(?i)(?:ZTE_)?Grand[ _]Era";
  "(?i)Z331(?:[);/ ]|$)";
  "(?i)N818S(?:[);/ ]|$)";
  "(?i)ZTE[_ ]V0840(?:[);/ ]|$)";
  "(?i)Z5031O(?:[);/ ]|$)";
  "(?i)P545(?:[);/ ]|$)";
  "(?i)P609(?:[);/ ]|$)";
  "(?i)Optus X Start(?:[);/ ]|$)";
  "(?i)BA520(?:[);/ ]|$)";
  "(?i)Blade A(5[12]) Lite(?:[);/ ]|$)";
  "(?i)Blade L2 Plus(?:[);/ ]|$)";
  "(?i)(?:ZTE_)?Blade[ _]L2(?:[);/ ]|$)";
  "(?i)Blade L3 Plus(?:[);/ ]|$)";
  "(?i)Blade L3 Apex(?:[);/ ]|$)";
  "(?i)Blade L3(?:[);/ ]|$)";
  "(?i)ZTE[ _]T610(?:[);/ ]|$)";
  "(?i)ZTE[ _]Blade L4 Pro(?:[);/ ]|$)";
  "(?i)(?:Blade L5 Plus|BLADE L0510)(?:[);/ ]|$)";
  "(?i)Blade L6(?:[);/ ]|$)";
  "(?i)Blade L7A(?:[);/ ]|$)";
  "(?i)Blade L(\d+)(?:RU)?";
  "(?i)Blade A([357]) (20(?:19|20))";
  "(?i)ZTE BV0720(?:[);/ ]|$)";
  "(?i)Blade A[35] 2020-T(?:[);/ ]|$)";
  "(?i)ZTE C880A(?:[);/ ]|$)";
  "(?i)Blade A([35]1?) Lite";
  "(?i)Blade A(53) Pro";
  "(?i)Blade (S6|A[35]1?) Plus";
  "(?i)(?:ZTE[ _])?BLADE[ _]A062[02](?:[);/ ]|$)";
  "(?i)BLADE (?:A6 MAX|A0605)(?:[);/ ]|$)";
  "(?i)A0622(?:[);/ ]|$)";
  "(?i)Blade S6 Lite(?:[);/ ]|$)";
  "(?i)Blade S6(?:[);/ ]|$)";
  "(?i)BLADE A5 PRO(?:[);/ ]|$)";
  "(?i)T920(?:[);/ ]|$)";
  "(?i)ZTE[ _]T617(?:[);/ ]|$)";
  "(?i)(?:ZTE[ _])?Blade[ _]L(210|130)";
  "(?i)(?:ZTE_)?Blade_A5_2019";
  "(?i)BLADE V Ultra(?:[);/ ]|$)";
  "(?i)Blade V6 MAX(?:[);/ ]|$)";
  "(?i)Blade V6 Plus(?:[);/ ]|$)";
  "(?i)Blade (?:V7 Lite|V0720)(?:[);/ ]|$)";
  "(?i)BLADE V0710(?:[);/ ]|$)";
  "(?i)Blade V([67])(?:[);/ ]|$)";
  "(?i)9050N(?:[);/ ]|$)";
  "(?i)ZTE 8050(?:[);/ ]|$)";
  "(?i)ZTE 8150N(?:[);/ ]|$)";
  "(?i)ZTE 8550(?:[);/ ]|$)";
  "(?i)BV0800(?:[);/ ]|$)";
  "(?i)(?:ZTE[ _])?Blade V1000|(?:ZTE_)?V1000";
  "(?i)Z6750M(?:[);/ ]|$)";
  "(?i)Blade X([79])(?:[);/ ]|$)";
  "(?i)ZTE T630(?:[);/ ]|$)";
  "(?i)ZTE T520(?:[);/ ]|$)";
  "(?i)Blade (?:V8Q|V0840)(?:[);/ ]|$)";
  "(?i)Blade V8 SE(?:[);/ ]|$)";
  "(?i)BLADE (?:V0850|V8 Mini)(?:[);/ ]|$)";
  "(?i)BLADE V0920|ZTE-V9VITA";
  "(?i)Blade V(9|10) Vita(?:[);/ ]|$)";
  "(?i)Blade V([89]|10)(?:[);/ ]|$)";
  "(?i)BLADE V0820(?:[);/ ]|$)";
  "(?i)(?:Blade[ _])?(Apex2|G (LTE|Lux)|Vec)(?:[);/ ]|$)";
  "(?i)Z768G(?:[);/ ]|$)";
  "(?i)Z717[BV]L(?:[);/ ]|$)";
  "(?i)Z233VL(?:[);/ ]|$)";
  "(?i)(?:Z798BL|Z799VL)(?:[);/ ]|$)";
  "(?i)(?:ZTE-)?Z792";
  "(?i)(?:ZTE-)?Z812";
  "(?i)(?:ZTE-)?Z719DL";
  "(?i)(?:ZTE-)?Z7540";
  "(?i)Z851(?:[);/ ]|$)";
  "(?i)(?:Z836BL|Z837VL|Z836F)(?:[);/ ]|$)";
  "(?i)(?:Z861BL|Z862VL)(?:[);/ ]|$)";
  "(?i)(?:Z958|Z955A)(?:[);/ ]|$)";
  "(?i)dandelion(?:[);/ ]|$)";
  "(?i)Z6250CC(?:[);/ ]|$)";
  "(?i)(?:ZTE[-_])?Z992";
  "(?i)(?:Z999|Z-01K)(?:[);/ ]|$)";
  "(?i)B201[56]|Axon mini";
  "(?i)A2017[GU]?";
  "(?i)(?:A2020(?:RU|[GU])? Pro|Axon 10 Pro)(?:[);/ ]|$)";
  "(?i)V?975|geek";
  "(?i)(?:ZTE-)?G-X991";
  "(?i)Z936L(?:[);/ ]|$)";
  "(?i)MO-01[JK](?:[);/ ]|$)";
  "(?i)V865M(?:[);/ ]|$)";
  "(?i)Z6621O(?:[);/ ]|$)";
  "(?i)P650 Pro(?:[);/ ]|$)";
  "(?i)V769M(?:[);/ ]|$)";
  "(?i)VERGATARIO 5(?:[);/ ]|$)";
  "(?i)VERGATARIO5PLUS(?:[);/ ]|$)";
  "(?i)ZTE V5 PRO(?:[);/ ]|$)";
  "(?i)MEO Smart A([48]0)";
  "(?i)Smart ?A(35)";
  "(?i)ATLAS[ _]W";
  "(?i)A2121[GLE]?(?:[);/ ]|$)";
  "(?i)B867RE(?:[);/ ]|$)";
  "(?i)K83CA(?:[);/ ]|$)";
  "(?i)K87CA(?:[);/ ]|$)";
  "(?i)K87CC(?:[);/ ]|$)";
  "(?i)ZTE-K88(?:[);/ ]|$)";
  "(?i)ZTE-K92(?:[);/ ]|$)"
].
Definition d_dr_re1_26 : list blob := [
  "(?i)T1002(?:[);/ ]|$)";
  "(?i)T1004(?:[);/ ]|$)";
  "(?i)AxonPhone ([^;/]+) Build";
  "(?i)([a-z0-9]+)_USA_Cricket";
  "(?i)ZTE[- ](V98|V96A|V81|V70)(?:[);/ ]|$)";
  "(?i)Blade[_ ](A(\d+)C?|L111|V580|E01)(?:[);/ ]|$)";
  "(?i)ZTE Blade A53\+";
  "(?i)Blade[_ ]V0730(?:[);/ ]|$)";
  "(?i)Blade[_ ]V0800(?:[);/ ]|$)";
  "(?i)Blade[_ ]V1000(?:[);/ ]|$)";
  "(?i)ZTE B(A601|A910|A510)(?:[);/ ]|$)";
  "(?i)ZTE Blade (A[35]1|A7s|C370)";
  "(?i)ZTE BA610T(?:[);/ ]|$)";
  "(?i)ZTE[- ]([a-z0-9\-_ ]+) Build";
  "(?i)ZTE-(?:G |G-)?([a-z0-9 _]+)";
  "(?i)U?ZTE[ _]?([a-z0-9]+)";
  "(?i)ZYQ-Q88|(Q(?:2602|262[436]|638|2688|272[89]|3022|3623|TAB Tab4|328 m9|328|668)|J77|Q[._](?:Up|Boss P99|Dee R09|Good M9|Hi|Hot|Me|Mate R99|Next|TOP-X8|You))(?:[);/ ]|$)";
  "(?i)Q\.Up C5";
  "(?i)Q\.Up";
  "(?i)Q\.Boss P99";
  "(?i)Q[._]Dee R09";
  "(?i)Q\.Good M9";
  "(?i)Q[._]Hi S1";
  "(?i)Q[._]Hi";
  "(?i)Q[._]Hot P7 3G";
  "(?i)Q[._]Hot";
  "(?i)Q[._]Me Phone7 3G";
  "(?i)Q[._]Me Plus7";
  "(?i)Q[._]Me";
  "(?i)Q[._]Mate R99";
  "(?i)Q[._]Next B7";
  "(?i)Q[._]Next J2";
  "(?i)Q[._]TOP-X8";
  "(?i)Q[._]You";
  "(?i)(ZB30)(?:[);/ ]|$)";
  "(?i)(Z3211G)(?:[);/ ]|$)";
  "(?i)(ZXT-10HL323S|ZXT-10FL323G-PRO)";
  "(?i)ZATEC[_ ]|(?:[ ]WIND|ZPAD_1|ZPLAY1_2018|Zpower_(?:Plus|2018))(?:[);/ ]|$)";
  "(?i)ZATEC[_ ]GRAVITY(?:[);/ ]|$)";
  "(?i)[ ]WIND(?:[);/ ]|$)";
  "(?i)Zealot(?:[);/ ]|$)";
  "(?i)(THOR 4 Plus|THOR S|THOR PRO)(?:[);/ ]|$)";
  "(?i)THOR (S|4 Plus)(?:[);/ ]|$)";
  "(?i) (MC2[27]00|TC15|TC2[01567]|TC5[12567]|TC7[05]x|TC7[57]|TC700H|ET51|MC33|MC93|EC30|EC55|PS20J|VC8300)(?:[);/ ]|$)";
  "(?i)(TC15|TC2[01567]|TC5[12567]|TC7[05]x|TC7[57]|TC700H|MC33|EC30|EC55)(?:[);/ ]|$)";
  "(?i)(ET51)(?:[);/ ]|$)";
  "(?i)(MC2[27]00|MC93|PS20J)(?:[);/ ]|$)";
  "(?i)(VC8300)";
  "(?i)ZEEKER[ _](P10|T100)";
  "(?i)ZEEMI[ _-]";
  "(?i)ZEEMI[ _-]([^/;]+) Build";
  "(?i)ZEEMI[ _-]([^/;)]+)(?:[);/ ]|$)";
  "(?i)(Admire[_ ][^/;]+|Cinemax[^/;)]+)(?:Build|\))|(?:AdmireGlam|M72 Smart)(?:[);/ ]|$)";
  "(?i)ADMIRE[_ ]SENSE\+";
  "(?i)ADMIRE[_ ]SWADESH\+";
  "(?i)ADMIRE[_ ]SENSE[_ ]DUO";
  "(?i)ADMIRE[_ ]CURVE[_ ]NEO";
  "(?i)ADMIRE[_ ]CURVE\+";
  "(?i)ADMIRE[_ ]NEO\+";
  "(?i)ADMIRE[_ ]DUO";
  "(?i)ADMIRE[_ ]SHINE";
  "(?i)ADMIRE[_ ]INFINITY";
  "(?i)ADMIRE[_ ]Unity";
  "(?i)ADMIRE[_ ]STRONG";
  "(?i)ADMIRE[_ ]GLORY\+";
  "(?i)(M72 Smart)";
  "(?i)(Admire[_ ][^/;]+|Cinemax[^/;)]+)(?:Build|\))";
  "(?i)Z5007|Z551[679]|Z6001";
  "(?i)(?:C-723ULTRA|C-70[13] ?ULTRA)(?:[);/ ]|$)";
  "(?i)C-(\d+) ?Ultra";
  "(?i)ZFINERY900(?:[);/ ]|$)";
  "(?i)(?:ZC-339)(?:[);/ ]|$)";
  "(?i)(ZC-339)";
  "(?i)ZIDOO[ _](H6 Pro|X6 Pro|X9S|Z10|X[1589]|X20 Pro|Z9S)(?:[);/ ]|$)";
  "(?i)(?:Eon45i)(?:[);/ ]|$)";
  "(?i)KidsLegacyTabPro|Zpad-X8-PRO";
  "(?i)ZIOX[_ ]|(?:Astra Viva 4G|Astra (?:(?:NXT|Curve|Young) Pro|(?:Metal|Titan|Young|Curve) 4G|Star|Blaze)|Duo(?:tel|pix)[ _]\w\d{1,2})(?:[);/ ]|$)";
  "(?i)ZIOX[_ ]F9[_ ]PRO(?:[);/ ]|$)";
  "(?i)Astra (Viva|Titan|Young|Metal|Curve) 4G(?:[);/ ]|$)";
  "(?i)Astra (Star|Blaze)(?:[);/ ]|$)";
  "(?i)Astra (NXT|Curve|Young) Pro(?:[);/ ]|$)";
  "(?i)Duo(tel|pix)[ _](\w\d{1,2})(?:[);/ ]|$)";
  "(?i)(ZM(?:CK|EM|TFTV|TN)[a-z0-9]+)|ZA409";
  "(?i)(ZM(?:CK|EM|TFTV|TN)[a-z0-9]+)";
  "(?i)(?:K101_EEA|K118)(?:[);/ ]|$)";
  "(?i)K(101|118)";
  "(?i)Android 8(?:[\d.]*);(?: [\w-]+;)? (LitePro)(?:[);/ ]|$)";
  "(?i)(LT600T)(?:[);/ ]|$)";
  "(?i)ZOPO|(?:ZOPO[_ ])?(HERO2|Flash X3|F2_Color5_5|F5_Color_M5|C2_Color_M4|ZP[0-9]{2,}[^/;]+)(?:\)| Build)";
  "(?i)(?:ZOPO_C2_MOD|ZP998)(?:[);/ ]|$)";
  "(?i)ZOPO 9xxQuad(?:[);/ ]|$)";
  "(?i)(?:ZOPO_)?ZP980[+](?:[);/ ]|$)";
  "(?i)(?:ZOPO_)?ZP980(?:[);/ ]|$)";
  "(?i)ZP952(?:[);/ ]|$)";
  "(?i)HERO2(?:[);/ ]|$)";
  "(?i)ZP951(?:[);/ ]|$)";
  "(?i)ZP955(?:[);/ ]|$)";
  "(?i)ZP950[+h]?(?:[);/ ]|$)";
  "(?i)ZP(?:900H?|910)(?:[);/ ]|$)";
  "(?i)ZP(?:800H|810)(?:[);/ ]|$)";
  "(?i)ZP500[+]?(?:[);/ ]|$)";
  "(?i)ZP330(?:[);/ ]|$)";
  "(?i)ZP370(?:[);/ ]|$)";
  "(?i)F2_Color5_5(?:[);/ ]|$)";
  "(?i)F5_Color_M5(?:[);/ ]|$)";
  "(?i)C2_Color_M4(?:[);/ ]|$)";
  "(?i)ZP5(63|86)(?:[);/ ]|$)";
  "(?i)ZP567(?:[);/ ]|$)";
  "(?i)ZP300[S+]?(?:[);/ ]|$)";
  "(?i)ZP200[+]?(?:[);/ ]|$)";
  "(?i)ZP100(?:[);/ ]|$)";
  "(?i)ZP1790(?:[);/ ]|$)";
  "(?i)ZP781(?:[);/ ]|$)";
  "(?i)ZOPO[_ ]ONE[_ ]([YXTP])(?:[);/ ]|$)";
  "(?i)(?:ZOPO_)?(Flash X3|X1i|ZP[0-9]{2,}[^/;)]+)(?: Build|\))";
  "(?i)Zuum[ _-]|Android 6.+ UNIQ(?: Build|[);])|(?:ROCKET III?|Akus (?:PRO|[ZP]1?)|AURA_Z|COVET|MAGNO(?:-S| P[13])?|ONIX(?: S)?|STEDI|STELLAR(?:[ _](?:Z|PRO|[MP]1|M2))?|GRAVITY [ZM]|AURA (?:PRIME|PLUS JLO|PRO JLO|PRO|[ZM]1|X)|COVET_PRO_LITE|RONI|Android.*; (?:GRANT|LIMIT)|Gravity Life|SENS (?:M1|G)|ULTRA Z|NOVUS TAB)(?:[);/ ]|$)";
  "(?i)AKUS ([ZP]1?)";
  "(?i)AURA_Z(?:[);/ ]|$)";
  "(?i)COVET( [XZ])?";
  "(?i)MAGNO( C[12]?| P[13])?";
  "(?i)SENS (M1|G)";
  "(?i)STELLAR ([MP]\d|Z)";
  "(?i)GRAVITY ([MZ])";
  "(?i)AURA ([ZM]1|X)";
  "(?i)ROCKET (III?)";
  "(?i)Android 6.+; UNIQ(?: Build|[);])";
  "(?i)Android.+; LIMIT(?: Build|[);])";
  "(?i)Zuum[ _-]([^;/]+) Build";
  "(?i)Zuum[ _-]?([^;/)]+)(?:[);/ ]|$)";
  "(?i)ZYNC|(Cloud Z5|Z1000|Z18|Z99|Z99[_ ][23]G|Z99|Z900[_ ]Plus|Z909|Z930[+]|Z930)(?:[);/ ]|$)";
  "(?i)(Z18| DuZ99al Core|Z99[_ ][23]G|Z99 Dual Core|Z99|Z900[_ ]Plus|Z909|Z930[+]|Z930)";
  "(?i)(Z1000[^/;]+)Build";
  "(?i)Cloud (Z5)";
  "(?i)ZYNC Cloud[ _]([^;]+)Build";
  "(?i)ZYNC[ _]([^;]+)Build";
  "(?i)(Desk21T-03)";
  "(?i)Allente 1(?:[);/ ]|$)";
  "(?i)(AS51[2456])(?:[);/ ]|$)";
  "(?i)(AL-555|GI-626|OB[_-](?:421|588|728|62[78]))(?:[);/ ]|$)";
  "(?i)OB[_-](421|588|728|62[78])";
  "(?i)(TBX11)(?:[);/ ]|$)";
  "(?i)Astro;([A-Z0-9]+);";
  "(?i)Decade 53(?:[);/ ]|$)";
  "(?i)BO-(FRSP4|LFSPBS5|LFSP4|LFSPSL4|LFSPBS5|LFSPSL6QCI)";
  "(?i)BO-(FRSP4)";
  "(?i)Aquaris|bq [^/;]+ Build|BQS[-_][0-9]{4}|(?:BQ(?:ru)?[_ -][0-9]{3,4})|BQ_\d{2}FSF?|BQ5059|BQ1008G|BQru_BQru-|Edison 3|Smart_TV_BQ|Fnac 10 3G";
  "(?i)BQ(?:ru)?-(?:5209L|5044)(?:[);/ ]|$)";
  "(?i)BQ(?:ru)?-(?:6035L)(?:[);/ ]|$)";
  "(?i)BQ(?:ru)?-(?:5535L)(?:[);/ ]|$)";
  "(?i)BQ(S|ru)?-6353L";
  "(?i)BQ(S|ru)?-(?:5070|6040L)(?:[);/ ]|$)";
  "(?i)BQ(S|ru)?-(?:6424L)(?:[);/ ]|$)";
  "(?i)BQ(?:S|ru)?-(?:5730L)(?:[);/ ]|$)";
  "(?i)BQ(?:S|ru)?-(?:5731L)(?:[);/ ]|$)";
  "(?i)BQ(?:S|ru)?-57[46]5L(?:[);/ ]|$)";
  "(?i)BQ(?:S|ru)?-5533G(?:[);/ ]|$)";
  "(?i)BQ(?:S|ru)?-5031G(?:[);/ ]|$)";
  "(?i)BQ(?:S|ru)?-(?:5732L)(?:[);/ ]|$)";
  "(?i)BQ(?:S|ru)?-6430L(?:[);/ ]|$)";
  "(?i)BQ(?:S|ru)?-6630L(?:[);/ ]|$)";
  "(?i)BQ-9011[G]?(?:[);/ ]|$)";
  "(?i)BQ-8068L(?:[);/ ]|$)";
  "(?i)BQ(ru)?-(7082)";
  "(?i)BQ-7022(G)?";
  "(?i)BQ-6200L|BQ-6000L";
  "(?i)BQ(?:ru|s)?-6631G";
  "(?i)BQ(ru)?[ -]6015L";
  "(?i)BQ(?:S|ru)?-(?:5525|6030G|6010G)";
  "(?i)BQ-6001L|BQ-6050";
  "(?i)BQ-5707G(?:[);/ ]|$)";
  "(?i)BQ-5702(?:[);/ ]|$)";
  "(?i)BQ-5700L(?:[);/ ]|$)";
  "(?i)BQ-(?:5591|551[89]G)(?:[);/ ]|$)";
  "(?i)BQ-5520L(?:[);/ ]|$)";
  "(?i)BQ-5519L(?:[);/ ]|$)";
  "(?i)BQ-5540L(?:[);/ ]|$)";
  "(?i)BQ-5517L(?:[);/ ]|$)";
  "(?i)BQ-5516L(?:[);/ ]|$)";
  "(?i)BQ(?:S|ru)?-(?:5515|6868L)(?:[);/ ]|$)";
  "(?i)BQ-5515L(?:[);/ ]|$)";
  "(?i)BQ-(?:5512L|5528L)(?:[);/ ]|$)";
  "(?i)BQ-5511L(?:[);/ ]|$)";
  "(?i)BQS[_ ]5505(?:[);/ ]|$)";
  "(?i)BQ(?:ru)?-5510(?:[);/ ]|$)";
  "(?i)BQ(?:ru)?-(?:5521|5594)(?:[);/ ]|$)";
  "(?i)BQ-5508L(?:[);/ ]|$)";
  "(?i)BQ-5507L(?:[);/ ]|$)";
  "(?i)BQ(?:ru)?-5504(?:[);/ ]|$)";
  "(?i)BQ(?:ru)?-5503(?:[);/ ]|$)";
  "(?i)BQ(?:ru)?-6045L(?:[);/ ]|$)";
  "(?i)BQ(?:ru)?-4030G(?:[);/ ]|$)";
  "(?i)BQS-5502(?:[);/ ]|$)";
  "(?i)BQS-5501(?:[);/ ]|$)";
  "(?i)BQS-5500(?:[);/ ]|$)";
  "(?i)BQ-5500L(?:[);/ ]|$)";
  "(?i)BQ-5302G(?:[);/ ]|$)";
  "(?i)BQ-5301(?:[);/ ]|$)";
  "(?i)BQ-5300G(?:[);/ ]|$)";
  "(?i)BQ(ru|S)?-(?:5211|5020)(?:[);/ ]|$)";
  "(?i)BQ-5206L(?:[);/ ]|$)"
].
Definition d_dr_re1_27 : list blob := [
  "(?i)BQ(?:ru|S)?-(?:5204|5050)(?:[);/ ]|$)";
  "(?i)BQ(?:ru)?-5203(?:[);/ ]|$)";
  "(?i)BQ(?:ru)?-5202(?:[);/ ]|$)";
  "(?i)BQ(?:ru)?-5201(?:[);/ ]|$)";
  "(?i)BQ-5082(?:[);/ ]|$)";
  "(?i)BQ-5045L(?:[);/ ]|$)";
  "(?i)BQ-5047L(?:[);/ ]|$)";
  "(?i)BQ-5071(?:[);/ ]|$)";
  "(?i)BQ[S]?-(?:5065|5340)(?:[);/ ]|$)";
  "(?i)BQ(?:S|ru)?-5046L(?:[);/ ]|$)";
  "(?i)BQ(?:ru)?-?(?:5059|5514G)(?:[);/ ]|$)";
  "(?i)(?:BQru_)?BQ(?:ru)?-5058(?:[);/ ]|$)";
  "(?i)BQ(?:ru)?-5057(?:[);/ ]|$)";
  "(?i)BQ[S]?-(?:5056|5030)(?:[);/ ]|$)";
  "(?i)BQ-6042l(?:[);/ ]|$)";
  "(?i)BQS-5055(?:[);/ ]|$)";
  "(?i)BQ(?:ru)?-5054(?:[);/ ]|$)";
  "(?i)BQ-5052(?:[);/ ]|$)";
  "(?i)BQ-6051G(?:[);/ ]|$)";
  "(?i)BQ[S]?-5045(?:[);/ ]|$)";
  "(?i)BQ(?:ru)?-(?:5037|5514L)(?:[);/ ]|$)";
  "(?i)BQ(?:ru)?-5035(?:[);/ ]|$)";
  "(?i)BQ(?:ru)?-5033(?:[);/ ]|$)";
  "(?i)BQ-5541L(?:[);/ ]|$)";
  "(?i)BQ-5032(?:[);/ ]|$)";
  "(?i)BQS-5025(?:[);/ ]|$)";
  "(?i)BQ(?:ru)?-5022(?:[);/ ]|$)";
  "(?i)BQ-5015L(?:[);/ ]|$)";
  "(?i)BQ-5016G(?:[);/ ]|$)";
  "(?i)BQ-5012L(?:[);/ ]|$)";
  "(?i)BQ-5521L(?:[);/ ]|$)";
  "(?i)BQS-5011(?:[);/ ]|$)";
  "(?i)BQ-5010G(?:[);/ ]|$)";
  "(?i)BQ-5000G(?:[);/ ]|$)";
  "(?i)BQS-5010(?:[);/ ]|$)";
  "(?i)BQ-5009L(?:[);/ ]|$)";
  "(?i)BQS-500[59](?:[);/ ]|$)";
  "(?i)BQ-5008L(?:[);/ ]|$)";
  "(?i)BQ-5007L(?:[);/ ]|$)";
  "(?i)BQS-5006(?:[);/ ]|$)";
  "(?i)BQ-(?:5005L|5530L)(?:[);/ ]|$)";
  "(?i)BQS-5004(?:[);/ ]|$)";
  "(?i)BQ-5003L(?:[);/ ]|$)";
  "(?i)BQ-5002G(?:[);/ ]|$)";
  "(?i)BQS-5002(?:[);/ ]|$)";
  "(?i)BQS-5003(?:[);/ ]|$)";
  "(?i)BQ-5001L(?:[);/ ]|$)";
  "(?i)BQS-5001(?:[);/ ]|$)";
  "(?i)BQ(?:ru|S)?-5000(?:[);/ ]|$)";
  "(?i)BQS-4800(?:[);/ ]|$)";
  "(?i)BQS-4707(?:[);/ ]|$)";
  "(?i)BQS-4702(?:[);/ ]|$)";
  "(?i)BQS-4701(?:[);/ ]|$)";
  "(?i)BQ-(?:4585|5011G)(?:[);/ ]|$)";
  "(?i)BQ(?:ru)?-4583(?:[);/ ]|$)";
  "(?i)BQS-4570(?:[);/ ]|$)";
  "(?i)BQS-4560(?:[);/ ]|$)";
  "(?i)BQS-4555(?:[);/ ]|$)";
  "(?i)BQS-4550(?:[);/ ]|$)";
  "(?i)BQ(?:ru)?-(?:4526|5004G)(?:[);/ ]|$)";
  "(?i)BQS-4525(?:[);/ ]|$)";
  "(?i)BQS-4516(?:[);/ ]|$)";
  "(?i)BQS-4515(?:[);/ ]|$)";
  "(?i)BQS-4510(?:[);/ ]|$)";
  "(?i)BQS-4505(?:[);/ ]|$)";
  "(?i)BQS-4503(?:[);/ ]|$)";
  "(?i)BQS-4502(?:[);/ ]|$)";
  "(?i)BQ-4501G(?:[);/ ]|$)";
  "(?i)BQ(?:ru)?-4500(?:[);/ ]|$)";
  "(?i)BQ-4077(?:[);/ ]|$)";
  "(?i)BQ(?:ru)?-4072(?:[);/ ]|$)";
  "(?i)BQ(?:ru)?[- ]402[68](?:[);/ ]|$)";
  "(?i)BQS-4010(?:[);/ ]|$)";
  "(?i)BQS-4009(?:[);/ ]|$)";
  "(?i)BQS-4008(?:[);/ ]|$)";
  "(?i)BQS-4007(?:[);/ ]|$)";
  "(?i)BQS-4005(?:[);/ ]|$)";
  "(?i)BQS-4004(?:[);/ ]|$)";
  "(?i)BQS-4003(?:[);/ ]|$)";
  "(?i)BQ-4001G(?:[);/ ]|$)";
  "(?i)BQS-4001(?:[);/ ]|$)";
  "(?i)BQS-3510(?:[);/ ]|$)";
  "(?i)BQS-3503(?:[);/ ]|$)";
  "(?i)BQ-1085L(?:[);/ ]|$)";
  "(?i)BQ-1084L(?:[);/ ]|$)";
  "(?i)BQ-1083G(?:[);/ ]|$)";
  "(?i)BQ-1082G(?:[);/ ]|$)";
  "(?i)BQ-1077L(?:[);/ ]|$)";
  "(?i)BQ(?:ru)?-1057L(?:[);/ ]|$)";
  "(?i)BQ-1051G(?:[);/ ]|$)";
  "(?i)BQ-1050G(?:[);/ ]|$)";
  "(?i)BQ[-]?1008G(?:[);/ ]|$)";
  "(?i)Aquaris (M10 FHD|M10 4G|M8)";
  "(?i)Aquaris_([AM])4\.5";
  "(?i)BQ(?:ru)?[_ -](?:5590|5740G)(?:[);/ ]|$)";
  "(?i)BQ[S]?-(?:6016L|5520)(?:[);/ ]|$)";
  "(?i)BQ(?:S|ru)?-(?:5701L|5060)(?:[);/ ]|$)";
  "(?i)(BQ-7850|BQ-700[12]G|BQ-8002G|BQ-905[12]G|BQ-9702G|BQ-7056G)";
  "(?i)BQ-8006G(?:[);/ ]|$)";
  "(?i)BQ-7062G(?:[);/ ]|$)";
  "(?i)BQ(?:ru)?-1081G(?:[);/ ]|$)";
  "(?i)BQ-7802G(?:[);/ ]|$)";
  "(?i)BQ-7008G(?:[);/ ]|$)";
  "(?i)BQ-7064G(?:[);/ ]|$)";
  "(?i)BQ-7050G(?:[);/ ]|$)";
  "(?i)BQ-7000G(?:[);/ ]|$)";
  "(?i)BQ-7040G(?:[);/ ]|$)";
  "(?i)BQ-7038G(?:[);/ ]|$)";
  "(?i)BQ-7005G(?:[);/ ]|$)";
  "(?i)BQ-7098G(?:[);/ ]|$)";
  "(?i)BQ-1007(?:[);/ ]|$)";
  "(?i)BQ-1045[G]?(?:[);/ ]|$)";
  "(?i)BQ-(?:1054L|1020L)(?:[);/ ]|$)";
  "(?i)BQ-7083G(?:[);/ ]|$)";
  "(?i)BQ-8077L(?:[);/ ]|$)";
  "(?i)BQ(?:ru)?-7083(?:[);/ ]|$)";
  "(?i)BQ(?:ru)?-1056L(?:[);/ ]|$)";
  "(?i)BQ(?:ru)?-1022l(?:[);/ ]|$)";
  "(?i)BQ(?:ru)?-1024L(?:[);/ ]|$)";
  "(?i)BQ(?:ru)?-7055L(?:[);/ ]|$)";
  "(?i)BQ(?:ru)?-1025L(?:[);/ ]|$)";
  "(?i)BQ(?:ru)?-7081(?:[);/ ]|$)";
  "(?i)Edison 3(?:[);/ ]|$)";
  "(?i)(?:bq )?Aquaris ([^/);]*)(?: Build|[);])";
  "(?i)(?:bq )?Aquaris";
  "(?i)BQ_(\d{2}FS\d{2}B)";
  "(?i)bq ([^/;]+) Build";
  "(?i)eNOVA|(?:TAE08N10)(?:[);/ ]|$)";
  "(?i)(TAE08N10)";
  "(?i)eSTAR[_ ](?:Grand|GO\!?|Zoom Quad|Gemini|MINI[_ ]3G|BEAUTY|MOON)|(?:Digni-Smart|MERCURY HD Quad core|MID1020L|takee 1)(?:[);/ ]|$)";
  "(?i)eSTAR (Grand|GO\!?) (HD Intel|IPS Intel|IPS|HD|Intel) Quad Core 3G";
  "(?i)eSTAR (Zoom Quad|Gemini|GO)";
  "(?i)eSTAR GRAND HD quad core( [34]G)?";
  "(?i)eSTAR[_ ]MINI[_ ]3G";
  "(?i)(MID1020L)";
  "(?i)eTouch ?([a-z0-9]+)";
  "(?i)(Smart-Ex02|Ex-Handy 10)(?: (?:ROW|RUS))?(?:[);/ ]|$)";
  "(?i)EVVOLI[;,]";
  "(?i)EVVOLI,([a-z0-9_ -]+),(?:wired|wireless)";
  "(?i)(?:Freebox Player Mini|Free_Wi-Kif4G_4G)(?:[);/ ]|$)";
  "(?i)hoco[_ -]?([^;/)]+)( Build|[;)])";
  "(?i)iCherry_?";
  "(?i)iCherry[ _](C(?:25[1258]|21[16]|110|121|22[01379]|23[03])|X1)(?:[);/ ]|$)";
  "(?i)i-Joy|i-Call|(?:Neon[79]|Sygnus|Deox|Elektra (?:M|L|XL|XXL))(?:[);/ ]|$)";
  "(?i)Elektra M(?:[);/ ]|$)";
  "(?i)Elektra L(?:[);/ ]|$)";
  "(?i)Elektra XL(?:[);/ ]|$)";
  "(?i)Elektra XXL(?:[);/ ]|$)";
  "(?i)Neon([79])(?:[);/ ]|$)";
  "(?i)Sygnus(?:[);/ ]|$)";
  "(?i)Deox(?:[);/ ]|$)";
  "(?i)i-Call ([^;/]+) Build";
  "(?i)i-Joy ([^;/]+) Build";
  "(?i)i-mate ([a-z0-9]+)";
  "(?i)i-mobile[ _]?[a-z0-9]+|i-Style|IQ ?(9\.1|5\.5|5\.6A?)";
  "(?i)i-mobile (i-note[^/;]*) Build";
  "(?i)i-Style ?([^;/)]+)(?: Build|[;)])";
  "(?i)(?:i-mobile_)?IQ[ _]XPRO2";
  "(?i)(?:i-mobile_)?IQ[ _]BIG2";
  "(?i)IQ ?(9\.1|5\.5|5\.6A?|II)";
  "(?i)i-mobile (IQ[^/;]*) Build";
  "(?i)i-mobile(?: )?([a-z0-9\- ]+) Build";
  "(?i)i-mobile(?: )?([a-z0-9]+)";
  "(?i)iBall[ _]([^;/)]+)[ _]Build|iBall[_ ]Slide|(?:Snap[_ ]4G2|3G 1026-Q18|6351-Q400i|iT-KSA0003|iT-KSA0012|iT-KSA0066|Avid|Twinkle_i5|Gorgeo[_ ]4GL|Brisk 4G2|Slide[_ ](?:Dazzle[_ ]3500|Skye_03)|Blaze_V4|Wondro 10|Q27 4G|Andi (?:Wink|5G Blink) 4G|Co-Mate|Nova_4G|Brace-X1|DD-1GB|Elan 4G2|Spirit_X2|Cuddle A4)(?:[);/ ]|$)";
  "(?i)(Snap[_ ]4G2|Avid|Twinkle_i5|Gorgeo[_ ]4GL|Blaze_V4|Wondro 10|Q27 4G|Brisk 4G2|Co-Mate|Nova_4G|Elan 4G2)(?:[);/ ]|$)";
  "(?i)6351-Q400i(?:[);/ ]|$)";
  "(?i)DD-1GB(?:[);/ ]|$)";
  "(?i)Slide[_ ]Dazzle[_ ]3500(?:[);/ ]|$)";
  "(?i)1026-Q18(?:[);/ ]|$)";
  "(?i)Brace-X1(?:[);/ ]|$)";
  "(?i)iT-KSA0003(?:[);/ ]|$)";
  "(?i)iT-KSA0066(?:[);/ ]|$)";
  "(?i)iT-KSA0012(?:[);/ ]|$)";
  "(?i)iBall[ _]([^;/)]+)(?:[ _]Build|[;)])";
  "(?i)AUXUS ([^/;]+) Build";
  "(?i)AUXUS (Core[^/;]+) Build";
  "(?i)AUXUS ([^/;]+) Build";
  "(?i)IBRIT_|(?:SI5[12]|i5Plus|POWER_X|Z2Lite|Diamond Pro Max)(?:[);/ ]|$)";
  "(?i)IBRIT_I([57])(?:[);/ ]|$)";
  "(?i)iBRIT_POWER6(?:[);/ ]|$)";
  "(?i)iBRIT_Speed Pro(?:[);/ ]|$)";
  "(?i)SI51(?:[);/ ]|$)";
  "(?i)SI52(?:[);/ ]|$)";
  "(?i)POWER_X(?:[);/ ]|$)";
  "(?i)iBRIT_AF51(?:[);/ ]|$)";
  "(?i)iData[ _]|(?:Android 13(?:[\d.]*);(?: [\w-]+;)? T3_Pro)(?:[);/ ]|$)";
  "(?i)iData[ _](K1|50|i3AL)(?:[);/ ]|$)";
  "(?i)NOTEBOOK6(?:[);/ ]|$)";
  "(?i)(?:APACHE G6|iDroid Royal V5|BALR_?X7(?:_PAK)?)(?:[);/ ]|$)";
  "(?i)BALR_?X7";
  "(?i)IFT1018(?:[);/ ]|$)";
  "(?i)iGET SMART|E8_Ultra|(?:SMART[_ ](?:L20X|G10[12]|S7[02]|G71|G81[H]?|L10[234]|L11|L3[12]|W[12]0X|W101|W3[12]|W8[4X]|W20[23]|L206)(?:_eea)?|Android 5(?:[\d.]*);(?: [\w-]+;)? (?:S100))(?:[);/ ]|$)";
  "(?i)(?:SMART[_ ])?S100(?:[);/ ]|$)";
  "(?i)SMART[_ ](L20X|G10[12]|S7[02]|G71|G81[H]?|L10[234]|L11|W[12]0X|W101|W8[4X]|W3[12]|W20[23]|L206|L3[12])";
  "(?i)HLQ MAX(?:[);/ ]|$)";
  "(?i)iHunt|One_ Love_|TIT?AN[_ ]P\d+|Like_(3|4U|3_Pro)|X300 Elite|S10_Tank_2019|S10 Tank PRO 2020|S60 Discovery Plus|S60_Discovery_2019|AlienXLite2020|Alien X (?:Lite|Pro)|Alien_X|(?:Titan ?P6000|S[23]0 Ultra ApeX 2021|S21 Ultra 4G 2021|P11000 Pro|Strong Tablet P15000 Pro|Like 11 Panda Pro|Like_Hi10_2021|Like Hi5|S21 Plus 2021|Like_[78]|Cyber DOG 4G|S10 Tank 2020|(?:S100|S90_)Apex|Tablet PC 10 PRO)(?:_EEA)?(?:[);/ ]|$)";
  "(?i)Strong Tablet (P15000|X) Pro";
  "(?i)S10[_ ]Tank[_ ]20(19|20)";
  "(?i)Tian[ _]P3000";
  "(?i)TITAN_P11000_PRO|P11000 Pro"
].
Definition d_dr_re1_28 : list blob := [
  "(?i)TITAN P([48]000) Pro 2021";
  "(?i)Titan ?P6000";
  "(?i)Like_([378])";
  "(?i)S(90|100)_?Apex";
  "(?i)S([23]0) Ultra ApeX 2021";
  "(?i)S(2[234]) ULTRA";
  "(?i)(?:iHunt_)?S(2[234])[ _]PLUS";
  "(?i)iHunt ([^;)/]+)(?: Build|[;)])";
  "(?i)iKoMo ([a-z0-9]+)";
  "(?i)(IK-102[58]|IK-1106|IK-7108|IK-787)(?:[);/ ]|$)";
  "(?i)(?:Jarvis7_85)(?:[);/ ]|$)";
  "(?i)(?:iLA[-_ ](?:Silk|X2?|R1)|R1 Lite)(?:[);/ ]|$)";
  "(?i)(R1) Lite(?:[);/ ]|$)";
  "(?i)iLA[-_ ](Silk|X2?|R1)(?:[);/ ]|$)";
  "(?i)ILEPO[ _](MXQ-4K)(?:[);/ ]|$)";
  "(?i)WTAB[ _]?\d{3}|(ITELL[_ ](?:K3300|K3500N?|K4700)|K3102 WIFI|FIVO (?:PLUS|Lite)|Zed Book G)(?:[);/ ]|$)";
  "(?i)WTAB[ _]?(\d{3}(?:[^;/)]*))(?: Build|[;)])";
  "(?i)(ITELL[_ ](?:K3300|K3500N?|K4700))(?:[);/ ]|$)";
  "(?i)FIVO PLUS(?:[);/ ]|$)";
  "(?i)FIVO Lite(?:[);/ ]|$)";
  "(?i)(?:Vin 5|Vin3 S|Vin3(?: Lite)?|Messi No\.1|Messi 3)(?:[);/ ]|$)";
  "(?i)Vin ?(3|5)";
  "(?i)Messi (No\.1|3)";
  "(?i)(i5800C|i6800|Victor(?:_S)?)(?:[);/ ]|$)";
  "(?i)(?:IMARS VEGA X7|VIVI_8|MILKY_WAY_M2)(?:[);/ ]|$)";
  "(?i)(?:Revolution A8|muPAD[_ ][KT]10|muPAD10[24]|muPADT7|muPAD 7S)(?:[);/ ]|$)";
  "(?i)(Revolution A8|muPAD[_ ][KT]10)";
  "(?i)muPAD[ _]?(10[24]|T7|7S)";
  "(?i)(EX1080)(?:[);/ ]|$)";
  "(?i)(ITP-XD80L)(?: Build|[);])";
  "(?i)iNew|(?:V7A|V3 Plus|V3-?E|V3C|FIRE_Tab_6)(?:[);/ ]|$)";
  "(?i)V3C(?:[);/ ]|$)";
  "(?i)V3-?E(?:[);/ ]|$)";
  "(?i)V3 Plus(?:[);/ ]|$)";
  "(?i)V7A(?:[);/ ]|$)";
  "(?i)FIRE_Tab_6(?:[);/ ]|$)";
  "(?i)iNew[ -_]([^;/]+) Build";
  "(?i)(?:iNO SCOUT 2|SGINO6|iNO S9)(?:[);/ ]|$)";
  "(?i)iOCEAN|M6752|W180|X7[ _]?S|X8 mini";
  "(?i)X7[ _]?S";
  "(?i)(M6752|W180) Build";
  "(?i)iOCEAN[ _-]?([^/;]+) Build";
  "(?i)iOCEAN[ _-]?([^);/ ]+)";
  "(?i)iOutdoor (X)(?:[);/ ]|$)";
  "(?i)iPEGTOP[ _](Z26)";
  "(?i)(?:IPRO_K2_3G|Kylin[ _]5\.[05]S?|KYLIN(?:40|50i)|Jade[78]s|Amber[678]S?|Amber[58]S[ _]Pro|Benny10|Phonenix50S|Ruby5S|Zafiro|I9355A|Opal 4S|Perla|S[45]01A|S200M|WAVE 4\.0 II|WAVE 5\.0|MEGA7|SAMBA65S|S501APlus)(?:[);/ ]|$)";
  "(?i)Kylin_5\.0S";
  "(?i)Kylin (5\.[05])";
  "(?i)Jade([78])s";
  "(?i)WAVE 4\.0 II";
  "(?i)WAVE 5\.0";
  "(?i)(I9355A|S[45]01A|S200M|Perla)";
  "(?i)iQ&T|iQ&amp;T|(?:IFoo (?:U200|H55|S50))(?:[);/ ]|$)";
  "(?i)(?:iQ&T|iQ&amp;T) (N8)(?:[);/ ]|$)";
  "(?i)(IFoo (?:U200|H55|S50))(?:[);/ ]|$)";
  "(?i)Frog ?One(?:[);/ ]|$)";
  "(?i)(PALADIN EVO)";
  "(?i)iRola ([^/;]+) Build|(DX758|DX752|DX752|DX758[ _]?Pro) Build";
  "(?i)DX758[ _]?Pro";
  "(?i)(DX758|DX752)";
  "(?i)iRola ([^/;]+) Build";
  "(?i)iRULU[ _-](X11|V[34]|U2|AL101)(?:[);/ ]|$)";
  "(?i)iRULU[ _-](X11|V[34]|AL101)(?:[);/ ]|$)";
  "(?i)iRULU[ _](U2)(?:[);/ ]|$)";
  "(?i)ISWAG[ _]";
  "(?i)iSWAG[_ ]ACTIV";
  "(?i)iSWAG[_ ]KRONOS";
  "(?i)iSWAG[_ ]Lynx";
  "(?i)iSWAG[_ ]MEGA";
  "(?i)iSWAG[_ ]MANTRA";
  "(?i)iSWAG[_ ]NEMESIS";
  "(?i)iSWAG[_ ]NEO";
  "(?i)ISWAG[_ ]VIPER";
  "(?i)(?:IS655|IS[35]30)(?:[);/ ]|$)";
  "(?i)(IS[35]30)";
  "(?i)(IS655)";
  "(?i)(I-T60)(?:[);/ ]|$)";
  "(?i)itel|iNote|GP10X2019(?:[);/ ]|$)";
  "(?i)S665LN?";
  "(?i)W6002E?";
  "(?i)S663L[NC]";
  "(?i)S662LCN?";
  "(?i)W5005P?";
  "(?i)A509WM?";
  "(?i)[LW]6503";
  "(?i)L5006[CS]";
  "(?i)[LW]6004";
  "(?i)itel[ _]A15R";
  "(?i)P662LN?";
  "(?i)P682LPN?";
  "(?i)iNote ([^/;]*)Build";
  "(?i)iNote_([a-z0-9\-_]+)";
  "(?i)itel-it(1410|1512|1520)(?:[);/ ]|$)";
  "(?i)itel-it1553(?:[);/ ]|$)";
  "(?i)S11Plus(?:[);/ ]|$)";
  "(?i)itel[- ](A14S?|A16 Plus|A44 Power|A23S|A52 Lite)";
  "(?i)itel it170([23])";
  "(?i)itel A(\d{1,2}) ?Plus";
  "(?i)iTel ([^/;)]+)(?: Build|[;)])";
  "(?i)iTel[_ ]([a-z0-9\-_]*)";
  "(?i)iTRUCK 7 3G(?:[);/ ]|$)";
  "(?i)(LAMCY (?:L3[05]0|C100|L400)|IVA S6)(?:[);/ ]|$)";
  "(?i)LAMCY (L3[05]0|C100|L400)(?:[);/ ]|$)";
  "(?i)IVA S6(?:[);/ ]|$)";
  "(?i)(?:(?:733|730|766|930)TPC|769TPC(?:II)?|744TPC plus)(?:[);/ ]|$)";
  "(?i)((?:733|730|766|930)TPC|769TPC(?:II)?)(?:[);/ ]|$)";
  "(?i)(?:Innelo_1|iV 505|Me 1\+|Me 3S|Me [2345]|Android 8(?:[\d.]*);(?: [\w-]+;)? (?:i2_Lite|i2))(?:[);/ ]|$)";
  "(?i)i2(?:[);/ ]|$)";
  "(?i)Me 1\+";
  "(?i)Me ([2345]S?)";
  "(?i)(?:MC401_GWL)(?:[);/ ]|$)";
  "(?i)(MC401)_GWL";
  "(?i)(IX701)(?:[);/ ]|$)";
  "(?i)iYOU[_ ](M1)(?:[);/ ]|$)";
  "(?i)(Mi7_HERO_(?:BETA|TAB))(?:[);/ ]|$)";
  "(?i)Mi7[_ ]HERO[_ ]BETA(?:[);/ ]|$)";
  "(?i)Mi7[_ ]HERO[_ ]TAB(?:[);/ ]|$)";
  "(?i)(M10ES11)(?:[);/ ]|$)";
  "(?i)(I 618 APP plus\+)(?:[);/ ]|$)";
  "(?i)I 618 APP plus\+";
  "(?i)ivvi[ _]";
  "(?i)ivvi[ _](P60)[_ ](\w\d+)";
  "(?i)ivvi[ _]([^/;)]+)(?: Build|[);])";
  "(?i)mPhone ?([68]|7 Plus|7s)(?:[);/ ]|$)";
  "(?i)meanIT[ _]|(?:meanIT[ _](?:C[12]|X10|X[126]|MG430|Q[145]|C[18]0C[18]1)|Smartphone_X5)(?:[);/ ]|$)";
  "(?i)meanIT[ _]Q1 plus(?:[);/ ]|$)";
  "(?i)meanIT[ _](C[12]|X[126]|MG430|Q[145])(?:[);/ ]|$)";
  "(?i)meanIT[ _](X[12]0|C[18]0C[18]1)(?:[);/ ]|$)";
  "(?i)mipo[ _]([^/;)]+)(?: Build|[);])";
  "(?i)(Fundroid MB(?:18|216))(?:[);/ ]|$)";
  "(?i)(?:myPhone|myTab)_?[^;/)]+( Build|[);])|(?:FUN|Pocket|Prime)_18x9|Prime3Lite|Prime_4_Lite|Q-Smart_Plus|Q-Smart_III_Plus|Q_Smart_BE|(?:HAMMER_)?AXE[_ ]M[_ ]LTE|Hammer[_ ](?:Axe)|Cube_LTE|C-Smart_pix|SmartView_9\.6_3G|SmartView_(?:[78]|9_6)_(?:LTE|[34]G)|Android 6(?:[\d.]*);(?: [\w-]+;)? Pocket|Pocket_2|LUNA_II";
  "(?i)Cube_LTE|Cube 16GB";
  "(?i)(?:myPhone_)?Fun[_ ]?(\d)[_ ]?Lite";
  "(?i)(?:myPhone_)?Fun[_ ]?(\d)[_ ]?LTE";
  "(?i)(?:myPhone_)?Fun_?([48]|18x9)";
  "(?i)(?:HAMMER_)?AXE[_ ]M[_ ]LTE";
  "(?i)INFINITY (LTE|3G)";
  "(?i)Pocket_2(?:[);/ ]|$)";
  "(?i)Pocket(?:[);/ ]|$)";
  "(?i)myPhone[_ ]Pocket[_ ]Pro";
  "(?i)Prime3Lite(?:[);/ ]|$)";
  "(?i)Prime_18x9(_LTE)?(?:[);/ ]|$)";
  "(?i)Q_Smart_BE(?:[);/ ]|$)";
  "(?i)Q-Smart_Plus(?:[);/ ]|$)";
  "(?i)SmartView_9[_.]6_3G";
  "(?i)myPhone[ _]([^;/)]+)( Build|[;)])";
  "(?i)myTab[ _]?([^;/]+)(?: Build|[;)])";
  "(?i)(?:nJoy[_ ])?(Deimos 7|Kali_8|Turnus_8|Tityos_10|Arcas_7|Theia_10|Chronos_10)(?:[);/ ]|$)";
  "(?i)neocore_?";
  "(?i)neocore_N1G1(?:[);/ ]|$)";
  "(?i)neocore E1-2(?:[);/ ]|$)";
  "(?i)neocore_E1R1(?:[);/ ]|$)";
  "(?i)NEOCORE_E2(?:[);/ ]|$)";
  "(?i)NODROPOUT[_ ]";
  "(?i)NODROPOUT[_ ]([^/;)]+)(?: Build|[);])";
  "(?i)(?:AFTWI001|OK Google TV)(?:[);/ ]|$)";
  "(?i)phoneOne[ -]?([a-z0-9]+)";
  "(?i)(?:2000_000170_00)(?:[);/ ]|$)";
  "(?i)(43SFSW4M)(?:[);/ ]|$)";
  "(?i)Texet|(NaviPad [^/;]*) Build|TM-(?:1046|1058|1057|1067|3000|3200R|3500|400[34]|4071|450[34]|451[30]|4377|4082R|508[34]|550[358]|5010|5017|507[4-7]|5[23]77|6003|6906|702[13]|7055HD|709[69]|9747BT|9758|9751HD|9767|5513|520[410]|507[13]|558[134]|570[23]|7859|8044|9748[ _]3G|9720|7047HD[ _]3G|9757|9740|4982|4515|4083|500[3567]|5571|3204R|5016|8043|7047HD[ _]3G|8041HD|8066|705[23]|7041|8041HD|8051|8048|974[96]|973[78]W|974[170]|9743W|9750HD|7043XD|7049|7887|7037W|702[46])|TB-(771A|711A)|X Point|X-Force[\(-]?TM-5009\)?|X-Plus[\(-]?TM-5577\)?|TM_5011|X-pad (?:AIR 8|iX 7|NAVI 7\.[35]|NAVI 10|SKY 8\.1|STYLE 8|STYLE 10\.1|HIT|LITE 7\.[12]|QUAD (?:7\.2|10|7)|SHINE 8\.1)(?: 3G)?";
  "(?i)(NaviPad [^/;]*) Build";
  "(?i)X-pad SHINE 8\.1 3G";
  "(?i)X-pad QUAD 7\.2 3G";
  "(?i)X-pad LITE (7\.[12])";
  "(?i)X-pad STYLE 10\.1 3G";
  "(?i)(X-pad (?:AIR 8|iX 7) 3G)";
  "(?i)TM-7096|X-pad NAVI 7\.3 3G";
  "(?i)X-pad NAVI 7\.5 3G";
  "(?i)X-pad SKY 8\.1 3G";
  "(?i)TM-1046|X-pad NAVI 10 3G";
  "(?i)(TM-(?:1057|1067|6906|8043|9748[_ ]3G|9740|9757(?:[_ ]3G)?|7047HD[ _]3G|9747BT|9751HD|702[13]|705[23]|7041|9720|7047HD[_ ]3G|8044|8041HD|973[78]W|9743W|974[710]|9750HD|7043XD|7037W|702[46])|TB-(?:771A|711A|8041HD))";
  "(?i)(TM-(?:3000|3200R|400[34]|4083|4377|4504|451[30]|500[35]|5[23]77|5571|3204R|520[04]|5581|5505|5017|507[13-7]|5081|6003|5513))";
  "(?i)TM-508(3|4)";
  "(?i)TM-558(3|4)";
  "(?i)TM-(5016|3500)";
  "(?i)TEXET[_ ]IX-MINI";
  "(?i)X-Force[\(-]?TM-5009\)?";
  "(?i)X-Plus[\(-]?TM-5577\)?";
  "(?i)teXet[_ ]X-medium[_ ]plus";
  "(?i)Vmobile[ _]";
  "(?i)Vmobile[ _](J7)(?:[);/ ]|$)";
  "(?i)Vmobile XS Pro(?:[);/ ]|$)";
  "(?i)waipu tv stick(?:[);/ ]|$)";
  "(?i)OWN[ _]|(?:S4035[ _][34]G|Smart8|SMART PLUS LTE|FUN VALUE (?:4G|Lite)|FUN_VALUE)(?:[);/ ]|$)";
  "(?i)FUN ([67])";
  "(?i)FUN 5\(4G\)";
  "(?i)(?:OWN[ _])?(S3000D|S3010|S3020D|S4010|S4025|S4035[ _][34]G)";
  "(?i)FUN[_ ]VALUE(?: 4G)?";
  "(?i)Smart ?(8|9)(?:[);/ ]|$)";
  "(?i)SMART PLUS LTE(?:[);/ ]|$)";
  "(?i)FBMD/(?:Aspire E5-421G|Z5WAL|One S1003);";
  "(?i)FBMD/Aspire E5-421G;";
  "(?i)FBMD/Z5WAL;";
  "(?i)FBMD/One S1003;";
  "(?i)FBMD/(?:Alienware [0-9]{2,3}R[0-9]{1,2}|Area-51m|R3|R4|Alienware Aurora R[0-9]+(:? [0-9]+)?);";
  "(?i)Alienware 15R3;";
  "(?i)Alienware 17R4;";
  "(?i)Area-51m;";
  "(?i)Aurora (R[0-9]+)";
  "(?i)FBMD/(?:K50IN|K54L|T100HAN|T103HAF|UX360CAK|X550LB|X553MA|X555LN|X556UQK);"
].
Definition d_dr_re1_29 : list blob := [
  "(?i)FBMD/K50IN;";
  "(?i)FBMD/K54L;";
  "(?i)FBMD/T100HAN;";
  "(?i)FBMD/T103HAF;";
  "(?i)FBMD/UX360CAK;";
  "(?i)FBMD/X550LB;";
  "(?i)FBMD/X553MA;";
  "(?i)FBMD/X555LN;";
  "(?i)FBMD/X556UQK;";
  "(?i)FBMD/(?:Latitude E4300|Inspiron 3541|XPS 15 95[35]0);";
  "(?i)FBMD/((?:Compaq|HP) |23-f364)";
  "(?i)HP EliteBook (25[67]0p)";
  "(?i)HP ProBook (440 G5|6[35]60b)";
  "(?i)FBMD/(?:37021C5|80E5|80SM|80VR);";
  "(?i)FBMD/37021C5;";
  "(?i)FBMD/80E5;";
  "(?i)FBMD/80SM;";
  "(?i)FBMD/80VR;";
  "(?i)FBMD/SCL141CTP;";
  "(?i)FBMD/TH360R12\.32CTW;";
  "(?i)Satellite (A[25]00|C650|C855|L650|S855)";
  "(?i)Satellite ([^;\)]+);";
  "(?i)(?:Apple-)?iPod";
  "(?i)(?:Apple-)?iPod1[C,_]?1";
  "(?i)(?:Apple-)?iPod2[C,_]?1";
  "(?i)(?:Apple-)?iPod3[C,_]?1";
  "(?i)(?:Apple-)?iPod4[C,_]?1";
  "(?i)(?:Apple-)?iPod5[C,_]?1";
  "(?i)(?:Apple-)?iPod7[C,_]?1";
  "(?i)(?:Apple-)?iPod9[C,_]?1|iPodTouch7";
  "(?i)(?:Apple-)?iPod";
  "(?i)COWON ([^;/]+) Build";
  "(?i)Diofox[ _](M8|M10|M508)(?:[);/ ]|$)";
  "(?i)Fanvace[- _]([^;/)]+)(?: Build|[);])";
  "(?i)FiiO M(11S|1[157]|6)";
  "(?i)KuGou[_ -](P5)";
  "(?i)MECHEN[- _]([^;/)]+)[- _]Pro(?: Build|[);])";
  "(?i)MECHEN[- _]([^;/)]+)(?: Build|[);])";
  "(?i)Oilsky (M501|M303)(?:-Pro)?(?:[);/ ]|$)";
  "(?i)(M501|M303)";
  "(?i)(SV-MV100)";
  "(?i)YP-(G[SIPB]?1|G[57]0|GB70D)";
  "(?i)YP-G[B]?1";
  "(?i)Shanling (M6\(21\))";
  "(?i)(Y57A)(?:[);/ ]|$)";
  "(?i)(SLTDVD102[34])";
  "(?i)(DV-PTB1080)(?:[);/ ]|$)";
  "(?i)Erisson[_ ]Shell";
  "(?i)ALDINORD[;,)]";
  "(?i)_TV_[A-Z0-9]+_([0-9]{4});";
  "(?i)ALDISUED[;,)]";
  "(?i)ALDISUED, ([a-z0-9_ -]+), (?:wired|wireless)";
  "(?i)_TV_[A-Z0-9]+_([0-9]{4});";
  "(?i)(LE(?:32|43)S5970(?:s)?-(?:20|28|30)|LE55U7970-30|LE43S5977-20|U60856|S50856)";
  "(?i)AOC;([a-z0-9_ \-/]+);";
  "(?i)ARRIS[;,)]";
  "(?i)AWOX[;,)]";
  "(?i)LGE/[^/]+/AWOX; ([a-z0-9]+);";
  "(?i)AXEN[;,)]";
  "(?i)LGE/[^/]+/AXEN; ([a-z0-9]+)-";
  "(?i)AYA[;,)]";
  "(?i)_TV_[A-Z0-9]+_([0-9]{4});";
  "(?i)Airties; ?([^);/]+)";
  "(?i)LGE/SQY/RCA; ([a-z0-9]+);";
  "(?i)ALLSTAR[;,)]";
  "(?i)LGE/[^/]+/ALLSTAR; ([a-z0-9]+);";
  "(?i)Altech UEC; ?([^);/]+)";
  "(?i)ALTIMO[;,]";
  "(?i)Altus[;,)]";
  "(?i)Amazon.+AMZ";
  "(?i)Amazon.+AMZ-([a-z0-9_ -]+)_Build_";
  "(?i)ATLANTIC[;,)]";
  "(?i)_TV_[A-Z0-9]+_([0-9]{4});";
  "(?i)Beko[;,)]";
  "(?i)Blaupunkt_UMC[;,)]";
  "(?i)Botech[;,)]";
  "(?i)LGE/[^/]+/BOTECH; ([a-z0-9]+);";
  "(?i)(ATV R[12])";
  "(?i)BUSH[;,)]";
  "(?i)_TV_[A-Z0-9]+_([0-9]{4});";
  "(?i)CLAYTON[;,)]";
  "(?i)_TV_[A-Z0-9]+_([0-9]{4});";
  "(?i)CECOTEC[;,)]";
  "(?i)_TV_[A-Z0-9]+_([0-9]{4});";
  "(?i)CELCUS[;,)]";
  "(?i)Changhong; ?([^);/]+)";
  "(?i)CONTINENTAL_EDI[;,)]";
  "(?i)_TV_[A-Z0-9]+_([0-9]{4});";
  "(?i)CROWN[;,)]";
  "(?i)_TV_[A-Z0-9]+_([0-9]{4});";
  "(?i)Cultraview690[;,]";
  "(?i)LaTivu_(?:\d+[.\d]+)_([0-9]{4})";
  "(?i)DIJITSU[;,)]";
  "(?i)LGE/[^/]+/DIJITSU; ([a-z0-9]+);";
  "(?i)DIKOM[;,)]";
  "(?i)_TV_[A-Z0-9]+_([0-9]{4});";
  "(?i)DIORA[;,)]";
  "(?i)_TV_[A-Z0-9]+_([0-9]{4});";
  "(?i)Daewoo[;,)]";
  "(?i)_TV_[A-Z0-9]+_([0-9]{4});";
  "(?i)DIGIHOME[;,)]";
  "(?i)_TV_[A-Z0-9]+_([0-9]{4});";
  "(?i)DYON[;,)]";
  "(?i)LGE/[^/]+/DYON; ([a-z0-9]+)";
  "(?i)EAS_ELECTRIC[;,)]";
  "(?i)_TV_[A-Z0-9]+_([0-9]{4});";
  "(?i)EGL[;,)]";
  "(?i)_TV_[A-Z0-9]+_([0-9]{4});";
  "(?i)ELECTRONIA[;,)]";
  "(?i)_TV_[A-Z0-9]+_([0-9]{4});";
  "(?i)ENDURO[;,)]";
  "(?i)_TV_[A-Z0-9]+_([0-9]{4});";
  "(?i)EDENWOOD[;,)]";
  "(?i)_TV_[A-Z0-9]+_([0-9]{4});";
  "(?i)ELEKTROLAND[;,)]";
  "(?i)_TV_[A-Z0-9]+_([0-9]{4});";
  "(?i)ESSENTIELB[;,)]";
  "(?i)_TV_[A-Z0-9]+_([0-9]{4});";
  "(?i)Expressluck[;,)]";
  "(?i)([24]K)TV";
  "(?i)FU[;,)]";
  "(?i)_TV_[A-Z0-9]+_([0-9]{4});";
  "(?i)FINIX[;,)]";
  "(?i)_TV_[A-Z0-9]+_([0-9]{4});";
  "(?i)FITCO, ([a-z0-9_ -]+), (?:wired|wireless)";
  "(?i)FOX[;,)]";
  "(?i)LGE/[^/]+/FOX; ([a-z0-9-]+);";
  "(?i)FUJICOM[;,)]";
  "(?i)_TV_[A-Z0-9]+_([0-9]{4});";
  "(?i)FINLUX[;,)]";
  "(?i)_TV_[A-Z0-9]+_([0-9]{4});";
  "(?i)FUEGO[;,)]";
  "(?i)_TV_[A-Z0-9]+_([0-9]{4});";
  "(?i)FUNAI[;,)]";
  "(?i)GN_ELECTRONICS[;,)]";
  "(?i)_TV_[A-Z0-9]+_([0-9]{4});";
  "(?i)GOGEN[;,)]";
  "(?i)_TV_[A-Z0-9]+_([0-9]{4});";
  "(?i)GRAETZ[;,)]";
  "(?i)_TV_[A-Z0-9]+_([0-9]{4});";
  "(?i)(OWB|(?:Amazon.+)?Grundig)";
  "(?i)Amazon.+Grundig-([a-z0-9_ -]+)_Build_";
  "(?i)HIGH_ONE[;,)]";
  "(?i)_TV_[A-Z0-9]+_([0-9]{4});";
  "(?i)HOFER[;,)]";
  "(?i)_TV_[A-Z0-9]+_([0-9]{4});";
  "(?i)HUMELAB[;,)]";
  "(?i)_TV_[A-Z0-9]+_([0-9]{4});";
  "(?i)(?:HHW_)?HAIER";
  "(?i)HANSEATIC[;,)]";
  "(?i)_TV_[A-Z0-9]+_([0-9]{4});";
  "(?i)HI-LEVEL[;,)]";
  "(?i)_TV_[A-Z0-9]+_([0-9]{4});";
  "(?i)Hisense|Eurofins_Digital_Testing";
  "(?i)(L[A-Z]{2,3}[0-9]{2}[A-Z][0-9]{3,4}[A-Z]{0,6}[0-9]?[A-Z]?)";
  "(?i)(H[A-Z]?[0-9]{2}[A-Z][0-9]{3,4}[A-Z]{0,4})";
  "(?i)SmartTV_([0-9]{4})_";
  "(?i)Hitachi[;,)]";
  "(?i)_TV_[A-Z0-9]+_([0-9]{4});";
  "(?i)HORIZON[;,)]";
  "(?i)_TV_[A-Z0-9]+_([0-9]{4});";
  "(?i)HOTEL[;,)]";
  "(?i)Humax|hdr1000s";
  "(?i)(HD-FOX C|HD (FOX\+|NANO)|iCord (HD\+|MINI|Cable)|(CX|IR)HD-5100(C|S)|HM9503HD)";
  "(?i)Humax; ([^);/]+)";
  "(?i)HYUNDAI[;,)]";
  "(?i)LGE/[^/]+/HYUNDAI; ([a-z0-9]+);";
  "(?i)_TV_[A-Z0-9]+_([0-9]{4});";
  "(?i)INNOHIT[;,)]";
  "(?i)LGE/[^/]+/INNOHIT; ([a-z0-9-]+);";
  "(?i)(Vantage|VT-100|VT-1)";
  "(?i)inverto; ([^);/]+)";
  "(?i)(Volksbox Web Edition|Volksbox Essential|Volksbox II|Volksbox)";
  "(?i)AFTSO001|JVC[;,)]";
  "(?i)LGE/[^/]+/JVC; ([a-z0-9-]+);";
  "(?i)_TV_[A-Z0-9]+_([0-9]{4});";
  "(?i)KUBO[;,)]";
  "(?i)KALLEY[;,)]";
  "(?i)KENDO[;,)]";
  "(?i)_TV_[A-Z0-9]+_([0-9]{4});";
  "(?i)KYDOS[;,)]";
  "(?i)_TV_[A-Z0-9]+_([0-9]{4});";
  "(?i)LGE ?;|43UN68006LA";
  "(?i)KEY000000(2E|2F|3B|3F)";
  "(?i)(NetCast [0-9]{1}\.[0-9]{1}|GLOBAL_PLAT3)";
  "(?i)(OLED[0-9]{2}[A-Z0-9]{3}[A-Z]{2})";
  "(?i)(OLED[0-9]{2}[A-Z][0-9][A-Z](?:-Z)?)";
  "(?i)(OLED[0-9]{2}[A-Z0-9]{2})";
  "(?i)([0-9]{2}[A-Z]{2}[0-9]{4}[A-Z0-9]{1}[A-Z]{2})";
  "(?i)([0-9]{2}NANO[0-9]{3}[A-Z]{2})";
  "(?i)([0-9]{2}NANO[0-9]{2})";
  "(?i)LGE;? (?:HOTEL\-TV; )?([0-9]{2}[a-z0-9]{4,9}(?:\-[a-z]{2,3})?)";
  "(?i)LGE;? ?([0-9]{2}[A-Z]{2}[0-9]{2,4}[A-Z]?)";
  "(?i)LGE;? ?([0-9]{2}QNED[0-9]{3}[A-Z]{2})";
  "(?i)LAURUS[;,)]";
  "(?i)_TV_[A-Z0-9]+_([0-9]{4});";
  "(?i)LENCO[;,)]";
  "(?i)_TV_[A-Z0-9]+_([0-9]{4});";
  "(?i)Lifemaxx[;,)]";
  "(?i)_TV_[A-Z0-9]+_([0-9]{4});"
].
Definition d_dr_re1_30 : list blob := [
  "(?i)LINSAR[;,)]";
  "(?i)_TV_[A-Z0-9]+_([0-9]{4});";
  "(?i)Loewe[^$]";
  "(?i)([A-Z]{2}[0-9]{3})";
  "(?i)DIXONS-LOGIK[;,)]";
  "(?i)_TV_[A-Z0-9]+_([0-9]{4});";
  "(?i)LUXOR[;,)]";
  "(?i)_TV_[A-Z0-9]+_([0-9]{4});";
  "(?i)MEGA_VISION[;,)]";
  "(?i)_TV_[A-Z0-9]+_([0-9]{4});";
  "(?i)MIIA[;,)]";
  "(?i)LGE/[^/]+/MIIA; (MT[a-z0-9]+);";
  "(?i)MStar[;,)]";
  "(?i)([24])KTV18";
  "(?i)MTC[;,)]";
  "(?i)([24])K_Android_TV_V01";
  "(?i)MEDION, ([a-z0-9_ -]+), (?:wired|wireless)";
  "(?i)_TV_[A-Z0-9]+_([0-9]{4});";
  "(?i)Metz; ([a-z0-9]+);";
  "(?i)MITCHELL_BROWN[;,)]";
  "(?i)_TV_[A-Z0-9]+_([0-9]{4});";
  "(?i)MYROS[;,)]";
  "(?i)_TV_[A-Z0-9]+_([0-9]{4});";
  "(?i)NABO[;,)]";
  "(?i)_TV_[A-Z0-9]+_([0-9]{4});";
  "(?i)NEXON[;,)]";
  "(?i)_TV_[A-Z0-9]+_([0-9]{4});";
  "(?i)NILAIT[;,)]";
  "(?i)_TV_[A-Z0-9]+_([0-9]{4});";
  "(?i)NORMANDE[;,)]";
  "(?i)_TV_[A-Z0-9]+_([0-9]{4});";
  "(?i)NAVON[;,)]";
  "(?i)_TV_[A-Z0-9]+_([0-9]{4});";
  "(?i)NEO, ([a-z0-9_ -]+), (?:wired|wireless)";
  "(?i)NEXT[;,)]";
  "(?i)LGE/[^/]+/NEXT; ([a-z0-9-]+);";
  "(?i)_TV_[A-Z0-9]+_([0-9]{4});";
  "(?i)NOKIA[;,)]";
  "(?i)_TV_[A-Z0-9]+_([0-9]{4});";
  "(?i)NORDMENDE[;,)]";
  "(?i)_TV_[A-Z0-9]+_([0-9]{4});";
  "(?i)OCEANIC[;,)]";
  "(?i)_TV_[A-Z0-9]+_([0-9]{4});";
  "(?i)ONVO[;,)]";
  "(?i)LGE/[^/]+/ONVO; ([a-z0-9]+);";
  "(?i)ORAVA[;,)]";
  "(?i)_TV_[A-Z0-9]+_([0-9]{4});";
  "(?i)LGE/[^/]+/PEAQ; ([a-z0-9-]+);";
  "(?i)Philips.+([0-9]{2}H[FHOU][HKLST][0-9]{4}[^),;]+)";
  "(?i)PREMIER[;,)]";
  "(?i)LGE/[^/]+/PREMIER; ([a-z0-9]+);";
  "(?i)PROFILO[;,)]";
  "(?i)Profilo[,;] ?([^),;/]+)";
  "(?i)_TV_[A-Z0-9]+_([0-9]{4});";
  "(?i)PROSONIC[;,)]";
  "(?i)_TV_[A-Z0-9]+_([0-9]{4});";
  "(?i)VIERA (201[1-9])";
  "(?i)(DIGA [A-Z]{1}[0-9]{4})";
  "(?i)DIGA Webkit ([A-Z]{1}[0-9]{4})";
  "(?i)SmartTV(201[89]|202[0-2])";
  "(?i)Panasonic\..+\.([0-9]{4})(?:[);/ ]|$)";
  "(?i)Panasonic;Viera([0-9]{4});";
  "(?i)_TV_[A-Z0-9_]+_([0-9]{4});";
  "(?i)(?:Philips|TPVision)|NETTV/";
  "(?i)(?:Philips|TPVision)[,;](?: |Philips;)?([^),;]+)";
  "(?i)NETTV/[0-9.]{5}";
  "(?i)POLAROID[;,)]";
  "(?i)QILIVE[;,)]";
  "(?i)_TV_[A-Z0-9]+_([0-9]{4});";
  "(?i)RCA;";
  "(?i)RCA; ([a-z0-9]+);";
  "(?i)REGAL[;,)]";
  "(?i)_TV_[A-Z0-9]+_([0-9]{4});";
  "(?i)SCHAUB_LORENZ[;,)]";
  "(?i)_TV_[A-Z0-9]+_([0-9]{4});";
  "(?i)SCHONTECH[;,)]";
  "(?i)_TV_[A-Z0-9]+_([0-9]{4});";
  "(?i)SEG[;,)]";
  "(?i)_TV_[A-Z0-9]+_([0-9]{4});";
  "(?i)SEHMAX[;,)]";
  "(?i)_TV_[A-Z0-9]+_([0-9]{4});";
  "(?i)SULPICE_TV[;,)]";
  "(?i)_TV_[A-Z0-9]+_([0-9]{4});";
  "(?i)SUNGATE[;,)]";
  "(?i)LGE/[^/]+/SUNGATE; ([a-z0-9-]+);";
  "(?i)Saba[;,)]";
  "(?i)_TV_[A-Z0-9]+_([0-9]{4});";
  "(?i)Salora(?:_cx)?[;,)]";
  "(?i)_TV_[A-Z0-9]+_([0-9]{4});";
  "(?i)Samsung.*Smart\s*TV|Tizen.*TV|Maple_2011";
  "(?i)SmartTV(201[2-9]|202[0-4]):([^);/]+)";
  "(?i)SmartTV(201[2-9]|202[0-4])";
  "(?i)SCHNEIDER[;,)]";
  "(?i)LGE/[^/]+/SCHNEIDER; ([a-z0-9-]+);";
  "(?i)Selevision; (?:Selevision )?([^);/]+)";
  "(?i)(EMC1000i)";
  "(?i)(?:UMC-)?Sharp";
  "(?i)SHARP, ([a-z0-9_ -]+), (?:wired|wireless)";
  "(?i)Sharp-([^);/]+)";
  "(?i)Sharp[,;] ?([^),;/]+)";
  "(?i)(LE[0-9]{3}[A-Z]{0,3})";
  "(?i)LC-([^);/,]+)";
  "(?i)SILVA_SCHNEIDER[;,)]";
  "(?i)_TV_[A-Z0-9]+_([0-9]{4});";
  "(?i)SKYTECH[;,)]";
  "(?i)LGE/[^/]+/SKYTECH; ([a-z0-9-]+);";
  "(?i)Sky_?worth|SKW690|SWTV[;,)]";
  "(?i)Sky_worth;([^);/]+)";
  "(?i)LaTivu_(?:\d+[.\d]+)_([0-9]{4})";
  "(?i)Smart[;,)]";
  "(?i)Smart; ([^);/]+)";
  "(?i)([A-Z]{2}[0-9]{2}|ZAPPIX)";
  "(?i)SMARTTECH[;,)]";
  "(?i)LGE/[^/]+/SMARTTECH; ([a-z0-9]+);";
  "(?i)SOLAS[;,]";
  "(?i)(KDL-GR[12])";
  "(?i)KDL-GN([56])";
  "(?i)(?:BRAVIA )(2K GB ATV3|[48]K UR[123]|4K GB ATV3|4K GB|4K VH2|4K 2015|2015|VH1|VU1)(?:[);/ ]|VH1|4K VH2|$)";
  "(?i)(K[DM]L?-?[0-9]{2}[A-Z]{1}[0-9]{4}[A-Z]{1})";
  "(?i)(K[DM]L?-?[0-9]{2}[A-Z]{1}[0-9]{3}[A-Z]{1})";
  "(?i)(K[DM]L?-?[0-9]{2}[A-Z]{1,2}[0-9]{1,5})";
  "(?i)SSMART[;,)]";
  "(?i)LGE/[^/]+/SSMART; ([a-z0-9-]+);";
  "(?i)STAR LIGHT[;,)]";
  "(?i)STILEVS[;,)]";
  "(?i)LGE/[^/]+/STILEVS; ([a-z0-9]+);";
  "(?i)SUNNY[;,)]|SN55FMN243-0246";
  "(?i)(SN55FMN243-0246)";
  "(?i)(?:ATMACA|XianYou)/SUNNY; ([a-z0-9-]+);";
  "(?i)(?:ATMACA|XianYou)/SUNNY.+(2018)\)";
  "(?i)(?:ATMACA|XianYou)/SUNNY;";
  "(?i)TALBERG[;,)]";
  "(?i)_TV_[A-Z0-9]+_([0-9]{4});";
  "(?i)TAUBE[;,)]";
  "(?i)LGE/[^/]+/TAUBE; ([a-z0-9]+);";
  "(?i)(?:Amazon.+)?TCL";
  "(?i)(32D1820|(?:39|55)D2900|32D2930|(?:32|43)S4900)";
  "(?i)TCL[,;] ?([^),;/]+)";
  "(?i)Amazon.+TCL-([a-z0-9_ -]+)_Build_";
  "(?i)SCBC[;,)]|_TV_[A-Z0-9_]+_TCL_SCBC";
  "(?i)_TV_[A-Z0-9]+_TCL_SCBC_Tbrowser_2k20";
  "(?i)TDSystems[;,)]";
  "(?i)SmartTV(2019|2020)";
  "(?i)TOKYO[;,)]";
  "(?i)TUCSON[;,)]";
  "(?i)_TV_[A-Z0-9]+_([0-9]{4});";
  "(?i)((DigiCorder|MultyVision|Digit) (ISIO S|ISIO C|ISIO))";
  "(?i)_TV_[A-Z0-9]+_([0-9]{4});";
  "(?i)TECHNIKA[;,)]";
  "(?i)_TV_[A-Z0-9]+_([0-9]{4});";
  "(?i)([A-Z]{1}-[0-9]{3})";
  "(?i)Techwood[;,)]";
  "(?i)_TV_[A-Z0-9]+_([0-9]{4});";
  "(?i)PREO[;,)]";
  "(?i)LGE/[^/]+/PREO; ([a-z0-9-]+);";
  "(?i)_TV_[A-Z0-9]+_([0-9]{4});";
  "(?i)THOMSON[,]?|THOM";
  "(?i)(TB28D19DHS-01|T28D18SFS-01B)";
  "(?i)(T32RTM5040|T32D18SFS-01B)";
  "(?i)(T43FSL5031|T43D18SFS-01B)";
  "(?i)(T40D18SFS-01B)";
  "(?i)(T49D18SFS-01B)";
  "(?i)(T55D18[SD]FS-01B)";
  "(?i)Toptech690[;,]";
  "(?i)LaTivu_(?:\d+[.\d]+)_([0-9]{4})";
  "(?i)(?:Amazon.+)?Toshiba";
  "(?i)(([0-9]{2}|DTV_)[A-Z]{2}[0-9]{1,3})";
  "(?i)Amazon.+Toshiba-([a-z0-9_ -]+)_Build_";
  "(?i)_TV_[A-Z0-9]+_([0-9]{4});";
  "(?i)THTF_CVTE[;,)]";
  "(?i)TURBO-?X[;,)]";
  "(?i)_TV_[A-Z0-9]+_([0-9]{4});";
  "(?i)UNITED[;,)]";
  "(?i)_TV_[A-Z0-9]+_([0-9]{4});";
  "(?i)OEM, ([a-z0-9_ -]+), (?:wired|wireless)|_TV_[A-Z0-9]+_([0-9]{4});|LaTivu_(?:\d+[.\d]+)_([0-9]{4})|LGE/[^/]+/[^/]+;";
  "(?i)LGE/[^/]+/[^/]+; ([a-z0-9-]+);";
  "(?i)_TV_[A-Z0-9]+_([0-9]{4});";
  "(?i)LaTivu_(?:\d+[.\d]+)_([0-9]{4})";
  "(?i)VANGUARD[;,)]";
  "(?i)_TV_[A-Z0-9]+_([0-9]{4});";
  "(?i)VORTEX[;,)]";
  "(?i)_TV_[A-Z0-9]+_([0-9]{4});";
  "(?i)VOX[;,)]";
  "(?i)_TV_[A-Z0-9]+_([0-9]{4});";
  "(?i)(?:Vestel.+VESTEL|(?:BBC_CUSTOMERS|VESTEL)[;,)])";
  "(?i)_TV_[A-Z0-9]+_([0-9]{4});";
  "(?i)videoweb|tv2n";
  "(?i)(tv2n)";
  "(?i)(videowebtv)";
  "(?i)VISITECH[;,)]";
  "(?i)_TV_[A-Z0-9]+_([0-9]{4});";
  "(?i)WELLINGTON[;,)]";
  "(?i)_TV_[A-Z0-9]+_([0-9]{4});";
  "(?i)WONDER[;,)]";
  "(?i)_TV_[A-Z0-9]+_([0-9]{4});";
  "(?i)WALKER[;,)]";
  "(?i)_TV_[A-Z0-9]+_([0-9]{4});";
  "(?i)WALTHAM[;,)]";
  "(?i)_TV_[A-Z0-9]+_([0-9]{4});";
  "(?i)WeByLoewe[;,)]"
].
Definition d_dr_re1_31 : list blob := [
  "(?i)WESTON[;,)]";
  "(?i)LGE/[^/]+/WESTON; ([a-z0-9]+);";
  "(?i)X-VISION[;,)]";
  "(?i)XGEM[;,)]";
  "(?i)XGEM[;,)] ?([a-z0-9]+)(?:[);/ ]|$)";
  "(?i)Amazon.+Xiaomi";
  "(?i)Amazon.+Xiaomi-([a-z0-9_ -]+)_Build_";
  "(?i)ZIMMER[;,)]";
  "(?i)LGE/[^/]+/ZIMMER; ([a-z0-9-]+);";
  "(?i)ANDERSSON[;,)]";
  "(?i)_TV_[A-Z0-9]+_([0-9]{4});";
  "(?i)coocaa[;,)]";
  "(?i)coocaa; ([a-z0-9]+);";
  "(?i)ELIT[;,)]";
  "(?i)_TV_[A-Z0-9]+_([0-9]{4});";
  "(?i)OK[;,)]";
  "(?i)_TV_[A-Z0-9]+_([0-9]{4});";
  "(?i)SIMFER[;,)]";
  "(?i)LGE/[^/]+/SIMFER; ([a-z0-9]+);"
].
(** device_repo.go:18335-30774. *)
Definition d_dr_re1 : list blob :=
  concat [d_dr_re1_0; d_dr_re1_1; d_dr_re1_2; d_dr_re1_3; d_dr_re1_4; d_dr_re1_5; d_dr_re1_6; d_dr_re1_7; d_dr_re1_8; d_dr_re1_9; d_dr_re1_10; d_dr_re1_11; d_dr_re1_12; d_dr_re1_13; d_dr_re1_14; d_dr_re1_15; d_dr_re1_16; d_dr_re1_17; d_dr_re1_18; d_dr_re1_19; d_dr_re1_20; d_dr_re1_21; d_dr_re1_22; d_dr_re1_23; d_dr_re1_24; d_dr_re1_25; d_dr_re1_26; d_dr_re1_27; d_dr_re1_28; d_dr_re1_29; d_dr_re1_30; d_dr_re1_31].

