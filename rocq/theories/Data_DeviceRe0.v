(** The device patterns (part 1 of 2).  Written by tools/gen_tables.py from the sources; do not edit. *)
From Verif Require Import Model_Base Model_Blob Model_Ctx.
Open Scope N_scope.
Open Scope blob_scope.

Definition d_dr_re0_0 : list blob := [
  "(?i)EK-G[CN][0-9]{3}";
  "(?i)EK-GC([0-9]{3})";
  "(?i)AFTLBT962E2(?:[);/ ]|$)";
  "(?i)AFTLBT962E2(?:[);/ ]|$)";
  "(?i)AFTLFT962X3(?:[);/ ]|$)";
  "(?i)AFTLFT962X3(?:[);/ ]|$)";
  "(?i)(?:Tesla/(?:(?:develop|feature|terminal-das-fsd-eap)-)?[0-9.]+|QtCarBrowser)";
  "(?i)Tesla/[0-9.]+";
  "(?i)Archos.*GAMEPAD([2]?)";
  "(?i)Nintendo (([3]?DS[i]?)|Wii[U]?|Switch|GameBoy)";
  "(?i)Pocket ([23]) ?(?:Plus|\+)";
  "(?i)Pocket ([235])";
  "(?i)Dreamcast|Aplix_SEGASATURN";
  "(?i)(?:PlayStation ?(4 Pro|[2-5]|Portable|Vita)|sony_tv;ps5;|\(PS3\))";
  "(?i)sony_tv;ps5;";
  "(?i)\(PS3\)";
  "(?i)PlayStation ?(4 Pro|[2-5]|Portable|Vita)";
  "(?i)10moons[_ ]([^/;)]+)(?: Build|[);])";
  "(?i)(?:(?:E500A_2019|2E E450 2018)|(?:TWOE[-_ ]E450R|F534L|F572L|E500A))(?:[);/ ]|$)";
  "(?i)E500A_2019(?:[);/ ]|$)";
  "(?i)2E E450 2018(?:[);/ ]|$)";
  "(?i)TWOE[-_ ](E450R)(?:[);/ ]|$)";
  "(?i)(F534L|F572L|E500A)(?:[);/ ]|$)";
  "(?i)(?:180[1379]-A01|1713-A01|1707-A01|1509-A00|1603-A03|1607-A01|1503-A01|1505-A0[12]|1605-A01)(?:[);/ ]|$)";
  "(?i)1807-A01(?:[);/ ]|$)";
  "(?i)1803-A01(?:[);/ ]|$)";
  "(?i)1809-A01(?:[);/ ]|$)";
  "(?i)1713-A01(?:[);/ ]|$)";
  "(?i)1707-A01(?:[);/ ]|$)";
  "(?i)1801-A01(?:[);/ ]|$)";
  "(?i)1509-A00(?:[);/ ]|$)";
  "(?i)1503-A01(?:[);/ ]|$)";
  "(?i)1605-A01(?:[);/ ]|$)";
  "(?i)1603-A03(?:[);/ ]|$)";
  "(?i)1607-A01(?:[);/ ]|$)";
  "(?i)1505-A0[12](?:[);/ ]|$)";
  "(?i)3GNET[ _]";
  "(?i)3GNET[ _](U8|T800|U6s)(?:[);/ ]|$)";
  "(?i)3GNET[ _]T ?900";
  "(?i)(?:Aplay ?[34])(?:[);/ ]|$)";
  "(?i)Aplay ?([34])";
  "(?i)AC0731B|AC1024C|AC7803C|BC9710AM|EL72B|LC0720C|LC0723B|LC0725B|LC0804B|LC0808B|LC0809B|LC0810C|LC0816C|LC0901D|LC1016C|MT0724B|MT0729[BD]|MT0811B|OC1020A|RC07(?:09B|10B|18C|19H|2[16]B|22C|27H|34H|43H)|RC0817C|RC1018C|RC1019G|RC1025F|RC1301C|RC780[24]F|RC9711B|RC9712C|RC9716B|RC9717B|RC9724C|RC9726C|RC9727F|RC9730C|RC9731C|TS0807B|TS1013B|VM0711A|VM1017A|RC0813C|QS9719D|QS9718C|QS9715F|QS1023H|QS0815C|QS0730C|QS0728C|QS0717D|QS0716D|QS0715C|MT7801C|TS9708B|AC0732C|MT0739D|MT0812E|(?:3Q_)?ER71B";
  "(?i)MT0724B|LC0901D|LC0816C|LC0810C|LC0809B|LC0808B|LC0804B|LC0725B|LC0723B";
  "(?i)VM1017A|TS1013B|TS0807B|RC9731C|RC9730C|RC9727F|RC9726C|RC9724C|RC9717B|RC9716B|RC9712C|RC9711B|RC1301C|RC1025F|RC1019G|RC1018C|RC0817C|RC0813C|RC0743H|RC0734H|RC0726B|RC0722C|RC0721B|RC0719H|RC0718C|RC0710B|RC0709B|QS9715F|QS1023H|QS0815C|QS0730C|QS0728C|QS0717D|QS0716D|QS0715C|MT0811B|MT0739D|MT0729[BD]|LC1016C|LC0720C|BC9710AM|AC1024C|AC0731B";
  "(?i)MT7801C|QS9718C|QS9719D|VM0711A|OC1020A";
  "(?i)AC7803C|AC0732C|RC0727H";
  "(?i)MT0812E|RC7802F";
  "(?i)EL72B|(?:3Q_)?ER71B";
  "(?i)(RC7804F)";
  "(?i)4Good[ _]|S450m [43]G|S555m 4G|S501m 3G|T700i_3G|People (?:G503|G410|GT300)|Light (?:A10[34]|B100|AT300)|Light_AT200";
  "(?i)(T700i|T100m|T70[34]m)[_ ]?3G";
  "(?i)Light[_ ](AT[23]00)";
  "(?i)People (GT300|AT100)";
  "(?i)S555m[_ ]4G";
  "(?i)(S(?:450m|501m)[_ ][43]G|Light (?:A10[34]|B100)|People (?:G503|G410))";
  "(?i)4Good[ _]([^);/]+)(?: Build|[);])";
  "(?i)4ife (4K Smart TV Box)(?:[);/ ]|$)";
  "(?i)Tarzan F1(?:[);/ ]|$)";
  "(?i)(?:SWEGUE|DRENA|Kamba(?:_2)?)(?:[);/ ]|$)";
  "(?i)8848 (M[3-6])(?:[);/ ]|$)";
  "(?i)(G4040)";
  "(?i)(?:A1 (?:Alpha|Alpha 20\+)|Alpha 20|Alpha Eco)(?:[);/ ]|$)";
  "(?i)A1 Alpha 20\+";
  "(?i)A95X MAX \+";
  "(?i)A95X ?Z2PLUS";
  "(?i)A95X[ _-]?(F[1-4]|R[1235]|[AWZ]2|A1)";
  "(?i)Android 13(?:[\d.]*);(?: [\w-]+;)? (?:M50)( Build|[;)])";
  "(?i)(TK701|TK806)_EEA(?:[);/ ]|$)";
  "(?i)elite Aquarius(?:[);/ ]|$)";
  "(?i)(Hashtag|Shine|Chacer)(?:[);/ ]|$)";
  "(?i)AGM[ _]([^/;)]+)(?: Build|[;)])|AG[_ ]Go[_-]Tab|(?:Flair|Ultra 2|Freedom Access)(?:[);/ ]|$)";
  "(?i)AG[_ ]Go[_-]Tab[_ ]Access(_2)?(?:[);/ ]|$)";
  "(?i)(Flair|Ultra 2|Freedom Access)(?:[);/ ]|$)";
  "(?i)AGM A9(?:[);/ ]|$)";
  "(?i)AGM_H3(?:[);/ ]|$)";
  "(?i)AGM_H5_PRO(?:[);/ ]|$)";
  "(?i)AGM[_ ]PAD[_ ](P2W|P[12]|T[13])(?:[);/ ]|$)";
  "(?i)AGM[ _]([^/;)]+)(?: Build|[;)])";
  "(?i)AI\+ ([^);/]+)( Build|[);])";
  "(?i)(?:AIDATA ELDE 10 TABLET|ADT_?1061(?:_1)?|ADT1012L)(?:[);/ ]|$)";
  "(?i)ADT_?1061(?:_1)?";
  "(?i)AIRBOOK PRO 8S(?:[);/ ]|$)";
  "(?i)iris708|Kingcomm C500";
  "(?i)ALDINORD, ([a-z0-9_ -]+), (?:wired|wireless)";
  "(?i)ALDISUED, ([a-z0-9_ -]+), (?:wired|wireless)";
  "(?i)ALLINmobile_ARENA(?:[);/ ]|$)";
  "(?i)AMA[ _](A703)(?:[);/ ]|$)";
  "(?i)(LE-3[29]ZTHS25|LE-5[05]ZTUS30|LE-50ZTUS32|LE-43ZTFS25)(?:-[ABF])?(?:[);/ ]|$)";
  "(?i)AM(350|355|40[257]|41[025]|450|50[689]|52[037]|51[58]|53[05])(?:[);/ ]|$)";
  "(?i)AM(355|407)";
  "(?i)AM([0-9]{3})";
  "(?i)(?:RG405[VM]|RG505|RG556|RG406V|RGCUBE)(?:[);/ ]|$)";
  "(?i)RG([0-9]{3}[A-Z]?)(?:[);/ ]|$)";
  "(?i)Ancel(801)(?:[);/ ]|$)";
  "(?i)ANS/|(?: UL40|ACK2326)(?: Build|[;)])";
  "(?i)(AnPad_U2)";
  "(?i)AOC[;,]|(?:Q10107L-ME)(?:[);/ ]|$)";
  "(?i)(Q10107L-ME)(?:[);/ ]|$)";
  "(?i)AOYODKG[_ ](A38)(?:[);/ ]|$)";
  "(?i)(WT(?:22|19)M-FI)(?:[);/ ]|$)";
  "(?i)ARRIS|MMI, ([a-z0-9_ -]+), (?:wired|wireless)";
  "(?i)Arris_liberty,([a-z0-9-]+),(?:wired|wireless)";
  "(?i)ARRIS[,;] ([^),;/]+)";
  "(?i)MMI, ([a-z0-9_ -]+), (?:wired|wireless)";
  "(?i)ASSE[-._ ](Q[35]s?)(?:[);/ ]|$)";
  "(?i)ATT_|(?:EA1002|EA21100[125]|EABF22206A|U(?:202|304|31[89]|328|380|626|668|6080|705)AA|QS5509A|V340U|V350U|WTATTRW2|SL112A|SL219A)(?:[);/ ]|$)";
  "(?i)(?:ATT_)?EA211101(?:[);/ ]|$)";
  "(?i)(?:ATT_)?U1030AA(?:[);/ ]|$)";
  "(?i)(?:ATT_)?U102AA(?:[);/ ]|$)";
  "(?i)V340U(?:[);/ ]|$)";
  "(?i)ATMAN[ _-]([^/;)]+)(?: Build|[);])";
  "(?i)(?:(IT)_(701A)|IT-801B)(?:[);/ ]|$)";
  "(?i)(IT)[_-](701A|801B)";
  "(?i)(?:ATOL (?:150F)|Smart_(?:Prime|SLIM_Plus))(?:[);/ ]|$)";
  "(?i)ATOL (150F)";
  "(?i)AUPO[ _]Zeus";
  "(?i)AUPO[ _]Zeus 10 Pro";
  "(?i)(TB-703G)(?:[);/ ]|$)";
  "(?i)AUX[ _]([^/;)]+)(?:_TD)";
  "(?i)Excer[ _]";
  "(?i)Excer[ _]G5\.([236])";
  "(?i)Excer[ _]G5";
  "(?i)Excer[ _]10[ _]PRO";
  "(?i)Excer[ _]8";
  "(?i)(?:AWOX|B213[29]00SW)(?:[);/ ]|$)";
  "(?i)AWOX;SmartTV;([a-z0-9_ -]+);";
  "(?i)(B213[29]00SW)(?:[);/ ]|$)";
  "(?i)LGE; (AX[a-z0-9-]+);";
  "(?i)AXXA[ _]";
  "(?i)AXXA[ _](S\d+)[ _]PLUS";
  "(?i)AXXA[ _](S\d+)";
  "(?i)AYYA[ _]|(?:Ayat101)(?:[);/ ]|$)";
  "(?i)AYYA[ _](T1)";
  "(?i)AZOM[_ ]";
  "(?i)Accent_|(?:FAST7 ?3G|PEARL[_ ]A[24567]|TANK_P55|CAMELEON[_ ](?:C[456]|A1|H2)(?:[_ ]PLUS)?|Speed[- ](?:[AXYM]2|X2\+)|SURF1000|KIDZY70|SPEED_S8)(?:[);/ ]|$)";
  "(?i)ACCENT[_ ]NEON(?:[);/ ]|$)";
  "(?i)ACCENT[_ ](?:Nubia)?([56]0K)(?:28_512)?(?:[);/ ]|$)";
  "(?i)CAMELEON[_ ]C([65])[_ ]PLUS(?:[);/ ]|$)";
  "(?i)Speed[- _]([AXYM]2|S8)(?:[);/ ]|$)";
  "(?i)Speed-X2\+(?:[);/ ]|$)";
  "(?i)CAMELEON[_ ](C[456]|A1|H2)(?:[);/ ]|$)";
  "(?i)PEARL A4 Lite(?:[);/ ]|$)";
  "(?i)PEARL A4 PLUS(?:[);/ ]|$)";
  "(?i)PEARL[_ ]A([24567])(?:[);/ ]|$)";
  "(?i)TANK_P55(?:[);/ ]|$)";
  "(?i)FAST7 ?3G(?:[);/ ]|$)";
  "(?i)SURF1000(?:[);/ ]|$)";
  "(?i)KIDZY70(?:[);/ ]|$)";
  "(?i)(U43EY1500B|[FH]32EY1500B|F32EY1000B)(?:[);/ ]|$)";
  "(?i)(?:BUZZ [1-57]|BUZZ 4(?:Pro|S|Lite)|CLEVER [13]|URBAN [123](?: Pro)?)(?:[);/ ]|$)";
  "(?i)BUZZ ([45]) Ultra";
  "(?i)BUZZ ([457]) Note";
  "(?i)BUZZ ([457]) Prime";
  "(?i)BUZZ ([45]) ?Pro";
  "(?i)BUZZ ([12457]) ?Lite";
  "(?i)BUZZ ([123]) Plus";
  "(?i)BUZZ ([1-5])";
  "(?i)CLEVER ([13])";
  "(?i)URBAN ([123])";
  "(?i)(24HHY1|32HHY1)(?:[);/ ]|$)";
  "(?i)(?:A130[_-]202[34])(?:[);/ ]|$)";
  "(?i)A130[_-](202[34])";
  "(?i)acer|ACTAB|TravelMate|a(?:101|110|2[10]0|211|50[10]|51[10]|70[10])(?:[);/ ]|$)|Android.*V3[67]0(?:[);/ ]|$)|Android.*Z1[23456]0 Build|Android.*Z5\d{2} Build|Android.*T0[234678] Build|Android 5(?:[\d.]*);(?: [\w-]+;)? S59|android [45]([\d.]*);(?: [\w-]+;)? S55(?:[);/ ]|$)|(?:A1-(713(HD)?|7[23]4|830|841|840(?:FHD)?|81[01])|A3-A[1-5][01]|B1-(7[1235-9][01](HD)?|7[23]3|7A0|8[1235]0|A71|860A)|TPA60W|B3-(A[125]0|A3[02]|A40FHD)|E39)(?:[);/ ]|$)|S5[12]0 Build|(DA[0-9]+HQ?L|Aspire (?:V5-121|XC-704G|V5-573G|4349)|Chromebook 14 \(CB3-431\)|Predator G9-793|GT-810|B1-870|B3-A20B|M10-12(?:_EEA)?|B3-A4[02]|android 4([\d.]*);(?: [\w-]+;)? Z500|B3-A50FHD|ET-108-11A|AC?TAB(?:721E?|1422E|821|1021(?:E|_A)|1022)|A3-A20FHD|A10-21(?:_EEA|_CUS1)?|E380|Swift SF113-31|A410_4G|EUT[13]10A?-11A)(?:[);/ ]|$)";
  "(?i)DA220HQL(?:[);/ ]|$)";
  "(?i)DA241HL(?:[);/ ]|$)";
  "(?i)(DA[0-9]+HQ?L)(?:[);/ ]|$)";
  "(?i)M10-12(?:_EEA)?";
  "(?i)A1-81[01]";
  "(?i)ATAB(102[12]|721|1422)E";
  "(?i)ACTAB1021(?:_A)?";
  "(?i)ACTAB(821|1022)";
  "(?i)A1-84(1|0(?:FHD)?)";
  "(?i)A1-713(HD)?";
  "(?i)A1-7[23]4";
  "(?i)A10-21(?:_EEA|_CUS1)?";
  "(?i)A3-A[12][01]";
  "(?i)A3-A[345]0";
  "(?i)B1-7(?:[5-9]0|30HD|A0)";
  "(?i)B1-7[123][01]|B1-A71";
  "(?i)B1-7[23]3";
  "(?i)B1-8[123567]0";
  "(?i)B3-A([125]0|3[02]|[45]0FHD|4[02])";
  "(?i)A50[01]";
  "(?i)(ACTAB721)";
  "(?i)EUT([13])10A?-11A";
  "(?i)E39(?:[);/ ]|$)";
  "(?i)E310(?:[);/ ]|$)";
  "(?i)E320(?:-orange)?(?:[);/ ]|$)";
  "(?i)Android.*V360(?:[);/ ]|$)";
  "(?i)Android.*V370(?:[);/ ]|$)";
  "(?i)E380(?:[);/ ]|$)";
  "(?i)S510(?:[);/ ]|$)";
  "(?i)S520(?:[);/ ]|$)";
  "(?i)(?:Acer_)?P400(?:[);/ ]|$)";
  "(?i)(?:Acer_)?P300(?:[);/ ]|$)";
  "(?i)(?:Acer_)?S200(?:[);/ ]|$)";
  "(?i)(?:Acer_)?E100(?:[);/ ]|$)";
  "(?i)Android.*Z1([234])0(?:[);/ ]|$)";
  "(?i)Android.*Z110(?:[);/ ]|$)";
  "(?i)Android.*Z150(?:[);/ ]|$)"
].
Definition d_dr_re0_1 : list blob := [
  "(?i)Android.*Z160(?:[);/ ]|$)";
  "(?i)Android.*Z(5\d{2})(?:[);/ ]|$)";
  "(?i)Android.*S57(?:[);/ ]|$)";
  "(?i)Android.*T02(?:[);/ ]|$)";
  "(?i)Android.*T03(?:[);/ ]|$)";
  "(?i)Android.*T04(?:[);/ ]|$)";
  "(?i)Android.*T06(?:[);/ ]|$)";
  "(?i)Android.*T07(?:[);/ ]|$)";
  "(?i)Android.*T08(?:[);/ ]|$)";
  "(?i)TM01(?:[);/ ]|$)";
  "(?i)M220(?:[);/ ]|$)";
  "(?i)S55(?:[);/ ]|$)";
  "(?i)S59(?:[);/ ]|$)";
  "(?i)(?:Acer )?(Chromebook R1[13])";
  "(?i)TravelMate Spin (B118-G2-R)";
  "(?i)TravelMate (P653-M|5760G|8371|B118-M)";
  "(?i)(?:Acer )?(Chromebook 1[45])";
  "(?i)Aspire (V5-121|XC-704G|V5-573G|A515-51G|4349|E5-511)";
  "(?i)(Predator G9-793|Swift SF113-31)";
  "(?i)a(101|110|2[10]0|211|50[10]|51[10]|70[10])(?:[);/ ]|$)";
  "(?i)Acer; ?([^;()/]+)";
  "(?i)Acer[ _-]?([^;)/]+)(?: Build|[;)])";
  "(?i)acer[_-]([a-z0-9]+)";
  "(?i)BLECK|AT723C(?:[);/ ]|$)";
  "(?i)LeoPad[_ ]10[XS]?(?:[);/ ]|$)";
  "(?i)LeoPad[_ ](10[XS])";
  "(?i)LeoPad[_ ]10";
  "(?i)Adronix[ _]?(?:MT[0-9]+|X1001|Mini ?Tab ?7 ?3G)(?:[);/ ]|$)";
  "(?i)Adronix ?Mini ?Tab ?7 ?3G";
  "(?i)Adronix[ _]?(MT[0-9]+|X1001)(?:[);/ ]|$)";
  "(?i)(?:ADVAN (?:M4|S40|T5C|1011)|i7U|S45E|S50H|I7D|i55[KD]|i4U|S7D|S4Z|i5[KE]|S5E[ _]NXT|S5J\+|S4\+|E1C_3G|ADVANNASAPro)(?:[);/ ]|$)| (?:E1C Pro|5505|5202|50(?:[46]1|5[89]|62)|600[234]|6[25]01|Android [56](?:[\d.]*);(?: [\w-]+;)? (?:i5C|i7A)|i5G|E1C 3G)(?: Build|[;)])";
  "(?i)S5E[ _]NXT";
  "(?i)i(55[KD]|5[KE])";
  "(?i)5505(?:[);/ ]|$)";
  "(?i)ADVANNASAPro(?:[);/ ]|$)";
  "(?i)5202(?:[);/ ]|$)";
  "(?i)6201(?: Build|[;)])";
  "(?i)6501(?: Build|[;)])";
  "(?i)i5G(?: Build|[;)])";
  "(?i)6004(?: Build|[;)])";
  "(?i)6002(?: Build|[;)])";
  "(?i)(S45E|50[46]1|505[89]|5062|S50H|I7D|S7D|S4Z|S5J\+|S4\+|i5C)(?:[);/ ]|$)";
  "(?i)E1C[_ ]3G";
  "(?i)(T5C|i7A)(?:[);/ ]|$)";
  "(?i)ADVAN 1011(?:[);/ ]|$)";
  "(?i)Hollogram|(?:HL(?:4[79]36|6246|5576|5585|[56]575|5[67]67|6[05]77|6256|7257|9000)|IntroTr3544|Pr(?:61(?:4[56]|50)|60[27]0|5[69]50|5860)|Tr3845|TR7989|SP[345]701)(?:[);/ ]|$)";
  "(?i)IntroTr3544|Tr3845";
  "(?i)SP([345]701)";
  "(?i)Pr(61(?:4[56]|50)|60[27]0|5[69]50|5860)";
  "(?i)HL(4[79]36|6246|[56]575|5576|5585|5[67]67|6[05]77|6256|7257|9000)";
  "(?i)Hollogram ([^;/)]+)(?: Build|[;)])";
  "(?i)(PIC7GS8)(?:[);/ ]|$)";
  "(?i)(CYGNUSX?|Gravity Z2|ChampionPro)(?:[);/ ]|$)";
  "(?i)CYGNUSX(?:[);/ ]|$)";
  "(?i)CYGNUS(?:[);/ ]|$)";
  "(?i)Gravity Z2(?:[);/ ]|$)";
  "(?i)ChampionPro(?:[);/ ]|$)";
  "(?i)Numy|novo[0-9]|Novo 10 Hero|AX10PRO|NUMY3GAX9|NOVO10 Spark|Aurora-II|Rainbow(?:II)? 3G";
  "(?i)Numy[_ ]?3G[_ ]?Sword";
  "(?i)NUMY3GAX9(?:[);/ ]|$)";
  "(?i)Numy3G_AX10(?:[);/ ]|$)";
  "(?i)(Novo 10 Hero QuadCore)";
  "(?i)Novo7 ?Flame(?:[);/ ]|$)";
  "(?i)novo ?7[_ ]ELF(?:[);/ ]|$)";
  "(?i)NOVO7(?:[);/ ]|$)";
  "(?i)Numy[ _]([^;/)]+)(?: Build|[;)])";
  "(?i)Novo([0-9]+)[_ -]([^;/)]+)(?: Build|[;)])";
  "(?i)AIRIS|PhonePAD 83G";
  "(?i)TM50QZ(?:[);/ ]|$)";
  "(?i)AIRNESS-([\w]+)";
  "(?i)(?:Halo3_Pro|Halo4 Pro)(?:[);/ ]|$)";
  "(?i)Halo([34])[ _]Pro";
  "(?i)(?:(?:Airtel[ _])|(?:VIDA_i501))";
  "(?i)Imagine(?:[);/ ]|$)";
  "(?i)(AT702)(?:[);/ ]|$)";
  "(?i)AIWAAndroidTV|(?:AW790|M300|AWM(?:53[39]|50[19]|561|999)|AW500|Android 7(?:[\d.]*);(?: [\w-]+;)? Z9 PLUS|JA2-SMP0601|AWTX6|WS-508G)(?:[);/ ]|$)";
  "(?i)AW790(?:[);/ ]|$)";
  "(?i)AW500(?:[);/ ]|$)";
  "(?i)AWM(53[39]|50[19]|561|999)(?:[);/ ]|$)";
  "(?i)(JA2-SMP0601)";
  "(?i)M300(?:[);/ ]|$)";
  "(?i)(AWTX6|WS-508G)";
  "(?i)Akai[ _\-,]|LGE; (?:ALT|AK)[a-z0-9]+;|Eco[ _]E2|Glory[ _](?:G[1235]|L[123]|O[125])|(?:TAB-[79]8[03]0Q?|X[56] METAL|AKTB-703MZ|FZ70[13]|X5_PRO|X3[_ ]PRO[_ ]SLIM|iLike U5 Pro)(?:[);/ ]|$)";
  "(?i)TAB-([79]8[03]0Q?)";
  "(?i)(FZ70[13])";
  "(?i)X([56]) METAL";
  "(?i)X3[_ ]PRO[_ ]SLIM";
  "(?i)Glory[ _](G[1235]|L[123]|O[125])";
  "(?i)Eco[ _]E2";
  "(?i)AKAI\-v\.tv\.([0-9]{4})";
  "(?i)Akai[ _-]([^;/)]+)(?: Build|[;)])";
  "(?i)AKAI,(AK3219NF)";
  "(?i)LGE; ((?:ALT|AK)[a-z0-9]+);";
  "(?i)Alba ?(?:7Q|10Q|57|4|10 TABLET|(?:[78]|10)(?:Nou|Pie))(?:[);/ ]|$)";
  "(?i)Alba (4)";
  "(?i)Alba((?:[78]|10)(?:Nou|Pie)|7Q|10Q)";
  "(?i)Alcatel|Alc[a-z0-9]+|One[ _]?Touch|idol[3X]|TIMXL|(?:(?:3088X|4003[AJ]|4009[ADEFIKMSX]|4013[DEJKMX]|4014[ADEKMX]|4015[ADNTX]|4016[ADX]|4017[ADEFSX]|4018[ADEFMX]|4024[DEX]|4027[ADNX]|4028[AEJS]|4032[ADEX]|4034[ADEFGLTX]|4035[ADXY]|4044[COV]|4045[ADELX]|4047[ADFGNX]|4049[DEGMX]|4052[CORWZ]|4056[WZ]|4060[SW]|4063[FT]|4065F|4087U|4114E|5001[ADJTU]|5002[ABDEFHJLMRSUWX]|5003[ADGUX]|5006[ADG]|5007[AGUOS]|5008[ADTUY]|5009[AD]|5010[DEGSUX]|5011A|5012[DFG]|5015[ADEX]|5016[AJX]|5017[ABDEOX]|5019D|5022[DEX]|5023[EF]|5024[ADFIJ]|5025[DEG]|5026[ADJ]|5027B|5028[ADY]|5029[ADEFY]|5030[ADEFJMU]|5031[ADGJ]|5032[OW]|5033(?:[DFTXY]R|[EFM]P|[ADEFGJMOQSTXY])|5034D|5036D|5038[ADEX]|5039[DY]|5041[CD]|5042[ADEFGTWX]|5044[ADGIKOPSTY]|5045[ADFGIJTXY]|5046[ADGIJSTUY]|5047[DIUY]|5048[AIUY]|5049[EGSWZ]|5050[ASXY]|5051[ADEJMTWX]|5052[ADY]|5053[ADKY]|5054[ADNSTWX]|5056[ADEGIJMNTUWX]|5057M|5058[AIJY]|5059[ADIJSTXYZ]|5060[ADJ]|5061[AKU]|5065[ADNWX]|5070D|5080[ADFQUX]|5085[ABCDGHIJNOQY]|5086[ADY]|5090[AIY]|5095[IKY]|5098[OS]|5099[ADIUY]|5116J|5131E|5145A|6002[ADJ]|6016[ADEX]|6025[ADH]|6027A|6036[AXY]|6037[BKY]|6039[AHJKSY]|6042D|6043[AD]|6044D|6045[BFIKOXY]|6050[AFY]|6055[ABDHIKPUYZ]|6056[ADH]|6058[ADX]|6060[SXC]|6062W|6065A|6070K|7040[ADEFKRT]|7041[DX]|7042A|7043[AEKY]|7044[AX]|7045Y|7048[ASWX]|7053D|7055A|7070X|7071[ADX]|8030Y|8050[DEGX]|8063|8088[MQX]|8094[MTX]|9001[DIX]|9002X|9003[AX]|9005X|9006W|9007[ATX]|9008[ADIJNTUX]|9009[AFG]|9010X|9013[ATX]|9015B|9020A|9022X|9024[OW]|9025Q|9026X|9027[FQTWX]|9029[ZW]|9032[TWXZ]|9203A|9309X|A(?:40[56]DL|46[46]BG|57[04]BL|576CC|621BL|50[13]DL|57[17]VL)|I213|I216[AX]|80(?:[89]2|84|91|6[78]|5[124567]))(?:_(?:EEA|RU|TR))?|P3[36]0X|AM-H200|A463BG)(?:[);/ ]|$)";
  "(?i)4052[CR]";
  "(?i)4052[OWZ]";
  "(?i)4056[WZ]";
  "(?i)(?:Alcatel)?4044V";
  "(?i)(?:Alcatel)?4044C";
  "(?i)(?:Alcatel)?4044O";
  "(?i)5022[EDX]|5070D";
  "(?i)4015[ATX]|4016A";
  "(?i)4015[DN]|4016[DX]";
  "(?i)4032[AX]";
  "(?i)4032[DE]";
  "(?i)7040[AFK]|7041X|7042A";
  "(?i)7040[DE]|7041D";
  "(?i)4018[ADEFMX]";
  "(?i)4035[ADXY]";
  "(?i)5038[ADEX]";
  "(?i)4045[AXL]";
  "(?i)4045[DE]";
  "(?i)5042[AFGWX]";
  "(?i)5042[DE]";
  "(?i)7043[AY]|7044[AX]";
  "(?i)7043[EK]";
  "(?i)50[16]5X";
  "(?i)5015[AE]|5016[AJ]|5065[ADWX]|5116J";
  "(?i)5025[DEG]|5054[ADSTX]";
  "(?i)5051[AEJMTWX]";
  "(?i)5095[IKY]";
  "(?i)5056[ADEGJMTUX]";
  "(?i)5050[ASXY]";
  "(?i)6037[BKY]";
  "(?i)7071[ADX]";
  "(?i)5002[ABDEHJLMSUWX]";
  "(?i)5031[ADGJ]|5131E";
  "(?i)(?:Alcatel_)?5008R";
  "(?i)(?:Alcatel_)?5002R";
  "(?i)5034D|6056[ADH]";
  "(?i)7040[RT]";
  "(?i)5056[NW]";
  "(?i)6016[AX]";
  "(?i)6016[DE]";
  "(?i)6036[AXY]";
  "(?i)6050[AFY]";
  "(?i)6039[AHJKYS]|idol3";
  "(?i)6045[BFIKOYX]|AM-H200";
  "(?i)6055[ABDHIKPUYZ]";
  "(?i)6058[ADX]";
  "(?i)6060[SX]";
  "(?i)(?:Alcatel_)?6060C";
  "(?i)6043[AD]";
  "(?i)4024[DEX]";
  "(?i)4009[AFIKMSX]|A463BG";
  "(?i)4009[DE]";
  "(?i)4003[AJ]|4013[DEJKMX]|4014[AEKMX]|4114E";
  "(?i)4027[ADNX]|4028[AEJS]|5019D";
  "(?i)5017[ABDEOX]";
  "(?i)9007[TX]";
  "(?i)(?:9009G|9013[AT])";
  "(?i)808[24](?:_(?:EEA|RU|TR))?(?:[);/ ]|$)";
  "(?i)8092(?:_(?:EEA|RU|TR))?(?:[);/ ]|$)";
  "(?i)8091(?:_(?:EEA|RU|TR))?(?:[);/ ]|$)";
  "(?i)8052(?:_(?:EEA|RU|TR))?(?:[);/ ]|$)";
  "(?i)8051(?:_(?:EEA|RU|TR))?(?:[);/ ]|$)";
  "(?i)805[4567](?:_(?:EEA|RU|TR))?(?:[);/ ]|$)";
  "(?i)(?:806[78]|9013X)(?:_(?:EEA|RU))?(?:[);/ ]|$)";
  "(?i)4017[ADEFSX]";
  "(?i)4034[ADEFGXL]";
  "(?i)4060[SW]";
  "(?i)5023[EF]";
  "(?i)5010[DEGSUX]";
  "(?i)5012[DFG]";
  "(?i)5045[ADFGIJTXY]|5145A";
  "(?i)(?:Alcatel_)?5004R";
  "(?i)5046[ADIJTUY]";
  "(?i)5011A|5049[EG]";
  "(?i)9008[ADIJNTUX]";
  "(?i)(?:9027[QFTWX]|9032[TX])";
  "(?i)5085[BQ]";
  "(?i)5085[ADHIJY]";
  "(?i)5090[AIY]";
  "(?i)5046[GS]";
  "(?i)5085[GO]";
  "(?i)5048[AYUI]";
  "(?i)8050[GX]";
  "(?i)8050[ED]";
  "(?i)5098S|9001[DIX]";
  "(?i)9003[AX]";
  "(?i)9024[OW]";
  "(?i)I216[AX]";
  "(?i)7048[ASWX]";
  "(?i)(?:Alcatel-)?OT-802";
  "(?i)(?:TRIBE_)?3075A";
  "(?i)(?:Alcatel[ _])?One[ _]?Touch[ _]((?:T[0-9]+|TAB[^/;]+|EVO[78](?:HD)?)) Build";
  "(?i)(?:Alcatel[ _])?One[ _]?Touch([^/;]*) Build";
  "(?i)(?:Alcatel[ _])?One[ _]?Touch([^/;\)]*)\)";
  "(?i)5080[ADFQUX]";
  "(?i)4049[DEGMX]";
  "(?i)5044[ADIKOPTY]";
  "(?i)4047[DFXN]";
  "(?i)5047[DIUY]";
  "(?i)4044[CV]";
  "(?i)(?:Alcatel)?4044[MNT]";
  "(?i)5044[GS]";
  "(?i)5033[DFTXY]R(?:[);/ ]|$)"
].
Definition d_dr_re0_2 : list blob := [
  "(?i)5033MP(?:[);/ ]|$)";
  "(?i)5033(?:[ADJEFGMOTXYQS]|[EF]P)(?:_(?:EEA|RU|TR))?(?:[);/ ]|$)";
  "(?i)5009[AD]";
  "(?i)5003[ADGUX]";
  "(?i)5008[ADUYT]";
  "(?i)5007[AGUS]";
  "(?i)6002[AD]";
  "(?i)5006[ADG]";
  "(?i)5024[ADFIJ]|5028Y|6025[ADH]";
  "(?i)(?:5028[AD]|5007O)";
  "(?i)5030[ADFJMU]";
  "(?i)5001[ADJTU]";
  "(?i)5059[ADJXYZIT]";
  "(?i)5060[ADJ]";
  "(?i)5052[ADY]|5053[ADKY]";
  "(?i)5029[ADFY]";
  "(?i)5032[OW]|5099[ADYUI]";
  "(?i)5026[ADJ]";
  "(?i)5039[DY]";
  "(?i)5058[AIJY]";
  "(?i)5061[AKU]";
  "(?i)5086[ADY]";
  "(?i)8088[XQM]";
  "(?i)8094[MTX]";
  "(?i)9029[ZW]";
  "(?i)9032[WZ]";
  "(?i)(?:ALCATEL_)?A383G";
  "(?i)ALCATEL([^/;]+) Build";
  "(?i)ALCATEL[ -]?([^/;\)]+)";
  "(?i)ALCATEL_([^/;\)]+)";
  "(?i)Alc([a-z0-9]+)";
  "(?i)(Access_Q784C)(?:[);/ ]|$)";
  "(?i)(?:Alfawise (?:A9)|(?:A95X_R1|Z28Pro))(?:[);/ ]|$)";
  "(?i)(A95X_R1)(?:[);/ ]|$)";
  "(?i)Z28Pro(?:[);/ ]|$)";
  "(?i)Alfawise (A9)";
  "(?i)ALIGATOR[_ ]|(?:RX[67]00|S5710|RX460)(?:[);/ ]|$)";
  "(?i)(?:ALIGATOR[ _])?(S4080|S[56]550|S50(?:6[56]|[678]0)|S55[24]0|S5710|RX510|S6[0156]00|RX710|RX[678]00|RX460)(?:[);/ ]|$)";
  "(?i)(ASSTV[A-Z0-9]+)";
  "(?i)AllCall_|Heat[34]|SHINE 12T?|(?:Rio_X|S5500|HERO_20_PRO|HERO 20)(?:[);/ ]|$)|Hot ?[125][^;/]+ Build";
  "(?i)AllCall_(Alpha|Atom|Bro|Madrid)";
  "(?i)Heat([34])";
  "(?i)Rio_X(?:[);/ ]|$)";
  "(?i)(S5500)(?:[);/ ]|$)";
  "(?i)Hot ?([125][^;/]+) Build";
  "(?i)(?:T1001XS?|T1006S?|T1001|T811|iPlay[_ ][2345]0|U1006H?|U1005E|U63PLUS|iPlay8|iPlay_?[89]T|iPlay[134]0|iPlay_40H|iPlay50_mini_Pro|iPlay50 (?:Pro|Mini)|iPlay_?[25]0[SP]|iPlay50(?:Pro|_Lite)?|iPlay60(?:[_ ]mini)?[_ ](?:Pro|Turbo)|kPad|X_Game|T806MHE?|Power M3|Smile_X|iPlay_60_Lite|iPlay_60|T1201)(?:[);/ ]|$)";
  "(?i)Smile_X(?:[);/ ]|$)";
  "(?i)T811(?:[);/ ]|$)";
  "(?i)T1001XS(?:[);/ ]|$)";
  "(?i)kPad(?:[);/ ]|$)";
  "(?i)T1006S(?:[);/ ]|$)";
  "(?i)T1006(?:[);/ ]|$)";
  "(?i)T1001X(?:[);/ ]|$)";
  "(?i)T1001(?:[);/ ]|$)";
  "(?i)U63PLUS(?:[);/ ]|$)";
  "(?i)U1006H?(?:[);/ ]|$)";
  "(?i)U1005E(?:[);/ ]|$)";
  "(?i)T806MHE?";
  "(?i)iPlay_?([56]0)_Lite";
  "(?i)iPlay[_ ]?([56]0)[_ ]mini[_ ]Pro";
  "(?i)iPlay ?([56]0)[ _]?Pro";
  "(?i)iPlay[_ ]?([1-6]0|[89]T?|40H|[25]0[sP])(?:[);/ ]|$)";
  "(?i)X_Game(?:[);/ ]|$)";
  "(?i)Power M3(?:[);/ ]|$)";
  "(?i)Allview|A4You|H1003_LTE_PRO|A5_(?:Easy(?:_TM)?|Ready(?:_TM)?|Quad|Quad_Plus_TM)|A[5-9]_Lite|A5Smiley|A6_Duo|A10_Lite_(?:2019|2GB)|A10_(?:Plus|Max)|AX2_Frenzy|AX4Nano|AX5NanoQ|AX50(?:[23]|1Q)|C6_Duo|E[23]_Living|E[23]_(?:Jump|Sign)|E4_Lite|M9_Connect|P(?:43_Easy|[5689]_Energy|6_Energy_Lite|[68]_Energy_Mini(?:_TM)?|(41|[4568])_eMagic(?:_TM)?|[589](?:_)?Life(?:_TM)?|[567]_Lite(?:_TM)?|6_plus|[45678]_Pro|7_Seon|10_Life|10_Max|10_Style|7_Xtreme|6_Qmax|4_Quad)|V(?:[1345]_Viper|1_Viper_I|2_Viper_(?:[EISX]|X_plus|Xe))|X4_Soul_Vision|X(?:[1-46]_Soul_Xtreme|[1-5]_Soul|3_Soul_Lite|[2-6]_Soul_Mini(?:_TM)?|4_Soul_Mini_S(?:_TM)?|[2-58]_Soul_Style(?:_TM)?|2_Soul_Style_Plus|2_Twin)|A30_Plus|Viva_(?:H801|100[13]G|(?:H100[124]|H701|H802)_LTE|C701|i701G|803G)|VivaH(?:10|[78])|X7_Soul_Style|X[12]0_Soul|X[78]_Soul_Pro|V10_Viper|Viva_(?:Home|i7G)|H1004_LTE";
  "(?i)E([23])_Living";
  "(?i)E([23])_Jump";
  "(?i)P(41|[4568])_eMagic(?:_TM)?";
  "(?i)P([567])_Lite(?:_TM)?";
  "(?i)P([45678])_Pro";
  "(?i)P([69])_Energy_Lite";
  "(?i)P([689])_Energy_mini(?:_TM)?";
  "(?i)P([5689])_Energy";
  "(?i)P([589])(?:_)?Life(?:_TM)?";
  "(?i)V([12])_Viper_I4G(?:_TM)?";
  "(?i)V2_Viper_(E|I|S|X(?:e)?)";
  "(?i)X([1246])_Soul_Xtreme";
  "(?i)X4_Soul_Infinity_(L|N|S|Z)";
  "(?i)X4[_ ]Soul[_ ]Infinity[_ ]Plus";
  "(?i)X([34])_Soul_Lite";
  "(?i)X4_Soul_Mini_S(?:_TM)?";
  "(?i)X([23456])_Soul_Mini(?:_TM)?";
  "(?i)X([357])_Soul_Pro";
  "(?i)X([23458])_Soul_Style(?:_TM)?";
  "(?i)X(\d+)_Soul";
  "(?i)V(\d+)_Viper";
  "(?i)A5_Easy(?:_TM)?";
  "(?i)A([56789])_Lite";
  "(?i)A5_Ready(?:_TM)?";
  "(?i)A(10|30)_Plus";
  "(?i)Viva_(i7G)";
  "(?i)H1003_LTE_PRO([13])";
  "(?i)Viva[_ ]?H([78]|10)[_ ]?LTE";
  "(?i)Viva_?((?:H80[12]|H100[12]|H701)_LTE|C701|i701G|803G|H10|H7|H801|100[13]G)";
  "(?i)ALLVIEW ?SPEEDI";
  "(?i)ALLVIEW ?SPEED";
  "(?i)AX4Nano[_ ]plus";
  "(?i)AX(50[23]|501Q)";
  "(?i)Allview[ _-]([^;/]+) Build";
  "(?i)Allview[ _-]([^;/]+)(?:[;/)]|$)";
  "(?i)(?:QUAD-CORE (?:T3 p1|A64 p3|A33 y3|T3 K2001M|T3 k2001o|T3 k2001-nwd)|ZY-07B|UltraOcta-T8|OCTA-CORE T8|OCTOPUS-CORE T8|QUAD-CORE T3 p3|QuadCore-R16)(?:[);/ ]|$)";
  "(?i)QUAD-CORE T3 K(2001M?)";
  "(?i)QUAD-CORE T3 p([13])";
  "(?i)(?:FF-5000|ZQ8003|825X_Pro|03_v89_jbl|benz_hy1920x720|8227L_demo|tb8163p3_bsp)(?:[);/ ]|$)";
  "(?i)(FF-5000)";
  "(?i)(ZQ8003|825X_Pro|benz_hy|8227L_demo|tb8163p3_bsp)(?:1920x720)?";
  "(?i)Altice[ _]|(SX41|Android 9(?:[\d.]*);(?: [\w-]+;)? (?:S32|S42|S32_(?:Plus|NFC)))(?:[);/ ]|$)";
  "(?i)(SX41|S32|S42|S32_Plus|S32_NFC)(?:[);/ ]|$)";
  "(?i)Altice[ _](S62|S31|S43)(?:[);/ ]|$)";
  "(?i)Altus(?:[);/ ]|$)";
  "(?i)(?:smarttv_)?(?:AFT[ABMNRST]|AFTSSS?|AFTANNA0|AFTGAZL|AFTMM|AFTK(?:A|M|RT)|AFTTI43|AFTTIFF43|AFTHA001|AFTKA(?:DE|UK)?00[12]|SD4930UR|AEO(?:AT|B[CP]|C[HNW]|H[PY]|KN|RH|TA)|KF(?:OT|ONWI|TT|JWI|JWA|[DFS]OWI|A[PRSU]WI|T[BH]WI|TRP?WI|SAW[IA]|GIWI|[KMR]AWI|MEWI|[MSTQ]UWI|SNWI|RAPWI))(?:[);/ _]|$)|Kindle|AlexaMediaPlayer|Amazon (?:Tate|Jem)|Silk/\d+\.\d+|Echo/1|.+FIRETVSTICK|Amazon;Echo";
  "(?i)(?:smarttv_)?AFTA(?:[);/ _]|$)";
  "(?i)(?:smarttv_)?AFTR(?:[);/ _]|$)";
  "(?i)(?:smarttv_)?AFTGAZL(?:[);/ _]|$)";
  "(?i)(?:smarttv_)?AFTN(?:[);/ _]|$)";
  "(?i)(?:smarttv_)?AFTTI43";
  "(?i)(?:smarttv_)?AFTKAUK001(?:[);/ _]|$)";
  "(?i)(?:smarttv_)?AFTKA(?:UK)?002(?:[);/ _]|$)";
  "(?i)(?:smarttv_)?AFTANNA0(?:[);/ _]|$)";
  "(?i)(?:smarttv_)?AFTALMO(?:[);/ _]|$)";
  "(?i)(?:smarttv_)?AFTHA001(?:[);/ _]|$)";
  "(?i)(?:smarttv_)?AFTSHN01(?:[);/ _]|$)";
  "(?i)(?:smarttv_)?AFTB(?:[);/ _]|$)";
  "(?i)(?:smarttv_)?AFTSSS(?:[);/ _]|$)";
  "(?i)(?:smarttv_)?AFTSS(?:[);/ _]|$)";
  "(?i)(?:smarttv_)?AFTTIFF43(?:[);/ _]|$)";
  "(?i)(?:smarttv_)?AFTKADE001(?:[);/ _]|$)";
  "(?i)(?:smarttv_)?AFT[MST](?:[);/ _]|$)";
  "(?i).+FIRETVSTICK2018|(?:smarttv_)?AFTMM(?:[);/ _]|$)";
  "(?i)(?:smarttv_)?AFTKM(?:[);/ _]|$)";
  "(?i)(?:smarttv_)?AFTKA(?:[);/ _]|$)";
  "(?i)(?:smarttv_)?AFTKRT(?:[);/ _]|$)";
  "(?i)KFFOWI(?:[);/ ]|$)";
  "(?i)KFMUWI(?:[);/ ]|$)";
  "(?i)KFTT(?:[);/ ]|$)";
  "(?i)KFJWI(?:[);/ ]|$)|Amazon Jem";
  "(?i)KFJWA(?:[);/ ]|$)";
  "(?i)KFSOWI(?:[);/ ]|$)|Amazon Tate";
  "(?i)KFTHWI(?:[);/ ]|$)";
  "(?i)KFTHWA(?:[);/ ]|$)";
  "(?i)KFAPWI(?:[);/ ]|$)";
  "(?i)KFAPWA(?:[);/ ]|$)";
  "(?i)KFSNWI(?:[);/ ]|$)";
  "(?i)KFARWI(?:[);/ ]|$)";
  "(?i)KFASWI(?:[);/ ]|$)";
  "(?i)KFQUWI(?:[);/ ]|$)";
  "(?i)KFAUWI(?:[);/ ]|$)";
  "(?i)KFMEWI(?:[);/ ]|$)";
  "(?i)KFRAP?WI(?:[);/ ]|$)";
  "(?i)KFGIWI(?:[);/ ]|$)";
  "(?i)KFDOWI(?:[);/ ]|$)";
  "(?i)KFKAWI(?:[);/ ]|$)";
  "(?i)KFONWI(?:[);/ ]|$)";
  "(?i)KFSAWI(?:[);/ ]|$)";
  "(?i)KFSAWA(?:[);/ ]|$)";
  "(?i)KFTBWI(?:[);/ ]|$)";
  "(?i)KFSUWI(?:[);/ ]|$)";
  "(?i)KFMAWI(?:[);/ ]|$)";
  "(?i)KFTRWI(?:[);/ ]|$)";
  "(?i)KFTUWI(?:[);/ ]|$)";
  "(?i)KFTRPWI(?:[);/ ]|$)";
  "(?i)KFOT|Kindle Fire|Silk-Accelerated";
  "(?i)Amazon;Echo;";
  "(?i)Echo/1|AEO(?:AT|BC|CN|KN|TA)(?:[);/ ]|$)";
  "(?i)Amazon;Echo_Dot";
  "(?i)Amazon;Echo_Show_(\d+)";
  "(?i)AEOBP(?:[);/ ]|$)";
  "(?i)AEOHP(?:[);/ ]|$)";
  "(?i)(?:AEOC[HW]|AEORH)(?:[);/ ]|$)";
  "(?i)AEOHY(?:[);/ ]|$)";
  "(?i)Silk/\d+\.\d+";
  "(?i)(?:AFTBU001|AFTPR001)(?:[);/ ]|$)";
  "(?i)AFTBU001(?:[);/ ]|$)";
  "(?i)AFTPR001(?:[);/ ]|$)";
  "(?i)AMIGOO (R300|R9 Max|M1 Max|X15)(?:[);/ ]|$)";
  "(?i)(?:Amigo7x?(?:YUF|SCB)?)(?:[);/ ]|$)";
  "(?i)Amoi|(?:A862W|Clever[ -]?(?:Gem S52|Gleam S45|Pad P7|Wave S50|Touch S46|JOY S40|Lite S41))(?:[);/ ]|$)";
  "(?i)Clever[ -]?(Gleam S45|Gem S52|Wave S50|Touch S46|Lite S41)";
  "(?i)Amoi[-_ /](CA6)";
  "(?i)Amoi[-_ /]([a-z0-9]+)";
  "(?i)Amoisonic-([a-z0-9]+)";
  "(?i)(?:ANDOWL-)?(Q[45]|QG9|QK9MAX)(?:[);/ ]|$)|Andowl";
  "(?i)Android 8(?:[\d.]*);(?: [\w-]+;)? P80(?: Build|[);])";
  "(?i)angelcare[ _]";
  "(?i)F20 ?pro";
  "(?i)angelcare[ _]([^/;)]+)(?: Build|[);])";
  "(?i)Anker|smarttv_AFTMM-Anker-AK-D3000111|(?:AFTMM|D21[45]0)(?:[);/ ]|$)";
  "(?i)Anker|smarttv_AFTMM-Anker-AK-D3000111|AFTMM(?:[);/ ]|$)";
  "(?i)D2140(?:[);/ ]|$)";
  "(?i)D2150(?:[);/ ]|$)";
  "(?i)ANRY-(RS10|[SX]20|E30|1006)(?:[);/ ]|$)";
  "(?i)AOCOS ([^);/]+)(?: Build|[);])";
  "(?i)(?:X900_US|X700_EEA)(?:[);/ ]|$)";
  "(?i)X([79]00)_(?:EEA|US)";
  "(?i)Aoro[ _]([^/;)]+)(?: Build|[);])";
  "(?i)(?:aoson ?(?:R10[1-3]|S[78]|M707TG|M96T)(?:[_ ]?Pro)?|R103)(?:[);/ ]|$)";
  "(?i)(?:aoson ?)?R10([1-3])(?:[);/ ]|$)";
  "(?i)aoson ?S7_Pro(?:[);/ ]|$)";
  "(?i)aoson ?S7(?:[);/ ]|$)";
  "(?i)aoson ?S8Pro(?:[);/ ]|$)"
].
Definition d_dr_re0_3 : list blob := [
  "(?i)aoson ?(M707TG|M96T)(?:[);/ ]|$)";
  "(?i)(EM103A)(?:[);/ ]|$)";
  "(?i)(?:iTunes-)?Apple[ _]?TV|Apple/|(?:Apple-|iTunes-)?(?:iPad|iPhone)|iPh(?:[0-9]|1[0-7]),[0-9]|CFNetwork|HomePod|AirPlay|AirPodcasts/|Watch ?OS|Watch1,[12]|MDCR_i?Mac|ICRU_iP(?:ad|hone)|Mac OS X[,;]|OSX/|macOS,|for Apple Watch|nook browser";
  "(?i)(?:HomePod|AirPodcasts/)";
  "(?i)Watch3,[13]";
  "(?i)Watch3,[24]";
  "(?i)Watch5,(?:9|11)";
  "(?i)Watch5,1[02]";
  "(?i)Watch6,1[02]";
  "(?i)Watch6,1[13]";
  "(?i)Watch6,1[46]";
  "(?i)Watch6,1[57]";
  "(?i)Watch([456]),[13]";
  "(?i)Watch([456]),[24]";
  "(?i)Watch6,[68]";
  "(?i)Watch6,[79]";
  "(?i)(:?Apple Watch|watchOS)";
  "(?i)(?:MDCR_|ICRU_|Apple-)?MacPro1(?:%2C|,)1";
  "(?i)(?:MDCR_|ICRU_|Apple-)?MacPro2(?:%2C|,)1";
  "(?i)(?:MDCR_|ICRU_|Apple-)?MacPro3(?:%2C|,)1";
  "(?i)(?:MDCR_|ICRU_|Apple-)?MacPro4(?:%2C|,)1";
  "(?i)(?:MDCR_|ICRU_|Apple-)?MacPro5(?:%2C|,)1";
  "(?i)(?:MDCR_|ICRU_|Apple-)?Mac14(?:%2C|,)8";
  "(?i)(?:MDCR_|ICRU_|Apple-)?iMac5(?:%2C|,)1";
  "(?i)(?:MDCR_|ICRU_|Apple-)?iMac5(?:%2C|,)2";
  "(?i)(?:MDCR_|ICRU_|Apple-)?iMac6(?:%2C|,)1";
  "(?i)(?:MDCR_|ICRU_|Apple-)?iMac7(?:%2C|,)1";
  "(?i)(?:MDCR_|ICRU_|Apple-)?iMac8(?:%2C|,)1";
  "(?i)(?:MDCR_|ICRU_|Apple-)?iMac9(?:%2C|,)1";
  "(?i)(?:MDCR_|ICRU_|Apple-)?iMac10(?:%2C|,)1";
  "(?i)(?:MDCR_|ICRU_|Apple-)?iMac11(?:%2C|,)1";
  "(?i)(?:MDCR_|ICRU_|Apple-)?iMac11(?:%2C|,)2";
  "(?i)(?:MDCR_|ICRU_|Apple-)?iMac11(?:%2C|,)3";
  "(?i)(?:MDCR_|ICRU_|Apple-)?iMac12(?:%2C|,)1";
  "(?i)(?:MDCR_|ICRU_|Apple-)?iMac12(?:%2C|,)2";
  "(?i)(?:MDCR_|ICRU_|Apple-)?iMac13(?:%2C|,)1";
  "(?i)(?:MDCR_|ICRU_|Apple-)?iMac13(?:%2C|,)2";
  "(?i)(?:MDCR_|ICRU_|Apple-)?iMac14(?:%2C|,)[13]";
  "(?i)(?:MDCR_|ICRU_|Apple-)?iMac14(?:%2C|,)2";
  "(?i)(?:MDCR_|ICRU_|Apple-)?iMac14(?:%2C|,)4";
  "(?i)(?:MDCR_|ICRU_|Apple-)?iMac17(?:%2C|,)1";
  "(?i)(?:MDCR_|ICRU_|Apple-)?iMac18(?:%2C|,)[12]";
  "(?i)(?:MDCR_|ICRU_|Apple-)?iMac18(?:%2C|,)3";
  "(?i)(?:MDCR_|ICRU_|Apple-)?iMac19(?:%2C|,)1";
  "(?i)(?:MDCR_|ICRU_|Apple-)?iMac19(?:%2C|,)2";
  "(?i)(?:MDCR_|ICRU_|Apple-)?iMac20(?:%2C|,)[12]";
  "(?i)(?:MDCR_|ICRU_|Apple-)?iMac21(?:%2C|,)[12]";
  "(?i)(?:MDCR_|ICRU_|Apple-)?Mac15(?:%2C|,)[45]";
  "(?i)(?:MDCR_|ICRU_|Apple-)?iMacPro1(?:%2C|,)1";
  "(?i)(?:MDCR_|ICRU_|Apple-)?MacBook1(?:%2C|,)1";
  "(?i)(?:MDCR_|ICRU_|Apple-)?MacBook2(?:%2C|,)1";
  "(?i)(?:MDCR_|ICRU_|Apple-)?MacBook3(?:%2C|,)1";
  "(?i)(?:MDCR_|ICRU_|Apple-)?MacBook[45](?:%2C|,)1";
  "(?i)(?:MDCR_|ICRU_|Apple-)?MacBook5(?:%2C|,)2";
  "(?i)(?:MDCR_|ICRU_|Apple-)?MacBook6(?:%2C|,)1";
  "(?i)(?:MDCR_|ICRU_|Apple-)?MacBook7(?:%2C|,)1";
  "(?i)(?:MDCR_|ICRU_|Apple-)?MacBook8(?:%2C|,)1";
  "(?i)(?:MDCR_|ICRU_|Apple-)?MacBook9(?:%2C|,)1";
  "(?i)(?:MDCR_|ICRU_|Apple-)?MacBookAir1(?:%2C|,)1";
  "(?i)(?:MDCR_|ICRU_|Apple-)?MacBookAir2(?:%2C|,)1";
  "(?i)(?:MDCR_|ICRU_|Apple-)?MacBookAir3(?:%2C|,)1";
  "(?i)(?:MDCR_|ICRU_|Apple-)?MacBookAir3(?:%2C|,)2";
  "(?i)(?:MDCR_|ICRU_|Apple-)?MacBookAir4(?:%2C|,)1";
  "(?i)(?:MDCR_|ICRU_|Apple-)?MacBookAir4(?:%2C|,)2";
  "(?i)(?:MDCR_|ICRU_|Apple-)?MacBookAir5(?:%2C|,)1";
  "(?i)(?:MDCR_|ICRU_|Apple-)?MacBookAir5(?:%2C|,)2";
  "(?i)(?:MDCR_|ICRU_|Apple-)?MacBookAir6(?:%2C|,)1";
  "(?i)(?:MDCR_|ICRU_|Apple-)?MacBookAir6(?:%2C|,)2";
  "(?i)(?:MDCR_|ICRU_|Apple-)?MacBookAir7(?:%2C|,)1";
  "(?i)(?:MDCR_|ICRU_|Apple-)?MacBookAir7(?:%2C|,)2";
  "(?i)(?:MDCR_|ICRU_|Apple-)?MacBookAir8(?:%2C|,)1";
  "(?i)(?:MDCR_|ICRU_|Apple-)?MacBookAir8(?:%2C|,)2";
  "(?i)(?:MDCR_|ICRU_|Apple-)?MacBookAir9(?:%2C|,)1";
  "(?i)(?:MDCR_|ICRU_|Apple-)?MacBookAir10(?:%2C|,)1";
  "(?i)(?:MDCR_|ICRU_|Apple-)?Mac14(?:%2C|,)2";
  "(?i)(?:MDCR_|ICRU_|Apple-)?Mac14(?:%2C|,)15";
  "(?i)(?:MDCR_|ICRU_|Apple-)?Mac15(?:%2C|,)12";
  "(?i)(?:MDCR_|ICRU_|Apple-)?MacBookPro1(?:%2C|,)1";
  "(?i)(?:MDCR_|ICRU_|Apple-)?MacBookPro1(?:%2C|,)2";
  "(?i)(?:MDCR_|ICRU_|Apple-)?MacBookPro2(?:%2C|,)1";
  "(?i)(?:MDCR_|ICRU_|Apple-)?MacBookPro2(?:%2C|,)2";
  "(?i)(?:MDCR_|ICRU_|Apple-)?MacBookPro[34](?:%2C|,)1";
  "(?i)(?:MDCR_|ICRU_|Apple-)?MacBookPro5(?:%2C|,)1";
  "(?i)(?:MDCR_|ICRU_|Apple-)?MacBookPro5(?:%2C|,)2";
  "(?i)(?:MDCR_|ICRU_|Apple-)?MacBookPro5(?:%2C|,)[34]";
  "(?i)(?:MDCR_|ICRU_|Apple-)?MacBookPro5(?:%2C|,)5";
  "(?i)(?:MDCR_|ICRU_|Apple-)?MacBookPro6(?:%2C|,)1";
  "(?i)(?:MDCR_|ICRU_|Apple-)?MacBookPro6(?:%2C|,)2";
  "(?i)(?:MDCR_|ICRU_|Apple-)?MacBookPro7(?:%2C|,)1";
  "(?i)(?:MDCR_|ICRU_|Apple-)?MacBookPro8(?:%2C|,)1";
  "(?i)(?:MDCR_|ICRU_|Apple-)?MacBookPro8(?:%2C|,)2";
  "(?i)(?:MDCR_|ICRU_|Apple-)?MacBookPro8(?:%2C|,)3";
  "(?i)(?:MDCR_|ICRU_|Apple-)?MacBookPro9(?:%2C|,)1";
  "(?i)(?:MDCR_|ICRU_|Apple-)?MacBookPro9(?:%2C|,)2";
  "(?i)(?:MDCR_|ICRU_|Apple-)?MacBookPro10(?:%2C|,)1";
  "(?i)(?:MDCR_|ICRU_|Apple-)?MacBookPro10(?:%2C|,)2";
  "(?i)(?:MDCR_|ICRU_|Apple-)?MacBookPro11(?:%2C|,)1";
  "(?i)(?:MDCR_|ICRU_|Apple-)?MacBookPro11(?:%2C|,)[23]";
  "(?i)(?:MDCR_|ICRU_|Apple-)?MacBookPro11(?:%2C|,)[45]";
  "(?i)(?:MDCR_|ICRU_|Apple-)?MacBookPro12(?:%2C|,)1";
  "(?i)(?:MDCR_|ICRU_|Apple-)?MacBookPro13(?:%2C|,)[12]";
  "(?i)(?:MDCR_|ICRU_|Apple-)?MacBookPro13(?:%2C|,)3";
  "(?i)(?:MDCR_|ICRU_|Apple-)?MacBookPro14(?:%2C|,)[12]";
  "(?i)(?:MDCR_|ICRU_|Apple-)?MacBookPro14(?:%2C|,)3";
  "(?i)(?:MDCR_|ICRU_|Apple-)?MacBookPro15(?:%2C|,)1";
  "(?i)(?:MDCR_|ICRU_|Apple-)?MacBookPro15(?:%2C|,)2";
  "(?i)(?:MDCR_|ICRU_|Apple-)?MacBookPro15(?:%2C|,)3";
  "(?i)(?:MDCR_|ICRU_|Apple-)?MacBookPro15(?:%2C|,)4";
  "(?i)(?:MDCR_|ICRU_|Apple-)?MacBookPro16(?:%2C|,)[14]";
  "(?i)(?:MDCR_|ICRU_|Apple-)?MacBookPro16(?:%2C|,)[23]";
  "(?i)(?:MDCR_|ICRU_|Apple-)?MacBookPro17(?:%2C|,)1";
  "(?i)(?:MDCR_|ICRU_|Apple-)?Mac14(?:%2C|,)7";
  "(?i)(?:MDCR_|ICRU_|Apple-)?MacBookPro18(?:%2C|,)[12]";
  "(?i)(?:MDCR_|ICRU_|Apple-)?Mac14(?:%2C|,)(?:6|10)";
  "(?i)(?:MDCR_|ICRU_|Apple-)?Mac15(?:%2C|,)(?:[79]|11)";
  "(?i)(?:MDCR_|ICRU_|Apple-)?MacBookPro18(?:%2C|,)[34]";
  "(?i)(?:MDCR_|ICRU_|Apple-)?Mac14(?:%2C|,)[59]";
  "(?i)(?:MDCR_|ICRU_|Apple-)?Mac15(?:%2C|,)(?:[368]|10)";
  "(?i)(?:MDCR_|ICRU_|Apple-)?Macmini1(?:%2C|,)1";
  "(?i)(?:MDCR_|ICRU_|Apple-)?Macmini2(?:%2C|,)1";
  "(?i)(?:MDCR_|ICRU_|Apple-)?Macmini3(?:%2C|,)1";
  "(?i)(?:MDCR_|ICRU_|Apple-)?Macmini4(?:%2C|,)1";
  "(?i)(?:MDCR_|ICRU_|Apple-)?Macmini5(?:%2C|,)[123]";
  "(?i)(?:MDCR_|ICRU_|Apple-)?Macmini6(?:%2C|,)[12]";
  "(?i)(?:MDCR_|ICRU_|Apple-)?Macmini7(?:%2C|,)1";
  "(?i)(?:MDCR_|ICRU_|Apple-)?Macmini8(?:%2C|,)1";
  "(?i)(?:MDCR_|ICRU_|Apple-)?Macmini9(?:%2C|,)1";
  "(?i)(?:MDCR_|ICRU_|Apple-)?Mac14(?:%2C|,)(?:3|12)";
  "(?i)(?:MDCR_|ICRU_|Apple-)?PowerMac7(?:%2C|,)2";
  "(?i)(?:MDCR_|ICRU_|Apple-)?PowerMac7(?:%2C|,)3";
  "(?i)(?:MDCR_|ICRU_|Apple-)?PowerMac8(?:%2C|,)2";
  "(?i)(?:MDCR_|ICRU_|Apple-)?PowerMac10(?:%2C|,)1";
  "(?i)(?:MDCR_|ICRU_|Apple-)?PowerMac12(?:%2C|,)1";
  "(?i)(?:MDCR_|ICRU_|Apple-)?PowerBook5(?:%2C|,)6";
  "(?i)(?:MDCR_|ICRU_|Apple-)?PowerBook6(?:%2C|,)7";
  "(?i)(?:MDCR_|ICRU_|Apple-)?Mac13(?:%2C|,)[12]";
  "(?i)(?:MDCR_|ICRU_|Apple-)?Mac14(?:%2C|,)1[34]";
  "(?i)(?:MDCR_|ICRU_|Apple-)?iPh(?:one)?1[C,_]1";
  "(?i)(?:MDCR_|ICRU_|Apple-)?iPh(?:one)?1[C,_]2";
  "(?i)(?:MDCR_|ICRU_|Apple-)?iPh(?:one)?2[C,_]1| 3GS\)$";
  "(?i)(?:MDCR_|ICRU_|Apple-)?iPh(?:one)?3[C,_][123]";
  "(?i)(?:MDCR_|ICRU_|Apple-)?iPh(?:one)?4[C,_]1|1C2%254enohPi| 4S\)$";
  "(?i)(?:MDCR_|ICRU_|Apple-)?iPh(?:one)?5[C,_][12]| 5\)$";
  "(?i)(?:MDCR_|ICRU_|Apple-)?iPh(?:one)?5[C,_][34]";
  "(?i)(?:MDCR_|ICRU_|Apple-)?iPh(?:one)?6[C,_][12]|(?:iPhone[ _]?5S| 5S)(?:[);/ ]|$)";
  "(?i)(?:MDCR_|ICRU_|Apple-)?iPh(?:one)?7[C,_]1|1C2%257enohPi|(?:iPhone[ _]?6Plus| 6PLUS)(?:[);/ ]|$)";
  "(?i)(?:MDCR_|ICRU_|Apple-)?iPh(?:one)?7[C,_]2|(?:iPhone[ _]?6| 6)(?:[);/ ]|$)";
  "(?i)(?:MDCR_|ICRU_|Apple-)?iPh(?:one)?8[C,_]1|(?:iPhone[ /]?6s| 6S)(?:[);/ ]|$)";
  "(?i)(?:MDCR_|ICRU_|Apple-)?iPh(?:one)?8[C,_]2| 6SPLUS\)$";
  "(?i)(?:MDCR_|ICRU_|Apple-)?iPh(?:one)?8[C,_]4|(?:iPhoneSE| SE)(?:[);/ ]|$)";
  "(?i)(?:MDCR_|ICRU_|Apple-)?iPh(?:one)?9[C,_][24]|(?:iPhone[ _]?7Plus| 7PLUS)(?:[);/ ]|$)";
  "(?i)(?:MDCR_|ICRU_|Apple-)?iPh(?:one)?9[C,_][13]|(?:iPhone[ _]?7 ?| 7)(?:[);/ ]|$)";
  "(?i)(?:MDCR_|ICRU_|Apple-)?iPh(?:one)?10[C,_][25]|(?:iPhone[ _]?8Plus| 8PLUS)(?:[);/ ]|$)";
  "(?i)(?:MDCR_|ICRU_|Apple-)?iPh(?:one)?10[C,_][14]|(?:iPhone[ _]?8| 8)(?:[);/ ]|$)";
  "(?i)(?:MDCR_|ICRU_|Apple-)?iPh(?:one)?11[C,_][46]|(?:iPhone[ _]?XS[ _]?Max| XSMAX)(?:[);/ ]|$)";
  "(?i)(?:MDCR_|ICRU_|Apple-)?iPh(?:one)?11[C,_]2|(?:iPhone[ _]?XS| XS)(?:[);/ ]|$)";
  "(?i)(?:MDCR_|ICRU_|Apple-)?iPh(?:one)?11[C,_]8|(?:iPhone[ _]?XR| XR)(?:[);/ ]|$)";
  "(?i)(?:MDCR_|ICRU_|Apple-)?iPh(?:one)?10[C,_][36]|(?:iPhone[ _]?X| X)(?:[);/ ]|$)";
  "(?i)(?:MDCR_|ICRU_|Apple-)?iPh(?:one)?12[C,_]5|(?:iPhone[ _]?11[ _]?Pro[ _]?Max| 11PROMAX)(?:[);/ ]|$)";
  "(?i)(?:MDCR_|ICRU_|Apple-)?iPh(?:one)?12[C,_]3|(?:iPhone[ _]?11[ _]?Pro| 11PRO)(?:[);/ ]|$)";
  "(?i)(?:MDCR_|ICRU_|Apple-)?iPh(?:one)?12[C,_]1|(?:iPhone[ _]?11| 11)(?:[);/ ]|$)";
  "(?i)(?:MDCR_|ICRU_|Apple-)?iPh(?:one)?12[C,_]8|(?:iPhone SE 2|iPhoneSE2ndGen| SE2)(?:[);/ ]|$)";
  "(?i)(?:MDCR_|ICRU_|Apple-)?iPh(?:one)?13[C,_]1|(?:iPhone12mini| 12MINI)(?:[);/ ]|$)";
  "(?i)(?:MDCR_|ICRU_|Apple-)?iPh(?:one)?13[C,_]4|(?:iPhone[ _]?12[ _]?Pro[ _]?Max| 12PROMAX)(?:[);/ ]|$)";
  "(?i)(?:MDCR_|ICRU_|Apple-)?iPh(?:one)?13[C,_]3|(?:iPhone[ _]?12[ _]?Pro| 12PRO)(?:[);/ ]|$)";
  "(?i)(?:MDCR_|ICRU_|Apple-)?iPh(?:one)?13[C,_]2|(?:iPhone[ _]?12| 12)(?:[);/ ]|$)";
  "(?i)(?:MDCR_|ICRU_|Apple-)?iPh(?:one)?14[C,_]3|(?:iPhone[ _]?13[ _]?Pro[ _]?Max| 13PROMAX)(?:[);/ ]|$)";
  "(?i)(?:MDCR_|ICRU_|Apple-)?iPh(?:one)?14[C,_]2|(?:iPhone[ _]?13[ _]?Pro| 13PRO)(?:[);/ ]|$)";
  "(?i)(?:MDCR_|ICRU_|Apple-)?iPh(?:one)?14[C,_]4|(?:iPhone[ _]?13[ _]?mini| 13MINI)(?:[);/ ]|$)";
  "(?i)(?:MDCR_|ICRU_|Apple-)?iPh(?:one)?14[C,_]5|(?:iPhone[ _]?13| 13)(?:[);/ ]|$)";
  "(?i)(?:MDCR_|ICRU_|Apple-)?iPh(?:one)?14[C,_]6|(?:iPhoneSE3ndGen| SE3)(?:[);/ ]|$)";
  "(?i)(?:MDCR_|ICRU_|Apple-)?iPh(?:one)?15[C,_]3|(?:iPhone[ _]?14[ _]?Pro[ _]?Max| 14PROMAX)(?:[);/ ]|$)";
  "(?i)(?:MDCR_|ICRU_|Apple-)?iPh(?:one)?15[C,_]2|(?:iPhone[ _]?14[ _]?Pro| 14PRO)(?:[);/ ]|$)";
  "(?i)(?:MDCR_|ICRU_|Apple-)?iPh(?:one)?14[C,_]8|(?:iPhone[ _]?14[ _]?Plus| 14PLUS)(?:[);/ ]|$)";
  "(?i)(?:MDCR_|ICRU_|Apple-)?iPh(?:one)?14[C,_]7|(?:iPhone[ _]?14| 14)(?:[);/ ]|$)";
  "(?i)(?:MDCR_|ICRU_|Apple-)?iPh(?:one)?16[C,_]2|(?:iPhone[ _]?15[ _]?Pro[ _]?Max| 15PROMAX)(?:[);/ ]|$)";
  "(?i)(?:MDCR_|ICRU_|Apple-)?iPh(?:one)?16[C,_]1|(?:iPhone[ _]?15[ _]?Pro| 15PRO)(?:[);/ ]|$)";
  "(?i)(?:MDCR_|ICRU_|Apple-)?iPh(?:one)?15[C,_]5|(?:iPhone[ _]?15[ _]?Plus| 15PLUS)(?:[);/ ]|$)";
  "(?i)(?:MDCR_|ICRU_|Apple-)?iPh(?:one)?15[C,_]4|(?:iPhone[ _]?15| 15)(?:[);/ ]|$)";
  "(?i)(?:MDCR_|ICRU_|Apple-)?iPh(?:one)?17[C,_]2|(?:iPhone[ _]?16[ _]?Pro[ _]?Max| 16PROMAX)(?:[);/ ]|$)";
  "(?i)(?:MDCR_|ICRU_|Apple-)?iPh(?:one)?17[C,_]1|(?:iPhone[ _]?16[ _]?Pro| 16PRO)(?:[);/ ]|$)";
  "(?i)(?:MDCR_|ICRU_|Apple-)?iPh(?:one)?17[C,_]4|(?:iPhone[ _]?16[ _]?Plus| 16PLUS)(?:[);/ ]|$)";
  "(?i)(?:MDCR_|ICRU_|Apple-)?iPh(?:one)?17[C,_]5|(?:iPhone[ _]?16e| 16e)(?:[);/ ]|$)";
  "(?i)(?:MDCR_|ICRU_|Apple-)?iPh(?:one)?17[C,_]3|(?:iPhone[ _]?16| 16)(?:[);/ ]|$)";
  "(?i)(?:MDCR_|ICRU_|Apple-)?iPh(?:one)?18[C,_]2|(?:iPhone[ _]?17[ _]?Pro[ _]?Max| 17PROMAX)(?:[);/ ]|$)";
  "(?i)(?:MDCR_|ICRU_|Apple-)?iPh(?:one)?18[C,_]1|(?:iPhone[ _]?17[ _]?Pro| 17PRO)(?:[);/ ]|$)";
  "(?i)(?:MDCR_|ICRU_|Apple-)?iPh(?:one)?18[C,_]3|(?:iPhone[ _]?17| 17)(?:[);/ ]|$)";
  "(?i)(?:MDCR_|ICRU_|Apple-)?iPh(?:one)?18[C,_]4|(?:iPhone[ _]?17[ _]?Air| 17AIR)(?:[);/ ]|$)";
  "(?i)(?:MDCR_|ICRU_|Apple-)?iPad1[C,_]1";
  "(?i)(?:MDCR_|ICRU_|Apple-)?iPad2[C,_][1-4]";
  "(?i)(?:MDCR_|ICRU_|Apple-)?iPad2[C,_][567]";
  "(?i)(?:MDCR_|ICRU_|Apple-)?iPad3[C,_][123]";
  "(?i)(?:MDCR_|ICRU_|Apple-)?iPad3[C,_][456]";
  "(?i)(?:MDCR_|ICRU_|Apple-)?iPad4[C,_][123]";
  "(?i)(?:MDCR_|ICRU_|Apple-)?iPad4[C,_][456]";
  "(?i)(?:MDCR_|ICRU_|Apple-)?iPad4[C,_][789]";
  "(?i)(?:MDCR_|ICRU_|Apple-)?iPad5[C,_][12]";
  "(?i)(?:MDCR_|ICRU_|Apple-)?iPad5[C,_][34]|(?:iPad Air 2 \(WiFi\))(?:[);/ ]|$)";
  "(?i)(?:MDCR_|ICRU_|Apple-)?iPad6[C,_][34]";
  "(?i)(?:MDCR_|ICRU_|Apple-)?iPad6[C,_][78]"
].
Definition d_dr_re0_4 : list blob := [
  "(?i)(?:MDCR_|ICRU_|Apple-)?iPad6[C,_](?:11|12)";
  "(?i)(?:MDCR_|ICRU_|Apple-)?iPad7[C,_][12](?:[\]);/ ]|$)";
  "(?i)(?:MDCR_|ICRU_|Apple-)?iPad7[C,_][34](?:[\]);/ ]|$)";
  "(?i)(?:MDCR_|ICRU_|Apple-)?iPad7[C,_][56]|(?:iPad 6 \(WiFi\))(?:[);/ ]|$)";
  "(?i)(?:MDCR_|ICRU_|Apple-)?iPad7[C,_](?:11|12)(?:[\]);/ ]|$)";
  "(?i)(?:MDCR_|ICRU_|Apple-)?iPad8[C,_](?:9|10)";
  "(?i)(?:MDCR_|ICRU_|Apple-)?iPad8[C,_]1[12]";
  "(?i)(?:MDCR_|ICRU_|Apple-)?iPad8[C,_][12]";
  "(?i)(?:MDCR_|ICRU_|Apple-)?iPad8[C,_][34]";
  "(?i)(?:MDCR_|ICRU_|Apple-)?iPad8[C,_][5-8]";
  "(?i)(?:MDCR_|ICRU_|Apple-)?iPad11[C,_][12]";
  "(?i)(?:MDCR_|ICRU_|Apple-)?iPad11[C,_][34]";
  "(?i)(?:MDCR_|ICRU_|Apple-)?iPad11[C,_][67]";
  "(?i)(?:MDCR_|ICRU_|Apple-)?iPad12[C,_]1|(?:iPad 9th Gen \(WiFi\))(?:[);/ ]|$)";
  "(?i)(?:MDCR_|ICRU_|Apple-)?iPad12[C,_]2|(?:iPad 9th Gen \(Cellular\))(?:[);/ ]|$)";
  "(?i)(?:MDCR_|ICRU_|Apple-)?iPad13[C,_]4";
  "(?i)(?:MDCR_|ICRU_|Apple-)?iPad13[C,_][5-7]|(?:iPad Pro 11-inch 3rd-gen \(Cellular\))(?:[);/ ]|$)";
  "(?i)(?:MDCR_|ICRU_|Apple-)?iPad13[C,_]8";
  "(?i)(?:MDCR_|ICRU_|Apple-)?iPad13[C,_](?:9|10|11)";
  "(?i)(?:MDCR_|ICRU_|Apple-)?iPad13[C,_]16";
  "(?i)(?:MDCR_|ICRU_|Apple-)?iPad13[C,_]17";
  "(?i)(?:MDCR_|ICRU_|Apple-)?iPad13[C,_]18";
  "(?i)(?:MDCR_|ICRU_|Apple-)?iPad13[C,_]19";
  "(?i)(?:MDCR_|ICRU_|Apple-)?iPad13[C,_]1|(?:iPad Air 4th Gen \(WiFi\))(?:[);/ ]|$)";
  "(?i)(?:MDCR_|ICRU_|Apple-)?iPad13[C,_]2";
  "(?i)(?:MDCR_|ICRU_|Apple-)?iPad14[C,_]10";
  "(?i)(?:MDCR_|ICRU_|Apple-)?iPad14[C,_]11";
  "(?i)(?:MDCR_|ICRU_|Apple-)?iPad14[C,_]1|(?:iPad mini 6th Gen \(WiFi\))(?:[);/ ]|$)";
  "(?i)(?:MDCR_|ICRU_|Apple-)?iPad14[C,_]2";
  "(?i)(?:MDCR_|ICRU_|Apple-)?iPad14[C,_]3";
  "(?i)(?:MDCR_|ICRU_|Apple-)?iPad14[C,_]4|(?:iPad Pro \(11-inch\) \(4th generation\))(?:[);/ ]|$)";
  "(?i)(?:MDCR_|ICRU_|Apple-)?iPad14[C,_]5";
  "(?i)(?:MDCR_|ICRU_|Apple-)?iPad14[C,_]6";
  "(?i)(?:MDCR_|ICRU_|Apple-)?iPad14[C,_]8";
  "(?i)(?:MDCR_|ICRU_|Apple-)?iPad14[C,_]9";
  "(?i)(?:MDCR_|ICRU_|Apple-)?iPad15[C,_]3";
  "(?i)(?:MDCR_|ICRU_|Apple-)?iPad15[C,_]4";
  "(?i)(?:MDCR_|ICRU_|Apple-)?iPad15[C,_]5";
  "(?i)(?:MDCR_|ICRU_|Apple-)?iPad15[C,_]6";
  "(?i)(?:MDCR_|ICRU_|Apple-)?iPad15[C,_]7";
  "(?i)(?:MDCR_|ICRU_|Apple-)?iPad15[C,_]8";
  "(?i)(?:MDCR_|ICRU_|Apple-)?iPad16[C,_]1";
  "(?i)(?:MDCR_|ICRU_|Apple-)?iPad16[C,_]2";
  "(?i)(?:MDCR_|ICRU_|Apple-)?iPad16[C,_]3|(?:iPad Pro 11 inch 5th Gen \(WiFi\))(?:[);/ ]|$)";
  "(?i)(?:MDCR_|ICRU_|Apple-)?iPad16[C,_]4";
  "(?i)(?:MDCR_|ICRU_|Apple-)?iPad16[C,_]5";
  "(?i)(?:MDCR_|ICRU_|Apple-)?iPad16[C,_]6";
  "(?i)(?:MDCR_|ICRU_|Apple-)?iPad17[C,_]1";
  "(?i)(?:MDCR_|ICRU_|Apple-)?iPad17[C,_]2";
  "(?i)(?:MDCR_|ICRU_|Apple-)?iPad17[C,_]3";
  "(?i)(?:MDCR_|ICRU_|Apple-)?iPad17[C,_]4";
  "(?i)Apple-?TV2[C,_]1";
  "(?i)Apple-?TV3[C,_][12]";
  "(?i)Apple-?TV5[C,_]3|Apple TV 4";
  "(?i)Apple-?TV6[C,_]2";
  "(?i)Apple-?TV11[C,_]1";
  "(?i)(?:iTunes-)?Apple[ _]?TV|Apple\/|(?:Apple-|iTunes-)?[^l][^i][^k][^e][^\s](?:iPad|iPhone)|iPh(?:[0-9]|1[0-4]),[0-9]|CFNetwork|HomePod|AirPlay|Watch ?OS|Watch1,[12]|MDCR_Mac|ICRU_iP(?:ad|hone)|Mac OS X[,;]|macOS,";
  "(?i)iTunes-iPad/[0-9]+(?:\.[0-9]+)* \(([^;]+);";
  "(?i)(?:MDCR_|ICRU_|Apple-)?iPad";
  "(?i)iTunes-iPhone/[0-9]+(?:\.[0-9]+)* \(([^;]+);";
  "(?i)(?:Apple-)?iPhone ?(3GS?|4S?|5[CS]?|6(:? Plus)?)?";
  "(?i)Aquarius|(?:NS220R?)(?:[);/ ]|$)";
  "(?i)(NS220R?)";
  "(?i)Aquarius[_ ]CMP[_ ]([^/;)]+)(?: Build|[);])";
  "(?i)Aquarius[_ ]([^/;)]+)(?: Build|[);])";
  "(?i)(?:YL-)?Archos|(?:A50TI|AC101BHE|AC50BHE|AC45NE|X67 5G|AC45BHE|AC101PL3GV2|9\.4 FFF|Tikeasy 10d)(?:[);/ ]|$)";
  "(?i)Archos (Oxygen (?:63|57|68XL))(?:[);/ ]|$)";
  "(?i)A50TI(?:[);/ ]|$)";
  "(?i)AC45NE(?:[);/ ]|$)";
  "(?i)X67 5G(?:[);/ ]|$)";
  "(?i)Archos ?5(?:[);/ ]|$)";
  "(?i)AC101BHE(?:[);/ ]|$)";
  "(?i)AC50BHE(?:[);/ ]|$)";
  "(?i)Archos 80 Oxygen(?:[);/ ]|$)";
  "(?i)Archos 101 Oxygen(?:[);/ ]|$)";
  "(?i)Archos Access 70 3G(?:[);/ ]|$)";
  "(?i)Archos Oxygen 101S ARDOIZ(?:[);/ ]|$)";
  "(?i)Archos Oxygen 101S(?:[);/ ]|$)";
  "(?i)Archos T ?(101X?) 4G(?:[);/ ]|$)";
  "(?i)Archos Core (101) 3G Ultra";
  "(?i)Archos Core (70|101) 3G";
  "(?i)Archos Hello 7(?:[);/ ]|$)";
  "(?i)9\.4 FFF(?:[);/ ]|$)";
  "(?i)Archos Sense 101 X(?:[);/ ]|$)";
  "(?i)Tikeasy 10d(?:[);/ ]|$)";
  "(?i)T101 HD 4G(?:[);/ ]|$)";
  "(?i)T101 FHD WiFi(?:[);/ ]|$)";
  "(?i)(?:YL-)?Archos ([^/;]*(?:PAD)[^/;]*) Build";
  "(?i)Archos ((?:[789]|10)[0-9]?[a-z]* ?(?:G9|Access|Magnus|G10|Helium|Titanium|Copper|Cobalt|Platini?um|Xenon|Carbon|Neon|XS|IT)[^/);]*)(?: Build|[;)])";
  "(?i)(?:YL-)?Archos ([^/);]+)(?: Build|[;)])";
  "(?i)BioniQP116(?:[);/ ]|$)";
  "(?i)(ARK[_ -])?Benefit[_ -]([^/;]*)(?: Build|\))|Impulse[ _]P[12]|(?:EDGE A5HD|Elf_S8|ICON (R40\+|R45)|Wizard_[12]|UKOZI U[56]|L925)(?:[);/ ]|$)";
  "(?i)(?:ARK[_ -])?Benefit[_ -]([^/;]*)(?: Build|\))";
  "(?i)Impulse[ _]P1\+";
  "(?i)Impulse[ _](P[12])";
  "(?i)EDGE (A5HD)";
  "(?i)ICON (R40\+|R45)";
  "(?i)Wizard_([12])";
  "(?i)Elf_S8(?:[);/ ]|$)";
  "(?i)UKOZI U([56])(?:[);/ ]|$)";
  "(?i)L925(?:[);/ ]|$)";
  "(?i)(TSD Octa A0520P|TSD Quadra A050[59]P)(?:[);/ ]|$)";
  "(?i)arnova|ARCHM901|AN7CG2|AN7IG3|AN7G2(DTE|I)?|AN7[BCDFH]?G3|A80KSC|AN8G2|AN8[BC]?G3|AN9G2I?|AN9G3|A101[BC]|AN10G2|AN10BG2(DT|I)?|AN10BG3(DT)?|AN10[CD]G3";
  "(?i)AN7G2I|AN7G2|AN7G2DTE";
  "(?i)A101B2|A101C|AN10G2";
  "(?i)AN10BG2|AN10BG2DT|AN10BG2I";
  "(?i)AN10BG3|AN10BG3DT|AN10BG3-LZ";
  "(?i)Arnova ([^/;]*) Build";
  "(?i)ARTLINE[ _-](KMX3)(?:[);/ ]|$)";
  "(?i)Artel[_ ]|\w+_ARTEL_\w+|(?: GAP|GAP YOQ| ALO|U1 MINI|Android 8(?:[\d.]*);(?: [\w-]+;)? U[124]|U3_4G| R3G)(?:[);/ ]|$)";
  "(?i)R3G(?:[);/ ]|$)";
  "(?i)GAP|GAP YOQ(?:[);/ ]|$)";
  "(?i)U1 MINI(?:[);/ ]|$)";
  "(?i)U3_4G(?:[);/ ]|$)";
  "(?i)U([124])(?:[);/ ]|$)";
  "(?i)ALO(?:[);/ ]|$)";
  "(?i)Artel[_ ](Quadro(?: Pro)?|Tesla|Air|Tomchi|Premium|U3_4G|Z5|Sentinel (?:X 8G|X D5|X)|T10|T21)";
  "(?i)Artel[_ ]Komi3";
  "(?i)Artel[_ ]Q21_PRO";
  "(?i)Artel[_ ]Q21";
  "(?i)Artel[_ ](Star|Nova|Connect|Choice|Style)";
  "(?i)(?:\w+_)?ARTEL_([FVM]5|X[45])_\w+";
  "(?i)Artizlee[ _]S9|ATL-(?:16|21(?:PLUS|[XT])?|31|26)(?:[);/ ]|$)";
  "(?i)ATL-21PLUS(?:[);/ ]|$)";
  "(?i)(ATL-(?:16|21[XT]?|31|26))(?:[);/ ]|$)";
  "(?i)Artizlee[ _]S9";
  "(?i)(?:32LH7010T|32LH8030S|43L[FU]8120T|43LU8030S|43LU8130S|32LH8[10]10T|32LH7030S|32LF7130S|28LH701[10]T|43LU8010T|24LH701[01]T|24L[HF]7020T|24LF8010T|24LH801[01]T|28LH81[12]0T|40LF7030S|40LF7010T|5[05]LU8120T|42LF7110T|32LH7011T|32LF7120T|32LF8120T|50LU8110T|50LU8130S|40LF8120T|50LF7010T|43LF7202T|43LF7010T|32LH8011T|32LF7111T|40LF8130S|40LF7030ST|42LF8120T|42LF8130S|43LU6000T|50LU6000T|32LH5000T|55LU8030S)(?:[);/ ]|$)";
  "(?i)(\d{2})(L[FHU]\d+[ST]T?)(?:[);/ ]|$)";
  "(?i)ASANZO[ _](?:A2|S[23]|[SZ]5|S3_PLUS)(?:[);/ ]|$)";
  "(?i)ASANZO[ _]S3[ _]PLUS";
  "(?i)ASANZO[ _](A2|S[23]|[SZ]5)(?:[);/ ]|$)";
  "(?i)ASK[ _]";
  "(?i)ASK[ _]791SP[ _]3G";
  "(?i)ASK[_ ]([^/;]*) Build";
  "(?i)ASPERA|(?:Wren|Jazz 2)(?:[);/ ]|$)";
  "(?i)ASPERA[ _](R5h|R9|RT3|A4[02]|A50|F30|R40)(?:_4G)?(?:[);/ ]|$)";
  "(?i)Wren(?:[);/ ]|$)";
  "(?i)Jazz 2(?:[);/ ]|$)";
  "(?i)(AS[-_](?:50[123]|543[1-6]|44[12]1|541[12]|54[23]1|6431|[46]01L)|AP-(?:109|115G|721N|753G|7[25]7G|10[68]|107G|110N|941|719))[;/)_ ]";
  "(?i)AS[-_]401L(?:[);/ ]|$)";
  "(?i)AS-5432(?:[);/ ]|$)";
  "(?i)AS[-_](?:5434|501)(?:[);/ ]|$)";
  "(?i)AS_601L(?:[);/ ]|$)";
  "(?i)AS-5433 Secret(?:[);/ ]|$)";
  "(?i)AS-5433(?:[);/ ]|$)";
  "(?i)AS-5421(?:[);/ ]|$)";
  "(?i)AS-44[12]1(?:[);/ ]|$)";
  "(?i)AS-5431(?:[);/ ]|$)";
  "(?i)AS-502(?:[);/ ]|$)";
  "(?i)AS-503(?:[);/ ]|$)";
  "(?i)AS-5435(?:[);/ ]|$)";
  "(?i)AS-5436[ _]";
  "(?i)AS-6431(?:[);/ ]|$)";
  "(?i)AS-5411[_ ]";
  "(?i)AS-5412 Max(?:[);/ ]|$)";
  "(?i)AP-721N(?:[);/ ]|$)";
  "(?i)AP-941(?:[);/ ]|$)";
  "(?i)AP-108(?:[);/ ]|$)";
  "(?i)AP-106(?:[);/ ]|$)";
  "(?i)(AP-(?:109|115G|7[25]7G|753G|107G|110N|719))(?:[);/ ]|$)";
  "(?i)(AS-(?:\d+))(?:[);/ ]|$)";
  "(?i)Astro[- ](S451|S501)(?:[);/ ]|$)";
  "(?i)Asus|Transformer|ZenFone Max|MeMOPad 10|TF300T|Slider SL101|PadFone|ME302(?:C|KL)|ME301T|ME371MG|ME17(?:1|2V|3X)|(?:K0[01][0-9a-z]|(?:P(?:00[128ACIL]|01[MTVWYZ]|01MA|01T_1|02[13478])(?: Build|\))|X015D|X018D|X003|X00[7ABT]D|Z00D|Z00[MTY]D|Z01[7FGHKMR]D)|K01[579N]|AST21|K50IJ)(?:[);/ ]|$)|G55[023]KL|ZB(631|602|633|55[135]|50[01])KL|ZC(55[134]|520|600)KL|ZA550KL|ZE(5[02]0|620|55[2345])KL|ZD55[23]KL|ZS6(?:61|7[02136])KS|ZS(6[0236]0|55[10])KL|ZS590KS|ZB(500KG|601KL)|MeMo Pad FHD 10 LTE|Z00[SV]D|P01Y_S|Zenfone 5Z?|AOSP on Duma|Tinker Board(?: S)?|TX201LA|I005DA|I003D|Z00UDH";
  "(?i)XPad 10 ?LTE(?:[);/ ]|$)";
  "(?i)ME171(?:[);/ ]|$)";
  "(?i)ASUS Z906(?:[);/ ]|$)";
  "(?i)ME302C(?:[);/ ]|$)";
  "(?i)(?:ME302KL|MeMOPad 10FHD LTE|MeMo Pad FHD 10 LTE|AOSP on Duma)(?:[);/ ]|$)";
  "(?i)ME301T(?:[);/ ]|$)";
  "(?i)Z101 Prime(?:[);/ ]|$)";
  "(?i)Z101(?:[);/ ]|$)";
  "(?i)(?:X Pad 10 LTE|ASUSXPad10)(?:[);/ ]|$)";
  "(?i)(?:K01[3A7]|K007|K00R)(?:[);/ ]|$)|MeMO Pad 7";
  "(?i)K01E(?:[);/ ]|$)";
  "(?i)K00U|ME173X(?:[);/ ]|$)";
  "(?i)(?:K01[15]|K00L|AST21)(?:[);/ ]|$)";
  "(?i)K014(?:[);/ ]|$)";
  "(?i)K00S(?:[);/ ]|$)";
  "(?i)K00F(?:[);/ ]|$)";
  "(?i)K00C(?:[);/ ]|$)";
  "(?i)K010(?:[);/ ]|$)";
  "(?i)K018(?:[);/ ]|$)";
  "(?i)TF300T(?:[);/ ]|$)";
  "(?i)K01B(?:[);/ ]|$)";
  "(?i)TX201LA(?:[);/ ]|$)";
  "(?i)P01[YZ](?:_S)?";
  "(?i)(?:ASUS_)?P00J";
  "(?i)P01[VW]|P002";
  "(?i)(?:P024|P00A)(?:[);/ ]|$)";
  "(?i)P01MA?(?:[);/ ]|$)";
  "(?i)ASUS_(w706)(?:[);/ ]|$)";
  "(?i)(?:ASUS_)?P00I";
  "(?i)(?:ASUS_)?P008";
  "(?i)(?:ASUS_)?P00C|P02[138]|P00L|P01T_1";
  "(?i)ME371MG(?:[);/ ]|$)";
  "(?i)K00G(?:[);/ ]|$)";
  "(?i)(?:K01[2N9]|K00E)(?:[);/ ]|$)";
  "(?i)K00Z(?:[);/ ]|$)";
  "(?i)K016(?:[);/ ]|$)";
  "(?i)(?:ASUS_)?A001D|ZB634KL"
].
Definition d_dr_re0_5 : list blob := [
  "(?i)(?:ASUS_)?T00N";
  "(?i)(?:ASUS_)?T00[CE]";
  "(?i)(?:ASUS[-_])?T00T";
  "(?i)(?:ASUS_)?A002(A)?";
  "(?i)(?:ASUS_)?AI2401_H";
  "(?i)(?:ASUS_?)?AI2501H";
  "(?i)(?:ASUS_)?(?:I006D|ZS590KS)";
  "(?i)(?:ASUS_)?(?:I004D|ZS672KS)";
  "(?i)(?:ASUS_)?(?:AI2202)";
  "(?i)(?:ASUS_)?(?:AI2302)";
  "(?i)(?:ASUS_)?A006";
  "(?i)(?:ASUS_)?A009";
  "(?i)(?:ASUS_)?Z007";
  "(?i)(?:ASUS_)?(X00P[SD]|ZB555KL)";
  "(?i)(?:ASUS_)?(?:ZB60[12]KL)|ZenFone Max Pro M1";
  "(?i)(?:ASUS[_-])?(X01([AB]D)|ZB633KL)(?:[);/ ]|$)";
  "(?i)(?:ASUS_)?(?:Z00[AD]|Z008D|Z008|Z00AD[AB]?|ZE551ML)";
  "(?i)(?:ASUS_)?(?:ZenFone 2E)";
  "(?i)(?:ASUS_)?(?:A007|Z00YD|ZA550KL|ZB553KL|ZB501KL)(?:[);/ ]|$)";
  "(?i)(?:ASUS_)?(?:X00RD|G552KL)";
  "(?i)(?:ASUS_)?(?:Z00[ERLMTW]D|Z011D|ZE500KL)";
  "(?i)(?:ASUS_)?(?:T00[IQ1]|Z01KD)";
  "(?i)(?:ASUS_)?T00P";
  "(?i)(?:ASUS_)?(?:T00K|X017DA|X017D|ZC600KL)";
  "(?i)(?:ASUS_)?(?:Z01RD|ZS620KL)|Zenfone 5Z";
  "(?i)(?:ASUS_)?(?:T00[JF]|X00QD|X00QSA|ZE620KL)|Zenfone 5";
  "(?i)(?:ASUS_)?(?:T00G|Z002|ZS630KL|I01WD[X]?)";
  "(?i)(?:ASUS_)?ZS671KS";
  "(?i)(?:ASUS_)?(?:ZS670KS|I002D|AI2205_C)(?:[);/ ]|$)";
  "(?i)(?:ASUS_)?Z010D";
  "(?i)(?:ASUS_)?X018D";
  "(?i)(?:ASUS_)?X00TD?";
  "(?i)(?:ASUS_)?(?:X01BDA|ZB631KL|Zenfone Max Pro M2)";
  "(?i)(?:ASUS_)?X014D";
  "(?i)(?:ASUS_)?(L001|X00[7AB]D|X009[DB][DA]|X009D|Z00[SV]D|ZB500K[LG]|ZB551KL)";
  "(?i)(?:ASUS_)?(?:G550KL|X013DB)";
  "(?i)(?:ASUS_)?X013D";
  "(?i)(?:ASUS_)?Z00[SV]D";
  "(?i)(?:ASUS_)?(X00[23])";
  "(?i)(?:ASUS_)?X005";
  "(?i)(?:ASUS_)?X550";
  "(?i)(?:ASUS_)?(X00GD)";
  "(?i)(?:ASUS_)?(?:X00D[DS]|X008D)|ZC553KL";
  "(?i)(?:ASUS_)?(X008)";
  "(?i)(?:ASUS_)?(ZE553KL|Z01HDA?)";
  "(?i)(?:ASUS_)?ZS550KL";
  "(?i)(?:ASUS_)?Z00UD";
  "(?i)(?:ASUS_)?(Z016[DS]|Z01FD)";
  "(?i)(?:ASUS_)?Z(?:017DA|E520KL|E552KL|017D|012(?:DC?|S))";
  "(?i)(?:ASUS_)?Z01B[DS]|ZC551KL";
  "(?i)(?:ASUS_)?A001";
  "(?i)(?:ASUS_)?(?:ZD552KL|Z01MDA?)(?:[);/ ]|$)";
  "(?i)(?:ASUS_)?(?:X00LDA|ZD553KL)";
  "(?i)(?:ASUS_)?(?:X00LD|Z01KS|Z01KDA|ZE554KL)";
  "(?i)(?:ASUS_)?X00(?:[HIK]D|IS)|ZC554KL|ZC520KL";
  "(?i)(?:ASUS_)?X015D";
  "(?i)(?:ASUS_)?(:?Z01G[DS]|ZS551KL)";
  "(?i)(?:ASUS_)?Z00XS";
  "(?i)(?:ASUS_)?(?:Z01QD|ZS600KL)";
  "(?i)(?:ASUS_)?(?:I001D[ABCE]?|ZS660KL)";
  "(?i)(?:ASUS_)?(?:I003DD?|ZS661KS)";
  "(?i)(?:ASUS_)?(?:I005D[AC]?|ZS67[36]KS|ROG Phone 5)";
  "(?i)(?:ASUS_)?(?:AI2201)";
  "(?i)(?:ASUS_)?(?:AI2203)";
  "(?i)(?:ASUS_)?(?:AI2205)";
  "(?i)(?:ASUS_)?(?:AI2401)_N";
  "(?i)(?:ASUS_)?(?:AI2401_[DE])";
  "(?i)(?:ASUS_)?(?:AI2401)";
  "(?i)(?:ASUS_?)?(?:AI2501[BE])";
  "(?i)(?:ASUS_?)?(?:AI2501)";
  "(?i)(?:ASUS_)?(?:I007D)";
  "(?i)(K50IJ)(?:[);/ ]|$)";
  "(?i)Tinker Board( S)?";
  "(?i)(?:ASUS_)?ZenWatch( 2)?";
  "(?i)Asus(?:-|;)?([a-z0-9]+)";
  "(?i)(PadFone(?: [^;/]+)?) Build";
  "(?i)(PadFone(?: [a-z0-9]+)?)";
  "(?i)(?:Asus|Transformer) ((?:Pad |Prime )?TF[0-9a-z]+)";
  "(?i)Chromebook Flip (C10[01]PA|C302)";
  "(?i)(?:AP570[12]|AP5705S|AP6301)(?:[);/ ]|$)";
  "(?i)(AP570[12]|AP5705S|AP6301)(?:[);/ ]|$)";
  "(?i)ATOM-(108A[ML]|216AL|216RK|216AM)(?:[);/ ]|$)";
  "(?i)(?:S-Tab10?|M-T[34])(?:[);/ ]|$)";
  "(?i)(M-T[34])";
  "(?i)S-Tab(10?)";
  "(?i)(?:(?:CP20|YQ10S)_(?:MAX|Gold)|YQ10SK|AT81K|CP10)(?:[);/ ]|$)";
  "(?i)(AT81K|CP10|YQ10SK)";
  "(?i)(Magic_1)(?:[);/ ]|$)";
  "(?i)(100011886BK)(?:[);/ ]|$)";
  "(?i)Audiovox|CDM|UTS(?:TARCOM)?\-|audio[a-z0-9-]+";
  "(?i)Audiovox[_\-]([a-z0-9-]+)";
  "(?i)CDM(?:-)?([a-z0-9]+)";
  "(?i)UTS(?:TARCOM)?-([a-z0-9-]+)";
  "(?i)audio([a-z0-9-]+)";
  "(?i)R2021W2(?:[);/ ]|$)";
  "(?i)(R2021W2)";
  "(?i)Avaya Vantage(?:[);/ ]|$)";
  "(?i)Avenzo(?:[);/ ]|$)";
  "(?i)MOB4 4G(?:[);/ ]|$)";
  "(?i)MOB4PRO 4G(?:[);/ ]|$)";
  "(?i)Avvio[ _]?([a-z0-9-]+)|(?:CHIVAS_55|Colombia_2018|Mint_M353)(?:[);/ ]|$)";
  "(?i)Avvio[ _]PAD";
  "(?i)Avvio[ _]?([a-z0-9-]+)";
  "(?i)(?:AWOW_)?(?:UTBook|CreaPad_100[359](?:_EEA)?)";
  "(?i)(?:AWOW_)?(UTBook|CreaPad_100[359])";
  "(?i)Axioo[_ ]|PICOp(?:hone|ad)[_-]";
  "(?i)Axioo[_ ](AX[45])";
  "(?i)PICOphone_(L1|M4N|M4P_M3|M4U_M2_M)";
  "(?i)PICOpad[_-](7H_7|7H|GGT)(?:_3G)?";
  "(?i)Axxion ATAB-[0-9]+(?:[);/ ]|$)";
  "(?i)Axxion ATAB-([0-9]+)(?:[);/ ]|$)";
  "(?i)(AT1011E)(?:[);/ ]|$)";
  "(?i)Azumi[_ -]|(?:SPEED55|A50_Style_Plus|LT50\+|KIREI A5Q PLUS|NOBU[ _]A55[ _]PRO|IRO A55 QL?)(?:[);/ ]|$)";
  "(?i)Azumi[_ -]AKANE";
  "(?i)Azumi[_ -]A4\+";
  "(?i)Azumi[_ -]([^/;]+) Build";
  "(?i)Azumi[_ -]([a-z0-9_]+)";
  "(?i)LT50\+";
  "(?i)NOBU[ _]A55[ _]PRO";
  "(?i)BAFF\d{2}|(?:32YSTV-R|32Y-HD-R)(?:[);/ ]|$)";
  "(?i)BAFF(\d{2})YFHD";
  "(?i)(?:BAFF)?(\d{2})Y-?(STV(?:-R)?|HD-R)";
  "(?i)Pixavi[ _](Phone)";
  "(?i)(?:BAUHN|ATV[78]5UHDW-[0-9]{4})(?:[);/ ]|$)";
  "(?i)(ATV[78]5UHDW-[0-9]{4})";
  "(?i)bb-mobile|Techno[-_ ](8\.0|9\.7|TQ863Q|X595BT|X800BJ|S700BF|I700AJ|10\.1 LTE TQ060X|7\.0 LTE TQ763I|I785AP|I101BI)(?:[);/ ]|$)";
  "(?i)Techno[_ ]S700BF(?:[);/ ]|$)";
  "(?i)Techno[_ ]10\.1 LTE TQ060X(?:[);/ ]|$)";
  "(?i)Techno[_ ]TQ863Q(?:[);/ ]|$)";
  "(?i)Techno[_ ]I700AJ(?:[);/ ]|$)";
  "(?i)Techno[-_ ]I785AP(?:[);/ ]|$)";
  "(?i)Techno[_ ]X800BJ(?:[);/ ]|$)";
  "(?i)Techno[-_ ]I101BI(?:[);/ ]|$)";
  "(?i)Techno[_ ]7\.0 LTE TQ763I(?:[);/ ]|$)";
  "(?i)(FirstTab TP-17)(?:[);/ ]|$)";
  "(?i)Techno[_ ](9\.7|[78]\.0) 3G(?:[);/ ]|$)";
  "(?i)Techno[_ ](?:X595BT)(?:[);/ ]|$)";
  "(?i)65LEX-8234-UTS2C|(?:32LEX-7272|24LEX-7269|([65]5|50|4[023]|3[29]|2[48])LEX[-_](81(?:27|39|45|58|6[12]|7[34])|71(?:[23]7|4[345]|5[45]|6[2368]|[57]8|7[15])|72(?:0[24]|1[23]|25|36|4[69]|5[579]|6[04]|8[789]|9[12])|82(?:02|4[369]|5[87]|65|89)|9201)[_/-]?([FU]?TS2C)(?:-T9)?|(?:3[29]|24)LEX-7289(?:-c)?|65LEX-8262)(?:[);/ ]|$)";
  "(?i)(\d{2})LEX[-_](\d{3,4})[_/-]?([FU]?TS2C)";
  "(?i)(3[29]|24|65)LEX-(7289|8262)(?:-c)?(?:[);/ ]|$)";
  "(?i)(\d{2})LEX[-_](\d{3,4})";
  "(?i)(?:BDF[- ](?:819|P10|M107|K107H|KT107|MT6753|X20|P30)|K960N_MT(?:6580|6753)(?:_32_N)?|m107_\d+a_64_q|ZL80)(?:[);/ ]|$)";
  "(?i)BDF[- ](819|P10|M107|K107H|KT107|MT6753|X20|P30)(?:[);/ ]|$)";
  "(?i)m107_\d";
  "(?i)K960N_MT(6580|6753)(_32_N)?(?:[);/ ]|$)";
  "(?i)(?:SMART_B19|Destiny)(?:[);/ ]|$)";
  "(?i)BGH ([^/;)]+)(?: Build|[;)])";
  "(?i)Y([17]00|2[01]0|1010)";
  "(?i)BGH (\+Simple|Mini|M840)";
  "(?i)BGH ([^/;)]+)(?: Build|[;)])";
  "(?i)(ZBH-)?BIHEE";
  "(?i)(A1[1268]|A[78]\+|A[56])(?:[);/ ]|$)";
  "(?i)BLISS-T6|(BPM9727)(?:[);/ ]|$)";
  "(?i)(BPM9727)";
  "(?i)(?:I11_Plus(?:_EEA)?|(?:I11|I10(Plus)?|I9_Plus)_(?:EEA|ROW)|I9_Plus|I10_Plus|Android 11(?:[\d.]*);(?: [\w-]+;)? I11|I10_Pro|I10Plus)(?:[);/ ]|$)";
  "(?i)I10_?(Plus|Pro)?(?:_(?:EEA|ROW))?(?:[);/ ]|$)";
  "(?i)I11(?:_EEA)?(?:[);/ ]|$)";
  "(?i)I(11|9)_Plus(?:_EEA|_ROW)?(?:[);/ ]|$)";
  "(?i)(?:BMXC[_ ]?(?:80[01])| M863(?:-EEA)?)(?:[);/ ]|$)";
  "(?i)(M863)";
  "(?i)BMXC[_ ]?(80[01])";
  "(?i)BPad_Mini_SE(?:[);/ ]|$)";
  "(?i)(BT7X1|EX10SL4|BTXS1)(?:[);/ ]|$)";
  "(?i)BROR[_ ]([^/;)]+)(?: Build|[);])";
  "(?i)(?:RUNE III?)(?:[);/ ]|$)";
  "(?i)RUNE (III?)(?:[);/ ]|$)";
  "(?i)LRNS10GIL0(?:[);/ ]|$)";
  "(?i)(LRNS10GIL0)";
  "(?i)BYYBUO|(?:SmartPad_(?:K7|T10|A10)_(?:EU|L)|SmartPad_T10)(?:[);/ ]|$)";
  "(?i)(?:BYYBUO_)?SmartPad_(K7|T10|A10)(?:_EU|_L)?";
  "(?i)(BK2021)(?:[);/ ]|$)";
  "(?i)Nook|BN[TR]V[0-9]+";
  "(?i)Nook([a-z0-9]+)";
  "(?i)Nook[ _]([^/;]+)[ _]Build";
  "(?i)(BN[TR]V[0-9]+)";
  "(?i)(?:Class_C250|TW10)(?:[);/ ]|$)";
  "(?i)(TW10)";
  "(?i)(Class_C250)";
  "(?i)Becker-([a-z0-9]+)";
  "(?i)Beeline|(?:A239s|SWG2001A-A|RASSE-001)(?:[);/ ]|$)";
  "(?i)Beeline[_ ]Pro[_ ]([2436])";
  "(?i)Tab (Fast(?: 2)?|Pro)";
  "(?i)Tab ([0-9])";
  "(?i)E([67]00)";
  "(?i)(?:Beeline[_ ])?Smart[ _]?([0-9])";
  "(?i)(?:Beeline[_ ])?Fast[_ ]2(?:[);/ ]|$)";
  "(?i)Fast(?:[);/ ]|$)";
  "(?i)A239s(?:[);/ ]|$)";
  "(?i)(RASSE-001)";
  "(?i)(SWG2001A-A)(?:[);/ ]|$)";
  "(?i)(?:Beelink (?:G[ST]1|LAKE I|SEA I|A1)|GTKing(?:_AT(?:_ATV)?|II)?|GT1mini-2|GT1-mini(?:[-_]AT(?:_ATV)?)?|R68 II|Amlogic Alvatech GT1)(?:[);/ ]|$)";
  "(?i)Beelink (G[ST]1|LAKE I|SEA I|A1)(?:[);/ ]|$)";
  "(?i)Amlogic Alvatech GT1(?:[);/ ]|$)";
  "(?i)GT1-mini(?:-AT(?:_ATV)?)?(?:[);/ ]|$)";
  "(?i)GT1mini-2(?:[);/ ]|$)";
  "(?i)GTKing PRO(?:[);/ ]|$)";
  "(?i)GTKingII(?:[);/ ]|$)";
  "(?i)GTKing(?:_AT(?:_ATV)?)?(?:[);/ ]|$)";
  "(?i)R68 II(?:[);/ ]|$)";
  "(?i)Beetel ([a-z0-9]+)"
].
Definition d_dr_re0_6 : list blob := [
  "(?i)(X104)-EEA(?:[);/ ]|$)";
  "(?i)Beko(?:[);/ ]|$)";
  "(?i)(?:FibeTV|Bell Streamer)(?:[);/ ]|$)";
  "(?i)Bp100 X-Plus(?:[);/ ]|$)";
  "(?i)BENQ(?:[ -])?([a-z0-9]+)|(?:F52_09|F5_15|T47_09|QS02)(?:[);/ ]|$)";
  "(?i)(F(?:52|5)|T47)_(?:15|09)(?:[);/ ]|$)";
  "(?i)BENQ(?:[ -])?([a-z0-9]+)";
  "(?i)BENQ-SIEMENS - ([a-z0-9]+)";
  "(?i)BenWee[ _-]?(?:[^;/)]+)(?: Build|[;)])";
  "(?i)BenWee W5 ?pro";
  "(?i)BenWee[ _-]?([^;/)]+)(?: Build|[;)])";
  "(?i)Benco[_ ]|(?:AE9(?:[03]10|1[25]0|2[2346]0|950)|AH9110|AEOP520|AEOP513)(?:[);/ ]|$)";
  "(?i)(TAB-A03-(?:BR2|BS))(?:[);/ ]|$)";
  "(?i)(?:Class S300 LTE|G-PADLITE)(?:[);/ ]|$)";
  "(?i)(Class S300 LTE)";
  "(?i)(?:SURVE(10|[26-8]|[12] PRO)|Home9)(?:[);/ ]|$)";
  "(?i)SURVE([12]) PRO";
  "(?i)SURVE(10|[26-8])";
  "(?i)BEZKAM (BK-RAM2)(?:[);/ ]|$)";
  "(?i)B(2[1239])(?:_U)?_(?:EEA|US)(?:[);/ ]|$)";
  "(?i)(?:GAMETAB-ONE|Bigtech_B_RU)(?:[);/ ]|$)";
  "(?i)BilimBook mini(?:[);/ ]|$)";
  "(?i)Capture\+(?:[);/ ]|$)";
  "(?i)(MD09TV)(?:[);/ ]|$)";
  "(?i)(?:BioWolf 8-F30|BIOWOLF8F30|Ruggbo 20 Lite)(?:[);/ ]|$)";
  "(?i)BioWolf 8-F30|BIOWOLF8F30";
  "(?i)BIRD[-. _]([^;/]+)|(E5018)(?:[);/ ]|$)";
  "(?i)(E5018)(?:[);/ ]|$)";
  "(?i)BIRD[\-. _]([^;/]+) Build";
  "(?i)BIRD[\-. _]([^;/]+)";
  "(?i)Bitel[ _-]([^/;]+) Build|(?:B(?:840[5-9]|841[0456]|850[2346]|860[146]|9401|950[1-5])|S8402L?|S8501L?|BPRO)(?:[);/ ]|$)";
  "(?i)(B(?:840[5789]|841[0456]|850[2346]|860[146]|9401|950[12345])|S8402L?|S8501L?)";
  "(?i)BPRO(?:[);/ ]|$)";
  "(?i)Bitel[ _-]([^/;]+) Build";
  "(?i)(?:Mobitab10c-3G|Tab1011Q_II|Colortab[ _]?(10(?:M| II)?|816i))(?:[);/ ]|$)";
  "(?i)(Mobitab)(10)c-3G(?:[);/ ]|$)";
  "(?i)Tab1011Q_II(?:[);/ ]|$)";
  "(?i)Colortab[ _]?(10(?:M| II)?|816i)(?:[);/ ]|$)";
  "(?i)Tough Mobile 2(?:[);/ ]|$)";
  "(?i)Bphone[ _](B111[45]|B2017)(?:[);/ ]|$)";
  "(?i)(B6 Master|B6 Note X)(?:[);/ ]|$)";
  "(?i)Tv Pro(?:[);/ ]|$)";
  "(?i)BMM[ _-]?(?:44[123]D|431B|441[AWB]|44[12]S|431[SD]|53[23]D|54[12]S|541[ABW]|54[123]D|543S|531[ABD]|532 S|531S)(?:[);/ ]|$)";
  "(?i)BMM441[AS]";
  "(?i)BMM442S|BMM441B";
  "(?i)BMM543[DS]";
  "(?i)BMM[ _-]?(53[23]D|431[DS]|54[12]S|531S|431B)(?:[);/ ]|$)";
  "(?i)(EO104K)[-_]BL(?:[);/ ]|$)";
  "(?i)(?:BLACKPHONE_Blackphone_K330_3G)(?:[);/ ]|$)";
  "(?i)Bt[_ -](\d{2}FSU?\d{2}B)(?:[);/ ]|$)";
  "(?i)Blackview|(BL8[08]00|BV([24-9]000|8[128]00|[468]900|(5[1589]|9[135689])00|6[12368]00|7[13]00)(?:[ _](?:PRO))?|P10000(?:[ _](?:PRO))?|omega[ _]pro|Alife[ _][PS]1|N6000|Heatwave|DM550|BV9700Pro|BL9000 Pro|A[68]0(?:Pro)?\))|(?:SOLID 4 G2|A[86]0Plus|A80S|BL(?:6000|8800)Pro|R6 Lite|P2Lite|A8 MAX|A30-RU|A20Pro|Android 10(?:[\d.]*);(?: [\w-]+;)? Tab[89]|Android 10(?:[\d.]*);(?: [\w-]+;)? (?:A80)|Android 11(?:[\d.]*);(?: [\w-]+;)? (?:A95|A100|BL5000|Tab 12)|Android 1[12](?:[\d.]*);(?: [\w-]+;)? (?:A[79]0|A70 Pro|A55 Pro|Tab 1[01356]|Tab 6)|Android 13(?:[\d.]*);(?: [\w-]+;)? (?:A200 Pro|Tab [86]0|Tab 18|BL9000)|BV500|BV4800|BV[579]200|SOLID_4G1|BV5300(?: Pro| Plus)?|Tab A5 Kids|Tab [56]0 Kids|Active (?:8|1[02]) Pro|Active 8|SHARK [89]|Tab 8E|Tab (?:[579]0|[789]|1[01]) WiFi|COLOR [68]|Tab (?:1[236]|60) Pro|MEGA [1238]|WAVE 6C|WAVE 8C?|HERO 10|A52 Pro| E7s|Tab 90|XPLORE [12]|FORT [12])(?:[);/ ]|$)";
  "(?i)A([2678]0|5[25]) ?Pro(?:[);/ ]|$)";
  "(?i)A([6798]0|9[56]|55|100)(?: Build|[;)])";
  "(?i)A8 MAX(?:[);/ ]|$)";
  "(?i)A80S(?:[);/ ]|$)";
  "(?i)(A[86]0|BV[59]500)Plus(?:[);/ ]|$)";
  "(?i)(P2|R6) ?Lite";
  "(?i)(BL[69]000|BL8800|BV(?:[0-9]+)|A200) ?Pro";
  "(?i)(BL[579]000|BV6000S|BL8[08]00|N6000)";
  "(?i)(?:Blackview[ _])?E7s(?:[);/ ]|$)";
  "(?i)Blackview (A[78])";
  "(?i)COLOR ([68])";
  "(?i)XPLORE ([12])";
  "(?i)FORT ([12])";
  "(?i)SHARK ([89])";
  "(?i)WAVE ([68])C";
  "(?i)(BV6[13]00)(?:[);/ ]|$)";
  "(?i)(BV\d+[\w]?|P10000)[ _]?Plus(?:[-_](?:RU|F))?(?:[);/ ]|$)";
  "(?i)(BV\d+[\w]?|P10000)[ _]?PRO(?:[-_](?:RU|F))?(?:[);/ ]|$)";
  "(?i)(BV\d+[\w]?|P10000)(?:[-_](?:RU|F))?(?:[);/ ]|$)";
  "(?i)Active (8|1[02]) Pro";
  "(?i)MEGA ([1238])";
  "(?i)Tab (1[0-6]|60) Pro(?:[);/ ]|$)";
  "(?i)Tab ?([56]0? Kids|8E|A[56] Kids)(?:[);/ ]|$)";
  "(?i)Tab ([579]0|[789]|1[01]) WiFi(?:[);/ ]|$)";
  "(?i)Tab 11 SE(?:[);/ ]|$)";
  "(?i)Tab ?([689]|1[0123568]|[689]0)(?:[);/ ]|$)";
  "(?i)omega[ _]pro";
  "(?i)(Alife[ _][PS]1|DM550|Heatwave)";
  "(?i)Blaupunkt|(?:Soundphone S2|Atlantis[_ ](?:1001A|1010A|A10[._]G40[23])|SLplus02|Discovery[_ ](?:A10_302|10[28]C|111C|1000C|1001A?)|Endeavour[_ ](?:785|101[GLM]|1000|1001|101[03]|1100)|Polaris[_ ]80[38](?:_BE)?|BP_(?:6010|6110)|B-STREAM|SL05|SM 02 2019|SF04 4G|A-STREAM|55UW5000T)(?:[);/ ]|$)";
  "(?i)Discovery[_ ](1000|111|10[28])C";
  "(?i)Discovery[_ ]A10_302";
  "(?i)Discovery[_ ]1001A";
  "(?i)Discovery[_ ]1001";
  "(?i)Endeavour[_ ](101[GLM]|785|100[01]|101[03]|1100)";
  "(?i)Polaris[_ ](808[_ ]BE|80[38])";
  "(?i)Atlantis[_ ](1001A|1010A|A10\.G40[23])";
  "(?i)BP_(6010|6110)";
  "(?i)Blaupunkt[_ ](SL[_ ]0[124]|SM[_ ]0[12]|TX60)";
  "(?i)(SF02|SL05|SF04 4G)";
  "(?i)(4K Android TV|A-STREAM)";
  "(?i)(?:BE_(xl|se|o2|fr|et|dg)|BL-919845)(?:[);/ ]|$)";
  "(?i)BE_(xl|se|o2|fr|et|dg)(?:[);/ ]|$)";
  "(?i)(Zero18)(?:[);/ ]|$)";
  "(?i)(?:LaserTAB10|PlatinumTAB(?:11|8)_4G|PlatinumTAB10V22|PlatinumTAB10_4G_V\d|BlackTab7_3G_V2|BlackTAB7)(?:[);/ ]|$)";
  "(?i)PlatinumTAB10_4G_(V\d)";
  "(?i)BLU[ _]|(?:blu|Dash)[ _]([^/;)]+)(?: Build|[;)])|(?:Studio[ _](G3|J8M|X10L|X12|5\.0K|5\.5|View(?: XL)?|Mega(?: LTE)?|C 8\+8|[CGM][ _]HD|G2 HD|G4|[CGX]|SELFIE|Selfie LTE|Touch|M[45] Plus|J[1258]|X[89] HD|X10\+?|XL(?: 2)?)|Advance (4\.0 ?[LM]|5\.[02](?: HD)?|A[467]|L[45]|A5 Plus|A5 LTE)|M6 2021|ENERGY (DIAMOND|XL)|ENERGY[_ ]DIAMOND[_ ]MINI|Energy X 2|LIFE XL|B110DL|Dash (?:X[2L]|L3)|PURE (?:X[LR]|MINI|View)|Life One X[23]|G50 (?:Mega|Plus)|G51 Plus|G90(?: PRO)?|G91 Pro|GRAND (?:M3|Max|5\.5 HD|XL LTE|Mini|Energy)|R1 (?:HD|PLUS)|R2 (?:LTE|Plus)|Tank Xtreme [45]\.0|Tank Xtreme(?: Pro)?|Touchbook M7 Pro|DASH X PLUS|C[456] 2019|BOLD (?:M7|N[123]|K[15]0)|B1[34]0DL|Vivo (?:5 Mini|One Plus|5R|XL[234]| Plus|8L|XI[+]?|GO)|C[56]L(?: 2020)?|C6 2020|G9 PRO|D701|VIEW 1|B13[15]DL|R2 3G|Grand (?:M2X?|XL|M2 LTE)|D600|D5[01]0|B1550VL|DIAMOND M|M8L Plus|STUDIO ENERGY|M8L 2022|LIFE X8|M10L (?:Pro|PLUS)|G71 PLUS|G52L|G61S|G91S|Studio Mini 2023|B(?:160|300)V|Android 10(?:[\d.]*);(?: [\w-]+;)? (?:G[57]0|G[679]1)|Android 11(?:[\d.]*);(?: [\w-]+;)? J9L|Android 13(?:[\d.]*);(?: [\w-]+;)? (?:G53)|F92 E 5G|C5 (?:Max|Plus|LTE))(?:[);/ ]|$)";
  "(?i)Advance (4\.0 ?[LM]|4\.0|5\.[02](?: HD)?|A[46]|L[54])";
  "(?i)M6 2021(?:[);/ ]|$)";
  "(?i)(?:BLU[_ ])?Studio[ _](G3|J8M|5\.0 C|5\.5|C 5\+5 LTE|View(?: XL)?|Mega(?: LTE)?|C 8\+8|G HD LTE|[CG][ _]HD|C|G|Touch|M HD|G2 HD|M[45] Plus|J[1258]|X[89] HD|X5|X10\+?|XL(?: 2)?|X|G4)(?:[);/ ]|$)";
  "(?i)(?:BLU[_ ])?Studio[ _]5\.0 ?K(?:[);/ ]|$)";
  "(?i)STUDIO[_ ](X10L|X12|G2)(?:[);/ ]|$)";
  "(?i)STUDIO SELFIE ([23]|LTE)";
  "(?i)(?:BLU[_ ])?NEO_ENERGY_MINI";
  "(?i)ENERGY[_ ]DIAMOND[_ ]MINI";
  "(?i)DASH[ _]X[ _]PLUS[ _]LTE";
  "(?i)DASH 4\.5";
  "(?i)PURE (X[LR]|View)";
  "(?i)BOLD (M7|N[123]|K[15]0)";
  "(?i)LIFE ONE (X[23]?)";
  "(?i)NEO (XL|X|5\.5)";
  "(?i)G(5[01]|71) Plus";
  "(?i)G(9[01]?) PRO";
  "(?i)(G[579]0|G[679]1|D701|R2 3G|G52L|G91S|G61S)(?:[);/ ]|$)";
  "(?i)(J9L|G53)(?:[);/ ]|$)";
  "(?i)GRAND 5\.5 HD";
  "(?i)Grand (M2X?|XL)";
  "(?i)B13[01]DL";
  "(?i)R([12]) PLUS";
  "(?i)C([456]) 20(19|20)";
  "(?i)(?:BLU[_ ])?TankMega_3G";
  "(?i)Tank Xtreme ([45])\.0";
  "(?i)C5 (Max|Plus|LTE)(?:[);/ ]|$)";
  "(?i)C([56])L 20(20|21)";
  "(?i)C([56])L";
  "(?i)(?:BLU[_ ])?VIVO[ _]SELFIE";
  "(?i)(?:BLU[_ ])?Vivo 5 Mini";
  "(?i)(?:BLU[_ ])?Vivo (One|XL3|XI)(?: Plus|[+])";
  "(?i)(?:BLU[_ ])?Vivo (5R|XI|XL[234]|8L)";
  "(?i)(?:BLU[_ ])?VIVO GO";
  "(?i)(?:BLU[_ ])?ZOEY_SMART";
  "(?i)(?:BLU[_ ])?(D600|D5[01]0)";
  "(?i)M(8|10)L Plus";
  "(?i)M(10)L Pro";
  "(?i)M8L (2022)";
  "(?i)STUDIO 7\.0 II";
  "(?i)DASH (L[45] LTE|5\.0|L[45]X|L3|X2|[LMX])(?:[);/ ]|$)";
  "(?i)DASH[ _]([^)/;]+)(?: Build|\))";
  "(?i)blu[ _]([^/;]+)( Build|[);])";
  "(?i)BLUSLATE([67])(?:[);/ ]|$)";
  "(?i)Bluboo|Maya Build|(?:Picasso(?: 4G)?|Xfire2?|D6 Lite|D1_Pro|D6 Pro|S8_plus_a| S8a|Android 8(?:[\d.]*);(?: [\w-]+;)? D6)(?:[);/ ]|$)";
  "(?i)Picasso(?: 4G)?";
  "(?i)D([16])[_ ]Pro";
  "(?i)(?:Bluboo[_ ])?S8[_ ]plus";
  "(?i)D6(?: Build|[;)])";
  "(?i)Bluboo[ _-]?([^;/)]+)(?: Build|[;)])";
  "(?i)Bluboo[ _-]?([^;/)]+)";
  "(?i)BSS(45|50)(?:[);/ ]|$)";
  "(?i)(VF550|EF501R?)(:_RU)?(?:[);/ ]|$)";
  "(?i)BLUEDOT[_ ]|(?:BNT-71|BNT-801W)(?:[);/ ]|$)";
  "(?i)(?:BLUEDOT[_ ])?(BNP-500)(?:[);/ ]|$)";
  "(?i)(BNT-71|BNT-801W)(?:[);/ ]|$)";
  "(?i)(?:33GT HD|WV8R-M|WV8R[_-]N|WV8-[ML])(?:[);/ ]|$)";
  "(?i)WV8R[_-]N";
  "(?i)Bmobile[_ ]|B60Pro(?:_MV03)?|BL40_MV12|BL50P_TG0[567]|BL51_MV05|BL53_TG06|BL5[24]_?Pro|(?:B50Pro|BL5[02]|BL60_TG(?:05|17)|BL60M_MV05|BL60 Pro|BL6[12]|BL63_TG07|FUN 4 2018|AX686A|AX-?(?:[1-9][0-9]{2,3}[eEO+]?|7OO))(?:[);/ ]|$)";
  "(?i)AX-?([1-9][0-9]{2,3}[eAEO+]?)";
  "(?i)B60Pro(?:_MV03)?";
  "(?i)BL40_MV12(?:[);/ ]|$)";
  "(?i)BL60_TG(?:05|17)";
  "(?i)BL([56]0|52)[_ ]?Pro(?:[);/ ]|$)";
  "(?i)BL63_TG07(?:[);/ ]|$)";
  "(?i)BL50P_TG0[567](?:[);/ ]|$)";
  "(?i)BL(5[02])(?:[);/ ]|$)";
  "(?i)BL51_MV05(?:[);/ ]|$)";
  "(?i)BL53_TG06(?:[);/ ]|$)";
  "(?i)BL54_?Pro";
  "(?i)BL6([12])(?:[);/ ]|$)";
  "(?i)Bmobile[_ ]([^/;]+) Build";
  "(?i)Bmobile[_ ]([a-z0-9]+)";
  "(?i)(?:K10[ ]?SE)(?:[);/ ]|$)";
  "(?i)B_TAB1021(?:[);/ ]|$)";
  "(?i)(Cybook)[ -]Tablet(?:[);/ ]|$)";
  "(?i)(?:Pulse Retro|Pulse Sky|Pulse Glide|Cabana|StrikaPlay)(?:[);/ ]|$)";
  "(?i)(Pulse Retro|Pulse Sky|Pulse Glide)";
  "(?i)(Cabana)";
  "(?i)(?:58BSE9503|WZONE)(?:[);/ ]|$)";
  "(?i)(?:sprd-)?(BOWAY)";
  "(?i)BOWAY[ _-]([^/;]+)[ _]Build";
  "(?i)([^/;]+) Build/BOWAY";
  "(?i).*BOWAY[ _-]([^/;]+)/";
  "(?i)(?:L1f-pluss|Brandcode B6S)(?:[);/ ]|$)";
  "(?i)Brandt|(?:BPRIME|BSTAR\+?|BPRIMES|B-ONE)(?:[);/ ]|$)";
  "(?i)BRANDT ([UF]HD) TV";
  "(?i)(BPRIME|BSTAR\+?|BPRIMES|B-ONE)(?:[);/ ]|$)";
  "(?i)Bravis[ _]|A501 Bright|A552 JOY Max|A504 Trace|A505 JOY Plus|A503 Joy|NB(?:106M|10[1-8]|751|7[145]|8[57]1|76)|NP101|NB961|NP 104 3G|B501|N1-570 Space|Atlas A551|A511 Harmony|A512 Harmony Pro|A510_Jeans_4G|A509_Jeans|N1_550_Cruiser|N1_551 Gloss";
  "(?i)Bravis[_ ]X500";
  "(?i)Bravis[_ ]A506";
  "(?i)Bravis[_ ]A553";
  "(?i)BRAVIS[ _]TAU";
  "(?i)BRAVIS[ _]DELTA";
  "(?i)BRAVIS[ _]TREND";
  "(?i)BRAVIS[ ]A554";
  "(?i)BRAVIS[ ]S500";
  "(?i)BRAVIS[ _]SPARK";
  "(?i)BRAVIS[ _]SLIM[ _]3G";
  "(?i)Bravis[_ ]([^;\)]+) Build";
  "(?i)(NB(?:106M|10[1-8]|75[134]|7[145]|8[57]1|76)|NP101|NB961)";
  "(?i)(HD1023|XD233|XD230|XD1030|XD1132|XT114[34]|4K1142|LS424|LS445)";
  "(?i)Brondi[ _]|(?:CENTURION|GLADIATOR| GLORY|LUXURY|SENSUELLE|VICTORY|AMICO[_ ]SMARTPHONE[_ ](?:4G|X[SL]|S\+)|MIDNIGHT_SKY|501 SZ|850_4G)(?:[ _-]?[2-6])?(?:[);/ ]|$)|Surfing Tab";
  "(?i)(?:Brondi[ _])?(620 SZ|730_4G_HD|501 SZ|850_4G)(?:[);/ ]|$)"
].
Definition d_dr_re0_7 : list blob := [
  "(?i)CENTURION(?:[ _-]?([2-6]))?(?:[);/ ]|$)";
  "(?i)GLADIATOR(?:[ _-]?([2-6]))?(?:[);/ ]|$)";
  "(?i)GLORY(?:[ _-]?([2-6]))?(?:[);/ ]|$)";
  "(?i)LUXURY(?:[ _-]?([2-6]))?(?:[);/ ]|$)";
  "(?i)MIDNIGHT_SKY(?:[);/ ]|$)";
  "(?i)SENSUELLE(?:[ _-]?([2-6]))?(?:[);/ ]|$)";
  "(?i)VICTORY(?:[ _-]?([2-6]))?(?:[);/ ]|$)";
  "(?i)AMICO SMARTPHONE (X[LS]|S\+)";
  "(?i)Surfing Tab ([^;/]+) Build";
  "(?i)Surfing Tab ([^;/)]+)[;/)]";
  "(?i)(BUB6R-3T)(?:[);/ ]|$)";
  "(?i)(?:BTOUCH7_PLUS|SWEET 5\+ 2019|SWEET ?[56]\+)(?:[);/ ]|$)";
  "(?i)SWEET 5\+ 2019";
  "(?i)SWEET ?([65])\+";
  "(?i)Bush[ ;,_-]|Bush10Nou";
  "(?i)Spira B1 (8|10\.1)";
  "(?i)BUSH ([^;/)]+)Tablet(?: Build|[);])";
  "(?i)BUSH ([^;/)]+) Smartphone";
  "(?i)BUSH ([^;/)]+)(?: Build|[);])";
  "(?i)BUSH\-v\.tv\.([0-9]{4})";
  "(?i)BUSH, ([a-z0-9_ -]+), (?:wired|wireless)";
  "(?i)(XR4500)(?:[);/ ]|$)";
  "(?i)CM(?:[58]22|(?:85|78)00plus)(?:[);/ ]|$)";
  "(?i)(CM[58]22)(?:[);/ ]|$)";
  "(?i)CM(85|78)00plus(?:[);/ ]|$)";
  "(?i)(?:noa X2 Plus|noa_G1|noaXPower|NOATAB)(?:[);/ ]|$)";
  "(?i)CADENA[_ ]";
  "(?i)CADENA[_ ]Pro[_ ]([^;/)]+)(?: Build|[);])";
  "(?i)CAGI-([a-z0-9_-]+)";
  "(?i)(?:4G (?:mega power|POWER|MAXX|Hot|Cloud|SPARK|Prime|Premium|STAR|Smart|Music|LITE)|4G[- _]Hero)(?:[);/ ]|$)";
  "(?i)4G[- _]Hero";
  "(?i)CCIT[_ ]|CCITA715G|(?:KT[236]00Pro)(?:[);/ ]|$)";
  "(?i)CCIT[ _]Xedition";
  "(?i)CCIT[ _]405(?: Build|[);])";
  "(?i)KT([236]00)Pro";
  "(?i)CCIT[_ ]?([^;/)]+)(?: Build|[);])";
  "(?i)CT-(87(?:4[03]|24|32|50)|85(?:[67]5|5[08]|32|4[03])|88(?:4[03]|32|24)|8932)(?:[);/ ]|$)";
  "(?i)CEPTER(TAB10[1L])";
  "(?i)(?:CG_OMEGA6|Omega (?:[38])|CG_EON_Blaze_Pro|CG\|EON Blaze GOLD|Blaze [GN])(?:[);/ ]|$)";
  "(?i)Omega ([38])(?:[);/ ]|$)";
  "(?i)CG_OMEGA6(?:[);/ ]|$)";
  "(?i)CG_EON_Blaze_Pro(?:[);/ ]|$)";
  "(?i)CG\|EON Blaze GOLD(?:[);/ ]|$)";
  "(?i)Blaze ([GN])";
  "(?i)CGV_(Ultimate T8)";
  "(?i)CHCNAV|(?:HCE[67]00)(?:[);/ ]|$)";
  "(?i)(HCE[67]00)";
  "(?i)CKK (Inspire 1|Garnet)|(?:DUKE[78]|DUKE 3|DUKE\s+II)(?:[);/ ]|$)";
  "(?i)DUKE ?([378])";
  "(?i)DUKE\s+II";
  "(?i)CKK (Inspire 1|Garnet)";
  "(?i)(?:A015|A001)(?:[);/ ]|$)";
  "(?i)(K10C|C3_Pro)(?:[);/ ]|$)";
  "(?i)BlueS10(?:[);/ ]|$)";
  "(?i)(N101[AB])(?:[);/ ]|$)";
  "(?i)TV 4K(?:[);/ ]|$)";
  "(?i)CORN[_ ]|(?:C55 Pro|C60 Ultra|Fenix8_3G|Note1|Tronik_(?:[123]|12S)|Star7 3G|Coco10_Ultra_4G|Play25_Pro_4G)(?:[);/ ]|$)";
  "(?i)(C55 Pro|C60 Ultra|Star7 3G)(?:[);/ ]|$)";
  "(?i)Fenix8_3G(?:[);/ ]|$)";
  "(?i)CORN Note1(?:[);/ ]|$)";
  "(?i)CORN R([124])0(?:[);/ ]|$)";
  "(?i)Tronik_([123]|12S)(?:[);/ ]|$)";
  "(?i)CORN[_ ]C(4)(?:[);/ ]|$)";
  "(?i)CORN[_ ]X(4|55|5)(?:[);/ ]|$)";
  "(?i)COYOTE[ _]";
  "(?i)APOLLO10 PRO(?:[);/ ]|$)";
  "(?i)CUBOT|QUEST(?: LITE)?|(?:NOTE 7|NOTE 20(?: PRO)?|RAINBOW 2|KING_KONG_3|ZORRO 001|KINGKONG[_ ](?:MINI2?|POWER|STAR|[5-9]|5 Pro|AX|X|ACE [23]|ES|11)|TAB KINGKONG|KING KONG CS| X30P|R15_PRO|S550 Pro|Android [6-7](?:[\d.]*);(?: [\w-]+;)? CHEETAH| [RX]19|X19 S|MAX [35]|Android 9(?:[\d.]*);(?: [\w-]+;)? (?:J5|MAX 2|X20 PRO)|Android [89](?:[\d.]*);(?: [\w-]+;)? R15|Android 12(?:[\d.]*);(?: [\w-]+;)? (?:P60|NOTE 30)|Android 13(?:[\d.]*);(?: [\w-]+;)? (?:NOTE [345]0|NOTE 2[134]|P80)|Android 11(?:[\d.]*);(?: [\w-]+;)? (?:Pocket|NOTE 9|P50|J10)|POCKET 3)(?:[);/ ]|$)";
  "(?i)POCKET (3)";
  "(?i)CHEETAH( 2)?";
  "(?i)KINGKONG POWER ([235])";
  "(?i)KINGKONG[ _]POWER";
  "(?i)KINGKONG[ _]AX";
  "(?i)KINGKONG ACE ([23])";
  "(?i)KINGKONG[ _]STAR[ _]2";
  "(?i)KINGKONG[ _]STAR";
  "(?i)KINGKONG MINI ?([23])";
  "(?i)KING[_ ]?KONG[_ ](11|[35-9]|X|ES 3|ES)";
  "(?i)CUBOT[ _]Echo";
  "(?i)CUBOT[ _]MANITO";
  "(?i)CUBOT[ _]MAGIC";
  "(?i)MAX ([235])";
  "(?i)CUBOT[ _]MAX";
  "(?i)(R15|S550|J3)[_ ]PRO";
  "(?i)NOTE ([2-5]0|2[134]|[79])";
  "(?i)CUBOT[_ ]NOTE[_ ]S";
  "(?i)CUBOT[_ ]Hafury V1";
  "(?i)CUBOT[ _](A5|C6W|H3|J3|P7|P20|[RXJ]9|R11|X18|X[35]0)(?:[);/ ]|$)";
  "(?i)(X19 S|[RX]19|R15|J5|P[568]0|J10|X30P)(?:[);/ ]|$)";
  "(?i)CUBOT ([^;/]+) Build";
  "(?i)([^;/]+) Build/CUBOT";
  "(?i)CUD (GO) (2024)";
  "(?i)CVTE[_ ](MSD338_(:?1G|512M))(?:[);/ ]|$)";
  "(?i)CX9006(?:[);/ ]|$)";
  "(?i)(?:CAIXUN AndroidTV)(?:[);/ ]|$)";
  "(?i)(?:Camfone (?:SE)|Hero[_ ](?:H5\+|SE2|H[579]|(?:H7|XR)_Plus|SX|1[123]|SE3[ _]Max)|Honey (?:Y1|Y2s)|Mega 10|Furious 7 Pro)(?:[);/ ]|$)";
  "(?i)(Hero[_ ](?:H5\+|SE2|H[579]|(?:H7|XR)_Plus|SX|1[123]|SE3[ _]Max)|Honey (?:Y1|Y2s)|Mega 10)(?:[);/ ]|$)";
  "(?i)Camfone (SE)(?:[);/ ]|$)";
  "(?i)CNM6762(?:[);/ ]|$)";
  "(?i)(CNM6762)(?:[);/ ]|$)";
  "(?i)S70CDS(?:[);/ ]|$)";
  "(?i)CANAL PLUS BOX(?:[);/ ]|$)";
  "(?i)(M75TG)(?:[);/ ]|$)";
  "(?i)Capitel-([a-z0-9]+)";
  "(?i)Captiva[ _-]([^;/)]+)(?: Build|\))";
  "(?i)CT(?:10[0123]0|7[12]0|820|735_16GB|1056_32GB|1005)(?:W|FR)?(?:[);/ ]|$)";
  "(?i)CT(10[0123]0(?:W|FR)?)";
  "(?i)CT(7[12]0(?:W|FR)?|735|1005|1056)";
  "(?i)(C811|C7[57]1)(?: 4G)?(?:[);/ ]|$)";
  "(?i)C751(?:[);/ ]|$)";
  "(?i)C771(?:[);/ ]|$)";
  "(?i)C811 4G(?:[);/ ]|$)";
  "(?i)CASPER[_ ]|(?:Pad H10 PEN|VIA[- _](X30(?: Plus)?|[AXS]40|X45|[XF]20|F30|T7D|A[34]|E[43]|E30|F[123]|G[345]|M4|M3[05]|[LM]40|[LS]8|S7|P[23]|V8C|A[13]_Plus(?:_64)?|A1(?:_1)?|S[13]0|S48|S|T17_M|T1[07]|T7|[ST]7-3G|T8B|T8D-3G|S1[78]|S48_0|[LS]30_0|L[35]0|F30 Plus|M30 Plus))(?:[);/ ]|$)";
  "(?i)(?:CASPER[_ ])?VIA[_ ](A1|[FMX]30)[_ ]Plus(?:_64)?";
  "(?i)(?:CASPER[_ ])?VIA[_ ]([AXM]40|[XF]20|X45|F30|X30|G1_Plus|F30 Plus|A3_Plus|G[135]|E[14]|E30|[AE]2|M[123]|V[35689]|V10|G3|V6X|A[34]|E3|F[123]|G4|M4|M3[05]|P[23]|S|V8C|A1(?:_1)?)(?:[);/ ]|$)";
  "(?i)CASPER_L10_4\.5G";
  "(?i)CASPER_(S[23]8)(?:[);/ ]|$)";
  "(?i)VIA[- _]([ST]7|T8D)-3G";
  "(?i)VIA[- _](T7D|S[134]0|S48|[LS]8|[LS]30|S7|T17_M|T1[07]|T7|T8B|S1[78]|L[45]0)(?:_0)?(?:[);/ ]|$)";
  "(?i)BULLITTGROUPLIMITED|B30_Dorado|Cat ?(tablet|stargate|nova|S52|B35)|(?:B15Q|CAT-B100|S22 FLIP|S62 Pro|S48c|Android 9(?:[\d.]*);(?: [\w-]+;)? S52|Android 10(?:[\d.]*);(?: [\w-]+;)? S42)(?:[);/ ]|$)";
  "(?i)S61(?:[);/ ]|$)";
  "(?i)(S48c|S[45]2)(?:[);/ ]|$)";
  "(?i)Cat ?(?:tablet)? ?((?:Galactica|Nova|StarGate|PHOENIX)[^/;]*) Build";
  "(?i)Cat ?tablet";
  "(?i)CAT-(B100)";
  "(?i)(B30)_Dorado";
  "(?i)(?:Cavion[_ ](?:Solid[_ ]4[\._]5|Base[ _](?:7|7_3G_Silver|5[._]0|10|7\.2 Quad)|10_3GRQ)|base10_3g_silver|Cavion7\.1quad|M1092Q)(?:[);/ ]|$)";
  "(?i)Cavion[_ ]Solid[_ ]4[._]5";
  "(?i)Cavion[ _]BASE[ _]5[._]0";
  "(?i)Cavion(?:7\.1quad)";
  "(?i)Cavion Base 7\.2 Quad";
  "(?i)(?:Cavion_)?Base_?(7|10)_3G_Silver";
  "(?i)(M1092Q)";
  "(?i)(?:ACRUX|BELLATRIX|BETELGEUSE|GACRUX|Betacrux|Kil-82WFDC|U800B)(?:[);/ ]|$)";
  "(?i)(U800B)";
  "(?i)Betacrux(?:[);/ ]|$)";
  "(?i)CELCUS, ([a-z0-9_ -]+), (?:wired|wireless)";
  "(?i)Celkon|Android 7.+ UNIQ(?: Build|[);])|(?:Millennia Hero|2GBStar|2GBXpress|CliQ2|Campus Prime)(?:[);/ ]|$)";
  "(?i)Celkon[ _*](C[78]20)";
  "(?i)Celkon[_ ]4G_TAB-8";
  "(?i)CliQ2(?:[);/ ]|$)";
  "(?i)Q4GPlus(?:[);/ ]|$)";
  "(?i)Android 7.+ UniQ(?: Build|[);])";
  "(?i)(Campus Prime)(?:[);/ ]|$)";
  "(?i)Celkon[ _*](CT[^;/]+) Build";
  "(?i)Celkon[ _*]([^;/]+) Build";
  "(?i)Celkon[\. _*]([^;/\)]+)[\)/]";
  "(?i)Cell_?C_|(?:Android 5(?:[\d.]*);(?: [\w-]+;)? (?:Summit|Fantasy))(?:[);/ ]|$)";
  "(?i)Cell_C_(Summit_Plus|Fame|Evolve)(?:[);/ ]|$)";
  "(?i)Summit(?:[);/ ]|$)";
  "(?i)Fantasy(?:[);/ ]|$)";
  "(?i)(?:Cool_Extreme_2|Earn2 CL|Earn|Fashion2Plus|Fashion[ _]C|Cool Duo|CHIC_X1|Miracle XS|Miracle 6.0 S)(?:[);/ ]|$)";
  "(?i)(Cool_Extreme_2|Earn2 CL|Earn|Fashion[ _]C|Cool Duo|Miracle XS|Miracle 6\.0 S)(?:[);/ ]|$)";
  "(?i)Cellacom|(?:S51_lite|X501_Prime)(?:[);/ ]|$)";
  "(?i)Cellacom_S62(?:[);/ ]|$)";
  "(?i)S51_lite(?:[);/ ]|$)";
  "(?i)X501_Prime(?:[);/ ]|$)";
  "(?i)Cosmas|CT_Cosmas_V|PADUA";
  "(?i)(?:CT_)?Cosmas_(TF|[VF])";
  "(?i)(?:Centric[- ]CM(?:5001|33[23]1|3321Plus)|CM4331|CM2221)(?:[);/ ]|$)";
  "(?i)(?:Centric[- ])?CM5001";
  "(?i)(?:Centric[- ])?CM3321Plus";
  "(?i)(?:Centric[- ])?CM3321";
  "(?i)(?:Centric[- ])?CM3331";
  "(?i)(?:Centric[- ])?CM4331";
  "(?i)(?:Centric[- ])?CM2221";
  "(?i)(?:C66)(?:[);/ ]|$)";
  "(?i)(C66)";
  "(?i)Changhong|HON H01|GHONGV12";
  "(?i)Changhong[ ]?(X1-K|X6|R8|Z9S?|Z1S|S18|R9|S07)(?:[);/ ]|$)";
  "(?i)ChangHong Andr[o0]id TV";
  "(?i)changhong,([a-z0-9_ -]+),(?:wired|wireless)";
  "(?i)(?:Opera TV.+)Changhong-([^);/]+)";
  "(?i)Cherry|Superion[_ ](?:S2|Radar Deluxe|S1 DTV|S1 Plus DTV|Tab Pro)|Flare([ _])?(Selfie|2\.[01]|2X|4|A[123]|J[1235678]|P[13]|S[4-8]|X2|Y[3567]|S[ _]Play|HD|LITE|XL|X_V[23]|Y3s|Tab|INFINITY)(?:[ _](?:Pro|Plus|Max|LTE))?|Fusion Aura 3s|Radar Deluxe 2|Desire R[678]|Desire_R[67]_Lite|Fusion Bolt|Omega[_ ](?:Icon 2|Icon Lite 2|lite[_ ][243][Cs]?|HD[ _][345]|HD_Duo|X)|Spin Max 2|Selfie_Two|Flare X Lite|Flare_5|Android 1.*Aqua S9|Aqua S10|MAIA PAD PLUS|COSMOS THREE| Revel 3G|Touch XL 2|DSR_(?:R8|R7P?)|CUBIX CUBE 3|AM1010V";
  "(?i)(Flare2X|Aqua S(?:9|10)(?: (?:Max|Lite|Pro))?)";
  "(?i)Flare[_ ]HD[_ ]([345])";
  "(?i)Flare[ _]S[ _]Play";
  "(?i)Flare (2\.[01])";
  "(?i)Flare[_ ]J([2356])S";
  "(?i)Flare_([A-Z]\d+)_Prime";
  "(?i)Flare_([A-Z]\d+)_Deluxe";
  "(?i)Flare[_ ]([A-Z]\d+)[_ ]Power";
  "(?i)Flare[_ ]([A-Z]\d+)[_ ]Pro";
  "(?i)Flare[_ ]([A-Z]\d+)[_ ]Lite";
  "(?i)Flare[_ ]([A-Z]\d+)[_ ]Plus";
  "(?i)Flare ?J3 ?Plus";
  "(?i)Cherry[_ ]X740";
  "(?i)Flare[ _]X[_ ]V([23])";
  "(?i)Flare[ _]XL[_ ]?2";
  "(?i)Flare[ _]([A-Z]\d+)[ _]mini";
  "(?i)Flare[_ ]([A-Z]\d+)[_ ]Max";
  "(?i)Flare[_ ]J2[_ ]DTV";
  "(?i)Flare[_ ]INFINITY";
  "(?i)Flare[_ ]Lite[_ ]3S";
  "(?i)Flare(?:[ _])?(Selfie|A1_Roam|A[123]|J8 LTE|J1s|J[1235678]|P[13]|S[4-8]|X2|Y3s|Y7_LTE|Y[3567]|[45])";
  "(?i)OMEGA[ _]HD[ _]([345])";
  "(?i)Omega[_ ]Lite[_ ](3[Cs]|[24])";
  "(?i)Omega[_ ]X";
  "(?i)Desire[ _]R(\d)[ _]Lite";
  "(?i)DSR_R([78])P";
  "(?i)DSR_R([78])"
].
Definition d_dr_re0_8 : list blob := [
  "(?i)Flare Tab Pro V(\d)";
  "(?i)(Fusion Bolt|Flare Tab Pro|Flare Tab|Superion[_ ](?:S2|Radar Deluxe|S1 DTV))";
  "(?i)Cherry(?:[ _]?Mobile)?[ _]?([^/;]+)(?: Build|[);])";
  "(?i)(?:ALTO (?:Bombo|classic|Estrella|JUEGO|SUBIR|[235])|FUEGO MAX|OJOS[ _](?:CIELO|CAMBIO|NUBE|[68i]|ORO|VIVIR|Plus|DOS mini|DOS|LUNA|X1)|AVANCE classic)(?:[);/ ]|$)";
  "(?i)ALTO ([235])";
  "(?i)OJOS[ _]([68i]|X1)";
  "(?i)E-Board[ -]MX05[45]";
  "(?i)E-Board[ -](MX05[45])";
  "(?i)(?:M812C|1501_M02|9930i|A1303|A309W|M651CY|M653|CMCC[ -]M(?:670|860)|M762G|SP210|SP[23]00)(?: Build|[);]|$)";
  "(?i)(M812C|1501_M02|9930i|A1303|A309W|M670|SP210|SP[23]00)";
  "(?i)Build/Tianyi|(?:TYH211U|TYH201H|TYH6(?:1[12]|22|3[12]|41)M|TYH651M-02)(?:[);/ ]|$)";
  "(?i)(?:CW-(Hi8-super|Hi12|V99i?|V17HD3G|VX8-3G|V88-QUAD|V9-DUAL|V88S|Vi[78]|[HV]i10 (?:pro|plus))|Hi10 (?:Pro|plus)|HiPad[ -](?:X|X?Pro|Air|Max)|HiPadX|HiBox-hero|HiBook(?: pro)?|Hi(?:[89]|10)[ _]?(?:Air|[_ ]?X?Pro(?:_PAD)?)|HiPad ?Plus|Hi8SE|Vi8 plus|Vi10(?: ?Pro)?|AuPad|Surpad|HiPadPro)(?:[);/ ]|$)";
  "(?i)(?:CW-Hi8-super)(?:[);/ ]|$)";
  "(?i)AuPadMini(?:[);/ ]|$)";
  "(?i)AuPad(?:[);/ ]|$)";
  "(?i)(?:CW-)?(Vi10|Hi10|Vi8) plus(?:[);/ ]|$)";
  "(?i)CW-(V88)-QUAD(?:[);/ ]|$)";
  "(?i)CW-(V9)-DUAL(?:[);/ ]|$)";
  "(?i)CW-(V17HD|VX8)-?(3G)(?:[);/ ]|$)";
  "(?i)(?:CW-)?(Hi10) pro(?:[);/ ]|$)";
  "(?i)HiBook pro(?:[);/ ]|$)";
  "(?i)HiBook(?:[);/ ]|$)";
  "(?i)HiPad ?X(?:[);/ ]|$)";
  "(?i)HiPad ?Pro(?:[);/ ]|$)";
  "(?i)HiPad ?XPro(?:[);/ ]|$)";
  "(?i)HiPad-Air(?:[);/ ]|$)";
  "(?i)HiPad ?Plus(?:[);/ ]|$)";
  "(?i)HiPad ?Max(?:[);/ ]|$)";
  "(?i)Hi([89]) ?Air(?:[);/ ]|$)";
  "(?i)Hi8SE(?:[);/ ]|$)";
  "(?i)Hi10 ?XPro";
  "(?i)Hi([89]) ?pro(?:[);/ ]|$)";
  "(?i)Vi10 Plus(?:[);/ ]|$)";
  "(?i)Vi10 ?Pro(?:[);/ ]|$)";
  "(?i)Vi10(?:[);/ ]|$)";
  "(?i)Surpad(?:[);/ ]|$)";
  "(?i)HiBox-hero(?:[);/ ]|$)";
  "(?i)CW-(Vi[78]|Hi12|V99i?|V88S)(?:[);/ ]|$)";
  "(?i)(RK25WO|RK[29]5|RS35|RS51_HS)(?:[);/ ]|$)";
  "(?i)(Life X6)(?:[);/ ]|$)";
  "(?i)Claresta[ _]|(?:AirPhoneS[56]|AirPhone K6)(?:[);/ ]|$)";
  "(?i)AirPhone ?(S[56]|K6)";
  "(?i)Claresta (F3) PRO";
  "(?i)Claresta[ _](F4)";
  "(?i)Clarmin|(?:B8Lite|B8Plus|Android 7(?:[\d.]*);(?: [\w-]+;)? B5Pro)(?:[);/ ]|$)";
  "(?i)Clarmin[_ ](B[65]|C1)";
  "(?i)ClearPHONE ([246]20)(?:[);/ ]|$)";
  "(?i)(?:CLEMPAD[_ ](?:6_XL|HR_Plus|HR|[68]|7_S|201[89])|ClemPhone_7|MFC_(?:2018|8))(?:[);/ ]|$)";
  "(?i)CLEMPAD_(201[89])";
  "(?i)Clempad[_ ](6_XL|HR_Plus|HR|[68])";
  "(?i)ClemPhone[ _](7)";
  "(?i)(?:Cirrus_C2|Cyclone_C4|Storm_C3|Stratus_C[57](?:_Elite)?|Stratus C8|Sunshine_T1|Typhoon_C6|Sunshine_T1_Elite)(?:[);/ ]|$)";
  "(?i)(Cirrus_C2|Cyclone_C4|Storm_C3|Stratus[_ ]C[578]|Typhoon_C6)";
  "(?i)(Sunshine_T1(?:_Elite)?)";
  "(?i)\+VT(?:107C|Q007C)|CloudFone[ _]|(?:Thrill[ _](?:Boost[ ]?(2|3)?|Power|Snap|Access|Plus 16GB|Lite|HD)|Excite Prime 2 Pro|Excite Prime|ExciteC|NBA Edition|Go SP|Next Infinity Plus|Next Infinity|Next Lite|Go Connect)(?:[);/ ]|$)";
  "(?i)Thrill Boost 2 Plus(?:[);/ ]|$)";
  "(?i)Thrill Boost (2|3)(?:[);/ ]|$)";
  "(?i)Thrill[ _]Boost(?:[);/ ]|$)";
  "(?i)Thrill Snap(?:[);/ ]|$)";
  "(?i)Thrill Plus 16GB(?:[);/ ]|$)";
  "(?i)Thrill Power(?:[);/ ]|$)";
  "(?i)Thrill Access(?:[);/ ]|$)";
  "(?i)Thrill Lite(?:[);/ ]|$)";
  "(?i)Thrill HD(?:[);/ ]|$)";
  "(?i)NBA Edition(?:[);/ ]|$)";
  "(?i)(Go SP(?: 2)?|Next Infinity (?:Pro|Plus)|Next Infinity|Go Connect(?: Lite)?(?: 2)?)(?:[);/ ]|$)";
  "(?i)Next Lite(?:[);/ ]|$)";
  "(?i)Next(?:[);/ ]|$)";
  "(?i)\+VT107C";
  "(?i)\+VTQ007C";
  "(?i)Hind[ _]5\.1|X417[ _]Amaze|X418[ _]Zest|X421[ _]Nova|X422[ ]Exotic|X425[ _]Shavit|X428[ _]Astute";
  "(?i)Hind[ _]5\.1";
  "(?i)X417[ _]Amaze";
  "(?i)X418[ _]Zest";
  "(?i)X421[ _]Nova";
  "(?i)X422[ _]Exotic";
  "(?i)X425[ _]Shavit";
  "(?i)X428[ _]Astute";
  "(?i)Clovertek[ _](G12)";
  "(?i)CnM[ -](?:Touchpad|TP)[ -]([0-9.]+)";
  "(?i)Cobalt[ _-](?:SM|T)";
  "(?i)Cobalt[ _-]SM_(55?|6)";
  "(?i)Cobalt[ _-]T((?:7|10))[ _]3G";
  "(?i)Cobalt[ _-]T((?:7|10))[ _]wifi";
  "(?i)(MID(?:1024|112[56]|1045|1048|106[05]|4331|701[26]|7015A?|70[32]2|703[56]|704[278]|7052|7065|7120|8024|80[47]2|8048|8065|8125|812[78]|9724|974[02])|CTB761)(?:[);/ ]|$)";
  "(?i)(?:EPICO 4K)(?:[);/ ]|$)";
  "(?i)(?:Colors[ _](S(?:[19]|11)|P70|P[456]5|P32|E15|P50 Plus)|Pride_1A|P52_Pride5C|P90_Pride5X|P95_Pride_7s|P77_Pride_1E|P88_Pride_1X)(?:[);/ ]|$)";
  "(?i)Pride_1A(?:[);/ ]|$)";
  "(?i)P95_Pride_7s(?:[);/ ]|$)";
  "(?i)P77_Pride_1E(?:[);/ ]|$)";
  "(?i)P52_Pride5C(?:[);/ ]|$)";
  "(?i)P90_Pride5X(?:[);/ ]|$)";
  "(?i)P88_Pride_1X(?:[);/ ]|$)";
  "(?i)Colors[ _](S(?:[19]|11)|P70|E15|P[456]5|P32|P50 Plus)(?:[);/ ]|$)";
  "(?i)Tesla|Impulse 7\.85 3G|Impulse 10\.1 OCTA|Smartphone_6\.1|SP(?:6\.2|6\.2_Lite)|TTL(?:713G|8)|Explr 9";
  "(?i)(Explr 9)";
  "(?i)TeslaEvo5\.0";
  "(?i)(Gravity 9\.7 SHD)";
  "(?i)(Impulse 7\.85 3G)";
  "(?i)Impulse 10\.1 OCTA";
  "(?i)Tesla_SP([^/;)]+)L(?: Build|[;)])";
  "(?i)Smartphone_6\.1";
  "(?i)(?:Tesla_)?SP(\d+)[_.](\d+)_Lite(?: Build|[;)])";
  "(?i)Tesla_SP(\d+)[_.](\d+)(?: Build|[;)])";
  "(?i)Tesla_SP([^/;]+) Build";
  "(?i)SP([^/;]+) Build";
  "(?i)Smartphone ([36])";
  "(?i)(L7\.1)";
  "(?i)(L7 Quad) Build";
  "(?i)(L7 Quad Lite)";
  "(?i)(L8\.1)";
  "(?i)TESLA,([a-z0-9_ -]+),(?:wired|wireless)";
  "(?i)Comio|(?:CT701G PLUS|CT701W|GT100)(?:[);/ ]|$)";
  "(?i)Comio[ _-]?([^;/)]+)(?: Build|[);])";
  "(?i)VIP7802(?:[);/ ]|$)";
  "(?i)Compal-[a-z0-9]+";
  "(?i)COMPAQ Professional Workstation|(?:CT101|CT1085_32GB)(?:[);/ ]|$)";
  "(?i)(CT1085)_32GB";
  "(?i)(CT101)";
  "(?i)ConCorde ([^/;]+) Build|Concorde_Raptor_Z55(?:[);/ ]|$)";
  "(?i)Concorde_(Raptor_Z55)(?:[);/ ]|$)";
  "(?i)ConCorde Tab ?([^/;]+) Build";
  "(?i)ConCorde ReadMan ?([^/;]+) Build";
  "(?i)ConCorde ([^/;]+) Build";
  "(?i)(GoCAM_G301)(?:[);/ ]|$)";
  "(?i)Concord[ _-]|(?:Flyfix 6|C-721|Plus-7_C777|Plus_M19_C779|Plus-9_C778|Dream_Edition_C-754)(?:[);/ ]|$)";
  "(?i)Concord[ _-](M[12]0)";
  "(?i)Plus[-_]([79]|M19)_(C77[789])(?:[);/ ]|$)";
  "(?i)Condor|Allure (?:A8 Pro|A55 Slim|M[123]|X)|Griffe T[235-9]|TFX71[12]G|TFX71[34]L|TMK715L|TRA-901G|TGW[-]?(710G|709|102L|801[GL])|(?:PGN\-?[456][012][0-9]|PHS\-601|PHQ519|PAM412|PHQ52[056]|TB105L|TB717G|PKT\-301|Plume (?:H1|L[1-68]|P8|P6 PRO LTE)|Infinity E5|Infinity a4|Infinity_i[45]|PKT411|SP413|PAM524|GT60 PRO|GT60|NOVA60(?: i)?|NOVA 70SE|NOVA 70)(?:[);/ ]|$)|CTAB[^/;]+ Build";
  "(?i)CTAB([^/;]+) Build";
  "(?i)(TGW)-?(710G|709|801[GL]|102L)(?:[);/ ]|$)";
  "(?i)(TFX71[12]G|TFX71[34]L|TB105L|TB717G|TMK715L)(?:[);/ ]|$)";
  "(?i)(TRA)-(901G)(?:[);/ ]|$)";
  "(?i)(?:Condor_)(FP216L)(?:[);/ ]|$)";
  "(?i)NOVA ?([67]0)";
  "(?i)PGN-?403";
  "(?i)PGN-?404";
  "(?i)PGN-?409";
  "(?i)PKT-?301";
  "(?i)PGN-?504";
  "(?i)PGN-?505";
  "(?i)PGN-?506";
  "(?i)(Allure \w+) Plus";
  "(?i)(Allure \w+) Pro";
  "(?i)(Allure \w+) Lite";
  "(?i)(Allure (?:M[123]|X)|GT60)";
  "(?i)PGN\-?507";
  "(?i)PGN-?508";
  "(?i)PGN\-?509";
  "(?i)PGN-?511";
  "(?i)PAM-?412";
  "(?i)PGN-?513";
  "(?i)PGN-?514";
  "(?i)PGN-?515";
  "(?i)PGN-?516";
  "(?i)PGN-?51[78]";
  "(?i)Infinity_i([45])";
  "(?i)PGN-?521";
  "(?i)Griffe T3 ?pro";
  "(?i)Griffe T([0-9]) Plus";
  "(?i)Griffe T([0-9])";
  "(?i)PGN-?522";
  "(?i)PGN-?523";
  "(?i)PGN-?527";
  "(?i)PGN-?528|PLUME P6 PRO LTE";
  "(?i)PGN-?605";
  "(?i)PGN-?606";
  "(?i)PGN-?607";
  "(?i)PGN-?608|Allure A55 Slim";
  "(?i)PGN-?609";
  "(?i)PGN-?610";
  "(?i)PGN-?611";
  "(?i)PGN-?612";
  "(?i)PGN-?613";
  "(?i)Plume L([24568]) Pro";
  "(?i)Plume L([13]) Plus";
  "(?i)Plume L([1-5])";
  "(?i)PGN-?([0-9]{3})";
  "(?i)(?:CP6001A)(?:[);/ ]|$)";
  "(?i)(?:CTAB1044hn|CTAB-1044|SEN_1055_ARM)(?:[);/ ]|$)";
  "(?i)(CTAB1044hn|CTAB-1044)(?:[);/ ]|$)";
  "(?i)Conquest[-_ ](?:S\d+|F2)(?:[);/ ]|$)";
  "(?i)Conquest[-_ ]S(\d+)";
  "(?i)Contixo|(?:CX-1045 3G|KT995 3G|CX1045|B108_4G)(?:[);/ ]|$)";
  "(?i)CX-?1045(?: 3G)?(?:[);/ ]|$)";
  "(?i)CX-?1065(?: 3G)?(?:[);/ ]|$)";
  "(?i)CONTIXO GX 1035(?:[);/ ]|$)";
  "(?i)Contixo GT1160 4G(?:[);/ ]|$)";
  "(?i)B105(?:[);/ ]|$)";
  "(?i)B108(?:[_ ]4G)?(?:[);/ ]|$)";
  "(?i)KT107(?: 3G)?(?:[);/ ]|$)";
  "(?i)K109(?:[);/ ]|$)";
  "(?i)KT715 3G(?:[);/ ]|$)";
  "(?i)KT995(?:[);/ ]|$)";
  "(?i)KT ?1100GT(?: 4G)?(?:[);/ ]|$)";
  "(?i)(?:YL-)?Coolpad|dazen|(?:Cool_9S|1824-S0|8190Q|1831-A0|8676-[AM]01|1872-A0|REVVLPLUS C3701A|VCR-[AI]0|C105-(?:8|E0)|C106-[789]|C107-9| C106|MTS-T0|ORL-C0|DLS-E0|182[56]-I01|1825-E0| 1825|8298-(?:M02|A01)|5560S|CP3320AS2|CP3321AT|CP350[34]L|cp3636a|CP3648AT?|CP3667AT|CP3669AS|cp3705A[S]?|CP3706AS|CP23NV3|CP8298_I00|CP8676_I0[23]|C103|CP03|C1-U02|SAC-A0| 203[29]|CP0[57]|CP12[psQ]?)(?:[);/ ]|$)|(8295|5860S) Build";
  "(?i)VCR-[AI]0";
  "(?i)1831-A0(?:[);/ ]|$)";
  "(?i)1872-A0(?:[);/ ]|$)";
  "(?i)2032(?:[);/ ]|$)"
].
Definition d_dr_re0_9 : list blob := [
  "(?i)8190Q(?:[);/ ]|$)";
  "(?i)DLS-E0(?:[);/ ]|$)";
  "(?i)1824-S0(?:[);/ ]|$)";
  "(?i)CP3321AT(?:[);/ ]|$)";
  "(?i)cp3636a(?:[);/ ]|$)";
  "(?i)CP3705A[S]?(?:[);/ ]|$)";
  "(?i)CP3648AT?(?:[);/ ]|$)";
  "(?i)CP3320AS2?(?:[);/ ]|$)";
  "(?i)CP3706AS(?:[);/ ]|$)";
  "(?i)CP3669AS(?:[);/ ]|$)";
  "(?i)MTS-T0(?:[);/ ]|$)";
  "(?i)(?:C106-[789]|R116|C10[36]|C1-U02)(?:[);/ ]|$)";
  "(?i)2039(?:[);/ ]|$)";
  "(?i)C107-9(?:[);/ ]|$)";
  "(?i)C105-(?:E0|8)(?:[);/ ]|$)";
  "(?i)1826-I01(?:[);/ ]|$)";
  "(?i)1825-I01(?:[);/ ]|$)";
  "(?i)1825(?:[);/ ]|$)";
  "(?i)ORL-C0(?:[);/ ]|$)";
  "(?i)Cool_9S(?:[);/ ]|$)";
  "(?i)CP03(?:[);/ ]|$)";
  "(?i)CP05(?:[);/ ]|$)";
  "(?i)CP07(?:[);/ ]|$)";
  "(?i)CP12Q(?:[);/ ]|$)";
  "(?i)(CP12)(?:[);/ ]|$)";
  "(?i)CP12P(?:[);/ ]|$)";
  "(?i)CP12s(?:[);/ ]|$)";
  "(?i)SAC-A0(?:[);/ ]|$)";
  "(?i)5560S(?:[);/ ]|$)";
  "(?i)(5860S|8295) Build";
  "(?i)Coolpad[_ ]2041";
  "(?i)CP8676_I02(?:[);/ ]|$)";
  "(?i)COR-I0(?:[);/ ]|$)";
  "(?i)CP8676_I03(?:[);/ ]|$)";
  "(?i)CP8298_I00(?:[);/ ]|$)";
  "(?i)(CP350[34]L)(?:[);/ ]|$)";
  "(?i)(8676-[AM]01|8298-(?:M02|A01))(?:[);/ ]|$)";
  "(?i)(?:YL-)?Coolpad[ _-]?([^/;]+) Build";
  "(?i)(?:YL-)?Coolpad[ _-]?([a-z0-9-]+)";
  "(?i)(CP20)(?:_EEA)?(?:[);/ ]|$)";
  "(?i)Cosmote?[_ ]([^;/)]+)(?: Build|[);])";
  "(?i)(CP-J55a|CP-J55aW|CP-J55aX)(?:[);/ ]|$)";
  "(?i)WING 5|WING9|Venus[ _][14]";
  "(?i)Venus[ _]([14])";
  "(?i)Cricket-([a-z0-9]+)|CKT_|(?:U(?:102|304|325|380|572|6080|655|668|680|705|1030)AC|V350C|EC1002|EC21100[1-4]|SL100EA|SL101AE|WTCKT01|SL112C|SL219C|SN304AE|SN509C)(?:[);/ ]|$)";
  "(?i)(?:CKT_)?U102AC";
  "(?i)(?:CKT_)?U1030AC";
  "(?i)Cricket-([a-z0-9]+)";
  "(?i)CRONY-7021(?:[);/ ]|$)";
  "(?i)Crosscall|ODYSSEY_Plus|Action-X[35]|Core-(?:M[45]|T[45]|X[345]|Z5)|Stellar-X5|Trekker-[MSX][1-4]|Odyssey S1";
  "(?i)Action-X3 Pro(?:[);/ ]|$)";
  "(?i)Action-X([35])(?:[);/ ]|$)";
  "(?i)Crosscall_Core-S4_4G(?:[);/ ]|$)";
  "(?i)Core-(M4) GO(?:[);/ ]|$)";
  "(?i)Core-(M[45]|X[345]|Z5)(?:[);/ ]|$)";
  "(?i)Crosscall ([^;/]+) Build";
  "(?i)Trekker-([MSX][1-4]) Core";
  "(?i)Trekker-([MSX][1-4](?: Core)?)";
  "(?i)Stellar-(X5)(?:[);/ ]|$)";
  "(?i)Core-T([45])(?:[);/ ]|$)";
  "(?i)CROWN, ([a-z0-9_ -]+), (?:wired|wireless)|BlossomB902(?:[);/ ]|$)";
  "(?i)CROWN, ([a-z0-9_ -]+), (?:wired|wireless)";
  "(?i)(?:SNOOK-X10)(?:[);/ ]|$)";
  "(?i)(<!myPhone ?)Cube|(U[0-9]+GT|K8GT)|(?:T8-PLUSM?S?|T8PLUSML|I1-TF[BD]?|I1-TC|i15-T[CG]?|I1_3GD|i1002S|Iwork10 Flagship|iwork10 Pro|T10 PLUS|CUBE-T970|U55GT_C8)(?:[);/ ]|$)";
  "(?i)U27GT-C8X?";
  "(?i)U25GT-C4YT|U25GT-W4";
  "(?i)U30GT ?2(?:[);/ ]|$)";
  "(?i)U51GT-SL|U51GT-C8";
  "(?i)(?:T8-PLUSM?S?|T8PLUSML)(?:[);/ ]|$)";
  "(?i)I1-TF[BD]?(?:[);/ ]|$)";
  "(?i)I1_3GD(?:[);/ ]|$)";
  "(?i)I1-TC(?:[);/ ]|$)";
  "(?i)i15-TG(?:[);/ ]|$)";
  "(?i)i15-T(?:[);/ ]|$)";
  "(?i)(?:i1002S|iwork10 Pro)(?:[);/ ]|$)";
  "(?i)Iwork10 Flagship|i15-TC(?:[);/ ]|$)";
  "(?i)CUBE-T970(?:[);/ ]|$)";
  "(?i)(U[0-9]+GT[^;/]*) Build";
  "(?i)(U[0-9]+GT(?:[0-9]|[\-_][a-z]+)?)";
  "(?i)(K8GT)";
  "(?i)(?:C70W|F35W_EEA|C82W_EEA)(?:[);/ ]|$)";
  "(?i)(C70W|F35W|C82W)(?:_EEA)?(?:[);/ ]|$)";
  "(?i)Cyrus[ _-]|CyrusApel|CM17XA|CS(?:22|45)XA(?:_EEA)?(?:[);/ ]|$)";
  "(?i)CM17XA(?:_EEA)?(?:[);/ ]|$)";
  "(?i)CS(22|45)XA(?:_EEA)?";
  "(?i)Cyrus[ _-]?([^;/)]+)(?: Build|[);])";
  "(?i)Cyrus[ _-]?([^;/)]+)(?:[);/ ]|$)";
  "(?i)(DTB-7168G)(?:[);/ ]|$)";
  "(?i)(?:D5-L|DT07-TAB4G|LM-01)(?:[);/ ]|$)";
  "(?i)(LM-01)";
  "(?i)(D5-L)(?:[);/ ]|$)";
  "(?i)DASS[-_ ](H-ONE)(?:[);/ ]|$)";
  "(?i)(BOXD7)(?:[);/ ]|$)";
  "(?i)DEC 3000 - M700(?:[);/ ]|$)";
  "(?i)DEXP|(?:Ursus|Ixion)[ _]([^;/)]+)|H135[ _]Build|Larus_TV1|Ixion(?:ML4\.7|ES250)|M150Storm|(?:SENIOR|F4[38]D8000K|VA(?:[12]10|170)|ML450|MS[56]50|BL(?:[123]50|160|155)|BS(?:155|160|[1256]50)|S(?:3[78]0|2[89]0|670)|AL(?:[12]40|[23]50)|AS(?:155|[123]60)| (?:B260|B245|H[12]10|H270|L470|N280i|P310|P380i?|R1[18]0|Q110|E1[78]0|E[12]10|B(?:450|340|35[05])|M170|M445|M[12]10|T155|H32F8000CG?|U43F8000Q|A(?:1[456]0|340|[34]55)|GS15[035]|GL[23]55|G25[035]|G355|G550|G15[05]|ES750|XL150|Z[1-4]55|H[13]70|H[34]10|P[45]10|L2[17]0)|Z250|A440|A350|N[13]80i|L1[178]0|L3[17]0i|G450|G660|Q[123]10|Q[12]80|N[234]10|N[35]70|EX111|S[245]70|S[127]70i|S169|S110|S180i?|S770|A555|(?:U75H8000K|U50H8000E|U65H8000K|F43H8000QG|U50G8000QG|U55H8050E|U43G9000CG|U43F8100QG|U55G8000QG|U50G9000CG|H32H800(?:1C|0[KQ])|H32G8000(?:CG|KW|Q)|H32F8000QG?(?:-[abc])?|H32F8[01]00Q|H39F8000Q|F43H8000K|U43H8000E|F(?:32|43)H8050C|U43F8000EG|F43F8000[CQ]G?|F32[FG]8000C|F43G8000C|H24H8000C|H24F8000Q|F43F8000Q-G)(?:-[AbcfedH])?|Android 8(?:[\d.]*);(?: [\w-]+;)? A240|android 10(?:[\d.]*);(?: [\w-]+;)? (?:B[23]1|B38|B1[87]|K28|K[34]1)|android 9(?:[\d.]*);(?: [\w-]+;)? (?:K18|K21|B11)|Android 11(?:[\d.]*);(?: [\w-]+;)? (?:D[12]1|T21|K[345]1|K[342]8|K61|C3[78]|B28|B27|H28)|43UCY[123](?:-[GB])?|32FCY[12]|U43H8050EG|H32H8051C-G|H32H8050CG|65UCY(?:1-[GB]|3)|55UCY1-[BG]|50UCY[12]-G|75UCY1-G|40FCY1|43FCY[12]|24HEY1|55UCY1|U5[05]E9100Q|H24F8000C|H3218000K|U5[05]F8000QG?|U50H8050EG|H32I8000K|U65G8000Q|U43G8100QG|U50F8000EG?|F40H8000E|Android 11(?:[\d.]*);(?: [\w-]+;)? P11)(?:[);/ ]|$)";
  "(?i)(?:DEXP_)?(ML450|MS[56]50|ES750|XL150|ES1050)(?:[);/ ]|$)";
  "(?i)IxionES250(?:[);/ ]|$)";
  "(?i)IxionML4\.7(?:[);/ ]|$)";
  "(?i)Ixion[_ ]([^;/]+)(?: Build|\))";
  "(?i)M150Storm(?:[);/ ]|$)";
  "(?i)M445(?:[);/ ]|$)";
  "(?i)AL250(?:[);/ ]|$)";
  "(?i)AL350(?:[);/ ]|$)";
  "(?i)AS155(?:[);/ ]|$)";
  "(?i)AS260(?:[);/ ]|$)";
  "(?i)AS360(?:[);/ ]|$)";
  "(?i)Ursus[ _]([^;/)]+)(?: Build|[);])";
  "(?i)(K[23456]1|K[234]8|[KB]18|B[23]1|B[12]7|B[23]8|[BD]11|D21|T21|C3[78]|P11)(?:[);/ ]|$)";
  "(?i)(VA[21]10|VA170|E210|R1[18]0|Q110|M[12]10|N280i|P380i?|P[345]10|S2[89]0|S3[78]0|S[456]70|H[12]10|H[123]70|H[34]10|L1[178]0|L2[17]0|N[13]80i|N[234]10|E1[178]0|Q[123]10|Q[12]80|EX111|N[35]70|L3[17]0i|L470|S[127]70i|S270|S110|S169|S770|S180i?|M170)(?:[);/ ]|$)";
  "(?i)(H28)(?:[);/ ]|$)";
  "(?i)(G450)[ _](2021)";
  "(?i)(B260|B245|A440|A[345]55|B450|B340|B35[05]|BL155|BL160|A160|A[23]40|A350|T155|Z[1-4]55|G25[035]|G355|Z250|G450|G550|G660)(?:[);/ ]|$)";
  "(?i)SENIOR(?:[);/ ]|$)";
  "(?i)DEXP[_ ]Freya";
  "(?i)([HFU]\d{2}[A-Z]\d{4}[A-Z]{1,2}|AL-2020|43UCY[12]-[GB]|43UCY[13]|43FCY[12]|40FCY1|24HEY1|32FCY[12]|F32H8050C|H32F8000Q|H32[1I]8000K|H32H8051C-G|F43F8000Q-G|50UCY[12]-G|75UCY1-G|55UCY1-[BG]|65UCY(?:1-[GB]|3)|55UCY1)(?:-[AbcfedH])?(?:[);/ ]|$)";
  "(?i)H135[ _]Build";
  "(?i)(BL[123]50|BS155|BS160|BS[1256]50|AL[12]40|A1[45]0|GS15[035]|AS160|GL[23]55|G15[05])(?:[);/ ]|$)";
  "(?i)DEXP[ _]([^;/]+) Build";
  "(?i)DEXP[ _]([^);/]+)(?:[);/ ]|$)";
  "(?i)DEYI-?(10M18)(?:[);/ ]|$)";
  "(?i)(?:JAGUAR|SATURN|TIGER|PUMA)-0\dC?(?:[);/ ]|$)";
  "(?i)SATURN-(02C?)";
  "(?i)(?:DG101HSTB|DG101TBIPS)(?:[);/ ]|$)";
  "(?i)DG101TBIPS(?:[);/ ]|$)";
  "(?i)DG101HSTB(?:[);/ ]|$)";
  "(?i)X8ULTRA(?:[);/ ]|$)";
  "(?i)DIGICOM[_ ]";
  "(?i)DIGICOM[_ ](A10_LTE)(?:[);/ ]|$)";
  "(?i)Digicom[_ ]DTOK";
  "(?i)DIGIFORS (400)(?:[);/ ]|$)";
  "(?i)DIJITSU_|LGE; [0-9]{2}DW[0-9]\d*;|(?:DCT 90)(?:[);/ ]|$)";
  "(?i)DIJITSU[_ ]Smart[_ ]A11s";
  "(?i)LGE; ([0-9]{2}DW\d*);";
  "(?i)(8800i)(?:[);/ ]|$)";
  "(?i)DINGDING[ _-](SK\d)(?:[);/ ]|$)";
  "(?i)(?:WTCELERO5G|Celero(?:3[ _])?5G\+?|SN339D)(?:[);/ ]|$)";
  "(?i)Celero5G\+";
  "(?i)Celero3 5G\+";
  "(?i)WTCELERO5G|Celero5G";
  "(?i)DIXON_|(?:ACK1010|KT5512|HK7-3502|DN6015|DFM48|TS-M105G-1|TS_M103A|TS-M704F-1)(?:[);/ ]|$)";
  "(?i)(ACK1010|KT5512|DFM48)";
  "(?i)TS-(M105G|M704F)-1";
  "(?i)DIXON_XK1_3G(?:[);/ ]|$)";
  "(?i)Smartphone[ _]DL|DL_Horizon_Selfie|Tablet_DL_\d{4}|Smartphone[_ ](?:YZU[_ ]DS53)";
  "(?i)Smartphone[_ ]YZU[_ ]DS53";
  "(?i)DL[_ ]Horizon[ _]H8";
  "(?i)Tablet_DL_(\d{4})";
  "(?i)(?:DMOAO_)?(?:D[23]_EEA)(?:[);/ ]|$)";
  "(?i)(?:DMOAO_)?(D[23])_EEA(?:[);/ ]|$)";
  "(?i)(?:DNS|AirTab)[ _-]([^;/)]+)|(?:S4505M|S4004M|SD01M)(?:[);/ ]|$)";
  "(?i)(?:DNS[-_]DNS[-_])?S3504";
  "(?i)(?:DNS[_ ])?(S4505M|S4004M|SD01M|S4502|S4003|S4003)(?:[);/ ]|$)";
  "(?i)S-4003(?:[);/ ]|$)";
  "(?i)AirTab[ _-]([^;/]+)(?: Build|[);])";
  "(?i)DNS[ _-]([^;/]+)(?: Build|[);])";
  "(?i)(Aloha_5G)(?:[);/ ]|$)";
  "(?i)(?:DPA_ZETA|DPA H3)(?:[);/ ]|$)";
  "(?i)DPA (H3)";
  "(?i)DRAGON[_ ](OTT)";
  "(?i)(DSCS9)(?:[);/ ]|$)";
  "(?i)(RD86QE)(?:[);/ ]|$)";
  "(?i)DUDU(\d)";
  "(?i)DUNNS[ _]|DunnsExecutive";
  "(?i)DUNNS[ _](Slinger)(?:[);/ ]|$)";
  "(?i)DUNNS[ _]?(?:MOBILE[ _])?(703GDC|AT1001|Executive)(?:[);/ ]|$)";
  "(?i)Daewoo|(DTA-07IDRF)(?:[);/ ]|$)";
  "(?i)(DTA-07IDRF)(?:[);/ ]|$)";
  "(?i)Daewoo (Android TV 638)(?:[);/ ]|$)";
  "(?i)Daewoo, ?([a-z0-9_ -]+), ?(?:wired|wireless)";
  "(?i)Dslide|Konnect_?(?:402|50[246]|556|60[1278])|GEODROID_A5|Dbook[_ ]110";
  "(?i)Konnect[_ ]?(402|50[246]|556|60[1278])";
  "(?i)Dbook[_ ](110)";
  "(?i)Dslide[ _]?([^;/)]+)(?: Build|[);])";
  "(?i)(?:Signature-S8|Monster 4GXX|AMAZE AX-50 Advance)(?:[);/ ]|$)";
  "(?i)(Signature-S8)";
  "(?i)(DM-B50104)(?:[);/ ]|$)";
  "(?i)(?:MEMOR )([12]0|1)(?:[);/ ]|$)";
  "(?i)(K908H4G)(?:[);/ ]|$)";
  "(?i)(?:DATANG[ _-])+([^;/]+) Build";
  "(?i)(?:DATANG[ _-])+([^;/)]+)(?:[;/)]|$)";
  "(?i)DW-[A-Z0-9]{5}(?:[);/ ]|$)";
  "(?i)(DW-PS3G5)(?:[);/ ]|$)";
  "(?i)DAWLANCE[ _]";
  "(?i)DBTEL(?:[\-/])?([a-z0-9]+)";
  "(?i)DS-(?:BD[123]|CR1|CL[23] Pro|X1|CL[234] Lite|CL[1-4])(?:[);/ ]|$)";
  "(?i)DS-CL([23]) Pro";
  "(?i)DS-CL([234]) Lite";
  "(?i)DS-CL([234])";
  "(?i)DS-BD([23])";
  "(?i)DS-(X1)";
  "(?i)DeWalt (MD501)(?:[);/ ]|$)";
  "(?i)Dell[^a-z]|Venue|XCD35|Latitude E?\d{4}|Inspiron N?\d{4}|Inspiron 13|Vostro (?:3546|14-3468)";
  "(?i)Venue ((?:10|[78]) [0-9]{4}|[78] HSPA\+)";
  "(?i)(?:Dell )?Venue(?: Build|[);])";
  "(?i)Dell; Venue Pro";
  "(?i)(OptiPlex (?:3050|7010))";
  "(?i)Vostro (3546|14-3468)";
  "(?i)Chromebook (\d{2} \(\d{4}\))";
  "(?i)Venue7 (3740)";
  "(?i)(?:Dell )?(Streak|Venue) ?([^/;]*) Build"
].
Definition d_dr_re0_10 : list blob := [
  "(?i)(?:Dell Inc\./)?(XPS 13 9360|Latitude (?:7480|7390|E4310)|Inspiron N?\d{4}|Inspiron 13-\d{4})(?:[);/ ]|$)";
  "(?i)Dell; ((?:Streak|Venue)[^;/\)]*)";
  "(?i)Dell; ([^;/\)]+)";
  "(?i)Dell[ _-]([^/;]+) Build";
  "(?i)(DT0704K08|DT070[25]W08)(?:[);/ ]|$)";
  "(?i)(?:TAQ_10[4G]|TA[CDQ]-[0-9]+)|P(?:.+)TAQ-(?:[0-9]+)|SDQ[_-](?:550[24]4L|52001G|50002G|57004L)";
  "(?i)TAQ_(10[4G])";
  "(?i)P(?:.+)TAQ-(10213GMK2|10172MK3|10242MK2|70242MK2|[0-9]+)(?:[);/ ]|$)";
  "(?i)(TA[CDQ]-[0-9]+)";
  "(?i)SDQ[_-](550[24]4L|52001G|50002G|57004L)";
  "(?i)Desay[ _-]?([^;/)]+)(?: Build|[;)])";
  "(?i)Desay[ _-]?([^;/)]+)";
  "(?i)Dialog ?([^;/]+)(?: Build|[;)])|(?:M50E-1A)(?:[);/ ]|$)";
  "(?i)(M50E-1A)";
  "(?i)Dialog ?([^;/]+)(?: Build|[;)])";
  "(?i)DICAM-([a-z0-9]+)";
  "(?i)Digi[ _]([^);/]+)(?:[);/ ]|$)";
  "(?i)DIGICEL|(?:DL3(?:PlusPro)?|DL501)(?:[);/ ]|$)";
  "(?i)DL3(?:[);/ ]|$)";
  "(?i)DL(755|501)";
  "(?i)DIGICEL[ _]([^/);]+)(?: Build|[;)])";
  "(?i)(?:DS502|DS6018|DS6261)(?:[);/ ]|$)";
  "(?i)(DS502|DS6018|DS6261)(?:[);/ ]|$)";
  "(?i)DIGIHOME, ([a-z0-9_ -]+), (?:wired|wireless)";
  "(?i)(?:DL721-RB|DL(?:1016|1023|1025GH|1036|900[23]|[78]006|1008M|718M|703QR|702Q|5[05]03QL|1022QR|1010Q)|Compumax Blue)(?:[);/ ]|$)";
  "(?i)(DL5[05]03QL)";
  "(?i)DL(1010Q|1016|1025GH|1022QR|1023|1036|900[23]|[78]006|721-RB|718M|70[23]QR?)";
  "(?i)(Compumax Blue)";
  "(?i)Digit_|Digit4G|Digit(?:4G|play1|next_Ultra)|DIGIT (?:INFINITY|Glory1)";
  "(?i)Digitplay1(?:[);/ ]|$)";
  "(?i)Digitnext_Ultra(?:[);/ ]|$)";
  "(?i)Glory1(?:[);/ ]|$)";
  "(?i)INFINITY MAX(?:[);/ ]|$)";
  "(?i)INFINITY(?:[);/ ]|$)";
  "(?i)Energy Max(?:[);/ ]|$)";
  "(?i)Digit_Digit4G[_-](Bold|Defender|Elite|Music|Power|Shine|Star)_4G(?:[);/ ]|$)";
  "(?i)Digit_Digit4GLite_4G(?:[);/ ]|$)";
  "(?i)Digit_Digit4GPowerMAX_4G(?:[);/ ]|$)";
  "(?i)Digit4G[ _]E([234])[ _]pro(?:[);/ ]|$)";
  "(?i)Digit4G[ -](Energy|Pro)";
  "(?i)Digma[_ ]([^;/)]+)(?: Build|[;)])|iD[sr]Q\d+|DiMagic|HIT HT707[10]MG|CITI (?:7 E401 4G|8 E400 4G|ATL 4G|Kids|Octa [178]0|1902 3G|10 E402|Z530 3G|13 X703 4G)|(CITI[_ ](?:[A-Z0-9]+)[_ ][34]G)[ _][TC][ST](?:[0-9]{4}[PM][LG])|HIT 4G|HT7074ML|IDX5|(iDx10|iDx7)|MVM900H(?:WZ|C)|MVM908HCZ|(iDxD8 3G|iDxD10 3G|iDrQ10 3G|iDxD[45]|iDxQ5|iD[nx]D7(?:[_ ]3G)?)|PS604M|PT452E|Linx.+ [34]G L[TS][0-9]{4}[PM][GL]|Linx PS474S|PS1043MG|HT7071MG|HT5035PG|HT4039PG|NS6902QL|NS9797MG|TS7854M|TS1012E 3G|TT1004PG|TT702[045]MG|TT1002MG|TT7026MW|WS825[123]PL|VRL42|((?:Optima(?: Kids 7)?|Platina|Plane)[ _](?:[EM])?(?:[0-9\.ST]+|Prime)(?:[ _][43]G)?)|(VOX[ _](?:[0-9\.A-Z]+)[_ ][43]G)|DM-LED(?:5[05]UBB3[13]|32SBB33|43UBB3[13]|32SR21|4[03]SBB33|(?:32|40)SBB3[125]|43SR2[23]|42SR24|24SR20|55UR31|43SBB31|24SBB31|65UBB33)|RS1248PL|RS1253PL|RS1249PL|RS1267PL|WS125[01]PL|WS1262RW|HS1002PL|TS1292PL|HS100[134]PL|TS8289PL|Kids_8280C_WS8252PL|HS101[012]PL|DA6B8P01|TA3E0P01|TA2D0P01|TA1C8M01|TA2D0P02|TA3E[02]M01|TA2D0M01|TA3E1M01|TA3D1M01|TA3E1P02|TA2D1M01|TA2D1P01|TA3D(?:1P01|0P0[12]|0M01)|TA3E1P01|TA3E0P02|TA2D5P01|DA1C0P01|MS100[1-3]PL|TAXX5P0X";
  "(?i)HIT(?: 3G)? HT707[10]MG";
  "(?i)K10 (DA1C0P01)";
  "(?i)(TA3E0M01|TA2D0M01|TA3D0M01)";
  "(?i)(TAXX5P0X|TA2D5P02)";
  "(?i)(TA3E1P02)";
  "(?i)(TA3E2M01)";
  "(?i)(TA3D0P01|TA3E0P01|TA2D0P01)";
  "(?i)(TA3[DE]1M01|TA2D1M01)";
  "(?i)(TA1C8M01)";
  "(?i)(TA3D0P02|TA3E0P02)";
  "(?i)(TA2D5P01)";
  "(?i)(TA3E1P01|TA3D1P01|TA2D1P01)";
  "(?i)(TA2D0P02)";
  "(?i)(VOX[ _](?:[0-9\.A-Z]+)[_ ][43]G)";
  "(?i)Linx ([A-Z][0-9]{3}) 3G (?:LT4028PG|LS4019PG|LT4001PG|LT5001PG|LT4038PG|LT5037MG|LT4030PG)";
  "(?i)(Linx PS474S)";
  "(?i)(CITI Z530 3G)";
  "(?i)(CITI [A-Z0-9]+ [34]G) C[ST](?:606[32]ML|4024PG|5009PL|5021ML|502[56]PL)";
  "(?i)MS100[123]PL";
  "(?i)HIT 18 HS101[012]PL";
  "(?i)Pro STAR 14|AS8001PL";
  "(?i)HS100[13]PL";
  "(?i)MVM900H(?:WZ|C)";
  "(?i)(iD(?:xD10|rQ10|xD7)[_ ]3G)";
  "(?i)(iDx10|iDx7)";
  "(?i)(iDxD[45]|iDxQ5)";
  "(?i)PRO (1[46]00E 4G)";
  "(?i)DIGMA[_ ]IDSD";
  "(?i)CITI[_ ](1902 3G|Kids(?:[_ ](?:8[01]|10))?|8527_4G|8269C 3G|Octa [178]0|10 E402 4G|8 E400 4G|7 E401 4G|13 X703 4G|131[23]C 4G|8443E 4G|1314C 4G|1421D 4G)";
  "(?i)(?:Kids_8280C_)?WS8252PL";
  "(?i)(CITI[ _](?:[A-Z0-9]+)[ _][34]G)[ _][TC][ST](?:106[24]ML|111[46]ML|1115MG|1117PG|1207MG|1210MG|3001ML|500[67]PG|7052PG|706[567]MG|7097MG|720[48]MG|820[69]MG|11[459]4MG|1195MG|1196ML|3001ML|8152ML|1050PL|709[68]PL|7113PL|7193MG|7216MG|8205PG|7203MG|8143MG|7153MG|7141MG|7140ML|8268PL)";
  "(?i)(iDnD7)";
  "(?i)Optima ([0-9]+ [AXZE][0-9]+[SC]?) ([43])G";
  "(?i)Optima ([0-9]+ A500S) 3G";
  "(?i)iD([sr])Q(\d+)[_ ]3G";
  "(?i)iD([sr])Q(\d+)";
  "(?i)((?:Optima|Platina|Plane)[ _](?:[EM])?(?:[0-9\.BSTNMEVCD]+|Prime(?:[ _][345])?)(?:[ _][43]G)?)";
  "(?i)Digma[_ ]([^;/]+) Build";
  "(?i)DiMagic Cube ([^;/)]+)(?: Build|[;)])";
  "(?i)VRL42(?:[);/ ]|$)";
  "(?i)DM-LED(\d+(?:[SU]R|[SU]BB)\d+)(?:[);/ ]|$)";
  "(?i)Dynalink TV BOX(?:[);/ ]|$)";
  "(?i)DX_TA_?(7001|SL83)(?:[);/ ]|$)";
  "(?i)(?:MARVEL|FROZEN|Toy_story)(?:[);/ ]|$)";
  "(?i)(MARVEL|FROZEN)";
  "(?i)(M1092R(?:-[12]|V[45])?)(?:[);/ ]|$)";
  "(?i)(QC-(?:703GN|704GA|803GN|1013G|7BHD)|QC7704GM|T10K_Plus)(?:[);/ ]|$)";
  "(?i)DiverMax SpeedBox 3 SB1800(?:[);/ ]|$)";
  "(?i)(?:Divisat|X-MEDIA|DVS X3|OPTIMA_T-II|J-LINK II)(?:[);/ ]|$)";
  "(?i)(?:DVS )?(J-Link|X3)(?:[);/ ]|$)";
  "(?i)X-MEDIA(?:[);/ ]|$)";
  "(?i)OPTIMA_T-II(?:[);/ ]|$)";
  "(?i)DoCoMo|\;FOMA|KGT/1\.0";
  "(?i)DoCoMo/.+MST.+(SH2101V)";
  "(?i)DoCoMo/[12]\.0[/ ]([a-z0-9]+)";
  "(?i)([a-z0-9]+)(?:_W)?\;FOMA";
  "(?i)KGT/1\.0 ([a-z0-9]+)";
  "(?i)(24DHS54|32GHS5[67]|40KFS57|32KHS57|43KUS65|24[KG]HS57|24GHS55|50KUS65|40GHS57|43GUS65|55KUS65|65KUS65|42GFS56)(?:[);/ ]|$)";
  "(?i)Dolamee[_ -](D[56])(?:[);/ ]|$)";
  "(?i)(Movix Pro(?: Voice)?|Movix Go)(?:[);/ ]|$)";
  "(?i)DOOGEE[/ _-]|Valencia2_Y100(?:_?(?:pro|plus))?|Y100_Plus|X5max(?:[_ ]PRO)?|Shoot_[12]|x5_doogee|(KISSME|BIGBOY|COLLO[23]?|DAGGER|DISCOVERY2?|FIND|HOTWIND|LATTE|MAX|MINT|MOON|PIXELS|RAINBOX|TURBO|VALENCIA|VOYAGER2?|TITANS2?)[ -_](DG[0-9]+C?)(?:[);/ ]|$)|(?:BL12000|BL5500[_ ]Lite| Y6C|X9 Mini|LEO_DG280|Y9Plus|Y8 Plus|Hitman_DG850|S(?:4[01]|[568]8|9[05678]|59|61|8[69])Pro|X9[567]Pro|S[478]0Lite|S88Plus|BL[579]000|N[24]0Pro| S118|S90C|Ibiza_F2|S55_Lite|T5_Lite|S60 ?Lite|Iron-bone DG750|X10S|X[569]0L|MIX2|Y6 Max|Y6_Piano(?:_black)?|S100Pro|X[679]pro|V20Pro|V40 Pro|S96GT|android 10(?:[\d.]*);(?: [\w-]+;)? (?:S59|S35|X95i?|X93|N30)|android 12(?:[\d.]*);(?: [\w-]+;)? (?:S98|S61|S89|V Max|S100|V30T?|S51)|V Max Plus|Y7Plus|S35T|V31GT|Smini|T[23]0Ultra|T10E|[TV]20S|V30Pro|android 14(?:[\d.]*);(?: [\w-]+;)? (?:N55|Fire 6)|android 13(?:[\d.]*);(?: [\w-]+;)? (?:R[12]0)|android 15(?:[\d.]*);(?: [\w-]+;)? (?:Fire 3(?: Pro| Ultra)?)|Android 9(?:[\d.]*);(?: [\w-]+;)? (?:N100|N20|Y8|S95)|S41T|N50S|D60 Pro|DK10|Turbo_mini_F1|Y100X|T30Pro|T10S|T10Plus|T10Pro|T20Mini|S41 Max|V Max S|S41 Plus|N55 Pro|N55 Plus|S punk|S cyber|Blade20(?: (?:Turbo|Pro|Max|Play))?|Blade GT|Blade10(?: Ultra|Pro)?|V Max (?:Pro|Play)|T30 Max|S200|S200 X|Note 5[89]|Note56 Plus|Note58 Pro|Note59 Pro\+|S119|U10 Kid|Fire 7|Fire 5 Pro)(?:[);/ ]|$)";
  "(?i)T([13]0)Pro(?:[);/ ]|$)";
  "(?i)R([12]0)(?:[);/ ]|$)";
  "(?i)T([12]0)S(?:[);/ ]|$)";
  "(?i)T10E(?:[);/ ]|$)";
  "(?i)T10Plus(?:[);/ ]|$)";
  "(?i)T20Mini Kid(?:[);/ ]|$)";
  "(?i)T([23]0)Ultra(?:[);/ ]|$)";
  "(?i)T20Mini ?Pro";
  "(?i)Blade([12]0) Ultra";
  "(?i)Blade([12]0) Max";
  "(?i)Blade([12]0)";
  "(?i)Fire ([35]) Pro";
  "(?i)Fire ([36]) Max";
  "(?i)Fire ([367])";
  "(?i)(?:Valencia2_)?Y100_Plus(?:[);/ ]|$)";
  "(?i)Valencia2[_ ]Y100pro";
  "(?i)Valencia2_Y100(?:[);/ ]|$)";
  "(?i)LEO_(DG280)";
  "(?i)Iron-bone (DG750)";
  "(?i)(X95i?|BL[579]000|S90C|X10S|X[569]0L|X93|V30T?|V31GT|V20S|DK10|S200 X|S119)(?:[);/ ]|$)";
  "(?i)X(9[567])Pro";
  "(?i)V30Pro(?:[);/ ]|$)";
  "(?i)N([24]0|55) ?Pro";
  "(?i)Note59 Pro\+";
  "(?i)Note (5[89])";
  "(?i)N(50)S(?:[);/ ]|$)";
  "(?i)BL5500[_ ]Lite";
  "(?i)S([568]8|9[05678]|59|61|4[01]|8[69]|[12]00|118) ?Pro";
  "(?i)S(88|41|200) ?Plus";
  "(?i)S([4-8]0|55)[_ ]?Lite";
  "(?i)Doogee X5MP|x5MaxPro";
  "(?i)Shoot_([12])";
  "(?i)(?:Doogee[_ ])?X([679])[_ ]?pro";
  "(?i)Y([89]) ?Plus(?:[);/ ]|$)";
  "(?i)(S5[19]|S35T?|S9[58]|S89|Y8|Y6C|S61|N[23]0|[NS]100|S118|S41T|N55|S200)(?:[);/ ]|$)";
  "(?i)(X5max(?:[_ ]PRO)?)";
  "(?i)(?:DOOGEE[ _-])?(BIGBOY|COLLO[23]?|DAGGER|DISCOVERY2?|FIND|HOTWIND|LATTE|MAX|MINT|MOON|PIXELS|RAINBOX|TURBO|VALENCIA|Valencia2_Y100pro|VOYAGER2?|TITANS2?)[ -_](DG[0-9]+C?)(?:[);/ ]|$)";
  "(?i)DOOGEE[ _-]([^);/]+) Build";
  "(?i)DOOGEE[ _-]([^);/]+)(?:[);/ ]|$)";
  "(?i)MIX2(?:[);/ ]|$)";
  "(?i)Doopro P3(?:[);/ ]|$)";
  "(?i)(?:Doov-)?Doov[ _]| (?:20200308|20190808)(?:[);/ ]|$)";
  "(?i)20200308(?:[);/ ]|$)";
  "(?i)20190808(?:[);/ ]|$)";
  "(?i)(?:Doov-)?Doov[ _]([^;/]+) Build";
  "(?i)(?:Doov-)?Doov[ _]([^);/]+)(?:[);/ ]|$)";
  "(?i)Dopod(?: )?([a-z0-9]+)";
  "(?i)Doppio[ _]";
  "(?i)Doppio DP355(?:[);/ ]|$)";
  "(?i)Doppio_TEXTER_3G(?:[);/ ]|$)";
  "(?i)Doppio ([0-9a-z]+)";
  "(?i)(65DYW60)(?:[);/ ]|$)";
  "(?i)Doro|DSB-02[23]0";
  "(?i)DSB-0230(?:[);/ ]|$)";
  "(?i)Doro[_ ]8020x(?:[);/ ]|$)";
  "(?i)DSB-0220(?:[);/ ]|$)";
  "(?i)Doro[ _-]?([^;/)]+)(?: Build|[;)])";
  "(?i)Doro[ _-]([0-9a-z]+)";
  "(?i)(?:Notepad[_ ](?:K10|102|Y80)|MAX 10|T12M_EEA|Y88X__PLUS)(?:[);/ ]|$)";
  "(?i)Notepad[_ ](K10|102|Y80)";
  "(?i)DREAMSTAR([^/;)]+)(?: Build|[);])";
  "(?i)Sens 5(?:[);/ ]|$)";
  "(?i)Sens 5(?:[);/ ]|$)";
  "(?i)(i96 Pro)(?:[);/ ]|$)";
  "(?i)DROXIO (C40|A47|B45|KENTIA)(?:[);/ ]|$)";
  "(?i)Dtac[_ ]?Phone[_ ]?([^/;)]+)(?: Build|[);])";
  "(?i)DuneHD|SOLO 4K(?:[);/ ]|$)";
  "(?i)SOLO 4K(?:[);/ ]|$)";
  "(?i)DuneHD/\d\.\d \([a-z]+__([a-z0-9_-]+);";
  "(?i)DuneHD/\d\.\d \(([a-z0-9_-]+);";
  "(?i)(Diamond R8)(?:[);/ ]|$)";
  "(?i)Duubee[ _]([^/;)]+)(?: Build|[);])";
  "(?i)Sternenschein (G-\d{2})(?:[);/ ]|$)";
  "(?i)DYON[;, ]";
  "(?i)E-Boda|Eclipse_(?:G400M|G500)|Revo R77 GPS";
  "(?i)E-Boda ((?:Revo|Izzycomm(?: Z80)?|Essential|Intelligence|Supreme)[^/);]+)(?: Build|[;)])";
  "(?i)Eclipse_(G400M|G500)";
  "(?i)E-Boda ([^/);]+)(?: Build|[;)])";
  "(?i)(?:CT9716(?:-B)?)(?:[);/ ]|$)";
  "(?i)CT9716(?:[);/ ]|$)";
  "(?i)CT9716-B(?:[);/ ]|$)";
  "(?i)(?:A5SLIM)(?:[);/ ]|$)";
  "(?i)E-tel[-_ ](?:i2[45]0|i300|i7c|N[67]|Q4|O9)";
  "(?i)E-tel[-_ ]i(7c|\d+)";
  "(?i)E-tel[-_ ]N([67])";
  "(?i)E-tel[-_ ]O9";
  "(?i)E-tel[-_ ]Q4";
  "(?i)EBEN[ _]([^/;)]+)(?: Build|[);])";
  "(?i)EBEST[ _-]?([^;/)]+) Build";
  "(?i)EBEST[ _-]?([^;/)]+)(?:[);/ ]|$)";
  "(?i)(EX-32HS01[67]B|EX-32HS006B|EX-39HS004B|EX-50US003B|EX-60US001B|EX-40FS001W)";
  "(?i)ECOO[ _]E0[45]";
  "(?i)ECOO[ _]E04[ _]3GB\+|Ecoo E04_PLUS";
  "(?i)ECOO[ _]E04[ _]3GB";
  "(?i)ECOO[ _](E0[45])";
  "(?i)(?:TA10CA3|TM105A?|TR10[CR]S1|TF10EA2|TR10CS2)(?:[);/ ]|$)";
  "(?i)TA10CA3(?:[);/ ]|$)";
  "(?i)(TR10[CR]S1|TF10EA2|TR10CS2)(?:[);/ ]|$)"
].
Definition d_dr_re0_11 : list blob := [
  "(?i)TM105A(?:[);/ ]|$)";
  "(?i)TM105(?:[);/ ]|$)";
  "(?i)(?:Harrier(?: Tab)?|Hawk|Rook)[_ ]from[_ ]EE";
  "(?i)(Harrier Tab)[_ ]from[_ ]EE";
  "(?i)Rook[_ ]from[_ ]EE";
  "(?i)(Harrier|Hawk)[_ ]from[_ ]EE";
  "(?i)EFT_(H[234])(?:[);/ ]|$)";
  "(?i)(EGO1003)(?:[);/ ]|$)";
  "(?i)EKO|Star (?:\d\.\d) (?:G65|G5[05]|G40)|(?:K55USW)(?:[);/ ]|$)";
  "(?i)(K55USW)";
  "(?i)Star (\d\.\d) (G65|G5[05]|G40)";
  "(?i)EKO[ _-]?([^;/)]+) Build";
  "(?i)EKO[ _-]?([^;/)]+)(?:[);/ ]|$)";
  "(?i)EK-(?:5040|5336|5540|5937|6020|8680|MII|T7020)";
  "(?i)EK-(MII|T7020)";
  "(?i)EK-(5040|5336|5540|5937|6020|8680)";
  "(?i)ELARI|(?:KidPhone4G)(?:[);/ ]|$)";
  "(?i)ELE-GATE(?:[);/ ]|$)";
  "(?i)(M1045W|PIXBA2019)(?:[);/ ]|$)";
  "(?i)(?:android 8(?:[\d.]*);(?: [\w-]+;)? E4Pro|VT8216)(?:[);/ ]|$)";
  "(?i)(VT8216)";
  "(?i)(ELT070[46]H|ELT0802H)(?:[);/ ]|$)";
  "(?i)SDMC D1221(?:[);/ ]|$)";
  "(?i)EUROLUX[;,)]";
  "(?i)EUROLUX, ?([a-z0-9_ -]+), ?(?:wired|wireless)";
  "(?i)(?:EVBOX-PLUS\+|EVPAD-[35]S|EVPAD-PRO-MAX)(?:[);/ ]|$)";
  "(?i)EVBOX-PLUS\+";
  "(?i)EVPAD-([35]S)";
  "(?i)(?:OCTA T720Q|OCTA-T700M-T2)(?:[);/ ]|$)";
  "(?i)(EX7SL?4|EX7X4|EX10S4|EX7W1 Plus|EX8S1)(?:[);/ ]|$)";
  "(?i)(?:Tablet)?EXO_|(?:Wave[_-]i101[GLRS]|Wave[_ ]i007[BT]?|Wave i101[Hb]|Wave i007Kids)(?:[);/ ]|$)";
  "(?i)Wave i007Kids(?:[);/ ]|$)";
  "(?i)(?:Tablet)?(?:EXO_)?(Wave[_-]i101[GLRS]|Wave[_ ]i007[BT]?|Wave i101[Hb])(?:[);/ ]|$)";
  "(?i)EYU[ _-](T53|T7)(?:[);/ ]|$)";
  "(?i)Eagle[ _](Classic Pro|Elite|Gold)(?:[);/ ]|$)";
  "(?i)(EE10A|Z-F1010)";
  "(?i)EasyPad|EasyPhone";
  "(?i)(EasyPhone[^/;]+) Build";
  "(?i)EasyPad ([^/;)]+)(?: Build|[;)])";
  "(?i)ECHO[ _](HOLI|HORIZON|MAX|MOSS|NOTE|POWER|SMART|DUNE|JAVA|FUSION|PUSH|PRISM|STUDIO)|(?:HORIZON_M|Stellar [34]G|FEELING|MOON|LOOK)(?:[);/ ]|$)";
  "(?i)(HORIZON_M|FEELING|MOON|LOOK)(?:[);/ ]|$)";
  "(?i)STELLAR ([34])G";
  "(?i)ECHO[ _](HOLI|MAX|MOSS|NOTE|POWER|SMART|DUNE|JAVA|FUSION|PUSH|PRISM|STUDIO)";
  "(?i)(?:EcostarTV)(?:[);/ ]|$)";
  "(?i)(Rocky_MT1)( Build|[);])";
  "(?i)EDENWOOD[;,]";
  "(?i)_TV_[A-Z0-9]+_([0-9]{4});";
  "(?i)SmartTV;";
  "(?i)Ehlel[_ ]";
  "(?i)Einstein(T3)(?:[);/ ]|$)";
  "(?i)(?:S5[UL]S|X4UPlus|S45U)(?:[);/ ]|$)";
  "(?i)(S5[UL]S|S45U)";
  "(?i)Meeplus_1(?:[);/ ]|$)";
  "(?i)electroneum(M1)(?:[);/ ]|$)";
  "(?i)ELED-(?:4[238]S[AM]{2}RT|5[05](?:CV_)?SMART_UHD|32SMART)(?:[);/ ]|$)";
  "(?i)ELED-(4[238])S[AM]{2}RT(?:[);/ ]|$)";
  "(?i)ELED-55CV_SMART_UHD(?:[);/ ]|$)";
  "(?i)ELED-(50)SMART_UHD(?:[);/ ]|$)";
  "(?i)ELED-(32)SMART(?:[);/ ]|$)";
  "(?i)(?:smarttv_)?AFTRS";
  "(?i)(?:TAB(?:101|728)[ _]3G|TAB7(?:[03]8|16|40|3[30])|STB0819)(?:[);/ ]|$)";
  "(?i)(STB0819)";
  "(?i)(TAB(?:101|728)[ _]3G|TAB7(?:[03]8|16|40|3[30]))";
  "(?i)Elephone|Vowney(?: Lite)?|P6000( ?Pro| ?Plus|\+| ?02| 5.0 01)?|Soldier|C1_Max|(?:Trunk 1|P8_3D|P8_Max|P8_Mini|A6_mini|P9000(?:_Lite)?|Android 9(?:[\d.]*);(?: [\w-]+;)? PX|PX_Pro| U3H|U_Pro|Android 10(?:[\d.]*);(?: [\w-]+;)? (?:E10_Pro|E10))(?:[);/ ]|$)";
  "(?i)(?:Elephone[_ ])?Trunk(?: 1)?(?:[);/ ]|$)";
  "(?i)Vowney Lite(?:[);/ ]|$)";
  "(?i)Vowney(?:[);/ ]|$)";
  "(?i)P6000(\+| ?Plus)(?:[);/ ]|$)";
  "(?i)P6000 02(?:[);/ ]|$)";
  "(?i)P6000 5\.0 01(?:[);/ ]|$)";
  "(?i)P6000 ?Pro(?:[);/ ]|$)";
  "(?i)P(\d+)[_ ]Lite(?:[);/ ]|$)";
  "(?i)Soldier(?:[);/ ]|$)";
  "(?i)A6_mini(?:[);/ ]|$)";
  "(?i)P8_Mini(?:[);/ ]|$)";
  "(?i)(U|PX|E10)_Pro(?:[);/ ]|$)";
  "(?i)U3H(?:[);/ ]|$)";
  "(?i)C1_Max(?:[);/ ]|$)";
  "(?i)PX(?: Build|[;)])";
  "(?i)(P8_3D|P8_Max)(?:[);/ ]|$)";
  "(?i)(?:Elephone[ _])?(P[7689]000|S2)(?:[);/ ]|$)";
  "(?i)Elephone[ _-]([^/;]+)(?: Build|[;)])";
  "(?i)(?:LUNA (V57|V55A|G58|G62|G60X)|V55C|G55 LITE)(?:[);/ ]|$)";
  "(?i)(V55C)";
  "(?i)(G55)[_ ]LITE";
  "(?i)LUNA (V57|V55A|G58|G62|G60X)";
  "(?i)(B50UHD4EKC)(?:[);/ ]|$)";
  "(?i) (6CS)(?:[);/ ]|$)";
  "(?i)(?:NV5(?:01|10)WAC|NV501|NV731|NV[57]10WB|NV72[01]WB|NV711WAC|NV73[01]WB)(?:[);/ ]|$)";
  "(?i)NV(501|510|711)WAC(?:[);/ ]|$)";
  "(?i)NV(501|731)(?:[);/ ]|$)";
  "(?i)NV(\d{3})WB(?:[);/ ]|$)";
  "(?i)(EGQ101)(?:[);/ ]|$)";
  "(?i)emporia[_ ]|(?:Android 9(?:[\d.]*);(?: [\w-]+;)? S3mini|Android 13(?:[\d.]*);(?: [\w-]+;)? E5mini)(?:[);/ ]|$)";
  "(?i)emporia[_ ]([^/;)]+)(?: Build|[);])";
  "(?i)Energizer_|Energizer[ _](?:Energy|Ultimate|Power Max|Hard ?case)|PowerMax|HARDCASEH5[05]0S|ENERGY[_ ]?(?:[45]00|400S|S[56]00|E12|E5[02]0S?)(?:[_ ](?:LTE|EU))?";
  "(?i)Power ?Max ?(P[0-9]+S?)";
  "(?i)ENERGY[_ ]([45]00|E520)[_ ]LTE";
  "(?i)ENERGY[_ ]400S";
  "(?i)ENERGY[_ ]S([56]00|550)";
  "(?i)ENERGY[_ ]?(E500S|E500|E12)";
  "(?i)HARD ?CASE ?(H5[057]0S|G5)";
  "(?i)Energizer_(E24[12]S|E280S|E282SC|H280A|E241)(?:_(?:4G|512))?(?:[);/ ]|$)";
  "(?i)ENERGY[ _-]?([^;/)]+)(?: Build|[;)])";
  "(?i)Energy Phone ([^;/)]+)(?: Build|[;)])";
  "(?i)Energy Tablet ([^;/)]+)(?: Build|[;)])";
  "(?i)ENERGY[ _-]?([^;/]+) Build";
  "(?i)(EN1007Q)plus(?:[);/ ]|$)";
  "(?i)Enot[ _-](E102|J101)(?:[);/ ]|$)";
  "(?i)ENT11QF12(?:[);/ ]|$)";
  "(?i)(?:ClickTabDSh18)(?:[);/ ]|$)";
  "(?i)(?:EP19_star|EP19)(?:[);/ ]|$)";
  "(?i)(ePad 7i)(?:[);/ ]|$)";
  "(?i)(K501 Plus|[ ]K5(?:0[0-4]|1[01]|03[TS]|3[456]|4[05]|73|03HD)|[ ]K60[01]|[ ]X507T|[ ]K40[56]|[ ]T700|Android 8([\d.]*);(?: [\w-]+;)? X400|RS550)(?:[);/ ]|$)";
  "(?i)(AN-232)(?:[);/ ]|$)";
  "(?i)(?:Projector|STI6110)(?:[);/ ]|$)";
  "(?i)Axis(?:[);/ ]|$)";
  "(?i)ERGO|(V550[_ ]Vision|B502 Basic|B504[_ ]Unit|A502[_ ]Aurum|A503[ _]Optima|Prime B400|A551 Sky 4G|A553 Power|A555 Universe|Force F500|GoTab GBT9|GoTab Gti8|F501_Magic|V551[ _]Aura|V540_Level|V570_BIG_BEN|B506[_ ]INTRO|A503-Optima|B505_Unit_4G|LE32CT5515AK)";
  "(?i)B506[_ ]INTRO";
  "(?i)V550[_ ]Vision";
  "(?i)B504[_ ]Unit";
  "(?i)V551[ _]Aura";
  "(?i)(ERGO_)?A500[ _]Best";
  "(?i)(ERGO_)?A550[ _]Maxx";
  "(?i)A502[_ ]Aurum";
  "(?i)A503[ _]Optima";
  "(?i)ERGO[_ ]A556";
  "(?i)ERGO[_ ]F500";
  "(?i)ERGO[_ ]F501";
  "(?i)ERGO[_ ]Tab[ _]Crystal[ _]Lite";
  "(?i)ERGO[_ ]Tab[ _]Hero[ _]II";
  "(?i)ERGO[_ ](B700)";
  "(?i)(LE32CT5515AK)";
  "(?i)(?:Ericsson(?:/ )?[a-z0-9]+)|(?:R380 2\.0 WAP1\.1)|Ericy-([a-z0-9]+)";
  "(?i)Ericsson(?:/ )?([a-z0-9]+)";
  "(?i)R380 2\.0 WAP1\.1";
  "(?i)Ericy-([a-z0-9]+)";
  "(?i)(24LM8002CT2|65ULES910T2SM|42FLEA73T2SM|40FLES900T2SM|42FLES901T2SM|43FLES90[0125]T2SM|42FLX9060T2|32LX9000CT|39LES80T2SM|32LX9051T2|43ULX9060T2|32LX9050T2|32LES905T2SM|55ULES92T2SM|55ULES901T2SM|55ULX9005T2|32LEA73T2SM|32LES90[24]T2SM|40FLX9000CT2|40FLES901T2SM|42FLES904T2SM|32LES90[136]T2SM)(?:[);/ ]|$)";
  "(?i)PH-1(?:[);/ ]|$)";
  "(?i)ESSENTIEL B[;,]|(?:Wooze[_ ]?(?:I55?|I45|X?L)|HEYOU(?:[135]|20PLUS|[1-7]0))(?:[);/ ]|$)";
  "(?i)HEYOU20PLUS(?:[);/ ]|$)";
  "(?i)HEYOU([135]|[1-7]0)(?:[);/ ]|$)";
  "(?i)Wooze[_ ]?((?:I55?|I45|X?L))(?:[);/ ]|$)";
  "(?i)ESSENTIEL B,([a-z0-9_ -]+),(?:wired|wireless)";
  "(?i)Eton[ _-]?([^;/)]+) Build";
  "(?i)Eton[ _-]?([^;/)]+)(?:[);/ ]|$)";
  "(?i)(ETL-S(?:3520|4521|5042|5084|6022)|ETL-T(?:752G|850|882G|9[78]0))(?:[);/ ]|$)";
  "(?i)(ETL-S(?:[^/); ]+))";
  "(?i)(ETL-T(?:[^/); ]+))";
  "(?i)(?:E65 Pro)(?:[);/ ]|$)";
  "(?i)(EUTB_758G?)";
  "(?i)(ET7002C-H12|ET8183GQ-HM15|ET7184GQ-B15|ET7183GQ-H16|Onyx-[13]S|T40SG?LED-A1[45])(?:[);/ ]|$)";
  "(?i)Onyx-([13]S)";
  "(?i)(ET8183GQ-HM15|ET7184GQ-B15|ET7183GQ-H16)";
  "(?i)(T40SG?LED-A1[45])";
  "(?i)EVERCOSS[ _]|(U6 PRIME|A75A\*|AT8B|U50A_PLUS|M50 (?:MAX|STAR)|A75 MAX|M55[ABC]|M50A|R40K|R70A|7.*; (?:R70|R5C)|S55[AB]|U70[CB])(?:[);/ ]|$)";
  "(?i)A75A\*(?:[);/ ]|$)";
  "(?i)(A75|M50A) MAX*(?:[);/ ]|$)";
  "(?i)U50A_PLUS(?:[);/ ]|$)";
  "(?i)M50 STAR(?:[);/ ]|$)";
  "(?i)M50 MAX(?:[);/ ]|$)";
  "(?i)(M50A|R40K|R70|R5C|S55[AB]|M55[ABC])(?:[);/ ]|$)";
  "(?i)(AT8B|R70A|U70[CB])(?:[);/ ]|$)";
  "(?i)EVERCOSS[ _](A7[BRLZ]|A65|A74A|A5Z)(?:[);/ ]|$)";
  "(?i)(?:DC-(?:1032|121[56]|110[24]|1028|1545|70[59]|71[48]|85[56]|8015|971[45])|(?:EVERPAD )?DC-709|DC-9712-8)(?:[);/ ]|$)";
  "(?i)DC-(1032|1028|121[56]|110[24]|1545|70[59]|71[48]|8015|85[56]|971[45]|9712)";
  "(?i)Fine 7B(?:[);/ ]|$)";
  "(?i)(32EVF5000S)(?:[);/ ]|$)";
  "(?i)(E011[1346-9]|E0120)(?:[);/ ]|$)";
  "(?i)(Ever(?:Allure|Glory|Shine|Miracle|Mellow|Classic|Trendy|Fancy|Vivid|Slim|Glow|Magic|Solo|Smart|Star)[^/);]*)(?: Build|[;)])|(?:E70[25]0HD|E805[01]HD|E9054HD|E8050HG|E1014HG|E7224HG|E7914HG|V5_Nano|M10\+Max|M10 Nano|V4 Nano| V4\+)(?:[);/ ]|$)";
  "(?i)(E70[25]0HD|E805[01]HD|E9054HD|E8050HG|E7914HG|E7224HG|E1014HG)";
  "(?i)(M10|V[45])[_ ]Nano";
  "(?i)M10\+Max";
  "(?i)V4\+";
  "(?i)EverTrendy\+4G";
  "(?i)Ever(Shine|Allure|Glory) ?II";
  "(?i)(Ever(?:Allure|Glory|Shine|Miracle|Mellow|Classic|Trendy|Fancy|Vivid|Slim|Glow|Magic|Solo|Smart|Star)[^/);]*)(?: Build|[;)])";
  "(?i)Evolio|M4MAGIC";
  "(?i)Evolio[ _](M6|S4 Cobalt|S5|X10|Yuppi)";
  "(?i)EVOLVEO|StrongPhone";
  "(?i)EVOLVEO Android Box (H[48])";
  "(?i)Smart TV ([^;/]*) Build";
  "(?i)EVOLVEO StrongPhone G(\d)";
  "(?i)(?:EVOLVEO[ _])?StrongPhone[ _]?Q([679])(_LTE)?";
  "(?i)EVOLVEO[ _]([^;/]*) Build";
  "(?i)(EVM4G3|EVM4G6|EVMFV2)(?:[);/ ]|$)";
  "(?i)EVROMEDIA|Playpad[ _]|PLAY_PAD_PRO_XL|3G NOTE XL";
  "(?i)(?:EX(?:29|45)i|CHAT_5\+)(?:[);/ ]|$)";
  "(?i)CHAT_5+";
  "(?i)EX(29|45)i(?:[);/ ]|$)";
  "(?i)(SMB-H8009)(?:[);/ ]|$)";
  "(?i)Exmart[ _](K1)(?:[);/ ]|$)";
  "(?i)Explay|[\w]+-EXPLAY-FIN|ActiveD[ _]|Atlant |Informer[ _][0-9]+|CinemaTV 3G|Surfer[ _][0-9.]|Surfer7773G|sQuad[ _][0-9.]|Onliner[1-4]|RioPlay|Leader|Pulsar|Infinityll|Joy_TV|Imperium[78]|Winner[78]|Indigo|Lagoon|Tornado(?:3G)?|Onyx(?:[);/ ]|$)|android 4([\d.]*);(?: [\w-]+;)? Discovery.+Safari/|Party|Scream 3G|A350 TV";
  "(?i)ActiveD[ _]7\.4[ _]3G";
  "(?i)Imperium([78])(?:[);/ ]|$)";
  "(?i)ActiveD[ _]8\.2[ _]3G";
  "(?i)CinemaTV[ _]3G";
  "(?i)Informer[ _]([0-9]+(?:[ _]3G)?)";
  "(?i)Surfer[ _]([0-9.]+(?:[ _]3G)?)";
  "(?i)Surfer([0-9.]+)[ _]?3G"
].
Definition d_dr_re0_12 : list blob := [
  "(?i)sQuad[ _]([0-9.]+(?:[ _]3G)?)";
  "(?i)Onliner([1-4])";
  "(?i)Winner([78])";
  "(?i)Discovery(?:[);/ ]|$)";
  "(?i)Atlant(?:[);/ ]|$)";
  "(?i)Indigo(?:[);/ ]|$)";
  "(?i)Pulsar(?:[);/ ]|$)";
  "(?i)Tornado(?:3G)?(?:[);/ ]|$)";
  "(?i)Onyx(?:[);/ ]|$)";
  "(?i)Fresh(?:[);/ ]|$)";
  "(?i)Joy_TV(?:[);/ ]|$)";
  "(?i)[\w]+-EXPLAY-FIN";
  "(?i)Lagoon(?:[);/ ]|$)";
  "(?i)A350 TV(?:[);/ ]|$)";
  "(?i)Party(?:[);/ ]|$)";
  "(?i)Explay[ _-]([^;/]+)(?: Build|[;)])";
  "(?i)RioPlay(?:[);/ ]|$)";
  "(?i)ESP-300(?:[);/ ]|$)";
  "(?i)Rock[ _]X[89]+|ROCK_X11";
  "(?i)Rock[ _]X([89])\+";
  "(?i)EZIO-([a-z0-9]+)";
  "(?i)EZZE-|EZ[a-z0-9]+";
  "(?i)EZZE-([a-z0-9]+)";
  "(?i)EZ([a-z0-9]+)";
  "(?i)(?:(?:SH6[05]|SA50|SP65)_(?:2[13]|66)\d{3}|H166|R570E|P670|LifeTabPlus|(?:SH6[05]|SA55) \dGB/\d{2}GB \d{4}mAh [HG]MS)(?:[);/ ]|$)";
  "(?i)SH(6[05]) 2GB";
  "(?i)(H166|P670|R570E)(?:[);/ ]|$)";
  "(?i)(SH6[05]|SA50|SP65)_(?:2[13]|66)\d{3}";
  "(?i)(?:Bison2021|B2021|[HR]2022|Air1 Pro| Air1| B[12] Pro|(?:B2|Air2) Ultra|Action (?:A5|15)Pro|Action 15|Raptor (?:5G|LTD)|Android 12(?:[\d.]*);(?: [\w-]+;)? (?:B1)|Android 1[34](?:[\d.]*);(?: [\w-]+;)? (?:Raptor|B2))(?:[);/ ]|$)";
  "(?i)Action (A5|15)Pro";
  "(?i)([HR]2022|Air1 (?:Ultra Pro|Ultra\+?|Pro)|Air1|B[12] Pro|Air2 Ultra|Action 15)(?:[);/ ]|$)";
  "(?i)(?:Bison2021|B2021)(?:[);/ ]|$)";
  "(?i)(B[12])(?: Build|[;)])";
  "(?i)(?:Z8PLUS|Z8POCKET|LT5216|F80s_plus|C8Finger|F80 PIABELLA|i8_ROKR|LT1[68])(?:[);/ ]|$)";
  "(?i)(LT5216|LT1[68])(?:[);/ ]|$)";
  "(?i)(K11[038]|D118)_EEA(?:[);/ ]|$)";
  "(?i)(?:FFFTAB10a4)(?:[);/ ]|$)";
  "(?i)(?:FX4423)(?:[);/ ]|$)";
  "(?i)Fise_32433_3G(?:[);/ ]|$)";
  "(?i)OPTIMUM (500[1-4]|5501)";
  "(?i)UNICUM (1002|8S|8003)";
  "(?i)(Y121-EEA)(?:[);/ ]|$)";
  "(?i)(?:16M4HI105024|FMT-NM7058-02|FXT113R|176HS1050(?:232|531)|175WT1050231|175HS1050231|175FT1050241|Global3 B01|FunPad-8Max)(?:[);/ ]|$)";
  "(?i)(FXT113R)";
  "(?i)ConeXis (A[12]|X[12])|SP5045V";
  "(?i)(?:ifive[_ ]?(?:mini[_ ][43]G?S|X2|Mini3|3|Air|Pro 2))(?:[);/ ]|$)";
  "(?i)ifive[_ ]mini[_ ]([43]G?S)";
  "(?i)ifive(X2|3)";
  "(?i)ifive ?Air";
  "(?i)(FT1000|FT800)(?:[);/ ]|$)";
  "(?i)FOODO[ _-](X10)(?:[);/ ]|$)";
  "(?i)FORME[ _-]";
  "(?i)FORME[ _-]F520(?:[);/ ]|$)";
  "(?i)FORME[ _-](A[35]7|R7S?|P6)(?:[);/ ]|$)";
  "(?i)(?:android 1[23](?:[\d.]*);(?: [\w-]+;)? (?:F10[12])|android 1[34](?:[\d.]*);(?: [\w-]+;)? (?:F105|S3 Pro)|F10[167] Pro|F101 P|DT[12]|F109|F112 Pro)(?:[);/ ]|$)";
  "(?i)(DT[12])(?:[);/ ]|$)";
  "(?i)F(10[167]|112) Pro";
  "(?i)F(10[1259])(?:[);/ ]|$)";
  "(?i)FPT[_ ](X1[05]|X[39]|X50|S68 4G)(?:[);/ ]|$)";
  "(?i)(FTRW100)(?:[);/ ]|$)";
  "(?i)(?:Q3_EEA|Q3pro|Q10-EEA)(?:[);/ ]|$)";
  "(?i)Q3_EEA(?:[);/ ]|$)";
  "(?i)Q10-EEA(?:[);/ ]|$)";
  "(?i)Q3pro(?:[);/ ]|$)";
  "(?i)FLEET_7(?:[);/ ]|$)";
  "(?i)(?:Fairphone )?(FP(?:1U?|[2345]))(?:[);/ ]|$)";
  "(?i)(FX[123]00)";
  "(?i)Famous|Red Royal Edition";
  "(?i)Red 5\+";
  "(?i)Famous[_ ]TAB[_ ]10";
  "(?i)FAN-M300H(?:[);/ ]|$)";
  "(?i)Smart ?(601|550|50[59])(?:[);/ ]|$)";
  "(?i)(FAST81[08])(?:[);/ ]|$)";
  "(?i)(vKB011B|vKB004L)";
  "(?i)FENOTI|(?:42FN6000F)(?:[);/ ]|$)";
  "(?i)(?:FENOTI_)?(42FN6000F)(?:[);/ ]|$)";
  "(?i)Fero[_ ]|Royale[_ ](?:[YX]2|A1)";
  "(?i)Royale[_ ]([YX]2|A1)";
  "(?i)Fero[ _](A4001|A450[23]|A5001|L100|Iris|Power|Mega LTE|Vibe|J1)";
  "(?i)ATRIUM II F55L2|TRIO F40LT|CENTRIC S50G|EPIC F50G|Gravity X55L|Orion M50L|ULTRA M50G|UltraJ8|M405B|VIRTUE3|F55L Build|Orbit_ll|F40G2";
  "(?i)(F55L)";
  "(?i)(Gravity X55L|Orion M50L)";
  "(?i)FIGI[_ ]|(?:Note_(?:[37]|11)_Pro|Note_(?:1C|5)|Note_1_Lite|Nopal|[MGF]two|Hola)(?:[);/ ]|$)|Android 8(?:[\d.]*);(?: [\w-]+;)? Fj(?: Build|[;)])";
  "(?i)FIGI[_ ]P40 Max";
  "(?i)FIGI[_ ]P40";
  "(?i)([MGF])two";
  "(?i)(FSE1020)";
  "(?i)Fj(?: Build|[;)])";
  "(?i)Note_([37]|11)_Pro";
  "(?i)Note_(1)_Lite";
  "(?i)Figgers[_ ](F3|DragonX)";
  "(?i)Filimo Box FB-101(?:[);/ ]|$)";
  "(?i)FinePower[_ ]?([AB][1-9]|[CD][1-9])(?:[);/ ]|$)";
  "(?i)FinePower[_ ]?([AB][1-9])(?:[);/ ]|$)";
  "(?i)FinePower[_ ]?([CD][1-9])(?:[);/ ]|$)";
  "(?i)FINLUX, ?([0-9]+[a-z0-9_ -]+), ?(?:wired|wireless)";
  "(?i)(?:AURII[ _](?:FAME|VIVID|INSPIRE|MAGNUM|Passion|Virtuoso|RAZOR|ULTRA|Secret Lite|AMUSE[_ ]3G|FORCE|FUSION|F8[_ ]Premium|XCITE|DELIGHT|DREAM[_ ](?:MINI|One)|AMUSE_4G)|SECRET_XR?|INTENSE[ _](?:POWER|METAL_2|XT)|RAZOR_PLUS_4G|SUPER SWEET|SWEET MINI|Dream_One_8|INSPIRE_4G|S90_Q|INTENSE_METAL_4G|INTENSE (?:5|XL)|VIVID_PRO|VIVID_PREMIUM)(?:[);/ ]|$)";
  "(?i)AURII[ _]FORCE(?:[);/ ]|$)";
  "(?i)AURII[ _]VIVID(?:[);/ ]|$)";
  "(?i)AURII[ _]INSPIRE(?:[);/ ]|$)";
  "(?i)AURII[ _]RAZOR(?:[);/ ]|$)";
  "(?i)RAZOR_PLUS_4G(?:[);/ ]|$)";
  "(?i)AURII[ _]DELIGHT(?:[);/ ]|$)";
  "(?i)AURII[ _]DREAM[_ ]MINI(?:[);/ ]|$)";
  "(?i)AURII[ _]FAME(?:[);/ ]|$)";
  "(?i)AURII[ _]AMUSE[ _]4G(?:[);/ ]|$)";
  "(?i)Dream_One_8(?:[);/ ]|$)";
  "(?i)AURII[ _]DREAM[_ ]One(?:[);/ ]|$)";
  "(?i)AURII[ _]ULTRA(?:[);/ ]|$)";
  "(?i)AURII[ _]AMUSE[_ ]3G(?:[);/ ]|$)";
  "(?i)AURII[ _]FUSION(?:[);/ ]|$)";
  "(?i)AURII[ _]MAGNUM(?:[);/ ]|$)";
  "(?i)VIVID_PRO(?:[);/ ]|$)";
  "(?i)VIVID_PREMIUM(?:[);/ ]|$)";
  "(?i)AURII[ _]XCITE(?:[);/ ]|$)";
  "(?i)SECRET_(XR?)(?:[);/ ]|$)";
  "(?i)AURII[ _]((?:Passion|Virtuoso|Secret Lite|F8[_ ]Premium))(?:[);/ ]|$)";
  "(?i)INTENSE POWER(?:[);/ ]|$)";
  "(?i)INTENSE_XT(?:[);/ ]|$)";
  "(?i)INTENSE_METAL_4G(?:[);/ ]|$)";
  "(?i)INTENSE_METAL_2(?:[);/ ]|$)";
  "(?i)SUPER SWEET(?:[);/ ]|$)";
  "(?i)SWEET MINI(?:[);/ ]|$)";
  "(?i)INTENSE (5|XL)";
  "(?i)(S90_Q)(?:[);/ ]|$)";
  "(?i)(?:Fision TV Plus)(?:[);/ ]|$)";
  "(?i)(?:S554020|F_Plus)(?:[);/ ]|$)";
  "(?i)Fly|Power Plus 5000|Power Plus 3|Photo Pro|Slimline|Cirrus (?:6|13)|Life (?:Ace|Jet|Sky|Compact 4G|Geo|Zen|Play)|(?:lineage_)?FS50[1-9]|FS51[0-8]|FS52[0-9]|FS530|FS55[134]|FS40[1-9]|FS45[1-9]|4FS06|MERIDIAN-|(?:Phoenix 2|(?:IQ[0-9]{3,}[i]?)[ _]?(?:Quad|Firebird|Quattro|Turbo|Magic)?|Tornado Slim|Android 8(?:[\d.]*);(?: [\w-]+;)? View Max)(?:[);/ ]|$)";
  "(?i)(?:Fly_)?IQ310(?:[);/ ]|$)";
  "(?i)(?:Fly_)?IQ236(?:[);/ ]|$)";
  "(?i)(?:Fly_)?View Max(?:[);/ ]|$)";
  "(?i)Slimline(?:[);/ ]|$)";
  "(?i)Power Plus 5000(?:[);/ ]|$)";
  "(?i)Photo Pro(?:[);/ ]|$)";
  "(?i)Life Ace(?:[);/ ]|$)";
  "(?i)Life Jet(?:[);/ ]|$)";
  "(?i)Life Sky(?:[);/ ]|$)";
  "(?i)Life Geo(?:[);/ ]|$)";
  "(?i)Life Zen(?:[);/ ]|$)";
  "(?i)Life Play(?:[);/ ]|$)";
  "(?i)Life Buzz(?:[);/ ]|$)";
  "(?i)Life Compact 4G(?:[);/ ]|$)";
  "(?i)FS508|Cirrus 6";
  "(?i)(?:lineage_)?FS504";
  "(?i)FS518|Cirrus 13";
  "(?i)(?:Fly_)?IQ237(?:[);/ ]|$)";
  "(?i)(?:Fly_)?IQ238(?:[);/ ]|$)";
  "(?i)(?:Fly_)?IQ240(?:[);/ ]|$)";
  "(?i)(?:Fly_)?IQ255(?:[);/ ]|$)";
  "(?i)(?:Fly_)?IQ270(?: Firebird)?(?:[);/ ]|$)";
  "(?i)(?:Fly_)?IQ275(?:[);/ ]|$)";
  "(?i)(?:Fly_)?IQ285(?: Turbo)?(?:[);/ ]|$)";
  "(?i)(?:Fly_)?IQ430(?:[);/ ]|$)";
  "(?i)(?:Fly_)?IQ431(?:[);/ ]|$)";
  "(?i)(?:Fly_)?IQ432(?:[);/ ]|$)";
  "(?i)(?:Fly_)?IQ436(?:[);/ ]|$)";
  "(?i)(?:Fly_)?IQ4490(?:[);/ ]|$)";
  "(?i)(?:Fly_)?IQ434(?:[);/ ]|$)";
  "(?i)(?:Fly_)?IQ4406(?:[);/ ]|$)";
  "(?i)(?:Fly_)?IQ436i(?:[);/ ]|$)";
  "(?i)(?:Fly_)?IQ4490i(?:[);/ ]|$)";
  "(?i)(?:Fly_)?IQ440(?:[);/ ]|$)";
  "(?i)(?:Fly_)?IQ4401(?:[);/ ]|$)";
  "(?i)(?:Fly_)?IQ441(?:[);/ ]|$)";
  "(?i)(?:Fly_)?IQ442 Quad(?:[);/ ]|$)";
  "(?i)(?:Fly_)?IQ442(?:[);/ ]|$)";
  "(?i)(?:Fly_)?IQ443(?:[);/ ]|$)";
  "(?i)(?:Fly_)?IQ444(?: Quattro)?(?:[);/ ]|$)";
  "(?i)(?:Fly_)?IQ445(?:[);/ ]|$)";
  "(?i)(?:Fly_)?IQ446(?: Magic)?(?:[);/ ]|$)";
  "(?i)(?:Fly_)?IQ447(?:[);/ ]|$)";
  "(?i)(?:Fly_)?IQ456(?:[);/ ]|$)";
  "(?i)(?:Fly_)?IQ4409 Quad(?:[);/ ]|$)";
  "(?i)(?:Fly_)?IQ448(?:[);/ ]|$)";
  "(?i)(?:Fly_)?IQ449(?:[);/ ]|$)";
  "(?i)(?:Fly_)?IQ450(?:[);/ ]|$)";
  "(?i)(?:Fly_)?IQ450[ _]Quattro(?:[);/ ]|$)";
  "(?i)(?:Fly_)?IQ451(?:[);/ ]|$)";
  "(?i)(?:Fly_)?IQ452 Quad(?:[);/ ]|$)";
  "(?i)(?:Fly_)?IQ454(?:[);/ ]|$)";
  "(?i)(?:Fly_)?IQ4403(?:[);/ ]|$)";
  "(?i)(?:Fly_)?IQ4404(?:[);/ ]|$)";
  "(?i)(?:Fly_)?IQ4410 Quad(?:[);/ ]|$)";
  "(?i)Phoenix 2(?:[);/ ]|$)";
  "(?i)(?:Fly_)?IQ4411(?:[);/ ]|$)";
  "(?i)(?:Fly_)?IQ4412 Quad(?:[);/ ]|$)";
  "(?i)(?:Fly_)?IQ4413[ _]Quad(?:[);/ ]|$)";
  "(?i)(?:Fly_)?IQ4414 Quad(?:[);/ ]|$)";
  "(?i)(?:Fly_)?IQ4415 Quad(?:[);/ ]|$)";
  "(?i)(?:Fly_)?IQ4418(?:[);/ ]|$)";
  "(?i)(?:Fly_)?IQ4504 Quad(?:[);/ ]|$)";
  "(?i)Tornado Slim(?:[);/ ]|$)";
  "(?i)(?:Fly_)?IQ([0-9]+[i]? ?(?:Quad|Firebird|Quattro)?)(?:[);/ ]|$)";
  "(?i)Fly[ _-]?([a-z0-9_]+)/";
  "(?i)Flylife[ _-]?([^/;]+)(?: Build|[;)])";
  "(?i)Fly[ _-]?([a-z0-9]+)";
  "(?i)MERIDIAN-([a-z0-9]+)";
  "(?i)4K SMART TV(?:[);/ ]|$)";
  "(?i)Fondi[- _]([^;/)]+)|(T702|Q008B|Q010B|Q718B|Q902|T602B|T707G|T708B|T725B|T725B1|T907B)(?:\)| Build)";
  "(?i)(T702|T602B)"
].
Definition d_dr_re0_13 : list blob := [
  "(?i)(Q008B|Q010B|Q718B|Q902|T707G|T708B|T725B|T725B1|T907B)";
  "(?i)Fondi[- _]([^;/)]+)";
  "(?i)Fonos-|(?:Android 10(?:[\d.]*);(?:[\d.]*)(?: [\w-]+;)? O3)(?:[);/ ]|$)";
  "(?i)Fonos-(O\d)(?:[);/ ]|$)";
  "(?i)O3(?: Build|[;)])";
  "(?i)Xming Google TV(?:[);/ ]|$)";
  "(?i)Formuler[ _]|(?:S_TURBO_PRO)(?:[);/ ]|$)";
  "(?i)Formuler[ _](Z(?:8|10)(?: Pro)?|Z Alpha)(?:[);/ ]|$)";
  "(?i)S_TURBO_PRO(?:[);/ ]|$)";
  "(?i)Amosta ?3G5";
  "(?i)Amosta ?3G5";
  "(?i)(Apollo 5 Neo)(?:[);/ ]|$)";
  "(?i)ENIE E2(?:[);/ ]|$)";
  "(?i)(?:Four[ _]?(S600|S300I|S185|K500|S61)|S62_Eco_3|S186_Sky_3|S710 Ruby)(?:[);/ ]|$)";
  "(?i)Four[ _]?(S600|S300I|K500)";
  "(?i)Four[ _]?S185";
  "(?i)Four[ _]?S61";
  "(?i)(?:EASYSMARTM3|EasySmart M2)(?:[);/ ]|$)";
  "(?i)EASY ?SMART ?M([32])";
  "(?i)InFocus M[0-9]+[a-z]?";
  "(?i)InFocus M([0-9]+[a-z]?)";
  "(?i)FOXXD|(?:L590A)(?:[);/ ]|$)";
  "(?i)(?:FOXXD )?(C65|L590A)(?:[);/ ]|$)";
  "(?i)(?:2305003M|2306004M|23080(?:05M|11M))(?:[);/ ]|$)";
  "(?i)(?:FUN PLUS|Fun \+|FTJ17[AC]00|FTJ152[ABCD]|FTU18A00|FT141B|FT142D(?:_LTEXM)?|FT142A?|FTJ161[ABE](?:-VN)?|FTJ1[56]2E|FTJ162[BD]|FT162D|FTE161[GE]|SAKURA_FTE1|FTE171A)(?:[);/ ]|$)";
  "(?i)Fun \+";
  "(?i)FTJ17A00(?:[);/ ]|$)";
  "(?i)FTJ17C00(?:[);/ ]|$)";
  "(?i)FTU18A00(?:[);/ ]|$)";
  "(?i)FTE161E|FTJ161E";
  "(?i)FT142D(?:_LTEXM)?(?:[);/ ]|$)";
  "(?i)FT142A?";
  "(?i)FTJ?162D";
  "(?i)(RubensTab_T11)(?:[);/ ]|$)";
  "(?i)FUEGO, ([a-z0-9_ -]+), (?:wired|wireless)|FUEGO 2K SMART TV";
  "(?i)(?:F-01[FHJKLM]|F-02[EFGHLK]|F-03[DEFGKHL]|F-04[EGFHKJ]|F-05[DEFJG]|F-06[EF]|F-07[DE]|F-0[18]D|F-09[DE]|F-[45]1A|F-41B|F-[45]2A|F-1[012]D|F-12C|F-5[12]B|F-51[CE]|M532|FARTM933KZ|901FJ|arrows(?:RX|M03|M0[45](?:-PREMIUM)?)|801FJ|FJL2[12]|RM02|FCG01|A101FC|BZ02|LIFEBOOK AH532)(?:[);/ ]|$)";
  "(?i)F-51A(?:[);/ ]|$)";
  "(?i)F-01F(?:[);/ ]|$)";
  "(?i)(F-01[LM]|F-06F|F-03K|F-42A)(?:[);/ ]|$)";
  "(?i)F-03L(?:[);/ ]|$)";
  "(?i)F-01J(?:[);/ ]|$)";
  "(?i)F-01K(?:[);/ ]|$)";
  "(?i)F-01H(?:[);/ ]|$)";
  "(?i)F-02E(?:[);/ ]|$)";
  "(?i)F-02G(?:[);/ ]|$)";
  "(?i)FJL21(?:[);/ ]|$)";
  "(?i)FJL22(?:[);/ ]|$)";
  "(?i)F-02H(?:[);/ ]|$)";
  "(?i)F-52A(?:[);/ ]|$)";
  "(?i)F-03D(?:[);/ ]|$)";
  "(?i)F-03E(?:[);/ ]|$)";
  "(?i)F-03F(?:[);/ ]|$)";
  "(?i)F-03H(?:[);/ ]|$)";
  "(?i)901FJ(?:[);/ ]|$)";
  "(?i)F-04E(?:[);/ ]|$)";
  "(?i)F-04G(?:[);/ ]|$)";
  "(?i)F-05D(?:[);/ ]|$)";
  "(?i)F-05F(?:[);/ ]|$)";
  "(?i)F-05J(?:[);/ ]|$)";
  "(?i)F-05G(?:[);/ ]|$)";
  "(?i)F-04K(?:[);/ ]|$)";
  "(?i)F-02L(?:[);/ ]|$)";
  "(?i)F-41A(?:[);/ ]|$)";
  "(?i)F-41B(?:[);/ ]|$)";
  "(?i)F-06E(?:[);/ ]|$)";
  "(?i)F-51C(?:[);/ ]|$)";
  "(?i)F-07D(?:[);/ ]|$)";
  "(?i)(?:F-51B|FCG01|A101FC)(?:[);/ ]|$)";
  "(?i)(F-51E)(?:[);/ ]|$)";
  "(?i)801FJ(?:[);/ ]|$)";
  "(?i)F-07E(?:[);/ ]|$)";
  "(?i)F-08D(?:[);/ ]|$)";
  "(?i)F-09D(?:[);/ ]|$)";
  "(?i)F-09E(?:[);/ ]|$)";
  "(?i)F-(52B|12D)(?:[);/ ]|$)";
  "(?i)F-10D(?:[);/ ]|$)";
  "(?i)F-11D(?:[);/ ]|$)";
  "(?i)F-12C(?:[);/ ]|$)";
  "(?i)(F-04[JF])(?:[);/ ]|$)";
  "(?i)arrowsM03(?:[);/ ]|$)";
  "(?i)RM02(?:[);/ ]|$)";
  "(?i)BZ02(?:[);/ ]|$)";
  "(?i)arrowsRX(?:[);/ ]|$)";
  "(?i)arrowsM04-PREMIUM(?:[);/ ]|$)";
  "(?i)arrowsM(0[45])(?:[);/ ]|$)";
  "(?i)(F-0[32]F|F-03G|F-04H|F-05E|F-02K|F-01D)(?:[);/ ]|$)";
  "(?i)M532(?:[);/ ]|$)";
  "(?i)FUNAI[;,)-]|AFTMON00[12](?:[);/ ]|$)";
  "(?i)AFTMON00[12](?:[);/ ]|$)";
  "(?i)Funai-Model18-([a-z0-9]+)";
  "(?i)Fusion5|F104Bv2|F104EvII_PRO|F104EvII|F105D_128";
  "(?i)(?:Fusion5_)?(F104B)v2_PRO";
  "(?i)(?:Fusion5_)?(F104B)v2";
  "(?i)(?:Fusion5_)?F104EvII_PRO";
  "(?i)(?:Fusion5_)?F104EvII(?:_EEA)?(?:[);/ ]|$)";
  "(?i)(?:Fusion5_)?(F704B|F105D|F104E)(?:_128|_EEA)?(?:[);/ ]|$)";
  "(?i)(FXT810R)(?:[);/ ]|$)";
  "(?i)QX1000(?:[);/ ]|$)";
  "(?i)(?:GNE-N001S)(?:[);/ ]|$)";
  "(?i)(?:PAD10_PRO)(?:[);/ ]|$)";
  "(?i)G-TiDE|(?: EX10|EXTREME X9)(?:[);/ ]|$)";
  "(?i)G-TiDE[_ ](A1|S[34]|E520|Vans [89]c?|V7s)";
  "(?i)E(57|60|66|72|77)";
  "(?i)G-TiDE[_ ](H1)";
  "(?i)GTouch[_ ]|(?:Stella (?:XS?|Omega))(?:[);/ ]|$)";
  "(?i)Stella (XS?|Omega)";
  "(?i)GTouch[_ ]STELLA";
  "(?i)(G1000 Pro|G[12]000)(?:[);/ ]|$)";
  "(?i)GDL[_ ](Xtreme 4)(?:[);/ ]|$)";
  "(?i)GEOFOX[_ ]MID ?(743\+?)(?:[);/ ]|$)";
  "(?i)GEOZON[_ ]([^/;)]+)(?: Build|[);])";
  "(?i)GFIVE[_ ]|(?:PRESIDENT_GOLD_(9|10)|President Gpower 1|Stark|Gpad70[12]|Speedo_1|4G Ultra Pro|4G 6700|4G Style)(?:[);/ ]|$)";
  "(?i)PRESIDENT_GOLD_(9|10)";
  "(?i)GFIVE[_ ]President[_ ]Xhero[_ ](\d)";
  "(?i)President (A97)";
  "(?i)President Classic (\d)";
  "(?i)President ?\(?G(\d)\)?";
  "(?i)President Tango (\d)";
  "(?i)GFIVE[_ ]President[_ ]Smart[_ ](A98|\d)";
  "(?i)GPad(70[12])";
  "(?i)(?:Android 8(?:[\d.]*);(?: [\w-]+;)? TAB5)(?: Build|[;)])";
  "(?i)Quartz(T10-3)(?:[);/ ]|$)";
  "(?i)(?:GLX (?:Aria|Dorna|Taban|Shine|Spark|ASA)|SHAHIN III?|Maad\+?)(?:[);/ ]|$)";
  "(?i)Maad\+";
  "(?i)GLX (Aria|Taban|Shine|Spark)(?:[);/ ]|$)";
  "(?i)GLX (Dorna)(?:[);/ ]|$)";
  "(?i)GOCLEVER|QUANTUM_(?:[235]_)?[0-9]{3}|QUANTUM [0-9]{1}|QUANTUM 700N|Quantum2 500|QUANTUM_(1010N|1010M|900|II_500_N)|ARIES|INSIGNIA|ORION_|ELIPSO|LIBRA[ _]97|TERRA_7o[WL]|(?:TQ700|ORION7oL)(?:[);/ ]|$)";
  "(?i)QUANTUM_(1010N|1010M|900)";
  "(?i)INSIGNIA_(785_PRO|1010M|800M)";
  "(?i)(ORION|ARIES|ELIPSO)[_ ](71|101|102)";
  "(?i)TQ700(?:[);/ ]|$)";
  "(?i)QUANTUM_2_(1010|700|960)_Mobile";
  "(?i)QUANTUM_([235])_(5[05]0)_RUGGED";
  "(?i)QUANTUM_(\d+)_RUGGED_PRO";
  "(?i)QUANTUM[_ ]([235])_([45]00)[_ ]LITE";
  "(?i)QUANTUM[_ ]([45]00)[_ ]LITE";
  "(?i)QUANTUM[ _]?([235])[ _]([^;/]+)(?: Build|[);])";
  "(?i)((?:QUANTUM|ARIES|INSIGNIA|ORION|ELIPSO)[ _-]?[^;/]+)(?: Build|\))";
  "(?i)TERRA_(7o[WL])";
  "(?i)GOCLEVER[ _-]TAB[ _-]?([^;/]+) Build";
  "(?i)GOCLEVER[ _-]?([^;/]+) Build";
  "(?i)TAB ([^;/)]+) Build/GOCLEVER";
  "(?i)([^;/)]+) Build/GOCLEVER";
  "(?i)GOCLEVER[ _-]?TAB[ _-]([^;/)]+)(?:[;/)]|$)";
  "(?i)GOCLEVER[ _-]?([^;/)]+)(?:[;/)]|$)";
  "(?i)LIBRA[ _]97";
  "(?i)(?:EVO-VX1)(?:[);/ ]|$)";
  "(?i)(?:G(?:3|10)_EEA|CNOTE 50|G10_US)(?:[);/ ]|$)";
  "(?i)G(3|10)_(?:EEA|US)";
  "(?i)(SEI600GO|GO700FR)(?:[);/ ]|$)";
  "(?i)(GTCOMBO)(?:[);/ ]|$)";
  "(?i)(?:GTX_)?JACULUS(?:[_ ](01|V2))?(?:[);/ ]|$)";
  "(?i)LGE; (?:GVC-[a-z0-9]+|[0-9]{2}GW[0-9]{4}\d*);";
  "(?i)LGE; ([0-9]{2}GW\d+);";
  "(?i)LGE; GVC-([a-z0-9]+);";
  "(?i)Galactic[_ ](Astro)(?:[);/ ]|$)";
  "(?i)(TVS-SU5007)(?:[);/ ]|$)";
  "(?i)(?:GI (?:UNI2|iTV912|Fly T2)|Gi-98Quick)(?:[);/ ]|$)";
  "(?i)(EDU-7MT4)(?:[);/ ]|$)";
  "(?i)Garmin-Asus|Garminfone";
  "(?i)Garminfone[ \-_]([^;/]*)Build";
  "(?i)Garmin-Asus[ \-_]([^;/]+)Build";
  "(?i)Garmin-Asus[ \-_]([^;/]+)[\)/]";
  "(?i)GWAT(?:8-1|10-1)";
  "(?i)GWAT(8|10)-1";
  "(?i)Gazal_100|(GA50F-OS)(?:[);/ ]|$)";
  "(?i)(GA50F-OS)";
  "(?i)(JT08-X1|JT10-90|JT10-81B|JT10-X)(?:[);/ ]|$)";
  "(?i)GEANT[_ ](T\d)(?:[);/ ]|$)";
  "(?i)(Feel_7013N)";
  "(?i)(GEM[0-9]+[a-z]*)";
  "(?i)General_Mobile_|GM 5 Plus|GM8 go|GM[ _][568][ _]d|GM [86]|General Mobile 4G|GM6_Tur|GM 9 (?:Pro|Plus)|(?: GM 5|e-tab 20|Android 1[012](?:\.[\d.]+)?;(?: [\w-]+;)? (?:G[35]01|G[35]10|G702|G700)|Discovery (?:Air|Elite(?: Plus)?)|GM Discovery II|GM Discovery tab 8|Discovery II Mini| GM6|G300|G008|android 4([\d.]*);(?: [\w-]+;)? Discovery|e-?tab5|G51[24]|G31[246]|G901| G100|G518|G318)(?:[);/ ]|$)";
  "(?i)GM[ _](\d+)[ _]d";
  "(?i)GM6_Tur|GM ?6";
  "(?i)GM ([58])";
  "(?i)Discovery (Air|Elite(?: Plus)?)";
  "(?i)Discovery(?:[);/ ]|$)";
  "(?i)General[ _]Mobile[ _]4G[ _]Dual";
  "(?i)e-?tab ?(\d+)(?:[);/ ]|$)";
  "(?i)(SK-Mtek GT730[15])(?:[);/ ]|$)";
  "(?i)GD (S1 ATV)(?:[);/ ]|$)";
  "(?i)GEO_?PHONE_";
  "(?i)GEO_?PHONE_(T1[59])_4G(?:[);/ ]|$)";
  "(?i)GEO_?PHONE_T19I_4G(?:[);/ ]|$)";
  "(?i)GEOTEL[ _]?";
  "(?i)GEOTEL[ _]?Note";
  "(?i)GEOTEL[ _]AMIGO";
  "(?i)(GTX-R10i Pro|GTX-R10i|GTX-98Q)(?:[);/ ]|$)";
  "(?i)Getnord[- ]([^/;)]+)(?: Build|[);])";
  "(?i)G-Fone ?(\d{1,3})";
  "(?i)GHIA|QS702|SVEGLIO[ _][QH]1|VECTOR10\.1|GTKIDS7[BVR]?|(?:A7_WF|GTA7(?:WF|PLUS)|VENUS7|TREO_TAB8G?|VECTOR_SLIM|GTAB718|GTABPND|GTABKIDS|GTVR10S|AXIS7_SLIM|AXIS7_LED|4104116N|GK133M3)(?:[);/ ]|$)";
  "(?i)SVEGLIO[ _]([QH]1)";
  "(?i)GHIA[ _](L1)";
  "(?i)VECTOR10\.1";
  "(?i)GTKIDS7[ABVR]?|GTABKIDS";
  "(?i)GHIA[ _]?(47458|VECTOR_3G)";
  "(?i)(GTAB718|GK133M3)";
  "(?i)GHONG(V10)(?:[);/ ]|$)";
  "(?i)GHOST G03(?:[);/ ]|$)";
  "(?i)G03(?:[);/ ]|$)"
].
Definition d_dr_re0_14 : list blob := [
  "(?i)GSmart[ _][a-z0-9 ]+(?: Build|\))|Gigabyte-[a-z0-9]+|Simba SX1|Roma R2|Boston 4G|GSmart_Classic_Lite|Classic[_ ](?:Joy|Pro)";
  "(?i)(GSmart[ _][a-z0-9 ]+)(?: Build|[);])";
  "(?i)Gigabyte-([a-z0-9]+)";
  "(?i)(Classic[ _](?:Joy|Pro)|GSmart_Classic_Lite|Boston 4G)";
  "(?i)Gigaset|(?: GX290|GS80|GS1[0189]0|GS1[89]5|GS2[89]0|GS5[357]-6|GS[23]70(?:_Plus)?|E940-(?:2766|279[567]|2878|2849)-\d{2})(?:[);/ ]|$)";
  "(?i)Gigaset QV(1030|830)";
  "(?i)G(S[23]70)[_ ]Plus(?:[);/ ]|$)";
  "(?i)GS([23]70|1[0189]0|1[89]5|2[89]0|80)(?:[);/ ]|$)";
  "(?i)(GX290)(?:[);/ ]|$)";
  "(?i)Gigaset ([^;/]+) Build";
  "(?i)Gigaset ([^;/)]+)(?:[);/ ]|$)";
  "(?i)Gini[ _]|(?:SW17W13|SW17W08)(?:[);/ ]|$)";
  "(?i)Gini[ _]W(7)";
  "(?i)Gini[ _]n(8)";
  "(?i)Gini[ _]s5Pro|SW17W13";
  "(?i)Gini[ _]Tab[ _](V[78])";
  "(?i)GINZZU[_ ]|((?:RS(?:7[14]|81|9[67])D)|S5002|S5021|S5230|S50[45]0|S51[24]0|RS(6[12]|9[45])D|S40[23]0|RS850[12]|RS9602|GT-W170)(?:[);/ ]|$)";
  "(?i)GINZZU[_ ]?(S40[17]0|S4710|ST60[14]0|ST6120)";
  "(?i)(?:GINZZU[_ ]?)?(GT-(?:W170|1050|7105|70[1-4]0|7115|7210|[WX]831|X[78]70|7810|8[01]10|X853|X890))";
  "(?i)(RS6[12]D) ULTIMATE";
  "(?i)(?:GINZZU[ _])?((?:RS(?:7[14]|81|9[14-7]|7)D)|S50[45]0|S5002|S5021|S5230|S51[24]0|S40[23]0|RS850[12]|RS9602|RS94D|R8 Dual)(?:[);/ ]|$)";
  "(?i)(?:GIO-)?GIONEE[ _-]?[a-z0-9]+|(?:Dream_D1|V188S?|GN[0-9]{3,4}[a-z]?)(?:[);/ ]|$)|F103(?: Pro)?(?: Build|\))|P5 mini Build|(M7 Power|F106L|F100[AL]|F103S|F103 Pro|M6 mirror|20190620G|20190619G|20190418Q|GNP21M02|GNS2161B|GAU0820|Android 6(?:[\d.]*);(?: [\w-]+;)? (?:P8 Max|P7 Max)|Android 5(?:[\d.]*);(?: [\w-]+;)? M5 (?:mini|Plus)|Android 11(?:[\d.]*);(?: [\w-]+;)? P61|WBL7519|WBL7361|20190419Q|M5 lite CDMA|GLY1620|M2mini)(?:[);/ ]|$)";
  "(?i)GN810(?:[);/ ]|$)";
  "(?i)GIONEE[_ ]MAX Pro";
  "(?i)GN([0-9]{3,4}[a-z]?)(?:[);/ ]|$)";
  "(?i)(F106L|F100[AL]|V188S|V188|F103S|F8 Neo)(?:[);/ ]|$)";
  "(?i)M7 Power(?:[);/ ]|$)";
  "(?i)M([25]) ?mini";
  "(?i)20190620G(?:[);/ ]|$)";
  "(?i)(S11|F205|S10) Lite(?:[);/ ]|$)";
  "(?i)M6 mirror(?:[);/ ]|$)";
  "(?i)F9 Plus(?:[);/ ]|$)";
  "(?i)20190419Q(?:[);/ ]|$)";
  "(?i)F103( Pro)?( BUILD|\))";
  "(?i)(P61)(?:[);/ ]|$)";
  "(?i)(?:(?:GIO-)?GIONEE[ _-])?Dream_D1(?:[);/ ]|$)";
  "(?i)(?:GIO-)?GIONEE[ _-]([a-z0-9_-]+).*Android";
  "(?i)Android.*(?:GIO-)?GIONEE[ _-]([a-z0-9_-]+)[ _]Pro";
  "(?i)Android.*(?:GIO-)?GIONEE[ _-]([a-z0-9_-]+)";
  "(?i)(?:GIO-)?GIONEE[ _-]?([a-z0-9]+)";
  "(?i)GLOBALSEC TAB TEN(?:[);/ ]|$)";
  "(?i)(GU1011C|GU8012C|GU7013C|GU730C|GU-6012B)(?:[);/ ]|$)";
  "(?i)GU8012C(?:[);/ ]|$)";
  "(?i)GU-6012B(?:[);/ ]|$)";
  "(?i)(GU1011C|GU7013C|GU730C)(?:[);/ ]|$)";
  "(?i)Globmall[ _](X4)(?:[);/ ]|$)";
  "(?i)S20iQ19(?:[);/ ]|$)";
  "(?i)glofiish[ _]|(?:Gpad_U)(?:[);/ ]|$)";
  "(?i)GO Onyx|GO[0-9]{3,4}";
  "(?i)GO([0-9]{3,4})";
  "(?i)(?:F10_PRIME|F3Prime|F9_PLUS|TEAM_7_3G)(?:[);/ ]|$)";
  "(?i)(?:Netta 2 Pro|NETTA 3|Netta 3\.100m|BENGAL_6|DETROIT 3|i-910|i-9[02]5)(?:[);/ ]|$)";
  "(?i)i-(910|9[02]5)";
  "(?i)Netta 3(?:\.100m)?";
  "(?i)(LT-55U900)(?:[);/ ]|$)";
  "(?i)Goly[ _-]";
  "(?i)Goly[ _-]([^;/]+) Build";
  "(?i)Goly[ _-]([^;/)]+)(?:[;/)]|$)";
  "(?i)(?:GOME[_ ](?:201[678].+|C7_Note(?:_Plus)?|U9|S[17])|Fenmmy_Note)(?:[);/ ]|$)";
  "(?i)GOME[_ ](?:2018X38A)(?:[);/ ]|$)";
  "(?i)GOME[_ ](?:2018X07A)(?:[);/ ]|$)";
  "(?i)GOME[_ ](?:2017X05A)(?:[);/ ]|$)";
  "(?i)GOME[_ ](?:2017X82A)(?:[);/ ]|$)";
  "(?i)GOME[_ ](?:2016G68A)(?:[);/ ]|$)";
  "(?i)GOME[_ ](?:2016M25A)(?:[);/ ]|$)";
  "(?i)GOME[_ ](?:2017M27A)(?:[);/ ]|$)";
  "(?i)GOME[_ ](?:2017M95A)(?:[);/ ]|$)";
  "(?i)GOME[_ ](?:2018M29A)(?:[);/ ]|$)";
  "(?i)GOME[_ ](C7_Note(?:_Plus)?|U9|S[17])(?:[);/ ]|$)";
  "(?i)(?:GOME[_ ])?(Fenmmy_Note)(?:[);/ ]|$)";
  "(?i)Nexus|GoogleTV|Google Fiber|Google Pixel|Glass|CrKey[^a-z0-9]|(?:Pixel|sailfish|taimen|blueline|Chromecast(?: HD)?)(?:;? Build|[)])|Pixel (?:XL|9 Pro(?: XL)?|C|[2-9]|[2-4] XL|10|Fold|Tablet)|Google 2XL|PIXEL4X|G011A|AOSP on (?:bramble|HammerHead|Manta|sunfish)|Pipit|ADT-2|GE2AE|G0DZQ|GZPFO|G1MNW|G82U8|G9BQD|G6QU3|GO3Z5|G025[IJENH]|G020[ABCGHEMPI]|G9FPL|GWKK3|GWVK6|GR83Y|GKV4X|GUR25|GP4BC|G4S1M|GKWS6|GHL1X|G1F8F|G01[13]C|G013A|GC3VE|GB7N6|GD1YQ|GTT9Q|GVU6C|GA02099|GA01180-US|G5NZ6|GQML3|G8VOU|GGH2X|GEC77|GC15S|G8HHN|GFE4J|G576D|G2YBB|G1B60|GA04851-US|GPJ41";
  "(?i)(Nexus (?:2|S|4|5X?|One))";
  "(?i)(Nexus (?:6P?))";
  "(?i)(Nexus (?:7|9|10))";
  "(?i)(GFHD[12]00)";
  "(?i)CrKey/[0-9.]+ DeviceType/SmartSpeaker";
  "(?i)CrKey[^a-z0-9]";
  "(?i)(?:Pixel|sailfish)(?: Build|[)])";
  "(?i)blueline|G013A";
  "(?i)G020[AEHF]";
  "(?i)Pixel 9 Pro XL|GGX8B|GQ57S|GZC4K";
  "(?i)Pixel 3 XL|G013C";
  "(?i)Pixel 2 XL|taimen";
  "(?i)Pixel 3a XL|G020[BCG]";
  "(?i)Pixel 4 XL|GA01180-US|G020P";
  "(?i)G020[MI]";
  "(?i)AOSP on sunfish|G025[JNH]|GA02099";
  "(?i)Pixel 4a \(?5G\)?|AOSP on bramble|G025[IE]|G6QU3";
  "(?i)pixel ([3-9])a";
  "(?i)G1F8F|G4S1M";
  "(?i)GE2AE|GP4BC|GFE4J";
  "(?i)GO3Z5|GQML3|GVU6C";
  "(?i)GTT9Q|GD1YQ|G5NZ6";
  "(?i)G1MNW|GC3VE|GE9DP";
  "(?i)G9BQD|GPJ41|GKWS6|GZPFO|GA04851-US";
  "(?i)GKV4X|G8HHN|G576D|G6GPR|G576D";
  "(?i)G0DZQ|G82U8|GWKK3|GHL1X";
  "(?i)Google 2XL|G011C";
  "(?i)GUR25|G2YBB|G1B60";
  "(?i)GWVK6|GR83Y|GEC77";
  "(?i)Pixel 9 Pro Fold|GGH2X|GC15S";
  "(?i)Pixel ([6789]|10) Pro";
  "(?i)pixel ([2-9]|10)";
  "(?i)G9FPL|Pixel Fold";
  "(?i)Goophone[ _]|(?:M(G492|L7[JK]2)CH|MN(4A2|8J2)ZP|MGA92ZP|MKU82ZP|MNGW2CH|MNH02CH|MNRM2CH)[/]A(?:[);/ ]|$)";
  "(?i)(?:MG492CH|MGA92ZP)[/]A(?:[);/ ]|$)";
  "(?i)ML7[JK]2CH[/]A(?:[);/ ]|$)";
  "(?i)MKU82ZP[/]A(?:[);/ ]|$)";
  "(?i)MNGW2CH[/]A(?:[);/ ]|$)";
  "(?i)(?:MN4A2ZP|MNH02CH)[/]A(?:[);/ ]|$)";
  "(?i)(?:MN8J2ZP|MNRM2CH)[/]A(?:[);/ ]|$)";
  "(?i)S4 MEGA(?:[);/ ]|$)";
  "(?i)Goophone i([69])(?:[);/ ]|$)";
  "(?i)Gooweel| M5 Pro(?:[);/ ]|$)";
  "(?i)Gooweel; (S7);";
  "(?i)GTV-|(?:Gplus[ _](?:[ZXP]10\+?|N809|F53|S9701|FW6950|A2_Plus|S10)|GMC-(?:7127M|668[NM]))(?:[);/ ]|$)";
  "(?i)Gplus[ _]([ZXP]10\+?|N809|F53|S9701|FW6950|A2_Plus|S10)(?:[);/ ]|$)";
  "(?i)GTV-(50PU744N)(?:[);/ ]|$)";
  "(?i)GRADIENTE-([a-z0-9]+)";
  "(?i)GRADIENTE ([a-z0-9-]+)";
  "(?i)GRAETZ[;,]";
  "(?i)(?:Grape[ _])?GTM[-_]5([^;)/]+)(?: Build|[;)])";
  "(?i)(?:E101GCM|TK_E720_EEA)(?:[);/ ]|$)";
  "(?i)TK_(E720)";
  "(?i)(E101GCM)";
  "(?i)(?:G0[256]15D|G0245D|G0335D)(?:[);/ ]|$)";
  "(?i)(G0215D|G0245D|G0335D)(?:[);/ ]|$)";
  "(?i)G-10 (?:ULTRA|PRO)|G-20ULTRA|G-8 PRO";
  "(?i)G-([12]0) ?ULTRA";
  "(?i)G-(8|10) PRO";
  "(?i)(?:GO 55303)(?:[);/ ]|$)";
  "(?i)(?:X1_Light(?:_Lte)?)(?:[);/ ]|$)";
  "(?i)X1_Light(?:_Lte)?";
  "(?i)Gresso[ _]|(?:REGAL R2)(?:[);/ ]|$)";
  "(?i)Gresso[ _]Regal(?:[);/ ]|$)";
  "(?i)Gretel|(?:GT6000)(?:[);/ ]|$)";
  "(?i)(GT6000)";
  "(?i)Gretel; (A[67])";
  "(?i)GroBerwert[ _]?(HD7)(?:[);/ ]|$)";
  "(?i)GR?-TB[0-9]+[a-z]*|GRUNDIG|portalmmm/2\.0 G|AFTEU(?:011|014|FF014)";
  "(?i)(GR?-TB[0-9]+[a-z]*)";
  "(?i)GRUNDIG (?:Android TV|Google TV UHD\+)";
  "(?i)GRUNDIG ([a-z0-9]+)";
  "(?i)portalmmm/2\.0 G([a-z0-9]+)";
  "(?i)(GR(?:32200|43200))(?:[);/ ]|$)";
  "(?i)Gtel[ _]|A727_Infinity_Pro(?:[);/ ]|$)";
  "(?i)Infinity 8s(?:[);/ ]|$)";
  "(?i)Infinity 9(?:[);/ ]|$)";
  "(?i)Gtel[ _-]X(\d) ?plus(?:[);/ ]|$)";
  "(?i)Gtel[ _-]X(\d) ?mini(?:[);/ ]|$)";
  "(?i)Gtel[ _-]([^;/]+)(?: Build|[;)])";
  "(?i)(XP9800)(?:[);/ ]|$)";
  "(?i)H96[ _]?(?:Max|mini H8|plus|PRO\+)";
  "(?i)(?:H96[_ ]?)?Max[ _]RK(\d{4})(?:[);/ ]|$)";
  "(?i)Max X2(?:[);/ ]|$)";
  "(?i)H96[_ ]Max[ _]V11(?:[);/ ]|$)";
  "(?i)Max(?:[);/ ]|$)";
  "(?i)mini H8(?:[);/ ]|$)";
  "(?i)H96plus(?:[);/ ]|$)";
  "(?i)PRO\+(?:[);/ ]|$)";
  "(?i)(SpaceTab_H20)(?:_EEA)?(?:[);/ ]|$)";
  "(?i)(T2000)(?: Build|[);])";
  "(?i)(?:H10_ONE)(?:[);/ ]|$)";
  "(?i)SP-001(?:[);/ ]|$)";
  "(?i)SP-001(?:[);/ ]|$)";
  "(?i)HIPER[ -](?:MEDIA|[MS]-Pad)|(?:U(?:43|50|65)YQ2200GR|H32YQ2200GR|H24YQ2200GR(?:-2)?|MEDIA TV M5)(?:[);/ ]|$)";
  "(?i)HIPER[ -]([SM])-Pad";
  "(?i)MEDIA TV (i4 Pro|i4|[46]K|M5)";
  "(?i)(U(?:43|50|65)YQ2200GR|H32YQ2200GR|H24YQ2200GR)";
  "(?i)4K AI Smart TV(?:[);/ ]|$)";
  "(?i)HKPRO,([a-z0-9_ -]+),(?:wired|wireless)";
  "(?i)(?:HMD (?:Pulse (?:Pro|Plus)|Pulse|Vibe|Fusion|Skyline|CREST|XR21|ARC)|N159V)(?:[);/ ]|$)";
  "(?i)N159V|Vibe";
  "(?i)HGTV-LED(\d{2}[FU]?HDSQ?\d{3}T2)(?:[);/ ]|$)";
  "(?i)XBOOK_12(?:[);/ ]|$)";
  "(?i) (EV10)( Build|[;)])";
  "(?i)HOTREALS(?:[);/ ]|$)";
  "(?i)Hewlett-Packard|HP Engage|HP/HP|HP Chromebook|HP EliteBook|TouchPad/\d+\.\d+|hp-tablet|HP ?iPAQ|webOS.*P160U|HP (?:Pro )?Slate|Slate 21|Slate 10|HP [78]|HP 10 Plus|Compaq [7|8]|HP; [^;/)]+|cm_tenderloin";
  "(?i)HP ([78][^)/;]*)(?: Build|\))";
  "(?i)Compaq ([78][^/;]*) Build";
  "(?i)HP Slate ?(.+) Build";
  "(?i)HP Slate ?([0-9]+)";
  "(?i)TouchPad/(\d+\.\d+)|hp-tablet";
  "(?i)HP; ([^;/)]+)";
  "(?i)HP ?iPAQ ?([a-z0-9]+)";
  "(?i)webOS.*(P160U)";
  "(?i)HP ProBook (6560b)";
  "(?i)Chromebook (11 G5|x360 11 G1 EE|13 G1|x2)";
  "(?i)HP EliteBook (820 G2|8470p)";
  "(?i)HTC|Sprint (?:APA|ATP)|ADR[a-z0-9]+|NexusHD2|Amaze[ _]4G(?:[);/ ]|$)|(Desire|Sensation|Evo ?3D|IncredibleS|Wildfire|Butterfly)[ _]?([^;/)]+)(?: Build|\))|(Amaze[ _]4G|One ?[XELSV\+]+)(?:[);/ ]|$)|SPV E6[05]0|(One M8|One Mini 2|X525a|PG86100|PC36100|XV6975|PJ83100|2PYB2|2PS64|2PZC5|0PJA10|0PJA2|HTV33|0PM92|0PCV1|601HT|0PAJ5|HTL2[23]|HTV3[12]|2PQ93|X2-HT|EXODUS 1|ISW13HT|710C|U Ultra|2Q8L10000|2Q55100|2QC9200|2PZC100|2PZF1|2PZM3|2Q6E1|U12 life|U Play)(?:[);/ ]|$)";
  "(?i)(?:HTC[_ ](?:U-2u|U Play|2PZM3)|2PZM3|U Play)(?:[);/ ]|$)";
  "(?i)(?:HTC[_ ]U-1[wu]|2PZF1|U Ultra)(?:[);/ ]|$)";
  "(?i)(?:U11 plus|(?:HTC_)?2Q4D[12]00)(?:[);/ ]|$)";
  "(?i)(?:HTC )?(?:U12\+|2Q55[13]00)(?:[);/ ]|$)";
  "(?i)U(1[12]) life(?:[);/ ]|$)";
  "(?i)2Q6E1(?:[);/ ]|$)";
  "(?i)(?:U11 Eyes|2Q4R100)(?:[);/ ]|$)";
  "(?i)XV6975(?:[);/ ]|$)";
  "(?i)PG86100(?:[);/ ]|$)";
  "(?i)PC36100(?:[);/ ]|$)"
].
Definition d_dr_re0_15 : list blob := [
  "(?i)HTC[_ ]D628u";
  "(?i)(?:HTC[_ ])?(?:HTV33|601HT|2PZC100|2PZC5|U-3[uw])(?:[);/ ]|$)";
  "(?i)(?:HTC_)?(?:801e|802[wdt]|PN071)";
  "(?i)PJ83100(?:[);/ ]|$)";
  "(?i)HTC[_ ]PO582(?:[);/ ]|$)";
  "(?i)(?:HTC_?)?(?:One[ _]?Mini[ _]?2|M8MINx)(?:[);/ ]|$)";
  "(?i)X2-HT(?:[);/ ]|$)";
  "(?i)HTC 2PXH3(?:[);/ ]|$)";
  "(?i)ISW13HT(?:[);/ ]|$)";
  "(?i)HTL22(?:[);/ ]|$)";
  "(?i)(?:HTC U23 pro|2QC9200)(?:[);/ ]|$)";
  "(?i)(?:HTL23|HTV31)(?:[);/ ]|$)";
  "(?i)HTCButterflys901s(?:[);/ ]|$)";
  "(?i)(?:HTC[_ ])?(?:M9pw|One M9 ?PLUS)(?:[);/ ]|$)";
  "(?i)(?:HTC[_ ]M9u|0PJA2|0PJA10|HTC One M9|HTC6535LVW)(?:[);/ ]|$)";
  "(?i)One[ _](X9|[EM]8) dual sim(?:[);/ ]|$)";
  "(?i)Desire[ _]([\d\w]+) dual sim(?:[);/ ]|$)";
  "(?i)HTC(?: One m7|6500LVW|PN071)(?:[);/ ]|$)";
  "(?i)(?:One M8|HTC6525LVW|HTC[_ ]M8[xd]|HTC[_ ]0P6B|HTCOneM8)(?:[);/ ]|$)";
  "(?i)HTC ?One ?M8 ?Eye(?:[);/ ]|$)";
  "(?i)(?:HTC_)?(?:0PAJ5|M8Sx)(?:[);/ ]|$)";
  "(?i)HTC[_ ]E9x(?:[);/ ]|$)";
  "(?i)HTC[_ ]?(?:One[_ ])?E9(?:pw|PLUS dual sim)(?:[);/ ]|$)";
  "(?i)HTC_S9u(?:[);/ ]|$)";
  "(?i)HTC6515LVW(?:[);/ ]|$)";
  "(?i)X525a(?:[);/ ]|$)";
  "(?i)(?:2PQ9(?:3|10)|HTC[_ ]A9u)(?:[);/ ]|$)";
  "(?i)2PS64|HTC6545LVW|HTC[_ ]M10h";
  "(?i)(710C)(?:[);/ ]|$)";
  "(?i)0PM92(?:[);/ ]|$)";
  "(?i)(?:HTC_)?0PCV[12](?:[);/ ]|$)";
  "(?i)HTC ?D160LVW(?:PP)?(?:[);/ ]|$)";
  "(?i)HTC[_ ]D310n(?:[);/ ]|$)";
  "(?i)HTC[_ ]v01(?:[);/ ]|$)";
  "(?i)608t(?:[);/ ]|$)";
  "(?i)HTC_(?:0P9O2|D610x)(?:[);/ ]|$)";
  "(?i)HTC[_ ]?(0P4E[12])(?:[);/ ]|$)";
  "(?i)HTC_?D620h(?:[);/ ]|$)";
  "(?i)HTC[_ ]?(?:D626ph|D200LVWPP)(?:[);/ ]|$)";
  "(?i)HTC_?(?:0P9C2|D816[xd]?)(?:[);/ ]|$)";
  "(?i)HTC_?D526h(?:[);/ ]|$)";
  "(?i)2Q8L10000(?:[);/ ]|$)";
  "(?i)Desire620G(?:[);/ ]|$)";
  "(?i)EXODUS 1(?:[);/ ]|$)";
  "(?i)HTC 2Q7A100(?:[);/ ]|$)";
  "(?i)HTC Desire 10 compact(?:[);/ ]|$)";
  "(?i)HTC_D10i(?:[);/ ]|$)";
  "(?i)HTC[ _](?:10[ _]evo|M10f)(?:[);/ ]|$)";
  "(?i)HTC Desire (\d+) pro 5G(?:[);/ ]|$)";
  "(?i)HTC Desire (\d+) pro(?:[);/ ]|$)";
  "(?i)Desire 10 lifestyle(?:[);/ ]|$)";
  "(?i)(?:HTC[_ ])?TATTOO[_ ]A3288";
  "(?i)HTC[ _-]P715a";
  "(?i)HTC[ _-]Flyer Build";
  "(?i)HTC[ _-](A10[13]) Plus";
  "(?i)HTC[ _-](A10[0123])";
  "(?i)HTC[ _-]Flyer[ _-]([\w]{1,5})";
  "(?i)HTC(?:[ _-])?(?:One[ _-]max|6600LVW|0P3P7)(?:[);/ ]|$)";
  "(?i)USCCHTC(\d+)";
  "(?i)Sprint (ATP.*) Build";
  "(?i)Sprint (APA.*) Build";
  "(?i)Wildfire (E3) lite";
  "(?i)Wildfire (E) star";
  "(?i)Wildfire (E2?) plus";
  "(?i)HTC[ _]([^/;]+) [0-9]+(?:\.[0-9]+)+ Build";
  "(?i)HTC[ _]([^/;]+) Build";
  "(?i)HTC[ _]([a-z0-9]+[ _-]?(?:[a-z0-9_+\-])*)";
  "(?i)(?:HTC-)?HTC(?:[-/ ])?([a-z0-9\-_]+)";
  "(?i)HTC;(?: )?([a-z0-9 ]+)";
  "(?i)(Desire|Sensation|Evo ?3D|IncredibleS|Wildfire|Butterfly)[ _]?([^;/)]+)(?: Build|[);])";
  "(?i)(Amaze[ _]4G|One ?[XELSV\+]*) Build";
  "(?i)(ADR[^;/]+) Build";
  "(?i)(ADR[a-z0-9]+)";
  "(?i)HTV32(?:[);/ ]|$)";
  "(?i)HAFURY|(?:GT20|MEET)(?:[);/ ]|$)";
  "(?i)GT20(?:[);/ ]|$)";
  "(?i)(MIX|UMAX|MEET)";
  "(?i)Haier|(?:M53-52401|I6_Infinity|Titan[ _]T[135]|(?:HW-)?W(?:71[67]|757|86[07]|970)|S5 Silk|(?:HM-)?(N505|N700|G(?:152|303|353|552|70[01])?-FL|HM-(?:I559|N50[15]|I560|G553|N70[01])-FL|HR-V101|G(?:303)?-W|I(?:557)?-FL)|(?:PAD[ _](?:D71|G781|d85))|A2_Lite_NFC|A4_Lite|HL810G|Andromax C46B2H|OLED TV S9|MINTAKA|android 8([\d.]*);(?: [\w-]+;)? E13)(?:[);/ ]|$)|Android [67](?:[\d.]*);(?: [\w-]+;)? P2(?: Build|[;)])";
  "(?i)E13(?:[);/ ]|$)";
  "(?i)P2(?: Build|[;)])";
  "(?i)(?:HM-)?(G(?:152|353|552|70[01])|G(?:303)|I(?:557))";
  "(?i)(Titan[_ ]T[135]|I6_Infinity)";
  "(?i)(?:HW-)?W(71[67]|757|86[07]|970)(?:[);/ ]|$)";
  "(?i)MINTAKA(?:[);/ ]|$)";
  "(?i)PAD[ -_](D71|G781|d85)";
  "(?i)(HL810G|HR-V101|M53-52401)";
  "(?i)Haier MatrixTV AEL(?:[);/ ]|$)";
  "(?i)Haier[ _-](H[WT]-[^/;]+) Build";
  "(?i)Haier[ _-](H[WT]-[a-z0-9_-]+)";
  "(?i)Haier[ _-](sy[0-9]+)";
  "(?i)Haier[ _-]([a-z0-9-]+)";
  "(?i)Haipai ?noble S6";
  "(?i)Haixu[_ ]?([^;/)]+)( Build|[;)])";
  "(?i)Hamlet[ _]|XZPAD412LTE";
  "(?i)(?:Hamlet[ _])?XZPAD(412W|412LTE)";
  "(?i)(?:Hammer[_ ](?:Construction_?(?:2_Thermal_5G|2_5G)?|Explorer[_ ](?:Plus|Pro)|FORCE|Blade_[34]|Blade2_PRO|Blade_5G|IRON_[234](?:[_ ]LTE)?|IRON|Explorer|ENERGY(?:_18x9|_2_2022|_[2X])?|Titan 2|Active2?(?:_LTE)?)|Iron[_ ](?:2|Va)|Blade V 5G)(?:[);/ ]|$)";
  "(?i)Hammer[_ ]Construction_2_Thermal_5G";
  "(?i)Hammer[_ ]Construction_2_5G";
  "(?i)Hammer[_ ]Construction";
  "(?i)Hammer[_ ]Explorer[_ ]Plus";
  "(?i)Hammer[_ ]Explorer[_ ]Pro";
  "(?i)HAMMER[ _]ENERGY_2_2022";
  "(?i)HAMMER[ _]ENERGY[ _](18x9|3G|\d+|X)";
  "(?i)HAMMER[ _]ENERGY";
  "(?i)Hammer[_ ]FORCE";
  "(?i)(?:Hammer[ _])?Iron[ _]([234]|Va?)";
  "(?i)Hammer[ _]Iron";
  "(?i)Hammer[ _]Explorer";
  "(?i)Hammer Active(?:[);/ ]|$)";
  "(?i)Hammer_Active2(?:[);/ ]|$)";
  "(?i)Hammer_Active2_LTE(?:[);/ ]|$)";
  "(?i)Hammer_Blade_([34])";
  "(?i)(?:ALGIZ_RT8|NAUTIZ_X2)(?:[);/ ]|$)";
  "(?i)(NAUTIZ_X2)(?:[);/ ]|$)";
  "(?i)(ALGIZ_RT8)(?:[);/ ]|$)";
  "(?i)(HSG[0-9]{4})|SN97T41W|SN1AT71W\(B\)|SN70T51A|SN70T31?|T7-QC";
  "(?i)(HSG[0-9]{4})";
  "(?i)SN1AT71W\(B\)";
  "(?i)Hanson[_ ]?([^;/)]+)( Build|[;)])";
  "(?i)ODROID[-]?(C2|[NU]2|XU[34])(?:[);/ ]|$)";
  "(?i)HARPER|(?:HARPER[_ ])?(?:ABX-332|ABX-[12]10|24R470TS|32R750TS|32R670TS|40F660TS|40F750TS|43U750TS|24R490TS|65U660TS|43F6[69]0TS|50U660TS|32R751TS|43F750TS|85U750TS)(?:[);/ ]|$)";
  "(?i)(?:HARPER[_ ])?(ABX-332|ABX-[12]10|32R751TS|40F660TS|24R490TS|65U660TS|50U660TS)";
  "(?i)(?:HARPER[ _-]?)?(\d{2}[QUFR]\d{3}TS)(?:[);/ ]|$)";
  "(?i)(HTY[_-]\d{2}\w+-(?:S2|H[ACK]22|S2-T9|V[DNZS])|HTY-32HDR06G|HTY_43FHD06B|HTY-43F06B-VZ|HTY-50UHD05B|HTY-24H06W-VZ(?:-M)?|HTV-55U11B-VS|43F01)(?:[);/ ]|$)";
  "(?i)43F01(?:[);/ ]|$)";
  "(?i)HT([YV])[_-](\d{2}(?:[^/;)]+))(?: Build|[);])";
  "(?i)Hasee ([^;/]+) Build";
  "(?i)Hasee ([^;/)]+)(?:[);/ ]|$)";
  "(?i)(DVB-ATV100)(?:[);/ ]|$)";
  "(?i)(?:Hpad[12]|Wpad3| F3A|W5A)(?:[);/ ]|$)";
  "(?i)Hpad([12])";
  "(?i)Wpad(3)";
  "(?i)F3A(?:[);/ ]|$)";
  "(?i)W5A(?:[);/ ]|$)";
  "(?i)HEIMAT[ _](H43PU2303SVF|H65PU2303SVF)(?:[);/ ]|$)";
  "(?i)Helio (S60|S5)(?:[);/ ]|$)";
  "(?i)Tab1000(?:[);/ ]|$)";
  "(?i)(?:HB_X7)(?:[);/ ]|$)";
  "(?i)(HTB801|HBook-Pro)(?:[);/ ]|$)";
  "(?i)(?:Boost(?:[ _](?:Hypa|Max|Ultra))?(?: Build|[;)])|HMR(?:5012|5450)|Crusader|(?:VHIX-)?VHIX-\w+(?:-[A-Z])?|HX-(?:\d{2}[FHU]\d{2}FB)|43FSY112X[bcd]?|32HSY119X|39HSY111X|55USY151X|50USY151X|65USY151X)(?:[);/ ]|$)";
  "(?i)Boost[ _](Hypa|Max|Ultra)(?:[);/ ]|$)";
  "(?i)Boost(?:[);/ ]|$)";
  "(?i)HMR5012(?:[);/ ]|$)";
  "(?i)(HMR5450|Crusader)(?:[);/ ]|$)";
  "(?i)HX-(\d{2}[FHU]\d{2}FB)";
  "(?i)(?:VHIX-)?VHIX-(\w+)";
  "(?i)(32HSY119X|39HSY111X|55USY151X|43FSY112X[bcd]?|50USY151X|65USY151X)(?:[);/ ]|$)";
  "(?i)(?:Hebe|Hera|Hinova)-BD00|(?:ALH-BD00|MGZ-BD00|FIO-BD00|MIZ-BD00|MNT-BD00|SUP-BD00|MRK-BD00)(?:[);/ ]|$)";
  "(?i)Hinova-BD00|MIZ-BD00";
  "(?i)HLV-T([a-z0-9]+)";
  "(?i)(?:R6III)(?:[);/ ]|$)";
  "(?i)(OC101)(?:[);/ ]|$)";
  "(?i)HIHI-(4[01])KH-TAB-0?1";
  "(?i)HIKING[_ ]|(?:HK-MH501|Fun5)(?:[);/ ]|$)";
  "(?i)HIKING[_ ]([^/;)]+)(?: Build|[);])";
  "(?i)HK-(MH501)";
  "(?i)HIMAX[_ ]|PURE_III(?:[);/ ]|$)";
  "(?i)POLYMER( X)?";
  "(?i)HIMAX[_ ]PURE[_ ]3S";
  "(?i)(?:32Y_STV-R|HIBERGQLED\d{2}Y|HIBERG\d{2}YUHD(?:-R)?|(?:5[05]|43|65)YUHD-R)(?:[);/ ]|$)";
  "(?i)HIBERGQLED(\d{2}Y)(?:[);/ ]|$)";
  "(?i)(?:HIBERG)?(\d{2})YUHD-R";
  "(?i)HIBERG(\d{2})YUHD";
  "(?i)(32Y_STV-R)";
  "(?i)HIGHSCREEN|(Easy[- ]Power(?:[- ]Pro)?|Pure[_ ](?:Power|F)|Power Ice(?: Max)?|Easy[_ ]([SFL]|XL)(?:_Pro)?|Razar_Pro|Power Rage(?: Evo)?|Zera-S-Power|Zera[ _][UFS]|Power[ _]?Five[ _]?(?:Pro|Evo|Max|Max(?:Lite|2))|Power(?:Four|Five)|BOOST II(?:se)?|Fest(?:XL)?(?:-Pro)?|Tasty|Boost3|Boost 3(?: Pro)? SE|Expanse|Explosion|Hercules|Alpha Rage|VergeM|Ice2|Prime [LS]|Spade|Spark 2|Alpha GT[RX]|Wallet|Thunder|Razar|COSMO DUO|Prime Mini SE| Bay|Omega Q)(?:[);/ ]|$)";
  "(?i)(Power Ice(?:[ ](?:Max|Evo))?|Power Rage(?: Evo)?|Zera[ _][UFS]|Alpha GT[RX]|Wallet)(?:[);/ ]|$)";
  "(?i)PowerFivePro(?:[);/ ]|$)";
  "(?i)PowerFiveMaxLite(?:[);/ ]|$)";
  "(?i)PowerFiveMax2(?:[);/ ]|$)";
  "(?i)Power Five Evo(?:[);/ ]|$)";
  "(?i)Power Five Max(?:[);/ ]|$)";
  "(?i)Power[_ ]?Five(?:[);/ ]|$)";
  "(?i)Spade(?:[);/ ]|$)";
  "(?i)Spark 2(?:[);/ ]|$)";
  "(?i)FestXL-Pro(?:[);/ ]|$)";
  "(?i)FestXL(?:[);/ ]|$)";
  "(?i)Fest-Pro(?:[);/ ]|$)";
  "(?i)Fest(?:[);/ ]|$)";
  "(?i)Bay(?:[);/ ]|$)";
  "(?i)PowerFour(?:[);/ ]|$)";
  "(?i)Pure[_ ]Power(?:[);/ ]|$)";
  "(?i)Pure[ _]F(?:[);/ ]|$)";
  "(?i)Razar_Pro(?:[);/ ]|$)";
  "(?i)Razar(?:[);/ ]|$)";
  "(?i)Easy[_ ]([SLF]|XL)[_ ]Pro(?:[);/ ]|$)";
  "(?i)Easy[_ ]([SFL]|XL)(?:[);/ ]|$)";
  "(?i)(?:HIGHSCREEN )?Easy[- ]Power[- ]Pro(?:[);/ ]|$)";
  "(?i)(?:HIGHSCREEN )?Easy-Power(?:[);/ ]|$)";
  "(?i)BOOST II(?:[);/ ]|$)";
  "(?i)BOOST IIse(?:[);/ ]|$)";
  "(?i)Boost 3 SE(?:[);/ ]|$)";
  "(?i)Boost 3 Pro SE(?:[);/ ]|$)";
  "(?i)BOOST3(?:[);/ ]|$)";
  "(?i)Zera-S-Power(?:[);/ ]|$)";
  "(?i)Tasty(?:[);/ ]|$)";
  "(?i)VergeM(?:[);/ ]|$)";
  "(?i)WinWin(?:[);/ ]|$)";
  "(?i)Expanse(?:[);/ ]|$)";
  "(?i)Hercules(?:[);/ ]|$)";
  "(?i)Alpha Rage(?:[);/ ]|$)"
].
Definition d_dr_re0_16 : list blob := [
  "(?i)Ice2(?:[);/ ]|$)";
  "(?i)Prime Mini SE(?:[);/ ]|$)";
  "(?i)Prime ([LS])(?:[);/ ]|$)";
  "(?i)HS_|10DTB12(?:[);/ ]|$)";
  "(?i)HS_9DTB39(?:[);/ ]|$)";
  "(?i)10DTB12(?:[);/ ]|$)";
  "(?i)HS_([a-z0-9]+)(?:[);/ ]|$)";
  "(?i)Hiremco|(?:Matador Pro Air|X6-PRO|MATADOR[- ]PRO|Matador)(?:[);/ ]|$)";
  "(?i)MATADOR[- ]PRO";
  "(?i)HIREMCO(?:[);/ ]|$)";
  "(?i)(?:HS-)?Hisense ([^;/]+) Build|Hisense|HS-(?:G|U|EG?|I|L|T|X)[0-9]+[a-z0-9-]*|HNR(?:320T|55[01]T)|E270BSA|HWCD100E|HITV300C|HITV205N|M470BS[AE]|E2281|HAT4KDTV|HITV10[12]C|HLTE(?:[237]00T|229T|200M|203T|202N|21[023567][TM]|22[67]T|22[13]E|230E|239E|103E|310[TM]|31[16]T|500T|501N|510[TM]|556N|7[23]0T|720E|M800)|KS(?:907|964)|U972|U601S Pro|U972_Pro|HiSmart [24]K ATV4|HiSmartTV A4";
  "(?i)HITV10[12]C";
  "(?i)M470BS[AE]";
  "(?i)E50s \d+GB|HLTE239E";
  "(?i)HLTE221E|E MAX(?:[);/ ]|$)";
  "(?i)HLTE200T(?:[);/ ]|$)";
  "(?i)HLTE210T(?:[);/ ]|$)";
  "(?i)HLTE215T(?:[);/ ]|$)";
  "(?i)HLTE213T(?:[);/ ]|$)";
  "(?i)HLTE311T(?:[);/ ]|$)";
  "(?i)HLTE216[TM](?:[);/ ]|$)";
  "(?i)HLTE316T(?:[);/ ]|$)";
  "(?i)HLTE226T(?:[);/ ]|$)";
  "(?i)F8 MINI(?:[);/ ]|$)";
  "(?i)HLTE217T(?:[);/ ]|$)";
  "(?i)HLTE227T(?:[);/ ]|$)";
  "(?i)HNR550T(?:[);/ ]|$)";
  "(?i)HNR551T(?:[);/ ]|$)";
  "(?i)HLTE310[TM](?:[);/ ]|$)";
  "(?i)HLTE510[TM](?:[);/ ]|$)";
  "(?i)HLTE500T(?:[);/ ]|$)";
  "(?i)(?:HLTE230E|Infinity H40 Lite)(?:[);/ ]|$)";
  "(?i)HLTE720T(?:[);/ ]|$)";
  "(?i)HWCD100E(?:[);/ ]|$)";
  "(?i)(HLTE300T|HLTE200M|HLTE212T)(?:[);/ ]|$)";
  "(?i)HITV300C(?:[);/ ]|$)";
  "(?i)E260T\+(?:[);/ ]|$)";
  "(?i)(U972|U601S)[ _]Pro(?:[);/ ]|$)";
  "(?i)Infinity H([56]0) ZOOM(?:[);/ ]|$)";
  "(?i)Infinity E30SE(?:[);/ ]|$)";
  "(?i)(HS-(?:G|U|EG?|I|L|T|X)[0-9]+[a-z0-9-]*|U972)";
  "(?i)(HAT4KDTV|HiSmart [24]K ATV4|HiSmartTV A4)(?:[);/ ]|$)";
  "(?i)Hisense;SmartTV;([a-z0-9_ -]+)V[ST];";
  "(?i)Hisense;SmartTV;([a-z0-9_ -]+);";
  "(?i)Hisense; ?SmartTV_([0-9]{4})_1;";
  "(?i)(HE43A6500UWTS)";
  "(?i)HITV205N(?:[);/ ]|$)";
  "(?i)KS964(?:[);/ ]|$)";
  "(?i)(?:HS-)?Hisense (U3) 2021(?: Build|[);])";
  "(?i)(?:HS-)?Hisense ([^;/)]+) Pro(?: Build|[);])";
  "(?i)(?:HS-)?Hisense ([^;/)]+) Plus(?: Build|[);])";
  "(?i)(?:HS-)?Hisense ([^;/)]+)(?: Build|[);])";
  "(?i)(?:HS-)?Hisense ([^/]+)/";
  "(?i)HITACHI[;,]";
  "(?i)HITACHI, ?([0-9]+[a-z0-9_ -]+), ?(?:wired|wireless)";
  "(?i)(Amaze[ _](?:S2_4G|S[56] 4G|S1|S[56](?: Plus)?))(?:[);/ ]|$)";
  "(?i)(HOFFMANN|Neo[_ ]A[1379]00|X-Go|X-Play|X-Pro|X_Ultra|X-Max)(?:[);/ ]|$)";
  "(?i)Neo[_ ](A[1379]00)";
  "(?i)HOFFMANN[ _]X[-_ ](Prime|Twist|Max)";
  "(?i)X[-_](Play|Go|Pro|Ultra|Max)";
  "(?i)(Box Q|Box R 4K Plus|Box R (?:Lite )?4K| KP1|Dongle G 4K)(?:[);/ ]|$)";
  "(?i)(?:Ideal (?:10S|Tab [79]|8S)|ALFA(?:10T[BX]|7LM)|ALFA10TX_PRO|ALFA[_ ](?:10R[CX]|10BS|10TM?|8TX?|10MB|10YC|7RS|[78]M?RC|7M|8S[TL]|8RX|8MG|11 BT|10BT_V2)|HT[ _](?:7RT|8MZ)|7_PREMIUM_PRO)(?:[);/ ]|$)";
  "(?i)(Ideal (?:10S|Tab 9|8S))(?:[);/ ]|$)";
  "(?i)ALFA[_ ]?10TX_PRO";
  "(?i)ALFA[_ ]?(10R[CX]|10YC|10BS|10T[BMX]?|7RS|[78]M?RC|7L?M|10MB|8TX?|8S[TL]|8RX|8MG|11 BT|10BT_V2)(?:[);/ ]|$)";
  "(?i)Ideal Tab 7 Ips( 3G)?";
  "(?i)HT[ _](7RT|8MZ)(?:[);/ ]|$)";
  "(?i)Homtom|(?:HT[0-9]{1,2}(?: ?Pro)?|HT3_Pro|P30 Pro|android 8([\d.]*);(?: [\w-]+;)? S17)(?:[);/ ]|$)";
  "(?i)(?:Homtom[_ ])?HT ?([0-9]{1,2})[ _]?Pro(?:[);/ ]|$)";
  "(?i)(?:Homtom[_ ])?HT ?([0-9]{1,2}?)(?:[);/ ]|$)";
  "(?i)Homtom ([^;/]+) Build";
  "(?i)(?:EDA5[01]K?|EDA[47]0|EDA71_G|EDA5[12]|CK65|CT[46]0|CT45P|CN80|EDA61K)(?:[);/ ]|$)";
  "(?i)(CT45P)(?:[);/ ]|$)";
  "(?i)(EDA5[01]K?|EDA[47]0|EDA5[12]|EDA61K)(?:[);/ ]|$)";
  "(?i)(CK65|CT[46]0|CN80)(?:[);/ ]|$)";
  "(?i)(?:HONOR[ _]?|HW-)?(?:FCP-(?:N49|AN10)|AGM3-(?:W|AL)09HN|LGN-LX[1-3]|HEY3-(?:W00|N09)|HEY2-N09|HEY2?-W09|ELN2-[WL]29|ELN-(?:L0[39]|W09)|AGR-(?:W|AL)09HN|NDL-[LW]09|AGM-W09HN|KOB2-(?:AL00|W09)HN|BRT-(?:AN09|W09)|KRJ2-(?:AN00|W09)|ROD-W[01]9|ROD2-(?:W09|W69)|ROL-W[06]0|GDI-W09|NIC-(?:LX[1-3]|AN00)|WOD-LX[1-3]|AGI-AN00|BRP-(?:NX[13]|NX1M|AN[08]0)|BRC-(?:AN00|NX1)|LYN-AN00|ALP-AN00|ALI-(?:NX[13]|AN00)|LLY-AN00|CRT-(?:NX[13]|LX[123]|AN00)|GFY-(?:LX2|LX2P)|VNA-(?:LX[23])|ANY-(?:LX[123]|NX1)|DNP-(?:NX9|AN00)|DNY-NX9|RMO-(?:NX[13]|AN00)|ADT-AN00|DIO-AN00|CLK-AN00|HJC-(?:LX9|AN90)|KOZ-(?:AL00|AL00CM|AL40)|CHL-A[NL]00|CMA-(?:AN[04]0|LX[123])|NEW-AN90|NZA-AL00?|ALT-(?:AN00|LX[123]|NX[13])|CLK-(?:[LN]X[123])|RKY-(?:LX[123]|AN[01]0)|NNH-AN00|VNE-(?:AN[04]0|LX[123]|N41)|JDY-(?:AN00|LX[123])|DVD-AN[08]0|PTP-(?:AN[01267]0|N[245]9)|BVL-(?:AN[02]0|N[45]9|AN16)|MGI-AN00|PGT-(?:N[01]9|AN[012]0)|LGE-(?:AN[012]0|NX9|N49B)|GBD-NX9|ELZ-AN[012]0|FLC-AN00|FRI-(?:AN[10]0|NX9)|VER-(?:AN[01]0|N49|N49DP)|AMP-AN[01]0|AMM-AN00|HPB-AN00|GIA-AN[08]0|ANN-AN00|ANB-AN00|AGT-AN00|ANP-AN00|SDY-AN00|FNE-(?:NX9|AN00)|MAA-AN00|MAA-AN10|REP-AN00|MAG-AN00|REA-(?:NX9|AN00)|RTG-NX9|AMG-AN00|VCA-AN00|TNA-AN00|LSA-AN00|RNA-[AT]N00|NTN-(?:LX[13]|L22|AN20)|NTH-(?:NX9|AN00)|WDY-(?:LX[123]|AN00)|ELP-(?:AN00|NX9)|ELI-(?:AN00|NX9)|LLY-NX1|ABR-(?:NX1|LX[123]|AN00)|LLY-LX[123]|RBN-NX[13]|DNN-AN00|MTN-(?:NX1M?|AN[08]0)|JLH-AN00|MBH-(?:AN10|N49)|BKQ-(?:AN10|N49)|CLE-AN00|ELA-LX[23]|TFY-(?:LX[123]|AN40)|LRA-AN00|LOG-AN00|PPG-AN00|NLA-LX2P?|MEP-AN00|MEY-AN00)(?:[);/ ]|$)";
  "(?i)MBH-(?:AN10|N49)";
  "(?i)ELA-LX[23]";
  "(?i)BKQ-(?:AN10|N49)";
  "(?i)ALT-LX[123]";
  "(?i)LGN-LX[1-3]";
  "(?i)DVD-AN[08]0";
  "(?i)FCP-(?:AN10|N49)";
  "(?i)MTN-AN[08]0";
  "(?i)ABR-LX[123]";
  "(?i)ELI-(?:AN00|NX9)";
  "(?i)ELP-(?:AN00|NX9)";
  "(?i)BVL-AN16|BVL-N49";
  "(?i)BVL-(?:AN20|N59)";
  "(?i)PTP-(?:AN[06]0|N29)";
  "(?i)PTP-(?:AN20|N59)";
  "(?i)PTP-(?:N49|AN[17]0)";
  "(?i)BRP-(?:NX3|NX1M)";
  "(?i)DNN-AN00|DNY-NX9";
  "(?i)DNP-NX9|DNP-AN00";
  "(?i)BRP-NX1";
  "(?i)NLA-LX[23]";
  "(?i)BRP-AN[08]0";
  "(?i)WOD-LX[1-3]";
  "(?i)NIC-LX[1-3]";
  "(?i)RKY-LX[123]";
  "(?i)CLK-LX[123]";
  "(?i)CRT-LX[123]";
  "(?i)LLY-LX[123]";
  "(?i)WDY-LX[123]";
  "(?i)JDY-LX[123]";
  "(?i)CRT-NX[13]";
  "(?i)CLK-NX[13]";
  "(?i)REA-(?:NX9|AN00)|RTG-NX9";
  "(?i)VER-(?:AN10|N49)";
  "(?i)MGI-AN00|PGT-(?:N09|AN00)";
  "(?i)PGT-(?:AN10|N19)";
  "(?i)CMA-LX[123]";
  "(?i)TFY-LX[123]";
  "(?i)LGE-(?:AN10|NX9|N49B)|GBD-NX9";
  "(?i)ANY-(?:NX1)";
  "(?i)ANY-LX[23]";
  "(?i)VNA-LX[23]";
  "(?i)VNE-LX[123]";
  "(?i)NTH-(?:NX9|AN00)";
  "(?i)NTN-(?:LX[13]|L22)(?:[);/ ]|$)";
  "(?i)RNA-[AT]N00";
  "(?i)(?:NZA-AL00?|KOZ-AL40)(?:[);/ ]|$)";
  "(?i)ELN-L0[39]";
  "(?i)(?:HOOZO[_ ](MT232|MT116|MT Pad 116 LTE|X1001)|F13_EEA|MZ104|HZ0010J?|HZ1012|YK_P30(?:_EEA)?)(?:[);/ ]|$)";
  "(?i)HOOZO[_ ](MT232|MT116|MT Pad 116 LTE|X1001|MZ104)(?:[);/ ]|$)";
  "(?i)(HZ0010J?|HZ1012)(?:[);/ ]|$)";
  "(?i)F13_EEA(?:[);/ ]|$)";
  "(?i)(YK_P30)(?:_EEA)?(?:[);/ ]|$)";
  "(?i)HY(?:416|820)(?:[);/ ]|$)";
  "(?i)HY(416|820)(?:[);/ ]|$)";
  "(?i)(WEE5-75EU-FDVB)(?:[);/ ]|$)";
  "(?i)(?:Horizont[_ ])?(32LE7011D|24LE7011D|43LE7022D|32LE705[12]D|65LE7053D|43LE7052D|50LE7053D|55LE7053D)";
  "(?i)HOSIN[ _-]";
  "(?i)HOSIN[ _-]([^;/]+) Build";
  "(?i)HOSIN[ _-]([^;/]+)(?:[;/)]|$)";
  "(?i)(?:HPP-(GS1|L55B)|VLE5|Puya|HPPL6[03]A)(?:[);/ ]|$)";
  "(?i)(?:Venus[_ ](?:X[12]|X1[0245679]|R8 PLUS|R[236-9]|R1[028]|X16-1)|Cosmos[ _](?:V8_lite|V19_Plus|V2[0-3]|U2?|V1[359]|V[45689]|V8-2)|Pearl K[123]|Magic Q8|Magic 5 Plus|Magic (?:[89]|1[13])|Hot[_ ]6|Symbol (?:M1|X|Max|R60|Pro|S4)|Symbol|Note 12 EF|Cyber (?:[78X]|1[35])|Cyber (?:9|1[36]|X) Pro|Cosmos|W10 Pro|TAB R8|TAB R[57]|TAB R[69] (?:Pro|Ultra|Plus)|T5 Pro| M5i|Hyper 7(?: Pro|S)?|Note 18 GT)(?:[);/ ]|$)|(?:Android 8(?:[\d.]*);(?: [\w-]+;)? M5 Plus|Android 12(?:[\d.]*);(?: [\w-]+;)? W10|Android 13(?:[\d.]*);(?: [\w-]+;)? (?:T7(?: Pro)?|T5 Max|W11))(?: Build|[;)])";
  "(?i)Cosmos[ _]V8_lite(?:[);/ ]|$)";
  "(?i)Hot[_ ]6?(?:[);/ ]|$)";
  "(?i)Venus[_ ]X16(?:-1)?(?:[);/ ]|$)";
  "(?i)Venus[_ ](X[12]|X1[0245679]|R[236-9]|R1[028])(?:[);/ ]|$)";
  "(?i)Cyber (\d*|X) Pro";
  "(?i)Cyber (\d*)";
  "(?i)Symbol (S4|M1)";
  "(?i)(W10|T[57]) Pro";
  "(?i)W10?(?:[);/ ]|$)";
  "(?i)(T7)(?:[);/ ]|$)";
  "(?i)M5i(?:[);/ ]|$)";
  "(?i)W11(?:[);/ ]|$)";
  "(?i)Pearl K(3) (2021)";
  "(?i)TAB R([569]) Pro";
  "(?i)TAB R([9]) Plus";
  "(?i)TAB R([578])";
  "(?i)(Cosmos[ _](?:V19_Plus|V2[0-3]|U2?|V1[359]|V[45689])|Pearl K[123](?: Prime)?|Magic Q8|Magic 5 Plus|Magic (?:[89]|1[13])|Symbol (?:X|Max)|Cosmos|M5 Plus)(?:-2)?(?:[);/ ]|$)";
  "(?i)(?:HT-705XS|705-G Go|1001-G Go)(?:[);/ ]|$)";
  "(?i)(HT-705XS)(?:[);/ ]|$)";
  "(?i)(1001-G Go)(?:[);/ ]|$)";
  "(?i)(705-G Go)(?:[);/ ]|$)";
  "(?i)Huadoo[ _]|(?: HG11)(?:[);/ ]|$)";
  "(?i)Huadoo[ _](HG0[46]|HG11|V[34])";
  "(?i)HG11(?:[);/ ]|$)";
  "(?i)Huagan[ _]";
  "(?i)Huagan[ _]([^;/)]+)(?: Build|[);])";
  "(?i)KHATAR H-(?:10 mini|20 PRO)(?:[);/ ]|$)";
  "(?i)KHATAR H-10 mini(?:[);/ ]|$)";
  "(?i)KHATAR H-20 PRO(?:[);/ ]|$)";
  "(?i)Honor|Ideos (?:Build/|[;])|HONOR_H30-L01M|(?:HW-)?HUAWEI[_ ]?|EC6108V|dtab01|MediaPad (?:7|10)|(?:Build/HUAWEI|(?:HW-)?HUAWEI)?(?:d-01[HKJ]|d-02[HK]|JSN-(?:L2[1-3]|L42|[TA]L00[a]?)|YOK-AN10|ASK-AL(?:00x|20)|DNN-LX9|KANT-(?:3[67]0|370S|3[56]0S|350[BC]|3[56]9)|BLM-00|COL-(?:AL[01]0|TL[01]0|L29|L10)|JAT-(?:L29|LX[13]|L41|[AT]L00)|ARC-AL00|GLL-AL01|LEO-(?:BX9|DLXXE?)|TFY-(?:AN00)|BZD-(?:W00|AL00)|MXW-[AT]N00|BZT3-(?:AL00|W09)|BZI-(?:W[02]0|AL[02]0)|BZT-(?:AL[01]0|W09)|AGRK-[WL]09|T1-82(?:3L|1W)|MediaPad T1|T1-701u|T1-(?:A21[LW]|A2[23]L)|FDR-(A01[LW]|A03L)|60[56]HW|JDN-(?:L01|AL00|W09)|BGO-(?:DL09|L03)|PLE-70[13]L|BG2-(?:U0[13]|W09)|KOB-[LW]09|PE-(?:[CU]L00|TL[12]0|TL00M)|BZK-[LW]00|AGS-(?:L0[39]|W09)|OXP-AN00|AGR-[LW]09|KOB2-(?:[LW]09|L03)|Kobe3-L09|AGS2-(?:[LW]09|W09HN|W19|L03|AL00|AL00HN)|BAH-(?:L09|AL00)|BAH-W09|Bach-W09|ANY-AN00|BLN-(?:L2[124]|AL[1-4]0|TL[01]0)|CPN-(?:[LW]09|AL00)|701HW|BTV-(?:DL09|W09)|SCM-W09|VRD-(?:(AL|W)09|AL10|W10)|SHT-(?:AL|W)09|JDN2-(:?[WL]09|AL[50]0)|JDN2-(?:AL[05]0|W09)HN|BAH2-(?:AL[01]0|L09|W[01]9)|GEM-70[1-3]L|SCM-AL09|CMR-(?:AL[01]9|W09|W19)|WEB-W0[09]|PCE-W(?:29|[34]0)|PCT-(?:L29|[TA]L10)|WGR-AN19|WGRR?-W[10]9|MRX-(?:AN19|W[0-3]9|AL[01]9)|MRO-W09|MRR-W[23]9|M2-801W|M2-A01L|M2-80[123]L|LND-(?:AL[34]0|L29|TL[34]0)|BZT4-W19|BZW-AL[01]0|BZC-(?:W00|AL00)|BZA-[LW]00|MON-(?:W19|AL19B?)|HMW-W09|TGR-(?:W0[09]|W10)|BTKR-W09|BTK-(?:W09|AL09)|DBY2-(?:L09|L09CK|W0[09])|AGS5-(?:L09|AL00|W0[09])|AGS3K-(?:L09|W0[90]|W20)|AGS3-(A?L09|AL00|W00[DE]|AL09HN|W09HN|W0?9)|SCMR-(?:AL09|W09)|XYAO-W00|GOT-(?:W[02]9|AL[01]9)|DBR-W1[09]|BKY-W09|AGS6-[LW]09|DB[YR]-W09|BAH3-(?:AN10|AL00|[LW]09|W59)|BAH4-(?:L09|AL10|W29|W[03]9)|HWT31|BVE-W10|GRL-(?:AL10|LX9)|Nexus 6P|G6-L11|Ultym5|CM990|NMO-L31|302HW|LTK-LX3|JKM-(?:[TA]L00[ab]?|LX[123]|L03)|FLA-(LX[123]|AL20|TL10|L23)|AQM-(?:LX1|[AT]L[01]0)|Peppa-(?:L2[23]B|L0[23]B)|LDN-(?:LX[23]|TL10|L01|AL00|L21)|DUB-(?:LX[123]|TL00|AL20|AL00a?)|CAM-L(?:03|2[13]|32)|CAM-(?:[ATU]L00|TL00H)(?:_TD)?|Y635-(?:L21|L0[123])|Y625-U03|M[ER]D-LX2|Y6 Pro 2019|TIT-(?:AL00|L01|U02)|ATU-L(?:31|42)|Y6Prime|MRD-L(?:X1[NF]?|X3)|Y6 2019|ATU-L(?:11|2[12]|X3)|SCC-U21|(?:HW-)?SCL-(?:AL00|CL00|TL00H?|L21|U31|L0[1-4]|L32)(?:_TD)?|CUN-(?:L(?:[02][1-3]|33)|U29|[AT]L00)|DRA-(?:LX[2359]|[AT]L00|L0[13]|L2[13])|CAG-(?:L[02]3|L[02]2)|AMN-LX[1239]|MYA-(?:TL10|L(?:0[23]|2[123]|41|1[13])|AL10|U29)|LUA-(?:U22|L2[12]|U03)|CRO-(?:L[02][23]|U00)|ARS-(?:[AT]L00|L22)|U(?:8230|8661|8667)|ATH-(?:[CAU]L00|TL00H?|UL0[16])|MLA-(?:TL[01]0|AL10|L1[12])|VIE-(?:AL10|L[02]9)|SLA-L(?:02|03|22|23)|VNS-(?:L(?:[23]1|[26]2|5[23]|23)|[AT]L00)|EVA-(?:AL[10]0|L[012]9|[TCD]L00)|PRA-(?:LA1|LX[1-3]|AL00X?|TL10)|hi6210sft|ALE-(?:[TUC]L00|L02|L2[13])|503HW|GRA-(?:L09|[TU]L00|UL10)|ELS-(?:[AT]N00|NX9|N04|AN10|N[23]9)|NEY-NX9|ART-(?:L29N|L2[89]|[AT]L00[xm]?)|JNY-(?:LX[12]|L[02]1|[AT]L10)|VOG-(?:L(?:04|09|29)|[AT]L00|AL10)|HW-02L|Marie-L21BX|MAR-(?:LX(?:1[BMH]|2B|[13]Am?|2J?|3BM)|[AT]L00|L21B|L21ME[AB])|NIC-LX1A|HWV33|ELE-(?:[AT]L00|L0[49]|L29)|CLT-(?:AL0[01]|TL0[01]|L0J|L(?:04|[02]9))l?|HW-01K|ANE-(?:LX[123]|LX2J|L2[23]|TL00)|HWV32|EML-(?:[TA]L00|L[02]9)|VKY-(?:[AT]L00|L09|L29)|WAS-(?:L(?:X1|X1A|X2|X2J|X3|03T)|TL10|AL00)|VTR-(?:L[02]9|AL00|TL00)|P Smart S|STK-(?:LX[13]|[AT]L00|L2[12])|PPA-LX[123]|POT-(?:LX(?:[123]|1[AT]|2J|1AF)|AL00|L01)|FIG-L(?:A1|X[123]|[13]1)|HRY-(?:AL00T[a]?|LX1T|[AT]L00A?|LX2|LX1MEB)|STG-(?:LX[12]|AL00)|CTR-(?:LX[123]|AL[02]0|L[89]1)|CHW-LX3|GFY-(?:LX1|AL00)|HLK-(?:AL10|L4[12]|AL00a?)|EVE-LX[39]|WKG-(?:LX9|[AT]N00)|Wukong-L29A|nova Y60|Enjoy 20 5G|CHA-AL80|BNE-(?:LX[13]|AL00)|NCO-(?:AL00|LX[13])|GLA-(?:LX[13]|AL00)|JLN-(?:AL00|LX[13])|JuliaQN-(?:L[02]1B|L23A)|RTE-AL00|NAM-(?:AL00|LX9)|ANG-(?:LX[12]|AN00)|Angela-(?:L2[12]B|L02B)|nova 8|BRQ-A[LN]00|CHL-AL60|JSC-(?:AL50|AN00)|nova 8 SE|NEN-L(?:X[13]|22)|nova 8i|nova 7i|TLR-AL00|BLK-(?:AL[08]0|LX9)|ADA-(?:AL00|AL[01]0U)|BON-AL00|FIN-AL60a?|FOA-(?:LX9|AL00)|GOA-(?:LX9|AL80|AL80U)|CDY-(?:[AT]N[02]0|NX9[AB]|AN9[05]|TN90)|CDL-AN50|CND-AN00|nova 7 SE 5G|JER-(?:[AT]N10|[AT]N20)|nova 7 Pro 5G|JEF-(?:[AT]N00|[AT]N20|NX9)|nova 7 5G|WLZ-(?:[AT]N00|AL10)|nova 6|nova 6SE|nova 6 5G|SPN-[AT]L00|nova 5T Pro|YAL-(?:L[26]1|[AT]L[05]0|L41|AL10)|Yale-(?:L71A|L61D)|GLK-(?:[AT]L00|LX1U|LX[23])|SEA-(?:AL10|[AT]L00)|VCE-(L22|[AT]L00)|INE-(?:AL00|LX[12]r|LX[12]|TL00)|IVY-LX2|PAR-(?:[AT]L00|LX[19]|LX1M|TL20)|HWI-[AT]L00|BAC-(?:[AT]L00|L2[12]|L[02]3|L01)|704HW|nova Lite3Plus|608HW|CAZ-(?:AL[01]0|TL[12]0)|CAN-L[01][1-3]|BND-(?:AL[01]0|TL10|L[23][14])|CRR-(?:L09|UL[20]0|CL00)|NEO-(?:AL00|L29)|LON-(?:AL00(?:-PD)?|L29)|BLL-L2[123]|MHA-(?:L[02]9|[AT]L00)|M300-L09|NXT-(?:AL10|L[02]9)|BRA-AL00|ALN-AL[018]0|CET-(?:AL[06]0|LX9)|DCO-(?:AL00|LX9)|OCE-(?:A[NL]50|AN[01]0)|Mate 40 RS|NOP-AN00|ALA-AN70|NOH-(?:NX9|AN0[01]|AN[58]0|AL[01]0)|LIO-(?:[TA]L00|L[02]9|AN00[mP]?|N29|TN00|AL10)|Mate30 RS|TAS-(?:[AT]L00|L[02]9|AN00)|AMZ-L29|EVR-(?:[TA]L00|L29|N29|AN00)|LYA-(?:AL[01]0|AL00P|L[02]9|L0C|TL00)|PAN-L29|SNE-(?:AL00|LX[0-3]|L01)|HMA-(?:[AT]L00|L[02]9)|BLA-(?:A09|L[02]9|L29S|[TA]L00)|RNE-(?:AL00|L(?:0[123]|2[123]))|ALP-(?:[TA]L00|L[02]9|L09S|L29S)|TET-(?:A[NL]00|AN[15]0)|ICL-(?:AL[12]0|LX9)|ALT-AL10|ALT-(?:AL00|L29)|PAL-(?:AL00|LX9)|TAH-(?:N29|AN00)m?|Mate Xs|TYH601M|TNNH?-AN00|POT-(?:AL10|[TA]L00a)|RIO-(?:[ATU]L00|L0[123])|IDEOS[_ ]X5|U8[85]00|U8510|ANA-(?:AL00|N29|L[0X]4|NX9|[AT]N00)|G750-T01|Hol-U19|H30-(?:C00|L01M?|L02|U10|T00|T10)(?:_TD)?|U9508|U8860|LEM-AL00|BAL-(?:AL[068]0|L49)|ABR-(?:AL[0689]0|LX9)|JAD-(?:AL[0568]0|LX9)|LNA-(?:AL00|LX9)|MNA-(?:AL00|LX9)|KII-L2[12]|G621-TL00M?|CHC-U(?:0[13]|23)|G735-L(?:03|12|23)|U8665|MLD-AL[01]0|Enjoy 20e Helio P35|FRL-(?:L2[123]|[AT]N00a?)|Enjoy 20 Plus 5G|PPA-AL20|Enjoy 20 SE|Enjoy Z 5G|DVC-(?:[AT]N20|AN00)|Enjoy 20 Pro 5G|MRD-[TA]L00|ATU-[AT]L10|FLA-AL[01]0|LDN-(?:AL[12]0|TL[02]0)|TRT-(?:AL00[A]?|L21A|L53|LX[123]|TL10A?)|FIG-(?:[AT]L[10]0)|SLA-(?:AL00|TL10)|DIG-(?:TL10|AL00|L0[13]|L2[123])(?:HN)?|NCE-(AL[10]0|TL10)|TAG-(?:L0[13]|L32|L13|L2[123]|[ACT]L00)|FGD-AL00|MAO-(?:AL00|LX9N?)|MGA-(?:AL[04]0|LX9N|LX[39])|EVE-AL00|MED-(?:[AT]L00|AL20|LX9N?)|PLA-AL10|CLS-AL[03]0|PLR-(?:AL[03]0|L29)|PLU-AL10|LMU-LX9|HED-LX9|HBN-(?:AL[018]0|LX9)|HBP-(?:AL00|LX9)|ADY-(?:AL[01]0|LX9)|PIC-LX9|MT2L03|Y550-L03|Y530|HW-H30-C00|H30-T[01]0|HN3-U01|LYO-(?:L0[12]|L21)|G7-TL00|H1711|Y(?:221|3[23]0|541)-U\d{2}|MIS-LX9|NEM-(?:AL10|L51|UL10|TL00|L2[12]|TL00H)|RVL-AL09|G7-L01|G527-U081|G620S-L03|C8817D|G630-U251|Maimang 9|Enjoy 10e|BKL-(?:AL[023]0|L09S|L0[49]|TL10)|STF-(?:AL[10]0|L09S?|TL10)|KSA-(?:LX[239]|AL[10]0)|MOA-(?:AL[02]0|TL00|LX9N)|BMH-(?:AN[12]0|TN10)|KKG-AN[07]0|EBG-(?:AN10|N19|[AT]N00)|LRA-(?:LX1|[AT]L00)|COR-(?:AL[01]0|L29|TL10)|ARE-(?:AL[10]0|L22(?:HN)?|TL00)|KOB2K-L09|HWV31|IDEOS S7(?: Slim)?|AUM-(?:L29|L33|L41)|PLK-(?:AL10|CL00|TL00|TL01H?|UL00|L01)|CHE2?-[UT]L00[HM]?|CHE1-CL[12]0|CHE2-L(?:1[12]|23)|Che1-L04|CHE-TL00H?|MOGOLIA|VNA-L29|Holly-U19|CHM-(?:[CUT]L00[HM]?|U01)|HDN-[LW]09|KRJ-(?:W09|AN00)|HDL-(?:W|AL)09|KIW-(?:AL10|TL00H|[TC]L00|L2[1-4]|UL00)(?:_TD)?|DLI-(?:AL10|L[24]2|TL20)|JMM-(?:L22|[AT]L[01]0)|BKK-(?:AL[10]0|L2[12]|LX2|TL00)|VEN-L22|DUK-(?:L09|TL30|AL20)|VAT-L19|FRD-(?:AL[01]0|L0[249]|L1[49]|DL00)|DUA-(?:L22|LX[39]|[TA]L00)|TEL-(?:AN(?:00a?|10)|TN00)|OXF-AN[01]0|EDI-AL10|KNT-(?:AL[12]0|[TU]L10)|TNY-[AT]L00|NTS-AL00|AKA-(?:L29|AL10)|LLD-(?:AL[0123]0|L[23]1|TL10)|KJR-W09|(?:HW-)?H60-(?:J1|L0[1-4]|L1[12])(?:_TD)?)(?:[);/ ]|$)";
  "(?i)ADY-(?:AL[01]0|LX9)";
  "(?i)HBP-(?:AL00|LX9)";
  "(?i)HBN-(?:AL00|LX9)";
  "(?i)HBN-(?:AL[18]0)";
  "(?i)PLR-(?:AL[03]0|L29)";
  "(?i)CLS-AL[03]0";
  "(?i)POT-[TA]L00a(?:[);/ ]|$)";
  "(?i)U9500(?:[);/ ]|$)";
  "(?i)Z100-UL00(?:[);/ ]|$)";
  "(?i)Y530(?:[);/ ]|$)";
  "(?i)Y320-(?:U10|T00|U05)(?:[);/ ]|$)";
  "(?i)Y330-U05(?:[);/ ]|$)";
  "(?i)Y541-U02(?:[);/ ]|$)";
  "(?i)U8818(?:[);/ ]|$)";
  "(?i)G527-U081(?:[);/ ]|$)";
  "(?i)(G620S-L0[13]|C8817D)(?:[);/ ]|$)";
  "(?i)G630-U251(?:[);/ ]|$)";
  "(?i)G7-(?:L01|TL00)(?:[);/ ]|$)";
  "(?i)P7-L(?:10|07)(?:[);/ ]|$)";
  "(?i)P6 ?S-U06";
  "(?i)G730-C00(?:[);/ ]|$)";
  "(?i)U9200(?:[);/ ]|$)";
  "(?i)H1711(?:[);/ ]|$)";
  "(?i)Y221-U(?:[12]2|[0345]3)(?:[);/ ]|$)";
  "(?i)Y550-L03(?:[);/ ]|$)";
  "(?i)Y560-L01(?:[);/ ]|$)";
  "(?i)Huawei g700(?:-(?:U[012]0|T0[01]))?";
  "(?i)ART-[AT]L00[xm]?(?:[);/ ]|$)";
  "(?i)STK-[AT]L00(?:[);/ ]|$)";
  "(?i)MED-(?:[AT]L00|AL20)(?:[);/ ]|$)|Enjoy 10e";
  "(?i)AQM-[AT]L00(?:[);/ ]|$)";
  "(?i)TAG-[ACT]L00(?:[);/ ]|$)"
].
Definition d_dr_re0_17 : list blob := [
  "(?i)TAG-(?:L0[13]|L32|L13|L2[123])(?:[);/ ]|$)";
  "(?i)NCE-(AL[10]0|TL10)(?:[);/ ]|$)";
  "(?i)DIG-(?:TL10|AL00)(?:[);/ ]|$)";
  "(?i)SLA-(?:AL00|TL10)(?:[);/ ]|$)";
  "(?i)FIG-(?:[AT]L[10]0)(?:[);/ ]|$)";
  "(?i)(?:TRT-AL00[A]?|TRT-TL10A)(?:[);/ ]|$)";
  "(?i)LDN-(?:AL[12]0|TL[02]0)(?:[);/ ]|$)";
  "(?i)FLA-AL[01]0(?:[);/ ]|$)";
  "(?i)ATU-[AT]L10(?:[);/ ]|$)";
  "(?i)MRD-[TA]L00(?:[);/ ]|$)";
  "(?i)DVC-[AT]N20|Enjoy 20 Pro 5G";
  "(?i)(?:DVC-AN00|Enjoy Z 5G)(?:[);/ ]|$)";
  "(?i)(?:PPA-AL20|Enjoy 20 SE)(?:[);/ ]|$)";
  "(?i)FRL-[AT]N00|Enjoy 20 Plus 5G";
  "(?i)MLD-AL[01]0|Enjoy 20e Helio P35";
  "(?i)U8665(?:[);/ ]|$)";
  "(?i)MED-LX9N?(?:[);/ ]|$)";
  "(?i)G735-L(?:03|12|23)(?:[);/ ]|$)";
  "(?i)CHC-U(?:0[13]|23)(?:[);/ ]|$)";
  "(?i)(?:Honor_|HW-)?G621-TL00M?(?:[);/ ]|$)";
  "(?i)DIG-L2[12](?:[);/ ]|$)";
  "(?i)KII-L2[12]";
  "(?i)BLL-L2[12]";
  "(?i)RIO-L0[12]";
  "(?i)RIO-[UT]L00";
  "(?i)MNA-(?:AL00|LX9)";
  "(?i)LNA-(?:AL00|LX9)";
  "(?i)JAD-(?:AL[0568]0|LX9)(?:[);/ ]|$)";
  "(?i)ABR-(?:AL[08]0|LX9)";
  "(?i)ABR-AL[69]0";
  "(?i)BAL-(?:AL[08]0|L49)";
  "(?i)U8860(?:[);/ ]|$)";
  "(?i)U9508(?:[);/ ]|$)";
  "(?i)(?:Honor_|HW-)?H30-(?:C00|L01M?|L02|U10|T00|T10)(?:_TD)?(?:[);/ ]|$)";
  "(?i)Hol-U19(?:[);/ ]|$)";
  "(?i)G750-T01(?:[);/ ]|$)";
  "(?i)KRJ-AN00|Honor V6 5G";
  "(?i)KJR-W09|KRJ-W09|Honor V6 Wi-Fi";
  "(?i)EBG-[AT]N00";
  "(?i)(?:EBG-AN10|EBG-N19|Honor 30 Pro\+)(?:[);/ ]|$)";
  "(?i)(?:CDY-(?:AN9[05]|NX9A|TN90)|Honor 30S)(?:[);/ ]|$)";
  "(?i)LRA-LX1(?:[);/ ]|$)";
  "(?i)(?:MXW-[AT]N00|Honor 30 Lite)(?:[);/ ]|$)";
  "(?i)(?:BMH-(?:AN[12]0|TN10)|Honor 30)(?:[);/ ]|$)";
  "(?i)(?:OXP-AN00|Honor Play 4T Pro)(?:[);/ ]|$)";
  "(?i)(?:AKA-AL10|Honor Play 4T)(?:[);/ ]|$)";
  "(?i)(?:JAT-L41|Honor 8A Pro)(?:[);/ ]|$)";
  "(?i)(?:MOA-LX9N|Honor 9A)(?:[);/ ]|$)";
  "(?i)(?:AKA-L29|Honor 9C)(?:[);/ ]|$)";
  "(?i)(?:KKG-AN00|Honor X10 Max)(?:[);/ ]|$)";
  "(?i)(?:DNN-LX9|Honor X10 Lite)";
  "(?i)(?:TEL-(?:AN(?:00a?|10)|TN00)|Honor X10 5G)(?:[);/ ]|$)";
  "(?i)MOA-(?:AL[02]0|TL00)";
  "(?i)HRY-(?:[AT]L00[A]?|LX[12]|L21|LX1MEB)(?:[);/ ]|$)";
  "(?i)(?:HRY-LX1T|Honor 10i)(?:[);/ ]|$)";
  "(?i)(?:LRA-[AT]L00|Honor 20 Lite)(?:[);/ ]|$)";
  "(?i)(HRY-AL00T[a]?|Honor 20i)(?:[);/ ]|$)";
  "(?i)(?:YAL-(?:L41|AL10)|Honor 20 Pro)(?:[);/ ]|$)";
  "(?i)(?:MAR-LX1H|YAL-[AT]L50)(?:[);/ ]|$)";
  "(?i)(?:YAL-(?:L21|[AT]L00)|Honor 20)(?:[);/ ]|$)";
  "(?i)(?:KSA-AL10|Honor Play 3e)(?:[);/ ]|$)";
  "(?i)(?:ASK-AL(?:00x|20)|Honor Play 3)(?:[);/ ]|$)";
  "(?i)CHM-[CUT]L00[HM]?(?:[);/ ]|$)";
  "(?i)(?:JAT-L(29|X[13])|Honor 8A)(?:[);/ ]|$)";
  "(?i)(?:KSA-(LX[239]|AL00)|Honor 8S)(?:[);/ ]|$)";
  "(?i)(?:DUA-LX9|Honor 9S)(?:[);/ ]|$)";
  "(?i)(?:HLK-(?:AL10|L4[12])|Honor 9x Pro)(?:[);/ ]|$)";
  "(?i)(?:HLK-AL00a?|Honor 9x)(?:[);/ ]|$)";
  "(?i)DUA-[TA]L00";
  "(?i)JAT-[AT]L00|Honor Play 8A";
  "(?i)COL-(?:[AT]L[01]0|L29|L10)(?:[);/ ]|$)";
  "(?i)BKK-(?:AL[01]0|L2[12]|LX2|TL00)";
  "(?i)JSN-(?:L2[123]|L42|[TA]L00[a]?)";
  "(?i)ARE-(?:AL[10]0|L22(?:HN)?|TL00)";
  "(?i)TNY-[AT]L00";
  "(?i)PCT-(?:[TA]L10)";
  "(?i)(?:VNA|PCT)-L29";
  "(?i)(?:Honor_|HW-)?CUN-[AT]L00(?:[);/ ]|$)";
  "(?i)AUM-(?:AL[20]0|L33[A]?|TL20)(?:[);/ ]|$)";
  "(?i)AUM-L29(?:[);/ ]|$)";
  "(?i)(?:Honor_|HW-)?(?:LND-(?:AL[34]0|L29|TL[34]0)|AUM-L41)(?:[);/ ]|$)";
  "(?i)(?:Honor_|HW-)?DUA-(?:L22|LX3)(?:[);/ ]|$)";
  "(?i)PRA-(?:AL00X|AL00|TL10)";
  "(?i)COR-(?:AL[01]0|L29|TL10)";
  "(?i)STF-(?:AL[10]0|L09S?|TL10)";
  "(?i)LLD-(?:AL[01]0|L[23]1|TL10)";
  "(?i)LLD-AL[23]0";
  "(?i)BKL-(?:L04|L09S)";
  "(?i)BKL-(?:AL[023]0|L09|TL10)";
  "(?i)(?:HONOR[ _]?)?BND-(?:AL[01]0|TL10|L2[14]|L31)";
  "(?i)(?:HONOR[ _]?)?DLI-(?:AL10|L[24]2|TL20)(?:[);/ ]|$)";
  "(?i)JMM-L22(?:[);/ ]|$)";
  "(?i)DUK-(?:L09|TL30)";
  "(?i)JMM-[AT]L[01]0";
  "(?i)Honor 4c Pro(?:[);/ ]|$)";
  "(?i)AQM-[AT]L10(?:[);/ ]|$)";
  "(?i)(?:Honor_|HW-)?CAM-(?:AL00|TL00H|TL00)(?:_TD)?(?:[);/ ]|$)";
  "(?i)(?:Honor_|HW-)?NEM-(?:AL10|L51|UL10|TL00)(?:[);/ ]|$)";
  "(?i)(?:Honor_|HW-)?NEM-(?:L22|TL00H)(?:[);/ ]|$)";
  "(?i)(?:HONOR[ _]?)?BLN-(?:L2[124]|AL[1-4]0|TL[01]0(?:[);/ ]|$))";
  "(?i)(?:Honor_|HW-)?NEM-L21(?:[);/ ]|$)";
  "(?i)(?:FRD-(?:AL[01]0|L0[249]|L1[49]|DL00)|VAT-L19)(?:[);/ ]|$)";
  "(?i)KNT-(?:AL[12]0|[TU]L10)";
  "(?i)(?:Honor_|HW-)?SCL-(?:AL00|CL00|TL00H?)(?:_TD)?(?:[);/ ]|$)";
  "(?i)(?:Honor_|HW-)?CHM-U01(?:_TD)?(?:[);/ ]|$)";
  "(?i)(?:Honor_|HW-)?KIW-(?:AL10|TL00H|[TC]L00|L2[1-4]|UL00)(?:_TD)?(?:[);/ ]|$)";
  "(?i)(?:Honor[_]?|HW-)?PLK-(?:AL10|CL00|TL00|TL01H?|UL00|L01)(?:[);/ ]|$)";
  "(?i)ATH-(?:[CAU]L00|TL00H?)(?:[);/ ]|$)";
  "(?i)(?:CHE2?-[UT]L00[HM]?|CHE1-CL[12]0|CHE2-L(?:1[12]|23)|Che1-L04|CHE-TL00)(?:[);/ ]|$)";
  "(?i)((?:Honor_|HW-)?H60-L(?:01|02|03|04|11|12)(?:_TD)?|HW-H60-J1|MOGOLIA)(?:[);/ ]|$)";
  "(?i)PE-(?:[CU]L00|TL[12]0|TL00M)(?:[);/ ]|$)";
  "(?i)(AGS2-AL00|JDN2-(?:AL00|W09))HN";
  "(?i)HDN-[LW]09";
  "(?i)HDL-(?:W09|AL09)";
  "(?i)JDN-(?:AL00|W09)";
  "(?i)(?:VOG-AL00|P30 Pro)(?:[);/ ]|$)";
  "(?i)ANA-(?:[AT]N00)";
  "(?i)ANA-(?:AL00|N29|L04)";
  "(?i)U8500(?:[);/ ]|$)";
  "(?i)U8510(?:[);/ ]|$)";
  "(?i)U8800(?:[);/ ]|$)";
  "(?i)IDEOS[_ ]X5[_ ]PRO(?:[);/ ]|$)";
  "(?i)MLA-AL10(?:[);/ ]|$)";
  "(?i)POT-AL10(?:[);/ ]|$)";
  "(?i)TNN-AN00(?:[);/ ]|$)";
  "(?i)Maimang (\d)(?:[);/ ]|$)";
  "(?i)(?:TAH-(?:N29|AN00)m|Mate Xs)(?:[);/ ]|$)";
  "(?i)PAL-(?:AL00|LX9)";
  "(?i)ALT-(?:AL00|L29)";
  "(?i)ICL-(?:AL[12]0|LX9)";
  "(?i)TET-(?:A[NL]00|AN10)";
  "(?i)ALP-(?:[TA]L00|L[02]9|L09S|L29S)(?:[);/ ]|$)";
  "(?i)RNE-(?:AL00|L(?:0[13]|2[13]))(?:[);/ ]|$)";
  "(?i)BLA-(?:A09|L[02]9|L29S|[TA]L00)(?:[);/ ]|$)";
  "(?i)HMA-(?:[AT]L00|L[02]9)(?:[);/ ]|$)";
  "(?i)SNE-(?:AL00|LX[0-3]|L01)(?:[);/ ]|$)";
  "(?i)(?:LYA-(?:AL[01]0|L[02]9|L0C|TL00)|PAN-L29)(?:[);/ ]|$)";
  "(?i)LYA-AL00P(?:[);/ ]|$)";
  "(?i)EVR-(?:[TA]L00|L29|N29|AN00)(?:[);/ ]|$)";
  "(?i)(?:TAS-([AT]L00|L[02]9)|AMZ-L29)(?:[);/ ]|$)";
  "(?i)(?:LIO-AN00P|Mate30 RS)(?:[);/ ]|$)";
  "(?i)SPN-AL00(?:[);/ ]|$)";
  "(?i)LIO-(?:[TA]L00|L[02]9|AN00)(?:[);/ ]|$)";
  "(?i)LIO-(?:N29|TN00|AL10)(?:[);/ ]|$)";
  "(?i)LIO-AN00m(?:[);/ ]|$)";
  "(?i)NOH-(?:NX9|AN0[01]|AN50|AL[01]0)(?:[);/ ]|$)";
  "(?i)NOP-AN00(?:[);/ ]|$)";
  "(?i)Mate 40 RS(?:[);/ ]|$)";
  "(?i)OCE-AN10(?:[);/ ]|$)";
  "(?i)OCE-(?:A[NL]50|AN00)(?:[);/ ]|$)";
  "(?i)DCO-(?:AL00|LX9)";
  "(?i)CET-(?:AL00|LX9)";
  "(?i)(?:ALN-AL[08]0|Mate 60 Pro)(?:[);/ ]|$)";
  "(?i)NXT-(?:AL10|L[02]9)(?:[);/ ]|$)";
  "(?i)(?:MHA-(?:L[02]9|[AT]L00)|M300-L09)(?:[);/ ]|$)";
  "(?i)BLL-L23(?:[);/ ]|$)";
  "(?i)LON-(?:AL00(?:-PD)?|L29)(?:[);/ ]|$)";
  "(?i)NEO-AL00(?:[);/ ]|$)";
  "(?i)NEO-L29(?:[);/ ]|$)";
  "(?i)CRR-(?:L09|UL[20]0|CL00)(?:[);/ ]|$)";
  "(?i)BND-L34(?:[);/ ]|$)";
  "(?i)(CAZ-(?:AL[01]0|TL[12]0)|CAN-L[01][1-3])(?:[);/ ]|$)";
  "(?i)(?:608HW|PRA-LX[23])(?:[);/ ]|$)";
  "(?i)MLA-L1[12](?:[);/ ]|$)";
  "(?i)nova Lite3Plus(?:[);/ ]|$)";
  "(?i)(?:PIC-(?:[AT]L00|LX9)|HWV31)(?:[);/ ]|$)";
  "(?i)704HW(?:[);/ ]|$)";
  "(?i)BAC-(?:L0[13]|TL00)(?:[);/ ]|$)";
  "(?i)BAC-(?:AL00|L2[12])(?:[);/ ]|$)";
  "(?i)RNE-L[02]2(?:[);/ ]|$)";
  "(?i)HWI-[AT]L00(?:[);/ ]|$)";
  "(?i)PAR-(?:[AT]L00|LX[19]|LX1M|TL20)(?:[);/ ]|$)";
  "(?i)ANE-AL00(?:[);/ ]|$)";
  "(?i)INE-(?:AL00|LX[12]r|LX[12]|TL00)|IVY-LX2";
  "(?i)VCE-(L22|[AT]L00)(?:[);/ ]|$)";
  "(?i)MAR-AL00(?:[);/ ]|$)";
  "(?i)SEA-[AT]L00(?:[);/ ]|$)";
  "(?i)SEA-AL10(?:[);/ ]|$)";
  "(?i)GLK-(?:[AT]L00|LX1U|LX[23])(?:[);/ ]|$)";
  "(?i)YAL-L61|Yale-(?:L71A|L61D)";
  "(?i)SPN-TL00(?:[);/ ]|$)";
  "(?i)(?:WLZ-[AT]N00|nova 6 5G)(?:[);/ ]|$)";
  "(?i)(?:JNY-[AT]L10|nova 6SE)(?:[);/ ]|$)";
  "(?i)(?:WLZ-AL10|nova 6)(?:[);/ ]|$)";
  "(?i)(?:JEF-(?:[AT]N00|[AT]N20|NX9)|nova 7 5G)(?:[);/ ]|$)";
  "(?i)(?:JER-(?:[AT]N10|[AT]N20)|nova 7 Pro 5G)(?:[);/ ]|$)";
  "(?i)(?:CDY-(?:[AT]N00|NX9B|[AT]N20)|CDL-AN50|CND-AN00|nova 7 SE 5G)(?:[);/ ]|$)";
  "(?i)GOA-(?:LX9|AL80)";
  "(?i)FOA-(?:LX9|AL00)";
  "(?i)FIN-AL60a?";
  "(?i)BLK-(?:AL80|LX9)";
  "(?i)(?:JNY-LX2|nova 7i)(?:[);/ ]|$)";
  "(?i)(?:NEN-L(?:X[13]|22)|nova 8i)(?:[);/ ]|$)";
  "(?i)ANG-AN00(?:[);/ ]|$)";
  "(?i)JSC-AL50|nova 8 SE";
  "(?i)BRQ-AL00(?:[);/ ]|$)";
  "(?i)BRQ-AN00(?:[);/ ]|$)";
  "(?i)(?:ANG-LX[12]|Angela-(?:L2[12]B|L02B)|nova 8)(?:[);/ ]|$)";
  "(?i)NAM-(?:AL00|LX9)(?:[);/ ]|$)";
  "(?i)RTE-AL00(?:[);/ ]|$)"
].
Definition d_dr_re0_18 : list blob := [
  "(?i)JLN-(?:AL00|LX[13])|JuliaQN-(?:L[02]1B|L23A)";
  "(?i)GLA-(?:LX[13]|AL00)";
  "(?i)NCO-(?:AL00|LX[13])";
  "(?i)BNE-(?:LX[13]|AL00)";
  "(?i)DIG-L01(?:[);/ ]|$)";
  "(?i)WAS-AL00(?:[);/ ]|$)";
  "(?i)WKG-[AT]N00|Enjoy 20 5G";
  "(?i)(?:WKG-LX9|Wukong-L29A|nova Y60)(?:[);/ ]|$)";
  "(?i)EVE-LX[39]";
  "(?i)MGA-LX[39]";
  "(?i)CTR-LX[123]|CHW-LX3";
  "(?i)STG-LX[12]";
  "(?i)FIG-L(?:A1|X[123]|[13]1)(?:[);/ ]|$)";
  "(?i)POT-(?:LX(?:[123]|1T|2J|1AF)|AL00|L01)(?:[);/ ]|$)";
  "(?i)POT-LX1A(?:[);/ ]|$)";
  "(?i)PPA-LX[12]";
  "(?i)STK-LX1(?:[);/ ]|$)";
  "(?i)P Smart S(?:[);/ ]|$)";
  "(?i)VTR-(?:L[02]9|AL00|TL00)(?:[);/ ]|$)";
  "(?i)WAS-(?:L(?:X1|X1A|X2|X2J|X3|03T)|TL10)(?:[);/ ]|$)";
  "(?i)VKY-(?:AL00|L09|L29)(?:[);/ ]|$)";
  "(?i)BAC-L[02]3(?:[);/ ]|$)";
  "(?i)EML-(?:[TA]L00|L[02]9)(?:[);/ ]|$)";
  "(?i)(?:ANE-(?:LX[123]|LX2J|L2[23]|TL00)|HWV32)(?:[);/ ]|$)";
  "(?i)(?:CLT-(?:AL0[01]|TL0[01]|L0J|L(?:04|[02]9))l?|HW-01K)(?:[);/ ]|$)";
  "(?i)(?:ELE-L(?:04|09|29)|ELE-[AT]L00)(?:[);/ ]|$)";
  "(?i)(?:MAR-(?:LX(?:1[BM]|2B|[13]Am?|2J?|3BM)|TL00|L21B|L21ME[AB])|NIC-LX1A|HWV33)(?:[);/ ]|$)";
  "(?i)(?:VOG-(?:L(?:04|09|29)|TL00|AL10)|HW-02L)(?:[);/ ]|$)";
  "(?i)ANA-LX4(?:[);/ ]|$)";
  "(?i)JNY-(?:LX1|L[02]1)(?:[);/ ]|$)";
  "(?i)ART-L29(?:[);/ ]|$)";
  "(?i)ART-L29N(?:[);/ ]|$)";
  "(?i)(?:ELS-(?:[AT]N00|NX9|N04)|NEY-NX9)(?:[);/ ]|$)";
  "(?i)ELS-(?:AN10|N[23]9)(?:[);/ ]|$)";
  "(?i)GRA-(?:L09|[TU]L00)(?:[);/ ]|$)";
  "(?i)HUAWEI P8max(?:[);/ ]|$)";
  "(?i)GRA-UL10(?:[);/ ]|$)";
  "(?i)(?:ALE-L(?:02|2[13])|ALE-[TUC]L00|503HW)(?:[);/ ]|$)";
  "(?i)(?:PRA-L(?:A1|X[12])|hi6210sft)(?:[);/ ]|$)";
  "(?i)EVA-(?:AL[10]0|L[012]9|[TCD]L00)(?:[);/ ]|$)";
  "(?i)VNS-L(?:[23]1|[26]2|53|23)(?:[);/ ]|$)";
  "(?i)VNS-L52(?:[);/ ]|$)";
  "(?i)SLA-L(?:02|03|22|23)(?:[);/ ]|$)";
  "(?i)DIG-L(?:03|23)(?:[);/ ]|$)";
  "(?i)VIE-(?:AL10|L[02]9)(?:[);/ ]|$)";
  "(?i)MLA-TL[01]0(?:[);/ ]|$)";
  "(?i)VNS-[AT]L00(?:[);/ ]|$)";
  "(?i)ATH-UL0[16](?:[);/ ]|$)";
  "(?i)U(8230|8661|8667)(?:[);/ ]|$)";
  "(?i)ARS-([AT]L00|L22)(?:[);/ ]|$)";
  "(?i)CRO-(?:L[02]2|U00)(?:[);/ ]|$)";
  "(?i)CAG-L[02]2(?:[);/ ]|$)";
  "(?i)LUA-(U22|L2[12]|U03)(?:[);/ ]|$)";
  "(?i)MYA-(?:L(?:0[23]|2[23])|U29)(?:[);/ ]|$)";
  "(?i)DRA-L(?:0[13]|2[13]|X3)(?:[);/ ]|$)";
  "(?i)AMN-LX[1239](?:[);/ ]|$)";
  "(?i)DRA-LX5(?:[);/ ]|$)";
  "(?i)DRA-LX9(?:[);/ ]|$)";
  "(?i)CRO-L[02]3(?:[);/ ]|$)";
  "(?i)CAG-L[02]3(?:[);/ ]|$)";
  "(?i)DRA-(?:LX2|[AT]L00)(?:[);/ ]|$)";
  "(?i)MYA-L13(?:[);/ ]|$)";
  "(?i)CUN-(?:L(?:0[123]|2[123]|33)|U29)(?:[);/ ]|$)";
  "(?i)(?:SCC-U21|(?:HW-)?SCL-(?:U31|L21|L0[1-4]|L32))(?:[);/ ]|$)";
  "(?i)(?:Honor_|HW-)?LYO-L[02]1(?:[);/ ]|$)";
  "(?i)(?:Honor_|HW-)?LYO-L02(?:[);/ ]|$)";
  "(?i)MYA-L11(?:[);/ ]|$)";
  "(?i)MYA-(L41|AL10)(?:[);/ ]|$)";
  "(?i)ATU-L(?:11|21|22|X3)(?:[);/ ]|$)";
  "(?i)(?:MRD-L(?:X1[NF]?|X3)|Y6 2019)(?:[);/ ]|$)";
  "(?i)(?:ATU-L(?:31|42)|Y6Prime)(?:[);/ ]|$)";
  "(?i)TIT-(?:AL00|L01|U02)(?:[);/ ]|$)";
  "(?i)(?:M[ER]D-LX2|Y6 Pro 2019)(?:[);/ ]|$)";
  "(?i)Y625-U03(?:[);/ ]|$)";
  "(?i)Y635-L0[123](?:[);/ ]|$)";
  "(?i)Y635-L21(?:[);/ ]|$)";
  "(?i)CAM-L(?:03|2[13]|32)(?:[);/ ]|$)";
  "(?i)TRT-LX[123](?:[);/ ]|$)";
  "(?i)LDN-L(?:01|X3)(?:[);/ ]|$)";
  "(?i)(?:HUAWEI[ _]?)?DUB-(?:LX[13]|TL00)(?:[);/ ]|$)";
  "(?i)(?:LDN-(?:AL00|L21)|TRT-TL10)(?:[);/ ]|$)";
  "(?i)(?:LDN-(?:LX2|TL10)|TRT-(?:L21A|L53))(?:[);/ ]|$)";
  "(?i)DUB-(?:LX2|AL00)(?:[);/ ]|$)";
  "(?i)DUB-AL00a(?:[);/ ]|$)";
  "(?i)DUB-AL20(?:[);/ ]|$)";
  "(?i)(?:PPA-LX3|Peppa-(?:L2[23]B|L0[23]B))(?:[);/ ]|$)";
  "(?i)ART-L28(?:[);/ ]|$)";
  "(?i)AQM-LX1(?:[);/ ]|$)";
  "(?i)FLA-(LX[123]|AL20|TL10|L23)(?:[);/ ]|$)";
  "(?i)JKM-(?:[TA]L00[ab]?|LX[123]|L03)(?:[);/ ]|$)";
  "(?i)STK-(L2[12]|LX3)|LTK-LX3";
  "(?i)FRL-L2[123](?:[);/ ]|$)";
  "(?i)302HW(?:[);/ ]|$)";
  "(?i)NMO-L31(?:[);/ ]|$)";
  "(?i)CM990(?:[);/ ]|$)";
  "(?i)Ultym5(?:[);/ ]|$)";
  "(?i)G6-L11(?:[);/ ]|$)";
  "(?i)Nexus 6P(?:[);/ ]|$)";
  "(?i)GRL-(?:AL10|LX9)";
  "(?i)HWT31(?:[);/ ]|$)";
  "(?i)BAH4-(?:L09|AL10)";
  "(?i)BAH4-W(?:29|[03]9)";
  "(?i)BAH3-(?:AL00|[LW]09)(?:[);/ ]|$)";
  "(?i)DBR-W1[09]|DBR-W09";
  "(?i)GOT-AL[01]9(?:[);/ ]|$)";
  "(?i)GOT-W[02]9(?:[);/ ]|$)";
  "(?i)SCMR-W09(?:[);/ ]|$)";
  "(?i)SCMR-AL09(?:[);/ ]|$)";
  "(?i)AGS3-(A?L09|AL00)(?:[);/ ]|$)";
  "(?i)AGS3-W0?9(?:[);/ ]|$)";
  "(?i)AGS5-(?:L09|AL00)(?:[);/ ]|$)";
  "(?i)DBY2-W0[09]";
  "(?i)TGR-(?:W0[09]|W10)";
  "(?i)AGS5-W0[09](?:[);/ ]|$)";
  "(?i)HMW-W09(?:[);/ ]|$)";
  "(?i)MON-(W|AL)19(?:[);/ ]|$)";
  "(?i)BZA-W00(?:[);/ ]|$)";
  "(?i)BZA-L00(?:[);/ ]|$)";
  "(?i)BZC-AL00(?:[);/ ]|$)";
  "(?i)BZC-W00(?:[);/ ]|$)";
  "(?i)BZW-AL[01]0(?:[);/ ]|$)";
  "(?i)BZT4-W19(?:[);/ ]|$)";
  "(?i)M2-80[123]L(?:[);/ ]|$)";
  "(?i)M2-A01L(?:[);/ ]|$)";
  "(?i)M2-801W(?:[);/ ]|$)";
  "(?i)MRX-AL[01]9(?:[);/ ]|$)";
  "(?i)MRX-W[0-3]9(?:[);/ ]|$)";
  "(?i)MRR-W[23]9";
  "(?i)MRX-AN19(?:[);/ ]|$)";
  "(?i)WGRR?-W[10]9";
  "(?i)PCE-W(?:29|[34]0)";
  "(?i)WEB-W0[09]";
  "(?i)CMR-(?:AL[01]9|W09)(?:[);/ ]|$)";
  "(?i)CMR-W19(?:[);/ ]|$)";
  "(?i)SCM-AL09(?:[);/ ]|$)";
  "(?i)GEM-70[1-3]L(?:[);/ ]|$)";
  "(?i)(?:JDN2-(:?[WL]09|AL[50]0|AL50HN)|BAH2-(?:AL[01]0|L09|W[01]9))(?:[);/ ]|$)";
  "(?i)SHT-(?:AL|W)09(?:[);/ ]|$)";
  "(?i)VRD-(?:(AL|W)09|AL10|W10)(?:[);/ ]|$)";
  "(?i)SCM-W09(?:[);/ ]|$)";
  "(?i)BTV-W09(?:[);/ ]|$)";
  "(?i)(?:BAH-W09|Bach-W09|CPN-(?:L|W)09|CPN-AL00|701HW)(?:[);/ ]|$)";
  "(?i)BAH-(?:L09|AL00)(?:[);/ ]|$)";
  "(?i)AGS2-(?:[LW]09|W09HN|W19|L03)(?:[);/ ]|$)";
  "(?i)(?:KOB2-(?:[LW]09|L03)|Kobe3-L09)(?:[);/ ]|$)";
  "(?i)AGR-[LW]09(?:[);/ ]|$)";
  "(?i)AGS-(?:L0[39]|W09)(?:[);/ ]|$)";
  "(?i)(?:KOB-(?:L|W)09|BZK-[LW]00)(?:[);/ ]|$)";
  "(?i)BG2-(?:U0[13]|W09)(?:[);/ ]|$)";
  "(?i)BGO-L03(?:[);/ ]|$)";
  "(?i)(?:BGO-DL09|PLE-70[13]L)(?:[);/ ]|$)";
  "(?i)JDN-L01(?:[);/ ]|$)";
  "(?i)(?:FDR-(A01[LW]|A03L)|60[56]HW)(?:[);/ ]|$)";
  "(?i)(?:T1-(?:A21[LW]|A2[23]L)|MediaPad T1 10 4G)(?:[);/ ]|$)";
  "(?i)T1-701u(?:[);/ ]|$)";
  "(?i)(?:T1-82(?:3L|1W)|MediaPad T1 8\.0)(?:[);/ ]|$)";
  "(?i)AGS2-AL00(?:[);/ ]|$)";
  "(?i)AGS3-W00[DE](?:[);/ ]|$)";
  "(?i)BZT-(?:AL[01]0)";
  "(?i)BZI-AL[02]0";
  "(?i)BZI-W[02]0";
  "(?i)(?:d-01J|d-02[HK])(?:[);/ ]|$)";
  "(?i)(?:dtab)?(d-01[KH]|01)(?:[);/ ]|$)";
  "(?i)LEO-BX9(?:[);/ ]|$)";
  "(?i)LEO-DLXXE?";
  "(?i)BLM-00(?:[);/ ]|$)";
  "(?i)EC6108V(8|9)";
  "(?i)KANT-350[BC]";
  "(?i)(MediaPad[^/;]*) Build";
  "(?i)Ideos([^;/]*) Build";
  "(?i)(?:HUAWEI )?MT([0-9]+)";
  "(?i)Huawei[ _-]?([^/;]*) Build";
  "(?i)(?:HW-)?Huawei(?:/1\.0/0?(?:Huawei))?[_\- /]?([a-z0-9\-_]+)";
  "(?i)Huawei; ([a-z0-9 \-]+)";
  "(?i)Hugerock|T101_2021(?:[);/ ]|$)";
  "(?i)Hugerock[_ ](T70H)";
  "(?i)BrailleNote Touch \+(?:[);/ ]|$)";
  "(?i)BrailleNote Touch(?:[);/ ]|$)";
  "(?i)Humax[;,_]|(AIVI-N3000RV)(?:[);/ ]|$)";
  "(?i)Humax[;,] ([a-z0-9]+)(?:[);/ ]|$)";
  "(?i)Humax_liberty,([a-z0-9]+),(?:wired|wireless)";
  "(?i)(AIVI-N3000RV)(?:[);/ ]|$)";
  "(?i)Hurricane[ _]|(?:Flame_Plus|Glaze|Cobra|Ridge Plus|Rush Plus|DZIRE|Android 7(?:[\d.]*);(?: [\w-]+;)? Beam|Vulcan|SAGE|Iris Plus 2021|VortexPlus|Excite|Flint|Panther|Slam|Epic)(?:[);/ ]|$)";
  "(?i)Hurricane[ _]IGNITE";
  "(?i)Hurricane[ _]Bolt";
  "(?i)Hurricane[ _]VORTEX";
  "(?i)Hurricane[ _]GIGA";
  "(?i)(?:VULKANO|ST-810)(?:[);/ ]|$)";
  "(?i)(ST-810)";
  "(?i)Model[ _](5|6s)(?:[);/ ]|$)";
  "(?i)(?:PTC760|PNC5[56]0)";
  "(?i)(PTC760|PNC5[56]0)";
  "(?i)Hyundai|(?:Ultra (?:Active|Air|Charm|Dream|Energy|Latitude|Link|Live|Shadow|Shine|Storm|Style|Sync|Trend|Vision|Wave)|Ultra_Vision_Plus|(?:Android 9(?:[\d.]*);(?: [\w-]+;)? [EL]553)|E435 Plus|E503F|E601F|L503F Plus|L604|L622|L601F|E(?:475|504|603)|G(?:24027|2552[34])K|W25042L|HP554O|Seoul (ECO|S8|MIX|5 Plus|9)|HT0701L16|HT0703K16|HT0704K08|HT100(?:4LI?16|2W32|3X16|2W16)|Koral_8W2|HT0701W16|Eternity[_ ](?:G25|H6[578])|HYMI 5S Plus|7GB1|7WD1|10LA1|10LB1|10WB[12]|E465GO|H-LED(?:55[BG]U7003|50FU7001|50[BG]U7003|50EU1311|55EU1311|65[BG]U7003|65EU1311|75BU7005|24BS5000|40GS5003|40FS500[13]|42FS500[13]|43FS500[13]|43EU1312|32FS500[135]|32GS5003|(?:32|40)BS5003|43[BG]U7003)(?:-[PC])?|H-DMP10[03]|HT070[34]W08|Koral 7W4|LGE; [0-9]{2}HYN[a-z0-9]+)(?:[);/ ]|$)";
  "(?i)Ultra[_ ]Vision[_ ]Plus";
  "(?i)Ultra (Active|Air|Charm|Dream|Energy Lite|Energy Plus|Energy|Latitude|Link|Live II|Live|Shadow|Shine|Storm|Style|Sync|Trend|Vision|Wave)";
  "(?i)Seoul (\d+)";
  "(?i)Eternity[_ ](G25|H6[578])";
  "(?i)E(475|504|503F|553|603|601F)(?:[);/ ]|$)";
  "(?i)L(553|601F|604|622)(?:[);/ ]|$)";
  "(?i)(?:Hyundai[_ ])?(Eternity[_ ](?:G57L?|G[56]0W?)|H7|Aero Plus|E435 Plus)"
].
Definition d_dr_re0_19 : list blob := [
  "(?i)(H-LED\w+)(?:-[PC])(?:[);/ ]|$)";
  "(?i)(H-LED\w+|H-DMP10[03]|2K TV)(?:[);/ ]|$)";
  "(?i)LGE; ([0-9]{2}HYN[a-z0-9]+)";
  "(?i)HT0704W08|Koral 7W4";
  "(?i)7GB1(?:[);/ ]|$)";
  "(?i)7WD1(?:[);/ ]|$)";
  "(?i)Hyundai ([^;/]+) Build";
  "(?i)Hyundai[ _-]?([a-z0-9_-]+)";
  "(?i)(?:Pryme 01|ST01)(?:[);/ ]|$)";
  "(?i)COMMUNICATOR[_ ]9\.7[_ ]3G";
  "(?i)(?:Nu65|iPlus P3)(?:[);/ ]|$)";
  "(?i)(Nu65)";
  "(?i)IDC_Voice_20_4G(?:[);/ ]|$)";
  "(?i)(?:GO5_55|BLESS_GO55|BLESSPLUS|KF4Go|KF5bless|GO4\.5)(?:[);/ ]|$)";
  "(?i)GO4\.5";
  "(?i)(KF4Go|KF5bless)";
  "(?i)IKU[_ ]|(?:Powerful_K55i|Curvy C50L)(?:[);/ ]|$)";
  "(?i)(Powerful_K55i|Curvy C50L)(?:[);/ ]|$)";
  "(?i)IKU[_ ](A22|A[457]0|X[23]|K3|i[34])(?:[);/ ]|$)";
  "(?i)IKU[_ ](T[123])(?:[);/ ]|$)";
  "(?i)IKU[_ ]T[_ ]Max(?:[);/ ]|$)";
  "(?i)IMO[ _]\w";
  "(?i)IMO[ _]Q([23]) Plus(?:[);/ ]|$)";
  "(?i)IMO[ _]Q([4]) Pro(?:[);/ ]|$)";
  "(?i)IMO[ _]Q2(?:[);/ ]|$)";
  "(?i)IMO[ _]S2(?:[);/ ]|$)";
  "(?i)IMO[ _]FEEL A2(?:[);/ ]|$)";
  "(?i)IMO[ _]S50(?:[);/ ]|$)";
  "(?i)IMO[ _]S80(?:[);/ ]|$)";
  "(?i)IMO[ _]S89(?:[);/ ]|$)";
  "(?i)IMO[ _]S88(?:[);/ ]|$)";
  "(?i)IMO[ _]S99(?:[);/ ]|$)";
  "(?i)IMO[ _]S98(?:[);/ ]|$)";
  "(?i)IMO[ _]S87(?:[);/ ]|$)";
  "(?i)IMO[ _]S67(?:[);/ ]|$)";
  "(?i)IMO[ _]S78(?:[);/ ]|$)";
  "(?i)IMO[ _]Q8(?:[);/ ]|$)";
  "(?i)IMO[ _]Discovery II(?:[);/ ]|$)";
  "(?i)IMO[ _]Q(?:[);/ ]|$)";
  "(?i)IMO[ _]Q(5)(?:[);/ ]|$)";
  "(?i)IMO[ _](Y5|Z[67])(?:[);/ ]|$)";
  "(?i)IMO TAB X9(?:[);/ ]|$)";
  "(?i)(KZCAR)(?:[);/ ]|$)";
  "(?i)INQ[/ ]";
  "(?i)INQ/([a-z0-9-]+)";
  "(?i)INQ ([^;/]+) Build";
  "(?i)INSYS|(?:HK9-4010|IH9-L614|AC7_DJ17|HN2-M16Q)(?:[);/ ]|$)";
  "(?i)(GU4-K147|HN2-M16Q|VI4-103)";
  "(?i)T95pro(?:[);/ ]|$)";
  "(?i)IQM (?:picasso|vivaldi|newton)(?:[);/ ]|$)";
  "(?i)IQM picasso(?:[);/ ]|$)";
  "(?i)IQM vivaldi(?:[);/ ]|$)";
  "(?i)IQM newton(?:[);/ ]|$)";
  "(?i)(?:IRA_DUO|IRAW7258)(?:[);/ ]|$)";
  "(?i)(IRAW7258)";
  "(?i)IT-(?:1101S?|1101-QUAD)(?:[);/ ]|$)";
  "(?i)IT-(1101S?)";
  "(?i)IUNI[ _]";
  "(?i)IUNI[ _](U3|i1|N1)";
  "(?i)IconBIT|NT-(3506M|1501C|0704S|0909T|1009T|10[01]1T|1017T|3601P/3602P|3603P|3702S|3805C|3905T|3701S|0701S|0805C|0902S|370[23]M)|XDS[789]4K|Omnicast UHD|Movie Smart 4K|Movie IPTV Quad|TOUCAN (?:Smart 3D Quad|(?:NANO|Stick) 4K)|NetTAB_Space_3G|XLR3089";
  "(?i)NT-10[01]1T";
  "(?i)(?:iconBIT )?(Movie (?:Smart 4K|UNO|Play|IPTV Quad|Ultra HD 4K)|XDS[789]4K|XLR3090|Omnicast UHD|Stick|XDS1[01]00?|Movie [XZ])";
  "(?i)(SWU-6522)(?:[);/ ]|$)";
  "(?i)IMAQ TETRA(?:[);/ ]|$)";
  "(?i)(?:Impression[ _-]?([^/;]+)|A502|I10\-LE|ImPad[ _]?(.*)|ImSmart[ _]?(.*))(?:[);/ ]|$)";
  "(?i)(A502)";
  "(?i)ImSmart[ _]?([^/;)]+)(?: Build|\))";
  "(?i)ImPad[ _]?([^/;)]+)(?: Build|\))";
  "(?i)(I10\-LE)";
  "(?i)Impression[ _-]?([^/;)]+)(?: Build|\))";
  "(?i)(?:IF(900[1237]|902[19]|903[15]|236a|195a)|M370i?|InFocus M808i?)(?:[);/ ]|$)";
  "(?i)(M370i?)";
  "(?i)IF(236|195)a";
  "(?i)InFocus M([0-9]+[a-z]?)";
  "(?i)(?:INFONE (?:XE?)|GORILLA 9 PLUS|X_RAINBOW)(?:[);/ ]|$)";
  "(?i)INFONE (XE?)(?:[);/ ]|$)";
  "(?i)Inch (?:Regulus (?:7\.85|II)|Avior 3)(?:[);/ ]|$)";
  "(?i)(Regulus 7\.85)";
  "(?i)(Regulus II|Avior 3)";
  "(?i)(?:Inco[ _](Aurora II|Colors|Sphere|Plain[_ ]2S?|Plain2 S|Flex(?: 2S)?|S4|Bloom(?: 2)?)|(Horizon_S|Horizon \+|MATTER)|Bloom4|eco_s|Flex-3)(?:[);/ ]|$)";
  "(?i)Bloom ?4";
  "(?i)(?:Inco[ _])?(Plain[_ ]2S?|Colors|Horizon_S|Horizon \+|Aurora II|Flex(?: 2S)?|S4|Bloom(?: 2)?)(?:[);/ ]|$)";
  "(?i)Flex-(3)";
  "(?i)Inco Sphere( 3)?(?:[);/ ]|$)";
  "(?i)INFINITON[_ -]|Earth 7\.0'3G|EARTH10";
  "(?i)INFINITON[_ -]T5";
  "(?i)Earth 7\.0'3G";
  "(?i)Infinix[ _-]X6739";
  "(?i)Infinix[ _-]X6871";
  "(?i)Infinix[ _-]X6873";
  "(?i)Infinix[ _-]X260";
  "(?i)Infinix[ _-]X502";
  "(?i)Infinix[ _-]X570";
  "(?i)Infinix[ _-]X350";
  "(?i)Infinix[ _-]X351";
  "(?i)Infinix[ _-]X352";
  "(?i)Infinix[ _-]X403";
  "(?i)Infinix[ _-]X503";
  "(?i)Infinix[ _-]X511";
  "(?i)Infinix[ _-]X400";
  "(?i)Infinix[ _-]X401";
  "(?i)Infinix[ _-]X450";
  "(?i)Infinix[ _-]X451";
  "(?i)Infinix[ _-]X454";
  "(?i)Infinix[ _-]X500";
  "(?i)Infinix[ _-]X501";
  "(?i)Infinix[ _-]X506";
  "(?i)Infinix[ _-]X6962";
  "(?i)Infinix[ _-]X6731B";
  "(?i)Infinix[ _-]X6731";
  "(?i)Infinix[ _-]X509";
  "(?i)Infinix[ _-]X6821";
  "(?i)Infinix[ _-](?:X552|Zero 3)";
  "(?i)Infinix[ _-](?:X6861|ZERO 40 5G)";
  "(?i)Infinix[ _-](?:X6860|ZERO 40)";
  "(?i)Infinix[ _-](?:X(?:574|602)|Zero 4 Plus)";
  "(?i)Infinix[ _-](?:X555|Zero 4)";
  "(?i)Infinix[ _-]X603";
  "(?i)Infinix[ _-]X603B";
  "(?i)Infinix[ _-]X620B";
  "(?i)Infinix[ _-]X620";
  "(?i)Infinix[ _-]X687B";
  "(?i)Infinix[ _-]X687";
  "(?i)Infinix[ _-]X6815B";
  "(?i)Infinix[ _-]X6811B";
  "(?i)Infinix[ _-]X6815";
  "(?i)Infinix[ _-]X6811";
  "(?i)Infinix[ _-]X6810";
  "(?i)Infinix[ _-]X6820";
  "(?i)Infinix[ _-]X507";
  "(?i)Infinix[ _-]X510";
  "(?i)Infinix[ _-](?:X55[34]|HOT 3 LTE)";
  "(?i)Infinix[ _-]X669";
  "(?i)Infinix[ _-](?:X6831|X6833B)";
  "(?i)Infinix[ _-]X6835B?";
  "(?i)Infinix[ _-]X6832";
  "(?i)Infinix[ _-]X6528";
  "(?i)Infinix[ _-]X6836";
  "(?i)Infinix[ _-]X6837";
  "(?i)Infinix[ _-]X622";
  "(?i)Infinix[ _-]X521";
  "(?i)Infinix[ _-]X522";
  "(?i)Infinix[ _-]X557";
  "(?i)Infinix[ _-]X556";
  "(?i)Infinix[ _-]X559[cF]";
  "(?i)Infinix[ _-]X6882";
  "(?i)Infinix[ _-]X6531";
  "(?i)Infinix[ _-]X6720B?";
  "(?i)Infinix[ _-]X6881";
  "(?i)Infinix[ _-]X6880";
  "(?i)Infinix[ _-]X559";
  "(?i)Infinix[ _-]X606[BC]?";
  "(?i)Infinix[ _-]X6885";
  "(?i)Infinix[ _-]X6886";
  "(?i)Infinix[ _-]X6726B";
  "(?i)Infinix[ _-]X6728";
  "(?i)Infinix[ _-]X6730B?";
  "(?i)Infinix[ _-]X623";
  "(?i)Infinix[ _-]X608";
  "(?i)Infinix[ _-]X624";
  "(?i)Infinix[ _-]X625";
  "(?i)Infinix[ _-]X650";
  "(?i)Infinix[ _-]X655F";
  "(?i)Infinix[ _-]X655";
  "(?i)Infinix[ _-]X680[BCEF]";
  "(?i)Infinix[ _-]X680D";
  "(?i)Infinix[ _-]X680";
  "(?i)Infinix[ _-]X688";
  "(?i)Infinix[ _-]X682[BC]";
  "(?i)Infinix[ _-]X689C";
  "(?i)Infinix[ _-]X689F";
  "(?i)Infinix[ _-](?:X659|PR652|X658)";
  "(?i)Infinix[ _-]X573B?";
  "(?i)Infinix[ _-]X6812";
  "(?i)Infinix[ _-]X675";
  "(?i)Infinix[ _-]X662";
  "(?i)Infinix[ _-]X6816D";
  "(?i)Infinix[ _-]X6816C?";
  "(?i)Infinix[ _-]X668C?";
  "(?i)Infinix[ _-]X665[EC]";
  "(?i)Infinix[ _-]X6826";
  "(?i)Infinix[ _-]X666";
  "(?i)Infinix[ _-]X6825";
  "(?i)Infinix[ _-]X6827";
  "(?i)Infinix[ _-]X665";
  "(?i)Infinix[ _-]X6817";
  "(?i)Infinix[ _-]X612";
  "(?i)Infinix[ _-]X5010";
  "(?i)Infinix[ _-]X5515[FI]?";
  "(?i)Infinix[ _-]X609";
  "(?i)Infinix[ _-]X5516";
  "(?i)Infinix[ _-]X627";
  "(?i)Infinix[ _-]X5514D";
  "(?i)Infinix[ _-]X6532C";
  "(?i)Infinix[ _-]X6532";
  "(?i)Infinix[ _-]X653";
  "(?i)Infinix[ _-]X657";
  "(?i)Infinix[ _-](?:X6823C?|X6511G)";
  "(?i)Infinix[ _-]X6511";
  "(?i)Infinix[ _-]X6512"
].
Definition d_dr_re0_20 : list blob := [
  "(?i)Infinix[ _-]X6517";
  "(?i)Infinix[ _-]X6515";
  "(?i)Infinix[ _-]X6516";
  "(?i)Infinix[ _-](?:X6525B|SMART 8 Pro)";
  "(?i)Infinix[ _-]X6526";
  "(?i)Infinix[ _-](?:X6525|SMART 8)";
  "(?i)Infinix[ _-]X652B";
  "(?i)Infinix[ _-]X626";
  "(?i)Infinix[ _-]X652C";
  "(?i)Infinix[ _-]X652";
  "(?i)Infinix[ _-]X660";
  "(?i)Infinix[ _-]X6725[BC]";
  "(?i)Infinix[ _-]X6838";
  "(?i)Infinix[ _-]X551";
  "(?i)Infinix[ _-]X600";
  "(?i)Infinix[ _-]X601";
  "(?i)Infinix[ _-]X572";
  "(?i)Infinix[ _-]X571";
  "(?i)Infinix[ _-]X604";
  "(?i)Infinix[ _-]X605";
  "(?i)Infinix[ _-]X610";
  "(?i)Infinix[ _-]X690";
  "(?i)Infinix[ _-]X656";
  "(?i)Infinix[ _-]X692";
  "(?i)Infinix[ _-]X683";
  "(?i)Infinix[ _-]X695";
  "(?i)Infinix[ _-]X693";
  "(?i)Infinix[ _-]X663C";
  "(?i)Infinix[ _-]X677";
  "(?i)Infinix[ _-]X6819";
  "(?i)Infinix[ _-]X676B";
  "(?i)Infinix[ _-]X671B";
  "(?i)Infinix[ _-]X672";
  "(?i)Infinix[ _-]X663D";
  "(?i)Infinix[ _-]X663";
  "(?i)Infinix[ _-]X697";
  "(?i)Infinix[ _-]X698";
  "(?i)Infinix[ _-]X670";
  "(?i)Infinix[ _-]X671(?:[);/ ]|$)";
  "(?i)Infinix[ _-]X676C";
  "(?i)Infinix[ _-]X6716B";
  "(?i)Infinix[ _-]X6716";
  "(?i)Infinix[ _-]X6710";
  "(?i)Infinix[ _-]X678B";
  "(?i)Infinix[ _-]X6711";
  "(?i)Infinix[ _-]X6855";
  "(?i)Infinix[ _-]X6856";
  "(?i)Infinix[ _-]X6857B?";
  "(?i)Infinix[ _-]X6858";
  "(?i)Infinix[ _-]X6850B";
  "(?i)Infinix[ _-]X6850";
  "(?i)Infinix[ _-]X6851B";
  "(?i)Infinix[ _-]X6851";
  "(?i)Infinix[ _-]X6852";
  "(?i)Infinix[ _-]X685";
  "(?i)Infinix[ _-]X1101B?(?:[);/ ]|$)";
  "(?i)Infinix HOT ([a-z]?[1-6])( (?:Lite|Plus|Pro))?";
  "(?i)Infinix[ _-](X[78]00)";
  "(?i)Infinix[ _-](X\d+)";
  "(?i)Infinix[_ ]([^/;)]+)(?: Build|[);])";
  "(?i)Infinix[ _-]([a-z0-9_-]+)";
  "(?i)(TVB-906X)(?:[);/ ]|$)";
  "(?i)(MAG(?:200|[23]50|425A))(?:[);/ ]|$)";
  "(?i)Inhon[_ ](V6)(?:_EEA)?(?:[);/ ]|$)";
  "(?i)X96mini(?:[);/ ]|$)";
  "(?i)intki[ _]([^/;]*)[ _]Build";
  "(?i)InnJoo|(?:Halo Plus|Halo2 LTE|Halo X|Halo 5 3G|Halo[ _]4(?:[ _]mini[ _]LTE)?|VISION LTE|Halo2 3G|Fire 4 ?(?:Pro|Plus)?|Fire_Plus_LTE|Fire3 mini|Fire2 (?:Air|Pro|Plus) LTE|Fire2 LTE|Superb(?:_PLus)?|VOOM TAB 2)(?:[);/ ]|$)";
  "(?i)InnJoo[ _]X3(?:[);/ ]|$)";
  "(?i)Halo[ _]X[ _]LTE(?:[);/ ]|$)";
  "(?i)InnJoo[ _]X(?:[);/ ]|$)";
  "(?i)Halo Plus(?:[);/ ]|$)";
  "(?i)Halo[ _]4[ _]mini[ _]LTE(?:[);/ ]|$)";
  "(?i)Halo 4(?:[);/ ]|$)";
  "(?i)Halo ?2 LTE(?:[);/ ]|$)";
  "(?i)Halo ?([25]) 3G(?:[);/ ]|$)";
  "(?i)InnJoo[ _]Pro2(?:[);/ ]|$)";
  "(?i)Innjoo ONE 3G(?:[);/ ]|$)";
  "(?i)Innjoo[ _]2[ _]LTE(?:[);/ ]|$)";
  "(?i)InnJoo[ _]([2-4])";
  "(?i)Innos_?(D6000)(?:[);/ ]|$)";
  "(?i)INNO([a-z0-9]+)";
  "(?i)INOI|(?:A126|A1[68]1|A170_Plus|A161_Plus|(?:Android 12(?:[\d.]*);(?: [\w-]+;)? (?:A151))|(?:Android 11(?:[\d.]*);(?: [\w-]+;)? (?:A17[01]|A180))|A181_Plus|A171_Plus)(?:[);/ ]|$)";
  "(?i)inoiPad mini 2\+32 Wi-Fi\+3G";
  "(?i)inoiPad 2\+32 Wi-Fi\+3G";
  "(?i)inoiPad 128\+4GB Wi-Fi\+4G";
  "(?i)inoiPad mini 1\+16 Wi-Fi";
  "(?i)inoiPad 64GB Wi-Fi\+3G";
  "(?i)INOI (2|5) Lite (2019|2021)";
  "(?i)INOI[_ ]([123])[_ ]LITE";
  "(?i)(A126|A17[01])(?:[);/ ]|$)";
  "(?i)A17[01]_Plus";
  "(?i)A(1[58]1)";
  "(?i)(?: A161|A161_Plus)(?:[);/ ]|$)";
  "(?i)INOI ([257]) (?:\d\+\d+ )?(2019|202[01])(?:[);/ ]|$)";
  "(?i)INOI[_ ]([^);/]+)(?: Build|[;)])";
  "(?i)NS-(P11A8100|P10A8100|P10A6100|P16AT08|P16AT10|P16AT785HD|P08A7100|P10A7100)(?:[);/ ]|$)|AFTEAMR311|AFTJMST12";
  "(?i)NS-(P10A6100|P16AT10)";
  "(?i)NS-(P10A8100|P10A7100)";
  "(?i)Intex|(Aqua|Cloud[ _][XY][0-9]{1}|Cloud (?:Fame|Glory) 4G)|(?:CLOUD TREAD|IM0318ND|IV0318ND)(?:[);/ ]|$)";
  "(?i)AQUA[ _]LIONS[ _]T1[ _]LITE(?:[);/ ]|$)";
  "(?i)AQUA[ _]LIONS[ _]([NT]1|[23]|E3)(?:[);/ ]|$)";
  "(?i)AQUA (A4) PLUS(?:[);/ ]|$)";
  "(?i)AQUA[ _](A4|S[13])(?:[);/ ]|$)";
  "(?i)Intex[ _]IM0118ND";
  "(?i)AQUA CRYSTAL\+(?:[);/ ]|$)";
  "(?i)AQUA FulVU e5(?:[);/ ]|$)";
  "(?i)AQUA JEWEL 2(?:[);/ ]|$)";
  "(?i)Aqua[_ ]Life[_ ]?III(?:[);/ ]|$)";
  "(?i)(?:INTEX[_ ])?AQUA[_ ]4\.0[_ ]4G";
  "(?i)(?:INTEX[_ ])?AQUA[_ ]4G[_ ]MINI";
  "(?i)(?:INTEX[_ ])?AQUA[_ ]LIONS[_ ]4G";
  "(?i)(?:INTEX[_ ])?AQUA[_ ]PRIME[_ ]4G";
  "(?i)(?:INTEX[_ ])?AQUA[_ ]ZENITH";
  "(?i)(?:INTEX[_ ])?AQUA[_ ]POWER[_ ]IV";
  "(?i)(?:INTEX[ _])?AQUA[_ ]YOUNG[_ ]4G";
  "(?i)(?:INTEX[ _])?AQUA[_ ]TREND[_ ]LITE";
  "(?i)(?:INTEX[ _])?AQUA[_ ]AMAZE\+";
  "(?i)(?:INTEX[ _])?AQUA[_ ]Supreme\+";
  "(?i)(?:INTEX[ _])?AQUA[_ ]STYLE (\d)";
  "(?i)(?:INTEX[ _])?AQUA[_ ]Strong 5\.1\+";
  "(?i)(?:INTEX[ _])?AQUA[_ ]CRYSTAL";
  "(?i)(?:INTEX[ _])?ELYT[_ ]DUAL[_ ]PLUS";
  "(?i)(?:INTEX[ _])?ELYT[_ ]DUAL";
  "(?i)(?:INTEX[ _])?ELYT[_ ](E\d+)";
  "(?i)Intex[ _]IV0118ND";
  "(?i)Intex[ _]IP0418ND";
  "(?i)Intex[ _]([^/;]*)[ _]Build";
  "(?i)CLOUD TREAD(?:[);/ ]|$)";
  "(?i)(Cloud (?:Fame|Glory) 4G)";
  "(?i)(Aqua|Cloud)[ _\.]([^/;\)]+)(?:[ _]Build|/|\))";
  "(?i)Intex[ _]([a-z0-9_+\-]+)";
  "(?i)(?:Diamond D[56]|Fighter|Eager|Royal R[1-8]|Android 9(?:[\d.]*);(?: [\w-]+;)? (?:MAX[89]|MAX_2))(?: Build|[;)])";
  "(?i)MAX[_ ]?([89]|2)(?:[);/ ]|$)";
  "(?i)(Fighter|Eager|Royal R[1-8]|Diamond D[56])";
  "(?i)INVIN[ _-]|(?:IPC002|KM5PRO)(?:[);/ ]|$)";
  "(?i)INVIN[ _-](X[24]|KM[678])";
  "(?i)(IPC002)";
  "(?i)IRBIS|TZ(1(?:0[04]|42|5[01]|84|65|7[01345-89]|8[356]|9[12578])|200|49|55|72|22|7(?:0[127]|1[1-46789]|2[021567]|3[025-8]|4[257]|5[23457]|6[12]|72|7[137]|8[1]|9[147])|8(?:[34]1|32|5[3-8]|6[2-5]|7[12478]|8[1-5]|9[0127])|96[0-9])|TZ199|TZ85|TZ13|TZ(?:one|art|HIT|81L)|(SP(?:0[56]|2[01]|4[1-36]|40[12]|45[345]|49[34]|50|51[0147]|531|54[12]|55[0124]|571)|\d{2}[FYHU]1YDX000F?BS2|65U001BS2)(?:[);/ ]|$)";
  "(?i)(TZ(?:[0-9]+)|TZ(?:one|art|HIT|81L))(?:[);/ ]|$)";
  "(?i)(SP[0-9]+)(?:[);/ ]|$)";
  "(?i)(\d{2}[FYHU]1YDX000F?BS2|65U001BS2)";
  "(?i)(?:Vox[_ ](?:[45]S|Alpha|POP|STEEL Plus|Energy|FORTIS|VERO)|IS2_?Plus|IS[36]Plus|IS2S|Next_P(?:_PRO)?|NEXT U|NEXT P\+|IRS002-16|X1 mini|Iris_Pad_G8020|G7060|G7100|G8060)(?:[);/ ]|$)|android 9(?:[\d.]*);(?: [\w-]+;)? (?:N30)(?: Build|[;)])";
  "(?i)Vox[_ ]([45])S";
  "(?i)N30(?: Build|[;)])";
  "(?i)VOX[_ ]FORTIS";
  "(?i)VOX[_ ]VERO";
  "(?i)NEXT[_ ]([PU]\+?)";
  "(?i)IS([236])_?Plus";
  "(?i)(?:Iris_Pad_)?(G7060|G7100|G80[26]0)";
  "(?i)TPC-[A-Z0-9]+|TPCY-TX[TE][^);/ ]+";
  "(?i)TPC-PA10\.1M";
  "(?i)TPC-(XE10D-H)";
  "(?i)TPC-([A-Z0-9]+)";
  "(?i)(TPCY-TX[TE][^);/ ]+)";
  "(?i)JFone[ _](JS501)(?:[);/ ]|$)";
  "(?i)JKL[_ ](A28)(?:[);/ ]|$)";
  "(?i)(JP5s?) Inmate Media Device(?:[);/ ]|$)";
  "(?i)(JR-J71)(?:[);/ ]|$)";
  "(?i)(J10)_(?:EEA|US)(?:[);/ ]|$)";
  "(?i)JVC[;, ]|JVC-CVTE|AV-10NT310|(?:smarttv_)?(?:AFTSO001|AFTJULI1|AFTWMST22|LT-98N7125)";
  "(?i)JVC[;,](32D1290)";
  "(?i)(?:smarttv_)?AFTSO001";
  "(?i)(?:smarttv_)?AFTJULI1";
  "(?i)(?:smarttv_)?AFTWMST22";
  "(?i)(LT-98N7125)";
  "(?i)JVC, ([a-z0-9_ -]+), (?:wired|wireless)";
  "(?i)JVC-CVTE;SmartTV|JVC Android TV";
  "(?i)(AV-10NT310)";
  "(?i) (?:JP[12])( Build|[;)])";
  "(?i)(?:A10Pro_EEA)(?:[);/ ]|$)";
  "(?i)(?:JK(?:960|[71]03) 3G|JK702|JK101|JK[17]00 v2\.0)(?:[);/ ]|$)";
  "(?i)JK(960|[71]03) 3G(?:[);/ ]|$)";
  "(?i)JK(702|[17]00 v2\.0|101)(?:[);/ ]|$)";
  "(?i)Jesy_(J7)|J9S_PRO(?:[);/ ]|$)";
  "(?i)Jesy_(J7)";
  "(?i)JK-?(760)(?:[);/ ]|$)";
  "(?i)JIAYU[ _-]|(?:JY-G4[\\_]G5|(?:JY-[a-z0-9]+)|JY_G4C)(?:[);/ ]|$)";
  "(?i)(?:JIAYU G4_G5|JY-G4[\\_]G5)(?:[);/ ]|$)";
  "(?i)JIAYU[ _-](G4[S]?|G2F|G3[S]?|S[23])(?:[);/ ]|$)";
  "(?i)JY[-_]([a-z0-9]+|G4C)(?:[);/ ]|$)";
  "(?i)Remix (?:Pro|Mini)";
  "(?i)JIN[ _]TU[ _]([^;/)]+)(?: Build|[);])";
  "(?i)Jinga[-_ ]|(?:(?:Fresh|Optim)4G|Pass(?:Plus|3G)|PicassoNote|Hotz[_ ]M1|WinPRO|Touch4G|Start(?:3G|LTE)?|IGO[ _]L[41]|Basco[ _](?:L3|L[45]00|L45[01]|XS1|S2|M1)|M500-1|Hit4G|A450|Neon|IGO_L3|JoyPRO|Fresh|GoalPlus)(?:[);/ ]|$)";
  "(?i)Optim4G(?:[);/ ]|$)";
  "(?i)Fresh4G(?:[);/ ]|$)";
  "(?i)Hotz[_ ]M1(?:[);/ ]|$)";
  "(?i)Hit4G(?:[);/ ]|$)";
  "(?i)PassPlus(?:[);/ ]|$)";
  "(?i)Pass3G(?:[);/ ]|$)";
  "(?i)GoalPlus(?:[);/ ]|$)";
  "(?i)(Win|Joy)PRO(?:[);/ ]|$)";
  "(?i)Touch4G(?:[);/ ]|$)";
  "(?i)Start3G(?:[);/ ]|$)";
  "(?i)StartLTE(?:[);/ ]|$)";
  "(?i)Start(?:[);/ ]|$)";
  "(?i)PicassoNote(?:[);/ ]|$)";
  "(?i)Jinga Iron(?:[);/ ]|$)";
  "(?i)Fresh(?:[);/ ]|$)";
  "(?i)IGO_L3(?:[);/ ]|$)";
  "(?i)Jinga Basco neo(?:[);/ ]|$)"
].
Definition d_dr_re0_21 : list blob := [
  "(?i)M500-1(?:[);/ ]|$)";
  "(?i)(?:Jinga[ _])?Basco[ _](L[13]|L[45]00|XS1|S2|L45[01]|M1)(?:[);/ ]|$)";
  "(?i)Jinga Trezor S1 Plus(?:[);/ ]|$)";
  "(?i)JINGA_IGO_L2(?:[);/ ]|$)";
  "(?i)(?:JINGA[_ ])?IGO[_ ]([ML]1|L4)(?:[);/ ]|$)";
  "(?i)(?:JINGA[_ ])?(Neon|A450)(?:[);/ ]|$)";
  "(?i)Jio/[^/]+/|LS1542QWN?(?:[);/ ]|$)";
  "(?i)LS1542QWN?(?:[);/ ]|$)";
  "(?i)Jio/([^/]+)/";
  "(?i)(?:Revolution TnT3|Xtreme_(?:[37]|3x)|Xtreme (?:XT84|XT309|XT309 Plus|1)|Opus S3|JSPQ65|Prime (?:P3[09]0|P4442?|P30))(?:[);/ ]|$)";
  "(?i)Revolution (TnT3)";
  "(?i)Xtreme (XT84)";
  "(?i)Prime (P4442?|P3[09]0|P30)";
  "(?i)Xtreme (XT309) Plus";
  "(?i)Xtreme (XT309)";
  "(?i)Xtreme[ _]([137]|3x)(?:[);/ ]|$)";
  "(?i)Joy (?:HH|JD)";
  "(?i)Joy[ _]([^/;)]+)(?: Build|[);])";
  "(?i)(?:TB-JS101A)(?:[);/ ]|$)";
  "(?i)EZpad ([^;/)]+)(?: Build|[;)])";
  "(?i)JUST5(-)?SPACER(s)?|COSMO[_ ](L707|L808)|BLASTER|FREEDOM[ _](C10[05]|M303|X1)|Freedom";
  "(?i)COSMO[_ ](L707|L808)";
  "(?i)FREEDOM[ _](C10[05]|M303|X1)";
  "(?i)JUST5(-)?SPACER2s";
  "(?i)JUST5(-)?SPACER2";
  "(?i)(?:KLT_K301|NAVTECH_TOUCHY_F2)(?:[);/ ]|$)";
  "(?i)K-?Touch[ _][a-z0-9]+|(?:Pace 2 Lite|KT202011(?:99|88)|LDXA-2[01]22|LDOX-2130|LDOX-212[13])(?:[);/ ]|$)";
  "(?i)K-?Touch[ _]([^/;]*)[ _]Build";
  "(?i)K-?Touch[ _]([a-z0-9]+)";
  "(?i)ROiK ?(10)(?:[);/ ]|$)";
  "(?i)(KATV-01) PRO(?:[);/ ]|$)";
  "(?i)kddi-([a-z0-9]+)|(?:INFOBAR A01|HTX21|HTL21)(?:[);/ ]|$)";
  "(?i)kddi-([a-z0-9]+)";
  "(?i)INFOBAR (A01)";
  "(?i)HTX21(?:[);/ ]|$)";
  "(?i)HTL21(?:[);/ ]|$)";
  "(?i)(?:Android 1[34](?:[\d.]*);(?: [\w-]+;)? (?:E1[01278]|E28|E38|H3[48]|H2[14]|H19|H1[14]|H44)|Pad Lite E[45]8|Armor_C1w|Armor C1 Max|Armor (?:P1(?:[sw]| Pro)|I2w|V1s|H[12]s|I1 Slim)|Kenshi[_ ]K10|Pad Pro (?:E11[012]|E90))(?:[);/ ]|$)";
  "(?i)Armor[_ ](C1w|I2w|P1s|P1w|V1s|H[12]s|C1 Max|P1 Pro)";
  "(?i)Kenshi[_ ](K10)(?:[);/ ]|$)";
  "(?i)Pad Lite (E[45]8)";
  "(?i)Pad Pro (E11[012]|E90)";
  "(?i) (E1[01278]|E28|E38|H3[48]|H2[14]|H19|H1[14]|H44)(?:[);/ ]|$)";
  "(?i)(KWSA80K)(?:[);/ ]|$)";
  "(?i)(Nova_10_Pro_4G)(?:[);/ ]|$)";
  "(?i)KINGZONE_|K1[_ ]turbo";
  "(?i)KINGZONE_(N5)(?:[);/ ]|$)";
  "(?i)K1[_ ]turbo";
  "(?i)(K22M43298U)(?:[);/ ]|$)";
  "(?i)knmobile[_ ]([^/;)]+)(?: Build|[);])";
  "(?i)J?KOPO[ _-]";
  "(?i)J?KOPO[ _-]?([^/;)]+)(?: Build|[;)])";
  "(?i)J?KOPO[ _-]?([^/;)]+)";
  "(?i)KREZ[_ ]";
  "(?i)KREZ[_ ](SL502)(?:[);/ ]|$)";
  "(?i)KREZ[_ ](TM100[12]S8)(?:[);/ ]|$)";
  "(?i)KRIP_|K(?:4[bm]|5[bdm]|6b|55h?|57|65|700A)(?:[);/ ]|$)";
  "(?i)(?:KRIP_)?K(4[bm]?|5[bdm]|6b|55h?|57|65|700A)(?:[);/ ]|$)";
  "(?i)(?:NET1100|NET (?:HIT|ALPHA)|NET_(?:LITE|TITAN|VOLT|MAX|MATRIX|[KR]7|HIT)|android 8([\d.]*);(?: [\w-]+;)? NETWORK)(?:[);/ ]|$)";
  "(?i)NET[_ ](LITE|TITAN|VOLT|HIT|ALPHA)";
  "(?i)NET_([KR]7)";
  "(?i)(KM-[a-z0-9]+|EV-[a-z0-9]+)(?:[);/ ]|$)";
  "(?i)(55UE-BYVB)(?:[);/ ]|$)";
  "(?i)KZG[_ ](Scope)(?:[);/ ]|$)";
  "(?i)KAAN[ _](N[12]|A1)(?:[);/ ]|$)";
  "(?i)KaiCloud[ ]?(7[48]4|942)(?:[);/ ]|$)";
  "(?i)KALLEY|(?:ELEMENT (?:4 Plus|5|MAX|PLAY|Q)|ELEMENT_PRO_2|K-BOOK(?:8MG|73G)|SILVER_MAX(?:_Pro_2)?|Silver Max (?:Lite|Pro)|Black[ _][13CEGXZ](?:_PRO)?|Black_G_2|BLACK_PRO|ATV R[12]|GOLD_PRO|KBOOK7M)(?:[);/ ]|$)";
  "(?i)Black[ _](C)_PRO";
  "(?i)Black[ _]([13ECGXZ])";
  "(?i)Element 5(?:[);/ ]|$)";
  "(?i)Silver[_ ]Max[_ ]Pro[_ ]2";
  "(?i)Silver Max (Lite|Pro)";
  "(?i)K-?BOOK(8MG|73G|7M)";
  "(?i)ATV (R[12])";
  "(?i)KALLEY,(43D1800|55D1240)";
  "(?i)KJ[-_](OB0[23]|YU_?BI|SMART4K|GOCHI|ALFARK|AC0[25])(?:[);/ ]|$)";
  "(?i)KJ[-_]OB03";
  "(?i)KJ[-_]OB02";
  "(?i)KJ[-_]YU_?BI";
  "(?i)KJ[-_]ALFARK";
  "(?i)KJ-(AC0[25])";
  "(?i)(SmartVision3)(?:[);/ ]|$)";
  "(?i)(?:Browser-)?Karbonn|K9 Kavach 4G|K9[_ ](?:Viraat|Smart)[_ ]Plus|K9 Music 4G|K9 Smart|K9 VIRAAT 4G|Aura_Power|Aura (?:Sleek Plus|Sleek 4G|Power 4G Plus|Note Play|Note 2|Storm|Champ)|Titanium[ _](?:3D-Plex|Octane Plus|Vista 4G|Jumbo|S360|S1[059]|S35|S20[13]|S22|S[15]|S200 HD|Frames S7|MOGHUL|S9)|MACHFIVE|MACHONE|Sparkle V|Alfa A114 Quad|Quattro[ _]L(?:45|5[025])[ _](?:HD|IPS|VR)|A41 Power|A(?:[19]|4[05])[ _]Indian|S2052GB|MACH SIX VR|K-Lite F3|Titanium Vista";
  "(?i)K9[_ ]Smart[_ ]Plus";
  "(?i)K9 Smart(?: 1GB)?";
  "(?i)A([19]|4[05])[ _]Indian";
  "(?i)K9[_ ]Viraat[_ ]Plus";
  "(?i)(?:karbonn)?K9 Viraat 4G";
  "(?i)Titanium[ _]S([29])[ _]?Plus";
  "(?i)Titanium[_ ]S(99|360|1[059]|109|35|200 HD|20[13]|22|[15])(?:[);/ ]|$)";
  "(?i)Titanium Vista(?: 4G)?";
  "(?i)Titanium[ _]MOGHUL";
  "(?i)Titanium[ _]3D-Plex";
  "(?i)Quattro[ _]L(5[05])[ _]HD";
  "(?i)Quattro[ _]L(45)[ _]IPS";
  "(?i)Quattro[ _]L(52)[ _]VR";
  "(?i)Karbonn ([a-z0-9]+) WAP-Browser";
  "(?i)WAP Browser-Karbonn ([a-z0-9]+)/";
  "(?i)Karbonn_([^;/)]+)";
  "(?i)Karbonn ([^;/)]+)(?: Build|[);])";
  "(?i)Karbonn ([^;/]+)/";
  "(?i)Kata[ _-]";
  "(?i)Kata[ _-](C3|L1|M3s|M4s?|V[56])(?:[);/ ]|$)";
  "(?i)Kata[ _-]i5-\w";
  "(?i)Kata-(T5)(?:[);/ ]|$)";
  "(?i)Kata-Tmini4(?:[);/ ]|$)";
  "(?i)Kata Box 2(?:[);/ ]|$)";
  "(?i)Kazam|(?:Trooper_X[0-9][0-9]|Tornado 348|TROOPER 4\.0)(?:[);/ ]|$)";
  "(?i)TROOPER 4\.0";
  "(?i)Trooper_X([0-9])([0-9])(?:[);/ ]|$)";
  "(?i)Kazam[; _]([^;/)]+)(?: Build|\))";
  "(?i)Alumini_?3_?Plus|Alumini ?[23]|KEMPLER_(?:P[13]|TV|[X9]|8_PLUS)|ZKEMPLER[ _](?:PLUS|PRO)|P1[ _]Amateur";
  "(?i)Alumini ?2";
  "(?i)Alumini_?3_?Plus";
  "(?i)KEMPLER_P([13])";
  "(?i)P1[ _]Amateur";
  "(?i) (O[76]1|E61Pro|O31 Plus)(?:[);/ ]|$)";
  "(?i)(O[76]1)(?:[);/ ]|$)";
  "(?i)KENEKSI|(?:Hemera|Teta Dual|Helios)(?:[);/ ]|$)";
  "(?i)(Hemera|Teta Dual|Helios)(?:[);/ ]|$)";
  "(?i)KENEKSI[ _-]liberty";
  "(?i)KENEKSI[ _-]FLASH";
  "(?i)KENEKSI[ _-]SUN";
  "(?i)KENEKSI[ _-]ZETA";
  "(?i)KENEKSI[ _-]SIGMA";
  "(?i)KENEKSI[ _-](Moon|Libra_Dual|Glass|Amber|Chance|Amulet|Choice|Crystal|Dream|Delta[_ ]Dual|Norma 2|Norma|Sky|Fire 2|Fire|Flame|Flora|Rock|Solo|Soul|Step|Smart|Star|Storm|Wind)";
  "(?i)Three[_ ]Proofings[_ ]W([5-9])(?:[);/ ]|$)";
  "(?i) (VIM2)(?:[);/ ]|$)";
  "(?i)Kiano|Elegance_[45]_[015](?:_PRO)?|ELEGANCE 5\.0 Lite|Elegance_4\.5|Elegance 6|CORE 10\.1 DUAL 3G|Intelect ?(7|8|10)|Slim ?Tab ?\d+(?:[_ ]3GR?)?(?:[);/ ]|$)";
  "(?i)Slim ?Tab ?(\d+)(?:[_ ]3GR?)?";
  "(?i)CORE 10\.1 DUAL 3G";
  "(?i)Elegance_(5)_([51])_Pro";
  "(?i)ELEGANCE 5\.0 Lite";
  "(?i)Elegance_([45])[_.]([015])";
  "(?i)(Kiano)?(Intelect|Elegance) ?(7|8|10)?";
  "(?i)Kiano[ _]([^;/]+) Build";
  "(?i)(?:N(?:9[5678]00|8800|9000|9977)|Star[ _]N9589)(?:[);/ ]|$)";
  "(?i)(?:Star_)?N(9[5678]00|8800|9977|9589)(?:[);/ ]|$)";
  "(?i)Kingstar[-_ ]?([^;/)]+)(?: Build|[;)])";
  "(?i)Kingsun[ _-]";
  "(?i)Kingsun[ _-]([^;/]+) Build";
  "(?i)Kingsun[ -]([a-z0-9_-]+)";
  "(?i)(KST103SD(?:-L)?)";
  "(?i)KIOWA[_ ]|(?:[AS]5|X4)_CRISTAL(?:[);/ ]|$)";
  "(?i)(X4|[AS]5)_CRISTAL";
  "(?i)KIVI [24]K|(?:24H600G[RU]|24FR50WU|24HK30B|32HR55GU|32H700GU|32F700WU|4[39]UP50GU|40UR50G[RU]|40U600G[RU]|50U730GR|55U600(?:G[RU]|KD)|65UP50GU|55U[PC]50G[RU]|50U600G[RU]|50UX10S|55UR50G[RU]|40FK30G|40FR5[02]BR|43U(?:800B[RU]|600KD|K3[05]G|700GR)|50FK30G|50UK35G|32HR50GR|32[FH]700GR|55UC30G|55U730GR|32HK30G|40FK30G|32HR50GU|32FR50(?:WR|BU)|32FK3[02]G|32F700WR|32H600KD|40U600KD|32H600G[RU])(?:_-Ver0[0-9])?(?:[);/ ]|$)";
  "(?i)(55UC30G|40FK30G|43UK30G|32HR50G[RU]|32HK30G|32FK32G)_-Ver0([0-9])(?:[);/ ]|$)";
  "(?i)(\d{2}(?:[HFU]|U[CPRXKX]|[BHF][RK])\d{2,3}(?:[GW][RU]|B[UR]|KD|[BGS]))(?:[);/ ]|$)";
  "(?i)KIVI ([24]K Android TV)";
  "(?i)KLIPAD_|(?:KL-V905|KL(2108NBE|[46]889|489[08]|9878A?E?|3669|759[01]|50[05]|638DK|60[15]|988)?(?:_EEA)?|7589AN|KL628_HL|KL628KO|KL4898[_ -]A50|V356B?)(?:[);/ ]|$)";
  "(?i)(?:KLIPAD_)?(V355B?|KL600|KL-V905|V356B?|KL50[05]|KL60[15])(?:_EEA)?(?:[);/ ]|$)";
  "(?i)(KL[46]889|7589AN|KL759[01]|KL9878A?E?|KL628KO|KL3669|KL489[08]|KL988|KL2108NBE|KL638DK)(?:_EEA)?(?:[);/ ]|$)";
  "(?i)KL4898[_ -]A50";
  "(?i)Kocaso|(?:DX765 Pro|M(?:6200|729|7[357][026][hw]?|76[01236][bw]?|83[016]|8[567]0|1050s|106[012368]w?|1070|X736(?:-kit)?|X780))(?:[);/ ]|$)";
  "(?i)DX765 Pro(?:[);/ ]|$)";
  "(?i)M6200(?:[);/ ]|$)";
  "(?i)M729(?:[);/ ]|$)";
  "(?i)M(7[357][026])[hw]?(?:[);/ ]|$)";
  "(?i)M(76[01236])[bw]?(?:[);/ ]|$)";
  "(?i)MX780(?:[);/ ]|$)";
  "(?i)M(83[016])(?:[);/ ]|$)";
  "(?i)M(8[567]0)(?:[);/ ]|$)";
  "(?i)M851(?:[);/ ]|$)";
  "(?i)M1050S(?:[);/ ]|$)";
  "(?i)M(106[012368])W?(?:[);/ ]|$)";
  "(?i)M1070(?:[);/ ]|$)";
  "(?i)MX736(?:-kit)?(?:[);/ ]|$)";
  "(?i)Kocaso[ _-]?([^;/)]+)(?: Build|[;)])";
  "(?i)Kocaso[ _-]?([a-z0-9_-]+)";
  "(?i)KODAK|(?:IM5|KD50|Ektra|Smartway[_ ](?:[FT]1|[LT]2)|D55L|D61L|D6[05]LX|PATH_7XPRO)(?:[);/ ]|$)";
  "(?i)(KD50|D55L|D6[05]LX|D61L)";
  "(?i)Ektra(?:[);/ ]|$)";
  "(?i)(?:KODAK[_ ])?SMARTWAY[_ ]L1 PRO";
  "(?i)(?:KODAK[_ ])?SMARTWAY[_ ]([FLMTX]1|[LMTX]2|T3)";
  "(?i)Tablet (7|10)";
  "(?i)Kogan|(?:Agora (?:8 Plus|XI|Go|Lite|4G Pro))(?:[);/ ]|$)";
  "(?i)Kogan ?(SmarterTV(?: 2K)?|TV|TVAP)(?:[);/ ]|$)";
  "(?i)Agora ([68]) ?Plus";
  "(?i)Kogan[ _-]([^;/)]+)(?: Build|[;)])";
  "(?i)Kogan[ _-]([a-z0-9_-]+)";
  "(?i)Komu[_ -]";
  "(?i)Komu[_ -]([^;/).]+)(?: Build|[;).])";
  "(?i)Komu[_ -]([a-z0-9_-]+)";
  "(?i)KONKA[_ ]([a-z0-9]+)|(?: R[EU]1|KC516(?: Pro)?|KUD50WT702AN|UDE55NR314ANTS)(?:[);/ ]|$)";
  "(?i)W(9[67]0)";
  "(?i)( R[EU]1)(?:[);/ ]|$)";
  "(?i)(KUD50WT702AN|UDE55NR314ANTS)";
  "(?i)KONKA[_ ]([a-z0-9]+)";
  "(?i)KONROW[_ ]|(?:LINK55|KTAB_1003|BIGCOOL|SOFT5P?|COOLFIVE|COOL-K|Just5|Link5|EASY ?(?:5|62|K55)|EASY_5_EEA|EASY55|CITY55?|CITY4|Cool55|SKY_?55_EEA|Android 11(?:[\d.]*);(?: [\w-]+;)? SWEET5|SWEET 55)(?:[);/ ]|$)";
  "(?i)BIGCOOL(?:[);/ ]|$)";
  "(?i)LINK55(?:[);/ ]|$)";
  "(?i)COOL-K(?:[);/ ]|$)";
  "(?i)Cool55(?:[);/ ]|$)";
  "(?i)SOFT5(?:[);/ ]|$)";
  "(?i)SOFT5P(?:[);/ ]|$)";
  "(?i)COOLFIVE(?:[);/ ]|$)";
  "(?i)Just5(?:[);/ ]|$)";
  "(?i)Link5(?:[);/ ]|$)";
  "(?i)EASY ?(55?|62|K55)(?:[);/ ]|$)";
  "(?i)EASY_5_EEA(?:[);/ ]|$)";
  "(?i)CITY(55?|4)(?:[);/ ]|$)"
].
Definition d_dr_re0_22 : list blob := [
  "(?i)SKY_?55_EEA(?:[);/ ]|$)";
  "(?i)SWEET ?(55?)(?:[);/ ]|$)";
  "(?i)KONROW[_ ](701X)(?:[);/ ]|$)";
  "(?i)KTAB_1003(?:[);/ ]|$)";
  "(?i)Koobee|(?:F2_Plus|SL004T|Android 10(?:[\d.]*);(?: [\w-]+;)? (?:K60))(?:[);/ ]|$)";
  "(?i)F2[_ ]Plus";
  "(?i)(K60)(?:[);/ ]|$)";
  "(?i)Koobee[ _-]?([^;/]+) Build";
  "(?i)Koobee[ _-]?([a-z0-9_-]+)";
  "(?i)(K1 Trio)(?:[);/ ]|$)";
  "(?i)Kooper-mobile-W502(?:[);/ ]|$)";
  "(?i)Korax|era8K Pro(?:[);/ ]|$)";
  "(?i)Korax[_ -]?([^;/)]+)(?: Build|[;)])";
  "(?i)KORIDY[ _-]([^/;]+) Build";
  "(?i)(KL1071Z|KL1084)";
  "(?i)(?:Kraft[_ -])?KTV-(\w+)";
  "(?i)Kruger[ _&]Matz|KrugerMatz[ _]|K&M|EAGLE_(?:807|961|107[46]|1068)|FLOW ?5PLUS|FLOW 1[01]|FLOW 4 PLUS|Flow 9|FLOW_5|FLOW7|FLOW6(?:S|Lite)?|DRIVE9|DRIVE 8|DRIVE[_ ]6S?|Drive 10|MOVE8mini|MOVE9| MOVE 10|MOVE_|LIVE_6plus|LIVE 5 PLUS|Live [89]|LIVE4_KM043[89]|LIVE 7S?|LIVE 12|Flow 7S|Eagle 806|KM(?:106[679]|107[23]|1065G|0701(?:_1)?|0702|080[45](?:_1)?|1070)|Live 10S";
  "(?i)MOVE[_ ]([78]|6S?|10)";
  "(?i)DRIVE[ _]?([45689][S]?|10)(?:[);/ ]|$)";
  "(?i)FLOW ?([54]) ?PLUS(?:[);/ ]|$)";
  "(?i)FLOW6Lite(?:[);/ ]|$)";
  "(?i)FLOW[ _]?([4-7][S]?|9|1[01])(?:[);/ ]|$)";
  "(?i)LIVE4_(KM043[89])(?:[);/ ]|$)";
  "(?i)KrugerMatz_LIVE4(?:[);/ ]|$)";
  "(?i)_LIVE5_(KM0450)(?:[);/ ]|$)";
  "(?i)LIVE 5 PLUS(?:[);/ ]|$)";
  "(?i)LIVE_6plus(?:[);/ ]|$)";
  "(?i)LIVE ([79]|10)S(?:[);/ ]|$)";
  "(?i)Live ([789]|12)(?:[);/ ]|$)";
  "(?i)MOVE9(?:[);/ ]|$)";
  "(?i)KM(106[679]|1072)(?:[);/ ]|$)";
  "(?i)KM(1073)(?:[);/ ]|$)";
  "(?i)Eagle 806(?:[);/ ]|$)";
  "(?i)Eagle_807(?:[);/ ]|$)";
  "(?i)Eagle_(107[46])(?:[);/ ]|$)";
  "(?i)EAGLE_(961|1068)(?:[);/ ]|$)";
  "(?i)KM(1070)(?:[);/ ]|$)";
  "(?i)KM(1065G)(?:[);/ ]|$)";
  "(?i)KM0(701)(?:_1)?(?:[);/ ]|$)";
  "(?i)KM0(80[45])(?:_1)?(?:[);/ ]|$)";
  "(?i)KM0(702)(?:[);/ ]|$)";
  "(?i)K&M,([a-z0-9_ -]+),(?:wired|wireless)";
  "(?i)KULIAO (K10)(?:[);/ ]|$)";
  "(?i)(Ambition|Beyond)(?:[);/ ]|$)";
  "(?i)(?:KM-)?Kumai";
  "(?i)(?:KM-)?Kumai[ _-]?([^;/]+) Build";
  "(?i)(?:KM-)?Kumai[ _-]?([a-z0-9_-]+)";
  "(?i)Kurio|C15100m";
  "(?i)C15100m(?:[);/ ]|$)";
  "(?i)Kurio[_ ]?(10S|7S)(?:[);/ ]|$)";
  "(?i)Kurio[_ ]?Phone(?:[);/ ]|$)";
  "(?i)Kyocera|KWC-|QC-[0-9]{4}|(?:QC6035|NP501KC|302KC|503KC|602KC|705KC|901KC|C51[27]0|C5155|C5215|C67[35]0|C6522N?|C6530N|C6740N?|C6743|E6[89]10|KYL2[13]|KYV3[1-9]|KYT3[123]|KYF3[1235789]|KYF4[012]|KYX31|KYG0[13]|KYY2[1-4]|S2151|KC-S701|S[468]-KC|S9-KC|S10-KC|KYV40U?|KYY31|KYV4[1-8]|KYV4[47]|KC-S301AE|KC-S302|X3-KC|E6560[CT]|E6782[L]?|E6790(?:TM)?|SZJ-JS20[12]|KCP01K|[47]04KC|A[0-3]01KC|A205KC|WX10K|URBANO PROGRESSO|E7110|E7200|E6921|KY-(?:42C|51B)|C6930|A101BM)(?:[-_][uj]2?)?(?:[);/ ]|$)";
  "(?i)C5120(?:[);/ ]|$)";
  "(?i)(A101BM)(?:[);/ ]|$)";
  "(?i)S([4689]|10)-KC(?:[);/ ]|$)";
  "(?i)C5155(?:[);/ ]|$)";
  "(?i)602KC(?:[);/ ]|$)";
  "(?i)503KC(?:[);/ ]|$)";
  "(?i)404KC(?:[);/ ]|$)";
  "(?i)704KC(?:[);/ ]|$)";
  "(?i)302KC(?:[);/ ]|$)";
  "(?i)KC-S302(?:[);/ ]|$)";
  "(?i)NP501KC(?:[);/ ]|$)";
  "(?i)WX10K(?:[);/ ]|$)";
  "(?i)KYV36(?:[);/ ]|$)";
  "(?i)901KC(?:[);/ ]|$)";
  "(?i)A101KC(?:[);/ ]|$)";
  "(?i)KY-42C(?:[);/ ]|$)";
  "(?i)KYV39(?:[);/ ]|$)";
  "(?i)KYX31(?:[);/ ]|$)";
  "(?i)C5170(?:[);/ ]|$)";
  "(?i)C5215(?:[);/ ]|$)";
  "(?i)C6522N?";
  "(?i)C6740(N)?";
  "(?i)E6560[CT]";
  "(?i)(?:KYOCERA-)?E68[12]0";
  "(?i)(?:KYOCERA-)?(?:E69[12]0|E6921)";
  "(?i)(?:KYOCERA-)?(?:E7200)";
  "(?i)KYL21(?:[);/ ]|$)";
  "(?i)KYL23(?:[);/ ]|$)";
  "(?i)KYY24(?:[);/ ]|$)";
  "(?i)KYG03(?:[);/ ]|$)";
  "(?i)(KYF32|KYF41)(?:[);/ ]|$)";
  "(?i)KYF35(?:[);/ ]|$)";
  "(?i)KYF40(?:[);/ ]|$)";
  "(?i)KYF3[179](?:[);/ ]|$)";
  "(?i)(KYV48|KYF42)(?:[);/ ]|$)";
  "(?i)KYF33(?:[);/ ]|$)";
  "(?i)(KYF38)(?:[);/ ]|$)";
  "(?i)KYV35(?:[);/ ]|$)";
  "(?i)KYV41(?:[);/ ]|$)";
  "(?i)KYV46(?:[);/ ]|$)";
  "(?i)KYV32?(?:[);/ ]|$)";
  "(?i)KYV47(?:-[uj])?(?:[);/ ]|$)";
  "(?i)KYV43(?:_j)?(?:[);/ ]|$)";
  "(?i)705KC(?:[);/ ]|$)";
  "(?i)KYV37(?:[);/ ]|$)";
  "(?i)KYV42(?:_u)?(?:[);/ ]|$)";
  "(?i)KYV44(?:_u2?)?(?:[);/ ]|$)";
  "(?i)KYT33(?:[);/ ]|$)";
  "(?i)KYT32(?:[);/ ]|$)";
  "(?i)KYT31(?:[);/ ]|$)";
  "(?i)KYV40U?(?:[);/ ]|$)";
  "(?i)KYV33(?:[);/ ]|$)";
  "(?i)KYY21(?:[);/ ]|$)";
  "(?i)KYY22(?:[);/ ]|$)";
  "(?i)KYY23(?:[);/ ]|$)";
  "(?i)KYV31(?:[);/ ]|$)";
  "(?i)KYV34(?:[);/ ]|$)";
  "(?i)KYV(?:45|38)(?:[);/ ]|$)";
  "(?i)A301KC(?:[);/ ]|$)";
  "(?i)(?:Kyocera-)?E6790(?:TM)?";
  "(?i)X3-KC(?:[);/ ]|$)";
  "(?i)E6782(?:[);/ ]|$)";
  "(?i)E6782L(?:[);/ ]|$)";
  "(?i)KCP01K(?:[);/ ]|$)";
  "(?i)(KC-S301AE|KY-51B)(?:[);/ ]|$)";
  "(?i)(SZJ-JS20[12])(?:[);/ ]|$)";
  "(?i)A001KC(?:[);/ ]|$)";
  "(?i)A201KC(?:[);/ ]|$)";
  "(?i)A205KC(?:[);/ ]|$)";
  "(?i)URBANO PROGRESSO(?:[);/ ]|$)";
  "(?i)KYY31(?:[);/ ]|$)";
  "(?i)Kyocera-KZ-([a-z0-9]+)";
  "(?i)Kyocera(?:[\-/])?([a-z0-9]+)";
  "(?i)(KWC|QC)-?([a-z0-9]+)";
  "(?i)(KA-E410W)(?:[);/ ]|$)";
  "(?i)(?:Ureki_U1|Victor V1|Lamia L01|DART KZ07|REX RX|Eva_E01|Majesty (?:M5|4G))(?:[);/ ]|$)";
  "(?i)Majesty (M5|4G)";
  "(?i)(?:Sapphire 8|Sapphire[76]|Mega plus[23])(?:[);/ ]|$)";
  "(?i)Mega plus([23])";
  "(?i)Sapphire ?([678])";
  "(?i)(?:Panther2 Pro)(?:[);/ ]|$)";
  "(?i)LAIQ|(?:Monaco)(?:[);/ ]|$)";
  "(?i)(?:LAIQ_)?(Glam|New York|Dubai|Monaco)(?:[);/ ]|$)";
  "(?i)LCT_([a-z0-9]+)";
  "(?i)(?:LEM1[456]|LEM12Pro)(?:[);/ ]|$)";
  "(?i)(LEM12)Pro";
  "(?i)(LEM1[456])";
  "(?i)LG|NetCast|WebAppManager|portalmmm/2\.0 (?:KE|KG|KP|L3)|(?:VX[0-9]+|L-0[12]D|L-07C|P713|(LM-[A-Z][0-9]{3}[A-Z]{0,3}(?:\(FGN?\)|\(G\)|\.FN|\.F(?:GN?)?)?)|LM-(X625N1|G820QM[0127])|G Watch|lucye)(?:[);/ ]|$)|RS98[78]|RS500|VS(?:50[01]|835|876|880|98[05-8]|99[056]|(410|415|425|500|880)PP)|VS820|VS870 4G|Nexsus 5|10A30Q|LM-?(?:K920|K200[EB]?)|LML(41[34]D|211B|713D|212V)L|VK810 4G|VK815|X5-LG|L-05[DE]|L-03K|L-01[LJK]|L-52A|L-[45]1A|901LG|A001LG|80[12]LG|402LG|LGT32|L-02K|L-01F|LM-V40|DM-01K|DM-02H|LMX130IM|LMG820UM1|VS810PP|VS425|VM670|VS930 4G|US215|LGE[;,] (?:[0-9]{2}[ELSTUP][ABCFGHJ-NP-TWX][a-z0-9]{4,7}(?:\-[a-z]{2})?|[0-9]{2}NANO[a-z0-9]+|OLED[0-9]{2}[a-z0-9-]+)|(?:27ART10AKPL|28MT49S-PSS|HF60LS-EU)(?:[);/ ]|$)";
  "(?i)DM-(01K|02H)";
  "(?i)LG-?(?:D32[0159]|AS323|LS620)";
  "(?i)LG-?(D315|L31L|F370)";
  "(?i)LG-D4(?:[01]5|[01]0)";
  "(?i)LG-D37[35]";
  "(?i)LG-D12[05]";
  "(?i)LG-?(?:X132|X130g)";
  "(?i)LG-?(?:D157f|D150)";
  "(?i)LG-D10[057]";
  "(?i)LG-X14[057]";
  "(?i)LG-X13[57]";
  "(?i)LG-D28[05]";
  "(?i)LG-?LS675";
  "(?i)LG-?LS665";
  "(?i)VS980|L-01F|LG-(?:F320[LKS]|D80[012356]|LS980)";
  "(?i)LG-D6(?:1[08]|2[05])";
  "(?i)LG-(?:D85[012568]|AS990|F400[LKS])|LG-?LS990|(?:LG-)?(?:VS985|LGUS990|LGL24|LGD85[05]|LGV31)(?:[);/ ]|$)";
  "(?i)LG-?LS885";
  "(?i)LG-D722";
  "(?i)LG-(?:D72[23568]|F470[LKS]|D722J)";
  "(?i)LG-D693n?|LG-D690n";
  "(?i)LG-?H81[012589]|LG-?[LU]S991|LGV32|LG-F500[LSK]|VS986";
  "(?i)LG-H525n?";
  "(?i)LG-H22[012]";
  "(?i)LG-(?:H540|H542|H630)";
  "(?i)LG-H73[46]";
  "(?i)LG-H8(?:20|3[01]|5[08]|6[08])|VS987|(?:LG-)?RS988|LG-F700[SKL]|LG-?(?:[LU]S992|AS992)";
  "(?i)LG-H84[05]";
  "(?i)VS988|LG-H87(?:[01](?:DS|[SI]|AR)?|[23])|LG-?US997|LGM-G600[SKL]|LG-[AL]S993|lucye";
  "(?i)LG-?(?:L23|D95[015689]|LS995|D950G|F340[LKS])(?:[);/ ]|$)";
  "(?i)LG-?(?:H95[059]|F510[KLS]|LS996|AS995)";
  "(?i)LG-D68[0-6]";
  "(?i)LM-G820([NV]|QM[0127]|UMB)?";
  "(?i)LG-F310LR?";
  "(?i)901LG(?:[);/ ]|$)";
  "(?i)LG-H410(?:[);/ ]|$)";
  "(?i)LG-?(?:D486|F480[LKS])(?:[);/ ]|$)";
  "(?i)LG-?T480[KS]";
  "(?i)LG-F610[KS]";
  "(?i)VS501|LM-X120";
  "(?i)LGMS395|LG-D393";
  "(?i)LG-(?:F520[LKS]|H788)";
  "(?i)(?:LG-)?H50[02]";
  "(?i)LGL16(?:3BL|4VL)";
  "(?i)LG-(?:X15[05]|X165g)";
  "(?i)LG-D33[157]";
  "(?i)LG-D29[05]";
  "(?i)(?:LG-)?H343";
  "(?i)(?:LG-)?H650";
  "(?i)(?:LG-)?M154";
  "(?i)LGM-K120[LSK]";
  "(?i)LG-K120(?:[);/ ]|$)";
  "(?i)LGM-X320[SKL]?(?:[);/ ]|$)";
  "(?i)LG-F620[KLS]";
  "(?i)LG-?L18VC";
  "(?i)(?:LG-)?P500H";
  "(?i)(?:LG-?)?VS450PP";
  "(?i)LG-(?:E97[567]|F180[KLS]|E987|LS970)|LGL01E";
  "(?i)LG-?L39C";
  "(?i)LG-(?:F240[KLS]|E98[69]|E98[015])"
].
Definition d_dr_re0_23 : list blob := [
  "(?i)LG-E435f?";
  "(?i)LG-E4(?:70f|40|65f)";
  "(?i)LG-E4(?:67f|45)";
  "(?i)LG-?(?:D180f|D175f|D170|D165)";
  "(?i)LG-E4[56]0";
  "(?i)LG-E61[02]";
  "(?i)LG-(?:E4[17]5f|E410)";
  "(?i)LG-(?:D605)";
  "(?i)LG-?(?:P655H|MS659)";
  "(?i)LGMS500|LG-D505";
  "(?i)(L-05[DE])(?:[);/ ]|$)";
  "(?i)LG-L160L|LG-F160";
  "(?i)(?:LG-)?(?:P713|P71[0245]|P713TR)(?:[);/ ]|$)";
  "(?i)LG-P716(?:[);/ ]|$)";
  "(?i)LG-?MS323";
  "(?i)L-01D(?:[);/ ]|$)";
  "(?i)L-02D(?:[);/ ]|$)";
  "(?i)(?:LG-?)?(?:F800[SKL]?|H990|H910(?:PR)?|US996|V34|LS997)(?:[);/ ]|$)";
  "(?i)LM-Q710(?:\(FGN\)|[\.]?FGN)";
  "(?i)LG-?(?:D22[17]|D213)";
  "(?i)LG-?(?:K520|F720[KLS])";
  "(?i)LG-(?:K53[05])";
  "(?i)LM-Q[67]10\.FG(?:[);/ ]|$)";
  "(?i)LM-(Q72[57][KLS]|Q610[\(.]FGN)(?:[);/ ]|$)";
  "(?i)LM-Q815[KSL](?:[);/ ]|$)";
  "(?i)LGM-X800[KL]|LG-H970";
  "(?i)LM-Q925[LKS](?:[);/ ]|$)";
  "(?i)LM-(?:Q730N|Q620)(?:[);/ ]|$)";
  "(?i)LM-Q520N(?:[);/ ]|$)";
  "(?i)LGV33(?:[);/ ]|$)";
  "(?i)L-03K(?:[);/ ]|$)";
  "(?i)L-01L(?:[);/ ]|$)";
  "(?i)LGLS775|LGL8(?:2V|1A)L";
  "(?i)VS835(?:[);/ ]|$)";
  "(?i)LG-?(?:MS550|K55[07])";
  "(?i)L-41A(?:[);/ ]|$)";
  "(?i)LG-?(?:MS63[14]|H63[145]|F560K|LS770)(?:[);/ ]|$)";
  "(?i)LG-?(?:LS777|L84VL|M430|L83BL)(?:[);/ ]|$)";
  "(?i)LG-?([TM]P450|M470F?)(?:[);/ ]|$)";
  "(?i)LM-Q710|LML713DL|LG-Q710[AP]L";
  "(?i)(?:LM-Q720|LGL722DL)(?:[);/ ]|$)";
  "(?i)LM-Q730(?:[);/ ]|$)";
  "(?i)LM-G710(N|VM)?|LG-G710";
  "(?i)LG-H44[35]";
  "(?i)LM-X410\.FG?(?:[);/ ]|$)";
  "(?i)LGL455DL(?:[);/ ]|$)";
  "(?i)LML41[34]DL(?:[);/ ]|$)";
  "(?i)LG-?L6(?:2V|1A)L(?:[);/ ]|$)";
  "(?i)LG-?L5(?:2V|1A)L(?:[);/ ]|$)";
  "(?i)LG-?L355DL";
  "(?i)LM-X210[KLS]";
  "(?i)LG-(?:K580|F690[LS])";
  "(?i)LG-?K600";
  "(?i)LG-(?:SP320|M32[27]|US601)";
  "(?i)LG-?(?:LS676|L56VL|L53BL|K200)";
  "(?i)LG-?(?:K500|F650|S02)";
  "(?i)LG-(?:M710|H700|US701)";
  "(?i)LM-X(?:41[05]K|410S)";
  "(?i)LM-X(415[LS]|410L)";
  "(?i)LM-X410(?:\.FN|\(FG\))";
  "(?i)LM-X(?:320|410[UP]M)|LGL322DL";
  "(?i)LG-?LS740";
  "(?i)LG-?LS751";
  "(?i)(?:VS425|LG-?(?:K120GT|K121|M151|X230))(?:[);/ ]|$)";
  "(?i)LG-K130(?:[);/ ]|$)";
  "(?i)(?:LG-?)?(?:M160|L57BL)(?:[);/ ]|$)";
  "(?i)LM-X430(?:[);/ ]|$)";
  "(?i)(?:802LG|LM-X520)(?:[);/ ]|$)";
  "(?i)(?:LM-X510[KLS]|X5-LG)";
  "(?i)LGMS210|LG-M210";
  "(?i)LM-X210[G]?";
  "(?i)LM-X220(?:[);/ ]|$)";
  "(?i)LM-X220N(?:[);/ ]|$)";
  "(?i)LM-V40(?:5|9N|5EBW)?(?:[);/ ]|$)";
  "(?i)LM-(?:V500N?|V450)(?:[);/ ]|$)";
  "(?i)(?:LG-)?(?:RS987|H90[01]|H96[0218]|VS990|F600[LKS]|K428)";
  "(?i)LG-(?:X240|M200)";
  "(?i)(?:LG-)?RS500";
  "(?i)(?:LG-)?VS500";
  "(?i)LM-X212\(G\)|(?:LG)?US215";
  "(?i)(?:LG-)?(?:VS995|F800K|US999|LS997|H91[058]|H990(?:DS|[NT])?)";
  "(?i)(?:VS996|LG-(?:H933|H93[012]|H930RE|H932PR|[LU]S998|AS998)|LGM-V300[KLS])(?:[);/ ]|$)";
  "(?i)L-01J(?:[);/ ]|$)";
  "(?i)(?:L-01K|LGV35|LG-H930DS)(?:[);/ ]|$)";
  "(?i)L-51A(?:[);/ ]|$)";
  "(?i)(?:L-52A|LM-G900(?:[NV]|TM)?)(?:[);/ ]|$)";
  "(?i)LM-V700N(?:[);/ ]|$)";
  "(?i)(?:A001LG|LM-V600V?)(?:[);/ ]|$)";
  "(?i)(?:LG-)?VS410PP";
  "(?i)LM-V350[N]?";
  "(?i)(?:LG-)?VS415PP";
  "(?i)(?:LG-)?VS425PP";
  "(?i)(?:LG-?)?(?:K100|LS450)";
  "(?i)LG-AS110|LGUS110";
  "(?i)(?:LG-?)?(?:K|MS)33[02]|LG-X210";
  "(?i)(?:LG-?)?(?:K|MS)350";
  "(?i)(?:LG-?)?(?:K420(?:N)?|K425|F670[KLS]?|K430(?:DS|DSF|DSY)?|K410|MS428)";
  "(?i)(?:LG-)?(?:M250N?|M257PR)";
  "(?i)(?:LG-)?M255";
  "(?i)(?:LG-?)?[MT]P260";
  "(?i)LM-?K200[EB]";
  "(?i)LM-K200(?:[);/ ]|$)";
  "(?i)LM-?K920";
  "(?i)LM-K300(?:[);/ ]|$)";
  "(?i)LM-K330(?:[);/ ]|$)";
  "(?i)LM-K420(?:[);/ ]|$)";
  "(?i)(?:LM-K500|LGL555DL)(?:[);/ ]|$)";
  "(?i)LM-K510(?:[);/ ]|$)";
  "(?i)LM-K520(?:[);/ ]|$)";
  "(?i)LM-K525(?:[);/ ]|$)";
  "(?i)LM-K526(?:[);/ ]|$)";
  "(?i)LM-Q510N(?:[);/ ]|$)";
  "(?i)LM-Q310N(?:[);/ ]|$)";
  "(?i)LM-Q630N?(?:[);/ ]|$)";
  "(?i)(?:LG-)?M700(?:N|A|DSK|AN)?|LGM-X600[SLK]|LG-M703|LG-US700";
  "(?i)LGV36(?:[);/ ]|$)";
  "(?i)LG-M257(?:[);/ ]|$)";
  "(?i)LM-K400(?:[);/ ]|$)";
  "(?i)(?:LG-?)?(?:K220|LS755|F750K|US610)";
  "(?i)(?:LG-?)?M320";
  "(?i)(?:LG-)?K371";
  "(?i)(?:LG-)?M150";
  "(?i)(?:LG-)?F100[SL]";
  "(?i)(?:LG-)?F200(?:[KLS]|LS)";
  "(?i)(?:LG-)?VM670";
  "(?i)(?:LG-)?P880";
  "(?i)(?:LG-)?(H340n?|H32[04])";
  "(?i)(?:LG-)?H34[25]|LGMS345";
  "(?i)(?:LG-)?H4(?:40|2[02])";
  "(?i)(?:LG)?C660";
  "(?i)LML21(?:1B|2V)L";
  "(?i)LG-?L4(?:4V|3A)L";
  "(?i)VS880(PP)?|LG-(?:D690|D631)";
  "(?i)LG-?(?:D838|F350[LKS])";
  "(?i)LG-F300[LKS]";
  "(?i)LG-D38[05]";
  "(?i)LG-?(?:L16C|L15G)";
  "(?i)LM-F100N?(?:[);/ ]|$)";
  "(?i)LM-T60[05]";
  "(?i)LG-?(?:(?:UK|V)410|V411|V400Y7)";
  "(?i)LG-?(?:LK430|V400)";
  "(?i)LG-V49[56]";
  "(?i)LG-V4[89]0";
  "(?i)LGT01|LG-P490L";
  "(?i)LG-V50(?:0|7L)";
  "(?i)LG-V935|LGUK932";
  "(?i)LGT02|LG-?V522";
  "(?i)LG-V525(?:S[13])?(?:[);/ ]|$)";
  "(?i)LG-?[VP]755";
  "(?i)LG-V52[01]";
  "(?i)LG-?UK750";
  "(?i)\(LGE?, WEBOS[123], (?:wired|wireless)";
  "(?i)Web0S; Linux/SmartTV.+\( ?;LGE? ?;(\d{2}\w+) ?;";
  "(?i)LGE;? (?:HOTEL\-TV; )?([0-9]{2}[a-z0-9]{4,9}(?:\-[a-z]{2,3})?)";
  "(?i)\(LGE?,? ([a-z0-9_ -]+)(?:\.[a-z]+)?,? (?:wired|wireless)";
  "(?i)Media/([a-z]{2,3}[0-9]{3,4})";
  "(?i)webOS\.TV";
  "(?i)LGE_DLNA_SDK|NetCast";
  "(?i)G Watch( R)?";
  "(?i)(LM-[A-Z]{1}[0-9]{3}([A-Z]{1,3})?)";
  "(?i)LGE(?: |-LG| LG-AX|-)([a-z0-9]+)";
  "(?i)FBDV/LG-([a-z0-9]+);FBSV";
  "(?i)LGE;([a-z0-9-]+)";
  "(?i)LG[ _-](V90.*|Optimus[ _-]Pad.*) Build";
  "(?i)LGM-([^/;]*)( Build|[;)])";
  "(?i)LG(?:/|-LG| |-)?([^/;]*) Build";
  "(?i)LG(?:/|-LG| |-)?([a-z0-9]+)";
  "(?i)LG; ([a-z0-9 ]+)";
  "(?i)portalmmm/2\.0 ((?:KE|KG|KP|L3)[a-z0-9]+)";
  "(?i)(VX[0-9]+)";
  "(?i)Web0S; Linux/SmartTV";
  "(?i)(H11)-EEA(?:[);/ ]|$)";
  "(?i)LOGAN_(Panita)_3G(?:[);/ ]|$)";
  "(?i)(APPLLP Max|APPLLP2?)(?:[);/ ]|$)";
  "(?i)LT[ _-](?:E1[68]|P[89]|9701|9902|P10I|NOTE 10[SM]|NOTE 30|C1[45]00|C26|C3[1235]00|C3750|S10[ _]Lite|S10|S33|S9_NOTE|M[56]|M5_lite|C1300|6217|6509|2003|C60)|(?:C3[67]00)(?:[);/ ]|$)";
  "(?i)LT[- ]NOTE ([13]0[SM]?)";
  "(?i)LT[ _-]C3100";
  "(?i)LT[ _-]C3200";
  "(?i)LT[ _-]C3750";
  "(?i)LT[ _-]C1400";
  "(?i)LT[ _-]C3500";
  "(?i)(?:LT[ _-])?C3600";
  "(?i)(?:LT[ _-])?C3700";
  "(?i)LT[ _-](C3300|C1500)";
  "(?i)LT[ _]S10[ _]Lite";
  "(?i)LT[ _]S10";
  "(?i)LT[ _]C1300";
  "(?i)LT[ _]P10I";
  "(?i)LT[ _]9701";
  "(?i)LT[ _]6217";
  "(?i)LT[ _]6509";
  "(?i)LT[ _]9902";
  "(?i)LT[ _]2003";
  "(?i)LT[ _]S33";
  "(?i)LT[ _]P([89])(?:[);/ ]|$)";
  "(?i)LT[ _]E(1[68])(?:[);/ ]|$)";
  "(?i)LT[ _]C(60|26)(?:[);/ ]|$)";
  "(?i)LT[ _]M([56])[_ ]lite(?:[);/ ]|$)";
  "(?i)LT[ _]M([56])(?:[);/ ]|$)";
  "(?i)Lunnen|TL65611S01|TL4648S01"
].
Definition d_dr_re0_24 : list blob := [
  "(?i)Ground (11|10\.4)";
  "(?i)LU-(V78)(?:[);/ ]|$)";
  "(?i)(LW788)(?:[);/ ]|$)";
  "(?i)(LYF[ _])?LS-[456][0-9]{3}|LYF/[^/]+/";
  "(?i)(LYF[ _])?LS-4006";
  "(?i)LS-450[58]";
  "(?i)LYF/([^/]+)/";
  "(?i)LFi ONE(?:[);/ ]|$)";
  "(?i)Land[ ]?Rover[d]?[ _-](?:X1[0-9]|Explore|LUXURY|T878|L15\+|V18|V[168]|X)(?:[);/ ]|$)|Polar3|Vphone[- ]X3|ST11-A5";
  "(?i)Land[ ]?Rover[d]?[ _-](X1[0-9]|Explore(?: R)?|T878|L15\+|V18|V[168]|X)(?:[);/ ]|$)";
  "(?i)Vphone[- ]X3";
  "(?i)(ST11-A5)";
  "(?i)XM[123]00|S6 Build";
  "(?i)XM([123])00([^/;)]*)(?: Build|[;)])";
  "(?i)lanin (T4)(?:[);/ ]|$)";
  "(?i)LANIX-([a-z0-9]+)|Ilium[ _]|LANIX_PAD|IliumPad|X120C|(?:Alpha 950(?:XL)?|Alpha [1359]V|Alpha 1R|X540)(?:[);/ ]|$)";
  "(?i)ILIUM[ _]?PAD[ _]?([^;/]+)(?: Build|[;)])";
  "(?i)Ilium[ _](Alpha [15]s|Alpha [379]|Alpha 1T|L(?:200|6[12]0|9[0125]0|1[0124]00|1050|1120)|LT5[012]0|M[579]s|M7T|M[13579]|S(?:106|520|6[27]0)|X(?:1[12]0|2[0126]0|400|5[12]0|500B|710))(?:[);/ ]|$)";
  "(?i)ILIUM[ _]([^;/)]+)(?: Build|[;)])";
  "(?i)Alpha (9500|950(?:XL)?)";
  "(?i)Alpha ([1359])V";
  "(?i)Alpha (1)R";
  "(?i)(X540)";
  "(?i)LANIX-([a-z0-9]+)";
  "(?i)(Lark|Cumulus|Evolution|FreeMe|Ultimate (?:X4|7i))[ _-]|Build/Lark|Bjorn[_ ]SP-500|FreeBird 5WiFi|Impress_Noda";
  "(?i)Cumulus[ _](5\.5|[56])[ _]HD";
  "(?i)FreeMe X2 ([79]) (?:ver|v)?\.([23])";
  "(?i)FreeMe[ _]X2[ _]([7-9])";
  "(?i)FreeMe X4[ _]7[_ ]?HD";
  "(?i)FreeMe X4[ _]9";
  "(?i)(?:Lark[ _-])?Evolution[ _](X2 7 3G-GPS|X4[_ ]10\.1|10|X4[_ ]7[ _]IPS)";
  "(?i)Ul(?:ti|it)mate (X4 10\.1 3G IPS|X4 8s 3G|7i)";
  "(?i)Phablet 6\.0";
  "(?i)Bjorn[_ ]SP-500";
  "(?i)Cirrus[ _](4\.5|[45])";
  "(?i)Lark[ _](Stratus[_ ]5)";
  "(?i)(?:MID_1089IPSA100)(?:[);/ ]|$)";
  "(?i)MID_1089IPSA100(?:[);/ ]|$)";
  "(?i)Lava[ _]|LAVA(?:A1|X10)|(?:DISCOVER136|KKT QUADRA)|iris[ _]?([^/;)]+)(?: Build|[;)])|A(?:67|76) Build|X1 Selfie Build|X41 Plus Build|X1_atom_L|(?:Flair (?:[ZS]1|P8)|PixelV1|Pixel V2\+?|Z60s|Z61_2GB|A97 IPS|A97 2GB PLUS|L[EH]9920(?:[_ ]P)?|L[NEH]9910|LH9810|Ivory(?:S1|S4G)?|A76Plus|Grand2c|AH9910| A3_mini|T71_w|V23GB|R1_Lite|Atom 2X|AF9030|Z50_Pro| Z(?:[56]1|92)|Android 6(?:[\d.]*);(?: [\w-]+;)? (:?X28|P7plus)|AF9020|Alfa L|T81N(?:_UP)?|LN982[01]|Fuel F1 Mini|LE000Z93P|LZX415|LXX513)(?:[);/ ]|$)";
  "(?i)LZX409(?:[);/ ]|$)";
  "(?i)LXX506(?:[);/ ]|$)";
  "(?i)LZX404(?:[);/ ]|$)";
  "(?i)LZX411(?:[);/ ]|$)";
  "(?i)LZX407(?:[);/ ]|$)";
  "(?i)LXX503(?:[);/ ]|$)";
  "(?i)LXX513(?:[);/ ]|$)";
  "(?i)Flair ([ZS]1|P8)(?:[);/ ]|$)";
  "(?i)AF9030(?:[);/ ]|$)";
  "(?i)AF9020(?:[);/ ]|$)";
  "(?i)AH9910(?:[);/ ]|$)";
  "(?i)LXX501(?:[);/ ]|$)";
  "(?i)LXX504(?:[);/ ]|$)";
  "(?i)Z61P(?:[);/ ]|$)";
  "(?i)A97 IPS(?:[);/ ]|$)";
  "(?i)LF6810(?:[);/ ]|$)";
  "(?i)A97 2GB PLUS(?:[);/ ]|$)";
  "(?i)A76Plus(?:[);/ ]|$)";
  "(?i)A3_mini(?:[);/ ]|$)";
  "(?i)Pixel V2\+(?:[);/ ]|$)";
  "(?i)Pixel ?V([12])(?:[);/ ]|$)";
  "(?i)X1_atom_L(?:[);/ ]|$)";
  "(?i)X1 Selfie(?:[);/ ]|$)";
  "(?i)X41 Plus(?:[);/ ]|$)";
  "(?i)(?:LAVA[_ ]?)?A([13]|67|76)(?:[);/ ]|$)";
  "(?i)LAVA_R(1s?)";
  "(?i)Z(\d{2})(?:_2GB)?(?:[);/ ]|$)";
  "(?i)Z50_Pro(?:[);/ ]|$)";
  "(?i)LMX06(?:[);/ ]|$)";
  "(?i)LMG01(?:[);/ ]|$)";
  "(?i)LZG403[ _]225(?:[);/ ]|$)";
  "(?i)LE000Z93P(?:[);/ ]|$)";
  "(?i)LZG403[ _]25(?:[);/ ]|$)";
  "(?i)LZG403(?:[);/ ]|$)";
  "(?i)LZG401(?:[);/ ]|$)";
  "(?i)Z60s(?:[);/ ]|$)";
  "(?i)V23GB(?:[);/ ]|$)";
  "(?i)LE9920[ _]P(?:[);/ ]|$)";
  "(?i)LE9940(?:[);/ ]|$)";
  "(?i)LE9920(?:[);/ ]|$)";
  "(?i)LH9910(?:[);/ ]|$)";
  "(?i)LF9810(?:_2GB)?(?:[);/ ]|$)";
  "(?i)LF9820(?:[);/ ]|$)";
  "(?i)LE9830(?:[);/ ]|$)";
  "(?i)LN9810(?:[);/ ]|$)";
  "(?i)LH9810(?:[);/ ]|$)";
  "(?i)LH993[01](?:[);/ ]|$)";
  "(?i)LE9930(?:[);/ ]|$)";
  "(?i)LH9950(?:[);/ ]|$)";
  "(?i)LN9821(?:[);/ ]|$)";
  "(?i)LN9820(?:[);/ ]|$)";
  "(?i)Atom 2X(?:[);/ ]|$)";
  "(?i)Alfa L(?:[);/ ]|$)";
  "(?i)LN9910(?:[);/ ]|$)";
  "(?i)LE9910(?:[);/ ]|$)";
  "(?i)LH9920(?:[);/ ]|$)";
  "(?i)(X\d+)[ _]Plus(?:[);/ ]|$)";
  "(?i)(X28)(?:[);/ ]|$)";
  "(?i)iris88[_ ]go";
  "(?i)KKT40[ ]?Power[P\+]";
  "(?i)Ivory(S1|S4G)?(?:[);/ ]|$)";
  "(?i)T81N_UP(?:[);/ ]|$)";
  "(?i)T81N(?:[);/ ]|$)";
  "(?i)T71_w(?:[);/ ]|$)";
  "(?i)iris[ _]?([^/;)]+)[_ ]lite(?: Build|[);])";
  "(?i)iris[ _]?([^/;)]+)(?: Build|[);])";
  "(?i)Lava[ _]?([^/;)]+)(?: Build|[);])";
  "(?i)LAVA[ _]([^/;)]+)/MIDP";
  "(?i)Le ?Pan|TC970 ([^;/]+)Build";
  "(?i)TC970 ([^;/]+)Build";
  "(?i)Le ?Pan ?(II|S)(?:[);/ ]|$)";
  "(?i)Le ?Pan ?([^;/]+) Build";
  "(?i)(?:LeBest[_ ](?:L9)|L202206)(?:[);/ ]|$)";
  "(?i)LeBest[_ ](L9)";
  "(?i)Letv|LeEco|Le ?X[0-9][^;/]+|Le Max|Le [12]|Le2[_ ]x527|X900 Build|(?:X[89]00\+|X52[67]|lineage_c106)(?:[);/ ]|$)";
  "(?i)X800\+";
  "(?i)X900\+";
  "(?i)X50[10]";
  "(?i)LE ?(X62[26]|X522)";
  "(?i)(X910)";
  "(?i)LEX72[057](?:[);/ ]|$)";
  "(?i)LEX65[0137](?:[);/ ]|$)";
  "(?i)LE(X620)(?:[);/ ]|$)";
  "(?i)(?:Le ?X526|Le2[_ ]x527|Le 2|X52[67])(?:[);/ ]|$)";
  "(?i)LEX82[019]|Le Max 2";
  "(?i)Le ?X([^;/]+) Build";
  "(?i)Le ?X([^) ;/]+)";
  "(?i)Le ?([12][^;/]+) Build";
  "(?i)Le Max([^;/]*) Build";
  "(?i)Le Max([^ ;/]*)";
  "(?i)LeEco ([^;/]+) Build";
  "(?i)(Vyper|N-5[07]|N-45|LP DAISY|LP_(?:Spectrum_S2|VEYRON|PRADO|Pro1|B-50|EVORA_light)|LP_T70|LP[ _]INFINITY\+?|LP T70 Lite|INFINITY_light|Alphatel_T1)(?:[);/ ]|$)";
  "(?i)LP INFINITY\+";
  "(?i)(?:LP_)?(Vyper|N-5[07]|N-45|Pro1|Alphatel_T1)(?:[);/ ]|$)";
  "(?i)(?:MY)?LEAGOO[ _-]?|(?:XRover(?: C)?|Shark (5000|1|6300)|M5 EDGE|KIICAA (POWER|MIX)|Leapad[ _](?:X|7s|7Pro)|Alfa [125]|Elite [15Y]|Venture 1|Z10-E|M9 Pro|Power 5|Power[ _]2(?: Pro)?|Android 9(?:[\d.]*);(?: [\w-]+;)? M1[23]|Android 8(?:[\d.]*);(?: [\w-]+;)? (?:Z9A|T8s)|Lead 3| T5c)(?:[);/ ]|$)";
  "(?i)(?:LEAGOO[- _])?M([89])[_-]?Pro(?:[);/ ]|$)";
  "(?i)LEAGOO[- _](Z[156]|Z5c|M[58]|T1)(?:[);/ ]|$)";
  "(?i)(?:LEAGOO[_ ])?Lead ?([357])";
  "(?i)Elite ([15Y])(?:[);/ ]|$)";
  "(?i)Shark (1|5000|6300)(?:[);/ ]|$)";
  "(?i)Power 2 Pro(?:[);/ ]|$)";
  "(?i)(?:leagoo-)?Power[ _]([25])(?:[);/ ]|$)";
  "(?i)Venture 1(?:[);/ ]|$)";
  "(?i)Alfa ([125])(?:[);/ ]|$)";
  "(?i)XRover( C)?(?:[);/ ]|$)";
  "(?i)(?:LEAGOO[- _])?(Z10-E|M6|M1[23]|T5c|T8s|Z9A)(?:[);/ ]|$)";
  "(?i)(?:My)?Leagoo[- _](E4)(?:[);/ ]|$)";
  "(?i)(?:LEAGOO_)?Leapad[ _](7s|10|X|7I)";
  "(?i)LECT-TAB(1011H?|0711)(?:[);/ ]|$)";
  "(?i)(?:Ledstar[_ ])?(?:Trendy 5\.0|Novus_Premium_6\.0)";
  "(?i)Trendy 5\.0";
  "(?i)Ledstar_Novus_Premium_6\.0(?:[);/ ]|$)";
  "(?i)Leelbox(?:[);/ ]|$)";
  "(?i)Leelbox(?:[);/ ]|$)";
  "(?i)(32[FH]540S|32H5[235]0T|(?:32|40)F550T|32H650S|43U540S|43U550T|5[05]U5[14]0S|55U630S|(?:43|65)U520S|40F540S|43F5[35]0T|32H511T|24F560T|24H5[125]0T|28H540S|28H541T|28H550T|50U541T|50U550T|50U6[23]0S|55U620S|43F511T|43F520T|43U570T|43[FU]541T)(?:[);/ ]|$)";
  "(?i)(RST)_(B\d{4}HD)(?:[);/ ]|$)";
  "(?i)Leke[ _]Pad-([^/;)]+)(?: Build|[);])";
  "(?i)Lemco (FBX-3566W?)(?:[);/ ]|$)";
  "(?i)Lemhoov[ _-]([^/;]+) Build";
  "(?i)Lenco (?:[^/);]*)(?: Build|[);])|(?:TDV900)(?:[);/ ]|$)";
  "(?i)Lenco ([^/);]*)(?: Build|[);])";
  "(?i)(?:LNV-)?Lenovo|XiaoXin Pad|IdeaTab|IdeaPad|Thinkpad|Yoga Tablet|Tab2A[0-9]-[0-9]{2}[a-z]?|ZUK[ -_]|TB-X306|(?:TB2-X30L|TB3-710[IF]|TB128FU|YT3-X50[MFL]|K50a40|TB-(?:Q706Z|X103F|8504F|X304F|X704V|X704A)|A5500-H|A2107A-H|A3500-HV|A2109A|S6000|Z2 Plus|Vibe[ _](?:P1|S6i Plus|S[23567]i|C|[ZX]2|K5(?: Plus)?|V7)|P2A42|L38011|L18011|[5-8]01LV|[67]02LV|Z2131|K350t|K31-t3|Tab A1020|TAB 2 A8-50LC|S90-A|A101LV|P70-A|VR-1541F|d-42A|lineage_A6020|EveryPad2|A2010l36|F0CU0028RK|TB310XU|TB301[FX]U|TB132FU|TB32(?:8[FX]U|0FC)|TB138FC|PB-6505Y|TB-X505[FLX]|TB-8704V|TB351FU|TB3[05]0[FX]U|TB-X606[XFM]|L38043|TB3-X70L|TB-X605[LF]C?|A7600-HV?|YT-X703F|TB330XU|TB373FU|TB3[17]0FU|TB331FC|TB321FU|A397i|TB330FU|NL5H00X|L79031|XT2091-[78]|L71061|L70081|L78031|20JJS0CU1M|A301LV|A6020(?:a46|l3[67])|TB360ZU|TB311[XF]U|TB37[15]FC|L58091|L39051|L19041|L19111|L780[157]1|Lecoo P116G|XT2129-3)(?:[);/ ]|$)";
  "(?i)Lenovo ?G780";
  "(?i)Lenovo ?A3500-FL";
  "(?i)(?:Lenovo ?)?A3500-(?:H|HV|F)";
  "(?i)(?:Lenovo[ _])?A5500-[HF]";
  "(?i)Lenovo ?A7600|A7600-H";
  "(?i)TB2-X30[FL]";
  "(?i)TB-X6C6[XF]";
  "(?i)TB311[XF]U";
  "(?i)YT3-X50[FLM]";
  "(?i)YT-J706[XF]";
  "(?i)TB3-710[IF]";
  "(?i)TB-8703[XF]";
  "(?i)501LV(?:[);/ ]|$)";
  "(?i)TAB 2 A10-70L(?:[);/ ]|$)";
  "(?i)(?:TB3-850[FM]|601LV)(?:[);/ ]|$)";
  "(?i)602LV(?:[);/ ]|$)";
  "(?i)TB-X304[FL]";
  "(?i)TB-8504[XL]";
  "(?i)(?:TB-X704[FVL]|70[12]LV)(?:[);/ ]|$)";
  "(?i)801LV(?:[);/ ]|$)";
  "(?i)TB-X103F(?:[);/ ]|$)";
  "(?i)TB-X704A(?:[);/ ]|$)";
  "(?i)TB-X605F(?:[);/ ]|$)";
  "(?i)TB330[FX]U(?:[);/ ]|$)";
  "(?i)TB310[FX]U(?:[);/ ]|$)";
  "(?i)TB-X705[FL](?:[);/ ]|$)";
  "(?i)TB-J606[LF](?:[);/ ]|$)";
  "(?i)TB-Q706[FZ](?:[);/ ]|$)";
  "(?i)TB-J606[FN]";
  "(?i)TB-J607F(?:[);/ ]|$)";
  "(?i)TB-J6C6F(?:[);/ ]|$)";
  "(?i)TB-J616[XF](?:[);/ ]|$)";
  "(?i)TB-J706[LF](?:[);/ ]|$)";
  "(?i)TB132FU(?:[);/ ]|$)";
  "(?i)TB350[FX]U(?:[);/ ]|$)";
  "(?i)TB-J607Z(?:[);/ ]|$)";
  "(?i)TB-7104[IF](?:[);/ ]|$)";
  "(?i)TB-8304F1(?:[);/ ]|$)";
  "(?i)TB-7504X(?:[);/ ]|$)"
].
Definition d_dr_re0_25 : list blob := [
  "(?i)TB-X606[FXV]A?(?:[);/ ]|$)";
  "(?i)TB-X605[FL]C";
  "(?i)TB-?360ZU";
  "(?i)(?:Lenovo )?TB12[58][FX]U";
  "(?i)(?:Lenovo )?TB328[FX]U";
  "(?i)(?:Lenovo )?TB-X505";
  "(?i)TB-7305[IXF](?:[);/ ]|$)";
  "(?i)TB-7306[XF](?:[);/ ]|$)";
  "(?i)Lenovo ?B8000(-[FH])?";
  "(?i)Lenovo ?B8080(-[FH])?";
  "(?i)YOGA Tablet 2 Pro-1380[FL]";
  "(?i)YOGA Tablet 2-1050[FL]";
  "(?i)YOGA Tablet 2-830(?:[FL]|LC)";
  "(?i)Lenovo ?B6000(-[FH])?";
  "(?i)YT3-X90(L|F|X)";
  "(?i)YT3-850[FL]";
  "(?i)YT-X703[FL]";
  "(?i)YT-X705[FL]";
  "(?i)YB1-X90[FL]";
  "(?i)TB37[15]FC";
  "(?i)S6000(?:[);/ ]|$)";
  "(?i)Lenovo ([ASB][0-9]{4})[A-Z]?\-[EHF]";
  "(?i)ThinkPadTablet_(A[0-9]{3})_";
  "(?i)ThinkPad ?Tablet([^;/]*) Build";
  "(?i)Lenovo ?A3300-(?:GV|H)";
  "(?i)TAB 2 A7-30[HGD]C";
  "(?i)TB-8704[FV]";
  "(?i)TB-X505[FX]";
  "(?i)TB-X104[FXL]";
  "(?i)Tab2A([0-9]-[0-9]{2}[a-z]?)";
  "(?i)IdeaTab[ \-_]?([a-z0-9]+)";
  "(?i)Yoga Tablet([^;/]+) Build";
  "(?i)TB-8505[FX]S";
  "(?i)TB-8505[FX]";
  "(?i)TB-8506[FX]";
  "(?i)TB300[FX]U";
  "(?i)TB301[FX]U";
  "(?i)TB-8705[FX]";
  "(?i)(?:TB-9707F|TB320FC|TB321FU)(?:[);/ ]|$)";
  "(?i)Lenovo (TB[0-9]?\-[a-z0-9-]+) Build";
  "(?i)Lenovo S([69]0)-?[aU]";
  "(?i)Lenovo K30-W(?:[);/ ]|$)";
  "(?i)L18011(?:[);/ ]|$)";
  "(?i)L18081(?:[);/ ]|$)";
  "(?i)L19111(?:[);/ ]|$)";
  "(?i)L10041(?:[);/ ]|$)";
  "(?i)L78121(?:[);/ ]|$)";
  "(?i)Z213[12]";
  "(?i)ZUK[ -_]([^/;]*)(?: Build|\))";
  "(?i)K10a40(?:[);/ ]|$)";
  "(?i)(?:k50a40|K50-t5)(?:[);/ ]|$)";
  "(?i)K(1[30]) Note(?:[);/ ]|$)";
  "(?i)A7010(?:a48)?(?:[);/ ]|$)";
  "(?i)K350t(?:[);/ ]|$)";
  "(?i)L38011(?:[);/ ]|$)";
  "(?i)(?:L38041|K5 Pro)(?:[);/ ]|$)";
  "(?i)L39051(?:[);/ ]|$)";
  "(?i)(?:A7020a4[08]|L38012|K52e78)(?:[);/ ]|$)";
  "(?i)L19041(?:[);/ ]|$)";
  "(?i)K31-t3(?:[);/ ]|$)";
  "(?i)A6010Pro(?:[);/ ]|$)";
  "(?i)(?:A6020a46|Vibe K5 Plus|lineage_A6020)(?:[);/ ]|$)";
  "(?i)(?:Lenovo-)?(?:A6020(?:a40|l3[67])|Vibe K5)(?:[);/ ]|$)";
  "(?i)VIBE Z2(?:[);/ ]|$)";
  "(?i)(?:VIBE C|A2020a40)(?:[);/ ]|$)";
  "(?i)(?:VIBE X2|X2-(?:X+CU|TO|AP))(?:[);/ ]|$)";
  "(?i)(?:X3(?:a40|c[57]0)|K51c78)(?:[);/ ]|$)";
  "(?i)Lenovo X3 Lite(?:[);/ ]|$)";
  "(?i)VIBE V7(?:[);/ ]|$)";
  "(?i)VIBE S6i Plus(?:[);/ ]|$)";
  "(?i)VIBE[ _]S([23567])i(?:[);/ ]|$)";
  "(?i)L79031(?:[);/ ]|$)";
  "(?i)L70081(?:[);/ ]|$)";
  "(?i)k33a48(?:[);/ ]|$)";
  "(?i)L38043(?:[);/ ]|$)";
  "(?i)L3808[23](?:[);/ ]|$)";
  "(?i)P2A42(?:[);/ ]|$)";
  "(?i)L38031(?:[);/ ]|$)";
  "(?i)k53a48(?:[);/ ]|$)";
  "(?i)K33a42(?:[);/ ]|$)";
  "(?i)P1ma40(?:[);/ ]|$)";
  "(?i)Vibe P1 Turbo(?:[);/ ]|$)";
  "(?i)(?:P1(?:a42|c72)|Vibe P1)(?:[);/ ]|$)";
  "(?i)A2016a40(?:[);/ ]|$)";
  "(?i)A1010a20(?:[);/ ]|$)";
  "(?i)(?:Z90a40|Z90-7)(?:[);/ ]|$)";
  "(?i)S1a40(?:[);/ ]|$)";
  "(?i)S1La40(?:[);/ ]|$)";
  "(?i)L78071(?:[);/ ]|$)";
  "(?i)L78011(?:[);/ ]|$)";
  "(?i)L78031(?:[);/ ]|$)";
  "(?i)(?:Z6 Pro 5G|L79041)(?:[);/ ]|$)";
  "(?i)(?:Z6 Pro|L78051)(?:[);/ ]|$)";
  "(?i)L78032(?:[);/ ]|$)";
  "(?i)L38111(?:[);/ ]|$)";
  "(?i)L58041(?:[);/ ]|$)";
  "(?i)L58091(?:[);/ ]|$)";
  "(?i)L18021(?:[);/ ]|$)";
  "(?i)PB2-6(?:70M|50[YM])(?:[);/ ]|$)";
  "(?i)PB1-750M(?:[);/ ]|$)";
  "(?i)PB1-770M(?:[);/ ]|$)";
  "(?i)(S90-A|P70-A|A397i)(?:[);/ ]|$)";
  "(?i)IdeaPad ?([^;/]*) Build";
  "(?i)d-42A(?:[);/ ]|$)";
  "(?i)Lenovo K12 Pro|XT2091-[78]";
  "(?i)Lenovo X2(?:-[ER]U)?";
  "(?i)LENOVO/81W8(?:[);/ ]|$)";
  "(?i)LENOVO/81MV(?:[);/ ]|$)";
  "(?i)LENOVO/81SS(?:[);/ ]|$)";
  "(?i)F0CU0028RK(?:[);/ ]|$)";
  "(?i)20JJS0CU1M(?:[);/ ]|$)";
  "(?i)Lenovo TAB ?([^/);]*)(?: Build|[;)])";
  "(?i)Lenovo ([^/);]*)(?: Build|[;)])";
  "(?i)(?:LNV-|Lenovo-)?Lenovo[ \-_]?([a-z0-9_+\-]+)";
  "(?i)(LESPH501[14]|LESPH5003B|SUPERNOVA[ _](?:Qi16|i216|Qi32|i3G96[X]?|iS3G)|PULSAR QI3G|LETAB916|Titanium T355)(?:[);/ ]|$)";
  "(?i)SUPERNOVA[ _](i216|Qi16|Qi32|i3G96[X]?|iS3G)";
  "(?i)PULSAR (QI3G)";
  "(?i)lephone[ _]|lephoneP1|S104G(?:[);/ ]|$)";
  "(?i)lephone[ _](K7|K10)";
  "(?i)lephone_W7_plus|lephone W7+";
  "(?i)lephone(?:[ _])?([^/);]*)(?: Build|[);])";
  "(?i)ANOVA A5(?:[);/ ]|$)";
  "(?i)Lexand[ _]|(?:S[BC]7 PRO HD|SB5 HD|S5A[1-4]|S4A[1-5]|S6A1|A811|A802|LPH7_Smarty)(?:[);/ ]|$)";
  "(?i)A(811|802)";
  "(?i)(S[CB]7) PRO HD";
  "(?i)(SB5) HD";
  "(?i)Lexand[ _]([^;/)]+)(?: Build|[;)])";
  "(?i)(MFC[0-9]{3}[a-z]{2,})";
  "(?i)MFC17[05]FR";
  "(?i)(MFC[0-9]{3}[a-z]{2,})";
  "(?i)((?:24|32)TP1HDTA1)(?:[);/ ]|$)";
  "(?i)LIFEMAXX, ([a-z0-9_ -]+), (?:wired|wireless)";
  "(?i)Lime(?:Z2PLUS|T95)";
  "(?i)Lime(T95)";
  "(?i)(?:Venus Pad1[456]|L24 Ultra|L16 Max|G15 Pro Max|G24_mini|G15_mini)(?:[);/ ]|$)";
  "(?i)Venus Pad(1[456])";
  "(?i)G(15|24)_mini";
  "(?i)Lingwin[ _-]";
  "(?i)Lingwin[ _-]?([^/;]+) Build";
  "(?i)Lingwin[ _-]?([^);/ ]+)";
  "(?i)LI(22)(?:[);/ ]|$)";
  "(?i)LINSAY[_ ]|(?:F10XIPSQ|F10XIPG)(?:[);/ ]|$)";
  "(?i)(F10XIPSQ|F10XIPG)(?:[);/ ]|$)";
  "(?i)LINSAY[_ ]([^/;)]+)(?: Build|[);])";
  "(?i)Webpad[_ ]?(100[123]|7007)";
  "(?i)LOEWE[;,]";
  "(?i)LOGIC[_ ]|(?:LOGIC[_ ](X4 Plus|X50|X[135]|X4M|L4T|L5D|X5[AFT]|X57A|X60G|L50T?|L57|L6[0135]|X60_PLUS)(:?[_ ]LITE2?)?|L55[ABS]|Q-502|L68_Ultra)(?:[);/ ]|$)";
  "(?i)LOGIC[_ ]X60_PLUS(?:[);/ ]|$)";
  "(?i)LOGIC[_ ](L65|X5|X4M)[_ ]LITE(?:[);/ ]|$)";
  "(?i)LOGIC[_ ](L65)(?:[);/ ]|$)";
  "(?i)LOGIC[_ ](X5)[_ ]LITE2(?:[);/ ]|$)";
  "(?i)LOGIC[_ ](X4 Plus|X50|X[13]|X4M|L4T|L5D|L6[013]|X5[AFT]|X57A|X60G)(?:[);/ ]|$)";
  "(?i)(L50T?|L55[ABS]|L57|Q-502)(?:[);/ ]|$)";
  "(?i)Logic Instrument|Fieldbook K101";
  "(?i)Fieldbook F1(?:[);/ ]|$)";
  "(?i)LOGICOM[_ ]|La_tab_link|(TAB950|TAB1062|E731|E812|E912|E1031|POWER BOT|La[ _]?Tab[ _]?(?:7[24]|10[57]|11[345]|12[4789]|292|Stand(?:RB)?)|(?:[BCM]|ID|VR)[ _]?BOT[ _]?(?:TAB[ _])?([0-9]+\+?)(?:PLUS)?|KT712A_4\.4|L-?IXIR[0-9]*|L_IXIR_TAB_1047HD|L-ITE|L-EGANTONE(?:-R)?|Le Fizz|L-?EMENT.+|Le[ _]?(?:Up|Connect|Omega|Hop|Hello|Lift|Pulse|Prime|Swipe|Wave|Hola|Moov[2]?|Must(?: 2)?|Starter L|Fit FR|Spark|Prime|Smooth(?: FR)?)|Tab_Stand_Pro|LeFit|logikids4|Le Link|TAB76|Five Pro|Solar(?: Pro)?|LUNAR|Lunar Pro|Elio|Yuno)(?:[);/ ]|$|_)";
  "(?i)La[ _]?Tab[ _]?(7[24]|10[57]|11[345]|127 HD|12[89]|105_P|292|Stand)(?:[);/ ]|$)";
  "(?i)LaTabStandRB(?:[);/ ]|$)";
  "(?i)TAB76(?:[);/ ]|$)";
  "(?i)La[_ ]Tab[_ ]124[_ ]HD[_ ]Plus(?:[);/ ]|$)";
  "(?i)(?:LOGICOM_)?LA_TAB_LINK_(7[14])";
  "(?i)KT712A_4\.4|L-IXIR TAB 701 3G";
  "(?i)L-?IXIR[ _]TAB[ _]([^);/]+)( Build|[);])";
  "(?i)L-ITE[ _](400M|452|50[46] HD|506R HD|552 HD)(?:[);/ ]|$)";
  "(?i)L-ITE[ _]([^;/]+) Build";
  "(?i)L-?EMENT[ _]?(350|451|40[103]|55[013]|50[15]|500L?)(?:[);/ ]|$)";
  "(?i)L-?EMENT[ _](?:TAB)[ )]?([^);/]+)(?: Build|[);])";
  "(?i)L-?EMENT[ _]?(74[01])(?:[);/ ]|$)";
  "(?i)(TAB950|TAB1062|E731|E812|E912|E1031)(?:[);/ ]|$)";
  "(?i)M bot (5[14])";
  "(?i)VR bot (552) Plus";
  "(?i)VR bot (552)";
  "(?i)((?:[BCM]|ID|VR))[ _]?BOT[ _]?TAB[ _]([0-9]+(?:PLUS|\+)?)";
  "(?i)((?:[BCM]|ID|VR))[ _]?BOT[ _]?((?:TAB[ _])?([0-9]+\+?)(?:PLUS)?)";
  "(?i)Le[ _]Connect";
  "(?i)Le[ _]Pulse";
  "(?i)Le[ _]Prime";
  "(?i)Le Hola FR(?:[);/ ]|$)";
  "(?i)Le[ _]Hola(?:[);/ ]|$)";
  "(?i)LeMoov2(?:[);/ ]|$)";
  "(?i)LeMoov(?:[);/ ]|$)";
  "(?i)Le Fit FR(?:[);/ ]|$)";
  "(?i)Le[ _]?Fit";
  "(?i)Le Hop(?:[);/ ]|$)";
  "(?i)Le[ _]Hello(?:[);/ ]|$)";
  "(?i)Le Smooth FR(?:[);/ ]|$)";
  "(?i)Le Smooth(?:[);/ ]|$)";
  "(?i)Le Must 2(?:[);/ ]|$)";
  "(?i)Le Must(?:[);/ ]|$)";
  "(?i)Le Starter L(?:[);/ ]|$)";
  "(?i)Le[ _]Spark(?:[);/ ]|$)";
  "(?i)Le[ _]Prime(?:[);/ ]|$)";
  "(?i)Le Up(?:[);/ ]|$)";
  "(?i)DIXONS-LOGIK[;,]";
  "(?i)GR0006(?:[);/ ]|$)";
  "(?i)LongTV LOUiE(?:[);/ ]|$)";
  "(?i)Lovme[-_ ]([^/;)]+)(?: Build|[);])";
  "(?i)Lumigon[ _](T3)(?:[);/ ]|$)";
  "(?i)(L950[23])(?:[);/ ]|$)";
  "(?i)(?:NEO(SR620|SC600)|INNOSR545|Lumus[_ ]Ion|AEONSR570)(?:[);/ ]|$)"
].
Definition d_dr_re0_26 : list blob := [
  "(?i)NEO(SR620|SC600)(?:[);/ ]|$)";
  "(?i)INNO(SR545)(?:[);/ ]|$)";
  "(?i)Lumus[_ ]Ion(?:[);/ ]|$)";
  "(?i)AEON(SR570)(?:[);/ ]|$)";
  "(?i)(?:LUNA[ _](?:[VG]55|G[56]0|G9|G6E|V6)|TG-L800S)(?:[);/ ]|$)";
  "(?i)LUNA[ _]([VG]55|G[56]0|G9|G6E|V6)(?:[);/ ]|$)";
  "(?i)(TG-L800S)(?:[);/ ]|$)";
  "(?i)LUXOR, ([a-z0-9_ -]+), (?:wired|wireless)";
  "(?i)(TPC1013)";
  "(?i)M-HORSE|(?:Pure (?:3|2A?)|Pure ?1|Power1|Top_(?:S[78]|P9|H740|10|i7|Note8)|Android 14(?:[\d.]*);(?: [\w-]+;)? (?:C6[78])|Top-V30)(?:[);/ ]|$)";
  "(?i)Pure ?([13]|2A?)(?:[);/ ]|$)";
  "(?i)Top[_ -](S[78]|P9|H740|10|i7|V30)";
  "(?i) (C6[78])(?:[);/ ]|$)";
  "(?i)(X20|X2)(?:[);/ ]|$)";
  "(?i)(?:Eros[_ ](4G|Star|Smart|Plus|Power)|MTECH (?:ACE9|TURBO L\d+|TEZ 4G|JAZBAA)|Foto3)(?:[);/ ]|$)";
  "(?i)Eros[_ ]Star";
  "(?i)Eros[_ ]Smart";
  "(?i)Eros[_ ]Plus";
  "(?i)Eros[_ ]Power";
  "(?i)TURBO L(\d+)";
  "(?i)M\.T\.T\.|MTT IDEAL";
  "(?i)M\.T\.T\. ?Tablet([^;/)]+)?(?: Build|[;)])";
  "(?i)M\.T\.T\. ?([^;/)]+)(?: Build|[;)])";
  "(?i)(?:M3US20W|M3SL20|M3SM15X)(?:[);/ ]|$)";
  "(?i)(?:M4[ -]SS[0-9]{4}(?:-R)?|M4_B[23]|M4_R2|R2_Plus)(?:[);/ ]|$)";
  "(?i)SS4458-R|M4-SS4458-R";
  "(?i)M4_B([23])";
  "(?i)M4_R(2)";
  "(?i)(CRD55-UHD9|CRD65-UHD11)(?: Build|[);])";
  "(?i)(M82[01])(?:-EEA)?(?:[);/ ]|$)";
  "(?i)MAXVI[ _](?:MS401)(?:[);/ ]|$)|\w*_?MAXVI?_\w+|MS502[_ ]Orion|MS531";
  "(?i)MAXVI[ _](MS401)";
  "(?i)MS502[_ ]Orion";
  "(?i)\w*MAXVI_(P11|K10|X[358]00)_";
  "(?i)(T1270G)(?:[);/ ]|$)";
  "(?i)MBI[_ ](R7)(?:[);/ ]|$)";
  "(?i)(MBK-T2101)(?:[);/ ]|$)";
  "(?i)MBOX3?(?:[);/ ]|$)";
  "(?i)(?:Prime_S|M300 4G|MDC M5|Nova Pro|Grand Pro)(?:[);/ ]|$)";
  "(?i)Prime_S(?:[);/ ]|$)";
  "(?i)(M300) 4G(?:[);/ ]|$)";
  "(?i)MDC M5(?:[);/ ]|$)";
  "(?i)MEEG[ _-]";
  "(?i)MEEG[ _-]?([^/;]+) Build";
  "(?i)MEEG[ _-]?([^);/ ]+)";
  "(?i)MEGAMAX(?:_W_)?(\d{2}MG11FSM)";
  "(?i)MEO TV Box 4K(?:[);/ ]|$)";
  "(?i)(MES-B[13])(?:[);/ ]|$)";
  "(?i)MEU ([a-z0-9]+) Build";
  "(?i)(Caryota [1245789]|Jazz J[13] 2018)(?:[);/ ]|$)";
  "(?i)(Caryota [1245789])(?:[);/ ]|$)";
  "(?i)Jazz (J[13]) 2018";
  "(?i)MIWANG[_ ](M2s)(?:[);/ ]|$)";
  "(?i)(M35|M20|G7106|G7108)(?:[);/ ]|$)";
  "(?i)(M[0-9]{1,2})(?:[);/ ]|$)";
  "(?i)(G[0-9]{4})(?:[);/ ]|$)";
  "(?i)MLLED[ _]";
  "(?i)MLLED[ _]([^;/]+)Build";
  "(?i)MLLED[ _]([^);/]+)(?:[);/ ]|$)";
  "(?i)IQ(?:0705|L550|1017|1010w?|1012N?|1019N|1025|1060M|1380|1401|1436|1452a|1453|1470|1502a|1511|155[23]|1568|1570|1805N|180[68]|1810B_M|1832|1850|1890|5017|L626|9610|181011N|A27X_E|E[12]00|EL41|G550|GW516|L30|L5[01]|M801|M1001|N700|P50|R300|S300|S801|S1001|W503|W511T|W553N?|W60[38]|W626|M960|D10S|D700|9013_4N|F 200|T800)(?:[);/ ]|$)";
  "(?i)IQ0705(?:[);/ ]|$)";
  "(?i)IQL550(?:[);/ ]|$)";
  "(?i)iQD10S(?:[);/ ]|$)";
  "(?i)IQ1010W?(?:[);/ ]|$)";
  "(?i)IQ1012N?(?:[);/ ]|$)";
  "(?i)IQ1025(?:[);/ ]|$)";
  "(?i)iQ9013_4N(?:[);/ ]|$)";
  "(?i)IQ1019N(?:[);/ ]|$)";
  "(?i)iQ1805N(?:[);/ ]|$)";
  "(?i)iQ181011N(?:[);/ ]|$)";
  "(?i)IQ1380(?:[);/ ]|$)";
  "(?i)IQ1401(?:[);/ ]|$)";
  "(?i)IQ1436(?:[);/ ]|$)";
  "(?i)IQ1452a(?:[);/ ]|$)";
  "(?i)IQ1453(?:[);/ ]|$)";
  "(?i)IQ1470(?:[);/ ]|$)";
  "(?i)IQ1502a(?:[);/ ]|$)";
  "(?i)IQ1511(?:[);/ ]|$)";
  "(?i)IQ1552(?:[);/ ]|$)";
  "(?i)IQ1553(?:[);/ ]|$)";
  "(?i)IQ1568(?:[);/ ]|$)";
  "(?i)IQ1570(?:[);/ ]|$)";
  "(?i)IQ1806(?:[);/ ]|$)";
  "(?i)IQ1808(?:[);/ ]|$)";
  "(?i)IQ1810B_M(?:[);/ ]|$)";
  "(?i)IQ1832(?:[);/ ]|$)";
  "(?i)iQ1017(?:[);/ ]|$)";
  "(?i)IQ1850(?:[);/ ]|$)";
  "(?i)IQ1890(?:[);/ ]|$)";
  "(?i)IQ5017(?:[);/ ]|$)";
  "(?i)IQ9610(?:[);/ ]|$)";
  "(?i)iQM960(?:[);/ ]|$)";
  "(?i)iQS801(?:[);/ ]|$)";
  "(?i)IQG550(?:[);/ ]|$)";
  "(?i)IQGW516(?:[);/ ]|$)";
  "(?i)IQE100(?:[);/ ]|$)";
  "(?i)iQE200(?:[);/ ]|$)";
  "(?i)iQA27X_E(?:[);/ ]|$)";
  "(?i)IQEL41(?:[);/ ]|$)";
  "(?i)IQL30(?:[);/ ]|$)";
  "(?i)IQL50(?:[);/ ]|$)";
  "(?i)IQL51(?:[);/ ]|$)";
  "(?i)IQM801(?:[);/ ]|$)";
  "(?i)IQM1001(?:[);/ ]|$)";
  "(?i)IQN700(?:[);/ ]|$)";
  "(?i)IQP50(?:[);/ ]|$)";
  "(?i)IQS300(?:[);/ ]|$)";
  "(?i)IQS1001(?:[);/ ]|$)";
  "(?i)iQ1060M(?:[);/ ]|$)";
  "(?i)IQR300(?:[);/ ]|$)";
  "(?i)IQW608(?:[);/ ]|$)";
  "(?i)iQW603(?:[);/ ]|$)";
  "(?i)IQW626(?:[);/ ]|$)";
  "(?i)IQW511T(?:[);/ ]|$)";
  "(?i)IQW553N?(?:[);/ ]|$)";
  "(?i)iQL626?(?:[);/ ]|$)";
  "(?i)IQW503(?:[);/ ]|$)";
  "(?i)iQD700(?:[);/ ]|$)";
  "(?i)iQT800(?:[);/ ]|$)";
  "(?i)iQF ?200(?:[);/ ]|$)";
  "(?i)Mortal (T1)(?:[);/ ]|$)";
  "(?i)(TAB-S1)(?:[);/ ]|$)";
  "(?i)Primo ?(?:9[13]|81|76)|(?:Enjoy 7 Plus|GP70 2OD)(?:[);/ ]|$)";
  "(?i)Primo ?(9[13]|76|81)";
  "(?i)(GP70 2OD)";
  "(?i)MStar(?:[);/ ]|$)";
  "(?i)MTC[ _](968|97[82]|970|982[OT]?|1078)|(?:MTC[_ ])?SMART[ _]?(?:Race[2]?|Sprint|Run|Turbo|Surf[2]?)[ _]4G|MTC975|Smart Bit|Smart_(?:LINE|Light)|(?:MTC[ _])?SMART[ _](?:Run|Start[_ ][23])|Redbox Mini 5\(MTS\)|MTS TV|DV8235|DV9135|DV9157-C|DV8304-C|Osmartphona";
  "(?i)MTC[ _]?(97[258]|970[H]?|982[OT]?|968)";
  "(?i)MTC[ _](1078)";
  "(?i)SMART[ _]Race[ _]4G";
  "(?i)SMART[ _]Race2[ _]4G";
  "(?i)(?:MTC_)?SMART[ _]Sprint[ _]4G";
  "(?i)(?:MTC_)?SMART[ _]Start[ _]([23])";
  "(?i)SMART[ _]?Run(?:[ _]4G)?";
  "(?i)SMART[ _]Surf2[ _]4G";
  "(?i)SMART[ _]Surf[ _]4G";
  "(?i)SMART[ _]Turbo[ _]4G";
  "(?i)Redbox Mini 5\(MTS\)";
  "(?i)MTS TV Box (\d{3})";
  "(?i)(DV8235|DV9135|DV9157)";
  "(?i)MTN-|(?:Kafit V900|Faith29|Ka ?Chocolate|M56[01]M3|M571M3)(?:[);/ ]|$)";
  "(?i)Faith29(?:[);/ ]|$)";
  "(?i)Ka ?Chocolate(?:[);/ ]|$)";
  "(?i)MTN-(L860|S620)";
  "(?i)MTN-([a-z0-9_-]+)";
  "(?i)(MC-X7MINI)(?:[);/ ]|$)";
  "(?i)Mafe_(?:M8[12]0|M825)(?:[);/ ]|$)";
  "(?i)Mafe_(M810|M825)";
  "(?i)MagentaTV ONE \(2";
  "(?i)(?:N5NOVA|IRON\+|N5Max_X4)(?:[);/ ]|$)";
  "(?i)IRON\+";
  "(?i)(?:Magnus[ _](?:bravoZ[23]0|Infinity_?(?:G8|G11))|bravo Z40|Bravo Z11|bravo[-_]Z[12]2)(?:[);/ ]|$)";
  "(?i)bravo[ _-]?(Z[234]0|Z11|Z[12]2)";
  "(?i)(?:Magnus[ _])?Infinity_?(G8|G11)";
  "(?i)MAJESTIC[;, _-]|CRONO ?[0-9]+|(?:TAB (?:647|411) 3G|TAB_(?:81[12]|912|918_PRO)_4G|TAB_911_3G|TAB-714|TAB_814|TAB (711 4G|747 3G|[56]11 3G)|URANO27|URANO 47|URANO 77LTE|PLUTO__?26N?|JACK| JOE)(?:[);/ ]|$)";
  "(?i)JACK(?:[);/ ]|$)";
  "(?i)JOE(?:[);/ ]|$)";
  "(?i)URANO 77LTE(?:[);/ ]|$)";
  "(?i)URANO ?([24]7)(?:[);/ ]|$)";
  "(?i)PLUTO__?(26N?)(?:[);/ ]|$)";
  "(?i)TAB[ _](\d{3})[ _]PRO_([34])G";
  "(?i)TAB[ _](\d{3})[ _]([34])G";
  "(?i)MAJESTIC[ _]Tab([^;/]+)Build";
  "(?i)MAJESTIC[ _]Tab([^);/]+)(?:[);/ ]|$)";
  "(?i)MAJESTIC[ _]([^;/]+)Build";
  "(?i)MAJESTIC[ _]([^);/]+)(?:(?:[);/ ]|$)|$)";
  "(?i)CRONO ?([0-9]+) Build";
  "(?i)CRONO ?([0-9]+)(?:[);/ ]|$)";
  "(?i)(?:Build/)?Malata[ _]?([a-z0-9]+)(?:[);/ ]|$)";
  "(?i)Mango[_ ](?:AKABUTO_4G|S5|SQ7)(?:[);/ ]|$)";
  "(?i)Mango[_ ](S5|SQ7)";
  "(?i)MANN[ _]|(ZUG 3|ZUG 5S(?: Q)?)(?:[);/ ]|$)";
  "(?i)MANN[ _](8S)";
  "(?i)(ZUG 3|ZUG 5S(?: Q)?)(?:[);/ ]|$)";
  "(?i)MANTA[;,]|MSP950(1[245]|2[01])|MSP96017|MSP94501|MSP95009|MSP96002|MSP450[79]|(MID713|MID(?:06[SN]|08[S]?|12|13|14|15|701|702|703|704|705(?:DC)?|706[AS]?|707|708|709|711|712|714|717|781|801|802|901|1001|1002|1003|1004(?: 3G)?|1005|1009|1010|7802|9701|9702))(?:[);/ ]|$)";
  "(?i)(MID713|MID(?:06[SN]|08[S]?|12|13|14|15|701|702|703|704|705(?:DC)?|706[AS]?|707|708|709|711|712|714|717|781|801|802|901|1001|1002|1003|1004(?: 3G)?|1005|1009|1010|7802|9701|9702))(?:[);/ ]|$)";
  "(?i)(MSP450[79]|MSP95009)(?:[);/ ]|$)";
  "(?i)MANTA,([a-z0-9_ -]+),(?:wired|wireless)";
  "(?i)(MFSTAB(?:_74G)?)(?:[);/ ]|$)";
  "(?i)Mara(?: Phones)?[ _](Z1?|X1|S)(?:[);/ ]|$)";
  "(?i)Marshal[_ -]?ME";
  "(?i)Marshal[_ -]?ME-(700A|720|617)";
  "(?i)Marshal[_ -]?ME-(34[78]|352|36[456])";
  "(?i)Mascom (S750|SS289|WS517)(?:[);/ ]|$)";
  "(?i)Massgo[ _]";
  "(?i)Massgo[ _]VI2S";
  "(?i)Massgo[ _]([^/;)]+)(?: Build|[);])";
  "(?i)Masstel|(?:Juno[ _]Q[567]|Tab10Ultra|Tab(?:[78]|10)Plus|Hapi10)(?:[);/ ]|$)";
  "(?i)Masstel[_ ]Juno[_ ]Q5Plus";
  "(?i)(?:Masstel_)?Hapi ?(1[05]|30)(?:[);/ ]|$)";
  "(?i)Masstel[_ ]N660s";
  "(?i)Masstel[_ ]\((M18)\)";
  "(?i)Masstel_Tab7LTE(?:[);/ ]|$)";
  "(?i)Tab10 WiFi(?:[);/ ]|$)";
  "(?i)Masstel_Tab10_?4G(?:[);/ ]|$)";
  "(?i)Tab([78]|10)Plus";
  "(?i)(?:Masstel[ _])?Tab[ _]?([^/);]+)(?: Build|[);])";
  "(?i)(?:Masstel[_ ]*)?(Juno[_ ]Q[3567]|Juno_S6|[MNXB]\d+|LT52|N600S)(?:[);/ ]|$)";
  "(?i)MASTER-G[;,]|NEOQC4G(?:[);/ ]|$)";
  "(?i)MASTER-G,([a-z0-9_ -]+),(?:wired|wireless)"
].
Definition d_dr_re0_27 : list blob := [
  "(?i)MASTERTECH,([a-z0-9_ -]+),(?:wired|wireless)|QC77QPS(?:[);/ ]|$)";
  "(?i)MASTERTECH,([a-z0-9_ -]+),(?:wired|wireless)";
  "(?i)(QC77QPS)(?:[);/ ]|$)";
  "(?i)(Maximus 3\.0)";
  "(?i)(?:7116-A5|818 3G|MATRIX GRAVITY|Matrix7116)(?:[);/ ]|$)";
  "(?i)(7116-A5|818 3G)(?:[);/ ]|$)";
  "(?i)Matrix7116(?:[);/ ]|$)";
  "(?i)(MLT(?:43|55)USD02G?|MLT32HSX02|MLT55USX02|MLT43FSX02|MQT55USD03)(?:[);/ ]|$)";
  "(?i)MAXCOM|(?:MS(?:45[036]|505|507_STRONG|514|57[12]|651)|MS457(?:PLUS)?|RS-401|Neva Rise S1)(?:[);/ ]|$)";
  "(?i)(MS457)PLUS(?:[);/ ]|$)";
  "(?i)(MS507)_STRONG(?:[);/ ]|$)";
  "(?i)MS(45[0367]|505|514|57[12]|651)(?:[);/ ]|$)";
  "(?i)(?:MAXCOM )(MK241)(?:[);/ ]|$)";
  "(?i)RS-401(?:[);/ ]|$)";
  "(?i)(Max80 Plus)(?: Build|[);])";
  "(?i)Maximus[ _]|(Noir X|G10 max|iX Ultra)(?:[);/ ]|$)";
  "(?i)(?:Maximus[ _])?(Noir X|D1)(?:[);/ ]|$)";
  "(?i)G10 max(?:[);/ ]|$)";
  "(?i)Maximus_(T2)";
  "(?i)Maxtron[ _-](V[327]|V1[2357]|V20|S[89]|T1|Genio|Apollo|PLUTO)(?:[);/ ]|$)";
  "(?i)Maxtron[ _-]PLUTO";
  "(?i)Maxtron[ _-](V[327]|S[89]|V1[2357]|V20|Apollo)(?:[);/ ]|$)";
  "(?i)Maxtron[ _-](T1|Genio)(?:[);/ ]|$)";
  "(?i)MAXWELL[;,]";
  "(?i)(?:Astro[_ ](?:Phablet_9|55?N[_ ]LTE|55[RT]|5 PRO|5[sTX]|[45]P|X4|5_GO_LTE|X55s?|4\.5|4|63R|X5|8R)|Astro6|Virtue Z5|Nitro[_ ](?:4S?|55[ARCMN]|5[XRPNM]|[45] GO|4[sN] LTE|55[ _]LTE|N62|G55)|Gravity_(?:55?_GO|6P)|Gravity 5\.5 LTE|Nitro_Phablet_9s|Nitro Phablet 7N|Nitro 8|MX-(?:A10R|A6[45]))(?:[);/ ]|$)";
  "(?i)MX-(A10R|A6[45])";
  "(?i)Astro[_ ](55?)N[_ ]LTE";
  "(?i)Astro[_ ]X55[_ ]LTE";
  "(?i)Astro[_ ](55[RT]|X55s?|5[sTX]|4|X[45]|[45]P|8R|63R)(?:[);/ ]|$)";
  "(?i)Astro[_ ](4\.5)";
  "(?i)Astro[_ ]X4";
  "(?i)Nitro ([45]) GO";
  "(?i)Nitro[ _]4s";
  "(?i)Nitro[_ ]((?:55|4N)[_ ]LTE|4|55[ARCNM]|5[XRPNM]|8|N62|G55)";
  "(?i)Gravity_(55?)_GO";
  "(?i)Gravity 5\.5 LTE";
  "(?i)Nitro[_ ]Phablet[_ ](9s|7N)";
  "(?i)(?:Alpha[_ ]X|Maze Alpha)(?:[);/ ]|$)|(?:Android [78](?:[\d.]*);(?: [\w-]+;)? Blade|Comet)(?: Build|[;)])";
  "(?i)Alpha[_ ]X(?:[);/ ]|$)";
  "(?i)Maze Alpha(?:[);/ ]|$)";
  "(?i)(Blade|Comet)(?:[);/ ]|$)";
  "(?i)(?:MP5184G|MS5424G|MS5514G|MS5539G|MS5614G|SSB-(?:500|508)|SSB408D|SSB504R|M1582C_MAX)(?:[);/ ]|$)";
  "(?i)(MP5184G|MS5424G|MS5514G|MS5539G|MS5614G)(?:[);/ ]|$)";
  "(?i)SSB-?(500|508|408D|504R)(?:[);/ ]|$)";
  "(?i)McLaut TV(?:[);/ ]|$)";
  "(?i)Grace (9|10)(?:[);/ ]|$)";
  "(?i)(MF716\+?|M785|800P3[12]C|101P51C|X1010|M7[67]QF6|M17QF[67][_-][43]G(?:plus)?)(?:[);/ ]|$)";
  "(?i)M785(?:[);/ ]|$)";
  "(?i)X1010(?:[);/ ]|$)";
  "(?i)M17QF6-3Gplus(?:[);/ ]|$)";
  "(?i)M17QF([67])_([34])G(?:[);/ ]|$)";
  "(?i)M7([76])QF6";
  "(?i)MF716\+";
  "(?i)Mecool[ _-]|(?:ME-COOL S|KM9 ?PRO|BB2 PRO|K[I]{1,3} PRO|KI PLUS|KM9_TV_BOX|M8SPROW|M8S (?:PLUS|PRO) (?:DVB|[LW]|PLUS)|M8S (?:MAX|PRO)| KM[135679]| KD1)(?:[);/ ]|$)";
  "(?i)KM9 ?PRO(?:[);/ ]|$)";
  "(?i)KM9_TV_BOX(?:[);/ ]|$)";
  "(?i)BB2 PRO(?:[);/ ]|$)";
  "(?i)(K[I]{1,3}) PRO(?:[);/ ]|$)";
  "(?i)KI PLUS(?:[);/ ]|$)";
  "(?i)M8SPROW(?:[);/ ]|$)";
  "(?i)M8S PLUS DVB(?:[);/ ]|$)";
  "(?i)M8S PLUS ([LW])(?:[);/ ]|$)";
  "(?i)M8S PRO ([LW])(?:[);/ ]|$)";
  "(?i)M8S PRO PLUS(?:[);/ ]|$)";
  "(?i)M8S PRO(?:[);/ ]|$)";
  "(?i)M8S MAX(?:[);/ ]|$)";
  "(?i)ME-COOL S(?:[);/ ]|$)";
  "(?i)K([MD]\d+)(?:[);/ ]|$)";
  "(?i)Mecool[ _-]([^/);]+)(?: Build|[;)])";
  "(?i)(?:SmartPad7503G|M-SP10MXA|M-PPAB500|SmartPad970s2(?:3G)?|M[_-][MPS]P[0-9a-z]+|M-IPRO[0-9a-z]+|10edge|1AZ2[TP]| (?:7[BCD]Y|8[ADE]Y|1[AB]EC|1CY|1AZ|1[DI]Y4G|1AZ2TW|1EY4G|1HY4G)(?:_eea)?|Azimut[ _]?[234](?: Lite|Pro)?|M-WPW801| 1EY)(?:[);/ ]|$)";
  "(?i)SmartPad7503G(?:[);/ ]|$)";
  "(?i)SmartPad970s23G(?:[);/ ]|$)";
  "(?i)SmartPad970s2(?:[);/ ]|$)";
  "(?i)M-MP84[02]M(?:[);/ ]|$)";
  "(?i)M-MP940M(?:[);/ ]|$)";
  "(?i)M-SP10MXA(?:[);/ ]|$)";
  "(?i)M-SP8MXA(?:[);/ ]|$)";
  "(?i)M-SP7HXAH(?:[);/ ]|$)";
  "(?i)M-SP7MXAH?(?:[);/ ]|$)";
  "(?i)M-SP8HXAH(?:[);/ ]|$)";
  "(?i)M-MP(?:710|720|725|726|740)GOx?(?:[);/ ]|$)";
  "(?i)M-MP876S2(?:[);/ ]|$)";
  "(?i)M-MP8S2[AB]?3G(?:[);/ ]|$)";
  "(?i)M-MP(101|102|860|875)S2[BW]?(?:[);/ ]|$)";
  "(?i)M-MP85S23G(?:[);/ ]|$)";
  "(?i)1[DEHI]Y4G";
  "(?i)M-MP10[45][01]S2(?:[);/ ]|$)";
  "(?i)M-MP1S2[AB]3G(?:[);/ ]|$)";
  "(?i)M-MP8[24]S4(?:[);/ ]|$)";
  "(?i)M-MP8S4[AB]3G(?:[);/ ]|$)";
  "(?i)M-MP9S4A3G(?:[);/ ]|$)";
  "(?i)M-MP1[02]S4(?:[);/ ]|$)";
  "(?i)M-MP7S4A3G(?:[);/ ]|$)";
  "(?i)M-MP1040MC?(?:[);/ ]|$)";
  "(?i)M-MP1S4[AB]3G(?:[);/ ]|$)";
  "(?i)M-SP10HXxH(?:[);/ ]|$)";
  "(?i)M-SP10MXHA(?:[);/ ]|$)";
  "(?i)M-SP10MXHL(?:[);/ ]|$)";
  "(?i)M-MP8PA3G(?:[);/ ]|$)";
  "(?i)M-MP10PA(?:[);/ ]|$)";
  "(?i)M-MP10PA3G(?:[);/ ]|$)";
  "(?i)M-IPRO([18][01]0)[BW](?:[);/ ]|$)";
  "(?i)(?:1AZ2[TP]|Azimut2)(?:[);/ ]|$)";
  "(?i)Azimut 3 Lite(?:[);/ ]|$)";
  "(?i)Azimut ?3 Pro(?:[);/ ]|$)";
  "(?i)Azimut 3(?:[);/ ]|$)";
  "(?i)Azimut[ _]4(?:[);/ ]|$)";
  "(?i)8DY(?:[);/ ]|$)";
  "(?i)10edge(?:[);/ ]|$)";
  "(?i)1EY(?:[);/ ]|$)";
  "(?i)M-WPW801(?:[);/ ]|$)";
  "(?i)(7[BCD]Y|8[AE]Y|1BEC|1CY|1AZ|1AZ2TW)(?:_eea)?(?:[);/ ]|$)";
  "(?i)(?:M-MP75S23G|M-MP72[01]M)(?:[);/ ]|$)";
  "(?i)M-MP7S2[ABDK]3G(?:[);/ ]|$)";
  "(?i)M-MP5303G(?:[);/ ]|$)";
  "(?i)M-PPxB400(?:[);/ ]|$)";
  "(?i)M-PPAG550(?:[);/ ]|$)";
  "(?i)M-PPAB500(?:[);/ ]|$)";
  "(?i)M-PP2G530(?:[);/ ]|$)";
  "(?i)M-PPG700(?:[);/ ]|$)";
  "(?i)M-PPxS531(?:[);/ ]|$)";
  "(?i)M-PP2S550(?:[);/ ]|$)";
  "(?i)M-PP2S650C?(?:[);/ ]|$)";
  "(?i)M-PPxS551U(?:[);/ ]|$)";
  "(?i)M-PPAG4(?:[);/ ]|$)";
  "(?i)M-PP[ABC]G500(?:[);/ ]|$)";
  "(?i)M-PP2S500[BC]?(?:[);/ ]|$)";
  "(?i)M-PPx(S510|G551|G51[0125]|G415)(?:[);/ ]|$)";
  "(?i)M[_-]PP[Ax]X(470|510|555|520)U(?:[);/ ]|$)";
  "(?i)M-PPxG(400|501|[457][PM]?)(?:[);/ ]|$)";
  "(?i)M-PPxS(532[LU]|470|501|5P?|7P?)(?:[);/ ]|$)";
  "(?i)M-PPxG(4[15]0)(?:[);/ ]|$)";
  "(?i)M-PPA(S520|R450|G552)(?:[);/ ]|$)";
  "(?i)M-PPx([XS]5\d{2}[UL])(?:[);/ ]|$)";
  "(?i)M-MP([0-9a-z]+)";
  "(?i)Medion|(?:MD_)?LIFETAB|([SPX]10[0-9]{2}X|E10[45]1X|X5001|P851X|P850X|E691X|E10[56]0X|B5532)(?:[);/ ]|$)";
  "(?i)(?:MD_)?LIFETAB[_ ]([a-z0-9]+)";
  "(?i)(E450[46]|E5004|S5004|X5001|E5020|P5015|P500[45]|X6001)(?:[);/ ]|$)";
  "(?i)(B553[02])(?:[);/ ]|$)";
  "(?i)(E10[45]1X)(?:[);/ ]|$)";
  "(?i)([SPX]10[0-9]{2}X|P851X|P850X|E691X|E10[56]0X)(?:[);/ ]|$)";
  "(?i)Medion(?: Smartphone)? ([^/;]+) Build";
  "(?i)MEDION, ([a-z0-9_ -]+), (?:wired|wireless)";
  "(?i)MegaFon|MFLoginPh|MegLogPh|(MFLogin[34]T?|MS3B|SP-A5|SP-A20i|KM8-ATV-MF)(?:[);/ ]|$)";
  "(?i)MFLoginPh|MegLogPh";
  "(?i)MFLogin3T|MegaFon Login 3";
  "(?i)MS3B|Megafon Optima";
  "(?i)(SP-A5|SP-W1)";
  "(?i)MegaFon V9+";
  "(?i)(KM8-ATV-MF)";
  "(?i)OTT Xview AV1(?:[);/ ]|$)";
  "(?i)(?:Meitu[2]?|MP1503|MP1512|MP160[235]|MP170[19]|MP171[138]|MP1801)(?:[);/ ]|$)";
  "(?i)MP1503(?:[);/ ]|$)";
  "(?i)(?:MP1512|Meizu M6s)(?:[);/ ]|$)";
  "(?i)MP1602(?:[);/ ]|$)";
  "(?i)MP1605(?:[);/ ]|$)";
  "(?i)MP1801(?:[);/ ]|$)";
  "(?i)MP17(?:01|13)(?:[);/ ]|$)";
  "(?i)MP1718(?:[);/ ]|$)";
  "(?i)MP1603(?:[);/ ]|$)";
  "(?i)MP17(?:09|11)(?:[);/ ]|$)";
  "(?i)Meitu2(?:[);/ ]|$)";
  "(?i)Meitu (Kiss|[MV]4)(?:[);/ ]|$)";
  "(?i)Meizu|MZ-[A-Z]|(M04[05]|MZ-16th(?: Plus)?|MZ-16[st]|M7[12]1C|M35[1356]|M612C|M578CA|M181[36]|M1822|M681C|M6T|MX[ -]?[2345](?: Pro)?|(?:MZ-)?m[1-6] note|M621C|M1852|M57[18]C|M3[ESX]|M3 Max|M031|m1 metal|M1 E|M2|M2 E|M5s Build|PRO [567]|PRO 7-[HS]| 15 Lite| 16th|MZ-15 (?:Lite|Plus)|15 Plus|MZ-16 X| 16 X| 16T|MX6| M5c|16s Pro|Android 8(?:[\d.]*);(?: [\w-]+;)? 16|Mblu 2[12]|Mblu 22 Pro)(?:[);/ ]|$)";
  "(?i)(?:MZ-)?M571C";
  "(?i)(?:MZ-|Meizu-)?m([1-6])[_ ]note(?:[);/ ]|$)";
  "(?i)Mblu (2[12])";
  "(?i)(?:MZ-)?M1 E(?:[);/ ]|$)";
  "(?i)M2 E(?:[);/ ]|$)";
  "(?i)(?:MZ-)?M578C[A]?|M2(?:[);/ ]|$)";
  "(?i)M681C(?:[);/ ]|$)";
  "(?i)M621C(?:[);/ ]|$)";
  "(?i)M711C(?:[);/ ]|$)";
  "(?i)M721C(?:[);/ ]|$)";
  "(?i)(M6T|MX6|M3E|M3X)(?:[);/ ]|$)";
  "(?i)(?:MZ-)?M3S(?:[);/ ]|$)";
  "(?i)(?:MZ-)?M3 Max(?:[);/ ]|$)";
  "(?i)M5S|M612C";
  "(?i)(?:MZ-)?M5c(?:[);/ ]|$)";
  "(?i)(M04[05]|MX[ -]?2)(?:[);/ ]|$)";
  "(?i)(M35[1356]|MX[ -]?3)(?:[);/ ]|$)";
  "(?i)MX[ -]?4 Pro(?:[);/ ]|$)";
  "(?i)MX[ -]?4(?:[);/ ]|$)";
  "(?i)(Meizu[- _])?MX[ -]?5(?:[);/ ]|$)";
  "(?i)M1813(?:[);/ ]|$)";
  "(?i)(?:M1816|M8 lite)(?:[);/ ]|$)";
  "(?i)M8c Pro(?:[);/ ]|$)";
  "(?i)PRO 7-[HS](?:[);/ ]|$)";
  "(?i)PRO ([76]) Plus(?:[);/ ]|$)";
  "(?i)PRO ([567])";
  "(?i)M031(?:[);/ ]|$)";
  "(?i)M1852(?:[);/ ]|$)";
  "(?i)M1822(?:[);/ ]|$)";
  "(?i)(?:MZ-)?16T(?:[);/ ]|$)";
  "(?i)(?:MZ-)?16th Plus(?:[);/ ]|$)";
  "(?i)(?:MZ-)?15 Plus(?:[);/ ]|$)";
  "(?i)(?:MZ-15 Lite| 15 Lite)(?:[);/ ]|$)";
  "(?i)MZ-16th| 16th(?:[);/ ]|$)";
  "(?i)(?:MZ-)?16 X(?:[);/ ]|$)";
  "(?i)16(?: Build|[;)]|$)"
].
Definition d_dr_re0_28 : list blob := [
  "(?i)(?:MZ-)?16s Pro(?:[);/ ]|$)";
  "(?i)meizu (17|C9|2[10]) Pro(?:[);/ ]|$)";
  "(?i)MZ-?M3(?:[);/ ]|$)";
  "(?i)(?:Meizu[_ ])?note([89]|21)(?:[);/ ]|$)";
  "(?i)(?:MZ-)?Meizu[_ ]([^/;]+) Build";
  "(?i)(?:MZ-)?Meizu[_ ]([a-z0-9_]+)";
  "(?i)MZ-([^/;]+) Build";
  "(?i)MELROSE[_ ](?:S9\+?|S9P|2019)(?:[);/ ]|$)";
  "(?i)MELROSE[_ ]S9\+(?:[);/ ]|$)";
  "(?i)MELROSE[_ ](S9|S9P)(?:[);/ ]|$)";
  "(?i)MELROSE_2019(?:[);/ ]|$)";
  "(?i)SlidePad ?([^;/]*) Build|SPNG?[0-9]{2,4}[a-z]{0,2}(?:[);/ ]|$)|SP704CE?|SP-NG708-3G";
  "(?i)SlidePad ?([^;/]*) Build";
  "(?i)SPNG([0-9]{2,4}[a-z]{0,2})(?:[);/ ]|$)";
  "(?i)SP-NG(708)-3G(?:[);/ ]|$)";
  "(?i)SP704(CE?)";
  "(?i)(?:Pacific|Quest).+OculusBrowser|(?:Standalone HMD|PortalGo|Quest 3S?)(?:[);/ ]|$)";
  "(?i)(?:Quest 2|Standalone HMD)";
  "(?i)(?:MiXzo[ _])?(?:ME ?10(?:2[35]|30)|MX1037|MX1024|MX10[24]1|MX1397)([ _][34]G)?(?:[);/ ]|$)";
  "(?i)MiXzo[_ ]ME ?(1023|1030)(?:[_ ]([34])G)(?:[);/ ]|$)";
  "(?i)MiXzo[_ ]MX1021(?:[_ ]3G)?(?:[);/ ]|$)";
  "(?i)(?:MiXzo[ _])?MX(1037|1041|1024|1397)[ _]4G(?:[);/ ]|$)";
  "(?i)ME ?1025";
  "(?i)(?:MicroMax[ \-\_]?[a-z0-9]+|Q327)|4560MMX|P70221|(?:YU(?:5012|5040|5530)|AQ5001(?: Canvas Power)?|Android 4(?:[\d.]*);(?: [\w-]+;)? A240|Android 8(?:[\d.]*);(?: [\w-]+;)? B5Pro|Bharat 5|N8216|N8301|IN_2[bc]|IN_Note1|ione note|E7446|E7533|E6523)(?:[);/ ]|$)";
  "(?i)A240(?:[);/ ]|$)";
  "(?i)A107(?:[);/ ]|$)";
  "(?i)Q465(?:[);/ ]|$)";
  "(?i)E451(?:[);/ ]|$)";
  "(?i)4560MMX(?:[);/ ]|$)";
  "(?i)IN_2b(?:[);/ ]|$)";
  "(?i)IN_2c(?:[);/ ]|$)";
  "(?i)E6523(?:[);/ ]|$)";
  "(?i)AQ4502(?:[);/ ]|$)";
  "(?i)E453(?:[);/ ]|$)";
  "(?i)E481(?:[);/ ]|$)";
  "(?i)Q462(?:[);/ ]|$)";
  "(?i)P70221(?:[);/ ]|$)";
  "(?i)Q(3[25]7|30[13]|326|354|338|3[03]01)(?:[);/ ]|$)";
  "(?i)Q402\+";
  "(?i)YU5040(?:[);/ ]|$)";
  "(?i)YU5012(?:[);/ ]|$)";
  "(?i)YU5530(?:[);/ ]|$)";
  "(?i)(?:Micromax_)?(Q333|S302|Q324)";
  "(?i)Q402 ?Plus";
  "(?i)Micromax[_ ]HS3(?:[);/ ]|$)";
  "(?i)Micromax[_ ]HS2(?:[);/ ]|$)";
  "(?i)Micromax[_ ]HS1(?:[);/ ]|$)";
  "(?i)Q440Plus(?:[);/ ]|$)";
  "(?i)Micromax[_ ]Q353P(?:[);/ ]|$)";
  "(?i)Q452(?:[);/ ]|$)";
  "(?i)Q4601(?:[);/ ]|$)";
  "(?i)Q421(?:[);/ ]|$)";
  "(?i)E313(?:[);/ ]|$)";
  "(?i)Q413(?:[);/ ]|$)";
  "(?i)Q4251(?:[);/ ]|$)";
  "(?i)Micromax C1A(?:[);/ ]|$)";
  "(?i)C2APLS(?:[);/ ]|$)";
  "(?i)Bharat[ _](\d)[ _]Pro(?:[);/ ]|$)";
  "(?i)Bharat[ _](\d)[ _]Plus(?:[);/ ]|$)";
  "(?i)Bharat (\d)(?:[);/ ]|$)";
  "(?i)ione note(?:[);/ ]|$)";
  "(?i)IN_Note1(?:[);/ ]|$)";
  "(?i)E7446(?:[);/ ]|$)";
  "(?i)E7533(?:[);/ ]|$)";
  "(?i)B5Pro(?:[);/ ]|$)";
  "(?i)MicroMax(?:[ _-])?(P681|P802)(?:[);/ ]|$)";
  "(?i)MicroMax(?:[ _-])?(X291|X246|X252|X458|X312)";
  "(?i)MicroMax(?:[ _-])?(P[a-z0-9]+)";
  "(?i)MicroMax(?:[ _-])?([a-z0-9]+)";
  "(?i)MLAB[ _-]";
  "(?i)MLAB[ _-]GLOWY([78]|10)";
  "(?i)KIN\.(One|Two)|RM-(?:1010|1031|106[57]|107[23467]|1089|109[02]|1096|1099|1109|111[348]|1127|1141|115[24]|994)|Microsoft; Lumia|Lumia (?:1530|1320|950|850|650|640|550|535|435)|Corporation/Surface|Surface Duo|Surface 3";
  "(?i)KIN\.(One|Two)";
  "(?i)RM-1099|Lumia 430";
  "(?i)RM-1114|Lumia 435";
  "(?i)RM-1031|Lumia 532";
  "(?i)RM-109[02]|RM-1089|Lumia 535";
  "(?i)RM-1141|Lumia 540";
  "(?i)RM-1127|Lumia 550";
  "(?i)RM-106[57]|RM-1096|Lumia 640 XL";
  "(?i)RM-1109|RM-1113|RM-107[23467]|Lumia 640";
  "(?i)RM-1154|Lumia 650";
  "(?i)Lumia 950|RM-1118";
  "(?i)RM-994|Lumia 1320";
  "(?i)Surface Pro( [34])?";
  "(?i)Microsoft; Lumia ([^;/)]+)(?:[;/)]|$)";
  "(?i)(?:ETL101(?:GB|AL)|ETW101GT(?:_C)?)(?:[);/ ]|$)";
  "(?i)ETL101(?:GB|AL)";
  "(?i)(MT003-21)(?:[);/ ]|$)";
  "(?i)(?:NEO[- ](?:X8-H|X8|U9-H|X[57]-mini|X8H?-PLUS|X88-?I|X7-216A|X5-116A|X[68]|U1|Z64|U22-XJ)|MNBP-300G)(?:[);/ ]|$)";
  "(?i)NEO-X([57])-mini";
  "(?i)NEO-(X8H?)-PLUS";
  "(?i)NEO-X88-?I";
  "(?i)NEO-X([68])";
  "(?i)(MNBP-300G)";
  "(?i)(?:Pearl_Neo|M4CRD?|Emerald_M55CR|Mint[ _](?:VirGo|Orion))(?:[);/ ]|$)";
  "(?i)Pearl_(Neo)";
  "(?i)Emerald[_ ]M55CR";
  "(?i)(?:Mint[_ ])?VirGo";
  "(?i)(?:Mint[_ ])?Orion";
  "(?i)(?:Cool|Fresh|Ultra)?Mintt";
  "(?i)Mintt (M3)(?:[);/ ]|$)";
  "(?i)Coolmintt ?(Blaze 2|Tribe|A[3578]|M[12]|P[13]|X7)(?:[);/ ]|$)";
  "(?i)Ultramintt ?(A[56]|R1|S[12]|X[56]|Y[35])(?:[);/ ]|$)";
  "(?i)UltraMintt ?(T10)(?:[);/ ]|$)";
  "(?i)FRESHMINTT ?(A7|A10)(?:[);/ ]|$)";
  "(?i)MIO(?:/)?([a-z0-9]+)|(?:MOBIX M6|Mio TouchPad 7 Quad Core)(?:[);/ ]|$)";
  "(?i)MOBIX M6(?:[);/ ]|$)";
  "(?i)MIO(?:/)?([a-z0-9]+)";
  "(?i)Mione[_ ]";
  "(?i)Hero (\d+)";
  "(?i)Mione P2\+";
  "(?i)Mione U1(?:[);/ ]|$)";
  "(?i)Mione_Pro(?:[);/ ]|$)";
  "(?i)Mione Pro Plus(?:[);/ ]|$)";
  "(?i)Mione[_ ]N10pro(?:[);/ ]|$)";
  "(?i)Mione[_ ]Q1(?:[);/ ]|$)";
  "(?i)Mione[_ ]Q11(?:[);/ ]|$)";
  "(?i)MIRAY[;,]|MIDM[_-]|MPM[_-]|TPM4G_WT8";
  "(?i)MIDM[_-]([a-z0-9]+)";
  "(?i)MPM[_-]([a-z0-9]+)";
  "(?i)MIRAY,([a-z0-9_ -]+),(?:wired|wireless)";
  "(?i)MITCHELL_BROWN[;,]";
  "(?i)MITO[- _]";
  "(?i)MITO[- _]3255(?:[);/ ]|$)";
  "(?i)MITO[- _]A37[_ ]Z1plus";
  "(?i)MITO[- _](A(?:19[_ ][12]GB|37[_ ]Z1|36[_ ]W1|[0-9]+)|311)(?:[);/ ]|$)";
  "(?i)MITO[- _](T(?:[0-9]+))(?:[);/ ]|$)";
  "(?i)MITSU|portalmmm/[12]\.0 M";
  "(?i)MITSU/[a-z0-9.]+ \(([a-z0-9]+)\)";
  "(?i)MITSU[ -]?([a-z0-9]+)";
  "(?i)portalmmm/[12]\.0 (M[a-z0-9]+)";
  "(?i)(MC32020)(?:[);/ ]|$)";
  "(?i)(?:Mobell[ _](?:S50)|NOVA P3)(?:[);/ ]|$)";
  "(?i)Mobell[ _](S50)";
  "(?i)(?:MobiGo2|MobiPrint 4\+)(?:[);/ ]|$)";
  "(?i)MobiGo2(?:[);/ ]|$)";
  "(?i)MobiPrint 4\+(?:[);/ ]|$)";
  "(?i)MobiGo|(?:Kiona|KANUNA|Halona|IKOSORA\+|Kicka[_ ][45][ _]Plus|Kicka Zoom|Kohana|Kayeta|Kosumi|KWANITA|Lonan|Hotah|Kicka 5|Kiona|Smart[ _]?(?:[CEN]11|N12|P24)|Sakari|V Smart 2)(?:[);/ ]|$)";
  "(?i)Smart[ _]?([CEN]11|N12|P24)";
  "(?i)(IKOSORA\+|Kiona|Kicka[_ ][45][ _]Plus|Kohana|Kayeta|Kosumi|Lonan|Halona|Hotah|Kicka 5|Kicka Zoom|Kiona|Sakari)(?:[);/ ]|$)";
  "(?i)Mobicel[_ ](R[16]|METRO2)|(?:Android 6(?:[\d.]*);(?: [\w-]+;)? SHIFT)|(?:Android 8(?:[\d.]*);(?: [\w-]+;)? (?:BEAM|ZOOM|RUBY)|FAME(?:_DS)?|CLIK|R7_[12]|HYPE(?:_X)?|DANDY(?:_ZAM)?|Matrix|VENUS_G|TRENDY PLUS|FENDY_DS|TANGO_LITE|BLINK|BERRY|BERRY[_ ]?(?:[12]|PLUS)|R1PLUS_1|ZOOM-H|REBEL|LEGEND (?:MAX|PRO_1|Pro LTE)|HERO_DS|Switch[ _]GO|SWITCH1|switch plus|PULSE_1|TRENDY 2|TRENDY_LITE|FEVER_PLUS(?:_[HJ])?|RIO_(?:SS|ZAM|RW|BN)|Clik plus|(PURE|Fendy) PLUS|RX PRO|Neo[ _]LTE|Titan_1|ZOOM_1|R4 LTE|NEO_1|EPIC_[12]| GLO|EPIC PRO_[12]|IX PRO|OREO|Cosmo LTE|Neo_Plus|IX-1|Android 13(?:[\d.]*);(?: [\w-]+;)? IX|Android 1[12](?:[\d.]*);(?: [\w-]+;)? FORCE|VX20|VX19)(?:[);/ ]|$)";
  "(?i)EPIC PRO_([12])";
  "(?i)IX(?: Build|[;)])";
  "(?i)EPIC_([12])";
  "(?i)BERRY[_ ]PLUS";
  "(?i)R7_[12]";
  "(?i)GLO(?:[);/ ]|$)";
  "(?i)Neo[ _]LTE";
  "(?i)RIO_(SS|ZAM|RW|BN)";
  "(?i)Switch[ _]GO";
  "(?i)VX(19|20) Pro";
  "(?i)VX(19|20)";
  "(?i)Mobicel_(R[16])";
  "(?i)FEVER_PLUS_([HJ])";
  "(?i)Mobiistar|Zumbo[ _]S|(?:PRIME X MAX|X1 (?:Notch|Dual)|E1 Selfie|XQ[_ ]Dual|C1 Lite)(?:[);/ ]|$)";
  "(?i)X1 (Notch|Dual)(?:[);/ ]|$)";
  "(?i)E1 Selfie(?:[);/ ]|$)";
  "(?i)XQ[_ ]Dual(?:[);/ ]|$)";
  "(?i)mobiistar_LAI_Zumbo(?:[);/ ]|$)";
  "(?i)Zumbo[_ ]S[_ ]2017[_ ]Lite(?:[);/ ]|$)";
  "(?i)Zumbo[_ ]S[_ ]2017(?:[);/ ]|$)";
  "(?i)mobiistar ZUMBO S2( Dual)";
  "(?i)Mobiistar_LAI_Zumbo_J_2017(?:[);/ ]|$)";
  "(?i)Mobiistar_LAI_Zumbo_J(?:[);/ ]|$)";
  "(?i)Mobiistar[_ ]Zumbo[_ ]J2";
  "(?i)Mobiistar[_ ]Zumbo[_ ]S2";
  "(?i)mobiistar[ _]LAI[ _]YUNA[ _]([1XCS])";
  "(?i)mobiistar[ _](?:LAI[ _])?ZORO[ _]([235])";
  "(?i)mobiistar[ _]LAI[ _]Zena";
  "(?i)mobiistar[ _]LAI[ _]Z([12])?";
  "(?i)mobiistar LAI 504([KC])";
  "(?i)mobiistar[ _]PRIME[ _](X1|558|X[ _]Plus|X[ _]Grand) Build";
  "(?i)mobiistar[ _]KOOL([ _]Lite)?";
  "(?i)Mobiistar[ _]([^;/)]+)(?: Build|[;)])";
  "(?i)GENESIS_126(?:[);/ ]|$)";
  "(?i)(MS5[50]X6|MS55X5|MS55L1|MS50L1|MS43A3000|MS45A4000|MS50A4000|MS50A4500|MS50A5000|MS50A6000|MS50B11000|MB-2900 QUATTRO|POLYS[_ ]MS45L1|Wave5)";
  "(?i)POLYS[_ ]MS45L1";
  "(?i)(Cynus[ _][^/;)]+)( Build|\))";
  "(?i)(?:(?:MOBO[_ ]MB7005|MT7-421HD)|(?:MT7-442D|MT7-411D))(?:[);/ ]|$)";
  "(?i)(?:MOBO[_ ])?(MB7005|MT7-421HD|MT7-442D|MT7-411D)(?:[);/ ]|$)";
  "(?i)TicWatch (Pro 3 Ultra GPS|C2|C2\+|Pro [5S]|S2?)(?:[);/ ]|$)";
  "(?i)MD-0[143]P(?:[);/ ]|$)";
  "(?i)MD-04P(?:[);/ ]|$)";
  "(?i)MD-03P(?:[);/ ]|$)";
  "(?i)MD-01P(?:[);/ ]|$)";
  "(?i)MEP2Q421G(?:[);/ ]|$)";
  "(?i)Modecom|Free(?:Way )?Tab|xino z[\d]+ x[\d]+|(?:ECHO LOLLY)(?:[);/ ]|$)";
  "(?i)xino Z([\d]+) X([\d]+)";
  "(?i)FreeTab[ _-]?([^/;]+)? Build";
  "(?i)FreeTab[ _-]?([^);/ ]+)?";
  "(?i)FreeWay Tab[ _-]?([^/;]+) Build";
  "(?i)FreeWay Tab[ _-]?([^);/ ]+)";
  "(?i)Mofut[ _-]?([^/;]+) Build";
  "(?i)Mofut[ _-]?([^);/ ]+)";
  "(?i)MD-PH-001(?:[);/ ]|$)";
  "(?i)(?:momo3s)(?:[);/ ]|$)";
  "(?i)(TurboPhone4G Compact 2108)(?:[);/ ]|$)";
  "(?i)MOT|DROID ?(?:Build|[a-z0-9]+)|portalmmm/2\.0 (?:E378i|L6|L7|v3)|XOOM [^;/]*Build|XT19(?:24-7|4[23]-1|29-15|41-2|25-10|24-9|65-6|70-[25])|XT17(?:99-2|10-(?:08|10))|XT1021|XT21(?:71-[23]|13-2|15-1|75-2|41-1|25-4|27-2|29-[123]|43-1|53-1|58-6|39-1|31(?:-[134]|DL)|63-4|69-1|37-[12])|XT20(?:13-[124]|15-2|45-3|55-2|61-3|71-4|73-2|83-9|81-1|87-1|93DL|93-[37])|XT22(?:01-[126]|15-[124]|21-[12]|25-[12]|3[35]-2|31-1|51-1|55-1|43-2|4[15]-1|61-1|71-5)|XT-2201|XT180[3-5]|XT23(?:15-1|33-1|35-[23]|03-2|01-5|07-1|21-[23]|23-3|43-[1236]|63-2)|XT24(?:01-2|09-5|[23]7-4|51-4|53-2)|XT25(?:03-[1-4]|27-3|07-5|05-4)|(?:XT|MZ|MB|ME)[0-9]{3,4}[a-z]?(?:\(Defy\)|-0[1-5])?(?:[;]? Build|\))|lineage_osprey|ATRIX HD|PAMR00(?:0[28]|10)IN|PANB0001IN|PANB001[35]IN|PANV000[59]IN|PAGS0005IN";
  "(?i)(?:MOT-|Motorola-)?XT300"
].
Definition d_dr_re0_29 : list blob := [
  "(?i)XT2451-4|razr 50 ultra";
  "(?i)XT2321-[23]";
  "(?i)motorola razr 50(?: Build|[;)])|XT2453-2";
  "(?i)(?:MOT-|Motorola-)?XT30[35]";
  "(?i)(?:MOT-|Motorola-)?XT31[16]";
  "(?i)(?:MOT-|Motorola-)?XT2125-4";
  "(?i)(?:MOT-|Motorola[- ])?edge \(?(202\d)\)?";
  "(?i)(?:MOT-|Motorola-)?XT2307-1";
  "(?i)(?:MOT-|Motorola-)?XT2175-2";
  "(?i)XT2245-1|motorola edge 30 neo";
  "(?i)(?:MOT-|Motorola-)?XT2143-1";
  "(?i)(?:MOT-|Motorola-)?XT2153-1";
  "(?i)(?:MOT-|Motorola-)?XT32[01]";
  "(?i)(?:MOT-|Motorola-)?XT3(?:89|90)";
  "(?i)(?:MOT-|Motorola-)?XT502";
  "(?i)(?:MOT-|Motorola-)?XT531";
  "(?i)(?:MOT-|Motorola-)?XT535";
  "(?i)(?:MOT-|Motorola-)?XT2083-9";
  "(?i)(?:MOT-|Motorola-)?XT55[567]C?";
  "(?i)(?:MOT-|Motorola-)?XT603";
  "(?i)(?:MOT-|Motorola-)?XT610";
  "(?i)(?:MOT-|Motorola-)?XT615";
  "(?i)(?:MOT-|Motorola-)?XT621";
  "(?i)(?:MOT-|Motorola-)?XT626";
  "(?i)(?:MOT-|Motorola-)?XT682";
  "(?i)(?:MOT-|Motorola-)?XT685";
  "(?i)(?:MOT-|Motorola-)?XT687";
  "(?i)(?:MOT-|Motorola-)?Atrix HD";
  "(?i)(?:MOT-|Motorola-)?XT720";
  "(?i)(?:MOT-|Motorola-)?XT800W";
  "(?i)(?:MOT-|Motorola-)?XT860";
  "(?i)(?:MOT-|Motorola-)?XT881";
  "(?i)(?:MOT-|Motorola-)?XT882";
  "(?i)(?:MOT-|Motorola-)?XT88[56]";
  "(?i)(?:MOT-|Motorola-)?XT890";
  "(?i)(?:MOT-|Motorola-)?XT894";
  "(?i)(?:MOT-|Motorola-)?XT897";
  "(?i)(?:MOT-|Motorola-)?XT901";
  "(?i)(?:MOT-|Motorola-)?XT90[567]";
  "(?i)(?:MOT-|Motorola-)?XT910S?";
  "(?i)(?:MOT-|Motorola-)?XT91[4568]";
  "(?i)(?:MOT-|Motorola-)?XT9(?:19|20)";
  "(?i)(?:MOT-|Motorola-)?XT925";
  "(?i)(?:MOT-|Motorola-)?XT912";
  "(?i)XT2221-[12]";
  "(?i)XT2335-[23]";
  "(?i)XT2343-[1236]";
  "(?i)XT2225-[12]";
  "(?i)PAMR00(0[28]|10)IN";
  "(?i)XT2055-[124]";
  "(?i)(?:MOT-|Motorola-)?(?:XT102[12]|XT830C|XT15[12]4|XT152[67])";
  "(?i)Moto E \(XT2052DL\)";
  "(?i)(?:MOT-|Motorola-)?XT1706";
  "(?i)(?:MOT-|Motorola-)?XT2158-6";
  "(?i)MotoE2\(4G-LTE\)";
  "(?i)(?:MOT-|Motorola-)?XT1924-[79]";
  "(?i)moto e\(?([0-9])\)? plus";
  "(?i)Moto E([0-9]) Play";
  "(?i)moto-e([0-9])-play";
  "(?i)moto e6 \(XT2005DL\)";
  "(?i)moto e5 cruise(?:[);/ ]|$)";
  "(?i)moto e5 supra(?:[);/ ]|$)";
  "(?i)Moto E5 go(?:[);/ ]|$)";
  "(?i)Moto E\(?(\di?)\)? Power(?:[);/ ]|$)";
  "(?i)Moto E\(?((?:[567]|22)i?)\)?(?:[);/ ]|$)";
  "(?i)Moto E\(?([567])s\)?(?:[);/ ]|$)";
  "(?i)Moto E(\d+)\(?s\)?";
  "(?i)Moto E(?: Build|[;)])";
  "(?i)(?:MOT-|Motorola-)?XT1030";
  "(?i)(?:MOT-|Motorola-)?XT1565";
  "(?i)(?:MOT-|Motorola-)?XT1096";
  "(?i)(?:MOT-|Motorola-)?XT175[046]";
  "(?i)(?:MOT-|Motorola-)?XT172[135]";
  "(?i)(?:MOT-|Motorola-)?XT1254";
  "(?i)(?:MOT-|Motorola-)?XT10(?:28|3[12349]|68|69)|lineage_osprey";
  "(?i)(?:MOT-|Motorola-)?XT106[34]";
  "(?i)(?:MOT-|Motorola-)?g\(?(\d+)\)? 5G";
  "(?i)(?:MOT-|Motorola-)?XT1609";
  "(?i)(?:MOT-|Motorola-)?XT180[1-6]|Moto G ?5S Plus|Moto G \(5S\) Plus";
  "(?i)(?:MOT-|Motorola-)?XT1799-2|Moto G \(5S\)";
  "(?i)(?:MOT-|Motorola-)?XT168[57]";
  "(?i)(?:MOT-|Motorola-)?XT167[06]";
  "(?i)(?:MOT-|Motorola-)?XT1925-10";
  "(?i)(?:MOT-|Motorola-)?XT1965-6";
  "(?i)XT2129-[12]";
  "(?i)XT2137-[12]";
  "(?i)(?:MOT-|Motorola-)?(?:XT10(?:49|5[23568]|6[04]|9[23457])|XT1093)";
  "(?i)(?:MOT-|Motorola-)?XT156[234]|Moto X Play(?:[);/ ]|$)";
  "(?i)(?:MOT-|Motorola-)?XT157[02]";
  "(?i)(?:MOT-|Motorola-)?XT1575";
  "(?i)(?:MOT-|Motorola-)?XT158[01]";
  "(?i)(?:MOT-|Motorola-)?XT2401-2";
  "(?i)(?:MOT-|Motorola-)?XT1080";
  "(?i)(?:MOT-|Motorola-)?XT1585";
  "(?i)(?:MOT-|Motorola-)?XT1650(?:-05)?";
  "(?i)moto z4(?:[);/ ]|$)";
  "(?i)Moto Z3 Play(?:[);/ ]|$)";
  "(?i)(?:MOT-|Motorola-)?XT1635(?:-0[1-3])?";
  "(?i)(?:MOT-|Motorola-)?XT1710-(?:-0[28])?";
  "(?i)(?:MOT-|Motorola-)?XT1789-05|Moto Z2 Force(?:[);/ ]|$)";
  "(?i)(?:MOT-|Motorola-)?XT1929-15|moto z3(?:[);/ ]|$)";
  "(?i)(?:MOT-|Motorola-)?XT166[23]";
  "(?i)(?:MOT-|Motorola-)?XT2241-1";
  "(?i)(?:MOT-|Motorola-)?XT2243-2";
  "(?i)(?:MOT-|Motorola-)?XT2409-5";
  "(?i)(?:MOT-|Motorola-)?XT2201-[26]";
  "(?i)(?:MOT-|Motorola-)?XT-2201";
  "(?i)(?:MOT-|Motorola-)?XT2507-5";
  "(?i)(?:MOT-|Motorola-)?XT2505-4";
  "(?i)(?:MOT-|Motorola-)?XT2301-5";
  "(?i)(?:MOT-|Motorola-)?XT1943-1";
  "(?i)(?:MOT-|Motorola-)?XT1941-2";
  "(?i)(?:MOT-|Motorola-)?XT1942-1|P30 Note(?:[);/ ]|$)";
  "(?i)(?:MOT-|Motorola-)?edge plus 5G UW \(2022\)";
  "(?i)(?:MOT-|Motorola-)?edge plus \(?(202[23])\)?";
  "(?i)(?:MOT-|Motorola-)?edge plus|XT2061-3";
  "(?i)(?:MOT-|Motorola-)?edge ([23]0) fusion";
  "(?i)(?:MOT-|Motorola-)?edge 20 lite|XT2139-1";
  "(?i)(?:MOT-|Motorola-)?edge (\d+) fusion";
  "(?i)(?:MOT-|Motorola-)?edge (\d+) ultra";
  "(?i)(?:MOT-|Motorola-)?edge (\d+) pro";
  "(?i)(?:MOT-|Motorola-)?edge (\d+) neo";
  "(?i)(?:MOT-|Motorola-)?(?:edge 5G UW \(2021\)|XT2141-1)";
  "(?i)(?:MOT-|Motorola-)?edge (\d+)";
  "(?i)(?:MOT-|Motorola-)?edge \(2021\)";
  "(?i)XT2503-[1-4]";
  "(?i)(?:MOT-|Motorola-)?edge";
  "(?i)(?:MOT-|Motorola-)?one vision plus";
  "(?i)(?:MOT-|Motorola-)?(?:XT1970-[25]|one vision)";
  "(?i)(?:MOT-|Motorola-)?one power";
  "(?i)(?:MOT-|Motorola-)?one hyper";
  "(?i)(?:MOT-|Motorola-)?one zoom";
  "(?i)(?:MOT-|Motorola-)?one fusion\+";
  "(?i)(?:MOT-|Motorola-)?one fusion|XT2073-2";
  "(?i)motorola one action|XT2013-[124]";
  "(?i)motorola one 5G ace|XT2113-2";
  "(?i)moto g stylus \(XT2115DL\)";
  "(?i)moto g stylus \((202[12])\)";
  "(?i)moto g stylus 5G \((2022)\)";
  "(?i)XT2215-[124]";
  "(?i)moto g stylus 5G|XT2131(?:-[134]|DL)";
  "(?i)moto g play \(2021\)|XT2093DL|XT2093-[37]";
  "(?i)XT2271-5|moto g play - 2023";
  "(?i)moto g power \(XT2041DL\)";
  "(?i)moto g power \(2021\)";
  "(?i)moto g power \(2022\)";
  "(?i)moto g pure|XT2163-4";
  "(?i)moto g fast|XT2045-3";
  "(?i)moto g 5G \(2022\)";
  "(?i)moto g\(?40\)? fusion|PANV000[159]IN";
  "(?i)PANB001[35]IN|PANB0001IN";
  "(?i)moto g\(?60\)?s";
  "(?i)moto g(\d+)\((\w)\)";
  "(?i)moto g\(([0-9]+)\) \(XT1925DL\)";
  "(?i)moto g\(([0-9]+)\) forge";
  "(?i)moto g\(([0-9]+)\) optimo \(XT1952DL\)";
  "(?i)moto g\(([0-9]+)\) optimo maxx\(XT1955DL\)";
  "(?i)moto g\(([0-9])\) power lite";
  "(?i)moto g\(?([0-9]|1[05])\)? power";
  "(?i)moto g\(([0-9])\) supra";
  "(?i)moto g\(([0-9])\) plus";
  "(?i)moto g\(([0-9]+)\) play";
  "(?i)moto g\(([0-9]+)\)";
  "(?i)moto g(\d+)(?:[);/ ]|$)";
  "(?i)moto e\(?([0-9]+)\)?(?: Build|[;)])";
  "(?i)moto x\(?(4+)\)?(?: Build|[;)])";
  "(?i)moto(?:rola)? one 5G";
  "(?i)Moto MAXX|XT1225";
  "(?i)Moto ([CGEXZ]) ?\(([a-z0-9]+)\)( Plus| Play)?";
  "(?i)Moto ?([CGEXZ])([0-9]+)( Plus| Play)?";
  "(?i)(?:Motorola-)?Moto[ _]?([CGEXZ])([ _](?:Plus|Play))?";
  "(?i)Moto(?:rola)?[- _]F100";
  "(?i)razr \(?(202[02])\)?";
  "(?i)MOTORAZR[ _-]([a-z0-9]+)";
  "(?i)MOTORIZR[ _-]([a-z0-9]+)";
  "(?i)motorola razr (40) ultra";
  "(?i)motorola razr (40)";
  "(?i)Motorola[ _-]([^/);]+)(?: Build|[);])";
  "(?i)Moto[ _-]([^/);]+)(?: Build|[);])";
  "(?i)MOT[O]?[_-]?([a-z0-9.]+)";
  "(?i)DROID ?([a-z0-9 ]*) Build";
  "(?i)DROID ?([a-z0-9]+)";
  "(?i)portalmmm/2\.0 ((?:E378i|L6|L7|V3)[a-z0-9]+)";
  "(?i)(XOOM [^;/]*)Build";
  "(?i)(MZ[0-9]{3})(?:[);/ ]|$)";
  "(?i)((?:ME|MB|XT)[0-9]{3,4}(?:\(Defy\))?)(?:[);/ ]|$)";
  "(?i)(LEX L11[ae])(?:[);/ ]|$)";
  "(?i)MOVIC|F4502";
  "(?i)MOVIC[ -]K(2)";
  "(?i)MOVIC[ -]W([2345])";
  "(?i)(F450[12])";
  "(?i)M(?:8421|9101[AB]|910[36]|841[4568]|8601)(?:[);/ ]|$)";
  "(?i)M(\d{4}[AB]?)(?:[);/ ]|$)";
  "(?i)(?:MH-T6000|MT-T8B22|MT-T800)(?:[);/ ]|$)";
  "(?i)MT-T8(00|B22)";
  "(?i)(?:MPQC|MPDC)[0-9]+|PH(?:150|340|350|360|451|500|520|544|604)|(?:MID(?:7C|74C|82C|84C|801|811|701|711|170|77C|43C|102C|103C|104C|114C)|MP100i OCTA|MP(?:843|717|718|1010|7007|7008|843|888|959|969|QCG(1[01]|77)(?: 3G)?)|MGP7)(?:[);/ ]|$)";
  "(?i)((?:MPQC|MPDC)[0-9]+[^/;)]*)(?: Build|[;)])";
  "(?i)MP100i OCTA(?:[);/ ]|$)";
  "(?i)MPQCG10(?: 3G)?(?:[);/ ]|$)";
  "(?i)(MID(?:7C|74C|82C|84C|801|811|701|711|170|77C|43C|102C|103C|104C|114C)|MP(?:843|717|718|1010|7007|7008|843|888|959|969|QCG(?:11|77))|MGP7)(?:[);/ ]|$)"
].
Definition d_dr_re0_30 : list blob := [
  "(?i)(PH(?:150|340|350|360|451|500|520|544|604))";
  "(?i)MultiPOS[ _]?(X9)(?:[);/ ]|$)";
  "(?i)Multilaser[ _]|ML-TI-MS|(?:MS50[LGXM]|M7[_-]3G[_-](?:PLUS|QC_3|QUAD_CORE)|MS5\.V2|M9-3G|MS45S_A6|ML([02]1|12)-M7s[- ]?Quad-?Core| ML01-M7-SD|MS45S|MS50S|MS60[XZ]|M7SQC_Plus|MS80X|MS40[GS]|MS55M|MS70|M7_3G_A10|M7_3G|M7S_PLUS|M10A?_3G|M7-3G QUAD CORE|M7s_?Lite|M[79]_WIFI|ML-(?:SO|WI)-M9-3G|M10A-Lite|M10_4G_PRO|MS50L?_4G|MS60F(?:_PLUS)?|MS45S_A6_(?:Teen|Senior)|MLX8|ML-WI-M7_3G_PLUS|KIDPAD_LITE|M8_4G)(?:[);/ ]|$)";
  "(?i)Multilaser[ _]([EFG])[_ ]Pro(?:[);/ ]|$)";
  "(?i)Multilaser[_ ]Elite[_ ]2";
  "(?i)Multilaser[ _]F[_ ]Pro[ _]2(?:[);/ ]|$)";
  "(?i)Multilaser[ _]G[_ ]Max(?:[);/ ]|$)";
  "(?i)Multilaser[ _]GMAX_2(?:[);/ ]|$)";
  "(?i)Multilaser[ _]G_?MAX_2_SE";
  "(?i)Multilaser[ _]G(?:[);/ ]|$)";
  "(?i)Multilaser[ _]G[ _]2(?:[);/ ]|$)";
  "(?i)Multilaser[ _]E[_ ]Lite(?:[);/ ]|$)";
  "(?i)Multilaser[ _]([H])[_ ]5G(?:[);/ ]|$)";
  "(?i)Multilaser[ _]([FEH])(?:[);/ ]|$)";
  "(?i)Multilaser[ _]ZAPP(?:[);/ ]|$)";
  "(?i)Multilaser[ _]ZAPP[ _]II[ _]3G(?:[);/ ]|$)";
  "(?i)MS60F_PLUS(?:[);/ ]|$)";
  "(?i)(MS50[LGXSM]|MS45S_A6|MS40[GS]|MS55M|MS60F|MS70|MS60[XZ]|MS45S|MS80X|MS50L?_4G|MS5\.V2)(?:[);/ ]|$)";
  "(?i)(?:ML-WI-)?M7[_-]3G[_-]PLUS(?:[);/ ]|$)";
  "(?i)M([79])_WIFI(?:[);/ ]|$)";
  "(?i)M10_4G_PRO(?:[);/ ]|$)";
  "(?i)M8_4G(?:[);/ ]|$)";
  "(?i)M7SQC_PLUS(?:[);/ ]|$)";
  "(?i)M7-3G_QC_3(?:[);/ ]|$)";
  "(?i)M7-3G[ _]QUAD[ _]CORE(?:[);/ ]|$)";
  "(?i)ML([02]1|12)-M7s[- ]?Quad-?Core(?:[);/ ]|$)";
  "(?i)M7s_?Lite(?:[);/ ]|$)";
  "(?i)ML01-M7-SD(?:[);/ ]|$)";
  "(?i)M10A-Lite(?:[);/ ]|$)";
  "(?i)(?:ML-(?:SO|WI)-)?M9-3G(?:[);/ ]|$)";
  "(?i)M7_3G_A10(?:[);/ ]|$)";
  "(?i)MLX8(?:[);/ ]|$)";
  "(?i)M(10A?|7)_3G(?:[);/ ]|$)";
  "(?i)KIDPAD_LITE(?:[);/ ]|$)";
  "(?i)ML-TI-(MS\d+)(?:[);/ ]|$)";
  "(?i)(MP01A3G)(?:[);/ ]|$)";
  "(?i)MyGica[_ ]";
  "(?i)HDR (Quad Core|Smart TV) Box";
  "(?i)ATV(19[60]0|495 Pro 16G)";
  "(?i)MY MOBILE (708)(?:[);/ ]|$)";
  "(?i)MyPad[ _][^;/)]+( Build|[);])|MyPhone ?(?:A888|A919 Duo|Agua (?:Infinity|Rio ?(?:Fun|Lite)?)|MY27|Rio (?:2 ?(?:Fun|Lite)?|Pixie)|UNO)|my(?:A(?:10|[789])|T[356]) DTV|myWX1 Plus|myXI1(?:[ _](?:Plus|Pro))?|my(?:G1|XI3|NX1|X12|X[23589]|A1[0-35-8]|29S|807)|Brown [12]|A898 DUO";
  "(?i)myT([356]) DTV";
  "(?i)myA([789]|10) DTV";
  "(?i)myXI1 Plus(?:[);/ ]|$)";
  "(?i)myXI1 Pro(?:[);/ ]|$)";
  "(?i)myXI([13])(?:[);/ ]|$)";
  "(?i)my(A1[0-35-8]i?|G1|NX1|X[23589]|X12|29S)(?:[);/ ]|$)";
  "(?i)myWX1 Plus(?:[);/ ]|$)";
  "(?i)Brown 1(?:[);/ ]|$)";
  "(?i)brown 2(?:[);/ ]|$)";
  "(?i)MyPhone[ _]([^;/)]+)( Build|[;)])";
  "(?i)MyPad[ _]([^;/(]+)(?: Build|[;)])";
  "(?i)(?:MyTAB[ _-](?:8 MINI Dual Core|U55GT)|U103GT1)(?:[);/ ]|$)";
  "(?i)MyTAB[ _-]8 MINI Dual Core(?:[);/ ]|$)";
  "(?i)MyTAB-U55GT(?:[);/ ]|$)";
  "(?i)U103GT1(?:[);/ ]|$)";
  "(?i)MyWigo[ _]([^;/)]+)( Build|\))";
  "(?i)MygPad[_ ]([^/;)]+)(?: Build|[);])";
  "(?i)(MOVE_S201)(?:[);/ ]|$)";
  "(?i) (Myria[_ ][^/;]+|502M|Cozy|Easy tab 9|Grand|Compact_E2_Plus)(?: Build|[;)])|Myria_FIVE|Myria_Grand_4G|Myria_Wide_2|Myria_Wide_4G";
  "(?i)(502M|Grand|Compact_E2_Plus)";
  "(?i)(Cozy|Easy tab 9)";
  "(?i)Myria[_ ]([^/);]+)(?: Build|[);])";
  "(?i)(E70 Ultra)(?:[);/ ]|$)";
  "(?i)MYSTERY|(MID-(?:123G|72[12]|7[01348]3G|753G|8[23]3G))(?:[);/ ]|$)";
  "(?i)MID-(123G|72[12]|7[01348]3G|753G|8[23]3G)(?:[);/ ]|$)";
  "(?i)MYSTERY[_ ]TV[_ ](D\d{4}[A-Z]{2}\d{2})";
  "(?i)(?:Npad[ _-]?(?:X1?|plus|Air|Pro|Y1|[SQ])|TAB011)(?:[);/ ]|$)";
  "(?i)Npad[ _-]?plus";
  "(?i)Npad[ _-]?Air";
  "(?i)Npad[ _-]?Pro";
  "(?i)Npad[ _]([^/;)]+)(?: Build|[);])";
  "(?i)(?:NASCO (?:TANGO 7)|SNAP_PRO)(?:[);/ ]|$)";
  "(?i)NEC[ _-]|KGT/2\.0|portalmmm/1\.0 (?:DB|N)|(?:portalmmm|o2imode)/2\.0[ ,]N|(?:PC-T[SE]\d{3}[\w]{2,3}|N-06C|N-02E|LAVIE T11 (?:11QHD1|112K1)|LAVIE Tab E (?:10|8)FHD[12]|7SD1|8HD1|LAVIE Tab (?:10FHD3|T12 12QHD1|9QHD1))(?:[);/ ]|$)";
  "(?i)N-06C(?:[);/ ]|$)";
  "(?i)N-02E(?:[);/ ]|$)";
  "(?i)(?:NEC[ _-]|KGT/2\.0 )([a-z0-9]+)";
  "(?i)portalmmm/1\.0 ((?:DB|N)[a-z0-9]+)";
  "(?i)(?:portalmmm|o2imode)/2\.0[ ,](N[a-z0-9]+)";
  "(?i)LAVIE Tab E ((?:10|8)FHD[12]|7SD1|8HD1)(?:[);/ ]|$)";
  "(?i)LAVIE Tab 10FHD3(?:[);/ ]|$)";
  "(?i)LAVIE Tab T12 12QHD1(?:[);/ ]|$)";
  "(?i)LAVIE T11 (11QHD1|112K1)(?:[);/ ]|$)";
  "(?i)LAVIE T7 (7SD1)(?:[);/ ]|$)";
  "(?i)LAVIE T8 (8HD1)(?:[);/ ]|$)";
  "(?i)PC-TE(\d+)";
  "(?i)PC-TS(\d+)";
  "(?i)LAVIE Tab (9QHD1)";
  "(?i)(?:NEKO_(?:WK?_)?LT[-_](\w+)|LT-\d{2}N(?:[HF]8020S|X8001S|F7021S))(?:[);/ ]|$)";
  "(?i)(?:NEKO_)?(?:WK?_)?LT[-_](\w+)(?:[);/ ]|$)";
  "(?i)NETWIT_([^;/)]+)( Build|[;)])";
  "(?i)Nevir,([a-z0-9_ -]+),(?:wired|wireless)";
  "(?i)(MXQ|MXQ-Pro)-NEXBOX|NEXBOX-([^) ]+)";
  "(?i)NEXBOX-([^) ]+)";
  "(?i)NEXON[ _](X[1235]\+|X[123589]|X10)(?:[);/ ]|$)";
  "(?i)(Discovery_XT|Revolution-X69K)(?:[);/ ]|$)";
  "(?i)(NG3128HD)(?:[);/ ]|$)";
  "(?i)NGM[_ ][a-z0-9]+|(Forward|Dynamic)[ _]?[^/;]+(?:Build|/)|Smart5Plus32GB|Android 5(?:[\d.]*);(?: [\w-]+;)? (?:P50[89]|P55[01])(?:[);/ ]|$)";
  "(?i)P(50[89]|55[01])";
  "(?i)(Forward|Dynamic)[ _]?([^/;)]+)(?: Build|[;)])";
  "(?i)(Forward|Dynamic)[ _]?([^/;]+)/";
  "(?i)NGM ([^;/]+) Build";
  "(?i)NGM_([a-z0-9]+)";
  "(?i)Android 4(?:[\d.]*);(?: [\w-]+;)? (3188HD)(?: Build|[;)])";
  "(?i)NINETOLOGY[_ ]([^/;)]+)(?: Build|[);])";
  "(?i)(?:NOA-)?NOA[ _]|Hummer(?:_2019_R|LE)|NextSE|Vivo 4G_r|SPRINT4G|SparkSE";
  "(?i)NOA[_ ]CORE[_ ]FORTE";
  "(?i)NOA[_ ]Hummer[_ ]Lite";
  "(?i)NOA[_ ]HUMMER";
  "(?i)NOA[_ ]MOVEse";
  "(?i)NOA[_ ]NEXT";
  "(?i)NOA[_ ]VISION[_ ]H3SE";
  "(?i)NOA[_ ]VISION[_ ]H3";
  "(?i)NOA[_ ]LOOP";
  "(?i)(?:NOA-)?NOA[_ ]H4se";
  "(?i)NOA[_ ]Mg12";
  "(?i)NOA[_ ]H44SE";
  "(?i)NOA[_ ]H10LE";
  "(?i)NOA[_ ](M108K|P497)";
  "(?i)(?:NOA[_ ])?Vivo 4G_r";
  "(?i)NOA[_ ]([^;)/ ]+)";
  "(?i)SMART_VOLT_NX5(?:[);/ ]|$)";
  "(?i)(?:NOGAPC (?:LIVE|PRO|ULTRA)|NOGAPAD ?(?:7G|10\.1GHD|10HD))(?:[);/ ]|$)";
  "(?i)NOGAPAD ?7G(?:[);/ ]|$)";
  "(?i)NOGAPAD ?10\.1GHD(?:[);/ ]|$)";
  "(?i)NOGAPC PRO(?:[);/ ]|$)";
  "(?i)NOGAPC LIVE(?:[);/ ]|$)";
  "(?i)NOGAPC ULTRA(?:[);/ ]|$)";
  "(?i)(NTV-H3230TS)(?:[);/ ]|$)";
  "(?i)(Bonvi Note|Bonvi Prime|Bonvi Pro|Borneo_Pro|Vi_Note)(?:[);/ ]|$)";
  "(?i)HB-(2000)(?:[);/ ]|$)";
  "(?i)NUU_|(?:(?:N(500[12]|550[12]|570[24]|6001)L|S(?:5501|5701|600[13]|6303|6501|6512)L|T080[12]L)|S6702X|A6L-[CG])(?:[);/ ]|$)";
  "(?i)T080[12]L";
  "(?i)NUU_A([13]L?)";
  "(?i)NUU_M([32])(?:[);/ ]|$)";
  "(?i)NUU_X5(?:[);/ ]|$)";
  "(?i)(?:NUU_)?(N5001L|A6L-[CG]|Q500)(?:[);/ ]|$)";
  "(?i)NYX[ _]|(?:GLAM|ARGON|TQ14|GO-X|orbis)(?:[);/ ]|$)";
  "(?i)NYX[_ ]ALTER";
  "(?i)NYX[ _]REX";
  "(?i)(TQ14|GO-X)";
  "(?i)(?:DMTAB-(?:IN08A|NV08B|NV2[04]A)|NBTY07SMKG|NBFP07PMKG|SNB02-NV7A|NABI2-NV7A)(?:[);/ ]|$)";
  "(?i)DMTAB-(?:IN08A|NV08B)";
  "(?i)DMTAB-NV(2[04])A";
  "(?i)android 7(?:[\d.]*);(?: [\w-]+;)? (?:F101)(?:[);/ ]|$)";
  "(?i)F101(?:[);/ ]|$)";
  "(?i)(?:NAOMIPHONE Ambar|DAMMAR)(?:[);/ ]|$)";
  "(?i)NAOMIPHONE Ambar(?:[);/ ]|$)";
  "(?i)DAMMAR(?:[);/ ]|$)";
  "(?i)(NX-32THS100)(?:[);/ ]|$)";
  "(?i)(?:NEXO (?:Smarty|handy|SMART DUO|Evo)|MOVIO 2)(?:[);/ ]|$)";
  "(?i)NP-752Go(?:[);/ ]|$)";
  "(?i)(NeoTab)[ _-]((?:S1[23]0|S125|H85|H11[05]|KID741|S9700))(?:[);/ ]|$)";
  "(?i)NAVITEL[ _]|(?:T737PRO|T505PRO|T500 3G)(?:[);/ ]|$)";
  "(?i)(?:NAVITEL[ _])?(T70[07]|T500) 3G(?:[);/ ]|$)";
  "(?i)NAVITEL[ _](T757)LTE(?:[);/ ]|$)";
  "(?i)NAVITEL[ _](A73[0157]|A650)(?:[);/ ]|$)";
  "(?i)T(505|737)PRO(?:[);/ ]|$)";
  "(?i)RE900 Full HD(?:[);/ ]|$)";
  "(?i)Navon[_ ]|(?:Vision_Tab_(?:7|10)|Pure Micro|Superme_Max|Raptor3G8GB|Predator (?:10|3G)|Platinum[_ ]?10[_ ]?3G(?:_V2|2019)?|Supreme[_ ](?:Fine(?:[_ ]Micro)?|Chief|Pure|Pro)(?:[_ ](?:Mini|Plus))?|T400 3G 2017|Spirit_Plus)(?:[);/ ]|$)";
  "(?i)M505 LTE(?:[);/ ]|$)";
  "(?i)(F552|D504)(?:[);/ ]|$)";
  "(?i)Superme_Max(?:[);/ ]|$)";
  "(?i)Supreme_Fine_Mini(?:[);/ ]|$)";
  "(?i)Supreme_Fine_Micro(?:[);/ ]|$)";
  "(?i)Supreme[_ ]Fine[_ ]Plus(?:[);/ ]|$)";
  "(?i)Supreme_Fine(?:[);/ ]|$)";
  "(?i)Supreme[_ ]Chief(?:[);/ ]|$)";
  "(?i)Supreme[_ ]Pure[ _]Plus(?:[);/ ]|$)";
  "(?i)Supreme Pure(?:[);/ ]|$)";
  "(?i)Supreme[_ ]Pro(?:[);/ ]|$)";
  "(?i)Pure Micro(?:[);/ ]|$)";
  "(?i)Spirit_Plus(?:[);/ ]|$)";
  "(?i)Navon[_ ]Infinity(?:[);/ ]|$)";
  "(?i)Navon[_ ](D405)(?:[);/ ]|$)";
  "(?i)(?:Navon[_ ])?Platinum[ _]10[ _]3G(_V2)?(?:[);/ ]|$)";
  "(?i)(?:Navon[_ ])?Platinum103G2019(?:[);/ ]|$)";
  "(?i)(?:Navon[_ ])?Orpheus[ _]3G(?:[);/ ]|$)";
  "(?i)(?:Navon_)?Predator[_ ](3G|10|7)(?:[);/ ]|$)";
  "(?i)Raptor3G8GB(?:[);/ ]|$)";
  "(?i)Vision_Tab_(7|10)(?:[);/ ]|$)";
  "(?i)(M002[DGQK]-2|M002N|M002N-3T|M002W-2T|6M-3T)(?:[);/ ]|$)";
  "(?i)NEDAPHONE[ _](V9)(?:[);/ ]|$)";
  "(?i)Neffos|(TP601[ABCE])(?:[);/ ]|$)";
  "(?i)(?:C57|TP601[ABCE])(?:[);/ ]|$)";
  "(?i)Neffos[_ ]Y50";
  "(?i)Neffos[_ ]((?:[YNCXA])[0-9][A-Z]?(?: Max| Lite| Plus)?)";
  "(?i)Neolix[ _-]";
  "(?i)Neolix[ _-]T7[_ ]";
  "(?i)Neolix[ _-]1-C-";
  "(?i)Neolix[ _-]([^/;)]+)(?: Build|[);])";
  "(?i)NEO[ ]?(90[689])(?:[);/ ]|$)";
  "(?i)(?:NQT-(?:101|7)[34]GIQ(?:11)?|NQT-7W)(?:[);/ ]|$)";
  "(?i)(NQT-1013GIQ11)";
  "(?i)NQT-101([34])GIQ";
  "(?i)NQT-7([34])GIQ";
  "(?i)KT1007_EEA(?:[);/ ]|$)";
  "(?i)(N50HQ2305SVF|N43HQ2304SVF|N32HR2301SF|N32HF2302SF)(?:[);/ ]|$)";
  "(?i)NETBOX-Prime(?:[);/ ]|$)";
  "(?i)NETBOX-ShineS(?:[);/ ]|$)"
].
Definition d_dr_re0_31 : list blob := [
  "(?i)NM-NETPAD7(?:[);/ ]|$)";
  "(?i)NIM-(450D|550O|[56]00Q)";
  "(?i)neutab ?k1(?:[);/ ]|$)";
  "(?i)neutab ?k1";
  "(?i)NB (RunIQ)(?:[);/ ]|$)";
  "(?i)(NBTB10[12])(?:[);/ ]|$)";
  "(?i)NEWAL[_ ]?([^;/)]+)( Build|[;)])";
  "(?i)NEWGEN\-([a-z0-9]+)";
  "(?i)NLS-(?:MT90|NFT10|MT65)(?:[);/ ]|$)";
  "(?i)(?:(?:Newman[ _])(?:P308|K1|G5i)|UE Pad 1)(?:[);/ ]|$)";
  "(?i)Newman[ _](P308|K1|G5i)(?:[);/ ]|$)";
  "(?i)(CarPad-(?:II|III)-P)(?:[);/ ]|$)";
  "(?i)Newsday[_ ](E1|A[12]|N2\+)(?:[);/ ]|$)";
  "(?i)Nexa[ _](?:Atlas|Vega N1)";
  "(?i)Nexa[ _](Vega N1)";
  "(?i)Nexa[ _](Atlas)";
  "(?i)NTV[-_](U50C614S|H43C612N)(?:[);/ ]|$)";
  "(?i)S?Nexian";
  "(?i)S?Nexian[ ]?([a-z0-9-]+)"
].
(** device_repo.go:18335-30774. *)
Definition d_dr_re0 : list blob :=
  concat [d_dr_re0_0; d_dr_re0_1; d_dr_re0_2; d_dr_re0_3; d_dr_re0_4; d_dr_re0_5; d_dr_re0_6; d_dr_re0_7; d_dr_re0_8; d_dr_re0_9; d_dr_re0_10; d_dr_re0_11; d_dr_re0_12; d_dr_re0_13; d_dr_re0_14; d_dr_re0_15; d_dr_re0_16; d_dr_re0_17; d_dr_re0_18; d_dr_re0_19; d_dr_re0_20; d_dr_re0_21; d_dr_re0_22; d_dr_re0_23; d_dr_re0_24; d_dr_re0_25; d_dr_re0_26; d_dr_re0_27; d_dr_re0_28; d_dr_re0_29; d_dr_re0_30; d_dr_re0_31].

