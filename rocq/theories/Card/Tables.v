(** Generated transcription of the constant tables of the C sources. *)
From Coq Require Import List ZArith.
Import ListNotations.
Open Scope Z_scope.

(** ascii_to_hol_029[128], /repo/src/device/card.c:76-118. *)
Definition ascii_to_hol_029 : list Z :=
  [61440; 61440; 61440; 61440; 61440; 61440; 61440; 61440; 61440; 61440; 61440; 61440; 61440; 61440; 61440; 61440;
   61440; 61440; 61440; 61440; 61440; 61440; 61440; 61440; 61440; 61440; 61440; 61440; 61440; 61440; 61440; 61440;
   0; 1154; 6; 66; 1090; 546; 2048; 18; 2066; 1042; 1058; 2058; 578; 1024; 2114; 768;
   512; 256; 128; 64; 32; 16; 8; 4; 2; 1; 130; 1034; 2082; 10; 522; 518;
   34; 2304; 2176; 2112; 2080; 2064; 2056; 2052; 2050; 2049; 1280; 1152; 1088; 1056; 1040; 1032;
   1028; 1026; 1025; 640; 576; 544; 528; 520; 516; 514; 513; 3714; 642; 3650; 1030; 530;
   258; 2816; 2688; 2624; 2592; 2576; 2568; 2564; 2562; 2561; 3328; 3200; 3136; 3104; 3088; 3080;
   3076; 3074; 3073; 1664; 1600; 1568; 1552; 1544; 1540; 1538; 1537; 1030; 2054; 2053; 3842; 61440].

(** ascii_to_hol_ebcdic[128], /repo/src/device/card.c:121-163. *)
Definition ascii_to_hol_ebcdic : list Z :=
  [61440; 61440; 61440; 61440; 61440; 61440; 61440; 61440; 61440; 61440; 61440; 61440; 61440; 61440; 61440; 61440;
   61440; 61440; 61440; 61440; 61440; 61440; 61440; 61440; 61440; 61440; 61440; 61440; 61440; 61440; 61440; 61440;
   0; 1154; 6; 66; 1090; 546; 2048; 18; 2066; 1042; 1058; 2048; 578; 1024; 2114; 768;
   512; 256; 128; 64; 32; 16; 8; 4; 2; 1; 130; 1034; 2082; 10; 522; 518;
   34; 2304; 2176; 2112; 2080; 2064; 2056; 2052; 2050; 2049; 1280; 1152; 1088; 1056; 1040; 1032;
   1028; 1026; 1025; 640; 576; 544; 528; 520; 516; 514; 513; 2178; 522; 1154; 1030; 530;
   258; 2816; 2688; 2624; 2592; 2576; 2568; 2564; 2562; 2561; 3328; 3200; 3136; 3104; 3088; 3080;
   3076; 3074; 3073; 1664; 1600; 1568; 1552; 1544; 1540; 1538; 1537; 2306; 2054; 1282; 3842; 61440].

(** ebcdic_to_hol_table[256], /repo/src/device/card.c:167-232. *)
Definition ebcdic_to_hol_table : list Z :=
  [2819; 2305; 2177; 2113; 2081; 2065; 2057; 2053; 2051; 2307; 2179; 2115; 2083; 2067; 2059; 2055;
   3331; 1281; 1153; 1089; 1057; 1041; 1033; 1029; 1027; 1283; 1155; 1091; 1059; 1043; 1035; 1031;
   1795; 769; 641; 577; 545; 529; 521; 517; 515; 771; 643; 579; 547; 531; 523; 519;
   3843; 257; 129; 65; 33; 17; 9; 5; 3; 259; 131; 67; 35; 19; 11; 7;
   0; 2817; 2689; 2625; 2593; 2577; 2569; 2565; 2563; 2306; 2178; 2114; 2082; 2066; 2058; 2054;
   2048; 3329; 3201; 3137; 3105; 3089; 3081; 3077; 3075; 1282; 1154; 1090; 1058; 1042; 1034; 1030;
   1024; 768; 1665; 1601; 1569; 1553; 1545; 1541; 1539; 770; 3072; 578; 546; 530; 522; 518;
   3584; 3841; 3713; 3649; 3617; 3601; 3593; 3589; 3587; 258; 130; 66; 34; 18; 10; 6;
   2818; 2816; 2688; 2624; 2592; 2576; 2568; 2564; 2562; 2561; 2690; 2626; 2594; 2578; 2570; 2566;
   3330; 3328; 3200; 3136; 3104; 3088; 3080; 3076; 3074; 3073; 3202; 3138; 3106; 3090; 3082; 3078;
   1794; 1792; 1664; 1600; 1568; 1552; 1544; 1540; 1538; 1537; 1666; 1602; 1570; 1554; 1546; 1542;
   3842; 3840; 3712; 3648; 3616; 3600; 3592; 3588; 3586; 3585; 3714; 3650; 3618; 3602; 3594; 3590;
   2560; 2304; 2176; 2112; 2080; 2064; 2056; 2052; 2050; 2049; 2691; 2627; 2595; 2579; 2571; 2567;
   1536; 1280; 1152; 1088; 1056; 1040; 1032; 1028; 1026; 1025; 3203; 3139; 3107; 3091; 3083; 3079;
   642; 1793; 640; 576; 544; 528; 520; 516; 514; 513; 1667; 1603; 1571; 1555; 1547; 1543;
   512; 256; 128; 64; 32; 16; 8; 4; 2; 1; 3715; 3651; 3619; 3603; 3595; 3591].
