(** Generated transcription of the constant tables of the C sources. *)
From Coq Require Import List ZArith.
Import ListNotations.
Open Scope Z_scope.

(** ascii_to_ebcdic[128], /repo/src/device/xlat.c:29-62. *)
Definition ascii_to_ebcdic : list Z :=
  [1; 2; 3; 255; 0; 0; 0; 0; 0; 0; 0; 0; 0; 0; 0; 0;
   0; 0; 0; 0; 0; 0; 0; 0; 0; 0; 0; 0; 0; 0; 0; 0;
   64; 90; 127; 123; 91; 108; 80; 125; 77; 93; 92; 78; 107; 96; 75; 97;
   240; 241; 242; 243; 244; 245; 246; 247; 248; 249; 122; 94; 76; 126; 110; 111;
   124; 193; 194; 195; 196; 197; 198; 199; 200; 201; 209; 210; 211; 212; 213; 214;
   215; 216; 217; 226; 227; 228; 229; 230; 231; 232; 233; 255; 224; 255; 95; 109;
   121; 129; 130; 131; 132; 133; 134; 135; 136; 137; 145; 146; 147; 148; 149; 150;
   151; 152; 153; 162; 163; 164; 165; 166; 167; 168; 169; 192; 71; 208; 161; 109].

(** ebcdic_to_ascii[256], /repo/src/device/xlat.c:64-98. *)
Definition ebcdic_to_ascii : list Z :=
  [0; 1; 2; 3; 255; 9; 0; 127; 255; 255; 255; 11; 12; 13; 14; 15;
   16; 17; 18; 25; 10; 8; 8; 255; 24; 255; 255; 255; 255; 255; 255; 255;
   255; 255; 28; 255; 255; 10; 255; 255; 255; 255; 255; 255; 255; 5; 6; 7;
   255; 255; 255; 255; 255; 30; 0; 255; 255; 255; 255; 255; 20; 21; 255; 255;
   32; 255; 255; 255; 255; 255; 255; 255; 255; 255; 91; 46; 60; 40; 43; 124;
   38; 255; 255; 255; 255; 255; 255; 255; 255; 255; 33; 36; 42; 41; 59; 94;
   45; 47; 255; 255; 255; 255; 255; 255; 255; 255; 255; 44; 37; 95; 62; 63;
   255; 255; 255; 255; 255; 255; 255; 255; 255; 96; 58; 35; 64; 39; 61; 34;
   255; 97; 98; 99; 100; 101; 102; 103; 104; 105; 255; 255; 255; 255; 255; 255;
   255; 106; 107; 108; 109; 110; 111; 112; 113; 114; 255; 255; 255; 255; 255; 255;
   255; 126; 115; 116; 117; 118; 119; 120; 121; 122; 255; 255; 255; 255; 255; 255;
   255; 255; 255; 255; 255; 255; 255; 255; 255; 255; 255; 255; 255; 255; 255; 255;
   123; 65; 66; 67; 68; 69; 70; 71; 72; 73; 255; 255; 255; 255; 255; 255;
   125; 74; 75; 76; 77; 78; 79; 80; 81; 82; 255; 255; 255; 255; 255; 255;
   92; 255; 83; 84; 85; 86; 87; 88; 89; 90; 255; 255; 255; 255; 255; 255;
   48; 49; 50; 51; 52; 53; 54; 55; 56; 57; 255; 255; 255; 255; 255; 255].

(** odd_parity[256], /repo/src/device/xlat.c:100-134. *)
Definition odd_parity : list Z :=
  [256; 0; 0; 256; 0; 256; 256; 0; 0; 256; 256; 0; 256; 0; 0; 256;
   0; 256; 256; 0; 256; 0; 0; 256; 256; 0; 0; 256; 0; 256; 256; 0;
   0; 256; 256; 0; 256; 0; 0; 256; 256; 0; 0; 256; 0; 256; 256; 0;
   256; 0; 0; 256; 0; 256; 256; 0; 0; 256; 256; 0; 256; 0; 0; 256;
   0; 256; 256; 0; 256; 0; 0; 256; 256; 0; 0; 256; 0; 256; 256; 0;
   256; 0; 0; 256; 0; 256; 256; 0; 0; 256; 256; 0; 256; 0; 0; 256;
   256; 0; 0; 256; 0; 256; 256; 0; 0; 256; 256; 0; 256; 0; 0; 256;
   0; 256; 256; 0; 256; 0; 0; 256; 256; 0; 0; 256; 0; 256; 256; 0;
   0; 256; 256; 0; 256; 0; 0; 256; 256; 0; 0; 256; 0; 256; 256; 0;
   256; 0; 0; 256; 0; 256; 256; 0; 0; 256; 256; 0; 256; 0; 0; 256;
   256; 0; 0; 256; 0; 256; 256; 0; 0; 256; 256; 0; 256; 0; 0; 256;
   0; 256; 256; 0; 256; 0; 0; 256; 256; 0; 0; 256; 0; 256; 256; 0;
   256; 0; 0; 256; 0; 256; 256; 0; 0; 256; 256; 0; 256; 0; 0; 256;
   0; 256; 256; 0; 256; 0; 0; 256; 256; 0; 0; 256; 0; 256; 256; 0;
   0; 256; 256; 0; 256; 0; 0; 256; 256; 0; 0; 256; 0; 256; 256; 0;
   256; 0; 0; 256; 0; 256; 256; 0; 0; 256; 256; 0; 256; 0; 0; 256].

(** parity_table[64], /repo/src/device/xlat.c:136-146. *)
Definition parity_table : list Z :=
  [0; 64; 64; 0; 64; 0; 0; 64; 64; 0; 0; 64; 0; 64; 64; 0;
   64; 0; 0; 64; 0; 64; 64; 0; 0; 64; 64; 0; 64; 0; 0; 64;
   64; 0; 0; 64; 0; 64; 64; 0; 0; 64; 64; 0; 64; 0; 0; 64;
   0; 64; 64; 0; 64; 0; 0; 64; 64; 0; 0; 64; 0; 64; 64; 0].

(** bcd_to_ebcdic[64], /repo/src/device/xlat.c:148-157. *)
Definition bcd_to_ebcdic : list Z :=
  [64; 241; 242; 243; 244; 245; 246; 247; 248; 249; 240; 123; 124; 125; 126; 127;
   122; 97; 226; 227; 228; 229; 230; 231; 232; 233; 224; 107; 108; 109; 110; 111;
   96; 209; 210; 211; 212; 213; 214; 215; 216; 217; 208; 91; 92; 93; 94; 95;
   80; 193; 194; 195; 196; 197; 198; 199; 200; 201; 192; 75; 76; 77; 78; 79].
