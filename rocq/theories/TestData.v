(** * TestData: the sample streams shipped with the repository, byte for byte.
    Generated from /repo/RTCM3_TEST_DATA; used only by Examples (conformance tests and
    non-vacuity witnesses), never by a general theorem. *)
From Verif Require Import PyBase.

(** RTCM3_TEST_DATA/BASE/msg1005.rtcm3 *)
Definition sample_1005 : list Z :=
  [
   211; 0; 19; 62; 208; 42; 3; 135; 196; 94; 177; 21; 4; 15; 21; 207; 9; 75; 242; 252;
   244; 202; 39; 128; 229
  ].

(** RTCM3_TEST_DATA/BASE/msg1006.rtcm3 *)
Definition sample_1006 : list Z :=
  [
   211; 0; 21; 62; 224; 0; 3; 253; 124; 251; 81; 145; 50; 82; 61; 166; 9; 5; 51; 188;
   80; 122; 0; 0; 3; 197; 30
  ].

(** RTCM3_TEST_DATA/BASE/msg1007.rtcm3 *)
Definition sample_1007 : list Z :=
  [
   211; 0; 12; 62; 240; 42; 7; 85; 78; 75; 78; 79; 87; 78; 0; 106; 222; 111
  ].

(** RTCM3_TEST_DATA/BASE/msg1029.rtcm3 *)
Definition sample_1029 : list Z :=
  [
   211; 0; 39; 64; 80; 23; 0; 132; 115; 110; 21; 30; 85; 84; 70; 45; 56; 32; 208; 191;
   209; 128; 208; 190; 208; 178; 208; 181; 209; 128; 208; 186; 208; 176; 32; 119; 195; 182; 114; 116;
   101; 114; 237; 163; 59
  ].

(** RTCM3_TEST_DATA/BASE/msg1033.rtcm3 *)
Definition sample_1033 : list Z :=
  [
   211; 0; 49; 64; 144; 0; 14; 65; 68; 86; 78; 85; 76; 76; 65; 78; 84; 69; 78; 78;
   65; 233; 5; 97; 48; 48; 48; 49; 7; 85; 78; 73; 67; 79; 82; 69; 7; 117; 110; 107;
   110; 111; 119; 110; 7; 117; 110; 107; 110; 111; 119; 110; 204; 234; 20
  ].

(** RTCM3_TEST_DATA/BASE/msg1230.rtcm3 *)
Definition sample_1230 : list Z :=
  [
   211; 0; 8; 76; 224; 42; 10; 0; 0; 0; 0; 232; 51; 236
  ].

(** RTCM3_TEST_DATA/EPH/msg1019.rtcm3 *)
Definition sample_1019 : list Z :=
  [
   211; 0; 61; 63; 184; 12; 80; 71; 59; 68; 98; 112; 0; 255; 148; 207; 156; 244; 68; 254;
   250; 51; 209; 225; 75; 245; 207; 255; 93; 3; 82; 55; 112; 19; 115; 161; 13; 135; 197; 98;
   112; 0; 8; 17; 157; 185; 208; 0; 92; 39; 23; 6; 194; 25; 18; 163; 75; 232; 119; 255;
   169; 84; 1; 0; 145; 45; 155; 211; 0; 61; 63; 183; 204; 80; 123; 107; 72; 98; 112; 0;
   255; 246; 228; 229; 104; 72; 255; 251; 56; 190; 57; 61; 200; 229; 0; 128; 5; 134; 175; 0;
   13; 26; 161; 13; 12; 31; 98; 112; 255; 221; 61; 143; 219; 42; 0; 88; 38; 223; 124; 31;
   32; 88; 20; 42; 158; 206; 255; 166; 74; 227; 0; 53; 76; 64; 211; 0; 61; 63; 183; 76;
   80; 66; 69; 13; 98; 112; 0; 255; 236; 179; 205; 224; 13; 16; 232; 44; 109; 196; 70; 244;
   9; 14; 170; 1; 23; 19; 70; 8; 29; 161; 12; 195; 173; 98; 112; 0; 7; 149; 12; 83;
   122; 0; 28; 39; 221; 49; 166; 39; 114; 98; 138; 24; 137; 255; 168; 170; 234; 0; 236; 73;
   202
  ].

(** RTCM3_TEST_DATA/EPH/msg1020.rtcm3 *)
Definition sample_1020 : list Z :=
  [
   211; 0; 45; 63; 195; 12; 17; 226; 199; 10; 232; 96; 25; 204; 155; 32; 43; 230; 74; 180;
   108; 20; 1; 25; 16; 51; 80; 194; 181; 212; 128; 13; 3; 51; 145; 193; 24; 182; 226; 212;
   0; 0; 0; 97; 192; 0; 54; 0; 30; 90; 198; 211; 0; 45; 63; 197; 136; 17; 226; 199;
   9; 182; 202; 95; 132; 2; 242; 0; 67; 44; 22; 223; 76; 50; 56; 71; 215; 144; 122; 199;
   64; 128; 45; 8; 210; 121; 0; 40; 182; 226; 212; 0; 0; 0; 97; 192; 0; 54; 0; 65;
   64; 21; 211; 0; 45; 63; 192; 134; 17; 226; 199; 23; 47; 140; 31; 168; 200; 96; 153; 169;
   40; 199; 139; 119; 192; 169; 221; 87; 61; 179; 181; 180; 128; 12; 3; 14; 49; 128; 40; 182;
   226; 220; 0; 0; 0; 89; 192; 0; 53; 0; 24; 56; 209
  ].

(** RTCM3_TEST_DATA/EPH/msg1041.rtcm3 *)
Definition sample_1041 : list Z :=
  [
   211; 0; 61; 65; 17; 140; 83; 225; 175; 128; 162; 64; 1; 133; 175; 240; 3; 149; 45; 192;
   0; 46; 43; 248; 239; 255; 232; 2; 192; 97; 74; 94; 6; 226; 36; 75; 119; 123; 97; 107;
   1; 49; 16; 213; 202; 236; 74; 50; 19; 109; 169; 120; 128; 241; 16; 171; 255; 40; 88; 7;
   27; 250; 144; 0; 171; 244; 16; 211; 0; 61; 65; 16; 204; 91; 218; 245; 255; 191; 128; 1;
   130; 187; 244; 2; 44; 144; 112; 0; 33; 202; 67; 188; 1; 192; 1; 188; 52; 39; 181; 72;
   202; 201; 151; 121; 90; 96; 174; 0; 221; 223; 75; 202; 235; 211; 29; 4; 19; 108; 14; 5;
   228; 206; 114; 255; 129; 36; 9; 202; 203; 216; 0; 143; 181; 236; 211; 0; 61; 65; 16; 140;
   81; 221; 72; 127; 194; 192; 1; 133; 175; 240; 0; 125; 13; 192; 0; 5; 230; 94; 216; 1;
   200; 0; 27; 89; 97; 133; 179; 216; 224; 132; 141; 182; 97; 107; 0; 243; 217; 100; 202; 235;
   192; 70; 104; 218; 200; 82; 127; 80; 123; 20; 255; 230; 36; 82; 233; 137; 232; 0; 250; 92;
   234
  ].

(** RTCM3_TEST_DATA/EPH/msg1042.rtcm3 *)
Definition sample_1042 : list Z :=
  [
   211; 0; 64; 65; 34; 198; 242; 1; 34; 209; 130; 184; 0; 0; 89; 250; 233; 215; 113; 0;
   43; 110; 73; 168; 193; 23; 150; 188; 18; 17; 0; 144; 81; 87; 255; 113; 212; 162; 157; 11;
   12; 21; 192; 1; 150; 148; 139; 41; 20; 0; 15; 40; 66; 190; 156; 24; 20; 238; 81; 111;
   147; 255; 237; 40; 194; 176; 70; 171; 17; 132; 211; 0; 64; 65; 35; 6; 242; 1; 53; 5;
   130; 184; 0; 0; 87; 23; 53; 50; 72; 0; 49; 18; 73; 4; 247; 190; 138; 232; 20; 191;
   0; 84; 254; 241; 128; 62; 84; 162; 156; 162; 12; 21; 192; 0; 190; 146; 148; 93; 104; 0;
   50; 40; 51; 44; 110; 23; 29; 239; 83; 125; 103; 63; 237; 22; 2; 16; 0; 140; 164; 180;
   211; 0; 64; 65; 34; 6; 242; 29; 192; 129; 130; 184; 0; 0; 0; 205; 69; 47; 237; 6;
   129; 76; 8; 227; 23; 138; 78; 137; 150; 168; 128; 165; 72; 33; 128; 30; 185; 92; 245; 239;
   236; 21; 207; 250; 83; 79; 151; 34; 135; 255; 197; 43; 22; 18; 151; 16; 226; 224; 200; 187;
   18; 255; 250; 67; 135; 79; 224; 42; 65; 41
  ].

(** RTCM3_TEST_DATA/EPH/msg1045.rtcm3 *)
Definition sample_1045 : list Z :=
  [
   211; 0; 64; 65; 83; 81; 124; 48; 107; 253; 137; 254; 0; 63; 253; 173; 254; 108; 53; 199;
   242; 80; 165; 147; 234; 252; 101; 147; 244; 8; 0; 158; 35; 0; 50; 57; 255; 255; 255; 253;
   254; 0; 1; 2; 95; 51; 171; 32; 0; 162; 110; 12; 230; 81; 164; 146; 34; 126; 176; 175;
   252; 3; 144; 48; 14; 0; 0; 5; 231; 13; 211; 0; 64; 65; 83; 145; 124; 41; 107; 3;
   93; 249; 160; 63; 251; 181; 253; 30; 55; 203; 243; 56; 160; 2; 35; 193; 145; 27; 244; 84;
   0; 24; 26; 108; 58; 213; 255; 255; 255; 253; 249; 160; 1; 1; 28; 128; 192; 224; 0; 82;
   110; 121; 129; 145; 118; 185; 176; 155; 180; 207; 252; 18; 255; 207; 242; 0; 0; 198; 75; 72;
   211; 0; 64; 65; 83; 209; 124; 48; 107; 253; 197; 254; 0; 0; 1; 181; 254; 182; 40; 91;
   241; 144; 164; 131; 240; 234; 86; 127; 244; 136; 0; 74; 116; 196; 49; 213; 255; 255; 255; 253;
   254; 0; 0; 18; 95; 50; 29; 224; 2; 66; 110; 15; 19; 225; 159; 164; 14; 23; 150; 63;
   252; 4; 64; 56; 17; 0; 0; 209; 14; 23
  ].

(** RTCM3_TEST_DATA/EPH/msg1046.rtcm3 *)
Definition sample_1046 : list Z :=
  [
   211; 0; 63; 65; 103; 211; 20; 24; 107; 225; 217; 159; 0; 63; 255; 115; 253; 229; 80; 104;
   39; 0; 119; 37; 103; 185; 44; 228; 30; 60; 0; 128; 239; 180; 96; 98; 168; 19; 245; 213;
   159; 0; 1; 38; 75; 237; 253; 160; 0; 98; 120; 178; 150; 160; 198; 15; 60; 182; 164; 223;
   252; 124; 176; 108; 29; 0; 214; 186; 147; 211; 0; 63; 65; 102; 147; 20; 24; 107; 254; 201;
   159; 0; 0; 6; 43; 248; 111; 127; 135; 235; 20; 125; 97; 224; 133; 210; 159; 239; 116; 0;
   149; 35; 7; 226; 110; 168; 19; 89; 5; 159; 0; 1; 75; 157; 148; 241; 159; 254; 98; 134;
   173; 63; 227; 96; 28; 5; 132; 194; 255; 251; 248; 223; 191; 237; 0; 40; 75; 140; 211; 0;
   63; 65; 102; 19; 20; 24; 107; 225; 153; 159; 0; 63; 244; 109; 251; 161; 126; 60; 47; 252;
   126; 4; 75; 243; 116; 112; 38; 24; 1; 140; 250; 228; 92; 250; 168; 20; 13; 221; 159; 0;
   1; 198; 78; 118; 5; 0; 0; 50; 119; 85; 121; 0; 213; 33; 194; 253; 135; 159; 252; 117;
   15; 199; 238; 0; 249; 102; 43
  ].

(** RTCM3_TEST_DATA/MSM7/msg1077.rtcm3 *)
Definition sample_1077 : list Z :=
  [
   211; 1; 8; 67; 80; 42; 95; 60; 1; 66; 0; 36; 34; 24; 18; 197; 128; 0; 0; 0;
   32; 1; 0; 0; 95; 215; 254; 162; 150; 144; 134; 162; 156; 160; 132; 150; 154; 160; 0; 0;
   0; 0; 0; 23; 8; 182; 66; 244; 252; 198; 74; 103; 77; 232; 53; 106; 166; 122; 152; 11;
   135; 236; 192; 117; 5; 130; 2; 56; 91; 127; 186; 251; 109; 238; 224; 55; 28; 30; 197; 170;
   91; 122; 218; 197; 138; 198; 152; 190; 157; 184; 151; 27; 120; 138; 119; 107; 133; 120; 187; 253;
   120; 32; 39; 52; 107; 144; 166; 231; 100; 30; 108; 65; 243; 8; 102; 88; 70; 96; 163; 187;
   76; 187; 224; 37; 241; 31; 31; 234; 249; 85; 235; 53; 67; 226; 233; 133; 226; 205; 47; 238;
   76; 253; 238; 67; 90; 29; 203; 86; 22; 31; 189; 255; 34; 61; 255; 154; 226; 26; 242; 234;
   28; 177; 202; 7; 103; 136; 9; 209; 218; 26; 57; 44; 27; 178; 129; 238; 102; 97; 239; 248;
   182; 243; 188; 239; 51; 206; 243; 60; 239; 51; 42; 244; 61; 15; 51; 208; 243; 61; 15; 59;
   208; 243; 189; 15; 56; 0; 0; 156; 43; 10; 194; 208; 188; 50; 11; 194; 48; 164; 38; 10;
   131; 16; 200; 47; 10; 130; 176; 168; 43; 10; 128; 68; 217; 195; 51; 173; 1; 182; 194; 238;
   140; 16; 24; 98; 153; 176; 48; 120; 245; 1; 202; 64; 190; 129; 55; 156; 114; 58; 174; 2;
   187; 240; 168; 195; 209; 158; 96; 65; 208; 162
  ].

(** RTCM3_TEST_DATA/MSM7/msg1087.rtcm3 *)
Definition sample_1087 : list Z :=
  [
   211; 0; 185; 67; 240; 42; 143; 104; 86; 2; 0; 36; 48; 56; 6; 0; 0; 0; 0; 0;
   32; 128; 0; 0; 125; 254; 156; 152; 146; 126; 142; 132; 152; 120; 14; 214; 150; 213; 168; 178;
   244; 179; 121; 150; 74; 132; 97; 255; 216; 86; 0; 26; 250; 235; 243; 87; 152; 158; 133; 113;
   236; 165; 63; 11; 213; 238; 160; 62; 33; 63; 205; 1; 124; 223; 61; 255; 158; 160; 40; 97;
   163; 136; 186; 90; 58; 126; 128; 7; 250; 233; 250; 84; 219; 254; 105; 127; 251; 151; 66; 1;
   198; 211; 248; 194; 163; 243; 22; 179; 246; 249; 109; 255; 242; 10; 0; 61; 253; 233; 230; 151;
   235; 175; 36; 32; 12; 44; 34; 3; 100; 244; 60; 239; 67; 206; 226; 61; 15; 59; 208; 243;
   189; 15; 59; 208; 243; 128; 2; 192; 172; 40; 10; 194; 160; 196; 53; 12; 2; 240; 188; 48;
   10; 194; 224; 74; 122; 155; 100; 83; 80; 152; 32; 107; 197; 93; 202; 222; 155; 19; 57; 102;
   62; 100; 121; 56; 183; 129; 104; 192; 172; 135; 215
  ].

(** RTCM3_TEST_DATA/MSM7/msg1097.rtcm3 *)
Definition sample_1097 : list Z :=
  [
   211; 0; 170; 68; 144; 42; 95; 60; 1; 66; 0; 36; 84; 0; 0; 161; 0; 0; 0; 0;
   4; 0; 0; 128; 127; 250; 210; 226; 210; 146; 186; 112; 0; 0; 6; 118; 2; 167; 101; 44;
   237; 83; 3; 245; 253; 176; 47; 63; 93; 2; 144; 4; 143; 157; 162; 251; 212; 120; 242; 171;
   144; 114; 24; 34; 75; 131; 217; 56; 4; 136; 0; 133; 54; 63; 87; 101; 85; 15; 251; 254;
   0; 89; 39; 244; 210; 31; 239; 116; 144; 59; 11; 32; 65; 166; 8; 7; 168; 104; 15; 31;
   0; 1; 180; 96; 3; 241; 215; 142; 99; 199; 150; 66; 232; 1; 99; 224; 3; 26; 203; 134;
   223; 175; 43; 67; 140; 225; 60; 143; 19; 200; 241; 188; 175; 24; 0; 76; 22; 4; 225; 72;
   78; 22; 134; 1; 144; 84; 23; 5; 225; 136; 37; 146; 76; 150; 130; 137; 36; 8; 221; 97;
   144; 103; 0; 142; 9; 139; 96; 24; 180; 114; 140; 234; 232; 59; 7; 57
  ].

(** RTCM3_TEST_DATA/MSM7/msg1127.rtcm3 *)
Definition sample_1127 : list Z :=
  [
   211; 0; 194; 70; 112; 42; 95; 59; 38; 130; 0; 36; 0; 188; 1; 64; 36; 0; 0; 0;
   32; 2; 0; 0; 125; 245; 79; 240; 137; 42; 48; 9; 41; 201; 74; 32; 0; 0; 0; 0;
   253; 185; 6; 171; 15; 151; 170; 106; 55; 232; 123; 253; 138; 4; 248; 4; 129; 16; 125; 104;
   0; 40; 65; 224; 145; 252; 0; 54; 168; 227; 68; 44; 118; 152; 103; 81; 248; 49; 58; 0;
   171; 206; 9; 247; 189; 148; 163; 219; 132; 167; 63; 227; 226; 66; 225; 74; 30; 103; 56; 0;
   222; 134; 32; 204; 125; 129; 220; 222; 33; 233; 59; 0; 199; 27; 96; 46; 145; 64; 34; 142;
   63; 102; 230; 159; 116; 229; 1; 208; 210; 95; 130; 8; 96; 83; 214; 225; 162; 246; 150; 3;
   202; 237; 58; 175; 69; 128; 242; 216; 15; 43; 206; 243; 188; 207; 48; 0; 40; 11; 130; 80;
   152; 49; 9; 195; 0; 168; 45; 12; 130; 240; 192; 45; 3; 94; 71; 83; 3; 16; 8; 233;
   5; 36; 82; 24; 157; 72; 216; 225; 167; 195; 224; 18; 159; 27; 170; 38; 70; 143; 103; 183
  ].

(** RTCM3_TEST_DATA/MSM7/msg1137.rtcm3 *)
Definition sample_1137 : list Z :=
  [
   211; 0; 96; 71; 16; 42; 95; 60; 1; 64; 0; 36; 50; 0; 0; 0; 0; 0; 0; 0;
   0; 128; 2; 0; 126; 251; 17; 2; 0; 4; 218; 4; 147; 128; 219; 255; 104; 2; 2; 55;
   156; 37; 129; 7; 147; 116; 125; 157; 60; 193; 65; 211; 10; 128; 155; 192; 224; 148; 201; 65;
   229; 67; 65; 243; 167; 223; 48; 181; 127; 82; 140; 175; 27; 202; 241; 188; 175; 27; 202; 4;
   225; 96; 76; 21; 4; 97; 80; 9; 21; 19; 26; 149; 165; 39; 200; 212; 17; 147; 32; 243;
   115; 68
  ].

(** RTCM3_TEST_DATA/reference-3msg.rtcm3 *)
Definition ref3 : list Z :=
  [
   211; 0; 239; 67; 80; 42; 100; 116; 79; 2; 0; 36; 34; 24; 10; 69; 128; 0; 0; 0;
   32; 1; 0; 0; 95; 215; 250; 82; 122; 66; 58; 122; 138; 18; 50; 74; 168; 0; 0; 0;
   0; 5; 112; 141; 194; 248; 192; 16; 113; 77; 185; 247; 97; 9; 124; 44; 19; 144; 32; 97;
   4; 124; 194; 12; 208; 18; 95; 71; 254; 20; 18; 223; 69; 80; 25; 218; 177; 172; 66; 135;
   90; 208; 126; 93; 155; 143; 209; 199; 148; 157; 82; 31; 201; 135; 112; 201; 15; 38; 246; 109;
   138; 38; 224; 241; 10; 128; 32; 174; 19; 102; 94; 174; 90; 70; 253; 25; 11; 6; 169; 188;
   134; 84; 118; 1; 211; 114; 2; 18; 106; 134; 241; 192; 6; 227; 86; 7; 96; 188; 126; 249;
   110; 252; 103; 184; 124; 115; 114; 251; 119; 116; 251; 91; 46; 2; 148; 228; 130; 130; 46; 121;
   144; 72; 121; 203; 22; 54; 13; 147; 76; 217; 52; 205; 147; 76; 217; 54; 109; 147; 82; 217;
   181; 45; 155; 76; 217; 180; 0; 0; 11; 66; 128; 156; 47; 12; 2; 240; 184; 39; 10; 131;
   16; 204; 48; 11; 130; 240; 188; 35; 8; 131; 140; 104; 232; 17; 235; 63; 248; 63; 1; 126;
   224; 249; 120; 11; 208; 145; 214; 235; 157; 242; 157; 46; 250; 47; 127; 83; 250; 116; 71; 132;
   152; 0; 109; 16; 102; 211; 0; 160; 67; 240; 42; 160; 7; 51; 192; 0; 36; 1; 3; 65;
   128; 0; 0; 0; 0; 32; 128; 0; 0; 127; 218; 106; 18; 10; 34; 74; 6; 3; 221; 76;
   166; 3; 116; 16; 139; 140; 156; 126; 234; 13; 183; 212; 158; 221; 133; 208; 5; 102; 200; 138;
   233; 163; 41; 122; 78; 151; 135; 48; 196; 136; 141; 176; 200; 250; 114; 15; 86; 183; 121; 20;
   145; 157; 113; 28; 146; 250; 112; 215; 122; 18; 85; 134; 60; 14; 5; 241; 8; 131; 114; 145;
   3; 97; 55; 3; 252; 97; 132; 1; 172; 254; 48; 93; 4; 87; 15; 4; 119; 184; 54; 45;
   99; 98; 214; 53; 77; 59; 98; 214; 48; 237; 139; 88; 0; 43; 10; 195; 16; 208; 50; 12;
   195; 16; 200; 42; 12; 67; 48; 31; 210; 79; 100; 44; 184; 104; 126; 78; 60; 230; 127; 158;
   254; 194; 237; 38; 35; 4; 70; 160; 74; 216; 169; 211; 0; 239; 67; 80; 42; 100; 116; 94;
   162; 0; 36; 34; 24; 10; 69; 128; 0; 0; 0; 32; 1; 0; 0; 95; 215; 250; 82; 122;
   66; 58; 122; 138; 18; 50; 74; 168; 0; 0; 0; 0; 5; 108; 142; 195; 24; 208; 14; 113;
   205; 185; 231; 95; 10; 124; 44; 19; 152; 32; 97; 4; 124; 194; 12; 216; 18; 95; 71; 254;
   20; 18; 216; 63; 227; 157; 133; 193; 222; 193; 122; 228; 23; 169; 71; 135; 109; 16; 141; 183;
   253; 179; 169; 10; 13; 138; 236; 240; 212; 90; 151; 54; 17; 117; 116; 143; 105; 144; 253; 12;
   102; 55; 70; 49; 44; 128; 250; 163; 135; 147; 97; 7; 61; 252; 254; 168; 239; 254; 231; 231;
   2; 10; 27; 129; 251; 175; 255; 99; 17; 132; 22; 233; 131; 10; 70; 3; 22; 4; 133; 246;
   225; 133; 218; 157; 3; 208; 112; 131; 189; 181; 249; 56; 68; 249; 114; 248; 54; 13; 147; 76;
   217; 52; 205; 147; 76; 217; 182; 109; 155; 82; 217; 181; 45; 155; 76; 217; 180; 0; 0; 11;
   66; 128; 156; 47; 11; 194; 224; 180; 40; 10; 131; 0; 204; 49; 11; 66; 240; 188; 35; 8;
   131; 163; 126; 217; 156; 226; 33; 22; 194; 122; 255; 122; 0; 204; 55; 131; 137; 135; 32; 206;
   134; 221; 150; 251; 79; 129; 87; 1; 76; 64; 0; 126; 240; 36; 147; 121
  ].

(** RTCM3_TEST_DATA/reference-3msg-1brokenCRC.rtcm3 *)
Definition ref3_1broken : list Z :=
  [
   211; 0; 239; 67; 80; 42; 100; 116; 79; 2; 0; 36; 34; 24; 10; 69; 128; 0; 0; 0;
   32; 1; 0; 0; 95; 215; 250; 82; 122; 66; 58; 122; 138; 18; 50; 74; 168; 0; 0; 0;
   0; 5; 112; 141; 194; 248; 192; 16; 113; 77; 185; 247; 97; 9; 124; 44; 19; 144; 32; 97;
   4; 124; 194; 12; 208; 18; 95; 71; 254; 20; 18; 223; 69; 80; 25; 218; 177; 172; 66; 135;
   90; 208; 126; 93; 155; 143; 209; 199; 148; 157; 82; 31; 201; 135; 112; 201; 15; 38; 246; 109;
   138; 38; 224; 241; 10; 128; 32; 174; 19; 102; 94; 174; 90; 70; 253; 25; 11; 6; 169; 188;
   134; 84; 118; 1; 211; 114; 2; 18; 106; 134; 241; 192; 6; 227; 86; 7; 96; 188; 126; 249;
   110; 252; 103; 184; 124; 115; 114; 251; 119; 116; 251; 91; 46; 2; 148; 228; 130; 130; 46; 121;
   144; 72; 121; 203; 22; 54; 13; 147; 76; 217; 52; 205; 147; 76; 217; 54; 109; 147; 82; 217;
   181; 45; 155; 76; 217; 180; 0; 0; 11; 66; 128; 156; 47; 12; 2; 240; 184; 39; 10; 131;
   16; 204; 48; 11; 130; 240; 188; 35; 8; 131; 140; 104; 232; 17; 235; 63; 248; 63; 1; 126;
   224; 249; 120; 11; 208; 145; 214; 235; 157; 242; 157; 46; 250; 47; 127; 83; 250; 116; 71; 132;
   152; 0; 109; 48; 48; 211; 0; 160; 67; 240; 42; 160; 7; 51; 192; 0; 36; 1; 3; 65;
   128; 0; 0; 0; 0; 32; 128; 0; 0; 127; 218; 106; 18; 10; 34; 74; 6; 3; 221; 76;
   166; 3; 116; 16; 139; 140; 156; 126; 234; 13; 183; 212; 158; 221; 133; 208; 5; 102; 200; 138;
   233; 163; 41; 122; 78; 151; 135; 48; 196; 136; 141; 176; 200; 250; 114; 15; 86; 183; 121; 20;
   145; 157; 113; 28; 146; 250; 112; 215; 122; 18; 85; 134; 60; 14; 5; 241; 8; 131; 114; 145;
   3; 97; 55; 3; 252; 97; 132; 1; 172; 254; 48; 93; 4; 87; 15; 4; 119; 184; 54; 45;
   99; 98; 214; 53; 77; 59; 98; 214; 48; 237; 139; 88; 0; 43; 10; 195; 16; 208; 50; 12;
   195; 16; 200; 42; 12; 67; 48; 31; 210; 79; 100; 44; 184; 104; 126; 78; 60; 230; 127; 158;
   254; 194; 237; 38; 35; 4; 70; 160; 74; 216; 169; 211; 0; 239; 67; 80; 42; 100; 116; 94;
   162; 0; 36; 34; 24; 10; 69; 128; 0; 0; 0; 32; 1; 0; 0; 95; 215; 250; 82; 122;
   66; 58; 122; 138; 18; 50; 74; 168; 0; 0; 0; 0; 5; 108; 142; 195; 24; 208; 14; 113;
   205; 185; 231; 95; 10; 124; 44; 19; 152; 32; 97; 4; 124; 194; 12; 216; 18; 95; 71; 254;
   20; 18; 216; 63; 227; 157; 133; 193; 222; 193; 122; 228; 23; 169; 71; 135; 109; 16; 141; 183;
   253; 179; 169; 10; 13; 138; 236; 240; 212; 90; 151; 54; 17; 117; 116; 143; 105; 144; 253; 12;
   102; 55; 70; 49; 44; 128; 250; 163; 135; 147; 97; 7; 61; 252; 254; 168; 239; 254; 231; 231;
   2; 10; 27; 129; 251; 175; 255; 99; 17; 132; 22; 233; 131; 10; 70; 3; 22; 4; 133; 246;
   225; 133; 218; 157; 3; 208; 112; 131; 189; 181; 249; 56; 68; 249; 114; 248; 54; 13; 147; 76;
   217; 52; 205; 147; 76; 217; 182; 109; 155; 82; 217; 181; 45; 155; 76; 217; 180; 0; 0; 11;
   66; 128; 156; 47; 11; 194; 224; 180; 40; 10; 131; 0; 204; 49; 11; 66; 240; 188; 35; 8;
   131; 163; 126; 217; 156; 226; 33; 22; 194; 122; 255; 122; 0; 204; 55; 131; 137; 135; 32; 206;
   134; 221; 150; 251; 79; 129; 87; 1; 76; 64; 0; 126; 240; 36; 147; 121
  ].

(** RTCM3_TEST_DATA/reference-3msg-2brokenCRC.rtcm3 *)
Definition ref3_2broken : list Z :=
  [
   211; 0; 239; 67; 80; 42; 100; 116; 79; 2; 0; 36; 34; 24; 10; 69; 128; 0; 0; 0;
   32; 1; 0; 0; 95; 215; 250; 82; 122; 66; 58; 122; 138; 18; 50; 74; 168; 0; 0; 0;
   0; 5; 112; 141; 194; 248; 192; 16; 113; 77; 185; 247; 97; 9; 124; 44; 19; 144; 32; 97;
   4; 124; 194; 12; 208; 18; 95; 71; 254; 20; 18; 223; 69; 80; 25; 218; 177; 172; 66; 135;
   90; 208; 126; 93; 155; 143; 209; 199; 148; 157; 82; 31; 201; 135; 112; 201; 15; 38; 246; 109;
   138; 38; 224; 241; 10; 128; 32; 174; 19; 102; 94; 174; 90; 70; 253; 25; 11; 6; 169; 188;
   134; 84; 118; 1; 211; 114; 2; 18; 106; 134; 241; 192; 6; 227; 86; 7; 96; 188; 126; 249;
   110; 252; 103; 184; 124; 115; 114; 251; 119; 116; 251; 91; 46; 2; 148; 228; 130; 130; 46; 121;
   144; 72; 121; 203; 22; 54; 13; 147; 76; 217; 52; 205; 147; 76; 217; 54; 109; 147; 82; 217;
   181; 45; 155; 76; 217; 180; 0; 0; 11; 66; 128; 156; 47; 12; 2; 240; 184; 39; 10; 131;
   16; 204; 48; 11; 130; 240; 188; 35; 8; 131; 140; 104; 232; 17; 235; 63; 248; 63; 1; 126;
   224; 249; 120; 11; 208; 145; 214; 235; 157; 242; 157; 46; 250; 47; 127; 83; 250; 116; 71; 132;
   152; 0; 109; 48; 48; 211; 0; 160; 67; 240; 42; 160; 7; 51; 192; 0; 36; 1; 3; 65;
   128; 0; 0; 0; 0; 32; 128; 0; 0; 127; 218; 106; 18; 10; 34; 74; 6; 3; 221; 76;
   166; 3; 116; 16; 139; 140; 156; 126; 234; 13; 183; 212; 158; 221; 133; 208; 5; 102; 200; 138;
   233; 163; 41; 122; 78; 151; 135; 48; 196; 136; 141; 176; 200; 250; 114; 15; 86; 183; 121; 20;
   145; 157; 113; 28; 146; 250; 112; 215; 122; 18; 85; 134; 60; 14; 5; 241; 8; 131; 114; 145;
   3; 97; 55; 3; 252; 97; 132; 1; 172; 254; 48; 93; 4; 87; 15; 4; 119; 184; 54; 45;
   99; 98; 214; 53; 77; 59; 98; 214; 48; 237; 139; 88; 0; 43; 10; 195; 16; 208; 50; 12;
   195; 16; 200; 42; 12; 67; 48; 31; 210; 79; 100; 44; 184; 104; 126; 78; 60; 230; 127; 158;
   254; 194; 237; 38; 35; 48; 48; 160; 74; 216; 169; 211; 0; 239; 67; 80; 42; 100; 116; 94;
   162; 0; 36; 34; 24; 10; 69; 128; 0; 0; 0; 32; 1; 0; 0; 95; 215; 250; 82; 122;
   66; 58; 122; 138; 18; 50; 74; 168; 0; 0; 0; 0; 5; 108; 142; 195; 24; 208; 14; 113;
   205; 185; 231; 95; 10; 124; 44; 19; 152; 32; 97; 4; 124; 194; 12; 216; 18; 95; 71; 254;
   20; 18; 216; 63; 227; 157; 133; 193; 222; 193; 122; 228; 23; 169; 71; 135; 109; 16; 141; 183;
   253; 179; 169; 10; 13; 138; 236; 240; 212; 90; 151; 54; 17; 117; 116; 143; 105; 144; 253; 12;
   102; 55; 70; 49; 44; 128; 250; 163; 135; 147; 97; 7; 61; 252; 254; 168; 239; 254; 231; 231;
   2; 10; 27; 129; 251; 175; 255; 99; 17; 132; 22; 233; 131; 10; 70; 3; 22; 4; 133; 246;
   225; 133; 218; 157; 3; 208; 112; 131; 189; 181; 249; 56; 68; 249; 114; 248; 54; 13; 147; 76;
   217; 52; 205; 147; 76; 217; 182; 109; 155; 82; 217; 181; 45; 155; 76; 217; 180; 0; 0; 11;
   66; 128; 156; 47; 11; 194; 224; 180; 40; 10; 131; 0; 204; 49; 11; 66; 240; 188; 35; 8;
   131; 163; 126; 217; 156; 226; 33; 22; 194; 122; 255; 122; 0; 204; 55; 131; 137; 135; 32; 206;
   134; 221; 150; 251; 79; 129; 87; 1; 76; 64; 0; 126; 240; 36; 147; 121
  ].

(** RTCM3_TEST_DATA/reference-3msg-interleaved.rtcm3 *)
Definition ref3_interleaved : list Z :=
  [
   211; 0; 239; 67; 80; 42; 100; 116; 79; 2; 0; 36; 34; 24; 10; 69; 128; 0; 0; 0;
   32; 1; 0; 0; 95; 215; 250; 82; 122; 66; 58; 122; 138; 18; 50; 74; 168; 0; 0; 0;
   0; 5; 112; 141; 194; 248; 192; 16; 113; 77; 185; 247; 97; 9; 124; 44; 19; 144; 32; 97;
   4; 124; 194; 12; 208; 18; 95; 71; 254; 20; 18; 223; 69; 80; 25; 218; 177; 172; 66; 135;
   90; 208; 126; 93; 155; 143; 209; 199; 148; 157; 82; 31; 201; 135; 112; 201; 15; 38; 246; 109;
   138; 38; 224; 241; 10; 128; 32; 174; 19; 102; 94; 174; 90; 70; 253; 25; 11; 6; 169; 188;
   134; 84; 118; 1; 211; 114; 2; 18; 106; 134; 241; 192; 6; 227; 86; 7; 96; 188; 126; 249;
   110; 252; 103; 184; 124; 115; 114; 251; 119; 116; 251; 91; 46; 2; 148; 228; 130; 130; 46; 121;
   144; 72; 121; 203; 22; 54; 13; 147; 76; 217; 52; 205; 147; 76; 217; 54; 109; 147; 82; 217;
   181; 45; 155; 76; 217; 180; 0; 0; 11; 66; 128; 156; 47; 12; 2; 240; 184; 39; 10; 131;
   16; 204; 48; 11; 130; 240; 188; 35; 8; 131; 140; 104; 232; 17; 235; 63; 248; 63; 1; 126;
   224; 249; 120; 11; 208; 145; 214; 235; 157; 242; 157; 46; 250; 47; 127; 83; 250; 116; 71; 132;
   152; 0; 109; 16; 102; 45; 211; 0; 160; 67; 240; 42; 160; 7; 51; 192; 0; 36; 1; 3;
   65; 128; 0; 0; 0; 0; 32; 128; 0; 0; 127; 218; 106; 18; 10; 34; 74; 6; 3; 221;
   76; 166; 3; 116; 16; 139; 140; 156; 126; 234; 13; 183; 212; 158; 221; 133; 208; 5; 102; 200;
   138; 233; 163; 41; 122; 78; 151; 135; 48; 196; 136; 141; 176; 200; 250; 114; 15; 86; 183; 121;
   20; 145; 157; 113; 28; 146; 250; 112; 215; 122; 18; 85; 134; 60; 14; 5; 241; 8; 131; 114;
   145; 3; 97; 55; 3; 252; 97; 132; 1; 172; 254; 48; 93; 4; 87; 15; 4; 119; 184; 54;
   45; 99; 98; 214; 53; 77; 59; 98; 214; 48; 237; 139; 88; 0; 43; 10; 195; 16; 208; 50;
   12; 195; 16; 200; 42; 12; 67; 48; 31; 210; 79; 100; 44; 184; 104; 126; 78; 60; 230; 127;
   158; 254; 194; 237; 38; 35; 4; 70; 160; 74; 216; 169; 45; 211; 0; 239; 67; 80; 42; 100;
   116; 94; 162; 0; 36; 34; 24; 10; 69; 128; 0; 0; 0; 32; 1; 0; 0; 95; 215; 250;
   82; 122; 66; 58; 122; 138; 18; 50; 74; 168; 0; 0; 0; 0; 5; 108; 142; 195; 24; 208;
   14; 113; 205; 185; 231; 95; 10; 124; 44; 19; 152; 32; 97; 4; 124; 194; 12; 216; 18; 95;
   71; 254; 20; 18; 216; 63; 227; 157; 133; 193; 222; 193; 122; 228; 23; 169; 71; 135; 109; 16;
   141; 183; 253; 179; 169; 10; 13; 138; 236; 240; 212; 90; 151; 54; 17; 117; 116; 143; 105; 144;
   253; 12; 102; 55; 70; 49; 44; 128; 250; 163; 135; 147; 97; 7; 61; 252; 254; 168; 239; 254;
   231; 231; 2; 10; 27; 129; 251; 175; 255; 99; 17; 132; 22; 233; 131; 10; 70; 3; 22; 4;
   133; 246; 225; 133; 218; 157; 3; 208; 112; 131; 189; 181; 249; 56; 68; 249; 114; 248; 54; 13;
   147; 76; 217; 52; 205; 147; 76; 217; 182; 109; 155; 82; 217; 181; 45; 155; 76; 217; 180; 0;
   0; 11; 66; 128; 156; 47; 11; 194; 224; 180; 40; 10; 131; 0; 204; 49; 11; 66; 240; 188;
   35; 8; 131; 163; 126; 217; 156; 226; 33; 22; 194; 122; 255; 122; 0; 204; 55; 131; 137; 135;
   32; 206; 134; 221; 150; 251; 79; 129; 87; 1; 76; 64; 0; 126; 240; 36; 147; 121
  ].

(** RTCM3_TEST_DATA/reference-3msg-noizeAfter.rtcm3 *)
Definition ref3_after : list Z :=
  [
   211; 0; 239; 67; 80; 42; 100; 116; 79; 2; 0; 36; 34; 24; 10; 69; 128; 0; 0; 0;
   32; 1; 0; 0; 95; 215; 250; 82; 122; 66; 58; 122; 138; 18; 50; 74; 168; 0; 0; 0;
   0; 5; 112; 141; 194; 248; 192; 16; 113; 77; 185; 247; 97; 9; 124; 44; 19; 144; 32; 97;
   4; 124; 194; 12; 208; 18; 95; 71; 254; 20; 18; 223; 69; 80; 25; 218; 177; 172; 66; 135;
   90; 208; 126; 93; 155; 143; 209; 199; 148; 157; 82; 31; 201; 135; 112; 201; 15; 38; 246; 109;
   138; 38; 224; 241; 10; 128; 32; 174; 19; 102; 94; 174; 90; 70; 253; 25; 11; 6; 169; 188;
   134; 84; 118; 1; 211; 114; 2; 18; 106; 134; 241; 192; 6; 227; 86; 7; 96; 188; 126; 249;
   110; 252; 103; 184; 124; 115; 114; 251; 119; 116; 251; 91; 46; 2; 148; 228; 130; 130; 46; 121;
   144; 72; 121; 203; 22; 54; 13; 147; 76; 217; 52; 205; 147; 76; 217; 54; 109; 147; 82; 217;
   181; 45; 155; 76; 217; 180; 0; 0; 11; 66; 128; 156; 47; 12; 2; 240; 184; 39; 10; 131;
   16; 204; 48; 11; 130; 240; 188; 35; 8; 131; 140; 104; 232; 17; 235; 63; 248; 63; 1; 126;
   224; 249; 120; 11; 208; 145; 214; 235; 157; 242; 157; 46; 250; 47; 127; 83; 250; 116; 71; 132;
   152; 0; 109; 16; 102; 211; 0; 160; 67; 240; 42; 160; 7; 51; 192; 0; 36; 1; 3; 65;
   128; 0; 0; 0; 0; 32; 128; 0; 0; 127; 218; 106; 18; 10; 34; 74; 6; 3; 221; 76;
   166; 3; 116; 16; 139; 140; 156; 126; 234; 13; 183; 212; 158; 221; 133; 208; 5; 102; 200; 138;
   233; 163; 41; 122; 78; 151; 135; 48; 196; 136; 141; 176; 200; 250; 114; 15; 86; 183; 121; 20;
   145; 157; 113; 28; 146; 250; 112; 215; 122; 18; 85; 134; 60; 14; 5; 241; 8; 131; 114; 145;
   3; 97; 55; 3; 252; 97; 132; 1; 172; 254; 48; 93; 4; 87; 15; 4; 119; 184; 54; 45;
   99; 98; 214; 53; 77; 59; 98; 214; 48; 237; 139; 88; 0; 43; 10; 195; 16; 208; 50; 12;
   195; 16; 200; 42; 12; 67; 48; 31; 210; 79; 100; 44; 184; 104; 126; 78; 60; 230; 127; 158;
   254; 194; 237; 38; 35; 4; 70; 160; 74; 216; 169; 211; 0; 239; 67; 80; 42; 100; 116; 94;
   162; 0; 36; 34; 24; 10; 69; 128; 0; 0; 0; 32; 1; 0; 0; 95; 215; 250; 82; 122;
   66; 58; 122; 138; 18; 50; 74; 168; 0; 0; 0; 0; 5; 108; 142; 195; 24; 208; 14; 113;
   205; 185; 231; 95; 10; 124; 44; 19; 152; 32; 97; 4; 124; 194; 12; 216; 18; 95; 71; 254;
   20; 18; 216; 63; 227; 157; 133; 193; 222; 193; 122; 228; 23; 169; 71; 135; 109; 16; 141; 183;
   253; 179; 169; 10; 13; 138; 236; 240; 212; 90; 151; 54; 17; 117; 116; 143; 105; 144; 253; 12;
   102; 55; 70; 49; 44; 128; 250; 163; 135; 147; 97; 7; 61; 252; 254; 168; 239; 254; 231; 231;
   2; 10; 27; 129; 251; 175; 255; 99; 17; 132; 22; 233; 131; 10; 70; 3; 22; 4; 133; 246;
   225; 133; 218; 157; 3; 208; 112; 131; 189; 181; 249; 56; 68; 249; 114; 248; 54; 13; 147; 76;
   217; 52; 205; 147; 76; 217; 182; 109; 155; 82; 217; 181; 45; 155; 76; 217; 180; 0; 0; 11;
   66; 128; 156; 47; 11; 194; 224; 180; 40; 10; 131; 0; 204; 49; 11; 66; 240; 188; 35; 8;
   131; 163; 126; 217; 156; 226; 33; 22; 194; 122; 255; 122; 0; 204; 55; 131; 137; 135; 32; 206;
   134; 221; 150; 251; 79; 129; 87; 1; 76; 64; 0; 126; 240; 36; 147; 121; 97; 98; 114; 97;
   45; 99; 97; 100; 97; 98; 114; 97
  ].

(** RTCM3_TEST_DATA/reference-3msg-noizeBefore.rtcm3 *)
Definition ref3_before : list Z :=
  [
   97; 98; 114; 97; 45; 99; 97; 100; 97; 98; 114; 97; 211; 0; 239; 67; 80; 42; 100; 116;
   79; 2; 0; 36; 34; 24; 10; 69; 128; 0; 0; 0; 32; 1; 0; 0; 95; 215; 250; 82;
   122; 66; 58; 122; 138; 18; 50; 74; 168; 0; 0; 0; 0; 5; 112; 141; 194; 248; 192; 16;
   113; 77; 185; 247; 97; 9; 124; 44; 19; 144; 32; 97; 4; 124; 194; 12; 208; 18; 95; 71;
   254; 20; 18; 223; 69; 80; 25; 218; 177; 172; 66; 135; 90; 208; 126; 93; 155; 143; 209; 199;
   148; 157; 82; 31; 201; 135; 112; 201; 15; 38; 246; 109; 138; 38; 224; 241; 10; 128; 32; 174;
   19; 102; 94; 174; 90; 70; 253; 25; 11; 6; 169; 188; 134; 84; 118; 1; 211; 114; 2; 18;
   106; 134; 241; 192; 6; 227; 86; 7; 96; 188; 126; 249; 110; 252; 103; 184; 124; 115; 114; 251;
   119; 116; 251; 91; 46; 2; 148; 228; 130; 130; 46; 121; 144; 72; 121; 203; 22; 54; 13; 147;
   76; 217; 52; 205; 147; 76; 217; 54; 109; 147; 82; 217; 181; 45; 155; 76; 217; 180; 0; 0;
   11; 66; 128; 156; 47; 12; 2; 240; 184; 39; 10; 131; 16; 204; 48; 11; 130; 240; 188; 35;
   8; 131; 140; 104; 232; 17; 235; 63; 248; 63; 1; 126; 224; 249; 120; 11; 208; 145; 214; 235;
   157; 242; 157; 46; 250; 47; 127; 83; 250; 116; 71; 132; 152; 0; 109; 16; 102; 211; 0; 160;
   67; 240; 42; 160; 7; 51; 192; 0; 36; 1; 3; 65; 128; 0; 0; 0; 0; 32; 128; 0;
   0; 127; 218; 106; 18; 10; 34; 74; 6; 3; 221; 76; 166; 3; 116; 16; 139; 140; 156; 126;
   234; 13; 183; 212; 158; 221; 133; 208; 5; 102; 200; 138; 233; 163; 41; 122; 78; 151; 135; 48;
   196; 136; 141; 176; 200; 250; 114; 15; 86; 183; 121; 20; 145; 157; 113; 28; 146; 250; 112; 215;
   122; 18; 85; 134; 60; 14; 5; 241; 8; 131; 114; 145; 3; 97; 55; 3; 252; 97; 132; 1;
   172; 254; 48; 93; 4; 87; 15; 4; 119; 184; 54; 45; 99; 98; 214; 53; 77; 59; 98; 214;
   48; 237; 139; 88; 0; 43; 10; 195; 16; 208; 50; 12; 195; 16; 200; 42; 12; 67; 48; 31;
   210; 79; 100; 44; 184; 104; 126; 78; 60; 230; 127; 158; 254; 194; 237; 38; 35; 4; 70; 160;
   74; 216; 169; 211; 0; 239; 67; 80; 42; 100; 116; 94; 162; 0; 36; 34; 24; 10; 69; 128;
   0; 0; 0; 32; 1; 0; 0; 95; 215; 250; 82; 122; 66; 58; 122; 138; 18; 50; 74; 168;
   0; 0; 0; 0; 5; 108; 142; 195; 24; 208; 14; 113; 205; 185; 231; 95; 10; 124; 44; 19;
   152; 32; 97; 4; 124; 194; 12; 216; 18; 95; 71; 254; 20; 18; 216; 63; 227; 157; 133; 193;
   222; 193; 122; 228; 23; 169; 71; 135; 109; 16; 141; 183; 253; 179; 169; 10; 13; 138; 236; 240;
   212; 90; 151; 54; 17; 117; 116; 143; 105; 144; 253; 12; 102; 55; 70; 49; 44; 128; 250; 163;
   135; 147; 97; 7; 61; 252; 254; 168; 239; 254; 231; 231; 2; 10; 27; 129; 251; 175; 255; 99;
   17; 132; 22; 233; 131; 10; 70; 3; 22; 4; 133; 246; 225; 133; 218; 157; 3; 208; 112; 131;
   189; 181; 249; 56; 68; 249; 114; 248; 54; 13; 147; 76; 217; 52; 205; 147; 76; 217; 182; 109;
   155; 82; 217; 181; 45; 155; 76; 217; 180; 0; 0; 11; 66; 128; 156; 47; 11; 194; 224; 180;
   40; 10; 131; 0; 204; 49; 11; 66; 240; 188; 35; 8; 131; 163; 126; 217; 156; 226; 33; 22;
   194; 122; 255; 122; 0; 204; 55; 131; 137; 135; 32; 206; 134; 221; 150; 251; 79; 129; 87; 1;
   76; 64; 0; 126; 240; 36; 147; 121
  ].
