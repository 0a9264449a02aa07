(** Files of /repo/gitdb/test/fixtures, byte by byte, and what the model makes of them: tests of
    the model, not theorems about it.  zlib and SHA-1 are the concrete ones of DeflateModel.v and
    Sha1.v. *)
From Verif Require Import Py PyFacts FunModel IndexModel ZlibModel DeflateModel ReaderModel PackModel ReaderProofs StreamSpec Sha1.

(** objects/7b/b839852ed5e3a069966281bb08d50012fb309b *)
Definition fixture_loose_0 : bytes :=
   [120; 1; 43; 41; 74; 77; 85; 48; 53; 50; 98; 48; 52; 48; 48; 51; 49; 81; 208; 75; 207; 44; 73; 44; 41; 41; 202; 76; 42; 45; 73; 45; 102;
    216; 101; 228; 98; 44; 118; 37; 133; 239; 236; 130; 211; 28; 39; 84; 14; 62; 59; 167; 167; 251; 22; 170; 50; 145; 65; 74; 193; 122; 97;
    71; 197; 204; 119; 57; 230; 118; 127; 127; 88; 126; 123; 198; 186; 204; 46; 7; 38; 153; 150; 153; 147; 202; 16; 212; 157; 247; 229;
    208; 157; 13; 123; 222; 105; 78; 151; 204; 125; 126; 196; 40; 122; 167; 95; 5; 84; 65; 18; 195; 130; 204; 87; 7; 47; 69; 104; 248; 222;
    208; 171; 181; 182; 244; 50; 83; 91; 229; 239; 57; 207; 196; 0; 8; 20; 146; 51; 138; 24; 228; 30; 72; 47; 223; 177; 200; 87; 210; 78;
    213; 240; 100; 173; 254; 132; 151; 101; 18; 204; 115; 160; 90; 83; 82; 115; 226; 243; 243; 226; 147; 115; 50; 83; 243; 74; 24; 42; 18;
    166; 117; 68; 106; 158; 123; 191; 187; 114; 99; 219; 110; 91; 9; 213; 155; 117; 235; 188; 161; 10; 211; 24; 116; 226; 46; 108; 122;
    250; 244; 172; 113; 121; 100; 85; 103; 105; 72; 202; 114; 110; 222; 31; 26; 80; 201; 156; 252; 228; 248; 196; 148; 20; 6; 111; 1; 245;
    243; 105; 166; 70; 58; 60; 177; 253; 125; 17; 151; 238; 217; 229; 132; 9; 49; 33; 41; 201; 205; 79; 97; 144; 108; 169; 238; 216; 17;
    226; 246; 172; 38; 65; 60; 162; 188; 252; 251; 129; 175; 179; 242; 13; 161; 74; 128; 210; 153; 105; 153; 169; 41; 12; 243; 230; 123;
    116; 63; 186; 251; 225; 245; 198; 228; 135; 235; 163; 217; 90; 183; 239; 154; 115; 202; 28; 226; 155; 130; 162; 2; 134; 180; 229; 225;
    243; 219; 61; 22; 187; 6; 45; 139; 96; 85; 92; 166; 100; 191; 47; 95; 33; 1; 34; 91; 156; 90; 194; 112; 119; 91; 97; 230; 156; 207;
    199; 238; 11; 248; 106; 171; 218; 52; 31; 223; 230; 164; 19; 38; 9; 53; 191; 52; 175; 40; 53; 39; 177; 36; 53; 37; 30; 20; 160; 241;
    185; 137; 153; 121; 12; 169; 190; 246; 51; 114; 153; 124; 94; 217; 204; 100; 22; 143; 102; 249; 176; 255; 201; 9; 125; 88; 208; 160;
    41; 47; 174; 204; 75; 198; 167; 188; 138; 33; 204; 57; 126; 58; 183; 206; 65; 134; 247; 59; 191; 77; 106; 53; 152; 180; 229; 203; 146;
    29; 215; 0; 190; 86; 206; 137].
Definition fixture_loose : bytes := fixture_loose_0.
(** packs/pack-a2bf8e71d8c18879e499335762dd95119d93d9f1.idx *)
Definition fixture_idx_0 : bytes :=
   [255; 116; 79; 99; 0; 0; 0; 2; 0; 0; 0; 0; 0; 0; 0; 0; 0; 0; 0; 0; 0; 0; 0; 0; 0; 0; 0; 0; 0; 0; 0; 0; 0; 0; 0; 0; 0; 0; 0; 0; 0; 0; 0;
    0; 0; 0; 0; 0; 0; 0; 0; 0; 0; 0; 0; 0; 0; 0; 0; 0; 0; 0; 0; 1; 0; 0; 0; 1; 0; 0; 0; 1; 0; 0; 0; 1; 0; 0; 0; 1; 0; 0; 0; 1; 0; 0; 0; 1;
    0; 0; 0; 1; 0; 0; 0; 1; 0; 0; 0; 1; 0; 0; 0; 1; 0; 0; 0; 1; 0; 0; 0; 1; 0; 0; 0; 1; 0; 0; 0; 2; 0; 0; 0; 2; 0; 0; 0; 2; 0; 0; 0; 2; 0;
    0; 0; 2; 0; 0; 0; 2; 0; 0; 0; 2; 0; 0; 0; 2; 0; 0; 0; 2; 0; 0; 0; 2; 0; 0; 0; 2; 0; 0; 0; 2; 0; 0; 0; 2; 0; 0; 0; 2; 0; 0; 0; 2; 0; 0;
    0; 3; 0; 0; 0; 3; 0; 0; 0; 3; 0; 0; 0; 3; 0; 0; 0; 3; 0; 0; 0; 3; 0; 0; 0; 3; 0; 0; 0; 3; 0; 0; 0; 3; 0; 0; 0; 3; 0; 0; 0; 3; 0; 0; 0;
    3; 0; 0; 0; 3; 0; 0; 0; 3; 0; 0; 0; 3; 0; 0; 0; 3; 0; 0; 0; 4; 0; 0; 0; 4; 0; 0; 0; 4; 0; 0; 0; 5; 0; 0; 0; 5; 0; 0; 0; 5; 0; 0; 0; 5;
    0; 0; 0; 5; 0; 0; 0; 5; 0; 0; 0; 5; 0; 0; 0; 5; 0; 0; 0; 5; 0; 0; 0; 5; 0; 0; 0; 5; 0; 0; 0; 5; 0; 0; 0; 5; 0; 0; 0; 5; 0; 0; 0; 6; 0;
    0; 0; 6; 0; 0; 0; 7; 0; 0; 0; 8; 0; 0; 0; 8; 0; 0; 0; 8; 0; 0; 0; 8; 0; 0; 0; 8; 0; 0; 0; 10; 0; 0; 0; 10; 0; 0; 0; 10; 0; 0; 0; 11; 0;
    0; 0; 11; 0; 0; 0; 11; 0; 0; 0; 11; 0; 0; 0; 11; 0; 0; 0; 11; 0; 0; 0; 11; 0; 0; 0; 11; 0; 0; 0; 11; 0; 0; 0; 11; 0; 0; 0; 13; 0; 0; 0;
    13; 0; 0; 0; 13; 0; 0; 0; 13; 0; 0; 0; 13; 0; 0; 0; 13; 0; 0; 0; 13; 0; 0; 0; 13; 0; 0; 0; 13; 0; 0; 0; 13; 0; 0; 0; 13; 0; 0; 0; 14;
    0; 0; 0; 14; 0; 0; 0; 14; 0; 0; 0; 14; 0; 0; 0; 15; 0; 0; 0; 15; 0; 0; 0; 15; 0; 0; 0; 15; 0; 0; 0; 17; 0; 0; 0; 17; 0; 0; 0; 17; 0; 0;
    0; 17; 0; 0; 0; 18; 0; 0; 0; 19; 0; 0; 0; 19; 0; 0; 0; 19].
Definition fixture_idx_1 : bytes :=
   [0; 0; 0; 19; 0; 0; 0; 19; 0; 0; 0; 19; 0; 0; 0; 19; 0; 0; 0; 19; 0; 0; 0; 19; 0; 0; 0; 19; 0; 0; 0; 19; 0; 0; 0; 19; 0; 0; 0; 19; 0; 0;
    0; 19; 0; 0; 0; 19; 0; 0; 0; 19; 0; 0; 0; 19; 0; 0; 0; 19; 0; 0; 0; 19; 0; 0; 0; 19; 0; 0; 0; 19; 0; 0; 0; 19; 0; 0; 0; 19; 0; 0; 0;
    19; 0; 0; 0; 19; 0; 0; 0; 19; 0; 0; 0; 19; 0; 0; 0; 19; 0; 0; 0; 20; 0; 0; 0; 20; 0; 0; 0; 20; 0; 0; 0; 20; 0; 0; 0; 20; 0; 0; 0; 20;
    0; 0; 0; 20; 0; 0; 0; 22; 0; 0; 0; 22; 0; 0; 0; 22; 0; 0; 0; 23; 0; 0; 0; 23; 0; 0; 0; 23; 0; 0; 0; 24; 0; 0; 0; 24; 0; 0; 0; 24; 0; 0;
    0; 24; 0; 0; 0; 24; 0; 0; 0; 24; 0; 0; 0; 25; 0; 0; 0; 25; 0; 0; 0; 25; 0; 0; 0; 25; 0; 0; 0; 25; 0; 0; 0; 25; 0; 0; 0; 25; 0; 0; 0;
    25; 0; 0; 0; 25; 0; 0; 0; 25; 0; 0; 0; 25; 0; 0; 0; 25; 0; 0; 0; 25; 0; 0; 0; 25; 0; 0; 0; 25; 0; 0; 0; 25; 0; 0; 0; 25; 0; 0; 0; 26;
    0; 0; 0; 26; 0; 0; 0; 26; 0; 0; 0; 27; 0; 0; 0; 27; 0; 0; 0; 28; 0; 0; 0; 28; 0; 0; 0; 29; 0; 0; 0; 29; 0; 0; 0; 29; 0; 0; 0; 29; 0; 0;
    0; 29; 0; 0; 0; 29; 0; 0; 0; 29; 0; 0; 0; 29; 0; 0; 0; 29; 0; 0; 0; 29; 0; 0; 0; 29; 0; 0; 0; 29; 0; 0; 0; 29; 0; 0; 0; 29; 0; 0; 0;
    29; 0; 0; 0; 29; 0; 0; 0; 29; 0; 0; 0; 29; 0; 0; 0; 29; 0; 0; 0; 29; 0; 0; 0; 29; 0; 0; 0; 30; 0; 0; 0; 30; 0; 0; 0; 31; 0; 0; 0; 32;
    0; 0; 0; 32; 0; 0; 0; 32; 0; 0; 0; 33; 0; 0; 0; 33; 0; 0; 0; 33; 0; 0; 0; 33; 0; 0; 0; 33; 0; 0; 0; 33; 0; 0; 0; 34; 0; 0; 0; 34; 0; 0;
    0; 35; 0; 0; 0; 35; 0; 0; 0; 35; 0; 0; 0; 35; 0; 0; 0; 35; 0; 0; 0; 36; 0; 0; 0; 36; 0; 0; 0; 37; 0; 0; 0; 37; 0; 0; 0; 37; 0; 0; 0;
    37; 0; 0; 0; 37; 0; 0; 0; 39; 0; 0; 0; 39; 0; 0; 0; 39; 0; 0; 0; 40; 0; 0; 0; 40; 0; 0; 0; 40; 0; 0; 0; 40; 0; 0; 0; 41; 0; 0; 0; 41;
    0; 0; 0; 41].
Definition fixture_idx_2 : bytes :=
   [0; 0; 0; 41; 0; 0; 0; 42; 0; 0; 0; 42; 0; 0; 0; 42; 0; 0; 0; 42; 0; 0; 0; 42; 0; 0; 0; 42; 0; 0; 0; 42; 13; 151; 38; 243; 253; 35; 89;
    205; 165; 130; 23; 114; 79; 18; 175; 39; 59; 244; 64; 166; 27; 179; 253; 220; 243; 38; 245; 185; 10; 143; 184; 79; 212; 93; 15; 87; 60;
    240; 119; 178; 42; 217; 59; 41; 12; 76; 250; 16; 7; 74; 140; 199; 199; 218; 134; 185; 198; 132; 233; 137; 58; 225; 167; 46; 241; 241;
    199; 169; 195; 147; 47; 73; 74; 178; 22; 186; 57; 219; 40; 84; 61; 118; 174; 218; 203; 26; 191; 98; 6; 97; 166; 37; 170; 197; 16; 150;
    66; 167; 31; 158; 75; 130; 90; 177; 178; 197; 223; 227; 12; 182; 8; 169; 234; 70; 133; 76; 188; 58; 182; 112; 77; 172; 153; 137; 249;
    107; 197; 181; 177; 38; 59; 88; 44; 8; 240; 197; 240; 181; 133; 66; 78; 93; 33; 185; 89; 107; 197; 241; 216; 13; 156; 33; 137; 78; 102;
    111; 44; 170; 110; 204; 83; 30; 168; 249; 122; 153; 238; 228; 26; 118; 120; 217; 79; 20; 208; 219; 166; 88; 124; 102; 83; 193; 217;
    223; 181; 245; 47; 54; 50; 180; 82; 179; 90; 21; 195; 121; 248; 205; 33; 97; 86; 233; 245; 93; 239; 241; 255; 194; 12; 240; 204; 102;
    184; 102; 203; 166; 182; 136; 101; 119; 96; 194; 105; 189; 117; 129; 188; 232; 78; 130; 90; 156; 251; 119; 208; 6; 32; 38; 179; 78; 96;
    232; 104; 172; 186; 235; 255; 138; 49; 80; 149; 111; 114; 99; 156; 30; 207; 9; 91; 0; 107; 109; 176; 20; 188; 207; 226; 211; 245; 220;
    2; 141; 43; 171; 117; 178; 114; 71; 72; 79; 111; 159; 188; 244; 244; 25; 3; 55; 37; 130; 146; 164; 199; 122; 147; 10; 87; 230; 219; 27;
    115; 35; 16; 243; 107; 72; 39; 133; 67; 27; 114; 152; 181; 119; 142; 226; 209; 124; 58; 52; 115; 122; 181; 227; 143; 12; 42; 191; 101;
    238; 24; 53; 155; 114; 54; 68; 142; 192; 120; 117; 119; 156; 84; 81; 186; 159; 226; 16; 255; 209; 245; 93; 178; 2; 229; 95; 81; 172;
    236; 172; 120; 190; 211; 10; 204; 53; 53; 132; 6; 181; 17; 32; 162; 231; 210; 154; 12; 235; 214; 193; 148; 34; 117; 128; 241; 59; 142;
    31; 208; 42; 183; 254; 61; 183; 156; 217; 155; 41; 78; 249; 155; 43; 78; 164; 147; 97; 175; 24; 40; 234; 83; 12; 142; 24; 213; 52; 58;
    152; 38; 167; 155; 207; 50; 15; 43; 79; 188; 137; 204; 145; 35; 204; 76; 5; 220; 251; 35; 34; 102; 57; 158; 71; 179; 110; 222; 255;
    192; 84; 24; 178; 194; 23; 215; 128; 8; 236; 213; 4; 221; 75; 161; 183; 112; 98; 123; 233; 17; 164].
Definition fixture_idx_3 : bytes :=
   [35; 18; 194; 243; 48; 6; 19; 92; 244; 176; 1; 122; 167; 6; 91; 94; 151; 26; 109; 139; 85; 135; 93; 140; 246; 52; 163; 163; 114; 2; 171;
    35; 184; 170; 97; 190; 132; 183; 141; 127; 207; 247; 136; 232; 216; 68; 64; 108; 201; 113; 50; 191; 187; 101; 112; 183; 43; 79; 160;
    222; 63; 164; 28; 103; 227; 223; 176; 68; 177; 185; 209; 141; 189; 70; 187; 63; 91; 180; 202; 84; 49; 119; 12; 79; 222; 7; 53; 251;
    137; 211; 130; 243; 191; 2; 123; 147; 254; 64; 200; 176; 181; 153; 57; 24; 250; 223; 70; 120; 116; 153; 89; 244; 212; 55; 68; 0; 149;
    99; 162; 105; 217; 30; 170; 215; 114; 187; 111; 89; 250; 3; 192; 210; 214; 182; 64; 231; 236; 139; 17; 121; 174; 22; 242; 11; 120; 104;
    142; 105; 197; 116; 234; 125; 215; 57; 194; 149; 124; 160; 116; 102; 131; 231; 248; 27; 91; 9; 38; 131; 154; 185; 249; 255; 218; 180;
    12; 51; 73; 85; 47; 50; 15; 100; 39; 151; 87; 25; 132; 94; 109; 47; 167; 112; 224; 220; 44; 120; 211; 189; 61; 20; 210; 9; 6; 173; 121;
    5; 163; 47; 15; 9; 24; 168; 226; 142; 51; 159; 203; 182; 125; 234; 220; 58; 195; 158; 234; 138; 220; 20; 176; 133; 119; 161; 231; 174;
    119; 149; 99; 122; 117; 122; 128; 249; 235; 163; 210; 122; 38; 121; 8; 216; 75; 74; 233; 9; 38; 176; 112; 146; 188; 203; 123; 247; 218;
    68; 95; 174; 111; 253; 250; 207; 62; 174; 238; 11; 103; 99; 54; 197; 47; 76; 44; 181; 127; 211; 191; 217; 30; 36; 53; 162; 55; 49; 238;
    179; 30; 127; 180; 167; 197; 95; 225; 38; 198; 93; 248; 56; 21; 11; 137; 51; 220; 75; 241; 57; 57; 20; 36; 168; 198; 35; 173; 173; 242;
    56; 140; 174; 199; 62; 94; 144; 134; 91; 245; 168; 149; 229; 245; 60; 210; 107; 232; 38; 47; 187; 119; 75; 236; 124; 184; 2; 7; 31;
    249; 190; 198; 175; 210; 76; 124; 218; 170; 217; 176; 130; 203; 5; 68; 162; 76; 130; 239; 83; 242; 47; 139; 175; 155; 97; 78; 50; 240;
    130; 223; 67; 42; 75; 205; 87; 197; 29; 195; 59; 253; 74; 65; 242; 228; 248; 102; 191; 101; 82; 209; 238; 216; 60; 52; 135; 242; 225;
    45; 248; 44; 112; 13; 245; 189; 113; 245; 233; 172; 155; 81; 219; 36; 249; 65; 255; 181; 110; 5; 215; 212; 148; 108; 229; 38; 8; 250;
    152; 58; 90; 28; 229; 54; 167; 137; 100; 65; 155; 124; 2; 77; 225; 230; 89; 244; 106; 4; 59; 107; 167; 89; 161; 81; 197; 4; 127; 173;
    124; 166; 99; 224; 109; 197; 48; 55; 67; 40; 108; 251; 208; 159; 124; 159; 228; 27; 21; 228; 186; 209; 159; 110; 10; 31; 192; 83; 216;
    178; 46].
Definition fixture_idx_4 : bytes :=
   [58; 199; 246; 26; 217; 19; 150; 233; 147; 138; 86; 80; 141; 209; 190; 140; 31; 118; 136; 247; 186; 34; 113; 188; 155; 72; 235; 119;
    117; 72; 201; 241; 218; 67; 179; 82; 133; 227; 31; 112; 0; 0; 8; 239; 0; 0; 9; 43; 0; 0; 4; 190; 0; 0; 12; 151; 0; 0; 12; 169; 0; 0; 5;
    234; 0; 0; 8; 49; 0; 0; 12; 233; 0; 0; 14; 78; 0; 0; 8; 179; 0; 0; 12; 22; 0; 0; 6; 129; 0; 0; 0; 161; 0; 0; 2; 100; 0; 0; 13; 42; 0;
    0; 3; 147; 0; 0; 12; 213; 0; 0; 0; 12; 0; 0; 9; 88; 0; 0; 1; 55; 0; 0; 4; 40; 0; 0; 13; 87; 0; 0; 9; 28; 0; 0; 7; 24; 0; 0; 5; 84; 0;
    0; 11; 217; 0; 0; 12; 106; 0; 0; 8; 224; 0; 0; 13; 196; 0; 0; 13; 132; 0; 0; 2; 252; 0; 0; 12; 41; 0; 0; 7; 176; 0; 0; 11; 193; 0; 0;
    11; 233; 0; 0; 1; 206; 0; 0; 14; 33; 0; 0; 13; 151; 0; 0; 13; 22; 0; 0; 13; 241; 0; 0; 12; 86; 0; 0; 8; 94; 15; 62; 168; 76; 209; 187;
    161; 12; 42; 3; 215; 54; 164; 96; 99; 80; 130; 131; 62; 89; 84; 74; 114; 4; 165; 95; 110; 156; 172; 204; 248; 246; 225; 145; 234; 143;
    131; 87; 93; 227].
Definition fixture_idx : bytes := fixture_idx_0 ++ fixture_idx_1 ++ fixture_idx_2 ++ fixture_idx_3 ++ fixture_idx_4.
(** packs/pack-a2bf8e71d8c18879e499335762dd95119d93d9f1.pack *)
Definition fixture_pack_0 : bytes :=
   [80; 65; 67; 75; 0; 0; 0; 2; 0; 0; 0; 42; 159; 13; 120; 156; 157; 203; 65; 14; 2; 33; 12; 64; 209; 61; 167; 96; 111; 98; 10; 51; 69; 72;
    140; 241; 14; 122; 129; 182; 22; 135; 100; 102; 48; 136; 11; 111; 47; 103; 112; 249; 127; 242; 122; 83; 181; 243; 131; 36; 165; 152;
    114; 10; 44; 200; 200; 206; 135; 137; 49; 122; 129; 152; 65; 48; 195; 8; 156; 189; 121; 81; 211; 189; 219; 0; 26; 67; 36; 97; 82; 206;
    57; 210; 228; 16; 18; 134; 124; 26; 44; 137; 83; 201; 35; 25; 192; 208; 167; 47; 181; 217; 155; 50; 189; 123; 161; 221; 222; 151; 162;
    171; 61; 243; 183; 213; 189; 108; 245; 250; 220; 168; 172; 71; 169; 219; 197; 58; 31; 3; 78; 16; 32; 218; 3; 248; 129; 199; 221; 74;
    239; 250; 175; 55; 226; 205; 15; 134; 49; 67; 44; 159; 13; 120; 156; 157; 203; 77; 10; 66; 33; 16; 0; 224; 189; 167; 112; 31; 132; 206;
    248; 11; 17; 221; 161; 46; 224; 232; 216; 19; 242; 25; 102; 139; 110; 95; 103; 104; 251; 193; 183; 38; 179; 180; 152; 117; 137; 165;
    146; 173; 22; 42; 58; 4; 50; 22; 8; 109; 210; 54; 163; 143; 53; 228; 2; 218; 105; 241; 76; 147; 247; 37; 163; 1; 240; 54; 168; 170;
    145; 2; 235; 90; 20; 36; 242; 149; 177; 144; 143; 185; 196; 72; 16; 13; 215; 40; 210; 123; 109; 99; 202; 43; 83; 122; 173; 150; 118;
    121; 219; 26; 63; 228; 137; 62; 115; 236; 173; 143; 203; 189; 167; 246; 56; 230; 209; 207; 82; 67; 112; 22; 149; 83; 70; 30; 20; 40;
    37; 126; 218; 219; 90; 252; 239; 23; 25; 196; 23; 112; 59; 67; 40; 159; 13; 120; 156; 157; 203; 77; 14; 194; 32; 16; 64; 225; 61; 167;
    96; 111; 98; 166; 195; 207; 64; 98; 140; 119; 208; 11; 12; 101; 176; 36; 109; 49; 136; 11; 111; 111; 207; 224; 246; 125; 121; 163; 139;
    104; 200; 145; 208; 23; 83; 50; 26; 23; 231; 204; 46; 224; 68; 132; 182; 76; 200; 5; 201; 164; 98; 45; 176; 87; 47; 238; 178; 15; 45;
    196; 66; 20; 157; 55; 196; 228; 136; 3; 148; 40; 137; 77; 70; 98; 244; 20; 33; 228; 96; 147; 101; 197; 159; 177; 180; 174; 239; 7; 190;
    71; 229; 93; 63; 150; 42; 171; 190; 164; 111; 111; 123; 221; 218; 237; 185; 113; 93; 207; 115; 219; 174; 122; 194; 224; 157; 1; 23;
    163; 62; 1; 2; 168; 163; 110; 117; 12; 249; 247; 87; 51; 170; 31; 33; 209; 66; 184; 159; 13; 120; 156; 157; 203; 75; 10; 194; 48; 16;
    0; 208; 125; 78; 145; 189; 32; 211; 201; 183; 32; 226; 29; 244; 2; 153; 76; 198; 6; 154; 86; 98; 92; 120; 123; 123; 6].
Definition fixture_pack_1 : bytes :=
   [183; 15; 222; 232; 165; 232; 137; 200; 8; 115; 22; 131; 94; 28; 205; 144; 162; 80; 180; 194; 214; 49; 136; 11; 38; 11; 132; 64; 168;
    94; 169; 151; 109; 104; 79; 158; 9; 38; 75; 57; 75; 65; 54; 226; 56; 3; 70; 70; 74; 20; 28; 97; 64; 27; 236; 241; 85; 250; 140; 101;
    239; 250; 94; 40; 189; 71; 77; 155; 126; 44; 181; 172; 250; 66; 223; 190; 111; 181; 237; 183; 103; 75; 117; 61; 231; 189; 93; 245; 132;
    209; 59; 3; 110; 246; 250; 4; 8; 160; 14; 109; 117; 140; 242; 239; 87; 25; 213; 15; 111; 5; 68; 113; 159; 13; 120; 156; 157; 203; 77;
    10; 194; 48; 16; 64; 225; 125; 78; 145; 189; 32; 249; 105; 50; 19; 16; 241; 14; 122; 129; 153; 100; 106; 3; 77; 43; 49; 46; 188; 189;
    61; 131; 187; 199; 7; 111; 116; 17; 45; 14; 197; 251; 52; 103; 230; 8; 69; 168; 100; 79; 217; 39; 17; 194; 163; 237; 196; 6; 3; 0; 89;
    245; 162; 46; 219; 208; 37; 114; 156; 140; 128; 100; 100; 107; 33; 145; 216; 56; 59; 195; 128; 17; 81; 98; 202; 1; 38; 33; 40; 138; 62;
    99; 217; 187; 190; 11; 211; 123; 84; 218; 244; 99; 169; 178; 234; 11; 127; 251; 190; 213; 182; 223; 158; 141; 234; 122; 206; 123; 187;
    106; 235; 48; 6; 111; 66; 242; 250; 100; 156; 49; 234; 208; 86; 199; 144; 127; 127; 149; 157; 250; 1; 107; 16; 68; 91; 159; 13; 120;
    156; 157; 203; 65; 14; 194; 32; 16; 64; 209; 61; 167; 96; 111; 98; 96; 6; 24; 72; 140; 241; 14; 122; 1; 160; 131; 37; 41; 197; 32; 46;
    188; 189; 61; 131; 203; 255; 146; 63; 7; 179; 92; 8; 67; 134; 96; 41; 71; 69; 198; 57; 143; 76; 197; 235; 100; 147; 10; 112; 84; 136;
    41; 148; 80; 138; 120; 197; 193; 251; 148; 132; 128; 90; 21; 116; 201; 120; 32; 111; 13; 234; 68; 16; 124; 178; 68; 158; 25; 22; 77;
    25; 35; 26; 17; 63; 115; 237; 67; 222; 57; 197; 247; 172; 113; 151; 143; 181; 242; 38; 47; 233; 59; 250; 94; 91; 191; 61; 91; 172; 219;
    57; 247; 118; 149; 26; 188; 179; 168; 108; 208; 242; 164; 64; 41; 113; 104; 171; 115; 242; 191; 191; 200; 32; 126; 148; 235; 65; 206;
    159; 13; 120; 156; 157; 140; 73; 14; 2; 33; 16; 0; 239; 188; 130; 187; 137; 97; 95; 18; 99; 252; 131; 126; 160; 27; 26; 135; 100; 24;
    12; 226; 193; 223; 203; 27; 188; 86; 170; 106; 14; 34; 142; 232; 172; 23; 232; 21; 154; 2; 34; 147; 46; 96; 100; 114; 158; 116; 46; 40;
    140; 65; 137; 49; 203; 144; 217; 11; 6; 29; 147; 71; 92; 38; 129; 137; 218; 73; 40; 50; 168; 64; 96; 181; 72].
Definition fixture_pack_2 : bytes :=
   [129; 150; 100; 181; 209; 16; 131; 114; 224; 25; 124; 230; 214; 7; 191; 19; 194; 123; 86; 56; 248; 99; 171; 180; 243; 11; 126; 71; 63;
    106; 235; 183; 103; 131; 186; 159; 83; 111; 87; 46; 85; 112; 107; 98; 67; 224; 39; 161; 132; 96; 139; 182; 58; 39; 253; 219; 179; 164;
    216; 15; 207; 188; 67; 128; 159; 13; 120; 156; 157; 203; 81; 10; 2; 33; 16; 0; 208; 127; 79; 225; 127; 16; 163; 171; 163; 66; 68; 119;
    168; 11; 140; 227; 108; 43; 228; 26; 102; 31; 221; 190; 206; 208; 239; 131; 55; 135; 136; 94; 74; 64; 146; 66; 156; 13; 229; 21; 45;
    32; 26; 66; 235; 137; 216; 27; 72; 232; 44; 5; 179; 38; 81; 79; 26; 178; 79; 109; 169; 164; 37; 219; 4; 236; 120; 37; 3; 16; 28; 69;
    230; 192; 161; 80; 196; 156; 24; 163; 147; 20; 147; 162; 247; 220; 250; 208; 87; 201; 244; 154; 149; 118; 125; 219; 170; 60; 244; 41;
    127; 70; 223; 107; 235; 151; 123; 163; 250; 56; 114; 111; 103; 109; 108; 68; 191; 128; 143; 94; 31; 192; 2; 168; 159; 182; 58; 167;
    252; 251; 21; 91; 245; 5; 225; 187; 67; 176; 159; 13; 120; 156; 157; 203; 81; 10; 2; 33; 16; 0; 208; 127; 79; 225; 127; 16; 58; 238;
    140; 10; 17; 221; 161; 46; 48; 234; 108; 43; 228; 26; 102; 31; 221; 190; 206; 208; 239; 131; 55; 135; 136; 94; 4; 11; 216; 20; 49; 82;
    202; 184; 218; 18; 76; 137; 25; 108; 136; 139; 16; 209; 10; 153; 153; 36; 103; 245; 228; 33; 251; 212; 236; 13; 97; 66; 137; 222; 50;
    149; 144; 16; 131; 199; 18; 242; 74; 110; 97; 199; 206; 131; 1; 78; 224; 20; 191; 231; 214; 135; 190; 74; 226; 215; 172; 188; 235; 219;
    86; 229; 161; 79; 233; 51; 250; 94; 91; 191; 220; 27; 215; 199; 49; 247; 118; 214; 22; 2; 161; 51; 24; 64; 31; 12; 24; 163; 126; 218;
    234; 156; 242; 239; 87; 25; 212; 23; 138; 231; 67; 43; 159; 13; 120; 156; 157; 203; 75; 10; 194; 48; 16; 0; 208; 125; 78; 145; 189; 32;
    211; 201; 31; 68; 188; 131; 94; 96; 38; 157; 216; 64; 211; 74; 140; 11; 111; 111; 207; 224; 246; 193; 27; 93; 68; 251; 146; 10; 231;
    98; 139; 157; 18; 24; 19; 208; 69; 76; 72; 54; 135; 64; 201; 0; 185; 32; 126; 230; 137; 213; 139; 186; 108; 67; 91; 142; 232; 232; 0;
    204; 110; 46; 98; 32; 179; 135; 72; 73; 200; 250; 232; 108; 230; 108; 136; 125; 0; 69; 159; 177; 236; 93; 223; 133; 233; 61; 42; 109;
    250; 177; 84; 89; 245; 133; 191; 125; 223; 106; 219; 111; 207; 70; 117; 61; 231; 189; 93; 245; 132; 209; 59; 3; 46; 68; 125; 2; 4; 80].
Definition fixture_pack_3 : bytes :=
   [135; 182; 58; 134; 252; 251; 85; 70; 245; 3; 166; 92; 67; 130; 159; 13; 120; 156; 157; 203; 77; 14; 194; 32; 16; 64; 225; 61; 167; 96;
    111; 98; 166; 195; 79; 33; 49; 198; 59; 232; 5; 152; 233; 96; 73; 74; 49; 136; 11; 111; 111; 207; 224; 246; 229; 123; 163; 139; 232;
    72; 156; 13; 66; 70; 178; 153; 56; 68; 230; 56; 161; 97; 182; 12; 110; 225; 76; 104; 16; 189; 55; 81; 189; 82; 151; 125; 104; 15; 140;
    62; 210; 50; 187; 48; 17; 75; 176; 18; 208; 165; 120; 200; 121; 94; 0; 60; 2; 122; 50; 86; 84; 250; 140; 181; 117; 125; 23; 74; 239;
    81; 210; 174; 31; 107; 145; 77; 95; 232; 219; 219; 94; 106; 187; 61; 107; 42; 219; 153; 91; 189; 234; 9; 131; 119; 6; 156; 143; 250; 4;
    8; 160; 142; 90; 203; 24; 242; 239; 175; 24; 213; 15; 173; 172; 67; 85; 159; 13; 120; 156; 157; 204; 75; 10; 194; 48; 20; 64; 209; 121;
    86; 145; 185; 32; 239; 147; 143; 130; 136; 123; 208; 13; 188; 164; 47; 54; 208; 54; 18; 227; 192; 221; 219; 53; 56; 189; 112; 238; 232;
    170; 86; 21; 82; 136; 129; 57; 100; 79; 197; 101; 202; 201; 199; 50; 113; 42; 211; 25; 149; 28; 123; 33; 142; 140; 230; 37; 93; 183;
    97; 5; 83; 140; 16; 40; 38; 61; 35; 138; 35; 70; 202; 84; 152; 1; 2; 178; 207; 197; 37; 0; 140; 98; 228; 51; 230; 214; 237; 93; 147;
    188; 71; 149; 205; 62; 230; 170; 139; 189; 164; 111; 111; 91; 93; 219; 237; 185; 74; 93; 142; 185; 173; 87; 139; 116; 10; 126; 63; 184;
    96; 15; 64; 0; 102; 175; 107; 29; 67; 255; 245; 38; 147; 249; 1; 238; 215; 66; 39; 159; 13; 120; 156; 157; 203; 77; 10; 194; 48; 16;
    64; 225; 125; 78; 145; 189; 32; 147; 223; 201; 128; 136; 119; 208; 11; 76; 218; 140; 13; 180; 141; 196; 184; 240; 246; 246; 12; 110;
    31; 223; 27; 189; 20; 157; 5; 44; 102; 114; 82; 60; 76; 41; 67; 14; 68; 142; 76; 18; 158; 197; 71; 76; 232; 137; 2; 137; 87; 47; 238;
    101; 31; 122; 230; 124; 64; 231; 60; 133; 96; 197; 89; 144; 232; 45; 18; 6; 52; 148; 124; 40; 113; 182; 194; 136; 160; 248; 51; 150;
    214; 245; 189; 100; 126; 143; 202; 187; 126; 44; 181; 172; 250; 146; 191; 189; 237; 117; 107; 183; 231; 198; 117; 61; 79; 109; 187;
    106; 99; 83; 12; 14; 192; 68; 125; 2; 11; 160; 142; 186; 213; 49; 202; 191; 191; 154; 140; 250; 1; 203; 111; 65; 242; 155; 11; 120;
    156; 157; 140; 59; 10; 2; 49; 16; 64; 251; 156; 98; 122; 65; 98; 118; 55; 49; 32; 139; 173; 181; 94; 96; 38; 59; 113; 7; 242].
Definition fixture_pack_4 : bytes :=
   [129; 24; 11; 111; 111; 192; 27; 88; 61; 120; 240; 94; 111; 204; 192; 94; 123; 99; 73; 187; 1; 10; 129; 28; 69; 183; 225; 60; 47; 17;
    217; 198; 184; 69; 12; 113; 98; 100; 133; 239; 190; 215; 6; 119; 38; 124; 117; 193; 2; 143; 93; 56; 193; 133; 62; 173; 22; 201; 245;
    250; 204; 40; 233; 24; 106; 94; 225; 100; 206; 118; 49; 222; 251; 9; 14; 218; 104; 173; 134; 205; 210; 59; 255; 219; 171; 91; 145; 17;
    37; 248; 141; 212; 23; 90; 126; 59; 248; 162; 2; 120; 156; 51; 52; 48; 48; 51; 49; 81; 8; 114; 117; 116; 241; 117; 101; 248; 185; 239;
    216; 250; 75; 62; 53; 183; 86; 221; 220; 208; 116; 154; 213; 101; 145; 79; 211; 251; 96; 0; 221; 124; 15; 25; 189; 5; 120; 156; 37;
    199; 193; 9; 128; 48; 16; 4; 192; 127; 170; 216; 10; 108; 67; 127; 218; 66; 212; 131; 44; 132; 156; 92; 86; 196; 238; 85; 252; 205;
    140; 212; 114; 171; 120; 3; 59; 50; 142; 223; 149; 107; 228; 184; 113; 118; 219; 33; 7; 155; 44; 242; 38; 92; 84; 193; 72; 33; 236;
    240; 78; 121; 208; 250; 144; 210; 68; 168; 88; 216; 43; 171; 213; 49; 127; 75; 15; 68; 159; 33; 16; 162; 2; 120; 156; 51; 52; 48; 48;
    51; 49; 81; 8; 114; 117; 116; 241; 117; 101; 216; 235; 182; 219; 62; 122; 203; 169; 16; 195; 114; 30; 255; 123; 236; 166; 191; 59; 47;
    55; 125; 6; 0; 181; 109; 13; 17; 100; 128; 2; 120; 156; 139; 13; 152; 16; 0; 0; 3; 216; 1; 142; 162; 2; 120; 156; 51; 52; 48; 48; 51;
    49; 81; 8; 114; 117; 116; 241; 117; 101; 152; 231; 190; 57; 239; 222; 255; 3; 33; 18; 155; 14; 137; 95; 111; 224; 120; 115; 149; 229;
    174; 55; 0; 200; 188; 13; 228; 100; 128; 62; 120; 156; 139; 117; 159; 224; 14; 0; 3; 180; 1; 124; 162; 2; 120; 156; 51; 52; 48; 48; 51;
    49; 81; 8; 114; 117; 116; 241; 117; 101; 216; 177; 42; 113; 95; 203; 246; 222; 250; 243; 223; 59; 94; 220; 112; 113; 200; 57; 89; 104;
    180; 31; 0; 213; 63; 14; 239; 189; 73; 120; 156; 117; 83; 201; 110; 219; 48; 16; 61; 135; 95; 49; 183; 46; 168; 169; 6; 69; 144; 194;
    64; 14; 138; 235; 166; 66; 29; 39; 176; 28; 228; 88; 80; 18; 45; 177; 161; 57; 42; 73; 213; 208; 223; 119; 72; 73; 177; 211; 180; 58;
    137; 195; 121; 11; 31; 135; 87; 87; 211; 199; 110; 148; 191; 239; 125; 131; 134; 93; 29; 139; 199; 42; 40; 7; 2; 218; 225; 95; 171;
    194; 10; 219; 67; 231; 100; 5; 30; 65; 25; 47; 173; 40; 61; 28; 148; 111; 128; 48; 96; 101; 139; 78; 121; 180; 74].
Definition fixture_pack_5 : bytes :=
   [58; 254; 154; 6; 173; 7; 220; 129; 111; 36; 212; 150; 218; 39; 66; 101; 96; 211; 21; 61; 148; 86; 10; 79; 220; 244; 203; 182; 184; 135;
    123; 43; 157; 71; 51; 123; 148; 214; 72; 11; 194; 84; 176; 104; 44; 113; 61; 10; 227; 188; 21; 190; 33; 17; 246; 62; 74; 191; 5; 79;
    205; 4; 142; 102; 206; 249; 5; 255; 196; 47; 225; 29; 237; 142; 22; 214; 232; 36; 204; 6; 243; 59; 180; 96; 59; 99; 148; 169; 163; 155;
    0; 117; 212; 122; 139; 229; 83; 80; 191; 85; 101; 35; 164; 134; 175; 136; 182; 58; 66; 98; 27; 135; 141; 252; 213; 41; 178; 6; 31; 249;
    5; 99; 217; 58; 223; 166; 171; 85; 186; 205; 238; 214; 39; 33; 82; 140; 217; 14; 122; 236; 160; 17; 191; 37; 84; 120; 48; 26; 69; 21;
    146; 35; 65; 135; 157; 45; 37; 148; 88; 201; 57; 99; 103; 99; 192; 78; 250; 174; 229; 109; 8; 196; 121; 161; 53; 59; 99; 164; 170; 6;
    154; 131; 48; 62; 164; 142; 133; 23; 20; 152; 32; 48; 117; 238; 209; 74; 144; 194; 41; 221; 207; 129; 49; 160; 143; 86; 253; 143; 145;
    1; 106; 229; 7; 242; 184; 197; 82; 168; 20; 37; 167; 138; 206; 43; 18; 108; 69; 249; 36; 106; 242; 33; 12; 20; 114; 164; 30; 15; 187;
    23; 166; 19; 122; 178; 34; 98; 191; 240; 243; 65; 163; 241; 190; 157; 39; 73; 219; 183; 138; 15; 252; 28; 109; 29; 215; 201; 113; 164;
    88; 106; 144; 78; 107; 33; 173; 42; 21; 8; 24; 203; 239; 30; 54; 139; 37; 123; 53; 104; 111; 92; 176; 26; 7; 40; 14; 203; 111; 161;
    180; 40; 52; 121; 50; 225; 122; 105; 162; 176; 115; 113; 2; 104; 245; 173; 43; 62; 192; 161; 161; 75; 154; 156; 23; 22; 15; 225; 150;
    162; 193; 209; 92; 61; 193; 6; 107; 22; 127; 202; 210; 187; 80; 158; 13; 150; 147; 147; 206; 166; 43; 120; 137; 251; 228; 186; 183;
    180; 113; 114; 132; 32; 89; 106; 12; 169; 116; 142; 230; 133; 248; 131; 209; 88; 10; 150; 95; 9; 157; 240; 239; 41; 77; 77; 129; 242;
    128; 56; 214; 255; 69; 240; 31; 253; 191; 145; 140; 221; 166; 217; 42; 91; 223; 192; 42; 203; 183; 47; 199; 109; 58; 140; 197; 174;
    117; 188; 70; 172; 181; 140; 156; 177; 146; 156; 178; 100; 121; 254; 176; 132; 237; 38; 93; 124; 95; 110; 94; 176; 60; 211; 20; 193;
    136; 218; 35; 215; 170; 110; 8; 69; 143; 64; 180; 109; 228; 123; 142; 242; 226; 252; 242; 243; 229; 236; 121; 196; 146; 189; 210; 241;
    193; 74; 199; 216; 42; 91; 44; 215; 249; 116; 211; 116; 213; 107; 121; 128; 235; 252; 11; 172; 84; 41; 141; 147; 28; 32; 151; 50; 62;
    134; 177; 21].
Definition fixture_pack_6 : bytes :=
   [118; 4; 231; 236; 15; 3; 159; 140; 153; 109; 131; 105; 120; 156; 155; 203; 121; 158; 109; 163; 162; 14; 227; 230; 42; 38; 101; 38; 0;
    31; 195; 3; 207; 102; 24; 120; 156; 59; 207; 182; 150; 113; 194; 90; 0; 9; 130; 2; 193; 162; 2; 120; 156; 51; 52; 48; 48; 51; 49; 81;
    8; 114; 117; 116; 241; 117; 101; 8; 123; 249; 53; 246; 253; 199; 255; 135; 120; 62; 156; 73; 219; 145; 118; 122; 217; 182; 142; 212;
    114; 0; 227; 2; 16; 7; 105; 85; 120; 156; 59; 207; 182; 142; 105; 131; 46; 35; 35; 23; 0; 16; 129; 2; 111; 162; 2; 120; 156; 51; 52;
    48; 48; 51; 49; 81; 8; 114; 117; 116; 241; 117; 101; 248; 186; 98; 234; 211; 175; 54; 151; 178; 95; 168; 233; 239; 46; 247; 126; 83;
    179; 131; 137; 93; 30; 0; 212; 213; 13; 133; 105; 128; 21; 120; 156; 59; 207; 54; 137; 121; 195; 68; 70; 70; 46; 0; 17; 83; 2; 184;
    162; 2; 120; 156; 51; 52; 48; 48; 51; 49; 81; 8; 114; 117; 116; 241; 117; 101; 176; 122; 184; 92; 239; 227; 199; 227; 43; 15; 79; 214;
    247; 244; 218; 36; 182; 203; 242; 182; 70; 8; 0; 202; 10; 13; 106; 103; 128; 86; 120; 156; 59; 207; 246; 142; 101; 67; 30; 19; 0; 13;
    120; 2; 232; 162; 2; 120; 156; 51; 52; 48; 48; 51; 49; 81; 8; 114; 117; 116; 241; 117; 101; 40; 174; 218; 250; 184; 159; 71; 107; 127;
    234; 59; 9; 211; 217; 69; 102; 46; 125; 7; 42; 74; 1; 183; 188; 12; 105; 105; 129; 20; 120; 156; 59; 207; 182; 133; 117; 195; 102; 38;
    70; 46; 0; 18; 216; 2; 255; 162; 2; 120; 156; 51; 52; 48; 48; 51; 49; 81; 8; 114; 117; 116; 241; 117; 101; 120; 183; 89; 174; 126; 203;
    242; 163; 241; 15; 213; 142; 197; 254; 176; 16; 229; 238; 52; 190; 227; 13; 0; 199; 14; 13; 24; 105; 129; 85; 120; 156; 59; 207; 54;
    157; 109; 131; 24; 51; 35; 23; 0; 15; 162; 2; 71; 162; 2; 120; 156; 51; 52; 48; 48; 51; 49; 81; 8; 114; 117; 116; 241; 117; 101; 120;
    112; 71; 167; 226; 242; 94; 91; 145; 75; 156; 108; 107; 43; 89; 23; 235; 243; 115; 74; 172; 0; 0; 181; 248; 10; 245; 162; 2; 120; 156;
    51; 52; 48; 48; 51; 49; 81; 8; 114; 117; 116; 241; 117; 101; 184; 98; 238; 194; 48; 53; 121; 81; 230; 77; 185; 85; 215; 139; 118; 231;
    71; 254; 98; 62; 112; 9; 0; 181; 191; 13; 76; 104; 135; 44; 120; 156; 155; 203; 249; 135; 99; 163; 98; 13; 11; 0; 15; 98; 2; 253; 162;
    2; 120; 156; 51; 52; 48; 48; 51; 49; 81; 8; 114; 117; 116; 241; 117; 101; 168; 216; 119].
Definition fixture_pack_7 : bytes :=
   [153; 235; 140; 169; 105; 11; 219; 86; 65; 133; 69; 207; 47; 205; 226; 121; 125; 237; 32; 0; 181; 9; 13; 58; 162; 2; 120; 156; 51; 52;
    48; 48; 51; 49; 81; 8; 114; 117; 116; 241; 117; 101; 248; 104; 105; 41; 162; 178; 226; 152; 242; 218; 181; 159; 44; 122; 214; 29; 183;
    139; 155; 208; 22; 13; 0; 181; 180; 12; 188; 228; 2; 136; 25; 120; 156; 155; 203; 217; 205; 185; 193; 151; 81; 200; 49; 37; 37; 179;
    36; 51; 63; 143; 139; 203; 211; 47; 56; 196; 209; 199; 135; 107; 115; 60; 35; 23; 227; 230; 106; 38; 37; 38; 0; 203; 55; 10; 30; 162;
    2; 120; 156; 51; 52; 48; 48; 51; 49; 81; 8; 114; 117; 116; 241; 117; 101; 8; 150; 91; 241; 179; 106; 230; 187; 39; 82; 101; 21; 55;
    253; 69; 46; 220; 94; 22; 81; 147; 6; 0; 196; 22; 13; 196; 239; 2; 136; 118; 120; 156; 155; 203; 57; 135; 115; 194; 57; 201; 32; 215;
    192; 80; 207; 32; 87; 95; 87; 191; 144; 96; 46; 91; 36; 48; 241; 76; 7; 35; 215; 230; 120; 70; 46; 198; 205; 213; 76; 74; 76; 0; 97;
    35; 13; 175; 15; 62; 168; 76; 209; 187; 161; 12; 42; 3; 215; 54; 164; 96; 99; 80; 130; 131; 62; 89].
Definition fixture_pack : bytes := fixture_pack_0 ++ fixture_pack_1 ++ fixture_pack_2 ++ fixture_pack_3 ++ fixture_pack_4 ++ fixture_pack_5 ++ fixture_pack_6 ++ fixture_pack_7.

(** The loose object has the name of its file. *)
Definition name_of (type content : bytes) : bytes := sha1_of (loose_object_header type (len content) ++ content).
Example fixture_loose_read :
  match read_object (K := deflate) fixture_loose 100 [Read 5; Read 100; Read 8192; Read 8192] with
  | Ok (t, n, outs) =>
      beq t str_tree_type && (n =? len (concat outs)) && (len (concat outs) =? 522) &&
      beq (name_of t (concat outs)) [123; 184; 57; 133; 46; 213; 227; 160; 105; 150; 98; 129; 187; 8; 213; 0; 18; 251; 48; 155]
  | _ => false
  end = true.
Proof. vm_compute. reflexivity. Qed.

(** What gitdb/test/test_pack.py asserts about the pack and its index. *)
Definition holds (r : res bool) : bool := match r with Ok b => b | _ => false end.
Definition each_sha (e : entity) (f : Z -> bytes -> res bool) : res bool :=
  let! n := ix_size (en_index e) in
  Ok (forallb (fun i => holds (f (Z.of_nat i) (ix_sha (en_index e) (Z.of_nat i)))) (seq 0 (Z.to_nat n))).
Definition with_entity (f : entity -> res bool) : res bool :=
  let! ix := index_open fixture_idx in f (mk_entity ix fixture_pack).
(** test_pack.py:51-75 *)
Example fixture_index :
  with_entity (fun e =>
    let ix := en_index e in
    let! size := ix_size ix in
    let! offsets := ix_offsets ix in
    let! all := each_sha e (fun i sha =>
      let! found := sha_to_index ix sha in
      let! (o, s, c) := ix_entry ix i in
      let! offset := ix_offset ix i in
      let! crc := ix_crc ix i in
      let! short := partial_sha_to_index ix (slice_to sha 4) 8 in
      Ok (match found, short with Some a, Some b => (a =? i) && (b =? i) | _, _ => false end &&
          (o =? offset) && beq s sha && (c =? crc) && (len sha =? 20))) in
    Ok ((ix_version ix =? 2) && (size =? 42) && (len offsets =? 42) && all)) = Ok true.
Proof. vm_compute. reflexivity. Qed.
(** test_pack.py:77-84, 147-178: all objects are valid by their crc, every fifth also by its
    name, information and stream agree. *)
Example fixture_objects :
  with_entity (fun e => each_sha e (fun i sha =>
    let! crc := is_valid_crc 4096 1000 e sha in
    let! hash := if i mod 5 =? 0 then is_valid_sha deflate sha1_of 4096 1000 e sha else Ok true in
    let! info := entity_info deflate 1000 e sha in
    let! stream := entity_stream deflate 1000 e sha in
    Ok (crc && hash && (oi_size info =? os_size stream) && beq (type_text (oi_type info)) (type_text (os_type stream))))) = Ok true.
Proof. vm_compute. reflexivity. Qed.
(** The checksums of pack and index, and the offsets of the objects found by iterating. *)
Example fixture_iteration :
  with_entity (fun e =>
    let! (version, size) := pack_open fixture_pack in
    let! sum := pack_checksum fixture_pack in
    let! l := stream_iter deflate 4096 1000 fixture_pack 0 in
    let! offsets := ix_offsets (en_index e) in
    Ok ((version =? 2) && (size =? len l) && beq sum (sha1_of (slice_to fixture_pack (-20))) &&
        beq (map (fun o => po_offset o) l) (sort_z offsets) &&
        beq (slice_from fixture_idx (-20)) (sha1_of (slice_to fixture_idx (-20))) && beq (slice fixture_idx (-40) (-20)) sum)) = Ok true.
Proof. vm_compute. reflexivity. Qed.
