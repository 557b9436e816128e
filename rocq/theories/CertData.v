(** GENERATED by tools/gen_cert.py from ast/y.go.  Checked in Cert.v. *)
From Verif Require Import Bytes.

(** For every state of the automaton, the states that can lie below it on the stack. *)
Definition preds : list (list Z) := [
  [];
  [0];
  [0];
  [0];
  [0; 3; 28; 117; 136; 137; 168; 172; 183; 184; 196; 202];
  [0];
  [0];
  [0; 3; 28; 48; 117; 136; 137; 168; 172; 183; 184; 196; 202];
  [0; 3; 28; 48; 117; 136; 137; 168; 172; 183; 184; 196; 202];
  [0; 3; 28; 48; 117; 136; 137; 168; 172; 183; 184; 196; 202];
  [0; 3; 28; 48; 117; 136; 137; 168; 172; 183; 184; 196; 202];
  [0; 3; 28; 48; 117; 136; 137; 168; 172; 183; 184; 196; 202];
  [0; 3; 28; 48; 117; 136; 137; 168; 172; 183; 184; 196; 202];
  [0; 3; 28; 48; 117; 136; 137; 168; 172; 183; 184; 196; 202];
  [0; 3; 28; 48; 117; 136; 137; 168; 172; 183; 184; 196; 202];
  [0; 3; 28; 48; 117; 136; 137; 168; 172; 183; 184; 196; 202];
  [0; 3];
  [0; 3];
  [0; 3; 14; 15; 20; 21; 25; 26; 27; 28; 34; 35; 48; 53; 56; 57; 58; 59; 60; 61; 62; 63; 64; 65; 66; 67; 68; 73; 86; 88; 94; 95; 115; 117; 119; 128; 134; 136; 137; 147; 149; 168; 172; 180; 183; 184; 196; 202];
  [0; 3; 14; 15; 20; 21; 25; 26; 27; 28; 34; 35; 48; 53; 56; 57; 58; 59; 60; 61; 62; 63; 64; 65; 66; 67; 68; 73; 86; 88; 94; 95; 115; 117; 119; 128; 136; 137; 147; 149; 168; 172; 180; 183; 184; 196; 202];
  [0; 3; 14; 15; 20; 21; 25; 26; 27; 28; 34; 35; 48; 53; 56; 57; 58; 59; 60; 61; 62; 63; 64; 65; 66; 67; 68; 73; 86; 88; 94; 95; 115; 117; 119; 128; 136; 137; 147; 149; 168; 172; 180; 183; 184; 196; 202];
  [0; 3; 14; 15; 20; 21; 25; 26; 27; 28; 34; 35; 48; 53; 56; 57; 58; 59; 60; 61; 62; 63; 64; 65; 66; 67; 68; 73; 86; 88; 94; 95; 115; 117; 119; 128; 136; 137; 147; 149; 168; 172; 180; 183; 184; 196; 202];
  [0; 3; 14; 15; 20; 21; 25; 26; 27; 28; 34; 35; 48; 53; 56; 57; 58; 59; 60; 61; 62; 63; 64; 65; 66; 67; 68; 73; 86; 88; 94; 95; 115; 117; 119; 128; 136; 137; 147; 149; 168; 172; 180; 183; 184; 196; 202];
  [0; 3; 14; 15; 20; 21; 25; 26; 27; 28; 34; 35; 48; 53; 56; 57; 58; 59; 60; 61; 62; 63; 64; 65; 66; 67; 68; 73; 86; 88; 94; 95; 115; 117; 119; 128; 136; 137; 147; 149; 168; 172; 180; 183; 184; 196; 202];
  [0; 3; 14; 15; 20; 21; 25; 26; 27; 28; 34; 35; 48; 53; 56; 57; 58; 59; 60; 61; 62; 63; 64; 65; 66; 67; 68; 73; 86; 88; 94; 95; 115; 117; 119; 128; 136; 137; 147; 149; 168; 172; 180; 183; 184; 196; 202];
  [0; 3; 28; 48; 117; 136; 137; 168; 172; 183; 184; 196; 202];
  [0; 3; 28; 48; 117; 136; 137; 168; 172; 183; 184; 196; 202];
  [0; 3; 28; 48; 117; 136; 137; 168; 172; 183; 184; 196; 202];
  [0; 3; 28; 48; 117; 136; 137; 168; 172; 183; 184; 196; 202];
  [0; 3];
  [0; 3; 14; 15; 20; 21; 25; 26; 27; 28; 34; 35; 48; 53; 54; 56; 57; 58; 59; 60; 61; 62; 63; 64; 65; 66; 67; 68; 73; 86; 88; 94; 95; 115; 117; 119; 128; 134; 136; 137; 147; 149; 168; 172; 180; 183; 184; 196; 202];
  [0; 3; 14; 15; 20; 21; 25; 26; 27; 28; 34; 35; 48; 53; 54; 56; 57; 58; 59; 60; 61; 62; 63; 64; 65; 66; 67; 68; 73; 86; 88; 94; 95; 115; 117; 119; 128; 134; 136; 137; 147; 149; 168; 172; 180; 183; 184; 196; 202];
  [0; 3; 14; 15; 20; 21; 25; 26; 27; 28; 34; 35; 48; 53; 56; 57; 58; 59; 60; 61; 62; 63; 64; 65; 66; 67; 68; 73; 86; 88; 94; 95; 115; 117; 119; 128; 136; 137; 147; 149; 168; 172; 177; 180; 183; 184; 196; 202];
  [0; 3; 14; 15; 20; 21; 25; 26; 27; 28; 34; 35; 48; 53; 56; 57; 58; 59; 60; 61; 62; 63; 64; 65; 66; 67; 68; 73; 86; 88; 94; 95; 115; 117; 119; 128; 136; 137; 147; 149; 168; 172; 177; 180; 183; 184; 196; 202];
  [0; 3; 14; 15; 20; 21; 25; 26; 27; 28; 34; 35; 48; 53; 56; 57; 58; 59; 60; 61; 62; 63; 64; 65; 66; 67; 68; 73; 86; 88; 94; 95; 115; 117; 119; 128; 136; 137; 147; 149; 168; 172; 177; 180; 183; 184; 196; 202];
  [0; 3; 14; 15; 20; 21; 25; 26; 27; 28; 34; 35; 48; 53; 56; 57; 58; 59; 60; 61; 62; 63; 64; 65; 66; 67; 68; 73; 86; 88; 94; 95; 115; 117; 119; 128; 136; 137; 147; 149; 168; 172; 177; 180; 183; 184; 196; 202];
  [0; 3; 14; 15; 20; 21; 25; 26; 27; 28; 34; 35; 48; 53; 56; 57; 58; 59; 60; 61; 62; 63; 64; 65; 66; 67; 68; 73; 86; 88; 94; 95; 115; 117; 119; 128; 136; 137; 147; 149; 168; 172; 177; 180; 183; 184; 196; 202];
  [0; 3; 14; 15; 20; 21; 25; 26; 27; 28; 34; 35; 48; 53; 56; 57; 58; 59; 60; 61; 62; 63; 64; 65; 66; 67; 68; 73; 86; 88; 94; 95; 115; 117; 119; 128; 136; 137; 147; 149; 168; 172; 177; 180; 183; 184; 196; 202];
  [0; 3; 14; 15; 20; 21; 25; 26; 27; 28; 34; 35; 48; 53; 56; 57; 58; 59; 60; 61; 62; 63; 64; 65; 66; 67; 68; 73; 86; 88; 94; 95; 115; 117; 119; 128; 136; 137; 147; 149; 168; 172; 177; 180; 183; 184; 196; 202];
  [0; 3; 14; 15; 20; 21; 25; 26; 27; 28; 34; 35; 48; 53; 56; 57; 58; 59; 60; 61; 62; 63; 64; 65; 66; 67; 68; 73; 86; 88; 94; 95; 115; 117; 119; 128; 136; 137; 147; 149; 168; 172; 177; 180; 183; 184; 196; 202];
  [0; 3; 14; 15; 20; 21; 25; 26; 27; 28; 34; 35; 48; 53; 56; 57; 58; 59; 60; 61; 62; 63; 64; 65; 66; 67; 68; 73; 86; 88; 94; 95; 115; 117; 119; 128; 136; 137; 147; 149; 168; 172; 177; 180; 183; 184; 196; 202];
  [0; 3; 14; 15; 20; 21; 25; 26; 27; 28; 34; 35; 48; 53; 56; 57; 58; 59; 60; 61; 62; 63; 64; 65; 66; 67; 68; 73; 86; 88; 94; 95; 115; 117; 119; 128; 134; 136; 137; 147; 149; 153; 168; 172; 180; 183; 184; 196; 202];
  [0; 3; 14; 15; 20; 21; 25; 26; 27; 28; 34; 35; 48; 53; 56; 57; 58; 59; 60; 61; 62; 63; 64; 65; 66; 67; 68; 73; 86; 88; 94; 95; 115; 117; 119; 128; 134; 136; 137; 147; 149; 168; 172; 180; 183; 184; 196; 202];
  [0; 3];
  [0; 3; 14; 15; 20; 21; 23; 25; 26; 27; 28; 34; 35; 48; 53; 56; 57; 58; 59; 60; 61; 62; 63; 64; 65; 66; 67; 68; 73; 86; 88; 94; 95; 115; 117; 119; 128; 136; 137; 147; 149; 168; 172; 177; 180; 183; 184; 196; 202];
  [3];
  [3];
  [3; 28; 117; 136; 137; 168; 172; 183; 184; 196; 202];
  [5; 45; 82; 133; 156; 157; 182; 186; 192; 193; 203; 206];
  [5; 45; 82; 133; 156; 157; 182; 186; 192; 193; 203; 206];
  [5; 45; 82; 133; 156; 157; 182; 186; 192; 193; 203; 206];
  [5; 45; 82; 133; 138; 156; 157; 182; 186; 192; 193; 203; 205; 206; 208];
  [5; 45; 82; 133; 156; 157; 182; 186; 192; 193; 203; 206];
  [7];
  [7; 71; 151];
  [7; 71; 151];
  [8; 70; 76; 78; 80; 81; 98; 105; 106; 107; 108; 109; 110; 111; 112; 113; 127; 130; 135; 166; 169; 191];
  [8; 70; 76; 78; 80; 81; 98; 105; 106; 107; 108; 109; 110; 111; 112; 113; 127; 130; 135; 166; 169; 191];
  [8; 70; 76; 78; 80; 81; 98; 100; 101; 105; 106; 107; 108; 109; 110; 111; 112; 113; 127; 130; 135; 166; 169; 191];
  [8; 70; 76; 78; 80; 81; 98; 100; 101; 105; 106; 107; 108; 109; 110; 111; 112; 113; 127; 130; 135; 166; 169; 191];
  [8; 70; 76; 78; 80; 81; 98; 100; 101; 105; 106; 107; 108; 109; 110; 111; 112; 113; 127; 130; 135; 166; 169; 191];
  [8; 70; 76; 78; 80; 81; 98; 107; 108; 109; 110; 111; 112; 113; 127; 130; 135; 166; 169; 191];
  [8; 70; 76; 78; 80; 81; 98; 107; 108; 109; 110; 111; 112; 113; 127; 130; 135; 166; 169; 191];
  [8; 70; 76; 78; 80; 81; 98; 108; 109; 110; 111; 112; 113; 127; 130; 135; 166; 169; 191];
  [8; 70; 78; 80; 81; 98; 113; 127; 130; 135; 166; 169; 191];
  [8; 70; 78; 80; 81; 98; 108; 113; 127; 130; 135; 166; 169; 191];
  [8; 70; 78; 80; 81; 98; 108; 109; 113; 127; 130; 135; 166; 169; 191];
  [8; 70; 78; 80; 81; 98; 108; 109; 110; 113; 127; 130; 135; 166; 169; 191];
  [8; 70; 78; 80; 81; 98; 108; 109; 110; 111; 113; 127; 130; 135; 166; 169; 191];
  [14];
  [14; 15; 20; 86; 94; 115; 128];
  [14; 15; 20; 21; 25; 26; 27; 34; 35; 53; 56; 57; 58; 59; 60; 61; 62; 63; 64; 65; 66; 67; 68; 73; 86; 88; 94; 95; 115; 119; 128; 147; 149; 180];
  [15];
  [18; 99];
  [20];
  [20; 86; 94; 128];
  [21];
  [23];
  [25];
  [26];
  [26];
  [27];
  [28];
  [29];
  [29];
  [29];
  [30];
  [31];
  [31];
  [31];
  [31];
  [34];
  [35];
  [41];
  [41];
  [42];
  [48];
  [48];
  [53];
  [54];
  [56];
  [57];
  [58];
  [59];
  [60];
  [61];
  [62];
  [63];
  [64];
  [65];
  [66];
  [67];
  [68];
  [73];
  [74];
  [74; 126; 129; 145];
  [74; 122; 126; 129; 130; 145; 160; 164; 166; 205; 208];
  [78];
  [79];
  [80];
  [81];
  [82];
  [83];
  [83; 198; 204];
  [84];
  [85];
  [86];
  [88];
  [93];
  [94];
  [95];
  [113];
  [115];
  [117];
  [118];
  [119];
  [120];
  [121];
  [122];
  [122; 205; 208];
  [122; 175; 179];
  [124];
  [125];
  [126];
  [127];
  [128];
  [129];
  [130];
  [133];
  [133; 192];
  [134];
  [134];
  [134];
  [134];
  [134];
  [135];
  [136];
  [137];
  [138];
  [139];
  [141];
  [141; 142];
  [141; 142; 176];
  [141; 142; 176];
  [142];
  [145];
  [147];
  [148];
  [148];
  [149];
  [150];
  [153];
  [155];
  [156];
  [157];
  [160];
  [160; 164];
  [161; 188];
  [163];
  [164];
  [166];
  [167];
  [168];
  [169];
  [170];
  [171];
  [172];
  [175];
  [176];
  [177];
  [179];
  [180];
  [183];
  [184];
  [186];
  [187];
  [190];
  [190; 195];
  [190; 195];
  [191];
  [192];
  [193];
  [195];
  [196];
  [197];
  [198];
  [202];
  [203];
  [204];
  [205];
  [206];
  [208]
].

(** Potential of the states, for termination. *)
Definition heights : list Z := [
  1; 0; 1; 2; 4; 0; 3; 7; 6; 6; 6; 6; 4; 4; 5; 5; 4; 4; 8; 7; 2; 0; 7; 0;
  7; 0; 0; 0; 1; 0; 7; 0; 6; 6; 0; 0; 6; 6; 6; 6; 8; 0; 0; 0; 7; 1; 3; 3;
  5; 6; 6; 5; 5; 0; 0; 0; 0; 0; 0; 0; 0; 0; 0; 0; 0; 0; 0; 0; 0; 4; 5; 7;
  4; 0; 0; 1; 5; 5; 0; 0; 0; 0; 0; 0; 0; 0; 2; 7; 0; 6; 6; 6; 6; 4; 2; 0;
  4; 5; 4; 8; 5; 5; 5; 5; 5; 5; 5; 5; 5; 5; 5; 5; 5; 0; 3; 2; 1; 3; 0; 0;
  2; 2; 1; 0; 0; 0; 0; 0; 2; 0; 0; 5; 1; 2; 0; 0; 1; 1; 0; 0; 2; 1; 1; 3;
  3; 0; 2; 0; 1; 0; 0; 1; 1; 0; 1; 2; 0; 0; 3; 0; 0; 1; 0; 0; 0; 0; 0; 0;
  1; 0; 2; 0; 1; 1; 1; 4; 0; 0; 0; 3; 0; 1; 0; 2; 1; 0; 0; 3; 1; 0; 2; 0;
  1; 0; 0; 2; 1; 2; 0; 2; 0; 0; 1; 0; 0; 0; 0; 0; 0; 1; 0; 1
].
