(** GENERATED by tools/testcapnp.py from /repo/tests/test_capnproto.py; do not edit.
    The messages the project's test passes through the schema and back (test_capnproto.py:32-479). *)
From Verif Require Import PyVal.
Definition capnp_vectors : list (list Z) :=
  [
[245; 54; 1; 0];
   [245; 54; 1; 1; 240];
   [245; 54; 1; 2; 240];
   [245; 54; 1; 3; 255];
   [245; 54; 1; 10];
   [245; 54; 1; 11; 0; 0; 0; 0];
   [245; 54; 1; 11; 255; 255; 255; 255];
   [245; 54; 1; 12];
   [245; 54; 1; 13];
   [245; 54; 1; 14; 0; 0; 0; 0; 97; 98; 99];
   [245; 54; 1; 15];
   [245; 54; 1; 16];
   [245; 54; 1; 16; 97; 98; 99; 100; 101; 102; 103; 104; 0; 0; 0; 0; 0; 0];
   [245; 54; 1; 16; 97; 98; 99; 100; 0; 0; 0; 0; 255; 255; 0; 0; 0; 0];
   [245; 54; 1; 17];
   [245; 54; 1; 18];
   [245; 54; 1; 19; 0; 0; 0; 0; 97; 98; 99];
   [245; 54; 1; 20];
   [245; 54; 1; 21];
   [245; 54; 1; 22; 0; 0; 0; 0; 97; 98; 99];
   [245; 54; 1; 23];
   [245; 54; 1; 24; 0; 0];
   [245; 54; 1; 24; 18; 52];
   [245; 54; 1; 24; 255; 255];
   [245; 54; 1; 25];
   [245; 54; 1; 26; 0; 0];
   [245; 54; 1; 26; 18; 52];
   [245; 54; 1; 26; 255; 255];
   [245; 54; 1; 27];
   [245; 54; 1; 28; 97; 98; 99; 100];
   [245; 54; 1; 29];
   [245; 54; 1; 30; 0; 0; 0; 0];
   [245; 54; 1; 30; 18; 52; 86; 120];
   [245; 54; 1; 30; 255; 255; 255; 255];
   [245; 54; 1; 31];
   [245; 54; 1; 32; 0; 0];
   [245; 54; 1; 32; 18; 52];
   [245; 54; 1; 32; 255; 255];
   [245; 54; 1; 33];
   [245; 54; 1; 34; 0; 0];
   [245; 54; 1; 34; 18; 52];
   [245; 54; 1; 34; 255; 255];
   [245; 54; 1; 34; 0; 0; 0; 0];
   [245; 54; 1; 34; 18; 52; 86; 120];
   [245; 54; 1; 34; 255; 255; 255; 255];
   [245; 54; 1; 35; 0];
   [245; 54; 1; 35; 18];
   [245; 54; 1; 35; 255];
   [245; 54; 1; 36; 0; 0];
   [245; 54; 1; 36; 0; 0; 0; 0; 0; 0; 0];
   [245; 54; 1; 36; 0; 0; 255; 255; 255; 255; 255];
   [245; 54; 1; 36; 0; 0; 255; 255; 255; 255; 255; 0; 0; 0; 0; 0; 18; 52; 86; 18; 52];
   [2; 0; 54; 1; 206; 0; 254; 202; 239; 190; 11; 176; 0; 0; 0; 0];
   [128; 2; 0; 11; 0; 1; 0; 0; 1; 33; 0];
   [128; 57; 1; 2; 3; 4; 5; 6; 7; 8; 9];
   [128; 62; 0; 167; 2; 2; 0; 2; 19];
   [130; 101; 34; 34; 51; 51; 255; 50; 60];
   [253; 54; 1; 0];
   [253; 54; 1; 1; 18; 52; 170; 170; 130; 3; 16; 0];
   [253; 54; 1; 1; 18; 52; 170; 170; 130; 3; 16; 0; 3; 0];
   [253; 54; 1; 1; 18; 52; 170; 170; 130; 3; 16; 0];
   [253; 54; 1; 2; 18; 52; 170; 170; 130; 3; 16; 0; 3; 0];
   [252; 54; 1; 0];
   [252; 54; 1; 1; 1; 35; 170; 170];
   [252; 54; 1; 2; 1; 35; 170; 170];
   [252; 54; 1; 3; 18; 52; 170; 170; 32; 1; 35; 0; 17; 1; 1];
   [130; 48];
   [130; 48; 4; 0];
   [130; 49];
   [130; 49; 7; 0];
   [81; 12; 0; 0; 0; 0; 4; 11; 12];
   [81; 25; 0];
   [81; 12; 0; 0; 0; 0; 2; 11; 12; 31; 0; 239; 205; 171; 7; 27; 28];
   [82; 226; 10; 200; 0];
   [82; 34; 11; 32; 3];
   [82; 68; 13; 162; 68; 255];
   [82; 68; 13; 162; 68; 255; 34; 11; 32; 3];
   [82; 9; 144; 64; 162; 68; 255; 0; 0];
   [88; 48; 0; 1; 0; 4; 0; 9; 0];
   [88; 48; 0];
   [89; 87; 0; 87; 0; 200; 0];
   [91; 87; 0; 87; 0; 1; 200; 0];
   [91; 87; 0; 2; 0; 1; 200; 0; 57];
   [89; 87; 0; 87; 0; 200; 0];
   [89; 87; 0; 2; 0; 200; 0; 57];
   [89; 5; 0; 5; 0; 32; 3; 84];
   [89; 87; 0; 2; 0; 200; 0; 0];
   [89; 89; 0; 89; 0; 0; 3];
   [89; 66; 0; 77; 0; 1];
   [89; 66; 0; 66; 0; 80];
   [89; 10; 0; 54; 0; 184; 11; 0];
   [89; 109; 0; 109; 0; 10; 0; 0];
   [89; 109; 0; 109; 0; 255; 255; 255];
   [89; 85; 0; 85; 0; 26; 39; 0];
   [89; 76; 0; 76; 0; 27; 26];
   [89; 108; 0; 108; 0; 255; 27; 26];
   [89; 108; 0; 108; 0; 255; 255; 255];
   [89; 104; 0; 104; 0; 5; 0];
   [89; 103; 0; 103; 0; 5; 0; 1; 0; 112; 64];
   [89; 14; 0; 14; 0; 97; 98; 99; 100; 101; 102; 103; 104];
   [89; 14; 0; 14; 0; 97; 98; 99; 100; 101; 102; 0; 0];
   [89; 17; 0; 17; 0; 97; 98; 99; 100; 101; 102; 103; 104; 97; 98; 99; 100; 101; 102; 103; 104; 97; 98; 99; 100; 101; 102; 103; 104; 97; 98; 99; 100; 101; 102; 103; 104; 97; 98; 99; 100];
   [89; 106; 0; 106; 0; 162; 68; 255];
   [89; 46; 0; 46; 0; 68; 255];
   [89; 50; 0; 50; 0; 68; 255; 0; 0];
   [89; 82; 0; 82; 0; 160; 134; 1];
   [89; 22; 0; 22; 0; 232; 3; 0; 208; 7; 0; 15; 39; 0];
   [89; 79; 0; 79; 0; 31];
   [89; 79; 0; 79; 0; 225];
   [89; 84; 0; 84; 0; 230; 32];
   [89; 69; 0; 69; 0; 49; 2; 220; 110; 113];
   [89; 20; 0; 20; 0; 146; 9; 100; 0; 248; 248; 32; 78; 113];
   [89; 19; 0; 19; 0; 220; 110];
   [89; 1; 0; 1; 0; 24; 109; 162];
   [89; 96; 0; 96; 0; 162; 68; 255; 109; 162];
   [89; 42; 0; 42; 0; 105; 1; 64; 0; 0; 0; 240; 255; 84];
   [89; 73; 0; 73; 0; 0; 0; 0; 6; 240; 255];
   [89; 71; 0; 71; 0; 151; 9; 100; 0; 0; 0; 125; 21; 113];
   [89; 70; 0; 70; 0; 0; 0; 125; 21];
   [89; 33; 0; 33; 0; 0; 0; 1; 0; 125; 21];
   [89; 112; 0; 112; 0; 2; 0; 0];
   [89; 6; 0; 6; 0; 0; 32];
   [89; 64; 0; 64; 0; 2; 0; 0];
   [89; 31; 0; 31; 0; 208; 7];
   [89; 65; 0; 65; 0; 232; 3; 208; 7];
   [89; 62; 0; 62; 0; 212; 7];
   [89; 15; 0; 15; 0; 255; 238; 221; 204; 187; 170];
   [89; 7; 0; 7; 0; 100];
   [89; 94; 0; 94; 0; 146; 39];
   [89; 81; 0; 81; 0; 184; 11];
   [89; 10; 0; 10; 0; 4; 240];
   [89; 11; 0; 11; 0; 42; 0];
   [89; 12; 0; 12; 0; 222; 70; 0];
   [89; 80; 0; 80; 0; 238; 0; 205; 171];
   [89; 8; 0; 8; 0; 100];
   [89; 8; 0; 8; 0; 156];
   [89; 97; 0; 97; 0; 136; 170; 0; 187; 187];
   [89; 98; 0; 98; 0; 136; 26; 39; 0; 26; 39; 0];
   [89; 100; 0; 100; 0; 136; 255; 255; 230; 32];
   [89; 101; 0; 101; 0; 136; 0; 0; 205; 171];
   [89; 102; 0; 102; 0; 136; 32; 3; 32; 3];
   [130; 75];
   [130; 76; 187; 170; 34];
   [130; 76; 1; 0; 34];
   [130; 76; 0; 0; 49; 50; 60];
   [130; 77; 0; 0; 49; 50; 60];
   [130; 78; 68; 0];
   [130; 78; 0; 0; 49; 200; 15];
   [130; 79];
   [130; 80; 187; 170; 1];
   [130; 80; 1; 0; 34];
   [130; 80; 0; 0; 49; 50; 27];
   [130; 81; 255; 0; 49; 50; 60];
   [130; 82; 0; 0; 221; 187; 76];
   [130; 83];
   [130; 84; 0; 0];
   [130; 85];
   [130; 86; 0; 0];
   [130; 87];
   [130; 88; 0; 17; 17; 136; 136];
   [130; 65];
   [130; 66; 1; 0; 30];
   [130; 67; 1; 0; 30];
   [130; 66; 1; 0; 30; 242; 60];
   [130; 67; 1; 0; 30; 242; 60];
   [94; 0; 1; 0];
   [94; 0; 1; 0; 2; 0; 242];
   [130; 68];
   [130; 69; 0; 1; 0; 1; 0; 2; 0; 0; 0; 0; 0; 0; 0; 0; 0; 0; 0; 0; 0; 0; 0; 0; 0; 0; 0; 0; 0; 0; 0; 0; 0; 0; 0; 0; 0];
   [130; 70; 1; 0];
   [130; 71; 1; 0];
   [130; 158; 1; 0];
   [130; 159; 1; 0];
   [130; 1];
   [130; 2; 1; 34];
   [130; 2; 1; 34];
   [130; 2; 0; 49; 50; 60];
   [130; 2; 0; 49; 242; 60];
   [130; 4; 0];
   [130; 4; 0; 1; 74];
   [130; 4; 0; 1; 255];
   [130; 5];
   [130; 6; 255; 127; 34];
   [130; 6; 0; 128; 34];
   [130; 6; 1; 0; 34];
   [130; 6; 0; 0; 49; 50; 60];
   [130; 7; 0; 0; 49; 50; 60];
   [130; 8; 255; 127];
   [130; 8; 0; 128];
   [130; 8; 0; 0; 255; 0; 74];
   [130; 8; 0; 0; 1; 0; 255];
   [130; 9; 255; 255; 255; 127; 34];
   [130; 9; 0; 0; 0; 128; 34];
   [130; 9; 1; 0; 0; 0; 34];
   [130; 9; 0; 0; 0; 0; 49; 50; 60];
   [130; 10; 0; 0; 0; 0; 49; 50; 60];
   [130; 11; 255; 127; 34];
   [130; 11; 0; 128; 34];
   [130; 11; 1; 0; 34];
   [130; 11; 0; 0; 49; 50; 60];
   [130; 12; 0; 0; 49; 50; 60];
   [93; 142; 169; 40; 42; 0; 89; 5; 73; 2; 72];
   [235; 54; 1; 2; 9; 0; 2; 0; 16; 32; 48; 2; 8; 0; 4; 32];
   [235; 54; 1; 2; 11; 2; 12; 6; 0; 16; 0; 32; 0; 48];
   [235; 54; 1; 2; 75; 0; 11; 9; 109; 121; 32; 115; 116; 114; 105; 110; 103];
   [235; 54; 1; 2; 85; 0; 2; 0; 16; 32; 48; 10; 0; 8; 0; 50; 0; 40];
   [235; 54; 1; 3; 19; 0];
   [235; 54; 1; 0; 15; 0];
   [235; 54; 1; 2; 254; 0; 255];
   [2; 1; 1; 0; 0];
   [2; 1; 1; 0; 4; 0];
   [2; 1; 2; 1; 0; 5; 0; 0; 0; 1; 2; 1; 0; 5; 1; 23; 1; 1];
   [2; 1; 5; 3; 7; 1; 26; 253; 9; 1; 56; 48; 1; 8; 5; 8; 72; 0; 0; 5; 10; 0; 5; 10; 208];
   [128; 40; 2; 0];
   [128; 40; 2; 255];
   [128; 40; 1; 0];
   [128; 40; 0; 0];
   [128; 40; 1; 255];
   [128; 40; 0; 255];
   [128; 39; 1; 0];
   [128; 39; 0; 0];
   [128; 39; 1; 255];
   [128; 39; 0; 255];
   [130; 46];
   [75; 115; 0; 136; 0; 137; 0; 140; 0; 141; 0; 142; 0; 143; 0; 144; 0; 145; 0; 146; 0; 147; 0; 148; 0; 149; 0; 150; 0];
   [130; 47; 111; 0];
   [76; 140; 0; 3];
   [77; 136; 0; 254; 255; 255];
   [78; 137; 0; 1; 254; 255];
   [130; 44];
   [71; 151; 0; 152; 0; 153; 0; 154; 0; 156; 0; 157; 0; 158; 0; 159; 0; 160; 0; 164; 0; 165; 0; 171; 0; 172; 0; 173; 0];
   [130; 45; 112; 0];
   [72; 148; 0; 0; 127; 255];
   [73; 164; 0; 2; 255; 255; 253];
   [74; 115; 0; 2; 100];
   [130; 42];
   [67; 174; 0; 180; 0; 181; 0; 182; 0; 183; 0];
   [130; 43; 114; 0];
   [68; 141; 0; 0];
   [69; 153; 0; 1];
   [70; 160; 0; 3; 254; 255; 0];
   [70; 131; 0; 1; 253; 255; 255; 255];
   [70; 132; 0; 1; 253; 255; 255];
   [70; 128; 0; 1; 253; 255; 255; 255];
   [70; 179; 0; 3; 5];
   [79];
   [80; 115; 0];
   [246; 54; 1; 0; 113; 255];
   [246; 54; 1; 1; 113; 255; 1];
   [246; 54; 1; 3; 114; 255; 144; 202; 4];
   [234; 54; 1; 0];
   [234; 54; 1; 1];
   [234; 54; 1; 2];
   [234; 54; 1; 3];
   [234; 54; 1; 4];
   [234; 54; 1; 5; 0];
   [234; 54; 1; 6; 128; 255];
   [234; 54; 1; 7; 128; 255; 52; 18];
   [234; 54; 1; 8; 128; 255; 52; 18];
   [234; 54; 1; 9; 128; 255; 52; 18];
   [234; 54; 1; 10];
   [234; 54; 1; 11];
   [234; 54; 1; 12];
   [234; 54; 1; 13; 103; 69; 35; 1; 239; 205; 171; 137];
   [234; 54; 1; 14];
   [234; 54; 1; 15];
   [234; 54; 1; 16];
   [234; 54; 1; 17];
   [233; 54; 1; 0];
   [233; 54; 1; 1];
   [233; 54; 1; 2];
   [233; 54; 1; 3; 0; 0; 0; 0; 0; 64; 31; 1; 0; 0];
   [233; 54; 1; 3; 0; 0; 0; 0; 0; 64; 255; 0; 7; 1];
   [233; 54; 1; 3; 46; 72; 213; 47; 0; 72; 36; 1; 2; 2];
   [233; 54; 1; 3; 0; 0; 0; 0; 0; 120; 36; 1; 3; 7; 69; 0; 0; 0];
   [233; 54; 1; 4];
   [233; 54; 1; 5];
   [233; 54; 1; 6];
   [233; 54; 1; 7; 0; 0; 0; 0; 0; 64; 31; 1; 0; 0; 0; 0];
   [233; 54; 1; 7; 0; 0; 0; 0; 0; 64; 255; 0; 7; 1; 255; 255];
   [233; 54; 1; 7; 46; 72; 213; 47; 0; 72; 36; 1; 2; 2; 0; 0];
   [233; 54; 1; 7; 0; 0; 0; 0; 0; 120; 36; 1; 3; 15; 16; 14; 69; 0; 0; 0];
   [233; 54; 1; 8; 132; 255];
   [233; 54; 1; 8; 133; 255];
   [233; 54; 1; 8; 134; 255];
   [233; 54; 1; 8; 135; 255];
   [233; 54; 1; 8; 136; 255];
   [233; 54; 1; 8; 137; 255];
   [233; 54; 1; 8; 138; 255];
   [233; 54; 1; 8; 139; 255];
   [233; 54; 1; 9; 132; 255; 4; 3; 2; 1];
   [233; 54; 1; 9; 133; 255; 4; 3; 2; 1];
   [233; 54; 1; 9; 134; 255; 4; 3; 2; 1];
   [233; 54; 1; 9; 135; 255; 4; 3; 2; 1];
   [233; 54; 1; 9; 136; 255; 4; 3; 2; 1];
   [233; 54; 1; 9; 137; 255; 4; 3; 2; 1];
   [233; 54; 1; 9; 138; 255; 4; 3; 2; 1];
   [233; 54; 1; 9; 139; 255; 4; 3; 2; 1];
   [233; 54; 1; 10; 132; 255; 4; 3; 2; 1];
   [233; 54; 1; 10; 133; 255; 4; 3; 2; 1];
   [233; 54; 1; 10; 134; 255; 4; 3; 2; 1];
   [233; 54; 1; 10; 135; 255; 4; 3; 2; 1];
   [233; 54; 1; 10; 136; 255; 4; 3; 2; 1];
   [233; 54; 1; 10; 137; 255; 4; 3; 2; 1];
   [233; 54; 1; 10; 138; 255; 4; 3; 2; 1];
   [233; 54; 1; 10; 139; 255; 4; 3; 2; 1];
   [233; 54; 1; 11; 132; 255; 4; 3; 2; 1];
   [233; 54; 1; 11; 133; 255; 4; 3; 2; 1];
   [233; 54; 1; 11; 134; 255; 4; 3; 2; 1];
   [233; 54; 1; 11; 135; 255; 4; 3; 2; 1];
   [233; 54; 1; 11; 136; 255; 4; 3; 2; 1];
   [233; 54; 1; 11; 137; 255; 4; 3; 2; 1];
   [233; 54; 1; 11; 138; 255; 4; 3; 2; 1];
   [233; 54; 1; 11; 139; 255; 4; 3; 2; 1]].
