(** The ROM of the example computer: examples/ral1243/rom/rom.bin byte for byte (written by tools/gen_rom.py). *)
From Coq Require Import ZArith List.
Import ListNotations.
Open Scope Z_scope.

(* examples/ral1243/rom/rom.bin *)
Definition kernel : list Z := [
  243; 62; 1; 237; 71; 195; 57; 4; 217; 33; 5; 32; 195; 62; 1; 118; 217; 33; 5; 32; 195; 120; 1; 0; 221; 233; 0; 0; 0;
  0; 0; 0; 253; 233; 0; 0; 0; 0; 0; 0; 217; 38; 3; 111; 126; 44; 102; 111; 233; 0; 0; 0; 0; 0; 0; 0; 241; 58; 7; 32;
  230; 1; 192; 243; 62; 1; 237; 71; 42; 8; 32; 35; 249; 205; 10; 4; 175; 50; 5; 32; 205; 13; 1; 205; 13; 1; 251; 195;
  87; 5; 0; 0; 0; 0; 0; 0; 0; 0; 0; 0; 0; 0; 229; 245; 33; 7; 32; 203; 78; 40; 4; 203; 134; 24; 204; 241; 225; 237; 69;
  0; 0; 0; 0; 0; 0; 0; 0; 0; 0; 0; 0; 0; 0; 0; 0; 0; 0; 0; 0; 0; 0; 0; 0; 0; 0; 0; 0; 0; 0; 0; 0; 0; 0; 0; 0; 0; 0; 0;
  0; 0; 0; 0; 0; 0; 0; 0; 0; 0; 0; 0; 0; 0; 0; 0; 0; 0; 0; 0; 0; 0; 0; 0; 0; 0; 0; 0; 0; 0; 0; 0; 0; 0; 0; 0; 0; 0; 0;
  0; 0; 0; 0; 0; 0; 0; 0; 0; 0; 0; 0; 0; 0; 0; 0; 0; 0; 0; 0; 0; 0; 0; 0; 0; 0; 0; 0; 0; 0; 0; 0; 0; 0; 0; 0; 0; 0; 0;
  0; 0; 0; 0; 0; 0; 0; 0; 0; 0; 0; 0; 0; 0; 0; 0; 0; 0; 0; 0; 15; 1; 12; 1; 12; 1; 12; 1; 38; 1; 96; 1; 251; 237; 77;
  245; 229; 33; 0; 32; 52; 32; 10; 35; 52; 32; 6; 35; 52; 32; 2; 35; 52; 225; 241; 251; 237; 77; 245; 229; 33; 5; 32;
  203; 78; 32; 11; 219; 8; 203; 206; 43; 119; 251; 225; 241; 237; 77; 203; 198; 24; 247; 243; 203; 78; 40; 12; 203; 70;
  32; 14; 203; 142; 43; 180; 126; 251; 217; 201; 48; 251; 251; 118; 24; 233; 203; 134; 43; 126; 245; 219; 8; 119; 241;
  24; 236; 245; 229; 33; 5; 32; 203; 86; 40; 11; 203; 150; 35; 126; 211; 10; 251; 225; 241; 237; 77; 203; 158; 24; 247;
  243; 203; 86; 32; 12; 203; 94; 40; 14; 203; 214; 35; 119; 191; 251; 217; 201; 56; 251; 251; 118; 24; 233; 203; 222;
  211; 10; 24; 240; 217; 33; 0; 32; 243; 126; 251; 118; 243; 190; 40; 250; 217; 11; 121; 176; 217; 32; 242; 251; 217;
  201; 217; 183; 207; 200; 24; 250; 217; 33; 5; 32; 243; 203; 78; 40; 5; 43; 126; 251; 217; 201; 48; 251; 251; 118; 24;
  240; 217; 33; 0; 32; 243; 58; 5; 32; 230; 2; 32; 14; 126; 251; 118; 243; 190; 40; 242; 217; 11; 121; 176; 217; 32;
  235; 251; 217; 201; 217; 243; 58; 5; 32; 230; 4; 40; 4; 251; 118; 24; 244; 251; 201; 217; 121; 183; 215; 16; 252;
  201; 217; 24; 3; 183; 215; 35; 126; 187; 32; 249; 201; 217; 121; 176; 200; 126; 215; 11; 35; 24; 247; 217; 14; 156;
  205; 27; 2; 14; 246; 205; 27; 2; 122; 24; 13; 6; 0; 122; 129; 4; 56; 252; 145; 5; 87; 120; 40; 6; 30; 48; 131; 195;
  16; 0; 179; 200; 195; 16; 0; 217; 1; 240; 216; 205; 79; 2; 1; 24; 252; 205; 79; 2; 1; 156; 255; 205; 79; 2; 1; 246;
  255; 205; 79; 2; 125; 24; 10; 175; 9; 60; 56; 252; 237; 66; 61; 40; 6; 30; 48; 131; 195; 16; 0; 179; 200; 195; 16; 0;
  217; 65; 175; 237; 111; 32; 4; 24; 6; 237; 111; 198; 48; 215; 175; 237; 111; 198; 48; 215; 35; 175; 16; 241; 201;
  217; 34; 10; 32; 120; 131; 95; 138; 147; 87; 217; 42; 10; 32; 43; 54; 0; 14; 1; 217; 27; 26; 217; 55; 23; 87; 42; 10;
  32; 65; 43; 126; 143; 39; 119; 16; 249; 48; 4; 12; 43; 54; 1; 203; 34; 194; 151; 2; 217; 16; 225; 217; 201; 217; 124;
  235; 33; 0; 1; 93; 1; 12; 0; 237; 176; 237; 71; 201; 217; 243; 237; 91; 0; 32; 42; 2; 32; 251; 201; 0; 0; 0; 0; 0; 0;
  0; 0; 0; 0; 0; 0; 0; 0; 0; 0; 0; 0; 0; 0; 0; 0; 0; 0; 0; 0; 0; 0; 0; 0; 0; 0; 0; 0; 0; 0; 0; 0; 0; 0; 0; 0; 0; 0; 0;
  0; 0; 0; 0; 0; 0; 0; 150; 1; 171; 1; 178; 1; 198; 1; 226; 1; 241; 1; 248; 1; 3; 2; 13; 2; 51; 2; 100; 2; 125; 2; 178;
  2; 193; 2; 0; 0; 0; 0; 0; 0; 0; 0; 0; 0; 0; 0; 0; 0; 0; 0; 0; 0; 0; 0; 0; 0; 0; 0; 0; 0; 0; 0; 0; 0; 0; 0; 0; 0; 0;
  0; 0; 0; 0; 0; 0; 0; 0; 0; 0; 0; 0; 0; 0; 0; 0; 0; 0; 0; 0; 0; 0; 0; 0; 0; 0; 0; 0; 0; 0; 0; 0; 0; 0; 0; 0; 0; 0; 0;
  0; 0; 0; 0; 0; 0; 0; 0; 0; 0; 0; 0; 0; 0; 0; 0; 0; 0; 0; 0; 0; 0; 0; 0; 0; 0; 0; 0; 0; 0; 0; 0; 0; 0; 0; 0; 0; 0; 0;
  0; 0; 0; 0; 0; 0; 0; 0; 0; 0; 0; 0; 0; 0; 0; 0; 0; 0; 0; 0; 0; 0; 0; 0; 0; 0; 0; 0; 0; 0; 0; 0; 0; 0; 0; 0; 0; 0; 0;
  0; 0; 0; 0; 0; 0; 0; 0; 0; 0; 0; 0; 0; 0; 0; 0; 0; 0; 0; 0; 0; 0; 0; 0; 0; 0; 0; 0; 0; 0; 0; 0; 0; 0; 0; 0; 0; 0; 0;
  0; 0; 0; 0; 0; 0; 0; 0; 0; 0; 0; 0; 0; 0; 0; 0; 0; 0; 0; 0; 0; 0; 0; 0; 0; 0; 0; 0; 0; 0; 0; 0; 0; 0; 0; 0; 0; 225;
  24; 2; 215; 35; 126; 183; 32; 250; 233; 237; 94; 62; 0; 211; 4; 62; 215; 211; 4; 62; 100; 211; 4; 62; 3; 211; 5; 211;
  6; 211; 7; 62; 79; 211; 9; 62; 8; 211; 9; 62; 131; 211; 9; 62; 15; 211; 11; 62; 10; 211; 11; 62; 131; 211; 11; 201;
  62; 85; 33; 0; 32; 1; 32; 0; 119; 190; 32; 12; 35; 16; 249; 13; 32; 246; 183; 40; 3; 135; 24; 234; 194; 15; 0; 249;
  211; 124; 205; 10; 4; 251; 62; 21; 183; 215; 62; 0; 183; 215; 205; 0; 4; 12; 82; 65; 76; 32; 49; 50; 52; 51; 32; 40;
  99; 41; 32; 65; 108; 108; 32; 114; 105; 103; 104; 116; 115; 32; 114; 101; 115; 101; 114; 118; 101; 100; 32; 106; 46;
  107; 46; 32; 50; 48; 49; 57; 45; 50; 48; 50; 52; 13; 10; 75; 101; 114; 110; 101; 108; 32; 118; 101; 114; 115; 105;
  111; 110; 58; 32; 49; 46; 48; 46; 49; 46; 13; 10; 10; 84; 101; 115; 116; 105; 110; 103; 32; 117; 112; 112; 101; 114;
  32; 82; 65; 77; 58; 32; 0; 33; 0; 64; 34; 8; 32; 1; 0; 64; 237; 66; 30; 48; 205; 52; 2; 1; 8; 5; 205; 242; 1; 62; 85;
  42; 8; 32; 1; 4; 0; 119; 190; 32; 12; 35; 16; 249; 13; 32; 246; 183; 40; 3; 135; 24; 234; 40; 211; 249; 43; 34; 8;
  32; 175; 1; 255; 63; 237; 66; 32; 32; 205; 0; 4; 78; 111; 32; 117; 115; 101; 114; 32; 82; 65; 77; 32; 100; 101; 116;
  101; 99; 116; 101; 100; 46; 13; 10; 0; 205; 227; 1; 243; 118; 30; 48; 205; 52; 2; 205; 0; 4; 32; 98; 121; 116; 101;
  115; 46; 13; 10; 13; 10; 0; 205; 227; 1; 1; 50; 0; 205; 149; 1; 205; 0; 4; 82; 101; 97; 100; 121; 46; 13; 10; 0; 205;
  227; 1; 205; 172; 1; 1; 94; 1; 205; 197; 1; 33; 7; 32; 203; 142; 203; 198; 62; 21; 183; 215; 62; 0; 183; 215; 205; 0;
  4; 12; 82; 65; 76; 32; 49; 50; 52; 51; 32; 69; 88; 45; 82; 79; 77; 32; 77; 69; 78; 85; 58; 13; 10; 0; 175; 211; 124;
  205; 0; 32; 32; 30; 219; 124; 111; 38; 0; 30; 0; 205; 52; 2; 205; 0; 4; 46; 32; 0; 33; 0; 64; 30; 0; 205; 249; 1;
  205; 0; 4; 13; 10; 0; 219; 124; 60; 32; 214; 33; 7; 32; 203; 134; 205; 0; 4; 13; 115; 101; 108; 101; 99; 116; 32;
  101; 120; 45; 114; 111; 109; 62; 32; 32; 32; 32; 8; 8; 8; 21; 1; 0; 175; 8; 205; 172; 1; 1; 244; 1; 205; 197; 1; 40;
  53; 207; 254; 10; 40; 48; 254; 13; 40; 44; 214; 48; 56; 202; 254; 10; 48; 198; 111; 38; 0; 8; 95; 22; 0; 203; 35;
  203; 18; 25; 235; 41; 41; 25; 175; 180; 32; 178; 125; 55; 8; 198; 48; 215; 125; 183; 32; 201; 62; 8; 183; 215; 24;
  195; 8; 48; 159; 211; 124; 33; 7; 32; 203; 198; 205; 0; 32; 194; 87; 5; 33; 7; 32; 203; 134; 62; 12; 183; 215; 33; 0;
  64; 30; 0; 205; 249; 1; 35; 229; 205; 0; 4; 13; 10; 0; 225; 30; 0; 205; 249; 1; 205; 0; 4; 13; 10; 82; 117; 110; 63;
  32; 89; 47; 110; 32; 62; 0; 55; 207; 254; 110; 202; 87; 5; 33; 7; 32; 203; 206; 221; 233].
