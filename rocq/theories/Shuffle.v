(** The program of the crate's shuffle test: tests/shuffle/shuffle.bin byte for byte, symbols of tests/shuffle/shuffle.meta and
    expected results tests/shuffle/shuffled_*.bin (written by tools/gen_shuffle.py). *)
From Coq Require Import ZArith List.
Import ListNotations.
Open Scope Z_scope.

Definition at_seed : Z := 712.
Definition at_multiplicator : Z := 714.
Definition at_target : Z := 716.
Definition at_target_end : Z := 972.
Definition at_routine : Z := 972.
Definition at_shuffle : Z := 119.
Definition at_selection_asc : Z := 255.
Definition at_selection_desc : Z := 286.
Definition at_insertion_asc : Z := 317.
Definition at_insertion_desc : Z := 358.
Definition at_quick_asc : Z := 399.
Definition at_quick_desc : Z := 486.
Definition at_mul_seed : Z := 573.
Definition at_stackbot : Z := 994.
Definition at_stackend : Z := 1506.

(* tests/shuffle/shuffle.bin *)
Definition image : list Z := [
  243; 33; 226; 5; 249; 195; 9; 0; 233; 42; 204; 3; 207; 118; 0; 0; 211; 66; 201; 0; 0; 0; 0; 0; 221; 233; 0; 0; 0; 0;
  0; 0; 245; 197; 213; 217; 197; 213; 229; 217; 121; 71; 131; 95; 138; 147; 87; 175; 50; 225; 3; 217; 14; 1; 217; 27;
  26; 217; 55; 23; 87; 33; 226; 3; 65; 43; 126; 143; 39; 119; 16; 249; 48; 4; 12; 43; 54; 1; 203; 34; 194; 61; 0; 217;
  16; 225; 217; 65; 175; 237; 111; 32; 4; 24; 6; 237; 111; 198; 48; 215; 175; 237; 111; 198; 48; 215; 35; 175; 16; 241;
  217; 225; 209; 193; 217; 209; 193; 241; 201; 33; 204; 2; 175; 17; 0; 0; 245; 123; 178; 95; 229; 213; 205; 168; 0;
  209; 163; 71; 122; 144; 56; 245; 225; 213; 74; 93; 84; 40; 9; 71; 123; 144; 95; 159; 130; 87; 26; 119; 121; 18; 209;
  241; 35; 20; 186; 32; 215; 201; 42; 200; 2; 35; 125; 180; 194; 187; 0; 33; 181; 255; 24; 68; 135; 16; 62; 24; 63;
  175; 93; 84; 79; 41; 235; 203; 17; 25; 137; 235; 41; 203; 17; 41; 235; 203; 17; 25; 137; 235; 41; 203; 17; 41; 203;
  17; 41; 203; 17; 25; 137; 40; 28; 17; 255; 255; 6; 8; 41; 143; 5; 210; 226; 0; 77; 108; 103; 121; 43; 40; 10; 135;
  237; 106; 48; 3; 25; 48; 191; 16; 246; 43; 34; 200; 2; 125; 201; 33; 203; 3; 6; 0; 5; 200; 72; 126; 93; 84; 229; 43;
  190; 48; 3; 126; 93; 84; 16; 247; 65; 225; 78; 119; 121; 18; 43; 16; 233; 201; 33; 204; 2; 6; 0; 5; 200; 72; 126; 93;
  84; 229; 35; 190; 48; 3; 126; 93; 84; 16; 247; 65; 225; 78; 119; 121; 18; 35; 16; 233; 201; 33; 204; 2; 6; 0; 5; 200;
  14; 0; 94; 35; 12; 126; 187; 56; 4; 95; 16; 247; 201; 197; 229; 93; 84; 43; 6; 0; 237; 168; 226; 96; 1; 190; 56; 248;
  18; 225; 193; 16; 225; 201; 33; 203; 3; 6; 0; 5; 200; 14; 0; 94; 43; 12; 126; 187; 56; 4; 95; 16; 247; 201; 197; 229;
  93; 84; 35; 6; 0; 237; 160; 226; 137; 1; 190; 56; 248; 18; 225; 193; 16; 225; 201; 17; 204; 2; 33; 203; 3; 124; 186;
  32; 2; 125; 187; 216; 200; 213; 229; 69; 124; 25; 203; 28; 203; 29; 78; 103; 104; 26; 185; 48; 5; 19; 26; 185; 56;
  251; 121; 190; 48; 4; 43; 190; 56; 252; 124; 186; 32; 2; 125; 187; 56; 14; 40; 10; 70; 26; 119; 120; 18; 19; 43; 195;
  169; 1; 19; 43; 227; 122; 188; 32; 2; 123; 189; 220; 157; 1; 225; 209; 122; 188; 32; 2; 123; 189; 218; 157; 1; 201;
  33; 204; 2; 17; 203; 3; 122; 188; 32; 2; 123; 189; 216; 200; 213; 229; 77; 124; 25; 203; 28; 203; 29; 70; 103; 105;
  120; 190; 48; 4; 35; 190; 56; 252; 26; 184; 48; 5; 27; 26; 184; 56; 251; 122; 188; 32; 2; 123; 189; 56; 14; 40; 10;
  78; 26; 119; 121; 18; 35; 27; 195; 0; 2; 35; 27; 227; 124; 186; 32; 2; 125; 187; 220; 244; 1; 225; 209; 124; 186; 32;
  2; 125; 187; 218; 244; 1; 201; 42; 200; 2; 237; 75; 202; 2; 121; 55; 143; 8; 120; 68; 77; 33; 0; 0; 203; 56; 203; 25;
  217; 33; 0; 0; 68; 77; 203; 24; 55; 143; 56; 15; 217; 203; 56; 203; 25; 217; 203; 24; 203; 25; 135; 40; 8; 48; 241;
  9; 217; 237; 74; 24; 236; 8; 32; 245; 217; 34; 202; 2; 217; 34; 200; 2; 17; 200; 2; 14; 4; 231; 201; 221; 33; 255; 0;
  205; 180; 2; 221; 33; 30; 1; 205; 180; 2; 221; 33; 61; 1; 205; 180; 2; 221; 33; 102; 1; 205; 180; 2; 221; 33; 143; 1;
  205; 180; 2; 221; 33; 230; 1; 205; 180; 2; 175; 211; 69; 24; 209; 42; 200; 2; 34; 202; 2; 229; 205; 119; 0; 223; 205;
  61; 2; 225; 35; 34; 200; 2; 201; 0; 0; 0; 0; 0; 0; 0; 0; 0; 0; 0; 0; 0; 0; 0; 0; 0; 0; 0; 0; 0; 0; 0; 0; 0; 0; 0; 0;
  0; 0; 0; 0; 0; 0; 0; 0; 0; 0; 0; 0; 0; 0; 0; 0; 0; 0; 0; 0; 0; 0; 0; 0; 0; 0; 0; 0; 0; 0; 0; 0; 0; 0; 0; 0; 0; 0; 0;
  0; 0; 0; 0; 0; 0; 0; 0; 0; 0; 0; 0; 0; 0; 0; 0; 0; 0; 0; 0; 0; 0; 0; 0; 0; 0; 0; 0; 0; 0; 0; 0; 0; 0; 0; 0; 0; 0; 0;
  0; 0; 0; 0; 0; 0; 0; 0; 0; 0; 0; 0; 0; 0; 0; 0; 0; 0; 0; 0; 0; 0; 0; 0; 0; 0; 0; 0; 0; 0; 0; 0; 0; 0; 0; 0; 0; 0; 0;
  0; 0; 0; 0; 0; 0; 0; 0; 0; 0; 0; 0; 0; 0; 0; 0; 0; 0; 0; 0; 0; 0; 0; 0; 0; 0; 0; 0; 0; 0; 0; 0; 0; 0; 0; 0; 0; 0; 0;
  0; 0; 0; 0; 0; 0; 0; 0; 0; 0; 0; 0; 0; 0; 0; 0; 0; 0; 0; 0; 0; 0; 0; 0; 0; 0; 0; 0; 0; 0; 0; 0; 0; 0; 0; 0; 0; 0; 0;
  0; 0; 0; 0; 0; 0; 0; 0; 0; 0; 0; 0; 0; 0; 0; 0; 0; 0; 0; 0; 0; 0; 0; 0; 0; 0; 0; 0; 0; 0; 0; 0; 0; 0; 0; 0; 0; 119;
  0; 0; 0; 0; 0; 0; 0; 0; 0; 0; 0; 0; 0; 0; 0; 0; 0; 0; 0; 0; 0; 0; 0; 0; 0; 0; 0; 0; 0; 0; 0; 0; 0; 0; 0; 0; 0; 0; 0;
  0; 0; 0; 0; 0; 0; 0; 0; 0; 0; 0; 0; 0; 0; 0; 0; 0; 0; 0; 0; 0; 0; 0; 0; 0; 0; 0; 0; 0; 0; 0; 0; 0; 0; 0; 0; 0; 0; 0;
  0; 0; 0; 0; 0; 0; 0; 0; 0; 0; 0; 0; 0; 0; 0; 0; 0; 0; 0; 0; 0; 0; 0; 0; 0; 0; 0; 0; 0; 0; 0; 0; 0; 0; 0; 0; 0; 0; 0;
  0; 0; 0; 0; 0; 0; 0; 0; 0; 0; 0; 0; 0; 0; 0; 0; 0; 0; 0; 0; 0; 0; 0; 0; 0; 0; 0; 0; 0; 0; 0; 0; 0; 0; 0; 0; 0; 0; 0;
  0; 0; 0; 0; 0; 0; 0; 0; 0; 0; 0; 0; 0; 0; 0; 0; 0; 0; 0; 0; 0; 0; 0; 0; 0; 0; 0; 0; 0; 0; 0; 0; 0; 0; 0; 0; 0; 0; 0;
  0; 0; 0; 0; 0; 0; 0; 0; 0; 0; 0; 0; 0; 0; 0; 0; 0; 0; 0; 0; 0; 0; 0; 0; 0; 0; 0; 0; 0; 0; 0; 0; 0; 0; 0; 0; 0; 0; 0;
  0; 0; 0; 0; 0; 0; 0; 0; 0; 0; 0; 0; 0; 0; 0; 0; 0; 0; 0; 0; 0; 0; 0; 0; 0; 0; 0; 0; 0; 0; 0; 0; 0; 0; 0; 0; 0; 0; 0;
  0; 0; 0; 0; 0; 0; 0; 0; 0; 0; 0; 0; 0; 0; 0; 0; 0; 0; 0; 0; 0; 0; 0; 0; 0; 0; 0; 0; 0; 0; 0; 0; 0; 0; 0; 0; 0; 0; 0;
  0; 0; 0; 0; 0; 0; 0; 0; 0; 0; 0; 0; 0; 0; 0; 0; 0; 0; 0; 0; 0; 0; 0; 0; 0; 0; 0; 0; 0; 0; 0; 0; 0; 0; 0; 0; 0; 0; 0;
  0; 0; 0; 0; 0; 0; 0; 0; 0; 0; 0; 0; 0; 0; 0; 0; 0; 0; 0; 0; 0; 0; 0; 0; 0; 0; 0; 0; 0; 0; 0; 0; 0; 0; 0; 0; 0; 0; 0;
  0; 0; 0; 0; 0; 0; 0; 0; 0; 0; 0; 0; 0; 0; 0; 0; 0; 0; 0; 0; 0; 0; 0; 0; 0; 0; 0; 0; 0; 0; 0; 0; 0; 0; 0; 0; 0; 0; 0;
  0; 0; 0; 0; 0; 0; 0; 0; 0; 0; 0; 0; 0; 0; 0; 0; 0; 0; 0; 0; 0; 0; 0; 0; 0; 0; 0; 0; 0; 0; 0; 0; 0; 0; 0; 0; 0; 0; 0;
  0; 0; 0; 0; 0; 0; 0; 0; 0; 0; 0; 0; 0; 0; 0; 0; 0; 0; 0; 0; 0; 0; 0; 0; 0; 0; 0; 0; 0; 0; 0; 0; 0; 0; 0; 0; 0; 0; 0;
  0; 0; 0; 0; 0; 0; 0; 0; 0; 0; 0; 0; 0; 0; 0; 0; 0; 0; 0; 0; 0; 0; 0; 0; 0; 0].
(* tests/shuffle/shuffled_0000.bin *)
Definition shuffled_0000 : list Z := [
  213; 18; 191; 1; 83; 121; 27; 114; 15; 141; 8; 35; 140; 181; 148; 208; 6; 115; 129; 28; 136; 236; 117; 214; 235; 160;
  44; 91; 46; 74; 71; 68; 155; 241; 120; 41; 172; 34; 138; 33; 248; 113; 206; 253; 132; 57; 64; 147; 210; 22; 38; 118;
  95; 0; 19; 175; 55; 211; 171; 142; 185; 145; 174; 127; 107; 54; 48; 219; 218; 66; 61; 177; 237; 23; 238; 240; 14; 88;
  229; 133; 104; 105; 106; 195; 77; 90; 94; 67; 58; 24; 161; 222; 75; 246; 201; 135; 72; 87; 31; 98; 111; 96; 7; 176;
  29; 196; 50; 225; 59; 247; 217; 166; 109; 232; 143; 9; 154; 51; 70; 100; 20; 79; 122; 184; 63; 86; 37; 25; 40; 13;
  137; 3; 99; 207; 167; 197; 194; 49; 216; 16; 252; 84; 226; 47; 230; 76; 89; 80; 60; 223; 199; 179; 69; 192; 221; 187;
  43; 103; 165; 244; 254; 169; 62; 243; 158; 116; 123; 150; 26; 198; 10; 65; 224; 189; 5; 239; 125; 157; 168; 186; 45;
  159; 183; 146; 112; 152; 153; 17; 234; 182; 227; 164; 78; 2; 110; 205; 242; 212; 188; 215; 204; 151; 156; 52; 119;
  134; 4; 42; 193; 245; 102; 56; 178; 190; 163; 73; 108; 126; 250; 85; 180; 202; 11; 130; 128; 39; 228; 81; 249; 101;
  93; 32; 209; 200; 53; 97; 124; 131; 203; 36; 139; 92; 12; 173; 255; 170; 149; 231; 233; 144; 220; 251; 82; 30; 162; 21].
(* tests/shuffle/shuffled_0368.bin *)
Definition shuffled_0368 : list Z := [
  131; 219; 20; 112; 143; 81; 253; 212; 100; 59; 86; 204; 42; 233; 132; 175; 192; 53; 155; 9; 11; 29; 240; 208; 137;
  201; 65; 91; 186; 216; 242; 107; 130; 138; 232; 245; 32; 78; 98; 66; 168; 85; 221; 213; 62; 55; 223; 252; 47; 144;
  120; 123; 190; 1; 218; 119; 80; 181; 38; 69; 188; 231; 170; 71; 211; 45; 160; 54; 99; 195; 60; 154; 51; 74; 133; 139;
  72; 125; 128; 222; 178; 248; 187; 237; 102; 82; 6; 141; 246; 7; 83; 4; 24; 205; 22; 215; 167; 150; 70; 169; 56; 234;
  44; 196; 77; 95; 116; 90; 225; 191; 5; 145; 193; 25; 147; 127; 200; 135; 156; 136; 166; 10; 17; 89; 184; 250; 220;
  148; 243; 37; 206; 134; 118; 239; 79; 189; 97; 124; 108; 202; 15; 63; 36; 224; 230; 176; 88; 236; 151; 115; 241; 48;
  126; 162; 106; 235; 180; 185; 34; 57; 13; 177; 92; 153; 76; 101; 227; 217; 121; 28; 164; 142; 96; 171; 49; 23; 43;
  113; 16; 179; 19; 14; 228; 46; 8; 104; 73; 94; 244; 226; 194; 18; 210; 64; 183; 31; 84; 105; 198; 61; 173; 203; 12;
  39; 163; 251; 41; 174; 93; 214; 140; 207; 27; 172; 254; 2; 129; 109; 3; 33; 114; 110; 149; 87; 68; 197; 52; 50; 159;
  247; 146; 117; 35; 249; 21; 161; 182; 255; 209; 75; 158; 157; 26; 238; 30; 0; 111; 165; 103; 199; 122; 40; 58; 67;
  152; 229].
(* tests/shuffle/shuffled_8000.bin *)
Definition shuffled_8000 : list Z := [
  81; 121; 79; 119; 144; 4; 181; 204; 120; 16; 116; 167; 233; 93; 74; 69; 239; 7; 172; 58; 231; 36; 136; 153; 107; 123;
  97; 175; 19; 148; 186; 174; 113; 214; 180; 177; 57; 238; 89; 225; 76; 112; 62; 96; 61; 164; 244; 156; 15; 39; 21;
  176; 1; 106; 109; 128; 205; 60; 158; 87; 5; 185; 3; 31; 44; 38; 127; 169; 191; 35; 249; 222; 147; 55; 219; 179; 99;
  216; 71; 72; 165; 241; 23; 145; 194; 253; 182; 0; 52; 49; 67; 27; 54; 95; 8; 14; 34; 201; 184; 146; 200; 32; 100;
  105; 111; 80; 18; 40; 86; 248; 183; 178; 20; 224; 247; 59; 166; 115; 137; 132; 9; 229; 226; 215; 118; 125; 17; 218;
  208; 189; 45; 90; 130; 24; 162; 6; 56; 104; 234; 209; 163; 43; 25; 82; 85; 134; 13; 2; 246; 250; 75; 50; 206; 22; 46;
  135; 207; 171; 70; 94; 108; 51; 212; 83; 235; 199; 37; 151; 161; 192; 92; 122; 133; 217; 26; 197; 84; 160; 110; 157;
  193; 221; 245; 211; 230; 63; 150; 141; 101; 168; 154; 77; 65; 41; 203; 64; 117; 210; 28; 73; 227; 12; 33; 187; 190;
  170; 68; 242; 251; 98; 48; 11; 114; 131; 220; 237; 198; 126; 140; 129; 42; 143; 232; 223; 10; 138; 240; 78; 102; 30;
  66; 124; 243; 88; 139; 91; 142; 152; 236; 159; 213; 173; 254; 149; 155; 228; 195; 196; 103; 47; 252; 188; 202; 53;
  255; 29].
(* tests/shuffle/shuffled_BACA.bin *)
Definition shuffled_BACA : list Z := [
  251; 105; 170; 195; 155; 130; 39; 32; 134; 145; 2; 6; 171; 255; 110; 181; 185; 215; 140; 106; 112; 166; 196; 101; 90;
  35; 174; 184; 46; 47; 222; 74; 175; 216; 109; 77; 177; 192; 84; 40; 193; 100; 253; 202; 133; 79; 132; 209; 9; 68; 50;
  164; 172; 238; 168; 241; 55; 242; 252; 244; 41; 42; 44; 232; 69; 70; 188; 11; 31; 85; 219; 199; 230; 211; 27; 139;
  217; 49; 141; 57; 128; 10; 218; 246; 14; 98; 22; 150; 135; 60; 248; 76; 20; 210; 162; 91; 92; 4; 80; 240; 72; 138; 3;
  161; 186; 167; 97; 125; 129; 208; 17; 18; 254; 191; 120; 205; 159; 245; 200; 119; 124; 122; 81; 28; 224; 65; 113;
  198; 226; 163; 123; 249; 212; 221; 225; 7; 117; 247; 45; 152; 15; 16; 64; 104; 149; 30; 108; 121; 51; 194; 153; 61;
  5; 214; 178; 48; 111; 183; 154; 1; 116; 237; 89; 114; 201; 197; 82; 25; 227; 142; 250; 53; 24; 213; 95; 23; 180; 26;
  58; 146; 131; 118; 190; 87; 56; 187; 203; 62; 12; 29; 103; 0; 73; 96; 176; 169; 204; 143; 13; 173; 236; 66; 137; 182;
  107; 243; 239; 37; 75; 223; 78; 102; 83; 88; 189; 99; 59; 67; 71; 115; 34; 235; 52; 147; 207; 220; 148; 158; 43; 165;
  93; 63; 36; 160; 231; 86; 126; 38; 179; 206; 228; 19; 234; 33; 136; 54; 94; 157; 156; 151; 233; 21; 144; 127; 8; 229].
(* tests/shuffle/shuffled_D9AB.bin *)
Definition shuffled_D9AB : list Z := [
  206; 16; 95; 202; 61; 153; 119; 167; 23; 245; 187; 142; 222; 251; 203; 217; 84; 127; 131; 145; 51; 72; 195; 18; 126;
  190; 63; 124; 242; 54; 22; 238; 48; 1; 101; 96; 123; 117; 25; 19; 207; 194; 178; 239; 34; 107; 164; 121; 2; 168; 229;
  8; 220; 110; 250; 135; 160; 214; 103; 226; 0; 30; 170; 70; 97; 9; 38; 209; 221; 82; 232; 68; 225; 10; 158; 216; 243;
  138; 13; 228; 136; 32; 5; 149; 184; 201; 81; 171; 66; 213; 45; 27; 169; 87; 52; 237; 193; 11; 200; 249; 204; 83; 132;
  102; 150; 205; 20; 248; 64; 47; 100; 86; 21; 62; 247; 128; 186; 40; 60; 236; 155; 191; 57; 146; 42; 234; 105; 159;
  179; 49; 71; 161; 118; 244; 140; 65; 218; 28; 106; 182; 231; 192; 67; 3; 227; 53; 36; 85; 130; 50; 37; 104; 75; 69;
  162; 99; 43; 197; 14; 173; 88; 94; 166; 156; 174; 113; 253; 133; 44; 210; 24; 183; 12; 137; 125; 180; 120; 79; 6;
  196; 56; 89; 144; 177; 112; 246; 7; 223; 33; 235; 4; 241; 154; 157; 208; 219; 172; 188; 29; 233; 148; 91; 41; 55;
  129; 224; 116; 152; 189; 198; 176; 76; 109; 98; 240; 93; 230; 175; 211; 114; 185; 58; 122; 77; 26; 163; 74; 46; 80;
  59; 108; 151; 73; 134; 15; 254; 35; 252; 212; 39; 90; 31; 255; 111; 139; 92; 147; 181; 143; 215; 17; 115; 141; 165;
  199; 78].
(* tests/shuffle/shuffled_FFFF.bin *)
Definition shuffled_FFFF : list Z := [
  210; 240; 66; 18; 137; 140; 177; 128; 236; 162; 232; 248; 251; 163; 196; 2; 147; 239; 149; 126; 16; 164; 14; 176;
  192; 97; 216; 134; 49; 246; 27; 15; 188; 185; 194; 211; 103; 235; 80; 100; 13; 111; 104; 77; 173; 4; 129; 127; 78;
  121; 102; 146; 46; 32; 67; 220; 228; 39; 227; 73; 221; 165; 12; 22; 144; 245; 88; 254; 108; 74; 21; 19; 53; 197; 44;
  112; 200; 7; 35; 123; 94; 50; 203; 242; 68; 26; 213; 153; 148; 156; 38; 36; 184; 138; 182; 175; 33; 178; 169; 93;
  201; 237; 205; 115; 190; 214; 241; 76; 54; 48; 72; 249; 62; 244; 101; 11; 70; 229; 116; 206; 212; 180; 223; 75; 99;
  154; 96; 8; 9; 90; 0; 69; 198; 91; 132; 117; 47; 130; 86; 171; 125; 159; 252; 45; 179; 230; 250; 135; 243; 119; 209;
  113; 186; 120; 110; 37; 131; 124; 59; 61; 84; 217; 166; 1; 238; 174; 20; 151; 58; 6; 71; 40; 208; 29; 155; 87; 3;
  247; 55; 63; 167; 219; 107; 30; 187; 23; 65; 231; 234; 181; 170; 17; 142; 41; 60; 199; 105; 5; 226; 56; 150; 106; 24;
  193; 81; 25; 95; 225; 161; 83; 34; 52; 189; 222; 136; 253; 10; 168; 172; 64; 28; 98; 202; 139; 183; 31; 109; 195;
  157; 82; 85; 255; 145; 89; 51; 204; 114; 218; 122; 143; 152; 141; 118; 42; 160; 43; 207; 133; 92; 158; 57; 233; 224;
  215; 79; 191].
