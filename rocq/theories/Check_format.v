(** The specification of the file format, checked against a file produced by the
    program itself: tests/verify-strings/test_scrypt_good.enc, the encryption of
    tests/verify-strings/test_scrypt.good with the passphrase of the test suite
    (logN = 18, r = 8, p = 1).  This is a check of SpecFormat, SpecSHA and SpecAES,
    not a property: scrypt itself is too slow to run here for N = 2^18, so the
    64 derived bytes were computed with OpenSSL and are given as a constant. *)
From Coq Require Import NArith List.
From Verif Require Import Base SpecBytes SpecSHA SpecAES SpecFormat.
Import ListNotations.
Local Open Scope N_scope.
Definition ref_salt : bytes :=
  [182; 79; 175; 208; 212; 190; 243; 44; 168; 107; 74; 161; 184; 57; 39; 253; 109; 217; 154; 110; 213; 80; 30; 240; 118; 53; 125; 73; 228; 131; 21; 20].
(** scrypt("hunter2", ref_salt, 2^18, 8, 1, 64) *)
Definition ref_dk : bytes :=
  [97; 253; 67; 139; 110; 240; 99; 190; 25; 82; 247; 174; 116; 179; 14; 222; 103; 167; 177; 107; 152; 197; 179; 29; 27; 74; 238; 63; 122; 126; 132; 94;
   207; 203; 11; 173; 48; 49; 217; 57; 52; 201; 101; 122; 155; 228; 66; 239; 209; 25; 33; 138; 186; 75; 220; 208; 117; 150; 45; 241; 143; 162; 67; 121].
(** tests/verify-strings/test_scrypt.good *)
Definition ref_plain : bytes :=
  [115; 99; 114; 121; 112; 116; 40; 34; 34; 44; 32; 34; 34; 44; 32; 49; 54; 44; 32; 49; 44; 32; 49; 44; 32; 54; 52; 41; 32; 61; 10; 55;
   55; 32; 100; 54; 32; 53; 55; 32; 54; 50; 32; 51; 56; 32; 54; 53; 32; 55; 98; 32; 50; 48; 32; 51; 98; 32; 49; 57; 32; 99; 97; 32;
   52; 50; 32; 99; 49; 32; 56; 97; 32; 48; 52; 32; 57; 55; 10; 102; 49; 32; 54; 98; 32; 52; 56; 32; 52; 52; 32; 101; 51; 32; 48; 55;
   32; 52; 97; 32; 101; 56; 32; 100; 102; 32; 100; 102; 32; 102; 97; 32; 51; 102; 32; 101; 100; 32; 101; 50; 32; 49; 52; 32; 52; 50; 10; 102;
   99; 32; 100; 48; 32; 48; 54; 32; 57; 100; 32; 101; 100; 32; 48; 57; 32; 52; 56; 32; 102; 56; 32; 51; 50; 32; 54; 97; 32; 55; 53; 32;
   51; 97; 32; 48; 102; 32; 99; 56; 32; 49; 102; 32; 49; 55; 10; 101; 56; 32; 100; 51; 32; 101; 48; 32; 102; 98; 32; 50; 101; 32; 48; 100;
   32; 51; 54; 32; 50; 56; 32; 99; 102; 32; 51; 53; 32; 101; 50; 32; 48; 99; 32; 51; 56; 32; 100; 49; 32; 56; 57; 32; 48; 54; 10; 115;
   99; 114; 121; 112; 116; 40; 34; 112; 97; 115; 115; 119; 111; 114; 100; 34; 44; 32; 34; 78; 97; 67; 108; 34; 44; 32; 49; 48; 50; 52; 44; 32;
   56; 44; 32; 49; 54; 44; 32; 54; 52; 41; 32; 61; 10; 102; 100; 32; 98; 97; 32; 98; 101; 32; 49; 99; 32; 57; 100; 32; 51; 52; 32; 55;
   50; 32; 48; 48; 32; 55; 56; 32; 53; 54; 32; 101; 55; 32; 49; 57; 32; 48; 100; 32; 48; 49; 32; 101; 57; 32; 102; 101; 10; 55; 99; 32;
   54; 97; 32; 100; 55; 32; 99; 98; 32; 99; 56; 32; 50; 51; 32; 55; 56; 32; 51; 48; 32; 101; 55; 32; 55; 51; 32; 55; 54; 32; 54; 51;
   32; 52; 98; 32; 51; 55; 32; 51; 49; 32; 54; 50; 10; 50; 101; 32; 97; 102; 32; 51; 48; 32; 100; 57; 32; 50; 101; 32; 50; 50; 32; 97;
   51; 32; 56; 56; 32; 54; 102; 32; 102; 49; 32; 48; 57; 32; 50; 55; 32; 57; 100; 32; 57; 56; 32; 51; 48; 32; 100; 97; 10; 99; 55; 32;
   50; 55; 32; 97; 102; 32; 98; 57; 32; 52; 97; 32; 56; 51; 32; 101; 101; 32; 54; 100; 32; 56; 51; 32; 54; 48; 32; 99; 98; 32; 100; 102;
   32; 97; 50; 32; 99; 99; 32; 48; 54; 32; 52; 48; 10; 115; 99; 114; 121; 112; 116; 40; 34; 112; 108; 101; 97; 115; 101; 108; 101; 116; 109; 101;
   105; 110; 34; 44; 32; 34; 83; 111; 100; 105; 117; 109; 67; 104; 108; 111; 114; 105; 100; 101; 34; 44; 32; 49; 54; 51; 56; 52; 44; 32; 56; 44;
   32; 49; 44; 32; 54; 52; 41; 32; 61; 10; 55; 48; 32; 50; 51; 32; 98; 100; 32; 99; 98; 32; 51; 97; 32; 102; 100; 32; 55; 51; 32; 52;
   56; 32; 52; 54; 32; 49; 99; 32; 48; 54; 32; 99; 100; 32; 56; 49; 32; 102; 100; 32; 51; 56; 32; 101; 98; 10; 102; 100; 32; 97; 56; 32;
   102; 98; 32; 98; 97; 32; 57; 48; 32; 52; 102; 32; 56; 101; 32; 51; 101; 32; 97; 57; 32; 98; 53; 32; 52; 51; 32; 102; 54; 32; 53; 52;
   32; 53; 100; 32; 97; 49; 32; 102; 50; 10; 100; 53; 32; 52; 51; 32; 50; 57; 32; 53; 53; 32; 54; 49; 32; 51; 102; 32; 48; 102; 32; 99;
   102; 32; 54; 50; 32; 100; 52; 32; 57; 55; 32; 48; 53; 32; 50; 52; 32; 50; 97; 32; 57; 97; 32; 102; 57; 10; 101; 54; 32; 49; 101; 32;
   56; 53; 32; 100; 99; 32; 48; 100; 32; 54; 53; 32; 49; 101; 32; 52; 48; 32; 100; 102; 32; 99; 102; 32; 48; 49; 32; 55; 98; 32; 52; 53;
   32; 53; 55; 32; 53; 56; 32; 56; 55; 10; 115; 99; 114; 121; 112; 116; 40; 34; 112; 108; 101; 97; 115; 101; 108; 101; 116; 109; 101; 105; 110; 34;
   44; 32; 34; 83; 111; 100; 105; 117; 109; 67; 104; 108; 111; 114; 105; 100; 101; 34; 44; 32; 49; 48; 52; 56; 53; 55; 54; 44; 32; 56; 44; 32;
   49; 44; 32; 54; 52; 41; 32; 61; 10; 50; 49; 32; 48; 49; 32; 99; 98; 32; 57; 98; 32; 54; 97; 32; 53; 49; 32; 49; 97; 32; 97; 101;
   32; 97; 100; 32; 100; 98; 32; 98; 101; 32; 48; 57; 32; 99; 102; 32; 55; 48; 32; 102; 56; 32; 56; 49; 10; 101; 99; 32; 53; 54; 32; 56;
   100; 32; 53; 55; 32; 52; 97; 32; 50; 102; 32; 102; 100; 32; 52; 100; 32; 97; 98; 32; 101; 53; 32; 101; 101; 32; 57; 56; 32; 50; 48; 32;
   97; 100; 32; 97; 97; 32; 52; 55; 10; 56; 101; 32; 53; 54; 32; 102; 100; 32; 56; 102; 32; 52; 98; 32; 97; 53; 32; 100; 48; 32; 57; 102;
   32; 102; 97; 32; 49; 99; 32; 54; 100; 32; 57; 50; 32; 55; 99; 32; 52; 48; 32; 102; 52; 32; 99; 51; 10; 51; 55; 32; 51; 48; 32; 52;
   48; 32; 52; 57; 32; 101; 56; 32; 97; 57; 32; 53; 50; 32; 102; 98; 32; 99; 98; 32; 102; 52; 32; 53; 99; 32; 54; 102; 32; 97; 55; 32;
   55; 97; 32; 52; 49; 32; 97; 52; 10].
(** tests/verify-strings/test_scrypt_good.enc *)
Definition ref_file : bytes :=
  [115; 99; 114; 121; 112; 116; 0; 18; 0; 0; 0; 8; 0; 0; 0; 1; 182; 79; 175; 208; 212; 190; 243; 44; 168; 107; 74; 161; 184; 57; 39; 253;
   109; 217; 154; 110; 213; 80; 30; 240; 118; 53; 125; 73; 228; 131; 21; 20; 95; 93; 239; 3; 49; 207; 18; 8; 105; 102; 115; 14; 110; 124; 20; 22;
   120; 64; 102; 38; 153; 182; 126; 123; 65; 41; 134; 69; 121; 4; 197; 131; 217; 187; 179; 207; 132; 35; 4; 132; 92; 249; 111; 23; 155; 195; 128; 108;
   61; 140; 33; 98; 241; 220; 28; 203; 99; 133; 195; 50; 136; 37; 197; 42; 66; 241; 187; 221; 10; 35; 85; 176; 101; 34; 81; 111; 245; 44; 223; 107;
   216; 102; 98; 79; 115; 4; 239; 125; 159; 202; 35; 118; 65; 168; 108; 61; 82; 89; 184; 21; 69; 18; 200; 27; 188; 28; 0; 55; 60; 220; 215; 3;
   253; 149; 95; 139; 147; 36; 197; 54; 219; 170; 143; 239; 17; 167; 111; 196; 231; 29; 187; 165; 41; 207; 32; 220; 178; 165; 117; 135; 87; 200; 17; 14;
   131; 29; 144; 182; 148; 246; 40; 81; 114; 123; 201; 212; 151; 15; 125; 244; 119; 232; 254; 190; 254; 187; 210; 240; 59; 174; 35; 2; 147; 168; 60; 219;
   95; 20; 214; 235; 175; 156; 192; 136; 99; 248; 131; 67; 166; 22; 131; 202; 44; 100; 113; 222; 124; 179; 84; 101; 177; 46; 131; 196; 229; 20; 205; 117;
   13; 128; 166; 233; 1; 45; 111; 82; 48; 12; 74; 246; 158; 85; 8; 78; 152; 54; 244; 206; 92; 91; 74; 36; 230; 63; 61; 148; 143; 4; 28; 126;
   66; 78; 222; 188; 10; 238; 245; 233; 173; 71; 133; 13; 106; 46; 65; 100; 176; 121; 45; 246; 153; 6; 168; 128; 121; 130; 114; 8; 165; 165; 25; 202;
   203; 245; 154; 221; 215; 246; 182; 97; 100; 80; 35; 191; 132; 51; 11; 48; 145; 108; 181; 38; 14; 61; 226; 45; 83; 253; 191; 68; 94; 173; 123; 99;
   124; 91; 182; 147; 157; 202; 163; 226; 220; 33; 136; 89; 124; 28; 49; 130; 252; 110; 219; 67; 185; 133; 91; 141; 5; 153; 243; 132; 34; 229; 223; 120;
   181; 178; 252; 211; 245; 233; 30; 23; 203; 145; 85; 180; 149; 149; 223; 71; 131; 75; 4; 206; 215; 210; 253; 195; 143; 41; 94; 91; 185; 189; 131; 3;
   84; 158; 13; 40; 34; 93; 229; 53; 28; 167; 25; 215; 41; 69; 67; 162; 28; 76; 220; 14; 235; 252; 183; 227; 13; 46; 251; 160; 74; 242; 191; 202;
   111; 99; 63; 148; 149; 172; 190; 215; 191; 205; 167; 157; 54; 168; 203; 181; 234; 128; 87; 80; 61; 72; 91; 104; 223; 107; 107; 106; 44; 116; 0; 48;
   98; 26; 226; 173; 76; 30; 210; 103; 56; 10; 34; 179; 48; 4; 30; 232; 209; 209; 66; 239; 158; 89; 115; 155; 108; 149; 217; 37; 191; 241; 238; 198;
   249; 159; 243; 165; 27; 124; 65; 48; 148; 133; 72; 91; 231; 133; 104; 147; 48; 62; 88; 19; 170; 5; 24; 44; 212; 24; 117; 254; 66; 243; 138; 59;
   20; 239; 245; 90; 23; 162; 101; 226; 9; 85; 152; 146; 129; 111; 131; 61; 91; 165; 127; 24; 75; 124; 60; 11; 11; 223; 13; 221; 166; 31; 104; 12;
   232; 13; 225; 197; 133; 6; 54; 16; 146; 60; 251; 79; 132; 154; 237; 189; 242; 168; 36; 6; 128; 109; 172; 146; 195; 76; 157; 1; 140; 247; 183; 53;
   11; 121; 124; 88; 95; 137; 176; 136; 107; 87; 28; 85; 163; 114; 42; 209; 86; 82; 73; 248; 249; 7; 191; 254; 173; 134; 76; 68; 248; 91; 142; 193;
   125; 110; 116; 164; 131; 63; 247; 120; 206; 53; 179; 143; 108; 207; 212; 151; 171; 224; 77; 19; 31; 155; 211; 215; 182; 61; 130; 70; 33; 93; 221; 34;
   234; 229; 68; 145; 176; 104; 169; 90; 195; 99; 47; 139; 140; 161; 0; 85; 62; 224; 29; 204; 164; 39; 84; 71; 243; 140; 241; 140; 244; 194; 49; 126;
   55; 43; 227; 113; 146; 113; 97; 98; 183; 114; 71; 252; 58; 40; 113; 148; 28; 134; 237; 105; 225; 33; 180; 141; 217; 248; 175; 58; 226; 98; 143; 157;
   190; 78; 178; 220; 136; 97; 84; 87; 70; 65; 88; 87; 185; 1; 172; 3; 0; 103; 85; 15; 255; 209; 185; 177; 65; 186; 1; 131; 78; 174; 230; 218;
   240; 71; 53; 207; 121; 236; 94; 43; 82; 204; 38; 83; 134; 73; 55; 121; 131; 73; 198; 236; 107; 200; 213; 92; 68; 121; 184; 37; 62; 142; 54; 192;
   204; 142; 13; 232; 62; 46; 122; 78; 200; 102; 25; 18; 240; 245; 51; 159; 82; 229; 230; 74; 186; 75; 33; 152; 177; 28; 255; 58; 239; 148; 182; 210;
   205; 193; 103; 136; 119; 161; 136; 204; 200; 49; 150; 228; 27; 6; 44; 39; 73; 86; 177; 76; 25; 57; 215; 80; 217; 250; 166; 204; 144; 172; 2; 210;
   199; 170; 77; 154; 152; 17; 231; 184; 70; 95; 102; 195; 9; 9; 132; 81; 89; 32; 79; 221; 197; 59; 239; 15; 255; 204; 104; 146; 146; 230; 125; 82;
   179; 47; 115; 218; 27; 232; 119; 13; 57; 226; 174; 46; 52; 100; 56; 59; 94; 144; 249; 13; 38; 95; 30; 79; 178; 202; 18; 42; 131; 189; 77; 239;
   227; 175; 17; 155; 203; 158; 2; 43; 7; 91; 42; 153; 184; 127; 12; 6; 216; 101; 88; 212; 10; 172; 162; 250; 34; 24; 137; 196; 39; 166; 148; 73;
   140; 187; 160; 115; 166; 255; 223; 9; 50; 67; 232; 139; 236; 33; 38; 121; 178; 247; 21; 23; 113; 5; 19; 229; 114; 199; 153; 63; 47; 105; 229; 2;
   93; 4; 82; 108; 27; 99; 195; 214; 61; 160; 84; 140; 186; 186; 171; 117; 154; 75; 219; 74; 161; 92; 69; 179; 251; 189; 222; 156; 37; 175; 143; 59;
   127; 211; 108; 211; 130; 84; 169; 65; 94; 45; 188; 233; 217; 123; 136; 20; 89; 174; 97; 241; 195; 36; 47; 197; 158; 51; 54; 194; 99; 87; 84; 121;
   103; 247; 247; 80; 74; 241; 225; 175; 104; 33; 40; 222; 87; 109; 103; 34; 230; 172; 68; 187; 158; 50; 66; 200; 226; 138; 27; 149; 67; 107; 55; 148;
   122; 188; 233; 81; 255; 230; 16; 213; 237].
(** Evaluated while this file is compiled; the kernel sees only the resulting boolean,
    so that these are tests of the specification, not theorems about it. *)
Definition same (a b : bytes) : bool := if list_eq_dec N.eq_dec a b then true else false.
Definition reference_file_agrees : bool := Eval vm_compute in same (fmt_file (fun _ _ _ _ _ _ => ref_dk) [] (mk_fh 18 8 1 ref_salt) ref_plain) ref_file.
Example reference_file_checked : reference_file_agrees = true.
Proof. reflexivity. Qed.
Example reference_head : get_head ref_file = mk_fh 18 8 1 ref_salt.
Proof. vm_compute. reflexivity. Qed.
