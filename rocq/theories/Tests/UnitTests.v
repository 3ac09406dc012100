(* The repository's own unit tests, run on the model.  They are tests, not properties: they show that the definitions the theorems
   are about compute what the code is tested to compute.  Left out, because coqchk is slow on them: one string of sha256.rs, two of
   sha384.rs, three cases of hmac.rs, hkdf.rs, gcm.rs test cases 2, 3, 4, 6 and 8, and the scalar multiplications of
   test_curve25519 and test_sign_and_verify (C28, C29 and C31 are about these for all inputs). *)
From Verif Require Import Model.Base Model.Alert Model.Sha2 Model.Hmac Model.Aes Model.Gcm Model.Chacha Model.Base64 Model.Rand Model.X509 Model.Curve.

(* hash/sha256.rs:209-223 *)
Example unit_sha256 :
  sha256 [] = [227; 176; 196; 66; 152; 252; 28; 20; 154; 251; 244; 200; 153; 111; 185; 36; 39; 174; 65; 228; 100; 155; 147; 76; 164; 149; 153; 27; 120; 82; 184; 85] /\
  sha256 [84; 104; 101; 32; 113; 117; 105; 99; 107; 32; 98; 114; 111; 119; 110; 32; 102; 111; 120; 32; 106; 117; 109; 112; 115; 32; 111; 118; 101; 114; 32; 116; 104; 101; 32; 108; 97; 122; 121; 32; 100; 111; 103] = [215; 168; 251; 179; 7; 215; 128; 148; 105; 202; 154; 188; 176; 8; 46; 79; 141; 86; 81; 228; 109; 60; 219; 118; 45; 2; 208; 191; 55; 201; 229; 146].
Proof. repeat match goal with |- _ /\ _ => split end; vm_compute; reflexivity. Qed.
(* hash/sha384.rs:229-232 *)
Example unit_sha384 :
  sha384 [84; 104; 101; 32; 113; 117; 105; 99; 107; 32; 98; 114; 111; 119; 110; 32; 102; 111; 120; 32; 106; 117; 109; 112; 115; 32; 111; 118; 101; 114; 32; 116; 104; 101; 32; 108; 97; 122; 121; 32; 100; 111; 103] = [202; 115; 127; 16; 20; 164; 143; 76; 11; 109; 212; 60; 177; 119; 176; 175; 217; 229; 22; 147; 103; 84; 76; 73; 64; 17; 227; 49; 125; 191; 154; 80; 156; 177; 229; 220; 30; 133; 169; 65; 187; 238; 61; 127; 42; 251; 201; 177].
Proof. vm_compute; reflexivity. Qed.
(* hash/hmac.rs:100-144 *)
Example unit_hmac :
  hmac SHA256 [74; 101; 102; 101] [119; 104; 97; 116; 32; 100; 111; 32; 121; 97; 32; 119; 97; 110; 116; 32; 102; 111; 114; 32; 110; 111; 116; 104; 105; 110; 103; 63] = [91; 220; 193; 70; 191; 96; 117; 78; 106; 4; 36; 38; 8; 149; 117; 199; 90; 0; 63; 8; 157; 39; 57; 131; 157; 236; 88; 185; 100; 236; 56; 67].
Proof. vm_compute; reflexivity. Qed.
(* crypto/aes/cipher.rs:420-465 *)
Example unit_aes_128 :
  aes_encrypt (expanded_key [0; 1; 2; 3; 4; 5; 6; 7; 8; 9; 10; 11; 12; 13; 14; 15] B128) B128 [0; 17; 34; 51; 68; 85; 102; 119; 136; 153; 170; 187; 204; 221; 238; 255] = [105; 196; 224; 216; 106; 123; 4; 48; 216; 205; 183; 128; 112; 180; 197; 90] /\
  aes_decrypt (expanded_key [0; 1; 2; 3; 4; 5; 6; 7; 8; 9; 10; 11; 12; 13; 14; 15] B128) B128 [105; 196; 224; 216; 106; 123; 4; 48; 216; 205; 183; 128; 112; 180; 197; 90] = [0; 17; 34; 51; 68; 85; 102; 119; 136; 153; 170; 187; 204; 221; 238; 255].
Proof. repeat match goal with |- _ /\ _ => split end; vm_compute; reflexivity. Qed.
(* crypto/aes/cipher.rs:420-465 *)
Example unit_aes_192 :
  aes_encrypt (expanded_key [0; 1; 2; 3; 4; 5; 6; 7; 8; 9; 10; 11; 12; 13; 14; 15; 16; 17; 18; 19; 20; 21; 22; 23] B192) B192 [0; 17; 34; 51; 68; 85; 102; 119; 136; 153; 170; 187; 204; 221; 238; 255] = [221; 169; 124; 164; 134; 76; 223; 224; 110; 175; 112; 160; 236; 13; 113; 145] /\
  aes_decrypt (expanded_key [0; 1; 2; 3; 4; 5; 6; 7; 8; 9; 10; 11; 12; 13; 14; 15; 16; 17; 18; 19; 20; 21; 22; 23] B192) B192 [221; 169; 124; 164; 134; 76; 223; 224; 110; 175; 112; 160; 236; 13; 113; 145] = [0; 17; 34; 51; 68; 85; 102; 119; 136; 153; 170; 187; 204; 221; 238; 255].
Proof. repeat match goal with |- _ /\ _ => split end; vm_compute; reflexivity. Qed.
(* crypto/aes/cipher.rs:420-465 *)
Example unit_aes_256 :
  aes_encrypt (expanded_key [0; 1; 2; 3; 4; 5; 6; 7; 8; 9; 10; 11; 12; 13; 14; 15; 16; 17; 18; 19; 20; 21; 22; 23; 24; 25; 26; 27; 28; 29; 30; 31] B256) B256 [0; 17; 34; 51; 68; 85; 102; 119; 136; 153; 170; 187; 204; 221; 238; 255] = [142; 162; 183; 202; 81; 103; 69; 191; 234; 252; 73; 144; 75; 73; 96; 137] /\
  aes_decrypt (expanded_key [0; 1; 2; 3; 4; 5; 6; 7; 8; 9; 10; 11; 12; 13; 14; 15; 16; 17; 18; 19; 20; 21; 22; 23; 24; 25; 26; 27; 28; 29; 30; 31] B256) B256 [142; 162; 183; 202; 81; 103; 69; 191; 234; 252; 73; 144; 75; 73; 96; 137] = [0; 17; 34; 51; 68; 85; 102; 119; 136; 153; 170; 187; 204; 221; 238; 255].
Proof. repeat match goal with |- _ /\ _ => split end; vm_compute; reflexivity. Qed.
(* crypto/aes/gcm.rs:186-253: test cases 1, 5, 7 *)
Example unit_gcm :
  (match gcm_encrypt [0; 0; 0; 0; 0; 0; 0; 0; 0; 0; 0; 0; 0; 0; 0; 0] [0; 0; 0; 0; 0; 0; 0; 0; 0; 0; 0; 0] [] [] with Ok (_, t) => t | _ => [] end) = [88; 226; 252; 206; 250; 126; 48; 97; 54; 127; 29; 87; 164; 231; 69; 90] /\
  (match gcm_encrypt [254; 255; 233; 146; 134; 101; 115; 28; 109; 106; 143; 148; 103; 48; 131; 8] [202; 254; 186; 190; 250; 206; 219; 173] [217; 49; 50; 37; 248; 132; 6; 229; 165; 89; 9; 197; 175; 245; 38; 154; 134; 167; 169; 83; 21; 52; 247; 218; 46; 76; 48; 61; 138; 49; 138; 114; 28; 60; 12; 149; 149; 104; 9; 83; 47; 207; 14; 36; 73; 166; 181; 37; 177; 106; 237; 245; 170; 13; 230; 87; 186; 99; 123; 57] [254; 237; 250; 206; 222; 173; 190; 239; 254; 237; 250; 206; 222; 173; 190; 239; 171; 173; 218; 210] with Ok (_, t) => t | _ => [] end) = [54; 18; 210; 231; 158; 59; 7; 133; 86; 27; 225; 74; 172; 162; 252; 203] /\
  (match gcm_encrypt [0; 0; 0; 0; 0; 0; 0; 0; 0; 0; 0; 0; 0; 0; 0; 0; 0; 0; 0; 0; 0; 0; 0; 0] [0; 0; 0; 0; 0; 0; 0; 0; 0; 0; 0; 0] [] [] with Ok (_, t) => t | _ => [] end) = [205; 51; 178; 138; 199; 115; 247; 75; 160; 14; 209; 243; 18; 87; 36; 53].
Proof. repeat match goal with |- _ /\ _ => split end; vm_compute; reflexivity. Qed.
(* crypto/chacha20/cipher.rs:119-136 *)
Example unit_chacha20 :
  chacha_encrypt (E:=Empty_set) [76; 97; 100; 105; 101; 115; 32; 97; 110; 100; 32; 71; 101; 110; 116; 108; 101; 109; 101; 110; 32; 111; 102; 32; 116; 104; 101; 32; 99; 108; 97; 115; 115; 32; 111; 102; 32; 39; 57; 57; 58; 32; 73; 102; 32; 73; 32; 99; 111; 117; 108; 100; 32; 111; 102; 102; 101; 114; 32; 121; 111; 117; 32; 111; 110; 108; 121; 32; 111; 110; 101; 32; 116; 105; 112; 32; 102; 111; 114; 32; 116; 104; 101; 32; 102; 117; 116; 117; 114; 101; 44; 32; 115; 117; 110; 115; 99; 114; 101; 101; 110; 32; 119; 111; 117; 108; 100; 32; 98; 101; 32; 105; 116; 46] [0; 1; 2; 3; 4; 5; 6; 7; 8; 9; 10; 11; 12; 13; 14; 15; 16; 17; 18; 19; 20; 21; 22; 23; 24; 25; 26; 27; 28; 29; 30; 31] [0; 0; 0; 0; 0; 0; 0; 74; 0; 0; 0; 0] 1 = Ok (Some [110; 46; 53; 154; 37; 104; 249; 128; 65; 186; 7; 40; 221; 13; 105; 129; 233; 126; 122; 236; 29; 67; 96; 194; 10; 39; 175; 204; 253; 159; 174; 11; 249; 27; 101; 197; 82; 71; 51; 171; 143; 89; 61; 171; 205; 98; 179; 87; 22; 57; 214; 36; 230; 81; 82; 171; 143; 83; 12; 53; 159; 8; 97; 216; 7; 202; 13; 191; 80; 13; 106; 97; 86; 163; 142; 8; 138; 34; 182; 94; 82; 188; 81; 77; 22; 204; 248; 6; 129; 140; 233; 26; 183; 121; 55; 54; 90; 249; 11; 191; 116; 163; 91; 230; 180; 11; 142; 237; 242; 120; 94; 66; 135; 77]) /\
  chacha_decrypt (E:=Empty_set) [110; 46; 53; 154; 37; 104; 249; 128; 65; 186; 7; 40; 221; 13; 105; 129; 233; 126; 122; 236; 29; 67; 96; 194; 10; 39; 175; 204; 253; 159; 174; 11; 249; 27; 101; 197; 82; 71; 51; 171; 143; 89; 61; 171; 205; 98; 179; 87; 22; 57; 214; 36; 230; 81; 82; 171; 143; 83; 12; 53; 159; 8; 97; 216; 7; 202; 13; 191; 80; 13; 106; 97; 86; 163; 142; 8; 138; 34; 182; 94; 82; 188; 81; 77; 22; 204; 248; 6; 129; 140; 233; 26; 183; 121; 55; 54; 90; 249; 11; 191; 116; 163; 91; 230; 180; 11; 142; 237; 242; 120; 94; 66; 135; 77] [0; 1; 2; 3; 4; 5; 6; 7; 8; 9; 10; 11; 12; 13; 14; 15; 16; 17; 18; 19; 20; 21; 22; 23; 24; 25; 26; 27; 28; 29; 30; 31] [0; 0; 0; 0; 0; 0; 0; 74; 0; 0; 0; 0] 1 = Ok (Some [76; 97; 100; 105; 101; 115; 32; 97; 110; 100; 32; 71; 101; 110; 116; 108; 101; 109; 101; 110; 32; 111; 102; 32; 116; 104; 101; 32; 99; 108; 97; 115; 115; 32; 111; 102; 32; 39; 57; 57; 58; 32; 73; 102; 32; 73; 32; 99; 111; 117; 108; 100; 32; 111; 102; 102; 101; 114; 32; 121; 111; 117; 32; 111; 110; 108; 121; 32; 111; 110; 101; 32; 116; 105; 112; 32; 102; 111; 114; 32; 116; 104; 101; 32; 102; 117; 116; 117; 114; 101; 44; 32; 115; 117; 110; 115; 99; 114; 101; 101; 110; 32; 119; 111; 117; 108; 100; 32; 98; 101; 32; 105; 116; 46]).
Proof. repeat match goal with |- _ /\ _ => split end; vm_compute; reflexivity. Qed.
(* crypto/chacha20/poly1305.rs:113-122 *)
Example unit_poly1305_mac :
  poly_mac (E:=Empty_set) [133; 214; 190; 120; 87; 85; 109; 51; 127; 68; 82; 254; 66; 213; 6; 168; 1; 3; 128; 138; 251; 13; 178; 253; 74; 191; 246; 175; 65; 73; 245; 27] [67; 114; 121; 112; 116; 111; 103; 114; 97; 112; 104; 105; 99; 32; 70; 111; 114; 117; 109; 32; 82; 101; 115; 101; 97; 114; 99; 104; 32; 71; 114; 111; 117; 112] = Ok [168; 6; 29; 193; 48; 81; 54; 198; 194; 43; 139; 175; 12; 1; 39; 169].
Proof. vm_compute; reflexivity. Qed.
(* crypto/chacha20/poly1305.rs:125-133 *)
Example unit_poly1305_key :
  poly_key_gen (E:=Empty_set) [128; 129; 130; 131; 132; 133; 134; 135; 136; 137; 138; 139; 140; 141; 142; 143; 144; 145; 146; 147; 148; 149; 150; 151; 152; 153; 154; 155; 156; 157; 158; 159] [0; 0; 0; 0; 0; 1; 2; 3; 4; 5; 6; 7] = Ok [138; 213; 160; 139; 144; 95; 129; 204; 129; 80; 64; 39; 74; 178; 148; 113; 168; 51; 182; 55; 227; 253; 13; 165; 8; 219; 184; 226; 253; 209; 166; 70].
Proof. vm_compute; reflexivity. Qed.
(* crypto/chacha20/poly1305.rs:135-156 *)
Example unit_poly1305_aead :
  poly_encrypt [128; 129; 130; 131; 132; 133; 134; 135; 136; 137; 138; 139; 140; 141; 142; 143; 144; 145; 146; 147; 148; 149; 150; 151; 152; 153; 154; 155; 156; 157; 158; 159] [7; 0; 0; 0; 64; 65; 66; 67; 68; 69; 70; 71] [76; 97; 100; 105; 101; 115; 32; 97; 110; 100; 32; 71; 101; 110; 116; 108; 101; 109; 101; 110; 32; 111; 102; 32; 116; 104; 101; 32; 99; 108; 97; 115; 115; 32; 111; 102; 32; 39; 57; 57; 58; 32; 73; 102; 32; 73; 32; 99; 111; 117; 108; 100; 32; 111; 102; 102; 101; 114; 32; 121; 111; 117; 32; 111; 110; 108; 121; 32; 111; 110; 101; 32; 116; 105; 112; 32; 102; 111; 114; 32; 116; 104; 101; 32; 102; 117; 116; 117; 114; 101; 44; 32; 115; 117; 110; 115; 99; 114; 101; 101; 110; 32; 119; 111; 117; 108; 100; 32; 98; 101; 32; 105; 116; 46] [80; 81; 82; 83; 192; 193; 194; 195; 196; 197; 198; 199] = Ok ([211; 26; 141; 52; 100; 142; 96; 219; 123; 134; 175; 188; 83; 239; 126; 194; 164; 173; 237; 81; 41; 110; 8; 254; 169; 226; 181; 167; 54; 238; 98; 214; 61; 190; 164; 94; 140; 169; 103; 18; 130; 250; 251; 105; 218; 146; 114; 139; 26; 113; 222; 10; 158; 6; 11; 41; 5; 214; 165; 182; 126; 205; 59; 54; 146; 221; 189; 127; 45; 119; 139; 140; 152; 3; 174; 227; 40; 9; 27; 88; 250; 179; 36; 228; 250; 214; 117; 148; 85; 133; 128; 139; 72; 49; 215; 188; 63; 244; 222; 240; 142; 75; 122; 157; 229; 118; 210; 101; 134; 206; 198; 75; 97; 22], [26; 225; 11; 89; 79; 9; 226; 106; 126; 144; 46; 203; 208; 96; 6; 145]) /\
  poly_decrypt [128; 129; 130; 131; 132; 133; 134; 135; 136; 137; 138; 139; 140; 141; 142; 143; 144; 145; 146; 147; 148; 149; 150; 151; 152; 153; 154; 155; 156; 157; 158; 159] [7; 0; 0; 0; 64; 65; 66; 67; 68; 69; 70; 71] [211; 26; 141; 52; 100; 142; 96; 219; 123; 134; 175; 188; 83; 239; 126; 194; 164; 173; 237; 81; 41; 110; 8; 254; 169; 226; 181; 167; 54; 238; 98; 214; 61; 190; 164; 94; 140; 169; 103; 18; 130; 250; 251; 105; 218; 146; 114; 139; 26; 113; 222; 10; 158; 6; 11; 41; 5; 214; 165; 182; 126; 205; 59; 54; 146; 221; 189; 127; 45; 119; 139; 140; 152; 3; 174; 227; 40; 9; 27; 88; 250; 179; 36; 228; 250; 214; 117; 148; 85; 133; 128; 139; 72; 49; 215; 188; 63; 244; 222; 240; 142; 75; 122; 157; 229; 118; 210; 101; 134; 206; 198; 75; 97; 22] [80; 81; 82; 83; 192; 193; 194; 195; 196; 197; 198; 199] [26; 225; 11; 89; 79; 9; 226; 106; 126; 144; 46; 203; 208; 96; 6; 145] = Ok [76; 97; 100; 105; 101; 115; 32; 97; 110; 100; 32; 71; 101; 110; 116; 108; 101; 109; 101; 110; 32; 111; 102; 32; 116; 104; 101; 32; 99; 108; 97; 115; 115; 32; 111; 102; 32; 39; 57; 57; 58; 32; 73; 102; 32; 73; 32; 99; 111; 117; 108; 100; 32; 111; 102; 102; 101; 114; 32; 121; 111; 117; 32; 111; 110; 108; 121; 32; 111; 110; 101; 32; 116; 105; 112; 32; 102; 111; 114; 32; 116; 104; 101; 32; 102; 117; 116; 117; 114; 101; 44; 32; 115; 117; 110; 115; 99; 114; 101; 101; 110; 32; 119; 111; 117; 108; 100; 32; 98; 101; 32; 105; 116; 46].
Proof. repeat match goal with |- _ /\ _ => split end; vm_compute; reflexivity. Qed.
(* crypto/chacha20/poly1305.rs:159-178 *)
Example unit_poly1305_decrypt :
  poly_decrypt [28; 146; 64; 165; 235; 85; 211; 138; 243; 51; 136; 134; 4; 246; 181; 240; 71; 57; 23; 193; 64; 43; 128; 9; 157; 202; 92; 188; 32; 112; 117; 192] [0; 0; 0; 0; 1; 2; 3; 4; 5; 6; 7; 8] [100; 160; 134; 21; 117; 134; 26; 244; 96; 240; 98; 199; 155; 230; 67; 189; 94; 128; 92; 253; 52; 92; 243; 137; 241; 8; 103; 10; 199; 108; 140; 178; 76; 108; 252; 24; 117; 93; 67; 238; 160; 158; 233; 78; 56; 45; 38; 176; 189; 183; 183; 60; 50; 27; 1; 0; 212; 240; 59; 127; 53; 88; 148; 207; 51; 47; 131; 14; 113; 11; 151; 206; 152; 200; 168; 74; 189; 11; 148; 129; 20; 173; 23; 110; 0; 141; 51; 189; 96; 249; 130; 177; 255; 55; 200; 85; 151; 151; 160; 110; 244; 240; 239; 97; 193; 134; 50; 78; 43; 53; 6; 56; 54; 6; 144; 123; 106; 124; 2; 176; 249; 246; 21; 123; 83; 200; 103; 228; 185; 22; 108; 118; 123; 128; 77; 70; 165; 155; 82; 22; 205; 231; 164; 233; 144; 64; 197; 164; 4; 51; 34; 94; 226; 130; 161; 176; 160; 108; 82; 62; 175; 69; 52; 215; 248; 63; 161; 21; 91; 0; 71; 113; 140; 188; 84; 106; 13; 7; 43; 4; 179; 86; 78; 234; 27; 66; 34; 115; 245; 72; 39; 26; 11; 178; 49; 96; 83; 250; 118; 153; 25; 85; 235; 214; 49; 89; 67; 78; 206; 187; 78; 70; 109; 174; 90; 16; 115; 166; 114; 118; 39; 9; 122; 16; 73; 230; 23; 217; 29; 54; 16; 148; 250; 104; 240; 255; 119; 152; 113; 48; 48; 91; 234; 186; 46; 218; 4; 223; 153; 123; 113; 77; 108; 111; 44; 41; 166; 173; 92; 180; 2; 43; 2; 112; 155] [243; 51; 136; 134; 0; 0; 0; 0; 0; 0; 78; 145] [238; 173; 157; 103; 137; 12; 187; 34; 57; 35; 54; 254; 161; 133; 31; 56] = Ok [73; 110; 116; 101; 114; 110; 101; 116; 45; 68; 114; 97; 102; 116; 115; 32; 97; 114; 101; 32; 100; 114; 97; 102; 116; 32; 100; 111; 99; 117; 109; 101; 110; 116; 115; 32; 118; 97; 108; 105; 100; 32; 102; 111; 114; 32; 97; 32; 109; 97; 120; 105; 109; 117; 109; 32; 111; 102; 32; 115; 105; 120; 32; 109; 111; 110; 116; 104; 115; 32; 97; 110; 100; 32; 109; 97; 121; 32; 98; 101; 32; 117; 112; 100; 97; 116; 101; 100; 44; 32; 114; 101; 112; 108; 97; 99; 101; 100; 44; 32; 111; 114; 32; 111; 98; 115; 111; 108; 101; 116; 101; 100; 32; 98; 121; 32; 111; 116; 104; 101; 114; 32; 100; 111; 99; 117; 109; 101; 110; 116; 115; 32; 97; 116; 32; 97; 110; 121; 32; 116; 105; 109; 101; 46; 32; 73; 116; 32; 105; 115; 32; 105; 110; 97; 112; 112; 114; 111; 112; 114; 105; 97; 116; 101; 32; 116; 111; 32; 117; 115; 101; 32; 73; 110; 116; 101; 114; 110; 101; 116; 45; 68; 114; 97; 102; 116; 115; 32; 97; 115; 32; 114; 101; 102; 101; 114; 101; 110; 99; 101; 32; 109; 97; 116; 101; 114; 105; 97; 108; 32; 111; 114; 32; 116; 111; 32; 99; 105; 116; 101; 32; 116; 104; 101; 109; 32; 111; 116; 104; 101; 114; 32; 116; 104; 97; 110; 32; 97; 115; 32; 47; 226; 128; 156; 119; 111; 114; 107; 32; 105; 110; 32; 112; 114; 111; 103; 114; 101; 115; 115; 46; 47; 226; 128; 157].
Proof. vm_compute; reflexivity. Qed.
(* utils/base64.rs:110-122 *)
Example unit_base64 :
  encode [102] = [90; 103; 61; 61] /\
  encode [102; 111] = [90; 109; 56; 61] /\
  encode [102; 111; 111] = [90; 109; 57; 118] /\
  encode [102; 111; 111; 98] = [90; 109; 57; 118; 89; 103; 61; 61] /\
  encode [102; 111; 111; 98; 97] = [90; 109; 57; 118; 89; 109; 69; 61] /\
  encode [102; 111; 111; 98; 97; 114] = [90; 109; 57; 118; 89; 109; 70; 121] /\
  decode [90; 103; 61; 61] = Ok [102] /\
  decode [90; 109; 56; 61] = Ok [102; 111] /\
  decode [90; 109; 57; 118] = Ok [102; 111; 111] /\
  decode [90; 109; 57; 118; 89; 103; 61; 61] = Ok [102; 111; 111; 98] /\
  decode [90; 109; 57; 118; 89; 109; 69; 61] = Ok [102; 111; 111; 98; 97] /\
  decode [90; 109; 57; 118; 89; 109; 70; 121] = Ok [102; 111; 111; 98; 97; 114].
Proof. repeat match goal with |- _ /\ _ => split end; vm_compute; reflexivity. Qed.
(* rand/simplerng.rs:80-84 *)
Example unit_simplerng :
  (let (s, a) := simple32_next 10 in (a, snd (simple32_next s))) = (3782026229, 1899426624).
Proof. vm_compute; reflexivity. Qed.
(* utils/x509.rs:634-657 *)
Example unit_x509_client :
  match x509_from_raw [48; 130; 1; 245; 48; 130; 1; 155; 2; 20; 86; 8; 218; 89; 136; 133; 190; 147; 142; 101; 84; 124; 228; 153; 159; 88; 254; 227; 133; 128; 48; 10; 6; 8; 42; 134; 72; 206; 61; 4; 3; 2; 48; 108; 49; 11; 48; 9; 6; 3; 85; 4; 6; 19; 2; 68; 69; 49; 13; 48; 11; 6; 3; 85; 4; 8; 12; 4; 77; 111; 111; 110; 49; 25; 48; 23; 6; 3; 85; 4; 10; 12; 16; 65; 110; 111; 116; 104; 101; 114; 67; 65; 32; 115; 101; 99; 117; 114; 101; 49; 18; 48; 16; 6; 3; 85; 4; 3; 12; 9; 65; 110; 111; 116; 104; 101; 114; 67; 65; 49; 31; 48; 29; 6; 9; 42; 134; 72; 134; 247; 13; 1; 9; 1; 22; 16; 115; 101; 99; 117; 114; 105; 116; 121; 64; 116; 115; 109; 114; 46; 101; 117; 48; 30; 23; 13; 50; 51; 48; 51; 49; 54; 49; 56; 48; 51; 53; 50; 90; 23; 13; 50; 52; 48; 51; 49; 53; 49; 56; 48; 51; 53; 50; 90; 48; 129; 141; 49; 11; 48; 9; 6; 3; 85; 4; 6; 19; 2; 68; 69; 49; 13; 48; 11; 6; 3; 85; 4; 8; 12; 4; 77; 111; 111; 110; 49; 14; 48; 12; 6; 3; 85; 4; 7; 12; 5; 83; 112; 97; 99; 101; 49; 23; 48; 21; 6; 3; 85; 4; 10; 12; 14; 65; 110; 111; 116; 104; 101; 114; 67; 111; 109; 112; 97; 110; 121; 49; 17; 48; 15; 6; 3; 85; 4; 11; 12; 8; 122; 101; 99; 117; 114; 105; 116; 121; 49; 14; 48; 12; 6; 3; 85; 4; 3; 12; 5; 111; 116; 115; 109; 114; 49; 35; 48; 33; 6; 9; 42; 134; 72; 134; 247; 13; 1; 9; 1; 22; 20; 116; 115; 109; 114; 64; 97; 110; 111; 116; 104; 101; 114; 46; 99; 111; 109; 112; 97; 110; 121; 48; 89; 48; 19; 6; 7; 42; 134; 72; 206; 61; 2; 1; 6; 8; 42; 134; 72; 206; 61; 3; 1; 7; 3; 66; 0; 4; 226; 6; 114; 58; 144; 87; 152; 5; 135; 52; 106; 141; 198; 4; 215; 41; 203; 120; 235; 42; 38; 86; 155; 198; 239; 99; 211; 155; 176; 4; 196; 219; 184; 243; 235; 90; 210; 188; 215; 10; 223; 177; 130; 36; 139; 195; 32; 82; 221; 154; 88; 160; 186; 69; 120; 187; 62; 122; 171; 113; 182; 228; 203; 227; 48; 10; 6; 8; 42; 134; 72; 206; 61; 4; 3; 2; 3; 72; 0; 48; 69; 2; 32; 17; 54; 240; 68; 160; 201; 25; 50; 204; 124; 95; 90; 227; 230; 193; 63; 175; 239; 19; 50; 240; 250; 46; 188; 65; 62; 195; 97; 193; 154; 158; 241; 2; 33; 0; 154; 205; 191; 118; 243; 47; 225; 127; 192; 178; 214; 172; 175; 108; 97; 210; 246; 50; 203; 253; 178; 106; 76; 190; 181; 61; 94; 48; 202; 74; 239; 234] with Ok x => (x_sig_alg x, name_get (x_issuer x) CommonName, name_get (x_subject x) CommonName, name_get (x_issuer x) OrganizationName) = (EcdsaWithSha256, Ok [65; 110; 111; 116; 104; 101; 114; 67; 65], Ok [111; 116; 115; 109; 114], Ok [65; 110; 111; 116; 104; 101; 114; 67; 65; 32; 115; 101; 99; 117; 114; 101]) | _ => False end.
Proof. vm_compute; reflexivity. Qed.
(* utils/x509.rs:659-679 *)
Example unit_x509_webpage :
  match x509_from_raw [48; 130; 2; 21; 48; 130; 1; 187; 160; 3; 2; 1; 2; 2; 20; 97; 47; 228; 9; 101; 157; 254; 57; 198; 162; 214; 133; 219; 44; 113; 251; 191; 190; 199; 212; 48; 10; 6; 8; 42; 134; 72; 206; 61; 4; 3; 2; 48; 96; 49; 11; 48; 9; 6; 3; 85; 4; 6; 19; 2; 68; 69; 49; 19; 48; 17; 6; 3; 85; 4; 8; 12; 10; 83; 111; 109; 101; 45; 83; 116; 97; 116; 101; 49; 33; 48; 31; 6; 3; 85; 4; 10; 12; 24; 73; 110; 116; 101; 114; 110; 101; 116; 32; 87; 105; 100; 103; 105; 116; 115; 32; 80; 116; 121; 32; 76; 116; 100; 49; 25; 48; 23; 6; 3; 85; 4; 3; 12; 16; 97; 110; 111; 116; 104; 101; 114; 116; 108; 115; 46; 108; 111; 99; 97; 108; 48; 30; 23; 13; 50; 51; 48; 51; 48; 57; 49; 48; 49; 56; 49; 50; 90; 23; 13; 50; 52; 48; 51; 48; 56; 49; 48; 49; 56; 49; 50; 90; 48; 96; 49; 11; 48; 9; 6; 3; 85; 4; 6; 19; 2; 68; 69; 49; 19; 48; 17; 6; 3; 85; 4; 8; 12; 10; 83; 111; 109; 101; 45; 83; 116; 97; 116; 101; 49; 33; 48; 31; 6; 3; 85; 4; 10; 12; 24; 73; 110; 116; 101; 114; 110; 101; 116; 32; 87; 105; 100; 103; 105; 116; 115; 32; 80; 116; 121; 32; 76; 116; 100; 49; 25; 48; 23; 6; 3; 85; 4; 3; 12; 16; 97; 110; 111; 116; 104; 101; 114; 116; 108; 115; 46; 108; 111; 99; 97; 108; 48; 89; 48; 19; 6; 7; 42; 134; 72; 206; 61; 2; 1; 6; 8; 42; 134; 72; 206; 61; 3; 1; 7; 3; 66; 0; 4; 110; 237; 43; 254; 232; 141; 179; 15; 144; 0; 27; 52; 242; 74; 216; 90; 150; 174; 220; 124; 1; 209; 117; 248; 29; 109; 162; 163; 217; 111; 41; 200; 109; 94; 20; 115; 91; 99; 242; 213; 121; 224; 103; 181; 3; 187; 66; 193; 217; 52; 245; 183; 49; 111; 165; 122; 19; 208; 69; 69; 119; 209; 148; 229; 163; 83; 48; 81; 48; 29; 6; 3; 85; 29; 14; 4; 22; 4; 20; 169; 209; 53; 17; 139; 197; 195; 183; 7; 108; 98; 72; 22; 158; 0; 135; 181; 237; 92; 0; 48; 31; 6; 3; 85; 29; 35; 4; 24; 48; 22; 128; 20; 169; 209; 53; 17; 139; 197; 195; 183; 7; 108; 98; 72; 22; 158; 0; 135; 181; 237; 92; 0; 48; 15; 6; 3; 85; 29; 19; 1; 1; 255; 4; 5; 48; 3; 1; 1; 255; 48; 10; 6; 8; 42; 134; 72; 206; 61; 4; 3; 2; 3; 72; 0; 48; 69; 2; 32; 55; 44; 49; 161; 64; 27; 141; 206; 153; 166; 28; 211; 172; 127; 131; 212; 174; 198; 40; 8; 94; 202; 182; 37; 9; 58; 199; 46; 98; 143; 209; 212; 2; 33; 0; 162; 131; 131; 41; 45; 200; 215; 63; 17; 79; 44; 22; 148; 228; 223; 252; 81; 121; 26; 206; 202; 34; 108; 200; 54; 153; 185; 70; 123; 187; 120; 252] with Ok x => (x_sig_alg x, name_get (x_issuer x) CommonName, name_get (x_issuer x) OrganizationName) = (EcdsaWithSha256, Ok [97; 110; 111; 116; 104; 101; 114; 116; 108; 115; 46; 108; 111; 99; 97; 108], Ok [73; 110; 116; 101; 114; 110; 101; 116; 32; 87; 105; 100; 103; 105; 116; 115; 32; 80; 116; 121; 32; 76; 116; 100]) | _ => False end.
Proof. vm_compute; reflexivity. Qed.
(* crypto/ellipticcurve/math.rs:164-182 *)
Definition unit_p : point := Point 0x440c8c7d996adc6038090e43d8595c45381b840219ea7d376f1fe9cd833bbe61 0xc5a285ff65319f8f3d8dcb12388457140c00a1887e18a0fe8da0f1b8c34670e3.
Example unit_weierstrass_add :
  to_point (jacobian_add (from_point unit_p) (from_point (Point 0x7ce1ff2021e6deefb316d445735415e917f1f60c1617e4d21f7671168a1a97f0 0xaf3f69d7f46758f99b027372b28c20bc8661422698f91de196695f1415a17c8d)) secp256r1) (cp secp256r1) =
  Point 0xaba09341535abbb6e7d8a93d6dd69c3251ab4eb0b62e5b6d5af96bf0c4c9950e 0x91da9e032e4165b8b7115c58251ce1620ebefd8dd221b73bd93ca14c3650e62c.
Proof. vm_compute; reflexivity. Qed.
(* crypto/ellipticcurve/math.rs:184-198 *)
Example unit_weierstrass_multiply :
  to_point (jacobian_multiply (from_point unit_p) 10 secp256r1) (cp secp256r1) =
  Point 0x38bfb2c88dd3dcfc1513aaef707fd37211b8f664625ed52edd1b365b534cfb55 0x5d1e3367bfc361ca6c7af6f46bd23e7ac8809d8364344558920b2f475278da52.
Proof. vm_compute; reflexivity. Qed.
