(** * Known-answer tests of the repository, evaluated on the model.
    These are tests (single inputs), not proofs: they tie the reading of the Rust
    source to the model. *)
From Verif Require Import Machine MUtils MLyra2 MCube MBmw.

Definition abc : list Z := [97; 98; 99].
Definition wakiyama : list Z := [232; 132; 135; 229; 177; 177; 231; 143; 160; 231; 190; 142; 227; 129; 161; 227; 130; 131; 227; 130; 147; 227; 129; 139; 227; 130; 143; 227; 129; 132; 227; 129; 132; 239; 188; 129].
Definition emoji : list Z := [240; 159; 152; 128; 240; 159; 152; 129; 240; 159; 152; 130].

(** lyra2.rs:676-684 *)
Example kat_lyra2_1 :
  lyra2_sum debug64 abc = Ok [143; 99; 117; 139; 209; 120; 240; 20; 234; 63; 212; 223; 9; 255; 10; 97; 100; 109; 197; 116; 160; 182; 188; 242; 137; 14; 197; 41; 166; 167; 54; 12].
Proof. vm_compute. reflexivity. Qed.

(** lyra2.rs:686-689 *)
Example kat_lyra2_2 :
  lyra2 debug64 48 wakiyama wakiyama 1 3 4 = Ok [201; 55; 207; 224; 238; 33; 168; 231; 193; 209; 135; 18; 69; 234; 113; 116; 87; 237; 190; 226; 222; 139; 245; 68; 229; 15; 128; 115; 73; 163; 70; 12; 82; 203; 107; 177; 11; 208; 183; 50; 133; 4; 188; 42; 217; 132; 225; 243].
Proof. vm_compute. reflexivity. Qed.

(** lyra2.rs:691-700 *)
Example kat_lyra2_3 :
  lyra2 debug64 16 emoji emoji 1 4 2 = Ok [55; 37; 87; 239; 96; 12; 140; 118; 190; 221; 145; 236; 213; 160; 31; 69].
Proof. vm_compute. reflexivity. Qed.

(** lyra2mod/mod.rs:641-649 *)
Example kat_lyra2mod_1 :
  lyra2mod_sum debug64 abc = Ok [12; 54; 68; 79; 40; 133; 183; 47; 53; 40; 175; 59; 31; 89; 23; 79; 143; 213; 194; 11; 113; 41; 136; 48; 105; 98; 120; 76; 95; 138; 196; 98].
Proof. vm_compute. reflexivity. Qed.

(** lyra2mod/mod.rs:651-654 *)
Example kat_lyra2mod_2 :
  lyra2mod debug64 48 wakiyama wakiyama 1 3 4 = Ok [201; 55; 207; 224; 238; 33; 168; 231; 193; 209; 135; 18; 69; 234; 113; 116; 87; 237; 190; 226; 222; 139; 245; 68; 229; 15; 128; 115; 73; 163; 70; 12; 82; 203; 107; 177; 11; 208; 183; 50; 133; 4; 188; 42; 217; 132; 225; 243].
Proof. vm_compute. reflexivity. Qed.

(** lyra2mod/mod.rs:656-665 *)
Example kat_lyra2mod_3 :
  lyra2mod debug64 16 emoji emoji 1 4 2 = Ok [60; 209; 67; 168; 144; 63; 53; 170; 50; 251; 233; 57; 87; 6; 207; 214].
Proof. vm_compute. reflexivity. Qed.

(** bmw/mod.rs:976-984 *)
Example kat_bmw_1 :
  bmw_sum debug64 abc = Ok [87; 209; 31; 201; 75; 223; 152; 230; 160; 208; 191; 29; 77; 221; 163; 244; 32; 94; 135; 54; 102; 166; 68; 181; 187; 88; 94; 23; 26; 216; 125; 52].
Proof. vm_compute. reflexivity. Qed.

(** bmw/mod.rs:986-994 *)
Example kat_bmw_2 :
  bmw_sum debug64 wakiyama = Ok [3; 76; 61; 239; 235; 53; 179; 142; 35; 19; 106; 215; 0; 136; 80; 7; 192; 192; 81; 205; 81; 204; 69; 23; 12; 187; 220; 214; 132; 25; 33; 74].
Proof. vm_compute. reflexivity. Qed.

(** bmw/mod.rs:996-1004 *)
Example kat_bmw_3 :
  bmw_sum debug64 emoji = Ok [153; 120; 204; 189; 225; 219; 49; 220; 193; 191; 215; 160; 16; 217; 174; 34; 21; 229; 251; 145; 233; 236; 175; 120; 107; 230; 37; 44; 98; 31; 96; 227].
Proof. vm_compute. reflexivity. Qed.

(** cubehash/mod.rs:355-363 *)
Example kat_cubehash_1 :
  cubehash_sum debug64 (replicate 32 48) = Ok [248; 57; 137; 144; 30; 179; 195; 102; 231; 215; 70; 159; 142; 168; 239; 6; 148; 4; 60; 212; 45; 235; 98; 82; 8; 159; 243; 143; 183; 137; 47; 61].
Proof. vm_compute. reflexivity. Qed.

