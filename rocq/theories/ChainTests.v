(** * Known-answer tests of the chained hashes, with the external digests instantiated by
    their specifications.  Tests, not proofs. *)
From Verif Require Import Machine MChains Tests.
From Verif Require Import SpecBlake256 SpecKeccak SpecSkein SpecGroestl.

(** lyra2re.rs:38-48 *)
Example kat_lyra2re_1 :
  lyra2re_sum debug64 blake256 keccak256 skein512_256 groestl256 abc =
  Ok [7; 211; 254; 147; 16; 63; 106; 212; 40; 74; 211; 137; 212; 176; 168; 3; 52; 201; 79; 95; 253; 10; 83; 125; 252; 147; 91; 54; 37; 85; 35; 23].
Proof. vm_compute. reflexivity. Qed.

(** lyra2rev2.rs:42-52 *)
Example kat_lyra2rev2_1 :
  lyra2rev2_sum debug64 blake256 keccak256 skein512_256 abc =
  Ok [128; 236; 83; 68; 34; 124; 93; 11; 253; 99; 3; 143; 0; 195; 254; 90; 236; 221; 209; 161; 18; 32; 67; 176; 169; 11; 95; 214; 123; 30; 143; 50].
Proof. vm_compute. reflexivity. Qed.

(** lyra2rev3.rs:36-46 *)
Example kat_lyra2rev3_1 :
  lyra2rev3_sum debug64 blake256 abc =
  Ok [78; 68; 80; 135; 226; 141; 41; 75; 48; 116; 233; 143; 238; 134; 15; 183; 61; 36; 138; 99; 21; 14; 162; 212; 43; 254; 221; 210; 28; 11; 137; 239].
Proof. vm_compute. reflexivity. Qed.
