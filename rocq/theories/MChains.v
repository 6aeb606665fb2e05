(** * Model of /repo/src/lyra2re.rs, lyra2rev2.rs, lyra2rev3.rs, lyra2z.rs

    The digests of the external crates blake-hash, sha3, skein-hash and groestl
    are parameters (total functions from byte strings to byte strings): their
    sources are not part of /repo. *)
From Verif Require Import Machine MUtils MLyra2 MBmw MCube.

Section chains.
Context (p : platform).
Context (blake256 keccak256 skein512_256 groestl256 : list Z -> list Z).

(** lyra2re.rs:23-35 [sum] *)
Definition lyra2re_sum (input : list Z) : outcome (list Z) :=
  let result_blake := blake256 input in
  let result_keccak256_1 := keccak256 result_blake in
  let result_keccak256_2 := result_keccak256_1 in
  result_lyra2 <-- lyra2 p 32 result_keccak256_1 result_keccak256_2 1 8 8 ;;
  let result_skein := skein512_256 result_lyra2 in
  Ok (groestl256 result_skein).

(** lyra2rev2.rs:25-39 [sum] *)
Definition lyra2rev2_sum (input : list Z) : outcome (list Z) :=
  let result_blake := blake256 input in
  let result_keccak256 := keccak256 result_blake in
  result_cube <-- cubehash_sum p result_keccak256 ;;
  result_lyra2 <-- lyra2_sum p result_cube ;;
  let result_skein := skein512_256 result_lyra2 in
  result_cube3 <-- cubehash_sum p result_skein ;;
  bmw_sum p result_cube3.

(** lyra2rev3.rs:23-33 [sum] *)
Definition lyra2rev3_sum (input : list Z) : outcome (list Z) :=
  let result_blake := blake256 input in
  result_lyra2_mod_1 <-- lyra2mod_sum p result_blake ;;
  result_cube <-- cubehash_sum p result_lyra2_mod_1 ;;
  result_lyra2_mod_2 <-- lyra2mod_sum p result_cube ;;
  bmw_sum p result_lyra2_mod_2.

(** lyra2z.rs:21-27 [sum] *)
Definition lyra2z_sum (input : list Z) : outcome (list Z) :=
  let result_blake_1 := blake256 input in
  let result_blake_2 := result_blake_1 in
  lyra2 p 32 result_blake_1 result_blake_2 8 8 8.
End chains.
