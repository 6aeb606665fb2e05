(** * /repo/src/lyra2re.rs, lyra2rev2.rs, lyra2rev3.rs, lyra2z.rs, translated by tools/rust2coq.py.
    The digests of the external crates are parameters. *)
From Verif Require Import Machine SrcOps.
From Verif Require SrcLyra2 SrcLyra2mod SrcCube SrcBmw.

Section chains.
Context (blake256 keccak256 skein512_256 groestl256 : list Z -> list Z).

(** lyra2re.rs:23-35 [sum] *)
Definition lyra2re_sum (p : platform) (input : list Z) : outcome (list Z) :=
  result_blake <-- Ok (blake256 input) ;;  (* 24 *)
  result_keccak256_1 <-- Ok (keccak256 result_blake) ;;  (* 26 *)
  result_keccak256_2 <-- Ok result_keccak256_1 ;;  (* 28 *)
  result_lyra2 <-- SrcLyra2.lyra2 p 32 result_keccak256_1 result_keccak256_2 1 8 8 ;;  (* 30 *)
  result_skein <-- Ok (skein512_256 result_lyra2) ;;  (* 32 *)
  Ok (groestl256 result_skein).  (* 34 *)

(** lyra2rev2.rs:25-39 [sum] *)
Definition lyra2rev2_sum (p : platform) (input : list Z) : outcome (list Z) :=
  result_blake <-- Ok (blake256 input) ;;  (* 26 *)
  result_keccak256 <-- Ok (keccak256 result_blake) ;;  (* 28 *)
  result_cube <-- SrcCube.sum p result_keccak256 ;;  (* 30 *)
  result_lyra2 <-- SrcLyra2.sum p result_cube ;;  (* 32 *)
  result_skein <-- Ok (skein512_256 result_lyra2) ;;  (* 34 *)
  result_cube3 <-- SrcCube.sum p result_skein ;;  (* 36 *)
  SrcBmw.sum p result_cube3.  (* 38 *)

(** lyra2rev3.rs:23-33 [sum] *)
Definition lyra2rev3_sum (p : platform) (input : list Z) : outcome (list Z) :=
  result_blake <-- Ok (blake256 input) ;;  (* 24 *)
  result_lyra2_mod_1 <-- SrcLyra2mod.sum p result_blake ;;  (* 26 *)
  result_cube <-- SrcCube.sum p result_lyra2_mod_1 ;;  (* 28 *)
  result_lyra2_mod_2 <-- SrcLyra2mod.sum p result_cube ;;  (* 30 *)
  SrcBmw.sum p result_lyra2_mod_2.  (* 32 *)

(** lyra2z.rs:21-27 [sum] *)
Definition lyra2z_sum (p : platform) (input : list Z) : outcome (list Z) :=
  result_blake_1 <-- Ok (blake256 input) ;;  (* 22 *)
  result_blake_2 <-- Ok result_blake_1 ;;  (* 24 *)
  SrcLyra2.lyra2 p 32 result_blake_1 result_blake_2 8 8 8.  (* 26 *)
End chains.
