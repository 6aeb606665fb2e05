(** * /repo/src/lyra2re.rs, lyra2rev2.rs, lyra2rev3.rs, lyra2z.rs, translated by tools/rust2coq.py,
    with the log of what is observable in the functions of this crate *)
From Verif Require Import Machine SrcOps Seen.
From Verif Require SrcLyra2Seen SrcLyra2modSeen SrcCubeSeen SrcBmwSeen.

Section chains.
Context (blake256 keccak256 skein512_256 groestl256 : list Z -> list Z).

(** As [lyra2re_sum], with the log of what is observable. lyra2re.rs:23-35 [sum] *)
Definition lyra2re_sum_seen (p : platform) (input : list Z) : seen (list Z) :=
  result_blake <=! sret ((blake256 input)) ;;  (* 24 *)
  result_keccak256_1 <=! sret ((keccak256 result_blake)) ;;  (* 26 *)
  result_keccak256_2 <=! sret (result_keccak256_1) ;;  (* 28 *)
  result_lyra2 <=! SrcLyra2Seen.lyra2_seen p 32 result_keccak256_1 result_keccak256_2 1 8 8 ;;  (* 30 *)
  result_skein <=! sret ((skein512_256 result_lyra2)) ;;  (* 32 *)
  sret ((groestl256 result_skein)).  (* 34 *)

(** As [lyra2rev2_sum], with the log of what is observable. lyra2rev2.rs:25-39 [sum] *)
Definition lyra2rev2_sum_seen (p : platform) (input : list Z) : seen (list Z) :=
  result_blake <=! sret ((blake256 input)) ;;  (* 26 *)
  result_keccak256 <=! sret ((keccak256 result_blake)) ;;  (* 28 *)
  result_cube <=! SrcCubeSeen.sum_seen p result_keccak256 ;;  (* 30 *)
  result_lyra2 <=! SrcLyra2Seen.sum_seen p result_cube ;;  (* 32 *)
  result_skein <=! sret ((skein512_256 result_lyra2)) ;;  (* 34 *)
  result_cube3 <=! SrcCubeSeen.sum_seen p result_skein ;;  (* 36 *)
  SrcBmwSeen.sum_seen p result_cube3.  (* 38 *)

(** As [lyra2rev3_sum], with the log of what is observable. lyra2rev3.rs:23-33 [sum] *)
Definition lyra2rev3_sum_seen (p : platform) (input : list Z) : seen (list Z) :=
  result_blake <=! sret ((blake256 input)) ;;  (* 24 *)
  result_lyra2_mod_1 <=! SrcLyra2modSeen.sum_seen p result_blake ;;  (* 26 *)
  result_cube <=! SrcCubeSeen.sum_seen p result_lyra2_mod_1 ;;  (* 28 *)
  result_lyra2_mod_2 <=! SrcLyra2modSeen.sum_seen p result_cube ;;  (* 30 *)
  SrcBmwSeen.sum_seen p result_lyra2_mod_2.  (* 32 *)

(** As [lyra2z_sum], with the log of what is observable. lyra2z.rs:21-27 [sum] *)
Definition lyra2z_sum_seen (p : platform) (input : list Z) : seen (list Z) :=
  result_blake_1 <=! sret ((blake256 input)) ;;  (* 22 *)
  result_blake_2 <=! sret (result_blake_1) ;;  (* 24 *)
  SrcLyra2Seen.lyra2_seen p 32 result_blake_1 result_blake_2 8 8 8.  (* 26 *)
End chains.
