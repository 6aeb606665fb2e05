(** * /repo/src/lyra2re.rs, lyra2rev2.rs, lyra2rev3.rs, lyra2z.rs, translated by tools/rust2coq.py,
    with the log of the calls of Lyra2 *)
From Verif Require Import Machine SrcOps Kept.
From Verif Require SrcLyra2Log SrcLyra2modLog SrcCube SrcBmw.

Section chains.
Context (blake256 keccak256 skein512_256 groestl256 : list Z -> list Z).

(** As [lyra2re_sum], with the log. lyra2re.rs:23-35 [sum] *)
Definition lyra2re_sum_log (p : platform) (input : list Z) : kept (list Z) :=
  result_blake <=~ kquiet (Ok (blake256 input)) ;;  (* 24 *)
  result_keccak256_1 <=~ kquiet (Ok (keccak256 result_blake)) ;;  (* 26 *)
  result_keccak256_2 <=~ kquiet (Ok result_keccak256_1) ;;  (* 28 *)
  result_lyra2 <=~ SrcLyra2Log.lyra2_log p 32 result_keccak256_1 result_keccak256_2 1 8 8 ;;  (* 30 *)
  result_skein <=~ kquiet (Ok (skein512_256 result_lyra2)) ;;  (* 32 *)
  kquiet (Ok (groestl256 result_skein)).  (* 34 *)

(** As [lyra2rev2_sum], with the log. lyra2rev2.rs:25-39 [sum] *)
Definition lyra2rev2_sum_log (p : platform) (input : list Z) : kept (list Z) :=
  result_blake <=~ kquiet (Ok (blake256 input)) ;;  (* 26 *)
  result_keccak256 <=~ kquiet (Ok (keccak256 result_blake)) ;;  (* 28 *)
  result_cube <=~ kquiet (SrcCube.sum p result_keccak256) ;;  (* 30 *)
  result_lyra2 <=~ SrcLyra2Log.sum_log p result_cube ;;  (* 32 *)
  result_skein <=~ kquiet (Ok (skein512_256 result_lyra2)) ;;  (* 34 *)
  result_cube3 <=~ kquiet (SrcCube.sum p result_skein) ;;  (* 36 *)
  kquiet (SrcBmw.sum p result_cube3).  (* 38 *)

(** As [lyra2rev3_sum], with the log. lyra2rev3.rs:23-33 [sum] *)
Definition lyra2rev3_sum_log (p : platform) (input : list Z) : kept (list Z) :=
  result_blake <=~ kquiet (Ok (blake256 input)) ;;  (* 24 *)
  result_lyra2_mod_1 <=~ SrcLyra2modLog.sum_log p result_blake ;;  (* 26 *)
  result_cube <=~ kquiet (SrcCube.sum p result_lyra2_mod_1) ;;  (* 28 *)
  result_lyra2_mod_2 <=~ SrcLyra2modLog.sum_log p result_cube ;;  (* 30 *)
  kquiet (SrcBmw.sum p result_lyra2_mod_2).  (* 32 *)

(** As [lyra2z_sum], with the log. lyra2z.rs:21-27 [sum] *)
Definition lyra2z_sum_log (p : platform) (input : list Z) : kept (list Z) :=
  result_blake_1 <=~ kquiet (Ok (blake256 input)) ;;  (* 22 *)
  result_blake_2 <=~ kquiet (Ok result_blake_1) ;;  (* 24 *)
  SrcLyra2Log.lyra2_log p 32 result_blake_1 result_blake_2 8 8 8.  (* 26 *)
End chains.
