(** * /repo/src/utils.rs, translated statement by statement by tools/rust2coq.py *)
From Verif Require Import Machine SrcOps.

(** utils.rs:2-7 [read_u32_le] *)
Definition read_u32_le (p : platform) (data : list Z) : outcome Z :=
  t1 <-- vget data 0 ;;  (* 3 *)
  t2 <-- vget data 1 ;;
  t3 <-- vget data 2 ;;
  t4 <-- vget data 3 ;;
  Ok (Z.lor (Z.lor (Z.lor t1 (wshl 32 t2 8)) (wshl 32 t3 16)) (wshl 32 t4 24)).

(** utils.rs:10-19 [read_u64_le] *)
Definition read_u64_le (p : platform) (data : list Z) : outcome Z :=
  t1 <-- vget data 0 ;;  (* 11 *)
  t2 <-- vget data 1 ;;
  t3 <-- vget data 2 ;;
  t4 <-- vget data 3 ;;
  t5 <-- vget data 4 ;;
  t6 <-- vget data 5 ;;
  t7 <-- vget data 6 ;;
  t8 <-- vget data 7 ;;
  Ok (Z.lor (Z.lor (Z.lor (Z.lor (Z.lor (Z.lor (Z.lor t1 (wshl 64 t2 8)) (wshl 64 t3 16)) (wshl 64 t4 24)) (wshl 64 t5 32)) (wshl 64 t6 40)) (wshl 64 t7 48)) (wshl 64 t8 56)).
