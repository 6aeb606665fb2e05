(** * Model of /repo/src/utils.rs *)
From Verif Require Import Machine.

(** src/utils.rs:1-7 [read_u32_le]: [data[0] | data[1]<<8 | data[2]<<16 | data[3]<<24]
    on [u32]; each [data[i]] panics when out of bounds. *)
Definition read_u32_le (data : list Z) : outcome Z :=
  d0 <-- vget data 0 ;;
  d1 <-- vget data 1 ;;
  d2 <-- vget data 2 ;;
  d3 <-- vget data 3 ;;
  Ok (Z.lor (Z.lor (Z.lor d0 (wshl 32 d1 8)) (wshl 32 d2 16)) (wshl 32 d3 24)).

(** src/utils.rs:9-19 [read_u64_le] *)
Definition read_u64_le (data : list Z) : outcome Z :=
  d0 <-- vget data 0 ;;
  d1 <-- vget data 1 ;;
  d2 <-- vget data 2 ;;
  d3 <-- vget data 3 ;;
  d4 <-- vget data 4 ;;
  d5 <-- vget data 5 ;;
  d6 <-- vget data 6 ;;
  d7 <-- vget data 7 ;;
  Ok (Z.lor (Z.lor (Z.lor (Z.lor (Z.lor (Z.lor (Z.lor d0
       (wshl 64 d1 8)) (wshl 64 d2 16)) (wshl 64 d3 24)) (wshl 64 d4 32))
       (wshl 64 d5 40)) (wshl 64 d6 48)) (wshl 64 d7 56)).
