(** * Model of /repo/src/cubehash/mod.rs *)
From Verif Require Import Machine MUtils MCubeGen.

(** cubehash/mod.rs:3-36 [IV] *)
Definition IV : list Z :=
  [0xEA2BD4B4; 0xCCD6F29F; 0x63117E71; 0x35481EAE; 0x22512D5B; 0xE5D94E63; 0x7E624131;
   0xF4CC12BE; 0xC2D0B696; 0x42AF2070; 0xD0720C35; 0x3361DA8C; 0x28CCECA4; 0x8EF8AD83;
   0x4680AC00; 0x40E5FBAB; 0xD89041C3; 0x6107FBD5; 0x6C859D41; 0xF0B26679; 0x09392549;
   0x5FA25603; 0x65C892FD; 0x93CB6285; 0x2AF2B5AE; 0x9E4B4E60; 0x774ABFDD; 0x85254725;
   0x15815AEB; 0x4AB6AAD6; 0x9CDAF8AF; 0xD6032C0A].

(** cubehash/mod.rs:73-108 [new_cube_hash] *)
Definition new_cube_hash : CubeHash :=
  Cube (aget IV 0) (aget IV 1) (aget IV 2) (aget IV 3) (aget IV 4) (aget IV 5) (aget IV 6)
       (aget IV 7) (aget IV 8) (aget IV 9) (aget IV 10) (aget IV 11) (aget IV 12)
       (aget IV 13) (aget IV 14) (aget IV 15) (aget IV 16) (aget IV 17) (aget IV 18)
       (aget IV 19) (aget IV 20) (aget IV 21) (aget IV 22) (aget IV 23) (aget IV 24)
       (aget IV 25) (aget IV 26) (aget IV 27) (aget IV 28) (aget IV 29) (aget IV 30)
       (aget IV 31).

(** One [read_u32_le(&data[s..e])] of cubehash/mod.rs:111-118. *)
Definition read_at (data : list Z) (s e : Z) : outcome Z :=
  bs <-- slice data s e ;; read_u32_le bs.

(** cubehash/mod.rs:110-120 [input_block] *)
Definition input_block (data : list Z) (c : CubeHash) : outcome CubeHash :=
  let '(Cube x0 x1 x2 x3 x4 x5 x6 x7 x8 x9 xa xb xc xd xe xf
             xg xh xi xj xk xl xm xn xo xp xq xr xs xt xu xv) := c in
  w0 <-- read_at data 0 4 ;;   let x0 := Z.lxor x0 w0 in
  w1 <-- read_at data 4 8 ;;   let x1 := Z.lxor x1 w1 in
  w2 <-- read_at data 8 12 ;;  let x2 := Z.lxor x2 w2 in
  w3 <-- read_at data 12 16 ;; let x3 := Z.lxor x3 w3 in
  w4 <-- read_at data 16 20 ;; let x4 := Z.lxor x4 w4 in
  w5 <-- read_at data 20 24 ;; let x5 := Z.lxor x5 w5 in
  w6 <-- read_at data 24 28 ;; let x6 := Z.lxor x6 w6 in
  w7 <-- read_at data 28 32 ;; let x7 := Z.lxor x7 w7 in
  Ok (Cube x0 x1 x2 x3 x4 x5 x6 x7 x8 x9 xa xb xc xd xe xf
           xg xh xi xj xk xl xm xn xo xp xq xr xs xt xu xv).

(** cubehash/mod.rs:122-320 [sixteen_rounds]: [for _i in 0..8 { two rounds }]. *)
Definition sixteen_rounds (c : CubeHash) : CubeHash := Nat.iter 8 two_rounds c.

(** cubehash/mod.rs:337 [c.xv ^= 1] *)
Definition xor_xv (c : CubeHash) (y : Z) : CubeHash :=
  let '(Cube x0 x1 x2 x3 x4 x5 x6 x7 x8 x9 xa xb xc xd xe xf
             xg xh xi xj xk xl xm xn xo xp xq xr xs xt xu xv) := c in
  Cube x0 x1 x2 x3 x4 x5 x6 x7 x8 x9 xa xb xc xd xe xf
       xg xh xi xj xk xl xm xn xo xp xq xr xs xt xu (Z.lxor xv y).

(** cubehash/mod.rs:324-351 [sum] *)
Definition cubehash_sum (p : platform) (data : list Z) : outcome (list Z) :=
  let c := new_cube_hash in
  buf <-- vec_zeroed p 1 32 ;;
  buf <-- vset buf 0 0x80 ;;
  c <-- input_block data c ;;
  let c := sixteen_rounds c in
  c <-- input_block buf c ;;
  let c := sixteen_rounds c in
  let c := xor_xv c 1 in
  let c := Nat.iter 10 sixteen_rounds c in
  foldM (fun out x => vec_extend p out (to_le_bytes 4 x))
    [c_x0 c; c_x1 c; c_x2 c; c_x3 c; c_x4 c; c_x5 c; c_x6 c; c_x7 c] [].
