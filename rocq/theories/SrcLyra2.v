(** * /repo/src/lyra2.rs, translated statement by statement by tools/rust2coq.py *)
From Verif Require Import Machine SrcOps.
From Verif Require SrcUtils.

(** lyra2.rs:6-15 [BLAKE2BIV] *)
Definition BLAKE2BIV : list Z := [0x6a09e667f3bcc908; 0xbb67ae8584caa73b; 0x3c6ef372fe94f82b; 0xa54ff53a5f1d36f1; 0x510e527fade682d1; 0x9b05688c2b3e6c1f; 0x1f83d9abfb41bd6b; 0x5be0cd19137e2179].

(** lyra2.rs:17-17 [BLOCKLENINT64] *)
Definition BLOCKLENINT64 : Z := 12.

(** lyra2.rs:18-18 [BLOCKLENBYTES] *)
Definition BLOCKLENBYTES : Z := BLOCKLENINT64 * 8.

(** lyra2.rs:19-19 [BLOCKLENBLAKE2SAFEINT64] *)
Definition BLOCKLENBLAKE2SAFEINT64 : Z := 8.

(** lyra2.rs:20-20 [BLOCKLENBLAKE2SAFEBYTES] *)
Definition BLOCKLENBLAKE2SAFEBYTES : Z := BLOCKLENBLAKE2SAFEINT64 * 8.

(** lyra2.rs:23-25 [rotr64] *)
Definition rotr64 (p : platform) (w : Z) (c : Z) : outcome Z :=
  t1 <-- shr_chk p 64 w c ;;  (* 24 *)
  t2 <-- u8sub p 64 c ;;
  t3 <-- shl_chk p 64 w t2 ;;
  Ok (Z.lor t1 t3).

(** lyra2.rs:28-39 [g] *)
Definition g (p : platform) (a : Z) (b : Z) (c : Z) (d : Z) : outcome (list Z) :=
  abcd <-- Ok [a; b; c; d] ;;  (* 29 *)
  abcd <-- Ok (<[0%nat := (wadd 64 (aget abcd 0) (aget abcd 1))]> abcd) ;;  (* 30 *)
  t1 <-- rotr64 p (Z.lxor (aget abcd 3) (aget abcd 0)) 32 ;;  (* 31 *)
  abcd <-- Ok (<[3%nat := t1]> abcd) ;;
  abcd <-- Ok (<[2%nat := (wadd 64 (aget abcd 2) (aget abcd 3))]> abcd) ;;  (* 32 *)
  t2 <-- rotr64 p (Z.lxor (aget abcd 1) (aget abcd 2)) 24 ;;  (* 33 *)
  abcd <-- Ok (<[1%nat := t2]> abcd) ;;
  abcd <-- Ok (<[0%nat := (wadd 64 (aget abcd 0) (aget abcd 1))]> abcd) ;;  (* 34 *)
  t3 <-- rotr64 p (Z.lxor (aget abcd 3) (aget abcd 0)) 16 ;;  (* 35 *)
  abcd <-- Ok (<[3%nat := t3]> abcd) ;;
  abcd <-- Ok (<[2%nat := (wadd 64 (aget abcd 2) (aget abcd 3))]> abcd) ;;  (* 36 *)
  t4 <-- rotr64 p (Z.lxor (aget abcd 1) (aget abcd 2)) 63 ;;  (* 37 *)
  abcd <-- Ok (<[1%nat := t4]> abcd) ;;
  Ok abcd.  (* 38 *)

(** lyra2.rs:42-84 [round_lyra] *)
Definition round_lyra (p : platform) (v : list Z) : outcome (list Z) :=
  abcd <-- g p (aget v 0) (aget v 4) (aget v 8) (aget v 12) ;;  (* 43 *)
  v <-- Ok (<[0%nat := (aget abcd 0)]> v) ;;  (* 44 *)
  v <-- Ok (<[4%nat := (aget abcd 1)]> v) ;;  (* 45 *)
  v <-- Ok (<[8%nat := (aget abcd 2)]> v) ;;  (* 46 *)
  v <-- Ok (<[12%nat := (aget abcd 3)]> v) ;;  (* 47 *)
  abcd <-- g p (aget v 1) (aget v 5) (aget v 9) (aget v 13) ;;  (* 48 *)
  v <-- Ok (<[1%nat := (aget abcd 0)]> v) ;;  (* 49 *)
  v <-- Ok (<[5%nat := (aget abcd 1)]> v) ;;  (* 50 *)
  v <-- Ok (<[9%nat := (aget abcd 2)]> v) ;;  (* 51 *)
  v <-- Ok (<[13%nat := (aget abcd 3)]> v) ;;  (* 52 *)
  abcd <-- g p (aget v 2) (aget v 6) (aget v 10) (aget v 14) ;;  (* 53 *)
  v <-- Ok (<[2%nat := (aget abcd 0)]> v) ;;  (* 54 *)
  v <-- Ok (<[6%nat := (aget abcd 1)]> v) ;;  (* 55 *)
  v <-- Ok (<[10%nat := (aget abcd 2)]> v) ;;  (* 56 *)
  v <-- Ok (<[14%nat := (aget abcd 3)]> v) ;;  (* 57 *)
  abcd <-- g p (aget v 3) (aget v 7) (aget v 11) (aget v 15) ;;  (* 58 *)
  v <-- Ok (<[3%nat := (aget abcd 0)]> v) ;;  (* 59 *)
  v <-- Ok (<[7%nat := (aget abcd 1)]> v) ;;  (* 60 *)
  v <-- Ok (<[11%nat := (aget abcd 2)]> v) ;;  (* 61 *)
  v <-- Ok (<[15%nat := (aget abcd 3)]> v) ;;  (* 62 *)
  abcd <-- g p (aget v 0) (aget v 5) (aget v 10) (aget v 15) ;;  (* 63 *)
  v <-- Ok (<[0%nat := (aget abcd 0)]> v) ;;  (* 64 *)
  v <-- Ok (<[5%nat := (aget abcd 1)]> v) ;;  (* 65 *)
  v <-- Ok (<[10%nat := (aget abcd 2)]> v) ;;  (* 66 *)
  v <-- Ok (<[15%nat := (aget abcd 3)]> v) ;;  (* 67 *)
  abcd <-- g p (aget v 1) (aget v 6) (aget v 11) (aget v 12) ;;  (* 68 *)
  v <-- Ok (<[1%nat := (aget abcd 0)]> v) ;;  (* 69 *)
  v <-- Ok (<[6%nat := (aget abcd 1)]> v) ;;  (* 70 *)
  v <-- Ok (<[11%nat := (aget abcd 2)]> v) ;;  (* 71 *)
  v <-- Ok (<[12%nat := (aget abcd 3)]> v) ;;  (* 72 *)
  abcd <-- g p (aget v 2) (aget v 7) (aget v 8) (aget v 13) ;;  (* 73 *)
  v <-- Ok (<[2%nat := (aget abcd 0)]> v) ;;  (* 74 *)
  v <-- Ok (<[7%nat := (aget abcd 1)]> v) ;;  (* 75 *)
  v <-- Ok (<[8%nat := (aget abcd 2)]> v) ;;  (* 76 *)
  v <-- Ok (<[13%nat := (aget abcd 3)]> v) ;;  (* 77 *)
  abcd <-- g p (aget v 3) (aget v 4) (aget v 9) (aget v 14) ;;  (* 78 *)
  v <-- Ok (<[3%nat := (aget abcd 0)]> v) ;;  (* 79 *)
  v <-- Ok (<[4%nat := (aget abcd 1)]> v) ;;  (* 80 *)
  v <-- Ok (<[9%nat := (aget abcd 2)]> v) ;;  (* 81 *)
  v <-- Ok (<[14%nat := (aget abcd 3)]> v) ;;  (* 82 *)
  Ok v.  (* 83 *)

(** lyra2.rs:97-108 [init_state] *)
Definition init_state (p : platform) : outcome (list Z) :=
  s <-- Ok [0; 0; 0; 0; 0; 0; 0; 0; 0; 0; 0; 0; 0; 0; 0; 0] ;;  (* 98 *)
  s <-- Ok (<[8%nat := (aget BLAKE2BIV 0)]> s) ;;  (* 99 *)
  s <-- Ok (<[9%nat := (aget BLAKE2BIV 1)]> s) ;;  (* 100 *)
  s <-- Ok (<[10%nat := (aget BLAKE2BIV 2)]> s) ;;  (* 101 *)
  s <-- Ok (<[11%nat := (aget BLAKE2BIV 3)]> s) ;;  (* 102 *)
  s <-- Ok (<[12%nat := (aget BLAKE2BIV 4)]> s) ;;  (* 103 *)
  s <-- Ok (<[13%nat := (aget BLAKE2BIV 5)]> s) ;;  (* 104 *)
  s <-- Ok (<[14%nat := (aget BLAKE2BIV 6)]> s) ;;  (* 105 *)
  s <-- Ok (<[15%nat := (aget BLAKE2BIV 7)]> s) ;;  (* 106 *)
  Ok s.  (* 107 *)

(** lyra2.rs:115-129 [blake2b_lyra] *)
Definition blake2b_lyra (p : platform) (v : list Z) : outcome (list Z) :=
  v <-- round_lyra p v ;;  (* 116 *)
  v <-- round_lyra p v ;;  (* 117 *)
  v <-- round_lyra p v ;;  (* 118 *)
  v <-- round_lyra p v ;;  (* 119 *)
  v <-- round_lyra p v ;;  (* 120 *)
  v <-- round_lyra p v ;;  (* 121 *)
  v <-- round_lyra p v ;;  (* 122 *)
  v <-- round_lyra p v ;;  (* 123 *)
  v <-- round_lyra p v ;;  (* 124 *)
  v <-- round_lyra p v ;;  (* 125 *)
  v <-- round_lyra p v ;;  (* 126 *)
  v <-- round_lyra p v ;;  (* 127 *)
  Ok v.  (* 128 *)

(** lyra2.rs:135-138 [reduced_blake2b_lyra] *)
Definition reduced_blake2b_lyra (p : platform) (v : list Z) : outcome (list Z) :=
  v <-- round_lyra p v ;;  (* 136 *)
  Ok v.  (* 137 *)

(** lyra2.rs:154-156: body of the [for] loop over [_i]. *)
Definition squeeze_body2 (p : platform) (state : list Z) (_i : Z) (s : list Z) : outcome (list Z) :=
  let tmp := s in
  t1 <-- vget state (as_usize p _i) ;;  (* 155 *)
  tmp <-- vec_extend p tmp (to_le_bytes 8 t1) ;;
  Ok tmp.

(** lyra2.rs:153-160: body of the [for] loop over [_j]. *)
Definition squeeze_body1 (p : platform) (output_size : Z) (_j : Z) (s : list Z * list Z * list Z) : outcome (list Z * list Z * list Z) :=
  let '(state, tmp, out) := s in
  tmp <-- for_range 0 BLOCKLENINT64 (squeeze_body2 p state) tmp ;;  (* 154 *)
  t1 <-- slice tmp 0 (as_usize p output_size) ;;  (* 158 *)
  out <-- slice_set out (as_usize p output_size) t1 ;;
  state <-- blake2b_lyra p state ;;  (* 159 *)
  Ok (state, tmp, out).

(** lyra2.rs:148-162 [squeeze] *)
Definition squeeze (p : platform) (state : list Z) (output_size : Z) : outcome (list Z) :=
  tmp <-- Ok [] ;;  (* 149 *)
  out <-- vec_zeroed p 1 (as_usize p output_size) ;;  (* 150 *)
  _j <-- Ok 0 ;;  (* 151 *)
  jmax <-- iadd p (Z.quot (as_i64 output_size) BLOCKLENBYTES) 1 ;;  (* 152 *)
  '(state, tmp, out) <-- for_range 0 jmax (squeeze_body1 p output_size) (state, tmp, out) ;;  (* 153 *)
  Ok out.  (* 161 *)

(** lyra2.rs:171-189 [absorb_block] *)
Definition absorb_block (p : platform) (s : list Z) (w : list Z) : outcome (list Z) :=
  t1 <-- vget w 0 ;;  (* 173 *)
  s <-- Ok (<[0%nat := (Z.lxor (aget s 0) t1)]> s) ;;
  t2 <-- vget w 1 ;;  (* 174 *)
  s <-- Ok (<[1%nat := (Z.lxor (aget s 1) t2)]> s) ;;
  t3 <-- vget w 2 ;;  (* 175 *)
  s <-- Ok (<[2%nat := (Z.lxor (aget s 2) t3)]> s) ;;
  t4 <-- vget w 3 ;;  (* 176 *)
  s <-- Ok (<[3%nat := (Z.lxor (aget s 3) t4)]> s) ;;
  t5 <-- vget w 4 ;;  (* 177 *)
  s <-- Ok (<[4%nat := (Z.lxor (aget s 4) t5)]> s) ;;
  t6 <-- vget w 5 ;;  (* 178 *)
  s <-- Ok (<[5%nat := (Z.lxor (aget s 5) t6)]> s) ;;
  t7 <-- vget w 6 ;;  (* 179 *)
  s <-- Ok (<[6%nat := (Z.lxor (aget s 6) t7)]> s) ;;
  t8 <-- vget w 7 ;;  (* 180 *)
  s <-- Ok (<[7%nat := (Z.lxor (aget s 7) t8)]> s) ;;
  t9 <-- vget w 8 ;;  (* 181 *)
  s <-- Ok (<[8%nat := (Z.lxor (aget s 8) t9)]> s) ;;
  t10 <-- vget w 9 ;;  (* 182 *)
  s <-- Ok (<[9%nat := (Z.lxor (aget s 9) t10)]> s) ;;
  t11 <-- vget w 10 ;;  (* 183 *)
  s <-- Ok (<[10%nat := (Z.lxor (aget s 10) t11)]> s) ;;
  t12 <-- vget w 11 ;;  (* 184 *)
  s <-- Ok (<[11%nat := (Z.lxor (aget s 11) t12)]> s) ;;
  s <-- blake2b_lyra p s ;;  (* 187 *)
  Ok s.  (* 188 *)

(** lyra2.rs:198-211 [absorb_block_blake2_safe] *)
Definition absorb_block_blake2_safe (p : platform) (s : list Z) (w : list Z) : outcome (list Z) :=
  t1 <-- vget w 0 ;;  (* 200 *)
  s <-- Ok (<[0%nat := (Z.lxor (aget s 0) t1)]> s) ;;
  t2 <-- vget w 1 ;;  (* 201 *)
  s <-- Ok (<[1%nat := (Z.lxor (aget s 1) t2)]> s) ;;
  t3 <-- vget w 2 ;;  (* 202 *)
  s <-- Ok (<[2%nat := (Z.lxor (aget s 2) t3)]> s) ;;
  t4 <-- vget w 3 ;;  (* 203 *)
  s <-- Ok (<[3%nat := (Z.lxor (aget s 3) t4)]> s) ;;
  t5 <-- vget w 4 ;;  (* 204 *)
  s <-- Ok (<[4%nat := (Z.lxor (aget s 4) t5)]> s) ;;
  t6 <-- vget w 5 ;;  (* 205 *)
  s <-- Ok (<[5%nat := (Z.lxor (aget s 5) t6)]> s) ;;
  t7 <-- vget w 6 ;;  (* 206 *)
  s <-- Ok (<[6%nat := (Z.lxor (aget s 6) t7)]> s) ;;
  t8 <-- vget w 7 ;;  (* 207 *)
  s <-- Ok (<[7%nat := (Z.lxor (aget s 7) t8)]> s) ;;
  s <-- blake2b_lyra p s ;;  (* 209 *)
  Ok s.  (* 210 *)

(** lyra2.rs:289-293: body of the [for] loop over [j]. *)
Definition lyra2_body1 (p : platform) (pwd : list Z) (ptr_byte : Z) (j : Z) (s : list Z) : outcome (list Z) :=
  let whole_matrix := s in
  start <-- szmul p 8 j ;;  (* 290 *)
  end_ <-- szadd p start 8 ;;  (* 291 *)
  t3 <-- slice pwd start end_ ;;  (* 292 *)
  t4 <-- SrcUtils.read_u64_le p t3 ;;
  t5 <-- szadd p ptr_byte j ;;
  whole_matrix <-- vset whole_matrix t5 t4 ;;
  Ok whole_matrix.

(** lyra2.rs:298-302: body of the [for] loop over [j]. *)
Definition lyra2_body2 (p : platform) (salt : list Z) (ptr_byte : Z) (j : Z) (s : list Z) : outcome (list Z) :=
  let whole_matrix := s in
  start <-- szmul p 8 j ;;  (* 299 *)
  end_ <-- szadd p start 8 ;;  (* 300 *)
  t3 <-- slice salt start end_ ;;  (* 301 *)
  t4 <-- SrcUtils.read_u64_le p t3 ;;
  t5 <-- szadd p ptr_byte j ;;
  whole_matrix <-- vset whole_matrix t5 t4 ;;
  Ok whole_matrix.

(** lyra2.rs:335-339: body of the [for] loop over [_i]. *)
Definition lyra2_body3 (p : platform) (whole_matrix : list Z) (_i : Z) (s : list Z * Z) : outcome (list Z * Z) :=
  let '(state, ptr_word) := s in
  _right <-- split_right whole_matrix ptr_word ;;  (* 336 *)
  state <-- absorb_block_blake2_safe p state _right ;;  (* 337 *)
  ptr_word <-- szadd p ptr_word (as_usize p BLOCKLENBLAKE2SAFEINT64) ;;  (* 338 *)
  Ok (state, ptr_word).

(** lyra2.rs:346-366: body of the [for] loop over [_i]. *)
Definition lyra2_body4 (p : platform) (_i : Z) (s : list Z * list Z * Z) : outcome (list Z * list Z * Z) :=
  let '(whole_matrix, state, ptr) := s in
  whole_matrix <-- vset whole_matrix (as_usize p ptr) (aget state 0) ;;  (* 348 *)
  t2 <-- iadd p ptr 1 ;;  (* 349 *)
  whole_matrix <-- vset whole_matrix (as_usize p t2) (aget state 1) ;;
  t4 <-- iadd p ptr 2 ;;  (* 350 *)
  whole_matrix <-- vset whole_matrix (as_usize p t4) (aget state 2) ;;
  t6 <-- iadd p ptr 3 ;;  (* 351 *)
  whole_matrix <-- vset whole_matrix (as_usize p t6) (aget state 3) ;;
  t8 <-- iadd p ptr 4 ;;  (* 352 *)
  whole_matrix <-- vset whole_matrix (as_usize p t8) (aget state 4) ;;
  t10 <-- iadd p ptr 5 ;;  (* 353 *)
  whole_matrix <-- vset whole_matrix (as_usize p t10) (aget state 5) ;;
  t12 <-- iadd p ptr 6 ;;  (* 354 *)
  whole_matrix <-- vset whole_matrix (as_usize p t12) (aget state 6) ;;
  t14 <-- iadd p ptr 7 ;;  (* 355 *)
  whole_matrix <-- vset whole_matrix (as_usize p t14) (aget state 7) ;;
  t16 <-- iadd p ptr 8 ;;  (* 356 *)
  whole_matrix <-- vset whole_matrix (as_usize p t16) (aget state 8) ;;
  t18 <-- iadd p ptr 9 ;;  (* 357 *)
  whole_matrix <-- vset whole_matrix (as_usize p t18) (aget state 9) ;;
  t20 <-- iadd p ptr 10 ;;  (* 358 *)
  whole_matrix <-- vset whole_matrix (as_usize p t20) (aget state 10) ;;
  t22 <-- iadd p ptr 11 ;;  (* 359 *)
  whole_matrix <-- vset whole_matrix (as_usize p t22) (aget state 11) ;;
  ptr <-- Ok (wrap_i64 (ptr - BLOCKLENINT64)) ;;  (* 362 *)
  state <-- reduced_blake2b_lyra p state ;;  (* 365 *)
  Ok (whole_matrix, state, ptr).

(** lyra2.rs:369-412: body of the [for] loop over [_i]. *)
Definition lyra2_body5 (p : platform) (n_cols : Z) (row_len_int64 : Z) (_i : Z) (s : list Z * list Z) : outcome (list Z * list Z) :=
  let '(whole_matrix, state) := s in
  t1 <-- imul p (as_i64 _i) BLOCKLENINT64 ;;  (* 371 *)
  t2 <-- vget whole_matrix (as_usize p t1) ;;
  state <-- Ok (<[0%nat := (Z.lxor (aget state 0) t2)]> state) ;;
  t3 <-- imul p (as_i64 _i) BLOCKLENINT64 ;;  (* 372 *)
  t4 <-- iadd p t3 1 ;;
  t5 <-- vget whole_matrix (as_usize p t4) ;;
  state <-- Ok (<[1%nat := (Z.lxor (aget state 1) t5)]> state) ;;
  t6 <-- imul p (as_i64 _i) BLOCKLENINT64 ;;  (* 373 *)
  t7 <-- iadd p t6 2 ;;
  t8 <-- vget whole_matrix (as_usize p t7) ;;
  state <-- Ok (<[2%nat := (Z.lxor (aget state 2) t8)]> state) ;;
  t9 <-- imul p (as_i64 _i) BLOCKLENINT64 ;;  (* 374 *)
  t10 <-- iadd p t9 3 ;;
  t11 <-- vget whole_matrix (as_usize p t10) ;;
  state <-- Ok (<[3%nat := (Z.lxor (aget state 3) t11)]> state) ;;
  t12 <-- imul p (as_i64 _i) BLOCKLENINT64 ;;  (* 375 *)
  t13 <-- iadd p t12 4 ;;
  t14 <-- vget whole_matrix (as_usize p t13) ;;
  state <-- Ok (<[4%nat := (Z.lxor (aget state 4) t14)]> state) ;;
  t15 <-- imul p (as_i64 _i) BLOCKLENINT64 ;;  (* 376 *)
  t16 <-- iadd p t15 5 ;;
  t17 <-- vget whole_matrix (as_usize p t16) ;;
  state <-- Ok (<[5%nat := (Z.lxor (aget state 5) t17)]> state) ;;
  t18 <-- imul p (as_i64 _i) BLOCKLENINT64 ;;  (* 377 *)
  t19 <-- iadd p t18 6 ;;
  t20 <-- vget whole_matrix (as_usize p t19) ;;
  state <-- Ok (<[6%nat := (Z.lxor (aget state 6) t20)]> state) ;;
  t21 <-- imul p (as_i64 _i) BLOCKLENINT64 ;;  (* 378 *)
  t22 <-- iadd p t21 7 ;;
  t23 <-- vget whole_matrix (as_usize p t22) ;;
  state <-- Ok (<[7%nat := (Z.lxor (aget state 7) t23)]> state) ;;
  t24 <-- imul p (as_i64 _i) BLOCKLENINT64 ;;  (* 379 *)
  t25 <-- iadd p t24 8 ;;
  t26 <-- vget whole_matrix (as_usize p t25) ;;
  state <-- Ok (<[8%nat := (Z.lxor (aget state 8) t26)]> state) ;;
  t27 <-- imul p (as_i64 _i) BLOCKLENINT64 ;;  (* 380 *)
  t28 <-- iadd p t27 9 ;;
  t29 <-- vget whole_matrix (as_usize p t28) ;;
  state <-- Ok (<[9%nat := (Z.lxor (aget state 9) t29)]> state) ;;
  t30 <-- imul p (as_i64 _i) BLOCKLENINT64 ;;  (* 381 *)
  t31 <-- iadd p t30 10 ;;
  t32 <-- vget whole_matrix (as_usize p t31) ;;
  state <-- Ok (<[10%nat := (Z.lxor (aget state 10) t32)]> state) ;;
  t33 <-- imul p (as_i64 _i) BLOCKLENINT64 ;;  (* 382 *)
  t34 <-- iadd p t33 11 ;;
  t35 <-- vget whole_matrix (as_usize p t34) ;;
  state <-- Ok (<[11%nat := (Z.lxor (aget state 11) t35)]> state) ;;
  state <-- reduced_blake2b_lyra p state ;;  (* 385 *)
  t37 <-- imul p (as_i64 _i) BLOCKLENINT64 ;;  (* 388 *)
  t38 <-- vget whole_matrix (as_usize p t37) ;;
  t39 <-- usub p n_cols _i ;;
  t40 <-- usub p t39 1 ;;
  t41 <-- imul p (as_i64 t40) BLOCKLENINT64 ;;
  t42 <-- iadd p t41 row_len_int64 ;;
  whole_matrix <-- vset whole_matrix (as_usize p t42) (Z.lxor t38 (aget state 0)) ;;
  t44 <-- imul p (as_i64 _i) BLOCKLENINT64 ;;  (* 390 *)
  t45 <-- iadd p t44 1 ;;
  t46 <-- vget whole_matrix (as_usize p t45) ;;
  t47 <-- usub p n_cols _i ;;
  t48 <-- usub p t47 1 ;;
  t49 <-- imul p (as_i64 t48) BLOCKLENINT64 ;;
  t50 <-- iadd p t49 row_len_int64 ;;
  t51 <-- iadd p t50 1 ;;
  whole_matrix <-- vset whole_matrix (as_usize p t51) (Z.lxor t46 (aget state 1)) ;;
  t53 <-- imul p (as_i64 _i) BLOCKLENINT64 ;;  (* 392 *)
  t54 <-- iadd p t53 2 ;;
  t55 <-- vget whole_matrix (as_usize p t54) ;;
  t56 <-- usub p n_cols _i ;;
  t57 <-- usub p t56 1 ;;
  t58 <-- imul p (as_i64 t57) BLOCKLENINT64 ;;
  t59 <-- iadd p t58 row_len_int64 ;;
  t60 <-- iadd p t59 2 ;;
  whole_matrix <-- vset whole_matrix (as_usize p t60) (Z.lxor t55 (aget state 2)) ;;
  t62 <-- imul p (as_i64 _i) BLOCKLENINT64 ;;  (* 394 *)
  t63 <-- iadd p t62 3 ;;
  t64 <-- vget whole_matrix (as_usize p t63) ;;
  t65 <-- usub p n_cols _i ;;
  t66 <-- usub p t65 1 ;;
  t67 <-- imul p (as_i64 t66) BLOCKLENINT64 ;;
  t68 <-- iadd p t67 row_len_int64 ;;
  t69 <-- iadd p t68 3 ;;
  whole_matrix <-- vset whole_matrix (as_usize p t69) (Z.lxor t64 (aget state 3)) ;;
  t71 <-- imul p (as_i64 _i) BLOCKLENINT64 ;;  (* 396 *)
  t72 <-- iadd p t71 4 ;;
  t73 <-- vget whole_matrix (as_usize p t72) ;;
  t74 <-- usub p n_cols _i ;;
  t75 <-- usub p t74 1 ;;
  t76 <-- imul p (as_i64 t75) BLOCKLENINT64 ;;
  t77 <-- iadd p t76 row_len_int64 ;;
  t78 <-- iadd p t77 4 ;;
  whole_matrix <-- vset whole_matrix (as_usize p t78) (Z.lxor t73 (aget state 4)) ;;
  t80 <-- imul p (as_i64 _i) BLOCKLENINT64 ;;  (* 398 *)
  t81 <-- iadd p t80 5 ;;
  t82 <-- vget whole_matrix (as_usize p t81) ;;
  t83 <-- usub p n_cols _i ;;
  t84 <-- usub p t83 1 ;;
  t85 <-- imul p (as_i64 t84) BLOCKLENINT64 ;;
  t86 <-- iadd p t85 row_len_int64 ;;
  t87 <-- iadd p t86 5 ;;
  whole_matrix <-- vset whole_matrix (as_usize p t87) (Z.lxor t82 (aget state 5)) ;;
  t89 <-- imul p (as_i64 _i) BLOCKLENINT64 ;;  (* 400 *)
  t90 <-- iadd p t89 6 ;;
  t91 <-- vget whole_matrix (as_usize p t90) ;;
  t92 <-- usub p n_cols _i ;;
  t93 <-- usub p t92 1 ;;
  t94 <-- imul p (as_i64 t93) BLOCKLENINT64 ;;
  t95 <-- iadd p t94 row_len_int64 ;;
  t96 <-- iadd p t95 6 ;;
  whole_matrix <-- vset whole_matrix (as_usize p t96) (Z.lxor t91 (aget state 6)) ;;
  t98 <-- imul p (as_i64 _i) BLOCKLENINT64 ;;  (* 402 *)
  t99 <-- iadd p t98 7 ;;
  t100 <-- vget whole_matrix (as_usize p t99) ;;
  t101 <-- usub p n_cols _i ;;
  t102 <-- usub p t101 1 ;;
  t103 <-- imul p (as_i64 t102) BLOCKLENINT64 ;;
  t104 <-- iadd p t103 row_len_int64 ;;
  t105 <-- iadd p t104 7 ;;
  whole_matrix <-- vset whole_matrix (as_usize p t105) (Z.lxor t100 (aget state 7)) ;;
  t107 <-- imul p (as_i64 _i) BLOCKLENINT64 ;;  (* 404 *)
  t108 <-- iadd p t107 8 ;;
  t109 <-- vget whole_matrix (as_usize p t108) ;;
  t110 <-- usub p n_cols _i ;;
  t111 <-- usub p t110 1 ;;
  t112 <-- imul p (as_i64 t111) BLOCKLENINT64 ;;
  t113 <-- iadd p t112 row_len_int64 ;;
  t114 <-- iadd p t113 8 ;;
  whole_matrix <-- vset whole_matrix (as_usize p t114) (Z.lxor t109 (aget state 8)) ;;
  t116 <-- imul p (as_i64 _i) BLOCKLENINT64 ;;  (* 406 *)
  t117 <-- iadd p t116 9 ;;
  t118 <-- vget whole_matrix (as_usize p t117) ;;
  t119 <-- usub p n_cols _i ;;
  t120 <-- usub p t119 1 ;;
  t121 <-- imul p (as_i64 t120) BLOCKLENINT64 ;;
  t122 <-- iadd p t121 row_len_int64 ;;
  t123 <-- iadd p t122 9 ;;
  whole_matrix <-- vset whole_matrix (as_usize p t123) (Z.lxor t118 (aget state 9)) ;;
  t125 <-- imul p (as_i64 _i) BLOCKLENINT64 ;;  (* 408 *)
  t126 <-- iadd p t125 10 ;;
  t127 <-- vget whole_matrix (as_usize p t126) ;;
  t128 <-- usub p n_cols _i ;;
  t129 <-- usub p t128 1 ;;
  t130 <-- imul p (as_i64 t129) BLOCKLENINT64 ;;
  t131 <-- iadd p t130 row_len_int64 ;;
  t132 <-- iadd p t131 10 ;;
  whole_matrix <-- vset whole_matrix (as_usize p t132) (Z.lxor t127 (aget state 10)) ;;
  t134 <-- imul p (as_i64 _i) BLOCKLENINT64 ;;  (* 410 *)
  t135 <-- iadd p t134 11 ;;
  t136 <-- vget whole_matrix (as_usize p t135) ;;
  t137 <-- usub p n_cols _i ;;
  t138 <-- usub p t137 1 ;;
  t139 <-- imul p (as_i64 t138) BLOCKLENINT64 ;;
  t140 <-- iadd p t139 row_len_int64 ;;
  t141 <-- iadd p t140 11 ;;
  whole_matrix <-- vset whole_matrix (as_usize p t141) (Z.lxor t136 (aget state 11)) ;;
  Ok (whole_matrix, state).

(** lyra2.rs:418-511: body of the [for] loop over [_i]. *)
Definition lyra2_body7 (p : platform) (n_cols : Z) (row : Z) (prev : Z) (rowa : Z) (row_len_int64 : Z) (_i : Z) (s : list Z * list Z) : outcome (list Z * list Z) :=
  let '(whole_matrix, state) := s in
  t1 <-- imul p (as_i64 _i) BLOCKLENINT64 ;;  (* 420 *)
  t2 <-- imul p prev row_len_int64 ;;
  t3 <-- iadd p t1 t2 ;;
  t4 <-- vget whole_matrix (as_usize p t3) ;;
  t5 <-- imul p (as_i64 _i) BLOCKLENINT64 ;;
  t6 <-- imul p rowa row_len_int64 ;;
  t7 <-- iadd p t5 t6 ;;
  t8 <-- vget whole_matrix (as_usize p t7) ;;
  state <-- Ok (<[0%nat := (Z.lxor (aget state 0) (wadd 64 t4 t8))]> state) ;;
  t9 <-- imul p (as_i64 _i) BLOCKLENINT64 ;;  (* 424 *)
  t10 <-- imul p prev row_len_int64 ;;
  t11 <-- iadd p t9 t10 ;;
  t12 <-- iadd p t11 1 ;;
  t13 <-- vget whole_matrix (as_usize p t12) ;;
  t14 <-- imul p (as_i64 _i) BLOCKLENINT64 ;;
  t15 <-- imul p rowa row_len_int64 ;;
  t16 <-- iadd p t14 t15 ;;
  t17 <-- iadd p t16 1 ;;
  t18 <-- vget whole_matrix (as_usize p t17) ;;
  state <-- Ok (<[1%nat := (Z.lxor (aget state 1) (wadd 64 t13 t18))]> state) ;;
  t19 <-- imul p (as_i64 _i) BLOCKLENINT64 ;;  (* 428 *)
  t20 <-- imul p prev row_len_int64 ;;
  t21 <-- iadd p t19 t20 ;;
  t22 <-- iadd p t21 2 ;;
  t23 <-- vget whole_matrix (as_usize p t22) ;;
  t24 <-- imul p (as_i64 _i) BLOCKLENINT64 ;;
  t25 <-- imul p rowa row_len_int64 ;;
  t26 <-- iadd p t24 t25 ;;
  t27 <-- iadd p t26 2 ;;
  t28 <-- vget whole_matrix (as_usize p t27) ;;
  state <-- Ok (<[2%nat := (Z.lxor (aget state 2) (wadd 64 t23 t28))]> state) ;;
  t29 <-- imul p (as_i64 _i) BLOCKLENINT64 ;;  (* 432 *)
  t30 <-- imul p prev row_len_int64 ;;
  t31 <-- iadd p t29 t30 ;;
  t32 <-- iadd p t31 3 ;;
  t33 <-- vget whole_matrix (as_usize p t32) ;;
  t34 <-- imul p (as_i64 _i) BLOCKLENINT64 ;;
  t35 <-- imul p rowa row_len_int64 ;;
  t36 <-- iadd p t34 t35 ;;
  t37 <-- iadd p t36 3 ;;
  t38 <-- vget whole_matrix (as_usize p t37) ;;
  state <-- Ok (<[3%nat := (Z.lxor (aget state 3) (wadd 64 t33 t38))]> state) ;;
  t39 <-- imul p (as_i64 _i) BLOCKLENINT64 ;;  (* 436 *)
  t40 <-- imul p prev row_len_int64 ;;
  t41 <-- iadd p t39 t40 ;;
  t42 <-- iadd p t41 4 ;;
  t43 <-- vget whole_matrix (as_usize p t42) ;;
  t44 <-- imul p (as_i64 _i) BLOCKLENINT64 ;;
  t45 <-- imul p rowa row_len_int64 ;;
  t46 <-- iadd p t44 t45 ;;
  t47 <-- iadd p t46 4 ;;
  t48 <-- vget whole_matrix (as_usize p t47) ;;
  state <-- Ok (<[4%nat := (Z.lxor (aget state 4) (wadd 64 t43 t48))]> state) ;;
  t49 <-- imul p (as_i64 _i) BLOCKLENINT64 ;;  (* 440 *)
  t50 <-- imul p prev row_len_int64 ;;
  t51 <-- iadd p t49 t50 ;;
  t52 <-- iadd p t51 5 ;;
  t53 <-- vget whole_matrix (as_usize p t52) ;;
  t54 <-- imul p (as_i64 _i) BLOCKLENINT64 ;;
  t55 <-- imul p rowa row_len_int64 ;;
  t56 <-- iadd p t54 t55 ;;
  t57 <-- iadd p t56 5 ;;
  t58 <-- vget whole_matrix (as_usize p t57) ;;
  state <-- Ok (<[5%nat := (Z.lxor (aget state 5) (wadd 64 t53 t58))]> state) ;;
  t59 <-- imul p (as_i64 _i) BLOCKLENINT64 ;;  (* 444 *)
  t60 <-- imul p prev row_len_int64 ;;
  t61 <-- iadd p t59 t60 ;;
  t62 <-- iadd p t61 6 ;;
  t63 <-- vget whole_matrix (as_usize p t62) ;;
  t64 <-- imul p (as_i64 _i) BLOCKLENINT64 ;;
  t65 <-- imul p rowa row_len_int64 ;;
  t66 <-- iadd p t64 t65 ;;
  t67 <-- iadd p t66 6 ;;
  t68 <-- vget whole_matrix (as_usize p t67) ;;
  state <-- Ok (<[6%nat := (Z.lxor (aget state 6) (wadd 64 t63 t68))]> state) ;;
  t69 <-- imul p (as_i64 _i) BLOCKLENINT64 ;;  (* 448 *)
  t70 <-- imul p prev row_len_int64 ;;
  t71 <-- iadd p t69 t70 ;;
  t72 <-- iadd p t71 7 ;;
  t73 <-- vget whole_matrix (as_usize p t72) ;;
  t74 <-- imul p (as_i64 _i) BLOCKLENINT64 ;;
  t75 <-- imul p rowa row_len_int64 ;;
  t76 <-- iadd p t74 t75 ;;
  t77 <-- iadd p t76 7 ;;
  t78 <-- vget whole_matrix (as_usize p t77) ;;
  state <-- Ok (<[7%nat := (Z.lxor (aget state 7) (wadd 64 t73 t78))]> state) ;;
  t79 <-- imul p (as_i64 _i) BLOCKLENINT64 ;;  (* 452 *)
  t80 <-- imul p prev row_len_int64 ;;
  t81 <-- iadd p t79 t80 ;;
  t82 <-- iadd p t81 8 ;;
  t83 <-- vget whole_matrix (as_usize p t82) ;;
  t84 <-- imul p (as_i64 _i) BLOCKLENINT64 ;;
  t85 <-- imul p rowa row_len_int64 ;;
  t86 <-- iadd p t84 t85 ;;
  t87 <-- iadd p t86 8 ;;
  t88 <-- vget whole_matrix (as_usize p t87) ;;
  state <-- Ok (<[8%nat := (Z.lxor (aget state 8) (wadd 64 t83 t88))]> state) ;;
  t89 <-- imul p (as_i64 _i) BLOCKLENINT64 ;;  (* 456 *)
  t90 <-- imul p prev row_len_int64 ;;
  t91 <-- iadd p t89 t90 ;;
  t92 <-- iadd p t91 9 ;;
  t93 <-- vget whole_matrix (as_usize p t92) ;;
  t94 <-- imul p (as_i64 _i) BLOCKLENINT64 ;;
  t95 <-- imul p rowa row_len_int64 ;;
  t96 <-- iadd p t94 t95 ;;
  t97 <-- iadd p t96 9 ;;
  t98 <-- vget whole_matrix (as_usize p t97) ;;
  state <-- Ok (<[9%nat := (Z.lxor (aget state 9) (wadd 64 t93 t98))]> state) ;;
  t99 <-- imul p (as_i64 _i) BLOCKLENINT64 ;;  (* 460 *)
  t100 <-- imul p prev row_len_int64 ;;
  t101 <-- iadd p t99 t100 ;;
  t102 <-- iadd p t101 10 ;;
  t103 <-- vget whole_matrix (as_usize p t102) ;;
  t104 <-- imul p (as_i64 _i) BLOCKLENINT64 ;;
  t105 <-- imul p rowa row_len_int64 ;;
  t106 <-- iadd p t104 t105 ;;
  t107 <-- iadd p t106 10 ;;
  t108 <-- vget whole_matrix (as_usize p t107) ;;
  state <-- Ok (<[10%nat := (Z.lxor (aget state 10) (wadd 64 t103 t108))]> state) ;;
  t109 <-- imul p (as_i64 _i) BLOCKLENINT64 ;;  (* 464 *)
  t110 <-- imul p prev row_len_int64 ;;
  t111 <-- iadd p t109 t110 ;;
  t112 <-- iadd p t111 11 ;;
  t113 <-- vget whole_matrix (as_usize p t112) ;;
  t114 <-- imul p (as_i64 _i) BLOCKLENINT64 ;;
  t115 <-- imul p rowa row_len_int64 ;;
  t116 <-- iadd p t114 t115 ;;
  t117 <-- iadd p t116 11 ;;
  t118 <-- vget whole_matrix (as_usize p t117) ;;
  state <-- Ok (<[11%nat := (Z.lxor (aget state 11) (wadd 64 t113 t118))]> state) ;;
  state <-- reduced_blake2b_lyra p state ;;  (* 470 *)
  t120 <-- imul p (as_i64 _i) BLOCKLENINT64 ;;  (* 473 *)
  t121 <-- imul p prev row_len_int64 ;;
  t122 <-- iadd p t120 t121 ;;
  t123 <-- vget whole_matrix (as_usize p t122) ;;
  t124 <-- usub p n_cols _i ;;
  t125 <-- usub p t124 1 ;;
  t126 <-- imul p (as_i64 t125) BLOCKLENINT64 ;;
  t127 <-- imul p row row_len_int64 ;;
  t128 <-- iadd p t126 t127 ;;
  whole_matrix <-- vset whole_matrix (as_usize p t128) (Z.lxor t123 (aget state 0)) ;;
  t130 <-- imul p (as_i64 _i) BLOCKLENINT64 ;;  (* 475 *)
  t131 <-- imul p prev row_len_int64 ;;
  t132 <-- iadd p t130 t131 ;;
  t133 <-- iadd p t132 1 ;;
  t134 <-- vget whole_matrix (as_usize p t133) ;;
  t135 <-- usub p n_cols _i ;;
  t136 <-- usub p t135 1 ;;
  t137 <-- imul p (as_i64 t136) BLOCKLENINT64 ;;
  t138 <-- imul p row row_len_int64 ;;
  t139 <-- iadd p t137 t138 ;;
  t140 <-- iadd p t139 1 ;;
  whole_matrix <-- vset whole_matrix (as_usize p t140) (Z.lxor t134 (aget state 1)) ;;
  t142 <-- imul p (as_i64 _i) BLOCKLENINT64 ;;  (* 477 *)
  t143 <-- imul p prev row_len_int64 ;;
  t144 <-- iadd p t142 t143 ;;
  t145 <-- iadd p t144 2 ;;
  t146 <-- vget whole_matrix (as_usize p t145) ;;
  t147 <-- usub p n_cols _i ;;
  t148 <-- usub p t147 1 ;;
  t149 <-- imul p (as_i64 t148) BLOCKLENINT64 ;;
  t150 <-- imul p row row_len_int64 ;;
  t151 <-- iadd p t149 t150 ;;
  t152 <-- iadd p t151 2 ;;
  whole_matrix <-- vset whole_matrix (as_usize p t152) (Z.lxor t146 (aget state 2)) ;;
  t154 <-- imul p (as_i64 _i) BLOCKLENINT64 ;;  (* 479 *)
  t155 <-- imul p prev row_len_int64 ;;
  t156 <-- iadd p t154 t155 ;;
  t157 <-- iadd p t156 3 ;;
  t158 <-- vget whole_matrix (as_usize p t157) ;;
  t159 <-- usub p n_cols _i ;;
  t160 <-- usub p t159 1 ;;
  t161 <-- imul p (as_i64 t160) BLOCKLENINT64 ;;
  t162 <-- imul p row row_len_int64 ;;
  t163 <-- iadd p t161 t162 ;;
  t164 <-- iadd p t163 3 ;;
  whole_matrix <-- vset whole_matrix (as_usize p t164) (Z.lxor t158 (aget state 3)) ;;
  t166 <-- imul p (as_i64 _i) BLOCKLENINT64 ;;  (* 481 *)
  t167 <-- imul p prev row_len_int64 ;;
  t168 <-- iadd p t166 t167 ;;
  t169 <-- iadd p t168 4 ;;
  t170 <-- vget whole_matrix (as_usize p t169) ;;
  t171 <-- usub p n_cols _i ;;
  t172 <-- usub p t171 1 ;;
  t173 <-- imul p (as_i64 t172) BLOCKLENINT64 ;;
  t174 <-- imul p row row_len_int64 ;;
  t175 <-- iadd p t173 t174 ;;
  t176 <-- iadd p t175 4 ;;
  whole_matrix <-- vset whole_matrix (as_usize p t176) (Z.lxor t170 (aget state 4)) ;;
  t178 <-- imul p (as_i64 _i) BLOCKLENINT64 ;;  (* 483 *)
  t179 <-- imul p prev row_len_int64 ;;
  t180 <-- iadd p t178 t179 ;;
  t181 <-- iadd p t180 5 ;;
  t182 <-- vget whole_matrix (as_usize p t181) ;;
  t183 <-- usub p n_cols _i ;;
  t184 <-- usub p t183 1 ;;
  t185 <-- imul p (as_i64 t184) BLOCKLENINT64 ;;
  t186 <-- imul p row row_len_int64 ;;
  t187 <-- iadd p t185 t186 ;;
  t188 <-- iadd p t187 5 ;;
  whole_matrix <-- vset whole_matrix (as_usize p t188) (Z.lxor t182 (aget state 5)) ;;
  t190 <-- imul p (as_i64 _i) BLOCKLENINT64 ;;  (* 485 *)
  t191 <-- imul p prev row_len_int64 ;;
  t192 <-- iadd p t190 t191 ;;
  t193 <-- iadd p t192 6 ;;
  t194 <-- vget whole_matrix (as_usize p t193) ;;
  t195 <-- usub p n_cols _i ;;
  t196 <-- usub p t195 1 ;;
  t197 <-- imul p (as_i64 t196) BLOCKLENINT64 ;;
  t198 <-- imul p row row_len_int64 ;;
  t199 <-- iadd p t197 t198 ;;
  t200 <-- iadd p t199 6 ;;
  whole_matrix <-- vset whole_matrix (as_usize p t200) (Z.lxor t194 (aget state 6)) ;;
  t202 <-- imul p (as_i64 _i) BLOCKLENINT64 ;;  (* 487 *)
  t203 <-- imul p prev row_len_int64 ;;
  t204 <-- iadd p t202 t203 ;;
  t205 <-- iadd p t204 7 ;;
  t206 <-- vget whole_matrix (as_usize p t205) ;;
  t207 <-- usub p n_cols _i ;;
  t208 <-- usub p t207 1 ;;
  t209 <-- imul p (as_i64 t208) BLOCKLENINT64 ;;
  t210 <-- imul p row row_len_int64 ;;
  t211 <-- iadd p t209 t210 ;;
  t212 <-- iadd p t211 7 ;;
  whole_matrix <-- vset whole_matrix (as_usize p t212) (Z.lxor t206 (aget state 7)) ;;
  t214 <-- imul p (as_i64 _i) BLOCKLENINT64 ;;  (* 489 *)
  t215 <-- imul p prev row_len_int64 ;;
  t216 <-- iadd p t214 t215 ;;
  t217 <-- iadd p t216 8 ;;
  t218 <-- vget whole_matrix (as_usize p t217) ;;
  t219 <-- usub p n_cols _i ;;
  t220 <-- usub p t219 1 ;;
  t221 <-- imul p (as_i64 t220) BLOCKLENINT64 ;;
  t222 <-- imul p row row_len_int64 ;;
  t223 <-- iadd p t221 t222 ;;
  t224 <-- iadd p t223 8 ;;
  whole_matrix <-- vset whole_matrix (as_usize p t224) (Z.lxor t218 (aget state 8)) ;;
  t226 <-- imul p (as_i64 _i) BLOCKLENINT64 ;;  (* 491 *)
  t227 <-- imul p prev row_len_int64 ;;
  t228 <-- iadd p t226 t227 ;;
  t229 <-- iadd p t228 9 ;;
  t230 <-- vget whole_matrix (as_usize p t229) ;;
  t231 <-- usub p n_cols _i ;;
  t232 <-- usub p t231 1 ;;
  t233 <-- imul p (as_i64 t232) BLOCKLENINT64 ;;
  t234 <-- imul p row row_len_int64 ;;
  t235 <-- iadd p t233 t234 ;;
  t236 <-- iadd p t235 9 ;;
  whole_matrix <-- vset whole_matrix (as_usize p t236) (Z.lxor t230 (aget state 9)) ;;
  t238 <-- imul p (as_i64 _i) BLOCKLENINT64 ;;  (* 493 *)
  t239 <-- imul p prev row_len_int64 ;;
  t240 <-- iadd p t238 t239 ;;
  t241 <-- iadd p t240 10 ;;
  t242 <-- vget whole_matrix (as_usize p t241) ;;
  t243 <-- usub p n_cols _i ;;
  t244 <-- usub p t243 1 ;;
  t245 <-- imul p (as_i64 t244) BLOCKLENINT64 ;;
  t246 <-- imul p row row_len_int64 ;;
  t247 <-- iadd p t245 t246 ;;
  t248 <-- iadd p t247 10 ;;
  whole_matrix <-- vset whole_matrix (as_usize p t248) (Z.lxor t242 (aget state 10)) ;;
  t250 <-- imul p (as_i64 _i) BLOCKLENINT64 ;;  (* 495 *)
  t251 <-- imul p prev row_len_int64 ;;
  t252 <-- iadd p t250 t251 ;;
  t253 <-- iadd p t252 11 ;;
  t254 <-- vget whole_matrix (as_usize p t253) ;;
  t255 <-- usub p n_cols _i ;;
  t256 <-- usub p t255 1 ;;
  t257 <-- imul p (as_i64 t256) BLOCKLENINT64 ;;
  t258 <-- imul p row row_len_int64 ;;
  t259 <-- iadd p t257 t258 ;;
  t260 <-- iadd p t259 11 ;;
  whole_matrix <-- vset whole_matrix (as_usize p t260) (Z.lxor t254 (aget state 11)) ;;
  t262 <-- imul p (as_i64 _i) BLOCKLENINT64 ;;  (* 499 *)
  t263 <-- imul p rowa row_len_int64 ;;
  t264 <-- iadd p t262 t263 ;;
  t265 <-- vget whole_matrix (as_usize p t264) ;;
  t266 <-- imul p (as_i64 _i) BLOCKLENINT64 ;;
  t267 <-- imul p rowa row_len_int64 ;;
  t268 <-- iadd p t266 t267 ;;
  whole_matrix <-- vset whole_matrix (as_usize p t268) (Z.lxor t265 (aget state 11)) ;;
  t270 <-- imul p (as_i64 _i) BLOCKLENINT64 ;;  (* 500 *)
  t271 <-- imul p rowa row_len_int64 ;;
  t272 <-- iadd p t270 t271 ;;
  t273 <-- iadd p t272 1 ;;
  t274 <-- vget whole_matrix (as_usize p t273) ;;
  t275 <-- imul p (as_i64 _i) BLOCKLENINT64 ;;
  t276 <-- imul p rowa row_len_int64 ;;
  t277 <-- iadd p t275 t276 ;;
  t278 <-- iadd p t277 1 ;;
  whole_matrix <-- vset whole_matrix (as_usize p t278) (Z.lxor t274 (aget state 0)) ;;
  t280 <-- imul p (as_i64 _i) BLOCKLENINT64 ;;  (* 501 *)
  t281 <-- imul p rowa row_len_int64 ;;
  t282 <-- iadd p t280 t281 ;;
  t283 <-- iadd p t282 2 ;;
  t284 <-- vget whole_matrix (as_usize p t283) ;;
  t285 <-- imul p (as_i64 _i) BLOCKLENINT64 ;;
  t286 <-- imul p rowa row_len_int64 ;;
  t287 <-- iadd p t285 t286 ;;
  t288 <-- iadd p t287 2 ;;
  whole_matrix <-- vset whole_matrix (as_usize p t288) (Z.lxor t284 (aget state 1)) ;;
  t290 <-- imul p (as_i64 _i) BLOCKLENINT64 ;;  (* 502 *)
  t291 <-- imul p rowa row_len_int64 ;;
  t292 <-- iadd p t290 t291 ;;
  t293 <-- iadd p t292 3 ;;
  t294 <-- vget whole_matrix (as_usize p t293) ;;
  t295 <-- imul p (as_i64 _i) BLOCKLENINT64 ;;
  t296 <-- imul p rowa row_len_int64 ;;
  t297 <-- iadd p t295 t296 ;;
  t298 <-- iadd p t297 3 ;;
  whole_matrix <-- vset whole_matrix (as_usize p t298) (Z.lxor t294 (aget state 2)) ;;
  t300 <-- imul p (as_i64 _i) BLOCKLENINT64 ;;  (* 503 *)
  t301 <-- imul p rowa row_len_int64 ;;
  t302 <-- iadd p t300 t301 ;;
  t303 <-- iadd p t302 4 ;;
  t304 <-- vget whole_matrix (as_usize p t303) ;;
  t305 <-- imul p (as_i64 _i) BLOCKLENINT64 ;;
  t306 <-- imul p rowa row_len_int64 ;;
  t307 <-- iadd p t305 t306 ;;
  t308 <-- iadd p t307 4 ;;
  whole_matrix <-- vset whole_matrix (as_usize p t308) (Z.lxor t304 (aget state 3)) ;;
  t310 <-- imul p (as_i64 _i) BLOCKLENINT64 ;;  (* 504 *)
  t311 <-- imul p rowa row_len_int64 ;;
  t312 <-- iadd p t310 t311 ;;
  t313 <-- iadd p t312 5 ;;
  t314 <-- vget whole_matrix (as_usize p t313) ;;
  t315 <-- imul p (as_i64 _i) BLOCKLENINT64 ;;
  t316 <-- imul p rowa row_len_int64 ;;
  t317 <-- iadd p t315 t316 ;;
  t318 <-- iadd p t317 5 ;;
  whole_matrix <-- vset whole_matrix (as_usize p t318) (Z.lxor t314 (aget state 4)) ;;
  t320 <-- imul p (as_i64 _i) BLOCKLENINT64 ;;  (* 505 *)
  t321 <-- imul p rowa row_len_int64 ;;
  t322 <-- iadd p t320 t321 ;;
  t323 <-- iadd p t322 6 ;;
  t324 <-- vget whole_matrix (as_usize p t323) ;;
  t325 <-- imul p (as_i64 _i) BLOCKLENINT64 ;;
  t326 <-- imul p rowa row_len_int64 ;;
  t327 <-- iadd p t325 t326 ;;
  t328 <-- iadd p t327 6 ;;
  whole_matrix <-- vset whole_matrix (as_usize p t328) (Z.lxor t324 (aget state 5)) ;;
  t330 <-- imul p (as_i64 _i) BLOCKLENINT64 ;;  (* 506 *)
  t331 <-- imul p rowa row_len_int64 ;;
  t332 <-- iadd p t330 t331 ;;
  t333 <-- iadd p t332 7 ;;
  t334 <-- vget whole_matrix (as_usize p t333) ;;
  t335 <-- imul p (as_i64 _i) BLOCKLENINT64 ;;
  t336 <-- imul p rowa row_len_int64 ;;
  t337 <-- iadd p t335 t336 ;;
  t338 <-- iadd p t337 7 ;;
  whole_matrix <-- vset whole_matrix (as_usize p t338) (Z.lxor t334 (aget state 6)) ;;
  t340 <-- imul p (as_i64 _i) BLOCKLENINT64 ;;  (* 507 *)
  t341 <-- imul p rowa row_len_int64 ;;
  t342 <-- iadd p t340 t341 ;;
  t343 <-- iadd p t342 8 ;;
  t344 <-- vget whole_matrix (as_usize p t343) ;;
  t345 <-- imul p (as_i64 _i) BLOCKLENINT64 ;;
  t346 <-- imul p rowa row_len_int64 ;;
  t347 <-- iadd p t345 t346 ;;
  t348 <-- iadd p t347 8 ;;
  whole_matrix <-- vset whole_matrix (as_usize p t348) (Z.lxor t344 (aget state 7)) ;;
  t350 <-- imul p (as_i64 _i) BLOCKLENINT64 ;;  (* 508 *)
  t351 <-- imul p rowa row_len_int64 ;;
  t352 <-- iadd p t350 t351 ;;
  t353 <-- iadd p t352 9 ;;
  t354 <-- vget whole_matrix (as_usize p t353) ;;
  t355 <-- imul p (as_i64 _i) BLOCKLENINT64 ;;
  t356 <-- imul p rowa row_len_int64 ;;
  t357 <-- iadd p t355 t356 ;;
  t358 <-- iadd p t357 9 ;;
  whole_matrix <-- vset whole_matrix (as_usize p t358) (Z.lxor t354 (aget state 8)) ;;
  t360 <-- imul p (as_i64 _i) BLOCKLENINT64 ;;  (* 509 *)
  t361 <-- imul p rowa row_len_int64 ;;
  t362 <-- iadd p t360 t361 ;;
  t363 <-- iadd p t362 10 ;;
  t364 <-- vget whole_matrix (as_usize p t363) ;;
  t365 <-- imul p (as_i64 _i) BLOCKLENINT64 ;;
  t366 <-- imul p rowa row_len_int64 ;;
  t367 <-- iadd p t365 t366 ;;
  t368 <-- iadd p t367 10 ;;
  whole_matrix <-- vset whole_matrix (as_usize p t368) (Z.lxor t364 (aget state 9)) ;;
  t370 <-- imul p (as_i64 _i) BLOCKLENINT64 ;;  (* 510 *)
  t371 <-- imul p rowa row_len_int64 ;;
  t372 <-- iadd p t370 t371 ;;
  t373 <-- iadd p t372 11 ;;
  t374 <-- vget whole_matrix (as_usize p t373) ;;
  t375 <-- imul p (as_i64 _i) BLOCKLENINT64 ;;
  t376 <-- imul p rowa row_len_int64 ;;
  t377 <-- iadd p t375 t376 ;;
  t378 <-- iadd p t377 11 ;;
  whole_matrix <-- vset whole_matrix (as_usize p t378) (Z.lxor t374 (aget state 10)) ;;
  Ok (whole_matrix, state).

(** lyra2.rs:415-526: body of the [for] loop over [_x]. *)
Definition lyra2_body6 (p : platform) (n_cols : Z) (row_len_int64 : Z) (_x : Z) (s : Z * Z * Z * Z * Z * Z * list Z * list Z) : outcome (Z * Z * Z * Z * Z * Z * list Z * list Z) :=
  let '(row, prev, rowa, step, window, gap, whole_matrix, state) := s in
  '(whole_matrix, state) <-- for_range 0 n_cols (lyra2_body7 p n_cols row prev rowa row_len_int64) (whole_matrix, state) ;;  (* 418 *)
  t1 <-- iadd p rowa step ;;  (* 514 *)
  t2 <-- isub p window 1 ;;
  rowa <-- Ok (Z.land t1 t2) ;;
  prev <-- Ok row ;;  (* 516 *)
  row <-- iadd p row 1 ;;  (* 518 *)
  '(step, window, gap) <-- (if (rowa =? 0) then  (* 521 *)
    step <-- iadd p window gap ;;  (* 522 *)
    window <-- imul p window 2 ;;  (* 523 *)
    gap <-- isub p 0 gap ;;  (* 524 *)
    Ok (step, window, gap)
  else
    Ok (step, window, gap)) ;;
  Ok (row, prev, rowa, step, window, gap, whole_matrix, state).

(** lyra2.rs:547-629: body of the [for] loop over [_i]. *)
Definition lyra2_body10 (p : platform) (row : Z) (prev : Z) (rowa : Z) (row_len_int64 : Z) (_i : Z) (s : list Z * list Z) : outcome (list Z * list Z) :=
  let '(whole_matrix, state) := s in
  t1 <-- imul p (as_i64 _i) BLOCKLENINT64 ;;  (* 548 *)
  t2 <-- imul p prev row_len_int64 ;;
  t3 <-- iadd p t1 t2 ;;
  t4 <-- vget whole_matrix (as_usize p t3) ;;
  t5 <-- imul p (as_i64 _i) BLOCKLENINT64 ;;
  t6 <-- imul p rowa row_len_int64 ;;
  t7 <-- iadd p t5 t6 ;;
  t8 <-- vget whole_matrix (as_usize p t7) ;;
  state <-- Ok (<[0%nat := (Z.lxor (aget state 0) (wadd 64 t4 t8))]> state) ;;
  t9 <-- imul p (as_i64 _i) BLOCKLENINT64 ;;  (* 552 *)
  t10 <-- imul p prev row_len_int64 ;;
  t11 <-- iadd p t9 t10 ;;
  t12 <-- iadd p t11 1 ;;
  t13 <-- vget whole_matrix (as_usize p t12) ;;
  t14 <-- imul p (as_i64 _i) BLOCKLENINT64 ;;
  t15 <-- imul p rowa row_len_int64 ;;
  t16 <-- iadd p t14 t15 ;;
  t17 <-- iadd p t16 1 ;;
  t18 <-- vget whole_matrix (as_usize p t17) ;;
  state <-- Ok (<[1%nat := (Z.lxor (aget state 1) (wadd 64 t13 t18))]> state) ;;
  t19 <-- imul p (as_i64 _i) BLOCKLENINT64 ;;  (* 556 *)
  t20 <-- imul p prev row_len_int64 ;;
  t21 <-- iadd p t19 t20 ;;
  t22 <-- iadd p t21 2 ;;
  t23 <-- vget whole_matrix (as_usize p t22) ;;
  t24 <-- imul p (as_i64 _i) BLOCKLENINT64 ;;
  t25 <-- imul p rowa row_len_int64 ;;
  t26 <-- iadd p t24 t25 ;;
  t27 <-- iadd p t26 2 ;;
  t28 <-- vget whole_matrix (as_usize p t27) ;;
  state <-- Ok (<[2%nat := (Z.lxor (aget state 2) (wadd 64 t23 t28))]> state) ;;
  t29 <-- imul p (as_i64 _i) BLOCKLENINT64 ;;  (* 560 *)
  t30 <-- imul p prev row_len_int64 ;;
  t31 <-- iadd p t29 t30 ;;
  t32 <-- iadd p t31 3 ;;
  t33 <-- vget whole_matrix (as_usize p t32) ;;
  t34 <-- imul p (as_i64 _i) BLOCKLENINT64 ;;
  t35 <-- imul p rowa row_len_int64 ;;
  t36 <-- iadd p t34 t35 ;;
  t37 <-- iadd p t36 3 ;;
  t38 <-- vget whole_matrix (as_usize p t37) ;;
  state <-- Ok (<[3%nat := (Z.lxor (aget state 3) (wadd 64 t33 t38))]> state) ;;
  t39 <-- imul p (as_i64 _i) BLOCKLENINT64 ;;  (* 564 *)
  t40 <-- imul p prev row_len_int64 ;;
  t41 <-- iadd p t39 t40 ;;
  t42 <-- iadd p t41 4 ;;
  t43 <-- vget whole_matrix (as_usize p t42) ;;
  t44 <-- imul p (as_i64 _i) BLOCKLENINT64 ;;
  t45 <-- imul p rowa row_len_int64 ;;
  t46 <-- iadd p t44 t45 ;;
  t47 <-- iadd p t46 4 ;;
  t48 <-- vget whole_matrix (as_usize p t47) ;;
  state <-- Ok (<[4%nat := (Z.lxor (aget state 4) (wadd 64 t43 t48))]> state) ;;
  t49 <-- imul p (as_i64 _i) BLOCKLENINT64 ;;  (* 568 *)
  t50 <-- imul p prev row_len_int64 ;;
  t51 <-- iadd p t49 t50 ;;
  t52 <-- iadd p t51 5 ;;
  t53 <-- vget whole_matrix (as_usize p t52) ;;
  t54 <-- imul p (as_i64 _i) BLOCKLENINT64 ;;
  t55 <-- imul p rowa row_len_int64 ;;
  t56 <-- iadd p t54 t55 ;;
  t57 <-- iadd p t56 5 ;;
  t58 <-- vget whole_matrix (as_usize p t57) ;;
  state <-- Ok (<[5%nat := (Z.lxor (aget state 5) (wadd 64 t53 t58))]> state) ;;
  t59 <-- imul p (as_i64 _i) BLOCKLENINT64 ;;  (* 572 *)
  t60 <-- imul p prev row_len_int64 ;;
  t61 <-- iadd p t59 t60 ;;
  t62 <-- iadd p t61 6 ;;
  t63 <-- vget whole_matrix (as_usize p t62) ;;
  t64 <-- imul p (as_i64 _i) BLOCKLENINT64 ;;
  t65 <-- imul p rowa row_len_int64 ;;
  t66 <-- iadd p t64 t65 ;;
  t67 <-- iadd p t66 6 ;;
  t68 <-- vget whole_matrix (as_usize p t67) ;;
  state <-- Ok (<[6%nat := (Z.lxor (aget state 6) (wadd 64 t63 t68))]> state) ;;
  t69 <-- imul p (as_i64 _i) BLOCKLENINT64 ;;  (* 576 *)
  t70 <-- imul p prev row_len_int64 ;;
  t71 <-- iadd p t69 t70 ;;
  t72 <-- iadd p t71 7 ;;
  t73 <-- vget whole_matrix (as_usize p t72) ;;
  t74 <-- imul p (as_i64 _i) BLOCKLENINT64 ;;
  t75 <-- imul p rowa row_len_int64 ;;
  t76 <-- iadd p t74 t75 ;;
  t77 <-- iadd p t76 7 ;;
  t78 <-- vget whole_matrix (as_usize p t77) ;;
  state <-- Ok (<[7%nat := (Z.lxor (aget state 7) (wadd 64 t73 t78))]> state) ;;
  t79 <-- imul p (as_i64 _i) BLOCKLENINT64 ;;  (* 580 *)
  t80 <-- imul p prev row_len_int64 ;;
  t81 <-- iadd p t79 t80 ;;
  t82 <-- iadd p t81 8 ;;
  t83 <-- vget whole_matrix (as_usize p t82) ;;
  t84 <-- imul p (as_i64 _i) BLOCKLENINT64 ;;
  t85 <-- imul p rowa row_len_int64 ;;
  t86 <-- iadd p t84 t85 ;;
  t87 <-- iadd p t86 8 ;;
  t88 <-- vget whole_matrix (as_usize p t87) ;;
  state <-- Ok (<[8%nat := (Z.lxor (aget state 8) (wadd 64 t83 t88))]> state) ;;
  t89 <-- imul p (as_i64 _i) BLOCKLENINT64 ;;  (* 584 *)
  t90 <-- imul p prev row_len_int64 ;;
  t91 <-- iadd p t89 t90 ;;
  t92 <-- iadd p t91 9 ;;
  t93 <-- vget whole_matrix (as_usize p t92) ;;
  t94 <-- imul p (as_i64 _i) BLOCKLENINT64 ;;
  t95 <-- imul p rowa row_len_int64 ;;
  t96 <-- iadd p t94 t95 ;;
  t97 <-- iadd p t96 9 ;;
  t98 <-- vget whole_matrix (as_usize p t97) ;;
  state <-- Ok (<[9%nat := (Z.lxor (aget state 9) (wadd 64 t93 t98))]> state) ;;
  t99 <-- imul p (as_i64 _i) BLOCKLENINT64 ;;  (* 588 *)
  t100 <-- imul p prev row_len_int64 ;;
  t101 <-- iadd p t99 t100 ;;
  t102 <-- iadd p t101 10 ;;
  t103 <-- vget whole_matrix (as_usize p t102) ;;
  t104 <-- imul p (as_i64 _i) BLOCKLENINT64 ;;
  t105 <-- imul p rowa row_len_int64 ;;
  t106 <-- iadd p t104 t105 ;;
  t107 <-- iadd p t106 10 ;;
  t108 <-- vget whole_matrix (as_usize p t107) ;;
  state <-- Ok (<[10%nat := (Z.lxor (aget state 10) (wadd 64 t103 t108))]> state) ;;
  t109 <-- imul p (as_i64 _i) BLOCKLENINT64 ;;  (* 593 *)
  t110 <-- imul p prev row_len_int64 ;;
  t111 <-- iadd p t109 t110 ;;
  t112 <-- iadd p t111 11 ;;
  t113 <-- vget whole_matrix (as_usize p t112) ;;
  t114 <-- imul p (as_i64 _i) BLOCKLENINT64 ;;
  t115 <-- imul p rowa row_len_int64 ;;
  t116 <-- iadd p t114 t115 ;;
  t117 <-- iadd p t116 11 ;;
  t118 <-- vget whole_matrix (as_usize p t117) ;;
  state <-- Ok (<[11%nat := (Z.lxor (aget state 11) (wadd 64 t113 t118))]> state) ;;
  state <-- reduced_blake2b_lyra p state ;;  (* 600 *)
  t120 <-- imul p (as_i64 _i) BLOCKLENINT64 ;;  (* 603 *)
  t121 <-- imul p row row_len_int64 ;;
  t122 <-- iadd p t120 t121 ;;
  t123 <-- vget whole_matrix (as_usize p t122) ;;
  t124 <-- imul p (as_i64 _i) BLOCKLENINT64 ;;
  t125 <-- imul p row row_len_int64 ;;
  t126 <-- iadd p t124 t125 ;;
  whole_matrix <-- vset whole_matrix (as_usize p t126) (Z.lxor t123 (aget state 0)) ;;
  t128 <-- imul p (as_i64 _i) BLOCKLENINT64 ;;  (* 604 *)
  t129 <-- imul p row row_len_int64 ;;
  t130 <-- iadd p t128 t129 ;;
  t131 <-- iadd p t130 1 ;;
  t132 <-- vget whole_matrix (as_usize p t131) ;;
  t133 <-- imul p (as_i64 _i) BLOCKLENINT64 ;;
  t134 <-- imul p row row_len_int64 ;;
  t135 <-- iadd p t133 t134 ;;
  t136 <-- iadd p t135 1 ;;
  whole_matrix <-- vset whole_matrix (as_usize p t136) (Z.lxor t132 (aget state 1)) ;;
  t138 <-- imul p (as_i64 _i) BLOCKLENINT64 ;;  (* 605 *)
  t139 <-- imul p row row_len_int64 ;;
  t140 <-- iadd p t138 t139 ;;
  t141 <-- iadd p t140 2 ;;
  t142 <-- vget whole_matrix (as_usize p t141) ;;
  t143 <-- imul p (as_i64 _i) BLOCKLENINT64 ;;
  t144 <-- imul p row row_len_int64 ;;
  t145 <-- iadd p t143 t144 ;;
  t146 <-- iadd p t145 2 ;;
  whole_matrix <-- vset whole_matrix (as_usize p t146) (Z.lxor t142 (aget state 2)) ;;
  t148 <-- imul p (as_i64 _i) BLOCKLENINT64 ;;  (* 606 *)
  t149 <-- imul p row row_len_int64 ;;
  t150 <-- iadd p t148 t149 ;;
  t151 <-- iadd p t150 3 ;;
  t152 <-- vget whole_matrix (as_usize p t151) ;;
  t153 <-- imul p (as_i64 _i) BLOCKLENINT64 ;;
  t154 <-- imul p row row_len_int64 ;;
  t155 <-- iadd p t153 t154 ;;
  t156 <-- iadd p t155 3 ;;
  whole_matrix <-- vset whole_matrix (as_usize p t156) (Z.lxor t152 (aget state 3)) ;;
  t158 <-- imul p (as_i64 _i) BLOCKLENINT64 ;;  (* 607 *)
  t159 <-- imul p row row_len_int64 ;;
  t160 <-- iadd p t158 t159 ;;
  t161 <-- iadd p t160 4 ;;
  t162 <-- vget whole_matrix (as_usize p t161) ;;
  t163 <-- imul p (as_i64 _i) BLOCKLENINT64 ;;
  t164 <-- imul p row row_len_int64 ;;
  t165 <-- iadd p t163 t164 ;;
  t166 <-- iadd p t165 4 ;;
  whole_matrix <-- vset whole_matrix (as_usize p t166) (Z.lxor t162 (aget state 4)) ;;
  t168 <-- imul p (as_i64 _i) BLOCKLENINT64 ;;  (* 608 *)
  t169 <-- imul p row row_len_int64 ;;
  t170 <-- iadd p t168 t169 ;;
  t171 <-- iadd p t170 5 ;;
  t172 <-- vget whole_matrix (as_usize p t171) ;;
  t173 <-- imul p (as_i64 _i) BLOCKLENINT64 ;;
  t174 <-- imul p row row_len_int64 ;;
  t175 <-- iadd p t173 t174 ;;
  t176 <-- iadd p t175 5 ;;
  whole_matrix <-- vset whole_matrix (as_usize p t176) (Z.lxor t172 (aget state 5)) ;;
  t178 <-- imul p (as_i64 _i) BLOCKLENINT64 ;;  (* 609 *)
  t179 <-- imul p row row_len_int64 ;;
  t180 <-- iadd p t178 t179 ;;
  t181 <-- iadd p t180 6 ;;
  t182 <-- vget whole_matrix (as_usize p t181) ;;
  t183 <-- imul p (as_i64 _i) BLOCKLENINT64 ;;
  t184 <-- imul p row row_len_int64 ;;
  t185 <-- iadd p t183 t184 ;;
  t186 <-- iadd p t185 6 ;;
  whole_matrix <-- vset whole_matrix (as_usize p t186) (Z.lxor t182 (aget state 6)) ;;
  t188 <-- imul p (as_i64 _i) BLOCKLENINT64 ;;  (* 610 *)
  t189 <-- imul p row row_len_int64 ;;
  t190 <-- iadd p t188 t189 ;;
  t191 <-- iadd p t190 7 ;;
  t192 <-- vget whole_matrix (as_usize p t191) ;;
  t193 <-- imul p (as_i64 _i) BLOCKLENINT64 ;;
  t194 <-- imul p row row_len_int64 ;;
  t195 <-- iadd p t193 t194 ;;
  t196 <-- iadd p t195 7 ;;
  whole_matrix <-- vset whole_matrix (as_usize p t196) (Z.lxor t192 (aget state 7)) ;;
  t198 <-- imul p (as_i64 _i) BLOCKLENINT64 ;;  (* 611 *)
  t199 <-- imul p row row_len_int64 ;;
  t200 <-- iadd p t198 t199 ;;
  t201 <-- iadd p t200 8 ;;
  t202 <-- vget whole_matrix (as_usize p t201) ;;
  t203 <-- imul p (as_i64 _i) BLOCKLENINT64 ;;
  t204 <-- imul p row row_len_int64 ;;
  t205 <-- iadd p t203 t204 ;;
  t206 <-- iadd p t205 8 ;;
  whole_matrix <-- vset whole_matrix (as_usize p t206) (Z.lxor t202 (aget state 8)) ;;
  t208 <-- imul p (as_i64 _i) BLOCKLENINT64 ;;  (* 612 *)
  t209 <-- imul p row row_len_int64 ;;
  t210 <-- iadd p t208 t209 ;;
  t211 <-- iadd p t210 9 ;;
  t212 <-- vget whole_matrix (as_usize p t211) ;;
  t213 <-- imul p (as_i64 _i) BLOCKLENINT64 ;;
  t214 <-- imul p row row_len_int64 ;;
  t215 <-- iadd p t213 t214 ;;
  t216 <-- iadd p t215 9 ;;
  whole_matrix <-- vset whole_matrix (as_usize p t216) (Z.lxor t212 (aget state 9)) ;;
  t218 <-- imul p (as_i64 _i) BLOCKLENINT64 ;;  (* 613 *)
  t219 <-- imul p row row_len_int64 ;;
  t220 <-- iadd p t218 t219 ;;
  t221 <-- iadd p t220 10 ;;
  t222 <-- vget whole_matrix (as_usize p t221) ;;
  t223 <-- imul p (as_i64 _i) BLOCKLENINT64 ;;
  t224 <-- imul p row row_len_int64 ;;
  t225 <-- iadd p t223 t224 ;;
  t226 <-- iadd p t225 10 ;;
  whole_matrix <-- vset whole_matrix (as_usize p t226) (Z.lxor t222 (aget state 10)) ;;
  t228 <-- imul p (as_i64 _i) BLOCKLENINT64 ;;  (* 614 *)
  t229 <-- imul p row row_len_int64 ;;
  t230 <-- iadd p t228 t229 ;;
  t231 <-- iadd p t230 11 ;;
  t232 <-- vget whole_matrix (as_usize p t231) ;;
  t233 <-- imul p (as_i64 _i) BLOCKLENINT64 ;;
  t234 <-- imul p row row_len_int64 ;;
  t235 <-- iadd p t233 t234 ;;
  t236 <-- iadd p t235 11 ;;
  whole_matrix <-- vset whole_matrix (as_usize p t236) (Z.lxor t232 (aget state 11)) ;;
  t238 <-- imul p (as_i64 _i) BLOCKLENINT64 ;;  (* 617 *)
  t239 <-- imul p rowa row_len_int64 ;;
  t240 <-- iadd p t238 t239 ;;
  t241 <-- vget whole_matrix (as_usize p t240) ;;
  t242 <-- imul p (as_i64 _i) BLOCKLENINT64 ;;
  t243 <-- imul p rowa row_len_int64 ;;
  t244 <-- iadd p t242 t243 ;;
  whole_matrix <-- vset whole_matrix (as_usize p t244) (Z.lxor t241 (aget state 11)) ;;
  t246 <-- imul p (as_i64 _i) BLOCKLENINT64 ;;  (* 618 *)
  t247 <-- imul p rowa row_len_int64 ;;
  t248 <-- iadd p t246 t247 ;;
  t249 <-- iadd p t248 1 ;;
  t250 <-- vget whole_matrix (as_usize p t249) ;;
  t251 <-- imul p (as_i64 _i) BLOCKLENINT64 ;;
  t252 <-- imul p rowa row_len_int64 ;;
  t253 <-- iadd p t251 t252 ;;
  t254 <-- iadd p t253 1 ;;
  whole_matrix <-- vset whole_matrix (as_usize p t254) (Z.lxor t250 (aget state 0)) ;;
  t256 <-- imul p (as_i64 _i) BLOCKLENINT64 ;;  (* 619 *)
  t257 <-- imul p rowa row_len_int64 ;;
  t258 <-- iadd p t256 t257 ;;
  t259 <-- iadd p t258 2 ;;
  t260 <-- vget whole_matrix (as_usize p t259) ;;
  t261 <-- imul p (as_i64 _i) BLOCKLENINT64 ;;
  t262 <-- imul p rowa row_len_int64 ;;
  t263 <-- iadd p t261 t262 ;;
  t264 <-- iadd p t263 2 ;;
  whole_matrix <-- vset whole_matrix (as_usize p t264) (Z.lxor t260 (aget state 1)) ;;
  t266 <-- imul p (as_i64 _i) BLOCKLENINT64 ;;  (* 620 *)
  t267 <-- imul p rowa row_len_int64 ;;
  t268 <-- iadd p t266 t267 ;;
  t269 <-- iadd p t268 3 ;;
  t270 <-- vget whole_matrix (as_usize p t269) ;;
  t271 <-- imul p (as_i64 _i) BLOCKLENINT64 ;;
  t272 <-- imul p rowa row_len_int64 ;;
  t273 <-- iadd p t271 t272 ;;
  t274 <-- iadd p t273 3 ;;
  whole_matrix <-- vset whole_matrix (as_usize p t274) (Z.lxor t270 (aget state 2)) ;;
  t276 <-- imul p (as_i64 _i) BLOCKLENINT64 ;;  (* 621 *)
  t277 <-- imul p rowa row_len_int64 ;;
  t278 <-- iadd p t276 t277 ;;
  t279 <-- iadd p t278 4 ;;
  t280 <-- vget whole_matrix (as_usize p t279) ;;
  t281 <-- imul p (as_i64 _i) BLOCKLENINT64 ;;
  t282 <-- imul p rowa row_len_int64 ;;
  t283 <-- iadd p t281 t282 ;;
  t284 <-- iadd p t283 4 ;;
  whole_matrix <-- vset whole_matrix (as_usize p t284) (Z.lxor t280 (aget state 3)) ;;
  t286 <-- imul p (as_i64 _i) BLOCKLENINT64 ;;  (* 622 *)
  t287 <-- imul p rowa row_len_int64 ;;
  t288 <-- iadd p t286 t287 ;;
  t289 <-- iadd p t288 5 ;;
  t290 <-- vget whole_matrix (as_usize p t289) ;;
  t291 <-- imul p (as_i64 _i) BLOCKLENINT64 ;;
  t292 <-- imul p rowa row_len_int64 ;;
  t293 <-- iadd p t291 t292 ;;
  t294 <-- iadd p t293 5 ;;
  whole_matrix <-- vset whole_matrix (as_usize p t294) (Z.lxor t290 (aget state 4)) ;;
  t296 <-- imul p (as_i64 _i) BLOCKLENINT64 ;;  (* 623 *)
  t297 <-- imul p rowa row_len_int64 ;;
  t298 <-- iadd p t296 t297 ;;
  t299 <-- iadd p t298 6 ;;
  t300 <-- vget whole_matrix (as_usize p t299) ;;
  t301 <-- imul p (as_i64 _i) BLOCKLENINT64 ;;
  t302 <-- imul p rowa row_len_int64 ;;
  t303 <-- iadd p t301 t302 ;;
  t304 <-- iadd p t303 6 ;;
  whole_matrix <-- vset whole_matrix (as_usize p t304) (Z.lxor t300 (aget state 5)) ;;
  t306 <-- imul p (as_i64 _i) BLOCKLENINT64 ;;  (* 624 *)
  t307 <-- imul p rowa row_len_int64 ;;
  t308 <-- iadd p t306 t307 ;;
  t309 <-- iadd p t308 7 ;;
  t310 <-- vget whole_matrix (as_usize p t309) ;;
  t311 <-- imul p (as_i64 _i) BLOCKLENINT64 ;;
  t312 <-- imul p rowa row_len_int64 ;;
  t313 <-- iadd p t311 t312 ;;
  t314 <-- iadd p t313 7 ;;
  whole_matrix <-- vset whole_matrix (as_usize p t314) (Z.lxor t310 (aget state 6)) ;;
  t316 <-- imul p (as_i64 _i) BLOCKLENINT64 ;;  (* 625 *)
  t317 <-- imul p rowa row_len_int64 ;;
  t318 <-- iadd p t316 t317 ;;
  t319 <-- iadd p t318 8 ;;
  t320 <-- vget whole_matrix (as_usize p t319) ;;
  t321 <-- imul p (as_i64 _i) BLOCKLENINT64 ;;
  t322 <-- imul p rowa row_len_int64 ;;
  t323 <-- iadd p t321 t322 ;;
  t324 <-- iadd p t323 8 ;;
  whole_matrix <-- vset whole_matrix (as_usize p t324) (Z.lxor t320 (aget state 7)) ;;
  t326 <-- imul p (as_i64 _i) BLOCKLENINT64 ;;  (* 626 *)
  t327 <-- imul p rowa row_len_int64 ;;
  t328 <-- iadd p t326 t327 ;;
  t329 <-- iadd p t328 9 ;;
  t330 <-- vget whole_matrix (as_usize p t329) ;;
  t331 <-- imul p (as_i64 _i) BLOCKLENINT64 ;;
  t332 <-- imul p rowa row_len_int64 ;;
  t333 <-- iadd p t331 t332 ;;
  t334 <-- iadd p t333 9 ;;
  whole_matrix <-- vset whole_matrix (as_usize p t334) (Z.lxor t330 (aget state 8)) ;;
  t336 <-- imul p (as_i64 _i) BLOCKLENINT64 ;;  (* 627 *)
  t337 <-- imul p rowa row_len_int64 ;;
  t338 <-- iadd p t336 t337 ;;
  t339 <-- iadd p t338 10 ;;
  t340 <-- vget whole_matrix (as_usize p t339) ;;
  t341 <-- imul p (as_i64 _i) BLOCKLENINT64 ;;
  t342 <-- imul p rowa row_len_int64 ;;
  t343 <-- iadd p t341 t342 ;;
  t344 <-- iadd p t343 10 ;;
  whole_matrix <-- vset whole_matrix (as_usize p t344) (Z.lxor t340 (aget state 9)) ;;
  t346 <-- imul p (as_i64 _i) BLOCKLENINT64 ;;  (* 628 *)
  t347 <-- imul p rowa row_len_int64 ;;
  t348 <-- iadd p t346 t347 ;;
  t349 <-- iadd p t348 11 ;;
  t350 <-- vget whole_matrix (as_usize p t349) ;;
  t351 <-- imul p (as_i64 _i) BLOCKLENINT64 ;;
  t352 <-- imul p rowa row_len_int64 ;;
  t353 <-- iadd p t351 t352 ;;
  t354 <-- iadd p t353 11 ;;
  whole_matrix <-- vset whole_matrix (as_usize p t354) (Z.lxor t350 (aget state 10)) ;;
  Ok (whole_matrix, state).

(** lyra2.rs:538-642: body of the [loop] loop. *)
Definition lyra2_body9 (p : platform) (n_rows : Z) (n_cols : Z) (step : Z) (row_len_int64 : Z) (s : Z * Z * Z * list Z * list Z) : outcome ((Z * Z * Z * list Z * list Z) + (Z * Z * Z * list Z * list Z)) :=
  let '(row, prev, rowa, whole_matrix, state) := s in
  t1 <-- usub p n_rows 1 ;;  (* 542 *)
  rowa <-- Ok (as_i64 (Z.land (aget state 0) t1)) ;;
  '(whole_matrix, state) <-- for_range 0 n_cols (lyra2_body10 p row prev rowa row_len_int64) (whole_matrix, state) ;;  (* 547 *)
  prev <-- Ok row ;;  (* 632 *)
  t2 <-- iadd p row step ;;  (* 637 *)
  t3 <-- isub p (as_i64 n_rows) 1 ;;
  row <-- Ok (Z.land t2 t3) ;;
  if (row =? 0) then Ok (inr (row, prev, rowa, whole_matrix, state)) else Ok (inl (row, prev, rowa, whole_matrix, state))  (* 639 *).

(** lyra2.rs:531-643: body of the [for] loop over [_tau]. *)
Definition lyra2_body8 (p : platform) (n_rows : Z) (n_cols : Z) (row_len_int64 : Z) (_tau : Z) (s : Z * Z * Z * Z * list Z * list Z) : outcome (Z * Z * Z * Z * list Z * list Z) :=
  let '(row, prev, rowa, step, whole_matrix, state) := s in
  step <-- isub p (Z.quot (as_i64 n_rows) 2) 1 ;;  (* 533 *)
  step <-- (if ((_tau mod 2) =? 0) then  (* 534 *)
    step <-- Ok ((-1)) ;;  (* 535 *)
    Ok step
  else
    Ok step) ;;
  '(row, prev, rowa, whole_matrix, state) <-- loop64 (lyra2_body9 p n_rows n_cols step row_len_int64) (row, prev, rowa, whole_matrix, state) ;;  (* 538 *)
  Ok (row, prev, rowa, step, whole_matrix, state).

(** lyra2.rs:245-653 [lyra2] *)
Definition lyra2 (p : platform) (k : Z) (pwd : list Z) (salt : list Z) (time_cost : Z) (n_rows : Z) (n_cols : Z) : outcome (list Z) :=
  _ <-- (if (time_cost <? 1) then  (* 254 *)
    _ <-- Panic (A := unit) ;;  (* 254 *)
    Ok tt
  else
    Ok tt) ;;
  _ <-- (if (n_rows <? 3) then  (* 255 *)
    _ <-- Panic (A := unit) ;;  (* 255 *)
    Ok tt
  else
    Ok tt) ;;
  row <-- Ok 2 ;;  (* 259 *)
  prev <-- Ok 1 ;;  (* 260 *)
  rowa <-- Ok 0 ;;  (* 261 *)
  _tau <-- Ok 1 ;;  (* 262 *)
  step <-- Ok 1 ;;  (* 263 *)
  window <-- Ok 2 ;;  (* 264 *)
  gap <-- Ok 1 ;;  (* 265 *)
  _i <-- Ok 0 ;;  (* 266 *)
  row_len_int64 <-- imul p BLOCKLENINT64 (as_i64 n_cols) ;;  (* 272 *)
  _i <-- imul p (as_i64 n_rows) row_len_int64 ;;  (* 273 *)
  whole_matrix <-- vec_zeroed p 8 (as_usize p _i) ;;  (* 274 *)
  whole_matrix <-- vec_resize p 8 whole_matrix (as_usize p _i) 0 ;;  (* 275 *)
  t5 <-- szadd p (vlen salt) (vlen pwd) ;;  (* 284 *)
  t6 <-- szadd p t5 (6 * 8) ;;
  n_blocks_input <-- iadd p (Z.quot (as_i64 t6) BLOCKLENBLAKE2SAFEBYTES) 1 ;;
  ptr_byte <-- Ok 0 ;;  (* 286 *)
  whole_matrix <-- for_range 0 ((vlen pwd) / 8) (lyra2_body1 p pwd ptr_byte) whole_matrix ;;  (* 289 *)
  ptr_byte <-- szadd p ptr_byte (as_usize p ((vlen pwd) / 8)) ;;  (* 295 *)
  whole_matrix <-- for_range 0 ((vlen salt) / 8) (lyra2_body2 p salt ptr_byte) whole_matrix ;;  (* 298 *)
  ptr_byte <-- szadd p ptr_byte (as_usize p ((vlen salt) / 8)) ;;  (* 304 *)
  whole_matrix <-- vset whole_matrix ptr_byte k ;;  (* 307 *)
  ptr_byte <-- szadd p ptr_byte 1 ;;  (* 308 *)
  whole_matrix <-- vset whole_matrix ptr_byte (vlen pwd) ;;  (* 309 *)
  ptr_byte <-- szadd p ptr_byte 1 ;;  (* 310 *)
  whole_matrix <-- vset whole_matrix ptr_byte (vlen salt) ;;  (* 311 *)
  ptr_byte <-- szadd p ptr_byte 1 ;;  (* 312 *)
  whole_matrix <-- vset whole_matrix ptr_byte time_cost ;;  (* 313 *)
  ptr_byte <-- szadd p ptr_byte 1 ;;  (* 314 *)
  whole_matrix <-- vset whole_matrix ptr_byte n_rows ;;  (* 315 *)
  ptr_byte <-- szadd p ptr_byte 1 ;;  (* 316 *)
  whole_matrix <-- vset whole_matrix ptr_byte n_cols ;;  (* 317 *)
  ptr_byte <-- szadd p ptr_byte 1 ;;  (* 318 *)
  whole_matrix <-- vset whole_matrix ptr_byte 128 ;;  (* 321 *)
  t23 <-- imul p n_blocks_input BLOCKLENBLAKE2SAFEBYTES ;;  (* 323 *)
  t24 <-- isub p (Z.quot t23 8) 1 ;;
  ptr_byte <-- Ok (as_usize p t24) ;;
  t25 <-- vget whole_matrix ptr_byte ;;  (* 324 *)
  whole_matrix <-- vset whole_matrix ptr_byte (Z.lxor t25 0x100000000000000) ;;
  state <-- init_state p ;;  (* 329 *)
  ptr_word <-- Ok 0 ;;  (* 334 *)
  '(state, ptr_word) <-- for_range 0 n_blocks_input (lyra2_body3 p whole_matrix) (state, ptr_word) ;;  (* 335 *)
  t28 <-- isub p (as_i64 n_cols) 1 ;;  (* 344 *)
  ptr <-- imul p t28 BLOCKLENINT64 ;;
  '(whole_matrix, state, ptr) <-- for_range 0 n_cols (lyra2_body4 p) (whole_matrix, state, ptr) ;;  (* 346 *)
  '(whole_matrix, state) <-- for_range 0 n_cols (lyra2_body5 p n_cols row_len_int64) (whole_matrix, state) ;;  (* 369 *)
  _x <-- Ok row ;;  (* 414 *)
  '(row, prev, rowa, step, window, gap, whole_matrix, state) <-- for_range _x (as_i64 n_rows) (lyra2_body6 p n_cols row_len_int64) (row, prev, rowa, step, window, gap, whole_matrix, state) ;;  (* 415 *)
  row <-- Ok 0 ;;  (* 530 *)
  '(row, prev, rowa, step, whole_matrix, state) <-- for_range 1 (time_cost + 1) (lyra2_body8 p n_rows n_cols row_len_int64) (row, prev, rowa, step, whole_matrix, state) ;;  (* 531 *)
  t30 <-- imul p rowa row_len_int64 ;;  (* 648 *)
  _right <-- split_right whole_matrix (as_usize p t30) ;;
  state <-- absorb_block p state _right ;;  (* 649 *)
  squeeze p state k.  (* 651 *)

(** lyra2.rs:669-672 [sum] *)
Definition sum (p : platform) (input : list Z) : outcome (list Z) :=
  input2 <-- Ok input ;;  (* 670 *)
  lyra2 p 32 input input2 1 4 4.  (* 671 *)
