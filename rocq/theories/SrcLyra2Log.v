(** * /repo/src/lyra2.rs, translated by tools/rust2coq.py, with a log of its accesses *)
From Verif Require Import Machine SrcOps Kept SrcLyra2.
From Verif Require SrcUtils.

(** As [blake2b_lyra], with the log. lyra2.rs:115-129 [blake2b_lyra] *)
Definition blake2b_lyra_log (p : platform) (v : list Z) : kept (list Z) :=
  v <=~ kran (round_lyra p v) ;;  (* 116 *)
  v <=~ kran (round_lyra p v) ;;  (* 117 *)
  v <=~ kran (round_lyra p v) ;;  (* 118 *)
  v <=~ kran (round_lyra p v) ;;  (* 119 *)
  v <=~ kran (round_lyra p v) ;;  (* 120 *)
  v <=~ kran (round_lyra p v) ;;  (* 121 *)
  v <=~ kran (round_lyra p v) ;;  (* 122 *)
  v <=~ kran (round_lyra p v) ;;  (* 123 *)
  v <=~ kran (round_lyra p v) ;;  (* 124 *)
  v <=~ kran (round_lyra p v) ;;  (* 125 *)
  v <=~ kran (round_lyra p v) ;;  (* 126 *)
  v <=~ kran (round_lyra p v) ;;  (* 127 *)
  kret v.  (* 128 *)

(** As [reduced_blake2b_lyra], with the log. lyra2.rs:135-138 [reduced_blake2b_lyra] *)
Definition reduced_blake2b_lyra_log (p : platform) (v : list Z) : kept (list Z) :=
  v <=~ kran (round_lyra p v) ;;  (* 136 *)
  kret v.  (* 137 *)

(** As [squeeze_body1], with the log. lyra2.rs:153-160: body of the [for] loop over [_j]. *)
Definition squeeze_body1_log (p : platform) (output_size : Z) (_j : Z) (s : list Z * list Z * list Z) : kept (list Z * list Z * list Z) :=
  let '(state, tmp, out) := s in
  tmp <=~ kquiet (for_range 0 BLOCKLENINT64 (squeeze_body2 p state) tmp) ;;  (* 154 *)
  t1 <=~ kquiet (slice tmp 0 (as_usize p output_size)) ;;  (* 158 *)
  out <=~ kquiet (slice_set out (as_usize p output_size) t1) ;;
  state <=~ blake2b_lyra_log p state ;;  (* 159 *)
  kret (state, tmp, out).

(** As [squeeze], with the log. lyra2.rs:148-162 [squeeze] *)
Definition squeeze_log (p : platform) (state : list Z) (output_size : Z) : kept (list Z) :=
  tmp <=~ kquiet (Ok []) ;;  (* 149 *)
  out <=~ kquiet (vec_zeroed p 1 (as_usize p output_size)) ;;  (* 150 *)
  _j <=~ kquiet (Ok 0) ;;  (* 151 *)
  jmax <=~ kquiet (iadd p (Z.quot (as_i64 output_size) BLOCKLENBYTES) 1) ;;  (* 152 *)
  '(state, tmp, out) <=~ kfor 0 jmax (squeeze_body1_log p output_size) (state, tmp, out) ;;  (* 153 *)
  kret out.  (* 161 *)

(** As [absorb_block], with the log. lyra2.rs:171-189 [absorb_block] *)
Definition absorb_block_log (p : platform) (s : list Z) (w_at : Z) (w : list Z) : kept (list Z) :=
  t1 <=~ krd_right w_at w 0 ;;  (* 173 *)
  s <=~ kquiet (Ok (<[0%nat := (Z.lxor (aget s 0) t1)]> s)) ;;
  t2 <=~ krd_right w_at w 1 ;;  (* 174 *)
  s <=~ kquiet (Ok (<[1%nat := (Z.lxor (aget s 1) t2)]> s)) ;;
  t3 <=~ krd_right w_at w 2 ;;  (* 175 *)
  s <=~ kquiet (Ok (<[2%nat := (Z.lxor (aget s 2) t3)]> s)) ;;
  t4 <=~ krd_right w_at w 3 ;;  (* 176 *)
  s <=~ kquiet (Ok (<[3%nat := (Z.lxor (aget s 3) t4)]> s)) ;;
  t5 <=~ krd_right w_at w 4 ;;  (* 177 *)
  s <=~ kquiet (Ok (<[4%nat := (Z.lxor (aget s 4) t5)]> s)) ;;
  t6 <=~ krd_right w_at w 5 ;;  (* 178 *)
  s <=~ kquiet (Ok (<[5%nat := (Z.lxor (aget s 5) t6)]> s)) ;;
  t7 <=~ krd_right w_at w 6 ;;  (* 179 *)
  s <=~ kquiet (Ok (<[6%nat := (Z.lxor (aget s 6) t7)]> s)) ;;
  t8 <=~ krd_right w_at w 7 ;;  (* 180 *)
  s <=~ kquiet (Ok (<[7%nat := (Z.lxor (aget s 7) t8)]> s)) ;;
  t9 <=~ krd_right w_at w 8 ;;  (* 181 *)
  s <=~ kquiet (Ok (<[8%nat := (Z.lxor (aget s 8) t9)]> s)) ;;
  t10 <=~ krd_right w_at w 9 ;;  (* 182 *)
  s <=~ kquiet (Ok (<[9%nat := (Z.lxor (aget s 9) t10)]> s)) ;;
  t11 <=~ krd_right w_at w 10 ;;  (* 183 *)
  s <=~ kquiet (Ok (<[10%nat := (Z.lxor (aget s 10) t11)]> s)) ;;
  t12 <=~ krd_right w_at w 11 ;;  (* 184 *)
  s <=~ kquiet (Ok (<[11%nat := (Z.lxor (aget s 11) t12)]> s)) ;;
  s <=~ blake2b_lyra_log p s ;;  (* 187 *)
  kret s.  (* 188 *)

(** As [absorb_block_blake2_safe], with the log. lyra2.rs:198-211 [absorb_block_blake2_safe] *)
Definition absorb_block_blake2_safe_log (p : platform) (s : list Z) (w_at : Z) (w : list Z) : kept (list Z) :=
  t1 <=~ krd_right w_at w 0 ;;  (* 200 *)
  s <=~ kquiet (Ok (<[0%nat := (Z.lxor (aget s 0) t1)]> s)) ;;
  t2 <=~ krd_right w_at w 1 ;;  (* 201 *)
  s <=~ kquiet (Ok (<[1%nat := (Z.lxor (aget s 1) t2)]> s)) ;;
  t3 <=~ krd_right w_at w 2 ;;  (* 202 *)
  s <=~ kquiet (Ok (<[2%nat := (Z.lxor (aget s 2) t3)]> s)) ;;
  t4 <=~ krd_right w_at w 3 ;;  (* 203 *)
  s <=~ kquiet (Ok (<[3%nat := (Z.lxor (aget s 3) t4)]> s)) ;;
  t5 <=~ krd_right w_at w 4 ;;  (* 204 *)
  s <=~ kquiet (Ok (<[4%nat := (Z.lxor (aget s 4) t5)]> s)) ;;
  t6 <=~ krd_right w_at w 5 ;;  (* 205 *)
  s <=~ kquiet (Ok (<[5%nat := (Z.lxor (aget s 5) t6)]> s)) ;;
  t7 <=~ krd_right w_at w 6 ;;  (* 206 *)
  s <=~ kquiet (Ok (<[6%nat := (Z.lxor (aget s 6) t7)]> s)) ;;
  t8 <=~ krd_right w_at w 7 ;;  (* 207 *)
  s <=~ kquiet (Ok (<[7%nat := (Z.lxor (aget s 7) t8)]> s)) ;;
  s <=~ blake2b_lyra_log p s ;;  (* 209 *)
  kret s.  (* 210 *)

(** As [lyra2_body1], with the log. lyra2.rs:289-293: body of the [for] loop over [j]. *)
Definition lyra2_body1_log (p : platform) (pwd : list Z) (ptr_byte : Z) (j : Z) (s : list Z) : kept (list Z) :=
  let whole_matrix := s in
  start <=~ kquiet (szmul p 8 j) ;;  (* 290 *)
  end_ <=~ kquiet (szadd p start 8) ;;  (* 291 *)
  t3 <=~ kquiet (slice pwd start end_) ;;  (* 292 *)
  t4 <=~ kquiet (SrcUtils.read_u64_le p t3) ;;
  t5 <=~ kquiet (szadd p ptr_byte j) ;;
  whole_matrix <=~ kwr whole_matrix t5 t4 ;;
  kret whole_matrix.

(** As [lyra2_body2], with the log. lyra2.rs:298-302: body of the [for] loop over [j]. *)
Definition lyra2_body2_log (p : platform) (salt : list Z) (ptr_byte : Z) (j : Z) (s : list Z) : kept (list Z) :=
  let whole_matrix := s in
  start <=~ kquiet (szmul p 8 j) ;;  (* 299 *)
  end_ <=~ kquiet (szadd p start 8) ;;  (* 300 *)
  t3 <=~ kquiet (slice salt start end_) ;;  (* 301 *)
  t4 <=~ kquiet (SrcUtils.read_u64_le p t3) ;;
  t5 <=~ kquiet (szadd p ptr_byte j) ;;
  whole_matrix <=~ kwr whole_matrix t5 t4 ;;
  kret whole_matrix.

(** As [lyra2_body3], with the log. lyra2.rs:335-339: body of the [for] loop over [_i]. *)
Definition lyra2_body3_log (p : platform) (whole_matrix : list Z) (_i : Z) (s : list Z * Z) : kept (list Z * Z) :=
  let '(state, ptr_word) := s in
  _right <=~ kquiet (split_right whole_matrix ptr_word) ;;  (* 336 *)
  let _right_at := ptr_word in
  state <=~ absorb_block_blake2_safe_log p state _right_at _right ;;  (* 337 *)
  ptr_word <=~ kquiet (szadd p ptr_word (as_usize p BLOCKLENBLAKE2SAFEINT64)) ;;  (* 338 *)
  kret (state, ptr_word).

(** As [lyra2_body4], with the log. lyra2.rs:346-366: body of the [for] loop over [_i]. *)
Definition lyra2_body4_log (p : platform) (_i : Z) (s : list Z * list Z * Z) : kept (list Z * list Z * Z) :=
  let '(whole_matrix, state, ptr) := s in
  whole_matrix <=~ kwr whole_matrix (as_usize p ptr) (aget state 0) ;;  (* 348 *)
  t2 <=~ kquiet (iadd p ptr 1) ;;  (* 349 *)
  whole_matrix <=~ kwr whole_matrix (as_usize p t2) (aget state 1) ;;
  t4 <=~ kquiet (iadd p ptr 2) ;;  (* 350 *)
  whole_matrix <=~ kwr whole_matrix (as_usize p t4) (aget state 2) ;;
  t6 <=~ kquiet (iadd p ptr 3) ;;  (* 351 *)
  whole_matrix <=~ kwr whole_matrix (as_usize p t6) (aget state 3) ;;
  t8 <=~ kquiet (iadd p ptr 4) ;;  (* 352 *)
  whole_matrix <=~ kwr whole_matrix (as_usize p t8) (aget state 4) ;;
  t10 <=~ kquiet (iadd p ptr 5) ;;  (* 353 *)
  whole_matrix <=~ kwr whole_matrix (as_usize p t10) (aget state 5) ;;
  t12 <=~ kquiet (iadd p ptr 6) ;;  (* 354 *)
  whole_matrix <=~ kwr whole_matrix (as_usize p t12) (aget state 6) ;;
  t14 <=~ kquiet (iadd p ptr 7) ;;  (* 355 *)
  whole_matrix <=~ kwr whole_matrix (as_usize p t14) (aget state 7) ;;
  t16 <=~ kquiet (iadd p ptr 8) ;;  (* 356 *)
  whole_matrix <=~ kwr whole_matrix (as_usize p t16) (aget state 8) ;;
  t18 <=~ kquiet (iadd p ptr 9) ;;  (* 357 *)
  whole_matrix <=~ kwr whole_matrix (as_usize p t18) (aget state 9) ;;
  t20 <=~ kquiet (iadd p ptr 10) ;;  (* 358 *)
  whole_matrix <=~ kwr whole_matrix (as_usize p t20) (aget state 10) ;;
  t22 <=~ kquiet (iadd p ptr 11) ;;  (* 359 *)
  whole_matrix <=~ kwr whole_matrix (as_usize p t22) (aget state 11) ;;
  ptr <=~ kquiet (Ok (wrap_i64 (ptr - BLOCKLENINT64))) ;;  (* 362 *)
  state <=~ reduced_blake2b_lyra_log p state ;;  (* 365 *)
  kret (whole_matrix, state, ptr).

(** As [lyra2_body5], with the log. lyra2.rs:369-412: body of the [for] loop over [_i]. *)
Definition lyra2_body5_log (p : platform) (n_cols : Z) (row_len_int64 : Z) (_i : Z) (s : list Z * list Z) : kept (list Z * list Z) :=
  let '(whole_matrix, state) := s in
  t1 <=~ kquiet (imul p (as_i64 _i) BLOCKLENINT64) ;;  (* 371 *)
  t2 <=~ krd whole_matrix (as_usize p t1) ;;
  state <=~ kquiet (Ok (<[0%nat := (Z.lxor (aget state 0) t2)]> state)) ;;
  t3 <=~ kquiet (imul p (as_i64 _i) BLOCKLENINT64) ;;  (* 372 *)
  t4 <=~ kquiet (iadd p t3 1) ;;
  t5 <=~ krd whole_matrix (as_usize p t4) ;;
  state <=~ kquiet (Ok (<[1%nat := (Z.lxor (aget state 1) t5)]> state)) ;;
  t6 <=~ kquiet (imul p (as_i64 _i) BLOCKLENINT64) ;;  (* 373 *)
  t7 <=~ kquiet (iadd p t6 2) ;;
  t8 <=~ krd whole_matrix (as_usize p t7) ;;
  state <=~ kquiet (Ok (<[2%nat := (Z.lxor (aget state 2) t8)]> state)) ;;
  t9 <=~ kquiet (imul p (as_i64 _i) BLOCKLENINT64) ;;  (* 374 *)
  t10 <=~ kquiet (iadd p t9 3) ;;
  t11 <=~ krd whole_matrix (as_usize p t10) ;;
  state <=~ kquiet (Ok (<[3%nat := (Z.lxor (aget state 3) t11)]> state)) ;;
  t12 <=~ kquiet (imul p (as_i64 _i) BLOCKLENINT64) ;;  (* 375 *)
  t13 <=~ kquiet (iadd p t12 4) ;;
  t14 <=~ krd whole_matrix (as_usize p t13) ;;
  state <=~ kquiet (Ok (<[4%nat := (Z.lxor (aget state 4) t14)]> state)) ;;
  t15 <=~ kquiet (imul p (as_i64 _i) BLOCKLENINT64) ;;  (* 376 *)
  t16 <=~ kquiet (iadd p t15 5) ;;
  t17 <=~ krd whole_matrix (as_usize p t16) ;;
  state <=~ kquiet (Ok (<[5%nat := (Z.lxor (aget state 5) t17)]> state)) ;;
  t18 <=~ kquiet (imul p (as_i64 _i) BLOCKLENINT64) ;;  (* 377 *)
  t19 <=~ kquiet (iadd p t18 6) ;;
  t20 <=~ krd whole_matrix (as_usize p t19) ;;
  state <=~ kquiet (Ok (<[6%nat := (Z.lxor (aget state 6) t20)]> state)) ;;
  t21 <=~ kquiet (imul p (as_i64 _i) BLOCKLENINT64) ;;  (* 378 *)
  t22 <=~ kquiet (iadd p t21 7) ;;
  t23 <=~ krd whole_matrix (as_usize p t22) ;;
  state <=~ kquiet (Ok (<[7%nat := (Z.lxor (aget state 7) t23)]> state)) ;;
  t24 <=~ kquiet (imul p (as_i64 _i) BLOCKLENINT64) ;;  (* 379 *)
  t25 <=~ kquiet (iadd p t24 8) ;;
  t26 <=~ krd whole_matrix (as_usize p t25) ;;
  state <=~ kquiet (Ok (<[8%nat := (Z.lxor (aget state 8) t26)]> state)) ;;
  t27 <=~ kquiet (imul p (as_i64 _i) BLOCKLENINT64) ;;  (* 380 *)
  t28 <=~ kquiet (iadd p t27 9) ;;
  t29 <=~ krd whole_matrix (as_usize p t28) ;;
  state <=~ kquiet (Ok (<[9%nat := (Z.lxor (aget state 9) t29)]> state)) ;;
  t30 <=~ kquiet (imul p (as_i64 _i) BLOCKLENINT64) ;;  (* 381 *)
  t31 <=~ kquiet (iadd p t30 10) ;;
  t32 <=~ krd whole_matrix (as_usize p t31) ;;
  state <=~ kquiet (Ok (<[10%nat := (Z.lxor (aget state 10) t32)]> state)) ;;
  t33 <=~ kquiet (imul p (as_i64 _i) BLOCKLENINT64) ;;  (* 382 *)
  t34 <=~ kquiet (iadd p t33 11) ;;
  t35 <=~ krd whole_matrix (as_usize p t34) ;;
  state <=~ kquiet (Ok (<[11%nat := (Z.lxor (aget state 11) t35)]> state)) ;;
  state <=~ reduced_blake2b_lyra_log p state ;;  (* 385 *)
  t37 <=~ kquiet (imul p (as_i64 _i) BLOCKLENINT64) ;;  (* 388 *)
  t38 <=~ krd whole_matrix (as_usize p t37) ;;
  t39 <=~ kquiet (usub p n_cols _i) ;;
  t40 <=~ kquiet (usub p t39 1) ;;
  t41 <=~ kquiet (imul p (as_i64 t40) BLOCKLENINT64) ;;
  t42 <=~ kquiet (iadd p t41 row_len_int64) ;;
  whole_matrix <=~ kwr whole_matrix (as_usize p t42) (Z.lxor t38 (aget state 0)) ;;
  t44 <=~ kquiet (imul p (as_i64 _i) BLOCKLENINT64) ;;  (* 390 *)
  t45 <=~ kquiet (iadd p t44 1) ;;
  t46 <=~ krd whole_matrix (as_usize p t45) ;;
  t47 <=~ kquiet (usub p n_cols _i) ;;
  t48 <=~ kquiet (usub p t47 1) ;;
  t49 <=~ kquiet (imul p (as_i64 t48) BLOCKLENINT64) ;;
  t50 <=~ kquiet (iadd p t49 row_len_int64) ;;
  t51 <=~ kquiet (iadd p t50 1) ;;
  whole_matrix <=~ kwr whole_matrix (as_usize p t51) (Z.lxor t46 (aget state 1)) ;;
  t53 <=~ kquiet (imul p (as_i64 _i) BLOCKLENINT64) ;;  (* 392 *)
  t54 <=~ kquiet (iadd p t53 2) ;;
  t55 <=~ krd whole_matrix (as_usize p t54) ;;
  t56 <=~ kquiet (usub p n_cols _i) ;;
  t57 <=~ kquiet (usub p t56 1) ;;
  t58 <=~ kquiet (imul p (as_i64 t57) BLOCKLENINT64) ;;
  t59 <=~ kquiet (iadd p t58 row_len_int64) ;;
  t60 <=~ kquiet (iadd p t59 2) ;;
  whole_matrix <=~ kwr whole_matrix (as_usize p t60) (Z.lxor t55 (aget state 2)) ;;
  t62 <=~ kquiet (imul p (as_i64 _i) BLOCKLENINT64) ;;  (* 394 *)
  t63 <=~ kquiet (iadd p t62 3) ;;
  t64 <=~ krd whole_matrix (as_usize p t63) ;;
  t65 <=~ kquiet (usub p n_cols _i) ;;
  t66 <=~ kquiet (usub p t65 1) ;;
  t67 <=~ kquiet (imul p (as_i64 t66) BLOCKLENINT64) ;;
  t68 <=~ kquiet (iadd p t67 row_len_int64) ;;
  t69 <=~ kquiet (iadd p t68 3) ;;
  whole_matrix <=~ kwr whole_matrix (as_usize p t69) (Z.lxor t64 (aget state 3)) ;;
  t71 <=~ kquiet (imul p (as_i64 _i) BLOCKLENINT64) ;;  (* 396 *)
  t72 <=~ kquiet (iadd p t71 4) ;;
  t73 <=~ krd whole_matrix (as_usize p t72) ;;
  t74 <=~ kquiet (usub p n_cols _i) ;;
  t75 <=~ kquiet (usub p t74 1) ;;
  t76 <=~ kquiet (imul p (as_i64 t75) BLOCKLENINT64) ;;
  t77 <=~ kquiet (iadd p t76 row_len_int64) ;;
  t78 <=~ kquiet (iadd p t77 4) ;;
  whole_matrix <=~ kwr whole_matrix (as_usize p t78) (Z.lxor t73 (aget state 4)) ;;
  t80 <=~ kquiet (imul p (as_i64 _i) BLOCKLENINT64) ;;  (* 398 *)
  t81 <=~ kquiet (iadd p t80 5) ;;
  t82 <=~ krd whole_matrix (as_usize p t81) ;;
  t83 <=~ kquiet (usub p n_cols _i) ;;
  t84 <=~ kquiet (usub p t83 1) ;;
  t85 <=~ kquiet (imul p (as_i64 t84) BLOCKLENINT64) ;;
  t86 <=~ kquiet (iadd p t85 row_len_int64) ;;
  t87 <=~ kquiet (iadd p t86 5) ;;
  whole_matrix <=~ kwr whole_matrix (as_usize p t87) (Z.lxor t82 (aget state 5)) ;;
  t89 <=~ kquiet (imul p (as_i64 _i) BLOCKLENINT64) ;;  (* 400 *)
  t90 <=~ kquiet (iadd p t89 6) ;;
  t91 <=~ krd whole_matrix (as_usize p t90) ;;
  t92 <=~ kquiet (usub p n_cols _i) ;;
  t93 <=~ kquiet (usub p t92 1) ;;
  t94 <=~ kquiet (imul p (as_i64 t93) BLOCKLENINT64) ;;
  t95 <=~ kquiet (iadd p t94 row_len_int64) ;;
  t96 <=~ kquiet (iadd p t95 6) ;;
  whole_matrix <=~ kwr whole_matrix (as_usize p t96) (Z.lxor t91 (aget state 6)) ;;
  t98 <=~ kquiet (imul p (as_i64 _i) BLOCKLENINT64) ;;  (* 402 *)
  t99 <=~ kquiet (iadd p t98 7) ;;
  t100 <=~ krd whole_matrix (as_usize p t99) ;;
  t101 <=~ kquiet (usub p n_cols _i) ;;
  t102 <=~ kquiet (usub p t101 1) ;;
  t103 <=~ kquiet (imul p (as_i64 t102) BLOCKLENINT64) ;;
  t104 <=~ kquiet (iadd p t103 row_len_int64) ;;
  t105 <=~ kquiet (iadd p t104 7) ;;
  whole_matrix <=~ kwr whole_matrix (as_usize p t105) (Z.lxor t100 (aget state 7)) ;;
  t107 <=~ kquiet (imul p (as_i64 _i) BLOCKLENINT64) ;;  (* 404 *)
  t108 <=~ kquiet (iadd p t107 8) ;;
  t109 <=~ krd whole_matrix (as_usize p t108) ;;
  t110 <=~ kquiet (usub p n_cols _i) ;;
  t111 <=~ kquiet (usub p t110 1) ;;
  t112 <=~ kquiet (imul p (as_i64 t111) BLOCKLENINT64) ;;
  t113 <=~ kquiet (iadd p t112 row_len_int64) ;;
  t114 <=~ kquiet (iadd p t113 8) ;;
  whole_matrix <=~ kwr whole_matrix (as_usize p t114) (Z.lxor t109 (aget state 8)) ;;
  t116 <=~ kquiet (imul p (as_i64 _i) BLOCKLENINT64) ;;  (* 406 *)
  t117 <=~ kquiet (iadd p t116 9) ;;
  t118 <=~ krd whole_matrix (as_usize p t117) ;;
  t119 <=~ kquiet (usub p n_cols _i) ;;
  t120 <=~ kquiet (usub p t119 1) ;;
  t121 <=~ kquiet (imul p (as_i64 t120) BLOCKLENINT64) ;;
  t122 <=~ kquiet (iadd p t121 row_len_int64) ;;
  t123 <=~ kquiet (iadd p t122 9) ;;
  whole_matrix <=~ kwr whole_matrix (as_usize p t123) (Z.lxor t118 (aget state 9)) ;;
  t125 <=~ kquiet (imul p (as_i64 _i) BLOCKLENINT64) ;;  (* 408 *)
  t126 <=~ kquiet (iadd p t125 10) ;;
  t127 <=~ krd whole_matrix (as_usize p t126) ;;
  t128 <=~ kquiet (usub p n_cols _i) ;;
  t129 <=~ kquiet (usub p t128 1) ;;
  t130 <=~ kquiet (imul p (as_i64 t129) BLOCKLENINT64) ;;
  t131 <=~ kquiet (iadd p t130 row_len_int64) ;;
  t132 <=~ kquiet (iadd p t131 10) ;;
  whole_matrix <=~ kwr whole_matrix (as_usize p t132) (Z.lxor t127 (aget state 10)) ;;
  t134 <=~ kquiet (imul p (as_i64 _i) BLOCKLENINT64) ;;  (* 410 *)
  t135 <=~ kquiet (iadd p t134 11) ;;
  t136 <=~ krd whole_matrix (as_usize p t135) ;;
  t137 <=~ kquiet (usub p n_cols _i) ;;
  t138 <=~ kquiet (usub p t137 1) ;;
  t139 <=~ kquiet (imul p (as_i64 t138) BLOCKLENINT64) ;;
  t140 <=~ kquiet (iadd p t139 row_len_int64) ;;
  t141 <=~ kquiet (iadd p t140 11) ;;
  whole_matrix <=~ kwr whole_matrix (as_usize p t141) (Z.lxor t136 (aget state 11)) ;;
  kret (whole_matrix, state).

(** As [lyra2_body7], with the log. lyra2.rs:418-511: body of the [for] loop over [_i]. *)
Definition lyra2_body7_log (p : platform) (n_cols : Z) (row : Z) (prev : Z) (rowa : Z) (row_len_int64 : Z) (_i : Z) (s : list Z * list Z) : kept (list Z * list Z) :=
  let '(whole_matrix, state) := s in
  t1 <=~ kquiet (imul p (as_i64 _i) BLOCKLENINT64) ;;  (* 420 *)
  t2 <=~ kquiet (imul p prev row_len_int64) ;;
  t3 <=~ kquiet (iadd p t1 t2) ;;
  t4 <=~ krd whole_matrix (as_usize p t3) ;;
  t5 <=~ kquiet (imul p (as_i64 _i) BLOCKLENINT64) ;;
  t6 <=~ kquiet (imul p rowa row_len_int64) ;;
  t7 <=~ kquiet (iadd p t5 t6) ;;
  t8 <=~ krd whole_matrix (as_usize p t7) ;;
  state <=~ kquiet (Ok (<[0%nat := (Z.lxor (aget state 0) (wadd 64 t4 t8))]> state)) ;;
  t9 <=~ kquiet (imul p (as_i64 _i) BLOCKLENINT64) ;;  (* 424 *)
  t10 <=~ kquiet (imul p prev row_len_int64) ;;
  t11 <=~ kquiet (iadd p t9 t10) ;;
  t12 <=~ kquiet (iadd p t11 1) ;;
  t13 <=~ krd whole_matrix (as_usize p t12) ;;
  t14 <=~ kquiet (imul p (as_i64 _i) BLOCKLENINT64) ;;
  t15 <=~ kquiet (imul p rowa row_len_int64) ;;
  t16 <=~ kquiet (iadd p t14 t15) ;;
  t17 <=~ kquiet (iadd p t16 1) ;;
  t18 <=~ krd whole_matrix (as_usize p t17) ;;
  state <=~ kquiet (Ok (<[1%nat := (Z.lxor (aget state 1) (wadd 64 t13 t18))]> state)) ;;
  t19 <=~ kquiet (imul p (as_i64 _i) BLOCKLENINT64) ;;  (* 428 *)
  t20 <=~ kquiet (imul p prev row_len_int64) ;;
  t21 <=~ kquiet (iadd p t19 t20) ;;
  t22 <=~ kquiet (iadd p t21 2) ;;
  t23 <=~ krd whole_matrix (as_usize p t22) ;;
  t24 <=~ kquiet (imul p (as_i64 _i) BLOCKLENINT64) ;;
  t25 <=~ kquiet (imul p rowa row_len_int64) ;;
  t26 <=~ kquiet (iadd p t24 t25) ;;
  t27 <=~ kquiet (iadd p t26 2) ;;
  t28 <=~ krd whole_matrix (as_usize p t27) ;;
  state <=~ kquiet (Ok (<[2%nat := (Z.lxor (aget state 2) (wadd 64 t23 t28))]> state)) ;;
  t29 <=~ kquiet (imul p (as_i64 _i) BLOCKLENINT64) ;;  (* 432 *)
  t30 <=~ kquiet (imul p prev row_len_int64) ;;
  t31 <=~ kquiet (iadd p t29 t30) ;;
  t32 <=~ kquiet (iadd p t31 3) ;;
  t33 <=~ krd whole_matrix (as_usize p t32) ;;
  t34 <=~ kquiet (imul p (as_i64 _i) BLOCKLENINT64) ;;
  t35 <=~ kquiet (imul p rowa row_len_int64) ;;
  t36 <=~ kquiet (iadd p t34 t35) ;;
  t37 <=~ kquiet (iadd p t36 3) ;;
  t38 <=~ krd whole_matrix (as_usize p t37) ;;
  state <=~ kquiet (Ok (<[3%nat := (Z.lxor (aget state 3) (wadd 64 t33 t38))]> state)) ;;
  t39 <=~ kquiet (imul p (as_i64 _i) BLOCKLENINT64) ;;  (* 436 *)
  t40 <=~ kquiet (imul p prev row_len_int64) ;;
  t41 <=~ kquiet (iadd p t39 t40) ;;
  t42 <=~ kquiet (iadd p t41 4) ;;
  t43 <=~ krd whole_matrix (as_usize p t42) ;;
  t44 <=~ kquiet (imul p (as_i64 _i) BLOCKLENINT64) ;;
  t45 <=~ kquiet (imul p rowa row_len_int64) ;;
  t46 <=~ kquiet (iadd p t44 t45) ;;
  t47 <=~ kquiet (iadd p t46 4) ;;
  t48 <=~ krd whole_matrix (as_usize p t47) ;;
  state <=~ kquiet (Ok (<[4%nat := (Z.lxor (aget state 4) (wadd 64 t43 t48))]> state)) ;;
  t49 <=~ kquiet (imul p (as_i64 _i) BLOCKLENINT64) ;;  (* 440 *)
  t50 <=~ kquiet (imul p prev row_len_int64) ;;
  t51 <=~ kquiet (iadd p t49 t50) ;;
  t52 <=~ kquiet (iadd p t51 5) ;;
  t53 <=~ krd whole_matrix (as_usize p t52) ;;
  t54 <=~ kquiet (imul p (as_i64 _i) BLOCKLENINT64) ;;
  t55 <=~ kquiet (imul p rowa row_len_int64) ;;
  t56 <=~ kquiet (iadd p t54 t55) ;;
  t57 <=~ kquiet (iadd p t56 5) ;;
  t58 <=~ krd whole_matrix (as_usize p t57) ;;
  state <=~ kquiet (Ok (<[5%nat := (Z.lxor (aget state 5) (wadd 64 t53 t58))]> state)) ;;
  t59 <=~ kquiet (imul p (as_i64 _i) BLOCKLENINT64) ;;  (* 444 *)
  t60 <=~ kquiet (imul p prev row_len_int64) ;;
  t61 <=~ kquiet (iadd p t59 t60) ;;
  t62 <=~ kquiet (iadd p t61 6) ;;
  t63 <=~ krd whole_matrix (as_usize p t62) ;;
  t64 <=~ kquiet (imul p (as_i64 _i) BLOCKLENINT64) ;;
  t65 <=~ kquiet (imul p rowa row_len_int64) ;;
  t66 <=~ kquiet (iadd p t64 t65) ;;
  t67 <=~ kquiet (iadd p t66 6) ;;
  t68 <=~ krd whole_matrix (as_usize p t67) ;;
  state <=~ kquiet (Ok (<[6%nat := (Z.lxor (aget state 6) (wadd 64 t63 t68))]> state)) ;;
  t69 <=~ kquiet (imul p (as_i64 _i) BLOCKLENINT64) ;;  (* 448 *)
  t70 <=~ kquiet (imul p prev row_len_int64) ;;
  t71 <=~ kquiet (iadd p t69 t70) ;;
  t72 <=~ kquiet (iadd p t71 7) ;;
  t73 <=~ krd whole_matrix (as_usize p t72) ;;
  t74 <=~ kquiet (imul p (as_i64 _i) BLOCKLENINT64) ;;
  t75 <=~ kquiet (imul p rowa row_len_int64) ;;
  t76 <=~ kquiet (iadd p t74 t75) ;;
  t77 <=~ kquiet (iadd p t76 7) ;;
  t78 <=~ krd whole_matrix (as_usize p t77) ;;
  state <=~ kquiet (Ok (<[7%nat := (Z.lxor (aget state 7) (wadd 64 t73 t78))]> state)) ;;
  t79 <=~ kquiet (imul p (as_i64 _i) BLOCKLENINT64) ;;  (* 452 *)
  t80 <=~ kquiet (imul p prev row_len_int64) ;;
  t81 <=~ kquiet (iadd p t79 t80) ;;
  t82 <=~ kquiet (iadd p t81 8) ;;
  t83 <=~ krd whole_matrix (as_usize p t82) ;;
  t84 <=~ kquiet (imul p (as_i64 _i) BLOCKLENINT64) ;;
  t85 <=~ kquiet (imul p rowa row_len_int64) ;;
  t86 <=~ kquiet (iadd p t84 t85) ;;
  t87 <=~ kquiet (iadd p t86 8) ;;
  t88 <=~ krd whole_matrix (as_usize p t87) ;;
  state <=~ kquiet (Ok (<[8%nat := (Z.lxor (aget state 8) (wadd 64 t83 t88))]> state)) ;;
  t89 <=~ kquiet (imul p (as_i64 _i) BLOCKLENINT64) ;;  (* 456 *)
  t90 <=~ kquiet (imul p prev row_len_int64) ;;
  t91 <=~ kquiet (iadd p t89 t90) ;;
  t92 <=~ kquiet (iadd p t91 9) ;;
  t93 <=~ krd whole_matrix (as_usize p t92) ;;
  t94 <=~ kquiet (imul p (as_i64 _i) BLOCKLENINT64) ;;
  t95 <=~ kquiet (imul p rowa row_len_int64) ;;
  t96 <=~ kquiet (iadd p t94 t95) ;;
  t97 <=~ kquiet (iadd p t96 9) ;;
  t98 <=~ krd whole_matrix (as_usize p t97) ;;
  state <=~ kquiet (Ok (<[9%nat := (Z.lxor (aget state 9) (wadd 64 t93 t98))]> state)) ;;
  t99 <=~ kquiet (imul p (as_i64 _i) BLOCKLENINT64) ;;  (* 460 *)
  t100 <=~ kquiet (imul p prev row_len_int64) ;;
  t101 <=~ kquiet (iadd p t99 t100) ;;
  t102 <=~ kquiet (iadd p t101 10) ;;
  t103 <=~ krd whole_matrix (as_usize p t102) ;;
  t104 <=~ kquiet (imul p (as_i64 _i) BLOCKLENINT64) ;;
  t105 <=~ kquiet (imul p rowa row_len_int64) ;;
  t106 <=~ kquiet (iadd p t104 t105) ;;
  t107 <=~ kquiet (iadd p t106 10) ;;
  t108 <=~ krd whole_matrix (as_usize p t107) ;;
  state <=~ kquiet (Ok (<[10%nat := (Z.lxor (aget state 10) (wadd 64 t103 t108))]> state)) ;;
  t109 <=~ kquiet (imul p (as_i64 _i) BLOCKLENINT64) ;;  (* 464 *)
  t110 <=~ kquiet (imul p prev row_len_int64) ;;
  t111 <=~ kquiet (iadd p t109 t110) ;;
  t112 <=~ kquiet (iadd p t111 11) ;;
  t113 <=~ krd whole_matrix (as_usize p t112) ;;
  t114 <=~ kquiet (imul p (as_i64 _i) BLOCKLENINT64) ;;
  t115 <=~ kquiet (imul p rowa row_len_int64) ;;
  t116 <=~ kquiet (iadd p t114 t115) ;;
  t117 <=~ kquiet (iadd p t116 11) ;;
  t118 <=~ krd whole_matrix (as_usize p t117) ;;
  state <=~ kquiet (Ok (<[11%nat := (Z.lxor (aget state 11) (wadd 64 t113 t118))]> state)) ;;
  state <=~ reduced_blake2b_lyra_log p state ;;  (* 470 *)
  t120 <=~ kquiet (imul p (as_i64 _i) BLOCKLENINT64) ;;  (* 473 *)
  t121 <=~ kquiet (imul p prev row_len_int64) ;;
  t122 <=~ kquiet (iadd p t120 t121) ;;
  t123 <=~ krd whole_matrix (as_usize p t122) ;;
  t124 <=~ kquiet (usub p n_cols _i) ;;
  t125 <=~ kquiet (usub p t124 1) ;;
  t126 <=~ kquiet (imul p (as_i64 t125) BLOCKLENINT64) ;;
  t127 <=~ kquiet (imul p row row_len_int64) ;;
  t128 <=~ kquiet (iadd p t126 t127) ;;
  whole_matrix <=~ kwr whole_matrix (as_usize p t128) (Z.lxor t123 (aget state 0)) ;;
  t130 <=~ kquiet (imul p (as_i64 _i) BLOCKLENINT64) ;;  (* 475 *)
  t131 <=~ kquiet (imul p prev row_len_int64) ;;
  t132 <=~ kquiet (iadd p t130 t131) ;;
  t133 <=~ kquiet (iadd p t132 1) ;;
  t134 <=~ krd whole_matrix (as_usize p t133) ;;
  t135 <=~ kquiet (usub p n_cols _i) ;;
  t136 <=~ kquiet (usub p t135 1) ;;
  t137 <=~ kquiet (imul p (as_i64 t136) BLOCKLENINT64) ;;
  t138 <=~ kquiet (imul p row row_len_int64) ;;
  t139 <=~ kquiet (iadd p t137 t138) ;;
  t140 <=~ kquiet (iadd p t139 1) ;;
  whole_matrix <=~ kwr whole_matrix (as_usize p t140) (Z.lxor t134 (aget state 1)) ;;
  t142 <=~ kquiet (imul p (as_i64 _i) BLOCKLENINT64) ;;  (* 477 *)
  t143 <=~ kquiet (imul p prev row_len_int64) ;;
  t144 <=~ kquiet (iadd p t142 t143) ;;
  t145 <=~ kquiet (iadd p t144 2) ;;
  t146 <=~ krd whole_matrix (as_usize p t145) ;;
  t147 <=~ kquiet (usub p n_cols _i) ;;
  t148 <=~ kquiet (usub p t147 1) ;;
  t149 <=~ kquiet (imul p (as_i64 t148) BLOCKLENINT64) ;;
  t150 <=~ kquiet (imul p row row_len_int64) ;;
  t151 <=~ kquiet (iadd p t149 t150) ;;
  t152 <=~ kquiet (iadd p t151 2) ;;
  whole_matrix <=~ kwr whole_matrix (as_usize p t152) (Z.lxor t146 (aget state 2)) ;;
  t154 <=~ kquiet (imul p (as_i64 _i) BLOCKLENINT64) ;;  (* 479 *)
  t155 <=~ kquiet (imul p prev row_len_int64) ;;
  t156 <=~ kquiet (iadd p t154 t155) ;;
  t157 <=~ kquiet (iadd p t156 3) ;;
  t158 <=~ krd whole_matrix (as_usize p t157) ;;
  t159 <=~ kquiet (usub p n_cols _i) ;;
  t160 <=~ kquiet (usub p t159 1) ;;
  t161 <=~ kquiet (imul p (as_i64 t160) BLOCKLENINT64) ;;
  t162 <=~ kquiet (imul p row row_len_int64) ;;
  t163 <=~ kquiet (iadd p t161 t162) ;;
  t164 <=~ kquiet (iadd p t163 3) ;;
  whole_matrix <=~ kwr whole_matrix (as_usize p t164) (Z.lxor t158 (aget state 3)) ;;
  t166 <=~ kquiet (imul p (as_i64 _i) BLOCKLENINT64) ;;  (* 481 *)
  t167 <=~ kquiet (imul p prev row_len_int64) ;;
  t168 <=~ kquiet (iadd p t166 t167) ;;
  t169 <=~ kquiet (iadd p t168 4) ;;
  t170 <=~ krd whole_matrix (as_usize p t169) ;;
  t171 <=~ kquiet (usub p n_cols _i) ;;
  t172 <=~ kquiet (usub p t171 1) ;;
  t173 <=~ kquiet (imul p (as_i64 t172) BLOCKLENINT64) ;;
  t174 <=~ kquiet (imul p row row_len_int64) ;;
  t175 <=~ kquiet (iadd p t173 t174) ;;
  t176 <=~ kquiet (iadd p t175 4) ;;
  whole_matrix <=~ kwr whole_matrix (as_usize p t176) (Z.lxor t170 (aget state 4)) ;;
  t178 <=~ kquiet (imul p (as_i64 _i) BLOCKLENINT64) ;;  (* 483 *)
  t179 <=~ kquiet (imul p prev row_len_int64) ;;
  t180 <=~ kquiet (iadd p t178 t179) ;;
  t181 <=~ kquiet (iadd p t180 5) ;;
  t182 <=~ krd whole_matrix (as_usize p t181) ;;
  t183 <=~ kquiet (usub p n_cols _i) ;;
  t184 <=~ kquiet (usub p t183 1) ;;
  t185 <=~ kquiet (imul p (as_i64 t184) BLOCKLENINT64) ;;
  t186 <=~ kquiet (imul p row row_len_int64) ;;
  t187 <=~ kquiet (iadd p t185 t186) ;;
  t188 <=~ kquiet (iadd p t187 5) ;;
  whole_matrix <=~ kwr whole_matrix (as_usize p t188) (Z.lxor t182 (aget state 5)) ;;
  t190 <=~ kquiet (imul p (as_i64 _i) BLOCKLENINT64) ;;  (* 485 *)
  t191 <=~ kquiet (imul p prev row_len_int64) ;;
  t192 <=~ kquiet (iadd p t190 t191) ;;
  t193 <=~ kquiet (iadd p t192 6) ;;
  t194 <=~ krd whole_matrix (as_usize p t193) ;;
  t195 <=~ kquiet (usub p n_cols _i) ;;
  t196 <=~ kquiet (usub p t195 1) ;;
  t197 <=~ kquiet (imul p (as_i64 t196) BLOCKLENINT64) ;;
  t198 <=~ kquiet (imul p row row_len_int64) ;;
  t199 <=~ kquiet (iadd p t197 t198) ;;
  t200 <=~ kquiet (iadd p t199 6) ;;
  whole_matrix <=~ kwr whole_matrix (as_usize p t200) (Z.lxor t194 (aget state 6)) ;;
  t202 <=~ kquiet (imul p (as_i64 _i) BLOCKLENINT64) ;;  (* 487 *)
  t203 <=~ kquiet (imul p prev row_len_int64) ;;
  t204 <=~ kquiet (iadd p t202 t203) ;;
  t205 <=~ kquiet (iadd p t204 7) ;;
  t206 <=~ krd whole_matrix (as_usize p t205) ;;
  t207 <=~ kquiet (usub p n_cols _i) ;;
  t208 <=~ kquiet (usub p t207 1) ;;
  t209 <=~ kquiet (imul p (as_i64 t208) BLOCKLENINT64) ;;
  t210 <=~ kquiet (imul p row row_len_int64) ;;
  t211 <=~ kquiet (iadd p t209 t210) ;;
  t212 <=~ kquiet (iadd p t211 7) ;;
  whole_matrix <=~ kwr whole_matrix (as_usize p t212) (Z.lxor t206 (aget state 7)) ;;
  t214 <=~ kquiet (imul p (as_i64 _i) BLOCKLENINT64) ;;  (* 489 *)
  t215 <=~ kquiet (imul p prev row_len_int64) ;;
  t216 <=~ kquiet (iadd p t214 t215) ;;
  t217 <=~ kquiet (iadd p t216 8) ;;
  t218 <=~ krd whole_matrix (as_usize p t217) ;;
  t219 <=~ kquiet (usub p n_cols _i) ;;
  t220 <=~ kquiet (usub p t219 1) ;;
  t221 <=~ kquiet (imul p (as_i64 t220) BLOCKLENINT64) ;;
  t222 <=~ kquiet (imul p row row_len_int64) ;;
  t223 <=~ kquiet (iadd p t221 t222) ;;
  t224 <=~ kquiet (iadd p t223 8) ;;
  whole_matrix <=~ kwr whole_matrix (as_usize p t224) (Z.lxor t218 (aget state 8)) ;;
  t226 <=~ kquiet (imul p (as_i64 _i) BLOCKLENINT64) ;;  (* 491 *)
  t227 <=~ kquiet (imul p prev row_len_int64) ;;
  t228 <=~ kquiet (iadd p t226 t227) ;;
  t229 <=~ kquiet (iadd p t228 9) ;;
  t230 <=~ krd whole_matrix (as_usize p t229) ;;
  t231 <=~ kquiet (usub p n_cols _i) ;;
  t232 <=~ kquiet (usub p t231 1) ;;
  t233 <=~ kquiet (imul p (as_i64 t232) BLOCKLENINT64) ;;
  t234 <=~ kquiet (imul p row row_len_int64) ;;
  t235 <=~ kquiet (iadd p t233 t234) ;;
  t236 <=~ kquiet (iadd p t235 9) ;;
  whole_matrix <=~ kwr whole_matrix (as_usize p t236) (Z.lxor t230 (aget state 9)) ;;
  t238 <=~ kquiet (imul p (as_i64 _i) BLOCKLENINT64) ;;  (* 493 *)
  t239 <=~ kquiet (imul p prev row_len_int64) ;;
  t240 <=~ kquiet (iadd p t238 t239) ;;
  t241 <=~ kquiet (iadd p t240 10) ;;
  t242 <=~ krd whole_matrix (as_usize p t241) ;;
  t243 <=~ kquiet (usub p n_cols _i) ;;
  t244 <=~ kquiet (usub p t243 1) ;;
  t245 <=~ kquiet (imul p (as_i64 t244) BLOCKLENINT64) ;;
  t246 <=~ kquiet (imul p row row_len_int64) ;;
  t247 <=~ kquiet (iadd p t245 t246) ;;
  t248 <=~ kquiet (iadd p t247 10) ;;
  whole_matrix <=~ kwr whole_matrix (as_usize p t248) (Z.lxor t242 (aget state 10)) ;;
  t250 <=~ kquiet (imul p (as_i64 _i) BLOCKLENINT64) ;;  (* 495 *)
  t251 <=~ kquiet (imul p prev row_len_int64) ;;
  t252 <=~ kquiet (iadd p t250 t251) ;;
  t253 <=~ kquiet (iadd p t252 11) ;;
  t254 <=~ krd whole_matrix (as_usize p t253) ;;
  t255 <=~ kquiet (usub p n_cols _i) ;;
  t256 <=~ kquiet (usub p t255 1) ;;
  t257 <=~ kquiet (imul p (as_i64 t256) BLOCKLENINT64) ;;
  t258 <=~ kquiet (imul p row row_len_int64) ;;
  t259 <=~ kquiet (iadd p t257 t258) ;;
  t260 <=~ kquiet (iadd p t259 11) ;;
  whole_matrix <=~ kwr whole_matrix (as_usize p t260) (Z.lxor t254 (aget state 11)) ;;
  t262 <=~ kquiet (imul p (as_i64 _i) BLOCKLENINT64) ;;  (* 499 *)
  t263 <=~ kquiet (imul p rowa row_len_int64) ;;
  t264 <=~ kquiet (iadd p t262 t263) ;;
  t265 <=~ krd whole_matrix (as_usize p t264) ;;
  t266 <=~ kquiet (imul p (as_i64 _i) BLOCKLENINT64) ;;
  t267 <=~ kquiet (imul p rowa row_len_int64) ;;
  t268 <=~ kquiet (iadd p t266 t267) ;;
  whole_matrix <=~ kwr whole_matrix (as_usize p t268) (Z.lxor t265 (aget state 11)) ;;
  t270 <=~ kquiet (imul p (as_i64 _i) BLOCKLENINT64) ;;  (* 500 *)
  t271 <=~ kquiet (imul p rowa row_len_int64) ;;
  t272 <=~ kquiet (iadd p t270 t271) ;;
  t273 <=~ kquiet (iadd p t272 1) ;;
  t274 <=~ krd whole_matrix (as_usize p t273) ;;
  t275 <=~ kquiet (imul p (as_i64 _i) BLOCKLENINT64) ;;
  t276 <=~ kquiet (imul p rowa row_len_int64) ;;
  t277 <=~ kquiet (iadd p t275 t276) ;;
  t278 <=~ kquiet (iadd p t277 1) ;;
  whole_matrix <=~ kwr whole_matrix (as_usize p t278) (Z.lxor t274 (aget state 0)) ;;
  t280 <=~ kquiet (imul p (as_i64 _i) BLOCKLENINT64) ;;  (* 501 *)
  t281 <=~ kquiet (imul p rowa row_len_int64) ;;
  t282 <=~ kquiet (iadd p t280 t281) ;;
  t283 <=~ kquiet (iadd p t282 2) ;;
  t284 <=~ krd whole_matrix (as_usize p t283) ;;
  t285 <=~ kquiet (imul p (as_i64 _i) BLOCKLENINT64) ;;
  t286 <=~ kquiet (imul p rowa row_len_int64) ;;
  t287 <=~ kquiet (iadd p t285 t286) ;;
  t288 <=~ kquiet (iadd p t287 2) ;;
  whole_matrix <=~ kwr whole_matrix (as_usize p t288) (Z.lxor t284 (aget state 1)) ;;
  t290 <=~ kquiet (imul p (as_i64 _i) BLOCKLENINT64) ;;  (* 502 *)
  t291 <=~ kquiet (imul p rowa row_len_int64) ;;
  t292 <=~ kquiet (iadd p t290 t291) ;;
  t293 <=~ kquiet (iadd p t292 3) ;;
  t294 <=~ krd whole_matrix (as_usize p t293) ;;
  t295 <=~ kquiet (imul p (as_i64 _i) BLOCKLENINT64) ;;
  t296 <=~ kquiet (imul p rowa row_len_int64) ;;
  t297 <=~ kquiet (iadd p t295 t296) ;;
  t298 <=~ kquiet (iadd p t297 3) ;;
  whole_matrix <=~ kwr whole_matrix (as_usize p t298) (Z.lxor t294 (aget state 2)) ;;
  t300 <=~ kquiet (imul p (as_i64 _i) BLOCKLENINT64) ;;  (* 503 *)
  t301 <=~ kquiet (imul p rowa row_len_int64) ;;
  t302 <=~ kquiet (iadd p t300 t301) ;;
  t303 <=~ kquiet (iadd p t302 4) ;;
  t304 <=~ krd whole_matrix (as_usize p t303) ;;
  t305 <=~ kquiet (imul p (as_i64 _i) BLOCKLENINT64) ;;
  t306 <=~ kquiet (imul p rowa row_len_int64) ;;
  t307 <=~ kquiet (iadd p t305 t306) ;;
  t308 <=~ kquiet (iadd p t307 4) ;;
  whole_matrix <=~ kwr whole_matrix (as_usize p t308) (Z.lxor t304 (aget state 3)) ;;
  t310 <=~ kquiet (imul p (as_i64 _i) BLOCKLENINT64) ;;  (* 504 *)
  t311 <=~ kquiet (imul p rowa row_len_int64) ;;
  t312 <=~ kquiet (iadd p t310 t311) ;;
  t313 <=~ kquiet (iadd p t312 5) ;;
  t314 <=~ krd whole_matrix (as_usize p t313) ;;
  t315 <=~ kquiet (imul p (as_i64 _i) BLOCKLENINT64) ;;
  t316 <=~ kquiet (imul p rowa row_len_int64) ;;
  t317 <=~ kquiet (iadd p t315 t316) ;;
  t318 <=~ kquiet (iadd p t317 5) ;;
  whole_matrix <=~ kwr whole_matrix (as_usize p t318) (Z.lxor t314 (aget state 4)) ;;
  t320 <=~ kquiet (imul p (as_i64 _i) BLOCKLENINT64) ;;  (* 505 *)
  t321 <=~ kquiet (imul p rowa row_len_int64) ;;
  t322 <=~ kquiet (iadd p t320 t321) ;;
  t323 <=~ kquiet (iadd p t322 6) ;;
  t324 <=~ krd whole_matrix (as_usize p t323) ;;
  t325 <=~ kquiet (imul p (as_i64 _i) BLOCKLENINT64) ;;
  t326 <=~ kquiet (imul p rowa row_len_int64) ;;
  t327 <=~ kquiet (iadd p t325 t326) ;;
  t328 <=~ kquiet (iadd p t327 6) ;;
  whole_matrix <=~ kwr whole_matrix (as_usize p t328) (Z.lxor t324 (aget state 5)) ;;
  t330 <=~ kquiet (imul p (as_i64 _i) BLOCKLENINT64) ;;  (* 506 *)
  t331 <=~ kquiet (imul p rowa row_len_int64) ;;
  t332 <=~ kquiet (iadd p t330 t331) ;;
  t333 <=~ kquiet (iadd p t332 7) ;;
  t334 <=~ krd whole_matrix (as_usize p t333) ;;
  t335 <=~ kquiet (imul p (as_i64 _i) BLOCKLENINT64) ;;
  t336 <=~ kquiet (imul p rowa row_len_int64) ;;
  t337 <=~ kquiet (iadd p t335 t336) ;;
  t338 <=~ kquiet (iadd p t337 7) ;;
  whole_matrix <=~ kwr whole_matrix (as_usize p t338) (Z.lxor t334 (aget state 6)) ;;
  t340 <=~ kquiet (imul p (as_i64 _i) BLOCKLENINT64) ;;  (* 507 *)
  t341 <=~ kquiet (imul p rowa row_len_int64) ;;
  t342 <=~ kquiet (iadd p t340 t341) ;;
  t343 <=~ kquiet (iadd p t342 8) ;;
  t344 <=~ krd whole_matrix (as_usize p t343) ;;
  t345 <=~ kquiet (imul p (as_i64 _i) BLOCKLENINT64) ;;
  t346 <=~ kquiet (imul p rowa row_len_int64) ;;
  t347 <=~ kquiet (iadd p t345 t346) ;;
  t348 <=~ kquiet (iadd p t347 8) ;;
  whole_matrix <=~ kwr whole_matrix (as_usize p t348) (Z.lxor t344 (aget state 7)) ;;
  t350 <=~ kquiet (imul p (as_i64 _i) BLOCKLENINT64) ;;  (* 508 *)
  t351 <=~ kquiet (imul p rowa row_len_int64) ;;
  t352 <=~ kquiet (iadd p t350 t351) ;;
  t353 <=~ kquiet (iadd p t352 9) ;;
  t354 <=~ krd whole_matrix (as_usize p t353) ;;
  t355 <=~ kquiet (imul p (as_i64 _i) BLOCKLENINT64) ;;
  t356 <=~ kquiet (imul p rowa row_len_int64) ;;
  t357 <=~ kquiet (iadd p t355 t356) ;;
  t358 <=~ kquiet (iadd p t357 9) ;;
  whole_matrix <=~ kwr whole_matrix (as_usize p t358) (Z.lxor t354 (aget state 8)) ;;
  t360 <=~ kquiet (imul p (as_i64 _i) BLOCKLENINT64) ;;  (* 509 *)
  t361 <=~ kquiet (imul p rowa row_len_int64) ;;
  t362 <=~ kquiet (iadd p t360 t361) ;;
  t363 <=~ kquiet (iadd p t362 10) ;;
  t364 <=~ krd whole_matrix (as_usize p t363) ;;
  t365 <=~ kquiet (imul p (as_i64 _i) BLOCKLENINT64) ;;
  t366 <=~ kquiet (imul p rowa row_len_int64) ;;
  t367 <=~ kquiet (iadd p t365 t366) ;;
  t368 <=~ kquiet (iadd p t367 10) ;;
  whole_matrix <=~ kwr whole_matrix (as_usize p t368) (Z.lxor t364 (aget state 9)) ;;
  t370 <=~ kquiet (imul p (as_i64 _i) BLOCKLENINT64) ;;  (* 510 *)
  t371 <=~ kquiet (imul p rowa row_len_int64) ;;
  t372 <=~ kquiet (iadd p t370 t371) ;;
  t373 <=~ kquiet (iadd p t372 11) ;;
  t374 <=~ krd whole_matrix (as_usize p t373) ;;
  t375 <=~ kquiet (imul p (as_i64 _i) BLOCKLENINT64) ;;
  t376 <=~ kquiet (imul p rowa row_len_int64) ;;
  t377 <=~ kquiet (iadd p t375 t376) ;;
  t378 <=~ kquiet (iadd p t377 11) ;;
  whole_matrix <=~ kwr whole_matrix (as_usize p t378) (Z.lxor t374 (aget state 10)) ;;
  kret (whole_matrix, state).

(** As [lyra2_body6], with the log. lyra2.rs:415-526: body of the [for] loop over [_x]. *)
Definition lyra2_body6_log (p : platform) (n_cols : Z) (row_len_int64 : Z) (_x : Z) (s : Z * Z * Z * Z * Z * Z * list Z * list Z) : kept (Z * Z * Z * Z * Z * Z * list Z * list Z) :=
  let '(row, prev, rowa, step, window, gap, whole_matrix, state) := s in
  '(whole_matrix, state) <=~ kfor 0 n_cols (lyra2_body7_log p n_cols row prev rowa row_len_int64) (whole_matrix, state) ;;  (* 418 *)
  t1 <=~ kquiet (iadd p rowa step) ;;  (* 514 *)
  t2 <=~ kquiet (isub p window 1) ;;
  rowa <=~ kquiet (Ok (Z.land t1 t2)) ;;
  prev <=~ kquiet (Ok row) ;;  (* 516 *)
  row <=~ kquiet (iadd p row 1) ;;  (* 518 *)
  '(step, window, gap) <=~ kquiet (if (rowa =? 0) then  (* 521 *)
    step <-- iadd p window gap ;;  (* 522 *)
    window <-- imul p window 2 ;;  (* 523 *)
    gap <-- isub p 0 gap ;;  (* 524 *)
    Ok (step, window, gap)
  else
    Ok (step, window, gap)) ;;
  kret (row, prev, rowa, step, window, gap, whole_matrix, state).

(** As [lyra2_body10], with the log. lyra2.rs:547-629: body of the [for] loop over [_i]. *)
Definition lyra2_body10_log (p : platform) (row : Z) (prev : Z) (rowa : Z) (row_len_int64 : Z) (_i : Z) (s : list Z * list Z) : kept (list Z * list Z) :=
  let '(whole_matrix, state) := s in
  t1 <=~ kquiet (imul p (as_i64 _i) BLOCKLENINT64) ;;  (* 548 *)
  t2 <=~ kquiet (imul p prev row_len_int64) ;;
  t3 <=~ kquiet (iadd p t1 t2) ;;
  t4 <=~ krd whole_matrix (as_usize p t3) ;;
  t5 <=~ kquiet (imul p (as_i64 _i) BLOCKLENINT64) ;;
  t6 <=~ kquiet (imul p rowa row_len_int64) ;;
  t7 <=~ kquiet (iadd p t5 t6) ;;
  t8 <=~ krd whole_matrix (as_usize p t7) ;;
  state <=~ kquiet (Ok (<[0%nat := (Z.lxor (aget state 0) (wadd 64 t4 t8))]> state)) ;;
  t9 <=~ kquiet (imul p (as_i64 _i) BLOCKLENINT64) ;;  (* 552 *)
  t10 <=~ kquiet (imul p prev row_len_int64) ;;
  t11 <=~ kquiet (iadd p t9 t10) ;;
  t12 <=~ kquiet (iadd p t11 1) ;;
  t13 <=~ krd whole_matrix (as_usize p t12) ;;
  t14 <=~ kquiet (imul p (as_i64 _i) BLOCKLENINT64) ;;
  t15 <=~ kquiet (imul p rowa row_len_int64) ;;
  t16 <=~ kquiet (iadd p t14 t15) ;;
  t17 <=~ kquiet (iadd p t16 1) ;;
  t18 <=~ krd whole_matrix (as_usize p t17) ;;
  state <=~ kquiet (Ok (<[1%nat := (Z.lxor (aget state 1) (wadd 64 t13 t18))]> state)) ;;
  t19 <=~ kquiet (imul p (as_i64 _i) BLOCKLENINT64) ;;  (* 556 *)
  t20 <=~ kquiet (imul p prev row_len_int64) ;;
  t21 <=~ kquiet (iadd p t19 t20) ;;
  t22 <=~ kquiet (iadd p t21 2) ;;
  t23 <=~ krd whole_matrix (as_usize p t22) ;;
  t24 <=~ kquiet (imul p (as_i64 _i) BLOCKLENINT64) ;;
  t25 <=~ kquiet (imul p rowa row_len_int64) ;;
  t26 <=~ kquiet (iadd p t24 t25) ;;
  t27 <=~ kquiet (iadd p t26 2) ;;
  t28 <=~ krd whole_matrix (as_usize p t27) ;;
  state <=~ kquiet (Ok (<[2%nat := (Z.lxor (aget state 2) (wadd 64 t23 t28))]> state)) ;;
  t29 <=~ kquiet (imul p (as_i64 _i) BLOCKLENINT64) ;;  (* 560 *)
  t30 <=~ kquiet (imul p prev row_len_int64) ;;
  t31 <=~ kquiet (iadd p t29 t30) ;;
  t32 <=~ kquiet (iadd p t31 3) ;;
  t33 <=~ krd whole_matrix (as_usize p t32) ;;
  t34 <=~ kquiet (imul p (as_i64 _i) BLOCKLENINT64) ;;
  t35 <=~ kquiet (imul p rowa row_len_int64) ;;
  t36 <=~ kquiet (iadd p t34 t35) ;;
  t37 <=~ kquiet (iadd p t36 3) ;;
  t38 <=~ krd whole_matrix (as_usize p t37) ;;
  state <=~ kquiet (Ok (<[3%nat := (Z.lxor (aget state 3) (wadd 64 t33 t38))]> state)) ;;
  t39 <=~ kquiet (imul p (as_i64 _i) BLOCKLENINT64) ;;  (* 564 *)
  t40 <=~ kquiet (imul p prev row_len_int64) ;;
  t41 <=~ kquiet (iadd p t39 t40) ;;
  t42 <=~ kquiet (iadd p t41 4) ;;
  t43 <=~ krd whole_matrix (as_usize p t42) ;;
  t44 <=~ kquiet (imul p (as_i64 _i) BLOCKLENINT64) ;;
  t45 <=~ kquiet (imul p rowa row_len_int64) ;;
  t46 <=~ kquiet (iadd p t44 t45) ;;
  t47 <=~ kquiet (iadd p t46 4) ;;
  t48 <=~ krd whole_matrix (as_usize p t47) ;;
  state <=~ kquiet (Ok (<[4%nat := (Z.lxor (aget state 4) (wadd 64 t43 t48))]> state)) ;;
  t49 <=~ kquiet (imul p (as_i64 _i) BLOCKLENINT64) ;;  (* 568 *)
  t50 <=~ kquiet (imul p prev row_len_int64) ;;
  t51 <=~ kquiet (iadd p t49 t50) ;;
  t52 <=~ kquiet (iadd p t51 5) ;;
  t53 <=~ krd whole_matrix (as_usize p t52) ;;
  t54 <=~ kquiet (imul p (as_i64 _i) BLOCKLENINT64) ;;
  t55 <=~ kquiet (imul p rowa row_len_int64) ;;
  t56 <=~ kquiet (iadd p t54 t55) ;;
  t57 <=~ kquiet (iadd p t56 5) ;;
  t58 <=~ krd whole_matrix (as_usize p t57) ;;
  state <=~ kquiet (Ok (<[5%nat := (Z.lxor (aget state 5) (wadd 64 t53 t58))]> state)) ;;
  t59 <=~ kquiet (imul p (as_i64 _i) BLOCKLENINT64) ;;  (* 572 *)
  t60 <=~ kquiet (imul p prev row_len_int64) ;;
  t61 <=~ kquiet (iadd p t59 t60) ;;
  t62 <=~ kquiet (iadd p t61 6) ;;
  t63 <=~ krd whole_matrix (as_usize p t62) ;;
  t64 <=~ kquiet (imul p (as_i64 _i) BLOCKLENINT64) ;;
  t65 <=~ kquiet (imul p rowa row_len_int64) ;;
  t66 <=~ kquiet (iadd p t64 t65) ;;
  t67 <=~ kquiet (iadd p t66 6) ;;
  t68 <=~ krd whole_matrix (as_usize p t67) ;;
  state <=~ kquiet (Ok (<[6%nat := (Z.lxor (aget state 6) (wadd 64 t63 t68))]> state)) ;;
  t69 <=~ kquiet (imul p (as_i64 _i) BLOCKLENINT64) ;;  (* 576 *)
  t70 <=~ kquiet (imul p prev row_len_int64) ;;
  t71 <=~ kquiet (iadd p t69 t70) ;;
  t72 <=~ kquiet (iadd p t71 7) ;;
  t73 <=~ krd whole_matrix (as_usize p t72) ;;
  t74 <=~ kquiet (imul p (as_i64 _i) BLOCKLENINT64) ;;
  t75 <=~ kquiet (imul p rowa row_len_int64) ;;
  t76 <=~ kquiet (iadd p t74 t75) ;;
  t77 <=~ kquiet (iadd p t76 7) ;;
  t78 <=~ krd whole_matrix (as_usize p t77) ;;
  state <=~ kquiet (Ok (<[7%nat := (Z.lxor (aget state 7) (wadd 64 t73 t78))]> state)) ;;
  t79 <=~ kquiet (imul p (as_i64 _i) BLOCKLENINT64) ;;  (* 580 *)
  t80 <=~ kquiet (imul p prev row_len_int64) ;;
  t81 <=~ kquiet (iadd p t79 t80) ;;
  t82 <=~ kquiet (iadd p t81 8) ;;
  t83 <=~ krd whole_matrix (as_usize p t82) ;;
  t84 <=~ kquiet (imul p (as_i64 _i) BLOCKLENINT64) ;;
  t85 <=~ kquiet (imul p rowa row_len_int64) ;;
  t86 <=~ kquiet (iadd p t84 t85) ;;
  t87 <=~ kquiet (iadd p t86 8) ;;
  t88 <=~ krd whole_matrix (as_usize p t87) ;;
  state <=~ kquiet (Ok (<[8%nat := (Z.lxor (aget state 8) (wadd 64 t83 t88))]> state)) ;;
  t89 <=~ kquiet (imul p (as_i64 _i) BLOCKLENINT64) ;;  (* 584 *)
  t90 <=~ kquiet (imul p prev row_len_int64) ;;
  t91 <=~ kquiet (iadd p t89 t90) ;;
  t92 <=~ kquiet (iadd p t91 9) ;;
  t93 <=~ krd whole_matrix (as_usize p t92) ;;
  t94 <=~ kquiet (imul p (as_i64 _i) BLOCKLENINT64) ;;
  t95 <=~ kquiet (imul p rowa row_len_int64) ;;
  t96 <=~ kquiet (iadd p t94 t95) ;;
  t97 <=~ kquiet (iadd p t96 9) ;;
  t98 <=~ krd whole_matrix (as_usize p t97) ;;
  state <=~ kquiet (Ok (<[9%nat := (Z.lxor (aget state 9) (wadd 64 t93 t98))]> state)) ;;
  t99 <=~ kquiet (imul p (as_i64 _i) BLOCKLENINT64) ;;  (* 588 *)
  t100 <=~ kquiet (imul p prev row_len_int64) ;;
  t101 <=~ kquiet (iadd p t99 t100) ;;
  t102 <=~ kquiet (iadd p t101 10) ;;
  t103 <=~ krd whole_matrix (as_usize p t102) ;;
  t104 <=~ kquiet (imul p (as_i64 _i) BLOCKLENINT64) ;;
  t105 <=~ kquiet (imul p rowa row_len_int64) ;;
  t106 <=~ kquiet (iadd p t104 t105) ;;
  t107 <=~ kquiet (iadd p t106 10) ;;
  t108 <=~ krd whole_matrix (as_usize p t107) ;;
  state <=~ kquiet (Ok (<[10%nat := (Z.lxor (aget state 10) (wadd 64 t103 t108))]> state)) ;;
  t109 <=~ kquiet (imul p (as_i64 _i) BLOCKLENINT64) ;;  (* 593 *)
  t110 <=~ kquiet (imul p prev row_len_int64) ;;
  t111 <=~ kquiet (iadd p t109 t110) ;;
  t112 <=~ kquiet (iadd p t111 11) ;;
  t113 <=~ krd whole_matrix (as_usize p t112) ;;
  t114 <=~ kquiet (imul p (as_i64 _i) BLOCKLENINT64) ;;
  t115 <=~ kquiet (imul p rowa row_len_int64) ;;
  t116 <=~ kquiet (iadd p t114 t115) ;;
  t117 <=~ kquiet (iadd p t116 11) ;;
  t118 <=~ krd whole_matrix (as_usize p t117) ;;
  state <=~ kquiet (Ok (<[11%nat := (Z.lxor (aget state 11) (wadd 64 t113 t118))]> state)) ;;
  state <=~ reduced_blake2b_lyra_log p state ;;  (* 600 *)
  t120 <=~ kquiet (imul p (as_i64 _i) BLOCKLENINT64) ;;  (* 603 *)
  t121 <=~ kquiet (imul p row row_len_int64) ;;
  t122 <=~ kquiet (iadd p t120 t121) ;;
  t123 <=~ krd whole_matrix (as_usize p t122) ;;
  t124 <=~ kquiet (imul p (as_i64 _i) BLOCKLENINT64) ;;
  t125 <=~ kquiet (imul p row row_len_int64) ;;
  t126 <=~ kquiet (iadd p t124 t125) ;;
  whole_matrix <=~ kwr whole_matrix (as_usize p t126) (Z.lxor t123 (aget state 0)) ;;
  t128 <=~ kquiet (imul p (as_i64 _i) BLOCKLENINT64) ;;  (* 604 *)
  t129 <=~ kquiet (imul p row row_len_int64) ;;
  t130 <=~ kquiet (iadd p t128 t129) ;;
  t131 <=~ kquiet (iadd p t130 1) ;;
  t132 <=~ krd whole_matrix (as_usize p t131) ;;
  t133 <=~ kquiet (imul p (as_i64 _i) BLOCKLENINT64) ;;
  t134 <=~ kquiet (imul p row row_len_int64) ;;
  t135 <=~ kquiet (iadd p t133 t134) ;;
  t136 <=~ kquiet (iadd p t135 1) ;;
  whole_matrix <=~ kwr whole_matrix (as_usize p t136) (Z.lxor t132 (aget state 1)) ;;
  t138 <=~ kquiet (imul p (as_i64 _i) BLOCKLENINT64) ;;  (* 605 *)
  t139 <=~ kquiet (imul p row row_len_int64) ;;
  t140 <=~ kquiet (iadd p t138 t139) ;;
  t141 <=~ kquiet (iadd p t140 2) ;;
  t142 <=~ krd whole_matrix (as_usize p t141) ;;
  t143 <=~ kquiet (imul p (as_i64 _i) BLOCKLENINT64) ;;
  t144 <=~ kquiet (imul p row row_len_int64) ;;
  t145 <=~ kquiet (iadd p t143 t144) ;;
  t146 <=~ kquiet (iadd p t145 2) ;;
  whole_matrix <=~ kwr whole_matrix (as_usize p t146) (Z.lxor t142 (aget state 2)) ;;
  t148 <=~ kquiet (imul p (as_i64 _i) BLOCKLENINT64) ;;  (* 606 *)
  t149 <=~ kquiet (imul p row row_len_int64) ;;
  t150 <=~ kquiet (iadd p t148 t149) ;;
  t151 <=~ kquiet (iadd p t150 3) ;;
  t152 <=~ krd whole_matrix (as_usize p t151) ;;
  t153 <=~ kquiet (imul p (as_i64 _i) BLOCKLENINT64) ;;
  t154 <=~ kquiet (imul p row row_len_int64) ;;
  t155 <=~ kquiet (iadd p t153 t154) ;;
  t156 <=~ kquiet (iadd p t155 3) ;;
  whole_matrix <=~ kwr whole_matrix (as_usize p t156) (Z.lxor t152 (aget state 3)) ;;
  t158 <=~ kquiet (imul p (as_i64 _i) BLOCKLENINT64) ;;  (* 607 *)
  t159 <=~ kquiet (imul p row row_len_int64) ;;
  t160 <=~ kquiet (iadd p t158 t159) ;;
  t161 <=~ kquiet (iadd p t160 4) ;;
  t162 <=~ krd whole_matrix (as_usize p t161) ;;
  t163 <=~ kquiet (imul p (as_i64 _i) BLOCKLENINT64) ;;
  t164 <=~ kquiet (imul p row row_len_int64) ;;
  t165 <=~ kquiet (iadd p t163 t164) ;;
  t166 <=~ kquiet (iadd p t165 4) ;;
  whole_matrix <=~ kwr whole_matrix (as_usize p t166) (Z.lxor t162 (aget state 4)) ;;
  t168 <=~ kquiet (imul p (as_i64 _i) BLOCKLENINT64) ;;  (* 608 *)
  t169 <=~ kquiet (imul p row row_len_int64) ;;
  t170 <=~ kquiet (iadd p t168 t169) ;;
  t171 <=~ kquiet (iadd p t170 5) ;;
  t172 <=~ krd whole_matrix (as_usize p t171) ;;
  t173 <=~ kquiet (imul p (as_i64 _i) BLOCKLENINT64) ;;
  t174 <=~ kquiet (imul p row row_len_int64) ;;
  t175 <=~ kquiet (iadd p t173 t174) ;;
  t176 <=~ kquiet (iadd p t175 5) ;;
  whole_matrix <=~ kwr whole_matrix (as_usize p t176) (Z.lxor t172 (aget state 5)) ;;
  t178 <=~ kquiet (imul p (as_i64 _i) BLOCKLENINT64) ;;  (* 609 *)
  t179 <=~ kquiet (imul p row row_len_int64) ;;
  t180 <=~ kquiet (iadd p t178 t179) ;;
  t181 <=~ kquiet (iadd p t180 6) ;;
  t182 <=~ krd whole_matrix (as_usize p t181) ;;
  t183 <=~ kquiet (imul p (as_i64 _i) BLOCKLENINT64) ;;
  t184 <=~ kquiet (imul p row row_len_int64) ;;
  t185 <=~ kquiet (iadd p t183 t184) ;;
  t186 <=~ kquiet (iadd p t185 6) ;;
  whole_matrix <=~ kwr whole_matrix (as_usize p t186) (Z.lxor t182 (aget state 6)) ;;
  t188 <=~ kquiet (imul p (as_i64 _i) BLOCKLENINT64) ;;  (* 610 *)
  t189 <=~ kquiet (imul p row row_len_int64) ;;
  t190 <=~ kquiet (iadd p t188 t189) ;;
  t191 <=~ kquiet (iadd p t190 7) ;;
  t192 <=~ krd whole_matrix (as_usize p t191) ;;
  t193 <=~ kquiet (imul p (as_i64 _i) BLOCKLENINT64) ;;
  t194 <=~ kquiet (imul p row row_len_int64) ;;
  t195 <=~ kquiet (iadd p t193 t194) ;;
  t196 <=~ kquiet (iadd p t195 7) ;;
  whole_matrix <=~ kwr whole_matrix (as_usize p t196) (Z.lxor t192 (aget state 7)) ;;
  t198 <=~ kquiet (imul p (as_i64 _i) BLOCKLENINT64) ;;  (* 611 *)
  t199 <=~ kquiet (imul p row row_len_int64) ;;
  t200 <=~ kquiet (iadd p t198 t199) ;;
  t201 <=~ kquiet (iadd p t200 8) ;;
  t202 <=~ krd whole_matrix (as_usize p t201) ;;
  t203 <=~ kquiet (imul p (as_i64 _i) BLOCKLENINT64) ;;
  t204 <=~ kquiet (imul p row row_len_int64) ;;
  t205 <=~ kquiet (iadd p t203 t204) ;;
  t206 <=~ kquiet (iadd p t205 8) ;;
  whole_matrix <=~ kwr whole_matrix (as_usize p t206) (Z.lxor t202 (aget state 8)) ;;
  t208 <=~ kquiet (imul p (as_i64 _i) BLOCKLENINT64) ;;  (* 612 *)
  t209 <=~ kquiet (imul p row row_len_int64) ;;
  t210 <=~ kquiet (iadd p t208 t209) ;;
  t211 <=~ kquiet (iadd p t210 9) ;;
  t212 <=~ krd whole_matrix (as_usize p t211) ;;
  t213 <=~ kquiet (imul p (as_i64 _i) BLOCKLENINT64) ;;
  t214 <=~ kquiet (imul p row row_len_int64) ;;
  t215 <=~ kquiet (iadd p t213 t214) ;;
  t216 <=~ kquiet (iadd p t215 9) ;;
  whole_matrix <=~ kwr whole_matrix (as_usize p t216) (Z.lxor t212 (aget state 9)) ;;
  t218 <=~ kquiet (imul p (as_i64 _i) BLOCKLENINT64) ;;  (* 613 *)
  t219 <=~ kquiet (imul p row row_len_int64) ;;
  t220 <=~ kquiet (iadd p t218 t219) ;;
  t221 <=~ kquiet (iadd p t220 10) ;;
  t222 <=~ krd whole_matrix (as_usize p t221) ;;
  t223 <=~ kquiet (imul p (as_i64 _i) BLOCKLENINT64) ;;
  t224 <=~ kquiet (imul p row row_len_int64) ;;
  t225 <=~ kquiet (iadd p t223 t224) ;;
  t226 <=~ kquiet (iadd p t225 10) ;;
  whole_matrix <=~ kwr whole_matrix (as_usize p t226) (Z.lxor t222 (aget state 10)) ;;
  t228 <=~ kquiet (imul p (as_i64 _i) BLOCKLENINT64) ;;  (* 614 *)
  t229 <=~ kquiet (imul p row row_len_int64) ;;
  t230 <=~ kquiet (iadd p t228 t229) ;;
  t231 <=~ kquiet (iadd p t230 11) ;;
  t232 <=~ krd whole_matrix (as_usize p t231) ;;
  t233 <=~ kquiet (imul p (as_i64 _i) BLOCKLENINT64) ;;
  t234 <=~ kquiet (imul p row row_len_int64) ;;
  t235 <=~ kquiet (iadd p t233 t234) ;;
  t236 <=~ kquiet (iadd p t235 11) ;;
  whole_matrix <=~ kwr whole_matrix (as_usize p t236) (Z.lxor t232 (aget state 11)) ;;
  t238 <=~ kquiet (imul p (as_i64 _i) BLOCKLENINT64) ;;  (* 617 *)
  t239 <=~ kquiet (imul p rowa row_len_int64) ;;
  t240 <=~ kquiet (iadd p t238 t239) ;;
  t241 <=~ krd whole_matrix (as_usize p t240) ;;
  t242 <=~ kquiet (imul p (as_i64 _i) BLOCKLENINT64) ;;
  t243 <=~ kquiet (imul p rowa row_len_int64) ;;
  t244 <=~ kquiet (iadd p t242 t243) ;;
  whole_matrix <=~ kwr whole_matrix (as_usize p t244) (Z.lxor t241 (aget state 11)) ;;
  t246 <=~ kquiet (imul p (as_i64 _i) BLOCKLENINT64) ;;  (* 618 *)
  t247 <=~ kquiet (imul p rowa row_len_int64) ;;
  t248 <=~ kquiet (iadd p t246 t247) ;;
  t249 <=~ kquiet (iadd p t248 1) ;;
  t250 <=~ krd whole_matrix (as_usize p t249) ;;
  t251 <=~ kquiet (imul p (as_i64 _i) BLOCKLENINT64) ;;
  t252 <=~ kquiet (imul p rowa row_len_int64) ;;
  t253 <=~ kquiet (iadd p t251 t252) ;;
  t254 <=~ kquiet (iadd p t253 1) ;;
  whole_matrix <=~ kwr whole_matrix (as_usize p t254) (Z.lxor t250 (aget state 0)) ;;
  t256 <=~ kquiet (imul p (as_i64 _i) BLOCKLENINT64) ;;  (* 619 *)
  t257 <=~ kquiet (imul p rowa row_len_int64) ;;
  t258 <=~ kquiet (iadd p t256 t257) ;;
  t259 <=~ kquiet (iadd p t258 2) ;;
  t260 <=~ krd whole_matrix (as_usize p t259) ;;
  t261 <=~ kquiet (imul p (as_i64 _i) BLOCKLENINT64) ;;
  t262 <=~ kquiet (imul p rowa row_len_int64) ;;
  t263 <=~ kquiet (iadd p t261 t262) ;;
  t264 <=~ kquiet (iadd p t263 2) ;;
  whole_matrix <=~ kwr whole_matrix (as_usize p t264) (Z.lxor t260 (aget state 1)) ;;
  t266 <=~ kquiet (imul p (as_i64 _i) BLOCKLENINT64) ;;  (* 620 *)
  t267 <=~ kquiet (imul p rowa row_len_int64) ;;
  t268 <=~ kquiet (iadd p t266 t267) ;;
  t269 <=~ kquiet (iadd p t268 3) ;;
  t270 <=~ krd whole_matrix (as_usize p t269) ;;
  t271 <=~ kquiet (imul p (as_i64 _i) BLOCKLENINT64) ;;
  t272 <=~ kquiet (imul p rowa row_len_int64) ;;
  t273 <=~ kquiet (iadd p t271 t272) ;;
  t274 <=~ kquiet (iadd p t273 3) ;;
  whole_matrix <=~ kwr whole_matrix (as_usize p t274) (Z.lxor t270 (aget state 2)) ;;
  t276 <=~ kquiet (imul p (as_i64 _i) BLOCKLENINT64) ;;  (* 621 *)
  t277 <=~ kquiet (imul p rowa row_len_int64) ;;
  t278 <=~ kquiet (iadd p t276 t277) ;;
  t279 <=~ kquiet (iadd p t278 4) ;;
  t280 <=~ krd whole_matrix (as_usize p t279) ;;
  t281 <=~ kquiet (imul p (as_i64 _i) BLOCKLENINT64) ;;
  t282 <=~ kquiet (imul p rowa row_len_int64) ;;
  t283 <=~ kquiet (iadd p t281 t282) ;;
  t284 <=~ kquiet (iadd p t283 4) ;;
  whole_matrix <=~ kwr whole_matrix (as_usize p t284) (Z.lxor t280 (aget state 3)) ;;
  t286 <=~ kquiet (imul p (as_i64 _i) BLOCKLENINT64) ;;  (* 622 *)
  t287 <=~ kquiet (imul p rowa row_len_int64) ;;
  t288 <=~ kquiet (iadd p t286 t287) ;;
  t289 <=~ kquiet (iadd p t288 5) ;;
  t290 <=~ krd whole_matrix (as_usize p t289) ;;
  t291 <=~ kquiet (imul p (as_i64 _i) BLOCKLENINT64) ;;
  t292 <=~ kquiet (imul p rowa row_len_int64) ;;
  t293 <=~ kquiet (iadd p t291 t292) ;;
  t294 <=~ kquiet (iadd p t293 5) ;;
  whole_matrix <=~ kwr whole_matrix (as_usize p t294) (Z.lxor t290 (aget state 4)) ;;
  t296 <=~ kquiet (imul p (as_i64 _i) BLOCKLENINT64) ;;  (* 623 *)
  t297 <=~ kquiet (imul p rowa row_len_int64) ;;
  t298 <=~ kquiet (iadd p t296 t297) ;;
  t299 <=~ kquiet (iadd p t298 6) ;;
  t300 <=~ krd whole_matrix (as_usize p t299) ;;
  t301 <=~ kquiet (imul p (as_i64 _i) BLOCKLENINT64) ;;
  t302 <=~ kquiet (imul p rowa row_len_int64) ;;
  t303 <=~ kquiet (iadd p t301 t302) ;;
  t304 <=~ kquiet (iadd p t303 6) ;;
  whole_matrix <=~ kwr whole_matrix (as_usize p t304) (Z.lxor t300 (aget state 5)) ;;
  t306 <=~ kquiet (imul p (as_i64 _i) BLOCKLENINT64) ;;  (* 624 *)
  t307 <=~ kquiet (imul p rowa row_len_int64) ;;
  t308 <=~ kquiet (iadd p t306 t307) ;;
  t309 <=~ kquiet (iadd p t308 7) ;;
  t310 <=~ krd whole_matrix (as_usize p t309) ;;
  t311 <=~ kquiet (imul p (as_i64 _i) BLOCKLENINT64) ;;
  t312 <=~ kquiet (imul p rowa row_len_int64) ;;
  t313 <=~ kquiet (iadd p t311 t312) ;;
  t314 <=~ kquiet (iadd p t313 7) ;;
  whole_matrix <=~ kwr whole_matrix (as_usize p t314) (Z.lxor t310 (aget state 6)) ;;
  t316 <=~ kquiet (imul p (as_i64 _i) BLOCKLENINT64) ;;  (* 625 *)
  t317 <=~ kquiet (imul p rowa row_len_int64) ;;
  t318 <=~ kquiet (iadd p t316 t317) ;;
  t319 <=~ kquiet (iadd p t318 8) ;;
  t320 <=~ krd whole_matrix (as_usize p t319) ;;
  t321 <=~ kquiet (imul p (as_i64 _i) BLOCKLENINT64) ;;
  t322 <=~ kquiet (imul p rowa row_len_int64) ;;
  t323 <=~ kquiet (iadd p t321 t322) ;;
  t324 <=~ kquiet (iadd p t323 8) ;;
  whole_matrix <=~ kwr whole_matrix (as_usize p t324) (Z.lxor t320 (aget state 7)) ;;
  t326 <=~ kquiet (imul p (as_i64 _i) BLOCKLENINT64) ;;  (* 626 *)
  t327 <=~ kquiet (imul p rowa row_len_int64) ;;
  t328 <=~ kquiet (iadd p t326 t327) ;;
  t329 <=~ kquiet (iadd p t328 9) ;;
  t330 <=~ krd whole_matrix (as_usize p t329) ;;
  t331 <=~ kquiet (imul p (as_i64 _i) BLOCKLENINT64) ;;
  t332 <=~ kquiet (imul p rowa row_len_int64) ;;
  t333 <=~ kquiet (iadd p t331 t332) ;;
  t334 <=~ kquiet (iadd p t333 9) ;;
  whole_matrix <=~ kwr whole_matrix (as_usize p t334) (Z.lxor t330 (aget state 8)) ;;
  t336 <=~ kquiet (imul p (as_i64 _i) BLOCKLENINT64) ;;  (* 627 *)
  t337 <=~ kquiet (imul p rowa row_len_int64) ;;
  t338 <=~ kquiet (iadd p t336 t337) ;;
  t339 <=~ kquiet (iadd p t338 10) ;;
  t340 <=~ krd whole_matrix (as_usize p t339) ;;
  t341 <=~ kquiet (imul p (as_i64 _i) BLOCKLENINT64) ;;
  t342 <=~ kquiet (imul p rowa row_len_int64) ;;
  t343 <=~ kquiet (iadd p t341 t342) ;;
  t344 <=~ kquiet (iadd p t343 10) ;;
  whole_matrix <=~ kwr whole_matrix (as_usize p t344) (Z.lxor t340 (aget state 9)) ;;
  t346 <=~ kquiet (imul p (as_i64 _i) BLOCKLENINT64) ;;  (* 628 *)
  t347 <=~ kquiet (imul p rowa row_len_int64) ;;
  t348 <=~ kquiet (iadd p t346 t347) ;;
  t349 <=~ kquiet (iadd p t348 11) ;;
  t350 <=~ krd whole_matrix (as_usize p t349) ;;
  t351 <=~ kquiet (imul p (as_i64 _i) BLOCKLENINT64) ;;
  t352 <=~ kquiet (imul p rowa row_len_int64) ;;
  t353 <=~ kquiet (iadd p t351 t352) ;;
  t354 <=~ kquiet (iadd p t353 11) ;;
  whole_matrix <=~ kwr whole_matrix (as_usize p t354) (Z.lxor t350 (aget state 10)) ;;
  kret (whole_matrix, state).

(** As [lyra2_body9], with the log. lyra2.rs:538-642: body of the [loop] loop. *)
Definition lyra2_body9_log (p : platform) (n_rows : Z) (n_cols : Z) (step : Z) (row_len_int64 : Z) (s : Z * Z * Z * list Z * list Z) : kept ((Z * Z * Z * list Z * list Z) + (Z * Z * Z * list Z * list Z)) :=
  let '(row, prev, rowa, whole_matrix, state) := s in
  t1 <=~ kquiet (usub p n_rows 1) ;;  (* 542 *)
  rowa <=~ kquiet (Ok (as_i64 (Z.land (aget state 0) t1))) ;;
  '(whole_matrix, state) <=~ kfor 0 n_cols (lyra2_body10_log p row prev rowa row_len_int64) (whole_matrix, state) ;;  (* 547 *)
  prev <=~ kquiet (Ok row) ;;  (* 632 *)
  t2 <=~ kquiet (iadd p row step) ;;  (* 637 *)
  t3 <=~ kquiet (isub p (as_i64 n_rows) 1) ;;
  row <=~ kquiet (Ok (Z.land t2 t3)) ;;
  if (row =? 0) then kret (inr (row, prev, rowa, whole_matrix, state)) else kret (inl (row, prev, rowa, whole_matrix, state)).  (* 639 *)

(** As [lyra2_body8], with the log. lyra2.rs:531-643: body of the [for] loop over [_tau]. *)
Definition lyra2_body8_log (p : platform) (n_rows : Z) (n_cols : Z) (row_len_int64 : Z) (_tau : Z) (s : Z * Z * Z * Z * list Z * list Z) : kept (Z * Z * Z * Z * list Z * list Z) :=
  let '(row, prev, rowa, step, whole_matrix, state) := s in
  step <=~ kquiet (isub p (Z.quot (as_i64 n_rows) 2) 1) ;;  (* 533 *)
  step <=~ kquiet (if ((_tau mod 2) =? 0) then  (* 534 *)
    step <-- Ok ((-1)) ;;  (* 535 *)
    Ok step
  else
    Ok step) ;;
  '(row, prev, rowa, whole_matrix, state) <=~ kloop (lyra2_body9_log p n_rows n_cols step row_len_int64) (row, prev, rowa, whole_matrix, state) ;;  (* 538 *)
  kret (row, prev, rowa, step, whole_matrix, state).

(** As [lyra2], with the log. lyra2.rs:245-653 [lyra2] *)
Definition lyra2_log (p : platform) (k : Z) (pwd : list Z) (salt : list Z) (time_cost : Z) (n_rows : Z) (n_cols : Z) : kept (list Z) :=
  _ <=~ kquiet (if (time_cost <? 1) then  (* 254 *)
    _ <-- Panic (A := unit) ;;  (* 254 *)
    Ok tt
  else
    Ok tt) ;;
  _ <=~ kquiet (if (n_rows <? 3) then  (* 255 *)
    _ <-- Panic (A := unit) ;;  (* 255 *)
    Ok tt
  else
    Ok tt) ;;
  row <=~ kquiet (Ok 2) ;;  (* 259 *)
  prev <=~ kquiet (Ok 1) ;;  (* 260 *)
  rowa <=~ kquiet (Ok 0) ;;  (* 261 *)
  _tau <=~ kquiet (Ok 1) ;;  (* 262 *)
  step <=~ kquiet (Ok 1) ;;  (* 263 *)
  window <=~ kquiet (Ok 2) ;;  (* 264 *)
  gap <=~ kquiet (Ok 1) ;;  (* 265 *)
  _i <=~ kquiet (Ok 0) ;;  (* 266 *)
  row_len_int64 <=~ kquiet (imul p BLOCKLENINT64 (as_i64 n_cols)) ;;  (* 272 *)
  _i <=~ kquiet (imul p (as_i64 n_rows) row_len_int64) ;;  (* 273 *)
  whole_matrix <=~ kquiet (vec_zeroed p 8 (as_usize p _i)) ;;  (* 274 *)
  whole_matrix <=~ kquiet (vec_resize p 8 whole_matrix (as_usize p _i) 0) ;;  (* 275 *)
  t5 <=~ kquiet (szadd p (vlen salt) (vlen pwd)) ;;  (* 284 *)
  t6 <=~ kquiet (szadd p t5 (6 * 8)) ;;
  n_blocks_input <=~ kquiet (iadd p (Z.quot (as_i64 t6) BLOCKLENBLAKE2SAFEBYTES) 1) ;;
  ptr_byte <=~ kquiet (Ok 0) ;;  (* 286 *)
  whole_matrix <=~ kfor 0 ((vlen pwd) / 8) (lyra2_body1_log p pwd ptr_byte) whole_matrix ;;  (* 289 *)
  ptr_byte <=~ kquiet (szadd p ptr_byte (as_usize p ((vlen pwd) / 8))) ;;  (* 295 *)
  whole_matrix <=~ kfor 0 ((vlen salt) / 8) (lyra2_body2_log p salt ptr_byte) whole_matrix ;;  (* 298 *)
  ptr_byte <=~ kquiet (szadd p ptr_byte (as_usize p ((vlen salt) / 8))) ;;  (* 304 *)
  whole_matrix <=~ kwr whole_matrix ptr_byte k ;;  (* 307 *)
  ptr_byte <=~ kquiet (szadd p ptr_byte 1) ;;  (* 308 *)
  whole_matrix <=~ kwr whole_matrix ptr_byte (vlen pwd) ;;  (* 309 *)
  ptr_byte <=~ kquiet (szadd p ptr_byte 1) ;;  (* 310 *)
  whole_matrix <=~ kwr whole_matrix ptr_byte (vlen salt) ;;  (* 311 *)
  ptr_byte <=~ kquiet (szadd p ptr_byte 1) ;;  (* 312 *)
  whole_matrix <=~ kwr whole_matrix ptr_byte time_cost ;;  (* 313 *)
  ptr_byte <=~ kquiet (szadd p ptr_byte 1) ;;  (* 314 *)
  whole_matrix <=~ kwr whole_matrix ptr_byte n_rows ;;  (* 315 *)
  ptr_byte <=~ kquiet (szadd p ptr_byte 1) ;;  (* 316 *)
  whole_matrix <=~ kwr whole_matrix ptr_byte n_cols ;;  (* 317 *)
  ptr_byte <=~ kquiet (szadd p ptr_byte 1) ;;  (* 318 *)
  whole_matrix <=~ kwr whole_matrix ptr_byte 128 ;;  (* 321 *)
  t23 <=~ kquiet (imul p n_blocks_input BLOCKLENBLAKE2SAFEBYTES) ;;  (* 323 *)
  t24 <=~ kquiet (isub p (Z.quot t23 8) 1) ;;
  ptr_byte <=~ kquiet (Ok (as_usize p t24)) ;;
  t25 <=~ krd whole_matrix ptr_byte ;;  (* 324 *)
  whole_matrix <=~ kwr whole_matrix ptr_byte (Z.lxor t25 0x100000000000000) ;;
  state <=~ kquiet (init_state p) ;;  (* 329 *)
  ptr_word <=~ kquiet (Ok 0) ;;  (* 334 *)
  '(state, ptr_word) <=~ kfor 0 n_blocks_input (lyra2_body3_log p whole_matrix) (state, ptr_word) ;;  (* 335 *)
  t28 <=~ kquiet (isub p (as_i64 n_cols) 1) ;;  (* 344 *)
  ptr <=~ kquiet (imul p t28 BLOCKLENINT64) ;;
  '(whole_matrix, state, ptr) <=~ kfor 0 n_cols (lyra2_body4_log p) (whole_matrix, state, ptr) ;;  (* 346 *)
  '(whole_matrix, state) <=~ kfor 0 n_cols (lyra2_body5_log p n_cols row_len_int64) (whole_matrix, state) ;;  (* 369 *)
  _x <=~ kquiet (Ok row) ;;  (* 414 *)
  '(row, prev, rowa, step, window, gap, whole_matrix, state) <=~ kfor _x (as_i64 n_rows) (lyra2_body6_log p n_cols row_len_int64) (row, prev, rowa, step, window, gap, whole_matrix, state) ;;  (* 415 *)
  row <=~ kquiet (Ok 0) ;;  (* 530 *)
  '(row, prev, rowa, step, whole_matrix, state) <=~ kfor 1 (time_cost + 1) (lyra2_body8_log p n_rows n_cols row_len_int64) (row, prev, rowa, step, whole_matrix, state) ;;  (* 531 *)
  t30 <=~ kquiet (imul p rowa row_len_int64) ;;  (* 648 *)
  _right <=~ kquiet (split_right whole_matrix (as_usize p t30)) ;;
  let _right_at := (as_usize p t30) in
  state <=~ absorb_block_log p state _right_at _right ;;  (* 649 *)
  squeeze_log p state k.  (* 651 *)

(** As [sum], with the log. lyra2.rs:669-672 [sum] *)
Definition sum_log (p : platform) (input : list Z) : kept (list Z) :=
  input2 <=~ kquiet (Ok input) ;;  (* 670 *)
  lyra2_log p 32 input input2 1 4 4.  (* 671 *)
