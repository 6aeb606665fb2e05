(** * /repo/src/lyra2.rs, translated by tools/rust2coq.py, with a log of what is observable *)
From Verif Require Import Machine SrcOps Seen SrcLyra2 SrcLyra2Log.
From Verif Require SrcUtils.

(** As [squeeze_body2], with the log of what is observable. lyra2.rs:154-156: body of the [for] loop over [_i]. *)
Definition squeeze_body2_seen (p : platform) (state : list Z) (_i : Z) (s : list Z) : seen (list Z) :=
  let tmp := s in
  t1 <=! sget "state" state (as_usize p _i) ;;  (* 155 *)
  tmp <=! ssize (vlen (to_le_bytes 8 t1)) (vec_extend p tmp (to_le_bytes 8 t1)) ;;
  sret (tmp).

(** As [squeeze_body1], with the log of what is observable. lyra2.rs:153-160: body of the [for] loop over [_j]. *)
Definition squeeze_body1_seen (p : platform) (output_size : Z) (_j : Z) (s : list Z * list Z * list Z) : seen (list Z * list Z * list Z) :=
  let '(state, tmp, out) := s in
  tmp <=! sfor 0 BLOCKLENINT64 (squeeze_body2_seen p state) tmp ;;  (* 154 *)
  t1 <=! sslice "tmp" tmp 0 (as_usize p output_size) ;;  (* 158 *)
  out <=! sslice_set "out" out (as_usize p output_size) t1 ;;
  state <=! slift (blake2b_lyra_log p state) ;;  (* 159 *)
  sret ((state, tmp, out)).

(** As [squeeze], with the log of what is observable. lyra2.rs:148-162 [squeeze] *)
Definition squeeze_seen (p : platform) (state : list Z) (output_size : Z) : seen (list Z) :=
  tmp <=! sret ([]) ;;  (* 149 *)
  out <=! ssize (as_usize p output_size) (vec_zeroed p 1 (as_usize p output_size)) ;;  (* 150 *)
  _j <=! sret (0) ;;  (* 151 *)
  jmax <=! squiet (iadd p (Z.quot (as_i64 output_size) BLOCKLENBYTES) 1) ;;  (* 152 *)
  '(state, tmp, out) <=! sfor 0 jmax (squeeze_body1_seen p output_size) (state, tmp, out) ;;  (* 153 *)
  sret (out).  (* 161 *)

(** As [lyra2_body1], with the log of what is observable. lyra2.rs:289-293: body of the [for] loop over [j]. *)
Definition lyra2_body1_seen (p : platform) (pwd : list Z) (ptr_byte : Z) (j : Z) (s : list Z) : seen (list Z) :=
  let whole_matrix := s in
  start <=! squiet (szmul p 8 j) ;;  (* 290 *)
  end_ <=! squiet (szadd p start 8) ;;  (* 291 *)
  t3 <=! sslice "pwd" pwd start end_ ;;  (* 292 *)
  t4 <=! squiet (SrcUtils.read_u64_le p t3) ;;
  t5 <=! squiet (szadd p ptr_byte j) ;;
  whole_matrix <=! slift (kwr whole_matrix t5 t4) ;;
  sret (whole_matrix).

(** As [lyra2_body2], with the log of what is observable. lyra2.rs:298-302: body of the [for] loop over [j]. *)
Definition lyra2_body2_seen (p : platform) (salt : list Z) (ptr_byte : Z) (j : Z) (s : list Z) : seen (list Z) :=
  let whole_matrix := s in
  start <=! squiet (szmul p 8 j) ;;  (* 299 *)
  end_ <=! squiet (szadd p start 8) ;;  (* 300 *)
  t3 <=! sslice "salt" salt start end_ ;;  (* 301 *)
  t4 <=! squiet (SrcUtils.read_u64_le p t3) ;;
  t5 <=! squiet (szadd p ptr_byte j) ;;
  whole_matrix <=! slift (kwr whole_matrix t5 t4) ;;
  sret (whole_matrix).

(** As [lyra2_body3], with the log of what is observable. lyra2.rs:335-339: body of the [for] loop over [_i]. *)
Definition lyra2_body3_seen (p : platform) (whole_matrix : list Z) (_i : Z) (s : list Z * Z) : seen (list Z * Z) :=
  let '(state, ptr_word) := s in
  _right <=! ssplit "whole_matrix" whole_matrix ptr_word ;;
  let _right_at := ptr_word in  (* 336 *)
  state <=! slift (absorb_block_blake2_safe_log p state _right_at _right) ;;  (* 337 *)
  ptr_word <=! squiet (szadd p ptr_word (as_usize p BLOCKLENBLAKE2SAFEINT64)) ;;  (* 338 *)
  sret ((state, ptr_word)).

(** As [lyra2_body6], with the log of what is observable. lyra2.rs:415-526: body of the [for] loop over [_x]. *)
Definition lyra2_body6_seen (p : platform) (n_cols : Z) (row_len_int64 : Z) (_x : Z) (s : Z * Z * Z * Z * Z * Z * list Z * list Z) : seen (Z * Z * Z * Z * Z * Z * list Z * list Z) :=
  let '(row, prev, rowa, step, window, gap, whole_matrix, state) := s in
  '(whole_matrix, state) <=! sfor 0 n_cols (fun _i_ _s_ => slift (lyra2_body7_log p n_cols row prev rowa row_len_int64 _i_ _s_)) (whole_matrix, state) ;;  (* 418 *)
  t1 <=! squiet (iadd p rowa step) ;;  (* 514 *)
  t2 <=! squiet (isub p window 1) ;;
  rowa <=! spick ((Z.land t1 t2)) ;;
  prev <=! sret (row) ;;  (* 516 *)
  row <=! squiet (iadd p row 1) ;;  (* 518 *)
  '(step, window, gap) <=! sif (rowa =? 0) (  (* 521 *)
    step <=! squiet (iadd p window gap) ;;  (* 522 *)
    window <=! squiet (imul p window 2) ;;  (* 523 *)
    gap <=! squiet (isub p 0 gap) ;;  (* 524 *)
    sret ((step, window, gap))
  ) (
    sret ((step, window, gap))) ;;
  sret ((row, prev, rowa, step, window, gap, whole_matrix, state)).

(** As [lyra2_body9], with the log of what is observable. lyra2.rs:538-642: body of the [loop] loop. *)
Definition lyra2_body9_seen (p : platform) (n_rows : Z) (n_cols : Z) (step : Z) (row_len_int64 : Z) (s : Z * Z * Z * list Z * list Z) : seen ((Z * Z * Z * list Z * list Z) + (Z * Z * Z * list Z * list Z)) :=
  let '(row, prev, rowa, whole_matrix, state) := s in
  t1 <=! squiet (usub p n_rows 1) ;;  (* 542 *)
  rowa <=! spick ((as_i64 (Z.land (aget state 0) t1))) ;;
  '(whole_matrix, state) <=! sfor 0 n_cols (fun _i_ _s_ => slift (lyra2_body10_log p row prev rowa row_len_int64 _i_ _s_)) (whole_matrix, state) ;;  (* 547 *)
  prev <=! sret (row) ;;  (* 632 *)
  t2 <=! squiet (iadd p row step) ;;  (* 637 *)
  t3 <=! squiet (isub p (as_i64 n_rows) 1) ;;
  row <=! sret ((Z.land t2 t3)) ;;
  sif (row =? 0) (sret (inr (row, prev, rowa, whole_matrix, state))) (sret (inl (row, prev, rowa, whole_matrix, state))).  (* 639 *)

(** As [lyra2_body8], with the log of what is observable. lyra2.rs:531-643: body of the [for] loop over [_tau]. *)
Definition lyra2_body8_seen (p : platform) (n_rows : Z) (n_cols : Z) (row_len_int64 : Z) (_tau : Z) (s : Z * Z * Z * Z * list Z * list Z) : seen (Z * Z * Z * Z * list Z * list Z) :=
  let '(row, prev, rowa, step, whole_matrix, state) := s in
  step <=! squiet (isub p (Z.quot (as_i64 n_rows) 2) 1) ;;  (* 533 *)
  step <=! sif ((_tau mod 2) =? 0) (  (* 534 *)
    step <=! sret (((-1))) ;;  (* 535 *)
    sret (step)
  ) (
    sret (step)) ;;
  '(row, prev, rowa, whole_matrix, state) <=! sloop (lyra2_body9_seen p n_rows n_cols step row_len_int64) (row, prev, rowa, whole_matrix, state) ;;  (* 538 *)
  sret ((row, prev, rowa, step, whole_matrix, state)).

(** As [lyra2], with the log of what is observable. lyra2.rs:245-653 [lyra2] *)
Definition lyra2_seen (p : platform) (k : Z) (pwd : list Z) (salt : list Z) (time_cost : Z) (n_rows : Z) (n_cols : Z) : seen (list Z) :=
  _ <=! sif (time_cost <? 1) (  (* 254 *)
    _ <=! squiet (Panic (A := unit)) ;;  (* 254 *)
    sret (tt)
  ) (
    sret (tt)) ;;
  _ <=! sif (n_rows <? 3) (  (* 255 *)
    _ <=! squiet (Panic (A := unit)) ;;  (* 255 *)
    sret (tt)
  ) (
    sret (tt)) ;;
  row <=! sret (2) ;;  (* 259 *)
  prev <=! sret (1) ;;  (* 260 *)
  rowa <=! spick (0) ;;  (* 261 *)
  _tau <=! sret (1) ;;  (* 262 *)
  step <=! sret (1) ;;  (* 263 *)
  window <=! sret (2) ;;  (* 264 *)
  gap <=! sret (1) ;;  (* 265 *)
  _i <=! sret (0) ;;  (* 266 *)
  row_len_int64 <=! squiet (imul p BLOCKLENINT64 (as_i64 n_cols)) ;;  (* 272 *)
  _i <=! squiet (imul p (as_i64 n_rows) row_len_int64) ;;  (* 273 *)
  whole_matrix <=! ssize (as_usize p _i) (vec_zeroed p 8 (as_usize p _i)) ;;  (* 274 *)
  whole_matrix <=! ssize (as_usize p _i) (vec_resize p 8 whole_matrix (as_usize p _i) 0) ;;  (* 275 *)
  t5 <=! squiet (szadd p (vlen salt) (vlen pwd)) ;;  (* 284 *)
  t6 <=! squiet (szadd p t5 (6 * 8)) ;;
  n_blocks_input <=! squiet (iadd p (Z.quot (as_i64 t6) BLOCKLENBLAKE2SAFEBYTES) 1) ;;
  ptr_byte <=! sret (0) ;;  (* 286 *)
  whole_matrix <=! sfor 0 ((vlen pwd) / 8) (lyra2_body1_seen p pwd ptr_byte) whole_matrix ;;  (* 289 *)
  ptr_byte <=! squiet (szadd p ptr_byte (as_usize p ((vlen pwd) / 8))) ;;  (* 295 *)
  whole_matrix <=! sfor 0 ((vlen salt) / 8) (lyra2_body2_seen p salt ptr_byte) whole_matrix ;;  (* 298 *)
  ptr_byte <=! squiet (szadd p ptr_byte (as_usize p ((vlen salt) / 8))) ;;  (* 304 *)
  whole_matrix <=! slift (kwr whole_matrix ptr_byte k) ;;  (* 307 *)
  ptr_byte <=! squiet (szadd p ptr_byte 1) ;;  (* 308 *)
  whole_matrix <=! slift (kwr whole_matrix ptr_byte (vlen pwd)) ;;  (* 309 *)
  ptr_byte <=! squiet (szadd p ptr_byte 1) ;;  (* 310 *)
  whole_matrix <=! slift (kwr whole_matrix ptr_byte (vlen salt)) ;;  (* 311 *)
  ptr_byte <=! squiet (szadd p ptr_byte 1) ;;  (* 312 *)
  whole_matrix <=! slift (kwr whole_matrix ptr_byte time_cost) ;;  (* 313 *)
  ptr_byte <=! squiet (szadd p ptr_byte 1) ;;  (* 314 *)
  whole_matrix <=! slift (kwr whole_matrix ptr_byte n_rows) ;;  (* 315 *)
  ptr_byte <=! squiet (szadd p ptr_byte 1) ;;  (* 316 *)
  whole_matrix <=! slift (kwr whole_matrix ptr_byte n_cols) ;;  (* 317 *)
  ptr_byte <=! squiet (szadd p ptr_byte 1) ;;  (* 318 *)
  whole_matrix <=! slift (kwr whole_matrix ptr_byte 128) ;;  (* 321 *)
  t23 <=! squiet (imul p n_blocks_input BLOCKLENBLAKE2SAFEBYTES) ;;  (* 323 *)
  t24 <=! squiet (isub p (Z.quot t23 8) 1) ;;
  ptr_byte <=! sret ((as_usize p t24)) ;;
  t25 <=! slift (krd whole_matrix ptr_byte) ;;  (* 324 *)
  whole_matrix <=! slift (kwr whole_matrix ptr_byte (Z.lxor t25 0x100000000000000)) ;;
  state <=! squiet (init_state p) ;;  (* 329 *)
  ptr_word <=! sret (0) ;;  (* 334 *)
  '(state, ptr_word) <=! sfor 0 n_blocks_input (lyra2_body3_seen p whole_matrix) (state, ptr_word) ;;  (* 335 *)
  t28 <=! squiet (isub p (as_i64 n_cols) 1) ;;  (* 344 *)
  ptr <=! squiet (imul p t28 BLOCKLENINT64) ;;
  '(whole_matrix, state, ptr) <=! sfor 0 n_cols (fun _i_ _s_ => slift (lyra2_body4_log p _i_ _s_)) (whole_matrix, state, ptr) ;;  (* 346 *)
  '(whole_matrix, state) <=! sfor 0 n_cols (fun _i_ _s_ => slift (lyra2_body5_log p n_cols row_len_int64 _i_ _s_)) (whole_matrix, state) ;;  (* 369 *)
  _x <=! sret (row) ;;  (* 414 *)
  '(row, prev, rowa, step, window, gap, whole_matrix, state) <=! sfor _x (as_i64 n_rows) (lyra2_body6_seen p n_cols row_len_int64) (row, prev, rowa, step, window, gap, whole_matrix, state) ;;  (* 415 *)
  row <=! sret (0) ;;  (* 530 *)
  '(row, prev, rowa, step, whole_matrix, state) <=! sfor 1 (time_cost + 1) (lyra2_body8_seen p n_rows n_cols row_len_int64) (row, prev, rowa, step, whole_matrix, state) ;;  (* 531 *)
  t30 <=! squiet (imul p rowa row_len_int64) ;;  (* 648 *)
  _right <=! ssplit "whole_matrix" whole_matrix (as_usize p t30) ;;
  let _right_at := (as_usize p t30) in
  state <=! slift (absorb_block_log p state _right_at _right) ;;  (* 649 *)
  squeeze_seen p state k.  (* 651 *)

(** As [sum], with the log of what is observable. lyra2.rs:669-672 [sum] *)
Definition sum_seen (p : platform) (input : list Z) : seen (list Z) :=
  input2 <=! sret (input) ;;  (* 670 *)
  lyra2_seen p 32 input input2 1 4 4.  (* 671 *)
