(** * /repo/src/lyra2mod/mod.rs, translated by tools/rust2coq.py, with a log of what is observable *)
From Verif Require Import Machine SrcOps Seen SrcLyra2mod SrcLyra2modLog.
From Verif Require SrcUtils.

(** As [squeeze_body2], with the log of what is observable. lyra2mod/mod.rs:151-153: body of the [for] loop over [_i]. *)
Definition squeeze_body2_seen (p : platform) (state : list Z) (_i : Z) (s : list Z) : seen (list Z) :=
  let tmp := s in
  t1 <=! sget "state" state (as_usize p _i) ;;  (* 152 *)
  tmp <=! ssize (vlen (to_le_bytes 8 t1)) (vec_extend p tmp (to_le_bytes 8 t1)) ;;
  sret (tmp).

(** As [squeeze_body1], with the log of what is observable. lyra2mod/mod.rs:150-157: body of the [for] loop over [_j]. *)
Definition squeeze_body1_seen (p : platform) (output_size : Z) (_j : Z) (s : list Z * list Z * list Z) : seen (list Z * list Z * list Z) :=
  let '(state, tmp, out) := s in
  tmp <=! sfor 0 BLOCKLENINT64 (squeeze_body2_seen p state) tmp ;;  (* 151 *)
  t1 <=! sslice "tmp" tmp 0 (as_usize p output_size) ;;  (* 155 *)
  out <=! sslice_set "out" out (as_usize p output_size) t1 ;;
  state <=! slift (blake2b_lyra_log p state) ;;  (* 156 *)
  sret ((state, tmp, out)).

(** As [squeeze], with the log of what is observable. lyra2mod/mod.rs:145-159 [squeeze] *)
Definition squeeze_seen (p : platform) (state : list Z) (output_size : Z) : seen (list Z) :=
  tmp <=! sret ([]) ;;  (* 146 *)
  out <=! ssize (as_usize p output_size) (vec_zeroed p 1 (as_usize p output_size)) ;;  (* 147 *)
  _j <=! sret (0) ;;  (* 148 *)
  jmax <=! squiet (iadd p (Z.quot (as_i64 output_size) BLOCKLENBYTES) 1) ;;  (* 149 *)
  '(state, tmp, out) <=! sfor 0 jmax (squeeze_body1_seen p output_size) (state, tmp, out) ;;  (* 150 *)
  sret (out).  (* 158 *)

(** As [lyra2mod_body1], with the log of what is observable. lyra2mod/mod.rs:266-270: body of the [for] loop over [j]. *)
Definition lyra2mod_body1_seen (p : platform) (pwd : list Z) (ptr_byte : Z) (j : Z) (s : list Z) : seen (list Z) :=
  let whole_matrix := s in
  start <=! squiet (szmul p 8 j) ;;  (* 267 *)
  end_ <=! squiet (szadd p start 8) ;;  (* 268 *)
  t3 <=! sslice "pwd" pwd start end_ ;;  (* 269 *)
  t4 <=! squiet (SrcUtils.read_u64_le p t3) ;;
  t5 <=! squiet (szadd p ptr_byte j) ;;
  whole_matrix <=! slift (kwr whole_matrix t5 t4) ;;
  sret (whole_matrix).

(** As [lyra2mod_body2], with the log of what is observable. lyra2mod/mod.rs:275-279: body of the [for] loop over [j]. *)
Definition lyra2mod_body2_seen (p : platform) (salt : list Z) (ptr_byte : Z) (j : Z) (s : list Z) : seen (list Z) :=
  let whole_matrix := s in
  start <=! squiet (szmul p 8 j) ;;  (* 276 *)
  end_ <=! squiet (szadd p start 8) ;;  (* 277 *)
  t3 <=! sslice "salt" salt start end_ ;;  (* 278 *)
  t4 <=! squiet (SrcUtils.read_u64_le p t3) ;;
  t5 <=! squiet (szadd p ptr_byte j) ;;
  whole_matrix <=! slift (kwr whole_matrix t5 t4) ;;
  sret (whole_matrix).

(** As [lyra2mod_body3], with the log of what is observable. lyra2mod/mod.rs:312-316: body of the [for] loop over [_i]. *)
Definition lyra2mod_body3_seen (p : platform) (whole_matrix : list Z) (_i : Z) (s : list Z * Z) : seen (list Z * Z) :=
  let '(state, ptr_word) := s in
  _right <=! ssplit "whole_matrix" whole_matrix ptr_word ;;
  let _right_at := ptr_word in  (* 313 *)
  state <=! slift (absorb_block_blake2_safe_log p state _right_at _right) ;;  (* 314 *)
  ptr_word <=! squiet (szadd p ptr_word (as_usize p BLOCKLENBLAKE2SAFEINT64)) ;;  (* 315 *)
  sret ((state, ptr_word)).

(** As [lyra2mod_body6], with the log of what is observable. lyra2mod/mod.rs:392-503: body of the [for] loop over [_x]. *)
Definition lyra2mod_body6_seen (p : platform) (n_cols : Z) (row_len_int64 : Z) (_x : Z) (s : Z * Z * Z * Z * Z * Z * list Z * list Z) : seen (Z * Z * Z * Z * Z * Z * list Z * list Z) :=
  let '(row, prev, rowa, step, window, gap, whole_matrix, state) := s in
  '(whole_matrix, state) <=! sfor 0 n_cols (fun _i_ _s_ => slift (lyra2mod_body7_log p n_cols row prev rowa row_len_int64 _i_ _s_)) (whole_matrix, state) ;;  (* 395 *)
  t1 <=! squiet (iadd p rowa step) ;;  (* 491 *)
  t2 <=! squiet (isub p window 1) ;;
  rowa <=! spick ((Z.land t1 t2)) ;;
  prev <=! sret (row) ;;  (* 493 *)
  row <=! squiet (iadd p row 1) ;;  (* 495 *)
  '(step, window, gap) <=! sif (rowa =? 0) (  (* 498 *)
    step <=! squiet (iadd p window gap) ;;  (* 499 *)
    window <=! squiet (imul p window 2) ;;  (* 500 *)
    gap <=! squiet (isub p 0 gap) ;;  (* 501 *)
    sret ((step, window, gap))
  ) (
    sret ((step, window, gap))) ;;
  sret ((row, prev, rowa, step, window, gap, whole_matrix, state)).

(** As [lyra2mod_body9], with the log of what is observable. lyra2mod/mod.rs:516-621: body of the [loop] loop. *)
Definition lyra2mod_body9_seen (p : platform) (n_rows : Z) (n_cols : Z) (step : Z) (row_len_int64 : Z) (s : Z * Z * Z * list Z * list Z * Z) : seen ((Z * Z * Z * list Z * list Z * Z) + (Z * Z * Z * list Z * list Z * Z)) :=
  let '(row, prev, rowa, whole_matrix, state, index) := s in
  index <=! sget "state" state (Z.land (as_usize p index) 15) ;;  (* 520 *)
  t2 <=! sget "state" state (Z.land (as_usize p index) 15) ;;  (* 521 *)
  t3 <=! squiet (usub p n_rows 1) ;;
  rowa <=! spick ((as_i64 (Z.land t2 t3))) ;;
  '(whole_matrix, state) <=! sfor 0 n_cols (fun _i_ _s_ => slift (lyra2mod_body10_log p row prev rowa row_len_int64 _i_ _s_)) (whole_matrix, state) ;;  (* 526 *)
  prev <=! sret (row) ;;  (* 611 *)
  t4 <=! squiet (iadd p row step) ;;  (* 616 *)
  t5 <=! squiet (isub p (as_i64 n_rows) 1) ;;
  row <=! sret ((Z.land t4 t5)) ;;
  sif (row =? 0) (sret (inr (row, prev, rowa, whole_matrix, state, index))) (sret (inl (row, prev, rowa, whole_matrix, state, index))).  (* 618 *)

(** As [lyra2mod_body8], with the log of what is observable. lyra2mod/mod.rs:509-622: body of the [for] loop over [_tau]. *)
Definition lyra2mod_body8_seen (p : platform) (n_rows : Z) (n_cols : Z) (row_len_int64 : Z) (_tau : Z) (s : Z * Z * Z * Z * list Z * list Z * Z) : seen (Z * Z * Z * Z * list Z * list Z * Z) :=
  let '(row, prev, rowa, step, whole_matrix, state, index) := s in
  step <=! squiet (isub p (Z.quot (as_i64 n_rows) 2) 1) ;;  (* 511 *)
  step <=! sif ((_tau mod 2) =? 0) (  (* 512 *)
    step <=! sret (((-1))) ;;  (* 513 *)
    sret (step)
  ) (
    sret (step)) ;;
  '(row, prev, rowa, whole_matrix, state, index) <=! sloop (lyra2mod_body9_seen p n_rows n_cols step row_len_int64) (row, prev, rowa, whole_matrix, state, index) ;;  (* 516 *)
  sret ((row, prev, rowa, step, whole_matrix, state, index)).

(** As [lyra2mod], with the log of what is observable. lyra2mod/mod.rs:222-632 [lyra2mod] *)
Definition lyra2mod_seen (p : platform) (k : Z) (pwd : list Z) (salt : list Z) (time_cost : Z) (n_rows : Z) (n_cols : Z) : seen (list Z) :=
  _ <=! sif (time_cost <? 1) (  (* 231 *)
    _ <=! squiet (Panic (A := unit)) ;;  (* 231 *)
    sret (tt)
  ) (
    sret (tt)) ;;
  _ <=! sif (n_rows <? 3) (  (* 232 *)
    _ <=! squiet (Panic (A := unit)) ;;  (* 232 *)
    sret (tt)
  ) (
    sret (tt)) ;;
  row <=! sret (2) ;;  (* 236 *)
  prev <=! sret (1) ;;  (* 237 *)
  rowa <=! spick (0) ;;  (* 238 *)
  _tau <=! sret (1) ;;  (* 239 *)
  step <=! sret (1) ;;  (* 240 *)
  window <=! sret (2) ;;  (* 241 *)
  gap <=! sret (1) ;;  (* 242 *)
  _i <=! sret (0) ;;  (* 243 *)
  row_len_int64 <=! squiet (imul p BLOCKLENINT64 (as_i64 n_cols)) ;;  (* 249 *)
  _i <=! squiet (imul p (as_i64 n_rows) row_len_int64) ;;  (* 250 *)
  whole_matrix <=! ssize (as_usize p _i) (vec_zeroed p 8 (as_usize p _i)) ;;  (* 251 *)
  whole_matrix <=! ssize (as_usize p _i) (vec_resize p 8 whole_matrix (as_usize p _i) 0) ;;  (* 252 *)
  t5 <=! squiet (szadd p (vlen salt) (vlen pwd)) ;;  (* 261 *)
  t6 <=! squiet (szadd p t5 (6 * 8)) ;;
  n_blocks_input <=! squiet (iadd p (Z.quot (as_i64 t6) BLOCKLENBLAKE2SAFEBYTES) 1) ;;
  ptr_byte <=! sret (0) ;;  (* 263 *)
  whole_matrix <=! sfor 0 ((vlen pwd) / 8) (lyra2mod_body1_seen p pwd ptr_byte) whole_matrix ;;  (* 266 *)
  ptr_byte <=! squiet (szadd p ptr_byte (as_usize p ((vlen pwd) / 8))) ;;  (* 272 *)
  whole_matrix <=! sfor 0 ((vlen salt) / 8) (lyra2mod_body2_seen p salt ptr_byte) whole_matrix ;;  (* 275 *)
  ptr_byte <=! squiet (szadd p ptr_byte (as_usize p ((vlen salt) / 8))) ;;  (* 281 *)
  whole_matrix <=! slift (kwr whole_matrix ptr_byte k) ;;  (* 284 *)
  ptr_byte <=! squiet (szadd p ptr_byte 1) ;;  (* 285 *)
  whole_matrix <=! slift (kwr whole_matrix ptr_byte (vlen pwd)) ;;  (* 286 *)
  ptr_byte <=! squiet (szadd p ptr_byte 1) ;;  (* 287 *)
  whole_matrix <=! slift (kwr whole_matrix ptr_byte (vlen salt)) ;;  (* 288 *)
  ptr_byte <=! squiet (szadd p ptr_byte 1) ;;  (* 289 *)
  whole_matrix <=! slift (kwr whole_matrix ptr_byte time_cost) ;;  (* 290 *)
  ptr_byte <=! squiet (szadd p ptr_byte 1) ;;  (* 291 *)
  whole_matrix <=! slift (kwr whole_matrix ptr_byte n_rows) ;;  (* 292 *)
  ptr_byte <=! squiet (szadd p ptr_byte 1) ;;  (* 293 *)
  whole_matrix <=! slift (kwr whole_matrix ptr_byte n_cols) ;;  (* 294 *)
  ptr_byte <=! squiet (szadd p ptr_byte 1) ;;  (* 295 *)
  whole_matrix <=! slift (kwr whole_matrix ptr_byte 128) ;;  (* 298 *)
  t23 <=! squiet (imul p n_blocks_input BLOCKLENBLAKE2SAFEBYTES) ;;  (* 300 *)
  t24 <=! squiet (isub p (Z.quot t23 8) 1) ;;
  ptr_byte <=! sret ((as_usize p t24)) ;;
  t25 <=! slift (krd whole_matrix ptr_byte) ;;  (* 301 *)
  whole_matrix <=! slift (kwr whole_matrix ptr_byte (Z.lxor t25 0x100000000000000)) ;;
  state <=! squiet (init_state p) ;;  (* 306 *)
  ptr_word <=! sret (0) ;;  (* 311 *)
  '(state, ptr_word) <=! sfor 0 n_blocks_input (lyra2mod_body3_seen p whole_matrix) (state, ptr_word) ;;  (* 312 *)
  t28 <=! squiet (isub p (as_i64 n_cols) 1) ;;  (* 321 *)
  ptr <=! squiet (imul p t28 BLOCKLENINT64) ;;
  '(whole_matrix, state, ptr) <=! sfor 0 n_cols (fun _i_ _s_ => slift (lyra2mod_body4_log p _i_ _s_)) (whole_matrix, state, ptr) ;;  (* 323 *)
  '(whole_matrix, state) <=! sfor 0 n_cols (fun _i_ _s_ => slift (lyra2mod_body5_log p n_cols row_len_int64 _i_ _s_)) (whole_matrix, state) ;;  (* 346 *)
  _x <=! sret (row) ;;  (* 391 *)
  '(row, prev, rowa, step, window, gap, whole_matrix, state) <=! sfor _x (as_i64 n_rows) (lyra2mod_body6_seen p n_cols row_len_int64) (row, prev, rowa, step, window, gap, whole_matrix, state) ;;  (* 392 *)
  index <=! sret (0) ;;  (* 507 *)
  row <=! sret (0) ;;  (* 508 *)
  '(row, prev, rowa, step, whole_matrix, state, index) <=! sfor 1 (time_cost + 1) (lyra2mod_body8_seen p n_rows n_cols row_len_int64) (row, prev, rowa, step, whole_matrix, state, index) ;;  (* 509 *)
  t30 <=! squiet (imul p rowa row_len_int64) ;;  (* 627 *)
  _right <=! ssplit "whole_matrix" whole_matrix (as_usize p t30) ;;
  let _right_at := (as_usize p t30) in
  state <=! slift (absorb_block_log p state _right_at _right) ;;  (* 628 *)
  squeeze_seen p state k.  (* 630 *)

(** As [sum], with the log of what is observable. lyra2mod/mod.rs:634-637 [sum] *)
Definition sum_seen (p : platform) (input : list Z) : seen (list Z) :=
  input2 <=! sret (input) ;;  (* 635 *)
  lyra2mod_seen p 32 input input2 1 4 4.  (* 636 *)
