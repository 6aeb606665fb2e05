(** * /repo/src/lyra2.rs, translated by tools/rust2coq.py, with a log of its heap buffers *)
From Verif Require Import Machine SrcOps Held SrcLyra2.
From Verif Require SrcUtils.

(** As [squeeze], with the log. lyra2.rs:148-162 [squeeze] *)
Definition squeeze_held (p : platform) (state : list Z) (output_size : Z) : held (list Z) :=
  tmp <=@ hquiet (Ok []) ;;  (* 149 *)
  out <=@ hquiet (vec_zeroed p 1 (as_usize p output_size)) ;;  (* 150 *)
  _j <=@ hquiet (Ok 0) ;;  (* 151 *)
  jmax <=@ hquiet (iadd p (Z.quot (as_i64 output_size) BLOCKLENBYTES) 1) ;;  (* 152 *)
  '(state, tmp, out) <=@ hquiet (for_range 0 jmax (squeeze_body1 p output_size) (state, tmp, out)) ;;  (* 153 *)
  _ <=@ hdrop_bytes tmp ;;  (* 161 *)
  hret out.

(** As [absorb_block], with the log. lyra2.rs:171-189 [absorb_block] *)
Definition absorb_block_held (p : platform) (s : list Z) (w : list Z) : held (list Z) :=
  t1 <=@ hquiet (vget w 0) ;;  (* 173 *)
  s <=@ hquiet (Ok (<[0%nat := (Z.lxor (aget s 0) t1)]> s)) ;;
  t2 <=@ hquiet (vget w 1) ;;  (* 174 *)
  s <=@ hquiet (Ok (<[1%nat := (Z.lxor (aget s 1) t2)]> s)) ;;
  t3 <=@ hquiet (vget w 2) ;;  (* 175 *)
  s <=@ hquiet (Ok (<[2%nat := (Z.lxor (aget s 2) t3)]> s)) ;;
  t4 <=@ hquiet (vget w 3) ;;  (* 176 *)
  s <=@ hquiet (Ok (<[3%nat := (Z.lxor (aget s 3) t4)]> s)) ;;
  t5 <=@ hquiet (vget w 4) ;;  (* 177 *)
  s <=@ hquiet (Ok (<[4%nat := (Z.lxor (aget s 4) t5)]> s)) ;;
  t6 <=@ hquiet (vget w 5) ;;  (* 178 *)
  s <=@ hquiet (Ok (<[5%nat := (Z.lxor (aget s 5) t6)]> s)) ;;
  t7 <=@ hquiet (vget w 6) ;;  (* 179 *)
  s <=@ hquiet (Ok (<[6%nat := (Z.lxor (aget s 6) t7)]> s)) ;;
  t8 <=@ hquiet (vget w 7) ;;  (* 180 *)
  s <=@ hquiet (Ok (<[7%nat := (Z.lxor (aget s 7) t8)]> s)) ;;
  t9 <=@ hquiet (vget w 8) ;;  (* 181 *)
  s <=@ hquiet (Ok (<[8%nat := (Z.lxor (aget s 8) t9)]> s)) ;;
  t10 <=@ hquiet (vget w 9) ;;  (* 182 *)
  s <=@ hquiet (Ok (<[9%nat := (Z.lxor (aget s 9) t10)]> s)) ;;
  t11 <=@ hquiet (vget w 10) ;;  (* 183 *)
  s <=@ hquiet (Ok (<[10%nat := (Z.lxor (aget s 10) t11)]> s)) ;;
  t12 <=@ hquiet (vget w 11) ;;  (* 184 *)
  s <=@ hquiet (Ok (<[11%nat := (Z.lxor (aget s 11) t12)]> s)) ;;
  s <=@ hquiet (blake2b_lyra p s) ;;  (* 187 *)
  _ <=@ hdrop w ;;  (* 188 *)
  hret s.

(** As [absorb_block_blake2_safe], with the log. lyra2.rs:198-211 [absorb_block_blake2_safe] *)
Definition absorb_block_blake2_safe_held (p : platform) (s : list Z) (w : list Z) : held (list Z) :=
  t1 <=@ hquiet (vget w 0) ;;  (* 200 *)
  s <=@ hquiet (Ok (<[0%nat := (Z.lxor (aget s 0) t1)]> s)) ;;
  t2 <=@ hquiet (vget w 1) ;;  (* 201 *)
  s <=@ hquiet (Ok (<[1%nat := (Z.lxor (aget s 1) t2)]> s)) ;;
  t3 <=@ hquiet (vget w 2) ;;  (* 202 *)
  s <=@ hquiet (Ok (<[2%nat := (Z.lxor (aget s 2) t3)]> s)) ;;
  t4 <=@ hquiet (vget w 3) ;;  (* 203 *)
  s <=@ hquiet (Ok (<[3%nat := (Z.lxor (aget s 3) t4)]> s)) ;;
  t5 <=@ hquiet (vget w 4) ;;  (* 204 *)
  s <=@ hquiet (Ok (<[4%nat := (Z.lxor (aget s 4) t5)]> s)) ;;
  t6 <=@ hquiet (vget w 5) ;;  (* 205 *)
  s <=@ hquiet (Ok (<[5%nat := (Z.lxor (aget s 5) t6)]> s)) ;;
  t7 <=@ hquiet (vget w 6) ;;  (* 206 *)
  s <=@ hquiet (Ok (<[6%nat := (Z.lxor (aget s 6) t7)]> s)) ;;
  t8 <=@ hquiet (vget w 7) ;;  (* 207 *)
  s <=@ hquiet (Ok (<[7%nat := (Z.lxor (aget s 7) t8)]> s)) ;;
  s <=@ hquiet (blake2b_lyra p s) ;;  (* 209 *)
  _ <=@ hdrop w ;;  (* 210 *)
  hret s.

(** As [lyra2_body3], with the log. lyra2.rs:335-339: body of the [for] loop over [_i]. *)
Definition lyra2_body3_held (p : platform) (whole_matrix : list Z) (_i : Z) (s : list Z * Z) : held (list Z * Z) :=
  let '(state, ptr_word) := s in
  _right <=@ hquiet (split_right whole_matrix ptr_word) ;;  (* 336 *)
  t1 <=@ hcopy _right ;;  (* 337 *)
  state <=@ absorb_block_blake2_safe_held p state t1 ;;
  ptr_word <=@ hquiet (szadd p ptr_word (as_usize p BLOCKLENBLAKE2SAFEINT64)) ;;  (* 338 *)
  hret (state, ptr_word).

(** As [lyra2], with the log. lyra2.rs:245-653 [lyra2] *)
Definition lyra2_held (p : platform) (k : Z) (pwd : list Z) (salt : list Z) (time_cost : Z) (n_rows : Z) (n_cols : Z) : held (list Z) :=
  _ <=@ hquiet (if (time_cost <? 1) then  (* 254 *)
    _ <-- Panic (A := unit) ;;  (* 254 *)
    Ok tt
  else
    Ok tt) ;;
  _ <=@ hquiet (if (n_rows <? 3) then  (* 255 *)
    _ <-- Panic (A := unit) ;;  (* 255 *)
    Ok tt
  else
    Ok tt) ;;
  row <=@ hquiet (Ok 2) ;;  (* 259 *)
  prev <=@ hquiet (Ok 1) ;;  (* 260 *)
  rowa <=@ hquiet (Ok 0) ;;  (* 261 *)
  _tau <=@ hquiet (Ok 1) ;;  (* 262 *)
  step <=@ hquiet (Ok 1) ;;  (* 263 *)
  window <=@ hquiet (Ok 2) ;;  (* 264 *)
  gap <=@ hquiet (Ok 1) ;;  (* 265 *)
  _i <=@ hquiet (Ok 0) ;;  (* 266 *)
  row_len_int64 <=@ hquiet (imul p BLOCKLENINT64 (as_i64 n_cols)) ;;  (* 272 *)
  _i <=@ hquiet (imul p (as_i64 n_rows) row_len_int64) ;;  (* 273 *)
  whole_matrix <=@ hzeroed p (as_usize p _i) ;;  (* 274 *)
  whole_matrix <=@ hresize p whole_matrix (as_usize p _i) 0 ;;  (* 275 *)
  t5 <=@ hquiet (szadd p (vlen salt) (vlen pwd)) ;;  (* 284 *)
  t6 <=@ hquiet (szadd p t5 (6 * 8)) ;;
  n_blocks_input <=@ hquiet (iadd p (Z.quot (as_i64 t6) BLOCKLENBLAKE2SAFEBYTES) 1) ;;
  ptr_byte <=@ hquiet (Ok 0) ;;  (* 286 *)
  whole_matrix <=@ hquiet (for_range 0 ((vlen pwd) / 8) (lyra2_body1 p pwd ptr_byte) whole_matrix) ;;  (* 289 *)
  ptr_byte <=@ hquiet (szadd p ptr_byte (as_usize p ((vlen pwd) / 8))) ;;  (* 295 *)
  whole_matrix <=@ hquiet (for_range 0 ((vlen salt) / 8) (lyra2_body2 p salt ptr_byte) whole_matrix) ;;  (* 298 *)
  ptr_byte <=@ hquiet (szadd p ptr_byte (as_usize p ((vlen salt) / 8))) ;;  (* 304 *)
  whole_matrix <=@ hquiet (vset whole_matrix ptr_byte k) ;;  (* 307 *)
  ptr_byte <=@ hquiet (szadd p ptr_byte 1) ;;  (* 308 *)
  whole_matrix <=@ hquiet (vset whole_matrix ptr_byte (vlen pwd)) ;;  (* 309 *)
  ptr_byte <=@ hquiet (szadd p ptr_byte 1) ;;  (* 310 *)
  whole_matrix <=@ hquiet (vset whole_matrix ptr_byte (vlen salt)) ;;  (* 311 *)
  ptr_byte <=@ hquiet (szadd p ptr_byte 1) ;;  (* 312 *)
  whole_matrix <=@ hquiet (vset whole_matrix ptr_byte time_cost) ;;  (* 313 *)
  ptr_byte <=@ hquiet (szadd p ptr_byte 1) ;;  (* 314 *)
  whole_matrix <=@ hquiet (vset whole_matrix ptr_byte n_rows) ;;  (* 315 *)
  ptr_byte <=@ hquiet (szadd p ptr_byte 1) ;;  (* 316 *)
  whole_matrix <=@ hquiet (vset whole_matrix ptr_byte n_cols) ;;  (* 317 *)
  ptr_byte <=@ hquiet (szadd p ptr_byte 1) ;;  (* 318 *)
  whole_matrix <=@ hquiet (vset whole_matrix ptr_byte 128) ;;  (* 321 *)
  t23 <=@ hquiet (imul p n_blocks_input BLOCKLENBLAKE2SAFEBYTES) ;;  (* 323 *)
  t24 <=@ hquiet (isub p (Z.quot t23 8) 1) ;;
  ptr_byte <=@ hquiet (Ok (as_usize p t24)) ;;
  t25 <=@ hquiet (vget whole_matrix ptr_byte) ;;  (* 324 *)
  whole_matrix <=@ hquiet (vset whole_matrix ptr_byte (Z.lxor t25 0x100000000000000)) ;;
  state <=@ hquiet (init_state p) ;;  (* 329 *)
  ptr_word <=@ hquiet (Ok 0) ;;  (* 334 *)
  '(state, ptr_word) <=@ hfor 0 n_blocks_input (lyra2_body3_held p whole_matrix) (state, ptr_word) ;;  (* 335 *)
  t28 <=@ hquiet (isub p (as_i64 n_cols) 1) ;;  (* 344 *)
  ptr <=@ hquiet (imul p t28 BLOCKLENINT64) ;;
  '(whole_matrix, state, ptr) <=@ hquiet (for_range 0 n_cols (lyra2_body4 p) (whole_matrix, state, ptr)) ;;  (* 346 *)
  '(whole_matrix, state) <=@ hquiet (for_range 0 n_cols (lyra2_body5 p n_cols row_len_int64) (whole_matrix, state)) ;;  (* 369 *)
  _x <=@ hquiet (Ok row) ;;  (* 414 *)
  '(row, prev, rowa, step, window, gap, whole_matrix, state) <=@ hquiet (for_range _x (as_i64 n_rows) (lyra2_body6 p n_cols row_len_int64) (row, prev, rowa, step, window, gap, whole_matrix, state)) ;;  (* 415 *)
  row <=@ hquiet (Ok 0) ;;  (* 530 *)
  '(row, prev, rowa, step, whole_matrix, state) <=@ hquiet (for_range 1 (time_cost + 1) (lyra2_body8 p n_rows n_cols row_len_int64) (row, prev, rowa, step, whole_matrix, state)) ;;  (* 531 *)
  t30 <=@ hquiet (imul p rowa row_len_int64) ;;  (* 648 *)
  _right <=@ hquiet (split_right whole_matrix (as_usize p t30)) ;;
  t31 <=@ hcopy _right ;;  (* 649 *)
  state <=@ absorb_block_held p state t31 ;;
  t33 <=@ squeeze_held p state k ;;  (* 651 *)
  _ <=@ hdrop whole_matrix ;;
  _ <=@ hdrop_bytes salt ;;
  _ <=@ hdrop_bytes pwd ;;
  hret t33.

(** As [sum], with the log. lyra2.rs:669-672 [sum] *)
Definition sum_held (p : platform) (input : list Z) : held (list Z) :=
  input2 <=@ hquiet (Ok input) ;;  (* 670 *)
  lyra2_held p 32 input input2 1 4 4.  (* 671 *)
