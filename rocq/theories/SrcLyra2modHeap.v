(** * /repo/src/lyra2mod/mod.rs, translated by tools/rust2coq.py, with a log of its heap buffers *)
From Verif Require Import Machine SrcOps Held SrcLyra2mod.
From Verif Require SrcUtils.

(** As [squeeze], with the log. lyra2mod/mod.rs:145-159 [squeeze] *)
Definition squeeze_held (p : platform) (state : list Z) (output_size : Z) : held (list Z) :=
  tmp <=@ hquiet (Ok []) ;;  (* 146 *)
  out <=@ hquiet (vec_zeroed p 1 (as_usize p output_size)) ;;  (* 147 *)
  _j <=@ hquiet (Ok 0) ;;  (* 148 *)
  jmax <=@ hquiet (iadd p (Z.quot (as_i64 output_size) BLOCKLENBYTES) 1) ;;  (* 149 *)
  '(state, tmp, out) <=@ hquiet (for_range 0 jmax (squeeze_body1 p output_size) (state, tmp, out)) ;;  (* 150 *)
  _ <=@ hdrop_bytes tmp ;;  (* 158 *)
  hret out.

(** As [absorb_block], with the log. lyra2mod/mod.rs:168-186 [absorb_block] *)
Definition absorb_block_held (p : platform) (s : list Z) (w : list Z) : held (list Z) :=
  t1 <=@ hquiet (vget w 0) ;;  (* 170 *)
  s <=@ hquiet (Ok (<[0%nat := (Z.lxor (aget s 0) t1)]> s)) ;;
  t2 <=@ hquiet (vget w 1) ;;  (* 171 *)
  s <=@ hquiet (Ok (<[1%nat := (Z.lxor (aget s 1) t2)]> s)) ;;
  t3 <=@ hquiet (vget w 2) ;;  (* 172 *)
  s <=@ hquiet (Ok (<[2%nat := (Z.lxor (aget s 2) t3)]> s)) ;;
  t4 <=@ hquiet (vget w 3) ;;  (* 173 *)
  s <=@ hquiet (Ok (<[3%nat := (Z.lxor (aget s 3) t4)]> s)) ;;
  t5 <=@ hquiet (vget w 4) ;;  (* 174 *)
  s <=@ hquiet (Ok (<[4%nat := (Z.lxor (aget s 4) t5)]> s)) ;;
  t6 <=@ hquiet (vget w 5) ;;  (* 175 *)
  s <=@ hquiet (Ok (<[5%nat := (Z.lxor (aget s 5) t6)]> s)) ;;
  t7 <=@ hquiet (vget w 6) ;;  (* 176 *)
  s <=@ hquiet (Ok (<[6%nat := (Z.lxor (aget s 6) t7)]> s)) ;;
  t8 <=@ hquiet (vget w 7) ;;  (* 177 *)
  s <=@ hquiet (Ok (<[7%nat := (Z.lxor (aget s 7) t8)]> s)) ;;
  t9 <=@ hquiet (vget w 8) ;;  (* 178 *)
  s <=@ hquiet (Ok (<[8%nat := (Z.lxor (aget s 8) t9)]> s)) ;;
  t10 <=@ hquiet (vget w 9) ;;  (* 179 *)
  s <=@ hquiet (Ok (<[9%nat := (Z.lxor (aget s 9) t10)]> s)) ;;
  t11 <=@ hquiet (vget w 10) ;;  (* 180 *)
  s <=@ hquiet (Ok (<[10%nat := (Z.lxor (aget s 10) t11)]> s)) ;;
  t12 <=@ hquiet (vget w 11) ;;  (* 181 *)
  s <=@ hquiet (Ok (<[11%nat := (Z.lxor (aget s 11) t12)]> s)) ;;
  s <=@ hquiet (blake2b_lyra p s) ;;  (* 184 *)
  _ <=@ hdrop w ;;  (* 185 *)
  hret s.

(** As [absorb_block_blake2_safe], with the log. lyra2mod/mod.rs:195-208 [absorb_block_blake2_safe] *)
Definition absorb_block_blake2_safe_held (p : platform) (s : list Z) (w : list Z) : held (list Z) :=
  t1 <=@ hquiet (vget w 0) ;;  (* 197 *)
  s <=@ hquiet (Ok (<[0%nat := (Z.lxor (aget s 0) t1)]> s)) ;;
  t2 <=@ hquiet (vget w 1) ;;  (* 198 *)
  s <=@ hquiet (Ok (<[1%nat := (Z.lxor (aget s 1) t2)]> s)) ;;
  t3 <=@ hquiet (vget w 2) ;;  (* 199 *)
  s <=@ hquiet (Ok (<[2%nat := (Z.lxor (aget s 2) t3)]> s)) ;;
  t4 <=@ hquiet (vget w 3) ;;  (* 200 *)
  s <=@ hquiet (Ok (<[3%nat := (Z.lxor (aget s 3) t4)]> s)) ;;
  t5 <=@ hquiet (vget w 4) ;;  (* 201 *)
  s <=@ hquiet (Ok (<[4%nat := (Z.lxor (aget s 4) t5)]> s)) ;;
  t6 <=@ hquiet (vget w 5) ;;  (* 202 *)
  s <=@ hquiet (Ok (<[5%nat := (Z.lxor (aget s 5) t6)]> s)) ;;
  t7 <=@ hquiet (vget w 6) ;;  (* 203 *)
  s <=@ hquiet (Ok (<[6%nat := (Z.lxor (aget s 6) t7)]> s)) ;;
  t8 <=@ hquiet (vget w 7) ;;  (* 204 *)
  s <=@ hquiet (Ok (<[7%nat := (Z.lxor (aget s 7) t8)]> s)) ;;
  s <=@ hquiet (blake2b_lyra p s) ;;  (* 206 *)
  _ <=@ hdrop w ;;  (* 207 *)
  hret s.

(** As [lyra2mod_body3], with the log. lyra2mod/mod.rs:312-316: body of the [for] loop over [_i]. *)
Definition lyra2mod_body3_held (p : platform) (whole_matrix : list Z) (_i : Z) (s : list Z * Z) : held (list Z * Z) :=
  let '(state, ptr_word) := s in
  _right <=@ hquiet (split_right whole_matrix ptr_word) ;;  (* 313 *)
  t1 <=@ hcopy _right ;;  (* 314 *)
  state <=@ absorb_block_blake2_safe_held p state t1 ;;
  ptr_word <=@ hquiet (szadd p ptr_word (as_usize p BLOCKLENBLAKE2SAFEINT64)) ;;  (* 315 *)
  hret (state, ptr_word).

(** As [lyra2mod], with the log. lyra2mod/mod.rs:222-632 [lyra2mod] *)
Definition lyra2mod_held (p : platform) (k : Z) (pwd : list Z) (salt : list Z) (time_cost : Z) (n_rows : Z) (n_cols : Z) : held (list Z) :=
  _ <=@ hquiet (if (time_cost <? 1) then  (* 231 *)
    _ <-- Panic (A := unit) ;;  (* 231 *)
    Ok tt
  else
    Ok tt) ;;
  _ <=@ hquiet (if (n_rows <? 3) then  (* 232 *)
    _ <-- Panic (A := unit) ;;  (* 232 *)
    Ok tt
  else
    Ok tt) ;;
  row <=@ hquiet (Ok 2) ;;  (* 236 *)
  prev <=@ hquiet (Ok 1) ;;  (* 237 *)
  rowa <=@ hquiet (Ok 0) ;;  (* 238 *)
  _tau <=@ hquiet (Ok 1) ;;  (* 239 *)
  step <=@ hquiet (Ok 1) ;;  (* 240 *)
  window <=@ hquiet (Ok 2) ;;  (* 241 *)
  gap <=@ hquiet (Ok 1) ;;  (* 242 *)
  _i <=@ hquiet (Ok 0) ;;  (* 243 *)
  row_len_int64 <=@ hquiet (imul p BLOCKLENINT64 (as_i64 n_cols)) ;;  (* 249 *)
  _i <=@ hquiet (imul p (as_i64 n_rows) row_len_int64) ;;  (* 250 *)
  whole_matrix <=@ hzeroed p (as_usize p _i) ;;  (* 251 *)
  whole_matrix <=@ hresize p whole_matrix (as_usize p _i) 0 ;;  (* 252 *)
  t5 <=@ hquiet (szadd p (vlen salt) (vlen pwd)) ;;  (* 261 *)
  t6 <=@ hquiet (szadd p t5 (6 * 8)) ;;
  n_blocks_input <=@ hquiet (iadd p (Z.quot (as_i64 t6) BLOCKLENBLAKE2SAFEBYTES) 1) ;;
  ptr_byte <=@ hquiet (Ok 0) ;;  (* 263 *)
  whole_matrix <=@ hquiet (for_range 0 ((vlen pwd) / 8) (lyra2mod_body1 p pwd ptr_byte) whole_matrix) ;;  (* 266 *)
  ptr_byte <=@ hquiet (szadd p ptr_byte (as_usize p ((vlen pwd) / 8))) ;;  (* 272 *)
  whole_matrix <=@ hquiet (for_range 0 ((vlen salt) / 8) (lyra2mod_body2 p salt ptr_byte) whole_matrix) ;;  (* 275 *)
  ptr_byte <=@ hquiet (szadd p ptr_byte (as_usize p ((vlen salt) / 8))) ;;  (* 281 *)
  whole_matrix <=@ hquiet (vset whole_matrix ptr_byte k) ;;  (* 284 *)
  ptr_byte <=@ hquiet (szadd p ptr_byte 1) ;;  (* 285 *)
  whole_matrix <=@ hquiet (vset whole_matrix ptr_byte (vlen pwd)) ;;  (* 286 *)
  ptr_byte <=@ hquiet (szadd p ptr_byte 1) ;;  (* 287 *)
  whole_matrix <=@ hquiet (vset whole_matrix ptr_byte (vlen salt)) ;;  (* 288 *)
  ptr_byte <=@ hquiet (szadd p ptr_byte 1) ;;  (* 289 *)
  whole_matrix <=@ hquiet (vset whole_matrix ptr_byte time_cost) ;;  (* 290 *)
  ptr_byte <=@ hquiet (szadd p ptr_byte 1) ;;  (* 291 *)
  whole_matrix <=@ hquiet (vset whole_matrix ptr_byte n_rows) ;;  (* 292 *)
  ptr_byte <=@ hquiet (szadd p ptr_byte 1) ;;  (* 293 *)
  whole_matrix <=@ hquiet (vset whole_matrix ptr_byte n_cols) ;;  (* 294 *)
  ptr_byte <=@ hquiet (szadd p ptr_byte 1) ;;  (* 295 *)
  whole_matrix <=@ hquiet (vset whole_matrix ptr_byte 128) ;;  (* 298 *)
  t23 <=@ hquiet (imul p n_blocks_input BLOCKLENBLAKE2SAFEBYTES) ;;  (* 300 *)
  t24 <=@ hquiet (isub p (Z.quot t23 8) 1) ;;
  ptr_byte <=@ hquiet (Ok (as_usize p t24)) ;;
  t25 <=@ hquiet (vget whole_matrix ptr_byte) ;;  (* 301 *)
  whole_matrix <=@ hquiet (vset whole_matrix ptr_byte (Z.lxor t25 0x100000000000000)) ;;
  state <=@ hquiet (init_state p) ;;  (* 306 *)
  ptr_word <=@ hquiet (Ok 0) ;;  (* 311 *)
  '(state, ptr_word) <=@ hfor 0 n_blocks_input (lyra2mod_body3_held p whole_matrix) (state, ptr_word) ;;  (* 312 *)
  t28 <=@ hquiet (isub p (as_i64 n_cols) 1) ;;  (* 321 *)
  ptr <=@ hquiet (imul p t28 BLOCKLENINT64) ;;
  '(whole_matrix, state, ptr) <=@ hquiet (for_range 0 n_cols (lyra2mod_body4 p) (whole_matrix, state, ptr)) ;;  (* 323 *)
  '(whole_matrix, state) <=@ hquiet (for_range 0 n_cols (lyra2mod_body5 p n_cols row_len_int64) (whole_matrix, state)) ;;  (* 346 *)
  _x <=@ hquiet (Ok row) ;;  (* 391 *)
  '(row, prev, rowa, step, window, gap, whole_matrix, state) <=@ hquiet (for_range _x (as_i64 n_rows) (lyra2mod_body6 p n_cols row_len_int64) (row, prev, rowa, step, window, gap, whole_matrix, state)) ;;  (* 392 *)
  index <=@ hquiet (Ok 0) ;;  (* 507 *)
  row <=@ hquiet (Ok 0) ;;  (* 508 *)
  '(row, prev, rowa, step, whole_matrix, state, index) <=@ hquiet (for_range 1 (time_cost + 1) (lyra2mod_body8 p n_rows n_cols row_len_int64) (row, prev, rowa, step, whole_matrix, state, index)) ;;  (* 509 *)
  t30 <=@ hquiet (imul p rowa row_len_int64) ;;  (* 627 *)
  _right <=@ hquiet (split_right whole_matrix (as_usize p t30)) ;;
  t31 <=@ hcopy _right ;;  (* 628 *)
  state <=@ absorb_block_held p state t31 ;;
  t33 <=@ squeeze_held p state k ;;  (* 630 *)
  _ <=@ hdrop whole_matrix ;;
  _ <=@ hdrop_bytes salt ;;
  _ <=@ hdrop_bytes pwd ;;
  hret t33.

(** As [sum], with the log. lyra2mod/mod.rs:634-637 [sum] *)
Definition sum_held (p : platform) (input : list Z) : held (list Z) :=
  input2 <=@ hquiet (Ok input) ;;  (* 635 *)
  lyra2mod_held p 32 input input2 1 4 4.  (* 636 *)
