(** * Model of /repo/src/lyra2.rs and /repo/src/lyra2mod/mod.rs

    The two files are textually identical except for the selection of the row
    index [rowa] in the wandering phase (lyra2.rs:542 against
    lyra2mod/mod.rs:507,520-521), the names [lyra2]/[lyra2mod] and the doc
    comments.  The helpers are therefore modelled once; line numbers below are
    those of lyra2.rs, and lyra2mod/mod.rs has the same text 3 lines earlier up
    to line 224, 23 lines earlier up to 506, 22 up to 519 and 21 afterwards. *)
From Verif Require Import Machine MUtils.

(** lyra2.rs:6-15 [BLAKE2BIV] *)
Definition BLAKE2BIV : list Z :=
  [0x6a09e667f3bcc908; 0xbb67ae8584caa73b; 0x3c6ef372fe94f82b; 0xa54ff53a5f1d36f1;
   0x510e527fade682d1; 0x9b05688c2b3e6c1f; 0x1f83d9abfb41bd6b; 0x5be0cd19137e2179].

(** lyra2.rs:17-20 *)
Definition BLOCKLENINT64 : Z := 12.
(** lyra2.rs:18 *)
Definition BLOCKLENBYTES : Z := BLOCKLENINT64 * 8.
(** lyra2.rs:19 *)
Definition BLOCKLENBLAKE2SAFEINT64 : Z := 8.
(** lyra2.rs:20 *)
Definition BLOCKLENBLAKE2SAFEBYTES : Z := BLOCKLENBLAKE2SAFEINT64 * 8.

(** lyra2.rs:22-25 [rotr64]: [(w >> c) | (w << (64 - c))] *)
Definition rotr64 (w c : Z) : Z := Z.lor (wshr w c) (wshl 64 w (64 - c)).

(** lyra2.rs:27-39 [g]; the array [abcd] is written as four variables, assigned
    in the order of the source. *)
Definition g (a b c d : Z) : Z * Z * Z * Z :=
  let a := wadd 64 a b in
  let d := rotr64 (Z.lxor d a) 32 in
  let c := wadd 64 c d in
  let b := rotr64 (Z.lxor b c) 24 in
  let a := wadd 64 a b in
  let d := rotr64 (Z.lxor d a) 16 in
  let c := wadd 64 c d in
  let b := rotr64 (Z.lxor b c) 63 in
  (a, b, c, d).

(** One of the eight groups of five lines of [round_lyra]:
    [abcd = g(v[i], v[j], v[k], v[l]); v[i] = abcd[0]; v[j] = abcd[1]; ...] lyra2.rs:43-47, 48-52, ..., 78-82. *)
Definition g_at (v : list Z) (i j k l : nat) : list Z :=
  let '(a, b, c, d) := g (aget v i) (aget v j) (aget v k) (aget v l) in
  <[l := d]> (<[k := c]> (<[j := b]> (<[i := a]> v))).

(** lyra2.rs:41-84 [round_lyra] *)
Definition round_lyra (v : list Z) : list Z :=
  let v := g_at v 0 4 8 12 in   (* 43-47 *)
  let v := g_at v 1 5 9 13 in   (* 48-52 *)
  let v := g_at v 2 6 10 14 in  (* 53-57 *)
  let v := g_at v 3 7 11 15 in  (* 58-62 *)
  let v := g_at v 0 5 10 15 in  (* 63-67 *)
  let v := g_at v 1 6 11 12 in  (* 68-72 *)
  let v := g_at v 2 7 8 13 in   (* 73-77 *)
  let v := g_at v 3 4 9 14 in   (* 78-82 *)
  v.

(** lyra2.rs:97-108 [init_state] *)
Definition init_state : list Z :=
  let s := replicate 16 0 in
  let s := <[8%nat := aget BLAKE2BIV 0]> s in
  let s := <[9%nat := aget BLAKE2BIV 1]> s in
  let s := <[10%nat := aget BLAKE2BIV 2]> s in
  let s := <[11%nat := aget BLAKE2BIV 3]> s in
  let s := <[12%nat := aget BLAKE2BIV 4]> s in
  let s := <[13%nat := aget BLAKE2BIV 5]> s in
  let s := <[14%nat := aget BLAKE2BIV 6]> s in
  let s := <[15%nat := aget BLAKE2BIV 7]> s in
  s.

(** lyra2.rs:115-129 [blake2b_lyra] *)
Definition blake2b_lyra (v : list Z) : list Z :=
  let v := round_lyra v in
  let v := round_lyra v in
  let v := round_lyra v in
  let v := round_lyra v in
  let v := round_lyra v in
  let v := round_lyra v in
  let v := round_lyra v in
  let v := round_lyra v in
  let v := round_lyra v in
  let v := round_lyra v in
  let v := round_lyra v in
  let v := round_lyra v in
  v.

(** lyra2.rs:135-138 [reduced_blake2b_lyra] *)
Definition reduced_blake2b_lyra (v : list Z) : list Z :=
  let v := round_lyra v in
  v.

(** lyra2.rs:148-162 [squeeze].  [tmp] is declared outside the [_j] loop and keeps
    growing; [out[..n].clone_from_slice(&tmp[..n])] panics when [tmp] is shorter
    than [n = output_size as usize] and otherwise copies the first [n] bytes (all
    of [out]). *)
Definition squeeze (p : platform) (state : list Z) (output_size : Z) : outcome (list Z) :=
  let n := as_usize p output_size in
  out <-- vec_zeroed p 1 n ;;
  jmax <-- iadd p (Z.quot (as_i64 output_size) BLOCKLENBYTES) 1 ;;
  '(_, out, _) <--
    for_range 0 jmax (fun _ '(tmp, out, state) =>
      tmp <-- for_range 0 BLOCKLENINT64 (fun i tmp =>
                vec_extend p tmp (to_le_bytes 8 (aget state (Z.to_nat i)))) tmp ;;
      out <-- slice tmp 0 n ;;
      Ok (tmp, out, blake2b_lyra state)) ([], out, state) ;;
  Ok out.

(** The statements [s[j] ^= w[j];] of lyra2.rs:173-184 and 200-207; [w[j]] panics
    when [w] is too short. *)
Definition xor_in (w : list Z) (s : list Z) (j : nat) : outcome (list Z) :=
  x <-- vget w (Z.of_nat j) ;;
  Ok (<[j := Z.lxor (aget s j) x]> s).

(** lyra2.rs:171-189 [absorb_block] *)
Definition absorb_block (s w : list Z) : outcome (list Z) :=
  s <-- foldM (xor_in w) [0; 1; 2; 3; 4; 5; 6; 7; 8; 9; 10; 11]%nat s ;;
  Ok (blake2b_lyra s).

(** lyra2.rs:198-211 [absorb_block_blake2_safe] *)
Definition absorb_block_blake2_safe (s w : list Z) : outcome (list Z) :=
  s <-- foldM (xor_in w) [0; 1; 2; 3; 4; 5; 6; 7]%nat s ;;
  Ok (blake2b_lyra s).

Section lyra2.
Context (p : platform).

(** Index expression [(_i as i64 * BLOCKLENINT64 + row * row_len_int64 + j) as usize],
    e.g. lyra2.rs:420-466 ([j = 0] is not written in the source). *)
Definition cell (row_len i row j : Z) : outcome Z :=
  a <-- imul p (as_i64 i) BLOCKLENINT64 ;;
  b <-- imul p row row_len ;;
  c <-- iadd p a b ;;
  d <-- iadd p c j ;;
  Ok (as_usize p d).

(** Index expression [(_i as i64 * BLOCKLENINT64 + j) as usize] of lyra2.rs:371-411. *)
Definition cell0 (i j : Z) : outcome Z :=
  a <-- imul p (as_i64 i) BLOCKLENINT64 ;;
  d <-- iadd p a j ;;
  Ok (as_usize p d).

(** Index expression [((n_cols - _i - 1) as i64 * BLOCKLENINT64 + row_len_int64 + j) as usize]
    of lyra2.rs:388-410. *)
Definition cell1_rev (row_len n_cols i j : Z) : outcome Z :=
  u <-- usub p n_cols i ;;
  u <-- usub p u 1 ;;
  a <-- imul p (as_i64 u) BLOCKLENINT64 ;;
  c <-- iadd p a row_len ;;
  d <-- iadd p c j ;;
  Ok (as_usize p d).

(** Index expression
    [((n_cols - _i - 1) as i64 * BLOCKLENINT64 + row * row_len_int64 + j) as usize]
    of lyra2.rs:473-496. *)
Definition cell_rev (row_len n_cols i row j : Z) : outcome Z :=
  u <-- usub p n_cols i ;;
  u <-- usub p u 1 ;;
  a <-- imul p (as_i64 u) BLOCKLENINT64 ;;
  b <-- imul p row row_len ;;
  c <-- iadd p a b ;;
  d <-- iadd p c j ;;
  Ok (as_usize p d).

(** The twelve word offsets of the unrolled statement groups. E.g. lyra2.rs:348-359, 371-382, 388-411, 420-467. *)
Definition offs12 : list Z := [0; 1; 2; 3; 4; 5; 6; 7; 8; 9; 10; 11].

(** The rotated pairs (offset written, state word used) of lyra2.rs:499-510 and
    617-628: [M[row*][..0] ^= state[11]], [..1 ^= state[0]], ... *)
Definition rotW_pairs : list (Z * nat) :=
  [(0, 11%nat); (1, 0%nat); (2, 1%nat); (3, 2%nat); (4, 3%nat); (5, 4%nat);
   (6, 5%nat); (7, 6%nat); (8, 7%nat); (9, 8%nat); (10, 9%nat); (11, 10%nat)].

(** lyra2.rs:288-293 and 297-302: copy the complete 8-byte words of [data] to
    [whole_matrix[ptr_byte ..]]. *)
Definition copy_words (data : list Z) (ptr_byte : Z) (m : list Z) : outcome (list Z) :=
  for_range 0 (vlen data / 8) (fun j m =>
    start <-- szmul p 8 j ;;
    end_ <-- szadd p start 8 ;;
    bs <-- slice data start end_ ;;
    w <-- read_u64_le bs ;;
    at_ <-- szadd p ptr_byte j ;;
    vset m at_ w) m.

(** [whole_matrix[ptr_byte] = x; ptr_byte += 1;] of lyra2.rs:307-318. *)
Definition push_word (s : list Z * Z) (x : Z) : outcome (list Z * Z) :=
  let '(m, ptr_byte) := s in
  m <-- vset m ptr_byte x ;;
  ptr_byte <-- szadd p ptr_byte 1 ;;
  Ok (m, ptr_byte).

(** lyra2.rs:284-285 [n_blocks_input] *)
Definition n_blocks_input (pwd salt : list Z) : outcome Z :=
  a <-- szadd p (vlen salt) (vlen pwd) ;;
  b <-- szadd p a (6 * 8) ;;
  iadd p (Z.quot (as_i64 b) BLOCKLENBLAKE2SAFEBYTES) 1.

(** lyra2.rs:286-324: password, salt, basil and padding written to the matrix. *)
Definition write_input (k : Z) (pwd salt : list Z) (time_cost n_rows n_cols : Z)
    (nblocks : Z) (m : list Z) : outcome (list Z) :=
  let ptr_byte := 0 in
  m <-- copy_words pwd ptr_byte m ;;
  ptr_byte <-- szadd p ptr_byte (as_usize p (vlen pwd / 8)) ;;
  m <-- copy_words salt ptr_byte m ;;
  ptr_byte <-- szadd p ptr_byte (as_usize p (vlen salt / 8)) ;;
  '(m, ptr_byte) <-- push_word (m, ptr_byte) k ;;
  '(m, ptr_byte) <-- push_word (m, ptr_byte) (vlen pwd) ;;
  '(m, ptr_byte) <-- push_word (m, ptr_byte) (vlen salt) ;;
  '(m, ptr_byte) <-- push_word (m, ptr_byte) time_cost ;;
  '(m, ptr_byte) <-- push_word (m, ptr_byte) n_rows ;;
  '(m, ptr_byte) <-- push_word (m, ptr_byte) n_cols ;;
  m <-- vset m ptr_byte 0x80 ;;
  a <-- imul p nblocks BLOCKLENBLAKE2SAFEBYTES ;;
  b <-- isub p (Z.quot a 8) 1 ;;
  let ptr_byte := as_usize p b in
  x <-- vget m ptr_byte ;;
  vset m ptr_byte (Z.lxor x 0x0100000000000000).

(** lyra2.rs:334-339: absorb the padded input, 8 words at a time. *)
Definition absorb_input (nblocks : Z) (m : list Z) (state : list Z) : outcome (list Z) :=
  '(state, _) <--
    for_range 0 nblocks (fun _ '(state, ptr_word) =>
      right <-- split_right m ptr_word ;;
      state <-- absorb_block_blake2_safe state right ;;
      ptr_word <-- szadd p ptr_word BLOCKLENBLAKE2SAFEINT64 ;;
      Ok (state, ptr_word)) (state, 0) ;;
  Ok state.

(** lyra2.rs:344-366: reducedSqueezeRow0. *)
Definition squeeze_row0 (n_cols : Z) (m state : list Z) : outcome (list Z * list Z) :=
  a <-- isub p (as_i64 n_cols) 1 ;;
  ptr <-- imul p a BLOCKLENINT64 ;;
  '(m, state, _) <--
    for_range 0 n_cols (fun _ '(m, state, ptr) =>
      m <-- foldM (fun m j =>
              a <-- iadd p ptr j ;;
              vset m (as_usize p a) (aget state (Z.to_nat j))) offs12 m ;;
      let ptr := wrap_i64 (ptr - BLOCKLENINT64) in
      Ok (m, reduced_blake2b_lyra state, ptr)) (m, state, ptr) ;;
  Ok (m, state).

(** lyra2.rs:368-412: reducedDuplexRow1. *)
Definition duplex_row1 (row_len n_cols : Z) (m state : list Z) : outcome (list Z * list Z) :=
  for_range 0 n_cols (fun i '(m, state) =>
    (* 371-382 *)
    state <-- foldM (fun state j =>
                a <-- cell0 i j ;;
                x <-- vget m a ;;
                Ok (<[Z.to_nat j := Z.lxor (aget state (Z.to_nat j)) x]> state)) offs12 state ;;
    (* 385 *)
    let state := reduced_blake2b_lyra state in
    (* 388-411 *)
    m <-- foldM (fun m j =>
            a <-- cell0 i j ;;
            x <-- vget m a ;;
            b <-- cell1_rev row_len n_cols i j ;;
            vset m b (Z.lxor x (aget state (Z.to_nat j)))) offs12 m ;;
    Ok (m, state)) (m, state).

(** lyra2.rs:420-467 and 548-597:
    [state[j] ^= M[prev][i][j].wrapping_add(M[rowa][i][j])], j = 0..11. *)
Definition absorb_sum (row_len i prev rowa : Z) (m state : list Z) : outcome (list Z) :=
  foldM (fun state j =>
    a <-- cell row_len i prev j ;;
    x <-- vget m a ;;
    b <-- cell row_len i rowa j ;;
    y <-- vget m b ;;
    Ok (<[Z.to_nat j := Z.lxor (aget state (Z.to_nat j)) (wadd 64 x y)]> state)) offs12 state.

(** lyra2.rs:499-510 and 617-628: [M[rowa][i] ^= rotW(state)]. *)
Definition xor_rotW (row_len i rowa : Z) (state m : list Z) : outcome (list Z) :=
  foldM (fun m '(j, s) =>
    a <-- cell row_len i rowa j ;;
    x <-- vget m a ;;
    vset m a (Z.lxor x (aget state s))) rotW_pairs m.

(** lyra2.rs:418-511: reducedDuplexRowSetup. *)
Definition duplex_row_setup (row_len n_cols row prev rowa : Z) (m state : list Z)
  : outcome (list Z * list Z) :=
  for_range 0 n_cols (fun i '(m, state) =>
    state <-- absorb_sum row_len i prev rowa m state ;;
    let state := reduced_blake2b_lyra state in
    (* 473-496 *)
    m <-- foldM (fun m j =>
            a <-- cell row_len i prev j ;;
            x <-- vget m a ;;
            b <-- cell_rev row_len n_cols i row j ;;
            vset m b (Z.lxor x (aget state (Z.to_nat j)))) offs12 m ;;
    m <-- xor_rotW row_len i rowa state m ;;
    Ok (m, state)) (m, state).

(** The row variables of lyra2.rs:259-265. *)
Record rows := Rows {
  r_row : Z; r_prev : Z; r_rowa : Z; r_step : Z; r_window : Z; r_gap : Z
}.

(** lyra2.rs:259-265: initial values. *)
Definition rows_init : rows := Rows 2 1 0 1 2 1.

(** lyra2.rs:513-525: update of the row variables after one setup row. *)
Definition rows_next (v : rows) : outcome rows :=
  a <-- iadd p (r_rowa v) (r_step v) ;;
  w1 <-- isub p (r_window v) 1 ;;
  let rowa := Z.land a w1 in
  let prev := r_row v in
  row <-- iadd p (r_row v) 1 ;;
  if rowa =? 0 then
    step <-- iadd p (r_window v) (r_gap v) ;;
    window <-- imul p (r_window v) 2 ;;
    gap <-- isub p 0 (r_gap v) ;;
    Ok (Rows row prev rowa step window gap)
  else Ok (Rows row prev rowa (r_step v) (r_window v) (r_gap v)).

(** lyra2.rs:414-526: the setup rows 2 .. n_rows-1. *)
Definition setup_rows (row_len n_rows n_cols : Z) (m state : list Z)
  : outcome (list Z * list Z * rows) :=
  for_range (r_row rows_init) (as_i64 n_rows) (fun _ '(m, state, v) =>
    '(m, state) <-- duplex_row_setup row_len n_cols (r_row v) (r_prev v) (r_rowa v) m state ;;
    v <-- rows_next v ;;
    Ok (m, state, v)) (m, state, rows_init).

(** lyra2.rs:547-629: reducedDuplexRow. *)
Definition duplex_row (row_len n_cols row prev rowa : Z) (m state : list Z)
  : outcome (list Z * list Z) :=
  for_range 0 n_cols (fun i '(m, state) =>
    state <-- absorb_sum row_len i prev rowa m state ;;
    let state := reduced_blake2b_lyra state in
    (* 603-614 *)
    m <-- foldM (fun m j =>
            a <-- cell row_len i row j ;;
            x <-- vget m a ;;
            vset m a (Z.lxor x (aget state (Z.to_nat j)))) offs12 m ;;
    m <-- xor_rotW row_len i rowa state m ;;
    Ok (m, state)) (m, state).

(** Choice of [rowa]: from the sponge state and the variable [index] (lyra2mod
    only) to the word that is masked with [n_rows - 1], and the new [index]. lyra2.rs:542; lyra2mod/mod.rs:507, 520-521. *)
Definition selector := list Z -> Z -> Z * Z.

(** lyra2.rs:533-536: the visitation step of pass [tau]. *)
Definition wander_step (n_rows tau : Z) : outcome Z :=
  step <-- isub p (Z.quot (as_i64 n_rows) 2) 1 ;;
  if tau mod 2 =? 0 then Ok (-1) else Ok step.

(** lyra2.rs:637: [row = (row + step) & (n_rows as i64 - 1)]. *)
Definition wander_next (n_rows step row : Z) : outcome Z :=
  a <-- iadd p row step ;;
  b <-- isub p (as_i64 n_rows) 1 ;;
  Ok (Z.land a b).

(** lyra2.rs:538-642: one wandering pass.  The loop state is
    [(m, state, index, row, prev, rowa)]; [break] when [row == 0]. *)
Definition wander_pass (sel : selector) (row_len n_rows n_cols step : Z)
    (s : list Z * list Z * Z * Z * Z * Z)
  : outcome (list Z * list Z * Z * Z * Z * Z) :=
  loop64 (fun '(m, state, index, row, prev, rowa) =>
    let '(x, index) := sel state index in
    n1 <-- usub p n_rows 1 ;;
    let rowa := as_i64 (Z.land x n1) in
    '(m, state) <-- duplex_row row_len n_cols row prev rowa m state ;;
    let prev := row in
    row <-- wander_next n_rows step row ;;
    let s := (m, state, index, row, prev, rowa) in
    if row =? 0 then Ok (inr s) else Ok (inl s)) s.

(** lyra2.rs:529-643: the wandering phase, [row = 0] first. *)
Definition wander (sel : selector) (row_len time_cost n_rows n_cols : Z)
    (m state : list Z) (prev rowa : Z)
  : outcome (list Z * list Z * Z * Z * Z * Z) :=
  for_range 1 (time_cost + 1) (fun tau s =>
    step <-- wander_step n_rows tau ;;
    wander_pass sel row_len n_rows n_cols step s) (m, state, 0, 0, prev, rowa).

(** lyra2.rs:332-527: the setup phase after the input has been absorbed. *)
Definition setup (row_len n_rows n_cols : Z) (m state : list Z)
  : outcome (list Z * list Z * rows) :=
  '(m, state) <-- squeeze_row0 n_cols m state ;;
  '(m, state) <-- duplex_row1 row_len n_cols m state ;;
  setup_rows row_len n_rows n_cols m state.

(** lyra2.rs:245-653, parametric in the choice of [rowa]. *)
Definition lyra2_with (sel : selector) (k : Z) (pwd salt : list Z)
    (time_cost n_rows n_cols : Z) : outcome (list Z) :=
  (* 254-255 *)
  if time_cost <? 1 then Panic else
  if n_rows <? 3 then Panic else
  (* 272-275; [resize] to the length it already has is a no-op *)
  row_len <-- imul p BLOCKLENINT64 (as_i64 n_cols) ;;
  total <-- imul p (as_i64 n_rows) row_len ;;
  m <-- vec_zeroed p 8 (as_usize p total) ;;
  (* 284-324 *)
  nblocks <-- n_blocks_input pwd salt ;;
  m <-- write_input k pwd salt time_cost n_rows n_cols nblocks m ;;
  (* 329-339 *)
  state <-- absorb_input nblocks m init_state ;;
  (* 341-526 *)
  '(m, state, v) <-- setup row_len n_rows n_cols m state ;;
  (* 529-643 *)
  '(m, state, _, _, _, rowa) <--
    wander sel row_len time_cost n_rows n_cols m state (r_prev v) (r_rowa v) ;;
  (* 648-651 *)
  a <-- imul p rowa row_len ;;
  right <-- split_right m (as_usize p a) ;;
  state <-- absorb_block state right ;;
  squeeze p state k.

(** lyra2.rs:542: [rowa = (state[0] & (n_rows - 1)) as i64]. *)
Definition sel_lyra2 : selector := fun state index => (aget state 0, index).

(** lyra2mod/mod.rs:507,520-521: [index = state[index as usize & 0xf];
    rowa = (state[index as usize & 0xf] & (n_rows - 1)) as i64]. *)
Definition sel_lyra2mod : selector := fun state index =>
  let index := aget state (Z.to_nat (Z.land (as_usize p index) 0xf)) in
  (aget state (Z.to_nat (Z.land (as_usize p index) 0xf)), index).

(** lyra2.rs:245-653 [lyra2]. *)
Definition lyra2 := lyra2_with sel_lyra2.
(** lyra2mod/mod.rs:222-632 [lyra2mod]. *)
Definition lyra2mod := lyra2_with sel_lyra2mod.

(** lyra2.rs:669-672 [sum]. *)
Definition lyra2_sum (input : list Z) : outcome (list Z) := lyra2 32 input input 1 4 4.
(** lyra2mod/mod.rs:634-637 [sum]. *)
Definition lyra2mod_sum (input : list Z) : outcome (list Z) := lyra2mod 32 input input 1 4 4.
End lyra2.
