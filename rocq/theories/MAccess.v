(** * The model of MLyra2.v with a log of its memory accesses and its work

    The functions below are those of MLyra2.v, statement by statement, with one
    more result: the list of the matrix words read and written and of the
    executions of [round_lyra], in order.  The log is produced by the primitive
    operations only ([rd], [wr], [rd_right] and [perm]), at the place where the
    source indexes [whole_matrix] or calls [round_lyra]; nothing is ever read from
    it.  AccessFacts.v proves that dropping the log gives back the function of
    MLyra2.v.  Accesses to the 16-word state, to the password and salt and to the
    output are not logged. *)
From Verif Require Import Machine MUtils MLyra2.
From Verif Require Export Log.

(** A call of [round_lyra], lyra2.rs:116-127 and 136. *)
Definition perm (v : list Z) : acc (list Z) := Ok (round_lyra v, [Perm]).

(** lyra2.rs:115-129 [blake2b_lyra] *)
Definition blake2b_lyra_acc (v : list Z) : acc (list Z) :=
  v <~~ perm v ;; v <~~ perm v ;; v <~~ perm v ;; v <~~ perm v ;;
  v <~~ perm v ;; v <~~ perm v ;; v <~~ perm v ;; v <~~ perm v ;;
  v <~~ perm v ;; v <~~ perm v ;; v <~~ perm v ;; v <~~ perm v ;;
  aret v.

(** lyra2.rs:135-138 [reduced_blake2b_lyra] *)
Definition reduced_acc (v : list Z) : acc (list Z) := perm v.

(** lyra2.rs:173-184 and 200-207, as [xor_in]. *)
Definition xor_in_acc (base : Z) (w : list Z) (s : list Z) (j : nat) : acc (list Z) :=
  x <~~ rd_right base w (Z.of_nat j) ;;
  aret (<[j := Z.lxor (aget s j) x]> s).

(** lyra2.rs:171-189 [absorb_block] *)
Definition absorb_block_acc (base : Z) (s w : list Z) : acc (list Z) :=
  s <~~ afold (xor_in_acc base w) [0; 1; 2; 3; 4; 5; 6; 7; 8; 9; 10; 11]%nat s ;;
  blake2b_lyra_acc s.

(** lyra2.rs:198-211 [absorb_block_blake2_safe] *)
Definition absorb_block_blake2_safe_acc (base : Z) (s w : list Z) : acc (list Z) :=
  s <~~ afold (xor_in_acc base w) [0; 1; 2; 3; 4; 5; 6; 7]%nat s ;;
  blake2b_lyra_acc s.

Section access.
Context (p : platform).

(** lyra2.rs:148-162 [squeeze] *)
Definition squeeze_acc (state : list Z) (output_size : Z) : acc (list Z) :=
  let n := as_usize p output_size in
  out <~~ quiet (vec_zeroed p 1 n) ;;
  jmax <~~ quiet (iadd p (Z.quot (as_i64 output_size) BLOCKLENBYTES) 1) ;;
  '(_, out, _) <~~
    afor 0 jmax (fun _ '(tmp, out, state) =>
      tmp <~~ quiet (for_range 0 BLOCKLENINT64 (fun i tmp =>
                vec_extend p tmp (to_le_bytes 8 (aget state (Z.to_nat i)))) tmp) ;;
      out <~~ quiet (slice tmp 0 n) ;;
      state <~~ blake2b_lyra_acc state ;;
      aret (tmp, out, state)) ([], out, state) ;;
  aret out.

(** lyra2.rs:288-293 and 297-302, as [copy_words]. *)
Definition copy_words_acc (data : list Z) (ptr_byte : Z) (m : list Z) : acc (list Z) :=
  afor 0 (vlen data / 8) (fun j m =>
    start <~~ quiet (szmul p 8 j) ;;
    end_ <~~ quiet (szadd p start 8) ;;
    bs <~~ quiet (slice data start end_) ;;
    w <~~ quiet (read_u64_le bs) ;;
    at_ <~~ quiet (szadd p ptr_byte j) ;;
    wr m at_ w) m.

(** lyra2.rs:307-318, as [push_word]. *)
Definition push_word_acc (s : list Z * Z) (x : Z) : acc (list Z * Z) :=
  let '(m, ptr_byte) := s in
  m <~~ wr m ptr_byte x ;;
  ptr_byte <~~ quiet (szadd p ptr_byte 1) ;;
  aret (m, ptr_byte).

(** lyra2.rs:286-324, as [write_input]. *)
Definition write_input_acc (k : Z) (pwd salt : list Z) (time_cost n_rows n_cols : Z)
    (nblocks : Z) (m : list Z) : acc (list Z) :=
  let ptr_byte := 0 in
  m <~~ copy_words_acc pwd ptr_byte m ;;
  ptr_byte <~~ quiet (szadd p ptr_byte (as_usize p (vlen pwd / 8))) ;;
  m <~~ copy_words_acc salt ptr_byte m ;;
  ptr_byte <~~ quiet (szadd p ptr_byte (as_usize p (vlen salt / 8))) ;;
  '(m, ptr_byte) <~~ push_word_acc (m, ptr_byte) k ;;
  '(m, ptr_byte) <~~ push_word_acc (m, ptr_byte) (vlen pwd) ;;
  '(m, ptr_byte) <~~ push_word_acc (m, ptr_byte) (vlen salt) ;;
  '(m, ptr_byte) <~~ push_word_acc (m, ptr_byte) time_cost ;;
  '(m, ptr_byte) <~~ push_word_acc (m, ptr_byte) n_rows ;;
  '(m, ptr_byte) <~~ push_word_acc (m, ptr_byte) n_cols ;;
  m <~~ wr m ptr_byte 0x80 ;;
  a <~~ quiet (imul p nblocks BLOCKLENBLAKE2SAFEBYTES) ;;
  b <~~ quiet (isub p (Z.quot a 8) 1) ;;
  let ptr_byte := as_usize p b in
  x <~~ rd m ptr_byte ;;
  wr m ptr_byte (Z.lxor x 0x0100000000000000).

(** lyra2.rs:334-339, as [absorb_input]. *)
Definition absorb_input_acc (nblocks : Z) (m : list Z) (state : list Z) : acc (list Z) :=
  '(state, _) <~~
    afor 0 nblocks (fun _ '(state, ptr_word) =>
      right <~~ quiet (split_right m ptr_word) ;;
      state <~~ absorb_block_blake2_safe_acc ptr_word state right ;;
      ptr_word <~~ quiet (szadd p ptr_word BLOCKLENBLAKE2SAFEINT64) ;;
      aret (state, ptr_word)) (state, 0) ;;
  aret state.

(** lyra2.rs:344-366, as [squeeze_row0]. *)
Definition squeeze_row0_acc (n_cols : Z) (m state : list Z) : acc (list Z * list Z) :=
  a <~~ quiet (isub p (as_i64 n_cols) 1) ;;
  ptr <~~ quiet (imul p a BLOCKLENINT64) ;;
  '(m, state, _) <~~
    afor 0 n_cols (fun _ '(m, state, ptr) =>
      m <~~ afold (fun m j =>
              a <~~ quiet (iadd p ptr j) ;;
              wr m (as_usize p a) (aget state (Z.to_nat j))) offs12 m ;;
      let ptr := wrap_i64 (ptr - BLOCKLENINT64) in
      state <~~ reduced_acc state ;;
      aret (m, state, ptr)) (m, state, ptr) ;;
  aret (m, state).

(** lyra2.rs:368-412, as [duplex_row1]. *)
Definition duplex_row1_acc (row_len n_cols : Z) (m state : list Z) : acc (list Z * list Z) :=
  afor 0 n_cols (fun i '(m, state) =>
    state <~~ afold (fun state j =>
                a <~~ quiet (cell0 p i j) ;;
                x <~~ rd m a ;;
                aret (<[Z.to_nat j := Z.lxor (aget state (Z.to_nat j)) x]> state)) offs12 state ;;
    state <~~ reduced_acc state ;;
    m <~~ afold (fun m j =>
            a <~~ quiet (cell0 p i j) ;;
            x <~~ rd m a ;;
            b <~~ quiet (cell1_rev p row_len n_cols i j) ;;
            wr m b (Z.lxor x (aget state (Z.to_nat j)))) offs12 m ;;
    aret (m, state)) (m, state).

(** lyra2.rs:420-467 and 548-597, as [absorb_sum]. *)
Definition absorb_sum_acc (row_len i prev rowa : Z) (m state : list Z) : acc (list Z) :=
  afold (fun state j =>
    a <~~ quiet (cell p row_len i prev j) ;;
    x <~~ rd m a ;;
    b <~~ quiet (cell p row_len i rowa j) ;;
    y <~~ rd m b ;;
    aret (<[Z.to_nat j := Z.lxor (aget state (Z.to_nat j)) (wadd 64 x y)]> state)) offs12 state.

(** lyra2.rs:499-510 and 617-628, as [xor_rotW]. *)
Definition xor_rotW_acc (row_len i rowa : Z) (state m : list Z) : acc (list Z) :=
  afold (fun m '(j, s) =>
    a <~~ quiet (cell p row_len i rowa j) ;;
    x <~~ rd m a ;;
    wr m a (Z.lxor x (aget state s))) rotW_pairs m.

(** lyra2.rs:418-511, as [duplex_row_setup]. *)
Definition duplex_row_setup_acc (row_len n_cols row prev rowa : Z) (m state : list Z)
  : acc (list Z * list Z) :=
  afor 0 n_cols (fun i '(m, state) =>
    state <~~ absorb_sum_acc row_len i prev rowa m state ;;
    state <~~ reduced_acc state ;;
    m <~~ afold (fun m j =>
            a <~~ quiet (cell p row_len i prev j) ;;
            x <~~ rd m a ;;
            b <~~ quiet (cell_rev p row_len n_cols i row j) ;;
            wr m b (Z.lxor x (aget state (Z.to_nat j)))) offs12 m ;;
    m <~~ xor_rotW_acc row_len i rowa state m ;;
    aret (m, state)) (m, state).

(** lyra2.rs:414-526, as [setup_rows]. *)
Definition setup_rows_acc (row_len n_rows n_cols : Z) (m state : list Z)
  : acc (list Z * list Z * rows) :=
  afor (r_row rows_init) (as_i64 n_rows) (fun _ '(m, state, v) =>
    '(m, state) <~~ duplex_row_setup_acc row_len n_cols (r_row v) (r_prev v) (r_rowa v) m state ;;
    v <~~ quiet (rows_next p v) ;;
    aret (m, state, v)) (m, state, rows_init).

(** lyra2.rs:547-629, as [duplex_row]. *)
Definition duplex_row_acc (row_len n_cols row prev rowa : Z) (m state : list Z)
  : acc (list Z * list Z) :=
  afor 0 n_cols (fun i '(m, state) =>
    state <~~ absorb_sum_acc row_len i prev rowa m state ;;
    state <~~ reduced_acc state ;;
    m <~~ afold (fun m j =>
            a <~~ quiet (cell p row_len i row j) ;;
            x <~~ rd m a ;;
            wr m a (Z.lxor x (aget state (Z.to_nat j)))) offs12 m ;;
    m <~~ xor_rotW_acc row_len i rowa state m ;;
    aret (m, state)) (m, state).

(** lyra2.rs:538-642, as [wander_pass]. *)
Definition wander_pass_acc (sel : selector) (row_len n_rows n_cols step : Z)
    (s : list Z * list Z * Z * Z * Z * Z)
  : acc (list Z * list Z * Z * Z * Z * Z) :=
  aloop (fun '(m, state, index, row, prev, rowa) =>
    let '(x, index) := sel state index in
    n1 <~~ quiet (usub p n_rows 1) ;;
    let rowa := as_i64 (Z.land x n1) in
    '(m, state) <~~ duplex_row_acc row_len n_cols row prev rowa m state ;;
    let prev := row in
    row <~~ quiet (wander_next p n_rows step row) ;;
    let s := (m, state, index, row, prev, rowa) in
    if row =? 0 then aret (inr s) else aret (inl s)) s.

(** lyra2.rs:529-643, as [wander]. *)
Definition wander_acc (sel : selector) (row_len time_cost n_rows n_cols : Z)
    (m state : list Z) (prev rowa : Z)
  : acc (list Z * list Z * Z * Z * Z * Z) :=
  afor 1 (time_cost + 1) (fun tau s =>
    step <~~ quiet (wander_step p n_rows tau) ;;
    wander_pass_acc sel row_len n_rows n_cols step s) (m, state, 0, 0, prev, rowa).

(** lyra2.rs:332-527, as [setup]. *)
Definition setup_acc (row_len n_rows n_cols : Z) (m state : list Z)
  : acc (list Z * list Z * rows) :=
  '(m, state) <~~ squeeze_row0_acc n_cols m state ;;
  '(m, state) <~~ duplex_row1_acc row_len n_cols m state ;;
  setup_rows_acc row_len n_rows n_cols m state.

(** lyra2.rs:245-653, as [lyra2_with].  The zeroing of the matrix at its
    allocation (272-275) is not logged. *)
Definition lyra2_with_acc (sel : selector) (k : Z) (pwd salt : list Z)
    (time_cost n_rows n_cols : Z) : acc (list Z) :=
  if time_cost <? 1 then Panic else
  if n_rows <? 3 then Panic else
  row_len <~~ quiet (imul p BLOCKLENINT64 (as_i64 n_cols)) ;;
  total <~~ quiet (imul p (as_i64 n_rows) row_len) ;;
  m <~~ quiet (vec_zeroed p 8 (as_usize p total)) ;;
  nblocks <~~ quiet (n_blocks_input p pwd salt) ;;
  m <~~ write_input_acc k pwd salt time_cost n_rows n_cols nblocks m ;;
  state <~~ absorb_input_acc nblocks m init_state ;;
  '(m, state, v) <~~ setup_acc row_len n_rows n_cols m state ;;
  '(m, state, _, _, _, rowa) <~~
    wander_acc sel row_len time_cost n_rows n_cols m state (r_prev v) (r_rowa v) ;;
  a <~~ quiet (imul p rowa row_len) ;;
  right <~~ quiet (split_right m (as_usize p a)) ;;
  state <~~ absorb_block_acc (as_usize p a) state right ;;
  squeeze_acc state k.

(** lyra2.rs:245-653 [lyra2] and lyra2mod/mod.rs:222-632 [lyra2mod], with the log. *)
Definition lyra2_acc := lyra2_with_acc sel_lyra2.
(** lyra2mod/mod.rs:222-632 [lyra2mod], with the log. *)
Definition lyra2mod_acc := lyra2_with_acc (sel_lyra2mod p).
End access.
