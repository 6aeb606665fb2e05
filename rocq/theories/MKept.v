(** * The model of MAccess.v with a log that survives a panic

    Statement by statement the functions of MAccess.v (and so of MLyra2.v), in the
    monad of Kept.v.  KeptFacts.v proves that a call that returns has the log of
    MAccess.v, and SrcLogTop.v that the log is that of the translated source. *)
From Verif Require Import Machine MUtils MLyra2.
From Verif Require Export Kept.

(** A call of [round_lyra], lyra2.rs:116-127 and 136. *)
Definition kperm (v : list Z) : kept (list Z) := kdone (Ok (round_lyra v)) Perm.

(** lyra2.rs:115-129 [blake2b_lyra] *)
Definition blake2b_lyra_kept (v : list Z) : kept (list Z) :=
  v <=~ kperm v ;; v <=~ kperm v ;; v <=~ kperm v ;; v <=~ kperm v ;;
  v <=~ kperm v ;; v <=~ kperm v ;; v <=~ kperm v ;; v <=~ kperm v ;;
  v <=~ kperm v ;; v <=~ kperm v ;; v <=~ kperm v ;; v <=~ kperm v ;;
  kret v.

(** lyra2.rs:135-138 [reduced_blake2b_lyra] *)
Definition reduced_kept (v : list Z) : kept (list Z) := kperm v.

(** lyra2.rs:173-184 and 200-207, as [xor_in]. *)
Definition xor_in_kept (base : Z) (w : list Z) (s : list Z) (j : nat) : kept (list Z) :=
  x <=~ krd_right base w (Z.of_nat j) ;;
  kret (<[j := Z.lxor (aget s j) x]> s).

(** lyra2.rs:171-189 [absorb_block] *)
Definition absorb_block_kept (base : Z) (s w : list Z) : kept (list Z) :=
  s <=~ kfold (xor_in_kept base w) [0; 1; 2; 3; 4; 5; 6; 7; 8; 9; 10; 11]%nat s ;;
  blake2b_lyra_kept s.

(** lyra2.rs:198-211 [absorb_block_blake2_safe] *)
Definition absorb_block_blake2_safe_kept (base : Z) (s w : list Z) : kept (list Z) :=
  s <=~ kfold (xor_in_kept base w) [0; 1; 2; 3; 4; 5; 6; 7]%nat s ;;
  blake2b_lyra_kept s.

Section kept_log.
Context (p : platform).

(** lyra2.rs:148-162 [squeeze] *)
Definition squeeze_kept (state : list Z) (output_size : Z) : kept (list Z) :=
  let n := as_usize p output_size in
  out <=~ kquiet (vec_zeroed p 1 n) ;;
  jmax <=~ kquiet (iadd p (Z.quot (as_i64 output_size) BLOCKLENBYTES) 1) ;;
  '(_, out, _) <=~
    kfor 0 jmax (fun _ '(tmp, out, state) =>
      tmp <=~ kquiet (for_range 0 BLOCKLENINT64 (fun i tmp =>
                vec_extend p tmp (to_le_bytes 8 (aget state (Z.to_nat i)))) tmp) ;;
      out <=~ kquiet (slice tmp 0 n) ;;
      state <=~ blake2b_lyra_kept state ;;
      kret (tmp, out, state)) ([], out, state) ;;
  kret out.

(** lyra2.rs:288-293 and 297-302, as [copy_words]. *)
Definition copy_words_kept (data : list Z) (ptr_byte : Z) (m : list Z) : kept (list Z) :=
  kfor 0 (vlen data / 8) (fun j m =>
    start <=~ kquiet (szmul p 8 j) ;;
    end_ <=~ kquiet (szadd p start 8) ;;
    bs <=~ kquiet (slice data start end_) ;;
    w <=~ kquiet (read_u64_le bs) ;;
    at_ <=~ kquiet (szadd p ptr_byte j) ;;
    kwr m at_ w) m.

(** lyra2.rs:307-318, as [push_word]. *)
Definition push_word_kept (s : list Z * Z) (x : Z) : kept (list Z * Z) :=
  let '(m, ptr_byte) := s in
  m <=~ kwr m ptr_byte x ;;
  ptr_byte <=~ kquiet (szadd p ptr_byte 1) ;;
  kret (m, ptr_byte).

(** lyra2.rs:286-324, as [write_input]. *)
Definition write_input_kept (k : Z) (pwd salt : list Z) (time_cost n_rows n_cols : Z)
    (nblocks : Z) (m : list Z) : kept (list Z) :=
  let ptr_byte := 0 in
  m <=~ copy_words_kept pwd ptr_byte m ;;
  ptr_byte <=~ kquiet (szadd p ptr_byte (as_usize p (vlen pwd / 8))) ;;
  m <=~ copy_words_kept salt ptr_byte m ;;
  ptr_byte <=~ kquiet (szadd p ptr_byte (as_usize p (vlen salt / 8))) ;;
  '(m, ptr_byte) <=~ push_word_kept (m, ptr_byte) k ;;
  '(m, ptr_byte) <=~ push_word_kept (m, ptr_byte) (vlen pwd) ;;
  '(m, ptr_byte) <=~ push_word_kept (m, ptr_byte) (vlen salt) ;;
  '(m, ptr_byte) <=~ push_word_kept (m, ptr_byte) time_cost ;;
  '(m, ptr_byte) <=~ push_word_kept (m, ptr_byte) n_rows ;;
  '(m, ptr_byte) <=~ push_word_kept (m, ptr_byte) n_cols ;;
  m <=~ kwr m ptr_byte 0x80 ;;
  a <=~ kquiet (imul p nblocks BLOCKLENBLAKE2SAFEBYTES) ;;
  b <=~ kquiet (isub p (Z.quot a 8) 1) ;;
  let ptr_byte := as_usize p b in
  x <=~ krd m ptr_byte ;;
  kwr m ptr_byte (Z.lxor x 0x0100000000000000).

(** lyra2.rs:334-339, as [absorb_input]. *)
Definition absorb_input_kept (nblocks : Z) (m : list Z) (state : list Z) : kept (list Z) :=
  '(state, _) <=~
    kfor 0 nblocks (fun _ '(state, ptr_word) =>
      right <=~ kquiet (split_right m ptr_word) ;;
      state <=~ absorb_block_blake2_safe_kept ptr_word state right ;;
      ptr_word <=~ kquiet (szadd p ptr_word BLOCKLENBLAKE2SAFEINT64) ;;
      kret (state, ptr_word)) (state, 0) ;;
  kret state.

(** lyra2.rs:344-366, as [squeeze_row0]. *)
Definition squeeze_row0_kept (n_cols : Z) (m state : list Z) : kept (list Z * list Z) :=
  a <=~ kquiet (isub p (as_i64 n_cols) 1) ;;
  ptr <=~ kquiet (imul p a BLOCKLENINT64) ;;
  '(m, state, _) <=~
    kfor 0 n_cols (fun _ '(m, state, ptr) =>
      m <=~ kfold (fun m j =>
              a <=~ kquiet (iadd p ptr j) ;;
              kwr m (as_usize p a) (aget state (Z.to_nat j))) offs12 m ;;
      let ptr := wrap_i64 (ptr - BLOCKLENINT64) in
      state <=~ reduced_kept state ;;
      kret (m, state, ptr)) (m, state, ptr) ;;
  kret (m, state).

(** lyra2.rs:368-412, as [duplex_row1]. *)
Definition duplex_row1_kept (row_len n_cols : Z) (m state : list Z) : kept (list Z * list Z) :=
  kfor 0 n_cols (fun i '(m, state) =>
    state <=~ kfold (fun state j =>
                a <=~ kquiet (cell0 p i j) ;;
                x <=~ krd m a ;;
                kret (<[Z.to_nat j := Z.lxor (aget state (Z.to_nat j)) x]> state)) offs12 state ;;
    state <=~ reduced_kept state ;;
    m <=~ kfold (fun m j =>
            a <=~ kquiet (cell0 p i j) ;;
            x <=~ krd m a ;;
            b <=~ kquiet (cell1_rev p row_len n_cols i j) ;;
            kwr m b (Z.lxor x (aget state (Z.to_nat j)))) offs12 m ;;
    kret (m, state)) (m, state).

(** lyra2.rs:420-467 and 548-597, as [absorb_sum]. *)
Definition absorb_sum_kept (row_len i prev rowa : Z) (m state : list Z) : kept (list Z) :=
  kfold (fun state j =>
    a <=~ kquiet (cell p row_len i prev j) ;;
    x <=~ krd m a ;;
    b <=~ kquiet (cell p row_len i rowa j) ;;
    y <=~ krd m b ;;
    kret (<[Z.to_nat j := Z.lxor (aget state (Z.to_nat j)) (wadd 64 x y)]> state)) offs12 state.

(** lyra2.rs:499-510 and 617-628, as [xor_rotW]. *)
Definition xor_rotW_kept (row_len i rowa : Z) (state m : list Z) : kept (list Z) :=
  kfold (fun m '(j, s) =>
    a <=~ kquiet (cell p row_len i rowa j) ;;
    x <=~ krd m a ;;
    kwr m a (Z.lxor x (aget state s))) rotW_pairs m.

(** lyra2.rs:418-511, as [duplex_row_setup]. *)
Definition duplex_row_setup_kept (row_len n_cols row prev rowa : Z) (m state : list Z)
  : kept (list Z * list Z) :=
  kfor 0 n_cols (fun i '(m, state) =>
    state <=~ absorb_sum_kept row_len i prev rowa m state ;;
    state <=~ reduced_kept state ;;
    m <=~ kfold (fun m j =>
            a <=~ kquiet (cell p row_len i prev j) ;;
            x <=~ krd m a ;;
            b <=~ kquiet (cell_rev p row_len n_cols i row j) ;;
            kwr m b (Z.lxor x (aget state (Z.to_nat j)))) offs12 m ;;
    m <=~ xor_rotW_kept row_len i rowa state m ;;
    kret (m, state)) (m, state).

(** lyra2.rs:414-526, as [setup_rows]. *)
Definition setup_rows_kept (row_len n_rows n_cols : Z) (m state : list Z)
  : kept (list Z * list Z * rows) :=
  kfor (r_row rows_init) (as_i64 n_rows) (fun _ '(m, state, v) =>
    '(m, state) <=~ duplex_row_setup_kept row_len n_cols (r_row v) (r_prev v) (r_rowa v) m state ;;
    v <=~ kquiet (rows_next p v) ;;
    kret (m, state, v)) (m, state, rows_init).

(** lyra2.rs:547-629, as [duplex_row]. *)
Definition duplex_row_kept (row_len n_cols row prev rowa : Z) (m state : list Z)
  : kept (list Z * list Z) :=
  kfor 0 n_cols (fun i '(m, state) =>
    state <=~ absorb_sum_kept row_len i prev rowa m state ;;
    state <=~ reduced_kept state ;;
    m <=~ kfold (fun m j =>
            a <=~ kquiet (cell p row_len i row j) ;;
            x <=~ krd m a ;;
            kwr m a (Z.lxor x (aget state (Z.to_nat j)))) offs12 m ;;
    m <=~ xor_rotW_kept row_len i rowa state m ;;
    kret (m, state)) (m, state).

(** lyra2.rs:538-642, as [wander_pass]. *)
Definition wander_pass_kept (sel : selector) (row_len n_rows n_cols step : Z)
    (s : list Z * list Z * Z * Z * Z * Z)
  : kept (list Z * list Z * Z * Z * Z * Z) :=
  kloop (fun '(m, state, index, row, prev, rowa) =>
    let '(x, index) := sel state index in
    n1 <=~ kquiet (usub p n_rows 1) ;;
    let rowa := as_i64 (Z.land x n1) in
    '(m, state) <=~ duplex_row_kept row_len n_cols row prev rowa m state ;;
    let prev := row in
    row <=~ kquiet (wander_next p n_rows step row) ;;
    let s := (m, state, index, row, prev, rowa) in
    if row =? 0 then kret (inr s) else kret (inl s)) s.

(** lyra2.rs:529-643, as [wander]. *)
Definition wander_kept (sel : selector) (row_len time_cost n_rows n_cols : Z)
    (m state : list Z) (prev rowa : Z)
  : kept (list Z * list Z * Z * Z * Z * Z) :=
  kfor 1 (time_cost + 1) (fun tau s =>
    step <=~ kquiet (wander_step p n_rows tau) ;;
    wander_pass_kept sel row_len n_rows n_cols step s) (m, state, 0, 0, prev, rowa).

(** lyra2.rs:332-527, as [setup]. *)
Definition setup_kept (row_len n_rows n_cols : Z) (m state : list Z)
  : kept (list Z * list Z * rows) :=
  '(m, state) <=~ squeeze_row0_kept n_cols m state ;;
  '(m, state) <=~ duplex_row1_kept row_len n_cols m state ;;
  setup_rows_kept row_len n_rows n_cols m state.

(** lyra2.rs:245-653, as [lyra2_with].  The zeroing of the matrix at its
    allocation (272-275) is not logged. *)
Definition lyra2_with_kept (sel : selector) (k : Z) (pwd salt : list Z)
    (time_cost n_rows n_cols : Z) : kept (list Z) :=
  if time_cost <? 1 then kquiet Panic else
  if n_rows <? 3 then kquiet Panic else
  row_len <=~ kquiet (imul p BLOCKLENINT64 (as_i64 n_cols)) ;;
  total <=~ kquiet (imul p (as_i64 n_rows) row_len) ;;
  m <=~ kquiet (vec_zeroed p 8 (as_usize p total)) ;;
  nblocks <=~ kquiet (n_blocks_input p pwd salt) ;;
  m <=~ write_input_kept k pwd salt time_cost n_rows n_cols nblocks m ;;
  state <=~ absorb_input_kept nblocks m init_state ;;
  '(m, state, v) <=~ setup_kept row_len n_rows n_cols m state ;;
  '(m, state, _, _, _, rowa) <=~
    wander_kept sel row_len time_cost n_rows n_cols m state (r_prev v) (r_rowa v) ;;
  a <=~ kquiet (imul p rowa row_len) ;;
  right <=~ kquiet (split_right m (as_usize p a)) ;;
  state <=~ absorb_block_kept (as_usize p a) state right ;;
  squeeze_kept state k.

(** lyra2.rs:245-653 [lyra2] and lyra2mod/mod.rs:222-632 [lyra2mod], with the log. *)
Definition lyra2_kept := lyra2_with_kept sel_lyra2.
(** lyra2mod/mod.rs:222-632 [lyra2mod], with the log. *)
Definition lyra2mod_kept := lyra2_with_kept (sel_lyra2mod p).
End kept_log.
