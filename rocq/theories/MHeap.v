(** * The model of MLyra2.v with a log of its heap buffers

    The functions below are those of MLyra2.v with one more result: the vectors of
    words that are allocated and dropped, and the vectors of bytes that are dropped,
    in order.  Dropping a [Vec] gives its memory back without changing it, so a log
    entry holds the contents at that moment; nothing is ever read from the log.
    [lyra2_heap_erase] (PHeap.v) proves that dropping the log gives back the functions
    of MLyra2.v, and source_heap_is_model (PHeapSrc.v) that the log is that of the
    translation of the source (SrcLyra2Heap.v, SrcLyra2modHeap.v).

    Not logged: allocations of byte vectors (the arguments are allocated by the caller;
    the growth of [tmp] in [squeeze] by reallocation is up to the allocator), the copies
    of the state array on the stack, and what happens when a call panics. *)
From Verif Require Import Machine MUtils MLyra2.
From Verif Require Export Held.


Section heap.
Context (p : platform).

(** lyra2.rs:148-162, as [squeeze]: [tmp] is dropped at the end, [out] is returned. *)
Definition squeeze_heap (state : list Z) (output_size : Z) : outcome (list Z * list hevent) :=
  let n := as_usize p output_size in
  out <-- vec_zeroed p 1 n ;;
  jmax <-- iadd p (Z.quot (as_i64 output_size) BLOCKLENBYTES) 1 ;;
  '(tmp, out, _) <--
    for_range 0 jmax (fun _ '(tmp, out, state) =>
      tmp <-- for_range 0 BLOCKLENINT64 (fun i tmp =>
                vec_extend p tmp (to_le_bytes 8 (aget state (Z.to_nat i)))) tmp ;;
      out <-- slice tmp 0 n ;;
      Ok (tmp, out, blake2b_lyra state)) ([], out, state) ;;
  Ok (out, [HFreeBytes tmp]).

(** lyra2.rs:334-339, as [absorb_input]: [_right.to_vec()] allocates a copy of the rest
    of the matrix, which [absorb_block_blake2_safe] owns and drops (198-211). *)
Definition absorb_input_heap (nblocks : Z) (m : list Z) (state : list Z)
  : outcome (list Z * list hevent) :=
  '(state, _, log) <--
    for_range 0 nblocks (fun _ '(state, ptr_word, log) =>
      right <-- split_right m ptr_word ;;
      let log := log ++ [HAlloc (vlen right)] in
      state <-- absorb_block_blake2_safe state right ;;
      let log := log ++ [HFree right] in
      ptr_word <-- szadd p ptr_word BLOCKLENBLAKE2SAFEINT64 ;;
      Ok (state, ptr_word, log)) (state, 0, []) ;;
  Ok (state, log).

(** lyra2.rs:245-653, as [lyra2_with].  [whole_matrix] is allocated at 274 ([resize] at
    275 keeps its length) and dropped at 653, then the arguments in reverse order;
    648-649 copy the matrix from row* on. *)
Definition lyra2_with_heap (sel : selector) (k : Z) (pwd salt : list Z)
    (time_cost n_rows n_cols : Z) : outcome (list Z * list hevent) :=
  if time_cost <? 1 then Panic else
  if n_rows <? 3 then Panic else
  row_len <-- imul p BLOCKLENINT64 (as_i64 n_cols) ;;
  total <-- imul p (as_i64 n_rows) row_len ;;
  m <-- vec_zeroed p 8 (as_usize p total) ;;
  let log := [HAlloc (vlen m)] in
  nblocks <-- n_blocks_input p pwd salt ;;
  m <-- write_input p k pwd salt time_cost n_rows n_cols nblocks m ;;
  '(state, log1) <-- absorb_input_heap nblocks m init_state ;;
  '(m, state, v) <-- setup p row_len n_rows n_cols m state ;;
  '(m, state, _, _, _, rowa) <--
    wander p sel row_len time_cost n_rows n_cols m state (r_prev v) (r_rowa v) ;;
  a <-- imul p rowa row_len ;;
  right <-- split_right m (as_usize p a) ;;
  state <-- absorb_block state right ;;
  let log2 := [HAlloc (vlen right); HFree right] in
  '(out, log3) <-- squeeze_heap state k ;;
  Ok (out, log ++ log1 ++ log2 ++ log3 ++ [HFree m; HFreeBytes salt; HFreeBytes pwd]).

(** lyra2.rs:245-653 [lyra2] and lyra2mod/mod.rs:222-632 [lyra2mod], with the log. *)
Definition lyra2_heap := lyra2_with_heap sel_lyra2.
(** lyra2mod/mod.rs:222-632 [lyra2mod], with the log. *)
Definition lyra2mod_heap := lyra2_with_heap (sel_lyra2mod p).
End heap.
