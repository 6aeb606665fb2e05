(** * [lyra2] cut at the end of the setup and of the wandering phase

    The statements are those of [lyra2_with] (MLyra2.v) in the same order;
    [lyra2_phases] (PhaseFacts.v) proves that running the parts one after the other is
    [lyra2_with], so the values described here are what the modelled code holds in
    memory at lines 527 and 643. *)
From Verif Require Import Machine MUtils MLyra2 MTrace.

Section phases.
Context (p : platform).

(** lyra2.rs:245-527: up to the end of the setup phase.  The result is the length of a
    row, the matrix, the sponge state and the row variables. *)
Definition until_setup (k : Z) (pwd salt : list Z) (time_cost n_rows n_cols : Z)
  : outcome (Z * list Z * list Z * rows) :=
  if time_cost <? 1 then Panic else
  if n_rows <? 3 then Panic else
  row_len <-- imul p BLOCKLENINT64 (as_i64 n_cols) ;;
  total <-- imul p (as_i64 n_rows) row_len ;;
  m <-- vec_zeroed p 8 (as_usize p total) ;;
  nblocks <-- n_blocks_input p pwd salt ;;
  m <-- write_input p k pwd salt time_cost n_rows n_cols nblocks m ;;
  state <-- absorb_input p nblocks m init_state ;;
  '(m, state, v) <-- setup p row_len n_rows n_cols m state ;;
  Ok (row_len, m, state, v).

(** lyra2.rs:245-643: up to the end of the wandering phase.  The result is the length of
    a row, the matrix, the sponge state, the last row* and the log of the row operations
    of the wandering phase (MTrace.v). *)
Definition until_wandering (sel : selector) (k : Z) (pwd salt : list Z) (time_cost n_rows n_cols : Z)
  : outcome (Z * list Z * list Z * Z * list event) :=
  '(row_len, m, state, v) <-- until_setup k pwd salt time_cost n_rows n_cols ;;
  '(m, state, _, _, _, rowa, log) <--
    wander_tr p sel row_len time_cost n_rows n_cols m state (r_prev v) (r_rowa v) [] ;;
  Ok (row_len, m, state, rowa, log).

(** lyra2.rs:648-653: the rest. *)
Definition wrap_up (k row_len : Z) (m state : list Z) (rowa : Z) : outcome (list Z) :=
  a <-- imul p rowa row_len ;;
  right <-- split_right m (as_usize p a) ;;
  state <-- absorb_block state right ;;
  squeeze p state k.
End phases.
