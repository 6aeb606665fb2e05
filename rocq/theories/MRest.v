(** * [lyra2] after the end of the setup phase

    The rest of [lyra2_with] (MLyra2.v) after [until_setup] (MPhases.v), in the same order;
    [setup_then_rest] (UnusedFacts.v) proves that the two parts make the call. *)
From Verif Require Import Machine MUtils MLyra2 MTrace MPhases.

(** lyra2.rs:529-653: the wandering phase and the extraction of the key, from the matrix,
    the sponge state and the row variables that the setup phase leaves. *)
Definition from_setup (p : platform) (sel : selector) (k row_len time_cost n_rows n_cols : Z)
    (m state : list Z) (v : rows) : outcome (list Z) :=
  '(m, state, _, _, _, rowa) <--
    wander p sel row_len time_cost n_rows n_cols m state (r_prev v) (r_rowa v) ;;
  wrap_up p k row_len m state rowa.
