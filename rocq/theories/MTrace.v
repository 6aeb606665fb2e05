(** * The model of MLyra2.v with a log of its steps

    The functions below are those of MLyra2.v with one more component, a log to
    which each sponge absorption of the input and each row operation appends an
    entry; nothing is ever read from the log.  [lyra2_tr_erase] (TraceFacts.v)
    proves that dropping the log gives back the function of MLyra2.v, so the log
    describes what the modelled code does. *)
From Verif Require Import Machine MUtils MLyra2.

(** The steps of lyra2.rs:334-642 that are logged. *)
Inductive event :=
| EvAbsorb (block : list Z)            (* lyra2.rs:337: the eight words of an input block *)
| EvSetup (row prev rowa : Z)          (* lyra2.rs:418-511: one setup row *)
| EvWander (tau row prev rowa : Z).    (* lyra2.rs:547-629: one row of wandering pass tau *)

(** Reading the log: the absorbed blocks, the setup steps (row, prev, row* ), the
    wandering steps (pass, row, prev, row* ), and the rows visited in one pass. Blocks absorbed at lyra2.rs:337. *)
Definition absorbed (log : list event) : list (list Z) :=
  omap (fun e => match e with EvAbsorb b => Some b | _ => None end) log.
(** Setup steps, lyra2.rs:418-511. *)
Definition setup_ops (log : list event) : list (Z * Z * Z) :=
  omap (fun e => match e with EvSetup row prev rowa => Some (row, prev, rowa) | _ => None end) log.
(** Wandering steps, lyra2.rs:547-629. *)
Definition wander_ops (log : list event) : list (Z * Z * Z * Z) :=
  omap (fun e => match e with EvWander tau row prev rowa => Some (tau, row, prev, rowa) | _ => None end) log.
(** Values of [row] in one execution of lyra2.rs:538-642. *)
Definition visited (log : list event) (pass : Z) : list Z :=
  omap (fun e => match e with
                 | EvWander tau row _ _ => if tau =? pass then Some row else None
                 | _ => None end) log.

Section trace.
Context (p : platform).

(** lyra2.rs:334-339, as [absorb_input]. *)
Definition absorb_input_tr (nblocks : Z) (m : list Z) (state : list Z)
  : outcome (list Z * list event) :=
  '(state, _, log) <--
    for_range 0 nblocks (fun _ '(state, ptr_word, log) =>
      right <-- split_right m ptr_word ;;
      state <-- absorb_block_blake2_safe state right ;;
      ptr_word <-- szadd p ptr_word BLOCKLENBLAKE2SAFEINT64 ;;
      Ok (state, ptr_word, log ++ [EvAbsorb (take 8 right)])) (state, 0, []) ;;
  Ok (state, log).

(** lyra2.rs:414-526, as [setup_rows]. *)
Definition setup_rows_tr (row_len n_rows n_cols : Z) (m state : list Z) (log : list event)
  : outcome (list Z * list Z * rows * list event) :=
  for_range (r_row rows_init) (as_i64 n_rows) (fun _ '(m, state, v, log) =>
    '(m, state) <-- duplex_row_setup p row_len n_cols (r_row v) (r_prev v) (r_rowa v) m state ;;
    let log := log ++ [EvSetup (r_row v) (r_prev v) (r_rowa v)] in
    v <-- rows_next p v ;;
    Ok (m, state, v, log)) (m, state, rows_init, log).

(** lyra2.rs:538-642, as [wander_pass]. *)
Definition wander_pass_tr (sel : selector) (row_len n_rows n_cols tau step : Z)
    (s : list Z * list Z * Z * Z * Z * Z * list event)
  : outcome (list Z * list Z * Z * Z * Z * Z * list event) :=
  loop64 (fun '(m, state, index, row, prev, rowa, log) =>
    let '(x, index) := sel state index in
    n1 <-- usub p n_rows 1 ;;
    let rowa := as_i64 (Z.land x n1) in
    '(m, state) <-- duplex_row p row_len n_cols row prev rowa m state ;;
    let log := log ++ [EvWander tau row prev rowa] in
    let prev := row in
    row <-- wander_next p n_rows step row ;;
    let s := (m, state, index, row, prev, rowa, log) in
    if row =? 0 then Ok (inr s) else Ok (inl s)) s.

(** lyra2.rs:529-643, as [wander]. *)
Definition wander_tr (sel : selector) (row_len time_cost n_rows n_cols : Z)
    (m state : list Z) (prev rowa : Z) (log : list event)
  : outcome (list Z * list Z * Z * Z * Z * Z * list event) :=
  for_range 1 (time_cost + 1) (fun tau s =>
    step <-- wander_step p n_rows tau ;;
    wander_pass_tr sel row_len n_rows n_cols tau step s) (m, state, 0, 0, prev, rowa, log).

(** lyra2.rs:332-527, as [setup]. *)
Definition setup_tr (row_len n_rows n_cols : Z) (m state : list Z) (log : list event)
  : outcome (list Z * list Z * rows * list event) :=
  '(m, state) <-- squeeze_row0 p n_cols m state ;;
  '(m, state) <-- duplex_row1 p row_len n_cols m state ;;
  setup_rows_tr row_len n_rows n_cols m state log.

(** lyra2.rs:245-653, as [lyra2_with]. *)
Definition lyra2_with_tr (sel : selector) (k : Z) (pwd salt : list Z)
    (time_cost n_rows n_cols : Z) : outcome (list Z * list event) :=
  if time_cost <? 1 then Panic else
  if n_rows <? 3 then Panic else
  row_len <-- imul p BLOCKLENINT64 (as_i64 n_cols) ;;
  total <-- imul p (as_i64 n_rows) row_len ;;
  m <-- vec_zeroed p 8 (as_usize p total) ;;
  nblocks <-- n_blocks_input p pwd salt ;;
  m <-- write_input p k pwd salt time_cost n_rows n_cols nblocks m ;;
  '(state, log) <-- absorb_input_tr nblocks m init_state ;;
  '(m, state, v, log) <-- setup_tr row_len n_rows n_cols m state log ;;
  '(m, state, _, _, _, rowa, log) <--
    wander_tr sel row_len time_cost n_rows n_cols m state (r_prev v) (r_rowa v) log ;;
  a <-- imul p rowa row_len ;;
  right <-- split_right m (as_usize p a) ;;
  state <-- absorb_block state right ;;
  out <-- squeeze p state k ;;
  Ok (out, log).

(** lyra2.rs:245-653 [lyra2] and lyra2mod/mod.rs:222-632 [lyra2mod], with the log. *)
Definition lyra2_tr := lyra2_with_tr sel_lyra2.
(** lyra2mod/mod.rs:222-632 [lyra2mod], with the log. *)
Definition lyra2mod_tr := lyra2_with_tr (sel_lyra2mod p).
End trace.
