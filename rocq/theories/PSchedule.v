(** * Properties C08 - C12 and C50: which rows are worked on, and what setup forgets

    [lyra2_tr] is [lyra2] with a log of its steps (MTrace.v); the first theorem
    says that it is the same function.  [setup_ops log] lists the setup steps as
    (row, prev, row* ), [wander_ops log] the wandering steps as
    (pass, row, prev, row* ) and [visited log tau] the rows of pass [tau] in order. *)
From Verif Require Import Machine.
From Verif Require Import SpecWord SpecBlake2b SpecLyra2 SpecCalls.
From Verif Require MLyra2.
From Verif Require Import MTrace TraceFacts PLyra2Lemmas PScheduleLemmas CheckedRows.
From stdpp Require Import list_numbers.
#[local] Open Scope Z_scope.

Definition pw8 : list Z := [1; 2; 3; 4; 5; 6; 7; 8].

(** Dropping the log gives the modelled function, on every platform and input. *)
Theorem lyra2_log_erase p k pwd salt t R C :
  (x <-- lyra2_tr p k pwd salt t R C ;; Ok (fst x)) = MLyra2.lyra2 p k pwd salt t R C /\
  (x <-- lyra2mod_tr p k pwd salt t R C ;; Ok (fst x)) = MLyra2.lyra2mod p k pwd salt t R C.
Proof.
  exact (conj (lyra2_with_tr_erase p MLyra2.sel_lyra2 k pwd salt t R C)
              (lyra2_with_tr_erase p (MLyra2.sel_lyra2mod p) k pwd salt t R C)).
Qed.
Print Assumptions lyra2_log_erase.

(** ** C08: power-of-two row counts: every pass visits every row exactly once. *)
Theorem lyra2_pass_visits_all_rows p k pwd salt t e C out log :
  known_platform p -> 0 <= e ->
  rust_args (isize_max p) k pwd salt t (2 ^ e) C ->
  lyra2_tr p k pwd salt t (2 ^ e) C = Ok (out, log) ->
  (forall tau, 1 <= tau <= t ->
    let s := if Z.even tau then -1 else 2 ^ e / 2 - 1 in
    visited log tau = (fun i => (i * s) mod 2 ^ e) <$> seqZ 0 (2 ^ e) /\
    visited log tau ≡ₚ seqZ 0 (2 ^ e)) /\
  Z.of_nat (length (wander_ops log)) = t * 2 ^ e /\
  Z.of_nat (length (setup_ops log)) = 2 ^ e - 2.
Proof.
  exact (fun Hp He Ha E => pass_pow2 p MLyra2.sel_lyra2 k pwd salt t e C out log Hp He Ha
    (pow2_tr p k pwd salt t e C Hp He Ha out log (or_introl E)) E).
Qed.
Print Assumptions lyra2_pass_visits_all_rows.
Theorem lyra2mod_pass_visits_all_rows p k pwd salt t e C out log :
  known_platform p -> 0 <= e ->
  rust_args (isize_max p) k pwd salt t (2 ^ e) C ->
  lyra2mod_tr p k pwd salt t (2 ^ e) C = Ok (out, log) ->
  (forall tau, 1 <= tau <= t ->
    let s := if Z.even tau then -1 else 2 ^ e / 2 - 1 in
    visited log tau = (fun i => (i * s) mod 2 ^ e) <$> seqZ 0 (2 ^ e) /\
    visited log tau ≡ₚ seqZ 0 (2 ^ e)) /\
  Z.of_nat (length (wander_ops log)) = t * 2 ^ e /\
  Z.of_nat (length (setup_ops log)) = 2 ^ e - 2.
Proof.
  exact (fun Hp He Ha E => pass_pow2 p (MLyra2.sel_lyra2mod p) k pwd salt t e C out log Hp He Ha
    (pow2_tr p k pwd salt t e C Hp He Ha out log (or_intror E)) E).
Qed.
Print Assumptions lyra2mod_pass_visits_all_rows.
Example lyra2_pass_visits_all_rows_ex : exists out log,
  rust_args (isize_max debug64) 4 pw8 pw8 2 (2 ^ 3) 2 /\
  lyra2_tr debug64 4 pw8 pw8 2 (2 ^ 3) 2 = Ok (out, log) /\
  visited log 1 = [0; 3; 6; 1; 4; 7; 2; 5] /\ visited log 2 = [0; 7; 6; 5; 4; 3; 2; 1].
Proof.
  assert (Ha : rust_args (isize_max debug64) 4 pw8 pw8 2 (2 ^ 3) 2) by args_tac.
  destruct (logs debug64 4 pw8 pw8 2 (2 ^ 3) 2 ltac:(by right) Ha ltac:(accepted_tac)) as [[log E] _].
  do 2 eexists. split; [exact Ha|]. split; [exact E|].
  destruct (lyra2_pass_visits_all_rows debug64 4 pw8 pw8 2 3 2 _ log ltac:(by right) ltac:(lia) Ha E)
    as [Hv _].
  split; [rewrite (proj1 (Hv 1 ltac:(lia)))|rewrite (proj1 (Hv 2 ltac:(lia)))]; reflexivity.
Qed.

(** ** C09: other row counts.  In the wandering phase only rows whose number is a
    bit-submask of [n_rows - 1] are read or written; an even pass visits exactly
    those, each once. *)
Theorem lyra2_wandering_rows p k pwd salt t R C out log :
  known_platform p -> rust_args (isize_max p) k pwd salt t R C -> R < 2 ^ 63 \/ overflow_checks p = true ->
  lyra2_tr p k pwd salt t R C = Ok (out, log) ->
  (forall tau row prev rowa, (tau, row, prev, rowa) ∈ wander_ops log ->
     Z.land row (R - 1) = row /\ Z.land prev (R - 1) = prev /\ Z.land rowa (R - 1) = rowa) /\
  (forall tau, 1 <= tau <= t -> NoDup (visited log tau)) /\
  (forall tau x, 1 <= tau <= t -> Z.even tau = true ->
     x ∈ visited log tau <-> 0 <= x /\ Z.land x (R - 1) = x).
Proof. exact (fun Hp Ha HR E => wander_submasks p MLyra2.sel_lyra2 k pwd salt t R C out log Hp Ha (rows_tr p k pwd salt t R C Hp Ha HR out log (or_introl E)) E). Qed.
Print Assumptions lyra2_wandering_rows.
Theorem lyra2mod_wandering_rows p k pwd salt t R C out log :
  known_platform p -> rust_args (isize_max p) k pwd salt t R C -> R < 2 ^ 63 \/ overflow_checks p = true ->
  lyra2mod_tr p k pwd salt t R C = Ok (out, log) ->
  (forall tau row prev rowa, (tau, row, prev, rowa) ∈ wander_ops log ->
     Z.land row (R - 1) = row /\ Z.land prev (R - 1) = prev /\ Z.land rowa (R - 1) = rowa) /\
  (forall tau, 1 <= tau <= t -> NoDup (visited log tau)) /\
  (forall tau x, 1 <= tau <= t -> Z.even tau = true ->
     x ∈ visited log tau <-> 0 <= x /\ Z.land x (R - 1) = x).
Proof. exact (fun Hp Ha HR E => wander_submasks p (MLyra2.sel_lyra2mod p) k pwd salt t R C out log Hp Ha (rows_tr p k pwd salt t R C Hp Ha HR out log (or_intror E)) E). Qed.
Print Assumptions lyra2mod_wandering_rows.
Example lyra2_wandering_rows_ex : exists out log,
  rust_args (isize_max debug64) 4 pw8 pw8 2 7 2 /\
  lyra2_tr debug64 4 pw8 pw8 2 7 2 = Ok (out, log) /\ 4 ∈ visited log 2 /\ 1 ∉ visited log 2.
Proof.
  assert (Ha : rust_args (isize_max debug64) 4 pw8 pw8 2 7 2) by args_tac.
  destruct (logs debug64 4 pw8 pw8 2 7 2 ltac:(by right) Ha ltac:(accepted_tac)) as [[log E] _].
  do 2 eexists. split; [exact Ha|]. split; [exact E|].
  destruct (lyra2_wandering_rows debug64 4 pw8 pw8 2 7 2 _ log ltac:(by right) Ha ltac:(lia) E) as (_ & _ & Hv).
  clear E Ha. split; rewrite Hv by (lia || reflexivity); [split; [lia|reflexivity]|]. intros [_ H]. discriminate H.
Qed.
(** With [2^e + 1] rows an odd pass is a single row operation. *)
Theorem lyra2_odd_pass_single_row p k pwd salt t e C out log :
  known_platform p -> 1 <= e -> rust_args (isize_max p) k pwd salt t (2 ^ e + 1) C ->
  2 ^ e + 1 < 2 ^ 63 -> lyra2_tr p k pwd salt t (2 ^ e + 1) C = Ok (out, log) ->
  forall tau, 1 <= tau <= t -> Z.even tau = false -> visited log tau = [0].
Proof. exact (odd_pass_single p MLyra2.sel_lyra2 k pwd salt t e C out log). Qed.
Print Assumptions lyra2_odd_pass_single_row.
Example lyra2_odd_pass_single_row_ex : exists out log,
  rust_args (isize_max debug64) 4 pw8 pw8 1 (2 ^ 4 + 1) 2 /\
  lyra2_tr debug64 4 pw8 pw8 1 (2 ^ 4 + 1) 2 = Ok (out, log).
Proof.
  assert (Ha : rust_args (isize_max debug64) 4 pw8 pw8 1 (2 ^ 4 + 1) 2) by args_tac.
  destruct (logs debug64 4 pw8 pw8 1 (2 ^ 4 + 1) 2 ltac:(by right) Ha ltac:(accepted_tac)) as [[log E] _].
  do 2 eexists. split; [exact Ha|exact E].
Qed.
(** The desired statement, that every pass of every accepted call visits every
    row, is false: with seven rows, row 1 is never visited in pass 2, nor is it
    ever read or written in the wandering phase. *)
Theorem lyra2_every_pass_visits_all_rows_refuted :
  ~ (forall k pwd salt t R C out log,
       rust_args (isize_max debug64) k pwd salt t R C -> lyra2_tr debug64 k pwd salt t R C = Ok (out, log) ->
       forall tau row, 1 <= tau <= t -> 0 <= row < R -> row ∈ visited log tau).
Proof.
  intros H. destruct lyra2_wandering_rows_ex as (out & log & Ha & E & _ & Hn).
  apply Hn. exact (H 4 pw8 pw8 2 7 2 out log Ha E 2 1 ltac:(lia) ltac:(lia)).
Qed.
Print Assumptions lyra2_every_pass_visits_all_rows_refuted.

(** ** C10: setup builds the rows 2 .. n_rows-1 in order; the revisited row is an
    earlier one, given by the closed form; over a complete window every earlier
    row is revisited exactly once. *)
Theorem lyra2_setup_rows p k pwd salt t R C out log :
  known_platform p -> rust_args (isize_max p) k pwd salt t R C -> R < 2 ^ 63 \/ overflow_checks p = true ->
  lyra2_tr p k pwd salt t R C = Ok (out, log) ->
  (fun '(row, _, _) => row) <$> setup_ops log = seqZ 2 (R - 2) /\
  (forall row prev rowa, (row, prev, rowa) ∈ setup_ops log ->
     prev = row - 1 /\ 0 <= rowa < prev /\
     let e := Z.log2 row in let w := 2 ^ e in
     rowa = ((row - w) * (if e =? 1 then 1 else if Z.even e then w / 2 + 1 else w / 2 - 1)) mod w) /\
  (forall e, 1 <= e -> 2 ^ (e + 1) <= R ->
     omap (fun '(row, _, rowa) => if (2 ^ e <=? row) && (row <? 2 ^ (e + 1)) then Some rowa else None)
       (setup_ops log) ≡ₚ seqZ 0 (2 ^ e)).
Proof. exact (fun Hp Ha HR E => setup_covers p MLyra2.sel_lyra2 k pwd salt t R C out log Hp Ha (rows_tr p k pwd salt t R C Hp Ha HR out log (or_introl E)) E). Qed.
Print Assumptions lyra2_setup_rows.
Theorem lyra2mod_setup_rows p k pwd salt t R C out log :
  known_platform p -> rust_args (isize_max p) k pwd salt t R C -> R < 2 ^ 63 \/ overflow_checks p = true ->
  lyra2mod_tr p k pwd salt t R C = Ok (out, log) ->
  (fun '(row, _, _) => row) <$> setup_ops log = seqZ 2 (R - 2) /\
  (forall row prev rowa, (row, prev, rowa) ∈ setup_ops log ->
     prev = row - 1 /\ 0 <= rowa < prev /\
     let e := Z.log2 row in let w := 2 ^ e in
     rowa = ((row - w) * (if e =? 1 then 1 else if Z.even e then w / 2 + 1 else w / 2 - 1)) mod w) /\
  (forall e, 1 <= e -> 2 ^ (e + 1) <= R ->
     omap (fun '(row, _, rowa) => if (2 ^ e <=? row) && (row <? 2 ^ (e + 1)) then Some rowa else None)
       (setup_ops log) ≡ₚ seqZ 0 (2 ^ e)).
Proof. exact (fun Hp Ha HR E => setup_covers p (MLyra2.sel_lyra2mod p) k pwd salt t R C out log Hp Ha (rows_tr p k pwd salt t R C Hp Ha HR out log (or_intror E)) E). Qed.
Print Assumptions lyra2mod_setup_rows.
Example lyra2_setup_rows_ex : exists out log,
  rust_args (isize_max release64) 4 pw8 pw8 1 9 2 /\
  lyra2_tr release64 4 pw8 pw8 1 9 2 = Ok (out, log) /\
  setup_ops log = [(2, 1, 0); (3, 2, 1); (4, 3, 0); (5, 4, 3); (6, 5, 2); (7, 6, 1); (8, 7, 0)].
Proof.
  assert (Ha : rust_args (isize_max release64) 4 pw8 pw8 1 9 2) by args_tac.
  destruct (logs release64 4 pw8 pw8 1 9 2 ltac:(by right) Ha ltac:(accepted_tac)) as [[log E] _].
  do 2 eexists. split; [exact Ha|]. split; [exact E|].
  rewrite (log_setup release64 ltac:(by right) MLyra2.sel_lyra2 4 pw8 pw8 1 9 2 _ log Ha ltac:(lia) E). vm_compute. reflexivity.
Qed.

(** ** C11: the schedule is a function of n_rows and time_cost. *)
Theorem lyra2_schedule_public p p' k k' pwd pwd' salt salt' t R C C' out out' log log' :
  known_platform p -> known_platform p' ->
  rust_args (isize_max p) k pwd salt t R C -> rust_args (isize_max p') k' pwd' salt' t R C' ->
  lyra2_tr p k pwd salt t R C = Ok (out, log) ->
  lyra2_tr p' k' pwd' salt' t R C' = Ok (out', log') ->
  setup_ops log = setup_ops log' /\
  (fun '(tau, row, prev, _) => (tau, row, prev)) <$> wander_ops log =
  (fun '(tau, row, prev, _) => (tau, row, prev)) <$> wander_ops log'.
Proof.
  exact (schedule_public p p' MLyra2.sel_lyra2 MLyra2.sel_lyra2 k k' pwd pwd' salt salt' t R C C' out out' log log').
Qed.
Print Assumptions lyra2_schedule_public.
(** It is also the same in the REv3 variant. *)
Theorem lyra2mod_schedule_public p p' k k' pwd pwd' salt salt' t R C C' out out' log log' :
  known_platform p -> known_platform p' ->
  rust_args (isize_max p) k pwd salt t R C -> rust_args (isize_max p') k' pwd' salt' t R C' ->
  lyra2mod_tr p k pwd salt t R C = Ok (out, log) ->
  lyra2_tr p' k' pwd' salt' t R C' = Ok (out', log') \/ lyra2mod_tr p' k' pwd' salt' t R C' = Ok (out', log') ->
  setup_ops log = setup_ops log' /\
  (fun '(tau, row, prev, _) => (tau, row, prev)) <$> wander_ops log =
  (fun '(tau, row, prev, _) => (tau, row, prev)) <$> wander_ops log'.
Proof.
  exact (fun Hp Hp' Ha Ha' E E' => match E' with
    | or_introl E' => schedule_public p p' (MLyra2.sel_lyra2mod p) MLyra2.sel_lyra2
        k k' pwd pwd' salt salt' t R C C' out out' log log' Hp Hp' Ha Ha' E E'
    | or_intror E' => schedule_public p p' (MLyra2.sel_lyra2mod p) (MLyra2.sel_lyra2mod p')
        k k' pwd pwd' salt salt' t R C C' out out' log log' Hp Hp' Ha Ha' E E'
    end).
Qed.
Print Assumptions lyra2mod_schedule_public.
(** The choice of row* is not covered: it does depend on the data. *)
Theorem lyra2_rowa_depends_on_data : exists pwd pwd' out out' log log',
  rust_args (isize_max debug64) 1 pwd [] 1 4 1 /\ rust_args (isize_max debug64) 1 pwd' [] 1 4 1 /\
  lyra2_tr debug64 1 pwd [] 1 4 1 = Ok (out, log) /\ lyra2_tr debug64 1 pwd' [] 1 4 1 = Ok (out', log') /\
  length pwd = length pwd' /\ wander_ops log <> wander_ops log'.
Proof.
  exists pw8, (reverse pw8). do 4 eexists. split; [args_tac|]. split; [args_tac|].
  split; [vm_compute; reflexivity|]. split; [vm_compute; reflexivity|].
  split; [reflexivity|]. vm_compute. discriminate.
Qed.
Print Assumptions lyra2_rowa_depends_on_data.
Example lyra2_schedule_public_ex : exists out out' log log',
  rust_args (isize_max debug64) 4 pw8 pw8 3 5 2 /\ rust_args (isize_max release32) 9 (reverse pw8) [] 3 5 1 /\
  lyra2_tr debug64 4 pw8 pw8 3 5 2 = Ok (out, log) /\ lyra2mod_tr release32 9 (reverse pw8) [] 3 5 1 = Ok (out', log').
Proof.
  assert (Ha : rust_args (isize_max debug64) 4 pw8 pw8 3 5 2) by args_tac.
  assert (Ha' : rust_args (isize_max release32) 9 (reverse pw8) [] 3 5 1) by args_tac.
  destruct (logs debug64 4 pw8 pw8 3 5 2 ltac:(by right) Ha ltac:(accepted_tac)) as [[log E] _].
  destruct (logs release32 9 (reverse pw8) [] 3 5 1 ltac:(by left) Ha' ltac:(accepted_tac)) as [_ [log' E']].
  do 4 eexists. split; [exact Ha|]. split; [exact Ha'|]. split; [exact E|exact E'].
Qed.

(** ** C12: setup overwrites all of the matrix: whatever the matrix [m] of
    [12 * R * C] words held before (password, salt, basil), the matrix, sponge
    state and row variables after setup are the same. *)
Theorem lyra2_setup_forgets_input p R C m m' st :
  known_platform p -> 3 <= R -> 1 <= C -> 96 * R * C <= isize_max p ->
  Z.of_nat (length m) = 12 * R * C -> Z.of_nat (length m') = 12 * R * C ->
  Forall (word 64) m -> Forall (word 64) m' -> state16 st ->
  (exists r, MLyra2.setup p (12 * C) R C m st = Ok r) /\
  MLyra2.setup p (12 * C) R C m st = MLyra2.setup p (12 * C) R C m' st.
Proof. exact (setup_forgets p R C m m' st). Qed.
Print Assumptions lyra2_setup_forgets_input.
Example lyra2_setup_forgets_input_ex :
  let m := replicate 72 7 in let m' := Z.of_nat <$> seq 0 72 in
  Z.of_nat (length m) = 12 * 3 * 2 /\ Z.of_nat (length m') = 12 * 3 * 2 /\
  Forall (word 64) m /\ Forall (word 64) m' /\ state16 MLyra2.init_state /\ m <> m'.
Proof.
  cbv zeta. split; [done|]. split; [done|].
  split; [apply Forall_replicate; split; lia|].
  split; [apply Forall_fmap, Forall_seq; intros j Hj; split; cbn; lia|].
  split; [split; [done|repeat (constructor; [split; vm_compute; congruence|]); constructor]|]. vm_compute. discriminate.
Qed.

(** ** C50: every row operation reads the row written by the one before it: row [r] of the
    setup phase reads row [r - 1]; the wandering phase first reads the last row of the
    setup phase, then in each step the row of the step before. *)
Theorem lyra2_rows_read_next p k pwd salt t R C out log :
  known_platform p -> rust_args (isize_max p) k pwd salt t R C -> R < 2 ^ 63 \/ overflow_checks p = true ->
  lyra2_tr p k pwd salt t R C = Ok (out, log) \/ lyra2mod_tr p k pwd salt t R C = Ok (out, log) ->
  (fun '(_, prev, _) => prev) <$> setup_ops log = seqZ 1 (R - 2) /\
  exists last, ((fun '(_, _, prev, _) => prev) <$> wander_ops log) ++ [last] =
               (R - 1) :: ((fun '(_, row, _, _) => row) <$> wander_ops log).
Proof.
  exact (fun Hp Ha HR0 E => let HR := rows_tr p k pwd salt t R C Hp Ha HR0 out log E in match E with
    | or_introl E => read_next p MLyra2.sel_lyra2 k pwd salt t R C out log Hp Ha HR E
    | or_intror E => read_next p (MLyra2.sel_lyra2mod p) k pwd salt t R C out log Hp Ha HR E
    end).
Qed.
Print Assumptions lyra2_rows_read_next.
Example lyra2_rows_read_next_ex : exists out log,
  rust_args (isize_max debug64) 1 pw8 [] 1 4 1 /\ lyra2_tr debug64 1 pw8 [] 1 4 1 = Ok (out, log) /\
  (fun '(_, row, prev, _) => (row, prev)) <$> wander_ops log = [(0, 3); (1, 0); (2, 1); (3, 2)].
Proof. do 2 eexists. split; [args_tac|]. split; [vm_compute; reflexivity|]. vm_compute. reflexivity. Qed.
