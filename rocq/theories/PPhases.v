(** * Properties C38 and C39: no phase loses information

    [until_setup] and [until_wandering] (MPhases.v) are the first parts of [lyra2] and
    [lyra2mod]; the first theorem says that running them and then [wrap_up] is the
    call.  They return the memory matrix and the sponge state at the end of the setup
    and of the wandering phase; the latter also returns the log of the row operations. *)
From Verif Require Import Machine.
From Verif Require Import SpecWord SpecBlake2b SpecLyra2 SpecCalls SpecPhases.
From Verif Require MLyra2.
From Verif Require Import MTrace MPhases PhaseFacts PLyra2Lemmas PPhasesLemmas WanderMerge PermFacts.
#[local] Open Scope Z_scope.

(** The phases in sequence are the modelled function, on every platform and input. *)
Theorem phases_make_the_call p k pwd salt t R C :
  MLyra2.lyra2 p k pwd salt t R C =
    ('(row_len, m, state, rowa, _) <-- until_wandering p MLyra2.sel_lyra2 k pwd salt t R C ;;
     wrap_up p k row_len m state rowa) /\
  MLyra2.lyra2mod p k pwd salt t R C =
    ('(row_len, m, state, rowa, _) <-- until_wandering p (MLyra2.sel_lyra2mod p) k pwd salt t R C ;;
     wrap_up p k row_len m state rowa).
Proof.
  exact (conj (phases p MLyra2.sel_lyra2 k pwd salt t R C) (phases p (MLyra2.sel_lyra2mod p) k pwd salt t R C)).
Qed.
Print Assumptions phases_make_the_call.

(** ** C38: calls whose absorbed inputs differ in exactly one block end the setup phase
    with different contents of memory and sponge. *)
Theorem setup_keeps_input p k pwd salt t k' pwd' salt' t' R C :
  known_platform p ->
  rust_args (isize_max p) k pwd salt t R C -> rust_args (isize_max p) k' pwd' salt' t' R C ->
  accepted (isize_max p) 0 pwd salt t R C -> accepted (isize_max p) 0 pwd' salt' t' R C ->
  one_block_apart (code_blocks k pwd salt t R C) (code_blocks k' pwd' salt' t' R C) ->
  exists row_len m st m' st' v,
    until_setup p k pwd salt t R C = Ok (row_len, m, st, v) /\
    until_setup p k' pwd' salt' t' R C = Ok (row_len, m', st', v) /\
    (m, st) <> (m', st').
Proof. exact (setup_apart p k pwd salt t k' pwd' salt' t' R C). Qed.
Print Assumptions setup_keeps_input.

(** The cases a caller meets: another key length or another time cost; passwords that
    differ inside one aligned 64-byte block; and a short digest used both as password
    and as salt. *)
Theorem changed_inputs_one_block_apart :
  (forall k k' pwd salt t R C, k <> k' ->
    one_block_apart (code_blocks k pwd salt t R C) (code_blocks k' pwd salt t R C)) /\
  (forall k pwd salt t t' R C, t <> t' ->
    one_block_apart (code_blocks k pwd salt t R C) (code_blocks k pwd salt t' R C)) /\
  (forall k a x x' b salt t R C q, Forall byte x -> Forall byte x' ->
    length a = (q * 64)%nat -> length x = length x' -> (8 | Z.of_nat (length x)) ->
    (length x <= 64)%nat -> x <> x' ->
    one_block_apart (code_blocks k (a ++ x ++ b) salt t R C) (code_blocks k (a ++ x' ++ b) salt t R C)) /\
  (forall k d d' t R C, Forall byte d -> Forall byte d' ->
    length d = length d' -> (8 | Z.of_nat (length d)) -> (length d <= 32)%nat -> d <> d' ->
    one_block_apart (code_blocks k d d t R C) (code_blocks k d' d' t R C)).
Proof. exact (conj apart_k (conj apart_t (conj apart_pwd apart_both))). Qed.
Print Assumptions changed_inputs_one_block_apart.

(** The call the chained hashes make (lyra2.rs:241-243), on a 64-bit platform: distinct
    32-byte digests end the setup phase differently. *)
Definition digest_a : list Z := replicate 32 7.
Definition digest_b : list Z := replicate 31 7 ++ [8].
Example setup_keeps_input_digest : exists row_len m st m' st' v,
  until_setup debug64 32 digest_a digest_a 1 8 8 = Ok (row_len, m, st, v) /\
  until_setup debug64 32 digest_b digest_b 1 8 8 = Ok (row_len, m', st', v) /\ (m, st) <> (m', st').
Proof.
  apply setup_keeps_input; [right; reflexivity|args_tac|args_tac|accepted_tac|accepted_tac|].
  apply changed_inputs_one_block_apart; [forall_byte|forall_byte|reflexivity|exists 4; reflexivity|vm_compute; lia|vm_compute; discriminate].
Qed.

(** ** C39: the wandering phase loses nothing either, as long as the same rows are
    revisited: whichever word the revisited row is chosen from, two calls with the same
    costs that perform the same sequence of row operations and end with the same memory
    and sponge had the same memory and sponge before. *)
Theorem wandering_loses_nothing p sel k pwd salt k' pwd' salt' t R C row_len row_len' m st rowa rowa' log :
  known_platform p ->
  rust_args (isize_max p) k pwd salt t R C -> rust_args (isize_max p) k' pwd' salt' t R C ->
  accepted (isize_max p) 0 pwd salt t R C -> accepted (isize_max p) 0 pwd' salt' t R C ->
  until_wandering p sel k pwd salt t R C = Ok (row_len, m, st, rowa, log) ->
  until_wandering p sel k' pwd' salt' t R C = Ok (row_len', m, st, rowa', log) ->
  until_setup p k pwd salt t R C = until_setup p k' pwd' salt' t R C.
Proof. exact (until_wandering_inj p sel k pwd salt k' pwd' salt' t R C row_len row_len' m st rowa rowa' log). Qed.
Print Assumptions wandering_loses_nothing.

Theorem wandering_keeps_input p sel k pwd salt k' pwd' salt' t R C row_len row_len' m st rowa m' st' rowa' log :
  known_platform p ->
  rust_args (isize_max p) k pwd salt t R C -> rust_args (isize_max p) k' pwd' salt' t R C ->
  accepted (isize_max p) 0 pwd salt t R C -> accepted (isize_max p) 0 pwd' salt' t R C ->
  one_block_apart (code_blocks k pwd salt t R C) (code_blocks k' pwd' salt' t R C) ->
  until_wandering p sel k pwd salt t R C = Ok (row_len, m, st, rowa, log) ->
  until_wandering p sel k' pwd' salt' t R C = Ok (row_len', m', st', rowa', log) ->
  (m, st) <> (m', st').
Proof.
  exact (wandering_apart p sel k pwd salt k' pwd' salt' t R C row_len row_len' m st rowa m' st' rowa' log).
Qed.
Print Assumptions wandering_keeps_input.

(** Two passwords for which the calls revisit the same rows 1, 2, 1, 0. *)
Definition pw (b : Z) : list Z := [b; 0; 0; 0; 0; 0; 0; 0].
Definition wander_log_of (b : Z) : option (list event) :=
  match until_wandering debug64 MLyra2.sel_lyra2 8 (pw b) (pw 0) 1 4 1 with
  | Ok (_, _, _, _, log) => Some log | _ => None
  end.
Example same_rows_revisited :
  wander_log_of 10 = Some [EvWander 1 0 3 1; EvWander 1 1 0 2; EvWander 1 2 1 1; EvWander 1 3 2 0] /\
  wander_log_of 27 = wander_log_of 10.
Proof. vm_compute. split; reflexivity. Qed.
#[local] Opaque until_wandering.
Lemma log_some (o : outcome (Z * list Z * list Z * Z * list event)) log :
  match o with Ok (_, _, _, _, log) => Some log | _ => None end = Some log ->
  exists rl m st ra, o = Ok (rl, m, st, ra, log).
Proof. destruct o as [[[[[rl m] st] ra] l]| |]; [|discriminate..]. intros [= ->]. eauto. Qed.
Example wandering_keeps_input_pw : exists rl m st ra rl' m' st' ra' log,
  until_wandering debug64 MLyra2.sel_lyra2 8 (pw 10) (pw 0) 1 4 1 = Ok (rl, m, st, ra, log) /\
  until_wandering debug64 MLyra2.sel_lyra2 8 (pw 27) (pw 0) 1 4 1 = Ok (rl', m', st', ra', log) /\
  (m, st) <> (m', st').
Proof.
  pose proof same_rows_revisited as [H1 H2]. rewrite H1 in H2. unfold wander_log_of in H1, H2.
  apply log_some in H1 as (rl & m & st & ra & E). apply log_some in H2 as (rl' & m' & st' & ra' & E').
  exists rl, m, st, ra, rl', m', st', ra'. eexists. split; [exact E|]. split; [exact E'|].
  eapply (wandering_keeps_input debug64 MLyra2.sel_lyra2 8 (pw 10) (pw 0) 8 (pw 27) (pw 0) 1 4 1);
    [right; reflexivity|args_tac|args_tac|accepted_tac|accepted_tac| |exact E|exact E'].
  apply (proj1 (proj2 (proj2 changed_inputs_one_block_apart)) 8 [] (pw 10) (pw 27) [] (pw 0) 1 4 1 0%nat);
    [forall_byte|forall_byte|reflexivity|reflexivity|exists 1; reflexivity|vm_compute; lia|discriminate].
Qed.

(** More than that: for every sequence of row operations (row, previous row, revisited
    row) there is a permutation [F ops] of the contents of memory and sponge, and the
    wandering phase of every accepted call applies the permutation of its log.  So for a
    given sequence of rows all contents are equally likely afterwards if they were before. *)
Theorem wandering_permutes_contents p R C :
  known_platform p -> 3 <= R -> 1 <= C -> 96 * R * C <= isize_max p ->
  let in_range := Forall (fun '(row, prev, rowa) => 0 <= row < R /\ 0 <= prev < R /\ 0 <= rowa < R) in
  exists F : list (Z * Z * Z) -> list Z * list Z -> list Z * list Z,
    (forall ops, in_range ops -> permutes_on (contents R C) (F ops)) /\
    (forall sel k pwd salt t row_len m st v row_len' m' st' rowa log,
       rust_args (isize_max p) k pwd salt t R C -> accepted (isize_max p) 0 pwd salt t R C ->
       until_setup p k pwd salt t R C = Ok (row_len, m, st, v) ->
       until_wandering p sel k pwd salt t R C = Ok (row_len', m', st', rowa, log) ->
       let ops := (fun '(_, row, prev, rowa) => (row, prev, rowa)) <$> wander_ops log in
       contents R C (m, st) /\ in_range ops /\ (m', st') = F ops (m, st)).
Proof. exact (wandering_permutes p R C). Qed.
Print Assumptions wandering_permutes_contents.
Example wandering_permutes_contents_ex :
  exists F : list Z * list Z -> list Z * list Z, permutes_on (contents 4 1) F /\
  exists rl m st v ra m' st' log,
    until_setup debug64 8 (pw 10) (pw 0) 1 4 1 = Ok (rl, m, st, v) /\
    until_wandering debug64 MLyra2.sel_lyra2 8 (pw 10) (pw 0) 1 4 1 = Ok (rl, m', st', ra, log) /\
    (m', st') = F (m, st).
Proof.
  pose proof same_rows_revisited as [H1 _]. unfold wander_log_of in H1.
  apply log_some in H1 as (rl & m' & st' & ra & E).
  destruct (setup_before _ _ _ _ _ _ _ _ _ _ _ _ _ E) as (m & st & v & Es).
  destruct (wandering_permutes_contents debug64 4 1 ltac:(by right) ltac:(lia) ltac:(lia) ltac:(vm_compute; discriminate)) as (F & HF & HC).
  destruct (HC MLyra2.sel_lyra2 8 (pw 10) (pw 0) 1 rl m st v rl m' st' ra _ ltac:(args_tac) ltac:(accepted_tac) Es E) as (_ & Hr & HE).
  eexists. split; [apply (HF _ Hr)|]. exists rl, m, st, v, ra, m', st'. eexists. split; [exact Es|]. split; [exact E|exact HE].
Qed.

(** That the same rows are revisited cannot be left out: with four rows of one column and
    one pass (row 3 written last by the setup phase), two distinct contents of memory and
    sponge are brought to the same contents by revisiting different rows.  Nothing is
    claimed about whether a password leads to these contents. *)
Theorem wandering_injective_refuted : exists m st m' st',
  length m = 48%nat /\ length st = 16%nat /\ Forall (word 64) m /\ Forall (word 64) st /\
  length m' = 48%nat /\ length st' = 16%nat /\ Forall (word 64) m' /\ Forall (word 64) st' /\
  (m, st) <> (m', st') /\
  MLyra2.wander debug64 MLyra2.sel_lyra2 12 1 4 1 m st 3 0 =
    MLyra2.wander debug64 MLyra2.sel_lyra2 12 1 4 1 m' st' 3 0 /\
  (exists r, MLyra2.wander debug64 MLyra2.sel_lyra2 12 1 4 1 m st 3 0 = Ok r).
Proof. exact wandering_merges. Qed.
Print Assumptions wandering_injective_refuted.

(** It follows, the contents being finite in number, that some contents are never reached. *)
Theorem wandering_reaches_all_refuted : exists s', contents 4 1 s' /\
  forall s, contents 4 1 s -> forall i row prev rowa,
    MLyra2.wander debug64 MLyra2.sel_lyra2 12 1 4 1 s.1 s.2 3 0 <> Ok (s', i, row, prev, rowa).
Proof. exact wandering_misses. Qed.
Print Assumptions wandering_reaches_all_refuted.
