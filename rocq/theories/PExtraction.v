(** * Property C51: no key is favoured

    [until_setup], [until_wandering] and [wrap_up] (MPhases.v) are the three parts of
    [lyra2] and [lyra2mod] ([phases_make_the_call], PPhases.v). *)
From Verif Require Import Machine MachineFacts.
From Verif Require Import SpecWord SpecBlake2b SpecLyra2 SpecCalls SpecPhases SpecRowChoice SpecExtraction.
From Verif Require MLyra2.
From Verif Require Import MTrace MPhases PLyra2Lemmas PPhasesLemmas PermFacts KeyCount.
#[local] Open Scope Z_scope.
#[local] Opaque all_states.

(** The pairs counted below are all contents of memory and sponge, each once. *)
Theorem all_contents_are_all R C : 0 <= R -> 0 <= C ->
  (forall s, s ∈ SpecExtraction.all_contents R C <-> contents R C s) /\ NoDup (SpecExtraction.all_contents R C).
Proof.
  exact (fun HR HC => conj
    (fun s => all_contents_elem R C (Z.to_nat (12 * R * C)) s
       (Z2Nat.id (12 * R * C) ltac:(nia)))
    (all_contents_nodup (Z.to_nat (12 * R * C)))).
Qed.
Print Assumptions all_contents_are_all.

(** For every matrix and every last row: the extraction of a key is total, and each key of
    at most 96 bytes is extracted from the same number of the 2^1024 sponge states. *)
Theorem extraction_unbiased p R C m rowa key :
  known_platform p -> 3 <= R -> 1 <= C -> 96 * R * C <= isize_max p ->
  Z.of_nat (length m) = 12 * R * C -> Forall (word 64) m -> 0 <= rowa < R ->
  (length key <= 96)%nat -> Forall byte key ->
  exists G : list Z -> list Z,
    (forall st, state16 st -> wrap_up p (Z.of_nat (length key)) (12 * C) m st rowa = Ok (G st)) /\
    states_giving G key = 2 ^ (1024 - 8 * Z.of_nat (length key)).
Proof. exact (extraction_count p R C m rowa key). Qed.
Print Assumptions extraction_unbiased.

(** The wandering phase included: for every sequence of row operations (row, previous row,
    revisited row) the key is a function of the contents of memory and sponge after the
    setup phase, and every key comes from the same number of contents.  So a key can be more
    likely than another only through the setup phase or the choice of the rows. *)
Theorem keys_equally_likely p R C k :
  known_platform p -> 3 <= R -> 1 <= C -> 96 * R * C <= isize_max p -> 0 <= k <= 96 ->
  let in_range := Forall (fun '(row, prev, rowa) => 0 <= row < R /\ 0 <= prev < R /\ 0 <= rowa < R) in
  exists G : list (Z * Z * Z) -> list Z * list Z -> list Z,
    (forall ops key, in_range ops -> Z.of_nat (length key) = k -> Forall byte key ->
       contents_giving R C (G ops) key = 2 ^ (768 * R * C + 1024 - 8 * k)) /\
    (forall sel pwd salt t row_len m st v row_len' m' st' rowa log,
       rust_args (isize_max p) k pwd salt t R C -> accepted (isize_max p) 0 pwd salt t R C ->
       until_setup p k pwd salt t R C = Ok (row_len, m, st, v) ->
       until_wandering p sel k pwd salt t R C = Ok (row_len', m', st', rowa, log) ->
       let ops := (fun '(_, row, prev, rowa) => (row, prev, rowa)) <$> wander_ops log in
       contents R C (m, st) /\ in_range ops /\
       MLyra2.lyra2_with p sel k pwd salt t R C = Ok (G ops (m, st))).
Proof. exact (keys_equally p R C k). Qed.
Print Assumptions keys_equally_likely.
(** [lyra2] and [lyra2mod] are the two instances of [lyra2_with]. *)
Example keys_instances p k pwd salt t R C :
  MLyra2.lyra2 p k pwd salt t R C = MLyra2.lyra2_with p MLyra2.sel_lyra2 k pwd salt t R C /\
  MLyra2.lyra2mod p k pwd salt t R C = MLyra2.lyra2_with p (MLyra2.sel_lyra2mod p) k pwd salt t R C.
Proof. split; reflexivity. Qed.

(** A call, and a key of one byte: 2^4088 contents of four rows of one block lead to it. *)
#[local] Opaque until_wandering until_setup MLyra2.lyra2_with.
Example keys_equally_likely_ex :
  exists G : list Z * list Z -> list Z,
    (forall b, byte b -> contents_giving 4 1 G [b] = 2 ^ 4088) /\
    exists m st, contents 4 1 (m, st) /\
      MLyra2.lyra2_with debug64 MLyra2.sel_lyra2 1 [47; 0; 0; 0; 0; 0; 0; 0] [] 1 4 1 = Ok (G (m, st)).
Proof.
  destruct (keys_equally_likely debug64 4 1 1 ltac:(by right) ltac:(lia) ltac:(lia) ltac:(vm_compute; discriminate) ltac:(lia))
    as (G & HG & HC).
  pose proof (lyra2_value debug64 1 [47; 0; 0; 0; 0; 0; 0; 0] [] 1 4 1 ltac:(by right) ltac:(args_tac) ltac:(accepted_tac)) as E.
  change (MLyra2.lyra2 debug64 1 [47; 0; 0; 0; 0; 0; 0; 0] [] 1 4 1) with (MLyra2.lyra2_with debug64 MLyra2.sel_lyra2 1 [47; 0; 0; 0; 0; 0; 0; 0] [] 1 4 1) in E.
  rewrite (PhaseFacts.phases debug64 MLyra2.sel_lyra2) in E.
  apply obind_Ok_inv in E as ([[[[rl m'] st'] ra] log] & E & _).
  destruct (setup_before _ _ _ _ _ _ _ _ _ _ _ _ _ E) as (m & st & v & Es).
  destruct (HC MLyra2.sel_lyra2 [47; 0; 0; 0; 0; 0; 0; 0] [] 1 rl m st v rl m' st' ra log ltac:(args_tac) ltac:(accepted_tac) Es E) as (Hc & Hr & HE).
  eexists. split; [|exists m, st; split; [exact Hc|exact HE]].
  intros b Hb. exact (HG _ [b] Hr eq_refl (Forall_cons_2 _ b [] Hb (Forall_nil_2 _))).
Qed.
