(** * C43: how the revisited row is chosen

    [reduce_mask R] and [choose_first], [choose_rev3] are those of the specification
    that the code is proved to compute (C07, C32). *)
From stdpp Require Import list_numbers.
From Verif Require Import Machine RefineTop Refine Refine2.
From Verif Require Import SpecWord SpecLyra2 SpecCalls SpecRowChoice.
From Verif Require MLyra2.
From Verif Require PhaseFacts.
From Verif Require Import MachineFacts MTrace MPhases Domain PLyra2Lemmas FirstRow RowCount RowCount2.
#[local] Opaque words_choosing all_states.
#[local] Open Scope Z_scope.

(** The first row revisited is read off the sponge as the setup phase leaves it: from its
    first word in [lyra2], from the word named by its first word in [lyra2mod]. *)
Theorem lyra2_first_revisited_row p k pwd salt t R C rl m st ra log :
  known_platform p -> rust_args (isize_max p) k pwd salt t R C -> accepted (isize_max p) 0 pwd salt t R C ->
  until_wandering p MLyra2.sel_lyra2 k pwd salt t R C = Ok (rl, m, st, ra, log) ->
  exists rl0 m0 st0 v0 rest, until_setup p k pwd salt t R C = Ok (rl0, m0, st0, v0) /\
    (length st0 = 16%nat /\ Forall (word 64) st0) /\
    log = EvWander 1 0 (R - 1) (Z.land (st0 !!! 0%nat) (R - 1)) :: rest.
Proof.
  intros Hp. exact (first_choice p MLyra2.sel_lyra2 choose_first k pwd salt t R C rl m st ra log Hp sel_lyra2_ok).
Qed.
Print Assumptions lyra2_first_revisited_row.
Theorem lyra2mod_first_revisited_row p k pwd salt t R C rl m st ra log :
  known_platform p -> rust_args (isize_max p) k pwd salt t R C -> accepted (isize_max p) 0 pwd salt t R C ->
  until_wandering p (MLyra2.sel_lyra2mod p) k pwd salt t R C = Ok (rl, m, st, ra, log) ->
  exists rl0 m0 st0 v0 rest, until_setup p k pwd salt t R C = Ok (rl0, m0, st0, v0) /\
    (length st0 = 16%nat /\ Forall (word 64) st0) /\
    log = EvWander 1 0 (R - 1) (Z.land (st0 !!! Z.to_nat ((st0 !!! 0%nat) mod 16)) (R - 1)) :: rest.
Proof.
  intros Hp. exact (first_choice p (MLyra2.sel_lyra2mod p) choose_rev3 k pwd salt t R C rl m st ra log Hp (sel_lyra2mod_ok p Hp)).
Qed.
Print Assumptions lyra2mod_first_revisited_row.
#[local] Opaque until_wandering Lyra2_code.
Example first_revisited_row_ex : rust_args (isize_max debug64) 32 [1] [2] 1 4 4 /\
  accepted (isize_max debug64) 0 [1] [2] 1 4 4 /\
  exists rl m st ra log, until_wandering debug64 MLyra2.sel_lyra2 32 [1] [2] 1 4 4 = Ok (rl, m, st, ra, log).
Proof.
  split; [args_tac|]. split; [accepted_tac|].
  pose proof (lyra2_value debug64 32 [1] [2] 1 4 4 ltac:(by right) ltac:(args_tac) ltac:(accepted_tac)) as E.
  unfold MLyra2.lyra2 in E. rewrite (PhaseFacts.phases debug64 MLyra2.sel_lyra2) in E.
  apply obind_Ok_inv in E as ([[[[rl m] st] ra] log] & E & _). exists rl, m, st, ra, log. exact E.
Qed.

(** With a power of two rows, every row is chosen by the same number of words, and by the
    same number of sponge states: the choice is unbiased. *)
Theorem lyra2_row_choice_unbiased e r : 0 <= e <= 64 -> 0 <= r < 2 ^ e ->
  words_choosing (reduce_mask (2 ^ e)) r = 2 ^ (64 - e).
Proof. exact (row_count_pow2 e r). Qed.
Print Assumptions lyra2_row_choice_unbiased.
Theorem lyra2_row_choice_unbiased_states e r : 0 <= e <= 64 -> 0 <= r < 2 ^ e ->
  2 ^ e * states_choosing (fun s => reduce_mask (2 ^ e) (fst (choose_first s 0))) r = 2 ^ 1024.
Proof. exact (first_states e r). Qed.
Print Assumptions lyra2_row_choice_unbiased_states.
(** The states counted are all the lists of sixteen words, each once. *)
Theorem all_states_are_all n :
  (forall s, s ∈ all_states n <-> length s = n /\ Forall (word 64) s) /\ NoDup (all_states n).
Proof. exact (conj (states_elem n) (states_nodup n)). Qed.
Print Assumptions all_states_are_all.
Example lyra2_row_choice_ex : words_choosing (reduce_mask 8) 5 = 2 ^ 61.
Proof. exact (lyra2_row_choice_unbiased 3 5 ltac:(lia) ltac:(lia)). Qed.

(** For any number of rows: the rows whose number is a submask of [R - 1] are equally
    likely, and the others are never chosen. *)
Theorem lyra2_row_choice_count R r : word 64 r ->
  words_choosing (reduce_mask R) r = if Z.land r (R - 1) =? r then 2 ^ (64 - bits_set (R - 1)) else 0.
Proof. exact (row_count R r). Qed.
Print Assumptions lyra2_row_choice_count.
(** So that every row has its share is false of the code: of 5 rows only two are chosen. *)
Theorem lyra2_row_choice_unbiased_refuted :
  words_choosing (reduce_mask 5) 0 = 2 ^ 63 /\ words_choosing (reduce_mask 5) 1 = 0.
Proof.
  split; (etransitivity; [apply row_count; split; lia|]); vm_compute; reflexivity.
Qed.
Print Assumptions lyra2_row_choice_unbiased_refuted.

(** The variant of Lyra2REv3 is biased in its first choice even with a power of two rows:
    up to 16 rows, row 0 is chosen by (15 + R) / (16 R) of the states, each other row by
    15 / (16 R); with more, the multiples of 16 by 31 / (16 R), the others by 15 / (16 R). *)
Theorem lyra2mod_row_choice_states e r : 0 <= e <= 64 -> 0 <= r < 2 ^ e ->
  16 * 2 ^ e * states_choosing (fun s => reduce_mask (2 ^ e) (fst (choose_rev3 s 0))) r =
  2 ^ 1024 * (15 + (if r mod Z.min (2 ^ e) 16 =? 0 then Z.min (2 ^ e) 16 else 0)).
Proof. exact (rev3_states e r). Qed.
Print Assumptions lyra2mod_row_choice_states.
(** Instance: the four rows of lyra2rev3, 19/64 against 15/64. *)
Theorem lyra2mod_row_choice_unbiased_refuted :
  states_choosing (fun s => reduce_mask 4 (fst (choose_rev3 s 0))) 0 = 19 * 2 ^ 1018 /\
  states_choosing (fun s => reduce_mask 4 (fst (choose_rev3 s 0))) 1 = 15 * 2 ^ 1018.
Proof.
  pose proof (rev3_states 2 0 ltac:(lia) ltac:(lia)) as H0. pose proof (rev3_states 2 1 ltac:(lia) ltac:(lia)) as H1.
  change (2 ^ 2) with 4 in H0, H1. change (Z.min 4 16) with 4 in H0, H1.
  change (0 mod 4 =? 0) with true in H0. change (1 mod 4 =? 0) with false in H1. cbv iota in H0, H1.
  replace (2 ^ 1024) with (64 * 2 ^ 1018) in H0, H1 by reflexivity. split; nia.
Qed.
Print Assumptions lyra2mod_row_choice_unbiased_refuted.
Example lyra2mod_row_choice_32 :
  512 * states_choosing (fun s => reduce_mask 32 (fst (choose_rev3 s 0))) 16 = 31 * 2 ^ 1024 /\
  512 * states_choosing (fun s => reduce_mask 32 (fst (choose_rev3 s 0))) 17 = 15 * 2 ^ 1024.
Proof.
  pose proof (rev3_states 5 16 ltac:(lia) ltac:(lia)) as H0. pose proof (rev3_states 5 17 ltac:(lia) ltac:(lia)) as H1.
  change (2 ^ 5) with 32 in H0, H1. change (Z.min 32 16) with 16 in H0, H1.
  change (16 mod 16 =? 0) with true in H0. change (17 mod 16 =? 0) with false in H1. cbv iota in H0, H1.
  change (16 * 32) with 512 in H0, H1. split; lia.
Qed.
(** The cause, at every choice and not only the first: when the word named by the index
    names itself, its low bits, hence those of the row, are those of the index; with up to
    16 rows these are all of its bits. *)
Theorem lyra2mod_row_choice_forced st i e : 0 <= e -> (st !!! Z.to_nat (i mod 16)) mod 16 = i mod 16 ->
  reduce_mask (2 ^ e) (fst (choose_rev3 st i)) mod Z.min (2 ^ e) 16 = i mod Z.min (2 ^ e) 16.
Proof. exact (rev3_forced_all st i e). Qed.
Print Assumptions lyra2mod_row_choice_forced.
Example lyra2mod_row_choice_forced_ex : (seqZ 16 16 !!! Z.to_nat (7 mod 16)) mod 16 = 7 mod 16.
Proof. reflexivity. Qed.
