(** * Property C53: what a failing call costs

    Stated about the translated source with its log (SrcLyra2Log.v, SrcLyra2modLog.v),
    which is kept up to the panic.  [accepted max 0] says that the call would be accepted
    with an empty output: enough passes and rows, and the input fits into a matrix that
    fits into memory. *)
From Verif Require Import Machine.
From Verif Require Import SpecWord SpecBlake2b SpecLyra2 SpecCalls SpecSchedule.
From Verif Require SrcLyra2Log SrcLyra2modLog.
From Verif Require Import MAccess SpecAccess PLyra2Lemmas PFailCostLemmas.
#[local] Open Scope Z_scope.

(** A call with bad parameters fails before the first round of the sponge, having written at
    most the input. The size of the matrix must not wrap around. *)
Theorem bad_parameters_cost_nothing p k pwd salt t R C call :
  known_platform p -> rust_args (isize_max p) k pwd salt t R C ->
  (overflow_checks p = true /\ usize_bits p = 64 /\ R < 2 ^ 63) \/ (12 * R * C < 2 ^ 63 /\ 12 * R * C < 2 ^ usize_bits p) ->
  ~ accepted (isize_max p) 0 pwd salt t R C ->
  call = SrcLyra2Log.lyra2_log p k pwd salt t R C \/ call = SrcLyra2modLog.lyra2mod_log p k pwd salt t R C ->
  fst call = Panic /\ work (snd call) = 0 /\
  Z.of_nat (length (snd call)) <= Z.of_nat (length pwd) / 8 + Z.of_nat (length salt) / 8 + 9 /\
  (t < 1 \/ R < 3 \/ isize_max p < 96 * R * C -> snd call = []).
Proof. exact (early p k pwd salt t R C call). Qed.
Print Assumptions bad_parameters_cost_nothing.
(** Two rows; and an input that does not fit, of which three words of the matrix are written. *)
Example bad_parameters_cost_nothing_ex :
  rust_args (isize_max debug64) 8 [1; 2; 3] [4] 1 2 1 /\ ~ accepted (isize_max debug64) 0 [1; 2; 3] [4] 1 2 1 /\
  SrcLyra2Log.lyra2_log debug64 8 [1; 2; 3] [4] 1 2 1 = (Panic, []) /\
  rust_args (isize_max release32) 8 (replicate 400 7) [4] 1 3 1 /\
  ~ accepted (isize_max release32) 0 (replicate 400 7) [4] 1 3 1 /\
  12 * 3 * 1 < 2 ^ 63 /\ 12 * 3 * 1 < 2 ^ usize_bits release32 /\
  exists log, SrcLyra2Log.lyra2_log release32 8 (replicate 400 7) [4] 1 3 1 = (Panic, log) /\ length log = 36%nat.
Proof.
  split; [args_tac|]. split; [unfold accepted; lia|]. split; [vm_compute; reflexivity|]. split; [args_tac|].
  split. { unfold accepted, n_blocks. rewrite replicate_length. cbn [length]. intros H. vm_compute in H. by destruct H as (_ & _ & _ & _ & H & _). }
  split; [done|]. split; [done|]. eexists. split; vm_compute; reflexivity.
Qed.
(** In general this is false: where the size of the matrix wraps around, sponge rounds are run first.
    Without overflow checks (4 rows of 2^60+1 columns), on 32 bits (3 rows of 477218589 columns,
    36 * 477218589 words truncated to 20), and with checks on 64 bits when rows and columns are both read as -1. *)
Theorem bad_parameters_cost_nothing_refuted :
  ~ (forall p k pwd salt t R C, known_platform p -> rust_args (isize_max p) k pwd salt t R C ->
       ~ accepted (isize_max p) 0 pwd salt t R C ->
       work (snd (SrcLyra2Log.lyra2_log p k pwd salt t R C)) = 0) /\
  work (snd (SrcLyra2Log.lyra2_log release64 8 [1] [2] 1 4 (2 ^ 60 + 1))) = 12 /\
  work (snd (SrcLyra2Log.lyra2_log debug32 8 [1] [2] 1 3 477218589)) = 12 /\
  work (snd (SrcLyra2Log.lyra2_log debug64 8 [1] [2] 1 (2 ^ 64 - 1) (2 ^ 64 - 1))) = 12.
Proof. exact early_refuted. Qed.
Print Assumptions bad_parameters_cost_nothing_refuted.

(** A call that asks for more than 96 bytes fails only after the whole matrix has been built and
    all passes are done: the work of C34 without the rounds that extract the key. *)
Theorem long_output_fails_last p k pwd salt t R C call :
  known_platform p -> rust_args (isize_max p) k pwd salt t R C ->
  accepted (isize_max p) 0 pwd salt t R C -> 96 < k -> k < 2 ^ usize_bits p ->
  call = SrcLyra2Log.lyra2_log p k pwd salt t R C \/ call = SrcLyra2modLog.lyra2mod_log p k pwd salt t R C ->
  let fixed := 12 * ((Z.of_nat (length salt) + Z.of_nat (length pwd) + 48) / 64 + 1) + 12 in
  fst call = Panic /\
  R * C + t * C + fixed <= work (snd call) <= R * C + t * R * C + fixed /\
  (forall e, 0 <= e -> R = 2 ^ e -> work (snd call) = (t + 1) * 2 ^ e * C + fixed).
Proof. exact (late p k pwd salt t R C call). Qed.
Print Assumptions long_output_fails_last.
Example long_output_fails_last_ex : exists log,
  rust_args (isize_max debug64) 97 [1; 2; 3] [4] 3 4 2 /\ accepted (isize_max debug64) 0 [1; 2; 3] [4] 3 4 2 /\
  SrcLyra2Log.lyra2_log debug64 97 [1; 2; 3] [4] 3 4 2 = (Panic, log) /\ work log = 32 + 12 + 12.
Proof.
  eexists. split; [args_tac|]. split; [accepted_tac|]. split; vm_compute; reflexivity.
Qed.
