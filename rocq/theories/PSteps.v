(** * Property C55: the logged steps are the steps that are carried out

    PSchedule.v and PInput.v speak of the log of [lyra2_tr]: blocks absorbed, setup
    steps and wandering steps.  Here that log is tied to the computation in three
    ways: to the specification, to the returned key, and to the memory accesses of
    the translated source text. *)
From Verif Require Import Machine.
From Verif Require Import SpecWord SpecBlake2b SpecLyra2 SpecCalls SpecSchedule.
From Verif Require MLyra2 SrcLyra2Log SrcLyra2modLog.
From Verif Require Import MTrace MAccess SpecAccess SpecSteps RefineTop PLyra2Lemmas PScheduleLemmas PStepsLemmas CheckedRows.
#[local] Open Scope Z_scope.

Definition spw : list Z := [1; 2; 3; 4; 5; 6; 7; 8].

(** The log is the specified one; in particular each row* is chosen by the sponge
    state that the steps before produce. *)
Theorem lyra2_steps p k pwd salt t R C out steps :
  known_platform p -> rust_args (isize_max p) k pwd salt t R C -> R < 2 ^ 63 \/ overflow_checks p = true ->
  lyra2_tr p k pwd salt t R C = Ok (out, steps) ->
  let blocks := code_blocks k pwd salt t R C in
  absorbed steps = blocks /\ setup_ops steps = setup_schedule R /\
  wander_ops steps = wander_steps choose_first blocks t R C.
Proof.
  exact (fun Hp Ha HR E => steps_exact p Hp MLyra2.sel_lyra2 choose_first sel_lyra2_ok k pwd salt t R C Ha (rows_tr p k pwd salt t R C Hp Ha HR out steps (or_introl E)) out steps E).
Qed.
Print Assumptions lyra2_steps.
Theorem lyra2mod_steps p k pwd salt t R C out steps :
  known_platform p -> rust_args (isize_max p) k pwd salt t R C -> R < 2 ^ 63 \/ overflow_checks p = true ->
  lyra2mod_tr p k pwd salt t R C = Ok (out, steps) ->
  let blocks := code_blocks k pwd salt t R C in
  absorbed steps = blocks /\ setup_ops steps = setup_schedule R /\
  wander_ops steps = wander_steps choose_rev3 blocks t R C.
Proof.
  exact (fun Hp Ha HR E => steps_exact p Hp (MLyra2.sel_lyra2mod p) choose_rev3 (sel_lyra2mod_ok p Hp) k pwd salt t R C Ha (rows_tr p k pwd salt t R C Hp Ha HR out steps (or_intror E)) out steps E).
Qed.
Print Assumptions lyra2mod_steps.

(** Carrying out the logged steps, and nothing else, gives the returned key. *)
Theorem steps_give_the_key p k pwd salt t R C out steps :
  known_platform p -> rust_args (isize_max p) k pwd salt t R C -> R < 2 ^ 63 \/ overflow_checks p = true ->
  usize_bits p = 64 \/ k < 2 ^ 63 ->
  lyra2_tr p k pwd salt t R C = Ok (out, steps) \/ lyra2mod_tr p k pwd salt t R C = Ok (out, steps) ->
  out = replay_key k C (absorbed steps) (setup_ops steps) (wander_ops steps).
Proof.
  exact (fun Hp Ha HR0 Hk E => let HR := rows_tr p k pwd salt t R C Hp Ha HR0 out steps E in match E with
    | or_introl E => steps_replayed p Hp MLyra2.sel_lyra2 choose_first sel_lyra2_ok k pwd salt t R C Ha HR Hk out steps E
    | or_intror E => steps_replayed p Hp (MLyra2.sel_lyra2mod p) choose_rev3 (sel_lyra2mod_ok p Hp) k pwd salt t R C Ha HR Hk out steps E
    end).
Qed.
Print Assumptions steps_give_the_key.

(** The memory accesses of the translated source are those of the logged steps. *)
Theorem steps_are_accessed p k pwd salt t R C out log out' steps :
  known_platform p -> rust_args (isize_max p) k pwd salt t R C -> R < 2 ^ 63 \/ overflow_checks p = true ->
  usize_bits p = 64 \/ k < 2 ^ 63 ->
  SrcLyra2Log.lyra2_log p k pwd salt t R C = (Ok out, log) /\ lyra2_tr p k pwd salt t R C = Ok (out', steps) \/
  SrcLyra2modLog.lyra2mod_log p k pwd salt t R C = (Ok out, log) /\ lyra2mod_tr p k pwd salt t R C = Ok (out', steps) ->
  out = out' /\
  log = steps_accesses k (Z.of_nat (length pwd)) (Z.of_nat (length salt)) C (setup_ops steps) (wander_ops steps).
Proof. exact (fun Hp Ha HR Hk E => steps_source p k pwd salt t R C out log out' steps Hp Ha
    (rows_tr p k pwd salt t R C Hp Ha HR out' steps (match E with or_introl E => or_introl (proj2 E) | or_intror E => or_intror (proj2 E) end)) Hk E). Qed.
Print Assumptions steps_are_accessed.

Example steps_ex : exists out log steps,
  rust_args (isize_max debug64) 4 spw spw 1 4 1 /\
  SrcLyra2Log.lyra2_log debug64 4 spw spw 1 4 1 = (Ok out, log) /\
  lyra2_tr debug64 4 spw spw 1 4 1 = Ok (out, steps) /\
  setup_ops steps = [(2, 1, 0); (3, 2, 1)] /\ length (wander_ops steps) = 4%nat /\
  (wander_ops steps).*1 = [(1, 0, 3); (1, 1, 0); (1, 2, 1); (1, 3, 2)].
Proof.
  do 3 eexists. split; [args_tac|]. split; [vm_compute; reflexivity|]. split; [vm_compute; reflexivity|].
  vm_compute. done.
Qed.
(** The steps are not the same for all inputs. *)
Example steps_differ_ex : exists out out' steps steps',
  lyra2_tr debug64 4 spw spw 1 4 1 = Ok (out, steps) /\
  lyra2_tr debug64 4 (reverse spw) spw 1 4 1 = Ok (out', steps') /\
  (wander_ops steps).*2 <> (wander_ops steps').*2.
Proof.
  do 4 eexists. split; [vm_compute; reflexivity|]. split; [vm_compute; reflexivity|].
  vm_compute. discriminate.
Qed.
