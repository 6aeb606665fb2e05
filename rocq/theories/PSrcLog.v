(** * Properties C34 - C37: the accesses of the source text

    [SrcLyra2Log] and [SrcLyra2modLog] hold lyra2.rs and lyra2mod/mod.rs as
    tools/rust2coq.py translates them when it adds a log entry at every place that
    indexes [whole_matrix] or calls [round_lyra], a log that is kept when the call panics.
    [MKept] is MAccess.v with such a log; where a call returns the two logs are the same. *)
From Verif Require Import Machine.
From Verif Require Import SpecWord SpecBlake2b SpecLyra2 SpecCalls SpecSchedule.
From Verif Require MLyra2 SrcLyra2 SrcLyra2mod SrcLyra2Log SrcLyra2modLog.
From Verif Require Import MAccess Kept MKept SpecAccess PLyra2Lemmas PAccess PSrcLogLemmas.
#[local] Open Scope Z_scope.

(** Value, panic and log of the two translations with a log, on every input. *)
Theorem source_accesses p k pwd salt t R C : known_platform p ->
  SrcLyra2Log.lyra2_log p k pwd salt t R C = lyra2_kept p k pwd salt t R C /\
  SrcLyra2modLog.lyra2mod_log p k pwd salt t R C = lyra2mod_kept p k pwd salt t R C.
Proof. exact (log_both p k pwd salt t R C). Qed.
Print Assumptions source_accesses.
(** Dropping the log gives the translation without a log. *)
Theorem source_accesses_erase p k pwd salt t R C : known_platform p ->
  (SrcLyra2Log.lyra2_log p k pwd salt t R C).1 = SrcLyra2.lyra2 p k pwd salt t R C /\
  (SrcLyra2modLog.lyra2mod_log p k pwd salt t R C).1 = SrcLyra2mod.lyra2mod p k pwd salt t R C.
Proof. exact (log_erase p k pwd salt t R C). Qed.
Print Assumptions source_accesses_erase.
(** Where the call returns, the log is the one PAccess.v speaks of. *)
Theorem source_accesses_return p k pwd salt t R C out log : known_platform p ->
  (SrcLyra2Log.lyra2_log p k pwd salt t R C = (Ok out, log) <-> lyra2_acc p k pwd salt t R C = Ok (out, log)) /\
  (SrcLyra2modLog.lyra2mod_log p k pwd salt t R C = (Ok out, log) <-> lyra2mod_acc p k pwd salt t R C = Ok (out, log)).
Proof. exact (log_iff p k pwd salt t R C out log). Qed.
Print Assumptions source_accesses_return.

(** C34: the work of a call. *)
Theorem source_work p k pwd salt t e C out log :
  known_platform p -> 0 <= e -> rust_args (isize_max p) k pwd salt t (2 ^ e) C ->
  usize_bits p = 64 \/ k < 2 ^ 63 ->
  SrcLyra2Log.lyra2_log p k pwd salt t (2 ^ e) C = (Ok out, log) \/
  SrcLyra2modLog.lyra2mod_log p k pwd salt t (2 ^ e) C = (Ok out, log) ->
  let nb := (Z.of_nat (length salt) + Z.of_nat (length pwd) + 48) / 64 + 1 in
  work log = (t + 1) * 2 ^ e * C + 12 * nb + 12 + 12 * (k / 96 + 1) /\
  Z.of_nat (length (reads log)) = 48 * (t + 1) * 2 ^ e * C - 72 * C + 8 * nb + 13 /\
  Z.of_nat (length (writes log)) =
    24 * (t + 1) * 2 ^ e * C - 24 * C + Z.of_nat (length pwd) / 8 + Z.of_nat (length salt) / 8 + 8.
Proof.
  exact (fun Hp He Ha Hk E => lyra2_work p k pwd salt t e C out log Hp He Ha Hk (log_or p k pwd salt t (2 ^ e) C _ _ Hp E)).
Qed.
Print Assumptions source_work.
(** C35: which addresses are used does not depend on the secrets, up to the choice of rows. *)
Theorem source_accesses_public p p' k pwd pwd' salt salt' t R C out out' log log' :
  known_platform p -> known_platform p' ->
  rust_args (isize_max p) k pwd salt t R C -> rust_args (isize_max p') k pwd' salt' t R C ->
  R < 2 ^ 63 \/ overflow_checks p = true -> k < 2 ^ 63 -> length pwd = length pwd' -> length salt = length salt' ->
  SrcLyra2Log.lyra2_log p k pwd salt t R C = (Ok out, log) \/
  SrcLyra2modLog.lyra2mod_log p k pwd salt t R C = (Ok out, log) ->
  SrcLyra2Log.lyra2_log p' k pwd' salt' t R C = (Ok out', log') \/
  SrcLyra2modLog.lyra2mod_log p' k pwd' salt' t R C = (Ok out', log') ->
  (let n := length (input_accesses (Z.of_nat (length pwd)) (Z.of_nat (length salt)) ++ setup_accesses R C) in
   take n log = take n log') /\
  without_row C <$> log = without_row C <$> log'.
Proof.
  exact (fun Hp Hp' Ha Ha' HR Hk H1 H2 E E' =>
    lyra2_accesses_public p p' k pwd pwd' salt salt' t R C out out' log log' Hp Hp' Ha Ha' HR Hk H1 H2
      (log_or p k pwd salt t R C _ _ Hp E) (log_or p' k pwd' salt' t R C _ _ Hp' E')).
Qed.
Print Assumptions source_accesses_public.
(** C36: after the input no word is read before it is written, and all are written. *)
Theorem source_reads_initialised p k pwd salt t R C out log :
  known_platform p -> rust_args (isize_max p) k pwd salt t R C -> R < 2 ^ 63 \/ overflow_checks p = true ->
  usize_bits p = 64 \/ k < 2 ^ 63 ->
  SrcLyra2Log.lyra2_log p k pwd salt t R C = (Ok out, log) \/
  SrcLyra2modLog.lyra2mod_log p k pwd salt t R C = (Ok out, log) ->
  exists rest, log = input_accesses (Z.of_nat (length pwd)) (Z.of_nat (length salt)) ++ rest /\
    (forall l1 a l2, rest = l1 ++ Rd a :: l2 -> Wr a ∈ l1) /\
    (forall a, 0 <= a < 12 * R * C -> Wr a ∈ rest).
Proof.
  exact (fun Hp Ha HR Hk E => lyra2_reads_initialised p k pwd salt t R C out log Hp Ha HR Hk (log_or p k pwd salt t R C _ _ Hp E)).
Qed.
Print Assumptions source_reads_initialised.
(** C02, C36: exactly the words of the matrix are accessed. *)
Theorem source_accesses_in_bounds p k pwd salt t R C out log :
  known_platform p -> rust_args (isize_max p) k pwd salt t R C -> R < 2 ^ 63 \/ overflow_checks p = true ->
  usize_bits p = 64 \/ k < 2 ^ 63 ->
  SrcLyra2Log.lyra2_log p k pwd salt t R C = (Ok out, log) \/
  SrcLyra2modLog.lyra2mod_log p k pwd salt t R C = (Ok out, log) ->
  forall a, Rd a ∈ log \/ Wr a ∈ log <-> 0 <= a < 12 * R * C.
Proof.
  exact (fun Hp Ha HR Hk E => lyra2_accesses_in_bounds p k pwd salt t R C out log Hp Ha HR Hk (log_or p k pwd salt t R C _ _ Hp E)).
Qed.
Print Assumptions source_accesses_in_bounds.
Example source_accesses_ex : exists out log,
  rust_args (isize_max debug64) 4 [1; 2; 3] [4] 1 4 1 /\
  SrcLyra2Log.lyra2_log debug64 4 [1; 2; 3] [4] 1 (2 ^ 2) 1 = (Ok out, log) /\
  work log = 8 + 12 + 12 + 12 /\ take 3 log = [Wr 0; Wr 1; Wr 2].
Proof. do 2 eexists. split; [args_tac|]. split; [vm_compute; reflexivity|]. split; vm_compute; reflexivity. Qed.
