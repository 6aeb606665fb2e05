(** * Properties C09 and C34, for every number of rows: how long the passes are

    [visited log tau] lists the rows of pass [tau] in order (MTrace.v), [work log]
    counts the sponge rounds (SpecAccess.v); [rows_used R] is the number of rows
    whose binary digits are among those of [R - 1] (SpecUnused.v). *)
From Verif Require Import Machine.
From Verif Require Import SpecWord SpecLyra2 SpecCalls SpecAccess SpecUnused.
From Verif Require Import MTrace MAccess PassLength CheckedRows.
From stdpp Require Import list_numbers.
#[local] Open Scope Z_scope.

(** C09: an even pass visits [rows_used R] rows.  All odd passes visit the same
    rows, which is row 0 alone exactly if no two adjacent binary digits of
    [R - 1] are both one. *)
Theorem lyra2_pass_lengths p k pwd salt t R C out log :
  known_platform p -> rust_args (isize_max p) k pwd salt t R C -> R < 2 ^ 63 \/ overflow_checks p = true ->
  lyra2_tr p k pwd salt t R C = Ok (out, log) \/ lyra2mod_tr p k pwd salt t R C = Ok (out, log) ->
  (forall tau, 1 <= tau <= t -> Z.even tau = true -> Z.of_nat (length (visited log tau)) = rows_used R) /\
  (forall tau, 1 <= tau <= t -> Z.even tau = false ->
     1 <= Z.of_nat (length (visited log tau)) <= rows_used R /\
     visited log tau = visited log 1 /\
     (visited log tau = [0] <->
      forall i, 0 <= i -> ~ (Z.testbit (R - 1) i = true /\ Z.testbit (R - 1) (i + 1) = true))).
Proof. exact (fun Hp Ha HR E => visited_lengths_2 p k pwd salt t R C out log Hp Ha (rows_tr p k pwd salt t R C Hp Ha HR out log E) E). Qed.
Print Assumptions lyra2_pass_lengths.
(** Six rows: 5 is 101 in binary, so the odd pass is one row and the even pass four. *)
Example lyra2_pass_lengths_ex : exists out log,
  lyra2_tr debug64 8 [1; 2; 3] [4; 5] 2 6 1 = Ok (out, log) /\
  visited log 1 = [0] /\ visited log 2 = [0; 5; 4; 1] /\ rows_used 6 = 4.
Proof. eexists _, _. split; [vm_compute; reflexivity|]. vm_compute. repeat split; reflexivity. Qed.
(** Seven rows: 6 is 110 in binary, and the odd pass is four rows. *)
Example lyra2_pass_lengths_ex7 : exists out log,
  lyra2_tr debug64 8 [1; 2; 3] [4; 5] 1 7 1 = Ok (out, log) /\ visited log 1 = [0; 2; 4; 6].
Proof. eexists _, _. split; [vm_compute; reflexivity|]. vm_compute. reflexivity. Qed.

(** C34: the exact number of sponge rounds for any number of rows.  [odd_rows] is
    the number of rows of an odd pass. *)
Theorem lyra2_work_exact : exists odd_rows : Z -> Z,
  (forall R, 3 <= R -> 1 <= odd_rows R <= rows_used R /\
     (odd_rows R = 1 <-> forall i, 0 <= i -> ~ (Z.testbit (R - 1) i = true /\ Z.testbit (R - 1) (i + 1) = true))) /\
  forall p k pwd salt t R C out log,
    known_platform p -> rust_args (isize_max p) k pwd salt t R C -> R < 2 ^ 63 \/ overflow_checks p = true ->
    usize_bits p = 64 \/ k < 2 ^ 63 ->
    lyra2_acc p k pwd salt t R C = Ok (out, log) \/ lyra2mod_acc p k pwd salt t R C = Ok (out, log) ->
    let nb := (Z.of_nat (length salt) + Z.of_nat (length pwd) + 48) / 64 + 1 in
    work log = R * C + (t / 2 * rows_used R + (t - t / 2) * odd_rows R) * C + 12 * nb + 12 + 12 * (k / 96 + 1).
Proof. exact (match work_exact with ex_intro _ f (conj H1 H2) => ex_intro _ f (conj H1 (fun p k pwd salt t R C out log Hp Ha HR Hk E =>
    H2 p k pwd salt t R C out log Hp Ha (rows_acc p k pwd salt t R C Hp Ha HR out log E) Hk E)) end). Qed.
Print Assumptions lyra2_work_exact.
Example lyra2_work_exact_ex : exists out log,
  lyra2mod_acc debug64 8 [1; 2; 3] [4; 5] 2 6 1 = Ok (out, log) /\ work log = 6 * 1 + (1 * 4 + 1 * 1) * 1 + 12 * 1 + 12 + 12 * 1.
Proof. eexists _, _. split; [vm_compute; reflexivity|]. vm_compute. reflexivity. Qed.
