(** * Property C60 (and C02, C20): 2^63 rows or more *)
From Verif Require Import Machine.
From Verif Require Import SpecWord SpecLyra2 SpecCalls.
From Verif Require Import MLyra2 MTrace MAccess SpecAccess PLyra2Lemmas BigRows ReleaseRows Capacity AnyKey.
From stdpp Require Import list_numbers.
#[local] Open Scope Z_scope.

(** C60: with overflow checks such a call panics, on 32 and on 64 bits. *)
Theorem huge_rows_panic p k pwd salt t R C :
  known_platform p -> overflow_checks p = true -> rust_args (isize_max p) k pwd salt t R C -> 2 ^ 63 <= R ->
  lyra2 p k pwd salt t R C = Panic /\ lyra2mod p k pwd salt t R C = Panic.
Proof. exact (big_rows_panic_2 p k pwd salt t R C). Qed.
Print Assumptions huge_rows_panic.
Example huge_rows_panic_ex : overflow_checks debug32 = true /\
  rust_args (isize_max debug32) 8 [1] [2] 1 (2 ^ 64 - 2 ^ 33 + 8) 1 /\ 2 ^ 63 <= 2 ^ 64 - 2 ^ 33 + 8.
Proof. split; [reflexivity|]. split; [args_tac|lia]. Qed.

(** Without them it may return; then no row from the third on has been filled by the
    setup phase, which is what [n_rows] is for. *)
Theorem huge_rows_panic_refuted :
  ~ (forall p k pwd salt t R C, known_platform p -> rust_args (isize_max p) k pwd salt t R C -> 2 ^ 63 <= R ->
       lyra2 p k pwd salt t R C = Panic) /\
  (exists out, lyra2 release64 8 [1] [2] 1 (2 ^ 63 + 4) 1 = Ok out) /\
  (exists out, lyra2 release32 8 [1] [2] 1 (2 ^ 63 + 4) 1 = Ok out).
Proof. exact big_rows_refuted. Qed.
Print Assumptions huge_rows_panic_refuted.
Theorem huge_rows_skip_setup p k pwd salt t R C out log :
  known_platform p -> rust_args (isize_max p) k pwd salt t R C -> 2 ^ 63 <= R ->
  lyra2_tr p k pwd salt t R C = Ok (out, log) \/ lyra2mod_tr p k pwd salt t R C = Ok (out, log) ->
  overflow_checks p = false /\ setup_ops log = [].
Proof. exact (big_rows_no_setup_2 p k pwd salt t R C out log). Qed.
Print Assumptions huge_rows_skip_setup.
Example huge_rows_skip_setup_ex : exists out log,
  rust_args (isize_max release32) 8 [1] [2] 1 (2 ^ 63 + 4) 1 /\
  lyra2_tr release32 8 [1] [2] 1 (2 ^ 63 + 4) 1 = Ok (out, log) /\
  length (wander_ops log) = 4%nat.
Proof. eexists _, _. split; [args_tac|]. split; vm_compute; reflexivity. Qed.

(** Exactly which of these calls return without overflow checks: the matrix has
    [R mod 2^62] rows on 64 bits and [R mod 2^30] rows on 32 bits.  (The last hypothesis
    leaves out the calls whose matrix size wraps around the address space once more.) *)
Theorem huge_rows_unchecked_exact p k pwd salt t R C :
  known_platform p -> overflow_checks p = false -> rust_args (isize_max p) k pwd salt t R C -> 2 ^ 63 <= R ->
  usize_bits p = 64 \/ k < 2 ^ 63 ->
  let rows := R mod 2 ^ (usize_bits p - 2) in
  12 * rows * C < 2 ^ usize_bits p ->
  let fits := 1 <= t /\ 2 <= rows /\ 0 <= k <= 96 /\ 64 * n_blocks pwd salt <= 96 * rows * C <= isize_max p in
  ((exists out, lyra2 p k pwd salt t R C = Ok out) <-> fits) /\
  ((exists out, lyra2mod p k pwd salt t R C = Ok out) <-> fits).
Proof. exact (fun Hp Hr Ha HR Hk Hfit => unchecked_exact p Hp Hr k pwd salt t R C Ha HR Hk Hfit). Qed.
Print Assumptions huge_rows_unchecked_exact.
Example huge_rows_unchecked_exact_ex :
  rust_args (isize_max release32) 32 [1] [2] 2 (2 ^ 63 + 2 ^ 40 + 5) 7 /\
  (2 ^ 63 + 2 ^ 40 + 5) mod 2 ^ (usize_bits release32 - 2) = 5 /\
  12 * 5 * 7 < 2 ^ usize_bits release32 /\ 64 * n_blocks [1] [2] <= 96 * 5 * 7 <= isize_max release32 /\
  (2 ^ 64 - 1) mod 2 ^ (usize_bits release64 - 2) = 2 ^ 62 - 1.
Proof. split; [args_tac|]. vm_compute. repeat split; discriminate. Qed.

(** C36 needs its bound on the rows: without overflow checks such a call reads words that still
    hold the password.  Here word 24 of the matrix, which holds bytes 192 to 199 of a password of
    256 bytes, is read after the input has been absorbed and before it is written again.  The
    work, 90 rounds, is that of a matrix of 4 rows (C34). *)
Theorem huge_rows_read_stale_memory : exists out log l1 l2,
  lyra2_acc release64 4 (replicate 256 7) [] 1 (2 ^ 63 + 4) 1 = Ok (out, log) /\
  log = input_accesses 256 0 ++ l1 ++ Rd 24 :: l2 /\ Wr 24 ∉ l1 /\ work log = 90.
Proof. exact stale_read. Qed.
Print Assumptions huge_rows_read_stale_memory.
Theorem lyra2_reads_initialised_refuted :
  ~ (forall p k pwd salt t R C out log, known_platform p -> rust_args (isize_max p) k pwd salt t R C ->
       lyra2_acc p k pwd salt t R C = Ok (out, log) ->
       exists rest, log = input_accesses (Z.of_nat (length pwd)) (Z.of_nat (length salt)) ++ rest /\
         forall l1 a l2, rest = l1 ++ Rd a :: l2 -> Wr a ∈ l1).
Proof. exact stale_refuted. Qed.
Print Assumptions lyra2_reads_initialised_refuted.

(** C02 for all builds with overflow checks, of both widths: no condition on the number of rows. *)
Theorem lyra2_returns_or_panics_checked p k pwd salt t R C :
  known_platform p -> overflow_checks p = true -> rust_args (isize_max p) k pwd salt t R C ->
  usize_bits p = 64 \/ k < 2 ^ 63 ->
  accepted (isize_max p) k pwd salt t R C /\
    lyra2 p k pwd salt t R C = Ok (Lyra2_code choose_first k pwd salt t R C) /\
    lyra2mod p k pwd salt t R C = Ok (Lyra2_code choose_rev3 k pwd salt t R C) \/
  ~ accepted (isize_max p) k pwd salt t R C /\
    lyra2 p k pwd salt t R C = Panic /\ lyra2mod p k pwd salt t R C = Panic.
Proof. exact (dichotomy_debug p k pwd salt t R C). Qed.
Print Assumptions lyra2_returns_or_panics_checked.
Example lyra2_returns_or_panics_checked_ex :
  rust_args (isize_max debug32) 32 [1] [2] 2 5 3 /\ accepted (isize_max debug32) 32 [1] [2] 2 5 3.
Proof. split; [args_tac|accepted_tac]. Qed.

(** C20 without exception: what a build with overflow checks returns, any build returns. *)
Theorem overflow_checks_only_remove p p' k pwd salt t R C out :
  known_platform p -> usize_bits p = usize_bits p' -> overflow_checks p = true ->
  rust_args (isize_max p) k pwd salt t R C ->
  (lyra2 p k pwd salt t R C = Ok out -> lyra2 p' k pwd salt t R C = Ok out) /\
  (lyra2mod p k pwd salt t R C = Ok out -> lyra2mod p' k pwd salt t R C = Ok out).
Proof. exact (checks_only_remove p p' k pwd salt t R C out). Qed.
Print Assumptions overflow_checks_only_remove.
Example overflow_checks_only_remove_ex : exists out,
  rust_args (isize_max debug64) 8 [1] [2] 1 4 1 /\ lyra2 debug64 8 [1] [2] 1 4 1 = Ok out.
Proof. eexists. split; [args_tac|]. vm_compute. reflexivity. Qed.

(** C33 exactly, on every platform and for both functions: with parameters in range and a
    matrix whose size in bytes fits, a call returns if and only if the input, the basil and the
    padding fit the matrix.  ([C = 0] and any number of rows are included.) *)
Theorem lyra2_capacity_exact p k pwd salt t R C :
  known_platform p -> rust_args (isize_max p) k pwd salt t R C ->
  1 <= t -> 3 <= R -> k <= 96 -> 96 * R * C <= isize_max p ->
  let fits := 64 * ((Z.of_nat (length pwd) + Z.of_nat (length salt) + 48) / 64 + 1) <= 96 * R * C in
  ((exists out, lyra2 p k pwd salt t R C = Ok out) <-> fits) /\
  ((exists out, lyra2mod p k pwd salt t R C = Ok out) <-> fits).
Proof. exact (capacity_exact p k pwd salt t R C). Qed.
Print Assumptions lyra2_capacity_exact.
(** A combined length of 207 bytes fits 3 rows of one column, 208 does not. *)
Example lyra2_capacity_exact_ex :
  rust_args (isize_max release32) 32 (replicate 100 1) (replicate 107 2) 1 3 1 /\ 96 * 3 * 1 <= isize_max release32 /\
  64 * ((100 + 107 + 48) / 64 + 1) <= 96 * 3 * 1 < 64 * ((100 + 108 + 48) / 64 + 1).
Proof. split; [args_tac|]. vm_compute. repeat split; discriminate. Qed.

(** C02 on every platform and for every key length and row count in one statement: exactly which
    calls return.  With [n_rows >= 2^63] that takes a build without overflow checks, in which
    [rows] rows are used; a key of 2^63 bytes or more is returned on 32 bits only.  (The
    hypothesis leaves out sizes that wrap around once more; there it may depend on the password
    whether a call returns, see [lyra2_failure_ignores_contents_wrapped_refuted].) *)
Theorem lyra2_returns_exact p k pwd salt t R C :
  known_platform p -> rust_args (isize_max p) k pwd salt t R C ->
  let rows := if R <? 2 ^ 63 then R else R mod 2 ^ (usize_bits p - 2) in
  R < 2 ^ 63 \/ overflow_checks p = true \/ 12 * rows * C < 2 ^ usize_bits p ->
  let fits :=
    1 <= t /\ 3 <= R /\ (2 ^ 63 <= R -> overflow_checks p = false /\ 2 <= rows) /\
    (k <= 96 \/ usize_bits p = 32 /\ 2 ^ 63 <= k /\ k mod 2 ^ 32 <= 2 ^ 31 - 1) /\
    64 * ((Z.of_nat (length pwd) + Z.of_nat (length salt) + 48) / 64 + 1) <= 96 * rows * C <= isize_max p in
  ((exists out, lyra2 p k pwd salt t R C = Ok out) <-> fits) /\
  ((exists out, lyra2mod p k pwd salt t R C = Ok out) <-> fits).
Proof. exact (returns_any p k pwd salt t R C). Qed.
Print Assumptions lyra2_returns_exact.
(** A call with a key of 2^63+5 bytes and 2^63+4 rows meets the conditions on 32 bits. *)
Example lyra2_returns_exact_ex :
  rust_args (isize_max release32) (2 ^ 63 + 5) [1] [2] 1 (2 ^ 63 + 4) 1 /\
  (2 ^ 63 + 4 <? 2 ^ 63) = false /\ (2 ^ 63 + 4) mod 2 ^ (usize_bits release32 - 2) = 4 /\
  (2 ^ 63 + 5) mod 2 ^ 32 = 5 /\ 12 * 4 * 1 < 2 ^ usize_bits release32 /\
  64 * ((1 + 1 + 48) / 64 + 1) <= 96 * 4 * 1 <= isize_max release32.
Proof. split; [args_tac|]. vm_compute. repeat split; discriminate. Qed.

(** C05: and what is returned for such a key is all zero, whatever the other arguments are. *)
Theorem lyra2_huge_output_zero p k pwd salt t R C out :
  usize_bits p = 32 -> 2 ^ 63 <= k < 2 ^ 64 ->
  lyra2 p k pwd salt t R C = Ok out \/ lyra2mod p k pwd salt t R C = Ok out ->
  k mod 2 ^ 32 <= 2 ^ 31 - 1 /\ out = replicate (Z.to_nat (k mod 2 ^ 32)) 0.
Proof. exact (wide_zero_2 p k pwd salt t R C out). Qed.
Print Assumptions lyra2_huge_output_zero.
Example lyra2_huge_output_zero_ex : exists out,
  lyra2 release32 (2 ^ 63 + 5) [1] [2] 1 (2 ^ 63 + 4) 1 = Ok out /\ length out = 5%nat.
Proof. eexists. split; vm_compute; reflexivity. Qed.
