(** * Properties C34 - C36: work, memory addresses, initialisation

    [lyra2_acc] is [lyra2] with a log of the matrix words it reads and writes and
    of the applications of the sponge round (MAccess.v); the first theorem says
    that it is the same function.  [work log] counts the rounds, [reads log] and
    [writes log] list the addresses. *)
From Verif Require Import Machine.
From Verif Require Import SpecWord SpecBlake2b SpecLyra2 SpecCalls SpecSchedule.
From Verif Require MLyra2.
From Verif Require Import MAccess SpecAccess AccessFacts PLyra2Lemmas PAccessLemmas CheckedRows.
From stdpp Require Import list_numbers.
#[local] Open Scope Z_scope.

Definition apw : list Z := [1; 2; 3; 4; 5; 6; 7; 8; 9].
Definition asalt : list Z := [17; 34].

(** Dropping the log gives the modelled function, on every platform and input. *)
Theorem lyra2_accesses_erase p k pwd salt t R C :
  (x <-- lyra2_acc p k pwd salt t R C ;; Ok (fst x)) = MLyra2.lyra2 p k pwd salt t R C /\
  (x <-- lyra2mod_acc p k pwd salt t R C ;; Ok (fst x)) = MLyra2.lyra2mod p k pwd salt t R C.
Proof.
  exact (conj (lyra2_with_acc_erase p MLyra2.sel_lyra2 k pwd salt t R C)
              (lyra2_with_acc_erase p (MLyra2.sel_lyra2mod p) k pwd salt t R C)).
Qed.
Print Assumptions lyra2_accesses_erase.

(** The whole log, up to the rows row* chosen in the wandering phase, which are
    submasks of [n_rows - 1]. *)
Theorem lyra2_access_log p k pwd salt t R C out log :
  known_platform p -> rust_args (isize_max p) k pwd salt t R C -> R < 2 ^ 63 \/ overflow_checks p = true ->
  usize_bits p = 64 \/ k < 2 ^ 63 ->
  lyra2_acc p k pwd salt t R C = Ok (out, log) \/ lyra2mod_acc p k pwd salt t R C = Ok (out, log) ->
  exists rowas, length rowas = length (wander_schedule R t) /\
    Forall (fun a => 0 <= a < R /\ Z.land a (R - 1) = a) rowas /\
    log = input_accesses (Z.of_nat (length pwd)) (Z.of_nat (length salt)) ++ setup_accesses R C ++
          wander_accesses R C t rowas ++ final_accesses C (List.last rowas 0) k.
Proof.
  exact (fun Hp Ha HR0 Hk E => let HR := rows_acc p k pwd salt t R C Hp Ha HR0 out log E in match E with
    | or_introl E => acc_log p Hp MLyra2.sel_lyra2 k pwd salt t R C out log Ha HR Hk E
    | or_intror E => acc_log p Hp (MLyra2.sel_lyra2mod p) k pwd salt t R C out log Ha HR Hk E
    end).
Qed.
Print Assumptions lyra2_access_log.

(** ** C34: the work is t+1 sweeps over the matrix for a power of two of rows,
    never less than one sweep and one row per pass, never more than that. *)
Theorem lyra2_work p k pwd salt t e C out log :
  known_platform p -> 0 <= e -> rust_args (isize_max p) k pwd salt t (2 ^ e) C ->
  usize_bits p = 64 \/ k < 2 ^ 63 ->
  lyra2_acc p k pwd salt t (2 ^ e) C = Ok (out, log) \/ lyra2mod_acc p k pwd salt t (2 ^ e) C = Ok (out, log) ->
  let nb := (Z.of_nat (length salt) + Z.of_nat (length pwd) + 48) / 64 + 1 in
  work log = (t + 1) * 2 ^ e * C + 12 * nb + 12 + 12 * (k / 96 + 1) /\
  Z.of_nat (length (reads log)) = 48 * (t + 1) * 2 ^ e * C - 72 * C + 8 * nb + 13 /\
  Z.of_nat (length (writes log)) =
    24 * (t + 1) * 2 ^ e * C - 24 * C + Z.of_nat (length pwd) / 8 + Z.of_nat (length salt) / 8 + 8.
Proof.
  exact (fun Hp He Ha Hk E => let HR := pow2_acc p k pwd salt t e C Hp He Ha out log E in match E with
    | or_introl E => work_pow2 p MLyra2.sel_lyra2 k pwd salt t e C out log Hp He HR Ha Hk E
    | or_intror E => work_pow2 p (MLyra2.sel_lyra2mod p) k pwd salt t e C out log Hp He HR Ha Hk E
    end).
Qed.
Print Assumptions lyra2_work.
Theorem lyra2_work_bounds p k pwd salt t R C out log :
  known_platform p -> rust_args (isize_max p) k pwd salt t R C -> R < 2 ^ 63 \/ overflow_checks p = true ->
  usize_bits p = 64 \/ k < 2 ^ 63 ->
  lyra2_acc p k pwd salt t R C = Ok (out, log) \/ lyra2mod_acc p k pwd salt t R C = Ok (out, log) ->
  let nb := (Z.of_nat (length salt) + Z.of_nat (length pwd) + 48) / 64 + 1 in
  let fixed := 12 * nb + 12 + 12 * (k / 96 + 1) in
  R * C + t * C + fixed <= work log <= R * C + t * R * C + fixed.
Proof.
  exact (fun Hp Ha HR0 Hk E => let HR := rows_acc p k pwd salt t R C Hp Ha HR0 out log E in match E with
    | or_introl E => work_bounds p MLyra2.sel_lyra2 k pwd salt t R C out log Hp Ha HR Hk E
    | or_intror E => work_bounds p (MLyra2.sel_lyra2mod p) k pwd salt t R C out log Hp Ha HR Hk E
    end).
Qed.
Print Assumptions lyra2_work_bounds.
Example lyra2_work_ex : exists out log,
  rust_args (isize_max debug64) 96 apw asalt 3 (2 ^ 2) 2 /\
  lyra2_acc debug64 96 apw asalt 3 (2 ^ 2) 2 = Ok (out, log) /\ work log = 32 + 24 + 12 + 24 - 12.
Proof.
  do 2 eexists. split; [args_tac|]. split; [vm_compute; reflexivity|]. vm_compute. reflexivity.
Qed.
(** With other row counts the work can be less: 5 rows, 1 pass, and only one row
    is visited after setup. *)
Theorem lyra2_full_work_refuted :
  ~ (forall k pwd salt t R C out log,
       rust_args (isize_max debug64) k pwd salt t R C -> lyra2_acc debug64 k pwd salt t R C = Ok (out, log) ->
       (t + 1) * R * C <= work log - 12 * ((Z.of_nat (length salt) + Z.of_nat (length pwd) + 48) / 64 + 1) -
                          12 - 12 * (k / 96 + 1)).
Proof. exact full_work_refuted. Qed.
Print Assumptions lyra2_full_work_refuted.

(** ** C35: which addresses are used does not depend on the secrets until the end
    of setup, and afterwards only in the choice of the row. *)
Theorem lyra2_accesses_public p p' k pwd pwd' salt salt' t R C out out' log log' :
  known_platform p -> known_platform p' ->
  rust_args (isize_max p) k pwd salt t R C -> rust_args (isize_max p') k pwd' salt' t R C ->
  R < 2 ^ 63 \/ overflow_checks p = true -> k < 2 ^ 63 -> length pwd = length pwd' -> length salt = length salt' ->
  lyra2_acc p k pwd salt t R C = Ok (out, log) \/ lyra2mod_acc p k pwd salt t R C = Ok (out, log) ->
  lyra2_acc p' k pwd' salt' t R C = Ok (out', log') \/ lyra2mod_acc p' k pwd' salt' t R C = Ok (out', log') ->
  (let n := length (input_accesses (Z.of_nat (length pwd)) (Z.of_nat (length salt)) ++ setup_accesses R C) in
   take n log = take n log') /\
  without_row C <$> log = without_row C <$> log'.
Proof.
  exact (fun Hp Hp' Ha Ha' HR0 Hk H1 H2 E E' => let HR := rows_acc p k pwd salt t R C Hp Ha HR0 out log E in match E, E' with
    | or_introl E, or_introl E' => accesses_public p p' _ _ k pwd pwd' salt salt' t R C out out' log log' Hp Hp' Ha Ha' HR Hk H1 H2 E E'
    | or_introl E, or_intror E' => accesses_public p p' _ _ k pwd pwd' salt salt' t R C out out' log log' Hp Hp' Ha Ha' HR Hk H1 H2 E E'
    | or_intror E, or_introl E' => accesses_public p p' _ _ k pwd pwd' salt salt' t R C out out' log log' Hp Hp' Ha Ha' HR Hk H1 H2 E E'
    | or_intror E, or_intror E' => accesses_public p p' _ _ k pwd pwd' salt salt' t R C out out' log log' Hp Hp' Ha Ha' HR Hk H1 H2 E E'
    end).
Qed.
Print Assumptions lyra2_accesses_public.
(** Two passwords of the same length whose logs do differ. *)
Example lyra2_accesses_public_ex : exists out out' log log',
  rust_args (isize_max debug64) 1 [1; 2; 3; 4; 5; 6; 7; 8] [] 1 4 1 /\
  rust_args (isize_max release32) 1 [8; 7; 6; 5; 4; 3; 2; 1] [] 1 4 1 /\
  lyra2_acc debug64 1 [1; 2; 3; 4; 5; 6; 7; 8] [] 1 4 1 = Ok (out, log) /\
  lyra2_acc release32 1 [8; 7; 6; 5; 4; 3; 2; 1] [] 1 4 1 = Ok (out', log') /\ log <> log'.
Proof.
  do 4 eexists. split; [args_tac|]. split; [args_tac|].
  split; [vm_compute; reflexivity|]. split; [vm_compute; reflexivity|]. vm_compute. discriminate.
Qed.

(** The row numbers of the wandering phase do depend on the password: equal lengths and
    parameters do not make the whole sequence of addresses the same, in either variant. *)
Theorem lyra2_all_accesses_public_refuted :
  ~ (forall p k pwd pwd' salt t R C out out' log log',
       known_platform p -> rust_args (isize_max p) k pwd salt t R C -> rust_args (isize_max p) k pwd' salt t R C ->
       length pwd = length pwd' ->
       lyra2_acc p k pwd salt t R C = Ok (out, log) -> lyra2_acc p k pwd' salt t R C = Ok (out', log') ->
       log = log') /\
  ~ (forall p k pwd pwd' salt t R C out out' log log',
       known_platform p -> rust_args (isize_max p) k pwd salt t R C -> rust_args (isize_max p) k pwd' salt t R C ->
       length pwd = length pwd' ->
       lyra2mod_acc p k pwd salt t R C = Ok (out, log) -> lyra2mod_acc p k pwd' salt t R C = Ok (out', log') ->
       log = log').
Proof. exact all_accesses_public_refuted. Qed.
Print Assumptions lyra2_all_accesses_public_refuted.

(** ** C36: once the input has been absorbed, no word of the matrix is read before
    it has been written again, and every word of the matrix is written; after
    setup only rows whose number is a submask of [n_rows - 1] are touched, all of
    them inside the matrix. *)
Theorem lyra2_reads_initialised p k pwd salt t R C out log :
  known_platform p -> rust_args (isize_max p) k pwd salt t R C -> R < 2 ^ 63 \/ overflow_checks p = true ->
  usize_bits p = 64 \/ k < 2 ^ 63 ->
  lyra2_acc p k pwd salt t R C = Ok (out, log) \/ lyra2mod_acc p k pwd salt t R C = Ok (out, log) ->
  exists rest, log = input_accesses (Z.of_nat (length pwd)) (Z.of_nat (length salt)) ++ rest /\
    (forall l1 a l2, rest = l1 ++ Rd a :: l2 -> Wr a ∈ l1) /\
    (forall a, 0 <= a < 12 * R * C -> Wr a ∈ rest).
Proof.
  exact (fun Hp Ha HR0 Hk E => let HR := rows_acc p k pwd salt t R C Hp Ha HR0 out log E in match E with
    | or_introl E => acc_init p Hp MLyra2.sel_lyra2 k pwd salt t R C out log Ha HR Hk E
    | or_intror E => acc_init p Hp (MLyra2.sel_lyra2mod p) k pwd salt t R C out log Ha HR Hk E
    end).
Qed.
Print Assumptions lyra2_reads_initialised.
(** C02, C36: the words touched by a returning call are exactly those of the
    matrix; no access is out of bounds and no word is left out. *)
Theorem lyra2_accesses_in_bounds p k pwd salt t R C out log :
  known_platform p -> rust_args (isize_max p) k pwd salt t R C -> R < 2 ^ 63 \/ overflow_checks p = true ->
  usize_bits p = 64 \/ k < 2 ^ 63 ->
  lyra2_acc p k pwd salt t R C = Ok (out, log) \/ lyra2mod_acc p k pwd salt t R C = Ok (out, log) ->
  forall a, Rd a ∈ log \/ Wr a ∈ log <-> 0 <= a < 12 * R * C.
Proof.
  exact (fun Hp Ha HR0 Hk E => let HR := rows_acc p k pwd salt t R C Hp Ha HR0 out log E in match E with
    | or_introl E => acc_exact p Hp MLyra2.sel_lyra2 k pwd salt t R C out log Ha HR Hk E
    | or_intror E => acc_exact p Hp (MLyra2.sel_lyra2mod p) k pwd salt t R C out log Ha HR Hk E
    end).
Qed.
Print Assumptions lyra2_accesses_in_bounds.
Theorem lyra2_wandering_addresses p k pwd salt t R C out log :
  known_platform p -> rust_args (isize_max p) k pwd salt t R C -> R < 2 ^ 63 \/ overflow_checks p = true ->
  usize_bits p = 64 \/ k < 2 ^ 63 ->
  lyra2_acc p k pwd salt t R C = Ok (out, log) \/ lyra2mod_acc p k pwd salt t R C = Ok (out, log) ->
  exists rest,
    log = (input_accesses (Z.of_nat (length pwd)) (Z.of_nat (length salt)) ++ setup_accesses R C) ++ rest /\
    (forall a, Rd a ∈ rest \/ Wr a ∈ rest ->
       0 <= a < 12 * R * C /\ Z.land (a / (12 * C)) (R - 1) = a / (12 * C)).
Proof.
  exact (fun Hp Ha HR0 Hk E => let HR := rows_acc p k pwd salt t R C Hp Ha HR0 out log E in match E with
    | or_introl E => acc_after_setup p Hp MLyra2.sel_lyra2 k pwd salt t R C out log Ha HR Hk E
    | or_intror E => acc_after_setup p Hp (MLyra2.sel_lyra2mod p) k pwd salt t R C out log Ha HR Hk E
    end).
Qed.
Print Assumptions lyra2_wandering_addresses.
(** A call to which the theorems above apply, with an odd row count. *)
Example lyra2_reads_initialised_ex : exists out log,
  rust_args (isize_max debug64) 4 apw asalt 2 7 2 /\ lyra2_acc debug64 4 apw asalt 2 7 2 = Ok (out, log).
Proof. do 2 eexists. split; [args_tac|]. vm_compute. reflexivity. Qed.
