(** * Property C59: how much of the memory the key depends on

    [until_setup] (MPhases.v) is the first part of [lyra2] and [lyra2mod], up to the end of
    the setup phase, which fills the matrix; [from_setup] (MRest.v) is the rest. *)
From stdpp Require Import list_numbers.
From Verif Require Import Machine.
From Verif Require Import SpecWord SpecLyra2 SpecCalls SpecRowChoice SpecUnused.
From Verif Require MLyra2.
From Verif Require Import MPhases MRest PLyra2Lemmas UnusedFacts.
#[local] Open Scope Z_scope.

(** The two parts are the call, on every platform and input. *)
Theorem setup_and_rest_make_the_call p k pwd salt t R C :
  MLyra2.lyra2 p k pwd salt t R C =
    ('(row_len, m, state, v) <-- until_setup p k pwd salt t R C ;;
     from_setup p MLyra2.sel_lyra2 k row_len t R C m state v) /\
  MLyra2.lyra2mod p k pwd salt t R C =
    ('(row_len, m, state, v) <-- until_setup p k pwd salt t R C ;;
     from_setup p (MLyra2.sel_lyra2mod p) k row_len t R C m state v).
Proof.
  exact (conj (setup_then_rest p MLyra2.sel_lyra2 k pwd salt t R C)
              (setup_then_rest p (MLyra2.sel_lyra2mod p) k pwd salt t R C)).
Qed.
Print Assumptions setup_and_rest_make_the_call.

(** Whatever the rows that are not used are overwritten with when the setup phase has
    ended, the call goes on to the same result. *)
Theorem unused_rows_do_not_matter p k pwd salt t R C row_len m st v m' :
  known_platform p -> rust_args (isize_max p) k pwd salt t R C -> accepted (isize_max p) 0 pwd salt t R C ->
  until_setup p k pwd salt t R C = Ok (row_len, m, st, v) ->
  Z.of_nat (length m') = 12 * R * C -> Forall (word 64) m' -> same_used_rows R C m m' ->
  from_setup p MLyra2.sel_lyra2 k row_len t R C m' st v = MLyra2.lyra2 p k pwd salt t R C /\
  from_setup p (MLyra2.sel_lyra2mod p) k row_len t R C m' st v = MLyra2.lyra2mod p k pwd salt t R C.
Proof. exact (unused p k pwd salt t R C row_len m st v m'). Qed.
Print Assumptions unused_rows_do_not_matter.

(** The number of rows that are used: all of them exactly when it is a power of two, at
    most two thirds of them otherwise, and two if there is one row more than a power of two. *)
Theorem rows_used_count R : 1 <= R <= 2 ^ 64 ->
  rows_used R = 2 ^ bits_set (R - 1) /\
  (rows_used R = R <-> exists e, 0 <= e /\ R = 2 ^ e) /\
  ((forall e, 0 <= e -> R <> 2 ^ e) -> 3 * rows_used R <= 2 * R) /\
  (forall e, 0 <= e -> R = 2 ^ e + 1 -> rows_used R = 2).
Proof.
  exact (fun HR => conj (used_bits R HR) (conj (used_all R HR) (conj (used_two_thirds R (proj1 HR))
    (fun e He E => eq_trans (f_equal rows_used E) (used_plus_1 e He))))).
Qed.
Print Assumptions rows_used_count.

(** That the key depends on all of the memory is refuted for every number of rows that is
    not a power of two, and every accepted call: there is a row that can be replaced by
    anything after the setup phase. *)
Theorem all_memory_matters_refuted p k pwd salt t R C :
  known_platform p -> rust_args (isize_max p) k pwd salt t R C -> accepted (isize_max p) 0 pwd salt t R C ->
  (forall e, 0 <= e -> R <> 2 ^ e) ->
  exists r row_len m st v, 0 <= r < R /\ until_setup p k pwd salt t R C = Ok (row_len, m, st, v) /\
    forall row, Z.of_nat (length row) = 12 * C -> Forall (word 64) row ->
    let m' := take (Z.to_nat (12 * C * r)) m ++ row ++ drop (Z.to_nat (12 * C * (r + 1))) m in
    from_setup p MLyra2.sel_lyra2 k row_len t R C m' st v = MLyra2.lyra2 p k pwd salt t R C /\
    from_setup p (MLyra2.sel_lyra2mod p) k row_len t R C m' st v = MLyra2.lyra2mod p k pwd salt t R C.
Proof. exact (one_row p k pwd salt t R C). Qed.
Print Assumptions all_memory_matters_refuted.

(** Seven rows of one block: rows 1, 3 and 5 are not used. *)
Example rows_of_seven : filter (fun r => Z.land r (7 - 1) = r) (seqZ 0 7) = [0; 2; 4; 6] /\ rows_used 7 = 4.
Proof. vm_compute. split; reflexivity. Qed.
Definition erase_rows (rows : list Z) (m : list Z) : list Z :=
  imap (fun i w => if bool_decide (Z.of_nat i / 12 ∈ rows) then 0 else w) m.
(** The key after the given rows have been erased at the end of the setup phase. *)
Definition key_without (rows : list Z) : outcome (list Z) :=
  '(row_len, m, st, v) <-- until_setup debug64 8 [1; 2; 3; 4; 5; 6; 7; 8] [] 1 7 1 ;;
  from_setup debug64 MLyra2.sel_lyra2 8 row_len 1 7 1 (erase_rows rows m) st v.
Example erased_rows_of_seven :
  let key := MLyra2.lyra2 debug64 8 [1; 2; 3; 4; 5; 6; 7; 8] [] 1 7 1 in
  key <> Panic /\ key_without [1; 3; 5] = key /\
  key_without [2] <> key.
Proof. vm_compute. repeat split; try reflexivity; discriminate. Qed.
Example unused_args : known_platform debug64 /\
  rust_args (isize_max debug64) 8 [1; 2; 3; 4; 5; 6; 7; 8] [] 1 7 1 /\
  accepted (isize_max debug64) 0 [1; 2; 3; 4; 5; 6; 7; 8] [] 1 7 1.
Proof. split; [by right|]. split; [args_tac|accepted_tac]. Qed.
