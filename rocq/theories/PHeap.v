(** * Properties C44, C45: heap memory used and what is left in it

    [lyra2_heap] is [lyra2] with a log of the vectors it allocates and drops (MHeap.v);
    the first theorem says that it is the same function.  [allocated], [in_use] and
    [peak] count words of 64 bits; [freed] and [freed_bytes] are the contents of the
    vectors at the moment their memory is given back (SpecHeap.v). *)
From Verif Require Import Machine.
From Verif Require Import SpecWord SpecLyra2 SpecCalls.
From Verif Require MLyra2.
From Verif Require Import MHeap SpecHeap HeapFacts RefineTop PLyra2Lemmas CheckedRows.
#[local] Open Scope Z_scope.

(** Dropping the log gives the modelled function, on every platform and input. *)
Theorem lyra2_heap_erase p k pwd salt t R C :
  (x <-- lyra2_heap p k pwd salt t R C ;; Ok (fst x)) = MLyra2.lyra2 p k pwd salt t R C /\
  (x <-- lyra2mod_heap p k pwd salt t R C ;; Ok (fst x)) = MLyra2.lyra2mod p k pwd salt t R C.
Proof.
  exact (conj (heap_erase p MLyra2.sel_lyra2 k pwd salt t R C)
              (heap_erase p (MLyra2.sel_lyra2mod p) k pwd salt t R C)).
Qed.
Print Assumptions lyra2_heap_erase.

(** ** C44: a call that returns needs room for exactly two matrices, not one; it gives
    everything back; and it copies the rest of the matrix once for every block of 64
    bytes of input and once more at the end. *)
Theorem lyra2_heap_use p k pwd salt t R C out log :
  known_platform p -> rust_args (isize_max p) k pwd salt t R C -> R < 2 ^ 63 \/ overflow_checks p = true ->
  lyra2_heap p k pwd salt t R C = Ok (out, log) \/ lyra2mod_heap p k pwd salt t R C = Ok (out, log) ->
  let nb := (Z.of_nat (length salt) + Z.of_nat (length pwd) + 48) / 64 + 1 in
  peak log (24 * R * C) /\ in_use 0 log = 0 /\
  exists rowa, 0 <= rowa < R /\
    allocated log = (nb + 1) * (12 * R * C) - 4 * (nb * (nb - 1)) + 12 * C * (R - rowa).
Proof.
  exact (fun Hp Ha HR0 E => let HR := rows_heap p k pwd salt t R C Hp Ha HR0 out log E in match E with
    | or_introl E => heap_use p Hp _ _ k pwd salt t R C out log sel_lyra2_ok Ha HR E
    | or_intror E => heap_use p Hp _ _ k pwd salt t R C out log (sel_lyra2mod_ok p Hp) Ha HR E
    end).
Qed.
Print Assumptions lyra2_heap_use.

Definition hpw : list Z := [1; 2; 3; 4; 5; 6; 7; 8; 9].
Definition hsalt : list Z := [17; 34; 51; 68; 85; 102; 119; 136].
Example lyra2_heap_use_ex : exists out log,
  rust_args (isize_max debug64) 4 hpw hsalt 1 3 1 /\
  lyra2_heap debug64 4 hpw hsalt 1 3 1 = Ok (out, log) /\ length out = 4%nat.
Proof. do 2 eexists. split; [args_tac|]. split; [vm_compute; reflexivity|]. reflexivity. Qed.

(** ** C45: the memory given back by a call still holds the complete words of the
    password and of the salt, side by side, in the first copy of the matrix; the two
    arguments themselves; and the key. *)
Theorem lyra2_leaves_secrets p k pwd salt t R C out log :
  known_platform p -> rust_args (isize_max p) k pwd salt t R C -> R < 2 ^ 63 \/ overflow_checks p = true ->
  lyra2_heap p k pwd salt t R C = Ok (out, log) \/ lyra2mod_heap p k pwd salt t R C = Ok (out, log) ->
  (exists buf rest, buf ∈ freed log /\
     memory_bytes buf = take (8 * (length pwd / 8)) pwd ++ take (8 * (length salt / 8)) salt ++ rest) /\
  pwd ∈ freed_bytes log /\ salt ∈ freed_bytes log /\
  (usize_bits p = 64 \/ k < 2 ^ 63 -> exists rest, out ++ rest ∈ freed_bytes log).
Proof.
  exact (fun Hp Ha HR0 E => let HR := rows_heap p k pwd salt t R C Hp Ha HR0 out log E in match E with
    | or_introl E => heap_freed p Hp _ _ k pwd salt t R C out log sel_lyra2_ok Ha HR E
    | or_intror E => heap_freed p Hp _ _ k pwd salt t R C out log (sel_lyra2mod_ok p Hp) Ha HR E
    end).
Qed.
Print Assumptions lyra2_leaves_secrets.
Example lyra2_leaves_secrets_ex : exists out log,
  lyra2_heap debug64 4 hpw hsalt 1 3 1 = Ok (out, log) /\ length (freed log) = 4%nat /\
  take 16 (memory_bytes (freed log !!! 0%nat)) = take 8 hpw ++ hsalt.
Proof.
  assert (E : exists x, lyra2_heap debug64 4 hpw hsalt 1 3 1 = Ok x /\ length (freed x.2) = 4%nat /\
            take 16 (memory_bytes (freed x.2 !!! 0%nat)) = take 8 hpw ++ hsalt).
  { eexists. split; [vm_compute; reflexivity|]. split; vm_compute; reflexivity. }
  destruct E as [[out log] E]. exists out, log. exact E.
Qed.

(** The comment at lyra2.rs:280-281 promises that the local copy of the password is
    overwritten; it is not, for any password with a complete word that is not zero:
    the memory given back holds that word. *)
Theorem lyra2_wipes_password_refuted :
  ~ (forall p k pwd salt t R C out log,
       known_platform p -> rust_args (isize_max p) k pwd salt t R C ->
       lyra2_heap p k pwd salt t R C = Ok (out, log) ->
       forall buf, buf ∈ freed log -> take 8 (memory_bytes buf) <> take 8 pwd \/ (length pwd < 8)%nat).
Proof. exact wipes_refuted. Qed.
Print Assumptions lyra2_wipes_password_refuted.
