(** * Property C49: the requested length is part of the key

    [until_setup] and [wrap_up] (MPhases.v) are the first and the last part of a call. *)
From Verif Require Import Machine.
From Verif Require Import SpecWord SpecLyra2 SpecCalls.
From Verif Require MLyra2.
From Verif Require Import MPhases KeyLengthFacts PLyra2Lemmas.
#[local] Open Scope Z_scope.

(** Asking for a longer key with everything else unchanged does not extend the key. *)
Definition kl_pw : list Z := [1; 2; 3; 4; 5; 6; 7; 8].
Theorem longer_key_extends_refuted :
  ~ (forall p k k' pwd salt t R C out out',
       known_platform p -> rust_args (isize_max p) k pwd salt t R C -> rust_args (isize_max p) k' pwd salt t R C ->
       k <= k' -> MLyra2.lyra2 p k pwd salt t R C = Ok out -> MLyra2.lyra2 p k' pwd salt t R C = Ok out' ->
       take (length out) out' = out).
Proof.
  intros H.
  assert (E : exists out out', MLyra2.lyra2 debug64 8 kl_pw kl_pw 1 3 1 = Ok out /\
                MLyra2.lyra2 debug64 9 kl_pw kl_pw 1 3 1 = Ok out' /\ bool_decide (take (length out) out' = out) = false).
  { do 2 eexists. split; [vm_compute; reflexivity|]. split; [vm_compute; reflexivity|]. vm_compute. reflexivity. }
  destruct E as (out & out' & E & E' & Hne). apply bool_decide_eq_false in Hne. apply Hne.
  eapply (H debug64 8 9 kl_pw kl_pw 1 3 1); [right; reflexivity|args_tac|args_tac|lia|exact E|exact E'].
Qed.
Print Assumptions longer_key_extends_refuted.

(** The reason, for every password, salt and cost: calls that differ in the length only
    end the setup phase with different contents of memory and sponge. *)
Theorem key_length_enters_memory p k k' pwd salt t R C :
  known_platform p ->
  rust_args (isize_max p) k pwd salt t R C -> rust_args (isize_max p) k' pwd salt t R C ->
  accepted (isize_max p) 0 pwd salt t R C -> k <> k' ->
  exists row_len m st m' st' v,
    until_setup p k pwd salt t R C = Ok (row_len, m, st, v) /\
    until_setup p k' pwd salt t R C = Ok (row_len, m', st', v) /\
    (m, st) <> (m', st').
Proof. exact (key_length_enters p k k' pwd salt t R C). Qed.
Print Assumptions key_length_enters_memory.
Example key_length_enters_memory_ex : exists row_len m st m' st' v,
  until_setup debug64 8 kl_pw kl_pw 1 3 1 = Ok (row_len, m, st, v) /\
  until_setup debug64 9 kl_pw kl_pw 1 3 1 = Ok (row_len, m', st', v) /\ (m, st) <> (m', st').
Proof. apply key_length_enters_memory; [right; reflexivity|args_tac|args_tac|accepted_tac|done]. Qed.

(** The output itself only truncates: from the same memory and sponge a shorter key is
    the beginning of a longer one. *)
Theorem shorter_key_is_prefix p k k' row_len m st rowa out out' :
  known_platform p -> 0 <= k <= k' -> k' < 2 ^ 64 -> usize_bits p = 64 \/ k' < 2 ^ 63 ->
  wrap_up p k row_len m st rowa = Ok out -> wrap_up p k' row_len m st rowa = Ok out' ->
  out = take (length out) out'.
Proof. exact (fun Hp => wrap_up_prefix p Hp k k' row_len m st rowa out out'). Qed.
Print Assumptions shorter_key_is_prefix.
Example shorter_key_is_prefix_ex :
  wrap_up debug64 2 12 (seqZ 100 48) (seqZ 1 16) 1 = Ok [143; 231] /\
  exists rest, wrap_up debug64 96 12 (seqZ 100 48) (seqZ 1 16) 1 = Ok (143 :: 231 :: rest).
Proof. split; [vm_compute; reflexivity|]. eexists. vm_compute. reflexivity. Qed.
