(** * Two passwords told apart by a panic

    With [n_rows = 2^63 + h] the number of words [n_rows * 12 * n_cols] wraps modulo
    2^64 in a build without overflow checks.  For [h] below this the matrix has 1004
    words, the walk of the wandering phase visits row 0 twice, and a row* is inside
    the matrix for one sponge state in 1024 only. *)
From Verif Require Import Machine MLyra2.
From Verif Require Import SpecWord SpecCalls.
From Verif Require Import PLyra2Lemmas.
#[local] Open Scope Z_scope.

Definition wrap_rows : Z := 2 ^ 63 + (2 ^ 6 + 2 ^ 12 + 2 ^ 18 + 2 ^ 24 + 2 ^ 30 + 2 ^ 36 + 2 ^ 42 + 2 ^ 48 + 2 ^ 54 + 2 ^ 60) + 5.
Definition wrap_lucky : list Z := [3; 248; 6; 0; 0; 0; 0; 0].
Definition wrap_other : list Z := [0; 0; 0; 0; 0; 0; 0; 0].
Lemma wrap_returns : match lyra2 release64 32 wrap_lucky [] 1 wrap_rows 21 with Ok _ => true | _ => false end = true.
Proof. vm_compute. reflexivity. Qed.
Lemma wrap_panics : lyra2 release64 32 wrap_other [] 1 wrap_rows 21 = Panic.
Proof. vm_compute. reflexivity. Qed.
Lemma wrap_failure : exists k pwd pwd' salt t R C,
  rust_args (isize_max release64) k pwd salt t R C /\ rust_args (isize_max release64) k pwd' salt t R C /\
  length pwd = length pwd' /\
  (exists out, lyra2 release64 k pwd salt t R C = Ok out) /\ lyra2 release64 k pwd' salt t R C = Panic.
Proof.
  exists 32, wrap_lucky, wrap_other, [], 1, wrap_rows, 21.
  split; [unfold wrap_rows, wrap_lucky; args_tac|]. split; [unfold wrap_rows, wrap_other; args_tac|].
  split; [reflexivity|]. split; [|exact wrap_panics].
  pose proof wrap_returns as H. revert H.
  generalize (lyra2 release64 32 wrap_lucky [] 1 wrap_rows 21).
  intros [out| |]; [|discriminate..]. intros _. exists out. reflexivity.
Qed.
