(** * Property C61, and C44, C45 for the translated source: heap memory however a call ends

    [SrcLyra2Heap.lyra2_held] and [SrcLyra2modHeap.lyra2mod_held] are generated from the
    text of lyra2.rs and lyra2mod/mod.rs by tools/rust2coq.py with a log of the vectors of
    words that are allocated and dropped; the log is there for a call that panics too, up
    to the panic.  [in_use] counts words of 64 bits (SpecHeap.v). *)
From Verif Require Import Machine.
From Verif Require Import SpecWord SpecLyra2 SpecCalls.
From Verif Require MLyra2 SrcLyra2 SrcLyra2mod SrcLyra2Heap SrcLyra2modHeap.
From Verif Require Import MHeap SpecHeap HeldProps HeldSafe PLyra2Lemmas PHeap.
#[local] Open Scope Z_scope.

(** Without the log it is the translated source, and the log of a call that returns is
    that of the model of MHeap.v, on every platform and input. *)
Theorem source_heap_is_model p k pwd salt t R C : known_platform p ->
  ((SrcLyra2Heap.lyra2_held p k pwd salt t R C).1 = SrcLyra2.lyra2 p k pwd salt t R C /\
   (SrcLyra2modHeap.lyra2mod_held p k pwd salt t R C).1 = SrcLyra2mod.lyra2mod p k pwd salt t R C) /\
  forall out log,
    (SrcLyra2Heap.lyra2_held p k pwd salt t R C = (Ok out, log) <-> lyra2_heap p k pwd salt t R C = Ok (out, log)) /\
    (SrcLyra2modHeap.lyra2mod_held p k pwd salt t R C = (Ok out, log) <-> lyra2mod_heap p k pwd salt t R C = Ok (out, log)).
Proof.
  exact (fun Hp => conj (conj (held_erase p Hp k pwd salt t R C) (held_erase_mod p Hp k pwd salt t R C))
    (fun out log => conj (held_is_model p Hp k pwd salt t R C out log) (held_is_model_mod p Hp k pwd salt t R C out log))).
Qed.
Print Assumptions source_heap_is_model.

(** ** C61: however a call ends, it allocates nothing before its parameters are checked and
    its size is accepted, then the matrix first; at no moment are more than two matrices of
    words in use; and a call that returns has given everything back.  [n], the size of a
    matrix, is the product of the parameters in the arithmetic of [usize]. *)
Theorem source_heap_any p k pwd salt t R C : known_platform p ->
  let n := (12 * R * C) mod 2 ^ usize_bits p in
  forall x, x = SrcLyra2Heap.lyra2_held p k pwd salt t R C \/ x = SrcLyra2modHeap.lyra2mod_held p k pwd salt t R C ->
  (snd x = [] /\ (forall out, fst x <> Ok out) \/
   1 <= t /\ 3 <= R /\ 8 * n <= isize_max p /\ exists rest, snd x = HAlloc n :: rest) /\
  (forall l1 l2, snd x = l1 ++ l2 -> 0 <= in_use 0 l1 <= 2 * n) /\
  (forall out, fst x = Ok out -> in_use 0 (snd x) = 0).
Proof. exact (heap_any p k pwd salt t R C). Qed.
Print Assumptions source_heap_any.

(** Calls that meet each case: refused for its rows; a key that is too long, which is
    noticed only at the end, with the matrix still there; and one that returns. *)
Definition case_rows := SrcLyra2Heap.lyra2_held debug64 4 hpw hsalt 1 2 1.
Definition case_key := SrcLyra2Heap.lyra2_held debug64 97 hpw hsalt 1 3 1.
Definition case_fine := SrcLyra2Heap.lyra2_held debug64 4 hpw hsalt 1 3 1.
Example source_heap_any_ex :
  case_rows = (Panic, []) /\
  (fst case_key = Panic /\ length (snd case_key) = 7%nat /\ in_use 0 (snd case_key) = 36) /\
  (exists out, fst case_fine = Ok out) /\ in_use 0 (take 2 (snd case_fine)) = 72.
Proof. split; [|split; [|split]]; [vm_compute; reflexivity|vm_compute; auto|vm_compute; eauto|vm_compute; reflexivity]. Qed.

(** [lyra2::sum] and [lyra2mod::sum] never have more than 384 words (3072 bytes) in use. *)
Theorem source_sum_heap p input : known_platform p ->
  forall x, x = SrcLyra2Heap.sum_held p input \/ x = SrcLyra2modHeap.sum_held p input ->
  forall l1 l2, snd x = l1 ++ l2 -> 0 <= in_use 0 l1 <= 384.
Proof. exact (sum_heap p input). Qed.
Print Assumptions source_sum_heap.
Definition case_sum := SrcLyra2Heap.sum_held release32 hpw.
Example source_sum_heap_ex : in_use 0 (take 2 (snd case_sum)) = 384.
Proof. vm_compute. reflexivity. Qed.

(** ** C44 and C45 for the translated source *)
Theorem source_heap_use p k pwd salt t R C out log :
  known_platform p -> rust_args (isize_max p) k pwd salt t R C -> R < 2 ^ 63 \/ overflow_checks p = true ->
  SrcLyra2Heap.lyra2_held p k pwd salt t R C = (Ok out, log) \/
  SrcLyra2modHeap.lyra2mod_held p k pwd salt t R C = (Ok out, log) ->
  let nb := (Z.of_nat (length salt) + Z.of_nat (length pwd) + 48) / 64 + 1 in
  peak log (24 * R * C) /\ in_use 0 log = 0 /\
  exists rowa, 0 <= rowa < R /\
    allocated log = (nb + 1) * (12 * R * C) - 4 * (nb * (nb - 1)) + 12 * C * (R - rowa).
Proof.
  exact (fun Hp Ha HR E => lyra2_heap_use p k pwd salt t R C out log Hp Ha HR (held_either p Hp k pwd salt t R C out log E)).
Qed.
Print Assumptions source_heap_use.
Theorem source_leaves_secrets p k pwd salt t R C out log :
  known_platform p -> rust_args (isize_max p) k pwd salt t R C -> R < 2 ^ 63 \/ overflow_checks p = true ->
  SrcLyra2Heap.lyra2_held p k pwd salt t R C = (Ok out, log) \/
  SrcLyra2modHeap.lyra2mod_held p k pwd salt t R C = (Ok out, log) ->
  (exists buf rest, buf ∈ freed log /\
     memory_bytes buf = take (8 * (length pwd / 8)) pwd ++ take (8 * (length salt / 8)) salt ++ rest) /\
  pwd ∈ freed_bytes log /\ salt ∈ freed_bytes log /\
  (usize_bits p = 64 \/ k < 2 ^ 63 -> exists rest, out ++ rest ∈ freed_bytes log).
Proof.
  exact (fun Hp Ha HR E => lyra2_leaves_secrets p k pwd salt t R C out log Hp Ha HR (held_either p Hp k pwd salt t R C out log E)).
Qed.
Print Assumptions source_leaves_secrets.
Example source_heap_use_ex : exists out log,
  rust_args (isize_max debug64) 4 hpw hsalt 1 3 1 /\ case_fine = (Ok out, log) /\
  length out = 4%nat /\ length (freed log) = 4%nat.
Proof. do 2 eexists. split; [args_tac|]. split; [vm_compute; reflexivity|]. split; reflexivity. Qed.
