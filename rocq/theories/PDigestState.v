(** * C40: CubeHash loses nothing until it truncates its state *)
From Verif Require Import Machine MUtils MCubeGen MCube MDigestState CubeFacts CubePerm DigestBalance Tests.
From Verif Require Import SpecWord SpecCube SpecPhases.

(** The rounds of the code permute the 1024-bit states. *)
Theorem cubehash_two_rounds_permute : permutes_on (fun c => cube_state (cwords c)) two_rounds.
Proof. exact two_rounds_perm. Qed.
Print Assumptions cubehash_two_rounds_permute.

Theorem cubehash_sixteen_rounds_permute : permutes_on (fun c => cube_state (cwords c)) sixteen_rounds.
Proof. exact sixteen_rounds_perm. Qed.
Print Assumptions cubehash_sixteen_rounds_permute.

(** A state on which the rounds act non-trivially: the initial one. *)
Example cubehash_rounds_act : cube_state (cwords new_cube_hash) /\ c_x0 (two_rounds new_cube_hash) <> c_x0 new_cube_hash.
Proof.
  split.
  - split; [reflexivity|]. apply (bool_decide_unpack (Forall (fun x => 0 <= x < 2 ^ 32) (cwords new_cube_hash))).
    vm_compute. exact I.
  - vm_compute. discriminate.
Qed.

(** [cubehash::sum] is [cubehash_state] followed by [cubehash_read], whatever it is given. *)
Theorem cubehash_in_two_parts p data :
  cubehash_sum p data = (c <-- cubehash_state p data ;; cubehash_read p c).
Proof. exact (two_parts p data). Qed.
Print Assumptions cubehash_in_two_parts.

(** On every input of at least 32 bytes the function reaches a final state, and two
    inputs reach the same one exactly when their first 32 bytes are the same: two
    different 32-byte inputs can share a digest only through the 768 bits of state that
    the function does not return. *)
Theorem cubehash_state_injective p p' data data' :
  known_platform p -> known_platform p' ->
  (32 <= length data)%nat -> (32 <= length data')%nat -> Forall byte data -> Forall byte data' ->
  (exists c, cubehash_state p data = Ok c /\ cube_state (cwords c)) /\
  (cubehash_state p data = cubehash_state p' data' <-> take 32 data = take 32 data').
Proof. exact (sum_state_iff p p' data data'). Qed.
Print Assumptions cubehash_state_injective.

(** Two inputs that differ in their last byte end in different states. *)
Example cubehash_states_differ :
  cubehash_state debug64 (replicate 32 0) <> cubehash_state release32 (replicate 31 0 ++ [1]).
Proof.
  assert (F : forall l, bool_decide (Forall (fun x => 0 <= x < 256) l) = true -> Forall byte l)
    by (intros l H; exact (bool_decide_eq_true_1 _ H)).
  intros E.
  apply (cubehash_state_injective debug64 release32) in E;
    [|right; reflexivity|left; reflexivity|repeat constructor|repeat constructor|apply F; reflexivity|apply F; reflexivity].
  apply (f_equal (fun l => nth 31 l 0)) in E. vm_compute in E. discriminate E.
Qed.

(** No digest is favoured by the final rounds: for every digest, and every choice of the
    768 bits that are not returned, there is exactly one state before the last statements
    of [sum] (cubehash/mod.rs:337-351) that leads to them.  So every digest comes from
    exactly 2^768 of the 2^1024 states. *)
Theorem cubehash_digests_equally_likely p digest rest :
  known_platform p ->
  length digest = 32%nat -> Forall byte digest -> length rest = 24%nat -> Forall (word 32) rest ->
  exists! c, cube_state (cwords c) /\
    let c' := Nat.iter 10 sixteen_rounds (xor_xv c 1) in
    cubehash_read p c' = Ok digest /\ drop 8 (cwords c') = rest.
Proof. exact (digest_balance p digest rest). Qed.
Print Assumptions cubehash_digests_equally_likely.

(** Those last statements are the end of [sum]. *)
Theorem cubehash_last_part p data c : cubehash_state p data = Ok c ->
  exists c0, c = Nat.iter 10 sixteen_rounds (xor_xv c0 1).
Proof. exact (last_part p data c). Qed.
Print Assumptions cubehash_last_part.

Example cubehash_digests_ex :
  known_platform release32 /\ length (seqZ 0 32) = 32%nat /\ Forall byte (seqZ 0 32) /\
  length (replicate 24 5) = 24%nat /\ Forall (word 32) (replicate 24 5).
Proof.
  split; [by left|]. split; [reflexivity|]. split.
  - apply (bool_decide_unpack (Forall (fun x => 0 <= x < 256) (seqZ 0 32))). vm_compute. exact I.
  - split; [reflexivity|]. apply Forall_replicate. split; vm_compute; [discriminate|reflexivity].
Qed.
