(** * Property C52: the permutations neither create nor destroy symmetry *)
From Verif Require Import Machine MachineFacts MUtils MCubeGen MCube CubeFacts.
From Verif Require MLyra2.
From Verif Require Import PSponge SymmetryFacts.
From Verif Require Import SpecWord SpecBlake2b SpecSponge SpecCube SpecSymmetry.
#[local] Open Scope Z_scope.

(** ** The sponge of lyra2 and lyra2mod *)
(** Turning the columns of the 4x4 state before the transformation or after it is the same. *)
Theorem sponge_turns r v : state16 v -> (r < 4)%nat ->
  MLyra2.reduced_blake2b_lyra (turn r v) = turn r (MLyra2.reduced_blake2b_lyra v) /\
  MLyra2.blake2b_lyra (turn r v) = turn r (MLyra2.blake2b_lyra v).
Proof. exact (fun H Hr => conj (round_turn r v (proj1 H) Hr) (full_turn r v (proj1 H) Hr)). Qed.
Print Assumptions sponge_turns.
(** So a state with equal columns (alternating columns for [r = 2]) stays one for ever, and
    no other state becomes one. *)
Theorem sponge_symmetry r v : state16 v -> (r < 4)%nat ->
  (symmetric (turn r) (MLyra2.reduced_blake2b_lyra v) <-> symmetric (turn r) v) /\
  (symmetric (turn r) (MLyra2.blake2b_lyra v) <-> symmetric (turn r) v).
Proof. exact (fun H Hr => conj (round_symmetric r v Hr H) (full_symmetric r v Hr H)). Qed.
Print Assumptions sponge_symmetry.
(** Whatever the first block of the input is, the state it leads to has none of these
    symmetries. *)
Theorem first_absorption_asymmetric r w s : (1 <= r < 4)%nat -> (8 <= length w)%nat -> Forall (word 64) w ->
  MLyra2.absorb_block_blake2_safe MLyra2.init_state w = Ok s -> ~ symmetric (turn r) s.
Proof. exact (first_asymmetric r w s). Qed.
Print Assumptions first_absorption_asymmetric.

(** A state with four equal columns, on which the transformation acts. *)
Definition columns_equal : list Z := [1; 1; 1; 1; 2; 2; 2; 2; 3; 3; 3; 3; 4; 4; 4; 4].
Example sponge_symmetry_ex :
  state16 columns_equal /\ symmetric (turn 1) columns_equal /\
  MLyra2.blake2b_lyra columns_equal <> columns_equal /\ symmetric (turn 1) (MLyra2.blake2b_lyra columns_equal) /\
  ~ symmetric (turn 2) some_state.
Proof.
  assert (S : state16 columns_equal).
  { split; [done|]. apply (bool_decide_unpack (Forall (fun x => 0 <= x < 2 ^ 64) columns_equal)). vm_compute. exact I. }
  split; [exact S|]. split; [reflexivity|].
  split; [intros E; apply (f_equal (fun l => nth 0 l 0)) in E; vm_compute in E; discriminate E|].
  split; [apply sponge_symmetry; [exact S|lia|reflexivity]|].
  vm_compute. discriminate.
Qed.
(** The row operations do not have the symmetry: the rotation by one word of the second write
    breaks it, in a matrix of three rows of one block with equal columns everywhere. *)
Example row_operation_breaks_symmetry :
  let block a b c := replicate 4 a ++ replicate 4 b ++ replicate 4 c in
  let m := block 1 2 3 ++ block 4 5 6 ++ block 7 8 9 in
  exists m' s', MLyra2.duplex_row debug64 12 1 0 1 2 m columns_equal = Ok (m', s') /\
    symmetric (turn 1) s' /\ m' !!! 24%nat <> m' !!! 25%nat.
Proof. eexists _, _. split; [vm_compute; reflexivity|]. split; [vm_compute; reflexivity|]. vm_compute. discriminate. Qed.

(** ** CubeHash *)
(** Exchanging the words whose numbers differ in given bits (not the highest) before the
    rounds or after them is the same. *)
Theorem cubehash_mirrors b c c' : cube_state (cwords c) -> (b < 16)%nat -> cwords c' = mirror b (cwords c) ->
  cwords (two_rounds c') = mirror b (cwords (two_rounds c)) /\
  cwords (sixteen_rounds c') = mirror b (cwords (sixteen_rounds c)).
Proof. exact (fun H Hb E => conj (two_mirror b c c' Hb H E) (sixteen_mirror b c c' Hb H E)). Qed.
Print Assumptions cubehash_mirrors.
Theorem cubehash_symmetry b c : cube_state (cwords c) -> (b < 16)%nat ->
  symmetric (mirror b) (cwords (sixteen_rounds c)) <-> symmetric (mirror b) (cwords c).
Proof. exact (fun H Hb => sixteen_symmetric b c Hb H). Qed.
Print Assumptions cubehash_symmetry.
(** Whatever the input is, the state after its block has none of the fifteen symmetries. *)
Theorem cubehash_first_block_asymmetric b data c : (1 <= b < 16)%nat -> Forall byte data ->
  input_block data new_cube_hash = Ok c -> ~ symmetric (mirror b) (cwords (sixteen_rounds c)).
Proof. exact (first_block_asymmetric b data c). Qed.
Print Assumptions cubehash_first_block_asymmetric.

(** A state with the symmetry [b = 1] on which the rounds act; an input for the last theorem. *)
Definition pairs_equal : CubeHash :=
  Cube 1 1 2 2 3 3 4 4 5 5 6 6 7 7 8 8 9 9 10 10 11 11 12 12 13 13 14 14 15 15 16 16.
Example cubehash_symmetry_ex :
  cube_state (cwords pairs_equal) /\ symmetric (mirror 1) (cwords pairs_equal) /\
  ~ symmetric (mirror 2) (cwords pairs_equal) /\ c_x0 (two_rounds pairs_equal) <> c_x0 pairs_equal /\
  exists c, input_block (replicate 40 7) new_cube_hash = Ok c.
Proof.
  split.
  { split; [reflexivity|]. apply (bool_decide_unpack (Forall (fun x => 0 <= x < 2 ^ 32) (cwords pairs_equal))). vm_compute. exact I. }
  split; [reflexivity|]. split; [vm_compute; discriminate|]. split; [vm_compute; discriminate|].
  eexists. vm_compute. reflexivity.
Qed.
