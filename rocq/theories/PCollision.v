(** * C47: a collision of a chained hash is a collision of one of its stages

    [stage_collision] (SpecCollision.v) names the two values at which a stage collides:
    those it is given in the two runs.  As in PChains.v the digests of the external
    crates are variables. *)
From Verif Require Import Machine.
From Verif Require MChains.
From Verif Require Import SpecWord SpecLyra2 SpecCube SpecBmw SpecChains SpecCollision.
From Verif Require Import CollisionFacts.
#[local] Open Scope Z_scope.

Theorem lyra2re_collision_iff p p' blake256 keccak256 skein256 groestl256 m m' :
  known_platform p -> known_platform p' ->
  digest256 blake256 -> digest256 keccak256 -> digest256 skein256 -> digest256 groestl256 ->
  Forall byte m -> Forall byte m' -> m <> m' ->
  MChains.lyra2re_sum p blake256 keccak256 skein256 groestl256 m =
    MChains.lyra2re_sum p' blake256 keccak256 skein256 groestl256 m' <->
  stage_collision [blake256; keccak256; (fun d => Lyra2_reference 32 d d 1 8 8); skein256; groestl256] m m'.
Proof. exact (fun Hp Hp' H1 H2 H3 H4 => lyra2re_collisions p p' Hp Hp' _ _ _ _ H1 H2 H3 H4 m m'). Qed.
Print Assumptions lyra2re_collision_iff.

Theorem lyra2rev2_collision_iff p p' blake256 keccak256 skein256 m m' :
  known_platform p -> known_platform p' ->
  digest256 blake256 -> digest256 keccak256 -> digest256 skein256 ->
  Forall byte m -> Forall byte m' -> m <> m' ->
  MChains.lyra2rev2_sum p blake256 keccak256 skein256 m =
    MChains.lyra2rev2_sum p' blake256 keccak256 skein256 m' <->
  stage_collision [blake256; keccak256; cubehash256; (fun d => Lyra2_reference 32 d d 1 4 4); skein256;
    cubehash256; bmw256] m m'.
Proof. exact (fun Hp Hp' H1 H2 H3 => lyra2rev2_collisions p p' Hp Hp' _ _ _ H1 H2 H3 m m'). Qed.
Print Assumptions lyra2rev2_collision_iff.

Theorem lyra2rev3_collision_iff p p' blake256 m m' :
  known_platform p -> known_platform p' -> digest256 blake256 ->
  Forall byte m -> Forall byte m' -> m <> m' ->
  MChains.lyra2rev3_sum p blake256 m = MChains.lyra2rev3_sum p' blake256 m' <->
  stage_collision [blake256; (fun d => Lyra2_rev3 32 d d 1 4 4); cubehash256;
    (fun d => Lyra2_rev3 32 d d 1 4 4); bmw256] m m'.
Proof. exact (fun Hp Hp' H1 => lyra2rev3_collisions p p' Hp Hp' _ H1 m m'). Qed.
Print Assumptions lyra2rev3_collision_iff.

Theorem lyra2z_collision_iff p p' blake256 m m' :
  known_platform p -> known_platform p' -> digest256 blake256 ->
  Forall byte m -> Forall byte m' -> m <> m' ->
  MChains.lyra2z_sum p blake256 m = MChains.lyra2z_sum p' blake256 m' <->
  stage_collision [blake256; (fun d => Lyra2_reference 32 d d 8 8 8)] m m'.
Proof. exact (fun Hp Hp' H1 => lyra2z_collisions p p' Hp Hp' _ H1 m m'). Qed.
Print Assumptions lyra2z_collision_iff.

(** Both sides happen: a first stage that only reads 32 bytes makes all the following
    ones, and with them the chain, agree; a first stage that keeps two inputs apart does
    not collide at them. *)
Definition reads_32 (m : list Z) : list Z := take 32 (m ++ replicate 32 0).
Example collision_ex :
  digest256 reads_32 /\ [1] <> [1; 0] /\
  MChains.lyra2z_sum debug64 reads_32 [1] = MChains.lyra2z_sum release32 reads_32 [1; 0] /\
  ~ collision reads_32 [1] [2].
Proof.
  assert (D : digest256 reads_32).
  { intros m Hm. unfold reads_32. split; [rewrite take_length, app_length, replicate_length; lia|].
    apply Forall_take, Forall_app. split; [done|]. apply Forall_replicate. unfold byte, word; lia. }
  split; [exact D|]. split; [discriminate|]. split; [|intros [_ E]; vm_compute in E; discriminate].
  apply (lyra2z_collision_iff debug64 release32); [by right|by left|exact D| | |discriminate|].
  - repeat constructor; lia.
  - repeat constructor; lia.
  - left. split; [discriminate|reflexivity].
Qed.
