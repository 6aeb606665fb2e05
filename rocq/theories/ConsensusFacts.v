(** * Lemmas behind PConsensus.v *)
From Verif Require Import Machine MachineFacts Refine Refine2 RefineTop Termination Domain LyraFacts.
From Verif Require Import SpecWord SpecLyra2 SpecCalls SpecCube SpecBmw SpecChains.
From Verif Require MLyra2 MCube MBmw MChains.
Import MLyra2 (lyra2, lyra2mod, lyra2_sum, lyra2mod_sum).
From Verif Require Import PLyra2Lemmas CubeFacts BmwFacts HashFacts ChainFacts.
#[local] Open Scope Z_scope.

Lemma accepted_lengths max k pwd salt pwd' salt' t R C :
  (length pwd + length salt = length pwd' + length salt')%nat ->
  accepted max k pwd salt t R C -> accepted max k pwd' salt' t R C.
Proof.
  intros E. unfold accepted, n_blocks.
  replace (Z.of_nat (length pwd) + Z.of_nat (length salt))
    with (Z.of_nat (length pwd') + Z.of_nat (length salt')) by lia. auto.
Qed.
Lemma panics_iff p sel choose k pwd salt t R C : known_platform p -> sel_ok sel choose ->
  rust_args (isize_max p) k pwd salt t R C -> regular p R -> usize_bits p = 64 \/ k < 2 ^ 63 ->
  MLyra2.lyra2_with p sel k pwd salt t R C = Panic <-> ~ accepted (isize_max p) k pwd salt t R C.
Proof.
  intros Hp Hs Ha Hr Hk.
  destruct (dichotomy p sel choose k pwd salt t R C Hp Hs Ha Hr Hk) as [[H E]|[H E]]; rewrite E; [|tauto].
  split; [discriminate|tauto].
Qed.
Lemma failure_sizes p k pwd salt pwd' salt' t R C :
  known_platform p -> rust_args (isize_max p) k pwd salt t R C -> rust_args (isize_max p) k pwd' salt' t R C ->
  regular p R -> usize_bits p = 64 \/ k < 2 ^ 63 ->
  (length pwd + length salt = length pwd' + length salt')%nat ->
  (lyra2 p k pwd salt t R C = Panic <-> lyra2 p k pwd' salt' t R C = Panic) /\
  (lyra2mod p k pwd salt t R C = Panic <-> lyra2mod p k pwd' salt' t R C = Panic).
Proof.
  intros Hp Ha Ha' Hr Hk El.
  assert (E : ~ accepted (isize_max p) k pwd salt t R C <-> ~ accepted (isize_max p) k pwd' salt' t R C).
  { split; intros H H'; apply H; revert H'; apply accepted_lengths; lia. }
  split.
  - rewrite (panics_iff p MLyra2.sel_lyra2 choose_first k pwd salt t R C Hp sel_lyra2_ok Ha Hr Hk).
    rewrite (panics_iff p MLyra2.sel_lyra2 choose_first k pwd' salt' t R C Hp sel_lyra2_ok Ha' Hr Hk). exact E.
  - rewrite (panics_iff p _ choose_rev3 k pwd salt t R C Hp (sel_lyra2mod_ok p Hp) Ha Hr Hk).
    rewrite (panics_iff p _ choose_rev3 k pwd' salt' t R C Hp (sel_lyra2mod_ok p Hp) Ha' Hr Hk). exact E.
Qed.
Lemma sum_of p input : known_platform p -> rust_slice (isize_max p) input ->
  lyra2_sum p input = (if vlen input <=? 743 then Ok (Lyra2_code choose_first 32 input input 1 4 4) else Panic) /\
  lyra2mod_sum p input = (if vlen input <=? 743 then Ok (Lyra2_code choose_rev3 32 input input 1 4 4) else Panic).
Proof.
  intros Hp Hi. split.
  - exact (sum_with p Hp MLyra2.sel_lyra2 choose_first input sel_lyra2_ok Hi).
  - exact (sum_with p Hp _ choose_rev3 input (sel_lyra2mod_ok p Hp) Hi).
Qed.
Lemma if_panic {A} (b b' : bool) (v v' : A) : b = b' -> ((if b then Ok v else Panic) = @Panic A <-> (if b' then Ok v' else Panic) = @Panic A).
Proof. intros <-. destruct b; [split; discriminate|tauto]. Qed.
Lemma sum_failure_sizes p m m' : known_platform p -> rust_slice (isize_max p) m -> rust_slice (isize_max p) m' ->
  length m = length m' ->
  (lyra2_sum p m = Panic <-> lyra2_sum p m' = Panic) /\
  (lyra2mod_sum p m = Panic <-> lyra2mod_sum p m' = Panic) /\
  (MCube.cubehash_sum p m = Panic <-> MCube.cubehash_sum p m' = Panic) /\
  (MBmw.bmw_sum p m = Panic <-> MBmw.bmw_sum p m' = Panic).
Proof.
  intros Hp Hm Hm' El. destruct (sum_of p m Hp Hm) as [E1 E2]. destruct (sum_of p m' Hp Hm') as [E1' E2'].
  assert (Eb : (vlen m <=? 743) = (vlen m' <=? 743)) by (unfold vlen; by rewrite El).
  split; [rewrite E1, E1'; exact (if_panic _ _ _ _ Eb)|].
  split; [rewrite E2, E2'; exact (if_panic _ _ _ _ Eb)|].
  split.
  - rewrite <- (proj2 (cube_sum_returns_iff p m Hp (proj1 Hm))), <- (proj2 (cube_sum_returns_iff p m' Hp (proj1 Hm'))). by rewrite El.
  - rewrite <- (proj2 (bmw_sum_returns_iff p m Hp (proj1 Hm))), <- (proj2 (bmw_sum_returns_iff p m' Hp (proj1 Hm'))). by rewrite El.
Qed.
Lemma sums_platforms p p' m : known_platform p -> known_platform p' ->
  rust_slice (isize_max p) m -> rust_slice (isize_max p') m ->
  lyra2_sum p m = lyra2_sum p' m /\ lyra2mod_sum p m = lyra2mod_sum p' m /\
  MCube.cubehash_sum p m = MCube.cubehash_sum p' m /\ MBmw.bmw_sum p m = MBmw.bmw_sum p' m.
Proof.
  intros Hp Hp' Hm Hm'. destruct (sum_of p m Hp Hm) as [E1 E2]. destruct (sum_of p' m Hp' Hm') as [E1' E2'].
  rewrite E1, E2, E1', E2'. split; [reflexivity|]. split; [reflexivity|]. destruct Hm as [Hb _]. split.
  - destruct (decide (32 <= length m)%nat) as [H|H].
    + by rewrite (cube_sum_value p m Hp H Hb), (cube_sum_value p' m Hp' H Hb).
    + rewrite (proj1 (proj2 (cube_sum_returns_iff p m Hp Hb)) ltac:(lia)).
      by rewrite (proj1 (proj2 (cube_sum_returns_iff p' m Hp' Hb)) ltac:(lia)).
  - destruct (decide (length m <= 55)%nat) as [H|H]; [by rewrite !bmw_sum_short|].
    destruct (decide (64 <= length m)%nat) as [H'|H'].
    + rewrite (proj1 (proj2 (bmw_sum_returns_iff p m Hp Hb)) H').
      by rewrite (proj1 (proj2 (bmw_sum_returns_iff p' m Hp' Hb)) H').
    + rewrite (bmw_sum_56 p m Hp ltac:(lia) Hb). by rewrite (bmw_sum_56 p' m Hp' ltac:(lia) Hb).
Qed.
Lemma chains_platforms p p' blake256 keccak256 skein256 groestl256 m :
  known_platform p -> known_platform p' ->
  digest256 blake256 -> digest256 keccak256 -> digest256 skein256 -> digest256 groestl256 -> Forall byte m ->
  MChains.lyra2re_sum p blake256 keccak256 skein256 groestl256 m =
    MChains.lyra2re_sum p' blake256 keccak256 skein256 groestl256 m /\
  MChains.lyra2rev2_sum p blake256 keccak256 skein256 m = MChains.lyra2rev2_sum p' blake256 keccak256 skein256 m /\
  MChains.lyra2rev3_sum p blake256 m = MChains.lyra2rev3_sum p' blake256 m /\
  MChains.lyra2z_sum p blake256 m = MChains.lyra2z_sum p' blake256 m.
Proof.
  intros Hp Hp' H1 H2 H3 H4 Hm.
  rewrite (proj1 (lyra2re_value p Hp _ _ _ _ H1 H2 H3 H4 m Hm)), (proj1 (lyra2re_value p' Hp' _ _ _ _ H1 H2 H3 H4 m Hm)).
  rewrite (proj1 (lyra2rev2_value p Hp _ _ _ H1 H2 H3 m Hm)), (proj1 (lyra2rev2_value p' Hp' _ _ _ H1 H2 H3 m Hm)).
  rewrite (proj1 (lyra2rev3_value p Hp _ H1 m Hm)), (proj1 (lyra2rev3_value p' Hp' _ H1 m Hm)).
  rewrite (proj1 (lyra2z_value p Hp _ H1 m Hm)), (proj1 (lyra2z_value p' Hp' _ H1 m Hm)).
  repeat split.
Qed.
