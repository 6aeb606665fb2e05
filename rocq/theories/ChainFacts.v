(** * The chains of the model compute the specified compositions *)
From Verif Require Import Machine MachineFacts LyraFacts RefineTop Padding.
From Verif Require MLyra2 MCube MBmw MChains.
From Verif Require Import SpecWord SpecLyra2 SpecCalls SpecCube SpecBmw SpecChains.
From Verif Require Import PLyra2Lemmas CubeFacts BmwFacts HashFacts.
#[local] Open Scope Z_scope.
#[local] Opaque cubehash256 bmw256 bmw_one_block ref_blocks code_blocks lyra2_key.
#[local] Opaque MCube.cubehash_sum MBmw.bmw_sum MLyra2.lyra2 MLyra2.lyra2mod.

Lemma code_reference choose k pwd salt t e C :
  0 <= e -> Forall byte pwd -> Forall byte salt -> word 64 k -> word 64 t -> word 64 (2 ^ e) -> word 64 C ->
  Z.of_nat (length pwd) < 2 ^ 64 -> Z.of_nat (length salt) < 2 ^ 64 ->
  (8 | Z.of_nat (length pwd)) -> (8 | Z.of_nat (length salt)) ->
  Lyra2_code choose k pwd salt t (2 ^ e) C =
  lyra2_key (reduce_mod (2 ^ e)) choose (ref_blocks k pwd salt t (2 ^ e) C) k t (2 ^ e) C.
Proof.
  intros He Hp Hs Hk Ht HR HC Lp Ls Dp Ds. unfold Lyra2_code.
  assert (W1 : 0 <= vlen pwd < 2 ^ 64) by (unfold vlen; lia).
  assert (W2 : 0 <= vlen salt < 2 ^ 64) by (unfold vlen; lia).
  rewrite (proj2 (ref_blocks_code_iff k pwd salt t (2 ^ e) C Hp Hs Hk
    W1 W2 Ht HR HC) (conj Dp Ds)).
  apply lyra2_key_reduce_ext. intros x. unfold reduce_mask, reduce_mod.
  rewrite <- Z.land_ones by done. by rewrite Z.ones_equiv.
Qed.

Definition good (d : list Z) : Prop := length d = 32%nat /\ Forall byte d.
Section p.
Context (p : platform) (Hp : known_platform p).
Lemma big_isize : 2 ^ 31 - 1 <= isize_max p.
Proof. exact (known_isize p Hp). Qed.
Lemma good_args d t R : good d -> word 64 t -> word 64 R -> 8 <= R * R -> rust_args (isize_max p) 32 d d t R R.
Proof.
  intros [Hl Hb] Ht HR _. pose proof big_isize.
  assert (rust_slice (isize_max p) d) by (split; [done|lia]).
  split; [split; lia|]. split; [done|]. split; [done|]. split; [done|]. split; done.
Qed.
Lemma good_accepted d t R : good d -> 1 <= t -> 4 <= R <= 8 -> accepted (isize_max p) 32 d d t R R.
Proof.
  intros [Hl Hb] Ht HR. pose proof big_isize. unfold accepted, n_blocks. rewrite Hl.
  change ((Z.of_nat 32 + Z.of_nat 32 + 48) / 64 + 1) with 2. nia.
Qed.
Lemma good_key d t e : good d -> word 64 t -> 1 <= t -> 2 <= e <= 3 ->
  MLyra2.lyra2 p 32 d d t (2 ^ e) (2 ^ e) = Ok (Lyra2_reference 32 d d t (2 ^ e) (2 ^ e)) /\
  MLyra2.lyra2mod p 32 d d t (2 ^ e) (2 ^ e) = Ok (Lyra2_rev3 32 d d t (2 ^ e) (2 ^ e)) /\
  good (Lyra2_reference 32 d d t (2 ^ e) (2 ^ e)) /\ good (Lyra2_rev3 32 d d t (2 ^ e) (2 ^ e)).
Proof.
  intros Hd Ht H1 He.
  assert (HR : 4 <= 2 ^ e <= 8) by (assert (e = 2 \/ e = 3) as [-> | ->] by lia; lia).
  assert (HR' : word 64 (2 ^ e)) by (split; lia).
  pose proof (good_args d t (2 ^ e) Hd Ht HR' ltac:(nia)) as Ha.
  pose proof (good_accepted d t (2 ^ e) Hd H1 HR) as Hacc.
  pose proof (lyra2_value p 32 d d t _ _ Hp Ha Hacc) as E1.
  pose proof (lyra2mod_value p 32 d d t _ _ Hp Ha Hacc) as E2.
  destruct Hd as [Hl Hb]. assert (D : (8 | Z.of_nat (length d))) by (rewrite Hl; by exists 4).
  rewrite (code_reference choose_first 32 d d t e (2 ^ e)) in E1; try done; try lia; try (split; lia).
  rewrite (code_reference choose_rev3 32 d d t e (2 ^ e)) in E2; try done; try lia; try (split; lia).
  change (lyra2_key _ choose_first _ _ _ _ _) with (Lyra2_reference 32 d d t (2 ^ e) (2 ^ e)) in E1.
  change (lyra2_key _ choose_rev3 _ _ _ _ _) with (Lyra2_rev3 32 d d t (2 ^ e) (2 ^ e)) in E2.
  assert (M : 32 mod 2 ^ usize_bits p = 32) by (destruct Hp as [-> | ->]; done).
  pose proof (out_length p Hp MLyra2.sel_lyra2 32 d d t (2 ^ e) (2 ^ e) _ E1) as [L1 B1].
  pose proof (out_length p Hp (MLyra2.sel_lyra2mod p) 32 d d t (2 ^ e) (2 ^ e) _ E2) as [L2 B2].
  rewrite M in L1, L2. unfold vlen in L1, L2. unfold good. split; [exact E1|]. split; [exact E2|].
  split; (split; [lia|assumption]).
Qed.
Lemma good_cube d : good d -> MCube.cubehash_sum p d = Ok (cubehash256 d) /\ good (cubehash256 d).
Proof.
  intros [Hl Hb]. split; [exact (cube_sum_32 p d Hp Hl Hb)|].
  exact (conj (cubehash256_length d Hb) (cubehash256_byte d)).
Qed.
Lemma good_bmw d : good d -> MBmw.bmw_sum p d = Ok (bmw256 d) /\ good (bmw256 d).
Proof.
  intros [Hl Hb]. assert (H : (length d <= 55)%nat) by lia. pose proof (bmw_sum_short p d Hp H Hb) as E.
  split; [exact E|].
  destruct (proj1 (proj1 (bmw_sum_returns_iff p d Hp Hb)) ltac:(lia)) as (out & E' & G). rewrite E in E'.
  apply Ok_inj in E'. rewrite E'. exact G.
Qed.

Context (blake256 keccak256 skein256 groestl256 : list Z -> list Z).
Context (Hblake : digest256 blake256) (Hkeccak : digest256 keccak256) (Hskein : digest256 skein256)
  (Hgroestl : digest256 groestl256).
Lemma good_digest f d : digest256 f -> good d -> good (f d).
Proof. intros Hf [_ Hb]. exact (Hf d Hb). Qed.

Lemma lyra2re_value m : Forall byte m ->
  MChains.lyra2re_sum p blake256 keccak256 skein256 groestl256 m = Ok (Lyra2RE blake256 keccak256 skein256 groestl256 m) /\
  good (Lyra2RE blake256 keccak256 skein256 groestl256 m).
Proof.
  intros Hm. unfold MChains.lyra2re_sum, Lyra2RE. cbv zeta.
  pose proof (good_digest _ _ Hkeccak (Hblake m Hm)) as G.
  destruct (good_key _ 1 3 G ltac:(split; lia) ltac:(lia) ltac:(lia)) as (E & _ & G' & _).
  change (2 ^ 3) with 8 in *. rewrite E. cbn [obind]. split; [reflexivity|].
  exact (good_digest _ _ Hgroestl (good_digest _ _ Hskein G')).
Qed.
Lemma lyra2rev2_value m : Forall byte m ->
  MChains.lyra2rev2_sum p blake256 keccak256 skein256 m = Ok (Lyra2REv2 blake256 keccak256 skein256 m) /\
  good (Lyra2REv2 blake256 keccak256 skein256 m).
Proof.
  intros Hm. unfold MChains.lyra2rev2_sum, Lyra2REv2. cbv zeta.
  pose proof (good_digest _ _ Hkeccak (Hblake m Hm)) as G.
  destruct (good_cube _ G) as [E1 G1]. rewrite E1. cbn [obind].
  destruct (good_key _ 1 2 G1 ltac:(split; lia) ltac:(lia) ltac:(lia)) as (E & _ & G' & _).
  change (2 ^ 2) with 4 in *. unfold MLyra2.lyra2_sum. rewrite E. cbn [obind].
  destruct (good_cube _ (good_digest _ _ Hskein G')) as [E2 G2]. rewrite E2. cbn [obind].
  exact (good_bmw _ G2).
Qed.
Lemma lyra2rev3_value m : Forall byte m ->
  MChains.lyra2rev3_sum p blake256 m = Ok (Lyra2REv3 blake256 m) /\ good (Lyra2REv3 blake256 m).
Proof.
  intros Hm. unfold MChains.lyra2rev3_sum, Lyra2REv3. cbv zeta.
  pose proof (Hblake m Hm) as G. unfold MLyra2.lyra2mod_sum.
  destruct (good_key _ 1 2 G ltac:(split; lia) ltac:(lia) ltac:(lia)) as (_ & E & _ & G').
  change (2 ^ 2) with 4 in *. rewrite E. cbn [obind].
  destruct (good_cube _ G') as [E1 G1]. rewrite E1. cbn [obind].
  destruct (good_key _ 1 2 G1 ltac:(split; lia) ltac:(lia) ltac:(lia)) as (_ & E2 & _ & G2).
  change (2 ^ 2) with 4 in *. rewrite E2. cbn [obind].
  exact (good_bmw _ G2).
Qed.
Lemma lyra2z_value m : Forall byte m ->
  MChains.lyra2z_sum p blake256 m = Ok (Lyra2Z blake256 m) /\ good (Lyra2Z blake256 m).
Proof.
  intros Hm. unfold MChains.lyra2z_sum, Lyra2Z. cbv zeta.
  destruct (good_key _ 8 3 (Hblake m Hm) ltac:(split; lia) ltac:(lia) ltac:(lia)) as (E & _ & G' & _).
  change (2 ^ 3) with 8 in *. split; [exact E|exact G'].
Qed.
End p.
Lemma chains_blake p blake256 keccak256 skein256 groestl256 m m' :
  blake256 m = blake256 m' ->
  MChains.lyra2re_sum p blake256 keccak256 skein256 groestl256 m =
    MChains.lyra2re_sum p blake256 keccak256 skein256 groestl256 m' /\
  MChains.lyra2rev2_sum p blake256 keccak256 skein256 m = MChains.lyra2rev2_sum p blake256 keccak256 skein256 m' /\
  MChains.lyra2rev3_sum p blake256 m = MChains.lyra2rev3_sum p blake256 m' /\
  MChains.lyra2z_sum p blake256 m = MChains.lyra2z_sum p blake256 m'.
Proof.
  intros E. unfold MChains.lyra2re_sum, MChains.lyra2rev2_sum, MChains.lyra2rev3_sum, MChains.lyra2z_sum.
  cbv zeta. rewrite E. repeat split.
Qed.
