(** * Proofs for PChainCost.v *)
From Verif Require Import Machine MachineFacts.
From Verif Require Import SpecWord SpecLyra2 SpecCube SpecBmw SpecCalls SpecChains SpecSchedule.
From Verif Require SpecBlake256 SpecKeccak SpecSkein SpecGroestl DigestFacts.
From Verif Require MLyra2 SrcLyra2Log SrcLyra2modLog SrcChainsLog SrcChains SrcCube SrcBmw SrcHash SrcHash3.
From Verif Require Import MAccess SpecAccess PLyra2Lemmas PAccessLemmas Kept MKept KeptFacts SrcLogTop PSrcLogLemmas ChainFacts SrcTop.
From stdpp Require Import list_numbers.
#[local] Open Scope Z_scope.
#[local] Opaque Lyra2_reference Lyra2_rev3 cubehash256 bmw256.

Definition costs (log : list access) (w r v : Z) : Prop :=
  work log = w /\ Z.of_nat (length (reads log)) = r /\ Z.of_nat (length (writes log)) = v.
Lemma costs_app l1 l2 w1 r1 v1 w2 r2 v2 : costs l1 w1 r1 v1 -> costs l2 w2 r2 v2 ->
  costs (l1 ++ l2) (w1 + w2) (r1 + r2) (v1 + v2).
Proof.
  unfold costs, work, reads, writes. intros (<- & <- & <-) (<- & <- & <-). rewrite !omap_app, !app_length. lia.
Qed.
Section p.
Context (p : platform) (Hp : known_platform p).
Lemma inner sel d t e h log : good d -> word 64 t -> 1 <= t -> 2 <= e <= 3 ->
  lyra2_with_kept p sel 32 d d t (2 ^ e) (2 ^ e) = (Ok h, log) ->
  costs log ((t + 1) * 2 ^ e * 2 ^ e + 48) (48 * (t + 1) * 2 ^ e * 2 ^ e - 72 * 2 ^ e + 29)
    (24 * (t + 1) * 2 ^ e * 2 ^ e - 24 * 2 ^ e + 16).
Proof.
  intros Hd Ht H1 He E. apply kept_acc in E.
  assert (HR : 4 <= 2 ^ e <= 8) by (assert (e = 2 \/ e = 3) as [-> | ->] by lia; lia).
  assert (HR' : word 64 (2 ^ e)) by (split; lia).
  pose proof (good_args p Hp d t (2 ^ e) Hd Ht HR' ltac:(nia)) as Ha.
  destruct (work_pow2 p sel 32 d d t e (2 ^ e) h log Hp ltac:(lia) ltac:(lia) Ha ltac:(right; lia) E) as (W1 & W2 & W3).
  unfold vlen in W1, W2, W3. rewrite (proj1 Hd) in W1, W2, W3.
  change ((Z.of_nat 32 + Z.of_nat 32 + 48) / 64 + 1) with 2 in *. change (Z.of_nat 32 / 8) with 4 in *.
  change (32 / 96 + 1) with 1 in *. split; [lia|]. split; lia.
Qed.
Lemma plain d t e : good d -> word 64 t -> 1 <= t -> 2 <= e <= 3 -> exists log,
  SrcLyra2Log.lyra2_log p 32 d d t (2 ^ e) (2 ^ e) = (Ok (Lyra2_reference 32 d d t (2 ^ e) (2 ^ e)), log) /\
  costs log ((t + 1) * 2 ^ e * 2 ^ e + 48) (48 * (t + 1) * 2 ^ e * 2 ^ e - 72 * 2 ^ e + 29)
    (24 * (t + 1) * 2 ^ e * 2 ^ e - 24 * 2 ^ e + 16) /\
  good (Lyra2_reference 32 d d t (2 ^ e) (2 ^ e)).
Proof.
  intros Hd Ht H1 He. destruct (good_key p Hp d t e Hd Ht H1 He) as (E & _ & G & _).
  rewrite log_lyra2 by done. unfold MLyra2.lyra2 in E. rewrite <- fst_lyra2_with in E. unfold lyra2_kept.
  destruct (lyra2_with_kept p MLyra2.sel_lyra2 32 d d t (2 ^ e) (2 ^ e)) as [y log] eqn:El. cbn [fst] in E. subst y.
  exists log. split; [done|]. split; [|done]. exact (inner _ d t e _ log Hd Ht H1 He El).
Qed.
Lemma rev3 d t e : good d -> word 64 t -> 1 <= t -> 2 <= e <= 3 -> exists log,
  SrcLyra2modLog.lyra2mod_log p 32 d d t (2 ^ e) (2 ^ e) = (Ok (Lyra2_rev3 32 d d t (2 ^ e) (2 ^ e)), log) /\
  costs log ((t + 1) * 2 ^ e * 2 ^ e + 48) (48 * (t + 1) * 2 ^ e * 2 ^ e - 72 * 2 ^ e + 29)
    (24 * (t + 1) * 2 ^ e * 2 ^ e - 24 * 2 ^ e + 16) /\
  good (Lyra2_rev3 32 d d t (2 ^ e) (2 ^ e)).
Proof.
  intros Hd Ht H1 He. destruct (good_key p Hp d t e Hd Ht H1 He) as (_ & E & _ & G).
  rewrite log_lyra2mod by done. unfold MLyra2.lyra2mod in E. rewrite <- fst_lyra2_with in E. unfold lyra2mod_kept.
  destruct (lyra2_with_kept p (MLyra2.sel_lyra2mod p) 32 d d t (2 ^ e) (2 ^ e)) as [y log] eqn:El. cbn [fst] in E. subst y.
  exists log. split; [done|]. split; [|done]. exact (inner _ d t e _ log Hd Ht H1 He El).
Qed.
End p.

Lemma kcube p d : known_platform p -> good d -> SrcCube.sum p d = Ok (cubehash256 d) /\ good (cubehash256 d).
Proof. intros Hp Hd. rewrite SrcHash.src_cubehash_sum. exact (good_cube p Hp d Hd). Qed.
Lemma kbmw p d : known_platform p -> good d -> SrcBmw.sum p d = Ok (bmw256 d).
Proof. intros Hp Hd. rewrite (SrcHash3.src_bmw_sum p d Hp). exact (proj1 (good_bmw p Hp d Hd)). Qed.
#[local] Opaque SrcCube.sum SrcBmw.sum SrcLyra2Log.lyra2_log SrcLyra2modLog.lyra2mod_log SrcLyra2Log.sum_log SrcLyra2modLog.sum_log.
Lemma ksum p d : known_platform p -> SrcLyra2Log.sum_log p d = SrcLyra2Log.lyra2_log p 32 d d 1 4 4.
Proof. intros Hp. by rewrite log_lyra2_sum, log_lyra2. Qed.
Lemma ksum_mod p d : known_platform p -> SrcLyra2modLog.sum_log p d = SrcLyra2modLog.lyra2mod_log p 32 d d 1 4 4.
Proof. intros Hp. by rewrite log_lyra2mod_sum, log_lyra2mod. Qed.
(** Each chain: its value, its log, and how the log comes from the logs of its calls. *)
Section chain.
Context (p : platform) (Hp : known_platform p).
Context (blake256 keccak256 skein256 groestl256 : list Z -> list Z).
Context (Hb : digest256 blake256) (Hk : digest256 keccak256) (Hs : digest256 skein256) (Hg : digest256 groestl256).
Context (m : list Z) (Hm : Forall byte m).
Lemma W1 : word 64 1. Proof. split; lia. Qed.
Lemma W8 : word 64 8. Proof. split; lia. Qed.
Lemma re_log : exists d log h, good d /\ SrcLyra2Log.lyra2_log p 32 d d 1 8 8 = (Ok h, log) /\ costs log 176 5597 2896 /\
  SrcChainsLog.lyra2re_sum_log blake256 keccak256 skein256 groestl256 p m =
    (Ok (Lyra2RE blake256 keccak256 skein256 groestl256 m), log).
Proof.
  unfold SrcChainsLog.lyra2re_sum_log, Lyra2RE. cbv zeta. rewrite !kquiet_Ok.
  pose proof (good_digest _ _ Hk (Hb m Hm)) as G. set (d := keccak256 (blake256 m)) in *.
  destruct (plain p Hp d 1 3 G W1 ltac:(lia) ltac:(lia)) as (log & E & HC & _). change (2 ^ 3) with 8 in *.
  exists d, log, (Lyra2_reference 32 d d 1 8 8). split; [exact G|]. split; [exact E|]. split; [exact HC|].
  rewrite (kbind_Ok _ _ _ _ E). rewrite kquiet_Ok. cbn [fst snd]. by rewrite app_nil_r.
Qed.
Lemma rev2_log : exists d log h, good d /\ SrcLyra2Log.lyra2_log p 32 d d 1 4 4 = (Ok h, log) /\ costs log 80 1277 688 /\
  SrcChainsLog.lyra2rev2_sum_log blake256 keccak256 skein256 p m = (Ok (Lyra2REv2 blake256 keccak256 skein256 m), log).
Proof.
  pose proof (good_digest _ _ Hk (Hb m Hm)) as G. destruct (kcube p _ Hp G) as [E1 G1].
  set (d0 := keccak256 (blake256 m)) in *. set (d := cubehash256 d0) in *.
  destruct (plain p Hp d 1 2 G1 W1 ltac:(lia) ltac:(lia)) as (log & E & HC & G2). change (2 ^ 2) with 4 in *.
  destruct (kcube p _ Hp (good_digest _ _ Hs G2)) as [E3 G3]. pose proof (kbmw p _ Hp G3) as E4.
  exists d, log, (Lyra2_reference 32 d d 1 4 4). split; [exact G1|]. split; [exact E|]. split; [exact HC|].
  unfold SrcChainsLog.lyra2rev2_sum_log, Lyra2REv2. rewrite !kquiet_Ok. fold d0. rewrite E1, kquiet_Ok.
  rewrite ksum by done. rewrite (kbind_Ok _ _ _ _ E). rewrite kquiet_Ok, E3, kquiet_Ok, E4.
  unfold kquiet. cbn [fst snd]. by rewrite app_nil_r.
Qed.
Lemma rev3_log : exists d1 d2 log1 log2 h1 h2, good d1 /\ good d2 /\
  SrcLyra2modLog.lyra2mod_log p 32 d1 d1 1 4 4 = (Ok h1, log1) /\
  SrcLyra2modLog.lyra2mod_log p 32 d2 d2 1 4 4 = (Ok h2, log2) /\ costs (log1 ++ log2) 160 2554 1376 /\
  SrcChainsLog.lyra2rev3_sum_log blake256 p m = (Ok (Lyra2REv3 blake256 m), log1 ++ log2).
Proof.
  pose proof (Hb m Hm) as G. set (d := blake256 m) in *.
  destruct (rev3 p Hp d 1 2 G W1 ltac:(lia) ltac:(lia)) as (log1 & E1 & HC1 & G1). change (2 ^ 2) with 4 in *.
  destruct (kcube p _ Hp G1) as [E2 G2]. set (d2 := cubehash256 (Lyra2_rev3 32 d d 1 4 4)) in *.
  destruct (rev3 p Hp d2 1 2 G2 W1 ltac:(lia) ltac:(lia)) as (log2 & E3 & HC2 & G3). change (2 ^ 2) with 4 in *.
  pose proof (kbmw p _ Hp G3) as E4.
  exists d, d2, log1, log2, (Lyra2_rev3 32 d d 1 4 4), (Lyra2_rev3 32 d2 d2 1 4 4).
  split; [exact G|]. split; [exact G2|]. split; [exact E1|]. split; [exact E3|]. split; [exact (costs_app _ _ _ _ _ _ _ _ HC1 HC2)|].
  unfold SrcChainsLog.lyra2rev3_sum_log, Lyra2REv3. rewrite !kquiet_Ok. fold d.
  rewrite ksum_mod by done. rewrite (kbind_Ok _ _ _ _ E1). rewrite E2, kquiet_Ok.
  rewrite ksum_mod by done. rewrite (kbind_Ok _ _ _ _ E3). rewrite E4.
  unfold kquiet. cbn [fst snd]. by rewrite app_nil_r.
Qed.
Lemma z_log : exists d log h, good d /\ SrcLyra2Log.lyra2_log p 32 d d 8 8 8 = (Ok h, log) /\ costs log 624 27101 13648 /\
  SrcChainsLog.lyra2z_sum_log blake256 p m = (Ok (Lyra2Z blake256 m), log).
Proof.
  unfold SrcChainsLog.lyra2z_sum_log, Lyra2Z. cbv zeta. rewrite !kquiet_Ok.
  pose proof (Hb m Hm) as G. set (d := blake256 m) in *.
  destruct (plain p Hp d 8 3 G W8 ltac:(lia) ltac:(lia)) as (log & E & HC & _). change (2 ^ 3) with 8 in *.
  exists d, log, (Lyra2_reference 32 d d 8 8 8). split; [exact G|]. split; [exact E|]. split; [exact HC|exact E].
Qed.
End chain.

(** What the logs of two runs have in common. *)
Lemma same_public p p' sel sel' d d' t R C h h' log log' : known_platform p -> known_platform p' -> good d -> good d' ->
  word 64 t -> word 64 R -> word 64 C -> R < 2 ^ 63 ->
  lyra2_with_kept p sel 32 d d t R C = (Ok h, log) -> lyra2_with_kept p' sel' 32 d' d' t R C = (Ok h', log') ->
  without_row C <$> log = without_row C <$> log'.
Proof.
  intros Hp Hp' [Hl Hd] [Hl' Hd'] Ht HR HC HR63 E%kept_acc E'%kept_acc.
  assert (A : forall q x, known_platform q -> length x = 32%nat -> Forall byte x -> rust_args (isize_max q) 32 x x t R C).
  { intros q x Hq HL HB. pose proof (big_isize q Hq). assert (rust_slice (isize_max q) x) by (split; [done|lia]).
    split; [split; lia|]. done. }
  refine (proj2 (accesses_public p p' sel sel' 32 d d' d d' t R C h h' log log' Hp Hp' (A _ _ Hp Hl Hd) (A _ _ Hp' Hl' Hd')
    HR63 _ _ _ E E')); [lia|congruence..].
Qed.
Lemma same_plain p p' d d' t R C h h' log log' : known_platform p -> known_platform p' -> good d -> good d' ->
  word 64 t -> word 64 R -> word 64 C -> R < 2 ^ 63 ->
  SrcLyra2Log.lyra2_log p 32 d d t R C = (Ok h, log) -> SrcLyra2Log.lyra2_log p' 32 d' d' t R C = (Ok h', log') ->
  without_row C <$> log = without_row C <$> log'.
Proof. intros Hp Hp'. rewrite !log_lyra2 by done. by apply same_public. Qed.
Lemma same_rev3 p p' d d' t R C h h' log log' : known_platform p -> known_platform p' -> good d -> good d' ->
  word 64 t -> word 64 R -> word 64 C -> R < 2 ^ 63 ->
  SrcLyra2modLog.lyra2mod_log p 32 d d t R C = (Ok h, log) -> SrcLyra2modLog.lyra2mod_log p' 32 d' d' t R C = (Ok h', log') ->
  without_row C <$> log = without_row C <$> log'.
Proof. intros Hp Hp'. rewrite !log_lyra2mod by done. by apply same_public. Qed.
Lemma chains_public p p' blake256 keccak256 skein256 groestl256 m m' :
  known_platform p -> known_platform p' ->
  digest256 blake256 -> digest256 keccak256 -> digest256 skein256 -> digest256 groestl256 ->
  Forall byte m -> Forall byte m' ->
  without_row 8 <$> snd (SrcChainsLog.lyra2re_sum_log blake256 keccak256 skein256 groestl256 p m) =
    without_row 8 <$> snd (SrcChainsLog.lyra2re_sum_log blake256 keccak256 skein256 groestl256 p' m') /\
  without_row 4 <$> snd (SrcChainsLog.lyra2rev2_sum_log blake256 keccak256 skein256 p m) =
    without_row 4 <$> snd (SrcChainsLog.lyra2rev2_sum_log blake256 keccak256 skein256 p' m') /\
  without_row 4 <$> snd (SrcChainsLog.lyra2rev3_sum_log blake256 p m) =
    without_row 4 <$> snd (SrcChainsLog.lyra2rev3_sum_log blake256 p' m') /\
  without_row 8 <$> snd (SrcChainsLog.lyra2z_sum_log blake256 p m) =
    without_row 8 <$> snd (SrcChainsLog.lyra2z_sum_log blake256 p' m').
Proof.
  intros Hp Hp' Hb Hk Hs Hg Hm Hm'. assert (W4 : word 64 4) by (split; lia). pose proof W1 as H1. pose proof W8 as H8.
  split; [|split; [|split]].
  - destruct (re_log p Hp _ _ skein256 groestl256 Hb Hk m Hm) as (d & log & h & G & E & _ & ->).
    destruct (re_log p' Hp' _ _ skein256 groestl256 Hb Hk m' Hm') as (d' & log' & h' & G' & E' & _ & ->). cbn [snd].
    refine (same_plain p p' d d' 1 8 8 h h' log log' Hp Hp' G G' H1 H8 H8 _ E E'). lia.
  - destruct (rev2_log p Hp _ _ _ Hb Hk Hs m Hm) as (d & log & h & G & E & _ & ->).
    destruct (rev2_log p' Hp' _ _ _ Hb Hk Hs m' Hm') as (d' & log' & h' & G' & E' & _ & ->). cbn [snd].
    refine (same_plain p p' d d' 1 4 4 h h' log log' Hp Hp' G G' H1 W4 W4 _ E E'). lia.
  - destruct (rev3_log p Hp _ Hb m Hm) as (d1 & d2 & l1 & l2 & h1 & h2 & G1 & G2 & E1 & E2 & _ & ->).
    destruct (rev3_log p' Hp' _ Hb m' Hm') as (d1' & d2' & l1' & l2' & h1' & h2' & G1' & G2' & E1' & E2' & _ & ->). cbn [snd].
    rewrite !fmap_app. f_equal.
    + refine (same_rev3 p p' d1 d1' 1 4 4 h1 h1' l1 l1' Hp Hp' G1 G1' H1 W4 W4 _ E1 E1'). lia.
    + refine (same_rev3 p p' d2 d2' 1 4 4 h2 h2' l2 l2' Hp Hp' G2 G2' H1 W4 W4 _ E2 E2'). lia.
  - destruct (z_log p Hp _ Hb m Hm) as (d & log & h & G & E & _ & ->).
    destruct (z_log p' Hp' _ Hb m' Hm') as (d' & log' & h' & G' & E' & _ & ->). cbn [snd].
    refine (same_plain p p' d d' 8 8 8 h h' log log' Hp Hp' G G' H8 H8 H8 _ E E'). lia.
Qed.
Lemma chains_cost p blake256 keccak256 skein256 groestl256 m :
  known_platform p -> digest256 blake256 -> digest256 keccak256 -> digest256 skein256 -> digest256 groestl256 ->
  Forall byte m ->
  (exists log, SrcChainsLog.lyra2re_sum_log blake256 keccak256 skein256 groestl256 p m =
      (Ok (Lyra2RE blake256 keccak256 skein256 groestl256 m), log) /\
    work log = 176 /\ Z.of_nat (length (reads log)) = 5597 /\ Z.of_nat (length (writes log)) = 2896) /\
  (exists log, SrcChainsLog.lyra2rev2_sum_log blake256 keccak256 skein256 p m =
      (Ok (Lyra2REv2 blake256 keccak256 skein256 m), log) /\
    work log = 80 /\ Z.of_nat (length (reads log)) = 1277 /\ Z.of_nat (length (writes log)) = 688) /\
  (exists log, SrcChainsLog.lyra2rev3_sum_log blake256 p m = (Ok (Lyra2REv3 blake256 m), log) /\
    work log = 160 /\ Z.of_nat (length (reads log)) = 2554 /\ Z.of_nat (length (writes log)) = 1376) /\
  (exists log, SrcChainsLog.lyra2z_sum_log blake256 p m = (Ok (Lyra2Z blake256 m), log) /\
    work log = 624 /\ Z.of_nat (length (reads log)) = 27101 /\ Z.of_nat (length (writes log)) = 13648).
Proof.
  intros Hp Hb Hk Hs Hg Hm. split; [|split; [|split]].
  - destruct (re_log p Hp _ _ skein256 groestl256 Hb Hk m Hm) as (_ & log & _ & _ & _ & HC & E). by exists log.
  - destruct (rev2_log p Hp _ _ _ Hb Hk Hs m Hm) as (_ & log & _ & _ & _ & HC & E). by exists log.
  - destruct (rev3_log p Hp _ Hb m Hm) as (_ & _ & l1 & l2 & _ & _ & _ & _ & _ & _ & HC & E). by exists (l1 ++ l2).
  - destruct (z_log p Hp _ Hb m Hm) as (_ & log & _ & _ & _ & HC & E). by exists log.
Qed.

Lemma erase_plain p d t R C : known_platform p -> (SrcLyra2Log.lyra2_log p 32 d d t R C).1 = SrcLyra2.lyra2 p 32 d d t R C.
Proof. intros Hp. exact (proj1 (log_erase p 32 d d t R C Hp)). Qed.
Lemma erase_sum p d : known_platform p -> (SrcLyra2Log.sum_log p d).1 = SrcLyra2.sum p d.
Proof.
  intros Hp. rewrite (log_lyra2_sum p d Hp), (src_lyra2_sum p d Hp). exact (fst_lyra2_with p MLyra2.sel_lyra2 32 d d 1 4 4).
Qed.
Lemma erase_sum_mod p d : known_platform p -> (SrcLyra2modLog.sum_log p d).1 = SrcLyra2mod.sum p d.
Proof.
  intros Hp. rewrite (log_lyra2mod_sum p d Hp), (src_lyra2mod_sum p d Hp).
  exact (fst_lyra2_with p (MLyra2.sel_lyra2mod p) 32 d d 1 4 4).
Qed.
#[local] Opaque SrcLyra2Log.lyra2_log SrcLyra2Log.sum_log SrcLyra2modLog.sum_log SrcLyra2.lyra2 SrcLyra2.sum SrcLyra2mod.sum
  SrcCube.sum SrcBmw.sum.
Lemma chains_erase p blake256 keccak256 skein256 groestl256 m : known_platform p ->
  fst (SrcChainsLog.lyra2re_sum_log blake256 keccak256 skein256 groestl256 p m) =
    SrcChains.lyra2re_sum blake256 keccak256 skein256 groestl256 p m /\
  fst (SrcChainsLog.lyra2rev2_sum_log blake256 keccak256 skein256 p m) =
    SrcChains.lyra2rev2_sum blake256 keccak256 skein256 p m /\
  fst (SrcChainsLog.lyra2rev3_sum_log blake256 p m) = SrcChains.lyra2rev3_sum blake256 p m /\
  fst (SrcChainsLog.lyra2z_sum_log blake256 p m) = SrcChains.lyra2z_sum blake256 p m.
Proof.
  intros Hp.
  split; [|split; [|split]].
  - unfold SrcChainsLog.lyra2re_sum_log, SrcChains.lyra2re_sum. rewrite !kquiet_Ok. cbn [obind]. rewrite kfst_bind, erase_plain by exact Hp.
    apply obind_ext. intros h _. reflexivity.
  - unfold SrcChainsLog.lyra2rev2_sum_log, SrcChains.lyra2rev2_sum. rewrite !kquiet_Ok. cbn [obind]. rewrite kfst_bind.
    apply obind_ext. intros c _. rewrite kfst_bind, erase_sum by exact Hp. apply obind_ext. intros h _.
    rewrite kquiet_Ok, kfst_bind. cbn [obind]. reflexivity.
  - unfold SrcChainsLog.lyra2rev3_sum_log, SrcChains.lyra2rev3_sum. rewrite !kquiet_Ok. cbn [obind]. rewrite kfst_bind, erase_sum_mod by exact Hp.
    apply obind_ext. intros h _. rewrite kfst_bind. apply obind_ext. intros c _. rewrite kfst_bind, erase_sum_mod by exact Hp. reflexivity.
  - unfold SrcChainsLog.lyra2z_sum_log, SrcChains.lyra2z_sum. rewrite !kquiet_Ok. cbn [obind]. exact (erase_plain p _ _ _ _ Hp).
Qed.

#[local] Opaque SpecBlake256.blake256 SpecKeccak.keccak256 SpecSkein.skein512_256 SpecGroestl.groestl256 SrcChainsLog.lyra2z_sum_log.
Lemma chains_cost_example :
  (known_platform debug64 /\ known_platform release32 /\
   digest256 SpecBlake256.blake256 /\ digest256 SpecKeccak.keccak256 /\
   digest256 SpecSkein.skein512_256 /\ digest256 SpecGroestl.groestl256 /\ Forall byte [97; 98; 99] /\ Forall byte (replicate 80 7)) /\
  exists log, SrcChainsLog.lyra2z_sum_log SpecBlake256.blake256 debug64 [97; 98; 99] =
    (Ok (Lyra2Z SpecBlake256.blake256 [97; 98; 99]), log) /\ work log = 624.
Proof.
  assert (H64 : known_platform debug64) by (right; reflexivity).
  assert (B : Forall byte [97; 98; 99]) by (repeat constructor; lia).
  split.
  - split; [exact H64|]. split; [left; reflexivity|].
    split; [exact DigestFacts.blake256_digest|]. split; [exact DigestFacts.keccak256_digest|].
    split; [exact DigestFacts.skein512_256_digest|]. split; [exact DigestFacts.groestl256_digest|].
    split; [exact B|]. apply Forall_replicate. split; lia.
  - destruct (z_log debug64 H64 _ DigestFacts.blake256_digest _ B) as (_ & log & _ & _ & _ & HC & E).
    exists log. split; [exact E|exact (proj1 HC)].
Qed.
