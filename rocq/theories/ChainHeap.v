(** * Proofs for PChainHeap.v *)
From Verif Require Import Machine MachineFacts.
From Verif Require Import SpecWord SpecLyra2 SpecCube SpecBmw SpecCalls SpecChains.
From Verif Require MLyra2 SrcLyra2 SrcLyra2mod SrcLyra2Heap SrcLyra2modHeap SrcChainsHeap SrcChains SrcCube SrcBmw.
From Verif Require Import Held MHeap SpecHeap HeldFacts HeldSafe HeldProps PLyra2Lemmas ChainFacts PChainCostLemmas PHeapSrc SrcTop.
#[local] Open Scope Z_scope.
#[local] Opaque Lyra2_reference Lyra2_rev3 cubehash256 bmw256.

(** From no words in use to none, with at most [n] between. *)
Definition bounded {A} (n : Z) (x : held A) : Prop :=
  within 0 n x.2 /\ forall out, x.1 = Ok out -> in_use 0 x.2 = 0.
Lemma bounded_quiet {A} n (x : outcome A) : 0 <= n -> bounded n (hquiet x).
Proof. intros Hn. split; [apply within_nil; lia|done]. Qed.
Lemma bounded_bind {A B} n (x : held A) (f : A -> held B) :
  bounded n x -> (forall a, bounded n (f a)) -> bounded n (hbind x f).
Proof.
  intros [H1 H2] Hf. destruct x as [[a| |] l]; cbn [hbind fst snd] in *; [|by split..].
  destruct (Hf a) as [H3 H4]. destruct (f a) as [y l']. cbn [fst snd] in *. specialize (H2 a eq_refl). split; cbn [fst snd].
  - apply within_app; [done|]. by rewrite H2.
  - intros out E. rewrite in_use_app', H2. exact (H4 out E).
Qed.
(** At some moment exactly [n] words are in use. *)
Definition reaches {A} (n : Z) (x : held A) : Prop := exists l1 l2, x.2 = l1 ++ l2 /\ in_use 0 l1 = n.
Lemma reaches_bind {A B} n (x : held A) (f : A -> held B) : reaches n x -> reaches n (hbind x f).
Proof.
  intros (l1 & l2 & E & H). destruct x as [[a| |] l]; cbn [hbind fst snd] in *; [|by exists l1, l2..].
  destruct (f a) as [y l']. cbn [snd]. exists l1, (l2 ++ l'). split; [by rewrite E, app_assoc|done].
Qed.
Lemma hfst_bind {A B} (x : held A) (f : A -> held B) : (hbind x f).1 = obind x.1 (fun a => (f a).1).
Proof. destruct x as [[a| |] l]; cbn; [|done..]. by destruct (f a). Qed.

Section p.
Context (p : platform) (Hp : known_platform p).
Lemma size R C : 0 <= 12 * R * C < 2 ^ 32 -> (12 * R * C) mod 2 ^ usize_bits p = 12 * R * C.
Proof. intros H. apply Z.mod_small. destruct Hp as [-> | ->]; lia. Qed.
Lemma bounded_plain d t R C : 0 <= 12 * R * C < 2 ^ 32 -> bounded (2 * (12 * R * C)) (SrcLyra2Heap.lyra2_held p 32 d d t R C).
Proof. intros H. destruct (heap_any p 32 d d t R C Hp _ (or_introl eq_refl)) as (_ & H1 & H2). rewrite size in H1 by done. by split. Qed.
Lemma bounded_mod d t R C : 0 <= 12 * R * C < 2 ^ 32 -> bounded (2 * (12 * R * C)) (SrcLyra2modHeap.lyra2mod_held p 32 d d t R C).
Proof. intros H. destruct (heap_any p 32 d d t R C Hp _ (or_intror eq_refl)) as (_ & H1 & H2). rewrite size in H1 by done. by split. Qed.
Lemma reaches_any d t e x : good d -> word 64 t -> 1 <= t -> 2 <= e <= 3 ->
  x = SrcLyra2Heap.lyra2_held p 32 d d t (2 ^ e) (2 ^ e) \/ x = SrcLyra2modHeap.lyra2mod_held p 32 d d t (2 ^ e) (2 ^ e) ->
  reaches (24 * 2 ^ e * 2 ^ e) x.
Proof.
  intros Hd Ht H1 He Hx. destruct (good_key p Hp d t e Hd Ht H1 He) as (E & E' & _).
  assert (HR : 4 <= 2 ^ e <= 8) by (assert (e = 2 \/ e = 3) as [-> | ->] by lia; lia).
  assert (HR' : word 64 (2 ^ e)) by (split; lia).
  pose proof (good_args p Hp d t (2 ^ e) Hd Ht HR' ltac:(nia)) as Ha.
  assert (exists h, x.1 = Ok h) as [h Hh].
  { destruct Hx as [-> | ->]; eexists.
    - rewrite (held_erase p Hp), (src_lyra2 _ _ _ _ _ _ _ Hp). exact E.
    - rewrite (held_erase_mod p Hp), (src_lyra2mod _ _ _ _ _ _ _ Hp). exact E'. }
  destruct x as [y log]. cbn [fst] in Hh. subst y.
  assert (Hx' : SrcLyra2Heap.lyra2_held p 32 d d t (2 ^ e) (2 ^ e) = (Ok h, log) \/
    SrcLyra2modHeap.lyra2mod_held p 32 d d t (2 ^ e) (2 ^ e) = (Ok h, log)) by (destruct Hx as [<- | <-]; [left|right]; done).
  exact (proj1 (proj1 (source_heap_use p 32 d d t (2 ^ e) (2 ^ e) h log Hp Ha ltac:(left; lia) Hx'))).
Qed.
End p.
#[local] Opaque SrcCube.sum SrcBmw.sum SrcLyra2Heap.lyra2_held SrcLyra2modHeap.lyra2mod_held
  SrcLyra2.lyra2 SrcLyra2mod.lyra2mod.
Lemma hsum p d : SrcLyra2Heap.sum_held p d = SrcLyra2Heap.lyra2_held p 32 d d 1 4 4.
Proof. unfold SrcLyra2Heap.sum_held. by rewrite hquiet_Ok. Qed.
Lemma hsum_mod p d : SrcLyra2modHeap.sum_held p d = SrcLyra2modHeap.lyra2mod_held p 32 d d 1 4 4.
Proof. unfold SrcLyra2modHeap.sum_held. by rewrite hquiet_Ok. Qed.
#[local] Opaque SrcLyra2Heap.sum_held SrcLyra2modHeap.sum_held.
Lemma chain_fst p blake256 keccak256 skein256 groestl256 m : known_platform p ->
  fst (SrcChainsHeap.lyra2re_sum_held blake256 keccak256 skein256 groestl256 p m) =
    SrcChains.lyra2re_sum blake256 keccak256 skein256 groestl256 p m /\
  fst (SrcChainsHeap.lyra2rev2_sum_held blake256 keccak256 skein256 p m) =
    SrcChains.lyra2rev2_sum blake256 keccak256 skein256 p m /\
  fst (SrcChainsHeap.lyra2rev3_sum_held blake256 p m) = SrcChains.lyra2rev3_sum blake256 p m /\
  fst (SrcChainsHeap.lyra2z_sum_held blake256 p m) = SrcChains.lyra2z_sum blake256 p m.
Proof.
  intros Hp.
  split; [|split; [|split]].
  - unfold SrcChainsHeap.lyra2re_sum_held, SrcChains.lyra2re_sum. rewrite !hquiet_Ok. cbn [obind]. rewrite hfst_bind, (held_erase p Hp).
    apply obind_ext. intros h _. reflexivity.
  - unfold SrcChainsHeap.lyra2rev2_sum_held, SrcChains.lyra2rev2_sum. rewrite !hquiet_Ok. cbn [obind]. rewrite hfst_bind.
    apply obind_ext. intros c _. rewrite hfst_bind, hsum, (held_erase p Hp). unfold SrcLyra2.sum. cbn [obind]. apply obind_ext. intros h _.
    rewrite hquiet_Ok, hfst_bind. cbn [obind]. reflexivity.
  - unfold SrcChainsHeap.lyra2rev3_sum_held, SrcChains.lyra2rev3_sum. rewrite !hquiet_Ok. cbn [obind].
    rewrite hfst_bind, hsum_mod, (held_erase_mod p Hp). unfold SrcLyra2mod.sum. cbn [obind].
    apply obind_ext. intros h _. rewrite hfst_bind. apply obind_ext. intros c _.
    rewrite hfst_bind, hsum_mod, (held_erase_mod p Hp). reflexivity.
  - unfold SrcChainsHeap.lyra2z_sum_held, SrcChains.lyra2z_sum. rewrite !hquiet_Ok. cbn [obind]. exact (held_erase p Hp _ _ _ _ _ _).
Qed.
Ltac bound := repeat match goal with
  | |- bounded _ (hquiet _) => apply bounded_quiet; lia
  | |- bounded _ (hbind _ _) => apply bounded_bind; [|intros ?]
  end.
Lemma chain_bounded p blake256 keccak256 skein256 groestl256 m : known_platform p ->
  bounded 1536 (SrcChainsHeap.lyra2re_sum_held blake256 keccak256 skein256 groestl256 p m) /\
  bounded 384 (SrcChainsHeap.lyra2rev2_sum_held blake256 keccak256 skein256 p m) /\
  bounded 384 (SrcChainsHeap.lyra2rev3_sum_held blake256 p m) /\
  bounded 1536 (SrcChainsHeap.lyra2z_sum_held blake256 p m).
Proof.
  intros Hp.
  assert (P8 : forall d t, bounded 1536 (SrcLyra2Heap.lyra2_held p 32 d d t 8 8)) by (intros; exact (bounded_plain p Hp d t 8 8 ltac:(lia))).
  assert (P4 : forall d, bounded 384 (SrcLyra2Heap.sum_held p d)) by (intros; rewrite hsum; exact (bounded_plain p Hp d 1 4 4 ltac:(lia))).
  assert (M4 : forall d, bounded 384 (SrcLyra2modHeap.sum_held p d)) by (intros; rewrite hsum_mod; exact (bounded_mod p Hp d 1 4 4 ltac:(lia))).
  split; [|split; [|split]].
  - unfold SrcChainsHeap.lyra2re_sum_held. rewrite !hquiet_Ok. bound. apply P8.
  - unfold SrcChainsHeap.lyra2rev2_sum_held. rewrite !hquiet_Ok. bound. apply P4.
  - unfold SrcChainsHeap.lyra2rev3_sum_held. rewrite !hquiet_Ok. bound; apply M4.
  - unfold SrcChainsHeap.lyra2z_sum_held. rewrite !hquiet_Ok. apply P8.
Qed.
Lemma chain_reaches p blake256 keccak256 skein256 groestl256 m : known_platform p ->
  digest256 blake256 -> digest256 keccak256 -> Forall byte m ->
  reaches 1536 (SrcChainsHeap.lyra2re_sum_held blake256 keccak256 skein256 groestl256 p m) /\
  reaches 384 (SrcChainsHeap.lyra2rev2_sum_held blake256 keccak256 skein256 p m) /\
  reaches 384 (SrcChainsHeap.lyra2rev3_sum_held blake256 p m) /\
  reaches 1536 (SrcChainsHeap.lyra2z_sum_held blake256 p m).
Proof.
  intros Hp Hb Hk Hm. pose proof (Hb m Hm) as G1. pose proof (good_digest _ _ Hk G1) as G2.
  pose proof W1 as H1. pose proof W8 as H8.
  split; [|split; [|split]].
  - unfold SrcChainsHeap.lyra2re_sum_held. rewrite !hquiet_Ok. apply reaches_bind.
    exact (reaches_any p Hp _ 1 3 _ G2 H1 ltac:(lia) ltac:(lia) (or_introl eq_refl)).
  - unfold SrcChainsHeap.lyra2rev2_sum_held. rewrite !hquiet_Ok. destruct (kcube p _ Hp G2) as [-> G3].
    rewrite hquiet_Ok, hsum. apply reaches_bind.
    exact (reaches_any p Hp _ 1 2 _ G3 H1 ltac:(lia) ltac:(lia) (or_introl eq_refl)).
  - unfold SrcChainsHeap.lyra2rev3_sum_held. rewrite !hquiet_Ok, hsum_mod. apply reaches_bind.
    exact (reaches_any p Hp _ 1 2 _ G1 H1 ltac:(lia) ltac:(lia) (or_intror eq_refl)).
  - unfold SrcChainsHeap.lyra2z_sum_held. rewrite !hquiet_Ok.
    exact (reaches_any p Hp _ 8 3 _ G1 H8 ltac:(lia) ltac:(lia) (or_introl eq_refl)).
Qed.
(** Assembled. *)
Lemma bounded_plainly {A} n (x : held A) (y : outcome A) : x.1 = y -> bounded n x ->
  x.1 = y /\ (forall l1 l2, x.2 = l1 ++ l2 -> 0 <= in_use 0 l1 <= n) /\ (forall out, x.1 = Ok out -> in_use 0 x.2 = 0).
Proof. intros E [H1 H2]. split; [exact E|]. split; [exact H1|exact H2]. Qed.
Lemma peak_of {A} n (x : held A) (y : A) : x.1 = Ok y -> bounded n x -> reaches n x ->
  exists log, x = (Ok y, log) /\ peak log n /\ in_use 0 log = 0.
Proof.
  destruct x as [z log]. unfold reaches. cbn [fst snd]. intros -> [H1 H2] H3. cbn [fst snd] in *. exists log. split; [done|].
  split; [|exact (H2 y eq_refl)]. split; [exact H3|]. intros l1 l2 E. apply (H1 l1 l2 E).
Qed.
Lemma chains_any p blake256 keccak256 skein256 groestl256 m : known_platform p ->
  forall words x y,
    words = 1536 /\ x = SrcChainsHeap.lyra2re_sum_held blake256 keccak256 skein256 groestl256 p m /\
      y = SrcChains.lyra2re_sum blake256 keccak256 skein256 groestl256 p m \/
    words = 384 /\ x = SrcChainsHeap.lyra2rev2_sum_held blake256 keccak256 skein256 p m /\
      y = SrcChains.lyra2rev2_sum blake256 keccak256 skein256 p m \/
    words = 384 /\ x = SrcChainsHeap.lyra2rev3_sum_held blake256 p m /\ y = SrcChains.lyra2rev3_sum blake256 p m \/
    words = 1536 /\ x = SrcChainsHeap.lyra2z_sum_held blake256 p m /\ y = SrcChains.lyra2z_sum blake256 p m ->
  fst x = y /\
  (forall l1 l2, snd x = l1 ++ l2 -> 0 <= in_use 0 l1 <= words) /\
  (forall out, fst x = Ok out -> in_use 0 (snd x) = 0).
Proof.
  intros Hp words x y Hx. destruct (chain_fst p blake256 keccak256 skein256 groestl256 m Hp) as (E1 & E2 & E3 & E4).
  destruct (chain_bounded p blake256 keccak256 skein256 groestl256 m Hp) as (B1 & B2 & B3 & B4).
  destruct Hx as [(-> & -> & ->)|[(-> & -> & ->)|[(-> & -> & ->)|(-> & -> & ->)]]].
  - exact (bounded_plainly _ _ _ E1 B1).
  - exact (bounded_plainly _ _ _ E2 B2).
  - exact (bounded_plainly _ _ _ E3 B3).
  - exact (bounded_plainly _ _ _ E4 B4).
Qed.
Lemma chains_peak p blake256 keccak256 skein256 groestl256 m :
  known_platform p -> digest256 blake256 -> digest256 keccak256 -> digest256 skein256 -> digest256 groestl256 ->
  Forall byte m ->
  (exists log, SrcChainsHeap.lyra2re_sum_held blake256 keccak256 skein256 groestl256 p m =
      (Ok (Lyra2RE blake256 keccak256 skein256 groestl256 m), log) /\ peak log 1536 /\ in_use 0 log = 0) /\
  (exists log, SrcChainsHeap.lyra2rev2_sum_held blake256 keccak256 skein256 p m =
      (Ok (Lyra2REv2 blake256 keccak256 skein256 m), log) /\ peak log 384 /\ in_use 0 log = 0) /\
  (exists log, SrcChainsHeap.lyra2rev3_sum_held blake256 p m =
      (Ok (Lyra2REv3 blake256 m), log) /\ peak log 384 /\ in_use 0 log = 0) /\
  (exists log, SrcChainsHeap.lyra2z_sum_held blake256 p m =
      (Ok (Lyra2Z blake256 m), log) /\ peak log 1536 /\ in_use 0 log = 0).
Proof.
  intros Hp Hb Hk Hs Hg Hm.
  destruct (chain_fst p blake256 keccak256 skein256 groestl256 m Hp) as (E1 & E2 & E3 & E4).
  destruct (chain_bounded p blake256 keccak256 skein256 groestl256 m Hp) as (B1 & B2 & B3 & B4).
  destruct (chain_reaches p blake256 keccak256 skein256 groestl256 m Hp Hb Hk Hm) as (R1 & R2 & R3 & R4).
  destruct (chains_erase p blake256 keccak256 skein256 groestl256 m Hp) as (F1 & F2 & F3 & F4).
  destruct (chains_cost p blake256 keccak256 skein256 groestl256 m Hp Hb Hk Hs Hg Hm)
    as ((l1 & V1 & _) & (l2 & V2 & _) & (l3 & V3 & _) & (l4 & V4 & _)).
  rewrite V1 in F1. rewrite V2 in F2. rewrite V3 in F3. rewrite V4 in F4. cbn [fst] in F1, F2, F3, F4.
  split; [|split; [|split]].
  - exact (peak_of _ _ _ (eq_trans E1 (eq_sym F1)) B1 R1).
  - exact (peak_of _ _ _ (eq_trans E2 (eq_sym F2)) B2 R2).
  - exact (peak_of _ _ _ (eq_trans E3 (eq_sym F3)) B3 R3).
  - exact (peak_of _ _ _ (eq_trans E4 (eq_sym F4)) B4 R4).
Qed.
