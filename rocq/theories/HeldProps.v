(** * Lemmas for PHeapSrc.v *)
From Verif Require Import Machine.
From Verif Require Import SpecWord SpecLyra2 SpecCalls.
From Verif Require MLyra2 SrcLyra2 SrcLyra2mod SrcLyra2Heap SrcLyra2modHeap.
From Verif Require Import SrcTop MHeap SpecHeap HeapFacts HeldFacts HeldTop HeldSafe.
#[local] Open Scope Z_scope.

Lemma logd_iff {A} (x : held A) a l : logd [] x = Ok (a, l) <-> x = (Ok a, l).
Proof.
  destruct x as [[b| |] l']; cbn.
  - split; intros [= -> ->]; done.
  - done.
  - done.
Qed.
Lemma logd_fst {A} (x : held A) : (y <-- logd [] x ;; Ok (fst y)) = x.1.
Proof. destruct x as [[b| |] l']; reflexivity. Qed.
Section props.
Context (p : platform) (Hp : known_platform p).
Lemma held_erase k pwd salt t R C : (SrcLyra2Heap.lyra2_held p k pwd salt t R C).1 = SrcLyra2.lyra2 p k pwd salt t R C.
Proof.
  rewrite <- logd_fst, (held_lyra2 _ _ _ _ _ _ _ Hp), (src_lyra2 _ _ _ _ _ _ _ Hp).
  exact (heap_erase p MLyra2.sel_lyra2 k pwd salt t R C).
Qed.
Lemma held_erase_mod k pwd salt t R C :
  (SrcLyra2modHeap.lyra2mod_held p k pwd salt t R C).1 = SrcLyra2mod.lyra2mod p k pwd salt t R C.
Proof.
  rewrite <- logd_fst, (held_lyra2mod _ _ _ _ _ _ _ Hp), (src_lyra2mod _ _ _ _ _ _ _ Hp).
  exact (heap_erase p (MLyra2.sel_lyra2mod p) k pwd salt t R C).
Qed.
Lemma held_is_model k pwd salt t R C out log :
  SrcLyra2Heap.lyra2_held p k pwd salt t R C = (Ok out, log) <-> lyra2_heap p k pwd salt t R C = Ok (out, log).
Proof. rewrite <- (held_lyra2 _ _ _ _ _ _ _ Hp). symmetry. apply logd_iff. Qed.
Lemma held_is_model_mod k pwd salt t R C out log :
  SrcLyra2modHeap.lyra2mod_held p k pwd salt t R C = (Ok out, log) <-> lyra2mod_heap p k pwd salt t R C = Ok (out, log).
Proof. rewrite <- (held_lyra2mod _ _ _ _ _ _ _ Hp). symmetry. apply logd_iff. Qed.

Lemma starts_props {A} n max t R (x : held A) : 0 <= n -> starts n max t R x ->
  (x.2 = [] /\ (forall out, x.1 <> Ok out) \/
   1 <= t /\ 3 <= R /\ 8 * n <= max /\ exists rest, x.2 = HAlloc n :: rest) /\
  (forall l1 l2, x.2 = l1 ++ l2 -> 0 <= in_use 0 l1 <= 2 * n) /\
  (forall out, x.1 = Ok out -> in_use 0 x.2 = 0).
Proof.
  intros Hn [[E H]|(Ht & HR & Hm & rest & E & Hw & Hu)].
  - split; [by left|]. rewrite E. split.
    + apply (within_nil 0 (2 * n)). lia.
    + intros out Eo. by destruct (H out).
  - split; [right; eauto|]. cbn [fst snd] in *. rewrite E. split.
    + apply (within_cons 0 (2 * n)); [lia|]. exact Hw.
    + intros out Eo. apply (Hu out Eo).
Qed.

Lemma words_nonneg R C : 0 <= (12 * R * C) mod 2 ^ usize_bits p.
Proof. apply Z.mod_pos_bound. destruct Hp as [-> | ->]; lia. Qed.
Lemma held_either k pwd salt t R C out log :
  SrcLyra2Heap.lyra2_held p k pwd salt t R C = (Ok out, log) \/
  SrcLyra2modHeap.lyra2mod_held p k pwd salt t R C = (Ok out, log) ->
  lyra2_heap p k pwd salt t R C = Ok (out, log) \/ lyra2mod_heap p k pwd salt t R C = Ok (out, log).
Proof.
  intros [E|E]; [left|right].
  - exact (proj1 (held_is_model k pwd salt t R C out log) E).
  - exact (proj1 (held_is_model_mod k pwd salt t R C out log) E).
Qed.
End props.
Lemma heap_any p k pwd salt t R C : known_platform p ->
  let n := (12 * R * C) mod 2 ^ usize_bits p in
  forall x, x = SrcLyra2Heap.lyra2_held p k pwd salt t R C \/ x = SrcLyra2modHeap.lyra2mod_held p k pwd salt t R C ->
  (snd x = [] /\ (forall out, fst x <> Ok out) \/
   1 <= t /\ 3 <= R /\ 8 * n <= isize_max p /\ exists rest, snd x = HAlloc n :: rest) /\
  (forall l1 l2, snd x = l1 ++ l2 -> 0 <= in_use 0 l1 <= 2 * n) /\
  (forall out, fst x = Ok out -> in_use 0 (snd x) = 0).
Proof.
  intros Hp n x [-> | ->].
  - exact (starts_props _ _ _ _ _ (words_nonneg p Hp R C) (starts_lyra2 p k pwd salt t R C Hp)).
  - exact (starts_props _ _ _ _ _ (words_nonneg p Hp R C) (starts_lyra2mod p k pwd salt t R C Hp)).
Qed.
Lemma sum_heap p input : known_platform p ->
  forall x, x = SrcLyra2Heap.sum_held p input \/ x = SrcLyra2modHeap.sum_held p input ->
  forall l1 l2, snd x = l1 ++ l2 -> 0 <= in_use 0 l1 <= 384.
Proof.
  intros Hp x Hx. unfold SrcLyra2Heap.sum_held, SrcLyra2modHeap.sum_held in Hx. rewrite !hquiet_Ok in Hx.
  pose proof (proj1 (proj2 (heap_any p 32 input input 1 4 4 Hp x Hx))) as H.
  replace (2 * ((12 * 4 * 4) mod 2 ^ usize_bits p)) with 384 in H; [exact H|].
  destruct Hp as [-> | ->]; reflexivity.
Qed.
