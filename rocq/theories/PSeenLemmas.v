(** * Lemmas for C56: what a run shows of its secrets *)
From Verif Require Import Machine MachineFacts SrcOps SrcFacts SrcHash3 PSrcLogLemmas Kept Seen SpecSeen SeenFacts SeenLyra2 SeenErase SeenHash.
From Verif Require SrcLyra2 SrcLyra2mod SrcLyra2Log SrcLyra2modLog SrcCube SrcBmw SrcChains
  SrcLyra2Seen SrcLyra2modSeen SrcCubeSeen SrcBmwSeen SrcChainsSeen.
From Verif Require Import SpecWord SpecChains.
#[local] Open Scope Z_scope.
#[local] Opaque SrcLyra2Seen.lyra2_seen SrcLyra2modSeen.lyra2mod_seen SrcCubeSeen.sum_seen SrcBmwSeen.sum_seen
  SrcLyra2.lyra2 SrcLyra2mod.lyra2mod SrcCube.sum SrcBmw.sum.

Lemma srel_alike ch (x y : seen (list Z)) : srel ch leq x y -> seen_alike ch x y.
Proof. done. Qed.
Lemma alike_lyra2 p k pwd pwd' salt salt' t R C : length pwd = length pwd' -> length salt = length salt' ->
  seen_alike both_pick (SrcLyra2Seen.lyra2_seen p k pwd salt t R C) (SrcLyra2Seen.lyra2_seen p k pwd' salt' t R C) /\
  seen_alike pick_or_look (SrcLyra2modSeen.lyra2mod_seen p k pwd salt t R C) (SrcLyra2modSeen.lyra2mod_seen p k pwd' salt' t R C).
Proof. intros Hp Hs. split; apply srel_alike; [by apply two_lyra2|by apply two_lyra2mod]. Qed.
Lemma same_nothing (x y : seen (list Z)) : srel nothing leq x y -> x.2 = y.2 /\ same_end x.1 y.1.
Proof. intros [H|(? & ? & ? & ? & ? & _ & _ & _ & [])]. exact H. Qed.
Lemma same_hashes p d d' : length d = length d' ->
  ((SrcCubeSeen.sum_seen p d).2 = (SrcCubeSeen.sum_seen p d').2 /\ same_end (SrcCubeSeen.sum_seen p d).1 (SrcCubeSeen.sum_seen p d').1) /\
  ((SrcBmwSeen.sum_seen p d).2 = (SrcBmwSeen.sum_seen p d').2 /\ same_end (SrcBmwSeen.sum_seen p d).1 (SrcBmwSeen.sum_seen p d').1).
Proof. intros H. split; apply same_nothing; [by apply two_cube|by apply two_bmw]. Qed.

(** Equal choices: everything is equal. *)
Lemma parts_same {A} (ch : obs -> obs -> Prop) (l l' : list obs) (f : obs -> option A) :
  (forall e e', ch e e' -> e <> e' -> exists a a', f e = Some a /\ f e' = Some a' /\ a <> a') ->
  omap f l = omap f l' -> ~ parts_at ch l l'.
Proof.
  intros Hf E (c & e & e' & r & r' & -> & -> & Hn & Hc). rewrite !omap_app in E. apply app_inv_head in E.
  destruct (Hf e e' Hc Hn) as (a & a' & Ha & Ha' & Haa). cbn in E. rewrite Ha, Ha' in E. congruence.
Qed.
Lemma pick_differs e e' : both_pick e e' -> e <> e' ->
  exists a a' : Z, (match e with OPick r => Some r | _ => None end) = Some a /\
    (match e' with OPick r => Some r | _ => None end) = Some a' /\ a <> a'.
Proof. intros (r & r' & -> & ->) Hn. exists r, r'. split; [done|]. split; [done|]. congruence. Qed.
Lemma choice_differs e e' : pick_or_look e e' -> e <> e' ->
  exists a a' : Z + Z, choice_of e = Some a /\ choice_of e' = Some a' /\ a <> a'.
Proof.
  intros [(r & r' & -> & ->)|(i & i' & -> & ->)] Hn; cbn.
  - exists (inl r), (inl r'). split; [done|]. split; [done|]. congruence.
  - exists (inr i), (inr i'). split; [done|]. split; [done|]. congruence.
Qed.
Lemma alike_picks (x y : seen (list Z)) : seen_alike both_pick x y -> picks x.2 = picks y.2 -> x.2 = y.2 /\ same_end x.1 y.1.
Proof. intros [H|H] E; [done|]. exfalso. revert H. by eapply parts_same; [exact pick_differs|]. Qed.
Lemma alike_choices (x y : seen (list Z)) :
  seen_alike pick_or_look x y -> choices x.2 = choices y.2 -> x.2 = y.2 /\ same_end x.1 y.1.
Proof. intros [H|H] E; [done|]. exfalso. revert H. by eapply parts_same; [exact choice_differs|]. Qed.
Lemma equal_choices p k pwd pwd' salt salt' t R C : length pwd = length pwd' -> length salt = length salt' ->
  (let x := SrcLyra2Seen.lyra2_seen p k pwd salt t R C in let y := SrcLyra2Seen.lyra2_seen p k pwd' salt' t R C in
   picks x.2 = picks y.2 -> x.2 = y.2 /\ same_end x.1 y.1) /\
  (let x := SrcLyra2modSeen.lyra2mod_seen p k pwd salt t R C in let y := SrcLyra2modSeen.lyra2mod_seen p k pwd' salt' t R C in
   choices x.2 = choices y.2 -> x.2 = y.2 /\ same_end x.1 y.1).
Proof.
  intros Hp Hs. destruct (alike_lyra2 p k pwd pwd' salt salt' t R C Hp Hs) as [H1 H2].
  split; [exact (alike_picks _ _ H1)|exact (alike_choices _ _ H2)].
Qed.

(** The chained hashes. *)
Section chains.
Context (p : platform) (blake256 keccak256 skein256 groestl256 : list Z -> list Z).
Hypothesis (Hb : forall m, length (blake256 m) = 32%nat) (Hk : forall m, length (keccak256 m) = 32%nat).
Hypothesis (Hs : forall m, length (skein256 m) = 32%nat) (Hg : forall m, length (groestl256 m) = 32%nat).
Lemma leq32 (f : list Z -> list Z) m m' : (forall m, length (f m) = 32%nat) -> leq (f m) (f m').
Proof. intros H. unfold leq. by rewrite !H. Qed.
Lemma two_re m m' : srel both_pick leq (SrcChainsSeen.lyra2re_sum_seen blake256 keccak256 skein256 groestl256 p m)
  (SrcChainsSeen.lyra2re_sum_seen blake256 keccak256 skein256 groestl256 p m').
Proof.
  unfold SrcChainsSeen.lyra2re_sum_seen. do 3 sstep.
  eapply srel_bind; [apply two_lyra2; by apply leq32|]. intros. sstep. apply srel_ret. by apply leq32.
Qed.
Lemma two_rev2 m m' : srel both_pick leq (SrcChainsSeen.lyra2rev2_sum_seen blake256 keccak256 skein256 p m)
  (SrcChainsSeen.lyra2rev2_sum_seen blake256 keccak256 skein256 p m').
Proof.
  unfold SrcChainsSeen.lyra2rev2_sum_seen, SrcLyra2Seen.sum_seen. do 2 sstep.
  eapply srel_bind; [apply two_cube; by apply leq32|]. intros.
  eapply srel_bind; [sstep; by apply two_lyra2|]. intros. sstep.
  eapply srel_bind; [apply two_cube; by apply leq32|]. intros. by apply two_bmw.
Qed.
Lemma two_rev3 m m' : srel pick_or_look leq (SrcChainsSeen.lyra2rev3_sum_seen blake256 p m)
  (SrcChainsSeen.lyra2rev3_sum_seen blake256 p m').
Proof.
  unfold SrcChainsSeen.lyra2rev3_sum_seen, SrcLyra2modSeen.sum_seen. sstep.
  eapply srel_bind; [sstep; apply two_lyra2mod; by apply leq32|]. intros.
  eapply srel_bind; [by apply two_cube|]. intros.
  eapply srel_bind; [sstep; by apply two_lyra2mod|]. intros. by apply two_bmw.
Qed.
Lemma two_z m m' : srel both_pick leq (SrcChainsSeen.lyra2z_sum_seen blake256 p m) (SrcChainsSeen.lyra2z_sum_seen blake256 p m').
Proof. unfold SrcChainsSeen.lyra2z_sum_seen. do 2 sstep. apply two_lyra2; by apply leq32. Qed.
Lemma alike_chains m m' :
  seen_alike both_pick (SrcChainsSeen.lyra2re_sum_seen blake256 keccak256 skein256 groestl256 p m)
    (SrcChainsSeen.lyra2re_sum_seen blake256 keccak256 skein256 groestl256 p m') /\
  seen_alike both_pick (SrcChainsSeen.lyra2rev2_sum_seen blake256 keccak256 skein256 p m)
    (SrcChainsSeen.lyra2rev2_sum_seen blake256 keccak256 skein256 p m') /\
  seen_alike pick_or_look (SrcChainsSeen.lyra2rev3_sum_seen blake256 p m) (SrcChainsSeen.lyra2rev3_sum_seen blake256 p m') /\
  seen_alike both_pick (SrcChainsSeen.lyra2z_sum_seen blake256 p m) (SrcChainsSeen.lyra2z_sum_seen blake256 p m').
Proof. repeat split; apply srel_alike; [apply two_re|apply two_rev2|apply two_rev3|apply two_z]. Qed.
End chains.
Lemma erase_chains p blake256 keccak256 skein256 groestl256 m : known_platform p ->
  (SrcChainsSeen.lyra2re_sum_seen blake256 keccak256 skein256 groestl256 p m).1 = SrcChains.lyra2re_sum blake256 keccak256 skein256 groestl256 p m /\
  (SrcChainsSeen.lyra2rev2_sum_seen blake256 keccak256 skein256 p m).1 = SrcChains.lyra2rev2_sum blake256 keccak256 skein256 p m /\
  (SrcChainsSeen.lyra2rev3_sum_seen blake256 p m).1 = SrcChains.lyra2rev3_sum blake256 p m /\
  (SrcChainsSeen.lyra2z_sum_seen blake256 p m).1 = SrcChains.lyra2z_sum blake256 p m.
Proof.
  intros Hp.
  assert (HL : forall k pwd salt t R C, (SrcLyra2Seen.lyra2_seen p k pwd salt t R C).1 = SrcLyra2.lyra2 p k pwd salt t R C).
  { intros. exact (proj1 (seen_erase p k pwd salt t R C Hp)). }
  assert (HM : forall k pwd salt t R C, (SrcLyra2modSeen.lyra2mod_seen p k pwd salt t R C).1 = SrcLyra2mod.lyra2mod p k pwd salt t R C).
  { intros. exact (proj2 (seen_erase p k pwd salt t R C Hp)). }
  assert (HS : forall i, (SrcLyra2Seen.sum_seen p i).1 = SrcLyra2.sum p i).
  { intros. unfold SrcLyra2Seen.sum_seen, SrcLyra2.sum. apply fst_step; [reflexivity|]. intros. apply HL. }
  assert (HMS : forall i, (SrcLyra2modSeen.sum_seen p i).1 = SrcLyra2mod.sum p i).
  { intros. unfold SrcLyra2modSeen.sum_seen, SrcLyra2mod.sum. apply fst_step; [reflexivity|]. intros. apply HM. }
  pose proof (erase_cube p) as HC. pose proof (erase_bmw p) as HB.
  split; [|split; [|split]];
    [unfold SrcChainsSeen.lyra2re_sum_seen, SrcChains.lyra2re_sum|unfold SrcChainsSeen.lyra2rev2_sum_seen, SrcChains.lyra2rev2_sum
    |unfold SrcChainsSeen.lyra2rev3_sum_seen, SrcChains.lyra2rev3_sum|unfold SrcChainsSeen.lyra2z_sum_seen, SrcChains.lyra2z_sum];
    repeat (lazymatch goal with |- (sbind _ _).1 = _ => apply fst_step; [|intros ?] end);
    lazymatch goal with
    | |- (SrcLyra2Seen.lyra2_seen _ _ _ _ _ _ _).1 = _ => apply HL
    | |- (SrcLyra2Seen.sum_seen _ _).1 = _ => apply HS
    | |- (SrcLyra2modSeen.sum_seen _ _).1 = _ => apply HMS
    | |- (SrcCubeSeen.sum_seen _ _).1 = _ => apply HC
    | |- (SrcBmwSeen.sum_seen _ _).1 = _ => apply HB
    | |- _ => reflexivity
    end.
Qed.
Lemma erase_all p d k pwd salt t R C : known_platform p ->
  (SrcLyra2Seen.lyra2_seen p k pwd salt t R C).1 = SrcLyra2.lyra2 p k pwd salt t R C /\
  (SrcLyra2modSeen.lyra2mod_seen p k pwd salt t R C).1 = SrcLyra2mod.lyra2mod p k pwd salt t R C /\
  (SrcCubeSeen.sum_seen p d).1 = SrcCube.sum p d /\ (SrcBmwSeen.sum_seen p d).1 = SrcBmw.sum p d.
Proof. intros Hp. destruct (seen_erase p k pwd salt t R C Hp). auto using erase_cube, erase_bmw. Qed.
Lemma seen_accesses p k pwd salt t R C :
  mem_events (SrcLyra2Seen.lyra2_seen p k pwd salt t R C).2 = (SrcLyra2Log.lyra2_log p k pwd salt t R C).2 /\
  mem_events (SrcLyra2modSeen.lyra2mod_seen p k pwd salt t R C).2 = (SrcLyra2modLog.lyra2mod_log p k pwd salt t R C).2.
Proof. rewrite <- strip_lyra2, <- strip_lyra2mod. split; reflexivity. Qed.
