(** * Lemmas for C57: only rows tell two runs apart *)
From Verif Require Import Machine MachineFacts.
From Verif Require Import SpecWord SpecLyra2 SpecCalls SpecChains SpecAccess.
From Verif Require PConsensus SrcLyra2 SrcLyra2mod SrcLyra2Log SrcLyra2modLog SrcCube SrcBmw SrcChains
  SrcLyra2Seen SrcLyra2modSeen SrcCubeSeen SrcBmwSeen SrcChainsSeen.
From Verif Require Import MAccess PLyra2Lemmas PAccessLemmas PAccess Kept PSrcLogLemmas ChainFacts PSrc PSrcLog PChainCostLemmas
  Seen SpecSeen SpecShape SeenFacts SeenLyra2 SeenErase SeenHash SeenShape PSeenLemmas.
#[local] Open Scope Z_scope.
#[local] Opaque SrcLyra2Seen.lyra2_seen SrcLyra2modSeen.lyra2mod_seen SrcCubeSeen.sum_seen SrcBmwSeen.sum_seen
  SrcLyra2.lyra2 SrcLyra2mod.lyra2mod SrcCube.sum SrcBmw.sum SrcLyra2Log.lyra2_log SrcLyra2modLog.lyra2mod_log.

Definition hide (looks : bool) (C : Z) (o : obs) : obs := hide_row C (if looks then hide_look o else o).
Lemma shape_hide looks C o o' : shape looks o = shape looks o' ->
  (forall a a', o = OMem a -> o' = OMem a' -> without_row C a = without_row C a') -> hide looks C o = hide looks C o'.
Proof.
  unfold hide. destruct o, o', looks; cbn; intros E H; repeat (case_bool_decide; cbn in * ); try congruence;
    try (by rewrite (H _ _ eq_refl eq_refl)).
Qed.
Lemma shapes_hide looks C l l' : shape looks <$> l = shape looks <$> l' ->
  without_row C <$> mem_events l = without_row C <$> mem_events l' -> hide looks C <$> l = hide looks C <$> l'.
Proof.
  revert l'. induction l as [|o l IH]; intros [|o' l'] E M; try done.
  rewrite !fmap_cons in E. injection E as Eo E.
  assert (K : (exists a a', o = OMem a /\ o' = OMem a') \/
    (mem_events (o :: l) = mem_events l /\ mem_events (o' :: l') = mem_events l')).
  { destruct o, o'; cbn in Eo; try (destruct looks; discriminate); try (by right); try (by left; eauto);
      destruct looks; repeat case_bool_decide; cbn in Eo; try discriminate; by right. }
  rewrite !fmap_cons. destruct K as [(a & a' & -> & ->)|[K K']].
  - cbn in M. injection M as Ma M. f_equal; [|by apply IH]. apply shape_hide; [done|]. intros ? ? [= <-] [= <-]. done.
  - rewrite K, K' in M. f_equal; [|by apply IH]. apply shape_hide; [done|]. intros a a' -> ->.
    exfalso. change (a :: mem_events l = mem_events l) in K. apply (f_equal length) in K. rewrite cons_length in K. lia.
Qed.
Lemma crel_logs looks C (x y : seen (list Z)) a b : crel (shape looks) leq x y -> x.1 = Ok a -> y.1 = Ok b ->
  without_row C <$> mem_events x.2 = without_row C <$> mem_events y.2 -> hide looks C <$> x.2 = hide looks C <$> y.2.
Proof. unfold crel. intros H Ex Ey. rewrite Ex, Ey in H. apply shapes_hide. apply H. Qed.
Lemma pair_of {A B} (x : A * B) a : x.1 = a -> x = (a, x.2).
Proof. destruct x. by cbn; intros ->. Qed.
Section two.
Context (p : platform) (k : Z) (pwd pwd' salt salt' : list Z) (t R C : Z).
Context (Hp : known_platform p) (Ha : rust_args (isize_max p) k pwd salt t R C) (Ha' : rust_args (isize_max p) k pwd' salt' t R C).
Context (HR : R < 2 ^ 63 \/ overflow_checks p = true) (Hk : k < 2 ^ 63) (H1 : length pwd = length pwd') (H2 : length salt = length salt').
Lemma hide_lyra2 out out' : SrcLyra2.lyra2 p k pwd salt t R C = Ok out -> SrcLyra2.lyra2 p k pwd' salt' t R C = Ok out' ->
  hide false C <$> (SrcLyra2Seen.lyra2_seen p k pwd salt t R C).2 = hide false C <$> (SrcLyra2Seen.lyra2_seen p k pwd' salt' t R C).2.
Proof.
  intros E E'.
  pose proof (proj1 (log_erase p k pwd salt t R C Hp)) as L. rewrite E in L. apply pair_of in L.
  pose proof (proj1 (log_erase p k pwd' salt' t R C Hp)) as L'. rewrite E' in L'. apply pair_of in L'.
  eapply crel_logs.
  - by apply shape_lyra2.
  - rewrite (proj1 (seen_erase p k pwd salt t R C Hp)). exact E.
  - rewrite (proj1 (seen_erase p k pwd' salt' t R C Hp)). exact E'.
  - rewrite (proj1 (seen_accesses p k pwd salt t R C)), (proj1 (seen_accesses p k pwd' salt' t R C)).
    exact (proj2 (source_accesses_public p p k pwd pwd' salt salt' t R C out out' _ _ Hp Hp Ha Ha' HR Hk H1 H2 (or_introl L) (or_introl L'))).
Qed.
Lemma hide_lyra2mod out out' : SrcLyra2mod.lyra2mod p k pwd salt t R C = Ok out -> SrcLyra2mod.lyra2mod p k pwd' salt' t R C = Ok out' ->
  hide true C <$> (SrcLyra2modSeen.lyra2mod_seen p k pwd salt t R C).2 = hide true C <$> (SrcLyra2modSeen.lyra2mod_seen p k pwd' salt' t R C).2.
Proof.
  intros E E'.
  pose proof (proj2 (log_erase p k pwd salt t R C Hp)) as L. rewrite E in L. apply pair_of in L.
  pose proof (proj2 (log_erase p k pwd' salt' t R C Hp)) as L'. rewrite E' in L'. apply pair_of in L'.
  eapply crel_logs.
  - by apply shape_lyra2mod.
  - rewrite (proj2 (seen_erase p k pwd salt t R C Hp)). exact E.
  - rewrite (proj2 (seen_erase p k pwd' salt' t R C Hp)). exact E'.
  - rewrite (proj2 (seen_accesses p k pwd salt t R C)), (proj2 (seen_accesses p k pwd' salt' t R C)).
    exact (proj2 (source_accesses_public p p k pwd pwd' salt salt' t R C out out' _ _ Hp Hp Ha Ha' HR Hk H1 H2 (or_intror L) (or_intror L'))).
Qed.
Lemma rows_only out : SrcLyra2.lyra2 p k pwd salt t R C = Ok out ->
  (exists out', SrcLyra2.lyra2 p k pwd' salt' t R C = Ok out') /\
  hide_row C <$> (SrcLyra2Seen.lyra2_seen p k pwd salt t R C).2 = hide_row C <$> (SrcLyra2Seen.lyra2_seen p k pwd' salt' t R C).2.
Proof.
  intros E. destruct (source_lyra2_computes p k pwd' salt' t R C Hp Ha' HR ltac:(by right)) as [[[Hacc E']|[Hn E']] _].
  - split; [by eauto|]. exact (hide_lyra2 _ _ E E').
  - exfalso. rewrite (proj1 (source_lyra2 p k pwd' salt' t R C Hp)) in E'.
    apply (proj1 (PConsensus.lyra2_failure_ignores_contents p k pwd' salt' pwd salt t R C Hp Ha' Ha
      (match HR with or_introl H => or_introl H | or_intror H => or_intror (or_introl H) end) ltac:(lia))) in E'.
    rewrite (proj1 (source_lyra2 p k pwd salt t R C Hp)) in E. congruence.
Qed.
Lemma rows_only_mod out : SrcLyra2mod.lyra2mod p k pwd salt t R C = Ok out ->
  (exists out', SrcLyra2mod.lyra2mod p k pwd' salt' t R C = Ok out') /\
  hide_row C ∘ hide_look <$> (SrcLyra2modSeen.lyra2mod_seen p k pwd salt t R C).2 =
  hide_row C ∘ hide_look <$> (SrcLyra2modSeen.lyra2mod_seen p k pwd' salt' t R C).2.
Proof.
  intros E. destruct (source_lyra2_computes p k pwd' salt' t R C Hp Ha' HR ltac:(by right)) as [_ [[Hacc E']|[Hn E']]].
  - split; [by eauto|]. exact (hide_lyra2mod _ _ E E').
  - exfalso. rewrite (proj2 (source_lyra2 p k pwd' salt' t R C Hp)) in E'.
    apply (proj2 (PConsensus.lyra2_failure_ignores_contents p k pwd' salt' pwd salt t R C Hp Ha' Ha
      (match HR with or_introl H => or_introl H | or_intror H => or_intror (or_introl H) end) ltac:(lia))) in E'.
    rewrite (proj2 (source_lyra2 p k pwd salt t R C Hp)) in E. congruence.
Qed.
End two.

(** The chained hashes. *)
Lemma crel_out {A B} sh (P : A -> B -> Prop) (x : seen A) (y : seen B) a b : crel sh P x y -> x.1 = Ok a -> y.1 = Ok b -> sh <$> x.2 = sh <$> y.2.
Proof. unfold crel. intros H E E'. rewrite E, E' in H. apply H. Qed.
Section chains.
Context (p : platform) (Hp : known_platform p).
Lemma crel_plain d d' t e : good d -> good d' -> word 64 t -> 1 <= t -> 2 <= e <= 3 ->
  crel (hide false (2 ^ e)) (fun u v => good u /\ good v) (SrcLyra2Seen.lyra2_seen p 32 d d t (2 ^ e) (2 ^ e)) (SrcLyra2Seen.lyra2_seen p 32 d' d' t (2 ^ e) (2 ^ e)).
Proof.
  intros G G' Ht H1 He. destruct (good_key p Hp d t e G Ht H1 He) as (E & _ & K & _). destruct (good_key p Hp d' t e G' Ht H1 He) as (E' & _ & K' & _).
  assert (HR : 4 <= 2 ^ e <= 8) by (assert (e = 2 \/ e = 3) as [-> | ->] by lia; lia).
  assert (HR' : word 64 (2 ^ e)) by (split; lia).
  rewrite <- (proj1 (source_lyra2 p 32 d d t (2 ^ e) (2 ^ e) Hp)) in E. rewrite <- (proj1 (source_lyra2 p 32 d' d' t (2 ^ e) (2 ^ e) Hp)) in E'.
  assert (Hl : length d = length d') by (destruct G, G'; congruence).
  pose proof (hide_lyra2 p 32 d d' d d' t (2 ^ e) (2 ^ e) Hp (good_args p Hp d t (2 ^ e) G Ht HR' ltac:(nia))
    (good_args p Hp d' t (2 ^ e) G' Ht HR' ltac:(nia)) ltac:(left; lia) ltac:(lia) Hl Hl _ _ E E') as HH.
  unfold crel. rewrite (proj1 (seen_erase p 32 d d t (2 ^ e) (2 ^ e) Hp)), (proj1 (seen_erase p 32 d' d' t (2 ^ e) (2 ^ e) Hp)), E, E'.
  split; [split; [exact K|exact K']|exact HH].
Qed.
Lemma crel_rev3 d d' t e : good d -> good d' -> word 64 t -> 1 <= t -> 2 <= e <= 3 ->
  crel (hide true (2 ^ e)) (fun u v => good u /\ good v) (SrcLyra2modSeen.lyra2mod_seen p 32 d d t (2 ^ e) (2 ^ e)) (SrcLyra2modSeen.lyra2mod_seen p 32 d' d' t (2 ^ e) (2 ^ e)).
Proof.
  intros G G' Ht H1 He. destruct (good_key p Hp d t e G Ht H1 He) as (_ & E & _ & K). destruct (good_key p Hp d' t e G' Ht H1 He) as (_ & E' & _ & K').
  assert (HR : 4 <= 2 ^ e <= 8) by (assert (e = 2 \/ e = 3) as [-> | ->] by lia; lia).
  assert (HR' : word 64 (2 ^ e)) by (split; lia).
  rewrite <- (proj2 (source_lyra2 p 32 d d t (2 ^ e) (2 ^ e) Hp)) in E. rewrite <- (proj2 (source_lyra2 p 32 d' d' t (2 ^ e) (2 ^ e) Hp)) in E'.
  assert (Hl : length d = length d') by (destruct G, G'; congruence).
  pose proof (hide_lyra2mod p 32 d d' d d' t (2 ^ e) (2 ^ e) Hp (good_args p Hp d t (2 ^ e) G Ht HR' ltac:(nia))
    (good_args p Hp d' t (2 ^ e) G' Ht HR' ltac:(nia)) ltac:(left; lia) ltac:(lia) Hl Hl _ _ E E') as HH.
  unfold crel. rewrite (proj2 (seen_erase p 32 d d t (2 ^ e) (2 ^ e) Hp)), (proj2 (seen_erase p 32 d' d' t (2 ^ e) (2 ^ e) Hp)), E, E'.
  split; [split; [exact K|exact K']|exact HH].
Qed.
Lemma crel_cube sh d d' : good d -> good d' -> crel sh (fun u v => good u /\ good v) (SrcCubeSeen.sum_seen p d) (SrcCubeSeen.sum_seen p d').
Proof.
  intros G G'. destruct (kcube p d Hp G) as [E K]. destruct (kcube p d' Hp G') as [E' K'].
  assert (Hl : length d = length d') by (destruct G, G'; congruence).
  destruct (same_hashes p d d' Hl) as [[L _] _]. unfold crel. rewrite !erase_cube, E, E', L. split; [split; [exact K|exact K']|reflexivity].
Qed.
Lemma crel_bmw sh d d' : good d -> good d' -> crel sh (fun u v => True) (SrcBmwSeen.sum_seen p d) (SrcBmwSeen.sum_seen p d').
Proof.
  intros G G'. pose proof (kbmw p d Hp G) as E. pose proof (kbmw p d' Hp G') as E'.
  assert (Hl : length d = length d') by (destruct G, G'; congruence).
  destruct (same_hashes p d d' Hl) as [_ [L _]]. unfold crel. rewrite !erase_bmw, E, E', L. split; [exact I|reflexivity].
Qed.
Context (blake256 keccak256 skein256 groestl256 : list Z -> list Z).
Context (Hb : digest256 blake256) (Hk : digest256 keccak256) (Hs : digest256 skein256) (Hg : digest256 groestl256).
Context (m m' : list Z) (Hm : Forall byte m) (Hm' : Forall byte m').
Lemma rows_only_chains :
  hide_row 8 <$> (SrcChainsSeen.lyra2re_sum_seen blake256 keccak256 skein256 groestl256 p m).2 =
    hide_row 8 <$> (SrcChainsSeen.lyra2re_sum_seen blake256 keccak256 skein256 groestl256 p m').2 /\
  hide_row 4 <$> (SrcChainsSeen.lyra2rev2_sum_seen blake256 keccak256 skein256 p m).2 =
    hide_row 4 <$> (SrcChainsSeen.lyra2rev2_sum_seen blake256 keccak256 skein256 p m').2 /\
  hide_row 4 ∘ hide_look <$> (SrcChainsSeen.lyra2rev3_sum_seen blake256 p m).2 =
    hide_row 4 ∘ hide_look <$> (SrcChainsSeen.lyra2rev3_sum_seen blake256 p m').2 /\
  hide_row 8 <$> (SrcChainsSeen.lyra2z_sum_seen blake256 p m).2 = hide_row 8 <$> (SrcChainsSeen.lyra2z_sum_seen blake256 p m').2.
Proof.
  pose proof (erase_chains p blake256 keccak256 skein256 groestl256 m Hp) as (A1 & A2 & A3 & A4).
  pose proof (erase_chains p blake256 keccak256 skein256 groestl256 m' Hp) as (B1 & B2 & B3 & B4).
  pose proof (source_chains_compute p blake256 keccak256 skein256 groestl256 m Hp Hb Hk Hs Hg Hm) as (C1 & C2 & C3 & C4).
  pose proof (source_chains_compute p blake256 keccak256 skein256 groestl256 m' Hp Hb Hk Hs Hg Hm') as (D1 & D2 & D3 & D4).
  pose proof (Hb m Hm) as G. pose proof (Hb m' Hm') as G'.
  pose proof (good_digest _ _ Hk G) as K. pose proof (good_digest _ _ Hk G') as K'.
  split; [|split; [|split]].
  - refine (crel_out (hide false (2 ^ 3)) (fun _ _ => True) _ _ _ _ _ (eq_trans A1 C1) (eq_trans B1 D1)).
    unfold SrcChainsSeen.lyra2re_sum_seen. do 3 apply cr_step.
    eapply crel_bind; [exact (crel_plain _ _ 1 3 K K' W1 ltac:(lia) ltac:(lia))|]. intros. apply cr_step. by apply crel_ret.
  - refine (crel_out (hide false (2 ^ 2)) (fun _ _ => True) _ _ _ _ _ (eq_trans A2 C2) (eq_trans B2 D2)).
    unfold SrcChainsSeen.lyra2rev2_sum_seen, SrcLyra2Seen.sum_seen. do 2 apply cr_step.
    eapply crel_bind; [exact (crel_cube _ _ _ K K')|]. intros c c' [Q Q'].
    eapply crel_bind; [apply cr_step; exact (crel_plain _ _ 1 2 Q Q' W1 ltac:(lia) ltac:(lia))|]. intros h h' [S S']. apply cr_step.
    eapply crel_bind; [exact (crel_cube _ _ _ (good_digest _ _ Hs S) (good_digest _ _ Hs S'))|]. intros b b' [T T'].
    exact (crel_bmw _ _ _ T T').
  - refine (crel_out (hide true (2 ^ 2)) (fun _ _ => True) _ _ _ _ _ (eq_trans A3 C3) (eq_trans B3 D3)).
    unfold SrcChainsSeen.lyra2rev3_sum_seen, SrcLyra2modSeen.sum_seen. apply cr_step.
    eapply crel_bind; [apply cr_step; exact (crel_rev3 _ _ 1 2 G G' W1 ltac:(lia) ltac:(lia))|]. intros h h' [S S'].
    eapply crel_bind; [exact (crel_cube _ _ _ S S')|]. intros c c' [Q Q'].
    eapply crel_bind; [apply cr_step; exact (crel_rev3 _ _ 1 2 Q Q' W1 ltac:(lia) ltac:(lia))|]. intros b b' [T T'].
    exact (crel_bmw _ _ _ T T').
  - refine (crel_out (hide false (2 ^ 3)) (fun u v => good u /\ good v) _ _ _ _ _ (eq_trans A4 C4) (eq_trans B4 D4)).
    unfold SrcChainsSeen.lyra2z_sum_seen. do 2 apply cr_step.
    exact (crel_plain _ _ 8 3 G G' W8 ltac:(lia) ltac:(lia)).
Qed.
End chains.
