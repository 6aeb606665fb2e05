(** * Observations of the translated cubehash/mod.rs, bmw/mod.rs and chained hashes *)
From Verif Require Import Machine MachineFacts MUtils MCubeGen MCube MBmwGen MBmw SrcOps SrcFacts SrcHash SrcHash2 SrcHash3 Kept KeptFacts
  Seen SpecSeen SeenFacts SeenLyra2 SeenErase.
From Verif Require SrcUtils SrcCube SrcBmw SrcLyra2 SrcLyra2mod SrcChains SrcCubeSeen SrcBmwSeen SrcLyra2Seen SrcLyra2modSeen SrcChainsSeen.
#[local] Open Scope Z_scope.

(** ** Without the observations *)
Lemma fst_step {A B} (x : seen A) (f : A -> seen B) y g :
  x.1 = y -> (forall a, (f a).1 = g a) -> (sbind x f).1 = obind y g.
Proof. intros <- H. rewrite sfst_bind. destruct (x.1); cbn; auto. Qed.
Lemma fst_if {A} (b : bool) (x y : seen A) x' y' : x.1 = x' -> y.1 = y' -> (sif b x y).1 = if b then x' else y'.
Proof. intros <- <-. apply sfst_if. Qed.
#[local] Opaque SrcCube.sixteen_rounds_body1 SrcCube.input_block SrcCube.new_cube_hash.
Lemma erase_sixteen p c : (SrcCubeSeen.sixteen_rounds_seen p c).1 = SrcCube.sixteen_rounds p c.
Proof.
  destruct c. unfold SrcCubeSeen.sixteen_rounds_seen, SrcCube.sixteen_rounds. rewrite sret_l. cbn [obind]. rewrite sret_l. cbn [obind].
  apply fst_step; [by apply sfst_for|]. intros s. by repeat destruct s as [s ?].
Qed.
#[local] Opaque SrcCubeSeen.sixteen_rounds_seen SrcCube.sixteen_rounds.
Lemma erase_cube p d : (SrcCubeSeen.sum_seen p d).1 = SrcCube.sum p d.
Proof.
  unfold SrcCubeSeen.sum_seen, SrcCube.sum.
  apply fst_step; [done|intros c; destruct c]. apply fst_step; [done|intros b1]. apply fst_step; [done|intros b2].
  apply fst_step; [done|intros c; destruct c]. apply fst_step; [apply erase_sixteen|intros c; destruct c].
  apply fst_step; [done|intros c; destruct c]. apply fst_step; [apply erase_sixteen|intros c; destruct c].
  apply fst_step; [done|intros xv]. apply fst_step.
  - apply sfst_for. intros i s. unfold SrcCubeSeen.sum_body1_seen, SrcCube.sum_body1. repeat destruct s as [s ?].
    apply fst_step; [apply erase_sixteen|]. intros c. by destruct c.
  - intros s. repeat destruct s as [s ?]. do 9 (apply fst_step; [done|intros ?]). done.
Qed.
#[local] Opaque SrcBmw.compress SrcBmw.new.
Lemma erase_bmw p d : (SrcBmwSeen.sum_seen p d).1 = SrcBmw.sum p d.
Proof.
  unfold SrcBmwSeen.sum_seen, SrcBmw.sum.
  apply fst_step; [done|intros c; destruct c]. apply fst_step; [done|intros b1].
  apply fst_step.
  { apply sfst_for. intros i s. unfold SrcBmwSeen.sum_body1_seen, SrcBmw.sum_body1. cbv zeta.
    apply fst_step; [|done]. apply fst_if.
    - apply fst_step; [done|intros t1]. by apply fst_step.
    - by apply fst_step. }
  intros b2. do 11 (apply fst_step; [done|intros ?]).
  apply fst_step.
  { apply sfst_for. intros i s. unfold SrcBmwSeen.sum_body2_seen, SrcBmw.sum_body2. cbv zeta. 
    do 5 (apply fst_step; [done|intros ?]). done. }
  intros ?. apply fst_step; [done|intros ?]. apply fst_step; [done|intros c; destruct c].
  do 6 (apply fst_step; [done|intros ?]). apply fst_step; [done|intros c; destruct c].
  do 9 (apply fst_step; [done|intros ?]). done.
Qed.

(** ** Two runs of cubehash/mod.rs *)
#[local] Transparent SrcCube.input_block.
Definition both {A} (a b : A) : Prop := True.
Lemma osim_input p d d' c c' : leq d d' -> osim both (SrcCube.input_block p d c) (SrcCube.input_block p d' c').
Proof.
  intros Hd. destruct c, c'. unfold SrcCube.input_block. cbv beta iota.
  repeat (cbv beta iota; first
    [ eapply osim_bind; [by apply osim_slice|intros ? ? _ _ ?]
    | eapply osim_bind; [by apply osim_read_u32|intros ? ? _ _ _]
    | cbn [obind] ]). 
  all: try done.
Qed.
#[local] Opaque SrcCube.input_block.
Section two_hash.
Context (ch : obs -> obs -> Prop) (p : platform).
Lemma two_sixteen c c' : srel ch both (SrcCubeSeen.sixteen_rounds_seen p c) (SrcCubeSeen.sixteen_rounds_seen p c').
Proof.
  #[local] Transparent SrcCubeSeen.sixteen_rounds_seen.
  unfold SrcCubeSeen.sixteen_rounds_seen. destruct c, c'. sstep. sstep.
  eapply srel_bind.
  - apply (srel_for _ both); [|done]. intros i s s' _ _. apply srel_do.
    assert (H : forall s, exists c, s = ctup c).
    { clear. intros s. repeat destruct s as [s ?]. by eexists (Cube _ _ _ _ _ _ _ _ _ _ _ _ _ _ _ _ _ _ _ _ _ _ _ _ _ _ _ _ _ _ _ _). }
    destruct (H s) as [c ->], (H s') as [c' ->]. by rewrite !src_two_rounds.
  - intros s s' _. repeat destruct s as [s ?]. repeat destruct s' as [s' ?]. by apply srel_ret.
Qed.
#[local] Opaque SrcCubeSeen.sixteen_rounds_seen.
Lemma two_cube d d' : leq d d' -> srel ch leq (SrcCubeSeen.sum_seen p d) (SrcCubeSeen.sum_seen p d').
Proof.
  intros Hd. unfold SrcCubeSeen.sum_seen. sstep. match goal with x : SrcCube.CubeHash |- _ => destruct x end.
  eapply (sz_step _ leq); [by apply osim_leq|]. intros b b' Hb. sstep.
  eapply sq_step'; [by apply osim_input|]. intros c c' _. destruct c, c'.
  eapply srel_bind; [apply two_sixteen|]. intros c c' _. destruct c, c'.
  eapply sq_step'; [by apply osim_input|]. intros c c' _. destruct c, c'.
  eapply srel_bind; [apply two_sixteen|]. intros c c' _. destruct c, c'. sstep.
  eapply srel_bind.
  - apply (srel_for _ both); [|done]. intros i s s' _ _. unfold SrcCubeSeen.sum_body1_seen.
    repeat destruct s as [s ?]. repeat destruct s' as [s' ?].
    eapply srel_bind; [apply two_sixteen|]. intros c c' _. destruct c, c'. by apply srel_ret.
  - intros s s' _. repeat destruct s as [s ?]. repeat destruct s' as [s' ?]. sstep.
    do 7 (apply se_step; [done|apply leq_bytes|intros ? ? ?]).
    apply se_step; [done|apply leq_bytes|intros ? ? ?]. by apply srel_ret.
Qed.

(** ** Two runs of bmw/mod.rs *)
Definition bmw_eq (b b' : SrcBmw.Bmw) : Prop :=
  let '(SrcBmw.MkBmw m h h2 q) := b in let '(SrcBmw.MkBmw m' h' h2' q') := b' in
  leq m m' /\ (length h = 16%nat /\ length h' = 16%nat) /\ leq h2 h2' /\ (length q = 32%nat /\ length q' = 32%nat).
Lemma osim_compress b b' m m' : bmw_eq b b' -> osim bmw_eq (SrcBmw.compress p b m) (SrcBmw.compress p b' m').
Proof.
  destruct b as [bm h h2 q], b' as [bm' h' h2' q']. intros (Hm & (Hh & Hh') & Hh2 & (Hq & Hq')).
  change (SrcBmw.MkBmw bm h h2 q) with (brec (MkBmw bm h h2 q)). change (SrcBmw.MkBmw bm' h' h2' q') with (brec (MkBmw bm' h' h2' q')).
  rewrite !src_compress by done.
  destruct (compress_length (MkBmw bm h h2 q) m) as [L1 L2], (compress_length (MkBmw bm' h' h2' q') m') as [L1' L2'].
  cbn [b_h b_q] in *. unfold osim, brec, bmw_eq. rewrite L1, L1', L2, L2'. done.
Qed.
Lemma two_bmw d d' : leq d d' -> srel ch leq (SrcBmwSeen.sum_seen p d) (SrcBmwSeen.sum_seen p d').
Proof.
  intros Hd. unfold SrcBmwSeen.sum_seen.
  assert (E : vlen d' = vlen d) by (unfold vlen; by rewrite Hd). rewrite E.
  eapply (sq_step' _ bmw_eq); [by rewrite src_bmw_new|]. intros b b' Hb.
  destruct b as [bm h h2 q], b' as [bm' h' h2' q']. destruct Hb as (Hm & (Hh & Hh') & Hh2 & (Hq & Hq')).
  eapply (sz_step _ leq); [by apply osim_leq|]. intros u u' Hu.
  eapply srel_bind.
  { apply (srel_for _ leq); [|exact Hu]. intros i s s' _ Hs. unfold SrcBmwSeen.sum_body1_seen. cbv zeta. rewrite E.
    eapply srel_bind; [|intros ? ? ?; by apply srel_ret]. apply srel_if.
    - sstep. apply se_step; [done|done|]. intros. by apply srel_ret.
    - apply se_step; [done|done|]. intros. by apply srel_ret. }
  clear u u' Hu. intros u u' Hu. do 11 sstep.
  eapply srel_bind.
  { apply (srel_for _ leq); [|exact Hm]. intros i s s' _ Hs. unfold SrcBmwSeen.sum_body2_seen. cbv zeta. do 3 sstep.
    eapply sq_step'; [by apply osim_read_u32|]. intros ? ? _. sstep. by apply srel_ret. }
  clear bm bm' Hm. intros bm bm' Hm. sstep.
  eapply sq_step'; [by apply osim_compress|]. clear h h' h2 h2' q q' Hh Hh' Hh2 Hq Hq' bm bm' Hm. intros c c' Hb.
  destruct c as [bm h h2 q], c' as [bm' h' h2' q']. destruct Hb as (Hm & (Hh & Hh') & Hh2 & (Hq & Hq')).
  assert (Hhh : leq h h') by (unfold leq; by rewrite Hh, Hh'). sstep. sstep. sstep.
  apply ss_step; [done|intros f f' Hf].
  eapply (srel_bind _ (fun a b => length a = 16%nat /\ length b = 16%nat)).
  { apply srel_do. unfold slice_set, vlen. rewrite Hh, Hh', Hf. destruct (_ && _ && _) eqn:Ec; [|done].
    apply andb_prop in Ec as [_ Ec%Z.eqb_eq]. assert (Hf' : length f' = 16%nat) by lia. unfold osim.
    rewrite !app_length, !drop_length, Hf, Hf', Hh, Hh'. done. }
  intros g g' [Hg Hg']. sstep.
  eapply sq_step'; [by apply osim_compress|]. clear h h' h2 h2' q q' Hh Hh' Hh2 Hq Hq' bm bm' Hm Hhh g g' Hg Hg'. intros c c' Hb.
  destruct c as [bm h h2 q], c' as [bm' h' h2' q']. sstep.
  do 7 (apply se_step; [done|apply leq_bytes|intros ? ? ?]).
  apply se_step; [done|apply leq_bytes|intros ? ? ?]. by apply srel_ret.
Qed.
End two_hash.
