(** * Runs that choose different rows (lemmas for C57) *)
From Verif Require Import Machine MachineFacts MUtils MLyra2 SrcOps SrcFacts SrcLoops SrcTop MAccess AccessFacts Kept MKept KeptFacts
  SrcLogFacts SrcLogTop Seen SpecSeen SpecShape SeenFacts SeenLyra2 SeenUpto.
From Verif Require SrcUtils SrcLyra2 SrcLyra2mod SrcLyra2Log SrcLyra2modLog SrcLyra2Seen SrcLyra2modSeen.
#[local] Open Scope Z_scope.
#[local] Opaque MLyra2.round_lyra MLyra2.reduced_blake2b_lyra MLyra2.blake2b_lyra
  SrcLyra2.round_lyra SrcLyra2.reduced_blake2b_lyra SrcLyra2.blake2b_lyra.

(** ** Accesses up to their address, of parts that return *)
Definition kind_of (a : access) : access := match a with Rd _ => Rd 0 | Wr _ => Wr 0 | Perm => Perm end.
Definition kshape {A B} (P : A -> B -> Prop) (x : kept A) (y : kept B) : Prop :=
  match x.1, y.1 with
  | Ok a, Ok b => P a b /\ kind_of <$> x.2 = kind_of <$> y.2
  | _, _ => True
  end.
Lemma kshape_bind {A B C D} (P : A -> B -> Prop) (Q : C -> D -> Prop) x y f h :
  kshape P x y -> (forall a b, P a b -> kshape Q (f a) (h b)) -> kshape Q (kbind x f) (kbind y h).
Proof.
  destruct x as [[a| |] l], y as [[b| |] l']; unfold kshape; cbn [fst snd kbind]; intros H Hf;
    try (destruct (f a) as [[?| |] ?]; done); try done; try (by destruct (h b) as [[?| |] ?]).
  destruct H as [HP Hl]. specialize (Hf a b HP). destruct (f a) as [[u| |] lu], (h b) as [[v| |] lv]; cbn [fst snd] in *; try done.
  destruct Hf as [HQ Hlu]. split; [done|]. by rewrite !fmap_app, Hl, Hlu.
Qed.
Lemma kshape_ret {A B} (P : A -> B -> Prop) a b : P a b -> kshape P (kret a) (kret b).
Proof. done. Qed.
Lemma kshape_quiet {A B} (P : A -> B -> Prop) (x : outcome A) (y : outcome B) :
  match x, y with Ok a, Ok b => P a b | _, _ => True end -> kshape P (kquiet x) (kquiet y).
Proof. unfold kshape. cbn. by destruct x, y. Qed.
Lemma kshape_any {A B} (x : outcome A) (y : outcome B) : kshape (fun _ _ => True) (kquiet x) (kquiet y).
Proof. apply kshape_quiet. by destruct x, y. Qed.
Lemma kshape_rd m m' a a' : kshape (fun _ _ => True) (krd m a) (krd m' a').
Proof. unfold kshape, krd, kdone. cbn. destruct (vget m a), (vget m' a'); done. Qed.
Lemma kshape_rd_right b b' m m' a a' : kshape (fun _ _ => True) (krd_right b m a) (krd_right b' m' a').
Proof. unfold kshape, krd_right, kdone. cbn. destruct (vget m a), (vget m' a'); done. Qed.
Lemma kshape_wr m m' a a' x x' : leq m m' -> kshape leq (kwr m a x) (kwr m' a' x').
Proof.
  intros H. unfold kshape, kwr, kdone, vset. cbn.
  destruct ((0 <=? a) && (a <? vlen m)), ((0 <=? a') && (a' <? vlen m')); try done. cbn. split; [|done].
  unfold leq. by rewrite !insert_length.
Qed.
Lemma kshape_sim {A B} (P : A -> B -> Prop) x y : ksim P x y -> kshape P x y.
Proof. destruct x as [[a| |] l], y as [[b| |] l']; intros [Ho Hl]; cbn in *; try done. unfold kshape. cbn. by rewrite Hl. Qed.
Lemma kshape_fold {A S S'} (R : S -> S' -> Prop) (f : S -> A -> kept S) (f' : S' -> A -> kept S') l s s' :
  (forall s s' a, R s s' -> kshape R (f s a) (f' s' a)) -> R s s' -> kshape R (kfold f l s) (kfold f' l s').
Proof.
  intros H. revert s s'. induction l as [|a l IH]; intros s s' Hs; cbn [kfold]; [by apply kshape_ret|].
  eapply kshape_bind; [by apply H|]. intros. by apply IH.
Qed.
Ltac hstep := cbv beta; lazymatch goal with
  | |- kshape _ (kbind (kquiet (Ok _)) _) (kbind (kquiet (Ok _)) _) => rewrite !kquiet_Ok
  | |- kshape _ (kbind (kquiet _) _) (kbind (kquiet _) _) => eapply kshape_bind; [by apply kshape_any|intros ? ? _]
  | |- kshape _ (kbind (krd _ _) _) (kbind (krd _ _) _) => eapply kshape_bind; [by apply kshape_rd|intros ? ? _]
  | |- kshape _ (kbind (krd_right _ _ _) _) (kbind (krd_right _ _ _) _) => eapply kshape_bind; [by apply kshape_rd_right|intros ? ? _]
  | |- kshape _ (kbind (kwr _ _ _) _) (kbind (kwr _ _ _) _) => eapply kshape_bind; [by apply kshape_wr|intros ? ? ?]
  | |- kshape _ (kwr _ _ _) (kwr _ _ _) => by apply kshape_wr
  | |- kshape _ (kbind (kperm _) _) (kbind (kperm _) _) => eapply kshape_bind; [by apply kshape_sim, ksim_perm|intros ? ? ?]
  | |- kshape _ (kret _) (kret _) => apply kshape_ret; cbn; auto
  end.
#[local] Hint Resolve leq_insert : core.
#[local] Opaque blake2b_lyra_kept kperm.
Ltac hfold := eapply kshape_bind; [apply (kshape_fold leq); [|eassumption]; intros; repeat hstep|intros ? ? ?; cbv beta].
Lemma kshape_body10 p row prev rowa rowa' rl i s s' : leq2 s s' ->
  kshape leq2 (SrcLyra2Log.lyra2_body10_log p row prev rowa rl i s) (SrcLyra2Log.lyra2_body10_log p row prev rowa' rl i s').
Proof.
  destruct s as [m s], s' as [m' s']. intros [Hm Hs]. cbn [fst snd] in *. rewrite !log_body10.
  unfold absorb_sum_kept, reduced_kept, xor_rotW_kept. hfold. hstep. hfold.
  eapply kshape_bind; [apply (kshape_fold leq); [|eassumption]; intros ? ? [??] ?; repeat hstep|intros ? ? ?; cbv beta].
  by apply kshape_ret.
Qed.
Lemma kshape_xor_in b b' w w' s s' j : leq s s' -> kshape leq (xor_in_kept b w s j) (xor_in_kept b' w' s' j).
Proof. intros. unfold xor_in_kept. repeat hstep. Qed.
Lemma kshape_absorb p s s' b b' w w' : leq s s' ->
  kshape leq (SrcLyra2Log.absorb_block_log p s b w) (SrcLyra2Log.absorb_block_log p s' b' w').
Proof.
  intros Hs. rewrite !log_absorb. unfold absorb_block_kept.
  eapply kshape_bind; [apply kshape_fold; [|exact Hs]; intros; by apply kshape_xor_in|]. intros. by apply kshape_sim, ksim_blake.
Qed.

(** ** Observations up to the rows *)
Section crel.
Context (sh : obs -> obs).
Definition crel {A B} (P : A -> B -> Prop) (x : seen A) (y : seen B) : Prop :=
  match x.1, y.1 with
  | Ok a, Ok b => P a b /\ sh <$> x.2 = sh <$> y.2
  | _, _ => True
  end.
Lemma crel_bind {A B C D} (P : A -> B -> Prop) (Q : C -> D -> Prop) x y f h :
  crel P x y -> (forall a b, P a b -> crel Q (f a) (h b)) -> crel Q (sbind x f) (sbind y h).
Proof.
  destruct x as [[a| |] l], y as [[b| |] l']; unfold crel; cbn [fst snd sbind]; intros H Hf;
    try (destruct (f a) as [[?| |] ?]; done); try done; try (by destruct (h b) as [[?| |] ?]).
  destruct H as [HP Hl]. specialize (Hf a b HP). destruct (f a) as [[u| |] lu], (h b) as [[v| |] lv]; cbn [fst snd] in *; try done.
  destruct Hf as [HQ Hlu]. split; [done|]. by rewrite !fmap_app, Hl, Hlu.
Qed.
Lemma crel_ret {A B} (P : A -> B -> Prop) a b : P a b -> crel P (sret a) (sret b).
Proof. done. Qed.
Lemma crel_of {A B} (P : A -> B -> Prop) x y : srel nothing P x y -> crel P x y.
Proof.
  destruct x as [[a| |] l], y as [[b| |] l']; intros [[Hl Ho]|(? & ? & ? & ? & ? & _ & _ & _ & [])]; cbn in *; try done.
  unfold crel. cbn. by rewrite Hl.
Qed.
Lemma crel_any {A B} l (x : outcome A) (y : outcome B) : crel (fun _ _ => True) (sdo l x) (sdo l y).
Proof. unfold crel. cbn. by destruct x, y. Qed.
Lemma crel_if {A B} (P : A -> B -> Prop) (b : bool) x x' y y' :
  crel P x y -> crel P x' y' -> crel P (sif b x x') (sif b y y').
Proof. intros H H'. unfold sif. eapply (crel_bind (fun _ _ => True)); [done|]. intros _ _ _. by destruct b. Qed.
Lemma crel_loop_pow {S S' T T'} (R : S -> S' -> Prop) (Q : T -> T' -> Prop) n body body' s s' :
  (forall s s', R s s' -> crel (sum_rel R Q) (body s) (body' s')) -> R s s' ->
  crel (sum_rel R Q) (sloop_pow n body s) (sloop_pow n body' s').
Proof.
  intros Hb. revert s s'. induction n as [|n IH]; intros s s' H; cbn [sloop_pow]; [auto|].
  eapply crel_bind; [by apply IH|]. intros [a|a] [b|b] Hab; cbn in Hab; try done. auto.
Qed.
Lemma crel_loop {S S' T T'} (R : S -> S' -> Prop) (Q : T -> T' -> Prop) body body' s s' :
  (forall s s', R s s' -> crel (sum_rel R Q) (body s) (body' s')) -> R s s' ->
  crel Q (sloop body s) (sloop body' s').
Proof.
  intros Hb H. unfold sloop. eapply crel_bind; [by apply (crel_loop_pow R Q)|].
  intros [a|a] [b|b] Hab; cbn in Hab; try done; by apply crel_ret.
Qed.
Lemma crel_for {S S'} (R : S -> S' -> Prop) lo hi body body' s s' :
  (forall i s s', lo <= i < hi -> R s s' -> crel R (body i s) (body' i s')) -> R s s' ->
  crel R (sfor lo hi body s) (sfor lo hi body' s').
Proof.
  intros Hb H. unfold sfor. eapply (crel_bind (fun _ _ => True)); [done|]. intros _ _ _.
  apply (crel_loop (fun a b => a.1 = b.1 /\ lo <= a.1 /\ R a.2 b.2)); [|cbn; auto with lia].
  intros [i a] [i' b]; cbn [fst snd]. intros (<- & Hlo & HR). destruct (Z.ltb_spec i hi); [|by apply crel_ret].
  eapply crel_bind; [apply Hb; [lia|done]|]. intros a' b' HR'. apply crel_ret. cbn. auto with lia.
Qed.
(** A part in which nothing may differ, and what follows it. *)
Lemma cs_bind {A B C D} (P : A -> B -> Prop) (Q : C -> D -> Prop) x y f h :
  srel nothing P x y -> (forall a b, P a b -> crel Q (f a) (h b)) -> crel Q (sbind x f) (sbind y h).
Proof. intros H. apply crel_bind. by apply crel_of. Qed.
Lemma cq_step {A C D} (Q : C -> D -> Prop) (e : outcome A) f h :
  (forall a, crel Q (f a) (h a)) -> crel Q (sbind (squiet e) f) (sbind (squiet e) h).
Proof. intros H. eapply (cs_bind eq); [apply srel_do; by apply osim_refl|]. intros a ? <-. apply H. Qed.
Lemma ca_step {A B C D} (Q : C -> D -> Prop) (e : outcome A) (e' : outcome B) f h :
  (forall a b, crel Q (f a) (h b)) -> crel Q (sbind (squiet e) f) (sbind (squiet e') h).
Proof. intros H. eapply crel_bind; [apply crel_any|]. intros a b _. apply H. Qed.
Lemma cr_step {A B C D} (Q : C -> D -> Prop) (a : A) (b : B) f h :
  crel Q (f a) (h b) -> crel Q (sbind (sret a) f) (sbind (sret b) h).
Proof. by rewrite !sret_l. Qed.
Lemma cw_step {C D} (Q : C -> D -> Prop) v v' i x x' f h : leq v v' ->
  (forall a b, leq a b -> crel Q (f a) (h b)) -> crel Q (sbind (slift (kwr v i x)) f) (sbind (slift (kwr v' i x')) h).
Proof. intros He. apply cs_bind. apply srel_lift. by apply ksim_wr. Qed.
Lemma crd_step {C D} (Q : C -> D -> Prop) v v' i f h : leq v v' ->
  (forall a b, crel Q (f a) (h b)) -> crel Q (sbind (slift (krd v i)) f) (sbind (slift (krd v' i)) h).
Proof. intros He H. eapply (cs_bind (fun _ _ => True)); [apply srel_lift; by apply ksim_rd|]. auto. Qed.
Lemma cpe_step {C D} (Q : C -> D -> Prop) r f h :
  (forall r, crel Q (f r) (h r)) -> crel Q (sbind (spick r) f) (sbind (spick r) h).
Proof. intros H. eapply (cs_bind eq); [apply srel_pick_eq|]. intros a ? <-. apply H. Qed.
End crel.

Definition shape (looks : bool) (o : obs) : obs :=
  match o with
  | OMem a => OMem (kind_of a)
  | OPick _ => OPick 0
  | OCut v a b => if bool_decide (v = "whole_matrix"%string) then OCut v 0 b else OCut v a b
  | OGet v i => if looks then hide_look o else o
  | _ => o
  end.
Section shape.
Context (looks : bool).
Lemma crel_lift {A B} (P : A -> B -> Prop) x y : kshape P x y -> crel (shape looks) P (slift x) (slift y).
Proof.
  destruct x as [[a| |] l], y as [[b| |] l']; unfold kshape, crel; cbn; try done. intros [HP Hl]. split; [done|].
  rewrite <- !list_fmap_compose. change (shape looks ∘ OMem) with (OMem ∘ kind_of). by rewrite !(list_fmap_compose kind_of OMem), Hl.
Qed.
Lemma crel_pick r r' : crel (shape looks) (fun _ _ => True) (spick r) (spick r').
Proof. done. Qed.
Lemma cc_step {C D} (Q : C -> D -> Prop) v v' i i' f h : leq v v' ->
  (forall a b, crel (shape looks) Q (f a) (h b)) -> crel (shape looks) Q (sbind (ssplit "whole_matrix" v i) f) (sbind (ssplit "whole_matrix" v' i') h).
Proof.
  intros He H. eapply (crel_bind _ (fun _ _ => True)); [|auto]. unfold crel, ssplit, vlen, sdo. rewrite He. cbn.
  by destruct (split_right v i), (split_right v' i').
Qed.
Lemma crel_look v v' i i' : crel (shape true) (fun _ _ => True) (sget "state" v i) (sget "state" v' i').
Proof. unfold crel, sget, sdo. cbn. by destruct (vget v i), (vget v' i'). Qed.
End shape.

(** ** lyra2.rs *)
Ltac cstep := cbv beta; lazymatch goal with
  | |- crel _ _ (sbind (squiet ?e) _) (sbind (squiet ?e) _) => apply cq_step; intros ?
  | |- crel _ _ (sbind (squiet _) _) (sbind (squiet _) _) => apply ca_step; intros ? ?
  | |- crel _ _ (sbind (sret _) _) (sbind (sret _) _) => apply cr_step
  | |- crel _ _ (sbind (slift (kwr _ _ _)) _) _ => apply cw_step; [done|intros ? ? ?]
  | |- crel _ _ (sbind (slift (krd _ _)) _) _ => apply crd_step; [done|intros ? ?]
  | |- crel _ _ (sbind (spick ?r) _) (sbind (spick ?r) _) => apply cpe_step; intros ?
  | |- crel _ _ (sret _) (sret _) => apply crel_ret; cbn; auto
  end.
(** The public variables agree; the row picked need not. *)
Definition ceq9 (a b : Z * Z * Z * list Z * list Z) : Prop := a.1.1.1 = b.1.1.1 /\ leq a.1.2 b.1.2 /\ leq a.2 b.2.
Definition ceq8 (a b : Z * Z * Z * Z * list Z * list Z) : Prop :=
  a.1.1.1.1 = b.1.1.1.1 /\ a.1.1.2 = b.1.1.2 /\ leq a.1.2 b.1.2 /\ leq a.2 b.2.
Lemma shape_body9 p R C step rl s s' : ceq9 s s' ->
  crel (shape false) (sum_rel ceq9 ceq9) (SrcLyra2Seen.lyra2_body9_seen p R C step rl s) (SrcLyra2Seen.lyra2_body9_seen p R C step rl s').
Proof.
  destruct s as [[[v ra] m] s], s' as [[[v' ra'] m'] s']. unfold ceq9 at 1. cbn [fst snd]. intros (<- & Hm & Hs).
  destruct v as [row prev]. unfold SrcLyra2Seen.lyra2_body9_seen. cstep.
  eapply crel_bind; [by apply crel_pick|]. intros ra1 ra2 _.
  eapply crel_bind; [apply (crel_for _ leq2); [|done]; intros; apply crel_lift; by apply kshape_body10|].
  intros [m1 s1] [m2 s2] [Hm1 Hs1]. cbn [fst snd] in *. do 4 cstep. by apply crel_if; apply crel_ret.
Qed.
Lemma shape_body8 p R C rl tau s s' : ceq8 s s' ->
  crel (shape false) ceq8 (SrcLyra2Seen.lyra2_body8_seen p R C rl tau s) (SrcLyra2Seen.lyra2_body8_seen p R C rl tau s').
Proof.
  destruct s as [[[[v ra] st] m] s], s' as [[[[v' ra'] st'] m'] s']. unfold ceq8 at 1. cbn [fst snd]. intros (<- & <- & Hm & Hs).
  destruct v as [row prev]. unfold SrcLyra2Seen.lyra2_body8_seen. cstep.
  eapply (crel_bind _ eq); [apply crel_if; [cstep|]; by apply crel_ret|]. intros st1 ? <-.
  eapply crel_bind; [apply (crel_loop _ ceq9 ceq9); [intros; by apply shape_body9|done]|].
  intros [[[[row1 prev1] rowa1] m1] s1] [[[[row2 prev2] rowa2] m2] s2]. unfold ceq9. cbn [fst snd]. intros ([= <- <-] & ? & ?).
  by apply crel_ret.
Qed.
#[local] Opaque SrcLyra2Seen.squeeze_seen SrcLyra2Seen.lyra2_body1_seen SrcLyra2Seen.lyra2_body2_seen SrcLyra2Seen.lyra2_body3_seen
  SrcLyra2Log.lyra2_body4_log SrcLyra2Log.lyra2_body5_log SrcLyra2Seen.lyra2_body6_seen SrcLyra2Seen.lyra2_body8_seen.
Lemma shape_upto p k pwd pwd' salt salt' t R C : leq pwd pwd' -> leq salt salt' ->
  crel (shape false) leq (lyra2_upto stop_seen p k pwd salt t R C) (lyra2_upto stop_seen p k pwd' salt' t R C).
Proof.
  intros Hp Hs. unfold lyra2_upto.
  assert (Ep : vlen pwd' = vlen pwd) by (unfold vlen; by rewrite Hp).
  assert (Es : vlen salt' = vlen salt) by (unfold vlen; by rewrite Hs).
  rewrite Ep, Es.
  eapply (cs_bind _ eq); [apply srel_if; [sstep; by apply srel_ret|by apply srel_ret]|intros _ _ _].
  eapply (cs_bind _ eq); [apply srel_if; [sstep; by apply srel_ret|by apply srel_ret]|intros _ _ _].
  do 10 cstep.
  eapply (cs_bind _ leq); [apply srel_do; by apply osim_leq|intros m1 m2 Hm].
  eapply (cs_bind _ leq); [apply srel_do; by apply osim_resize|].
  clear m1 m2 Hm. intros m1 m2 Hm. do 4 cstep.
  eapply cs_bind; [apply (srel_for _ leq); [|exact Hm]; intros; by apply two_body1|clear m1 m2 Hm; intros m1 m2 Hm]. cstep.
  eapply cs_bind; [apply (srel_for _ leq); [|exact Hm]; intros; by apply two_body2|clear m1 m2 Hm; intros m1 m2 Hm].
  do 21 cstep.
  eapply cs_bind; [apply (srel_for _ leqz); [|by split]; intros; by apply two_body3|].
  intros [s1 w1] [s2 w2] [Hst E]. cbn [fst snd] in *. subst w2. do 2 cstep.
  eapply cs_bind; [apply (srel_for _ (fun a b => leq2 a.1 b.1 /\ a.2 = b.2)); [|by repeat split]|].
  { intros i [[??]?] [[??]?] _ [[??] E]. cbn [fst snd] in *. subst. apply srel_lift. by apply ksim_body4. }
  intros [[m3 s3] q3] [[m4 s4] q4] [[Hm3 Hs3] E]. cbn [fst snd] in *. subst q4.
  eapply cs_bind; [apply (srel_for _ leq2); [|done]; intros; apply srel_lift; by apply ksim_body5|].
  intros [m5 s5] [m6 s6] [Hm5 Hs5]. cbn [fst snd] in *. cstep.
  eapply cs_bind; [apply (srel_for _ leq6); [|done]; intros; by apply two_body6|].
  intros [[v7 m7] s7] [[v8 m8] s8]. unfold leq6. cbn [fst snd]. intros (<- & Hm7 & Hs7).
  destruct v7 as [[[[[row prev] rowa] step] window] gap]. cstep.
  eapply crel_bind; [apply (crel_for _ ceq8); [|done]; intros; by apply shape_body8|].
  intros [[[[[row9 prev9] rowa9] step9] m9] s9] [[[[[row10 prev10] rowa10] step10] m10] s10].
  unfold ceq8. cbn [fst snd]. intros ([= <- <-] & <- & Hm9 & Hs9). cstep.
  apply cc_step; [done|]. intros w w'. cbv zeta.
  eapply crel_bind; [apply crel_lift; by apply kshape_absorb|]. intros. by apply crel_ret.
Qed.
Lemma shape_lyra2 p k pwd pwd' salt salt' t R C : leq pwd pwd' -> leq salt salt' ->
  crel (shape false) leq (SrcLyra2Seen.lyra2_seen p k pwd salt t R C) (SrcLyra2Seen.lyra2_seen p k pwd' salt' t R C).
Proof.
  intros Hp Hs. rewrite <- lyra2_upto_squeeze, !(lyra2_upto_split SrcLyra2Seen.squeeze_seen).
  eapply crel_bind; [by apply shape_upto|]. intros. apply crel_of. by apply two_squeeze.
Qed.

(** ** lyra2mod/mod.rs *)
Definition ceq9m (a b : Z * Z * Z * list Z * list Z * Z) : Prop := ceq9 a.1 b.1.
Lemma shape_mod_body9 p R C step rl s s' : ceq9m s s' ->
  crel (shape true) (sum_rel ceq9m ceq9m) (SrcLyra2modSeen.lyra2mod_body9_seen p R C step rl s) (SrcLyra2modSeen.lyra2mod_body9_seen p R C step rl s').
Proof.
  destruct s as [[[[v ra] m] s] ix], s' as [[[[v' ra'] m'] s'] ix']. unfold ceq9m at 1, ceq9. cbn [fst snd]. intros (<- & Hm & Hs).
  destruct v as [row prev]. unfold SrcLyra2modSeen.lyra2mod_body9_seen. rewrite modl_body10.
  eapply crel_bind; [apply crel_look|]. intros i1 i2 _.
  eapply crel_bind; [apply crel_look|]. intros t1 t2 _. cstep.
  eapply crel_bind; [by apply crel_pick|]. intros ra1 ra2 _.
  eapply crel_bind; [apply (crel_for _ leq2); [|done]; intros; apply crel_lift; by apply kshape_body10|].
  intros [m1 s1] [m2 s2] [Hm1 Hs1]. cbn [fst snd] in *. do 4 cstep. by apply crel_if; apply crel_ret.
Qed.
Definition ceq8m (a b : Z * Z * Z * Z * list Z * list Z * Z) : Prop := ceq8 a.1 b.1.
Lemma shape_mod_body8 p R C rl tau s s' : ceq8m s s' ->
  crel (shape true) ceq8m (SrcLyra2modSeen.lyra2mod_body8_seen p R C rl tau s) (SrcLyra2modSeen.lyra2mod_body8_seen p R C rl tau s').
Proof.
  destruct s as [[[[[v ra] st] m] s] ix], s' as [[[[[v' ra'] st'] m'] s'] ix']. unfold ceq8m at 1, ceq8. cbn [fst snd].
  intros (<- & <- & Hm & Hs). destruct v as [row prev]. unfold SrcLyra2modSeen.lyra2mod_body8_seen. cstep.
  eapply (crel_bind _ eq); [apply crel_if; [cstep|]; by apply crel_ret|]. intros st1 ? <-.
  eapply crel_bind; [apply (crel_loop _ ceq9m ceq9m); [intros; by apply shape_mod_body9|done]|].
  intros [[[[[row1 prev1] rowa1] m1] s1] ix1] [[[[[row2 prev2] rowa2] m2] s2] ix2]. unfold ceq9m, ceq9. cbn [fst snd].
  intros ([= <- <-] & ? & ?). by apply crel_ret.
Qed.
#[local] Opaque SrcLyra2modSeen.squeeze_seen SrcLyra2modSeen.lyra2mod_body1_seen SrcLyra2modSeen.lyra2mod_body2_seen
  SrcLyra2modSeen.lyra2mod_body3_seen SrcLyra2modSeen.lyra2mod_body6_seen SrcLyra2modSeen.lyra2mod_body8_seen
  SrcLyra2modLog.lyra2mod_body4_log SrcLyra2modLog.lyra2mod_body5_log.
Lemma shape_mod_upto p k pwd pwd' salt salt' t R C : leq pwd pwd' -> leq salt salt' ->
  crel (shape true) leq (lyra2mod_upto stop_seen p k pwd salt t R C) (lyra2mod_upto stop_seen p k pwd' salt' t R C).
Proof.
  intros Hp Hs. unfold lyra2mod_upto.
  rewrite mods_body1, mods_body2, mods_body3, modl_body4, modl_body5, mods_body6, modl_absorb.
  assert (Ep : vlen pwd' = vlen pwd) by (unfold vlen; by rewrite Hp).
  assert (Es : vlen salt' = vlen salt) by (unfold vlen; by rewrite Hs).
  rewrite Ep, Es.
  eapply (cs_bind _ eq); [apply srel_if; [sstep; by apply srel_ret|by apply srel_ret]|intros _ _ _].
  eapply (cs_bind _ eq); [apply srel_if; [sstep; by apply srel_ret|by apply srel_ret]|intros _ _ _].
  do 10 cstep.
  eapply (cs_bind _ leq); [apply srel_do; by apply osim_leq|intros m1 m2 Hm].
  eapply (cs_bind _ leq); [apply srel_do; by apply osim_resize|].
  clear m1 m2 Hm. intros m1 m2 Hm. do 4 cstep.
  eapply cs_bind; [apply (srel_for _ leq); [|exact Hm]; intros; by apply two_body1|clear m1 m2 Hm; intros m1 m2 Hm]. cstep.
  eapply cs_bind; [apply (srel_for _ leq); [|exact Hm]; intros; by apply two_body2|clear m1 m2 Hm; intros m1 m2 Hm].
  do 21 cstep.
  eapply cs_bind; [apply (srel_for _ leqz); [|by split]; intros; by apply two_body3|].
  intros [s1 w1] [s2 w2] [Hst E]. cbn [fst snd] in *. subst w2. do 2 cstep.
  eapply cs_bind; [apply (srel_for _ (fun a b => leq2 a.1 b.1 /\ a.2 = b.2)); [|by repeat split]|].
  { intros i [[??]?] [[??]?] _ [[??] E]. cbn [fst snd] in *. subst. apply srel_lift. by apply ksim_body4. }
  intros [[m3 s3] q3] [[m4 s4] q4] [[Hm3 Hs3] E]. cbn [fst snd] in *. subst q4.
  eapply cs_bind; [apply (srel_for _ leq2); [|done]; intros; apply srel_lift; by apply ksim_body5|].
  intros [m5 s5] [m6 s6] [Hm5 Hs5]. cbn [fst snd] in *. cstep.
  eapply cs_bind; [apply (srel_for _ leq6); [|done]; intros; by apply two_body6|].
  intros [[v7 m7] s7] [[v8 m8] s8]. unfold leq6. cbn [fst snd]. intros (<- & Hm7 & Hs7).
  destruct v7 as [[[[[row prev] rowa] step] window] gap]. do 2 cstep.
  eapply crel_bind; [apply (crel_for _ ceq8m); [|done]; intros; by apply shape_mod_body8|].
  intros [[[[[[row9 prev9] rowa9] step9] m9] s9] ix9] [[[[[[row10 prev10] rowa10] step10] m10] s10] ix10].
  unfold ceq8m, ceq8. cbn [fst snd]. intros ([= <- <-] & <- & Hm9 & Hs9). cstep.
  apply cc_step; [done|]. intros w w'. cbv zeta.
  eapply crel_bind; [apply crel_lift; by apply kshape_absorb|]. intros. by apply crel_ret.
Qed.
Lemma shape_lyra2mod p k pwd pwd' salt salt' t R C : leq pwd pwd' -> leq salt salt' ->
  crel (shape true) leq (SrcLyra2modSeen.lyra2mod_seen p k pwd salt t R C) (SrcLyra2modSeen.lyra2mod_seen p k pwd' salt' t R C).
Proof.
  intros Hp Hs. rewrite <- lyra2mod_upto_squeeze, !(lyra2mod_upto_split SrcLyra2modSeen.squeeze_seen), mods_squeeze.
  eapply crel_bind; [by apply shape_mod_upto|]. intros. apply crel_of. by apply two_squeeze.
Qed.
