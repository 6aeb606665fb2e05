(** * Observations of the translated lyra2.rs and lyra2mod/mod.rs *)
From Verif Require Import Machine MachineFacts MUtils MLyra2 SrcOps SrcFacts SrcLoops SrcTop MAccess AccessFacts Kept MKept KeptFacts
  SrcLogFacts SrcLogTop Seen SpecSeen SeenFacts.
From Verif Require SrcUtils SrcLyra2 SrcLyra2mod SrcLyra2Log SrcLyra2modLog SrcLyra2Seen SrcLyra2modSeen.
#[local] Open Scope Z_scope.
#[local] Opaque MLyra2.round_lyra MLyra2.reduced_blake2b_lyra MLyra2.blake2b_lyra
  SrcLyra2.round_lyra SrcLyra2.reduced_blake2b_lyra SrcLyra2.blake2b_lyra.

(** ** Parts without branches *)
Definition leq (a b : list Z) : Prop := length a = length b.
Lemma osim_leq (x : outcome (list Z)) : osim leq x x.
Proof. apply osim_refl. intros. reflexivity. Qed.
Lemma osim_resize p e v v' n x : leq v v' -> osim leq (vec_resize p e v n x) (vec_resize p e v' n x).
Proof.
  unfold leq, vec_resize, vlen. intros E. rewrite E. destruct (_ <=? _); [|destruct (_ <=? _); [|done]]; unfold osim.
  - by rewrite !take_length, E.
  - by rewrite !app_length, E.
Qed.
Lemma osim_get v v' i : leq v v' -> osim (fun _ _ => True) (vget v i) (vget v' i).
Proof. unfold leq, vget, vlen. intros ->. by destruct (_ && _). Qed.
Lemma osim_set v v' i x x' : leq v v' -> osim leq (vset v i x) (vset v' i x').
Proof. unfold leq, vset, vlen. intros E. rewrite E. destruct (_ && _); [|done]. cbn. by rewrite !insert_length. Qed.
Lemma osim_slice v v' a b : leq v v' -> osim leq (slice v a b) (slice v' a b).
Proof.
  unfold leq, slice, vlen. intros E. rewrite E. destruct (_ && _); [|done]. cbn.
  by rewrite !take_length, !drop_length, E.
Qed.
Lemma osim_slice_set v v' b s s' : leq v v' -> leq s s' -> osim leq (slice_set v b s) (slice_set v' b s').
Proof.
  unfold leq, slice_set, vlen. intros E E'. rewrite E, E'. destruct (_ && _ && _); [|done]. cbn.
  by rewrite !app_length, !drop_length, E, E'.
Qed.
Lemma osim_split v v' a : leq v v' -> osim leq (split_right v a) (split_right v' a).
Proof.
  unfold leq, split_right, vlen. intros E. rewrite E. destruct (_ && _); [|done]. cbn. by rewrite !drop_length, E.
Qed.
Lemma osim_extend p v v' b b' : leq v v' -> leq b b' -> osim leq (vec_extend p v b) (vec_extend p v' b').
Proof.
  unfold leq, vec_extend, vlen. intros E E'. rewrite E, E'. destruct (_ <=? _); [|done]. cbn. by rewrite !app_length, E, E'.
Qed.
Lemma osim_read_u64 p b b' : leq b b' -> osim (fun _ _ => True) (SrcUtils.read_u64_le p b) (SrcUtils.read_u64_le p b').
Proof.
  intros H. unfold SrcUtils.read_u64_le. repeat (eapply osim_bind; [by apply osim_get|intros ? ? _ _ _]). done.
Qed.
Lemma osim_read_u32 p b b' : leq b b' -> osim (fun _ _ => True) (SrcUtils.read_u32_le p b) (SrcUtils.read_u32_le p b').
Proof.
  intros H. unfold SrcUtils.read_u32_le. repeat (eapply osim_bind; [by apply osim_get|intros ? ? _ _ _]). done.
Qed.
Lemma ksim_done {A B} (P : A -> B -> Prop) x y e : osim P x y -> ksim P (kdone x e) (kdone y e).
Proof. intros H. split; [done|]. destruct x, y; done. Qed.
Lemma ksim_quiet {A B} (P : A -> B -> Prop) x y : osim P x y -> ksim P (kquiet x) (kquiet y).
Proof. by split. Qed.
Lemma ksim_rd m m' a : leq m m' -> ksim (fun _ _ => True) (krd m a) (krd m' a).
Proof. intros. apply ksim_done. by apply osim_get. Qed.
Lemma ksim_wr m m' a x x' : leq m m' -> ksim leq (kwr m a x) (kwr m' a x').
Proof. intros. apply ksim_done. by apply osim_set. Qed.
Lemma ksim_rd_right b m m' a : leq m m' -> ksim (fun _ _ => True) (krd_right b m a) (krd_right b m' a).
Proof. intros. apply ksim_done. by apply osim_get. Qed.
Lemma ksim_perm v v' : leq v v' -> ksim leq (kperm v) (kperm v').
Proof. intros. apply ksim_done. cbn. unfold leq. by rewrite !round_length. Qed.
Lemma ksim_fold {A S S'} (R : S -> S' -> Prop) (f : S -> A -> kept S) (f' : S' -> A -> kept S') l s s' :
  (forall s s' a, R s s' -> ksim R (f s a) (f' s' a)) -> R s s' -> ksim R (kfold f l s) (kfold f' l s').
Proof.
  intros H. revert s s'. induction l as [|a l IH]; intros s s' Hs; cbn [kfold]; [by apply ksim_ret|].
  eapply ksim_bind; [by apply H|]. intros. by apply IH.
Qed.
Lemma leq_insert i x x' v v' : leq v v' -> leq (<[i := x]> v) (<[i := x']> v').
Proof. unfold leq. by rewrite !insert_length. Qed.
#[local] Hint Resolve leq_insert : core.
Ltac kstep := cbv beta; lazymatch goal with
  | |- ksim _ (kbind (kquiet ?e) _) (kbind (kquiet ?e) _) => apply ksim_bind_eq; intros ? ? _
  | |- ksim _ (kbind (krd _ _) _) (kbind (krd _ _) _) => eapply ksim_bind; [by apply ksim_rd|intros ? ? ? _ _ _]
  | |- ksim _ (kbind (krd_right _ _ _) _) (kbind (krd_right _ _ _) _) => eapply ksim_bind; [by apply ksim_rd_right|intros ? ? ? _ _ _]
  | |- ksim _ (kbind (kwr _ _ _) _) (kbind (kwr _ _ _) _) => eapply ksim_bind; [by apply ksim_wr|intros ? ? ? _ _ ?]
  | |- ksim _ (kwr _ _ _) (kwr _ _ _) => by apply ksim_wr
  | |- ksim _ (kbind (kperm _) _) (kbind (kperm _) _) => eapply ksim_bind; [by apply ksim_perm|intros ? ? ? _ _ ?]
  | |- ksim _ (kbind (kquiet (Ok _)) _) (kbind (kquiet (Ok _)) _) => rewrite !kquiet_Ok
  | |- ksim _ (kret _) (kret _) => apply ksim_ret; cbn; auto
  end.
Lemma ksim_blake v v' : leq v v' -> ksim leq (blake2b_lyra_kept v) (blake2b_lyra_kept v').
Proof. intros H. unfold blake2b_lyra_kept. repeat kstep. Qed.
#[local] Opaque blake2b_lyra_kept kperm.
Lemma ksim_xor_in b w w' s s' j : leq w w' -> leq s s' -> ksim leq (xor_in_kept b w s j) (xor_in_kept b w' s' j).
Proof. intros. unfold xor_in_kept. repeat kstep. Qed.
Lemma ksim_absorb p s s' b w w' : leq w w' -> leq s s' ->
  ksim leq (SrcLyra2Log.absorb_block_log p s b w) (SrcLyra2Log.absorb_block_log p s' b w').
Proof.
  intros Hw Hs. rewrite !log_absorb. unfold absorb_block_kept.
  eapply ksim_bind; [apply ksim_fold; [|exact Hs]; intros; by apply ksim_xor_in|]. intros. by apply ksim_blake.
Qed.
Lemma ksim_absorb_safe p s s' b w w' : leq w w' -> leq s s' ->
  ksim leq (SrcLyra2Log.absorb_block_blake2_safe_log p s b w) (SrcLyra2Log.absorb_block_blake2_safe_log p s' b w').
Proof.
  intros Hw Hs. rewrite !log_absorb_safe. unfold absorb_block_blake2_safe_kept.
  eapply ksim_bind; [apply ksim_fold; [|exact Hs]; intros; by apply ksim_xor_in|]. intros. by apply ksim_blake.
Qed.
Definition leq2 (a b : list Z * list Z) : Prop := leq a.1 b.1 /\ leq a.2 b.2.
Ltac kfoldstep := eapply ksim_bind; [apply (ksim_fold leq); [|eassumption]; intros; repeat kstep|intros ? ? ? _ _ ?; cbv beta].
Lemma ksim_body10 p row prev rowa rl i s s' : leq2 s s' ->
  ksim leq2 (SrcLyra2Log.lyra2_body10_log p row prev rowa rl i s) (SrcLyra2Log.lyra2_body10_log p row prev rowa rl i s').
Proof.
  destruct s as [m s], s' as [m' s']. intros [Hm Hs]. cbn [fst snd] in *. rewrite !log_body10.
  unfold absorb_sum_kept, reduced_kept, xor_rotW_kept. kfoldstep. kstep. kfoldstep.
  eapply ksim_bind; [apply (ksim_fold leq); [|eassumption]; intros ? ? [??] ?; repeat kstep|intros ? ? ? _ _ ?; cbv beta].
  by apply ksim_ret.
Qed.
Lemma ksim_body7 p C row prev rowa rl i s s' : leq2 s s' ->
  ksim leq2 (SrcLyra2Log.lyra2_body7_log p C row prev rowa rl i s) (SrcLyra2Log.lyra2_body7_log p C row prev rowa rl i s').
Proof.
  destruct s as [m s], s' as [m' s']. intros [Hm Hs]. cbn [fst snd] in *. rewrite !log_body7.
  unfold absorb_sum_kept, reduced_kept, xor_rotW_kept. kfoldstep. kstep. kfoldstep.
  eapply ksim_bind; [apply (ksim_fold leq); [|eassumption]; intros ? ? [??] ?; repeat kstep|intros ? ? ? _ _ ?; cbv beta].
  by apply ksim_ret.
Qed.
Lemma ksim_body5 p C rl i s s' : leq2 s s' ->
  ksim leq2 (SrcLyra2Log.lyra2_body5_log p C rl i s) (SrcLyra2Log.lyra2_body5_log p C rl i s').
Proof.
  destruct s as [m s], s' as [m' s']. intros [Hm Hs]. cbn [fst snd] in *. rewrite !log_body5.
  unfold reduced_kept. kfoldstep. kstep. kfoldstep. by apply ksim_ret.
Qed.
Lemma ksim_body4 p i m m' s s' ptr : leq m m' -> leq s s' ->
  ksim (fun a b => leq2 a.1 b.1 /\ a.2 = b.2) (SrcLyra2Log.lyra2_body4_log p i (m, s, ptr)) (SrcLyra2Log.lyra2_body4_log p i (m', s', ptr)).
Proof.
  intros Hm Hs. unfold SrcLyra2Log.lyra2_body4_log. rewrite !log_reduced. unfold reduced_kept. repeat kstep. by repeat split.
Qed.

(** ** Two runs *)
Section two.
Context (ch : obs -> obs -> Prop) (p : platform).
Lemma sq_step {A C D} (Q : C -> D -> Prop) (e : outcome A) f h :
  (forall a, srel ch Q (f a) (h a)) -> srel ch Q (sbind (squiet e) f) (sbind (squiet e) h).
Proof. intros H. eapply (srel_bind _ eq); [apply srel_do; by apply osim_refl|]. intros a ? <-. apply H. Qed.
Lemma sq_step' {A B C D} (P : A -> B -> Prop) (Q : C -> D -> Prop) (e : outcome A) (e' : outcome B) f h :
  osim P e e' -> (forall a b, P a b -> srel ch Q (f a) (h b)) -> srel ch Q (sbind (squiet e) f) (sbind (squiet e') h).
Proof. intros He H. eapply (srel_bind _ P); [by apply srel_do|]. done. Qed.
Lemma sr_step {A B C D} (Q : C -> D -> Prop) (a : A) (b : B) f h :
  srel ch Q (f a) (h b) -> srel ch Q (sbind (sret a) f) (sbind (sret b) h).
Proof. by rewrite !sret_l. Qed.
Lemma sz_step {A B C D} (P : A -> B -> Prop) (Q : C -> D -> Prop) n (e : outcome A) (e' : outcome B) f h :
  osim P e e' -> (forall a b, P a b -> srel ch Q (f a) (h b)) -> srel ch Q (sbind (ssize n e) f) (sbind (ssize n e') h).
Proof. intros He H. eapply (srel_bind _ P); [by apply srel_do|]. done. Qed.
Lemma sg_step {C D} (Q : C -> D -> Prop) n v v' i f h : leq v v' ->
  (forall a b, srel ch Q (f a) (h b)) -> srel ch Q (sbind (sget n v i) f) (sbind (sget n v' i) h).
Proof. intros He H. eapply (srel_bind _ (fun _ _ => True)); [apply srel_do; by apply osim_get|]. auto. Qed.
Lemma sp_step {C D} (Q : C -> D -> Prop) n v v' i x x' f h : leq v v' ->
  (forall a b, leq a b -> srel ch Q (f a) (h b)) -> srel ch Q (sbind (sput n v i x) f) (sbind (sput n v' i x') h).
Proof. intros He H. eapply (srel_bind _ leq); [apply srel_do; by apply osim_set|]. auto. Qed.
Lemma ss_step {C D} (Q : C -> D -> Prop) n v v' i j f h : leq v v' ->
  (forall a b, leq a b -> srel ch Q (f a) (h b)) -> srel ch Q (sbind (sslice n v i j) f) (sbind (sslice n v' i j) h).
Proof. intros He H. eapply (srel_bind _ leq); [apply srel_do; by apply osim_slice|]. auto. Qed.
Lemma sss_step {C D} (Q : C -> D -> Prop) n v v' i s s' f h : leq v v' -> leq s s' ->
  (forall a b, leq a b -> srel ch Q (f a) (h b)) -> srel ch Q (sbind (sslice_set n v i s) f) (sbind (sslice_set n v' i s') h).
Proof. intros He Hs H. eapply (srel_bind _ leq); [apply srel_do; by apply osim_slice_set|]. auto. Qed.
Lemma sc_step {C D} (Q : C -> D -> Prop) n v v' i f h : leq v v' ->
  (forall a b, leq a b -> srel ch Q (f a) (h b)) -> srel ch Q (sbind (ssplit n v i) f) (sbind (ssplit n v' i) h).
Proof.
  intros He H. eapply (srel_bind _ leq); [|by auto]. unfold ssplit, vlen. rewrite He. apply srel_do. by apply osim_split.
Qed.
Lemma sw_step {C D} (Q : C -> D -> Prop) v v' i x x' f h : leq v v' ->
  (forall a b, leq a b -> srel ch Q (f a) (h b)) -> srel ch Q (sbind (slift (kwr v i x)) f) (sbind (slift (kwr v' i x')) h).
Proof. intros He H. eapply (srel_bind _ leq); [apply srel_lift; by apply ksim_wr|]. auto. Qed.
Lemma srd_step {C D} (Q : C -> D -> Prop) v v' i f h : leq v v' ->
  (forall a b, srel ch Q (f a) (h b)) -> srel ch Q (sbind (slift (krd v i)) f) (sbind (slift (krd v' i)) h).
Proof. intros He H. eapply (srel_bind _ (fun _ _ => True)); [apply srel_lift; by apply ksim_rd|]. auto. Qed.
Lemma sk_step {A B C D} (P : A -> B -> Prop) (Q : C -> D -> Prop) x y f h : ksim P x y ->
  (forall a b, P a b -> srel ch Q (f a) (h b)) -> srel ch Q (sbind (slift x) f) (sbind (slift y) h).
Proof. intros He H. eapply srel_bind; [by apply srel_lift|]. auto. Qed.
Lemma spe_step {C D} (Q : C -> D -> Prop) r f h :
  (forall r, srel ch Q (f r) (h r)) -> srel ch Q (sbind (spick r) f) (sbind (spick r) h).
Proof. intros H. eapply (srel_bind _ eq); [apply srel_pick_eq|]. intros a ? <-. apply H. Qed.

Lemma se_step {C D} (Q : C -> D -> Prop) v v' b b' f h : leq v v' -> leq b b' ->
  (forall a b, leq a b -> srel ch Q (f a) (h b)) ->
  srel ch Q (sbind (ssize (vlen b) (vec_extend p v b)) f) (sbind (ssize (vlen b') (vec_extend p v' b')) h).
Proof.
  intros Hv Hb H. assert (E : vlen b' = vlen b) by (unfold vlen; by rewrite Hb). rewrite E.
  eapply sz_step; [by apply osim_extend|]. done.
Qed.
Ltac sstep := cbv beta; lazymatch goal with
  | |- srel _ _ (sbind (squiet ?e) _) (sbind (squiet ?e) _) => apply sq_step; intros ?
  | |- srel _ _ (sbind (sret _) _) (sbind (sret _) _) => apply sr_step
  | |- srel _ _ (sbind (squiet (SrcUtils.read_u64_le _ _)) _) _ => eapply sq_step'; [by apply osim_read_u64|intros ? ? _]
  | |- srel _ _ (sbind (sget _ _ _) _) _ => apply sg_step; [done|intros ? ?]
  | |- srel _ _ (sbind (sput _ _ _ _) _) _ => apply sp_step; [done|intros ? ? ?]
  | |- srel _ _ (sbind (sslice _ _ _ _) _) _ => apply ss_step; [done|intros ? ? ?]
  | |- srel _ _ (sbind (sslice_set _ _ _ _) _) _ => apply sss_step; [done|done|intros ? ? ?]
  | |- srel _ _ (sbind (ssplit _ _ _) _) _ => apply sc_step; [done|intros ? ? ?]
  | |- srel _ _ (sbind (slift (kwr _ _ _)) _) _ => apply sw_step; [done|intros ? ? ?]
  | |- srel _ _ (sbind (slift (krd _ _)) _) _ => apply srd_step; [done|intros ? ?]
  | |- srel _ _ (sbind (spick ?r) _) (sbind (spick ?r) _) => apply spe_step; intros ?
  | |- srel _ _ (sret _) (sret _) => apply srel_ret; cbn; auto
  end.
Lemma leq_bytes n a b : leq (to_le_bytes n a) (to_le_bytes n b).
Proof. unfold leq. revert a b. induction n as [|n IH]; intros a b; [done|]. cbn [to_le_bytes length]. by rewrite (IH _ (Z.shiftr b 8)). Qed.
Lemma two_squeeze_body2 s s' i t t' : leq s s' -> leq t t' ->
  srel ch leq (SrcLyra2Seen.squeeze_body2_seen p s i t) (SrcLyra2Seen.squeeze_body2_seen p s' i t').
Proof.
  intros Hs Ht. unfold SrcLyra2Seen.squeeze_body2_seen. sstep.
  apply se_step; [done|apply leq_bytes|]. intros. by apply srel_ret.
Qed.
Definition leq3 (a b : list Z * list Z * list Z) : Prop := leq2 a.1 b.1 /\ leq a.2 b.2.
Lemma two_squeeze_body1 k j s s' : leq3 s s' ->
  srel ch leq3 (SrcLyra2Seen.squeeze_body1_seen p k j s) (SrcLyra2Seen.squeeze_body1_seen p k j s').
Proof.
  destruct s as [[s t] o], s' as [[s' t'] o']. intros [[Hs Ht] Ho]. cbn [fst snd] in *. unfold SrcLyra2Seen.squeeze_body1_seen.
  eapply srel_bind; [apply (srel_for _ leq); [|exact Ht]; intros; by apply two_squeeze_body2|]. intros. sstep. sstep.
  eapply sk_step; [rewrite !log_blake2b; by apply ksim_blake|]. intros. apply srel_ret. by repeat split.
Qed.
Lemma two_squeeze s s' k : leq s s' -> srel ch leq (SrcLyra2Seen.squeeze_seen p s k) (SrcLyra2Seen.squeeze_seen p s' k).
Proof.
  intros Hs. unfold SrcLyra2Seen.squeeze_seen. sstep. eapply (sz_step _ leq); [by apply osim_leq|]. intros o o' Ho. sstep. sstep.
  eapply srel_bind; [apply (srel_for _ leq3); [|by repeat split]; intros; by apply two_squeeze_body1|].
  intros [[s1 t1] o1] [[s2 t2] o2] [_ H]. by apply srel_ret.
Qed.
Lemma two_body1 d d' at_ j m m' : leq d d' -> leq m m' ->
  srel ch leq (SrcLyra2Seen.lyra2_body1_seen p d at_ j m) (SrcLyra2Seen.lyra2_body1_seen p d' at_ j m').
Proof. intros Hd Hm. unfold SrcLyra2Seen.lyra2_body1_seen. repeat sstep. Qed.
Lemma two_body2 d d' at_ j m m' : leq d d' -> leq m m' ->
  srel ch leq (SrcLyra2Seen.lyra2_body2_seen p d at_ j m) (SrcLyra2Seen.lyra2_body2_seen p d' at_ j m').
Proof. intros Hd Hm. unfold SrcLyra2Seen.lyra2_body2_seen. repeat sstep. Qed.
Definition leqz (a b : list Z * Z) : Prop := leq a.1 b.1 /\ a.2 = b.2.
Lemma two_body3 m m' i s s' : leq m m' -> leqz s s' ->
  srel ch leqz (SrcLyra2Seen.lyra2_body3_seen p m i s) (SrcLyra2Seen.lyra2_body3_seen p m' i s').
Proof.
  destruct s as [s w], s' as [s' w']. intros Hm [Hs E]. cbn [fst snd] in *. subst w'. unfold SrcLyra2Seen.lyra2_body3_seen.
  sstep. eapply sk_step; [by apply ksim_absorb_safe|]. intros. sstep. by apply srel_ret.
Qed.
Definition leq6 (a b : Z * Z * Z * Z * Z * Z * list Z * list Z) : Prop := a.1.1 = b.1.1 /\ leq a.1.2 b.1.2 /\ leq a.2 b.2.
Lemma two_body6 C rl x s s' : leq6 s s' ->
  srel ch leq6 (SrcLyra2Seen.lyra2_body6_seen p C rl x s) (SrcLyra2Seen.lyra2_body6_seen p C rl x s').
Proof.
  destruct s as [[v m] s], s' as [[v' m'] s']. unfold leq6. cbn [fst snd]. intros (<- & Hm & Hs).
  destruct v as [[[[[row prev] rowa] step] window] gap]. unfold SrcLyra2Seen.lyra2_body6_seen.
  eapply srel_bind; [apply (srel_for _ leq2); [|done]; intros; apply srel_lift; by apply ksim_body7|].
  intros [m1 s1] [m2 s2] [Hm1 Hs1]. cbn [fst snd] in *. do 5 sstep.
  eapply (srel_bind _ eq).
  - apply srel_if; [|by apply srel_ret]. do 3 sstep. by apply srel_ret.
  - intros [[??]?] ? <-. by apply srel_ret.
Qed.
End two.
Ltac sstep := cbv beta; lazymatch goal with
  | |- srel _ _ (sbind (squiet ?e) _) (sbind (squiet ?e) _) => apply sq_step; intros ?
  | |- srel _ _ (sbind (sret _) _) (sbind (sret _) _) => apply sr_step
  | |- srel _ _ (sbind (squiet (SrcUtils.read_u64_le _ _)) _) _ => eapply sq_step'; [by apply osim_read_u64|intros ? ? _]
  | |- srel _ _ (sbind (sget _ _ _) _) _ => apply sg_step; [done|intros ? ?]
  | |- srel _ _ (sbind (sput _ _ _ _) _) _ => apply sp_step; [done|intros ? ? ?]
  | |- srel _ _ (sbind (sslice _ _ _ _) _) _ => apply ss_step; [done|intros ? ? ?]
  | |- srel _ _ (sbind (sslice_set _ _ _ _) _) _ => apply sss_step; [done|done|intros ? ? ?]
  | |- srel _ _ (sbind (ssplit _ _ _) _) _ => apply sc_step; [done|intros ? ? ?]
  | |- srel _ _ (sbind (slift (kwr _ _ _)) _) _ => apply sw_step; [done|intros ? ? ?]
  | |- srel _ _ (sbind (slift (krd _ _)) _) _ => apply srd_step; [done|intros ? ?]
  | |- srel _ _ (sbind (spick ?r) _) (sbind (spick ?r) _) => apply spe_step; intros ?
  | |- srel _ _ (sret _) (sret _) => apply srel_ret; cbn; auto
  end.

(** ** The wandering phase: here the row is picked by the state *)
Definition leq9 (a b : Z * Z * Z * list Z * list Z) : Prop := a.1.1 = b.1.1 /\ leq a.1.2 b.1.2 /\ leq a.2 b.2.
Lemma srel_wander_end {A} ch (Q : A -> A -> Prop) (c : bool) x y : Q x y ->
  srel ch (sum_rel Q Q) (sif c (sret (inr x)) (sret (inl x))) (sif c (sret (inr y)) (sret (inl y))).
Proof. intros H. by apply srel_if; apply srel_ret. Qed.
Lemma two_body9 p R C step rl s s' : leq9 s s' ->
  srel both_pick (sum_rel leq9 leq9) (SrcLyra2Seen.lyra2_body9_seen p R C step rl s) (SrcLyra2Seen.lyra2_body9_seen p R C step rl s').
Proof.
  destruct s as [[v m] s], s' as [[v' m'] s']. unfold leq9 at 1. cbn [fst snd]. intros (<- & Hm & Hs).
  destruct v as [[row prev] rowa]. unfold SrcLyra2Seen.lyra2_body9_seen. sstep.
  eapply srel_bind; [by apply srel_pick|]. intros ra ? <-.
  eapply srel_bind; [apply (srel_for _ leq2); [|done]; intros; apply srel_lift; by apply ksim_body10|].
  intros [m1 s1] [m2 s2] [Hm1 Hs1]. cbn [fst snd] in *. do 4 sstep. by apply srel_wander_end.
Qed.
Definition leq8 (a b : Z * Z * Z * Z * list Z * list Z) : Prop := a.1.1 = b.1.1 /\ leq a.1.2 b.1.2 /\ leq a.2 b.2.
Lemma two_body8 p R C rl tau s s' : leq8 s s' ->
  srel both_pick leq8 (SrcLyra2Seen.lyra2_body8_seen p R C rl tau s) (SrcLyra2Seen.lyra2_body8_seen p R C rl tau s').
Proof.
  destruct s as [[v m] s], s' as [[v' m'] s']. unfold leq8 at 1. cbn [fst snd]. intros (<- & Hm & Hs).
  destruct v as [[[row prev] rowa] step]. unfold SrcLyra2Seen.lyra2_body8_seen. sstep.
  eapply (srel_bind _ eq); [apply srel_if; [sstep|]; by apply srel_ret|]. intros st ? <-.
  eapply srel_bind; [apply (srel_loop _ leq9 leq9); [intros; by apply two_body9|done]|].
  intros [[[[row1 prev1] rowa1] m1] s1] [[[[row2 prev2] rowa2] m2] s2]. unfold leq9. cbn [fst snd]. intros ([= <- <- <-] & ? & ?).
  by apply srel_ret.
Qed.
#[local] Opaque SrcLyra2Seen.squeeze_seen SrcLyra2Seen.lyra2_body1_seen SrcLyra2Seen.lyra2_body2_seen SrcLyra2Seen.lyra2_body3_seen
  SrcLyra2Log.lyra2_body4_log SrcLyra2Log.lyra2_body5_log SrcLyra2Seen.lyra2_body6_seen SrcLyra2Seen.lyra2_body8_seen.
Lemma two_lyra2 p k pwd pwd' salt salt' t R C : leq pwd pwd' -> leq salt salt' ->
  srel both_pick leq (SrcLyra2Seen.lyra2_seen p k pwd salt t R C) (SrcLyra2Seen.lyra2_seen p k pwd' salt' t R C).
Proof.
  intros Hp Hs. unfold SrcLyra2Seen.lyra2_seen.
  assert (Ep : vlen pwd' = vlen pwd) by (unfold vlen; by rewrite Hp).
  assert (Es : vlen salt' = vlen salt) by (unfold vlen; by rewrite Hs).
  rewrite Ep, Es.
  eapply (srel_bind _ eq); [apply srel_if; [sstep; by apply srel_ret|by apply srel_ret]|intros _ _ _].
  eapply (srel_bind _ eq); [apply srel_if; [sstep; by apply srel_ret|by apply srel_ret]|intros _ _ _].
  do 10 sstep.
  eapply (sz_step _ _ leq); [by apply osim_leq|intros m1 m2 Hm].
  eapply (sz_step _ _ leq).
  { by apply osim_resize. }
  clear m1 m2 Hm. intros m1 m2 Hm. do 4 sstep.
  eapply srel_bind; [apply (srel_for _ leq); [|exact Hm]; intros; by apply two_body1|clear m1 m2 Hm; intros m1 m2 Hm]. sstep.
  eapply srel_bind; [apply (srel_for _ leq); [|exact Hm]; intros; by apply two_body2|clear m1 m2 Hm; intros m1 m2 Hm]. 
  do 21 sstep.
  eapply srel_bind; [apply (srel_for _ leqz); [|by split]; intros; by apply two_body3|].
  intros [s1 w1] [s2 w2] [Hst E]. cbn [fst snd] in *. subst w2. do 2 sstep.
  eapply srel_bind; [apply (srel_for _ (fun a b => leq2 a.1 b.1 /\ a.2 = b.2)); [|by repeat split]|].
  { intros i [[??]?] [[??]?] _ [[??] E]. cbn [fst snd] in *. subst. apply srel_lift. by apply ksim_body4. }
  intros [[m3 s3] q3] [[m4 s4] q4] [[Hm3 Hs3] E]. cbn [fst snd] in *. subst q4.
  eapply srel_bind; [apply (srel_for _ leq2); [|done]; intros; apply srel_lift; by apply ksim_body5|].
  intros [m5 s5] [m6 s6] [Hm5 Hs5]. cbn [fst snd] in *. sstep.
  eapply srel_bind; [apply (srel_for _ leq6); [|done]; intros; by apply two_body6|].
  intros [[v7 m7] s7] [[v8 m8] s8]. unfold leq6. cbn [fst snd]. intros (<- & Hm7 & Hs7).
  destruct v7 as [[[[[row prev] rowa] step] window] gap]. sstep.
  eapply srel_bind; [apply (srel_for _ leq8); [|done]; intros; by apply two_body8|].
  intros [[v9 m9] s9] [[v10 m10] s10]. unfold leq8. cbn [fst snd]. intros (<- & Hm9 & Hs9).
  destruct v9 as [[[row9 prev9] rowa9] step9]. do 2 sstep. cbv zeta.
  eapply sk_step; [by apply ksim_absorb|]. intros. by apply two_squeeze.
Qed.

(** ** lyra2mod/mod.rs: the shared functions have the same text *)
Lemma mods_squeeze : SrcLyra2modSeen.squeeze_seen = SrcLyra2Seen.squeeze_seen.
Proof.
  cbv delta [SrcLyra2modSeen.squeeze_seen SrcLyra2modSeen.squeeze_body1_seen SrcLyra2Seen.squeeze_seen SrcLyra2Seen.squeeze_body1_seen].
  rewrite modl_blake. reflexivity.
Qed.
Lemma mods_body1 : SrcLyra2modSeen.lyra2mod_body1_seen = SrcLyra2Seen.lyra2_body1_seen.
Proof. reflexivity. Qed.
Lemma mods_body2 : SrcLyra2modSeen.lyra2mod_body2_seen = SrcLyra2Seen.lyra2_body2_seen.
Proof. reflexivity. Qed.
Lemma mods_body3 : SrcLyra2modSeen.lyra2mod_body3_seen = SrcLyra2Seen.lyra2_body3_seen.
Proof. cbv delta [SrcLyra2modSeen.lyra2mod_body3_seen SrcLyra2Seen.lyra2_body3_seen]. rewrite modl_absorb_safe. reflexivity. Qed.
Lemma mods_body6 : SrcLyra2modSeen.lyra2mod_body6_seen = SrcLyra2Seen.lyra2_body6_seen.
Proof. cbv delta [SrcLyra2modSeen.lyra2mod_body6_seen SrcLyra2Seen.lyra2_body6_seen]. rewrite modl_body7. reflexivity. Qed.
Definition leq9m (a b : Z * Z * Z * list Z * list Z * Z) : Prop := leq9 a.1 b.1.
Lemma two_mod_body9 p R C step rl s s' : leq9m s s' ->
  srel pick_or_look (sum_rel leq9m leq9m) (SrcLyra2modSeen.lyra2mod_body9_seen p R C step rl s) (SrcLyra2modSeen.lyra2mod_body9_seen p R C step rl s').
Proof.
  destruct s as [[[v m] s] ix], s' as [[[v' m'] s'] ix']. unfold leq9m at 1, leq9. cbn [fst snd]. intros (<- & Hm & Hs).
  destruct v as [[row prev] rowa]. unfold SrcLyra2modSeen.lyra2mod_body9_seen. rewrite modl_body10.
  eapply srel_bind; [apply srel_look; [by right|done]|]. intros i1 i2 _.
  eapply srel_bind; [apply srel_look; [by right|done]|]. intros t1 t2 _. sstep.
  eapply srel_bind; [apply srel_pick; by left|]. intros ra ? <-.
  eapply srel_bind; [apply (srel_for _ leq2); [|done]; intros; apply srel_lift; by apply ksim_body10|].
  intros [m1 s1] [m2 s2] [Hm1 Hs1]. cbn [fst snd] in *. do 4 sstep.
  apply srel_if; by apply srel_ret.
Qed.
Definition leq8m (a b : Z * Z * Z * Z * list Z * list Z * Z) : Prop := leq8 a.1 b.1.
Lemma two_mod_body8 p R C rl tau s s' : leq8m s s' ->
  srel pick_or_look leq8m (SrcLyra2modSeen.lyra2mod_body8_seen p R C rl tau s) (SrcLyra2modSeen.lyra2mod_body8_seen p R C rl tau s').
Proof.
  destruct s as [[[v m] s] ix], s' as [[[v' m'] s'] ix']. unfold leq8m at 1, leq8. cbn [fst snd]. intros (<- & Hm & Hs).
  destruct v as [[[row prev] rowa] step]. unfold SrcLyra2modSeen.lyra2mod_body8_seen. sstep.
  eapply (srel_bind _ eq); [apply srel_if; [sstep|]; by apply srel_ret|]. intros st ? <-.
  eapply srel_bind; [apply (srel_loop _ leq9m leq9m); [intros; by apply two_mod_body9|done]|].
  intros [[[[[row1 prev1] rowa1] m1] s1] ix1] [[[[[row2 prev2] rowa2] m2] s2] ix2].
  unfold leq9m, leq9. cbn [fst snd]. intros ([= <- <- <-] & ? & ?). by apply srel_ret.
Qed.
#[local] Opaque SrcLyra2modSeen.squeeze_seen SrcLyra2modSeen.lyra2mod_body1_seen SrcLyra2modSeen.lyra2mod_body2_seen
  SrcLyra2modSeen.lyra2mod_body3_seen SrcLyra2modSeen.lyra2mod_body6_seen SrcLyra2modSeen.lyra2mod_body8_seen
  SrcLyra2modLog.lyra2mod_body4_log SrcLyra2modLog.lyra2mod_body5_log.
Lemma two_lyra2mod p k pwd pwd' salt salt' t R C : leq pwd pwd' -> leq salt salt' ->
  srel pick_or_look leq (SrcLyra2modSeen.lyra2mod_seen p k pwd salt t R C) (SrcLyra2modSeen.lyra2mod_seen p k pwd' salt' t R C).
Proof.
  intros Hp Hs. unfold SrcLyra2modSeen.lyra2mod_seen.
  rewrite mods_body1, mods_body2, mods_body3, modl_body4, modl_body5, mods_body6, modl_absorb, mods_squeeze.
  assert (Ep : vlen pwd' = vlen pwd) by (unfold vlen; by rewrite Hp).
  assert (Es : vlen salt' = vlen salt) by (unfold vlen; by rewrite Hs).
  rewrite Ep, Es.
  eapply (srel_bind _ eq); [apply srel_if; [sstep; by apply srel_ret|by apply srel_ret]|intros _ _ _].
  eapply (srel_bind _ eq); [apply srel_if; [sstep; by apply srel_ret|by apply srel_ret]|intros _ _ _].
  do 10 sstep.
  eapply (sz_step _ _ leq); [by apply osim_leq|intros m1 m2 Hm].
  eapply (sz_step _ _ leq).
  { by apply osim_resize. }
  clear m1 m2 Hm. intros m1 m2 Hm. do 4 sstep.
  eapply srel_bind; [apply (srel_for _ leq); [|exact Hm]; intros; by apply two_body1|clear m1 m2 Hm; intros m1 m2 Hm]. sstep.
  eapply srel_bind; [apply (srel_for _ leq); [|exact Hm]; intros; by apply two_body2|clear m1 m2 Hm; intros m1 m2 Hm]. 
  do 21 sstep.
  eapply srel_bind; [apply (srel_for _ leqz); [|by split]; intros; by apply two_body3|].
  intros [s1 w1] [s2 w2] [Hst E]. cbn [fst snd] in *. subst w2. do 2 sstep.
  eapply srel_bind; [apply (srel_for _ (fun a b => leq2 a.1 b.1 /\ a.2 = b.2)); [|by repeat split]|].
  { intros i [[??]?] [[??]?] _ [[??] E]. cbn [fst snd] in *. subst. apply srel_lift. by apply ksim_body4. }
  intros [[m3 s3] q3] [[m4 s4] q4] [[Hm3 Hs3] E]. cbn [fst snd] in *. subst q4.
  eapply srel_bind; [apply (srel_for _ leq2); [|done]; intros; apply srel_lift; by apply ksim_body5|].
  intros [m5 s5] [m6 s6] [Hm5 Hs5]. cbn [fst snd] in *. sstep.
  eapply srel_bind; [apply (srel_for _ leq6); [|done]; intros; by apply two_body6|].
  intros [[v7 m7] s7] [[v8 m8] s8]. unfold leq6. cbn [fst snd]. intros (<- & Hm7 & Hs7).
  destruct v7 as [[[[[row prev] rowa] step] window] gap]. do 2 sstep.
  eapply srel_bind; [apply (srel_for _ leq8m); [|done]; intros; by apply two_mod_body8|].
  intros [[[v9 m9] s9] ix9] [[[v10 m10] s10] ix10]. unfold leq8m, leq8. cbn [fst snd]. intros (<- & Hm9 & Hs9).
  destruct v9 as [[[row9 prev9] rowa9] step9]. do 2 sstep. cbv zeta.
  eapply sk_step; [by apply ksim_absorb|]. intros. by apply two_squeeze.
Qed.
