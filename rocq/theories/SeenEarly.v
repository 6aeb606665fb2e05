(** * Runs that make no call of [round_lyra] (lemmas for C58) *)
From Verif Require Import Machine MachineFacts MUtils MLyra2 SrcOps SrcFacts SrcLoops SrcTop MAccess AccessFacts Kept MKept KeptFacts
  SrcLogFacts SrcLogTop Seen SpecSeen SeenFacts SeenLyra2.
From Verif Require SrcUtils SrcLyra2 SrcLyra2mod SrcLyra2Log SrcLyra2modLog SrcLyra2Seen SrcLyra2modSeen.
#[local] Open Scope Z_scope.
#[local] Opaque MLyra2.round_lyra MLyra2.reduced_blake2b_lyra MLyra2.blake2b_lyra
  SrcLyra2.round_lyra SrcLyra2.reduced_blake2b_lyra SrcLyra2.blake2b_lyra.

(** ** Parts that call [round_lyra] if they return *)
Definition mixes {A} (x : kept A) : Prop := forall a, x.1 = Ok a -> Perm ∈ x.2.
Lemma mixes_l {A B} (x : kept A) (f : A -> kept B) : mixes x -> mixes (kbind x f).
Proof.
  intros H b. destruct x as [[a| |] l]; cbn; [|done..]. specialize (H a eq_refl). cbn in H.
  destruct (f a) as [y l']. cbn. intros _. apply elem_of_app. by left.
Qed.
Lemma mixes_r {A B} (x : kept A) (f : A -> kept B) : (forall a, mixes (f a)) -> mixes (kbind x f).
Proof.
  intros H b. destruct x as [[a| |] l]; cbn; [|done..]. specialize (H a). unfold mixes in H.
  destruct (f a) as [y l']. cbn in *. intros E. apply elem_of_app. right. by eapply H.
Qed.
Lemma mixes_perm v : mixes (kperm v).
Proof. intros a _. cbn. by apply elem_of_list_singleton. Qed.
Lemma mixes_blake v : mixes (blake2b_lyra_kept v).
Proof. apply mixes_l, mixes_perm. Qed.
#[local] Opaque blake2b_lyra_kept kperm.
Lemma mixes_absorb p s b w : mixes (SrcLyra2Log.absorb_block_log p s b w).
Proof. rewrite log_absorb. apply mixes_r. intros. apply mixes_blake. Qed.
Lemma mixes_absorb_safe p s b w : mixes (SrcLyra2Log.absorb_block_blake2_safe_log p s b w).
Proof. rewrite log_absorb_safe. apply mixes_r. intros. apply mixes_blake. Qed.
Lemma mixes_body10 p row prev rowa rl i s : mixes (SrcLyra2Log.lyra2_body10_log p row prev rowa rl i s).
Proof. destruct s as [m s]. rewrite log_body10. apply mixes_r. intros. apply mixes_l, mixes_perm. Qed.
Lemma mixes_body7 p C row prev rowa rl i s : mixes (SrcLyra2Log.lyra2_body7_log p C row prev rowa rl i s).
Proof. destruct s as [m s]. rewrite log_body7. apply mixes_r. intros. apply mixes_l, mixes_perm. Qed.
Lemma mixes_body5 p C rl i s : mixes (SrcLyra2Log.lyra2_body5_log p C rl i s).
Proof. destruct s as [m s]. rewrite log_body5. apply mixes_r. intros. apply mixes_l, mixes_perm. Qed.
Lemma mixes_body4 p i s : mixes (SrcLyra2Log.lyra2_body4_log p i s).
Proof.
  destruct s as [[m s] ptr]. unfold SrcLyra2Log.lyra2_body4_log. rewrite log_reduced.
  repeat (first [apply mixes_l; apply mixes_perm | apply mixes_r; intros]).
Qed.

(** ** Two runs up to the first call of [round_lyra] *)
Definition frel {A B} (P : A -> B -> Prop) (x : seen A) (y : seen B) : Prop :=
  (x.2 = y.2 /\ osim P x.1 y.1) \/ (OMem Perm ∈ x.2 /\ OMem Perm ∈ y.2).
Lemma frel_bind {A B C D} (P : A -> B -> Prop) (Q : C -> D -> Prop) x y f h :
  frel P x y -> (forall a b, P a b -> frel Q (f a) (h b)) -> frel Q (sbind x f) (sbind y h).
Proof.
  intros [[Hl Ho]|[H H']] Hf.
  - destruct x as [[a| |] l], y as [[b| |] l']; cbn in Hl, Ho; try done; subst l'; [|by left..].
    specialize (Hf a b Ho). unfold sbind. destruct (f a) as [u lu], (h b) as [v lv]. unfold frel in *. cbn [fst snd] in *.
    rewrite !elem_of_app. destruct Hf as [[-> Hf]|[??]]; [by left|right; auto].
  - right. destruct (sbind_log x f) as [r ->], (sbind_log y h) as [r' ->]. rewrite !elem_of_app. auto.
Qed.
Lemma frel_ret {A B} (P : A -> B -> Prop) a b : P a b -> frel P (sret a) (sret b).
Proof. left. done. Qed.
Lemma frel_of {A B} (P : A -> B -> Prop) x y : srel nothing P x y -> frel P x y.
Proof. intros [H|(? & ? & ? & ? & ? & _ & _ & _ & [])]. by left. Qed.
(** After such a part nothing need be known. *)
Lemma frel_lift {A B} (P Q : A -> B -> Prop) x y : ksim P x y -> mixes x -> frel Q (slift x) (slift y).
Proof.
  intros [Ho Hl] Hm. unfold frel, slift, sdo. cbn [fst snd]. rewrite <- Hl.
  destruct (x.1) as [a| |] eqn:E; [right|left..].
  - specialize (Hm a E). split; apply elem_of_list_fmap; by exists Perm.
  - split; [done|]. by destruct (y.1).
  - split; [done|]. by destruct (y.1).
Qed.
Lemma frel_if {A B} (P : A -> B -> Prop) (b : bool) x x' y y' :
  frel P x y -> frel P x' y' -> frel P (sif b x x') (sif b y y').
Proof. intros H H'. unfold sif. eapply (frel_bind (fun _ _ => True)); [by left|]. intros _ _ _. by destruct b. Qed.
Lemma frel_loop_pow {S S' T T'} (R : S -> S' -> Prop) (Q : T -> T' -> Prop) n body body' s s' :
  (forall s s', R s s' -> frel (sum_rel R Q) (body s) (body' s')) -> R s s' ->
  frel (sum_rel R Q) (sloop_pow n body s) (sloop_pow n body' s').
Proof.
  intros Hb. revert s s'. induction n as [|n IH]; intros s s' H; cbn [sloop_pow]; [auto|].
  eapply frel_bind; [by apply IH|]. intros [a|a] [b|b] Hab; cbn in Hab; try done; [auto|]. by apply frel_ret.
Qed.
Lemma frel_loop {S S' T T'} (R : S -> S' -> Prop) (Q : T -> T' -> Prop) body body' s s' :
  (forall s s', R s s' -> frel (sum_rel R Q) (body s) (body' s')) -> R s s' ->
  frel Q (sloop body s) (sloop body' s').
Proof.
  intros Hb H. unfold sloop. eapply frel_bind; [by apply (frel_loop_pow R Q)|].
  intros [a|a] [b|b] Hab; cbn in Hab; try done; [by left|by apply frel_ret].
Qed.
Lemma frel_for {S S'} (R : S -> S' -> Prop) lo hi body body' s s' :
  (forall i s s', lo <= i < hi -> R s s' -> frel R (body i s) (body' i s')) -> R s s' ->
  frel R (sfor lo hi body s) (sfor lo hi body' s').
Proof.
  intros Hb H. unfold sfor. eapply (frel_bind (fun _ _ => True)); [by left|]. intros _ _ _.
  apply (frel_loop (fun a b => a.1 = b.1 /\ lo <= a.1 /\ R a.2 b.2)); [|cbn; auto with lia].
  intros [i a] [i' b]; cbn [fst snd]. intros (<- & Hlo & HR). destruct (Z.ltb_spec i hi); [|by apply frel_ret].
  eapply frel_bind; [apply Hb; [lia|done]|]. intros a' b' HR'. apply frel_ret. cbn. auto with lia.
Qed.
Lemma fs_bind {A B C D} (P : A -> B -> Prop) (Q : C -> D -> Prop) x y f h :
  srel nothing P x y -> (forall a b, P a b -> frel Q (f a) (h b)) -> frel Q (sbind x f) (sbind y h).
Proof. intros H. apply frel_bind. by apply frel_of. Qed.
Lemma fq_step {A C D} (Q : C -> D -> Prop) (e : outcome A) f h :
  (forall a, frel Q (f a) (h a)) -> frel Q (sbind (squiet e) f) (sbind (squiet e) h).
Proof. intros H. eapply (fs_bind eq); [apply srel_do; by apply osim_refl|]. intros a ? <-. apply H. Qed.
Lemma fr_step {A B C D} (Q : C -> D -> Prop) (a : A) (b : B) f h :
  frel Q (f a) (h b) -> frel Q (sbind (sret a) f) (sbind (sret b) h).
Proof. by rewrite !sret_l. Qed.
Lemma fw_step {C D} (Q : C -> D -> Prop) v v' i x x' f h : leq v v' ->
  (forall a b, leq a b -> frel Q (f a) (h b)) -> frel Q (sbind (slift (kwr v i x)) f) (sbind (slift (kwr v' i x')) h).
Proof. intros He. apply fs_bind. apply srel_lift. by apply ksim_wr. Qed.
Lemma frd_step {C D} (Q : C -> D -> Prop) v v' i f h : leq v v' ->
  (forall a b, frel Q (f a) (h b)) -> frel Q (sbind (slift (krd v i)) f) (sbind (slift (krd v' i)) h).
Proof. intros He H. eapply (fs_bind (fun _ _ => True)); [apply srel_lift; by apply ksim_rd|]. auto. Qed.
Lemma fpe_step {C D} (Q : C -> D -> Prop) r f h :
  (forall r, frel Q (f r) (h r)) -> frel Q (sbind (spick r) f) (sbind (spick r) h).
Proof. intros H. eapply (fs_bind eq); [apply srel_pick_eq|]. intros a ? <-. apply H. Qed.
Lemma fc_step {C D} (Q : C -> D -> Prop) n v v' i f h : leq v v' ->
  (forall a b, leq a b -> frel Q (f a) (h b)) -> frel Q (sbind (ssplit n v i) f) (sbind (ssplit n v' i) h).
Proof.
  intros He. apply fs_bind. unfold ssplit, vlen. rewrite He. apply srel_do. by apply osim_split.
Qed.
Lemma fg_step {C D} (Q : C -> D -> Prop) n v i f h :
  (forall a, frel Q (f a) (h a)) -> frel Q (sbind (sget n v i) f) (sbind (sget n v i) h).
Proof. intros H. eapply (fs_bind eq); [apply srel_do; by apply osim_refl|]. intros a ? <-. apply H. Qed.
Ltac fstep := cbv beta; lazymatch goal with
  | |- frel _ (sbind (squiet ?e) _) (sbind (squiet ?e) _) => apply fq_step; intros ?
  | |- frel _ (sbind (sret _) _) (sbind (sret _) _) => apply fr_step
  | |- frel _ (sbind (slift (kwr _ _ _)) _) _ => apply fw_step; [done|intros ? ? ?]
  | |- frel _ (sbind (slift (krd _ _)) _) _ => apply frd_step; [done|intros ? ?]
  | |- frel _ (sbind (spick ?r) _) (sbind (spick ?r) _) => apply fpe_step; intros ?
  | |- frel _ (sbind (sget ?n ?v ?i) _) (sbind (sget ?n ?v ?i) _) => apply fg_step; intros ?
  | |- frel _ (sbind (ssplit _ _ _) _) _ => apply fc_step; [done|intros ? ? ?]
  | |- frel _ (sret _) (sret _) => apply frel_ret; cbn; auto
  end.

(** ** lyra2.rs *)
(** The words of the matrix need not agree; everything else does. *)
Definition fst2 {A} (a b : list Z * A) : Prop := leq a.1 b.1 /\ a.2 = b.2.
Definition feq2 (a b : list Z * list Z) : Prop := fst2 a b.
Definition feq4 (a b : list Z * list Z * Z) : Prop := feq2 a.1 b.1 /\ a.2 = b.2.
Lemma leq_refl s : leq s s.
Proof. done. Qed.
#[local] Hint Resolve leq_refl : core.
Section parts.
Context (p : platform).
Lemma early_body3 m m' i s : leq m m' ->
  frel eq (SrcLyra2Seen.lyra2_body3_seen p m i s) (SrcLyra2Seen.lyra2_body3_seen p m' i s).
Proof.
  destruct s as [s w]. intros Hm. unfold SrcLyra2Seen.lyra2_body3_seen. fstep.
  eapply (frel_bind (fun _ _ => False)); [|done].
  eapply frel_lift; [by apply ksim_absorb_safe|apply mixes_absorb_safe].
Qed.
Lemma early_body4 i s s' : feq4 s s' ->
  frel feq4 (slift (SrcLyra2Log.lyra2_body4_log p i s)) (slift (SrcLyra2Log.lyra2_body4_log p i s')).
Proof.
  destruct s as [[m s] q], s' as [[m' s'] q']. intros [[Hm E] E']. cbn [fst snd] in *. subst s' q'.
  eapply frel_lift; [by apply ksim_body4|apply mixes_body4].
Qed.
Lemma early_body5 C rl i s s' : feq2 s s' ->
  frel feq2 (slift (SrcLyra2Log.lyra2_body5_log p C rl i s)) (slift (SrcLyra2Log.lyra2_body5_log p C rl i s')).
Proof.
  destruct s as [m s], s' as [m' s']. intros [Hm E]. cbn [fst snd] in *. subst s'.
  eapply frel_lift; [by apply ksim_body5|apply mixes_body5].
Qed.
Lemma early_body7 C row prev rowa rl i s s' : feq2 s s' ->
  frel feq2 (slift (SrcLyra2Log.lyra2_body7_log p C row prev rowa rl i s)) (slift (SrcLyra2Log.lyra2_body7_log p C row prev rowa rl i s')).
Proof.
  destruct s as [m s], s' as [m' s']. intros [Hm E]. cbn [fst snd] in *. subst s'.
  eapply frel_lift; [by apply ksim_body7|apply mixes_body7].
Qed.
Lemma early_body10 row prev rowa rl i s s' : feq2 s s' ->
  frel feq2 (slift (SrcLyra2Log.lyra2_body10_log p row prev rowa rl i s)) (slift (SrcLyra2Log.lyra2_body10_log p row prev rowa rl i s')).
Proof.
  destruct s as [m s], s' as [m' s']. intros [Hm E]. cbn [fst snd] in *. subst s'.
  eapply frel_lift; [by apply ksim_body10|apply mixes_body10].
Qed.
Definition feq6 (a b : Z * Z * Z * Z * Z * Z * list Z * list Z) : Prop := a.1.1 = b.1.1 /\ leq a.1.2 b.1.2 /\ a.2 = b.2.
Lemma early_body6 C rl x s s' : feq6 s s' ->
  frel feq6 (SrcLyra2Seen.lyra2_body6_seen p C rl x s) (SrcLyra2Seen.lyra2_body6_seen p C rl x s').
Proof.
  destruct s as [[v m] s], s' as [[v' m'] s']. unfold feq6. cbn [fst snd]. intros (<- & Hm & <-).
  destruct v as [[[[[row prev] rowa] step] window] gap]. unfold SrcLyra2Seen.lyra2_body6_seen.
  eapply frel_bind; [apply (frel_for feq2); [|done]; intros; by apply early_body7|].
  intros [m1 s1] [m2 s2] [Hm1 Hs1]. cbn [fst snd] in *. subst s2. do 5 fstep.
  eapply (frel_bind eq).
  - apply frel_if; [|by apply frel_ret]. do 3 fstep. by apply frel_ret.
  - intros [[??]?] ? <-. by apply frel_ret.
Qed.
Definition feq9 (a b : Z * Z * Z * list Z * list Z) : Prop := a.1.1 = b.1.1 /\ leq a.1.2 b.1.2 /\ a.2 = b.2.
Lemma early_body9 R C step rl s s' : feq9 s s' ->
  frel (sum_rel feq9 feq9) (SrcLyra2Seen.lyra2_body9_seen p R C step rl s) (SrcLyra2Seen.lyra2_body9_seen p R C step rl s').
Proof.
  destruct s as [[v m] s], s' as [[v' m'] s']. unfold feq9 at 1. cbn [fst snd]. intros (<- & Hm & <-).
  destruct v as [[row prev] rowa]. unfold SrcLyra2Seen.lyra2_body9_seen. do 2 fstep.
  eapply frel_bind; [apply (frel_for feq2); [|done]; intros; by apply early_body10|].
  intros [m1 s1] [m2 s2] [Hm1 Hs1]. cbn [fst snd] in *. subst s2. do 4 fstep. by apply frel_if; apply frel_ret.
Qed.
Definition feq8 (a b : Z * Z * Z * Z * list Z * list Z) : Prop := a.1.1 = b.1.1 /\ leq a.1.2 b.1.2 /\ a.2 = b.2.
Lemma early_body8 R C rl tau s s' : feq8 s s' ->
  frel feq8 (SrcLyra2Seen.lyra2_body8_seen p R C rl tau s) (SrcLyra2Seen.lyra2_body8_seen p R C rl tau s').
Proof.
  destruct s as [[v m] s], s' as [[v' m'] s']. unfold feq8 at 1. cbn [fst snd]. intros (<- & Hm & <-).
  destruct v as [[[row prev] rowa] step]. unfold SrcLyra2Seen.lyra2_body8_seen. fstep.
  eapply (frel_bind eq); [apply frel_if; [fstep|]; by apply frel_ret|]. intros st ? <-.
  eapply frel_bind; [apply (frel_loop feq9 feq9); [intros; by apply early_body9|done]|].
  intros [[[[row1 prev1] rowa1] m1] s1] [[[[row2 prev2] rowa2] m2] s2]. unfold feq9. cbn [fst snd]. intros ([= <- <- <-] & ? & <-).
  by apply frel_ret.
Qed.
Definition feq9m (a b : Z * Z * Z * list Z * list Z * Z) : Prop := feq9 a.1 b.1 /\ a.2 = b.2.
Lemma early_mod_body9 R C step rl s s' : feq9m s s' ->
  frel (sum_rel feq9m feq9m) (SrcLyra2modSeen.lyra2mod_body9_seen p R C step rl s) (SrcLyra2modSeen.lyra2mod_body9_seen p R C step rl s').
Proof.
  destruct s as [[[v m] s] ix], s' as [[[v' m'] s'] ix']. unfold feq9m at 1, feq9. cbn [fst snd]. intros ((<- & Hm & <-) & <-).
  destruct v as [[row prev] rowa]. unfold SrcLyra2modSeen.lyra2mod_body9_seen. rewrite modl_body10. do 4 fstep.
  eapply frel_bind; [apply (frel_for feq2); [|done]; intros; by apply early_body10|].
  intros [m1 s1] [m2 s2] [Hm1 Hs1]. cbn [fst snd] in *. subst s2. do 4 fstep. by apply frel_if; apply frel_ret.
Qed.
Definition feq8m (a b : Z * Z * Z * Z * list Z * list Z * Z) : Prop := feq8 a.1 b.1 /\ a.2 = b.2.
Lemma early_mod_body8 R C rl tau s s' : feq8m s s' ->
  frel feq8m (SrcLyra2modSeen.lyra2mod_body8_seen p R C rl tau s) (SrcLyra2modSeen.lyra2mod_body8_seen p R C rl tau s').
Proof.
  destruct s as [[[v m] s] ix], s' as [[[v' m'] s'] ix']. unfold feq8m at 1, feq8. cbn [fst snd]. intros ((<- & Hm & <-) & <-).
  destruct v as [[[row prev] rowa] step]. unfold SrcLyra2modSeen.lyra2mod_body8_seen. fstep.
  eapply (frel_bind eq); [apply frel_if; [fstep|]; by apply frel_ret|]. intros st ? <-.
  eapply frel_bind; [apply (frel_loop feq9m feq9m); [intros; by apply early_mod_body9|done]|].
  intros [[[[[row1 prev1] rowa1] m1] s1] ix1] [[[[[row2 prev2] rowa2] m2] s2] ix2]. unfold feq9m, feq9. cbn [fst snd].
  intros (([= <- <- <-] & ? & <-) & <-). by apply frel_ret.
Qed.
End parts.
#[local] Opaque SrcLyra2Seen.squeeze_seen SrcLyra2Seen.lyra2_body1_seen SrcLyra2Seen.lyra2_body2_seen SrcLyra2Seen.lyra2_body3_seen
  SrcLyra2Log.lyra2_body4_log SrcLyra2Log.lyra2_body5_log SrcLyra2Seen.lyra2_body6_seen SrcLyra2Seen.lyra2_body8_seen
  SrcLyra2modSeen.squeeze_seen SrcLyra2modSeen.lyra2mod_body1_seen SrcLyra2modSeen.lyra2mod_body2_seen
  SrcLyra2modSeen.lyra2mod_body3_seen SrcLyra2modSeen.lyra2mod_body6_seen SrcLyra2modSeen.lyra2mod_body8_seen
  SrcLyra2modLog.lyra2mod_body4_log SrcLyra2modLog.lyra2mod_body5_log.
Ltac early_input :=
  eapply (fs_bind eq); [apply srel_if; [sstep; by apply srel_ret|by apply srel_ret]|intros _ _ _];
  eapply (fs_bind eq); [apply srel_if; [sstep; by apply srel_ret|by apply srel_ret]|intros _ _ _];
  do 10 fstep;
  let m1 := fresh "m" in let m2 := fresh "m" in let Hm := fresh "Hm" in
  eapply (fs_bind leq); [apply srel_do; by apply osim_leq|intros m1 m2 Hm];
  eapply (fs_bind leq); [apply srel_do; by apply osim_resize|];
  clear m1 m2 Hm; intros m1 m2 Hm; do 4 fstep;
  eapply fs_bind; [apply (srel_for _ leq); [|exact Hm]; intros; by apply two_body1|clear m1 m2 Hm; intros m1 m2 Hm]; fstep;
  eapply fs_bind; [apply (srel_for _ leq); [|exact Hm]; intros; by apply two_body2|clear m1 m2 Hm; intros m1 m2 Hm];
  do 21 fstep.
Ltac early_setup :=
  eapply frel_bind; [apply (frel_for eq); [|done]; intros ? ? ? _ <-; by apply early_body3|];
  intros [s1 w1] ? <-; do 2 fstep;
  eapply frel_bind; [apply (frel_for feq4); [|by repeat split]; intros; by apply early_body4|];
  intros [[m3 s3] q3] [[m4 s4] q4] [[Hm3 Hs3] E]; cbn [fst snd] in *; subst s4 q4;
  eapply frel_bind; [apply (frel_for feq2); [|done]; intros; by apply early_body5|];
  intros [m5 s5] [m6 s6] [Hm5 Hs5]; cbn [fst snd] in *; subst s6; fstep;
  eapply frel_bind; [apply (frel_for feq6); [|done]; intros; by apply early_body6|];
  intros [[v7 m7] s7] [[v8 m8] s8]; unfold feq6; cbn [fst snd]; intros (<- & Hm7 & <-).
Lemma early_lyra2 p k pwd pwd' salt salt' t R C : leq pwd pwd' -> leq salt salt' ->
  frel leq (SrcLyra2Seen.lyra2_seen p k pwd salt t R C) (SrcLyra2Seen.lyra2_seen p k pwd' salt' t R C).
Proof.
  intros Hp Hs. unfold SrcLyra2Seen.lyra2_seen.
  assert (Ep : vlen pwd' = vlen pwd) by (unfold vlen; by rewrite Hp).
  assert (Es : vlen salt' = vlen salt) by (unfold vlen; by rewrite Hs).
  rewrite Ep, Es. early_input. early_setup.
  destruct v7 as [[[[[row prev] rowa] step] window] gap]. fstep.
  eapply frel_bind; [apply (frel_for feq8); [|done]; intros; by apply early_body8|].
  intros [[v9 m9] s9] [[v10 m10] s10]. unfold feq8. cbn [fst snd]. intros (<- & Hm9 & <-).
  destruct v9 as [[[row9 prev9] rowa9] step9]. do 2 fstep. cbv zeta.
  eapply (frel_bind (fun _ _ => False)); [|done]. eapply frel_lift; [by apply ksim_absorb|apply mixes_absorb].
Qed.
Lemma early_lyra2mod p k pwd pwd' salt salt' t R C : leq pwd pwd' -> leq salt salt' ->
  frel leq (SrcLyra2modSeen.lyra2mod_seen p k pwd salt t R C) (SrcLyra2modSeen.lyra2mod_seen p k pwd' salt' t R C).
Proof.
  intros Hp Hs. unfold SrcLyra2modSeen.lyra2mod_seen.
  rewrite mods_body1, mods_body2, mods_body3, modl_body4, modl_body5, mods_body6, modl_absorb, mods_squeeze.
  assert (Ep : vlen pwd' = vlen pwd) by (unfold vlen; by rewrite Hp).
  assert (Es : vlen salt' = vlen salt) by (unfold vlen; by rewrite Hs).
  rewrite Ep, Es. early_input. early_setup.
  destruct v7 as [[[[[row prev] rowa] step] window] gap]. do 2 fstep.
  eapply frel_bind; [apply (frel_for feq8m); [|done]; intros; by apply early_mod_body8|].
  intros [[[v9 m9] s9] ix9] [[[v10 m10] s10] ix10]. unfold feq8m, feq8. cbn [fst snd]. intros ((<- & Hm9 & <-) & <-).
  destruct v9 as [[[row9 prev9] rowa9] step9]. do 2 fstep. cbv zeta.
  eapply (frel_bind (fun _ _ => False)); [|done]. eapply frel_lift; [by apply ksim_absorb|apply mixes_absorb].
Qed.
