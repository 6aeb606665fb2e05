(** * The log that survives a panic: laws, and agreement with the log of a call that returns *)
From Verif Require Import Machine MachineFacts MUtils MLyra2 SrcFacts SrcLoops TraceFacts MAccess AccessFacts Kept MKept.
#[local] Open Scope Z_scope.

(** ** Laws of [kbind] *)
Lemma kquiet_Ok {A B} (a : A) (f : A -> kept B) : kbind (kquiet (Ok a)) f = f a.
Proof. unfold kbind, kquiet. cbn [fst snd app]. by destruct (f a). Qed.
Lemma kret_l {A B} (a : A) (f : A -> kept B) : kbind (kret a) f = f a.
Proof. exact (kquiet_Ok a f). Qed.
Lemma kbind_Ok {A B} (x : kept A) a l (f : A -> kept B) : x = (Ok a, l) -> kbind x f = ((f a).1, l ++ (f a).2).
Proof. intros ->. cbn. by destruct (f a). Qed.
Lemma kbind_Panic {A B} (x : kept A) l (f : A -> kept B) : x = (Panic, l) -> kbind x f = (Panic, l).
Proof. by intros ->. Qed.
Lemma kq_l {A B} (e : outcome A) z (f : A -> kept B) r : e = Ok z -> f z = r -> kbind (kquiet e) f = r.
Proof. intros -> <-. apply kquiet_Ok. Qed.
Lemma kq_r {A B} (e : outcome A) z (f : A -> kept B) r : e = Ok z -> r = f z -> r = kbind (kquiet e) f.
Proof. intros H Hr. symmetry. by eapply kq_l. Qed.
Lemma kbind_assoc {A B C} (e : kept A) (f : A -> kept B) (g : B -> kept C) :
  kbind (kbind e f) g = kbind e (fun a => kbind (f a) g).
Proof.
  destruct e as [[a| |] l]; [|done..]. unfold kbind. cbn [fst snd].
  destruct (f a) as [[b| |] l2]; [|done..]. cbn [fst snd].
  destruct (g b) as [[c| |] l3]; cbn [fst snd]; by rewrite app_assoc.
Qed.
Lemma kquiet_bind {A B C} (e : outcome A) (f : A -> outcome B) (g : B -> kept C) :
  kbind (kquiet (obind e f)) g = kbind (kquiet e) (fun a => kbind (kquiet (f a)) g).
Proof. destruct e as [a| |]; [|done..]. by rewrite kquiet_Ok. Qed.
Lemma kcong_quiet {A B} (e : outcome A) (f g : A -> kept B) :
  (forall a, e = Ok a -> f a = g a) -> kbind (kquiet e) f = kbind (kquiet e) g.
Proof. destruct e as [a| |]; [|done..]. intros H. rewrite !kquiet_Ok. by apply H. Qed.
Lemma kcong {A B} (e : kept A) (f g : A -> kept B) :
  (forall a l, e = (Ok a, l) -> f a = g a) -> kbind e f = kbind e g.
Proof. destruct e as [[a| |] l]; [|done..]. intros H. unfold kbind. cbn [fst snd]. by rewrite (H a l). Qed.
Lemma kl {A B} (e e' : kept A) (f : A -> kept B) r : e = e' -> kbind e' f = r -> kbind e f = r.
Proof. by intros ->. Qed.
Lemma kr {A B} (e e' : kept A) (f : A -> kept B) r : e = e' -> r = kbind e' f -> r = kbind e f.
Proof. by intros ->. Qed.
Lemma kret_r {A} (e : kept A) : kbind e (fun x => kret x) = e.
Proof. destruct e as [[a| |] l]; [|done..]. unfold kbind, kret. cbn [fst snd]. by rewrite app_nil_r. Qed.
Lemma kfst_bind {A B} (x : kept A) (f : A -> kept B) : (kbind x f).1 = obind x.1 (fun a => (f a).1).
Proof. destruct x as [[a| |] l]; [|done..]. cbn. by destruct (f a). Qed.

(** ** Simulation *)
Definition ksim {A B} (R : A -> B -> Prop) (x : kept A) (y : kept B) : Prop := osim R x.1 y.1 /\ x.2 = y.2.
Lemma ksim_eq {A} (x y : kept A) : ksim eq x y -> x = y.
Proof. destruct x, y. intros [H%osim_eq Hl]. cbn in *. by subst. Qed.
Lemma ksim_refl {A} (R : A -> A -> Prop) (x : kept A) : (forall a l, x = (Ok a, l) -> R a a) -> ksim R x x.
Proof. destruct x as [x l]. intros H. split; [|done]. apply osim_refl. intros a E. cbn in E. subst x. by eapply H. Qed.
Lemma ksim_eq' {A} (x y : kept A) : x = y -> ksim eq x y.
Proof. intros ->. by apply ksim_refl. Qed.
Lemma ksim_ret {A B} (R : A -> B -> Prop) a b : R a b -> ksim R (kret a) (kret b).
Proof. by split. Qed.
Lemma ksim_bind {A B C D} (R : A -> B -> Prop) (Q : C -> D -> Prop) (x : kept A) (y : kept B) f h :
  ksim R x y -> (forall a b l, x = (Ok a, l) -> y = (Ok b, l) -> R a b -> ksim Q (f a) (h b)) ->
  ksim Q (kbind x f) (kbind y h).
Proof.
  destruct x as [[a| |] l], y as [[b| |] l']; intros [Ho Hl] H; cbn in Ho, Hl; try done; subst l'.
  destruct (H a b l eq_refl eq_refl Ho) as [H1 H2]. unfold kbind. destruct (f a), (h b). cbn in *. subst. by split.
Qed.
Lemma ksim_bind_eq {A C D} (Q : C -> D -> Prop) (x : kept A) f h :
  (forall a l, x = (Ok a, l) -> ksim Q (f a) (h a)) -> ksim Q (kbind x f) (kbind x h).
Proof.
  intros Hf. eapply ksim_bind; [by apply (ksim_refl eq)|]. intros a b l Ha _ <-. by eapply Hf.
Qed.
Lemma ksim_map {A B} (R Q : A -> B -> Prop) (x : kept A) (y : kept B) :
  ksim R x y -> (forall a b, R a b -> Q a b) -> ksim Q x y.
Proof. intros [H Hl] HQ. split; [|done]. by eapply osim_map. Qed.
Lemma kloop_pow_sim {S S' T T'} (R : S -> S' -> Prop) (Q : T -> T' -> Prop) n body body' s s' :
  (forall s s', R s s' -> ksim (sum_rel R Q) (body s) (body' s')) -> R s s' ->
  ksim (sum_rel R Q) (kloop_pow n body s) (kloop_pow n body' s').
Proof.
  intros Hb. revert s s'. induction n as [|n IH]; intros s s' H; cbn [kloop_pow]; [auto|].
  eapply ksim_bind; [by apply IH|]. intros [a|a] [b|b] l _ _ Hab; cbn in Hab; try done. auto.
Qed.
Lemma kloop_sim {S S' T T'} (R : S -> S' -> Prop) (Q : T -> T' -> Prop) body body' s s' :
  (forall s s', R s s' -> ksim (sum_rel R Q) (body s) (body' s')) -> R s s' ->
  ksim Q (kloop body s) (kloop body' s').
Proof.
  intros Hb H. unfold kloop. eapply ksim_bind; [by apply (kloop_pow_sim R Q)|].
  intros [a|a] [b|b] l _ _ Hab; cbn in Hab; done.
Qed.
Lemma kfor_sim {S S'} (R : S -> S' -> Prop) lo hi body body' s s' :
  (forall i s s', lo <= i < hi -> R s s' -> ksim R (body i s) (body' i s')) -> R s s' ->
  ksim R (kfor lo hi body s) (kfor lo hi body' s').
Proof.
  intros Hb H. unfold kfor.
  apply (kloop_sim (fun a b => a.1 = b.1 /\ lo <= a.1 /\ R a.2 b.2)); [|cbn; auto with lia].
  intros [i a] [i' b]; cbn [fst snd]. intros (<- & Hlo & HR). destruct (Z.ltb_spec i hi); [|by apply ksim_ret].
  eapply ksim_bind; [apply Hb; [lia|done]|]. intros a' b' l _ _ HR'. apply ksim_ret. cbn. auto with lia.
Qed.
Lemma kfor_ext {S} lo hi (body body' : Z -> S -> kept S) s :
  (forall i s, lo <= i < hi -> body i s = body' i s) -> kfor lo hi body s = kfor lo hi body' s.
Proof. intros H. apply ksim_eq, kfor_sim; [|done]. intros i a ? Hi ->. rewrite H by done. by apply ksim_eq'. Qed.
Lemma obind_ksim {A B} (f : B -> A) (x : kept A) (y : kept B) :
  ksim (fun a b => a = f b) x y -> x = kbind y (fun b => kret (f b)).
Proof.
  destruct x as [[a| |] l], y as [[b| |] l']; intros [H Hl]; cbn in *; try done; subst; try done.
  unfold kbind, kret. cbn [fst snd]. by rewrite app_nil_r.
Qed.

(** ** The log of a call that returns *)
Definition proj {A} (x : kept A) : acc A := a <-- x.1 ;; Ok (a, x.2).
Lemma proj_Ok {A} (x : kept A) a l : proj x = Ok (a, l) -> x = (Ok a, l).
Proof. destruct x as [[b| |] l']; cbn; try done. by intros [= -> ->]. Qed.
Lemma proj_fst {A} (x : kept A) : x.1 = erase (proj x).
Proof. by destruct x as [[b| |] l']. Qed.
Lemma proj_ret {A} (a : A) : proj (kret a) = aret a.
Proof. done. Qed.
Lemma proj_quiet {A} (x : outcome A) : proj (kquiet x) = quiet x.
Proof. done. Qed.
Lemma proj_bind {A B} (x : kept A) (f : A -> kept B) : proj (kbind x f) = abind (proj x) (fun a => proj (f a)).
Proof. destruct x as [[a| |] l]; [|done..]. unfold proj, kbind, abind. cbn. by destruct (f a) as [[b| |] l2]. Qed.
Lemma proj_rd m a : proj (krd m a) = rd m a.
Proof. unfold krd, rd, kdone, proj. cbn [fst snd]. by destruct (vget m a). Qed.
Lemma proj_wr m a x : proj (kwr m a x) = wr m a x.
Proof. unfold kwr, wr, kdone, proj. cbn [fst snd]. by destruct (vset m a x). Qed.
Lemma proj_rd_right b w j : proj (krd_right b w j) = rd_right b w j.
Proof. unfold krd_right, rd_right, kdone, proj. cbn [fst snd]. by destruct (vget w j). Qed.
Lemma proj_perm v : proj (kperm v) = perm v.
Proof. done. Qed.
Lemma abind_ext {A B} (x y : acc A) (f g : A -> acc B) : x = y -> (forall a, f a = g a) -> abind x f = abind y g.
Proof. intros -> H. destruct y as [[a l]| |]; [|done..]. unfold abind. cbn [obind]. by rewrite H. Qed.
Lemma proj_fold {A S} (f : S -> A -> kept S) (h : S -> A -> acc S) l s :
  (forall s a, proj (f s a) = h s a) -> proj (kfold f l s) = afold h l s.
Proof.
  intros H. revert s. induction l as [|a l IH]; intros s; [done|]. cbn [kfold afold].
  rewrite proj_bind. apply abind_ext; [apply H|]. exact IH.
Qed.
(** The accumulating loops of Log.v. *)
Definition amore {A} (l : list access) (x : acc A) : acc A := '(a, l') <-- x ;; Ok (a, l ++ l').
Definition push_log {S T} (x : (S + T) * list access) : (S * list access) + (T * list access) :=
  match x with (inl s, l) => inl (s, l) | (inr t, l) => inr (t, l) end.
Definition loop_body {S T} (body : S -> acc (S + T)) : S * list access -> outcome (S * list access + T * list access) :=
  fun '(s, l) => '(r, l') <-- body s ;;
    match r with inl s' => Ok (inl (s', l ++ l')) | inr t => Ok (inr (t, l ++ l')) end.
Lemma proj_loop_pow {S T} (body : S -> kept (S + T)) (h : S -> acc (S + T)) n s l :
  (forall s, proj (body s) = h s) ->
  loop_pow n (loop_body h) (s, l) = omapo push_log (amore l (proj (kloop_pow n body s))).
Proof.
  intros H. revert s l. induction n as [|n IH]; intros s l; cbn [loop_pow kloop_pow].
  - rewrite H. unfold loop_body, amore. by destruct (h s) as [[[s'|t] l']| |].
  - rewrite IH, proj_bind. unfold amore at 1. destruct (proj (kloop_pow n body s)) as [[[s'|t] l1]| |]; [| |done..].
    + cbn [obind omapo push_log]. unfold omapo at 1. cbn [obind push_log]. rewrite IH. unfold abind. cbn [obind]. unfold amore.
      destruct (proj (kloop_pow n body s')) as [[[s2|t2] l2]| |]; cbn; by rewrite ?app_assoc.
    + unfold omapo, amore, abind, proj, kret. cbn. by rewrite app_nil_r.
Qed.
#[local] Transparent loop64.
Lemma proj_loop {S T} (body : S -> kept (S + T)) (h : S -> acc (S + T)) s :
  (forall s, proj (body s) = h s) -> proj (kloop body s) = aloop h s.
Proof.
  intros H. unfold kloop, aloop, loop64. change (fun '(s, l) => _) with (loop_body h) at 1.
  rewrite (proj_loop_pow body h 64 s [] H), proj_bind.
  destruct (proj (kloop_pow 64 body s)) as [[[s'|t] l1]| |]; [done| |done..].
  unfold omapo, amore, abind, proj, kret. cbn. by rewrite app_nil_r.
Qed.
#[local] Opaque loop64.
Lemma proj_for {S} lo hi (body : Z -> S -> kept S) (h : Z -> S -> acc S) s :
  (forall i s, proj (body i s) = h i s) -> proj (kfor lo hi body s) = afor lo hi h s.
Proof.
  intros H. unfold kfor.
  rewrite (proj_loop _ (fun '(i, s) => if i <? hi then s' <~~ h i s ;; aret (inl (i + 1, s')) else aret (inr s))).
  - unfold aloop, afor, for_range. apply osim_eq.
    apply (loop64_sim (fun a b => a = (b.1, b.2.1, b.2.2)) eq); [|done].
    intros [[i a] l] [i' [b l']] [= -> -> ->]. cbn [fst snd]. destruct (i' <? hi).
    + unfold abind. destruct (h i' b) as [[b' l2]| |]; cbn; [|done..]. by rewrite app_nil_r.
    + cbn. by rewrite app_nil_r.
  - intros [i a]. destruct (i <? hi); [|done]. rewrite proj_bind, H. done.
Qed.

(** ** The phases *)
Ltac pj := repeat first
  [ rewrite proj_bind | rewrite proj_quiet | rewrite proj_rd | rewrite proj_wr
  | rewrite proj_rd_right | rewrite proj_ret ].
Ltac pj_steps := repeat first
  [ progress pj | reflexivity | (apply abind_ext; [reflexivity|intros ?])
  | match goal with |- context [match ?x with (_, _) => _ end] => destruct x end ].
Section proj.
Context (p : platform).
#[local] Opaque MLyra2.round_lyra.
Lemma proj_blake v : proj (blake2b_lyra_kept v) = blake2b_lyra_acc v.
Proof. unfold blake2b_lyra_kept, blake2b_lyra_acc. do 12 (rewrite proj_bind; apply abind_ext; [done|clear v; intros v]). done. Qed.
Lemma proj_reduced v : proj (reduced_kept v) = reduced_acc v.
Proof. done. Qed.
#[local] Opaque blake2b_lyra_kept blake2b_lyra_acc reduced_kept reduced_acc.
Lemma proj_xor_in b w s j : proj (xor_in_kept b w s j) = xor_in_acc b w s j.
Proof. unfold xor_in_kept, xor_in_acc. pj_steps. Qed.
Lemma proj_absorb b s w : proj (absorb_block_kept b s w) = absorb_block_acc b s w.
Proof.
  unfold absorb_block_kept, absorb_block_acc. rewrite proj_bind.
  apply abind_ext; [apply proj_fold; intros; apply proj_xor_in|]. intros. apply proj_blake.
Qed.
Lemma proj_absorb_safe b s w : proj (absorb_block_blake2_safe_kept b s w) = absorb_block_blake2_safe_acc b s w.
Proof.
  unfold absorb_block_blake2_safe_kept, absorb_block_blake2_safe_acc. rewrite proj_bind.
  apply abind_ext; [apply proj_fold; intros; apply proj_xor_in|]. intros. apply proj_blake.
Qed.
Lemma proj_squeeze st k : proj (squeeze_kept p st k) = squeeze_acc p st k.
Proof.
  unfold squeeze_kept, squeeze_acc. cbv zeta. rewrite proj_bind. apply abind_ext; [done|intros out].
  rewrite proj_bind. apply abind_ext; [done|intros jm]. rewrite proj_bind.
  apply abind_ext; [|by intros [[??]?]]. apply proj_for. intros i [[tmp o] s].
  rewrite proj_bind. apply abind_ext; [done|intros t]. rewrite proj_bind. apply abind_ext; [done|intros o'].
  rewrite proj_bind. apply abind_ext; [apply proj_blake|]. done.
Qed.
Lemma proj_copy d q m : proj (copy_words_kept p d q m) = copy_words_acc p d q m.
Proof. unfold copy_words_kept, copy_words_acc. apply proj_for. intros i s. pj_steps. Qed.
Lemma proj_push s x : proj (push_word_kept p s x) = push_word_acc p s x.
Proof. destruct s as [m q]. unfold push_word_kept, push_word_acc. pj_steps. Qed.
Lemma proj_write_input k pwd salt t R C nb m :
  proj (write_input_kept p k pwd salt t R C nb m) = write_input_acc p k pwd salt t R C nb m.
Proof.
  unfold write_input_kept, write_input_acc. cbv zeta.
  rewrite proj_bind. apply abind_ext; [apply proj_copy|intros m1]. rewrite proj_bind. apply abind_ext; [done|intros a1].
  rewrite proj_bind. apply abind_ext; [apply proj_copy|intros m2]. rewrite proj_bind. apply abind_ext; [done|intros a2].
  do 6 (rewrite proj_bind; apply abind_ext; [apply proj_push|intros [??]]).
  pj_steps.
Qed.
Lemma proj_absorb_input nb m st : proj (absorb_input_kept p nb m st) = absorb_input_acc p nb m st.
Proof.
  unfold absorb_input_kept, absorb_input_acc. rewrite proj_bind. apply abind_ext; [|by intros [??]].
  apply proj_for. intros i [s w]. rewrite proj_bind. apply abind_ext; [done|intros r].
  rewrite proj_bind. apply abind_ext; [apply proj_absorb_safe|intros s']. pj_steps.
Qed.
Lemma proj_row0 C m st : proj (squeeze_row0_kept p C m st) = squeeze_row0_acc p C m st.
Proof.
  unfold squeeze_row0_kept, squeeze_row0_acc. rewrite proj_bind. apply abind_ext; [done|intros a].
  rewrite proj_bind. apply abind_ext; [done|intros ptr].
  rewrite proj_bind. apply abind_ext; [|by intros [[??]?]].
  apply proj_for. intros i [[m' s] w]. rewrite proj_bind. apply abind_ext; [apply proj_fold; intros; pj_steps|].
  intros m2. cbv zeta. rewrite proj_bind. apply abind_ext; [apply proj_reduced|done].
Qed.
Lemma proj_row1 rl C m st : proj (duplex_row1_kept p rl C m st) = duplex_row1_acc p rl C m st.
Proof.
  unfold duplex_row1_kept, duplex_row1_acc. apply proj_for. intros i [m' s]. rewrite proj_bind. apply abind_ext; [apply proj_fold; intros; pj_steps|].
  intros s2. rewrite proj_bind. apply abind_ext; [apply proj_reduced|intros s3].
  rewrite proj_bind. apply abind_ext; [apply proj_fold; intros; pj_steps|done].
Qed.
Lemma proj_absorb_sum rl i prev rowa m st : proj (absorb_sum_kept p rl i prev rowa m st) = absorb_sum_acc p rl i prev rowa m st.
Proof. unfold absorb_sum_kept, absorb_sum_acc. apply proj_fold. intros. pj_steps. Qed.
Lemma proj_rotW rl i rowa st m : proj (xor_rotW_kept p rl i rowa st m) = xor_rotW_acc p rl i rowa st m.
Proof. unfold xor_rotW_kept, xor_rotW_acc. apply proj_fold. intros s [j w]. pj_steps. Qed.
Lemma proj_duplex_setup rl C row prev rowa m st :
  proj (duplex_row_setup_kept p rl C row prev rowa m st) = duplex_row_setup_acc p rl C row prev rowa m st.
Proof.
  unfold duplex_row_setup_kept, duplex_row_setup_acc. apply proj_for. intros i [m' s]. rewrite proj_bind. apply abind_ext; [apply proj_absorb_sum|].
  intros s2. rewrite proj_bind. apply abind_ext; [apply proj_reduced|intros s3].
  rewrite proj_bind. apply abind_ext; [apply proj_fold; intros; pj_steps|intros m2].
  rewrite proj_bind. apply abind_ext; [apply proj_rotW|done].
Qed.
Lemma proj_duplex rl C row prev rowa m st :
  proj (duplex_row_kept p rl C row prev rowa m st) = duplex_row_acc p rl C row prev rowa m st.
Proof.
  unfold duplex_row_kept, duplex_row_acc. apply proj_for. intros i [m' s]. rewrite proj_bind. apply abind_ext; [apply proj_absorb_sum|].
  intros s2. rewrite proj_bind. apply abind_ext; [apply proj_reduced|intros s3].
  rewrite proj_bind. apply abind_ext; [apply proj_fold; intros; pj_steps|intros m2].
  rewrite proj_bind. apply abind_ext; [apply proj_rotW|done].
Qed.
Lemma proj_setup_rows rl R C m st : proj (setup_rows_kept p rl R C m st) = setup_rows_acc p rl R C m st.
Proof.
  unfold setup_rows_kept, setup_rows_acc. apply proj_for. intros i [[m' s] v]. rewrite proj_bind. apply abind_ext; [apply proj_duplex_setup|intros [m2 s2]].
  pj_steps.
Qed.
Lemma proj_setup rl R C m st : proj (setup_kept p rl R C m st) = setup_acc p rl R C m st.
Proof.
  unfold setup_kept, setup_acc. rewrite proj_bind. apply abind_ext; [apply proj_row0|intros [m2 s2]].
  rewrite proj_bind. apply abind_ext; [apply proj_row1|intros [m3 s3]]. apply proj_setup_rows.
Qed.
Lemma proj_wander_pass sel rl R C step s : proj (wander_pass_kept p sel rl R C step s) = wander_pass_acc p sel rl R C step s.
Proof.
  unfold wander_pass_kept, wander_pass_acc. apply proj_loop. intros [[[[[m st] idx] row] prev] rowa]. destruct (sel st idx) as [x idx'].
  rewrite proj_bind. apply abind_ext; [done|intros n1]. cbv zeta.
  rewrite proj_bind. apply abind_ext; [apply proj_duplex|intros [m2 s2]].
  rewrite proj_bind. apply abind_ext; [done|intros row']. by destruct (row' =? 0).
Qed.
Lemma proj_wander sel rl t R C m st prev rowa :
  proj (wander_kept p sel rl t R C m st prev rowa) = wander_acc p sel rl t R C m st prev rowa.
Proof.
  unfold wander_kept, wander_acc. apply proj_for. intros i s. rewrite proj_bind. apply abind_ext; [done|intros step]. apply proj_wander_pass.
Qed.
Lemma proj_lyra2_with sel k pwd salt t R C :
  proj (lyra2_with_kept p sel k pwd salt t R C) = lyra2_with_acc p sel k pwd salt t R C.
Proof.
  unfold lyra2_with_kept, lyra2_with_acc. destruct (t <? 1); [done|]. destruct (R <? 3); [done|].
  do 4 (rewrite proj_bind; apply abind_ext; [done|intros ?]).
  rewrite proj_bind. apply abind_ext; [apply proj_write_input|intros m]. 
  rewrite proj_bind. apply abind_ext; [apply proj_absorb_input|intros st].
  rewrite proj_bind. apply abind_ext; [apply proj_setup|intros [[m2 st2] v]].
  rewrite proj_bind. apply abind_ext; [apply proj_wander|intros [[[[[m3 st3] idx] row] prev] rowa]].
  do 2 (rewrite proj_bind; apply abind_ext; [done|intros ?]).
  rewrite proj_bind. apply abind_ext; [apply proj_absorb|intros st4]. apply proj_squeeze.
Qed.
End proj.

(** ** The results without the log *)
Section fst.
Context (p : platform).
#[local] Opaque MLyra2.round_lyra blake2b_lyra_kept blake2b_lyra_acc.
Lemma fst_blake v : (blake2b_lyra_kept v).1 = Ok (MLyra2.blake2b_lyra v).
Proof. rewrite proj_fst, proj_blake. apply blake2b_erase. Qed.
Lemma fst_absorb b s w : (absorb_block_kept b s w).1 = MLyra2.absorb_block s w.
Proof. rewrite proj_fst, proj_absorb. apply absorb_block_erase. Qed.
Lemma fst_squeeze st k : (squeeze_kept p st k).1 = MLyra2.squeeze p st k.
Proof. rewrite proj_fst, proj_squeeze. apply squeeze_acc_erase. Qed.
Lemma fst_write_input k pwd salt t R C nb m :
  (write_input_kept p k pwd salt t R C nb m).1 = MLyra2.write_input p k pwd salt t R C nb m.
Proof. rewrite proj_fst, proj_write_input. apply write_input_erase. Qed.
Lemma fst_absorb_input nb m st : (absorb_input_kept p nb m st).1 = MLyra2.absorb_input p nb m st.
Proof. rewrite proj_fst, proj_absorb_input. apply absorb_input_acc_erase. Qed.
Lemma fst_row0 C m st : (squeeze_row0_kept p C m st).1 = MLyra2.squeeze_row0 p C m st.
Proof. rewrite proj_fst, proj_row0. apply squeeze_row0_erase. Qed.
Lemma fst_row1 rl C m st : (duplex_row1_kept p rl C m st).1 = MLyra2.duplex_row1 p rl C m st.
Proof. rewrite proj_fst, proj_row1. apply duplex_row1_erase. Qed.
Lemma fst_duplex rl C row prev rowa m st :
  (duplex_row_kept p rl C row prev rowa m st).1 = MLyra2.duplex_row p rl C row prev rowa m st.
Proof. rewrite proj_fst, proj_duplex. apply duplex_row_erase. Qed.
Lemma fst_setup_rows rl R C m st : (setup_rows_kept p rl R C m st).1 = MLyra2.setup_rows p rl R C m st.
Proof. rewrite proj_fst, proj_setup_rows. apply setup_rows_acc_erase. Qed.
Lemma fst_setup rl R C m st : (setup_kept p rl R C m st).1 = MLyra2.setup p rl R C m st.
Proof. rewrite proj_fst, proj_setup. apply setup_acc_erase. Qed.
Lemma fst_wander sel rl t R C m st prev rowa :
  (wander_kept p sel rl t R C m st prev rowa).1 = MLyra2.wander p sel rl t R C m st prev rowa.
Proof. rewrite proj_fst, proj_wander. apply wander_acc_erase. Qed.
Lemma fst_lyra2_with sel k pwd salt t R C :
  (lyra2_with_kept p sel k pwd salt t R C).1 = MLyra2.lyra2_with p sel k pwd salt t R C.
Proof. rewrite proj_fst, proj_lyra2_with. apply lyra2_with_acc_erase. Qed.
End fst.
Lemma kpost {A} (P : A -> Prop) (x : kept A) y a l : x.1 = y -> post P y -> x = (Ok a, l) -> P a.
Proof. intros <- H E. apply H. by rewrite E. Qed.
