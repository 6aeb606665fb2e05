(** * The row operations of the wandering phase permute the contents of memory and sponge *)
From Verif Require Import Machine MachineFacts MUtils WordFacts Schedule Refine Refine2 RefineInput RefineTop Domain TraceFacts InjFacts PhaseFacts RowCount2 WanderMerge.
From Verif Require Import SpecWord SpecBlake2b SpecLyra2 SpecCalls SpecPhases SpecRowChoice.
From Verif Require MLyra2.
From Verif Require Import MTrace MPhases VariantFacts.
#[local] Open Scope Z_scope.
#[local] Opaque all_states.

(** ** Maps of finite sets into themselves *)
Section finite.
Context {A} `{!EqDecision A} (P : A -> Prop) (U : list A) (HU : forall x, x ∈ U <-> P x) (HN : NoDup U).
Context (f : A -> A) (Hf : forall x, P x -> P (f x)).
Lemma finite_onto : (forall x x', P x -> P x' -> f x = f x' -> x = x') -> forall y, P y -> exists x, P x /\ f x = y.
Proof.
  intros Hinj y Hy.
  assert (HN' : NoDup (f <$> U)).
  { apply NoDup_fmap_2_strong; [|done]. intros x x' Hx%HU Hx'%HU. by apply Hinj. }
  assert (Hs : f <$> U ⊆+ U).
  { apply NoDup_submseteq; [done|]. intros z (x & -> & Hx%HU)%elem_of_list_fmap. by apply HU, Hf. }
  assert (HP : f <$> U ≡ₚ U) by (apply submseteq_Permutation_length_eq; [by rewrite fmap_length|done]).
  apply HU in Hy. rewrite <- HP in Hy. apply elem_of_list_fmap in Hy as (x & -> & Hx%HU). by exists x.
Qed.
Lemma nodup_fmap_inj : NoDup (f <$> U) -> forall x x', x ∈ U -> x' ∈ U -> f x = f x' -> x = x'.
Proof.
  clear Hf HU. intros HF. induction HN as [|a U' Ha HU' IH]; intros x x'; [by intros ?%elem_of_nil|].
  cbn in HF. apply NoDup_cons in HF as [Hfa HF].
  intros [->|Hx]%elem_of_cons [->|Hx']%elem_of_cons E; [done| | |by apply IH].
  - destruct Hfa. rewrite E. by apply elem_of_list_fmap_1.
  - destruct Hfa. rewrite <- E. by apply elem_of_list_fmap_1.
Qed.
Lemma finite_not_onto a a' : P a -> P a' -> a <> a' -> f a = f a' -> exists y, P y /\ forall x, P x -> f x <> y.
Proof.
  intros Ha Ha' Hne E.
  destruct (decide (Forall (fun y => y ∈ f <$> U) U)) as [HF|HF].
  - exfalso. rewrite Forall_forall in HF.
    assert (Hs : U ⊆+ f <$> U) by (apply NoDup_submseteq; [done|]; exact HF).
    assert (HP : U ≡ₚ f <$> U) by (apply submseteq_Permutation_length_eq; [by rewrite fmap_length|done]).
    apply Hne, nodup_fmap_inj; [by rewrite <- HP|by apply HU|by apply HU|done].
  - apply not_Forall_Exists in HF; [|apply _]. apply Exists_exists in HF as (y & Hy & Hn).
    exists y. split; [by apply HU|]. intros x Hx%HU <-. apply Hn. by apply elem_of_list_fmap_1.
Qed.
End finite.

(** ** All contents of memory and sponge *)
Definition all_contents (n : nat) : list (list Z * list Z) :=
  (fun x => (take n x, drop n x)) <$> all_states (n + 16).
Lemma all_contents_elem R C n s : Z.of_nat n = 12 * R * C -> s ∈ all_contents n <-> contents R C s.
Proof.
  intros Hn. unfold all_contents, contents. rewrite elem_of_list_fmap. split.
  - intros (x & -> & [Hl HF]%states_elem). cbn [fst snd]. rewrite take_length, drop_length.
    split; [lia|]. split; [by apply Forall_take|]. split; [lia|by apply Forall_drop].
  - destruct s as [m st]. cbn [fst snd]. intros (Hm & HFm & Hst & HFst). exists (m ++ st).
    assert (length m = n) as <- by lia. rewrite take_app, drop_app. split; [done|].
    apply states_elem. rewrite app_length. split; [lia|]. by apply Forall_app.
Qed.
Lemma all_contents_nodup n : NoDup (all_contents n).
Proof.
  apply NoDup_fmap_2; [|apply states_nodup]. intros x y [= E1 E2].
  rewrite <- (take_drop n x), <- (take_drop n y). by rewrite E1, E2.
Qed.

Section ops.
Context (p : platform) (Hp : known_platform p) (R C : Z) (HR : 3 <= R) (HC : 1 <= C)
  (Hmax : 96 * R * C <= isize_max p).
Notation row_len := (12 * C).
Lemma contents_good s : contents R C s <-> good R C s.
Proof.
  split.
  - intros (Hm & HFm & Hst & HFst). exists (unflatten C s.1). split; [|done].
    apply (flat_unflatten p); [lia|lia|lia|done|done].
  - intros [M (HF & _ & Hst)]. cbn [fst snd] in *. split; [|split; [|done]].
    + destruct HF as [Hl _]. unfold L, vlen in Hl. lia.
    + pose proof HF as HF'. destruct HF as [Hl H]. apply Forall_lookup. intros i x Hx.
      assert (Hi : (i < length s.1)%nat) by (by eapply lookup_lt_Some). unfold L, vlen in Hl.
      set (q := Z.of_nat i / 12). set (j := Z.of_nat i mod 12). set (r := q / C). set (c := q mod C).
      pose proof (Z.div_mod (Z.of_nat i) 12 ltac:(lia)) as H12. fold q j in H12.
      pose proof (Z.mod_pos_bound (Z.of_nat i) 12 ltac:(lia)) as Hj. fold j in Hj.
      pose proof (Z.div_mod q C ltac:(lia)) as HqC. fold r c in HqC.
      pose proof (Z.mod_pos_bound q C ltac:(lia)) as Hc. fold c in Hc.
      assert (Hq : 0 <= q < R * C) by nia.
      assert (Hr : 0 <= r < R).
      { split; [apply Z.div_pos; lia|]. apply Z.div_lt_upper_bound; nia. }
      assert (Hidx : i = Z.to_nat (idx C r c j)) by (unfold idx; nia).
      destruct (H r c Hr Hc) as [[_ HB] HJ]. rewrite Hidx, (HJ j Hj) in Hx.
      rewrite Forall_lookup in HB. by eapply HB.
Qed.

(** A row operation as a function. *)
Definition row_op (s : list Z * list Z) (x : Z * Z * Z) : outcome (list Z * list Z) :=
  let '(row, prev, rowa) := x in MLyra2.duplex_row p row_len C row prev rowa s.1 s.2.
Definition op_in_range (x : Z * Z * Z) : Prop :=
  let '(row, prev, rowa) := x in 0 <= row < R /\ 0 <= prev < R /\ 0 <= rowa < R.
Lemma op_Ok s x : contents R C s -> op_in_range x -> exists s', row_op s x = Ok s' /\ contents R C s'.
Proof.
  intros Hs Hx. destruct x as [[row prev] rowa]. destruct Hx as (H1 & H2 & H3).
  apply contents_good in Hs as [M HM].
  destruct (duplex_row_Ok p Hp R C HR HC Hmax s (M, s.2) row prev rowa HM H1 H2 H3) as (s' & E & HRel).
  exists s'. split; [exact E|]. apply contents_good. by eapply Rel_good.
Qed.
Lemma ops_Ok ops : Forall op_in_range ops -> forall s, contents R C s ->
  exists s', foldM row_op ops s = Ok s' /\ contents R C s'.
Proof.
  induction 1 as [|x ops Hx Hops IH]; intros s Hs; cbn [foldM]; [by exists s|].
  destruct (op_Ok s x Hs Hx) as (s1 & -> & Hs1). cbn [obind]. by apply IH.
Qed.
Lemma op_inj s s' x s1 : contents R C s -> contents R C s' -> op_in_range x ->
  row_op s x = Ok s1 -> row_op s' x = Ok s1 -> s = s'.
Proof.
  intros Hs%contents_good Hs'%contents_good Hx. destruct x as [[row prev] rowa].
  exact (redo_inj p Hp R C HR HC Hmax s s' (EvWander 0 row prev rowa) s1 Hs Hs' Hx).
Qed.
Lemma ops_inj ops : Forall op_in_range ops -> forall s s' s1, contents R C s -> contents R C s' ->
  foldM row_op ops s = Ok s1 -> foldM row_op ops s' = Ok s1 -> s = s'.
Proof.
  induction 1 as [|x ops Hx Hops IH]; intros s s' s1 Hs Hs'; cbn [foldM]; [congruence|].
  intros (s2 & E2 & E)%obind_Ok_inv (s3 & E3 & E')%obind_Ok_inv.
  destruct (op_Ok s x Hs Hx) as (? & E2' & Hs2). rewrite E2 in E2'. injection E2' as <-.
  destruct (op_Ok s' x Hs' Hx) as (? & E3' & Hs3). rewrite E3 in E3'. injection E3' as <-.
  assert (s2 = s3) as <- by exact (IH s2 s3 s1 Hs2 Hs3 E E').
  exact (op_inj s s' x s2 Hs Hs' Hx E2 E3).
Qed.
Definition value {A} (d : A) (o : outcome A) : A := match o with Ok x => x | _ => d end.
Lemma ops_permute ops : Forall op_in_range ops -> exists f,
  (forall s, contents R C s -> foldM row_op ops s = Ok (f s)) /\ permutes_on (contents R C) f.
Proof.
  intros Hops. exists (fun s => value s (foldM row_op ops s)).
  assert (HO : forall s, contents R C s -> foldM row_op ops s = Ok (value s (foldM row_op ops s)) /\ contents R C (value s (foldM row_op ops s))).
  { intros s Hs. destruct (ops_Ok ops Hops s Hs) as (s' & -> & Hs'). done. }
  assert (HI : forall x x', contents R C x -> contents R C x' -> value x (foldM row_op ops x) = value x' (foldM row_op ops x') -> x = x').
  { intros s s' Hs Hs' E. destruct (HO s Hs) as [E1 _]. destruct (HO s' Hs') as [E2 _]. rewrite <- E in E2.
    exact (ops_inj ops Hops s s' _ Hs Hs' E1 E2). }
  split; [intros s Hs; apply (HO s Hs)|]. split; [intros s Hs; apply (HO s Hs)|]. split; [exact HI|].
  assert (Hn : Z.of_nat (Z.to_nat (12 * R * C)) = 12 * R * C) by nia.
  apply (finite_onto (contents R C) (all_contents (Z.to_nat (12 * R * C)))).
  - intros s. by apply all_contents_elem.
  - apply all_contents_nodup.
  - intros s Hs. apply (HO s Hs).
  - exact HI.
Qed.
End ops.

(** ** The wandering phase *)
Definition op_of (x : Z * Z * Z * Z) : Z * Z * Z := let '(_, row, prev, rowa) := x in (row, prev, rowa).
Lemma redo_ops p C evs : forall s, foldM (redo p C) evs s = foldM (row_op p C) (op_of <$> wander_ops evs) s.
Proof.
  induction evs as [|e evs IH]; intros s; [done|].
  destruct e as [b|row prev rowa|tau row prev rowa]; cbn [foldM redo]; [apply IH..|].
  change (wander_ops (EvWander tau row prev rowa :: evs)) with ((tau, row, prev, rowa) :: wander_ops evs).
  cbn [fmap list_fmap foldM op_of row_op].
  destruct (MLyra2.duplex_row p (12 * C) C row prev rowa s.1 s.2); cbn [obind]; [apply IH|done..].
Qed.
Lemma ops_range R evs : Forall (in_range R) evs -> Forall (op_in_range R) (op_of <$> wander_ops evs).
Proof.
  induction 1 as [|e evs He Hes IH]; [constructor|].
  destruct e as [b|row prev rowa|tau row prev rowa]; [exact IH..|].
  change (wander_ops (EvWander tau row prev rowa :: evs)) with ((tau, row, prev, rowa) :: wander_ops evs).
  cbn [fmap list_fmap op_of]. constructor; [exact He|exact IH].
Qed.
Lemma wandering_permutes p R C : known_platform p -> 3 <= R -> 1 <= C -> 96 * R * C <= isize_max p ->
  exists F : list (Z * Z * Z) -> list Z * list Z -> list Z * list Z,
    (forall ops, Forall (op_in_range R) ops -> permutes_on (contents R C) (F ops)) /\
    (forall sel k pwd salt t rl m st v rl' m' st' rowa log,
       rust_args (isize_max p) k pwd salt t R C -> accepted (isize_max p) 0 pwd salt t R C ->
       until_setup p k pwd salt t R C = Ok (rl, m, st, v) ->
       until_wandering p sel k pwd salt t R C = Ok (rl', m', st', rowa, log) ->
       contents R C (m, st) /\ Forall (op_in_range R) (op_of <$> wander_ops log) /\
       (m', st') = F (op_of <$> wander_ops log) (m, st)).
Proof.
  intros Hp HR HC Hmax. exists (fun ops s => value s (foldM (row_op p C) ops s)). split.
  - intros ops Hops. destruct (ops_permute p Hp R C HR HC Hmax ops Hops) as (f & E & H1 & H2 & H3).
    assert (Ef : forall s, contents R C s -> value s (foldM (row_op p C) ops s) = f s) by (intros s Hs; by rewrite E).
    split; [intros s Hs; rewrite Ef by done; by apply H1|]. split.
    + intros s s' Hs Hs'. rewrite !Ef by done. by apply H2.
    + intros y Hy. destruct (H3 y Hy) as (s & Hs & <-). exists s. split; [done|by apply Ef].
  - intros sel k pwd salt t rl m st v rl' m' st' rowa log Ha Hacc Es Ew.
    destruct Ha as (Hk & Ht & _ & _ & [Hbp _] & [Hbs _]).
    destruct (until_setup_Ok p k pwd salt t R C Hp Hbp Hbs Ht Hk Hacc) as (m0 & st0 & M0 & Hw & Es0 & HRel).
    rewrite Es in Es0. injection Es0 as -> -> -> ->.
    unfold until_wandering in Ew. rewrite Es in Ew. cbn [obind] in Ew.
    change (MLyra2.r_prev (rows_at R)) with (R - 1) in Ew. change (MLyra2.r_rowa (rows_at R)) with (setup_rowa R) in Ew.
    apply obind_Ok_inv in Ew as ([[[[[[m1 st1] i1] row1] prev1] rowa1] log1] & E1 & [= <- <- <- <- <-]).
    pose proof (wander_log p Hp R C HR HC Hmax sel t m0 st0 [] _ Ht E1) as (evs0 & El0 & HF). cbn [snd app] in El0. subst log1.
    apply wander_redo in E1; [|done]. destruct E1 as (evs & Hevs & E1). cbn [app] in Hevs. subst evs.
    apply entries_in_range in HF; [|done..].
    assert (Hg : good R C (m0, st0)) by (by eapply Rel_good).
    split; [by apply (contents_good p)|]. split; [by apply ops_range|].
    rewrite <- redo_ops, E1. reflexivity.
Qed.

(** ** Contents that are never reached *)
Lemma wander_contents p R C sel choose t s : known_platform p -> 3 <= R -> 1 <= C -> 96 * R * C <= isize_max p ->
  sel_ok sel choose -> 1 <= t < 2 ^ 64 -> contents R C s ->
  exists r, MLyra2.wander p sel (12 * C) t R C s.1 s.2 (R - 1) (setup_rowa R) = Ok r /\
    contents R C (let '(m, st, _, _, _, _) := r in (m, st)).
Proof.
  intros Hp HR HC Hmax Hsel Ht Hs. apply (contents_good p) in Hs as [M HM]; [|done..].
  destruct (wander_Ok p Hp R C HR HC Hmax sel choose Hsel t s (M, s.2) Ht HM) as (r & E & HW).
  exists r. split; [exact E|]. destruct r as [[[[[m st] i] row] prev] rowa].
  destruct (wander R C (reduce_mask R) choose t (M, s.2)) as [[[[M' st'] i'] prev'] rowa'].
  destruct HW as [HW _]. apply (contents_good p); [done..|]. by eapply Rel_good.
Qed.
#[local] Opaque MLyra2.wander.
Definition wander41 (s : list Z * list Z) : outcome (list Z * list Z * Z * Z * Z * Z) :=
  MLyra2.wander debug64 MLyra2.sel_lyra2 12 1 4 1 s.1 s.2 3 0.
Lemma wander41_contents s : contents 4 1 s ->
  exists r, wander41 s = Ok r /\ contents 4 1 (let '(m, st, _, _, _, _) := r in (m, st)).
Proof.
  intros Hs. assert (H0 : setup_rowa 4 = 0) by reflexivity.
  pose proof (wander_contents debug64 4 1 MLyra2.sel_lyra2 choose_first 1 s ltac:(by right) ltac:(lia) ltac:(lia)
    ltac:(vm_compute; discriminate) sel_lyra2_ok ltac:(lia) Hs) as H.
  rewrite H0 in H. exact H.
Qed.
Lemma wandering_misses : exists s', contents 4 1 s' /\
  forall s, contents 4 1 s -> forall i row prev rowa, wander41 s <> Ok (s', i, row, prev, rowa).
Proof.
  pose (f := fun s => match wander41 s with Ok (m, st, _, _, _, _) => (m, st) | _ => s end).
  destruct wandering_merges as (m & st & m' & st' & H1 & H2 & H3 & H4 & H1' & H2' & H3' & H4' & Hne & E & _).
  destruct (finite_not_onto (contents 4 1) (all_contents 48) (fun s => all_contents_elem 4 1 48 s eq_refl)
    (all_contents_nodup 48) f) with (a := (m, st)) (a' := (m', st')) as (y & Hy & Hn).
  - split; [cbn [fst]; rewrite H1; reflexivity|]. done.
  - split; [cbn [fst]; rewrite H1'; reflexivity|]. done.
  - exact Hne.
  - unfold f, wander41. cbn [fst snd]. rewrite E.
    destruct (wander41_contents (m', st')) as ([[[[[m1 st1] i1] r1] p1] ra1] & Ew & _).
    { split; [cbn [fst]; rewrite H1'; reflexivity|]. done. }
    unfold wander41 in Ew. cbn [fst snd] in Ew. rewrite Ew. reflexivity.
  - exists y. split; [exact Hy|]. intros s Hs i row prev rowa Ew. apply (Hn s Hs). unfold f. rewrite Ew.
    by destruct y.
Qed.

Lemma setup_before p sel k pwd salt t R C rl m' st' ra log :
  until_wandering p sel k pwd salt t R C = Ok (rl, m', st', ra, log) ->
  exists m st v, until_setup p k pwd salt t R C = Ok (rl, m, st, v).
Proof.
  unfold until_wandering. intros E.
  apply obind_Ok_inv in E as ([[[rl0 m] st] v] & Es & E).
  apply obind_Ok_inv in E as ([[[[[[? ?] ?] ?] ?] ?] ?] & _ & E). injection E as -> _ _ _ _. eauto.
Qed.
