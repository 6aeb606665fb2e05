(** * The logged steps are the specified ones *)
From Verif Require Import Machine MachineFacts MUtils WordFacts Schedule Refine Refine2 RefineInput RefineTop Domain LyraFacts Padding Coverage.
From Verif Require Import SpecWord SpecBlake2b SpecLyra2 SpecCalls SpecSchedule.
From Verif Require MLyra2.
Import MLyra2 (r_prev, r_rowa).
From Verif Require Import MTrace TraceFacts MAccess SpecAccess AccessFacts PAccessLemmas SpecSteps.
#[local] Opaque blake2b_round.

(** ** [note_visit] *)
Section note.
Context (C : Z) (reduce : Z -> Z) (choose : chooser).
Notation nv := (note_visit C reduce choose).
Lemma note_visit_fst x v : (nv x v).1 = wander_visit C reduce choose x.1 v.2.
Proof.
  destruct x as [[[[[M st] i] prev] rowa] l], v as [tau row]. unfold note_visit, wander_visit. cbn [fst snd].
  destruct (choose st i) as [w i1]. reflexivity.
Qed.
Lemma note_fst l x : (foldl nv x l).1 = foldl (wander_visit C reduce choose) x.1 (snd <$> l).
Proof.
  revert x. induction l as [|v l IH]; intros x; [done|]. cbn [foldl fmap list_fmap].
  by rewrite IH, note_visit_fst.
Qed.
Lemma note_app l w ops : foldl nv (w, ops) l = ((foldl nv (w, []) l).1, ops ++ (foldl nv (w, []) l).2).
Proof.
  revert w ops. induction l as [|[tau row] l IH]; intros w ops; [cbn; by rewrite app_nil_r|].
  cbn [foldl]. destruct w as [[[[M st] i] prev] rowa]. unfold note_visit at 2 4 6.
  rewrite IH. rewrite (IH _ ([] ++ _)). cbn [fst snd app]. by rewrite <- app_assoc.
Qed.
Lemma note_length l w : length (foldl nv (w, []) l).2 = length l.
Proof.
  revert w. induction l as [|[tau row] l IH]; intros w; [done|]. cbn [foldl].
  destruct w as [[[[M st] i] prev] rowa]. unfold note_visit at 2. rewrite note_app. cbn [snd app length].
  by rewrite IH.
Qed.
(** Carrying out the steps one after the other gives the matrix and the state. *)
Lemma note_replay l M st i prev rowa M' st' i' prev' rowa' ops :
  foldl nv ((M, st, i, prev, rowa), []) l = ((M', st', i', prev', rowa'), ops) ->
  (M', st') = foldl (fun s '(_, row, prev, rowa) => wander_row C row prev rowa s) (M, st) ops /\
  rowa' = List.last (snd <$> ops) rowa.
Proof.
  revert M st i prev rowa ops. induction l as [|[tau row] l IH]; intros M st i prev rowa ops.
  { by intros [= -> -> -> -> -> <-]. }
  cbn [foldl]. unfold note_visit at 2. cbn [app]. rewrite note_app. unfold wander_visit.
  destruct (choose st i) as [w i1]. cbn [fst].
  destruct (wander_row C row prev (reduce w) (M, st)) as [M1 st1] eqn:Ew.
  match goal with |- context [foldl nv ?x l] => destruct (foldl nv x l) as [[[[[M2 st2] i2] prev2] rowa2] ops2] eqn:El end.
  cbn [fst snd app]. intros [= -> -> -> -> -> <-].
  apply IH in El as [H1 H2]. cbn [foldl fmap list_fmap snd]. rewrite Ew. split; [exact H1|].
  rewrite H2. destruct (snd <$> ops2) as [|y ys]; [done|].
  change (List.last (reduce w :: y :: ys) rowa) with (List.last (y :: ys) rowa). apply last_default.
Qed.
End note.

(** The steps do not depend on the initial contents of the matrix. *)
Lemma note_agree R C reduce choose l w w' : 0 <= C -> (forall x, 0 <= reduce x < R) ->
  Forall (fun v : Z * Z => 0 <= v.2 < R) l -> agree_w R C w w' ->
  (foldl (note_visit C reduce choose) (w, []) l).2 = (foldl (note_visit C reduce choose) (w', []) l).2.
Proof.
  intros HC Hred Hl. revert w w'. induction Hl as [|[tau row] l Hr Hl IH]; intros w w' Hw; [done|].
  cbn [foldl].
  pose proof (wander_visit_agree R C HC reduce Hred choose w w' row Hr Hw) as Hv.
  destruct w as [[[[M st] i] prev] rowa], w' as [[[[M' st'] i'] prev'] rowa'].
  destruct Hw as (HA & <- & <- & <- & <- & Hp & Hra). unfold note_visit at 2 4. cbn [app].
  match goal with |- (foldl _ (?w, [?e]) l).2 = _ => rewrite (note_app C reduce choose l w [e]) end. cbn [snd].
  match goal with |- _ = (foldl _ (?w, [?e]) l).2 => rewrite (note_app C reduce choose l w [e]) end. cbn [snd].
  f_equal.
  assert (Hra' : forall N, wander_visit C reduce choose (N, st, i, prev, reduce (choose st i).1) row =
                 wander_visit C reduce choose (N, st, i, prev, rowa) row).
  { done. }
  rewrite !Hra'. apply IH. exact Hv.
Qed.

Section steps.
Context (p : platform) (Hp : known_platform p) (R C : Z).
Context (HR : 3 <= R) (HC : 1 <= C) (Hmax : 96 * R * C <= isize_max p).
Notation row_len := (12 * C).
Notation Rel := (Rel R C).
Context (sel : MLyra2.selector) (choose : chooser) (Hsel : sel_ok sel choose).
Notation pass_state := (list Z * list Z * Z * Z * Z * Z)%type.
Notation WRel := (WRel R C).
Notation nv := (note_visit C (reduce_mask R) choose).

(** A loop body that does what [pass_body] does and logs [ent] of its step. *)
Context {X : Type} (ent : step -> list X).
Definition logs_step (tau stp : Z) (body : pass_state * list X -> outcome (pass_state * list X + pass_state * list X)) : Prop :=
  forall row m st i prev rowa l M w, WRel row (m, st, i, row, prev, rowa) (M, st, i, prev, rowa) ->
    w = reduce_mask R (choose st i).1 -> 0 <= w < R -> forall s',
    (pass_body p R C sel stp (m, st, i, row, prev, rowa) = Ok (inl s') ->
     body ((m, st, i, row, prev, rowa), l) = Ok (inl (s', l ++ ent (tau, row, prev, w)))) /\
    (pass_body p R C sel stp (m, st, i, row, prev, rowa) = Ok (inr s') ->
     body ((m, st, i, row, prev, rowa), l) = Ok (inr (s', l ++ ent (tau, row, prev, w)))).
Definition WL (l0 : list X) (row : Z) (s : pass_state * list X) (t : wstate * list step) : Prop :=
  WRel row s.1 t.1 /\ s.2 = l0 ++ (t.2 ≫= ent).
Lemma body_log l0 tau stp body row s t : -1 <= stp <= R -> logs_step tau stp body -> WL l0 row s t ->
  exists s', body s = (if next R stp row =? 0 then Ok (inr s') else Ok (inl s')) /\
    WL l0 (next R stp row) s' (nv t (tau, row)).
Proof.
  intros Hs Hb [HW Hl]. destruct s as [[[[[[m st] i] row'] prev] rowa] l].
  destruct t as [[[[[M st'] i'] prev'] rowa'] ops]. cbn [fst snd] in *.
  destruct (pass_body_Ok p Hp R C HR HC Hmax sel choose Hsel stp row _ _ Hs HW) as (s' & E & HW').
  pose proof HW as (HRel & -> & -> & -> & -> & Hrow & Hprev & Hrowa).
  pose proof HRel as (HF & Heq & Hst). cbn in HF, Heq, Hst. subst st'.
  assert (Hw : 0 <= reduce_mask R (choose st i').1 < R).
  { unfold reduce_mask. pose proof (land_le (choose st i').1 (R - 1)). lia. }
  destruct (Hb row m st i' prev' rowa' l M _ HW eq_refl Hw s') as [H1 H2].
  exists (s', l ++ ent (tau, row, prev', reduce_mask R (choose st i').1)). split.
  - destruct (next R stp row =? 0); [by apply H2|by apply H1].
  - split; cbn [fst snd].
    + rewrite note_visit_fst. cbn [fst snd]. exact HW'.
    + unfold note_visit. cbn [snd]. rewrite bind_app. cbn. by rewrite app_nil_r, app_assoc, Hl.
Qed.
Lemma pass_steps l0 tau stp body n : -1 <= stp <= R -> logs_step tau stp body -> forall N row s t,
  (n <= N)%nat -> (exists k, (k < n)%nat /\ next R stp (Nat.iter k (next R stp) row) = 0) ->
  WL l0 row s t ->
  exists s', run_n N body s = Ok (inr s') /\
    WL l0 0 s' (foldl nv t ((fun row => (tau, row)) <$> visit n (next R stp) row)).
Proof.
  intros Hstep Hb. induction n as [|n IH]; intros N row s t HN (k & Hk & Ek) HW; [lia|].
  destruct N as [|N]; [lia|]. cbn [run_n visit fmap list_fmap foldl].
  destruct (body_log l0 tau stp body row s t Hstep Hb HW) as (s1 & E & HW1). rewrite E.
  destruct (next R stp row =? 0) eqn:E0.
  - cbn [obind foldl fmap list_fmap]. exists s1. split; [done|]. apply Z.eqb_eq in E0. by rewrite E0 in HW1.
  - cbn [obind]. apply IH; [lia| |done].
    destruct k as [|k]; [simpl in Ek; apply Z.eqb_neq in E0; done|].
    exists k. split; [lia|]. rewrite <- Ek. f_equal.
    clear. induction k; simpl; [done|]. by rewrite IHk.
Qed.
Lemma loop_steps l0 tau body s t : logs_step tau (wander_step R tau) body -> WL l0 0 s t ->
  exists s', loop64 body s = Ok s' /\
    WL l0 0 s' (foldl nv t ((fun row => (tau, row)) <$> pass_rows R (reduce_mask R) tau)).
Proof.
  intros Hb HW. rewrite loop64_run. destruct (wander_step_Ok p Hp R C HR HC Hmax tau) as [_ Hs].
  destruct (pass_steps l0 tau (wander_step R tau) body (Z.to_nat R) Hs Hb fuel64 0 s t) as (s' & E & HW').
  - pose proof fuel64_Z. pose proof (R_bound p Hp R C HR HC Hmax). lia.
  - apply (next_returns p Hp R C HR HC Hmax).
  - done.
  - rewrite E. cbn [obind]. exists s'. split; [reflexivity|exact HW'].
Qed.
End steps.

Section both.
Context (p : platform) (Hp : known_platform p) (R C : Z).
Context (HR : 3 <= R) (HC : 1 <= C) (Hmax : 96 * R * C <= isize_max p).
Notation row_len := (12 * C).
Notation Rel := (Rel R C).
Context (sel : MLyra2.selector) (choose : chooser) (Hsel : sel_ok sel choose).
Notation nv := (note_visit C (reduce_mask R) choose).

Definition ev_of (x : step) : list event := let '(tau, row, prev, rowa) := x in [EvWander tau row prev rowa].
Definition acc_of (x : step) : list access := let '(_, row, prev, rowa) := x in wander_row_accesses C row prev rowa.

Lemma tr_body tau stp : -1 <= stp <= R -> logs_step p R C sel choose ev_of tau stp
  (fun '(m, state, index, row, prev, rowa, log) =>
    let '(x, index) := sel state index in
    n1 <-- usub p R 1 ;;
    let rowa := as_i64 (Z.land x n1) in
    '(m, state) <-- MLyra2.duplex_row p row_len C row prev rowa m state ;;
    let log := log ++ [EvWander tau row prev rowa] in
    let prev := row in
    row <-- MLyra2.wander_next p R stp row ;;
    let s := (m, state, index, row, prev, rowa, log) in
    if row =? 0 then Ok (inr s) else Ok (inl s)).
Proof.
  intros Hs row m st i prev rowa l M w HW Ew Hw s'. pose proof (R_bound p Hp R C HR HC Hmax) as HRb.
  destruct HW as ((_ & _ & Hst) & _). cbn in Hst. destruct (Hsel st i Hst) as [Es _]. unfold pass_body.
  rewrite Es. destruct (choose st i) as [x i1]. cbn [fst] in Ew.
  unfold usub. rewrite chk_u64_Ok by lia. cbn [obind]. rewrite (as_i64_land p Hp R C HR HC Hmax).
  change (Z.land x (R - 1)) with (reduce_mask R x). rewrite <- Ew.
  destruct (MLyra2.duplex_row _ _ _ _ _ _ _ _) as [[m1 s1]| |]; [|done..]. cbn [obind].
  destruct (MLyra2.wander_next p R stp row) as [r| |]; [|done..]. cbn [obind].
  destruct (r =? 0); split; intros [= <-]; done.
Qed.
Lemma acc_body tau stp : -1 <= stp <= R -> logs_step p R C sel choose acc_of tau stp
  (fun '(s, l) => '(r, l') <-- pass_acc_body p R C sel stp s ;;
    match r with inl s' => Ok (inl (s', l ++ l')) | inr t => Ok (inr (t, l ++ l')) end).
Proof.
  intros Hs row m st i prev rowa l M w HW Ew Hw s'. pose proof (R_bound p Hp R C HR HC Hmax) as HRb.
  destruct HW as ((_ & _ & Hst) & _ & _ & _ & _ & Hrow & Hprev & _). cbn in Hst. destruct (Hsel st i Hst) as [Es _].
  assert (E : pass_acc_body p R C sel stp (m, st, i, row, prev, rowa) =
    (r <-- pass_body p R C sel stp (m, st, i, row, prev, rowa) ;; Ok (r, wander_row_accesses C row prev w))).
  { unfold pass_body, pass_acc_body. rewrite Es. destruct (choose st i) as [x i1]. cbn [fst] in Ew.
    unfold usub, quiet at 1. rewrite chk_u64_Ok by lia. unfold abind at 1. cbn [obind]. rewrite (as_i64_land p Hp R C HR HC Hmax).
    change (Z.land x (R - 1)) with (reduce_mask R x). rewrite <- Ew.
    rewrite <- duplex_row_erase.
    pose proof (wander_row_log p Hp R C HR HC Hmax row prev w m st Hrow Hprev Hw) as HL.
    destruct (duplex_row_acc p row_len C row prev w m st) as [[[m1 s1] l1]| |] eqn:Ed; [|done..].
    specialize (HL _ _ eq_refl). subst l1. unfold abind at 1. cbn [erase obind].
    destruct (MLyra2.wander_next p R stp row) as [r| |]; [|done..]. unfold abind at 1. cbn [obind quiet].
    destruct (r =? 0); cbn [obind aret app fst snd]; by rewrite ?app_nil_r. }
  rewrite E. split; intros ->; done.
Qed.

Lemma wander_tr_Ok time s M st log : 1 <= time < 2 ^ 64 -> Rel s (M, st) ->
  exists s', wander_tr p sel row_len time R C s.1 s.2 (R - 1) (setup_rowa R) log =
    Ok (s', log ++ ((foldl nv ((M, st, 0, R - 1, setup_rowa R), []) (wander_rows R time)).2 ≫= ev_of)).
Proof.
  intros Ht HRel. unfold wander_tr, wander_rows.
  rewrite for_range_foldM by lia. replace (time + 1 - 1) with time by lia. rewrite foldl_bind.
  destruct (foldM_sim (WL R C ev_of log 0)
    (fun s tau => step <-- MLyra2.wander_step p R tau ;; wander_pass_tr p sel row_len R C tau step s)
    (fun a tau => foldl nv a ((fun row => (tau, row)) <$> pass_rows R (reduce_mask R) tau))
    (seqZ 1 time) (s.1, s.2, 0, 0, R - 1, setup_rowa R, log) ((M, st, 0, R - 1, setup_rowa R), [])) as ([s' l'] & E & _ & Hl).
  - pose proof (setup_rowa_lt R ltac:(lia)). destruct s as [m st']. split; [|cbn; by rewrite app_nil_r].
    split; [exact HRel|]. repeat split; lia.
  - intros s1 t1 tau _ HW. destruct (wander_step_Ok p Hp R C HR HC Hmax tau) as [-> Hs]. cbn [obind].
    apply (loop_steps p Hp R C HR HC Hmax sel choose Hsel ev_of log tau _ s1 t1 (tr_body tau _ Hs) HW).
  - exists s'. cbn [snd] in Hl. rewrite <- Hl. exact E.
Qed.
Lemma wander_acc_Ok time s M st : 1 <= time < 2 ^ 64 -> Rel s (M, st) ->
  let x := foldl nv ((M, st, 0, R - 1, setup_rowa R), []) (wander_rows R time) in
  exists s', wander_acc p sel row_len time R C s.1 s.2 (R - 1) (setup_rowa R) = Ok (s', x.2 ≫= acc_of) /\
    WRel R C 0 s' x.1.
Proof.
  intros Ht HRel. cbv zeta. unfold wander_acc, wander_rows, afor.
  rewrite for_range_foldM by lia. replace (time + 1 - 1) with time by lia. rewrite foldl_bind.
  destruct (foldM_sim (WL R C acc_of [] 0)
    (fun '(s, l) tau => '(s', l') <-- (stp <~~ quiet (MLyra2.wander_step p R tau) ;; wander_pass_acc p sel row_len R C stp s) ;; Ok (s', l ++ l'))
    (fun a tau => foldl nv a ((fun row => (tau, row)) <$> pass_rows R (reduce_mask R) tau))
    (seqZ 1 time) (s.1, s.2, 0, 0, R - 1, setup_rowa R, []) ((M, st, 0, R - 1, setup_rowa R), [])) as ([s' l'] & E & HW & Hl).
  - pose proof (setup_rowa_lt R ltac:(lia)). destruct s as [m st']. split; [|done].
    split; [exact HRel|]. repeat split; lia.
  - intros [s1 l1] [w1 ops] tau _ [HW Hl]. destruct (wander_step_Ok p Hp R C HR HC Hmax tau) as [-> Hs].
    cbn [fst snd] in HW, Hl. subst l1.
    destruct (loop_steps p Hp R C HR HC Hmax sel choose Hsel acc_of [] tau _ (s1, []) (w1, []) (acc_body tau _ Hs) (conj HW eq_refl))
      as ([s2 l2] & E2 & HW2 & Hl2).
    cbn [snd app] in Hl2. subst l2.
    assert (E3 : wander_pass_acc p sel row_len R C (wander_step R tau) s1 = Ok (s2, (foldl nv (w1, []) ((fun row => (tau, row)) <$> pass_rows R (reduce_mask R) tau)).2 ≫= acc_of)).
    { exact E2. }
    unfold quiet, abind. cbn [obind]. rewrite E3. cbn [obind app].
    eexists. split; [reflexivity|]. rewrite (note_app _ _ _ _ w1 ops). split; cbn [fst snd]; [exact HW2|].
    cbn [app]. by rewrite bind_app.
  - exists s'. cbn [fst snd app] in Hl, HW. subst l'. split; [|exact HW].
    rewrite <- E. apply foldM_ext. by intros [a b] c _.
Qed.
End both.

(** ** Whole calls *)
Section top.
Context (p : platform) (Hp : known_platform p).
Context (sel : MLyra2.selector) (choose : chooser) (Hsel : sel_ok sel choose).
Context (k : Z) (pwd salt : list Z) (t R C : Z).
Context (Ha : rust_args (isize_max p) k pwd salt t R C).
Notation steps := (wander_steps choose (code_blocks k pwd salt t R C) t R C).

(** The steps from the matrix that holds the input. *)
Lemma steps_from M0 : 3 <= R -> 1 <= C -> let '(M, st) := setup R C (M0, absorb_all (code_blocks k pwd salt t R C)) in
  (foldl (note_visit C (reduce_mask R) choose) ((M, st, 0, R - 1, setup_rowa R), []) (wander_rows R t)).2 = steps.
Proof.
  intros HR HC. unfold wander_steps.
  pose proof (setup_agree R C ltac:(lia) M0 blank (absorb_all (code_blocks k pwd salt t R C)) HR) as HA.
  destruct (setup R C (M0, _)) as [M st], (setup R C (blank, _)) as [M' st'].
  destruct HA as [HA Hst]. cbn [fst snd] in HA, Hst. subst st'.
  pose proof (setup_rowa_lt R ltac:(lia)).
  apply (note_agree R); [lia| | |].
  - intros x. unfold reduce_mask. pose proof (land_le x (R - 1)). lia.
  - unfold wander_rows. apply Forall_bind, Forall_true. intros tau. apply Forall_fmap.
    apply (visit_range R); [|lia]. intros x. unfold reduce_mask. pose proof (land_le (x + wander_step R tau) (R - 1)). lia.
  - repeat split; try lia; done.
Qed.

Context (Hacc : accepted (isize_max p) 0 pwd salt t R C).
Lemma top_tr out log : lyra2_with_tr p sel k pwd salt t R C = Ok (out, log) ->
  log = (EvAbsorb <$> code_blocks k pwd salt t R C) ++
        ((fun row => EvSetup row (row - 1) (setup_rowa row)) <$> seqZ 2 (R - 2)) ++ (steps ≫= ev_of).
Proof.
  destruct Ha as (Hk & Ht & HRw & HCw & [Hbp Hlp] & [Hbs Hls]).
  destruct Hacc as (Ht1 & HR & Hk96 & HC0 & Hsz).
  pose proof (isize_usize p Hp) as Hi. pose proof (n_blocks_bounds pwd salt) as Hnb.
  assert (HC : 1 <= C) by nia.
  assert (Hmax : 96 * R * C <= isize_max p) by lia.
  assert (Ht64 : 1 <= t < 2 ^ 64) by (unfold word in Ht; lia).
  pose proof (L_bound p Hp R C HR HC Hmax) as HL.
  unfold lyra2_with_tr. rewrite (proj2 (Z.ltb_ge t 1)), (proj2 (Z.ltb_ge R 3)) by lia.
  unfold imul at 1, as_i64 at 1. rewrite wrap_i64_id by lia. unfold MLyra2.BLOCKLENINT64.
  rewrite chk_i64_Ok by lia. cbn [obind].
  unfold imul at 1, as_i64 at 1. rewrite wrap_i64_id by lia.
  replace (R * (12 * C)) with (12 * R * C) by lia. rewrite chk_i64_Ok by lia. cbn [obind].
  unfold as_usize at 1. rewrite Z.mod_small by lia.
  unfold vec_zeroed. rewrite (proj2 (Z.leb_le _ _)) by lia. cbn [obind].
  rewrite (n_blocks_input_Ok p Hp) by lia. cbn [obind].
  rewrite (write_input_Ok p Hp) by (done || lia). cbn [obind].
  set (m := input_matrix _ _ _ _ _ _ _).
  assert (Hml : vlen m = 12 * R * C) by (apply input_matrix_length; lia).
  assert (Hmw : Forall (word 64) m).
  { apply input_matrix_words; try done; unfold word, vlen in *; lia. }
  assert (Htake : take (Z.to_nat (8 * n_blocks pwd salt)) m = code_padded k pwd salt t R C).
  { apply input_matrix_take. lia. }
  destruct (absorb_input_Ok p Hp (n_blocks pwd salt) m) as [Eabs Hst]; [lia|lia|lia|done|].
  rewrite Htake in *. fold (code_blocks k pwd salt t R C) in *.
  intros ([st1 log1] & E1 & E)%obind_Ok_inv.
  pose proof (absorb_input_erase p (n_blocks pwd salt) m MLyra2.init_state) as Er1.
  rewrite E1, Eabs in Er1. injection Er1 as ->.
  apply (absorb_input_log p Hp) in E1; [|lia|lia|lia]. rewrite Htake in E1.
  fold (code_blocks k pwd salt t R C) in E1. subst log1.
  apply obind_Ok_inv in E as ([[[m2 st2] v] log2] & E2 & E).
  pose proof (setup_erase p (12 * C) R C m (absorb_all (code_blocks k pwd salt t R C))
                (EvAbsorb <$> code_blocks k pwd salt t R C)) as Er2.
  destruct (setup_Ok p Hp R C HR HC Hmax m _ _ (flat_unflatten p R C m HR HC Hmax Hml Hmw) Hst) as (m1 & st1 & Es & HRel).
  rewrite E2, Es in Er2. injection Er2 as -> -> ->.
  apply (setup_log p Hp R C HR HC Hmax) in E2 as [_ ->].
  change (r_prev (rows_at R)) with (R - 1) in E. change (r_rowa (rows_at R)) with (setup_rowa R) in E.
  apply obind_Ok_inv in E as ([[[[[[m3 st3] i3] row3] prev3] rowa3] log3] & E3 & E).
  apply obind_Ok_inv in E as (a & _ & (r & _ & (st4 & _ & (o & _ & [= _ <-])%obind_Ok_inv)%obind_Ok_inv)%obind_Ok_inv).
  pose proof (steps_from (unflatten C m) HR HC) as Hst2.
  destruct (setup R C (unflatten C m, _)) as [M2 stM].
  destruct (wander_tr_Ok p Hp R C HR HC Hmax sel choose Hsel t _ M2 stM
    ((EvAbsorb <$> code_blocks k pwd salt t R C) ++
     ((fun row => EvSetup row (row - 1) (setup_rowa row)) <$> seqZ 2 (R - 2))) Ht64 HRel) as (s' & E4).
  cbn [fst snd] in E4. rewrite E3 in E4. injection E4 as _ ->. rewrite Hst2. by rewrite <- app_assoc.
Qed.
Lemma top_acc st log : before_acc p sel k pwd salt t R C = Ok (st, log) ->
  log = input_accesses (vlen pwd) (vlen salt) ++ setup_accesses R C ++ (steps ≫= acc_of C) ++
        each Rd (cell_addrs C (last_rowa steps) 0) ++ rounds 12.
Proof.
  destruct Ha as (Hkw & Htw & HRw & HCw & [Hbp Hlp] & [Hbs Hls]).
  destruct Hacc as (Ht1 & HR & Hk96 & HC0 & Hsz).
  pose proof (isize_usize p Hp) as Hi. pose proof (n_blocks_bounds pwd salt) as Hnb.
  assert (HC : 1 <= C) by nia.
  assert (Hmax : 96 * R * C <= isize_max p) by lia.
  assert (Ht : 1 <= t < 2 ^ 64) by (unfold word in Htw; lia).
  pose proof (L_bound p Hp R C HR HC Hmax) as HL.
  unfold before_acc. rewrite (proj2 (Z.ltb_ge t 1)), (proj2 (Z.ltb_ge R 3)) by lia. intros E0.
  apply abind_inv in E0 as (rl & ? & ? & [Erl ->]%quiet_inv & E0 & ->).
  unfold imul, as_i64, MLyra2.BLOCKLENINT64 in Erl. rewrite wrap_i64_id, chk_i64_Ok in Erl by lia. injection Erl as <-.
  apply abind_inv in E0 as (tot & ? & ? & [Et ->]%quiet_inv & E0 & ->).
  unfold imul, as_i64 in Et. rewrite wrap_i64_id in Et by lia.
  replace (R * (12 * C)) with (12 * R * C) in Et by lia. rewrite chk_i64_Ok in Et by lia. injection Et as <-.
  apply abind_inv in E0 as (m0 & ? & ? & [Em ->]%quiet_inv & E0 & ->).
  unfold as_usize in Em. rewrite Z.mod_small in Em by lia.
  unfold vec_zeroed in Em. rewrite (proj2 (Z.leb_le _ _)) in Em by lia. injection Em as <-.
  apply abind_inv in E0 as (nb & ? & ? & [En ->]%quiet_inv & E0 & ->).
  rewrite (n_blocks_input_Ok p Hp) in En by lia. injection En as <-.
  apply abind_inv in E0 as (m & l1 & ? & E1 & E0 & ->).
  assert (Em1 : m = input_matrix (12 * R * C) k pwd salt t R C).
  { pose proof (erase_Ok _ _ _ E1) as E1'. rewrite write_input_erase, (write_input_Ok p Hp) in E1' by (done || lia).
    by injection E1'. }
  apply (write_input_log p Hp) in E1 as ->; [|lia].
  assert (Hml : vlen m = 12 * R * C) by (rewrite Em1; apply input_matrix_length; lia).
  assert (Hmw : Forall (word 64) m).
  { rewrite Em1. apply input_matrix_words; try done; unfold word, vlen in *; lia. }
  assert (Htake : take (Z.to_nat (8 * n_blocks pwd salt)) m = code_padded k pwd salt t R C).
  { rewrite Em1. apply input_matrix_take. lia. }
  destruct (absorb_input_Ok p Hp (n_blocks pwd salt) m) as [Eabs Hst]; [lia|lia|lia|done|].
  rewrite Htake in *. fold (code_blocks k pwd salt t R C) in *.
  apply abind_inv in E0 as (st1 & l2 & ? & E2 & E0 & ->).
  pose proof (erase_Ok _ _ _ E2) as Er1. rewrite absorb_input_acc_erase, Eabs in Er1. injection Er1 as <-.
  apply (logs_absorb_input p Hp) in E2 as ->; [|lia..].
  apply abind_inv in E0 as ([[m2 st2] v] & l3 & ? & E3 & E0 & ->).
  pose proof (erase_Ok _ _ _ E3) as Er2. rewrite setup_acc_erase in Er2.
  destruct (setup_Ok p Hp R C HR HC Hmax m _ _ (flat_unflatten p R C m HR HC Hmax Hml Hmw) Hst) as (m1 & st1 & Es & HRel).
  rewrite Es in Er2. injection Er2 as -> -> <-.
  apply (setup_acc_log p Hp R C HR HC Hmax) in E3 as [_ ->].
  change (MLyra2.r_prev (rows_at R)) with (R - 1) in E0. change (MLyra2.r_rowa (rows_at R)) with (setup_rowa R) in E0.
  apply abind_inv in E0 as ([[[[[m3 st3] i3] row3] prev3] rowa3] & l4 & ? & E4 & E0 & ->).
  pose proof (steps_from (unflatten C m) HR HC) as Hst2.
  destruct (setup R C (unflatten C m, _)) as [M2 stM].
  destruct (wander_acc_Ok p Hp R C HR HC Hmax sel choose Hsel t _ M2 stM Ht HRel) as (s' & E5 & HW).
  cbn [fst snd] in E5. rewrite E4 in E5. injection E5 as <- ->. rewrite Hst2 in *.
  assert (Hlast : rowa3 = last_rowa steps /\ 0 <= rowa3 < R).
  { destruct (foldl (note_visit C (reduce_mask R) choose) (M2, stM, 0, R - 1, setup_rowa R, []) (wander_rows R t)) as [[[[[M4 st4] i4] prev4] rowa4] ops] eqn:Ef.
    cbn [fst snd] in Hst2, HW. subst ops.
    destruct HW as (_ & _ & _ & _ & -> & _ & _ & Hra). split; [|exact Hra].
    pose proof (note_replay _ _ _ _ _ _ _ _ _ _ _ _ _ _ _ Ef) as [_ ->]. unfold last_rowa.
    destruct steps as [|y ys] eqn:Ey.
    - exfalso. apply (f_equal (fun x => length x.2)) in Ef. cbn [snd length] in Ef.
      rewrite note_length in Ef. cbn [length] in Ef.
      unfold wander_rows in Ef. rewrite seqZ_cons in Ef by lia. rewrite bind_cons, app_length, fmap_length in Ef.
      destruct (pass_first R HR 1) as [l Hl]. rewrite Hl in Ef. cbn in Ef. lia.
    - apply last_default. }
  destruct Hlast as [Hlast Hra].
  apply abind_inv in E0 as (a & ? & ? & [Ea ->]%quiet_inv & E0 & ->).
  unfold imul in Ea. assert (0 <= rowa3 * C < R * C) by (split; [apply Z.mul_nonneg_nonneg; lia|apply Z.mul_lt_mono_pos_r; lia]).
  rewrite chk_i64_Ok in Ea by lia. injection Ea as <-.
  unfold as_usize in E0. rewrite Z.mod_small in E0 by lia.
  apply abind_inv in E0 as (r & ? & ? & [Er ->]%quiet_inv & E0 & ->).
  apply logs_absorb_block in E0 as ->. cbn [app]. rewrite <- Hlast.
  unfold input_accesses.
  replace ((vlen salt + vlen pwd + 48) / 64 + 1) with (n_blocks pwd salt).
  2:{ unfold n_blocks. f_equal. f_equal. unfold vlen. lia. }
  replace (each Rd (cell_addrs C rowa3 0)) with (each Rd (seqZ (rowa3 * (12 * C)) 12)).
  2:{ unfold each, cell_addrs. f_equal. replace (rowa3 * (12 * C)) with (12 * (rowa3 * C + 0)) by lia.
      unfold seqZ. change (Z.to_nat 12) with 12%nat. cbn [seq fmap list_fmap].
      do 12 (apply (f_equal2 cons); [lia|]). done. }
  replace (vlen pwd / 8 + vlen salt / 8 + 6 + 1) with (vlen pwd / 8 + vlen salt / 8 + 7) by lia.
  by rewrite <- !app_assoc.
Qed.
End top.

(** ** Carrying out the steps gives the key *)
Lemma replay_steps choose blocks t R C : 1 <= t -> 3 <= R ->
  replay_state C blocks (setup_schedule R) (wander_steps choose blocks t R C) =
  lyra2_state (reduce_mask R) choose blocks t R C.
Proof.
  intros Ht HR. unfold replay_state, lyra2_state, wander_steps.
  assert (Es : foldl (fun s '(row, prev, rowa) => setup_row C row prev rowa s)
            (setup_row1 C (setup_row0 C (blank, absorb_all blocks))) (setup_schedule R) =
          setup R C (blank, absorb_all blocks)).
  { unfold setup_schedule, setup, setup_rows. generalize (setup_row1 C (setup_row0 C (blank, absorb_all blocks))).
    induction (seqZ 2 (R - 2)) as [|r l IH]; intros s; [done|]. cbn [fmap list_fmap foldl]. apply IH. }
  rewrite Es. clear Es.
  destruct (setup R C (blank, absorb_all blocks)) as [M st]. unfold wander.
  assert (Ew : foldl (wander_visit C (reduce_mask R) choose) (M, st, 0, R - 1, setup_rowa R)
                 (seqZ 1 t ≫= pass_rows R (reduce_mask R)) =
               (foldl (note_visit C (reduce_mask R) choose) ((M, st, 0, R - 1, setup_rowa R), []) (wander_rows R t)).1).
  { rewrite note_fst. cbn [fst]. f_equal. unfold wander_rows.
    induction (seqZ 1 t) as [|x l IH]; [done|]. rewrite !bind_cons, fmap_app, <- IH. f_equal.
    clear. induction (pass_rows R (reduce_mask R) x) as [|y l' IH']; [done|]. cbn. by rewrite <- IH'. }
  rewrite Ew. clear Ew.
  match goal with |- context [foldl ?f ?x (wander_rows R t)] => destruct (foldl f x (wander_rows R t)) as [[[[[M4 st4] i4] prev4] rowa4] ops] eqn:Ef end.
  cbn [fst snd].
  pose proof (note_replay _ _ _ _ _ _ _ _ _ _ _ _ _ _ _ Ef) as [<- ->]. unfold last_rowa.
  destruct ops as [|y ys] eqn:Ey.
  - exfalso. apply (f_equal (fun x => length x.2)) in Ef. cbn [snd length] in Ef.
    rewrite note_length in Ef. cbn [length] in Ef.
    unfold wander_rows in Ef. rewrite seqZ_cons in Ef by lia. rewrite bind_cons, app_length, fmap_length in Ef.
    destruct (pass_first R HR 1) as [l Hl]. rewrite Hl in Ef. cbn in Ef. lia.
  - cbn [fmap list_fmap]. by rewrite (last_default _ _ (setup_rowa R) 0).
Qed.
