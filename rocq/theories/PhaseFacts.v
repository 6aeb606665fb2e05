(** * Facts about the phases *)
From Verif Require Import Machine MachineFacts MUtils WordFacts Schedule Refine Refine2 RefineInput RefineTop Domain LyraFacts Padding SpongeFacts InjFacts TraceFacts.
From Verif Require Import SpecWord SpecBlake2b SpecLyra2 SpecCalls SpecSchedule SpecPhases.
From Verif Require MLyra2.
From Verif Require Import MTrace MPhases.
Import MLyra2 (rows_init, rows_next, r_row, r_prev, r_rowa).
#[local] Opaque blake2b_round MLyra2.duplex_row MLyra2.wander_next.
#[local] Open Scope Z_scope.

(** ** The phases one after the other are the whole call *)
Lemma phases p sel k pwd salt t R C :
  MLyra2.lyra2_with p sel k pwd salt t R C =
  ('(row_len, m, state, rowa, _) <-- until_wandering p sel k pwd salt t R C ;;
   wrap_up p k row_len m state rowa).
Proof.
  unfold until_wandering, until_setup, wrap_up, MLyra2.lyra2_with.
  destruct (t <? 1); [done|]. destruct (R <? 3); [done|].
  rewrite !obind_assoc. apply obind_ext. intros rl _.
  rewrite !obind_assoc. apply obind_ext. intros total _.
  rewrite !obind_assoc. apply obind_ext. intros m _.
  rewrite !obind_assoc. apply obind_ext. intros nb _.
  rewrite !obind_assoc. apply obind_ext. intros m1 _.
  rewrite !obind_assoc. apply obind_ext. intros st _.
  rewrite !obind_assoc. apply obind_ext. intros [[m2 st2] v] _. cbn [obind].
  rewrite <- (wander_erase p sel rl t R C m2 st2 (r_prev v) (r_rowa v) []). unfold omapo.
  rewrite !obind_assoc. apply obind_ext. intros [[[[[[m3 st3] i3] row3] prev3] rowa3] log3] _. reflexivity.
Qed.

(** ** One memory, one abstract matrix *)
Section flat.
Context (p : platform) (Hp : known_platform p) (R C : Z) (HR : 3 <= R) (HC : 1 <= C)
  (Hmax : 96 * R * C <= isize_max p).
Notation row_len := (12 * C).
Lemma flat_agree m M M' : flat R C m M -> flat R C m M' -> agree C R M M'.
Proof.
  intros [_ H] [_ H'] r c Hr Hc. destruct (H r c Hr Hc) as [[Hl _] HJ]. destruct (H' r c Hr Hc) as [[Hl' _] HJ'].
  apply list_eq. intros j. destruct (decide (j < 12)%nat).
  - specialize (HJ (Z.of_nat j) ltac:(lia)). specialize (HJ' (Z.of_nat j) ltac:(lia)).
    rewrite Nat2Z.id in HJ, HJ'. congruence.
  - rewrite !lookup_ge_None_2 by lia. done.
Qed.
Lemma flat_eq m m' M M' : flat R C m M -> flat R C m' M' -> agree C R M M' -> m = m'.
Proof.
  intros [Hl H] [Hl' H'] E. unfold L, vlen in Hl, Hl'. apply list_eq. intros i.
  destruct (decide (i < length m)%nat) as [Hi|Hi]; [|rewrite !lookup_ge_None_2 by lia; done].
  set (q := Z.of_nat i / 12). set (j := Z.of_nat i mod 12). set (r := q / C). set (c := q mod C).
  pose proof (Z.div_mod (Z.of_nat i) 12 ltac:(lia)) as H12. fold q j in H12.
  pose proof (Z.mod_pos_bound (Z.of_nat i) 12 ltac:(lia)) as Hj. fold j in Hj.
  pose proof (Z.div_mod q C ltac:(lia)) as HqC. fold r c in HqC.
  pose proof (Z.mod_pos_bound q C ltac:(lia)) as Hc. fold c in Hc.
  assert (Hq : 0 <= q < R * C) by nia.
  assert (Hr : 0 <= r < R).
  { split; [apply Z.div_pos; lia|]. apply Z.div_lt_upper_bound; nia. }
  assert (Hidx : i = Z.to_nat (idx C r c j)) by (unfold idx; nia).
  rewrite Hidx. destruct (H r c Hr Hc) as [_ HJ]. destruct (H' r c Hr Hc) as [_ HJ'].
  rewrite HJ, HJ' by lia. by rewrite (E r c Hr Hc).
Qed.
Definition good (s : list Z * list Z) : Prop := exists M, Rel R C s (M, s.2).
Lemma Rel_good s t : Rel R C s t -> good s.
Proof. intros (HF & E & Hs). exists t.1. split; [exact HF|]. split; [done|]. cbn. by rewrite E. Qed.
Lemma Rel_wf s t : Rel R C s t -> wf R C t.
Proof. intros (HF & E & Hs). split; [by apply flat_wf in HF|done]. Qed.
Lemma Rel_agree s t t' : Rel R C s t -> Rel R C s t' -> agree_st (agree C R) t t'.
Proof. intros (HF & E & Hs) (HF' & E' & Hs'). split; [by eapply flat_agree|congruence]. Qed.
Lemma Rel_eq s s' t t' : Rel R C s t -> Rel R C s' t' -> agree_st (agree C R) t t' -> s = s'.
Proof.
  intros (HF & E & Hs) (HF' & E' & Hs') [E1 E2]. destruct s as [m st], s' as [m' st']. cbn in *.
  f_equal; [by eapply flat_eq|congruence].
Qed.

(** One row operation of the wandering phase. *)
Definition redo (s : list Z * list Z) (e : event) : outcome (list Z * list Z) :=
  match e with
  | EvWander _ row prev rowa => MLyra2.duplex_row p row_len C row prev rowa s.1 s.2
  | _ => Ok s
  end.
Definition in_range (e : event) : Prop :=
  match e with EvWander _ row prev rowa => 0 <= row < R /\ 0 <= prev < R /\ 0 <= rowa < R | _ => True end.
Lemma redo_good s e s' : good s -> in_range e -> redo s e = Ok s' -> good s'.
Proof.
  intros [M HM] He E. destruct e as [b|row prev rowa|tau row prev rowa]; cbn in E; [by injection E as <-; exists M..|].
  destruct He as (H1 & H2 & H3).
  destruct (duplex_row_Ok p Hp R C HR HC Hmax s (M, s.2) row prev rowa HM H1 H2 H3) as (s1 & E1 & HR1).
  rewrite E in E1. injection E1 as <-. by eapply Rel_good.
Qed.
Lemma redo_inj s s' e s1 : good s -> good s' -> in_range e -> redo s e = Ok s1 -> redo s' e = Ok s1 -> s = s'.
Proof.
  intros [M HM] [M' HM'] He E E'. destruct e as [b|row prev rowa|tau row prev rowa]; cbn in E, E'; [congruence..|].
  destruct He as (H1 & H2 & H3).
  destruct (duplex_row_Ok p Hp R C HR HC Hmax s (M, s.2) row prev rowa HM H1 H2 H3) as (s2 & E2 & HR2).
  destruct (duplex_row_Ok p Hp R C HR HC Hmax s' (M', s'.2) row prev rowa HM' H1 H2 H3) as (s3 & E3 & HR3).
  rewrite E in E2. injection E2 as <-. rewrite E' in E3. injection E3 as <-.
  eapply (Rel_eq s s'); [exact HM|exact HM'|].
  apply (wander_row_back R C row prev rowa); [lia|lia|lia|by eapply Rel_wf|by eapply Rel_wf|].
  by eapply Rel_agree.
Qed.
Lemma redo_all_inj evs : Forall in_range evs -> forall s s' s1, good s -> good s' ->
  foldM redo evs s = Ok s1 -> foldM redo evs s' = Ok s1 -> s = s'.
Proof.
  induction 1 as [|e evs He Hes IH]; intros s s' s1 Hs Hs'; cbn [foldM]; [congruence|].
  intros (s2 & E2 & E)%obind_Ok_inv (s3 & E3 & E')%obind_Ok_inv.
  assert (s2 = s3) as <- by exact (IH s2 s3 s1 (redo_good s e s2 Hs He E2) (redo_good s' e s3 Hs' He E3) E E').
  exact (redo_inj s s' e s2 Hs Hs' He E2 E3).
Qed.

(** The wandering phase performs the row operations of its log. *)
Section sel.
Context (sel : MLyra2.selector).
Lemma pass_redo tau step N : forall row prev m st i rowa log s',
  run_n N (fun '(m, state, index, row, prev, rowa, log) =>
    let '(x, index) := sel state index in
    n1 <-- usub p R 1 ;;
    let rowa := as_i64 (Z.land x n1) in
    '(m, state) <-- MLyra2.duplex_row p row_len C row prev rowa m state ;;
    let log := log ++ [EvWander tau row prev rowa] in
    let prev := row in
    row <-- MLyra2.wander_next p R step row ;;
    let s := (m, state, index, row, prev, rowa, log) in
    if row =? 0 then Ok (inr s) else Ok (inl s)) (m, st, i, row, prev, rowa, log) = Ok (inr s') ->
  let '(m', st', _, _, _, _, log') := s' in
  exists evs, log' = log ++ evs /\ foldM redo evs (m, st) = Ok (m', st').
Proof.
  induction N as [|N IH]; intros row prev m st i rowa log s'; [done|]. cbn [run_n].
  destruct (sel st i) as [x i1]. intros (r & (n1 & _ & E)%obind_Ok_inv & Er)%obind_Ok_inv.
  cbv zeta in E. set (ra := as_i64 (Z.land x n1)) in *. clearbody ra.
  apply obind_Ok_inv in E as ([m1 st1] & Ed & E). apply obind_Ok_inv in E as (row1 & _ & E).
  destruct (row1 =? 0); injection E as <-.
  - injection Er as <-. exists [EvWander tau row prev ra]. split; [done|]. cbn [foldM redo fst snd].
    rewrite Ed. done.
  - apply IH in Er. destruct s' as [[[[[[m' st'] i'] row'] prev'] rowa'] log'].
    destruct Er as (evs & -> & E2). exists (EvWander tau row prev ra :: evs).
    rewrite <- app_assoc. split; [done|]. cbn [foldM redo fst snd]. rewrite Ed. exact E2.
Qed.
Lemma wander_redo t m st prev rowa log s' : 0 <= t < 2 ^ 64 ->
  wander_tr p sel row_len t R C m st prev rowa log = Ok s' ->
  let '(m', st', _, _, _, _, log') := s' in
  exists evs, log' = log ++ evs /\ foldM redo evs (m, st) = Ok (m', st').
Proof.
  intros Ht. unfold wander_tr. intros E.
  apply (for_range_inv (fun _ s => let '(m', st', _, _, _, _, l) := s in
    exists evs, l = log ++ evs /\ foldM redo evs (m, st) = Ok (m', st'))) in E as [E _].
  - exact E.
  - lia.
  - exists []. rewrite app_nil_r. done.
  - intros tau [[[[[[m1 s1] i1] r1] p1] ra1] l1] s2 Htau (evs & -> & HF) E'.
    apply obind_Ok_inv in E' as (step & _ & E').
    unfold wander_pass_tr in E'. rewrite loop64_run in E'.
    apply obind_Ok_inv in E' as ([?|s3] & Er & [= <-]).
    apply pass_redo in Er. destruct s3 as [[[[[[m' st'] i'] row'] prev'] rowa'] log'].
    destruct Er as (evs' & -> & E2). exists (evs ++ evs'). rewrite app_assoc. split; [done|].
    rewrite foldM_app, HF. exact E2.
Qed.
End sel.

Lemma with_prev_range l prev : 0 <= prev < R -> Forall (fun x : Z * Z => 0 <= x.2 < R) l ->
  Forall (fun x : Z * Z * Z => let '(_, row, prev) := x in 0 <= row < R /\ 0 <= prev < R) (with_prev prev l).
Proof.
  intros Hprev H. revert prev Hprev. induction H as [|[tau row] l Hx Hl IH]; intros prev Hprev; [constructor|].
  cbn [with_prev]. cbn in Hx. constructor; [done|]. by apply IH.
Qed.
Lemma schedule_range t :
  Forall (fun x : Z * Z * Z => let '(_, row, prev) := x in 0 <= row < R /\ 0 <= prev < R) (wander_schedule R t).
Proof.
  apply with_prev_range; [lia|]. unfold wander_rows. apply Forall_bind, Forall_forall. intros tau _.
  apply Forall_fmap. unfold pass_rows. eapply Forall_impl; [apply (visit_range R)|]; [|lia|done].
  intros x. unfold reduce_mask. pose proof (land_le (x + wander_step R tau) (R - 1)). lia.
Qed.
Lemma entries_in_range t evs : Forall2 (wander_entry R) evs (wander_schedule R t) -> Forall in_range evs.
Proof.
  intros H. pose proof (schedule_range t) as HS. revert HS.
  induction H as [|e [[tau row] prev] evs l He Hl IH]; [constructor|].
  intros HS. apply Forall_cons in HS as [Hx HS]. constructor; [|by apply IH].
  destruct He as (rowa & -> & _ & Hra). cbn. tauto.
Qed.

Lemma wander_inj sel t m st m' st' s s' : 0 <= t < 2 ^ 64 -> good (m, st) -> good (m', st') ->
  wander_tr p sel row_len t R C m st (R - 1) (setup_rowa R) [] = Ok s ->
  wander_tr p sel row_len t R C m' st' (R - 1) (setup_rowa R) [] = Ok s' ->
  s.2 = s'.2 -> s.1.1.1.1.1 = s'.1.1.1.1.1 -> (m, st) = (m', st').
Proof.
  intros Ht Hg Hg' E E' El Es.
  pose proof (wander_log p Hp R C HR HC Hmax sel t m st [] s Ht E) as (evs0 & El0 & HF).
  apply wander_redo in E; [|done]. apply wander_redo in E'; [|done].
  destruct s as [[[[[[m1 st1] i1] row1] prev1] rowa1] log1], s' as [[[[[[m2 st2] i2] row2] prev2] rowa2] log2].
  cbn [fst snd] in El, El0, Es. subst log2. injection Es as <- <-.
  destruct E as (evs & Hl1 & E). destruct E' as (evs' & Hl2 & E').
  cbn [app] in Hl1, Hl2, El0. subst log1. subst evs evs'.
  by eapply (redo_all_inj evs0); [eapply entries_in_range|..].
Qed.
End flat.

(** ** Up to the end of the setup *)
Lemma until_setup_Ok p k pwd salt t R C : known_platform p ->
  Forall byte pwd -> Forall byte salt ->
  0 <= t < 2 ^ 64 -> word 64 k -> accepted (isize_max p) 0 pwd salt t R C ->
  exists m st M0, wf R C (M0, absorb_all (code_blocks k pwd salt t R C)) /\
    until_setup p k pwd salt t R C = Ok (12 * C, m, st, rows_at R) /\
    Rel R C (m, st) (setup R C (M0, absorb_all (code_blocks k pwd salt t R C))).
Proof.
  intros Hp Hbp Hbs Htw Hk (Ht & HR & _ & HC0 & Hsz & Hmax).
  pose proof (isize_usize p Hp) as Hi. pose proof (n_blocks_bounds pwd salt) as Hb.
  assert (HC : 1 <= C) by (destruct (Z.eq_dec C 0) as [->|]; lia).
  pose proof (L_bound p Hp R C HR HC Hmax) as HL. unfold L in HL.
  pose proof (vlen_nonneg pwd). pose proof (vlen_nonneg salt).
  unfold until_setup. rewrite (proj2 (Z.ltb_ge t 1)), (proj2 (Z.ltb_ge R 3)) by lia.
  unfold imul at 1, as_i64 at 1. rewrite wrap_i64_id by lia. unfold MLyra2.BLOCKLENINT64.
  rewrite chk_i64_Ok by lia. cbn [obind].
  unfold imul at 1, as_i64 at 1. rewrite wrap_i64_id by lia.
  replace (R * (12 * C)) with (12 * R * C) by lia. rewrite chk_i64_Ok by lia. cbn [obind].
  unfold as_usize at 1. rewrite Z.mod_small by lia.
  unfold vec_zeroed. rewrite (proj2 (Z.leb_le _ _)) by lia. cbn [obind].
  rewrite (n_blocks_input_Ok p Hp) by lia. cbn [obind].
  rewrite (write_input_Ok p Hp) by (done || lia). cbn [obind].
  set (m := input_matrix _ _ _ _ _ _ _).
  assert (Hml : vlen m = 12 * R * C) by (apply input_matrix_length; lia).
  assert (Hmw : Forall (word 64) m).
  { apply input_matrix_words; try done; unfold word; lia. }
  destruct (absorb_input_Ok p Hp (n_blocks pwd salt) m) as [-> Hst]; [lia|lia|lia|done|].
  cbn [obind].
  assert (Htake : take (Z.to_nat (8 * n_blocks pwd salt)) m = code_padded k pwd salt t R C).
  { apply input_matrix_take. lia. }
  rewrite Htake in *. fold (code_blocks k pwd salt t R C) in *.
  pose proof (flat_unflatten p R C m HR HC Hmax Hml Hmw) as HF.
  destruct (setup_Ok p Hp R C HR HC Hmax m _ _ HF Hst) as (m1 & st1 & -> & HRel). cbn [obind].
  exists m1, st1, (unflatten C m). split; [|split; [reflexivity|exact HRel]].
  split; [by apply flat_wf in HF|exact Hst].
Qed.
Lemma code_blocks_block8 k pwd salt t R C : Forall byte pwd -> Forall byte salt -> word 64 k ->
  word 64 (vlen pwd) -> word 64 (vlen salt) -> word 64 t -> word 64 R -> word 64 C ->
  Forall block8 (code_blocks k pwd salt t R C).
Proof.
  intros. unfold code_blocks, block8. apply Forall_and. split.
  - apply (chunks_Forall_length 8). lia.
  - apply chunks_Forall. by apply code_padded_Forall.
Qed.
