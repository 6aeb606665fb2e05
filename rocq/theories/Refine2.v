(** * Refinement: setup rows, wandering, input, output *)
From Verif Require Import Machine MachineFacts MUtils WordFacts Schedule Refine.
From Verif Require Import SpecWord SpecBlake2b SpecLyra2.
From Verif Require MLyra2.
Import MLyra2 (Rows, rows_init, rows_next, r_row, r_prev, r_rowa, r_step, r_window, r_gap).
#[local] Opaque blake2b_round.

Lemma foldM_sim_seqZ {S T} (Rl : Z -> S -> T -> Prop) (f : S -> Z -> outcome S) (h : T -> Z -> T) n :
  0 <= n -> forall lo s t, Rl lo s t ->
  (forall i s t, lo <= i < lo + n -> Rl i s t -> exists s', f s i = Ok s' /\ Rl (i + 1) s' (h t i)) ->
  exists s', foldM f (seqZ lo n) s = Ok s' /\ Rl (lo + n) s' (foldl h t (seqZ lo n)).
Proof.
  intros Hn. pattern n. apply natlike_ind; [| |done]; clear n Hn.
  - intros lo s t H _. rewrite seqZ_nil by lia. rewrite Z.add_0_r. by exists s.
  - intros n Hn IH lo s t H Hstep. rewrite seqZ_cons by lia. rewrite Z.pred_succ. cbn [foldM foldl].
    destruct (Hstep lo s t ltac:(lia) H) as (s1 & -> & H1). cbn [obind].
    destruct (IH (lo + 1) s1 (h t lo) H1) as (s2 & E & H2).
    { intros i ???. apply Hstep; lia || done. }
    exists s2. split; [done|]. by replace (lo + Z.succ n) with (lo + 1 + n) by lia.
Qed.

Lemma land_le x m : 0 <= m -> 0 <= Z.land x m <= m.
Proof.
  intros Hm. split; [apply Z.land_nonneg; by right|].
  assert (Z.land x m + Z.ldiff m x = m) as E.
  { rewrite Z.add_nocarry_lxor.
    - apply Z.bits_inj'. intros i Hi. rewrite Z.lxor_spec, Z.land_spec, Z.ldiff_spec.
      by destruct (Z.testbit x i), (Z.testbit m i).
    - apply Z.bits_inj'. intros i Hi. rewrite !Z.land_spec, Z.ldiff_spec, Z.bits_0.
      by destruct (Z.testbit x i), (Z.testbit m i). }
  assert (0 <= Z.ldiff m x) by (apply Z.ldiff_nonneg; by left). lia.
Qed.

Section refine2.
Context (p : platform) (Hp : known_platform p) (R C : Z).
Context (HR : 3 <= R) (HC : 1 <= C) (Hmax : 96 * R * C <= isize_max p).
Notation row_len := (12 * C).
Notation L := (L R C).
Notation flat := (flat R C).
Notation Rel := (Rel R C).

Lemma R_bound : R < 2 ^ 58.
Proof. pose proof (L_bound p Hp R C HR HC Hmax). lia. Qed.

(** ** Row variables of the setup phase *)
Definition rows_at (row : Z) : MLyra2.rows :=
  let e := Z.log2 row in
  Rows row (row - 1) (setup_rowa row) (stride e) (2 ^ e) (if Z.even e then -1 else 1).
Lemma rows_init_at : rows_init = rows_at 2.
Proof. reflexivity. Qed.
Lemma rows_next_at row : 2 <= row < 2 ^ 58 -> rows_next p (rows_at row) = Ok (rows_at (row + 1)).
Proof.
  intros Hrow. pose proof (setup_e row ltac:(lia)) as (He & Hre & Hw).
  pose proof (setup_rowa_range row ltac:(lia)) as Hra.
  set (e := Z.log2 row) in *. pose proof (stride_pos e He) as Hs.
  transitivity (rows_next p (Rows row (row - 1) (setup_rowa row) (stride e) (2 ^ e)
                               (if Z.even e then -1 else 1))); [reflexivity|].
  unfold rows_next. cbn [r_row r_prev r_rowa r_step r_window r_gap].
  unfold iadd, isub, imul. rewrite (chk_i64_Ok p (setup_rowa row + stride e)) by lia. cbn [obind].
  rewrite (chk_i64_Ok p (2 ^ e - 1)) by lia. cbn [obind].
  rewrite (chk_i64_Ok p (row + 1)) by lia. cbn [obind].
  destruct (Z.eq_dec (row + 1) (2 * 2 ^ e)) as [Hd|Hd].
  - destruct (setup_next_double row ltac:(lia) Hd) as (El & E0 & E1 & Es). fold e in El, E0, Es.
    rewrite E0. cbn [Z.eqb].
    rewrite (chk_i64_Ok p (2 ^ e + _)) by (destruct (Z.even e); lia). cbn [obind].
    rewrite (chk_i64_Ok p (2 ^ e * 2)) by lia. cbn [obind].
    rewrite (chk_i64_Ok p (0 - _)) by (destruct (Z.even e); lia). cbn [obind].
    unfold rows_at. rewrite El, E1, Es. cbv zeta. do 2 f_equal; try lia.
    + rewrite Z.pow_add_r by lia. lia.
    + rewrite Z.add_1_r, Z.even_succ, <- Z.negb_even. by destruct (Z.even e).
  - destruct (setup_next_same row ltac:(lia) ltac:(fold e; lia)) as (El & E0 & E1). fold e in El, E0.
    rewrite E0. replace (setup_rowa (row + 1) =? 0) with false by lia.
    unfold rows_at. rewrite El. cbv zeta. do 2 f_equal. lia.
Qed.

Lemma setup_rows_Ok s t : Rel s t ->
  exists s', MLyra2.setup_rows p row_len R C s.1 s.2 = Ok (s'.1, s'.2, rows_at R) /\
             Rel s' (setup_rows R C t).
Proof.
  intros HRel. pose proof R_bound. unfold MLyra2.setup_rows, setup_rows, as_i64.
  rewrite wrap_i64_id by lia. rewrite for_range_foldM by (cbn; lia).
  change (r_row rows_init) with 2.
  destruct (foldM_sim_seqZ
    (fun row (s : list Z * list Z * MLyra2.rows) t => Rel s.1 t /\ s.2 = rows_at row)
    (fun s (_ : Z) => let '(m, state, v) := s in
      '(m, state) <-- MLyra2.duplex_row_setup p row_len C (r_row v) (r_prev v) (r_rowa v) m state ;;
      v <-- rows_next p v ;;
      Ok (m, state, v))
    (fun s row => setup_row C row (row - 1) (setup_rowa row) s)
    (R - 2) ltac:(lia) 2 (s.1, s.2, rows_init) t) as ([[m st] v] & E & HR1 & Hv).
  - split; [by destruct s|done].
  - intros row [[m st] v] t' Hrow [HR1 Hv]. cbn in HR1, Hv. subst v.
    pose proof (setup_rowa_lt row ltac:(lia)).
    destruct (duplex_row_setup_Ok p Hp R C HR HC Hmax (m, st) t' row (row - 1) (setup_rowa row) HR1)
      as ([m' st'] & E & HR2); [lia..|].
    cbn [fst snd] in E. cbn [rows_at r_row r_prev r_rowa]. rewrite E. cbn [obind].
    rewrite rows_next_at by lia. cbn [obind]. by eexists.
  - exists (m, st). split; [|done]. cbn in Hv.
    replace (2 + (R - 2)) with R in Hv by lia. subst v. exact E.
Qed.

Lemma setup_Ok m M st : flat m M -> state16 st ->
  exists m' st', MLyra2.setup p row_len R C m st = Ok (m', st', rows_at R) /\
                 Rel (m', st') (setup R C (M, st)).
Proof.
  intros HF Hst. unfold MLyra2.setup, setup.
  destruct (squeeze_row0_Ok p Hp R C HR HC Hmax m M st HF Hst) as ([m1 st1] & -> & HR1). cbn [obind].
  destruct (duplex_row1_Ok p Hp R C HR HC Hmax _ _ HR1) as ([m2 st2] & E2 & HR2). cbn [fst snd] in E2.
  rewrite E2. cbn [obind].
  destruct (setup_rows_Ok _ _ HR2) as ([m3 st3] & E3 & HR3). cbn [fst snd] in E3. rewrite E3. eauto.
Qed.

(** ** Wandering *)
Definition sel_ok (sel : MLyra2.selector) (choose : chooser) : Prop :=
  forall st i, state16 st -> sel st i = choose st i /\ 0 <= (choose st i).1.
Context (sel : MLyra2.selector) (choose : chooser) (Hsel : sel_ok sel choose).

Notation pass_state := (list Z * list Z * Z * Z * Z * Z)%type.
Definition WRel (row : Z) (s : pass_state) (t : wstate) : Prop :=
  let '(m, st, i, row', prev, rowa) := s in
  let '(M, st', i', prev', rowa') := t in
  Rel (m, st) (M, st') /\ i = i' /\ row' = row /\ prev = prev' /\ rowa = rowa' /\
  0 <= row < R /\ 0 <= prev < R /\ 0 <= rowa < R.

Definition pass_body (step : Z) : pass_state -> outcome (pass_state + pass_state) :=
  fun '(m, state, index, row, prev, rowa) =>
    let '(x, index) := sel state index in
    n1 <-- usub p R 1 ;;
    let rowa := as_i64 (Z.land x n1) in
    '(m, state) <-- MLyra2.duplex_row p row_len C row prev rowa m state ;;
    let prev := row in
    row <-- MLyra2.wander_next p R step row ;;
    let s := (m, state, index, row, prev, rowa) in
    if row =? 0 then Ok (inr s) else Ok (inl s).

Definition next (step row : Z) : Z := reduce_mask R (row + step).
Lemma next_range step row : 0 <= next step row < R.
Proof. unfold next, reduce_mask. pose proof (land_le (row + step) (R - 1)). lia. Qed.

Lemma pass_body_Ok step row s t : -1 <= step <= R -> WRel row s t ->
  exists s', pass_body step s =
    (if next step row =? 0 then Ok (inr s') else Ok (inl s')) /\
    WRel (next step row) s' (wander_visit C (reduce_mask R) choose t row).
Proof.
  intros Hstep. destruct s as [[[[[m st] i] row'] prev] rowa], t as [[[[M st'] i'] prev'] rowa'].
  intros (HRel & -> & -> & -> & -> & Hrow & Hprev & Hrowa). pose proof R_bound as HRb.
  pose proof HRel as (HF & Heq & Hst). cbn in HF, Heq, Hst. subst st'.
  destruct (Hsel st i' Hst) as [Es Hw].
  unfold pass_body, wander_visit. rewrite Es. destruct (choose st i') as [w i1] eqn:Ec.
  cbn [fst] in Hw. unfold usub. rewrite chk_u64_Ok by lia. cbn [obind].
  pose proof (land_le w (R - 1) ltac:(lia)) as Hwr.
  unfold as_i64. rewrite wrap_i64_id by lia. change (Z.land w (R - 1)) with (reduce_mask R w) in *.
  destruct (duplex_row_Ok p Hp R C HR HC Hmax (m, st) (M, st) row prev' (reduce_mask R w) HRel)
    as ([m' st'] & E & HRel'); [lia..|].
  cbn [fst snd] in E. rewrite E. cbn [obind].
  destruct (wander_row C row prev' (reduce_mask R w) (M, st)) as [M' st''] eqn:Ew.
  assert (MLyra2.wander_next p R step row = Ok (next step row)) as ->.
  { unfold MLyra2.wander_next, iadd, isub, as_i64. rewrite chk_i64_Ok by lia. cbn [obind].
    rewrite wrap_i64_id by lia. by rewrite chk_i64_Ok by lia. }
  cbn [obind]. pose proof (next_range step row).
  exists (m', st', i1, next step row, row, reduce_mask R w). split; [done|].
  split; [exact HRel'|]. repeat split; lia.
Qed.

(** One pass: the loop visits the rows of [visit]. *)
Lemma pass_run step n : -1 <= step <= R -> forall N row s t,
  (n <= N)%nat -> (exists k, (k < n)%nat /\ next step (Nat.iter k (next step) row) = 0) ->
  WRel row s t ->
  exists s', run_n N (pass_body step) s = Ok (inr s') /\
    WRel 0 s' (foldl (wander_visit C (reduce_mask R) choose) t (visit n (next step) row)).
Proof.
  intros Hstep. induction n as [|n IH]; intros N row s t HN (k & Hk & Ek) HW; [lia|].
  destruct N as [|N]; [lia|]. cbn [run_n visit foldl].
  destruct (pass_body_Ok step row s t Hstep HW) as (s1 & E & HW1). rewrite E.
  destruct (next step row =? 0) eqn:E0.
  - cbn [obind foldl]. exists s1. split; [done|]. apply Z.eqb_eq in E0. by rewrite E0 in HW1.
  - cbn [obind]. apply IH; [lia| |done].
    destruct k as [|k]; [simpl in Ek; apply Z.eqb_neq in E0; done|].
    exists k. split; [lia|]. rewrite <- Ek. f_equal.
    clear. induction k; simpl; [done|]. by rewrite IHk.
Qed.

Lemma next_returns step :
  exists k, (k < Z.to_nat R)%nat /\ next step (Nat.iter k (next step) 0) = 0.
Proof.
  destruct (orbit_returns (fun x => Z.land x (R - 1) = x /\ 0 <= x < R) (next step) 0 (Z.to_nat R) 0)
    as (k & Hk & Ek).
  - split; [apply Z.land_0_l|lia].
  - intros x _. split; [|apply next_range]. unfold next, reduce_mask.
    by rewrite <- Z.land_assoc, Z.land_diag.
  - intros x [_ Hx]. lia.
  - intros x y [Hx Hxr] [Hy Hyr] E. unfold next, reduce_mask in E. pose proof R_bound.
    pose proof (mask_add_inj (R - 1) step x y 64 ltac:(lia) Hx Hy ltac:(by rewrite E)) as H64.
    rewrite !Z.mod_small in H64 by lia. done.
  - exists (k - 1)%nat. split; [lia|]. change (next step (Nat.iter (k - 1) (next step) 0)) with
      (Nat.iter (S (k - 1)) (next step) 0). by replace (S (k - 1)) with k by lia.
Qed.

Lemma wander_step_Ok tau : MLyra2.wander_step p R tau = Ok (wander_step R tau) /\ -1 <= wander_step R tau <= R.
Proof.
  pose proof R_bound. unfold MLyra2.wander_step, wander_step, isub, as_i64. rewrite wrap_i64_id by lia.
  rewrite Z.quot_div_nonneg by lia.
  assert (0 <= R / 2 <= R) by (split; [apply Z.div_pos; lia|apply Z.div_le_upper_bound; lia]).
  rewrite chk_i64_Ok by lia. cbn [obind].
  rewrite Zeven_mod. unfold Zeq_bool. rewrite <- Z.eqb_compare. destruct (tau mod 2 =? 0); split; try done; lia.
Qed.

Lemma wander_pass_Ok tau s t : WRel 0 s t ->
  exists s', MLyra2.wander_pass p sel row_len R C (wander_step R tau) s = Ok s' /\
    WRel 0 s' (foldl (wander_visit C (reduce_mask R) choose) t (pass_rows R (reduce_mask R) tau)).
Proof.
  intros HW. unfold MLyra2.wander_pass. rewrite loop64_run.
  change (fun '(_, _, _, _, _, _) => _) with (pass_body (wander_step R tau)).
  destruct (wander_step_Ok tau) as [_ Hs].
  destruct (pass_run (wander_step R tau) (Z.to_nat R) Hs fuel64 0 s t) as (s' & E & HW').
  - pose proof fuel64_Z. pose proof R_bound. lia.
  - apply next_returns.
  - done.
  - rewrite E. cbn [obind]. exists s'. split; [reflexivity|exact HW'].
Qed.

Lemma foldl_bind {A B D} (f : A -> D -> A) (h : B -> list D) l a :
  foldl f a (l ≫= h) = foldl (fun a b => foldl f a (h b)) a l.
Proof.
  revert a. induction l as [|b l IH]; intros a; [done|].
  cbn [mbind list_bind foldl]. by rewrite foldl_app, <- IH.
Qed.

Lemma wander_Ok time s t : 1 <= time < 2 ^ 64 -> Rel s t ->
  exists s', MLyra2.wander p sel row_len time R C s.1 s.2 (R - 1) (setup_rowa R) = Ok s' /\
    WRel 0 s' (wander R C (reduce_mask R) choose time t).
Proof.
  intros Ht HRel. unfold MLyra2.wander, wander.
  rewrite for_range_foldM by lia. replace (time + 1 - 1) with time by lia.
  destruct t as [M st']. rewrite foldl_bind.
  apply foldM_sim.
  - pose proof (setup_rowa_lt R ltac:(lia)). destruct s as [m st]. split; [exact HRel|]. repeat split; lia.
  - intros s1 t1 tau _ HW. destruct (wander_step_Ok tau) as [-> _]. cbn [obind].
    by apply wander_pass_Ok.
Qed.

End refine2.
