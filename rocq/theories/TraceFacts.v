(** * What the log of a call contains *)
From Verif Require Import Machine MachineFacts MUtils WordFacts Schedule Refine Refine2 RefineInput RefineTop Domain LyraFacts Padding.
From Verif Require Import SpecWord SpecBlake2b SpecLyra2 SpecCalls SpecSchedule.
From Verif Require MLyra2.
From Verif Require Import MTrace.
Import MLyra2 (rows_init, rows_next, r_row, r_prev, r_rowa).
#[local] Opaque blake2b_round.

(** ** Erasing the log *)
Definition omapo {A B} (f : A -> B) (x : outcome A) : outcome B := a <-- x ;; Ok (f a).
Definition sum_map {A B C D} (f : A -> C) (g : B -> D) (x : A + B) : C + D :=
  match x with inl a => inl (f a) | inr b => inr (g b) end.
Lemma loop64_erase {S S' T T'} (f : S' -> S) (g : T' -> T) (body : S -> outcome (S + T))
    (body' : S' -> outcome (S' + T')) s :
  (forall s, omapo (sum_map f g) (body' s) = body (f s)) ->
  omapo g (loop64 body' s) = loop64 body (f s).
Proof.
  intros H. rewrite !loop64_run.
  assert (Hr : forall n s, omapo (sum_map f g) (run_n n body' s) = run_n n body (f s)).
  { induction n as [|n IH]; intros s1; [done|]. cbn [run_n]. rewrite <- H.
    destruct (body' s1) as [[s2|t]| |]; cbn; [apply IH|done..]. }
  rewrite <- Hr. by destruct (run_n fuel64 body' s) as [[s1|t]| |].
Qed.
Lemma for_range_erase {S S'} (f : S' -> S) lo hi (body : Z -> S -> outcome S) (body' : Z -> S' -> outcome S') s :
  (forall i s, omapo f (body' i s) = body i (f s)) ->
  omapo f (for_range lo hi body' s) = for_range lo hi body (f s).
Proof.
  intros H. unfold for_range.
  apply (loop64_erase (fun x : Z * S' => (x.1, f x.2)) f _ _ (lo, s)). intros [i s1].
  cbn [fst snd]. destruct (i <? hi); [|done]. rewrite <- H. by destruct (body' i s1).
Qed.
Lemma omapo_bind {A B D} (f : B -> D) (x : outcome A) (h : A -> outcome B) :
  omapo f (obind x h) = obind x (fun a => omapo f (h a)).
Proof. by destruct x. Qed.
Lemma obind_omapo {A B D} (f : A -> B) (x : outcome A) (h : B -> outcome D) :
  obind (omapo f x) h = obind x (fun a => h (f a)).
Proof. by destruct x. Qed.

Section erase.
Context (p : platform).
Lemma absorb_input_erase nb m st :
  omapo fst (absorb_input_tr p nb m st) = MLyra2.absorb_input p nb m st.
Proof.
  unfold absorb_input_tr, MLyra2.absorb_input. rewrite omapo_bind.
  change (st, 0) with ((st, 0, [] : list event).1).
  rewrite <- (for_range_erase fst 0 nb _
    (fun _ '(state, ptr_word, log) =>
      right <-- split_right m ptr_word ;;
      state <-- MLyra2.absorb_block_blake2_safe state right ;;
      ptr_word <-- szadd p ptr_word MLyra2.BLOCKLENBLAKE2SAFEINT64 ;;
      Ok (state, ptr_word, log ++ [EvAbsorb (take 8 right)]))).
  - rewrite obind_omapo. apply obind_ext. by intros [[??]?] _.
  - intros _ [[s w] l]. cbn [fst].
    destruct (split_right m w); [|done..]. cbn [obind]. destruct (MLyra2.absorb_block_blake2_safe s _); [|done..].
    cbn [obind]. by destruct (szadd p w _).
Qed.
Lemma setup_rows_erase rl R C m st log :
  omapo fst (setup_rows_tr p rl R C m st log) = MLyra2.setup_rows p rl R C m st.
Proof.
  unfold setup_rows_tr, MLyra2.setup_rows.
  change (m, st, rows_init) with ((m, st, rows_init, log).1).
  apply for_range_erase. intros _ [[[m1 s1] v] l]. cbn [fst].
  destruct (MLyra2.duplex_row_setup _ _ _ _ _ _ _ _) as [[??]| |]; [|done..]. cbn [obind].
  by destruct (rows_next p v).
Qed.
Lemma setup_erase rl R C m st log :
  omapo fst (setup_tr p rl R C m st log) = MLyra2.setup p rl R C m st.
Proof.
  unfold setup_tr, MLyra2.setup. rewrite omapo_bind. apply obind_ext. intros [m1 st1] _.
  rewrite omapo_bind. apply obind_ext. intros [m2 st2] _. apply setup_rows_erase.
Qed.
Lemma wander_pass_erase sel rl R C tau step s :
  omapo fst (wander_pass_tr p sel rl R C tau step s) = MLyra2.wander_pass p sel rl R C step s.1.
Proof.
  unfold wander_pass_tr, MLyra2.wander_pass. apply (loop64_erase fst fst).
  intros [[[[[[m st] i] row] prev] rowa] log]. cbn [fst].
  destruct (sel st i) as [x i']. destruct (usub p R 1) as [n1| |]; [|done..]. cbn [obind].
  destruct (MLyra2.duplex_row _ _ _ _ _ _ _ _) as [[??]| |]; [|done..]. cbn [obind].
  destruct (MLyra2.wander_next p R step row) as [row'| |]; [|done..]. cbn [obind].
  by destruct (row' =? 0).
Qed.
Lemma wander_erase sel rl t R C m st prev rowa log :
  omapo fst (wander_tr p sel rl t R C m st prev rowa log) = MLyra2.wander p sel rl t R C m st prev rowa.
Proof.
  unfold wander_tr, MLyra2.wander.
  change (m, st, 0, 0, prev, rowa) with ((m, st, 0, 0, prev, rowa, log).1) at 2.
  apply for_range_erase. intros tau s. rewrite omapo_bind. apply obind_ext. intros step _.
  apply wander_pass_erase.
Qed.
Lemma lyra2_with_tr_erase sel k pwd salt t R C :
  (x <-- lyra2_with_tr p sel k pwd salt t R C ;; Ok x.1) = MLyra2.lyra2_with p sel k pwd salt t R C.
Proof.
  change (omapo fst (lyra2_with_tr p sel k pwd salt t R C) = MLyra2.lyra2_with p sel k pwd salt t R C).
  unfold lyra2_with_tr, MLyra2.lyra2_with. destruct (t <? 1); [done|]. destruct (R <? 3); [done|].
  do 5 (rewrite omapo_bind; apply obind_ext; intros ? _).
  rewrite omapo_bind, <- absorb_input_erase, obind_omapo. apply obind_ext. intros [st log] _. cbn [fst].
  rewrite omapo_bind, <- (setup_erase _ _ _ _ _ log), obind_omapo.
  apply obind_ext. intros [[[m1 st1] v] log1] _. cbn [fst].
  rewrite omapo_bind, <- (wander_erase _ _ _ _ _ _ _ _ _ log1), obind_omapo.
  apply obind_ext. intros [[[[[[m2 st2] i] row] prev] rowa] log2] _. cbn [fst].
  do 3 (rewrite omapo_bind; apply obind_ext; intros ? _).
  rewrite omapo_bind. cbn [omapo obind fst]. by destruct (MLyra2.squeeze _ _ _).
Qed.
End erase.

(** ** The entries *)
Lemma chunks8_fmap nb (m : list Z) : 0 <= nb -> 8 * nb <= vlen m ->
  chunks 8 (take (Z.to_nat (8 * nb)) m) = (fun i => take 8 (drop (Z.to_nat (8 * i)) m)) <$> seqZ 0 nb.
Proof.
  intros Hnb Hm. apply list_eq. intros i. unfold vlen in Hm.
  destruct (decide (i < Z.to_nat nb)%nat) as [Hlt|Hge].
  - assert (Hl8 : (length (take (Z.to_nat (8 * nb)) m) / 8 = Z.to_nat nb)%nat).
    { rewrite take_length, Nat.min_l by lia. replace (Z.to_nat (8 * nb)) with (Z.to_nat nb * 8)%nat by lia.
      by rewrite Nat.div_mul. }
    rewrite chunks_lookup by lia. rewrite list_lookup_fmap, lookup_seqZ_lt by lia. cbn.
    f_equal. rewrite Z.add_0_l. replace (Z.to_nat (8 * Z.of_nat i)) with (8 * i)%nat by lia.
    apply list_eq. intros j. destruct (decide (j < 8)%nat).
    + rewrite !lookup_take by lia. rewrite !lookup_drop. by rewrite lookup_take by lia.
    + rewrite !lookup_take_ge by lia. done.
  - rewrite !lookup_ge_None_2; [done| |].
    + rewrite fmap_length, seqZ_length. lia.
    + rewrite chunks_length, take_length, Nat.min_l by lia.
      replace (Z.to_nat (8 * nb)) with (Z.to_nat nb * 8)%nat by lia. rewrite Nat.div_mul by lia. lia.
Qed.
Lemma fmap_seqZ_snoc {A} (f : Z -> A) lo i : lo <= i ->
  (f <$> seqZ lo (i + 1 - lo)) = (f <$> seqZ lo (i - lo)) ++ [f i].
Proof.
  intros H. replace (i + 1 - lo) with ((i - lo) + 1) by lia. rewrite seqZ_app by lia.
  rewrite fmap_app, (seqZ_cons _ 1), (seqZ_nil _ (Z.pred 1)) by lia. cbn. do 3 f_equal. lia.
Qed.

Lemma last_default {A} (x : A) l d d' : List.last (x :: l) d = List.last (x :: l) d'.
Proof. revert x. induction l as [|y l IH]; intros x; [done|]. exact (IH y). Qed.
Lemma last_app_cons {A} (x : A) l tl d d' : List.last (l ++ x :: tl) d = List.last (x :: tl) d'.
Proof.
  induction l as [|y l IH]; [apply last_default|]. rewrite <- IH. cbn [app].
  destruct (l ++ x :: tl) as [|a b] eqn:E; [by destruct l|]. done.
Qed.

Section entries.
Context (p : platform) (Hp : known_platform p).

Lemma absorb_input_log nb m st st' log : 0 <= nb < 2 ^ 62 -> 8 * nb <= vlen m -> 8 * vlen m <= isize_max p ->
  absorb_input_tr p nb m st = Ok (st', log) ->
  log = EvAbsorb <$> chunks 8 (take (Z.to_nat (8 * nb)) m).
Proof.
  intros Hnb Hm Hmax. pose proof (isize_usize p Hp) as Hi.
  rewrite chunks8_fmap by lia. unfold absorb_input_tr.
  intros ([[st1 w1] log1] & E & [= -> ->])%obind_Ok_inv.
  apply (for_range_inv (fun i s => let '(_, w, l) := s in w = 8 * i /\
    l = (fun i => EvAbsorb (take 8 (drop (Z.to_nat (8 * i)) m))) <$> seqZ 0 (i - 0))) in E as [[_ E] _].
  - rewrite E, Z.sub_0_r, <- list_fmap_compose. done.
  - lia.
  - done.
  - intros i [[s w] l] [[s' w'] l'] Hr [-> ->] E'.
    apply obind_Ok_inv in E' as (r & Er & (s2 & _ & (w2 & Ew & [= -> <- <-])%obind_Ok_inv)%obind_Ok_inv).
    rewrite split_right_Ok in Er by lia. injection Er as <-.
    apply (szadd_exact p) in Ew; [|unfold MLyra2.BLOCKLENBLAKE2SAFEINT64; lia].
    split; [unfold MLyra2.BLOCKLENBLAKE2SAFEINT64 in *; lia|]. by rewrite fmap_seqZ_snoc by lia.
Qed.

Context (R C : Z) (HR : 3 <= R) (HC : 1 <= C) (Hmax : 96 * R * C <= isize_max p).
Notation row_len := (12 * C).

Lemma setup_rows_log m st log m' st' v log' :
  setup_rows_tr p row_len R C m st log = Ok (m', st', v, log') ->
  v = rows_at R /\
  log' = log ++ ((fun row => EvSetup row (row - 1) (setup_rowa row)) <$> seqZ 2 (R - 2)).
Proof.
  pose proof (R_bound p Hp R C HR HC Hmax). unfold setup_rows_tr, as_i64. rewrite wrap_i64_id by lia.
  change (r_row rows_init) with 2. intros E.
  apply (for_range_inv (fun i s => let '(_, _, v, l) := s in v = rows_at i /\
    l = log ++ ((fun row => EvSetup row (row - 1) (setup_rowa row)) <$> seqZ 2 (i - 2)))) in E as [E _].
  - exact E.
  - lia.
  - split; [done|]. by rewrite app_nil_r.
  - intros i [[[m1 s1] v1] l1] [[[m2 s2] v2] l2] Hr [-> ->] E'.
    apply obind_Ok_inv in E' as ([m3 s3] & _ & (v3 & Ev & [= -> -> <- <-])%obind_Ok_inv).
    rewrite (rows_next_at p) in Ev by lia. injection Ev as <-. split; [done|].
    rewrite fmap_seqZ_snoc by lia. by rewrite app_assoc.
Qed.
Lemma setup_log m st log m' st' v log' :
  setup_tr p row_len R C m st log = Ok (m', st', v, log') ->
  v = rows_at R /\
  log' = log ++ ((fun row => EvSetup row (row - 1) (setup_rowa row)) <$> seqZ 2 (R - 2)).
Proof.
  unfold setup_tr. intros ([m1 s1] & _ & ([m2 s2] & _ & E)%obind_Ok_inv)%obind_Ok_inv.
  by eapply setup_rows_log.
Qed.

(** Wandering: an entry list that follows the schedule [l] (with previous row
    [prev]) and whose revisited rows are submasks of [R - 1]. *)
Definition wander_entry (e : event) (x : Z * Z * Z) : Prop :=
  let '(tau, row, prev) := x in
  exists rowa, e = EvWander tau row prev rowa /\ Z.land rowa (R - 1) = rowa /\ 0 <= rowa < R.

Context (sel : MLyra2.selector).
Lemma as_i64_land x : as_i64 (Z.land x (R - 1)) = Z.land x (R - 1).
Proof.
  pose proof (R_bound p Hp R C HR HC Hmax). pose proof (land_le x (R - 1) ltac:(lia)).
  unfold as_i64. apply wrap_i64_id. lia.
Qed.
Lemma pass_log tau step n : -1 <= step <= R -> forall N row prev m st i rowa log s',
  (exists k, (k < n)%nat /\ next R step (Nat.iter k (next R step) row) = 0) -> 0 <= row < R ->
  run_n N (fun '(m, state, index, row, prev, rowa, log) =>
    let '(x, index) := sel state index in
    n1 <-- usub p R 1 ;;
    let rowa := as_i64 (Z.land x n1) in
    '(m, state) <-- MLyra2.duplex_row p row_len C row prev rowa m state ;;
    let log := log ++ [EvWander tau row prev rowa] in
    let prev := row in
    row <-- MLyra2.wander_next p R step row ;;
    let s := (m, state, index, row, prev, rowa, log) in
    if row =? 0 then Ok (inr s) else Ok (inl s)) (m, st, i, row, prev, rowa, log) = Ok (inr s') ->
  exists m' st' i' rowa' evs, let rows := visit n (next R step) row in
    s' = (m', st', i', 0, List.last rows prev, rowa', log ++ evs) /\
    Forall2 wander_entry evs (with_prev prev ((fun row => (tau, row)) <$> rows)).
Proof.
  intros Hstep. pose proof (R_bound p Hp R C HR HC Hmax) as HRb.
  induction n as [|n IH]; intros N row prev m st i rowa log s' (k & Hk & Ek) Hrow; [lia|].
  destruct N as [|N]; [done|]. cbn [run_n]. destruct (sel st i) as [x i1].
  unfold usub at 1. rewrite chk_u64_Ok by lia. cbn [obind]. rewrite as_i64_land.
  intros (r & ([m1 st1] & _ & E)%obind_Ok_inv & Er)%obind_Ok_inv.
  assert (En : MLyra2.wander_next p R step row = Ok (next R step row)).
  { unfold MLyra2.wander_next, iadd, isub, as_i64. rewrite chk_i64_Ok by lia. cbn [obind].
    rewrite wrap_i64_id by lia. by rewrite chk_i64_Ok by lia. }
  rewrite En in E. clear En. cbn [obind] in E.
  assert (Hent : wander_entry (EvWander tau row prev (Z.land x (R - 1))) (tau, row, prev)).
  { eexists. split; [done|]. rewrite <- Z.land_assoc, Z.land_diag. split; [done|].
    pose proof (land_le x (R - 1)). lia. }
  cbn [visit fmap list_fmap with_prev].
  destruct (next R step row =? 0) eqn:E0.
  - injection E as <-. injection Er as <-. cbn [fmap list_fmap with_prev List.last].
    apply Z.eqb_eq in E0. rewrite E0. exists m1, st1, i1, (Z.land x (R - 1)). eexists. split; [done|].
    constructor; [done|constructor].
  - injection E as <-. apply IH in Er as (m' & st' & i' & rowa' & evs & -> & HF).
    + exists m', st', i', rowa', (EvWander tau row prev (Z.land x (R - 1)) :: evs).
      cbv zeta. rewrite <- app_assoc. cbn [app]. split; [|constructor; done].
      do 3 f_equal. destruct (visit n (next R step) (next R step row)) eqn:Ev; [|].
      * destruct n as [|n]; [|done]. destruct k as [|k]; [|lia]. cbn in Ek. apply Z.eqb_neq in E0. done.
      * change (List.last (z :: l) row = List.last (z :: l) prev). apply last_default.
    + destruct k as [|k]; [simpl in Ek; apply Z.eqb_neq in E0; done|].
      exists k. split; [lia|]. rewrite <- Ek. f_equal.
      clear. induction k; simpl; [done|]. by rewrite IHk.
    + apply next_range. lia.
Qed.
Lemma with_prev_app prev l1 l2 :
  with_prev prev (l1 ++ l2) = with_prev prev l1 ++ with_prev (List.last (snd <$> l1) prev) l2.
Proof.
  revert prev. induction l1 as [|[tau row] l1 IH]; intros prev; [done|].
  cbn [app with_prev fmap list_fmap snd]. rewrite IH. do 2 f_equal.
  destruct (snd <$> l1) as [|x l] eqn:E; [done|]. 
  change (List.last (row :: x :: l) prev) with (List.last (x :: l) prev). f_equal. apply last_default.
Qed.
Lemma wander_log t m st log s' : 0 <= t < 2 ^ 64 ->
  wander_tr p sel row_len t R C m st (R - 1) (setup_rowa R) log = Ok s' ->
  exists evs, s'.2 = log ++ evs /\ Forall2 wander_entry evs (wander_schedule R t).
Proof.
  intros Ht. unfold wander_tr, wander_schedule, wander_rows.
  set (f := fun tau => (fun row => (tau, row)) <$> pass_rows R (reduce_mask R) tau). intros E.
  apply (for_range_inv (fun i s => let '(_, _, _, row, prev, _, l) := s in row = 0 /\
    prev = List.last (snd <$> (seqZ 1 (i - 1) ≫= f)) (R - 1) /\ exists evs, l = log ++ evs /\
    Forall2 wander_entry evs (with_prev (R - 1) (seqZ 1 (i - 1) ≫= f)))) in E as [E _].
  - destruct s' as [[[[[[m1 s1] i1] r1] p1] ra1] l1]. destruct E as (_ & _ & evs & -> & HF).
    exists evs. split; [done|]. by replace (t + 1 - 1) with t in HF by lia.
  - lia.
  - split; [done|]. split; [done|]. exists []. rewrite app_nil_r. split; [done|constructor].
  - intros tau [[[[[[m1 s1] i1] r1] p1] ra1] l1] s2 Htau (-> & Hp1 & evs & -> & HF) E'.
    destruct (wander_step_Ok p Hp R C HR HC Hmax tau) as [Es Hs]. rewrite Es in E'. cbn [obind] in E'.
    unfold wander_pass_tr in E'. rewrite loop64_run in E'.
    apply obind_Ok_inv in E' as ([?|s3] & Er & [= <-]).
    apply (pass_log tau (wander_step R tau) (Z.to_nat R) Hs) in Er
      as (m' & st' & i' & rowa' & evs' & -> & HF').
    + split; [done|].
      assert (Hseq : (seqZ 1 (tau + 1 - 1) ≫= f) = (seqZ 1 (tau - 1) ≫= f) ++ f tau).
      { replace (tau + 1 - 1) with ((tau - 1) + 1) by lia. rewrite seqZ_app by lia. rewrite bind_app.
        f_equal. rewrite (seqZ_cons _ 1), (seqZ_nil _ (Z.pred 1)) by lia. cbn. rewrite app_nil_r. f_equal. lia. }
      rewrite Hseq. split.
      * rewrite fmap_app. unfold f at 2. rewrite <- list_fmap_compose.
        replace (snd ∘ _ <$> pass_rows R (reduce_mask R) tau) with (pass_rows R (reduce_mask R) tau).
        2:{ induction (pass_rows R (reduce_mask R) tau) as [|x l IH]; [done|]. cbn. by rewrite <- IH. }
        rewrite Hp1. unfold pass_rows. fold (next R (wander_step R tau)).
        destruct (Z.to_nat R) as [|n] eqn:En; [lia|]. cbn [visit].
        symmetry. apply last_app_cons.
      * exists (evs ++ evs'). rewrite app_assoc. split; [done|]. rewrite with_prev_app.
        apply Forall2_app; [done|]. rewrite <- Hp1. exact HF'.
    + apply (next_returns p Hp R C HR HC Hmax).
    + lia.
Qed.
End entries.

Section top.
Context (p : platform) (Hp : known_platform p).
Lemma lyra2_with_log sel k pwd salt t R C out log :
  rust_args (isize_max p) k pwd salt t R C -> regular p R ->
  lyra2_with_tr p sel k pwd salt t R C = Ok (out, log) ->
  accepted (isize_max p) 0 pwd salt t R C /\
  exists evs, log = (EvAbsorb <$> code_blocks k pwd salt t R C) ++
        ((fun row => EvSetup row (row - 1) (setup_rowa row)) <$> seqZ 2 (R - 2)) ++ evs /\
    Forall2 (wander_entry R) evs (wander_schedule R t).
Proof.
  intros Ha Hreg E.
  assert (Hacc : accepted (isize_max p) 0 pwd salt t R C).
  { destruct (decide (accepted (isize_max p) 0 pwd salt t R C)) as [H|H]; [exact H|exfalso].
    pose proof (panics_core p Hp sel k pwd salt t R C Ha Hreg H) as E'.
    rewrite <- lyra2_with_tr_erase, E in E'. discriminate E'. }
  split; [exact Hacc|].
  destruct Ha as (Hk & Ht & HRw & HCw & [Hbp Hlp] & [Hbs Hls]).
  destruct Hacc as (Ht1 & HR & Hk96 & HC0 & Hsz).
  pose proof (isize_usize p Hp) as Hi. pose proof (n_blocks_bounds pwd salt) as Hnb.
  assert (HC : 1 <= C) by nia.
  assert (Hmax : 96 * R * C <= isize_max p) by lia.
  pose proof (L_bound p Hp R C HR HC Hmax) as HL.
  revert E.
  unfold lyra2_with_tr. rewrite (proj2 (Z.ltb_ge t 1)), (proj2 (Z.ltb_ge R 3)) by lia.
  unfold imul at 1, as_i64 at 1. rewrite wrap_i64_id by lia. unfold MLyra2.BLOCKLENINT64.
  rewrite chk_i64_Ok by lia. cbn [obind].
  unfold imul at 1, as_i64 at 1. rewrite wrap_i64_id by lia.
  replace (R * (12 * C)) with (12 * R * C) by lia. rewrite chk_i64_Ok by lia. cbn [obind].
  unfold as_usize at 1. rewrite Z.mod_small by lia.
  unfold vec_zeroed. rewrite (proj2 (Z.leb_le _ _)) by lia. cbn [obind].
  rewrite (n_blocks_input_Ok p Hp) by lia. cbn [obind].
  rewrite (write_input_Ok p Hp) by (done || lia). cbn [obind].
  set (m := input_matrix _ _ _ _ _ _ _).
  assert (Hml : vlen m = 12 * R * C) by (apply input_matrix_length; lia).
  assert (Htake : take (Z.to_nat (8 * n_blocks pwd salt)) m = code_padded k pwd salt t R C).
  { apply input_matrix_take. lia. }
  intros ([st1 log1] & E1 & E)%obind_Ok_inv.
  apply (absorb_input_log p Hp) in E1; [|lia|lia|lia]. rewrite Htake in E1.
  fold (code_blocks k pwd salt t R C) in E1. subst log1.
  apply obind_Ok_inv in E as ([[[m2 st2] v] log2] & E2 & E).
  apply (setup_log p Hp R C HR HC Hmax) in E2 as [-> ->].
  change (r_prev (rows_at R)) with (R - 1) in E. change (r_rowa (rows_at R)) with (setup_rowa R) in E.
  apply obind_Ok_inv in E as ([[[[[[m3 st3] i3] row3] prev3] rowa3] log3] & E3 & E).
  apply obind_Ok_inv in E as (a & _ & (r & _ & (st4 & _ & (o & _ & [= _ <-])%obind_Ok_inv)%obind_Ok_inv)%obind_Ok_inv).
  apply (wander_log p Hp R C HR HC Hmax) in E3 as (evs & Ev & HF).
  - cbn [snd] in Ev. subst log3. exists evs. rewrite <- app_assoc. split; [reflexivity|exact HF].
  - unfold word in Ht. lia.
Qed.
End top.
