(** * Lemmas behind the theorems of PSchedule.v and PInput.v *)
From Verif Require Import Machine MachineFacts MUtils WordFacts Schedule Refine Refine2 RefineInput RefineTop Domain LyraFacts Padding Coverage TraceFacts.
From Verif Require Import SpecWord SpecBlake2b SpecLyra2 SpecCalls SpecSchedule.
From Verif Require MLyra2 PLyra2Lemmas BigRows.
From Verif Require Import MTrace.
#[local] Opaque blake2b_round.

(** ** Reading a log *)
Lemma omap_fmap_Some {A B D} (f : B -> option D) (g : A -> B) (h : A -> D) (l : list A) :
  (forall a, f (g a) = Some (h a)) -> omap f (g <$> l) = h <$> l.
Proof. intros H. induction l as [|a l IH]; [done|]. cbn. rewrite H. cbn. by rewrite <- IH. Qed.
Lemma omap_fmap_None {A B D} (f : B -> option D) (g : A -> B) (l : list A) :
  (forall a, f (g a) = None) -> omap f (g <$> l) = [].
Proof. intros H. induction l as [|a l IH]; [done|]. cbn. by rewrite H. Qed.
Lemma entries_absorbed R evs l : Forall2 (wander_entry R) evs l -> absorbed evs = [].
Proof. induction 1 as [|e [[??]?] evs l (? & -> & _) _ IH]; [done|]. exact IH. Qed.
Lemma entries_setup R evs l : Forall2 (wander_entry R) evs l -> setup_ops evs = [].
Proof. induction 1 as [|e [[??]?] evs l (? & -> & _) _ IH]; [done|]. exact IH. Qed.
Lemma entries_wander R evs l : Forall2 (wander_entry R) evs l -> fst <$> wander_ops evs = l.
Proof.
  induction 1 as [|e [[tau row] prev] evs l (ra & -> & _) _ IH]; [done|].
  change (wander_ops (?a :: ?b)) with ((tau, row, prev, ra) :: wander_ops b).
  cbn. by rewrite IH.
Qed.
Lemma entries_rowa R evs l : Forall2 (wander_entry R) evs l ->
  Forall (fun x : Z * Z * Z * Z => submask (R - 1) x.2) (wander_ops evs).
Proof.
  induction 1 as [|e [[tau row] prev] evs l (ra & -> & H1 & H2) _ IH]; [constructor|].
  change (wander_ops (?a :: ?b)) with ((tau, row, prev, ra) :: wander_ops b).
  constructor; [split; [cbn; lia|done]|done].
Qed.
Lemma visited_wander log tau : visited log tau =
  omap (fun '(tau', row, _) => if tau' =? tau then Some row else None) (fst <$> wander_ops log).
Proof.
  induction log as [|[b|row prev ra|t row prev ra] log IH]; [done|exact IH|exact IH|].
  change (wander_ops (?a :: ?b)) with ((t, row, prev, ra) :: wander_ops b). cbn.
  change (omap _ log) with (visited log tau). destruct (t =? tau); [|done]. by rewrite <- IH.
Qed.
Lemma omap_with_prev tau prev l :
  omap (fun '(tau', row, _) => if tau' =? tau then Some row else None) (with_prev prev l) =
  omap (fun '(tau', row) => if tau' =? tau then Some row else None) l.
Proof.
  revert prev. induction l as [|[t row] l IH]; intros prev; [done|]. cbn [with_prev]. cbn.
  destruct (t =? tau); [cbn; f_equal|]; apply IH.
Qed.
Lemma omap_pass {A} tau (l : list A) (pair_of : A -> Z * A) (t : Z) :
  (forall a, pair_of a = (t, a)) ->
  omap (fun '(tau', row) => if tau' =? tau then Some row else None) (pair_of <$> l) =
  if t =? tau then l else [].
Proof.
  intros H. induction l as [|a l IH]; [by destruct (t =? tau)|]. cbn. rewrite H.
  destruct (t =? tau); cbn; [f_equal|]; exact IH.
Qed.
Lemma visited_rows R t tau : 1 <= tau <= t ->
  omap (fun '(tau', row) => if tau' =? tau then Some row else None) (wander_rows R t) =
  pass_rows R (reduce_mask R) tau.
Proof.
  intros Htau. unfold wander_rows.
  assert (Hseq : seqZ 1 t = seqZ 1 (tau - 1) ++ tau :: seqZ (tau + 1) (t - tau)).
  { replace t with ((tau - 1) + (1 + (t - tau))) at 1 by lia. rewrite seqZ_app by lia. f_equal.
    rewrite seqZ_cons by lia. f_equal; [lia|]. f_equal; lia. }
  rewrite Hseq, bind_app. rewrite omap_app.
  assert (Hnil : forall l, tau ∉ l ->
    omap (fun '(tau', row) => if tau' =? tau then Some row else None)
      (l ≫= fun tau => (fun row => (tau, row)) <$> pass_rows R (reduce_mask R) tau) = []).
  { induction l as [|a l IH]; intros Hl; [done|]. rewrite not_elem_of_cons in Hl. destruct Hl as [Hne Hl].
    cbn [mbind list_bind]. rewrite omap_app, (omap_pass _ _ _ a) by done.
    rewrite (proj2 (Z.eqb_neq a tau)) by done. apply IH, Hl. }
  rewrite Hnil by (rewrite elem_of_seqZ; lia). cbn [app mbind list_bind].
  rewrite omap_app, (omap_pass _ _ _ tau) by done. rewrite Z.eqb_refl.
  rewrite (Hnil (seqZ (tau + 1) (t - tau))) by (rewrite elem_of_seqZ; lia). apply app_nil_r.
Qed.

(** ** What is absorbed, for any number of rows *)
Section any.
Context (p : platform) (Hp : known_platform p).
Lemma setup_rows_absorbed rl R C m st log s : setup_rows_tr p rl R C m st log = Ok s -> absorbed s.2 = absorbed log.
Proof.
  unfold setup_rows_tr. pose proof (wrap_i64_range R) as Hr. change (MLyra2.r_row MLyra2.rows_init) with 2. unfold as_i64.
  rewrite for_range_foldM by lia. intros E.
  apply (foldM_inv (fun s => absorbed s.2 = absorbed log)) in E; [exact E|done|].
  clear. intros [[[m st] v] l] j s' _ H ([m1 st1] & _ & (v1 & _ & [= <-])%obind_Ok_inv)%obind_Ok_inv.
  cbn [snd] in *. unfold absorbed in *. rewrite omap_app, H. apply app_nil_r.
Qed.
Lemma wander_absorbed sel rl t R C m st prev rowa log s : t < 2 ^ 64 ->
  wander_tr p sel rl t R C m st prev rowa log = Ok s -> absorbed s.2 = absorbed log.
Proof.
  intros Ht. unfold wander_tr. rewrite for_range_foldM by lia. intros E.
  apply (foldM_inv (fun s => absorbed s.2 = absorbed log)) in E; [exact E|done|].
  clear. intros s tau s' _ H (step & _ & E)%obind_Ok_inv. unfold wander_pass_tr in E.
  rewrite loop64_run in E. revert E. generalize fuel64. intros n (r1 & E & E1)%obind_Ok_inv.
  assert (Hr : absorbed (match r1 with inl x => x | inr x => x end).2 = absorbed log).
  { clear E1. revert s H E. induction n as [|n IH]; intros s H E; [injection E as <-; exact H|]. cbn [run_n] in E.
    apply obind_Ok_inv in E as (r & Eb & E). destruct s as [[[[[[m st] ix] row] prev] rowa] l].
    destruct (sel st ix) as [x ix'].
    apply obind_Ok_inv in Eb as (n1 & _ & Eb). apply obind_Ok_inv in Eb as ([m1 st1] & _ & Eb).
    apply obind_Ok_inv in Eb as (row' & _ & Eb). cbn [snd] in H.
    assert (Hl : absorbed (l ++ [EvWander tau row prev (as_i64 (Z.land x n1))]) = absorbed log).
    { unfold absorbed in *. rewrite omap_app, H. apply app_nil_r. }
    destruct (row' =? 0); injection Eb as <-.
    - injection E as <-. exact Hl.
    - eapply IH; [|exact E]. exact Hl. }
  destruct r1; [done|]. injection E1 as <-. exact Hr.
Qed.
Lemma log_absorbed_any sel k pwd salt t R C out log : rust_args (isize_max p) k pwd salt t R C ->
  lyra2_with_tr p sel k pwd salt t R C = Ok (out, log) -> absorbed log = code_blocks k pwd salt t R C.
Proof.
  intros (Hk & [_ Ht] & HR & HC & Hpw & Hsa) E. pose proof (isize_usize p Hp) as Hi.
  pose proof (n_blocks_bounds pwd salt) as Hb. unfold lyra2_with_tr in E.
  destruct (t <? 1); [done|]. destruct (R <? 3); [done|].
  apply obind_Ok_inv in E as (rl & _ & E). apply obind_Ok_inv in E as (tot & _ & E).
  apply obind_Ok_inv in E as (m & Em & E). apply obind_Ok_inv in E as (nb & Enb & E).
  apply obind_Ok_inv in E as (m1 & Em1 & E). apply obind_Ok_inv in E as ([st1 log1] & E1 & E).
  apply obind_Ok_inv in E as ([[[m2 st2] v] log2] & E2 & E).
  apply obind_Ok_inv in E as ([[[[[[m3 st3] i3] r3] p3] a3] log3] & E3 & E).
  do 4 apply obind_Ok_inv in E as (? & _ & E). injection E as _ <-.
  apply wander_absorbed in E3; [|done]. cbn [snd] in E3. rewrite E3.
  unfold setup_tr in E2. do 2 apply obind_Ok_inv in E2 as ([? ?] & _ & E2).
  apply setup_rows_absorbed in E2. cbn [snd] in E2. rewrite E2.
  assert (Hm : m = replicate (Z.to_nat (as_usize p tot)) 0 /\ 8 * as_usize p tot <= isize_max p /\ 0 <= as_usize p tot).
  { unfold vec_zeroed in Em. destruct (_ <=? _) eqn:El in Em; [|done]. injection Em as <-. apply Z.leb_le in El.
    split; [done|]. split; [lia|]. apply Z.mod_pos_bound. lia. }
  destruct Hm as (-> & Hm & H0). set (len := as_usize p tot) in *.
  assert (Hlen : vlen (replicate (Z.to_nat len) 0) = len) by (unfold vlen; rewrite replicate_length; lia).
  assert (Hm8 : 8 * vlen (replicate (Z.to_nat len) 0) <= isize_max p) by lia.
  pose proof (input_inv p Hp _ _ _ _ _ _ _ _ _ (proj1 (isize_word p Hp _ Hpw)) (proj1 (isize_word p Hp _ Hsa)) Hm8 Enb Em1) as [L1 Bin].
  rewrite Hlen in Bin. rewrite (n_blocks_input_Ok p Hp) in Enb by lia. injection Enb as <-.
  destruct Hpw as [Hbp _], Hsa as [Hbs _].
  rewrite (write_input_Ok p Hp) in Em1 by (done || lia). injection Em1 as <-.
  apply (absorb_input_log p Hp) in E1; [|lia|lia|lia]. rewrite E1.
  rewrite input_matrix_take by lia. unfold absorbed. rewrite (omap_fmap_Some _ _ id) by done. by rewrite list_fmap_id.
Qed.
End any.

Section log.
Context (p : platform) (Hp : known_platform p).
Context (sel : MLyra2.selector) (k : Z) (pwd salt : list Z) (t R C : Z) (out : list Z) (log : list event).
Context (Ha : rust_args (isize_max p) k pwd salt t R C) (HR63 : R < 2 ^ 63).
Context (E : lyra2_with_tr p sel k pwd salt t R C = Ok (out, log)).

Lemma log_accepted : accepted (isize_max p) 0 pwd salt t R C.
Proof. apply (lyra2_with_log p Hp) in E; [apply E|done|by left]. Qed.
Lemma log_R : 3 <= R. Proof. destruct log_accepted as (? & ? & ?). done. Qed.
Lemma log_absorbed : absorbed log = code_blocks k pwd salt t R C.
Proof.
  apply (lyra2_with_log p Hp) in E as (_ & evs & -> & HF); [|done|by left].
  unfold absorbed. rewrite !omap_app. fold (absorbed evs). rewrite (entries_absorbed _ _ _ HF).
  rewrite (omap_fmap_Some _ _ id) by done. rewrite omap_fmap_None by done.
  rewrite list_fmap_id. by rewrite !app_nil_r.
Qed.
Lemma log_setup : setup_ops log = setup_schedule R.
Proof.
  apply (lyra2_with_log p Hp) in E as (_ & evs & -> & HF); [|done|by left].
  unfold setup_ops. rewrite !omap_app. fold (setup_ops evs). rewrite (entries_setup _ _ _ HF).
  rewrite omap_fmap_None by done. rewrite (omap_fmap_Some _ _ (fun row => (row, row - 1, setup_rowa row))) by done.
  by rewrite app_nil_r.
Qed.
Lemma log_wander : exists evs, wander_ops log = wander_ops evs /\ Forall2 (wander_entry R) evs (wander_schedule R t).
Proof.
  apply (lyra2_with_log p Hp) in E as (_ & evs & -> & HF); [|done|by left].
  exists evs. split; [|done].
  unfold wander_ops. rewrite !omap_app. rewrite !omap_fmap_None by done. done.
Qed.
Lemma log_wander_schedule : fst <$> wander_ops log = wander_schedule R t.
Proof. destruct log_wander as (evs & -> & HF). by apply (entries_wander R). Qed.
Lemma log_rowa : Forall (fun x : Z * Z * Z * Z => submask (R - 1) x.2) (wander_ops log).
Proof. destruct log_wander as (evs & -> & HF). by eapply entries_rowa. Qed.
Lemma log_visited tau : 1 <= tau <= t -> visited log tau = pass_rows R (reduce_mask R) tau.
Proof.
  intros Ht. rewrite visited_wander, log_wander_schedule. unfold wander_schedule.
  rewrite omap_with_prev. by apply visited_rows.
Qed.
Lemma log_submasks tau row prev rowa : (tau, row, prev, rowa) ∈ wander_ops log ->
  submask (R - 1) row /\ submask (R - 1) prev /\ submask (R - 1) rowa.
Proof.
  intros Hin. pose proof log_R as HR. split; [|split].
  - assert (Hin' : (tau, row, prev) ∈ wander_schedule R t).
    { rewrite <- log_wander_schedule. by apply (elem_of_list_fmap_1 fst) in Hin. }
    unfold wander_schedule in Hin'.
    assert (Hrows : (tau, row) ∈ wander_rows R t).
    { revert Hin'. generalize (R - 1). induction (wander_rows R t) as [|[a b] l IH]; intros q; [by intros ?%elem_of_nil|].
      cbn [with_prev]. intros [[= <- <- _]|Hl]%elem_of_cons; [by left|right; by eapply IH]. }
    unfold wander_rows in Hrows. apply elem_of_list_bind in Hrows as (tau' & Hrows & _).
    apply elem_of_list_fmap in Hrows as (r & [= -> ->] & Hr).
    pose proof (pass_submask R HR tau') as HF. rewrite Forall_forall in HF. by apply HF.
  - assert (Hin' : (tau, row, prev) ∈ wander_schedule R t).
    { rewrite <- log_wander_schedule. by apply (elem_of_list_fmap_1 fst) in Hin. }
    unfold wander_schedule in Hin'.
    assert (Hprev : forall l q, Forall (fun x : Z * Z => submask (R - 1) x.2) l -> submask (R - 1) q ->
      (tau, row, prev) ∈ with_prev q l -> submask (R - 1) prev).
    { clear. induction l as [|[a b] l IH]; intros q HF Hq; cbn [with_prev]; [by intros ?%elem_of_nil|].
      apply Forall_cons in HF as [Hb HF]. intros [[= _ _ ->]|Hl]%elem_of_cons; [done|].
      exact (IH b HF Hb Hl). }
    eapply Hprev; [| |exact Hin'].
    + unfold wander_rows. apply Forall_bind, Forall_true. intros tau'. apply Forall_fmap.
      eapply Forall_impl; [apply (pass_submask R HR tau')|]. done.
    + split; [lia|apply Z.land_diag].
  - pose proof log_rowa as HF. rewrite Forall_forall in HF. by apply (HF _ Hin).
Qed.
End log.

(** ** C08 *)
Lemma bind_const_length {A B} (f : A -> list B) (n : nat) l : (forall a, length (f a) = n) ->
  length (l ≫= f) = (length l * n)%nat.
Proof. intros H. induction l as [|a l IH]; [done|]. cbn. rewrite app_length, H. cbn in IH. lia. Qed.
Lemma with_prev_length prev l : length (with_prev prev l) = length l.
Proof. revert prev. induction l as [|[??] l IH]; intros; cbn; [done|]. by rewrite IH. Qed.
Lemma pass_pow2 p sel k pwd salt t e C out log : known_platform p -> 0 <= e ->
  rust_args (isize_max p) k pwd salt t (2 ^ e) C -> 2 ^ e < 2 ^ 63 ->
  lyra2_with_tr p sel k pwd salt t (2 ^ e) C = Ok (out, log) ->
  (forall tau, 1 <= tau <= t ->
    let s := if Z.even tau then -1 else 2 ^ e / 2 - 1 in
    visited log tau = (fun i => (i * s) mod 2 ^ e) <$> seqZ 0 (2 ^ e) /\
    visited log tau ≡ₚ seqZ 0 (2 ^ e)) /\
  Z.of_nat (length (wander_ops log)) = t * 2 ^ e /\
  Z.of_nat (length (setup_ops log)) = 2 ^ e - 2.
Proof.
  intros Hp He0 Ha HR E. pose proof (log_R p Hp _ _ _ _ _ _ _ _ _ Ha HR E) as H3.
  pose proof (log_accepted p Hp _ _ _ _ _ _ _ _ _ Ha HR E) as (Ht1 & _).
  assert (He : 2 <= e).
  { destruct (Z.le_gt_cases 2 e); [done|]. assert (e = 0 \/ e = 1) as [-> | ->] by lia; cbn in H3; lia. }
  split; [|split].
  - intros tau Htau. rewrite (log_visited p Hp _ _ _ _ _ _ _ _ _ Ha HR E tau Htau).
    split; [by apply pow2_pass|by apply pow2_pass_perm].
  - rewrite <- (fmap_length fst), (log_wander_schedule p Hp _ _ _ _ _ _ _ _ _ Ha HR E).
    unfold wander_schedule, wander_rows. rewrite with_prev_length.
    rewrite (bind_const_length _ (Z.to_nat (2 ^ e))).
    + rewrite seqZ_length. lia.
    + intros tau. rewrite fmap_length, pow2_pass, fmap_length, seqZ_length by done. done.
  - rewrite (log_setup p Hp _ _ _ _ _ _ _ _ _ Ha HR E). unfold setup_schedule.
    rewrite fmap_length, seqZ_length. lia.
Qed.

(** ** C09 *)
Lemma wander_submasks p sel k pwd salt t R C out log : known_platform p ->
  rust_args (isize_max p) k pwd salt t R C -> R < 2 ^ 63 ->
  lyra2_with_tr p sel k pwd salt t R C = Ok (out, log) ->
  (forall tau row prev rowa, (tau, row, prev, rowa) ∈ wander_ops log ->
     Z.land row (R - 1) = row /\ Z.land prev (R - 1) = prev /\ Z.land rowa (R - 1) = rowa) /\
  (forall tau, 1 <= tau <= t -> NoDup (visited log tau)) /\
  (forall tau x, 1 <= tau <= t -> Z.even tau = true ->
     x ∈ visited log tau <-> 0 <= x /\ Z.land x (R - 1) = x).
Proof.
  intros Hp Ha HR E. pose proof (log_R p Hp _ _ _ _ _ _ _ _ _ Ha HR E) as H3. split; [|split].
  - intros tau row prev rowa H.
    destruct (log_submasks p Hp _ _ _ _ _ _ _ _ _ Ha HR E _ _ _ _ H) as ([_ ?] & [_ ?] & [_ ?]). done.
  - intros tau Ht. rewrite (log_visited p Hp _ _ _ _ _ _ _ _ _ Ha HR E tau Ht). by apply pass_NoDup.
  - intros tau x Ht Hev. rewrite (log_visited p Hp _ _ _ _ _ _ _ _ _ Ha HR E tau Ht). by apply even_pass.
Qed.
Lemma odd_pass_single p sel k pwd salt t e C out log : known_platform p -> 1 <= e ->
  rust_args (isize_max p) k pwd salt t (2 ^ e + 1) C -> 2 ^ e + 1 < 2 ^ 63 ->
  lyra2_with_tr p sel k pwd salt t (2 ^ e + 1) C = Ok (out, log) ->
  forall tau, 1 <= tau <= t -> Z.even tau = false -> visited log tau = [0].
Proof.
  intros Hp He Ha HR E tau Ht Ho. rewrite (log_visited p Hp _ _ _ _ _ _ _ _ _ Ha HR E tau Ht).
  by apply odd_pass_pow2_plus1.
Qed.

(** ** C50 *)
Lemma with_prev_shift l : forall q, exists x,
  (snd <$> with_prev q l) ++ [x] = q :: ((fun y => y.1.2) <$> with_prev q l).
Proof.
  induction l as [|[tau row] l IH]; intros q; [by exists q|]. cbn [with_prev].
  destruct (IH row) as [x Hx]. exists x. cbn. f_equal. exact Hx.
Qed.
Lemma read_next p sel k pwd salt t R C out log : known_platform p ->
  rust_args (isize_max p) k pwd salt t R C -> R < 2 ^ 63 ->
  lyra2_with_tr p sel k pwd salt t R C = Ok (out, log) ->
  (fun '(_, prev, _) => prev) <$> setup_ops log = seqZ 1 (R - 2) /\
  exists x, ((fun '(_, _, prev, _) => prev) <$> wander_ops log) ++ [x] =
            (R - 1) :: ((fun '(_, row, _, _) => row) <$> wander_ops log).
Proof.
  intros Hp Ha HR E. split.
  - rewrite (log_setup p Hp _ _ _ _ _ _ _ _ _ Ha HR E). unfold setup_schedule.
    rewrite <- list_fmap_compose.
    apply list_eq. intros i. rewrite list_lookup_fmap.
    destruct (decide (Z.of_nat i < R - 2)).
    + rewrite !lookup_seqZ_lt by lia. cbn. f_equal. lia.
    + rewrite !lookup_seqZ_ge by lia. done.
  - pose proof (log_wander_schedule p Hp _ _ _ _ _ _ _ _ _ Ha HR E) as Hs.
    destruct (with_prev_shift (wander_rows R t) (R - 1)) as [x Hx]. exists x.
    fold (wander_schedule R t) in Hx. rewrite <- Hs, <- !list_fmap_compose in Hx.
    erewrite (list_fmap_ext _ (snd ∘ fst)), (list_fmap_ext (fun '(_, row, _, _) => row)); [exact Hx|by intros ? [[[??]?]?]|by intros ? [[[??]?]?]].
Qed.

(** ** C10 *)
Lemma setup_covers p sel k pwd salt t R C out log : known_platform p ->
  rust_args (isize_max p) k pwd salt t R C -> R < 2 ^ 63 ->
  lyra2_with_tr p sel k pwd salt t R C = Ok (out, log) ->
  (fun '(row, _, _) => row) <$> setup_ops log = seqZ 2 (R - 2) /\
  (forall row prev rowa, (row, prev, rowa) ∈ setup_ops log ->
     prev = row - 1 /\ 0 <= rowa < prev /\
     let e := Z.log2 row in let w := 2 ^ e in
     rowa = ((row - w) * (if e =? 1 then 1 else if Z.even e then w / 2 + 1 else w / 2 - 1)) mod w) /\
  (forall e, 1 <= e -> 2 ^ (e + 1) <= R ->
     omap (fun '(row, _, rowa) => if (2 ^ e <=? row) && (row <? 2 ^ (e + 1)) then Some rowa else None)
       (setup_ops log) ≡ₚ seqZ 0 (2 ^ e)).
Proof.
  intros Hp Ha HR E. pose proof (log_R p Hp _ _ _ _ _ _ _ _ _ Ha HR E) as H3.
  rewrite (log_setup p Hp _ _ _ _ _ _ _ _ _ Ha HR E). unfold setup_schedule. split; [|split].
  - rewrite <- list_fmap_compose. rewrite <- (list_fmap_id (seqZ 2 (R - 2))) at 2. by apply list_fmap_ext.
  - intros row prev rowa (r & [= -> -> ->] & Hr%elem_of_seqZ)%elem_of_list_fmap.
    pose proof (setup_rowa_lt r ltac:(lia)). split; [done|]. split; [lia|]. cbv zeta.
    unfold setup_rowa. cbv zeta. f_equal. f_equal. unfold stride.
    pose proof (setup_e r ltac:(lia)) as (He & _).
    destruct (Z.log2 r =? 1) eqn:E1; [done|]. apply Z.eqb_neq in E1.
    assert (E2 : 2 ^ Z.log2 r / 2 = 2 ^ (Z.log2 r - 1)).
    { replace (Z.log2 r) with (Z.log2 r - 1 + 1) at 1 by lia. rewrite Z.pow_add_r by lia.
      change (2 ^ 1) with 2. by rewrite Z.div_mul. }
    by rewrite E2.
  - intros e He Hle. rewrite <- (setup_window e He).
    assert (Hpow : 2 ^ (e + 1) = 2 ^ e + 2 ^ e) by (rewrite Z.pow_add_r by lia; lia).
    assert (H2 : 2 ^ 1 <= 2 ^ e) by (apply Z.pow_le_mono_r; lia). change (2 ^ 1) with 2 in H2.
    assert (Hseq : seqZ 2 (R - 2) = seqZ 2 (2 ^ e - 2) ++ seqZ (2 ^ e) (2 ^ e) ++
                     seqZ (2 ^ (e + 1)) (R - 2 ^ (e + 1))).
    { replace (R - 2) with ((2 ^ e - 2) + (2 ^ e + (R - 2 ^ (e + 1)))) by lia.
      rewrite !seqZ_app by lia. f_equal. f_equal; f_equal; lia. }
    rewrite Hseq, !fmap_app, !omap_app.
    assert (Hout : forall l : list Z, (forall r, r ∈ l -> ~ (2 ^ e <= r < 2 ^ (e + 1))) ->
      omap (fun '(row, _, rowa) => if (2 ^ e <=? row) && (row <? 2 ^ (e + 1)) then Some rowa else None)
        ((fun row => (row, row - 1, setup_rowa row)) <$> l) = []).
    { induction l as [|r l IH]; intros Hl; [done|]. cbn.
      replace ((2 ^ e <=? r) && (r <? 2 ^ (e + 1))) with false.
      - apply IH. intros r' Hr'. apply Hl. by right.
      - symmetry. apply not_true_is_false. intros [H4 H5]%andb_true_iff. apply (Hl r); [by left|]. lia. }
    assert (Hin : forall l : list Z, (forall r, r ∈ l -> 2 ^ e <= r < 2 ^ (e + 1)) ->
      omap (fun '(row, _, rowa) => if (2 ^ e <=? row) && (row <? 2 ^ (e + 1)) then Some rowa else None)
        ((fun row => (row, row - 1, setup_rowa row)) <$> l) = setup_rowa <$> l).
    { induction l as [|r l IH]; intros Hl; [done|]. cbn.
      replace ((2 ^ e <=? r) && (r <? 2 ^ (e + 1))) with true.
      - cbn. f_equal. apply IH. intros r' Hr'. apply Hl. by right.
      - symmetry. apply andb_true_iff. pose proof (Hl r ltac:(by left)). lia. }
    rewrite (Hout (seqZ 2 _)), Hin, Hout; [by rewrite app_nil_r|..].
    + intros r Hr%elem_of_seqZ. lia.
    + intros r Hr%elem_of_seqZ. lia.
    + intros r Hr%elem_of_seqZ. lia.
Qed.

(** ** C11 *)
Lemma schedule_public_regular p p' sel sel' k k' pwd pwd' salt salt' t R C C' out out' log log' :
  known_platform p -> known_platform p' ->
  rust_args (isize_max p) k pwd salt t R C -> rust_args (isize_max p') k' pwd' salt' t R C' -> R < 2 ^ 63 ->
  lyra2_with_tr p sel k pwd salt t R C = Ok (out, log) ->
  lyra2_with_tr p' sel' k' pwd' salt' t R C' = Ok (out', log') ->
  setup_ops log = setup_ops log' /\
  (fun '(tau, row, prev, _) => (tau, row, prev)) <$> wander_ops log =
  (fun '(tau, row, prev, _) => (tau, row, prev)) <$> wander_ops log'.
Proof.
  intros Hp Hp' Ha Ha' HR E E'.
  assert (Hf : forall l : list (Z * Z * Z * Z), (fun '(tau, row, prev, _) => (tau, row, prev)) <$> l = fst <$> l).
  { intros l. apply list_fmap_ext. by intros ? [[[??]?]?] _. }
  rewrite !Hf. rewrite (log_setup p Hp _ _ _ _ _ _ _ _ _ Ha HR E), (log_setup p' Hp' _ _ _ _ _ _ _ _ _ Ha' HR E').
  rewrite (log_wander_schedule p Hp _ _ _ _ _ _ _ _ _ Ha HR E), (log_wander_schedule p' Hp' _ _ _ _ _ _ _ _ _ Ha' HR E').
  done.
Qed.
(** Two runs with 2^63 rows or more go through the same rows. *)
Definition walk (s : list Z * list Z * Z * Z * Z * Z * list event) : Z * Z * list (Z * Z * Z) :=
  let '(_, _, _, row, prev, _, log) := s in (row, prev, fst <$> wander_ops log).
Lemma chk_i64_off p p' x a b : overflow_checks p = false -> overflow_checks p' = false ->
  chk_i64 p x = Ok a -> chk_i64 p' x = Ok b -> a = b.
Proof. intros H H'. unfold chk_i64. rewrite H, H'. destruct (in_i64 x); congruence. Qed.
Section lockstep.
Context (p p' : platform) (Hd : overflow_checks p = false) (Hd' : overflow_checks p' = false).
Context (sel sel' : MLyra2.selector) (rl rl' R C C' : Z).
Lemma pass_lockstep tau step s1 s1' r r' : walk s1 = walk s1' ->
  wander_pass_tr p sel rl R C tau step s1 = Ok r -> wander_pass_tr p' sel' rl' R C' tau step s1' = Ok r' ->
  walk r = walk r'.
Proof.
  unfold wander_pass_tr. rewrite !loop64_run. generalize fuel64. intros n.
  intros Hw (q & E & Eq)%obind_Ok_inv (q' & E' & Eq')%obind_Ok_inv.
  assert (Hq : match q, q' with inl a, inl b => walk a = walk b | inr a, inr b => walk a = walk b | _, _ => False end).
  { clear Eq Eq'. revert s1 s1' Hw E E'. induction n as [|n IH]; intros s s' Hw E E'.
    - injection E as <-. injection E' as <-. exact Hw.
    - cbn [run_n] in E, E'. apply obind_Ok_inv in E as (b & Eb & E). apply obind_Ok_inv in E' as (b' & Eb' & E').
      destruct s as [[[[[[m st] ix] row] prev] ra] l], s' as [[[[[[m' st'] ix'] row'] prev'] ra'] l'].
      unfold walk in Hw. injection Hw as -> -> Hl.
      destruct (sel st ix) as [x jx], (sel' st' ix') as [x' jx'].
      apply obind_Ok_inv in Eb as (n1 & _ & ([? ?] & _ & (nx & En & Eb)%obind_Ok_inv)%obind_Ok_inv).
      apply obind_Ok_inv in Eb' as (n1' & _ & ([? ?] & _ & (nx' & En' & Eb')%obind_Ok_inv)%obind_Ok_inv).
      assert (nx = nx') as <-.
      { unfold MLyra2.wander_next in En, En'.
        apply obind_Ok_inv in En as (a1 & Ea & (a2 & Eb2 & [= <-])%obind_Ok_inv).
        apply obind_Ok_inv in En' as (a1' & Ea' & (a2' & Eb2' & [= <-])%obind_Ok_inv).
        unfold iadd, isub in *. f_equal; [exact (chk_i64_off p p' _ _ _ Hd Hd' Ea Ea')|exact (chk_i64_off p p' _ _ _ Hd Hd' Eb2 Eb2')]. }
      assert (Hl2 : fst <$> wander_ops (l ++ [EvWander tau row' prev' (as_i64 (Z.land x n1))]) =
                    fst <$> wander_ops (l' ++ [EvWander tau row' prev' (as_i64 (Z.land x' n1'))])).
      { unfold wander_ops in *. rewrite !omap_app, !fmap_app. cbn. by rewrite Hl. }
      destruct (nx =? 0); injection Eb as <-; injection Eb' as <-.
      + injection E as <-. injection E' as <-. unfold walk. by rewrite Hl2.
      + eapply IH; [|exact E|exact E']. unfold walk. by rewrite Hl2. }
  destruct q, q'; try done. injection Eq as <-. injection Eq' as <-. exact Hq.
Qed.
Lemma wander_lockstep t m st m' st' prev ra ra' log log' r r' : t < 2 ^ 64 ->
  fst <$> wander_ops log = fst <$> wander_ops log' ->
  wander_tr p sel rl t R C m st prev ra log = Ok r -> wander_tr p' sel' rl' t R C' m' st' prev ra' log' = Ok r' ->
  walk r = walk r'.
Proof.
  intros Ht Hl. unfold wander_tr. rewrite !for_range_foldM by lia. generalize (seqZ 1 (t + 1 - 1)). intros l.
  assert (Hs : walk (m, st, 0, 0, prev, ra, log) = walk (m', st', 0, 0, prev, ra', log')) by (unfold walk; by rewrite Hl).
  revert Hs. generalize (m, st, 0, 0, prev, ra, log) as s, (m', st', 0, 0, prev, ra', log') as s'.
  induction l as [|tau l IH]; intros s s' Hs E E'; cbn [foldM] in E, E'.
  - injection E as <-. injection E' as <-. exact Hs.
  - apply obind_Ok_inv in E as (s2 & Eb & E). apply obind_Ok_inv in E' as (s2' & Eb' & E').
    eapply IH; [|exact E|exact E'].
    apply obind_Ok_inv in Eb as (step & Es & Eb). apply obind_Ok_inv in Eb' as (step' & Es' & Eb').
    assert (step = step') as <-.
    { unfold MLyra2.wander_step in Es, Es'. apply obind_Ok_inv in Es as (a & Ea & Es). apply obind_Ok_inv in Es' as (a' & Ea' & Es').
      unfold isub in *. pose proof (chk_i64_off p p' _ _ _ Hd Hd' Ea Ea') as ->. congruence. }
    exact (pass_lockstep tau step s s' s2 s2' Hs Eb Eb').
Qed.
End lockstep.
Lemma absorb_no_wander p nb m st st' log : nb < 2 ^ 64 -> absorb_input_tr p nb m st = Ok (st', log) -> wander_ops log = [].
Proof.
  intros Hnb. unfold absorb_input_tr. intros ([[s q] l] & E & [= -> ->])%obind_Ok_inv.
  rewrite for_range_foldM in E by lia.
  apply (foldM_inv (fun s => wander_ops s.2 = [])) in E; [exact E|done|].
  clear. intros [[s q] l] j s' _ H (r & _ & (s1 & _ & (q1 & _ & [= <-])%obind_Ok_inv)%obind_Ok_inv)%obind_Ok_inv.
  cbn [snd] in *. unfold wander_ops in *. rewrite omap_app, H. done.
Qed.
(** With that many rows the wandering phase starts from the initial row variables. *)
Lemma big_run p sel k pwd salt t R C out log : 2 ^ 63 <= R < 2 ^ 64 ->
  lyra2_with_tr p sel k pwd salt t R C = Ok (out, log) ->
  exists rl m st log1 s, wander_ops log1 = [] /\
    wander_tr p sel rl t R C m st 1 0 log1 = Ok s /\ s.2 = log.
Proof.
  intros HR E. unfold lyra2_with_tr in E.
  destruct (t <? 1); [done|]. destruct (R <? 3); [done|].
  apply obind_Ok_inv in E as (rl & _ & E). apply obind_Ok_inv in E as (tot & _ & E).
  apply obind_Ok_inv in E as (m & Em & E). apply obind_Ok_inv in E as (nb & Enb & E).
  apply obind_Ok_inv in E as (m1 & Em1 & E). apply obind_Ok_inv in E as ([st1 log1] & E1 & E).
  apply obind_Ok_inv in E as ([[[m2 st2] v] log2] & E2 & E).
  apply obind_Ok_inv in E as ([[[[[[m3 st3] i3] r3] p3] a3] log3] & E3 & E).
  do 4 apply obind_Ok_inv in E as (? & _ & E). injection E as _ <-.
  unfold setup_tr in E2. do 2 apply obind_Ok_inv in E2 as ([? ?] & _ & E2).
  unfold setup_rows_tr in E2. rewrite BigRows.as_i64_big in E2 by lia.
  change (MLyra2.r_row MLyra2.rows_init) with 2 in E2. rewrite for_range_foldM in E2 by lia.
  rewrite seqZ_nil in E2 by lia. cbn [foldM] in E2. injection E2 as <- <- <- <-.
  do 5 eexists. split; [|split; [exact E3|done]].
  refine (absorb_no_wander p nb m1 MLyra2.init_state st1 log1 _ E1).
  unfold MLyra2.n_blocks_input in Enb. apply obind_Ok_inv in Enb as (? & _ & (? & _ & Enb)%obind_Ok_inv).
  apply chk_i64_inv in Enb as [Hnb _]. lia.
Qed.
Lemma schedule_public p p' sel sel' k k' pwd pwd' salt salt' t R C C' out out' log log' :
  known_platform p -> known_platform p' ->
  rust_args (isize_max p) k pwd salt t R C -> rust_args (isize_max p') k' pwd' salt' t R C' ->
  lyra2_with_tr p sel k pwd salt t R C = Ok (out, log) ->
  lyra2_with_tr p' sel' k' pwd' salt' t R C' = Ok (out', log') ->
  setup_ops log = setup_ops log' /\
  (fun '(tau, row, prev, _) => (tau, row, prev)) <$> wander_ops log =
  (fun '(tau, row, prev, _) => (tau, row, prev)) <$> wander_ops log'.
Proof.
  intros Hp Hp' Ha Ha' E E'. destruct (Z.lt_ge_cases R (2 ^ 63)) as [HR|HR].
  { exact (schedule_public_regular p p' sel sel' k k' pwd pwd' salt salt' t R C C' out out' log log' Hp Hp' Ha Ha' HR E E'). }
  destruct (BigRows.big_rows_no_setup p Hp sel k pwd salt t R C out log Ha HR E) as [Hd ->].
  destruct (BigRows.big_rows_no_setup p' Hp' sel' k' pwd' salt' t R C' out' log' Ha' HR E') as [Hd' ->].
  split; [done|].
  assert (Hf : forall l : list (Z * Z * Z * Z), (fun '(tau, row, prev, _) => (tau, row, prev)) <$> l = fst <$> l).
  { intros l. apply list_fmap_ext. by intros ? [[[??]?]?] _. }
  rewrite !Hf. destruct Ha as (_ & [_ Ht] & [_ HR2] & _).
  destruct (big_run p sel k pwd salt t R C out log ltac:(lia) E) as (rl & m & st & l1 & s & H1 & W & <-).
  destruct (big_run p' sel' k' pwd' salt' t R C' out' log' ltac:(lia) E') as (rl' & m' & st' & l1' & s' & H1' & W' & <-).
  assert (Hs : walk s = walk s').
  { refine (wander_lockstep p p' Hd Hd' sel sel' rl rl' R C C' t m st m' st' 1 0 0 l1 l1' s s' Ht _ W W'). by rewrite H1, H1'. }
  destruct s as [[[[[[? ?] ?] ?] ?] ?] ?], s' as [[[[[[? ?] ?] ?] ?] ?] ?]. unfold walk in Hs. injection Hs as _ _ Hs. exact Hs.
Qed.

(** ** C12 *)
Lemma flat_agree_eq R C m m' M M' : 3 <= R -> 1 <= C -> flat R C m M -> flat R C m' M' ->
  agree C R M M' -> m = m'.
Proof.
  intros HR HC [Hl HF] [Hl' HF'] HA. apply list_eq. intros i.
  destruct (decide (i < length m)%nat) as [Hi|Hi].
  2:{ rewrite !lookup_ge_None_2; [done| |]; unfold vlen in *; lia. }
  unfold vlen, L in *.
  set (b := (Z.of_nat i) / 12). set (j := (Z.of_nat i) mod 12).
  pose proof (Z.div_mod (Z.of_nat i) 12 ltac:(lia)) as Hd. fold b j in Hd.
  pose proof (Z.mod_pos_bound (Z.of_nat i) 12 ltac:(lia)) as Hj. fold j in Hj.
  set (r := b / C). set (c := b mod C).
  pose proof (Z.div_mod b C ltac:(lia)) as Hd2. fold r c in Hd2.
  pose proof (Z.mod_pos_bound b C ltac:(lia)) as Hc. fold c in Hc.
  assert (Hb : 0 <= b < R * C) by lia.
  assert (Hr : 0 <= r < R).
  { split; [apply Z.div_pos; lia|]. apply Z.div_lt_upper_bound; lia. }
  destruct (HF r c Hr Hc) as [_ HJ]. destruct (HF' r c Hr Hc) as [_ HJ'].
  specialize (HJ j Hj). specialize (HJ' j Hj).
  assert (Hidx : Z.to_nat (idx C r c j) = i) by (unfold idx; lia).
  rewrite Hidx in HJ, HJ'. rewrite HJ, HJ'. by rewrite (HA r c Hr Hc).
Qed.
Lemma setup_forgets p R C m m' st : known_platform p ->
  3 <= R -> 1 <= C -> 96 * R * C <= isize_max p ->
  vlen m = 12 * R * C -> vlen m' = 12 * R * C -> Forall (word 64) m -> Forall (word 64) m' -> state16 st ->
  (exists r, MLyra2.setup p (12 * C) R C m st = Ok r) /\
  MLyra2.setup p (12 * C) R C m st = MLyra2.setup p (12 * C) R C m' st.
Proof.
  intros Hp HR HC Hmax Hl Hl' Hw Hw' Hst.
  pose proof (flat_unflatten p R C m HR HC Hmax Hl Hw) as HF.
  pose proof (flat_unflatten p R C m' HR HC Hmax Hl' Hw') as HF'.
  destruct (setup_Ok p Hp R C HR HC Hmax m _ st HF Hst) as (m1 & st1 & E & HRel).
  destruct (setup_Ok p Hp R C HR HC Hmax m' _ st HF' Hst) as (m1' & st1' & E' & HRel').
  rewrite E, E'. split; [by eexists|].
  pose proof (setup_agree R C ltac:(lia) (unflatten C m) (unflatten C m') st HR) as HA.
  destruct (setup R C (unflatten C m, st)) as [M2 s2], (setup R C (unflatten C m', st)) as [M2' s2'].
  destruct HRel as (F1 & E1 & _), HRel' as (F1' & E1' & _). cbn in *. destruct HA as [HA HS]. cbn in *.
  do 3 f_equal; [|congruence]. eapply flat_agree_eq; eauto.
Qed.

(** ** C13, C15, C16 *)
Lemma complete_words_take l : complete_words (take (8 * (length l / 8)) l) = complete_words l.
Proof.
  pose proof (Nat.mul_div_le (length l) 8 ltac:(lia)) as Hle.
  assert (Hlt : length (take (8 * (length l / 8)) l) = (8 * (length l / 8))%nat)
    by (rewrite take_length; lia).
  unfold complete_words. f_equal. unfold chunks. rewrite Hlt, (Nat.mul_comm 8), Nat.div_mul by lia.
  apply list_fmap_ext. intros n i Hi. apply lookup_seq in Hi as [-> Hn]. cbn [Nat.add].
  rewrite skipn_firstn_comm, take_take. f_equal. lia.
Qed.
Lemma complete_words_iff l l' : Forall byte l -> Forall byte l' -> length l = length l' ->
  complete_words l = complete_words l' <->
  take (8 * (length l / 8)) l = take (8 * (length l' / 8)) l'.
Proof.
  intros Hb Hb' Hl. rewrite <- (complete_words_take l), <- (complete_words_take l'). split; [|by intros ->].
  pose proof (Nat.mul_div_le (length l) 8 ltac:(lia)) as Hle.
  apply (complete_words_inj _ _ (length l / 8)); try by apply Forall_take.
  - rewrite take_length. lia.
  - rewrite take_length, <- Hl. lia.
Qed.
Lemma absorbed_iff p p' sel sel' k pwd salt t R C k' pwd' salt' t' R' C' out out' log log' :
  known_platform p -> known_platform p' ->
  rust_args (isize_max p) k pwd salt t R C -> rust_args (isize_max p') k' pwd' salt' t' R' C' ->
  lyra2_with_tr p sel k pwd salt t R C = Ok (out, log) ->
  lyra2_with_tr p' sel' k' pwd' salt' t' R' C' = Ok (out', log') ->
  absorbed log = absorbed log' <->
  k = k' /\ t = t' /\ R = R' /\ C = C' /\ length pwd = length pwd' /\ length salt = length salt' /\
  take (8 * (length pwd / 8)) pwd = take (8 * (length pwd' / 8)) pwd' /\
  take (8 * (length salt / 8)) salt = take (8 * (length salt' / 8)) salt'.
Proof.
  intros Hp Hp' Ha Ha' E E'.
  rewrite (log_absorbed_any p Hp _ _ _ _ _ _ _ _ _ Ha E), (log_absorbed_any p' Hp' _ _ _ _ _ _ _ _ _ Ha' E').
  destruct Ha as (_ & _ & _ & _ & [Bp _] & [Bs _]), Ha' as (_ & _ & _ & _ & [Bp' _] & [Bs' _]). split.
  - intros Heq. apply code_blocks_padded, code_padded_inj in Heq as (-> & Hlp & Hls & -> & -> & -> & Ep & Es).
    repeat (split; [done|]). split; by apply complete_words_iff.
  - intros (-> & -> & -> & -> & Hlp & Hls & Ep & Es).
    apply complete_words_iff in Ep; [|done..]. apply complete_words_iff in Es; [|done..].
    unfold code_blocks, code_padded, n_blocks. by rewrite Ep, Es, Hlp, Hls.
Qed.
Lemma take_aligned (l : list Z) : (8 | Z.of_nat (length l)) -> take (8 * (length l / 8)) l = l.
Proof. intros [q Hq]%divide_nat. rewrite Hq, Nat.div_mul by lia. apply take_ge. lia. Qed.
Lemma absorbed_inj p p' sel sel' k pwd salt t R C k' pwd' salt' t' R' C' out out' log log' :
  known_platform p -> known_platform p' ->
  rust_args (isize_max p) k pwd salt t R C -> rust_args (isize_max p') k' pwd' salt' t' R' C' ->
  lyra2_with_tr p sel k pwd salt t R C = Ok (out, log) ->
  lyra2_with_tr p' sel' k' pwd' salt' t' R' C' = Ok (out', log') ->
  (8 | Z.of_nat (length pwd)) -> (8 | Z.of_nat (length salt)) ->
  absorbed log = absorbed log' -> (k, pwd, salt, t, R, C) = (k', pwd', salt', t', R', C').
Proof.
  intros Hp Hp' Ha Ha' E E' H8 H8' Heq.
  apply (absorbed_iff p p' _ _ _ _ _ _ _ _ _ _ _ _ _ _ _ _ _ _ Hp Hp' Ha Ha' E E') in Heq
    as (-> & -> & -> & -> & Hlp & Hls & Ep & Es).
  rewrite !take_aligned in Ep by congruence. rewrite !take_aligned in Es by congruence. by rewrite Ep, Es.
Qed.
Lemma absorbed_reference p sel k pwd salt t R C out log : known_platform p ->
  rust_args (isize_max p) k pwd salt t R C ->
  lyra2_with_tr p sel k pwd salt t R C = Ok (out, log) ->
  absorbed log = ref_blocks k pwd salt t R C <->
  (8 | Z.of_nat (length pwd)) /\ (8 | Z.of_nat (length salt)).
Proof.
  intros Hp Ha E. rewrite (log_absorbed_any p Hp _ _ _ _ _ _ _ _ _ Ha E).
  destruct Ha as (Hk & Ht & HRw & HC & Hpw & Hsa).
  pose proof (isize_word p Hp _ Hpw) as [_ Hlp]. pose proof (isize_word p Hp _ Hsa) as [_ Hls].
  pose proof (vlen_nonneg pwd). pose proof (vlen_nonneg salt).
  rewrite <- (ref_blocks_code_iff k pwd salt t R C (proj1 Hpw) (proj1 Hsa) Hk
    ltac:(split; lia) ltac:(split; lia) Ht HRw HC).
  split; by intros ->.
Qed.
Lemma absorbed_boundary p p' sel sel' k k' pwd salt pwd' salt' t t' R R' C C' out out' log log' :
  known_platform p -> known_platform p' ->
  rust_args (isize_max p) k pwd salt t R C -> rust_args (isize_max p') k' pwd' salt' t' R' C' ->
  lyra2_with_tr p sel k pwd salt t R C = Ok (out, log) ->
  lyra2_with_tr p' sel' k' pwd' salt' t' R' C' = Ok (out', log') ->
  pwd ++ salt = pwd' ++ salt' -> absorbed log = absorbed log' -> pwd = pwd' /\ salt = salt'.
Proof.
  intros Hp Hp' Ha Ha' E E' Happ Heq.
  apply (absorbed_iff p p' _ _ _ _ _ _ _ _ _ _ _ _ _ _ _ _ _ _ Hp Hp' Ha Ha' E E') in Heq
    as (_ & _ & _ & _ & Hlp & _).
  by apply app_inj_1.
Qed.
Lemma absorbed_swap p p' sel sel' k k' pwd salt t t' R R' C C' out out' log log' :
  known_platform p -> known_platform p' ->
  rust_args (isize_max p) k pwd salt t R C -> rust_args (isize_max p') k' salt pwd t' R' C' ->
  lyra2_with_tr p sel k pwd salt t R C = Ok (out, log) ->
  lyra2_with_tr p' sel' k' salt pwd t' R' C' = Ok (out', log') ->
  absorbed log = absorbed log' ->
  length pwd = length salt /\ take (8 * (length pwd / 8)) pwd = take (8 * (length salt / 8)) salt.
Proof.
  intros Hp Hp' Ha Ha' E E' Heq.
  apply (absorbed_iff p p' _ _ _ _ _ _ _ _ _ _ _ _ _ _ _ _ _ _ Hp Hp' Ha Ha' E E') in Heq
    as (_ & _ & _ & _ & Hlp & Hls & E1 & E2). done.
Qed.

(** ** C14 *)
Lemma chk_usize_le p r x : known_platform p -> 0 <= r -> chk_usize p r = Ok x -> 0 <= x <= r.
Proof.
  intros Hp Hr. unfold chk_usize, as_usize.
  assert (0 < 2 ^ usize_bits p) by (destruct Hp as [-> | ->]; lia).
  destruct (in_usize p r); [intros [= <-]; lia|]. destruct (overflow_checks p); [done|]. intros [= <-].
  pose proof (Z.mod_pos_bound r (2 ^ usize_bits p) ltac:(lia)). pose proof (Z.mod_le r (2 ^ usize_bits p)). lia.
Qed.
Lemma slice_ext data data' n s e : length data = length data' ->
  take n data = take n data' -> 0 <= e <= Z.of_nat n -> slice data s e = slice data' s e.
Proof.
  intros Hl Ht He. unfold slice, vlen. rewrite Hl.
  destruct (_ && _) eqn:Hc; [|done]. f_equal.
  apply andb_true_iff in Hc as [[? ?]%andb_true_iff ?].
  assert (Htt : forall l : list Z, take (Z.to_nat (e - s)) (drop (Z.to_nat s) l) =
            take (Z.to_nat (e - s)) (drop (Z.to_nat s) (take n l))).
  { intros l. rewrite skipn_firstn_comm, take_take. f_equal. lia. }
  by rewrite (Htt data), (Htt data'), Ht.
Qed.
Lemma copy_words_ext p data data' ptr m : known_platform p -> Z.of_nat (length data) < 2 ^ 64 ->
  length data = length data' ->
  take (8 * (length data / 8)) data = take (8 * (length data' / 8)) data' ->
  MLyra2.copy_words p data ptr m = MLyra2.copy_words p data' ptr m.
Proof.
  intros Hp Hmax Hl Ht. unfold MLyra2.copy_words. unfold vlen. rewrite <- Hl in *.
  assert (Hq : 0 <= Z.of_nat (length data) / 8 < 2 ^ 64).
  { split; [apply Z.div_pos; lia|]. apply Z.div_lt_upper_bound; lia. }
  rewrite !for_range_foldM by lia. apply foldM_ext. intros m1 j Hj.
  apply elem_of_seqZ in Hj.
  unfold szmul, szadd. destruct (chk_usize p (8 * j)) as [start| |] eqn:E1; [|done|done]. cbn [obind].
  destruct (chk_usize p (start + 8)) as [end_| |] eqn:E2; [|done|done]. cbn [obind].
  apply chk_usize_le in E1; [|done|lia]. apply chk_usize_le in E2; [|done|lia].
  rewrite (slice_ext data data' (8 * (length data / 8)) start end_); [done|done|done|].
  assert (Z.of_nat (length data / 8) = Z.of_nat (length data) / 8) by (rewrite Nat2Z.inj_div; done). lia.
Qed.
Lemma trailing_ignored p sel k pwd pwd' salt salt' t R C : known_platform p ->
  Z.of_nat (length pwd) < 2 ^ 64 -> Z.of_nat (length salt) < 2 ^ 64 ->
  length pwd = length pwd' -> length salt = length salt' ->
  take (8 * (length pwd / 8)) pwd = take (8 * (length pwd' / 8)) pwd' ->
  take (8 * (length salt / 8)) salt = take (8 * (length salt' / 8)) salt' ->
  MLyra2.lyra2_with p sel k pwd salt t R C = MLyra2.lyra2_with p sel k pwd' salt' t R C.
Proof.
  intros Hp Hm1 Hm2 Hl1 Hl2 Ht1 Ht2. unfold MLyra2.lyra2_with.
  destruct (t <? 1); [done|]. destruct (R <? 3); [done|].
  apply obind_ext; intros row_len _. apply obind_ext; intros total _. apply obind_ext; intros m _.
  assert (En : MLyra2.n_blocks_input p pwd salt = MLyra2.n_blocks_input p pwd' salt').
  { unfold MLyra2.n_blocks_input, vlen. by rewrite Hl1, Hl2. }
  rewrite En. apply obind_ext; intros nblocks _.
  assert (Ew : MLyra2.write_input p k pwd salt t R C nblocks m =
               MLyra2.write_input p k pwd' salt' t R C nblocks m).
  { unfold MLyra2.write_input. rewrite (copy_words_ext p pwd pwd') by done.
    apply obind_ext; intros m1 _. assert (Ev : vlen pwd = vlen pwd') by (unfold vlen; by rewrite Hl1).
    assert (Ev2 : vlen salt = vlen salt') by (unfold vlen; by rewrite Hl2). rewrite Ev, Ev2.
    apply obind_ext; intros ptr _. by rewrite (copy_words_ext p salt salt'). }
  by rewrite Ew.
Qed.
Lemma trailing_ignored_args p k pwd pwd' salt salt' t R C : known_platform p ->
  rust_args (isize_max p) k pwd salt t R C -> rust_args (isize_max p) k pwd' salt' t R C ->
  length pwd = length pwd' -> length salt = length salt' ->
  take (8 * (length pwd / 8)) pwd = take (8 * (length pwd' / 8)) pwd' ->
  take (8 * (length salt / 8)) salt = take (8 * (length salt' / 8)) salt' ->
  MLyra2.lyra2 p k pwd salt t R C = MLyra2.lyra2 p k pwd' salt' t R C /\
  MLyra2.lyra2mod p k pwd salt t R C = MLyra2.lyra2mod p k pwd' salt' t R C.
Proof.
  intros Hp (_ & _ & _ & _ & Hpw & Hsa) _ Hl1 Hl2 Ht1 Ht2.
  pose proof (isize_word p Hp _ Hpw) as [_ Hlp]. pose proof (isize_word p Hp _ Hsa) as [_ Hls].
  unfold vlen in *. split; apply trailing_ignored; done.
Qed.

(** ** Accepted calls have a log *)
Lemma logs p k pwd salt t R C : known_platform p -> rust_args (isize_max p) k pwd salt t R C ->
  accepted (isize_max p) k pwd salt t R C ->
  (exists log, lyra2_tr p k pwd salt t R C = Ok (Lyra2_code choose_first k pwd salt t R C, log)) /\
  (exists log, lyra2mod_tr p k pwd salt t R C = Ok (Lyra2_code choose_rev3 k pwd salt t R C, log)).
Proof.
  intros Hp Ha Hacc.
  assert (Haux : forall (x : outcome (list Z * list event)) v,
    (y <-- x ;; Ok (fst y)) = Ok v -> exists log, x = Ok (v, log)).
  { intros [[a b]| |] v E; cbn in E; [|discriminate E..]. exists b. by injection E as ->. }
  split; apply Haux.
  - exact (eq_trans (lyra2_with_tr_erase p _ k pwd salt t R C) (PLyra2Lemmas.lyra2_value p k pwd salt t R C Hp Ha Hacc)).
  - exact (eq_trans (lyra2_with_tr_erase p _ k pwd salt t R C) (PLyra2Lemmas.lyra2mod_value p k pwd salt t R C Hp Ha Hacc)).
Qed.
