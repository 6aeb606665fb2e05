(** * How many rows a wandering pass visits (lemmas for PPassLength.v) *)
From stdpp Require Import list_numbers.
From Verif Require Import Machine MachineFacts WordFacts Schedule Refine Refine2 RefineTop Coverage RowCount TraceFacts PScheduleLemmas.
From Verif Require Import SpecWord SpecLyra2 SpecCalls SpecSchedule SpecAccess SpecUnused.
From Verif Require Import MTrace MAccess AccessFacts PAccessLemmas UnusedFacts.
#[local] Open Scope Z_scope.

Lemma land_double a c : Z.land (2 * a) (2 * c) = 2 * Z.land a c /\ Z.land (2 * a + 1) (2 * c) = 2 * Z.land a c.
Proof.
  split; apply Z.bits_inj'; intros i Hi; rewrite Z.land_spec;
    (destruct (Z.eq_dec i 0) as [->|]; [rewrite ?Z.testbit_even_0; by rewrite ?andb_false_r|]);
    replace i with (Z.succ (i - 1)) by lia;
    rewrite ?Z.testbit_even_succ, ?Z.testbit_odd_succ by lia; by rewrite Z.land_spec.
Qed.
Lemma half_step_odd h : 0 <= h -> Z.land (h - 1) (2 * h) = Z.land h (2 * h).
Proof.
  intros Hh. apply (Z_lt_induction (fun h => 0 <= h -> Z.land (h - 1) (2 * h) = Z.land h (2 * h))); [|done|done].
  clear h Hh. intros h IH Hh.
  destruct (Z.eq_dec h 0) as [->|]; [by rewrite Z.land_0_r|].
  destruct (Z.Even_or_Odd h) as [[g ->]|[g ->]].
  - replace (2 * g - 1) with (2 * (g - 1) + 1) by lia.
    rewrite (proj1 (land_double g (2 * g))), (proj2 (land_double (g - 1) (2 * g))). f_equal. apply IH; lia.
  - replace (2 * g + 1 - 1) with (2 * g) by lia.
    by rewrite (proj1 (land_double _ _)), (proj2 (land_double _ _)).
Qed.
(** The first step of an odd pass. *)
Lemma half_step R : 1 <= R -> Z.land (R / 2 - 1) (R - 1) = Z.land ((R - 1) / 2) (R - 1).
Proof.
  intros HR. destruct (Z.Even_or_Odd R) as [[h ->]|[h ->]].
  - f_equal. rewrite (Z.mul_comm 2 h), Z.div_mul by lia.
    replace (h * 2 - 1) with (1 + (h - 1) * 2) by lia. rewrite Z.div_add by lia. change (1 / 2) with 0. lia.
  - replace (2 * h + 1 - 1) with (h * 2) by lia. rewrite Z.div_mul by lia.
    replace (2 * h + 1) with (1 + h * 2) by lia. rewrite Z.div_add by lia. change (1 / 2) with 0.
    rewrite Z.add_0_l, (Z.mul_comm h 2). apply half_step_odd. lia.
Qed.
Lemma no_pair m : 0 <= m -> Z.land (m / 2) m = 0 <-> forall i, 0 <= i -> ~ (Z.testbit m i = true /\ Z.testbit m (i + 1) = true).
Proof.
  intros Hm. assert (E : forall i, 0 <= i -> Z.testbit (m / 2) i = Z.testbit m (i + 1)).
  { intros i Hi. change 2 with (2 ^ 1). rewrite Z.div_pow2_bits by lia. done. }
  split.
  - intros H i Hi [H1 H2]. assert (Hb : Z.testbit (Z.land (m / 2) m) i = true) by (by rewrite Z.land_spec, E, H1, H2).
    by rewrite H, Z.bits_0 in Hb.
  - intros H. apply Z.bits_inj'. intros i Hi. rewrite Z.land_spec, E, Z.bits_0 by done.
    specialize (H i Hi). destruct (Z.testbit m i), (Z.testbit m (i + 1)); tauto || done.
Qed.
Lemma single_iff R tau : 3 <= R -> Z.even tau = false ->
  pass_rows R (reduce_mask R) tau = [0] <-> Z.land ((R - 1) / 2) (R - 1) = 0.
Proof.
  intros HR Ho. unfold pass_rows. destruct (Z.to_nat R) as [|n] eqn:En; [lia|]. cbn [visit].
  unfold reduce_mask at 1, wander_step at 1. rewrite Ho, Z.add_0_l, half_step by lia.
  destruct (Z.land ((R - 1) / 2) (R - 1) =? 0) eqn:E.
  - apply Z.eqb_eq in E. done.
  - apply Z.eqb_neq in E. split; [|done]. destruct n as [|n]; [lia|]. cbn [visit]. discriminate.
Qed.
(** ** Lengths *)
Lemma even_length R tau : 3 <= R -> Z.even tau = true ->
  Z.of_nat (length (pass_rows R (reduce_mask R) tau)) = rows_used R.
Proof.
  intros HR He. unfold rows_used. f_equal. apply Permutation_length, NoDup_Permutation.
  - by apply pass_NoDup.
  - apply NoDup_filter, NoDup_seqZ.
  - intros x. rewrite (even_pass R HR tau x He), elem_of_list_filter, elem_of_seqZ. split.
    + intros Hx. pose proof (submask_range R HR x Hx). destruct Hx. split; [done|lia].
    + intros [H1 H2]. split; [lia|done].
Qed.
Lemma pass_length R tau : 3 <= R -> 1 <= Z.of_nat (length (pass_rows R (reduce_mask R) tau)) <= rows_used R.
Proof.
  intros HR. split.
  - destruct (pass_first R HR tau) as [l ->]. cbn [length]. lia.
  - unfold rows_used. apply inj_le, submseteq_length, NoDup_submseteq; [by apply pass_NoDup|].
    intros x Hx. pose proof (pass_submask R HR tau) as HF. rewrite Forall_forall in HF. specialize (HF x Hx).
    pose proof (submask_range R HR x HF). rewrite elem_of_list_filter, elem_of_seqZ. destruct HF. split; [done|lia].
Qed.
Definition odd_length (R : Z) : Z := Z.of_nat (length (pass_rows R (reduce_mask R) 1)).
Lemma odd_length_eq R tau : Z.even tau = false -> Z.of_nat (length (pass_rows R (reduce_mask R) tau)) = odd_length R.
Proof. intros Ho. unfold odd_length, pass_rows, wander_step. by rewrite Ho. Qed.
Lemma odd_length_1 R : 3 <= R -> odd_length R = 1 <-> Z.land ((R - 1) / 2) (R - 1) = 0.
Proof.
  intros HR. rewrite <- (single_iff R 1 HR eq_refl). unfold odd_length.
  destruct (pass_first R HR 1) as [l ->]. cbn [length]. split.
  - intros H. assert (length l = 0)%nat by lia. by destruct l.
  - intros [= ->]. done.
Qed.
Lemma schedule_length R t : 3 <= R -> 0 <= t ->
  Z.of_nat (length (wander_schedule R t)) = t / 2 * rows_used R + (t - t / 2) * odd_length R.
Proof.
  intros HR Ht. unfold wander_schedule, wander_rows. rewrite with_prev_length. revert t Ht. apply natlike_ind.
  - reflexivity.
  - intros t Ht IH. replace (Z.succ t) with (t + 1) by lia.
    rewrite seqZ_app by lia. rewrite bind_app, app_length, Nat2Z.inj_add, IH.
    rewrite (seqZ_cons (1 + t)), seqZ_nil by lia. cbn [mbind list_bind]. rewrite app_nil_r, fmap_length.
    assert (E1 : forall h, 2 * h / 2 = h) by (intros h; rewrite Z.mul_comm; apply Z.div_mul; lia).
    assert (E2 : forall h, (2 * h + 1) / 2 = h).
    { intros h. replace (2 * h + 1) with (1 + h * 2) by lia. rewrite Z.div_add by lia. done. }
    destruct (Z.Even_or_Odd t) as [[h ->]|[h ->]].
    + rewrite odd_length_eq by (rewrite Z.even_add, Z.even_mul; done). rewrite E1, E2. lia.
    + rewrite even_length by (done || (rewrite !Z.even_add, Z.even_mul; done)).
      rewrite E2. replace (2 * h + 1 + 1) with (2 * (h + 1)) by lia. rewrite E1. lia.
Qed.

Section passes.
Context (p : platform) (Hp : known_platform p) (sel : MLyra2.selector).
Context (k : Z) (pwd salt : list Z) (t R C : Z) (out : list Z).
Context (Ha : rust_args (isize_max p) k pwd salt t R C) (HR : R < 2 ^ 63).

Lemma visited_lengths log : lyra2_with_tr p sel k pwd salt t R C = Ok (out, log) ->
  (forall tau, 1 <= tau <= t -> Z.even tau = true -> Z.of_nat (length (visited log tau)) = rows_used R) /\
  (forall tau, 1 <= tau <= t -> Z.even tau = false ->
     1 <= Z.of_nat (length (visited log tau)) <= rows_used R /\
     visited log tau = visited log 1 /\
     (visited log tau = [0] <->
      forall i, 0 <= i -> ~ (Z.testbit (R - 1) i = true /\ Z.testbit (R - 1) (i + 1) = true))).
Proof.
  intros E. pose proof (log_R p Hp _ _ _ _ _ _ _ _ _ Ha HR E) as HR3.
  pose proof (log_visited p Hp _ _ _ _ _ _ _ _ _ Ha HR E) as Hv. split.
  - intros tau Ht He. rewrite Hv by done. by apply even_length.
  - intros tau Ht Ho. rewrite !Hv by lia. split; [by apply pass_length|]. split.
    + unfold pass_rows, wander_step. by rewrite Ho.
    + rewrite single_iff by done. apply no_pair. lia.
Qed.
Lemma work_any log : usize_bits p = 64 \/ k < 2 ^ 63 -> lyra2_with_acc p sel k pwd salt t R C = Ok (out, log) ->
  work log = R * C + (t / 2 * rows_used R + (t - t / 2) * odd_length R) * C +
             12 * ((vlen salt + vlen pwd + 48) / 64 + 1) + 12 + 12 * (k / 96 + 1).
Proof.
  intros Hk E. pose proof (acc_sizes p Hp sel k pwd salt t _ C out log Ha HR Hk E) as (HR3 & HC & Ht & _).
  destruct (acc_counts p Hp sel k pwd salt t _ C out log Ha HR Hk E) as (H1 & _ & _).
  rewrite schedule_length in H1 by lia. rewrite H1. lia.
Qed.
End passes.
Lemma odd_length_facts R : 3 <= R -> 1 <= odd_length R <= rows_used R /\
  (odd_length R = 1 <-> forall i, 0 <= i -> ~ (Z.testbit (R - 1) i = true /\ Z.testbit (R - 1) (i + 1) = true)).
Proof.
  intros HR. split; [by apply pass_length|]. rewrite odd_length_1 by done. apply no_pair. lia.
Qed.
Lemma visited_lengths_2 p k pwd salt t R C out log :
  known_platform p -> rust_args (isize_max p) k pwd salt t R C -> R < 2 ^ 63 ->
  lyra2_tr p k pwd salt t R C = Ok (out, log) \/ lyra2mod_tr p k pwd salt t R C = Ok (out, log) ->
  (forall tau, 1 <= tau <= t -> Z.even tau = true -> Z.of_nat (length (visited log tau)) = rows_used R) /\
  (forall tau, 1 <= tau <= t -> Z.even tau = false ->
     1 <= Z.of_nat (length (visited log tau)) <= rows_used R /\
     visited log tau = visited log 1 /\
     (visited log tau = [0] <->
      forall i, 0 <= i -> ~ (Z.testbit (R - 1) i = true /\ Z.testbit (R - 1) (i + 1) = true))).
Proof.
  intros Hp Ha HR [E|E].
  - exact (visited_lengths p Hp _ k pwd salt t R C out Ha HR log E).
  - exact (visited_lengths p Hp _ k pwd salt t R C out Ha HR log E).
Qed.
Lemma work_exact : exists odd_rows : Z -> Z,
  (forall R, 3 <= R -> 1 <= odd_rows R <= rows_used R /\
     (odd_rows R = 1 <-> forall i, 0 <= i -> ~ (Z.testbit (R - 1) i = true /\ Z.testbit (R - 1) (i + 1) = true))) /\
  forall p k pwd salt t R C out log,
    known_platform p -> rust_args (isize_max p) k pwd salt t R C -> R < 2 ^ 63 ->
    usize_bits p = 64 \/ k < 2 ^ 63 ->
    lyra2_acc p k pwd salt t R C = Ok (out, log) \/ lyra2mod_acc p k pwd salt t R C = Ok (out, log) ->
    let nb := (Z.of_nat (length salt) + Z.of_nat (length pwd) + 48) / 64 + 1 in
    work log = R * C + (t / 2 * rows_used R + (t - t / 2) * odd_rows R) * C + 12 * nb + 12 + 12 * (k / 96 + 1).
Proof.
  exists odd_length. split; [exact odd_length_facts|].
  intros p k pwd salt t R C out log Hp Ha HR Hk [E|E].
  - exact (work_any p Hp _ k pwd salt t R C out Ha HR log Hk E).
  - exact (work_any p Hp _ k pwd salt t R C out Ha HR log Hk E).
Qed.
