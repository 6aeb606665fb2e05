(** * Which rows the setup and wandering schedules cover *)
From Verif Require Import Machine MachineFacts Schedule Refine2.
From Verif Require Import SpecWord SpecBlake2b SpecLyra2 SpecSchedule.

Definition submask (m x : Z) : Prop := 0 <= x /\ Z.land x m = x.

(** ** [visit] lists an orbit up to its first return to 0 *)
Lemma iter_S {A} (f : A -> A) k x : Nat.iter (S k) f x = f (Nat.iter k f x).
Proof. done. Qed.
Lemma iter_S_r {A} (f : A -> A) k x : Nat.iter k f (f x) = f (Nat.iter k f x).
Proof. induction k as [|k IH]; simpl; [done|]. by rewrite IH. Qed.
Lemma visit_orbit n f : forall x, (exists k, (k < n)%nat /\ f (Nat.iter k f x) = 0) ->
  exists K, (1 <= K <= n)%nat /\ visit n f x = (fun i => Nat.iter i f x) <$> seq 0 K /\
    Nat.iter K f x = 0 /\ forall i, (1 <= i < K)%nat -> Nat.iter i f x <> 0.
Proof.
  induction n as [|n IH]; intros x (k & Hk & Ek); [lia|]. cbn [visit].
  destruct (f x =? 0) eqn:E0.
  - exists 1%nat. apply Z.eqb_eq in E0. split; [lia|]. split; [done|]. split; [done|]. lia.
  - apply Z.eqb_neq in E0. destruct k as [|k]; [done|].
    destruct (IH (f x)) as (K & HK & Ev & E & Hne).
    { exists k. split; [lia|]. rewrite iter_S_r. exact Ek. }
    exists (S K). split; [lia|]. split.
    + rewrite Ev. cbn [seq fmap list_fmap]. f_equal. rewrite <- fmap_S_seq, <- list_fmap_compose.
      apply list_fmap_ext. intros j i _. cbn. by rewrite iter_S_r.
    + split; [by rewrite iter_S, <- iter_S_r|]. intros [|i] Hi; [lia|]. rewrite iter_S, <- iter_S_r.
      destruct i as [|i]; [done|]. apply Hne. lia.
Qed.

Section coverage.
Context (R : Z) (HR : 3 <= R).
Notation m := (R - 1).
Notation nextm := (next R).
Lemma submask_range x : submask m x -> 0 <= x < R.
Proof. intros [H0 Hx]. pose proof (land_le x m). lia. Qed.
Lemma next_submask step x : submask m (nextm step x).
Proof.
  unfold next, reduce_mask. split; [apply Z.land_nonneg; right; lia|].
  by rewrite <- Z.land_assoc, Z.land_diag.
Qed.
Lemma next_inj step x y : submask m x -> submask m y -> nextm step x = nextm step y -> x = y.
Proof.
  intros Hx Hy E. pose proof (submask_range x Hx). pose proof (submask_range y Hy).
  assert (Hl : R < 2 ^ (Z.log2 R + 1)) by (pose proof (Z.log2_spec R); rewrite Z.add_1_r; lia).
  pose proof (Z.log2_nonneg R).
  pose proof (mask_add_inj m step x y (Z.log2 R + 1) ltac:(lia) (proj2 Hx) (proj2 Hy)
    ltac:(unfold next, reduce_mask in E; by rewrite E)) as H64.
  rewrite !Z.mod_small in H64 by lia. done.
Qed.
Lemma zero_submask : submask m 0.
Proof. split; [lia|apply Z.land_0_l]. Qed.
Lemma iter_submask step k x : submask m x -> submask m (Nat.iter k (nextm step) x).
Proof. intros Hx. induction k; [done|]. apply next_submask. Qed.
Lemma orbit_back step : exists k, (k < Z.to_nat R)%nat /\ nextm step (Nat.iter k (nextm step) 0) = 0.
Proof.
  destruct (orbit_returns (submask m) (nextm step) 0 (Z.to_nat R) 0) as (k & Hk & Ek).
  - apply zero_submask.
  - intros x _. apply next_submask.
  - intros x Hx%submask_range. lia.
  - intros x y. apply next_inj.
  - exists (k - 1)%nat. split; [lia|]. change (nextm step (Nat.iter (k - 1) (nextm step) 0)) with
      (Nat.iter (S (k - 1)) (nextm step) 0). by replace (S (k - 1)) with k by lia.
Qed.
Lemma pass_orbit tau : let f := nextm (wander_step R tau) in
  exists K, (1 <= K <= Z.to_nat R)%nat /\
    pass_rows R (reduce_mask R) tau = (fun i => Nat.iter i f 0) <$> seq 0 K /\
    Nat.iter K f 0 = 0 /\ forall i, (1 <= i < K)%nat -> Nat.iter i f 0 <> 0.
Proof. cbv zeta. apply (visit_orbit (Z.to_nat R) (nextm (wander_step R tau)) 0), orbit_back. Qed.

(** Every visited row is a submask, none is visited twice in a pass. *)
Lemma pass_submask tau : Forall (submask m) (pass_rows R (reduce_mask R) tau).
Proof.
  destruct (pass_orbit tau) as (K & _ & -> & _). apply Forall_fmap, Forall_true. intros i.
  apply (iter_submask _ i 0), zero_submask.
Qed.
Lemma pass_NoDup tau : NoDup (pass_rows R (reduce_mask R) tau).
Proof.
  destruct (pass_orbit tau) as (K & _ & -> & _ & Hne). set (f := nextm _) in *.
  assert (Hcancel : forall i k, Nat.iter (i + k) f 0 = Nat.iter i f 0 -> Nat.iter k f 0 = 0).
  { induction i as [|i IH]; intros k; simpl; [done|]. intros H. apply IH.
    apply next_inj in H; [done|apply iter_submask, zero_submask..]. }
  apply NoDup_alt. intros i j x Hi Hj.
  pose proof (lookup_lt_Some _ _ _ Hi) as Li. pose proof (lookup_lt_Some _ _ _ Hj) as Lj.
  rewrite fmap_length, seq_length in Li, Lj.
  rewrite list_lookup_fmap, lookup_seq_lt in Hi, Hj by done.
  cbn [fmap option_fmap option_map] in Hi, Hj. injection Hi as Hi. injection Hj as Hj.
  destruct (Nat.lt_trichotomy i j) as [H|[H|H]]; [|done|]; exfalso.
  - apply (Hne (j - i)%nat); [lia|]. apply (Hcancel i). replace (i + (j - i))%nat with j by lia. congruence.
  - apply (Hne (i - j)%nat); [lia|]. apply (Hcancel j). replace (j + (i - j))%nat with i by lia. congruence.
Qed.
Lemma orbit_in_pass tau j : Nat.iter j (nextm (wander_step R tau)) 0 ∈ pass_rows R (reduce_mask R) tau.
Proof.
  destruct (pass_orbit tau) as (K & HK & -> & Eb & _). set (f := nextm _) in *.
  assert (Hper : forall q r, Nat.iter (q * K + r) f 0 = Nat.iter r f 0).
  { intros q r. rewrite Nat.add_comm, iter_add. f_equal.
    induction q as [|q IH]; [done|]. cbn [Nat.mul]. rewrite Nat.add_comm, iter_add, Eb. done. }
  rewrite (Nat.div_mod j K) by lia. rewrite (Nat.mul_comm K), Hper.
  apply elem_of_list_fmap. exists (j mod K)%nat. split; [done|]. apply elem_of_seq.
  pose proof (Nat.mod_upper_bound j K). lia.
Qed.
Lemma pass_first tau : exists l, pass_rows R (reduce_mask R) tau = 0 :: l.
Proof. unfold pass_rows. destruct (Z.to_nat R) eqn:E; [lia|]. cbn. by eexists. Qed.

(** Even passes visit exactly the submasks of [R - 1]. *)
Lemma reaches_zero x : submask m x -> exists k, Nat.iter k (nextm (-1)) x = 0.
Proof.
  intros Hx. assert (H0 : 0 <= x) by apply Hx. revert Hx. pattern x. apply Z_lt_induction; [|done].
  clear x H0. intros x IH Hx. destruct (Z.eq_dec x 0) as [->|Hne]; [by exists 0%nat|].
  assert (Hd : nextm (-1) x <= x - 1).
  { destruct Hx as [Hx _]. unfold next, reduce_mask. rewrite Z.land_comm.
    replace (x + -1) with (x - 1) by lia. apply land_le. lia. }
  pose proof (next_submask (-1) x) as Hs. destruct (IH (nextm (-1) x)) as [k Hk]; [|done|].
  - destruct Hs. lia.
  - exists (S k). by rewrite iter_S, <- iter_S_r.
Qed.
Lemma even_pass tau x : Z.even tau = true ->
  x ∈ pass_rows R (reduce_mask R) tau <-> submask m x.
Proof.
  intros He. split; [by apply Forall_forall, pass_submask|]. intros Hx.
  assert (Hst : wander_step R tau = -1) by (unfold wander_step; by rewrite He).
  destruct (reaches_zero x Hx) as [k Hk].
  destruct (pass_orbit tau) as (K & HK & _ & Eb & _). rewrite Hst in Eb.
  set (f := nextm (-1)) in *.
  assert (Hper : Nat.iter (k * K) f 0 = 0).
  { clear -Eb. induction k as [|k IH]; [done|]. cbn [Nat.mul]. by rewrite iter_add, IH. }
  assert (Hinj : forall k x y, submask m x -> submask m y -> Nat.iter k f x = Nat.iter k f y -> x = y).
  { clear -HR. induction k as [|k IH]; intros x y Hx Hy; [done|]. rewrite !iter_S. intros E.
    apply IH; [done|done|]. apply next_inj in E; [done|by apply iter_submask..]. }
  assert (Ex : x = Nat.iter (k * K - k) f 0).
  { apply (Hinj k); [done|apply iter_submask, zero_submask|].
    rewrite Hk, <- iter_add, <- Hper at 1. f_equal. nia. }
  rewrite Ex. unfold f. rewrite <- Hst. apply orbit_in_pass.
Qed.
End coverage.

(** Odd passes of [2^e + 1] rows visit row 0 only. *)
Lemma odd_pass_pow2_plus1 e tau : 1 <= e -> Z.even tau = false ->
  pass_rows (2 ^ e + 1) (reduce_mask (2 ^ e + 1)) tau = [0].
Proof.
  intros He Ho. assert (E2 : 2 ^ e = 2 * 2 ^ (e - 1)).
  { rewrite <- Z.pow_succ_r by lia. f_equal. lia. }
  assert (0 < 2 ^ (e - 1)) by (apply Z.pow_pos_nonneg; lia).
  unfold pass_rows. destruct (Z.to_nat (2 ^ e + 1)) as [|n] eqn:En; [lia|]. cbn [visit].
  replace (reduce_mask (2 ^ e + 1) (0 + wander_step (2 ^ e + 1) tau) =? 0) with true; [done|].
  symmetry. apply Z.eqb_eq. unfold reduce_mask, wander_step. rewrite Ho.
  replace ((2 ^ e + 1) / 2) with (2 ^ (e - 1)).
  2:{ rewrite E2. replace (2 * 2 ^ (e - 1) + 1) with (1 + 2 ^ (e - 1) * 2) by lia.
      rewrite Z.div_add by lia. done. }
  replace (2 ^ e + 1 - 1) with (2 ^ e) by lia. rewrite Z.add_0_l.
  apply Z.bits_inj'. intros i Hi. rewrite Z.land_spec, Z.bits_0.
  destruct (Z.eq_dec i e) as [->|Hne].
  - rewrite (Z.bits_above_log2 (2 ^ (e - 1) - 1)); [done|lia|].
    destruct (Z.eq_dec (2 ^ (e - 1)) 1) as [->|]; [change (Z.log2 (1 - 1)) with 0; lia|]. apply Z.log2_lt_pow2; lia.
  - rewrite Z.pow2_bits_false by done. apply andb_false_r.
Qed.

(** Power-of-two row counts: the visited rows are the multiples of the step. *)
Definition pass_step (R tau : Z) : Z := if Z.even tau then -1 else R / 2 - 1.
Lemma pow2_pass e tau : 2 <= e ->
  pass_rows (2 ^ e) (reduce_mask (2 ^ e)) tau =
  (fun i => (i * pass_step (2 ^ e) tau) mod 2 ^ e) <$> seqZ 0 (2 ^ e).
Proof.
  intros He. assert (H4 : 2 ^ 2 <= 2 ^ e) by (apply Z.pow_le_mono_r; lia). change (2 ^ 2) with 4 in H4.
  destruct (pass_orbit (2 ^ e) ltac:(lia) tau) as (K & HK & -> & Eb & Hne).
  set (s := wander_step (2 ^ e) tau) in *.
  assert (Hodd : Z.odd s = true).
  { unfold s, wander_step. destruct (Z.even tau); [done|].
    assert (E4 : 2 ^ e = 2 * (2 * 2 ^ (e - 2))).
    { rewrite <- !Z.pow_succ_r by lia. f_equal. lia. }
    rewrite E4. rewrite (Z.mul_comm 2 (2 * _)), Z.div_mul by lia.
    rewrite Z.odd_sub, Z.odd_mul. done. }
  assert (Hit : forall i, Nat.iter i (next (2 ^ e) s) 0 = (Z.of_nat i * s) mod 2 ^ e).
  { induction i as [|i IH]; [by rewrite Z.mul_0_l, Z.mod_0_l by lia|]. rewrite iter_S, IH.
    unfold next, reduce_mask. rewrite land_pow2_mask by lia. rewrite Zplus_mod_idemp_l. f_equal. lia. }
  assert (Hz : forall i, (Z.of_nat i * s) mod 2 ^ e = 0 -> (Z.of_nat i) mod 2 ^ e = 0).
  { intros i Hi. rewrite <- (Z.mod_0_l (2 ^ e)) by lia. apply (odd_mul_inj s); [lia|done|].
    rewrite Hi, Z.mul_0_l, Z.mod_0_l by lia. done. }
  assert (HKR : Z.of_nat K = 2 ^ e).
  { rewrite Hit in Eb. apply Hz in Eb. apply Z.mod_divide in Eb as [q Hq]; [|lia].
    assert (1 <= q) by nia. nia. }
  apply list_eq. intros i. destruct (decide (i < K)%nat) as [Hlt|Hge].
  - rewrite !list_lookup_fmap, lookup_seq_lt, lookup_seqZ_lt by lia. cbn [fmap option_fmap option_map].
    f_equal. rewrite Hit. done.
  - rewrite !lookup_ge_None_2; [done| |]; rewrite ?fmap_length, ?seq_length, ?seqZ_length; lia.
Qed.
Lemma pow2_pass_perm e tau : 2 <= e ->
  pass_rows (2 ^ e) (reduce_mask (2 ^ e)) tau ≡ₚ seqZ 0 (2 ^ e).
Proof.
  intros He. assert (H4 : 2 ^ 2 <= 2 ^ e) by (apply Z.pow_le_mono_r; lia). change (2 ^ 2) with 4 in H4.
  apply submseteq_Permutation_length_eq.
  - rewrite (pow2_pass e tau He), fmap_length. done.
  - apply NoDup_submseteq; [apply pass_NoDup; lia|]. intros x Hx. apply elem_of_seqZ.
    pose proof (pass_submask (2 ^ e) ltac:(lia) tau) as HF. rewrite Forall_forall in HF.
    pose proof (submask_range (2 ^ e) ltac:(lia) x (HF x Hx)). lia.
Qed.

(** ** Setup windows *)
Lemma setup_window e : 1 <= e -> setup_rowa <$> seqZ (2 ^ e) (2 ^ e) ≡ₚ seqZ 0 (2 ^ e).
Proof.
  intros He. assert (Hp : 0 < 2 ^ e) by (apply Z.pow_pos_nonneg; lia).
  assert (Hra : forall i, 0 <= i < 2 ^ e -> setup_rowa (2 ^ e + i) = (i * stride e) mod 2 ^ e).
  { intros i Hi. unfold setup_rowa. cbv zeta.
    replace (Z.log2 (2 ^ e + i)) with e.
    - f_equal. f_equal. lia.
    - symmetry. apply Z.log2_unique; [lia|]. rewrite Z.pow_succ_r by lia. lia. }
  apply submseteq_Permutation_length_eq.
  - rewrite fmap_length, !seqZ_length. done.
  - apply NoDup_submseteq.
    + apply NoDup_alt. intros i j x Hi Hj.
      pose proof (lookup_lt_Some _ _ _ Hi) as Li. pose proof (lookup_lt_Some _ _ _ Hj) as Lj.
      rewrite fmap_length, seqZ_length in Li, Lj.
      rewrite list_lookup_fmap, lookup_seqZ_lt in Hi, Hj by lia.
      cbn [fmap option_fmap option_map] in Hi, Hj. injection Hi as Hi. injection Hj as Hj.
      rewrite Hra in Hi, Hj by lia. rewrite <- Hj in Hi.
      apply odd_mul_inj in Hi; [|lia|by apply stride_odd]. rewrite !Z.mod_small in Hi by lia. lia.
    + intros x (i & -> & Hi%elem_of_seqZ)%elem_of_list_fmap. apply elem_of_seqZ.
      replace i with (2 ^ e + (i - 2 ^ e)) by lia. rewrite Hra by lia.
      pose proof (Z.mod_pos_bound ((i - 2 ^ e) * stride e) (2 ^ e)). lia.
Qed.
