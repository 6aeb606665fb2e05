(** * Row schedules: setup recurrence and wandering orbits *)
From Verif Require Import Machine MachineFacts WordFacts.
From Verif Require Import SpecWord SpecBlake2b SpecLyra2.
From Coq Require Import Znumtheory Zpow_facts.

(** ** Setup: the recurrence of the code computes [setup_rowa]. *)
Lemma stride_pos e : 1 <= e -> 1 <= stride e <= 2 ^ e + 1.
Proof.
  intros He. unfold stride. destruct (e =? 1) eqn:E1; [apply Z.eqb_eq in E1; subst; cbn; lia|].
  apply Z.eqb_neq in E1. assert (2 ^ e = 2 * 2 ^ (e - 1)) as Ee.
  { rewrite <- Z.pow_succ_r by lia. f_equal. lia. }
  assert (2 ^ 1 <= 2 ^ (e - 1)) by (apply Z.pow_le_mono_r; lia). change (2 ^ 1) with 2 in *.
  destruct (Z.even e); lia.
Qed.
Lemma stride_odd e : 1 <= e -> Z.odd (stride e) = true.
Proof.
  intros He. unfold stride. destruct (e =? 1) eqn:E1; [done|].
  apply Z.eqb_neq in E1.
  assert (2 ^ (e - 1) = 2 * 2 ^ (e - 2)) as ->.
  { rewrite <- Z.pow_succ_r by lia. f_equal. lia. }
  destruct (Z.even e).
  - by rewrite Z.odd_add_mul_2 || rewrite Z.add_comm, Z.odd_add_mul_2.
  - replace (2 * 2 ^ (e - 2) - 1) with (-1 + 2 * 2 ^ (e - 2)) by lia. by rewrite Z.odd_add_mul_2.
Qed.
Lemma odd_coprime_pow2 s e : 0 <= e -> Z.odd s = true -> rel_prime (2 ^ e) s.
Proof.
  intros He Hs. apply rel_prime_sym. apply rel_prime_Zpower_r; [done|].
  apply rel_prime_sym, prime_rel_prime; [apply prime_2|].
  intros [q Hq]. subst s. rewrite Z.odd_mul in Hs. by rewrite andb_false_r in Hs.
Qed.
(** Multiplication by an odd number permutes the residues modulo 2^e. *)
Lemma odd_mul_inj s e x y : 0 <= e -> Z.odd s = true ->
  (x * s) mod 2 ^ e = (y * s) mod 2 ^ e -> x mod 2 ^ e = y mod 2 ^ e.
Proof.
  intros He Hs H. assert (Hp : 0 < 2 ^ e) by (apply Z.pow_pos_nonneg; lia).
  assert (Hd : (2 ^ e | (x - y) * s)).
  { apply Z.mod_divide; [lia|]. rewrite Z.mul_sub_distr_r, Zminus_mod, H, Z.sub_diag. apply Z.mod_0_l. lia. }
  rewrite Z.mul_comm in Hd. apply Gauss in Hd; [|by apply odd_coprime_pow2].
  destruct Hd as [q Hq]. replace x with (y + q * 2 ^ e) by lia. apply Z.mod_add. lia.
Qed.

Lemma land_pow2_mask x e : 0 <= e -> Z.land x (2 ^ e - 1) = x mod 2 ^ e.
Proof. intros He. rewrite <- Z.land_ones by done. by rewrite Z.ones_equiv. Qed.

Section setup_step.
  Context (row : Z) (Hrow : 2 <= row).
  Let e := Z.log2 row.
  Lemma setup_e : 1 <= e /\ 2 ^ e <= row < 2 * 2 ^ e /\ 2 <= 2 ^ e.
  Proof.
    assert (1 <= e). { unfold e. change 1 with (Z.log2 2). by apply Z.log2_le_mono. }
    pose proof (Z.log2_spec row ltac:(lia)) as Hs. fold e in Hs.
    rewrite Z.pow_succ_r in Hs by lia. split; [done|]. split; [lia|].
    change 2 with (2 ^ 1) at 1. apply Z.pow_le_mono_r; lia.
  Qed.
  Lemma setup_rowa_range : 0 <= setup_rowa row < 2 ^ e.
  Proof. pose proof setup_e. unfold setup_rowa. cbv zeta. apply Z.mod_pos_bound. fold e. lia. Qed.
  (** The row revisited is neither the row being built nor the previous one. *)
  Lemma setup_rowa_lt : 0 <= setup_rowa row < row - 1.
  Proof.
    pose proof setup_e as (He & Hr & Hw). pose proof setup_rowa_range as Hra.
    destruct (Z.eq_dec row (2 ^ e)) as [Ee|]; [|lia].
    assert (setup_rowa row = 0); [|lia].
    unfold setup_rowa. cbv zeta. fold e. rewrite <- Ee, Z.sub_diag, Z.mul_0_l. apply Z.mod_0_l. lia.
  Qed.
  Lemma setup_next_same : row + 1 < 2 * 2 ^ e ->
    Z.log2 (row + 1) = e /\
    Z.land (setup_rowa row + stride e) (2 ^ e - 1) = setup_rowa (row + 1) /\
    setup_rowa (row + 1) <> 0.
  Proof.
    pose proof setup_e as (He & Hr & Hw). intros Hlt.
    assert (El : Z.log2 (row + 1) = e).
    { apply Z.log2_unique; [lia|]. rewrite Z.pow_succ_r by lia. lia. }
    split; [done|]. split.
    - rewrite land_pow2_mask by lia. unfold setup_rowa. rewrite El. cbv zeta. fold e.
      rewrite Zplus_mod_idemp_l. f_equal. lia.
    - unfold setup_rowa. rewrite El. cbv zeta. intros H0.
      assert ((row + 1 - 2 ^ e) mod 2 ^ e = 0 mod 2 ^ e) as H1.
      { apply (odd_mul_inj (stride e) e); [lia|by apply stride_odd|]. rewrite H0, Z.mul_0_l, Z.mod_0_l; lia. }
      rewrite Z.mod_0_l, Z.mod_small in H1; lia.
  Qed.
  Lemma setup_next_double : row + 1 = 2 * 2 ^ e ->
    Z.log2 (row + 1) = e + 1 /\
    Z.land (setup_rowa row + stride e) (2 ^ e - 1) = 0 /\ setup_rowa (row + 1) = 0 /\
    stride (e + 1) = 2 ^ e + (if Z.even e then -1 else 1).
  Proof.
    pose proof setup_e as (He & Hr & Hw). intros Heq.
    assert (E2 : row + 1 = 2 ^ (e + 1)) by (rewrite Z.pow_add_r by lia; lia).
    assert (El : Z.log2 (row + 1) = e + 1). { rewrite E2. apply Z.log2_pow2. lia. }
    split; [done|]. split; [|split].
    - rewrite land_pow2_mask by lia. unfold setup_rowa. cbv zeta. fold e.
      rewrite Zplus_mod_idemp_l.
      replace ((row - 2 ^ e) * stride e + stride e) with (stride e * 2 ^ e) by nia.
      apply Z.mod_mul. lia.
    - unfold setup_rowa. rewrite El, E2, Z.sub_diag. cbv zeta. apply Z.mod_0_l. lia.
    - unfold stride. replace (e + 1 =? 1) with false by lia.
      replace (e + 1 - 1) with e by lia.
      rewrite Z.add_1_r, Z.even_succ, <- Z.negb_even. destruct (Z.even e); cbn; lia.
  Qed.
End setup_step.

(** ** Wandering: adding a constant and masking is injective on the masked values. *)
Lemma mod_pow2_step a b n : 0 <= n ->
  a mod 2 ^ n = b mod 2 ^ n -> Z.testbit a n = Z.testbit b n ->
  a mod 2 ^ (n + 1) = b mod 2 ^ (n + 1).
Proof.
  intros Hn H1 H2. apply Z.bits_inj'. intros i Hi.
  destruct (Z.lt_trichotomy i n) as [Hlt|[->|Hgt]].
  - rewrite !Z.mod_pow2_bits_low by lia.
    apply (f_equal (fun x => Z.testbit x i)) in H1. by rewrite !Z.mod_pow2_bits_low in H1 by lia.
  - by rewrite !Z.mod_pow2_bits_low by lia.
  - by rewrite !Z.mod_pow2_bits_high by lia.
Qed.
Lemma mod_pow2_testbit a b n i : 0 <= i < n ->
  a mod 2 ^ n = b mod 2 ^ n -> Z.testbit a i = Z.testbit b i.
Proof.
  intros Hi H. apply (f_equal (fun x => Z.testbit x i)) in H.
  by rewrite !Z.mod_pow2_bits_low in H by lia.
Qed.
Lemma mod_pow2_le a b n k : 0 <= k <= n ->
  a mod 2 ^ n = b mod 2 ^ n -> a mod 2 ^ k = b mod 2 ^ k.
Proof.
  intros Hk H. apply Z.bits_inj'. intros i Hi. destruct (Z.lt_ge_cases i k).
  - rewrite !Z.mod_pow2_bits_low by lia. by apply (mod_pow2_testbit a b n); [lia|].
  - by rewrite !Z.mod_pow2_bits_high by lia.
Qed.
(** [x] and [y] have no bits outside [m]; equality modulo 2^w. *)
Lemma mask_add_inj m s x y w : 0 <= w ->
  Z.land x m = x -> Z.land y m = y ->
  Z.land (x + s) m mod 2 ^ w = Z.land (y + s) m mod 2 ^ w ->
  x mod 2 ^ w = y mod 2 ^ w.
Proof.
  intros Hw Hx Hy H.
  assert (Hn : forall n, 0 <= n -> n <= w -> x mod 2 ^ n = y mod 2 ^ n).
  { intros n Hn. pattern n. apply natlike_ind; [by rewrite !Z.mod_1_r| |done].
    clear n Hn. intros n Hn IH Hnw. rewrite <- Z.add_1_r.
    specialize (IH ltac:(lia)). apply mod_pow2_step; [done|done|].
    destruct (Z.testbit m n) eqn:Em.
    - assert (Hb : Z.testbit (x + s) n = Z.testbit (y + s) n).
      { apply (f_equal (fun z => Z.testbit z n)) in H.
        rewrite !Z.mod_pow2_bits_low, !Z.land_spec, Em, !andb_true_r in H by lia. done. }
      assert (Hs : (x + s) mod 2 ^ (n + 1) = (y + s) mod 2 ^ (n + 1)).
      { apply mod_pow2_step; [done| |done]. rewrite <- (Zplus_mod_idemp_l x), IH. apply Zplus_mod_idemp_l. }
      apply (mod_pow2_testbit _ _ (n + 1)); [lia|].
      replace x with (x + s - s) by lia. replace y with (y + s - s) by lia.
      rewrite <- (Zminus_mod_idemp_l (x + s)), Hs. apply Zminus_mod_idemp_l.
    - rewrite <- Hx, <- Hy, !Z.land_spec, Em. by rewrite !andb_false_r. }
  apply Hn; lia.
Qed.

(** ** Orbits *)
Lemma iter_add {A} (f : A -> A) a b x : Nat.iter (a + b) f x = Nat.iter a f (Nat.iter b f x).
Proof. induction a as [|a IH]; simpl; [done|]. by rewrite IH. Qed.
Lemma NoDup_or_repeat (l : list Z) :
  NoDup l \/ exists i j x, (i < j)%nat /\ l !! i = Some x /\ l !! j = Some x.
Proof.
  induction l as [|a l [IH|(i & j & x & Hij & Hi & Hj)]].
  - left. constructor.
  - destruct (decide (a ∈ l)) as [Ha|Ha].
    + right. apply elem_of_list_lookup in Ha as [j Hj]. exists 0%nat, (S j), a. repeat split; [lia|done].
    + left. by constructor.
  - right. exists (S i), (S j), x. repeat split; [lia|done|done].
Qed.
(** An injective map of a set with at most [n] elements returns to the start
    within [n] steps. *)
Lemma orbit_returns (D : Z -> Prop) (f : Z -> Z) lo (n : nat) x0 :
  D x0 -> (forall x, D x -> D (f x)) ->
  (forall x, D x -> lo <= x < lo + Z.of_nat n) ->
  (forall x y, D x -> D y -> f x = f y -> x = y) ->
  exists k, (1 <= k <= n)%nat /\ Nat.iter k f x0 = x0.
Proof.
  intros H0 Hf Hb Hinj.
  assert (HD : forall k, D (Nat.iter k f x0)). { induction k; simpl; auto. }
  assert (Hcancel : forall i k, Nat.iter (i + k) f x0 = Nat.iter i f x0 -> Nat.iter k f x0 = x0).
  { induction i as [|i IH]; intros k; simpl; [done|]. intros H. apply IH. apply Hinj in H; auto. }
  destruct (NoDup_or_repeat ((fun k => Nat.iter k f x0) <$> seq 0 (S n)))
    as [Hnd|(i & j & x & Hij & Hi & Hj)].
  - exfalso.
    assert (Hsub : ((fun k => Nat.iter k f x0) <$> seq 0 (S n)) ⊆+ seqZ lo (Z.of_nat n)).
    { apply NoDup_submseteq; [done|]. intros x (k & -> & _)%elem_of_list_fmap.
      apply elem_of_seqZ. by apply Hb. }
    apply submseteq_length in Hsub. rewrite fmap_length, seq_length, seqZ_length in Hsub. lia.
  - assert (Hjn : (j < S n)%nat).
    { apply lookup_lt_Some in Hj. by rewrite fmap_length, seq_length in Hj. }
    rewrite list_lookup_fmap, lookup_seq_lt in Hi, Hj by lia.
    cbn [fmap option_fmap option_map] in Hi, Hj. injection Hi as <-. injection Hj as Hj.
    exists (j - i)%nat. split; [lia|]. apply (Hcancel i).
    replace (i + (j - i))%nat with j by lia. done.
Qed.
