(** * Facts about the rows that are not used after the setup phase *)
From stdpp Require Import list_numbers.
From Verif Require Import Machine MachineFacts MUtils WordFacts Schedule Refine Refine2 RefineInput RefineTop Domain TraceFacts InjFacts PhaseFacts Coverage RowCount PermFacts.
From Verif Require Import SpecWord SpecBlake2b SpecLyra2 SpecCalls SpecPhases SpecUnused.
From Verif Require MLyra2.
From Verif Require Import MTrace MPhases MRest.
Import MLyra2 (rows_init, rows_next, r_row, r_prev, r_rowa).
#[local] Open Scope Z_scope.
#[local] Opaque blake2b_round round1.

Lemma setup_then_rest p sel k pwd salt t R C :
  MLyra2.lyra2_with p sel k pwd salt t R C =
  ('(row_len, m, state, v) <-- until_setup p k pwd salt t R C ;;
   from_setup p sel k row_len t R C m state v).
Proof.
  rewrite phases. unfold until_wandering. rewrite !obind_assoc. apply obind_ext.
  intros [[[rl m] st] v] _. unfold from_setup.
  rewrite <- (wander_erase p sel rl t R C m st (r_prev v) (r_rowa v) []). unfold omapo.
  rewrite !obind_assoc. apply obind_ext. intros [[[[[[m3 st3] i3] row3] prev3] rowa3] log3] _. reflexivity.
Qed.

(** ** The description *)
Section rows.
Context (C : Z) (S : Z -> Prop).
Definition agr (M M' : matrix) : Prop := forall r c, S r -> 0 <= c < C -> M r c = M' r c.
Lemma agr_set M M' r c b : agr M M' -> agr (set M r c b) (set M' r c b).
Proof. intros H r' c' Hr Hc. unfold set. destruct (_ && _); [done|by apply H]. Qed.
Lemma wander_row_agr row prev rowa M M' st : S row -> S prev -> S rowa -> agr M M' ->
  agr (wander_row C row prev rowa (M, st)).1 (wander_row C row prev rowa (M', st)).1 /\
  (wander_row C row prev rowa (M, st)).2 = (wander_row C row prev rowa (M', st)).2.
Proof.
  intros H1 H2 H3. unfold wander_row, cols.
  assert (Hc : Forall (fun c => 0 <= c < C) (seqZ 0 C)) by (apply Forall_forall; intros c Hc%elem_of_seqZ; lia).
  revert Hc M M' st. induction (seqZ 0 C) as [|c l IH]; intros Hl M M' st HM; [done|].
  apply Forall_cons in Hl as [Hc Hl]. cbn [foldl].
  rewrite <- (HM prev c H2 Hc), <- (HM rowa c H3 Hc), <- (HM row c H1 Hc).
  set (st1 := round1 _).
  assert (HM1 : agr (set M row c (bxor (M row c) (rate st1))) (set M' row c (bxor (M row c) (rate st1)))) by by apply agr_set.
  rewrite <- (HM1 rowa c H3 Hc). apply IH; [done|]. by apply agr_set.
Qed.
Context (reduce : Z -> Z) (choose : chooser) (HS : forall x, S (reduce x)).
Definition wagr (s s' : wstate) : Prop :=
  let '(M, st, i, prev, rowa) := s in let '(M', st', i', prev', rowa') := s' in
  agr M M' /\ st = st' /\ i = i' /\ prev = prev' /\ rowa = rowa' /\ S prev.
Lemma visit_agr s s' row : S row -> wagr s s' ->
  wagr (wander_visit C reduce choose s row) (wander_visit C reduce choose s' row) /\
  S (let '(_, _, _, _, rowa) := wander_visit C reduce choose s row in rowa).
Proof.
  intros Hrow. destruct s as [[[[M st] i] prev] rowa], s' as [[[[M' st'] i'] prev'] rowa'].
  intros (HM & <- & <- & <- & <- & Hp). unfold wander_visit. destruct (choose st i) as [w i1].
  destruct (wander_row_agr row prev (reduce w) M M' st Hrow Hp (HS w) HM) as [H1 H2].
  destruct (wander_row C row prev (reduce w) (M, st)) as [M1 st1], (wander_row C row prev (reduce w) (M', st)) as [M1' st1'].
  cbn [fst snd] in *. split; [repeat split; done|]. apply HS.
Qed.
Lemma visits_agr l : Forall S l -> forall s s', wagr s s' ->
  wagr (foldl (wander_visit C reduce choose) s l) (foldl (wander_visit C reduce choose) s' l) /\
  (l <> [] -> S (let '(_, _, _, _, rowa) := foldl (wander_visit C reduce choose) s l in rowa)).
Proof.
  induction l as [|row l IH]; intros Hl s s' Hs; [done|]. apply Forall_cons in Hl as [Hr Hl]. cbn [foldl].
  destruct (visit_agr s s' row Hr Hs) as [H1 H2]. destruct (IH Hl _ _ H1) as [H3 H4]. split; [done|].
  intros _. destruct l; [done|]. by apply H4.
Qed.
End rows.

Lemma land_self R : Z.land (R - 1) (R - 1) = R - 1.
Proof. apply Z.land_diag. Qed.
Lemma wander_agr R C choose t M M' st : 3 <= R -> 1 <= t ->
  agr C (submask (R - 1)) M M' ->
  wagr C (submask (R - 1)) (wander R C (reduce_mask R) choose t (M, st)) (wander R C (reduce_mask R) choose t (M', st)) /\
  submask (R - 1) (let '(_, _, _, _, rowa) := wander R C (reduce_mask R) choose t (M, st) in rowa).
Proof.
  intros HR Ht HM. unfold wander.
  assert (HS : forall x, submask (R - 1) (reduce_mask R x)).
  { intros x. unfold reduce_mask, submask. split; [apply Z.land_nonneg; lia|]. by rewrite <- Z.land_assoc, Z.land_diag. }
  assert (HF : Forall (submask (R - 1)) (seqZ 1 t ≫= pass_rows R (reduce_mask R))).
  { apply Forall_forall. intros x (tau & Hx & _)%elem_of_list_bind.
    pose proof (pass_submask R HR tau) as H. rewrite Forall_forall in H. by apply H. }
  assert (Hne : seqZ 1 t ≫= pass_rows R (reduce_mask R) <> []).
  { rewrite (seqZ_cons 1) by lia. cbn [mbind list_bind]. unfold pass_rows.
    destruct (Z.to_nat R) as [|n] eqn:E; [lia|]. cbn [visit app]. discriminate. }
  destruct (visits_agr C (submask (R - 1)) (reduce_mask R) choose HS _ HF (M, st, 0, R - 1, setup_rowa R) (M', st, 0, R - 1, setup_rowa R)) as [H1 H2].
  - split; [done|]. repeat split; [lia|apply land_self].
  - split; [exact H1|by apply H2].
Qed.

(** ** The code *)
Section code.
Context (p : platform) (Hp : known_platform p) (R C : Z) (HR : 3 <= R) (HC : 1 <= C)
  (Hmax : 96 * R * C <= isize_max p).
Lemma wrap_up_row k m m' st rowa : contents R C (m, st) -> contents R C (m', st) -> 0 <= rowa < R ->
  take 12 (drop (Z.to_nat (12 * C * rowa)) m) = take 12 (drop (Z.to_nat (12 * C * rowa)) m') ->
  wrap_up p k (12 * C) m st rowa = wrap_up p k (12 * C) m' st rowa.
Proof.
  intros (Hm & HFm & Hst & HFst) (Hm' & HFm' & _) Hr E. cbn [fst snd] in *.
  pose proof (isize_usize p Hp) as Hi.
  assert (Hrl : 0 <= rowa * (12 * C)) by nia. assert (Hru : rowa * (12 * C) + 12 <= 12 * R * C) by nia.
  assert (Hs : state16 st) by done.
  unfold wrap_up, imul. rewrite chk_i64_Ok by lia. cbn [obind].
  unfold as_usize. rewrite Z.mod_small by lia. rewrite !split_right_Ok by (unfold vlen; lia). cbn [obind].
  replace (12 * C * rowa) with (rowa * (12 * C)) in E by lia.
  destruct (absorb_block_Ok st (drop (Z.to_nat (rowa * (12 * C))) m) Hs) as [-> _];
    [rewrite drop_length; lia|by apply Forall_take, Forall_drop|].
  destruct (absorb_block_Ok st (drop (Z.to_nat (rowa * (12 * C))) m') Hs) as [-> _];
    [rewrite drop_length; lia|by apply Forall_take, Forall_drop|].
  by rewrite E.
Qed.
Lemma same_agr m m' M M' : flat R C m M -> flat R C m' M' -> same_used_rows R C m m' ->
  agr C (submask (R - 1)) M M'.
Proof.
  intros [_ H] [_ H'] Hs r c Hr Hc. pose proof (submask_range R HR r Hr) as Hrr. destruct Hr as [_ Hr].
  destruct (H r c Hrr Hc) as [[Hl _] HJ], (H' r c Hrr Hc) as [[Hl' _] HJ'].
  apply list_eq. intros j. destruct (decide (j < 12)%nat) as [Hj|Hj].
  - specialize (HJ (Z.of_nat j) ltac:(lia)). specialize (HJ' (Z.of_nat j) ltac:(lia)).
    rewrite !Nat2Z.id in *. rewrite <- HJ, <- HJ'. unfold idx.
    specialize (Hs r (12 * c + Z.of_nat j) Hrr Hr ltac:(lia)).
    replace (12 * C * r + (12 * c + Z.of_nat j)) with ((r * C + c) * 12 + Z.of_nat j) in Hs by lia.
    match goal with |- m !! Z.to_nat ?a = _ => replace a with ((r * C + c) * 12 + Z.of_nat j) by lia end. exact Hs.
  - rewrite !lookup_ge_None_2 by lia. done.
Qed.
Lemma agr_block m m' M M' rowa : flat R C m M -> flat R C m' M' -> agr C (submask (R - 1)) M M' ->
  submask (R - 1) rowa ->
  take 12 (drop (Z.to_nat (12 * C * rowa)) m) = take 12 (drop (Z.to_nat (12 * C * rowa)) m').
Proof.
  intros [_ H] [_ H'] HM Hr. pose proof (submask_range R HR rowa Hr) as Hrr.
  destruct (H rowa 0 Hrr ltac:(lia)) as [_ HJ], (H' rowa 0 Hrr ltac:(lia)) as [_ HJ'].
  apply list_eq. intros j. destruct (decide (j < 12)%nat) as [Hj|Hj]; [|by rewrite !lookup_take_ge by lia].
  rewrite !lookup_take by lia. rewrite !lookup_drop.
  specialize (HJ (Z.of_nat j) ltac:(lia)). specialize (HJ' (Z.of_nat j) ltac:(lia)). rewrite (HM rowa 0 Hr ltac:(lia)) in HJ.
  unfold idx in *. replace (Z.to_nat (12 * C * rowa) + j)%nat with (Z.to_nat (12 * C * rowa + Z.of_nat j)) by lia.
  rewrite <- HJ' in HJ. 
  match type of HJ with m !! Z.to_nat ?a = _ => replace a with (12 * C * rowa + Z.of_nat j) in HJ by lia end. exact HJ.
Qed.
Lemma rest_same sel choose k t m m' st : sel_ok sel choose -> 1 <= t < 2 ^ 64 ->
  contents R C (m, st) -> contents R C (m', st) -> same_used_rows R C m m' ->
  from_setup p sel k (12 * C) t R C m st (rows_at R) = from_setup p sel k (12 * C) t R C m' st (rows_at R).
Proof.
  intros Hsel Ht Hc Hc' Hs. unfold from_setup.
  change (r_prev (rows_at R)) with (R - 1). change (r_rowa (rows_at R)) with (setup_rowa R).
  pose proof Hc as Hg. pose proof Hc' as Hg'.
  apply (contents_good p R C HR HC Hmax) in Hg as [M HM], Hg' as [M' HM']. cbn [snd] in HM, HM'.
  destruct (wander_Ok p Hp R C HR HC Hmax sel choose Hsel t (m, st) (M, st) Ht HM) as (r & E & HW).
  destruct (wander_Ok p Hp R C HR HC Hmax sel choose Hsel t (m', st) (M', st) Ht HM') as (r' & E' & HW').
  cbn [fst snd] in E, E'. rewrite E, E'. cbn [obind].
  destruct (wander_agr R C choose t M M' st HR ltac:(lia)) as [HA HB].
  { by apply (same_agr m m'); [apply HM|apply HM'|]. }
  destruct r as [[[[[m1 st1] i1] row1] prev1] rowa1], r' as [[[[[m2 st2] i2] row2] prev2] rowa2].
  destruct (wander R C (reduce_mask R) choose t (M, st)) as [[[[M1 s1] j1] q1] a1].
  destruct (wander R C (reduce_mask R) choose t (M', st)) as [[[[M2 s2] j2] q2] a2].
  destruct HW as (HR1 & -> & -> & -> & -> & _ & _ & Ha1), HW' as (HR2 & -> & -> & -> & -> & _ & _ & Ha2).
  destruct HA as (HMM & <- & <- & <- & <- & _).
  pose proof HR1 as (HF1 & Hs1 & _). pose proof HR2 as (HF2 & Hs2 & _). cbn [fst snd] in *. subst st1 st2.
  apply wrap_up_row; [apply (contents_good p R C HR HC Hmax); by eapply Rel_good..|done|].
  by apply (agr_block m1 m2 M1 M2).
Qed.
End code.
Lemma unused p k pwd salt t R C rl m st v m' : known_platform p ->
  rust_args (isize_max p) k pwd salt t R C -> accepted (isize_max p) 0 pwd salt t R C ->
  until_setup p k pwd salt t R C = Ok (rl, m, st, v) ->
  Z.of_nat (length m') = 12 * R * C -> Forall (word 64) m' -> same_used_rows R C m m' ->
  from_setup p MLyra2.sel_lyra2 k rl t R C m' st v = MLyra2.lyra2 p k pwd salt t R C /\
  from_setup p (MLyra2.sel_lyra2mod p) k rl t R C m' st v = MLyra2.lyra2mod p k pwd salt t R C.
Proof.
  intros Hp Ha Hacc E Hl Hw Hs. pose proof Hacc as (Ht & HR & _ & HC0 & Hsz & Hmax).
  pose proof (n_blocks_bounds pwd salt) as Hb. pose proof (vlen_nonneg pwd). pose proof (vlen_nonneg salt).
  assert (HC : 1 <= C) by (destruct (Z.eq_dec C 0) as [->|]; lia).
  destruct Ha as (Hk & Ht' & _ & _ & [Hbp _] & [Hbs _]).
  destruct (until_setup_Ok p k pwd salt t R C Hp Hbp Hbs Ht' Hk Hacc) as (m0 & st0 & M0 & _ & E0 & HRel).
  pose proof E as E1. rewrite E0 in E1. injection E1 as <- -> -> <-.
  assert (Hc : contents R C (m, st)) by (apply (contents_good p R C HR HC Hmax); by eapply Rel_good).
  assert (Hc' : contents R C (m', st)) by (split; [exact Hl|split; [exact Hw|apply Hc]]).
  unfold MLyra2.lyra2, MLyra2.lyra2mod. rewrite !setup_then_rest, E0. cbn [obind]. unfold word in Ht'.
  split; symmetry; [apply (rest_same p Hp R C HR HC Hmax _ choose_first); [apply sel_lyra2_ok|lia|done..]
    |apply (rest_same p Hp R C HR HC Hmax _ choose_rev3); [by apply sel_lyra2mod_ok|lia|done..]].
Qed.

(** ** How many rows are used *)
Definition subs (m n : Z) : Z := Z.of_nat (length (filter (fun w => Z.land w m = w) (seqZ 0 n))).
Lemma subs_add m n n' : 0 <= n -> 0 <= n' ->
  subs m (n + n') = subs m n + Z.of_nat (length (filter (fun w => Z.land (n + w) m = n + w) (seqZ 0 n'))).
Proof.
  intros Hn Hn'. unfold subs. rewrite seqZ_app by done. rewrite filter_app, app_length, Nat2Z.inj_add. f_equal.
  f_equal. replace (0 + n) with (Z.add n 0) by lia. rewrite <- fmap_add_seqZ, filter_fmap_len. done.
Qed.
Lemma subs_pop m n : 0 <= n -> subs m (2 ^ n) = 2 ^ pop m n.
Proof.
  intros Hn. revert n Hn. apply (natlike_ind (fun n => subs m (2 ^ n) = 2 ^ pop m n)).
  - reflexivity.
  - intros n Hn IH. replace (2 ^ Z.succ n) with (2 ^ n + 2 ^ n) by (rewrite Z.pow_succ_r by done; lia).
    assert (Hpos : 0 < 2 ^ n) by (by apply Z.pow_pos_nonneg). pose proof (pop_le m n Hn) as Hpl.
    rewrite subs_add by lia. replace (Z.succ n) with (n + 1) by lia. rewrite pop_S by done. rewrite IH.
    destruct (Z.testbit m n) eqn:Eb; cbn [Z.b2z].
    + rewrite Z.pow_add_r by lia. rewrite <- IH. unfold subs.
      rewrite (filter_ext_len (fun w => Z.land (2 ^ n + w) m = 2 ^ n + w) (fun w => Z.land w m = w)); [lia|].
      intros w Hw%elem_of_seqZ. rewrite land_top by lia. rewrite Eb. lia.
    + rewrite Z.add_0_r.
      rewrite (filter_ext_len (fun w => Z.land (2 ^ n + w) m = 2 ^ n + w) (fun w => False)).
      * assert (E : filter (fun _ : Z => False) (seqZ 0 (2 ^ n)) = []) by (induction (seqZ 0 (2 ^ n)); [done|]; rewrite filter_cons_False by tauto; done).
        rewrite E. cbn [length]. lia.
      * intros w Hw%elem_of_seqZ. rewrite land_top by lia. rewrite Eb.
        pose proof (land_lt w m n ltac:(lia) Hn). lia.
Qed.
Lemma used_subs R n : 1 <= R <= 2 ^ n -> 0 <= n -> rows_used R = 2 ^ pop (R - 1) n.
Proof.
  intros HR Hn. rewrite <- subs_pop by done. replace (2 ^ n) with (R + (2 ^ n - R)) by lia.
  rewrite subs_add by lia. unfold rows_used, subs.
  rewrite (filter_ext_len (fun w => Z.land (R + w) (R - 1) = R + w) (fun w => False)).
  - assert (E : filter (fun _ : Z => False) (seqZ 0 (2 ^ n - R)) = []) by (induction (seqZ 0 (2 ^ n - R)); [done|]; rewrite filter_cons_False by tauto; done).
    rewrite E. cbn [length]. lia.
  - intros w Hw%elem_of_seqZ. split; [|done]. intros E. pose proof (land_le (R + w) (R - 1) ltac:(lia)). lia.
Qed.
Lemma used_le R : 0 <= R -> rows_used R <= R.
Proof.
  intros HR. unfold rows_used.
  pose proof (filter_length (fun r => Z.land r (R - 1) = r) (seqZ 0 R)) as H. rewrite seqZ_length in H. lia.
Qed.
Lemma used_bits R : 1 <= R <= 2 ^ 64 -> rows_used R = 2 ^ SpecRowChoice.bits_set (R - 1).
Proof. intros HR. rewrite bs_pop. apply used_subs; [done|lia]. Qed.
Lemma used_pow2 e : 0 <= e -> rows_used (2 ^ e) = 2 ^ e.
Proof.
  intros He. assert (0 < 2 ^ e) by by apply Z.pow_pos_nonneg. unfold rows_used.
  rewrite (filter_ext_len _ (fun _ => True)).
  - assert (E : filter (fun _ : Z => True) (seqZ 0 (2 ^ e)) = seqZ 0 (2 ^ e)) by (induction (seqZ 0 (2 ^ e)) as [|a l IH]; [done|]; rewrite filter_cons_True by done; by rewrite IH).
    rewrite E, seqZ_length. lia.
  - intros r Hr%elem_of_seqZ. split; [done|]. intros _.
    change (reduce_mask (2 ^ e) r = r). rewrite mask_mod by done. apply Z.mod_small. lia.
Qed.
Lemma pop_low n x : 0 <= n -> 0 <= x < 2 ^ n -> pop (2 ^ n + x) n = pop x n.
Proof.
  intros Hn Hx. unfold pop. f_equal. apply filter_ext_len. intros i Hi%elem_of_seqZ.
  rewrite <- (Z.mod_pow2_bits_low (2 ^ n + x) n i) by lia.
  replace ((2 ^ n + x) mod 2 ^ n) with x; [done|].
  rewrite Z.add_comm. replace (x + 2 ^ n) with (x + 1 * 2 ^ n) by lia. rewrite Z.mod_add, Z.mod_small by lia. done.
Qed.
Lemma top_bit n x : 0 <= n -> 0 <= x < 2 ^ n -> Z.testbit (2 ^ n + x) n = true.
Proof.
  intros Hn Hx. apply Z.testbit_true; [done|].
  replace (2 ^ n + x) with (x + 1 * 2 ^ n) by lia. rewrite Z.div_add, Z.div_small by lia. done.
Qed.
Lemma used_double n x : 0 <= n -> 0 <= x < 2 ^ n -> rows_used (2 ^ n + x + 1) = 2 * rows_used (x + 1).
Proof.
  intros Hn Hx. rewrite (used_subs (2 ^ n + x + 1) (n + 1)) by (rewrite ?Z.pow_add_r by lia; lia).
  rewrite (used_subs (x + 1) n) by lia.
  replace (2 ^ n + x + 1 - 1) with (2 ^ n + x) by lia. replace (x + 1 - 1) with x by lia.
  rewrite pop_S, pop_low, top_bit by done. cbn [Z.b2z]. pose proof (pop_le x n Hn).
  rewrite Z.pow_add_r by lia. lia.
Qed.
Lemma used_two_thirds R : 1 <= R -> (forall e, 0 <= e -> R <> 2 ^ e) -> 3 * rows_used R <= 2 * R.
Proof.
  intros HR Hno. assert (R <> 1) by (specialize (Hno 0); lia). assert (R <> 2) by (specialize (Hno 1); lia).
  pose proof (Z.log2_spec (R - 1) ltac:(lia)) as [H1 H2]. set (n := Z.log2 (R - 1)) in *.
  assert (Hn : 1 <= n) by (apply Z.log2_le_pow2; lia).
  rewrite Z.pow_succ_r in H2 by lia. set (x := R - 1 - 2 ^ n).
  assert (Hx : 0 <= x < 2 ^ n) by lia. replace R with (2 ^ n + x + 1) by lia.
  rewrite used_double by lia.
  assert (Hx' : x + 1 < 2 ^ n) by (specialize (Hno (n + 1)); rewrite Z.pow_add_r in Hno by lia; lia).
  pose proof (used_le (x + 1) ltac:(lia)) as Hle.
  assert (rows_used (x + 1) <= 2 ^ (n - 1)).
  { rewrite (used_subs (x + 1) n) in * by lia. pose proof (pop_le (x + 1 - 1) n ltac:(lia)) as Hpl.
    apply Z.pow_le_mono_r; [lia|].
    destruct (decide (pop (x + 1 - 1) n = n)) as [E|]; [rewrite E in Hle; lia|lia]. }
  assert (2 ^ n = 2 * 2 ^ (n - 1)) by (rewrite <- Z.pow_succ_r by lia; f_equal; lia). lia.
Qed.
Lemma used_all R : 1 <= R <= 2 ^ 64 -> rows_used R = R <-> exists e, 0 <= e /\ R = 2 ^ e.
Proof.
  intros HR. split.
  - intros E. exists (SpecRowChoice.bits_set (R - 1)). split; [unfold SpecRowChoice.bits_set; lia|].
    by rewrite <- used_bits.
  - intros (e & He & ->). by apply used_pow2.
Qed.
Lemma used_plus_1 e : 0 <= e -> rows_used (2 ^ e + 1) = 2.
Proof.
  intros He. assert (0 < 2 ^ e) by by apply Z.pow_pos_nonneg.
  pose proof (used_double e 0 He ltac:(lia)) as E. rewrite Z.add_0_r in E. rewrite E. reflexivity.
Qed.
Lemma unused_row R : 3 <= R -> (forall e, 0 <= e -> R <> 2 ^ e) -> exists r, 0 <= r < R /\ ~ used R r.
Proof.
  intros HR Hno. pose proof (used_two_thirds R ltac:(lia) Hno) as H.
  destruct (decide (Forall (fun r => Z.land r (R - 1) = r) (seqZ 0 R))) as [HF|HF].
  - exfalso. unfold rows_used in H. rewrite (filter_ext_len _ (fun _ => True)) in H.
    + assert (E : filter (fun _ : Z => True) (seqZ 0 R) = seqZ 0 R) by (clear; induction (seqZ 0 R) as [|a l IH]; [done|]; rewrite filter_cons_True by done; by rewrite IH).
      rewrite E, seqZ_length in H. lia.
    + intros r Hr. rewrite Forall_forall in HF. specialize (HF r Hr). done.
  - apply not_Forall_Exists in HF; [|intros x; apply _]. apply Exists_exists in HF as (r & Hr%elem_of_seqZ & Hn).
    exists r. split; [lia|exact Hn].
Qed.
Lemma one_row p k pwd salt t R C : known_platform p ->
  rust_args (isize_max p) k pwd salt t R C -> accepted (isize_max p) 0 pwd salt t R C ->
  (forall e, 0 <= e -> R <> 2 ^ e) ->
  exists r rl m st v, 0 <= r < R /\ until_setup p k pwd salt t R C = Ok (rl, m, st, v) /\
    forall row, Z.of_nat (length row) = 12 * C -> Forall (word 64) row ->
    let m' := take (Z.to_nat (12 * C * r)) m ++ row ++ drop (Z.to_nat (12 * C * (r + 1))) m in
    from_setup p MLyra2.sel_lyra2 k rl t R C m' st v = MLyra2.lyra2 p k pwd salt t R C /\
    from_setup p (MLyra2.sel_lyra2mod p) k rl t R C m' st v = MLyra2.lyra2mod p k pwd salt t R C.
Proof.
  intros Hp Ha Hacc Hno. pose proof Hacc as (Ht & HR & _ & HC0 & Hsz & Hmax).
  pose proof (n_blocks_bounds pwd salt) as Hb. pose proof (vlen_nonneg pwd). pose proof (vlen_nonneg salt).
  assert (HC : 1 <= C) by (destruct (Z.eq_dec C 0) as [->|]; lia).
  destruct (unused_row R HR Hno) as (r & Hr & Hn).
  pose proof Ha as (Hk & Ht' & _ & _ & [Hbp _] & [Hbs _]).
  destruct (until_setup_Ok p k pwd salt t R C Hp Hbp Hbs Ht' Hk Hacc) as (m & st & M0 & _ & E0 & HRel).
  assert (Hc : contents R C (m, st)) by (apply (contents_good p R C HR HC Hmax); by eapply Rel_good).
  destruct Hc as (Hl & Hw & _). cbn [fst] in *.
  exists r, (12 * C), m, st, (rows_at R). split; [exact Hr|]. split; [exact E0|].
  intros row Hrl Hrw. cbv zeta.
  assert (L1 : length (take (Z.to_nat (12 * C * r)) m) = Z.to_nat (12 * C * r)) by (rewrite take_length; nia).
  apply (unused p k pwd salt t R C (12 * C) m st (rows_at R)); [done..| | |].
  - rewrite !app_length, L1, drop_length. nia.
  - apply Forall_app; split; [by apply Forall_take|]. apply Forall_app; split; [done|by apply Forall_drop].
  - intros r' i Hr' Hu Hi. assert (r' <> r) by (intros ->; done).
    destruct (decide (r' < r)).
    + assert (12 * C * r' + i < 12 * C * r) by nia.
      rewrite lookup_app_l by (rewrite L1; nia). rewrite lookup_take by nia. done.
    + assert (12 * C * (r + 1) <= 12 * C * r' + i) by nia.
      rewrite lookup_app_r by (rewrite L1; nia). rewrite L1, lookup_app_r by nia.
      rewrite lookup_drop. f_equal. nia.
Qed.
