(** * A call that returns was accepted: the converse of [lyra2_with_Ok] *)
From Verif Require Import Machine MachineFacts MUtils WordFacts Schedule RefineInput Termination.
From stdpp Require Import list_numbers.
From Verif Require Import MLyra2.
From Verif Require SpecLyra2.
Import SpecLyra2 (n_blocks, accepted).
#[local] Open Scope Z_scope.

(** Inverting a successful loop: an invariant, and every iteration took place. *)
Lemma foldM_seqZ_inv {S} (P : Z -> S -> Prop) (f : S -> Z -> outcome S) n : 0 <= n ->
  forall lo s s', P lo s ->
  (forall i s s', lo <= i < lo + n -> P i s -> f s i = Ok s' -> P (i + 1) s') ->
  foldM f (seqZ lo n) s = Ok s' ->
  P (lo + n) s' /\ forall i, lo <= i < lo + n -> exists s1 s2, P i s1 /\ f s1 i = Ok s2.
Proof.
  intros Hn. pattern n. apply natlike_ind; [| |done]; clear n Hn.
  - intros lo s s' Hs _. rewrite seqZ_nil by lia. cbn [foldM]. intros [= <-].
    rewrite Z.add_0_r. split; [done|]. lia.
  - intros n Hn IH lo s s' Hs Hf. rewrite seqZ_cons by lia. rewrite Z.pred_succ. cbn [foldM].
    intros (s1 & E1 & E2)%obind_Ok_inv.
    assert (Hs1 : P (lo + 1) s1) by (apply (Hf lo s); [lia|done|done]).
    destruct (IH (lo + 1) s1 s' Hs1) as [H1 H2]; [|done|].
    + intros i ? ? Hi. apply Hf. lia.
    + replace (lo + Z.succ n) with (lo + 1 + n) by lia. split; [done|].
      intros i Hi. destruct (Z.eq_dec i lo) as [->|]; [by eauto|]. apply H2. lia.
Qed.
Lemma for_range_inv {S} (P : Z -> S -> Prop) (body : Z -> S -> outcome S) lo hi s s' :
  0 <= hi - lo < 2 ^ 64 -> P lo s ->
  (forall i s s', lo <= i < hi -> P i s -> body i s = Ok s' -> P (i + 1) s') ->
  for_range lo hi body s = Ok s' ->
  P hi s' /\ forall i, lo <= i < hi -> exists s1 s2, P i s1 /\ body i s1 = Ok s2.
Proof.
  intros Hr Hs Hf. rewrite for_range_foldM by lia. intros E.
  apply (foldM_seqZ_inv P) in E; [|lia|done|].
  - by replace (lo + (hi - lo)) with hi in E by lia.
  - intros. eapply Hf; [lia|done|done].
Qed.
(** Every statement of a successful group took place. *)
Lemma foldM_each {A S} (P : S -> Prop) (f : S -> A -> outcome S) l s s' :
  P s -> (forall s a s', P s -> f s a = Ok s' -> P s') -> foldM f l s = Ok s' ->
  P s' /\ forall a, a ∈ l -> exists s1 s2, P s1 /\ f s1 a = Ok s2.
Proof.
  intros Hs Hf. revert s Hs. induction l as [|a l IH]; intros s Hs; cbn [foldM].
  - intros [= <-]. split; [done|]. by intros a ?%elem_of_nil.
  - intros (s1 & E1 & E2)%obind_Ok_inv. apply IH in E2 as [H1 H2]; [|by apply (Hf s a)].
    split; [done|]. intros b [-> | Hb]%elem_of_cons; [by eauto|auto].
Qed.

Lemma elem_of_offs12 j : 0 <= j < 12 -> j ∈ offs12.
Proof. intros Hj. change offs12 with (seqZ 0 12). apply elem_of_seqZ. lia. Qed.

Section domain.
Context (p : platform) (Hp : known_platform p).

Lemma szadd_exact a b c : szadd p a b = Ok c -> 0 <= a + b < 2 ^ usize_bits p -> c = a + b.
Proof. unfold szadd. intros E H. rewrite chk_usize_Ok in E by done. congruence. Qed.

(** ** Input *)
Lemma copy_words_inv data q m m' :
  0 <= q <= vlen m -> vlen data <= isize_max p -> 8 * vlen m <= isize_max p ->
  copy_words p data q m = Ok m' -> vlen m' = vlen m /\ q + vlen data / 8 <= vlen m.
Proof.
  intros Hq Hd Hm. pose proof (isize_usize p Hp) as Hi. pose proof (vlen_nonneg data).
  assert (H8 : 0 <= vlen data / 8 <= vlen data).
  { split; [apply Z.div_pos; lia|apply Z.div_le_upper_bound; lia]. }
  unfold copy_words. intros E.
  apply (for_range_inv (fun _ m1 => vlen m1 = vlen m)) in E as [E1 E2]; [|lia|done|].
  - split; [done|]. destruct (Z.le_gt_cases (q + vlen data / 8) (vlen m)) as [|Hgt]; [done|]. exfalso.
    destruct (E2 (vlen m - q)) as (m1 & m2 & Hl & E); [lia|].
    repeat (apply obind_Ok_inv in E as (? & ? & E)).
    match goal with H : szadd p q _ = Ok _ |- _ => apply szadd_exact in H; [|lia] end. subst.
    apply vset_Ok_inv in E as [? _]. lia.
  - clear E. intros i m1 m2 Hi' Hl E. repeat (apply obind_Ok_inv in E as (? & ? & E)).
    apply vset_vlen in E. lia.
Qed.
Lemma push_word_inv m q x m' q' : 0 <= q -> 8 * vlen m <= isize_max p ->
  push_word p (m, q) x = Ok (m', q') -> vlen m' = vlen m /\ q < vlen m /\ q' = q + 1.
Proof.
  intros Hq Hm. pose proof (isize_usize p Hp) as Hi. unfold push_word.
  intros (m1 & E1 & (q1 & E2 & [= <- <-])%obind_Ok_inv)%obind_Ok_inv.
  pose proof (vset_vlen _ _ _ _ E1). apply vset_Ok_inv in E1 as [? _].
  apply szadd_exact in E2; [|lia]. lia.
Qed.
Lemma input_inv k pwd salt t R C nb m m' :
  vlen pwd <= isize_max p -> vlen salt <= isize_max p -> 8 * vlen m <= isize_max p ->
  n_blocks_input p pwd salt = Ok nb -> write_input p k pwd salt t R C nb m = Ok m' ->
  vlen m' = vlen m /\ 8 * n_blocks pwd salt <= vlen m.
Proof.
  intros Hpw Hsa Hm Hnb. pose proof (isize_usize p Hp) as Hi.
  pose proof (vlen_nonneg pwd). pose proof (vlen_nonneg salt). pose proof (vlen_nonneg m).
  pose proof (Z.div_mod (vlen pwd) 8). pose proof (Z.mod_pos_bound (vlen pwd) 8).
  pose proof (Z.div_mod (vlen salt) 8). pose proof (Z.mod_pos_bound (vlen salt) 8).
  unfold write_input. cbv zeta. intros E.
  apply obind_Ok_inv in E as (m1 & E1 & E). apply copy_words_inv in E1 as [L1 B1]; [|lia|done|done].
  apply obind_Ok_inv in E as (q1 & Q1 & E). unfold as_usize in Q1. rewrite Z.mod_small in Q1 by lia.
  apply szadd_exact in Q1; [|lia].
  apply obind_Ok_inv in E as (m2 & E2 & E). apply copy_words_inv in E2 as [L2 B2]; [|lia|done|lia].
  apply obind_Ok_inv in E as (q2 & Q2 & E). unfold as_usize in Q2. rewrite Z.mod_small in Q2 by lia.
  apply szadd_exact in Q2; [|lia].
  do 6 (apply obind_Ok_inv in E as ([? ?] & PW & E); apply push_word_inv in PW as (? & ? & ?); [|lia|lia]).
  apply obind_Ok_inv in E as (m9 & E9 & E).
  pose proof (vset_vlen _ _ _ _ E9). apply vset_Ok_inv in E9 as [B9 _].
  apply obind_Ok_inv in E as (a & Ea & E). apply obind_Ok_inv in E as (b & Eb & E).
  apply obind_Ok_inv in E as (x & Ex & E). apply vset_vlen in E. apply vget_Ok_inv in Ex as [Bx _].
  split; [lia|].
  assert (nb = n_blocks pwd salt) as ->.
  { unfold n_blocks_input in Hnb.
    apply obind_Ok_inv in Hnb as (c & Ec & Hnb). apply szadd_exact in Ec; [|lia].
    apply obind_Ok_inv in Hnb as (d & Ed & Hnb). apply szadd_exact in Ed; [|lia].
    unfold as_i64 in Hnb. rewrite wrap_i64_id in Hnb by lia.
    unfold BLOCKLENBLAKE2SAFEBYTES, BLOCKLENBLAKE2SAFEINT64 in Hnb.
    rewrite Z.quot_div_nonneg in Hnb by lia.
    assert (0 <= d / (8 * 8) <= d) by (split; [apply Z.div_pos; lia|apply Z.div_le_upper_bound; lia]).
    unfold iadd in Hnb. rewrite chk_i64_Ok in Hnb by lia. injection Hnb as <-.
    unfold n_blocks. change (8 * 8) with 64. do 2 f_equal. unfold vlen in *. lia. }
  pose proof (n_blocks_bounds pwd salt).
  unfold imul, BLOCKLENBLAKE2SAFEBYTES, BLOCKLENBLAKE2SAFEINT64 in Ea.
  assert (Hfit : n_blocks pwd salt * (8 * 8) < 2 ^ 63).
  { destruct (Z.lt_ge_cases (n_blocks pwd salt * (8 * 8)) (2 ^ 63)) as [|Hge]; [done|]. exfalso.
    apply chk_i64_inv in Ea as [_ ->].
    assert (HnB : n_blocks pwd salt = 2 ^ 57) by lia. rewrite HnB in Eb.
    change (Z.quot (wrap_i64 (2 ^ 57 * (8 * 8))) 8) with (- 2 ^ 60) in Eb.
    unfold isub in Eb. rewrite chk_i64_Ok in Eb by lia. injection Eb as <-.
    unfold as_usize in Bx. destruct Hp as [H32|H64].
    - unfold isize_max in *. rewrite H32 in *. lia.
    - rewrite H64 in *. change ((- 2 ^ 60 - 1) mod 2 ^ 64) with (2 ^ 64 - 2 ^ 60 - 1) in Bx. lia. }
  rewrite chk_i64_Ok in Ea by lia. injection Ea as <-.
  replace (n_blocks pwd salt * (8 * 8)) with ((n_blocks pwd salt * 8) * 8) in Eb by lia.
  rewrite Z.quot_mul in Eb by lia.
  unfold isub in Eb. rewrite chk_i64_Ok in Eb by lia. injection Eb as <-.
  unfold as_usize in Bx. rewrite Z.mod_small in Bx by lia. lia.
Qed.

(** ** Setup *)
Lemma wrap_eq x y : x mod 2 ^ 64 = y mod 2 ^ 64 -> wrap_i64 x = wrap_i64 y.
Proof.
  intros E. unfold wrap_i64. rewrite <- (Zplus_mod_idemp_l x), <- (Zplus_mod_idemp_l y). by rewrite E.
Qed.
Lemma wrap_sub_l x y : wrap_i64 (wrap_i64 x - y) = wrap_i64 (x - y).
Proof. apply wrap_eq. by rewrite <- Zminus_mod_idemp_l, wrap_i64_mod, Zminus_mod_idemp_l. Qed.
Lemma wrap_mul_l x y : wrap_i64 (wrap_i64 x * y) = wrap_i64 (x * y).
Proof. apply wrap_eq. by rewrite <- Zmult_mod_idemp_l, wrap_i64_mod, Zmult_mod_idemp_l. Qed.
Lemma wrap_mul_r x y : wrap_i64 (x * wrap_i64 y) = wrap_i64 (x * y).
Proof. rewrite (Z.mul_comm x (wrap_i64 y)), (Z.mul_comm x y). apply wrap_mul_l. Qed.

Lemma squeeze_row0_inv C m st m' st' :
  0 <= C < 2 ^ 64 -> 8 * vlen m <= isize_max p ->
  squeeze_row0 p C m st = Ok (m', st') -> vlen m' = vlen m /\ 12 * C <= vlen m.
Proof.
  intros HC Hm. pose proof (isize_usize p Hp) as Hi. pose proof (vlen_nonneg m).
  unfold squeeze_row0. intros (a & Ea & (ptr & Eptr & E)%obind_Ok_inv)%obind_Ok_inv.
  apply chk_i64_inv in Ea as [_ ->], Eptr as [_ ->].
  unfold as_i64, BLOCKLENINT64 in *. rewrite wrap_sub_l, wrap_mul_l in E.
  apply obind_Ok_inv in E as ([[m1 st1] ptr1] & E & E'). injection E' as <- <-.
  apply (for_range_inv (fun i s => vlen s.1.1 = vlen m /\ s.2 = wrap_i64 (12 * (C - 1 - i)))) in E as [[E1 _] E2].
  - split; [exact E1|]. destruct (Z.le_gt_cases (12 * C) (vlen m)) as [|Hgt]; [done|]. exfalso.
    pose proof (Z.div_mod (vlen m) 12 ltac:(lia)) as Hdm. pose proof (Z.mod_pos_bound (vlen m) 12 ltac:(lia)) as Hmb.
    set (x := vlen m / 12) in *. set (j := vlen m mod 12) in *.
    destruct (E2 (C - 1 - x)) as ([[m2 st2] ptr2] & s2 & [Hl Hptr] & E); [lia|].
    cbn [fst snd] in Hl, Hptr. replace (C - 1 - (C - 1 - x)) with x in Hptr by lia.
    rewrite wrap_i64_id in Hptr by lia. subst ptr2.
    apply obind_Ok_inv in E as (m3 & E & _).
    apply (foldM_each (fun m1 => vlen m1 = vlen m)) in E as [_ E].
    + destruct (E j) as (m4 & m5 & Hl4 & E4).
      { by apply elem_of_offs12. }
      apply obind_Ok_inv in E4 as (a & Ea & E4). unfold iadd in Ea. rewrite chk_i64_Ok in Ea by lia.
      injection Ea as <-. apply vset_Ok_inv in E4 as [B _]. unfold as_usize in B.
      rewrite Z.mod_small in B by lia. lia.
    + done.
    + intros m4 j4 m5 Hl4 (a & _ & E4)%obind_Ok_inv. apply vset_vlen in E4. lia.
  - lia.
  - split; [done|]. cbn [snd]. f_equal. lia.
  - clear E. intros i [[m2 st2] ptr2] s3 Hi' [Hl Hptr] E. cbn [fst snd] in Hl, Hptr.
    apply obind_Ok_inv in E as (m3 & E & E3). cbv zeta in E3. injection E3 as <-. cbn [fst snd]. split.
    + apply (foldM_each (fun m1 => vlen m1 = vlen m)) in E as [E _]; [done|done|].
      intros m4 j4 m5 Hl4 (a & _ & E4)%obind_Ok_inv. apply vset_vlen in E4. lia.
    + subst ptr2. rewrite wrap_sub_l. f_equal. lia.
Qed.

(** A group of twelve stores, seen through one of them. *)
Definition keeps (f : list Z -> Z -> outcome (list Z)) : Prop :=
  forall m j m', f m j = Ok m' -> vlen m' = vlen m.
Lemma group_each f l m m' : keeps f -> foldM f l m = Ok m' ->
  vlen m' = vlen m /\ forall j, j ∈ l -> exists m1 m2, vlen m1 = vlen m /\ f m1 j = Ok m2.
Proof.
  intros Hf. apply (foldM_each (fun m1 => vlen m1 = vlen m)); [done|].
  intros m1 j m2 Hl E. apply Hf in E. lia.
Qed.

Lemma row_rev_exact C row : 0 < C -> 0 <= row -> 12 * C * (row + 1) < 2 ^ 62 -> 12 * C * (row + 1) < 2 ^ usize_bits p ->
  forall d, (u <-- usub p C 0 ;; u <-- usub p u 1 ;; a <-- imul p (as_i64 u) 12 ;;
   b <-- imul p row (12 * C) ;; c <-- iadd p a b ;; d <-- iadd p c 11 ;; Ok (as_usize p d)) = Ok d ->
  d = 12 * C * (row + 1) - 1.
Proof.
  intros HC Hr H1 H2 d. unfold usub. rewrite (chk_u64_Ok p (C - 0)) by lia. cbn [obind].
  rewrite chk_u64_Ok by lia. cbn [obind]. unfold as_i64. rewrite wrap_i64_id by lia.
  unfold imul, iadd. rewrite chk_i64_Ok by lia. cbn [obind].
  rewrite chk_i64_Ok by lia. cbn [obind]. rewrite chk_i64_Ok by lia. cbn [obind].
  rewrite chk_i64_Ok by lia. cbn [obind]. intros [= <-]. unfold as_usize. rewrite Z.mod_small; lia.
Qed.

Lemma duplex_row1_inv C m st m' st' :
  1 <= C < 2 ^ 64 -> 8 * vlen m <= isize_max p -> 12 * C <= vlen m ->
  duplex_row1 p (12 * C) C m st = Ok (m', st') -> vlen m' = vlen m /\ 24 * C <= vlen m.
Proof.
  intros HC Hm Hrow. pose proof (isize_usize p Hp) as Hi. unfold duplex_row1.
  assert (Hk : forall i st, keeps (fun (m : list Z) (j : Z) =>
            a <-- cell0 p i j ;;
            x <-- vget m a ;;
            b <-- cell1_rev p (12 * C) C i j ;;
            vset m b (Z.lxor x (aget st (Z.to_nat j))))).
  { intros i s m1 j m2 E. repeat (apply obind_Ok_inv in E as (? & ? & E)). by apply vset_vlen in E. }
  intros E.
  apply (for_range_inv (fun i s => vlen s.1 = vlen m)) in E as [E1 E2]; [|lia|done|].
  - split; [done|]. destruct (Z.le_gt_cases (24 * C) (vlen m)) as [|Hgt]; [done|]. exfalso.
    destruct (E2 0) as ([m1 st1] & s2 & Hl & E); [lia|]. cbn [fst] in Hl.
    apply obind_Ok_inv in E as (st2 & _ & E). cbv zeta in E. apply obind_Ok_inv in E as (m2 & E & _).
    apply group_each in E as [_ E]; [|apply Hk].
    destruct (E 11) as (m3 & m4 & Hl3 & E3); [by apply elem_of_offs12|].
    apply obind_Ok_inv in E3 as (? & _ & E3). apply obind_Ok_inv in E3 as (? & _ & E3).
    apply obind_Ok_inv in E3 as (b & Eb & E3). apply vset_Ok_inv in E3 as [B _].
    assert (b = 12 * C * (1 + 1) - 1); [|lia].
    apply row_rev_exact; [lia|lia|lia|lia|]. rewrite <- Eb. unfold cell1_rev, BLOCKLENINT64.
    apply obind_ext. intros. apply obind_ext. intros. apply obind_ext. intros.
    unfold imul. rewrite Z.mul_1_l. rewrite chk_i64_Ok by lia. done.
  - clear E. intros i [m1 st1] s2 Hi' Hl E. cbn [fst] in Hl.
    apply obind_Ok_inv in E as (st2 & _ & E). cbv zeta in E. apply obind_Ok_inv in E as (m2 & E & E').
    injection E' as <-. cbn [fst]. apply group_each in E as [E _]; [lia|apply Hk].
Qed.

Lemma xor_rotW_vlen rl i rowa st m m' : xor_rotW p rl i rowa st m = Ok m' -> vlen m' = vlen m.
Proof.
  intros E. apply (foldM_each (fun m1 => vlen m1 = vlen m)) in E as [E _]; [done|done|].
  intros m1 [j s] m2 Hl (? & ? & (? & ? & E1)%obind_Ok_inv)%obind_Ok_inv. apply vset_vlen in E1. lia.
Qed.
Lemma duplex_row_setup_vlen rl C row prev rowa m st m' st' : 0 <= C < 2 ^ 64 ->
  duplex_row_setup p rl C row prev rowa m st = Ok (m', st') ->
  vlen m' = vlen m /\
  (1 <= C -> rl = 12 * C -> 0 <= row -> 12 * C * (row + 1) < 2 ^ 62 -> 12 * C * (row + 1) < 2 ^ usize_bits p ->
   12 * C * (row + 1) <= vlen m).
Proof.
  intros HC. unfold duplex_row_setup.
  assert (Hk : forall i st, keeps (fun (m : list Z) (j : Z) =>
            a <-- cell p rl i prev j ;;
            x <-- vget m a ;;
            b <-- cell_rev p rl C i row j ;;
            vset m b (Z.lxor x (aget st (Z.to_nat j))))).
  { intros i s m1 j m2 E. repeat (apply obind_Ok_inv in E as (? & ? & E)). by apply vset_vlen in E. }
  intros E.
  apply (for_range_inv (fun i s => vlen s.1 = vlen m)) in E as [E1 E2]; [|lia|done|].
  - split; [done|]. intros HC1 -> Hr H1 H2.
    destruct (E2 0) as ([m1 st1] & s2 & Hl & E); [lia|]. cbn [fst] in Hl.
    apply obind_Ok_inv in E as (st2 & _ & E). cbv zeta in E. apply obind_Ok_inv in E as (m2 & E & _).
    apply group_each in E as [_ E]; [|apply Hk].
    destruct (E 11) as (m3 & m4 & Hl3 & E3); [by apply elem_of_offs12|].
    apply obind_Ok_inv in E3 as (? & _ & E3). apply obind_Ok_inv in E3 as (? & _ & E3).
    apply obind_Ok_inv in E3 as (b & Eb & E3). apply vset_Ok_inv in E3 as [B _].
    apply (row_rev_exact C row) in Eb; lia.
  - clear E. intros i [m1 st1] s2 Hi' Hl E. cbn [fst] in Hl.
    apply obind_Ok_inv in E as (st2 & _ & E). cbv zeta in E. apply obind_Ok_inv in E as (m2 & E & E').
    apply obind_Ok_inv in E' as (m3 & E3 & E'). injection E' as <-. cbn [fst].
    apply xor_rotW_vlen in E3. apply group_each in E as [E _]; [lia|apply Hk].
Qed.

Lemma setup_inv R C m st m' st' v :
  3 <= R < 2 ^ 63 -> 1 <= C < 2 ^ 64 -> 8 * vlen m <= isize_max p -> 12 * C <= vlen m ->
  setup p (12 * C) R C m st = Ok (m', st', v) -> 12 * R * C <= vlen m.
Proof.
  intros HR HC Hm Hrow. pose proof (isize_usize p Hp) as Hi. unfold setup.
  intros ([m1 st1] & E1 & ([m2 st2] & E2 & E)%obind_Ok_inv)%obind_Ok_inv.
  apply squeeze_row0_inv in E1 as [L1 _]; [|lia|done].
  apply duplex_row1_inv in E2 as [L2 B2]; [|lia|lia|lia].
  unfold setup_rows, as_i64 in E. rewrite wrap_i64_id in E by lia.
  apply (for_range_inv (fun i s => vlen s.1.1 = vlen m /\ r_row s.2 = i)) in E as [_ E].
  - destruct (Z.le_gt_cases (12 * R * C) (vlen m)) as [|Hgt]; [done|]. exfalso.
    pose proof (Z.div_mod (vlen m) (12 * C) ltac:(lia)) as Hdm.
    pose proof (Z.mod_pos_bound (vlen m) (12 * C) ltac:(lia)) as Hmb.
    set (r0 := vlen m / (12 * C)) in *.
    assert (2 <= r0) by (apply Z.div_le_lower_bound; lia).
    assert (r0 < R) by (apply Z.div_lt_upper_bound; lia).
    destruct (E r0) as ([[m3 st3] v3] & s4 & [Hl Hv] & E3); [cbn; lia|]. cbn [fst snd] in Hl, Hv.
    apply obind_Ok_inv in E3 as ([m4 st4] & E3 & _).
    apply duplex_row_setup_vlen in E3 as [_ E3]; [|lia]. rewrite Hv in E3.
    specialize (E3 ltac:(lia) eq_refl ltac:(lia) ltac:(lia) ltac:(lia)). lia.
  - cbn. lia.
  - split; [cbn; lia|done].
  - intros i [[m3 st3] v3] s4 Hi' [Hl Hv] E3. cbn [fst snd] in Hl, Hv. cbn in Hi'.
    apply obind_Ok_inv in E3 as ([m4 st4] & E3 & E4).
    apply duplex_row_setup_vlen in E3 as [E3 _]; [|lia].
    apply obind_Ok_inv in E4 as (v4 & E4 & E5). injection E5 as <-. cbn [fst snd]. split; [lia|].
    unfold rows_next in E4. apply obind_Ok_inv in E4 as (? & _ & E4). apply obind_Ok_inv in E4 as (? & _ & E4).
    cbv zeta in E4. apply obind_Ok_inv in E4 as (row & Er & E4).
    unfold iadd in Er. rewrite chk_i64_Ok in Er by lia. injection Er as <-.
    case_match.
    + repeat (apply obind_Ok_inv in E4 as (? & _ & E4)). injection E4 as <-. cbn. lia.
    + injection E4 as <-. cbn. lia.
Qed.

(** ** Output *)
Lemma squeeze_inv st k out : 0 <= k < 2 ^ 64 -> (usize_bits p = 64 \/ k < 2 ^ 63) ->
  squeeze p st k = Ok out -> k <= 96.
Proof.
  intros Hk Hw. pose proof (isize_usize p Hp) as Hi. unfold squeeze. cbv zeta.
  intros (o & Eo & (jmax & Ej & E)%obind_Ok_inv)%obind_Ok_inv.
  assert (H63 : k < 2 ^ 63).
  { destruct Hw as [Hw|]; [|done]. unfold vec_zeroed, as_usize, isize_max in Eo. rewrite Hw in Eo.
    rewrite Z.mod_small in Eo by lia. destruct (_ <=? _) eqn:El in Eo; [|done]. lia. }
  unfold as_i64, BLOCKLENBYTES, BLOCKLENINT64 in Ej. rewrite wrap_i64_id in Ej by lia.
  rewrite Z.quot_div_nonneg in Ej by lia. change (12 * 8) with 96 in Ej.
  pose proof (Z.div_mod k 96 ltac:(lia)) as Hdm. pose proof (Z.mod_pos_bound k 96 ltac:(lia)) as Hmb.
  unfold iadd in Ej. rewrite chk_i64_Ok in Ej by lia. injection Ej as <-.
  destruct (Z.le_gt_cases k 96) as [|Hgt]; [done|]. exfalso.
  apply obind_Ok_inv in E as ([[tmp o2] s2] & E & _).
  assert (Hin : forall tmp st tmp', for_range 0 BLOCKLENINT64 (fun i tmp =>
                vec_extend p tmp (to_le_bytes 8 (aget st (Z.to_nat i)))) tmp = Ok tmp' ->
             vlen tmp' = vlen tmp + 96 /\ vlen tmp' <= isize_max p).
  { intros t1 s1 t2. unfold BLOCKLENINT64.
    intros H. apply (for_range_inv (fun i t => vlen t = vlen t1 + 8 * i /\ (0 < i -> vlen t <= isize_max p))) in H as [[H1 H2] _].
    - split; [lia|]. apply H2. lia.
    - lia.
    - split; lia.
    - intros i s s' Hi' [Hl _]. unfold vec_extend. destruct (_ <=? _) eqn:El; [|done]. intros [= <-].
      apply Z.leb_le in El. assert (vlen (to_le_bytes 8 (aget s1 (Z.to_nat i))) = 8) as Hb by done.
      rewrite Hb in El. unfold vlen in *. rewrite app_length. cbn [length]. lia. }
  apply (for_range_inv (fun i s => vlen s.1.1 = 96 * i)) in E as [_ E].
  - destruct (Z.lt_ge_cases k (2 ^ usize_bits p)) as [Hlt|Hge].
    + destruct (E 0) as ([[t1 o1] s1] & s3 & Hl & E1); [lia|]. cbn [fst] in Hl.
      apply obind_Ok_inv in E1 as (t2 & Et & E1). apply Hin in Et as [Et _].
      apply obind_Ok_inv in E1 as (o3 & Es & _). unfold as_usize in Es. rewrite Z.mod_small in Es by lia.
      rewrite slice_Panic in Es by lia. done.
    + destruct (E (k / 96)) as ([[t1 o1] s1] & s3 & Hl & E1); [lia|]. cbn [fst] in Hl.
      apply obind_Ok_inv in E1 as (t2 & Et & E1). apply Hin in Et as [Et1 Et2]. lia.
  - lia.
  - done.
  - intros i [[t1 o1] s1] s3 Hi' Hl E1. cbn [fst] in Hl.
    apply obind_Ok_inv in E1 as (t2 & Et & E1). apply Hin in Et as [Et1 Et2].
    apply obind_Ok_inv in E1 as (o3 & Es & E1). injection E1 as <-. cbn [fst]. lia.
Qed.

(** ** The whole call *)
Lemma setup_row0_part rl R C m st s : setup p rl R C m st = Ok s ->
  exists m' st', squeeze_row0 p C m st = Ok (m', st').
Proof. intros ([m1 st1] & E1 & _)%obind_Ok_inv. eauto. Qed.

Lemma lyra2_with_squeeze sel k pwd salt t R C out :
  lyra2_with p sel k pwd salt t R C = Ok out -> exists st, squeeze p st k = Ok out.
Proof.
  unfold lyra2_with. case_match; [done|]. case_match; [done|]. intros E.
  do 6 apply obind_Ok_inv in E as (? & _ & E).
  apply obind_Ok_inv in E as ([[m2 st2] v] & Es & E).
  apply obind_Ok_inv in E as ([[[[[m3 st3] i3] r3] p3] a3] & _ & E).
  do 3 apply obind_Ok_inv in E as (? & _ & E). by eauto.
Qed.

Lemma lyra2_with_inv sel k pwd salt t R C out :
  vlen pwd <= isize_max p -> vlen salt <= isize_max p ->
  0 <= C < 2 ^ 64 -> 0 <= R < 2 ^ 64 ->
  R < 2 ^ 63 \/ (overflow_checks p = true /\ usize_bits p = 64) ->
  lyra2_with p sel k pwd salt t R C = Ok out -> accepted (isize_max p) 0 pwd salt t R C.
Proof.
  intros Hpw Hsa HC HR HR63. pose proof (isize_usize p Hp) as Hi. unfold lyra2_with.
  destruct (t <? 1) eqn:Et; [done|]. destruct (R <? 3) eqn:ER; [done|].
  apply Z.ltb_ge in Et, ER. intros E.
  apply obind_Ok_inv in E as (rl & Erl & E). apply obind_Ok_inv in E as (tot & Etot & E).
  apply obind_Ok_inv in E as (m & Em & E). apply obind_Ok_inv in E as (nb & Enb & E).
  apply obind_Ok_inv in E as (m1 & Em1 & E). apply obind_Ok_inv in E as (st1 & _ & E).
  apply obind_Ok_inv in E as ([[m2 st2] v] & Es & E).
  apply obind_Ok_inv in E as ([[[[[m3 st3] i3] r3] p3] a3] & _ & E).
  clear E.
  assert (Htr : 0 <= as_usize p tot < 2 ^ usize_bits p).
  { apply Z.mod_pos_bound. lia. }
  assert (Hl : vlen m = as_usize p tot /\ 8 * vlen m <= isize_max p).
  { unfold vec_zeroed in Em. destruct (_ <=? _) eqn:El in Em; [|done]. injection Em as <-.
    apply Z.leb_le in El. unfold vlen. rewrite replicate_length. lia. }
  destruct Hl as [Hl Hm].
  apply (input_inv _ _ _ _ _ _ _ _ _ Hpw Hsa Hm Enb) in Em1 as [L1 Bin].
  pose proof (n_blocks_bounds pwd salt) as Hnb.
  destruct (setup_row0_part _ _ _ _ _ _ Es) as (m4 & st4 & E0).
  apply squeeze_row0_inv in E0 as [_ BC]; [|done|lia].
  assert (HC1 : 1 <= C).
  { destruct (Z.eq_dec C 0) as [->|]; [|lia]. exfalso.
    unfold imul, BLOCKLENINT64 in Erl. change (12 * as_i64 0) with 0 in Erl.
    rewrite chk_i64_Ok in Erl by lia. injection Erl as <-.
    unfold imul in Etot. rewrite Z.mul_0_r in Etot. rewrite chk_i64_Ok in Etot by lia. injection Etot as <-.
    unfold as_usize in Hl. rewrite Z.mod_0_l in Hl by lia. lia. }
  unfold imul, as_i64, BLOCKLENINT64 in Erl. rewrite wrap_i64_id in Erl by lia.
  rewrite chk_i64_Ok in Erl by lia. injection Erl as <-.
  assert (HRs : R < 2 ^ 63).
  { destruct HR63 as [|[Hd H64]]; [done|]. destruct (Z.lt_ge_cases R (2 ^ 63)) as [|Hge]; [done|]. exfalso.
    unfold imul in Etot. apply chk_i64_debug in Etot as [Hb ->]; [|done].
    assert (HaR : as_i64 R = R - 2 ^ 64).
    { unfold as_i64, wrap_i64. rewrite <- (Z.mod_unique (R + 2 ^ 63) (2 ^ 64) 1 (R - 2 ^ 63)); lia. }
    rewrite HaR in *. set (q := (R - 2 ^ 64) * (12 * C)) in *. assert (q < 0) by (unfold q; nia).
    unfold as_usize in Hl. rewrite H64 in Hl.
    rewrite <- (Z.mod_unique q (2 ^ 64) (-1) (q + 2 ^ 64)) in Hl by lia.
    unfold isize_max in Hm. rewrite H64 in Hm. lia. }
  apply setup_inv in Es; [|lia|lia|lia|lia].
  assert (0 < R * C) by nia.
  unfold imul, as_i64 in Etot. rewrite wrap_i64_id in Etot by lia.
  rewrite chk_i64_Ok in Etot by nia. injection Etot as <-.
  unfold as_usize in Hl. rewrite Z.mod_small in Hl by nia.
  unfold accepted. lia.
Qed.
End domain.
