(** * Accepted calls return the specified key *)
From Verif Require Import Machine MachineFacts MUtils WordFacts Schedule Refine Refine2 RefineInput.
From Verif Require Import SpecWord SpecBlake2b SpecLyra2.
From Verif Require MLyra2.
#[local] Opaque blake2b_round.

(** ** The initial contents of the matrix do not matter *)
Section agree.
Context (R C : Z).
Definition agree (n : Z) (M M' : matrix) : Prop :=
  forall r c, 0 <= r < n -> 0 <= c < C -> M r c = M' r c.
(** Rows below [n] and the last [i] columns of row [n]. *)
Definition agree_part (n i : Z) (M M' : matrix) : Prop :=
  agree n M M' /\ forall c, C - 1 - i < c < C -> M n c = M' n c.
Lemma agree_set n M M' r c b : agree n M M' -> agree n (set M r c b) (set M' r c b).
Proof. intros H r' c' Hr Hc. unfold set. destruct (_ && _); [done|]. by apply H. Qed.
Lemma agree_part_set n i M M' b : 0 <= i < C ->
  agree_part n i M M' -> agree_part n (i + 1) (set M n (C - 1 - i) b) (set M' n (C - 1 - i) b).
Proof.
  intros Hi [H1 H2]. split.
  - by apply agree_set.
  - intros c Hc. unfold set. rewrite Z.eqb_refl. destruct (c =? C - 1 - i) eqn:E; [done|].
    cbn. apply H2. apply Z.eqb_neq in E. lia.
Qed.
Lemma agree_part_set_low n i M M' r c b :
  agree_part n i M M' -> agree_part n i (set M r c b) (set M' r c b).
Proof.
  intros [H1 H2]. split; [by apply agree_set|].
  intros c' Hc. unfold set. destruct (_ && _); [done|]. by apply H2.
Qed.
Lemma agree_part_full n M M' : 0 <= n -> agree_part n C M M' -> agree (n + 1) M M'.
Proof.
  intros Hn [H1 H2] r c Hr Hc. destruct (Z.eq_dec r n) as [->|]; [apply H2; lia|apply H1; lia].
Qed.
Lemma agree_part_start n M M' : agree n M M' -> agree_part n 0 M M'.
Proof. intros H. split; [done|]. intros; lia. Qed.

Definition agree_st (P : matrix -> matrix -> Prop) (s s' : matrix * list Z) : Prop :=
  P s.1 s'.1 /\ s.2 = s'.2.

Lemma foldl_rel_seqZ {S} (P : Z -> S -> S -> Prop) (h : S -> Z -> S) n : 0 <= n ->
  forall lo s s', P lo s s' ->
  (forall i s s', lo <= i < lo + n -> P i s s' -> P (i + 1) (h s i) (h s' i)) ->
  P (lo + n) (foldl h s (seqZ lo n)) (foldl h s' (seqZ lo n)).
Proof.
  intros Hn. pattern n. apply natlike_ind; [| |done]; clear n Hn.
  - intros lo s s' H _. rewrite seqZ_nil by lia. by rewrite Z.add_0_r.
  - intros n Hn IH lo s s' H Hs. rewrite seqZ_cons by lia. rewrite Z.pred_succ. cbn [foldl].
    replace (lo + Z.succ n) with (lo + 1 + n) by lia. apply IH; [apply Hs; [lia|done]|].
    intros. apply Hs; [lia|done].
Qed.

Context (HC : 0 <= C).
Lemma setup_row0_agree M M' st :
  agree_st (agree 1) (setup_row0 C (M, st)) (setup_row0 C (M', st)).
Proof.
  assert (H : agree_st (agree_part 0 (0 + C)) (setup_row0 C (M, st)) (setup_row0 C (M', st))).
  { apply (foldl_rel_seqZ (fun i => agree_st (agree_part 0 i))); [done| |].
    - split; [|done]. apply agree_part_start. intros r c ?. lia.
    - intros i [M1 st1] [M2 st2] Hi [H1 H2]. cbn in H1, H2. subst st2. split; [|done]. cbn.
      apply agree_part_set; [lia|done]. }
  destruct H as [H1 H2]. split; [|done]. by apply (agree_part_full 0).
Qed.
Lemma setup_row1_agree s s' : agree_st (agree 1) s s' ->
  agree_st (agree 2) (setup_row1 C s) (setup_row1 C s').
Proof.
  intros Hs.
  assert (H : agree_st (agree_part 1 (0 + C)) (setup_row1 C s) (setup_row1 C s')).
  { apply (foldl_rel_seqZ (fun i => agree_st (agree_part 1 i))); [done| |].
    - destruct Hs as [H1 H2]. split; [|done]. by apply agree_part_start.
    - intros i [M1 st1] [M2 st2] Hi [H1 H2]. cbn in H1, H2. subst st2.
      assert (M1 0 i = M2 0 i) as -> by (apply H1; lia). split; [|done]. cbn.
      apply agree_part_set; [lia|done]. }
  destruct H as [H1 H2]. split; [|done]. by apply (agree_part_full 1).
Qed.
Lemma setup_row_agree s s' row prev rowa : 0 <= prev < row -> 0 <= rowa < row ->
  agree_st (agree row) s s' ->
  agree_st (agree (row + 1)) (setup_row C row prev rowa s) (setup_row C row prev rowa s').
Proof.
  intros Hp Hra Hs.
  assert (H : agree_st (agree_part row (0 + C)) (setup_row C row prev rowa s) (setup_row C row prev rowa s')).
  { apply (foldl_rel_seqZ (fun i => agree_st (agree_part row i))); [done| |].
    - destruct Hs as [H1 H2]. split; [|done]. by apply agree_part_start.
    - intros i [M1 st1] [M2 st2] Hi [H1 H2]. cbn in H1, H2. subst st2.
      assert (M1 prev i = M2 prev i) as -> by (apply H1; lia).
      assert (M1 rowa i = M2 rowa i) as -> by (apply H1; lia). split; [|done]. cbn.
      set (st := round1 _).
      assert (Hset : forall M : matrix, set M row (C - 1 - i) (bxor (M2 prev i) (rate st)) rowa i = M rowa i).
      { intros M. unfold set. replace (rowa =? row) with false by lia. done. }
      rewrite !Hset. assert (M1 rowa i = M2 rowa i) as -> by (apply H1; lia).
      apply agree_part_set_low. apply agree_part_set; [lia|done]. }
  destruct H as [H1 H2]. split; [|done]. apply agree_part_full; [lia|done].
Qed.
Lemma setup_agree M M' st : 3 <= R ->
  agree_st (agree R) (setup R C (M, st)) (setup R C (M', st)).
Proof.
  intros HR. unfold setup, setup_rows.
  pose proof (setup_row1_agree _ _ (setup_row0_agree M M' st)) as H.
  pose proof (foldl_rel_seqZ (fun n => agree_st (agree n))
    (fun s row => setup_row C row (row - 1) (setup_rowa row) s) (R - 2) ltac:(lia) 2 _ _ H) as H'.
  replace (2 + (R - 2)) with R in H' by lia. apply H'.
  intros i s s' Hi Hs. pose proof (setup_rowa_lt i ltac:(lia)).
  apply setup_row_agree; [lia|lia|done].
Qed.
Lemma wander_row_agree s s' row prev rowa :
  0 <= row < R -> 0 <= prev < R -> 0 <= rowa < R -> agree_st (agree R) s s' ->
  agree_st (agree R) (wander_row C row prev rowa s) (wander_row C row prev rowa s').
Proof.
  intros Hr Hp Hra Hs.
  apply (foldl_rel_seqZ (fun _ => agree_st (agree R)) _ C HC 0 s s'); [done|].
  intros i [M1 st1] [M2 st2] Hi [H1 H2]. cbn in H1, H2. subst st2.
  assert (M1 prev i = M2 prev i) as -> by (apply H1; lia).
  assert (M1 rowa i = M2 rowa i) as -> by (apply H1; lia).
  assert (M1 row i = M2 row i) as -> by (apply H1; lia). split; [|done]. cbn.
  set (st := round1 _).
  assert (Hset : agree R (set M1 row i (bxor (M2 row i) (rate st))) (set M2 row i (bxor (M2 row i) (rate st)))).
  { by apply agree_set. }
  rewrite (Hset rowa i) by lia. by apply agree_set.
Qed.
Definition agree_w (s s' : wstate) : Prop :=
  let '(M, st, i, prev, rowa) := s in let '(M', st', i', prev', rowa') := s' in
  agree R M M' /\ st = st' /\ i = i' /\ prev = prev' /\ rowa = rowa' /\ 0 <= prev < R /\ 0 <= rowa < R.
Context (reduce : Z -> Z) (Hred : forall x, 0 <= reduce x < R) (choose : chooser).
Lemma wander_visit_agree s s' row : 0 <= row < R -> agree_w s s' ->
  agree_w (wander_visit C reduce choose s row) (wander_visit C reduce choose s' row).
Proof.
  intros Hrow. destruct s as [[[[M st] i] prev] rowa], s' as [[[[M' st'] i'] prev'] rowa'].
  intros (HA & <- & <- & <- & <- & Hp & Hra). unfold wander_visit.
  destruct (choose st i) as [w i1]. pose proof (Hred w).
  pose proof (wander_row_agree (M, st) (M', st) row prev (reduce w) Hrow Hp ltac:(lia) (conj HA eq_refl)) as [H1 H2].
  destruct (wander_row C row prev (reduce w) (M, st)) as [M1 st1],
           (wander_row C row prev (reduce w) (M', st)) as [M2 st2]. cbn in H1, H2.
  repeat split; try lia; done.
Qed.
Lemma visit_range n next row : (forall x, 0 <= next x < R) -> 0 <= row < R ->
  Forall (fun r => 0 <= r < R) (visit n next row).
Proof.
  intros Hn. revert row. induction n as [|n IH]; intros row Hrow; cbn [visit]; constructor; [done|].
  destruct (_ =? 0); [constructor|by apply IH].
Qed.
Lemma wander_agree t s s' : 3 <= R -> agree_st (agree R) s s' ->
  agree_w (wander R C reduce choose t s) (wander R C reduce choose t s').
Proof.
  intros HR. destruct s as [M st], s' as [M' st']. intros [HA Heq]. cbn in HA, Heq. subst st'.
  unfold wander. pose proof (setup_rowa_lt R ltac:(lia)).
  assert (Hall : Forall (fun r => 0 <= r < R) (seqZ 1 t ≫= pass_rows R reduce)).
  { apply Forall_bind, Forall_true. intros tau. apply visit_range; [|lia]. intros; apply Hred. }
  assert (Hinit : agree_w (M, st, 0, R - 1, setup_rowa R) (M', st, 0, R - 1, setup_rowa R)).
  { repeat split; try lia; done. }
  revert Hinit. generalize (M, st, 0, R - 1, setup_rowa R) (M', st, 0, R - 1, setup_rowa R).
  induction Hall as [|r l Hr Hl IH]; intros s s' Hs; [done|]. cbn [foldl].
  apply IH. by apply wander_visit_agree.
Qed.
End agree.

(** [lyra2_state] starting from any matrix. *)
Definition lyra2_state_from (M0 : matrix) (reduce : Z -> Z) (choose : chooser)
    (blocks : list (list Z)) (t R C : Z) : list Z :=
  let '(M, st, _, _, rowa) :=
    wander R C reduce choose t (setup R C (M0, absorb_all blocks)) in
  round12 (absorb st (M rowa 0)).
Lemma lyra2_state_from_blank M0 reduce choose blocks t R C :
  3 <= R -> 1 <= C -> (forall x, 0 <= reduce x < R) ->
  lyra2_state_from M0 reduce choose blocks t R C = lyra2_state reduce choose blocks t R C.
Proof.
  intros HR HC Hred. unfold lyra2_state_from, lyra2_state.
  pose proof (wander_agree R C ltac:(lia) reduce Hred choose t _ _ HR
                (setup_agree R C ltac:(lia) M0 blank (absorb_all blocks) HR)) as H.
  destruct (wander _ _ _ _ _ (setup R C (M0, _))) as [[[[M st] i] prev] rowa],
           (wander _ _ _ _ _ (setup R C (blank, _))) as [[[[M' st'] i'] prev'] rowa'].
  destruct H as (HA & <- & _ & _ & <- & _ & Hra). by rewrite (HA rowa 0) by lia.
Qed.

Section top.
Context (p : platform) (Hp : known_platform p).

Definition unflatten (C : Z) (m : list Z) : matrix :=
  fun r c => take 12 (drop (Z.to_nat (12 * (r * C + c))) m).
Lemma flat_unflatten R C m : 3 <= R -> 1 <= C -> 96 * R * C <= isize_max p ->
  vlen m = 12 * R * C -> Forall (word 64) m -> flat R C m (unflatten C m).
Proof.
  intros HR HC Hmax Hl Hw. split; [done|]. intros r c Hr Hc. unfold unflatten.
  pose proof (rc_bound R C HR HC r c Hr Hc) as Hb. split.
  - split; [|by apply Forall_take, Forall_drop]. rewrite take_length, drop_length. unfold vlen in Hl. lia.
  - intros j Hj. rewrite lookup_take by lia. rewrite lookup_drop. f_equal. unfold idx. lia.
Qed.

(** Everything before [squeeze] (lyra2.rs:245-648). *)
Definition before_squeeze (sel : MLyra2.selector) (k : Z) (pwd salt : list Z) (t R C : Z) : outcome (list Z) :=
  if t <? 1 then Panic else
  if R <? 3 then Panic else
  row_len <-- imul p MLyra2.BLOCKLENINT64 (as_i64 C) ;;
  total <-- imul p (as_i64 R) row_len ;;
  m <-- vec_zeroed p 8 (as_usize p total) ;;
  nblocks <-- MLyra2.n_blocks_input p pwd salt ;;
  m <-- MLyra2.write_input p k pwd salt t R C nblocks m ;;
  state <-- MLyra2.absorb_input p nblocks m MLyra2.init_state ;;
  '(m, state, v) <-- MLyra2.setup p row_len R C m state ;;
  '(m, state, _, _, _, rowa) <--
    MLyra2.wander p sel row_len t R C m state (MLyra2.r_prev v) (MLyra2.r_rowa v) ;;
  a <-- imul p rowa row_len ;;
  right <-- split_right m (as_usize p a) ;;
  MLyra2.absorb_block state right.
Lemma lyra2_with_before sel k pwd salt t R C :
  MLyra2.lyra2_with p sel k pwd salt t R C = obind (before_squeeze sel k pwd salt t R C) (fun st => MLyra2.squeeze p st k).
Proof.
  unfold MLyra2.lyra2_with, before_squeeze. destruct (t <? 1); [done|]. destruct (R <? 3); [done|].
  do 6 (rewrite obind_assoc; apply obind_ext; intros ? _).
  rewrite obind_assoc. apply obind_ext. intros [[m2 s2] v] _.
  rewrite obind_assoc. apply obind_ext. intros [[[[[m3 s3] ?] ?] ?] rowa] _.
  do 2 (rewrite obind_assoc; apply obind_ext; intros ? _). done.
Qed.
(** [k] is not restricted here. *)
Lemma before_squeeze_Ok sel choose k pwd salt t R C :
  sel_ok sel choose -> Forall byte pwd -> Forall byte salt ->
  0 <= t < 2 ^ 64 -> word 64 k -> accepted (isize_max p) 0 pwd salt t R C ->
  let st := lyra2_state (reduce_mask R) choose (code_blocks k pwd salt t R C) t R C in
  state16 st /\ before_squeeze sel k pwd salt t R C = Ok st.
Proof.
  intros Hsel Hbp Hbs Htw Hk (Ht & HR & _ & HC0 & Hsz & Hmax) st0. subst st0.
  pose proof (isize_usize p Hp) as Hi. pose proof (n_blocks_bounds pwd salt) as Hb.
  assert (HC : 1 <= C) by (destruct (Z.eq_dec C 0) as [->|]; lia).
  pose proof (L_bound p Hp R C HR HC Hmax) as HL. unfold L in HL.
  pose proof (vlen_nonneg pwd). pose proof (vlen_nonneg salt).
  unfold before_squeeze. rewrite (proj2 (Z.ltb_ge t 1)), (proj2 (Z.ltb_ge R 3)) by lia.
  unfold imul at 1, as_i64 at 1. rewrite wrap_i64_id by lia. unfold MLyra2.BLOCKLENINT64.
  rewrite chk_i64_Ok by lia. cbn [obind].
  unfold imul at 1, as_i64 at 1. rewrite wrap_i64_id by lia.
  replace (R * (12 * C)) with (12 * R * C) by lia. rewrite chk_i64_Ok by lia. cbn [obind].
  unfold as_usize at 1. rewrite Z.mod_small by lia.
  unfold vec_zeroed. rewrite (proj2 (Z.leb_le _ _)) by lia. cbn [obind].
  rewrite (n_blocks_input_Ok p Hp) by lia. cbn [obind].
  rewrite (write_input_Ok p Hp) by (done || lia). cbn [obind].
  set (m := input_matrix _ _ _ _ _ _ _).
  assert (Hml : vlen m = 12 * R * C) by (apply input_matrix_length; lia).
  assert (Hmw : Forall (word 64) m).
  { apply input_matrix_words; try done; unfold word; lia. }
  destruct (absorb_input_Ok p Hp (n_blocks pwd salt) m) as [-> Hst]; [lia|lia|lia|done|].
  cbn [obind].
  assert (Htake : take (Z.to_nat (8 * n_blocks pwd salt)) m = code_padded k pwd salt t R C).
  { apply input_matrix_take. lia. }
  rewrite Htake in *. fold (code_blocks k pwd salt t R C) in *.
  pose proof (flat_unflatten R C m HR HC Hmax Hml Hmw) as HF.
  destruct (setup_Ok p Hp R C HR HC Hmax m _ _ HF Hst) as (m1 & st1 & -> & HRel). cbn [obind].
  assert (Hrv : MLyra2.r_prev (rows_at R) = R - 1 /\ MLyra2.r_rowa (rows_at R) = setup_rowa R) by done.
  destruct Hrv as [-> ->].
  destruct (wander_Ok p Hp R C HR HC Hmax sel choose Hsel t (m1, st1) _ ltac:(lia) HRel) as (s2 & E & HW).
  cbn [fst snd] in E. rewrite E. cbn [obind].
  rewrite <- (lyra2_state_from_blank (unflatten C m)); [|done|done|].
  2:{ intros x. unfold reduce_mask. pose proof (land_le x (R - 1)). lia. }
  unfold lyra2_state_from.
  destruct (wander _ _ _ _ _ _) as [[[[M st] i] prev] rowa].
  destruct s2 as [[[[[m2 st2] i2] row2] prev2] rowa2].
  destruct HW as ((HF2 & Heq & Hst2) & _ & _ & _ & -> & _ & _ & Hra).
  cbn in HF2, Heq, Hst2. subst st2.
  pose proof (rc_bound R C HR HC rowa 0 Hra ltac:(lia)) as Hrc.
  assert (Hl2 := proj1 HF2). unfold L in Hl2.
  unfold imul. rewrite chk_i64_Ok by lia. cbn [obind].
  unfold as_usize. rewrite Z.mod_small by lia. rewrite split_right_Ok by lia. cbn [obind].
  assert (HM : take 12 (drop (Z.to_nat (rowa * (12 * C))) m2) = M rowa 0).
  { destruct HF2 as [_ HF2]. destruct (HF2 rowa 0 Hra ltac:(lia)) as [[Hbl _] HJ].
    apply list_eq. intros j. destruct (decide (j < 12)%nat).
    - rewrite lookup_take by lia. rewrite lookup_drop. specialize (HJ (Z.of_nat j) ltac:(lia)).
      rewrite Nat2Z.id in HJ. rewrite <- HJ. f_equal. unfold idx. lia.
    - rewrite lookup_take_ge by lia. symmetry. apply lookup_ge_None_2. lia. }
  destruct (absorb_block_Ok st (drop (Z.to_nat (rowa * (12 * C))) m2)) as [-> Hst3].
  - done.
  - rewrite drop_length. unfold vlen in Hl2. lia.
  - rewrite HM. by apply (flat_block R C m2 M rowa 0 HF2 Hra ltac:(lia)).
  - cbn [obind]. rewrite HM. rewrite HM in Hst3. split; [exact Hst3|reflexivity].
Qed.
Lemma lyra2_with_core sel choose k pwd salt t R C :
  sel_ok sel choose -> Forall byte pwd -> Forall byte salt ->
  0 <= t < 2 ^ 64 -> word 64 k -> accepted (isize_max p) 0 pwd salt t R C ->
  let st := lyra2_state (reduce_mask R) choose (code_blocks k pwd salt t R C) t R C in
  state16 st /\ MLyra2.lyra2_with p sel k pwd salt t R C = MLyra2.squeeze p st k.
Proof.
  intros H1 H2 H3 H4 H5 H6 st.
  destruct (before_squeeze_Ok sel choose k pwd salt t R C H1 H2 H3 H4 H5 H6) as [Hst E].
  split; [exact Hst|]. by rewrite lyra2_with_before, E.
Qed.
Lemma lyra2_with_Ok sel choose k pwd salt t R C :
  sel_ok sel choose -> Forall byte pwd -> Forall byte salt ->
  0 <= t < 2 ^ 64 -> accepted (isize_max p) k pwd salt t R C ->
  MLyra2.lyra2_with p sel k pwd salt t R C = Ok (Lyra2_code choose k pwd salt t R C).
Proof.
  intros Hsel Hbp Hbs Htw (Ht & HR & Hk & HC & Hsz).
  destruct (lyra2_with_core sel choose k pwd salt t R C Hsel Hbp Hbs Htw) as [Hst ->].
  - unfold word. lia.
  - unfold accepted. lia.
  - by apply (squeeze_Ok p Hp).
Qed.

Lemma sel_lyra2_ok : sel_ok MLyra2.sel_lyra2 choose_first.
Proof.
  intros st i Hst. unfold MLyra2.sel_lyra2, choose_first. rewrite aget_total by (destruct Hst; lia).
  split; [done|]. cbn [fst]. apply (state16_word st 0 Hst). lia.
Qed.
Lemma usize_land15 x : Z.land (as_usize p x) 0xf = x mod 16.
Proof.
  unfold as_usize. change 15 with (Z.ones 4). rewrite Z.land_ones by lia.
  change (2 ^ 4) with 16.
  assert (2 ^ usize_bits p = 2 ^ (usize_bits p - 4) * 16) as ->.
  { change 16 with (2 ^ 4). rewrite <- Z.pow_add_r by (pose proof (bits_ge p Hp); lia). f_equal. lia. }
  assert (0 < 2 ^ (usize_bits p - 4)) by (apply Z.pow_pos_nonneg; pose proof (bits_ge p Hp); lia).
  rewrite (Z.mul_comm (2 ^ (usize_bits p - 4)) 16). rewrite Z.rem_mul_r by lia.
  rewrite Z.mul_comm, Z.mod_add by lia. by rewrite Z.mod_mod by lia.
Qed.
Lemma sel_lyra2mod_ok : sel_ok (MLyra2.sel_lyra2mod p) choose_rev3.
Proof.
  intros st i Hst. unfold MLyra2.sel_lyra2mod, choose_rev3. destruct Hst as [Hl Hf] eqn:E.
  rewrite !usize_land15.
  assert (H16 : forall x, (Z.to_nat (x mod 16) < 16)%nat).
  { intros x. pose proof (Z.mod_pos_bound x 16). lia. }
  rewrite (aget_total st (Z.to_nat (i mod 16))) by (rewrite Hl; apply H16). cbv zeta.
  rewrite aget_total by (rewrite Hl; apply H16).
  split; [done|]. cbn [fst]. apply (state16_word st _ (conj Hl Hf)). apply H16.
Qed.
End top.
