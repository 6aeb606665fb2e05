(** * The model of lyra2 refines the matrix specification (accepted calls) *)
From Verif Require Import Machine MachineFacts MUtils WordFacts.
From Verif Require Import SpecWord SpecBlake2b SpecLyra2.
From Verif Require MLyra2.
Import MLyra2 (cell, cell0, cell1_rev, cell_rev, offs12, rotW_pairs).

#[local] Opaque blake2b_round.
Lemma round1_state16 v : state16 v -> state16 (round1 v).
Proof. apply blake2b_round_state16. Qed.
Lemma reduced_spec v : state16 v -> MLyra2.reduced_blake2b_lyra v = round1 v.
Proof. apply round_lyra_spec. Qed.

(** ** A group of assignments [m[dst] = F (m[src])] *)
Lemma foldM_update {A} (l : list A) (src dst : A -> Z) (F : A -> Z -> Z) m :
  NoDup l ->
  (forall a, a ∈ l -> 0 <= src a < vlen m /\ 0 <= dst a < vlen m) ->
  (forall a b, a ∈ l -> b ∈ l -> dst a = dst b -> a = b) ->
  (forall a b, a ∈ l -> b ∈ l -> src a = dst b -> a = b) ->
  exists m',
    foldM (fun m a => x <-- vget m (src a) ;; vset m (dst a) (F a x)) l m = Ok m' /\
    vlen m' = vlen m /\
    (forall a, a ∈ l -> m' !! Z.to_nat (dst a) = Some (F a (m !!! Z.to_nat (src a)))) /\
    (forall i, (forall a, a ∈ l -> i <> Z.to_nat (dst a)) -> m' !! i = m !! i).
Proof.
  revert m. induction l as [|a l IH]; intros m Hnd Hb Hdd Hsd.
  - exists m. repeat split; auto. intros a Ha. by apply elem_of_nil in Ha.
  - apply list.NoDup_cons in Hnd as [Hna Hnd].
    destruct (Hb a) as [Hs Hd]; [by left|].
    cbn [foldM]. rewrite vget_Ok by done. cbn [obind]. rewrite vset_Ok by done. cbn [obind].
    destruct (IH (<[Z.to_nat (dst a):=F a (m !!! Z.to_nat (src a))]> m)) as (m' & E & Hl & Hw & Hu).
    + done.
    + intros b Hbl. unfold vlen. rewrite insert_length. apply Hb. by right.
    + intros b c ??. apply Hdd; by right.
    + intros b c ??. apply Hsd; by right.
    + exists m'. split; [done|]. split; [rewrite Hl; unfold vlen; by rewrite insert_length|]. split.
      * intros b Hbl. apply elem_of_cons in Hbl as [->|Hbl].
        -- rewrite Hu.
           ++ apply list_lookup_insert. unfold vlen in Hd. lia.
           ++ intros b Hbl Heq. apply Hna. rewrite (Hdd a b); [done|by left|by right|].
              destruct (Hb b) as [_ ?]; [by right|]. lia.
        -- rewrite Hw by done. f_equal. f_equal.
           rewrite list_lookup_total_insert_ne; [done|]. intros Heq.
           assert (b = a); [|by subst].
           apply Hsd; [by right|by left|]. destruct (Hb b) as [? _]; [by right|]. lia.
      * intros i Hi. rewrite Hu.
        -- apply list_lookup_insert_ne. intros <-. by apply (Hi a); [left|].
        -- intros b Hbl. apply Hi. by right.
Qed.

Lemma offs12_elem j : j ∈ offs12 <-> 0 <= j < 12.
Proof.
  split.
  - intros H. unfold offs12 in H. repeat (apply elem_of_cons in H as [->|H]; [lia|]). by apply elem_of_nil in H.
  - intros H. unfold offs12. rewrite !elem_of_cons. lia.
Qed.
Lemma offs12_NoDup : NoDup offs12.
Proof. apply (bool_decide_unpack _). vm_compute. exact I. Qed.
Lemma rotW_pairs_NoDup : NoDup rotW_pairs.
Proof. apply (bool_decide_unpack _). vm_compute. exact I. Qed.
Lemma rotW_pairs_elem j s : (j, s) ∈ rotW_pairs -> 0 <= j < 12 /\ (s < 12)%nat /\ s = Z.to_nat ((j + 11) mod 12).
Proof.
  intros H. unfold rotW_pairs in H.
  repeat (apply elem_of_cons in H as [[= -> ->]|H]; [repeat split; cbn; lia|]). by apply elem_of_nil in H.
Qed.
Lemma rotW_pairs_has j : 0 <= j < 12 -> exists s, (j, s) ∈ rotW_pairs.
Proof.
  intros H. exists (Z.to_nat ((j + 11) mod 12)).
  assert (j = 0 \/ j = 1 \/ j = 2 \/ j = 3 \/ j = 4 \/ j = 5 \/ j = 6 \/ j = 7 \/ j = 8 \/ j = 9 \/ j = 10 \/ j = 11) as Hj by lia.
  unfold rotW_pairs. rewrite !elem_of_cons.
  repeat (destruct Hj as [->|Hj]; [vm_compute; tauto|]). subst. vm_compute. tauto.
Qed.

(** ** Blocks *)
Definition block12 (b : block) : Prop := length b = 12%nat /\ Forall (word 64) b.

Lemma bxor_block12 a b : block12 a -> block12 b -> block12 (bxor a b).
Proof.
  intros [Ha Fa] [Hb Fb]. split; [unfold bxor; rewrite zip_with_length; lia|].
  unfold bxor. clear Ha Hb. revert b Fb. induction Fa as [|x a Hx Fa IH]; intros b Fb; [constructor|].
  destruct Fb as [|y b Hy Fb]; [constructor|]. simpl. constructor; [by apply word_lxor|by apply IH].
Qed.
Lemma badd_block12 a b : block12 a -> block12 b -> block12 (badd a b).
Proof.
  intros [Ha Fa] [Hb Fb]. split; [unfold badd; rewrite zip_with_length; lia|].
  unfold badd. clear Ha Hb. revert b Fb. induction Fa as [|x a Hx Fa IH]; intros b Fb; [constructor|].
  destruct Fb as [|y b Hy Fb]; [constructor|]. simpl. constructor; [by apply word_addw|by apply IH].
Qed.
Lemma rate_block12 st : state16 st -> block12 (rate st).
Proof.
  intros [Hl Hf]. split; [unfold rate; rewrite take_length; lia|by apply Forall_take].
Qed.
Lemma rotW_block12 b : block12 b -> block12 (rotW b).
Proof.
  intros [Hl Hf]. split; [unfold rotW; rewrite app_length, drop_length, take_length; lia|].
  apply Forall_app; split; [by apply Forall_drop|by apply Forall_take].
Qed.
Lemma absorb_state16 st b :
  state16 st -> (length b <= 16)%nat -> Forall (word 64) b -> state16 (absorb st b).
Proof.
  intros [Hl Hf] Hb Fb. unfold absorb. split.
  - rewrite app_length, zip_with_length, take_length, drop_length. lia.
  - apply Forall_app; split; [|by apply Forall_drop].
    apply (Forall_take _ (length b)) in Hf. revert Hf. generalize (take (length b) st). clear -Fb.
    induction Fb as [|y b Hy Fb IH]; intros [|x a] Fa; simpl; constructor.
    + apply Forall_cons_1 in Fa as [? ?]. by apply word_lxor.
    + apply IH. by apply Forall_cons_1 in Fa as [? ?].
Qed.
Lemma absorb12_state16 st b : state16 st -> block12 b -> state16 (absorb st b).
Proof. intros Hs [Hl Hf]. apply absorb_state16; [done|lia|done]. Qed.

Lemma foldM_absorb (f : list Z -> Z -> outcome (list Z)) xs st :
  length st = 16%nat -> length xs = 12%nat ->
  (forall st j, length st = 16%nat -> 0 <= j < 12 ->
     f st j = Ok (<[Z.to_nat j := Z.lxor (aget st (Z.to_nat j)) (xs !!! Z.to_nat j)]> st)) ->
  foldM f offs12 st = Ok (absorb st xs).
Proof.
  intros Hst Hxs Hf.
  do 13 (destruct xs as [|? xs]; try discriminate Hxs).
  do 17 (destruct st as [|? st]; try discriminate Hst).
  unfold offs12. cbn [foldM].
  do 12 (rewrite Hf by (reflexivity || lia);
    lazy [obind insert list_insert aget nth Z.to_nat Pos.to_nat Pos.iter_op Nat.add
          lookup_total list_lookup_total]). reflexivity.
Qed.

Lemma vset_vget m i v : vset m i v = (_ <-- vget m i ;; vset m i v).
Proof. unfold vset, vget. by destruct (_ && _). Qed.

Section refine.
Context (p : platform) (Hp : known_platform p) (R C : Z).
Context (HR : 3 <= R) (HC : 1 <= C) (Hmax : 96 * R * C <= isize_max p).

Definition idx (r c j : Z) : Z := 12 * (r * C + c) + j.
Definition L : Z := 12 * R * C.
Notation row_len := (12 * C).

Lemma L_bound : 3 <= R * C /\ R <= R * C /\ C <= R * C /\ 8 * L < 2 ^ 63 /\ 8 * L < 2 ^ usize_bits p /\ L = 12 * (R * C).
Proof.
  unfold L. unfold isize_max in Hmax.
  assert (3 <= R * C) by nia. assert (R <= R * C) by nia. assert (C <= R * C) by nia.
  repeat split; try lia.
  - destruct Hp as [E|E]; rewrite E in Hmax; cbn in Hmax; lia.
  - destruct Hp as [E|E]; rewrite E in *; cbn in Hmax; lia.
Qed.
Lemma rc_bound r c : 0 <= r < R -> 0 <= c < C -> 0 <= r * C + c < R * C.
Proof. intros. nia. Qed.
Lemma idx_bound r c j : 0 <= r < R -> 0 <= c < C -> 0 <= j < 12 -> 0 <= idx r c j < L.
Proof. intros Hr Hc Hj. pose proof (rc_bound r c Hr Hc). unfold idx, L. lia. Qed.
Lemma idx_inj r c j r' c' j' :
  0 <= c < C -> 0 <= j < 12 -> 0 <= c' < C -> 0 <= j' < 12 ->
  idx r c j = idx r' c' j' -> r = r' /\ c = c' /\ j = j'.
Proof.
  unfold idx. intros Hc Hj Hc' Hj' E.
  assert (j = j') by lia. assert (r * C + c = r' * C + c') by lia.
  assert (r = r') by nia. subst. lia.
Qed.
Lemma as_usize_id x : 0 <= x < L -> as_usize p x = x.
Proof. intros H. pose proof L_bound. unfold as_usize. apply Z.mod_small. lia. Qed.

(** Index expressions *)
Lemma cell_Ok r c j : 0 <= r < R -> 0 <= c < C -> 0 <= j < 12 ->
  cell p row_len c r j = Ok (idx r c j).
Proof.
  intros Hr Hc Hj. pose proof L_bound. pose proof (rc_bound r c Hr Hc).
  pose proof (idx_bound r c j Hr Hc Hj) as Hi.
  assert (0 <= r * C < R * C) by nia. assert (r * (12 * C) = 12 * (r * C)) as E by lia.
  unfold cell, imul, iadd, as_i64, MLyra2.BLOCKLENINT64. rewrite wrap_i64_id by lia.
  rewrite chk_i64_Ok by lia. cbn [obind]. rewrite E, chk_i64_Ok by lia. cbn [obind].
  rewrite chk_i64_Ok by lia. cbn [obind]. rewrite chk_i64_Ok by lia. cbn [obind].
  replace (c * 12 + 12 * (r * C) + j) with (idx r c j) by (unfold idx; lia).
  by rewrite as_usize_id.
Qed.
Lemma cell0_Ok c j : 0 <= c < C -> 0 <= j < 12 -> cell0 p c j = Ok (idx 0 c j).
Proof.
  intros Hc Hj. pose proof L_bound. pose proof (idx_bound 0 c j ltac:(lia) Hc Hj) as Hi.
  unfold cell0, imul, iadd, as_i64, MLyra2.BLOCKLENINT64. rewrite wrap_i64_id by lia.
  rewrite chk_i64_Ok by lia. cbn [obind]. rewrite chk_i64_Ok by lia. cbn [obind].
  replace (c * 12 + j) with (idx 0 c j) by (unfold idx; lia).
  by rewrite as_usize_id.
Qed.
Lemma cell_rev_Ok r c j : 0 <= r < R -> 0 <= c < C -> 0 <= j < 12 ->
  cell_rev p row_len C c r j = Ok (idx r (C - 1 - c) j).
Proof.
  intros Hr Hc Hj. pose proof L_bound. pose proof (rc_bound r (C - 1 - c) Hr ltac:(lia)).
  pose proof (idx_bound r (C - 1 - c) j Hr ltac:(lia) Hj) as Hi.
  assert (0 <= r * C < R * C) by nia. assert (r * (12 * C) = 12 * (r * C)) as E by lia.
  unfold cell_rev, usub, imul, iadd, as_i64, MLyra2.BLOCKLENINT64.
  rewrite chk_u64_Ok by lia. cbn [obind]. rewrite chk_u64_Ok by lia. cbn [obind].
  rewrite wrap_i64_id by lia.
  rewrite chk_i64_Ok by lia. cbn [obind]. rewrite E, chk_i64_Ok by lia. cbn [obind].
  rewrite chk_i64_Ok by lia. cbn [obind]. rewrite chk_i64_Ok by lia. cbn [obind].
  replace ((C - c - 1) * 12 + 12 * (r * C) + j) with (idx r (C - 1 - c) j) by (unfold idx; lia).
  by rewrite as_usize_id.
Qed.
Lemma cell1_rev_Ok c j : 0 <= c < C -> 0 <= j < 12 ->
  cell1_rev p row_len C c j = Ok (idx 1 (C - 1 - c) j).
Proof.
  intros Hc Hj. pose proof L_bound.
  pose proof (idx_bound 1 (C - 1 - c) j ltac:(lia) ltac:(lia) Hj) as Hi.
  unfold cell1_rev, usub, imul, iadd, as_i64, MLyra2.BLOCKLENINT64.
  rewrite chk_u64_Ok by lia. cbn [obind]. rewrite chk_u64_Ok by lia. cbn [obind].
  rewrite wrap_i64_id by lia.
  rewrite chk_i64_Ok by lia. cbn [obind].
  rewrite chk_i64_Ok by lia. cbn [obind]. rewrite chk_i64_Ok by lia. cbn [obind].
  replace ((C - c - 1) * 12 + 12 * C + j) with (idx 1 (C - 1 - c) j) by (unfold idx; lia).
  by rewrite as_usize_id.
Qed.

(** ** Flat vector and matrix *)
Definition flat (m : list Z) (M : matrix) : Prop :=
  vlen m = L /\
  forall r c, 0 <= r < R -> 0 <= c < C ->
    block12 (M r c) /\
    forall j, 0 <= j < 12 -> m !! Z.to_nat (idx r c j) = M r c !! Z.to_nat j.

Lemma flat_block m M r c : flat m M -> 0 <= r < R -> 0 <= c < C -> block12 (M r c).
Proof. intros [_ H] ??. by apply H. Qed.
Lemma flat_get m M r c j : flat m M -> 0 <= r < R -> 0 <= c < C -> 0 <= j < 12 ->
  m !!! Z.to_nat (idx r c j) = M r c !!! Z.to_nat j.
Proof.
  intros [_ H] ???. destruct (H r c) as [_ Hj]; auto.
  rewrite !list_lookup_total_alt. by rewrite Hj.
Qed.
Lemma flat_vget m M r c j : flat m M -> 0 <= r < R -> 0 <= c < C -> 0 <= j < 12 ->
  vget m (idx r c j) = Ok (M r c !!! Z.to_nat j).
Proof.
  intros HF ???. rewrite vget_Ok; [by rewrite (flat_get m M)|].
  destruct HF as [-> _]. by apply idx_bound.
Qed.
Lemma flat_write m M m' r c b :
  flat m M -> 0 <= r < R -> 0 <= c < C -> block12 b ->
  vlen m' = vlen m ->
  (forall j, 0 <= j < 12 -> m' !! Z.to_nat (idx r c j) = b !! Z.to_nat j) ->
  (forall i, (forall j, 0 <= j < 12 -> i <> Z.to_nat (idx r c j)) -> m' !! i = m !! i) ->
  flat m' (set M r c b).
Proof.
  intros [Hl HF] Hr Hc Hb Hl' Hw Hu. split; [congruence|].
  intros r' c' Hr' Hc'. unfold set.
  destruct ((r' =? r) && (c' =? c)) eqn:E.
  - apply andb_true_iff in E as [->%Z.eqb_eq ->%Z.eqb_eq]. done.
  - destruct (HF r' c' Hr' Hc') as [HB HJ]. split; [done|]. intros j Hj.
    rewrite Hu; [by apply HJ|]. intros j' Hj' Heq.
    pose proof (idx_bound r c j' Hr Hc Hj'). pose proof (idx_bound r' c' j Hr' Hc' Hj).
    assert (idx r' c' j = idx r c j') as E' by lia.
    apply idx_inj in E' as (-> & -> & _); [|lia..].
    by rewrite !Z.eqb_refl in E.
Qed.

(** [M[row'][col'] = F(M[row][col])] word by word. *)
Lemma group_gen m M r c r' c' (F : Z -> Z -> Z) b :
  flat m M -> block12 b ->
  0 <= r < R -> 0 <= c < C -> 0 <= r' < R -> 0 <= c' < C ->
  (forall j, 0 <= j < 12 -> b !! Z.to_nat j = Some (F j (M r c !!! Z.to_nat j))) ->
  exists m',
    foldM (fun m j => x <-- vget m (idx r c j) ;; vset m (idx r' c' j) (F j x)) offs12 m = Ok m' /\
    flat m' (set M r' c' b).
Proof.
  intros HF HB Hr Hc Hr' Hc' Hb. assert (Hl := proj1 HF).
  destruct (foldM_update offs12 (idx r c) (idx r' c') F m) as (m' & E & Hl' & Hw & Hu).
  - apply offs12_NoDup.
  - intros j Hj%offs12_elem. rewrite Hl. split; by apply idx_bound.
  - intros x y Hx%offs12_elem Hy%offs12_elem H. apply idx_inj in H; tauto || lia.
  - intros x y Hx%offs12_elem Hy%offs12_elem H. apply idx_inj in H; tauto || lia.
  - exists m'. split; [exact E|]. apply (flat_write m M); auto.
    + intros j Hj. rewrite Hw by (by apply offs12_elem). rewrite Hb by done.
      by rewrite (flat_get m M).
    + intros i Hi. apply Hu. intros j Hj. apply Hi. by apply offs12_elem.
Qed.

(** [M[r'][c'] = M[r][c] ^ state] (lyra2.rs:388-411, 473-496, 603-614) *)
Lemma group12 m M st r c r' c' :
  flat m M -> state16 st ->
  0 <= r < R -> 0 <= c < C -> 0 <= r' < R -> 0 <= c' < C ->
  exists m',
    foldM (fun m j => x <-- vget m (idx r c j) ;;
             vset m (idx r' c' j) (Z.lxor x (aget st (Z.to_nat j)))) offs12 m = Ok m' /\
    flat m' (set M r' c' (bxor (M r c) (rate st))).
Proof.
  intros HF Hst Hr Hc Hr' Hc'.
  apply (group_gen m M r c r' c' (fun j x => Z.lxor x (aget st (Z.to_nat j)))); auto.
  - apply bxor_block12; [by eapply flat_block|by apply rate_block12].
  - intros j Hj. destruct (flat_block m M r c HF Hr Hc) as [HMl HMw]. destruct Hst as [Hsl Hsw].
    unfold bxor, rate. rewrite lookup_zip_with.
    rewrite (list_lookup_lookup_total_lt (M r c)) by lia. cbn [mbind option_bind].
    rewrite lookup_take by lia. rewrite (list_lookup_lookup_total_lt st) by lia.
    cbn [mbind option_bind]. by rewrite aget_total by lia.
Qed.
(** [M[r][c] = state] (lyra2.rs:348-359) *)
Lemma group12_store m M st r c :
  flat m M -> state16 st -> 0 <= r < R -> 0 <= c < C ->
  exists m',
    foldM (fun m j => vset m (idx r c j) (aget st (Z.to_nat j))) offs12 m = Ok m' /\
    flat m' (set M r c (rate st)).
Proof.
  intros HF Hst Hr Hc.
  rewrite (foldM_ext _ (fun m j => x <-- vget m (idx r c j) ;;
                          vset m (idx r c j) ((fun j _ => aget st (Z.to_nat j)) j x))).
  2:{ intros s j _. apply vset_vget. }
  apply (group_gen m M r c r c (fun j _ => aget st (Z.to_nat j))); auto.
  - by apply rate_block12.
  - intros j Hj. destruct Hst as [Hsl Hsw]. unfold rate.
    rewrite lookup_take by lia. rewrite (list_lookup_lookup_total_lt st) by lia.
    by rewrite aget_total by lia.
Qed.

(** The rotated group (lyra2.rs:499-510, 617-628). *)
Lemma xor_rotW_Ok m M st r c :
  flat m M -> state16 st -> 0 <= r < R -> 0 <= c < C ->
  exists m', MLyra2.xor_rotW p row_len c r st m = Ok m' /\
             flat m' (set M r c (bxor (M r c) (rotW (rate st)))).
Proof.
  intros HF Hst Hr Hc. unfold MLyra2.xor_rotW.
  rewrite (foldM_ext _ (fun m a => x <-- vget m (idx r c a.1) ;;
                          vset m (idx r c a.1) ((fun a x => Z.lxor x (aget st a.2)) a x))).
  2:{ intros s [j k] Hj%rotW_pairs_elem. rewrite cell_Ok by tauto. done. }
  assert (Hl := proj1 HF).
  assert (Hinj : forall a b, a ∈ rotW_pairs -> b ∈ rotW_pairs -> idx r c a.1 = idx r c b.1 -> a = b).
  { intros [j k] [j' k'] Ha%rotW_pairs_elem Hb%rotW_pairs_elem H. cbn in H.
    apply idx_inj in H as (_ & _ & ->); try tauto || lia.
    f_equal. destruct Ha as (_ & _ & ->), Hb as (_ & _ & ->). done. }
  destruct (foldM_update rotW_pairs (fun a => idx r c a.1) (fun a => idx r c a.1)
              (fun a x => Z.lxor x (aget st a.2)) m)
    as (m' & E & Hl' & Hw & Hu).
  - apply rotW_pairs_NoDup.
  - intros [j k] Hj%rotW_pairs_elem. rewrite Hl. split; apply idx_bound; tauto.
  - done.
  - done.
  - exists m'. split; [exact E|].
    destruct (flat_block m M r c HF Hr Hc) as [HMl HMw].
    pose proof (rotW_block12 _ (rate_block12 st Hst)) as HB.
    apply (flat_write m M); auto.
    + by apply bxor_block12.
    + intros j Hj. destruct (rotW_pairs_has j Hj) as [s Hs].
      pose proof (Hw _ Hs) as Hw'. cbn in Hw'. rewrite Hw'.
      rewrite (flat_get m M) by done. unfold bxor. rewrite lookup_zip_with.
      rewrite (list_lookup_lookup_total_lt (M r c)) by lia. cbn [mbind option_bind].
      rewrite (list_lookup_lookup_total_lt (rotW (rate st))) by (destruct HB; lia).
      cbn [mbind option_bind]. f_equal. f_equal.
      destruct Hst as [Hsl _]. apply rotW_pairs_elem in Hs as (_ & Hs12 & Hs).
      rewrite aget_total by lia. unfold rotW, rate. rewrite Hs.
      do 17 (destruct st as [|? st]; try discriminate Hsl).
      assert (j = 0 \/ j = 1 \/ j = 2 \/ j = 3 \/ j = 4 \/ j = 5 \/ j = 6 \/ j = 7 \/ j = 8 \/ j = 9 \/ j = 10 \/ j = 11) as Hj' by lia.
      repeat (destruct Hj' as [->|Hj']; [reflexivity|]). subst. reflexivity.
    + intros i Hi. apply Hu. intros [j k] Hj%rotW_pairs_elem. apply Hi. tauto.
Qed.

Lemma absorb_sum_Ok m M st r r' c :
  flat m M -> state16 st -> 0 <= r < R -> 0 <= r' < R -> 0 <= c < C ->
  MLyra2.absorb_sum p row_len c r r' m st = Ok (absorb st (badd (M r c) (M r' c))).
Proof.
  intros HF [Hsl _] Hr Hr' Hc. unfold MLyra2.absorb_sum.
  destruct (flat_block m M r c HF Hr Hc) as [HMl _].
  destruct (flat_block m M r' c HF Hr' Hc) as [HMl' _].
  apply foldM_absorb; [done|unfold badd; rewrite zip_with_length; lia|].
  intros s j Hs Hj. rewrite !cell_Ok by done. cbn [obind].
  rewrite !(flat_vget m M) by done. cbn [obind].
  do 3 f_equal. unfold badd, wadd. rewrite Z.land_ones by lia. symmetry. apply list_lookup_total_correct.
  rewrite lookup_zip_with.
  by rewrite (list_lookup_lookup_total_lt (M r c)), (list_lookup_lookup_total_lt (M r' c)) by lia.
Qed.

Definition Rel (s : list Z * list Z) (t : matrix * list Z) : Prop :=
  flat s.1 t.1 /\ s.2 = t.2 /\ state16 t.2.

Lemma cols_range : C - 0 < 2 ^ 64.
Proof. pose proof L_bound. lia. Qed.
Lemma cols_elem c : c ∈ seqZ 0 C <-> 0 <= c < C.
Proof. rewrite elem_of_seqZ. lia. Qed.

(** ** Row 0 *)
Lemma squeeze_row0_loop n : 0 <= n -> forall lo m M st ptr,
  flat m M -> state16 st -> lo + n = C -> 0 <= lo -> ptr = (C - 1 - lo) * 12 ->
  exists m' st' ptr',
    foldM (fun '(m, state, ptr) (_ : Z) =>
      m <-- foldM (fun m j => a <-- iadd p ptr j ;;
                   vset m (as_usize p a) (aget state (Z.to_nat j))) offs12 m ;;
      Ok (m, MLyra2.reduced_blake2b_lyra state, wrap_i64 (ptr - 12))) (seqZ lo n) (m, st, ptr)
    = Ok (m', st', ptr') /\
    Rel (m', st') (foldl (λ '(M, st) col, (set M 0 (C - 1 - col) (rate st), round1 st)) (M, st) (seqZ lo n)).
Proof.
  pose proof L_bound as HL.
  intros Hn. pattern n. apply natlike_ind; [| |done]; clear n Hn.
  - intros lo m M st ptr HF Hst _ _ _. rewrite seqZ_nil by lia. by eexists _, _, _.
  - intros n Hn IH lo m M st ptr HF Hst Hlo Hlo0 Hptr.
    rewrite seqZ_cons by lia. rewrite Z.pred_succ. cbn [foldM foldl].
    rewrite (foldM_ext _ (fun m j => vset m (idx 0 (C - 1 - lo) j) (aget st (Z.to_nat j)))).
    2:{ intros s j Hj%offs12_elem. unfold iadd. rewrite chk_i64_Ok by lia. cbn [obind].
        pose proof (idx_bound 0 (C - 1 - lo) j ltac:(lia) ltac:(lia) Hj).
        replace (ptr + j) with (idx 0 (C - 1 - lo) j) by (unfold idx; lia).
        by rewrite as_usize_id. }
    destruct (group12_store m M st 0 (C - 1 - lo)) as (m1 & -> & HF1); [done|done|lia|lia|].
    cbn [obind].
    assert (MLyra2.reduced_blake2b_lyra st = round1 st) as -> by by apply reduced_spec.
    apply IH; [done|by apply blake2b_round_state16|lia|lia|].
    rewrite wrap_i64_id by lia. lia.
Qed.
Lemma squeeze_row0_Ok m M st : flat m M -> state16 st ->
  exists s', MLyra2.squeeze_row0 p C m st = Ok s' /\ Rel s' (setup_row0 C (M, st)).
Proof.
  intros HF Hst. pose proof L_bound as HL.
  unfold MLyra2.squeeze_row0, isub, imul, as_i64, MLyra2.BLOCKLENINT64.
  rewrite wrap_i64_id by lia. rewrite chk_i64_Ok by lia. cbn [obind].
  rewrite chk_i64_Ok by lia. cbn [obind].
  rewrite for_range_foldM by apply cols_range.
  unfold setup_row0, cols. rewrite Z.sub_0_r.
  destruct (squeeze_row0_loop C ltac:(lia) 0 m M st ((C - 1) * 12)) as (m' & st' & ptr' & E & HRel);
    [done|done|lia|lia|lia|].
  exists (m', st'). split; [|done].
  erewrite foldM_ext; [rewrite E; reflexivity|]. by intros [[??]?] j _.
Qed.

(** ** Row 1 *)
Lemma duplex_row1_Ok s t : Rel s t ->
  exists s', MLyra2.duplex_row1 p row_len C s.1 s.2 = Ok s' /\ Rel s' (setup_row1 C t).
Proof.
  intros HRel. pose proof L_bound as HL. unfold MLyra2.duplex_row1, setup_row1, cols.
  rewrite for_range_foldM by apply cols_range. rewrite Z.sub_0_r.
  destruct s as [m st]. cbn [fst snd].
  apply foldM_sim; [done|]. clear HRel m st t.
  intros [m st] [M st'] c Hc%cols_elem (HF & Heq & Hst). cbn in HF, Heq, Hst. subst st'.
  destruct (flat_block m M 0 c HF ltac:(lia) Hc) as [HMl HMw].
  rewrite (foldM_absorb _ (M 0 c)); [|by destruct Hst|done|].
  2:{ intros st' j _ Hj. rewrite cell0_Ok by done. cbn [obind].
      by rewrite (flat_vget m M) by (done || lia). }
  cbn [obind].
  assert (Hst1 : state16 (absorb st (M 0 c))) by by apply absorb12_state16.
  assert (MLyra2.reduced_blake2b_lyra (absorb st (M 0 c)) = round1 (absorb st (M 0 c))) as ->
    by by apply reduced_spec.
  apply round1_state16 in Hst1.
  set (st1 := round1 _) in *.
  erewrite foldM_ext.
  2:{ intros s j Hj%offs12_elem. rewrite cell0_Ok by done. cbn [obind].
      rewrite cell1_rev_Ok by done. cbn [obind]. reflexivity. }
  destruct (group12 m M st1 0 c 1 (C - 1 - c)) as (m' & -> & HF'); [done|done|lia..|].
  cbn [obind]. eexists. split; [reflexivity|]. split; done.
Qed.

(** ** Rows of the setup phase *)
Lemma duplex_row_setup_Ok s t row prev rowa : Rel s t ->
  0 <= row < R -> 0 <= prev < R -> 0 <= rowa < R ->
  exists s', MLyra2.duplex_row_setup p row_len C row prev rowa s.1 s.2 = Ok s' /\
             Rel s' (setup_row C row prev rowa t).
Proof.
  intros HRel Hrow Hprev Hrowa. pose proof L_bound as HL.
  unfold MLyra2.duplex_row_setup, setup_row, cols.
  rewrite for_range_foldM by apply cols_range. rewrite Z.sub_0_r.
  destruct s as [m st]. cbn [fst snd].
  apply foldM_sim; [done|]. clear HRel m st t.
  intros [m st] [M st'] c Hc%cols_elem (HF & Heq & Hst). cbn in HF, Heq, Hst. subst st'.
  rewrite (absorb_sum_Ok m M) by done. cbn [obind].
  set (b := badd (M prev c) (M rowa c)).
  assert (Hb : block12 b) by (apply badd_block12; by eapply flat_block).
  assert (Hst1 : state16 (absorb st b)) by by apply absorb12_state16.
  assert (MLyra2.reduced_blake2b_lyra (absorb st b) = round1 (absorb st b)) as ->
    by by apply reduced_spec.
  apply round1_state16 in Hst1.
  set (st1 := round1 _) in *.
  erewrite foldM_ext.
  2:{ intros s j Hj%offs12_elem. rewrite cell_Ok by done. cbn [obind].
      rewrite cell_rev_Ok by done. cbn [obind]. reflexivity. }
  destruct (group12 m M st1 prev c row (C - 1 - c)) as (m' & -> & HF'); [done|done|lia..|].
  cbn [obind].
  destruct (xor_rotW_Ok m' _ st1 rowa c HF') as (m'' & -> & HF''); [done..|].
  cbn [obind]. eexists. split; [reflexivity|]. split; done.
Qed.

(** ** Rows of the wandering phase *)
Lemma duplex_row_Ok s t row prev rowa : Rel s t ->
  0 <= row < R -> 0 <= prev < R -> 0 <= rowa < R ->
  exists s', MLyra2.duplex_row p row_len C row prev rowa s.1 s.2 = Ok s' /\
             Rel s' (wander_row C row prev rowa t).
Proof.
  intros HRel Hrow Hprev Hrowa. pose proof L_bound as HL.
  unfold MLyra2.duplex_row, wander_row, cols.
  rewrite for_range_foldM by apply cols_range. rewrite Z.sub_0_r.
  destruct s as [m st]. cbn [fst snd].
  apply foldM_sim; [done|]. clear HRel m st t.
  intros [m st] [M st'] c Hc%cols_elem (HF & Heq & Hst). cbn in HF, Heq, Hst. subst st'.
  rewrite (absorb_sum_Ok m M) by done. cbn [obind].
  set (b := badd (M prev c) (M rowa c)).
  assert (Hb : block12 b) by (apply badd_block12; by eapply flat_block).
  assert (Hst1 : state16 (absorb st b)) by by apply absorb12_state16.
  assert (MLyra2.reduced_blake2b_lyra (absorb st b) = round1 (absorb st b)) as ->
    by by apply reduced_spec.
  apply round1_state16 in Hst1.
  set (st1 := round1 _) in *.
  erewrite foldM_ext.
  2:{ intros s j Hj%offs12_elem. rewrite cell_Ok by done. cbn [obind]. reflexivity. }
  destruct (group12 m M st1 row c row c) as (m' & -> & HF'); [done|done|lia..|].
  cbn [obind].
  destruct (xor_rotW_Ok m' _ st1 rowa c HF') as (m'' & -> & HF''); [done..|].
  cbn [obind]. eexists. split; [reflexivity|]. split; done.
Qed.
End refine.
