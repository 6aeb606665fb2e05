(** * Counting the words that choose a row (lemmas for PRowChoice.v) *)
From stdpp Require Import list_numbers.
From Verif Require Import Machine MachineFacts.
From Verif Require Import SpecWord SpecLyra2 SpecRowChoice.
#[local] Open Scope Z_scope.

(** The number of values below [n] satisfying [f w = r]. *)
Definition cnt (f : Z -> Z) (r n : Z) : Z := Z.of_nat (length (filter (fun w => f w = r) (seqZ 0 n))).
Lemma filter_fmap_len {A B} (h : A -> B) (P : B -> Prop) `{!forall x, Decision (P x)} l :
  length (filter P (h <$> l)) = length (filter (fun x => P (h x)) l).
Proof.
  induction l as [|a l IH]; [done|]. cbn [fmap list_fmap]. rewrite !filter_cons.
  destruct (decide (P (h a))); cbn [length]; [f_equal|]; exact IH.
Qed.
Lemma filter_ext_len {A} (P Q : A -> Prop) `{!forall x, Decision (P x)} `{!forall x, Decision (Q x)} l :
  (forall x, x ∈ l -> P x <-> Q x) -> length (filter P l) = length (filter Q l).
Proof.
  intros HH. induction l as [|a l IH]; [done|]. rewrite !filter_cons.
  pose proof (HH a (elem_of_list_here _ _)) as Ha.
  specialize (IH (fun x Hx => HH x (elem_of_list_further _ _ _ Hx))).
  destruct (decide (P a)), (decide (Q a)); cbn [length]; [by f_equal|tauto|tauto|done].
Qed.
Lemma cnt_add f r n n' : 0 <= n -> 0 <= n' -> cnt f r (n + n') = cnt f r n + cnt (fun w => f (n + w)) r n'.
Proof.
  intros Hn Hn'. unfold cnt. rewrite seqZ_app by done. rewrite filter_app, app_length, Nat2Z.inj_add. f_equal.
  f_equal. replace (0 + n) with (Z.add n 0) by lia. rewrite <- fmap_add_seqZ, filter_fmap_len. done.
Qed.
Lemma cnt_ext f g r n : (forall w, 0 <= w < n -> f w = r <-> g w = r) -> cnt f r n = cnt g r n.
Proof.
  intros H. unfold cnt. f_equal. apply filter_ext_len. intros w Hw%elem_of_seqZ. apply H. lia.
Qed.
Lemma cnt_0 f r : cnt f r 0 = 0.
Proof. reflexivity. Qed.

(** A function of [w mod m]. *)
Lemma cnt_periodic g r m n : 0 < m -> 0 <= n -> cnt (fun w => g (w mod m)) r (m * n) = n * cnt g r m.
Proof.
  intros Hm Hn. revert n Hn. apply natlike_ind.
  - rewrite Z.mul_0_r. apply cnt_0.
  - intros n Hn IH. replace (m * Z.succ n) with (m * n + m) by lia. rewrite cnt_add by nia. rewrite IH.
    rewrite (cnt_ext (fun w => g ((m * n + w) mod m)) g); [lia|].
    intros w Hw. rewrite (Z.add_comm (m * n)), (Z.mul_comm m n), Z.mod_add, Z.mod_small by lia. done.
Qed.
Lemma cnt_id r n : 0 <= r < n -> cnt (fun w => w) r n = 1.
Proof.
  intros Hr. replace n with (r + (1 + (n - r - 1))) by lia. rewrite cnt_add, (cnt_add _ _ 1) by lia.
  rewrite (cnt_ext _ (fun _ => r + 1) r r) by (intros; lia).
  rewrite (cnt_ext (fun w => r + (1 + w)) (fun _ => r + 1)) by (intros; lia).
  assert (H : forall n, cnt (fun _ => r + 1) r n = 0).
  { intros j. unfold cnt. induction (seqZ 0 j) as [|a l IH]; [done|]. rewrite filter_cons, decide_False by lia. done. }
  rewrite !H. unfold cnt. change (seqZ 0 1) with [0]. rewrite filter_cons, decide_True by lia. done.
Qed.

(** A mask with any bits: one bit at a time from the top. *)
Definition pop (m n : Z) : Z := Z.of_nat (length (filter (fun i => Z.testbit m i = true) (seqZ 0 n))).
Lemma pop_S m n : 0 <= n -> pop m (n + 1) = pop m n + Z.b2z (Z.testbit m n).
Proof.
  intros Hn. unfold pop. rewrite seqZ_app by lia. rewrite filter_app, app_length, Nat2Z.inj_add. f_equal.
  rewrite (seqZ_cons (0 + n) 1), seqZ_nil by lia. replace (0 + n) with n by lia.
  rewrite filter_cons. destruct (Z.testbit m n); reflexivity.
Qed.
Lemma pop_le m n : 0 <= n -> 0 <= pop m n <= n.
Proof.
  intros Hn. unfold pop. split; [lia|].
  pose proof (filter_length (fun i => Z.testbit m i = true) (seqZ 0 n)) as H. rewrite seqZ_length in H. lia.
Qed.
Lemma land_top m n w : 0 <= n -> 0 <= w < 2 ^ n ->
  Z.land (2 ^ n + w) m = Z.land w m + (if Z.testbit m n then 2 ^ n else 0).
Proof.
  intros Hn Hw.
  assert (Hlo : forall x i, 0 <= x < 2 ^ n -> n <= i -> Z.testbit x i = false).
  { intros x i Hx Hi. destruct (decide (x = 0)) as [->|]; [apply Z.bits_0|].
    apply Z.bits_above_log2; [lia|]. apply Z.log2_lt_pow2; [lia|]. apply (Z.lt_le_trans _ (2 ^ n)); [lia|].
    apply Z.pow_le_mono_r; lia. }
  assert (H1 : Z.land (2 ^ n) w = 0).
  { apply Z.bits_inj'. intros i Hi. rewrite Z.land_spec, Z.bits_0, Z.pow2_bits_eqb by done.
    destruct (n =? i) eqn:E; [|done]. apply Z.eqb_eq in E as <-. by rewrite Hlo by lia. }
  rewrite Z.add_nocarry_lxor by done. rewrite Z.land_comm.
  assert (H2 : Z.land (Z.land w m) (if Z.testbit m n then 2 ^ n else 0) = 0).
  { destruct (Z.testbit m n); [|apply Z.land_0_r]. rewrite Z.land_comm, Z.land_assoc, H1. apply Z.land_0_l. }
  rewrite Z.add_nocarry_lxor by done.
  apply Z.bits_inj'. intros i Hi. rewrite Z.land_spec, !Z.lxor_spec, Z.land_spec, Z.pow2_bits_eqb by done.
  destruct (Z.testbit m n) eqn:Eb.
  - rewrite Z.pow2_bits_eqb by done. destruct (n =? i) eqn:E.
    + apply Z.eqb_eq in E as <-. rewrite Eb, (Hlo w) by lia. done.
    + by destruct (Z.testbit m i), (Z.testbit w i).
  - rewrite Z.bits_0. destruct (n =? i) eqn:E.
    + apply Z.eqb_eq in E as <-. rewrite Eb, (Hlo w) by lia. done.
    + by destruct (Z.testbit m i), (Z.testbit w i).
Qed.
Lemma land_lt w m n : 0 <= w < 2 ^ n -> 0 <= n -> 0 <= Z.land w m < 2 ^ n.
Proof.
  intros Hw Hn. split; [apply Z.land_nonneg; lia|].
  destruct (decide (Z.land w m = 0)) as [->|E]; [lia|].
  pose proof (Z.land_nonneg w m) as [_ H0]. specialize (H0 ltac:(lia)).
  apply Z.log2_lt_pow2; [lia|].
  destruct (Z.lt_ge_cases (Z.log2 (Z.land w m)) n) as [|Hge]; [done|exfalso].
  pose proof (Z.bit_log2 (Z.land w m) ltac:(lia)) as Hb. rewrite Z.land_spec in Hb.
  apply andb_true_iff in Hb as [Hb _].
  rewrite Z.bits_above_log2 in Hb; [done|lia|].
  destruct (decide (w = 0)) as [->|]; [rewrite Z.land_0_l in E; done|].
  apply (Z.lt_le_trans _ n); [|done]. apply Z.log2_lt_pow2; lia.
Qed.
Lemma cnt_none f r n : (forall w, 0 <= w < n -> f w <> r) -> cnt f r n = 0.
Proof.
  intros H. rewrite (cnt_ext f (fun _ => r + 1)); [|intros w Hw; specialize (H w Hw); lia].
  unfold cnt. induction (seqZ 0 n) as [|a l IH]; [done|]. rewrite filter_cons, decide_False by lia. done.
Qed.
Lemma cnt_shift f r n c : cnt (fun w => f w + c) r n = cnt f (r - c) n.
Proof.
  unfold cnt. f_equal. apply filter_ext_len. intros w _. lia.
Qed.
Lemma cnt_mask m n : 0 <= n -> forall r, 0 <= r < 2 ^ n ->
  cnt (fun w => Z.land w m) r (2 ^ n) = if Z.land r m =? r then 2 ^ (n - pop m n) else 0.
Proof.
  intros Hn. revert n Hn. apply (natlike_ind (fun n => forall r, 0 <= r < 2 ^ n ->
    cnt (fun w => Z.land w m) r (2 ^ n) = if Z.land r m =? r then 2 ^ (n - pop m n) else 0)).
  - intros r Hr. change (2 ^ 0) with 1 in *. assert (r = 0) as -> by lia. reflexivity.
  - intros n Hn IH r Hr. rewrite Z.pow_succ_r in Hr by done.
    replace (2 ^ Z.succ n) with (2 ^ n + 2 ^ n) by (rewrite Z.pow_succ_r by done; lia).
    assert (Hpos : 0 < 2 ^ n) by (by apply Z.pow_pos_nonneg).
    pose proof (pop_le m n Hn) as Hp.
    rewrite cnt_add by lia.
    rewrite (cnt_ext (fun w => Z.land (2 ^ n + w) m) (fun w => Z.land w m + (if Z.testbit m n then 2 ^ n else 0))).
    2: { intros w Hw. by rewrite land_top. }
    rewrite cnt_shift. replace (Z.succ n) with (n + 1) by lia. rewrite pop_S by done.
    destruct (Z.testbit m n) eqn:Eb; cbn [Z.b2z].
    + destruct (decide (r < 2 ^ n)) as [Hlt|Hge].
      * rewrite (IH r) by lia.
        rewrite (cnt_none _ (r - 2 ^ n)); [|intros w Hw; pose proof (land_lt w m n Hw Hn); lia].
        replace (n + 1 - (pop m n + 1)) with (n - pop m n) by lia. lia.
      * rewrite (cnt_none _ r); [|intros w Hw; pose proof (land_lt w m n Hw Hn); lia].
        rewrite (IH (r - 2 ^ n)) by lia.
        replace (n + 1 - (pop m n + 1)) with (n - pop m n) by lia.
        replace r with (2 ^ n + (r - 2 ^ n)) at 3 4 by lia. rewrite land_top by lia. rewrite Eb.
        destruct (Z.land (r - 2 ^ n) m =? r - 2 ^ n) eqn:E1, (Z.land (r - 2 ^ n) m + 2 ^ n =? 2 ^ n + (r - 2 ^ n)) eqn:E2; lia.
    + rewrite Z.sub_0_r. replace (n + 1 - (pop m n + 0)) with (Z.succ (n - pop m n)) by lia.
      rewrite Z.pow_succ_r by lia.
      destruct (decide (r < 2 ^ n)) as [Hlt|Hge].
      * rewrite (IH r) by lia. destruct (Z.land r m =? r); lia.
      * rewrite (cnt_none _ r); [|intros w Hw; pose proof (land_lt w m n Hw Hn); lia].
        replace r with (2 ^ n + (r - 2 ^ n)) at 1 2 by lia. rewrite land_top by lia. rewrite Eb.
        pose proof (land_lt (r - 2 ^ n) m n ltac:(lia) Hn).
        destruct (Z.land (r - 2 ^ n) m + 0 =? 2 ^ n + (r - 2 ^ n)) eqn:E2; lia.
Qed.

(** ** Lyra2 *)
Lemma wc_cnt f r : words_choosing f r = cnt f r (2 ^ 64).
Proof. unfold words_choosing, cnt. reflexivity. Qed.
Lemma bs_pop m : bits_set m = pop m 64.
Proof. unfold bits_set, pop. reflexivity. Qed.
Lemma cnt_unfold f r n : cnt f r n = Z.of_nat (length (filter (fun w => f w = r) (seqZ 0 n))).
Proof. reflexivity. Qed.
#[local] Opaque cnt words_choosing.
Lemma row_count R r : word 64 r ->
  words_choosing (reduce_mask R) r = if Z.land r (R - 1) =? r then 2 ^ (64 - bits_set (R - 1)) else 0.
Proof. intros Hr. rewrite wc_cnt, bs_pop. by rewrite <- (cnt_mask (R - 1) 64 ltac:(lia) r Hr). Qed.
Lemma row_count_pow2 e r : 0 <= e <= 64 -> 0 <= r < 2 ^ e -> words_choosing (reduce_mask (2 ^ e)) r = 2 ^ (64 - e).
Proof.
  intros He Hr. rewrite wc_cnt.
  replace (2 ^ 64) with (2 ^ e * 2 ^ (64 - e)) by (rewrite <- Z.pow_add_r by lia; f_equal; lia).
  rewrite (cnt_ext _ (fun w => (fun x => x) (w mod 2 ^ e))).
  - rewrite (cnt_periodic (fun x => x)), cnt_id by lia. lia.
  - intros w _. unfold reduce_mask. rewrite Z.sub_1_r, <- Z.ones_equiv, Z.land_ones by lia. done.
Qed.

(** ** The variant of Lyra2REv3 *)
Lemma mask_mod e x : 0 <= e -> reduce_mask (2 ^ e) x = x mod 2 ^ e.
Proof. intros He. unfold reduce_mask. by rewrite Z.sub_1_r, <- Z.ones_equiv, Z.land_ones. Qed.
Lemma mod_mod_16 e x : 0 <= e <= 4 -> (x mod 16) mod 2 ^ e = x mod 2 ^ e.
Proof.
  intros He. assert (0 < 2 ^ e) by (apply Z.pow_pos_nonneg; lia).
  symmetry. apply Znumtheory.Zmod_div_mod; [done|lia|]. exists (2 ^ (4 - e)).
  rewrite <- Z.pow_add_r by lia. replace (4 - e + e) with 4 by lia. done.
Qed.
Lemma rev3_forced st i e : 0 <= e <= 4 -> (st !!! Z.to_nat (i mod 16)) mod 16 = i mod 16 ->
  reduce_mask (2 ^ e) (fst (choose_rev3 st i)) = i mod 2 ^ e.
Proof.
  intros He H. unfold choose_rev3. cbn [fst]. rewrite H, mask_mod by lia.
  by rewrite <- (mod_mod_16 e i), <- (mod_mod_16 e (st !!! _)), H by done.
Qed.
Lemma rev3_count s e r : 0 <= e <= 4 -> length s = 15%nat ->
  words_choosing (fun w => reduce_mask (2 ^ e) (fst (choose_rev3 (w :: s) 0))) r =
  2 ^ 60 * words_congruent (2 ^ e) r (0 :: s).
Proof.
  intros He Hs.
  rewrite wc_cnt.
  rewrite (cnt_ext _ (fun w => (fun j => ((0 :: s) !!! Z.to_nat j) mod 2 ^ e) (w mod 16))).
  - replace (2 ^ 64) with (16 * 2 ^ 60) by reflexivity. rewrite (cnt_periodic (fun j => ((0 :: s) !!! Z.to_nat j) mod 2 ^ e)) by lia. f_equal.
    rewrite cnt_unfold. unfold words_congruent. f_equal.
    etransitivity; [symmetry; exact (filter_fmap_len (fun j => (0 :: s) !!! Z.to_nat j) (fun w => w mod 2 ^ e = r) (seqZ 0 16))|].
    f_equal. f_equal.
    do 15 (destruct s as [|? s]; [discriminate Hs|]). destruct s; [|discriminate Hs]. reflexivity.
  - intros w Hw. assert (E : reduce_mask (2 ^ e) (fst (choose_rev3 (w :: s) 0)) = ((0 :: s) !!! Z.to_nat (w mod 16)) mod 2 ^ e);
      [|by rewrite E].
    unfold choose_rev3. cbn [fst]. change (Z.to_nat (0 mod 16)) with 0%nat.
    change ((w :: s) !!! 0%nat) with w. rewrite mask_mod by lia.
    destruct (Z.to_nat (w mod 16)) as [|j] eqn:E; [|reflexivity].
    change ((w :: s) !!! 0%nat) with w. change ((0 :: s) !!! 0%nat) with 0.
    pose proof (Z.mod_pos_bound w 16). rewrite <- (mod_mod_16 e w) by done. replace (w mod 16) with 0 by lia. done.
Qed.
(** With 16 rows or more. *)
Lemma cnt_split f g h r n : (forall w, 0 <= w < n -> f w = r <-> g w = r \/ h w = r) ->
  (forall w, 0 <= w < n -> ~ (g w = r /\ h w = r)) -> cnt f r n = cnt g r n + cnt h r n.
Proof.
  intros H H'. rewrite !cnt_unfold.
  assert (Q : forall w, w ∈ seqZ 0 n -> (f w = r <-> g w = r \/ h w = r) /\ ~ (g w = r /\ h w = r)).
  { intros w Hw%elem_of_seqZ. split; [apply H|apply H']; lia. }
  clear H H'. induction (seqZ 0 n) as [|a l IH]; [done|]. rewrite !filter_cons.
  destruct (Q a) as [Q1 Q2]; [apply elem_of_list_here|]. assert (IH' := IH (fun w Hw => Q w (elem_of_list_further _ _ _ Hw))).
  destruct (decide (f a = r)), (decide (g a = r)), (decide (h a = r)); cbn [length]; try tauto; lia.
Qed.
Lemma mod_16_of e w : 4 <= e -> (w mod 2 ^ e) mod 16 = w mod 16.
Proof.
  intros He. symmetry. apply Znumtheory.Zmod_div_mod; [lia|apply Z.pow_pos_nonneg; lia|]. exists (2 ^ (e - 4)).
  change 16 with (2 ^ 4). rewrite <- Z.pow_add_r by lia. f_equal. lia.
Qed.
Lemma rev3_count_16 s e r : 4 <= e <= 64 -> 0 <= r < 2 ^ e -> length s = 15%nat ->
  words_choosing (fun w => reduce_mask (2 ^ e) (fst (choose_rev3 (w :: s) 0))) r =
  2 ^ 60 * words_congruent (2 ^ e) r s + (if r mod 16 =? 0 then 2 ^ (64 - e) else 0).
Proof.
  intros He Hr Hs. assert (Hp : 0 < 2 ^ e) by (apply Z.pow_pos_nonneg; lia). rewrite wc_cnt.
  rewrite (cnt_split _ (fun w => (fun j => if j =? 0 then -1 else (s !!! Z.to_nat (j - 1)) mod 2 ^ e) (w mod 16))
    (fun w => if w mod 16 =? 0 then w mod 2 ^ e else -1)).
  - f_equal.
    + replace (2 ^ 64) with (16 * 2 ^ 60) by reflexivity.
      rewrite (cnt_periodic (fun j => if j =? 0 then -1 else (s !!! Z.to_nat (j - 1)) mod 2 ^ e)) by lia. f_equal.
      rewrite cnt_unfold. unfold words_congruent. f_equal.
      etransitivity; [symmetry; exact (filter_fmap_len (fun j => if j =? 0 then -1 else (s !!! Z.to_nat (j - 1)) mod 2 ^ e) (fun w => w = r) (seqZ 0 16))|].
      etransitivity; [|exact (filter_fmap_len (fun w => w mod 2 ^ e) (fun w => w = r) s)].
      replace ((fun j => if j =? 0 then -1 else (s !!! Z.to_nat (j - 1)) mod 2 ^ e) <$> seqZ 0 16)
        with (-1 :: ((fun w => w mod 2 ^ e) <$> s)).
      * rewrite filter_cons, decide_False by lia. done.
      * do 15 (destruct s as [|? s]; [discriminate Hs|]). destruct s; [|discriminate Hs]. reflexivity.
    + destruct (Z.eqb_spec (r mod 16) 0) as [H0|H0].
      * rewrite (cnt_ext _ (fun w => (fun x => x) (w mod 2 ^ e))).
        -- replace (2 ^ 64) with (2 ^ e * 2 ^ (64 - e)) by (rewrite <- Z.pow_add_r by lia; f_equal; lia).
           rewrite (cnt_periodic (fun x => x)), cnt_id by lia. lia.
        -- intros w _. destruct (Z.eqb_spec (w mod 16) 0) as [H1|H1]; [done|]. split; [lia|]. intros E.
           rewrite <- (mod_16_of e w), E in H1 by lia. lia.
      * apply cnt_none. intros w _. destruct (Z.eqb_spec (w mod 16) 0) as [H1|H1]; [|lia]. intros E.
        rewrite <- (mod_16_of e w), E in H1 by lia. lia.
  - intros w _. unfold choose_rev3. cbn [fst]. change (Z.to_nat (0 mod 16)) with 0%nat.
    change ((w :: s) !!! 0%nat) with w. rewrite mask_mod by lia.
    pose proof (Z.mod_pos_bound w 16 ltac:(lia)). destruct (Z.eqb_spec (w mod 16) 0) as [H1|H1].
    + rewrite H1. change ((w :: s) !!! Z.to_nat 0) with w. split; [auto|]. intros [E|E]; [lia|done].
    + replace (Z.to_nat (w mod 16)) with (S (Z.to_nat (w mod 16 - 1))) by lia.
      change ((w :: s) !!! S (Z.to_nat (w mod 16 - 1))) with (s !!! Z.to_nat (w mod 16 - 1)).
      split; [auto|]. intros [E|E]; [done|lia].
  - intros w _. destruct (w mod 16 =? 0); lia.
Qed.
Lemma rev3_forced_all st i e : 0 <= e -> (st !!! Z.to_nat (i mod 16)) mod 16 = i mod 16 ->
  reduce_mask (2 ^ e) (fst (choose_rev3 st i)) mod Z.min (2 ^ e) 16 = i mod Z.min (2 ^ e) 16.
Proof.
  intros He H. assert (0 < 2 ^ e) by (apply Z.pow_pos_nonneg; lia). destruct (Z.le_gt_cases e 4) as [H4|H4].
  - assert (2 ^ e <= 2 ^ 4) by (apply Z.pow_le_mono_r; lia). change (2 ^ 4) with 16 in *. rewrite Z.min_l by lia.
    rewrite rev3_forced by (done || lia). by apply Z.mod_mod; lia.
  - assert (2 ^ 4 <= 2 ^ e) by (apply Z.pow_le_mono_r; lia). change (2 ^ 4) with 16 in *. rewrite Z.min_r by lia.
    unfold choose_rev3. cbn [fst]. rewrite H, mask_mod, mod_16_of by lia. done.
Qed.
