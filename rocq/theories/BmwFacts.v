(** * bmw::sum against BMW-256 (lemmas for PHashes.v) *)
From Verif Require Import Machine MachineFacts MUtils MBmwGen MBmw WordFacts SpongeFacts CubeFacts.
From Verif Require Import SpecWord SpecBmw.

(** ** The shape of the statements of [compress], with the operations of the code *)
Definition ms (i : nat) (x : Z) : Z :=
  let l4 a b c d := Z.lxor (Z.lxor (Z.lxor (wshr x a) (wshl 32 x b)) (circular_left x c)) (circular_left x d) in
  match i with
  | 0%nat => l4 1 3 4 19 | 1%nat => l4 1 2 8 23 | 2%nat => l4 2 1 12 25 | 3%nat => l4 2 2 15 29
  | 4%nat => Z.lxor (wshr x 1) x | _ => Z.lxor (wshr x 2) x
  end.
Definition mW (i : nat) (m h : list Z) : Z :=
  let t j := Z.lxor (aget m j) (aget h j) in
  match bmw_W_table !!! i with
  | [] => 0
  | (_, j) :: l => foldl (fun acc '(s, j) => if 0 <? s then wadd 32 acc (t j) else wsub 32 acc (t j)) (t j) l
  end.
Definition mq0 (i : nat) (m h q : list Z) : Z :=
  wadd 32 (ms (i mod 5)%nat (mW i m h)) (aget h ((i + 1) mod 16)%nat).
Definition mrot (m : list Z) (j : nat) : Z := circular_left (aget m (j mod 16)%nat) (Z.of_nat (j mod 16 + 1)).
Definition melem (j : nat) (m h : list Z) : Z :=
  Z.lxor (wadd 32 (wsub 32 (wadd 32 (mrot m j) (mrot m (j + 3))) (mrot m (j + 10))) (Z.of_nat (j + 16) * 0x05555555))
         (aget h ((j + 7) mod 16)%nat).
Definition mterm1 (q : list Z) (j k : nat) : Z := ms ((k + 1) mod 4)%nat (aget q (j - 16 + k)%nat).
Definition mexp1 (j : nat) (m h q : list Z) : Z :=
  wadd 32 (foldl (fun acc k => wadd 32 acc (mterm1 q j k)) (mterm1 q j 0) (seq 1 15)) (melem (j - 16) m h).
Definition mr (i : nat) : Z :=
  match i with 1%nat => 3 | 2%nat => 7 | 3%nat => 13 | 4%nat => 16 | 5%nat => 19 | 6%nat => 23 | _ => 27 end.
Definition mterm2 (q : list Z) (j k : nat) : Z :=
  if Nat.even k then aget q (j - 16 + k)%nat else circular_left (aget q (j - 16 + k)%nat) (mr ((k + 1) / 2)%nat).
Definition mexp2 (j : nat) (m h q : list Z) : Z :=
  wadd 32 (wadd 32 (wadd 32
    (foldl (fun acc k => wadd 32 acc (mterm2 q j k)) (mterm2 q j 0) (seq 1 13))
    (ms 4 (aget q (j - 2)%nat))) (ms 5 (aget q (j - 1)%nat))) (melem (j - 16) m h).

Ltac shape := cbv -[wadd wsub wshl wshr Z.lxor circular_left aget Z.mul]; reflexivity.
Lemma bmw_q0_shape : bmw_q0 = mq0 0. Proof. shape. Qed.
Lemma bmw_q1_shape : bmw_q1 = mq0 1. Proof. shape. Qed.
Lemma bmw_q2_shape : bmw_q2 = mq0 2. Proof. shape. Qed.
Lemma bmw_q3_shape : bmw_q3 = mq0 3. Proof. shape. Qed.
Lemma bmw_q4_shape : bmw_q4 = mq0 4. Proof. shape. Qed.
Lemma bmw_q5_shape : bmw_q5 = mq0 5. Proof. shape. Qed.
Lemma bmw_q6_shape : bmw_q6 = mq0 6. Proof. shape. Qed.
Lemma bmw_q7_shape : bmw_q7 = mq0 7. Proof. shape. Qed.
Lemma bmw_q8_shape : bmw_q8 = mq0 8. Proof. shape. Qed.
Lemma bmw_q9_shape : bmw_q9 = mq0 9. Proof. shape. Qed.
Lemma bmw_q10_shape : bmw_q10 = mq0 10. Proof. shape. Qed.
Lemma bmw_q11_shape : bmw_q11 = mq0 11. Proof. shape. Qed.
Lemma bmw_q12_shape : bmw_q12 = mq0 12. Proof. shape. Qed.
Lemma bmw_q13_shape : bmw_q13 = mq0 13. Proof. shape. Qed.
Lemma bmw_q14_shape : bmw_q14 = mq0 14. Proof. shape. Qed.
Lemma bmw_q15_shape : bmw_q15 = mq0 15. Proof. shape. Qed.
Lemma bmw_q16_shape : bmw_q16 = mexp1 16. Proof. shape. Qed.
Lemma bmw_q17_shape : bmw_q17 = mexp1 17. Proof. shape. Qed.
Lemma bmw_q18_shape : bmw_q18 = mexp2 18. Proof. shape. Qed.
Lemma bmw_q19_shape : bmw_q19 = mexp2 19. Proof. shape. Qed.
Lemma bmw_q20_shape : bmw_q20 = mexp2 20. Proof. shape. Qed.
Lemma bmw_q21_shape : bmw_q21 = mexp2 21. Proof. shape. Qed.
Lemma bmw_q22_shape : bmw_q22 = mexp2 22. Proof. shape. Qed.
Lemma bmw_q23_shape : bmw_q23 = mexp2 23. Proof. shape. Qed.
Lemma bmw_q24_shape : bmw_q24 = mexp2 24. Proof. shape. Qed.
Lemma bmw_q25_shape : bmw_q25 = mexp2 25. Proof. shape. Qed.
Lemma bmw_q26_shape : bmw_q26 = mexp2 26. Proof. shape. Qed.
Lemma bmw_q27_shape : bmw_q27 = mexp2 27. Proof. shape. Qed.
Lemma bmw_q28_shape : bmw_q28 = mexp2 28. Proof. shape. Qed.
Lemma bmw_q29_shape : bmw_q29 = mexp2 29. Proof. shape. Qed.
Lemma bmw_q30_shape : bmw_q30 = mexp2 30. Proof. shape. Qed.
Lemma bmw_q31_shape : bmw_q31 = mexp2 31. Proof. shape. Qed.
#[local] Opaque mq0 mexp1 mexp2.
Definition mexp (j : nat) := if (j <? 18)%nat then mexp1 j else mexp2 j.
Lemma f0_shape m h q : compress_f0 m h q = foldl (fun q i => <[i := mq0 i m h q]> q) q (seq 0 16).
Proof.
  unfold compress_f0. rewrite bmw_q0_shape, bmw_q1_shape, bmw_q2_shape, bmw_q3_shape, bmw_q4_shape, bmw_q5_shape, bmw_q6_shape, bmw_q7_shape, bmw_q8_shape, bmw_q9_shape, bmw_q10_shape, bmw_q11_shape, bmw_q12_shape, bmw_q13_shape, bmw_q14_shape, bmw_q15_shape.
  change (foldl _ q _) with (foldl (fun q '(i, rhs) => <[i := rhs m h q]> q) q ((fun i => (i, mq0 i)) <$> seq 0 16)).
  generalize (seq 0 16). intros l. revert q. induction l as [|i l IH]; intros q; [done|apply IH].
Qed.
Lemma f1_shape m h q : compress_f1 m h q = foldl (fun q i => <[i := mexp i m h q]> q) q (seq 16 16).
Proof.
  unfold compress_f1. rewrite bmw_q16_shape, bmw_q17_shape, bmw_q18_shape, bmw_q19_shape, bmw_q20_shape, bmw_q21_shape, bmw_q22_shape, bmw_q23_shape, bmw_q24_shape, bmw_q25_shape, bmw_q26_shape, bmw_q27_shape, bmw_q28_shape, bmw_q29_shape, bmw_q30_shape, bmw_q31_shape.
  change (foldl _ q _) with (foldl (fun q '(i, rhs) => <[i := rhs m h q]> q) q ((fun i => (i, mexp i)) <$> seq 16 16)).
  generalize (seq 16 16). intros l. revert q. induction l as [|i l IH]; intros q; [done|apply IH].
Qed.
#[local] Transparent mq0 mexp1 mexp2.

(** ** Operations *)
Definition words (l : list Z) : Prop := Forall (word 32) l.
Lemma wsub32 x y : wsub 32 x y = (x - y) mod 2 ^ 32.
Proof. unfold wsub. by rewrite Z.land_ones by lia. Qed.
Lemma wshl32 x n : 0 <= n -> wshl 32 x n = shlw 32 n x.
Proof. intros. unfold wshl, shlw. by rewrite Z.land_ones, Z.shiftl_mul_pow2 by lia. Qed.
Lemma wshr32 x n : 0 <= n -> wshr x n = shrw n x.
Proof. intros. unfold wshr, shrw. by rewrite Z.shiftr_div_pow2. Qed.
Lemma circ_rol x n : 0 <= n <= 32 -> word 32 x -> circular_left x n = rol 32 n x.
Proof. exact (rot32_rol n x). Qed.
Lemma word_mod x : word 32 (x mod 2 ^ 32).
Proof. apply Z.mod_pos_bound. lia. Qed.
Lemma word_shlw n x : word 32 (shlw 32 n x).
Proof. apply word_mod. Qed.
Lemma word_shrw n x : 0 <= n -> word 32 x -> word 32 (shrw n x).
Proof.
  intros Hn [H1 H2]. unfold shrw, word. assert (0 < 2 ^ n) by (apply Z.pow_pos_nonneg; lia).
  split; [apply Z.div_pos; lia|]. apply Z.div_lt_upper_bound; [done|]. nia.
Qed.
Lemma word_sum32 l : word 32 (sum32 l).
Proof. apply word_mod. Qed.
Lemma word_xors l : words l -> word 32 (xors l).
Proof.
  intros H. induction H as [|x l Hx _ IH]; [cbn; unfold word; lia|]. cbn. by apply word_lxor; [lia|..].
Qed.
Lemma words_get l i n : words l -> length l = n -> (i < n)%nat -> word 32 (l !!! i).
Proof. intros H Hl Hi. apply (Forall_lookup_total_1 _ l i H). lia. Qed.
Lemma sum32_cons x l : sum32 (x :: l) = (x + foldr Z.add 0 l) mod 2 ^ 32.
Proof. done. Qed.
Lemma mod_add_chain {A} (t : A -> Z) l acc :
  foldl (fun acc k => wadd 32 acc (t k)) acc l mod 2 ^ 32 = (acc + foldr Z.add 0 (t <$> l)) mod 2 ^ 32.
Proof.
  revert acc. induction l as [|k l IH]; intros acc; cbn [foldl fmap list_fmap foldr].
  - by rewrite Z.add_0_r.
  - rewrite IH, wadd32. unfold addw. rewrite Zplus_mod_idemp_l. f_equal. lia.
Qed.
Lemma foldr_add_app l l' : foldr Z.add 0 (l ++ l') = foldr Z.add 0 l + foldr Z.add 0 l'.
Proof. induction l as [|x l IH]; [done|]. cbn [app foldr]. lia. Qed.
Lemma wadd_mod_l x y : wadd 32 x y = (x mod 2 ^ 32 + y) mod 2 ^ 32.
Proof. rewrite wadd32. unfold addw. by rewrite Zplus_mod_idemp_l. Qed.

Lemma ms_spec i x : word 32 x -> ms i x = bmw_s i x.
Proof.
  intros H. unfold ms, bmw_s, xors. cbv zeta. rewrite !wshl32, !wshr32, !circ_rol by (done || lia).
  destruct i as [|[|[|[|[|i]]]]]; cbn [foldr]; by rewrite ?Z.lxor_0_r, ?Z.lxor_assoc.
Qed.
Lemma word_bmw_s i x : word 32 x -> word 32 (bmw_s i x).
Proof.
  intros H. unfold bmw_s. assert (0 <= 1) by lia. assert (0 <= 2) by lia.
  destruct i as [|[|[|[|[|i]]]]]; apply word_xors; repeat apply Forall_cons_2;
    try apply Forall_nil_2; try done; try apply word_shlw; try (apply word_rol; [lia|done]);
    apply word_shrw; done.
Qed.
Lemma bmw_r_spec k x : word 32 x -> circular_left x (mr k) = bmw_r k x.
Proof. intros H. unfold mr, bmw_r. repeat (destruct k as [|k]; [by apply circ_rol; [lia|]|]). by apply circ_rol; [lia|]. Qed.
Section lists.
Context (m h : list Z) (Hm : words m) (Hh : words h) (Lm : length m = 16%nat) (Lh : length h = 16%nat).

Lemma mW_spec i : (i < 16)%nat -> mW i m h mod 2 ^ 32 = bmw_W m h i /\ word 32 (mW i m h).
Proof using Hm Hh Lm Lh.
  intros Hi. unfold mW, bmw_W. cbv zeta.
  assert (T : Forall (fun row => Forall (fun '(s, j) => (s = 1 \/ s = -1) /\ (j < 16)%nat) row /\
                        match row with (1, _) :: (_, _) :: _ => True | _ => False end) bmw_W_table).
  { repeat apply Forall_cons_2; try apply Forall_nil_2; (split; [|exact I]);
    repeat apply Forall_cons_2; try apply Forall_nil_2; unfold pos, neg; (split; [auto|lia]). }
  pose proof (Forall_lookup_total_1 _ _ i T ltac:(cbn [length bmw_W_table]; lia)) as [R1 R2].
  generalize dependent (bmw_W_table !!! i). intros row R1 R2.
  destruct row as [|[s j] row]; [done|].
  destruct s as [|[| |]|]; try done. destruct row as [|[s' j'] row]; [done|]. clear R2.
  apply Forall_cons_1 in R1 as [[_ Hj] R1].
  assert (G : forall j, (j < 16)%nat -> Z.lxor (aget m j) (aget h j) = Z.lxor (m !!! j) (h !!! j)).
  { intros k Hk. by rewrite !aget_total by lia. }
  rewrite (G j Hj). rewrite fmap_cons, sum32_cons.
  replace (1 * Z.lxor (m !!! j) (h !!! j)) with (Z.lxor (m !!! j) (h !!! j)) by lia.
  assert (W0 : word 32 (Z.lxor (m !!! j) (h !!! j))).
  { apply word_lxor; [lia|by apply (words_get _ _ 16)..]. }
  revert W0. generalize (Z.lxor (m !!! j) (h !!! j)).
  generalize dependent ((s', j') :: row). clear s' j' row. intros l R. induction R as [|[s k] l [Hs Hk] R IH];
    intros acc Hacc; cbn [foldl fmap list_fmap foldr].
  - split; [by rewrite Z.add_0_r|done].
  - destruct Hs as [-> | ->]; cbn [Z.ltb Z.compare].
    + destruct (IH (wadd 32 acc (Z.lxor (aget m k) (aget h k)))) as [E W].
      { rewrite wadd32. apply word_mod. }
      split; [|exact W]. rewrite E, wadd32, (G k Hk). unfold addw. rewrite Zplus_mod_idemp_l. f_equal. lia.
    + destruct (IH (wsub 32 acc (Z.lxor (aget m k) (aget h k)))) as [E W].
      { rewrite wsub32. apply word_mod. }
      split; [|exact W]. rewrite E, wsub32, (G k Hk). rewrite Zplus_mod_idemp_l. f_equal. lia.
Qed.
Lemma mq0_spec i q : (i < 16)%nat ->
  mq0 i m h q = sum32 [bmw_s (i mod 5)%nat (bmw_W m h i); h !!! ((i + 1) mod 16)%nat].
Proof using Hm Hh Lm Lh.
  intros Hi. unfold mq0. destruct (mW_spec i Hi) as [E W]. rewrite Z.mod_small in E by exact W.
  rewrite E, ms_spec, wadd32, aget_total. 2: { rewrite Lh. apply Nat.mod_upper_bound. lia. } 2:{ by rewrite <- E. }
  unfold addw, sum32. cbn [foldr]. by rewrite Z.add_0_r.
Qed.
Lemma mrot_spec j : mrot m j = bmw_rotM m j /\ word 32 (mrot m j).
Proof using Hm Hh Lm Lh.
  unfold mrot, bmw_rotM. pose proof (Nat.mod_upper_bound j 16 ltac:(lia)) as B.
  rewrite aget_total by lia. assert (word 32 (m !!! (j mod 16)%nat)) by by apply (words_get _ _ 16).
  rewrite circ_rol by (done || lia). split; [done|]. apply word_rol; [lia|done].
Qed.
Lemma melem_spec j : melem j m h = bmw_add_element m h j.
Proof using Hm Hh Lm Lh.
  unfold melem, bmw_add_element. rewrite !(proj1 (mrot_spec _)).
  pose proof (Nat.mod_upper_bound (j + 7) 16 ltac:(lia)). rewrite aget_total by lia. f_equal.
  rewrite wadd32, wsub32, wadd32. unfold addw, sum32, bmw_K. cbn [foldr].
  rewrite Zminus_mod_idemp_l, Zplus_mod_idemp_l. f_equal. lia.
Qed.
Lemma mexp1_spec j q : words q -> (16 <= j <= length q)%nat -> mexp1 j m h q = bmw_expand1 m h q j.
Proof using Hm Hh Lm Lh.
  intros Hq Hj. unfold mexp1, bmw_expand1. rewrite melem_spec, wadd_mod_l, mod_add_chain.
  rewrite Zplus_mod_idemp_l. unfold sum32. rewrite foldr_add_app. cbn [foldr]. rewrite Z.add_0_r.
  f_equal. f_equal. change (seq 0 16) with (0%nat :: seq 1 15). rewrite fmap_cons. cbn [foldr].
  assert (T : forall k, (k < 16)%nat -> mterm1 q j k = bmw_s ((k + 1) mod 4)%nat (q !!! (j - 16 + k)%nat)).
  { intros k Hk. unfold mterm1. rewrite aget_total by lia. apply ms_spec.
    apply (words_get _ _ (length q)); [done|done|lia]. }
  rewrite T by lia. f_equal. f_equal. apply list_fmap_ext. intros i k Hk. apply lookup_seq in Hk. apply T. lia.
Qed.
Lemma mexp2_spec j q : words q -> (16 <= j <= length q)%nat -> mexp2 j m h q = bmw_expand2 m h q j.
Proof using Hm Hh Lm Lh.
  intros Hq Hj. unfold mexp2, bmw_expand2.
  assert (Q : forall i, (i < length q)%nat -> word 32 (q !!! i)) by (intros; by apply (words_get _ _ (length q))).
  rewrite melem_spec, !aget_total, !ms_spec by (lia || (apply Q; lia)).
  rewrite (wadd32 _ (bmw_add_element _ _ _)), (wadd32 _ (bmw_s 5 _)), (wadd_mod_l _ (bmw_s 4 _)), mod_add_chain.
  unfold addw. repeat (rewrite Zplus_mod_idemp_l; rewrite <- ?Z.add_assoc).
  unfold sum32. rewrite foldr_add_app. cbn [foldr]. rewrite Z.add_0_r.
  rewrite !Z.add_assoc. do 4 f_equal. change (seq 0 14) with (0%nat :: seq 1 13). rewrite fmap_cons. cbn [foldr].
  assert (T : forall k, (k < 14)%nat -> mterm2 q j k = if Nat.even k then q !!! (j - 16 + k)%nat
                    else bmw_r ((k + 1) / 2)%nat (q !!! (j - 16 + k)%nat)).
  { intros k Hk. unfold mterm2. rewrite aget_total by lia. destruct (Nat.even k); [done|]. apply bmw_r_spec.
    apply Q. lia. }
  rewrite T by lia. f_equal. f_equal. apply list_fmap_ext. intros i k Hk. apply lookup_seq in Hk. apply T. lia.
Qed.
End lists.

(** ** The three functions *)
Lemma fill (e : nat -> list Z -> Z) n a q : (a + n <= length q)%nat ->
  foldl (fun q i => <[i := e i q]> q) q (seq a n) =
  foldl (fun A i => A ++ [e i (A ++ drop i q)]) (take a q) (seq a n) ++ drop (a + n) q.
Proof.
  revert a q. induction n as [|n IH]; intros a q H; cbn [seq foldl].
  - by rewrite Nat.add_0_r, take_drop.
  - rewrite IH by (rewrite insert_length; lia).
    assert (D : forall i, (a < i)%nat -> drop i (<[a := e a q]> q) = drop i q).
    { intros i Hi. by apply drop_insert_gt. }
    rewrite D by lia. replace (S a + n)%nat with (a + S n)%nat by lia. f_equal.
    rewrite take_drop.
    assert (T : take (S a) (<[a := e a q]> q) = take a q ++ [e a q]).
    { rewrite (take_S_r _ _ (e a q)) by (apply list_lookup_insert; lia). by rewrite take_insert by lia. }
    rewrite T. generalize (take a q ++ [e a q]). clear T IH H. 
    assert (G : forall l A, Forall (fun i => a < i)%nat l ->
      foldl (fun A i => A ++ [e i (A ++ drop i (<[a := e a q]> q))]) A l =
      foldl (fun A i => A ++ [e i (A ++ drop i q)]) A l).
    { induction l as [|i l IHl]; intros A Hl; [done|]. cbn [foldl].
      apply Forall_cons_1 in Hl as [Hi Hl]. rewrite D by done. by apply IHl. }
    intros A. apply G. apply Forall_seq. intros; lia.
Qed.
Lemma foldl_snoc (f : nat -> Z) l A : foldl (fun A i => A ++ [f i]) A l = A ++ (f <$> l).
Proof.
  revert A. induction l as [|i l IH]; intros A; cbn [foldl fmap list_fmap]; [by rewrite app_nil_r|].
  by rewrite IH, <- app_assoc.
Qed.
Lemma f0_spec m h q : words m -> words h -> length m = 16%nat -> length h = 16%nat -> length q = 32%nat ->
  compress_f0 m h q = bmw_f0 m h ++ drop 16 q.
Proof.
  intros Hm Hh Lm Lh Lq. rewrite f0_shape, (fill (fun i q => mq0 i m h q)) by lia. f_equal.
  unfold bmw_f0.
  set (f := fun i => sum32 [bmw_s (i mod 5)%nat (bmw_W m h i); h !!! ((i + 1) mod 16)%nat]).
  transitivity (foldl (fun A i => A ++ [f i]) [] (seq 0 16)); [|apply foldl_snoc].
  assert (G : forall l A, Forall (fun i => i < 16)%nat l ->
     foldl (fun A i => A ++ [mq0 i m h (A ++ drop i q)]) A l = foldl (fun A i => A ++ [f i]) A l).
  { induction l as [|i l IH]; intros A Hl; [done|]. cbn [foldl]. apply Forall_cons_1 in Hl as [Hi Hl].
    rewrite mq0_spec by done. by apply IH. }
  apply G. apply Forall_seq. intros; lia.
Qed.
Lemma f0_words m h : words (bmw_f0 m h) /\ length (bmw_f0 m h) = 16%nat.
Proof. split; [|done]. apply Forall_fmap, Forall_forall. intros i _. apply word_sum32. Qed.
Lemma expand1_app m h A B j : (16 <= j)%nat -> length A = j ->
  bmw_expand1 m h (A ++ B) j = bmw_expand1 m h A j.
Proof.
  intros Hj HA. unfold bmw_expand1. do 2 f_equal. apply list_fmap_ext. intros i k Hk.
  apply lookup_seq in Hk. by rewrite lookup_total_app_l by lia.
Qed.
Lemma expand2_app m h A B j : (16 <= j)%nat -> length A = j ->
  bmw_expand2 m h (A ++ B) j = bmw_expand2 m h A j.
Proof.
  intros Hj HA. unfold bmw_expand2. rewrite !lookup_total_app_l by lia. do 2 f_equal.
  apply list_fmap_ext. intros i k Hk. apply lookup_seq in Hk. by rewrite lookup_total_app_l by lia.
Qed.
Definition f1_from (m h : list Z) (n a : nat) (A : list Z) : list Z :=
  foldl (fun Q j => Q ++ [if (j <? 18)%nat then bmw_expand1 m h Q j else bmw_expand2 m h Q j]) A (seq a n).
Lemma f1_from_spec m h q n a A : words m -> words h -> length m = 16%nat -> length h = 16%nat ->
  words q -> (16 <= a)%nat -> words A -> length A = a ->
  foldl (fun A i => A ++ [mexp i m h (A ++ drop i q)]) A (seq a n) = f1_from m h n a A /\
  words (f1_from m h n a A) /\ length (f1_from m h n a A) = (a + n)%nat.
Proof.
  intros Hm Hh Lm Lh Hq. revert a A. induction n as [|n IH]; intros a A Ha HA LA; unfold f1_from; cbn [seq foldl].
  - rewrite Nat.add_0_r. done.
  - assert (W : words (A ++ drop a q)) by (apply Forall_app; split; [done|by apply Forall_drop]).
    assert (E : mexp a m h (A ++ drop a q) =
      if (a <? 18)%nat then bmw_expand1 m h A a else bmw_expand2 m h A a).
    { unfold mexp. destruct (a <? 18)%nat.
      - rewrite mexp1_spec by (try done; rewrite app_length; lia). by apply expand1_app.
      - rewrite mexp2_spec by (try done; rewrite app_length; lia). by apply expand2_app. }
    rewrite E. set (x := if (a <? 18)%nat then _ else _).
    assert (Hx : word 32 x) by (unfold x; destruct (a <? 18)%nat; apply word_sum32).
    replace (a + S n)%nat with (S a + n)%nat by lia. apply IH; [lia| |rewrite app_length; simpl; lia].
    apply Forall_app. split; [done|]. by apply Forall_cons_2; [|apply Forall_nil_2].
Qed.
Lemma bmw_f1_from m h Q : bmw_f1 m h Q = f1_from m h 16 16 Q.
Proof. unfold bmw_f1, f1_from. reflexivity. Qed.
Lemma f1_spec m h q Q : words m -> words h -> length m = 16%nat -> length h = 16%nat ->
  words q -> words Q -> length Q = 16%nat -> length q = 16%nat ->
  compress_f1 m h (Q ++ q) = bmw_f1 m h Q /\ words (bmw_f1 m h Q) /\ length (bmw_f1 m h Q) = 32%nat.
Proof.
  intros Hm Hh Lm Lh Hq HQ LQ Lq. rewrite f1_shape.
  rewrite (fill (fun i q => mexp i m h q)) by (rewrite app_length; lia).
  rewrite take_app_alt by done.
  rewrite (drop_ge (Q ++ q)) by (rewrite app_length; lia). rewrite app_nil_r.
  assert (HQq : words (Q ++ q)) by by apply Forall_app.
  pose proof (f1_from_spec m h (Q ++ q) 16 16 Q Hm Hh Lm Lh HQq (le_n 16) HQ LQ) as (E1 & E2 & E3).
  rewrite bmw_f1_from. split; [|split; [exact E2|exact E3]]. rewrite <- E1. reflexivity.
Qed.

(** f2 *)
Lemma length_cons_inv {A} (l : list A) n : length l = S n -> exists x l', l = x :: l' /\ length l' = n.
Proof. destruct l as [|x l]; intros H; [discriminate|]. injection H as H. eauto. Qed.
Ltac split_list l H :=
  repeat (let x := fresh "x" in let l' := fresh "l" in
          apply length_cons_inv in H as (x & l' & -> & H); rename l' into l);
  apply nil_length_inv in H; subst l.
Lemma xl_spec q : length q = 32%nat -> bmw_xl q = bmw_XL q.
Proof.
  intros H. unfold bmw_xl. rewrite !aget_total by lia. unfold bmw_XL. split_list q H.
  cbn. by rewrite !Z.lxor_assoc, Z.lxor_0_r.
Qed.
Lemma xh_spec q : length q = 32%nat -> bmw_xh q (bmw_XL q) = bmw_XH q.
Proof.
  intros H. unfold bmw_xh. rewrite !aget_total by lia. unfold bmw_XL, bmw_XH. split_list q H.
  cbn. by rewrite !Z.lxor_assoc, !Z.lxor_0_r, ?Z.lxor_0_l.
Qed.
Lemma sum2 x y : wadd 32 x y = sum32 [x; y].
Proof. rewrite wadd32. unfold sum32, addw. cbn [foldr]. by rewrite Z.add_0_r. Qed.
Lemma sum3 x y z : wadd 32 (wadd 32 x y) z = sum32 [x; y; z].
Proof.
  rewrite !wadd32. unfold sum32, addw. cbn [foldr]. rewrite Zplus_mod_idemp_l, Z.add_0_r. f_equal. lia.
Qed.
Lemma xor3 x y z : Z.lxor (Z.lxor x y) z = xors [x; y; z].
Proof. unfold xors. cbn [foldr]. by rewrite Z.lxor_assoc, Z.lxor_0_r. Qed.
Definition bmw_f2_low (m q : list Z) (xl xh : Z) : list Z :=
  let shl n x := shlw 32 n x in
  let q i := q !!! (i : nat) in let m i := m !!! (i : nat) in
  [sum32 [xors [shl 5 xh; shrw 5 (q 16%nat); m 0%nat]; xors [xl; q 24%nat; q 0%nat]];
   sum32 [xors [shrw 7 xh; shl 8 (q 17%nat); m 1%nat]; xors [xl; q 25%nat; q 1%nat]];
   sum32 [xors [shrw 5 xh; shl 5 (q 18%nat); m 2%nat]; xors [xl; q 26%nat; q 2%nat]];
   sum32 [xors [shrw 1 xh; shl 5 (q 19%nat); m 3%nat]; xors [xl; q 27%nat; q 3%nat]];
   sum32 [xors [shrw 3 xh; q 20%nat; m 4%nat]; xors [xl; q 28%nat; q 4%nat]];
   sum32 [xors [shl 6 xh; shrw 6 (q 21%nat); m 5%nat]; xors [xl; q 29%nat; q 5%nat]];
   sum32 [xors [shrw 4 xh; shl 6 (q 22%nat); m 6%nat]; xors [xl; q 30%nat; q 6%nat]];
   sum32 [xors [shrw 11 xh; shl 2 (q 23%nat); m 7%nat]; xors [xl; q 31%nat; q 7%nat]]].
Definition bmw_f2_high (m q H : list Z) (XL XH : Z) : list Z :=
  let shl n x := shlw 32 n x in
  let q i := q !!! (i : nat) in let m i := m !!! (i : nat) in
    [sum32 [rol 32 9 (H !!! 4%nat); xors [XH; q 24%nat; m 8%nat]; xors [shl 8 XL; q 23%nat; q 8%nat]];
     sum32 [rol 32 10 (H !!! 5%nat); xors [XH; q 25%nat; m 9%nat]; xors [shrw 6 XL; q 16%nat; q 9%nat]];
     sum32 [rol 32 11 (H !!! 6%nat); xors [XH; q 26%nat; m 10%nat]; xors [shl 6 XL; q 17%nat; q 10%nat]];
     sum32 [rol 32 12 (H !!! 7%nat); xors [XH; q 27%nat; m 11%nat]; xors [shl 4 XL; q 18%nat; q 11%nat]];
     sum32 [rol 32 13 (H !!! 0%nat); xors [XH; q 28%nat; m 12%nat]; xors [shrw 3 XL; q 19%nat; q 12%nat]];
     sum32 [rol 32 14 (H !!! 1%nat); xors [XH; q 29%nat; m 13%nat]; xors [shrw 4 XL; q 20%nat; q 13%nat]];
     sum32 [rol 32 15 (H !!! 2%nat); xors [XH; q 30%nat; m 14%nat]; xors [shrw 7 XL; q 21%nat; q 14%nat]];
     sum32 [rol 32 16 (H !!! 3%nat); xors [XH; q 31%nat; m 15%nat]; xors [shrw 2 XL; q 22%nat; q 15%nat]]].
Lemma bmw_f2_split m q : bmw_f2 m q =
  bmw_f2_low m q (bmw_XL q) (bmw_XH q) ++
  bmw_f2_high m q (bmw_f2_low m q (bmw_XL q) (bmw_XH q)) (bmw_XL q) (bmw_XH q).
Proof. reflexivity. Qed.
Lemma f2_low m h q xl xh : length m = 16%nat -> length h = 16%nat -> length q = 32%nat ->
  foldl (fun h '(i, rhs) => <[i := rhs m h q xl xh]> h) h
    [(0%nat, bmw_h0); (1%nat, bmw_h1); (2%nat, bmw_h2); (3%nat, bmw_h3);
     (4%nat, bmw_h4); (5%nat, bmw_h5); (6%nat, bmw_h6); (7%nat, bmw_h7)] =
  bmw_f2_low m q xl xh ++ drop 8 h.
Proof.
  intros Lm Lh Lq. split_list h Lh.
  cbv [foldl insert list_insert bmw_h0 bmw_h1 bmw_h2 bmw_h3 bmw_h4 bmw_h5 bmw_h6 bmw_h7 drop app bmw_f2_low].
  rewrite !(aget_total m), !(aget_total q) by lia.
  rewrite !wshl32, !wshr32 by lia. rewrite !xor3. rewrite !sum2. reflexivity.
Qed.
Lemma f2_high m (h : list Z) A q xl xh : length m = 16%nat -> length h = 8%nat -> length A = 8%nat -> words A ->
  length q = 32%nat ->
  foldl (fun h '(i, rhs) => <[i := rhs m h q xl xh]> h) (A ++ h)
    [(8%nat, bmw_h8); (9%nat, bmw_h9); (10%nat, bmw_h10); (11%nat, bmw_h11);
     (12%nat, bmw_h12); (13%nat, bmw_h13); (14%nat, bmw_h14); (15%nat, bmw_h15)] =
  A ++ bmw_f2_high m q A xl xh.
Proof.
  intros Lm Lh LA HA Lq. split_list h Lh. split_list A LA. unfold words in HA.
  repeat match goal with H : Forall _ (_ :: _) |- _ => apply Forall_cons_1 in H as [? ?] end.
  cbv [foldl insert list_insert bmw_h8 bmw_h9 bmw_h10 bmw_h11 bmw_h12 bmw_h13 bmw_h14 bmw_h15 app].
  rewrite !(aget_total m), !(aget_total q) by lia.
  cbn [aget nth]. rewrite !wshl32, !wshr32 by lia. rewrite !xor3. rewrite !sum3.
  rewrite !circ_rol by (done || lia). reflexivity.
Qed.
Lemma f2_spec m h q : length m = 16%nat -> length h = 16%nat -> length q = 32%nat ->
  compress_f2 m h q = bmw_f2 m q.
Proof.
  intros Lm Lh Lq. unfold compress_f2. cbv zeta. rewrite xl_spec, xh_spec by done.
  rewrite bmw_f2_split. generalize (bmw_XL q) (bmw_XH q). intros xl xh.
  rewrite <- (f2_high m (drop 8 h)); [|done|rewrite drop_length; lia|done| |done].
  - rewrite <- f2_low by done. rewrite <- foldl_app. reflexivity.
  - unfold bmw_f2_low, words. repeat apply Forall_cons_2; try apply word_sum32. apply Forall_nil_2.
Qed.
Lemma f2_words m q : words (bmw_f2 m q) /\ length (bmw_f2 m q) = 16%nat.
Proof.
  split; [|done]. rewrite bmw_f2_split. apply Forall_app.
  split; repeat apply Forall_cons_2; try apply word_sum32; apply Forall_nil_2.
Qed.
Record bmw_ok (b : Bmw) : Prop := {
  ok_h : words (b_h b); ok_lh : length (b_h b) = 16%nat;
  ok_q : words (b_q b); ok_lq : length (b_q b) = 32%nat }.
Lemma compress_spec b m : bmw_ok b -> words m -> length m = 16%nat ->
  b_h (compress b m) = bmw_compress m (b_h b) /\ words (b_q (compress b m)) /\
  length (b_q (compress b m)) = 32%nat.
Proof.
  intros [Hh Lh Hq Lq] Hm Lm. unfold compress. cbv zeta. cbn [b_h b_q].
  rewrite f0_spec by done. destruct (f0_words m (b_h b)) as [W0 L0].
  destruct (f1_spec m (b_h b) (drop 16 (b_q b)) (bmw_f0 m (b_h b)) Hm Hh Lm Lh (Forall_drop _ 16 _ Hq) W0 L0
              ltac:(rewrite drop_length; lia)) as (-> & W1 & L1).
  rewrite f2_spec by done. done.
Qed.
Lemma compress_words m h : words (bmw_compress m h) /\ length (bmw_compress m h) = 16%nat.
Proof. apply f2_words. Qed.

(** ** The padded block *)
Lemma foldM_push p (input : list Z) a n buf : known_platform p -> 0 <= a -> vlen buf + n <= 64 -> 0 <= n ->
  foldM (fun buf i => if i <? vlen input then x <-- vget input i ;; vec_extend p buf [x] else vec_extend p buf [0])
    (seqZ a n) buf =
  Ok (buf ++ ((fun i => if i <? vlen input then nth (Z.to_nat i) input 0 else 0) <$> seqZ a n)).
Proof.
  intros Hp Ha Hb Hn. pose proof (known_isize p Hp) as Hi. revert a buf Ha Hb.
  pattern n. apply natlike_ind; [| |done]; clear n Hn.
  - intros a buf _ _. cbn. by rewrite app_nil_r.
  - intros n Hn IH a buf Ha Hb. rewrite seqZ_cons by lia. rewrite Z.pred_succ. cbn [foldM fmap list_fmap].
    assert (E : forall x, vec_extend p buf [x] = Ok (buf ++ [x])).
    { intros x. unfold vec_extend. replace (_ <=? _) with true; [done|]. symmetry. apply Z.leb_le.
      unfold vlen in *. simpl length. lia. }
    assert (R : forall x, foldM (fun buf i => if i <? vlen input then x <-- vget input i ;; vec_extend p buf [x] else vec_extend p buf [0])
      (seqZ (Z.succ a) n) (buf ++ [x]) = Ok ((buf ++ [x]) ++ ((fun i => if i <? vlen input then nth (Z.to_nat i) input 0 else 0) <$> seqZ (Z.succ a) n))).
    { intros x. apply IH; [lia|]. unfold vlen in *. rewrite app_length. simpl length. lia. }
    destruct (a <? vlen input) eqn:Hlt.
    + apply Z.ltb_lt in Hlt. rewrite vget_nth by lia. cbn [obind]. rewrite E. cbn [obind]. rewrite R.
      by rewrite <- app_assoc.
    + rewrite E. cbn [obind]. rewrite R. by rewrite <- app_assoc.
Qed.
Lemma map_fill (input : list Z) n : (length input <= n)%nat ->
  (fun i => if i <? vlen input then nth (Z.to_nat i) input 0 else 0) <$> seqZ 0 (Z.of_nat n) =
  input ++ replicate (n - length input) 0.
Proof.
  intros H. apply list_eq. intros i. rewrite list_lookup_fmap.
  destruct (decide (i < n)%nat) as [Hi|Hi].
  - rewrite lookup_seqZ_lt by lia. cbn [fmap option_fmap option_map]. rewrite Z.add_0_l, Nat2Z.id.
    destruct (Z.of_nat i <? vlen input) eqn:E.
    + apply Z.ltb_lt in E. unfold vlen in E. rewrite lookup_app_l by lia.
      destruct (input !! i) as [x|] eqn:Ex; [|apply lookup_ge_None in Ex; lia].
      f_equal. by apply nth_lookup_Some.
    + apply Z.ltb_ge in E. unfold vlen in E. rewrite lookup_app_r by lia.
      symmetry. apply lookup_replicate. lia.
  - rewrite lookup_seqZ_ge by lia. cbn. symmetry. apply lookup_ge_None. rewrite app_length, replicate_length. lia.
Qed.
Lemma vset_app (A T : list Z) i x : (length A <= i < length A + length T)%nat ->
  vset (A ++ T) (Z.of_nat i) x = Ok (A ++ <[(i - length A)%nat := x]> T).
Proof.
  intros H. unfold vset. replace (_ && _) with true.
  - rewrite Nat2Z.id. by rewrite insert_app_r_alt by lia.
  - symmetry. apply andb_true_iff. unfold vlen. rewrite app_length. split; [apply Z.leb_le|apply Z.ltb_lt]; lia.
Qed.
Lemma set_last8 (A T bl : list Z) : length A = 56%nat -> length T = 8%nat -> length bl = 8%nat ->
  foldM (fun buf '(i, j) => vset buf i (aget bl j))
    [(56, 0%nat); (57, 1%nat); (58, 2%nat); (59, 3%nat);
     (60, 4%nat); (61, 5%nat); (62, 6%nat); (63, 7%nat)] (A ++ T) = Ok (A ++ bl).
Proof.
  intros LA LT Lb. split_list bl Lb. split_list T LT. cbn [foldM].
  rewrite (vset_app A _ 56) by (rewrite LA; simpl length; lia). cbn [obind].
  rewrite (vset_app A _ 57) by (rewrite LA, insert_length; simpl length; lia). cbn [obind].
  rewrite (vset_app A _ 58) by (rewrite LA, !insert_length; simpl length; lia). cbn [obind].
  rewrite (vset_app A _ 59) by (rewrite LA, !insert_length; simpl length; lia). cbn [obind].
  rewrite (vset_app A _ 60) by (rewrite LA, !insert_length; simpl length; lia). cbn [obind].
  rewrite (vset_app A _ 61) by (rewrite LA, !insert_length; simpl length; lia). cbn [obind].
  rewrite (vset_app A _ 62) by (rewrite LA, !insert_length; simpl length; lia). cbn [obind].
  rewrite (vset_app A _ 63) by (rewrite LA, !insert_length; simpl length; lia). cbn [obind].
  rewrite LA. reflexivity.
Qed.
(** The block the code hashes for an input of at most 63 bytes. *)
Definition code_block (input : list Z) : list Z :=
  take 56 (input ++ 0x80 :: replicate 64 0) ++ le_bytes 8 (8 * Z.of_nat (length input)).
Lemma bmw_buf_Ok p input : known_platform p -> (length input < 64)%nat -> bmw_buf p input = Ok (code_block input).
Proof.
  intros Hp H. unfold bmw_buf. rewrite for_range_foldM by lia.
  rewrite (foldM_push p input 0 (64 - 0) []) by (done || (unfold vlen; simpl; lia)). cbn [obind app].
  change (64 - 0) with (Z.of_nat 64). rewrite map_fill by lia.
  unfold vlen at 1. rewrite vset_app by (rewrite replicate_length; lia). cbn [obind].
  rewrite Nat.sub_diag. replace (64 - length input)%nat with (S (63 - length input)) by lia.
  change (<[0%nat := 128]> (replicate (S (63 - length input)) 0)) with (128 :: replicate (63 - length input) 0).
  set (B := input ++ 128 :: replicate (63 - length input) 0).
  assert (LB : length B = 64%nat) by (unfold B; rewrite app_length; cbn [length]; rewrite replicate_length; lia).
  cbv zeta. rewrite <- (take_drop 56 B), to_le_bytes_spec.
  rewrite set_last8; [|rewrite take_length; lia|rewrite drop_length; lia|done].
  f_equal. unfold code_block. f_equal.
  - unfold B. destruct (decide (56 <= length input)%nat).
    + by rewrite !take_app_le by done.
    + rewrite !take_app_ge by lia. f_equal. replace (56 - length input)%nat with (S (55 - length input)) by lia.
      cbn [take]. f_equal. rewrite !take_replicate. f_equal. lia.
  - f_equal. unfold wshl. rewrite Z.land_ones, Z.shiftl_mul_pow2 by lia. unfold vlen.
    rewrite Z.mod_small by lia. lia.
Qed.
Lemma bmw_buf_Panic p input : known_platform p -> (64 <= length input)%nat -> bmw_buf p input = Panic.
Proof.
  intros Hp H. unfold bmw_buf. rewrite for_range_foldM by lia.
  rewrite (foldM_push p input 0 (64 - 0) []) by (done || (unfold vlen; simpl; lia)). cbn [obind app].
  unfold vset at 1. match goal with |- context [if ?b then _ else _] => destruct b eqn:E end; [|done].
  apply andb_true_iff in E as [_ E]. apply Z.ltb_lt in E. unfold vlen in E.
  rewrite fmap_length, seqZ_length in E. lia.
Qed.
Lemma code_block_length input : (length input < 64)%nat -> length (code_block input) = 64%nat.
Proof.
  intros H. unfold code_block. rewrite app_length, take_length, app_length, le_bytes_length. cbn [length].
  rewrite replicate_length. lia.
Qed.
Lemma code_block_byte input : Forall byte input -> Forall byte (code_block input).
Proof.
  intros H. unfold code_block. apply Forall_app. split; [|apply le_bytes_byte].
  apply Forall_take, Forall_app. split; [done|]. apply Forall_cons_2; [unfold byte; lia|].
  apply Forall_replicate. unfold byte. lia.
Qed.
Lemma foldM_fill (f : Z -> outcome Z) (g : Z -> Z) n a (m : list Z) :
  (forall i, 0 <= i < 16 -> f i = Ok (g i)) -> (a + n <= 16)%nat -> length m = 16%nat ->
  foldM (fun m i => w <-- f i ;; vset m i w) (Z.of_nat <$> seq a n) m =
  Ok (take a m ++ (g <$> (Z.of_nat <$> seq a n)) ++ drop (a + n) m).
Proof.
  intros Hf. revert a m. induction n as [|n IH]; intros a m H L; cbn [seq fmap list_fmap foldM].
  - by rewrite Nat.add_0_r, app_nil_l, take_drop.
  - rewrite Hf by lia. cbn [obind]. unfold vset.
    replace (_ && _) with true.
    2:{ symmetry. apply andb_true_iff. unfold vlen. split; [apply Z.leb_le|apply Z.ltb_lt]; lia. }
    cbn [obind]. rewrite Nat2Z.id, IH by (rewrite ?insert_length; lia). f_equal.
    rewrite (take_S_r _ _ (g (Z.of_nat a))) by (apply list_lookup_insert; lia).
    rewrite take_insert by lia. rewrite drop_insert_gt by lia. rewrite <- app_assoc. cbn [app].
    replace (S a + n)%nat with (a + S n)%nat by lia. reflexivity.
Qed.
Lemma bmw_words_Ok buf m : length buf = 64%nat -> Forall byte buf -> length m = 16%nat ->
  bmw_words buf m = Ok (bmw_block_words buf).
Proof.
  intros Lb Hb Lm. unfold bmw_words. rewrite for_range_foldM by lia.
  set (g := fun i => le_number (take 4 (drop (Z.to_nat (4 * i)) buf))).
  assert (Hf : forall i, 0 <= i < 16 -> (bs <-- slice buf (4 * i) (4 * i + 4) ;; read_u32_le bs) = Ok (g i)).
  { intros i Hi. rewrite slice_Ok by (unfold vlen; lia). cbn [obind].
    replace (Z.to_nat (4 * i + 4 - 4 * i)) with 4%nat by lia.
    apply read_u32_le_spec; [rewrite take_length, drop_length; lia|by apply Forall_take, Forall_drop]. }
  transitivity (foldM (fun m i => w <-- (bs <-- slice buf (4 * i) (4 * i + 4) ;; read_u32_le bs) ;; vset m i w)
    (Z.of_nat <$> seq 0 16) m).
  { change (seqZ 0 (16 - 0)) with (Z.of_nat <$> seq 0 16). apply foldM_ext. intros s i _.
    by destruct (slice buf (4 * i) (4 * i + 4)). }
  rewrite (foldM_fill _ g) by (done || lia). f_equal.
  rewrite drop_ge, app_nil_r by lia. unfold bmw_block_words, chunks. rewrite Lb.
  cbn [take app]. change (64 / 4)%nat with 16%nat.
  rewrite <- !list_fmap_compose. apply list_fmap_ext. intros k i Hi. apply lookup_seq in Hi.
  unfold compose, g. do 3 f_equal. lia.
Qed.
Lemma bmw_block_words_ok buf : length buf = 64%nat -> Forall byte buf ->
  words (bmw_block_words buf) /\ length (bmw_block_words buf) = 16%nat.
Proof.
  intros Lb Hb. unfold bmw_block_words, chunks. rewrite Lb. change (64 / 4)%nat with 16%nat. split; [|done].
  apply Forall_fmap, Forall_fmap, Forall_seq. intros i Hi. unfold compose. apply word_le_number4.
  - rewrite take_length, drop_length. lia.
  - by apply Forall_take, Forall_drop.
Qed.
Lemma foldM_extend_idx p h l acc : known_platform p -> (length acc + 4 * length l <= 32)%nat ->
  foldM (fun out i => vec_extend p out (to_le_bytes 4 (aget h i))) l acc =
  Ok (acc ++ ((aget h <$> l) ≫= le_bytes 4)).
Proof.
  intros Hp H. rewrite <- (foldM_extend p (aget h <$> l)) by (try done; by rewrite fmap_length).
  clear H. revert acc. induction l as [|i l IH]; intros acc; [done|]. cbn [foldM fmap list_fmap].
  destruct (vec_extend p acc (to_le_bytes 4 (aget h i))); [apply IH|done..].
Qed.
(** The value on every input of at most 63 bytes. *)
Lemma bmw_new_ok : bmw_ok bmw_new /\ b_h bmw_new = bmw_iv /\ length (b_m bmw_new) = 16%nat.
Proof.
  split; [|split; vm_compute; reflexivity].
  split; [|done| |done]; apply (bool_decide_unpack (Forall (fun x => 0 <= x < 2 ^ 32) _)); vm_compute; exact I.
Qed.
Lemma final_ok : words FINAL /\ FINAL = bmw_final /\ length FINAL = 16%nat.
Proof.
  split; [|split; vm_compute; reflexivity].
  apply (bool_decide_unpack (Forall (fun x => 0 <= x < 2 ^ 32) _)); vm_compute; exact I.
Qed.
#[global] Opaque bmw_compress compress bmw_iv bmw_final FINAL bmw_new.
(** [sum] with the initial record, the constant and the compression left abstract. *)
Definition bmw_sum_gen (nb : Bmw) (fin : list Z) (comp : Bmw -> list Z -> Bmw) (p : platform) (input : list Z) :
  outcome (list Z) :=
  buf <-- bmw_buf p input ;;
  m <-- bmw_words buf (b_m nb) ;;
  let b := comp (MkBmw m (b_h nb) (b_h2 nb) (b_q nb)) m in
  let b := comp (MkBmw (b_m b) fin (b_h b) (b_q b)) (b_h b) in
  foldM (fun out i => vec_extend p out (to_le_bytes 4 (aget (b_h b) i)))
    [8; 9; 10; 11; 12; 13; 14; 15]%nat [].
Lemma bmw_sum_gen_eq p input : bmw_sum p input = bmw_sum_gen bmw_new FINAL compress p input.
Proof. unfold bmw_sum, bmw_sum_gen. reflexivity. Qed.
Lemma bmw_sum_gen_value nb fin comp C iv p input :
  bmw_ok nb -> length (b_m nb) = 16%nat -> b_h nb = iv -> words fin -> length fin = 16%nat ->
  (forall b m, bmw_ok b -> words m -> length m = 16%nat ->
     b_h (comp b m) = C m (b_h b) /\ words (b_q (comp b m)) /\ length (b_q (comp b m)) = 32%nat) ->
  (forall m h : list Z, words (C m h) /\ length (C m h) = 16%nat) ->
  known_platform p -> (length input < 64)%nat -> Forall byte input ->
  bmw_sum_gen nb fin comp p input =
  Ok (drop 8 (C (C (bmw_block_words (code_block input)) iv) fin) ≫= le_bytes 4).
Proof.
  intros [Hh Lh Hq Lq] Lm Eh Hf Lf HC HW Hp H Hb. unfold bmw_sum_gen. rewrite bmw_buf_Ok by done. cbn [obind].
  pose proof (code_block_length input H) as Lc. pose proof (code_block_byte input Hb) as Hc.
  rewrite bmw_words_Ok by done. cbn [obind]. cbv zeta.
  destruct (bmw_block_words_ok _ Lc Hc) as [Hw Lw].
  generalize dependent (bmw_block_words (code_block input)). intros m Hw Lw.
  set (b0 := MkBmw m (b_h nb) (b_h2 nb) (b_q nb)).
  destruct (HC b0 m) as (E1 & Hq1 & Lq1); [by split|done|done|].
  change (b_h b0) with (b_h nb) in E1. rewrite Eh in E1. generalize dependent (comp b0 m). intros b1 E1 Hq1 Lq1.
  set (b2 := MkBmw (b_m b1) fin (b_h b1) (b_q b1)).
  destruct (HC b2 (b_h b1)) as (E2 & _ & _).
  { by split. } { rewrite E1. apply HW. } { rewrite E1. apply HW. }
  change (b_h b2) with fin in E2. rewrite foldM_extend_idx; [|exact Hp|simpl length; lia].
  rewrite E2, E1.
  assert (L3 : length (C (C m iv) fin) = 16%nat) by apply HW.
  clear -L3. generalize dependent (C (C m iv) fin). intros r L3. split_list r L3. reflexivity.
Qed.
Lemma bmw_sum_value p input : known_platform p -> (length input < 64)%nat -> Forall byte input ->
  bmw_sum p input = Ok (bmw_one_block (code_block input)).
Proof.
  intros Hp H Hb. rewrite bmw_sum_gen_eq. destruct bmw_new_ok as (N & Eh & Lm).
  destruct final_ok as (Hf & Ef & Lf).
  rewrite (bmw_sum_gen_value bmw_new FINAL compress bmw_compress bmw_iv p input N Lm Eh Hf Lf compress_spec
             compress_words Hp H Hb).
  rewrite Ef. reflexivity.
Qed.
Lemma bmw_sum_long p input : known_platform p -> (64 <= length input)%nat -> bmw_sum p input = Panic.
Proof. intros Hp H. unfold bmw_sum. cbv zeta. by rewrite bmw_buf_Panic. Qed.
Lemma bmw_one_block_length b : length (bmw_one_block b) = 32%nat.
Proof.
  unfold bmw_one_block. destruct (compress_words (bmw_compress (bmw_block_words b) bmw_iv) bmw_final) as [_ L2].
  generalize dependent (bmw_compress (bmw_compress (bmw_block_words b) bmw_iv) bmw_final).
  intros r L2. split_list r L2. reflexivity.
Qed.
Lemma bmw_sum_short p input : known_platform p -> (length input <= 55)%nat -> Forall byte input ->
  bmw_sum p input = Ok (bmw256 input).
Proof.
  intros Hp H Hb. rewrite bmw_sum_value by (done || lia). f_equal. unfold bmw256.
  assert (E : code_block input = bmw_pad input).
  { unfold code_block, bmw_pad. rewrite take_app_ge by lia. rewrite <- app_assoc. f_equal.
    replace (56 - length input)%nat with (S (55 - length input)) by lia. cbn [take app]. f_equal. f_equal.
    rewrite take_replicate. f_equal.
    destruct (decide (length input = 55%nat)) as [->|]; [reflexivity|].
    rewrite (Nat.mod_small (length input + 9)) by lia.
    rewrite Nat.mod_small by lia. lia. }
  assert (L : length (bmw_pad input) = 64%nat) by (rewrite <- E; apply code_block_length; lia).
  assert (C : chunks 64 (bmw_pad input) = [bmw_pad input]).
  { unfold chunks. rewrite L. change (64 / 64)%nat with 1%nat. cbn [seq fmap list_fmap].
    change (64 * 0)%nat with 0%nat. rewrite drop_0, take_ge by lia. done. }
  rewrite C. cbn [foldl]. rewrite E. reflexivity.
Qed.
