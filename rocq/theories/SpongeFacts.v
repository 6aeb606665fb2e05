(** * The sponge transformations are permutations (lemmas for PSponge.v) *)
From Verif Require Import Machine MachineFacts MUtils WordFacts Refine RefineInput.
From Verif Require MLyra2.
From Verif Require Import SpecWord SpecBlake2b SpecBlake2bFull SpecLyra2 SpecSponge.
#[local] Opaque blake2b_round.

(** ** Permutations compose *)
Definition inverts (f g : list Z -> list Z) : Prop :=
  forall v, state16 v -> state16 (f v) /\ g (f v) = v.
Lemma permutes_inverse f g : inverts f g -> inverts g f -> permutes f.
Proof.
  intros Hf Hg. split; [|split].
  - intros v H. apply Hf, H.
  - intros v v' H H' E. rewrite <- (proj2 (Hf v H)), E. apply Hf, H'.
  - intros w H. exists (g w). apply Hg, H.
Qed.
Lemma permutes_comp f g : permutes f -> permutes g -> permutes (fun v => f (g v)).
Proof.
  intros (Hf1 & Hf2 & Hf3) (Hg1 & Hg2 & Hg3). split; [|split].
  - auto.
  - intros v v' H H' E. apply Hg2; auto.
  - intros w H. destruct (Hf3 w H) as (u & Hu & <-). destruct (Hg3 u Hu) as (v & Hv & <-). eauto.
Qed.
Lemma permutes_ext f g : (forall v, state16 v -> f v = g v) -> permutes g -> permutes f.
Proof.
  intros E (H1 & H2 & H3). split; [|split].
  - intros v H. rewrite E by done. auto.
  - intros v v' H H'. rewrite !E by done. auto.
  - intros w H. destruct (H3 w H) as (v & Hv & <-). exists v. rewrite E by done. done.
Qed.
Lemma permutes_iter n f : permutes f -> permutes (Nat.iter n f).
Proof.
  intros H. induction n as [|n IH].
  - apply (permutes_inverse (fun v => v) (fun v => v)); by intros v Hv.
  - exact (permutes_comp f (Nat.iter n f) H IH).
Qed.

(** ** The elementary steps of G *)
Lemma ror_ror w n x : 0 <= n <= w -> word w x -> ror w (w - n) (ror w n x) = x.
Proof.
  intros Hn [Hx Hx']. unfold ror. replace (w - (w - n)) with n by lia.
  assert (P : 0 < 2 ^ n) by (apply Z.pow_pos_nonneg; lia).
  assert (P' : 0 < 2 ^ (w - n)) by (apply Z.pow_pos_nonneg; lia).
  assert (E : 2 ^ w = 2 ^ n * 2 ^ (w - n)) by (rewrite <- Z.pow_add_r by lia; f_equal; clear; lia).
  assert (0 <= x / 2 ^ n < 2 ^ (w - n)).
  { split; [apply Z.div_pos; lia|]. apply Z.div_lt_upper_bound; [done|]. by rewrite <- E. }
  rewrite Z.div_add, Z.mod_add by lia.
  rewrite (Z.div_small (x / 2 ^ n)), (Z.mod_small (x / 2 ^ n)) by done.
  pose proof (Z.div_mod x (2 ^ n) ltac:(lia)). lia.
Qed.
Lemma addw_subw x y : word 64 x -> subw 64 (addw 64 x y) y = x.
Proof.
  intros H. unfold subw, addw. rewrite Zminus_mod_idemp_l.
  replace (x + y - y) with x by lia. by apply Z.mod_small.
Qed.
Lemma subw_addw x y : word 64 x -> addw 64 (subw 64 x y) y = x.
Proof.
  intros H. unfold subw, addw. rewrite Zplus_mod_idemp_l.
  replace (x - y + y) with x by lia. by apply Z.mod_small.
Qed.
Lemma lxor_cancel x y : Z.lxor (Z.lxor x y) y = x.
Proof. by rewrite Z.lxor_assoc, Z.lxor_nilpotent, Z.lxor_0_r. Qed.

Definition upd (h : Z -> Z -> Z) (i j : nat) (v : list Z) : list Z := <[i := h (v !!! i) (v !!! j)]> v.
Lemma upd_inverts h h' i j : (i < 16)%nat -> (j < 16)%nat -> i <> j ->
  (forall x y, word 64 x -> word 64 y -> word 64 (h x y) /\ h' (h x y) y = x) ->
  inverts (upd h i j) (upd h' i j).
Proof.
  intros Hi Hj Hij Hh v Hv. unfold upd.
  destruct (Hh (v !!! i) (v !!! j)) as [H1 H2]; [by apply state16_word..|].
  split; [by apply state16_insert|]. pose proof (proj1 Hv) as Hlen.
  rewrite list_lookup_total_insert, list_lookup_total_insert_ne by lia. rewrite H2.
  rewrite list_insert_insert. apply list_insert_id, list_lookup_lookup_total_lt. lia.
Qed.
Definition add_step := upd (addw 64).
Definition rot_step (n : Z) := upd (fun x y => ror 64 n (Z.lxor x y)).
Lemma add_step_permutes i j : (i < 16)%nat -> (j < 16)%nat -> i <> j -> permutes (add_step i j).
Proof.
  intros. apply permutes_inverse with (g := upd (subw 64) i j).
  - apply upd_inverts; try done. intros x y Hx Hy. split; [apply word_addw; lia|by apply addw_subw].
  - apply upd_inverts; try done. intros x y Hx Hy. split; [|by apply subw_addw].
    apply Z.mod_pos_bound. lia.
Qed.
Lemma rot_step_permutes n i j : 0 <= n <= 64 -> (i < 16)%nat -> (j < 16)%nat -> i <> j ->
  permutes (rot_step n i j).
Proof.
  intros Hn ???. apply permutes_inverse with (g := upd (fun x y => Z.lxor (ror 64 (64 - n) x) y) i j).
  - apply upd_inverts; try done. intros x y Hx Hy. split.
    + apply word_ror; [done|]. apply word_lxor; [lia|done..].
    + rewrite ror_ror by (done || (apply word_lxor; [lia|done..])). apply lxor_cancel.
  - apply upd_inverts; try done. intros x y Hx Hy.
    assert (W : word 64 (ror 64 (64 - n) x)) by (apply word_ror; [lia|done]). split.
    + apply word_lxor; [lia|done..].
    + rewrite lxor_cancel. pose proof (ror_ror 64 (64 - n) x ltac:(lia) Hx) as E.
      by replace (64 - (64 - n)) with n in E by lia.
Qed.
Lemma G_permutes i j k l : (i < 16)%nat -> (j < 16)%nat -> (k < 16)%nat -> (l < 16)%nat ->
  i <> j -> i <> l -> j <> k -> k <> l -> permutes (fun v => G v (i, j, k, l)).
Proof.
  intros. apply permutes_ext with (g := fun v =>
    rot_step 63 j k (add_step k l (rot_step 16 l i (add_step i j
      (rot_step 24 j k (add_step k l (rot_step 32 l i (add_step i j v)))))))); [done|].
  do 7 first [ apply (permutes_comp (rot_step _ _ _)); [apply rot_step_permutes; lia|]
               | apply (permutes_comp (add_step _ _)); [apply add_step_permutes; lia|] ].
  apply add_step_permutes; lia.
Qed.
Lemma blake2b_round_permutes : permutes blake2b_round.
Proof.
  apply permutes_ext with (1 := fun v _ => blake2b_round_unfold v).
  apply (permutes_comp (fun v => G v _)); [apply G_permutes; lia|].
  apply (permutes_comp (fun v => G v _)); [apply G_permutes; lia|].
  apply (permutes_comp (fun v => G v _)); [apply G_permutes; lia|].
  apply (permutes_comp (fun v => G v _)); [apply G_permutes; lia|].
  apply (permutes_comp (fun v => G v _)); [apply G_permutes; lia|].
  apply (permutes_comp (fun v => G v _)); [apply G_permutes; lia|].
  apply (permutes_comp (fun v => G v _)); [apply G_permutes; lia|].
  apply G_permutes; lia.
Qed.
Lemma round12_permutes : permutes round12.
Proof. apply permutes_iter, blake2b_round_permutes. Qed.
Lemma round_lyra_permutes : permutes MLyra2.round_lyra.
Proof. exact (permutes_ext _ _ round_lyra_spec blake2b_round_permutes). Qed.
Lemma reduced_permutes : permutes MLyra2.reduced_blake2b_lyra.
Proof. exact round_lyra_permutes. Qed.
Lemma blake2b_lyra_permutes : permutes MLyra2.blake2b_lyra.
Proof. exact (permutes_ext _ _ blake2b_lyra_spec (permutes_iter 12 _ blake2b_round_permutes)). Qed.

(** ** Absorption *)
Lemma zip_xor_inj (s a b : list Z) : length a = length s -> length b = length s ->
  zip_with Z.lxor s a = zip_with Z.lxor s b -> a = b.
Proof.
  revert a b. induction s as [|x s IH]; intros [|y a] [|z b] Ha Hb H; try discriminate; [done|].
  simpl in H. injection H as H1 H2. f_equal; [|apply IH; auto].
  by rewrite <- (lxor_cancel y x), (Z.lxor_comm y), H1, (Z.lxor_comm x), lxor_cancel.
Qed.
Lemma zip_xor_inj_l (s s' a : list Z) : length a = length s -> length a = length s' ->
  zip_with Z.lxor s a = zip_with Z.lxor s' a -> s = s'.
Proof.
  revert s s'. induction a as [|x a IH]; intros [|y s] [|z s'] Ha Hb H; try discriminate; [done|].
  simpl in H. injection H as H1 H2. f_equal; [|apply IH; auto].
  by rewrite <- (lxor_cancel y x), H1, lxor_cancel.
Qed.
Lemma absorb_drop st b : (length b <= length st)%nat -> drop (length b) (absorb st b) = drop (length b) st.
Proof.
  intros H. unfold absorb. apply drop_app_alt. rewrite zip_with_length, take_length. lia.
Qed.
Lemma absorb_take st b : (length b <= length st)%nat ->
  take (length b) (absorb st b) = zip_with Z.lxor (take (length b) st) b.
Proof.
  intros H. unfold absorb. apply take_app_alt. rewrite zip_with_length, take_length. lia.
Qed.
Lemma absorb_inj st st' b b' : length b = length b' -> length st = length st' ->
  (length b <= length st)%nat -> absorb st b = absorb st' b' ->
  drop (length b) st = drop (length b) st' /\ (st = st' <-> b = b').
Proof.
  intros Hb Hs Hl E.
  assert (D : drop (length b) st = drop (length b) st').
  { rewrite <- absorb_drop by done. rewrite E, Hb. apply absorb_drop. lia. }
  assert (T : zip_with Z.lxor (take (length b) st) b = zip_with Z.lxor (take (length b') st') b').
  { rewrite <- !absorb_take by lia. by rewrite E, Hb. }
  split; [exact D|]. split.
  - intros <-. rewrite <- Hb in T. eapply zip_xor_inj, T; rewrite take_length; lia.
  - intros <-. rewrite <- (take_drop (length b) st), <- (take_drop (length b) st'), D. f_equal.
    eapply zip_xor_inj_l, T; rewrite take_length; lia.
Qed.
Lemma absorb_state n st w : state16 st -> (n <= 16)%nat -> (n <= length w)%nat ->
  Forall (word 64) (take n w) -> state16 (absorb st (take n w)).
Proof. intros. apply absorb_state16; [done|rewrite take_length; lia|done]. Qed.
Lemma absorb_round_inj n st st' w w' : (n <= 16)%nat ->
  state16 st -> state16 st' -> (n <= length w)%nat -> (n <= length w')%nat ->
  Forall (word 64) (take n w) -> Forall (word 64) (take n w') ->
  round12 (absorb st (take n w)) = round12 (absorb st' (take n w')) ->
  drop n st = drop n st' /\ (st = st' <-> take n w = take n w').
Proof.
  intros Hn Hs Hs' Hl Hl' Hw Hw' E.
  apply round12_permutes in E; [|by apply absorb_state..].
  pose proof (absorb_inj st st' (take n w) (take n w')) as A.
  rewrite !take_length, !Nat.min_l in A by done.
  apply A; [done|rewrite (proj1 Hs), (proj1 Hs'); done|rewrite (proj1 Hs); lia|done].
Qed.
Lemma absorb_safe_inj st st' w w' s : state16 st -> state16 st' ->
  (8 <= length w)%nat -> (8 <= length w')%nat -> Forall (word 64) w -> Forall (word 64) w' ->
  MLyra2.absorb_block_blake2_safe st w = Ok s -> MLyra2.absorb_block_blake2_safe st' w' = Ok s ->
  drop 8 st = drop 8 st' /\ (st = st' <-> take 8 w = take 8 w').
Proof.
  intros Hs Hs' Hl Hl' Hw Hw' E E'.
  rewrite (proj1 (absorb_safe_Ok st w Hs Hl Hw)) in E.
  rewrite (proj1 (absorb_safe_Ok st' w' Hs' Hl' Hw')) in E'.
  assert (Q : round12 (absorb st (take 8 w)) = round12 (absorb st' (take 8 w'))) by congruence.
  exact (absorb_round_inj 8 st st' w w' ltac:(clear; lia) Hs Hs' Hl Hl' (Forall_take _ 8 _ Hw) (Forall_take _ 8 _ Hw') Q).
Qed.
Lemma absorb_block_inj st st' w w' s : state16 st -> state16 st' ->
  (12 <= length w)%nat -> (12 <= length w')%nat -> Forall (word 64) w -> Forall (word 64) w' ->
  MLyra2.absorb_block st w = Ok s -> MLyra2.absorb_block st' w' = Ok s ->
  drop 12 st = drop 12 st' /\ (st = st' <-> take 12 w = take 12 w').
Proof.
  intros Hs Hs' Hl Hl' Hw Hw' E E'.
  rewrite (proj1 (absorb_block_Ok st w Hs Hl (Forall_take _ 12 _ Hw))) in E.
  rewrite (proj1 (absorb_block_Ok st' w' Hs' Hl' (Forall_take _ 12 _ Hw'))) in E'.
  assert (Q : round12 (absorb st (take 12 w)) = round12 (absorb st' (take 12 w'))) by congruence.
  exact (absorb_round_inj 12 st st' w w' ltac:(clear; lia) Hs Hs' Hl Hl' (Forall_take _ 12 _ Hw) (Forall_take _ 12 _ Hw') Q).
Qed.
(** Totality and panics of the two absorptions. *)
Lemma foldM_xor_in_short w l st : (exists j, j ∈ l /\ (length w <= j)%nat) ->
  foldM (MLyra2.xor_in w) l st = Panic.
Proof.
  revert st. induction l as [|i l IH]; intros st (j & Hj & Hw).
  - by apply elem_of_nil in Hj.
  - cbn [foldM]. unfold MLyra2.xor_in at 1. unfold vget at 1.
    destruct (decide (length w <= i)%nat) as [Hi|Hi].
    + match goal with |- context [if ?b then _ else _] => destruct b eqn:Hb end; [|done].
      apply andb_true_iff in Hb as [_ Hb]. apply Z.ltb_lt in Hb. unfold vlen in Hb. lia.
    + apply elem_of_cons in Hj as [->|Hj]; [lia|].
      match goal with |- context [if ?b then _ else _] => destruct b end; [|done]. cbn [obind]. apply IH. eauto.
Qed.
Lemma absorb_safe_short st w : (length w < 8)%nat -> MLyra2.absorb_block_blake2_safe st w = Panic.
Proof.
  intros H. unfold MLyra2.absorb_block_blake2_safe. rewrite foldM_xor_in_short; [done|].
  exists 7%nat. split; [|lia]. by repeat constructor.
Qed.
Lemma absorb_block_short st w : (length w < 12)%nat -> MLyra2.absorb_block st w = Panic.
Proof.
  intros H. unfold MLyra2.absorb_block. rewrite foldM_xor_in_short; [done|].
  exists 11%nat. split; [|lia]. by repeat constructor.
Qed.

(** ** The zero state *)
Lemma zero_state16 : state16 zero_state.
Proof. split; [done|]. apply Forall_replicate. done. Qed.
Lemma round_zero : blake2b_round zero_state = zero_state.
Proof. vm_compute. reflexivity. Qed.
Lemma iter_round_zero n : Nat.iter n blake2b_round zero_state = zero_state.
Proof.
  induction n as [|n IH]; [done|].
  change (blake2b_round (Nat.iter n blake2b_round zero_state) = zero_state). by rewrite IH, round_zero.
Qed.
Lemma permutes_zero f v : permutes f -> f zero_state = zero_state -> state16 v ->
  f v = zero_state <-> v = zero_state.
Proof.
  intros (_ & H & _) Z Hv. split; [|by intros ->].
  intros E. apply H; [done|apply zero_state16|congruence].
Qed.
Lemma round_lyra_zero v : state16 v -> MLyra2.round_lyra v = zero_state <-> v = zero_state.
Proof.
  apply permutes_zero; [apply round_lyra_permutes|]. rewrite round_lyra_spec by apply zero_state16.
  apply round_zero.
Qed.
Lemma blake2b_lyra_zero v : state16 v -> MLyra2.blake2b_lyra v = zero_state <-> v = zero_state.
Proof.
  apply permutes_zero; [apply blake2b_lyra_permutes|]. rewrite blake2b_lyra_spec by apply zero_state16.
  apply iter_round_zero.
Qed.
Lemma absorb_init_nonzero b : length b = 8%nat -> absorb sponge_init b <> zero_state.
Proof.
  intros Hb Z. pose proof (absorb_drop sponge_init b) as D.
  rewrite Hb, Z in D. specialize (D ltac:(rewrite (proj1 sponge_init_state16); lia)).
  revert D. vm_compute. discriminate.
Qed.
Lemma Ok_inj {A} (x y : A) : Ok x = Ok y -> x = y.
Proof. congruence. Qed.
Lemma round12_zero : round12 zero_state = zero_state.
Proof. exact (iter_round_zero 12). Qed.
#[local] Opaque round12.
Lemma first_absorb_nonzero w s : (8 <= length w)%nat -> Forall (word 64) w ->
  MLyra2.absorb_block_blake2_safe MLyra2.init_state w = Ok s -> s <> zero_state.
Proof.
  intros Hl Hw E Es. rewrite init_state_spec in E.
  rewrite (proj1 (absorb_safe_Ok _ w sponge_init_state16 Hl Hw)), Es in E. apply Ok_inj in E.
  assert (S : state16 (absorb sponge_init (take 8 w))).
  { clear E. apply absorb_state; [apply sponge_init_state16|lia|done|by apply Forall_take]. }
  rewrite <- round12_zero in E.
  apply (proj1 (proj2 round12_permutes) _ _ S zero_state16) in E.
  apply absorb_init_nonzero in E; [exact E|]. clear E. rewrite take_length. lia.
Qed.

(** ** RFC 7693 *)
Lemma mix_zero v q : mix v q 0 0 = G v q.
Proof. destruct q as [[[a b] c] d]. unfold mix, G, addw. cbv zeta. by rewrite !Z.add_0_r. Qed.
Lemma zero_words i : zero_state !!! i = 0 \/ (16 <= i)%nat.
Proof.
  destruct (decide (i < 16)%nat); [left|right; lia]. unfold zero_state. by apply lookup_total_replicate_2.
Qed.
Lemma mix_round_zero s v : length s = 16%nat -> Forall (fun i => i < 16)%nat s ->
  mix_round zero_state s v = blake2b_round v.
Proof.
  intros Hs Hf. rewrite blake2b_round_unfold. unfold mix_round.
  assert (W : forall i, (i < 16)%nat -> zero_state !!! (s !!! i) = 0).
  { intros i Hi. assert (s !!! i < 16)%nat.
    { apply (Forall_lookup_total_1 _ s i Hf). lia. }
    destruct (zero_words (s !!! i)); [done|lia]. }
  rewrite !W by lia. by rewrite !mix_zero.
Qed.
Lemma sigma_ok i : (i < 10)%nat -> length (sigma !!! i) = 16%nat /\ Forall (fun i => i < 16)%nat (sigma !!! i).
Proof.
  intros H. assert (A : Forall (fun s => length s = 16%nat /\ Forall (fun i => i < 16)%nat s) sigma).
  { apply (bool_decide_unpack _). vm_compute. exact I. }
  apply (Forall_lookup_total_1 _ sigma i A). done.
Qed.
Lemma mix_rounds_zero v : mix_rounds zero_state v = Nat.iter 12 blake2b_round v.
Proof.
  unfold mix_rounds.
  assert (E : forall n a v, foldl (fun v i => mix_round zero_state (sigma !!! (i mod 10)%nat) v) v (seq a n)
              = Nat.iter n blake2b_round v).
  { clear v. induction n as [|n IH]; intros a v; [done|]. cbn [seq foldl]. rewrite IH.
    rewrite mix_round_zero by (apply sigma_ok, Nat.mod_upper_bound; lia).
    symmetry. apply Nat.iter_succ_r. }
  apply E.
Qed.
Lemma round_lyra_rfc v i : state16 v -> (i < 10)%nat ->
  MLyra2.round_lyra v = mix_round zero_state (sigma !!! i) v.
Proof.
  intros Hv Hi. rewrite mix_round_zero by (apply sigma_ok; done). by apply round_lyra_spec.
Qed.
Lemma blake2b_lyra_rfc v : state16 v -> MLyra2.blake2b_lyra v = mix_rounds zero_state v.
Proof. intros Hv. rewrite mix_rounds_zero. by apply blake2b_lyra_spec. Qed.

(** ** Little-endian codec *)
Lemma vget_ext (l l' : list Z) i : 0 <= i < Z.of_nat (length l) -> vget (l ++ l') i = vget l i.
Proof.
  intros H. rewrite !vget_nth by (unfold vlen; rewrite ?app_length; lia). f_equal.
  apply app_nth1. lia.
Qed.
Lemma read_u32_le_app l l' : length l = 4%nat -> read_u32_le (l ++ l') = read_u32_le l.
Proof. intros H. unfold read_u32_le. by rewrite !vget_ext by lia. Qed.
Lemma read_u64_le_app l l' : length l = 8%nat -> read_u64_le (l ++ l') = read_u64_le l.
Proof. intros H. unfold read_u64_le. by rewrite !vget_ext by lia. Qed.
Lemma read_u32_le_take bs : (4 <= length bs)%nat -> Forall byte bs ->
  read_u32_le bs = Ok (le_number (take 4 bs)).
Proof.
  intros H Hb. rewrite <- (take_drop 4 bs) at 1. rewrite read_u32_le_app by (rewrite take_length; lia).
  apply read_u32_le_spec; [rewrite take_length; lia|by apply Forall_take].
Qed.
Lemma read_u64_le_take bs : (8 <= length bs)%nat -> Forall byte bs ->
  read_u64_le bs = Ok (le_number (take 8 bs)).
Proof.
  intros H Hb. rewrite <- (take_drop 8 bs) at 1. rewrite read_u64_le_app by (rewrite take_length; lia).
  apply read_u64_le_spec; [rewrite take_length; lia|by apply Forall_take].
Qed.
Lemma read_u32_le_short bs : (length bs < 4)%nat -> read_u32_le bs = Panic.
Proof. intros H. do 4 (destruct bs as [|? bs]; [reflexivity|]). simpl in H. lia. Qed.
Lemma read_u64_le_short bs : (length bs < 8)%nat -> read_u64_le bs = Panic.
Proof. intros H. do 8 (destruct bs as [|? bs]; [reflexivity|]). simpl in H. lia. Qed.
Lemma read_u32_panics bs : read_u32_le bs = Panic <-> (length bs < 4)%nat.
Proof.
  split; [|apply read_u32_le_short]. intros E. destruct (decide (length bs < 4)%nat); [done|]. exfalso.
  do 4 (destruct bs as [|? bs]; [simpl in *; lia|]). revert E. clear.
  unfold read_u32_le. rewrite !vget_nth by (unfold vlen; cbn [length]; lia). cbn [obind]. discriminate.
Qed.
Lemma read_u64_panics bs : read_u64_le bs = Panic <-> (length bs < 8)%nat.
Proof.
  split; [|apply read_u64_le_short]. intros E. destruct (decide (length bs < 8)%nat); [done|]. exfalso.
  do 8 (destruct bs as [|? bs]; [simpl in *; lia|]). revert E. clear.
  unfold read_u64_le. rewrite !vget_nth by (unfold vlen; cbn [length]; lia). cbn [obind]. discriminate.
Qed.
Lemma read_write_u32 x rest : word 32 x -> read_u32_le (to_le_bytes 4 x ++ rest) = Ok x.
Proof.
  intros H. rewrite to_le_bytes_spec, read_u32_le_app by apply le_bytes_length.
  rewrite read_u32_le_spec by (apply le_bytes_length || apply le_bytes_byte).
  f_equal. apply le_number_le_bytes. exact H.
Qed.
Lemma read_write_u64 x rest : word 64 x -> read_u64_le (to_le_bytes 8 x ++ rest) = Ok x.
Proof.
  intros H. rewrite to_le_bytes_spec, read_u64_le_app by apply le_bytes_length.
  rewrite read_u64_le_spec by (apply le_bytes_length || apply le_bytes_byte).
  f_equal. apply le_number_le_bytes. exact H.
Qed.
Lemma write_read_u32 bs x : Forall byte bs -> read_u32_le bs = Ok x ->
  word 32 x /\ to_le_bytes 4 x = take 4 bs.
Proof.
  intros Hb E. destruct (decide (length bs < 4)%nat) as [H|H].
  { rewrite read_u32_le_short in E by done. discriminate. }
  rewrite read_u32_le_take in E by (done || lia). injection E as <-.
  assert (L : length (take 4 bs) = 4%nat) by (rewrite take_length; lia).
  pose proof (Forall_take _ 4 _ Hb) as F. split.
  - pose proof (le_number_bound _ F) as B. rewrite L in B. exact B.
  - rewrite to_le_bytes_spec. rewrite <- L at 1. by apply le_bytes_le_number.
Qed.
Lemma write_read_u64 bs x : Forall byte bs -> read_u64_le bs = Ok x ->
  word 64 x /\ to_le_bytes 8 x = take 8 bs.
Proof.
  intros Hb E. destruct (decide (length bs < 8)%nat) as [H|H].
  { rewrite read_u64_le_short in E by done. discriminate. }
  rewrite read_u64_le_take in E by (done || lia). injection E as <-.
  assert (L : length (take 8 bs) = 8%nat) by (rewrite take_length; lia).
  pose proof (Forall_take _ 8 _ Hb) as F. split.
  - pose proof (le_number_bound _ F) as B. rewrite L in B. exact B.
  - rewrite to_le_bytes_spec. rewrite <- L at 1. by apply le_bytes_le_number.
Qed.
Lemma absorb_safe_total st w : state16 st -> Forall (word 64) w ->
  ((8 <= length w)%nat -> exists s, MLyra2.absorb_block_blake2_safe st w = Ok s /\ state16 s) /\
  ((length w < 8)%nat -> MLyra2.absorb_block_blake2_safe st w = Panic).
Proof.
  intros Hs Hw. split; [|apply absorb_safe_short]. intros Hl.
  exists (round12 (absorb st (take 8 w))). exact (absorb_safe_Ok st w Hs Hl Hw).
Qed.
Lemma absorb_block_total st w : state16 st -> Forall (word 64) w ->
  ((12 <= length w)%nat -> exists s, MLyra2.absorb_block st w = Ok s /\ state16 s) /\
  ((length w < 12)%nat -> MLyra2.absorb_block st w = Panic).
Proof.
  intros Hs Hw. split; [|apply absorb_block_short]. intros Hl.
  exists (round12 (absorb st (take 12 w))). exact (absorb_block_Ok st w Hs Hl (Forall_take _ 12 _ Hw)).
Qed.
