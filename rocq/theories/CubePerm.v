(** * CubeHash rounds are permutations (lemmas for PDigestState.v) *)
From Verif Require Import Machine MachineFacts MUtils MCubeGen MCube MDigestState WordFacts SpongeFacts CubeFacts Padding.
From Verif Require Import SpecWord SpecCube SpecPhases.

(** ** Permutations of any set of states *)
Section perm.
Context {A : Type} (P : A -> Prop).
Lemma perm_inverse (f g : A -> A) : (forall x, P x -> P (f x)) -> (forall x, P x -> P (g x)) ->
  (forall x, P x -> g (f x) = x) -> (forall x, P x -> f (g x) = x) -> permutes_on P f.
Proof.
  intros Hf Hg Hgf Hfg. split; [done|]. split.
  - intros x x' Hx Hx' E. by rewrite <- (Hgf x), E, Hgf.
  - intros y Hy. exists (g y). auto.
Qed.
Lemma perm_comp (f g : A -> A) : permutes_on P f -> permutes_on P g -> permutes_on P (fun x => f (g x)).
Proof.
  intros (Hf1 & Hf2 & Hf3) (Hg1 & Hg2 & Hg3). split; [auto|]. split.
  - intros v v' H H' E. apply Hg2; auto.
  - intros w H. destruct (Hf3 w H) as (u & Hu & <-). destruct (Hg3 u Hu) as (v & Hv & <-). eauto.
Qed.
Lemma perm_iter n (f : A -> A) : permutes_on P f -> permutes_on P (Nat.iter n f).
Proof.
  intros H. induction n as [|n IH]; [|exact (perm_comp f (Nat.iter n f) H IH)].
  apply (perm_inverse (fun x => x) (fun x => x)); done.
Qed.
End perm.

(** ** The steps *)
Lemma each_id x : cube_state x -> each (fun i => x !!! i) = x.
Proof.
  intros [Hl _]. apply list_eq. intros i. unfold each. rewrite list_lookup_fmap.
  destruct (decide (i < 32)%nat) as [H|H].
  - rewrite lookup_seq_lt by done. cbn. symmetry. apply list_lookup_lookup_total_lt. lia.
  - rewrite lookup_seq_ge by lia. cbn. symmetry. apply lookup_ge_None_2. lia.
Qed.
Definition cube_sub (x : list Z) : list Z :=
  each (fun i => if upper i then subw 32 (x !!! i) (x !!! (i - 16)%nat) else x !!! i).
Lemma add32_sub x y : word 32 x -> subw 32 (addw 32 y x) y = x.
Proof.
  intros H. unfold subw, addw. rewrite Zminus_mod_idemp_l.
  replace (y + x - y) with x by lia. by apply Z.mod_small.
Qed.
Lemma sub32_add x y : word 32 x -> addw 32 y (subw 32 x y) = x.
Proof.
  intros H. unfold subw, addw. rewrite Zplus_mod_idemp_r.
  replace (y + (x - y)) with x by lia. by apply Z.mod_small.
Qed.
Lemma upper_low i : (i < 32)%nat -> upper i = true -> upper (i - 16) = false.
Proof. intros H E%upper_true. apply Nat.leb_gt. lia. Qed.
Lemma cube_add_perm : permutes_on cube_state cube_add.
Proof.
  apply (perm_inverse _ cube_add cube_sub).
  - apply cube_add_state.
  - intros x Hx. apply each_state. intros i Hi. destruct (upper i); [|by apply cube_word].
    unfold subw. apply Z.mod_pos_bound. lia.
  - intros x Hx. rewrite <- (each_id x Hx) at 2. apply each_ext. intros i Hi.
    unfold cube_add. rewrite !each_lookup by lia. destruct (upper i) eqn:E; [|done].
    rewrite (upper_low i Hi E). apply add32_sub. by apply cube_word.
  - intros x Hx. rewrite <- (each_id x Hx) at 2. apply each_ext. intros i Hi.
    unfold cube_sub. rewrite !each_lookup by lia. destruct (upper i) eqn:E; [|done].
    rewrite (upper_low i Hi E). apply sub32_add. by apply cube_word.
Qed.
Lemma rol_rol n x : 0 <= n <= 32 -> word 32 x -> rol 32 (32 - n) (rol 32 n x) = x.
Proof.
  intros Hn [Hx Hx']. unfold rol. replace (32 - (32 - n)) with n by lia.
  assert (P : 0 < 2 ^ n) by (apply Z.pow_pos_nonneg; lia).
  assert (P' : 0 < 2 ^ (32 - n)) by (apply Z.pow_pos_nonneg; lia).
  assert (E : 2 ^ 32 = 2 ^ (32 - n) * 2 ^ n) by (rewrite <- Z.pow_add_r by lia; f_equal; clear; lia).
  assert (0 <= x / 2 ^ (32 - n) < 2 ^ n).
  { split; [apply Z.div_pos; lia|]. apply Z.div_lt_upper_bound; [done|]. by rewrite <- E. }
  rewrite (Z.add_comm (x mod 2 ^ (32 - n) * 2 ^ n)), Z.div_add, Z.mod_add by lia.
  rewrite (Z.div_small (x / 2 ^ (32 - n))), (Z.mod_small (x / 2 ^ (32 - n))) by done.
  pose proof (Z.div_mod x (2 ^ (32 - n)) ltac:(lia)). lia.
Qed.
Lemma cube_rotate_back n x : 0 <= n <= 32 -> cube_state x -> cube_rotate (32 - n) (cube_rotate n x) = x.
Proof.
  intros Hn Hx. rewrite <- (each_id x Hx) at 2. apply each_ext. intros i Hi.
  unfold cube_rotate. rewrite !each_lookup by lia. destruct (upper i); [done|].
  apply rol_rol; [done|by apply cube_word].
Qed.
Lemma cube_rotate_perm n : 0 <= n <= 32 -> permutes_on cube_state (cube_rotate n).
Proof.
  intros Hn. apply (perm_inverse _ _ (cube_rotate (32 - n))).
  - intros x. by apply cube_rotate_state.
  - intros x. apply cube_rotate_state. lia.
  - intros x. by apply cube_rotate_back.
  - intros x Hx. replace n with (32 - (32 - n)) at 1 by lia. apply cube_rotate_back; [lia|done].
Qed.
Lemma perm_invol (f : list Z -> list Z) : (forall x, cube_state x -> cube_state (f x)) ->
  (forall x, cube_state x -> f (f x) = x) -> permutes_on cube_state f.
Proof. intros H1 H2. by apply (perm_inverse _ f f). Qed.
Lemma cube_xor_perm : permutes_on cube_state cube_xor.
Proof.
  apply perm_invol; [apply cube_xor_state|]. intros x Hx. rewrite <- (each_id x Hx) at 2. apply each_ext. intros i Hi.
  unfold cube_xor. destruct (upper i) eqn:E; [by rewrite !each_lookup, E by lia|].
  apply upper_false in E as E'. rewrite !each_lookup by lia. rewrite E.
  assert (upper (i + 16) = true) as -> by (apply Nat.leb_le; lia). apply lxor_cancel.
Qed.
Lemma nat_lxor_back i b : Nat.lxor (Nat.lxor i b) b = i.
Proof. by rewrite Nat.lxor_assoc, Nat.lxor_nilpotent, Nat.lxor_0_r. Qed.
Lemma upper_lxor i b : (i < 32)%nat -> (b < 16)%nat -> upper (Nat.lxor i b) = upper i.
Proof.
  intros Hi Hb.
  assert (A : forallb (fun i => forallb (fun b => Bool.eqb (upper (Nat.lxor i b)) (upper i)) (seq 0 16)) (seq 0 32) = true)
    by (vm_compute; reflexivity).
  rewrite forallb_forall in A. specialize (A i ltac:(apply in_seq; lia)).
  rewrite forallb_forall in A. specialize (A b ltac:(apply in_seq; lia)). by apply Bool.eqb_prop.
Qed.
Lemma cube_swap0_perm b : (b < 16)%nat -> permutes_on cube_state (cube_swap0 b).
Proof.
  intros Hb. apply perm_invol; [intros x; apply cube_swap0_state; lia|].
  intros x Hx. rewrite <- (each_id x Hx) at 2. apply each_ext. intros i Hi.
  unfold cube_swap0. destruct (upper i) eqn:E; [by rewrite !each_lookup, E by lia|].
  rewrite each_lookup by (apply lxor_lt_32; lia). rewrite upper_lxor, E by done. by rewrite nat_lxor_back.
Qed.
Lemma cube_swap1_perm b : (b < 16)%nat -> permutes_on cube_state (cube_swap1 b).
Proof.
  intros Hb. apply perm_invol; [intros x; apply cube_swap1_state; lia|].
  intros x Hx. rewrite <- (each_id x Hx) at 2. apply each_ext. intros i Hi.
  unfold cube_swap1. destruct (upper i) eqn:E; [|by rewrite !each_lookup, E by lia].
  rewrite each_lookup by (apply lxor_lt_32; lia). rewrite upper_lxor, E by done. by rewrite nat_lxor_back.
Qed.
#[local] Transparent cube_round cube_rounds.
Lemma cube_round_perm : permutes_on cube_state cube_round.
Proof.
  unfold cube_round.
  apply (perm_comp _ (cube_swap1 1)); [apply cube_swap1_perm; lia|].
  apply (perm_comp _ cube_xor); [apply cube_xor_perm|].
  apply (perm_comp _ (cube_swap0 4)); [apply cube_swap0_perm; lia|].
  apply (perm_comp _ (cube_rotate 11)); [apply cube_rotate_perm; lia|].
  apply (perm_comp _ cube_add); [apply cube_add_perm|].
  apply (perm_comp _ (cube_swap1 2)); [apply cube_swap1_perm; lia|].
  apply (perm_comp _ cube_xor); [apply cube_xor_perm|].
  apply (perm_comp _ (cube_swap0 8)); [apply cube_swap0_perm; lia|].
  apply (perm_comp _ (cube_rotate 7)); [apply cube_rotate_perm; lia|].
  apply cube_add_perm.
Qed.

Lemma cube_rounds_inj n x y : cube_state x -> cube_state y -> cube_rounds n x = cube_rounds n y -> x = y.
Proof. exact (proj1 (proj2 (perm_iter cube_state n cube_round cube_round_perm)) x y). Qed.
#[local] Opaque cube_round cube_rounds.

(** ** The functions of the code *)
Definition wf_cube (c : CubeHash) : Prop := cube_state (cwords c).
Lemma cwords_inj c c' : cwords c = cwords c' -> c = c'.
Proof. unfold cwords. destruct c, c'. cbn. intros E. injection E. intros. subst. reflexivity. Qed.
Lemma cwords_surj x : length x = 32%nat -> exists c, cwords c = x.
Proof.
  intros H. do 32 (destruct x as [|? x]; [discriminate H|]). destruct x; [|discriminate H].
  eexists (Cube _ _ _ _ _ _ _ _ _ _ _ _ _ _ _ _ _ _ _ _ _ _ _ _ _ _ _ _ _ _ _ _). reflexivity.
Qed.
Lemma perm_struct (f : CubeHash -> CubeHash) (g : list Z -> list Z) :
  (forall c, wf_cube c -> cwords (f c) = g (cwords c)) -> permutes_on cube_state g -> permutes_on wf_cube f.
Proof.
  intros E (H1 & H2 & H3). split; [|split].
  - intros c Hc. unfold wf_cube. rewrite E by done. by apply H1.
  - intros c c' Hc Hc' Ef. apply cwords_inj, H2; [done|done|]. rewrite <- !E by done. by rewrite Ef.
  - intros c Hc. destruct (H3 _ Hc) as (x & Hx & Ex). destruct (cwords_surj x (proj1 Hx)) as [c' <-].
    exists c'. split; [done|]. apply cwords_inj. by rewrite E.
Qed.
Lemma two_rounds_perm : permutes_on wf_cube two_rounds.
Proof.
  apply (perm_struct _ (cube_rounds 2)); [intros c Hc; by apply two_rounds_spec|].
  exact (perm_iter cube_state 2 cube_round cube_round_perm).
Qed.
Lemma sixteen_rounds_perm : permutes_on wf_cube sixteen_rounds.
Proof. exact (perm_iter wf_cube 8 two_rounds two_rounds_perm). Qed.

(** ** The state of [sum] *)
Lemma chunks4_inj b b' : length b = 32%nat -> length b' = 32%nat -> Forall byte b -> Forall byte b' ->
  cube_words b = cube_words b' -> b = b'.
Proof.
  intros Hl Hl' Hb Hb' E. unfold cube_words in E.
  assert (Hi : forall b, length b = 32%nat -> Forall byte b -> (le_number <$> chunks 4 b) ≫= le_bytes 4 = b).
  { clear. intros b Hl Hb. transitivity (mjoin (chunks 4 b)); [|apply (chunks_join 4 b 8); lia].
    assert (HF : Forall (fun c => length c = 4%nat /\ Forall byte c) (chunks 4 b)).
    { apply Forall_and. split; [apply (RefineInput.chunks_Forall_length 4); lia|by apply RefineInput.chunks_Forall]. }
    induction HF as [|c l [Hc Hcb] HF IH]; [done|]. cbn [fmap list_fmap mbind list_bind mjoin list_join].
    change (le_bytes 4 (le_number c) ++ ((le_number <$> l) ≫= le_bytes 4) = c ++ mjoin l). rewrite IH.
    f_equal. rewrite <- Hc at 1. by apply le_bytes_le_number. }
  rewrite <- (Hi b), <- (Hi b') by done. by rewrite E.
Qed.
Lemma cube_load_inj x b b' : cube_state x -> length b = 32%nat -> length b' = 32%nat -> Forall byte b -> Forall byte b' ->
  cube_load x b = cube_load x b' -> b = b'.
Proof.
  intros [Hx _] Hl Hl' Hb Hb' E. unfold cube_load in E.
  assert (L : length (cube_words b) = 8%nat) by (by rewrite cube_words_8).
  assert (L' : length (cube_words b') = 8%nat) by (by rewrite cube_words_8).
  rewrite L, L' in E. apply app_inj_1 in E as [E _]; [|by rewrite !zip_with_length, L, L'].
  apply chunks4_inj; try done. apply list_eq. intros i.
  destruct (decide (i < 8)%nat) as [Hi|Hi]; [|rewrite !lookup_ge_None_2 by lia; done].
  apply (f_equal (lookup i)) in E. rewrite !lookup_zip_with in E.
  destruct (cube_words b !! i) as [w|] eqn:Ew; [|apply lookup_ge_None_1 in Ew; lia].
  destruct (cube_words b' !! i) as [w'|] eqn:Ew'; [|apply lookup_ge_None_1 in Ew'; lia].
  destruct (take 8 x !! i) as [y|] eqn:Ey; [|apply lookup_ge_None_1 in Ey; rewrite take_length in Ey; lia].
  cbn in E. injection E as E. f_equal. rewrite <- (lxor_cancel w y), <- (lxor_cancel w' y).
  by rewrite (Z.lxor_comm w), (Z.lxor_comm w'), E.
Qed.
Lemma cube_load_inj_state x x' b : cube_state x -> cube_state x' -> length b = 32%nat ->
  cube_load x b = cube_load x' b -> x = x'.
Proof.
  intros [Hx _] [Hx' _] Hl E. unfold cube_load in E.
  assert (L : length (cube_words b) = 8%nat) by (by rewrite cube_words_8).
  rewrite L in E. apply app_inj_1 in E as [E1 E2]; [|by rewrite !zip_with_length, !take_length, Hx, Hx'].
  rewrite <- (take_drop 8 x), <- (take_drop 8 x'), E2. f_equal.
  apply list_eq. intros i.
  destruct (decide (i < 8)%nat) as [Hi|Hi]; [|rewrite !lookup_ge_None_2 by (rewrite take_length; lia); done].
  apply (f_equal (lookup i)) in E1. rewrite !lookup_zip_with in E1.
  destruct (cube_words b !! i) as [w|] eqn:Ew; [|apply lookup_ge_None_1 in Ew; lia].
  destruct (take 8 x !! i) as [y|] eqn:Ey; [|apply lookup_ge_None_1 in Ey; rewrite take_length in Ey; lia].
  destruct (take 8 x' !! i) as [y'|] eqn:Ey'; [|apply lookup_ge_None_1 in Ey'; rewrite take_length in Ey'; lia].
  cbn in E1. injection E1 as E. f_equal. by rewrite <- (lxor_cancel y w), <- (lxor_cancel y' w), E.
Qed.
Lemma sum_state_Ok p data : known_platform p -> (32 <= length data)%nat -> Forall byte data ->
  exists c, cubehash_state p data = Ok c /\ wf_cube c /\
    cwords c = cube_rounds (10 * cube_r)
      (let x := cube_block (cube_block cube_init (take 32 data)) (128 :: replicate 31 0) in
       <[31%nat := Z.lxor (x !!! 31%nat) 1]> x).
Proof.
  intros Hp Hl Hb. pose proof (known_isize p Hp) as Hi. unfold cubehash_state. cbv zeta.
  unfold vec_zeroed. replace (32 * 1 <=? isize_max p) with true by (symmetry; apply Z.leb_le; lia).
  change (Z.to_nat 32) with 32%nat. cbn [obind].
  change (vset (replicate 32 0) 0 128) with (@Ok (list Z) (128 :: replicate 31 0)). cbn [obind].
  set (pad := 128 :: replicate 31 0).
  assert (Hpad : Forall byte pad).
  { apply (bool_decide_unpack (Forall (fun x => 0 <= x < 256) pad)). vm_compute. exact I. }
  assert (Ht : length (take 32 data) = 32%nat) by (rewrite take_length; lia).
  pose proof cube_init_state as S0.
  destruct (input_block_Ok data new_cube_hash Hl Hb) as (c1 & -> & C1). cbn [obind].
  rewrite cube_iv in C1.
  assert (S1 : cube_state (cwords c1)).
  { rewrite C1. apply cube_load_state; [done|done|by apply Forall_take]. }
  pose proof (sixteen_rounds_spec c1 S1) as C2. rewrite C1, <- cube_block_load in C2.
  assert (S2 : cube_state (cwords (sixteen_rounds c1))).
  { rewrite (sixteen_rounds_spec _ ltac:(eassumption)). by apply cube_rounds_state. }
  destruct (input_block_Ok pad (sixteen_rounds c1) ltac:(done) Hpad) as (c3 & -> & C3). cbn [obind].
  change (take 32 pad) with pad in C3.
  assert (S3 : cube_state (cwords c3)) by (rewrite C3; by apply cube_load_state).
  pose proof (sixteen_rounds_spec c3 S3) as C4. rewrite C3, <- cube_block_load, C2 in C4.
  assert (S4 : cube_state (cwords (sixteen_rounds c3))).
  { rewrite (sixteen_rounds_spec _ ltac:(eassumption)). by apply cube_rounds_state. }
  pose proof (cwords_xor_xv (sixteen_rounds c3)) as C5.
  pose proof (cube_final_load_state _ S4) as S5. rewrite <- C5 in S5.
  pose proof (iter_sixteen 10 (xor_xv (sixteen_rounds c3) 1) S5) as C6.
  eexists. split; [reflexivity|]. split.
  - unfold wf_cube. rewrite C6. by apply cube_rounds_state.
  - rewrite C6, C5, C4. reflexivity.
Qed.
Lemma sum_state_inj p p' m m' c : known_platform p -> known_platform p' ->
  length m = 32%nat -> length m' = 32%nat -> Forall byte m -> Forall byte m' ->
  cubehash_state p m = Ok c -> cubehash_state p' m' = Ok c -> m = m'.
Proof.
  intros Hp Hp' Hl Hl' Hb Hb' E E'.
  destruct (sum_state_Ok p m Hp ltac:(lia) Hb) as (c1 & E1 & _ & C1).
  destruct (sum_state_Ok p' m' Hp' ltac:(lia) Hb') as (c2 & E2 & _ & C2).
  rewrite E in E1. injection E1 as <-. rewrite E' in E2. injection E2 as <-.
  rewrite (take_ge m 32) in C1 by lia. rewrite (take_ge m' 32) in C2 by lia. rewrite C1 in C2. clear C1 E E'.
  set (pad := 128 :: replicate 31 0) in *.
  assert (Hpad : Forall byte pad).
  { apply (bool_decide_unpack (Forall (fun x => 0 <= x < 256) pad)). vm_compute. exact I. }
  assert (Sl : forall x m, cube_state x -> length m = 32%nat -> Forall byte m -> cube_state (cube_load x m))
    by (intros; by apply cube_load_state).
  assert (Sb : forall x m, cube_state x -> length m = 32%nat -> Forall byte m -> cube_state (cube_block x m)).
  { intros x n Hx Hn Hn'. rewrite cube_block_load. apply cube_rounds_state. auto. }
  pose proof cube_init_state as S0.
  pose proof (Sb _ _ S0 Hl Hb) as Sx. pose proof (Sb _ _ S0 Hl' Hb') as Sx'.
  pose proof (Sb _ pad Sx eq_refl Hpad) as Sy. pose proof (Sb _ pad Sx' eq_refl Hpad) as Sy'.
  apply (cube_rounds_inj _ _ _ (cube_final_load_state _ Sy) (cube_final_load_state _ Sy')) in C2.
  assert (E : cube_block (cube_block cube_init m) pad = cube_block (cube_block cube_init m') pad).
  { destruct Sy as [L1 _]. destruct Sy' as [L2 _].
    revert C2 L1 L2. generalize (cube_block (cube_block cube_init m) pad). generalize (cube_block (cube_block cube_init m') pad).
    clear. intros y x. cbv zeta. intros E L1 L2. apply list_eq. intros i.
    destruct (decide (i = 31%nat)) as [->|Hi].
    - apply (f_equal (lookup 31%nat)) in E. rewrite !list_lookup_insert in E by lia. injection E as E.
      rewrite !list_lookup_lookup_total_lt by lia. f_equal.
      by rewrite <- (lxor_cancel (x !!! 31%nat) 1), <- (lxor_cancel (y !!! 31%nat) 1), E.
    - apply (f_equal (lookup i)) in E. by rewrite !list_lookup_insert_ne in E by done. }
  rewrite (cube_block_load (cube_block cube_init m) pad), (cube_block_load (cube_block cube_init m') pad) in E.
  apply (cube_rounds_inj _ _ _ (Sl _ pad Sx eq_refl Hpad) (Sl _ pad Sx' eq_refl Hpad)) in E.
  apply (cube_load_inj_state _ _ pad Sx Sx' eq_refl) in E.
  rewrite (cube_block_load cube_init m), (cube_block_load cube_init m') in E.
  apply (cube_rounds_inj _ _ _ (Sl _ m S0 Hl Hb) (Sl _ m' S0 Hl' Hb')) in E.
  exact (cube_load_inj _ _ _ S0 Hl Hl' Hb Hb' E).
Qed.
Lemma two_parts p data :
  cubehash_sum p data = (c <-- cubehash_state p data ;; cubehash_read p c).
Proof.
  unfold cubehash_sum, cubehash_state. cbv zeta.
  destruct (vec_zeroed p 1 32) as [buf| |]; [|done..]. cbn [obind].
  destruct (vset buf 0 128) as [buf1| |]; [|done..]. cbn [obind].
  destruct (input_block data new_cube_hash) as [c1| |]; [|done..]. cbn [obind].
  destruct (input_block buf1 (sixteen_rounds c1)) as [c2| |]; [|done..]. reflexivity.
Qed.
Lemma sum_state_take p p' data data' : known_platform p -> known_platform p' ->
  (32 <= length data)%nat -> (32 <= length data')%nat -> Forall byte data -> Forall byte data' ->
  take 32 data = take 32 data' -> cubehash_state p data = cubehash_state p' data'.
Proof.
  intros Hp Hp' Hl Hl' Hb Hb' E.
  destruct (sum_state_Ok p data Hp Hl Hb) as (c1 & -> & _ & C1).
  destruct (sum_state_Ok p' data' Hp' Hl' Hb') as (c2 & -> & _ & C2).
  rewrite E in C1. rewrite <- C2 in C1. f_equal. exact (cwords_inj _ _ C1).
Qed.
Lemma sum_state_iff p p' data data' : known_platform p -> known_platform p' ->
  (32 <= length data)%nat -> (32 <= length data')%nat -> Forall byte data -> Forall byte data' ->
  (exists c, cubehash_state p data = Ok c /\ cube_state (cwords c)) /\
  (cubehash_state p data = cubehash_state p' data' <-> take 32 data = take 32 data').
Proof.
  intros Hp Hp' Hl Hl' Hb Hb'. split; [|split].
  - destruct (sum_state_Ok p data Hp Hl Hb) as (c & Ec & Hc & _). exists c. split; [exact Ec|exact Hc].
  - intros E.
    assert (Lt : length (take 32 data) = 32%nat) by (rewrite take_length; lia).
    assert (Lt' : length (take 32 data') = 32%nat) by (rewrite take_length; lia).
    pose proof (Forall_take _ 32 _ Hb) as Ft. pose proof (Forall_take _ 32 _ Hb') as Ft'.
    rewrite (sum_state_take p p data (take 32 data) Hp Hp Hl ltac:(rewrite Lt; constructor) Hb Ft ltac:(by rewrite take_take)) in E.
    rewrite (sum_state_take p' p' data' (take 32 data') Hp' Hp' Hl' ltac:(rewrite Lt'; constructor) Hb' Ft' ltac:(by rewrite take_take)) in E.
    destruct (sum_state_Ok p (take 32 data) Hp ltac:(rewrite Lt; constructor) Ft) as (c & Ec & _).
    rewrite Ec in E.
    exact (sum_state_inj p p' _ _ c Hp Hp' Lt Lt' Ft Ft' Ec (eq_sym E)).
  - exact (sum_state_take p p' data data' Hp Hp' Hl Hl' Hb Hb').
Qed.
