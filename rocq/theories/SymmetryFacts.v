(** * The permutations commute with the symmetries of SpecSymmetry.v *)
From Verif Require Import Machine MachineFacts MUtils MCubeGen MCube MDigestState CubeFacts CubePerm.
From Verif Require MLyra2.
From Verif Require Import WordFacts LyraFacts Refine RefineInput SpongeFacts.
From Verif Require Import SpecWord SpecBlake2b SpecLyra2 SpecSponge SpecCube SpecPhases SpecSymmetry.
#[local] Open Scope Z_scope.

(** ** Columns of the sponge *)
Definition at4 (ga gb gc gd : Z -> Z -> Z -> Z -> Z) (v : list Z) (i j k l : nat) : list Z :=
  let a := aget v i in let b := aget v j in let c := aget v k in let d := aget v l in
  <[l := gd a b c d]> (<[k := gc a b c d]> (<[j := gb a b c d]> (<[i := ga a b c d]> v))).
Definition round_with (f : list Z -> nat -> nat -> nat -> nat -> list Z) (v : list Z) : list Z :=
  (f (f (f (f (f (f (f (f v 0 4 8 12) 1 5 9 13) 2 6 10 14) 3 7 11 15) 0 5 10 15) 1 6 11 12) 2 7 8 13) 3 4 9 14)%nat.
Lemma round_with_ext f h v : (forall v i j k l, f v i j k l = h v i j k l) -> round_with f v = round_with h v.
Proof. intros H. unfold round_with. by rewrite !H. Qed.
Lemma round_with_length f v : (forall v i j k l, length (f v i j k l) = length v) -> length (round_with f v) = length v.
Proof. intros H. unfold round_with. by rewrite !H. Qed.
Definition round4 (ga gb gc gd : Z -> Z -> Z -> Z -> Z) : list Z -> list Z := round_with (at4 ga gb gc gd).
Lemma round4_turn ga gb gc gd r v : length v = 16%nat -> (r < 4)%nat ->
  round4 ga gb gc gd (turn r v) = turn r (round4 ga gb gc gd v).
Proof.
  intros Hl Hr.
  do 16 (destruct v as [|? v]; [discriminate Hl|]). destruct v; [|discriminate Hl].
  do 4 (destruct r as [|r]; [vm_compute; reflexivity|]). lia.
Qed.
Definition ga a b c d := (MLyra2.g a b c d).1.1.1.
Definition gb a b c d := (MLyra2.g a b c d).1.1.2.
Definition gc a b c d := (MLyra2.g a b c d).1.2.
Definition gd a b c d := (MLyra2.g a b c d).2.
Lemma g_at4 v i j k l : MLyra2.g_at v i j k l = at4 ga gb gc gd v i j k l.
Proof. unfold MLyra2.g_at, at4, ga, gb, gc, gd. by destruct (MLyra2.g _ _ _ _) as [[[a b] c] d]. Qed.
Lemma at4_length f1 f2 f3 f4 v i j k l : length (at4 f1 f2 f3 f4 v i j k l) = length v.
Proof. unfold at4. by rewrite !insert_length. Qed.
#[local] Opaque at4 MLyra2.g_at.
Lemma round_lyra4 v : MLyra2.round_lyra v = round4 ga gb gc gd v.
Proof. exact (round_with_ext MLyra2.g_at (at4 ga gb gc gd) v g_at4). Qed.
#[local] Opaque MLyra2.round_lyra turn round4.
Lemma round_turn r v : length v = 16%nat -> (r < 4)%nat -> MLyra2.round_lyra (turn r v) = turn r (MLyra2.round_lyra v).
Proof. intros. rewrite (round_lyra4 (turn r v)), (round_lyra4 v). by apply round4_turn. Qed.
Lemma round_length v : length (MLyra2.round_lyra v) = length v.
Proof. rewrite round_lyra4. exact (round_with_length _ v (at4_length ga gb gc gd)). Qed.
#[local] Opaque MLyra2.round_lyra turn.
Lemma full_turn r v : length v = 16%nat -> (r < 4)%nat -> MLyra2.blake2b_lyra (turn r v) = turn r (MLyra2.blake2b_lyra v).
Proof.
  intros Hl Hr. unfold MLyra2.blake2b_lyra.
  rewrite !round_turn by (rewrite ?round_length; done). reflexivity.
Qed.
#[local] Transparent turn.
Lemma turn_state r v : (r < 4)%nat -> state16 v -> state16 (turn r v).
Proof.
  intros Hr [Hl Hw]. split; [reflexivity|]. unfold turn. apply Forall_forall. intros x Hx.
  apply elem_of_list_fmap in Hx as (i & -> & Hi). apply elem_of_seq in Hi.
  apply (Forall_lookup_1 _ _ (4 * (i / 4) + (i + r) mod 4)%nat _ Hw).
  apply list_lookup_lookup_total_lt. rewrite Hl.
  pose proof (Nat.mod_upper_bound (i + r) 4 ltac:(lia)).
  assert (i / 4 < 4)%nat by (apply Nat.div_lt_upper_bound; lia). lia.
Qed.
Lemma perm_symmetric {P : list Z -> Prop} (T f : list Z -> list Z) x : permutes_on P f ->
  (forall x, P x -> P (T x)) -> (forall x, P x -> f (T x) = T (f x)) -> P x ->
  symmetric T (f x) <-> symmetric T x.
Proof.
  intros (_ & Hinj & _) HT Hc Hx. unfold symmetric. rewrite <- Hc by done. split.
  - intros E. apply Hinj; auto.
  - by intros ->.
Qed.
Lemma permutes_as f : permutes f -> permutes_on state16 f.
Proof. exact id. Qed.
Lemma round_symmetric r v : (r < 4)%nat -> state16 v ->
  symmetric (turn r) (MLyra2.round_lyra v) <-> symmetric (turn r) v.
Proof.
  intros Hr Hv. apply (perm_symmetric (P := state16)); [apply permutes_as, round_lyra_permutes|intros; by apply turn_state| |done].
  intros x Hx. apply round_turn; [apply Hx|done].
Qed.
Lemma full_symmetric r v : (r < 4)%nat -> state16 v ->
  symmetric (turn r) (MLyra2.blake2b_lyra v) <-> symmetric (turn r) v.
Proof.
  intros Hr Hv. apply (perm_symmetric (P := state16)); [apply permutes_as, blake2b_lyra_permutes|intros; by apply turn_state| |done].
  intros x Hx. apply full_turn; [apply Hx|done].
Qed.

(** The first block leaves the words 8 to 15 of the state as they are: the constants. *)
Lemma first_asymmetric r w s : (1 <= r < 4)%nat -> (8 <= length w)%nat -> Forall (word 64) w ->
  MLyra2.absorb_block_blake2_safe MLyra2.init_state w = Ok s -> ~ symmetric (turn r) s.
Proof.
  intros Hr Hl Hw E. rewrite init_state_spec in E.
  rewrite (proj1 (absorb_safe_Ok _ w sponge_init_state16 Hl Hw)) in E. apply Ok_inj in E.
  assert (S : state16 (absorb sponge_init (take 8 w))).
  { clear E. apply absorb_state; [apply sponge_init_state16|lia|done|by apply Forall_take]. }
  rewrite <- E. clear E. change (round12 ?v) with (Nat.iter 12 blake2b_round v).
  rewrite <- (blake2b_lyra_spec _ S). rewrite full_symmetric by (done || lia).
  intros E. clear S.
  pose proof (absorb_drop sponge_init (take 8 w)) as D. rewrite take_length, Nat.min_l in D by done.
  specialize (D ltac:(rewrite (proj1 sponge_init_state16); lia)).
  set (v := absorb sponge_init (take 8 w)) in *. clearbody v.
  assert (G : forall j, (j < 4)%nat -> v !!! (8 + j)%nat = sponge_init !!! (8 + j)%nat).
  { intros j Hj. by rewrite <- !lookup_total_drop, D. }
  apply (f_equal (fun l : list Z => l !!! 8%nat)) in E. cbv beta in E.
  pose proof (G 0%nat ltac:(lia)) as G0. change (8 + 0)%nat with 8%nat in G0. rewrite G0 in E.
  assert (T : turn r v !!! 8%nat = v !!! (8 + r)%nat).
  { clear -Hr. do 4 (destruct r as [|r]; [try lia; reflexivity|]). lia. }
  rewrite T, G in E by lia. clear -E Hr.
  do 4 (destruct r as [|r]; [try lia; vm_compute in E; discriminate E|]). lia.
Qed.

(** ** Words of CubeHash *)
Lemma mirror_lookup b x i : (i < 32)%nat -> mirror b x !!! i = x !!! Nat.lxor i b.
Proof. apply (each_lookup (fun i => x !!! Nat.lxor i b)). Qed.
Lemma mirror_state b x : (b < 16)%nat -> cube_state x -> cube_state (mirror b x).
Proof.
  intros Hb Hx. apply each_state. intros i Hi. apply cube_word; [done|]. apply lxor_lt_32; lia.
Qed.
Lemma lxor_minus16 i b : (i < 32)%nat -> (b < 16)%nat -> upper i = true -> (Nat.lxor (i - 16) b = Nat.lxor i b - 16)%nat.
Proof.
  intros Hi Hb. do 32 (destruct i as [|i]; [do 16 (destruct b as [|b]; [vm_compute; (discriminate || reflexivity)|]); lia|]). lia.
Qed.
Lemma lxor_plus16 i b : (i < 32)%nat -> (b < 16)%nat -> upper i = false -> (Nat.lxor (i + 16) b = Nat.lxor i b + 16)%nat.
Proof.
  intros Hi Hb. do 32 (destruct i as [|i]; [do 16 (destruct b as [|b]; [vm_compute; (discriminate || reflexivity)|]); lia|]). lia.
Qed.
Ltac mirror_tac :=
  intros; unfold cube_add, cube_rotate, cube_xor, cube_swap0, cube_swap1; apply each_ext; intros i Hi;
  rewrite ?each_lookup by (apply lxor_lt_32; lia);
  rewrite ?upper_lxor by lia; destruct (upper i) eqn:U;
  rewrite ?mirror_lookup by (try apply lxor_lt_32; try lia; try (apply upper_false in U; lia));
  rewrite ?lxor_minus16, ?lxor_plus16 by done; try reflexivity.
Lemma add_mirror b x : (b < 16)%nat -> cube_add (mirror b x) = mirror b (cube_add x).
Proof. mirror_tac. Qed.
Lemma rotate_mirror n b x : (b < 16)%nat -> cube_rotate n (mirror b x) = mirror b (cube_rotate n x).
Proof. mirror_tac. Qed.
Lemma xor_mirror b x : (b < 16)%nat -> cube_xor (mirror b x) = mirror b (cube_xor x).
Proof. mirror_tac. Qed.
Lemma lxor_swap i a b : Nat.lxor (Nat.lxor i a) b = Nat.lxor (Nat.lxor i b) a.
Proof. by rewrite !Nat.lxor_assoc, (Nat.lxor_comm a b). Qed.
Lemma swap0_mirror a b x : (a < 16)%nat -> (b < 16)%nat -> cube_swap0 a (mirror b x) = mirror b (cube_swap0 a x).
Proof. mirror_tac. by rewrite lxor_swap. Qed.
Lemma swap1_mirror a b x : (a < 16)%nat -> (b < 16)%nat -> cube_swap1 a (mirror b x) = mirror b (cube_swap1 a x).
Proof. mirror_tac. by rewrite lxor_swap. Qed.
#[local] Transparent cube_round.
Lemma round_mirror b x : (b < 16)%nat -> cube_round (mirror b x) = mirror b (cube_round x).
Proof.
  intros Hb. unfold cube_round.
  rewrite !add_mirror, !rotate_mirror, !swap0_mirror, !xor_mirror, !swap1_mirror, ?add_mirror, ?rotate_mirror, ?swap0_mirror, ?xor_mirror, ?swap1_mirror by lia.
  reflexivity.
Qed.
Lemma rounds_mirror n b x : (b < 16)%nat -> cube_rounds n (mirror b x) = mirror b (cube_rounds n x).
Proof. intros Hb. induction n as [|n IH]; [done|]. change (cube_rounds (S n) (mirror b x)) with (cube_round (cube_rounds n (mirror b x))).
  rewrite IH, round_mirror by done. reflexivity. Qed.
#[local] Opaque cube_round mirror.
Lemma two_mirror b c c' : (b < 16)%nat -> wf_cube c -> cwords c' = mirror b (cwords c) ->
  cwords (two_rounds c') = mirror b (cwords (two_rounds c)).
Proof.
  intros Hb Hc E. assert (Hc' : wf_cube c') by (unfold wf_cube; rewrite E; by apply mirror_state).
  rewrite (two_rounds_spec c Hc), (two_rounds_spec c' Hc'), E. by apply rounds_mirror.
Qed.
Lemma sixteen_mirror b c c' : (b < 16)%nat -> wf_cube c -> cwords c' = mirror b (cwords c) ->
  cwords (sixteen_rounds c') = mirror b (cwords (sixteen_rounds c)).
Proof.
  intros Hb Hc E. assert (Hc' : wf_cube c') by (unfold wf_cube; rewrite E; by apply mirror_state).
  rewrite (sixteen_rounds_spec c Hc), (sixteen_rounds_spec c' Hc'), E. by apply rounds_mirror.
Qed.
Lemma cube_rounds_perm n : permutes_on cube_state (cube_rounds n).
Proof. exact (perm_iter cube_state n cube_round cube_round_perm). Qed.
Lemma rounds_symmetric n b x : (b < 16)%nat -> cube_state x ->
  symmetric (mirror b) (cube_rounds n x) <-> symmetric (mirror b) x.
Proof.
  intros Hb Hx. apply (perm_symmetric (P := cube_state)); [apply cube_rounds_perm|intros; by apply mirror_state| |done].
  intros y _. by apply rounds_mirror.
Qed.
Lemma sixteen_symmetric b c : (b < 16)%nat -> wf_cube c ->
  symmetric (mirror b) (cwords (sixteen_rounds c)) <-> symmetric (mirror b) (cwords c).
Proof. intros Hb Hc. rewrite (sixteen_rounds_spec c Hc). by apply rounds_symmetric. Qed.
Lemma first_block_asymmetric b data c : (1 <= b < 16)%nat -> Forall byte data ->
  input_block data new_cube_hash = Ok c -> ~ symmetric (mirror b) (cwords (sixteen_rounds c)).
Proof.
  intros Hb Hd E.
  destruct (decide (32 <= length data)%nat) as [Hl|Hl];
    [|rewrite input_block_short in E by lia; discriminate E].
  destruct (input_block_Ok data new_cube_hash Hl Hd) as (c1 & E1 & C1).
  rewrite E in E1. apply Ok_inj in E1. subst c1.
  assert (Ht : length (take 32 data) = 32%nat) by (rewrite take_length; lia).
  assert (S : wf_cube c).
  { unfold wf_cube. rewrite C1. apply cube_load_state; [rewrite cube_iv; apply cube_init_state|done|by apply Forall_take]. }
  rewrite sixteen_symmetric by (done || lia). intros F. unfold symmetric in F.
  assert (G : forall j, (j < 16)%nat -> cwords c !!! (16 + j)%nat = cwords new_cube_hash !!! (16 + j)%nat).
  { intros j Hj. rewrite C1. unfold cube_load.
    assert (L : length (cube_words (take 32 data)) = 8%nat) by (rewrite cube_words_8 by done; by rewrite fmap_length).
    fold (cube_words (take 32 data)). rewrite L.
    rewrite lookup_total_app_r by (rewrite zip_with_length, take_length, L; cbn; lia).
    rewrite zip_with_length, take_length, L. change (length (cwords new_cube_hash)) with 32%nat.
    rewrite lookup_total_drop. f_equal. }
  apply (f_equal (fun l : list Z => l !!! 16%nat)) in F. cbv beta in F.
  pose proof (G 0%nat ltac:(lia)) as G0. change (16 + 0)%nat with 16%nat in G0. rewrite G0 in F.
  rewrite mirror_lookup in F by lia.
  assert (B : Nat.lxor 16 b = (16 + b)%nat).
  { clear -Hb. do 16 (destruct b as [|b]; [reflexivity|]). lia. }
  rewrite B, G in F by lia. clear -F Hb.
  do 16 (destruct b as [|b]; [try lia; vm_compute in F; discriminate F|]). lia.
Qed.
