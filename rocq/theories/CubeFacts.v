(** * cubehash::sum against CubeHash16/32-256 (lemmas for PHashes.v) *)
From Verif Require Import Machine MachineFacts MUtils MCubeGen MCube WordFacts SpongeFacts.
From Verif Require Import SpecWord SpecCube.

Definition cwords (c : CubeHash) : list Z :=
  [c_x0 c; c_x1 c; c_x2 c; c_x3 c; c_x4 c; c_x5 c; c_x6 c; c_x7 c;
   c_x8 c; c_x9 c; c_xa c; c_xb c; c_xc c; c_xd c; c_xe c; c_xf c;
   c_xg c; c_xh c; c_xi c; c_xj c; c_xk c; c_xl c; c_xm c; c_xn c;
   c_xo c; c_xp c; c_xq c; c_xr c; c_xs c; c_xt c; c_xu c; c_xv c].

(** ** The rotation of the code *)
Definition rot32 (n x : Z) : Z := Z.lor (wshl 32 x n) (wshr x (32 - n)).
Lemma rot32_rol n x : 0 <= n <= 32 -> word 32 x -> rot32 n x = rol 32 n x.
Proof.
  intros Hn [Hx Hx']. unfold rot32, rol, wshl, wshr.
  rewrite Z.land_ones, Z.shiftl_mul_pow2, Z.shiftr_div_pow2 by lia.
  assert (P : 0 < 2 ^ n) by (apply Z.pow_pos_nonneg; lia).
  assert (P' : 0 < 2 ^ (32 - n)) by (apply Z.pow_pos_nonneg; lia).
  assert (E : 2 ^ 32 = 2 ^ (32 - n) * 2 ^ n) by (rewrite <- Z.pow_add_r by lia; f_equal; clear; lia).
  rewrite E. rewrite Z.mul_mod_distr_r by lia.
  assert (0 <= x / 2 ^ (32 - n) < 2 ^ n).
  { split; [apply Z.div_pos; lia|]. apply Z.div_lt_upper_bound; [done|]. by rewrite <- E. }
  rewrite Z.lor_comm, (lor_add_disjoint _ _ n) by lia. lia.
Qed.
Lemma word_rol n x : 0 <= n <= 32 -> word 32 x -> word 32 (rol 32 n x).
Proof.
  intros Hn [Hx Hx']. unfold rol.
  assert (P : 0 < 2 ^ n) by (apply Z.pow_pos_nonneg; lia).
  assert (P' : 0 < 2 ^ (32 - n)) by (apply Z.pow_pos_nonneg; lia).
  assert (E : 2 ^ 32 = 2 ^ (32 - n) * 2 ^ n) by (rewrite <- Z.pow_add_r by lia; f_equal; clear; lia).
  assert (0 <= x / 2 ^ (32 - n) < 2 ^ n).
  { split; [apply Z.div_pos; lia|]. apply Z.div_lt_upper_bound; [done|]. by rewrite <- E. }
  pose proof (Z.mod_pos_bound x (2 ^ (32 - n)) P'). unfold word. rewrite E. nia.
Qed.
Lemma wadd32 x y : wadd 32 x y = addw 32 x y.
Proof. unfold wadd, addw. by rewrite Z.land_ones by lia. Qed.

(** ** The unrolled rounds, with the operations left abstract *)
Definition add_gen (add : Z -> Z -> Z) (x : list Z) : list Z :=
  each (fun i => if upper i then add (x !!! (i - 16)%nat) (x !!! i) else x !!! i).
Definition rotate_gen (rot : Z -> Z) (x : list Z) : list Z :=
  each (fun i => if upper i then x !!! i else rot (x !!! i)).
Definition round_gen (add : Z -> Z -> Z) (rot7 rot11 : Z -> Z) (x : list Z) : list Z :=
  cube_swap1 1 (cube_xor (cube_swap0 4 (rotate_gen rot11 (add_gen add
    (cube_swap1 2 (cube_xor (cube_swap0 8 (rotate_gen rot7 (add_gen add x))))))))).
Lemma two_rounds_gen c :
  cwords (two_rounds c) =
  round_gen (wadd 32) (rot32 7) (rot32 11) (round_gen (wadd 32) (rot32 7) (rot32 11) (cwords c)).
Proof.
  destruct c. cbv -[wadd wshl wshr Z.lor Z.lxor]. reflexivity.
Qed.

(** ** States and steps *)
Lemma each_lookup f i : (i < 32)%nat -> each f !!! i = f i.
Proof.
  intros H. unfold each. apply list_lookup_total_correct. rewrite list_lookup_fmap.
  rewrite lookup_seq_lt by done. done.
Qed.
Lemma each_ext f g : (forall i, (i < 32)%nat -> f i = g i) -> each f = each g.
Proof.
  intros H. unfold each. apply list_fmap_ext. intros i x Hx. apply lookup_seq in Hx. apply H. lia.
Qed.
Lemma each_state f : (forall i, (i < 32)%nat -> word 32 (f i)) -> cube_state (each f).
Proof.
  intros H. split; [done|]. unfold each. apply Forall_fmap, Forall_seq. intros i Hi. apply H. lia.
Qed.
Lemma cube_word x i : cube_state x -> (i < 32)%nat -> word 32 (x !!! i).
Proof. intros [Hl Hf] Hi. apply (Forall_lookup_total_1 _ x i Hf). lia. Qed.
Lemma upper_true i : upper i = true -> (16 <= i)%nat.
Proof. apply Nat.leb_le. Qed.
Lemma upper_false i : upper i = false -> (i < 16)%nat.
Proof. apply Nat.leb_gt. Qed.
Lemma add_gen_spec x : add_gen (wadd 32) x = cube_add x.
Proof. apply each_ext. intros i Hi. by rewrite wadd32. Qed.
Lemma rotate_gen_spec n x : 0 <= n <= 32 -> cube_state x -> rotate_gen (rot32 n) x = cube_rotate n x.
Proof.
  intros Hn Hx. apply each_ext. intros i Hi. rewrite rot32_rol by (done || by apply cube_word). done.
Qed.
Lemma cube_add_state x : cube_state x -> cube_state (cube_add x).
Proof.
  intros Hx. apply each_state. intros i Hi. destruct (upper i); [|by apply cube_word].
  unfold addw. apply Z.mod_pos_bound. lia.
Qed.
Lemma cube_rotate_state n x : 0 <= n <= 32 -> cube_state x -> cube_state (cube_rotate n x).
Proof.
  intros Hn Hx. apply each_state. intros i Hi. destruct (upper i); [by apply cube_word|].
  apply word_rol; [done|by apply cube_word].
Qed.
Lemma cube_xor_state x : cube_state x -> cube_state (cube_xor x).
Proof.
  intros Hx. apply each_state. intros i Hi. destruct (upper i) eqn:E; [by apply cube_word|].
  apply upper_false in E. apply word_lxor; [lia|apply cube_word; (done || lia)..].
Qed.
Lemma lxor_lt_32 i b : (i < 32)%nat -> (b < 32)%nat -> (Nat.lxor i b < 32)%nat.
Proof.
  intros Hi Hb.
  assert (A : forallb (fun i => forallb (fun b => Nat.ltb (Nat.lxor i b) 32) (seq 0 32)) (seq 0 32) = true)
    by (vm_compute; reflexivity).
  rewrite forallb_forall in A. specialize (A i ltac:(apply in_seq; lia)).
  rewrite forallb_forall in A. specialize (A b ltac:(apply in_seq; lia)). by apply Nat.ltb_lt.
Qed.
Lemma cube_swap0_state b x : (b < 32)%nat -> cube_state x -> cube_state (cube_swap0 b x).
Proof.
  intros Hb Hx. apply each_state. intros i Hi.
  destruct (upper i); apply cube_word; try done. by apply lxor_lt_32.
Qed.
Lemma cube_swap1_state b x : (b < 32)%nat -> cube_state x -> cube_state (cube_swap1 b x).
Proof.
  intros Hb Hx. apply each_state. intros i Hi.
  destruct (upper i); apply cube_word; try done. by apply lxor_lt_32.
Qed.
Ltac state_tac := repeat match goal with
  | |- cube_state (cube_add _) => apply cube_add_state
  | |- cube_state (cube_rotate _ _) => apply cube_rotate_state; [lia|]
  | |- cube_state (cube_xor _) => apply cube_xor_state
  | |- cube_state (cube_swap0 _ _) => apply cube_swap0_state; [lia|]
  | |- cube_state (cube_swap1 _ _) => apply cube_swap1_state; [lia|] end.
#[local] Opaque cube_add cube_rotate cube_xor cube_swap0 cube_swap1.
Lemma cube_round_state x : cube_state x -> cube_state (cube_round x).
Proof.
  intros Hx. unfold cube_round. cbv zeta.
  state_tac. done.
Qed.
Lemma round_gen_spec x : cube_state x -> round_gen (wadd 32) (rot32 7) (rot32 11) x = cube_round x.
Proof.
  intros Hx. unfold round_gen, cube_round. cbv zeta. rewrite !add_gen_spec.
  rewrite (rotate_gen_spec 7) by (lia || by apply cube_add_state). rewrite rotate_gen_spec; [done|lia|].
  state_tac. done.
Qed.
Lemma cube_rounds_state n x : cube_state x -> cube_state (cube_rounds n x).
Proof. intros H. induction n as [|n IH]; [done|]. by apply cube_round_state. Qed.
Lemma cube_rounds_add n m x : cube_rounds (n + m) x = cube_rounds n (cube_rounds m x).
Proof. apply Nat.iter_add. Qed.
Lemma two_rounds_spec c : cube_state (cwords c) -> cwords (two_rounds c) = cube_rounds 2 (cwords c).
Proof.
  intros H. rewrite two_rounds_gen. rewrite (round_gen_spec (cwords c)) by done.
  apply round_gen_spec. by apply cube_round_state.
Qed.
#[global] Opaque two_rounds cube_round.
Lemma iter_two_rounds n c : cube_state (cwords c) ->
  cwords (Nat.iter n two_rounds c) = cube_rounds (2 * n) (cwords c).
Proof.
  intros H. induction n as [|n IH]; [done|].
  change (Nat.iter (S n) two_rounds c) with (two_rounds (Nat.iter n two_rounds c)).
  rewrite two_rounds_spec; [|rewrite IH; by apply cube_rounds_state]. rewrite IH.
  rewrite <- cube_rounds_add. f_equal. lia.
Qed.
Lemma sixteen_rounds_spec c : cube_state (cwords c) ->
  cwords (sixteen_rounds c) = cube_rounds cube_r (cwords c).
Proof. exact (iter_two_rounds 8 c). Qed.
Lemma iter_sixteen n c : cube_state (cwords c) ->
  cwords (Nat.iter n sixteen_rounds c) = cube_rounds (n * cube_r) (cwords c).
Proof.
  intros H. induction n as [|n IH]; [done|].
  change (Nat.iter (S n) sixteen_rounds c) with (sixteen_rounds (Nat.iter n sixteen_rounds c)).
  rewrite sixteen_rounds_spec; [|rewrite IH; by apply cube_rounds_state]. rewrite IH.
  rewrite <- cube_rounds_add. f_equal.
Qed.
#[global] Opaque sixteen_rounds.
Lemma cube_iv : cwords new_cube_hash = cube_init.
Proof. vm_compute. reflexivity. Qed.
Lemma cube_init_state : cube_state cube_init.
Proof.
  rewrite <- cube_iv. split; [done|].
  apply (bool_decide_unpack (Forall (fun x => 0 <= x < 2 ^ 32) (cwords new_cube_hash))). vm_compute. exact I.
Qed.
#[global] Opaque cube_init.

(** ** Input and output *)
Lemma known_isize p : known_platform p -> 2 ^ 31 - 1 <= isize_max p.
Proof. unfold known_platform, isize_max. intros [-> | ->]; vm_compute; congruence. Qed.
Lemma read_at_Ok data i : (4 * i + 4 <= length data)%nat -> Forall byte data ->
  read_at data (Z.of_nat (4 * i)) (Z.of_nat (4 * i + 4)) = Ok (le_number (take 4 (drop (4 * i) data))).
Proof.
  intros H Hb. unfold read_at. rewrite slice_Ok by (unfold vlen; lia). cbn [obind].
  replace (Z.to_nat (Z.of_nat (4 * i + 4) - Z.of_nat (4 * i))) with 4%nat by lia. rewrite Nat2Z.id.
  apply read_u32_le_spec; [rewrite take_length, drop_length; lia|by apply Forall_take, Forall_drop].
Qed.
Lemma read_at_Panic data s e : vlen data < e -> read_at data s e = Panic.
Proof. intros H. unfold read_at. by rewrite slice_Panic. Qed.
Lemma read_at_not_fuel data s e : read_at data s e <> OutOfFuel.
Proof.
  unfold read_at, slice. destruct (_ && _); cbn [obind]; [|discriminate].
  unfold read_u32_le, vget. repeat (destruct (_ && _); cbn [obind]; [|discriminate]). discriminate.
Qed.
Lemma input_block_short data c : (length data < 32)%nat -> input_block data c = Panic.
Proof.
  intros H. destruct c. unfold input_block.
  rewrite (read_at_Panic data 28 32) by (unfold vlen; lia).
  repeat match goal with |- context [read_at data ?s ?e] =>
    pose proof (read_at_not_fuel data s e);
    destruct (read_at data s e); [cbn [obind] | done | done] end.
  reflexivity.
Qed.
Definition cube_words (block : list Z) : list Z := le_number <$> chunks 4 block.
Definition cube_load (x block : list Z) : list Z :=
  zip_with Z.lxor (take (length (cube_words block)) x) (cube_words block) ++
  drop (length (cube_words block)) x.
Lemma cube_block_load x block : cube_block x block = cube_rounds cube_r (cube_load x block).
Proof. done. Qed.
Lemma cube_words_8 block : length block = 32%nat -> cube_words block =
  (fun i => le_number (take 4 (drop (4 * i) block))) <$> [0; 1; 2; 3; 4; 5; 6; 7]%nat.
Proof. intros H. unfold cube_words, chunks. by rewrite H. Qed.
Lemma read_at_take data i : (i < 8)%nat -> (32 <= length data)%nat -> Forall byte data ->
  read_at data (Z.of_nat (4 * i)) (Z.of_nat (4 * i + 4)) =
  Ok (le_number (take 4 (drop (4 * i) (take 32 data)))).
Proof.
  intros Hi H Hb. rewrite read_at_Ok by (done || lia). do 2 f_equal.
  rewrite skipn_firstn_comm, take_take. f_equal. lia.
Qed.
Lemma input_block_Ok data c : (32 <= length data)%nat -> Forall byte data ->
  exists c', input_block data c = Ok c' /\ cwords c' = cube_load (cwords c) (take 32 data).
Proof.
  intros H Hb. destruct c. unfold input_block.
  assert (E0 : read_at data 0 4 = Ok (le_number (take 4 (drop 0 (take 32 data))))) by exact (read_at_take data 0 ltac:(lia) H Hb).
  assert (E1 : read_at data 4 8 = Ok (le_number (take 4 (drop 4 (take 32 data))))) by exact (read_at_take data 1 ltac:(lia) H Hb).
  assert (E2 : read_at data 8 12 = Ok (le_number (take 4 (drop 8 (take 32 data))))) by exact (read_at_take data 2 ltac:(lia) H Hb).
  assert (E3 : read_at data 12 16 = Ok (le_number (take 4 (drop 12 (take 32 data))))) by exact (read_at_take data 3 ltac:(lia) H Hb).
  assert (E4 : read_at data 16 20 = Ok (le_number (take 4 (drop 16 (take 32 data))))) by exact (read_at_take data 4 ltac:(lia) H Hb).
  assert (E5 : read_at data 20 24 = Ok (le_number (take 4 (drop 20 (take 32 data))))) by exact (read_at_take data 5 ltac:(lia) H Hb).
  assert (E6 : read_at data 24 28 = Ok (le_number (take 4 (drop 24 (take 32 data))))) by exact (read_at_take data 6 ltac:(lia) H Hb).
  assert (E7 : read_at data 28 32 = Ok (le_number (take 4 (drop 28 (take 32 data))))) by exact (read_at_take data 7 ltac:(lia) H Hb).
  rewrite E0, E1, E2, E3, E4, E5, E6, E7. cbn [obind]. eexists. split; [reflexivity|].
  unfold cube_load. rewrite !cube_words_8 by (rewrite take_length; lia). reflexivity.
Qed.
Lemma word_le_number4 bs : length bs = 4%nat -> Forall byte bs -> word 32 (le_number bs).
Proof. intros Hl Hb. pose proof (le_number_bound _ Hb) as B. rewrite Hl in B. exact B. Qed.
Lemma cube_load_state x block : cube_state x -> length block = 32%nat -> Forall byte block ->
  cube_state (cube_load x block).
Proof.
  intros [Hl Hf] Hb HB. assert (L : length (cube_words block) = 8%nat) by (rewrite cube_words_8 by done; done).
  assert (W : Forall (word 32) (cube_words block)).
  { rewrite cube_words_8 by done. apply Forall_fmap, Forall_forall. intros i Hi. apply word_le_number4.
    - rewrite take_length, drop_length. repeat (apply elem_of_cons in Hi as [->|Hi]; [lia|]).
      by apply elem_of_nil in Hi.
    - by apply Forall_take, Forall_drop. }
  unfold cube_load. split.
  - rewrite app_length, zip_with_length, take_length, drop_length. lia.
  - apply Forall_app. split; [|by apply Forall_drop].
    apply Forall_zip_with_1 with (P := word 32) (Q := word 32) || idtac.
    apply Forall_lookup. intros i y Hy. apply lookup_zip_with_Some in Hy as (a & b & -> & Ha & Hbb).
    apply word_lxor; [lia| |by eapply Forall_lookup_1].
    eapply Forall_lookup_1; [|exact Ha]. by apply Forall_take.
Qed.
Lemma cwords_xor_xv c : cwords (xor_xv c 1) = <[31%nat := Z.lxor (cwords c !!! 31%nat) 1]> (cwords c).
Proof. destruct c. reflexivity. Qed.
Lemma cube_final_load_state x : cube_state x -> cube_state (<[31%nat := Z.lxor (x !!! 31%nat) 1]> x).
Proof.
  intros [Hl Hf]. split; [by rewrite insert_length|]. apply Forall_insert; [done|].
  apply word_lxor; [lia|by apply (Forall_lookup_total_1 _ x 31 Hf); lia|]. unfold word. lia.
Qed.
Lemma foldM_extend p l acc : known_platform p -> (length acc + 4 * length l <= 32)%nat ->
  foldM (fun out x => vec_extend p out (to_le_bytes 4 x)) l acc = Ok (acc ++ (l ≫= le_bytes 4)).
Proof.
  intros Hp. pose proof (known_isize p Hp) as Hi. revert acc. induction l as [|x l IH]; intros acc H.
  - cbn. by rewrite app_nil_r.
  - cbn [foldM length] in *. unfold vec_extend at 1. rewrite to_le_bytes_spec.
    replace (vlen acc + vlen (le_bytes 4 x) <=? isize_max p) with true.
    2:{ symmetry. apply Z.leb_le. unfold vlen. rewrite le_bytes_length. lia. }
    cbn [obind]. rewrite IH by (rewrite app_length, le_bytes_length; lia).
    cbn [mbind list_bind]. by rewrite <- app_assoc.
Qed.
Lemma take_bind_le (l : list Z) n : (n <= length l)%nat ->
  take (4 * n) (l ≫= le_bytes 4) = take n l ≫= le_bytes 4.
Proof.
  revert n. induction l as [|x l IH]; intros [|n] H; try done; try (simpl in H; lia).
  cbn [mbind list_bind take]. rewrite take_app_ge by (rewrite le_bytes_length; lia).
  rewrite le_bytes_length. replace (4 * S n - 4)%nat with (4 * n)%nat by lia. f_equal. apply IH. simpl in H. lia.
Qed.
(** The result for every input of at least 32 bytes. *)
Lemma cube_sum_value p data : known_platform p -> (32 <= length data)%nat -> Forall byte data ->
  cubehash_sum p data = Ok (cubehash256 (take 32 data)).
Proof.
  intros Hp Hl Hb. pose proof (known_isize p Hp) as Hi. unfold cubehash_sum. cbv zeta.
  unfold vec_zeroed. replace (32 * 1 <=? isize_max p) with true by (symmetry; apply Z.leb_le; lia).
  change (Z.to_nat 32) with 32%nat. cbn [obind].
  change (vset (replicate 32 0) 0 128) with (@Ok (list Z) (128 :: replicate 31 0)). cbn [obind].
  set (pad := 128 :: replicate 31 0).
  assert (Hpad : Forall byte pad).
  { apply (bool_decide_unpack (Forall (fun x => 0 <= x < 256) pad)). vm_compute. exact I. }
  assert (Ht : length (take 32 data) = 32%nat) by (rewrite take_length; lia).
  pose proof cube_init_state as S0.
  destruct (input_block_Ok data new_cube_hash Hl Hb) as (c1 & -> & C1). cbn [obind].
  rewrite cube_iv in C1.
  assert (S1 : cube_state (cwords c1)).
  { rewrite C1. apply cube_load_state; [done|done|by apply Forall_take]. }
  pose proof (sixteen_rounds_spec c1 S1) as C2. rewrite C1, <- cube_block_load in C2.
  assert (S2 : cube_state (cwords (sixteen_rounds c1))).
  { rewrite (sixteen_rounds_spec _ ltac:(eassumption)). by apply cube_rounds_state. }
  destruct (input_block_Ok pad (sixteen_rounds c1) ltac:(done) Hpad) as (c3 & -> & C3). cbn [obind].
  change (take 32 pad) with pad in C3.
  assert (S3 : cube_state (cwords c3)) by (rewrite C3; by apply cube_load_state).
  pose proof (sixteen_rounds_spec c3 S3) as C4. rewrite C3, <- cube_block_load, C2 in C4.
  assert (S4 : cube_state (cwords (sixteen_rounds c3))).
  { rewrite (sixteen_rounds_spec _ ltac:(eassumption)). by apply cube_rounds_state. }
  pose proof (cwords_xor_xv (sixteen_rounds c3)) as C5.
  pose proof (cube_final_load_state _ S4) as S5. rewrite <- C5 in S5.
  pose proof (iter_sixteen 10 (xor_xv (sixteen_rounds c3) 1) S5) as C6. rewrite C5, C4 in C6.
  generalize dependent (Nat.iter 10 sixteen_rounds (xor_xv (sixteen_rounds c3) 1)). intros c6 C6.
  change [c_x0 c6; c_x1 c6; c_x2 c6; c_x3 c6; c_x4 c6; c_x5 c6; c_x6 c6; c_x7 c6] with (take 8 (cwords c6)).
  rewrite foldM_extend by (done || (cbn [cwords take length]; lia)). f_equal.
  unfold cubehash256. cbv zeta.
  assert (P : cube_pad (take 32 data) = take 32 data ++ pad).
  { unfold cube_pad. by rewrite Ht. }
  assert (K : chunks cube_b (cube_pad (take 32 data)) = [take 32 data; pad]).
  { rewrite P. unfold chunks. rewrite app_length, Ht. change ((32 + length pad) / cube_b)%nat with 2%nat.
    cbn [seq fmap list_fmap]. change (cube_b * 0)%nat with 0%nat. change (cube_b * 1)%nat with 32%nat.
    rewrite drop_0, take_app_alt by done. rewrite drop_app_alt by done. done. }
  rewrite K. cbn [foldl]. change (cube_h) with (4 * 8)%nat. rewrite take_bind_le.
  - unfold cube_final. change (10 * cube_r)%nat with (10 * cube_r)%nat in *. by rewrite <- C6.
  - unfold cube_final. rewrite <- C6. cbn [cwords length]. lia.
Qed.
Lemma cube_sum_short p data : known_platform p -> (length data < 32)%nat -> cubehash_sum p data = Panic.
Proof.
  intros Hp Hl. pose proof (known_isize p Hp) as Hi. unfold cubehash_sum. cbv zeta.
  unfold vec_zeroed. replace (32 * 1 <=? isize_max p) with true by (symmetry; apply Z.leb_le; lia).
  cbn [obind]. change (vset (replicate (Z.to_nat 32) 0) 0 128) with (@Ok (list Z) (128 :: replicate 31 0)).
  cbn [obind]. by rewrite input_block_short.
Qed.
Lemma cube_length msg : cube_state (foldl cube_block cube_init (chunks cube_b (cube_pad msg))) ->
  length (cubehash256 msg) = 32%nat.
Proof.
  intros H. unfold cubehash256. cbv zeta. unfold cube_h.
  assert (L : length (cube_final (foldl cube_block cube_init (chunks cube_b (cube_pad msg)))) = 32%nat).
  { apply cube_rounds_state. by apply cube_final_load_state. }
  rewrite take_length. revert L. generalize (cube_final (foldl cube_block cube_init (chunks cube_b (cube_pad msg)))).
  intros l L. change 32%nat with (4 * 8)%nat at 1.
  assert (B : forall l : list Z, length (l ≫= le_bytes 4) = (4 * length l)%nat).
  { clear. induction l as [|x l IH]; [done|]. cbn [mbind list_bind length]. rewrite app_length, le_bytes_length.
    change (list_bind _ _ (le_bytes 4) l) with (l ≫= le_bytes 4). rewrite IH. lia. }
  rewrite B. lia.
Qed.
