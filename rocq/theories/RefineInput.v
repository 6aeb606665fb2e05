(** * Refinement: input padding, absorption, output *)
From Verif Require Import Machine MachineFacts MUtils WordFacts Schedule Refine.
From Verif Require Import SpecWord SpecBlake2b SpecLyra2.
From Verif Require MLyra2.
#[local] Opaque blake2b_round.

(** ** Lists *)
Lemma drop_S_total {A} `{Inhabited A} (l : list A) n : (n < length l)%nat -> drop n l = l !!! n :: drop (S n) l.
Proof. intros Hn. apply drop_S. by apply list_lookup_lookup_total_lt. Qed.
Lemma chunks_lookup {A} n (l : list A) i : (0 < n)%nat -> (i < length l / n)%nat ->
  chunks n l !! i = Some (take n (drop (n * i) l)).
Proof. intros Hn Hi. unfold chunks. rewrite list_lookup_fmap, lookup_seq_lt by done. done. Qed.
Lemma chunks_length {A} n (l : list A) : length (chunks n l) = (length l / n)%nat.
Proof. unfold chunks. by rewrite fmap_length, seq_length. Qed.
Lemma chunks_Forall_length {A} n (l : list A) : (0 < n)%nat -> Forall (fun c => length c = n) (chunks n l).
Proof.
  intros Hn. apply Forall_lookup. intros i c Hi.
  assert (Hl := lookup_lt_Some _ _ _ Hi). rewrite chunks_length in Hl.
  rewrite chunks_lookup in Hi by done. injection Hi as <-.
  rewrite take_length, drop_length.
  assert (n * (length l / n) <= length l)%nat by (apply Nat.mul_div_le; lia). nia.
Qed.
Lemma chunks_Forall {A} (P : A -> Prop) n (l : list A) : Forall P l -> Forall (Forall P) (chunks n l).
Proof.
  intros Hl. unfold chunks. apply Forall_fmap, Forall_true. intros i. cbn.
  by apply Forall_take, Forall_drop.
Qed.
Lemma complete_words_length l : length (complete_words l) = (length l / 8)%nat.
Proof. unfold complete_words. by rewrite fmap_length, chunks_length. Qed.
Lemma le_number_word bs : length bs = 8%nat -> Forall byte bs -> word 64 (le_number bs).
Proof. intros Hl Hb. pose proof (le_number_bound bs Hb) as H. rewrite Hl in H. exact H. Qed.
Lemma complete_words_words l : Forall byte l -> Forall (word 64) (complete_words l).
Proof.
  intros Hl. unfold complete_words. apply Forall_fmap.
  pose proof (chunks_Forall byte 8 l Hl) as H1.
  pose proof (chunks_Forall_length 8 l ltac:(lia)) as H2.
  apply Forall_forall. intros c Hc. rewrite Forall_forall in H1, H2. cbn.
  apply le_number_word; auto.
Qed.

Lemma vset_zeros ws (n : nat) x : 
  vset (ws ++ replicate (S n) 0) (vlen ws) x = Ok ((ws ++ [x]) ++ replicate n 0).
Proof.
  rewrite vset_Ok.
  - unfold vlen. rewrite Nat2Z.id. f_equal. rewrite <- app_assoc.
    change (replicate (S n) 0) with ([0] ++ replicate n 0).
    by rewrite (insert_app_r_alt _ _ _ _ ltac:(done)), Nat.sub_diag.
  - unfold vlen. rewrite app_length, replicate_length. lia.
Qed.

Section input.
Context (p : platform) (Hp : known_platform p).

Lemma bits_ge : 32 <= usize_bits p.
Proof. destruct Hp; lia. Qed.
Lemma isize_usize : 2 ^ usize_bits p = 2 * (isize_max p + 1) /\ isize_max p < 2 ^ 63 /\ 2 ^ 31 <= isize_max p + 1.
Proof. unfold isize_max. destruct Hp as [-> | ->]; cbn; lia. Qed.

Lemma copy_words_Ok data ws (n : nat) :
  Forall byte data -> vlen data <= isize_max p -> (length data / 8 <= n)%nat ->
  8 * (vlen ws + Z.of_nat n) <= isize_max p ->
  MLyra2.copy_words p data (vlen ws) (ws ++ replicate n 0) =
    Ok ((ws ++ complete_words data) ++ replicate (n - length data / 8)%nat 0).
Proof.
  intros Hb Hlen Hn Hmax. pose proof isize_usize as Hi. unfold MLyra2.copy_words.
  pose proof (vlen_nonneg data). pose proof (vlen_nonneg ws).
  assert (Hdiv : vlen data / 8 = Z.of_nat (length data / 8)).
  { unfold vlen. by rewrite Nat2Z.inj_div. }
  assert (0 <= vlen data / 8 <= vlen data) by (split; [apply Z.div_pos; lia|apply Z.div_le_upper_bound; lia]).
  rewrite for_range_foldM by lia. rewrite Z.sub_0_r, Hdiv.
  assert (Hgen : forall k, (k <= length data / 8)%nat ->
    foldM (fun m j => start <-- szmul p 8 j ;; end_ <-- szadd p start 8 ;;
      bs <-- slice data start end_ ;; w <-- read_u64_le bs ;;
      at_ <-- szadd p (vlen ws) j ;; vset m at_ w) (seqZ 0 (Z.of_nat k)) (ws ++ replicate n 0)
    = Ok ((ws ++ take k (complete_words data)) ++ replicate (n - k) 0)).
  { induction k as [|k IH]; intros Hk.
    - rewrite seqZ_nil by lia. cbn [foldM take]. by rewrite app_nil_r, Nat.sub_0_r.
    - rewrite Nat2Z.inj_succ, <- Z.add_1_r, seqZ_app by lia. rewrite foldM_app, IH by lia. cbn [obind].
      rewrite seqZ_cons by lia. rewrite seqZ_nil by lia. cbn [foldM]. rewrite Z.add_0_l.
      assert (Hk8 : (8 * (length data / 8) <= length data)%nat) by (apply Nat.mul_div_le; lia).
      unfold vlen in Hlen, H, Hmax, H0.
      unfold szmul, szadd. rewrite chk_usize_Ok by lia. cbn [obind].
      rewrite chk_usize_Ok by lia. cbn [obind].
      rewrite slice_Ok by (unfold vlen; lia). cbn [obind].
      replace (Z.to_nat (8 * Z.of_nat k + 8 - 8 * Z.of_nat k)) with 8%nat by lia.
      replace (Z.to_nat (8 * Z.of_nat k)) with (8 * k)%nat by lia.
      rewrite read_u64_le_spec.
      2:{ rewrite take_length, drop_length. lia. }
      2:{ by apply Forall_take, Forall_drop. }
      cbn [obind]. unfold vlen. rewrite chk_usize_Ok by lia. cbn [obind].
      assert (Hcw : complete_words data !! k = Some (le_number (take 8 (drop (8 * k) data)))).
      { unfold complete_words. rewrite list_lookup_fmap, chunks_lookup by lia. done. }
      destruct (n - k)%nat as [|nk] eqn:Enk; [lia|].
      replace (Z.of_nat (length ws) + Z.of_nat k) with (vlen (ws ++ take k (complete_words data))).
      2:{ unfold vlen. rewrite app_length, take_length, complete_words_length. lia. }
      rewrite vset_zeros. cbn [obind]. f_equal. f_equal.
      + by rewrite <- app_assoc, (take_S_r _ _ _ Hcw).
      + f_equal. lia. }
  rewrite Hgen by lia. rewrite take_ge by (rewrite complete_words_length; lia). done.
Qed.

Lemma push_word_Ok ws (n : nat) x : 8 * (vlen ws + Z.of_nat (S n)) <= isize_max p ->
  MLyra2.push_word p (ws ++ replicate (S n) 0, vlen ws) x =
  Ok ((ws ++ [x]) ++ replicate n 0, vlen (ws ++ [x])).
Proof.
  intros H. pose proof isize_usize. pose proof (vlen_nonneg ws). unfold MLyra2.push_word. rewrite vset_zeros. cbn [obind].
  unfold szadd. rewrite chk_usize_Ok by lia. cbn [obind]. do 2 f_equal.
  unfold vlen. rewrite app_length. simpl. lia.
Qed.

Definition body_words (k : Z) (pwd salt : list Z) (t R C : Z) : list Z :=
  complete_words pwd ++ complete_words salt ++ [k; Z.of_nat (length pwd); Z.of_nat (length salt); t; R; C; 0x80].
Lemma body_words_length k pwd salt t R C :
  Z.of_nat (length (body_words k pwd salt t R C)) = vlen pwd / 8 + vlen salt / 8 + 7.
Proof.
  unfold body_words, vlen. rewrite !app_length, !complete_words_length. cbn [length].
  rewrite !Nat2Z.inj_add, !Nat2Z.inj_div. change (Z.of_nat 8) with 8. lia.
Qed.
Lemma n_blocks_bounds pwd salt :
  1 <= n_blocks pwd salt /\ vlen pwd + vlen salt + 48 < 64 * n_blocks pwd salt <= vlen pwd + vlen salt + 112 /\
  vlen pwd / 8 + vlen salt / 8 + 7 <= 8 * n_blocks pwd salt.
Proof.
  unfold n_blocks. fold (vlen pwd) (vlen salt). pose proof (vlen_nonneg pwd). pose proof (vlen_nonneg salt).
  pose proof (Z.div_mod (vlen pwd + vlen salt + 48) 64 ltac:(lia)).
  pose proof (Z.mod_pos_bound (vlen pwd + vlen salt + 48) 64 ltac:(lia)).
  pose proof (Z.mul_div_le (vlen pwd) 8 ltac:(lia)). pose proof (Z.mul_div_le (vlen salt) 8 ltac:(lia)).
  assert (0 <= (vlen pwd + vlen salt + 48) / 64) by (apply Z.div_pos; lia). lia.
Qed.

Lemma n_blocks_input_Ok pwd salt : 64 * n_blocks pwd salt <= isize_max p ->
  MLyra2.n_blocks_input p pwd salt = Ok (n_blocks pwd salt).
Proof.
  intros H. pose proof isize_usize. pose proof (n_blocks_bounds pwd salt) as Hb.
  pose proof (vlen_nonneg pwd). pose proof (vlen_nonneg salt).
  unfold MLyra2.n_blocks_input, szadd, iadd, as_i64, MLyra2.BLOCKLENBLAKE2SAFEBYTES, MLyra2.BLOCKLENBLAKE2SAFEINT64.
  rewrite chk_usize_Ok by lia. cbn [obind]. rewrite chk_usize_Ok by lia. cbn [obind].
  rewrite wrap_i64_id by lia. rewrite Z.quot_div_nonneg by lia.
  change (8 * 8) with 64. replace (vlen salt + vlen pwd + 6 * 8) with (vlen pwd + vlen salt + 48) by lia.
  fold (n_blocks pwd salt). apply chk_i64_Ok. change (vlen pwd) with (Z.of_nat (length pwd)) in *.
  change (vlen salt) with (Z.of_nat (length salt)) in *. unfold n_blocks in *. lia.
Qed.

(** The matrix after the input has been written. *)
Definition input_matrix (len : Z) (k : Z) (pwd salt : list Z) (t R C : Z) : list Z :=
  alter (fun w => Z.lxor w (2 ^ 56)) (Z.to_nat (8 * n_blocks pwd salt - 1))
    (body_words k pwd salt t R C ++ replicate (Z.to_nat len - length (body_words k pwd salt t R C)) 0).

Lemma write_input_Ok len k pwd salt t R C :
  Forall byte pwd -> Forall byte salt ->
  8 * n_blocks pwd salt <= len -> 8 * len <= isize_max p ->
  MLyra2.write_input p k pwd salt t R C (n_blocks pwd salt) (replicate (Z.to_nat len) 0) =
  Ok (input_matrix len k pwd salt t R C).
Proof.
  intros Hbp Hbs Hlen Hmax. pose proof isize_usize as Hi. pose proof (n_blocks_bounds pwd salt) as Hb.
  pose proof (vlen_nonneg pwd). pose proof (vlen_nonneg salt).
  assert (Hdp : vlen pwd / 8 = Z.of_nat (length pwd / 8)) by (unfold vlen; by rewrite Nat2Z.inj_div).
  assert (Hds : vlen salt / 8 = Z.of_nat (length salt / 8)) by (unfold vlen; by rewrite Nat2Z.inj_div).
  unfold MLyra2.write_input.
  pose proof (copy_words_Ok pwd [] (Z.to_nat len) Hbp ltac:(lia) ltac:(lia) ltac:(change (vlen (@nil Z)) with 0; lia)) as E.
  cbn [app vlen length] in E. change (vlen []) with 0 in E. rewrite E. clear E. cbn [obind].
  unfold szadd at 1. rewrite Z.add_0_l. unfold as_usize at 1.
  rewrite Z.mod_small by lia. rewrite chk_usize_Ok by lia. cbn [obind].
  assert (Ep : vlen pwd / 8 = vlen (complete_words pwd)) by (unfold vlen at 2; by rewrite complete_words_length).
  rewrite Ep. rewrite (copy_words_Ok salt); [|done|lia|lia|].
  2:{ rewrite <- Ep. lia. }
  cbn [obind]. rewrite <- Ep. unfold as_usize at 1. rewrite Z.mod_small by lia.
  unfold szadd at 1. rewrite chk_usize_Ok by lia. cbn [obind].
  set (ws := complete_words pwd ++ complete_words salt).
  assert (Ew : vlen pwd / 8 + vlen salt / 8 = vlen ws).
  { unfold ws, vlen. rewrite app_length, !complete_words_length, Nat2Z.inj_add, !Nat2Z.inj_div. done. }
  rewrite Ew.
  replace (Z.to_nat len - length pwd / 8 - length salt / 8)%nat with
    (S (S (S (S (S (S (S (Z.to_nat len - length ws - 7))))))))%nat by (unfold vlen in *; lia).
  do 6 (rewrite push_word_Ok by (unfold vlen in *; rewrite ?app_length; simpl; lia); cbn [obind]).
  rewrite vset_zeros. cbn [obind].
  unfold imul, isub, MLyra2.BLOCKLENBLAKE2SAFEBYTES, MLyra2.BLOCKLENBLAKE2SAFEINT64. change (8 * 8) with 64.
  rewrite chk_i64_Ok by lia. cbn [obind]. rewrite Z.quot_div_nonneg by lia.
  replace (n_blocks pwd salt * 64) with (8 * n_blocks pwd salt * 8) by lia. rewrite Z.div_mul by lia.
  rewrite chk_i64_Ok by lia. cbn [obind]. unfold as_usize. rewrite Z.mod_small by lia.
  match goal with |- context [?l ++ replicate _ 0] =>
    assert (Hl : l = body_words k pwd salt t R C) by (unfold body_words, ws; rewrite <- !app_assoc; reflexivity) end.
  rewrite Hl.
  pose proof (body_words_length k pwd salt t R C) as Hbl.
  assert (Hws : (length ws + 7 = length (body_words k pwd salt t R C))%nat) by (unfold vlen in *; lia).
  set (m := body_words k pwd salt t R C ++ _).
  assert (Hm : vlen m = len). { unfold m, vlen. rewrite app_length, replicate_length. lia. }
  rewrite vget_Ok by lia. cbn [obind]. rewrite vset_Ok by lia. f_equal. unfold input_matrix.
  replace (Z.to_nat len - length (body_words k pwd salt t R C))%nat with (Z.to_nat len - length ws - 7)%nat by lia.
  fold m. apply list_eq. intros i. destruct (decide (i = Z.to_nat (8 * n_blocks pwd salt - 1))) as [->|Hne].
  - rewrite list_lookup_insert by (unfold vlen in Hm; lia). rewrite list_lookup_alter.
    rewrite (list_lookup_lookup_total_lt m) by (unfold vlen in Hm; lia). done.
  - rewrite list_lookup_insert_ne, list_lookup_alter_ne by done. done.
Qed.

Lemma input_matrix_length len k pwd salt t R C : 8 * n_blocks pwd salt <= len ->
  vlen (input_matrix len k pwd salt t R C) = len.
Proof.
  intros H. pose proof (n_blocks_bounds pwd salt). pose proof (body_words_length k pwd salt t R C).
  unfold input_matrix, vlen. rewrite alter_length, app_length, replicate_length. lia.
Qed.
Lemma code_padded_length k pwd salt t R C :
  Z.of_nat (length (code_padded k pwd salt t R C)) = 8 * n_blocks pwd salt.
Proof.
  pose proof (n_blocks_bounds pwd salt). pose proof (body_words_length k pwd salt t R C) as Hl.
  unfold code_padded. fold (body_words k pwd salt t R C).
  rewrite alter_length, app_length, replicate_length. lia.
Qed.
Lemma input_matrix_take len k pwd salt t R C : 8 * n_blocks pwd salt <= len ->
  take (Z.to_nat (8 * n_blocks pwd salt)) (input_matrix len k pwd salt t R C) = code_padded k pwd salt t R C.
Proof.
  intros H. pose proof (n_blocks_bounds pwd salt) as Hb. pose proof (body_words_length k pwd salt t R C) as Hl.
  unfold input_matrix, code_padded. fold (body_words k pwd salt t R C).
  replace (Z.to_nat (8 * n_blocks pwd salt - 1)) with (Z.to_nat (8 * n_blocks pwd salt) - 1)%nat by lia.
  set (n := Z.to_nat (8 * n_blocks pwd salt)). set (b := body_words k pwd salt t R C) in *.
  assert (Hbn : (length b <= n)%nat) by lia. assert (Hnl : (n <= Z.to_nat len)%nat) by lia.
  assert (Hn0 : (0 < n)%nat) by lia. clearbody n b. clear -Hbn Hnl Hn0.
  assert (Hext : b ++ replicate (Z.to_nat len - length b) 0 =
    (b ++ replicate (n - length b) 0) ++ replicate (Z.to_nat len - n) 0).
  { rewrite <- app_assoc, <- replicate_add. do 2 f_equal. lia. }
  rewrite Hext. rewrite alter_app_l by (rewrite app_length, replicate_length; lia).
  rewrite take_app_alt; [done|]. rewrite alter_length, app_length, replicate_length. lia.
Qed.
Lemma code_padded_words k pwd salt t R C :
  Forall byte pwd -> Forall byte salt -> word 64 k -> word 64 (vlen pwd) -> word 64 (vlen salt) ->
  word 64 t -> word 64 R -> word 64 C -> Forall (word 64) (body_words k pwd salt t R C).
Proof.
  intros. unfold body_words. apply Forall_app; split; [by apply complete_words_words|].
  apply Forall_app; split; [by apply complete_words_words|].
  repeat constructor; try done; apply H1 || apply H2 || apply H3 || apply H4 || apply H5 || apply H6 || (unfold word; lia).
Qed.
Lemma Forall_alter_word (l : list Z) i : Forall (word 64) l ->
  Forall (word 64) (alter (fun w => Z.lxor w (2 ^ 56)) i l).
Proof.
  intros H. apply Forall_alter; [done|]. intros x _ Hx. apply word_lxor; [lia|done|unfold word; lia].
Qed.
Lemma input_matrix_words len k pwd salt t R C :
  Forall byte pwd -> Forall byte salt -> word 64 k -> word 64 (vlen pwd) -> word 64 (vlen salt) ->
  word 64 t -> word 64 R -> word 64 C -> Forall (word 64) (input_matrix len k pwd salt t R C).
Proof.
  intros. unfold input_matrix. apply Forall_alter_word. apply Forall_app; split; [by apply code_padded_words|].
  apply Forall_replicate. unfold word. lia.
Qed.

(** ** Absorbing the input *)
Lemma foldM_xor_in8 w st : length st = 16%nat -> (8 <= length w)%nat ->
  foldM (MLyra2.xor_in w) [0; 1; 2; 3; 4; 5; 6; 7]%nat st = Ok (absorb st (take 8 w)).
Proof.
  intros Hst Hw. do 8 (destruct w as [|? w]; [simpl in Hw; lia|]).
  do 17 (destruct st as [|? st]; try discriminate Hst).
  cbn [foldM]. unfold MLyra2.xor_in.
  do 8 (rewrite vget_nth by (unfold vlen; cbn [length]; lia); rewrite Nat2Z.id;
        lazy [obind insert list_insert aget nth]). reflexivity.
Qed.
Lemma foldM_xor_in12 w st : length st = 16%nat -> (12 <= length w)%nat ->
  foldM (MLyra2.xor_in w) [0; 1; 2; 3; 4; 5; 6; 7; 8; 9; 10; 11]%nat st = Ok (absorb st (take 12 w)).
Proof.
  intros Hst Hw. do 12 (destruct w as [|? w]; [simpl in Hw; lia|]).
  do 17 (destruct st as [|? st]; try discriminate Hst).
  cbn [foldM]. unfold MLyra2.xor_in.
  do 12 (rewrite vget_nth by (unfold vlen; cbn [length]; lia); rewrite Nat2Z.id;
        lazy [obind insert list_insert aget nth]). reflexivity.
Qed.
Lemma round12_state16 st : state16 st -> state16 (round12 st).
Proof. apply iter_round_state16. Qed.
Lemma absorb_safe_Ok st w : state16 st -> (8 <= length w)%nat -> Forall (word 64) w ->
  MLyra2.absorb_block_blake2_safe st w = Ok (round12 (absorb st (take 8 w))) /\
  state16 (round12 (absorb st (take 8 w))).
Proof.
  intros Hst Hl Hw. unfold MLyra2.absorb_block_blake2_safe.
  assert (state16 (absorb st (take 8 w))).
  { apply absorb_state16; [done|rewrite take_length; lia|by apply Forall_take]. }
  rewrite foldM_xor_in8 by (apply Hst || done). cbn [obind]. split.
  - f_equal. by apply blake2b_lyra_spec.
  - by apply round12_state16.
Qed.
Lemma absorb_block_Ok st w : state16 st -> (12 <= length w)%nat -> Forall (word 64) (take 12 w) ->
  MLyra2.absorb_block st w = Ok (round12 (absorb st (take 12 w))) /\
  state16 (round12 (absorb st (take 12 w))).
Proof.
  intros Hst Hl Hw. unfold MLyra2.absorb_block.
  assert (state16 (absorb st (take 12 w))).
  { apply absorb_state16; [done|rewrite take_length; lia|done]. }
  rewrite foldM_xor_in12 by (apply Hst || done). cbn [obind]. split.
  - f_equal. by apply blake2b_lyra_spec.
  - by apply round12_state16.
Qed.
Lemma init_state_spec : MLyra2.init_state = sponge_init.
Proof. vm_compute. reflexivity. Qed.
Lemma sponge_init_state16 : state16 sponge_init.
Proof.
  split; [done|]. apply (bool_decide_unpack (Forall (fun x => 0 <= x < 2 ^ 64) sponge_init)). vm_compute. exact I.
Qed.

Lemma absorb_input_Ok nb m : 1 <= nb -> 8 * nb <= vlen m -> 8 * vlen m <= isize_max p ->
  Forall (word 64) m ->
  MLyra2.absorb_input p nb m MLyra2.init_state =
    Ok (absorb_all (chunks 8 (take (Z.to_nat (8 * nb)) m))) /\
  state16 (absorb_all (chunks 8 (take (Z.to_nat (8 * nb)) m))).
Proof.
  intros Hnb Hm Hmax Hw. pose proof isize_usize as Hi. unfold MLyra2.absorb_input, absorb_all.
  rewrite init_state_spec. rewrite for_range_foldM by lia. rewrite Z.sub_0_r.
  assert (Hch : chunks 8 (take (Z.to_nat (8 * nb)) m) = (fun i => take 8 (drop (Z.to_nat (8 * i)) m)) <$> seqZ 0 nb).
  { apply list_eq. intros i. unfold vlen in Hm.
    destruct (decide (i < Z.to_nat nb)%nat) as [Hlt|Hge].
    - assert (Hl8 : (length (take (Z.to_nat (8 * nb)) m) / 8 = Z.to_nat nb)%nat).
      { rewrite take_length, Nat.min_l by lia. replace (Z.to_nat (8 * nb)) with (Z.to_nat nb * 8)%nat by lia.
        by rewrite Nat.div_mul. }
      rewrite chunks_lookup by lia. rewrite list_lookup_fmap, lookup_seqZ_lt by lia. cbn.
      f_equal. rewrite Z.add_0_l. replace (Z.to_nat (8 * Z.of_nat i)) with (8 * i)%nat by lia.
      apply list_eq. intros j. destruct (decide (j < 8)%nat).
      + rewrite !lookup_take by lia. rewrite !lookup_drop. by rewrite lookup_take by lia.
      + rewrite !lookup_take_ge by lia. done.
    - rewrite !lookup_ge_None_2; [done| |].
      + rewrite fmap_length, seqZ_length. lia.
      + rewrite chunks_length, take_length, Nat.min_l by lia.
        replace (Z.to_nat (8 * nb)) with (Z.to_nat nb * 8)%nat by lia. rewrite Nat.div_mul by lia. lia. }
  rewrite Hch.
  assert (Hgen : forall n, 0 <= n -> n <= nb ->
    foldM (fun '(state, ptr_word) (_ : Z) =>
      right <-- split_right m ptr_word ;;
      state <-- MLyra2.absorb_block_blake2_safe state right ;;
      ptr_word <-- szadd p ptr_word MLyra2.BLOCKLENBLAKE2SAFEINT64 ;;
      Ok (state, ptr_word)) (seqZ 0 n) (sponge_init, 0) =
    Ok (foldl (fun st b => round12 (absorb st b)) sponge_init
          ((fun i => take 8 (drop (Z.to_nat (8 * i)) m)) <$> seqZ 0 n), 8 * n) /\
    state16 (foldl (fun st b => round12 (absorb st b)) sponge_init
          ((fun i => take 8 (drop (Z.to_nat (8 * i)) m)) <$> seqZ 0 n))).
  { intros n Hn. pattern n. apply natlike_ind; [| |done]; clear n Hn.
    - intros _. rewrite seqZ_nil by lia. split; [done|apply sponge_init_state16].
    - intros n Hn IH Hle. destruct (IH ltac:(lia)) as [E Hst]. clear IH.
      rewrite <- Z.add_1_r, seqZ_app by lia. rewrite foldM_app, E. cbn [obind].
      rewrite fmap_app, foldl_app. rewrite (seqZ_cons _ 1), seqZ_nil by lia. cbn [fmap list_fmap foldM foldl].
      rewrite Z.add_0_l. set (st := foldl _ _ _) in *.
      rewrite split_right_Ok by lia. cbn [obind]. unfold vlen in *.
      destruct (absorb_safe_Ok st (drop (Z.to_nat (8 * n)) m) Hst) as [-> Hst'].
      { rewrite drop_length. lia. }
      { by apply Forall_drop. }
      cbn [obind]. unfold szadd, MLyra2.BLOCKLENBLAKE2SAFEINT64. rewrite chk_usize_Ok by lia. cbn [obind].
      split; [|done]. do 2 f_equal. lia. }
  destruct (Hgen nb ltac:(lia) ltac:(lia)) as [E Hst]. split; [|done].
  erewrite foldM_ext; [rewrite E; reflexivity|]. by intros [??] ??.
Qed.

(** ** Output *)
Lemma rate_bytes_length st : length st = 16%nat -> length (rate_bytes st) = 96%nat.
Proof.
  intros Hl. do 17 (destruct st as [|? st]; try discriminate Hl). reflexivity.
Qed.
Lemma squeeze_row_Ok st tmp : length st = 16%nat -> vlen tmp <= 96 ->
  for_range 0 MLyra2.BLOCKLENINT64 (fun i tmp =>
    vec_extend p tmp (to_le_bytes 8 (aget st (Z.to_nat i)))) tmp = Ok (tmp ++ rate_bytes st).
Proof.
  intros Hl Ht. rewrite for_range_foldM by (unfold MLyra2.BLOCKLENINT64; lia).
  change (seqZ 0 (MLyra2.BLOCKLENINT64 - 0)) with [0;1;2;3;4;5;6;7;8;9;10;11].
  pose proof isize_usize as Hi. cbn [foldM]. unfold vec_extend.
  do 12 (rewrite (proj2 (Z.leb_le _ _)) by
           (unfold vlen in *; rewrite ?app_length; cbn [length to_le_bytes]; lia); cbn [obind]).
  rewrite <- !app_assoc. f_equal. f_equal. unfold rate_bytes, rate.
  rewrite !to_le_bytes_spec.
  do 17 (destruct st as [|? st]; try discriminate Hl).
  cbn [take mbind list_bind]. rewrite app_nil_r. reflexivity.
Qed.
Lemma squeeze_Ok st k : state16 st -> 0 <= k <= 96 -> MLyra2.squeeze p st k = Ok (squeezed k st).
Proof.
  intros Hst Hk. pose proof isize_usize as Hi. unfold MLyra2.squeeze, squeezed.
  unfold as_usize. rewrite Z.mod_small by lia.
  unfold vec_zeroed. rewrite (proj2 (Z.leb_le _ _)) by lia. cbn [obind].
  unfold as_i64. rewrite wrap_i64_id by lia.
  change MLyra2.BLOCKLENBYTES with 96. unfold iadd. rewrite Z.quot_div_nonneg by lia.
  assert (Hl := proj1 Hst). pose proof (rate_bytes_length st Hl) as Hrl.
  destruct (Z.eq_dec k 96) as [->|].
  - change (96 / 96 + 1) with 2. rewrite chk_i64_Ok by lia. cbn [obind].
    rewrite for_range_foldM by lia.
    change (seqZ 0 (2 - 0)) with [0; 1]. change (seqZ 0 2) with [0; 1]. cbn [foldM].
    rewrite squeeze_row_Ok by (done || (cbn; lia)). cbn [obind app].
    rewrite slice_Ok by (unfold vlen; lia). cbn [obind].
    rewrite blake2b_lyra_spec by done. fold (round12 st).
    pose proof (round12_state16 st Hst) as Hst'.
    rewrite squeeze_row_Ok by (apply Hst' || (unfold vlen; lia)). cbn [obind].
    rewrite slice_Ok by (unfold vlen; rewrite ?app_length; lia). cbn [obind].
    f_equal. cbn [mbind list_bind]. rewrite app_nil_r. reflexivity.
  - assert (k / 96 = 0) as -> by (apply Z.div_small; lia). change (0 + 1) with 1.
    rewrite chk_i64_Ok by lia. cbn [obind]. rewrite for_range_foldM by lia.
    change (seqZ 0 (1 - 0)) with [0]. change (seqZ 0 1) with [0]. cbn [foldM].
    rewrite squeeze_row_Ok by (done || (cbn; lia)). cbn [obind app].
    rewrite slice_Ok by (unfold vlen; lia). cbn [obind].
    f_equal. cbn [mbind list_bind]. rewrite app_nil_r, Z.sub_0_r. reflexivity.
Qed.
End input.
