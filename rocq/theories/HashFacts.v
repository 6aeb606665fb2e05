(** * Outputs of the CubeHash and BMW models: domain, lengths, bytes *)
From Verif Require Import Machine MachineFacts MUtils MBmw MCube.
From Verif Require Import SpecWord SpecCube SpecBmw WordFacts.
From Verif Require Import CubeFacts BmwFacts.
From Verif Require Import Tests.
#[local] Open Scope Z_scope.

Lemma bind_le_bytes_byte n (l : list Z) : Forall byte (l ≫= le_bytes n).
Proof.
  induction l as [|x l IH]; [constructor|]. change ((x :: l) ≫= le_bytes n) with (le_bytes n x ++ (l ≫= le_bytes n)).
  apply Forall_app. split; [apply le_bytes_byte|exact IH].
Qed.
Lemma cubehash256_byte msg : Forall byte (cubehash256 msg).
Proof. unfold cubehash256. cbv zeta. apply Forall_take, bind_le_bytes_byte. Qed.
Lemma cube_block_state x b : cube_state x -> length b = 32%nat -> Forall byte b -> cube_state (cube_block x b).
Proof. intros. rewrite cube_block_load. apply cube_rounds_state. by apply cube_load_state. Qed.
Lemma foldl_cube_block bs x : cube_state x -> Forall (fun b => length b = 32%nat /\ Forall byte b) bs ->
  cube_state (foldl cube_block x bs).
Proof.
  revert x. induction bs as [|b bs IH]; intros x Hx H; [exact Hx|]. apply Forall_cons in H as [[H1 H2] H3].
  cbn [foldl]. apply IH; [by apply cube_block_state|exact H3].
Qed.
Lemma cubehash256_length msg : Forall byte msg -> length (cubehash256 msg) = 32%nat.
Proof.
  intros Hb. apply cube_length. apply foldl_cube_block; [apply cube_init_state|].
  assert (Hp : Forall byte (cube_pad msg)).
  { unfold cube_pad. apply Forall_app. split; [done|]. constructor; [unfold byte; lia|].
    apply Forall_replicate. unfold byte. lia. }
  unfold chunks. apply Forall_fmap, Forall_forall. intros i Hi. apply elem_of_seq in Hi.
  unfold compose. rewrite take_length, drop_length.
  pose proof (Nat.mul_div_le (length (cube_pad msg)) cube_b ltac:(unfold cube_b; lia)) as Hd.
  split; [|by apply Forall_take, Forall_drop].
  change cube_b with 32%nat in *. lia.
Qed.
Lemma bmw_one_block_byte b : Forall byte (bmw_one_block b).
Proof. unfold bmw_one_block. apply bind_le_bytes_byte. Qed.

Lemma cube_sum_returns_iff p m : known_platform p -> Forall byte m ->
  ((32 <= length m)%nat <-> exists out, cubehash_sum p m = Ok out /\ length out = 32%nat /\ Forall byte out) /\
  ((length m < 32)%nat <-> cubehash_sum p m = Panic).
Proof.
  intros Hp Hb. destruct (decide (32 <= length m)%nat) as [H|H].
  - rewrite cube_sum_value by done. split; split; intros H'; try lia; try discriminate; try done.
    exists (cubehash256 (take 32 m)). split; [done|]. split; [|apply cubehash256_byte].
    apply cubehash256_length. by apply Forall_take.
  - rewrite cube_sum_short by (done || lia). split; split; intros H'; try lia; try done.
    destruct H' as (out & E & _). discriminate.
Qed.
Lemma cube_sum_tail p m t : known_platform p -> Forall byte (m ++ t) -> (32 <= length m)%nat ->
  cubehash_sum p (m ++ t) = cubehash_sum p m.
Proof.
  intros Hp Hb H. rewrite cube_sum_value; [|done|rewrite app_length; lia|done].
  rewrite cube_sum_value; [|done|done|by apply Forall_app in Hb as [? _]].
  by rewrite take_app_le by lia.
Qed.
Lemma cube_sum_32 p m : known_platform p -> length m = 32%nat -> Forall byte m ->
  cubehash_sum p m = Ok (cubehash256 m).
Proof. intros Hp H Hb. rewrite cube_sum_value by (done || lia). by rewrite take_ge by lia. Qed.

Lemma bmw_sum_returns_iff p m : known_platform p -> Forall byte m ->
  ((length m < 64)%nat <-> exists out, bmw_sum p m = Ok out /\ length out = 32%nat /\ Forall byte out) /\
  ((64 <= length m)%nat <-> bmw_sum p m = Panic).
Proof.
  intros Hp Hb. destruct (decide (length m < 64)%nat) as [H|H].
  - rewrite bmw_sum_value by done. split; split; intros H'; try lia; try discriminate; try done.
    exists (bmw_one_block (code_block m)). split; [done|]. split; [apply bmw_one_block_length|apply bmw_one_block_byte].
  - rewrite bmw_sum_long by (done || lia). split; split; intros H'; try lia; try done.
    destruct H' as (out & E & _). discriminate.
Qed.
Lemma bmw_sum_56 p m : known_platform p -> (56 <= length m < 64)%nat -> Forall byte m ->
  bmw_sum p m = Ok (bmw_one_block (bmw_overwritten m)).
Proof.
  intros Hp H Hb. rewrite bmw_sum_value by (done || lia). do 2 f_equal. unfold code_block, bmw_overwritten.
  by rewrite take_app_le by lia.
Qed.
Lemma bmw_sum_prefix p m m' : known_platform p -> Forall byte m -> Forall byte m' ->
  length m = length m' -> take 56 m = take 56 m' -> bmw_sum p m = bmw_sum p m'.
Proof.
  intros Hp Hb Hb' Hl Ht. destruct (decide (length m < 64)%nat) as [H|H].
  - rewrite !bmw_sum_value by (done || lia). f_equal. f_equal. unfold code_block. rewrite <- Hl. f_equal.
    destruct (decide (56 <= length m)%nat).
    + rewrite !take_app_le by lia. done.
    + rewrite !take_ge in Ht by lia. by subst m'.
  - by rewrite !bmw_sum_long by (done || lia).
Qed.

(** ** Witnesses *)
Lemma compress_value b m : Forall (word 32) (b_h b) -> length (b_h b) = 16%nat ->
  Forall (word 32) (b_q b) -> length (b_q b) = 32%nat -> Forall (word 32) m -> length m = 16%nat ->
  b_h (compress b m) = bmw_compress m (b_h b).
Proof. intros H1 H2 H3 H4 H5 H6. refine (proj1 (compress_spec b m _ H5 H6)). exact (Build_bmw_ok b H1 H2 H3 H4). Qed.
Lemma Ok_inj {A} (x y : A) : Ok x = Ok y -> x = y.
Proof. congruence. Qed.
Lemma byte_replicate n : Forall byte (replicate n 48).
Proof. apply Forall_replicate. unfold byte. lia. Qed.
Lemma bmw_collides : exists m m', Forall byte m /\ Forall byte m' /\ m <> m' /\
  length m = 60%nat /\ length m' = 60%nat /\ bmw_sum debug64 m = bmw_sum debug64 m'.
Proof.
  exists (replicate 56 48 ++ [1; 2; 3; 4]), (replicate 60 48).
  assert (Hb : Forall byte (replicate 56 48 ++ [1; 2; 3; 4])).
  { apply Forall_app. split; [apply byte_replicate|]. repeat constructor; lia. }
  split; [exact Hb|]. split; [apply byte_replicate|].
  split; [vm_compute; discriminate|]. split; [reflexivity|]. split; [reflexivity|].
  apply bmw_sum_prefix; [right; reflexivity|exact Hb|apply byte_replicate|reflexivity|reflexivity].
Qed.
Transparent bmw_compress bmw_iv bmw_final.
Lemma bmw_56_differs : exists m, Forall byte m /\ length m = 56%nat /\ bmw_sum debug64 m <> Ok (bmw256 m).
Proof.
  exists (replicate 56 48). split; [apply byte_replicate|]. split; [reflexivity|].
  rewrite bmw_sum_56; [|right; reflexivity|vm_compute; lia|apply byte_replicate].
  intros H. apply Ok_inj in H. revert H. vm_compute. discriminate.
Qed.
Lemma cube_long_differs : exists m, Forall byte m /\ (32 <= length m)%nat /\
  cubehash_sum debug64 m <> Ok (cubehash256 m).
Proof.
  exists (replicate 32 48 ++ [48]). split; [exact (byte_replicate 33)|]. split; [simpl; lia|].
  rewrite (cube_sum_tail debug64 (replicate 32 48) [48] (or_intror eq_refl) (byte_replicate 33) (le_n 32)).
  rewrite kat_cubehash_1. intros H. apply Ok_inj in H. revert H. unfold cubehash256. cbv zeta. rewrite <- cube_iv.
  vm_compute. discriminate.
Qed.
