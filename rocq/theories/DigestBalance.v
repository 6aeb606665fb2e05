(** * Every digest of CubeHash comes from the same number of states (lemmas for PDigestState.v) *)
From Verif Require Import Machine MachineFacts MUtils MCubeGen MCube MDigestState CubeFacts CubePerm WordFacts SpongeFacts KeyCount.
From Verif Require Import SpecWord SpecCube SpecPhases.
#[local] Open Scope Z_scope.

Lemma le_number_word bs : length bs = 4%nat -> Forall byte bs -> word 32 (le_number bs) /\ le_bytes 4 (le_number bs) = bs.
Proof.
  intros Hl Hb. pose proof (word_le_number4 bs Hl Hb) as Hw. split; [done|].
  rewrite <- Hl. apply le_bytes_eq; [done|]. rewrite Hl. apply Z.mod_small. exact Hw.
Qed.
Lemma bytes_words n : forall d, length d = (4 * n)%nat -> Forall byte d ->
  exists l, length l = n /\ Forall (word 32) l /\ l ≫= le_bytes 4 = d.
Proof.
  induction n as [|n IH]; intros d Hl Hb.
  - exists []. destruct d; [done|discriminate Hl].
  - destruct (IH (drop 4 d)) as (l & Ll & Wl & El); [rewrite drop_length; lia|by apply Forall_drop|].
    destruct (le_number_word (take 4 d)) as [W E]; [rewrite take_length; lia|by apply Forall_take|].
    exists (le_number (take 4 d) :: l). split; [cbn; lia|]. split; [by constructor|].
    change ((le_number (take 4 d) :: l) ≫= le_bytes 4) with (le_bytes 4 (le_number (take 4 d)) ++ (l ≫= le_bytes 4)).
    rewrite E, El. apply take_drop.
Qed.
Lemma le_bytes4_inj x y : word 32 x -> word 32 y -> le_bytes 4 x = le_bytes 4 y -> x = y.
Proof.
  intros Hx Hy E.
  assert (B : Forall byte (le_bytes 4 y)) by apply le_bytes_byte.
  pose proof (proj1 (le_bytes_eq (le_bytes 4 y) x B)) as Ex. pose proof (proj1 (le_bytes_eq (le_bytes 4 y) y B)) as Ey.
  rewrite le_bytes_length in Ex, Ey. specialize (Ex E). specialize (Ey eq_refl). rewrite <- Ey in Ex.
  rewrite !Z.mod_small in Ex by assumption. exact Ex.
Qed.
Lemma bind_bytes_inj l : forall l', length l = length l' -> Forall (word 32) l -> Forall (word 32) l' ->
  l ≫= le_bytes 4 = l' ≫= le_bytes 4 -> l = l'.
Proof.
  induction l as [|x l IH]; intros [|y l'] Hl Hw Hw' E; try discriminate Hl; [done|].
  change (le_bytes 4 x ++ (l ≫= le_bytes 4) = le_bytes 4 y ++ (l' ≫= le_bytes 4)) in E.
  apply app_inj_1 in E as [E1 E2]; [|by rewrite !le_bytes_length].
  apply Forall_cons_1 in Hw as [Hx Hw]. apply Forall_cons_1 in Hw' as [Hy Hw'].
  f_equal; [by apply le_bytes4_inj|]. apply IH; auto.
Qed.
Lemma read_words p c : known_platform p -> cubehash_read p c = Ok (take 8 (cwords c) ≫= le_bytes 4).
Proof.
  intros Hp. unfold cubehash_read.
  change [c_x0 c; c_x1 c; c_x2 c; c_x3 c; c_x4 c; c_x5 c; c_x6 c; c_x7 c] with (take 8 (cwords c)).
  rewrite foldM_extend by (done || (cbn [cwords take length]; lia)). done.
Qed.
Lemma xor_xv_back c : xor_xv (xor_xv c 1) 1 = c.
Proof. destruct c. unfold xor_xv. f_equal. apply lxor_cancel. Qed.
Lemma xor_xv_wf c : wf_cube c -> wf_cube (xor_xv c 1).
Proof. unfold wf_cube. rewrite cwords_xor_xv. apply cube_final_load_state. Qed.
Lemma xor_xv_perm : permutes_on wf_cube (fun c => xor_xv c 1).
Proof.
  split; [|split].
  - apply xor_xv_wf.
  - intros c c' _ _ E. by rewrite <- (xor_xv_back c), E, xor_xv_back.
  - intros c Hc. exists (xor_xv c 1). split; [by apply xor_xv_wf|apply xor_xv_back].
Qed.
#[local] Opaque sixteen_rounds.
Lemma final_perm : permutes_on wf_cube (fun c => Nat.iter 10 sixteen_rounds (xor_xv c 1)).
Proof. exact (perm_comp wf_cube (Nat.iter 10 sixteen_rounds) _ (perm_iter wf_cube 10 _ sixteen_rounds_perm) xor_xv_perm). Qed.
Lemma digest_balance p digest rest : known_platform p ->
  length digest = 32%nat -> Forall byte digest -> length rest = 24%nat -> Forall (word 32) rest ->
  exists! c, wf_cube c /\
    let c' := Nat.iter 10 sixteen_rounds (xor_xv c 1) in
    cubehash_read p c' = Ok digest /\ drop 8 (cwords c') = rest.
Proof.
  intros Hp Ld Bd Lr Wr. destruct final_perm as (_ & Hinj & Hsurj).
  destruct (bytes_words 8 digest Ld Bd) as (l & Ll & Wl & El).
  destruct (cwords_surj (l ++ rest) ltac:(rewrite app_length; lia)) as [y Ey].
  assert (Hy : wf_cube y).
  { unfold wf_cube. rewrite Ey. split; [rewrite app_length; lia|]. by apply Forall_app. }
  destruct (Hsurj y Hy) as (c & Hc & Ec). exists c. split.
  - split; [done|]. cbv zeta. rewrite Ec, read_words, Ey by done.
    rewrite take_app_alt, drop_app_alt, El by done. done.
  - intros c' [Hc' [E1 E2]]. cbv zeta in E1, E2. apply Hinj; [done..|]. cbv beta. rewrite Ec.
    pose proof (proj1 final_perm c' Hc') as Hz. cbv beta in Hz.
    set (z := Nat.iter 10 sixteen_rounds (xor_xv c' 1)) in *. clearbody z.
    apply cwords_inj. rewrite Ey, <- (take_drop 8 (cwords z)), E2. f_equal.
    rewrite read_words in E1 by done. apply Ok_inj in E1. destruct Hz as [Lz Wz].
    apply bind_bytes_inj; [rewrite take_length; lia|done|by apply Forall_take|]. by rewrite El, E1.
Qed.
Lemma last_part p data c : cubehash_state p data = Ok c -> exists c0, c = Nat.iter 10 sixteen_rounds (xor_xv c0 1).
Proof.
  unfold cubehash_state. cbv zeta. intros E.
  apply obind_Ok_inv in E as (b1 & _ & E). apply obind_Ok_inv in E as (b2 & _ & E).
  apply obind_Ok_inv in E as (c1 & _ & E). apply obind_Ok_inv in E as (c2 & _ & E).
  apply Ok_inj in E. exists (sixteen_rounds c2). by symmetry.
Qed.
