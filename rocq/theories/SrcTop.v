(** * The functions translated by tools/rust2coq.py are the model: lyra2, lyra2mod and sum *)
From Verif Require Import Machine MachineFacts MUtils MLyra2 SrcOps SrcFacts SrcLoops.
From Verif Require SrcUtils SrcLyra2 SrcLyra2mod.
#[local] Open Scope Z_scope.
(** ** The functions lyra2mod/mod.rs shares with lyra2.rs have the same text *)
Lemma mod_rotr64 : SrcLyra2mod.rotr64 = SrcLyra2.rotr64.
Proof. reflexivity. Qed.
Lemma mod_g : SrcLyra2mod.g = SrcLyra2.g.
Proof. cbv delta [SrcLyra2mod.g SrcLyra2.g]. rewrite mod_rotr64. reflexivity. Qed.
Lemma mod_round_lyra : SrcLyra2mod.round_lyra = SrcLyra2.round_lyra.
Proof. cbv delta [SrcLyra2mod.round_lyra SrcLyra2.round_lyra]. rewrite mod_g. reflexivity. Qed.
Lemma mod_init_state : SrcLyra2mod.init_state = SrcLyra2.init_state.
Proof. reflexivity. Qed.
Lemma mod_blake2b_lyra : SrcLyra2mod.blake2b_lyra = SrcLyra2.blake2b_lyra.
Proof. cbv delta [SrcLyra2mod.blake2b_lyra SrcLyra2.blake2b_lyra]. rewrite mod_round_lyra. reflexivity. Qed.
Lemma mod_reduced_blake2b_lyra : SrcLyra2mod.reduced_blake2b_lyra = SrcLyra2.reduced_blake2b_lyra.
Proof. cbv delta [SrcLyra2mod.reduced_blake2b_lyra SrcLyra2.reduced_blake2b_lyra]. rewrite mod_round_lyra. reflexivity. Qed.
Lemma mod_squeeze_body2 : SrcLyra2mod.squeeze_body2 = SrcLyra2.squeeze_body2.
Proof. reflexivity. Qed.
Lemma mod_squeeze_body1 : SrcLyra2mod.squeeze_body1 = SrcLyra2.squeeze_body1.
Proof. cbv delta [SrcLyra2mod.squeeze_body1 SrcLyra2.squeeze_body1]. rewrite mod_squeeze_body2, mod_blake2b_lyra. reflexivity. Qed.
Lemma mod_squeeze : SrcLyra2mod.squeeze = SrcLyra2.squeeze.
Proof. cbv delta [SrcLyra2mod.squeeze SrcLyra2.squeeze]. rewrite mod_squeeze_body1. reflexivity. Qed.
Lemma mod_absorb_block : SrcLyra2mod.absorb_block = SrcLyra2.absorb_block.
Proof. cbv delta [SrcLyra2mod.absorb_block SrcLyra2.absorb_block]. rewrite mod_blake2b_lyra. reflexivity. Qed.
Lemma mod_absorb_block_blake2_safe : SrcLyra2mod.absorb_block_blake2_safe = SrcLyra2.absorb_block_blake2_safe.
Proof. cbv delta [SrcLyra2mod.absorb_block_blake2_safe SrcLyra2.absorb_block_blake2_safe]. rewrite mod_blake2b_lyra. reflexivity. Qed.
Lemma mod_body1 : SrcLyra2mod.lyra2mod_body1 = SrcLyra2.lyra2_body1.
Proof. reflexivity. Qed.
Lemma mod_body2 : SrcLyra2mod.lyra2mod_body2 = SrcLyra2.lyra2_body2.
Proof. reflexivity. Qed.
Lemma mod_body3 : SrcLyra2mod.lyra2mod_body3 = SrcLyra2.lyra2_body3.
Proof. cbv delta [SrcLyra2mod.lyra2mod_body3 SrcLyra2.lyra2_body3]. rewrite mod_absorb_block_blake2_safe. reflexivity. Qed.
Lemma mod_body4 : SrcLyra2mod.lyra2mod_body4 = SrcLyra2.lyra2_body4.
Proof. cbv delta [SrcLyra2mod.lyra2mod_body4 SrcLyra2.lyra2_body4]. rewrite mod_reduced_blake2b_lyra. reflexivity. Qed.
Lemma mod_body5 : SrcLyra2mod.lyra2mod_body5 = SrcLyra2.lyra2_body5.
Proof. cbv delta [SrcLyra2mod.lyra2mod_body5 SrcLyra2.lyra2_body5]. rewrite mod_reduced_blake2b_lyra. reflexivity. Qed.
Lemma mod_body7 : SrcLyra2mod.lyra2mod_body7 = SrcLyra2.lyra2_body7.
Proof. cbv delta [SrcLyra2mod.lyra2mod_body7 SrcLyra2.lyra2_body7]. rewrite mod_reduced_blake2b_lyra. reflexivity. Qed.
Lemma mod_body6 : SrcLyra2mod.lyra2mod_body6 = SrcLyra2.lyra2_body6.
Proof. cbv delta [SrcLyra2mod.lyra2mod_body6 SrcLyra2.lyra2_body6]. rewrite mod_body7. reflexivity. Qed.
Lemma mod_body10 : SrcLyra2mod.lyra2mod_body10 = SrcLyra2.lyra2_body10.
Proof. cbv delta [SrcLyra2mod.lyra2mod_body10 SrcLyra2.lyra2_body10]. rewrite mod_reduced_blake2b_lyra. reflexivity. Qed.

(** The wandering phase of lyra2mod. *)
Definition mrel (a : Z * Z * Z * list Z * list Z * Z) (b : list Z * list Z * Z * Z * Z * Z) : Prop :=
  let '(m, s, idx, row, prev, rowa) := b in a = (row, prev, rowa, m, s, idx) /\ length s = 16%nat.
Definition mrel8 (a : Z * Z * Z * Z * list Z * list Z * Z) (b : list Z * list Z * Z * Z * Z * Z) : Prop :=
  let '(m, s, idx, row, prev, rowa) := b in exists step, a = (row, prev, rowa, step, m, s, idx) /\ length s = 16%nat.
Lemma land15 x : 0 <= Z.land x 15 < 16.
Proof. change 15 with (Z.ones 4). rewrite Z.land_ones by done. by apply Z.mod_pos_bound. Qed.
Lemma src_wander_loop_mod p R C step rl a b : mrel a b ->
  osim mrel (loop64 (SrcLyra2mod.lyra2mod_body9 p R C step rl) a) (wander_pass p (sel_lyra2mod p) rl R C step b).
Proof.
  intros H. unfold wander_pass. apply (loop64_sim mrel mrel); [|done]. clear a b H.
  intros a [[[[[m s] idx] row] prev] rowa] [-> Hs]. unfold SrcLyra2mod.lyra2mod_body9.
  assert (Hl : vlen s = 16) by (unfold vlen; by rewrite Hs).
  cbv delta [sel_lyra2mod] beta zeta.
  rewrite vget_aget by (rewrite Hl; apply land15). cbn [obind].
  rewrite vget_aget by (rewrite Hl; apply land15). cbn [obind]. rewrite mod_body10.
  destruct (usub p R 1) as [n1| |]; cbn [obind osim]; [|done..].
  rewrite src_duplex.
  eapply osim_bind; [apply (osim_refl (fun a b => a = b /\ length a.2 = 16%nat))|].
  { intros a E. split; [done|]. by eapply duplex_row_len. }
  intros ? [m2 s2] _ _ [-> Hs2]. unfold wander_next.
  destruct (iadd p row step) as [a1| |]; cbn [obind osim]; [|done..].
  destruct (isub p (as_i64 R) 1) as [w1| |]; cbn [obind osim]; [|done..].
  destruct (Z.land a1 w1 =? 0); cbn [osim sum_rel]; done.
Qed.
Lemma src_wander_mod p R C rl t m s prev rowa step : length s = 16%nat ->
  osim mrel8 (for_range 1 (t + 1) (SrcLyra2mod.lyra2mod_body8 p R C rl) (0, prev, rowa, step, m, s, 0))
    (wander p (sel_lyra2mod p) rl t R C m s prev rowa).
Proof.
  intros Hs. unfold wander. apply (for_range_sim mrel8); [|cbn; eauto]. clear m s prev rowa step Hs.
  intros i a [[[[[m s] idx] row] prev] rowa] _ (step & -> & Hs). unfold SrcLyra2mod.lyra2mod_body8, wander_step.
  destruct (isub p (Z.quot (as_i64 R) 2) 1) as [st| |]; cbn [obind osim]; [|done..].
  set (st' := if i mod 2 =? 0 then -1 else st).
  replace (if i mod 2 =? 0 then Ok (-1) else Ok st) with (Ok st') by (subst st'; by destruct (_ =? _)).
  cbn [obind].
  rewrite <- (obind_ret (wander_pass _ _ _ _ _ _ _)). eapply osim_bind; [by apply src_wander_loop_mod|].
  intros a [[[[[m2 s2] idx2] row2] prev2] rowa2] _ _ [-> Hs2]. cbn. eauto.
Qed.

#[local] Opaque MLyra2.round_lyra MLyra2.reduced_blake2b_lyra MLyra2.blake2b_lyra MLyra2.absorb_block
  SrcLyra2.reduced_blake2b_lyra SrcLyra2.blake2b_lyra SrcLyra2.absorb_block SrcLyra2.squeeze MLyra2.squeeze
  copy_words duplex_row1 setup_rows wander
  SrcLyra2.lyra2_body1 SrcLyra2.lyra2_body2 SrcLyra2.lyra2_body3 SrcLyra2.lyra2_body4 SrcLyra2.lyra2_body5
  SrcLyra2.lyra2_body6 SrcLyra2.lyra2_body7 SrcLyra2.lyra2_body8 SrcLyra2.lyra2_body9 SrcLyra2.lyra2_body10.

Lemma vec_resize_same p n m : 0 <= n -> vec_zeroed p 8 n = Ok m -> vec_resize p 8 m n 0 = Ok m.
Proof.
  intros Hn. unfold vec_zeroed, vec_resize. destruct (_ <=? isize_max p); [|done]. intros [= <-].
  unfold vlen. rewrite replicate_length, Z2Nat.id by done. rewrite Z.leb_refl.
  by rewrite take_ge by (rewrite replicate_length; lia).
Qed.
Lemma as_usize_nonneg p x : known_platform p -> 0 <= as_usize p x.
Proof. intros Hp. apply Z.mod_pos_bound. destruct Hp as [-> | ->]; done. Qed.

Ltac cg x E := apply obind_cong; intros x E; cbv beta.
Ltac ar := match goal with |- ?r = obind (obind ?e ?f) ?g => refine (eq_trans _ (eq_sym (obind_assoc e f g))); cbv beta end.
Ltac hr := match goal with |- ?r = obind (Ok ?a) ?f => refine (eq_trans _ (eq_sym (obind_Ok a f))); cbv beta end.

Lemma src_lyra2 p k pwd salt t R C : known_platform p ->
  SrcLyra2.lyra2 p k pwd salt t R C = MLyra2.lyra2 p k pwd salt t R C.
Proof.
  intros Hp. unfold SrcLyra2.lyra2, MLyra2.lyra2, lyra2_with.
  destruct (t <? 1); [done|]. hb. destruct (R <? 3); [done|]. do 9 hb.
  cg rl Erl. cg tot Etot. cg m0 Em0.
  rewrite (vec_resize_same _ _ _ (as_usize_nonneg _ _ Hp) Em0). hb.
  unfold n_blocks_input. ar. cg a1 E1. ar. cg a2 E2. cg nb Enb. hb.
  cbv delta [write_input] beta zeta. ar. rewrite src_copy. cg m1 Em1. ar. cg a3 E3. ar. rewrite src_copy2. cg m2 Em2. ar. cg a4 E4.
  cbv delta [push_word] beta iota.
  Ltac norm := repeat first [ar | hr; cbv iota].
  do 6 (norm; let m3 := fresh "m" in let Em := fresh "Em" in cg m3 Em; norm; let a5 := fresh "a" in let E5 := fresh "E" in cg a5 E5). norm.
  cg m_4 Em_4. norm. change SrcLyra2.BLOCKLENBLAKE2SAFEBYTES with MLyra2.BLOCKLENBLAKE2SAFEBYTES.
  cg a_6 E_6. norm. cg a_7 E_7. hb. norm. cg x Ex. cg m_5 Em_5. rewrite src_init. hb. hb.
  rewrite src_absorb_input by done. unfold absorb_input at 1. 
  refine (eq_trans _ (eq_sym (obind_assoc _ _ _))).
  assert (Hlen : post (fun s => length s.1 = 16%nat) (for_range 0 nb (fun _ '(state, ptr_word) =>
      right <-- split_right m_5 ptr_word ;;
      state <-- MLyra2.absorb_block_blake2_safe state right ;;
      ptr_word <-- szadd p ptr_word BLOCKLENBLAKE2SAFEINT64 ;;
      Ok (state, ptr_word)) (MLyra2.init_state, 0))).
  { apply (post_for_range (fun x => length x.1 = 16%nat)); [|done]. intros i [s' w] Hs'. cbn [fst] in Hs'.
    any. eapply post_bind; [by apply absorb_safe_len|]. intros s'' Hs''. any. by apply post_Ok. }
  cg xs Exs. apply Hlen in Exs. clear Hlen. destruct xs as [st ptr]. cbn [fst] in Exs. norm.
  unfold setup. ar. unfold squeeze_row0 at 1. ar.
  change SrcLyra2.BLOCKLENINT64 with MLyra2.BLOCKLENINT64. cg b1 Eb1. ar. cg b2 Eb2. rewrite (src_row0 _ _ _ _ _ _ Eb2). ar.
  pose proof (squeeze_row0_len p C m_5 st Exs) as Hlen. unfold squeeze_row0 in Hlen. rewrite Eb1 in Hlen. cbn [obind] in Hlen.
  rewrite Eb2 in Hlen. cbn [obind] in Hlen.
  cg y Ey. rewrite Ey in Hlen. destruct y as [[m_6 st6] ptr6]. specialize (Hlen _ eq_refl). cbn [snd] in Hlen. norm.
  rewrite src_row1. cg y E_y. destruct y as [m_7 st7]. apply (duplex_row1_len p rl C m_6 st6 Hlen) in E_y. cbn [snd] in E_y. 
  hb. rewrite src_setup_rows. rewrite obind_assoc. cg y E'. destruct y as [[m_8 st8] v].
  apply (setup_rows_len _ _ _ _ _ _ E_y) in E'. cbn [fst snd] in E'. hb. cbn [setup_tuple]. hb.
  apply osim_eq. eapply osim_bind; [by apply src_wander|].
  intros aa [[[[[m_9 st9] idx] row] prev] rowa] _ _ (step & -> & Hst). 
  assert (Heq : forall A (x y : outcome A), x = y -> osim eq x y) by (intros A x' y' ->; by apply osim_refl).
  apply Heq. cg b3 Eb3. cg r Er. rewrite src_absorb. cg st10 E_10. apply src_squeeze; [done|].
  by eapply absorb_len.
Qed.

Lemma src_lyra2mod p k pwd salt t R C : known_platform p ->
  SrcLyra2mod.lyra2mod p k pwd salt t R C = MLyra2.lyra2mod p k pwd salt t R C.
Proof.
  intros Hp. unfold SrcLyra2mod.lyra2mod, MLyra2.lyra2mod, lyra2_with.
  rewrite mod_init_state, mod_body1, mod_body2, mod_body3, mod_body4, mod_body5, mod_body6, mod_absorb_block, mod_squeeze.
  destruct (t <? 1); [done|]. hb. destruct (R <? 3); [done|]. do 9 hb.
  cg rl Erl. cg tot Etot. cg m0 Em0.
  rewrite (vec_resize_same _ _ _ (as_usize_nonneg _ _ Hp) Em0). hb.
  unfold n_blocks_input. ar. cg a1 E1. ar. cg a2 E2. cg nb Enb. hb.
  cbv delta [write_input] beta zeta. ar. rewrite src_copy. cg m1 Em1. ar. cg a3 E3. ar. rewrite src_copy2. cg m2 Em2. ar. cg a4 E4.
  cbv delta [push_word] beta iota.
  do 6 (norm; let m3 := fresh "m" in let Em := fresh "Em" in cg m3 Em; norm; let a5 := fresh "a" in let E5 := fresh "E" in cg a5 E5). norm.
  cg m_4 Em_4. norm. change SrcLyra2mod.BLOCKLENBLAKE2SAFEBYTES with MLyra2.BLOCKLENBLAKE2SAFEBYTES.
  cg a_6 E_6. norm. cg a_7 E_7. hb. norm. cg x Ex. cg m_5 Em_5. rewrite src_init. hb. hb.
  rewrite src_absorb_input by done. unfold absorb_input at 1. 
  refine (eq_trans _ (eq_sym (obind_assoc _ _ _))).
  assert (Hlen : post (fun s => length s.1 = 16%nat) (for_range 0 nb (fun _ '(state, ptr_word) =>
      right <-- split_right m_5 ptr_word ;;
      state <-- MLyra2.absorb_block_blake2_safe state right ;;
      ptr_word <-- szadd p ptr_word BLOCKLENBLAKE2SAFEINT64 ;;
      Ok (state, ptr_word)) (MLyra2.init_state, 0))).
  { apply (post_for_range (fun x => length x.1 = 16%nat)); [|done]. intros i [s' w] Hs'. cbn [fst] in Hs'.
    any. eapply post_bind; [by apply absorb_safe_len|]. intros s'' Hs''. any. by apply post_Ok. }
  cg xs Exs. apply Hlen in Exs. clear Hlen. destruct xs as [st ptr]. cbn [fst] in Exs. norm.
  unfold setup. ar. unfold squeeze_row0 at 1. ar.
  change SrcLyra2mod.BLOCKLENINT64 with MLyra2.BLOCKLENINT64. cg b1 Eb1. ar. cg b2 Eb2. rewrite (src_row0 _ _ _ _ _ _ Eb2). ar.
  pose proof (squeeze_row0_len p C m_5 st Exs) as Hlen. unfold squeeze_row0 in Hlen. rewrite Eb1 in Hlen. cbn [obind] in Hlen.
  rewrite Eb2 in Hlen. cbn [obind] in Hlen.
  cg y Ey. rewrite Ey in Hlen. destruct y as [[m_6 st6] ptr6]. specialize (Hlen _ eq_refl). cbn [snd] in Hlen. norm.
  rewrite src_row1. cg y E_y. destruct y as [m_7 st7]. apply (duplex_row1_len p rl C m_6 st6 Hlen) in E_y. cbn [snd] in E_y. 
  hb. rewrite src_setup_rows. rewrite obind_assoc. cg y E'. destruct y as [[m_8 st8] v].
  apply (setup_rows_len _ _ _ _ _ _ E_y) in E'. cbn [fst snd] in E'. hb. cbn [setup_tuple]. hb. hb.
  apply osim_eq. eapply osim_bind; [by apply src_wander_mod|].
  intros aa [[[[[m_9 st9] idx] row] prev] rowa] _ _ (step & -> & Hst). 
  assert (Heq : forall A (x y : outcome A), x = y -> osim eq x y) by (intros A x' y' ->; by apply osim_refl).
  apply Heq. cg b3 Eb3. cg r Er. rewrite src_absorb. cg st10 E_10. apply src_squeeze; [done|].
  by eapply absorb_len.
Qed.

Lemma src_lyra2_sum p input : known_platform p -> SrcLyra2.sum p input = MLyra2.lyra2_sum p input.
Proof. intros Hp. unfold SrcLyra2.sum. hb. by apply src_lyra2. Qed.
Lemma src_lyra2mod_sum p input : known_platform p -> SrcLyra2mod.sum p input = MLyra2.lyra2mod_sum p input.
Proof. intros Hp. unfold SrcLyra2mod.sum. hb. by apply src_lyra2mod. Qed.
