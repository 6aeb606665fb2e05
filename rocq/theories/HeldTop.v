(** * The log of heap buffers of the translated source is that of MHeap.v: lyra2 and lyra2mod *)
From Verif Require Import Machine MachineFacts MUtils MLyra2 SrcOps SrcFacts SrcLoops SrcTop Held MHeap HeldFacts.
From Verif Require SrcUtils SrcLyra2 SrcLyra2mod SrcLyra2Heap SrcLyra2modHeap.
#[local] Open Scope Z_scope.
#[local] Opaque MLyra2.round_lyra MLyra2.reduced_blake2b_lyra MLyra2.blake2b_lyra
  SrcLyra2.reduced_blake2b_lyra SrcLyra2.blake2b_lyra.

(** ** The functions lyra2mod/mod.rs shares with lyra2.rs have the same text *)
Lemma mod_absorb_held : SrcLyra2modHeap.absorb_block_held = SrcLyra2Heap.absorb_block_held.
Proof. cbv delta [SrcLyra2modHeap.absorb_block_held SrcLyra2Heap.absorb_block_held]. rewrite mod_blake2b_lyra. reflexivity. Qed.
Lemma mod_absorb_safe_held : SrcLyra2modHeap.absorb_block_blake2_safe_held = SrcLyra2Heap.absorb_block_blake2_safe_held.
Proof. cbv delta [SrcLyra2modHeap.absorb_block_blake2_safe_held SrcLyra2Heap.absorb_block_blake2_safe_held]. rewrite mod_blake2b_lyra. reflexivity. Qed.
Lemma mod_squeeze_held : SrcLyra2modHeap.squeeze_held = SrcLyra2Heap.squeeze_held.
Proof. cbv delta [SrcLyra2modHeap.squeeze_held SrcLyra2Heap.squeeze_held]. rewrite mod_squeeze_body1. reflexivity. Qed.
Lemma mod_body3_held : SrcLyra2modHeap.lyra2mod_body3_held = SrcLyra2Heap.lyra2_body3_held.
Proof. cbv delta [SrcLyra2modHeap.lyra2mod_body3_held SrcLyra2Heap.lyra2_body3_held]. rewrite mod_absorb_safe_held. reflexivity. Qed.

Ltac lq := lazymatch goal with |- logd ?l (hbind (hquiet ?e) ?f) = _ => refine (eq_trans (logd_quiet l e f) _); cbv beta end.
Ltac lcg x E := lq; cg x E.
Ltac lhb := lq; hb.

Lemma held_lyra2 p k pwd salt t R C : known_platform p ->
  logd [] (SrcLyra2Heap.lyra2_held p k pwd salt t R C) = lyra2_heap p k pwd salt t R C.
Proof.
  intros Hp. unfold SrcLyra2Heap.lyra2_held, lyra2_heap, lyra2_with_heap.
  lq. destruct (t <? 1); [done|]. hb. lq. destruct (R <? 3); [done|]. hb. do 8 lhb.
  lcg rl Erl. lcg tot Etot. refine (eq_trans (logd_zeroed _ _ _ _) _). cg m0 Em0.
  rewrite (held_resize_same _ _ _ (as_usize_nonneg _ _ Hp) Em0). lhb. rewrite <- (zeroed_vlen _ _ _ (as_usize_nonneg _ _ Hp) Em0) at 1.
  cbn [app].
  unfold n_blocks_input. ar. lcg a1 E1. ar. lcg a2 E2. lcg nb Enb. lhb.
  cbv delta [write_input] beta zeta. ar. lq. rewrite src_copy. cg m1 Em1. ar. lcg a3 E3. ar. lq. rewrite src_copy2. cg m2 Em2. ar. lcg a4 E4.
  cbv delta [push_word] beta iota.
  do 6 (norm; let m3 := fresh "m" in let Em := fresh "Em" in lcg m3 Em; norm; let a5 := fresh "a" in let E5 := fresh "E" in lcg a5 E5). norm.
  lcg m_4 Em_4. norm. change SrcLyra2.BLOCKLENBLAKE2SAFEBYTES with MLyra2.BLOCKLENBLAKE2SAFEBYTES.
  lcg a_6 E_6. norm. lcg a_7 E_7. lhb. norm. lcg x Ex. lcg m_5 Em_5. rewrite src_init. lhb. lhb.
  refine (eq_trans (logd_bind _ _ _) _).
  refine (eq_trans (bind_l _ _ _ _ (logd_from _ _) eq_refl) _).
  rewrite logd_absorb_input by done. unfold absorb_input_heap at 1.
  refine (eq_trans (obind_assoc _ _ _) _). cbn [obind fst snd].
  ar.
  assert (Hlen : post (fun s => length s.1.1 = 16%nat) (for_range 0 nb (fun _ '(state, ptr_word, log) =>
      right <-- split_right m_5 ptr_word ;;
      let log := log ++ [HAlloc (vlen right)] in
      state <-- MLyra2.absorb_block_blake2_safe state right ;;
      let log := log ++ [HFree right] in
      ptr_word <-- szadd p ptr_word MLyra2.BLOCKLENBLAKE2SAFEINT64 ;;
      Ok (state, ptr_word, log)) (MLyra2.init_state, 0, []))).
  { apply (post_for_range (fun x => length x.1.1 = 16%nat)); [|done]. intros i [[s' w] l'] Hs'. cbn [fst] in Hs'.
    any. eapply post_bind; [by apply absorb_safe_len|]. intros s'' Hs''. any. by apply post_Ok. }
  cg xs Exs. apply Hlen in Exs. clear Hlen. destruct xs as [[st ptr] log1]. cbn [fst snd] in Exs. norm. cbn [fst snd].
  unfold setup. ar. unfold squeeze_row0 at 1. ar.
  change SrcLyra2.BLOCKLENINT64 with MLyra2.BLOCKLENINT64. lcg b1 Eb1. ar. lcg b2 Eb2. lq. rewrite (src_row0 _ _ _ _ _ _ Eb2). ar.
  pose proof (squeeze_row0_len p C m_5 st Exs) as Hlen. unfold squeeze_row0 in Hlen. rewrite Eb1 in Hlen. cbn [obind] in Hlen.
  rewrite Eb2 in Hlen. cbn [obind] in Hlen.
  cg y Ey. rewrite Ey in Hlen. destruct y as [[m_6 st6] ptr6]. specialize (Hlen _ eq_refl). cbn [snd] in Hlen. norm.
  lq. rewrite src_row1. cg y E_y. destruct y as [m_7 st7]. apply (duplex_row1_len p rl C m_6 st6 Hlen) in E_y. cbn [snd] in E_y.
  lhb. lq. rewrite src_setup_rows. rewrite obind_assoc. cg y E'. destruct y as [[m_8 st8] v].
  apply (setup_rows_len _ _ _ _ _ _ E_y) in E'. cbn [fst snd] in E'. hb. cbn [setup_tuple]. lhb. lq.
  apply osim_eq. eapply osim_bind; [by apply src_wander|].
  intros aa [[[[[m_9 st9] idx] row] prev] rowa] _ _ (step & -> & Hst).
  assert (Heq : forall A (x y : outcome A), x = y -> osim eq x y) by (intros A x' y' ->; by apply osim_refl).
  apply Heq. lcg b3 Eb3. lcg r Er. refine (eq_trans (logd_absorb _ _ _ _ _) _). cg st10 E_10.
  refine (eq_trans (logd_bind _ _ _) _). rewrite (logd_squeeze p st10 k _ Hp) by (by eapply absorb_len).
  refine (eq_trans (obind_assoc _ _ _) _). cg o Eo. destruct o as [out log3]. cbn [obind fst snd].
  unfold hdrop, hdrop_bytes. rewrite !logd_done, logd_ret. rewrite <- !app_assoc. done.
Qed.

Lemma held_lyra2mod p k pwd salt t R C : known_platform p ->
  logd [] (SrcLyra2modHeap.lyra2mod_held p k pwd salt t R C) = lyra2mod_heap p k pwd salt t R C.
Proof.
  intros Hp. unfold SrcLyra2modHeap.lyra2mod_held, lyra2mod_heap, lyra2_with_heap.
  rewrite mod_init_state, mod_body1, mod_body2, mod_body3_held, mod_body4, mod_body5, mod_body6, mod_absorb_held, mod_squeeze_held.
  lq. destruct (t <? 1); [done|]. hb. lq. destruct (R <? 3); [done|]. hb. do 8 lhb.
  lcg rl Erl. lcg tot Etot. refine (eq_trans (logd_zeroed _ _ _ _) _). cg m0 Em0.
  rewrite (held_resize_same _ _ _ (as_usize_nonneg _ _ Hp) Em0). lhb. rewrite <- (zeroed_vlen _ _ _ (as_usize_nonneg _ _ Hp) Em0) at 1.
  cbn [app].
  unfold n_blocks_input. ar. lcg a1 E1. ar. lcg a2 E2. lcg nb Enb. lhb.
  cbv delta [write_input] beta zeta. ar. lq. rewrite src_copy. cg m1 Em1. ar. lcg a3 E3. ar. lq. rewrite src_copy2. cg m2 Em2. ar. lcg a4 E4.
  cbv delta [push_word] beta iota.
  do 6 (norm; let m3 := fresh "m" in let Em := fresh "Em" in lcg m3 Em; norm; let a5 := fresh "a" in let E5 := fresh "E" in lcg a5 E5). norm.
  lcg m_4 Em_4. norm. change SrcLyra2mod.BLOCKLENBLAKE2SAFEBYTES with MLyra2.BLOCKLENBLAKE2SAFEBYTES.
  lcg a_6 E_6. norm. lcg a_7 E_7. lhb. norm. lcg x Ex. lcg m_5 Em_5. rewrite src_init. lhb. lhb.
  refine (eq_trans (logd_bind _ _ _) _).
  refine (eq_trans (bind_l _ _ _ _ (logd_from _ _) eq_refl) _).
  rewrite logd_absorb_input by done. unfold absorb_input_heap at 1.
  refine (eq_trans (obind_assoc _ _ _) _). cbn [obind fst snd].
  ar.
  assert (Hlen : post (fun s => length s.1.1 = 16%nat) (for_range 0 nb (fun _ '(state, ptr_word, log) =>
      right <-- split_right m_5 ptr_word ;;
      let log := log ++ [HAlloc (vlen right)] in
      state <-- MLyra2.absorb_block_blake2_safe state right ;;
      let log := log ++ [HFree right] in
      ptr_word <-- szadd p ptr_word MLyra2.BLOCKLENBLAKE2SAFEINT64 ;;
      Ok (state, ptr_word, log)) (MLyra2.init_state, 0, []))).
  { apply (post_for_range (fun x => length x.1.1 = 16%nat)); [|done]. intros i [[s' w] l'] Hs'. cbn [fst] in Hs'.
    any. eapply post_bind; [by apply absorb_safe_len|]. intros s'' Hs''. any. by apply post_Ok. }
  cg xs Exs. apply Hlen in Exs. clear Hlen. destruct xs as [[st ptr] log1]. cbn [fst snd] in Exs. norm. cbn [fst snd].
  unfold setup. ar. unfold squeeze_row0 at 1. ar.
  change SrcLyra2mod.BLOCKLENINT64 with MLyra2.BLOCKLENINT64. lcg b1 Eb1. ar. lcg b2 Eb2. lq. rewrite (src_row0 _ _ _ _ _ _ Eb2). ar.
  pose proof (squeeze_row0_len p C m_5 st Exs) as Hlen. unfold squeeze_row0 in Hlen. rewrite Eb1 in Hlen. cbn [obind] in Hlen.
  rewrite Eb2 in Hlen. cbn [obind] in Hlen.
  cg y Ey. rewrite Ey in Hlen. destruct y as [[m_6 st6] ptr6]. specialize (Hlen _ eq_refl). cbn [snd] in Hlen. norm.
  lq. rewrite src_row1. cg y E_y. destruct y as [m_7 st7]. apply (duplex_row1_len p rl C m_6 st6 Hlen) in E_y. cbn [snd] in E_y.
  lhb. lq. rewrite src_setup_rows. rewrite obind_assoc. cg y E'. destruct y as [[m_8 st8] v].
  apply (setup_rows_len _ _ _ _ _ _ E_y) in E'. cbn [fst snd] in E'. hb. cbn [setup_tuple]. lhb. lhb. lq.
  apply osim_eq. eapply osim_bind; [by apply src_wander_mod|].
  intros aa [[[[[m_9 st9] idx] row] prev] rowa] _ _ (step & -> & Hst).
  assert (Heq : forall A (x y : outcome A), x = y -> osim eq x y) by (intros A x' y' ->; by apply osim_refl).
  apply Heq. lcg b3 Eb3. lcg r Er. refine (eq_trans (logd_absorb _ _ _ _ _) _). cg st10 E_10.
  refine (eq_trans (logd_bind _ _ _) _). rewrite (logd_squeeze p st10 k _ Hp) by (by eapply absorb_len).
  refine (eq_trans (obind_assoc _ _ _) _). cg o Eo. destruct o as [out log3]. cbn [obind fst snd].
  unfold hdrop, hdrop_bytes. rewrite !logd_done, logd_ret. rewrite <- !app_assoc. done.
Qed.
