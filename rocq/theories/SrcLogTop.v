(** * The translation with a log is the model with a log: loops, lyra2 and lyra2mod *)
From Verif Require Import Machine MachineFacts MUtils MLyra2 SrcOps SrcFacts SrcLoops SrcTop MAccess AccessFacts Kept MKept KeptFacts SrcLogFacts.
From Verif Require SrcUtils SrcLyra2 SrcLyra2mod SrcLyra2Log SrcLyra2modLog.
#[local] Open Scope Z_scope.
#[local] Opaque MLyra2.round_lyra MLyra2.reduced_blake2b_lyra MLyra2.blake2b_lyra
  SrcLyra2.round_lyra SrcLyra2.reduced_blake2b_lyra SrcLyra2.blake2b_lyra
  SrcLyra2Log.reduced_blake2b_lyra_log reduced_kept blake2b_lyra_kept SrcLyra2Log.blake2b_lyra_log.

(** ** lyra2mod/mod.rs: the shared functions have the same text *)
Lemma modl_blake : SrcLyra2modLog.blake2b_lyra_log = SrcLyra2Log.blake2b_lyra_log.
Proof. cbv delta [SrcLyra2modLog.blake2b_lyra_log SrcLyra2Log.blake2b_lyra_log]. rewrite mod_round_lyra. reflexivity. Qed.
Lemma modl_reduced : SrcLyra2modLog.reduced_blake2b_lyra_log = SrcLyra2Log.reduced_blake2b_lyra_log.
Proof. cbv delta [SrcLyra2modLog.reduced_blake2b_lyra_log SrcLyra2Log.reduced_blake2b_lyra_log]. rewrite mod_round_lyra. reflexivity. Qed.
Lemma modl_squeeze_body1 : SrcLyra2modLog.squeeze_body1_log = SrcLyra2Log.squeeze_body1_log.
Proof. cbv delta [SrcLyra2modLog.squeeze_body1_log SrcLyra2Log.squeeze_body1_log]. rewrite mod_squeeze_body2, modl_blake. reflexivity. Qed.
Lemma modl_squeeze : SrcLyra2modLog.squeeze_log = SrcLyra2Log.squeeze_log.
Proof. cbv delta [SrcLyra2modLog.squeeze_log SrcLyra2Log.squeeze_log]. rewrite modl_squeeze_body1. reflexivity. Qed.
Lemma modl_absorb : SrcLyra2modLog.absorb_block_log = SrcLyra2Log.absorb_block_log.
Proof. cbv delta [SrcLyra2modLog.absorb_block_log SrcLyra2Log.absorb_block_log]. rewrite modl_blake. reflexivity. Qed.
Lemma modl_absorb_safe : SrcLyra2modLog.absorb_block_blake2_safe_log = SrcLyra2Log.absorb_block_blake2_safe_log.
Proof. cbv delta [SrcLyra2modLog.absorb_block_blake2_safe_log SrcLyra2Log.absorb_block_blake2_safe_log]. rewrite modl_blake. reflexivity. Qed.
Lemma modl_body1 : SrcLyra2modLog.lyra2mod_body1_log = SrcLyra2Log.lyra2_body1_log.
Proof. reflexivity. Qed.
Lemma modl_body2 : SrcLyra2modLog.lyra2mod_body2_log = SrcLyra2Log.lyra2_body2_log.
Proof. reflexivity. Qed.
Lemma modl_body3 : SrcLyra2modLog.lyra2mod_body3_log = SrcLyra2Log.lyra2_body3_log.
Proof. cbv delta [SrcLyra2modLog.lyra2mod_body3_log SrcLyra2Log.lyra2_body3_log]. rewrite modl_absorb_safe. reflexivity. Qed.
Lemma modl_body4 : SrcLyra2modLog.lyra2mod_body4_log = SrcLyra2Log.lyra2_body4_log.
Proof. cbv delta [SrcLyra2modLog.lyra2mod_body4_log SrcLyra2Log.lyra2_body4_log]. rewrite modl_reduced. reflexivity. Qed.
Lemma modl_body5 : SrcLyra2modLog.lyra2mod_body5_log = SrcLyra2Log.lyra2_body5_log.
Proof. cbv delta [SrcLyra2modLog.lyra2mod_body5_log SrcLyra2Log.lyra2_body5_log]. rewrite modl_reduced. reflexivity. Qed.
Lemma modl_body7 : SrcLyra2modLog.lyra2mod_body7_log = SrcLyra2Log.lyra2_body7_log.
Proof. cbv delta [SrcLyra2modLog.lyra2mod_body7_log SrcLyra2Log.lyra2_body7_log]. rewrite modl_reduced. reflexivity. Qed.
Lemma modl_body6 : SrcLyra2modLog.lyra2mod_body6_log = SrcLyra2Log.lyra2_body6_log.
Proof. cbv delta [SrcLyra2modLog.lyra2mod_body6_log SrcLyra2Log.lyra2_body6_log]. rewrite modl_body7. reflexivity. Qed.
Lemma modl_body10 : SrcLyra2modLog.lyra2mod_body10_log = SrcLyra2Log.lyra2_body10_log.
Proof. cbv delta [SrcLyra2modLog.lyra2mod_body10_log SrcLyra2Log.lyra2_body10_log]. rewrite modl_reduced. reflexivity. Qed.

(** ** Loops *)
Lemma log_copy p d at_ m : kfor 0 (vlen d / 8) (SrcLyra2Log.lyra2_body1_log p d at_) m = copy_words_kept p d at_ m.
Proof. unfold copy_words_kept. apply kfor_ext. intros. apply log_body1. Qed.
Lemma log_copy2 p d at_ m : kfor 0 (vlen d / 8) (SrcLyra2Log.lyra2_body2_log p d at_) m = copy_words_kept p d at_ m.
Proof. apply log_copy. Qed.
Lemma log_absorb_input p n m s : known_platform p ->
  kfor 0 n (SrcLyra2Log.lyra2_body3_log p m) (s, 0) =
  kfor 0 n (fun _ '(state, ptr_word) =>
      right <=~ kquiet (split_right m ptr_word) ;;
      state <=~ absorb_block_blake2_safe_kept ptr_word state right ;;
      ptr_word <=~ kquiet (szadd p ptr_word BLOCKLENBLAKE2SAFEINT64) ;;
      kret (state, ptr_word)) (s, 0).
Proof.
  intros Hp. apply kfor_ext. intros i [s' w] _. unfold SrcLyra2Log.lyra2_body3_log.
  apply kcong_quiet. intros r _. cbv zeta. rewrite log_absorb_safe. apply kcong. intros s'' l _.
  by rewrite known_small.
Qed.
Lemma log_row0 p n m s a ptr : imul p a MLyra2.BLOCKLENINT64 = Ok ptr ->
  kfor 0 n (SrcLyra2Log.lyra2_body4_log p) (m, s, ptr) =
  kfor 0 n (fun _ '(m, state, ptr) =>
      m <=~ kfold (fun m j =>
              a <=~ kquiet (iadd p ptr j) ;;
              kwr m (as_usize p a) (aget state (Z.to_nat j))) offs12 m ;;
      let ptr := wrap_i64 (ptr - MLyra2.BLOCKLENINT64) in
      state <=~ reduced_kept state ;;
      kret (m, state, ptr)) (m, s, ptr).
Proof.
  intros Hptr. apply imul_0 in Hptr. apply ksim_eq.
  apply (ksim_map (fun a b => a = b /\ iadd p a.2 0 = Ok a.2) eq); [|by intros a0 b0 [H _]].
  apply (kfor_sim (fun a b => a = b /\ iadd p a.2 0 = Ok a.2)); [|done].
  intros i [[m1 s1] p1] b _ [<- H]. cbn [snd] in H. rewrite log_body4 by done.
  apply ksim_bind_eq. intros m2 l2 _. cbv zeta. apply ksim_bind_eq. intros s2 l3 _. apply ksim_ret.
  split; [done|]. cbn [snd]. apply iadd_range, wrap_i64_range.
Qed.
Lemma log_row1 p n rl m s : kfor 0 n (SrcLyra2Log.lyra2_body5_log p n rl) (m, s) = duplex_row1_kept p rl n m s.
Proof. unfold duplex_row1_kept. apply kfor_ext. intros i [m' s'] _. apply log_body5. Qed.
Lemma log_duplex_setup p n row prev rowa rl m s :
  kfor 0 n (SrcLyra2Log.lyra2_body7_log p n row prev rowa rl) (m, s) = duplex_row_setup_kept p rl n row prev rowa m s.
Proof. unfold duplex_row_setup_kept. apply kfor_ext. intros i [m' s'] _. apply log_body7. Qed.
Lemma log_duplex p n row prev rowa rl m s :
  kfor 0 n (SrcLyra2Log.lyra2_body10_log p row prev rowa rl) (m, s) = duplex_row_kept p rl n row prev rowa m s.
Proof. unfold duplex_row_kept. apply kfor_ext. intros i [m' s'] _. apply log_body10. Qed.
#[local] Opaque duplex_row_kept duplex_row_setup_kept SrcLyra2Log.lyra2_body7_log SrcLyra2Log.lyra2_body10_log.

Ltac acg x E := apply kcong_quiet; intros x E; cbv beta.
Ltac scg x E := let l := fresh "l" in apply ksim_bind_eq; intros x l E; cbv beta.
Lemma log_setup_rows p R C rl m s :
  kfor 2 (as_i64 R) (SrcLyra2Log.lyra2_body6_log p C rl) (2, 1, 0, 1, 2, 1, m, s) =
  kbind (setup_rows_kept p rl R C m s) (fun x => kret (setup_tuple x)).
Proof.
  apply obind_ksim. unfold setup_rows_kept. change (r_row rows_init) with 2.
  apply (kfor_sim (fun a b => a = setup_tuple b)); [|done].
  intros i a [[m1 s1] v] _ ->. destruct v as [row prev rowa step window gap].
  cbn [setup_tuple r_row r_prev r_rowa r_step r_window r_gap]. unfold SrcLyra2Log.lyra2_body6_log. rewrite log_duplex_setup.
  apply ksim_bind_eq. intros [m2 s2] l2 _.
  unfold rows_next. cbn [r_row r_prev r_rowa r_step r_window r_gap].
  rewrite kquiet_bind. scg a1 E1. rewrite kquiet_bind. scg w1 E2.
  rewrite kquiet_Ok, kquiet_Ok. rewrite kquiet_bind. scg r1 E3.
  destruct (Z.land a1 w1 =? 0).
  - rewrite !kquiet_bind. scg st E4. rewrite !kquiet_bind. scg w2 E5. rewrite !kquiet_bind. scg g2 E6.
    rewrite !kquiet_Ok. by apply ksim_ret.
  - rewrite !kquiet_Ok. by apply ksim_ret.
Qed.

(** The wandering phase. *)
Lemma log_wander_loop p R C step rl a b : wrel a b ->
  ksim wrel (kloop (SrcLyra2Log.lyra2_body9_log p R C step rl) a) (wander_pass_kept p sel_lyra2 rl R C step b).
Proof.
  intros H. unfold wander_pass_kept. apply (kloop_sim wrel wrel); [|done]. clear a b H.
  intros a [[[[[m s] idx] row] prev] rowa] [-> Hs]. unfold SrcLyra2Log.lyra2_body9_log. cbn [sel_lyra2].
  scg n1 E1. rewrite kquiet_Ok. cbv zeta. rewrite log_duplex.
  scg x Ex. destruct x as [m2 s2]. rewrite kquiet_Ok.
  apply (kpost _ _ _ _ _ (fst_duplex _ _ _ _ _ _ _ _) (duplex_row_len _ _ _ _ _ _ _ _ Hs)) in Ex. cbn [snd] in Ex.
  unfold wander_next. rewrite kquiet_bind. scg a1 E2. rewrite kquiet_bind. scg w1 E3. rewrite !kquiet_Ok.
  destruct (Z.land a1 w1 =? 0); by apply ksim_ret.
Qed.
Lemma quiet_if {A B} (b : bool) (x y : A) (f : A -> kept B) :
  kbind (kquiet (if b then Ok x else Ok y)) f = f (if b then x else y).
Proof. destruct b; apply kquiet_Ok. Qed.
Lemma log_wander p R C rl t m s prev rowa step : length s = 16%nat ->
  ksim wrel8 (kfor 1 (t + 1) (SrcLyra2Log.lyra2_body8_log p R C rl) (0, prev, rowa, step, m, s))
    (wander_kept p sel_lyra2 rl t R C m s prev rowa).
Proof.
  intros Hs. unfold wander_kept. apply (kfor_sim wrel8); [|cbn; eauto]. clear m s prev rowa step Hs.
  intros i a [[[[[m s] idx] row] prev] rowa] _ (step & -> & Hs). unfold SrcLyra2Log.lyra2_body8_log, wander_step.
  rewrite kquiet_bind. scg st E1. cbn [obind]. rewrite !quiet_if.
  rewrite <- (kret_r (wander_pass_kept _ _ _ _ _ _ _)). eapply ksim_bind; [by apply log_wander_loop|].
  intros a [[[[[m2 s2] idx2] row2] prev2] rowa2] l2 _ _ [-> Hs2]. apply ksim_ret. cbn. eauto.
Qed.

Lemma log_wander_loop_mod p R C step rl a b : mrel a b ->
  ksim mrel (kloop (SrcLyra2modLog.lyra2mod_body9_log p R C step rl) a) (wander_pass_kept p (sel_lyra2mod p) rl R C step b).
Proof.
  intros H. unfold wander_pass_kept. apply (kloop_sim mrel mrel); [|done]. clear a b H.
  intros a [[[[[m s] idx] row] prev] rowa] [-> Hs]. unfold SrcLyra2modLog.lyra2mod_body9_log.
  assert (Hl : vlen s = 16) by (unfold vlen; by rewrite Hs).
  cbv delta [sel_lyra2mod] beta zeta.
  rewrite vget_aget by (rewrite Hl; apply land15). rewrite kquiet_Ok.
  rewrite vget_aget by (rewrite Hl; apply land15). rewrite !kquiet_Ok. rewrite modl_body10.
  scg n1 E1. rewrite kquiet_Ok. rewrite log_duplex.
  scg x Ex. destruct x as [m2 s2]. rewrite kquiet_Ok.
  apply (kpost _ _ _ _ _ (fst_duplex _ _ _ _ _ _ _ _) (duplex_row_len _ _ _ _ _ _ _ _ Hs)) in Ex. cbn [snd] in Ex.
  unfold wander_next. rewrite kquiet_bind. scg a1 E2. rewrite kquiet_bind. scg w1 E3. rewrite !kquiet_Ok.
  destruct (Z.land a1 w1 =? 0); by apply ksim_ret.
Qed.
Lemma log_wander_mod p R C rl t m s prev rowa step : length s = 16%nat ->
  ksim mrel8 (kfor 1 (t + 1) (SrcLyra2modLog.lyra2mod_body8_log p R C rl) (0, prev, rowa, step, m, s, 0))
    (wander_kept p (sel_lyra2mod p) rl t R C m s prev rowa).
Proof.
  intros Hs. unfold wander_kept. apply (kfor_sim mrel8); [|cbn; eauto]. clear m s prev rowa step Hs.
  intros i a [[[[[m s] idx] row] prev] rowa] _ (step & -> & Hs). unfold SrcLyra2modLog.lyra2mod_body8_log, wander_step.
  rewrite kquiet_bind. scg st E1. cbn [obind]. rewrite !quiet_if.
  rewrite <- (kret_r (wander_pass_kept _ _ _ _ _ _ _)). eapply ksim_bind; [by apply log_wander_loop_mod|].
  intros a [[[[[m2 s2] idx2] row2] prev2] rowa2] l2 _ _ [-> Hs2]. apply ksim_ret. cbn. eauto.
Qed.

(** ** squeeze *)
Lemma log_squeeze p s k : known_platform p -> length s = 16%nat -> SrcLyra2Log.squeeze_log p s k = squeeze_kept p s k.
Proof.
  intros Hp Hs. unfold SrcLyra2Log.squeeze_log, squeeze_kept. rewrite kquiet_Ok. cbv zeta.
  set (n := as_usize p k). assert (Hn : 0 <= n) by (apply Z.mod_pos_bound; destruct Hp as [-> | ->]; done).
  apply kcong_quiet. intros out Hout. rewrite kquiet_Ok. change SrcLyra2.BLOCKLENBYTES with MLyra2.BLOCKLENBYTES.
  apply kcong_quiet. intros jmax _.
  assert (Hl : vlen out = n).
  { unfold vec_zeroed in Hout. destruct (_ <=? _); [|done]. injection Hout as <-. unfold vlen. rewrite replicate_length. lia. }
  apply ksim_eq. eapply ksim_bind.
  - apply (kfor_sim (fun a b => a = (b.2, b.1.1, b.1.2) /\ vlen b.1.2 = n /\ length b.2 = 16%nat)); [|done].
    intros j a [[tmp o] st] _ (-> & Ho & Hst). cbn [fst snd] in *. unfold SrcLyra2Log.squeeze_body1_log.
    change SrcLyra2.BLOCKLENINT64 with MLyra2.BLOCKLENINT64.
    rewrite (for_range_ext _ _ (SrcLyra2.squeeze_body2 p st)
      (fun i tmp => vec_extend p tmp (to_le_bytes 8 (aget st (Z.to_nat i))))).
    + scg t Et. change (as_usize p k) with n. scg t1 Et1.
      assert (Hlt : vlen t1 = n).
      { injection Et1 as Et1 _. unfold slice in Et1. rewrite (proj2 (Z.leb_le 0 n)) in Et1 by done. cbn [andb Z.leb Z.compare] in Et1.
        destruct (Z.leb_spec n (vlen t)) as [Ht|]; [|done]. injection Et1 as <-.
        unfold vlen in *. change (Z.to_nat 0) with 0%nat. rewrite drop_0, take_length. lia. }
      unfold slice_set. rewrite Hlt, Ho, Z.eqb_refl, Z.leb_refl.
      rewrite (proj2 (Z.leb_le 0 n)) by done. cbn [andb]. rewrite kquiet_Ok, log_blake2b. scg s2 Es2.
      apply ksim_ret. cbn [fst snd].
      rewrite drop_ge by (unfold vlen in *; lia). rewrite app_nil_r. split; [done|]. split; [done|].
      apply (kpost (fun v => length v = 16%nat) _ _ _ _ (fst_blake st)) in Es2; [done|]. apply post_Ok. by rewrite blake_length.
    + intros i t Hi. unfold SrcLyra2.squeeze_body2. change MLyra2.BLOCKLENINT64 with 12 in Hi.
      rewrite known_small by (done || lia). rewrite vget_aget by (unfold vlen; rewrite Hst; lia). cbn [obind].
      apply obind_ret.
  - intros a [[tmp o] st] l _ _ (-> & _). by apply ksim_ret.
Qed.

(** The state keeps its length. *)
Lemma kin_len p nb m s st ptr l : length s = 16%nat ->
  kfor 0 nb (fun _ '(state, ptr_word) =>
      right <=~ kquiet (split_right m ptr_word) ;;
      state <=~ absorb_block_blake2_safe_kept ptr_word state right ;;
      ptr_word <=~ kquiet (szadd p ptr_word BLOCKLENBLAKE2SAFEINT64) ;;
      kret (state, ptr_word)) (s, 0) = (Ok (st, ptr), l) -> length st = 16%nat.
Proof.
  intros Hs E. apply (absorb_input_len p nb m s Hs). rewrite <- fst_absorb_input.
  unfold absorb_input_kept. by rewrite (kbind_Ok _ _ _ _ E).
Qed.
Lemma krow0_len p C m s m' st ptr ptr' l : length s = 16%nat ->
  (a <-- isub p (as_i64 C) 1 ;; imul p a MLyra2.BLOCKLENINT64) = Ok ptr ->
  kfor 0 C (fun _ '(m, state, ptr) =>
      m <=~ kfold (fun m j =>
              a <=~ kquiet (iadd p ptr j) ;;
              kwr m (as_usize p a) (aget state (Z.to_nat j))) offs12 m ;;
      let ptr := wrap_i64 (ptr - MLyra2.BLOCKLENINT64) in
      state <=~ reduced_kept state ;;
      kret (m, state, ptr)) (m, s, ptr) = (Ok (m', st, ptr'), l) -> length st = 16%nat.
Proof.
  intros Hs (a & Ea & Ep)%obind_Ok_inv E. apply (squeeze_row0_len p C m s Hs (m', st)). rewrite <- fst_row0.
  unfold squeeze_row0_kept. rewrite Ea, kquiet_Ok, Ep, kquiet_Ok. by rewrite (kbind_Ok _ _ _ _ E).
Qed.

Ltac ar' := match goal with
  | |- ?r = kbind (kbind ?e ?f) ?g => refine (eq_trans _ (eq_sym (kbind_assoc e f g))); cbv beta
  | |- ?r = kbind (kquiet (obind ?e ?f)) ?g => refine (eq_trans _ (eq_sym (kquiet_bind e f g))); cbv beta end.
Ltac hr' := match goal with
  | |- ?r = kbind (kret ?a) ?f => refine (eq_trans _ (eq_sym (kret_l a f))); cbv beta
  | |- ?r = kbind (kquiet (Ok ?a)) ?f => refine (eq_trans _ (eq_sym (kquiet_Ok a f))); cbv beta end.
Ltac hb' := match goal with |- kbind (kquiet (Ok ?a)) ?f = ?r => refine (eq_trans (kquiet_Ok a f) _); cbv beta end.
Ltac acg' x := let l := fresh "l" in apply kcong; intros x l _; cbv beta.
Ltac anorm := repeat first [ar' | hr'; cbv iota].

#[local] Opaque copy_words_kept duplex_row1_kept setup_rows_kept wander_kept absorb_block_kept absorb_block_blake2_safe_kept
  SrcLyra2Log.squeeze_log squeeze_kept SrcLyra2Log.absorb_block_log
  SrcLyra2Log.lyra2_body1_log SrcLyra2Log.lyra2_body2_log SrcLyra2Log.lyra2_body3_log SrcLyra2Log.lyra2_body4_log
  SrcLyra2Log.lyra2_body5_log SrcLyra2Log.lyra2_body6_log SrcLyra2Log.lyra2_body8_log SrcLyra2Log.lyra2_body9_log.

Lemma log_lyra2 p k pwd salt t R C : known_platform p ->
  SrcLyra2Log.lyra2_log p k pwd salt t R C = lyra2_kept p k pwd salt t R C.
Proof.
  intros Hp. unfold SrcLyra2Log.lyra2_log, lyra2_kept, lyra2_with_kept.
  destruct (t <? 1); [done|]. hb'. destruct (R <? 3); [done|]. do 9 hb'.
  acg rl Erl. acg tot Etot. acg m0 Em0.
  refine (kl _ _ _ _ (f_equal kquiet (vec_resize_same _ _ _ (as_usize_nonneg _ _ Hp) Em0)) _). hb'.
  unfold n_blocks_input. ar'. acg a1 E1. ar'. acg a2 E2. acg nb Enb. hb'.
  cbv delta [write_input_kept] beta zeta. ar'. rewrite log_copy. acg' m1. ar'. acg a3 E3. ar'. rewrite log_copy2. acg' m2. ar'. acg a4 E4.
  cbv delta [push_word_kept] beta iota.
  do 6 (anorm; let m3 := fresh "m" in acg' m3; anorm; let a5 := fresh "a" in let E5 := fresh "E" in acg a5 E5). anorm.
  acg' m_4. anorm. change SrcLyra2.BLOCKLENBLAKE2SAFEBYTES with MLyra2.BLOCKLENBLAKE2SAFEBYTES.
  acg a_6 E_6. anorm. acg a_7 E_7. hb'. anorm. acg' x. acg' m_5. rewrite src_init. hb'. hb'.
  rewrite log_absorb_input by done.
  unfold absorb_input_kept. ar'.
  apply kcong. intros [st ptr] l_5 Exs. pose proof (kin_len _ _ _ _ _ _ _ init_length Exs) as Hlen. clear Exs. anorm.
  unfold setup_kept. ar'. unfold squeeze_row0_kept at 1. ar'.
  change SrcLyra2.BLOCKLENINT64 with MLyra2.BLOCKLENINT64. acg b1 Eb1. ar'. acg b2 Eb2. rewrite (log_row0 _ _ _ _ _ _ Eb2). ar'.
  apply kcong. intros [[m_6 st6] ptr6] l_6 Ey.
  assert (Hl2 : length st6 = 16%nat) by (refine (krow0_len _ _ _ _ _ _ _ _ _ Hlen _ Ey); by rewrite Eb1). clear Ey. anorm.
  rewrite log_row1. apply kcong. intros [m_7 st7] l_7 Ey.
  apply (kpost _ _ _ _ _ (fst_row1 _ _ _ _ _) (duplex_row1_len p rl C m_6 st6 Hl2)) in Ey. cbn [snd] in Ey.
  hb'. rewrite log_setup_rows. rewrite kbind_assoc. apply kcong. intros [[m_8 st8] v] l_8 E'.
  apply (kpost _ _ _ _ _ (fst_setup_rows _ _ _ _ _ _) (setup_rows_len _ _ _ _ _ _ Ey)) in E'. cbn [fst snd] in E'.
  rewrite kret_l. cbn [setup_tuple]. hb'.
  apply ksim_eq. eapply ksim_bind; [by apply log_wander|].
  intros aa [[[[[m_9 st9] idx] row] prev] rowa] l_9 _ _ (step & -> & Hst).
  apply ksim_eq'. acg b3 Eb3. acg r Er. rewrite log_absorb. apply kcong. intros st10 l_10 E10.
  apply log_squeeze; [done|]. exact (kpost _ _ _ _ _ (fst_absorb _ _ _) (absorb_len _ _ Hst) E10).
Qed.

Lemma log_lyra2mod p k pwd salt t R C : known_platform p ->
  SrcLyra2modLog.lyra2mod_log p k pwd salt t R C = lyra2mod_kept p k pwd salt t R C.
Proof.
  intros Hp. unfold SrcLyra2modLog.lyra2mod_log, lyra2mod_kept, lyra2_with_kept.
  rewrite mod_init_state, modl_body1, modl_body2, modl_body3, modl_body4, modl_body5, modl_body6, modl_absorb, modl_squeeze.
  destruct (t <? 1); [done|]. hb'. destruct (R <? 3); [done|]. do 9 hb'.
  acg rl Erl. acg tot Etot. acg m0 Em0.
  refine (kl _ _ _ _ (f_equal kquiet (vec_resize_same _ _ _ (as_usize_nonneg _ _ Hp) Em0)) _). hb'.
  unfold n_blocks_input. ar'. acg a1 E1. ar'. acg a2 E2. acg nb Enb. hb'.
  cbv delta [write_input_kept] beta zeta. ar'. rewrite log_copy. acg' m1. ar'. acg a3 E3. ar'. rewrite log_copy2. acg' m2. ar'. acg a4 E4.
  cbv delta [push_word_kept] beta iota.
  do 6 (anorm; let m3 := fresh "m" in acg' m3; anorm; let a5 := fresh "a" in let E5 := fresh "E" in acg a5 E5). anorm.
  acg' m_4. anorm. change SrcLyra2mod.BLOCKLENBLAKE2SAFEBYTES with MLyra2.BLOCKLENBLAKE2SAFEBYTES.
  acg a_6 E_6. anorm. acg a_7 E_7. hb'. anorm. acg' x. acg' m_5. rewrite src_init. hb'. hb'.
  rewrite log_absorb_input by done.
  unfold absorb_input_kept. ar'.
  apply kcong. intros [st ptr] l_5 Exs. pose proof (kin_len _ _ _ _ _ _ _ init_length Exs) as Hlen. clear Exs. anorm.
  unfold setup_kept. ar'. unfold squeeze_row0_kept at 1. ar'.
  change SrcLyra2mod.BLOCKLENINT64 with MLyra2.BLOCKLENINT64. acg b1 Eb1. ar'. acg b2 Eb2. rewrite (log_row0 _ _ _ _ _ _ Eb2). ar'.
  apply kcong. intros [[m_6 st6] ptr6] l_6 Ey.
  assert (Hl2 : length st6 = 16%nat) by (refine (krow0_len _ _ _ _ _ _ _ _ _ Hlen _ Ey); by rewrite Eb1). clear Ey. anorm.
  rewrite log_row1. apply kcong. intros [m_7 st7] l_7 Ey.
  apply (kpost _ _ _ _ _ (fst_row1 _ _ _ _ _) (duplex_row1_len p rl C m_6 st6 Hl2)) in Ey. cbn [snd] in Ey.
  hb'. rewrite log_setup_rows. rewrite kbind_assoc. apply kcong. intros [[m_8 st8] v] l_8 E'.
  apply (kpost _ _ _ _ _ (fst_setup_rows _ _ _ _ _ _) (setup_rows_len _ _ _ _ _ _ Ey)) in E'. cbn [fst snd] in E'.
  rewrite kret_l. cbn [setup_tuple]. hb'. hb'.
  apply ksim_eq. eapply ksim_bind; [by apply log_wander_mod|].
  intros aa [[[[[m_9 st9] idx] row] prev] rowa] l_9 _ _ (step & -> & Hst).
  apply ksim_eq'. acg b3 Eb3. acg r Er. rewrite log_absorb. apply kcong. intros st10 l_10 E10.
  apply log_squeeze; [done|]. exact (kpost _ _ _ _ _ (fst_absorb _ _ _) (absorb_len _ _ Hst) E10).
Qed.

Lemma log_lyra2_sum p input : known_platform p -> SrcLyra2Log.sum_log p input = lyra2_kept p 32 input input 1 4 4.
Proof. intros Hp. unfold SrcLyra2Log.sum_log. hb'. by apply log_lyra2. Qed.
Lemma log_lyra2mod_sum p input : known_platform p -> SrcLyra2modLog.sum_log p input = lyra2mod_kept p 32 input input 1 4 4.
Proof. intros Hp. unfold SrcLyra2modLog.sum_log. hb'. by apply log_lyra2mod. Qed.
