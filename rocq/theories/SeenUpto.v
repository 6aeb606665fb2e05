(** * lyra2 and lyra2mod up to the extraction of the key (lemmas for C57 and C58) *)
From Verif Require Import Machine MachineFacts MUtils MLyra2 SrcOps SrcFacts SrcLoops SrcTop MAccess AccessFacts Kept MKept KeptFacts
  SrcLogFacts SrcLogTop Seen SpecSeen SeenFacts SeenLyra2 SeenErase FailFacts.
From Verif Require SrcUtils SrcLyra2 SrcLyra2mod SrcLyra2Log SrcLyra2modLog SrcLyra2Seen SrcLyra2modSeen.
#[local] Open Scope Z_scope.
#[local] Opaque MLyra2.round_lyra MLyra2.reduced_blake2b_lyra MLyra2.blake2b_lyra
  SrcLyra2.round_lyra SrcLyra2.reduced_blake2b_lyra SrcLyra2.blake2b_lyra
  SrcLyra2Log.reduced_blake2b_lyra_log reduced_kept blake2b_lyra_kept SrcLyra2Log.blake2b_lyra_log.

(** [lyra2_seen] (lyra2.rs:245-653) with [K] in the place of [squeeze_seen] (lyra2.rs:651), read off its text, and so for
    lyra2mod/mod.rs and for the logs of accesses. *)
Ltac replaced c d K :=
  let b := eval cbv delta [c] beta in c in
  let f := eval pattern d in b in
  lazymatch f with ?g _ => let r := eval cbv beta in (g K) in exact r end.
Definition lyra2_upto (K : platform -> list Z -> Z -> seen (list Z)) :
  platform -> Z -> list Z -> list Z -> Z -> Z -> Z -> seen (list Z) :=
  ltac:(replaced SrcLyra2Seen.lyra2_seen SrcLyra2Seen.squeeze_seen K).
Definition lyra2mod_upto (K : platform -> list Z -> Z -> seen (list Z)) :
  platform -> Z -> list Z -> list Z -> Z -> Z -> Z -> seen (list Z) :=
  ltac:(replaced SrcLyra2modSeen.lyra2mod_seen SrcLyra2modSeen.squeeze_seen K).
Definition lyra2_log_upto (K : platform -> list Z -> Z -> kept (list Z)) :
  platform -> Z -> list Z -> list Z -> Z -> Z -> Z -> kept (list Z) :=
  ltac:(replaced SrcLyra2Log.lyra2_log SrcLyra2Log.squeeze_log K).
Definition lyra2mod_log_upto (K : platform -> list Z -> Z -> kept (list Z)) :
  platform -> Z -> list Z -> list Z -> Z -> Z -> Z -> kept (list Z) :=
  ltac:(replaced SrcLyra2modLog.lyra2mod_log SrcLyra2modLog.squeeze_log K).
Definition stop_seen (p : platform) (s : list Z) (k : Z) : seen (list Z) := sret s.
Definition stop_log (p : platform) (s : list Z) (k : Z) : kept (list Z) := kret s.

#[local] Opaque SrcLyra2Seen.squeeze_seen SrcLyra2Seen.lyra2_body1_seen SrcLyra2Seen.lyra2_body2_seen SrcLyra2Seen.lyra2_body3_seen
  SrcLyra2Log.lyra2_body4_log SrcLyra2Log.lyra2_body5_log SrcLyra2Seen.lyra2_body6_seen SrcLyra2Seen.lyra2_body8_seen
  SrcLyra2Log.squeeze_log SrcLyra2Log.lyra2_body1_log SrcLyra2Log.lyra2_body2_log SrcLyra2Log.lyra2_body3_log
  SrcLyra2Log.lyra2_body6_log SrcLyra2Log.lyra2_body8_log SrcLyra2Log.lyra2_body9_log
  SrcLyra2modSeen.squeeze_seen SrcLyra2modSeen.lyra2mod_body1_seen SrcLyra2modSeen.lyra2mod_body2_seen SrcLyra2modSeen.lyra2mod_body3_seen
  SrcLyra2modLog.lyra2mod_body4_log SrcLyra2modLog.lyra2mod_body5_log SrcLyra2modSeen.lyra2mod_body6_seen SrcLyra2modSeen.lyra2mod_body8_seen
  SrcLyra2modLog.squeeze_log SrcLyra2modLog.lyra2mod_body1_log SrcLyra2modLog.lyra2mod_body2_log SrcLyra2modLog.lyra2mod_body3_log
  SrcLyra2modLog.lyra2mod_body6_log SrcLyra2modLog.lyra2mod_body8_log.
Lemma lyra2_upto_squeeze : lyra2_upto SrcLyra2Seen.squeeze_seen = SrcLyra2Seen.lyra2_seen.
Proof. reflexivity. Qed.
Lemma lyra2mod_upto_squeeze : lyra2mod_upto SrcLyra2modSeen.squeeze_seen = SrcLyra2modSeen.lyra2mod_seen.
Proof. reflexivity. Qed.

(** ** What comes before, and what comes after *)
Lemma sbind_assoc {A B C} (x : seen A) (f : A -> seen B) (g : B -> seen C) :
  sbind (sbind x f) g = sbind x (fun a => sbind (f a) g).
Proof.
  destruct x as [[a| |] l]; [|done..]. cbn. destruct (f a) as [[b| |] l']; [|done..]. cbn.
  destruct (g b) as [c l'']. by rewrite app_assoc.
Qed.
Lemma sext {A B} (x : seen A) (f g : A -> seen B) : (forall a, f a = g a) -> sbind x f = sbind x g.
Proof. intros H. destruct x as [[a| |] l]; [|done..]. cbn. by rewrite H. Qed.
Lemma ssplit_step {A B C} (x : seen A) (f : A -> seen C) (g : A -> seen B) (h : B -> seen C) :
  (forall a, f a = sbind (g a) h) -> sbind x f = sbind (sbind x g) h.
Proof. intros H. rewrite sbind_assoc. by apply sext. Qed.
Ltac split_steps := repeat (cbv beta zeta; lazymatch goal with
  | |- sbind ?x ?f = sbind (sbind ?x ?g) ?h => refine (ssplit_step x f g h _);
      let a := fresh "a" in intros a; cbv beta;
      repeat match goal with |- context [match ?y with (_, _) => _ end] => is_var y; destruct y end
  end).
Lemma lyra2_upto_split K p k pwd salt t R C :
  lyra2_upto K p k pwd salt t R C = sbind (lyra2_upto stop_seen p k pwd salt t R C) (fun s => K p s k).
Proof. unfold lyra2_upto. split_steps. unfold stop_seen. by rewrite sret_l. Qed.
Lemma lyra2mod_upto_split K p k pwd salt t R C :
  lyra2mod_upto K p k pwd salt t R C = sbind (lyra2mod_upto stop_seen p k pwd salt t R C) (fun s => K p s k).
Proof. unfold lyra2mod_upto. split_steps. unfold stop_seen. by rewrite sret_l. Qed.

(** ** Its accesses *)
Lemma strip_upto p k pwd salt t R C : strip (lyra2_upto stop_seen p k pwd salt t R C) = lyra2_log_upto stop_log p k pwd salt t R C.
Proof.
  unfold lyra2_upto, lyra2_log_upto. pstep. { apply strip_if_quiet; reflexivity. }
  pstep. { apply strip_if_quiet; reflexivity. }
  do 16 pstep. pstep. { apply strip_for. intros. apply strip_body1. }
  pstep. pstep. { apply strip_for. intros. apply strip_body2. }
  do 21 pstep. pstep. { apply strip_for. intros. apply strip_body3. }
  do 2 pstep. pstep. { apply strip_for. intros. apply strip_lift. }
  pstep. { apply strip_for. intros. apply strip_lift. }
  pstep. pstep. { apply strip_for. intros. apply strip_body6. }
  pstep. pstep. { apply strip_for. intros. apply strip_body8. }
  do 2 pstep. cbv zeta. pstep. reflexivity.
Qed.
Lemma strip_mod_upto p k pwd salt t R C :
  strip (lyra2mod_upto stop_seen p k pwd salt t R C) = lyra2mod_log_upto stop_log p k pwd salt t R C.
Proof.
  unfold lyra2mod_upto, lyra2mod_log_upto.
  rewrite mods_body1, mods_body2, mods_body3, mods_body6, modl_body1, modl_body2, modl_body3, modl_body6.
  pstep. { apply strip_if_quiet; reflexivity. }
  pstep. { apply strip_if_quiet; reflexivity. }
  do 16 pstep. pstep. { apply strip_for. intros. apply strip_body1. }
  pstep. pstep. { apply strip_for. intros. apply strip_body2. }
  do 21 pstep. pstep. { apply strip_for. intros. apply strip_body3. }
  do 2 pstep. pstep. { apply strip_for. intros. apply strip_lift. }
  pstep. { apply strip_for. intros. apply strip_lift. }
  pstep. pstep. { apply strip_for. intros. apply strip_body6. }
  do 2 pstep. pstep. { apply strip_for. intros. apply strip_mod_body8. }
  do 2 pstep. cbv zeta. pstep. reflexivity.
Qed.

(** ** The accesses are those of [before_kept] *)
#[local] Opaque copy_words_kept duplex_row1_kept setup_rows_kept wander_kept absorb_block_kept absorb_block_blake2_safe_kept
  squeeze_kept SrcLyra2Log.absorb_block_log.
Lemma kret_r {A} (x : kept A) : kbind x kret = x.
Proof. destruct x as [[a| |] l]; [|done..]. cbn. by rewrite app_nil_r. Qed.
Lemma log_upto p k pwd salt t R C : known_platform p ->
  lyra2_log_upto stop_log p k pwd salt t R C = before_kept p sel_lyra2 k pwd salt t R C.
Proof.
  intros Hp. unfold lyra2_log_upto, before_kept.
  destruct (t <? 1); [done|]. hb'. destruct (R <? 3); [done|]. do 9 hb'.
  acg rl Erl. acg tot Etot. acg m0 Em0.
  refine (kl _ _ _ _ (f_equal kquiet (vec_resize_same _ _ _ (as_usize_nonneg _ _ Hp) Em0)) _). hb'.
  unfold n_blocks_input. ar'. acg a1 E1. ar'. acg a2 E2. acg nb Enb. hb'.
  cbv delta [write_input_kept] beta zeta. ar'. rewrite log_copy. acg' m1. ar'. acg a3 E3. ar'. rewrite log_copy2. acg' m2. ar'. acg a4 E4.
  cbv delta [push_word_kept] beta iota.
  do 6 (anorm; let m3 := fresh "m" in acg' m3; anorm; let a5 := fresh "a" in let E5 := fresh "E" in acg a5 E5). anorm.
  acg' m_4. anorm. change SrcLyra2.BLOCKLENBLAKE2SAFEBYTES with MLyra2.BLOCKLENBLAKE2SAFEBYTES.
  acg a_6 E_6. anorm. acg a_7 E_7. hb'. anorm. acg' x. acg' m_5. rewrite src_init. hb'. hb'.
  rewrite log_absorb_input by done.
  unfold absorb_input_kept. ar'.
  apply kcong. intros [st ptr] l_5 Exs. pose proof (kin_len _ _ _ _ _ _ _ init_length Exs) as Hlen. clear Exs. anorm.
  unfold setup_kept. ar'. unfold squeeze_row0_kept at 1. ar'.
  change SrcLyra2.BLOCKLENINT64 with MLyra2.BLOCKLENINT64. acg b1 Eb1. ar'. acg b2 Eb2. rewrite (log_row0 _ _ _ _ _ _ Eb2). ar'.
  apply kcong. intros [[m_6 st6] ptr6] l_6 Ey.
  assert (Hl2 : length st6 = 16%nat) by (refine (krow0_len _ _ _ _ _ _ _ _ _ Hlen _ Ey); by rewrite Eb1). clear Ey. anorm.
  rewrite log_row1. apply kcong. intros [m_7 st7] l_7 Ey.
  apply (kpost _ _ _ _ _ (fst_row1 _ _ _ _ _) (duplex_row1_len p rl C m_6 st6 Hl2)) in Ey. cbn [snd] in Ey.
  hb'. rewrite log_setup_rows. rewrite kbind_assoc. apply kcong. intros [[m_8 st8] v] l_8 E'.
  apply (kpost _ _ _ _ _ (fst_setup_rows _ _ _ _ _ _) (setup_rows_len _ _ _ _ _ _ Ey)) in E'. cbn [fst snd] in E'.
  rewrite kret_l. cbn [setup_tuple]. hb'.
  apply ksim_eq. eapply ksim_bind; [by apply log_wander|].
  intros aa [[[[[m_9 st9] idx] row] prev] rowa] l_9 _ _ (step & -> & Hst).
  apply ksim_eq'. acg b3 Eb3. acg r Er. rewrite log_absorb. unfold stop_log. apply kret_r.
Qed.
Lemma log_mod_upto p k pwd salt t R C : known_platform p ->
  lyra2mod_log_upto stop_log p k pwd salt t R C = before_kept p (sel_lyra2mod p) k pwd salt t R C.
Proof.
  intros Hp. unfold lyra2mod_log_upto, before_kept.
  rewrite mod_init_state, modl_body1, modl_body2, modl_body3, modl_body4, modl_body5, modl_body6, modl_absorb.
  destruct (t <? 1); [done|]. hb'. destruct (R <? 3); [done|]. do 9 hb'.
  acg rl Erl. acg tot Etot. acg m0 Em0.
  refine (kl _ _ _ _ (f_equal kquiet (vec_resize_same _ _ _ (as_usize_nonneg _ _ Hp) Em0)) _). hb'.
  unfold n_blocks_input. ar'. acg a1 E1. ar'. acg a2 E2. acg nb Enb. hb'.
  cbv delta [write_input_kept] beta zeta. ar'. rewrite log_copy. acg' m1. ar'. acg a3 E3. ar'. rewrite log_copy2. acg' m2. ar'. acg a4 E4.
  cbv delta [push_word_kept] beta iota.
  do 6 (anorm; let m3 := fresh "m" in acg' m3; anorm; let a5 := fresh "a" in let E5 := fresh "E" in acg a5 E5). anorm.
  acg' m_4. anorm. change SrcLyra2mod.BLOCKLENBLAKE2SAFEBYTES with MLyra2.BLOCKLENBLAKE2SAFEBYTES.
  acg a_6 E_6. anorm. acg a_7 E_7. hb'. anorm. acg' x. acg' m_5. rewrite src_init. hb'. hb'.
  rewrite log_absorb_input by done.
  unfold absorb_input_kept. ar'.
  apply kcong. intros [st ptr] l_5 Exs. pose proof (kin_len _ _ _ _ _ _ _ init_length Exs) as Hlen. clear Exs. anorm.
  unfold setup_kept. ar'. unfold squeeze_row0_kept at 1. ar'.
  change SrcLyra2mod.BLOCKLENINT64 with MLyra2.BLOCKLENINT64. acg b1 Eb1. ar'. acg b2 Eb2. rewrite (log_row0 _ _ _ _ _ _ Eb2). ar'.
  apply kcong. intros [[m_6 st6] ptr6] l_6 Ey.
  assert (Hl2 : length st6 = 16%nat) by (refine (krow0_len _ _ _ _ _ _ _ _ _ Hlen _ Ey); by rewrite Eb1). clear Ey. anorm.
  rewrite log_row1. apply kcong. intros [m_7 st7] l_7 Ey.
  apply (kpost _ _ _ _ _ (fst_row1 _ _ _ _ _) (duplex_row1_len p rl C m_6 st6 Hl2)) in Ey. cbn [snd] in Ey.
  hb'. rewrite log_setup_rows. rewrite kbind_assoc. apply kcong. intros [[m_8 st8] v] l_8 E'.
  apply (kpost _ _ _ _ _ (fst_setup_rows _ _ _ _ _ _) (setup_rows_len _ _ _ _ _ _ Ey)) in E'. cbn [fst snd] in E'.
  rewrite kret_l. cbn [setup_tuple]. hb'. hb'.
  apply ksim_eq. eapply ksim_bind; [by apply log_wander_mod|].
  intros aa [[[[[m_9 st9] idx] row] prev] rowa] l_9 _ _ (step & -> & Hst).
  apply ksim_eq'. acg b3 Eb3. acg r Er. rewrite log_absorb. unfold stop_log. apply kret_r.
Qed.
