(** * The translation with a log is the model with a log: statements and loop bodies *)
From Verif Require Import Machine MachineFacts MUtils MLyra2 SrcOps SrcFacts MAccess AccessFacts Kept MKept KeptFacts.
From Verif Require SrcUtils SrcLyra2 SrcLyra2Log.
#[local] Open Scope Z_scope.

(** ** The sponge *)
#[local] Opaque SrcLyra2.round_lyra MLyra2.round_lyra.
Lemma ran_round p v : kran (SrcLyra2.round_lyra p v) = kperm v.
Proof. unfold kran. rewrite src_round. reflexivity. Qed.
Lemma log_reduced p v : SrcLyra2Log.reduced_blake2b_lyra_log p v = reduced_kept v.
Proof. unfold SrcLyra2Log.reduced_blake2b_lyra_log, reduced_kept. rewrite ran_round. apply kret_r. Qed.
Lemma log_blake2b p v : SrcLyra2Log.blake2b_lyra_log p v = blake2b_lyra_kept v.
Proof.
  unfold SrcLyra2Log.blake2b_lyra_log, blake2b_lyra_kept.
  do 12 (rewrite ran_round; apply kcong; let x := fresh "x" in intros x ? _; clear v; rename x into v). reflexivity.
Qed.
#[local] Opaque SrcLyra2Log.reduced_blake2b_lyra_log reduced_kept blake2b_lyra_kept SrcLyra2Log.blake2b_lyra_log.

(** ** Statements in step, as [sym1] of SrcFacts.v *)
Ltac fresh_kcong :=
  lazymatch goal with
  | |- kbind (kquiet (Ok _)) _ = _ => apply kcong_quiet; let x := fresh "x" in intros x _; cbv beta
  | |- kbind (kquiet _) _ = _ => apply kcong_quiet; let x := fresh "x" in let E := fresh "E" in intros x E; cbv beta;
      first [pose proof (iadd_0 _ _ _ _ E) | pose proof (imul_0 _ _ _ _ E) | idtac]
  | |- _ => apply kcong; let x := fresh "x" in intros x ? _; cbv beta
  end.
Ltac asym1 :=
  match goal with
  | H : ?e = Ok ?z |- kbind (kquiet ?e) ?f = ?r => refine (kq_l _ _ f r H _); cbv beta
  | H : ?e = Ok ?z |- ?r = kbind (kquiet ?e) ?f => refine (kq_r _ _ f r H _); cbv beta
  | |- ?r = kbind (kret ?a) ?f => refine (kr _ (kquiet (Ok a)) f r eq_refl _)
  | |- kbind ?e _ = kbind ?e _ => fresh_kcong
  | |- ?r = (let x := ?a in @?b x) => refine (eq_trans _ (kquiet_Ok a b))
  | |- ?r = kbind (kbind ?e ?f) ?g => refine (eq_trans _ (eq_sym (kbind_assoc e f g))); cbv beta
  | |- ?r = kbind (kquiet (obind ?e ?f)) ?g => refine (eq_trans _ (eq_sym (kquiet_bind e f g))); cbv beta
  | |- ?r = kbind (kquiet (cell ?p ?a ?b ?c ?d)) ?f => refine (kr _ (kquiet (cell_body p a b c d)) f r eq_refl _); cbv delta [cell_body] beta
  | |- ?r = kbind (kquiet (cell0 ?p ?a ?b)) ?f => refine (kr _ (kquiet (cell0_body p a b)) f r eq_refl _); cbv delta [cell0_body] beta
  | |- ?r = kbind (kquiet (cell1_rev ?p ?a ?b ?c ?d)) ?f => refine (kr _ (kquiet (cell1_rev_body p a b c d)) f r eq_refl _); cbv delta [cell1_rev_body] beta
  | |- ?r = kbind (kquiet (cell_rev ?p ?a ?b ?c ?d ?e)) ?f => refine (kr _ (kquiet (cell_rev_body p a b c d e)) f r eq_refl _); cbv delta [cell_rev_body] beta
  | |- ?r = kbind (kfold ?f (?a :: ?l) ?s) ?g =>
      let t := eval cbv beta iota delta [Z.to_nat Pos.to_nat Pos.iter_op Init.Nat.add Z.of_nat Pos.of_succ_nat Pos.succ] in (f s a) in
      refine (kr _ (kbind t (fun s' => kfold f l s')) g r eq_refl _)
  | |- ?r = kbind (kfold ?f [] ?s) ?g => refine (kr _ (kret s) g r eq_refl _)
  | |- kbind (SrcLyra2Log.reduced_blake2b_lyra_log ?p ?s) ?f = ?r => refine (kl _ _ f r (log_reduced p s) _)
  | |- kbind (SrcLyra2Log.blake2b_lyra_log ?p ?s) ?f = ?r => refine (kl _ _ f r (log_blake2b p s) _)
  | |- ?r = kbind (kquiet (Ok ?a)) ?f => refine (eq_trans _ (eq_sym (kquiet_Ok a f))); cbv beta
  | |- kbind (kquiet (Ok ?a)) ?f = ?r => refine (eq_trans (kquiet_Ok a f) _); cbv beta
  end.
Lemma kret_end {A} (e r : kept A) : r = kbind e (fun x => kret x) -> r = e.
Proof. by rewrite kret_r. Qed.

Lemma log_absorb p b s w : SrcLyra2Log.absorb_block_log p s b w = absorb_block_kept b s w.
Proof.
  unfold SrcLyra2Log.absorb_block_log, absorb_block_kept, xor_in_kept.
  repeat asym1. apply kret_r.
Qed.
Lemma log_absorb_safe p b s w : SrcLyra2Log.absorb_block_blake2_safe_log p s b w = absorb_block_blake2_safe_kept b s w.
Proof.
  unfold SrcLyra2Log.absorb_block_blake2_safe_log, absorb_block_blake2_safe_kept, xor_in_kept.
  repeat asym1. apply kret_r.
Qed.

Ltac aconsts := cbv delta [SrcLyra2.BLOCKLENINT64 MLyra2.BLOCKLENINT64 offs12 rotW_pairs].
Lemma log_body10 p row prev rowa row_len i m state :
  SrcLyra2Log.lyra2_body10_log p row prev rowa row_len i (m, state) =
  (state <=~ absorb_sum_kept p row_len i prev rowa m state ;;
   state <=~ reduced_kept state ;;
   m <=~ kfold (fun m j =>
            a <=~ kquiet (cell p row_len i row j) ;;
            x <=~ krd m a ;;
            kwr m a (Z.lxor x (aget state (Z.to_nat j)))) offs12 m ;;
   m <=~ xor_rotW_kept p row_len i rowa state m ;;
   kret (m, state)).
Proof.
  cbv delta [SrcLyra2Log.lyra2_body10_log absorb_sum_kept xor_rotW_kept] beta. aconsts. cbv beta iota.
  repeat asym1. reflexivity.
Qed.
Lemma log_body7 p n_cols row prev rowa row_len i m state :
  SrcLyra2Log.lyra2_body7_log p n_cols row prev rowa row_len i (m, state) =
  (state <=~ absorb_sum_kept p row_len i prev rowa m state ;;
   state <=~ reduced_kept state ;;
   m <=~ kfold (fun m j =>
            a <=~ kquiet (cell p row_len i prev j) ;;
            x <=~ krd m a ;;
            b <=~ kquiet (cell_rev p row_len n_cols i row j) ;;
            kwr m b (Z.lxor x (aget state (Z.to_nat j)))) offs12 m ;;
   m <=~ xor_rotW_kept p row_len i rowa state m ;;
   kret (m, state)).
Proof.
  cbv delta [SrcLyra2Log.lyra2_body7_log absorb_sum_kept xor_rotW_kept] beta. aconsts. cbv beta iota.
  repeat asym1. reflexivity.
Qed.
Lemma log_body5 p n_cols row_len i m state :
  SrcLyra2Log.lyra2_body5_log p n_cols row_len i (m, state) =
  (state <=~ kfold (fun state j =>
                a <=~ kquiet (cell0 p i j) ;;
                x <=~ krd m a ;;
                kret (<[Z.to_nat j := Z.lxor (aget state (Z.to_nat j)) x]> state)) offs12 state ;;
   state <=~ reduced_kept state ;;
   m <=~ kfold (fun m j =>
            a <=~ kquiet (cell0 p i j) ;;
            x <=~ krd m a ;;
            b <=~ kquiet (cell1_rev p row_len n_cols i j) ;;
            kwr m b (Z.lxor x (aget state (Z.to_nat j)))) offs12 m ;;
   kret (m, state)).
Proof.
  cbv delta [SrcLyra2Log.lyra2_body5_log] beta. aconsts. cbv beta iota.
  repeat asym1. reflexivity.
Qed.
Lemma log_body4 p i m state ptr : iadd p ptr 0 = Ok ptr ->
  SrcLyra2Log.lyra2_body4_log p i (m, state, ptr) =
  (m <=~ kfold (fun m j =>
              a <=~ kquiet (iadd p ptr j) ;;
              kwr m (as_usize p a) (aget state (Z.to_nat j))) offs12 m ;;
   let ptr := wrap_i64 (ptr - MLyra2.BLOCKLENINT64) in
   state <=~ reduced_kept state ;;
   kret (m, state, ptr)).
Proof.
  intros H0. cbv delta [SrcLyra2Log.lyra2_body4_log] beta. aconsts. cbv beta iota.
  repeat asym1. reflexivity.
Qed.
Lemma log_body1 p d at_ j m :
  SrcLyra2Log.lyra2_body1_log p d at_ j m =
  (start <=~ kquiet (szmul p 8 j) ;; end_ <=~ kquiet (szadd p start 8) ;; bs <=~ kquiet (slice d start end_) ;;
    w <=~ kquiet (read_u64_le bs) ;; b <=~ kquiet (szadd p at_ j) ;; kwr m b w).
Proof.
  unfold SrcLyra2Log.lyra2_body1_log. do 3 (apply kcong_quiet; intros ? _). rewrite src_read_u64.
  do 2 (apply kcong_quiet; intros ? _). apply kret_r.
Qed.
