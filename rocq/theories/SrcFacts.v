(** * The functions translated by tools/rust2coq.py are the model: lyra2.rs, utils.rs *)
From Verif Require Import Machine MachineFacts MUtils MLyra2 SrcOps.
From Verif Require SrcUtils SrcLyra2.
#[local] Open Scope Z_scope.

(** ** Simulation of outcomes and loops *)
Definition osim {A B} (R : A -> B -> Prop) (x : outcome A) (y : outcome B) : Prop :=
  match x, y with
  | Ok a, Ok b => R a b
  | Panic, Panic | OutOfFuel, OutOfFuel => True
  | _, _ => False
  end.
Lemma osim_eq {A} (x y : outcome A) : osim eq x y -> x = y.
Proof. destruct x, y; cbn; try done. by intros ->. Qed.
Lemma osim_refl {A} (R : A -> A -> Prop) x : (forall a, x = Ok a -> R a a) -> osim R x x.
Proof. destruct x; cbn; auto. Qed.
Lemma osim_bind {A B C D} (R : A -> B -> Prop) (Q : C -> D -> Prop) x y f h :
  osim R x y -> (forall a b, x = Ok a -> y = Ok b -> R a b -> osim Q (f a) (h b)) -> osim Q (obind x f) (obind y h).
Proof. destruct x, y; cbn; try done. auto. Qed.
Lemma osim_map {A B} (R Q : A -> B -> Prop) x y : osim R x y -> (forall a b, R a b -> Q a b) -> osim Q x y.
Proof. destruct x, y; cbn; auto. Qed.
Definition sum_rel {S S' T T'} (R : S -> S' -> Prop) (Q : T -> T' -> Prop) (x : S + T) (y : S' + T') : Prop :=
  match x, y with inl a, inl b => R a b | inr a, inr b => Q a b | _, _ => False end.
Lemma loop_pow_sim {S S' T T'} (R : S -> S' -> Prop) (Q : T -> T' -> Prop) n body body' s s' :
  (forall s s', R s s' -> osim (sum_rel R Q) (body s) (body' s')) -> R s s' ->
  osim (sum_rel R Q) (loop_pow n body s) (loop_pow n body' s').
Proof.
  intros Hb. revert s s'. induction n as [|n IH]; intros s s' H; cbn [loop_pow]; [auto|].
  eapply osim_bind; [by apply IH|]. intros [a|a] [b|b] _ _ Hab; cbn in Hab; try done. auto.
Qed.
#[local] Transparent loop64.
Lemma loop64_sim {S S' T T'} (R : S -> S' -> Prop) (Q : T -> T' -> Prop) body body' s s' :
  (forall s s', R s s' -> osim (sum_rel R Q) (body s) (body' s')) -> R s s' ->
  osim Q (loop64 body s) (loop64 body' s').
Proof.
  intros Hb H. unfold loop64. eapply osim_bind; [by apply (loop_pow_sim R Q)|].
  intros [a|a] [b|b] _ _ Hab; cbn in Hab; done.
Qed.
#[local] Opaque loop64.
Lemma for_range_sim {S S'} (R : S -> S' -> Prop) lo hi body body' s s' :
  (forall i s s', lo <= i < hi -> R s s' -> osim R (body i s) (body' i s')) -> R s s' ->
  osim R (for_range lo hi body s) (for_range lo hi body' s').
Proof.
  intros Hb H. unfold for_range.
  apply (loop64_sim (fun a b => a.1 = b.1 /\ lo <= a.1 /\ R a.2 b.2)); [|cbn; auto with lia].
  intros [i a] [i' b]; cbn. intros (<- & Hlo & HR). destruct (Z.ltb_spec i hi); [|done].
  eapply osim_bind; [apply Hb; [lia|done]|]. intros a' b' _ _ HR'. cbn. auto with lia.
Qed.
Lemma for_range_ext {S} lo hi (body body' : Z -> S -> outcome S) s :
  (forall i s, lo <= i < hi -> body i s = body' i s) -> for_range lo hi body s = for_range lo hi body' s.
Proof.
  intros H. apply osim_eq, for_range_sim; [|done]. intros i a ? Hi ->. rewrite H by done. by apply osim_refl.
Qed.

(** ** utils.rs *)
Lemma src_read_u32 p data : SrcUtils.read_u32_le p data = MUtils.read_u32_le data.
Proof. reflexivity. Qed.
Lemma src_read_u64 p data : SrcUtils.read_u64_le p data = MUtils.read_u64_le data.
Proof. reflexivity. Qed.

(** ** The sponge *)
Lemma src_rotr64 p w c : 0 < c < 64 -> SrcLyra2.rotr64 p w c = Ok (MLyra2.rotr64 w c).
Proof.
  intros Hc. unfold SrcLyra2.rotr64, MLyra2.rotr64, shr_chk, shl_chk, u8sub, chk_w.
  rewrite (proj2 (Z.ltb_lt c 64)) by lia. cbn [obind].
  rewrite (proj2 (Z.leb_le 0 (64 - c))), (proj2 (Z.ltb_lt (64 - c) (2 ^ 8))) by lia. cbn [andb obind].
  rewrite (proj2 (Z.ltb_lt (64 - c) 64)) by lia. reflexivity.
Qed.
Definition list4 (x : Z * Z * Z * Z) : list Z := let '(a, b, c, d) := x in [a; b; c; d].
(** Head step [x <-- Ok a ;; f] on the left. *)
Lemma obind_Ok {A B} (a : A) (f : A -> outcome B) : obind (Ok a) f = f a.
Proof. reflexivity. Qed.
Ltac hb := lazymatch goal with |- obind (Ok ?a) ?f = ?r => refine (eq_trans (obind_Ok a f) _); cbv beta end.
Lemma src_g p a b c d : SrcLyra2.g p a b c d = Ok (list4 (MLyra2.g a b c d)).
Proof.
  unfold SrcLyra2.g. cbv delta [MLyra2.g] beta.
  Ltac r4 := lazymatch goal with |- ?l = Ok (list4 (let x := ?v in @?f x)) =>
    refine (eq_trans (_ : l = Ok (list4 (f v))) eq_refl); cbv beta; generalize v; intros ? end.
  Ltac s4 := hb; lazymatch goal with |- ?l = ?r =>
    let l' := eval cbn [aget nth insert list_insert] in l in change (l' = r) end.
  s4. s4. r4. rewrite src_rotr64 by lia. s4. s4. r4. s4. r4. rewrite src_rotr64 by lia. s4. s4. r4. s4. r4.
  rewrite src_rotr64 by lia. s4. s4. r4. s4. r4. rewrite src_rotr64 by lia. s4. s4. r4. reflexivity.
Qed.
#[local] Opaque SrcLyra2.g MLyra2.g.
Lemma src_round p v : SrcLyra2.round_lyra p v = Ok (MLyra2.round_lyra v).
Proof.
  assert (Hg : forall i j k l v t, t = list4 (MLyra2.g (aget v i) (aget v j) (aget v k) (aget v l)) ->
     <[l := aget t 3]> (<[k := aget t 2]> (<[j := aget t 1]> (<[i := aget t 0]> v))) = MLyra2.g_at v i j k l).
  { intros i j k l w t ->. unfold MLyra2.g_at, list4.
    destruct (MLyra2.g _ _ _ _) as [[[x y] z] u]. reflexivity. }
  unfold MLyra2.round_lyra, SrcLyra2.round_lyra.
  Ltac group Hg i j k l := rewrite src_g;
    lazymatch goal with |- obind (Ok ?a) _ = _ => let t := fresh "t" in remember a as t eqn:Et; do 5 hb; rewrite (Hg i j k l _ _ Et); clear t Et end;
    match goal with |- context [MLyra2.g_at ?v i j k l] => generalize (MLyra2.g_at v i j k l); clear v; intros v end.
  group Hg 0%nat 4%nat 8%nat 12%nat. group Hg 1%nat 5%nat 9%nat 13%nat.
  group Hg 2%nat 6%nat 10%nat 14%nat. group Hg 3%nat 7%nat 11%nat 15%nat.
  group Hg 0%nat 5%nat 10%nat 15%nat. group Hg 1%nat 6%nat 11%nat 12%nat.
  group Hg 2%nat 7%nat 8%nat 13%nat. group Hg 3%nat 4%nat 9%nat 14%nat. reflexivity.
Qed.
#[local] Opaque SrcLyra2.round_lyra MLyra2.round_lyra.
Lemma src_reduced p v : SrcLyra2.reduced_blake2b_lyra p v = Ok (MLyra2.reduced_blake2b_lyra v).
Proof. unfold SrcLyra2.reduced_blake2b_lyra, MLyra2.reduced_blake2b_lyra. rewrite src_round. reflexivity. Qed.
Lemma src_blake2b p v : SrcLyra2.blake2b_lyra p v = Ok (MLyra2.blake2b_lyra v).
Proof.
  unfold SrcLyra2.blake2b_lyra, MLyra2.blake2b_lyra.
  do 12 (rewrite src_round; hb;
    match goal with |- context [MLyra2.round_lyra ?v] => generalize (MLyra2.round_lyra v); clear v; intros v end).
  reflexivity.
Qed.
Lemma src_init p : SrcLyra2.init_state p = Ok MLyra2.init_state.
Proof. reflexivity. Qed.

(** ** Comparing the unrolled statements with the model

    [sym] runs both sides in step: equal head computations are run once, those
    already run are replaced by their result, binds on the right are flattened. *)
Lemma obind_cong {A B} (e : outcome A) (f g : A -> outcome B) :
  (forall a, e = Ok a -> f a = g a) -> obind e f = obind e g.
Proof. destruct e; cbn; auto. Qed.
Lemma bind_l {A B} (e e' : outcome A) (f : A -> outcome B) r : e = e' -> obind e' f = r -> obind e f = r.
Proof. by intros ->. Qed.
Lemma bind_r {A B} (e e' : outcome A) (f : A -> outcome B) r : e = e' -> r = obind e' f -> r = obind e f.
Proof. by intros ->. Qed.
Lemma foldM_cons {A S} (f : S -> A -> outcome S) a l s : foldM f (a :: l) s = obind (f s a) (fun s' => foldM f l s').
Proof. reflexivity. Qed.
Lemma foldM_nil {A S} (f : S -> A -> outcome S) s : foldM f [] s = Ok s.
Proof. reflexivity. Qed.
Lemma chk_i64_idem p x y : chk_i64 p x = Ok y -> chk_i64 p (y + 0) = Ok y.
Proof.
  intros E. rewrite Z.add_0_r. apply chk_i64_Ok. unfold chk_i64 in E. destruct (in_i64 x) eqn:Hx.
  - injection E as <-. by apply in_i64_spec.
  - destruct (overflow_checks p); [done|]. injection E as <-. apply wrap_i64_range.
Qed.
Lemma iadd_0 p a b c : iadd p a b = Ok c -> iadd p c 0 = Ok c.
Proof. apply chk_i64_idem. Qed.
Lemma imul_0 p a b c : imul p a b = Ok c -> iadd p c 0 = Ok c.
Proof. apply chk_i64_idem. Qed.
Definition cell_body p row_len i row j : outcome Z :=
  a <-- imul p (as_i64 i) 12 ;; b <-- imul p row row_len ;; c <-- iadd p a b ;; d <-- iadd p c j ;; Ok (as_usize p d).
Definition cell0_body p i j : outcome Z := a <-- imul p (as_i64 i) 12 ;; d <-- iadd p a j ;; Ok (as_usize p d).
Definition cell1_rev_body p row_len n_cols i j : outcome Z :=
  u <-- usub p n_cols i ;; u <-- usub p u 1 ;; a <-- imul p (as_i64 u) 12 ;;
  c <-- iadd p a row_len ;; d <-- iadd p c j ;; Ok (as_usize p d).
Definition cell_rev_body p row_len n_cols i row j : outcome Z :=
  u <-- usub p n_cols i ;; u <-- usub p u 1 ;; a <-- imul p (as_i64 u) 12 ;;
  b <-- imul p row row_len ;; c <-- iadd p a b ;; d <-- iadd p c j ;; Ok (as_usize p d).

Ltac fresh_cong := 
  lazymatch goal with
  | |- obind (Ok _) _ = _ => apply obind_cong; let x := fresh "x" in intros x _; cbv beta
  | |- _ => apply obind_cong; let x := fresh "x" in let E := fresh "E" in intros x E; cbv beta;
      first [pose proof (iadd_0 _ _ _ _ E) | pose proof (imul_0 _ _ _ _ E) | idtac]
  end.
Ltac sym1 :=
  match goal with
  | H : ?e = Ok ?z |- obind ?e ?f = ?r => refine (bind_l _ _ f r H _); hb
  | H : ?e = Ok ?z |- ?r = obind ?e ?f => refine (bind_r _ _ f r H _)
  | |- obind ?e _ = obind ?e _ => fresh_cong
  | |- ?r = (let x := ?a in @?b x) => refine (eq_trans _ (obind_Ok a b))
  | |- ?r = obind (obind ?e ?f) ?g => refine (eq_trans _ (eq_sym (obind_assoc e f g))); cbv beta
  | |- ?r = obind (cell ?p ?a ?b ?c ?d) ?f => refine (bind_r _ (cell_body p a b c d) f r eq_refl _); cbv delta [cell_body] beta
  | |- ?r = obind (cell0 ?p ?a ?b) ?f => refine (bind_r _ (cell0_body p a b) f r eq_refl _); cbv delta [cell0_body] beta
  | |- ?r = obind (cell1_rev ?p ?a ?b ?c ?d) ?f => refine (bind_r _ (cell1_rev_body p a b c d) f r eq_refl _); cbv delta [cell1_rev_body] beta
  | |- ?r = obind (cell_rev ?p ?a ?b ?c ?d ?e) ?f => refine (bind_r _ (cell_rev_body p a b c d e) f r eq_refl _); cbv delta [cell_rev_body] beta
  | |- ?r = obind (foldM ?f (?a :: ?l) ?s) ?g =>
      let t := eval cbv beta iota delta [Z.to_nat Pos.to_nat Pos.iter_op Init.Nat.add Z.of_nat Pos.of_succ_nat Pos.succ] in (f s a) in
      refine (bind_r _ (obind t (fun s' => foldM f l s')) g r eq_refl _)
  | |- ?r = obind (foldM ?f [] ?s) ?g => refine (bind_r _ (Ok s) g r eq_refl _)
  | |- obind (SrcLyra2.reduced_blake2b_lyra ?p ?s) ?f = ?r => refine (bind_l _ _ f r (src_reduced p s) _)
  | |- obind (SrcLyra2.blake2b_lyra ?p ?s) ?f = ?r => refine (bind_l _ _ f r (src_blake2b p s) _)
  | |- ?r = obind (Ok ?a) ?f => refine (eq_trans _ (eq_sym (obind_Ok a f))); cbv beta
  | |- obind (Ok ?a) ?f = ?r => hb
  end.

Lemma obind_ret {A} (e : outcome A) : obind e (fun x => Ok x) = e.
Proof. by destruct e. Qed.
Lemma ret_r {A} (e r : outcome A) : r = obind e (fun x => Ok x) -> r = e.
Proof. by rewrite obind_ret. Qed.

Lemma src_absorb p s w : SrcLyra2.absorb_block p s w = MLyra2.absorb_block s w.
Proof.
  unfold SrcLyra2.absorb_block, MLyra2.absorb_block, xor_in. 
  repeat sym1. reflexivity.
Qed.
Lemma src_absorb_safe p s w : SrcLyra2.absorb_block_blake2_safe p s w = MLyra2.absorb_block_blake2_safe s w.
Proof.
  unfold SrcLyra2.absorb_block_blake2_safe, MLyra2.absorb_block_blake2_safe, xor_in.
  repeat sym1. reflexivity.
Qed.

Ltac consts := cbv delta [SrcLyra2.BLOCKLENINT64 MLyra2.BLOCKLENINT64 offs12 rotW_pairs].
Lemma src_body10 p row prev rowa row_len i m state :
  SrcLyra2.lyra2_body10 p row prev rowa row_len i (m, state) =
  (state <-- absorb_sum p row_len i prev rowa m state ;;
   let state := MLyra2.reduced_blake2b_lyra state in
   m <-- foldM (fun m j =>
            a <-- cell p row_len i row j ;;
            x <-- vget m a ;;
            vset m a (Z.lxor x (aget state (Z.to_nat j)))) offs12 m ;;
   m <-- xor_rotW p row_len i rowa state m ;;
   Ok (m, state)).
Proof.
  cbv delta [SrcLyra2.lyra2_body10 absorb_sum xor_rotW] beta. consts. cbv beta iota.
  repeat sym1. reflexivity.
Qed.

(** The bodies of the loops of the hand model. *)
Lemma src_body7 p n_cols row prev rowa row_len i m state :
  SrcLyra2.lyra2_body7 p n_cols row prev rowa row_len i (m, state) =
  (state <-- absorb_sum p row_len i prev rowa m state ;;
   let state := MLyra2.reduced_blake2b_lyra state in
   m <-- foldM (fun m j =>
            a <-- cell p row_len i prev j ;;
            x <-- vget m a ;;
            b <-- cell_rev p row_len n_cols i row j ;;
            vset m b (Z.lxor x (aget state (Z.to_nat j)))) offs12 m ;;
   m <-- xor_rotW p row_len i rowa state m ;;
   Ok (m, state)).
Proof.
  cbv delta [SrcLyra2.lyra2_body7 absorb_sum xor_rotW] beta. consts. cbv beta iota.
  repeat sym1. reflexivity.
Qed.
Lemma src_body5 p n_cols row_len i m state :
  SrcLyra2.lyra2_body5 p n_cols row_len i (m, state) =
  (state <-- foldM (fun state j =>
                a <-- cell0 p i j ;;
                x <-- vget m a ;;
                Ok (<[Z.to_nat j := Z.lxor (aget state (Z.to_nat j)) x]> state)) offs12 state ;;
   let state := MLyra2.reduced_blake2b_lyra state in
   m <-- foldM (fun m j =>
            a <-- cell0 p i j ;;
            x <-- vget m a ;;
            b <-- cell1_rev p row_len n_cols i j ;;
            vset m b (Z.lxor x (aget state (Z.to_nat j)))) offs12 m ;;
   Ok (m, state)).
Proof.
  cbv delta [SrcLyra2.lyra2_body5] beta. consts. cbv beta iota.
  repeat sym1. reflexivity.
Qed.
Lemma src_body4 p i m state ptr : iadd p ptr 0 = Ok ptr ->
  SrcLyra2.lyra2_body4 p i (m, state, ptr) =
  (m <-- foldM (fun m j =>
              a <-- iadd p ptr j ;;
              vset m (as_usize p a) (aget state (Z.to_nat j))) offs12 m ;;
   let ptr := wrap_i64 (ptr - MLyra2.BLOCKLENINT64) in
   Ok (m, MLyra2.reduced_blake2b_lyra state, ptr)).
Proof.
  intros H0. cbv delta [SrcLyra2.lyra2_body4] beta. consts. cbv beta iota.
  repeat sym1. reflexivity.
Qed.
Lemma src_body1 p d at_ j m :
  SrcLyra2.lyra2_body1 p d at_ j m =
  (start <-- szmul p 8 j ;; end_ <-- szadd p start 8 ;; bs <-- slice d start end_ ;;
    w <-- read_u64_le bs ;; b <-- szadd p at_ j ;; vset m b w).
Proof.
  unfold SrcLyra2.lyra2_body1. do 3 (apply obind_cong; intros ? _). rewrite src_read_u64.
  do 2 (apply obind_cong; intros ? _). apply obind_ret.
Qed.
