(** * Every call terminates: no loop of the model uses up its budget *)
From Verif Require Import Machine MachineFacts MUtils MLyra2 Schedule.

Create HintDb nf.
Lemma Ok_not_fuel {A} (a : A) : Ok a <> OutOfFuel. Proof. done. Qed.
Lemma Panic_not_fuel {A} : @Panic A <> OutOfFuel. Proof. done. Qed.
Lemma slice_not_fuel m s e : slice m s e <> OutOfFuel.
Proof. unfold slice. by case_match. Qed.
Lemma split_right_not_fuel m i : split_right m i <> OutOfFuel.
Proof. unfold split_right. by case_match. Qed.
Lemma vec_zeroed_not_fuel p e n : vec_zeroed p e n <> OutOfFuel.
Proof. unfold vec_zeroed. by case_match. Qed.
Lemma vec_extend_not_fuel p v b : vec_extend p v b <> OutOfFuel.
Proof. unfold vec_extend. by case_match. Qed.
Lemma for_range_not_fuel {S} lo hi (body : Z -> S -> outcome S) s :
  hi - lo < 2 ^ 64 -> (forall i s, body i s <> OutOfFuel) -> for_range lo hi body s <> OutOfFuel.
Proof. intros H Hb. rewrite for_range_foldM by done. apply foldM_not_fuel. intros; apply Hb. Qed.

Ltac nf1 :=
  first [ apply Ok_not_fuel | apply Panic_not_fuel
        | apply vget_not_fuel | apply vset_not_fuel | apply slice_not_fuel
        | apply split_right_not_fuel | apply vec_zeroed_not_fuel | apply vec_extend_not_fuel
        | apply chk_i64_not_fuel | apply chk_u64_not_fuel | apply chk_usize_not_fuel
        | progress unfold iadd, isub, imul, usub, szadd, szmul
        | apply foldM_not_fuel; intros
        | apply obind_not_fuel; [|intros]
        | case_match ].
Ltac nf := repeat nf1.

Section termination.
Context (p : platform).

Lemma read_u32_le_not_fuel l : read_u32_le l <> OutOfFuel.
Proof. unfold read_u32_le. nf. Qed.
Lemma read_u64_le_not_fuel l : read_u64_le l <> OutOfFuel.
Proof. unfold read_u64_le. nf. Qed.
Lemma cell_not_fuel a b c d : cell p a b c d <> OutOfFuel.
Proof. unfold cell. nf. Qed.
Lemma cell0_not_fuel a b : cell0 p a b <> OutOfFuel.
Proof. unfold cell0. nf. Qed.
Lemma cell1_rev_not_fuel a b c d : cell1_rev p a b c d <> OutOfFuel.
Proof. unfold cell1_rev. nf. Qed.
Lemma cell_rev_not_fuel a b c d e : cell_rev p a b c d e <> OutOfFuel.
Proof. unfold cell_rev. nf. Qed.
Ltac nf2 := repeat first [ nf1 | apply read_u64_le_not_fuel | apply cell_not_fuel | apply cell0_not_fuel
  | apply cell1_rev_not_fuel | apply cell_rev_not_fuel ].

Lemma copy_words_not_fuel data q m : vlen data < 2 ^ 64 -> copy_words p data q m <> OutOfFuel.
Proof.
  intros H. unfold copy_words. apply for_range_not_fuel; [|intros; nf2].
  pose proof (Z.div_le_upper_bound (vlen data) 8 (vlen data)). pose proof (vlen_nonneg data). lia.
Qed.
Lemma push_word_not_fuel s x : push_word p s x <> OutOfFuel.
Proof. unfold push_word. destruct s. nf2. Qed.
Lemma n_blocks_input_not_fuel a b : n_blocks_input p a b <> OutOfFuel.
Proof. unfold n_blocks_input. nf2. Qed.
Lemma write_input_not_fuel k pwd salt t R C nb m : vlen pwd < 2 ^ 64 -> vlen salt < 2 ^ 64 ->
  write_input p k pwd salt t R C nb m <> OutOfFuel.
Proof.
  intros H1 H2. unfold write_input.
  repeat first [ by apply copy_words_not_fuel | apply push_word_not_fuel | nf1 ].
Qed.
Lemma absorb_safe_not_fuel s w : absorb_block_blake2_safe s w <> OutOfFuel.
Proof. unfold absorb_block_blake2_safe, xor_in. nf. Qed.
Lemma absorb_block_not_fuel s w : absorb_block s w <> OutOfFuel.
Proof. unfold absorb_block, xor_in. nf. Qed.
Lemma absorb_input_not_fuel nb m st : nb < 2 ^ 64 -> absorb_input p nb m st <> OutOfFuel.
Proof.
  intros H. unfold absorb_input. apply obind_not_fuel.
  - apply for_range_not_fuel; [lia|]. intros i [st' q].
    repeat first [ apply absorb_safe_not_fuel | nf1 ].
  - intros [? ?] _. done.
Qed.
Lemma squeeze_row0_not_fuel C m st : C < 2 ^ 64 -> squeeze_row0 p C m st <> OutOfFuel.
Proof.
  intros H. unfold squeeze_row0. apply obind_not_fuel; [nf|]. intros a _.
  apply obind_not_fuel; [nf|]. intros ptr _. apply obind_not_fuel; [|intros [[? ?] ?] _; done].
  apply for_range_not_fuel; [lia|]. intros i [[m' st'] ptr']. cbv zeta. nf.
Qed.
Lemma duplex_row1_not_fuel l C m st : C < 2 ^ 64 -> duplex_row1 p l C m st <> OutOfFuel.
Proof.
  intros H. unfold duplex_row1. apply for_range_not_fuel; [lia|]. intros i [m' st'].
  cbv zeta. nf2.
Qed.
Lemma absorb_sum_not_fuel l i a b m st : absorb_sum p l i a b m st <> OutOfFuel.
Proof. unfold absorb_sum. nf2. Qed.
Lemma xor_rotW_not_fuel l i a st m : xor_rotW p l i a st m <> OutOfFuel.
Proof. unfold xor_rotW. nf2. Qed.
Ltac nf3 := repeat first [ apply absorb_sum_not_fuel | apply xor_rotW_not_fuel | nf1 | apply cell_not_fuel
  | apply cell_rev_not_fuel ].
Lemma duplex_row_setup_not_fuel l C r q a m st : C < 2 ^ 64 -> duplex_row_setup p l C r q a m st <> OutOfFuel.
Proof.
  intros H. unfold duplex_row_setup. apply for_range_not_fuel; [lia|]. intros i [m' st'].
  cbv zeta. nf3.
Qed.
Lemma duplex_row_not_fuel l C r q a m st : C < 2 ^ 64 -> duplex_row p l C r q a m st <> OutOfFuel.
Proof.
  intros H. unfold duplex_row. apply for_range_not_fuel; [lia|]. intros i [m' st'].
  cbv zeta. nf3.
Qed.
Lemma rows_next_not_fuel v : rows_next p v <> OutOfFuel.
Proof. unfold rows_next. cbv zeta. nf. Qed.
Lemma setup_not_fuel l R C m st : C < 2 ^ 64 -> setup p l R C m st <> OutOfFuel.
Proof.
  intros H. unfold setup. apply obind_not_fuel; [by apply squeeze_row0_not_fuel|].
  intros [m1 st1] _. apply obind_not_fuel; [by apply duplex_row1_not_fuel|].
  intros [m2 st2] _. unfold setup_rows. apply for_range_not_fuel.
  - unfold as_i64. pose proof (wrap_i64_range R). cbn [r_row rows_init]. lia.
  - intros i [[m3 st3] v]. apply obind_not_fuel; [by apply duplex_row_setup_not_fuel|].
    intros [m4 st4] _. apply obind_not_fuel; [apply rows_next_not_fuel|]. intros; nf.
Qed.

(** ** The wandering loop returns to row 0 *)
Lemma land_wrap_mod x m : Z.land (wrap_i64 x) m mod 2 ^ 64 = Z.land x m mod 2 ^ 64.
Proof.
  rewrite <- !Z.land_ones by lia. rewrite <- !Z.land_assoc, !(Z.land_comm m), !Z.land_assoc.
  rewrite !Z.land_ones by lia. by rewrite wrap_i64_mod.
Qed.
Lemma land_i64 x m : - 2 ^ 63 <= m < 2 ^ 63 -> - 2 ^ 63 <= x < 2 ^ 63 -> - 2 ^ 63 <= Z.land x m < 2 ^ 63.
Proof.
  intros Hm Hx.
  assert (Hs : forall y, - 2 ^ 63 <= y < 2 ^ 63 <-> Z.shiftr y 63 = 0 \/ Z.shiftr y 63 = -1).
  { intros y. rewrite Z.shiftr_div_pow2 by lia. pose proof (Z.div_mod y (2 ^ 63)). pose proof (Z.mod_pos_bound y (2 ^ 63)).
    lia. }
  apply Hs. rewrite Z.shiftr_land. apply Hs in Hm as [-> | ->], Hx as [-> | ->];
    rewrite ?Z.land_0_r, ?Z.land_0_l, ?Z.land_m1_r; auto.
Qed.
Definition nextw (mask step x : Z) : Z := Z.land (wrap_i64 (x + step)) mask.
Lemma nextw_returns mask step : - 2 ^ 63 <= mask < 2 ^ 63 ->
  exists k, (1 <= k <= fuel64)%nat /\ Nat.iter k (nextw mask step) 0 = 0.
Proof.
  intros Hm.
  apply (orbit_returns (fun x => Z.land x mask = x /\ - 2 ^ 63 <= x < 2 ^ 63) _ (- 2 ^ 63)).
  - split; [apply Z.land_0_l|lia].
  - intros x _. unfold nextw. split.
    + by rewrite <- Z.land_assoc, Z.land_diag.
    + apply land_i64; [done|apply wrap_i64_range].
  - intros x [_ Hx]. rewrite fuel64_Z. lia.
  - intros x y [Hx Hxr] [Hy Hyr] E. unfold nextw in E.
    apply (f_equal (fun x => x mod 2 ^ 64)) in E. rewrite !land_wrap_mod in E.
    apply mask_add_inj in E; [|lia|done|done].
    rewrite <- (wrap_i64_id x), <- (wrap_i64_id y) by done. unfold wrap_i64.
    rewrite <- (Zplus_mod_idemp_l x), <- (Zplus_mod_idemp_l y). by rewrite E.
Qed.
Lemma wander_next_inv R step row r : wander_next p R step row = Ok r ->
  r = nextw (wrap_i64 (wrap_i64 R - 1)) step row.
Proof.
  unfold wander_next. intros (a & Ha & (b & Hb & [= <-])%obind_Ok_inv)%obind_Ok_inv.
  apply chk_i64_inv in Ha as [_ ->], Hb as [_ ->]. done.
Qed.

Section loop.
Context {S : Type} (body : S -> outcome (S + S)) (row : S -> Z) (f : Z -> Z).
Context (Hnf : forall s, body s <> OutOfFuel)
        (Hstep : forall s r, body s = Ok r ->
           match r with inl s' => row s' = f (row s) /\ row s' <> 0 | inr s' => row s' = 0 end).
Lemma run_n_not_fuel n s : run_n n body s <> OutOfFuel.
Proof.
  revert s. induction n as [|n IH]; intros s; cbn [run_n]; [done|].
  apply obind_not_fuel; [apply Hnf|]. intros [s'|s'] _; [apply IH|done].
Qed.
Lemma run_n_inl n s s' : run_n n body s = Ok (inl s') ->
  forall k, (1 <= k <= n)%nat -> Nat.iter k f (row s) <> 0.
Proof.
  revert s. induction n as [|n IH]; intros s E k Hk; [lia|]. cbn [run_n] in E.
  apply obind_Ok_inv in E as (r & E1 & E2). destruct r as [s1|s1]; [|done].
  pose proof (Hstep _ _ E1) as [Hr Hz]. destruct k as [|k]; [lia|].
  replace (Datatypes.S k) with (k + 1)%nat by lia. rewrite iter_add. cbn [Nat.iter nat_rect].
  rewrite <- Hr. destruct k as [|k]; [done|]. apply (IH s1 E2). lia.
Qed.
Lemma run_n_inr n s s' : run_n n body s = Ok (inr s') -> row s' = 0.
Proof.
  revert s. induction n as [|n IH]; intros s E; [done|]. cbn [run_n] in E.
  apply obind_Ok_inv in E as (r & E1 & E2). destruct r as [s1|s1]; [by apply (IH s1)|].
  injection E2 as ->. apply (Hstep _ _ E1).
Qed.
Lemma loop64_not_fuel s : (exists k, (1 <= k <= fuel64)%nat /\ Nat.iter k f (row s) = 0) ->
  loop64 body s <> OutOfFuel.
Proof.
  intros (k & Hk & E). rewrite loop64_run. apply obind_not_fuel; [apply run_n_not_fuel|].
  intros [s'|s'] Hr; [|done]. exfalso. by apply (run_n_inl _ _ _ Hr k Hk).
Qed.
Lemma loop64_row s s' : loop64 body s = Ok s' -> row s' = 0.
Proof.
  rewrite loop64_run. intros (r & Hr & E)%obind_Ok_inv. destruct r; [done|].
  injection E as ->. by apply run_n_inr in Hr.
Qed.
End loop.

Definition wrow (s : list Z * list Z * Z * Z * Z * Z) : Z :=
  let '(m, state, index, row, prev, rowa) := s in row.
Lemma wander_pass_body sel l R C step s r : C < 2 ^ 64 ->
  let body := (fun '(m, state, index, row, prev, rowa) =>
    let '(x, index) := sel state index in
    n1 <-- usub p R 1 ;;
    let rowa := as_i64 (Z.land x n1) in
    '(m, state) <-- duplex_row p l C row prev rowa m state ;;
    let prev := row in
    row <-- wander_next p R step row ;;
    let s := (m, state, index, row, prev, rowa) in
    if row =? 0 then Ok (inr s) else Ok (inl s)) in
  body s <> OutOfFuel /\
  (body s = Ok r ->
   match r with
   | inl s' => wrow s' = nextw (wrap_i64 (wrap_i64 R - 1)) step (wrow s) /\ wrow s' <> 0
   | inr s' => wrow s' = 0 end).
Proof.
  intros HC body. destruct s as [[[[[m st] i] row] prev] rowa]. subst body. cbv beta iota zeta.
  destruct (sel st i) as [x i']. split.
  - apply obind_not_fuel; [nf|]. intros n1 _. apply obind_not_fuel; [by apply duplex_row_not_fuel|].
    intros [m1 st1] _. apply obind_not_fuel; [unfold wander_next; nf|]. intros. by case_match.
  - intros (n1 & _ & ([m1 st1] & _ & (row' & E & E2)%obind_Ok_inv)%obind_Ok_inv)%obind_Ok_inv.
    apply wander_next_inv in E. destruct (row' =? 0) eqn:E0; injection E2 as <-; cbn [wrow].
    + by apply Z.eqb_eq.
    + split; [done|]. by apply Z.eqb_neq.
Qed.
Lemma wander_pass_not_fuel sel l R C step s : C < 2 ^ 64 -> wrow s = 0 ->
  wander_pass p sel l R C step s <> OutOfFuel.
Proof.
  intros HC Hs. unfold wander_pass.
  apply (loop64_not_fuel _ wrow (nextw (wrap_i64 (wrap_i64 R - 1)) step)).
  - intros s'. by apply (wander_pass_body sel l R C step s' (inl s')).
  - intros s' r. by apply wander_pass_body.
  - rewrite Hs. apply nextw_returns, wrap_i64_range.
Qed.
Lemma wander_pass_row sel l R C step s s' : C < 2 ^ 64 ->
  wander_pass p sel l R C step s = Ok s' -> wrow s' = 0.
Proof.
  intros HC. unfold wander_pass.
  apply (loop64_row _ wrow (nextw (wrap_i64 (wrap_i64 R - 1)) step)).
  intros s1 r. by apply wander_pass_body.
Qed.
Lemma foldM_not_fuel_inv {A S} (P : S -> Prop) (f : S -> A -> outcome S) l s :
  P s -> (forall s a, P s -> f s a <> OutOfFuel) ->
  (forall s a s', P s -> f s a = Ok s' -> P s') -> foldM f l s <> OutOfFuel.
Proof.
  intros Hs Hf Hp. revert s Hs. induction l as [|a l IH]; intros s Hs; cbn [foldM]; [done|].
  apply obind_not_fuel; [by apply Hf|]. intros s' E. apply IH. by apply (Hp s a).
Qed.
Lemma wander_not_fuel sel l t R C m st prev rowa : C < 2 ^ 64 -> t < 2 ^ 64 ->
  wander p sel l t R C m st prev rowa <> OutOfFuel.
Proof.
  intros HC Ht. unfold wander. rewrite for_range_foldM by lia.
  apply (foldM_not_fuel_inv (fun s => wrow s = 0)); [done| |].
  - intros s tau Hs. apply obind_not_fuel; [unfold wander_step; nf|]. intros step _.
    by apply wander_pass_not_fuel.
  - intros s tau s' Hs (step & _ & E)%obind_Ok_inv. by apply wander_pass_row in E.
Qed.
Lemma squeeze_not_fuel st k : squeeze p st k <> OutOfFuel.
Proof.
  unfold squeeze. apply obind_not_fuel; [nf|]. intros out _.
  apply obind_not_fuel; [nf|]. intros jmax Hj. apply obind_not_fuel; [|intros [[? ?] ?] _; done].
  apply chk_i64_inv in Hj as [Hj _].
  apply for_range_not_fuel; [lia|]. intros i [[tmp o] s].
  apply obind_not_fuel; [|intros; nf]. apply for_range_not_fuel; [unfold BLOCKLENINT64; lia|].
  intros; nf.
Qed.

Lemma lyra2_with_not_fuel sel k pwd salt t R C :
  vlen pwd < 2 ^ 64 -> vlen salt < 2 ^ 64 -> t < 2 ^ 64 -> C < 2 ^ 64 ->
  lyra2_with p sel k pwd salt t R C <> OutOfFuel.
Proof.
  intros Hp Hs Ht HC. unfold lyra2_with. case_match; [done|]. case_match; [done|].
  apply obind_not_fuel; [nf|]. intros rl _. apply obind_not_fuel; [nf|]. intros tot _.
  apply obind_not_fuel; [nf|]. intros m0 _.
  apply obind_not_fuel; [apply n_blocks_input_not_fuel|]. intros nb Hnb.
  apply obind_not_fuel; [by apply write_input_not_fuel|]. intros m1 _.
  apply obind_not_fuel; [apply absorb_input_not_fuel|].
  { unfold n_blocks_input in Hnb. apply obind_Ok_inv in Hnb as (? & _ & (? & _ & Hnb)%obind_Ok_inv).
    apply chk_i64_inv in Hnb as [? _]. lia. }
  intros st _. apply obind_not_fuel; [by apply setup_not_fuel|]. intros [[m2 st2] v] _.
  apply obind_not_fuel; [by apply wander_not_fuel|]. intros [[[[[m3 st3] i3] r3] p3] a3] _.
  apply obind_not_fuel; [nf|]. intros a _. apply obind_not_fuel; [nf|]. intros right _.
  apply obind_not_fuel; [apply absorb_block_not_fuel|]. intros. apply squeeze_not_fuel.
Qed.
End termination.
