(** * Without overflow checks, 2^63 rows or more: which calls return (lemmas for PBigRows.v) *)
From Verif Require Import Machine MachineFacts MLyra2 WordFacts Schedule RefineInput RefineTop Refine2 Termination Domain LyraFacts PLyra2Lemmas.
From Verif Require Import SrcLoops BigRows ConsensusFacts.
From Verif Require Import SpecWord SpecLyra2 SpecCalls.
From Verif Require MAccess SpecAccess.
From stdpp Require Import list_numbers.
#[local] Open Scope Z_scope.

(** [safe Q o]: [o] does not panic, and if it returns, its result satisfies [Q]. *)
Definition safe {A} (Q : A -> Prop) (o : outcome A) : Prop :=
  match o with Ok a => Q a | Panic => False | OutOfFuel => True end.
Lemma safe_bind {A B} (Q : B -> Prop) (P : A -> Prop) (o : outcome A) (f : A -> outcome B) :
  safe P o -> (forall a, P a -> safe Q (f a)) -> safe Q (obind o f).
Proof. destruct o; [|done..]. cbn. auto. Qed.
Lemma safe_Ok {A} (Q : A -> Prop) (o : outcome A) a : o = Ok a -> Q a -> safe Q o.
Proof. by intros -> H. Qed.
Lemma safe_ret {A} (Q : A -> Prop) a : Q a -> safe Q (Ok a).
Proof. exact (fun H => H). Qed.
Lemma safe_foldM {A S} (I : S -> Prop) (f : S -> A -> outcome S) l s :
  I s -> (forall s a, a ∈ l -> I s -> safe I (f s a)) -> safe I (foldM f l s).
Proof.
  revert s. induction l as [|a l IH]; intros s Hs Hf; [exact Hs|]. cbn [foldM].
  apply (safe_bind _ I); [apply Hf; [left|done]|]. intros s' Hs'. apply IH; [done|].
  intros s1 b Hb. apply Hf. by right.
Qed.
Lemma safe_run_n {S T} (I : S -> Prop) (Q : T -> Prop) (body : S -> outcome (S + T)) n s :
  I s -> (forall s, I s -> safe (fun r => match r with inl s => I s | inr t => Q t end) (body s)) ->
  safe (fun r => match r with inl s => I s | inr t => Q t end) (run_n n body s).
Proof.
  intros Hs Hb. revert s Hs. induction n as [|n IH]; intros s Hs; [exact Hs|]. cbn [run_n].
  eapply safe_bind; [by apply Hb|]. intros [s'|t] H; [by apply IH|exact H].
Qed.
Lemma safe_loop64 {S T} (I : S -> Prop) (Q : T -> Prop) (body : S -> outcome (S + T)) s :
  I s -> (forall s, I s -> safe (fun r => match r with inl s => I s | inr t => Q t end) (body s)) ->
  safe Q (loop64 body s).
Proof.
  intros Hs Hb. rewrite loop64_run. eapply safe_bind; [by apply (safe_run_n I Q)|]. by intros [s'|t] H.
Qed.
Lemma safe_for_range {S} (I : Z -> S -> Prop) lo hi (body : Z -> S -> outcome S) s :
  lo <= hi -> I lo s -> (forall i s, lo <= i < hi -> I i s -> safe (I (i + 1)) (body i s)) ->
  safe (I hi) (for_range lo hi body s).
Proof.
  intros Hle Hs Hb. unfold for_range.
  apply (safe_loop64 (fun '(i, s) => lo <= i <= hi /\ I i s)); [split; [lia|done]|].
  intros [i s1] [Hi H1]. destruct (i <? hi) eqn:E.
  - apply Z.ltb_lt in E. apply (safe_bind _ (I (i + 1))); [apply Hb; [lia|done]|].
    intros s2 H2. split; [lia|done].
  - apply Z.ltb_ge in E. replace hi with i by lia. exact H1.
Qed.
Lemma safe_vget m i : 0 <= i < vlen m -> safe (fun _ => True) (vget m i).
Proof. intros H. by rewrite vget_Ok. Qed.
Lemma safe_vset m i x : 0 <= i < vlen m -> safe (fun m' => vlen m' = vlen m) (vset m i x).
Proof. intros H. rewrite vset_Ok by done. unfold vlen. cbn. by rewrite insert_length. Qed.

Section release.
Context (p : platform) (Hp : known_platform p) (Hrel : overflow_checks p = false).
#[local] Notation B := (2 ^ usize_bits p).
#[local] Notation W := (2 ^ (usize_bits p - 2)).

Lemma chk_i64_release x : chk_i64 p x = Ok (wrap_i64 x).
Proof.
  unfold chk_i64. destruct (in_i64 x) eqn:E; [|by rewrite Hrel].
  rewrite wrap_i64_id; [done|]. by apply in_i64_spec.
Qed.
Lemma B_W : B = 4 * W.
Proof.
  pose proof (bits_ge p Hp). replace (usize_bits p) with (2 + (usize_bits p - 2)) at 1 by lia.
  rewrite Z.pow_add_r by lia. lia.
Qed.
Lemma W_pos : 0 < W.
Proof. pose proof (bits_ge p Hp). apply Z.pow_pos_nonneg; lia. Qed.
Lemma wrap_shift x : exists q, wrap_i64 x = x + q * 2 ^ 64.
Proof.
  unfold wrap_i64. exists (- ((x + 2 ^ 63) / 2 ^ 64)). pose proof (Z.div_mod (x + 2 ^ 63) (2 ^ 64) ltac:(lia)). lia.
Qed.
Lemma as_usize_wrap x : as_usize p (wrap_i64 x) = x mod B.
Proof.
  unfold as_usize. destruct (wrap_shift x) as [q ->]. destruct Hp as [->| ->].
  - replace (q * 2 ^ 64) with ((q * 2 ^ 32) * 2 ^ 32) by lia. apply Z_mod_plus_full.
  - apply Z_mod_plus_full.
Qed.
Lemma wrap_add_l x y : wrap_i64 (wrap_i64 x + y) = wrap_i64 (x + y).
Proof. apply wrap_eq. rewrite Z.add_mod, wrap_i64_mod, <- Z.add_mod by lia. done. Qed.
Lemma wrap_add_r x y : wrap_i64 (x + wrap_i64 y) = wrap_i64 (x + y).
Proof. rewrite Z.add_comm, wrap_add_l. f_equal. lia. Qed.
Lemma cell_release rl i row j : cell p rl i row j = Ok ((12 * i + row * rl + j) mod B).
Proof.
  unfold cell, imul, iadd, as_i64, BLOCKLENINT64. repeat (rewrite chk_i64_release; cbn [obind]).
  rewrite as_usize_wrap. rewrite <- (as_usize_wrap (_ + j)), <- (as_usize_wrap (_ + _ + j)).
  rewrite !wrap_mul_l, !wrap_add_l, <- Z.add_assoc, wrap_add_l, Z.add_comm, <- Z.add_assoc, wrap_add_l.
  do 3 f_equal. lia.
Qed.

Context (R R0 C : Z) (HRd : R0 = R mod W) (HR : 3 <= R < 2 ^ 64) (HR2 : 2 <= R0) (HC : 1 <= C) (Hmax : 96 * R0 * C <= isize_max p).
#[local] Notation T := (12 * R0 * C).
(** Rows are addressed modulo [W]. *)
Definition okrow (row : Z) : Prop := row mod W < R0.
Definition okmem (m : list Z) : Prop := vlen m = T.
Definition okst (st : list Z) : Prop := length st = 16%nat.
Lemma sizes : T < B /\ 12 * C < 2 ^ 60 /\ C < 2 ^ 60 /\ T < 2 ^ 60.
Proof. pose proof (isize_usize p Hp). assert (24 * C <= T) by nia. lia. Qed.
Lemma addr_eq i row j : 0 <= i < C -> 0 <= j < 12 -> okrow row ->
  (12 * i + row * (12 * C) + j) mod B = 12 * i + (row mod W) * (12 * C) + j /\
  0 <= 12 * i + (row mod W) * (12 * C) + j < T.
Proof.
  clear HRd HR. intros Hi Hj Hr. unfold okrow in Hr. pose proof sizes as [HT _]. pose proof W_pos. pose proof B_W.
  pose proof (Z.div_mod row W ltac:(lia)) as Hd. pose proof (Z.mod_pos_bound row W ltac:(lia)) as Hb.
  set (r := row mod W) in *. set (q := row / W) in *.
  assert (0 <= 12 * i + r * (12 * C) + j < T) by nia. split; [|done].
  replace (12 * i + row * (12 * C) + j) with ((12 * i + r * (12 * C) + j) + (3 * q * C) * B) by (rewrite Hd; lia).
  rewrite Z_mod_plus_full. rewrite Z.mod_small by lia. lia.
Qed.
Lemma addr i row j : 0 <= i < C -> 0 <= j < 12 -> okrow row -> 0 <= (12 * i + row * (12 * C) + j) mod B < T.
Proof. intros Hi Hj Hr. destruct (addr_eq i row j Hi Hj Hr) as [-> H]. exact H. Qed.
Lemma land_row x b : b mod W = R0 - 1 -> okrow (Z.land x b).
Proof.
  intros Hb. unfold okrow. pose proof (bits_ge p Hp).
  rewrite <- Z.land_ones by lia. rewrite <- Z.land_assoc, Z.land_ones by lia. rewrite Hb.
  pose proof (land_le x (R0 - 1)). lia.
Qed.
Lemma cell_safe i row j : 0 <= i < C -> 0 <= j < 12 -> okrow row -> safe (fun a => 0 <= a < T) (cell p (12 * C) i row j).
Proof. intros. rewrite cell_release. cbn. by apply addr. Qed.
Lemma cell0_eq i j : cell0 p i j = cell p (12 * C) i 0 j.
Proof.
  unfold cell0, cell, imul, iadd. repeat (rewrite chk_i64_release; cbn [obind]).
  rewrite Z.mul_0_l. change (wrap_i64 0) with 0. rewrite Z.add_0_r.
  rewrite (wrap_i64_id (wrap_i64 (as_i64 i * _))) by apply wrap_i64_range. reflexivity.
Qed.
Lemma okrow0 : okrow 0.
Proof. unfold okrow. rewrite Z.mod_0_l; [lia|]. pose proof W_pos. lia. Qed.
Lemma okrow1 : okrow 1.
Proof. unfold okrow. rewrite Z.mod_1_l; [lia|]. pose proof W_pos. pose proof (bits_ge p Hp).
  pose proof (Z.pow_le_mono_r 2 1 (usize_bits p - 2)). lia. Qed.
Lemma cell1_safe i j : 0 <= i < C -> 0 <= j < 12 -> safe (fun a => 0 <= a < T) (cell1_rev p (12 * C) C i j).
Proof.
  intros Hi Hj. pose proof sizes as (HT & H1 & H2 & H3). assert (24 * C <= T) by nia.
  unfold cell1_rev, usub, imul, iadd, as_i64, BLOCKLENINT64. rewrite chk_u64_Ok by lia. cbn [obind].
  rewrite chk_u64_Ok by lia. cbn [obind]. rewrite wrap_i64_id by lia.
  do 3 (rewrite chk_i64_Ok by lia; cbn [obind]). cbn. unfold as_usize. rewrite Z.mod_small by lia. lia.
Qed.
Lemma offs12_in j : j ∈ offs12 -> 0 <= j < 12.
Proof. unfold offs12. rewrite !elem_of_cons, elem_of_nil. lia. Qed.
Lemma rotW_in j s : (j, s) ∈ rotW_pairs -> 0 <= j < 12.
Proof. unfold rotW_pairs. rewrite !elem_of_cons, elem_of_nil. naive_solver lia. Qed.

Lemma squeeze_row0_safe m st : okmem m -> okst st ->
  safe (fun '(m, st) => okmem m /\ okst st) (squeeze_row0 p C m st).
Proof.
  intros Hm Hs. pose proof sizes as (HT & H1 & H2 & H3). unfold squeeze_row0, isub, imul, as_i64, BLOCKLENINT64.
  rewrite (wrap_i64_id C) by lia. rewrite chk_i64_Ok by lia. cbn [obind]. rewrite chk_i64_Ok by lia. cbn [obind].
  eapply safe_bind.
  - apply (safe_for_range (fun i '(m, st, q) => okmem m /\ okst st /\ q = 12 * (C - 1 - i))); [lia| |].
    + split; [done|]. split; [done|]. lia.
    + intros i [[m1 s1] q] Hi (Hm1 & Hs1 & ->). apply (safe_bind _ okmem).
      * apply safe_foldM; [done|]. intros m2 j Hj%offs12_in Hm2. unfold iadd.
        rewrite chk_i64_Ok by lia. cbn [obind]. unfold as_usize.
        assert (12 * C <= T) by nia. rewrite Z.mod_small by lia.
        eapply (safe_Ok okmem); [apply vset_Ok; unfold okmem in Hm2; lia|].
        unfold okmem, vlen in *. by rewrite insert_length.
      * intros m2 Hm2. apply safe_ret. split; [done|]. split; [unfold okst; by rewrite reduced_length|].
        rewrite wrap_i64_id by lia. lia.
  - intros [[m1 s1] q] (Hm1 & Hs1 & _). apply safe_ret. done.
Qed.
Lemma absorb_step_safe (f : Z -> outcome Z) st :
  okst st -> (forall j, 0 <= j < 12 -> safe (fun _ => True) (f j)) ->
  safe okst (foldM (fun st j => x <-- f j ;; Ok (<[Z.to_nat j := Z.lxor (aget st (Z.to_nat j)) x]> st)) offs12 st).
Proof.
  intros Hs Hf. apply safe_foldM; [done|]. intros s j Hj%offs12_in Hs1.
  eapply safe_bind; [by apply Hf|]. intros x _. apply safe_ret. unfold okst in *. by rewrite insert_length.
Qed.
Lemma duplex_row1_safe m st : okmem m -> okst st ->
  safe (fun '(m, st) => okmem m /\ okst st) (duplex_row1 p (12 * C) C m st).
Proof.
  intros Hm Hs. unfold duplex_row1.
  apply (safe_for_range (fun _ '(m, st) => okmem m /\ okst st)); [lia|done|].
  intros i [m1 s1] Hi [Hm1 Hs1]. apply (safe_bind _ okst).
  - apply safe_foldM; [done|]. intros s j Hj%offs12_in Hs2. rewrite cell0_eq.
    eapply safe_bind; [apply cell_safe; [done|done|apply okrow0]|]. intros a Ha. cbv beta in Ha.
    eapply safe_bind; [apply safe_vget; unfold okmem in Hm1; lia|]. intros x _.
    apply safe_ret. unfold okst in *. by rewrite insert_length.
  - intros s2 Hs2. apply (safe_bind _ okmem).
    + apply safe_foldM; [done|]. intros m2 j Hj%offs12_in Hm2. rewrite cell0_eq.
      eapply safe_bind; [apply cell_safe; [done|done|apply okrow0]|]. intros a Ha. cbv beta in Ha.
      eapply safe_bind; [apply safe_vget; unfold okmem in Hm2; lia|]. intros x _.
      eapply safe_bind; [apply cell1_safe; done|]. intros b Hb. cbv beta in Hb.
      eapply (safe_Ok okmem); [apply vset_Ok; unfold okmem in Hm2; lia|].
      unfold okmem, vlen in *. by rewrite insert_length.
    + intros m2 Hm2. apply safe_ret. split; [done|]. unfold okst. by rewrite reduced_length.
Qed.
Lemma duplex_row_safe row prev rowa m st : okrow row -> okrow prev -> okrow rowa -> okmem m -> okst st ->
  safe (fun '(m, st) => okmem m /\ okst st) (duplex_row p (12 * C) C row prev rowa m st).
Proof.
  intros Hr Hq Ha Hm Hs. unfold duplex_row.
  apply (safe_for_range (fun _ '(m, st) => okmem m /\ okst st)); [lia|done|].
  intros i [m1 s1] Hi [Hm1 Hs1]. apply (safe_bind _ okst).
  - unfold absorb_sum. apply safe_foldM; [done|]. intros s j Hj%offs12_in Hs2.
    eapply safe_bind; [apply cell_safe; done|]. intros a Ha1. cbv beta in Ha1.
    eapply safe_bind; [apply safe_vget; unfold okmem in Hm1; lia|]. intros x _.
    eapply safe_bind; [apply cell_safe; done|]. intros b Hb1. cbv beta in Hb1.
    eapply safe_bind; [apply safe_vget; unfold okmem in Hm1; lia|]. intros y _.
    apply safe_ret. unfold okst in *. by rewrite insert_length.
  - intros s2 Hs2. apply (safe_bind _ okmem).
    + apply safe_foldM; [done|]. intros m2 j Hj%offs12_in Hm2.
      eapply safe_bind; [apply cell_safe; done|]. intros a Ha1. cbv beta in Ha1.
      eapply safe_bind; [apply safe_vget; unfold okmem in Hm2; lia|]. intros x _.
      eapply (safe_Ok okmem); [apply vset_Ok; unfold okmem in Hm2; lia|].
      unfold okmem, vlen in *. by rewrite insert_length.
    + intros m2 Hm2. apply (safe_bind _ okmem).
      * unfold xor_rotW. apply safe_foldM; [done|]. intros m3 [j w] Hj%rotW_in Hm3.
        eapply safe_bind; [apply cell_safe; done|]. intros a Ha1. cbv beta in Ha1.
        eapply safe_bind; [apply safe_vget; unfold okmem in Hm3; lia|]. intros x _.
        eapply (safe_Ok okmem); [apply vset_Ok; unfold okmem in Hm3; lia|].
        unfold okmem, vlen in *. by rewrite insert_length.
      * intros m3 Hm3. apply safe_ret. split; [done|]. unfold okst. by rewrite reduced_length.
Qed.
Lemma pred_mod : (R - 1) mod W = R0 - 1.
Proof.
  pose proof W_pos. pose proof (Z.div_mod R W ltac:(lia)). pose proof (Z.mod_pos_bound R W ltac:(lia)).
  symmetry. apply (Z.mod_unique _ _ (R / W)); lia.
Qed.
Lemma wrap_mod_W x : wrap_i64 x mod W = x mod W.
Proof.
  destruct (wrap_shift x) as [q ->]. destruct Hp as [->| ->].
  - replace (q * 2 ^ 64) with ((q * 2 ^ 34) * 2 ^ (32 - 2)) by lia. apply Z_mod_plus_full.
  - replace (q * 2 ^ 64) with ((q * 4) * 2 ^ (64 - 2)) by lia. apply Z_mod_plus_full.
Qed.
Definition okwalk (s : list Z * list Z * Z * Z * Z * Z) : Prop :=
  let '(m, st, _, row, prev, rowa) := s in okmem m /\ okst st /\ okrow row /\ okrow prev /\ okrow rowa.
Lemma wander_next_safe step row : safe okrow (wander_next p R step row).
Proof.
  unfold wander_next, iadd, isub, as_i64. rewrite !chk_i64_release. cbn [obind]. apply safe_ret, land_row.
  rewrite wrap_mod_W. rewrite <- pred_mod.
  destruct (wrap_shift R) as [q ->]. destruct Hp as [->| ->].
  - replace (R + q * 2 ^ 64 - 1) with (R - 1 + (q * 2 ^ 34) * 2 ^ (32 - 2)) by lia. apply Z_mod_plus_full.
  - replace (R + q * 2 ^ 64 - 1) with (R - 1 + (q * 4) * 2 ^ (64 - 2)) by lia. apply Z_mod_plus_full.
Qed.
Lemma wander_pass_safe sel step s : okwalk s -> safe okwalk (wander_pass p sel (12 * C) R C step s).
Proof.
  intros Hs. unfold wander_pass. apply (safe_loop64 okwalk); [done|]. clear s Hs.
  intros [[[[[m st] ix] row] prev] rowa] (Hm & Hs & Hr & Hq & Ha). destruct (sel st ix) as [x ix'].
  unfold usub. rewrite chk_u64_Ok by lia. cbn [obind].
  assert (Hx : okrow (as_i64 (Z.land x (R - 1)))).
  { unfold okrow, as_i64. rewrite wrap_mod_W. apply land_row, pred_mod. }
  eapply safe_bind; [by apply duplex_row_safe|]. intros [m1 s1] [Hm1 Hs1].
  eapply safe_bind; [apply wander_next_safe|]. intros row' Hr'.
  destruct (row' =? 0); apply safe_ret; done.
Qed.
Lemma wander_safe sel t m st prev rowa : 1 <= t -> okmem m -> okst st -> okrow prev -> okrow rowa ->
  safe okwalk (MLyra2.wander p sel (12 * C) t R C m st prev rowa).
Proof.
  intros Ht Hm Hs Hq Ha. unfold MLyra2.wander. apply (safe_for_range (fun _ => okwalk)); [lia| |].
  - unfold okwalk. split_and!; try done. apply okrow0.
  - intros tau s _ Hk. unfold MLyra2.wander_step, isub. rewrite (chk_i64_release (Z.quot (as_i64 R) 2 - 1)). cbn [obind].
    destruct (tau mod 2 =? 0); cbn [obind]; by apply wander_pass_safe.
Qed.
Lemma squeeze_safe st k : okst st -> 0 <= k <= 96 -> safe (fun _ => True) (squeeze p st k).
Proof.
  intros Hl Hk. pose proof (isize_usize p Hp) as Hi. unfold squeeze.
  unfold as_usize. rewrite Z.mod_small by lia.
  unfold vec_zeroed. rewrite (proj2 (Z.leb_le _ _)) by lia. cbn [obind].
  unfold as_i64. rewrite wrap_i64_id by lia.
  change MLyra2.BLOCKLENBYTES with 96. unfold iadd. rewrite Z.quot_div_nonneg by lia.
  assert (0 <= k / 96 <= 1) by (split; [apply Z.div_pos|apply Z.div_le_upper_bound]; lia).
  rewrite chk_i64_Ok by lia. cbn [obind].
  eapply safe_bind; [|intros [[? ?] ?] _; exact I].
  apply (safe_for_range (fun i '(tmp, _, st) => okst st /\ vlen tmp = 96 * i)); [lia|split; [done|reflexivity]|].
  intros i [[tmp out] s] Hii [Hs Ht]. rewrite (squeeze_row_Ok p Hp) by (done || lia). cbn [obind].
  assert (Hv : vlen (tmp ++ rate_bytes s) = 96 * (i + 1)).
  { unfold vlen in *. rewrite app_length, rate_bytes_length by done. lia. }
  rewrite slice_Ok by lia. cbn [obind]. apply safe_ret. split; [unfold okst; by rewrite blake_length|done].
Qed.
Lemma absorb_block_safe st w : okst st -> (12 <= length w)%nat -> safe okst (absorb_block st w).
Proof.
  intros Hs Hw. unfold absorb_block. eapply (safe_bind _ okst).
  - apply safe_foldM; [done|]. intros s j Hj Hs1. unfold xor_in.
    assert ((j < 12)%nat) by (rewrite !elem_of_cons, elem_of_nil in Hj; lia).
    eapply safe_bind; [apply safe_vget; unfold vlen; lia|]. intros x _. apply safe_ret. unfold okst in *. by rewrite insert_length.
  - intros s Hs1. apply safe_ret. unfold okst. by rewrite blake_length.
Qed.
End release.

Section exact.
Context (p : platform) (Hp : known_platform p) (Hrel : overflow_checks p = false).
#[local] Notation B := (2 ^ usize_bits p).
#[local] Notation W := (2 ^ (usize_bits p - 2)).

(** What a call with that many rows allocates. *)
Lemma total_release R C : as_usize p (wrap_i64 (wrap_i64 R * wrap_i64 (12 * wrap_i64 C))) = (12 * (R mod W) * C) mod B.
Proof.
  rewrite as_usize_wrap by done. pose proof (B_W p Hp) as HB. pose proof (W_pos p Hp).
  rewrite <- (as_usize_wrap p Hp), wrap_mul_l, wrap_mul_r, Z.mul_assoc, wrap_mul_r, as_usize_wrap by done.
  pose proof (Z.div_mod R W ltac:(lia)) as Hd. set (r := R mod W) in *. set (q := R / W) in *.
  replace (R * 12 * C) with (12 * r * C + (3 * q * C) * B) by (rewrite Hd; lia). apply Z_mod_plus_full.
Qed.
Definition unchecked_ok (k : Z) (pwd salt : list Z) (t R C : Z) : Prop :=
  1 <= t /\ 2 <= R mod W /\ 0 <= k <= 96 /\ 64 * n_blocks pwd salt <= 96 * (R mod W) * C <= isize_max p.

(** [k] is not restricted here. *)
Lemma unchecked_before sel k pwd salt t R C : rust_args (isize_max p) k pwd salt t R C -> 2 ^ 63 <= R ->
  unchecked_ok 0 pwd salt t R C -> safe okst (before_squeeze p sel k pwd salt t R C).
Proof.
  intros Ha HR (Ht & HR2 & _ & Hsz & Hmax). destruct Ha as (Hkw & Htw & HRw & HCw & [Hbp Hlp] & [Hbs Hls]). unfold word in HRw, HCw, Htw.
  pose proof (isize_usize p Hp) as Hi. pose proof (n_blocks_bounds pwd salt) as Hb.
  pose proof (vlen_nonneg pwd). pose proof (vlen_nonneg salt).
  set (R0 := R mod W) in *. assert (HR0 : R0 = R mod W) by done.
  assert (HC : 1 <= C) by (destruct (Z.eq_dec C 0) as [->|]; lia).
  assert (H3 : 3 <= R < 2 ^ 64) by lia.
  pose proof (sizes p Hp R0 C HR2 HC Hmax) as (HT & HC1 & HC2 & HT2).
  unfold before_squeeze. rewrite (proj2 (Z.ltb_ge t 1)), (proj2 (Z.ltb_ge R 3)) by lia.
  unfold imul at 1. unfold BLOCKLENINT64. rewrite chk_i64_release by done. cbn [obind].
  unfold imul at 1. rewrite chk_i64_release by done. cbn [obind]. unfold as_i64 at 1 2. rewrite total_release. fold R0.
  unfold as_i64. rewrite (wrap_i64_id C), (wrap_i64_id (12 * C)) by lia. rewrite Z.mod_small by lia.
  unfold vec_zeroed. rewrite (proj2 (Z.leb_le _ _)) by lia. cbn [obind].
  rewrite (n_blocks_input_Ok p Hp) by lia. cbn [obind].
  rewrite (write_input_Ok p Hp) by (done || lia). cbn [obind].
  set (m := input_matrix _ _ _ _ _ _ _).
  assert (Hml : vlen m = 12 * R0 * C) by (apply input_matrix_length; lia).
  assert (Hmw : Forall (word 64) m).
  { apply input_matrix_words; try done; unfold word; lia. }
  destruct (absorb_input_Ok p Hp (n_blocks pwd salt) m) as [-> Hst]; [lia|lia|lia|done|].
  cbn [obind]. destruct Hst as [Hst _].
  assert (Hset : safe (fun '(m, st, v) => okmem R0 C m /\ okst st /\ v = rows_init) (MLyra2.setup p (12 * C) R C m
      (absorb_all (chunks 8 (take (Z.to_nat (8 * n_blocks pwd salt)) m))))).
  { unfold MLyra2.setup. eapply safe_bind; [apply (squeeze_row0_safe p Hp R0 C HR2 HC Hmax); done|].
    intros [m1 s1] [Hm1 Hs1]. eapply safe_bind; [apply (duplex_row1_safe p Hp Hrel R0 C HR2 HC Hmax); done|].
    intros [m2 s2] [Hm2 Hs2]. unfold MLyra2.setup_rows. rewrite as_i64_big by lia. change (r_row rows_init) with 2.
    rewrite for_range_foldM by lia. rewrite seqZ_nil by lia. cbn [foldM]. apply safe_ret. done. }
  eapply safe_bind; [exact Hset|]. intros [[m1 s1] v] (Hm1 & Hs1 & ->).
  eapply safe_bind.
  { apply (wander_safe p Hp Hrel R R0 C HR0 H3 HR2 HC Hmax); [lia|done|done| |].
    - exact (okrow1 p Hp R0 HR2).
    - exact (okrow0 p Hp R0 HR2). }
  intros [[[[[m2 s2] ix] row] prev] rowa] (Hm2 & Hs2 & Hr2 & Hq2 & Ha2).
  unfold imul. rewrite chk_i64_release by done. cbn [obind]. rewrite as_usize_wrap by done.
  destruct (addr_eq p Hp R0 C HR2 HC Hmax 0 rowa 0 ltac:(lia) ltac:(lia) Ha2) as [E0 B0].
  destruct (addr_eq p Hp R0 C HR2 HC Hmax (C - 1) rowa 11 ltac:(lia) ltac:(lia) Ha2) as [_ B1].
  rewrite Z.mul_0_r, Z.add_0_l, Z.add_0_r in E0. rewrite E0. unfold okmem in Hm2.
  rewrite split_right_Ok by lia. cbn [obind].
  apply (absorb_block_safe p); [exact Hs2|]. rewrite drop_length. unfold vlen in Hm2. lia.
Qed.
Lemma unchecked_returns sel k pwd salt t R C : rust_args (isize_max p) k pwd salt t R C -> 2 ^ 63 <= R ->
  unchecked_ok k pwd salt t R C -> exists out, lyra2_with p sel k pwd salt t R C = Ok out.
Proof.
  intros Ha HR (Ht & HR2 & Hk & Hsz). pose proof (terminates p Hp sel _ _ _ _ _ _ Ha) as Hf.
  assert (Hsafe : safe (fun _ => True) (lyra2_with p sel k pwd salt t R C)); [|destruct (lyra2_with _ _ _ _ _ _ _ _); eauto; done].
  rewrite (lyra2_with_before p). eapply safe_bind.
  - apply (unchecked_before sel k pwd salt t R C Ha HR). unfold unchecked_ok. lia.
  - intros s3 Hs3. apply (squeeze_safe p Hp); [exact Hs3|lia].
Qed.

Lemma unchecked_fits sel k pwd salt t R C out : rust_args (isize_max p) k pwd salt t R C -> 2 ^ 63 <= R ->
  12 * (R mod W) * C < B -> lyra2_with p sel k pwd salt t R C = Ok out -> unchecked_ok 0 pwd salt t R C.
Proof.
  intros (Hkw & Htw & HRw & HCw & Hpw & Hsa) HR Hfit E0. apply (isize_word p Hp) in Hpw, Hsa. unfold word in HRw, HCw, Htw, Hkw.
  pose proof (isize_usize p Hp) as Hi. revert E0. unfold lyra2_with.
  destruct (t <? 1) eqn:Et; [done|]. destruct (R <? 3) eqn:ER; [done|].
  apply Z.ltb_ge in Et, ER. intros E.
  apply obind_Ok_inv in E as (rl & Erl & E). apply obind_Ok_inv in E as (tot & Etot & E).
  apply obind_Ok_inv in E as (m & Em & E). apply obind_Ok_inv in E as (nb & Enb & E).
  apply obind_Ok_inv in E as (m1 & Em1 & E). apply obind_Ok_inv in E as (st1 & _ & E).
  apply obind_Ok_inv in E as ([[m2 st2] v] & Es & E). clear E.
  unfold imul, BLOCKLENINT64, as_i64 in Erl, Etot. rewrite chk_i64_release in Erl by done. injection Erl as <-.
  rewrite chk_i64_release in Etot by done. injection Etot as <-. rewrite total_release in Em.
  pose proof (W_pos p Hp). pose proof (Z.mod_pos_bound R W ltac:(lia)) as HR0. set (R0 := R mod W) in *.
  assert (0 <= R0 * C) by nia. rewrite Z.mod_small in Em by lia.
  assert (Hl : vlen m = 12 * R0 * C /\ 8 * vlen m <= isize_max p).
  { unfold vec_zeroed in Em. destruct (_ <=? _) eqn:El in Em; [|done]. injection Em as <-.
    apply Z.leb_le in El. unfold vlen. rewrite replicate_length. lia. }
  destruct Hl as [Hl Hm].
  apply (input_inv p Hp _ _ _ _ _ _ _ _ _ (proj1 Hpw) (proj1 Hsa) Hm Enb) in Em1 as [L1 Bin].
  pose proof (n_blocks_bounds pwd salt) as Hnb.
  assert (HC1 : 1 <= C) by (destruct (Z.eq_dec C 0) as [->|]; lia).
  assert (HR1 : 1 <= R0) by (destruct (Z.eq_dec R0 0) as [E|]; [rewrite E in *|]; lia).
  assert (12 * C <= vlen m) by nia.
  rewrite (wrap_i64_id C), (wrap_i64_id (12 * C)) in Es by lia.
  unfold MLyra2.setup in Es. apply obind_Ok_inv in Es as ([m4 st4] & E4 & Es).
  apply (squeeze_row0_inv p Hp) in E4 as [L4 _]; [|lia|lia].
  apply obind_Ok_inv in Es as ([m5 st5] & E5 & _).
  apply (duplex_row1_inv p Hp) in E5 as [_ B5]; [|lia|lia|lia].
  unfold unchecked_ok. fold R0. assert (2 <= R0) by nia. lia.
Qed.
Lemma unchecked_inv sel k pwd salt t R C out : rust_args (isize_max p) k pwd salt t R C -> 2 ^ 63 <= R ->
  usize_bits p = 64 \/ k < 2 ^ 63 -> 12 * (R mod W) * C < B ->
  lyra2_with p sel k pwd salt t R C = Ok out -> unchecked_ok k pwd salt t R C.
Proof.
  intros Ha HR Hk64 Hfit E0. pose proof (unchecked_fits _ _ _ _ _ _ _ _ Ha HR Hfit E0) as (H1 & H2 & _ & H3).
  pose proof (proj1 Ha) as Hkw.
  pose proof (lyra2_with_squeeze _ _ _ _ _ _ _ _ _ E0) as [st0 Hsq]. apply (squeeze_inv p Hp) in Hsq; [|done|done].
  exact (conj H1 (conj H2 (conj (conj (proj1 Hkw) Hsq) H3))).
Qed.
Lemma unchecked_exact k pwd salt t R C : rust_args (isize_max p) k pwd salt t R C -> 2 ^ 63 <= R ->
  usize_bits p = 64 \/ k < 2 ^ 63 -> 12 * (R mod W) * C < B ->
  ((exists out, lyra2 p k pwd salt t R C = Ok out) <-> unchecked_ok k pwd salt t R C) /\
  ((exists out, lyra2mod p k pwd salt t R C = Ok out) <-> unchecked_ok k pwd salt t R C).
Proof.
  intros Ha HR Hk Hfit. split; (split; [intros [out E]; exact (unchecked_inv _ _ _ _ _ _ _ _ Ha HR Hk Hfit E)|]);
    intros H; by apply unchecked_returns.
Qed.
End exact.

(** ** Stale memory *)
Section stale.
Import MAccess SpecAccess.
#[local] Definition spwd : list Z := replicate 256 7.
#[local] Definition log_of {A} (x : outcome (A * list access)) : list access := match x with Ok (_, l) => l | _ => [] end.
#[local] Definition slog : list access := log_of (lyra2_acc release64 4 spwd [] 1 (2 ^ 63 + 4) 1).
#[local] Definition sn : nat := (length (input_accesses 256 0) + 221)%nat.
#[local] Definition is_wr24 (x : access) : bool := match x with Wr a => a =? 24 | _ => false end.
Lemma stale_read : exists out log l1 l2,
  lyra2_acc release64 4 (replicate 256 7) [] 1 (2 ^ 63 + 4) 1 = Ok (out, log) /\
  log = input_accesses 256 0 ++ l1 ++ Rd 24 :: l2 /\ Wr 24 ∉ l1 /\ work log = 90.
Proof.
  eexists _, slog, (take 221 (drop (length (input_accesses 256 0)) slog)), (drop (S sn) slog).
  split; [vm_compute; reflexivity|]. split; [vm_compute; reflexivity|]. split; [|vm_compute; reflexivity].
  assert (H : forall l, existsb is_wr24 l = false -> Wr 24 ∉ l).
  { induction l as [|x l IH]; cbn; intros E; [apply not_elem_of_nil|]. apply orb_false_elim in E as [E1 E2].
    apply not_elem_of_cons. split; [|exact (IH E2)]. intros <-. discriminate E1. }
  apply H. vm_compute. reflexivity.
Qed.
Lemma stale_refuted :
  ~ (forall p k pwd salt t R C out log, known_platform p -> rust_args (isize_max p) k pwd salt t R C ->
       lyra2_acc p k pwd salt t R C = Ok (out, log) ->
       exists rest, log = input_accesses (Z.of_nat (length pwd)) (Z.of_nat (length salt)) ++ rest /\
         forall l1 a l2, rest = l1 ++ Rd a :: l2 -> Wr a ∈ l1).
Proof.
  intros H. destruct stale_read as (out & log & l1 & l2 & E & El & Hn & _).
  destruct (H release64 4 spwd [] 1 (2 ^ 63 + 4) 1 out log (or_intror eq_refl) ltac:(args_tac) E) as (rest & Er & Hr).
  replace (Z.of_nat (length spwd)) with 256 in Er by reflexivity. change (Z.of_nat (length [])) with 0 in Er.
  rewrite El in Er. apply app_inv_head in Er. symmetry in Er. exact (Hn (Hr _ _ _ Er)).
Qed.
End stale.
