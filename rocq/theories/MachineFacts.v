(** * Facts about the Rust semantics of Machine.v *)
From Verif Require Import SpecWord Machine.

(** ** Monad *)
Lemma obind_assoc {A B D} (x : outcome A) (f : A -> outcome B) (h : B -> outcome D) :
  obind (obind x f) h = obind x (fun a => obind (f a) h).
Proof. by destruct x. Qed.
Lemma obind_ext {A B} (x : outcome A) (f h : A -> outcome B) :
  (forall a, x = Ok a -> f a = h a) -> obind x f = obind x h.
Proof. intros H. destruct x; simpl; auto. Qed.
Lemma obind_Ok_inv {A B} (x : outcome A) (f : A -> outcome B) b :
  obind x f = Ok b -> exists a, x = Ok a /\ f a = Ok b.
Proof. destruct x; simpl; try discriminate; eauto. Qed.
Lemma obind_Panic_l {A B} (x : outcome A) (f : A -> outcome B) :
  x = Panic -> obind x f = Panic.
Proof. by intros ->. Qed.
Lemma obind_not_fuel {A B} (x : outcome A) (f : A -> outcome B) :
  x <> OutOfFuel -> (forall a, x = Ok a -> f a <> OutOfFuel) -> obind x f <> OutOfFuel.
Proof. destruct x; simpl; auto. Qed.

Lemma foldM_app {A S} (f : S -> A -> outcome S) l1 l2 s :
  foldM f (l1 ++ l2) s = obind (foldM f l1 s) (foldM f l2).
Proof.
  revert s. induction l1 as [|a l1 IH]; intros s; simpl; [done|].
  rewrite obind_assoc. apply obind_ext. intros. apply IH.
Qed.
Lemma foldM_ext {A S} (f h : S -> A -> outcome S) l s :
  (forall s a, a ∈ l -> f s a = h s a) -> foldM f l s = foldM h l s.
Proof.
  revert s. induction l as [|a l IH]; intros s H; simpl; [done|].
  rewrite H by left. apply obind_ext. intros. apply IH. intros. apply H. by right.
Qed.
(** A fold whose steps all succeed on an invariant. *)
Lemma foldM_Ok {A S} (f : S -> A -> outcome S) (h : S -> A -> S) l s :
  (forall s a, a ∈ l -> f s a = Ok (h s a)) -> foldM f l s = Ok (foldl h s l).
Proof.
  revert s. induction l as [|a l IH]; intros s H; simpl; [done|].
  rewrite H by left. simpl. apply IH. intros. apply H. by right.
Qed.
(** Simulation of a monadic fold by a pure one. *)
Lemma foldM_sim {A S T} (R : S -> T -> Prop) (f : S -> A -> outcome S) (h : T -> A -> T) l s t :
  R s t ->
  (forall s t a, a ∈ l -> R s t -> exists s', f s a = Ok s' /\ R s' (h t a)) ->
  exists s', foldM f l s = Ok s' /\ R s' (foldl h t l).
Proof.
  revert s t. induction l as [|a l IH]; intros s t HR Hstep; simpl; [eauto|].
  destruct (Hstep s t a) as (s' & -> & HR'); [by left|done|]. simpl.
  apply IH; [done|]. intros. apply Hstep; [by right|done].
Qed.
Lemma foldM_not_fuel {A S} (f : S -> A -> outcome S) l s :
  (forall s a, a ∈ l -> f s a <> OutOfFuel) -> foldM f l s <> OutOfFuel.
Proof.
  revert s. induction l as [|a l IH]; intros s H; simpl; [done|].
  apply obind_not_fuel; [apply H; by left|]. intros. apply IH. intros. apply H. by right.
Qed.
Lemma foldM_inv {A S} (P : S -> Prop) (f : S -> A -> outcome S) l s s' :
  P s -> (forall s a s', a ∈ l -> P s -> f s a = Ok s' -> P s') ->
  foldM f l s = Ok s' -> P s'.
Proof.
  revert s. induction l as [|a l IH]; intros s Hs Hf; simpl; [by intros [= <-]|].
  intros (s1 & H1 & H2)%obind_Ok_inv. apply (IH s1); [|intros; eapply Hf; eauto; by right|done].
  eapply Hf; eauto; by left.
Qed.
Lemma foldM_Panic {A S} (f : S -> A -> outcome S) l s a :
  a ∈ l -> (forall s, f s a = Panic) -> (forall s b, b ∈ l -> f s b <> OutOfFuel) ->
  foldM f l s = Panic.
Proof.
  intros Ha Hp. revert s. induction l as [|b l IH]; intros s Hf; [by apply elem_of_nil in Ha|].
  simpl. apply elem_of_cons in Ha as [->|Ha]; [by rewrite Hp|].
  destruct (f s b) eqn:E; simpl; [|done|].
  - apply IH; [done|]. intros. apply Hf. by right.
  - exfalso. eapply Hf; [|exact E]. by left.
Qed.

(** ** Loops *)
Fixpoint run_n {S T} (n : nat) (body : S -> outcome (S + T)) (s : S) : outcome (S + T) :=
  match n with
  | O => Ok (inl s)
  | S n' => r <-- body s ;;
            match r with inl s' => run_n n' body s' | inr t => Ok (inr t) end
  end.
Lemma run_n_add {S T} n m (body : S -> outcome (S + T)) s :
  run_n (n + m) body s =
  (r <-- run_n n body s ;; match r with inl s' => run_n m body s' | inr t => Ok (inr t) end).
Proof.
  revert s. induction n as [|n IH]; intros s; simpl; [done|].
  rewrite obind_assoc. apply obind_ext. intros [s'|t] _; simpl; auto.
Qed.
Lemma loop_pow_run {S T} k (body : S -> outcome (S + T)) s :
  loop_pow k body s = run_n (2 ^ k)%nat body s.
Proof.
  revert s. induction k as [|k IH]; intros s.
  - simpl. destruct (body s) as [[?|?]| |]; done.
  - cbn [loop_pow]. rewrite Nat.pow_succ_r'. replace (2 * 2 ^ k)%nat with (2 ^ k + 2 ^ k)%nat by lia.
    rewrite run_n_add, IH. apply obind_ext. intros [s'|t] _; auto.
Qed.
Lemma pow2_nat_Z k : (2 ^ k)%nat = Z.to_nat (2 ^ Z.of_nat k).
Proof. apply Nat2Z.inj. rewrite Nat2Z.inj_pow, Z2Nat.id; [done|]. apply Z.pow_nonneg. lia. Qed.
Definition fuel64 : nat := Z.to_nat (2 ^ Z.of_nat 64).
Lemma fuel64_Z : Z.of_nat fuel64 = 2 ^ 64.
Proof. unfold fuel64. rewrite Z2Nat.id; [done|]. apply Z.pow_nonneg. lia. Qed.
Lemma loop64_run {S T} (body : S -> outcome (S + T)) s :
  loop64 body s =
  (r <-- run_n fuel64 body s ;; match r with inl _ => OutOfFuel | inr t => Ok t end).
Proof. unfold loop64, fuel64. rewrite loop_pow_run, pow2_nat_Z. reflexivity. Qed.
Global Opaque fuel64 loop64.

Definition range_body {S} (hi : Z) (body : Z -> S -> outcome S) : Z * S -> outcome (Z * S + S) :=
  fun '(i, s) => if i <? hi then s' <-- body i s ;; Ok (inl (i + 1, s')) else Ok (inr s).
Lemma run_range {S} n d lo hi (body : Z -> S -> outcome S) s :
  d = Z.to_nat (hi - lo) -> (d < n)%nat ->
  run_n n (range_body hi body) (lo, s) =
  (s' <-- foldM (fun s i => body i s) (seqZ lo (Z.of_nat d)) s ;; Ok (inr s')).
Proof.
  revert n lo s. induction d as [|d IH]; intros n lo s Hd Hn.
  - destruct n as [|n]; [lia|]. cbn [run_n range_body].
    rewrite seqZ_nil by lia. replace (lo <? hi) with false by lia. done.
  - destruct n as [|n]; [lia|]. cbn [run_n range_body].
    rewrite (seqZ_cons lo) by lia. replace (lo <? hi) with true by lia. simpl.
    rewrite !obind_assoc. apply obind_ext. intros s' _. simpl.
    rewrite (IH n (lo + 1)) by lia. repeat f_equal; lia.
Qed.
(** A [for] loop of fewer than 2^64 iterations is a fold over the range. *)
Lemma for_range_foldM {S} lo hi (body : Z -> S -> outcome S) s :
  hi - lo < 2 ^ 64 ->
  for_range lo hi body s = foldM (fun s i => body i s) (seqZ lo (hi - lo)) s.
Proof.
  intros H. unfold for_range. rewrite loop64_run.
  change (fun '(i, s0) => _) with (range_body hi body).
  rewrite (run_range _ (Z.to_nat (hi - lo))) by (pose proof fuel64_Z; lia).
  rewrite obind_assoc. simpl.
  destruct (decide (0 <= hi - lo)).
  - rewrite Z2Nat.id by lia. by destruct (foldM _ _ _).
  - rewrite !seqZ_nil by lia. done.
Qed.

(** ** Vectors *)
Lemma vget_lookup m i x : vget m i = Ok x <-> 0 <= i /\ m !! Z.to_nat i = Some x.
Proof.
  unfold vget, vlen. destruct (_ && _) eqn:E.
  - apply andb_true_iff in E as [E1 E2]. apply Z.leb_le in E1. apply Z.ltb_lt in E2.
    assert (Hn : (Z.to_nat i < length m)%nat) by lia.
    apply lookup_lt_is_Some in Hn as [y Hy]. erewrite nth_lookup_Some by done.
    rewrite Hy. split; [intros [= ->]; auto|intros [_ [= ->]]; done].
  - split; [done|]. intros [Hi Hl]. apply lookup_lt_Some in Hl.
    apply andb_false_iff in E as [E|E]; [apply Z.leb_gt in E|apply Z.ltb_ge in E]; lia.
Qed.
Lemma vget_Ok m i : 0 <= i < vlen m -> vget m i = Ok (m !!! Z.to_nat i).
Proof.
  intros H. apply vget_lookup. split; [lia|]. apply list_lookup_lookup_total_lt.
  unfold vlen in H. lia.
Qed.
Lemma vget_Panic m i : ~ (0 <= i < vlen m) -> vget m i = Panic.
Proof.
  intros H. unfold vget. destruct (_ && _) eqn:E; [|done]. exfalso. apply H.
  apply andb_true_iff in E as [E1 E2]. lia.
Qed.
Lemma vset_Ok m i x : 0 <= i < vlen m -> vset m i x = Ok (<[Z.to_nat i := x]> m).
Proof.
  intros H. unfold vset. replace (_ && _) with true; [done|].
  symmetry. apply andb_true_iff. split; [apply Z.leb_le|apply Z.ltb_lt]; lia.
Qed.
Lemma vset_Panic m i x : ~ (0 <= i < vlen m) -> vset m i x = Panic.
Proof.
  intros H. unfold vset. destruct (_ && _) eqn:E; [|done]. exfalso. apply H.
  apply andb_true_iff in E as [E1 E2]. lia.
Qed.
Lemma vset_Ok_inv m i x m' :
  vset m i x = Ok m' -> 0 <= i < vlen m /\ m' = <[Z.to_nat i := x]> m.
Proof.
  unfold vset. destruct (_ && _) eqn:E; [|done]. intros [= <-].
  apply andb_true_iff in E as [E1 E2]. split; [lia|done].
Qed.
Lemma vget_Ok_inv m i x : vget m i = Ok x -> 0 <= i < vlen m /\ x = m !!! Z.to_nat i.
Proof.
  intros H. assert (Hr : 0 <= i < vlen m).
  { unfold vget in H. destruct (_ && _) eqn:E; [|done]. apply andb_true_iff in E as [E1 E2]. lia. }
  split; [done|]. rewrite vget_Ok in H by done. congruence.
Qed.
Lemma vget_not_fuel m i : vget m i <> OutOfFuel.
Proof. unfold vget. by destruct (_ && _). Qed.
Lemma vset_not_fuel m i x : vset m i x <> OutOfFuel.
Proof. unfold vset. by destruct (_ && _). Qed.
Lemma vset_vlen m i x m' : vset m i x = Ok m' -> vlen m' = vlen m.
Proof. intros [_ ->]%vset_Ok_inv. unfold vlen. by rewrite insert_length. Qed.
Lemma slice_Ok m s e : 0 <= s <= e -> e <= vlen m ->
  slice m s e = Ok (take (Z.to_nat (e - s)) (drop (Z.to_nat s) m)).
Proof.
  intros. unfold slice. rewrite (proj2 (Z.leb_le 0 s)), (proj2 (Z.leb_le s e)),
    (proj2 (Z.leb_le e (vlen m))) by lia. done.
Qed.
Lemma slice_Panic m s e : vlen m < e -> slice m s e = Panic.
Proof.
  intros. unfold slice. rewrite (proj2 (Z.leb_gt e (vlen m))) by lia.
  by rewrite andb_false_r.
Qed.
Lemma split_right_Ok m i : 0 <= i <= vlen m -> split_right m i = Ok (drop (Z.to_nat i) m).
Proof.
  intros. unfold split_right. by rewrite (proj2 (Z.leb_le 0 i)), (proj2 (Z.leb_le i (vlen m))) by lia.
Qed.
Lemma vlen_nonneg {A} (m : list A) : 0 <= vlen m.
Proof. unfold vlen. lia. Qed.
Lemma aget_total v i : (i < length v)%nat -> aget v i = v !!! i.
Proof.
  intros H. unfold aget. apply lookup_lt_is_Some in H as [x Hx].
  by rewrite (nth_lookup_Some _ _ _ _ Hx), (list_lookup_total_correct _ _ _ Hx).
Qed.

(** ** Machine integers *)
Lemma in_i64_spec x : in_i64 x = true <-> - 2 ^ 63 <= x < 2 ^ 63.
Proof. unfold in_i64. rewrite andb_true_iff. lia. Qed.
Lemma in_u64_spec x : in_u64 x = true <-> 0 <= x < 2 ^ 64.
Proof. unfold in_u64. rewrite andb_true_iff. lia. Qed.
Lemma in_usize_spec p x : in_usize p x = true <-> 0 <= x < 2 ^ usize_bits p.
Proof. unfold in_usize. rewrite andb_true_iff. lia. Qed.
Lemma chk_i64_Ok p x : - 2 ^ 63 <= x < 2 ^ 63 -> chk_i64 p x = Ok x.
Proof. intros H. unfold chk_i64. by rewrite (proj2 (in_i64_spec x) H). Qed.
Lemma chk_u64_Ok p x : 0 <= x < 2 ^ 64 -> chk_u64 p x = Ok x.
Proof. intros H. unfold chk_u64. by rewrite (proj2 (in_u64_spec x) H). Qed.
Lemma chk_usize_Ok p x : 0 <= x < 2 ^ usize_bits p -> chk_usize p x = Ok x.
Proof. intros H. unfold chk_usize. by rewrite (proj2 (in_usize_spec p x) H). Qed.
Lemma chk_i64_not_fuel p x : chk_i64 p x <> OutOfFuel.
Proof. unfold chk_i64. repeat case_match; done. Qed.
Lemma chk_u64_not_fuel p x : chk_u64 p x <> OutOfFuel.
Proof. unfold chk_u64. repeat case_match; done. Qed.
Lemma chk_usize_not_fuel p x : chk_usize p x <> OutOfFuel.
Proof. unfold chk_usize. repeat case_match; done. Qed.
Lemma wrap_i64_range x : - 2 ^ 63 <= wrap_i64 x < 2 ^ 63.
Proof. unfold wrap_i64. pose proof (Z.mod_pos_bound (x + 2 ^ 63) (2 ^ 64)). lia. Qed.
Lemma wrap_i64_id x : - 2 ^ 63 <= x < 2 ^ 63 -> wrap_i64 x = x.
Proof. intros. unfold wrap_i64. rewrite Z.mod_small; lia. Qed.
Lemma wrap_i64_mod x : wrap_i64 x mod 2 ^ 64 = x mod 2 ^ 64.
Proof.
  unfold wrap_i64. rewrite Zminus_mod_idemp_l. f_equal. lia.
Qed.
(** The value of a checked operation is the exact one, up to a multiple of 2^64. *)
Lemma chk_i64_inv p x y : chk_i64 p x = Ok y ->
  - 2 ^ 63 <= y < 2 ^ 63 /\ y = wrap_i64 x.
Proof.
  unfold chk_i64. destruct (in_i64 x) eqn:E.
  - intros [= <-]. apply in_i64_spec in E. by rewrite wrap_i64_id.
  - destruct (overflow_checks p); [done|]. intros [= <-]. split; [apply wrap_i64_range|done].
Qed.
Lemma chk_i64_debug p x y : overflow_checks p = true -> chk_i64 p x = Ok y ->
  - 2 ^ 63 <= x < 2 ^ 63 /\ y = x.
Proof.
  unfold chk_i64. intros ->. destruct (in_i64 x) eqn:E; [|done]. intros [= <-].
  by apply in_i64_spec in E.
Qed.
