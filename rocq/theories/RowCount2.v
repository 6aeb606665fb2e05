(** * Counting the states that choose a row (lemmas for PRowChoice.v) *)
From stdpp Require Import list_numbers.
From Verif Require Import Machine MachineFacts RowCount.
From Verif Require Import SpecWord SpecLyra2 SpecRowChoice.
#[local] Open Scope Z_scope.

Definition sum_over {A} (f : A -> Z) (l : list A) : Z := foldr (fun a acc => f a + acc) 0 l.
Lemma sum_ext {A} (f g : A -> Z) l : (forall a, a ∈ l -> f a = g a) -> sum_over f l = sum_over g l.
Proof.
  intros H. unfold sum_over. induction l as [|a l IH]; [done|]. cbn. rewrite (H a) by apply elem_of_list_here.
  f_equal. apply IH. intros b Hb. apply H. by apply elem_of_list_further.
Qed.
Lemma sum_app {A} (f : A -> Z) l l' : sum_over f (l ++ l') = sum_over f l + sum_over f l'.
Proof. unfold sum_over. induction l as [|a l IH]; [done|]. cbn. rewrite IH. lia. Qed.
Lemma sum_lin {A} (f : A -> Z) c d l : sum_over (fun a => c * f a + d) l = c * sum_over f l + d * Z.of_nat (length l).
Proof.
  unfold sum_over. induction l as [|a l IH]; [cbn; lia|]. cbn [foldr length]. rewrite IH, Nat2Z.inj_succ. lia.
Qed.
Lemma sum_bind {A B} (f : B -> Z) (g : A -> list B) l : sum_over f (l ≫= g) = sum_over (fun a => sum_over f (g a)) l.
Proof.
  induction l as [|a l IH]; [done|]. change ((a :: l) ≫= g) with (g a ++ (l ≫= g)).
  rewrite sum_app, IH. reflexivity.
Qed.
Lemma sum_fmap {A B} (f : B -> Z) (h : A -> B) l : sum_over f (h <$> l) = sum_over (fun a => f (h a)) l.
Proof. unfold sum_over. induction l as [|a l IH]; [done|]. cbn. by rewrite IH. Qed.
Lemma len_filter {A} (P : A -> Prop) `{!forall x, Decision (P x)} l :
  Z.of_nat (length (filter P l)) = sum_over (fun a => if decide (P a) then 1 else 0) l.
Proof.
  unfold sum_over. induction l as [|a l IH]; [done|]. cbn [foldr]. rewrite <- IH, filter_cons.
  destruct (decide (P a)); cbn [length]; lia.
Qed.
Lemma len_sum {A} (l : list A) : Z.of_nat (length l) = sum_over (fun _ => 1) l.
Proof. unfold sum_over. induction l as [|a l IH]; [done|]. cbn [foldr length]. rewrite <- IH. lia. Qed.

(** ** The list of all states *)
Definition N : Z := 2 ^ 64.
Lemma N_eq : 2 ^ 64 = N. Proof. reflexivity. Qed.
Lemma N_pos : 0 < N. Proof. unfold N. lia. Qed.
Lemma states_0 : all_states 0 = [[]]. Proof. reflexivity. Qed.
Lemma states_S n : all_states (S n) = all_states n ≫= fun s => (fun w => w :: s) <$> seqZ 0 N.
Proof. rewrite <- N_eq. reflexivity. Qed.
Lemma states_elem n : forall s, s ∈ all_states n <-> length s = n /\ Forall (word 64) s.
Proof.
  induction n as [|n IH]; intros s.
  - cbn. rewrite elem_of_list_singleton. split; [intros ->; done|]. intros [H _]. by destruct s.
  - rewrite states_S, elem_of_list_bind. split.
    + intros (s0 & (w & -> & Hw)%elem_of_list_fmap & Hs). apply IH in Hs as [<- HF]. split; [done|].
      apply elem_of_seqZ in Hw. rewrite <- N_eq in Hw. constructor; [split; lia|done].
    + intros [Hl HF]. destruct s as [|w s]; [done|]. apply Forall_cons in HF as [[Hw Hw'] HF]. exists s. split.
      * apply elem_of_list_fmap. exists w. split; [done|]. apply elem_of_seqZ. rewrite <- N_eq. lia.
      * apply IH. split; [by injection Hl|done].
Qed.
Lemma states_nodup n : NoDup (all_states n).
Proof.
  induction n as [|n IH]; [apply NoDup_singleton|]. rewrite states_S.
  induction IH as [|s l Hs Hl IH]; [apply NoDup_nil_2|].
  change ((s :: l) ≫= (fun s => (fun w => w :: s) <$> seqZ 0 N))
    with (((fun w => w :: s) <$> seqZ 0 N) ++ (l ≫= (fun s => (fun w => w :: s) <$> seqZ 0 N))).
  apply NoDup_app. split; [|split; [|exact IH]].
  - apply NoDup_fmap_2; [|apply NoDup_seqZ]. intros w w' [= ->]. done.
  - intros x (w & -> & _)%elem_of_list_fmap (s' & (w' & [= _ <-] & _)%elem_of_list_fmap & Hs')%elem_of_list_bind. done.
Qed.
Lemma states_length n : Z.of_nat (length (all_states n)) = N ^ Z.of_nat n.
Proof.
  induction n as [|n IH]; [done|]. rewrite states_S, len_sum, sum_bind.
  rewrite (sum_ext _ (fun _ => 0 * 0 + N)).
  - rewrite (sum_lin (fun _ => 0) 0 N), IH, Nat2Z.inj_succ, Z.pow_succ_r by lia. lia.
  - intros s _. rewrite sum_fmap, <- len_sum, seqZ_length. pose proof N_pos. lia.
Qed.

(** ** Lyra2REv3 *)
#[local] Opaque cnt words_choosing N all_states.
Lemma congruent_count e r : 0 <= e <= 64 -> 0 <= r < 2 ^ e -> 2 ^ e * cnt (fun w => w mod 2 ^ e) r N = N.
Proof.
  intros He Hr. assert (E : N = 2 ^ e * 2 ^ (64 - e)) by (rewrite <- N_eq, <- Z.pow_add_r by lia; f_equal; lia).
  rewrite E at 1. rewrite (cnt_periodic (fun x => x)), cnt_id by lia. lia.
Qed.
Lemma congruent_sum e r n : 0 <= e <= 64 -> 0 <= r < 2 ^ e ->
  2 ^ e * sum_over (words_congruent (2 ^ e) r) (all_states n) = Z.of_nat n * N ^ Z.of_nat n.
Proof.
  intros He Hr. induction n as [|n IH]; [rewrite states_0; cbn [sum_over foldr]; change (words_congruent (2 ^ e) r []) with 0; lia|].
  rewrite states_S, sum_bind.
  rewrite (sum_ext _ (fun s => N * words_congruent (2 ^ e) r s + cnt (fun w => w mod 2 ^ e) r N)).
  - rewrite sum_lin, states_length. rewrite Z.mul_add_distr_l.
    replace (2 ^ e * (N * sum_over (words_congruent (2 ^ e) r) (all_states n)))
      with (N * (2 ^ e * sum_over (words_congruent (2 ^ e) r) (all_states n))) by ring.
    rewrite IH. pose proof (congruent_count e r He Hr) as Ec. set (c := cnt _ r N) in *. clearbody c.
    replace (2 ^ e * (c * N ^ Z.of_nat n)) with ((2 ^ e * c) * N ^ Z.of_nat n) by ring. rewrite Ec.
    rewrite Nat2Z.inj_succ, Z.pow_succ_r by lia. ring.
  - intros s _. rewrite sum_fmap.
    rewrite (sum_ext _ (fun w => 1 * (if decide (w mod 2 ^ e = r) then 1 else 0) + words_congruent (2 ^ e) r s)).
    + rewrite sum_lin, <- (len_filter (fun w => w mod 2 ^ e = r)), seqZ_length, <- cnt_unfold.
      pose proof N_pos. rewrite Z2Nat.id by lia. lia.
    + intros w _. unfold words_congruent. rewrite filter_cons. destruct (decide (w mod 2 ^ e = r)); cbn [length]; lia.
Qed.
Lemma states_choosing_sum f r :
  states_choosing f r = sum_over (fun s => words_choosing (fun w => f (w :: s)) r) (all_states 15).
Proof.
  unfold states_choosing. rewrite states_S, len_filter, sum_bind. apply sum_ext. intros s _.
  rewrite sum_fmap. rewrite wc_cnt, cnt_unfold, N_eq. symmetry. apply (len_filter (fun w => f (w :: s) = r)).
Qed.
Lemma rev3_states_4 e r : 0 <= e <= 4 -> 0 <= r < 2 ^ e ->
  16 * 2 ^ e * states_choosing (fun s => reduce_mask (2 ^ e) (fst (choose_rev3 s 0))) r =
  2 ^ 1024 * (15 + (if r =? 0 then 2 ^ e else 0)).
Proof.
  intros He Hr. rewrite states_choosing_sum.
  set (b := if r =? 0 then 1 else 0).
  rewrite (sum_ext _ (fun s => 2 ^ 60 * words_congruent (2 ^ e) r s + 2 ^ 60 * b)).
  - rewrite sum_lin, states_length. change (Z.of_nat 15) with 15.
    pose proof (congruent_sum e r 15 ltac:(lia) Hr) as E. change (Z.of_nat 15) with 15 in E.
    replace (if r =? 0 then 2 ^ e else 0) with (2 ^ e * b) by (unfold b; destruct (r =? 0); lia).
    replace (2 ^ 1024) with (16 * 2 ^ 60 * N ^ 15) by (rewrite <- N_eq; reflexivity).
    set (S := sum_over _ _) in *. clearbody S. clearbody b.
    replace (16 * 2 ^ e * (2 ^ 60 * S + 2 ^ 60 * b * N ^ 15)) with (16 * 2 ^ 60 * (2 ^ e * S) + 16 * 2 ^ 60 * 2 ^ e * b * N ^ 15) by ring.
    rewrite E. ring.
  - intros s Hs. apply states_elem in Hs as [Hs _]. rewrite rev3_count by done.
    unfold words_congruent. rewrite filter_cons. assert (0 < 2 ^ e) by (apply Z.pow_pos_nonneg; lia).
    rewrite Z.mod_0_l by lia. unfold b. destruct (decide (0 = r)) as [<-|Hne].
    + cbn [length Z.eqb]. rewrite Nat2Z.inj_succ. lia.
    + replace (r =? 0) with false by lia. lia.
Qed.
Lemma rev3_states_16 e r : 4 <= e <= 64 -> 0 <= r < 2 ^ e ->
  16 * 2 ^ e * states_choosing (fun s => reduce_mask (2 ^ e) (fst (choose_rev3 s 0))) r =
  2 ^ 1024 * (15 + (if r mod 16 =? 0 then 16 else 0)).
Proof.
  intros He Hr. rewrite states_choosing_sum.
  set (b := if r mod 16 =? 0 then 1 else 0).
  rewrite (sum_ext _ (fun s => 2 ^ 60 * words_congruent (2 ^ e) r s + 2 ^ (64 - e) * b)).
  - rewrite sum_lin, states_length. change (Z.of_nat 15) with 15.
    pose proof (congruent_sum e r 15 ltac:(lia) Hr) as E. change (Z.of_nat 15) with 15 in E.
    replace (if r mod 16 =? 0 then 16 else 0) with (16 * b) by (unfold b; destruct (r mod 16 =? 0); lia).
    replace (2 ^ 1024) with (16 * 2 ^ 60 * N ^ 15) by (rewrite <- N_eq; reflexivity).
    assert (E' : 16 * 2 ^ 60 = 2 ^ e * 2 ^ (64 - e)) by (rewrite <- Z.pow_add_r by lia; replace (e + (64 - e)) with 64 by lia; done).
    set (S := sum_over _ _) in *. clearbody S. clearbody b. set (d := 2 ^ (64 - e)) in *. clearbody d.
    replace (16 * 2 ^ e * (2 ^ 60 * S + d * b * N ^ 15)) with (16 * 2 ^ 60 * (2 ^ e * S) + 16 * (2 ^ e * d) * b * N ^ 15) by ring.
    rewrite E, <- E'. ring.
  - intros s Hs. apply states_elem in Hs as [Hs _]. rewrite rev3_count_16 by done.
    unfold b. destruct (r mod 16 =? 0); lia.
Qed.
Lemma rev3_states e r : 0 <= e <= 64 -> 0 <= r < 2 ^ e ->
  16 * 2 ^ e * states_choosing (fun s => reduce_mask (2 ^ e) (fst (choose_rev3 s 0))) r =
  2 ^ 1024 * (15 + (if r mod Z.min (2 ^ e) 16 =? 0 then Z.min (2 ^ e) 16 else 0)).
Proof.
  intros He Hr. destruct (Z.le_gt_cases e 4) as [H4|H4].
  - assert (2 ^ e <= 2 ^ 4) by (apply Z.pow_le_mono_r; lia). change (2 ^ 4) with 16 in *.
    rewrite Z.min_l, Z.mod_small by lia. apply rev3_states_4; lia.
  - assert (2 ^ 4 <= 2 ^ e) by (apply Z.pow_le_mono_r; lia). change (2 ^ 4) with 16 in *.
    rewrite Z.min_r by lia. apply rev3_states_16; lia.
Qed.
Lemma first_states e r : 0 <= e <= 64 -> 0 <= r < 2 ^ e ->
  2 ^ e * states_choosing (fun s => reduce_mask (2 ^ e) (fst (choose_first s 0))) r = 2 ^ 1024.
Proof.
  intros He Hr. rewrite states_choosing_sum.
  rewrite (sum_ext _ (fun _ => 0 * 0 + 2 ^ (64 - e))).
  - rewrite (sum_lin (fun _ => 0)), states_length. change (Z.of_nat 15) with 15.
    replace (2 ^ 1024) with (N * N ^ 15) by (rewrite <- N_eq; reflexivity).
    assert (E : N = 2 ^ e * 2 ^ (64 - e)) by (rewrite <- N_eq, <- Z.pow_add_r by lia; f_equal; lia).
    rewrite E at 2. ring.
  - intros s _. rewrite Z.mul_0_l, Z.add_0_l. rewrite <- (row_count_pow2 e r He Hr). reflexivity.
Qed.
