(** * With overflow checks, 2^63 rows or more always panic (lemmas for PBigRows.v) *)
From Verif Require Import Machine MachineFacts MLyra2 WordFacts Schedule RefineTop Refine2 Termination Domain LyraFacts PLyra2Lemmas.
From Verif Require Import MTrace TraceFacts.
From Verif Require Import SpecWord SpecLyra2 SpecCalls.
From stdpp Require Import list_numbers.
#[local] Open Scope Z_scope.

(** A loop whose body keeps an invariant that excludes leaving it does not return. *)
Lemma loop64_stays {S T} (I : S -> Prop) (body : S -> outcome (S + T)) s r :
  (forall s s', I s -> body s = Ok s' -> exists s1, s' = inl s1 /\ I s1) -> I s -> loop64 body s = Ok r -> False.
Proof.
  intros Hb Hs. rewrite loop64_run. generalize fuel64. intros n (r1 & E & E1)%obind_Ok_inv.
  assert (exists s1, r1 = inl s1) as [s1 ->]; [|done]. clear E1. revert s Hs E.
  induction n as [|n IH]; intros s Hs E; [injection E as <-; eauto|]. cbn [run_n] in E.
  apply obind_Ok_inv in E as (s' & E1 & E). apply Hb in E1 as (s1 & -> & H1); [|done]. by apply (IH s1).
Qed.

Section big.
Context (p : platform) (Hd : overflow_checks p = true).

Lemma as_i64_big R : 2 ^ 63 <= R < 2 ^ 64 -> as_i64 R = R - 2 ^ 64.
Proof.
  intros HR. unfold as_i64, wrap_i64. rewrite <- (Z.mod_unique (R + 2 ^ 63) (2 ^ 64) 1 (R - 2 ^ 63)); lia.
Qed.
(** From a row that is not positive a negative step leads to a negative row. *)
Lemma next_negative R step row row' : 2 ^ 63 <= R < 2 ^ 64 -> step < 0 -> row <= 0 ->
  wander_next p R step row = Ok row' -> row' < 0.
Proof.
  intros HR Hs Hr (a & Ea & (b & Eb & [= <-])%obind_Ok_inv)%obind_Ok_inv.
  unfold iadd, isub in *. apply chk_i64_debug in Ea as [_ ->]; [|done]. apply chk_i64_debug in Eb as [_ ->]; [|done].
  rewrite as_i64_big by done. apply Z.land_neg. lia.
Qed.
Lemma pass_never_returns sel rl R C step s r : 2 ^ 63 <= R < 2 ^ 64 -> step < 0 -> wrow s <= 0 ->
  wander_pass p sel rl R C step s = Ok r -> False.
Proof.
  intros HR Hst Hs. unfold wander_pass. apply (loop64_stays (fun s => wrow s <= 0)); [|done].
  clear s Hs r. intros [[[[[m st] ix] row] prev] rowa] s' Hr. cbn [wrow] in Hr. destruct (sel st ix) as [x ix'].
  intros (n1 & _ & ([m1 st1] & _ & (row' & En & E)%obind_Ok_inv)%obind_Ok_inv)%obind_Ok_inv.
  apply next_negative in En; [|done..]. replace (row' =? 0) with false in E by lia. injection E as <-.
  eexists. split; [done|]. cbn [wrow]. lia.
Qed.
Lemma wander_never_returns sel rl t R C m st prev rowa r : 2 ^ 63 <= R < 2 ^ 64 -> 1 <= t < 2 ^ 64 ->
  MLyra2.wander p sel rl t R C m st prev rowa = Ok r -> False.
Proof.
  intros HR Ht. unfold MLyra2.wander. rewrite for_range_foldM by lia.
  rewrite seqZ_cons by lia. cbn [foldM]. intros (s1 & (step & Es & E)%obind_Ok_inv & _)%obind_Ok_inv. revert E.
  unfold wander_step in Es. apply obind_Ok_inv in Es as (b & Eb & Es). change (1 mod 2 =? 0) with false in Es.
  injection Es as ->. unfold isub in Eb. apply chk_i64_debug in Eb as [_ ->]; [|done].
  apply pass_never_returns; [done| |cbn; lia].
  rewrite as_i64_big by done. pose proof (Z.quot_pos (2 ^ 64 - R) 2 ltac:(lia) ltac:(lia)).
  replace (R - 2 ^ 64) with (- (2 ^ 64 - R)) by lia. rewrite Z.quot_opp_l by lia. lia.
Qed.
Lemma big_rows_no_return sel k pwd salt t R C out : 2 ^ 63 <= R < 2 ^ 64 -> t < 2 ^ 64 ->
  lyra2_with p sel k pwd salt t R C = Ok out -> False.
Proof.
  intros HR Ht. unfold lyra2_with. destruct (t <? 1) eqn:Et; [done|]. apply Z.ltb_ge in Et.
  destruct (R <? 3); [done|]. intros E.
  do 6 apply obind_Ok_inv in E as (? & _ & E). apply obind_Ok_inv in E as ([[m2 st2] v] & _ & E).
  apply obind_Ok_inv in E as (r & Ew & _). by apply wander_never_returns in Ew.
Qed.
End big.

Lemma big_rows_panic p sel k pwd salt t R C :
  known_platform p -> overflow_checks p = true -> rust_args (isize_max p) k pwd salt t R C -> 2 ^ 63 <= R ->
  lyra2_with p sel k pwd salt t R C = Panic.
Proof.
  intros Hp Hd Ha HR. pose proof (terminates p Hp sel _ _ _ _ _ _ Ha) as Hf.
  destruct Ha as (_ & [_ Ht] & [_ HR2] & _).
  destruct (lyra2_with _ _ _ _ _ _ _ _) as [out| |] eqn:E; [|done|done].
  apply big_rows_no_return in E; [done|done|done|done].
Qed.
Lemma big_rows_panic_2 p k pwd salt t R C :
  known_platform p -> overflow_checks p = true -> rust_args (isize_max p) k pwd salt t R C -> 2 ^ 63 <= R ->
  lyra2 p k pwd salt t R C = Panic /\ lyra2mod p k pwd salt t R C = Panic.
Proof. intros Hp Hd Ha HR. split; by apply big_rows_panic. Qed.
Lemma dichotomy_debug p k pwd salt t R C :
  known_platform p -> overflow_checks p = true -> rust_args (isize_max p) k pwd salt t R C ->
  usize_bits p = 64 \/ k < 2 ^ 63 ->
  accepted (isize_max p) k pwd salt t R C /\
    lyra2 p k pwd salt t R C = Ok (Lyra2_code choose_first k pwd salt t R C) /\
    lyra2mod p k pwd salt t R C = Ok (Lyra2_code choose_rev3 k pwd salt t R C) \/
  ~ accepted (isize_max p) k pwd salt t R C /\
    lyra2 p k pwd salt t R C = Panic /\ lyra2mod p k pwd salt t R C = Panic.
Proof.
  intros Hp Hd Ha Hk. destruct (decide (accepted (isize_max p) k pwd salt t R C)) as [Hacc|Hacc].
  - left. split; [done|]. split.
    + by apply (returns p Hp _ _ k pwd salt t R C sel_lyra2_ok).
    + by apply (returns p Hp _ _ k pwd salt t R C (sel_lyra2mod_ok p Hp)).
  - right. split; [done|]. destruct (Z.lt_ge_cases R (2 ^ 63)) as [HR|HR].
    + split; (apply (panics p Hp); [done|by left|done|done]).
    + by apply big_rows_panic_2.
Qed.

(** ** The log of a call with 2^63 rows or more *)
Lemma setup_ops_absorbs l : setup_ops (EvAbsorb <$> l) = [].
Proof. unfold setup_ops. induction l; [done|exact IHl]. Qed.
Section log.
Context (p : platform).
Lemma absorb_tr_setup nb m st st' log : nb < 2 ^ 64 -> absorb_input_tr p nb m st = Ok (st', log) -> setup_ops log = [].
Proof.
  intros Hnb. unfold absorb_input_tr. intros ([[s q] l] & E & [= -> ->])%obind_Ok_inv.
  rewrite for_range_foldM in E by lia.
  apply (foldM_inv (fun s => setup_ops s.2 = [])) in E; [exact E|done|].
  clear. intros [[s q] l] j s' _ H (r & _ & (s1 & _ & (q1 & _ & [= <-])%obind_Ok_inv)%obind_Ok_inv)%obind_Ok_inv.
  cbn [snd] in *. unfold setup_ops in *. rewrite omap_app, H. done.
Qed.
Lemma wander_tr_setup sel rl t R C m st prev rowa log s : t < 2 ^ 64 ->
  wander_tr p sel rl t R C m st prev rowa log = Ok s -> setup_ops s.2 = setup_ops log.
Proof.
  intros Ht. unfold wander_tr. rewrite for_range_foldM by lia. intros E.
  apply (foldM_inv (fun s => setup_ops s.2 = setup_ops log)) in E; [exact E|done|].
  clear. intros s tau s' _ H (step & _ & E)%obind_Ok_inv. unfold wander_pass_tr in E.
  rewrite loop64_run in E. revert E. generalize fuel64. intros n (r1 & E & E1)%obind_Ok_inv.
  assert (Hr : setup_ops (match r1 with inl x => x | inr x => x end).2 = setup_ops log).
  { clear E1. revert s H E. induction n as [|n IH]; intros s H E; [injection E as <-; exact H|]. cbn [run_n] in E.
    apply obind_Ok_inv in E as (r & Eb & E). destruct s as [[[[[[m st] ix] row] prev] rowa] l].
    destruct (sel st ix) as [x ix'].
    apply obind_Ok_inv in Eb as (n1 & _ & Eb). apply obind_Ok_inv in Eb as ([m1 st1] & _ & Eb).
    apply obind_Ok_inv in Eb as (row' & _ & Eb). cbn [snd] in H.
    assert (Hl : setup_ops (l ++ [EvWander tau row prev (as_i64 (Z.land x n1))]) = setup_ops log).
    { unfold setup_ops in *. rewrite omap_app, H. cbn. by rewrite app_nil_r. }
    destruct (row' =? 0); injection Eb as <-.
    - injection E as <-. exact Hl.
    - eapply IH; [|exact E]. exact Hl. }
  destruct r1; [done|]. injection E1 as <-. exact Hr.
Qed.
Lemma big_rows_no_setup (Hp : known_platform p) sel k pwd salt t R C out log :
  rust_args (isize_max p) k pwd salt t R C -> 2 ^ 63 <= R ->
  lyra2_with_tr p sel k pwd salt t R C = Ok (out, log) -> overflow_checks p = false /\ setup_ops log = [].
Proof.
  intros Ha HR E0. pose proof Ha as (_ & [_ Ht] & [_ HR2] & _ & Hpw & Hsa). split.
  { destruct (overflow_checks p) eqn:Ed; [|done].
    pose proof (lyra2_with_tr_erase p sel k pwd salt t R C) as He.
    rewrite E0, (big_rows_panic p sel k pwd salt t R C Hp Ed Ha HR) in He. done. }
  pose proof E0 as E. unfold lyra2_with_tr in E.
  destruct (t <? 1); [done|]. destruct (R <? 3); [done|].
  do 3 apply obind_Ok_inv in E as (? & _ & E).
  apply obind_Ok_inv in E as (nb & Enb & E). apply obind_Ok_inv in E as (m1 & _ & E).
  apply obind_Ok_inv in E as ([st1 log1] & E1 & E).
  apply obind_Ok_inv in E as ([[[m2 st2] v] log2] & E2 & E).
  apply obind_Ok_inv in E as ([[[[[[m3 st3] i3] r3] p3] a3] log3] & E3 & E).
  do 4 apply obind_Ok_inv in E as (? & _ & E). injection E as _ <-.
  apply wander_tr_setup in E3; [|done]. cbn [snd] in E3. rewrite E3.
  unfold setup_tr in E2. do 2 apply obind_Ok_inv in E2 as ([? ?] & _ & E2).
  unfold setup_rows_tr in E2. rewrite as_i64_big in E2 by lia.
  change (r_row rows_init) with 2 in E2. rewrite for_range_foldM in E2 by lia. rewrite seqZ_nil in E2 by lia. cbn [foldM] in E2.
  injection E2 as <- <- <- <-. apply absorb_tr_setup in E1; [done|].
  unfold n_blocks_input in Enb. apply obind_Ok_inv in Enb as (? & _ & (? & _ & Enb)%obind_Ok_inv).
  apply chk_i64_inv in Enb as [Hnb _]. lia.
Qed.
End log.
Lemma big_rows_no_setup_2 p k pwd salt t R C out log :
  known_platform p -> rust_args (isize_max p) k pwd salt t R C -> 2 ^ 63 <= R ->
  lyra2_tr p k pwd salt t R C = Ok (out, log) \/ lyra2mod_tr p k pwd salt t R C = Ok (out, log) ->
  overflow_checks p = false /\ setup_ops log = [].
Proof. intros Hp Ha HR [E|E]; exact (big_rows_no_setup p Hp _ k pwd salt t R C out log Ha HR E). Qed.
Lemma checks_only_remove p p' k pwd salt t R C out :
  known_platform p -> usize_bits p = usize_bits p' -> overflow_checks p = true ->
  rust_args (isize_max p) k pwd salt t R C ->
  (lyra2 p k pwd salt t R C = Ok out -> lyra2 p' k pwd salt t R C = Ok out) /\
  (lyra2mod p k pwd salt t R C = Ok out -> lyra2mod p' k pwd salt t R C = Ok out).
Proof.
  intros Hp Hu Hd Ha. destruct (Z.lt_ge_cases R (2 ^ 63)) as [HR|HR].
  - destruct (profiles_agree_both p p' k pwd salt t R C Hp Hu Ha HR) as [-> ->]. done.
  - destruct (big_rows_panic_2 p k pwd salt t R C Hp Hd Ha HR) as [-> ->]. done.
Qed.
Lemma big_rows_refuted :
  ~ (forall p k pwd salt t R C, known_platform p -> rust_args (isize_max p) k pwd salt t R C -> 2 ^ 63 <= R ->
       lyra2 p k pwd salt t R C = Panic) /\
  (exists out, lyra2 release64 8 [1] [2] 1 (2 ^ 63 + 4) 1 = Ok out) /\
  (exists out, lyra2 release32 8 [1] [2] 1 (2 ^ 63 + 4) 1 = Ok out).
Proof.
  assert (E : exists out, lyra2 release64 8 [1] [2] 1 (2 ^ 63 + 4) 1 = Ok out) by (eexists; vm_compute; reflexivity).
  split; [|split; [exact E|eexists; vm_compute; reflexivity]].
  intros H. destruct E as [out E]. rewrite H in E; [discriminate E|by right|args_tac|lia].
Qed.
