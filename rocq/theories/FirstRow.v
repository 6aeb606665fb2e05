(** * The first row chosen in the wandering phase (lemmas for PRowChoice.v) *)
From Verif Require Import Machine MachineFacts MUtils WordFacts Schedule Refine Refine2 RefineInput RefineTop Domain LyraFacts Padding TraceFacts PhaseFacts.
From Verif Require Import SpecWord SpecBlake2b SpecLyra2 SpecCalls SpecSchedule SpecPhases.
From Verif Require MLyra2.
From Verif Require Import MTrace MPhases.
#[local] Opaque blake2b_round MLyra2.duplex_row MLyra2.wander_next.
#[local] Open Scope Z_scope.

Section first.
Context (p : platform) (Hp : known_platform p) (R C : Z) (HR : 3 <= R) (HC : 1 <= C)
  (Hmax : 96 * R * C <= isize_max p) (sel : MLyra2.selector).
Notation row_len := (12 * C).
(** A pass adds to the log, and its first entry is the row chosen from the state it starts with. *)
Lemma pass_first tau step N row prev m st i rowa log s' :
  run_n N (fun '(m, state, index, row, prev, rowa, log) =>
    let '(x, index) := sel state index in
    n1 <-- usub p R 1 ;;
    let rowa := as_i64 (Z.land x n1) in
    '(m, state) <-- MLyra2.duplex_row p row_len C row prev rowa m state ;;
    let log := log ++ [EvWander tau row prev rowa] in
    let prev := row in
    row <-- MLyra2.wander_next p R step row ;;
    let s := (m, state, index, row, prev, rowa, log) in
    if row =? 0 then Ok (inr s) else Ok (inl s)) (m, st, i, row, prev, rowa, log) = Ok (inr s') ->
  exists rest, s'.2 = log ++ EvWander tau row prev (Z.land (sel st i).1 (R - 1)) :: rest.
Proof.
  intros E. destruct N as [|N]; [done|]. cbn [run_n] in E.
  destruct (sel st i) as [x i1]. cbn [fst]. pose proof (R_bound p Hp R C HR HC Hmax) as HRb.
  unfold usub at 1 in E. rewrite chk_u64_Ok in E by lia. cbn [obind] in E.
  rewrite (as_i64_land p Hp R C HR HC Hmax) in E.
  apply obind_Ok_inv in E as (r & E & Er). cbv zeta in E.
  set (ra := Z.land x (R - 1)) in *. clearbody ra.
  apply obind_Ok_inv in E as ([m1 st1] & Ed & E). apply obind_Ok_inv in E as (row1 & _ & E).
  destruct (row1 =? 0); injection E as <-.
  - injection Er as <-. exists []. reflexivity.
  - apply (pass_redo p R C sel) in Er. destruct s' as [[[[[[m' st'] i'] row'] prev'] rowa'] log'].
    destruct Er as (evs & -> & _). exists evs. cbn [snd]. by rewrite <- app_assoc.
Qed.
Lemma wander_first t m st prev rowa s' : 1 <= t < 2 ^ 64 ->
  wander_tr p sel row_len t R C m st prev rowa [] = Ok s' ->
  exists rest, s'.2 = EvWander 1 0 prev (Z.land (sel st 0).1 (R - 1)) :: rest.
Proof.
  intros Ht. unfold wander_tr. intros E.
  apply (for_range_inv (fun j s => (j = 1 -> s = (m, st, 0, 0, prev, rowa, [])) /\
    (1 < j -> exists rest, s.2 = EvWander 1 0 prev (Z.land (sel st 0).1 (R - 1)) :: rest))) in E as [E _].
  - apply E. lia.
  - lia.
  - split; [done|lia].
  - intros tau s s2 Htau [H1 H2] E'. split; [lia|]. intros _.
    apply obind_Ok_inv in E' as (step & _ & E').
    unfold wander_pass_tr in E'. rewrite loop64_run in E'.
    apply obind_Ok_inv in E' as ([?|s3] & Er & [= <-]).
    destruct (decide (tau = 1)) as [->|Hne].
    + rewrite (H1 eq_refl) in Er. apply pass_first in Er. exact Er.
    + destruct (H2 ltac:(lia)) as (rest & Erest). destruct s as [[[[[[m1 s1] i1] r1] p1] ra1] l1].
      cbn [snd] in Erest. apply (pass_redo p R C sel) in Er.
      destruct s3 as [[[[[[m' st'] i'] row'] prev'] rowa'] log']. destruct Er as (evs & -> & _).
      exists (rest ++ evs). cbn [snd]. rewrite Erest. done.
Qed.
End first.

Lemma first_choice p sel choose k pwd salt t R C rl m st ra log : known_platform p -> sel_ok sel choose ->
  rust_args (isize_max p) k pwd salt t R C -> accepted (isize_max p) 0 pwd salt t R C ->
  until_wandering p sel k pwd salt t R C = Ok (rl, m, st, ra, log) ->
  exists rl0 m0 st0 v0 rest, until_setup p k pwd salt t R C = Ok (rl0, m0, st0, v0) /\ state16 st0 /\
    log = EvWander 1 0 (R - 1) (reduce_mask R (choose st0 0).1) :: rest.
Proof.
  intros Hp Hs Ha Hacc E.
  destruct Ha as (Hk & Ht & HRw & HCw & [Hbp _] & [Hbs _]).
  destruct (until_setup_Ok p k pwd salt t R C Hp Hbp Hbs Ht Hk Hacc) as (m0 & st0 & M0 & Hw & Es & HRel).
  unfold until_wandering in E. rewrite Es in E. cbn [obind] in E.
  change (MLyra2.r_prev (rows_at R)) with (R - 1) in E. change (MLyra2.r_rowa (rows_at R)) with (setup_rowa R) in E.
  apply obind_Ok_inv in E as ([[[[[[m1 st1] i1] row1] prev1] rowa1] log1] & E1 & [= <- <- <- <- <-]).
  destruct Hacc as (Ht1 & HR & _ & HC0 & Hsz & Hmax). pose proof (n_blocks_bounds pwd salt).
  assert (HC : 1 <= C) by (destruct (Z.eq_dec C 0) as [->|]; lia).
  apply (wander_first p Hp R C HR HC Hmax sel) in E1 as (rest & E1); [|destruct Ht; lia].
  cbn [snd] in E1. destruct HRel as (_ & Hst & H16). cbn in Hst, H16.
  assert (S16 : state16 st0) by (first [exact H16|rewrite Hst; exact H16]).
  exists (12 * C), m0, st0, (rows_at R), rest. split; [exact Es|]. split; [exact S16|].
  rewrite E1. unfold reduce_mask. by rewrite (proj1 (Hs st0 0 S16)).
Qed.
