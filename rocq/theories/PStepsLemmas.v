(** * Lemmas behind the theorems of PSteps.v *)
From Verif Require Import Machine MachineFacts MUtils WordFacts Schedule Refine Refine2 RefineInput RefineTop Domain LyraFacts Padding Coverage.
From Verif Require Import SpecWord SpecBlake2b SpecLyra2 SpecCalls SpecSchedule.
From Verif Require MLyra2 SrcLyra2Log SrcLyra2modLog.
From Verif Require Import MTrace TraceFacts MAccess SpecAccess AccessFacts PLyra2Lemmas PScheduleLemmas PAccessLemmas PSrcLogLemmas SpecSteps StepFacts.
#[local] Open Scope Z_scope.
#[local] Opaque blake2b_round.

Lemma wander_ops_events l : wander_ops (l ≫= ev_of) = l.
Proof.
  induction l as [|[[[tau row] prev] rowa] l IH]; [done|]. rewrite bind_cons.
  change (wander_ops (ev_of (tau, row, prev, rowa) ++ (l ≫= ev_of))) with ((tau, row, prev, rowa) :: wander_ops (l ≫= ev_of)).
  by rewrite IH.
Qed.

Section steps.
Context (p : platform) (Hp : known_platform p).
Context (sel : MLyra2.selector) (choose : chooser) (Hsel : sel_ok sel choose).
Context (k : Z) (pwd salt : list Z) (t R C : Z).
Context (Ha : rust_args (isize_max p) k pwd salt t R C) (HR63 : R < 2 ^ 63).

Lemma steps_exact out log : lyra2_with_tr p sel k pwd salt t R C = Ok (out, log) ->
  absorbed log = code_blocks k pwd salt t R C /\ setup_ops log = setup_schedule R /\
  wander_ops log = wander_steps choose (code_blocks k pwd salt t R C) t R C.
Proof.
  intros E. split; [exact (log_absorbed p Hp sel k pwd salt t R C out log Ha HR63 E)|].
  split; [exact (log_setup p Hp sel k pwd salt t R C out log Ha HR63 E)|].
  pose proof (log_accepted p Hp sel k pwd salt t R C out log Ha HR63 E) as Hacc.
  rewrite (top_tr p Hp sel choose Hsel k pwd salt t R C Ha Hacc out log E).
  unfold wander_ops. rewrite !omap_app. rewrite !omap_fmap_None by done. cbn [app].
  exact (wander_ops_events _).
Qed.
Context (Hk : usize_bits p = 64 \/ k < 2 ^ 63).
Lemma steps_replayed out log : lyra2_with_tr p sel k pwd salt t R C = Ok (out, log) ->
  out = replay_key k C (absorbed log) (setup_ops log) (wander_ops log).
Proof.
  intros E. destruct (steps_exact out log E) as (-> & -> & ->).
  pose proof (lyra2_with_tr_erase p sel k pwd salt t R C) as Er. rewrite E in Er. cbn [obind fst] in Er.
  destruct (decide (accepted (isize_max p) k pwd salt t R C)) as [Hacc|H].
  - rewrite (returns p Hp sel choose k pwd salt t R C Hsel Ha Hacc) in Er. injection Er as ->.
    destruct Hacc as (Ht & HR & _). unfold replay_key, Lyra2_code, lyra2_key. by rewrite replay_steps.
  - rewrite (panics p Hp sel k pwd salt t R C Ha (or_introl HR63) Hk H) in Er. discriminate Er.
Qed.
Lemma steps_accessed out log out' steps :
  lyra2_with_acc p sel k pwd salt t R C = Ok (out, log) ->
  lyra2_with_tr p sel k pwd salt t R C = Ok (out', steps) ->
  out = out' /\
  log = steps_accesses k (Z.of_nat (length pwd)) (Z.of_nat (length salt)) C (setup_ops steps) (wander_ops steps).
Proof.
  intros E E'. split.
  { pose proof (lyra2_with_tr_erase p sel k pwd salt t R C) as Er. rewrite <- lyra2_with_acc_erase, E, E' in Er.
    cbn in Er. by injection Er. }
  destruct (steps_exact out' steps E') as (_ & -> & ->).
  pose proof (log_accepted p Hp sel k pwd salt t R C out' steps Ha HR63 E') as Hacc.
  pose proof (acc_accepted p Hp sel k pwd salt t R C out log Ha HR63 Hk E) as (_ & _ & Hk96 & _).
  rewrite lyra2_with_acc_before in E. apply abind_inv in E as (st & l1 & l2 & E1 & E2 & ->).
  rewrite (top_acc p Hp sel choose Hsel k pwd salt t R C Ha Hacc st l1 E1).
  apply (logs_squeeze p) in E2; [|done]. rewrite E2.
  unfold steps_accesses, final_accesses, setup_accesses, setup_schedule, vlen.
  assert (Es : (((fun row => (row, row - 1, setup_rowa row)) <$> seqZ 2 (R - 2)) ≫=
            (fun '(row, prev, rowa) => setup_row_accesses C row prev rowa)) =
          (seqZ 2 (R - 2) ≫= fun row => setup_row_accesses C row (row - 1) (setup_rowa row))).
  { induction (seqZ 2 (R - 2)) as [|r l IH]; [done|]. rewrite fmap_cons, !bind_cons. by rewrite IH. }
  rewrite Es. rewrite <- !app_assoc. reflexivity.
Qed.
End steps.

Lemma steps_source p k pwd salt t R C out log out' steps :
  known_platform p -> rust_args (isize_max p) k pwd salt t R C -> R < 2 ^ 63 ->
  usize_bits p = 64 \/ k < 2 ^ 63 ->
  SrcLyra2Log.lyra2_log p k pwd salt t R C = (Ok out, log) /\ lyra2_tr p k pwd salt t R C = Ok (out', steps) \/
  SrcLyra2modLog.lyra2mod_log p k pwd salt t R C = (Ok out, log) /\ lyra2mod_tr p k pwd salt t R C = Ok (out', steps) ->
  out = out' /\
  log = steps_accesses k (Z.of_nat (length pwd)) (Z.of_nat (length salt)) C (setup_ops steps) (wander_ops steps).
Proof.
  intros Hp Ha HR Hk E. destruct (log_iff p k pwd salt t R C out log Hp) as [H1 H2].
  destruct E as [[E E']|[E E']].
  - apply H1 in E. exact (steps_accessed p Hp MLyra2.sel_lyra2 choose_first sel_lyra2_ok k pwd salt t R C Ha HR Hk out log out' steps E E').
  - apply H2 in E. exact (steps_accessed p Hp (MLyra2.sel_lyra2mod p) choose_rev3 (sel_lyra2mod_ok p Hp) k pwd salt t R C Ha HR Hk out log out' steps E E').
Qed.
