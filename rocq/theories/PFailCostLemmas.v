(** * Proofs for PFailCost.v *)
From Verif Require Import Machine MachineFacts WordFacts RefineInput RefineTop LyraFacts.
From Verif Require Import SpecWord SpecBlake2b SpecLyra2 SpecCalls SpecSchedule.
From Verif Require MLyra2 SrcLyra2Log SrcLyra2modLog.
From Verif Require Import MAccess SpecAccess PLyra2Lemmas PAccessLemmas Kept MKept KeptFacts SrcLogTop FailFacts.
#[local] Open Scope Z_scope.

Lemma silent_work (l : list access) : Forall (fun e => e <> Perm) l -> work l = 0.
Proof.
  unfold work. induction 1 as [|e l He Hl IH]; [done|]. cbn [omap list_omap]. destruct e; [exact IH|exact IH|done].
Qed.
Lemma early p k pwd salt t R C call :
  known_platform p -> rust_args (isize_max p) k pwd salt t R C ->
  (overflow_checks p = true /\ usize_bits p = 64 /\ R < 2 ^ 63) \/ (12 * R * C < 2 ^ 63 /\ 12 * R * C < 2 ^ usize_bits p) ->
  ~ accepted (isize_max p) 0 pwd salt t R C ->
  call = SrcLyra2Log.lyra2_log p k pwd salt t R C \/ call = SrcLyra2modLog.lyra2mod_log p k pwd salt t R C ->
  fst call = Panic /\ work (snd call) = 0 /\
  Z.of_nat (length (snd call)) <= Z.of_nat (length pwd) / 8 + Z.of_nat (length salt) / 8 + 9 /\
  (t < 1 \/ R < 3 \/ isize_max p < 96 * R * C -> snd call = []).
Proof.
  intros Hp Ha Hw Hn Hc.
  assert (H : exists sel, call = lyra2_with_kept p sel k pwd salt t R C).
  { rewrite log_lyra2, log_lyra2mod in Hc by done. destruct Hc as [->| ->]; [by exists MLyra2.sel_lyra2|by exists (MLyra2.sel_lyra2mod p)]. }
  clear Hc. destruct H as [sel ->].
  destruct (rejected_early p Hp sel k pwd salt t R C Ha Hw Hn) as ([HL HF] & HP & HN).
  split; [exact HP|]. split; [by apply silent_work|]. split; [exact HL|exact HN].
Qed.
Lemma late p k pwd salt t R C call :
  known_platform p -> rust_args (isize_max p) k pwd salt t R C ->
  accepted (isize_max p) 0 pwd salt t R C -> 96 < k -> k < 2 ^ usize_bits p ->
  call = SrcLyra2Log.lyra2_log p k pwd salt t R C \/ call = SrcLyra2modLog.lyra2mod_log p k pwd salt t R C ->
  let fixed := 12 * ((Z.of_nat (length salt) + Z.of_nat (length pwd) + 48) / 64 + 1) + 12 in
  fst call = Panic /\
  R * C + t * C + fixed <= work (snd call) <= R * C + t * R * C + fixed /\
  (forall e, 0 <= e -> R = 2 ^ e -> work (snd call) = (t + 1) * 2 ^ e * C + fixed).
Proof.
  intros Hp Ha Hacc Hk Hku Hc fixed.
  assert (H : exists rowas, call = (Panic, before_accesses pwd salt t R C rowas) /\ length rowas = length (wander_schedule R t)).
  { rewrite log_lyra2, log_lyra2mod in Hc by done. destruct Hc as [->| ->].
    - destruct (rejected_late p Hp MLyra2.sel_lyra2 _ k pwd salt t R C sel_lyra2_ok Ha Hacc Hk Hku) as (rowas & E & HL & _).
      exists rowas. by rewrite <- E.
    - destruct (rejected_late p Hp (MLyra2.sel_lyra2mod p) _ k pwd salt t R C (sel_lyra2mod_ok p Hp) Ha Hacc Hk Hku) as (rowas & E & HL & _).
      exists rowas. by rewrite <- E. }
  clear Hc. destruct H as (rowas & -> & HL). destruct Hacc as (Ht & HR & _ & HC & _). cbn [fst snd].
  rewrite before_work by done. change ((vlen salt + vlen pwd + 48) / 64 + 1) with ((Z.of_nat (length salt) + Z.of_nat (length pwd) + 48) / 64 + 1).
  unfold fixed. pose proof (schedule_length_bounds R t HR ltac:(lia)) as HV.
  split; [done|]. split.
  - set (V := Z.of_nat (length (wander_schedule R t))) in *. assert (t * C <= V * C <= t * R * C) by nia. lia.
  - intros e He0 ->. rewrite schedule_length_pow2; [lia| |lia].
    destruct (Z.le_gt_cases 2 e); [done|]. assert (e = 0 \/ e = 1) as [-> | ->] by lia; cbn in HR; lia.
Qed.
Lemma early_refuted :
  ~ (forall p k pwd salt t R C, known_platform p -> rust_args (isize_max p) k pwd salt t R C ->
       ~ accepted (isize_max p) 0 pwd salt t R C ->
       work (snd (SrcLyra2Log.lyra2_log p k pwd salt t R C)) = 0) /\
  work (snd (SrcLyra2Log.lyra2_log release64 8 [1] [2] 1 4 (2 ^ 60 + 1))) = 12 /\
  work (snd (SrcLyra2Log.lyra2_log debug32 8 [1] [2] 1 3 477218589)) = 12 /\
  work (snd (SrcLyra2Log.lyra2_log debug64 8 [1] [2] 1 (2 ^ 64 - 1) (2 ^ 64 - 1))) = 12.
Proof.
  assert (E : work (snd (SrcLyra2Log.lyra2_log release64 8 [1] [2] 1 4 (2 ^ 60 + 1))) = 12) by (vm_compute; reflexivity).
  split; [|split; [exact E|split; vm_compute; reflexivity]].
  intros H. specialize (H release64 8 [1] [2] 1 4 (2 ^ 60 + 1)). rewrite E in H. discriminate H.
  - by right.
  - args_tac.
  - unfold accepted. intros (_ & _ & _ & _ & _ & H'). vm_compute in H'. by apply H'.
Qed.
