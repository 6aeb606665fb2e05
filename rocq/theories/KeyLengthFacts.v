(** * Lemmas behind the theorems of PKeyLength.v *)
From Verif Require Import Machine MachineFacts MUtils WordFacts Refine RefineInput Domain LyraFacts PhaseFacts PPhasesLemmas.
From Verif Require MLyra2.
From Verif Require Import MPhases.
From Verif Require Import SpecWord SpecBlake2b SpecLyra2 SpecCalls SpecPhases.
#[local] Open Scope Z_scope.

Section squeeze.
Context (p : platform) (Hp : known_platform p).
Definition first_bytes (st : list Z) : list Z :=
  seqZ 0 12 ≫= fun i => to_le_bytes 8 (aget st (Z.to_nat i)).
Lemma extend_inv st l : forall tmp tmp',
  foldM (fun tmp i => vec_extend p tmp (to_le_bytes 8 (aget st (Z.to_nat i)))) l tmp = Ok tmp' ->
  tmp' = tmp ++ (l ≫= fun i => to_le_bytes 8 (aget st (Z.to_nat i))).
Proof.
  induction l as [|i l IH]; intros tmp tmp'; cbn [foldM].
  - intros [= <-]. symmetry. apply app_nil_r.
  - intros (t & E & H)%obind_Ok_inv. apply IH in H as ->. unfold vec_extend in E.
    destruct (_ <=? _); [|done]. injection E as <-. rewrite <- app_assoc. done.
Qed.
Lemma squeeze_first st k out : 0 <= k < 2 ^ 64 -> usize_bits p = 64 \/ k < 2 ^ 63 ->
  MLyra2.squeeze p st k = Ok out -> out = take (Z.to_nat k) (first_bytes st).
Proof.
  intros Hk Hw E. assert (H96 := squeeze_inv p Hp st k out Hk Hw E). revert E.
  pose proof (isize_usize p Hp) as Hi. unfold MLyra2.squeeze.
  unfold as_usize. rewrite Z.mod_small by lia. cbv zeta.
  intros (o & _ & (jmax & Ej & E)%obind_Ok_inv)%obind_Ok_inv.
  assert (Hj : 1 <= jmax <= 2).
  { apply chk_i64_inv in Ej as [_ ->]. unfold as_i64. rewrite (wrap_i64_id k) by lia.
    change MLyra2.BLOCKLENBYTES with 96.  rewrite Z.quot_div_nonneg by lia.
    pose proof (Z.div_pos k 96). pose proof (Z.div_le_mono k 96 96). change (96 / 96) with 1 in *. rewrite wrap_i64_id by lia. lia. }
  apply obind_Ok_inv in E as ([[tmp o2] s2] & E & [= ->]).
  assert (Hl : length (first_bytes st) = 96%nat) by reflexivity.
  apply (for_range_inv (fun i s => (i = 0 /\ s = ([], o, st)) \/
      (1 <= i /\ s.1.2 = take (Z.to_nat k) (first_bytes st) /\ exists r, s.1.1 = first_bytes st ++ r))) in E as [E _].
  - destruct E as [[? _]|(_ & E & _)]; [lia|exact E].
  - lia.
  - left. split; [lia|done].
  - intros i [[t1 o1] s1] s' Hi' Hinv E1.
    apply obind_Ok_inv in E1 as (t2 & Et & E1). apply obind_Ok_inv in E1 as (o3 & Es & E1). injection E1 as <-.
    unfold MLyra2.BLOCKLENINT64 in Et. rewrite for_range_foldM in Et by lia. apply extend_inv in Et as ->.
    change (12 - 0) with 12 in Es |- *. fold (first_bytes s1) in Es |- *.
    unfold slice in Es. destruct (_ && _); [|done]. injection Es as <-. rewrite Z.sub_0_r, drop_0.
    right. split; [lia|]. cbn [fst snd]. destruct Hinv as [[_ [= -> -> ->]]|(_ & _ & r & Ht)].
    + split; [done|]. exists []. by rewrite app_nil_r.
    + cbn [fst] in Ht. subst t1. rewrite <- app_assoc. split; [|by eexists].
      apply take_app_le. lia.
Qed.
Lemma wrap_up_prefix k k' rl m st rowa out out' : 0 <= k <= k' -> k' < 2 ^ 64 ->
  usize_bits p = 64 \/ k' < 2 ^ 63 ->
  wrap_up p k rl m st rowa = Ok out -> wrap_up p k' rl m st rowa = Ok out' -> out = take (length out) out'.
Proof.
  intros Hk Hk' Hw. unfold wrap_up.
  intros (a & Ea & E)%obind_Ok_inv. rewrite Ea. cbn [obind].
  apply obind_Ok_inv in E as (r & Er & E). rewrite Er. cbn [obind].
  apply obind_Ok_inv in E as (s & Es & E). rewrite Es. cbn [obind]. intros E'.
  assert (Hw' : usize_bits p = 64 \/ k < 2 ^ 63) by (destruct Hw; [by left|right; lia]).
  pose proof (squeeze_inv p Hp s k' out' ltac:(lia) Hw E').
  apply squeeze_first in E as ->; [|lia|done]. apply squeeze_first in E' as ->; [|lia|done].
  assert (Hl : length (first_bytes s) = 96%nat) by reflexivity.
  rewrite take_length, take_take. f_equal. lia.
Qed.
End squeeze.

Lemma key_length_enters p k k' pwd salt t R C : known_platform p ->
  rust_args (isize_max p) k pwd salt t R C -> rust_args (isize_max p) k' pwd salt t R C ->
  accepted (isize_max p) 0 pwd salt t R C -> k <> k' ->
  exists row_len m st m' st' v,
    until_setup p k pwd salt t R C = Ok (row_len, m, st, v) /\
    until_setup p k' pwd salt t R C = Ok (row_len, m', st', v) /\
    (m, st) <> (m', st').
Proof. intros Hp Ha Ha' Hacc Hk. apply setup_apart; [done..|]. by apply apart_k. Qed.
