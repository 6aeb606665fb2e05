(** * Output lengths of 2^63 and more on 32-bit targets *)
From Verif Require Import Machine MachineFacts MUtils WordFacts Refine Refine2 RefineInput RefineTop Domain LyraFacts.
From Verif Require Import SpecWord SpecLyra2 SpecCalls.
From Verif Require MLyra2.
#[local] Open Scope Z_scope.
#[local] Opaque Z.pow.

Section wide.
Context (p : platform) (H32 : usize_bits p = 32).
Lemma wide_known : known_platform p.
Proof. left. exact H32. Qed.
Lemma wide_isize : isize_max p = 2 ^ 31 - 1.
Proof. unfold isize_max. by rewrite H32. Qed.
Lemma wide_squeeze st k : 2 ^ 63 <= k < 2 ^ 64 ->
  MLyra2.squeeze p st k =
    if k mod 2 ^ 32 <=? 2 ^ 31 - 1 then Ok (replicate (Z.to_nat (k mod 2 ^ 32)) 0) else Panic.
Proof.
  intros Hk. unfold MLyra2.squeeze, as_usize. cbv zeta. rewrite H32. unfold vec_zeroed. rewrite wide_isize, Z.mul_1_r.
  destruct (Z.leb_spec (k mod 2 ^ 32) (2 ^ 31 - 1)) as [Hl|Hl]; [|done]. cbn [obind].
  assert (Hlow : k <= 2 ^ 64 - 96).
  { destruct (Z.le_gt_cases k (2 ^ 64 - 96)) as [|Hg]; [done|exfalso].
    assert (E : k mod 2 ^ 32 = k - (2 ^ 32 - 1) * 2 ^ 32).
    { symmetry. apply (Z.mod_unique_pos _ _ (2 ^ 32 - 1)).
      - change (2 ^ 64) with (2 ^ 32 * 2 ^ 32) in *. change (2 ^ 32) with 4294967296 in *. lia.
      - lia. }
    rewrite E in Hl. change (2 ^ 64) with 18446744073709551616 in *. change (2 ^ 32) with 4294967296 in *.
    change (2 ^ 31) with 2147483648 in *. lia. }
  assert (Ei : as_i64 k = k - 2 ^ 64).
  { unfold as_i64, wrap_i64.
    change (2 ^ 64) with 18446744073709551616 in *. change (2 ^ 63) with 9223372036854775808 in *.
    replace ((k + 9223372036854775808) mod 18446744073709551616) with (k + 9223372036854775808 - 18446744073709551616); [lia|].
    apply (Z.mod_unique_pos _ _ 1); lia. }
  rewrite Ei. change MLyra2.BLOCKLENBYTES with 96.
  assert (Hq : - 2 ^ 63 <= Z.quot (k - 2 ^ 64) 96 <= -1).
  { change (2 ^ 64) with 18446744073709551616 in *. change (2 ^ 63) with 9223372036854775808 in *.
    pose proof (Z.quot_le_mono (k - 18446744073709551616) (-96) 96 ltac:(lia) ltac:(lia)) as H1.
    pose proof (Z.quot_le_mono (-9223372036854775808) (k - 18446744073709551616) 96 ltac:(lia) ltac:(lia)) as H2.
    change (Z.quot (-96) 96) with (-1) in H1.
    change (Z.quot (-9223372036854775808) 96) with (-96076792050570581) in H2. lia. }
  unfold iadd. rewrite chk_i64_Ok by (change (2 ^ 63) with 9223372036854775808 in *; lia). cbn [obind].
  rewrite for_range_foldM by lia. rewrite seqZ_nil by lia. done.
Qed.
Lemma wide_call sel choose k pwd salt t R C : sel_ok sel choose ->
  rust_args (2 ^ 31 - 1) k pwd salt t R C -> R < 2 ^ 63 -> 2 ^ 63 <= k ->
  (accepted (2 ^ 31 - 1) 0 pwd salt t R C /\ k mod 2 ^ 32 <= 2 ^ 31 - 1) /\
    MLyra2.lyra2_with p sel k pwd salt t R C = Ok (replicate (Z.to_nat (k mod 2 ^ 32)) 0) \/
  ~ (accepted (2 ^ 31 - 1) 0 pwd salt t R C /\ k mod 2 ^ 32 <= 2 ^ 31 - 1) /\
    MLyra2.lyra2_with p sel k pwd salt t R C = Panic.
Proof.
  intros Hsel Ha HR Hk. pose proof wide_known as Hp. rewrite <- wide_isize in *.
  destruct (decide (accepted (isize_max p) 0 pwd salt t R C)) as [Hacc|Hacc].
  - pose proof Ha as ([Hk0 Hk1] & [Ht0 Ht1] & _ & _ & [Hbp _] & [Hbs _]).
    destruct (lyra2_with_core p Hp sel choose k pwd salt t R C Hsel Hbp Hbs (conj Ht0 Ht1) (conj Hk0 Hk1) Hacc) as [_ ->].
    rewrite wide_squeeze by lia. rewrite wide_isize.
    destruct (Z.leb_spec (k mod 2 ^ 32) (2 ^ 31 - 1)) as [Hl|Hl].
    + left. rewrite wide_isize in Hacc. done.
    + right. split; [|done]. intros [_ H]. lia.
  - right. split; [by intros [H _]|]. apply (panics_core p Hp); [exact Ha|left; exact HR|exact Hacc].
Qed.
End wide.

Lemma huge_output_32 p k pwd salt t R C :
  usize_bits p = 32 -> rust_args (2 ^ 31 - 1) k pwd salt t R C -> R < 2 ^ 63 -> 2 ^ 63 <= k ->
  (accepted (2 ^ 31 - 1) 0 pwd salt t R C /\ k mod 2 ^ 32 <= 2 ^ 31 - 1) /\
    MLyra2.lyra2 p k pwd salt t R C = Ok (replicate (Z.to_nat (k mod 2 ^ 32)) 0) /\
    MLyra2.lyra2mod p k pwd salt t R C = Ok (replicate (Z.to_nat (k mod 2 ^ 32)) 0) \/
  ~ (accepted (2 ^ 31 - 1) 0 pwd salt t R C /\ k mod 2 ^ 32 <= 2 ^ 31 - 1) /\
    MLyra2.lyra2 p k pwd salt t R C = Panic /\ MLyra2.lyra2mod p k pwd salt t R C = Panic.
Proof.
  intros H32 Ha HR Hk.
  destruct (wide_call p H32 _ _ k pwd salt t R C sel_lyra2_ok Ha HR Hk) as [[H E]|[H E]],
    (wide_call p H32 _ _ k pwd salt t R C (sel_lyra2mod_ok p (wide_known p H32)) Ha HR Hk) as [[H' E']|[H' E']].
  - left. exact (conj H (conj E E')).
  - destruct (H' H).
  - destruct (H H').
  - right. exact (conj H (conj E E')).
Qed.
