(** * Consequences of the refinement and domain theorems *)
From Verif Require Import Machine MachineFacts MUtils WordFacts Schedule Refine2 RefineInput RefineTop Termination Domain.
From Verif Require Import SpecWord SpecBlake2b SpecLyra2 SpecCalls.
From Verif Require MLyra2.
#[local] Opaque blake2b_round.

#[global] Instance accepted_dec max k pwd salt t R C : Decision (accepted max k pwd salt t R C).
Proof. unfold accepted. apply _. Defined.

Section facts.
Context (p : platform) (Hp : known_platform p).

Lemma isize_word l : rust_slice (isize_max p) l -> vlen l <= isize_max p /\ vlen l < 2 ^ 64.
Proof. intros [_ H]. pose proof (isize_usize p Hp). unfold vlen. lia. Qed.

Lemma terminates sel k pwd salt t R C : rust_args (isize_max p) k pwd salt t R C ->
  MLyra2.lyra2_with p sel k pwd salt t R C <> OutOfFuel.
Proof.
  intros (Hk & Ht & HR & HC & Hpw & Hsa). unfold word in *.
  apply isize_word in Hpw, Hsa. apply lyra2_with_not_fuel; lia.
Qed.

Definition regular (R : Z) : Prop :=
  R < 2 ^ 63 \/ (overflow_checks p = true /\ usize_bits p = 64).

(** Outside the accepted set (without the bound on [k]) every call panics. *)
Lemma panics_core sel k pwd salt t R C : rust_args (isize_max p) k pwd salt t R C -> regular R ->
  ~ accepted (isize_max p) 0 pwd salt t R C -> MLyra2.lyra2_with p sel k pwd salt t R C = Panic.
Proof.
  intros Ha Hreg Hn. pose proof (terminates sel _ _ _ _ _ _ Ha) as Hf.
  destruct Ha as (Hk & Ht & HR & HC & Hpw & Hsa). unfold word in *. apply isize_word in Hpw, Hsa.
  destruct (MLyra2.lyra2_with _ _ _ _ _ _ _ _) as [out| |] eqn:E; [|done|done]. exfalso. apply Hn.
  eapply (lyra2_with_inv p Hp); [| | | | |exact E]; [lia..|done].
Qed.
Lemma panics_long sel k pwd salt t R C : rust_args (isize_max p) k pwd salt t R C ->
  usize_bits p = 64 \/ k < 2 ^ 63 -> 96 < k ->
  MLyra2.lyra2_with p sel k pwd salt t R C = Panic.
Proof.
  intros Ha Hkw Hk96. pose proof (terminates sel _ _ _ _ _ _ Ha) as Hf. destruct Ha as (Hk & _).
  destruct (MLyra2.lyra2_with _ _ _ _ _ _ _ _) as [out| |] eqn:E; [|done|done]. exfalso.
  apply lyra2_with_squeeze in E as [st E]. apply (squeeze_inv p Hp) in E; [lia|done|done].
Qed.
Lemma accepted_split max k pwd salt t R C :
  accepted max k pwd salt t R C <-> accepted max 0 pwd salt t R C /\ 0 <= k <= 96.
Proof. unfold accepted. lia. Qed.
Lemma panics sel k pwd salt t R C : rust_args (isize_max p) k pwd salt t R C -> regular R ->
  usize_bits p = 64 \/ k < 2 ^ 63 ->
  ~ accepted (isize_max p) k pwd salt t R C -> MLyra2.lyra2_with p sel k pwd salt t R C = Panic.
Proof.
  intros Ha Hreg Hkw Hn. destruct (Z.le_gt_cases k 96) as [Hk|Hk].
  - apply panics_core; [done|done|]. intros H0. apply Hn. apply accepted_split. split; [done|].
    destruct Ha as [[? ?] _]. lia.
  - apply panics_long; [done|done|lia].
Qed.
Lemma returns sel choose k pwd salt t R C : sel_ok sel choose ->
  rust_args (isize_max p) k pwd salt t R C -> accepted (isize_max p) k pwd salt t R C ->
  MLyra2.lyra2_with p sel k pwd salt t R C = Ok (Lyra2_code choose k pwd salt t R C).
Proof.
  intros Hs (Hk & Ht & HR & HC & [Hpw _] & [Hsa _]). by apply (lyra2_with_Ok p Hp).
Qed.

(** ** Output length *)
Lemma squeeze_length st k out : MLyra2.squeeze p st k = Ok out ->
  vlen out = k mod 2 ^ usize_bits p /\ Forall byte out.
Proof.
  pose proof (isize_usize p Hp) as Hi.
  unfold MLyra2.squeeze. cbv zeta. intros (o & Eo & (jmax & Ej & E)%obind_Ok_inv)%obind_Ok_inv.
  apply chk_i64_inv in Ej as [Hj _].
  assert (Hn : 0 <= as_usize p k) by (apply Z.mod_pos_bound; lia).
  apply obind_Ok_inv in E as ([[tmp o2] s2] & E & E'). injection E' as ->.
  rewrite for_range_foldM in E by lia.
  apply (foldM_inv (fun s => Forall byte s.1.1 /\ vlen s.1.2 = as_usize p k /\ Forall byte s.1.2)) in E.
  - by destruct E as (_ & ? & ?).
  - cbn [fst snd]. unfold vec_zeroed in Eo. destruct (_ <=? _) in Eo; [|done]. injection Eo as <-.
    split; [constructor|]. split; [unfold vlen; rewrite replicate_length; lia|].
    apply Forall_replicate. unfold byte. lia.
  - clear. intros [[tmp o] s] j s' _ (H1 & H2 & H3) (tmp' & Et & (o' & Eo & [= <-])%obind_Ok_inv)%obind_Ok_inv.
    cbn [fst snd] in *.
    assert (Hb : Forall byte tmp').
    { rewrite for_range_foldM in Et by (unfold MLyra2.BLOCKLENINT64; lia).
      eapply (foldM_inv (Forall byte)) in Et; [exact Et|done|]. clear. intros t i t' _ Ht. unfold vec_extend.
      case_match; [|done]. intros [= <-]. apply Forall_app. split; [done|].
      change (Forall byte (to_le_bytes 8 (aget s (Z.to_nat i)))).
      rewrite to_le_bytes_spec. apply le_bytes_byte. }
    split; [done|]. unfold slice in Eo. destruct (_ && _) eqn:Eb in Eo; [|done]. injection Eo as <-.
    apply andb_true_iff in Eb as [[E1 E2]%andb_true_iff E3].
    split; [|by apply Forall_take, Forall_drop].
    unfold vlen in *. rewrite take_length, drop_length. lia.
Qed.
Lemma out_length sel k pwd salt t R C out : MLyra2.lyra2_with p sel k pwd salt t R C = Ok out ->
  vlen out = k mod 2 ^ usize_bits p /\ Forall byte out.
Proof. intros [st E]%lyra2_with_squeeze. by apply squeeze_length in E. Qed.

(** ** [sum] *)
Lemma accepted_sum max input : 1536 <= max ->
  accepted max 32 input input 1 4 4 <-> vlen input <= 743.
Proof.
  intros Hm. unfold accepted, n_blocks. fold (vlen input). pose proof (vlen_nonneg input).
  pose proof (Z.div_mod (vlen input + vlen input + 48) 64 ltac:(lia)).
  pose proof (Z.mod_pos_bound (vlen input + vlen input + 48) 64 ltac:(lia)). lia.
Qed.
Lemma sum_args input : rust_slice (isize_max p) input -> rust_args (isize_max p) 32 input input 1 4 4.
Proof. intros H. unfold rust_args, word. repeat (split; [lia|]). done. Qed.
Lemma sum_with sel choose input : sel_ok sel choose -> rust_slice (isize_max p) input ->
  MLyra2.lyra2_with p sel 32 input input 1 4 4 =
  if vlen input <=? 743 then Ok (Lyra2_code choose 32 input input 1 4 4) else Panic.
Proof.
  intros Hs Hi. pose proof (isize_usize p Hp). apply sum_args in Hi as Ha.
  destruct (vlen input <=? 743) eqn:E.
  - apply returns; [done|done|]. apply accepted_sum; [lia|]. by apply Z.leb_le.
  - apply panics; [done|left; lia|right; lia|]. rewrite accepted_sum by lia. by apply Z.leb_gt in E as ?%Z.lt_nge.
Qed.
End facts.

(** ** Build profiles *)
Lemma squeeze_profile p p' st k : usize_bits p = usize_bits p' ->
  MLyra2.squeeze p st k = MLyra2.squeeze p' st k.
Proof.
  destruct p as [oc uw], p' as [oc' uw']. cbn [usize_bits]. intros <-. unfold MLyra2.squeeze.
  assert (Hq : forall oc, iadd (Platform oc uw) (Z.quot (as_i64 k) MLyra2.BLOCKLENBYTES) 1 =
           Ok (Z.quot (as_i64 k) MLyra2.BLOCKLENBYTES + 1)).
  { intros b. unfold iadd. apply chk_i64_Ok. pose proof (wrap_i64_range k) as Hr. fold (as_i64 k) in Hr.
    change MLyra2.BLOCKLENBYTES with 96.
    pose proof (Z.quot_rem' (as_i64 k) 96). pose proof (Z.rem_bound_abs (as_i64 k) 96). lia. }
  rewrite !Hq. reflexivity.
Qed.
Lemma profiles_agree p p' sel sel' choose k pwd salt t R C :
  known_platform p -> usize_bits p = usize_bits p' -> sel_ok sel choose -> sel_ok sel' choose ->
  rust_args (isize_max p) k pwd salt t R C -> R < 2 ^ 63 ->
  MLyra2.lyra2_with p sel k pwd salt t R C = MLyra2.lyra2_with p' sel' k pwd salt t R C.
Proof.
  intros Hp Hu Hs Hs' Ha HR. assert (Hp' : known_platform p') by (unfold known_platform in *; by rewrite <- Hu).
  assert (Him : isize_max p' = isize_max p) by (unfold isize_max; by rewrite Hu).
  destruct (decide (accepted (isize_max p) 0 pwd salt t R C)) as [Hacc|Hacc].
  - destruct Ha as (Hk & Ht & _ & HC & [Hpw _] & [Hsa _]).
    destruct (lyra2_with_core p Hp sel choose k pwd salt t R C) as [_ ->]; [done..|].
    destruct (lyra2_with_core p' Hp' sel' choose k pwd salt t R C) as [_ ->]; [done..| |].
    + by rewrite Him.
    + by apply squeeze_profile.
  - rewrite !panics_core; try done; try (by left); by rewrite Him.
Qed.

(** ** Pointer widths *)
Lemma accepted_mono max max' k pwd salt t R C : max <= max' ->
  accepted max k pwd salt t R C -> accepted max' k pwd salt t R C.
Proof. unfold accepted. lia. Qed.
Lemma args_mono max max' k pwd salt t R C : max <= max' ->
  rust_args max k pwd salt t R C -> rust_args max' k pwd salt t R C.
Proof.
  unfold rust_args, rust_slice. intros Hm (? & ? & ? & ? & [? ?] & [? ?]).
  do 4 (split; [done|]). split; (split; [done|lia]).
Qed.
Lemma widths_agree p32 p64 sel sel' choose k pwd salt t R C :
  usize_bits p32 = 32 -> usize_bits p64 = 64 -> sel_ok sel choose -> sel_ok sel' choose ->
  rust_args (2 ^ 31 - 1) k pwd salt t R C -> accepted (2 ^ 31 - 1) k pwd salt t R C ->
  MLyra2.lyra2_with p32 sel k pwd salt t R C = MLyra2.lyra2_with p64 sel' k pwd salt t R C /\
  MLyra2.lyra2_with p64 sel' k pwd salt t R C = Ok (Lyra2_code choose k pwd salt t R C).
Proof.
  intros H32 H64 Hs Hs' Ha Hacc.
  assert (E32 : isize_max p32 = 2 ^ 31 - 1) by (unfold isize_max; by rewrite H32).
  assert (E64 : isize_max p64 = 2 ^ 63 - 1) by (unfold isize_max; by rewrite H64).
  rewrite (returns p32 (or_introl H32) sel choose); [|done|by rewrite E32|by rewrite E32].
  rewrite (returns p64 (or_intror H64) sel' choose); [done|done| |].
  - eapply args_mono; [|exact Ha]. lia.
  - eapply accepted_mono; [|exact Hacc]. lia.
Qed.
Lemma returns_32_64 p32 p64 sel sel' choose k pwd salt t R C out :
  usize_bits p32 = 32 -> usize_bits p64 = 64 -> sel_ok sel choose -> sel_ok sel' choose ->
  rust_args (2 ^ 31 - 1) k pwd salt t R C -> R < 2 ^ 63 -> k < 2 ^ 63 ->
  MLyra2.lyra2_with p32 sel k pwd salt t R C = Ok out -> MLyra2.lyra2_with p64 sel' k pwd salt t R C = Ok out.
Proof.
  intros H32 H64 Hs Hs' Ha HR Hk E.
  assert (E32 : isize_max p32 = 2 ^ 31 - 1) by (unfold isize_max; by rewrite H32).
  destruct (decide (accepted (2 ^ 31 - 1) k pwd salt t R C)) as [Hacc|Hacc].
  - pose proof (widths_agree p32 p64 sel sel' choose k pwd salt t R C H32 H64 Hs Hs' Ha Hacc) as [E1 _].
    rewrite <- E1. exact E.
  - rewrite (panics p32 (or_introl H32)) in E; [done|by rewrite E32|by left|by right|by rewrite E32].
Qed.
