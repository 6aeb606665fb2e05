(** * Proof of the exact capacity (C33), for any shape of at most [isize::MAX] bytes *)
From Verif Require Import Machine MLyra2 RefineTop PLyra2Lemmas ReleaseRows.
From Verif Require Import SpecWord SpecLyra2 SpecCalls.
#[local] Open Scope Z_scope.

Lemma capacity_exact p k pwd salt t R C :
  known_platform p -> rust_args (isize_max p) k pwd salt t R C ->
  1 <= t -> 3 <= R -> k <= 96 -> 96 * R * C <= isize_max p ->
  let fits := 64 * ((Z.of_nat (length pwd) + Z.of_nat (length salt) + 48) / 64 + 1) <= 96 * R * C in
  ((exists out, MLyra2.lyra2 p k pwd salt t R C = Ok out) <-> fits) /\
  ((exists out, MLyra2.lyra2mod p k pwd salt t R C = Ok out) <-> fits).
Proof.
  intros Hp Ha Ht HR Hk Hm fits.
  pose proof Ha as ([Hk0 _] & _ & _ & [HC _] & _).
  assert (Hk' : usize_bits p = 64 \/ k < 2 ^ 63) by (right; lia).
  assert (Hf : fits <-> 64 * n_blocks pwd salt <= 96 * R * C).
  { reflexivity. }
  destruct (Z.lt_ge_cases R (2 ^ 63)) as [HR'|HR'].
  - assert (Hacc : accepted (isize_max p) k pwd salt t R C <-> fits).
    { rewrite Hf. unfold accepted. lia. }
    split; rewrite <- Hacc.
    + destruct (dichotomy p MLyra2.sel_lyra2 choose_first k pwd salt t R C Hp sel_lyra2_ok Ha (or_introl HR') Hk')
        as [[H E]|[H E]].
      * split; intros _; [exact H|]. eexists. exact E.
      * split; [intros [out E']|intros H'; destruct (H H')].
        unfold MLyra2.lyra2 in E'. rewrite E in E'. discriminate E'.
    + destruct (dichotomy p (MLyra2.sel_lyra2mod p) choose_rev3 k pwd salt t R C Hp (sel_lyra2mod_ok p Hp) Ha (or_introl HR') Hk')
        as [[H E]|[H E]].
      * split; intros _; [exact H|]. eexists. exact E.
      * split; [intros [out E']|intros H'; destruct (H H')].
        unfold MLyra2.lyra2mod in E'. rewrite E in E'. discriminate E'.
  - assert (HC0 : C = 0).
    { destruct (Z.eq_dec C 0) as [->|Hn]; [reflexivity|]. exfalso.
      assert (2 ^ 63 * 1 <= R * C) by (apply Z.mul_le_mono_nonneg; lia).
      assert (isize_max p <= 2 ^ 63 - 1) by (destruct Hp as [Hb|Hb]; unfold isize_max; rewrite Hb; vm_compute; discriminate). lia. }
    subst C.
    assert (Hnf : ~ fits).
    { rewrite Hf. rewrite Z.mul_0_r. intros H. unfold n_blocks in H.
      assert (0 <= (Z.of_nat (length pwd) + Z.of_nat (length salt) + 48) / 64) by (apply Z.div_pos; lia). lia. }
    assert (Hno : forall x y, ((exists out, x = Ok out) <-> y) -> (y -> 64 * n_blocks pwd salt <= 0) ->
                    ((exists out : list Z, x = Ok out) <-> fits)).
    { intros x y Hxy Hy. split; intros H; [|destruct (Hnf H)]. exfalso. apply Hnf. rewrite Hf, Z.mul_0_r. tauto. }
    destruct (overflow_checks p) eqn:Hc.
    + destruct (BigRows.big_rows_panic_2 p k pwd salt t R 0 Hp Hc Ha HR') as [E1 E2].
      split; apply (Hno _ False); try tauto; (split; [|tauto]); intros [out E]; [rewrite E1 in E|rewrite E2 in E]; discriminate E.
    + destruct (unchecked_exact p Hp Hc k pwd salt t R 0 Ha HR' Hk') as [H1 H2].
      { rewrite Z.mul_0_r. apply Z.pow_pos_nonneg; [lia|]. destruct Hp as [-> | ->]; lia. }
      split; [apply (Hno _ _ H1)|apply (Hno _ _ H2)]; unfold unchecked_ok; rewrite Z.mul_0_r; tauto.
Qed.
