(** * Lemmas behind the theorems of PLyra2.v *)
From Verif Require Import Machine MachineFacts MUtils WordFacts Schedule Refine Refine2 RefineInput RefineTop Termination Domain LyraFacts Padding.
From Verif Require Import SpecWord SpecBlake2b SpecLyra2 SpecCalls.
From Verif Require MLyra2.
Import MLyra2 (lyra2, lyra2mod, lyra2_sum, lyra2mod_sum).
#[local] Opaque blake2b_round.

Ltac forall_byte := repeat first [apply Forall_replicate | constructor]; unfold byte; lia.
Ltac slice_tac := split; [forall_byte|vm_compute; discriminate].
Ltac args_tac := unfold rust_args, word; repeat (split; [lia|]); split; slice_tac.
Ltac accepted_tac := unfold accepted; repeat (split; [lia|]); split; vm_compute; discriminate.

Lemma out_length64 oc sel k pwd salt t R C out : word 64 k ->
  MLyra2.lyra2_with (Platform oc 64) sel k pwd salt t R C = Ok out ->
  Z.of_nat (length out) = k /\ Forall byte out.
Proof.
  intros Hk E. apply (out_length (Platform oc 64) (or_intror eq_refl)) in E as [E Hb].
  split; [|done]. unfold vlen in E. rewrite E. cbn [usize_bits]. by apply Z.mod_small.
Qed.
Lemma dichotomy p sel choose k pwd salt t R C : known_platform p -> sel_ok sel choose ->
  rust_args (isize_max p) k pwd salt t R C -> regular p R -> usize_bits p = 64 \/ k < 2 ^ 63 ->
  accepted (isize_max p) k pwd salt t R C /\
    MLyra2.lyra2_with p sel k pwd salt t R C = Ok (Lyra2_code choose k pwd salt t R C) \/
  ~ accepted (isize_max p) k pwd salt t R C /\
    MLyra2.lyra2_with p sel k pwd salt t R C = Panic.
Proof.
  intros Hp Hs Ha Hr Hk. destruct (decide (accepted (isize_max p) k pwd salt t R C)) as [H|H].
  - left. split; [exact H|]. exact (returns p Hp sel choose k pwd salt t R C Hs Ha H).
  - right. split; [exact H|]. exact (panics p Hp sel k pwd salt t R C Ha Hr Hk H).
Qed.
Lemma lyra2_dichotomy p k pwd salt t R C :
  known_platform p -> rust_args (isize_max p) k pwd salt t R C ->
  R < 2 ^ 63 -> usize_bits p = 64 \/ k < 2 ^ 63 ->
  accepted (isize_max p) k pwd salt t R C /\
    lyra2 p k pwd salt t R C = Ok (Lyra2_code choose_first k pwd salt t R C) \/
  ~ accepted (isize_max p) k pwd salt t R C /\
    lyra2 p k pwd salt t R C = Panic.
Proof.
  intros Hp Ha HR Hk.
  exact (dichotomy p MLyra2.sel_lyra2 choose_first k pwd salt t R C Hp sel_lyra2_ok Ha (or_introl HR) Hk).
Qed.
Lemma debug64_known : known_platform debug64. Proof. by right. Qed.
Lemma lyra2_dichotomy_debug64 k pwd salt t R C :
  rust_args (2 ^ 63 - 1) k pwd salt t R C ->
  accepted (2 ^ 63 - 1) k pwd salt t R C /\
    lyra2 debug64 k pwd salt t R C = Ok (Lyra2_code choose_first k pwd salt t R C) \/
  ~ accepted (2 ^ 63 - 1) k pwd salt t R C /\
    lyra2 debug64 k pwd salt t R C = Panic.
Proof.
  intros Ha.
  exact (dichotomy debug64 MLyra2.sel_lyra2 choose_first k pwd salt t R C debug64_known sel_lyra2_ok Ha
    (or_intror (conj eq_refl eq_refl)) (or_introl eq_refl)).
Qed.
Lemma lyra2mod_dichotomy_debug64 k pwd salt t R C :
  rust_args (2 ^ 63 - 1) k pwd salt t R C ->
  accepted (2 ^ 63 - 1) k pwd salt t R C /\
    lyra2mod debug64 k pwd salt t R C = Ok (Lyra2_code choose_rev3 k pwd salt t R C) \/
  ~ accepted (2 ^ 63 - 1) k pwd salt t R C /\
    lyra2mod debug64 k pwd salt t R C = Panic.
Proof.
  intros Ha.
  exact (dichotomy debug64 (MLyra2.sel_lyra2mod debug64) choose_rev3 k pwd salt t R C debug64_known
    (sel_lyra2mod_ok debug64 debug64_known) Ha (or_intror (conj eq_refl eq_refl)) (or_introl eq_refl)).
Qed.
Lemma lyra2_returns_iff_proof k pwd salt t R C :
  rust_args (2 ^ 63 - 1) k pwd salt t R C ->
  (exists out, lyra2 debug64 k pwd salt t R C = Ok out) <->
  1 <= t /\ 3 <= R /\ k <= 96 /\
  64 * ((Z.of_nat (length pwd) + Z.of_nat (length salt) + 48) / 64 + 1) <= 96 * R * C /\
  96 * R * C <= 2 ^ 63 - 1.
Proof.
  intros Ha. pose proof Ha as ([Hk _] & _ & _ & [HC _] & _).
  destruct (lyra2_dichotomy_debug64 _ _ _ _ _ _ Ha) as [[H E]|[H E]]; unfold accepted, n_blocks in H; rewrite E.
  - split; [intros _; lia|]. intros _. by eexists.
  - split; [by intros [? ?]|]. intros. exfalso. apply H. lia.
Qed.
Lemma panics_documented p k pwd salt t R C :
  t < 1 \/ R < 3 -> lyra2 p k pwd salt t R C = Panic /\ lyra2mod p k pwd salt t R C = Panic.
Proof.
  intros H. unfold lyra2, lyra2mod, MLyra2.lyra2_with. destruct (t <? 1) eqn:E; [done|].
  destruct (R <? 3) eqn:E'; [done|]. lia.
Qed.
Lemma terminates_any p sel k pwd salt t R C :
  known_platform p -> rust_args (isize_max p) k pwd salt t R C ->
  (exists out, MLyra2.lyra2_with p sel k pwd salt t R C = Ok out) \/
  MLyra2.lyra2_with p sel k pwd salt t R C = Panic.
Proof.
  intros Hp Ha. pose proof (terminates p Hp sel _ _ _ _ _ _ Ha) as H.
  destruct (MLyra2.lyra2_with _ _ _ _ _ _ _ _) as [out| |]; [left; by exists out|by right|done].
Qed.
Lemma terminates_lyra2 p k pwd salt t R C :
  known_platform p -> rust_args (isize_max p) k pwd salt t R C ->
  (exists out, lyra2 p k pwd salt t R C = Ok out) \/ lyra2 p k pwd salt t R C = Panic.
Proof. exact (terminates_any p _ k pwd salt t R C). Qed.
Lemma terminates_lyra2mod p k pwd salt t R C :
  known_platform p -> rust_args (isize_max p) k pwd salt t R C ->
  (exists out, lyra2mod p k pwd salt t R C = Ok out) \/ lyra2mod p k pwd salt t R C = Panic.
Proof. exact (terminates_any p _ k pwd salt t R C). Qed.
Lemma long_output_panics p k pwd salt t R C :
  known_platform p -> rust_args (isize_max p) k pwd salt t R C ->
  usize_bits p = 64 \/ k < 2 ^ 63 -> 96 < k ->
  lyra2 p k pwd salt t R C = Panic /\ lyra2mod p k pwd salt t R C = Panic.
Proof.
  intros Hp Ha Hk H96.
  exact (conj (panics_long p Hp _ k pwd salt t R C Ha Hk H96) (panics_long p Hp _ k pwd salt t R C Ha Hk H96)).
Qed.
Lemma long_output_refuted :
  ~ (forall k pwd salt t R C, rust_args (2 ^ 63 - 1) k pwd salt t R C ->
       accepted (2 ^ 63 - 1) 0 pwd salt t R C -> k <= 1000 ->
       exists out, lyra2 release64 k pwd salt t R C = Ok out /\ Z.of_nat (length out) = k).
Proof.
  intros H. destruct (H 97 [] [] 1 4 4) as (out & E & _); [args_tac|accepted_tac|lia|].
  assert (E' : lyra2 release64 97 [] [] 1 4 4 = Panic) by
    exact (proj1 (long_output_panics release64 97 [] [] 1 4 4 ltac:(by right) ltac:(args_tac) ltac:(by left) ltac:(lia))).
  rewrite E' in E. discriminate E.
Qed.
Lemma sum_value p input :
  known_platform p -> rust_slice (isize_max p) input -> Z.of_nat (length input) <= 743 ->
  lyra2_sum p input = Ok (Lyra2_code choose_first 32 input input 1 4 4) /\
  lyra2mod_sum p input = Ok (Lyra2_code choose_rev3 32 input input 1 4 4).
Proof.
  intros Hp Hi Hl. apply Z.leb_le in Hl. fold (vlen input) in Hl.
  pose proof (sum_with p Hp MLyra2.sel_lyra2 choose_first input sel_lyra2_ok Hi) as E1.
  pose proof (sum_with p Hp _ choose_rev3 input (sel_lyra2mod_ok p Hp) Hi) as E2.
  rewrite Hl in E1, E2. exact (conj E1 E2).
Qed.
Lemma sum_domain_aux p (input : list Z) (out : outcome (list Z)) (v : list Z) : known_platform p ->
  out = (if vlen input <=? 743 then Ok v else Panic) ->
  (forall o, out = Ok o -> vlen o = 32 mod 2 ^ usize_bits p /\ Forall byte o) ->
  (Z.of_nat (length input) <= 743 /\
     exists o, out = Ok o /\ length o = 32%nat /\ Forall byte o) \/
  (743 < Z.of_nat (length input) /\ out = Panic).
Proof.
  intros Hp E1 Hout. destruct (vlen input <=? 743) eqn:El; unfold vlen in El.
  - left. split; [lia|]. exists v. split; [exact E1|].
    apply Hout in E1 as [E1 Hb]. split; [|exact Hb].
    unfold vlen in E1. rewrite Z.mod_small in E1; [lia|].
    destruct Hp as [-> | ->]; lia.
  - right. split; [lia|exact E1].
Qed.
Lemma sum_domain p input :
  known_platform p -> rust_slice (isize_max p) input ->
  (Z.of_nat (length input) <= 743 /\
     exists out, lyra2_sum p input = Ok out /\ length out = 32%nat /\ Forall byte out) \/
  (743 < Z.of_nat (length input) /\ lyra2_sum p input = Panic).
Proof.
  intros Hp Hi.
  exact (sum_domain_aux p input (lyra2_sum p input) _ Hp
    (sum_with p Hp MLyra2.sel_lyra2 choose_first input sel_lyra2_ok Hi)
    (fun o => out_length p Hp MLyra2.sel_lyra2 32 input input 1 4 4 o)).
Qed.
Lemma lyra2_value p k pwd salt t R C :
  known_platform p -> rust_args (isize_max p) k pwd salt t R C ->
  accepted (isize_max p) k pwd salt t R C ->
  lyra2 p k pwd salt t R C = Ok (Lyra2_code choose_first k pwd salt t R C).
Proof.
  intros Hp Ha Hacc. exact (returns p Hp MLyra2.sel_lyra2 choose_first k pwd salt t R C sel_lyra2_ok Ha Hacc).
Qed.
Lemma lyra2mod_value p k pwd salt t R C :
  known_platform p -> rust_args (isize_max p) k pwd salt t R C ->
  accepted (isize_max p) k pwd salt t R C ->
  lyra2mod p k pwd salt t R C = Ok (Lyra2_code choose_rev3 k pwd salt t R C).
Proof.
  intros Hp Ha Hacc.
  exact (returns p Hp (MLyra2.sel_lyra2mod p) choose_rev3 k pwd salt t R C (sel_lyra2mod_ok p Hp) Ha Hacc).
Qed.

(** Equal reductions give equal keys. *)
Lemma visit_ext n f g row : (forall x, f x = g x) -> visit n f row = visit n g row.
Proof. intros H. revert row. induction n as [|n IH]; intros row; [done|]. cbn. by rewrite !H, IH. Qed.
Lemma foldl_ext_pointwise {A B} (f g : A -> B -> A) a l : (forall a b, f a b = g a b) -> foldl f a l = foldl g a l.
Proof. intros H. revert a. induction l as [|b l IH]; intros a; [done|]. cbn. by rewrite H, IH. Qed.
Lemma lyra2_key_reduce_ext red red' choose bs k t R C : (forall x, red x = red' x) ->
  lyra2_key red choose bs k t R C = lyra2_key red' choose bs k t R C.
Proof.
  intros H. unfold lyra2_key, lyra2_state. do 2 f_equal.
  assert (Hw : forall s, wander R C red choose t s = wander R C red' choose t s); [|by rewrite Hw].
  intros [M st]. unfold wander.
  replace (seqZ 1 t ≫= pass_rows R red) with (seqZ 1 t ≫= pass_rows R red').
  - apply foldl_ext_pointwise. intros [[[[M' st'] i] prev] ra] row. unfold wander_visit.
    destruct (choose st' i) as [w i']. by rewrite H.
  - induction (seqZ 1 t) as [|tau l IH]; [done|]. cbn. rewrite IH. f_equal.
    apply visit_ext. intros. by rewrite H.
Qed.
Lemma lyra2_reference p k pwd salt t e C :
  known_platform p -> 0 <= e -> rust_args (isize_max p) k pwd salt t (2 ^ e) C ->
  accepted (isize_max p) k pwd salt t (2 ^ e) C ->
  (8 | Z.of_nat (length pwd)) -> (8 | Z.of_nat (length salt)) ->
  lyra2 p k pwd salt t (2 ^ e) C = Ok (Lyra2_reference k pwd salt t (2 ^ e) C).
Proof.
  intros Hp He Ha Hacc Hq Hr. pose proof (lyra2_value p k pwd salt t _ C Hp Ha Hacc) as E.
  rewrite E. f_equal. unfold Lyra2_code, Lyra2_reference.
  pose proof Ha as (Hk & Ht & HR & HC & Hpw & Hsa).
  pose proof (isize_word p Hp _ Hpw) as [_ Hlp]. pose proof (isize_word p Hp _ Hsa) as [_ Hls].
  pose proof (vlen_nonneg pwd). pose proof (vlen_nonneg salt).
  rewrite (proj2 (ref_blocks_code_iff k pwd salt t (2 ^ e) C (proj1 Hpw) (proj1 Hsa) Hk
    ltac:(split; lia) ltac:(split; lia) Ht HR HC) (conj Hq Hr)).
  apply lyra2_key_reduce_ext. intros x. unfold reduce_mask, reduce_mod.
  rewrite <- Z.land_ones by done. by rewrite Z.ones_equiv.
Qed.
#[local] Transparent blake2b_round.
Lemma reference_refuted_rows :
  exists k pwd salt t R C, rust_args (2 ^ 63 - 1) k pwd salt t R C /\
    accepted (2 ^ 63 - 1) k pwd salt t R C /\
    (8 | Z.of_nat (length pwd)) /\ (8 | Z.of_nat (length salt)) /\
    lyra2 release64 k pwd salt t R C <> Ok (Lyra2_reference k pwd salt t R C).
Proof.
  exists 2, [], [], 1, 3, 1. split; [args_tac|]. split; [accepted_tac|].
  split; [by exists 0|]. split; [by exists 0|]. vm_compute. discriminate.
Qed.
Lemma reference_refuted_alignment :
  exists k pwd salt t C, rust_args (2 ^ 63 - 1) k pwd salt t (2 ^ 2) C /\
    accepted (2 ^ 63 - 1) k pwd salt t (2 ^ 2) C /\
    lyra2 release64 k pwd salt t (2 ^ 2) C <> Ok (Lyra2_reference k pwd salt t (2 ^ 2) C).
Proof.
  exists 1, [97; 98; 99], [], 1, 1. split; [args_tac|]. split; [accepted_tac|].
  vm_compute. discriminate.
Qed.
Lemma profiles_agree_both p p' k pwd salt t R C :
  known_platform p -> usize_bits p = usize_bits p' ->
  rust_args (isize_max p) k pwd salt t R C -> R < 2 ^ 63 ->
  lyra2 p k pwd salt t R C = lyra2 p' k pwd salt t R C /\
  lyra2mod p k pwd salt t R C = lyra2mod p' k pwd salt t R C.
Proof.
  intros Hp Hu Ha HR. assert (Hp' : known_platform p') by (unfold known_platform in *; by rewrite <- Hu).
  split.
  - exact (profiles_agree p p' _ _ choose_first k pwd salt t R C Hp Hu sel_lyra2_ok sel_lyra2_ok Ha HR).
  - exact (profiles_agree p p' _ _ choose_rev3 k pwd salt t R C Hp Hu (sel_lyra2mod_ok p Hp)
      (sel_lyra2mod_ok p' Hp') Ha HR).
Qed.
Lemma profiles_refuted :
  exists k pwd salt t R C out, rust_args (2 ^ 63 - 1) k pwd salt t R C /\
    lyra2 release64 k pwd salt t R C = Ok out /\ lyra2 debug64 k pwd salt t R C = Panic.
Proof.
  exists 1, [], [], 1, (2 ^ 63 + 4), 1. eexists. split; [args_tac|].
  split; vm_compute; reflexivity.
Qed.
Lemma widths_agree_both p32 p64 k pwd salt t R C :
  usize_bits p32 = 32 -> usize_bits p64 = 64 ->
  rust_args (2 ^ 31 - 1) k pwd salt t R C -> accepted (2 ^ 31 - 1) k pwd salt t R C ->
  lyra2 p32 k pwd salt t R C = lyra2 p64 k pwd salt t R C /\
  lyra2mod p32 k pwd salt t R C = lyra2mod p64 k pwd salt t R C.
Proof.
  intros H32 H64 Ha Hacc. split.
  - exact (proj1 (widths_agree p32 p64 _ _ choose_first k pwd salt t R C H32 H64 sel_lyra2_ok sel_lyra2_ok Ha Hacc)).
  - exact (proj1 (widths_agree p32 p64 _ _ choose_rev3 k pwd salt t R C H32 H64
      (sel_lyra2mod_ok p32 (or_introl H32)) (sel_lyra2mod_ok p64 (or_intror H64)) Ha Hacc)).
Qed.
Lemma returns_32_then_64 p32 p64 k pwd salt t R C out :
  usize_bits p32 = 32 -> usize_bits p64 = 64 ->
  rust_args (2 ^ 31 - 1) k pwd salt t R C -> R < 2 ^ 63 -> k < 2 ^ 63 ->
  lyra2 p32 k pwd salt t R C = Ok out -> lyra2 p64 k pwd salt t R C = Ok out.
Proof.
  exact (fun H32 H64 => returns_32_64 p32 p64 _ _ choose_first k pwd salt t R C out H32 H64
    sel_lyra2_ok sel_lyra2_ok).
Qed.
Lemma widths_refuted :
  exists k pwd salt t R C out, rust_args (2 ^ 31 - 1) k pwd salt t R C /\ R < 2 ^ 63 /\
    lyra2 debug32 k pwd salt t R C = Ok out /\ out = replicate (length out) 0 /\ out <> [] /\
    lyra2 debug64 k pwd salt t R C = Panic.
Proof.
  exists (2 ^ 63 + 5), [], [], 1, 3, 1, [0; 0; 0; 0; 0]. split; [args_tac|].
  split; [lia|]. split; [vm_compute; reflexivity|]. split; [done|]. split; [done|].
  vm_compute. reflexivity.
Qed.
Lemma capacity_refuted :
  ~ (forall pwd salt R C, rust_args (2 ^ 63 - 1) 32 pwd salt 1 R C -> 3 <= R ->
       96 * R * C <= 2 ^ 63 - 1 ->
       Z.of_nat (length pwd) + Z.of_nat (length salt) < 96 * R * C ->
       exists out, lyra2 release64 32 pwd salt 1 R C = Ok out).
Proof.
  intros H. destruct (H (replicate 140 1) (replicate 140 2) 3 1) as (out & E);
    [args_tac|lia|lia|vm_compute; reflexivity|].
  assert (E' : lyra2 release64 32 (replicate 140 1) (replicate 140 2) 1 3 1 = Panic) by (vm_compute; reflexivity).
  rewrite E' in E. discriminate E.
Qed.
Lemma capacity pwd salt R C :
  rust_args (2 ^ 63 - 1) 32 pwd salt 1 R C -> 3 <= R -> 96 * R * C <= 2 ^ 63 - 1 ->
  (Z.of_nat (length pwd) + Z.of_nat (length salt) + 112 <= 96 * R * C ->
     exists out, lyra2 debug64 32 pwd salt 1 R C = Ok out) /\
  (96 * R * C <= Z.of_nat (length pwd) + Z.of_nat (length salt) + 48 ->
     lyra2 debug64 32 pwd salt 1 R C = Panic).
Proof.
  intros Ha HR Hm.
  pose proof (Z.div_mod (Z.of_nat (length pwd) + Z.of_nat (length salt) + 48) 64 ltac:(lia)) as Hd.
  pose proof (Z.mod_pos_bound (Z.of_nat (length pwd) + Z.of_nat (length salt) + 48) 64 ltac:(lia)) as Hb.
  assert (HC : 0 <= C) by (destruct Ha as (_ & _ & _ & [? _] & _); done).
  destruct (lyra2_dichotomy_debug64 _ _ _ _ _ _ Ha) as [[H E]|[H E]]; unfold accepted, n_blocks in H.
  - split; [intros _; eexists; exact E|]. intros Hle. exfalso. lia.
  - split; [|intros _; exact E]. intros Hle. exfalso. apply H. lia.
Qed.
