(** * Which calls return, for every key length (C02, C05, C41, C60)

    Joins the cases of PLyra2Lemmas.v (fewer than 2^63 rows), BigRows.v and ReleaseRows.v
    (2^63 rows or more) and Wide32.v (keys of 2^63 bytes or more on 32 bits). *)
From Verif Require Import Machine MachineFacts MLyra2 Refine2 RefineTop Termination Domain LyraFacts Wide32 PLyra2Lemmas BigRows ReleaseRows.
From Verif Require Import SpecWord SpecLyra2 SpecCalls.
#[local] Open Scope Z_scope.
#[local] Opaque Z.pow.

Definition key_ok (p : platform) (k : Z) : Prop :=
  k <= 96 \/ usize_bits p = 32 /\ 2 ^ 63 <= k /\ k mod 2 ^ 32 <= 2 ^ 31 - 1.
Definition rows_of (p : platform) (R : Z) : Z := if R <? 2 ^ 63 then R else R mod 2 ^ (usize_bits p - 2).
Definition returning (p : platform) (k : Z) (pwd salt : list Z) (t R C : Z) : Prop :=
  1 <= t /\ 3 <= R /\ (2 ^ 63 <= R -> overflow_checks p = false /\ 2 <= rows_of p R) /\
  key_ok p k /\ 64 * n_blocks pwd salt <= 96 * rows_of p R * C <= isize_max p.

Lemma key_case p k : known_platform p ->
  (usize_bits p = 64 \/ k < 2 ^ 63) \/ usize_bits p = 32 /\ 2 ^ 63 <= k.
Proof. intros [Hb|Hb]; [|by left; left]. destruct (Z.lt_ge_cases k (2 ^ 63)); [left; by right|by right]. Qed.
Lemma key_small p k : known_platform p -> usize_bits p = 64 \/ k < 2 ^ 63 -> (key_ok p k <-> k <= 96).
Proof. intros _ Hk. unfold key_ok. split; [|by left]. intros [H|(Hb & H & _)]; [done|]. destruct Hk; lia. Qed.

(** What is returned for such a key is all zero, whatever the rows are. *)
Lemma wide_zero p sel k pwd salt t R C out : usize_bits p = 32 -> 2 ^ 63 <= k < 2 ^ 64 ->
  lyra2_with p sel k pwd salt t R C = Ok out ->
  k mod 2 ^ 32 <= 2 ^ 31 - 1 /\ out = replicate (Z.to_nat (k mod 2 ^ 32)) 0.
Proof.
  intros H32 Hk E. apply lyra2_with_squeeze in E as [st E]. rewrite (wide_squeeze p H32) in E by exact Hk.
  destruct (Z.leb_spec (k mod 2 ^ 32) (2 ^ 31 - 1)) as [H|H]; [|discriminate E]. injection E as <-. done.
Qed.
Lemma wide_zero_2 p k pwd salt t R C out : usize_bits p = 32 -> 2 ^ 63 <= k < 2 ^ 64 ->
  lyra2 p k pwd salt t R C = Ok out \/ lyra2mod p k pwd salt t R C = Ok out ->
  k mod 2 ^ 32 <= 2 ^ 31 - 1 /\ out = replicate (Z.to_nat (k mod 2 ^ 32)) 0.
Proof. intros H32 Hk [E|E]; exact (wide_zero p _ k pwd salt t R C out H32 Hk E). Qed.

Lemma returns_with p sel choose k pwd salt t R C : known_platform p -> sel_ok sel choose ->
  rust_args (isize_max p) k pwd salt t R C ->
  R < 2 ^ 63 \/ overflow_checks p = true \/ 12 * rows_of p R * C < 2 ^ usize_bits p ->
  (exists out, lyra2_with p sel k pwd salt t R C = Ok out) <-> returning p k pwd salt t R C.
Proof.
  intros Hp Hs Ha HR. pose proof Ha as ([Hk0 Hk1] & _ & _ & [HC _] & _). unfold returning, rows_of in *.
  destruct (Z.ltb_spec R (2 ^ 63)) as [Hlt|Hge].
  - destruct (key_case p k Hp) as [Hk|[H32 Hk]].
    + rewrite (key_small p k Hp Hk).
      destruct (dichotomy p sel choose k pwd salt t R C Hp Hs Ha (or_introl Hlt) Hk) as [[H E]|[H E]]; rewrite E.
      * split; [intros _|eauto]. unfold accepted in H. lia.
      * split; [intros [out E']; discriminate E'|]. intros H'. destruct H. unfold accepted. lia.
    + pose proof Ha as Ha'. rewrite (wide_isize p H32) in Ha'.
      destruct (wide_call p H32 sel choose k pwd salt t R C Hs Ha' Hlt Hk) as [[H E]|[H E]]; rewrite E;
        unfold accepted, key_ok in *; rewrite (wide_isize p H32).
      * split; [intros _|eauto]. repeat split; lia.
      * split; [intros [out E']; discriminate E'|]. intros (H1 & H2 & _ & H4 & H5). destruct H. split; [lia|]. destruct H4; lia.
  - destruct HR as [HR|HR]; [lia|]. destruct (overflow_checks p) eqn:Hc.
    + split; [|intros (_ & _ & H & _); destruct (H Hge) as [H' _]; discriminate H'].
      intros [out E]. rewrite (big_rows_panic p sel k pwd salt t R C Hp Hc Ha Hge) in E. discriminate E.
    + destruct HR as [HR|HR]; [discriminate HR|]. destruct (key_case p k Hp) as [Hk|[H32 Hk]].
      * rewrite (key_small p k Hp Hk). split.
        -- intros [out E]. apply (unchecked_inv p Hp Hc) in E; [|done..]. unfold unchecked_ok in E. lia.
        -- intros H. apply (unchecked_returns p Hp Hc); [done..|]. unfold unchecked_ok. lia.
      * split.
        -- intros [out E]. pose proof (wide_zero _ _ _ _ _ _ _ _ _ H32 (conj Hk Hk1) E) as [H _].
           apply (unchecked_fits p Hp Hc) in E; [|done..]. unfold unchecked_ok in E. unfold key_ok.
           repeat split; lia.
        -- intros (H1 & H2 & H3 & H4 & H5). destruct (H3 Hge) as [_ H6].
           assert (Hu : unchecked_ok p 0 pwd salt t R C) by (unfold unchecked_ok; lia).
           pose proof (unchecked_before p Hp Hc sel k pwd salt t R C Ha Hge Hu) as Hb.
           pose proof (terminates p Hp sel _ _ _ _ _ _ Ha) as Hf. rewrite (lyra2_with_before p) in Hf |- *.
           destruct (before_squeeze p sel k pwd salt t R C) as [st| |]; cbn [obind] in *; [|destruct Hb|destruct (Hf eq_refl)].
           rewrite (wide_squeeze p H32) by lia.
           rewrite (proj2 (Z.leb_le _ _)); [eauto|]. destruct H4 as [H4|H4]; lia.
Qed.
Lemma returns_any p k pwd salt t R C : known_platform p -> rust_args (isize_max p) k pwd salt t R C ->
  R < 2 ^ 63 \/ overflow_checks p = true \/ 12 * rows_of p R * C < 2 ^ usize_bits p ->
  ((exists out, lyra2 p k pwd salt t R C = Ok out) <-> returning p k pwd salt t R C) /\
  ((exists out, lyra2mod p k pwd salt t R C = Ok out) <-> returning p k pwd salt t R C).
Proof.
  intros Hp Ha HR. split.
  - exact (returns_with p _ _ k pwd salt t R C Hp sel_lyra2_ok Ha HR).
  - exact (returns_with p _ _ k pwd salt t R C Hp (sel_lyra2mod_ok p Hp) Ha HR).
Qed.

(** ** Failure depends on sizes only *)
Lemma panic_iff (o o' : outcome (list Z)) : o <> OutOfFuel -> o' <> OutOfFuel ->
  ((exists x, o = Ok x) <-> (exists x, o' = Ok x)) -> (o = Panic <-> o' = Panic).
Proof.
  intros H H' Hi. destruct o as [x| |], o' as [x'| |]; try done.
  - destruct (proj1 Hi (ex_intro _ x eq_refl)) as [? ?]. done.
  - destruct (proj2 Hi (ex_intro _ x' eq_refl)) as [? ?]. done.
Qed.
Lemma failure_sizes_any_key p k pwd salt pwd' salt' t R C :
  known_platform p -> rust_args (isize_max p) k pwd salt t R C -> rust_args (isize_max p) k pwd' salt' t R C ->
  R < 2 ^ 63 \/ overflow_checks p = true \/ 12 * (R mod 2 ^ (usize_bits p - 2)) * C < 2 ^ usize_bits p ->
  (length pwd + length salt = length pwd' + length salt')%nat ->
  (lyra2 p k pwd salt t R C = Panic <-> lyra2 p k pwd' salt' t R C = Panic) /\
  (lyra2mod p k pwd salt t R C = Panic <-> lyra2mod p k pwd' salt' t R C = Panic).
Proof.
  intros Hp Ha Ha' HR Hl.
  assert (HR' : R < 2 ^ 63 \/ overflow_checks p = true \/ 12 * rows_of p R * C < 2 ^ usize_bits p).
  { unfold rows_of. destruct (Z.ltb_spec R (2 ^ 63)) as [H|H]; [by left|exact HR]. }
  assert (Hn : n_blocks pwd salt = n_blocks pwd' salt') by (unfold n_blocks; do 2 f_equal; lia).
  destruct (returns_any p k pwd salt t R C Hp Ha HR') as [H1 H2].
  destruct (returns_any p k pwd' salt' t R C Hp Ha' HR') as [H1' H2'].
  unfold returning in *. rewrite <- Hn in H1', H2'.
  pose proof (terminates p Hp sel_lyra2 _ _ _ _ _ _ Ha) as T1. pose proof (terminates p Hp sel_lyra2 _ _ _ _ _ _ Ha') as T1'.
  pose proof (terminates p Hp (sel_lyra2mod p) _ _ _ _ _ _ Ha) as T2. pose proof (terminates p Hp (sel_lyra2mod p) _ _ _ _ _ _ Ha') as T2'.
  split.
  - exact (panic_iff _ _ T1 T1' (iff_trans H1 (iff_sym H1'))).
  - exact (panic_iff _ _ T2 T2' (iff_trans H2 (iff_sym H2'))).
Qed.
