(** * Lemmas behind the theorems of PPhases.v *)
From Verif Require Import Machine MachineFacts MUtils WordFacts Schedule Refine Refine2 RefineInput RefineTop Domain LyraFacts Padding SpongeFacts InjFacts TraceFacts PhaseFacts PLyra2Lemmas.
From Verif Require Import SpecWord SpecBlake2b SpecLyra2 SpecCalls SpecSchedule SpecPhases.
From Verif Require MLyra2.
From Verif Require Import MTrace MPhases.
#[local] Opaque blake2b_round MLyra2.duplex_row MLyra2.wander_next.
#[local] Open Scope Z_scope.

(** ** Inputs that differ in one block *)
Lemma chunks_app_mul {A} n (a l : list A) q : (0 < n)%nat -> length a = (q * n)%nat ->
  chunks n (a ++ l) = chunks n a ++ chunks n l.
Proof.
  intros Hn. revert a. induction q as [|q IH]; intros a Ha.
  - destruct a; [|done]. by rewrite chunks_nil.
  - assert (Ht : length (take n a) = n) by (rewrite take_length; lia).
    rewrite <- (take_drop n a), <- app_assoc. rewrite (chunks_app n (take n a) (drop n a ++ l)) by done.
    rewrite (chunks_app n (take n a) (drop n a)) by done.
    rewrite (IH (drop n a)); [reflexivity|]. rewrite drop_length. lia.
Qed.
Lemma one_block (A X X' Y : list Z) q N : length A = (q * 8)%nat -> length X = length X' -> (length X <= 8)%nat ->
  (length A + 8 <= length (A ++ X ++ Y))%nat -> length (A ++ X ++ Y) = (N * 8)%nat -> X <> X' ->
  one_block_apart (chunks 8 (A ++ X ++ Y)) (chunks 8 (A ++ X' ++ Y)).
Proof.
  intros HA HX HX8 Hlen HN Hne. rewrite !app_length in *.
  set (Y1 := take (8 - length X) Y). set (Y2 := drop (8 - length X) Y).
  assert (HY1 : length Y1 = (8 - length X)%nat) by (unfold Y1; rewrite take_length; lia).
  assert (HY : Y = Y1 ++ Y2) by (symmetry; apply take_drop). rewrite HY.
  exists (chunks 8 A), (X ++ Y1), (X' ++ Y1), (chunks 8 Y2).
  rewrite (app_assoc X), (app_assoc X'). split; [|split].
  - rewrite (chunks_app_mul 8 A _ q), (chunks_app 8) by (lia || (rewrite app_length; lia)). done.
  - rewrite (chunks_app_mul 8 A _ q), (chunks_app 8) by (lia || (rewrite app_length; lia)). done.
  - intros E. apply Hne. by apply app_inv_tail in E.
Qed.
Lemma one_word (P Y : list Z) w w' N : length (P ++ w :: Y) = (N * 8)%nat -> w <> w' ->
  one_block_apart (chunks 8 (P ++ w :: Y)) (chunks 8 (P ++ w' :: Y)).
Proof.
  intros HN Hne. set (q := (length P / 8)%nat).
  pose proof (Nat.div_mod (length P) 8 ltac:(lia)) as Hd. fold q in Hd.
  pose proof (Nat.mod_upper_bound (length P) 8 ltac:(lia)) as Hm.
  rewrite <- (take_drop (8 * q) P). rewrite app_length in HN. cbn [length] in HN.
  change (w :: Y) with ([w] ++ Y). change (w' :: Y) with ([w'] ++ Y).
  rewrite <- !app_assoc, !(app_assoc (drop (8 * q) P)).
  assert (Hlt : length (take (8 * q) P) = (q * 8)%nat) by (rewrite take_length; lia).
  apply (one_block _ _ _ _ q N).
  - exact Hlt.
  - by rewrite !app_length.
  - rewrite app_length, drop_length. cbn [length]. lia.
  - rewrite !app_length, drop_length, Hlt. cbn [length]. lia.
  - rewrite !app_length, drop_length, Hlt. cbn [length]. lia.
  - intros E%app_inv_head. congruence.
Qed.

(** ** The input of the code, piece by piece *)
Lemma alter_split (f : Z -> Z) (A Y : list Z) n : (length A <= n)%nat ->
  alter f n (A ++ Y) = A ++ alter f (n - length A)%nat Y.
Proof. intros H. by apply alter_app_r_alt. Qed.
Lemma padded_length k pwd salt t R C :
  length (code_padded k pwd salt t R C) = (Z.to_nat (n_blocks pwd salt) * 8)%nat.
Proof. pose proof (code_padded_length k pwd salt t R C). pose proof (n_blocks_bounds pwd salt). lia. Qed.
Lemma padded_k (k : Z) pwd salt t R C : exists Y,
  forall k', code_padded k' pwd salt t R C = (complete_words pwd ++ complete_words salt) ++ k' :: Y.
Proof.
  pose proof (n_blocks_bounds pwd salt) as Hn. pose proof (body_words_length k pwd salt t R C) as Hl.
  unfold body_words in Hl. rewrite !app_length in Hl. cbn [length] in Hl. unfold vlen in Hl, Hn.
  destruct (Z.to_nat (8 * n_blocks pwd salt) - 1 - (length (complete_words pwd) + length (complete_words salt)))%nat as [|i] eqn:Ei; [lia|].
  eexists. intros k'. unfold code_padded. cbv zeta.
  rewrite !app_length. cbn [length].
  assert (Hs : forall Z1, (complete_words pwd ++ complete_words salt ++
      [k'; Z.of_nat (length pwd); Z.of_nat (length salt); t; R; C; 128]) ++ Z1 =
    (complete_words pwd ++ complete_words salt) ++ k' :: Z.of_nat (length pwd) :: Z.of_nat (length salt) :: t :: R :: C :: 128 :: Z1).
  { intros. rewrite <- !app_assoc. reflexivity. }
  rewrite Hs. clear Hs.
  rewrite alter_split by (rewrite !app_length; lia).
  f_equal. rewrite !app_length.
  rewrite Ei.
  reflexivity.
Qed.
Lemma padded_t pwd salt (t : Z) R C k : exists P Y,
  forall t', code_padded k pwd salt t' R C = P ++ t' :: Y.
Proof.
  pose proof (n_blocks_bounds pwd salt) as Hn. pose proof (body_words_length k pwd salt t R C) as Hl.
  unfold body_words in Hl. rewrite !app_length in Hl. cbn [length] in Hl. unfold vlen in Hl, Hn.
  destruct (Z.to_nat (8 * n_blocks pwd salt) - 1 - (length (complete_words pwd) + (length (complete_words salt) + 3)))%nat as [|i] eqn:Ei; [lia|].
  exists (complete_words pwd ++ complete_words salt ++ [k; Z.of_nat (length pwd); Z.of_nat (length salt)]). eexists.
  intros t'. unfold code_padded. cbv zeta.
  rewrite !app_length. cbn [length].
  assert (Hs : forall Z1, (complete_words pwd ++ complete_words salt ++
      [k; Z.of_nat (length pwd); Z.of_nat (length salt); t'; R; C; 128]) ++ Z1 =
    (complete_words pwd ++ complete_words salt ++ [k; Z.of_nat (length pwd); Z.of_nat (length salt)]) ++ t' :: R :: C :: 128 :: Z1).
  { intros. rewrite <- !app_assoc. reflexivity. }
  rewrite Hs. clear Hs.
  rewrite alter_split by (rewrite !app_length; cbn [length]; lia).
  f_equal. rewrite !app_length. cbn [length].
  rewrite Ei.
  reflexivity.
Qed.
Lemma padded_pwd k (pwd : list Z) salt t R C : exists Y,
  forall pwd', length pwd' = length pwd -> code_padded k pwd' salt t R C = complete_words pwd' ++ Y.
Proof.
  pose proof (n_blocks_bounds pwd salt) as Hn. pose proof (body_words_length k pwd salt t R C) as Hl.
  unfold body_words in Hl. rewrite !app_length in Hl. cbn [length] in Hl. unfold vlen in Hl, Hn.
  eexists. intros pwd' Hlen. unfold code_padded. cbv zeta.
  assert (Hnb : n_blocks pwd' salt = n_blocks pwd salt) by (unfold n_blocks; by rewrite Hlen).
  assert (Hcw : length (complete_words pwd') = length (complete_words pwd)) by (by rewrite !complete_words_length, Hlen).
  rewrite Hnb, Hlen, <- app_assoc, !app_length, Hcw. cbn [length].
  rewrite alter_split by lia. rewrite Hcw. reflexivity.
Qed.
Lemma padded_both k (d : list Z) t R C : exists Y,
  forall d', length d' = length d -> code_padded k d' d' t R C = (complete_words d' ++ complete_words d') ++ Y.
Proof.
  pose proof (n_blocks_bounds d d) as Hn. pose proof (body_words_length k d d t R C) as Hl.
  unfold body_words in Hl. rewrite !app_length in Hl. cbn [length] in Hl. unfold vlen in Hl, Hn.
  eexists. intros d' Hlen. unfold code_padded. cbv zeta.
  assert (Hnb : n_blocks d' d' = n_blocks d d) by (unfold n_blocks; by rewrite Hlen).
  assert (Hcw : length (complete_words d') = length (complete_words d)) by (by rewrite !complete_words_length, Hlen).
  rewrite Hnb, Hlen, !app_length, Hcw. cbn [length].
  rewrite (app_assoc (complete_words d')), <- (app_assoc (complete_words d' ++ complete_words d')).
  rewrite alter_split by (rewrite app_length; lia). rewrite app_length, Hcw. reflexivity.
Qed.
Lemma complete_words_app a b q : length a = (q * 8)%nat ->
  complete_words (a ++ b) = complete_words a ++ complete_words b.
Proof. intros H. unfold complete_words. rewrite (chunks_app_mul 8 a b q) by lia. apply fmap_app. Qed.

Lemma apart_k k k' pwd salt t R C : k <> k' ->
  one_block_apart (code_blocks k pwd salt t R C) (code_blocks k' pwd salt t R C).
Proof.
  intros Hk. unfold code_blocks. pose proof (padded_length k pwd salt t R C) as Hl.
  destruct (padded_k k pwd salt t R C) as [Y HY]. rewrite HY in Hl. rewrite !HY.
  by eapply one_word.
Qed.
Lemma apart_t k pwd salt t t' R C : t <> t' ->
  one_block_apart (code_blocks k pwd salt t R C) (code_blocks k pwd salt t' R C).
Proof.
  intros Ht. unfold code_blocks. pose proof (padded_length k pwd salt t R C) as Hl.
  destruct (padded_t pwd salt t R C k) as (P & Y & HY). rewrite HY in Hl. rewrite !HY.
  by eapply one_word.
Qed.
Lemma apart_pwd k a x x' b salt t R C q : Forall byte x -> Forall byte x' ->
  length a = (q * 64)%nat -> length x = length x' -> (8 | Z.of_nat (length x)) -> (length x <= 64)%nat -> x <> x' ->
  one_block_apart (code_blocks k (a ++ x ++ b) salt t R C) (code_blocks k (a ++ x' ++ b) salt t R C).
Proof.
  intros Hx Hx' Ha Hlx [r Hr] H64 Hne. unfold code_blocks.
  pose proof (padded_length k (a ++ x ++ b) salt t R C) as Hl.
  pose proof (n_blocks_bounds (a ++ x ++ b) salt) as Hnb.
  destruct (padded_pwd k (a ++ x ++ b) salt t R C) as [Y HY].
  rewrite HY in Hl by done. rewrite !HY by (done || (rewrite !app_length; lia)). clear HY.
  assert (Hr' : length x = (Z.to_nat r * 8)%nat) by lia.
  rewrite (complete_words_app a _ (q * 8)) in Hl |- * by lia.
  rewrite (complete_words_app a _ (q * 8)) by lia.
  rewrite (complete_words_app x _ (Z.to_nat r)) in Hl |- * by lia.
  rewrite (complete_words_app x' _ (Z.to_nat r)) by lia.
  rewrite <- !app_assoc in Hl. rewrite <- (app_assoc _ (complete_words x ++ _)), <- (app_assoc _ (complete_words x' ++ _)).
  rewrite <- (app_assoc (complete_words x)), <- (app_assoc (complete_words x')).
  assert (Hwa : length (complete_words a) = (q * 8)%nat).
  { rewrite complete_words_length, Ha. replace (q * 64)%nat with (q * 8 * 8)%nat by lia. apply Nat.div_mul. lia. }
  assert (Hwx : length (complete_words x) = Z.to_nat r).
  { rewrite complete_words_length, Hr'. apply Nat.div_mul. lia. }
  assert (Hwx' : length (complete_words x') = Z.to_nat r).
  { rewrite complete_words_length, <- Hlx, Hr'. apply Nat.div_mul. lia. }
  eapply (one_block _ _ _ _ q); [lia|lia|lia| |exact Hl|].
  - rewrite Hl, Hwa. unfold vlen in Hnb. rewrite !app_length in Hnb.
    assert (Z.of_nat (q * 64) + 1 <= 64 * n_blocks (a ++ x ++ b) salt).
    { unfold n_blocks. rewrite !app_length. 
      pose proof (Z.div_mod (Z.of_nat (length a + (length x + length b)) + Z.of_nat (length salt) + 48) 64 ltac:(lia)).
      pose proof (Z.mod_pos_bound (Z.of_nat (length a + (length x + length b)) + Z.of_nat (length salt) + 48) 64 ltac:(lia)).
      lia. }
    lia.
  - intros E. apply Hne. by apply (complete_words_inj x x' (Z.to_nat r)) in E; [..|lia|lia].
Qed.
Lemma apart_both k d d' t R C : Forall byte d -> Forall byte d' ->
  length d = length d' -> (8 | Z.of_nat (length d)) -> (length d <= 32)%nat -> d <> d' ->
  one_block_apart (code_blocks k d d t R C) (code_blocks k d' d' t R C).
Proof.
  intros Hx Hx' Hlx [r Hr] H64 Hne. unfold code_blocks.
  pose proof (padded_length k d d t R C) as Hl.
  pose proof (n_blocks_bounds d d) as Hnb.
  destruct (padded_both k d t R C) as [Y HY].
  rewrite HY in Hl by done. rewrite !HY by lia. clear HY.
  assert (Hr' : length d = (Z.to_nat r * 8)%nat) by lia.
  assert (Hwx : length (complete_words d) = Z.to_nat r).
  { rewrite complete_words_length, Hr'. apply Nat.div_mul. lia. }
  assert (Hwx' : length (complete_words d') = Z.to_nat r).
  { rewrite complete_words_length, <- Hlx, Hr'. apply Nat.div_mul. lia. }
  apply (one_block [] (complete_words d ++ complete_words d) (complete_words d' ++ complete_words d') Y 0 (Z.to_nat (n_blocks d d))
    eq_refl); [rewrite !app_length; lia|rewrite !app_length; lia| |exact Hl|].
  - cbn [app]. rewrite Hl. cbn [length]. lia.
  - intros E. apply app_inj_1 in E as [E _]; [|lia].
    apply Hne. by apply (complete_words_inj d d' (Z.to_nat r)) in E; [..|lia|lia].
Qed.

(** ** Setup *)
Lemma setup_apart p k pwd salt t k' pwd' salt' t' R C : known_platform p ->
  rust_args (isize_max p) k pwd salt t R C -> rust_args (isize_max p) k' pwd' salt' t' R C ->
  accepted (isize_max p) 0 pwd salt t R C -> accepted (isize_max p) 0 pwd' salt' t' R C ->
  one_block_apart (code_blocks k pwd salt t R C) (code_blocks k' pwd' salt' t' R C) ->
  exists rl m st m' st' v,
    until_setup p k pwd salt t R C = Ok (rl, m, st, v) /\
    until_setup p k' pwd' salt' t' R C = Ok (rl, m', st', v) /\ (m, st) <> (m', st').
Proof.
  intros Hp Ha Ha' Hacc Hacc' (xs & b & b' & ys & Eb & Eb' & Hne).
  destruct Ha as (Hk & Ht & HRw & HCw & Hpw & Hsa). destruct Ha' as (Hk' & Ht' & _ & _ & Hpw' & Hsa').
  pose proof (proj1 Hpw) as Hbp. pose proof (proj1 Hsa) as Hbs. pose proof (proj1 Hpw') as Hbp'. pose proof (proj1 Hsa') as Hbs'.
  assert (Hw64 : forall l, rust_slice (isize_max p) l -> word 64 (vlen l)).
  { intros l [_ Hl]%(isize_word p Hp). pose proof (vlen_nonneg l). unfold word. lia. }
  apply Hw64 in Hpw, Hsa, Hpw', Hsa'. clear Hw64.
  destruct (until_setup_Ok p k pwd salt t R C Hp Hbp Hbs Ht Hk Hacc) as (m & st & M0 & Hw & E & HRel).
  destruct (until_setup_Ok p k' pwd' salt' t' R C Hp Hbp' Hbs' Ht' Hk' Hacc') as (m' & st' & M0' & Hw' & E' & HRel').
  exists (12 * C), m, st, m', st', (rows_at R). split; [exact E|]. split; [exact E'|]. intros Es.
  destruct Hacc as (_ & HR & _ & HC0 & Hsz & Hmax).
  rewrite <- Es in HRel'. pose proof (Rel_agree R C _ _ _ HRel HRel') as Hag.
  apply (setup_back R C HR) in Hag; [|exact Hw|exact Hw']. cbn [snd] in Hag. unfold absorb_all in Hag.
  rewrite Eb, Eb' in Hag. apply Hne.
  pose proof (code_blocks_block8 k pwd salt t R C Hbp Hbs Hk Hpw Hsa Ht HRw HCw) as H8.
  pose proof (code_blocks_block8 k' pwd' salt' t' R C Hbp' Hbs' Hk' Hpw' Hsa' Ht' HRw HCw) as H8'.
  rewrite Eb in H8. rewrite Eb' in H8'.
  apply Forall_app in H8 as [H1 H2]. apply Forall_cons in H2 as [H2 H3].
  apply Forall_app in H8' as [_ H2']. apply Forall_cons in H2' as [H2' _].
  eapply (absorb_one_block sponge_init xs b b' ys); [apply sponge_init_state16|exact H1|exact H2|exact H2'|exact H3|exact Hag].
Qed.

(** ** Wandering *)
Lemma until_wandering_inj p sel k pwd salt k' pwd' salt' t R C rl rl' m st ra ra' log : known_platform p ->
  rust_args (isize_max p) k pwd salt t R C -> rust_args (isize_max p) k' pwd' salt' t R C ->
  accepted (isize_max p) 0 pwd salt t R C -> accepted (isize_max p) 0 pwd' salt' t R C ->
  until_wandering p sel k pwd salt t R C = Ok (rl, m, st, ra, log) ->
  until_wandering p sel k' pwd' salt' t R C = Ok (rl', m, st, ra', log) ->
  until_setup p k pwd salt t R C = until_setup p k' pwd' salt' t R C.
Proof.
  intros Hp Ha Ha' Hacc Hacc' E E'.
  destruct Ha as (Hk & Ht & HRw & HCw & [Hbp _] & [Hbs _]). destruct Ha' as (Hk' & _ & _ & _ & [Hbp' _] & [Hbs' _]).
  destruct (until_setup_Ok p k pwd salt t R C Hp Hbp Hbs Ht Hk Hacc) as (m0 & st0 & M0 & Hw & Es & HRel).
  destruct (until_setup_Ok p k' pwd' salt' t R C Hp Hbp' Hbs' Ht Hk' Hacc') as (m0' & st0' & M0' & Hw' & Es' & HRel').
  unfold until_wandering in E, E'. rewrite Es in E. rewrite Es' in E'. cbn [obind] in E, E'.
  change (MLyra2.r_prev (rows_at R)) with (R - 1) in E, E'. change (MLyra2.r_rowa (rows_at R)) with (setup_rowa R) in E, E'.
  apply obind_Ok_inv in E as ([[[[[[m1 st1] i1] row1] prev1] rowa1] log1] & E1 & [= <- <- <- <- <-]).
  apply obind_Ok_inv in E' as ([[[[[[m2 st2] i2] row2] prev2] rowa2] log2] & E2 & [= <- -> -> <- ->]).
  destruct Hacc as (_ & HR & _ & HC0 & Hsz & Hmax). pose proof (n_blocks_bounds pwd salt).
  assert (HC : 1 <= C) by (destruct (Z.eq_dec C 0) as [->|]; lia).
  assert ((m0, st0) = (m0', st0')) as [= <- <-].
  { eapply (wander_inj p Hp R C HR HC Hmax sel t m0 st0 m0' st0' _ _ Ht); [by eapply Rel_good|by eapply Rel_good|exact E1|exact E2|reflexivity|reflexivity]. }
  rewrite Es, Es'. reflexivity.
Qed.
Lemma wandering_apart p sel k pwd salt k' pwd' salt' t R C rl rl' m st ra m' st' ra' log : known_platform p ->
  rust_args (isize_max p) k pwd salt t R C -> rust_args (isize_max p) k' pwd' salt' t R C ->
  accepted (isize_max p) 0 pwd salt t R C -> accepted (isize_max p) 0 pwd' salt' t R C ->
  one_block_apart (code_blocks k pwd salt t R C) (code_blocks k' pwd' salt' t R C) ->
  until_wandering p sel k pwd salt t R C = Ok (rl, m, st, ra, log) ->
  until_wandering p sel k' pwd' salt' t R C = Ok (rl', m', st', ra', log) ->
  (m, st) <> (m', st').
Proof.
  intros Hp Ha Ha' Hacc Hacc' Hone E E' [= <- <-].
  pose proof (until_wandering_inj p sel k pwd salt k' pwd' salt' t R C rl rl' m st ra ra' log Hp Ha Ha' Hacc Hacc' E E') as Heq.
  destruct (setup_apart p k pwd salt t k' pwd' salt' t R C Hp Ha Ha' Hacc Hacc' Hone) as (? & ? & ? & ? & ? & ? & E1 & E2 & Hne).
  rewrite E1, E2 in Heq. apply Hne. congruence.
Qed.
