(** * The message block can be read off the pipes of bmw::sum *)
From Verif Require Import Machine MachineFacts MUtils MBmwGen MBmw MDigestState WordFacts BmwFacts BmwPerm Padding.
From Verif Require Import SpecWord SpecBmw SpecPhases.
#[local] Open Scope Z_scope.

Lemma f0_code_take m h q : wblock m -> wblock h -> length q = 32%nat ->
  take 16 (compress_f0 m h q) = bmw_f0 m h /\ drop 16 (compress_f0 m h q) = drop 16 q.
Proof.
  intros [Lm Hm] [Lh Hh] Lq. rewrite f0_spec by done. destruct (f0_words m h) as [_ L0].
  split; [by rewrite take_app_alt|by rewrite drop_app_alt].
Qed.
Lemma f0_code_permutes h q : wblock h -> length q = 32%nat ->
  permutes_on wblock (fun m => take 16 (compress_f0 m h q)).
Proof.
  intros Hh Lq. destruct (f0_permutes h Hh) as (P1 & P2 & P3).
  assert (E : forall m, wblock m -> take 16 (compress_f0 m h q) = bmw_f0 m h)
    by (intros m Hm; by apply f0_code_take).
  split; [|split].
  - intros m Hm. rewrite E by done. by apply P1.
  - intros m m' Hm Hm'. rewrite !E by done. by apply P2.
  - intros y Hy. destruct (P3 y Hy) as (m & Hm & <-). exists m. by rewrite E.
Qed.

Lemma block_words_inj b b' : length b = 64%nat -> length b' = 64%nat -> Forall byte b -> Forall byte b' ->
  bmw_block_words b = bmw_block_words b' -> b = b'.
Proof.
  intros Hl Hl' Hb Hb' E. unfold bmw_block_words in E.
  assert (Hi : forall b, length b = 64%nat -> Forall byte b -> (le_number <$> chunks 4 b) ≫= le_bytes 4 = b).
  { clear. intros b Hl Hb. transitivity (mjoin (chunks 4 b)); [|apply (chunks_join 4 b 16); lia].
    assert (HF : Forall (fun c => length c = 4%nat /\ Forall byte c) (chunks 4 b)).
    { apply Forall_and. split; [apply (RefineInput.chunks_Forall_length 4); lia|by apply RefineInput.chunks_Forall]. }
    induction HF as [|c l [Hc Hcb] HF IH]; [done|]. cbn [fmap list_fmap mbind list_bind mjoin list_join].
    change (le_bytes 4 (le_number c) ++ ((le_number <$> l) ≫= le_bytes 4) = c ++ mjoin l). rewrite IH.
    f_equal. rewrite <- Hc at 1. by apply le_bytes_le_number. }
  rewrite <- (Hi b), <- (Hi b') by done. by rewrite E.
Qed.
Lemma code_block_iff d d' : (length d < 64)%nat -> (length d' < 64)%nat ->
  code_block d = code_block d' <-> length d = length d' /\ take 56 d = take 56 d'.
Proof.
  intros H H'. unfold code_block.
  assert (L : forall d : list Z, length (take 56 (d ++ 128 :: replicate 64 0)) = 56%nat).
  { intros e. rewrite take_length, app_length. cbn [length]. rewrite replicate_length. lia. }
  split.
  - intros E. apply app_inj_1 in E as [E1 E2]; [|by rewrite !L].
    apply (f_equal le_number) in E2.
    rewrite !le_number_le_bytes in E2 by (unfold word; lia).
    assert (El : length d = length d') by lia. split; [done|].
    apply (f_equal (take (length d))) in E1. rewrite !take_take in E1.
    rewrite !take_app_le in E1 by lia.
    transitivity (take (length d `min` 56) d);
      [|transitivity (take (length d `min` 56) d'); [exact E1|]].
    + destruct (decide (length d <= 56)%nat); [rewrite Nat.min_l by lia; rewrite !take_ge by lia; done|by rewrite Nat.min_r by lia].
    + destruct (decide (length d <= 56)%nat); [rewrite Nat.min_l by lia; rewrite !take_ge by lia; done|by rewrite Nat.min_r by lia].
  - intros [El Et]. rewrite El. f_equal.
    destruct (decide (56 <= length d)%nat).
    + by rewrite !take_app_le by lia.
    + rewrite !take_ge in Et by lia. by rewrite Et.
Qed.

#[local] Transparent bmw_new.
Lemma new_blocks : wblock (b_h bmw_new) /\ length (b_q bmw_new) = 32%nat /\ length (b_m bmw_new) = 16%nat.
Proof. destruct bmw_new_ok as ([] & _ & ?). done. Qed.
#[local] Opaque bmw_new.
Lemma final_block : wblock FINAL.
Proof. destruct final_ok as (? & _ & ?). done. Qed.

Lemma first_pipe_Ok p d : known_platform p -> (length d < 64)%nat -> Forall byte d ->
  wblock (bmw_block_words (code_block d)) /\
  bmw_first_pipe p d = Ok (bmw_block_words (code_block d),
    compress_f0 (bmw_block_words (code_block d)) (b_h bmw_new) (b_q bmw_new)).
Proof.
  intros Hp H Hb. destruct new_blocks as (_ & _ & Lm).
  pose proof (code_block_length d H) as Lc. pose proof (code_block_byte d Hb) as Hc.
  split; [destruct (bmw_block_words_ok _ Lc Hc); done|].
  unfold bmw_first_pipe. cbv zeta. rewrite bmw_buf_Ok by done. cbn [obind].
  rewrite bmw_words_Ok by done. reflexivity.
Qed.
Lemma first_pipe_iff p p' d d' m q m' q' : known_platform p -> known_platform p' ->
  (length d < 64)%nat -> (length d' < 64)%nat -> Forall byte d -> Forall byte d' ->
  bmw_first_pipe p d = Ok (m, q) -> bmw_first_pipe p' d' = Ok (m', q') ->
  (take 16 q = take 16 q' <-> length d = length d' /\ take 56 d = take 56 d') /\
  (m = m' <-> length d = length d' /\ take 56 d = take 56 d').
Proof.
  intros Hp Hp' H H' Hb Hb' E E'.
  destruct (first_pipe_Ok p d Hp H Hb) as [Bm Em]. destruct (first_pipe_Ok p' d' Hp' H' Hb') as [Bm' Em'].
  rewrite E in Em. rewrite E' in Em'. clear E E'.
  assert (E1 : m = bmw_block_words (code_block d)) by congruence.
  assert (E2 : q = compress_f0 m (b_h bmw_new) (b_q bmw_new)) by congruence.
  assert (E1' : m' = bmw_block_words (code_block d')) by congruence.
  assert (E2' : q' = compress_f0 m' (b_h bmw_new) (b_q bmw_new)) by congruence.
  clear Em Em'. rewrite <- E1 in Bm. rewrite <- E1' in Bm'.
  destruct new_blocks as (Bh & Lq & _).
  assert (M : m = m' <-> length d = length d' /\ take 56 d = take 56 d').
  { rewrite <- code_block_iff by done. rewrite E1, E1'. split; [|congruence].
    apply block_words_inj; (by apply code_block_length) || (by apply code_block_byte). }
  split; [|exact M]. rewrite <- M. rewrite E2, E2'. split; [|congruence].
  apply (f0_code_permutes (b_h bmw_new) (b_q bmw_new) Bh Lq); done.
Qed.
Lemma first_pipe_exists p d : known_platform p -> Forall byte d ->
  ((length d < 64)%nat <-> exists m q, bmw_first_pipe p d = Ok (m, q) /\ wblock m /\ wblock (take 16 q) /\ length q = 32%nat).
Proof.
  intros Hp Hb. split.
  - intros H. destruct (first_pipe_Ok p d Hp H Hb) as [Bm Em]. eexists _, _. split; [exact Em|].
    destruct new_blocks as (Bh & Lq & _). split; [exact Bm|].
    split; [by apply (f0_code_permutes (b_h bmw_new) (b_q bmw_new) Bh Lq)|].
    destruct Bm as [? ?], Bh as [? ?]. rewrite f0_spec by done. rewrite app_length, drop_length.
    destruct (f0_words (bmw_block_words (code_block d)) (b_h bmw_new)) as [_ ->]. lia.
  - intros (m & q & E & _). destruct (decide (length d < 64)%nat); [done|]. exfalso.
    unfold bmw_first_pipe in E. cbv zeta in E. rewrite bmw_buf_Panic in E by (done || lia). discriminate E.
Qed.
#[local] Transparent compress.
Lemma three_parts p d :
  bmw_sum p d = ('(m, q) <-- bmw_first_pipe p d ;;
                 let '(h, q) := bmw_fold_first m q in
                 bmw_read p h (bmw_second_pipe h q)).
Proof.
  unfold bmw_sum, bmw_first_pipe. cbv zeta. destruct (bmw_buf p d) as [buf| |]; [|reflexivity..]. cbn [obind].
  destruct (bmw_words buf (b_m bmw_new)) as [m| |]; [|reflexivity..]. cbn [obind].
  unfold bmw_fold_first, bmw_second_pipe, bmw_read, compress. cbv zeta. cbn [b_m b_h b_h2 b_q obind].
  generalize compress_f0 compress_f1 compress_f2. intros f0 f1 f2. reflexivity.
Qed.

#[local] Opaque compress.
Lemma fold_first_words p d m q : known_platform p -> (length d < 64)%nat -> Forall byte d ->
  bmw_first_pipe p d = Ok (m, q) ->
  wblock (fst (bmw_fold_first m q)) /\ length (snd (bmw_fold_first m q)) = 32%nat.
Proof.
  intros Hp H Hb E. destruct (first_pipe_Ok p d Hp H Hb) as [Bm Em]. rewrite E in Em.
  assert (E1 : m = bmw_block_words (code_block d)) by congruence.
  assert (E2 : q = compress_f0 m (b_h bmw_new) (b_q bmw_new)) by congruence.
  clear Em E. rewrite <- E1 in Bm. clear E1. subst q.
  destruct Bm as [Lm Hm]. destruct bmw_new_ok as ([Hh Lh Hq Lq] & _ & _).
  unfold bmw_fold_first. cbv zeta. cbn [fst snd]. rewrite f0_spec by done.
  destruct (f0_words m (b_h bmw_new)) as [W0 L0].
  destruct (f1_spec m (b_h bmw_new) (drop 16 (b_q bmw_new)) (bmw_f0 m (b_h bmw_new)) Hm Hh Lm Lh
     (Forall_drop _ 16 _ Hq) W0 L0 ltac:(rewrite drop_length; lia)) as (-> & W1 & L1).
  rewrite f2_spec by done. destruct (f2_words m (bmw_f1 m (b_h bmw_new) (bmw_f0 m (b_h bmw_new)))). done.
Qed.
Lemma second_pipe_iff h h' q q' : wblock h -> wblock h' -> length q = 32%nat -> length q' = 32%nat ->
  take 16 (bmw_second_pipe h q) = take 16 (bmw_second_pipe h' q') <-> h = h'.
Proof.
  intros B B' L L'. unfold bmw_second_pipe.
  destruct (f0_code_take h FINAL q B final_block L) as [-> _].
  destruct (f0_code_take h' FINAL q' B' final_block L') as [-> _].
  split; [|by intros ->]. by apply (f0_permutes FINAL final_block).
Qed.
Lemma collisions_fold p d d' : known_platform p -> (length d <= 55)%nat -> (length d' <= 55)%nat ->
  Forall byte d -> Forall byte d' -> d <> d' ->
  exists m q m' q' h r h' r',
    bmw_first_pipe p d = Ok (m, q) /\ bmw_first_pipe p d' = Ok (m', q') /\ take 16 q <> take 16 q' /\
    bmw_fold_first m q = (h, r) /\ bmw_fold_first m' q' = (h', r') /\
    (h = h' <-> take 16 (bmw_second_pipe h r) = take 16 (bmw_second_pipe h' r')).
Proof.
  intros Hp H H' Hb Hb' Hd.
  destruct (first_pipe_exists p d Hp Hb) as [X _]. destruct (X ltac:(lia)) as (m & q & E & _). clear X.
  destruct (first_pipe_exists p d' Hp Hb') as [X _]. destruct (X ltac:(lia)) as (m' & q' & E' & _). clear X.
  destruct (fold_first_words p d m q Hp ltac:(lia) Hb E) as [B L].
  destruct (fold_first_words p d' m' q' Hp ltac:(lia) Hb' E') as [B' L'].
  destruct (first_pipe_iff p p d d' m q m' q' Hp Hp ltac:(lia) ltac:(lia) Hb Hb' E E') as [I _].
  exists m, q, m', q', (fst (bmw_fold_first m q)), (snd (bmw_fold_first m q)),
    (fst (bmw_fold_first m' q')), (snd (bmw_fold_first m' q')).
  split; [exact E|]. split; [exact E'|]. split.
  { intros Eq. apply I in Eq as [_ Eq]. rewrite !take_ge in Eq by lia. contradiction. }
  split; [apply surjective_pairing|]. split; [apply surjective_pairing|].
  symmetry. by apply second_pipe_iff.
Qed.
Lemma first_pipe_injective p p' d d' : known_platform p -> known_platform p' ->
  (length d < 64)%nat -> (length d' < 64)%nat -> Forall byte d -> Forall byte d' ->
  (exists m q, bmw_first_pipe p d = Ok (m, q) /\ length q = 32%nat) /\
  forall m q m' q', bmw_first_pipe p d = Ok (m, q) -> bmw_first_pipe p' d' = Ok (m', q') ->
    take 16 q = take 16 q' <-> length d = length d' /\ take 56 d = take 56 d'.
Proof.
  intros Hp Hp' H H' Hb Hb'. split.
  - destruct (first_pipe_exists p d Hp Hb) as [X _]. destruct (X H) as (m & q & E & _ & _ & L). eauto.
  - intros m q m' q' E E'. exact (proj1 (first_pipe_iff p p' d d' m q m' q' Hp Hp' H H' Hb Hb' E E')).
Qed.
