(** * What the access log of a call contains *)
From Verif Require Import Machine MachineFacts MUtils WordFacts Schedule Refine Refine2 RefineInput RefineTop Domain LyraFacts Padding.
From Verif Require Import SpecWord SpecBlake2b SpecLyra2 SpecCalls SpecSchedule.
From Verif Require MLyra2.
From Verif Require Import MTrace TraceFacts MAccess SpecAccess.
Import MLyra2 (rows_init, rows_next, r_row, r_prev, r_rowa, offs12, rotW_pairs).
#[local] Opaque blake2b_round.

(** ** Erasing the log *)
Definition erase {A} (x : acc A) : outcome A := omapo fst x.
Lemma erase_ret {A} (a : A) : erase (aret a) = Ok a.
Proof. done. Qed.
Lemma erase_quiet {A} (x : outcome A) : erase (quiet x) = x.
Proof. by destruct x. Qed.
Lemma erase_bind {A B} (x : acc A) (f : A -> acc B) : erase (abind x f) = obind (erase x) (fun a => erase (f a)).
Proof. destruct x as [[a l]| |]; [|done..]. cbn. by destruct (f a) as [[b l']| |]. Qed.
Lemma erase_rd m a : erase (rd m a) = vget m a.
Proof. unfold rd. by destruct (vget m a). Qed.
Lemma erase_wr m a x : erase (wr m a x) = vset m a x.
Proof. unfold wr. by destruct (vset m a x). Qed.
Lemma erase_rd_right b w j : erase (rd_right b w j) = vget w j.
Proof. unfold rd_right. by destruct (vget w j). Qed.
Lemma erase_perm v : erase (perm v) = Ok (MLyra2.round_lyra v).
Proof. done. Qed.
Lemma erase_fold {A S} (f : S -> A -> acc S) (h : S -> A -> outcome S) l s :
  (forall s a, erase (f s a) = h s a) -> erase (afold f l s) = foldM h l s.
Proof.
  intros H. revert s. induction l as [|a l IH]; intros s; [done|]. cbn [afold foldM].
  rewrite erase_bind, H. apply obind_ext. intros s' _. apply IH.
Qed.
Lemma erase_for {S} lo hi (body : Z -> S -> acc S) (h : Z -> S -> outcome S) s :
  (forall i s, erase (body i s) = h i s) -> erase (afor lo hi body s) = for_range lo hi h s.
Proof.
  intros H. unfold erase, afor. rewrite (for_range_erase fst lo hi h); [done|].
  intros i [s1 l]. cbn [fst]. rewrite <- H. unfold erase. by destruct (body i s1) as [[??]| |].
Qed.
Lemma erase_loop {S T} (body : S -> acc (S + T)) (h : S -> outcome (S + T)) s :
  (forall s, erase (body s) = h s) -> erase (aloop body s) = loop64 h s.
Proof.
  intros H. unfold erase, aloop. rewrite (loop64_erase fst fst h); [done|].
  intros [s1 l]. cbn [fst]. rewrite <- H. unfold erase. by destruct (body s1) as [[[?|?]?]| |].
Qed.
Ltac er := repeat first
  [ rewrite erase_bind | rewrite erase_quiet | rewrite erase_rd | rewrite erase_wr
  | rewrite erase_rd_right | rewrite erase_ret ].
Ltac er_steps := repeat first
  [ progress er | apply obind_ext; intros ? _ | reflexivity
  | match goal with |- context [match ?x with (_, _) => _ end] => destruct x end ].

Section erase.
Context (p : platform).
Lemma blake2b_erase v : erase (blake2b_lyra_acc v) = Ok (MLyra2.blake2b_lyra v).
Proof. unfold blake2b_lyra_acc. do 12 (rewrite erase_bind, erase_perm; cbn [obind]). done. Qed.
Lemma reduced_erase v : erase (reduced_acc v) = Ok (MLyra2.reduced_blake2b_lyra v).
Proof. done. Qed.
Lemma xor_in_erase b w s j : erase (xor_in_acc b w s j) = MLyra2.xor_in w s j.
Proof. unfold xor_in_acc, MLyra2.xor_in. er_steps. Qed.
Lemma absorb_block_erase b s w : erase (absorb_block_acc b s w) = MLyra2.absorb_block s w.
Proof.
  unfold absorb_block_acc, MLyra2.absorb_block. rewrite erase_bind.
  rewrite (erase_fold _ (MLyra2.xor_in w)) by (intros; apply xor_in_erase).
  apply obind_ext. intros s' _. apply blake2b_erase.
Qed.
Lemma absorb_safe_erase b s w : erase (absorb_block_blake2_safe_acc b s w) = MLyra2.absorb_block_blake2_safe s w.
Proof.
  unfold absorb_block_blake2_safe_acc, MLyra2.absorb_block_blake2_safe. rewrite erase_bind.
  rewrite (erase_fold _ (MLyra2.xor_in w)) by (intros; apply xor_in_erase).
  apply obind_ext. intros s' _. apply blake2b_erase.
Qed.
Lemma squeeze_acc_erase st k : erase (squeeze_acc p st k) = MLyra2.squeeze p st k.
Proof.
  unfold squeeze_acc, MLyra2.squeeze. cbv zeta. rewrite erase_bind, erase_quiet. apply obind_ext. intros out _.
  rewrite erase_bind, erase_quiet. apply obind_ext. intros jmax _. rewrite erase_bind.
  erewrite erase_for; [apply obind_ext; by intros [[? ?] ?] _|].
  intros _ [[tmp o] s]. cbv beta iota. rewrite erase_bind, erase_quiet. apply obind_ext. intros tmp' _.
  rewrite erase_bind, erase_quiet. apply obind_ext. intros o' _. by rewrite erase_bind, blake2b_erase.
Qed.
Lemma copy_words_erase d q m : erase (copy_words_acc p d q m) = MLyra2.copy_words p d q m.
Proof. unfold copy_words_acc, MLyra2.copy_words. apply erase_for. intros j m'. er_steps. Qed.
Lemma push_word_erase s x : erase (push_word_acc p s x) = MLyra2.push_word p s x.
Proof. unfold push_word_acc, MLyra2.push_word. destruct s. er_steps. Qed.
Lemma write_input_erase k pwd salt t R C nb m :
  erase (write_input_acc p k pwd salt t R C nb m) = MLyra2.write_input p k pwd salt t R C nb m.
Proof.
  unfold write_input_acc, MLyra2.write_input. cbv zeta.
  rewrite erase_bind, copy_words_erase. apply obind_ext. intros m1 _.
  rewrite erase_bind, erase_quiet. apply obind_ext. intros q1 _.
  rewrite erase_bind, copy_words_erase. apply obind_ext. intros m2 _.
  rewrite erase_bind, erase_quiet. apply obind_ext. intros q2 _.
  do 6 (rewrite erase_bind, push_word_erase; apply obind_ext; intros [? ?] _).
  er_steps.
Qed.
Lemma absorb_input_acc_erase nb m st : erase (absorb_input_acc p nb m st) = MLyra2.absorb_input p nb m st.
Proof.
  unfold absorb_input_acc, MLyra2.absorb_input. rewrite erase_bind.
  erewrite erase_for; [apply obind_ext; by intros [? ?] _|].
  intros _ [s w]. cbv beta iota. rewrite erase_bind, erase_quiet. apply obind_ext. intros r _.
  rewrite erase_bind, absorb_safe_erase. apply obind_ext. intros s' _. er_steps.
Qed.
Lemma squeeze_row0_erase C m st : erase (squeeze_row0_acc p C m st) = MLyra2.squeeze_row0 p C m st.
Proof.
  unfold squeeze_row0_acc, MLyra2.squeeze_row0. rewrite erase_bind, erase_quiet. apply obind_ext. intros a _.
  rewrite erase_bind, erase_quiet. apply obind_ext. intros q _. rewrite erase_bind.
  erewrite erase_for; [apply obind_ext; by intros [[? ?] ?] _|].
  intros _ [[m1 s] q1]. cbv beta iota zeta. rewrite erase_bind.
  erewrite erase_fold; [apply obind_ext; intros ? _; by rewrite erase_bind, reduced_erase|].
  intros m2 j. cbv beta. er_steps.
Qed.
Lemma duplex_row1_erase rl C m st : erase (duplex_row1_acc p rl C m st) = MLyra2.duplex_row1 p rl C m st.
Proof.
  unfold duplex_row1_acc, MLyra2.duplex_row1. apply erase_for. intros i [m1 s]. cbv beta iota zeta.
  rewrite erase_bind. erewrite erase_fold; [apply obind_ext; intros s' _|intros s' j; cbv beta; er_steps].
  rewrite erase_bind, reduced_erase. cbn [obind]. rewrite erase_bind.
  erewrite erase_fold; [apply obind_ext; intros m' _; er_steps|intros m' j; cbv beta; er_steps].
Qed.
Lemma absorb_sum_erase rl i prev rowa m st :
  erase (absorb_sum_acc p rl i prev rowa m st) = MLyra2.absorb_sum p rl i prev rowa m st.
Proof. apply erase_fold. intros s j. er_steps. Qed.
Lemma xor_rotW_erase rl i rowa st m : erase (xor_rotW_acc p rl i rowa st m) = MLyra2.xor_rotW p rl i rowa st m.
Proof. apply erase_fold. intros m' [j s]. er_steps. Qed.
Lemma duplex_row_setup_erase rl C row prev rowa m st :
  erase (duplex_row_setup_acc p rl C row prev rowa m st) = MLyra2.duplex_row_setup p rl C row prev rowa m st.
Proof.
  apply erase_for. intros i [m1 s]. cbv beta iota zeta.
  rewrite erase_bind, absorb_sum_erase. apply obind_ext. intros s' _.
  rewrite erase_bind, reduced_erase. cbn [obind]. rewrite erase_bind.
  erewrite erase_fold; [apply obind_ext; intros m' _|intros m' j; cbv beta; er_steps].
  rewrite erase_bind, xor_rotW_erase. er_steps.
Qed.
Lemma duplex_row_erase rl C row prev rowa m st :
  erase (duplex_row_acc p rl C row prev rowa m st) = MLyra2.duplex_row p rl C row prev rowa m st.
Proof.
  apply erase_for. intros i [m1 s]. cbv beta iota zeta.
  rewrite erase_bind, absorb_sum_erase. apply obind_ext. intros s' _.
  rewrite erase_bind, reduced_erase. cbn [obind]. rewrite erase_bind.
  erewrite erase_fold; [apply obind_ext; intros m' _|intros m' j; cbv beta; er_steps].
  rewrite erase_bind, xor_rotW_erase. er_steps.
Qed.
Lemma setup_rows_acc_erase rl R C m st : erase (setup_rows_acc p rl R C m st) = MLyra2.setup_rows p rl R C m st.
Proof.
  apply erase_for. intros i [[m1 s] v]. cbv beta iota zeta.
  rewrite erase_bind, duplex_row_setup_erase. apply obind_ext. intros [m2 s2] _. er_steps.
Qed.
Lemma setup_acc_erase rl R C m st : erase (setup_acc p rl R C m st) = MLyra2.setup p rl R C m st.
Proof.
  unfold setup_acc, MLyra2.setup. rewrite erase_bind, squeeze_row0_erase. apply obind_ext. intros [m1 s1] _.
  rewrite erase_bind, duplex_row1_erase. apply obind_ext. intros [m2 s2] _. apply setup_rows_acc_erase.
Qed.
Lemma wander_pass_acc_erase sel rl R C step s :
  erase (wander_pass_acc p sel rl R C step s) = MLyra2.wander_pass p sel rl R C step s.
Proof.
  apply erase_loop. intros [[[[[m st] i] row] prev] rowa]. cbv beta iota zeta. destruct (sel st i) as [x i'].
  rewrite erase_bind, erase_quiet. apply obind_ext. intros n1 _.
  rewrite erase_bind, duplex_row_erase. apply obind_ext. intros [m2 s2] _.
  rewrite erase_bind, erase_quiet. apply obind_ext. intros row' _. by destruct (row' =? 0).
Qed.
Lemma wander_acc_erase sel rl t R C m st prev rowa :
  erase (wander_acc p sel rl t R C m st prev rowa) = MLyra2.wander p sel rl t R C m st prev rowa.
Proof.
  apply erase_for. intros tau s. rewrite erase_bind, erase_quiet. apply obind_ext. intros step _.
  apply wander_pass_acc_erase.
Qed.
Lemma lyra2_with_acc_erase sel k pwd salt t R C :
  erase (lyra2_with_acc p sel k pwd salt t R C) = MLyra2.lyra2_with p sel k pwd salt t R C.
Proof.
  unfold lyra2_with_acc, MLyra2.lyra2_with. destruct (t <? 1); [done|]. destruct (R <? 3); [done|].
  do 4 (rewrite erase_bind, erase_quiet; apply obind_ext; intros ? _).
  rewrite erase_bind, write_input_erase; apply obind_ext; intros m1 _.
  rewrite erase_bind, absorb_input_acc_erase; apply obind_ext; intros s1 _.
  rewrite erase_bind, setup_acc_erase; apply obind_ext; intros [[m2 s2] v] _.
  rewrite erase_bind, wander_acc_erase; apply obind_ext; intros [[[[[m3 s3] ?] ?] ?] rowa] _.
  do 2 (rewrite erase_bind, erase_quiet; apply obind_ext; intros ? _).
  rewrite erase_bind, absorb_block_erase; apply obind_ext; intros s4 _. apply squeeze_acc_erase.
Qed.
End erase.

(** ** Which log a successful computation leaves *)
Definition logs {A} (x : acc A) (l : list access) : Prop := forall a l', x = Ok (a, l') -> l' = l.
Lemma abind_inv {A B} (x : acc A) (f : A -> acc B) b l : abind x f = Ok (b, l) ->
  exists a l1 l2, x = Ok (a, l1) /\ f a = Ok (b, l2) /\ l = l1 ++ l2.
Proof.
  unfold abind. intros ([a l1] & E1 & ([b' l2] & E2 & [= -> <-])%obind_Ok_inv)%obind_Ok_inv. by eauto 7.
Qed.
Lemma erase_Ok {A} (x : acc A) a l : x = Ok (a, l) -> erase x = Ok a.
Proof. by intros ->. Qed.
Lemma logs_bind {A B} (x : acc A) (f : A -> acc B) l1 l2 l :
  logs x l1 -> (forall a, erase x = Ok a -> logs (f a) l2) -> l = l1 ++ l2 -> logs (abind x f) l.
Proof.
  intros H1 H2 -> b l' (a & l1' & l2' & E1 & E2 & ->)%abind_inv.
  apply H1 in E1 as Hl. apply (H2 a) in E2; [by subst|by eapply erase_Ok].
Qed.
Lemma logs_quiet {A} (x : outcome A) : logs (quiet x) [].
Proof. unfold quiet. intros a l. destruct x; cbn; [|done..]. by intros [= <- <-]. Qed.
Lemma logs_quiet_bind {A B} (x : outcome A) (f : A -> acc B) l :
  (forall a, x = Ok a -> logs (f a) l) -> logs (abind (quiet x) f) l.
Proof. intros H. eapply logs_bind; [apply logs_quiet| |reflexivity]. intros a E. apply H. by rewrite erase_quiet in E. Qed.
Lemma logs_ret {A} (a : A) : logs (aret a) [].
Proof. by intros ? ? [= <- <-]. Qed.
Lemma logs_ret_bind {A B} (x : acc A) (f : A -> B) l : logs x l -> logs (a <~~ x ;; aret (f a)) l.
Proof. intros H. eapply logs_bind; [apply H|intros; apply logs_ret|]. by rewrite app_nil_r. Qed.
Lemma logs_rd m a : logs (rd m a) [Rd a].
Proof. unfold rd. intros x l. destruct (vget m a); cbn; [|done..]. by intros [= <- <-]. Qed.
Lemma logs_wr m a x : logs (wr m a x) [Wr a].
Proof. unfold wr. intros y l. destruct (vset m a x); cbn; [|done..]. by intros [= <- <-]. Qed.
Lemma logs_rd_right b w j : logs (rd_right b w j) [Rd (b + j)].
Proof. unfold rd_right. intros x l. destruct (vget w j); cbn; [|done..]. by intros [= <- <-]. Qed.
Lemma logs_perm v : logs (perm v) [Perm].
Proof. by intros ? ? [= <- <-]. Qed.
Lemma logs_fold {A S} (f : S -> A -> acc S) (g : A -> list access) l s :
  (forall s a, a ∈ l -> logs (f s a) (g a)) -> logs (afold f l s) (l ≫= g).
Proof.
  revert s. induction l as [|a l IH]; intros s H; cbn [afold]; [apply logs_ret|].
  eapply logs_bind; [apply H; by left|intros s' _; apply IH; intros; apply H; by right|reflexivity].
Qed.
Lemma seqZ_bind_snoc {A} (g : Z -> list A) lo i : lo <= i ->
  (seqZ lo (i + 1 - lo) ≫= g) = (seqZ lo (i - lo) ≫= g) ++ g i.
Proof.
  intros H. replace (i + 1 - lo) with ((i - lo) + 1) by lia. rewrite seqZ_app by lia. rewrite bind_app.
  f_equal. rewrite (seqZ_cons _ 1), (seqZ_nil _ (Z.pred 1)) by lia. cbn. rewrite app_nil_r. f_equal. lia.
Qed.
Lemma logs_for_inv {S} (P : Z -> S -> Prop) lo hi (body : Z -> S -> acc S) (g : Z -> list access) s s' l :
  0 <= hi - lo < 2 ^ 64 -> P lo s ->
  (forall i s s' l, lo <= i < hi -> P i s -> body i s = Ok (s', l) -> l = g i /\ P (i + 1) s') ->
  afor lo hi body s = Ok (s', l) -> l = (seqZ lo (hi - lo) ≫= g) /\ P hi s'.
Proof.
  intros Hr Hs Hb E. unfold afor in E.
  apply (for_range_inv (fun i x => P i x.1 /\ x.2 = (seqZ lo (i - lo) ≫= g))) in E as [[E1 E2] _].
  - done.
  - lia.
  - split; [done|]. cbn [snd]. by rewrite Z.sub_diag.
  - intros i [s1 l1] [s2 l2] Hi [HP Hl] E'. cbn [fst snd] in *.
    apply obind_Ok_inv in E' as ([s3 l3] & E3 & [= -> <-]). apply Hb in E3 as [-> HP']; [|done|done].
    split; [done|]. rewrite Hl. by rewrite seqZ_bind_snoc by lia.
Qed.
Lemma logs_for {S} lo hi (body : Z -> S -> acc S) (g : Z -> list access) s :
  0 <= hi - lo < 2 ^ 64 -> (forall i s, lo <= i < hi -> logs (body i s) (g i)) ->
  logs (afor lo hi body s) (seqZ lo (hi - lo) ≫= g).
Proof.
  intros Hr Hb s' l E. apply (logs_for_inv (fun _ _ => True) lo hi body g) in E as [-> _]; [done|lia|done|].
  intros i s1 s2 l1 Hi _ E'. split; [|done]. by eapply Hb.
Qed.
Lemma logs_for0 {S} hi (body : Z -> S -> acc S) (g : Z -> list access) s :
  0 <= hi < 2 ^ 64 -> (forall i s, 0 <= i < hi -> logs (body i s) (g i)) ->
  logs (afor 0 hi body s) (seqZ 0 hi ≫= g).
Proof. intros Hr Hb. pose proof (logs_for 0 hi body g s) as H. rewrite Z.sub_0_r in H. by apply H. Qed.

Lemma bind_ext_in {A B} (f g : A -> list B) l : (forall x, x ∈ l -> f x = g x) -> (l ≫= f) = (l ≫= g).
Proof.
  induction l as [|a l IH]; intros H; [done|]. rewrite !bind_cons. rewrite H by by left.
  f_equal. apply IH. intros. apply H. by right.
Qed.
Lemma each2_cells f h C r c r' c' : each2 f h (cell_addrs C r c) (cell_addrs C r' c') =
  offs12 ≫= fun j => [f (12 * (r * C + c) + j); h (12 * (r' * C + c') + j)].
Proof. done. Qed.
Lemma each_cells f C r c : each f (cell_addrs C r c) = offs12 ≫= fun j => [f (12 * (r * C + c) + j)].
Proof. done. Qed.

Lemma logs_blake2b v : logs (blake2b_lyra_acc v) (rounds 12).
Proof.
  unfold blake2b_lyra_acc. change (rounds 12) with ([Perm] ++ [Perm] ++ [Perm] ++ [Perm] ++ [Perm] ++ [Perm] ++
    [Perm] ++ [Perm] ++ [Perm] ++ [Perm] ++ [Perm] ++ [Perm] ++ []).
  do 12 (eapply logs_bind; [apply logs_perm|intros ? _|reflexivity]). apply logs_ret.
Qed.
Lemma each_seqZ b n : each Rd (seqZ b (Z.of_nat n)) = seq 0 n ≫= fun j => [Rd (b + Z.of_nat j)].
Proof.
  unfold each, seqZ. rewrite Nat2Z.id. induction (seq 0 n) as [|j l IH]; [done|].
  rewrite bind_cons. cbn [app fmap list_fmap]. f_equal; [f_equal; lia|exact IH].
Qed.
Lemma logs_absorb_safe b s w : logs (absorb_block_blake2_safe_acc b s w) (each Rd (seqZ b 8) ++ rounds 12).
Proof.
  unfold absorb_block_blake2_safe_acc. eapply logs_bind; [|intros ? _; apply logs_blake2b|].
  { apply (logs_fold _ (fun j => [Rd (b + Z.of_nat j)])). intros s' j _. apply logs_ret_bind, logs_rd_right. }
  f_equal. apply (each_seqZ b 8).
Qed.
Lemma logs_absorb_block b s w : logs (absorb_block_acc b s w) (each Rd (seqZ b 12) ++ rounds 12).
Proof.
  unfold absorb_block_acc. eapply logs_bind; [|intros ? _; apply logs_blake2b|].
  { apply (logs_fold _ (fun j => [Rd (b + Z.of_nat j)])). intros s' j _. apply logs_ret_bind, logs_rd_right. }
  f_equal. apply (each_seqZ b 12).
Qed.

Section closed.
Context (p : platform) (Hp : known_platform p).
Lemma logs_squeeze st k : 0 <= k <= 96 -> logs (squeeze_acc p st k) (rounds (12 * Z.to_nat (k / 96 + 1))).
Proof.
  intros Hk. unfold squeeze_acc. cbv zeta. apply logs_quiet_bind. intros out _.
  apply logs_quiet_bind. intros jm Ej. unfold iadd, as_i64 in Ej. rewrite wrap_i64_id in Ej by lia.
  rewrite Z.quot_div_nonneg in Ej by (unfold MLyra2.BLOCKLENBYTES, MLyra2.BLOCKLENINT64; lia).
  change MLyra2.BLOCKLENBYTES with 96 in Ej. assert (Hd : 0 <= k / 96 <= 1).
  { split; [apply Z.div_pos; lia|]. apply Z.lt_succ_r, Z.div_lt_upper_bound; lia. }
  rewrite chk_i64_Ok in Ej by lia. injection Ej as <-.
  assert (E : rounds (12 * Z.to_nat (k / 96 + 1)) = seqZ 0 (k / 96 + 1 - 0) ≫= fun _ => rounds 12).
  { assert (k / 96 = 0 \/ k / 96 = 1) as [-> | ->] by lia; done. }
  rewrite E. eapply logs_bind; [apply (logs_for _ _ _ (fun _ => rounds 12)); [lia|]| |].
  - intros i [[tmp o] s] _. apply logs_quiet_bind. intros tmp' _. apply logs_quiet_bind. intros o' _.
    apply logs_ret_bind, logs_blake2b.
  - intros [[? ?] ?] _. apply logs_ret.
  - by rewrite app_nil_r.
Qed.
Lemma logs_absorb_input nb m st : 0 <= nb < 2 ^ 62 -> 8 * nb <= vlen m -> 8 * vlen m <= isize_max p ->
  logs (absorb_input_acc p nb m st) (seqZ 0 nb ≫= fun i => each Rd (seqZ (8 * i) 8) ++ rounds 12).
Proof.
  intros Hnb Hm Hmax. pose proof (isize_usize p Hp) as Hi. unfold absorb_input_acc.
  intros r l (x & l1 & l2 & E1 & E2 & ->)%abind_inv.
  apply (logs_for_inv (fun i s => s.2 = 8 * i) _ _ _ (fun i => each Rd (seqZ (8 * i) 8) ++ rounds 12)) in E1 as [-> _].
  - destruct x as [? ?]. apply logs_ret in E2 as ->. by rewrite app_nil_r, Z.sub_0_r.
  - lia.
  - done.
  - intros i [s w] [s' w'] l Hi1 Hw E. cbn [snd] in *. subst w.
    apply abind_inv in E as (r1 & ? & ? & E0%logs_quiet & E & ->). subst.
    apply abind_inv in E as (s1 & ? & ? & E0%logs_absorb_safe & E & ->). subst.
    apply abind_inv in E as (w1 & ? & ? & E0 & E & ->). apply logs_quiet in E0 as Hl. subst.
    apply erase_Ok in E0. rewrite erase_quiet in E0. injection E as <- <- <-. rewrite !app_nil_r. cbn [app].
    split; [done|]. apply (szadd_exact p) in E0; unfold MLyra2.BLOCKLENBLAKE2SAFEINT64 in *; lia.
Qed.

(** The input. *)
Ltac step E := apply abind_inv in E as (? & ? & ? & ? & E & ->).
Lemma quiet_inv {A} (x : outcome A) a l : quiet x = Ok (a, l) -> x = Ok a /\ l = [].
Proof. destruct x; cbn; [|done..]. by intros [= <- <-]. Qed.
Lemma copy_words_log d q m : 0 <= q -> vlen d <= isize_max p -> q + vlen d / 8 <= isize_max p ->
  logs (copy_words_acc p d q m) (each Wr (seqZ q (vlen d / 8))).
Proof.
  intros Hq Hd Hs. pose proof (isize_usize p Hp) as Hi. pose proof (vlen_nonneg d).
  assert (0 <= vlen d / 8 <= vlen d) by (split; [apply Z.div_pos; lia|apply Z.div_le_upper_bound; lia]).
  assert (E : each Wr (seqZ q (vlen d / 8)) = seqZ 0 (vlen d / 8 - 0) ≫= fun j => [Wr (q + j)]).
  { rewrite Z.sub_0_r. unfold each, seqZ. induction (seq 0 _) as [|j l IH]; [done|].
    cbn [fmap list_fmap]. rewrite bind_cons. cbn [app]. f_equal; [f_equal; lia|exact IH]. }
  rewrite E. apply logs_for; [lia|]. intros j m' Hj.
  do 4 (apply logs_quiet_bind; intros ? _). apply logs_quiet_bind. intros a4 Ea.
  apply (szadd_exact p) in Ea as ->; [|lia]. apply logs_wr.
Qed.
Lemma push_word_log m q x m' q' l : 0 <= q < isize_max p ->
  push_word_acc p (m, q) x = Ok (m', q', l) -> q' = q + 1 /\ l = [Wr q].
Proof.
  intros Hq (m1 & l1 & l2 & E1%logs_wr & E & ->)%abind_inv. pose proof (isize_usize p Hp) as Hi.
  apply abind_inv in E as (q1 & l3 & l4 & [E2 ->]%quiet_inv & [= <- <- <-] & ->). subst.
  split; [|done]. apply (szadd_exact p) in E2; lia.
Qed.
Lemma write_input_log k pwd salt t R C m :
  64 * n_blocks pwd salt <= isize_max p ->
  logs (write_input_acc p k pwd salt t R C (n_blocks pwd salt) m)
    (each Wr (seqZ 0 (vlen pwd / 8 + vlen salt / 8 + 7)) ++
     [Rd (8 * n_blocks pwd salt - 1); Wr (8 * n_blocks pwd salt - 1)]).
Proof.
  intros Hmax m' l E. pose proof (isize_usize p Hp) as Hi. pose proof (n_blocks_bounds pwd salt) as Hb.
  pose proof (vlen_nonneg pwd). pose proof (vlen_nonneg salt).
  assert (0 <= vlen pwd / 8) by (apply Z.div_pos; lia). assert (0 <= vlen salt / 8) by (apply Z.div_pos; lia).
  unfold write_input_acc in E. cbv zeta in E.
  apply abind_inv in E as (m1 & l1 & ? & E1 & E & ->). apply copy_words_log in E1 as ->; [|lia..].
  apply abind_inv in E as (q1 & ? & ? & [Eq ->]%quiet_inv & E & ->).
  unfold as_usize in Eq. rewrite Z.mod_small in Eq by lia. apply (szadd_exact p) in Eq as ->; [|lia].
  rewrite Z.add_0_l in E.
  apply abind_inv in E as (m2 & ? & ? & E1 & E & ->). apply copy_words_log in E1 as ->; [|lia..].
  apply abind_inv in E as (q2 & ? & ? & [Eq ->]%quiet_inv & E & ->).
  unfold as_usize in Eq. rewrite Z.mod_small in Eq by lia. apply (szadd_exact p) in Eq as ->; [|lia].
  set (q := vlen pwd / 8 + vlen salt / 8) in *.
  apply abind_inv in E as ([m3 q3] & ? & ? & E1 & E & ->). apply push_word_log in E1 as [-> ->]; [|lia].
  apply abind_inv in E as ([m4 q4] & ? & ? & E1 & E & ->). apply push_word_log in E1 as [-> ->]; [|lia].
  apply abind_inv in E as ([m5 q5] & ? & ? & E1 & E & ->). apply push_word_log in E1 as [-> ->]; [|lia].
  apply abind_inv in E as ([m6 q6] & ? & ? & E1 & E & ->). apply push_word_log in E1 as [-> ->]; [|lia].
  apply abind_inv in E as ([m7 q7] & ? & ? & E1 & E & ->). apply push_word_log in E1 as [-> ->]; [|lia].
  apply abind_inv in E as ([m8 q8] & ? & ? & E1 & E & ->). apply push_word_log in E1 as [-> ->]; [|lia].
  apply abind_inv in E as (m9 & ? & ? & E1%logs_wr & E & ->). subst.
  apply abind_inv in E as (a & ? & ? & [Ea ->]%quiet_inv & E & ->).
  apply abind_inv in E as (b & ? & ? & [Eb ->]%quiet_inv & E & ->).
  unfold imul, isub, MLyra2.BLOCKLENBLAKE2SAFEBYTES, MLyra2.BLOCKLENBLAKE2SAFEINT64 in *. change (8 * 8) with 64 in *.
  rewrite chk_i64_Ok in Ea by lia. injection Ea as <-. rewrite Z.quot_div_nonneg in Eb by lia.
  replace (n_blocks pwd salt * 64) with (8 * n_blocks pwd salt * 8) in Eb by lia. rewrite Z.div_mul in Eb by lia.
  rewrite chk_i64_Ok in Eb by lia. injection Eb as <-.
  unfold as_usize in E. rewrite Z.mod_small in E by lia.
  apply abind_inv in E as (x & ? & ? & E1%logs_rd & E%logs_wr & ->). subst. cbn [app].
  assert (Es : seqZ 0 (q + 7) = seqZ 0 (vlen pwd / 8) ++ seqZ (vlen pwd / 8) (vlen salt / 8) ++ seqZ q 7).
  { rewrite seqZ_app by lia. rewrite Z.add_0_l. unfold q at 1. rewrite seqZ_app by lia.
    by rewrite Z.add_0_l, <- app_assoc. }
  rewrite Es. unfold each. rewrite !fmap_app, <- !app_assoc. do 2 f_equal.
  unfold seqZ. change (Z.to_nat 7) with 7%nat.
  cbn [seq fmap list_fmap app]. do 7 (apply (f_equal2 cons); [apply f_equal; lia|]). done.
Qed.

(** Setup. *)
Context (R C : Z) (HR : 3 <= R) (HC : 1 <= C) (Hmax : 96 * R * C <= isize_max p).
Notation row_len := (12 * C).
Lemma row0_log m st : logs (squeeze_row0_acc p C m st) (row0_accesses C).
Proof.
  pose proof (L_bound p Hp R C HR HC Hmax) as HL. unfold squeeze_row0_acc.
  apply logs_quiet_bind. intros a Ea. unfold isub, as_i64 in Ea. rewrite wrap_i64_id, chk_i64_Ok in Ea by lia.
  injection Ea as <-. apply logs_quiet_bind. intros q Eq. unfold imul, MLyra2.BLOCKLENINT64 in Eq.
  rewrite chk_i64_Ok in Eq by lia. injection Eq as <-.
  intros r l (x & l1 & l2 & E1 & E2 & ->)%abind_inv.
  apply (logs_for_inv (fun i s => s.2 = (C - 1 - i) * 12) _ _ _
    (fun c => each Wr (cell_addrs C 0 (C - 1 - c)) ++ rounds 1)) in E1 as [-> _].
  - destruct x as [[? ?] ?]. apply logs_ret in E2 as ->. by rewrite app_nil_r, Z.sub_0_r.
  - lia.
  - cbn [snd]. lia.
  - intros i [[m1 s1] q] [[m2 s2] q'] l Hi Hq E. cbn [snd] in *. subst q.
    apply abind_inv in E as (m3 & ? & ? & E0 & E & ->).
    apply (logs_fold _ (fun j => [Wr (12 * (0 * C + (C - 1 - i)) + j)])) in E0 as ->.
    + apply abind_inv in E as (s3 & ? & ? & E0%logs_perm & [= <- <- <- <-] & ->). subst.
      split; [by rewrite each_cells|]. unfold MLyra2.BLOCKLENINT64. rewrite wrap_i64_id by lia. lia.
    + intros m4 j Hj%offs12_elem. apply logs_quiet_bind. intros a Ea. unfold iadd in Ea.
      rewrite chk_i64_Ok in Ea by lia. injection Ea as <-.
      pose proof (idx_bound R C HR HC 0 (C - 1 - i) j ltac:(lia) ltac:(lia) Hj) as Hx. unfold idx, L in *.
      replace ((C - 1 - i) * 12 + j) with (12 * (0 * C + (C - 1 - i)) + j) by lia.
      rewrite (as_usize_id p Hp R C HR HC Hmax) by (unfold L; lia). apply logs_wr.
Qed.
Lemma row1_log m st : logs (duplex_row1_acc p row_len C m st) (row1_accesses C).
Proof.
  pose proof (L_bound p Hp R C HR HC Hmax) as HL. unfold duplex_row1_acc, row1_accesses.
  apply logs_for0; [lia|]. intros i [m1 s1] Hi.
  eapply logs_bind; [|intros s2 _|].
  { apply (logs_fold _ (fun j => [Rd (12 * (0 * C + i) + j)])).
    intros s j Hj%offs12_elem. apply logs_quiet_bind. intros a Ea.
    rewrite (cell0_Ok p Hp R C HR HC Hmax) in Ea by done. injection Ea as <-.
    apply logs_ret_bind, logs_rd. }
  { eapply logs_bind; [apply logs_perm|intros s3 _|reflexivity]. apply logs_ret_bind.
    apply (logs_fold _ (fun j => [Rd (12 * (0 * C + i) + j); Wr (12 * (1 * C + (C - 1 - i)) + j)])).
    intros m2 j Hj%offs12_elem. apply logs_quiet_bind. intros a Ea.
    rewrite (cell0_Ok p Hp R C HR HC Hmax) in Ea by done. injection Ea as <-.
    eapply logs_bind; [apply logs_rd|intros x _|reflexivity]. apply logs_quiet_bind. intros b Eb.
    rewrite (cell1_rev_Ok p Hp R C HR HC Hmax) in Eb by done. injection Eb as <-. apply logs_wr. }
  by rewrite each_cells, each2_cells.
Qed.
Lemma absorb_sum_log i prev rowa m st : 0 <= i < C -> 0 <= prev < R -> 0 <= rowa < R ->
  logs (absorb_sum_acc p row_len i prev rowa m st) (each2 Rd Rd (cell_addrs C prev i) (cell_addrs C rowa i)).
Proof.
  intros Hi Hpr Hra. rewrite each2_cells.
  apply (logs_fold _ (fun j => [Rd (12 * (prev * C + i) + j); Rd (12 * (rowa * C + i) + j)])).
  intros s j Hj%offs12_elem. apply logs_quiet_bind. intros a Ea.
  rewrite (cell_Ok p Hp R C HR HC Hmax) in Ea by done. injection Ea as <-.
  eapply logs_bind; [apply logs_rd|intros x _|reflexivity]. apply logs_quiet_bind. intros b Eb.
  rewrite (cell_Ok p Hp R C HR HC Hmax) in Eb by done. injection Eb as <-. apply logs_ret_bind, logs_rd.
Qed.
Lemma update_log {A} (l : list A) (off : A -> Z) (F : Z -> A -> Z) i row m :
  0 <= i < C -> 0 <= row < R -> (forall a, a ∈ l -> 0 <= off a < 12) ->
  logs (afold (fun m x => a <~~ quiet (MLyra2.cell p row_len i row (off x)) ;; y <~~ rd m a ;; wr m a (F y x)) l m)
    (l ≫= fun x => [Rd (12 * (row * C + i) + off x); Wr (12 * (row * C + i) + off x)]).
Proof.
  intros Hi Hr Hl. apply logs_fold. intros s x Hx. apply logs_quiet_bind. intros a Ea.
  rewrite (cell_Ok p Hp R C HR HC Hmax) in Ea by auto. injection Ea as <-.
  eapply logs_bind; [apply logs_rd|intros y _; apply logs_wr|reflexivity].
Qed.
Lemma afold_ext {A S} (f h : S -> A -> acc S) l s : (forall s a, f s a = h s a) -> afold f l s = afold h l s.
Proof.
  intros H. revert s. induction l as [|a l IH]; intros s; [done|]. cbn [afold]. rewrite H.
  unfold abind. apply obind_ext. intros [s' l'] _. by rewrite IH.
Qed.
Lemma xor_rotW_log i rowa st m : 0 <= i < C -> 0 <= rowa < R ->
  logs (xor_rotW_acc p row_len i rowa st m) (each2 Rd Wr (cell_addrs C rowa i) (cell_addrs C rowa i)).
Proof.
  intros Hi Hr. rewrite each2_cells. unfold xor_rotW_acc.
  rewrite (afold_ext _ (fun m x => a <~~ quiet (MLyra2.cell p row_len i rowa x.1) ;; y <~~ rd m a ;;
    wr m a (Z.lxor y (aget st x.2)))) by (by intros s [? ?]).
  apply (update_log rotW_pairs fst (fun y x => Z.lxor y (aget st x.2))); [done|done|].
  intros [j s] Hj. by apply rotW_pairs_elem in Hj as (? & _).
Qed.
Lemma setup_row_log row prev rowa m st : 0 <= row < R -> 0 <= prev < R -> 0 <= rowa < R ->
  logs (duplex_row_setup_acc p row_len C row prev rowa m st) (setup_row_accesses C row prev rowa).
Proof.
  intros Hr Hpr Hra. pose proof (L_bound p Hp R C HR HC Hmax) as HL.
  unfold duplex_row_setup_acc, setup_row_accesses.
  apply logs_for0; [lia|]. intros i [m1 s1] Hi.
  eapply logs_bind; [by apply absorb_sum_log|intros s2 _|reflexivity].
  eapply logs_bind; [apply logs_perm|intros s3 _|reflexivity].
  eapply logs_bind; [|intros m2 _; apply logs_ret_bind; by apply xor_rotW_log|reflexivity].
  rewrite each2_cells.
  apply (logs_fold _ (fun j => [Rd (12 * (prev * C + i) + j); Wr (12 * (row * C + (C - 1 - i)) + j)])).
  intros m2 j Hj%offs12_elem. apply logs_quiet_bind. intros a Ea.
  rewrite (cell_Ok p Hp R C HR HC Hmax) in Ea by done. injection Ea as <-.
  eapply logs_bind; [apply logs_rd|intros x _|reflexivity]. apply logs_quiet_bind. intros b Eb.
  rewrite (cell_rev_Ok p Hp R C HR HC Hmax) in Eb by done. injection Eb as <-. apply logs_wr.
Qed.
Lemma wander_row_log row prev rowa m st : 0 <= row < R -> 0 <= prev < R -> 0 <= rowa < R ->
  logs (duplex_row_acc p row_len C row prev rowa m st) (wander_row_accesses C row prev rowa).
Proof.
  intros Hr Hpr Hra. pose proof (L_bound p Hp R C HR HC Hmax) as HL.
  unfold duplex_row_acc, wander_row_accesses.
  apply logs_for0; [lia|]. intros i [m1 s1] Hi.
  eapply logs_bind; [by apply absorb_sum_log|intros s2 _|reflexivity].
  eapply logs_bind; [apply logs_perm|intros s3 _|reflexivity].
  eapply logs_bind; [|intros m2 _; apply logs_ret_bind; by apply xor_rotW_log|reflexivity].
  rewrite each2_cells. apply (update_log offs12 (fun j => j) (fun y j => Z.lxor y (aget s3 (Z.to_nat j)))); [done|done|].
  intros j. apply offs12_elem.
Qed.

Lemma setup_acc_log m st m' st' v l :
  setup_acc p row_len R C m st = Ok (m', st', v, l) -> v = rows_at R /\ l = setup_accesses R C.
Proof.
  pose proof (R_bound p Hp R C HR HC Hmax) as HRb. unfold setup_acc, setup_accesses.
  intros ([m1 s1] & l1 & ? & E1%row0_log & E & ->)%abind_inv.
  apply abind_inv in E as ([m2 s2] & l2 & l3 & E2%row1_log & E & ->). subst.
  unfold setup_rows_acc, as_i64 in E. rewrite wrap_i64_id in E by lia.
  apply (logs_for_inv (fun i s => s.2 = rows_at i) _ _ _
    (fun row => setup_row_accesses C row (row - 1) (setup_rowa row))) in E as [-> E].
  - split; [exact E|]. change (r_row rows_init) with 2. done.
  - change (r_row rows_init) with 2. lia.
  - done.
  - change (r_row rows_init) with 2. intros i [[m3 s3] v3] [[m4 s4] v4] l Hi Hv E'. cbn [snd] in *. subst v3.
    apply abind_inv in E' as ([m5 s5] & l4 & ? & E4 & E' & ->).
    apply setup_row_log in E4 as ->.
    + apply abind_inv in E' as (v5 & ? & ? & [E5 ->]%quiet_inv & [= <- <- <- <-] & ->).
      rewrite (rows_next_at p) in E5 by lia. injection E5 as <-. cbn [app]. rewrite app_nil_r. done.
    + cbn. lia.
    + cbn. lia.
    + cbn. pose proof (setup_rowa_lt i ltac:(lia)). lia.
Qed.

(** Wandering. *)
Definition revisits (n : nat) (rowas : list Z) : Prop :=
  length rowas = n /\ Forall (fun a => 0 <= a < R /\ Z.land a (R - 1) = a) rowas.
Definition visits_log (sched : list (Z * Z * Z)) (rowas : list Z) : list access :=
  zip sched rowas ≫= fun '(_, row, prev, rowa) => wander_row_accesses C row prev rowa.
Lemma visits_log_app s1 s2 r1 r2 : length r1 = length s1 ->
  visits_log (s1 ++ s2) (r1 ++ r2) = visits_log s1 r1 ++ visits_log s2 r2.
Proof.
  intros H. unfold visits_log. rewrite zip_with_app by done. by rewrite bind_app.
Qed.
Lemma with_prev_length prev l : length (with_prev prev l) = length l.
Proof. revert prev. induction l as [|[tau row] l IH]; intros prev; [done|]. cbn. by rewrite IH. Qed.

Context (sel : MLyra2.selector).
Definition pass_acc_body (step : Z) : list Z * list Z * Z * Z * Z * Z ->
    acc (list Z * list Z * Z * Z * Z * Z + list Z * list Z * Z * Z * Z * Z) :=
  fun '(m, state, index, row, prev, rowa) =>
    let '(x, index) := sel state index in
    n1 <~~ quiet (usub p R 1) ;;
    let rowa := as_i64 (Z.land x n1) in
    '(m, state) <~~ duplex_row_acc p row_len C row prev rowa m state ;;
    let prev := row in
    row <~~ quiet (MLyra2.wander_next p R step row) ;;
    let s := (m, state, index, row, prev, rowa) in
    if row =? 0 then aret (inr s) else aret (inl s).
Lemma pass_acc_log tau step n : -1 <= step <= R -> forall N row prev m st i rowa log s' log',
  (exists k, (k < n)%nat /\ next R step (Nat.iter k (next R step) row) = 0) -> 0 <= row < R -> 0 <= prev < R ->
  run_n N (fun '(s, l) => '(r, l') <-- pass_acc_body step s ;;
    match r with inl s' => Ok (inl (s', l ++ l')) | inr t => Ok (inr (t, l ++ l')) end)
    ((m, st, i, row, prev, rowa), log) = Ok (inr (s', log')) ->
  exists m' st' i' rowas, let rows := visit n (next R step) row in
    s' = (m', st', i', 0, List.last rows prev, List.last rowas rowa) /\
    log' = log ++ visits_log (with_prev prev ((fun row => (tau, row)) <$> rows)) rowas /\
    revisits (length rows) rowas.
Proof.
  intros Hstep. pose proof (R_bound p Hp R C HR HC Hmax) as HRb.
  induction n as [|n IH]; intros N row prev m st i rowa log s' log' (k & Hk & Ek) Hrow Hprev; [lia|].
  destruct N as [|N]; [done|]. cbn [run_n].
  intros (r & ([b lb] & Eb & E)%obind_Ok_inv & Er)%obind_Ok_inv.
  unfold pass_acc_body in Eb. destruct (sel st i) as [x i1].
  apply abind_inv in Eb as (n1 & ? & ? & [En ->]%quiet_inv & Eb & ->).
  unfold usub in En. rewrite chk_u64_Ok in En by lia. injection En as <-.
  cbv zeta in Eb. rewrite (as_i64_land p Hp R C HR HC Hmax) in Eb.
  assert (Hra : 0 <= Z.land x (R - 1) < R) by (pose proof (land_le x (R - 1)); lia).
  apply abind_inv in Eb as ([m1 st1] & ? & ? & Ed & Eb & ->).
  apply wander_row_log in Ed as ->; [|done..].
  apply abind_inv in Eb as (row' & ? & ? & [Ew ->]%quiet_inv & Eb & ->).
  assert (Enx : MLyra2.wander_next p R step row = Ok (next R step row)).
  { unfold MLyra2.wander_next, iadd, isub, as_i64. rewrite chk_i64_Ok by lia. cbn [obind].
    rewrite wrap_i64_id by lia. by rewrite chk_i64_Ok by lia. }
  rewrite Enx in Ew. injection Ew as <-. clear Enx.
  assert (Hland : Z.land (Z.land x (R - 1)) (R - 1) = Z.land x (R - 1)) by by rewrite <- Z.land_assoc, Z.land_diag.
  cbn [visit fmap list_fmap with_prev].
  destruct (next R step row =? 0) eqn:E0.
  - injection Eb as <- <-. injection E as <-. injection Er as <- <-. cbn [fmap list_fmap with_prev List.last].
    apply Z.eqb_eq in E0. rewrite E0. exists m1, st1, i1, [Z.land x (R - 1)]. cbv zeta.
    split; [done|]. split; [|by split; [|constructor; [|constructor]]].
    unfold visits_log. cbn [zip_with app mbind list_bind]. by rewrite !app_nil_r.
  - injection Eb as <- <-. injection E as <-. apply IH in Er as (m' & st' & i' & rowas & -> & -> & Hlen & HF).
    + exists m', st', i', (Z.land x (R - 1) :: rowas). cbv zeta. split; [|split].
      * assert (Hne : visit n (next R step) (next R step row) <> []).
        { destruct n as [|n]; [|done]. destruct k as [|k]; [|lia]. cbn in Ek. apply Z.eqb_neq in E0. done. }
        destruct (visit n (next R step) (next R step row)) as [|z l] eqn:Ev; [done|].
        destruct rowas as [|z' l']; [done|].
        f_equal; [f_equal|].
        -- change (List.last (z :: l) row = List.last (z :: l) prev). apply last_default.
        -- change (List.last (z' :: l') (Z.land x (R - 1)) = List.last (z' :: l') rowa). apply last_default.
      * rewrite <- app_assoc. f_equal. cbn [app]. rewrite !app_nil_r. unfold visits_log. cbn [zip_with].
        by rewrite bind_cons.
      * split; [cbn; by rewrite Hlen|]. constructor; done.
    + destruct k as [|k]; [simpl in Ek; apply Z.eqb_neq in E0; done|].
      exists k. split; [lia|]. rewrite <- Ek. f_equal.
      clear. induction k; simpl; [done|]. by rewrite IHk.
    + apply next_range. lia.
    + done.
Qed.
Lemma wander_acc_log t m st m' st' i' row' prev' rowa' l : 1 <= t < 2 ^ 64 ->
  wander_acc p sel row_len t R C m st (R - 1) (setup_rowa R) = Ok (m', st', i', row', prev', rowa', l) ->
  exists rowas, l = wander_accesses R C t rowas /\ revisits (length (wander_schedule R t)) rowas /\
    rowa' = List.last rowas (setup_rowa R).
Proof.
  intros Ht. unfold wander_acc, wander_accesses, wander_schedule, wander_rows.
  set (f := fun tau => (fun row => (tau, row)) <$> pass_rows R (reduce_mask R) tau). intros E. unfold afor in E.
  apply (for_range_inv (fun i s => let '(_, _, _, row, prev, rowa, l) := s in row = 0 /\ 0 <= prev < R /\
    prev = List.last (snd <$> (seqZ 1 (i - 1) ≫= f)) (R - 1) /\ exists rowas,
    l = visits_log (with_prev (R - 1) (seqZ 1 (i - 1) ≫= f)) rowas /\
    revisits (length (seqZ 1 (i - 1) ≫= f)) rowas /\ rowa = List.last rowas (setup_rowa R))) in E as [E _].
  - destruct E as (_ & _ & _ & rowas & -> & HF & ->). exists rowas.
    replace (t + 1 - 1) with t in * by lia. rewrite with_prev_length. done.
  - lia.
  - split; [done|]. split; [lia|]. split; [done|]. exists []. done.
  - intros tau [[[[[[m1 s1] i1] r1] p1] ra1] l1] s2 Htau (-> & Hp1 & Ep1 & rowas & -> & HF & ->) E'.
    apply obind_Ok_inv in E' as ([s3 l3] & E' & [= <-]).
    apply abind_inv in E' as (step & ? & l4 & [Es0 ->]%quiet_inv & E' & ->). cbn [app].
    destruct (wander_step_Ok p Hp R C HR HC Hmax tau) as [Es Hs]. rewrite Es in Es0. injection Es0 as <-.
    unfold wander_pass_acc, aloop in E'. rewrite loop64_run in E'.
    apply obind_Ok_inv in E' as ([?|s4] & Er & [= ->]).
    apply (pass_acc_log tau (wander_step R tau) (Z.to_nat R) Hs) in Er
      as (m2 & st2 & i2 & rowas' & -> & -> & HF').
    + split; [done|].
      assert (Hseq : (seqZ 1 (tau + 1 - 1) ≫= f) = (seqZ 1 (tau - 1) ≫= f) ++ f tau) by (apply seqZ_bind_snoc; lia).
      assert (Hrr : forall x, x ∈ visit (Z.to_nat R) (next R (wander_step R tau)) 0 -> 0 <= x < R).
      { intros x Hx. revert x Hx. rewrite <- Forall_forall. apply visit_range; [intros; apply next_range; lia|lia]. }
      assert (Hn : exists z zs, visit (Z.to_nat R) (next R (wander_step R tau)) 0 = z :: zs).
      { destruct (Z.to_nat R) as [|n] eqn:En; [lia|]. cbn [visit]. by eauto. }
      destruct Hn as (z & zs & Hz).
      change (pass_rows R (reduce_mask R) tau) with (visit (Z.to_nat R) (next R (wander_step R tau)) 0) in f.
      split; [|split].
      * rewrite Hz in *. apply Hrr. apply elem_of_list_In. 
        destruct (exists_last (l := z :: zs) ltac:(done)) as (l' & y & ->). rewrite last_last. apply in_or_app. right. by left.
      * rewrite Hseq, fmap_app. unfold f at 2. rewrite <- list_fmap_compose.
        replace (snd ∘ _ <$> pass_rows R (reduce_mask R) tau) with (pass_rows R (reduce_mask R) tau).
        2:{ induction (pass_rows R (reduce_mask R) tau) as [|a b IH]; [done|]. cbn. by rewrite <- IH. }
        change (pass_rows R (reduce_mask R) tau) with (visit (Z.to_nat R) (next R (wander_step R tau)) 0).
        rewrite Hz. symmetry. apply last_app_cons.
      * exists (rowas ++ rowas'). destruct HF as [HL1 HF1], HF' as [HL2 HF2].
        rewrite Hseq, with_prev_app. rewrite visits_log_app by (by rewrite with_prev_length).
        rewrite <- Ep1. split; [done|]. split.
        -- split; [|by apply Forall_app]. rewrite !app_length, HL1, HL2. unfold f. by rewrite fmap_length.
        -- rewrite Hz in HL2. destruct rowas' as [|y ys]; [done|]. symmetry. apply last_app_cons.
    + apply (next_returns p Hp R C HR HC Hmax).
    + lia.
    + done.
Qed.
End closed.
