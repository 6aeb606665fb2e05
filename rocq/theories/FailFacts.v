(** * What a call has done when it panics

    Over MKept.v, whose log survives the panic. *)
From Verif Require Import Machine MachineFacts MUtils WordFacts Refine Refine2 RefineInput RefineTop Domain Schedule LyraFacts.
From Verif Require Import SpecWord SpecBlake2b SpecLyra2 SpecCalls SpecSchedule.
From Verif Require MLyra2 PLyra2Lemmas.
From Verif Require Import MAccess SpecAccess AccessFacts PAccessLemmas Kept MKept KeptFacts.
From stdpp Require Import list_numbers.
#[local] Open Scope Z_scope.
#[local] Opaque MLyra2.round_lyra blake2b_lyra_kept blake2b_lyra_acc.

(** ** Bounds on a log, whether or not the computation panics *)
Definition within {A} (n : Z) (x : kept A) : Prop :=
  Z.of_nat (length x.2) <= n /\ Forall (fun e => e <> Perm) x.2.
Lemma within_quiet {A} (x : outcome A) : within 0 (kquiet x).
Proof. split; [done|constructor]. Qed.
Lemma within_ret {A} (a : A) : within 0 (kret a).
Proof. apply within_quiet. Qed.
Lemma within_bind {A B} n n' (x : kept A) (f : A -> kept B) :
  0 <= n' -> within n x -> (forall a, within n' (f a)) -> within (n + n') (kbind x f).
Proof.
  intros Hn [H1 H2] Hf. destruct x as [[a| |] l]; cbn in *; [|split; [cbn; lia|done]..].
  destruct (Hf a) as [H3 H4]. destruct (f a) as [y l']. cbn in *. split; cbn; [|by apply Forall_app].
  rewrite app_length. lia.
Qed.
Lemma within_bind0 {A B} n (x : outcome A) (f : A -> kept B) :
  0 <= n -> (forall a, within n (f a)) -> within n (kbind (kquiet x) f).
Proof. intros Hn Hf. apply (within_bind 0 n); [done|apply within_quiet|done]. Qed.
Lemma within_wr m a x : within 1 (kwr m a x).
Proof. unfold kwr, kdone. split; destruct (vset m a x); cbn; by repeat constructor. Qed.
Lemma within_rd m a : within 1 (krd m a).
Proof. unfold krd, kdone. split; destruct (vget m a); cbn; by repeat constructor. Qed.

(** A loop of [hi - lo] turns.  The state is the loop variable and [s]. *)
Lemma within_loop_pow {S} n lo hi (body : Z -> S -> kept S) : (forall i s, within 1 (body i s)) ->
  forall i s, lo <= i <= hi ->
  let x := kloop_pow n (fun '(i, s) => if i <? hi then s' <=~ body i s ;; kret (inl (i + 1, s')) else kret (inr s)) (i, s) in
  (forall i' s' l, x = (Ok (inl (i', s')), l) -> i <= i' <= hi /\ within (i' - i) x) /\ within (hi - i) x.
Proof.
  intros Hb. induction n as [|n IH]; intros i s Hi; cbv zeta; cbn [kloop_pow].
  - destruct (i <? hi) eqn:E; [apply Z.ltb_lt in E|apply Z.ltb_ge in E].
    + assert (H : within 1 (s' <=~ body i s ;; kret (@inl (Z * S) S (i + 1, s')))).
      { apply (within_bind 1 0); [done|apply Hb|intros; apply within_ret]. }
      split; [|destruct H; split; [lia|done]].
      intros i' s' l Ex. assert (i' = i + 1) as ->.
      { destruct (body i s) as [[a| |] l0]; cbn in Ex; try done. injection Ex as <- _ _. done. }
      replace (i + 1 - i) with 1 by lia. split; [lia|exact H].
    + split; [done|]. destruct (@within_ret (Z * S + S) (inr s)) as [H1 H2]. split; [lia|done].
  - destruct (IH i s Hi) as [H1 H2]. cbv zeta in H1, H2.
    destruct (kloop_pow n _ (i, s)) as [[[[i1 s1]|t1]| |] l1] eqn:E1; cbn [kbind]; cbn in H1.
    + destruct (H1 i1 s1 l1 eq_refl) as (Hi1 & HL & HF). cbn in HL, HF.
      destruct (IH i1 s1 ltac:(lia)) as [H3 [HL4 HF4]]. cbv zeta in *.
      destruct (kloop_pow n _ (i1, s1)) as [y l2] eqn:E2. cbn in HL4, HF4.
      assert (HF' : Forall (fun e => e <> Perm) (l1 ++ l2)) by by apply Forall_app.
      split; [|split; [cbn; rewrite app_length; lia|done]].
      intros i' s' l [= -> <-]. destruct (H3 i' s' l2 eq_refl) as (Hi' & HL5 & _). cbn in HL5.
      split; [lia|]. split; [cbn; rewrite app_length; lia|done].
    + cbn [kret]. rewrite app_nil_r. split; [done|exact H2].
    + split; [done|exact H2].
    + split; [done|exact H2].
Qed.
Lemma within_for {S} lo hi (body : Z -> S -> kept S) s : lo <= hi -> (forall i s, within 1 (body i s)) ->
  within (hi - lo) (kfor lo hi body s).
Proof.
  intros Hr Hb. unfold kfor, kloop.
  destruct (within_loop_pow 64 lo hi body Hb lo s ltac:(lia)) as [_ H]. cbv zeta in H.
  replace (hi - lo) with (hi - lo + 0) by lia. apply within_bind; [done|exact H|].
  intros [?|?]; [apply within_quiet|apply within_ret].
Qed.

Section fail.
Context (p : platform) (Hp : known_platform p).
Lemma within_copy d q m : within (vlen d / 8) (copy_words_kept p d q m).
Proof.
  unfold copy_words_kept. pose proof (vlen_nonneg d). pose proof (Z.div_pos (vlen d) 8).
  replace (vlen d / 8) with (vlen d / 8 - 0) at 1 by lia. apply within_for; [lia|].
  intros i s. do 5 (apply within_bind0; [done|intros ?]). apply within_wr.
Qed.
Lemma within_push s x : within 1 (push_word_kept p s x).
Proof.
  unfold push_word_kept. destruct s as [m q]. apply (within_bind 1 0); [done|apply within_wr|].
  intros m'. apply within_bind0; [done|]. intros q'. apply within_ret.
Qed.
Lemma within_input k pwd salt t R C nb m :
  within (vlen pwd / 8 + vlen salt / 8 + 9) (write_input_kept p k pwd salt t R C nb m).
Proof.
  unfold write_input_kept. cbv zeta. pose proof (vlen_nonneg pwd). pose proof (vlen_nonneg salt).
  pose proof (Z.div_pos (vlen pwd) 8). pose proof (Z.div_pos (vlen salt) 8).
  replace (vlen pwd / 8 + vlen salt / 8 + 9) with (vlen pwd / 8 + (vlen salt / 8 + 9)) by lia.
  apply within_bind; [lia|apply within_copy|intros m1]. apply within_bind0; [lia|intros q1].
  apply within_bind; [lia|apply within_copy|intros m2]. apply within_bind0; [lia|intros q2].
  apply (within_bind 1 8); [done|apply within_push|intros [m3 q3]].
  apply (within_bind 1 7); [done|apply within_push|intros [m4 q4]].
  apply (within_bind 1 6); [done|apply within_push|intros [m5 q5]].
  apply (within_bind 1 5); [done|apply within_push|intros [m6 q6]].
  apply (within_bind 1 4); [done|apply within_push|intros [m7 q7]].
  apply (within_bind 1 3); [done|apply within_push|intros [m8 q8]].
  apply (within_bind 1 2); [done|apply within_wr|intros m9].
  apply within_bind0; [done|intros a]. apply within_bind0; [done|intros b].
  apply (within_bind 1 1); [done|apply within_rd|intros x]. apply within_wr.
Qed.

(** ** Rejected before the sponge is touched *)
(** No wrapping in the size of the matrix: on 64 bits overflow checks suffice. *)
Definition no_wrap (R C : Z) : Prop :=
  (overflow_checks p = true /\ usize_bits p = 64 /\ R < 2 ^ 63) \/ (12 * R * C < 2 ^ 63 /\ 12 * R * C < 2 ^ usize_bits p).
Definition matrix_alloc (R C : Z) : outcome (list Z) :=
  rl <-- imul p MLyra2.BLOCKLENINT64 (as_i64 C) ;; tot <-- imul p (as_i64 R) rl ;; vec_zeroed p 8 (as_usize p tot).
Lemma alloc_exact R C : 1 <= R < 2 ^ 63 -> 0 <= C < 2 ^ 63 -> 12 * R * C < 2 ^ 63 ->
  matrix_alloc R C = vec_zeroed p 8 (as_usize p (12 * R * C)).
Proof.
  intros HR HC H. unfold matrix_alloc, imul, as_i64, MLyra2.BLOCKLENINT64. rewrite !wrap_i64_id by lia.
  rewrite chk_i64_Ok by nia. cbn [obind].
  replace (R * (12 * C)) with (12 * R * C) by lia. rewrite chk_i64_Ok by nia. done.
Qed.
Lemma size_cases R C : 3 <= R < 2 ^ 64 -> 0 <= C < 2 ^ 64 -> no_wrap R C ->
  (matrix_alloc R C = Panic /\ isize_max p < 96 * R * C) \/
  (matrix_alloc R C = Ok (replicate (Z.to_nat (12 * R * C)) 0) /\ 96 * R * C <= isize_max p).
Proof.
  intros HR HC Hw. pose proof (isize_usize p Hp) as Hi.
  destruct (Z.eq_dec C 0) as [->|HC0].
  { right. unfold matrix_alloc, imul. change (MLyra2.BLOCKLENINT64 * as_i64 0) with 0. rewrite chk_i64_Ok by lia. cbn [obind].
    rewrite Z.mul_0_r, chk_i64_Ok by lia. cbn [obind]. unfold as_usize. rewrite Z.mod_0_l by lia.
    rewrite Z.mul_0_r. split; [|lia]. unfold vec_zeroed. rewrite (proj2 (Z.leb_le _ _)) by lia. done. }
  assert (Hfin : R < 2 ^ 63 -> C < 2 ^ 63 -> 12 * R * C < 2 ^ 63 -> 12 * R * C < 2 ^ usize_bits p ->
    (matrix_alloc R C = Panic /\ isize_max p < 96 * R * C) \/
    (matrix_alloc R C = Ok (replicate (Z.to_nat (12 * R * C)) 0) /\ 96 * R * C <= isize_max p)).
  { intros H3 H4 H1 H2. rewrite alloc_exact by lia.
    unfold as_usize. rewrite Z.mod_small by nia. unfold vec_zeroed. destruct (_ <=? _) eqn:E.
    - apply Z.leb_le in E. right. split; [done|lia].
    - apply Z.leb_gt in E. left. split; [done|lia]. }
  destruct Hw as [(Hd & H64 & HR63)|[H1 H2]].
  - assert (Hm : isize_max p = 2 ^ 63 - 1) by (unfold isize_max; rewrite H64; reflexivity).
    assert (Hr : as_i64 R = R) by (unfold as_i64; apply wrap_i64_id; lia).
    destruct (Z.lt_ge_cases C (2 ^ 63)) as [HC63|HC63].
    + assert (Hc : as_i64 C = C) by (unfold as_i64; apply wrap_i64_id; lia).
      destruct (Z.lt_ge_cases (12 * R * C) (2 ^ 63)) as [Hs|Hs].
      * apply Hfin; [done|done|done|]. rewrite H64. lia.
      * left. split; [|lia]. unfold matrix_alloc, imul, MLyra2.BLOCKLENINT64. rewrite Hr, Hc.
        destruct (chk_i64 p (12 * C)) as [rl| |] eqn:E; [|done|by destruct (chk_i64_not_fuel _ _ E)].
        apply chk_i64_debug in E as [_ ->]; [|done]. cbn [obind].
        destruct (chk_i64 p (R * (12 * C))) as [tot| |] eqn:E; [|done|by destruct (chk_i64_not_fuel _ _ E)].
        apply chk_i64_debug in E as [E _]; [|done]. lia.
    + left. split; [|nia].
      assert (Hc : as_i64 C = C - 2 ^ 64).
      { unfold as_i64, wrap_i64. rewrite <- (Z.mod_unique (C + 2 ^ 63) (2 ^ 64) 1 (C - 2 ^ 63)); lia. }
      unfold matrix_alloc, imul, MLyra2.BLOCKLENINT64. rewrite Hr, Hc.
      destruct (chk_i64 p (12 * (C - 2 ^ 64))) as [rl| |] eqn:E; [|done|by destruct (chk_i64_not_fuel _ _ E)].
      apply chk_i64_debug in E as [_ ->]; [|done]. cbn [obind].
      destruct (chk_i64 p (R * (12 * (C - 2 ^ 64)))) as [tot| |] eqn:E; [|done|by destruct (chk_i64_not_fuel _ _ E)].
      apply chk_i64_debug in E as [E ->]; [|done]. cbn [obind].
      set (q := R * (12 * (C - 2 ^ 64))) in *. assert (q < 0) by (unfold q; nia).
      unfold as_usize. rewrite H64. rewrite <- (Z.mod_unique q (2 ^ 64) (-1) (q + 2 ^ 64)) by lia.
      unfold vec_zeroed. rewrite (proj2 (Z.leb_gt _ _)) by lia. done.
  - assert (HRC : R * C < 2 ^ 63) by lia. assert (R < 2 ^ 63 /\ C < 2 ^ 63) as [HR63 HC63] by nia.
    by apply Hfin.
Qed.
Lemma rejected_early sel k pwd salt t R C : rust_args (isize_max p) k pwd salt t R C -> no_wrap R C ->
  ~ accepted (isize_max p) 0 pwd salt t R C ->
  let x := lyra2_with_kept p sel k pwd salt t R C in
  within (vlen pwd / 8 + vlen salt / 8 + 9) x /\ x.1 = Panic /\
  (t < 1 \/ R < 3 \/ isize_max p < 96 * R * C -> x.2 = []).
Proof.
  intros Ha Hw Hn. pose proof (terminates p Hp sel _ _ _ _ _ _ Ha) as Hf. rewrite <- fst_lyra2_with in Hf. cbv zeta.
  destruct Ha as ([? ?] & [? ?] & [? ?] & [? ?] & [Hbp Hlp] & [Hbs Hls]).
  pose proof (vlen_nonneg pwd) as Hv1. pose proof (vlen_nonneg salt) as Hv2.
  pose proof (Z.div_pos (vlen pwd) 8) as Hd1. pose proof (Z.div_pos (vlen salt) 8) as Hd2.
  assert (Hnil : forall x : kept (list Z), x = (Panic, []) ->
    within (vlen pwd / 8 + vlen salt / 8 + 9) x /\ x.1 = Panic /\ (t < 1 \/ R < 3 \/ isize_max p < 96 * R * C -> x.2 = [])).
  { intros x ->. split; [|done]. split; [cbn; lia|constructor]. }
  unfold lyra2_with_kept in *. destruct (t <? 1) eqn:Et; [by apply Hnil|].
  destruct (R <? 3) eqn:ER; [by apply Hnil|]. apply Z.ltb_ge in Et, ER.
  pose proof (size_cases R C ltac:(lia) ltac:(lia) Hw) as Hs. unfold matrix_alloc in Hs.
  destruct (imul p MLyra2.BLOCKLENINT64 (as_i64 C)) as [rl| |] eqn:Erl; cbn [obind] in Hs;
    [|by apply Hnil|by destruct Hs as [[? ?]|[? ?]]]. rewrite kquiet_Ok in *.
  destruct (imul p (as_i64 R) rl) as [tot| |] eqn:Etot; cbn [obind] in Hs;
    [|by apply Hnil|by destruct Hs as [[? ?]|[? ?]]]. rewrite kquiet_Ok in *.
  destruct Hs as [[Hs _]|[Hs Hmax]]; rewrite Hs in *; [by apply Hnil|]. rewrite kquiet_Ok in *.
  destruct (MLyra2.n_blocks_input p pwd salt) as [nb| |] eqn:Enb; [|by apply Hnil|done]. rewrite kquiet_Ok in *.
  set (m0 := replicate _ _) in *.
  assert (Hm0 : vlen m0 = 12 * R * C) by (unfold m0, vlen; rewrite replicate_length; lia).
  pose proof (within_input k pwd salt t R C nb m0) as Hin.
  destruct (write_input_kept p k pwd salt t R C nb m0) as [[m1| |] l1] eqn:Ein.
  - exfalso. apply Hn. pose proof (fst_write_input p k pwd salt t R C nb m0) as Ef. rewrite Ein in Ef. cbn [fst] in Ef.
    symmetry in Ef. apply (input_inv p Hp) in Ef as [_ Hb]; [|done|done|lia|done]. unfold accepted. lia.
  - cbn [kbind]. split; [exact Hin|]. split; [done|]. lia.
  - done.
Qed.

(** ** Rejected only by [squeeze] *)
Lemma squeeze_long st k : length st = 16%nat -> 96 < k < 2 ^ 64 -> k < 2 ^ usize_bits p -> squeeze_kept p st k = (Panic, []).
Proof.
  intros Hst Hk Hku. pose proof (isize_usize p Hp) as Hi. unfold squeeze_kept. cbv zeta.
  unfold as_usize. rewrite Z.mod_small by lia.
  destruct (vec_zeroed p 1 k) as [o| |] eqn:Eo; [|done|by unfold vec_zeroed in Eo; destruct (_ <=? _)].
  assert (H63 : k < 2 ^ 63).
  { unfold vec_zeroed in Eo. destruct (_ <=? _) eqn:El in Eo; [|done]. apply Z.leb_le in El. lia. }
  rewrite kquiet_Ok. unfold as_i64, MLyra2.BLOCKLENBYTES, MLyra2.BLOCKLENINT64. rewrite wrap_i64_id by lia.
  rewrite Z.quot_div_nonneg by lia. change (12 * 8) with 96.
  pose proof (Z.div_mod k 96 ltac:(lia)) as Hdm. pose proof (Z.mod_pos_bound k 96 ltac:(lia)) as Hmb.
  unfold iadd. rewrite chk_i64_Ok by lia. rewrite kquiet_Ok.
  apply kbind_Panic. unfold kfor, kloop. apply kbind_Panic.
  assert (Hf : forall n body s l, body s = (Panic, l) ->
    @kloop_pow (Z * (list Z * list Z * list Z)) (list Z * list Z * list Z) n body s = (Panic, l)).
  { intros n body s l E. induction n as [|n IH]; [done|]. cbn [kloop_pow]. by apply kbind_Panic. }
  apply Hf. rewrite (proj2 (Z.ltb_lt _ _)) by lia. apply kbind_Panic.
  change 12 with MLyra2.BLOCKLENINT64. rewrite (squeeze_row_Ok p Hp st [] Hst) by done.
  rewrite kquiet_Ok. apply kbind_Panic. unfold kquiet. f_equal. apply slice_Panic.
  cbn [app]. unfold vlen. rewrite rate_bytes_length by done. lia.
Qed.

(** As [before_squeeze], with the log. *)
Definition before_kept (sel : MLyra2.selector) (k : Z) (pwd salt : list Z) (t R C : Z) : kept (list Z) :=
  if t <? 1 then kquiet Panic else
  if R <? 3 then kquiet Panic else
  row_len <=~ kquiet (imul p MLyra2.BLOCKLENINT64 (as_i64 C)) ;;
  total <=~ kquiet (imul p (as_i64 R) row_len) ;;
  m <=~ kquiet (vec_zeroed p 8 (as_usize p total)) ;;
  nblocks <=~ kquiet (MLyra2.n_blocks_input p pwd salt) ;;
  m <=~ write_input_kept p k pwd salt t R C nblocks m ;;
  state <=~ absorb_input_kept p nblocks m MLyra2.init_state ;;
  '(m, state, v) <=~ setup_kept p row_len R C m state ;;
  '(m, state, _, _, _, rowa) <=~
    wander_kept p sel row_len t R C m state (MLyra2.r_prev v) (MLyra2.r_rowa v) ;;
  a <=~ kquiet (imul p rowa row_len) ;;
  right <=~ kquiet (split_right m (as_usize p a)) ;;
  absorb_block_kept (as_usize p a) state right.
Lemma kext {A B} (x : kept A) (f g : A -> kept B) : (forall a, f a = g a) -> kbind x f = kbind x g.
Proof. intros H. apply kcong. intros. apply H. Qed.
Lemma lyra2_with_kept_before sel k pwd salt t R C :
  lyra2_with_kept p sel k pwd salt t R C = kbind (before_kept sel k pwd salt t R C) (fun st => squeeze_kept p st k).
Proof.
  unfold lyra2_with_kept, before_kept. destruct (t <? 1); [done|]. destruct (R <? 3); [done|].
  do 6 (rewrite kbind_assoc; apply kext; intros ?).
  rewrite kbind_assoc. apply kext. intros [[m2 s2] v].
  rewrite kbind_assoc. apply kext. intros [[[[[m3 s3] ?] ?] ?] rowa].
  do 2 (rewrite kbind_assoc; apply kext; intros ?). done.
Qed.
Lemma proj_before sel k pwd salt t R C : proj (before_kept sel k pwd salt t R C) = before_acc p sel k pwd salt t R C.
Proof.
  unfold before_kept, before_acc. destruct (t <? 1); [done|]. destruct (R <? 3); [done|].
  do 4 (rewrite proj_bind; apply abind_ext; [done|intros ?]).
  rewrite proj_bind. apply abind_ext; [apply proj_write_input|intros m]. 
  rewrite proj_bind. apply abind_ext; [apply proj_absorb_input|intros st].
  rewrite proj_bind. apply abind_ext; [apply proj_setup|intros [[m2 st2] v]].
  rewrite proj_bind. apply abind_ext; [apply proj_wander|intros [[[[[m3 st3] idx] row] prev] rowa]].
  do 2 (rewrite proj_bind; apply abind_ext; [done|intros ?]). apply proj_absorb.
Qed.
Lemma rejected_late sel choose k pwd salt t R C : sel_ok sel choose ->
  rust_args (isize_max p) k pwd salt t R C -> accepted (isize_max p) 0 pwd salt t R C ->
  96 < k -> k < 2 ^ usize_bits p ->
  exists rowas, lyra2_with_kept p sel k pwd salt t R C = (Panic, before_accesses pwd salt t R C rowas) /\
    length rowas = length (wander_schedule R t) /\
    Forall (fun a => 0 <= a < R /\ Z.land a (R - 1) = a) rowas.
Proof.
  intros Hsel Ha Hacc Hk Hku. pose proof Ha as ([? ?] & [? ?] & [? ?] & [? ?] & [Hbp Hlp] & [Hbs Hls]).
  destruct (before_squeeze_Ok p Hp sel choose k pwd salt t R C Hsel Hbp Hbs ltac:(lia) ltac:(done) Hacc) as [[Hst _] Eb].
  set (st := lyra2_state _ _ _ _ _ _) in *. clearbody st.
  rewrite <- before_acc_erase, <- proj_before in Eb. rewrite <- proj_fst in Eb.
  destruct (before_kept sel k pwd salt t R C) as [y l] eqn:E. cbn [fst] in Eb. subst y.
  assert (Eacc : before_acc p sel k pwd salt t R C = Ok (st, l)) by (rewrite <- proj_before, E; reflexivity).
  destruct Hacc as (Ht & HR & _ & HC0 & Hsz & Hmax). pose proof (n_blocks_bounds pwd salt) as Hnb.
  assert (HC : 1 <= C) by nia.
  apply (before_log p Hp) in Eacc as (rowas & Hl & HF & ->); [|done || lia..].
  exists rowas. split; [|done]. rewrite lyra2_with_kept_before, E, (kbind_Ok _ _ _ _ eq_refl).
  rewrite squeeze_long by (done || lia). cbn [fst snd]. by rewrite app_nil_r.
Qed.
Lemma before_work pwd salt t R C rowas : 3 <= R -> 0 <= C -> length rowas = length (wander_schedule R t) ->
  work (before_accesses pwd salt t R C rowas) =
    12 * ((vlen salt + vlen pwd + 48) / 64 + 1) + R * C + Z.of_nat (length (wander_schedule R t)) * C + 12.
Proof.
  intros HR HC Hl. pose proof (vlen_nonneg pwd). pose proof (vlen_nonneg salt). unfold before_accesses.
  change work with (@count unit is_perm). rewrite !count_app.
  rewrite (count_input is_perm 0 0 1), (count_setup is_perm 0 0 1), (count_wander is_perm 0 0 1),
    (count_each is_perm Rd C (List.last rowas 0) 0 0), (count_rounds is_perm 12 1) by (done || lia). lia.
Qed.
End fail.
