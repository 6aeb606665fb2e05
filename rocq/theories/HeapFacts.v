(** * Facts about the heap log *)
From Verif Require Import Machine MachineFacts MUtils WordFacts Schedule Refine Refine2 RefineInput RefineTop Domain LyraFacts Padding TraceFacts PLyra2Lemmas PScheduleLemmas PPhasesLemmas.
From Verif Require Import SpecWord SpecBlake2b SpecLyra2 SpecCalls.
From Verif Require MLyra2.
From Verif Require Import MHeap SpecHeap.
#[local] Opaque blake2b_round.
#[local] Open Scope Z_scope.

(** ** Erasing the log *)
Section erase.
Context (p : platform).
Lemma squeeze_heap_erase st k : omapo fst (squeeze_heap p st k) = MLyra2.squeeze p st k.
Proof.
  unfold squeeze_heap, MLyra2.squeeze. rewrite omapo_bind. apply obind_ext. intros out _.
  rewrite omapo_bind. apply obind_ext. intros jmax _. rewrite omapo_bind. apply obind_ext. by intros [[??]?] _.
Qed.
Lemma absorb_input_heap_erase nb m st :
  omapo fst (absorb_input_heap p nb m st) = MLyra2.absorb_input p nb m st.
Proof.
  unfold absorb_input_heap, MLyra2.absorb_input. rewrite omapo_bind.
  change (st, 0) with ((st, 0, [] : list hevent).1).
  rewrite <- (for_range_erase fst 0 nb _
    (fun _ '(state, ptr_word, log) =>
      right <-- split_right m ptr_word ;;
      let log := log ++ [HAlloc (vlen right)] in
      state <-- MLyra2.absorb_block_blake2_safe state right ;;
      let log := log ++ [HFree right] in
      ptr_word <-- szadd p ptr_word MLyra2.BLOCKLENBLAKE2SAFEINT64 ;;
      Ok (state, ptr_word, log))).
  - rewrite obind_omapo. apply obind_ext. by intros [[??]?] _.
  - intros _ [[s w] l]. cbn [fst].
    destruct (split_right m w); [|done..]. cbn [obind]. destruct (MLyra2.absorb_block_blake2_safe s _); [|done..].
    cbn [obind]. by destruct (szadd p w _).
Qed.
Lemma heap_erase sel k pwd salt t R C :
  (x <-- lyra2_with_heap p sel k pwd salt t R C ;; Ok (fst x)) = MLyra2.lyra2_with p sel k pwd salt t R C.
Proof.
  change (omapo fst (lyra2_with_heap p sel k pwd salt t R C) = MLyra2.lyra2_with p sel k pwd salt t R C).
  unfold lyra2_with_heap, MLyra2.lyra2_with. destruct (t <? 1); [done|]. destruct (R <? 3); [done|].
  do 5 (rewrite omapo_bind; apply obind_ext; intros ? _).
  rewrite omapo_bind, <- absorb_input_heap_erase, obind_omapo. apply obind_ext. intros [st log] _. cbn [fst].
  rewrite omapo_bind. apply obind_ext. intros [[m1 st1] v] _.
  rewrite omapo_bind. apply obind_ext. intros [[[[[m2 st2] i] row] prev] rowa] _.
  do 3 (rewrite omapo_bind; apply obind_ext; intros ? _).
  rewrite omapo_bind, <- squeeze_heap_erase. unfold omapo at 2. apply obind_ext. by intros [out l] _.
Qed.
End erase.

(** ** The entries *)
Section entries.
Context (p : platform) (Hp : known_platform p).
Lemma bind_seqZ_snoc {A} (f : Z -> list A) i : 0 <= i ->
  (seqZ 0 (i + 1) ≫= f) = (seqZ 0 i ≫= f) ++ f i.
Proof.
  intros H. rewrite seqZ_app by lia. rewrite bind_app, (seqZ_cons _ 1), (seqZ_nil _ (Z.pred 1)) by lia.
  cbn [mbind list_bind]. by rewrite app_nil_r, Z.add_0_l.
Qed.
Definition copy_events (m : list Z) (nb : Z) : list hevent :=
  seqZ 0 nb ≫= fun i => [HAlloc (vlen m - 8 * i); HFree (drop (Z.to_nat (8 * i)) m)].
Lemma absorb_heap_log nb m st st' log : 0 <= nb < 2 ^ 62 -> 8 * nb <= vlen m -> 8 * vlen m <= isize_max p ->
  absorb_input_heap p nb m st = Ok (st', log) -> log = copy_events m nb.
Proof.
  intros Hnb Hm Hmax. pose proof (isize_usize p Hp) as Hi. unfold absorb_input_heap.
  intros ([[st1 w1] log1] & E & [= -> ->])%obind_Ok_inv.
  apply (for_range_inv (fun i s => let '(_, w, l) := s in w = 8 * i /\ l = copy_events m i)) in E as [[_ E] _].
  - exact E.
  - lia.
  - done.
  - intros i [[s w] l] [[s' w'] l'] Hr [-> ->] E'.
    apply obind_Ok_inv in E' as (r & Er & (s2 & _ & (w2 & Ew & [= -> <- <-])%obind_Ok_inv)%obind_Ok_inv).
    rewrite split_right_Ok in Er by lia. injection Er as <-.
    apply (szadd_exact p) in Ew; [|unfold MLyra2.BLOCKLENBLAKE2SAFEINT64; lia].
    split; [unfold MLyra2.BLOCKLENBLAKE2SAFEINT64 in *; lia|].
    unfold copy_events. rewrite bind_seqZ_snoc by lia. rewrite <- app_assoc. do 2 f_equal.
    unfold vlen at 1. rewrite drop_length. cbn [app]. f_equal. f_equal. unfold vlen in *. lia.
Qed.
Lemma squeeze_heap_log st k : state16 st -> 0 <= k <= 96 ->
  exists tmp, squeeze_heap p st k = Ok (squeezed k st, [HFreeBytes tmp]) /\ exists rest, tmp = squeezed k st ++ rest.
Proof.
  intros Hst Hk. pose proof (squeeze_Ok p Hp st k Hst Hk) as E. rewrite <- squeeze_heap_erase in E.
  unfold omapo in E. apply obind_Ok_inv in E as ([out l] & E & [= <-]). rewrite E.
  unfold squeeze_heap in E. apply obind_Ok_inv in E as (o0 & _ & E). apply obind_Ok_inv in E as (jmax & Ej & E).
  apply obind_Ok_inv in E as ([[tmp o] s'] & E & [= -> <-]). exists tmp. split; [done|].
  assert (Hj : 1 <= jmax < 2 ^ 63).
  { revert Ej. unfold as_i64. rewrite wrap_i64_id by lia. change MLyra2.BLOCKLENBYTES with 96.
    rewrite Z.quot_div_nonneg by lia. pose proof (Z.div_le_mono k 96 96 ltac:(lia) ltac:(lia)) as H1.
    pose proof (Z.div_pos k 96 ltac:(lia) ltac:(lia)). change (96 / 96) with 1 in H1.
    unfold iadd. rewrite chk_i64_Ok by lia. intros [= <-]. lia. }
  apply (for_range_inv (fun i s => let '(tmp, o, _) := s in 1 <= i -> exists rest, tmp = o ++ rest)) in E as [E _].
  - apply E. lia.
  - lia.
  - lia.
  - intros i [[t1 o1] s1] [[t2 o2] s2] Hr _ E' _.
    apply obind_Ok_inv in E' as (t3 & _ & E'). apply obind_Ok_inv in E' as (o3 & Eo & [= <- <- <-]).
    unfold slice in Eo. destruct (_ && _); [|done]. injection Eo as <-.
    eexists. rewrite Z.sub_0_r. cbn [Z.to_nat drop]. symmetry. apply take_drop.
Qed.

Lemma accepted_split0 max k pwd salt t R C : accepted max k pwd salt t R C -> 0 <= k <= 96.
Proof. unfold accepted. tauto. Qed.
Lemma input_matrix_zeros len k pwd salt t R C : 8 * n_blocks pwd salt <= len ->
  input_matrix len k pwd salt t R C =
  code_padded k pwd salt t R C ++ replicate (Z.to_nat (len - 8 * n_blocks pwd salt)) 0.
Proof.
  intros H. pose proof (n_blocks_bounds pwd salt) as Hb. pose proof (body_words_length k pwd salt t R C) as Hl.
  unfold input_matrix, code_padded. fold (body_words k pwd salt t R C).
  replace (Z.to_nat (8 * n_blocks pwd salt - 1)) with (Z.to_nat (8 * n_blocks pwd salt) - 1)%nat by lia.
  replace (Z.to_nat (len - 8 * n_blocks pwd salt)) with (Z.to_nat len - Z.to_nat (8 * n_blocks pwd salt))%nat by lia.
  set (n := Z.to_nat (8 * n_blocks pwd salt)). set (b := body_words k pwd salt t R C) in *.
  assert (Hbn : (length b <= n)%nat) by lia. assert (Hnl : (n <= Z.to_nat len)%nat) by lia.
  assert (Hn0 : (0 < n)%nat) by lia. clearbody n b. clear -Hbn Hnl Hn0.
  assert (Hext : b ++ replicate (Z.to_nat len - length b) 0 =
    (b ++ replicate (n - length b) 0) ++ replicate (Z.to_nat len - n) 0).
  { rewrite <- app_assoc, <- replicate_add. do 2 f_equal. lia. }
  rewrite Hext. by rewrite alter_app_l by (rewrite app_length, replicate_length; lia).
Qed.

Lemma heap_log_before sel choose k pwd salt t R C : sel_ok sel choose ->
  rust_args (isize_max p) k pwd salt t R C -> accepted (isize_max p) 0 pwd salt t R C ->
  exists m0 mf rowa st, state16 st /\
    lyra2_with_heap p sel k pwd salt t R C =
      obind (squeeze_heap p st k) (fun '(out, log) => Ok (out,
      [HAlloc (12 * R * C)] ++ copy_events m0 (n_blocks pwd salt) ++
      [HAlloc (12 * C * (R - rowa)); HFree (drop (Z.to_nat (12 * C * rowa)) mf)] ++ log ++
      [HFree mf; HFreeBytes salt; HFreeBytes pwd])) /\
    m0 = code_padded k pwd salt t R C ++ replicate (Z.to_nat (12 * R * C - 8 * n_blocks pwd salt)) 0 /\
    vlen m0 = 12 * R * C /\ vlen mf = 12 * R * C /\ 0 <= rowa < R /\ 1 <= C /\
    1 <= n_blocks pwd salt /\ 8 * n_blocks pwd salt <= 12 * R * C.
Proof.
  intros Hsel (Hk & Htw & HRw & HCw & [Hbp Hlp] & [Hbs Hls]) Hacc.
  assert (Htw' : 0 <= t < 2 ^ 64) by exact Htw.
  pose proof Hacc as (Ht & HR & Hk96 & HC0 & Hsz & Hmax).
  pose proof (isize_usize p Hp) as Hi. pose proof (n_blocks_bounds pwd salt) as Hb.
  assert (HC : 1 <= C) by (destruct (Z.eq_dec C 0) as [->|]; lia).
  pose proof (L_bound p Hp R C HR HC Hmax) as HL. unfold L in HL.
  pose proof (vlen_nonneg pwd). pose proof (vlen_nonneg salt).
  unfold lyra2_with_heap. rewrite (proj2 (Z.ltb_ge t 1)), (proj2 (Z.ltb_ge R 3)) by lia.
  unfold imul at 1, as_i64 at 1. rewrite wrap_i64_id by lia. unfold MLyra2.BLOCKLENINT64.
  rewrite chk_i64_Ok by lia. cbn [obind].
  unfold imul at 1, as_i64 at 1. rewrite wrap_i64_id by lia.
  replace (R * (12 * C)) with (12 * R * C) by lia. rewrite chk_i64_Ok by lia. cbn [obind].
  unfold as_usize at 1. rewrite Z.mod_small by lia.
  unfold vec_zeroed. rewrite (proj2 (Z.leb_le _ _)) by lia. cbn [obind].
  rewrite (n_blocks_input_Ok p Hp) by lia. cbn [obind].
  rewrite (write_input_Ok p Hp) by (done || lia). cbn [obind].
  set (m := input_matrix _ _ _ _ _ _ _).
  assert (Hml : vlen m = 12 * R * C) by (apply input_matrix_length; lia).
  assert (Hmw : Forall (word 64) m).
  { apply input_matrix_words; try done; unfold word; lia. }
  assert (Hm0 : m = code_padded k pwd salt t R C ++ replicate (Z.to_nat (12 * R * C - 8 * n_blocks pwd salt)) 0).
  { apply input_matrix_zeros. lia. }
  assert (Hv0 : vlen (replicate (Z.to_nat (12 * R * C)) 0) = 12 * R * C).
  { unfold vlen. rewrite replicate_length. lia. }
  cbv zeta. rewrite Hv0.
  destruct (absorb_input_Ok p Hp (n_blocks pwd salt) m) as [Ea Hst]; [lia|lia|lia|done|].
  change MLyra2.init_state with sponge_init in *.
  rewrite <- absorb_input_heap_erase in Ea. unfold omapo in Ea.
  apply obind_Ok_inv in Ea as ([st0 l0] & Ea & [= Est]). rewrite Ea. cbn [obind].
  apply absorb_heap_log in Ea; [|lia|lia|lia]. subst l0. cbn [fst] in Est. rewrite <- Est in Hst. clear Est.
  pose proof (flat_unflatten p R C m HR HC Hmax Hml Hmw) as HF.
  destruct (setup_Ok p Hp R C HR HC Hmax m _ _ HF Hst) as (m1 & st1 & -> & HRel). cbn [obind].
  assert (Hrv : MLyra2.r_prev (rows_at R) = R - 1 /\ MLyra2.r_rowa (rows_at R) = setup_rowa R) by done.
  destruct Hrv as [-> ->].
  destruct (wander_Ok p Hp R C HR HC Hmax sel choose Hsel t (m1, st1) _ ltac:(lia) HRel) as (s2 & E & HW).
  cbn [fst snd] in E. rewrite E. cbn [obind].
  destruct (wander _ _ _ _ _ _) as [[[[M st] i] prev] rowa].
  destruct s2 as [[[[[m2 st2] i2] row2] prev2] rowa2].
  destruct HW as ((HF2 & Heq & Hst2) & _ & _ & _ & -> & _ & _ & Hra).
  cbn in HF2, Heq, Hst2. subst st2.
  pose proof (rc_bound R C HR HC rowa 0 Hra ltac:(lia)) as Hrc.
  assert (Hl2 := proj1 HF2). unfold L in Hl2.
  unfold imul. rewrite chk_i64_Ok by lia. cbn [obind].
  unfold as_usize. rewrite Z.mod_small by lia. rewrite split_right_Ok by lia. cbn [obind].
  assert (HM : take 12 (drop (Z.to_nat (rowa * (12 * C))) m2) = M rowa 0).
  { destruct HF2 as [_ HF2]. destruct (HF2 rowa 0 Hra ltac:(lia)) as [[Hbl _] HJ].
    apply list_eq. intros j. destruct (decide (j < 12)%nat).
    - rewrite lookup_take by lia. rewrite lookup_drop. specialize (HJ (Z.of_nat j) ltac:(lia)).
      rewrite Nat2Z.id in HJ. rewrite <- HJ. f_equal. unfold idx. lia.
    - rewrite lookup_take_ge by lia. symmetry. apply lookup_ge_None_2. lia. }
  destruct (absorb_block_Ok st (drop (Z.to_nat (rowa * (12 * C))) m2)) as [-> Hst3].
  - done.
  - rewrite drop_length. unfold vlen in Hl2. lia.
  - rewrite HM. by apply (flat_block R C m2 M rowa 0 HF2 Hra ltac:(lia)).
  - cbn [obind].
    assert (Hvr : vlen (drop (Z.to_nat (rowa * (12 * C))) m2) = 12 * C * (R - rowa)).
    { unfold vlen in *. rewrite drop_length. lia. }
    rewrite Hvr. replace (rowa * (12 * C)) with (12 * C * rowa) in * by lia.
    eexists m, m2, rowa, _. split; [exact Hst3|]. split; [reflexivity|]. split; [exact Hm0|]. repeat split; lia.
Qed.
Lemma squeeze_heap_shape st k out log : squeeze_heap p st k = Ok (out, log) -> exists tmp, log = [HFreeBytes tmp].
Proof.
  unfold squeeze_heap. intros (? & _ & (? & _ & ([[tmp o] s] & _ & [= _ <-])%obind_Ok_inv)%obind_Ok_inv)%obind_Ok_inv.
  by exists tmp.
Qed.
End entries.

(** ** Counting *)
Lemma allocated_app a b : allocated (a ++ b) = allocated a + allocated b.
Proof. unfold allocated. induction a as [|[] a IH]; cbn [foldr app]; lia. Qed.
Lemma in_use_app u a b : in_use u (a ++ b) = in_use (in_use u a) b.
Proof. unfold in_use. apply foldl_app. Qed.
Lemma allocated_copies m nb : 0 <= nb -> allocated (copy_events m nb) = nb * vlen m - 4 * (nb * (nb - 1)).
Proof.
  intros H. pattern nb. apply natlike_ind; [done| |done]. intros x Hx IH.
  unfold copy_events in *. rewrite <- Z.add_1_r, bind_seqZ_snoc, allocated_app, IH by done.
  cbn [allocated foldr]. lia.
Qed.
Lemma copy_in_use m nb u : 0 <= nb -> 8 * nb <= vlen m -> in_use u (copy_events m nb) = u.
Proof.
  intros H. pattern nb. apply natlike_ind; [done| |done]. intros x Hx IH Hl.
  unfold copy_events in *. rewrite <- Z.add_1_r, bind_seqZ_snoc, in_use_app, IH by lia.
  cbn [in_use foldl]. rewrite drop_length. unfold vlen in *. lia.
Qed.
(** No moment of [log], started with [u] words in use, has more than [n] in use. *)
Definition below (u n : Z) (log : list hevent) : Prop := forall l1 l2, log = l1 ++ l2 -> in_use u l1 <= n.
Lemma below_app u n a b : below u n a -> below (in_use u a) n b -> below u n (a ++ b).
Proof.
  intros Ha Hb l1 l2 E. apply app_eq_inv in E as [(r & -> & ->)|(r & -> & ->)].
  - by eapply Ha.
  - rewrite in_use_app. by eapply Hb.
Qed.
Lemma below_nil u n : u <= n -> below u n [].
Proof. intros H l1 l2 E. symmetry in E. apply app_eq_nil in E as [-> _]. done. Qed.
Lemma below_cons u n e b : u <= n -> below (in_use u [e]) n b -> below u n (e :: b).
Proof.
  intros Hu Hb. intros [|e' l1] l2 E; [done|]. injection E as <- ->. exact (Hb l1 l2 eq_refl).
Qed.
Lemma copies_below m nb u n : 0 <= nb -> 8 * nb <= vlen m -> 0 <= u -> u + vlen m <= n -> below u n (copy_events m nb).
Proof.
  intros H Hl Hu Hn. revert Hl. pattern nb. apply natlike_ind; [| |done].
  { intros _. apply below_nil. pose proof (vlen_nonneg m). lia. }
  intros x Hx IH Hl. unfold copy_events in *. rewrite <- Z.add_1_r, bind_seqZ_snoc by lia.
  apply below_app; [apply IH; lia|]. fold (copy_events m x). rewrite copy_in_use by lia.
  pose proof (vlen_nonneg m).
  apply below_cons; [lia|]. cbn [in_use foldl]. apply below_cons; [lia|]. cbn [in_use foldl]. apply below_nil.
  rewrite drop_length. unfold vlen in *. lia.
Qed.

Section results.
Context (p : platform) (Hp : known_platform p).
Lemma heap_log_returned sel choose k pwd salt t R C out log : sel_ok sel choose ->
  rust_args (isize_max p) k pwd salt t R C -> R < 2 ^ 63 ->
  lyra2_with_heap p sel k pwd salt t R C = Ok (out, log) ->
  exists m0 mf rowa tmp,
    log =
      [HAlloc (12 * R * C)] ++ copy_events m0 (n_blocks pwd salt) ++
      [HAlloc (12 * C * (R - rowa)); HFree (drop (Z.to_nat (12 * C * rowa)) mf)] ++ [HFreeBytes tmp] ++
      [HFree mf; HFreeBytes salt; HFreeBytes pwd] /\
    m0 = code_padded k pwd salt t R C ++ replicate (Z.to_nat (12 * R * C - 8 * n_blocks pwd salt)) 0 /\
    vlen m0 = 12 * R * C /\ vlen mf = 12 * R * C /\ 0 <= rowa < R /\ 1 <= C /\
    (usize_bits p = 64 \/ k < 2 ^ 63 -> exists rest, tmp = out ++ rest) /\
    1 <= n_blocks pwd salt /\ 8 * n_blocks pwd salt <= 12 * R * C.
Proof.
  intros Hsel Ha HR E. pose proof Ha as (_ & _ & HRw & HCw & [_ Hlp] & [_ Hls]).
  pose proof (heap_erase p sel k pwd salt t R C) as Er. rewrite E in Er. cbn [obind fst] in Er.
  assert (Hacc : accepted (isize_max p) 0 pwd salt t R C).
  { exact (lyra2_with_inv p Hp sel k pwd salt t R C out Hlp Hls HCw HRw (or_introl HR) (eq_sym Er)). }
  destruct (heap_log_before p Hp sel choose k pwd salt t R C Hsel Ha Hacc) as (m0 & mf & rowa & st & Hst & E' & Hm & Hrest).
  rewrite E in E'. symmetry in E'. apply obind_Ok_inv in E' as ([out' log'] & Es & [= -> <-]).
  destruct (squeeze_heap_shape p st k out log' Es) as [tmp ->].
  exists m0, mf, rowa, tmp. split; [reflexivity|]. destruct Hrest as (H1 & H2 & H3 & H4 & H5).
  do 5 (split; [assumption|]). split; [|exact H5]. intros Hk.
  destruct (dichotomy p sel choose k pwd salt t R C Hp Hsel Ha (or_introl HR) Hk) as [[H _]|[_ H]]; [|rewrite H in Er; discriminate Er].
  destruct (squeeze_heap_log p Hp st k Hst (accepted_split0 _ _ _ _ _ _ _ H)) as (tmp' & E' & rest & Ht).
  rewrite Es in E'. injection E' as -> ->. by exists rest.
Qed.
Lemma heap_use sel choose k pwd salt t R C out log : sel_ok sel choose ->
  rust_args (isize_max p) k pwd salt t R C -> R < 2 ^ 63 ->
  lyra2_with_heap p sel k pwd salt t R C = Ok (out, log) ->
  let nb := (Z.of_nat (length salt) + Z.of_nat (length pwd) + 48) / 64 + 1 in
  peak log (24 * R * C) /\ in_use 0 log = 0 /\
  exists rowa, 0 <= rowa < R /\
    allocated log = (nb + 1) * (12 * R * C) - 4 * (nb * (nb - 1)) + 12 * C * (R - rowa).
Proof.
  intros Hsel Ha HR E nb.
  destruct (heap_log_returned sel choose k pwd salt t R C out log Hsel Ha HR E)
    as (m0 & mf & rowa & tmp & -> & _ & Hm0 & Hmf & Hra & HC & _ & Hb1 & Hb).
  assert (Hnb : n_blocks pwd salt = nb).
  { unfold n_blocks, nb. fold (vlen pwd) (vlen salt). f_equal. f_equal. lia. }
  assert (Hs : 0 <= rowa * C <= R * C - C) by nia.
  assert (Hdr : Z.of_nat (length (drop (Z.to_nat (12 * C * rowa)) mf)) = 12 * C * (R - rowa)).
  { rewrite drop_length. unfold vlen in Hmf. lia. }
  split; [split|split].
  - exists ([HAlloc (12 * R * C)] ++ [HAlloc (12 * R * C)]).
    exists ([HFree m0] ++ (seqZ 1 (n_blocks pwd salt - 1) ≫= fun i => [HAlloc (vlen m0 - 8 * i); HFree (drop (Z.to_nat (8 * i)) m0)]) ++
      [HAlloc (12 * C * (R - rowa)); HFree (drop (Z.to_nat (12 * C * rowa)) mf)] ++ [HFreeBytes tmp] ++
      [HFree mf; HFreeBytes salt; HFreeBytes pwd]).
    split.
    + unfold copy_events. rewrite (seqZ_cons 0) by lia. cbn [mbind list_bind].
      rewrite Z.mul_0_r, Z.sub_0_r, Hm0, <- Z.sub_1_r. change (Z.succ 0) with 1. cbn [Z.to_nat drop].
      rewrite <- !app_assoc. reflexivity.
    + cbn [in_use foldl app]. lia.
  - change (below 0 (24 * R * C)
      ([HAlloc (12 * R * C)] ++ copy_events m0 (n_blocks pwd salt) ++
       [HAlloc (12 * C * (R - rowa)); HFree (drop (Z.to_nat (12 * C * rowa)) mf)] ++ [HFreeBytes tmp] ++
       [HFree mf; HFreeBytes salt; HFreeBytes pwd])).
    assert (0 <= R * C) by nia.
    apply below_app; [|apply below_app].
    + apply below_cons; [lia|]. cbn [in_use foldl]. apply below_nil. lia.
    + cbn [in_use foldl]. apply copies_below; lia.
    + cbn [in_use foldl]. rewrite copy_in_use by lia. cbn [app].
      repeat (apply below_cons; [cbn [in_use foldl]; unfold vlen in *; lia|]). apply below_nil.
      cbn [in_use foldl]. unfold vlen in *. lia.
  - rewrite !in_use_app. rewrite copy_in_use by lia. cbn [in_use foldl]. unfold vlen in *. lia.
  - exists rowa. split; [exact Hra|]. rewrite !allocated_app, allocated_copies, Hm0, Hnb by lia.
    cbn [allocated foldr]. lia.
Qed.

Lemma memory_complete_words l : Forall byte l ->
  memory_bytes (complete_words l) = take (8 * (length l / 8)) l.
Proof.
  intros Hl. rewrite <- complete_words_take. pose proof (Nat.mul_div_le (length l) 8 ltac:(lia)) as Hle.
  apply (wbytes_complete _ (length l / 8)).
  - by apply Forall_take.
  - rewrite take_length. lia.
Qed.
Lemma code_padded_head k pwd salt t R C :
  exists rest, code_padded k pwd salt t R C = complete_words pwd ++ complete_words salt ++ rest.
Proof.
  destruct (padded_k k pwd salt t R C) as [Y HY]. exists (k :: Y). rewrite (HY k). by rewrite <- app_assoc.
Qed.
Lemma heap_freed sel choose k pwd salt t R C out log : sel_ok sel choose ->
  rust_args (isize_max p) k pwd salt t R C -> R < 2 ^ 63 ->
  lyra2_with_heap p sel k pwd salt t R C = Ok (out, log) ->
  (exists buf rest, buf ∈ freed log /\
     memory_bytes buf = take (8 * (length pwd / 8)) pwd ++ take (8 * (length salt / 8)) salt ++ rest) /\
  pwd ∈ freed_bytes log /\ salt ∈ freed_bytes log /\
  (usize_bits p = 64 \/ k < 2 ^ 63 -> exists rest, out ++ rest ∈ freed_bytes log).
Proof.
  intros Hsel Ha HR E. pose proof Ha as (_ & _ & _ & _ & [Hbp _] & [Hbs _]).
  destruct (heap_log_returned sel choose k pwd salt t R C out log Hsel Ha HR E)
    as (m0 & mf & rowa & tmp & -> & Hm & Hm0 & Hmf & Hra & HC & Ho & Hb1 & Hb).
  split; [|split; [|split]].
  - destruct (code_padded_head k pwd salt t R C) as [r Hr].
    eexists m0, _. split.
    + apply elem_of_list_omap. exists (HFree m0). split; [|done].
      apply elem_of_app. right. apply elem_of_app. left. unfold copy_events. apply elem_of_list_bind.
      exists 0. split; [|apply elem_of_seqZ; lia]. rewrite Z.mul_0_r. cbn [Z.to_nat drop]. right. left.
    + rewrite Hm, Hr, <- !app_assoc. unfold memory_bytes. rewrite !bind_app.
      fold (memory_bytes (complete_words pwd)) (memory_bytes (complete_words salt)).
      rewrite !memory_complete_words by done. reflexivity.
  - apply elem_of_list_omap. exists (HFreeBytes pwd). split; [|done].
    rewrite !elem_of_app. right. right. right. right. right. right. left.
  - apply elem_of_list_omap. exists (HFreeBytes salt). split; [|done].
    rewrite !elem_of_app. right. right. right. right. right. left.
  - intros Hk. destruct (Ho Hk) as [rest ->]. exists rest. apply elem_of_list_omap. exists (HFreeBytes (out ++ rest)). split; [|done].
    rewrite !elem_of_app. right. right. right. left. left.
Qed.
End results.

(** ** The refuted promise *)
Lemma wipes_refuted :
  ~ (forall p k pwd salt t R C out log,
       known_platform p -> rust_args (isize_max p) k pwd salt t R C ->
       lyra2_heap p k pwd salt t R C = Ok (out, log) ->
       forall buf, buf ∈ freed log -> take 8 (memory_bytes buf) <> take 8 pwd \/ (length pwd < 8)%nat).
Proof.
  intros H.
  assert (Ha : rust_args (isize_max debug64) 4 [1; 2; 3; 4; 5; 6; 7; 8] [] 1 3 1) by args_tac.
  assert (Hp : known_platform debug64) by (right; reflexivity).
  destruct (lyra2_heap debug64 4 [1; 2; 3; 4; 5; 6; 7; 8] [] 1 3 1) as [[out log]| |] eqn:E.
  2,3: exfalso; pose proof (heap_erase debug64 MLyra2.sel_lyra2 4 [1; 2; 3; 4; 5; 6; 7; 8] [] 1 3 1) as Er;
    unfold lyra2_heap in E; rewrite E in Er; cbn [obind] in Er;
    rewrite (returns debug64 Hp _ _ 4 [1; 2; 3; 4; 5; 6; 7; 8] [] 1 3 1 (sel_lyra2_ok) Ha ltac:(accepted_tac)) in Er; discriminate Er.
  destruct (heap_freed debug64 Hp _ _ 4 [1; 2; 3; 4; 5; 6; 7; 8] [] 1 3 1 out log sel_lyra2_ok Ha ltac:(lia) E)
    as [(buf & rest & Hb & Hm) _].
  destruct (H debug64 4 _ [] 1 3 1 out log Hp Ha E buf Hb) as [Hn|Hn].
  - apply Hn. rewrite Hm. reflexivity.
  - cbn [length] in Hn. lia.
Qed.
