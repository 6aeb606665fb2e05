(** * Setup and wandering can be undone *)
From Verif Require Import Machine MachineFacts MUtils WordFacts Schedule Refine Refine2 RefineInput RefineTop SpongeFacts.
From Verif Require Import SpecWord SpecBlake2b SpecLyra2 SpecSponge.
From Verif Require MLyra2.
#[local] Opaque blake2b_round.
#[local] Open Scope Z_scope.

Lemma foldl_back {S X} (P : S -> Prop) (E : S -> S -> Prop) (h : S -> X -> S) (l : list X) :
  (forall s x, x ∈ l -> P s -> P (h s x)) ->
  (forall s s' x, x ∈ l -> P s -> P s' -> E (h s x) (h s' x) -> E s s') ->
  forall s s', P s -> P s' -> E (foldl h s l) (foldl h s' l) -> E s s'.
Proof.
  induction l as [|x l IH]; intros HP HE s s' Hs Hs' H; [exact H|]. cbn [foldl] in H.
  apply (HE s s' x); [left|done..|].
  apply IH; [| |apply HP; [left|done]..|exact H].
  - intros s1 y Hy. apply HP. by right.
  - intros s1 s2 y Hy. apply HE. by right.
Qed.
Lemma foldl_inv {S X} (P : S -> Prop) (h : S -> X -> S) (l : list X) :
  (forall s x, x ∈ l -> P s -> P (h s x)) -> forall s, P s -> P (foldl h s l).
Proof.
  induction l as [|x l IH]; intros HP s Hs; [exact Hs|]. cbn [foldl]. apply IH.
  - intros s1 y Hy. apply HP. by right.
  - apply HP; [left|done].
Qed.

Lemma round1_inj v v' : state16 v -> state16 v' -> round1 v = round1 v' -> v = v'.
Proof. apply blake2b_round_permutes. Qed.
Lemma absorb_same st st' b : state16 st -> state16 st' -> (length b <= 16)%nat ->
  absorb st b = absorb st' b -> st = st'.
Proof.
  intros [Hs _] [Hs' _] Hb H. apply (absorb_inj st st' b b) in H as [_ [_ H]]; [by apply H|done|lia|lia].
Qed.
Lemma bxor_same a a' b : block12 a -> block12 a' -> block12 b -> bxor a b = bxor a' b -> a = a'.
Proof. intros [Ha _] [Ha' _] [Hb _] H. apply (zip_xor_inj_l a a' b); [lia|lia|exact H]. Qed.

Section inj.
Context (R C : Z).
Definition wfM (M : matrix) : Prop := forall r c, 0 <= r < R -> 0 <= c < C -> block12 (M r c).
Definition wf (s : matrix * list Z) : Prop := wfM s.1 /\ state16 s.2.
Lemma wfM_set M r c b : wfM M -> block12 b -> wfM (set M r c b).
Proof. intros H Hb r' c' Hr Hc. unfold set. destruct (_ && _); [done|by apply H]. Qed.
Lemma flat_wf m M : flat R C m M -> wfM M.
Proof. intros H r c Hr Hc. exact (flat_block R C m M r c H Hr Hc). Qed.
Lemma set_same M r c b : set M r c b r c = b.
Proof. unfold set. by rewrite !Z.eqb_refl. Qed.
Lemma set_other M r c b r' c' : r' <> r \/ c' <> c -> set M r c b r' c' = M r' c'.
Proof.
  intros H. unfold set. destruct (r' =? r) eqn:E1; [|done]. destruct (c' =? c) eqn:E2; [|done].
  apply Z.eqb_eq in E1. apply Z.eqb_eq in E2. lia.
Qed.

(** *** Absorbing the sum of two blocks *)
Lemma duplex_state M st prev rowa col : wf (M, st) -> 0 <= prev < R -> 0 <= rowa < R -> 0 <= col < C ->
  state16 (absorb st (badd (M prev col) (M rowa col))) /\
  state16 (round1 (absorb st (badd (M prev col) (M rowa col)))).
Proof.
  intros [HM Hs] Hp Ha Hc. cbn in HM, Hs.
  assert (state16 (absorb st (badd (M prev col) (M rowa col)))) as H.
  { apply absorb12_state16; [done|]. apply badd_block12; by apply HM. }
  split; [done|by apply round1_state16].
Qed.
Lemma duplex_back M M' st st' prev rowa col :
  wf (M, st) -> wf (M', st') -> 0 <= prev < R -> 0 <= rowa < R -> 0 <= col < C ->
  M prev col = M' prev col -> M rowa col = M' rowa col ->
  round1 (absorb st (badd (M prev col) (M rowa col))) = round1 (absorb st' (badd (M' prev col) (M' rowa col))) ->
  st = st'.
Proof.
  intros Hw Hw' Hp Ha Hc E1 E2 E.
  pose proof (duplex_state M st prev rowa col Hw Hp Ha Hc) as [H1 _].
  pose proof (duplex_state M' st' prev rowa col Hw' Hp Ha Hc) as [H2 _].
  apply round1_inj in E; [|done..]. rewrite <- E1, <- E2 in E.
  eapply absorb_same; [apply Hw|apply Hw'| |exact E].
  assert (block12 (badd (M prev col) (M rowa col))) as [-> _]; [|lia].
  apply badd_block12; by apply Hw.
Qed.

(** *** Setup *)
Definition setup_col (row prev rowa : Z) : matrix * list Z -> Z -> matrix * list Z :=
  fun '(M, st) col =>
  let st := round1 (absorb st (badd (M prev col) (M rowa col))) in
  let rand := rate st in
  let M := set M row (C - 1 - col) (bxor (M prev col) rand) in
  let M := set M rowa col (bxor (M rowa col) (rotW rand)) in
  (M, st).
Lemma setup_row_col row prev rowa s : setup_row C row prev rowa s = foldl (setup_col row prev rowa) s (seqZ 0 C).
Proof. reflexivity. Qed.
Lemma col_elem col : col ∈ seqZ 0 C -> 0 <= col < C.
Proof. rewrite elem_of_seqZ. lia. Qed.
Lemma setup_col_wf row prev rowa s col : 0 <= prev < R -> 0 <= rowa < R -> 0 <= col < C -> 0 <= row < R ->
  wf s -> wf (setup_col row prev rowa s col).
Proof.
  destruct s as [M st]. intros Hp Ha Hc Hr Hw.
  pose proof (duplex_state M st prev rowa col Hw Hp Ha Hc) as [_ H1]. destruct Hw as [HM Hs]. cbn in HM, Hs.
  split; [|exact H1]. cbn [setup_col fst]. pose proof (rate_block12 _ H1) as Hrate.
  assert (wfM (set M row (C - 1 - col) (bxor (M prev col) (rate (round1 (absorb st (badd (M prev col) (M rowa col)))))))) as HM1.
  { apply wfM_set; [done|]. apply bxor_block12; [by apply HM|done]. }
  apply wfM_set; [done|]. apply bxor_block12; [by apply HM1|by apply rotW_block12].
Qed.
Lemma setup_col_back row prev rowa s s' col :
  0 <= prev < row -> 0 <= rowa < row -> row < R -> 0 <= col < C -> wf s -> wf s' ->
  agree_st (agree C row) (setup_col row prev rowa s col) (setup_col row prev rowa s' col) ->
  agree_st (agree C row) s s'.
Proof.
  destruct s as [M st], s' as [M' st']. intros Hp Ha Hr Hc Hw Hw' [EM Es]. cbn [setup_col fst snd] in EM, Es.
  pose proof (duplex_state M st prev rowa col Hw ltac:(lia) ltac:(lia) Hc) as [_ H1].
  rewrite <- Es in EM. remember (round1 (absorb st (badd (M prev col) (M rowa col)))) as x eqn:Ex.
  assert (EA : agree C row M M').
  { intros r c Hr' Hc'. pose proof (EM r c Hr' Hc') as E.
    destruct (decide (r = rowa /\ c = col)) as [[-> ->]|N].
    - rewrite !set_same in E. rewrite !(set_other _ row) in E by lia.
      revert E. apply bxor_same; [apply Hw; cbn; lia|apply Hw'; cbn; lia|].
      by apply rotW_block12, rate_block12.
    - rewrite !(set_other _ rowa) in E by lia. by rewrite !(set_other _ row) in E by lia. }
  split; [exact EA|]. cbn.
  eapply (duplex_back M M' st st' prev rowa col); [done|done|lia|lia|done|apply EA; lia|apply EA; lia|].
  rewrite <- Ex. exact Es.
Qed.
Lemma setup_row_wf row prev rowa s : 0 <= prev < R -> 0 <= rowa < R -> 0 <= row < R -> wf s ->
  wf (setup_row C row prev rowa s).
Proof. intros. apply (foldl_inv wf (setup_col row prev rowa)); [|done]. intros s1 col Hc%col_elem. by apply setup_col_wf. Qed.
Lemma setup_row_back row prev rowa s s' : 0 <= prev < row -> 0 <= rowa < row -> row < R -> wf s -> wf s' ->
  agree_st (agree C row) (setup_row C row prev rowa s) (setup_row C row prev rowa s') ->
  agree_st (agree C row) s s'.
Proof.
  intros Hp Ha Hr Hw Hw'. rewrite !setup_row_col. apply (foldl_back wf); [| |done|done].
  - intros s1 col Hc%col_elem. apply setup_col_wf; lia.
  - intros s1 s2 col Hc%col_elem. by apply setup_col_back.
Qed.
Lemma setup_rows_back n : 0 <= n -> forall lo s s', 2 <= lo -> lo + n <= R -> wf s -> wf s' ->
  agree_st (agree C (lo + n)) (foldl (fun s row => setup_row C row (row - 1) (setup_rowa row) s) s (seqZ lo n))
    (foldl (fun s row => setup_row C row (row - 1) (setup_rowa row) s) s' (seqZ lo n)) ->
  agree_st (agree C lo) s s'.
Proof.
  intros Hn. pattern n. apply natlike_ind; [| |done]; clear n Hn.
  - intros lo s s' _ _ _ _. rewrite seqZ_nil by lia. by rewrite Z.add_0_r.
  - intros n Hn IH lo s s' Hlo HlR Hw Hw'. rewrite seqZ_cons by lia. rewrite Z.pred_succ. cbn [foldl].
    pose proof (setup_rowa_lt lo Hlo) as Hra.
    intros E. apply (setup_row_back lo (lo - 1) (setup_rowa lo)); [lia|lia|lia|done|done|].
    replace (lo + Z.succ n) with (lo + 1 + n) in E by lia. apply IH in E; [|lia|lia|apply setup_row_wf; (lia || done)..].
    destruct E as [E1 E2]. split; [|exact E2]. intros r c Hr Hc. apply E1; lia.
Qed.
Definition row1_col : matrix * list Z -> Z -> matrix * list Z :=
  fun '(M, st) col =>
  let st := round1 (absorb st (M 0 col)) in
  (set M 1 (C - 1 - col) (bxor (M 0 col) (rate st)), st).
Definition row0_col : matrix * list Z -> Z -> matrix * list Z :=
  fun '(M, st) col => (set M 0 (C - 1 - col) (rate st), round1 st).
Context (HR : 3 <= R).
Lemma row1_col_wf s col : 0 <= col < C -> wf s -> wf (row1_col s col).
Proof.
  destruct s as [M st]. intros Hc [HM Hs]. cbn in HM, Hs. pose proof (HM 0 col ltac:(lia) Hc) as Hb.
  assert (state16 (round1 (absorb st (M 0 col)))) as H1 by by apply round1_state16, absorb12_state16.
  split; [|exact H1]. cbn [row1_col fst]. apply wfM_set; [done|]. apply bxor_block12; [done|by apply rate_block12].
Qed.
Lemma row1_col_back s s' col : 0 <= col < C -> wf s -> wf s' ->
  agree_st (agree C 1) (row1_col s col) (row1_col s' col) -> agree_st (agree C 1) s s'.
Proof.
  destruct s as [M st], s' as [M' st']. intros Hc [HM Hs] [HM' Hs'] [EM Es]. cbn in HM, Hs, HM', Hs'.
  cbn [row1_col fst snd] in EM, Es.
  assert (EA : agree C 1 M M').
  { intros r c Hr Hc'. pose proof (EM r c Hr Hc') as E. by rewrite !set_other in E by lia. }
  split; [exact EA|]. cbn. pose proof (HM 0 col ltac:(lia) Hc) as Hb.
  pose proof (EA 0 col ltac:(lia) Hc) as E0. rewrite <- E0 in Es.
  apply round1_inj in Es; [|by apply absorb12_state16..].
  eapply absorb_same; [done|done| |exact Es]. destruct Hb as [-> _]. lia.
Qed.
Lemma row0_col_wf s col : wf s -> wf (row0_col s col).
Proof.
  destruct s as [M st]. intros [HM Hs]. cbn in HM, Hs. split; [|by apply round1_state16].
  cbn [row0_col fst]. apply wfM_set; [done|by apply rate_block12].
Qed.
Lemma setup_row0_wf s : wf s -> wf (setup_row0 C s).
Proof. intros. apply (foldl_inv wf row0_col); [|done]. intros. by apply row0_col_wf. Qed.
Lemma setup_row1_wf s : wf s -> wf (setup_row1 C s).
Proof. intros. apply (foldl_inv wf row1_col); [|done]. intros s1 col Hc%col_elem. by apply row1_col_wf. Qed.
Lemma setup_rows_wf s : wf s -> wf (setup_rows R C s).
Proof.
  intros H. apply (foldl_inv wf (fun s row => setup_row C row (row - 1) (setup_rowa row) s)); [|done].
  intros s1 row Hrow%elem_of_seqZ.
  pose proof (setup_rowa_lt row ltac:(lia)). apply setup_row_wf; lia.
Qed.
Lemma setup_wf s : wf s -> wf (setup R C s).
Proof. intros. by apply setup_rows_wf, setup_row1_wf, setup_row0_wf. Qed.
Lemma setup_back s s' : wf s -> wf s' ->
  agree_st (agree C R) (setup R C s) (setup R C s') -> s.2 = s'.2.
Proof.
  intros Hw Hw' E. unfold setup in E.
  assert (E2 : agree_st (agree C 2) (setup_row1 C (setup_row0 C s)) (setup_row1 C (setup_row0 C s'))).
  { apply (setup_rows_back (R - 2)); [lia|lia|lia|by apply setup_row1_wf, setup_row0_wf..|].
    replace (2 + (R - 2)) with R by lia. exact E. }
  assert (E1 : agree_st (agree C 1) (setup_row0 C s) (setup_row0 C s')).
  { revert E2. intros [E2 E3]. assert (agree_st (agree C 1) (setup_row1 C (setup_row0 C s)) (setup_row1 C (setup_row0 C s'))) as E4.
    { split; [|exact E3]. intros r c Hr Hc. apply E2; lia. }
    revert E4. apply (foldl_back wf _ row1_col); [| |by apply setup_row0_wf..].
    - intros s1 col Hc%col_elem. by apply row1_col_wf.
    - intros s1 s2 col Hc%col_elem. by apply row1_col_back. }
  destruct E1 as [_ E1]. revert E1.
  apply (foldl_back wf (fun s s' => s.2 = s'.2) row0_col); [| |done|done].
  - intros. by apply row0_col_wf.
  - intros [M st] [M' st'] col _ [_ Hs] [_ Hs']. cbn. by apply round1_inj.
Qed.

(** *** Wandering *)
Definition wander_col (row prev rowa : Z) : matrix * list Z -> Z -> matrix * list Z :=
  fun '(M, st) col =>
  let st := round1 (absorb st (badd (M prev col) (M rowa col))) in
  let rand := rate st in
  let M := set M row col (bxor (M row col) rand) in
  let M := set M rowa col (bxor (M rowa col) (rotW rand)) in
  (M, st).
Lemma wander_col_wf row prev rowa s col : 0 <= prev < R -> 0 <= rowa < R -> 0 <= col < C -> 0 <= row < R ->
  wf s -> wf (wander_col row prev rowa s col).
Proof.
  destruct s as [M st]. intros Hp Ha Hc Hr Hw.
  pose proof (duplex_state M st prev rowa col Hw Hp Ha Hc) as [_ H1]. destruct Hw as [HM Hs]. cbn in HM, Hs.
  split; [|exact H1]. cbn [wander_col fst]. pose proof (rate_block12 _ H1) as Hrate.
  assert (wfM (set M row col (bxor (M row col) (rate (round1 (absorb st (badd (M prev col) (M rowa col)))))))) as HM1.
  { apply wfM_set; [done|]. apply bxor_block12; [by apply HM|done]. }
  apply wfM_set; [done|]. apply bxor_block12; [by apply HM1|by apply rotW_block12].
Qed.
Lemma wander_col_back row prev rowa s s' col :
  0 <= prev < R -> 0 <= rowa < R -> 0 <= row < R -> 0 <= col < C -> wf s -> wf s' ->
  agree_st (agree C R) (wander_col row prev rowa s col) (wander_col row prev rowa s' col) ->
  agree_st (agree C R) s s'.
Proof.
  destruct s as [M st], s' as [M' st']. intros Hp Ha Hr Hc Hw Hw' [EM Es]. cbn [wander_col fst snd] in EM, Es.
  pose proof (duplex_state M st prev rowa col Hw ltac:(lia) ltac:(lia) Hc) as [_ H1].
  rewrite <- Es in EM. remember (round1 (absorb st (badd (M prev col) (M rowa col)))) as x eqn:Ex.
  pose proof (rate_block12 _ H1) as Hx. pose proof (rotW_block12 _ Hx) as Hx'.
  assert (W : wfM M) by apply Hw. assert (W' : wfM M') by apply Hw'.
  assert (W1 : wfM (set M row col (bxor (M row col) (rate x)))).
  { apply wfM_set; [done|]. apply bxor_block12; [by apply W|done]. }
  assert (W1' : wfM (set M' row col (bxor (M' row col) (rate x)))).
  { apply wfM_set; [done|]. apply bxor_block12; [by apply W'|done]. }
  assert (E1 : agree C R (set M row col (bxor (M row col) (rate x))) (set M' row col (bxor (M' row col) (rate x)))).
  { intros r c Hr' Hc'. pose proof (EM r c Hr' Hc') as E.
    destruct (decide (r = rowa /\ c = col)) as [[-> ->]|N].
    - rewrite !(set_same _ rowa) in E. revert E. apply bxor_same; [by apply W1|by apply W1'|done].
    - by rewrite !(set_other _ rowa) in E by lia. }
  assert (EA : agree C R M M').
  { intros r c Hr' Hc'. pose proof (E1 r c Hr' Hc') as E.
    destruct (decide (r = row /\ c = col)) as [[-> ->]|N].
    - rewrite !set_same in E. revert E. apply bxor_same; [by apply W|by apply W'|done].
    - by rewrite !(set_other _ row) in E by lia. }
  split; [exact EA|]. cbn.
  eapply (duplex_back M M' st st' prev rowa col); [done|done|lia|lia|done|apply EA; lia|apply EA; lia|].
  rewrite <- Ex. exact Es.
Qed.
Lemma wander_row_wf row prev rowa s : 0 <= prev < R -> 0 <= rowa < R -> 0 <= row < R -> wf s ->
  wf (wander_row C row prev rowa s).
Proof. intros. apply (foldl_inv wf (wander_col row prev rowa)); [|done]. intros s1 col Hc%col_elem. by apply wander_col_wf. Qed.
Lemma wander_row_back row prev rowa s s' : 0 <= prev < R -> 0 <= rowa < R -> 0 <= row < R -> wf s -> wf s' ->
  agree_st (agree C R) (wander_row C row prev rowa s) (wander_row C row prev rowa s') ->
  agree_st (agree C R) s s'.
Proof.
  intros Hp Ha Hr Hw Hw'. apply (foldl_back wf _ (wander_col row prev rowa)); [| |done|done].
  - intros s1 col Hc%col_elem. apply wander_col_wf; lia.
  - intros s1 s2 col Hc%col_elem. by apply wander_col_back.
Qed.
End inj.

(** ** Absorption of the input *)
Definition block8 (b : list Z) : Prop := length b = 8%nat /\ Forall (word 64) b.
Lemma round12_inj v v' : state16 v -> state16 v' -> round12 v = round12 v' -> v = v'.
Proof. apply round12_permutes. Qed.
Lemma round12_state16 v : state16 v -> state16 (round12 v).
Proof. apply round12_permutes. Qed.
Lemma absorb8_state16 st b : state16 st -> block8 b -> state16 (absorb st b).
Proof. intros Hs [Hl Hw]. apply absorb_state16; [done|lia|done]. Qed.
Lemma absorb_blocks_wf bs st : state16 st -> Forall block8 bs ->
  state16 (foldl (fun st b => round12 (absorb st b)) st bs).
Proof.
  intros Hs Hb. apply (foldl_inv state16); [|done]. intros s b Hin H.
  apply round12_state16, absorb8_state16; [done|]. by eapply Forall_forall in Hb.
Qed.
Lemma absorb_one_block st xs b b' ys : state16 st -> Forall block8 xs -> block8 b -> block8 b' -> Forall block8 ys ->
  foldl (fun st b => round12 (absorb st b)) st (xs ++ b :: ys) =
  foldl (fun st b => round12 (absorb st b)) st (xs ++ b' :: ys) -> b = b'.
Proof.
  intros Hs Hx Hb Hb' Hy. rewrite !foldl_app. cbn [foldl].
  pose proof (absorb_blocks_wf xs st Hs Hx) as Hs1. set (s1 := foldl _ st xs) in *. clearbody s1.
  intros E. apply (foldl_back state16 eq) in E.
  - apply round12_inj in E; [|by apply absorb8_state16..].
    apply absorb_inj in E as [_ [E _]]; [by apply E|destruct Hb, Hb'; lia|done|destruct Hb as [-> _]; destruct Hs1; lia].
  - intros s b1 Hin H. apply round12_state16, absorb8_state16; [done|]. by eapply Forall_forall in Hy.
  - intros s s' b1 Hin H H' E1. assert (Hb1 : block8 b1) by by eapply Forall_forall in Hy.
    apply round12_inj in E1; [|by apply absorb8_state16..]. eapply absorb_same; [done|done| |exact E1].
    destruct Hb1 as [-> _]. lia.
  - by apply round12_state16, absorb8_state16.
  - by apply round12_state16, absorb8_state16.
Qed.
