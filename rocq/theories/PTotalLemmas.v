(** * Lemmas for C58: failing calls, too, show nothing but rows *)
From Verif Require Import Machine MachineFacts.
From Verif Require Import SpecWord SpecLyra2 SpecCalls SpecAccess SpecSchedule.
From Verif Require MLyra2 SrcLyra2 SrcLyra2mod SrcLyra2Log SrcLyra2modLog SrcLyra2Seen SrcLyra2modSeen.
From Verif Require Import SrcFacts Refine2 RefineInput RefineTop LyraFacts MAccess AccessFacts PLyra2Lemmas PAccessLemmas Kept MKept KeptFacts PSrcLogLemmas FailFacts PFailCostLemmas
  Seen SpecSeen SpecShape SeenFacts SeenLyra2 SeenErase SeenUpto SeenShape SeenEarly PSeenLemmas PShapeLemmas.
#[local] Open Scope Z_scope.
#[local] Opaque SrcLyra2Seen.lyra2_seen SrcLyra2modSeen.lyra2mod_seen lyra2_upto lyra2mod_upto SrcLyra2Seen.squeeze_seen SrcLyra2modSeen.squeeze_seen
  SrcLyra2.lyra2 SrcLyra2mod.lyra2mod SrcLyra2Log.lyra2_log SrcLyra2modLog.lyra2mod_log before_kept.

(** ** Calls without a call of [round_lyra] *)
Lemma no_work_no_perm l : work (mem_events l) = 0 -> OMem Perm ∉ l.
Proof.
  intros H Hin. unfold work in H.
  assert (Hp : Perm ∈ mem_events l) by (apply elem_of_list_omap; by exists (OMem Perm)).
  apply elem_of_list_split in Hp as (a & b & E). rewrite E in H.
  rewrite omap_app in H. cbn in H. rewrite app_length in H. cbn in H. lia.
Qed.
Lemma osim_end x y : osim leq x y -> same_end x y.
Proof. by destruct x, y. Qed.
Lemma silent (x y : seen (list Z)) : frel leq x y -> work (mem_events x.2) = 0 -> x.2 = y.2 /\ same_end x.1 y.1.
Proof.
  intros [[Hl Ho]|[H _]] W; [split; [done|by apply osim_end]|]. by apply no_work_no_perm in W.
Qed.
Lemma silent_calls p k pwd pwd' salt salt' t R C : length pwd = length pwd' -> length salt = length salt' ->
  (let x := SrcLyra2Seen.lyra2_seen p k pwd salt t R C in let y := SrcLyra2Seen.lyra2_seen p k pwd' salt' t R C in
   work (mem_events x.2) = 0 -> x.2 = y.2 /\ same_end x.1 y.1) /\
  (let x := SrcLyra2modSeen.lyra2mod_seen p k pwd salt t R C in let y := SrcLyra2modSeen.lyra2mod_seen p k pwd' salt' t R C in
   work (mem_events x.2) = 0 -> x.2 = y.2 /\ same_end x.1 y.1).
Proof. intros H1 H2. cbv zeta. split; apply silent; [by apply early_lyra2|by apply early_lyra2mod]. Qed.

(** ** The rest *)
Lemma hide_idem {A} (f : obs -> A) (l l' : list obs) : l = l' -> f <$> l = f <$> l'.
Proof. by intros ->. Qed.
Lemma before_public pwd pwd' salt salt' t R C rowas rowas' : 1 <= C -> length pwd = length pwd' -> length salt = length salt' ->
  length rowas = length (wander_schedule R t) -> length rowas' = length (wander_schedule R t) ->
  without_row C <$> before_accesses pwd salt t R C rowas = without_row C <$> before_accesses pwd' salt' t R C rowas'.
Proof.
  intros HC H1 H2 Hl Hl'. unfold before_accesses, vlen. rewrite H1, H2, !fmap_app. do 2 f_equal. f_equal.
  - by apply without_row_visits.
  - f_equal. unfold each, cell_addrs. rewrite <- !list_fmap_compose. apply list_fmap_ext. intros i j Hj.
    apply elem_of_list_lookup_2, elem_of_seqZ in Hj. cbn. by rewrite !without_row_addr by lia.
Qed.
Lemma sbind_Ok {A B} (x : seen A) (f : A -> seen B) a : x.1 = Ok a -> sbind x f = ((f a).1, x.2 ++ (f a).2).
Proof. destruct x as [y l]. cbn. intros ->. by destruct (f a). Qed.
Section two.
Context (p : platform) (k : Z) (pwd pwd' salt salt' : list Z) (t R C : Z) (Hp : known_platform p).
Lemma before_returns sel choose : sel_ok sel choose -> rust_args (isize_max p) k pwd salt t R C ->
  accepted (isize_max p) 0 pwd salt t R C ->
  exists st rowas, before_kept p sel k pwd salt t R C = (Ok st, before_accesses pwd salt t R C rowas) /\
    length rowas = length (wander_schedule R t).
Proof.
  intros Hsel Ha Hacc. pose proof Ha as ([? ?] & [? ?] & [? ?] & [? ?] & [Hbp Hlp] & [Hbs Hls]).
  destruct (before_squeeze_Ok p Hp sel choose k pwd salt t R C Hsel Hbp Hbs ltac:(lia) ltac:(done) Hacc) as [[Hst _] Eb].
  set (st := lyra2_state _ _ _ _ _ _) in *. clearbody st.
  rewrite <- before_acc_erase, <- proj_before in Eb. rewrite <- proj_fst in Eb.
  destruct (before_kept p sel k pwd salt t R C) as [y l] eqn:E. cbn [fst] in Eb. subst y.
  assert (Eacc : before_acc p sel k pwd salt t R C = Ok (st, l)) by (rewrite <- proj_before, E; reflexivity).
  destruct Hacc as (Ht & HR & _ & HC0 & Hsz & Hmax). pose proof (n_blocks_bounds pwd salt) as Hnb.
  assert (HC : 1 <= C) by nia.
  apply (before_log p Hp) in Eacc as (rowas & Hl & HF & ->); [|done || lia..]. by exists st, rowas.
Qed.
End two.
(** What the whole call shows, from what it shows before the key is extracted. *)
Lemma whole looks C (x y : seen (list Z)) (K : list Z -> seen (list Z)) a b :
  crel (shape looks) leq x y -> x.1 = Ok a -> y.1 = Ok b -> without_row C <$> mem_events x.2 = without_row C <$> mem_events y.2 ->
  (leq a b -> srel nothing leq (K a) (K b)) ->
  same_end (sbind x K).1 (sbind y K).1 /\ hide looks C <$> (sbind x K).2 = hide looks C <$> (sbind y K).2.
Proof.
  intros H Ex Ey Hm HK. rewrite (sbind_Ok x K a Ex), (sbind_Ok y K b Ey). cbn [fst snd].
  pose proof (crel_logs looks C x y a b H Ex Ey Hm) as Hl. unfold crel in H. rewrite Ex, Ey in H. destruct H as [Hab _].
  destruct (HK Hab) as [[Hl' Ho]|(? & ? & ? & ? & ? & _ & _ & _ & [])].
  split; [by apply osim_end|]. by rewrite !fmap_app, Hl, Hl'.
Qed.
Definition no_wrap (p : platform) (R C : Z) : Prop :=
  (overflow_checks p = true /\ usize_bits p = 64 /\ R < 2 ^ 63) \/ (12 * R * C < 2 ^ 63 /\ 12 * R * C < 2 ^ usize_bits p).
Section total.
Context (p : platform) (k : Z) (pwd pwd' salt salt' : list Z) (t R C : Z).
Context (Hp : known_platform p) (Ha : rust_args (isize_max p) k pwd salt t R C) (Ha' : rust_args (isize_max p) k pwd' salt' t R C).
Context (H1 : length pwd = length pwd') (H2 : length salt = length salt').
Lemma same_accepted : accepted (isize_max p) 0 pwd salt t R C -> accepted (isize_max p) 0 pwd' salt' t R C.
Proof. unfold accepted, n_blocks. by rewrite H1, H2. Qed.
Lemma late_lyra2 : accepted (isize_max p) 0 pwd salt t R C ->
  let x := SrcLyra2Seen.lyra2_seen p k pwd salt t R C in let y := SrcLyra2Seen.lyra2_seen p k pwd' salt' t R C in
  same_end x.1 y.1 /\ hide false C <$> x.2 = hide false C <$> y.2.
Proof.
  intros Hacc. cbv zeta.
  destruct (before_returns p k pwd salt t R C Hp _ _ sel_lyra2_ok Ha Hacc) as (st & ra & E & L).
  destruct (before_returns p k pwd' salt' t R C Hp _ _ sel_lyra2_ok Ha' (same_accepted Hacc)) as (st' & ra' & E' & L').
  rewrite <- log_upto, <- strip_upto in E, E' by done. apply pair_equal_spec in E as [E1 E2], E' as [E1' E2'].
  rewrite <- lyra2_upto_squeeze, !(lyra2_upto_split SrcLyra2Seen.squeeze_seen).
  eapply whole; [by apply shape_upto|exact E1|exact E1'| |intros; by apply two_squeeze].
  rewrite E2, E2'. destruct Hacc as (Ht & HR & _ & HC0 & Hsz & Hmax). pose proof (n_blocks_bounds pwd salt). apply before_public; try done. nia.
Qed.
Lemma late_lyra2mod : accepted (isize_max p) 0 pwd salt t R C ->
  let x := SrcLyra2modSeen.lyra2mod_seen p k pwd salt t R C in let y := SrcLyra2modSeen.lyra2mod_seen p k pwd' salt' t R C in
  same_end x.1 y.1 /\ hide true C <$> x.2 = hide true C <$> y.2.
Proof.
  intros Hacc. cbv zeta.
  destruct (before_returns p k pwd salt t R C Hp _ _ (sel_lyra2mod_ok p Hp) Ha Hacc) as (st & ra & E & L).
  destruct (before_returns p k pwd' salt' t R C Hp _ _ (sel_lyra2mod_ok p Hp) Ha' (same_accepted Hacc)) as (st' & ra' & E' & L').
  rewrite <- log_mod_upto, <- strip_mod_upto in E, E' by done. apply pair_equal_spec in E as [E1 E2], E' as [E1' E2'].
  rewrite <- lyra2mod_upto_squeeze, !(lyra2mod_upto_split SrcLyra2modSeen.squeeze_seen), mods_squeeze.
  eapply whole; [by apply shape_mod_upto|exact E1|exact E1'| |intros; by apply two_squeeze].
  rewrite E2, E2'. destruct Hacc as (Ht & HR & _ & HC0 & Hsz & Hmax). pose proof (n_blocks_bounds pwd salt). apply before_public; try done. nia.
Qed.
Lemma accepted_dec : accepted (isize_max p) 0 pwd salt t R C \/ ~ accepted (isize_max p) 0 pwd salt t R C.
Proof. unfold accepted. lia. Qed.
Lemma total_lyra2 : no_wrap p R C ->
  let x := SrcLyra2Seen.lyra2_seen p k pwd salt t R C in let y := SrcLyra2Seen.lyra2_seen p k pwd' salt' t R C in
  same_end x.1 y.1 /\ hide_row C <$> x.2 = hide_row C <$> y.2 /\
  (~ accepted (isize_max p) 0 pwd salt t R C -> x.1 = Panic /\ y.1 = Panic /\ x.2 = y.2).
Proof.
  intros Hw. cbv zeta. destruct accepted_dec as [Hacc|Hn].
  - destruct (late_lyra2 Hacc) as [He Hl]. split; [exact He|]. split; [exact Hl|]. intros []. exact Hacc.
  - destruct (early p k pwd salt t R C _ Hp Ha Hw Hn (or_introl eq_refl)) as (HP & HW & _).
    rewrite <- (proj1 (seen_accesses p k pwd salt t R C)) in HW.
    rewrite (proj1 (log_erase p k pwd salt t R C Hp)), <- (proj1 (seen_erase p k pwd salt t R C Hp)) in HP.
    destruct (proj1 (silent_calls p k pwd pwd' salt salt' t R C H1 H2) HW) as [Hl He].
    split; [exact He|]. split; [by apply hide_idem|]. intros _. split; [exact HP|]. split; [|exact Hl].
    rewrite HP in He. clear - He. destruct (_.1) in He |- *; done.
Qed.
Lemma total_lyra2mod : no_wrap p R C ->
  let x := SrcLyra2modSeen.lyra2mod_seen p k pwd salt t R C in let y := SrcLyra2modSeen.lyra2mod_seen p k pwd' salt' t R C in
  same_end x.1 y.1 /\ hide_row C ∘ hide_look <$> x.2 = hide_row C ∘ hide_look <$> y.2 /\
  (~ accepted (isize_max p) 0 pwd salt t R C -> x.1 = Panic /\ y.1 = Panic /\ x.2 = y.2).
Proof.
  intros Hw. cbv zeta. destruct accepted_dec as [Hacc|Hn].
  - destruct (late_lyra2mod Hacc) as [He Hl]. split; [exact He|]. split; [exact Hl|]. intros []. exact Hacc.
  - destruct (early p k pwd salt t R C _ Hp Ha Hw Hn (or_intror eq_refl)) as (HP & HW & _).
    rewrite <- (proj2 (seen_accesses p k pwd salt t R C)) in HW.
    rewrite (proj2 (log_erase p k pwd salt t R C Hp)), <- (proj2 (seen_erase p k pwd salt t R C Hp)) in HP.
    destruct (proj2 (silent_calls p k pwd pwd' salt salt' t R C H1 H2) HW) as [Hl He].
    split; [exact He|]. split; [by apply hide_idem|]. intros _. split; [exact HP|]. split; [|exact Hl].
    rewrite HP in He. clear - He. destruct (_.1) in He |- *; done.
Qed.
End total.
(** ** The hash functions *)
Lemma total_sums p m m' : known_platform p ->
  Forall byte m -> Forall byte m' -> length m = length m' -> Z.of_nat (length m) <= isize_max p ->
  same_end (SrcLyra2Seen.sum_seen p m).1 (SrcLyra2Seen.sum_seen p m').1 /\
  hide_row 4 <$> (SrcLyra2Seen.sum_seen p m).2 = hide_row 4 <$> (SrcLyra2Seen.sum_seen p m').2 /\
  same_end (SrcLyra2modSeen.sum_seen p m).1 (SrcLyra2modSeen.sum_seen p m').1 /\
  hide_row 4 ∘ hide_look <$> (SrcLyra2modSeen.sum_seen p m).2 = hide_row 4 ∘ hide_look <$> (SrcLyra2modSeen.sum_seen p m').2.
Proof.
  intros Hp Hm Hm' Hl Hlen. unfold SrcLyra2Seen.sum_seen, SrcLyra2modSeen.sum_seen. rewrite !sret_l.
  assert (Ha : rust_args (isize_max p) 32 m m 1 4 4) by (unfold rust_args, word; repeat (split; [lia|]); split; split; done).
  assert (Ha' : rust_args (isize_max p) 32 m' m' 1 4 4) by (unfold rust_args, word; repeat (split; [lia|]); split; split; try done; lia).
  assert (Hw : no_wrap p 4 4).
  { right. by destruct Hp as [E|E]; rewrite E. }
  destruct (total_lyra2 p 32 m m' m m' 1 4 4 Hp Ha Ha' Hl Hl Hw) as (E & L & _).
  destruct (total_lyra2mod p 32 m m' m m' 1 4 4 Hp Ha Ha' Hl Hl Hw) as (E' & L' & _).
  exact (conj E (conj L (conj E' L'))).
Qed.
