(** * How many contents of memory and sponge lead to a given key *)
From Verif Require Import Machine MachineFacts MUtils WordFacts Schedule Refine Refine2 RefineInput RefineTop Domain TraceFacts InjFacts PhaseFacts RowCount RowCount2 SpongeFacts.
From Verif Require Import SpecWord SpecBlake2b SpecLyra2 SpecCalls SpecPhases SpecRowChoice SpecExtraction.
From Verif Require MLyra2.
From Verif Require Import MTrace MPhases VariantFacts.
From Verif Require Import PermFacts.
#[local] Open Scope Z_scope.
#[local] Opaque all_states.

(** ** A permutation does not change counts *)
Section perm.
Context {A} `{!EqDecision A} (P : A -> Prop) (U : list A) (HU : forall x, x ∈ U <-> P x) (HN : NoDup U).
Lemma perm_count (f : A -> A) (Q : A -> Prop) `{!forall x, Decision (Q x)} : permutes_on P f ->
  length (filter (fun x => Q (f x)) U) = length (filter Q U).
Proof.
  intros (H1 & H2 & _). rewrite <- (filter_fmap_len f Q). apply Permutation_length.
  assert (HP : f <$> U ≡ₚ U) by
    (apply submseteq_Permutation_length_eq; [by rewrite fmap_length|];
     apply NoDup_submseteq;
       [apply NoDup_fmap_2_strong; [|done]; intros x x' Hx%HU Hx'%HU; by apply H2
       |intros z (x & -> & Hx%HU)%elem_of_list_fmap; by apply HU, H1]).
  by rewrite HP.
Qed.
End perm.

(** ** Words and states that begin with given bytes *)
Lemma le_bytes_take j n x : (j <= n)%nat -> take j (le_bytes n x) = le_bytes j x.
Proof.
  revert n x. induction j as [|j IH]; intros n x Hn; [done|]. destruct n as [|n]; [lia|].
  rewrite !le_bytes_S. cbn [take]. f_equal. apply IH. lia.
Qed.
Lemma le_bytes_mod n x : le_bytes n x = le_bytes n (x mod 256 ^ Z.of_nat n).
Proof.
  revert x. induction n as [|n IH]; intros x; [done|]. rewrite !le_bytes_S.
  rewrite Nat2Z.inj_succ, Z.pow_succ_r by lia.
  assert (0 < 256 ^ Z.of_nat n) by (apply Z.pow_pos_nonneg; lia).
  rewrite Z.rem_mul_r by lia. f_equal.
  - rewrite Z.mul_comm, Z.mod_add, Z.mod_mod by lia. done.
  - replace ((x mod 256 + 256 * ((x / 256) mod 256 ^ Z.of_nat n)) / 256) with ((x / 256) mod 256 ^ Z.of_nat n); [apply IH|].
    pose proof (Z.mod_pos_bound x 256). set (q := (x / 256) mod _). rewrite Z.mul_comm, Z.div_add by lia.
    rewrite (Z.div_small (x mod 256)) by lia. lia.
Qed.
Lemma le_bytes_eq key x : Forall byte key -> le_bytes (length key) x = key <-> x mod 256 ^ Z.of_nat (length key) = le_number key.
Proof.
  intros Hk. rewrite le_bytes_mod. split.
  - intros <-. rewrite le_bytes_length, <- le_bytes_mod.
    rewrite le_bytes_mod, le_number_le_bytes; [done|]. apply Z.mod_pos_bound, Z.pow_pos_nonneg; lia.
  - intros ->. by apply le_bytes_le_number.
Qed.
Lemma pow256 n : 0 <= n -> 256 ^ n = 2 ^ (8 * n).
Proof. intros Hn. change 256 with (2 ^ 8). rewrite <- Z.pow_mul_r by lia. done. Qed.
Lemma words_bytes key : Forall byte key -> (length key <= 8)%nat ->
  Z.of_nat (length (filter (fun w => take (length key) (le_bytes 8 w) = key) (seqZ 0 RowCount2.N))) = 2 ^ (64 - 8 * Z.of_nat (length key)).
Proof.
  intros Hb Hl. pose proof (le_number_bound key Hb) as Hbd. set (k := Z.of_nat (length key)) in *.
  assert (E : RowCount2.N = 256 ^ k * 2 ^ (64 - 8 * k)).
  { rewrite <- N_eq, pow256, <- Z.pow_add_r by lia. f_equal. lia. }
  rewrite (filter_ext_len _ (fun w => w mod 256 ^ k = le_number key)).
  - transitivity (cnt (fun w => w mod 256 ^ k) (le_number key) RowCount2.N); [by rewrite cnt_unfold|]. rewrite E at 1.
    rewrite (cnt_periodic (fun x => x)), cnt_id by (try apply Z.pow_nonneg; lia). lia.
  - intros w _. rewrite le_bytes_take by lia. apply le_bytes_eq. done.
Qed.
#[local] Opaque le_bytes cnt RowCount2.N.
Definition bytes_of (x : list Z) : list Z := x ≫= le_bytes 8.
Lemma sum_const {A} (c : Z) (l : list A) : sum_over (fun _ => c) l = c * Z.of_nat (length l).
Proof. rewrite (sum_ext _ (fun _ => 0 * 0 + c)) by lia. rewrite (sum_lin (fun _ => 0)). lia. Qed.
Lemma sum_scale {A} (c : Z) (f : A -> Z) (l : list A) : sum_over (fun a => c * f a) l = c * sum_over f l.
Proof. rewrite (sum_ext _ (fun a => c * f a + 0)) by lia. rewrite sum_lin. lia. Qed.
Lemma states_bytes n : forall key, Forall byte key -> (length key <= 8 * n)%nat ->
  Z.of_nat (length (filter (fun x => take (length key) (bytes_of x) = key) (all_states n))) =
  2 ^ (64 * Z.of_nat n - 8 * Z.of_nat (length key)).
Proof.
  induction n as [|n IH]; intros key Hb Hl.
  - assert (key = []) as -> by (destruct key; [done|cbn in Hl; lia]). rewrite states_0. reflexivity.
  - rewrite len_filter, states_S, sum_bind.
    assert (HN0 : RowCount2.N = 2 ^ 64) by (symmetry; apply N_eq).
    destruct (decide (length key <= 8)%nat) as [Hs|Hs].
    + rewrite (sum_ext _ (fun _ => 2 ^ (64 - 8 * Z.of_nat (length key)))).
      * rewrite sum_const, states_length, HN0, <- Z.pow_mul_r, <- Z.pow_add_r by lia. f_equal. lia.
      * intros s _. rewrite sum_fmap, <- (words_bytes key Hb Hs), len_filter. apply sum_ext. intros w _.
        unfold bytes_of. cbn [mbind list_bind]. rewrite take_app_le by (rewrite le_bytes_length; lia). done.
    + rewrite (sum_ext _ (fun s => 1 * (if decide (take (length (drop 8 key)) (bytes_of s) = drop 8 key) then 1 else 0))).
      * rewrite sum_scale, <- (len_filter (fun s => take (length (drop 8 key)) (bytes_of s) = drop 8 key)).
        rewrite IH; [|by apply Forall_drop|rewrite drop_length; lia]. rewrite drop_length. rewrite Z.mul_1_l. f_equal. lia.
      * intros s _. rewrite sum_fmap.
        rewrite (sum_ext _ (fun w => (if decide (take (length (drop 8 key)) (bytes_of s) = drop 8 key) then 1 else 0) *
          (if decide (take (length (take 8 key)) (le_bytes 8 w) = take 8 key) then 1 else 0))).
        -- rewrite sum_scale, <- (len_filter (fun w => take (length (take 8 key)) (le_bytes 8 w) = take 8 key)).
           rewrite words_bytes; [|by apply Forall_take|rewrite take_length; lia].
           rewrite take_length. replace (8 `min` length key)%nat with 8%nat by lia.
           change (2 ^ (64 - 8 * Z.of_nat 8)) with 1. lia.
        -- intros w _. unfold bytes_of. cbn [mbind list_bind].
           assert (HE : take (length key) (le_bytes 8 w ++ (s ≫= le_bytes 8)) = key <->
             take (length (drop 8 key)) (s ≫= le_bytes 8) = drop 8 key /\ take (length (take 8 key)) (le_bytes 8 w) = take 8 key).
           { rewrite drop_length, take_length. replace (8 `min` length key)%nat with 8%nat by lia.
             assert (L8 : length (le_bytes 8 w) = 8%nat) by apply le_bytes_length.
             rewrite take_app_ge by lia. rewrite L8. rewrite (take_ge (le_bytes 8 w) 8) by lia. split.
             - intros Hk. rewrite <- Hk at 2. rewrite <- Hk at 3.
               rewrite drop_app_alt by done. rewrite take_app_alt by done. done.
             - intros [H1 H2]. rewrite H1, H2. apply take_drop. }
           set (X := take (length key) _ = key) in *. set (Y := take (length (drop 8 key)) _ = _) in *.
           set (W := take (length (take 8 key)) _ = _) in *. clearbody X Y W || idtac.
           destruct (decide X), (decide Y), (decide W); tauto || lia.
Qed.
Lemma drop_count n (Q : list Z -> Prop) `{!forall x, Decision (Q x)} :
  Z.of_nat (length (filter (fun x => Q (drop n x)) (all_states (n + 16)))) =
  2 ^ (64 * Z.of_nat n) * Z.of_nat (length (filter Q (all_states 16))).
Proof.
  assert (HN0 : RowCount2.N = 2 ^ 64) by (symmetry; apply N_eq).
  induction n as [|n IH]; [change (2 ^ (64 * Z.of_nat 0)) with 1; rewrite Z.mul_1_l; do 2 f_equal; by apply list_filter_iff|].
  change (S n + 16)%nat with (S (n + 16)). rewrite len_filter, states_S, sum_bind.
  rewrite (sum_ext _ (fun s => RowCount2.N * (if decide (Q (drop n s)) then 1 else 0))).
  - rewrite sum_scale, <- (len_filter (fun s => Q (drop n s))), IH, HN0, Z.mul_assoc, <- Z.pow_add_r by lia. do 2 f_equal. lia.
  - intros s _. rewrite sum_fmap. cbn [drop]. rewrite sum_const, seqZ_length. rewrite Z2Nat.id by (pose proof N_pos; lia). lia.
Qed.

(** ** The extraction *)
Lemma bytes_first k x : (k <= 96)%nat -> take k (bytes_of (take 12 x)) = take k (bytes_of x).
Proof.
  intros Hk. unfold bytes_of. revert k Hk. change 96%nat with (8 * 12)%nat. generalize 12%nat as n. intros n.
  revert x. induction n as [|n IH]; intros x k Hk; [by assert (k = 0)%nat as -> by lia|].
  destruct x as [|w x]; [done|]. cbn [take mbind list_bind].
  destruct (decide (k <= 8)%nat); [by rewrite !take_app_le by (rewrite le_bytes_length; lia)|].
  rewrite !take_app_ge by (rewrite le_bytes_length; lia). f_equal. apply IH. rewrite le_bytes_length. lia.
Qed.
Lemma squeezed_bytes k st : length st = 16%nat -> 0 <= k <= 96 -> squeezed k st = take (Z.to_nat k) (bytes_of st).
Proof.
  intros Hst Hk. unfold squeezed. assert (0 <= k / 96) by (apply Z.div_pos; lia).
  rewrite (seqZ_cons 0) by lia. cbn [mbind list_bind]. change (Z.to_nat 0) with 0%nat. cbn [Nat.iter nat_rect].
  pose proof (rate_bytes_length st Hst) as Hl. rewrite take_app_le by lia. unfold rate_bytes, rate.
  apply bytes_first. lia.
Qed.
Definition ST : list (list Z) := all_states 16.
Lemma ST_elem s : s ∈ ST <-> state16 s.
Proof. unfold ST, state16. apply states_elem. Qed.
Lemma ST_nodup : NoDup ST.
Proof. unfold ST. apply states_nodup. Qed.
Lemma ST_eq : all_states 16 = ST.
Proof. unfold ST. reflexivity. Qed.
#[local] Opaque ST.
Lemma state_onto (f : list Z -> list Z) : (forall st, state16 st -> state16 (f st)) ->
  (forall st st', state16 st -> state16 st' -> f st = f st' -> st = st') -> permutes_on state16 f.
Proof.
  intros H1 HI. split; [exact H1|]. split; [exact HI|].
  intros y Hy. apply (finite_onto state16 ST ST_elem ST_nodup f H1 HI y Hy).
Qed.
#[local] Opaque round12 absorb blake2b_round.
Section extraction.
Context (p : platform) (Hp : known_platform p) (R C : Z) (HR : 3 <= R) (HC : 1 <= C)
  (Hmax : 96 * R * C <= isize_max p).
Definition block_of (m : list Z) (rowa : Z) : list Z := take 12 (drop (Z.to_nat (12 * C * rowa)) m).
Definition last_state (m : list Z) (rowa : Z) (st : list Z) : list Z := round12 (absorb st (block_of m rowa)).
Lemma wrap_up_Ok m st rowa k : contents R C (m, st) -> 0 <= rowa < R -> 0 <= k <= 96 ->
  wrap_up p k (12 * C) m st rowa = Ok (take (Z.to_nat k) (bytes_of (last_state m rowa st))) /\
  state16 (last_state m rowa st).
Proof.
  intros (Hm & HFm & Hst & HFst) Hr Hk. cbn [fst snd] in *.
  pose proof (isize_usize p Hp) as Hi.
  assert (Hrl : 0 <= rowa * (12 * C)) by nia. assert (Hru : rowa * (12 * C) + 12 <= 12 * R * C) by nia.
  assert (Hs : state16 st) by done.
  unfold wrap_up, imul. rewrite chk_i64_Ok by lia. cbn [obind].
  unfold as_usize. rewrite Z.mod_small by lia. rewrite split_right_Ok by (unfold vlen; lia). cbn [obind].
  destruct (absorb_block_Ok st (drop (Z.to_nat (rowa * (12 * C))) m) Hs) as [-> H16].
  - rewrite drop_length. lia.
  - by apply Forall_take, Forall_drop.
  - cbn [obind]. unfold last_state, block_of. replace (12 * C * rowa) with (rowa * (12 * C)) by lia. split; [|done].
    rewrite squeeze_Ok by done. by rewrite squeezed_bytes by (apply H16 || done).
Qed.
Lemma last_state16 m rowa st : Z.of_nat (length m) = 12 * R * C -> Forall (word 64) m -> 0 <= rowa < R ->
  state16 st -> state16 (last_state m rowa st).
Proof.
  intros Hm HFm Hr [Hl Hs].
  assert (Hc : contents R C (m, st)) by (unfold contents; cbn [fst snd]; tauto).
  assert (H0 : 0 <= 0 <= 96) by lia.
  exact (proj2 (wrap_up_Ok m st rowa 0 Hc Hr H0)).
Qed.
Lemma last_inj m rowa st st' : Z.of_nat (length m) = 12 * R * C -> Forall (word 64) m -> 0 <= rowa < R ->
  state16 st -> state16 st' -> last_state m rowa st = last_state m rowa st' -> st = st'.
Proof.
  intros Hm HFm Hr Hs Hs' E.
  assert (Hru : rowa * (12 * C) + 12 <= 12 * R * C) by nia.
  unfold last_state, block_of in E. revert E. set (w := drop _ m).
  assert (L : (12 <= length w)%nat) by (unfold w; rewrite drop_length; nia).
  assert (F : Forall (word 64) w) by by apply Forall_drop.
  clearbody w. intros E.
  assert (F12 : Forall (word 64) (take 12 w)) by by apply Forall_take.
  pose proof (proj1 (absorb_block_Ok st w Hs L F12)) as E1.
  pose proof (proj1 (absorb_block_Ok st' w Hs' L F12)) as E2.
  rewrite <- E in E2. revert E1 E2. generalize (round12 (absorb st (take 12 w))). intros s E1 E2.
  apply (proj2 (absorb_block_inj st st' w w s Hs Hs' L L F F E1 E2)). reflexivity.
Qed.
Lemma last_permutes m rowa : Z.of_nat (length m) = 12 * R * C -> Forall (word 64) m -> 0 <= rowa < R ->
  permutes_on state16 (last_state m rowa).
Proof.
  intros Hm HFm Hr. apply state_onto.
  - intros st. by apply last_state16.
  - intros st st'. by apply last_inj.
Qed.
#[local] Opaque last_state.
Lemma wrap_up_count m rowa key : Z.of_nat (length m) = 12 * R * C -> Forall (word 64) m -> 0 <= rowa < R ->
  (length key <= 96)%nat -> Forall byte key ->
  Z.of_nat (length (filter (fun st => take (length key) (bytes_of (last_state m rowa st)) = key) (all_states 16))) =
  2 ^ (1024 - 8 * Z.of_nat (length key)).
Proof.
  intros Hm HFm Hr Hl Hb.
  rewrite ST_eq.
  transitivity (Z.of_nat (length (filter (fun x => take (length key) (bytes_of x) = key) ST))).
  - f_equal. pose proof (perm_count state16 ST ST_elem ST_nodup (last_state m rowa)
      (fun x => take (length key) (bytes_of x) = key) (last_permutes m rowa Hm HFm Hr)) as E.
    etransitivity; [|exact E]. by apply filter_ext_len.
  - rewrite <- ST_eq, states_bytes by (done || lia). f_equal.
Qed.
Definition finish (rowa : Z) (s : list Z * list Z) : list Z * list Z := (s.1, last_state s.1 rowa s.2).
Lemma finish_permutes rowa : 0 <= rowa < R -> permutes_on (contents R C) (finish rowa).
Proof.
  intros Hr. split; [|split].
  - intros [m st] (Hm & HFm & Hs). cbn [fst snd] in *. split; [done|]. split; [done|].
    destruct (last_permutes m rowa Hm HFm Hr) as [H _]. exact (H st Hs).
  - intros [m st] [m' st'] (Hm & HFm & Hs) (_ & _ & Hs') E. cbn [fst snd] in *. apply pair_equal_spec in E as [E0 E]. cbn [fst snd] in E0, E. subst m'. f_equal.
    destruct (last_permutes m rowa Hm HFm Hr) as (_ & H & _). by apply H.
  - intros [m st] (Hm & HFm & Hs). cbn [fst snd] in *.
    destruct (last_permutes m rowa Hm HFm Hr) as (_ & _ & H). destruct (H st Hs) as (st' & Hs' & E).
    exists (m, st'). split; [done|]. unfold finish. cbn [fst snd]. by rewrite E.
Qed.
Lemma keys_count F rowa key : permutes_on (contents R C) F -> 0 <= rowa < R ->
  (length key <= 96)%nat -> Forall byte key ->
  contents_giving R C (fun s => take (length key) (bytes_of (last_state (F s).1 rowa (F s).2))) key =
  2 ^ (768 * R * C + 1024 - 8 * Z.of_nat (length key)).
Proof.
  intros HF Hr Hl Hb. unfold contents_giving. set (n := Z.to_nat (12 * R * C)).
  assert (Hn : Z.of_nat n = 12 * R * C) by nia.
  change (SpecExtraction.all_contents R C) with (PermFacts.all_contents n).
  pose proof (fun s => all_contents_elem R C n s Hn) as HU. pose proof (all_contents_nodup n) as HN.
  pose (Q := fun s : list Z * list Z => take (length key) (bytes_of s.2) = key).
  transitivity (Z.of_nat (length (filter Q (PermFacts.all_contents n)))).
  - f_equal.
    pose proof (perm_count (contents R C) _ HU HN F (fun s => Q (finish rowa s)) HF) as E1. cbv beta in E1.
    pose proof (perm_count (contents R C) _ HU HN (finish rowa) Q (finish_permutes rowa Hr)) as E2.
    rewrite <- E2, <- E1. by apply filter_ext_len.
  - unfold PermFacts.all_contents. rewrite (filter_fmap_len _ Q). unfold Q. cbn [snd].
    transitivity (2 ^ (64 * Z.of_nat n) * Z.of_nat (length (filter (fun s => take (length key) (bytes_of s) = key) (all_states 16)))).
    { exact (drop_count n (fun s => take (length key) (bytes_of s) = key)). }
    rewrite states_bytes by (done || lia).
    rewrite <- Z.pow_add_r by lia. f_equal. lia.
Qed.
End extraction.

(** ** The call *)
Definition last_rowa (d : Z) (ops : list (Z * Z * Z)) : Z := default d (snd <$> last ops).
Lemma redo3_rowa p C evs : forall m st rowa m' st' rowa', Forall is_wander evs ->
  foldM (redo3 p (12 * C) C) evs (m, st, rowa) = Ok (m', st', rowa') ->
  rowa' = last_rowa rowa (op_of <$> wander_ops evs).
Proof.
  induction evs as [|e evs IH]; intros m st rowa m' st' rowa' HF.
  - intros [= _ _ <-]. reflexivity.
  - apply Forall_cons in HF as [He HF]. destruct e as [|? ? ?|tau row prev ra]; [done..|].
    cbn [foldM redo3 fst snd]. intros ([[m1 st1] ra1] & E1 & E)%obind_Ok_inv.
    apply obind_Ok_inv in E1 as ([m2 st2] & _ & E1). injection E1 as -> -> ->.
    apply IH in E; [|done]. subst rowa'.
    change (wander_ops (EvWander tau row prev ra1 :: evs)) with ((tau, row, prev, ra1) :: wander_ops evs).
    cbn [fmap list_fmap op_of]. unfold last_rowa. destruct (op_of <$> wander_ops evs) as [|x l]; [done|].
    rewrite last_cons_cons. destruct (last_is_Some (x :: l)) as [_ H]. destruct H as [y Hy]; [done|].
    by rewrite Hy.
Qed.
Lemma last_rowa_range R ops : 3 <= R -> Forall (op_in_range R) ops -> 0 <= last_rowa (setup_rowa R) ops < R.
Proof.
  intros HR Hops. unfold last_rowa. destruct (last ops) as [[[row prev] ra]|] eqn:E; cbn.
  - apply last_Some_elem_of in E. rewrite Forall_forall in Hops. apply Hops in E. apply E.
  - unfold setup_rowa. pose proof (Z.log2_spec R ltac:(lia)) as [H _]. pose proof (Z.log2_nonneg R).
    pose proof (Z.mod_pos_bound ((R - 2 ^ Z.log2 R) * stride (Z.log2 R)) (2 ^ Z.log2 R) ltac:(apply Z.pow_pos_nonneg; lia)). lia.
Qed.
Lemma keys_equally p R C k : known_platform p -> 3 <= R -> 1 <= C -> 96 * R * C <= isize_max p -> 0 <= k <= 96 ->
  exists G : list (Z * Z * Z) -> list Z * list Z -> list Z,
    (forall ops key, Forall (op_in_range R) ops -> Z.of_nat (length key) = k -> Forall byte key ->
       contents_giving R C (G ops) key = 2 ^ (768 * R * C + 1024 - 8 * k)) /\
    (forall sel pwd salt t rl m st v rl' m' st' rowa log,
       rust_args (isize_max p) k pwd salt t R C -> accepted (isize_max p) 0 pwd salt t R C ->
       until_setup p k pwd salt t R C = Ok (rl, m, st, v) ->
       until_wandering p sel k pwd salt t R C = Ok (rl', m', st', rowa, log) ->
       contents R C (m, st) /\ Forall (op_in_range R) (op_of <$> wander_ops log) /\
       MLyra2.lyra2_with p sel k pwd salt t R C = Ok (G (op_of <$> wander_ops log) (m, st))).
Proof.
  intros Hp HR HC Hmax Hk. destruct (wandering_permutes p R C Hp HR HC Hmax) as (F & HF & HW).
  exists (fun ops s => take (Z.to_nat k) (bytes_of (last_state C (F ops s).1 (last_rowa (setup_rowa R) ops) (F ops s).2))).
  split.
  - intros ops key Hops Hl Hb. subst k. rewrite Nat2Z.id.
    apply (keys_count p Hp R C HR HC Hmax (F ops) (last_rowa (setup_rowa R) ops) key (HF ops Hops)); [|lia|done].
    by apply last_rowa_range.
  - intros sel pwd salt t rl m st v rl' m' st' rowa log Ha Hacc Es Ew.
    destruct (HW sel k pwd salt t rl m st v rl' m' st' rowa log Ha Hacc Es Ew) as (Hc & Hr & HE).
    split; [exact Hc|]. split; [exact Hr|]. rewrite <- HE. cbn [fst snd].
    destruct Ha as (Hk' & Ht & _ & _ & [Hbp _] & [Hbs _]).
    destruct (until_setup_Ok p k pwd salt t R C Hp Hbp Hbs Ht Hk' Hacc) as (m0 & st0 & M0 & Hw & Es0 & HRel).
    rewrite Es in Es0. injection Es0 as -> -> -> ->.
    rewrite phases, Ew. cbn [obind].
    assert (Hrow : rl' = 12 * C /\ rowa = last_rowa (setup_rowa R) (op_of <$> wander_ops log)).
    { unfold until_wandering in Ew. rewrite Es in Ew. cbn [obind] in Ew.
      change (MLyra2.r_prev (rows_at R)) with (R - 1) in Ew. change (MLyra2.r_rowa (rows_at R)) with (setup_rowa R) in Ew.
      apply obind_Ok_inv in Ew as ([[[[[[m1 st1] i1] row1] prev1] rowa1] log1] & E1 & Ew). injection Ew as <- <- <- <- <-.
      split; [done|]. apply wander_redo3 in E1; [|done]. destruct E1 as (evs & Hevs & HFe & E1). cbn [app] in Hevs. subst evs.
      by apply redo3_rowa in E1. }
    destruct Hrow as [-> Hrow]. rewrite <- Hrow.
    assert (Hc' : contents R C (m', st')).
    { destruct (HF _ Hr) as [HF1 _]. rewrite HE. by apply HF1. }
    apply (wrap_up_Ok p Hp R C HR HC Hmax m' st' rowa k Hc'); [|done].
    rewrite Hrow. by apply last_rowa_range.
Qed.
Lemma extraction_count p R C m rowa key : known_platform p -> 3 <= R -> 1 <= C -> 96 * R * C <= isize_max p ->
  Z.of_nat (length m) = 12 * R * C -> Forall (word 64) m -> 0 <= rowa < R ->
  (length key <= 96)%nat -> Forall byte key ->
  exists G : list Z -> list Z,
    (forall st, state16 st -> wrap_up p (Z.of_nat (length key)) (12 * C) m st rowa = Ok (G st)) /\
    states_giving G key = 2 ^ (1024 - 8 * Z.of_nat (length key)).
Proof.
  intros Hp HR HC Hmax Hm HFm Hr Hl Hb.
  exists (fun st => take (length key) (bytes_of (last_state C m rowa st))). split.
  - intros st [Hs1 Hs2]. rewrite <- (Nat2Z.id (length key)) at 2.
    apply (wrap_up_Ok p Hp R C HR HC Hmax m st rowa); [unfold contents; cbn [fst snd]; tauto|done|lia].
  - unfold states_giving. by apply (wrap_up_count p Hp R C).
Qed.
