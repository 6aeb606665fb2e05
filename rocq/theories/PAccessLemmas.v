(** * Lemmas behind the theorems of PAccess.v *)
From Verif Require Import Machine MachineFacts MUtils WordFacts Schedule Refine Refine2 RefineInput RefineTop Domain LyraFacts Padding Coverage.
From Verif Require Import SpecWord SpecBlake2b SpecLyra2 SpecCalls SpecSchedule.
From Verif Require MLyra2 PScheduleLemmas PLyra2Lemmas.
From Verif Require Import MAccess SpecAccess AccessFacts.
From stdpp Require Import list_numbers.
#[local] Open Scope Z_scope.
#[local] Opaque blake2b_round.

(** ** Everything before [squeeze], with its log *)
Section before.
Context (p : platform) (Hp : known_platform p).
Context (sel : MLyra2.selector) (k : Z) (pwd salt : list Z) (t R C : Z).
Definition before_acc : acc (list Z) :=
  if t <? 1 then Panic else
  if R <? 3 then Panic else
  row_len <~~ quiet (imul p MLyra2.BLOCKLENINT64 (as_i64 C)) ;;
  total <~~ quiet (imul p (as_i64 R) row_len) ;;
  m <~~ quiet (vec_zeroed p 8 (as_usize p total)) ;;
  nblocks <~~ quiet (MLyra2.n_blocks_input p pwd salt) ;;
  m <~~ write_input_acc p k pwd salt t R C nblocks m ;;
  state <~~ absorb_input_acc p nblocks m MLyra2.init_state ;;
  '(m, state, v) <~~ setup_acc p row_len R C m state ;;
  '(m, state, _, _, _, rowa) <~~
    wander_acc p sel row_len t R C m state (MLyra2.r_prev v) (MLyra2.r_rowa v) ;;
  a <~~ quiet (imul p rowa row_len) ;;
  right <~~ quiet (split_right m (as_usize p a)) ;;
  absorb_block_acc (as_usize p a) state right.
Lemma abind_assoc {A B D} (x : acc A) (f : A -> acc B) (h : B -> acc D) :
  abind (abind x f) h = abind x (fun a => abind (f a) h).
Proof.
  unfold abind. destruct x as [[a l]| |]; cbn [obind]; [|done|done].
  destruct (f a) as [[b l']| |]; cbn [obind]; [|done|done].
  destruct (h b) as [[d l'']| |]; cbn [obind]; [|done|done]. by rewrite app_assoc.
Qed.
Lemma abind_cong {A B} (x : acc A) (f h : A -> acc B) : (forall a, f a = h a) -> abind x f = abind x h.
Proof. intros H. unfold abind. apply obind_ext. intros [a l] _. by rewrite H. Qed.
Lemma lyra2_with_acc_before :
  lyra2_with_acc p sel k pwd salt t R C = abind before_acc (fun st => squeeze_acc p st k).
Proof.
  unfold lyra2_with_acc, before_acc. destruct (t <? 1); [done|]. destruct (R <? 3); [done|].
  do 6 (rewrite abind_assoc; apply abind_cong; intros ?).
  rewrite abind_assoc. apply abind_cong. intros [[m2 s2] v].
  rewrite abind_assoc. apply abind_cong. intros [[[[[m3 s3] ?] ?] ?] rowa].
  do 2 (rewrite abind_assoc; apply abind_cong; intros ?). done.
Qed.
Lemma before_acc_erase : erase before_acc = before_squeeze p sel k pwd salt t R C.
Proof.
  unfold before_acc, before_squeeze. destruct (t <? 1); [done|]. destruct (R <? 3); [done|].
  do 4 (rewrite erase_bind, erase_quiet; apply obind_ext; intros ? _).
  rewrite erase_bind, write_input_erase; apply obind_ext; intros m1 _.
  rewrite erase_bind, absorb_input_acc_erase; apply obind_ext; intros s1 _.
  rewrite erase_bind, setup_acc_erase; apply obind_ext; intros [[m2 s2] v] _.
  rewrite erase_bind, wander_acc_erase; apply obind_ext; intros [[[[[m3 s3] ?] ?] ?] rowa] _.
  do 2 (rewrite erase_bind, erase_quiet; apply obind_ext; intros ? _). apply absorb_block_erase.
Qed.
Definition before_accesses (rowas : list Z) : list access :=
  input_accesses (vlen pwd) (vlen salt) ++ setup_accesses R C ++ wander_accesses R C t rowas ++
  each Rd (cell_addrs C (List.last rowas 0) 0) ++ rounds 12.
Context (HR : 3 <= R) (HC : 1 <= C) (Ht : 1 <= t < 2 ^ 64) (Hmax : 96 * R * C <= isize_max p).
Context (Hsz : 64 * n_blocks pwd salt <= 96 * R * C).
Context (Ha : rust_args (isize_max p) k pwd salt t R C).
Lemma before_log st log : before_acc = Ok (st, log) -> exists rowas,
  length rowas = length (wander_schedule R t) /\
  Forall (fun a => 0 <= a < R /\ Z.land a (R - 1) = a) rowas /\ log = before_accesses rowas.
Proof.
  destruct Ha as (Hkw & Htw & HRw & HCw & [Hbp Hlp] & [Hbs Hls]).
  pose proof (isize_usize p Hp) as Hi. pose proof (n_blocks_bounds pwd salt) as Hnb.
  pose proof (L_bound p Hp R C HR HC Hmax) as HL.
  unfold before_acc. rewrite (proj2 (Z.ltb_ge t 1)), (proj2 (Z.ltb_ge R 3)) by lia. intros E0.
  apply abind_inv in E0 as (rl & ? & ? & [Erl ->]%quiet_inv & E0 & ->).
  unfold imul, as_i64, MLyra2.BLOCKLENINT64 in Erl. rewrite wrap_i64_id, chk_i64_Ok in Erl by lia. injection Erl as <-.
  apply abind_inv in E0 as (tot & ? & ? & [Et ->]%quiet_inv & E0 & ->).
  unfold imul, as_i64 in Et. rewrite wrap_i64_id in Et by lia.
  replace (R * (12 * C)) with (12 * R * C) in Et by lia. rewrite chk_i64_Ok in Et by lia. injection Et as <-.
  apply abind_inv in E0 as (m0 & ? & ? & [Em ->]%quiet_inv & E0 & ->).
  unfold as_usize in Em. rewrite Z.mod_small in Em by lia.
  unfold vec_zeroed in Em. rewrite (proj2 (Z.leb_le _ _)) in Em by lia. injection Em as <-.
  apply abind_inv in E0 as (nb & ? & ? & [En ->]%quiet_inv & E0 & ->).
  rewrite (n_blocks_input_Ok p Hp) in En by lia. injection En as <-.
  apply abind_inv in E0 as (m1 & l1 & ? & E1 & E0 & ->).
  assert (Em1 : m1 = input_matrix (12 * R * C) k pwd salt t R C).
  { pose proof (erase_Ok _ _ _ E1) as E1'. rewrite write_input_erase, (write_input_Ok p Hp) in E1' by (done || lia).
    by injection E1'. }
  apply (write_input_log p Hp) in E1 as ->; [|lia].
  assert (Hml : vlen m1 = 12 * R * C) by (rewrite Em1; apply input_matrix_length; lia).
  apply abind_inv in E0 as (st1 & l2 & ? & E2 & E0 & ->).
  apply (logs_absorb_input p Hp) in E2 as ->; [|lia..].
  apply abind_inv in E0 as ([[m2 st2] v] & l3 & ? & E3 & E0 & ->).
  apply (setup_acc_log p Hp R C HR HC Hmax) in E3 as [-> ->].
  apply abind_inv in E0 as ([[[[[m3 st3] i3] row3] prev3] rowa3] & l4 & ? & E4 & E0 & ->).
  apply (wander_acc_log p Hp R C HR HC Hmax) in E4 as (rowas & -> & [Hlen HF] & ->); [|lia].
  apply abind_inv in E0 as (a & ? & ? & [Ea ->]%quiet_inv & E0 & ->).
  assert (Hne : rowas <> []).
  { intros ->. cbn in Hlen. unfold wander_schedule, wander_rows in Hlen. rewrite with_prev_length in Hlen.
    rewrite seqZ_cons in Hlen by lia. rewrite bind_cons, app_length, fmap_length in Hlen.
    destruct (pass_first R HR 1) as [l Hl]. rewrite Hl in Hlen. cbn in Hlen. lia. }
  assert (Hlast : List.last rowas (setup_rowa R) = List.last rowas 0).
  { destruct rowas as [|x l]; [done|]. apply TraceFacts.last_default. }
  rewrite Hlast in *. set (ra := List.last rowas 0) in *.
  assert (Hra : 0 <= ra < R).
  { rewrite Forall_forall in HF. apply HF. apply elem_of_list_In.
    destruct (exists_last Hne) as (l' & y & El). unfold ra. rewrite El, last_last. apply in_or_app. right. by left. }
  unfold imul in Ea. assert (0 <= ra * C < R * C) by (split; [apply Z.mul_nonneg_nonneg; lia|apply Z.mul_lt_mono_pos_r; lia]).
  rewrite chk_i64_Ok in Ea by lia. injection Ea as <-.
  unfold as_usize in E0. rewrite Z.mod_small in E0 by lia.
  apply abind_inv in E0 as (r & ? & ? & [Er ->]%quiet_inv & E0 & ->).
  apply logs_absorb_block in E0 as ->.
  exists rowas. split; [done|]. split; [done|]. cbn [app].
  unfold before_accesses, input_accesses. fold ra.
  replace ((vlen salt + vlen pwd + 48) / 64 + 1) with (n_blocks pwd salt).
  2:{ unfold n_blocks. f_equal. f_equal. unfold vlen. lia. }
  replace (each Rd (cell_addrs C ra 0)) with (each Rd (seqZ (ra * (12 * C)) 12)).
  2:{ unfold each, cell_addrs. f_equal. replace (ra * (12 * C)) with (12 * (ra * C + 0)) by lia.
      unfold seqZ. change (Z.to_nat 12) with 12%nat. cbn [seq fmap list_fmap].
      do 12 (apply (f_equal2 cons); [lia|]). done. }
  replace (vlen pwd / 8 + vlen salt / 8 + 6 + 1) with (vlen pwd / 8 + vlen salt / 8 + 7) by lia.
  by rewrite <- !app_assoc.
Qed.
End before.

(** ** The log of a call *)
Section top.
Context (p : platform) (Hp : known_platform p).
Context (sel : MLyra2.selector) (k : Z) (pwd salt : list Z) (t R C : Z) (out : list Z) (log : list access).
Context (Ha : rust_args (isize_max p) k pwd salt t R C) (HR63 : R < 2 ^ 63).
Context (Hk : usize_bits p = 64 \/ k < 2 ^ 63).
Context (E : lyra2_with_acc p sel k pwd salt t R C = Ok (out, log)).

Lemma acc_accepted : accepted (isize_max p) k pwd salt t R C.
Proof.
  destruct (decide (accepted (isize_max p) k pwd salt t R C)) as [H|H]; [exact H|exfalso].
  pose proof (panics p Hp sel k pwd salt t R C Ha (or_introl HR63) Hk H) as E'.
  rewrite <- lyra2_with_acc_erase, E in E'. discriminate E'.
Qed.
Lemma acc_sizes : 3 <= R /\ 1 <= C /\ 1 <= t < 2 ^ 64 /\ 96 * R * C <= isize_max p /\ 0 <= k <= 96 /\
  64 * n_blocks pwd salt <= 96 * R * C.
Proof.
  pose proof acc_accepted as (H1 & H2 & H3 & H4 & H5). destruct Ha as ([? ?] & [? ?] & [? ?] & [? ?] & _).
  pose proof (n_blocks_bounds pwd salt) as Hnb. assert (1 <= C) by nia. lia.
Qed.
Lemma acc_log : exists rowas,
  length rowas = length (wander_schedule R t) /\
  Forall (fun a => 0 <= a < R /\ Z.land a (R - 1) = a) rowas /\
  log = input_accesses (vlen pwd) (vlen salt) ++ setup_accesses R C ++ wander_accesses R C t rowas ++
        final_accesses C (List.last rowas 0) k.
Proof.
  pose proof acc_sizes as (HR & HC & Ht & Hmax & Hk96 & Hsz).
  pose proof E as E0. rewrite lyra2_with_acc_before in E0. apply abind_inv in E0 as (st & l1 & l2 & E1 & E2 & El).
  apply (before_log p Hp) in E1 as (rowas & Hl & HF & Hlog); [|done..].
  apply (logs_squeeze p) in E2; [|done].
  exists rowas. split; [done|]. split; [done|]. rewrite El, Hlog, E2. unfold before_accesses, final_accesses.
  by rewrite <- !app_assoc.
Qed.
End top.

(** ** Counting *)
Definition count {B} (f : access -> option B) (l : list access) : Z := Z.of_nat (length (omap f l)).
Definition is_perm (a : access) : option unit := match a with Perm => Some tt | _ => None end.
Definition is_rd (a : access) : option Z := match a with Rd x => Some x | _ => None end.
Definition is_wr (a : access) : option Z := match a with Wr x => Some x | _ => None end.
Lemma count_app {B} (f : access -> option B) l1 l2 : count f (l1 ++ l2) = count f l1 + count f l2.
Proof. unfold count. rewrite omap_app, app_length. lia. Qed.
Lemma count_bind {A B} (f : access -> option B) (g : A -> list access) l n :
  (forall x, x ∈ l -> count f (g x) = n) -> count f (l ≫= g) = Z.of_nat (length l) * n.
Proof.
  induction l as [|x l IH]; intros H; [done|]. rewrite bind_cons, count_app, H by by left.
  rewrite IH by (intros; apply H; by right). cbn [length]. rewrite Nat2Z.inj_succ. lia.
Qed.
Lemma count_seqZ {B} (f : access -> option B) (g : Z -> list access) lo c n : 0 <= c ->
  (forall x, count f (g x) = n) -> count f (seqZ lo c ≫= g) = c * n.
Proof. intros Hc H. rewrite (count_bind f g _ n) by auto. rewrite seqZ_length, Z2Nat.id by lia. done. Qed.
Lemma count_fmap {B} (f : access -> option B) (h : Z -> access) l b :
  (forall x, match f (h x) with Some _ => 1 | None => 0 end = b) -> count f (each h l) = Z.of_nat (length l) * b.
Proof.
  intros H. unfold each. induction l as [|x l IH]; [done|]. unfold count in *. specialize (H x).
  cbn [fmap list_fmap length]. cbn. rewrite Nat2Z.inj_succ, Z.mul_succ_l, <- IH. destruct (f (h x)); cbn [length]; subst b; lia.
Qed.
Lemma count_each2 {B} (f : access -> option B) h h' C r c r' c' b :
  (forall x y, count f [h x; h' y] = b) -> count f (each2 h h' (cell_addrs C r c) (cell_addrs C r' c')) = 12 * b.
Proof. intros H. rewrite each2_cells. by rewrite (count_bind _ _ _ b) by auto. Qed.
Lemma count_each {B} (f : access -> option B) h C r c b :
  (forall x, match f (h x) with Some _ => 1 | None => 0 end = b) -> count f (each h (cell_addrs C r c)) = 12 * b.
Proof. intros H. by rewrite (count_fmap _ _ _ b). Qed.
Lemma count_rounds {B} (f : access -> option B) n b :
  match f Perm with Some _ => 1 | None => 0 end = b -> count f (rounds n) = Z.of_nat n * b.
Proof.
  intros H. unfold count, rounds. induction n as [|n IH]; [done|]. cbn [replicate]. cbn. rewrite Nat2Z.inj_succ, Z.mul_succ_l, <- IH. destruct (f Perm); cbn [length]; subst b; lia.
Qed.
Lemma count_zip {B} (f : access -> option B) (g : Z * Z * Z * Z -> list access) (s : list (Z * Z * Z)) r n : length r = length s ->
  (forall x, count f (g x) = n) -> count f (zip s r ≫= g) = Z.of_nat (length s) * n.
Proof.
  intros Hl H. rewrite (count_bind _ _ _ n) by auto. rewrite zip_with_length, Hl, Nat.min_id. done.
Qed.

Section counts.
Context {B : Type} (f : access -> option B) (r w q : Z).
Context (Hr : forall x, match f (Rd x) with Some _ => 1 | None => 0 end = r).
Context (Hw : forall x, match f (Wr x) with Some _ => 1 | None => 0 end = w).
Context (Hq : match f Perm with Some _ => 1 | None => 0 end = q).
Lemma count_2 a b ca cb : match f a with Some _ => 1 | None => 0 end = ca ->
  match f b with Some _ => 1 | None => 0 end = cb -> count f [a; b] = ca + cb.
Proof. unfold count. cbn. intros <- <-. destruct (f a), (f b); cbn; lia. Qed.
Lemma count_rr C i j i' j' : count f (each2 Rd Rd (cell_addrs C i j) (cell_addrs C i' j')) = 12 * (r + r).
Proof. apply count_each2. intros. by apply count_2. Qed.
Lemma count_rw C i j i' j' : count f (each2 Rd Wr (cell_addrs C i j) (cell_addrs C i' j')) = 12 * (r + w).
Proof. apply count_each2. intros. by apply count_2. Qed.
Lemma count_round1 : count f (rounds 1) = q.
Proof. rewrite (count_rounds f 1 q Hq). lia. Qed.
Lemma count_setup_row C row prev rowa : 0 <= C ->
  count f (setup_row_accesses C row prev rowa) = C * (48 * r + 24 * w + q).
Proof.
  intros HC. apply count_seqZ; [done|]. intros c. rewrite !count_app, count_rr, !count_rw, count_round1. lia.
Qed.
Lemma count_wander_row C row prev rowa : 0 <= C ->
  count f (wander_row_accesses C row prev rowa) = C * (48 * r + 24 * w + q).
Proof.
  intros HC. apply count_seqZ; [done|]. intros c. rewrite !count_app, count_rr, !count_rw, count_round1. lia.
Qed.
Lemma count_setup R C : 2 <= R -> 0 <= C ->
  count f (setup_accesses R C) = C * (24 * r + 24 * w + 2 * q) + (R - 2) * C * (48 * r + 24 * w + q).
Proof.
  intros HR HC. unfold setup_accesses. rewrite !count_app.
  rewrite (count_seqZ f _ _ _ (C * (48 * r + 24 * w + q))); [|lia|intros; by apply count_setup_row].
  unfold row0_accesses. rewrite (count_seqZ f _ _ _ (12 * w + q)); [|lia|].
  2:{ intros c. by rewrite count_app, (count_each f Wr _ _ _ w Hw), count_round1. }
  unfold row1_accesses. rewrite (count_seqZ f _ _ _ (24 * r + 12 * w + q)); [|lia|].
  2:{ intros c. rewrite !count_app, (count_each f Rd _ _ _ r Hr), count_round1, count_rw. lia. }
  lia.
Qed.
Lemma count_wander R C t rowas : 0 <= C -> length rowas = length (wander_schedule R t) ->
  count f (wander_accesses R C t rowas) = Z.of_nat (length (wander_schedule R t)) * (C * (48 * r + 24 * w + q)).
Proof.
  intros HC Hl. apply count_zip; [done|]. intros [[[? ?] ?] ?]. by apply count_wander_row.
Qed.
Lemma count_input a b : 0 <= a -> 0 <= b -> let nb := (b + a + 48) / 64 + 1 in
  count f (input_accesses a b) = (a / 8 + b / 8 + 7) * w + r + w + nb * (8 * r + 12 * q).
Proof.
  intros H1 H2 nb. assert (0 <= (b + a + 48) / 64) by (apply Z.div_pos; lia).
  assert (0 <= a / 8) by (apply Z.div_pos; lia). assert (0 <= b / 8) by (apply Z.div_pos; lia).
  unfold input_accesses. fold nb. rewrite !count_app.
  rewrite (count_fmap f Wr _ w Hw), seqZ_length, Z2Nat.id by lia. rewrite (count_2 _ _ r w) by done.
  rewrite (count_seqZ f _ _ _ (8 * r + 12 * q)); [|lia|].
  2:{ intros i. rewrite count_app, (count_fmap f Rd _ r Hr), seqZ_length, (count_rounds f 12 q Hq). lia. }
  lia.
Qed.
Lemma count_final C ra k : 0 <= k ->
  count f (final_accesses C ra k) = 12 * r + 12 * q + 12 * (k / 96 + 1) * q.
Proof.
  intros Hk. unfold final_accesses. assert (0 <= k / 96) by (apply Z.div_pos; lia).
  rewrite !count_app, (count_each f Rd _ _ _ r Hr), !(count_rounds f _ q Hq).
  rewrite Nat2Z.inj_mul, Z2Nat.id by lia. lia.
Qed.
End counts.

(** ** C34: work *)
Lemma schedule_length_pow2 e t : 2 <= e -> 0 <= t ->
  Z.of_nat (length (wander_schedule (2 ^ e) t)) = t * 2 ^ e.
Proof.
  intros He Ht. unfold wander_schedule, wander_rows. rewrite with_prev_length.
  rewrite (PScheduleLemmas.bind_const_length _ (Z.to_nat (2 ^ e))).
  - rewrite seqZ_length. assert (0 < 2 ^ e) by (apply Z.pow_pos_nonneg; lia). lia.
  - intros tau. rewrite fmap_length, pow2_pass, fmap_length, seqZ_length by done. done.
Qed.
Lemma schedule_length_bounds R t : 3 <= R -> 0 <= t ->
  t <= Z.of_nat (length (wander_schedule R t)) <= t * R.
Proof.
  intros HR Ht. unfold wander_schedule, wander_rows. rewrite with_prev_length.
  assert (H : forall l : list Z, Z.of_nat (length l) <=
    Z.of_nat (length (l ≫= fun tau => (fun row => (tau, row)) <$> pass_rows R (reduce_mask R) tau)) <= Z.of_nat (length l) * R).
  { induction l as [|tau l IH]; [cbn; lia|]. rewrite bind_cons, app_length, fmap_length. cbn [length].
    destruct (pass_first R HR tau) as [l' Hl'].
    assert (Hle : (length (pass_rows R (reduce_mask R) tau) <= Z.to_nat R)%nat).
    { rewrite <- (Nat2Z.id (Z.to_nat R)). rewrite <- (seqZ_length 0 (Z.of_nat (Z.to_nat R))).
      apply submseteq_length, NoDup_submseteq; [by apply pass_NoDup|].
      intros x Hx. pose proof (pass_submask R HR tau) as HF. rewrite Forall_forall in HF.
      apply HF, submask_range in Hx; [|lia]. rewrite elem_of_seqZ. lia. }
    rewrite Hl' in *. cbn [length] in *. lia. }
  specialize (H (seqZ 1 t)). rewrite seqZ_length in H. lia.
Qed.

Section props.
Context (p : platform) (Hp : known_platform p).
Context (sel : MLyra2.selector) (k : Z) (pwd salt : list Z) (t R C : Z) (out : list Z) (log : list access).
Context (Ha : rust_args (isize_max p) k pwd salt t R C) (HR63 : R < 2 ^ 63).
Context (Hk : usize_bits p = 64 \/ k < 2 ^ 63).
Context (E : lyra2_with_acc p sel k pwd salt t R C = Ok (out, log)).
Notation V := (Z.of_nat (length (wander_schedule R t))).
Notation nb := ((vlen salt + vlen pwd + 48) / 64 + 1).

Lemma acc_counts : 
  work log = 12 * nb + R * C + V * C + 12 + 12 * (k / 96 + 1) /\
  Z.of_nat (length (reads log)) = 8 * nb + 13 + C * (48 * (R - 2) + 24 + 48 * V) /\
  Z.of_nat (length (writes log)) = vlen pwd / 8 + vlen salt / 8 + 8 + C * (24 * (R - 2) + 24 + 24 * V).
Proof.
  pose proof (acc_sizes p Hp sel k pwd salt t R C out log Ha HR63 Hk E) as (HR & HC & Ht & _ & Hk96 & _).
  destruct (acc_log p Hp sel k pwd salt t R C out log Ha HR63 Hk E) as (rowas & Hl & _ & Hlog).
  pose proof (vlen_nonneg pwd). pose proof (vlen_nonneg salt).
  change (work log) with (count is_perm log).
  change (Z.of_nat (length (reads log))) with (count is_rd log).
  change (Z.of_nat (length (writes log))) with (count is_wr log).
  rewrite Hlog, !count_app. split; [|split].
  - rewrite (count_input is_perm 0 0 1), (count_setup is_perm 0 0 1), (count_wander is_perm 0 0 1),
      (count_final is_perm 0 1) by (done || lia). lia.
  - rewrite (count_input is_rd 1 0 0), (count_setup is_rd 1 0 0), (count_wander is_rd 1 0 0),
      (count_final is_rd 1 0) by (done || lia). lia.
  - rewrite (count_input is_wr 0 1 0), (count_setup is_wr 0 1 0), (count_wander is_wr 0 1 0),
      (count_final is_wr 0 0) by (done || lia). lia.
Qed.
Lemma acc_visits : t <= V <= t * R.
Proof.
  pose proof (acc_sizes p Hp sel k pwd salt t R C out log Ha HR63 Hk E) as (HR & HC & Ht & _).
  apply schedule_length_bounds; lia.
Qed.
End props.
Lemma work_pow2 p sel k pwd salt t e C out log :
  known_platform p -> 0 <= e -> 2 ^ e < 2 ^ 63 -> rust_args (isize_max p) k pwd salt t (2 ^ e) C ->
  usize_bits p = 64 \/ k < 2 ^ 63 ->
  lyra2_with_acc p sel k pwd salt t (2 ^ e) C = Ok (out, log) ->
  let nb := (vlen salt + vlen pwd + 48) / 64 + 1 in
  work log = (t + 1) * 2 ^ e * C + 12 * nb + 12 + 12 * (k / 96 + 1) /\
  Z.of_nat (length (reads log)) = 48 * (t + 1) * 2 ^ e * C - 72 * C + 8 * nb + 13 /\
  Z.of_nat (length (writes log)) = 24 * (t + 1) * 2 ^ e * C - 24 * C + vlen pwd / 8 + vlen salt / 8 + 8.
Proof.
  intros Hp He0 HR Ha Hk E nb.
  pose proof (acc_sizes p Hp sel k pwd salt t _ C out log Ha HR Hk E) as (HR3 & HC & Ht & _).
  assert (He : 2 <= e).
  { destruct (Z.le_gt_cases 2 e); [done|]. assert (e = 0 \/ e = 1) as [-> | ->] by lia; cbn in HR3; lia. }
  destruct (acc_counts p Hp sel k pwd salt t _ C out log Ha HR Hk E) as (H1 & H2 & H3). fold nb in H1, H2.
  rewrite schedule_length_pow2 in H1, H2, H3 by lia. rewrite H1, H2, H3. lia.
Qed.
Lemma work_bounds p sel k pwd salt t R C out log :
  known_platform p -> rust_args (isize_max p) k pwd salt t R C -> R < 2 ^ 63 ->
  usize_bits p = 64 \/ k < 2 ^ 63 ->
  lyra2_with_acc p sel k pwd salt t R C = Ok (out, log) ->
  let nb := (vlen salt + vlen pwd + 48) / 64 + 1 in
  let fixed := 12 * nb + 12 + 12 * (k / 96 + 1) in
  R * C + t * C + fixed <= work log <= R * C + t * R * C + fixed.
Proof.
  intros Hp Ha HR Hk E nb fixed.
  pose proof (acc_sizes p Hp sel k pwd salt t _ C out log Ha HR Hk E) as (HR3 & HC & Ht & _).
  destruct (acc_counts p Hp sel k pwd salt t _ C out log Ha HR Hk E) as (H1 & _ & _). fold nb in H1.
  pose proof (acc_visits p Hp sel k pwd salt t _ C out log Ha HR Hk E) as HV. rewrite H1. unfold fixed.
  set (V := Z.of_nat _) in *. assert (t * C <= V * C <= t * R * C) by nia. lia.
Qed.
Lemma full_work_refuted :
  ~ (forall k pwd salt t R C out log,
       rust_args (isize_max debug64) k pwd salt t R C -> lyra2_acc debug64 k pwd salt t R C = Ok (out, log) ->
       (t + 1) * R * C <= work log - 12 * ((vlen salt + vlen pwd + 48) / 64 + 1) - 12 - 12 * (k / 96 + 1)).
Proof.
  intros H.
  assert (E : exists x, lyra2_acc debug64 1 [] [] 1 5 1 = Ok x /\ work x.2 = 42).
  { eexists. split; [vm_compute; reflexivity|]. vm_compute. reflexivity. }
  destruct E as ([out log] & E & Hw). cbn [snd] in Hw.
  specialize (H 1 [] [] 1 5 1 out log). rewrite Hw in H.
  assert (Ha : rust_args (isize_max debug64) 1 [] [] 1 5 1) by PLyra2Lemmas.args_tac.
  specialize (H Ha E). vm_compute in H. apply H. reflexivity.
Qed.

(** ** C35: what depends on the secrets *)
Lemma without_row_addr C r c j : 0 <= c < C -> 0 <= j < 12 -> (12 * (r * C + c) + j) mod (12 * C) = 12 * c + j.
Proof.
  intros Hc Hj. replace (12 * (r * C + c) + j) with ((12 * c + j) + r * (12 * C)) by lia.
  rewrite Z_mod_plus_full. apply Z.mod_small. nia.
Qed.
Lemma without_row_each2 C f h r c r' c' : (forall x, without_row C (f x) = f (x mod (12 * C))) ->
  (forall x, without_row C (h x) = h (x mod (12 * C))) -> 0 <= c < C -> 0 <= c' < C ->
  without_row C <$> each2 f h (cell_addrs C r c) (cell_addrs C r' c') =
  each2 f h (cell_addrs C 0 c) (cell_addrs C 0 c').
Proof.
  intros Hf Hh Hc Hc'. rewrite !each2_cells.
  assert (H : forall l, (forall j, j ∈ l -> 0 <= j < 12) ->
    without_row C <$> (l ≫= fun j => [f (12 * (r * C + c) + j); h (12 * (r' * C + c') + j)]) =
    l ≫= fun j => [f (12 * (0 * C + c) + j); h (12 * (0 * C + c') + j)]).
  { induction l as [|j l IH]; intros Hl; [done|]. rewrite !bind_cons, fmap_app.
    rewrite IH by (intros; apply Hl; by right). f_equal. cbn [fmap list_fmap].
    assert (Hj : 0 <= j < 12) by (apply Hl; by left).
    rewrite Hf, Hh, !without_row_addr by done. repeat (f_equal; try lia). }
  apply H. intros j. apply offs12_elem.
Qed.
Lemma without_row_wander C row prev rowa : 
  without_row C <$> wander_row_accesses C row prev rowa = wander_row_accesses C 0 0 0.
Proof.
  unfold wander_row_accesses.
  assert (H : forall l, (forall c, c ∈ l -> 0 <= c < C) ->
    without_row C <$> (l ≫= fun c => each2 Rd Rd (cell_addrs C prev c) (cell_addrs C rowa c) ++ rounds 1 ++
      each2 Rd Wr (cell_addrs C row c) (cell_addrs C row c) ++
      each2 Rd Wr (cell_addrs C rowa c) (cell_addrs C rowa c)) =
    l ≫= fun c => each2 Rd Rd (cell_addrs C 0 c) (cell_addrs C 0 c) ++ rounds 1 ++
      each2 Rd Wr (cell_addrs C 0 c) (cell_addrs C 0 c) ++
      each2 Rd Wr (cell_addrs C 0 c) (cell_addrs C 0 c)).
  { induction l as [|c l IH]; intros Hl; [done|]. rewrite !bind_cons, !fmap_app.
    assert (Hc : 0 <= c < C) by (apply Hl; by left).
    rewrite !without_row_each2 by done. rewrite IH by (intros; apply Hl; by right). done. }
  apply H. intros c Hc%elem_of_seqZ. lia.
Qed.
Lemma without_row_visits C (s : list (Z * Z * Z)) rowas rowas' : length rowas = length s -> length rowas' = length s ->
  without_row C <$> (zip s rowas ≫= fun '(_, row, prev, rowa) => wander_row_accesses C row prev rowa) =
  without_row C <$> (zip s rowas' ≫= fun '(_, row, prev, rowa) => wander_row_accesses C row prev rowa).
Proof.
  revert rowas rowas'. induction s as [|[[tau row] prev] s IH]; intros [|a ra] [|a' ra'] Hl Hl'; try done.
  cbn [zip_with]. rewrite !bind_cons, !fmap_app, !without_row_wander. f_equal. apply IH; cbn in *; lia.
Qed.
Lemma accesses_public p p' sel sel' k pwd pwd' salt salt' t R C out out' log log' :
  known_platform p -> known_platform p' ->
  rust_args (isize_max p) k pwd salt t R C -> rust_args (isize_max p') k pwd' salt' t R C ->
  R < 2 ^ 63 -> k < 2 ^ 63 -> length pwd = length pwd' -> length salt = length salt' ->
  lyra2_with_acc p sel k pwd salt t R C = Ok (out, log) ->
  lyra2_with_acc p' sel' k pwd' salt' t R C = Ok (out', log') ->
  (let n := length (input_accesses (vlen pwd) (vlen salt) ++ setup_accesses R C) in
   take n log = take n log') /\
  without_row C <$> log = without_row C <$> log'.
Proof.
  intros Hp Hp' Ha Ha' HR63 Hk63 Hlp Hls E E'.
  destruct (acc_log p Hp sel k pwd salt t R C out log Ha HR63 (or_intror Hk63) E) as (rowas & Hl & _ & ->).
  destruct (acc_log p' Hp' sel' k pwd' salt' t R C out' log' Ha' HR63 (or_intror Hk63) E') as (rowas' & Hl' & _ & ->).
  pose proof (acc_sizes p Hp sel k pwd salt t R C _ _ Ha HR63 (or_intror Hk63) E) as (_ & HC & _).
  assert (vlen pwd' = vlen pwd) as -> by (unfold vlen; lia).
  assert (vlen salt' = vlen salt) as -> by (unfold vlen; lia). cbv zeta. split.
  - rewrite !(app_assoc (input_accesses _ _)). by rewrite !take_app.
  - rewrite !fmap_app. do 2 f_equal. f_equal.
    + by apply without_row_visits.
    + unfold final_accesses. rewrite !fmap_app. f_equal. unfold each.
      unfold cell_addrs. rewrite <- !list_fmap_compose. apply list_fmap_ext. intros i j Hj.
      apply elem_of_list_lookup_2, elem_of_seqZ in Hj. cbn. by rewrite !without_row_addr by lia.
Qed.

(** ** C36: every word is written before it is read *)
Lemma in_each2 f h C r c r' c' a : a ∈ each2 f h (cell_addrs C r c) (cell_addrs C r' c') ->
  exists j, 0 <= j < 12 /\ (a = f (12 * (r * C + c) + j) \/ a = h (12 * (r' * C + c') + j)).
Proof.
  rewrite each2_cells. intros (j & Ha & Hj%offs12_elem)%elem_of_list_bind. exists j. split; [done|].
  by rewrite elem_of_cons, elem_of_list_singleton in Ha.
Qed.
Lemma each2_in f h C r c r' c' j : 0 <= j < 12 ->
  h (12 * (r' * C + c') + j) ∈ each2 f h (cell_addrs C r c) (cell_addrs C r' c').
Proof. intros Hj%offs12_elem. rewrite each2_cells. apply elem_of_list_bind. exists j. split; [right; left|done]. Qed.
Lemma in_each f C r c a : a ∈ each f (cell_addrs C r c) -> exists j, 0 <= j < 12 /\ a = f (12 * (r * C + c) + j).
Proof. rewrite each_cells. intros (j & Ha & Hj%offs12_elem)%elem_of_list_bind. exists j. split; [done|]. by apply elem_of_list_singleton in Ha. Qed.

Definition row_of (C r : Z) (a : Z) : Prop := exists c j, 0 <= c < C /\ 0 <= j < 12 /\ a = 12 * (r * C + c) + j.
Lemma setup_row_reads C row prev rowa a : Rd a ∈ setup_row_accesses C row prev rowa ->
  row_of C prev a \/ row_of C rowa a.
Proof.
  intros (c & Hin & Hc%elem_of_seqZ)%elem_of_list_bind. rewrite !elem_of_app in Hin.
  destruct Hin as [H|[H|[H|H]]].
  - apply in_each2 in H as (j & Hj & [[= ->]|[= ->]]); [left|right]; exists c, j; split; [lia|done|lia|done].
  - apply elem_of_replicate in H as [? _]. done.
  - apply in_each2 in H as (j & Hj & [[= ->]|?]); [left|done]. exists c, j. split; [lia|done].
  - apply in_each2 in H as (j & Hj & [[= ->]|?]); [right|done]. exists c, j. split; [lia|done].
Qed.
Lemma wander_row_reads C row prev rowa a : Rd a ∈ wander_row_accesses C row prev rowa ->
  row_of C prev a \/ row_of C row a \/ row_of C rowa a.
Proof.
  intros (c & Hin & Hc%elem_of_seqZ)%elem_of_list_bind. rewrite !elem_of_app in Hin.
  destruct Hin as [H|[H|[H|H]]].
  - apply in_each2 in H as (j & Hj & [[= ->]|[= ->]]); [left|right; right]; exists c, j; split; [lia|done|lia|done].
  - apply elem_of_replicate in H as [? _]. done.
  - apply in_each2 in H as (j & Hj & [[= ->]|?]); [right; left|done]. exists c, j. split; [lia|done].
  - apply in_each2 in H as (j & Hj & [[= ->]|?]); [right; right|done]. exists c, j. split; [lia|done].
Qed.
Lemma wander_row_writes C row prev rowa a : Wr a ∈ wander_row_accesses C row prev rowa ->
  row_of C row a \/ row_of C rowa a.
Proof.
  intros (c & Hin & Hc%elem_of_seqZ)%elem_of_list_bind. rewrite !elem_of_app in Hin.
  destruct Hin as [H|[H|[H|H]]].
  - by apply in_each2 in H as (j & Hj & [?|?]).
  - apply elem_of_replicate in H as [? _]. done.
  - apply in_each2 in H as (j & Hj & [?|[= ->]]); [done|left]. exists c, j. split; [lia|done].
  - apply in_each2 in H as (j & Hj & [?|[= ->]]); [done|right]. exists c, j. split; [lia|done].
Qed.
Lemma setup_row_writes C row prev rowa a : row_of C row a -> Wr a ∈ setup_row_accesses C row prev rowa.
Proof.
  intros (c & j & Hc & Hj & ->). apply elem_of_list_bind. exists (C - 1 - c).
  split; [|apply elem_of_seqZ; lia]. rewrite !elem_of_app. right; right; left.
  replace (C - 1 - (C - 1 - c)) with c by lia. by apply each2_in.
Qed.
Lemma row0_writes C a : row_of C 0 a -> Wr a ∈ row0_accesses C.
Proof.
  intros (c & j & Hc & Hj & ->). apply elem_of_list_bind. exists (C - 1 - c).
  split; [|apply elem_of_seqZ; lia]. rewrite elem_of_app. left.
  replace (C - 1 - (C - 1 - c)) with c by lia. rewrite each_cells. apply elem_of_list_bind. exists j.
  split; [left|by apply offs12_elem].
Qed.
Lemma row0_reads C a : Rd a ∉ row0_accesses C.
Proof.
  intros (c & Hin & _)%elem_of_list_bind. apply elem_of_app in Hin as [H|H].
  - by apply in_each in H as (j & _ & ?).
  - by apply elem_of_replicate in H as [? _].
Qed.
Lemma row1_writes C a : row_of C 1 a -> Wr a ∈ row1_accesses C.
Proof.
  intros (c & j & Hc & Hj & ->). apply elem_of_list_bind. exists (C - 1 - c).
  split; [|apply elem_of_seqZ; lia]. rewrite !elem_of_app. right; right.
  replace (C - 1 - (C - 1 - c)) with c by lia. by apply each2_in.
Qed.
Lemma row1_reads C a : Rd a ∈ row1_accesses C -> row_of C 0 a.
Proof.
  intros (c & Hin & Hc%elem_of_seqZ)%elem_of_list_bind. rewrite !elem_of_app in Hin.
  destruct Hin as [H|[H|H]].
  - apply in_each in H as (j & Hj & [= ->]). exists c, j. split; [lia|done].
  - by apply elem_of_replicate in H as [? _].
  - apply in_each2 in H as (j & Hj & [[= ->]|?]); [|done]. exists c, j. split; [lia|done].
Qed.

(** Reads of [l] come after a write in [l] or are in [W]. *)
Definition init (W : Z -> Prop) (l : list access) : Prop :=
  forall l1 a l2, l = l1 ++ Rd a :: l2 -> W a \/ Wr a ∈ l1.
Lemma init_reads (W : Z -> Prop) l : (forall a, Rd a ∈ l -> W a) -> init W l.
Proof. intros H l1 a l2 ->. left. apply H. rewrite elem_of_app, elem_of_cons. by right; left. Qed.
Lemma init_app (W : Z -> Prop) l l' : init W l -> init (fun a => W a \/ Wr a ∈ l) l' -> init W (l ++ l').
Proof.
  intros H H' l1 a l2 E. apply app_eq_inv in E as [(k & -> & E)|(k & -> & E)].
  - destruct k as [|x k].
    + cbn in E. destruct (H' [] a l2 (eq_sym E)) as [[?|?]|?%elem_of_nil]; [by left| |done].
      right. by rewrite app_nil_r in *.
    + injection E as <- E. by apply (H l1 a k).
  - destruct (H' k a l2 E) as [[?|?]|?]; [by left|right..]; rewrite elem_of_app; [by left|by right].
Qed.
Lemma init_mono (W W' : Z -> Prop) l : (forall a, W a -> W' a) -> init W l -> init W' l.
Proof. intros HW H l1 a l2 E. destruct (H l1 a l2 E); [left; auto|by right]. Qed.

Lemma setup_init R C : 3 <= R -> 
  init (fun _ => False) (setup_accesses R C) /\
  forall r a, 0 <= r < R -> row_of C r a -> Wr a ∈ setup_accesses R C.
Proof.
  intros HR. unfold setup_accesses.
  set (f := fun row => setup_row_accesses C row (row - 1) (setup_rowa row)).
  assert (H : forall n, 0 <= n -> 
    init (fun _ => False) (row0_accesses C ++ row1_accesses C ++ (seqZ 2 n ≫= f)) /\
    forall r a, 0 <= r < 2 + n -> row_of C r a -> Wr a ∈ row0_accesses C ++ row1_accesses C ++ (seqZ 2 n ≫= f)).
  { intros n Hn. pattern n. apply natlike_ind; [| |done]; clear n Hn.
    - cbn [seqZ mbind list_bind]. rewrite app_nil_r. split.
      + apply init_app; apply init_reads; intros a Hin; [by apply row0_reads in Hin|].
        right. apply row0_writes. by apply row1_reads in Hin.
      + intros r a Hr Hin. rewrite elem_of_app. assert (r = 0 \/ r = 1) as [-> | ->] by lia.
        * left. by apply row0_writes.
        * right. by apply row1_writes.
    - intros n Hn [IH1 IH2].
      assert (Eq : row0_accesses C ++ row1_accesses C ++ (seqZ 2 (Z.succ n) ≫= f) =
        (row0_accesses C ++ row1_accesses C ++ (seqZ 2 n ≫= f)) ++ f (2 + n)).
      { rewrite <- !app_assoc. do 2 f_equal. pose proof (seqZ_bind_snoc f 2 (2 + n) ltac:(lia)) as Hs.
        replace (2 + n + 1 - 2) with (Z.succ n) in Hs by lia. by replace (2 + n - 2) with n in Hs by lia. }
      rewrite Eq. split.
      + apply init_app; [done|]. apply init_reads. intros a Hin. right.
        pose proof (setup_rowa_lt (2 + n) ltac:(lia)).
        unfold f in Hin. apply setup_row_reads in Hin as [Hin|Hin].
        * apply (IH2 (2 + n - 1)); [lia|exact Hin].
        * apply (IH2 (setup_rowa (2 + n))); [lia|exact Hin].
      + intros r a Hr Hin. rewrite elem_of_app. destruct (Z.eq_dec r (2 + n)) as [->|].
        * right. unfold f. by apply setup_row_writes.
        * left. eapply IH2; [|exact Hin]. lia. }
  destruct (H (R - 2) ltac:(lia)) as [H1 H2]. split; [done|]. intros r a Hr. apply H2. lia.
Qed.
Lemma row_of_addr R C a : 1 <= C -> 0 <= a < 12 * R * C -> exists r, 0 <= r < R /\ row_of C r a.
Proof.
  intros HC Ha. exists (a / 12 / C).
  pose proof (Z.div_mod a 12 ltac:(lia)). pose proof (Z.mod_pos_bound a 12 ltac:(lia)).
  pose proof (Z.div_mod (a / 12) C ltac:(lia)). pose proof (Z.mod_pos_bound (a / 12) C ltac:(lia)).
  assert (Hb : 0 <= a / 12 < R * C) by lia. split.
  - split; [apply Z.div_pos; lia|]. apply Z.div_lt_upper_bound; lia.
  - exists ((a / 12) mod C), (a mod 12). split; [done|]. split; [done|]. lia.
Qed.
Lemma row_of_bound R C r a : 0 <= r < R -> row_of C r a -> 0 <= a < 12 * R * C.
Proof. intros Hr (c & j & Hc & Hj & ->). assert (0 <= r * C + c < R * C) by nia. lia. Qed.
Lemma row_of_div C r a : row_of C r a -> a / (12 * C) = r.
Proof.
  intros (c & j & Hc & Hj & ->). replace (12 * (r * C + c) + j) with ((12 * c + j) + r * (12 * C)) by lia.
  rewrite Z.div_add by lia. rewrite Z.div_small by nia. lia.
Qed.

Section init.
Context (p : platform) (Hp : known_platform p).
Context (sel : MLyra2.selector) (k : Z) (pwd salt : list Z) (t R C : Z) (out : list Z) (log : list access).
Context (Ha : rust_args (isize_max p) k pwd salt t R C) (HR63 : R < 2 ^ 63).
Context (Hk : usize_bits p = 64 \/ k < 2 ^ 63).
Context (E : lyra2_with_acc p sel k pwd salt t R C = Ok (out, log)).

Lemma schedule_submask x : 3 <= R -> x ∈ wander_schedule R t ->
  submask (R - 1) (x.1.2) /\ submask (R - 1) x.2.
Proof.
  intros HR. unfold wander_schedule.
  assert (H : forall l q, Forall (fun x : Z * Z => submask (R - 1) x.2) l -> submask (R - 1) q ->
    x ∈ with_prev q l -> submask (R - 1) (x.1.2) /\ submask (R - 1) x.2).
  { induction l as [|[a b] l IH]; intros q HF Hq; cbn [with_prev]; [by intros ?%elem_of_nil|].
    apply Forall_cons in HF as [Hb HF]. intros [-> |Hl]%elem_of_cons; [done|]. exact (IH b HF Hb Hl). }
  apply H.
  - unfold wander_rows. apply Forall_bind, Forall_true. intros tau'. apply Forall_fmap.
    eapply Forall_impl; [apply (pass_submask R HR tau')|]. done.
  - split; [lia|apply Z.land_diag].
Qed.
Lemma wander_rows_only rowas a : 3 <= R ->
  Forall (fun a => 0 <= a < R /\ Z.land a (R - 1) = a) rowas ->
  Rd a ∈ wander_accesses R C t rowas \/ Wr a ∈ wander_accesses R C t rowas ->
  exists r, submask (R - 1) r /\ row_of C r a.
Proof.
  intros HR HF Hin.
  assert (H : exists tau row prev rowa, (tau, row, prev) ∈ wander_schedule R t /\ rowa ∈ rowas /\
    (row_of C prev a \/ row_of C row a \/ row_of C rowa a)).
  { destruct Hin as [Hin|Hin]; apply elem_of_list_bind in Hin as ([[[tau row] prev] rowa] & Hin & Hz);
      apply elem_of_zip_l in Hz as Hz1; apply elem_of_zip_r in Hz as Hz2; exists tau, row, prev, rowa;
      (split; [done|]; split; [done|]).
    - by apply wander_row_reads in Hin.
    - apply wander_row_writes in Hin as [?|?]; auto. }
  destruct H as (tau & row & prev & rowa & Hs & Hr & Hrow).
  apply schedule_submask in Hs as [H1 H2]; [|done]. rewrite Forall_forall in HF. apply HF in Hr as [H3 H4].
  destruct Hrow as [?|[?|?]]; [by exists prev|by exists row|]. exists rowa. split; [split; [lia|done]|done].
Qed.
Lemma acc_init : exists rest, log = input_accesses (vlen pwd) (vlen salt) ++ rest /\
  (forall l1 a l2, rest = l1 ++ Rd a :: l2 -> Wr a ∈ l1) /\
  (forall a, 0 <= a < 12 * R * C -> Wr a ∈ rest).
Proof.
  pose proof (acc_sizes p Hp sel k pwd salt t R C out log Ha HR63 Hk E) as (HR & HC & Ht & _ & Hk96 & _).
  destruct (acc_log p Hp sel k pwd salt t R C out log Ha HR63 Hk E) as (rowas & Hl & HF & Hlog).
  eexists. split; [exact Hlog|]. destruct (setup_init R C HR) as [H1 H2].
  assert (Hall : forall a r, submask (R - 1) r -> row_of C r a -> Wr a ∈ setup_accesses R C).
  { intros a r Hr Hro. apply (H2 r); [|done]. pose proof (submask_range R HR r Hr). lia. }
  split.
  - assert (Hi : init (fun _ => False) (setup_accesses R C ++ wander_accesses R C t rowas ++
      final_accesses C (List.last rowas 0) k)).
    { apply init_app; [done|]. apply init_reads. intros a Hin. right.
      rewrite elem_of_app in Hin. destruct Hin as [Hin|Hin].
      - destruct (wander_rows_only rowas a HR HF (or_introl Hin)) as (r & Hr & Hro). by apply (Hall a r).
      - unfold final_accesses in Hin. rewrite !elem_of_app in Hin. destruct Hin as [Hin|[Hin|Hin]].
        + apply in_each in Hin as (j & Hj & [= ->]).
          assert (Hra : 0 <= List.last rowas 0 < R).
          { destruct rowas as [|x xs]; [cbn; lia|]. rewrite Forall_forall in HF.
            destruct (exists_last (l := x :: xs) ltac:(done)) as (l' & y & El). rewrite El in *. rewrite last_last.
            apply HF. apply elem_of_list_In, in_or_app. right. by left. }
          apply (H2 (List.last rowas 0)); [done|]. exists 0, j. split; [lia|]. done.
        + by apply elem_of_replicate in Hin as [? _].
        + by apply elem_of_replicate in Hin as [? _]. }
    intros l1 a l2 Eq. destruct (Hi l1 a l2 Eq) as [[]|?]. done.
  - intros a Hadd. destruct (row_of_addr R C a HC Hadd) as (r & Hr & Hro). rewrite elem_of_app. left.
    by apply (H2 r).
Qed.
Lemma acc_after_setup : exists rest,
  log = (input_accesses (vlen pwd) (vlen salt) ++ setup_accesses R C) ++ rest /\
  (forall a, Rd a ∈ rest \/ Wr a ∈ rest ->
     0 <= a < 12 * R * C /\ Z.land (a / (12 * C)) (R - 1) = a / (12 * C)).
Proof.
  pose proof (acc_sizes p Hp sel k pwd salt t R C out log Ha HR63 Hk E) as (HR & HC & Ht & _ & Hk96 & _).
  destruct (acc_log p Hp sel k pwd salt t R C out log Ha HR63 Hk E) as (rowas & Hl & HF & Hlog).
  eexists. split; [rewrite <- app_assoc; exact Hlog|]. intros a Hin.
  assert (H : exists r, submask (R - 1) r /\ row_of C r a).
  { assert (Hin' : (Rd a ∈ wander_accesses R C t rowas \/ Wr a ∈ wander_accesses R C t rowas) \/
      (Rd a ∈ final_accesses C (List.last rowas 0) k \/ Wr a ∈ final_accesses C (List.last rowas 0) k)).
    { rewrite !elem_of_app in Hin. tauto. }
    destruct Hin' as [Hin'|Hin']; [by apply (wander_rows_only rowas)|].
    assert (Hra : submask (R - 1) (List.last rowas 0)).
    { destruct rowas as [|x xs]; [split; [cbn; lia|apply Z.land_0_l]|]. rewrite Forall_forall in HF.
      destruct (exists_last (l := x :: xs) ltac:(done)) as (l' & y & El). rewrite El in *. rewrite last_last.
      destruct (HF y) as [H1 H2]; [|by split; [lia|]]. apply elem_of_list_In, in_or_app. right. by left. }
    exists (List.last rowas 0). split; [done|]. unfold final_accesses in Hin'. rewrite !elem_of_app in Hin'.
    destruct Hin' as [[H|[H|H]]|[H|[H|H]]]; try (by apply elem_of_replicate in H as [? _]).
    - apply in_each in H as (j & Hj & [= ->]). exists 0, j. split; [lia|done].
    - by apply in_each in H as (j & Hj & ?). }
  destruct H as (r & Hr & Hro). split.
  - apply (row_of_bound R C r); [|done]. pose proof (submask_range R HR r Hr). lia.
  - rewrite (row_of_div C r a Hro). apply Hr.
Qed.
Lemma in_each_any f h r c r' c' x a : x = Rd a \/ x = Wr a ->
  (f = Rd \/ f = Wr) -> (h = Rd \/ h = Wr) -> 0 <= c < C -> 0 <= c' < C ->
  x ∈ each2 f h (cell_addrs C r c) (cell_addrs C r' c') -> row_of C r a \/ row_of C r' a.
Proof.
  intros Hx Hf Hh Hc Hc' H. apply in_each2 in H as (j & Hj & H).
  assert (a = 12 * (r * C + c) + j \/ a = 12 * (r' * C + c') + j) as [-> | ->].
  { destruct Hx as [-> | ->], Hf as [-> | ->], Hh as [-> | ->], H as [H|H]; inversion H; tauto. }
  - left. by exists c, j.
  - right. by exists c', j.
Qed.
Lemma setup_rows_only x a : 3 <= R -> x = Rd a \/ x = Wr a -> x ∈ setup_accesses R C -> 0 <= a < 12 * R * C.
Proof.
  intros HR Hx Hin. assert (H : exists r, 0 <= r < R /\ row_of C r a); [|destruct H as (r & ? & ?); by apply (row_of_bound R C r)].
  assert (Hr : forall l, x ∈ rounds l -> False).
  { intros l [-> _]%elem_of_replicate. destruct Hx; done. }
  unfold setup_accesses in Hin. rewrite !elem_of_app in Hin. destruct Hin as [Hin|[Hin|Hin]].
  - apply elem_of_list_bind in Hin as (c & Hin & Hc%elem_of_seqZ). rewrite elem_of_app in Hin.
    destruct Hin as [H|H]; [|by apply Hr in H]. apply in_each in H as (j & Hj & ->).
    exists 0. split; [lia|]. destruct Hx as [?|[= <-]]; [done|]. exists (C - 1 - c), j. split; [lia|done].
  - apply elem_of_list_bind in Hin as (c & Hin & Hc%elem_of_seqZ). rewrite !elem_of_app in Hin.
    destruct Hin as [H|[H|H]]; [|by apply Hr in H|].
    + apply in_each in H as (j & Hj & ->). exists 0. split; [lia|]. destruct Hx as [[= <-]|?]; [|done].
      exists c, j. split; [lia|done].
    + apply (in_each_any _ _ _ _ _ _ _ a) in H as [H|H]; [exists 0|exists 1| |..]; try (split; [lia|done]); auto; lia.
  - apply elem_of_list_bind in Hin as (row & Hin & Hrow%elem_of_seqZ).
    pose proof (setup_rowa_lt row ltac:(lia)) as Hra.
    apply elem_of_list_bind in Hin as (c & Hin & Hc%elem_of_seqZ). rewrite !elem_of_app in Hin.
    destruct Hin as [H|[H|[H|H]]]; [|by apply Hr in H|..];
      (apply (in_each_any _ _ _ _ _ _ _ a) in H as [H|H]; [| |auto..|lia|lia]);
      eexists; (split; [|exact H]); lia.
Qed.
Lemma input_only x a : 64 * n_blocks pwd salt <= 96 * R * C -> x = Rd a \/ x = Wr a ->
  x ∈ input_accesses (vlen pwd) (vlen salt) -> 0 <= a < 12 * R * C.
Proof.
  intros Hnb Hx Hin. pose proof (n_blocks_bounds pwd salt) as Hb.
  pose proof (vlen_nonneg pwd). pose proof (vlen_nonneg salt).
  unfold input_accesses in Hin. rewrite !elem_of_app, !elem_of_cons in Hin.
  rewrite (Z.add_comm (vlen salt)) in Hin.
  change ((vlen pwd + vlen salt + 48) / 64 + 1) with (n_blocks pwd salt) in Hin.
  destruct Hin as [H1|[[H1|[H1|H1]]|H1]].
  - apply elem_of_list_fmap in H1 as (b & -> & Hs%elem_of_seqZ). destruct Hx as [?|[= <-]]; [done|]. lia.
  - destruct Hx as [-> | ->]; inversion H1; lia.
  - destruct Hx as [-> | ->]; inversion H1; lia.
  - by apply elem_of_nil in H1.
  - apply elem_of_list_bind in H1 as (i & H1 & Hi%elem_of_seqZ). apply elem_of_app in H1 as [H1|H1].
    + apply elem_of_list_fmap in H1 as (b & -> & Hs%elem_of_seqZ). destruct Hx as [[= <-]|?]; [|done]. lia.
    + apply elem_of_replicate in H1 as [-> _]. by destruct Hx.
Qed.
Lemma acc_exact a : Rd a ∈ log \/ Wr a ∈ log <-> 0 <= a < 12 * R * C.
Proof.
  pose proof (acc_sizes p Hp sel k pwd salt t R C out log Ha HR63 Hk E) as (HR & HC & Ht & _ & Hk96 & Hnb).
  split.
  - destruct acc_after_setup as (rest & -> & Hrest). rewrite !elem_of_app.
    intros [[[H|H]|H]|[[H|H]|H]];
      solve [eapply input_only; [done| |exact H]; auto | eapply setup_rows_only; [done| |exact H]; auto | apply Hrest; auto].
  - destruct acc_init as (rest & -> & _ & Hw). intros H%Hw. rewrite !elem_of_app. auto.
Qed.
End init.

(** Two passwords for which the rows revisited while wandering differ, in both variants. *)
Lemma all_accesses_public_refuted :
  ~ (forall p k pwd pwd' salt t R C out out' log log',
       known_platform p -> rust_args (isize_max p) k pwd salt t R C -> rust_args (isize_max p) k pwd' salt t R C ->
       length pwd = length pwd' ->
       lyra2_acc p k pwd salt t R C = Ok (out, log) -> lyra2_acc p k pwd' salt t R C = Ok (out', log') ->
       log = log') /\
  ~ (forall p k pwd pwd' salt t R C out out' log log',
       known_platform p -> rust_args (isize_max p) k pwd salt t R C -> rust_args (isize_max p) k pwd' salt t R C ->
       length pwd = length pwd' ->
       lyra2mod_acc p k pwd salt t R C = Ok (out, log) -> lyra2mod_acc p k pwd' salt t R C = Ok (out', log') ->
       log = log').
Proof.
  split; intros H.
  - assert (E : exists out log out' log',
      lyra2_acc debug64 1 [1; 2; 3; 4; 5; 6; 7; 8] [] 1 4 1 = Ok (out, log) /\
      lyra2_acc debug64 1 [8; 7; 6; 5; 4; 3; 2; 1] [] 1 4 1 = Ok (out', log') /\
      log <> log')
      by (do 4 eexists; split; [vm_compute; reflexivity|split; [vm_compute; reflexivity|vm_compute; discriminate]]).
    destruct E as (out & log & out' & log' & E & E' & N). apply N.
    refine (H debug64 1 _ _ [] 1 4 1 out out' log log' _ _ _ _ E E'); [by right|PLyra2Lemmas.args_tac|PLyra2Lemmas.args_tac|reflexivity].
  - assert (E : exists out log out' log',
      lyra2mod_acc debug64 1 [1; 2; 3; 4; 5; 6; 7; 8] [] 1 8 1 = Ok (out, log) /\
      lyra2mod_acc debug64 1 [8; 7; 6; 5; 4; 3; 2; 1] [] 1 8 1 = Ok (out', log') /\
      log <> log')
      by (do 4 eexists; split; [vm_compute; reflexivity|split; [vm_compute; reflexivity|vm_compute; discriminate]]).
    destruct E as (out & log & out' & log' & E & E' & N). apply N.
    refine (H debug64 1 _ _ [] 1 8 1 out out' log log' _ _ _ _ E E'); [by right|PLyra2Lemmas.args_tac|PLyra2Lemmas.args_tac|reflexivity].
Qed.
