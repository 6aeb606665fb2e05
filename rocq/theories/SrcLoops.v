(** * The functions translated by tools/rust2coq.py are the model: loops of lyra2.rs and lyra2mod/mod.rs *)
From Verif Require Import Machine MachineFacts MUtils MLyra2 SrcOps SrcFacts.
From Verif Require SrcUtils SrcLyra2 SrcLyra2mod.
#[local] Open Scope Z_scope.
#[local] Opaque MLyra2.round_lyra MLyra2.reduced_blake2b_lyra MLyra2.blake2b_lyra
  SrcLyra2.reduced_blake2b_lyra SrcLyra2.blake2b_lyra.

(** ** The state keeps its sixteen words *)
Definition post {A} (P : A -> Prop) (x : outcome A) : Prop := forall a, x = Ok a -> P a.
Lemma post_Ok {A} (P : A -> Prop) a : P a -> post P (Ok a).
Proof. intros H b [= <-]. done. Qed.
Lemma post_bind {A B} (P : A -> Prop) (Q : B -> Prop) x f : post P x -> (forall a, P a -> post Q (f a)) -> post Q (obind x f).
Proof. intros Hx Hf b (a & Ea & Eb)%obind_Ok_inv. eapply Hf; [by apply Hx|done]. Qed.
Lemma post_any {A} (P : A -> Prop) x : (forall a, P a) -> post P x.
Proof. intros H a _. apply H. Qed.
Lemma post_map {A} (P Q : A -> Prop) x : post P x -> (forall a, P a -> Q a) -> post Q x.
Proof. intros H HQ a E. by apply HQ, H. Qed.
Lemma post_foldM {A S} (P : S -> Prop) (f : S -> A -> outcome S) l s :
  (forall s a, P s -> post P (f s a)) -> P s -> post P (foldM f l s).
Proof.
  intros Hf. revert s. induction l as [|a l IH]; intros s Hs; cbn [foldM]; [by apply post_Ok|].
  eapply post_bind; [by apply Hf|]. apply IH.
Qed.
Lemma osim_post {A B} (R : A -> B -> Prop) (P : A -> Prop) x y :
  osim R x y -> (forall a b, R a b -> P a) -> post P x.
Proof. intros H HP a ->. destruct y; cbn in H; [|done..]. by eapply HP. Qed.
Lemma post_for_range {S} (P : S -> Prop) lo hi body s :
  (forall i s, P s -> post P (body i s)) -> P s -> post P (for_range lo hi body s).
Proof.
  intros Hb Hs. eapply (osim_post (fun a b => a = b /\ P a) P _ (for_range lo hi body s)); [|by intros a b []].
  apply for_range_sim; [|done]. intros i a b _ [<- Ha]. apply osim_refl. intros c Hc. split; [done|]. by eapply Hb.
Qed.

Lemma g_at_length v i j k l : length (g_at v i j k l) = length v.
Proof. unfold g_at. destruct (MLyra2.g _ _ _ _) as [[[x y] z] u]. by rewrite !insert_length. Qed.
#[local] Opaque g_at.
#[local] Transparent MLyra2.round_lyra MLyra2.reduced_blake2b_lyra MLyra2.blake2b_lyra.
Lemma round_length v : length (MLyra2.round_lyra v) = length v.
Proof. cbv delta [MLyra2.round_lyra] beta zeta. by rewrite !g_at_length. Qed.
Lemma reduced_length v : length (MLyra2.reduced_blake2b_lyra v) = length v.
Proof. apply round_length. Qed.
#[local] Opaque MLyra2.round_lyra.
Lemma blake_length v : length (MLyra2.blake2b_lyra v) = length v.
Proof. cbv delta [MLyra2.blake2b_lyra] beta zeta. by rewrite !round_length. Qed.
#[local] Opaque MLyra2.reduced_blake2b_lyra MLyra2.blake2b_lyra.
#[local] Transparent g_at.
Lemma init_length : length MLyra2.init_state = 16%nat.
Proof. reflexivity. Qed.

Notation len16 := (fun s : list Z => length s = 16%nat) (only parsing).
Lemma absorb_len s w : length s = 16%nat -> post len16 (MLyra2.absorb_block s w).
Proof.
  intros Hs. eapply (post_bind len16).
  - apply post_foldM; [|done]. intros s' j Hs'. eapply (post_bind (fun _ => True)); [by apply post_any|].
    intros x _. apply post_Ok. by rewrite insert_length.
  - intros a Ha. apply post_Ok. by rewrite blake_length.
Qed.
Lemma absorb_safe_len s w : length s = 16%nat -> post len16 (MLyra2.absorb_block_blake2_safe s w).
Proof.
  intros Hs. eapply (post_bind len16).
  - apply post_foldM; [|done]. intros s' j Hs'. eapply (post_bind (fun _ => True)); [by apply post_any|].
    intros x _. apply post_Ok. by rewrite insert_length.
  - intros a Ha. apply post_Ok. by rewrite blake_length.
Qed.
Ltac any := eapply (post_bind (fun _ => True)); [by apply post_any|]; intros ? _.
Lemma absorb_input_len p n m s : length s = 16%nat -> post len16 (absorb_input p n m s).
Proof.
  intros Hs. unfold absorb_input. eapply (post_bind (fun x => length x.1 = 16%nat)).
  - apply (post_for_range (fun x => length x.1 = 16%nat)); [|done]. intros i [s' w] Hs'. cbn [fst] in Hs'.
    any. eapply post_bind; [by apply absorb_safe_len|]. intros s'' Hs''. any. by apply post_Ok.
  - intros [s' w] Hs'. by apply post_Ok.
Qed.
Lemma squeeze_row0_len p n m s : length s = 16%nat -> post (fun x => length x.2 = 16%nat) (squeeze_row0 p n m s).
Proof.
  intros Hs. unfold squeeze_row0. any. any. eapply (post_bind (fun x => length x.1.2 = 16%nat)).
  - apply (post_for_range (fun x => length x.1.2 = 16%nat)); [|done]. intros i [[m' s'] w] Hs'. cbn [fst snd] in Hs'.
    any. apply post_Ok. cbn [fst snd]. by rewrite reduced_length.
  - intros [[m' s'] w] Hs'. by apply post_Ok.
Qed.
Lemma duplex_row1_len p rl n m s : length s = 16%nat -> post (fun x => length x.2 = 16%nat) (duplex_row1 p rl n m s).
Proof.
  intros Hs. unfold duplex_row1. apply (post_for_range (fun x => length x.2 = 16%nat)); [|done].
  intros i [m' s'] Hs'. cbn [snd] in Hs'. eapply (post_bind len16).
  - apply post_foldM; [|done]. intros s'' j Hs''. any. any. apply post_Ok. by rewrite insert_length.
  - intros s'' Hs''. cbv beta zeta. any. apply post_Ok. cbn [snd]. by rewrite reduced_length.
Qed.
Lemma absorb_sum_len p rl i prev rowa m s : length s = 16%nat -> post len16 (absorb_sum p rl i prev rowa m s).
Proof.
  intros Hs. apply post_foldM; [|done]. intros s'' j Hs''. do 4 any. apply post_Ok. by rewrite insert_length.
Qed.
Lemma duplex_row_setup_len p rl n row prev rowa m s : length s = 16%nat ->
  post (fun x => length x.2 = 16%nat) (duplex_row_setup p rl n row prev rowa m s).
Proof.
  intros Hs. unfold duplex_row_setup. apply (post_for_range (fun x => length x.2 = 16%nat)); [|done].
  intros i [m' s'] Hs'. cbn [snd] in Hs'. eapply post_bind; [by apply absorb_sum_len|].
  intros s'' Hs''. cbv beta zeta. any. any. apply post_Ok. cbn [snd]. by rewrite reduced_length.
Qed.
Lemma duplex_row_len p rl n row prev rowa m s : length s = 16%nat ->
  post (fun x => length x.2 = 16%nat) (duplex_row p rl n row prev rowa m s).
Proof.
  intros Hs. unfold duplex_row. apply (post_for_range (fun x => length x.2 = 16%nat)); [|done].
  intros i [m' s'] Hs'. cbn [snd] in Hs'. eapply post_bind; [by apply absorb_sum_len|].
  intros s'' Hs''. cbv beta zeta. any. any. apply post_Ok. cbn [snd]. by rewrite reduced_length.
Qed.
Lemma setup_rows_len p rl R C m s : length s = 16%nat ->
  post (fun x => length x.1.2 = 16%nat) (setup_rows p rl R C m s).
Proof.
  intros Hs. unfold setup_rows. apply (post_for_range (fun x => length x.1.2 = 16%nat)); [|done].
  intros i [[m' s'] v] Hs'. cbn [fst snd] in Hs'. eapply post_bind; [by apply duplex_row_setup_len|].
  intros [m'' s''] Hs''. any. by apply post_Ok.
Qed.

(** ** Loops *)
Lemma obind_osim {A B} (f : B -> A) (x : outcome A) (y : outcome B) :
  osim (fun a b => a = f b) x y -> x = obind y (fun b => Ok (f b)).
Proof. destruct x, y; cbn; try done. by intros ->. Qed.

Lemma src_copy p d at_ m : for_range 0 (vlen d / 8) (SrcLyra2.lyra2_body1 p d at_) m = copy_words p d at_ m.
Proof. apply for_range_ext. intros. apply src_body1. Qed.
Lemma src_copy2 p d at_ m : for_range 0 (vlen d / 8) (SrcLyra2.lyra2_body2 p d at_) m = copy_words p d at_ m.
Proof. apply src_copy. Qed.
Lemma known_small p x : known_platform p -> 0 <= x < 2 ^ 32 -> as_usize p x = x.
Proof. intros [H|H] Hx; unfold as_usize; rewrite H; apply Z.mod_small; lia. Qed.
Lemma src_absorb_input p n m s : known_platform p ->
  for_range 0 n (SrcLyra2.lyra2_body3 p m) (s, 0) =
  for_range 0 n (fun _ '(state, ptr_word) =>
      right <-- split_right m ptr_word ;;
      state <-- MLyra2.absorb_block_blake2_safe state right ;;
      ptr_word <-- szadd p ptr_word BLOCKLENBLAKE2SAFEINT64 ;;
      Ok (state, ptr_word)) (s, 0).
Proof.
  intros Hp. apply for_range_ext. intros i [s' w] _. unfold SrcLyra2.lyra2_body3.
  apply obind_cong. intros r _. rewrite src_absorb_safe. apply obind_cong. intros s'' _.
  by rewrite known_small.
Qed.
Lemma iadd_range p x : - 2 ^ 63 <= x < 2 ^ 63 -> iadd p x 0 = Ok x.
Proof. intros H. unfold iadd. rewrite Z.add_0_r. by apply chk_i64_Ok. Qed.
Lemma src_row0 p n m s a ptr : imul p a MLyra2.BLOCKLENINT64 = Ok ptr ->
  for_range 0 n (SrcLyra2.lyra2_body4 p) (m, s, ptr) =
  for_range 0 n (fun _ '(m, state, ptr) =>
      m <-- foldM (fun m j =>
              a <-- iadd p ptr j ;;
              vset m (as_usize p a) (aget state (Z.to_nat j))) offs12 m ;;
      let ptr := wrap_i64 (ptr - MLyra2.BLOCKLENINT64) in
      Ok (m, MLyra2.reduced_blake2b_lyra state, ptr)) (m, s, ptr).
Proof.
  intros Hptr. apply imul_0 in Hptr. apply osim_eq.
  apply (osim_map (fun a b => a = b /\ iadd p a.2 0 = Ok a.2) eq); [|by intros a0 b0 [H _]].
  apply (for_range_sim (fun a b => a = b /\ iadd p a.2 0 = Ok a.2)); [|done].
  intros i [[m1 s1] p1] b _ [<- H]. cbn [snd] in H. rewrite src_body4 by done.
  apply osim_refl. cbv beta iota. intros [[m2 s2] p2] (m3 & _ & E)%obind_Ok_inv. injection E as <- <- <-.
  split; [done|]. cbn [snd]. apply iadd_range, wrap_i64_range.
Qed.
Lemma src_row1 p n rl m s : for_range 0 n (SrcLyra2.lyra2_body5 p n rl) (m, s) = duplex_row1 p rl n m s.
Proof. apply for_range_ext. intros i [m' s'] _. apply src_body5. Qed.
Lemma src_duplex_setup p n row prev rowa rl m s :
  for_range 0 n (SrcLyra2.lyra2_body7 p n row prev rowa rl) (m, s) = duplex_row_setup p rl n row prev rowa m s.
Proof. apply for_range_ext. intros i [m' s'] _. apply src_body7. Qed.
Lemma src_duplex p n row prev rowa rl m s :
  for_range 0 n (SrcLyra2.lyra2_body10 p row prev rowa rl) (m, s) = duplex_row p rl n row prev rowa m s.
Proof. apply for_range_ext. intros i [m' s'] _. apply src_body10. Qed.
#[local] Opaque duplex_row duplex_row_setup SrcLyra2.lyra2_body7 SrcLyra2.lyra2_body10.
Definition setup_tuple (x : list Z * list Z * rows) : Z * Z * Z * Z * Z * Z * list Z * list Z :=
  let '(m, s, v) := x in (r_row v, r_prev v, r_rowa v, r_step v, r_window v, r_gap v, m, s).
Lemma src_setup_rows p R C rl m s :
  for_range 2 (as_i64 R) (SrcLyra2.lyra2_body6 p C rl) (2, 1, 0, 1, 2, 1, m, s) =
  obind (setup_rows p rl R C m s) (fun x => Ok (setup_tuple x)).
Proof.
  apply obind_osim. unfold setup_rows. change (r_row rows_init) with 2.
  apply (for_range_sim (fun a b => a = setup_tuple b)); [|done].
  intros i a [[m1 s1] v] _ ->. destruct v as [row prev rowa step window gap].
  cbn [setup_tuple r_row r_prev r_rowa r_step r_window r_gap]. unfold SrcLyra2.lyra2_body6. rewrite src_duplex_setup.
  eapply osim_bind; [by apply (osim_refl eq)|]. intros ? [m2 s2] _ _ ->.
  unfold rows_next. cbn [r_row r_prev r_rowa r_step r_window r_gap].
  destruct (iadd p rowa step) as [a1| |]; cbn [obind osim]; [|done..].
  destruct (isub p window 1) as [w1| |]; cbn [obind osim]; [|done..].
  destruct (iadd p row 1) as [row'| |]; cbn [obind osim]; [|done..].
  destruct (Z.land a1 w1 =? 0); cbn [obind osim]; [|done].
  destruct (iadd p window gap) as [st| |]; cbn [obind osim]; [|done..].
  destruct (imul p window 2) as [w2| |]; cbn [obind osim]; [|done..].
  destruct (isub p 0 gap) as [g| |]; cbn [obind osim]; done.
Qed.

(** The wandering phase of lyra2. *)
Definition wrel (a : Z * Z * Z * list Z * list Z) (b : list Z * list Z * Z * Z * Z * Z) : Prop :=
  let '(m, s, _, row, prev, rowa) := b in a = (row, prev, rowa, m, s) /\ length s = 16%nat.
Definition wrel8 (a : Z * Z * Z * Z * list Z * list Z) (b : list Z * list Z * Z * Z * Z * Z) : Prop :=
  let '(m, s, _, row, prev, rowa) := b in exists step, a = (row, prev, rowa, step, m, s) /\ length s = 16%nat.
Lemma src_wander_loop p R C step rl a b : wrel a b ->
  osim wrel (loop64 (SrcLyra2.lyra2_body9 p R C step rl) a) (wander_pass p sel_lyra2 rl R C step b).
Proof.
  intros H. unfold wander_pass. apply (loop64_sim wrel wrel); [|done]. clear a b H.
  intros a [[[[[m s] idx] row] prev] rowa] [-> Hs]. unfold SrcLyra2.lyra2_body9. cbn [sel_lyra2].
  destruct (usub p R 1) as [n1| |]; cbn [obind osim]; [|done..].
  rewrite src_duplex.
  eapply osim_bind; [apply (osim_refl (fun a b => a = b /\ length a.2 = 16%nat))|].
  { intros a E. split; [done|]. by eapply duplex_row_len. }
  intros ? [m2 s2] _ _ [-> Hs2]. unfold wander_next.
  destruct (iadd p row step) as [a1| |]; cbn [obind osim]; [|done..].
  destruct (isub p (as_i64 R) 1) as [w1| |]; cbn [obind osim]; [|done..].
  destruct (Z.land a1 w1 =? 0); cbn [osim sum_rel]; done.
Qed.
Lemma src_wander p R C rl t m s prev rowa step : length s = 16%nat ->
  osim wrel8 (for_range 1 (t + 1) (SrcLyra2.lyra2_body8 p R C rl) (0, prev, rowa, step, m, s))
    (wander p sel_lyra2 rl t R C m s prev rowa).
Proof.
  intros Hs. unfold wander. apply (for_range_sim wrel8); [|cbn; eauto]. clear m s prev rowa step Hs.
  intros i a [[[[[m s] idx] row] prev] rowa] _ (step & -> & Hs). unfold SrcLyra2.lyra2_body8, wander_step.
  destruct (isub p (Z.quot (as_i64 R) 2) 1) as [st| |]; cbn [obind osim]; [|done..].
  set (st' := if i mod 2 =? 0 then -1 else st).
  replace (if i mod 2 =? 0 then Ok (-1) else Ok st) with (Ok st') by (subst st'; by destruct (_ =? _)).
  cbn [obind]. eapply osim_map.
  - rewrite <- (obind_ret (wander_pass _ _ _ _ _ _ _)). eapply osim_bind; [by apply src_wander_loop|].
    intros a [[[[[m2 s2] idx2] row2] prev2] rowa2] _ _ [-> Hs2]. cbn [osim].
    instantiate (1 := wrel8). cbn. eauto.
  - auto.
Qed.

(** ** squeeze *)
Lemma vget_aget s i : 0 <= i < vlen s -> vget s i = Ok (aget s (Z.to_nat i)).
Proof. intros H. unfold vget. replace (_ && _) with true; [done|]. symmetry. apply andb_true_iff. rewrite Z.leb_le, Z.ltb_lt. lia. Qed.
Lemma src_squeeze p s k : known_platform p -> length s = 16%nat -> SrcLyra2.squeeze p s k = MLyra2.squeeze p s k.
Proof.
  intros Hp Hs. unfold SrcLyra2.squeeze, MLyra2.squeeze. hb.
  set (n := as_usize p k). assert (Hn : 0 <= n) by (apply Z.mod_pos_bound; destruct Hp as [-> | ->]; done).
  apply obind_cong. intros out Hout. hb. change SrcLyra2.BLOCKLENBYTES with MLyra2.BLOCKLENBYTES.
  apply obind_cong. intros jmax _.
  assert (Hl : vlen out = n).
  { unfold vec_zeroed in Hout. destruct (_ <=? _); [|done]. injection Hout as <-. unfold vlen. rewrite replicate_length. lia. }
  apply osim_eq. eapply osim_bind.
  - apply (for_range_sim (fun a b => a = (b.2, b.1.1, b.1.2) /\ vlen b.1.2 = n /\ length b.2 = 16%nat)); [|done].
    intros j a [[tmp o] st] _ (-> & Ho & Hst). cbn [fst snd] in *. unfold SrcLyra2.squeeze_body1.
    change SrcLyra2.BLOCKLENINT64 with MLyra2.BLOCKLENINT64.
    rewrite (for_range_ext _ _ (SrcLyra2.squeeze_body2 p st)
      (fun i tmp => vec_extend p tmp (to_le_bytes 8 (aget st (Z.to_nat i))))).
    + eapply osim_bind; [by apply (osim_refl eq)|]. intros t ? _ _ <-.
      unfold slice. change (as_usize p k) with n. rewrite !Z.sub_0_r. rewrite (proj2 (Z.leb_le 0 n)) by done. cbn [andb].
      destruct (Z.leb_spec n (vlen t)) as [Ht|]; [|done].
      assert (Hlt : vlen (take (Z.to_nat n) (drop (Z.to_nat 0) t)) = n).
      { unfold vlen in *. change (Z.to_nat 0) with 0%nat. rewrite drop_0, take_length. lia. }
      cbn [obind]. remember (take (Z.to_nat n) (drop (Z.to_nat 0) t)) as t1. cbn [Z.leb Z.compare andb obind]. unfold slice_set. rewrite Hlt, Ho, Z.eqb_refl, Z.leb_refl.
      rewrite (proj2 (Z.leb_le 0 n)) by done. cbn [andb obind]. rewrite src_blake2b. cbn [obind osim fst snd].
      rewrite drop_ge by (unfold vlen in *; lia). rewrite app_nil_r. by rewrite blake_length.
    + intros i t Hi. unfold SrcLyra2.squeeze_body2. change MLyra2.BLOCKLENINT64 with 12 in Hi.
      rewrite known_small by (done || lia). rewrite vget_aget by (unfold vlen; rewrite Hst; lia). cbn [obind].
      apply obind_ret.
  - intros a [[tmp o] st] _ _ (-> & _). cbn. done.
Qed.
