(** * Words in use at every moment of a call of the translated source, however it ends *)
From Verif Require Import Machine MachineFacts MUtils MLyra2 SrcOps SrcFacts SrcLoops SrcTop Held MHeap SpecHeap HeldFacts HeldTop.
From Verif Require SrcUtils SrcLyra2 SrcLyra2mod SrcLyra2Heap SrcLyra2modHeap.
#[local] Open Scope Z_scope.
#[local] Opaque MLyra2.round_lyra MLyra2.reduced_blake2b_lyra MLyra2.blake2b_lyra
  SrcLyra2.reduced_blake2b_lyra SrcLyra2.blake2b_lyra.

(** ** Bounds on every prefix of a log *)
Definition within (u n : Z) (log : list hevent) : Prop := forall l1 l2, log = l1 ++ l2 -> 0 <= in_use u l1 <= n.
Lemma in_use_app' u a b : in_use u (a ++ b) = in_use (in_use u a) b.
Proof. apply foldl_app. Qed.
Lemma within_app u n a b : within u n a -> within (in_use u a) n b -> within u n (a ++ b).
Proof.
  intros Ha Hb l1 l2 E. apply app_eq_inv in E as [(r & -> & ->)|(r & -> & ->)].
  - by eapply Ha.
  - rewrite in_use_app'. by eapply Hb.
Qed.
Lemma within_nil u n : 0 <= u <= n -> within u n [].
Proof. intros H l1 l2 E. symmetry in E. apply app_eq_nil in E as [-> _]. done. Qed.
Lemma within_cons u n e b : 0 <= u <= n -> within (in_use u [e]) n b -> within u n (e :: b).
Proof. intros Hu Hb [|e' l1] l2 E; [done|]. injection E as <- ->. exact (Hb l1 l2 eq_refl). Qed.

(** [x], started with [u] words in use, stays between 0 and [n]; if it ends, [u'] are in use and [P] holds. *)
Definition safe {A} (n u u' : Z) (P : A -> Prop) (x : held A) : Prop :=
  within u n x.2 /\ forall a, x.1 = Ok a -> in_use u x.2 = u' /\ P a.
Lemma safe_bind {A B} n u u1 u2 (P : A -> Prop) (Q : B -> Prop) x f :
  safe n u u1 P x -> (forall a, P a -> safe n u1 u2 Q (f a)) -> safe n u u2 Q (hbind x f).
Proof.
  intros [Hw Hx] Hf. destruct x as [[a| |] l]; cbn [hbind fst snd] in *; [|by split..].
  destruct (Hx a eq_refl) as [Eu Pa]. destruct (Hf a Pa) as [Hw2 Hy]. destruct (f a) as [y l']; cbn [fst snd] in *.
  split; cbn [fst snd].
  - apply within_app; [done|]. by rewrite Eu.
  - intros b E. rewrite in_use_app', Eu. by apply Hy.
Qed.
Lemma safe_quiet {A} n u (P : A -> Prop) e : 0 <= u <= n -> post P e -> safe n u u P (hquiet e).
Proof. intros Hu H. split; cbn; [by apply within_nil|]. intros a E. split; [done|by apply H]. Qed.
Lemma safe_ret {A} n u (P : A -> Prop) a : 0 <= u <= n -> P a -> safe n u u P (hret a).
Proof. intros Hu H. split; cbn; [by apply within_nil|]. by intros b [= <-]. Qed.
Lemma safe_event {A} n u (P : A -> Prop) a e : 0 <= u <= n -> 0 <= in_use u [e] <= n -> P a ->
  safe n u (in_use u [e]) P (Ok a, [e]).
Proof. intros Hu He H. split; cbn [fst snd]; [apply within_cons, within_nil; done|]. by intros b [= <-]. Qed.
Lemma safe_loop_pow {S T} n u k (P : S + T -> Prop) body s : 0 <= u <= n ->
  (forall s, P (inl s) -> safe n u u P (body s)) -> P (inl s) -> safe n u u P (hloop_pow k body s).
Proof.
  intros Hu Hb. revert s. induction k as [|k IH]; intros s Hs; cbn [hloop_pow]; [by apply Hb|].
  eapply safe_bind; [by apply IH|]. intros [s'|t] H; [by apply IH|]. by apply safe_ret.
Qed.
Lemma safe_for {S} n u lo hi (P : S -> Prop) body s : 0 <= u <= n ->
  (forall i s, P s -> safe n u u P (body i s)) -> P s -> safe n u u P (hfor lo hi body s).
Proof.
  intros Hu Hb Hs. unfold hfor, hloop.
  eapply (safe_bind _ _ _ _ (fun x : Z * S + S => match x with inl s => P s.2 | inr t => P t end)).
  - apply safe_loop_pow; [done| |done]. intros [i a] Ha. cbn [snd] in Ha. destruct (i <? hi).
    + eapply safe_bind; [by apply Hb|]. intros b Hb'. by apply safe_ret.
    + by apply safe_ret.
  - intros [x|t] H; [by apply safe_quiet|by apply safe_ret].
Qed.

(** ** The matrix keeps its length *)
Lemma post_loop64 {S} (P : S -> Prop) (body : S -> outcome (S + S)) s :
  (forall s, P s -> post (fun x => match x with inl a | inr a => P a end) (body s)) -> P s -> post P (loop64 body s).
Proof.
  intros Hb Hs. eapply (osim_post (fun a b => a = b /\ P a) P _ (loop64 body s)); [|by intros a b []].
  apply (loop64_sim (fun a b => a = b /\ P a) (fun a b => a = b /\ P a)); [|done].
  intros a ? [<- Ha]. destruct (body a) as [[c|c]| |] eqn:E; cbn; [split; [done|exact (Hb a Ha _ E)]|split; [done|exact (Hb a Ha _ E)]|done..].
Qed.
Lemma post_vset n m i x : vlen m = n -> post (fun m' => vlen m' = n) (vset m i x).
Proof. intros <- m' E. by eapply vset_vlen. Qed.
Lemma post_vset_bind {B} (Q : B -> Prop) n m i x f : vlen m = n -> (forall m', vlen m' = n -> post Q (f m')) -> post Q (obind (vset m i x) f).
Proof. intros Hm Hf. eapply post_bind; [by apply (post_vset n)|]. exact Hf. Qed.
Lemma xor_rotW_post n p rl i rowa st m : vlen m = n -> post (fun m' => vlen m' = n) (xor_rotW p rl i rowa st m).
Proof.
  intros Hm. unfold xor_rotW. apply (post_foldM (fun m => vlen m = n)); [|done]. clear m Hm. intros m [a b] Hm.
  any. any. by apply post_vset.
Qed.
Lemma body1_vlen n p d at_ j m : vlen m = n -> post (fun m => vlen m = n) (SrcLyra2.lyra2_body1 p d at_ j m).
Proof. intros Hm. rewrite src_body1. do 5 any. by apply post_vset. Qed.
Lemma body2_vlen n p d at_ j m : vlen m = n -> post (fun m => vlen m = n) (SrcLyra2.lyra2_body2 p d at_ j m).
Proof. intros Hm. change (SrcLyra2.lyra2_body2 p d at_ j m) with (SrcLyra2.lyra2_body1 p d at_ j m). by apply body1_vlen. Qed.
Lemma body4_vlen n p i x : vlen x.1.1 = n -> post (fun x => vlen x.1.1 = n) (SrcLyra2.lyra2_body4 p i x).
Proof.
  destruct x as [[m st] ptr]. cbn [fst]. intros Hm. unfold SrcLyra2.lyra2_body4.
  apply (post_vset_bind _ n); [done|]. clear m Hm. intros m Hm.
  do 11 (any; apply (post_vset_bind _ n); [done|]; clear m Hm; intros m Hm).
  any. any. by apply post_Ok.
Qed.
Lemma body5_vlen n p C rl i x : vlen x.1 = n -> post (fun x => vlen x.1 = n) (SrcLyra2.lyra2_body5 p C rl i x).
Proof.
  destruct x as [m st]. cbn [fst]. intros Hm. rewrite src_body5. any.
  eapply (post_bind (fun m => vlen m = n)).
  - apply (post_foldM (fun m => vlen m = n)); [|done]. clear m Hm. intros m j Hm. any. any. any. by apply post_vset.
  - clear m Hm. intros m Hm. by apply post_Ok.
Qed.
Lemma body7_vlen n p C row prev rowa rl i x : vlen x.1 = n -> post (fun x => vlen x.1 = n) (SrcLyra2.lyra2_body7 p C row prev rowa rl i x).
Proof.
  destruct x as [m st]. cbn [fst]. intros Hm. rewrite src_body7. any.
  eapply (post_bind (fun m => vlen m = n)).
  - apply (post_foldM (fun m => vlen m = n)); [|done]. clear m Hm. intros m j Hm. any. any. any. by apply post_vset.
  - clear m Hm. intros m Hm. eapply post_bind; [by apply (xor_rotW_post n)|]. clear m Hm. intros m Hm. by apply post_Ok.
Qed.
Lemma body10_vlen n p row prev rowa rl i x : vlen x.1 = n -> post (fun x => vlen x.1 = n) (SrcLyra2.lyra2_body10 p row prev rowa rl i x).
Proof.
  destruct x as [m st]. cbn [fst]. intros Hm. rewrite src_body10. any.
  eapply (post_bind (fun m => vlen m = n)).
  - apply (post_foldM (fun m => vlen m = n)); [|done]. clear m Hm. intros m j Hm. any. any. by apply post_vset.
  - clear m Hm. intros m Hm. eapply post_bind; [by apply (xor_rotW_post n)|]. clear m Hm. intros m Hm. by apply post_Ok.
Qed.
#[local] Opaque SrcLyra2.lyra2_body1 SrcLyra2.lyra2_body2 SrcLyra2.lyra2_body4 SrcLyra2.lyra2_body5 SrcLyra2.lyra2_body7 SrcLyra2.lyra2_body10.
Lemma body6_vlen n p C rl i x : vlen x.1.2 = n -> post (fun x => vlen x.1.2 = n) (SrcLyra2.lyra2_body6 p C rl i x).
Proof.
  destruct x as [[[[[[[row prev] rowa] step] window] gap] m] st]. cbn [fst snd]. intros Hm. unfold SrcLyra2.lyra2_body6.
  eapply (post_bind (fun x => vlen x.1 = n)); [apply post_for_range; [by intros; apply body7_vlen|done]|].
  clear m Hm. intros [m st'] Hm. cbn [fst] in Hm. do 5 any.
  eapply (post_bind (fun _ => True)); [by apply post_any|]. intros [[? ?] ?] _. by apply post_Ok.
Qed.
Lemma body9_vlen n p R C step rl x : vlen x.1.2 = n ->
  post (fun x => match x with inl a | inr a => vlen a.1.2 = n end) (SrcLyra2.lyra2_body9 p R C step rl x).
Proof.
  destruct x as [[[[row prev] rowa] m] st]. cbn [fst snd]. intros Hm. unfold SrcLyra2.lyra2_body9. any. any.
  eapply (post_bind (fun x => vlen x.1 = n)); [apply post_for_range; [by intros; apply body10_vlen|done]|].
  clear m Hm. intros [m st'] Hm. cbn [fst] in Hm. do 4 any. destruct (_ =? 0); by apply post_Ok.
Qed.
Lemma body8_vlen n p R C rl i x : vlen x.1.2 = n -> post (fun x => vlen x.1.2 = n) (SrcLyra2.lyra2_body8 p R C rl i x).
Proof.
  destruct x as [[[[[row prev] rowa] step] m] st]. cbn [fst snd]. intros Hm. unfold SrcLyra2.lyra2_body8. any. any.
  eapply (post_bind (fun x => vlen x.1.2 = n)); [apply post_loop64; [by intros; apply body9_vlen|done]|].
  clear m Hm. intros [[[[? ?] ?] m] ?] Hm. cbn [fst snd] in Hm. by apply post_Ok.
Qed.
Lemma mod_body9_vlen n p R C step rl x : vlen x.1.1.2 = n ->
  post (fun x => match x with inl a | inr a => vlen a.1.1.2 = n end) (SrcLyra2mod.lyra2mod_body9 p R C step rl x).
Proof.
  destruct x as [[[[[row prev] rowa] m] st] idx]. cbn [fst snd]. intros Hm. unfold SrcLyra2mod.lyra2mod_body9.
  rewrite mod_body10. do 4 any.
  eapply (post_bind (fun x => vlen x.1 = n)); [apply post_for_range; [by intros; apply body10_vlen|done]|].
  clear m Hm. intros [m st'] Hm. cbn [fst] in Hm. do 4 any. destruct (_ =? 0); by apply post_Ok.
Qed.
Lemma mod_body8_vlen n p R C rl i x : vlen x.1.1.2 = n -> post (fun x => vlen x.1.1.2 = n) (SrcLyra2mod.lyra2mod_body8 p R C rl i x).
Proof.
  destruct x as [[[[[[row prev] rowa] step] m] st] idx]. cbn [fst snd]. intros Hm. unfold SrcLyra2mod.lyra2mod_body8. any. any.
  eapply (post_bind (fun x => vlen x.1.1.2 = n)); [apply post_loop64; [by intros; apply mod_body9_vlen|done]|].
  clear m Hm. intros [[[[[? ?] ?] m] ?] ?] Hm. cbn [fst snd] in Hm. by apply post_Ok.
Qed.

(** ** The functions with events *)
Lemma safe_copy_absorb {B} n u u' p s w (Q : B -> Prop) f : 0 <= u -> u + vlen w <= n ->
  (forall r, safe n u u' Q (f r)) ->
  safe n u u' Q (hbind (hcopy w) (fun t => hbind (SrcLyra2Heap.absorb_block_held p s t) f)).
Proof.
  intros Hu Hn Hf. assert (Hw : 0 <= vlen w) by (unfold vlen; lia).
  eapply (safe_bind _ _ (u + vlen w) _ (fun t => t = w)).
  { apply (safe_event n u (fun t => t = w) w (HAlloc (vlen w))); cbn [in_use foldl]; [lia..|done]. }
  intros ? ->. rewrite held_absorb. eapply (safe_bind _ _ u _ (fun _ => True)); [|intros r _; apply Hf].
  eapply (safe_bind _ _ (u + vlen w) _ (fun _ => True)); [apply safe_quiet; [lia|by apply post_any]|].
  intros r _. replace u with (in_use (u + vlen w) [HFree w]) at 2 by (cbn [in_use foldl]; unfold vlen; lia).
  apply safe_event; [lia| |done]. cbn [in_use foldl]. unfold vlen in *. lia.
Qed.
Lemma safe_copy_absorb_safe {B} n u u' p s w (Q : B -> Prop) f : 0 <= u -> u + vlen w <= n ->
  (forall r, safe n u u' Q (f r)) ->
  safe n u u' Q (hbind (hcopy w) (fun t => hbind (SrcLyra2Heap.absorb_block_blake2_safe_held p s t) f)).
Proof.
  intros Hu Hn Hf. assert (Hw : 0 <= vlen w) by (unfold vlen; lia).
  eapply (safe_bind _ _ (u + vlen w) _ (fun t => t = w)).
  { apply (safe_event n u (fun t => t = w) w (HAlloc (vlen w))); cbn [in_use foldl]; [lia..|done]. }
  intros ? ->. rewrite held_absorb_safe. eapply (safe_bind _ _ u _ (fun _ => True)); [|intros r _; apply Hf].
  eapply (safe_bind _ _ (u + vlen w) _ (fun _ => True)); [apply safe_quiet; [lia|by apply post_any]|].
  intros r _. replace u with (in_use (u + vlen w) [HFree w]) at 2 by (cbn [in_use foldl]; unfold vlen; lia).
  apply safe_event; [lia| |done]. cbn [in_use foldl]. unfold vlen in *. lia.
Qed.
Lemma split_right_vlen n m i : vlen m = n -> post (fun r => vlen r <= n) (split_right m i).
Proof.
  intros <- r. unfold split_right. destruct (_ && _); [|done]. intros [= <-]. unfold vlen. rewrite drop_length. lia.
Qed.
Lemma safe_body3 n p m i x : 0 <= n -> vlen m = n ->
  safe (2 * n) n n (fun _ => True) (SrcLyra2Heap.lyra2_body3_held p m i x).
Proof.
  intros Hn Hm. destruct x as [st w]. unfold SrcLyra2Heap.lyra2_body3_held.
  eapply safe_bind; [apply safe_quiet; [lia|by apply (split_right_vlen n)]|]. intros r Hr. cbv beta in Hr.
  apply safe_copy_absorb_safe; [lia..|]. intros st'.
  eapply (safe_bind _ _ _ _ (fun _ => True)); [apply safe_quiet; [lia|by apply post_any]|]. intros w' _.
  apply safe_ret; [lia|done].
Qed.
Lemma safe_free n u u' v : 0 <= u <= n -> u' = u - vlen v -> 0 <= u' -> safe n u u' (fun _ => True) (hdrop v).
Proof.
  intros Hu -> Hv. apply (safe_event n u (fun _ => True) tt (HFree v)); cbn [in_use foldl]; unfold vlen in *; [lia..|done].
Qed.
Lemma safe_free_bytes n u v : 0 <= u <= n -> safe n u u (fun _ => True) (hdrop_bytes v).
Proof. intros Hu. apply (safe_event n u (fun _ => True) tt (HFreeBytes v)); cbn [in_use foldl]; done. Qed.
Lemma safe_squeeze n u p s k : 0 <= u <= n -> safe n u u (fun _ => True) (SrcLyra2Heap.squeeze_held p s k).
Proof.
  intros Hu. unfold SrcLyra2Heap.squeeze_held.
  do 4 (eapply (safe_bind _ _ _ _ (fun _ => True)); [apply safe_quiet; [done|by apply post_any]|]; intros ? _).
  eapply (safe_bind _ _ _ _ (fun _ => True)); [apply safe_quiet; [done|by apply post_any]|]. intros [[? ?] ?] _.
  eapply safe_bind; [by apply safe_free_bytes|]. intros _ _. by apply safe_ret.
Qed.

(** ** lyra2 and lyra2mod *)
Lemma imul_cong p a b c : imul p a b = Ok c -> c mod 2 ^ 64 = (a * b) mod 2 ^ 64.
Proof.
  unfold imul, chk_i64. destruct (in_i64 _); [by intros [= <-]|]. destruct (overflow_checks p); [done|]. intros [= <-].
  apply wrap_i64_mod.
Qed.
(** The number of words that is asked for. *)
Lemma matrix_words p R C rl tot : known_platform p ->
  imul p MLyra2.BLOCKLENINT64 (as_i64 C) = Ok rl -> imul p (as_i64 R) rl = Ok tot ->
  as_usize p tot = (12 * R * C) mod 2 ^ usize_bits p.
Proof.
  intros Hp E1%imul_cong E2%imul_cong. change MLyra2.BLOCKLENINT64 with 12 in E1.
  assert (E : tot mod 2 ^ 64 = (12 * R * C) mod 2 ^ 64).
  { rewrite E2. rewrite Z.mul_mod, E1 by lia. unfold as_i64. rewrite wrap_i64_mod.
    rewrite (Z.mul_mod 12) by lia. rewrite wrap_i64_mod, <- (Z.mul_mod 12) by lia. rewrite <- Z.mul_mod by lia. f_equal. lia. }
  unfold as_usize. destruct Hp as [Hb|Hb]; rewrite Hb; [|exact E].
  assert (Hd : forall x, x mod 2 ^ 32 = (x mod 2 ^ 64) mod 2 ^ 32).
  { intros x. rewrite <- Znumtheory.Zmod_div_mod; [done|lia..|]. by exists (2 ^ 32). }
  by rewrite Hd, E, <- Hd.
Qed.
(** A call whose log is empty, or starts with the matrix of [n] words and goes on safely. *)
Definition starts {A} (n max t R : Z) (x : held A) : Prop :=
  x.2 = [] /\ (forall a, x.1 <> Ok a) \/
  1 <= t /\ 3 <= R /\ 8 * n <= max /\ exists rest, x.2 = HAlloc n :: rest /\ safe (2 * n) n 0 (fun _ => True) (x.1, rest).
Lemma starts_quiet {A B} n max t R (e : outcome A) (f : A -> held B) :
  (forall a, e = Ok a -> starts n max t R (f a)) -> starts n max t R (hbind (hquiet e) f).
Proof.
  intros H. destruct e as [a| |].
  - rewrite hquiet_Ok. by apply H.
  - left. done.
  - left. done.
Qed.
Lemma starts_zeroed {B} n p t R (f : list Z -> held B) : 1 <= t -> 3 <= R -> 0 <= n ->
  (forall m, vec_zeroed p 8 n = Ok m -> safe (2 * n) n 0 (fun _ => True) (f m)) ->
  starts n (isize_max p) t R (hbind (hzeroed p n) f).
Proof.
  intros Ht HR Hn H. unfold hzeroed. destruct (vec_zeroed p 8 n) as [m| |] eqn:E; [|by left..].
  right. split; [done|]. split; [done|]. split.
  { unfold vec_zeroed in E. destruct (Z.leb_spec (8 * n) (isize_max p)); [done|].
    destruct (Z.leb_spec (n * 8) (isize_max p)); [lia|]. congruence. }
  specialize (H m eq_refl). unfold hbind. destruct (f m) as [y l]. exists l. split; [done|exact H].
Qed.
Ltac sq := eapply (safe_bind _ _ _ _ (fun _ => True)); [apply safe_quiet; [lia|by apply post_any]|]; intros ? _.
Ltac sm n := eapply (safe_bind _ _ _ _ (fun m => vlen m = n)); [apply safe_quiet; [lia|]|].

Lemma starts_lyra2 p k pwd salt t R C : known_platform p ->
  starts ((12 * R * C) mod 2 ^ usize_bits p) (isize_max p) t R (SrcLyra2Heap.lyra2_held p k pwd salt t R C).
Proof.
  intros Hp. unfold SrcLyra2Heap.lyra2_held.
  apply starts_quiet. intros [] Ht. destruct (Z.ltb_spec t 1) as [|Ht1]; [done|]. clear Ht.
  apply starts_quiet. intros [] HR. destruct (Z.ltb_spec R 3) as [|HR3]; [done|]. clear HR.
  do 8 (apply starts_quiet; intros ? [= <-]).
  apply starts_quiet. intros rl Erl. apply starts_quiet. intros tot Etot.
  change SrcLyra2.BLOCKLENINT64 with MLyra2.BLOCKLENINT64 in Erl.
  rewrite (matrix_words p R C rl tot Hp Erl Etot). pose proof (as_usize_nonneg p tot Hp) as Hn.
  rewrite (matrix_words p R C rl tot Hp Erl Etot) in Hn.
  remember ((12 * R * C) mod 2 ^ usize_bits p) as n eqn:En. clear En.
  apply starts_zeroed; [done..|]. intros m Em. rewrite (held_resize_same _ _ _ Hn Em). pose proof (zeroed_vlen _ _ _ Hn Em) as Hm. clear Em.
  rewrite hquiet_Ok. do 4 sq.
  sm n; [apply post_for_range; [by intros; apply body1_vlen|done]|]. clear m Hm. intros m Hm. sq.
  sm n; [apply post_for_range; [by intros; apply body2_vlen|done]|]. clear m Hm. intros m Hm. sq.
  do 6 (sm n; [by apply post_vset|]; clear m Hm; intros m Hm; sq).
  sm n; [by apply post_vset|]. clear m Hm. intros m Hm. do 4 sq.
  sm n; [by apply post_vset|]. clear m Hm. intros m Hm. sq. sq.
  eapply (safe_bind _ _ n _ (fun _ => True)).
  { apply safe_for; [lia| |done]. intros. by apply safe_body3. }
  intros [st ptr] _. sq. sq.
  eapply (safe_bind _ _ _ _ (fun x => vlen x.1.1 = n)).
  { apply safe_quiet; [lia|]. apply post_for_range; [by intros; apply body4_vlen|done]. }
  clear m Hm. intros [[m ?] ?] Hm. cbn [fst] in Hm.
  eapply (safe_bind _ _ _ _ (fun x => vlen x.1 = n)).
  { apply safe_quiet; [lia|]. apply post_for_range; [by intros; apply body5_vlen|done]. }
  clear m Hm. intros [m ?] Hm. cbn [fst] in Hm. sq.
  eapply (safe_bind _ _ _ _ (fun x => vlen x.1.2 = n)).
  { apply safe_quiet; [lia|]. apply post_for_range; [by intros; apply body6_vlen|done]. }
  clear m Hm. intros [[[[[[[? ?] ?] ?] ?] ?] m] ?] Hm. cbn [fst snd] in Hm. sq.
  eapply (safe_bind _ _ _ _ (fun x => vlen x.1.2 = n)).
  { apply safe_quiet; [lia|]. apply post_for_range; [by intros; apply body8_vlen|done]. }
  clear m Hm. intros [[[[[? ?] ?] ?] m] ?] Hm. cbn [fst snd] in Hm. sq.
  eapply safe_bind; [apply safe_quiet; [lia|by apply (split_right_vlen n)]|]. intros r Hr. cbv beta in Hr.
  apply safe_copy_absorb; [lia..|]. intros st'.
  eapply safe_bind; [apply safe_squeeze; lia|]. intros out _.
  eapply safe_bind; [apply (safe_free _ _ 0); lia|]. intros _ _.
  eapply safe_bind; [apply safe_free_bytes; lia|]. intros _ _.
  eapply safe_bind; [apply safe_free_bytes; lia|]. intros _ _.
  apply safe_ret; [lia|done].
Qed.

Lemma starts_lyra2mod p k pwd salt t R C : known_platform p ->
  starts ((12 * R * C) mod 2 ^ usize_bits p) (isize_max p) t R (SrcLyra2modHeap.lyra2mod_held p k pwd salt t R C).
Proof.
  intros Hp. unfold SrcLyra2modHeap.lyra2mod_held.
  rewrite mod_body1, mod_body2, mod_body3_held, mod_body4, mod_body5, mod_body6, mod_absorb_held, mod_squeeze_held.
  apply starts_quiet. intros [] Ht. destruct (Z.ltb_spec t 1) as [|Ht1]; [done|]. clear Ht.
  apply starts_quiet. intros [] HR. destruct (Z.ltb_spec R 3) as [|HR3]; [done|]. clear HR.
  do 8 (apply starts_quiet; intros ? [= <-]).
  apply starts_quiet. intros rl Erl. apply starts_quiet. intros tot Etot.
  change SrcLyra2mod.BLOCKLENINT64 with MLyra2.BLOCKLENINT64 in Erl.
  rewrite (matrix_words p R C rl tot Hp Erl Etot). pose proof (as_usize_nonneg p tot Hp) as Hn.
  rewrite (matrix_words p R C rl tot Hp Erl Etot) in Hn.
  remember ((12 * R * C) mod 2 ^ usize_bits p) as n eqn:En. clear En.
  apply starts_zeroed; [done..|]. intros m Em. rewrite (held_resize_same _ _ _ Hn Em). pose proof (zeroed_vlen _ _ _ Hn Em) as Hm. clear Em.
  rewrite hquiet_Ok. do 4 sq.
  sm n; [apply post_for_range; [by intros; apply body1_vlen|done]|]. clear m Hm. intros m Hm. sq.
  sm n; [apply post_for_range; [by intros; apply body2_vlen|done]|]. clear m Hm. intros m Hm. sq.
  do 6 (sm n; [by apply post_vset|]; clear m Hm; intros m Hm; sq).
  sm n; [by apply post_vset|]. clear m Hm. intros m Hm. do 4 sq.
  sm n; [by apply post_vset|]. clear m Hm. intros m Hm. sq. sq.
  eapply (safe_bind _ _ n _ (fun _ => True)).
  { apply safe_for; [lia| |done]. intros. by apply safe_body3. }
  intros [st ptr] _. sq. sq.
  eapply (safe_bind _ _ _ _ (fun x => vlen x.1.1 = n)).
  { apply safe_quiet; [lia|]. apply post_for_range; [by intros; apply body4_vlen|done]. }
  clear m Hm. intros [[m ?] ?] Hm. cbn [fst] in Hm.
  eapply (safe_bind _ _ _ _ (fun x => vlen x.1 = n)).
  { apply safe_quiet; [lia|]. apply post_for_range; [by intros; apply body5_vlen|done]. }
  clear m Hm. intros [m ?] Hm. cbn [fst] in Hm. sq.
  eapply (safe_bind _ _ _ _ (fun x => vlen x.1.2 = n)).
  { apply safe_quiet; [lia|]. apply post_for_range; [by intros; apply body6_vlen|done]. }
  clear m Hm. intros [[[[[[[? ?] ?] ?] ?] ?] m] ?] Hm. cbn [fst snd] in Hm. sq. sq.
  eapply (safe_bind _ _ _ _ (fun x => vlen x.1.1.2 = n)).
  { apply safe_quiet; [lia|]. apply post_for_range; [by intros; apply mod_body8_vlen|done]. }
  clear m Hm. intros [[[[[[? ?] ?] ?] m] ?] ?] Hm. cbn [fst snd] in Hm. sq.
  eapply safe_bind; [apply safe_quiet; [lia|by apply (split_right_vlen n)]|]. intros r Hr. cbv beta in Hr.
  apply safe_copy_absorb; [lia..|]. intros st'.
  eapply safe_bind; [apply safe_squeeze; lia|]. intros out _.
  eapply safe_bind; [apply (safe_free _ _ 0); lia|]. intros _ _.
  eapply safe_bind; [apply safe_free_bytes; lia|]. intros _ _.
  eapply safe_bind; [apply safe_free_bytes; lia|]. intros _ _.
  apply safe_ret; [lia|done].
Qed.
