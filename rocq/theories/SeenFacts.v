(** * Observations: laws, the accesses among them, and runs on two inputs *)
From Verif Require Import Machine MachineFacts SrcOps SrcFacts MAccess AccessFacts Kept MKept KeptFacts Seen SpecSeen.
#[local] Open Scope Z_scope.

Lemma sret_l {A B} (a : A) (f : A -> seen B) : sbind (sret a) f = f a.
Proof. unfold sbind, sret. cbn [app]. by destruct (f a). Qed.
Lemma sbind_log {A B} (x : seen A) (f : A -> seen B) : exists r, (sbind x f).2 = x.2 ++ r.
Proof.
  destruct x as [[a| |] l]; cbn.
  - destruct (f a) as [y l']. by exists l'.
  - exists []. by rewrite app_nil_r.
  - exists []. by rewrite app_nil_r.
Qed.
Lemma sfst_bind {A B} (x : seen A) (f : A -> seen B) : (sbind x f).1 = obind x.1 (fun a => (f a).1).
Proof. destruct x as [[a| |] l]; [|done..]. cbn. by destruct (f a). Qed.
Lemma sfst_if {A} b (x y : seen A) : (sif b x y).1 = if b then x.1 else y.1.
Proof. unfold sif. rewrite sfst_bind. by destruct b. Qed.
Lemma sfst_loop_pow {S T} n (body : S -> seen (S + T)) (b : S -> outcome (S + T)) s :
  (forall s, (body s).1 = b s) -> (sloop_pow n body s).1 = loop_pow n b s.
Proof.
  intros H. revert s. induction n as [|n IH]; intros s; cbn [sloop_pow loop_pow]; [done|].
  rewrite sfst_bind, IH. destruct (loop_pow n b s) as [[s'|t]| |]; cbn; auto.
Qed.
#[local] Transparent loop64.
Lemma sfst_loop {S T} (body : S -> seen (S + T)) (b : S -> outcome (S + T)) s :
  (forall s, (body s).1 = b s) -> (sloop body s).1 = loop64 b s.
Proof.
  intros H. unfold sloop, loop64. rewrite sfst_bind, (sfst_loop_pow 64 body b s H).
  destruct (loop_pow 64 b s) as [[s'|t]| |]; done.
Qed.
#[local] Opaque loop64.
Lemma sfst_for {S} lo hi (body : Z -> S -> seen S) (b : Z -> S -> outcome S) s :
  (forall i s, (body i s).1 = b i s) -> (sfor lo hi body s).1 = for_range lo hi b s.
Proof.
  intros H. unfold sfor, for_range. rewrite sfst_bind. cbn [fst sdo obind]. apply sfst_loop.
  intros [i a]. destruct (i <? hi); [|done]. rewrite sfst_bind, H. done.
Qed.

(** ** The accesses among the observations *)
Definition strip {A} (x : seen A) : kept A := (x.1, mem_events x.2).
Lemma mem_app l l' : mem_events (l ++ l') = mem_events l ++ mem_events l'.
Proof. apply omap_app. Qed.
Lemma strip_bind {A B} (x : seen A) (f : A -> seen B) : strip (sbind x f) = kbind (strip x) (fun a => strip (f a)).
Proof.
  destruct x as [[a| |] l]; [|done..]. unfold strip, sbind, kbind. cbn [fst snd].
  destruct (f a) as [y l']. cbn [fst snd]. by rewrite mem_app.
Qed.
Lemma strip_ret {A} (a : A) : strip (sret a) = kret a.
Proof. done. Qed.
Lemma strip_quiet {A} (x : outcome A) : strip (squiet x) = kquiet x.
Proof. done. Qed.
Lemma strip_lift {A} (x : kept A) : strip (slift x) = x.
Proof.
  destruct x as [x l]. unfold strip, slift, sdo. cbn [fst snd]. f_equal. unfold mem_events.
  induction l as [|a l IH]; [done|]. cbn. by f_equal.
Qed.
Lemma strip_if {A} b (x y : seen A) : strip (sif b x y) = if b then strip x else strip y.
Proof. unfold sif. rewrite strip_bind. change (strip (sdo [OIf b] (Ok tt))) with (kret tt). rewrite kret_l. by destruct b. Qed.
Lemma kbind_ext {A B} (x y : kept A) (f g : A -> kept B) : x = y -> (forall a, f a = g a) -> kbind x f = kbind y g.
Proof. intros -> H. apply kcong. auto. Qed.
Lemma strip_loop_pow {S T} n (body : S -> seen (S + T)) (b : S -> kept (S + T)) s :
  (forall s, strip (body s) = b s) -> strip (sloop_pow n body s) = kloop_pow n b s.
Proof.
  intros H. revert s. induction n as [|n IH]; intros s; cbn [sloop_pow kloop_pow]; [done|].
  rewrite strip_bind. apply kbind_ext; [apply IH|]. intros [s'|t]; [apply IH|done].
Qed.
Lemma strip_loop {S T} (body : S -> seen (S + T)) (b : S -> kept (S + T)) s :
  (forall s, strip (body s) = b s) -> strip (sloop body s) = kloop b s.
Proof.
  intros H. unfold sloop, kloop. rewrite strip_bind. apply kbind_ext; [by apply strip_loop_pow|]. by intros [s'|t].
Qed.
Lemma strip_for {S} lo hi (body : Z -> S -> seen S) (b : Z -> S -> kept S) s :
  (forall i s, strip (body i s) = b i s) -> strip (sfor lo hi body s) = kfor lo hi b s.
Proof.
  intros H. unfold sfor, kfor. rewrite strip_bind. change (strip (sdo [OLoop lo hi] (Ok tt))) with (kret tt). rewrite kret_l.
  apply strip_loop. intros [i a]. destruct (i <? hi); [|done]. rewrite strip_bind. apply kbind_ext; [apply H|done].
Qed.
Lemma kloop_pow_quiet {S T} n (body : S -> kept (S + T)) (b : S -> outcome (S + T)) s :
  (forall s, body s = kquiet (b s)) -> kloop_pow n body s = kquiet (loop_pow n b s).
Proof.
  intros H. revert s. induction n as [|n IH]; intros s; cbn [kloop_pow loop_pow]; [done|].
  rewrite IH. destruct (loop_pow n b s) as [[s'|t]| |]; [|done..]. rewrite kquiet_Ok. apply IH.
Qed.
#[local] Transparent loop64.
Lemma kfor_quiet {S} lo hi (body : Z -> S -> kept S) (b : Z -> S -> outcome S) s :
  (forall i s, body i s = kquiet (b i s)) -> kfor lo hi body s = kquiet (for_range lo hi b s).
Proof.
  intros H. unfold kfor, for_range, kloop, loop64.
  rewrite (kloop_pow_quiet _ _ (fun '(i, s) => if i <? hi then s' <-- b i s ;; Ok (inl (i + 1, s')) else Ok (inr s))).
  - destruct (loop_pow 64 _ (lo, s)) as [[s'|t]| |]; done.
  - intros [i a]. destruct (i <? hi); [|done]. rewrite H. by destruct (b i a).
Qed.
#[local] Opaque loop64.

(** ** Two runs *)
Definition srel {A B} (ch : obs -> obs -> Prop) (P : A -> B -> Prop) (x : seen A) (y : seen B) : Prop :=
  (x.2 = y.2 /\ osim P x.1 y.1) \/ parts_at ch x.2 y.2.
Lemma parts_cons ch c l l' : parts_at ch l l' -> parts_at ch (c ++ l) (c ++ l').
Proof. intros (d & e & e' & r & r' & -> & -> & H). exists (c ++ d), e, e', r, r'. by rewrite <- !app_assoc. Qed.
Lemma parts_app ch l l' u u' : parts_at ch l l' -> parts_at ch (l ++ u) (l' ++ u').
Proof. intros (d & e & e' & r & r' & -> & -> & H). exists d, e, e', (r ++ u), (r' ++ u'). by rewrite <- !app_assoc. Qed.
Lemma srel_bind {A B C D} ch (P : A -> B -> Prop) (Q : C -> D -> Prop) x y f h :
  srel ch P x y -> (forall a b, P a b -> srel ch Q (f a) (h b)) -> srel ch Q (sbind x f) (sbind y h).
Proof.
  intros [[Hl Ho]|H] Hf.
  - destruct x as [[a| |] l], y as [[b| |] l']; cbn in Hl, Ho; try done; subst l'; [|by left..].
    specialize (Hf a b Ho). unfold sbind. destruct (f a) as [u lu], (h b) as [v lv]. unfold srel in *. cbn [fst snd] in *.
    destruct Hf as [[-> Hf]|Hf]; [by left|right]. by apply parts_cons.
  - right. destruct (sbind_log x f) as [r ->], (sbind_log y h) as [r' ->]. by apply parts_app.
Qed.
Lemma srel_ret {A B} ch (P : A -> B -> Prop) a b : P a b -> srel ch P (sret a) (sret b).
Proof. left. done. Qed.
Lemma srel_do {A B} ch (P : A -> B -> Prop) l x y : osim P x y -> srel ch P (sdo l x) (sdo l y).
Proof. left. done. Qed.
Lemma srel_lift {A B} ch (P : A -> B -> Prop) x y : ksim P x y -> srel ch P (slift x) (slift y).
Proof. intros [Ho Hl]. left. cbn. by rewrite Hl. Qed.
Lemma srel_map {A B} ch (P Q : A -> B -> Prop) x y : srel ch P x y -> (forall a b, P a b -> Q a b) -> srel ch Q x y.
Proof. intros [[Hl Ho]|H] HQ; [left|by right]. split; [done|]. by eapply osim_map. Qed.
Lemma srel_ch {A B} (ch ch' : obs -> obs -> Prop) (P : A -> B -> Prop) x y :
  (forall e e', ch e e' -> ch' e e') -> srel ch P x y -> srel ch' P x y.
Proof.
  intros H [Hl|(c & e & e' & r & r' & E & E' & Hn & Hc)]; [by left|right]. exists c, e, e', r, r'. auto.
Qed.
Lemma srel_if {A B} ch (P : A -> B -> Prop) (b : bool) x x' y y' :
  srel ch P x y -> srel ch P x' y' -> srel ch P (sif b x x') (sif b y y').
Proof. intros H H'. unfold sif. eapply (srel_bind _ (fun _ _ => True)); [by left|]. intros _ _ _. by destruct b. Qed.
Lemma srel_pick (ch : obs -> obs -> Prop) r r' : (forall e e', both_pick e e' -> ch e e') -> srel ch eq (spick r) (spick r').
Proof.
  intros H. destruct (decide (r = r')) as [->|Hr]; [by left|right]. exists [], (OPick r), (OPick r'), [], [].
  split; [done|]. split; [done|]. split; [congruence|]. apply H. by exists r, r'.
Qed.
Lemma srel_pick_eq ch r : srel ch eq (spick r) (spick r).
Proof. by left. Qed.
Lemma srel_look (ch : obs -> obs -> Prop) v v' i i' : (forall e e', both_look e e' -> ch e e') -> length v = length v' ->
  srel ch (fun _ _ => True) (sget "state" v i) (sget "state" v' i').
Proof.
  intros H Hv. destruct (decide (i = i')) as [->|Hi].
  - left. split; [done|]. cbn. unfold vget, vlen. rewrite Hv. by destruct (_ && _).
  - right. exists [], (OGet "state" i), (OGet "state" i'), [], [].
    split; [done|]. split; [done|]. split; [congruence|]. apply H. by exists i, i'.
Qed.
Lemma srel_loop_pow {S S' T T'} ch (R : S -> S' -> Prop) (Q : T -> T' -> Prop) n body body' s s' :
  (forall s s', R s s' -> srel ch (sum_rel R Q) (body s) (body' s')) -> R s s' ->
  srel ch (sum_rel R Q) (sloop_pow n body s) (sloop_pow n body' s').
Proof.
  intros Hb. revert s s'. induction n as [|n IH]; intros s s' H; cbn [sloop_pow]; [auto|].
  eapply srel_bind; [by apply IH|]. intros [a|a] [b|b] Hab; cbn in Hab; try done; [auto|]. by apply srel_ret.
Qed.
Lemma srel_loop {S S' T T'} ch (R : S -> S' -> Prop) (Q : T -> T' -> Prop) body body' s s' :
  (forall s s', R s s' -> srel ch (sum_rel R Q) (body s) (body' s')) -> R s s' ->
  srel ch Q (sloop body s) (sloop body' s').
Proof.
  intros Hb H. unfold sloop. eapply srel_bind; [by apply (srel_loop_pow _ R Q)|].
  intros [a|a] [b|b] Hab; cbn in Hab; try done; [by apply srel_do|by apply srel_ret].
Qed.
Lemma srel_for {S S'} ch (R : S -> S' -> Prop) lo hi body body' s s' :
  (forall i s s', lo <= i < hi -> R s s' -> srel ch R (body i s) (body' i s')) -> R s s' ->
  srel ch R (sfor lo hi body s) (sfor lo hi body' s').
Proof.
  intros Hb H. unfold sfor. eapply (srel_bind _ (fun _ _ => True)); [by left|]. intros _ _ _.
  apply (srel_loop _ (fun a b => a.1 = b.1 /\ lo <= a.1 /\ R a.2 b.2)); [|cbn; auto with lia].
  intros [i a] [i' b]; cbn [fst snd]. intros (<- & Hlo & HR). destruct (Z.ltb_spec i hi); [|by apply srel_ret].
  eapply srel_bind; [apply Hb; [lia|done]|]. intros a' b' HR'. apply srel_ret. cbn. auto with lia.
Qed.
