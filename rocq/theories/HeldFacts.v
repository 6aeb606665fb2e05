(** * The log of heap buffers of the translated source is that of MHeap.v *)
From Verif Require Import Machine MachineFacts MUtils MLyra2 SrcOps SrcFacts SrcLoops SrcTop Held MHeap.
From Verif Require SrcUtils SrcLyra2 SrcLyra2mod SrcLyra2Heap SrcLyra2modHeap.
#[local] Open Scope Z_scope.
#[local] Opaque MLyra2.round_lyra MLyra2.reduced_blake2b_lyra MLyra2.blake2b_lyra
  SrcLyra2.reduced_blake2b_lyra SrcLyra2.blake2b_lyra.

(** ** Computations with their log inside the outcome, after the log [l] *)
Definition logd {A} (l : list hevent) (x : held A) : outcome (A * list hevent) :=
  match x with
  | (Ok a, l') => Ok (a, l ++ l')
  | (Panic, _) => Panic
  | (OutOfFuel, _) => OutOfFuel
  end.
Lemma logd_quiet {A B} l (e : outcome A) (f : A -> held B) :
  logd l (hbind (hquiet e) f) = obind e (fun a => logd l (f a)).
Proof. destruct e; cbn; [|done..]. by destruct (f a) as [[]]. Qed.
Lemma logd_done {A B} l (a : A) ev (f : A -> held B) : logd l (hbind (Ok a, ev) f) = logd (l ++ ev) (f a).
Proof. cbn. destruct (f a) as [[] l']; cbn; [|done..]. by rewrite app_assoc. Qed.
Lemma logd_bind {A B} l (x : held A) (f : A -> held B) :
  logd l (hbind x f) = obind (logd l x) (fun y => logd y.2 (f y.1)).
Proof. destruct x as [[a| |] l']; cbn; [|done..]. destruct (f a) as [[] l'']; cbn; [|done..]. by rewrite app_assoc. Qed.
Lemma logd_from {A} l (x : held A) : logd l x = obind (logd [] x) (fun y => Ok (y.1, l ++ y.2)).
Proof. by destruct x as [[] l']. Qed.
Lemma logd_ret {A} l (a : A) : logd l (hret a) = Ok (a, l).
Proof. cbn. by rewrite app_nil_r. Qed.
Lemma hquiet_Ok {A B} (a : A) (f : A -> held B) : hbind (hquiet (Ok a)) f = f a.
Proof. cbn. by destruct (f a). Qed.
Lemma hbind_ret {A} (x : held A) : hbind x hret = x.
Proof. destruct x as [[] l]; cbn; [|done..]. by rewrite app_nil_r. Qed.

(** Loops. *)
Definition swap_log {S T} (x : (S + T) * list hevent) : S * list hevent + T * list hevent :=
  match x with (inl s, l) => inl (s, l) | (inr t, l) => inr (t, l) end.
Lemma logd_loop_pow {S T} n (body : S -> held (S + T)) l s :
  obind (logd l (hloop_pow n body s)) (fun x => Ok (swap_log x)) =
  loop_pow n (fun x => obind (logd x.2 (body x.1)) (fun x => Ok (swap_log x))) (s, l).
Proof.
  revert l s. induction n as [|n IH]; intros l s; cbn [hloop_pow loop_pow]; [done|].
  rewrite <- IH, logd_bind, !obind_assoc. apply obind_cong. intros [[s'|t] l'] _; cbn [fst snd swap_log obind].
  - apply IH.
  - by rewrite logd_ret.
Qed.
#[local] Transparent loop64 fuel64.
Lemma logd_for {S} lo hi (body : Z -> S -> held S) l s :
  logd l (hfor lo hi body s) = for_range lo hi (fun i x => logd x.2 (body i x.1)) (s, l).
Proof.
  unfold hfor, hloop. rewrite logd_bind.
  transitivity (obind (obind (logd l (hloop_pow 64 (fun '(i, s) =>
      if i <? hi then s' <=@ body i s ;; hret (inl (i + 1, s')) else hret (inr s)) (lo, s))) (fun x => Ok (swap_log x)))
    (fun r => match r with inl _ => OutOfFuel | inr t => Ok t end)).
  - rewrite obind_assoc. apply obind_cong. intros [[s'|t] l'] _; cbn [fst snd swap_log obind]; [done|]. by rewrite logd_ret.
  - rewrite logd_loop_pow. unfold for_range. apply osim_eq.
    unfold loop64, fuel64.
    eapply osim_bind.
    + apply (loop_pow_sim (fun a b => a = ((b.1, b.2.1), b.2.2)) eq); [|done].
      intros [[i a] l1] [i' [b l2]]. cbn [fst snd]. intros [= -> -> ->].
      destruct (i' <? hi).
      * rewrite logd_bind, obind_assoc. eapply osim_bind; [by apply (osim_refl eq)|]. intros [a' la] ? _ _ <-.
        cbn [fst snd]. rewrite logd_ret. cbn. done.
      * rewrite logd_ret. done.
    + intros [[[i a] l1]|a] [[i' [b l2]]|b] _ _ H; cbn in H; done.
Qed.
#[local] Opaque loop64 fuel64.

(** ** The functions with events *)
Lemma hstep {A B C} (e : outcome A) (f : A -> held C) (g : A -> outcome B) (k : B -> held C) :
  (forall a, f a = hbind (hquiet (g a)) k) -> hbind (hquiet e) f = hbind (hquiet (obind e g)) k.
Proof. intros H. destruct e; [|done..]. rewrite hquiet_Ok, H. done. Qed.
Lemma held_absorb p s w :
  SrcLyra2Heap.absorb_block_held p s w = hbind (hquiet (SrcLyra2.absorb_block p s w)) (fun r => (Ok r, [HFree w])).
Proof.
  unfold SrcLyra2Heap.absorb_block_held, SrcLyra2.absorb_block.
  repeat (apply hstep; intros ?). reflexivity.
Qed.
Lemma held_absorb_safe p s w :
  SrcLyra2Heap.absorb_block_blake2_safe_held p s w =
  hbind (hquiet (SrcLyra2.absorb_block_blake2_safe p s w)) (fun r => (Ok r, [HFree w])).
Proof.
  unfold SrcLyra2Heap.absorb_block_blake2_safe_held, SrcLyra2.absorb_block_blake2_safe.
  repeat (apply hstep; intros ?). reflexivity.
Qed.
Lemma logd_absorb {B} l p s w (f : list Z -> held B) :
  logd l (hbind (hcopy w) (fun t => hbind (SrcLyra2Heap.absorb_block_held p s t) f)) =
  obind (MLyra2.absorb_block s w) (fun r => logd (l ++ [HAlloc (vlen w); HFree w]) (f r)).
Proof.
  unfold hcopy. rewrite logd_done, held_absorb, src_absorb.
  destruct (MLyra2.absorb_block s w) as [r| |]; [|done..]. rewrite hquiet_Ok, logd_done, <- app_assoc. done.
Qed.
Lemma logd_absorb_safe {B} l p s w (f : list Z -> held B) :
  logd l (hbind (hcopy w) (fun t => hbind (SrcLyra2Heap.absorb_block_blake2_safe_held p s t) f)) =
  obind (MLyra2.absorb_block_blake2_safe s w) (fun r => logd ((l ++ [HAlloc (vlen w)]) ++ [HFree w]) (f r)).
Proof.
  unfold hcopy. rewrite logd_done, held_absorb_safe, src_absorb_safe.
  destruct (MLyra2.absorb_block_blake2_safe s w) as [r| |]; [|done..]. rewrite hquiet_Ok, logd_done. done.
Qed.
Lemma logd_absorb_input p nb m s l : known_platform p ->
  logd l (hfor 0 nb (SrcLyra2Heap.lyra2_body3_held p m) (s, 0)) =
  for_range 0 nb (fun _ '(state, ptr_word, log) =>
      right <-- split_right m ptr_word ;;
      let log := log ++ [HAlloc (vlen right)] in
      state <-- MLyra2.absorb_block_blake2_safe state right ;;
      let log := log ++ [HFree right] in
      ptr_word <-- szadd p ptr_word MLyra2.BLOCKLENBLAKE2SAFEINT64 ;;
      Ok (state, ptr_word, log)) (s, 0, l).
Proof.
  intros Hp. rewrite logd_for. apply for_range_ext. intros i [[st w] l'] _. cbn [fst snd].
  unfold SrcLyra2Heap.lyra2_body3_held. rewrite logd_quiet. apply obind_cong. intros r _.
  rewrite logd_absorb_safe. apply obind_cong. intros st' _. rewrite logd_quiet.
  change (as_usize p SrcLyra2.BLOCKLENBLAKE2SAFEINT64) with (as_usize p 8). rewrite known_small by (done || lia).
  apply obind_cong. intros w' _. by rewrite logd_ret.
Qed.
Lemma logd_squeeze p s k l : known_platform p -> length s = 16%nat ->
  logd l (SrcLyra2Heap.squeeze_held p s k) = obind (squeeze_heap p s k) (fun x => Ok (x.1, l ++ x.2)).
Proof.
  intros Hp Hs. unfold SrcLyra2Heap.squeeze_held, squeeze_heap. rewrite hquiet_Ok, logd_quiet, obind_assoc.
  set (n := as_usize p k). assert (Hn : 0 <= n) by (apply Z.mod_pos_bound; destruct Hp as [-> | ->]; done).
  apply obind_cong. intros out Hout. rewrite hquiet_Ok, logd_quiet, obind_assoc.
  change SrcLyra2.BLOCKLENBYTES with MLyra2.BLOCKLENBYTES.
  apply obind_cong. intros jmax _. rewrite logd_quiet, obind_assoc.
  assert (Hl : vlen out = n).
  { unfold vec_zeroed in Hout. destruct (_ <=? _); [|done]. injection Hout as <-. unfold vlen. rewrite replicate_length. lia. }
  apply osim_eq. eapply osim_bind.
  - apply (for_range_sim (fun a b => a = (b.2, b.1.1, b.1.2) /\ vlen b.1.2 = n /\ length b.2 = 16%nat)); [|done].
    intros j a [[tmp o] st] _ (-> & Ho & Hst). cbn [fst snd] in *. unfold SrcLyra2.squeeze_body1.
    change SrcLyra2.BLOCKLENINT64 with MLyra2.BLOCKLENINT64.
    rewrite (for_range_ext _ _ (SrcLyra2.squeeze_body2 p st)
      (fun i tmp => vec_extend p tmp (to_le_bytes 8 (aget st (Z.to_nat i))))).
    + eapply osim_bind; [by apply (osim_refl eq)|]. intros t ? _ _ <-.
      unfold slice. change (as_usize p k) with n. rewrite !Z.sub_0_r. rewrite (proj2 (Z.leb_le 0 n)) by done. cbn [andb].
      destruct (Z.leb_spec n (vlen t)) as [Ht|]; [|done].
      assert (Hlt : vlen (take (Z.to_nat n) (drop (Z.to_nat 0) t)) = n).
      { unfold vlen in *. change (Z.to_nat 0) with 0%nat. rewrite drop_0, take_length. lia. }
      cbn [obind]. remember (take (Z.to_nat n) (drop (Z.to_nat 0) t)) as t1. cbn [Z.leb Z.compare andb obind]. unfold slice_set. rewrite Hlt, Ho, Z.eqb_refl, Z.leb_refl.
      rewrite (proj2 (Z.leb_le 0 n)) by done. cbn [andb obind]. rewrite src_blake2b. cbn [obind osim fst snd].
      rewrite drop_ge by (unfold vlen in *; lia). rewrite app_nil_r. by rewrite blake_length.
    + intros i t Hi. unfold SrcLyra2.squeeze_body2. change MLyra2.BLOCKLENINT64 with 12 in Hi.
      rewrite known_small by (done || lia). rewrite vget_aget by (unfold vlen; rewrite Hst; lia). cbn [obind].
      apply obind_ret.
  - intros a [[tmp o] st] _ _ (-> & _). cbn. done.
Qed.
Lemma logd_zeroed {B} l p n (f : list Z -> held B) :
  logd l (hbind (hzeroed p n) f) = obind (vec_zeroed p 8 n) (fun m => logd (l ++ [HAlloc n]) (f m)).
Proof. unfold hzeroed. destruct (vec_zeroed p 8 n); [|done..]. by rewrite logd_done. Qed.
Lemma zeroed_vlen p n m : 0 <= n -> vec_zeroed p 8 n = Ok m -> vlen m = n.
Proof.
  intros Hn. unfold vec_zeroed. destruct (_ <=? _); [|done]. intros [= <-]. unfold vlen. rewrite replicate_length. lia.
Qed.
Lemma held_resize_same p n m : 0 <= n -> vec_zeroed p 8 n = Ok m -> hresize p m n 0 = hquiet (Ok m).
Proof.
  intros Hn E. unfold hresize. rewrite (vec_resize_same _ _ _ Hn E), (zeroed_vlen _ _ _ Hn E), Z.ltb_irrefl. done.
Qed.
