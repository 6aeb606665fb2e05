(** * The padded input *)
From Verif Require Import WordFacts RefineInput.
From Verif Require Import SpecWord SpecLyra2.
From Verif Require Import Machine MachineFacts.

(** ** Chunks *)
Lemma chunks_app {A} n (a l : list A) : (0 < n)%nat -> length a = n -> chunks n (a ++ l) = a :: chunks n l.
Proof.
  intros Hn Ha. unfold chunks. rewrite app_length, Ha.
  replace ((n + length l) / n)%nat with (S (length l / n)).
  2:{ replace (n + length l)%nat with (1 * n + length l)%nat by lia. rewrite Nat.div_add_l by lia. lia. }
  cbn [seq fmap list_fmap]. rewrite Nat.mul_0_r, drop_0. rewrite take_app_alt by done. f_equal.
  rewrite <- fmap_S_seq, <- list_fmap_compose. apply list_fmap_ext. intros j i _. cbn.
  rewrite drop_app_ge by lia. do 2 f_equal. lia.
Qed.
Lemma chunks_nil {A} n : chunks n (@nil A) = [].
Proof. unfold chunks. cbn [length]. destruct n; [done|]. by rewrite Nat.div_0_l. Qed.
Lemma chunks_join {A} n (l : list A) q : (0 < n)%nat -> length l = (q * n)%nat -> mjoin (chunks n l) = l.
Proof.
  intros Hn. revert l. induction q as [|q IH]; intros l Hl.
  - apply nil_length_inv in Hl as ->. by rewrite chunks_nil.
  - rewrite <- (take_drop n l) at 1. rewrite chunks_app.
    + change (mjoin (take n l :: chunks n (drop n l))) with (take n l ++ mjoin (chunks n (drop n l))).
      rewrite IH; [apply take_drop|]. rewrite drop_length. lia.
    + done.
    + rewrite take_length. lia.
Qed.
Lemma chunks_bind n (f : Z -> list Z) ws : (0 < n)%nat -> (forall w, length (f w) = n) ->
  chunks n (ws ≫= f) = f <$> ws.
Proof.
  intros Hn Hf. induction ws as [|w ws IH]; [apply chunks_nil|].
  cbn [mbind list_bind fmap list_fmap]. rewrite chunks_app by done. f_equal. exact IH.
Qed.
Lemma chunks_inj {A} n (l l' : list A) q q' : (0 < n)%nat -> length l = (q * n)%nat -> length l' = (q' * n)%nat ->
  chunks n l = chunks n l' -> l = l'.
Proof. intros Hn Hl Hl' E. rewrite <- (chunks_join n l q), <- (chunks_join n l' q') by done. by rewrite E. Qed.

(** ** Words and their bytes *)
Definition wbytes (ws : list Z) : list Z := ws ≫= le_bytes 8.
Lemma wbytes_app a b : wbytes (a ++ b) = wbytes a ++ wbytes b.
Proof. apply bind_app. Qed.
Lemma wbytes_length ws : length (wbytes ws) = (8 * length ws)%nat.
Proof.
  induction ws as [|w ws IH]; [done|]. change (wbytes (w :: ws)) with (le_bytes 8 w ++ wbytes ws).
  rewrite app_length, IH, le_bytes_length. cbn [length]. lia.
Qed.
Lemma wbytes_zeros n : wbytes (replicate n 0) = replicate (8 * n) 0.
Proof.
  induction n as [|n IH]; [done|]. replace (8 * S n)%nat with (8 + 8 * n)%nat by lia.
  rewrite replicate_add, <- IH. reflexivity.
Qed.
Lemma le_number_wbytes ws : Forall (word 64) ws -> le_number <$> chunks 8 (wbytes ws) = ws.
Proof.
  intros Hw. unfold wbytes. rewrite chunks_bind by (lia || apply le_bytes_length).
  rewrite <- list_fmap_compose. induction Hw as [|w ws Hw _ IH]; [done|].
  cbn [fmap list_fmap]. f_equal; [|exact IH]. apply le_number_le_bytes. exact Hw.
Qed.
Lemma wbytes_complete l q : Forall byte l -> length l = (q * 8)%nat -> wbytes (complete_words l) = l.
Proof.
  revert l. induction q as [|q IH]; intros l Hb Hl.
  - apply nil_length_inv in Hl as ->. done.
  - rewrite <- (take_drop 8 l) at 1. unfold complete_words. rewrite chunks_app; [|lia|rewrite take_length; lia].
    cbn [fmap list_fmap]. change (wbytes (?a :: ?b)) with (le_bytes 8 a ++ wbytes b).
    fold (complete_words (drop 8 l)). rewrite IH; [|by apply Forall_drop|rewrite drop_length; lia].
    assert (length (take 8 l) = 8%nat) as H8 by (rewrite take_length; lia).
    rewrite <- H8 at 1. rewrite le_bytes_le_number by (by apply Forall_take). apply take_drop.
Qed.
Lemma complete_words_inj l l' q : Forall byte l -> Forall byte l' ->
  length l = (q * 8)%nat -> length l' = (q * 8)%nat -> complete_words l = complete_words l' -> l = l'.
Proof.
  intros Hb Hb' Hl Hl' E. rewrite <- (wbytes_complete l q), <- (wbytes_complete l' q) by done. by rewrite E.
Qed.

(** ** C15: for word-aligned inputs the code pads as Lyra2 does *)
Lemma alter_wbytes ws n : (n < length ws)%nat -> Forall (fun w => w = 0 \/ w = 0x80) (drop n ws) ->
  wbytes (alter (fun w => Z.lxor w (2 ^ 56)) n ws) = alter (fun b => Z.lxor b 1) (8 * n + 7)%nat (wbytes ws).
Proof.
  revert n. induction ws as [|w ws IH]; intros n Hn Hf; [cbn in Hn; lia|]. destruct n as [|n].
  - rewrite drop_0 in Hf. inversion Hf as [|? ? Hw _]; subst. cbn [alter list_alter].
    change (wbytes (?a :: ?b)) with (le_bytes 8 a ++ wbytes b).
    rewrite alter_app_l by (rewrite le_bytes_length; lia). f_equal. by destruct Hw as [-> | ->].
  - cbn [drop] in Hf. cbn [length] in Hn. change (alter ?f (S n) (w :: ws)) with (w :: alter f n ws).
    change (wbytes (?a :: ?b)) with (le_bytes 8 a ++ wbytes b).
    replace (8 * S n + 7)%nat with (length (le_bytes 8 w) + (8 * n + 7))%nat by (rewrite le_bytes_length; lia).
    rewrite alter_app_r. f_equal. apply IH; [lia|done].
Qed.

Section pad.
Context (k : Z) (pwd salt : list Z) (t R C : Z).
Lemma ref_message_length :
  length (ref_message k pwd salt t R C) = (length pwd + length salt + 48)%nat.
Proof.
  unfold ref_message. rewrite !app_length. change (_ ≫= le_bytes 8) with
    (wbytes [k; Z.of_nat (length pwd); Z.of_nat (length salt); t; R; C]).
  rewrite wbytes_length. cbn [length]. lia.
Qed.
Lemma n_blocks_nat : Z.to_nat (n_blocks pwd salt) = ((length pwd + length salt + 48) / 64 + 1)%nat.
Proof.
  unfold n_blocks. rewrite <- !Nat2Z.inj_add. change 48 with (Z.of_nat 48). change 64 with (Z.of_nat 64).
  rewrite <- Nat2Z.inj_add, <- Nat2Z.inj_div. change 1 with (Z.of_nat 1). rewrite <- Nat2Z.inj_add. by rewrite Nat2Z.id.
Qed.
Lemma ref_padded_wbytes qp qs : Forall byte pwd -> Forall byte salt ->
  length pwd = (qp * 8)%nat -> length salt = (qs * 8)%nat ->
  ref_padded k pwd salt t R C = wbytes (code_padded k pwd salt t R C).
Proof.
  intros Hbp Hbs Hlp Hls. unfold ref_padded, code_padded. cbv zeta.
  rewrite ref_message_length. fold (body_words k pwd salt t R C).
  pose proof (body_words_length k pwd salt t R C) as Hbl. pose proof (n_blocks_bounds pwd salt) as Hnb.
  assert (Hbl' : length (body_words k pwd salt t R C) = (qp + qs + 7)%nat).
  { unfold body_words. rewrite !app_length, !complete_words_length, Hlp, Hls, !Nat.div_mul by lia. cbn [length]. lia. }
  pose proof n_blocks_nat as Hnn.
  set (N := ((length pwd + length salt + 48) / 64 + 1)%nat) in *.
  assert (HN : Z.to_nat (8 * n_blocks pwd salt) = (8 * N)%nat) by lia. rewrite HN.
  assert (HNge : (qp + qs + 7 <= 8 * N)%nat) by lia.
  rewrite alter_wbytes.
  - replace (8 * (8 * N - 1) + 7)%nat with (64 * N - 1)%nat by lia. f_equal.
    rewrite wbytes_app, wbytes_zeros. unfold body_words, ref_message. rewrite !wbytes_app.
    rewrite (wbytes_complete pwd qp), (wbytes_complete salt qs) by done. rewrite <- !app_assoc. do 2 f_equal.
    change [k; Z.of_nat (length pwd); Z.of_nat (length salt); t; R; C; 128]
      with ([k; Z.of_nat (length pwd); Z.of_nat (length salt); t; R; C] ++ [128]).
    rewrite wbytes_app, <- app_assoc. f_equal. change (wbytes [128]) with ([128] ++ replicate 7 0).
    rewrite <- app_assoc, <- replicate_add. do 2 f_equal.
    rewrite !app_length, !complete_words_length, Hlp, Hls, !Nat.div_mul by lia. cbn [length]. lia.
  - rewrite app_length, replicate_length. lia.
  - destruct (decide (qp + qs + 7 = 8 * N)%nat) as [E|E].
    + replace (8 * N - length (body_words k pwd salt t R C))%nat with 0%nat by lia. cbn [replicate].
      rewrite app_nil_r. unfold body_words. rewrite app_assoc.
      change [k; Z.of_nat (length pwd); Z.of_nat (length salt); t; R; C; 128]
        with ([k; Z.of_nat (length pwd); Z.of_nat (length salt); t; R; C] ++ [128]).
      rewrite app_assoc. rewrite drop_app_alt; [repeat constructor; by right|].
      rewrite !app_length, !complete_words_length, Hlp, Hls, !Nat.div_mul by lia. cbn [length]. lia.
    + rewrite drop_app_ge by lia. apply Forall_drop, Forall_replicate. by left.
Qed.
Lemma code_padded_Forall : Forall byte pwd -> Forall byte salt -> word 64 k -> word 64 (vlen pwd) -> word 64 (vlen salt) ->
  word 64 t -> word 64 R -> word 64 C -> Forall (word 64) (code_padded k pwd salt t R C).
Proof.
  intros. unfold code_padded. fold (body_words k pwd salt t R C). apply Forall_alter_word.
  apply Forall_app. split; [by apply code_padded_words|]. apply Forall_replicate. unfold word; lia.
Qed.
Lemma ref_blocks_code qp qs : Forall byte pwd -> Forall byte salt ->
  word 64 k -> word 64 (vlen pwd) -> word 64 (vlen salt) -> word 64 t -> word 64 R -> word 64 C ->
  length pwd = (qp * 8)%nat -> length salt = (qs * 8)%nat ->
  ref_blocks k pwd salt t R C = code_blocks k pwd salt t R C.
Proof.
  intros. unfold ref_blocks, code_blocks. rewrite (ref_padded_wbytes qp qs) by done.
  by rewrite le_number_wbytes by (by apply code_padded_Forall).
Qed.
End pad.

(** ** C13: the absorbed blocks determine the arguments *)
Lemma strip_zeros (l l' : list Z) x x' n m : x <> 0 -> x' <> 0 ->
  (l ++ [x]) ++ replicate n 0 = (l' ++ [x']) ++ replicate m 0 -> l = l' /\ x = x' /\ n = m.
Proof.
  intros Hx Hx' E.
  assert (Haux : forall (l l' : list Z) x x' n m, x' <> 0 ->
    (l ++ [x]) ++ replicate n 0 = (l' ++ [x']) ++ replicate m 0 -> (length l < length l')%nat -> False).
  { clear. intros l l' x x' n m Hx' E Hlt.
    apply (f_equal (fun q => q !! length l')) in E. rewrite <- !app_assoc in E.
    rewrite (lookup_app_r l') in E by lia. rewrite Nat.sub_diag in E. cbn in E.
    rewrite lookup_app_r in E by lia. destruct (length l' - length l)%nat as [|d] eqn:Ed; [lia|].
    cbn in E. apply lookup_replicate in E as [E _]. done. }
  assert (Hl : length l = length l').
  { destruct (Nat.lt_trichotomy (length l) (length l')) as [H|[H|H]]; [|done|].
    - exfalso. by apply (Haux l l' x x' n m).
    - exfalso. symmetry in E. by apply (Haux l' l x' x m n). }
  rewrite <- !app_assoc in E. apply app_inj_1 in E as [-> E]; [|done]. cbn in E.
  injection E as -> E. split; [done|]. split; [done|].
  apply (f_equal length) in E. by rewrite !replicate_length in E.
Qed.
Lemma alter_lxor_inj (c : Z) i (l l' : list Z) :
  alter (fun w => Z.lxor w c) i l = alter (fun w => Z.lxor w c) i l' -> l = l'.
Proof.
  assert (Hinv : forall l : list Z, alter (fun w => Z.lxor w c) i (alter (fun w => Z.lxor w c) i l) = l).
  { clear. intros l. rewrite <- list_alter_compose. apply list_alter_id. intros x. cbn.
    by rewrite Z.lxor_assoc, Z.lxor_nilpotent, Z.lxor_0_r. }
  intros E. rewrite <- (Hinv l), <- (Hinv l'). by rewrite E.
Qed.
Lemma code_padded_inj k pwd salt t R C k' pwd' salt' t' R' C' :
  code_padded k pwd salt t R C = code_padded k' pwd' salt' t' R' C' ->
  k = k' /\ length pwd = length pwd' /\ length salt = length salt' /\ t = t' /\ R = R' /\ C = C' /\
  complete_words pwd = complete_words pwd' /\ complete_words salt = complete_words salt'.
Proof.
  intros E.
  assert (Hn : Z.to_nat (8 * n_blocks pwd salt) = Z.to_nat (8 * n_blocks pwd' salt')).
  { pose proof (code_padded_length k pwd salt t R C). pose proof (code_padded_length k' pwd' salt' t' R' C').
    rewrite E in *. lia. }
  unfold code_padded in E. rewrite Hn in E. apply alter_lxor_inj in E.
  assert (Hsplit : forall k p s t R C, complete_words p ++ complete_words s ++
     [k; Z.of_nat (length p); Z.of_nat (length s); t; R; C; 128] =
     (complete_words p ++ complete_words s ++ [k; Z.of_nat (length p); Z.of_nat (length s); t; R; C]) ++ [128]).
  { clear. intros. rewrite <- !app_assoc. reflexivity. }
  rewrite !Hsplit in E. apply strip_zeros in E as (E & _ & _); [|done|done].
  rewrite !app_assoc in E. apply app_inj_2 in E as [E1 E2]; [|done].
  injection E2 as -> E3 E4 -> -> ->. apply Nat2Z.inj in E3, E4.
  apply app_inj_1 in E1 as [E1 E2]; [|by rewrite !complete_words_length, E3].
  repeat (split; [done|]). done.
Qed.
Lemma code_blocks_padded k pwd salt t R C k' pwd' salt' t' R' C' :
  code_blocks k pwd salt t R C = code_blocks k' pwd' salt' t' R' C' ->
  code_padded k pwd salt t R C = code_padded k' pwd' salt' t' R' C'.
Proof.
  pose proof (n_blocks_bounds pwd salt). pose proof (n_blocks_bounds pwd' salt').
  apply (chunks_inj 8 _ _ (Z.to_nat (n_blocks pwd salt)) (Z.to_nat (n_blocks pwd' salt'))); [lia| |].
  - pose proof (code_padded_length k pwd salt t R C). lia.
  - pose proof (code_padded_length k' pwd' salt' t' R' C'). lia.
Qed.
Lemma divide_nat (l : list Z) : (8 | Z.of_nat (length l)) -> exists q, length l = (q * 8)%nat.
Proof. intros [q Hq]. exists (Z.to_nat q). lia. Qed.
Lemma code_blocks_inj_aligned k pwd salt t R C k' pwd' salt' t' R' C' :
  Forall byte pwd -> Forall byte salt -> Forall byte pwd' -> Forall byte salt' ->
  (8 | Z.of_nat (length pwd)) -> (8 | Z.of_nat (length salt)) ->
  code_blocks k pwd salt t R C = code_blocks k' pwd' salt' t' R' C' ->
  k = k' /\ pwd = pwd' /\ salt = salt' /\ t = t' /\ R = R' /\ C = C'.
Proof.
  intros Hp Hs Hp' Hs' [q Hq]%divide_nat [r Hr]%divide_nat E.
  apply code_blocks_padded, code_padded_inj in E as (-> & Hlp & Hls & -> & -> & -> & Ep & Es).
  repeat split; try done.
  - apply (complete_words_inj _ _ q); congruence.
  - apply (complete_words_inj _ _ r); congruence.
Qed.

(** ** C15, converse: for other lengths the padded data always differs *)
Lemma ref_padded_strip k pwd salt t R C :
  exists m n, ref_padded k pwd salt t R C = alter (fun b => Z.lxor b 1) (8 * (8 * Z.to_nat (n_blocks pwd salt)) - 1)%nat
     ((m ++ [0x80]) ++ replicate n 0) /\ length m = (length pwd + length salt + 48)%nat.
Proof.
  exists (ref_message k pwd salt t R C). eexists. split; [|apply ref_message_length].
  unfold ref_padded. cbv zeta. rewrite ref_message_length, n_blocks_nat, <- app_assoc.
  replace (8 * (8 * ((length pwd + length salt + 48) / 64 + 1)) - 1)%nat
    with (64 * ((length pwd + length salt + 48) / 64 + 1) - 1)%nat by lia. reflexivity.
Qed.
Lemma land_lxor_l a b c : Z.land (Z.lxor a b) c = Z.lxor (Z.land a c) (Z.land b c).
Proof.
  apply Z.bits_inj. intros i. rewrite Z.land_spec, !Z.lxor_spec, !Z.land_spec.
  by destruct (Z.testbit a i), (Z.testbit b i), (Z.testbit c i).
Qed.
Lemma alter_wbytes_any ws n : Forall (word 64) ws -> (n < length ws)%nat ->
  wbytes (alter (fun w => Z.lxor w (2 ^ 56)) n ws) = alter (fun b => Z.lxor b 1) (8 * n + 7)%nat (wbytes ws).
Proof.
  intros Hw. revert n. induction Hw as [|w ws Hw Hws IH]; intros n Hn; [cbn in Hn; lia|]. destruct n as [|n].
  - cbn [alter list_alter]. change (wbytes (?a :: ?b)) with (le_bytes 8 a ++ wbytes b).
    rewrite alter_app_l by (rewrite le_bytes_length; lia). f_equal.
    apply list_eq. intros i. destruct (decide (i < 8)%nat) as [Hi|Hi].
    2:{ rewrite !lookup_ge_None_2; [done| |]; rewrite ?alter_length, le_bytes_length; lia. }
    assert (Hb : forall x, le_bytes 8 x !! i = Some ((x / 256 ^ Z.of_nat i) mod 256)).
    { intros x. unfold le_bytes. rewrite list_lookup_fmap, lookup_seq_lt by done. done. }
    assert (Hd : forall x, x / 256 ^ Z.of_nat i = Z.shiftr x (8 * Z.of_nat i)).
    { intros x. rewrite Z.shiftr_div_pow2 by lia. f_equal. change 256 with (2 ^ 8). by rewrite <- Z.pow_mul_r by lia. }
    assert (Hm : forall x, x mod 256 = Z.land x (Z.ones 8)) by (intros; by rewrite Z.land_ones).
    rewrite Hb, Hd, Hm, Z.shiftr_lxor, land_lxor_l.
    destruct (decide (i = 7%nat)) as [->|Hne].
    + change (8 * 0 + 7)%nat with 7%nat. rewrite list_lookup_alter, Hb, Hd, Hm. done.
    + rewrite list_lookup_alter_ne by lia. rewrite Hb, Hd, Hm.
      replace (Z.land (Z.shiftr (2 ^ 56) (8 * Z.of_nat i)) (Z.ones 8)) with 0; [by rewrite Z.lxor_0_r|].
      clear -Hi Hne. do 7 (destruct i as [|i]; [reflexivity|]). lia.
  - cbn [length] in Hn. change (alter ?f (S n) (w :: ws)) with (w :: alter f n ws).
    change (wbytes (?a :: ?b)) with (le_bytes 8 a ++ wbytes b).
    replace (8 * S n + 7)%nat with (length (le_bytes 8 w) + (8 * n + 7))%nat by (rewrite le_bytes_length; lia).
    rewrite alter_app_r. f_equal. apply IH. lia.
Qed.
Lemma ref_padded_length k pwd salt t R C :
  length (ref_padded k pwd salt t R C) = (8 * (8 * Z.to_nat (n_blocks pwd salt)))%nat.
Proof.
  unfold ref_padded. cbv zeta. rewrite alter_length, !app_length, replicate_length, ref_message_length, n_blocks_nat.
  cbn [length]. pose proof (Nat.div_mod (length pwd + length salt + 48) 64 ltac:(lia)).
  pose proof (Nat.mod_upper_bound (length pwd + length salt + 48) 64 ltac:(lia)). lia.
Qed.
Lemma le_number_chunks_inj bs ws q : Forall byte bs -> length bs = (q * 8)%nat ->
  le_number <$> chunks 8 bs = ws -> bs = wbytes ws.
Proof. intros Hb Hl <-. symmetry. by apply (wbytes_complete bs q). Qed.
Lemma ref_padded_byte k pwd salt t R C : Forall byte pwd -> Forall byte salt ->
  Forall byte (ref_padded k pwd salt t R C).
Proof.
  intros Hp Hs. unfold ref_padded. cbv zeta. apply Forall_alter.
  - apply Forall_app. split.
    + unfold ref_message. apply Forall_app. split; [done|]. apply Forall_app. split; [done|].
      apply Forall_bind. apply Forall_true. intros. apply le_bytes_byte.
    + apply Forall_app. split; [repeat constructor; unfold byte; lia|]. apply Forall_replicate. unfold byte; lia.
  - intros x _ Hx. apply (word_lxor 8 x 1); [lia|exact Hx|unfold word; lia].
Qed.
Lemma ref_blocks_code_iff k pwd salt t R C : Forall byte pwd -> Forall byte salt ->
  word 64 k -> word 64 (vlen pwd) -> word 64 (vlen salt) -> word 64 t -> word 64 R -> word 64 C ->
  ref_blocks k pwd salt t R C = code_blocks k pwd salt t R C <->
  (8 | Z.of_nat (length pwd)) /\ (8 | Z.of_nat (length salt)).
Proof.
  intros Hp Hs Hk Hlp Hls Ht HR HC. split.
  2:{ intros [[q Hq]%divide_nat [r Hr]%divide_nat]. by apply (ref_blocks_code k pwd salt t R C q r). }
  intros E. unfold ref_blocks, code_blocks in E.
  pose proof (n_blocks_bounds pwd salt) as Hnb.
  pose proof (code_padded_length k pwd salt t R C) as Hcl.
  pose proof (ref_padded_length k pwd salt t R C) as Hrl.
  set (N := Z.to_nat (n_blocks pwd salt)) in *.
  apply (chunks_inj 8 _ _ N N) in E; [|lia| |].
  2:{ rewrite fmap_length, chunks_length, Hrl. rewrite (Nat.mul_comm 8 (8 * N)), Nat.div_mul by lia. lia. }
  2:{ unfold N. lia. }
  apply (le_number_chunks_inj _ _ (8 * N)) in E; [|by apply ref_padded_byte|lia].
  destruct (ref_padded_strip k pwd salt t R C) as (m & n & Er & Hm). rewrite Er in E. fold N in E.
  unfold code_padded in E. fold (body_words k pwd salt t R C) in E.
  replace (Z.to_nat (8 * n_blocks pwd salt)) with (8 * N)%nat in E by (unfold N; lia).
  pose proof (body_words_length k pwd salt t R C) as Hbl.
  rewrite alter_wbytes_any in E.
  - replace (8 * (8 * N - 1) + 7)%nat with (8 * (8 * N) - 1)%nat in E by (unfold N; lia).
    apply alter_lxor_inj in E. rewrite wbytes_app, wbytes_zeros in E.
    unfold body_words in E at 1. rewrite !wbytes_app in E.
    change [k; Z.of_nat (length pwd); Z.of_nat (length salt); t; R; C; 128]
      with ([k; Z.of_nat (length pwd); Z.of_nat (length salt); t; R; C] ++ [128]) in E.
    rewrite wbytes_app in E. change (wbytes [128]) with ([128] ++ replicate 7 0) in E.
    rewrite !app_assoc in E. rewrite <- (app_assoc _ (replicate 7 0)), <- replicate_add in E.
    apply strip_zeros in E as (E & _ & _); [|done|done].
    apply (f_equal length) in E. rewrite Hm in E.
    rewrite !app_length, !wbytes_length, !complete_words_length in E. cbn [length] in E.
    pose proof (Nat.div_mod (length pwd) 8 ltac:(lia)). pose proof (Nat.div_mod (length salt) 8 ltac:(lia)).
    split; [exists (Z.of_nat (length pwd / 8)%nat)|exists (Z.of_nat (length salt / 8)%nat)]; lia.
  - apply Forall_app. split; [by apply code_padded_words|]. apply Forall_replicate. unfold word; lia.
  - rewrite app_length, replicate_length. lia.
Qed.
