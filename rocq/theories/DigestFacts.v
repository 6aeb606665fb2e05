(** * The four external digests return 32 bytes on every byte string *)
From Verif Require Import SpecWord SpecBlake256 SpecKeccak SpecSkein SpecGroestl SpecChains WordFacts.
#[local] Open Scope Z_scope.

Lemma be_bytes_length n x : length (be_bytes n x) = n.
Proof. unfold be_bytes. by rewrite reverse_length, le_bytes_length. Qed.
Lemma be_bytes_byte n x : Forall byte (be_bytes n x).
Proof. unfold be_bytes. apply Forall_reverse, le_bytes_byte. Qed.
Lemma bind_bytes (f : Z -> list Z) n (l : list Z) : (forall x, length (f x) = n /\ Forall byte (f x)) ->
  length (l ≫= f) = (length l * n)%nat /\ Forall byte (l ≫= f).
Proof.
  intros H. induction l as [|x l [IH1 IH2]]; [split; [done|constructor]|].
  change ((x :: l) ≫= f) with (f x ++ (l ≫= f)). destruct (H x) as [H1 H2]. split.
  - rewrite app_length, H1, IH1. done.
  - by apply Forall_app.
Qed.
Lemma foldl_inv {A B} (P : A -> Prop) (f : A -> B -> A) (l : list B) a :
  (forall a b, P a -> P (f a b)) -> P a -> P (foldl f a l).
Proof. intros H. revert a. induction l as [|b l IH]; intros a Ha; [done|]. apply IH, H, Ha. Qed.
Lemma foldl_inv_in {A B} (P : A -> Prop) (f : A -> B -> A) (l : list B) a :
  (forall a b, b ∈ l -> P a -> P (f a b)) -> P a -> P (foldl f a l).
Proof.
  revert a. induction l as [|b l IH]; intros a H Ha; [done|]. cbn [foldl].
  apply IH; [|apply H; [left|done]]. intros a' b' Hb. apply H. by right.
Qed.
Lemma chunks_length n (l : list Z) b : (0 < n)%nat -> b ∈ chunks n l -> length b = n.
Proof.
  intros Hn. unfold chunks. intros (i & -> & Hi)%elem_of_list_fmap. apply elem_of_seq in Hi.
  rewrite take_length, drop_length. pose proof (Nat.mul_div_le (length l) n ltac:(lia)). nia.
Qed.
Lemma chunks_byte n (l : list Z) b : Forall byte l -> b ∈ chunks n l -> Forall byte b.
Proof.
  intros Hl. unfold chunks. intros (i & -> & _)%elem_of_list_fmap. by apply Forall_take, Forall_drop.
Qed.
Lemma chunks_count n (l : list Z) : length (chunks n l) = (length l / n)%nat.
Proof. unfold chunks. by rewrite fmap_length, seq_length. Qed.

(** ** BLAKE-256 *)
Lemma blake256_G_length m s v i a b c d : length (blake256_G m s v i a b c d) = length v.
Proof. unfold blake256_G. cbv zeta. by rewrite !insert_length. Qed.
Lemma blake256_rounds_length m v (l : list (list nat)) : length (foldl (blake256_round m) v l) = length v.
Proof.
  apply (foldl_inv (fun x => length x = length v)); [|done]. intros w s Hw. unfold blake256_round.
  apply (foldl_inv (fun x => length x = length v)); [|done]. intros x [[[[i a] b] c] d] Hx.
  by rewrite blake256_G_length.
Qed.
Lemma blake256_compress_length h m t : length h = 8%nat -> length (blake256_compress h m t) = 8%nat.
Proof.
  intros H. unfold blake256_compress. cbv zeta.
  match goal with |- context [foldl _ ?v _] => pose proof (blake256_rounds_length m v blake256_schedule) as L;
    assert (L' : length v = 16%nat) by (rewrite !app_length, H; done) end.
  rewrite L' in L. rewrite !zip_with_length, take_length, drop_length, L, H. done.
Qed.
Lemma blake256_out m : length (blake256 m) = 32%nat /\ Forall byte (blake256 m).
Proof.
  unfold blake256. cbv zeta.
  match goal with |- context [foldl ?f ?a ?l] => assert (L : length (foldl f a l) = 8%nat) end.
  { apply (foldl_inv (fun x => length x = 8%nat)); [|done]. intros h [i b] Hh. by apply blake256_compress_length. }
  match type of L with length ?h = _ =>
    destruct (bind_bytes (be_bytes 4) 4 h (fun x => conj (be_bytes_length 4 x) (be_bytes_byte 4 x))) as [B1 B2] end.
  split; [|exact B2]. rewrite B1, L. done.
Qed.
Lemma blake256_digest : digest256 blake256.
Proof. intros m _. apply blake256_out. Qed.

(** ** Keccak-256 *)
Lemma keccak_f_length a : length (keccak_f a) = 25%nat.
Proof.
  unfold keccak_f. change keccak_rc with (take 23 keccak_rc ++ [0x8000000080008008]).
  rewrite foldl_app. cbn [foldl]. unfold iota. rewrite insert_length. unfold chi, lanes. by rewrite fmap_length.
Qed.
Lemma keccak256_out m : length (keccak256 m) = 32%nat /\ Forall byte (keccak256 m).
Proof.
  unfold keccak256. cbv zeta.
  match goal with |- context [foldl ?f ?a ?l] => assert (L : length (foldl f a l) = 25%nat) end.
  { apply (foldl_inv (fun x => length x = 25%nat)); [|done]. intros h b Hh. apply keccak_f_length. }
  match type of L with length ?h = _ =>
    destruct (bind_bytes (le_bytes 8) 8 h (fun x => conj (le_bytes_length 8 x) (le_bytes_byte 8 x))) as [B1 B2] end.
  split; [|apply Forall_take; exact B2]. rewrite take_length, B1, L. done.
Qed.
Lemma keccak256_digest : digest256 keccak256.
Proof. intros m _. apply keccak256_out. Qed.

(** ** Skein-512-256 *)
Lemma threefish_round_length d v : length (threefish_round d v) = 8%nat.
Proof. unfold threefish_round. cbv zeta. by rewrite fmap_length. Qed.
Lemma threefish_length k t b : length (threefish k t b) = 8%nat.
Proof.
  unfold threefish. cbv zeta. change (seq 0 72) with (seq 0 71 ++ [71%nat]). rewrite foldl_app. cbn [foldl].
  rewrite zip_with_length, threefish_round_length. unfold threefish_subkey. rewrite fmap_length. done.
Qed.
Lemma skein_ubi_length g msg ty : length g = 8%nat -> length (skein_ubi g msg ty) = 8%nat.
Proof.
  intros H. unfold skein_ubi. cbv zeta. apply (foldl_inv_in (fun x => length x = 8%nat)); [|done].
  intros x [i b] Hb _. apply elem_of_lookup_imap in Hb as (j & y & E & Hy).
  injection E as -> ->. apply elem_of_list_lookup_2 in Hy. apply chunks_length in Hy; [|lia].
  rewrite zip_with_length, threefish_length, fmap_length, chunks_count, Hy. done.
Qed.
Lemma skein512_256_out m : length (skein512_256 m) = 32%nat /\ Forall byte (skein512_256 m).
Proof.
  unfold skein512_256. cbv zeta.
  destruct (bind_bytes (le_bytes 8) 8 (skein_ubi (skein_ubi (skein_ubi (replicate 8 0) skein_config 4) m 48)
    (replicate 8 0) 63) (fun x => conj (le_bytes_length 8 x) (le_bytes_byte 8 x))) as [B1 B2].
  split; [|apply Forall_take; exact B2]. rewrite take_length, B1.
  rewrite !skein_ubi_length by (rewrite ?skein_ubi_length; done). done.
Qed.
Lemma skein512_256_digest : digest256 skein512_256.
Proof. intros m _. apply skein512_256_out. Qed.

(** ** Groestl-256 *)
Lemma byte_lxor a b : byte a -> byte b -> byte (Z.lxor a b).
Proof. intros Ha Hb. apply (word_lxor 8); [lia|exact Ha|exact Hb]. Qed.
Lemma xtime_byte a : byte a -> byte (xtime a).
Proof.
  intros H. unfold xtime. cbv zeta. destruct (Z.ltb_spec (2 * a) 256); [unfold byte in *; lia|].
  unfold byte in *. assert (E : Z.lxor (2 * a) 0x11b = Z.lxor (2 * a - 256) 0x1b).
  { replace (2 * a) with ((2 * a - 256) + 256) at 1 by lia.
    assert (H8 : 2 * a - 256 = (2 * a - 256) mod 2 ^ 8) by (rewrite Z.mod_small; lia).
    rewrite H8. generalize (2 * a - 256). intros y. apply Z.bits_inj'. intros n Hn. rewrite !Z.lxor_spec.
    rewrite Z.add_nocarry_lxor.
    2:{ apply Z.bits_inj'. intros k Hk. rewrite Z.land_spec, Z.bits_0.
        destruct (Z.ltb_spec k 8); [|rewrite Z.mod_pow2_bits_high by lia; done].
        change 256 with (2 ^ 8). rewrite Z.pow2_bits_false by lia. by rewrite andb_false_r. }
    rewrite Z.lxor_spec, !xorb_assoc. f_equal. change 0x11b with (Z.lxor 256 0x1b). rewrite Z.lxor_spec.
    by rewrite <- xorb_assoc, xorb_nilpotent, xorb_false_l. }
  rewrite E. apply byte_lxor; unfold byte; lia.
Qed.
Lemma gmul_byte a b : byte a -> byte (gmul a b).
Proof.
  intros Ha. unfold gmul. apply (foldl_inv byte); [|unfold byte; lia]. intros x i Hx.
  destruct (Z.testbit b i); [|done]. apply byte_lxor; [done|]. induction (Z.to_nat i) as [|n IH]; [done|].
  cbn [Nat.iter]. by apply xtime_byte.
Qed.
Lemma rol8_byte n a : 0 <= n <= 8 -> byte a -> byte (rol 8 n a).
Proof.
  intros Hn Ha. unfold rol, byte in *.
  assert (E : 2 ^ n * 2 ^ (8 - n) = 256) by (rewrite <- Z.pow_add_r by lia; by replace (n + (8 - n)) with 8 by lia).
  assert (0 < 2 ^ n) by lia. assert (0 < 2 ^ (8 - n)) by lia.
  pose proof (Z.mod_pos_bound a (2 ^ (8 - n)) ltac:(lia)).
  assert (0 <= a / 2 ^ (8 - n)) by (apply Z.div_pos; lia).
  assert (a / 2 ^ (8 - n) < 2 ^ n) by (apply Z.div_lt_upper_bound; nia). nia.
Qed.
Lemma sbox_byte a : byte a -> byte (sbox a).
Proof.
  intros Ha. unfold sbox. cbv zeta.
  assert (Hg : byte (ginv a)) by (unfold ginv; cbv zeta; repeat apply gmul_byte; exact Ha).
  apply (foldl_inv_in byte); [|apply byte_lxor; [exact Hg|unfold byte; lia]].
  intros x n Hn Hx. apply byte_lxor; [done|]. apply rol8_byte; [|done].
  rewrite !elem_of_cons in Hn. destruct Hn as [->|[->|[->|[->|Hn]]]]; try lia. by apply elem_of_nil in Hn.
Qed.
Definition state64 (a : list Z) : Prop := length a = 64%nat /\ Forall byte a.
Lemma at_byte a r c : state64 a -> byte (at_ a r c).
Proof.
  intros [L H]. unfold at_. apply (Forall_lookup_total_1 _ _ _ H). rewrite L.
  pose proof (Nat.mod_upper_bound c 8 ltac:(lia)). pose proof (Nat.mod_upper_bound r 8 ltac:(lia)). lia.
Qed.
Lemma bytes64_state f : (forall r c, (r < 8)%nat -> (c < 8)%nat -> byte (f r c)) -> state64 (bytes64 f).
Proof.
  intros H. unfold bytes64. split; [by rewrite fmap_length, seq_length|].
  apply Forall_fmap, Forall_forall. intros k Hk. apply elem_of_seq in Hk. apply H.
  - apply Nat.mod_upper_bound. lia.
  - apply Nat.div_lt_upper_bound; lia.
Qed.
Lemma mix_state a : state64 a -> state64 (mix a).
Proof.
  intros H. apply bytes64_state. intros r c _ _. apply (foldl_inv_in byte); [|unfold byte; lia].
  intros x y Hy Hx. apply elem_of_list_fmap in Hy as (j & -> & _). apply byte_lxor; [done|].
  by apply gmul_byte, at_byte.
Qed.
Lemma shift_state o a : state64 a -> state64 (shift_rows o a).
Proof. intros H. apply bytes64_state. intros r c _ _. by apply at_byte. Qed.
Lemma sbox_state a : state64 a -> state64 (sbox <$> a).
Proof.
  intros [L H]. split; [by rewrite fmap_length|]. apply Forall_fmap. eapply Forall_impl; [exact H|].
  intros x Hx. by apply sbox_byte.
Qed.
Lemma const_byte i c : 0 <= i < 10 -> (c < 8)%nat -> byte (Z.lxor (16 * Z.of_nat c) i).
Proof. intros Hi Hc. apply byte_lxor; unfold byte; lia. Qed.
Lemma const_P_state i a : 0 <= i < 10 -> state64 a -> state64 (const_P i a).
Proof.
  intros Hi H. apply bytes64_state. intros r c Hr Hc. destruct (r =? 0)%nat; [|by apply at_byte].
  apply byte_lxor; [by apply at_byte|by apply const_byte].
Qed.
Lemma const_Q_state i a : 0 <= i < 10 -> state64 a -> state64 (const_Q i a).
Proof.
  intros Hi H. apply bytes64_state. intros r c Hr Hc. cbv zeta.
  assert (byte (Z.lxor (at_ a r c) 0xff)) by (apply byte_lxor; [by apply at_byte|unfold byte; lia]).
  destruct (r =? 7)%nat; [|done]. apply byte_lxor; [done|by apply const_byte].
Qed.
Lemma groestl_P_state a : state64 a -> state64 (groestl_P a).
Proof.
  intros H. unfold groestl_P. apply (foldl_inv_in state64); [|done]. intros x i Hi Hx.
  apply elem_of_seqZ in Hi. apply mix_state, shift_state, sbox_state, const_P_state; [lia|done].
Qed.
Lemma groestl_Q_state a : state64 a -> state64 (groestl_Q a).
Proof.
  intros H. unfold groestl_Q. apply (foldl_inv_in state64); [|done]. intros x i Hi Hx.
  apply elem_of_seqZ in Hi. apply mix_state, shift_state, sbox_state, const_Q_state; [lia|done].
Qed.
Lemma xor_state a b : state64 a -> state64 b -> state64 (xor_bytes a b).
Proof.
  intros [La Ha] [Lb Hb]. unfold xor_bytes. split; [rewrite zip_with_length; lia|].
  apply Forall_lookup. intros i x (y & z & -> & H1 & H2)%lookup_zip_with_Some.
  apply byte_lxor; [exact (proj1 (Forall_lookup _ _) Ha i y H1)|exact (proj1 (Forall_lookup _ _) Hb i z H2)].
Qed.
Lemma groestl256_digest : digest256 groestl256.
Proof.
  intros m Hm. unfold groestl256. cbv zeta.
  match goal with |- context [foldl ?f ?a ?l] => assert (L : state64 (foldl f a l)) end.
  { apply (foldl_inv_in state64).
    2:{ split; [apply be_bytes_length|apply be_bytes_byte]. }
    intros h b Hb Hh.
    assert (B : state64 b).
    { split; [apply (chunks_length 64) in Hb; [done|lia]|]. apply (chunks_byte 64) in Hb; [done|].
      unfold groestl_pad. cbv zeta. apply Forall_app. split; [done|]. constructor; [unfold byte; lia|].
      apply Forall_app. split; [apply Forall_replicate; unfold byte; lia|apply be_bytes_byte]. }
    unfold groestl_f. apply xor_state; [|done]. apply xor_state; [|by apply groestl_Q_state].
    apply groestl_P_state. by apply xor_state. }
  pose proof (xor_state _ _ (groestl_P_state _ L) L) as [L1 B1]. split; [|by apply Forall_drop].
  rewrite drop_length, L1. done.
Qed.

(** The digests of the external crates, as specified, have 32 bytes whatever the list they are applied to. *)
Lemma bytes64_length f : length (bytes64 f) = 64%nat.
Proof. unfold bytes64. by rewrite fmap_length, seq_length. Qed.
Lemma groestl_P_length a : length a = 64%nat -> length (groestl_P a) = 64%nat.
Proof. intros H. unfold groestl_P. apply (foldl_inv (fun x => length x = 64%nat)); [|done]. intros. apply bytes64_length. Qed.
Lemma groestl_Q_length a : length a = 64%nat -> length (groestl_Q a) = 64%nat.
Proof. intros H. unfold groestl_Q. apply (foldl_inv (fun x => length x = 64%nat)); [|done]. intros. apply bytes64_length. Qed.
Lemma groestl256_length m : length (groestl256 m) = 32%nat.
Proof.
  unfold groestl256. cbv zeta.
  match goal with |- context [foldl ?f ?a ?l] => assert (L : length (foldl f a l) = 64%nat) end.
  { apply (foldl_inv_in (fun x => length x = 64%nat)); [|apply be_bytes_length].
    intros h b Hb Hh. apply (chunks_length 64) in Hb; [|lia]. unfold groestl_f, xor_bytes.
    rewrite !zip_with_length, groestl_P_length, groestl_Q_length, Hh by (rewrite ?zip_with_length; lia). done. }
  unfold xor_bytes. rewrite drop_length, zip_with_length, groestl_P_length by exact L. by rewrite L.
Qed.
Lemma digests_length m : length (blake256 m) = 32%nat /\ length (keccak256 m) = 32%nat /\
  length (skein512_256 m) = 32%nat /\ length (groestl256 m) = 32%nat.
Proof.
  split; [apply blake256_out|]. split; [apply keccak256_out|]. split; [apply skein512_256_out|apply groestl256_length].
Qed.
