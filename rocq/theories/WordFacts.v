(** * Words, bytes and the BLAKE2b round: the model computes the specification *)
From Verif Require Import SpecWord SpecBlake2b Machine MachineFacts MUtils MLyra2.

(** ** Bits *)
Lemma land_mul_pow2 a b n : 0 <= n -> 0 <= a < 2 ^ n -> Z.land a (b * 2 ^ n) = 0.
Proof.
  intros Hn Ha. apply Z.bits_inj'. intros i Hi. rewrite Z.land_spec, Z.bits_0.
  destruct (Z.lt_ge_cases i n).
  - rewrite Z.mul_pow2_bits_low by lia. by rewrite andb_false_r.
  - rewrite <- (Z.mod_small a (2 ^ n)) by done. rewrite Z.mod_pow2_bits_high by lia. done.
Qed.
Lemma lor_add_disjoint a b n :
  0 <= n -> 0 <= a < 2 ^ n -> Z.lor a (b * 2 ^ n) = a + b * 2 ^ n.
Proof.
  intros Hn Ha. pose proof (land_mul_pow2 a b n Hn Ha) as Hl.
  rewrite <- Z.lxor_lor by done. by rewrite <- Z.add_nocarry_lxor by done.
Qed.
Lemma word_lxor w a b : 0 <= w -> word w a -> word w b -> word w (Z.lxor a b).
Proof.
  unfold word. intros Hw Ha Hb. split; [apply Z.lxor_nonneg; lia|].
  destruct (Z.eq_dec (Z.lxor a b) 0) as [->|Hne]; [lia|].
  assert (0 <= Z.lxor a b) by (apply Z.lxor_nonneg; lia).
  apply Z.log2_lt_pow2; [lia|]. destruct (Z.eq_dec w 0) as [->|].
  { change (2 ^ 0) with 1 in *. assert (a = 0) by lia. assert (b = 0) by lia. subst. done. }
  pose proof (Z.log2_lxor a b ltac:(lia) ltac:(lia)).
  assert (Z.log2 a < w). { destruct (Z.eq_dec a 0) as [->|]; [cbn; lia|]. apply Z.log2_lt_pow2; lia. }
  assert (Z.log2 b < w). { destruct (Z.eq_dec b 0) as [->|]; [cbn; lia|]. apply Z.log2_lt_pow2; lia. }
  lia.
Qed.
Lemma word_addw w a b : 0 <= w -> word w (addw w a b).
Proof. intros. apply Z.mod_pos_bound. apply Z.pow_pos_nonneg; lia. Qed.
Lemma word_ror w n x : 0 <= n <= w -> word w x -> word w (ror w n x).
Proof.
  unfold word, ror. intros Hn Hx.
  assert (0 < 2 ^ n) by (apply Z.pow_pos_nonneg; lia).
  assert (0 < 2 ^ (w - n)) by (apply Z.pow_pos_nonneg; lia).
  assert (2 ^ w = 2 ^ n * 2 ^ (w - n)) as E by (rewrite <- Z.pow_add_r by lia; f_equal; lia).
  pose proof (Z.mod_pos_bound x (2 ^ n)).
  assert (0 <= x / 2 ^ n) by (apply Z.div_pos; lia).
  assert (x / 2 ^ n < 2 ^ (w - n)) by (apply Z.div_lt_upper_bound; lia).
  nia.
Qed.
Lemma rotr64_ror x c : 0 < c < 64 -> word 64 x -> rotr64 x c = ror 64 c x.
Proof.
  intros Hc Hx. unfold rotr64, ror, wshr, wshl. rewrite Z.land_ones, Z.shiftr_div_pow2, Z.shiftl_mul_pow2 by lia.
  assert (2 ^ 64 = 2 ^ c * 2 ^ (64 - c)) as E by (rewrite <- Z.pow_add_r by lia; f_equal; lia).
  rewrite E at 1. rewrite Z.mul_mod_distr_r.
  - apply lor_add_disjoint; [lia|]. unfold word in Hx. split; [apply Z.div_pos; lia|].
    apply Z.div_lt_upper_bound; lia.
  - apply Z.pow_nonzero; lia.
  - apply Z.pow_nonzero; lia.
Qed.

Lemma word_rotr64 x c : 0 < c < 64 -> word 64 x -> word 64 (rotr64 x c).
Proof. intros. rewrite rotr64_ror by done. apply word_ror; [lia|done]. Qed.

(** ** Bytes *)
Lemma to_le_bytes_spec n x : to_le_bytes n x = le_bytes n x.
Proof.
  revert x. induction n as [|n IH]; intros x; [done|].
  cbn [to_le_bytes]. unfold le_bytes. cbn [seq fmap list_fmap]. f_equal.
  - change 255 with (Z.ones 8). rewrite Z.land_ones by lia. by rewrite Z.div_1_r.
  - rewrite IH. unfold le_bytes. rewrite <- fmap_S_seq, <- list_fmap_compose.
    apply list_fmap_ext. intros i k _. unfold compose.
    rewrite Z.shiftr_div_pow2 by lia. change (2 ^ 8) with 256.
    rewrite Z.div_div by (try apply Z.pow_pos_nonneg; lia).
    rewrite Nat2Z.inj_succ, Z.pow_succ_r by lia. done.
Qed.
Lemma le_bytes_length n x : length (le_bytes n x) = n.
Proof. unfold le_bytes. by rewrite fmap_length, seq_length. Qed.
Lemma le_bytes_byte n x : Forall byte (le_bytes n x).
Proof.
  unfold le_bytes. apply Forall_fmap, Forall_true. intros i. apply Z.mod_pos_bound. lia.
Qed.
Lemma le_bytes_S n x : le_bytes (S n) x = x mod 256 :: le_bytes n (x / 256).
Proof.
  rewrite <- !to_le_bytes_spec. cbn [to_le_bytes]. f_equal.
  - change 255 with (Z.ones 8). by rewrite Z.land_ones by lia.
  - by rewrite Z.shiftr_div_pow2 by lia.
Qed.
Lemma le_number_bound bs : Forall byte bs -> 0 <= le_number bs < 256 ^ Z.of_nat (length bs).
Proof.
  unfold byte. induction 1 as [|b bs Hb _ IH]; simpl; [lia|].
  rewrite Nat2Z.inj_succ, Z.pow_succ_r by lia. lia.
Qed.
Lemma le_number_le_bytes n x : 0 <= x < 256 ^ Z.of_nat n -> le_number (le_bytes n x) = x.
Proof.
  revert x. induction n as [|n IH]; intros x Hx.
  - cbn in *. lia.
  - rewrite le_bytes_S. cbn [le_number foldr]. fold (le_number (le_bytes n (x / 256))).
    rewrite Nat2Z.inj_succ, Z.pow_succ_r in Hx by lia.
    rewrite IH. { rewrite (Z.div_mod x 256) at 3 by lia. lia. }
    split; [apply Z.div_pos; lia|apply Z.div_lt_upper_bound; lia].
Qed.
Lemma le_bytes_le_number bs : Forall byte bs -> le_bytes (length bs) (le_number bs) = bs.
Proof.
  unfold byte. induction 1 as [|b bs Hb _ IH]; [done|].
  cbn [length]. rewrite le_bytes_S. cbn [le_number foldr]. fold (le_number bs).
  replace (b + 256 * le_number bs) with (le_number bs * 256 + b) by lia.
  rewrite Z.add_mod, Z.mod_mul, Z.add_0_l, Z.mod_mod, Z.mod_small by lia.
  rewrite Z.div_add_l by lia. rewrite (Z.div_small b 256), Z.add_0_r by lia. by rewrite IH.
Qed.

Lemma vget_nth m i : 0 <= i < vlen m -> vget m i = Ok (nth (Z.to_nat i) m 0).
Proof.
  intros H. unfold vget. replace (_ && _) with true; [done|].
  symmetry. apply andb_true_iff. split; [apply Z.leb_le|apply Z.ltb_lt]; lia.
Qed.
Lemma read_u64_le_spec bs :
  length bs = 8%nat -> Forall byte bs -> read_u64_le bs = Ok (le_number bs).
Proof.
  intros Hl Hb. do 9 (destruct bs as [|? bs]; try discriminate Hl). clear Hl.
  repeat match goal with H : Forall _ (_ :: _) |- _ => apply Forall_cons_1 in H; destruct H end.
  unfold byte in *. unfold read_u64_le. 
  rewrite !vget_nth by (unfold vlen; simpl; lia). cbn [obind].
  change (Z.to_nat 0) with 0%nat. change (Z.to_nat 1) with 1%nat.
  change (Z.to_nat 2) with 2%nat. change (Z.to_nat 3) with 3%nat.
  change (Z.to_nat 4) with 4%nat. change (Z.to_nat 5) with 5%nat.
  change (Z.to_nat 6) with 6%nat. change (Z.to_nat 7) with 7%nat. cbn [nth].
  unfold wshl. rewrite !Z.land_ones, !Z.shiftl_mul_pow2 by lia.
  rewrite !(Z.mod_small (_ * _)) by lia.
  rewrite (lor_add_disjoint _ _ 8) by lia. rewrite (lor_add_disjoint _ _ 16) by lia. rewrite (lor_add_disjoint _ _ 24) by lia. rewrite (lor_add_disjoint _ _ 32) by lia. rewrite (lor_add_disjoint _ _ 40) by lia. rewrite (lor_add_disjoint _ _ 48) by lia. rewrite (lor_add_disjoint _ _ 56) by lia.
  f_equal. cbn [le_number foldr]. lia.
Qed.
Lemma read_u32_le_spec bs :
  length bs = 4%nat -> Forall byte bs -> read_u32_le bs = Ok (le_number bs).
Proof.
  intros Hl Hb. do 5 (destruct bs as [|? bs]; try discriminate Hl). clear Hl.
  repeat match goal with H : Forall _ (_ :: _) |- _ => apply Forall_cons_1 in H; destruct H end.
  unfold byte in *. unfold read_u32_le.
  rewrite !vget_nth by (unfold vlen; simpl; lia). cbn [obind].
  change (Z.to_nat 0) with 0%nat. change (Z.to_nat 1) with 1%nat.
  change (Z.to_nat 2) with 2%nat. change (Z.to_nat 3) with 3%nat.
  change (Z.to_nat 4) with 4%nat. change (Z.to_nat 5) with 5%nat.
  change (Z.to_nat 6) with 6%nat. change (Z.to_nat 7) with 7%nat. cbn [nth].
  unfold wshl. rewrite !Z.land_ones, !Z.shiftl_mul_pow2 by lia.
  rewrite !(Z.mod_small (_ * _)) by lia.
  rewrite (lor_add_disjoint _ _ 8) by lia. rewrite (lor_add_disjoint _ _ 16) by lia. rewrite (lor_add_disjoint _ _ 24) by lia.
  f_equal. cbn [le_number foldr]. lia.
Qed.

(** ** The round *)
Lemma state16_word v i : state16 v -> (i < 16)%nat -> word 64 (v !!! i).
Proof.
  intros [Hl Hf] Hi. eapply Forall_lookup_total_1; [done|lia].
Qed.
Lemma state16_insert v i x : state16 v -> word 64 x -> state16 (<[i := x]> v).
Proof. intros [Hl Hf] Hx. split; [by rewrite insert_length|by apply Forall_insert]. Qed.

Section g_at.
  Context (v : list Z) (i j k l : nat).
  Context (Hv : state16 v) (Hi : (i < 16)%nat) (Hj : (j < 16)%nat) (Hk : (k < 16)%nat) (Hl : (l < 16)%nat).
  Context (Hij : i <> j) (Hik : i <> k) (Hil : i <> l) (Hjk : j <> k) (Hjl : j <> l) (Hkl : k <> l).

  Lemma G_unfold :
    let a := v !!! i in let b := v !!! j in let c := v !!! k in let d := v !!! l in
    let a := addw 64 a b in
    let d := ror 64 32 (Z.lxor d a) in
    let c := addw 64 c d in
    let b := ror 64 24 (Z.lxor b c) in
    let a := addw 64 a b in
    let d := ror 64 16 (Z.lxor d a) in
    let c := addw 64 c d in
    let b := ror 64 63 (Z.lxor b c) in
    G v (i, j, k, l) = <[l := d]> (<[k := c]> (<[j := b]> (<[i := a]> v))).
  Proof.
    destruct Hv as [Hlen _]. intros. unfold G. cbv zeta.
    repeat (rewrite ?(list_lookup_total_insert_ne) by congruence;
            rewrite ?list_lookup_total_insert by (rewrite ?insert_length; lia)).
    apply list_eq. intros n.
    repeat match goal with |- context [<[?x := _]> _ !! n] =>
      destruct (decide (n = x)) as [->|];
      [rewrite ?list_lookup_insert by (rewrite ?insert_length; lia)
      |rewrite ?(list_lookup_insert_ne _ x n) by congruence] end;
    repeat first [rewrite list_lookup_insert by (rewrite ?insert_length; lia)
                 |rewrite list_lookup_insert_ne by congruence]; done.
  Qed.
  Lemma G_state16 : state16 (G v (i, j, k, l)).
  Proof.
    rewrite G_unfold. cbv zeta.
    repeat apply state16_insert; auto; repeat first
      [ apply word_addw; lia | apply word_ror; [lia|] | apply word_lxor; [lia| |] | by apply state16_word ].
  Qed.
  Lemma g_at_G : g_at v i j k l = G v (i, j, k, l).
  Proof.
    rewrite G_unfold. destruct Hv as [Hlen _]. unfold g_at, g. cbv zeta.
    rewrite !aget_total by lia. unfold wadd. rewrite !Z.land_ones by lia.
    repeat match goal with |- context [(?x + ?y) mod 2 ^ 64] =>
      change ((x + y) mod 2 ^ 64) with (addw 64 x y) end.
    assert (Ha := state16_word v i Hv Hi). assert (Hb := state16_word v j Hv Hj).
    assert (Hc := state16_word v k Hv Hk). assert (Hd := state16_word v l Hv Hl).
    rewrite !rotr64_ror; try lia; [done|..].
    all: repeat first [ assumption | apply word_addw; lia | apply word_rotr64; [lia|] | apply word_ror; [lia|] | apply word_lxor; [lia| |] ].
  Qed.
End g_at.

Lemma blake2b_round_unfold v :
  blake2b_round v =
  G (G (G (G (G (G (G (G v (0,4,8,12)%nat) (1,5,9,13)%nat) (2,6,10,14)%nat) (3,7,11,15)%nat)
     (0,5,10,15)%nat) (1,6,11,12)%nat) (2,7,8,13)%nat) (3,4,9,14)%nat.
Proof. reflexivity. Qed.
Ltac gstep v i j k l v' H H' :=
  rewrite (g_at_G v i j k l) by (exact H || lia);
  pose proof (G_state16 v i j k l ltac:(exact H) ltac:(lia) ltac:(lia) ltac:(lia) ltac:(lia)
    ltac:(lia) ltac:(lia) ltac:(lia) ltac:(lia) ltac:(lia) ltac:(lia)) as H';
  revert H'; generalize (G v (i, j, k, l)); clear v H; intros v' H'.
Lemma round_lyra_spec_state16 v :
  state16 v -> round_lyra v = blake2b_round v /\ state16 (blake2b_round v).
Proof.
  intros H. rewrite blake2b_round_unfold. unfold round_lyra.
  gstep v 0%nat 4%nat 8%nat 12%nat v1 H H1.
  gstep v1 1%nat 5%nat 9%nat 13%nat v2 H1 H2.
  gstep v2 2%nat 6%nat 10%nat 14%nat v3 H2 H3.
  gstep v3 3%nat 7%nat 11%nat 15%nat v4 H3 H4.
  gstep v4 0%nat 5%nat 10%nat 15%nat v5 H4 H5.
  gstep v5 1%nat 6%nat 11%nat 12%nat v6 H5 H6.
  gstep v6 2%nat 7%nat 8%nat 13%nat v7 H6 H7.
  gstep v7 3%nat 4%nat 9%nat 14%nat v8 H7 H8. done.
Qed.
Lemma blake2b_round_state16 v : state16 v -> state16 (blake2b_round v).
Proof. apply round_lyra_spec_state16. Qed.
Lemma round_lyra_spec v : state16 v -> round_lyra v = blake2b_round v.
Proof. apply round_lyra_spec_state16. Qed.
Lemma iter_round_state16 n v : state16 v -> state16 (Nat.iter n blake2b_round v).
Proof. intros. induction n; [done|]. simpl. by apply blake2b_round_state16. Qed.
Lemma iter_round_lyra n v : state16 v -> Nat.iter n round_lyra v = Nat.iter n blake2b_round v.
Proof.
  intros H. induction n as [|n IH]; [done|].
  change (round_lyra (Nat.iter n round_lyra v) = blake2b_round (Nat.iter n blake2b_round v)).
  rewrite IH. apply round_lyra_spec. by apply iter_round_state16.
Qed.
Strategy 1000 [round_lyra].
Lemma blake2b_lyra_spec v : state16 v -> blake2b_lyra v = Nat.iter 12 blake2b_round v.
Proof.
  intros H. rewrite <- iter_round_lyra by done. unfold blake2b_lyra. cbv zeta.
  generalize round_lyra. reflexivity.
Qed.
Lemma blake2b_iv_spec : BLAKE2BIV = blake2b_iv.
Proof. vm_compute. reflexivity. Qed.
