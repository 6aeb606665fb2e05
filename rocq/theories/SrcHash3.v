(** * The functions translated by tools/rust2coq.py are the model: sum of bmw/mod.rs and the chained hashes *)
From Verif Require Import Machine MachineFacts MUtils MLyra2 MCube MBmwGen MBmw MChains SrcOps SrcFacts SrcLoops SrcTop SrcHash SrcHash2.
From Verif Require CubeFacts SrcUtils SrcLyra2 SrcLyra2mod SrcCube SrcBmw SrcChains.
#[local] Open Scope Z_scope.

#[local] Transparent bmw_new FINAL compress.
Lemma src_bmw_new p : SrcBmw.new p = Ok (brec bmw_new).
Proof. reflexivity. Qed.
Lemma foldl_ins_length {R} (f : list Z -> R -> Z) (l : list (nat * R)) (q : list Z) :
  length (foldl (fun q '(i, rhs) => <[i := f q rhs]> q) q l) = length q.
Proof. revert q. induction l as [|[i r] l IH]; intros q; cbn [foldl]; [done|]. by rewrite IH, insert_length. Qed.
Lemma compress_length b m : length (b_h (compress b m)) = length (b_h b) /\ length (b_q (compress b m)) = length (b_q b).
Proof.
  unfold compress. cbv zeta. cbn [b_h b_q]. unfold compress_f2, compress_f1, compress_f0. cbv zeta. split.
  - apply (foldl_ins_length (fun h rhs => rhs m h _ _ _)).
  - etransitivity; [apply (foldl_ins_length (fun q rhs => rhs m (b_h b) q))|].
    apply (foldl_ins_length (fun q rhs => rhs m (b_h b) q)).
Qed.
Lemma src_bmw_fill p input : for_range 0 64 (SrcBmw.sum_body1 p input) [] =
  for_range 0 64 (fun i buf =>
            if i <? vlen input then
              x <-- vget input i ;; vec_extend p buf [x]
            else vec_extend p buf [0]) [].
Proof.
  apply for_range_ext. intros i b _. unfold SrcBmw.sum_body1. destruct (i <? vlen input); rewrite obind_ret.
  - apply obind_cong. intros. apply obind_ret.
  - apply obind_ret.
Qed.
Lemma src_bmw_words p buf m : known_platform p -> for_range 0 16 (SrcBmw.sum_body2 p buf) m = bmw_words buf m.
Proof.
  intros Hp. apply for_range_ext. intros i b Hi. unfold SrcBmw.sum_body2, szmul, szadd.
  assert (Hb : 2 ^ 32 <= 2 ^ usize_bits p) by (destruct Hp as [-> | ->]; done).
  rewrite (chk_usize_Ok p (4 * i)) by lia. cbn [obind]. rewrite (chk_usize_Ok p (4 * i + 4)) by lia. cbn [obind].
  apply obind_cong. intros bs _. rewrite src_read_u32. apply obind_cong. intros w _. apply obind_ret.
Qed.
#[local] Opaque SrcBmw.new bmw_new compress SrcBmw.compress.
Lemma src_bmw_sum p input : known_platform p -> SrcBmw.sum p input = bmw_sum p input.
Proof.
  intros Hp. unfold SrcBmw.sum, bmw_sum. rewrite src_bmw_new. hb.
  assert (Hl : length (b_h bmw_new) = 16%nat /\ length (b_q bmw_new) = 32%nat /\ length (b_h2 bmw_new) = 16%nat) by done.
  generalize dependent bmw_new. intros b (Hh & Hq & Hh2).
  change (brec b) with (SrcBmw.MkBmw (b_m b) (b_h b) (b_h2 b) (b_q b)). cbv beta iota zeta.
  unfold vec_with_capacity. pose proof (CubeFacts.known_isize p Hp) as Hs.
  rewrite (proj2 (Z.leb_le (64 * 1) (isize_max p))) by lia. hb.
  rewrite src_bmw_fill. unfold bmw_buf at 1.
  ar. cg b0 E0. ar. cg b1 E1. hb.
  cbn [foldM]. do 8 (norm; let b2 := fresh "b" in let E2 := fresh "E" in cg b2 E2). norm. hb.
  rewrite src_bmw_words by done. cg m Em. hb.
  change (SrcBmw.MkBmw m (b_h b) (b_h2 b) (b_q b)) with (brec (MkBmw m (b_h b) (b_h2 b) (b_q b))).
  rewrite src_compress by done. hb.
  destruct (compress_length (MkBmw m (b_h b) (b_h2 b) (b_q b)) m) as [L1 L2]. cbn [b_h b_q] in L1, L2.
  assert (L3 : b_h2 (compress (MkBmw m (b_h b) (b_h2 b) (b_q b)) m) = b_h2 b) by done.
  generalize dependent (compress (MkBmw m (b_h b) (b_h2 b) (b_q b)) m). intros c L1 L2 L3.
  change (brec c) with (SrcBmw.MkBmw (b_m c) (b_h c) (b_h2 c) (b_q c)). cbv beta iota. hb.
  change 16 with (Z.of_nat 16).
  rewrite (slice_full (b_h c)) by congruence. hb. rewrite (slice_set_full (b_h2 c)) by congruence. hb.
  change SrcBmw.FINAL with FINAL.
  rewrite (slice_full FINAL) by done. hb. rewrite (slice_set_full (b_h c) FINAL) by (congruence || done). hb. hb.
  change (SrcBmw.MkBmw (b_m c) FINAL (b_h c) (b_q c)) with (brec (MkBmw (b_m c) FINAL (b_h c) (b_q c))).
  rewrite src_compress by (done || (cbn [b_q]; congruence)). hb. cbn [b_h2].
  generalize (compress (MkBmw (b_m c) FINAL (b_h c) (b_q c)) (b_h c)). intros d.
  change (brec d) with (SrcBmw.MkBmw (b_m d) (b_h d) (b_h2 d) (b_q d)). cbv beta iota. hb. reflexivity.
Qed.

Lemma src_lyra2re b k s g p input : known_platform p ->
  SrcChains.lyra2re_sum b k s g p input = MChains.lyra2re_sum p b k s g input.
Proof. intros Hp. unfold SrcChains.lyra2re_sum, MChains.lyra2re_sum. do 3 hb. by rewrite src_lyra2. Qed.
Lemma src_lyra2rev2 b k s p input : known_platform p ->
  SrcChains.lyra2rev2_sum b k s p input = MChains.lyra2rev2_sum p b k s input.
Proof.
  intros Hp. unfold SrcChains.lyra2rev2_sum, MChains.lyra2rev2_sum. do 2 hb. rewrite src_cubehash_sum.
  cg x Ex. rewrite src_lyra2_sum by done. cg y Ey. hb. rewrite src_cubehash_sum. cg z Ez. by apply src_bmw_sum.
Qed.
Lemma src_lyra2rev3 b p input : known_platform p ->
  SrcChains.lyra2rev3_sum b p input = MChains.lyra2rev3_sum p b input.
Proof.
  intros Hp. unfold SrcChains.lyra2rev3_sum, MChains.lyra2rev3_sum. hb. rewrite src_lyra2mod_sum by done.
  cg x Ex. rewrite src_cubehash_sum. cg y Ey. rewrite src_lyra2mod_sum by done. cg z Ez. by apply src_bmw_sum.
Qed.
Lemma src_lyra2z b p input : known_platform p ->
  SrcChains.lyra2z_sum b p input = MChains.lyra2z_sum p b input.
Proof. intros Hp. unfold SrcChains.lyra2z_sum, MChains.lyra2z_sum. do 2 hb. by apply src_lyra2. Qed.
