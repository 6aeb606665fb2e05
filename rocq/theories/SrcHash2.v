(** * The functions translated by tools/rust2coq.py are the model: bmw/mod.rs *)
From Verif Require Import Machine MachineFacts MUtils MBmwGen MBmw SrcOps SrcFacts SrcLoops.
From Verif Require SrcUtils SrcBmw.
#[local] Open Scope Z_scope.

Lemma src_circ p x n : 0 < n < 32 -> SrcBmw.circular_left p x n = Ok (circular_left x n).
Proof.
  intros Hn. unfold SrcBmw.circular_left, circular_left, shr_chk, shl_chk, u32sub, chk_w.
  rewrite (proj2 (Z.ltb_lt n 32)) by lia. cbn [obind].
  rewrite (proj2 (Z.leb_le 0 (32 - n))), (proj2 (Z.ltb_lt (32 - n) (2 ^ 32))) by lia. cbn [andb obind].
  rewrite (proj2 (Z.ltb_lt (32 - n) 32)) by lia. reflexivity.
Qed.
#[local] Opaque SrcBmw.circular_left circular_left wadd wsub wshl wshr.
(** One assignment. *)
Lemma ins_step {R A} (k : nat) (E : Z) (q : list Z) (f : list Z -> outcome A) (K : list Z -> outcome A)
    (st : list Z -> nat * R -> list Z) (x : nat * R) (l : list (nat * R)) :
  <[k := E]> q = st q x -> (forall q', length q' = length q -> f q' = K (foldl st q' l)) ->
  obind (Ok (<[k := E]> q)) f = K (foldl st q (x :: l)).
Proof. intros H1 H2. cbn [obind foldl]. rewrite <- H1. apply H2. by rewrite insert_length. Qed.
Lemma nil_step {R A} (r : outcome A) (K : list Z -> outcome A) (st : list Z -> nat * R -> list Z) q :
  r = K q -> r = K (foldl st q []).
Proof. done. Qed.
Ltac cstep := match goal with
  | |- obind (SrcBmw.circular_left ?p ?x ?n) ?f = ?r => refine (bind_l _ _ f r (src_circ p x n _) _); [split; reflexivity|]; hb
  end.
Ltac qstep := repeat cstep; refine (ins_step _ _ _ _ _ _ _ _ _ _); [reflexivity|];
  let q := fresh "q" in let Hq := fresh "Hq" in intros q Hq; cbv beta.

Definition brec (b : Bmw) : SrcBmw.Bmw := SrcBmw.MkBmw (b_m b) (b_h b) (b_h2 b) (b_q b).
Lemma slice_full (v : list Z) (n : nat) : length v = n -> slice v 0 (Z.of_nat n) = Ok v.
Proof.
  intros <-. unfold slice. fold (vlen v). rewrite Z.leb_refl, Z.sub_0_r. cbn [andb].
  rewrite (proj2 (Z.leb_le 0 (vlen v))) by (unfold vlen; lia). cbn [Z.leb Z.compare]. change (Z.to_nat 0) with 0%nat. rewrite drop_0.
  unfold vlen. rewrite Nat2Z.id, Z.leb_refl. cbn [andb]. f_equal. by apply take_ge.
Qed.
Lemma slice_set_full (v s : list Z) (n : nat) : length v = n -> length s = n -> slice_set v (Z.of_nat n) s = Ok s.
Proof.
  intros Hv Hs. unfold slice_set, vlen. rewrite Hv, Hs, Z.leb_refl, Z.eqb_refl.
  rewrite (proj2 (Z.leb_le 0 (Z.of_nat n))) by lia. cbn [andb]. rewrite Nat2Z.id, <- Hv, drop_all. by rewrite app_nil_r.
Qed.
Lemma src_compress p b m : length (b_h b) = 16%nat -> length (b_q b) = 32%nat ->
  SrcBmw.compress p (brec b) m = Ok (brec (compress b m)).
Proof.
  intros Hh Hq. destruct b as [bm bh bh2 bq]. unfold SrcBmw.compress, brec. cbn [b_m b_h b_h2 b_q] in *. hb. hb. hb.
  unfold compress. cbn [b_m b_h b_h2 b_q].
  unfold compress_f0.
  remember (fun q => Ok (SrcBmw.MkBmw bm (compress_f2 m bh (compress_f1 m bh q)) bh2 (compress_f1 m bh q))) as K eqn:HK.
  match goal with |- ?l = Ok (SrcBmw.MkBmw _ (compress_f2 _ _ (compress_f1 _ _ ?x)) _ _) => transitivity (K x); [|by rewrite HK] end.
  do 16 qstep. apply nil_step. rewrite HK. clear K HK.
  match goal with H : length ?q = _ |- obind _ _ = Ok (SrcBmw.MkBmw _ _ _ (compress_f1 _ _ ?q)) =>
    assert (Hq32 : length q = 32%nat) by congruence; clear -Hq32 Hh Hq; rename q into q0 end.
  unfold compress_f1.
  remember (fun q => Ok (SrcBmw.MkBmw bm (compress_f2 m bh q) bh2 q)) as K eqn:HK.
  match goal with |- ?l = Ok (SrcBmw.MkBmw _ (compress_f2 _ _ ?x) _ _) => transitivity (K x); [|by rewrite HK] end.
  do 16 qstep. apply nil_step. rewrite HK. clear K HK.
  match goal with H : length ?q = _ |- obind _ _ = Ok (SrcBmw.MkBmw _ _ _ ?q) =>
    assert (Hq' : length q = 32%nat) by congruence; clear -Hq' Hh Hq; rename q into q1 end.
  cbv delta [compress_f2] beta zeta.
  lazymatch goal with |- obind (Ok ?e) ?f = ?r => refine (eq_trans (f_equal (fun z => obind (Ok z) f) (eq_refl : e = bmw_xl q1)) _) end.
  generalize (bmw_xl q1). intros xl. cbv beta. hb.
  lazymatch goal with |- obind (Ok ?e) ?f = ?r => refine (eq_trans (f_equal (fun z => obind (Ok z) f) (eq_refl : e = bmw_xh q1 xl)) _) end.
  generalize (bmw_xh q1 xl). intros xh. cbv beta. hb.
  remember (fun h => Ok (SrcBmw.MkBmw bm h bh2 q1)) as K eqn:HK.
  match goal with |- ?l = Ok (SrcBmw.MkBmw _ ?x _ _) => transitivity (K x); [|by rewrite HK] end.
  do 16 qstep. apply nil_step. rewrite HK. clear K HK.
  match goal with H : length ?q = _ |- obind _ _ = Ok (SrcBmw.MkBmw _ ?q _ _) =>
    assert (Hh' : length q = 16%nat) by congruence; clear -Hq' Hh' Hq Hh; rename q into h1 end.
  change 16 with (Z.of_nat 16). change 32 with (Z.of_nat 32).
  rewrite (slice_full h1) by done. hb. rewrite (slice_set_full bh) by done. hb.
  rewrite (slice_full q1) by done. hb. rewrite (slice_set_full bq) by done. hb. reflexivity.
Qed.
