(** * The functions translated by tools/rust2coq.py are the model: cubehash/mod.rs *)
From stdpp Require Import list_numbers.
From Verif Require Import Machine MachineFacts MUtils MCubeGen MCube SrcOps SrcFacts.
From Verif Require SrcUtils SrcCube.
#[local] Open Scope Z_scope.

Lemma for_iter {S T} (t : T -> S) (f : T -> T) (body : Z -> S -> outcome S) n x : Z.of_nat n < 2 ^ 64 ->
  (forall i x, body i (t x) = Ok (t (f x))) -> for_range 0 (Z.of_nat n) body (t x) = Ok (t (Nat.iter n f x)).
Proof.
  intros Hn H. rewrite for_range_foldM by lia. rewrite Z.sub_0_r. clear Hn.
  assert (Hg : forall lo, foldM (fun s i => body i s) (seqZ lo (Z.of_nat n)) (t x) = Ok (t (Nat.iter n f x))); [|done].
  induction n as [|n IH]; intros lo; [done|].
  rewrite Nat2Z.inj_succ, <- Z.add_1_r, seqZ_app by lia. rewrite foldM_app, IH.
  rewrite (seqZ_cons _ 1) by lia. change (Z.pred 1) with 0. cbn [obind seqZ foldM Nat.iter nat_rect]. rewrite H. reflexivity.
Qed.

Definition ctup (c : CubeHash) :=
  let '(Cube x0 x1 x2 x3 x4 x5 x6 x7 x8 x9 xa xb xc xd xe xf xg xh xi xj xk xl xm xn xo xp xq xr xs xt xu xv) := c in
  (x0, x1, x2, x3, x4, x5, x6, x7, x8, x9, xa, xb, xc, xd, xe, xf, xg, xh, xi, xj, xk, xl, xm, xn, xo, xp, xq, xr, xs, xt, xu, xv).
Definition crec (c : CubeHash) : SrcCube.CubeHash :=
  let '(Cube x0 x1 x2 x3 x4 x5 x6 x7 x8 x9 xa xb xc xd xe xf xg xh xi xj xk xl xm xn xo xp xq xr xs xt xu xv) := c in
  SrcCube.MkCubeHash x0 x1 x2 x3 x4 x5 x6 x7 x8 x9 xa xb xc xd xe xf xg xh xi xj xk xl xm xn xo xp xq xr xs xt xu xv.
#[local] Transparent two_rounds sixteen_rounds.
Lemma src_two_rounds p i c : SrcCube.sixteen_rounds_body1 p i (ctup c) = Ok (ctup (two_rounds c)).
Proof. destruct c. cbv -[wadd wshl wshr Z.lor Z.lxor]. reflexivity. Qed.
#[local] Opaque two_rounds SrcCube.sixteen_rounds_body1.
Lemma src_sixteen p c : SrcCube.sixteen_rounds p (crec c) = Ok (crec (sixteen_rounds c)).
Proof.
  unfold sixteen_rounds, SrcCube.sixteen_rounds.
  pose proof (for_iter ctup two_rounds (SrcCube.sixteen_rounds_body1 p) 8 c eq_refl (src_two_rounds p)) as H.
  change (Z.of_nat 8) with 8 in H. generalize dependent (Nat.iter 8 two_rounds c). intros d H.
  destruct c, d. cbn [crec obind ctup] in *. rewrite H. reflexivity.
Qed.
#[local] Opaque sixteen_rounds SrcCube.sixteen_rounds.
Lemma src_input p data c : SrcCube.input_block p data (crec c) = obind (input_block data c) (fun c => Ok (crec c)).
Proof.
  destruct c. unfold SrcCube.input_block, input_block, read_at. cbn [crec obind].
  repeat first [ hb | match goal with
  | |- obind (SrcUtils.read_u32_le ?p ?d) ?f = ?r => refine (bind_l _ _ f r (src_read_u32 p d) _) 
  | |- ?r = obind (obind ?e ?f) ?g => refine (eq_trans _ (eq_sym (obind_assoc e f g))); cbv beta
  | |- obind ?e _ = obind ?e _ => apply obind_cong; intros ? _; cbv beta zeta
  end].
  reflexivity.
Qed.
Lemma src_cube_new p : SrcCube.new_cube_hash p = Ok (crec new_cube_hash).
Proof. reflexivity. Qed.
#[local] Opaque new_cube_hash SrcCube.new_cube_hash SrcCube.input_block.
Lemma src_cube_iter p c : for_range 0 10 (SrcCube.sum_body1 p) (ctup c) = Ok (ctup (Nat.iter 10 sixteen_rounds c)).
Proof.
  apply (for_iter ctup sixteen_rounds (SrcCube.sum_body1 p) 10 c eq_refl). intros i d.
  pose proof (src_sixteen p d) as H. destruct d. unfold SrcCube.sum_body1. cbn [ctup crec] in *. rewrite H.
  destruct (sixteen_rounds _). reflexivity.
Qed.
Lemma src_cubehash_sum p data : SrcCube.sum p data = cubehash_sum p data.
Proof.
  unfold SrcCube.sum, cubehash_sum. rewrite src_cube_new. hb. generalize new_cube_hash. intros c0.
  Ltac fold_rec c := match goal with |- context [SrcCube.MkCubeHash ?x0 ?x1 ?x2 ?x3 ?x4 ?x5 ?x6 ?x7 ?x8 ?x9 ?xa ?xb ?xc ?xd ?xe ?xf ?xg ?xh ?xi ?xj ?xk ?xl ?xm ?xn ?xo ?xp ?xq ?xr ?xs ?xt ?xu ?xv] => 
    change (SrcCube.MkCubeHash x0 x1 x2 x3 x4 x5 x6 x7 x8 x9 xa xb xc xd xe xf xg xh xi xj xk xl xm xn xo xp xq xr xs xt xu xv) with
     (crec (Cube x0 x1 x2 x3 x4 x5 x6 x7 x8 x9 xa xb xc xd xe xf xg xh xi xj xk xl xm xn xo xp xq xr xs xt xu xv)) end.
  destruct c0 as [x0 x1 x2 x3 x4 x5 x6 x7 x8 x9 xa xb xc xd xe xf xg xh xi xj xk xl xm xn xo xp xq xr xs xt xu xv].
  cbv delta [crec] beta iota. apply obind_cong; intros b1 _; cbv beta. apply obind_cong; intros b2 _; cbv beta.
  fold_rec tt. rewrite src_input.
  remember (Cube x0 x1 x2 x3 x4 x5 x6 x7 x8 x9 xa xb xc xd xe xf xg xh xi xj xk xl xm xn xo xp xq xr xs xt xu xv) as c0.
  rewrite obind_assoc. apply obind_cong. intros c _. hb.
  clear Heqc0 x0 x1 x2 x3 x4 x5 x6 x7 x8 x9 xa xb xc xd xe xf xg xh xi xj xk xl xm xn xo xp xq xr xs xt xu xv c0.
  assert (H16 : forall (c : CubeHash) (f : SrcCube.CubeHash -> outcome (list Z)), obind (SrcCube.sixteen_rounds p (crec c)) f = f (crec (sixteen_rounds c))).
  { intros. by rewrite src_sixteen. }
  pose proof (H16 c) as H. generalize dependent (sixteen_rounds c). intros d H. destruct c. cbv delta [crec] beta iota in *.
  rewrite H. clear H. cbv beta zeta.
  destruct d as [x0 x1 x2 x3 x4 x5 x6 x7 x8 x9 xa xb xc xd xe xf xg xh xi xj xk xl xm xn xo xp xq xr xs xt xu xv].
  cbv beta iota. fold_rec tt. rewrite src_input.
  remember (Cube x0 x1 x2 x3 x4 x5 x6 x7 x8 x9 xa xb xc xd xe xf xg xh xi xj xk xl xm xn xo xp xq xr xs xt xu xv) as c0.
  rewrite obind_assoc. apply obind_cong. intros c _. hb.
  clear Heqc0 x0 x1 x2 x3 x4 x5 x6 x7 x8 x9 xa xb xc xd xe xf xg xh xi xj xk xl xm xn xo xp xq xr xs xt xu xv c0.
  pose proof (H16 c) as H. generalize dependent (sixteen_rounds c). intros d H. destruct c. cbv delta [crec] beta iota in *.
  rewrite H. clear H. cbv beta zeta.
  destruct d as [x0 x1 x2 x3 x4 x5 x6 x7 x8 x9 xa xb xc xd xe xf xg xh xi xj xk xl xm xn xo xp xq xr xs xt xu xv].
  cbv beta iota. hb. cbn [xor_xv].
  pose proof (src_cube_iter p (Cube x0 x1 x2 x3 x4 x5 x6 x7 x8 x9 xa xb xc xd xe xf xg xh xi xj xk xl xm xn xo xp xq xr xs xt xu (Z.lxor xv 1))) as Hi.
  cbn [ctup] in Hi. rewrite Hi. clear Hi. hb.
  destruct (Nat.iter 10 sixteen_rounds _) as [y0 y1 y2 y3 y4 y5 y6 y7 y8 y9 ya yb yc yd ye yf yg yh yi yj yk yl ym yn yo yp yq yr ys yt yu yv].
  cbv delta [ctup] beta iota. hb. cbn [foldM MCubeGen.c_x0 MCubeGen.c_x1 MCubeGen.c_x2 MCubeGen.c_x3 MCubeGen.c_x4 MCubeGen.c_x5 MCubeGen.c_x6 MCubeGen.c_x7].
  reflexivity.
Qed.
