(** * The key is determined by the setup phase and the rows revisited *)
From Verif Require Import Machine MachineFacts MUtils MTrace Domain PhaseFacts.
From Verif Require MLyra2.
#[local] Open Scope Z_scope.

Section redo.
Context (p : platform) (row_len R C : Z).
(** One row operation of the wandering phase; the last component is the revisited row. *)
Definition redo3 (s : list Z * list Z * Z) (e : event) : outcome (list Z * list Z * Z) :=
  match e with
  | EvWander _ row prev rowa =>
      '(m, st) <-- MLyra2.duplex_row p row_len C row prev rowa s.1.1 s.1.2 ;; Ok (m, st, rowa)
  | _ => Ok s
  end.
Definition is_wander (e : event) : Prop := match e with EvWander _ _ _ _ => True | _ => False end.

Lemma wander_ops_inj evs evs' : Forall is_wander evs -> Forall is_wander evs' ->
  wander_ops evs = wander_ops evs' -> evs = evs'.
Proof.
  intros H. revert evs'. induction H as [|e evs He Hes IH]; intros evs' H'.
  - destruct H' as [|[]]; [done|by cbn in *..].
  - destruct e as [| |tau row prev rowa]; [done..|].
    destruct H' as [|[| |tau' row' prev' rowa'] evs' He' Hes']; [done..|].
    change (wander_ops (EvWander tau row prev rowa :: evs)) with ((tau, row, prev, rowa) :: wander_ops evs).
    change (wander_ops (EvWander tau' row' prev' rowa' :: evs')) with ((tau', row', prev', rowa') :: wander_ops evs').
    intros [= -> -> -> -> E]. f_equal. by apply IH.
Qed.

Section sel.
Context (sel : MLyra2.selector).
Lemma pass_redo3 tau step N : forall row prev m st i rowa log s',
  run_n N (fun '(m, state, index, row, prev, rowa, log) =>
    let '(x, index) := sel state index in
    n1 <-- usub p R 1 ;;
    let rowa := as_i64 (Z.land x n1) in
    '(m, state) <-- MLyra2.duplex_row p row_len C row prev rowa m state ;;
    let log := log ++ [EvWander tau row prev rowa] in
    let prev := row in
    row <-- MLyra2.wander_next p R step row ;;
    let s := (m, state, index, row, prev, rowa, log) in
    if row =? 0 then Ok (inr s) else Ok (inl s)) (m, st, i, row, prev, rowa, log) = Ok (inr s') ->
  let '(m', st', _, _, _, rowa', log') := s' in
  exists evs, log' = log ++ evs /\ Forall is_wander evs /\ foldM redo3 evs (m, st, rowa) = Ok (m', st', rowa').
Proof.
  induction N as [|N IH]; intros row prev m st i rowa log s'; [done|]. cbn [run_n].
  destruct (sel st i) as [x i1]. intros (r & (n1 & _ & E)%obind_Ok_inv & Er)%obind_Ok_inv.
  cbv zeta in E. set (ra := as_i64 (Z.land x n1)) in *. clearbody ra.
  apply obind_Ok_inv in E as ([m1 st1] & Ed & E). apply obind_Ok_inv in E as (row1 & _ & E).
  destruct (row1 =? 0); injection E as <-.
  - injection Er as <-. exists [EvWander tau row prev ra]. split; [done|]. split; [by repeat constructor|].
    cbn [foldM redo3 fst snd]. rewrite Ed. done.
  - apply IH in Er. destruct s' as [[[[[[m' st'] i'] row'] prev'] rowa'] log'].
    destruct Er as (evs & -> & HW & E2). exists (EvWander tau row prev ra :: evs).
    rewrite <- app_assoc. split; [done|]. split; [by constructor|]. cbn [foldM redo3 fst snd]. rewrite Ed. exact E2.
Qed.
Lemma wander_redo3 t m st prev rowa log s' : 0 <= t < 2 ^ 64 ->
  wander_tr p sel row_len t R C m st prev rowa log = Ok s' ->
  let '(m', st', _, _, _, rowa', log') := s' in
  exists evs, log' = log ++ evs /\ Forall is_wander evs /\ foldM redo3 evs (m, st, rowa) = Ok (m', st', rowa').
Proof.
  intros Ht. unfold wander_tr. intros E.
  apply (for_range_inv (fun _ s => let '(m', st', _, _, _, ra', l) := s in
    exists evs, l = log ++ evs /\ Forall is_wander evs /\ foldM redo3 evs (m, st, rowa) = Ok (m', st', ra'))) in E as [E _].
  - exact E.
  - lia.
  - exists []. rewrite app_nil_r. done.
  - intros tau [[[[[[m1 s1] i1] r1] p1] ra1] l1] s2 Htau (evs & -> & HW & HF) E'.
    apply obind_Ok_inv in E' as (step & _ & E').
    unfold wander_pass_tr in E'. rewrite loop64_run in E'.
    apply obind_Ok_inv in E' as ([?|s3] & Er & [= <-]).
    apply pass_redo3 in Er. destruct s3 as [[[[[[m' st'] i'] row'] prev'] rowa'] log'].
    destruct Er as (evs' & -> & HW' & E2). exists (evs ++ evs'). rewrite app_assoc. split; [done|].
    split; [by apply Forall_app|]. rewrite foldM_app, HF. exact E2.
Qed.
End sel.
End redo.

Lemma wander_ops_app l l' : wander_ops (l ++ l') = wander_ops l ++ wander_ops l'.
Proof. unfold wander_ops. induction l as [|[] l IH]; cbn; [done|exact IH..|by f_equal]. Qed.

Lemma same_rows_same_key p sel sel' k pwd salt t R C out out' log log' : 0 <= t < 2 ^ 64 ->
  lyra2_with_tr p sel k pwd salt t R C = Ok (out, log) ->
  lyra2_with_tr p sel' k pwd salt t R C = Ok (out', log') ->
  wander_ops log = wander_ops log' -> out = out'.
Proof.
  intros Ht. unfold lyra2_with_tr. destruct (t <? 1); [done|]. destruct (R <? 3); [done|].
  intros (row_len & E1 & E)%obind_Ok_inv. rewrite E1. cbn [obind].
  apply obind_Ok_inv in E as (total & E2 & E). rewrite E2. cbn [obind].
  apply obind_Ok_inv in E as (m & E3 & E). rewrite E3. cbn [obind].
  apply obind_Ok_inv in E as (nblocks & E4 & E). rewrite E4. cbn [obind].
  apply obind_Ok_inv in E as (m0 & E5 & E). rewrite E5. cbn [obind].
  apply obind_Ok_inv in E as ([st0 log0] & E6 & E). rewrite E6. cbn [obind].
  apply obind_Ok_inv in E as ([[[m1 st1] v1] log1] & E7 & E). rewrite E7. cbn [obind].
  intros E'.
  apply obind_Ok_inv in E as ([[[[[[m2 st2] i2] row2] prev2] rowa2] log2] & E8 & E).
  apply obind_Ok_inv in E' as ([[[[[[m2' st2'] i2'] row2'] prev2'] rowa2'] log2'] & E8' & E').
  apply wander_redo3 in E8 as (evs & -> & HW & HF); [|done].
  apply wander_redo3 in E8' as (evs' & -> & HW' & HF'); [|done].
  apply obind_Ok_inv in E as (a & Ea & E). apply obind_Ok_inv in E as (right & Er & E).
  apply obind_Ok_inv in E as (st3 & Es & E). apply obind_Ok_inv in E as (o & Eo & E). injection E as <- <-.
  apply obind_Ok_inv in E' as (a' & Ea' & E'). apply obind_Ok_inv in E' as (right' & Er' & E').
  apply obind_Ok_inv in E' as (st3' & Es' & E'). apply obind_Ok_inv in E' as (o' & Eo' & E'). injection E' as <- <-.
  rewrite !wander_ops_app. intros Hops%app_inv_head. apply wander_ops_inj in Hops; [|done..]. subst evs'.
  rewrite HF in HF'. injection HF' as <- <- <-. congruence.
Qed.
