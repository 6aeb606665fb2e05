(** * Properties C13 - C16: what of the input reaches the sponge

    [absorbed log] is the list of the 8-word blocks the run absorbed (MTrace.v). *)
From Verif Require Import Machine.
From Verif Require Import SpecWord SpecLyra2 SpecCalls.
From Verif Require MLyra2.
From Verif Require Import MTrace PLyra2Lemmas PScheduleLemmas PLyra2 PSchedule.
#[local] Open Scope Z_scope.

(** ** C13: the absorbed data determine, and are determined by, the parameters,
    the lengths and the bytes of the complete 8-byte words. *)
Theorem lyra2_absorbed_determines p p' k pwd salt t R C k' pwd' salt' t' R' C' out out' log log' :
  known_platform p -> known_platform p' ->
  rust_args (isize_max p) k pwd salt t R C -> rust_args (isize_max p') k' pwd' salt' t' R' C' ->
  lyra2_tr p k pwd salt t R C = Ok (out, log) ->
  lyra2_tr p' k' pwd' salt' t' R' C' = Ok (out', log') ->
  absorbed log = absorbed log' <->
  k = k' /\ t = t' /\ R = R' /\ C = C' /\ length pwd = length pwd' /\ length salt = length salt' /\
  take (8 * (length pwd / 8)) pwd = take (8 * (length pwd' / 8)) pwd' /\
  take (8 * (length salt / 8)) salt = take (8 * (length salt' / 8)) salt'.
Proof.
  exact (absorbed_iff p p' MLyra2.sel_lyra2 MLyra2.sel_lyra2
           k pwd salt t R C k' pwd' salt' t' R' C' out out' log log').
Qed.
Print Assumptions lyra2_absorbed_determines.
(** For word-aligned lengths nothing is lost. *)
Theorem lyra2_absorbed_injective p p' k pwd salt t R C k' pwd' salt' t' R' C' out out' log log' :
  known_platform p -> known_platform p' ->
  rust_args (isize_max p) k pwd salt t R C -> rust_args (isize_max p') k' pwd' salt' t' R' C' ->
  lyra2_tr p k pwd salt t R C = Ok (out, log) ->
  lyra2_tr p' k' pwd' salt' t' R' C' = Ok (out', log') ->
  (8 | Z.of_nat (length pwd)) -> (8 | Z.of_nat (length salt)) ->
  absorbed log = absorbed log' -> (k, pwd, salt, t, R, C) = (k', pwd', salt', t', R', C').
Proof.
  exact (absorbed_inj p p' MLyra2.sel_lyra2 MLyra2.sel_lyra2
           k pwd salt t R C k' pwd' salt' t' R' C' out out' log log').
Qed.
Print Assumptions lyra2_absorbed_injective.
Theorem lyra2mod_absorbed_injective p p' k pwd salt t R C k' pwd' salt' t' R' C' out out' log log' :
  known_platform p -> known_platform p' ->
  rust_args (isize_max p) k pwd salt t R C -> rust_args (isize_max p') k' pwd' salt' t' R' C' ->
  lyra2mod_tr p k pwd salt t R C = Ok (out, log) ->
  lyra2mod_tr p' k' pwd' salt' t' R' C' = Ok (out', log') ->
  (8 | Z.of_nat (length pwd)) -> (8 | Z.of_nat (length salt)) ->
  absorbed log = absorbed log' -> (k, pwd, salt, t, R, C) = (k', pwd', salt', t', R', C').
Proof.
  exact (absorbed_inj p p' (MLyra2.sel_lyra2mod p) (MLyra2.sel_lyra2mod p')
           k pwd salt t R C k' pwd' salt' t' R' C' out out' log log').
Qed.
Print Assumptions lyra2mod_absorbed_injective.
Example lyra2_absorbed_ex : exists out out' log log',
  rust_args (isize_max debug64) 4 pw8 (reverse pw8) 1 4 2 /\
  rust_args (isize_max debug32) 4 (reverse pw8) pw8 1 4 2 /\
  lyra2_tr debug64 4 pw8 (reverse pw8) 1 4 2 = Ok (out, log) /\
  lyra2_tr debug32 4 (reverse pw8) pw8 1 4 2 = Ok (out', log') /\
  (8 | Z.of_nat (length pw8)) /\
  absorbed log = [[0x0807060504030201; 0x0102030405060708; 4; 8; 8; 1; 4; 2];
                  [0x80; 0; 0; 0; 0; 0; 0; 0x0100000000000000]].
Proof.
  assert (Ha : rust_args (isize_max debug64) 4 pw8 (reverse pw8) 1 4 2) by args_tac.
  assert (Ha' : rust_args (isize_max debug32) 4 (reverse pw8) pw8 1 4 2) by args_tac.
  destruct (logs debug64 4 pw8 (reverse pw8) 1 4 2 ltac:(by right) Ha ltac:(accepted_tac)) as [[log E] _].
  destruct (logs debug32 4 (reverse pw8) pw8 1 4 2 ltac:(by left) Ha' ltac:(accepted_tac)) as [[log' E'] _].
  do 4 eexists. split; [exact Ha|]. split; [exact Ha'|]. split; [exact E|]. split; [exact E'|].
  split; [by exists 1|].
  rewrite (log_absorbed debug64 ltac:(by right) MLyra2.sel_lyra2 4 pw8 (reverse pw8) 1 4 2 _ log Ha ltac:(lia) E). vm_compute. reflexivity.
Qed.

(** ** C14: bytes after the last complete 8-byte word are not read at all; on
    every platform and for all parameters, calls that differ only there have the
    same outcome. *)
Theorem lyra2_ignores_trailing_bytes p k pwd pwd' salt salt' t R C :
  known_platform p ->
  rust_args (isize_max p) k pwd salt t R C -> rust_args (isize_max p) k pwd' salt' t R C ->
  length pwd = length pwd' -> length salt = length salt' ->
  take (8 * (length pwd / 8)) pwd = take (8 * (length pwd' / 8)) pwd' ->
  take (8 * (length salt / 8)) salt = take (8 * (length salt' / 8)) salt' ->
  MLyra2.lyra2 p k pwd salt t R C = MLyra2.lyra2 p k pwd' salt' t R C /\
  MLyra2.lyra2mod p k pwd salt t R C = MLyra2.lyra2mod p k pwd' salt' t R C.
Proof. exact (trailing_ignored_args p k pwd pwd' salt salt' t R C). Qed.
Print Assumptions lyra2_ignores_trailing_bytes.
Example lyra2_ignores_trailing_bytes_ex :
  rust_args (isize_max debug64) 4 (pw8 ++ abc) pw8 1 4 4 /\ rust_args (isize_max debug64) 4 (pw8 ++ xyz) pw8 1 4 4 /\
  length (pw8 ++ abc) = length (pw8 ++ xyz) /\
  take (8 * (length (pw8 ++ abc) / 8)) (pw8 ++ abc) = take (8 * (length (pw8 ++ xyz) / 8)) (pw8 ++ xyz) /\
  exists out, MLyra2.lyra2 debug64 4 (pw8 ++ abc) pw8 1 4 4 = Ok out.
Proof.
  split; [args_tac|]. split; [args_tac|]. split; [done|]. split; [done|]. eexists.
  exact (lyra2_value debug64 4 (pw8 ++ abc) pw8 1 4 4 ltac:(by right) ltac:(args_tac) ltac:(accepted_tac)).
Qed.
(** The desired statement, that [sum] never maps two different short inputs to
    the same data, is false. *)
Theorem lyra2_sum_trailing_bytes_refuted :
  abc <> xyz /\ Forall byte abc /\ Forall byte xyz /\
  exists out, MLyra2.lyra2_sum debug64 abc = Ok out /\ MLyra2.lyra2_sum debug64 xyz = Ok out /\
              MLyra2.lyra2_sum release64 abc = Ok out /\ MLyra2.lyra2_sum release64 xyz = Ok out.
Proof.
  split; [discriminate|]. split; [forall_byte|]. split; [forall_byte|].
  assert (Ha : forall p, usize_bits p = 64 -> rust_args (isize_max p) 32 abc abc 1 4 4).
  { intros p Hp. unfold isize_max. rewrite Hp. args_tac. }
  assert (Hx : forall p, usize_bits p = 64 -> rust_args (isize_max p) 32 xyz xyz 1 4 4).
  { intros p Hp. unfold isize_max. rewrite Hp. args_tac. }
  assert (Heq : forall p, usize_bits p = 64 -> MLyra2.lyra2_sum p abc = MLyra2.lyra2_sum p xyz).
  { intros p Hp. exact (proj1 (lyra2_ignores_trailing_bytes p 32 abc xyz abc xyz 1 4 4 (or_intror Hp)
      (Ha p Hp) (Hx p Hp) eq_refl eq_refl eq_refl eq_refl)). }
  assert (Hv : forall p, usize_bits p = 64 ->
    MLyra2.lyra2_sum p abc = Ok (Lyra2_code choose_first 32 abc abc 1 4 4)).
  { intros p Hp. refine (lyra2_value p 32 abc abc 1 4 4 (or_intror Hp) (Ha p Hp) _).
    unfold isize_max. rewrite Hp. accepted_tac. }
  eexists. split; [exact (Hv debug64 eq_refl)|].
  split; [rewrite <- (Heq debug64 eq_refl); exact (Hv debug64 eq_refl)|].
  split; [exact (Hv release64 eq_refl)|rewrite <- (Heq release64 eq_refl); exact (Hv release64 eq_refl)].
Qed.
Print Assumptions lyra2_sum_trailing_bytes_refuted.

(** ** C15: the absorbed data are those of the Lyra2 definition exactly when both
    lengths are multiples of 8. *)
Theorem lyra2_absorbs_reference_iff p k pwd salt t R C out log :
  known_platform p -> rust_args (isize_max p) k pwd salt t R C ->
  lyra2_tr p k pwd salt t R C = Ok (out, log) ->
  absorbed log = ref_blocks k pwd salt t R C <->
  (8 | Z.of_nat (length pwd)) /\ (8 | Z.of_nat (length salt)).
Proof. exact (absorbed_reference p MLyra2.sel_lyra2 k pwd salt t R C out log). Qed.
Print Assumptions lyra2_absorbs_reference_iff.
Theorem lyra2mod_absorbs_reference_iff p k pwd salt t R C out log :
  known_platform p -> rust_args (isize_max p) k pwd salt t R C ->
  lyra2mod_tr p k pwd salt t R C = Ok (out, log) ->
  absorbed log = ref_blocks k pwd salt t R C <->
  (8 | Z.of_nat (length pwd)) /\ (8 | Z.of_nat (length salt)).
Proof. exact (absorbed_reference p (MLyra2.sel_lyra2mod p) k pwd salt t R C out log). Qed.
Print Assumptions lyra2mod_absorbs_reference_iff.
Theorem lyra2_absorbs_reference_refuted : exists out log,
  rust_args (isize_max debug64) 4 abc abc 1 4 4 /\ lyra2_tr debug64 4 abc abc 1 4 4 = Ok (out, log) /\
  absorbed log <> ref_blocks 4 abc abc 1 4 4.
Proof.
  assert (Ha : rust_args (isize_max debug64) 4 abc abc 1 4 4) by args_tac.
  destruct (logs debug64 4 abc abc 1 4 4 ltac:(by right) Ha ltac:(accepted_tac)) as [[log E] _].
  do 2 eexists. split; [exact Ha|]. split; [exact E|].
  rewrite (lyra2_absorbs_reference_iff debug64 4 abc abc 1 4 4 _ log ltac:(by right) Ha E).
  intros [[q H] _]. cbn in H. lia.
Qed.
Print Assumptions lyra2_absorbs_reference_refuted.

(** ** C16: the boundary between password and salt, and their order, are bound. *)
Theorem lyra2_boundary_bound p p' k k' pwd salt pwd' salt' t t' R R' C C' out out' log log' :
  known_platform p -> known_platform p' ->
  rust_args (isize_max p) k pwd salt t R C -> rust_args (isize_max p') k' pwd' salt' t' R' C' ->
  lyra2_tr p k pwd salt t R C = Ok (out, log) ->
  lyra2_tr p' k' pwd' salt' t' R' C' = Ok (out', log') ->
  pwd ++ salt = pwd' ++ salt' -> absorbed log = absorbed log' -> pwd = pwd' /\ salt = salt'.
Proof.
  exact (absorbed_boundary p p' MLyra2.sel_lyra2 MLyra2.sel_lyra2
           k k' pwd salt pwd' salt' t t' R R' C C' out out' log log').
Qed.
Print Assumptions lyra2_boundary_bound.
Theorem lyra2_swap_bound p p' k k' pwd salt t t' R R' C C' out out' log log' :
  known_platform p -> known_platform p' ->
  rust_args (isize_max p) k pwd salt t R C -> rust_args (isize_max p') k' salt pwd t' R' C' ->
  lyra2_tr p k pwd salt t R C = Ok (out, log) ->
  lyra2_tr p' k' salt pwd t' R' C' = Ok (out', log') ->
  absorbed log = absorbed log' ->
  length pwd = length salt /\ take (8 * (length pwd / 8)) pwd = take (8 * (length salt / 8)) salt.
Proof.
  exact (absorbed_swap p p' MLyra2.sel_lyra2 MLyra2.sel_lyra2 k k' pwd salt t t' R R' C C' out out' log log').
Qed.
Print Assumptions lyra2_swap_bound.
Example lyra2_boundary_ex : exists out out' log log',
  let pwd := pw8 ++ abc in let salt := xyz in let pwd' := pw8 in let salt' := abc ++ xyz in
  pwd ++ salt = pwd' ++ salt' /\
  rust_args (isize_max debug64) 4 pwd salt 1 4 2 /\ rust_args (isize_max debug64) 4 pwd' salt' 1 4 2 /\
  lyra2_tr debug64 4 pwd salt 1 4 2 = Ok (out, log) /\ lyra2_tr debug64 4 pwd' salt' 1 4 2 = Ok (out', log').
Proof.
  assert (Ha : rust_args (isize_max debug64) 4 (pw8 ++ abc) xyz 1 4 2) by args_tac.
  assert (Ha' : rust_args (isize_max debug64) 4 pw8 (abc ++ xyz) 1 4 2) by args_tac.
  destruct (logs debug64 4 (pw8 ++ abc) xyz 1 4 2 ltac:(by right) Ha ltac:(accepted_tac)) as [[log E] _].
  destruct (logs debug64 4 pw8 (abc ++ xyz) 1 4 2 ltac:(by right) Ha' ltac:(accepted_tac)) as [[log' E'] _].
  do 4 eexists. cbv zeta. split; [reflexivity|]. split; [exact Ha|]. split; [exact Ha'|]. split; [exact E|exact E'].
Qed.
(** For lengths that are not multiples of 8 swapping may change nothing (C14). *)
Theorem lyra2_swap_unaligned_refuted : exists out,
  abc <> xyz /\ rust_args (isize_max debug64) 4 abc xyz 1 4 4 /\
  MLyra2.lyra2 debug64 4 abc xyz 1 4 4 = Ok out /\ MLyra2.lyra2 debug64 4 xyz abc 1 4 4 = Ok out.
Proof.
  assert (Ha : rust_args (isize_max debug64) 4 abc xyz 1 4 4) by args_tac.
  assert (Ha' : rust_args (isize_max debug64) 4 xyz abc 1 4 4) by args_tac.
  pose proof (lyra2_value debug64 4 abc xyz 1 4 4 ltac:(by right) Ha ltac:(accepted_tac)) as E.
  eexists. split; [discriminate|]. split; [exact Ha|]. split; [exact E|].
  refine (eq_trans _ E). symmetry.
  exact (proj1 (lyra2_ignores_trailing_bytes debug64 4 abc xyz xyz abc 1 4 4 (or_intror eq_refl)
      Ha Ha' eq_refl eq_refl eq_refl eq_refl)).
Qed.
Print Assumptions lyra2_swap_unaligned_refuted.
