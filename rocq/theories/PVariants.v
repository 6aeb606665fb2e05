(** * Property C48: the two variants of Lyra2 differ in the revisited rows only

    [lyra2_tr] and [lyra2mod_tr] (MTrace.v) are [lyra2] and [lyra2mod] with a log of the
    row operations; [lyra2_log_erase] (PSchedule.v) says that the log changes nothing.
    [wander_ops] lists (pass, row, previous row, revisited row). *)
From Verif Require Import Machine.
From Verif Require Import SpecWord SpecCalls.
From Verif Require MLyra2.
From Verif Require Import MTrace VariantFacts.
#[local] Open Scope Z_scope.

(** On every platform and for all arguments for which both return. *)
Theorem variants_differ_in_rows_only p k pwd salt t R C out out' log log' :
  0 <= t < 2 ^ 64 ->
  lyra2_tr p k pwd salt t R C = Ok (out, log) ->
  lyra2mod_tr p k pwd salt t R C = Ok (out', log') ->
  wander_ops log = wander_ops log' -> out = out'.
Proof. exact (same_rows_same_key p MLyra2.sel_lyra2 (MLyra2.sel_lyra2mod p) k pwd salt t R C out out' log log'). Qed.
Print Assumptions variants_differ_in_rows_only.

(** The password 47 0 0 0 0 0 0 0 makes both variants revisit the rows 0, 0, 3, 2; with
    46 instead of 47 they revisit different rows and return different keys. *)
Definition pwv (b : Z) : list Z := [b; 0; 0; 0; 0; 0; 0; 0].
Definition key_and_rows (o : outcome (list Z * list event)) : option (list Z * list Z) :=
  match o with Ok (key, log) => Some (key, (fun '(_, _, _, rowa) => rowa) <$> wander_ops log) | _ => None end.
Example variants_same_rows :
  exists key, key_and_rows (lyra2_tr debug64 8 (pwv 47) (pwv 0) 1 4 1) = Some (key, [0; 0; 3; 2]) /\
              key_and_rows (lyra2mod_tr debug64 8 (pwv 47) (pwv 0) 1 4 1) = Some (key, [0; 0; 3; 2]).
Proof. eexists. split; vm_compute; reflexivity. Qed.
Example variants_other_rows :
  exists key key', key_and_rows (lyra2_tr debug64 8 (pwv 46) (pwv 0) 1 4 1) = Some key /\
              key_and_rows (lyra2mod_tr debug64 8 (pwv 46) (pwv 0) 1 4 1) = Some key' /\
              key.1 <> key'.1 /\ key.2 <> key'.2.
Proof. do 2 eexists. split; [vm_compute; reflexivity|]. split; [vm_compute; reflexivity|]. split; discriminate. Qed.
