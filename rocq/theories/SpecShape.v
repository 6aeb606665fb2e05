(** * What a run shows to an observer who cannot tell the rows apart (specification for C57) *)
From Verif Require Import Machine Seen SpecAccess.
#[local] Open Scope Z_scope.

(** What an observer sees who cannot tell the rows of a matrix with [C] columns apart: neither the row
    that is picked nor the row of an address; everything else, so every branch and loop. lyra2.rs:542-653. *)
Definition hide_row (C : Z) (o : obs) : obs :=
  match o with
  | OMem a => OMem (without_row C a)
  | OPick _ => OPick 0
  | OCut v a b => if bool_decide (v = "whole_matrix"%string) then OCut v 0 b else OCut v a b
  | _ => o
  end.
(** ... nor the word of the state that is looked at, lyra2mod/mod.rs:520-521. *)
Definition hide_look (o : obs) : obs :=
  match o with
  | OGet v i => if bool_decide (v = "state"%string) then OGet v 0 else o
  | _ => o
  end.
