(** * Collisions along a chain of functions *)
From Verif Require Import SpecWord SpecLyra2.
From stdpp Require Import list.

(** [x] and [y] are two different inputs to which [f] gives the same value. *)
Definition collision (f : list Z -> list Z) (x y : list Z) : Prop := x <> y /\ f x = f y.

(** Running the functions [fs] one after the other on [x] and on [y], one of them is
    given two different values and maps them to the same one. *)
Fixpoint stage_collision (fs : list (list Z -> list Z)) (x y : list Z) : Prop :=
  match fs with
  | [] => False
  | f :: fs => collision f x y \/ stage_collision fs (f x) (f y)
  end.
