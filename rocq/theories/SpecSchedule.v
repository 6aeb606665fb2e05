(** * Which rows a Lyra2 computation works on, and when *)
From Verif Require Import SpecWord SpecBlake2b SpecLyra2.

(** Setup: (row, previous row, revisited row), for the rows 2 .. R-1. *)
Definition setup_schedule (R : Z) : list (Z * Z * Z) :=
  (fun row => (row, row - 1, setup_rowa row)) <$> seqZ 2 (R - 2).

(** Wandering: (pass, row) in the order of visiting. *)
Definition wander_rows (R t : Z) : list (Z * Z) :=
  seqZ 1 t ≫= fun tau => (fun row => (tau, row)) <$> pass_rows R (reduce_mask R) tau.
(** The same with the row visited before; [prev] is the one before the first. *)
Fixpoint with_prev (prev : Z) (l : list (Z * Z)) : list (Z * Z * Z) :=
  match l with
  | [] => []
  | (tau, row) :: l' => (tau, row, prev) :: with_prev row l'
  end.
Definition wander_schedule (R t : Z) : list (Z * Z * Z) := with_prev (R - 1) (wander_rows R t).
