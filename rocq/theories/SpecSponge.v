(** * What it means for a transformation to permute the sponge states *)
From Verif Require Import SpecWord SpecBlake2b.

Definition zero_state : list Z := replicate 16 0.

(** [f] is a bijection of the 1024-bit states onto themselves. *)
Definition permutes (f : list Z -> list Z) : Prop :=
  (forall v, state16 v -> state16 (f v)) /\
  (forall v v', state16 v -> state16 v' -> f v = f v' -> v = v') /\
  (forall w, state16 w -> exists v, state16 v /\ f v = w).
