(** * Vocabulary for the properties of the phases of the algorithm *)
From Verif Require Import SpecWord SpecLyra2.

(** Two inputs, as sequences of blocks, that differ in exactly one place. *)
Definition one_block_apart (bs bs' : list (list Z)) : Prop :=
  exists before b b' after, bs = before ++ b :: after /\ bs' = before ++ b' :: after /\ b <> b'.

(** [f] is a bijection of the values satisfying [P] onto themselves. *)
Definition permutes_on {A} (P : A -> Prop) (f : A -> A) : Prop :=
  (forall x, P x -> P (f x)) /\
  (forall x x', P x -> P x' -> f x = f x' -> x = x') /\
  (forall y, P y -> exists x, P x /\ f x = y).

(** Contents of memory and sponge: a matrix of [R] rows of [C] blocks of 12 words of 64
    bits, and a state of 16 words. *)
Definition contents (R C : Z) (s : list Z * list Z) : Prop :=
  Z.of_nat (length s.1) = 12 * R * C /\ Forall (word 64) s.1 /\
  length s.2 = 16%nat /\ Forall (word 64) s.2.
