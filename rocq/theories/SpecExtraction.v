(** * Vocabulary for the distribution of keys *)
From Verif Require Import SpecWord SpecRowChoice.

(** Every pair of a matrix of [R] rows of [C] blocks of 12 words and a sponge state of 16
    words, once ([contents] of SpecPhases.v). *)
Definition all_contents (R C : Z) : list (list Z * list Z) :=
  let n := Z.to_nat (12 * R * C) in
  (fun x => (take n x, drop n x)) <$> all_states (n + 16).
(** How many of the sponge states, and of the contents, are sent by [f] to [key]. *)
Definition states_giving (f : list Z -> list Z) (key : list Z) : Z :=
  Z.of_nat (length (filter (fun st => f st = key) (all_states 16))).
Definition contents_giving (R C : Z) (f : list Z * list Z -> list Z) (key : list Z) : Z :=
  Z.of_nat (length (filter (fun s => f s = key) (all_contents R C))).
