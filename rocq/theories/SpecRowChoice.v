(** * Vocabulary for the choice of the revisited row *)
From stdpp Require Import list_numbers.
From Verif Require Import SpecWord.

(** How many of the 2^64 values of a word are sent by [f] to the row [r]. *)
Definition words_choosing (f : Z -> Z) (r : Z) : Z :=
  Z.of_nat (length (filter (fun w => f w = r) (seqZ 0 (2 ^ 64)))).
(** How many of the 64 low bits of [m] are set. *)
Definition bits_set (m : Z) : Z :=
  Z.of_nat (length (filter (fun i => Z.testbit m i = true) (seqZ 0 64))).
(** How many of the words of [l] are congruent to [r] modulo [n]. *)
Definition words_congruent (n r : Z) (l : list Z) : Z :=
  Z.of_nat (length (filter (fun w => w mod n = r) l)).
(** Every list of [n] words, once. *)
Fixpoint all_states (n : nat) : list (list Z) :=
  match n with
  | O => [[]]
  | S n => all_states n ≫= fun s => (fun w => w :: s) <$> seqZ 0 (2 ^ 64)
  end.
(** How many of the 2^1024 sponge states are sent by [f] to the row [r]. *)
Definition states_choosing (f : list Z -> Z) (r : Z) : Z :=
  Z.of_nat (length (filter (fun s => f s = r) (all_states 16))).
