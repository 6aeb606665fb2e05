(** * Vocabulary: the rows that are used after the setup phase *)
From stdpp Require Import list_numbers.
From Verif Require Import SpecWord.

(** With [R] rows, row [r] is used if the binary digits of [r] are among those of [R - 1]. *)
Definition used (R r : Z) : Prop := Z.land r (R - 1) = r.
Definition rows_used (R : Z) : Z :=
  Z.of_nat (length (filter (fun r => Z.land r (R - 1) = r) (seqZ 0 R))).
(** The matrices [m] and [m'] of [R] rows of [C] blocks of 12 words have the same words in
    the rows that are used; the words of the other rows may be anything. *)
Definition same_used_rows (R C : Z) (m m' : list Z) : Prop :=
  forall r i, 0 <= r < R -> used R r -> 0 <= i < 12 * C ->
    m !! Z.to_nat (12 * C * r + i) = m' !! Z.to_nat (12 * C * r + i).
