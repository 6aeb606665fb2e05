(** * Vocabulary for the symmetries of the two permutations *)
From Verif Require Import SpecWord.

(** The 4x4 matrix of the sixteen words of the sponge, stored row by row, with its columns
    turned by [r]: column [c] of the result is column [c + r mod 4]. *)
Definition turn (r : nat) (v : list Z) : list Z :=
  (fun i => v !!! (4 * (i / 4) + (i + r) mod 4)%nat) <$> seq 0 16.

(** The 32 words of CubeHash, the word [i] taken from the place whose number differs from
    [i] in the bits of [b]. *)
Definition mirror (b : nat) (x : list Z) : list Z :=
  (fun i => x !!! Nat.lxor i b) <$> seq 0 32.

(** The states on which [T] has no effect. *)
Definition symmetric (T : list Z -> list Z) (x : list Z) : Prop := T x = x.
