(** * The BLAKE2b round of RFC 7693 with all message words zero, and its IV. *)
From Verif Require Import SpecWord.

(** RFC 7693, section 3.1: mixing function G (rotation constants 32, 24, 16, 63)
    on the entries [a b c d] of the 4x4 matrix of 64-bit words, stored row by row. *)
Definition G (v : list Z) (q : nat * nat * nat * nat) : list Z :=
  let '(a, b, c, d) := q in
  let v := <[a := addw 64 (v !!! a) (v !!! b)]> v in
  let v := <[d := ror 64 32 (Z.lxor (v !!! d) (v !!! a))]> v in
  let v := <[c := addw 64 (v !!! c) (v !!! d)]> v in
  let v := <[b := ror 64 24 (Z.lxor (v !!! b) (v !!! c))]> v in
  let v := <[a := addw 64 (v !!! a) (v !!! b)]> v in
  let v := <[d := ror 64 16 (Z.lxor (v !!! d) (v !!! a))]> v in
  let v := <[c := addw 64 (v !!! c) (v !!! d)]> v in
  let v := <[b := ror 64 63 (Z.lxor (v !!! b) (v !!! c))]> v in
  v.

(** Entry in row [r] and column [c mod 4] of the 4x4 matrix. *)
Definition entry (r c : nat) : nat := (4 * r + c mod 4)%nat.
Definition column (i : nat) := (entry 0 i, entry 1 i, entry 2 i, entry 3 i).
Definition diagonal (i : nat) := (entry 0 i, entry 1 (i + 1), entry 2 (i + 2), entry 3 (i + 3)).

(** RFC 7693, section 3.2: G on the four columns, then on the four diagonals. *)
Definition blake2b_round (v : list Z) : list Z :=
  foldl G v ((column <$> seq 0 4) ++ (diagonal <$> seq 0 4)).

(** A BLAKE2b state: sixteen 64-bit words. *)
Definition state16 (v : list Z) : Prop := length v = 16%nat /\ Forall (word 64) v.

(** RFC 7693, section 2.6: the initialisation vector is made of the first 64 bits of the
    fractional parts of the square roots of the first eight primes. *)
Definition frac_sqrt64 (n : Z) : Z := Z.sqrt (n * 2 ^ 128) mod 2 ^ 64.
Definition blake2b_iv : list Z := frac_sqrt64 <$> [2; 3; 5; 7; 11; 13; 17; 19].
