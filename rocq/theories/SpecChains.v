(** * The chained hashes, as compositions of digests *)
From Verif Require Import SpecWord SpecLyra2 SpecCube SpecBmw.

(** A digest function of 256 bits on byte strings. *)
Definition digest256 (f : list Z -> list Z) : Prop :=
  forall m, Forall byte m -> length (f m) = 32%nat /\ Forall byte (f m).

(** Lyra2 with the row selection of Lyra2REv3 (row numbers modulo R, byte-level padding). *)
Definition Lyra2_rev3 (k : Z) (pwd salt : list Z) (t R C : Z) : list Z :=
  lyra2_key (reduce_mod R) choose_rev3 (ref_blocks k pwd salt t R C) k t R C.

Section chains.
Context (blake256 keccak256 skein256 groestl256 : list Z -> list Z).
Definition Lyra2RE (m : list Z) : list Z :=
  let d := keccak256 (blake256 m) in
  groestl256 (skein256 (Lyra2_reference 32 d d 1 8 8)).
Definition Lyra2REv2 (m : list Z) : list Z :=
  let d := cubehash256 (keccak256 (blake256 m)) in
  bmw256 (cubehash256 (skein256 (Lyra2_reference 32 d d 1 4 4))).
Definition Lyra2REv3 (m : list Z) : list Z :=
  let L x := Lyra2_rev3 32 x x 1 4 4 in
  bmw256 (L (cubehash256 (L (blake256 m)))).
Definition Lyra2Z (m : list Z) : list Z :=
  let d := blake256 m in Lyra2_reference 32 d d 8 8 8.
End chains.
