(** * What the argument types guarantee

    A [u64] is a 64-bit word; a [&[u8]] is a list of bytes whose size in memory
    is at most [isize::MAX] (a rule of the language). *)
From Verif Require Import SpecWord.

Definition rust_slice (max : Z) (l : list Z) : Prop :=
  Forall byte l /\ Z.of_nat (length l) <= max.
Definition rust_args (max k : Z) (pwd salt : list Z) (t R C : Z) : Prop :=
  word 64 k /\ word 64 t /\ word 64 R /\ word 64 C /\
  rust_slice max pwd /\ rust_slice max salt.
