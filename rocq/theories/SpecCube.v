(** * CubeHash16/32-256

    D. J. Bernstein, "CubeHash specification (2.B.1)" with parameters h = 256,
    r = 16, b = 32 and 10r initial and final rounds. *)
From Verif Require Import SpecWord.

(** The state is 32 words of 32 bits; x[ijklm] with bits i j k l m is the word with number
    16 i + 8 j + 4 k + 2 l + m. *)
Definition cube_state (x : list Z) : Prop := length x = 32%nat /\ Forall (word 32) x.

(** A new state given word by word. *)
Definition each (f : nat -> Z) : list Z := f <$> seq 0 32.
(** Words [0jklm] / [1jklm]. *)
Definition upper (i : nat) : bool := (16 <=? i)%nat.

(** Add x[0jklm] into x[1jklm] modulo 2^32, for each j, k, l, m. *)
Definition cube_add (x : list Z) : list Z :=
  each (fun i => if upper i then addw 32 (x !!! (i - 16)%nat) (x !!! i) else x !!! i).
(** Rotate x[0jklm] upwards by [n] bits. *)
Definition cube_rotate (n : Z) (x : list Z) : list Z :=
  each (fun i => if upper i then x !!! i else rol 32 n (x !!! i)).
(** Xor x[1jklm] into x[0jklm]. *)
Definition cube_xor (x : list Z) : list Z :=
  each (fun i => if upper i then x !!! i else Z.lxor (x !!! i) (x !!! (i + 16)%nat)).
(** Swap the words x[0....] (x[1....]) that differ in the index bit of weight [b]. *)
Definition cube_swap0 (b : nat) (x : list Z) : list Z :=
  each (fun i => if upper i then x !!! i else x !!! Nat.lxor i b).
Definition cube_swap1 (b : nat) (x : list Z) : list Z :=
  each (fun i => if upper i then x !!! Nat.lxor i b else x !!! i).

(** The ten steps of a round, in order. *)
Definition cube_round (x : list Z) : list Z :=
  let x := cube_add x in
  let x := cube_rotate 7 x in
  let x := cube_swap0 8 x in          (* x[00klm] with x[01klm] *)
  let x := cube_xor x in
  let x := cube_swap1 2 x in          (* x[1jk0m] with x[1jk1m] *)
  let x := cube_add x in
  let x := cube_rotate 11 x in
  let x := cube_swap0 4 x in          (* x[0j0lm] with x[0j1lm] *)
  let x := cube_xor x in
  cube_swap1 1 x.                     (* x[1jkl0] with x[1jkl1] *)

(** Parameters: digest bytes, block bytes, rounds per block. *)
Definition cube_h : nat := 32. (* h / 8 *)
Definition cube_b : nat := 32.
Definition cube_r : nat := 16.
Definition cube_rounds (n : nat) (x : list Z) : list Z := Nat.iter n cube_round x.

(** Initialisation: the first three words are h/8, b, r, the others zero; 10r rounds. *)
Definition cube_init : list Z :=
  cube_rounds (10 * cube_r) (Z.of_nat cube_h :: Z.of_nat cube_b :: Z.of_nat cube_r :: replicate 29 0).
(** Padding: the byte 0x80 and the fewest zero bytes that complete a block. *)
Definition cube_pad (msg : list Z) : list Z :=
  msg ++ 0x80 :: replicate ((cube_b - (length msg + 1) mod cube_b) mod cube_b) 0.
(** A block is xored, as little-endian words, into the first words of the state. *)
Definition cube_block (x block : list Z) : list Z :=
  let w := le_number <$> chunks 4 block in
  cube_rounds cube_r (zip_with Z.lxor (take (length w) x) w ++ drop (length w) x).
(** Finalisation: 1 is xored into x[11111]; 10r rounds. *)
Definition cube_final (x : list Z) : list Z :=
  cube_rounds (10 * cube_r) (<[31%nat := Z.lxor (x !!! 31%nat) 1]> x).
Definition cubehash256 (msg : list Z) : list Z :=
  let x := cube_final (foldl cube_block cube_init (chunks cube_b (cube_pad msg))) in
  take cube_h (x ≫= le_bytes 4).
