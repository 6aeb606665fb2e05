(** * BLAKE-256

    Aumasson, Henzen, Meier, Phan, "SHA-3 proposal BLAKE" (2010, 14 rounds), with
    salt zero.  This is the digest /repo takes from the crate blake-hash. *)
From Verif Require Import SpecWord SpecBlake2bFull.

(** Big-endian numbers. *)
Definition be_bytes (n : nat) (x : Z) : list Z := reverse (le_bytes n x).
Definition be_number (bs : list Z) : Z := le_number (reverse bs).

Definition blake256_iv : list Z :=
  [0x6A09E667; 0xBB67AE85; 0x3C6EF372; 0xA54FF53A; 0x510E527F; 0x9B05688C; 0x1F83D9AB; 0x5BE0CD19].
Definition blake256_c : list Z :=
  [0x243F6A88; 0x85A308D3; 0x13198A2E; 0x03707344; 0xA4093822; 0x299F31D0; 0x082EFA98; 0xEC4E6C89;
   0x452821E6; 0x38D01377; 0xBE5466CF; 0x34E90C6C; 0xC0AC29B7; 0xC97C50DD; 0x3F84D5B5; 0xB5470917].

(** G_i on the words [a b c d] of the state, with message words and constants selected by
    the permutation of the round. *)
Definition blake256_G (m : list Z) (s : list nat) (v : list Z) (i a b c d : nat) : list Z :=
  let x := s !!! (2 * i)%nat in
  let y := s !!! (2 * i + 1)%nat in
  let w j k := Z.lxor (m !!! j) (blake256_c !!! k) in
  let v := <[a := addw 32 (addw 32 (v !!! a) (v !!! b)) (w x y)]> v in
  let v := <[d := ror 32 16 (Z.lxor (v !!! d) (v !!! a))]> v in
  let v := <[c := addw 32 (v !!! c) (v !!! d)]> v in
  let v := <[b := ror 32 12 (Z.lxor (v !!! b) (v !!! c))]> v in
  let v := <[a := addw 32 (addw 32 (v !!! a) (v !!! b)) (w y x)]> v in
  let v := <[d := ror 32 8 (Z.lxor (v !!! d) (v !!! a))]> v in
  let v := <[c := addw 32 (v !!! c) (v !!! d)]> v in
  <[b := ror 32 7 (Z.lxor (v !!! b) (v !!! c))]> v.
(** Columns, then diagonals. *)
Definition blake256_round (m : list Z) (v : list Z) (s : list nat) : list Z :=
  foldl (fun v '(i, a, b, c, d) => blake256_G m s v i a b c d) v
    [(0, 0, 4, 8, 12); (1, 1, 5, 9, 13); (2, 2, 6, 10, 14); (3, 3, 7, 11, 15);
     (4, 0, 5, 10, 15); (5, 1, 6, 11, 12); (6, 2, 7, 8, 13); (7, 3, 4, 9, 14)]%nat.
(** The permutations are those of BLAKE2; after the tenth they start again. *)
Definition blake256_schedule : list (list nat) := sigma ++ take 4 sigma.
(** Compression of a block of 16 words; [t] is the 64-bit counter. *)
Definition blake256_compress (h m : list Z) (t : Z) : list Z :=
  let c := blake256_c in
  let t0 := t mod 2 ^ 32 in
  let t1 := t / 2 ^ 32 in
  let v := h ++ take 4 c ++
    [Z.lxor t0 (c !!! 4%nat); Z.lxor t0 (c !!! 5%nat); Z.lxor t1 (c !!! 6%nat); Z.lxor t1 (c !!! 7%nat)] in
  let v := foldl (blake256_round m) v blake256_schedule in
  zip_with Z.lxor h (zip_with Z.lxor (take 8 v) (drop 8 v)).

(** Padding: a 1 bit, the fewest zero bits, a 1 bit, the 64-bit big-endian bit length. *)
Definition blake256_pad (msg : list Z) : list Z :=
  let z := ((64 - (length msg + 9) mod 64) mod 64)%nat in
  msg ++ match z with
         | O => [0x81]
         | S n => 0x80 :: replicate n 0 ++ [0x01]
         end ++ be_bytes 8 (8 * Z.of_nat (length msg)).
(** The counter of block [i]: the message bits hashed so far, or 0 for a block without
    message bits. *)
Definition blake256_counter (len : nat) (i : nat) : Z :=
  if (64 * i <? len)%nat then 8 * Z.of_nat (Nat.min len (64 * (i + 1))) else 0.
Definition blake256 (msg : list Z) : list Z :=
  let blocks := chunks 64 (blake256_pad msg) in
  let h := foldl (fun h '(i, b) =>
             blake256_compress h (be_number <$> chunks 4 b) (blake256_counter (length msg) i))
             blake256_iv (imap pair blocks) in
  h ≫= be_bytes 4.
