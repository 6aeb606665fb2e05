(** * Blue Midnight Wish, 256-bit digest

    D. Gligoroski et al., "Cryptographic Hash Function BLUE MIDNIGHT WISH"
    (second-round submission to the SHA-3 competition), BMW256. *)
From Verif Require Import SpecWord.

Definition sum32 (l : list Z) : Z := foldr Z.add 0 l mod 2 ^ 32.
Definition xors (l : list Z) : Z := foldr Z.lxor 0 l.

(** Table 1.3: logic functions (s_0 .. s_5, r_1 .. r_7). *)
Definition bmw_s (i : nat) (x : Z) : Z :=
  match i with
  | 0%nat => xors [shrw 1 x; shlw 32 3 x; rol 32 4 x; rol 32 19 x]
  | 1%nat => xors [shrw 1 x; shlw 32 2 x; rol 32 8 x; rol 32 23 x]
  | 2%nat => xors [shrw 2 x; shlw 32 1 x; rol 32 12 x; rol 32 25 x]
  | 3%nat => xors [shrw 2 x; shlw 32 2 x; rol 32 15 x; rol 32 29 x]
  | 4%nat => xors [shrw 1 x; x]
  | _ => xors [shrw 2 x; x]
  end.
Definition bmw_r (i : nat) (x : Z) : Z :=
  match i with 1%nat => rol 32 3 x | 2%nat => rol 32 7 x | 3%nat => rol 32 13 x | 4%nat => rol 32 16 x
             | 5%nat => rol 32 19 x | 6%nat => rol 32 23 x | _ => rol 32 27 x end.

(** Table 2.2, f0: W_i is a signed sum of five of the words M_j xor H_j. *)
Definition pos (j : nat) : Z * nat := (1, j).
Definition neg (j : nat) : Z * nat := (-1, j).
Definition bmw_W_table : list (list (Z * nat)) :=
  [[pos 5; neg 7; pos 10; pos 13; pos 14];
   [pos 6; neg 8; pos 11; pos 14; neg 15];
   [pos 0; pos 7; pos 9; neg 12; pos 15];
   [pos 0; neg 1; pos 8; neg 10; pos 13];
   [pos 1; pos 2; pos 9; neg 11; neg 14];
   [pos 3; neg 2; pos 10; neg 12; pos 15];
   [pos 4; neg 0; neg 3; neg 11; pos 13];
   [pos 1; neg 4; neg 5; neg 12; neg 14];
   [pos 2; neg 5; neg 6; pos 13; neg 15];
   [pos 0; neg 3; pos 6; neg 7; pos 14];
   [pos 8; neg 1; neg 4; neg 7; pos 15];
   [pos 8; neg 0; neg 2; neg 5; pos 9];
   [pos 1; pos 3; neg 6; neg 9; pos 10];
   [pos 2; pos 4; pos 7; pos 10; pos 11];
   [pos 3; neg 5; pos 8; neg 11; neg 12];
   [pos 12; neg 4; neg 6; neg 9; pos 13]].
Definition bmw_W (M H : list Z) (i : nat) : Z :=
  sum32 ((fun '(s, j) => s * Z.lxor (M !!! j) (H !!! j)) <$> bmw_W_table !!! i).
Definition bmw_f0 (M H : list Z) : list Z :=
  (fun i => sum32 [bmw_s (i mod 5)%nat (bmw_W M H i); H !!! ((i + 1) mod 16)%nat]) <$> seq 0 16.

(** Table 2.3, f1: K_j = j * 0x05555555; two rounds of expand1, fourteen of expand2. *)
Definition bmw_K (j : nat) : Z := Z.of_nat j * 0x05555555.
Definition bmw_rotM (M : list Z) (j : nat) : Z :=
  rol 32 (Z.of_nat (j mod 16 + 1)) (M !!! (j mod 16)%nat).
Definition bmw_add_element (M H : list Z) (j : nat) : Z :=
  Z.lxor (sum32 [bmw_rotM M j; bmw_rotM M (j + 3); - bmw_rotM M (j + 10); bmw_K (j + 16)])
         (H !!! ((j + 7) mod 16)%nat).
Definition bmw_expand1 (M H Q : list Z) (j : nat) : Z :=
  sum32 (((fun k => bmw_s ((k + 1) mod 4)%nat (Q !!! (j - 16 + k)%nat)) <$> seq 0 16) ++
         [bmw_add_element M H (j - 16)]).
Definition bmw_expand2 (M H Q : list Z) (j : nat) : Z :=
  sum32 (((fun k => if Nat.even k then Q !!! (j - 16 + k)%nat
                    else bmw_r ((k + 1) / 2)%nat (Q !!! (j - 16 + k)%nat)) <$> seq 0 14) ++
         [bmw_s 4 (Q !!! (j - 2)%nat); bmw_s 5 (Q !!! (j - 1)%nat); bmw_add_element M H (j - 16)]).
Definition bmw_f1 (M H Q : list Z) : list Z :=
  foldl (fun Q j => Q ++ [if (j <? 18)%nat then bmw_expand1 M H Q j else bmw_expand2 M H Q j])
    Q (seq 16 16).

(** Table 2.4, f2: folding. *)
Definition bmw_XL (Q : list Z) : Z := xors (take 8 (drop 16 Q)).
Definition bmw_XH (Q : list Z) : Z := xors (take 16 (drop 16 Q)).
Definition bmw_f2 (M Q : list Z) : list Z :=
  let shl n x := shlw 32 n x in
  let q i := Q !!! (i : nat) in let m i := M !!! (i : nat) in
  let XL := bmw_XL Q in let XH := bmw_XH Q in
  let H :=
    [sum32 [xors [shl 5 XH; shrw 5 (q 16%nat); m 0%nat]; xors [XL; q 24%nat; q 0%nat]];
     sum32 [xors [shrw 7 XH; shl 8 (q 17%nat); m 1%nat]; xors [XL; q 25%nat; q 1%nat]];
     sum32 [xors [shrw 5 XH; shl 5 (q 18%nat); m 2%nat]; xors [XL; q 26%nat; q 2%nat]];
     sum32 [xors [shrw 1 XH; shl 5 (q 19%nat); m 3%nat]; xors [XL; q 27%nat; q 3%nat]];
     sum32 [xors [shrw 3 XH; q 20%nat; m 4%nat]; xors [XL; q 28%nat; q 4%nat]];
     sum32 [xors [shl 6 XH; shrw 6 (q 21%nat); m 5%nat]; xors [XL; q 29%nat; q 5%nat]];
     sum32 [xors [shrw 4 XH; shl 6 (q 22%nat); m 6%nat]; xors [XL; q 30%nat; q 6%nat]];
     sum32 [xors [shrw 11 XH; shl 2 (q 23%nat); m 7%nat]; xors [XL; q 31%nat; q 7%nat]]] in
  H ++
    [sum32 [rol 32 9 (H !!! 4%nat); xors [XH; q 24%nat; m 8%nat]; xors [shl 8 XL; q 23%nat; q 8%nat]];
     sum32 [rol 32 10 (H !!! 5%nat); xors [XH; q 25%nat; m 9%nat]; xors [shrw 6 XL; q 16%nat; q 9%nat]];
     sum32 [rol 32 11 (H !!! 6%nat); xors [XH; q 26%nat; m 10%nat]; xors [shl 6 XL; q 17%nat; q 10%nat]];
     sum32 [rol 32 12 (H !!! 7%nat); xors [XH; q 27%nat; m 11%nat]; xors [shl 4 XL; q 18%nat; q 11%nat]];
     sum32 [rol 32 13 (H !!! 0%nat); xors [XH; q 28%nat; m 12%nat]; xors [shrw 3 XL; q 19%nat; q 12%nat]];
     sum32 [rol 32 14 (H !!! 1%nat); xors [XH; q 29%nat; m 13%nat]; xors [shrw 4 XL; q 20%nat; q 13%nat]];
     sum32 [rol 32 15 (H !!! 2%nat); xors [XH; q 30%nat; m 14%nat]; xors [shrw 7 XL; q 21%nat; q 14%nat]];
     sum32 [rol 32 16 (H !!! 3%nat); xors [XH; q 31%nat; m 15%nat]; xors [shrw 2 XL; q 22%nat; q 15%nat]]].

(** The compression function. *)
Definition bmw_compress (M H : list Z) : list Z := bmw_f2 M (bmw_f1 M H (bmw_f0 M H)).

(** Initial value 0x40414243, 0x44454647, ...: the bytes 0x40 .. 0x7f; final constant. *)
Definition bmw_iv : list Z := (fun i => le_number (reverse (seqZ (0x40 + 4 * i) 4))) <$> seqZ 0 16.
Definition bmw_final : list Z := (fun i => 0xaaaaaaa0 + i) <$> seqZ 0 16.
(** Padding: a 1 bit, the fewest zero bits, the bit length as a 64-bit little-endian number. *)
Definition bmw_pad (msg : list Z) : list Z :=
  msg ++ 0x80 :: replicate ((64 - (length msg + 9) mod 64) mod 64) 0 ++
  le_bytes 8 (8 * Z.of_nat (length msg)).
Definition bmw_block_words (block : list Z) : list Z := le_number <$> chunks 4 block.
Definition bmw256 (msg : list Z) : list Z :=
  let H := foldl (fun H b => bmw_compress (bmw_block_words b) H) bmw_iv (chunks 64 (bmw_pad msg)) in
  drop 8 (bmw_compress H bmw_final) ≫= le_bytes 4.
(** The digest of a message that fills exactly one padded block. *)
Definition bmw_one_block (block : list Z) : list Z :=
  drop 8 (bmw_compress (bmw_compress (bmw_block_words block) bmw_iv) bmw_final) ≫= le_bytes 4.
(** What a 56 to 63 byte message is turned into when a block is forced onto it: its bytes from
    the 57th on, and the padding bit, are overwritten by the bit length. *)
Definition bmw_overwritten (msg : list Z) : list Z := take 56 msg ++ le_bytes 8 (8 * Z.of_nat (length msg)).
