(** * BLAKE2b of RFC 7693, with message words *)
From Verif Require Import SpecWord SpecBlake2b.

(** RFC 7693, section 3.1: [Mix(a, b, c, d, x, y)]. *)
Definition mix (v : list Z) (q : nat * nat * nat * nat) (x y : Z) : list Z :=
  let '(a, b, c, d) := q in
  let v := <[a := (v !!! a + v !!! b + x) mod 2 ^ 64]> v in
  let v := <[d := ror 64 32 (Z.lxor (v !!! d) (v !!! a))]> v in
  let v := <[c := (v !!! c + v !!! d) mod 2 ^ 64]> v in
  let v := <[b := ror 64 24 (Z.lxor (v !!! b) (v !!! c))]> v in
  let v := <[a := (v !!! a + v !!! b + y) mod 2 ^ 64]> v in
  let v := <[d := ror 64 16 (Z.lxor (v !!! d) (v !!! a))]> v in
  let v := <[c := (v !!! c + v !!! d) mod 2 ^ 64]> v in
  let v := <[b := ror 64 63 (Z.lxor (v !!! b) (v !!! c))]> v in
  v.

(** RFC 7693, section 2.7: message schedule (rounds 10 and 11 repeat 0 and 1). *)
Definition sigma : list (list nat) :=
  [[0; 1; 2; 3; 4; 5; 6; 7; 8; 9; 10; 11; 12; 13; 14; 15];
   [14; 10; 4; 8; 9; 15; 13; 6; 1; 12; 0; 2; 11; 7; 5; 3];
   [11; 8; 12; 0; 5; 2; 15; 13; 10; 14; 3; 6; 7; 1; 9; 4];
   [7; 9; 3; 1; 13; 12; 11; 14; 2; 6; 5; 10; 4; 0; 15; 8];
   [9; 0; 5; 7; 2; 4; 10; 15; 14; 1; 11; 12; 6; 8; 3; 13];
   [2; 12; 6; 10; 0; 11; 8; 3; 4; 13; 7; 5; 15; 14; 1; 9];
   [12; 5; 1; 15; 14; 13; 4; 10; 0; 7; 6; 3; 9; 2; 8; 11];
   [13; 11; 7; 14; 12; 1; 3; 9; 5; 0; 15; 4; 8; 6; 2; 10];
   [6; 15; 14; 9; 11; 3; 0; 8; 12; 2; 13; 7; 1; 4; 10; 5];
   [10; 2; 8; 4; 7; 6; 1; 5; 15; 11; 9; 14; 3; 12; 13; 0]]%nat.

(** RFC 7693, section 3.2: one round with message [m] and schedule row [s]. *)
Definition mix_round (m : list Z) (s : list nat) (v : list Z) : list Z :=
  let word i := m !!! (s !!! i) in
  let v := mix v (0, 4, 8, 12)%nat (word 0%nat) (word 1%nat) in
  let v := mix v (1, 5, 9, 13)%nat (word 2%nat) (word 3%nat) in
  let v := mix v (2, 6, 10, 14)%nat (word 4%nat) (word 5%nat) in
  let v := mix v (3, 7, 11, 15)%nat (word 6%nat) (word 7%nat) in
  let v := mix v (0, 5, 10, 15)%nat (word 8%nat) (word 9%nat) in
  let v := mix v (1, 6, 11, 12)%nat (word 10%nat) (word 11%nat) in
  let v := mix v (2, 7, 8, 13)%nat (word 12%nat) (word 13%nat) in
  let v := mix v (3, 4, 9, 14)%nat (word 14%nat) (word 15%nat) in
  v.
(** The twelve rounds. *)
Definition mix_rounds (m : list Z) (v : list Z) : list Z :=
  foldl (fun v i => mix_round m (sigma !!! (i mod 10)%nat) v) v (seq 0 12).

(** RFC 7693, section 3.2 and 3.3, for an unkeyed message of at most 128 bytes
    and a 64-byte digest (used only to check the above against the RFC's example). *)
Definition blake2b512_short (msg : list Z) : list Z :=
  let h := <[0%nat := Z.lxor (blake2b_iv !!! 0%nat) 0x01010040]> blake2b_iv in
  let m := le_number <$> chunks 8 (msg ++ replicate (128 - length msg) 0) in
  let v := h ++ blake2b_iv in
  let v := <[12%nat := Z.lxor (v !!! 12%nat) (Z.of_nat (length msg))]> v in
  let v := <[14%nat := Z.lxor (v !!! 14%nat) (2 ^ 64 - 1)]> v in
  let v := mix_rounds m v in
  zip_with Z.lxor h (zip_with Z.lxor (take 8 v) (drop 8 v)) ≫= le_bytes 8.
