(** * Skein-512-256

    Ferguson et al., "The Skein Hash Function Family", version 1.3.  This is the digest
    /repo takes from the crate skein-hash (Skein512<U32>). *)
From Verif Require Import SpecWord.

(** ** Threefish-512 *)
Definition threefish_rotations : list (list Z) :=
  [[46; 36; 19; 37]; [33; 27; 14; 42]; [17; 49; 36; 39]; [44; 9; 54; 56];
   [39; 30; 34; 24]; [13; 50; 10; 17]; [25; 29; 39; 43]; [8; 35; 56; 22]].
Definition threefish_pi : list nat := [2; 1; 4; 7; 6; 5; 0; 3]%nat.
(** The subkeys, from the nine key words and three tweak words. *)
Definition threefish_subkey (k t : list Z) (s : nat) : list Z :=
  (fun i : nat =>
     let x := k !!! ((s + i) mod 9)%nat in
     if (i =? 5)%nat then addw 64 x (t !!! (s mod 3)%nat) else
     if (i =? 6)%nat then addw 64 x (t !!! ((s + 1) mod 3)%nat) else
     if (i =? 7)%nat then addw 64 x (Z.of_nat s) else x) <$> seq 0 8.
Definition threefish_mix (r x0 x1 : Z) : list Z :=
  let y0 := addw 64 x0 x1 in [y0; Z.lxor (rol 64 r x1) y0].
Definition threefish_round (d : nat) (v : list Z) : list Z :=
  let f := seq 0 4 ≫= fun j : nat =>
             threefish_mix (threefish_rotations !!! (d mod 8)%nat !!! j)
               (v !!! (2 * j)%nat) (v !!! (2 * j + 1)%nat) in
  (fun i => f !!! i) <$> threefish_pi.
Definition threefish (key tweak block : list Z) : list Z :=
  let k := key ++ [foldl Z.lxor 0x1BD11BDAA9FC1A22 key] in
  let t := tweak ++ [foldl Z.lxor 0 tweak] in
  let add v s := zip_with (addw 64) v (threefish_subkey k t s) in
  let v := foldl (fun v d => threefish_round d (if (d mod 4 =? 0)%nat then add v (d / 4)%nat else v))
             block (seq 0 72) in
  add v 18%nat.

(** ** UBI chaining: type, whether first and last block, position after the block. *)
Definition skein_tweak (ty : Z) (first last : bool) (position : Z) : list Z :=
  [position; ty * 2 ^ 56 + (if first then 2 ^ 62 else 0) + (if last then 2 ^ 63 else 0)].
Definition skein_ubi (g msg : list Z) (ty : Z) : list Z :=
  let n := ((length msg - 1) / 64 + 1)%nat in
  let padded := msg ++ replicate (64 * n - length msg) 0 in
  foldl (fun g '(i, b) =>
           let w := le_number <$> chunks 8 b in
           let t := skein_tweak ty (i =? 0)%nat (i =? n - 1)%nat
                      (Z.of_nat (Nat.min (length msg) (64 * (i + 1)))) in
           zip_with Z.lxor (threefish g t w) w)
    g (imap pair (chunks 64 padded)).

(** "SHA3", version 1, output length in bits, no tree. *)
Definition skein_config : list Z :=
  [0x53; 0x48; 0x41; 0x33; 1; 0; 0; 0] ++ le_bytes 8 256 ++ replicate 16 0.
Definition skein512_256 (msg : list Z) : list Z :=
  let g := skein_ubi (replicate 8 0) skein_config 4 in
  let g := skein_ubi g msg 48 in
  let g := skein_ubi g (replicate 8 0) 63 in
  take 32 (g ≫= le_bytes 8).
