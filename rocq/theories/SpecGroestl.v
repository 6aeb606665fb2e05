(** * Groestl-256

    Gauravaram et al., "Groestl - a SHA-3 candidate" (2011).  This is the digest /repo
    takes from the crate groestl (Groestl256). *)
From Verif Require Import SpecWord SpecBlake256.

(** ** The field of 256 elements, modulo x^8 + x^4 + x^3 + x + 1 *)
Definition xtime (a : Z) : Z := let b := 2 * a in if b <? 256 then b else Z.lxor b 0x11b.
Definition gmul (a b : Z) : Z :=
  foldl (fun acc i => if Z.testbit b i then Z.lxor acc (Nat.iter (Z.to_nat i) xtime a) else acc) 0 (seqZ 0 8).
(** The AES S-box: inversion (a^254) and an affine map. *)
Definition ginv (a : Z) : Z :=
  let a2 := gmul a a in let a4 := gmul a2 a2 in let a8 := gmul a4 a4 in
  let a16 := gmul a8 a8 in let a32 := gmul a16 a16 in let a64 := gmul a32 a32 in
  let a128 := gmul a64 a64 in
  gmul a128 (gmul a64 (gmul a32 (gmul a16 (gmul a8 (gmul a4 a2))))).
Definition sbox (a : Z) : Z :=
  let b := ginv a in
  foldl (fun x n => Z.lxor x (rol 8 n b)) (Z.lxor b 0x63) [1; 2; 3; 4].

(** ** The permutations; byte [k] of the state is in row [k mod 8] and column [k / 8]. *)
Definition at_ (a : list Z) (r c : nat) : Z := a !!! (8 * (c mod 8) + r mod 8)%nat.
Definition bytes64 (f : nat -> nat -> Z) : list Z := (fun k => f (k mod 8)%nat (k / 8)%nat) <$> seq 0 64.

Definition const_P (i : Z) (a : list Z) : list Z :=
  bytes64 (fun r c => if (r =? 0)%nat then Z.lxor (at_ a r c) (Z.lxor (16 * Z.of_nat c) i) else at_ a r c).
Definition const_Q (i : Z) (a : list Z) : list Z :=
  bytes64 (fun r c => let x := Z.lxor (at_ a r c) 0xff in
                      if (r =? 7)%nat then Z.lxor x (Z.lxor (16 * Z.of_nat c) i) else x).
Definition shift_rows (offsets : list nat) (a : list Z) : list Z :=
  bytes64 (fun r c => at_ a r (c + offsets !!! r)).
Definition shift_P : list nat := [0; 1; 2; 3; 4; 5; 6; 7]%nat.
Definition shift_Q : list nat := [1; 3; 5; 7; 0; 2; 4; 6]%nat.
Definition mix_row : list Z := [2; 2; 3; 4; 5; 3; 5; 7].
Definition mix (a : list Z) : list Z :=
  bytes64 (fun r c => foldl Z.lxor 0
    ((fun j : nat => gmul (at_ a (r + j) c) (mix_row !!! j)) <$> seq 0 8)).
Definition groestl_P (a : list Z) : list Z :=
  foldl (fun a i => mix (shift_rows shift_P (sbox <$> const_P i a))) a (seqZ 0 10).
Definition groestl_Q (a : list Z) : list Z :=
  foldl (fun a i => mix (shift_rows shift_Q (sbox <$> const_Q i a))) a (seqZ 0 10).

(** ** Hash *)
Definition xor_bytes (a b : list Z) : list Z := zip_with Z.lxor a b.
Definition groestl_f (h m : list Z) : list Z :=
  xor_bytes (xor_bytes (groestl_P (xor_bytes h m)) (groestl_Q m)) h.
Definition groestl_iv : list Z := be_bytes 64 256.
(** Padding: a 1 bit, the fewest zero bits, the 64-bit big-endian number of blocks. *)
Definition groestl_pad (msg : list Z) : list Z :=
  let z := ((64 - (length msg + 9) mod 64) mod 64)%nat in
  msg ++ 0x80 :: replicate z 0 ++ be_bytes 8 ((Z.of_nat (length msg + 9 + z)) / 64).
Definition groestl256 (msg : list Z) : list Z :=
  let h := foldl groestl_f groestl_iv (chunks 64 (groestl_pad msg)) in
  drop 32 (xor_bytes (groestl_P h) h).
