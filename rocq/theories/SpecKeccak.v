(** * Keccak-256 (the original padding, not the one of FIPS 202)

    Bertoni, Daemen, Peeters, Van Assche, "The Keccak reference".  This is the
    digest /repo takes from the crate sha3 (Keccak256). *)
From Verif Require Import SpecWord.

(** The state is 25 lanes of 64 bits; lane (x, y) has number 5 y + x. *)
Definition lane (a : list Z) (x y : nat) : Z := a !!! (5 * (y mod 5) + x mod 5)%nat.
Definition lanes (f : nat -> nat -> Z) : list Z := (fun i => f (i mod 5)%nat (i / 5)%nat) <$> seq 0 25.

Definition theta (a : list Z) : list Z :=
  let c := (fun x => foldl Z.lxor 0 ((fun y => lane a x y) <$> seq 0 5)) <$> seq 0 5 in
  let d x := Z.lxor (c !!! ((x + 4) mod 5)%nat) (rol 64 1 (c !!! ((x + 1) mod 5)%nat)) in
  lanes (fun x y => Z.lxor (lane a x y) (d x)).
(** Rotation offsets, by lane number. *)
Definition rho_offsets : list Z :=
  [0; 1; 62; 28; 27; 36; 44; 6; 55; 20; 3; 10; 43; 25; 39; 41; 45; 15; 21; 8; 18; 2; 61; 56; 14].
Definition rho (a : list Z) : list Z := zip_with (fun n x => rol 64 n x) rho_offsets a.
(** Lane (x, y) of the result is lane (x + 3 y, x) of the argument. *)
Definition pi_step (a : list Z) : list Z := lanes (fun x y => lane a (x + 3 * y) x).
Definition chi (a : list Z) : list Z :=
  lanes (fun x y => Z.lxor (lane a x y) (Z.land (2 ^ 64 - 1 - lane a (x + 1) y) (lane a (x + 2) y))).
Definition keccak_rc : list Z :=
  [0x0000000000000001; 0x0000000000008082; 0x800000000000808A; 0x8000000080008000;
   0x000000000000808B; 0x0000000080000001; 0x8000000080008081; 0x8000000000008009;
   0x000000000000008A; 0x0000000000000088; 0x0000000080008009; 0x000000008000000A;
   0x000000008000808B; 0x800000000000008B; 0x8000000000008089; 0x8000000000008003;
   0x8000000000008002; 0x8000000000000080; 0x000000000000800A; 0x800000008000000A;
   0x8000000080008081; 0x8000000000008080; 0x0000000080000001; 0x8000000080008008].
Definition iota (rc : Z) (a : list Z) : list Z := <[0%nat := Z.lxor (a !!! 0%nat) rc]> a.
Definition keccak_f (a : list Z) : list Z :=
  foldl (fun a rc => iota rc (chi (pi_step (rho (theta a))))) a keccak_rc.

(** Rate 136 bytes; padding 1 0* 1. *)
Definition keccak_rate : nat := 136.
Definition keccak_pad (msg : list Z) : list Z :=
  match (keccak_rate - 1 - length msg mod keccak_rate)%nat with
  | O => msg ++ [0x81]
  | S n => msg ++ 0x01 :: replicate n 0 ++ [0x80]
  end.
Definition keccak_absorb (a block : list Z) : list Z :=
  let w := le_number <$> chunks 8 block in
  keccak_f (zip_with Z.lxor (take (length w) a) w ++ drop (length w) a).
Definition keccak256 (msg : list Z) : list Z :=
  let a := foldl keccak_absorb (replicate 25 0) (chunks keccak_rate (keccak_pad msg)) in
  take 32 (a ≫= le_bytes 8).
