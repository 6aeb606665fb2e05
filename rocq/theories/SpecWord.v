(** * Words and bytes: arithmetic definitions used by the specifications.
    Independent of the model (nothing of the model is imported here). *)
From Coq Require Export ZArith Lia.
From stdpp Require Export base list numbers list_numbers.
#[global] Open Scope Z_scope.

(** [x] is an unsigned [w]-bit word / a byte. *)
Definition word (w x : Z) : Prop := 0 <= x < 2 ^ w.
Definition byte (x : Z) : Prop := 0 <= x < 256.

(** Addition modulo 2^w; rotation of a [w]-bit word by [n] places. *)
Definition addw (w x y : Z) : Z := (x + y) mod 2 ^ w.
Definition subw (w x y : Z) : Z := (x - y) mod 2 ^ w.
Definition ror (w n x : Z) : Z := x / 2 ^ n + (x mod 2 ^ n) * 2 ^ (w - n).
Definition rol (w n x : Z) : Z := (x mod 2 ^ (w - n)) * 2 ^ n + x / 2 ^ (w - n).
(** Shifts of a [w]-bit word. *)
Definition shlw (w n x : Z) : Z := (x * 2 ^ n) mod 2 ^ w.
Definition shrw (n x : Z) : Z := x / 2 ^ n.

(** Little-endian: the [n] base-256 digits of [x]; the number with given digits. *)
Definition le_bytes (n : nat) (x : Z) : list Z :=
  (fun i => (x / 256 ^ Z.of_nat i) mod 256) <$> seq 0 n.
Definition le_number (bs : list Z) : Z := foldr (fun b acc => b + 256 * acc) 0 bs.

(** The complete chunks of [n] consecutive elements of [l]; a shorter rest is
    dropped. *)
Definition chunks {A} (n : nat) (l : list A) : list (list A) :=
  (fun i => take n (drop (n * i) l)) <$> seq 0 (length l / n)%nat.
