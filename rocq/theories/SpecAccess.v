(** * Memory accesses and work of a Lyra2 computation

    The matrix has [R] rows of [C] columns of 12 words, stored row by row: word
    [j] of column [c] of row [r] is at address [12 * (r * C + c) + j].  The lists
    below give, for each phase, the addresses read and written and the places
    where the reduced sponge permutation is applied, in order. *)
From Verif Require Import Machine MAccess SpecWord SpecBlake2b SpecLyra2 SpecSchedule.

(** The twelve addresses of a cell of the matrix. *)
Definition cell_addrs (C r c : Z) : list Z := (fun j => 12 * (r * C + c) + j) <$> seqZ 0 12.
(** Access [f] to the words of a cell one after the other; the same for two cells
    alternately. *)
Definition each (f : Z -> access) (xs : list Z) : list access := f <$> xs.
Definition each2 (f h : Z -> access) (xs ys : list Z) : list access :=
  zip xs ys ≫= fun '(x, y) => [f x; h y].
Definition rounds (n : nat) : list access := replicate n Perm.

(** The complete words of password and salt, the six parameter words and the first
    padding word are written from address 0 on; the last word of the last block is
    updated; then the blocks of 8 words are read in order and absorbed, 12 rounds
    each. *)
Definition input_accesses (pwd_len salt_len : Z) : list access :=
  let body := pwd_len / 8 + salt_len / 8 + 6 in
  let nb := (salt_len + pwd_len + 48) / 64 + 1 in
  each Wr (seqZ 0 (body + 1)) ++ [Rd (8 * nb - 1); Wr (8 * nb - 1)] ++
  (seqZ 0 nb ≫= fun i => each Rd (seqZ (8 * i) 8) ++ rounds 12).

(** Setup: row 0 is filled from its last column backwards; row 1 from row 0; row
    [row] from the previous row and row* = [setup_rowa row], which is updated. *)
Definition row0_accesses (C : Z) : list access :=
  seqZ 0 C ≫= fun c => each Wr (cell_addrs C 0 (C - 1 - c)) ++ rounds 1.
Definition row1_accesses (C : Z) : list access :=
  seqZ 0 C ≫= fun c =>
    each Rd (cell_addrs C 0 c) ++ rounds 1 ++
    each2 Rd Wr (cell_addrs C 0 c) (cell_addrs C 1 (C - 1 - c)).
Definition setup_row_accesses (C row prev rowa : Z) : list access :=
  seqZ 0 C ≫= fun c =>
    each2 Rd Rd (cell_addrs C prev c) (cell_addrs C rowa c) ++ rounds 1 ++
    each2 Rd Wr (cell_addrs C prev c) (cell_addrs C row (C - 1 - c)) ++
    each2 Rd Wr (cell_addrs C rowa c) (cell_addrs C rowa c).
Definition setup_accesses (R C : Z) : list access :=
  row0_accesses C ++ row1_accesses C ++
  (seqZ 2 (R - 2) ≫= fun row => setup_row_accesses C row (row - 1) (setup_rowa row)).

(** Wandering: one visit of [row], after [prev], with the revisited row [rowa]. *)
Definition wander_row_accesses (C row prev rowa : Z) : list access :=
  seqZ 0 C ≫= fun c =>
    each2 Rd Rd (cell_addrs C prev c) (cell_addrs C rowa c) ++ rounds 1 ++
    each2 Rd Wr (cell_addrs C row c) (cell_addrs C row c) ++
    each2 Rd Wr (cell_addrs C rowa c) (cell_addrs C rowa c).
(** The whole phase, given the revisited row of each step of the schedule. *)
Definition wander_accesses (R C t : Z) (rowas : list Z) : list access :=
  zip (wander_schedule R t) rowas ≫= fun '(_, row, prev, rowa) => wander_row_accesses C row prev rowa.

(** Wrap-up: the first cell of the row revisited last is absorbed, and the sponge
    runs once more, or twice when the output fills the rate. *)
Definition final_accesses (C rowa k : Z) : list access :=
  each Rd (cell_addrs C rowa 0) ++ rounds 12 ++ rounds (12 * Z.to_nat (k / 96 + 1)).

(** Counting. *)
Definition work (l : list access) : Z :=
  Z.of_nat (length (omap (fun a => match a with Perm => Some tt | _ => None end) l)).
Definition reads (l : list access) : list Z :=
  omap (fun a => match a with Rd x => Some x | _ => None end) l.
Definition writes (l : list access) : list Z :=
  omap (fun a => match a with Wr x => Some x | _ => None end) l.

(** What an observer who cannot tell the rows apart sees of an access: its kind
    and its column and word, but not its row. *)
Definition without_row (C : Z) (a : access) : access :=
  match a with
  | Rd x => Rd (x mod (12 * C))
  | Wr x => Wr (x mod (12 * C))
  | Perm => Perm
  end.
