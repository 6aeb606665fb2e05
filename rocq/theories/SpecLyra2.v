(** * Lyra2 over a matrix of 12-word blocks

    The matrix is a function [row -> column -> block]; there are no flat
    indices, machine integers or partial operations here. *)
From Verif Require Import SpecWord SpecBlake2b.

Notation block := (list Z) (only parsing).        (* 12 words of 64 bits: the rate of the sponge *)
Definition matrix := Z -> Z -> block.

Definition set (M : matrix) (r c : Z) (b : block) : matrix :=
  fun r' c' => if (r' =? r) && (c' =? c) then b else M r' c'.

(** Block operations: bitwise xor, wordwise addition, rotation by one word. *)
Definition bxor (a b : block) : block := zip_with Z.lxor a b.
Definition badd (a b : block) : block := zip_with (addw 64) a b.
Definition rotW (b : block) : block := drop 11 b ++ take 11 b.

(** Sponge: state of 16 words, of which a block is absorbed into the first ones. *)
Definition absorb (st b : list Z) : list Z :=
  zip_with Z.lxor (take (length b) st) b ++ drop (length b) st.
Definition rate (st : list Z) : block := take 12 st.
Definition round1 := blake2b_round.
Definition round12 (st : list Z) : list Z := Nat.iter 12 blake2b_round st.
Definition sponge_init : list Z := replicate 8 0 ++ blake2b_iv.

(** Absorbing a sequence of (8-word) blocks with the full permutation. *)
Definition absorb_all (bs : list (list Z)) : list Z :=
  foldl (fun st b => round12 (absorb st b)) sponge_init bs.

(** [k] bytes of output: the rate, permuted between blocks. *)
Definition rate_bytes (st : list Z) : list Z := rate st ≫= le_bytes 8.
Definition squeezed (k : Z) (st : list Z) : list Z :=
  take (Z.to_nat k)
    (seqZ 0 (k / 96 + 1) ≫= fun j => rate_bytes (Nat.iter (Z.to_nat j) round12 st)).

Section params.
Context (R C : Z).

Definition cols : list Z := seqZ 0 C.

(** ** Setup *)
(** Row 0: M[0][C-1-col] <- squeeze with one round. *)
Definition setup_row0 (s : matrix * list Z) : matrix * list Z :=
  foldl (fun '(M, st) col => (set M 0 (C - 1 - col) (rate st), round1 st)) s cols.

(** Row 1: M[1][C-1-col] <- M[0][col] xor rand. *)
Definition setup_row1 (s : matrix * list Z) : matrix * list Z :=
  foldl (fun '(M, st) col =>
           let st := round1 (absorb st (M 0 col)) in
           (set M 1 (C - 1 - col) (bxor (M 0 col) (rate st)), st)) s cols.

(** Row [row] from [prev] and row*:
    M[row][C-1-col] <- M[prev][col] xor rand; M[row*][col] <- M[row*][col] xor rotW(rand). *)
Definition setup_row (row prev rowa : Z) (s : matrix * list Z) : matrix * list Z :=
  foldl (fun '(M, st) col =>
           let st := round1 (absorb st (badd (M prev col) (M rowa col))) in
           let rand := rate st in
           let M := set M row (C - 1 - col) (bxor (M prev col) rand) in
           let M := set M rowa col (bxor (M rowa col) (rotW rand)) in
           (M, st)) s cols.

(** The row revisited while row [row >= 2] is built: row number
    [(row - w) * s mod w] where [w] is the largest power of two not above [row];
    the stride [s] is [w/2 + 1] or [w/2 - 1] alternately (1 for w = 2). *)
Definition stride (e : Z) : Z :=
  if e =? 1 then 1 else if Z.even e then 2 ^ (e - 1) + 1 else 2 ^ (e - 1) - 1.
Definition setup_rowa (row : Z) : Z :=
  let e := Z.log2 row in
  ((row - 2 ^ e) * stride e) mod 2 ^ e.

Definition setup_rows (s : matrix * list Z) : matrix * list Z :=
  foldl (fun s row => setup_row row (row - 1) (setup_rowa row) s) s (seqZ 2 (R - 2)).

Definition setup (s : matrix * list Z) : matrix * list Z :=
  setup_rows (setup_row1 (setup_row0 s)).

(** ** Wandering *)
(** M[row][col] <- M[row][col] xor rand; M[row*][col] <- M[row*][col] xor rotW(rand). *)
Definition wander_row (row prev rowa : Z) (s : matrix * list Z) : matrix * list Z :=
  foldl (fun '(M, st) col =>
           let st := round1 (absorb st (badd (M prev col) (M rowa col))) in
           let rand := rate st in
           let M := set M row col (bxor (M row col) rand) in
           let M := set M rowa col (bxor (M rowa col) (rotW rand)) in
           (M, st)) s cols.

(** How an arbitrary integer is reduced to a row number.  The Lyra2 definition
    uses [mod R]; the code uses a bit mask. *)
Definition reduce_mod (x : Z) : Z := x mod R.
Definition reduce_mask (x : Z) : Z := Z.land x (R - 1).

(** The word of the state that selects row*, and what is remembered for the next
    selection.  Lyra2: the first word.  Lyra2 of Lyra2REv3: a word found by two
    indirections, starting from the remembered one. *)
Definition chooser := list Z -> Z -> Z * Z.
Definition choose_first : chooser := fun st i => (st !!! 0%nat, i).
Definition choose_rev3 : chooser := fun st i =>
  let i' := st !!! Z.to_nat (i mod 16) in
  (st !!! Z.to_nat (i' mod 16), i').

(** Rows visited in pass [tau]: starting at row 0, [row <- reduce (row + step)]
    until row 0 is reached again (at most [R] rows). *)
Definition wander_step (tau : Z) : Z := if Z.even tau then -1 else R / 2 - 1.
Fixpoint visit (n : nat) (next : Z -> Z) (row : Z) : list Z :=
  match n with
  | O => []
  | S n' => row :: (if next row =? 0 then [] else visit n' next (next row))
  end.
Definition pass_rows (reduce : Z -> Z) (tau : Z) : list Z :=
  visit (Z.to_nat R) (fun row => reduce (row + wander_step tau)) 0.

(** Wandering state: matrix, sponge, remembered word, previous row, last row*
    (the initial value of the latter is never used when [t >= 1]). *)
Definition wstate : Type := matrix * list Z * Z * Z * Z.
Definition wander_visit (reduce : Z -> Z) (choose : chooser) (s : wstate) (row : Z) : wstate :=
  let '(M, st, i, prev, _) := s in
  let '(w, i) := choose st i in
  let rowa := reduce w in
  let '(M, st) := wander_row row prev rowa (M, st) in
  (M, st, i, row, rowa).
Definition wander (reduce : Z -> Z) (choose : chooser) (t : Z) (s : matrix * list Z) : wstate :=
  let '(M, st) := s in
  foldl (wander_visit reduce choose) (M, st, 0, R - 1, setup_rowa R) (seqZ 1 t ≫= pass_rows reduce).
End params.

(** ** Input padding *)
(** Reference: bytes pwd || salt || basil, then 0x80, zeros up to a multiple of
    64 bytes, 0x01 xored into the last byte. *)
Definition ref_message (k : Z) (pwd salt : list Z) (t R C : Z) : list Z :=
  pwd ++ salt ++
  ([k; Z.of_nat (length pwd); Z.of_nat (length salt); t; R; C] ≫= le_bytes 8).
Definition ref_padded (k : Z) (pwd salt : list Z) (t R C : Z) : list Z :=
  let msg := ref_message k pwd salt t R C in
  let n := (64 * (length msg / 64 + 1))%nat in
  alter (fun b => Z.lxor b 1) (n - 1)%nat
        (msg ++ [0x80] ++ replicate (n - length msg - 1) 0).
(** The same as blocks of eight little-endian 64-bit words. *)
Definition ref_blocks (k : Z) (pwd salt : list Z) (t R C : Z) : list (list Z) :=
  chunks 8 (le_number <$> chunks 8 (ref_padded k pwd salt t R C)).

(** What the code absorbs: only the complete 8-byte words of pwd and of salt. *)
Definition complete_words (l : list Z) : list Z := le_number <$> chunks 8 l.
Definition n_blocks (pwd salt : list Z) : Z :=
  (Z.of_nat (length pwd) + Z.of_nat (length salt) + 48) / 64 + 1.
Definition code_padded (k : Z) (pwd salt : list Z) (t R C : Z) : list Z :=
  let body := complete_words pwd ++ complete_words salt ++
              [k; Z.of_nat (length pwd); Z.of_nat (length salt); t; R; C; 0x80] in
  let n := Z.to_nat (8 * n_blocks pwd salt) in
  alter (fun w => Z.lxor w (2 ^ 56)) (n - 1)%nat
        (body ++ replicate (n - length body) 0).
Definition code_blocks (k : Z) (pwd salt : list Z) (t R C : Z) : list (list Z) :=
  chunks 8 (code_padded k pwd salt t R C).

(** ** The key *)
Definition blank : matrix := fun _ _ => [].
(** The sponge state from which the key is squeezed. *)
Definition lyra2_state (reduce : Z -> Z) (choose : chooser) (blocks : list (list Z))
    (t R C : Z) : list Z :=
  let '(M, st, _, _, rowa) :=
    wander R C reduce choose t (setup R C (blank, absorb_all blocks)) in
  round12 (absorb st (M rowa 0)).
Definition lyra2_key (reduce : Z -> Z) (choose : chooser) (blocks : list (list Z))
    (k t R C : Z) : list Z :=
  squeezed k (lyra2_state reduce choose blocks t R C).

(** Lyra2 as defined (mod R, byte-level padding), and Lyra2 as in the code. *)
Definition Lyra2_reference (k : Z) (pwd salt : list Z) (t R C : Z) : list Z :=
  lyra2_key (reduce_mod R) choose_first (ref_blocks k pwd salt t R C) k t R C.
Definition Lyra2_code (choose : chooser) (k : Z) (pwd salt : list Z) (t R C : Z) : list Z :=
  lyra2_key (reduce_mask R) choose (code_blocks k pwd salt t R C) k t R C.

(** Calls accepted on a machine whose largest allocation is [max] bytes. *)
Definition accepted (max k : Z) (pwd salt : list Z) (t R C : Z) : Prop :=
  1 <= t /\ 3 <= R /\ 0 <= k <= 96 /\ 0 <= C /\
  64 * n_blocks pwd salt <= 96 * R * C <= max.
