(** * Rust semantics used by the model

    Nothing in this file models a particular function of /repo; it fixes the
    meaning of the Rust constructs the sources use (outcomes, machine integers,
    vectors, slices, loops). *)
From Coq Require Export ZArith Lia.
From stdpp Require Export base list numbers.
#[global] Open Scope Z_scope.

(** ** Outcomes: a value, a panic, or a loop that used up its 2^64 iterations. *)
(** What a call in /repo can do, e.g. lyra2.rs:245-653: return, or panic as at 254-255. *)
Inductive outcome (A : Type) : Type :=
| Ok (a : A)
| Panic
| OutOfFuel.
Arguments Ok {A} a.
Arguments Panic {A}.
Arguments OutOfFuel {A}.

(** Sequencing of statements and evaluation of operands, as everywhere in /repo: a panic ends the call. *)
Definition obind {A B} (x : outcome A) (f : A -> outcome B) : outcome B :=
  match x with
  | Ok a => f a
  | Panic => Panic
  | OutOfFuel => OutOfFuel
  end.
Notation "x <-- e ;; k" := (obind e (fun x => k))
  (at level 100, e at next level, k at level 200, right associativity).
Notation "' p <-- e ;; k" := (obind e (fun x => match x with p => k end))
  (at level 100, p pattern, e at next level, k at level 200, right associativity).

(** [foldM f l s] runs [f] over the statements [l] in order, stopping at the
    first panic. Used for runs of like statements such as lyra2.rs:348-359. *)
Fixpoint foldM {A S} (f : S -> A -> outcome S) (l : list A) (s : S) : outcome S :=
  match l with
  | [] => Ok s
  | a :: l' => s' <-- f s a ;; foldM f l' s'
  end.

(** ** Platform: build profile and pointer width. *)
(** The build /repo/Cargo.toml leaves open: it fixes neither profile nor target. *)
Record platform := Platform {
  overflow_checks : bool;  (* true: debug profile, [+ - *] panic on overflow;
                              false: release profile, they wrap *)
  usize_bits : Z           (* 32 or 64 *)
}.
(** `cargo build` of /repo on a 64-bit target. *)
Definition debug64 := Platform true 64.
(** `cargo build --release` of /repo on a 64-bit target. *)
Definition release64 := Platform false 64.
(** `cargo build` of /repo on a 32-bit target. *)
Definition debug32 := Platform true 32.
(** `cargo build --release` of /repo on a 32-bit target. *)
Definition release32 := Platform false 32.
(** The widths of usize that matter to the casts of lyra2.rs:150-158, 274-323 and 348-648. *)
Definition known_platform (p : platform) : Prop :=
  usize_bits p = 32 \/ usize_bits p = 64.

(** [isize::MAX], the largest allocation in bytes. Limits the vectors of lyra2.rs:150, 155, 274 and of the digests. *)
Definition isize_max (p : platform) : Z := 2 ^ (usize_bits p - 1) - 1.

(** ** Machine integers.  An [i64] is a [Z] in [-2^63, 2^63), a [u64] a [Z] in
    [0, 2^64), a [usize] a [Z] in [0, 2^usize_bits). *)
(** wrapping_sub on i64 (lyra2.rs:362) and i64 arithmetic without overflow checks. *)
Definition wrap_i64 (x : Z) : Z := (x + 2 ^ 63) mod 2 ^ 64 - 2 ^ 63.
(** lyra2.rs:152, 272-273, 285, 344, 371-406, ... *)
Definition as_i64 (x : Z) : Z := wrap_i64 x.                       (* u64/usize as i64 *)
(** lyra2.rs:295, 304, 309, 311, 542; the identity on lengths, which are below 2^64. *)
Definition as_u64 (x : Z) : Z := x mod 2 ^ 64.                     (* _ as u64 *)
(** lyra2.rs:150, 158, 274, 295, 304, 323, 348-359, ... *)
Definition as_usize (p : platform) (x : Z) : Z := x mod 2 ^ usize_bits p. (* _ as usize *)

(** The range of i64: index arithmetic of lyra2.rs:272-648. *)
Definition in_i64 (x : Z) : bool := (- 2 ^ 63 <=? x) && (x <? 2 ^ 63).
(** The range of u64: n_cols - _i - 1 and n_rows - 1 in lyra2.rs:388-411, 470-497 and 542. *)
Definition in_u64 (x : Z) : bool := (0 <=? x) && (x <? 2 ^ 64).
(** The range of usize: lyra2.rs:285-317 and 338. *)
Definition in_usize (p : platform) (x : Z) : bool := (0 <=? x) && (x <? 2 ^ usize_bits p).

(** Result of an arithmetic operator whose exact value is [r]. i64: lyra2.rs:272-648. *)
Definition chk_i64 (p : platform) (r : Z) : outcome Z :=
  if in_i64 r then Ok r else if overflow_checks p then Panic else Ok (wrap_i64 r).
(** u64: lyra2.rs:388-411, 470-497, 542. *)
Definition chk_u64 (p : platform) (r : Z) : outcome Z :=
  if in_u64 r then Ok r else if overflow_checks p then Panic else Ok (r mod 2 ^ 64).
(** usize: lyra2.rs:285-317, 338. *)
Definition chk_usize (p : platform) (r : Z) : outcome Z :=
  if in_usize p r then Ok r else if overflow_checks p then Panic else Ok (as_usize p r).

(** i64 +, e.g. lyra2.rs:349-359, 372-382. *)
Definition iadd p a b := chk_i64 p (a + b).
(** i64 -, e.g. lyra2.rs:323, 344. *)
Definition isub p a b := chk_i64 p (a - b).
(** i64 *, e.g. lyra2.rs:272-273, 371-382. *)
Definition imul p a b := chk_i64 p (a * b).
(** u64 -, e.g. lyra2.rs:388-411, 542. *)
Definition usub p a b := chk_u64 p (a - b).
(** usize +, e.g. lyra2.rs:285, 290-295, 308-317, 338. *)
Definition szadd p a b := chk_usize p (a + b).
(** usize *, e.g. lyra2.rs:289, 298. *)
Definition szmul p a b := chk_usize p (a * b).

(** Fixed-width unsigned operators ([w] = 32 or 64): the low [w] bits of the
    exact result.  [<<] drops the bits shifted out; shift amounts in the sources
    are constants below [w]. lyra2.rs:30-36, 421-465; bmw/mod.rs:81-921; cubehash/mod.rs:125-. *)
Definition wadd (w a b : Z) : Z := Z.land (a + b) (Z.ones w).      (* wrapping_add *)
(** bmw/mod.rs:81-887. *)
Definition wsub (w a b : Z) : Z := Z.land (a - b) (Z.ones w).      (* wrapping_sub *)
(** lyra2.rs:24; bmw/mod.rs:41-43, 81-921, 940; cubehash/mod.rs, rotations. *)
Definition wshl (w a n : Z) : Z := Z.land (Z.shiftl a n) (Z.ones w). (* a << n *)
(** As [wshl]. *)
Definition wshr (a n : Z) : Z := Z.shiftr a n.                     (* a >> n *)

(** [x.to_le_bytes()] for an [n]-byte unsigned integer. lyra2.rs:155; bmw/mod.rs:940, 963-970; cubehash/mod.rs:343-350. *)
Fixpoint to_le_bytes (n : nat) (x : Z) : list Z :=
  match n with
  | O => []
  | S n' => Z.land x 255 :: to_le_bytes n' (Z.shiftr x 8)
  end.

(** ** Vectors and slices *)
(** [len()]: lyra2.rs:285-311, bmw/mod.rs:933-940. *)
Definition vlen {A} (m : list A) : Z := Z.of_nat (length m).

(** Reads of whole_matrix, lyra2.rs:371-628, and of input slices. *)
Definition vget (m : list Z) (i : Z) : outcome Z :=                (* m[i] *)
  if (0 <=? i) && (i <? vlen m) then Ok (nth (Z.to_nat i) m 0) else Panic.
(** Assignments to whole_matrix, lyra2.rs:291-628. *)
Definition vset (m : list Z) (i x : Z) : outcome (list Z) :=       (* m[i] = x *)
  if (0 <=? i) && (i <? vlen m) then Ok (<[Z.to_nat i := x]> m) else Panic.
(** lyra2.rs:158, 291, 300; bmw/mod.rs:953; cubehash/mod.rs, input_block. *)
Definition slice (m : list Z) (s e : Z) : outcome (list Z) :=      (* &m[s..e] *)
  if (0 <=? s) && (s <=? e) && (e <=? vlen m)
  then Ok (take (Z.to_nat (e - s)) (drop (Z.to_nat s) m)) else Panic.
(** lyra2.rs:336, 648. *)
Definition split_right (m : list Z) (i : Z) : outcome (list Z) :=  (* m.split_at(i).1 *)
  if (0 <=? i) && (i <=? vlen m) then Ok (drop (Z.to_nat i) m) else Panic.

(** [vec![0; n]] for elements of [esz] bytes: capacity overflow panics.  (An
    allocation the allocator refuses below that limit aborts the process; that
    is outside the model.) lyra2.rs:150, 274. *)
Definition vec_zeroed (p : platform) (esz n : Z) : outcome (list Z) :=
  if n * esz <=? isize_max p then Ok (replicate (Z.to_nat n) 0) else Panic.
(** [v.extend_from_slice(b)] on a [Vec<u8>]. lyra2.rs:155; bmw/mod.rs:934-936, 963-970; cubehash/mod.rs:343-350. *)
Definition vec_extend (p : platform) (v b : list Z) : outcome (list Z) :=
  if vlen v + vlen b <=? isize_max p then Ok (v ++ b) else Panic.

(** Fixed-size arrays [[u64; 16]], [[u32; 16]], ...: constant or masked indices,
    checked by the compiler or below the length by construction, so access is
    total. state[i] and v[i] of lyra2.rs:28-207, 348-628. *)
Definition aget (a : list Z) (i : nat) : Z := nth i a 0.

(** ** Loops.  [loop_pow n body] iterates [body] at most [2^n] times. [inl s]
    means "continue with s", [inr t] means "break with t". *)
(** Helper of [loop64]. *)
Fixpoint loop_pow {S T} (n : nat) (body : S -> outcome (S + T)) (s : S)
  : outcome (S + T) :=
  match n with
  | O => body s
  | S n' =>
      r <-- loop_pow n' body s ;;
      match r with
      | inl s' => loop_pow n' body s'
      | inr t => Ok (inr t)
      end
  end.

(** [loop { .. }] with a budget of 2^64 iterations. lyra2.rs:538-642. *)
Definition loop64 {S T} (body : S -> outcome (S + T)) (s : S) : outcome T :=
  r <-- loop_pow 64 body s ;;
  match r with
  | inl _ => OutOfFuel
  | inr t => Ok t
  end.

(** [for i in lo..hi { .. }] lyra2.rs:153-160, 288, 297, 335, 346, 369, 414, 418, 529, 547; bmw/mod.rs:932, 950. *)
Definition for_range {S} (lo hi : Z) (body : Z -> S -> outcome S) (s : S) : outcome S :=
  loop64 (fun '(i, s) =>
            if i <? hi then s' <-- body i s ;; Ok (inl (i + 1, s'))
            else Ok (inr s)) (lo, s).
