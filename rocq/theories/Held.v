(** * Computations with a log of their heap buffers that survives a panic

    As Kept.v, with the events of vectors in the place of accesses: a vector of words is
    allocated or dropped, or a vector of bytes is dropped.  Dropping a [Vec] gives its
    memory back without changing it, so an entry holds the contents at that moment;
    nothing is ever read from the log.  Like Machine.v this fixes the meaning of operations
    and models no function of /repo: it is used by MHeap.v and by the files SrcLyra2Heap.v
    and SrcLyra2modHeap.v that tools/rust2coq.py generates.  The log of a panic ends where
    the panic is raised: what unwinding drops is not in it. *)
From Verif Require Import Machine SrcOps.

(** Allocation and dropping of vectors in lyra2.rs:148-653. *)
Inductive hevent :=
| HAlloc (n : Z)                  (* a Vec<u64> of n words is allocated *)
| HFree (contents : list Z)       (* a Vec<u64> is dropped *)
| HFreeBytes (contents : list Z). (* a Vec<u8> is dropped *)

(** A computation with the log up to its end or its panic. The meaning of a part of lyra2.rs:148-653 together with its log. *)
Definition held (A : Type) : Type := outcome A * list hevent.
(** No statement: an empty log (models no line of lyra2.rs). *)
Definition hret {A} (a : A) : held A := (Ok a, []).
(** Sequencing: nothing is run after a panic, and the log up to there is kept. The order of the statements of lyra2.rs. *)
Definition hbind {A B} (x : held A) (f : A -> held B) : held B :=
  match x with
  | (Ok a, l) => match f a with (y, l') => (y, l ++ l') end
  | (Panic, l) => (Panic, l)
  | (OutOfFuel, l) => (OutOfFuel, l)
  end.
(** A part of the program that neither allocates nor drops a vector of words. E.g. the index arithmetic of lyra2.rs:272-285. *)
Definition hquiet {A} (x : outcome A) : held A := (x, []).
Notation "x <=@ e ;; k" := (hbind e (fun x => k))
  (at level 100, e at next level, k at level 200, right associativity).
Notation "' p <=@ e ;; k" := (hbind e (fun x => match x with p => k end))
  (at level 100, p pattern, e at next level, k at level 200, right associativity).

(** The loops of Machine.v. As [loop_pow] (lyra2.rs:335-339). *)
Fixpoint hloop_pow {S T} (n : nat) (body : S -> held (S + T)) (s : S) : held (S + T) :=
  match n with
  | O => body s
  | S n' =>
      r <=@ hloop_pow n' body s ;;
      match r with
      | inl s' => hloop_pow n' body s'
      | inr t => hret (inr t)
      end
  end.
(** As [loop64]: lyra2.rs:335-339. *)
Definition hloop {S T} (body : S -> held (S + T)) (s : S) : held T :=
  r <=@ hloop_pow 64 body s ;;
  match r with
  | inl _ => hquiet OutOfFuel
  | inr t => hret t
  end.
(** As [for_range]: lyra2.rs:335. *)
Definition hfor {S} (lo hi : Z) (body : Z -> S -> held S) (s : S) : held S :=
  hloop (fun '(i, s) =>
    if i <? hi then s' <=@ body i s ;; hret (inl (i + 1, s')) else hret (inr s)) (lo, s).

(** [vec![0; n]] of words, lyra2.rs:274. A size that is refused is not allocated. *)
Definition hzeroed (p : platform) (n : Z) : held (list Z) :=
  match vec_zeroed p 8 n with Ok v => (Ok v, [HAlloc n]) | x => (x, []) end.
(** [v.resize(n, x)] of words, lyra2.rs:275. Longer than before, it moves to a new buffer;
    else it keeps its buffer (the capacity made by [vec!] is the length). *)
Definition hresize (p : platform) (v : list Z) (n x : Z) : held (list Z) :=
  match vec_resize p 8 v n x with
  | Ok v' => (Ok v', if vlen v <? n then [HAlloc n; HFree v] else [])
  | y => (y, [])
  end.
(** [s.to_vec()] of words, lyra2.rs:337 and 649. *)
Definition hcopy (s : list Z) : held (list Z) := (Ok s, [HAlloc (vlen s)]).
(** The end of the owner of a vector of words, lyra2.rs:189, 211, 653. *)
Definition hdrop (v : list Z) : held unit := (Ok tt, [HFree v]).
(** The end of the owner of a vector of bytes, lyra2.rs:162, 653. *)
Definition hdrop_bytes (v : list Z) : held unit := (Ok tt, [HFreeBytes v]).
