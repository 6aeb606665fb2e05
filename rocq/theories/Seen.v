(** * Computations with a log of everything observable but the data

    As Kept.v, with a log not of the accesses to the matrix alone but of whatever an
    observer of the run could tell apart without seeing the values that are stored:
    indices into vectors, bounds of slices and of loops, the branch taken at every [if],
    sizes of vectors, and the row the program picks.  An operation that panics has left
    its entry.  Like Machine.v this fixes the meaning of operations and models no function
    of /repo: it is used by the files SrcLyra2Seen.v, SrcLyra2modSeen.v, SrcCubeSeen.v,
    SrcBmwSeen.v and SrcChainsSeen.v that tools/rust2coq.py generates. *)
From stdpp Require Export strings.
From Verif Require Import Machine SrcOps.
From Verif Require Export Kept.
#[global] Open Scope Z_scope.

(** One thing observed. The accesses of Kept.v (lyra2.rs:116-649); [v[i]] and [v[i] = x] for other
    vectors (lyra2.rs:155, lyra2mod/mod.rs:520-521, bmw/mod.rs:934-953); [v[a..b]] and [v.split_at(a)]
    (lyra2.rs:158, 292, 301, 336, 648); the size in a construction or extension of a vector (150, 156,
    274-275); the range of a [for] (153, 154, 289-547); the condition of an [if] (254-255, 521, 534,
    639); the value given to [rowa] (261, 514, 542). *)
Inductive obs :=
| OMem (a : access)
| OGet (v : string) (i : Z)
| OPut (v : string) (i : Z)
| OCut (v : string) (a b : Z)
| OSize (n : Z)
| OLoop (lo hi : Z)
| OIf (b : bool)
| OPick (r : Z).

(** A computation with what was observed up to its end or its panic. The meaning of a part of lyra2.rs:148-672. *)
Definition seen (A : Type) : Type := outcome A * list obs.
(** No statement: nothing observed (models no line of lyra2.rs). *)
Definition sret {A} (a : A) : seen A := (Ok a, []).
(** Sequencing, as [kbind]. The order of the statements of lyra2.rs. *)
Definition sbind {A B} (x : seen A) (f : A -> seen B) : seen B :=
  match x with
  | (Ok a, l) => match f a with (y, l') => (y, l ++ l') end
  | (Panic, l) => (Panic, l)
  | (OutOfFuel, l) => (OutOfFuel, l)
  end.
(** A computation [x] that is observed as [l]. An operation such as lyra2.rs:155. *)
Definition sdo {A} (l : list obs) (x : outcome A) : seen A := (x, l).
(** A part without loops, branches and computed indices. E.g. the index arithmetic of lyra2.rs:272-285 or [round_lyra], 90-112. *)
Definition squiet {A} (x : outcome A) : seen A := sdo [] x.
(** A part whose accesses to the matrix are logged by Kept.v. E.g. lyra2.rs:547-629. *)
Definition slift {A} (x : kept A) : seen A := sdo (OMem <$> x.2) x.1.
Notation "x <=! e ;; k" := (sbind e (fun x => k))
  (at level 100, e at next level, k at level 200, right associativity).
Notation "' p <=! e ;; k" := (sbind e (fun x => match x with p => k end))
  (at level 100, p pattern, e at next level, k at level 200, right associativity).

(** As [loop_pow] of Machine.v (lyra2.rs:538-642). *)
Fixpoint sloop_pow {S T} (n : nat) (body : S -> seen (S + T)) (s : S) : seen (S + T) :=
  match n with
  | O => body s
  | S n' =>
      r <=! sloop_pow n' body s ;;
      match r with
      | inl s' => sloop_pow n' body s'
      | inr t => sret (inr t)
      end
  end.
(** As [loop64]: lyra2.rs:538-642. *)
Definition sloop {S T} (body : S -> seen (S + T)) (s : S) : seen T :=
  r <=! sloop_pow 64 body s ;;
  match r with
  | inl _ => squiet OutOfFuel
  | inr t => sret t
  end.
(** As [for_range], with the range: lyra2.rs:153, 154, 289, 298, 335, 346, 369, 415, 418, 531, 547. *)
Definition sfor {S} (lo hi : Z) (body : Z -> S -> seen S) (s : S) : seen S :=
  _ <=! sdo [OLoop lo hi] (Ok tt) ;;
  sloop (fun '(i, s) =>
    if i <? hi then s' <=! body i s ;; sret (inl (i + 1, s')) else sret (inr s)) (lo, s).
(** [if b { x } else { y }]: lyra2.rs:254, 255, 521, 534, 639; bmw/mod.rs:933. *)
Definition sif {A} (b : bool) (x y : seen A) : seen A :=
  _ <=! sdo [OIf b] (Ok tt) ;; if b then x else y.

(** [v[i]] for a vector other than the matrix, lyra2.rs:155, lyra2mod/mod.rs:520-521, bmw/mod.rs:934. *)
Definition sget (n : string) (v : list Z) (i : Z) : seen Z := sdo [OGet n i] (vget v i).
(** [v[i] = x], bmw/mod.rs:939-948, 953; cubehash/mod.rs:327. *)
Definition sput (n : string) (v : list Z) (i x : Z) : seen (list Z) := sdo [OPut n i] (vset v i x).
(** [v[a..b]], lyra2.rs:158, 292, 301; bmw/mod.rs:953, 958-959. *)
Definition sslice (n : string) (v : list Z) (a b : Z) : seen (list Z) := sdo [OCut n a b] (slice v a b).
(** [v[..n].clone_from_slice(s)], lyra2.rs:158; bmw/mod.rs:958-959. *)
Definition sslice_set (n : string) (v : list Z) (b : Z) (s : list Z) : seen (list Z) := sdo [OCut n 0 b] (slice_set v b s).
(** [v.split_at(a).1], lyra2.rs:336, 648. *)
Definition ssplit (n : string) (v : list Z) (a : Z) : seen (list Z) := sdo [OCut n a (vlen v)] (split_right v a).
(** A construction or extension of a vector by [n] elements, lyra2.rs:150, 156, 274-275; bmw/mod.rs:931-936. *)
Definition ssize {A} (n : Z) (x : outcome A) : seen A := sdo [OSize n] x.
(** [rowa = r], lyra2.rs:261, 514, 542; lyra2mod/mod.rs:238, 491, 521. *)
Definition spick (r : Z) : seen Z := sdo [OPick r] (Ok r).
