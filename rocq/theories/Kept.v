(** * Computations whose log survives a panic

    As Log.v, but with the log beside the outcome instead of inside it, so that what was
    done before a panic is known too.  Like Machine.v this fixes the meaning of operations
    and models no function of /repo: it is used by MKept.v and by the files SrcLyra2Log.v
    and SrcLyra2modLog.v that tools/rust2coq.py generates. *)
From Verif Require Import Machine.
From Verif Require Export Log.

(** A computation with the log up to its end or its panic. The meaning of a part of lyra2.rs:245-653 together with its log. *)
Definition kept (A : Type) : Type := outcome A * list access.
(** No statement: an empty log (models no line of lyra2.rs). *)
Definition kret {A} (a : A) : kept A := (Ok a, []).
(** Sequencing: nothing is run after a panic, and the log up to there is kept. The order of the statements of lyra2.rs. *)
Definition kbind {A B} (x : kept A) (f : A -> kept B) : kept B :=
  match x with
  | (Ok a, l) => match f a with (y, l') => (y, l ++ l') end
  | (Panic, l) => (Panic, l)
  | (OutOfFuel, l) => (OutOfFuel, l)
  end.
(** A part of the program that does not touch the matrix. E.g. the index arithmetic of lyra2.rs:272-285. *)
Definition kquiet {A} (x : outcome A) : kept A := (x, []).
Notation "x <=~ e ;; k" := (kbind e (fun x => k))
  (at level 100, e at next level, k at level 200, right associativity).
Notation "' p <=~ e ;; k" := (kbind e (fun x => match x with p => k end))
  (at level 100, p pattern, e at next level, k at level 200, right associativity).

(** The loops of Machine.v. As [foldM]: runs of like statements such as lyra2.rs:348-359. *)
Fixpoint kfold {A S} (f : S -> A -> kept S) (l : list A) (s : S) : kept S :=
  match l with
  | [] => kret s
  | a :: l' => s' <=~ f s a ;; kfold f l' s'
  end.
(** As [loop_pow] of Machine.v (lyra2.rs:538-642). *)
Fixpoint kloop_pow {S T} (n : nat) (body : S -> kept (S + T)) (s : S) : kept (S + T) :=
  match n with
  | O => body s
  | S n' =>
      r <=~ kloop_pow n' body s ;;
      match r with
      | inl s' => kloop_pow n' body s'
      | inr t => kret (inr t)
      end
  end.
(** As [loop64]: lyra2.rs:538-642. *)
Definition kloop {S T} (body : S -> kept (S + T)) (s : S) : kept T :=
  r <=~ kloop_pow 64 body s ;;
  match r with
  | inl _ => kquiet OutOfFuel
  | inr t => kret t
  end.
(** As [for_range]: lyra2.rs:335, 346, 369, 414, 418, 529, 547. *)
Definition kfor {S} (lo hi : Z) (body : Z -> S -> kept S) (s : S) : kept S :=
  kloop (fun '(i, s) =>
    if i <? hi then s' <=~ body i s ;; kret (inl (i + 1, s')) else kret (inr s)) (lo, s).

(** The operations that leave an entry; an access out of bounds panics and leaves none.
    [x] is what the operation computes. lyra2.rs:291-649 and 116-136. *)
Definition kdone {A} (x : outcome A) (e : access) : kept A := (x, match x with Ok _ => [e] | _ => [] end).
(** [whole_matrix[a]] as a value, lyra2.rs:324-628. *)
Definition krd (m : list Z) (a : Z) : kept Z := kdone (vget m a) (Rd a).
(** [whole_matrix[a] = x], lyra2.rs:291-628. *)
Definition kwr (m : list Z) (a x : Z) : kept (list Z) := kdone (vset m a x) (Wr a).
(** [w[j]] for [w = whole_matrix.split_at(base).1]. lyra2.rs:173-184 and 200-207 with the slices of 336 and 648. *)
Definition krd_right (base : Z) (w : list Z) (j : Z) : kept Z := kdone (vget w j) (Rd (base + j)).
(** A call of [round_lyra], lyra2.rs:116-127 and 136, computed by [x]. *)
Definition kran {A} (x : outcome A) : kept A := kdone x Perm.
