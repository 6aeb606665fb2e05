(** * Computations with a log of memory accesses and of work

    As Machine.v, this fixes the meaning of operations and models no function of
    /repo: it is used by the model of MAccess.v. *)
From Verif Require Import Machine.

(** Accesses of lyra2.rs:291-649 to whole_matrix and calls of [round_lyra] (116-127, 136). *)
Inductive access :=
| Rd (a : Z)      (* whole_matrix[a] is read *)
| Wr (a : Z)      (* whole_matrix[a] is assigned *)
| Perm.           (* round_lyra runs (lyra2.rs:41-84) *)

(** A computation that may fail, with its log. The meaning of a part of lyra2.rs:245-653 together with its log. *)
Definition acc (A : Type) : Type := outcome (A * list access).
(** No statement: an empty log (models no line of lyra2.rs). *)
Definition aret {A} (a : A) : acc A := Ok (a, []).
(** Sequencing, as [obind]: the logs are appended in the order of lyra2.rs. *)
Definition abind {A B} (x : acc A) (f : A -> acc B) : acc B :=
  obind x (fun '(a, l) => obind (f a) (fun '(b, l') => Ok (b, l ++ l'))).
(** A part of the program that does not touch the matrix. E.g. the index arithmetic of lyra2.rs:272-285. *)
Definition quiet {A} (x : outcome A) : acc A := obind x (fun a => Ok (a, [])).
Notation "x <~~ e ;; k" := (abind e (fun x => k))
  (at level 100, e at next level, k at level 200, right associativity).
Notation "' p <~~ e ;; k" := (abind e (fun x => match x with p => k end))
  (at level 100, p pattern, e at next level, k at level 200, right associativity).

(** The loops of Machine.v, collecting the logs of the iterations. As [foldM]: runs of like statements such as lyra2.rs:348-359. *)
Fixpoint afold {A S} (f : S -> A -> acc S) (l : list A) (s : S) : acc S :=
  match l with
  | [] => aret s
  | a :: l' => s' <~~ f s a ;; afold f l' s'
  end.
(** As [loop64]: lyra2.rs:538-642. *)
Definition aloop {S T} (body : S -> acc (S + T)) (s : S) : acc T :=
  loop64 (fun '(s, l) =>
    '(r, l') <-- body s ;;
    match r with
    | inl s' => Ok (inl (s', l ++ l'))
    | inr t => Ok (inr (t, l ++ l'))
    end) (s, []).
(** As [for_range]: lyra2.rs:335, 346, 369, 414, 418, 529, 547. *)
Definition afor {S} (lo hi : Z) (body : Z -> S -> acc S) (s : S) : acc S :=
  for_range lo hi (fun i '(s, l) => '(s', l') <-- body i s ;; Ok (s', l ++ l')) (s, []).

(** The operations that leave an entry. [whole_matrix[a]] as a value, lyra2.rs:324-628. *)
Definition rd (m : list Z) (a : Z) : acc Z := x <-- vget m a ;; Ok (x, [Rd a]).
(** [whole_matrix[a] = x], lyra2.rs:291-628. *)
Definition wr (m : list Z) (a x : Z) : acc (list Z) := m' <-- vset m a x ;; Ok (m', [Wr a]).
(** [w[j]] for [w = whole_matrix.split_at(base).1]. lyra2.rs:173-184 and 200-207 with the slices of 336 and 648. *)
Definition rd_right (base : Z) (w : list Z) (j : Z) : acc Z := x <-- vget w j ;; Ok (x, [Rd (base + j)]).
