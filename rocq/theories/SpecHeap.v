(** * Reading a log of heap buffers *)
From Verif Require Import Machine Held SpecWord.

(** Words allocated in total. *)
Definition allocated (log : list hevent) : Z :=
  foldr (fun e n => match e with HAlloc a => a + n | _ => n end) 0 log.
(** Words in use at the end of a log that starts with [used] words in use. *)
Definition in_use (used : Z) (log : list hevent) : Z :=
  foldl (fun n e => match e with HAlloc a => n + a | HFree c => n - Z.of_nat (length c) | _ => n end) used log.
(** [n] is the largest number of words in use at any moment of the log. *)
Definition peak (log : list hevent) (n : Z) : Prop :=
  (exists l1 l2, log = l1 ++ l2 /\ in_use 0 l1 = n) /\
  (forall l1 l2, log = l1 ++ l2 -> in_use 0 l1 <= n).
(** The vectors given back, with their contents. *)
Definition freed (log : list hevent) : list (list Z) :=
  omap (fun e => match e with HFree c => Some c | _ => None end) log.
Definition freed_bytes (log : list hevent) : list (list Z) :=
  omap (fun e => match e with HFreeBytes c => Some c | _ => None end) log.
(** Words as they lie in memory. *)
Definition memory_bytes (ws : list Z) : list Z := ws ≫= le_bytes 8.
