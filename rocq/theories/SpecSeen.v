(** * What "the run shows nothing of the secrets but its choices" means

    Independent of the model and of the translation: relations between two lists of
    observations ([obs], Seen.v). *)
From Verif Require Import Machine Seen.

(** The accesses to the matrix and calls of [round_lyra] among the observations, lyra2.rs:116-649. *)
Definition mem_events (l : list obs) : list access :=
  omap (fun o => match o with OMem a => Some a | _ => None end) l.
(** The rows picked, lyra2.rs:261, 514, 542. *)
Definition picks (l : list obs) : list Z :=
  omap (fun o => match o with OPick r => Some r | _ => None end) l.
(** A choice: a row picked, or a place at which the state is looked into, lyra2mod/mod.rs:238, 491, 520-521. *)
Definition choice_of (o : obs) : option (Z + Z) :=
  match o with
  | OPick r => Some (inl r)
  | OGet v i => if bool_decide (v = "state"%string) then Some (inr i) else None
  | _ => None
  end.
(** The choices of lyra2mod, lyra2mod/mod.rs:238, 491, 520-521. *)
Definition choices (l : list obs) : list (Z + Z) := omap choice_of l.

(** Two runs end in the same way: both return, and as many bytes, or both panic. lyra2.rs:245-653. *)
Definition same_end (x y : outcome (list Z)) : Prop :=
  match x, y with
  | Ok a, Ok b => length a = length b
  | Panic, Panic | OutOfFuel, OutOfFuel => True
  | _, _ => False
  end.
(** Two runs are observed as the same up to a point where both do something [ch] allows
    to differ, and it differs. lyra2.rs:542. *)
Definition parts_at (ch : obs -> obs -> Prop) (l l' : list obs) : Prop :=
  exists c e e' r r', l = c ++ e :: r /\ l' = c ++ e' :: r' /\ e <> e' /\ ch e e'.
(** Both pick a row, lyra2.rs:542. *)
Definition both_pick (e e' : obs) : Prop := exists r r', e = OPick r /\ e' = OPick r'.
(** Both look into the state, lyra2mod/mod.rs:520-521. *)
Definition both_look (e e' : obs) : Prop := exists i i', e = OGet "state" i /\ e' = OGet "state" i'.
(** lyra2mod/mod.rs:520-521. *)
Definition pick_or_look (e e' : obs) : Prop := both_pick e e' \/ both_look e e'.
(** Nothing may differ. cubehash/mod.rs:324-351, bmw/mod.rs:929-972. *)
Definition nothing (e e' : obs) : Prop := False.
(** Two runs show the same, or the same up to a choice that differs. *)
Definition seen_alike (ch : obs -> obs -> Prop) (x y : seen (list Z)) : Prop :=
  (x.2 = y.2 /\ same_end x.1 y.1) \/ parts_at ch x.2 y.2.
