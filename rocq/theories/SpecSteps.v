(** * The steps of a Lyra2 computation, and what they do

    A computation is described by the blocks absorbed, the setup steps
    (row, previous row, row* ) and the wandering steps (pass, row, previous row,
    row* ).  [wander_steps] gives the wandering steps; [replay_key] carries out
    given steps, whatever they are; [steps_accesses] lists the memory accesses of
    given steps. *)
From Verif Require Import Machine MAccess SpecWord SpecBlake2b SpecLyra2 SpecSchedule SpecAccess.

Notation step := (Z * Z * Z * Z)%type (only parsing).

(** ** Which wandering steps there are: at each row of [wander_rows], row* is
    chosen from the sponge state reached by the steps before. *)
Definition note_visit (C : Z) (reduce : Z -> Z) (choose : chooser)
    (x : wstate * list step) (v : Z * Z) : wstate * list step :=
  let '((M, st, i, prev, rowa), l) := x in
  let '(tau, row) := v in
  let rowa := reduce (choose st i).1 in
  (wander_visit C reduce choose (M, st, i, prev, rowa) row, l ++ [(tau, row, prev, rowa)]).
Definition wander_steps (choose : chooser) (blocks : list (list Z)) (t R C : Z) : list step :=
  let '(M, st) := setup R C (blank, absorb_all blocks) in
  (foldl (note_visit C (reduce_mask R) choose) ((M, st, 0, R - 1, setup_rowa R), []) (wander_rows R t)).2.

(** ** Carrying out given steps. *)
Definition last_rowa (l : list step) : Z := List.last (snd <$> l) 0.
Definition replay_state (C : Z) (blocks : list (list Z)) (setups : list (Z * Z * Z))
    (wanders : list step) : list Z :=
  let s := setup_row1 C (setup_row0 C (blank, absorb_all blocks)) in
  let s := foldl (fun s '(row, prev, rowa) => setup_row C row prev rowa s) s setups in
  let '(M, st) := foldl (fun s '(_, row, prev, rowa) => wander_row C row prev rowa s) s wanders in
  round12 (absorb st (M (last_rowa wanders) 0)).
Definition replay_key (k C : Z) (blocks : list (list Z)) (setups : list (Z * Z * Z))
    (wanders : list step) : list Z :=
  squeezed k (replay_state C blocks setups wanders).

(** ** The accesses of given steps, for input lengths [pwd_len] and [salt_len]. *)
Definition steps_accesses (k pwd_len salt_len C : Z) (setups : list (Z * Z * Z))
    (wanders : list step) : list access :=
  input_accesses pwd_len salt_len ++ row0_accesses C ++ row1_accesses C ++
  (setups ≫= fun '(row, prev, rowa) => setup_row_accesses C row prev rowa) ++
  (wanders ≫= fun '(_, row, prev, rowa) => wander_row_accesses C row prev rowa) ++
  final_accesses C (last_rowa wanders) k.
