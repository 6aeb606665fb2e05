(** * C46: BMW loses nothing before it folds its pipes *)
From Verif Require Import Machine MUtils MBmwGen MBmw MDigestState BmwFacts BmwPerm BmwState.
From Verif Require Import SpecWord SpecBmw SpecPhases.

(** The first sixteen assignments of [compress] permute the blocks of sixteen words,
    whatever the chain value, and leave the second half of [q] alone. *)
Theorem bmw_first_half_permutes h q :
  length h = 16%nat -> Forall (word 32) h -> length q = 32%nat ->
  permutes_on (fun m => length m = 16%nat /\ Forall (word 32) m) (fun m => take 16 (compress_f0 m h q)) /\
  forall m, length m = 16%nat -> Forall (word 32) m -> drop 16 (compress_f0 m h q) = drop 16 q.
Proof.
  exact (fun L H Lq => conj (f0_code_permutes h q (conj L H) Lq)
    (fun m Lm Hm => proj2 (f0_code_take m h q (conj Lm Hm) (conj L H) Lq))).
Qed.
Print Assumptions bmw_first_half_permutes.
Example bmw_first_half_permutes_ex :
  length FINAL = 16%nat /\ Forall (word 32) FINAL /\
  take 2 (compress_f0 (seqZ 0 16) FINAL (replicate 32 0)) = [732081057; 2947200209].
Proof. destruct final_ok as (? & _ & ?). split; [done|]. split; [done|]. vm_compute. reflexivity. Qed.

(** [bmw::sum] is the four parts of MDigestState.v one after the other, whatever it is given. *)
Theorem bmw_in_parts p data :
  bmw_sum p data = ('(m, q) <-- bmw_first_pipe p data ;;
                    let '(h, q) := bmw_fold_first m q in
                    bmw_read p h (bmw_second_pipe h q)).
Proof. exact (three_parts p data). Qed.
Print Assumptions bmw_in_parts.

(** Every input of at most 63 bytes reaches the first pipe.  The sixteen words computed
    there are the same for two inputs exactly when the inputs have the same length and
    the same first 56 bytes; the message words are not needed to tell them apart. *)
Theorem bmw_first_pipe_injective p p' data data' :
  known_platform p -> known_platform p' ->
  (length data < 64)%nat -> (length data' < 64)%nat -> Forall byte data -> Forall byte data' ->
  (exists m q, bmw_first_pipe p data = Ok (m, q) /\ length q = 32%nat) /\
  forall m q m' q', bmw_first_pipe p data = Ok (m, q) -> bmw_first_pipe p' data' = Ok (m', q') ->
    take 16 q = take 16 q' <-> length data = length data' /\ take 56 data = take 56 data'.
Proof. exact (first_pipe_injective p p' data data'). Qed.
Print Assumptions bmw_first_pipe_injective.
Example bmw_first_pipe_ex :
  bmw_first_pipe debug64 (seqZ 0 32) <> bmw_first_pipe release32 (seqZ 0 31) /\
  bmw_first_pipe debug64 (seqZ 0 60) = bmw_first_pipe release32 (seqZ 0 56 ++ [7; 7; 7; 7]).
Proof. split; vm_compute; [discriminate|reflexivity]. Qed.

(** So two different inputs of at most 55 bytes always differ after the first sixteen
    assignments, and differ again at the same point of the second compression unless
    the first one folded them onto the same chain value: a shared digest can only come
    from the folding at the end of a compression. *)
Theorem bmw_differences_survive_until_folding p data data' :
  known_platform p -> (length data <= 55)%nat -> (length data' <= 55)%nat ->
  Forall byte data -> Forall byte data' -> data <> data' ->
  exists m q m' q' h r h' r',
    bmw_first_pipe p data = Ok (m, q) /\ bmw_first_pipe p data' = Ok (m', q') /\ take 16 q <> take 16 q' /\
    bmw_fold_first m q = (h, r) /\ bmw_fold_first m' q' = (h', r') /\
    (h = h' <-> take 16 (bmw_second_pipe h r) = take 16 (bmw_second_pipe h' r')).
Proof. exact (collisions_fold p data data'). Qed.
Print Assumptions bmw_differences_survive_until_folding.
Example bmw_differences_ex : known_platform debug64 /\ (length (seqZ 0 32) <= 55)%nat /\
  Forall byte (seqZ 0 32) /\ Forall byte (seqZ 1 32) /\ seqZ 0 32 <> seqZ 1 32.
Proof.
  split; [right; reflexivity|].
  split; [vm_compute; lia|]. split; [|split; [|discriminate]];
    apply (bool_decide_unpack (Forall (fun x => 0 <= x < 256) _)); vm_compute; exact I.
Qed.
