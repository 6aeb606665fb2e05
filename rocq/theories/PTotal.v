(** * Property C58: failing calls, too, show nothing of their secrets but the rows

    C57 compares calls that return.  Here any two calls are compared whose secrets have the
    same lengths, for every length of the output.  They end in the same way, and hiding the
    rows they show the same; if they fail because of their parameters they show the same
    altogether. *)
From Verif Require Import Machine.
From Verif Require Import SpecWord SpecLyra2 SpecCalls SpecAccess SpecSeen SpecShape.
From Verif Require SrcLyra2Seen SrcLyra2modSeen.
From Verif Require Import Kept Seen PLyra2Lemmas PTotalLemmas.
#[local] Open Scope Z_scope.

(** As long as no round of the sponge is run nothing depends on the secrets: for all arguments, on any platform. *)
Theorem no_round_no_secret p k pwd pwd' salt salt' t R C : length pwd = length pwd' -> length salt = length salt' ->
  (let x := SrcLyra2Seen.lyra2_seen p k pwd salt t R C in let y := SrcLyra2Seen.lyra2_seen p k pwd' salt' t R C in
   work (mem_events x.2) = 0 -> x.2 = y.2 /\ same_end x.1 y.1) /\
  (let x := SrcLyra2modSeen.lyra2mod_seen p k pwd salt t R C in let y := SrcLyra2modSeen.lyra2mod_seen p k pwd' salt' t R C in
   work (mem_events x.2) = 0 -> x.2 = y.2 /\ same_end x.1 y.1).
Proof. exact (silent_calls p k pwd pwd' salt salt' t R C). Qed.
Print Assumptions no_round_no_secret.

(** The conditions are those of C53: the size of the matrix does not wrap around. *)
Theorem lyra2_any_call_shows_rows_only p k pwd pwd' salt salt' t R C :
  known_platform p -> rust_args (isize_max p) k pwd salt t R C -> rust_args (isize_max p) k pwd' salt' t R C ->
  length pwd = length pwd' -> length salt = length salt' ->
  (overflow_checks p = true /\ usize_bits p = 64 /\ R < 2 ^ 63) \/ (12 * R * C < 2 ^ 63 /\ 12 * R * C < 2 ^ usize_bits p) ->
  let x := SrcLyra2Seen.lyra2_seen p k pwd salt t R C in let y := SrcLyra2Seen.lyra2_seen p k pwd' salt' t R C in
  same_end x.1 y.1 /\ hide_row C <$> x.2 = hide_row C <$> y.2 /\
  (~ accepted (isize_max p) 0 pwd salt t R C -> x.1 = Panic /\ y.1 = Panic /\ x.2 = y.2).
Proof. exact (fun Hp Ha Ha' H1 H2 => total_lyra2 p k pwd pwd' salt salt' t R C Hp Ha Ha' H1 H2). Qed.
Print Assumptions lyra2_any_call_shows_rows_only.
Theorem lyra2mod_any_call_shows_rows_only p k pwd pwd' salt salt' t R C :
  known_platform p -> rust_args (isize_max p) k pwd salt t R C -> rust_args (isize_max p) k pwd' salt' t R C ->
  length pwd = length pwd' -> length salt = length salt' ->
  (overflow_checks p = true /\ usize_bits p = 64 /\ R < 2 ^ 63) \/ (12 * R * C < 2 ^ 63 /\ 12 * R * C < 2 ^ usize_bits p) ->
  let x := SrcLyra2modSeen.lyra2mod_seen p k pwd salt t R C in let y := SrcLyra2modSeen.lyra2mod_seen p k pwd' salt' t R C in
  same_end x.1 y.1 /\ hide_row C ∘ hide_look <$> x.2 = hide_row C ∘ hide_look <$> y.2 /\
  (~ accepted (isize_max p) 0 pwd salt t R C -> x.1 = Panic /\ y.1 = Panic /\ x.2 = y.2).
Proof. exact (fun Hp Ha Ha' H1 H2 => total_lyra2mod p k pwd pwd' salt salt' t R C Hp Ha Ha' H1 H2). Qed.
Print Assumptions lyra2mod_any_call_shows_rows_only.

(** The hash functions lyra2::sum and lyra2mod::sum, of messages of any one length. *)
Theorem sums_show_rows_only p m m' : known_platform p ->
  Forall byte m -> Forall byte m' -> length m = length m' -> Z.of_nat (length m) <= isize_max p ->
  same_end (SrcLyra2Seen.sum_seen p m).1 (SrcLyra2Seen.sum_seen p m').1 /\
  hide_row 4 <$> (SrcLyra2Seen.sum_seen p m).2 = hide_row 4 <$> (SrcLyra2Seen.sum_seen p m').2 /\
  same_end (SrcLyra2modSeen.sum_seen p m).1 (SrcLyra2modSeen.sum_seen p m').1 /\
  hide_row 4 ∘ hide_look <$> (SrcLyra2modSeen.sum_seen p m).2 = hide_row 4 ∘ hide_look <$> (SrcLyra2modSeen.sum_seen p m').2.
Proof. exact (total_sums p m m'). Qed.
Print Assumptions sums_show_rows_only.

(** An input that does not fit: it is written in part, and nothing tells the two calls apart. *)
Example no_round_no_secret_ex :
  let x := SrcLyra2Seen.lyra2_seen release32 8 (replicate 400 7) [4] 1 3 1 in
  work (mem_events x.2) = 0 /\ x.1 = Panic /\ length (mem_events x.2) = 36%nat.
Proof. vm_compute. repeat split; reflexivity. Qed.
(** A call that fails after the rows are chosen, and differently: 97 bytes are asked for. *)
Example lyra2_any_call_ex :
  rust_args (isize_max debug64) 97 [1; 0; 0; 0; 0; 0; 0; 0] [] 1 4 1 /\ rust_args (isize_max debug64) 97 [2; 0; 0; 0; 0; 0; 0; 0] [] 1 4 1 /\
  let x := SrcLyra2Seen.lyra2_seen debug64 97 [1; 0; 0; 0; 0; 0; 0; 0] [] 1 4 1 in
  let y := SrcLyra2Seen.lyra2_seen debug64 97 [2; 0; 0; 0; 0; 0; 0; 0] [] 1 4 1 in
  x.1 = Panic /\ y.1 = Panic /\ picks x.2 <> picks y.2.
Proof.
  split; [args_tac|]. split; [args_tac|]. vm_compute. split; [reflexivity|]. split; [reflexivity|]. discriminate.
Qed.
Example lyra2mod_any_call_ex :
  rust_args (isize_max release64) 97 [1; 0; 0; 0; 0; 0; 0; 0] [] 1 4 1 /\ rust_args (isize_max release64) 97 [2; 0; 0; 0; 0; 0; 0; 0] [] 1 4 1 /\
  12 * 4 * 1 < 2 ^ 63 /\ 12 * 4 * 1 < 2 ^ usize_bits release64 /\
  let x := SrcLyra2modSeen.lyra2mod_seen release64 97 [1; 0; 0; 0; 0; 0; 0; 0] [] 1 4 1 in
  let y := SrcLyra2modSeen.lyra2mod_seen release64 97 [2; 0; 0; 0; 0; 0; 0; 0] [] 1 4 1 in
  x.1 = Panic /\ y.1 = Panic /\ choices x.2 <> choices y.2.
Proof.
  split; [args_tac|]. split; [args_tac|]. split; [done|]. split; [done|].
  vm_compute. split; [reflexivity|]. split; [reflexivity|]. discriminate.
Qed.
(** A message that is too long for the hash functions. *)
Example sums_show_rows_only_ex :
  Forall byte (replicate 744 1) /\ Forall byte (replicate 744 2) /\ length (replicate 744 1) = length (replicate 744 2) /\
  Z.of_nat (length (replicate 744 1)) <= isize_max debug64 /\
  (SrcLyra2Seen.sum_seen debug64 (replicate 744 1)).1 = Panic /\ (SrcLyra2modSeen.sum_seen debug64 (replicate 744 2)).1 = Panic.
Proof.
  split; [apply Forall_replicate; split; lia|]. split; [apply Forall_replicate; split; lia|].
  split; [by rewrite !replicate_length|]. split; [rewrite replicate_length; vm_compute; discriminate|].
  split; vm_compute; reflexivity.
Qed.
