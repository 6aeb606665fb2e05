(** * Property C56: a run shows nothing of its secrets but the rows it chooses

    [SrcLyra2Seen], [SrcLyra2modSeen], [SrcCubeSeen], [SrcBmwSeen] and [SrcChainsSeen] hold
    the source as tools/rust2coq.py translates it when it adds a log entry at every index
    into a vector, slice, vector size, loop range, [if], and row chosen, a log that is kept
    when the call panics.  SpecSeen.v says when two such logs are alike. *)
From Verif Require Import Machine.
From Verif Require Import SpecWord SpecChains SpecBlake256 SpecKeccak SpecSkein SpecGroestl SpecSeen.
From Verif Require SrcLyra2 SrcLyra2mod SrcLyra2Log SrcLyra2modLog SrcCube SrcBmw SrcChains
  SrcLyra2Seen SrcLyra2modSeen SrcCubeSeen SrcBmwSeen SrcChainsSeen.
From Verif Require Import Kept Seen DigestFacts PLyra2Lemmas PSeenLemmas.
#[local] Open Scope Z_scope.

(** Dropping the log gives the translation without a log. *)
Theorem seen_source p d k pwd salt t R C : known_platform p ->
  (SrcLyra2Seen.lyra2_seen p k pwd salt t R C).1 = SrcLyra2.lyra2 p k pwd salt t R C /\
  (SrcLyra2modSeen.lyra2mod_seen p k pwd salt t R C).1 = SrcLyra2mod.lyra2mod p k pwd salt t R C /\
  (SrcCubeSeen.sum_seen p d).1 = SrcCube.sum p d /\ (SrcBmwSeen.sum_seen p d).1 = SrcBmw.sum p d.
Proof. exact (erase_all p d k pwd salt t R C). Qed.
Print Assumptions seen_source.
Theorem seen_source_chains p blake256 keccak256 skein256 groestl256 m : known_platform p ->
  (SrcChainsSeen.lyra2re_sum_seen blake256 keccak256 skein256 groestl256 p m).1 =
    SrcChains.lyra2re_sum blake256 keccak256 skein256 groestl256 p m /\
  (SrcChainsSeen.lyra2rev2_sum_seen blake256 keccak256 skein256 p m).1 = SrcChains.lyra2rev2_sum blake256 keccak256 skein256 p m /\
  (SrcChainsSeen.lyra2rev3_sum_seen blake256 p m).1 = SrcChains.lyra2rev3_sum blake256 p m /\
  (SrcChainsSeen.lyra2z_sum_seen blake256 p m).1 = SrcChains.lyra2z_sum blake256 p m.
Proof. exact (erase_chains p blake256 keccak256 skein256 groestl256 m). Qed.
Print Assumptions seen_source_chains.
(** Its accesses to the matrix are those PSrcLog.v speaks of, of calls that panic too. *)
Theorem seen_source_accesses p k pwd salt t R C :
  mem_events (SrcLyra2Seen.lyra2_seen p k pwd salt t R C).2 = (SrcLyra2Log.lyra2_log p k pwd salt t R C).2 /\
  mem_events (SrcLyra2modSeen.lyra2mod_seen p k pwd salt t R C).2 = (SrcLyra2modLog.lyra2mod_log p k pwd salt t R C).2.
Proof. exact (seen_accesses p k pwd salt t R C). Qed.
Print Assumptions seen_source_accesses.

(** Two calls whose secrets differ in nothing but their bytes are observed as the same and
    end in the same way, or are observed as the same up to a choice of row.  lyra2mod also
    shows which words of the state it chooses the row from.  No hypothesis on the costs or
    the key length: calls that panic, on any platform, are included. *)
Theorem lyra2_shows_choices p k pwd pwd' salt salt' t R C :
  length pwd = length pwd' -> length salt = length salt' ->
  seen_alike both_pick (SrcLyra2Seen.lyra2_seen p k pwd salt t R C) (SrcLyra2Seen.lyra2_seen p k pwd' salt' t R C) /\
  seen_alike pick_or_look (SrcLyra2modSeen.lyra2mod_seen p k pwd salt t R C) (SrcLyra2modSeen.lyra2mod_seen p k pwd' salt' t R C).
Proof. exact (alike_lyra2 p k pwd pwd' salt salt' t R C). Qed.
Print Assumptions lyra2_shows_choices.
(** So if both calls choose the same rows, everything observed is the same. *)
Theorem lyra2_choices_determine_run p k pwd pwd' salt salt' t R C :
  length pwd = length pwd' -> length salt = length salt' ->
  (let x := SrcLyra2Seen.lyra2_seen p k pwd salt t R C in let y := SrcLyra2Seen.lyra2_seen p k pwd' salt' t R C in
   picks x.2 = picks y.2 -> x.2 = y.2 /\ same_end x.1 y.1) /\
  (let x := SrcLyra2modSeen.lyra2mod_seen p k pwd salt t R C in let y := SrcLyra2modSeen.lyra2mod_seen p k pwd' salt' t R C in
   choices x.2 = choices y.2 -> x.2 = y.2 /\ same_end x.1 y.1).
Proof. exact (equal_choices p k pwd pwd' salt salt' t R C). Qed.
Print Assumptions lyra2_choices_determine_run.
(** The inner hashes show the length of their input and nothing else. *)
Theorem hashes_show_nothing p d d' : length d = length d' ->
  ((SrcCubeSeen.sum_seen p d).2 = (SrcCubeSeen.sum_seen p d').2 /\ same_end (SrcCubeSeen.sum_seen p d).1 (SrcCubeSeen.sum_seen p d').1) /\
  ((SrcBmwSeen.sum_seen p d).2 = (SrcBmwSeen.sum_seen p d').2 /\ same_end (SrcBmwSeen.sum_seen p d).1 (SrcBmwSeen.sum_seen p d').1).
Proof. exact (same_hashes p d d'). Qed.
Print Assumptions hashes_show_nothing.
(** The chained hashes, of messages of any two lengths, outside of the external digests. *)
Theorem chains_show_choices p blake256 keccak256 skein256 groestl256 m m' :
  (forall m, length (blake256 m) = 32%nat) -> (forall m, length (keccak256 m) = 32%nat) ->
  (forall m, length (skein256 m) = 32%nat) -> (forall m, length (groestl256 m) = 32%nat) ->
  seen_alike both_pick (SrcChainsSeen.lyra2re_sum_seen blake256 keccak256 skein256 groestl256 p m)
    (SrcChainsSeen.lyra2re_sum_seen blake256 keccak256 skein256 groestl256 p m') /\
  seen_alike both_pick (SrcChainsSeen.lyra2rev2_sum_seen blake256 keccak256 skein256 p m)
    (SrcChainsSeen.lyra2rev2_sum_seen blake256 keccak256 skein256 p m') /\
  seen_alike pick_or_look (SrcChainsSeen.lyra2rev3_sum_seen blake256 p m) (SrcChainsSeen.lyra2rev3_sum_seen blake256 p m') /\
  seen_alike both_pick (SrcChainsSeen.lyra2z_sum_seen blake256 p m) (SrcChainsSeen.lyra2z_sum_seen blake256 p m').
Proof. exact (fun Hb Hk Hs Hg => alike_chains p blake256 keccak256 skein256 groestl256 Hb Hk Hs Hg m m'). Qed.
Print Assumptions chains_show_choices.

(** The digests meet the hypothesis. *)
Example chains_show_choices_specified p m m' :
  seen_alike both_pick (SrcChainsSeen.lyra2rev2_sum_seen blake256 keccak256 skein512_256 p m)
    (SrcChainsSeen.lyra2rev2_sum_seen blake256 keccak256 skein512_256 p m').
Proof.
  apply (chains_show_choices p blake256 keccak256 skein512_256 groestl256 m m'); intros; apply digests_length.
Qed.
(** Two passwords that choose the same rows: the logs are the same, the keys are not. *)
Definition pw (n : Z) : list Z := [n; 0; 0; 0; 0; 0; 0; 0].
Example lyra2_same_rows :
  let x := SrcLyra2Seen.lyra2_seen debug64 16 (pw 2) [] 1 4 1 in let y := SrcLyra2Seen.lyra2_seen debug64 16 (pw 16) [] 1 4 1 in
  picks x.2 = [0; 1; 0; 1; 0; 0; 1] /\ picks y.2 = [0; 1; 0; 1; 0; 0; 1] /\ x.1 <> y.1.
Proof. vm_compute. split; [reflexivity|]. split; [reflexivity|discriminate]. Qed.
(** A third chooses others: the logs part at the fourth choice, the first one made by the state. *)
Example lyra2_other_rows :
  picks (SrcLyra2Seen.lyra2_seen debug64 16 (pw 1) [] 1 4 1).2 = [0; 1; 0; 0; 0; 1; 3].
Proof. vm_compute. reflexivity. Qed.
(** lyra2mod, where the logs part at a look into the state. *)
Example lyra2mod_other_looks :
  take 5 (choices (SrcLyra2modSeen.lyra2mod_seen debug64 4 (pw 1) [] 1 4 1).2) = [inl 0; inl 1; inl 0; inr 0; inr 14] /\
  take 5 (choices (SrcLyra2modSeen.lyra2mod_seen debug64 4 (pw 2) [] 1 4 1).2) = [inl 0; inl 1; inl 0; inr 0; inr 12].
Proof. vm_compute. split; reflexivity. Qed.
(** A call that panics is observed, too: the input is copied and absorbed before the key length is found too long. *)
Example lyra2_panic_seen :
  let x := SrcLyra2Seen.lyra2_seen debug64 97 (pw 2) [] 1 4 1 in
  x.1 = Panic /\ (length (mem_events x.2) =? 0)%nat = false /\ (length x.2 =? length (mem_events x.2))%nat = false.
Proof. vm_compute. split; [reflexivity|]. split; reflexivity. Qed.
