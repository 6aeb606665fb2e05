(** * Property C57: whatever rows are chosen, only the rows tell two runs apart

    C56 compares two runs up to the first row they choose differently.  Here the comparison
    goes on to the end of the call: hiding the rows ([hide_row], SpecShape.v) leaves every
    branch, loop range, vector size, copy, column and word in place, and two calls that
    differ in the bytes of their secrets show the same. *)
From Verif Require Import Machine.
From Verif Require Import SpecWord SpecCalls SpecChains SpecAccess SpecBlake256 SpecKeccak SpecSkein SpecGroestl SpecSeen SpecShape.
From Verif Require SrcLyra2 SrcLyra2mod SrcLyra2Seen SrcLyra2modSeen SrcChainsSeen.
From Verif Require Import Kept Seen DigestFacts PLyra2Lemmas PAccessLemmas PShapeLemmas.
#[local] Open Scope Z_scope.

Theorem lyra2_shows_rows_only p k pwd pwd' salt salt' t R C out :
  known_platform p -> rust_args (isize_max p) k pwd salt t R C -> rust_args (isize_max p) k pwd' salt' t R C ->
  R < 2 ^ 63 \/ overflow_checks p = true -> k < 2 ^ 63 -> length pwd = length pwd' -> length salt = length salt' ->
  SrcLyra2.lyra2 p k pwd salt t R C = Ok out ->
  (exists out', SrcLyra2.lyra2 p k pwd' salt' t R C = Ok out') /\
  hide_row C <$> (SrcLyra2Seen.lyra2_seen p k pwd salt t R C).2 = hide_row C <$> (SrcLyra2Seen.lyra2_seen p k pwd' salt' t R C).2.
Proof. exact (fun Hp Ha Ha' HR Hk H1 H2 => rows_only p k pwd pwd' salt salt' t R C Hp Ha Ha' HR Hk H1 H2 out). Qed.
Print Assumptions lyra2_shows_rows_only.
(** lyra2mod also looks at words of the state that the state itself selects: [hide_look]. *)
Theorem lyra2mod_shows_rows_only p k pwd pwd' salt salt' t R C out :
  known_platform p -> rust_args (isize_max p) k pwd salt t R C -> rust_args (isize_max p) k pwd' salt' t R C ->
  R < 2 ^ 63 \/ overflow_checks p = true -> k < 2 ^ 63 -> length pwd = length pwd' -> length salt = length salt' ->
  SrcLyra2mod.lyra2mod p k pwd salt t R C = Ok out ->
  (exists out', SrcLyra2mod.lyra2mod p k pwd' salt' t R C = Ok out') /\
  hide_row C ∘ hide_look <$> (SrcLyra2modSeen.lyra2mod_seen p k pwd salt t R C).2 =
  hide_row C ∘ hide_look <$> (SrcLyra2modSeen.lyra2mod_seen p k pwd' salt' t R C).2.
Proof. exact (fun Hp Ha Ha' HR Hk H1 H2 => rows_only_mod p k pwd pwd' salt salt' t R C Hp Ha Ha' HR Hk H1 H2 out). Qed.
Print Assumptions lyra2mod_shows_rows_only.
(** The chained hashes, which always return, of messages of any two lengths; outside of the external digests. *)
Theorem chains_show_rows_only p blake256 keccak256 skein256 groestl256 m m' :
  known_platform p -> digest256 blake256 -> digest256 keccak256 -> digest256 skein256 -> digest256 groestl256 ->
  Forall byte m -> Forall byte m' ->
  hide_row 8 <$> (SrcChainsSeen.lyra2re_sum_seen blake256 keccak256 skein256 groestl256 p m).2 =
    hide_row 8 <$> (SrcChainsSeen.lyra2re_sum_seen blake256 keccak256 skein256 groestl256 p m').2 /\
  hide_row 4 <$> (SrcChainsSeen.lyra2rev2_sum_seen blake256 keccak256 skein256 p m).2 =
    hide_row 4 <$> (SrcChainsSeen.lyra2rev2_sum_seen blake256 keccak256 skein256 p m').2 /\
  hide_row 4 ∘ hide_look <$> (SrcChainsSeen.lyra2rev3_sum_seen blake256 p m).2 =
    hide_row 4 ∘ hide_look <$> (SrcChainsSeen.lyra2rev3_sum_seen blake256 p m').2 /\
  hide_row 8 <$> (SrcChainsSeen.lyra2z_sum_seen blake256 p m).2 = hide_row 8 <$> (SrcChainsSeen.lyra2z_sum_seen blake256 p m').2.
Proof.
  exact (fun Hp Hb Hk Hs Hg Hm Hm' => rows_only_chains p Hp blake256 keccak256 skein256 groestl256 Hb Hk Hs Hg m m' Hm Hm').
Qed.
Print Assumptions chains_show_rows_only.

(** Two passwords that choose different rows; what is left after hiding them. *)
Definition pw (n : Z) : list Z := [n; 0; 0; 0; 0; 0; 0; 0].
Example lyra2_shows_rows_only_ex :
  rust_args (isize_max debug64) 16 (pw 1) [] 1 4 1 /\ rust_args (isize_max debug64) 16 (pw 2) [] 1 4 1 /\
  (exists out, SrcLyra2.lyra2 debug64 16 (pw 1) [] 1 4 1 = Ok out) /\
  let x := SrcLyra2Seen.lyra2_seen debug64 16 (pw 1) [] 1 4 1 in let y := SrcLyra2Seen.lyra2_seen debug64 16 (pw 2) [] 1 4 1 in
  picks x.2 = [0; 1; 0; 0; 0; 1; 3] /\ picks y.2 = [0; 1; 0; 1; 0; 0; 1] /\
  omap (fun o => match o with OIf b => Some b | _ => None end) (hide_row 1 <$> x.2) =
    [false; false; false; true; false; false; false; false; true] /\
  omap (fun o => match o with OLoop lo hi => Some (lo, hi) | _ => None end) (hide_row 1 <$> y.2) =
    [(0, 1); (0, 0); (0, 1); (0, 1); (0, 1); (2, 4); (0, 1); (0, 1); (1, 2); (0, 1); (0, 1); (0, 1); (0, 1); (0, 1); (0, 12)].
Proof.
  split; [args_tac|]. split; [args_tac|]. split; [eexists; vm_compute; reflexivity|]. vm_compute. repeat split; reflexivity.
Qed.
Example lyra2mod_shows_rows_only_ex :
  rust_args (isize_max debug64) 4 (pw 1) [] 1 4 1 /\ rust_args (isize_max debug64) 4 (pw 2) [] 1 4 1 /\
  (exists out, SrcLyra2mod.lyra2mod debug64 4 (pw 1) [] 1 4 1 = Ok out) /\
  (SrcLyra2modSeen.lyra2mod_seen debug64 4 (pw 1) [] 1 4 1).2 <> (SrcLyra2modSeen.lyra2mod_seen debug64 4 (pw 2) [] 1 4 1).2.
Proof.
  split; [args_tac|]. split; [args_tac|]. split; [eexists; vm_compute; reflexivity|].
  intros H. apply (f_equal choices) in H. revert H. vm_compute. discriminate.
Qed.
(** The digests as specified meet the hypotheses, for a block header and a short message. *)
Example chains_show_rows_only_ex :
  hide_row 8 <$> (SrcChainsSeen.lyra2z_sum_seen blake256 release32 (replicate 80 7)).2 =
  hide_row 8 <$> (SrcChainsSeen.lyra2z_sum_seen blake256 release32 [97; 98; 99]).2.
Proof.
  apply (chains_show_rows_only release32 blake256 keccak256 skein512_256 groestl256).
  - left. reflexivity.
  - exact blake256_digest.
  - exact keccak256_digest.
  - exact skein512_256_digest.
  - exact groestl256_digest.
  - apply Forall_replicate. split; lia.
  - repeat constructor; lia.
Qed.
