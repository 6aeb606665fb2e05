(** * Properties C17 - C19 and C26: the sponge transformation and the codec *)
From Verif Require Import Machine MUtils.
From Verif Require Import SpecWord SpecBlake2b SpecBlake2bFull SpecSponge.
From Verif Require MLyra2.
From Verif Require Import SpongeFacts.
#[local] Open Scope Z_scope.

(** A state with no regularity, used in the examples. *)
Definition some_state : list Z := (fun i => (i + 1) * 0x9E3779B97F4A7C15 mod 2 ^ 64) <$> seqZ 0 16.
Lemma some_state16 : state16 some_state.
Proof. split; [done|]. apply (bool_decide_unpack (Forall (fun x => 0 <= x < 2 ^ 64) some_state)). vm_compute. exact I. Qed.

(** ** C17: the transformations permute the 1024-bit states. *)
Theorem round_permutes : permutes MLyra2.round_lyra.
Proof. exact round_lyra_permutes. Qed.
Print Assumptions round_permutes.
Theorem reduced_sponge_permutes : permutes MLyra2.reduced_blake2b_lyra.
Proof. exact reduced_permutes. Qed.
Print Assumptions reduced_sponge_permutes.
Theorem full_sponge_permutes : permutes MLyra2.blake2b_lyra.
Proof. exact blake2b_lyra_permutes. Qed.
Print Assumptions full_sponge_permutes.

(** Absorbing an 8-word (12-word) block: equal resulting states come from states with equal
    capacity part, and then the start states agree exactly when the absorbed blocks do. *)
Theorem absorb8_loses_nothing st st' w w' s :
  state16 st -> state16 st' -> (8 <= length w)%nat -> (8 <= length w')%nat ->
  Forall (word 64) w -> Forall (word 64) w' ->
  MLyra2.absorb_block_blake2_safe st w = Ok s -> MLyra2.absorb_block_blake2_safe st' w' = Ok s ->
  drop 8 st = drop 8 st' /\ (st = st' <-> take 8 w = take 8 w').
Proof. exact (absorb_safe_inj st st' w w' s). Qed.
Print Assumptions absorb8_loses_nothing.
Theorem absorb12_loses_nothing st st' w w' s :
  state16 st -> state16 st' -> (12 <= length w)%nat -> (12 <= length w')%nat ->
  Forall (word 64) w -> Forall (word 64) w' ->
  MLyra2.absorb_block st w = Ok s -> MLyra2.absorb_block st' w' = Ok s ->
  drop 12 st = drop 12 st' /\ (st = st' <-> take 12 w = take 12 w').
Proof. exact (absorb_block_inj st st' w w' s). Qed.
Print Assumptions absorb12_loses_nothing.
(** The hypotheses are met by every state and every long enough block: the absorptions
    return a state there, and panic on shorter blocks. *)
Theorem absorb8_total st w : state16 st -> Forall (word 64) w ->
  ((8 <= length w)%nat -> exists s, MLyra2.absorb_block_blake2_safe st w = Ok s /\ state16 s) /\
  ((length w < 8)%nat -> MLyra2.absorb_block_blake2_safe st w = Panic).
Proof. exact (absorb_safe_total st w). Qed.
Print Assumptions absorb8_total.
Theorem absorb12_total st w : state16 st -> Forall (word 64) w ->
  ((12 <= length w)%nat -> exists s, MLyra2.absorb_block st w = Ok s /\ state16 s) /\
  ((length w < 12)%nat -> MLyra2.absorb_block st w = Panic).
Proof. exact (absorb_block_total st w). Qed.
Print Assumptions absorb12_total.
(** Two states absorbing two blocks into the same state: the collision the theorem leaves open
    (different start states with equal capacity) does occur, so the hypotheses are satisfiable
    non-trivially. *)
Example absorb8_ex :
  exists s, MLyra2.absorb_block_blake2_safe some_state (seqZ 1 8) = Ok s /\
            MLyra2.absorb_block_blake2_safe
              (zip_with Z.lxor (take 8 some_state) (seqZ 1 8) ++ drop 8 some_state) (replicate 8 0) = Ok s /\
            some_state <> zip_with Z.lxor (take 8 some_state) (seqZ 1 8) ++ drop 8 some_state.
Proof. eexists. split; [vm_compute; reflexivity|]. split; [vm_compute; reflexivity|]. vm_compute. discriminate. Qed.

(** ** C18: the zero state. *)
Theorem round_zero_preimage v : state16 v -> MLyra2.round_lyra v = zero_state <-> v = zero_state.
Proof. exact (round_lyra_zero v). Qed.
Print Assumptions round_zero_preimage.
Theorem full_sponge_zero_preimage v : state16 v -> MLyra2.blake2b_lyra v = zero_state <-> v = zero_state.
Proof. exact (blake2b_lyra_zero v). Qed.
Print Assumptions full_sponge_zero_preimage.
Theorem first_absorption_nonzero w s : (8 <= length w)%nat -> Forall (word 64) w ->
  MLyra2.absorb_block_blake2_safe MLyra2.init_state w = Ok s -> s <> zero_state.
Proof. exact (first_absorb_nonzero w s). Qed.
Print Assumptions first_absorption_nonzero.
Example round_zero_ex : state16 some_state /\ some_state <> zero_state /\
  (MLyra2.round_lyra some_state !!! 0%nat) = 0xe63cbd32608c810d.
Proof. split; [exact some_state16|]. vm_compute. split; [discriminate|reflexivity]. Qed.

(** ** C19: the transformation is the RFC 7693 round with zero message words, for every
    row of the message schedule; the full one is the twelve rounds of RFC 7693. *)
Theorem round_is_rfc7693 v i : state16 v -> (i < 10)%nat ->
  MLyra2.round_lyra v = mix_round zero_state (sigma !!! i) v.
Proof. exact (round_lyra_rfc v i). Qed.
Print Assumptions round_is_rfc7693.
Theorem full_sponge_is_rfc7693 v : state16 v -> MLyra2.blake2b_lyra v = mix_rounds zero_state v.
Proof. exact (blake2b_lyra_rfc v). Qed.
Print Assumptions full_sponge_is_rfc7693.
(** The RFC's worked example: the specification used above gives BLAKE2b-512("abc"). *)
Example rfc7693_abc : le_number (reverse (blake2b512_short [97; 98; 99])) =
  0xba80a53f981c4d0d6a2797b69f12f6e94c212f14685ac4b74b12bb6fdbffa2d17d87c5392aab792dc252d5de4533cc9518d38aa8dbf1925ab92386edd4009923.
Proof. vm_compute. reflexivity. Qed.

(** ** C26: little-endian codec. *)
Theorem u32_write_read x rest : word 32 x -> read_u32_le (to_le_bytes 4 x ++ rest) = Ok x.
Proof. exact (read_write_u32 x rest). Qed.
Print Assumptions u32_write_read.
Theorem u64_write_read x rest : word 64 x -> read_u64_le (to_le_bytes 8 x ++ rest) = Ok x.
Proof. exact (read_write_u64 x rest). Qed.
Print Assumptions u64_write_read.
Theorem u32_read_write bs x : Forall byte bs -> read_u32_le bs = Ok x ->
  word 32 x /\ to_le_bytes 4 x = take 4 bs.
Proof. exact (write_read_u32 bs x). Qed.
Print Assumptions u32_read_write.
Theorem u64_read_write bs x : Forall byte bs -> read_u64_le bs = Ok x ->
  word 64 x /\ to_le_bytes 8 x = take 8 bs.
Proof. exact (write_read_u64 bs x). Qed.
Print Assumptions u64_read_write.
Theorem u32_read_panics bs : read_u32_le bs = Panic <-> (length bs < 4)%nat.
Proof. exact (read_u32_panics bs). Qed.
Print Assumptions u32_read_panics.
Theorem u64_read_panics bs : read_u64_le bs = Panic <-> (length bs < 8)%nat.
Proof. exact (read_u64_panics bs). Qed.
Print Assumptions u64_read_panics.
(** The value read is the little-endian number of the first 4 (8) bytes. *)
Theorem u32_read_value bs : (4 <= length bs)%nat -> Forall byte bs ->
  read_u32_le bs = Ok (le_number (take 4 bs)).
Proof. exact (read_u32_le_take bs). Qed.
Print Assumptions u32_read_value.
Theorem u64_read_value bs : (8 <= length bs)%nat -> Forall byte bs ->
  read_u64_le bs = Ok (le_number (take 8 bs)).
Proof. exact (read_u64_le_take bs). Qed.
Print Assumptions u64_read_value.
Example codec_ex : to_le_bytes 4 0x01020304 = [4; 3; 2; 1] /\
  read_u32_le [4; 3; 2; 1; 99] = Ok 0x01020304 /\ read_u64_le [8; 7; 6; 5; 4; 3; 2; 1] = Ok 0x0102030405060708 /\
  read_u64_le [8; 7; 6; 5; 4; 3; 2] = Panic.
Proof. vm_compute. auto. Qed.
