(** * Properties C44 and C61 for the chained hashes

    [SrcChainsHeap.lyra2re_sum_held] and its companions are generated from the text of
    lyra2re.rs, lyra2rev2.rs, lyra2rev3.rs and lyra2z.rs with the logs of the heap buffers
    of the Lyra2 calls they make.  [peak] and [in_use] count words of 64 bits (SpecHeap.v). *)
From Verif Require Import Machine.
From Verif Require Import SpecWord SpecChains.
From Verif Require SpecBlake256 SpecKeccak SpecSkein SpecGroestl DigestFacts SrcChains SrcChainsHeap.
From Verif Require Import SpecHeap PLyra2Lemmas ChainHeap PChainCostLemmas.
#[local] Open Scope Z_scope.

(** Whatever the digests of the external crates do, and whether the hash returns or panics:
    never more than two matrices (12288 bytes for lyra2re and lyra2z, 3072 bytes for the other
    two) are in use, also where Lyra2 is called twice.  Without the log it is the translated source. *)
Theorem chains_heap_any p blake256 keccak256 skein256 groestl256 m : known_platform p ->
  forall words x y,
    words = 1536 /\ x = SrcChainsHeap.lyra2re_sum_held blake256 keccak256 skein256 groestl256 p m /\
      y = SrcChains.lyra2re_sum blake256 keccak256 skein256 groestl256 p m \/
    words = 384 /\ x = SrcChainsHeap.lyra2rev2_sum_held blake256 keccak256 skein256 p m /\
      y = SrcChains.lyra2rev2_sum blake256 keccak256 skein256 p m \/
    words = 384 /\ x = SrcChainsHeap.lyra2rev3_sum_held blake256 p m /\ y = SrcChains.lyra2rev3_sum blake256 p m \/
    words = 1536 /\ x = SrcChainsHeap.lyra2z_sum_held blake256 p m /\ y = SrcChains.lyra2z_sum blake256 p m ->
  fst x = y /\
  (forall l1 l2, snd x = l1 ++ l2 -> 0 <= in_use 0 l1 <= words) /\
  (forall out, fst x = Ok out -> in_use 0 (snd x) = 0).
Proof. exact (chains_any p blake256 keccak256 skein256 groestl256 m). Qed.
Print Assumptions chains_heap_any.

(** With digests of 32 bytes every hash returns, needs exactly that much memory, and gives it back. *)
Theorem chains_heap_use p blake256 keccak256 skein256 groestl256 m :
  known_platform p -> digest256 blake256 -> digest256 keccak256 -> digest256 skein256 -> digest256 groestl256 ->
  Forall byte m ->
  (exists log, SrcChainsHeap.lyra2re_sum_held blake256 keccak256 skein256 groestl256 p m =
      (Ok (Lyra2RE blake256 keccak256 skein256 groestl256 m), log) /\ peak log 1536 /\ in_use 0 log = 0) /\
  (exists log, SrcChainsHeap.lyra2rev2_sum_held blake256 keccak256 skein256 p m =
      (Ok (Lyra2REv2 blake256 keccak256 skein256 m), log) /\ peak log 384 /\ in_use 0 log = 0) /\
  (exists log, SrcChainsHeap.lyra2rev3_sum_held blake256 p m =
      (Ok (Lyra2REv3 blake256 m), log) /\ peak log 384 /\ in_use 0 log = 0) /\
  (exists log, SrcChainsHeap.lyra2z_sum_held blake256 p m =
      (Ok (Lyra2Z blake256 m), log) /\ peak log 1536 /\ in_use 0 log = 0).
Proof. exact (chains_peak p blake256 keccak256 skein256 groestl256 m). Qed.
Print Assumptions chains_heap_use.
(** The digests of SpecBlake256.v, SpecKeccak.v, SpecSkein.v and SpecGroestl.v meet the hypotheses. *)
Example chains_heap_use_ex :
  known_platform debug64 /\ known_platform release32 /\
  digest256 SpecBlake256.blake256 /\ digest256 SpecKeccak.keccak256 /\
  digest256 SpecSkein.skein512_256 /\ digest256 SpecGroestl.groestl256 /\ Forall byte [97; 98; 99] /\ Forall byte (replicate 80 7).
Proof. exact (proj1 chains_cost_example). Qed.
