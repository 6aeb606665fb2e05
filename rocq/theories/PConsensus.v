(** * C41, C42: failure depends on sizes only; results do not depend on the platform *)
From Verif Require Import Machine.
From Verif Require Import SpecWord SpecLyra2 SpecCalls SpecChains.
From Verif Require MLyra2 MCube MBmw MChains Tests.
From Verif Require SpecBlake256 SpecKeccak SpecSkein SpecGroestl.
Import MLyra2 (lyra2, lyra2mod, lyra2_sum, lyra2mod_sum).
From Verif Require Import PLyra2Lemmas ConsensusFacts DigestFacts WrapFailure AnyKey.
#[local] Open Scope Z_scope.

(** ** C41: whether a call fails is decided by the parameters and the total length of
    password and salt, never by their contents nor by the boundary between them. *)
Theorem lyra2_failure_ignores_contents p k pwd salt pwd' salt' t R C :
  known_platform p -> rust_args (isize_max p) k pwd salt t R C -> rust_args (isize_max p) k pwd' salt' t R C ->
  R < 2 ^ 63 \/ overflow_checks p = true \/ 12 * (R mod 2 ^ (usize_bits p - 2)) * C < 2 ^ usize_bits p ->
  (length pwd + length salt = length pwd' + length salt')%nat ->
  (lyra2 p k pwd salt t R C = Panic <-> lyra2 p k pwd' salt' t R C = Panic) /\
  (lyra2mod p k pwd salt t R C = Panic <-> lyra2mod p k pwd' salt' t R C = Panic).
Proof. exact (failure_sizes_any_key p k pwd salt pwd' salt' t R C). Qed.
Print Assumptions lyra2_failure_ignores_contents.

(** Without overflow checks and with [n_rows >= 2^63] and a matrix whose size wraps around
    again the claim is false: two passwords of the same length, one call returns and the other panics. *)
Theorem lyra2_failure_ignores_contents_wrapped_refuted :
  exists k pwd pwd' salt t R C,
    rust_args (isize_max release64) k pwd salt t R C /\ rust_args (isize_max release64) k pwd' salt t R C /\
    length pwd = length pwd' /\
    (exists out, lyra2 release64 k pwd salt t R C = Ok out) /\ lyra2 release64 k pwd' salt t R C = Panic.
Proof. exact wrap_failure. Qed.
Print Assumptions lyra2_failure_ignores_contents_wrapped_refuted.

Theorem sums_failure_ignores_contents p m m' :
  known_platform p -> rust_slice (isize_max p) m -> rust_slice (isize_max p) m' -> length m = length m' ->
  (lyra2_sum p m = Panic <-> lyra2_sum p m' = Panic) /\
  (lyra2mod_sum p m = Panic <-> lyra2mod_sum p m' = Panic) /\
  (MCube.cubehash_sum p m = Panic <-> MCube.cubehash_sum p m' = Panic) /\
  (MBmw.bmw_sum p m = Panic <-> MBmw.bmw_sum p m' = Panic).
Proof. exact (sum_failure_sizes p m m'). Qed.
Print Assumptions sums_failure_ignores_contents.

(** Both outcomes occur: a call that returns and one that fails, for the same parameters. *)
Example failure_ex :
  rust_args (isize_max debug64) 32 [1; 2; 3] [4] 1 3 1 /\ rust_args (isize_max debug64) 32 [9] [7; 8; 9] 1 3 1 /\
  accepted (isize_max debug64) 32 [1; 2; 3] [4] 1 3 1 /\
  rust_args (isize_max debug64) 32 (replicate 200 0) (replicate 9 1) 1 3 1 /\
  ~ accepted (isize_max debug64) 32 (replicate 200 0) (replicate 9 1) 1 3 1.
Proof.
  split; [args_tac|]. split; [args_tac|]. split; [accepted_tac|]. split; [args_tac|].
  intros (_ & _ & _ & _ & H). vm_compute in H. destruct H as [H _]. apply H. reflexivity.
Qed.

(** ** C42: consensus between platforms.  Whatever the input, the digests are the same
    (value or failure) on 32 and 64 bits, with and without overflow checks. *)
Theorem sums_platform_independent p p' m :
  known_platform p -> known_platform p' -> rust_slice (isize_max p) m -> rust_slice (isize_max p') m ->
  lyra2_sum p m = lyra2_sum p' m /\ lyra2mod_sum p m = lyra2mod_sum p' m /\
  MCube.cubehash_sum p m = MCube.cubehash_sum p' m /\ MBmw.bmw_sum p m = MBmw.bmw_sum p' m.
Proof. exact (sums_platforms p p' m). Qed.
Print Assumptions sums_platform_independent.

Theorem chains_platform_independent p p' blake256 keccak256 skein256 groestl256 m :
  known_platform p -> known_platform p' ->
  digest256 blake256 -> digest256 keccak256 -> digest256 skein256 -> digest256 groestl256 -> Forall byte m ->
  MChains.lyra2re_sum p blake256 keccak256 skein256 groestl256 m =
    MChains.lyra2re_sum p' blake256 keccak256 skein256 groestl256 m /\
  MChains.lyra2rev2_sum p blake256 keccak256 skein256 m = MChains.lyra2rev2_sum p' blake256 keccak256 skein256 m /\
  MChains.lyra2rev3_sum p blake256 m = MChains.lyra2rev3_sum p' blake256 m /\
  MChains.lyra2z_sum p blake256 m = MChains.lyra2z_sum p' blake256 m.
Proof. exact (chains_platforms p p' blake256 keccak256 skein256 groestl256 m). Qed.
Print Assumptions chains_platform_independent.

Example consensus_ex : rust_slice (isize_max debug32) (replicate 700 5) /\ rust_slice (isize_max release64) (replicate 700 5) /\
  digest256 SpecBlake256.blake256 /\ digest256 SpecKeccak.keccak256 /\
  digest256 SpecSkein.skein512_256 /\ digest256 SpecGroestl.groestl256.
Proof.
  split; [slice_tac|]. split; [slice_tac|].
  exact (conj blake256_digest (conj keccak256_digest (conj skein512_256_digest groestl256_digest))).
Qed.
