(** * Property C37: the source text itself

    [SrcLyra2], [SrcLyra2mod], [SrcCube], [SrcBmw], [SrcUtils] and [SrcChains] hold the
    functions of /repo as tools/rust2coq.py translates them, statement by statement.
    The theorems of the other files are about the shorter definitions of the [M*.v]
    files; here both are proved equal, and the main results are stated for the
    translated text. *)
From Verif Require Import Machine.
From Verif Require Import SpecWord SpecLyra2 SpecCalls SpecCube SpecBmw SpecChains.
From Verif Require MUtils MLyra2 MCube MBmw MChains SpecBlake256.
From Verif Require SrcUtils SrcLyra2 SrcLyra2mod SrcCube SrcBmw SrcChains.
From Verif Require Import PSrcLemmas.
From Verif Require Tests.
#[local] Open Scope Z_scope.

(** ** The translated functions and the model are equal, on every input *)
Theorem source_lyra2 p k pwd salt t R C : known_platform p ->
  SrcLyra2.lyra2 p k pwd salt t R C = MLyra2.lyra2 p k pwd salt t R C /\
  SrcLyra2mod.lyra2mod p k pwd salt t R C = MLyra2.lyra2mod p k pwd salt t R C.
Proof. exact (src_lyra2_both p k pwd salt t R C). Qed.
Print Assumptions source_lyra2.
Theorem source_sums p input : known_platform p ->
  SrcLyra2.sum p input = MLyra2.lyra2_sum p input /\
  SrcLyra2mod.sum p input = MLyra2.lyra2mod_sum p input /\
  SrcCube.sum p input = MCube.cubehash_sum p input /\
  SrcBmw.sum p input = MBmw.bmw_sum p input.
Proof. exact (src_sums p input). Qed.
Print Assumptions source_sums.
Theorem source_chains p blake256 keccak256 skein256 groestl256 input : known_platform p ->
  SrcChains.lyra2re_sum blake256 keccak256 skein256 groestl256 p input =
    MChains.lyra2re_sum p blake256 keccak256 skein256 groestl256 input /\
  SrcChains.lyra2rev2_sum blake256 keccak256 skein256 p input =
    MChains.lyra2rev2_sum p blake256 keccak256 skein256 input /\
  SrcChains.lyra2rev3_sum blake256 p input = MChains.lyra2rev3_sum p blake256 input /\
  SrcChains.lyra2z_sum blake256 p input = MChains.lyra2z_sum p blake256 input.
Proof. exact (src_chains p blake256 keccak256 skein256 groestl256 input). Qed.
Print Assumptions source_chains.
Theorem source_sponge p s w k : known_platform p -> length s = 16%nat ->
  SrcLyra2.init_state p = Ok MLyra2.init_state /\
  SrcLyra2.blake2b_lyra p s = Ok (MLyra2.blake2b_lyra s) /\
  SrcLyra2.reduced_blake2b_lyra p s = Ok (MLyra2.reduced_blake2b_lyra s) /\
  SrcLyra2.absorb_block p s w = MLyra2.absorb_block s w /\
  SrcLyra2.absorb_block_blake2_safe p s w = MLyra2.absorb_block_blake2_safe s w /\
  SrcLyra2.squeeze p s k = MLyra2.squeeze p s k.
Proof. exact (src_sponge p s w k). Qed.
Print Assumptions source_sponge.
Theorem source_codec p data :
  SrcUtils.read_u32_le p data = MUtils.read_u32_le data /\ SrcUtils.read_u64_le p data = MUtils.read_u64_le data.
Proof. exact (src_codec p data). Qed.
Print Assumptions source_codec.

(** ** The sponge functions that lyra2mod/mod.rs duplicates are those of lyra2.rs *)
Theorem source_copies_agree p s w k :
  SrcLyra2mod.init_state p = SrcLyra2.init_state p /\
  SrcLyra2mod.round_lyra p s = SrcLyra2.round_lyra p s /\
  SrcLyra2mod.blake2b_lyra p s = SrcLyra2.blake2b_lyra p s /\
  SrcLyra2mod.reduced_blake2b_lyra p s = SrcLyra2.reduced_blake2b_lyra p s /\
  SrcLyra2mod.absorb_block p s w = SrcLyra2.absorb_block p s w /\
  SrcLyra2mod.absorb_block_blake2_safe p s w = SrcLyra2.absorb_block_blake2_safe p s w /\
  SrcLyra2mod.squeeze p s k = SrcLyra2.squeeze p s k.
Proof. exact (src_copies p s w k). Qed.
Print Assumptions source_copies_agree.

(** ** The main results, of the translated text *)
Theorem source_lyra2_computes p k pwd salt t R C :
  known_platform p -> rust_args (isize_max p) k pwd salt t R C ->
  R < 2 ^ 63 \/ overflow_checks p = true -> usize_bits p = 64 \/ k < 2 ^ 63 ->
  (accepted (isize_max p) k pwd salt t R C /\
     SrcLyra2.lyra2 p k pwd salt t R C = Ok (Lyra2_code choose_first k pwd salt t R C) \/
   ~ accepted (isize_max p) k pwd salt t R C /\ SrcLyra2.lyra2 p k pwd salt t R C = Panic) /\
  (accepted (isize_max p) k pwd salt t R C /\
     SrcLyra2mod.lyra2mod p k pwd salt t R C = Ok (Lyra2_code choose_rev3 k pwd salt t R C) \/
   ~ accepted (isize_max p) k pwd salt t R C /\ SrcLyra2mod.lyra2mod p k pwd salt t R C = Panic).
Proof. exact (src_lyra2_computes p k pwd salt t R C). Qed.
Print Assumptions source_lyra2_computes.
Theorem source_digests_compute p m : known_platform p -> Forall byte m ->
  SrcCube.sum p m = (if decide (32 <= length m)%nat then Ok (cubehash256 (take 32 m)) else Panic) /\
  SrcBmw.sum p m = (if decide (length m <= 55)%nat then Ok (bmw256 m)
                    else if decide (length m < 64)%nat then Ok (bmw_one_block (bmw_overwritten m)) else Panic).
Proof. exact (src_digests_compute p m). Qed.
Print Assumptions source_digests_compute.
Theorem source_chains_compute p blake256 keccak256 skein256 groestl256 m :
  known_platform p -> digest256 blake256 -> digest256 keccak256 -> digest256 skein256 -> digest256 groestl256 ->
  Forall byte m ->
  SrcChains.lyra2re_sum blake256 keccak256 skein256 groestl256 p m =
    Ok (Lyra2RE blake256 keccak256 skein256 groestl256 m) /\
  SrcChains.lyra2rev2_sum blake256 keccak256 skein256 p m = Ok (Lyra2REv2 blake256 keccak256 skein256 m) /\
  SrcChains.lyra2rev3_sum blake256 p m = Ok (Lyra2REv3 blake256 m) /\
  SrcChains.lyra2z_sum blake256 p m = Ok (Lyra2Z blake256 m).
Proof. exact (src_chains_compute p blake256 keccak256 skein256 groestl256 m). Qed.
Print Assumptions source_chains_compute.

(** The hypotheses are met, and accepted and rejected calls both exist. *)
Example source_ex : known_platform debug32 /\
  rust_args (isize_max debug64) 32 [97; 98; 99] [97; 98; 99] 1 4 4 /\
  accepted (isize_max debug64) 32 [97; 98; 99] [97; 98; 99] 1 4 4 /\
  rust_args (isize_max debug64) 97 [97; 98; 99] [97; 98; 99] 1 4 4 /\
  ~ accepted (isize_max debug64) 97 [97; 98; 99] [97; 98; 99] 1 4 4 /\
  digest256 SpecBlake256.blake256 /\ length MLyra2.init_state = 16%nat.
Proof. exact source_example. Qed.
(** A known answer of the repository's tests, and small calls evaluated on the translated text. *)
Example source_value_ex : SrcLyra2.sum debug64 Tests.abc = MLyra2.lyra2_sum debug64 Tests.abc /\
  (exists out, SrcLyra2.sum debug64 Tests.abc = Ok out /\ length out = 32%nat) /\
  SrcLyra2.lyra2 debug64 32 [97] [98] 1 2 4 = Panic /\ SrcCube.sum release32 [97] = Panic /\
  SrcUtils.read_u64_le debug64 [1; 2; 3; 4; 5; 6; 7; 8; 9] = Ok 0x0807060504030201.
Proof.
  pose proof (proj1 (source_sums debug64 Tests.abc (or_intror eq_refl))) as E. split; [exact E|].
  split; [rewrite E, Tests.kat_lyra2_1; eexists; split; reflexivity|]. split; [reflexivity|]. split; reflexivity.
Qed.
