(** * Lemmas behind PSrc.v *)
From Verif Require Import Machine LyraFacts RefineTop HashFacts SrcFacts SrcLoops SrcTop SrcHash SrcHash3.
From Verif Require Import SpecWord SpecLyra2 SpecCalls SpecCube SpecBmw SpecChains.
From Verif Require BigRows MUtils MLyra2 MCube MBmw MChains SpecBlake256.
From Verif Require SrcUtils SrcLyra2 SrcLyra2mod SrcCube SrcBmw SrcChains.
From Verif Require Import PLyra2Lemmas ChainFacts DigestFacts.
From Verif Require Import CubeFacts BmwFacts.
#[local] Open Scope Z_scope.

Lemma src_lyra2_both p k pwd salt t R C : known_platform p ->
  SrcLyra2.lyra2 p k pwd salt t R C = MLyra2.lyra2 p k pwd salt t R C /\
  SrcLyra2mod.lyra2mod p k pwd salt t R C = MLyra2.lyra2mod p k pwd salt t R C.
Proof. intros Hp. split; [exact (src_lyra2 p k pwd salt t R C Hp)|exact (src_lyra2mod p k pwd salt t R C Hp)]. Qed.
Lemma src_sums p input : known_platform p ->
  SrcLyra2.sum p input = MLyra2.lyra2_sum p input /\
  SrcLyra2mod.sum p input = MLyra2.lyra2mod_sum p input /\
  SrcCube.sum p input = MCube.cubehash_sum p input /\
  SrcBmw.sum p input = MBmw.bmw_sum p input.
Proof.
  intros Hp. split; [exact (src_lyra2_sum p input Hp)|]. split; [exact (src_lyra2mod_sum p input Hp)|].
  split; [exact (src_cubehash_sum p input)|exact (src_bmw_sum p input Hp)].
Qed.
Lemma src_chains p blake256 keccak256 skein256 groestl256 input : known_platform p ->
  SrcChains.lyra2re_sum blake256 keccak256 skein256 groestl256 p input =
    MChains.lyra2re_sum p blake256 keccak256 skein256 groestl256 input /\
  SrcChains.lyra2rev2_sum blake256 keccak256 skein256 p input =
    MChains.lyra2rev2_sum p blake256 keccak256 skein256 input /\
  SrcChains.lyra2rev3_sum blake256 p input = MChains.lyra2rev3_sum p blake256 input /\
  SrcChains.lyra2z_sum blake256 p input = MChains.lyra2z_sum p blake256 input.
Proof.
  intros Hp. split; [exact (src_lyra2re _ _ _ _ p input Hp)|]. split; [exact (src_lyra2rev2 _ _ _ p input Hp)|].
  split; [exact (src_lyra2rev3 _ p input Hp)|exact (src_lyra2z _ p input Hp)].
Qed.
Lemma src_sponge p s w k : known_platform p -> length s = 16%nat ->
  SrcLyra2.init_state p = Ok MLyra2.init_state /\
  SrcLyra2.blake2b_lyra p s = Ok (MLyra2.blake2b_lyra s) /\
  SrcLyra2.reduced_blake2b_lyra p s = Ok (MLyra2.reduced_blake2b_lyra s) /\
  SrcLyra2.absorb_block p s w = MLyra2.absorb_block s w /\
  SrcLyra2.absorb_block_blake2_safe p s w = MLyra2.absorb_block_blake2_safe s w /\
  SrcLyra2.squeeze p s k = MLyra2.squeeze p s k.
Proof.
  intros Hp Hs. split; [apply src_init|]. split; [apply src_blake2b|]. split; [apply src_reduced|].
  split; [apply src_absorb|]. split; [apply src_absorb_safe|]. by apply src_squeeze.
Qed.
Lemma src_codec p data :
  SrcUtils.read_u32_le p data = MUtils.read_u32_le data /\ SrcUtils.read_u64_le p data = MUtils.read_u64_le data.
Proof. split; [apply src_read_u32|apply src_read_u64]. Qed.
Lemma src_copies p s w k :
  SrcLyra2mod.init_state p = SrcLyra2.init_state p /\
  SrcLyra2mod.round_lyra p s = SrcLyra2.round_lyra p s /\
  SrcLyra2mod.blake2b_lyra p s = SrcLyra2.blake2b_lyra p s /\
  SrcLyra2mod.reduced_blake2b_lyra p s = SrcLyra2.reduced_blake2b_lyra p s /\
  SrcLyra2mod.absorb_block p s w = SrcLyra2.absorb_block p s w /\
  SrcLyra2mod.absorb_block_blake2_safe p s w = SrcLyra2.absorb_block_blake2_safe p s w /\
  SrcLyra2mod.squeeze p s k = SrcLyra2.squeeze p s k.
Proof.
  split; [exact (f_equal (fun f => f p) mod_init_state)|].
  split; [exact (f_equal (fun f => f p s) mod_round_lyra)|].
  split; [exact (f_equal (fun f => f p s) mod_blake2b_lyra)|].
  split; [exact (f_equal (fun f => f p s) mod_reduced_blake2b_lyra)|].
  split; [exact (f_equal (fun f => f p s w) mod_absorb_block)|].
  split; [exact (f_equal (fun f => f p s w) mod_absorb_block_blake2_safe)|].
  exact (f_equal (fun f => f p s k) mod_squeeze).
Qed.
Lemma src_lyra2_computes p k pwd salt t R C :
  known_platform p -> rust_args (isize_max p) k pwd salt t R C ->
  R < 2 ^ 63 \/ overflow_checks p = true -> usize_bits p = 64 \/ k < 2 ^ 63 ->
  (accepted (isize_max p) k pwd salt t R C /\
     SrcLyra2.lyra2 p k pwd salt t R C = Ok (Lyra2_code choose_first k pwd salt t R C) \/
   ~ accepted (isize_max p) k pwd salt t R C /\ SrcLyra2.lyra2 p k pwd salt t R C = Panic) /\
  (accepted (isize_max p) k pwd salt t R C /\
     SrcLyra2mod.lyra2mod p k pwd salt t R C = Ok (Lyra2_code choose_rev3 k pwd salt t R C) \/
   ~ accepted (isize_max p) k pwd salt t R C /\ SrcLyra2mod.lyra2mod p k pwd salt t R C = Panic).
Proof.
  intros Hp Ha HR0 Hk. rewrite src_lyra2, src_lyra2mod by exact Hp. destruct HR0 as [HR|Hc]; [split|].
  - exact (dichotomy p MLyra2.sel_lyra2 choose_first k pwd salt t R C Hp sel_lyra2_ok Ha (or_introl HR) Hk).
  - exact (dichotomy p (MLyra2.sel_lyra2mod p) choose_rev3 k pwd salt t R C Hp (sel_lyra2mod_ok p Hp) Ha (or_introl HR) Hk).
  - destruct (BigRows.dichotomy_debug p k pwd salt t R C Hp Hc Ha Hk) as [(H & H1 & H2)|(H & H1 & H2)].
    + exact (conj (or_introl (conj H H1)) (or_introl (conj H H2))).
    + exact (conj (or_intror (conj H H1)) (or_intror (conj H H2))).
Qed.
Lemma src_digests_compute p m : known_platform p -> Forall byte m ->
  SrcCube.sum p m = (if decide (32 <= length m)%nat then Ok (cubehash256 (take 32 m)) else Panic) /\
  SrcBmw.sum p m = (if decide (length m <= 55)%nat then Ok (bmw256 m)
                    else if decide (length m < 64)%nat then Ok (bmw_one_block (bmw_overwritten m)) else Panic).
Proof.
  intros Hp Hm. rewrite src_cubehash_sum, src_bmw_sum by exact Hp. split.
  - destruct (decide _) as [H|H]; [exact (cube_sum_value p m Hp H Hm)|].
    apply (proj2 (cube_sum_returns_iff p m Hp Hm)). lia.
  - destruct (decide (length m <= 55)%nat) as [H|H]; [exact (bmw_sum_short p m Hp H Hm)|].
    destruct (decide _) as [H'|H']; [apply (bmw_sum_56 p m Hp); [lia|exact Hm]|].
    apply (proj2 (bmw_sum_returns_iff p m Hp Hm)). lia.
Qed.
Lemma src_chains_compute p blake256 keccak256 skein256 groestl256 m :
  known_platform p -> digest256 blake256 -> digest256 keccak256 -> digest256 skein256 -> digest256 groestl256 ->
  Forall byte m ->
  SrcChains.lyra2re_sum blake256 keccak256 skein256 groestl256 p m =
    Ok (Lyra2RE blake256 keccak256 skein256 groestl256 m) /\
  SrcChains.lyra2rev2_sum blake256 keccak256 skein256 p m = Ok (Lyra2REv2 blake256 keccak256 skein256 m) /\
  SrcChains.lyra2rev3_sum blake256 p m = Ok (Lyra2REv3 blake256 m) /\
  SrcChains.lyra2z_sum blake256 p m = Ok (Lyra2Z blake256 m).
Proof.
  intros Hp H1 H2 H3 H4 Hm. rewrite src_lyra2re, src_lyra2rev2, src_lyra2rev3, src_lyra2z by exact Hp.
  split; [exact (proj1 (lyra2re_value p Hp _ _ _ _ H1 H2 H3 H4 m Hm))|].
  split; [exact (proj1 (lyra2rev2_value p Hp _ _ _ H1 H2 H3 m Hm))|].
  split; [exact (proj1 (lyra2rev3_value p Hp _ H1 m Hm))|exact (proj1 (lyra2z_value p Hp _ H1 m Hm))].
Qed.
Lemma source_example : known_platform debug32 /\
  rust_args (isize_max debug64) 32 [97; 98; 99] [97; 98; 99] 1 4 4 /\
  accepted (isize_max debug64) 32 [97; 98; 99] [97; 98; 99] 1 4 4 /\
  rust_args (isize_max debug64) 97 [97; 98; 99] [97; 98; 99] 1 4 4 /\
  ~ accepted (isize_max debug64) 97 [97; 98; 99] [97; 98; 99] 1 4 4 /\
  digest256 SpecBlake256.blake256 /\ length MLyra2.init_state = 16%nat.
Proof.
  split; [by left|]. split; [args_tac|]. split; [accepted_tac|]. split; [args_tac|].
  split; [unfold accepted; lia|]. split; [exact blake256_digest|done].
Qed.
