(** * Properties C27 - C31: the chained hashes

    The digests of the external crates are variables: the theorems hold for every choice
    of functions from byte strings to 32-byte strings. *)
From Verif Require Import Machine.
From Verif Require Import SpecWord SpecChains.
From Verif Require SpecBlake256 SpecKeccak SpecSkein SpecGroestl.
From Verif Require MChains ChainTests.
From Verif Require Import ChainFacts DigestFacts.
#[local] Open Scope Z_scope.

(** ** C27 *)
Theorem lyra2re_total p blake256 keccak256 skein256 groestl256 m :
  known_platform p -> digest256 blake256 -> digest256 keccak256 -> digest256 skein256 -> digest256 groestl256 ->
  Forall byte m ->
  let h := Lyra2RE blake256 keccak256 skein256 groestl256 m in
  MChains.lyra2re_sum p blake256 keccak256 skein256 groestl256 m = Ok h /\ length h = 32%nat /\ Forall byte h.
Proof. intros Hp H1 H2 H3 H4. exact (lyra2re_value p Hp _ _ _ _ H1 H2 H3 H4 m). Qed.
Print Assumptions lyra2re_total.

(** ** C28 *)
Theorem lyra2rev2_total p blake256 keccak256 skein256 m :
  known_platform p -> digest256 blake256 -> digest256 keccak256 -> digest256 skein256 -> Forall byte m ->
  let h := Lyra2REv2 blake256 keccak256 skein256 m in
  MChains.lyra2rev2_sum p blake256 keccak256 skein256 m = Ok h /\ length h = 32%nat /\ Forall byte h.
Proof. intros Hp H1 H2 H3. exact (lyra2rev2_value p Hp _ _ _ H1 H2 H3 m). Qed.
Print Assumptions lyra2rev2_total.

(** ** C29 *)
Theorem lyra2rev3_total p blake256 m : known_platform p -> digest256 blake256 -> Forall byte m ->
  let h := Lyra2REv3 blake256 m in
  MChains.lyra2rev3_sum p blake256 m = Ok h /\ length h = 32%nat /\ Forall byte h.
Proof. intros Hp H1. exact (lyra2rev3_value p Hp _ H1 m). Qed.
Print Assumptions lyra2rev3_total.

(** ** C30 *)
Theorem lyra2z_total p blake256 m : known_platform p -> digest256 blake256 -> Forall byte m ->
  let h := Lyra2Z blake256 m in
  MChains.lyra2z_sum p blake256 m = Ok h /\ length h = 32%nat /\ Forall byte h.
Proof. intros Hp H1. exact (lyra2z_value p Hp _ H1 m). Qed.
Print Assumptions lyra2z_total.

(** The hypotheses on the digests are met by BLAKE-256, Keccak-256, Skein-512-256 and
    Groestl-256, and the resulting values are those of the repository's tests. *)
Example chains_ex :
  digest256 SpecBlake256.blake256 /\ digest256 SpecKeccak.keccak256 /\
  digest256 SpecSkein.skein512_256 /\ digest256 SpecGroestl.groestl256.
Proof. exact (conj blake256_digest (conj keccak256_digest (conj skein512_256_digest groestl256_digest))). Qed.
Example lyra2rev3_ex :
  Lyra2REv3 SpecBlake256.blake256 [97; 98; 99] =
  [78; 68; 80; 135; 226; 141; 41; 75; 48; 116; 233; 143; 238; 134; 15; 183; 61; 36; 138; 99; 21; 14; 162; 212;
   43; 254; 221; 210; 28; 11; 137; 239].
Proof.
  destruct (lyra2rev3_total debug64 SpecBlake256.blake256 [97; 98; 99] (or_intror eq_refl) blake256_digest) as [E _].
  { repeat constructor; lia. }
  change [97; 98; 99] with Tests.abc in E. rewrite ChainTests.kat_lyra2rev3_1 in E.
  symmetry. exact (HashFacts.Ok_inj _ _ E).
Qed.

(** ** C31 *)
Theorem chains_depend_on_blake p blake256 keccak256 skein256 groestl256 m m' :
  blake256 m = blake256 m' ->
  MChains.lyra2re_sum p blake256 keccak256 skein256 groestl256 m =
    MChains.lyra2re_sum p blake256 keccak256 skein256 groestl256 m' /\
  MChains.lyra2rev2_sum p blake256 keccak256 skein256 m = MChains.lyra2rev2_sum p blake256 keccak256 skein256 m' /\
  MChains.lyra2rev3_sum p blake256 m = MChains.lyra2rev3_sum p blake256 m' /\
  MChains.lyra2z_sum p blake256 m = MChains.lyra2z_sum p blake256 m'.
Proof. exact (chains_blake p blake256 keccak256 skein256 groestl256 m m'). Qed.
Print Assumptions chains_depend_on_blake.
(** The hypothesis is met by different messages (here with a digest that has evident collisions). *)
Example chains_depend_ex : let f (m : list Z) := take 32 (m ++ replicate 32 0) in
  f [1] = f [1; 0] /\ [1] <> [1; 0] /\ (forall m, Forall byte m -> length (f m) = 32%nat).
Proof.
  split; [reflexivity|]. split; [discriminate|]. intros m _. rewrite take_length, app_length, replicate_length. lia.
Qed.
