(** * Property C54: the cost of the chained hashes

    [SrcChainsLog] holds lyra2re.rs, lyra2rev2.rs, lyra2rev3.rs and lyra2z.rs as
    tools/rust2coq.py translates them when the calls of Lyra2 leave their logs.  The
    digests of the external crates are variables, and their own cost is not counted. *)
From Verif Require Import Machine.
From Verif Require Import SpecWord SpecChains.
From Verif Require SpecBlake256 SpecKeccak SpecSkein SpecGroestl.
From Verif Require SrcChains SrcChainsLog.
From Verif Require Import MAccess SpecAccess PChainCostLemmas PSrcLogLemmas.
#[local] Open Scope Z_scope.

(** The rounds of the sponge and the words of the matrix read and written are the same for every input. *)
Theorem chains_cost_constant p blake256 keccak256 skein256 groestl256 m :
  known_platform p -> digest256 blake256 -> digest256 keccak256 -> digest256 skein256 -> digest256 groestl256 ->
  Forall byte m ->
  (exists log, SrcChainsLog.lyra2re_sum_log blake256 keccak256 skein256 groestl256 p m =
      (Ok (Lyra2RE blake256 keccak256 skein256 groestl256 m), log) /\
    work log = 176 /\ Z.of_nat (length (reads log)) = 5597 /\ Z.of_nat (length (writes log)) = 2896) /\
  (exists log, SrcChainsLog.lyra2rev2_sum_log blake256 keccak256 skein256 p m =
      (Ok (Lyra2REv2 blake256 keccak256 skein256 m), log) /\
    work log = 80 /\ Z.of_nat (length (reads log)) = 1277 /\ Z.of_nat (length (writes log)) = 688) /\
  (exists log, SrcChainsLog.lyra2rev3_sum_log blake256 p m = (Ok (Lyra2REv3 blake256 m), log) /\
    work log = 160 /\ Z.of_nat (length (reads log)) = 2554 /\ Z.of_nat (length (writes log)) = 1376) /\
  (exists log, SrcChainsLog.lyra2z_sum_log blake256 p m = (Ok (Lyra2Z blake256 m), log) /\
    work log = 624 /\ Z.of_nat (length (reads log)) = 27101 /\ Z.of_nat (length (writes log)) = 13648).
Proof. exact (chains_cost p blake256 keccak256 skein256 groestl256 m). Qed.
Print Assumptions chains_cost_constant.
(** So are the addresses, up to the choice of rows: inputs of any two lengths, on any two platforms. *)
Theorem chains_accesses_public p p' blake256 keccak256 skein256 groestl256 m m' :
  known_platform p -> known_platform p' ->
  digest256 blake256 -> digest256 keccak256 -> digest256 skein256 -> digest256 groestl256 ->
  Forall byte m -> Forall byte m' ->
  without_row 8 <$> snd (SrcChainsLog.lyra2re_sum_log blake256 keccak256 skein256 groestl256 p m) =
    without_row 8 <$> snd (SrcChainsLog.lyra2re_sum_log blake256 keccak256 skein256 groestl256 p' m') /\
  without_row 4 <$> snd (SrcChainsLog.lyra2rev2_sum_log blake256 keccak256 skein256 p m) =
    without_row 4 <$> snd (SrcChainsLog.lyra2rev2_sum_log blake256 keccak256 skein256 p' m') /\
  without_row 4 <$> snd (SrcChainsLog.lyra2rev3_sum_log blake256 p m) =
    without_row 4 <$> snd (SrcChainsLog.lyra2rev3_sum_log blake256 p' m') /\
  without_row 8 <$> snd (SrcChainsLog.lyra2z_sum_log blake256 p m) =
    without_row 8 <$> snd (SrcChainsLog.lyra2z_sum_log blake256 p' m').
Proof. exact (chains_public p p' blake256 keccak256 skein256 groestl256 m m'). Qed.
Print Assumptions chains_accesses_public.
(** Dropping the log gives the translation without one. *)
Theorem chains_log_erase p blake256 keccak256 skein256 groestl256 m : known_platform p ->
  fst (SrcChainsLog.lyra2re_sum_log blake256 keccak256 skein256 groestl256 p m) =
    SrcChains.lyra2re_sum blake256 keccak256 skein256 groestl256 p m /\
  fst (SrcChainsLog.lyra2rev2_sum_log blake256 keccak256 skein256 p m) =
    SrcChains.lyra2rev2_sum blake256 keccak256 skein256 p m /\
  fst (SrcChainsLog.lyra2rev3_sum_log blake256 p m) = SrcChains.lyra2rev3_sum blake256 p m /\
  fst (SrcChainsLog.lyra2z_sum_log blake256 p m) = SrcChains.lyra2z_sum blake256 p m.
Proof. exact (chains_erase p blake256 keccak256 skein256 groestl256 m). Qed.
Print Assumptions chains_log_erase.
(** The hypotheses hold for the digests as specified and for real inputs. *)
Example chains_cost_ex :
  (known_platform debug64 /\ known_platform release32 /\
   digest256 SpecBlake256.blake256 /\ digest256 SpecKeccak.keccak256 /\
   digest256 SpecSkein.skein512_256 /\ digest256 SpecGroestl.groestl256 /\ Forall byte [97; 98; 99] /\ Forall byte (replicate 80 7)) /\
  exists log, SrcChainsLog.lyra2z_sum_log SpecBlake256.blake256 debug64 [97; 98; 99] =
    (Ok (Lyra2Z SpecBlake256.blake256 [97; 98; 99]), log) /\ work log = 624.
Proof. exact chains_cost_example. Qed.
