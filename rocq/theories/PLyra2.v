(** * Properties of [lyra2::lyra2], [lyra2::sum] and the lyra2mod variant

    [lyra2 p k pwd salt t R C] is the model of the call on platform [p];
    [isize_max p] is [isize::MAX] there.  [rust_args] only says that the
    arguments have the Rust types. *)
From Verif Require Import Machine LyraFacts RefineTop.
From Verif Require Import SpecWord SpecLyra2 SpecCalls.
From Verif Require MLyra2 Tests.
Import MLyra2 (lyra2, lyra2mod, lyra2_sum, lyra2mod_sum).
From Verif Require Import Wide32 PLyra2Lemmas.

Definition abc : list Z := [97; 98; 99].
Definition xyz : list Z := [120; 121; 122].

(** ** C01: a returned key has the requested length (64-bit targets). *)
Theorem lyra2_output_length oc k pwd salt t R C out :
  word 64 k -> lyra2 (Platform oc 64) k pwd salt t R C = Ok out ->
  Z.of_nat (length out) = k /\ Forall byte out.
Proof. exact (out_length64 oc MLyra2.sel_lyra2 k pwd salt t R C out). Qed.
Print Assumptions lyra2_output_length.
Theorem lyra2mod_output_length oc k pwd salt t R C out :
  word 64 k -> lyra2mod (Platform oc 64) k pwd salt t R C = Ok out ->
  Z.of_nat (length out) = k /\ Forall byte out.
Proof. exact (out_length64 oc (MLyra2.sel_lyra2mod _) k pwd salt t R C out). Qed.
Print Assumptions lyra2mod_output_length.
(** On every target: the low [usize] bits of [k]. *)
Theorem lyra2_output_length_any_width p k pwd salt t R C out :
  known_platform p -> lyra2 p k pwd salt t R C = Ok out ->
  Z.of_nat (length out) = k mod 2 ^ usize_bits p /\ Forall byte out.
Proof. intros Hp. exact (out_length p Hp MLyra2.sel_lyra2 k pwd salt t R C out). Qed.
Print Assumptions lyra2_output_length_any_width.
Example lyra2_output_length_ex : exists out,
  word 64 5 /\ lyra2 debug64 5 abc abc 1 4 4 = Ok out.
Proof.
  eexists. split; [split; lia|].
  exact (lyra2_value debug64 5 abc abc 1 4 4 ltac:(by right) ltac:(args_tac) ltac:(accepted_tac)).
Qed.

(** ** C02: exactly the accepted calls return (64-bit, overflow checks on). *)
Theorem lyra2_returns_iff k pwd salt t R C :
  rust_args (2 ^ 63 - 1) k pwd salt t R C ->
  (exists out, lyra2 debug64 k pwd salt t R C = Ok out) <->
  1 <= t /\ 3 <= R /\ k <= 96 /\
  64 * ((Z.of_nat (length pwd) + Z.of_nat (length salt) + 48) / 64 + 1) <= 96 * R * C /\
  96 * R * C <= 2 ^ 63 - 1.
Proof. exact (lyra2_returns_iff_proof k pwd salt t R C). Qed.
Print Assumptions lyra2_returns_iff.
Theorem lyra2_returns_or_panics k pwd salt t R C :
  rust_args (2 ^ 63 - 1) k pwd salt t R C ->
  accepted (2 ^ 63 - 1) k pwd salt t R C /\
    lyra2 debug64 k pwd salt t R C = Ok (Lyra2_code choose_first k pwd salt t R C) \/
  ~ accepted (2 ^ 63 - 1) k pwd salt t R C /\
    lyra2 debug64 k pwd salt t R C = Panic.
Proof. exact (lyra2_dichotomy_debug64 k pwd salt t R C). Qed.
Print Assumptions lyra2_returns_or_panics.
(** The same on every platform, for [n_rows < 2^63] (and [k < 2^63] on 32 bits). *)
Theorem lyra2_returns_or_panics_any p k pwd salt t R C :
  known_platform p -> rust_args (isize_max p) k pwd salt t R C ->
  R < 2 ^ 63 -> usize_bits p = 64 \/ k < 2 ^ 63 ->
  accepted (isize_max p) k pwd salt t R C /\
    lyra2 p k pwd salt t R C = Ok (Lyra2_code choose_first k pwd salt t R C) \/
  ~ accepted (isize_max p) k pwd salt t R C /\
    lyra2 p k pwd salt t R C = Panic.
Proof. exact (lyra2_dichotomy p k pwd salt t R C). Qed.
Print Assumptions lyra2_returns_or_panics_any.
Example lyra2_returns_iff_ex_in : rust_args (2 ^ 63 - 1) 32 abc abc 1 4 4 /\
  accepted (2 ^ 63 - 1) 32 abc abc 1 4 4.
Proof. split; [args_tac|accepted_tac]. Qed.
Example lyra2_returns_iff_ex_out : rust_args (2 ^ 63 - 1) 97 abc abc 1 4 4 /\
  ~ accepted (2 ^ 63 - 1) 97 abc abc 1 4 4.
Proof. split; [args_tac|intros H; destruct H; lia]. Qed.

(** ** C03: the documented panics. *)
Theorem lyra2_panics_documented p k pwd salt t R C :
  t < 1 \/ R < 3 -> lyra2 p k pwd salt t R C = Panic /\ lyra2mod p k pwd salt t R C = Panic.
Proof. exact (panics_documented p k pwd salt t R C). Qed.
Print Assumptions lyra2_panics_documented.
Example lyra2_panics_documented_ex : 0 < 1 \/ 8 < 3. Proof. lia. Qed.

(** ** C04: termination of every call. *)
Theorem lyra2_terminates p k pwd salt t R C :
  known_platform p -> rust_args (isize_max p) k pwd salt t R C ->
  (exists out, lyra2 p k pwd salt t R C = Ok out) \/ lyra2 p k pwd salt t R C = Panic.
Proof. exact (terminates_lyra2 p k pwd salt t R C). Qed.
Print Assumptions lyra2_terminates.
Theorem lyra2mod_terminates p k pwd salt t R C :
  known_platform p -> rust_args (isize_max p) k pwd salt t R C ->
  (exists out, lyra2mod p k pwd salt t R C = Ok out) \/ lyra2mod p k pwd salt t R C = Panic.
Proof. exact (terminates_lyra2mod p k pwd salt t R C). Qed.
Print Assumptions lyra2mod_terminates.
Example lyra2_terminates_ex :
  known_platform release64 /\ rust_args (isize_max release64) 7 abc xyz (2 ^ 64 - 1) (2 ^ 64 - 1) 3.
Proof. split; [by right|args_tac]. Qed.

(** ** C05: output lengths above 96. *)
Theorem lyra2_long_output_refuted :
  ~ (forall k pwd salt t R C, rust_args (2 ^ 63 - 1) k pwd salt t R C ->
       accepted (2 ^ 63 - 1) 0 pwd salt t R C -> k <= 1000 ->
       exists out, lyra2 release64 k pwd salt t R C = Ok out /\ Z.of_nat (length out) = k).
Proof. exact long_output_refuted. Qed.
Print Assumptions lyra2_long_output_refuted.
Theorem lyra2_long_output_panics p k pwd salt t R C :
  known_platform p -> rust_args (isize_max p) k pwd salt t R C ->
  usize_bits p = 64 \/ k < 2 ^ 63 -> 96 < k ->
  lyra2 p k pwd salt t R C = Panic /\ lyra2mod p k pwd salt t R C = Panic.
Proof. exact (long_output_panics p k pwd salt t R C). Qed.
Print Assumptions lyra2_long_output_panics.
(** The remaining lengths, [k >= 2^63] on a 32-bit target: the key is all zeros, of
    [k mod 2^32] bytes, whatever the password, unless this exceeds [isize::MAX] or the
    other parameters are refused. *)
Theorem lyra2_huge_output_32 p k pwd salt t R C :
  usize_bits p = 32 -> rust_args (2 ^ 31 - 1) k pwd salt t R C -> R < 2 ^ 63 -> 2 ^ 63 <= k ->
  (accepted (2 ^ 31 - 1) 0 pwd salt t R C /\ k mod 2 ^ 32 <= 2 ^ 31 - 1) /\
    lyra2 p k pwd salt t R C = Ok (replicate (Z.to_nat (k mod 2 ^ 32)) 0) /\
    lyra2mod p k pwd salt t R C = Ok (replicate (Z.to_nat (k mod 2 ^ 32)) 0) \/
  ~ (accepted (2 ^ 31 - 1) 0 pwd salt t R C /\ k mod 2 ^ 32 <= 2 ^ 31 - 1) /\
    lyra2 p k pwd salt t R C = Panic /\ lyra2mod p k pwd salt t R C = Panic.
Proof. exact (huge_output_32 p k pwd salt t R C). Qed.
Print Assumptions lyra2_huge_output_32.
Example lyra2_huge_output_32_ex : rust_args (2 ^ 31 - 1) (2 ^ 63 + 5) abc xyz 1 4 4 /\
  accepted (2 ^ 31 - 1) 0 abc xyz 1 4 4 /\ (2 ^ 63 + 5) mod 2 ^ 32 = 5 /\
  2 ^ 31 - 1 < (2 ^ 63 + 2 ^ 31) mod 2 ^ 32.
Proof. split; [args_tac|]. split; [accepted_tac|]. split; vm_compute; reflexivity. Qed.
Example lyra2_long_output_ex : rust_args (isize_max debug64) 128 abc abc 1 4 4 /\
  accepted (2 ^ 63 - 1) 0 abc abc 1 4 4 /\ lyra2 debug64 96 abc abc 1 4 4 <> Panic.
Proof.
  split; [args_tac|split; [accepted_tac|]].
  rewrite (lyra2_value debug64 96 abc abc 1 4 4 ltac:(by right) ltac:(args_tac) ltac:(accepted_tac)).
  intros [=].
Qed.

(** ** C06: [sum]. *)
Theorem lyra2_sum_domain p input :
  known_platform p -> rust_slice (isize_max p) input ->
  (Z.of_nat (length input) <= 743 /\
     exists out, lyra2_sum p input = Ok out /\ length out = 32%nat /\ Forall byte out) \/
  (743 < Z.of_nat (length input) /\ lyra2_sum p input = Panic).
Proof. exact (sum_domain p input). Qed.
Print Assumptions lyra2_sum_domain.
Theorem lyra2_sum_value p input :
  known_platform p -> rust_slice (isize_max p) input -> Z.of_nat (length input) <= 743 ->
  lyra2_sum p input = Ok (Lyra2_code choose_first 32 input input 1 4 4) /\
  lyra2mod_sum p input = Ok (Lyra2_code choose_rev3 32 input input 1 4 4).
Proof. exact (sum_value p input). Qed.
Print Assumptions lyra2_sum_value.
Example lyra2_sum_domain_ex : known_platform debug32 /\ rust_slice (isize_max debug32) (replicate 743 7) /\
  rust_slice (isize_max debug32) (replicate 744 7).
Proof. split; [by left|]. split; slice_tac. Qed.

(** ** C07: an accepted call returns the key of the Lyra2 description, with row
    numbers reduced by a bit mask and incomplete input words dropped; for a
    power-of-two number of rows and word-aligned inputs this is Lyra2 itself. *)
Theorem lyra2_computes_Lyra2_code p k pwd salt t R C :
  known_platform p -> rust_args (isize_max p) k pwd salt t R C ->
  accepted (isize_max p) k pwd salt t R C ->
  lyra2 p k pwd salt t R C = Ok (Lyra2_code choose_first k pwd salt t R C).
Proof. exact (lyra2_value p k pwd salt t R C). Qed.
Print Assumptions lyra2_computes_Lyra2_code.
Theorem lyra2_computes_Lyra2 p k pwd salt t e C :
  known_platform p -> 0 <= e -> rust_args (isize_max p) k pwd salt t (2 ^ e) C ->
  accepted (isize_max p) k pwd salt t (2 ^ e) C ->
  (8 | Z.of_nat (length pwd)) -> (8 | Z.of_nat (length salt)) ->
  lyra2 p k pwd salt t (2 ^ e) C = Ok (Lyra2_reference k pwd salt t (2 ^ e) C).
Proof. exact (lyra2_reference p k pwd salt t e C). Qed.
Print Assumptions lyra2_computes_Lyra2.
(** Without the two side conditions the key is not the one of Lyra2. *)
Theorem lyra2_computes_Lyra2_refuted_rows :
  exists k pwd salt t R C, rust_args (2 ^ 63 - 1) k pwd salt t R C /\
    accepted (2 ^ 63 - 1) k pwd salt t R C /\
    (8 | Z.of_nat (length pwd)) /\ (8 | Z.of_nat (length salt)) /\
    lyra2 release64 k pwd salt t R C <> Ok (Lyra2_reference k pwd salt t R C).
Proof. exact reference_refuted_rows. Qed.
Print Assumptions lyra2_computes_Lyra2_refuted_rows.
Theorem lyra2_computes_Lyra2_refuted_alignment :
  exists k pwd salt t C, rust_args (2 ^ 63 - 1) k pwd salt t (2 ^ 2) C /\
    accepted (2 ^ 63 - 1) k pwd salt t (2 ^ 2) C /\
    lyra2 release64 k pwd salt t (2 ^ 2) C <> Ok (Lyra2_reference k pwd salt t (2 ^ 2) C).
Proof. exact reference_refuted_alignment. Qed.
Print Assumptions lyra2_computes_Lyra2_refuted_alignment.
Example lyra2_computes_Lyra2_ex : rust_args (isize_max debug64) 32 (replicate 16 7) (replicate 8 9) 2 (2 ^ 3) 4 /\
  accepted (isize_max debug64) 32 (replicate 16 7) (replicate 8 9) 2 (2 ^ 3) 4.
Proof. split; [args_tac|accepted_tac]. Qed.

(** ** C20: build profiles. *)
Theorem lyra2_profiles_agree p p' k pwd salt t R C :
  known_platform p -> usize_bits p = usize_bits p' ->
  rust_args (isize_max p) k pwd salt t R C -> R < 2 ^ 63 ->
  lyra2 p k pwd salt t R C = lyra2 p' k pwd salt t R C /\
  lyra2mod p k pwd salt t R C = lyra2mod p' k pwd salt t R C.
Proof. exact (profiles_agree_both p p' k pwd salt t R C). Qed.
Print Assumptions lyra2_profiles_agree.
Theorem lyra2_profiles_agree_refuted :
  exists k pwd salt t R C out, rust_args (2 ^ 63 - 1) k pwd salt t R C /\
    lyra2 release64 k pwd salt t R C = Ok out /\ lyra2 debug64 k pwd salt t R C = Panic.
Proof. exact profiles_refuted. Qed.
Print Assumptions lyra2_profiles_agree_refuted.
Example lyra2_profiles_agree_ex : usize_bits debug32 = usize_bits release32 /\
  rust_args (isize_max debug32) (2 ^ 64 - 1) abc xyz 3 (2 ^ 63 - 1) (2 ^ 64 - 1).
Proof. split; [done|args_tac]. Qed.

(** ** C21: pointer widths. *)
Theorem lyra2_widths_agree p32 p64 k pwd salt t R C :
  usize_bits p32 = 32 -> usize_bits p64 = 64 ->
  rust_args (2 ^ 31 - 1) k pwd salt t R C -> accepted (2 ^ 31 - 1) k pwd salt t R C ->
  lyra2 p32 k pwd salt t R C = lyra2 p64 k pwd salt t R C /\
  lyra2mod p32 k pwd salt t R C = lyra2mod p64 k pwd salt t R C.
Proof. exact (widths_agree_both p32 p64 k pwd salt t R C). Qed.
Print Assumptions lyra2_widths_agree.
Theorem lyra2_returns_32_then_64 p32 p64 k pwd salt t R C out :
  usize_bits p32 = 32 -> usize_bits p64 = 64 ->
  rust_args (2 ^ 31 - 1) k pwd salt t R C -> R < 2 ^ 63 -> k < 2 ^ 63 ->
  lyra2 p32 k pwd salt t R C = Ok out -> lyra2 p64 k pwd salt t R C = Ok out.
Proof. exact (returns_32_then_64 p32 p64 k pwd salt t R C out). Qed.
Print Assumptions lyra2_returns_32_then_64.
Theorem lyra2_widths_agree_refuted :
  exists k pwd salt t R C out, rust_args (2 ^ 31 - 1) k pwd salt t R C /\ R < 2 ^ 63 /\
    lyra2 debug32 k pwd salt t R C = Ok out /\ out = replicate (length out) 0 /\ out <> [] /\
    lyra2 debug64 k pwd salt t R C = Panic.
Proof. exact widths_refuted. Qed.
Print Assumptions lyra2_widths_agree_refuted.
Example lyra2_widths_agree_ex : rust_args (2 ^ 31 - 1) 64 abc xyz 3 100 5 /\
  accepted (2 ^ 31 - 1) 64 abc xyz 3 100 5.
Proof. split; [args_tac|accepted_tac]. Qed.

(** ** C32: the variant of lyra2rev3. *)
Theorem lyra2mod_computes_rev3 p k pwd salt t R C :
  known_platform p -> rust_args (isize_max p) k pwd salt t R C ->
  accepted (isize_max p) k pwd salt t R C ->
  lyra2mod p k pwd salt t R C = Ok (Lyra2_code choose_rev3 k pwd salt t R C).
Proof. exact (lyra2mod_value p k pwd salt t R C). Qed.
Print Assumptions lyra2mod_computes_rev3.
Theorem lyra2mod_returns_or_panics k pwd salt t R C :
  rust_args (2 ^ 63 - 1) k pwd salt t R C ->
  accepted (2 ^ 63 - 1) k pwd salt t R C /\
    lyra2mod debug64 k pwd salt t R C = Ok (Lyra2_code choose_rev3 k pwd salt t R C) \/
  ~ accepted (2 ^ 63 - 1) k pwd salt t R C /\
    lyra2mod debug64 k pwd salt t R C = Panic.
Proof. exact (lyra2mod_dichotomy_debug64 k pwd salt t R C). Qed.
Print Assumptions lyra2mod_returns_or_panics.
Example lyra2mod_differs : lyra2mod debug64 32 abc abc 1 4 4 <> lyra2 debug64 32 abc abc 1 4 4.
Proof.
  intros H.
  assert (H' : lyra2mod_sum debug64 Tests.abc = lyra2_sum debug64 Tests.abc) by exact H.
  rewrite Tests.kat_lyra2_1 in H'. rewrite Tests.kat_lyra2mod_1 in H'. discriminate H'.
Qed.

(** ** C33: documented capacity: "combined length smaller than the matrix". *)
Theorem lyra2_documented_capacity_refuted :
  ~ (forall pwd salt R C, rust_args (2 ^ 63 - 1) 32 pwd salt 1 R C -> 3 <= R ->
       96 * R * C <= 2 ^ 63 - 1 ->
       Z.of_nat (length pwd) + Z.of_nat (length salt) < 96 * R * C ->
       exists out, lyra2 release64 32 pwd salt 1 R C = Ok out).
Proof. exact capacity_refuted. Qed.
Print Assumptions lyra2_documented_capacity_refuted.
(** What is supported: 112 bytes less always suffice, 48 bytes less are needed. *)
Theorem lyra2_capacity pwd salt R C :
  rust_args (2 ^ 63 - 1) 32 pwd salt 1 R C -> 3 <= R -> 96 * R * C <= 2 ^ 63 - 1 ->
  (Z.of_nat (length pwd) + Z.of_nat (length salt) + 112 <= 96 * R * C ->
     exists out, lyra2 debug64 32 pwd salt 1 R C = Ok out) /\
  (96 * R * C <= Z.of_nat (length pwd) + Z.of_nat (length salt) + 48 ->
     lyra2 debug64 32 pwd salt 1 R C = Panic).
Proof. exact (capacity pwd salt R C). Qed.
Print Assumptions lyra2_capacity.
Example lyra2_capacity_ex : rust_args (2 ^ 63 - 1) 32 (replicate 140 1) (replicate 140 2) 1 3 1 /\
  Z.of_nat (length (replicate 140 1)) + Z.of_nat (length (replicate 140 2)) < 96 * 3 * 1.
Proof. split; [args_tac|vm_compute; reflexivity]. Qed.
