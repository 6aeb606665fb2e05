(** * With overflow checks a call that returns has fewer than 2^63 rows

    The property files state their theorems for [R < 2^63 \/ overflow_checks p = true]; here
    the second case is reduced to the first. *)
From Verif Require Import Machine MLyra2 MTrace MAccess MHeap TraceFacts AccessFacts HeapFacts BigRows ReleaseRows.
From Verif Require Import SpecWord SpecCalls.
#[local] Open Scope Z_scope.

Section rows.
Context (p : platform) (k : Z) (pwd salt : list Z) (t R C : Z).
Context (Hp : known_platform p) (Ha : rust_args (isize_max p) k pwd salt t R C).
Context (HR : R < 2 ^ 63 \/ overflow_checks p = true).

Lemma rows_ret out : lyra2 p k pwd salt t R C = Ok out \/ lyra2mod p k pwd salt t R C = Ok out -> R < 2 ^ 63.
Proof.
  intros E. destruct (Z.lt_ge_cases R (2 ^ 63)) as [H|H]; [exact H|]. destruct HR as [H'|Hc]; [exact H'|].
  destruct (big_rows_panic_2 p k pwd salt t R C Hp Hc Ha H) as [E1 E2]. rewrite E1, E2 in E.
  destruct E as [E|E]; discriminate E.
Qed.
Lemma rows_erased {L} (x y : outcome (list Z * L)) out log :
  (x <-- x ;; Ok (fst x)) = lyra2 p k pwd salt t R C -> (y <-- y ;; Ok (fst y)) = lyra2mod p k pwd salt t R C ->
  x = Ok (out, log) \/ y = Ok (out, log) -> R < 2 ^ 63.
Proof.
  intros Hx Hy [-> | ->]; apply (rows_ret out); [left; rewrite <- Hx|right; rewrite <- Hy]; reflexivity.
Qed.
Lemma rows_acc out log : lyra2_acc p k pwd salt t R C = Ok (out, log) \/ lyra2mod_acc p k pwd salt t R C = Ok (out, log) -> R < 2 ^ 63.
Proof.
  exact (rows_erased _ _ out log (lyra2_with_acc_erase p sel_lyra2 k pwd salt t R C)
           (lyra2_with_acc_erase p (sel_lyra2mod p) k pwd salt t R C)).
Qed.
Lemma rows_tr out log : lyra2_tr p k pwd salt t R C = Ok (out, log) \/ lyra2mod_tr p k pwd salt t R C = Ok (out, log) -> R < 2 ^ 63.
Proof.
  exact (rows_erased _ _ out log (lyra2_with_tr_erase p sel_lyra2 k pwd salt t R C)
           (lyra2_with_tr_erase p (sel_lyra2mod p) k pwd salt t R C)).
Qed.
Lemma rows_heap out log : lyra2_heap p k pwd salt t R C = Ok (out, log) \/ lyra2mod_heap p k pwd salt t R C = Ok (out, log) -> R < 2 ^ 63.
Proof.
  exact (rows_erased _ _ out log (heap_erase p sel_lyra2 k pwd salt t R C)
           (heap_erase p (sel_lyra2mod p) k pwd salt t R C)).
Qed.
End rows.

(** A power of two of rows is below 2^63 whenever the call returns: 2^63 itself is 0 rows where it is not refused. *)
Section pow2.
Context (p : platform) (k : Z) (pwd salt : list Z) (t e C : Z).
Context (Hp : known_platform p) (He : 0 <= e) (Ha : rust_args (isize_max p) k pwd salt t (2 ^ e) C).

Lemma pow2_ret out : lyra2 p k pwd salt t (2 ^ e) C = Ok out \/ lyra2mod p k pwd salt t (2 ^ e) C = Ok out -> 2 ^ e < 2 ^ 63.
Proof.
  intros E. destruct (Z.lt_ge_cases (2 ^ e) (2 ^ 63)) as [H|H]; [exact H|].
  destruct (overflow_checks p) eqn:Hc; [exact (rows_ret p k pwd salt t (2 ^ e) C Hp Ha (or_intror Hc) out E)|].
  assert (e = 63) as ->.
  { destruct Ha as (_ & _ & HRw & _). unfold word in HRw.
    assert (e < 64) by (apply (Z.pow_lt_mono_r_iff 2); lia).
    assert (63 <= e) by (apply (Z.pow_le_mono_r_iff 2); lia). lia. }
  assert (Hz : 2 ^ 63 mod 2 ^ (usize_bits p - 2) = 0) by (destruct Hp as [-> | ->]; reflexivity).
  assert (Hf : 12 * (2 ^ 63 mod 2 ^ (usize_bits p - 2)) * C < 2 ^ usize_bits p).
  { rewrite Hz. rewrite Z.mul_0_r, Z.mul_0_l. destruct Hp as [-> | ->]; reflexivity. }
  destruct E as [E|E]; pose proof (unchecked_fits p Hp Hc _ k pwd salt t (2 ^ 63) C out Ha H Hf E) as (_ & H2 & _);
    rewrite Hz in H2; lia.
Qed.
Lemma pow2_erased {L} (x y : outcome (list Z * L)) out log :
  (x <-- x ;; Ok (fst x)) = lyra2 p k pwd salt t (2 ^ e) C -> (y <-- y ;; Ok (fst y)) = lyra2mod p k pwd salt t (2 ^ e) C ->
  x = Ok (out, log) \/ y = Ok (out, log) -> 2 ^ e < 2 ^ 63.
Proof.
  intros Hx Hy [-> | ->]; apply (pow2_ret out); [left; rewrite <- Hx|right; rewrite <- Hy]; reflexivity.
Qed.
Lemma pow2_acc out log : lyra2_acc p k pwd salt t (2 ^ e) C = Ok (out, log) \/ lyra2mod_acc p k pwd salt t (2 ^ e) C = Ok (out, log) ->
  2 ^ e < 2 ^ 63.
Proof.
  exact (pow2_erased _ _ out log (lyra2_with_acc_erase p sel_lyra2 k pwd salt t (2 ^ e) C)
           (lyra2_with_acc_erase p (sel_lyra2mod p) k pwd salt t (2 ^ e) C)).
Qed.
Lemma pow2_tr out log : lyra2_tr p k pwd salt t (2 ^ e) C = Ok (out, log) \/ lyra2mod_tr p k pwd salt t (2 ^ e) C = Ok (out, log) ->
  2 ^ e < 2 ^ 63.
Proof.
  exact (pow2_erased _ _ out log (lyra2_with_tr_erase p sel_lyra2 k pwd salt t (2 ^ e) C)
           (lyra2_with_tr_erase p (sel_lyra2mod p) k pwd salt t (2 ^ e) C)).
Qed.
End pow2.
