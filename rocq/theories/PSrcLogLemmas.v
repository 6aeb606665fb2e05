(** * Proofs for PSrcLog.v *)
From Verif Require Import Machine MAccess AccessFacts Kept MKept KeptFacts SrcTop SrcLogTop.
From Verif Require MLyra2 SrcLyra2 SrcLyra2mod SrcLyra2Log SrcLyra2modLog.
#[local] Open Scope Z_scope.

Lemma log_both p k pwd salt t R C : known_platform p ->
  SrcLyra2Log.lyra2_log p k pwd salt t R C = lyra2_kept p k pwd salt t R C /\
  SrcLyra2modLog.lyra2mod_log p k pwd salt t R C = lyra2mod_kept p k pwd salt t R C.
Proof. intros Hp. split; [by apply log_lyra2 | by apply log_lyra2mod]. Qed.
Lemma log_erase p k pwd salt t R C : known_platform p ->
  (SrcLyra2Log.lyra2_log p k pwd salt t R C).1 = SrcLyra2.lyra2 p k pwd salt t R C /\
  (SrcLyra2modLog.lyra2mod_log p k pwd salt t R C).1 = SrcLyra2mod.lyra2mod p k pwd salt t R C.
Proof.
  intros Hp. rewrite log_lyra2, log_lyra2mod, src_lyra2, src_lyra2mod by done. split.
  - exact (fst_lyra2_with p MLyra2.sel_lyra2 k pwd salt t R C).
  - exact (fst_lyra2_with p (MLyra2.sel_lyra2mod p) k pwd salt t R C).
Qed.
Lemma kept_acc p sel k pwd salt t R C out log :
  lyra2_with_kept p sel k pwd salt t R C = (Ok out, log) <-> lyra2_with_acc p sel k pwd salt t R C = Ok (out, log).
Proof.
  rewrite <- proj_lyra2_with. split; [|apply proj_Ok].
  intros E. unfold proj. by rewrite E.
Qed.
Lemma log_iff p k pwd salt t R C out log : known_platform p ->
  (SrcLyra2Log.lyra2_log p k pwd salt t R C = (Ok out, log) <-> lyra2_acc p k pwd salt t R C = Ok (out, log)) /\
  (SrcLyra2modLog.lyra2mod_log p k pwd salt t R C = (Ok out, log) <-> lyra2mod_acc p k pwd salt t R C = Ok (out, log)).
Proof.
  intros Hp. rewrite log_lyra2, log_lyra2mod by done. split.
  - exact (kept_acc p MLyra2.sel_lyra2 k pwd salt t R C out log).
  - exact (kept_acc p (MLyra2.sel_lyra2mod p) k pwd salt t R C out log).
Qed.
Lemma log_or p k pwd salt t R C out log : known_platform p ->
  SrcLyra2Log.lyra2_log p k pwd salt t R C = (Ok out, log) \/ SrcLyra2modLog.lyra2mod_log p k pwd salt t R C = (Ok out, log) ->
  lyra2_acc p k pwd salt t R C = Ok (out, log) \/ lyra2mod_acc p k pwd salt t R C = Ok (out, log).
Proof. intros Hp. destruct (log_iff p k pwd salt t R C out log Hp) as [H1 H2]. by rewrite H1, H2. Qed.
