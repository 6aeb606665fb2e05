(** * The accesses among the observations are those of the translation with a log of accesses *)
From Verif Require Import Machine MachineFacts SrcOps SrcFacts SrcTop Kept KeptFacts SrcLogTop PSrcLogLemmas Seen SpecSeen SeenFacts SeenLyra2.
From Verif Require SrcUtils SrcLyra2 SrcLyra2mod SrcLyra2Log SrcLyra2modLog SrcLyra2Seen SrcLyra2modSeen.
#[local] Open Scope Z_scope.

Lemma strip_if_quiet {A} (b : bool) (x y : seen A) (x' y' : outcome A) :
  strip x = kquiet x' -> strip y = kquiet y' -> strip (sif b x y) = kquiet (if b then x' else y').
Proof. intros Hx Hy. rewrite strip_if. by destruct b. Qed.
Lemma strip_quiet_bind {A B} (x : seen A) (f : A -> seen B) x' f' :
  strip x = kquiet x' -> (forall a, strip (f a) = kquiet (f' a)) -> strip (sbind x f) = kquiet (obind x' f').
Proof. intros Hx Hf. rewrite strip_bind, Hx. destruct x' as [a| |]; [|done..]. rewrite kquiet_Ok. apply Hf. Qed.
Lemma strip_step {A B} (x : seen A) (f : A -> seen B) y g :
  strip x = y -> (forall a, strip (f a) = g a) -> strip (sbind x f) = kbind y g.
Proof. intros <- H. rewrite strip_bind. by apply kbind_ext. Qed.
Ltac pstep := cbv beta; lazymatch goal with
  | |- strip (sbind ?x ?f) = kbind ?y ?g =>
      refine (strip_step x f y g _ _);
        [ lazymatch goal with
          | |- strip (slift _) = _ => apply strip_lift
          | |- strip (sfor _ _ _ _) = _ => idtac
          | |- strip (sloop _ _) = _ => idtac
          | |- strip (sif _ _ _) = _ => idtac
          | |- _ => reflexivity
          end
        | first [ intros ? | idtac ]; cbv beta;
          repeat match goal with |- strip (match ?x with (_, _) => _ end) = _ => destruct x end ]
  end.
Lemma strip_squeeze_body1 p k j s : strip (SrcLyra2Seen.squeeze_body1_seen p k j s) = SrcLyra2Log.squeeze_body1_log p k j s.
Proof.
  destruct s as [[s t] o]. unfold SrcLyra2Seen.squeeze_body1_seen, SrcLyra2Log.squeeze_body1_log. pstep.
  { rewrite <- (kfor_quiet _ _ (fun i t => kquiet (SrcLyra2.squeeze_body2 p s i t))) by done. apply strip_for. intros i a.
    unfold SrcLyra2Seen.squeeze_body2_seen, SrcLyra2.squeeze_body2. cbv zeta.
    apply strip_quiet_bind; [done|]. intros x. apply strip_quiet_bind; [done|]. done. }
  repeat pstep. reflexivity.
Qed.
Lemma strip_squeeze p s k : strip (SrcLyra2Seen.squeeze_seen p s k) = SrcLyra2Log.squeeze_log p s k.
Proof.
  unfold SrcLyra2Seen.squeeze_seen, SrcLyra2Log.squeeze_log. do 4 pstep. pstep; [|reflexivity].
  apply strip_for. apply strip_squeeze_body1.
Qed.
Lemma strip_body1 p d q j m : strip (SrcLyra2Seen.lyra2_body1_seen p d q j m) = SrcLyra2Log.lyra2_body1_log p d q j m.
Proof. unfold SrcLyra2Seen.lyra2_body1_seen, SrcLyra2Log.lyra2_body1_log. cbv zeta. repeat pstep. reflexivity. Qed.
Lemma strip_body2 p d q j m : strip (SrcLyra2Seen.lyra2_body2_seen p d q j m) = SrcLyra2Log.lyra2_body2_log p d q j m.
Proof. unfold SrcLyra2Seen.lyra2_body2_seen, SrcLyra2Log.lyra2_body2_log. cbv zeta. repeat pstep. reflexivity. Qed.
Lemma strip_body3 p m i s : strip (SrcLyra2Seen.lyra2_body3_seen p m i s) = SrcLyra2Log.lyra2_body3_log p m i s.
Proof. destruct s. unfold SrcLyra2Seen.lyra2_body3_seen, SrcLyra2Log.lyra2_body3_log. cbv zeta. repeat pstep. reflexivity. Qed.
Lemma strip_body6 p C rl x s : strip (SrcLyra2Seen.lyra2_body6_seen p C rl x s) = SrcLyra2Log.lyra2_body6_log p C rl x s.
Proof.
  destruct s as [[[[[[[row prev] rowa] step] window] gap] m] s].
  unfold SrcLyra2Seen.lyra2_body6_seen, SrcLyra2Log.lyra2_body6_log. cbv zeta. pstep.
  { apply strip_for. intros. apply strip_lift. }
  do 5 pstep. pstep; [|reflexivity].
  apply strip_if_quiet; [|reflexivity]. repeat (apply strip_quiet_bind; [reflexivity|intros ?]). reflexivity.
Qed.
Lemma strip_body9 p R C st rl s : strip (SrcLyra2Seen.lyra2_body9_seen p R C st rl s) = SrcLyra2Log.lyra2_body9_log p R C st rl s.
Proof.
  destruct s as [[[[row prev] rowa] m] s].
  unfold SrcLyra2Seen.lyra2_body9_seen, SrcLyra2Log.lyra2_body9_log. cbv zeta. do 2 pstep. pstep.
  { apply strip_for. intros. apply strip_lift. }
  do 4 pstep. rewrite strip_if. match goal with |- context [?a =? 0] => by destruct (a =? 0) end.
Qed.
Lemma strip_body8 p R C rl tau s : strip (SrcLyra2Seen.lyra2_body8_seen p R C rl tau s) = SrcLyra2Log.lyra2_body8_log p R C rl tau s.
Proof.
  destruct s as [[[[[row prev] rowa] step] m] s].
  unfold SrcLyra2Seen.lyra2_body8_seen, SrcLyra2Log.lyra2_body8_log. cbv zeta. pstep. pstep.
  { apply strip_if_quiet; reflexivity. }
  pstep; [|reflexivity]. apply strip_loop. apply strip_body9.
Qed.
#[local] Opaque SrcLyra2Seen.squeeze_seen SrcLyra2Seen.lyra2_body1_seen SrcLyra2Seen.lyra2_body2_seen SrcLyra2Seen.lyra2_body3_seen
  SrcLyra2Log.lyra2_body4_log SrcLyra2Log.lyra2_body5_log SrcLyra2Seen.lyra2_body6_seen SrcLyra2Seen.lyra2_body8_seen
  SrcLyra2Log.squeeze_log SrcLyra2Log.lyra2_body1_log SrcLyra2Log.lyra2_body2_log SrcLyra2Log.lyra2_body3_log
  SrcLyra2Log.lyra2_body6_log SrcLyra2Log.lyra2_body8_log.
Lemma strip_lyra2 p k pwd salt t R C : strip (SrcLyra2Seen.lyra2_seen p k pwd salt t R C) = SrcLyra2Log.lyra2_log p k pwd salt t R C.
Proof.
  unfold SrcLyra2Seen.lyra2_seen, SrcLyra2Log.lyra2_log. pstep. { apply strip_if_quiet; reflexivity. }
  pstep. { apply strip_if_quiet; reflexivity. }
  do 16 pstep. pstep. { apply strip_for. intros. apply strip_body1. }
  pstep. pstep. { apply strip_for. intros. apply strip_body2. }
  do 21 pstep. pstep. { apply strip_for. intros. apply strip_body3. }
  do 2 pstep. pstep. { apply strip_for. intros. apply strip_lift. }
  pstep. { apply strip_for. intros. apply strip_lift. }
  pstep. pstep. { apply strip_for. intros. apply strip_body6. }
  pstep. pstep. { apply strip_for. intros. apply strip_body8. }
  do 2 pstep. cbv zeta. pstep. apply strip_squeeze.
Qed.

(** ** lyra2mod/mod.rs *)
Lemma strip_mod_body9 p R C st rl s :
  strip (SrcLyra2modSeen.lyra2mod_body9_seen p R C st rl s) = SrcLyra2modLog.lyra2mod_body9_log p R C st rl s.
Proof.
  destruct s as [[[[[row prev] rowa] m] s] ix].
  unfold SrcLyra2modSeen.lyra2mod_body9_seen, SrcLyra2modLog.lyra2mod_body9_log. cbv zeta. do 4 pstep. pstep.
  { apply strip_for. intros. apply strip_lift. }
  do 4 pstep. rewrite strip_if. match goal with |- context [?a =? 0] => by destruct (a =? 0) end.
Qed.
Lemma strip_mod_body8 p R C rl tau s :
  strip (SrcLyra2modSeen.lyra2mod_body8_seen p R C rl tau s) = SrcLyra2modLog.lyra2mod_body8_log p R C rl tau s.
Proof.
  destruct s as [[[[[[row prev] rowa] step] m] s] ix].
  unfold SrcLyra2modSeen.lyra2mod_body8_seen, SrcLyra2modLog.lyra2mod_body8_log. cbv zeta. pstep. pstep.
  { apply strip_if_quiet; reflexivity. }
  pstep; [|reflexivity]. apply strip_loop. apply strip_mod_body9.
Qed.
#[local] Opaque SrcLyra2modSeen.squeeze_seen SrcLyra2modSeen.lyra2mod_body1_seen SrcLyra2modSeen.lyra2mod_body2_seen SrcLyra2modSeen.lyra2mod_body3_seen
  SrcLyra2modLog.lyra2mod_body4_log SrcLyra2modLog.lyra2mod_body5_log SrcLyra2modSeen.lyra2mod_body6_seen SrcLyra2modSeen.lyra2mod_body8_seen
  SrcLyra2modLog.squeeze_log SrcLyra2modLog.lyra2mod_body1_log SrcLyra2modLog.lyra2mod_body2_log SrcLyra2modLog.lyra2mod_body3_log
  SrcLyra2modLog.lyra2mod_body6_log SrcLyra2modLog.lyra2mod_body8_log.
Lemma strip_lyra2mod p k pwd salt t R C :
  strip (SrcLyra2modSeen.lyra2mod_seen p k pwd salt t R C) = SrcLyra2modLog.lyra2mod_log p k pwd salt t R C.
Proof.
  unfold SrcLyra2modSeen.lyra2mod_seen, SrcLyra2modLog.lyra2mod_log.
  rewrite mods_body1, mods_body2, mods_body3, mods_body6, mods_squeeze, modl_body1, modl_body2, modl_body3, modl_body6, modl_squeeze.
  pstep. { apply strip_if_quiet; reflexivity. }
  pstep. { apply strip_if_quiet; reflexivity. }
  do 16 pstep. pstep. { apply strip_for. intros. apply strip_body1. }
  pstep. pstep. { apply strip_for. intros. apply strip_body2. }
  do 21 pstep. pstep. { apply strip_for. intros. apply strip_body3. }
  do 2 pstep. pstep. { apply strip_for. intros. apply strip_lift. }
  pstep. { apply strip_for. intros. apply strip_lift. }
  pstep. pstep. { apply strip_for. intros. apply strip_body6. }
  do 2 pstep. pstep. { apply strip_for. intros. apply strip_mod_body8. }
  do 2 pstep. cbv zeta. pstep. apply strip_squeeze.
Qed.
Lemma seen_erase p k pwd salt t R C : known_platform p ->
  (SrcLyra2Seen.lyra2_seen p k pwd salt t R C).1 = SrcLyra2.lyra2 p k pwd salt t R C /\
  (SrcLyra2modSeen.lyra2mod_seen p k pwd salt t R C).1 = SrcLyra2mod.lyra2mod p k pwd salt t R C.
Proof.
  intros Hp. destruct (log_erase p k pwd salt t R C Hp) as [H1 H2].
  rewrite <- H1, <- H2, <- strip_lyra2, <- strip_lyra2mod. done.
Qed.
