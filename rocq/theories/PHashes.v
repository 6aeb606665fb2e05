(** * Properties C22 - C25: cubehash::sum and bmw::sum *)
From Verif Require Import Machine MUtils.
From Verif Require Import SpecWord SpecCube SpecBmw.
From Verif Require MCubeGen MCube MBmw.
From Verif Require Import CubeFacts BmwFacts HashFacts.
From Verif Require Tests.
#[local] Open Scope Z_scope.

(** ** C22 *)
(** The unrolled loop body is two rounds of the CubeHash definition, on every state
    ([cwords] lists the 32 fields of the record in order); sixteen_rounds is r = 16 rounds. *)
Theorem cubehash_two_rounds c : cube_state (cwords c) ->
  cwords (MCubeGen.two_rounds c) = cube_round (cube_round (cwords c)).
Proof. exact (two_rounds_spec c). Qed.
Print Assumptions cubehash_two_rounds.
Theorem cubehash_sixteen_rounds c : cube_state (cwords c) ->
  cwords (MCube.sixteen_rounds c) = cube_rounds cube_r (cwords c).
Proof. exact (sixteen_rounds_spec c). Qed.
Print Assumptions cubehash_sixteen_rounds.
(** The constants in the code are the derived initial state. *)
Theorem cubehash_initial_state : cwords MCube.new_cube_hash = cube_init /\ cube_state cube_init.
Proof. exact (conj cube_iv cube_init_state). Qed.
Print Assumptions cubehash_initial_state.
Theorem cubehash_conforms p m : known_platform p -> length m = 32%nat -> Forall byte m ->
  MCube.cubehash_sum p m = Ok (cubehash256 m).
Proof. exact (cube_sum_32 p m). Qed.
Print Assumptions cubehash_conforms.
Example cubehash_conforms_ex : known_platform debug64 /\ length (replicate 32 48) = 32%nat /\
  Forall byte (replicate 32 48) /\ cube_state (cwords MCube.new_cube_hash) /\
  cubehash256 (replicate 32 48) =
  [248; 57; 137; 144; 30; 179; 195; 102; 231; 215; 70; 159; 142; 168; 239; 6; 148; 4; 60; 212; 45; 235; 98;
   82; 8; 159; 243; 143; 183; 137; 47; 61].
Proof.
  assert (Hb : Forall byte (replicate 32 48)) by (apply Forall_replicate; unfold byte; lia).
  split; [right; reflexivity|]. split; [reflexivity|]. split; [exact Hb|].
  split; [rewrite cube_iv; apply cube_init_state|].
  pose proof (cubehash_conforms debug64 (replicate 32 48) (or_intror eq_refl) eq_refl Hb) as E.
  rewrite Tests.kat_cubehash_1 in E. symmetry. exact (Ok_inj _ _ E).
Qed.

(** ** C23 *)
Theorem cubehash_domain p m : known_platform p -> Forall byte m ->
  ((32 <= length m)%nat <-> exists out, MCube.cubehash_sum p m = Ok out /\ length out = 32%nat /\ Forall byte out) /\
  ((length m < 32)%nat <-> MCube.cubehash_sum p m = Panic).
Proof. exact (cube_sum_returns_iff p m). Qed.
Print Assumptions cubehash_domain.
Theorem cubehash_ignores_tail p m t : known_platform p -> Forall byte (m ++ t) -> (32 <= length m)%nat ->
  MCube.cubehash_sum p (m ++ t) = MCube.cubehash_sum p m.
Proof. exact (cube_sum_tail p m t). Qed.
Print Assumptions cubehash_ignores_tail.
(** What is returned for a longer message is the digest of its first 32 bytes ... *)
Theorem cubehash_value p m : known_platform p -> (32 <= length m)%nat -> Forall byte m ->
  MCube.cubehash_sum p m = Ok (cubehash256 (take 32 m)).
Proof. exact (cube_sum_value p m). Qed.
Print Assumptions cubehash_value.
(** ... which is not the CubeHash digest of the message. *)
Theorem cubehash_long_refuted : exists m, Forall byte m /\ (32 <= length m)%nat /\
  MCube.cubehash_sum debug64 m <> Ok (cubehash256 m).
Proof. exact cube_long_differs. Qed.
Print Assumptions cubehash_long_refuted.
Example cubehash_domain_ex : Forall byte (seqZ 0 40) /\ (32 <= length (seqZ 0 40))%nat /\
  Forall byte [97; 98; 99] /\ (length [97; 98; 99] < 32)%nat /\
  MCube.cubehash_sum debug64 [97; 98; 99] = Panic.
Proof.
  split; [apply (bool_decide_unpack (Forall (fun x => 0 <= x < 256) _)); vm_compute; exact I|].
  split; [simpl; lia|]. split; [repeat constructor; unfold byte; lia|]. split; [simpl; lia|]. reflexivity.
Qed.

(** ** C24 *)
(** The compression, for every chaining value and block, whatever the scratch array holds. *)
Theorem bmw_compress_conforms b m :
  Forall (word 32) (MBmw.b_h b) -> length (MBmw.b_h b) = 16%nat ->
  Forall (word 32) (MBmw.b_q b) -> length (MBmw.b_q b) = 32%nat ->
  Forall (word 32) m -> length m = 16%nat ->
  MBmw.b_h (MBmw.compress b m) = bmw_compress m (MBmw.b_h b).
Proof. exact (compress_value b m). Qed.
Print Assumptions bmw_compress_conforms.
Theorem bmw_conforms p m : known_platform p -> (length m <= 55)%nat -> Forall byte m ->
  MBmw.bmw_sum p m = Ok (bmw256 m).
Proof. exact (bmw_sum_short p m). Qed.
Print Assumptions bmw_conforms.
Example bmw_conforms_ex : (length [97; 98; 99] <= 55)%nat /\ Forall byte [97; 98; 99] /\
  bmw256 [97; 98; 99] =
  [87; 209; 31; 201; 75; 223; 152; 230; 160; 208; 191; 29; 77; 221; 163; 244; 32; 94; 135; 54; 102; 166; 68;
   181; 187; 88; 94; 23; 26; 216; 125; 52].
Proof. split; [simpl; lia|]. split; [repeat constructor; unfold byte; lia|]. vm_compute. reflexivity. Qed.
Example bmw_compress_ex : let b := MBmw.bmw_new in
  Forall (word 32) (MBmw.b_h b) /\ length (MBmw.b_h b) = 16%nat /\
  Forall (word 32) (MBmw.b_q b) /\ length (MBmw.b_q b) = 32%nat.
Proof. destruct bmw_new_ok as ([] & _). done. Qed.

(** ** C25 *)
Theorem bmw_domain p m : known_platform p -> Forall byte m ->
  ((length m < 64)%nat <-> exists out, MBmw.bmw_sum p m = Ok out /\ length out = 32%nat /\ Forall byte out) /\
  ((64 <= length m)%nat <-> MBmw.bmw_sum p m = Panic).
Proof. exact (bmw_sum_returns_iff p m). Qed.
Print Assumptions bmw_domain.
Theorem bmw_ignores_tail p m m' : known_platform p -> Forall byte m -> Forall byte m' ->
  length m = length m' -> take 56 m = take 56 m' -> MBmw.bmw_sum p m = MBmw.bmw_sum p m'.
Proof. exact (bmw_sum_prefix p m m'). Qed.
Print Assumptions bmw_ignores_tail.
(** The exact value between 56 and 63 bytes. *)
Theorem bmw_overwritten_value p m : known_platform p -> (56 <= length m < 64)%nat -> Forall byte m ->
  MBmw.bmw_sum p m = Ok (bmw_one_block (bmw_overwritten m)).
Proof. exact (bmw_sum_56 p m). Qed.
Print Assumptions bmw_overwritten_value.
(** Collisions there, and disagreement with BMW-256. *)
Theorem bmw_collision_refuted : exists m m', Forall byte m /\ Forall byte m' /\ m <> m' /\
  length m = 60%nat /\ length m' = 60%nat /\ MBmw.bmw_sum debug64 m = MBmw.bmw_sum debug64 m'.
Proof. exact bmw_collides. Qed.
Print Assumptions bmw_collision_refuted.
Theorem bmw_long_refuted : exists m, Forall byte m /\ length m = 56%nat /\
  MBmw.bmw_sum debug64 m <> Ok (bmw256 m).
Proof. exact bmw_56_differs. Qed.
Print Assumptions bmw_long_refuted.
Example bmw_domain_ex : (56 <= length (seqZ 0 60) < 64)%nat /\ Forall byte (seqZ 0 60) /\
  MBmw.bmw_sum debug64 (seqZ 0 64) = Panic /\
  take 56 (seqZ 0 60) = take 56 (seqZ 0 56 ++ replicate 4 0) /\ seqZ 0 60 <> seqZ 0 56 ++ replicate 4 0.
Proof.
  split; [simpl; lia|].
  split; [apply (bool_decide_unpack (Forall (fun x => 0 <= x < 256) _)); vm_compute; exact I|].
  split; [reflexivity|]. split; [reflexivity|]. vm_compute. discriminate.
Qed.
