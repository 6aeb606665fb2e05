(** * A collision of a chained hash is a collision of one of its stages *)
From Verif Require Import Machine.
From Verif Require MChains.
From Verif Require Import SpecWord SpecLyra2 SpecCube SpecBmw SpecChains SpecCollision.
From Verif Require Import HashFacts ChainFacts.
#[local] Open Scope Z_scope.

Definition run (fs : list (list Z -> list Z)) (x : list Z) : list Z := foldl (fun x f => f x) x fs.
Lemma run_collision fs x y : x <> y -> run fs x = run fs y <-> stage_collision fs x y.
Proof.
  revert x y. induction fs as [|f fs IH]; intros x y Hn; [split; [done|intros []]|].
  cbn [stage_collision]. change (run (f :: fs) x) with (run fs (f x)). change (run (f :: fs) y) with (run fs (f y)).
  destruct (decide (f x = f y)) as [E|E].
  - rewrite E. split; [by left; split|done].
  - rewrite IH by done. split; [by right|]. intros [[_ ?]|?]; done.
Qed.

Section chains.
Context (p p' : platform) (Hp : known_platform p) (Hp' : known_platform p').
Context (blake256 keccak256 skein256 groestl256 : list Z -> list Z).
Context (H1 : digest256 blake256) (H2 : digest256 keccak256) (H3 : digest256 skein256) (H4 : digest256 groestl256).
Context (m m' : list Z) (Hm : Forall byte m) (Hm' : Forall byte m') (Hn : m <> m').
Lemma sums_run (s s' : outcome (list Z)) fs : s = Ok (run fs m) -> s' = Ok (run fs m') ->
  s = s' <-> stage_collision fs m m'.
Proof.
  intros -> ->. rewrite <- run_collision by exact Hn. split; [apply Ok_inj|by intros ->].
Qed.
Lemma lyra2re_collisions :
  MChains.lyra2re_sum p blake256 keccak256 skein256 groestl256 m =
  MChains.lyra2re_sum p' blake256 keccak256 skein256 groestl256 m' <->
  stage_collision [blake256; keccak256; (fun d => Lyra2_reference 32 d d 1 8 8); skein256; groestl256] m m'.
Proof.
  apply sums_run.
  - rewrite (proj1 (lyra2re_value p Hp _ _ _ _ H1 H2 H3 H4 m Hm)). unfold Lyra2RE, run. cbn [foldl]. reflexivity.
  - rewrite (proj1 (lyra2re_value p' Hp' _ _ _ _ H1 H2 H3 H4 m' Hm')). unfold Lyra2RE, run. cbn [foldl]. reflexivity.
Qed.
Lemma lyra2rev2_collisions :
  MChains.lyra2rev2_sum p blake256 keccak256 skein256 m = MChains.lyra2rev2_sum p' blake256 keccak256 skein256 m' <->
  stage_collision [blake256; keccak256; cubehash256; (fun d => Lyra2_reference 32 d d 1 4 4); skein256;
    cubehash256; bmw256] m m'.
Proof.
  apply sums_run.
  - rewrite (proj1 (lyra2rev2_value p Hp _ _ _ H1 H2 H3 m Hm)). unfold Lyra2REv2, run. cbn [foldl]. reflexivity.
  - rewrite (proj1 (lyra2rev2_value p' Hp' _ _ _ H1 H2 H3 m' Hm')). unfold Lyra2REv2, run. cbn [foldl]. reflexivity.
Qed.
Lemma lyra2rev3_collisions :
  MChains.lyra2rev3_sum p blake256 m = MChains.lyra2rev3_sum p' blake256 m' <->
  stage_collision [blake256; (fun d => Lyra2_rev3 32 d d 1 4 4); cubehash256;
    (fun d => Lyra2_rev3 32 d d 1 4 4); bmw256] m m'.
Proof.
  apply sums_run.
  - rewrite (proj1 (lyra2rev3_value p Hp _ H1 m Hm)). unfold Lyra2REv3, run. cbn [foldl]. reflexivity.
  - rewrite (proj1 (lyra2rev3_value p' Hp' _ H1 m' Hm')). unfold Lyra2REv3, run. cbn [foldl]. reflexivity.
Qed.
Lemma lyra2z_collisions :
  MChains.lyra2z_sum p blake256 m = MChains.lyra2z_sum p' blake256 m' <->
  stage_collision [blake256; (fun d => Lyra2_reference 32 d d 8 8 8)] m m'.
Proof.
  apply sums_run.
  - rewrite (proj1 (lyra2z_value p Hp _ H1 m Hm)). unfold Lyra2Z, run. cbn [foldl]. reflexivity.
  - rewrite (proj1 (lyra2z_value p' Hp' _ H1 m' Hm')). unfold Lyra2Z, run. cbn [foldl]. reflexivity.
Qed.
End chains.
