(** * The first half of the quadruple pipe of BMW determines the message block *)
From Verif Require Import WordFacts BmwFacts.
From Verif Require Import SpecWord SpecBmw SpecPhases.
#[local] Open Scope Z_scope.

(** ** Functions on words that respect exclusive or *)
Definition additive (f : Z -> Z) : Prop :=
  forall x y, word 32 x -> word 32 y -> f (Z.lxor x y) = Z.lxor (f x) (f y).
Lemma low_bit_split n x : 0 <= n -> 0 <= x < 2 ^ (n + 1) ->
  x = Z.lxor (if Z.testbit x n then 2 ^ n else 0) (x mod 2 ^ n).
Proof.
  intros Hn Hx. apply Z.bits_inj'. intros m Hm. rewrite Z.lxor_spec.
  destruct (Z.lt_trichotomy m n) as [H|[-> |H]].
  - rewrite Z.mod_pow2_bits_low by lia. destruct (Z.testbit x n).
    + rewrite Z.pow2_bits_false by lia. by rewrite xorb_false_l.
    + rewrite Z.bits_0. by rewrite xorb_false_l.
  - rewrite Z.mod_pow2_bits_high by lia. rewrite xorb_false_r.
    destruct (Z.testbit x n) eqn:E; [rewrite Z.pow2_bits_true by lia; done|rewrite Z.bits_0; done].
  - rewrite (Z.mod_pow2_bits_high x n m) by lia. rewrite xorb_false_r.
    assert (Z.testbit x m = false) as ->.
    { destruct (Z.eq_dec x 0) as [-> |]; [apply Z.bits_0|]. apply Z.bits_above_log2; [lia|].
      apply Z.log2_lt_pow2; [lia|]. apply Z.lt_le_trans with (2 ^ (n + 1)); [lia|]. apply Z.pow_le_mono_r; lia. }
    destruct (Z.testbit x n); [by rewrite Z.pow2_bits_false by lia|by rewrite Z.bits_0].
Qed.
Lemma additive_zero f : additive f -> f 0 = 0.
Proof. intros H. specialize (H 0 0 ltac:(unfold word; lia) ltac:(unfold word; lia)). by rewrite !Z.lxor_nilpotent in H. Qed.
Lemma additive_ext f g n : (n <= 32)%nat -> additive f -> additive g -> (forall j, (j < n)%nat -> f (2 ^ Z.of_nat j) = g (2 ^ Z.of_nat j)) ->
  forall x, 0 <= x < 2 ^ Z.of_nat n -> f x = g x.
Proof.
  intros Hn32 Hf Hg. induction n as [|n IH]; intros Hj x Hx.
  - assert (x = 0) as -> by (cbn in Hx; lia). by rewrite !additive_zero.
  - rewrite Nat2Z.inj_succ, <- Z.add_1_r in Hx.
    rewrite (low_bit_split (Z.of_nat n) x) by lia.
    assert (0 < 2 ^ Z.of_nat n) by (apply Z.pow_pos_nonneg; lia).
    pose proof (Z.mod_pos_bound x (2 ^ Z.of_nat n) ltac:(lia)) as Hm.
    assert (Hle : 2 ^ Z.of_nat n < 2 ^ 32) by (apply Z.pow_lt_mono_r; lia).
    rewrite Hf, Hg by (unfold word; try (destruct (Z.testbit x (Z.of_nat n))); lia).
    f_equal.
    + destruct (Z.testbit x (Z.of_nat n)); [apply Hj; lia|by rewrite !additive_zero].
    + apply IH; [lia|intros; apply Hj; lia|exact Hm].
Qed.
Lemma additive_lxor f g : additive f -> additive g -> additive (fun x => Z.lxor (f x) (g x)).
Proof.
  intros Hf Hg x y Hx Hy. rewrite (Hf x y Hx Hy), (Hg x y Hx Hy).
  apply Z.bits_inj'. intros m _. rewrite !Z.lxor_spec.
  by destruct (Z.testbit (f x) m), (Z.testbit (f y) m), (Z.testbit (g x) m), (Z.testbit (g y) m).
Qed.
Lemma additive_shrw n : 0 <= n -> additive (shrw n).
Proof. intros Hn x y _ _. unfold shrw. rewrite <- !Z.shiftr_div_pow2 by done. apply Z.shiftr_lxor. Qed.
Lemma additive_shlw n : 0 <= n -> additive (shlw 32 n).
Proof.
  intros Hn x y _ _. unfold shlw. rewrite <- !Z.shiftl_mul_pow2, <- !Z.land_ones by lia.
  rewrite Z.shiftl_lxor. apply Z.bits_inj'. intros m _.
  rewrite Z.lxor_spec, !Z.land_spec, Z.lxor_spec.
  by destruct (Z.testbit (Z.ones 32) m), (Z.testbit (Z.shiftl x n) m), (Z.testbit (Z.shiftl y n) m).
Qed.
Lemma add_low_lxor a b n : 0 <= n -> 0 <= b < 2 ^ n -> a * 2 ^ n + b = Z.lxor (a * 2 ^ n) b.
Proof.
  intros Hn Hb. apply Z.add_nocarry_lxor. apply Z.bits_inj'. intros m Hm. rewrite Z.land_spec, Z.bits_0.
  destruct (Z.lt_ge_cases m n).
  - rewrite Z.mul_pow2_bits_low by lia. done.
  - rewrite <- (Z.mod_small b (2 ^ n)) by lia. rewrite Z.mod_pow2_bits_high by lia. apply andb_false_r.
Qed.
Lemma additive_rol n : 0 < n < 32 -> additive (rol 32 n).
Proof.
  intros Hn x y Hx Hy.
  assert (E : forall z, word 32 z -> rol 32 n z = Z.lxor (shlw 32 n z) (shrw (32 - n) z)).
  { intros z [Hz1 Hz2]. unfold rol, shlw, shrw.
    assert (Hp : 0 < 2 ^ n) by (apply Z.pow_pos_nonneg; lia).
    assert (Hq : 0 < 2 ^ (32 - n)) by (apply Z.pow_pos_nonneg; lia).
    assert (Hpq : 2 ^ 32 = 2 ^ (32 - n) * 2 ^ n) by (rewrite <- Z.pow_add_r by lia; f_equal; lia).
    assert ((z * 2 ^ n) mod 2 ^ 32 = z mod 2 ^ (32 - n) * 2 ^ n) as ->.
    { rewrite Hpq. by rewrite Z.mul_mod_distr_r by lia. }
    apply add_low_lxor; [lia|]. split; [apply Z.div_pos; lia|]. apply Z.div_lt_upper_bound; [lia|]. lia. }
  rewrite !E by (try apply word_lxor; lia || done).
  exact (additive_lxor _ _ (additive_shlw n ltac:(lia)) (additive_shrw (32 - n) ltac:(lia)) x y Hx Hy).
Qed.
Lemma additive_id : additive (fun x => x).
Proof. done. Qed.
Lemma additive_0 : additive (fun _ => 0).
Proof. done. Qed.

(** A linear map given by the images of the bits. *)
Fixpoint by_columns (cols : list Z) (y : Z) : Z :=
  match cols with
  | [] => 0
  | c :: cols => Z.lxor (if Z.odd y then c else 0) (by_columns cols (Z.div2 y))
  end.
Lemma additive_columns cols : additive (by_columns cols).
Proof.
  induction cols as [|c cols IH]; intros x y Hx Hy; [done|]. cbn [by_columns].
  assert (Ho : Z.odd (Z.lxor x y) = xorb (Z.odd x) (Z.odd y)).
  { rewrite <- !Z.bit0_odd. apply Z.lxor_spec. }
  assert (Hd : Z.div2 (Z.lxor x y) = Z.lxor (Z.div2 x) (Z.div2 y)).
  { rewrite !Z.div2_spec. apply Z.shiftr_lxor. }
  assert (Hw : forall z, word 32 z -> word 32 (Z.div2 z)).
  { intros z [Hz1 Hz2]. unfold word. rewrite Z.div2_div. split; [apply Z.div_pos; lia|].
    apply Z.le_lt_trans with z; [apply Z.div_le_upper_bound; lia|exact Hz2]. }
  rewrite Ho, Hd, IH by (by apply Hw).
  set (a := by_columns cols (Z.div2 x)). set (b := by_columns cols (Z.div2 y)).
  apply Z.bits_inj'. intros m _. destruct (Z.odd x), (Z.odd y); cbn [xorb]; rewrite !Z.lxor_spec, ?Z.bits_0;
    by destruct (Z.testbit c m), (Z.testbit a m), (Z.testbit b m).
Qed.
Lemma by_columns_word n cols y : 0 <= n -> Forall (word n) cols -> word n (by_columns cols y).
Proof.
  intros Hn. revert y. induction cols as [|c cols IH]; intros y H; cbn [by_columns].
  - unfold word. pose proof (Z.pow_pos_nonneg 2 n ltac:(lia) Hn). lia.
  - apply Forall_cons_1 in H as [Hc H]. apply word_lxor; [lia| |by apply IH].
    destruct (Z.odd y); [exact Hc|]. unfold word. pose proof (Z.pow_pos_nonneg 2 n ltac:(lia) Hn). lia.
Qed.

(** ** The functions s_0 .. s_4 permute the words *)
Definition s_inv_columns : list (list Z) :=
  [[67177539; 201528517; 470230473; 940460946; 1948097383; 3896194766; 58909887; 50644285; 34113081; 1048625; 69274657; 205722625; 478618689; 957237378; 1981652295; 3963304590; 193133631; 319091773; 638183546; 1276367092; 2552734184; 3887777456; 478217283; 956434566; 1980046671; 3960093342; 199293983; 331412605; 662825210; 1325650420; 2651300840; 3959079600];
   [3238493895; 2863311530; 2112946800; 988117543; 1976235086; 714249819; 1428499638; 2856999276; 2083579388; 963032383; 1926064766; 614312507; 1228625014; 2457250028; 3444471867; 2990057298; 1289034112; 2578068224; 3673640931; 2638924002; 3543578663; 2395547498; 4096878391; 29484941; 3263476189; 2913809566; 1946041880; 653984503; 1307969006; 2615938012; 3732618843; 2488413074];
   [1694474389; 2902516159; 3333150464; 301841022; 1191498857; 3941992519; 767140965; 1534281930; 3068563860; 2509805507; 3080403960; 2539897627; 2993525320; 2626588795; 2780247176; 3007045115; 4208832392; 1762741102; 3525482204; 955201990; 354538265; 709076530; 813231345; 1626462690; 3252925380; 527266806; 1512392569; 3501534823; 1497360421; 3598741727; 1431655765; 3461679679];
   [3789473390; 3662006685; 2910049915; 1126164919; 1742804224; 773647470; 1547294940; 3094589880; 2294407263; 3919922065; 728499213; 3070676596; 2519408583; 3564158113; 2971220995; 2076851527; 4153703054; 4140871773; 361227157; 722454314; 1444908628; 2889817256; 2690169471; 1497969087; 1397531920; 2795063840; 3037992815; 1943038879; 3886077758; 3602508605; 3029046075; 1894736695];
   [1; 3; 7; 15; 31; 63; 127; 255; 511; 1023; 2047; 4095; 8191; 16383; 32767; 65535; 131071; 262143; 524287; 1048575; 2097151; 4194303; 8388607; 16777215; 33554431; 67108863; 134217727; 268435455; 536870911; 1073741823; 2147483647; 4294967295]].
Definition s_inv (i : nat) (y : Z) : Z := by_columns (s_inv_columns !!! i) y.
Lemma additive_xors fs : Forall additive fs -> additive (fun x => xors ((fun f => f x) <$> fs)).
Proof.
  intros H. induction H as [|f fs Hf _ IH]; [apply additive_0|]. exact (additive_lxor f _ Hf IH).
Qed.
Lemma additive_s i : additive (bmw_s i).
Proof.
  assert (Hsr : forall n, 0 <= n -> additive (shrw n)) by apply additive_shrw.
  assert (Hsl : forall n, 0 <= n -> additive (shlw 32 n)) by apply additive_shlw.
  assert (Hr : forall n, 0 < n < 32 -> additive (rol 32 n)) by apply additive_rol.
  destruct i as [|[|[|[|[|i]]]]].
  - apply (additive_xors [shrw 1; shlw 32 3; rol 32 4; rol 32 19]).
    repeat (apply Forall_cons_2; [(apply Hsr + apply Hsl + apply Hr); lia|]). apply Forall_nil_2.
  - apply (additive_xors [shrw 1; shlw 32 2; rol 32 8; rol 32 23]).
    repeat (apply Forall_cons_2; [(apply Hsr + apply Hsl + apply Hr); lia|]). apply Forall_nil_2.
  - apply (additive_xors [shrw 2; shlw 32 1; rol 32 12; rol 32 25]).
    repeat (apply Forall_cons_2; [(apply Hsr + apply Hsl + apply Hr); lia|]). apply Forall_nil_2.
  - apply (additive_xors [shrw 2; shlw 32 2; rol 32 15; rol 32 29]).
    repeat (apply Forall_cons_2; [(apply Hsr + apply Hsl + apply Hr); lia|]). apply Forall_nil_2.
  - apply (additive_xors [shrw 1; fun x => x]).
    apply Forall_cons_2; [apply Hsr; lia|]. apply Forall_cons_2; [apply additive_id|]. apply Forall_nil_2.
  - apply (additive_xors [shrw 2; fun x => x]).
    apply Forall_cons_2; [apply Hsr; lia|]. apply Forall_cons_2; [apply additive_id|]. apply Forall_nil_2.
Qed.
Lemma s_inv_columns_words i : (i < 5)%nat -> Forall (word 32) (s_inv_columns !!! i).
Proof.
  intros Hi.
  assert (G : Forall (Forall (word 32)) s_inv_columns).
  { apply Forall_forall. intros l Hl. apply Forall_forall. intros x Hx.
    assert (H' : forallb (forallb (fun x => (0 <=? x) && (x <? 2 ^ 32))) s_inv_columns = true) by reflexivity.
    rewrite forallb_forall in H'. apply elem_of_list_In in Hl, Hx. specialize (H' l Hl). rewrite forallb_forall in H'.
    specialize (H' x Hx). apply andb_true_iff in H' as [H1 H2]. apply Z.leb_le in H1. apply Z.ltb_lt in H2. done. }
  apply (Forall_lookup_total_1 _ _ i G). cbn [length s_inv_columns]. lia.
Qed.
Lemma s_inv_word i y : (i < 5)%nat -> word 32 (s_inv i y).
Proof. intros Hi. apply by_columns_word; [lia|]. by apply s_inv_columns_words. Qed.
Lemma five (P : nat -> Prop) : P 0%nat -> P 1%nat -> P 2%nat -> P 3%nat -> P 4%nat -> forall i, (i < 5)%nat -> P i.
Proof. intros. destruct i as [|[|[|[|[|i]]]]]; try done. lia. Qed.
Lemma all_bits (f g : Z -> Z) : forallb (fun j => f (2 ^ Z.of_nat j) =? g (2 ^ Z.of_nat j)) (seq 0 32) = true ->
  forall j, (j < 32)%nat -> f (2 ^ Z.of_nat j) = g (2 ^ Z.of_nat j).
Proof.
  intros H j Hj. rewrite forallb_forall in H. apply Z.eqb_eq. apply (H j). apply in_seq. lia.
Qed.
Lemma s_inv_s i x : (i < 5)%nat -> word 32 x -> s_inv i (bmw_s i x) = x.
Proof.
  intros Hi Hx. apply (additive_ext (fun x => s_inv i (bmw_s i x)) (fun x => x) 32); [lia| | | |exact Hx].
  - intros a b Ha Hb. rewrite (additive_s i a b Ha Hb). apply additive_columns; by apply word_bmw_s.
  - apply additive_id.
  - apply (all_bits (fun x => s_inv i (bmw_s i x)) (fun x => x)). clear x Hx. revert i Hi. apply five; vm_compute; reflexivity.
Qed.
Lemma s_s_inv i y : (i < 5)%nat -> word 32 y -> bmw_s i (s_inv i y) = y.
Proof.
  intros Hi Hy. apply (additive_ext (fun y => bmw_s i (s_inv i y)) (fun x => x) 32); [lia| | | |exact Hy].
  - intros a b Ha Hb. unfold s_inv. rewrite (additive_columns _ a b Ha Hb).
    apply additive_s; by apply s_inv_word.
  - apply additive_id.
  - apply (all_bits (fun y => bmw_s i (s_inv i y)) (fun x => x)). clear y Hy. revert i Hi. apply five; vm_compute; reflexivity.
Qed.

(** ** The signed sums W: the matrix has determinant -775, which is odd *)
Lemma signed_sums_kernel e0 e1 e2 e3 e4 e5 e6 e7 e8 e9 e10 e11 e12 e13 e14 e15 q0 q1 q2 q3 q4 q5 q6 q7 q8 q9 q10 q11 q12 q13 q14 q15 :
  e5 - e7 + e10 + e13 + e14 = 2 ^ 32 * q0 ->
  e6 - e8 + e11 + e14 - e15 = 2 ^ 32 * q1 ->
  e0 + e7 + e9 - e12 + e15 = 2 ^ 32 * q2 ->
  e0 - e1 + e8 - e10 + e13 = 2 ^ 32 * q3 ->
  e1 + e2 + e9 - e11 - e14 = 2 ^ 32 * q4 ->
  - e2 + e3 + e10 - e12 + e15 = 2 ^ 32 * q5 ->
  - e0 - e3 + e4 - e11 + e13 = 2 ^ 32 * q6 ->
  e1 - e4 - e5 - e12 - e14 = 2 ^ 32 * q7 ->
  e2 - e5 - e6 + e13 - e15 = 2 ^ 32 * q8 ->
  e0 - e3 + e6 - e7 + e14 = 2 ^ 32 * q9 ->
  - e1 - e4 - e7 + e8 + e15 = 2 ^ 32 * q10 ->
  - e0 - e2 - e5 + e8 + e9 = 2 ^ 32 * q11 ->
  e1 + e3 - e6 - e9 + e10 = 2 ^ 32 * q12 ->
  e2 + e4 + e7 + e10 + e11 = 2 ^ 32 * q13 ->
  e3 - e5 + e8 - e11 - e12 = 2 ^ 32 * q14 ->
  - e4 - e6 - e9 + e12 + e13 = 2 ^ 32 * q15 ->
  (2 ^ 32 | e0) /\ (2 ^ 32 | e1) /\ (2 ^ 32 | e2) /\ (2 ^ 32 | e3) /\ (2 ^ 32 | e4) /\ (2 ^ 32 | e5) /\ (2 ^ 32 | e6) /\ (2 ^ 32 | e7) /\ (2 ^ 32 | e8) /\ (2 ^ 32 | e9) /\ (2 ^ 32 | e10) /\ (2 ^ 32 | e11) /\ (2 ^ 32 | e12) /\ (2 ^ 32 | e13) /\ (2 ^ 32 | e14) /\ (2 ^ 32 | e15).
Proof.
  intros H0 H1 H2 H3 H4 H5 H6 H7 H8 H9 H10 H11 H12 H13 H14 H15.
  assert (G : forall e z, 775 * e = 2 ^ 32 * z -> (2 ^ 32 | e)).
  { intros e z H. exists (2876242615 * z - 519 * e). lia. }
  repeat split.
  - apply (G e0 ((77) * q0 + (-472) * q1 + (-145) * q2 + (46) * q3 + (-8) * q4 + (292) * q5 + (-429) * q6 + (-24) * q7 + (126) * q8 + (363) * q9 + (-493) * q10 + (-82) * q11 + (-415) * q12 + (92) * q13 + (57) * q14 + (180) * q15)).
    transitivity ((77) * (2 ^ 32 * q0) + (-472) * (2 ^ 32 * q1) + (-145) * (2 ^ 32 * q2) + (46) * (2 ^ 32 * q3) + (-8) * (2 ^ 32 * q4) + (292) * (2 ^ 32 * q5) + (-429) * (2 ^ 32 * q6) + (-24) * (2 ^ 32 * q7) + (126) * (2 ^ 32 * q8) + (363) * (2 ^ 32 * q9) + (-493) * (2 ^ 32 * q10) + (-82) * (2 ^ 32 * q11) + (-415) * (2 ^ 32 * q12) + (92) * (2 ^ 32 * q13) + (57) * (2 ^ 32 * q14) + (180) * (2 ^ 32 * q15)).
    { rewrite <- H0, <- H1, <- H2, <- H3, <- H4, <- H5, <- H6, <- H7, <- H8, <- H9, <- H10, <- H11, <- H12, <- H13, <- H14, <- H15. ring. }
    ring.
  - apply (G e1 ((-234) * q0 + (599) * q1 + (340) * q2 + (293) * q3 + (286) * q4 + (-364) * q5 + (418) * q6 + (83) * q7 + (-242) * q8 + (4) * q9 + (381) * q10 + (219) * q11 + (1080) * q12 + (-189) * q13 + (-294) * q14 + (-235) * q15)).
    transitivity ((-234) * (2 ^ 32 * q0) + (599) * (2 ^ 32 * q1) + (340) * (2 ^ 32 * q2) + (293) * (2 ^ 32 * q3) + (286) * (2 ^ 32 * q4) + (-364) * (2 ^ 32 * q5) + (418) * (2 ^ 32 * q6) + (83) * (2 ^ 32 * q7) + (-242) * (2 ^ 32 * q8) + (4) * (2 ^ 32 * q9) + (381) * (2 ^ 32 * q10) + (219) * (2 ^ 32 * q11) + (1080) * (2 ^ 32 * q12) + (-189) * (2 ^ 32 * q13) + (-294) * (2 ^ 32 * q14) + (-235) * (2 ^ 32 * q15)).
    { rewrite <- H0, <- H1, <- H2, <- H3, <- H4, <- H5, <- H6, <- H7, <- H8, <- H9, <- H10, <- H11, <- H12, <- H13, <- H14, <- H15. ring. }
    ring.
  - apply (G e2 ((-189) * q0 + (454) * q1 + (215) * q2 + (28) * q3 + (231) * q4 + (-294) * q5 + (278) * q6 + (-82) * q7 + (43) * q8 + (-116) * q9 + (576) * q10 + (-151) * q11 + (455) * q12 + (56) * q13 + (1) * q14 + (-160) * q15)).
    transitivity ((-189) * (2 ^ 32 * q0) + (454) * (2 ^ 32 * q1) + (215) * (2 ^ 32 * q2) + (28) * (2 ^ 32 * q3) + (231) * (2 ^ 32 * q4) + (-294) * (2 ^ 32 * q5) + (278) * (2 ^ 32 * q6) + (-82) * (2 ^ 32 * q7) + (43) * (2 ^ 32 * q8) + (-116) * (2 ^ 32 * q9) + (576) * (2 ^ 32 * q10) + (-151) * (2 ^ 32 * q11) + (455) * (2 ^ 32 * q12) + (56) * (2 ^ 32 * q13) + (1) * (2 ^ 32 * q14) + (-160) * (2 ^ 32 * q15)).
    { rewrite <- H0, <- H1, <- H2, <- H3, <- H4, <- H5, <- H6, <- H7, <- H8, <- H9, <- H10, <- H11, <- H12, <- H13, <- H14, <- H15. ring. }
    ring.
  - apply (G e3 ((-342) * q0 + (637) * q1 + (20) * q2 + (309) * q3 + (418) * q4 + (243) * q5 + (134) * q6 + (-296) * q7 + (4) * q8 + (-173) * q9 + (378) * q10 + (22) * q11 + (565) * q12 + (-157) * q13 + (-72) * q14 + (-105) * q15)).
    transitivity ((-342) * (2 ^ 32 * q0) + (637) * (2 ^ 32 * q1) + (20) * (2 ^ 32 * q2) + (309) * (2 ^ 32 * q3) + (418) * (2 ^ 32 * q4) + (243) * (2 ^ 32 * q5) + (134) * (2 ^ 32 * q6) + (-296) * (2 ^ 32 * q7) + (4) * (2 ^ 32 * q8) + (-173) * (2 ^ 32 * q9) + (378) * (2 ^ 32 * q10) + (22) * (2 ^ 32 * q11) + (565) * (2 ^ 32 * q12) + (-157) * (2 ^ 32 * q13) + (-72) * (2 ^ 32 * q14) + (-105) * (2 ^ 32 * q15)).
    { rewrite <- H0, <- H1, <- H2, <- H3, <- H4, <- H5, <- H6, <- H7, <- H8, <- H9, <- H10, <- H11, <- H12, <- H13, <- H14, <- H15. ring. }
    ring.
  - apply (G e4 ((-425) * q0 + (250) * q1 + (-25) * q2 + (350) * q3 + (175) * q4 + (200) * q5 + (375) * q6 + (-250) * q7 + (150) * q8 + (100) * q9 + (225) * q10 + (50) * q11 + (650) * q12 + (-75) * q13 + (-375) * q14 + (-450) * q15)).
    transitivity ((-425) * (2 ^ 32 * q0) + (250) * (2 ^ 32 * q1) + (-25) * (2 ^ 32 * q2) + (350) * (2 ^ 32 * q3) + (175) * (2 ^ 32 * q4) + (200) * (2 ^ 32 * q5) + (375) * (2 ^ 32 * q6) + (-250) * (2 ^ 32 * q7) + (150) * (2 ^ 32 * q8) + (100) * (2 ^ 32 * q9) + (225) * (2 ^ 32 * q10) + (50) * (2 ^ 32 * q11) + (650) * (2 ^ 32 * q12) + (-75) * (2 ^ 32 * q13) + (-375) * (2 ^ 32 * q14) + (-450) * (2 ^ 32 * q15)).
    { rewrite <- H0, <- H1, <- H2, <- H3, <- H4, <- H5, <- H6, <- H7, <- H8, <- H9, <- H10, <- H11, <- H12, <- H13, <- H14, <- H15. ring. }
    ring.
  - apply (G e5 ((588) * q0 + (-293) * q1 + (20) * q2 + (-1) * q3 + (-202) * q4 + (-377) * q5 + (-176) * q6 + (169) * q7 + (-306) * q8 + (-328) * q9 + (-242) * q10 + (-133) * q11 + (-210) * q12 + (-2) * q13 + (83) * q14 + (-105) * q15)).
    transitivity ((588) * (2 ^ 32 * q0) + (-293) * (2 ^ 32 * q1) + (20) * (2 ^ 32 * q2) + (-1) * (2 ^ 32 * q3) + (-202) * (2 ^ 32 * q4) + (-377) * (2 ^ 32 * q5) + (-176) * (2 ^ 32 * q6) + (169) * (2 ^ 32 * q7) + (-306) * (2 ^ 32 * q8) + (-328) * (2 ^ 32 * q9) + (-242) * (2 ^ 32 * q10) + (-133) * (2 ^ 32 * q11) + (-210) * (2 ^ 32 * q12) + (-2) * (2 ^ 32 * q13) + (83) * (2 ^ 32 * q14) + (-105) * (2 ^ 32 * q15)).
    { rewrite <- H0, <- H1, <- H2, <- H3, <- H4, <- H5, <- H6, <- H7, <- H8, <- H9, <- H10, <- H11, <- H12, <- H13, <- H14, <- H15. ring. }
    ring.
  - apply (G e6 ((-89) * q0 + (304) * q1 + (-235) * q2 + (128) * q3 + (281) * q4 + (206) * q5 + (53) * q6 + (68) * q7 + (-357) * q8 + (134) * q9 + (-24) * q10 + (-26) * q11 + (-245) * q12 + (256) * q13 + (226) * q14 + (265) * q15)).
    transitivity ((-89) * (2 ^ 32 * q0) + (304) * (2 ^ 32 * q1) + (-235) * (2 ^ 32 * q2) + (128) * (2 ^ 32 * q3) + (281) * (2 ^ 32 * q4) + (206) * (2 ^ 32 * q5) + (53) * (2 ^ 32 * q6) + (68) * (2 ^ 32 * q7) + (-357) * (2 ^ 32 * q8) + (134) * (2 ^ 32 * q9) + (-24) * (2 ^ 32 * q10) + (-26) * (2 ^ 32 * q11) + (-245) * (2 ^ 32 * q12) + (256) * (2 ^ 32 * q13) + (226) * (2 ^ 32 * q14) + (265) * (2 ^ 32 * q15)).
    { rewrite <- H0, <- H1, <- H2, <- H3, <- H4, <- H5, <- H6, <- H7, <- H8, <- H9, <- H10, <- H11, <- H12, <- H13, <- H14, <- H15. ring. }
    ring.
  - apply (G e7 ((257) * q0 + (-277) * q1 + (130) * q2 + (-239) * q3 + (-228) * q4 + (-203) * q5 + (-214) * q6 + (91) * q7 + (-284) * q8 + (-117) * q9 + (-488) * q10 + (-12) * q11 + (-590) * q12 + (297) * q13 + (462) * q14 + (480) * q15)).
    transitivity ((257) * (2 ^ 32 * q0) + (-277) * (2 ^ 32 * q1) + (130) * (2 ^ 32 * q2) + (-239) * (2 ^ 32 * q3) + (-228) * (2 ^ 32 * q4) + (-203) * (2 ^ 32 * q5) + (-214) * (2 ^ 32 * q6) + (91) * (2 ^ 32 * q7) + (-284) * (2 ^ 32 * q8) + (-117) * (2 ^ 32 * q9) + (-488) * (2 ^ 32 * q10) + (-12) * (2 ^ 32 * q11) + (-590) * (2 ^ 32 * q12) + (297) * (2 ^ 32 * q13) + (462) * (2 ^ 32 * q14) + (480) * (2 ^ 32 * q15)).
    { rewrite <- H0, <- H1, <- H2, <- H3, <- H4, <- H5, <- H6, <- H7, <- H8, <- H9, <- H10, <- H11, <- H12, <- H13, <- H14, <- H15. ring. }
    ring.
  - apply (G e8 ((366) * q0 + (-301) * q1 + (-35) * q2 + (118) * q3 + (-189) * q4 + (-464) * q5 + (-157) * q6 + (208) * q7 + (-317) * q8 + (-46) * q9 + (-119) * q10 + (194) * q11 + (-20) * q12 + (236) * q13 + (281) * q14 + (-10) * q15)).
    transitivity ((366) * (2 ^ 32 * q0) + (-301) * (2 ^ 32 * q1) + (-35) * (2 ^ 32 * q2) + (118) * (2 ^ 32 * q3) + (-189) * (2 ^ 32 * q4) + (-464) * (2 ^ 32 * q5) + (-157) * (2 ^ 32 * q6) + (208) * (2 ^ 32 * q7) + (-317) * (2 ^ 32 * q8) + (-46) * (2 ^ 32 * q9) + (-119) * (2 ^ 32 * q10) + (194) * (2 ^ 32 * q11) + (-20) * (2 ^ 32 * q12) + (236) * (2 ^ 32 * q13) + (281) * (2 ^ 32 * q14) + (-10) * (2 ^ 32 * q15)).
    { rewrite <- H0, <- H1, <- H2, <- H3, <- H4, <- H5, <- H6, <- H7, <- H8, <- H9, <- H10, <- H11, <- H12, <- H13, <- H14, <- H15. ring. }
    ring.
  - apply (G e9 ((110) * q0 + (-10) * q1 + (125) * q2 + (-45) * q3 + (210) * q4 + (85) * q5 + (-170) * q6 + (-145) * q7 + (180) * q8 + (-35) * q9 + (-40) * q10 + (215) * q11 + (-150) * q12 + (-90) * q13 + (-140) * q14 + (-75) * q15)).
    transitivity ((110) * (2 ^ 32 * q0) + (-10) * (2 ^ 32 * q1) + (125) * (2 ^ 32 * q2) + (-45) * (2 ^ 32 * q3) + (210) * (2 ^ 32 * q4) + (85) * (2 ^ 32 * q5) + (-170) * (2 ^ 32 * q6) + (-145) * (2 ^ 32 * q7) + (180) * (2 ^ 32 * q8) + (-35) * (2 ^ 32 * q9) + (-40) * (2 ^ 32 * q10) + (215) * (2 ^ 32 * q11) + (-150) * (2 ^ 32 * q12) + (-90) * (2 ^ 32 * q13) + (-140) * (2 ^ 32 * q14) + (-75) * (2 ^ 32 * q15)).
    { rewrite <- H0, <- H1, <- H2, <- H3, <- H4, <- H5, <- H6, <- H7, <- H8, <- H9, <- H10, <- H11, <- H12, <- H13, <- H14, <- H15. ring. }
    ring.
  - apply (G e10 ((597) * q0 + (-942) * q1 + (-470) * q2 + (-519) * q3 + (-213) * q4 + (412) * q5 + (-669) * q6 + (136) * q7 + (61) * q8 + (268) * q9 + (-823) * q10 + (-52) * q11 + (-1265) * q12 + (512) * q13 + (452) * q14 + (530) * q15)).
    transitivity ((597) * (2 ^ 32 * q0) + (-942) * (2 ^ 32 * q1) + (-470) * (2 ^ 32 * q2) + (-519) * (2 ^ 32 * q3) + (-213) * (2 ^ 32 * q4) + (412) * (2 ^ 32 * q5) + (-669) * (2 ^ 32 * q6) + (136) * (2 ^ 32 * q7) + (61) * (2 ^ 32 * q8) + (268) * (2 ^ 32 * q9) + (-823) * (2 ^ 32 * q10) + (-52) * (2 ^ 32 * q11) + (-1265) * (2 ^ 32 * q12) + (512) * (2 ^ 32 * q13) + (452) * (2 ^ 32 * q14) + (530) * (2 ^ 32 * q15)).
    { rewrite <- H0, <- H1, <- H2, <- H3, <- H4, <- H5, <- H6, <- H7, <- H8, <- H9, <- H10, <- H11, <- H12, <- H13, <- H14, <- H15. ring. }
    ring.
  - apply (G e11 ((-240) * q0 + (515) * q1 + (150) * q2 + (380) * q3 + (35) * q4 + (-115) * q5 + (230) * q6 + (105) * q7 + (30) * q8 + (-135) * q9 + (510) * q10 + (165) * q11 + (750) * q12 + (-15) * q13 + (-540) * q14 + (-400) * q15)).
    transitivity ((-240) * (2 ^ 32 * q0) + (515) * (2 ^ 32 * q1) + (150) * (2 ^ 32 * q2) + (380) * (2 ^ 32 * q3) + (35) * (2 ^ 32 * q4) + (-115) * (2 ^ 32 * q5) + (230) * (2 ^ 32 * q6) + (105) * (2 ^ 32 * q7) + (30) * (2 ^ 32 * q8) + (-135) * (2 ^ 32 * q9) + (510) * (2 ^ 32 * q10) + (165) * (2 ^ 32 * q11) + (750) * (2 ^ 32 * q12) + (-15) * (2 ^ 32 * q13) + (-540) * (2 ^ 32 * q14) + (-400) * (2 ^ 32 * q15)).
    { rewrite <- H0, <- H1, <- H2, <- H3, <- H4, <- H5, <- H6, <- H7, <- H8, <- H9, <- H10, <- H11, <- H12, <- H13, <- H14, <- H15. ring. }
    ring.
  - apply (G e12 ((-324) * q0 + (114) * q1 + (-185) * q2 + (48) * q3 + (396) * q4 + (271) * q5 + (-77) * q6 + (-362) * q7 + (-37) * q8 + (244) * q9 + (-9) * q10 + (184) * q11 + (5) * q12 + (96) * q13 + (-109) * q14 + (390) * q15)).
    transitivity ((-324) * (2 ^ 32 * q0) + (114) * (2 ^ 32 * q1) + (-185) * (2 ^ 32 * q2) + (48) * (2 ^ 32 * q3) + (396) * (2 ^ 32 * q4) + (271) * (2 ^ 32 * q5) + (-77) * (2 ^ 32 * q6) + (-362) * (2 ^ 32 * q7) + (-37) * (2 ^ 32 * q8) + (244) * (2 ^ 32 * q9) + (-9) * (2 ^ 32 * q10) + (184) * (2 ^ 32 * q11) + (5) * (2 ^ 32 * q12) + (96) * (2 ^ 32 * q13) + (-109) * (2 ^ 32 * q14) + (390) * (2 ^ 32 * q15)).
    { rewrite <- H0, <- H1, <- H2, <- H3, <- H4, <- H5, <- H6, <- H7, <- H8, <- H9, <- H10, <- H11, <- H12, <- H13, <- H14, <- H15. ring. }
    ring.
  - apply (G e13 ((-80) * q0 + (430) * q1 + (50) * q2 + (385) * q3 + (270) * q4 + (220) * q5 + (335) * q6 + (35) * q7 + (10) * q8 + (-45) * q9 + (170) * q10 + (55) * q11 + (250) * q12 + (-5) * q13 + (-180) * q14 + (125) * q15)).
    transitivity ((-80) * (2 ^ 32 * q0) + (430) * (2 ^ 32 * q1) + (50) * (2 ^ 32 * q2) + (385) * (2 ^ 32 * q3) + (270) * (2 ^ 32 * q4) + (220) * (2 ^ 32 * q5) + (335) * (2 ^ 32 * q6) + (35) * (2 ^ 32 * q7) + (10) * (2 ^ 32 * q8) + (-45) * (2 ^ 32 * q9) + (170) * (2 ^ 32 * q10) + (55) * (2 ^ 32 * q11) + (250) * (2 ^ 32 * q12) + (-5) * (2 ^ 32 * q13) + (-180) * (2 ^ 32 * q14) + (125) * (2 ^ 32 * q15)).
    { rewrite <- H0, <- H1, <- H2, <- H3, <- H4, <- H5, <- H6, <- H7, <- H8, <- H9, <- H10, <- H11, <- H12, <- H13, <- H14, <- H15. ring. }
    ring.
  - apply (G e14 ((-73) * q0 + (528) * q1 + (530) * q2 + (-104) * q3 + (-83) * q4 + (-458) * q5 + (296) * q6 + (-249) * q7 + (-49) * q8 + (-12) * q9 + (407) * q10 + (118) * q11 + (635) * q12 + (-208) * q13 + (107) * q14 + (-70) * q15)).
    transitivity ((-73) * (2 ^ 32 * q0) + (528) * (2 ^ 32 * q1) + (530) * (2 ^ 32 * q2) + (-104) * (2 ^ 32 * q3) + (-83) * (2 ^ 32 * q4) + (-458) * (2 ^ 32 * q5) + (296) * (2 ^ 32 * q6) + (-249) * (2 ^ 32 * q7) + (-49) * (2 ^ 32 * q8) + (-12) * (2 ^ 32 * q9) + (407) * (2 ^ 32 * q10) + (118) * (2 ^ 32 * q11) + (635) * (2 ^ 32 * q12) + (-208) * (2 ^ 32 * q13) + (107) * (2 ^ 32 * q14) + (-70) * (2 ^ 32 * q15)).
    { rewrite <- H0, <- H1, <- H2, <- H3, <- H4, <- H5, <- H6, <- H7, <- H8, <- H9, <- H10, <- H11, <- H12, <- H13, <- H14, <- H15. ring. }
    ring.
  - apply (G e15 ((-768) * q0 + (873) * q1 + (480) * q2 + (286) * q3 + (422) * q4 + (97) * q5 + (736) * q6 + (-284) * q7 + (-59) * q8 + (33) * q9 + (1012) * q10 + (63) * q11 + (1160) * q12 + (-203) * q13 + (-488) * q14 + (-195) * q15)).
    transitivity ((-768) * (2 ^ 32 * q0) + (873) * (2 ^ 32 * q1) + (480) * (2 ^ 32 * q2) + (286) * (2 ^ 32 * q3) + (422) * (2 ^ 32 * q4) + (97) * (2 ^ 32 * q5) + (736) * (2 ^ 32 * q6) + (-284) * (2 ^ 32 * q7) + (-59) * (2 ^ 32 * q8) + (33) * (2 ^ 32 * q9) + (1012) * (2 ^ 32 * q10) + (63) * (2 ^ 32 * q11) + (1160) * (2 ^ 32 * q12) + (-203) * (2 ^ 32 * q13) + (-488) * (2 ^ 32 * q14) + (-195) * (2 ^ 32 * q15)).
    { rewrite <- H0, <- H1, <- H2, <- H3, <- H4, <- H5, <- H6, <- H7, <- H8, <- H9, <- H10, <- H11, <- H12, <- H13, <- H14, <- H15. ring. }
    ring.
Qed.
Lemma signed_sums_solve m u v w0 w1 w2 w3 w4 w5 w6 w7 w8 w9 w10 w11 w12 w13 w14 w15 e0 e1 e2 e3 e4 e5 e6 e7 e8 e9 e10 e11 e12 e13 e14 e15 r0 r1 r2 r3 r4 r5 r6 r7 r8 r9 r10 r11 r12 r13 r14 r15 : 775 * u = 1 + v * m ->
  e0 = u * ((77) * w0 + (-472) * w1 + (-145) * w2 + (46) * w3 + (-8) * w4 + (292) * w5 + (-429) * w6 + (-24) * w7 + (126) * w8 + (363) * w9 + (-493) * w10 + (-82) * w11 + (-415) * w12 + (92) * w13 + (57) * w14 + (180) * w15) - m * r0 ->
  e1 = u * ((-234) * w0 + (599) * w1 + (340) * w2 + (293) * w3 + (286) * w4 + (-364) * w5 + (418) * w6 + (83) * w7 + (-242) * w8 + (4) * w9 + (381) * w10 + (219) * w11 + (1080) * w12 + (-189) * w13 + (-294) * w14 + (-235) * w15) - m * r1 ->
  e2 = u * ((-189) * w0 + (454) * w1 + (215) * w2 + (28) * w3 + (231) * w4 + (-294) * w5 + (278) * w6 + (-82) * w7 + (43) * w8 + (-116) * w9 + (576) * w10 + (-151) * w11 + (455) * w12 + (56) * w13 + (1) * w14 + (-160) * w15) - m * r2 ->
  e3 = u * ((-342) * w0 + (637) * w1 + (20) * w2 + (309) * w3 + (418) * w4 + (243) * w5 + (134) * w6 + (-296) * w7 + (4) * w8 + (-173) * w9 + (378) * w10 + (22) * w11 + (565) * w12 + (-157) * w13 + (-72) * w14 + (-105) * w15) - m * r3 ->
  e4 = u * ((-425) * w0 + (250) * w1 + (-25) * w2 + (350) * w3 + (175) * w4 + (200) * w5 + (375) * w6 + (-250) * w7 + (150) * w8 + (100) * w9 + (225) * w10 + (50) * w11 + (650) * w12 + (-75) * w13 + (-375) * w14 + (-450) * w15) - m * r4 ->
  e5 = u * ((588) * w0 + (-293) * w1 + (20) * w2 + (-1) * w3 + (-202) * w4 + (-377) * w5 + (-176) * w6 + (169) * w7 + (-306) * w8 + (-328) * w9 + (-242) * w10 + (-133) * w11 + (-210) * w12 + (-2) * w13 + (83) * w14 + (-105) * w15) - m * r5 ->
  e6 = u * ((-89) * w0 + (304) * w1 + (-235) * w2 + (128) * w3 + (281) * w4 + (206) * w5 + (53) * w6 + (68) * w7 + (-357) * w8 + (134) * w9 + (-24) * w10 + (-26) * w11 + (-245) * w12 + (256) * w13 + (226) * w14 + (265) * w15) - m * r6 ->
  e7 = u * ((257) * w0 + (-277) * w1 + (130) * w2 + (-239) * w3 + (-228) * w4 + (-203) * w5 + (-214) * w6 + (91) * w7 + (-284) * w8 + (-117) * w9 + (-488) * w10 + (-12) * w11 + (-590) * w12 + (297) * w13 + (462) * w14 + (480) * w15) - m * r7 ->
  e8 = u * ((366) * w0 + (-301) * w1 + (-35) * w2 + (118) * w3 + (-189) * w4 + (-464) * w5 + (-157) * w6 + (208) * w7 + (-317) * w8 + (-46) * w9 + (-119) * w10 + (194) * w11 + (-20) * w12 + (236) * w13 + (281) * w14 + (-10) * w15) - m * r8 ->
  e9 = u * ((110) * w0 + (-10) * w1 + (125) * w2 + (-45) * w3 + (210) * w4 + (85) * w5 + (-170) * w6 + (-145) * w7 + (180) * w8 + (-35) * w9 + (-40) * w10 + (215) * w11 + (-150) * w12 + (-90) * w13 + (-140) * w14 + (-75) * w15) - m * r9 ->
  e10 = u * ((597) * w0 + (-942) * w1 + (-470) * w2 + (-519) * w3 + (-213) * w4 + (412) * w5 + (-669) * w6 + (136) * w7 + (61) * w8 + (268) * w9 + (-823) * w10 + (-52) * w11 + (-1265) * w12 + (512) * w13 + (452) * w14 + (530) * w15) - m * r10 ->
  e11 = u * ((-240) * w0 + (515) * w1 + (150) * w2 + (380) * w3 + (35) * w4 + (-115) * w5 + (230) * w6 + (105) * w7 + (30) * w8 + (-135) * w9 + (510) * w10 + (165) * w11 + (750) * w12 + (-15) * w13 + (-540) * w14 + (-400) * w15) - m * r11 ->
  e12 = u * ((-324) * w0 + (114) * w1 + (-185) * w2 + (48) * w3 + (396) * w4 + (271) * w5 + (-77) * w6 + (-362) * w7 + (-37) * w8 + (244) * w9 + (-9) * w10 + (184) * w11 + (5) * w12 + (96) * w13 + (-109) * w14 + (390) * w15) - m * r12 ->
  e13 = u * ((-80) * w0 + (430) * w1 + (50) * w2 + (385) * w3 + (270) * w4 + (220) * w5 + (335) * w6 + (35) * w7 + (10) * w8 + (-45) * w9 + (170) * w10 + (55) * w11 + (250) * w12 + (-5) * w13 + (-180) * w14 + (125) * w15) - m * r13 ->
  e14 = u * ((-73) * w0 + (528) * w1 + (530) * w2 + (-104) * w3 + (-83) * w4 + (-458) * w5 + (296) * w6 + (-249) * w7 + (-49) * w8 + (-12) * w9 + (407) * w10 + (118) * w11 + (635) * w12 + (-208) * w13 + (107) * w14 + (-70) * w15) - m * r14 ->
  e15 = u * ((-768) * w0 + (873) * w1 + (480) * w2 + (286) * w3 + (422) * w4 + (97) * w5 + (736) * w6 + (-284) * w7 + (-59) * w8 + (33) * w9 + (1012) * w10 + (63) * w11 + (1160) * w12 + (-203) * w13 + (-488) * w14 + (-195) * w15) - m * r15 ->
  e5 - e7 + e10 + e13 + e14 = w0 + (v * w0 - (r5 - r7 + r10 + r13 + r14)) * m /\
  e6 - e8 + e11 + e14 - e15 = w1 + (v * w1 - (r6 - r8 + r11 + r14 - r15)) * m /\
  e0 + e7 + e9 - e12 + e15 = w2 + (v * w2 - (r0 + r7 + r9 - r12 + r15)) * m /\
  e0 - e1 + e8 - e10 + e13 = w3 + (v * w3 - (r0 - r1 + r8 - r10 + r13)) * m /\
  e1 + e2 + e9 - e11 - e14 = w4 + (v * w4 - (r1 + r2 + r9 - r11 - r14)) * m /\
  - e2 + e3 + e10 - e12 + e15 = w5 + (v * w5 - (- r2 + r3 + r10 - r12 + r15)) * m /\
  - e0 - e3 + e4 - e11 + e13 = w6 + (v * w6 - (- r0 - r3 + r4 - r11 + r13)) * m /\
  e1 - e4 - e5 - e12 - e14 = w7 + (v * w7 - (r1 - r4 - r5 - r12 - r14)) * m /\
  e2 - e5 - e6 + e13 - e15 = w8 + (v * w8 - (r2 - r5 - r6 + r13 - r15)) * m /\
  e0 - e3 + e6 - e7 + e14 = w9 + (v * w9 - (r0 - r3 + r6 - r7 + r14)) * m /\
  - e1 - e4 - e7 + e8 + e15 = w10 + (v * w10 - (- r1 - r4 - r7 + r8 + r15)) * m /\
  - e0 - e2 - e5 + e8 + e9 = w11 + (v * w11 - (- r0 - r2 - r5 + r8 + r9)) * m /\
  e1 + e3 - e6 - e9 + e10 = w12 + (v * w12 - (r1 + r3 - r6 - r9 + r10)) * m /\
  e2 + e4 + e7 + e10 + e11 = w13 + (v * w13 - (r2 + r4 + r7 + r10 + r11)) * m /\
  e3 - e5 + e8 - e11 - e12 = w14 + (v * w14 - (r3 - r5 + r8 - r11 - r12)) * m /\
  - e4 - e6 - e9 + e12 + e13 = w15 + (v * w15 - (- r4 - r6 - r9 + r12 + r13)) * m.
Proof.
  intros Hu -> -> -> -> -> -> -> -> -> -> -> -> -> -> -> ->. repeat split.
  - transitivity (775 * u * w0 - m * (r5 - r7 + r10 + r13 + r14)); [ring|]. rewrite Hu. ring.
  - transitivity (775 * u * w1 - m * (r6 - r8 + r11 + r14 - r15)); [ring|]. rewrite Hu. ring.
  - transitivity (775 * u * w2 - m * (r0 + r7 + r9 - r12 + r15)); [ring|]. rewrite Hu. ring.
  - transitivity (775 * u * w3 - m * (r0 - r1 + r8 - r10 + r13)); [ring|]. rewrite Hu. ring.
  - transitivity (775 * u * w4 - m * (r1 + r2 + r9 - r11 - r14)); [ring|]. rewrite Hu. ring.
  - transitivity (775 * u * w5 - m * (- r2 + r3 + r10 - r12 + r15)); [ring|]. rewrite Hu. ring.
  - transitivity (775 * u * w6 - m * (- r0 - r3 + r4 - r11 + r13)); [ring|]. rewrite Hu. ring.
  - transitivity (775 * u * w7 - m * (r1 - r4 - r5 - r12 - r14)); [ring|]. rewrite Hu. ring.
  - transitivity (775 * u * w8 - m * (r2 - r5 - r6 + r13 - r15)); [ring|]. rewrite Hu. ring.
  - transitivity (775 * u * w9 - m * (r0 - r3 + r6 - r7 + r14)); [ring|]. rewrite Hu. ring.
  - transitivity (775 * u * w10 - m * (- r1 - r4 - r7 + r8 + r15)); [ring|]. rewrite Hu. ring.
  - transitivity (775 * u * w11 - m * (- r0 - r2 - r5 + r8 + r9)); [ring|]. rewrite Hu. ring.
  - transitivity (775 * u * w12 - m * (r1 + r3 - r6 - r9 + r10)); [ring|]. rewrite Hu. ring.
  - transitivity (775 * u * w13 - m * (r2 + r4 + r7 + r10 + r11)); [ring|]. rewrite Hu. ring.
  - transitivity (775 * u * w14 - m * (r3 - r5 + r8 - r11 - r12)); [ring|]. rewrite Hu. ring.
  - transitivity (775 * u * w15 - m * (- r4 - r6 - r9 + r12 + r13)); [ring|]. rewrite Hu. ring.
Qed.
Lemma signed_sums_onto w0 w1 w2 w3 w4 w5 w6 w7 w8 w9 w10 w11 w12 w13 w14 w15 :
  exists e0 e1 e2 e3 e4 e5 e6 e7 e8 e9 e10 e11 e12 e13 e14 e15,
  (word 32 e0 /\ word 32 e1 /\ word 32 e2 /\ word 32 e3 /\ word 32 e4 /\ word 32 e5 /\ word 32 e6 /\ word 32 e7 /\ word 32 e8 /\ word 32 e9 /\ word 32 e10 /\ word 32 e11 /\ word 32 e12 /\ word 32 e13 /\ word 32 e14 /\ word 32 e15) /\
  (e5 - e7 + e10 + e13 + e14) mod 2 ^ 32 = w0 mod 2 ^ 32 /\
  (e6 - e8 + e11 + e14 - e15) mod 2 ^ 32 = w1 mod 2 ^ 32 /\
  (e0 + e7 + e9 - e12 + e15) mod 2 ^ 32 = w2 mod 2 ^ 32 /\
  (e0 - e1 + e8 - e10 + e13) mod 2 ^ 32 = w3 mod 2 ^ 32 /\
  (e1 + e2 + e9 - e11 - e14) mod 2 ^ 32 = w4 mod 2 ^ 32 /\
  (- e2 + e3 + e10 - e12 + e15) mod 2 ^ 32 = w5 mod 2 ^ 32 /\
  (- e0 - e3 + e4 - e11 + e13) mod 2 ^ 32 = w6 mod 2 ^ 32 /\
  (e1 - e4 - e5 - e12 - e14) mod 2 ^ 32 = w7 mod 2 ^ 32 /\
  (e2 - e5 - e6 + e13 - e15) mod 2 ^ 32 = w8 mod 2 ^ 32 /\
  (e0 - e3 + e6 - e7 + e14) mod 2 ^ 32 = w9 mod 2 ^ 32 /\
  (- e1 - e4 - e7 + e8 + e15) mod 2 ^ 32 = w10 mod 2 ^ 32 /\
  (- e0 - e2 - e5 + e8 + e9) mod 2 ^ 32 = w11 mod 2 ^ 32 /\
  (e1 + e3 - e6 - e9 + e10) mod 2 ^ 32 = w12 mod 2 ^ 32 /\
  (e2 + e4 + e7 + e10 + e11) mod 2 ^ 32 = w13 mod 2 ^ 32 /\
  (e3 - e5 + e8 - e11 - e12) mod 2 ^ 32 = w14 mod 2 ^ 32 /\
  (- e4 - e6 - e9 + e12 + e13) mod 2 ^ 32 = w15 mod 2 ^ 32.
Proof.
  assert (P : 0 < 2 ^ 32) by lia. assert (Hu : 775 * 2876242615 = 1 + 519 * 2 ^ 32) by reflexivity.
  assert (K : forall x, exists e r, word 32 e /\ e = 2876242615 * x - 2 ^ 32 * r).
  { intros x. exists ((2876242615 * x) mod 2 ^ 32), ((2876242615 * x) / 2 ^ 32). split; [apply Z.mod_pos_bound; exact P|]. apply Z.mod_eq. lia. }
  destruct (K ((77) * w0 + (-472) * w1 + (-145) * w2 + (46) * w3 + (-8) * w4 + (292) * w5 + (-429) * w6 + (-24) * w7 + (126) * w8 + (363) * w9 + (-493) * w10 + (-82) * w11 + (-415) * w12 + (92) * w13 + (57) * w14 + (180) * w15)) as (e0 & r0 & B0 & E0).
  destruct (K ((-234) * w0 + (599) * w1 + (340) * w2 + (293) * w3 + (286) * w4 + (-364) * w5 + (418) * w6 + (83) * w7 + (-242) * w8 + (4) * w9 + (381) * w10 + (219) * w11 + (1080) * w12 + (-189) * w13 + (-294) * w14 + (-235) * w15)) as (e1 & r1 & B1 & E1).
  destruct (K ((-189) * w0 + (454) * w1 + (215) * w2 + (28) * w3 + (231) * w4 + (-294) * w5 + (278) * w6 + (-82) * w7 + (43) * w8 + (-116) * w9 + (576) * w10 + (-151) * w11 + (455) * w12 + (56) * w13 + (1) * w14 + (-160) * w15)) as (e2 & r2 & B2 & E2).
  destruct (K ((-342) * w0 + (637) * w1 + (20) * w2 + (309) * w3 + (418) * w4 + (243) * w5 + (134) * w6 + (-296) * w7 + (4) * w8 + (-173) * w9 + (378) * w10 + (22) * w11 + (565) * w12 + (-157) * w13 + (-72) * w14 + (-105) * w15)) as (e3 & r3 & B3 & E3).
  destruct (K ((-425) * w0 + (250) * w1 + (-25) * w2 + (350) * w3 + (175) * w4 + (200) * w5 + (375) * w6 + (-250) * w7 + (150) * w8 + (100) * w9 + (225) * w10 + (50) * w11 + (650) * w12 + (-75) * w13 + (-375) * w14 + (-450) * w15)) as (e4 & r4 & B4 & E4).
  destruct (K ((588) * w0 + (-293) * w1 + (20) * w2 + (-1) * w3 + (-202) * w4 + (-377) * w5 + (-176) * w6 + (169) * w7 + (-306) * w8 + (-328) * w9 + (-242) * w10 + (-133) * w11 + (-210) * w12 + (-2) * w13 + (83) * w14 + (-105) * w15)) as (e5 & r5 & B5 & E5).
  destruct (K ((-89) * w0 + (304) * w1 + (-235) * w2 + (128) * w3 + (281) * w4 + (206) * w5 + (53) * w6 + (68) * w7 + (-357) * w8 + (134) * w9 + (-24) * w10 + (-26) * w11 + (-245) * w12 + (256) * w13 + (226) * w14 + (265) * w15)) as (e6 & r6 & B6 & E6).
  destruct (K ((257) * w0 + (-277) * w1 + (130) * w2 + (-239) * w3 + (-228) * w4 + (-203) * w5 + (-214) * w6 + (91) * w7 + (-284) * w8 + (-117) * w9 + (-488) * w10 + (-12) * w11 + (-590) * w12 + (297) * w13 + (462) * w14 + (480) * w15)) as (e7 & r7 & B7 & E7).
  destruct (K ((366) * w0 + (-301) * w1 + (-35) * w2 + (118) * w3 + (-189) * w4 + (-464) * w5 + (-157) * w6 + (208) * w7 + (-317) * w8 + (-46) * w9 + (-119) * w10 + (194) * w11 + (-20) * w12 + (236) * w13 + (281) * w14 + (-10) * w15)) as (e8 & r8 & B8 & E8).
  destruct (K ((110) * w0 + (-10) * w1 + (125) * w2 + (-45) * w3 + (210) * w4 + (85) * w5 + (-170) * w6 + (-145) * w7 + (180) * w8 + (-35) * w9 + (-40) * w10 + (215) * w11 + (-150) * w12 + (-90) * w13 + (-140) * w14 + (-75) * w15)) as (e9 & r9 & B9 & E9).
  destruct (K ((597) * w0 + (-942) * w1 + (-470) * w2 + (-519) * w3 + (-213) * w4 + (412) * w5 + (-669) * w6 + (136) * w7 + (61) * w8 + (268) * w9 + (-823) * w10 + (-52) * w11 + (-1265) * w12 + (512) * w13 + (452) * w14 + (530) * w15)) as (e10 & r10 & B10 & E10).
  destruct (K ((-240) * w0 + (515) * w1 + (150) * w2 + (380) * w3 + (35) * w4 + (-115) * w5 + (230) * w6 + (105) * w7 + (30) * w8 + (-135) * w9 + (510) * w10 + (165) * w11 + (750) * w12 + (-15) * w13 + (-540) * w14 + (-400) * w15)) as (e11 & r11 & B11 & E11).
  destruct (K ((-324) * w0 + (114) * w1 + (-185) * w2 + (48) * w3 + (396) * w4 + (271) * w5 + (-77) * w6 + (-362) * w7 + (-37) * w8 + (244) * w9 + (-9) * w10 + (184) * w11 + (5) * w12 + (96) * w13 + (-109) * w14 + (390) * w15)) as (e12 & r12 & B12 & E12).
  destruct (K ((-80) * w0 + (430) * w1 + (50) * w2 + (385) * w3 + (270) * w4 + (220) * w5 + (335) * w6 + (35) * w7 + (10) * w8 + (-45) * w9 + (170) * w10 + (55) * w11 + (250) * w12 + (-5) * w13 + (-180) * w14 + (125) * w15)) as (e13 & r13 & B13 & E13).
  destruct (K ((-73) * w0 + (528) * w1 + (530) * w2 + (-104) * w3 + (-83) * w4 + (-458) * w5 + (296) * w6 + (-249) * w7 + (-49) * w8 + (-12) * w9 + (407) * w10 + (118) * w11 + (635) * w12 + (-208) * w13 + (107) * w14 + (-70) * w15)) as (e14 & r14 & B14 & E14).
  destruct (K ((-768) * w0 + (873) * w1 + (480) * w2 + (286) * w3 + (422) * w4 + (97) * w5 + (736) * w6 + (-284) * w7 + (-59) * w8 + (33) * w9 + (1012) * w10 + (63) * w11 + (1160) * w12 + (-203) * w13 + (-488) * w14 + (-195) * w15)) as (e15 & r15 & B15 & E15).
  exists e0, e1, e2, e3, e4, e5, e6, e7, e8, e9, e10, e11, e12, e13, e14, e15.
  split; [exact (conj B0 (conj B1 (conj B2 (conj B3 (conj B4 (conj B5 (conj B6 (conj B7 (conj B8 (conj B9 (conj B10 (conj B11 (conj B12 (conj B13 (conj B14 (B15))))))))))))))))|].
  assert (G : forall x y z, x = y + z * 2 ^ 32 -> x mod 2 ^ 32 = y mod 2 ^ 32) by (intros x y z ->; apply Z_mod_plus_full).
  destruct (signed_sums_solve (2 ^ 32) 2876242615 519 w0 w1 w2 w3 w4 w5 w6 w7 w8 w9 w10 w11 w12 w13 w14 w15 e0 e1 e2 e3 e4 e5 e6 e7 e8 e9 e10 e11 e12 e13 e14 e15 r0 r1 r2 r3 r4 r5 r6 r7 r8 r9 r10 r11 r12 r13 r14 r15 Hu E0 E1 E2 E3 E4 E5 E6 E7 E8 E9 E10 E11 E12 E13 E14 E15)
    as (S0 & S1 & S2 & S3 & S4 & S5 & S6 & S7 & S8 & S9 & S10 & S11 & S12 & S13 & S14 & S15).
  exact (conj (G _ _ _ S0) (conj (G _ _ _ S1) (conj (G _ _ _ S2) (conj (G _ _ _ S3) (conj (G _ _ _ S4) (conj (G _ _ _ S5) (conj (G _ _ _ S6) (conj (G _ _ _ S7) (conj (G _ _ _ S8) (conj (G _ _ _ S9) (conj (G _ _ _ S10) (conj (G _ _ _ S11) (conj (G _ _ _ S12) (conj (G _ _ _ S13) (conj (G _ _ _ S14) (G _ _ _ S15)))))))))))))))).
Qed.

(** ** f0 permutes the blocks, for every chaining value *)
Definition wblock (M : list Z) : Prop := length M = 16%nat /\ words M.
Definition mixed (M H : list Z) (j : nat) : Z := Z.lxor (M !!! j) (H !!! j).
Lemma sum32_diff l l' : sum32 l = sum32 l' -> exists q, foldr Z.add 0 l - foldr Z.add 0 l' = 2 ^ 32 * q.
Proof.
  unfold sum32. intros E. exists (foldr Z.add 0 l / 2 ^ 32 - foldr Z.add 0 l' / 2 ^ 32).
  pose proof (Z.div_mod (foldr Z.add 0 l) (2 ^ 32) ltac:(lia)). pose proof (Z.div_mod (foldr Z.add 0 l') (2 ^ 32) ltac:(lia)).
  lia.
Qed.
Lemma lxor_back a b : Z.lxor (Z.lxor a b) b = a.
Proof. by rewrite Z.lxor_assoc, Z.lxor_nilpotent, Z.lxor_0_r. Qed.
Lemma W_injective M M' H : wblock M -> wblock M' -> wblock H ->
  (forall i, (i < 16)%nat -> bmw_W M H i = bmw_W M' H i) -> M = M'.
Proof.
  intros [Lm Hm] [Lm' Hm'] [Lh Hh] HW.
  assert (HQ : forall i, (i < 16)%nat -> exists q,
    foldr Z.add 0 ((fun '(s, j) => s * mixed M H j) <$> bmw_W_table !!! i) -
    foldr Z.add 0 ((fun '(s, j) => s * mixed M' H j) <$> bmw_W_table !!! i) = 2 ^ 32 * q).
  { intros i Hi. apply sum32_diff. exact (HW i Hi). }
  assert (HD : forall j, (j < 16)%nat -> (2 ^ 32 | mixed M H j - mixed M' H j)).
  { revert HQ. generalize (mixed M H) (mixed M' H). intros f g HQ.
    destruct (HQ 0%nat ltac:(lia)) as [q0 H0].
    destruct (HQ 1%nat ltac:(lia)) as [q1 H1].
    destruct (HQ 2%nat ltac:(lia)) as [q2 H2].
    destruct (HQ 3%nat ltac:(lia)) as [q3 H3].
    destruct (HQ 4%nat ltac:(lia)) as [q4 H4].
    destruct (HQ 5%nat ltac:(lia)) as [q5 H5].
    destruct (HQ 6%nat ltac:(lia)) as [q6 H6].
    destruct (HQ 7%nat ltac:(lia)) as [q7 H7].
    destruct (HQ 8%nat ltac:(lia)) as [q8 H8].
    destruct (HQ 9%nat ltac:(lia)) as [q9 H9].
    destruct (HQ 10%nat ltac:(lia)) as [q10 H10].
    destruct (HQ 11%nat ltac:(lia)) as [q11 H11].
    destruct (HQ 12%nat ltac:(lia)) as [q12 H12].
    destruct (HQ 13%nat ltac:(lia)) as [q13 H13].
    destruct (HQ 14%nat ltac:(lia)) as [q14 H14].
    destruct (HQ 15%nat ltac:(lia)) as [q15 H15].
    cbn [fmap list_fmap foldr bmw_W_table lookup_total list_lookup_total pos neg] in H0, H1, H2, H3, H4, H5, H6, H7, H8, H9, H10, H11, H12, H13, H14, H15.
    unfold pos, neg in H0, H1, H2, H3, H4, H5, H6, H7, H8, H9, H10, H11, H12, H13, H14, H15.
    destruct (signed_sums_kernel (f 0%nat - g 0%nat) (f 1%nat - g 1%nat) (f 2%nat - g 2%nat) (f 3%nat - g 3%nat) (f 4%nat - g 4%nat) (f 5%nat - g 5%nat) (f 6%nat - g 6%nat) (f 7%nat - g 7%nat) (f 8%nat - g 8%nat) (f 9%nat - g 9%nat) (f 10%nat - g 10%nat) (f 11%nat - g 11%nat) (f 12%nat - g 12%nat) (f 13%nat - g 13%nat) (f 14%nat - g 14%nat) (f 15%nat - g 15%nat) q0 q1 q2 q3 q4 q5 q6 q7 q8 q9 q10 q11 q12 q13 q14 q15)
      as (K0 & K1 & K2 & K3 & K4 & K5 & K6 & K7 & K8 & K9 & K10 & K11 & K12 & K13 & K14 & K15).
    { clear -H0. lia. }
    { clear -H1. lia. }
    { clear -H2. lia. }
    { clear -H3. lia. }
    { clear -H4. lia. }
    { clear -H5. lia. }
    { clear -H6. lia. }
    { clear -H7. lia. }
    { clear -H8. lia. }
    { clear -H9. lia. }
    { clear -H10. lia. }
    { clear -H11. lia. }
    { clear -H12. lia. }
    { clear -H13. lia. }
    { clear -H14. lia. }
    { clear -H15. lia. }
    intros j Hj. do 16 (destruct j as [|j]; [assumption|]). lia. }
  assert (HE : forall j, (j < 16)%nat -> M !!! j = M' !!! j).
  { intros j Hj. rewrite <- (lxor_back (M !!! j) (H !!! j)), <- (lxor_back (M' !!! j) (H !!! j)). f_equal.
    destruct (HD j Hj) as [z Hz]. unfold mixed in Hz.
    pose proof (word_lxor 32 _ _ ltac:(lia) (words_get M j 16 Hm Lm Hj) (words_get H j 16 Hh Lh Hj)) as [? ?].
    pose proof (word_lxor 32 _ _ ltac:(lia) (words_get M' j 16 Hm' Lm' Hj) (words_get H j 16 Hh Lh Hj)) as [? ?].
    assert (z = 0) by nia. subst z. lia. }
  apply list_eq_same_length with 16%nat; [done|done|].
  intros i x y Hi Hx Hy. apply list_lookup_total_correct in Hx, Hy. subst. by apply HE.
Qed.
Lemma f0_get M H i : (i < 16)%nat ->
  bmw_f0 M H !!! i = sum32 [bmw_s (i mod 5)%nat (bmw_W M H i); H !!! ((i + 1) mod 16)%nat].
Proof.
  intros Hi. apply list_lookup_total_correct. unfold bmw_f0.
  by rewrite list_lookup_fmap, lookup_seq_lt by done.
Qed.
Lemma sum32_cancel x x' h : word 32 x -> word 32 x' -> sum32 [x; h] = sum32 [x'; h] -> x = x'.
Proof.
  intros [? ?] [? ?] E. apply sum32_diff in E as [q E]. cbn [foldr] in E. assert (q = 0) by nia. lia.
Qed.
Lemma f0_permutes H : wblock H -> permutes_on wblock (fun M => bmw_f0 M H).
Proof.
  intros HH. pose proof HH as [Lh Hh]. split; [|split].
  - intros M _. destruct (f0_words M H) as [? ?]. done.
  - intros M M' HM HM' E. apply (W_injective M M' H HM HM' HH). intros i Hi.
    assert (H5 : (i mod 5 < 5)%nat) by (apply Nat.mod_upper_bound; lia).
    rewrite <- (s_inv_s (i mod 5) (bmw_W M H i) H5 (word_sum32 _)), <- (s_inv_s (i mod 5) (bmw_W M' H i) H5 (word_sum32 _)).
    f_equal. apply (sum32_cancel _ _ (H !!! ((i + 1) mod 16)%nat)); [apply word_bmw_s, word_sum32..|].
    rewrite <- !f0_get by done. by rewrite E.
  - intros Q [LQ HQ].
    set (w := fun i : nat => s_inv (i mod 5) ((Q !!! i - H !!! ((i + 1) mod 16)%nat) mod 2 ^ 32)).
    destruct (signed_sums_onto (w 0%nat) (w 1%nat) (w 2%nat) (w 3%nat) (w 4%nat) (w 5%nat) (w 6%nat) (w 7%nat) (w 8%nat) (w 9%nat) (w 10%nat) (w 11%nat) (w 12%nat) (w 13%nat) (w 14%nat) (w 15%nat))
      as (e0 & e1 & e2 & e3 & e4 & e5 & e6 & e7 & e8 & e9 & e10 & e11 & e12 & e13 & e14 & e15 & (V0 & V1 & V2 & V3 & V4 & V5 & V6 & V7 & V8 & V9 & V10 & V11 & V12 & V13 & V14 & V15) & T0 & T1 & T2 & T3 & T4 & T5 & T6 & T7 & T8 & T9 & T10 & T11 & T12 & T13 & T14 & T15).
    set (E := [e0; e1; e2; e3; e4; e5; e6; e7; e8; e9; e10; e11; e12; e13; e14; e15]).
    set (M := (fun j => Z.lxor (E !!! j) (H !!! j)) <$> seq 0 16).
    assert (HE : words E) by (repeat apply Forall_cons_2; assumption || apply Forall_nil_2).
    assert (HMj : forall j, (j < 16)%nat -> M !!! j = Z.lxor (E !!! j) (H !!! j)).
    { intros j Hj. apply list_lookup_total_correct. unfold M. by rewrite list_lookup_fmap, lookup_seq_lt by done. }
    assert (HX : forall j, (j < 16)%nat -> mixed M H j = E !!! j).
    { intros j Hj. unfold mixed. rewrite HMj by done. apply lxor_back. }
    assert (HM : wblock M).
    { split; [reflexivity|]. unfold M. apply Forall_fmap. apply Forall_forall. intros j Hj.
      apply elem_of_seq in Hj. apply word_lxor; [lia|apply (words_get E j 16); [done|done|lia]|apply (words_get H j 16); [done|done|lia]]. }
    exists M. split; [exact HM|].
    assert (HWw : forall i, (i < 16)%nat -> bmw_W M H i = w i).
    { intros i Hi.
      assert (Ww : word 32 (w i)) by (apply s_inv_word, Nat.mod_upper_bound; lia).
      transitivity (w i mod 2 ^ 32); [|by apply Z.mod_small].
      assert (HF : bmw_W M H i = sum32 ((fun '(s, j) => s * E !!! j) <$> bmw_W_table !!! i)).
      { unfold bmw_W. f_equal. apply list_fmap_ext. intros n [s j] Hn. fold (mixed M H j). rewrite HX; [done|].
        assert (TT : Forall (Forall (fun '(_, j) => (j < 16)%nat)) bmw_W_table)
          by (repeat apply Forall_cons_2; try apply Forall_nil_2; cbn; lia).
        pose proof (Forall_lookup_total_1 _ _ i TT ltac:(cbn [length bmw_W_table]; lia)) as TT'.
        exact (Forall_lookup_1 _ _ _ _ TT' Hn). }
      rewrite HF. unfold sum32. clear HF HX HMj HM M HE V0 Ww. clearbody w.
      assert (X0 : E !!! 0%nat = e0) by reflexivity.
      assert (X1 : E !!! 1%nat = e1) by reflexivity.
      assert (X2 : E !!! 2%nat = e2) by reflexivity.
      assert (X3 : E !!! 3%nat = e3) by reflexivity.
      assert (X4 : E !!! 4%nat = e4) by reflexivity.
      assert (X5 : E !!! 5%nat = e5) by reflexivity.
      assert (X6 : E !!! 6%nat = e6) by reflexivity.
      assert (X7 : E !!! 7%nat = e7) by reflexivity.
      assert (X8 : E !!! 8%nat = e8) by reflexivity.
      assert (X9 : E !!! 9%nat = e9) by reflexivity.
      assert (X10 : E !!! 10%nat = e10) by reflexivity.
      assert (X11 : E !!! 11%nat = e11) by reflexivity.
      assert (X12 : E !!! 12%nat = e12) by reflexivity.
      assert (X13 : E !!! 13%nat = e13) by reflexivity.
      assert (X14 : E !!! 14%nat = e14) by reflexivity.
      assert (X15 : E !!! 15%nat = e15) by reflexivity.
      clearbody E.
      do 16 (destruct i as [|i]; [cbn [fmap list_fmap foldr bmw_W_table lookup_total list_lookup_total]; unfold pos, neg;
        match goal with T : ?e mod _ = _ |- _ = ?z mod _ => match type of T with _ = z mod _ =>
          rewrite <- T, ?X0, ?X1, ?X2, ?X3, ?X4, ?X5, ?X6, ?X7, ?X8, ?X9, ?X10, ?X11, ?X12, ?X13, ?X14, ?X15; f_equal; ring end end|]). lia. }
    apply list_eq_same_length with 16%nat; [done|apply f0_words|].
    intros i x y Hi Hx Hy. apply list_lookup_total_correct in Hx, Hy. subst x y.
    rewrite f0_get, HWw by done. unfold w. rewrite s_s_inv; [|apply Nat.mod_upper_bound; lia|apply word_mod].
    unfold sum32. cbn [foldr]. rewrite Zplus_mod_idemp_l.
    replace (_ + _) with (Q !!! i) by lia. apply Z.mod_small. exact (words_get Q i 16 HQ LQ Hi).
Qed.
