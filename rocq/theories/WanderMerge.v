(** * Two states that the wandering phase maps to the same state *)
From Verif Require Import Machine.
From Verif Require MLyra2.
From Verif Require Import SpecWord.
#[local] Open Scope Z_scope.

(** Four rows of one column and the sponge, twice.  Both were found by running the phase
    backwards from one final state with all sequences of revisited rows. *)
Definition merge_m : list Z :=
   [0xfd7410eb24e373b1; 0x1b24773cc8129491; 0xc61258f6dd5e5885; 0x4dafeab1647a6e6b; 0x313e44c68ff53182;
    0x93ebdb2e477bcb16; 0x3f4bcf55038b7c89; 0x359c99358ca7de6; 0xd3612139107c8f49; 0xec7b27d132e4a04d;
    0xfeb89de45198e334; 0x9d70cbd415e3e396; 0x6283cbc5ec061c57; 0x8a731bedd21784a5; 0x69d1fe383d539d31;
    0x4965e908c4202a3c; 0xb8d726b485bbe260; 0x32383e3f85733284; 0x10e69b284b78cc40; 0xccb439a3e67c0b1e;
    0x70a5f81cbf2971e2; 0x59915fbe17ed8f94; 0x9a74a4d0cf9d20b4; 0x7db89df55308e31c; 6; 0xa;
    0xfffffffffb000001; 0x600000006; 0; 0; 0x5000005; 0xfffffff9fffffffa; 0xfffffffffffffffa; 0;
    0xfffffffffffffffa; 0xfff9fff9fff9fffa; 6; 0; 0; 0; 0; 0; 0; 0; 0; 0; 0; 0].
Definition merge_st : list Z :=
   [0x3be78d6acb609a75; 0xb029bbcc06eb28f4; 0x9c296d3a336f4ebf; 0x11658acd4e4f7e2b; 0x3fbe6d4c887ed708;
    0x16c83e961409dfdf; 0x343ff1cf7c3e8813; 0x2e7ff131401d9e59; 0xb652df270749d205; 0xb1bf6f335db48550;
    0x73483dafa3f622c3; 0x7ec8bdfef263a9e5; 0x97a18e614ba6a71b; 0xa6d2d97b90aba753; 0xbbce16b7de6133a0;
    0xd881091a21003f02].
Definition merge_m' : list Z :=
   [0x29310ccdd3c8c1a; 0x6c287c3434f863a2; 0x2de5ccf7391c4834; 0xccc4dd4773c41f37; 0x5bc2dcc9467629a4;
    0x10e0a1d947fdc82a; 0x394100561a027eef; 0xf0b6706abcb206bb; 0xb48d44a2d7091731; 0xe69f5fd83dc620ee;
    0x97b39be2ace1e2da; 0x9b64cbc010f9e3a2; 0xffff0003f9f3ffe7; 0x7701f4fcf0fef709; 0x5f47df805bffeaf;
    0x8a83cc061cc18c1a; 0x8004fffc06000010; 0x830285030c860310; 0xfc50500850446; 0xf3f033f3e57273d1;
    0x800c027c07917fd0; 0xf5038302ffff80f7; 0x7cf3fffcfd79fff4; 0xfff3ffedffe9ffdc; 6; 0xa;
    0xfffffffffb000001; 0x600000006; 0; 0; 0x5000005; 0xfffffff9fffffffa; 0xfffffffffffffffa; 0;
    0xfffffffffffffffa; 0xfff9fff9fff9fffa; 0xe797343ced801c50; 0x29f10dedd2a8c3c; 0x6c2e83ce32f263bf;
    0x5ae4380bc9e2bf3b; 0xc930a0bf767be194; 0x2ebeef30a1b7a5bf; 0x90e45e2341fdc83c; 0xba43855516847dff;
    0xf0b9b56fbc3702fd; 0x477d7751377b64e5; 0x996ca25dc5a8a0c4; 0x9d4fe71face19dd7].
Definition merge_st' : list Z :=
   [0x12418e06469b836f; 0xd8931f32c627ce46; 0x91653f475cfed93c; 0x1a03ddebac223183; 0x45af909eb79182f9;
    0x510f720789b157b6; 0x968f812e31bfb935; 0xbe2e188eccaaf290; 0xc7767cd5f064c5b8; 0xd970572c4d95054b;
    0xad1a0bf83410c73c; 0x380dc7f860d4e6b0; 0xee80c3ab3954ae06; 0x3661a1398387c30b; 0x286b2dd424751093;
    0xcd177e1a67c44d8d].
Lemma forall_words l : bool_decide (Forall (fun x => 0 <= x < 2 ^ 64) l) = true -> Forall (word 64) l.
Proof. intros H. exact (bool_decide_eq_true_1 _ H). Qed.
Lemma wandering_merges : exists m st m' st',
  length m = 48%nat /\ length st = 16%nat /\ Forall (word 64) m /\ Forall (word 64) st /\
  length m' = 48%nat /\ length st' = 16%nat /\ Forall (word 64) m' /\ Forall (word 64) st' /\
  (m, st) <> (m', st') /\
  MLyra2.wander debug64 MLyra2.sel_lyra2 12 1 4 1 m st 3 0 = MLyra2.wander debug64 MLyra2.sel_lyra2 12 1 4 1 m' st' 3 0 /\
  (exists r, MLyra2.wander debug64 MLyra2.sel_lyra2 12 1 4 1 m st 3 0 = Ok r).
Proof.
  exists merge_m, merge_st, merge_m', merge_st'.
  split; [reflexivity|]. split; [reflexivity|].
  split; [apply forall_words; vm_compute; reflexivity|]. split; [apply forall_words; vm_compute; reflexivity|].
  split; [reflexivity|]. split; [reflexivity|].
  split; [apply forall_words; vm_compute; reflexivity|]. split; [apply forall_words; vm_compute; reflexivity|].
  assert (E : MLyra2.wander debug64 MLyra2.sel_lyra2 12 1 4 1 merge_m merge_st 3 0 =
              Ok (replicate 48 0, 6 :: replicate 15 0, 0, 0, 3, 2)) by (vm_compute; reflexivity).
  assert (E' : MLyra2.wander debug64 MLyra2.sel_lyra2 12 1 4 1 merge_m' merge_st' 3 0 =
               Ok (replicate 48 0, 6 :: replicate 15 0, 0, 0, 3, 2)) by (vm_compute; reflexivity).
  split; [discriminate|]. rewrite E, E'. split; [reflexivity|]. eexists. reflexivity.
Qed.
