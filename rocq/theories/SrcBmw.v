(** * /repo/src/bmw/mod.rs, translated statement by statement by tools/rust2coq.py *)
From Verif Require Import Machine SrcOps.
From Verif Require SrcUtils.

(** bmw/mod.rs:3-20 [INITVAL] *)
Definition INITVAL : list Z := [0x40414243; 0x44454647; 0x48494a4b; 0x4c4d4e4f; 0x50515253; 0x54555657; 0x58595a5b; 0x5c5d5e5f; 0x60616263; 0x64656667; 0x68696a6b; 0x6c6d6e6f; 0x70717273; 0x74757677; 0x78797a7b; 0x7c7d7e7f].

(** bmw/mod.rs:22-39 [FINAL] *)
Definition FINAL : list Z := [0xaaaaaaa0; 0xaaaaaaa1; 0xaaaaaaa2; 0xaaaaaaa3; 0xaaaaaaa4; 0xaaaaaaa5; 0xaaaaaaa6; 0xaaaaaaa7; 0xaaaaaaa8; 0xaaaaaaa9; 0xaaaaaaaa; 0xaaaaaaab; 0xaaaaaaac; 0xaaaaaaad; 0xaaaaaaae; 0xaaaaaaaf].

(** bmw/mod.rs:41-43 [circular_left] *)
Definition circular_left (p : platform) (x : Z) (n : Z) : outcome Z :=
  t1 <-- shl_chk p 32 x n ;;  (* 42 *)
  t2 <-- u32sub p 32 n ;;
  t3 <-- shr_chk p 32 x t2 ;;
  Ok (Z.lor t1 t3).

(** bmw/mod.rs:45-50 [struct Bmw] *)
Record Bmw := MkBmw { Bmw_m : list Z; Bmw_h : list Z; Bmw_h2 : list Z; Bmw_q : list Z }.

(** bmw/mod.rs:52-76 [new] *)
Definition new (p : platform) : outcome Bmw :=
  '(MkBmw b_m b_h b_h2 b_q) <-- Ok (MkBmw (replicate 16 0) (replicate 16 0) (replicate 16 0) (replicate 32 0)) ;;  (* 53 *)
  b_h <-- Ok (<[0%nat := (aget INITVAL 0)]> b_h) ;;  (* 59 *)
  b_h <-- Ok (<[1%nat := (aget INITVAL 1)]> b_h) ;;  (* 60 *)
  b_h <-- Ok (<[2%nat := (aget INITVAL 2)]> b_h) ;;  (* 61 *)
  b_h <-- Ok (<[3%nat := (aget INITVAL 3)]> b_h) ;;  (* 62 *)
  b_h <-- Ok (<[4%nat := (aget INITVAL 4)]> b_h) ;;  (* 63 *)
  b_h <-- Ok (<[5%nat := (aget INITVAL 5)]> b_h) ;;  (* 64 *)
  b_h <-- Ok (<[6%nat := (aget INITVAL 6)]> b_h) ;;  (* 65 *)
  b_h <-- Ok (<[7%nat := (aget INITVAL 7)]> b_h) ;;  (* 66 *)
  b_h <-- Ok (<[8%nat := (aget INITVAL 8)]> b_h) ;;  (* 67 *)
  b_h <-- Ok (<[9%nat := (aget INITVAL 9)]> b_h) ;;  (* 68 *)
  b_h <-- Ok (<[10%nat := (aget INITVAL 10)]> b_h) ;;  (* 69 *)
  b_h <-- Ok (<[11%nat := (aget INITVAL 11)]> b_h) ;;  (* 70 *)
  b_h <-- Ok (<[12%nat := (aget INITVAL 12)]> b_h) ;;  (* 71 *)
  b_h <-- Ok (<[13%nat := (aget INITVAL 13)]> b_h) ;;  (* 72 *)
  b_h <-- Ok (<[14%nat := (aget INITVAL 14)]> b_h) ;;  (* 73 *)
  b_h <-- Ok (<[15%nat := (aget INITVAL 15)]> b_h) ;;  (* 74 *)
  Ok (MkBmw b_m b_h b_h2 b_q).  (* 75 *)

(** bmw/mod.rs:78-925 [compress] *)
Definition compress (p : platform) (b : Bmw) (m : list Z) : outcome Bmw :=
  '(MkBmw b_m b_h b_h2 b_q) <-- Ok b ;;
  h <-- Ok b_h ;;  (* 79 *)
  q <-- Ok b_q ;;  (* 80 *)
  t1 <-- circular_left p (wadd 32 (wadd 32 (wadd 32 (wsub 32 (Z.lxor (aget m 5) (aget h 5)) (Z.lxor (aget m 7) (aget h 7))) (Z.lxor (aget m 10) (aget h 10))) (Z.lxor (aget m 13) (aget h 13))) (Z.lxor (aget m 14) (aget h 14))) 4 ;;  (* 81 *)
  t2 <-- circular_left p (wadd 32 (wadd 32 (wadd 32 (wsub 32 (Z.lxor (aget m 5) (aget h 5)) (Z.lxor (aget m 7) (aget h 7))) (Z.lxor (aget m 10) (aget h 10))) (Z.lxor (aget m 13) (aget h 13))) (Z.lxor (aget m 14) (aget h 14))) 19 ;;
  q <-- Ok (<[0%nat := (wadd 32 (Z.lxor (Z.lxor (Z.lxor (wshr (wadd 32 (wadd 32 (wadd 32 (wsub 32 (Z.lxor (aget m 5) (aget h 5)) (Z.lxor (aget m 7) (aget h 7))) (Z.lxor (aget m 10) (aget h 10))) (Z.lxor (aget m 13) (aget h 13))) (Z.lxor (aget m 14) (aget h 14))) 1) (wshl 32 (wadd 32 (wadd 32 (wadd 32 (wsub 32 (Z.lxor (aget m 5) (aget h 5)) (Z.lxor (aget m 7) (aget h 7))) (Z.lxor (aget m 10) (aget h 10))) (Z.lxor (aget m 13) (aget h 13))) (Z.lxor (aget m 14) (aget h 14))) 3)) t1) t2) (aget h 1))]> q) ;;
  t3 <-- circular_left p (wsub 32 (wadd 32 (wadd 32 (wsub 32 (Z.lxor (aget m 6) (aget h 6)) (Z.lxor (aget m 8) (aget h 8))) (Z.lxor (aget m 11) (aget h 11))) (Z.lxor (aget m 14) (aget h 14))) (Z.lxor (aget m 15) (aget h 15))) 8 ;;  (* 110 *)
  t4 <-- circular_left p (wsub 32 (wadd 32 (wadd 32 (wsub 32 (Z.lxor (aget m 6) (aget h 6)) (Z.lxor (aget m 8) (aget h 8))) (Z.lxor (aget m 11) (aget h 11))) (Z.lxor (aget m 14) (aget h 14))) (Z.lxor (aget m 15) (aget h 15))) 23 ;;
  q <-- Ok (<[1%nat := (wadd 32 (Z.lxor (Z.lxor (Z.lxor (wshr (wsub 32 (wadd 32 (wadd 32 (wsub 32 (Z.lxor (aget m 6) (aget h 6)) (Z.lxor (aget m 8) (aget h 8))) (Z.lxor (aget m 11) (aget h 11))) (Z.lxor (aget m 14) (aget h 14))) (Z.lxor (aget m 15) (aget h 15))) 1) (wshl 32 (wsub 32 (wadd 32 (wadd 32 (wsub 32 (Z.lxor (aget m 6) (aget h 6)) (Z.lxor (aget m 8) (aget h 8))) (Z.lxor (aget m 11) (aget h 11))) (Z.lxor (aget m 14) (aget h 14))) (Z.lxor (aget m 15) (aget h 15))) 2)) t3) t4) (aget h 2))]> q) ;;
  t5 <-- circular_left p (wadd 32 (wsub 32 (wadd 32 (wadd 32 (Z.lxor (aget m 0) (aget h 0)) (Z.lxor (aget m 7) (aget h 7))) (Z.lxor (aget m 9) (aget h 9))) (Z.lxor (aget m 12) (aget h 12))) (Z.lxor (aget m 15) (aget h 15))) 12 ;;  (* 139 *)
  t6 <-- circular_left p (wadd 32 (wsub 32 (wadd 32 (wadd 32 (Z.lxor (aget m 0) (aget h 0)) (Z.lxor (aget m 7) (aget h 7))) (Z.lxor (aget m 9) (aget h 9))) (Z.lxor (aget m 12) (aget h 12))) (Z.lxor (aget m 15) (aget h 15))) 25 ;;
  q <-- Ok (<[2%nat := (wadd 32 (Z.lxor (Z.lxor (Z.lxor (wshr (wadd 32 (wsub 32 (wadd 32 (wadd 32 (Z.lxor (aget m 0) (aget h 0)) (Z.lxor (aget m 7) (aget h 7))) (Z.lxor (aget m 9) (aget h 9))) (Z.lxor (aget m 12) (aget h 12))) (Z.lxor (aget m 15) (aget h 15))) 2) (wshl 32 (wadd 32 (wsub 32 (wadd 32 (wadd 32 (Z.lxor (aget m 0) (aget h 0)) (Z.lxor (aget m 7) (aget h 7))) (Z.lxor (aget m 9) (aget h 9))) (Z.lxor (aget m 12) (aget h 12))) (Z.lxor (aget m 15) (aget h 15))) 1)) t5) t6) (aget h 3))]> q) ;;
  t7 <-- circular_left p (wadd 32 (wsub 32 (wadd 32 (wsub 32 (Z.lxor (aget m 0) (aget h 0)) (Z.lxor (aget m 1) (aget h 1))) (Z.lxor (aget m 8) (aget h 8))) (Z.lxor (aget m 10) (aget h 10))) (Z.lxor (aget m 13) (aget h 13))) 15 ;;  (* 168 *)
  t8 <-- circular_left p (wadd 32 (wsub 32 (wadd 32 (wsub 32 (Z.lxor (aget m 0) (aget h 0)) (Z.lxor (aget m 1) (aget h 1))) (Z.lxor (aget m 8) (aget h 8))) (Z.lxor (aget m 10) (aget h 10))) (Z.lxor (aget m 13) (aget h 13))) 29 ;;
  q <-- Ok (<[3%nat := (wadd 32 (Z.lxor (Z.lxor (Z.lxor (wshr (wadd 32 (wsub 32 (wadd 32 (wsub 32 (Z.lxor (aget m 0) (aget h 0)) (Z.lxor (aget m 1) (aget h 1))) (Z.lxor (aget m 8) (aget h 8))) (Z.lxor (aget m 10) (aget h 10))) (Z.lxor (aget m 13) (aget h 13))) 2) (wshl 32 (wadd 32 (wsub 32 (wadd 32 (wsub 32 (Z.lxor (aget m 0) (aget h 0)) (Z.lxor (aget m 1) (aget h 1))) (Z.lxor (aget m 8) (aget h 8))) (Z.lxor (aget m 10) (aget h 10))) (Z.lxor (aget m 13) (aget h 13))) 2)) t7) t8) (aget h 4))]> q) ;;
  q <-- Ok (<[4%nat := (wadd 32 (Z.lxor (wshr (wsub 32 (wsub 32 (wadd 32 (wadd 32 (Z.lxor (aget m 1) (aget h 1)) (Z.lxor (aget m 2) (aget h 2))) (Z.lxor (aget m 9) (aget h 9))) (Z.lxor (aget m 11) (aget h 11))) (Z.lxor (aget m 14) (aget h 14))) 1) (wsub 32 (wsub 32 (wadd 32 (wadd 32 (Z.lxor (aget m 1) (aget h 1)) (Z.lxor (aget m 2) (aget h 2))) (Z.lxor (aget m 9) (aget h 9))) (Z.lxor (aget m 11) (aget h 11))) (Z.lxor (aget m 14) (aget h 14)))) (aget h 5))]> q) ;;  (* 197 *)
  t9 <-- circular_left p (wadd 32 (wsub 32 (wadd 32 (wsub 32 (Z.lxor (aget m 3) (aget h 3)) (Z.lxor (aget m 2) (aget h 2))) (Z.lxor (aget m 10) (aget h 10))) (Z.lxor (aget m 12) (aget h 12))) (Z.lxor (aget m 15) (aget h 15))) 4 ;;  (* 209 *)
  t10 <-- circular_left p (wadd 32 (wsub 32 (wadd 32 (wsub 32 (Z.lxor (aget m 3) (aget h 3)) (Z.lxor (aget m 2) (aget h 2))) (Z.lxor (aget m 10) (aget h 10))) (Z.lxor (aget m 12) (aget h 12))) (Z.lxor (aget m 15) (aget h 15))) 19 ;;
  q <-- Ok (<[5%nat := (wadd 32 (Z.lxor (Z.lxor (Z.lxor (wshr (wadd 32 (wsub 32 (wadd 32 (wsub 32 (Z.lxor (aget m 3) (aget h 3)) (Z.lxor (aget m 2) (aget h 2))) (Z.lxor (aget m 10) (aget h 10))) (Z.lxor (aget m 12) (aget h 12))) (Z.lxor (aget m 15) (aget h 15))) 1) (wshl 32 (wadd 32 (wsub 32 (wadd 32 (wsub 32 (Z.lxor (aget m 3) (aget h 3)) (Z.lxor (aget m 2) (aget h 2))) (Z.lxor (aget m 10) (aget h 10))) (Z.lxor (aget m 12) (aget h 12))) (Z.lxor (aget m 15) (aget h 15))) 3)) t9) t10) (aget h 6))]> q) ;;
  t11 <-- circular_left p (wadd 32 (wsub 32 (wsub 32 (wsub 32 (Z.lxor (aget m 4) (aget h 4)) (Z.lxor (aget m 0) (aget h 0))) (Z.lxor (aget m 3) (aget h 3))) (Z.lxor (aget m 11) (aget h 11))) (Z.lxor (aget m 13) (aget h 13))) 8 ;;  (* 238 *)
  t12 <-- circular_left p (wadd 32 (wsub 32 (wsub 32 (wsub 32 (Z.lxor (aget m 4) (aget h 4)) (Z.lxor (aget m 0) (aget h 0))) (Z.lxor (aget m 3) (aget h 3))) (Z.lxor (aget m 11) (aget h 11))) (Z.lxor (aget m 13) (aget h 13))) 23 ;;
  q <-- Ok (<[6%nat := (wadd 32 (Z.lxor (Z.lxor (Z.lxor (wshr (wadd 32 (wsub 32 (wsub 32 (wsub 32 (Z.lxor (aget m 4) (aget h 4)) (Z.lxor (aget m 0) (aget h 0))) (Z.lxor (aget m 3) (aget h 3))) (Z.lxor (aget m 11) (aget h 11))) (Z.lxor (aget m 13) (aget h 13))) 1) (wshl 32 (wadd 32 (wsub 32 (wsub 32 (wsub 32 (Z.lxor (aget m 4) (aget h 4)) (Z.lxor (aget m 0) (aget h 0))) (Z.lxor (aget m 3) (aget h 3))) (Z.lxor (aget m 11) (aget h 11))) (Z.lxor (aget m 13) (aget h 13))) 2)) t11) t12) (aget h 7))]> q) ;;
  t13 <-- circular_left p (wsub 32 (wsub 32 (wsub 32 (wsub 32 (Z.lxor (aget m 1) (aget h 1)) (Z.lxor (aget m 4) (aget h 4))) (Z.lxor (aget m 5) (aget h 5))) (Z.lxor (aget m 12) (aget h 12))) (Z.lxor (aget m 14) (aget h 14))) 12 ;;  (* 267 *)
  t14 <-- circular_left p (wsub 32 (wsub 32 (wsub 32 (wsub 32 (Z.lxor (aget m 1) (aget h 1)) (Z.lxor (aget m 4) (aget h 4))) (Z.lxor (aget m 5) (aget h 5))) (Z.lxor (aget m 12) (aget h 12))) (Z.lxor (aget m 14) (aget h 14))) 25 ;;
  q <-- Ok (<[7%nat := (wadd 32 (Z.lxor (Z.lxor (Z.lxor (wshr (wsub 32 (wsub 32 (wsub 32 (wsub 32 (Z.lxor (aget m 1) (aget h 1)) (Z.lxor (aget m 4) (aget h 4))) (Z.lxor (aget m 5) (aget h 5))) (Z.lxor (aget m 12) (aget h 12))) (Z.lxor (aget m 14) (aget h 14))) 2) (wshl 32 (wsub 32 (wsub 32 (wsub 32 (wsub 32 (Z.lxor (aget m 1) (aget h 1)) (Z.lxor (aget m 4) (aget h 4))) (Z.lxor (aget m 5) (aget h 5))) (Z.lxor (aget m 12) (aget h 12))) (Z.lxor (aget m 14) (aget h 14))) 1)) t13) t14) (aget h 8))]> q) ;;
  t15 <-- circular_left p (wsub 32 (wadd 32 (wsub 32 (wsub 32 (Z.lxor (aget m 2) (aget h 2)) (Z.lxor (aget m 5) (aget h 5))) (Z.lxor (aget m 6) (aget h 6))) (Z.lxor (aget m 13) (aget h 13))) (Z.lxor (aget m 15) (aget h 15))) 15 ;;  (* 296 *)
  t16 <-- circular_left p (wsub 32 (wadd 32 (wsub 32 (wsub 32 (Z.lxor (aget m 2) (aget h 2)) (Z.lxor (aget m 5) (aget h 5))) (Z.lxor (aget m 6) (aget h 6))) (Z.lxor (aget m 13) (aget h 13))) (Z.lxor (aget m 15) (aget h 15))) 29 ;;
  q <-- Ok (<[8%nat := (wadd 32 (Z.lxor (Z.lxor (Z.lxor (wshr (wsub 32 (wadd 32 (wsub 32 (wsub 32 (Z.lxor (aget m 2) (aget h 2)) (Z.lxor (aget m 5) (aget h 5))) (Z.lxor (aget m 6) (aget h 6))) (Z.lxor (aget m 13) (aget h 13))) (Z.lxor (aget m 15) (aget h 15))) 2) (wshl 32 (wsub 32 (wadd 32 (wsub 32 (wsub 32 (Z.lxor (aget m 2) (aget h 2)) (Z.lxor (aget m 5) (aget h 5))) (Z.lxor (aget m 6) (aget h 6))) (Z.lxor (aget m 13) (aget h 13))) (Z.lxor (aget m 15) (aget h 15))) 2)) t15) t16) (aget h 9))]> q) ;;
  q <-- Ok (<[9%nat := (wadd 32 (Z.lxor (wshr (wadd 32 (wsub 32 (wadd 32 (wsub 32 (Z.lxor (aget m 0) (aget h 0)) (Z.lxor (aget m 3) (aget h 3))) (Z.lxor (aget m 6) (aget h 6))) (Z.lxor (aget m 7) (aget h 7))) (Z.lxor (aget m 14) (aget h 14))) 1) (wadd 32 (wsub 32 (wadd 32 (wsub 32 (Z.lxor (aget m 0) (aget h 0)) (Z.lxor (aget m 3) (aget h 3))) (Z.lxor (aget m 6) (aget h 6))) (Z.lxor (aget m 7) (aget h 7))) (Z.lxor (aget m 14) (aget h 14)))) (aget h 10))]> q) ;;  (* 325 *)
  t17 <-- circular_left p (wadd 32 (wsub 32 (wsub 32 (wsub 32 (Z.lxor (aget m 8) (aget h 8)) (Z.lxor (aget m 1) (aget h 1))) (Z.lxor (aget m 4) (aget h 4))) (Z.lxor (aget m 7) (aget h 7))) (Z.lxor (aget m 15) (aget h 15))) 4 ;;  (* 337 *)
  t18 <-- circular_left p (wadd 32 (wsub 32 (wsub 32 (wsub 32 (Z.lxor (aget m 8) (aget h 8)) (Z.lxor (aget m 1) (aget h 1))) (Z.lxor (aget m 4) (aget h 4))) (Z.lxor (aget m 7) (aget h 7))) (Z.lxor (aget m 15) (aget h 15))) 19 ;;
  q <-- Ok (<[10%nat := (wadd 32 (Z.lxor (Z.lxor (Z.lxor (wshr (wadd 32 (wsub 32 (wsub 32 (wsub 32 (Z.lxor (aget m 8) (aget h 8)) (Z.lxor (aget m 1) (aget h 1))) (Z.lxor (aget m 4) (aget h 4))) (Z.lxor (aget m 7) (aget h 7))) (Z.lxor (aget m 15) (aget h 15))) 1) (wshl 32 (wadd 32 (wsub 32 (wsub 32 (wsub 32 (Z.lxor (aget m 8) (aget h 8)) (Z.lxor (aget m 1) (aget h 1))) (Z.lxor (aget m 4) (aget h 4))) (Z.lxor (aget m 7) (aget h 7))) (Z.lxor (aget m 15) (aget h 15))) 3)) t17) t18) (aget h 11))]> q) ;;
  t19 <-- circular_left p (wadd 32 (wsub 32 (wsub 32 (wsub 32 (Z.lxor (aget m 8) (aget h 8)) (Z.lxor (aget m 0) (aget h 0))) (Z.lxor (aget m 2) (aget h 2))) (Z.lxor (aget m 5) (aget h 5))) (Z.lxor (aget m 9) (aget h 9))) 8 ;;  (* 366 *)
  t20 <-- circular_left p (wadd 32 (wsub 32 (wsub 32 (wsub 32 (Z.lxor (aget m 8) (aget h 8)) (Z.lxor (aget m 0) (aget h 0))) (Z.lxor (aget m 2) (aget h 2))) (Z.lxor (aget m 5) (aget h 5))) (Z.lxor (aget m 9) (aget h 9))) 23 ;;
  q <-- Ok (<[11%nat := (wadd 32 (Z.lxor (Z.lxor (Z.lxor (wshr (wadd 32 (wsub 32 (wsub 32 (wsub 32 (Z.lxor (aget m 8) (aget h 8)) (Z.lxor (aget m 0) (aget h 0))) (Z.lxor (aget m 2) (aget h 2))) (Z.lxor (aget m 5) (aget h 5))) (Z.lxor (aget m 9) (aget h 9))) 1) (wshl 32 (wadd 32 (wsub 32 (wsub 32 (wsub 32 (Z.lxor (aget m 8) (aget h 8)) (Z.lxor (aget m 0) (aget h 0))) (Z.lxor (aget m 2) (aget h 2))) (Z.lxor (aget m 5) (aget h 5))) (Z.lxor (aget m 9) (aget h 9))) 2)) t19) t20) (aget h 12))]> q) ;;
  t21 <-- circular_left p (wadd 32 (wsub 32 (wsub 32 (wadd 32 (Z.lxor (aget m 1) (aget h 1)) (Z.lxor (aget m 3) (aget h 3))) (Z.lxor (aget m 6) (aget h 6))) (Z.lxor (aget m 9) (aget h 9))) (Z.lxor (aget m 10) (aget h 10))) 12 ;;  (* 395 *)
  t22 <-- circular_left p (wadd 32 (wsub 32 (wsub 32 (wadd 32 (Z.lxor (aget m 1) (aget h 1)) (Z.lxor (aget m 3) (aget h 3))) (Z.lxor (aget m 6) (aget h 6))) (Z.lxor (aget m 9) (aget h 9))) (Z.lxor (aget m 10) (aget h 10))) 25 ;;
  q <-- Ok (<[12%nat := (wadd 32 (Z.lxor (Z.lxor (Z.lxor (wshr (wadd 32 (wsub 32 (wsub 32 (wadd 32 (Z.lxor (aget m 1) (aget h 1)) (Z.lxor (aget m 3) (aget h 3))) (Z.lxor (aget m 6) (aget h 6))) (Z.lxor (aget m 9) (aget h 9))) (Z.lxor (aget m 10) (aget h 10))) 2) (wshl 32 (wadd 32 (wsub 32 (wsub 32 (wadd 32 (Z.lxor (aget m 1) (aget h 1)) (Z.lxor (aget m 3) (aget h 3))) (Z.lxor (aget m 6) (aget h 6))) (Z.lxor (aget m 9) (aget h 9))) (Z.lxor (aget m 10) (aget h 10))) 1)) t21) t22) (aget h 13))]> q) ;;
  t23 <-- circular_left p (wadd 32 (wadd 32 (wadd 32 (wadd 32 (Z.lxor (aget m 2) (aget h 2)) (Z.lxor (aget m 4) (aget h 4))) (Z.lxor (aget m 7) (aget h 7))) (Z.lxor (aget m 10) (aget h 10))) (Z.lxor (aget m 11) (aget h 11))) 15 ;;  (* 424 *)
  t24 <-- circular_left p (wadd 32 (wadd 32 (wadd 32 (wadd 32 (Z.lxor (aget m 2) (aget h 2)) (Z.lxor (aget m 4) (aget h 4))) (Z.lxor (aget m 7) (aget h 7))) (Z.lxor (aget m 10) (aget h 10))) (Z.lxor (aget m 11) (aget h 11))) 29 ;;
  q <-- Ok (<[13%nat := (wadd 32 (Z.lxor (Z.lxor (Z.lxor (wshr (wadd 32 (wadd 32 (wadd 32 (wadd 32 (Z.lxor (aget m 2) (aget h 2)) (Z.lxor (aget m 4) (aget h 4))) (Z.lxor (aget m 7) (aget h 7))) (Z.lxor (aget m 10) (aget h 10))) (Z.lxor (aget m 11) (aget h 11))) 2) (wshl 32 (wadd 32 (wadd 32 (wadd 32 (wadd 32 (Z.lxor (aget m 2) (aget h 2)) (Z.lxor (aget m 4) (aget h 4))) (Z.lxor (aget m 7) (aget h 7))) (Z.lxor (aget m 10) (aget h 10))) (Z.lxor (aget m 11) (aget h 11))) 2)) t23) t24) (aget h 14))]> q) ;;
  q <-- Ok (<[14%nat := (wadd 32 (Z.lxor (wshr (wsub 32 (wsub 32 (wadd 32 (wsub 32 (Z.lxor (aget m 3) (aget h 3)) (Z.lxor (aget m 5) (aget h 5))) (Z.lxor (aget m 8) (aget h 8))) (Z.lxor (aget m 11) (aget h 11))) (Z.lxor (aget m 12) (aget h 12))) 1) (wsub 32 (wsub 32 (wadd 32 (wsub 32 (Z.lxor (aget m 3) (aget h 3)) (Z.lxor (aget m 5) (aget h 5))) (Z.lxor (aget m 8) (aget h 8))) (Z.lxor (aget m 11) (aget h 11))) (Z.lxor (aget m 12) (aget h 12)))) (aget h 15))]> q) ;;  (* 453 *)
  t25 <-- circular_left p (wadd 32 (wsub 32 (wsub 32 (wsub 32 (Z.lxor (aget m 12) (aget h 12)) (Z.lxor (aget m 4) (aget h 4))) (Z.lxor (aget m 6) (aget h 6))) (Z.lxor (aget m 9) (aget h 9))) (Z.lxor (aget m 13) (aget h 13))) 4 ;;  (* 465 *)
  t26 <-- circular_left p (wadd 32 (wsub 32 (wsub 32 (wsub 32 (Z.lxor (aget m 12) (aget h 12)) (Z.lxor (aget m 4) (aget h 4))) (Z.lxor (aget m 6) (aget h 6))) (Z.lxor (aget m 9) (aget h 9))) (Z.lxor (aget m 13) (aget h 13))) 19 ;;
  q <-- Ok (<[15%nat := (wadd 32 (Z.lxor (Z.lxor (Z.lxor (wshr (wadd 32 (wsub 32 (wsub 32 (wsub 32 (Z.lxor (aget m 12) (aget h 12)) (Z.lxor (aget m 4) (aget h 4))) (Z.lxor (aget m 6) (aget h 6))) (Z.lxor (aget m 9) (aget h 9))) (Z.lxor (aget m 13) (aget h 13))) 1) (wshl 32 (wadd 32 (wsub 32 (wsub 32 (wsub 32 (Z.lxor (aget m 12) (aget h 12)) (Z.lxor (aget m 4) (aget h 4))) (Z.lxor (aget m 6) (aget h 6))) (Z.lxor (aget m 9) (aget h 9))) (Z.lxor (aget m 13) (aget h 13))) 3)) t25) t26) (aget h 0))]> q) ;;
  t27 <-- circular_left p (aget q 0) 8 ;;  (* 494 *)
  t28 <-- circular_left p (aget q 0) 23 ;;
  t29 <-- circular_left p (aget q 1) 12 ;;
  t30 <-- circular_left p (aget q 1) 25 ;;
  t31 <-- circular_left p (aget q 2) 15 ;;
  t32 <-- circular_left p (aget q 2) 29 ;;
  t33 <-- circular_left p (aget q 3) 4 ;;
  t34 <-- circular_left p (aget q 3) 19 ;;
  t35 <-- circular_left p (aget q 4) 8 ;;
  t36 <-- circular_left p (aget q 4) 23 ;;
  t37 <-- circular_left p (aget q 5) 12 ;;
  t38 <-- circular_left p (aget q 5) 25 ;;
  t39 <-- circular_left p (aget q 6) 15 ;;
  t40 <-- circular_left p (aget q 6) 29 ;;
  t41 <-- circular_left p (aget q 7) 4 ;;
  t42 <-- circular_left p (aget q 7) 19 ;;
  t43 <-- circular_left p (aget q 8) 8 ;;
  t44 <-- circular_left p (aget q 8) 23 ;;
  t45 <-- circular_left p (aget q 9) 12 ;;
  t46 <-- circular_left p (aget q 9) 25 ;;
  t47 <-- circular_left p (aget q 10) 15 ;;
  t48 <-- circular_left p (aget q 10) 29 ;;
  t49 <-- circular_left p (aget q 11) 4 ;;
  t50 <-- circular_left p (aget q 11) 19 ;;
  t51 <-- circular_left p (aget q 12) 8 ;;
  t52 <-- circular_left p (aget q 12) 23 ;;
  t53 <-- circular_left p (aget q 13) 12 ;;
  t54 <-- circular_left p (aget q 13) 25 ;;
  t55 <-- circular_left p (aget q 14) 15 ;;
  t56 <-- circular_left p (aget q 14) 29 ;;
  t57 <-- circular_left p (aget q 15) 4 ;;
  t58 <-- circular_left p (aget q 15) 19 ;;
  t59 <-- circular_left p (aget m 0) 1 ;;
  t60 <-- circular_left p (aget m 3) 4 ;;
  t61 <-- circular_left p (aget m 10) 11 ;;
  q <-- Ok (<[16%nat := (wadd 32 (wadd 32 (wadd 32 (wadd 32 (wadd 32 (wadd 32 (wadd 32 (wadd 32 (wadd 32 (wadd 32 (wadd 32 (wadd 32 (wadd 32 (wadd 32 (wadd 32 (wadd 32 (Z.lxor (Z.lxor (Z.lxor (wshr (aget q 0) 1) (wshl 32 (aget q 0) 2)) t27) t28) (Z.lxor (Z.lxor (Z.lxor (wshr (aget q 1) 2) (wshl 32 (aget q 1) 1)) t29) t30)) (Z.lxor (Z.lxor (Z.lxor (wshr (aget q 2) 2) (wshl 32 (aget q 2) 2)) t31) t32)) (Z.lxor (Z.lxor (Z.lxor (wshr (aget q 3) 1) (wshl 32 (aget q 3) 3)) t33) t34)) (Z.lxor (Z.lxor (Z.lxor (wshr (aget q 4) 1) (wshl 32 (aget q 4) 2)) t35) t36)) (Z.lxor (Z.lxor (Z.lxor (wshr (aget q 5) 2) (wshl 32 (aget q 5) 1)) t37) t38)) (Z.lxor (Z.lxor (Z.lxor (wshr (aget q 6) 2) (wshl 32 (aget q 6) 2)) t39) t40)) (Z.lxor (Z.lxor (Z.lxor (wshr (aget q 7) 1) (wshl 32 (aget q 7) 3)) t41) t42)) (Z.lxor (Z.lxor (Z.lxor (wshr (aget q 8) 1) (wshl 32 (aget q 8) 2)) t43) t44)) (Z.lxor (Z.lxor (Z.lxor (wshr (aget q 9) 2) (wshl 32 (aget q 9) 1)) t45) t46)) (Z.lxor (Z.lxor (Z.lxor (wshr (aget q 10) 2) (wshl 32 (aget q 10) 2)) t47) t48)) (Z.lxor (Z.lxor (Z.lxor (wshr (aget q 11) 1) (wshl 32 (aget q 11) 3)) t49) t50)) (Z.lxor (Z.lxor (Z.lxor (wshr (aget q 12) 1) (wshl 32 (aget q 12) 2)) t51) t52)) (Z.lxor (Z.lxor (Z.lxor (wshr (aget q 13) 2) (wshl 32 (aget q 13) 1)) t53) t54)) (Z.lxor (Z.lxor (Z.lxor (wshr (aget q 14) 2) (wshl 32 (aget q 14) 2)) t55) t56)) (Z.lxor (Z.lxor (Z.lxor (wshr (aget q 15) 1) (wshl 32 (aget q 15) 3)) t57) t58)) (Z.lxor (wadd 32 (wsub 32 (wadd 32 t59 t60) t61) (16 * 0x5555555)) (aget h 7)))]> q) ;;
  t62 <-- circular_left p (aget q 1) 8 ;;  (* 529 *)
  t63 <-- circular_left p (aget q 1) 23 ;;
  t64 <-- circular_left p (aget q 2) 12 ;;
  t65 <-- circular_left p (aget q 2) 25 ;;
  t66 <-- circular_left p (aget q 3) 15 ;;
  t67 <-- circular_left p (aget q 3) 29 ;;
  t68 <-- circular_left p (aget q 4) 4 ;;
  t69 <-- circular_left p (aget q 4) 19 ;;
  t70 <-- circular_left p (aget q 5) 8 ;;
  t71 <-- circular_left p (aget q 5) 23 ;;
  t72 <-- circular_left p (aget q 6) 12 ;;
  t73 <-- circular_left p (aget q 6) 25 ;;
  t74 <-- circular_left p (aget q 7) 15 ;;
  t75 <-- circular_left p (aget q 7) 29 ;;
  t76 <-- circular_left p (aget q 8) 4 ;;
  t77 <-- circular_left p (aget q 8) 19 ;;
  t78 <-- circular_left p (aget q 9) 8 ;;
  t79 <-- circular_left p (aget q 9) 23 ;;
  t80 <-- circular_left p (aget q 10) 12 ;;
  t81 <-- circular_left p (aget q 10) 25 ;;
  t82 <-- circular_left p (aget q 11) 15 ;;
  t83 <-- circular_left p (aget q 11) 29 ;;
  t84 <-- circular_left p (aget q 12) 4 ;;
  t85 <-- circular_left p (aget q 12) 19 ;;
  t86 <-- circular_left p (aget q 13) 8 ;;
  t87 <-- circular_left p (aget q 13) 23 ;;
  t88 <-- circular_left p (aget q 14) 12 ;;
  t89 <-- circular_left p (aget q 14) 25 ;;
  t90 <-- circular_left p (aget q 15) 15 ;;
  t91 <-- circular_left p (aget q 15) 29 ;;
  t92 <-- circular_left p (aget q 16) 4 ;;
  t93 <-- circular_left p (aget q 16) 19 ;;
  t94 <-- circular_left p (aget m 1) 2 ;;
  t95 <-- circular_left p (aget m 4) 5 ;;
  t96 <-- circular_left p (aget m 11) 12 ;;
  q <-- Ok (<[17%nat := (wadd 32 (wadd 32 (wadd 32 (wadd 32 (wadd 32 (wadd 32 (wadd 32 (wadd 32 (wadd 32 (wadd 32 (wadd 32 (wadd 32 (wadd 32 (wadd 32 (wadd 32 (wadd 32 (Z.lxor (Z.lxor (Z.lxor (wshr (aget q 1) 1) (wshl 32 (aget q 1) 2)) t62) t63) (Z.lxor (Z.lxor (Z.lxor (wshr (aget q 2) 2) (wshl 32 (aget q 2) 1)) t64) t65)) (Z.lxor (Z.lxor (Z.lxor (wshr (aget q 3) 2) (wshl 32 (aget q 3) 2)) t66) t67)) (Z.lxor (Z.lxor (Z.lxor (wshr (aget q 4) 1) (wshl 32 (aget q 4) 3)) t68) t69)) (Z.lxor (Z.lxor (Z.lxor (wshr (aget q 5) 1) (wshl 32 (aget q 5) 2)) t70) t71)) (Z.lxor (Z.lxor (Z.lxor (wshr (aget q 6) 2) (wshl 32 (aget q 6) 1)) t72) t73)) (Z.lxor (Z.lxor (Z.lxor (wshr (aget q 7) 2) (wshl 32 (aget q 7) 2)) t74) t75)) (Z.lxor (Z.lxor (Z.lxor (wshr (aget q 8) 1) (wshl 32 (aget q 8) 3)) t76) t77)) (Z.lxor (Z.lxor (Z.lxor (wshr (aget q 9) 1) (wshl 32 (aget q 9) 2)) t78) t79)) (Z.lxor (Z.lxor (Z.lxor (wshr (aget q 10) 2) (wshl 32 (aget q 10) 1)) t80) t81)) (Z.lxor (Z.lxor (Z.lxor (wshr (aget q 11) 2) (wshl 32 (aget q 11) 2)) t82) t83)) (Z.lxor (Z.lxor (Z.lxor (wshr (aget q 12) 1) (wshl 32 (aget q 12) 3)) t84) t85)) (Z.lxor (Z.lxor (Z.lxor (wshr (aget q 13) 1) (wshl 32 (aget q 13) 2)) t86) t87)) (Z.lxor (Z.lxor (Z.lxor (wshr (aget q 14) 2) (wshl 32 (aget q 14) 1)) t88) t89)) (Z.lxor (Z.lxor (Z.lxor (wshr (aget q 15) 2) (wshl 32 (aget q 15) 2)) t90) t91)) (Z.lxor (Z.lxor (Z.lxor (wshr (aget q 16) 1) (wshl 32 (aget q 16) 3)) t92) t93)) (Z.lxor (wadd 32 (wsub 32 (wadd 32 t94 t95) t96) (17 * 0x5555555)) (aget h 8)))]> q) ;;
  t97 <-- circular_left p (aget q 3) 3 ;;  (* 566 *)
  t98 <-- circular_left p (aget q 5) 7 ;;
  t99 <-- circular_left p (aget q 7) 13 ;;
  t100 <-- circular_left p (aget q 9) 16 ;;
  t101 <-- circular_left p (aget q 11) 19 ;;
  t102 <-- circular_left p (aget q 13) 23 ;;
  t103 <-- circular_left p (aget q 15) 27 ;;
  t104 <-- circular_left p (aget m 2) 3 ;;
  t105 <-- circular_left p (aget m 5) 6 ;;
  t106 <-- circular_left p (aget m 12) 13 ;;
  q <-- Ok (<[18%nat := (wadd 32 (wadd 32 (wadd 32 (wadd 32 (wadd 32 (wadd 32 (wadd 32 (wadd 32 (wadd 32 (wadd 32 (wadd 32 (wadd 32 (wadd 32 (wadd 32 (wadd 32 (wadd 32 (aget q 2) t97) (aget q 4)) t98) (aget q 6)) t99) (aget q 8)) t100) (aget q 10)) t101) (aget q 12)) t102) (aget q 14)) t103) (Z.lxor (wshr (aget q 16) 1) (aget q 16))) (Z.lxor (wshr (aget q 17) 2) (aget q 17))) (Z.lxor (wadd 32 (wsub 32 (wadd 32 t104 t105) t106) (18 * 0x5555555)) (aget h 9)))]> q) ;;
  t107 <-- circular_left p (aget q 4) 3 ;;  (* 589 *)
  t108 <-- circular_left p (aget q 6) 7 ;;
  t109 <-- circular_left p (aget q 8) 13 ;;
  t110 <-- circular_left p (aget q 10) 16 ;;
  t111 <-- circular_left p (aget q 12) 19 ;;
  t112 <-- circular_left p (aget q 14) 23 ;;
  t113 <-- circular_left p (aget q 16) 27 ;;
  t114 <-- circular_left p (aget m 3) 4 ;;
  t115 <-- circular_left p (aget m 6) 7 ;;
  t116 <-- circular_left p (aget m 13) 14 ;;
  q <-- Ok (<[19%nat := (wadd 32 (wadd 32 (wadd 32 (wadd 32 (wadd 32 (wadd 32 (wadd 32 (wadd 32 (wadd 32 (wadd 32 (wadd 32 (wadd 32 (wadd 32 (wadd 32 (wadd 32 (wadd 32 (aget q 3) t107) (aget q 5)) t108) (aget q 7)) t109) (aget q 9)) t110) (aget q 11)) t111) (aget q 13)) t112) (aget q 15)) t113) (Z.lxor (wshr (aget q 17) 1) (aget q 17))) (Z.lxor (wshr (aget q 18) 2) (aget q 18))) (Z.lxor (wadd 32 (wsub 32 (wadd 32 t114 t115) t116) (19 * 0x5555555)) (aget h 10)))]> q) ;;
  t117 <-- circular_left p (aget q 5) 3 ;;  (* 612 *)
  t118 <-- circular_left p (aget q 7) 7 ;;
  t119 <-- circular_left p (aget q 9) 13 ;;
  t120 <-- circular_left p (aget q 11) 16 ;;
  t121 <-- circular_left p (aget q 13) 19 ;;
  t122 <-- circular_left p (aget q 15) 23 ;;
  t123 <-- circular_left p (aget q 17) 27 ;;
  t124 <-- circular_left p (aget m 4) 5 ;;
  t125 <-- circular_left p (aget m 7) 8 ;;
  t126 <-- circular_left p (aget m 14) 15 ;;
  q <-- Ok (<[20%nat := (wadd 32 (wadd 32 (wadd 32 (wadd 32 (wadd 32 (wadd 32 (wadd 32 (wadd 32 (wadd 32 (wadd 32 (wadd 32 (wadd 32 (wadd 32 (wadd 32 (wadd 32 (wadd 32 (aget q 4) t117) (aget q 6)) t118) (aget q 8)) t119) (aget q 10)) t120) (aget q 12)) t121) (aget q 14)) t122) (aget q 16)) t123) (Z.lxor (wshr (aget q 18) 1) (aget q 18))) (Z.lxor (wshr (aget q 19) 2) (aget q 19))) (Z.lxor (wadd 32 (wsub 32 (wadd 32 t124 t125) t126) (20 * 0x5555555)) (aget h 11)))]> q) ;;
  t127 <-- circular_left p (aget q 6) 3 ;;  (* 635 *)
  t128 <-- circular_left p (aget q 8) 7 ;;
  t129 <-- circular_left p (aget q 10) 13 ;;
  t130 <-- circular_left p (aget q 12) 16 ;;
  t131 <-- circular_left p (aget q 14) 19 ;;
  t132 <-- circular_left p (aget q 16) 23 ;;
  t133 <-- circular_left p (aget q 18) 27 ;;
  t134 <-- circular_left p (aget m 5) 6 ;;
  t135 <-- circular_left p (aget m 8) 9 ;;
  t136 <-- circular_left p (aget m 15) 16 ;;
  q <-- Ok (<[21%nat := (wadd 32 (wadd 32 (wadd 32 (wadd 32 (wadd 32 (wadd 32 (wadd 32 (wadd 32 (wadd 32 (wadd 32 (wadd 32 (wadd 32 (wadd 32 (wadd 32 (wadd 32 (wadd 32 (aget q 5) t127) (aget q 7)) t128) (aget q 9)) t129) (aget q 11)) t130) (aget q 13)) t131) (aget q 15)) t132) (aget q 17)) t133) (Z.lxor (wshr (aget q 19) 1) (aget q 19))) (Z.lxor (wshr (aget q 20) 2) (aget q 20))) (Z.lxor (wadd 32 (wsub 32 (wadd 32 t134 t135) t136) (21 * 0x5555555)) (aget h 12)))]> q) ;;
  t137 <-- circular_left p (aget q 7) 3 ;;  (* 658 *)
  t138 <-- circular_left p (aget q 9) 7 ;;
  t139 <-- circular_left p (aget q 11) 13 ;;
  t140 <-- circular_left p (aget q 13) 16 ;;
  t141 <-- circular_left p (aget q 15) 19 ;;
  t142 <-- circular_left p (aget q 17) 23 ;;
  t143 <-- circular_left p (aget q 19) 27 ;;
  t144 <-- circular_left p (aget m 6) 7 ;;
  t145 <-- circular_left p (aget m 9) 10 ;;
  t146 <-- circular_left p (aget m 0) 1 ;;
  q <-- Ok (<[22%nat := (wadd 32 (wadd 32 (wadd 32 (wadd 32 (wadd 32 (wadd 32 (wadd 32 (wadd 32 (wadd 32 (wadd 32 (wadd 32 (wadd 32 (wadd 32 (wadd 32 (wadd 32 (wadd 32 (aget q 6) t137) (aget q 8)) t138) (aget q 10)) t139) (aget q 12)) t140) (aget q 14)) t141) (aget q 16)) t142) (aget q 18)) t143) (Z.lxor (wshr (aget q 20) 1) (aget q 20))) (Z.lxor (wshr (aget q 21) 2) (aget q 21))) (Z.lxor (wadd 32 (wsub 32 (wadd 32 t144 t145) t146) (22 * 0x5555555)) (aget h 13)))]> q) ;;
  t147 <-- circular_left p (aget q 8) 3 ;;  (* 681 *)
  t148 <-- circular_left p (aget q 10) 7 ;;
  t149 <-- circular_left p (aget q 12) 13 ;;
  t150 <-- circular_left p (aget q 14) 16 ;;
  t151 <-- circular_left p (aget q 16) 19 ;;
  t152 <-- circular_left p (aget q 18) 23 ;;
  t153 <-- circular_left p (aget q 20) 27 ;;
  t154 <-- circular_left p (aget m 7) 8 ;;
  t155 <-- circular_left p (aget m 10) 11 ;;
  t156 <-- circular_left p (aget m 1) 2 ;;
  q <-- Ok (<[23%nat := (wadd 32 (wadd 32 (wadd 32 (wadd 32 (wadd 32 (wadd 32 (wadd 32 (wadd 32 (wadd 32 (wadd 32 (wadd 32 (wadd 32 (wadd 32 (wadd 32 (wadd 32 (wadd 32 (aget q 7) t147) (aget q 9)) t148) (aget q 11)) t149) (aget q 13)) t150) (aget q 15)) t151) (aget q 17)) t152) (aget q 19)) t153) (Z.lxor (wshr (aget q 21) 1) (aget q 21))) (Z.lxor (wshr (aget q 22) 2) (aget q 22))) (Z.lxor (wadd 32 (wsub 32 (wadd 32 t154 t155) t156) (23 * 0x5555555)) (aget h 14)))]> q) ;;
  t157 <-- circular_left p (aget q 9) 3 ;;  (* 704 *)
  t158 <-- circular_left p (aget q 11) 7 ;;
  t159 <-- circular_left p (aget q 13) 13 ;;
  t160 <-- circular_left p (aget q 15) 16 ;;
  t161 <-- circular_left p (aget q 17) 19 ;;
  t162 <-- circular_left p (aget q 19) 23 ;;
  t163 <-- circular_left p (aget q 21) 27 ;;
  t164 <-- circular_left p (aget m 8) 9 ;;
  t165 <-- circular_left p (aget m 11) 12 ;;
  t166 <-- circular_left p (aget m 2) 3 ;;
  q <-- Ok (<[24%nat := (wadd 32 (wadd 32 (wadd 32 (wadd 32 (wadd 32 (wadd 32 (wadd 32 (wadd 32 (wadd 32 (wadd 32 (wadd 32 (wadd 32 (wadd 32 (wadd 32 (wadd 32 (wadd 32 (aget q 8) t157) (aget q 10)) t158) (aget q 12)) t159) (aget q 14)) t160) (aget q 16)) t161) (aget q 18)) t162) (aget q 20)) t163) (Z.lxor (wshr (aget q 22) 1) (aget q 22))) (Z.lxor (wshr (aget q 23) 2) (aget q 23))) (Z.lxor (wadd 32 (wsub 32 (wadd 32 t164 t165) t166) (24 * 0x5555555)) (aget h 15)))]> q) ;;
  t167 <-- circular_left p (aget q 10) 3 ;;  (* 727 *)
  t168 <-- circular_left p (aget q 12) 7 ;;
  t169 <-- circular_left p (aget q 14) 13 ;;
  t170 <-- circular_left p (aget q 16) 16 ;;
  t171 <-- circular_left p (aget q 18) 19 ;;
  t172 <-- circular_left p (aget q 20) 23 ;;
  t173 <-- circular_left p (aget q 22) 27 ;;
  t174 <-- circular_left p (aget m 9) 10 ;;
  t175 <-- circular_left p (aget m 12) 13 ;;
  t176 <-- circular_left p (aget m 3) 4 ;;
  q <-- Ok (<[25%nat := (wadd 32 (wadd 32 (wadd 32 (wadd 32 (wadd 32 (wadd 32 (wadd 32 (wadd 32 (wadd 32 (wadd 32 (wadd 32 (wadd 32 (wadd 32 (wadd 32 (wadd 32 (wadd 32 (aget q 9) t167) (aget q 11)) t168) (aget q 13)) t169) (aget q 15)) t170) (aget q 17)) t171) (aget q 19)) t172) (aget q 21)) t173) (Z.lxor (wshr (aget q 23) 1) (aget q 23))) (Z.lxor (wshr (aget q 24) 2) (aget q 24))) (Z.lxor (wadd 32 (wsub 32 (wadd 32 t174 t175) t176) (25 * 0x5555555)) (aget h 0)))]> q) ;;
  t177 <-- circular_left p (aget q 11) 3 ;;  (* 750 *)
  t178 <-- circular_left p (aget q 13) 7 ;;
  t179 <-- circular_left p (aget q 15) 13 ;;
  t180 <-- circular_left p (aget q 17) 16 ;;
  t181 <-- circular_left p (aget q 19) 19 ;;
  t182 <-- circular_left p (aget q 21) 23 ;;
  t183 <-- circular_left p (aget q 23) 27 ;;
  t184 <-- circular_left p (aget m 10) 11 ;;
  t185 <-- circular_left p (aget m 13) 14 ;;
  t186 <-- circular_left p (aget m 4) 5 ;;
  q <-- Ok (<[26%nat := (wadd 32 (wadd 32 (wadd 32 (wadd 32 (wadd 32 (wadd 32 (wadd 32 (wadd 32 (wadd 32 (wadd 32 (wadd 32 (wadd 32 (wadd 32 (wadd 32 (wadd 32 (wadd 32 (aget q 10) t177) (aget q 12)) t178) (aget q 14)) t179) (aget q 16)) t180) (aget q 18)) t181) (aget q 20)) t182) (aget q 22)) t183) (Z.lxor (wshr (aget q 24) 1) (aget q 24))) (Z.lxor (wshr (aget q 25) 2) (aget q 25))) (Z.lxor (wadd 32 (wsub 32 (wadd 32 t184 t185) t186) (26 * 0x5555555)) (aget h 1)))]> q) ;;
  t187 <-- circular_left p (aget q 12) 3 ;;  (* 773 *)
  t188 <-- circular_left p (aget q 14) 7 ;;
  t189 <-- circular_left p (aget q 16) 13 ;;
  t190 <-- circular_left p (aget q 18) 16 ;;
  t191 <-- circular_left p (aget q 20) 19 ;;
  t192 <-- circular_left p (aget q 22) 23 ;;
  t193 <-- circular_left p (aget q 24) 27 ;;
  t194 <-- circular_left p (aget m 11) 12 ;;
  t195 <-- circular_left p (aget m 14) 15 ;;
  t196 <-- circular_left p (aget m 5) 6 ;;
  q <-- Ok (<[27%nat := (wadd 32 (wadd 32 (wadd 32 (wadd 32 (wadd 32 (wadd 32 (wadd 32 (wadd 32 (wadd 32 (wadd 32 (wadd 32 (wadd 32 (wadd 32 (wadd 32 (wadd 32 (wadd 32 (aget q 11) t187) (aget q 13)) t188) (aget q 15)) t189) (aget q 17)) t190) (aget q 19)) t191) (aget q 21)) t192) (aget q 23)) t193) (Z.lxor (wshr (aget q 25) 1) (aget q 25))) (Z.lxor (wshr (aget q 26) 2) (aget q 26))) (Z.lxor (wadd 32 (wsub 32 (wadd 32 t194 t195) t196) (27 * 0x5555555)) (aget h 2)))]> q) ;;
  t197 <-- circular_left p (aget q 13) 3 ;;  (* 796 *)
  t198 <-- circular_left p (aget q 15) 7 ;;
  t199 <-- circular_left p (aget q 17) 13 ;;
  t200 <-- circular_left p (aget q 19) 16 ;;
  t201 <-- circular_left p (aget q 21) 19 ;;
  t202 <-- circular_left p (aget q 23) 23 ;;
  t203 <-- circular_left p (aget q 25) 27 ;;
  t204 <-- circular_left p (aget m 12) 13 ;;
  t205 <-- circular_left p (aget m 15) 16 ;;
  t206 <-- circular_left p (aget m 6) 7 ;;
  q <-- Ok (<[28%nat := (wadd 32 (wadd 32 (wadd 32 (wadd 32 (wadd 32 (wadd 32 (wadd 32 (wadd 32 (wadd 32 (wadd 32 (wadd 32 (wadd 32 (wadd 32 (wadd 32 (wadd 32 (wadd 32 (aget q 12) t197) (aget q 14)) t198) (aget q 16)) t199) (aget q 18)) t200) (aget q 20)) t201) (aget q 22)) t202) (aget q 24)) t203) (Z.lxor (wshr (aget q 26) 1) (aget q 26))) (Z.lxor (wshr (aget q 27) 2) (aget q 27))) (Z.lxor (wadd 32 (wsub 32 (wadd 32 t204 t205) t206) (28 * 0x5555555)) (aget h 3)))]> q) ;;
  t207 <-- circular_left p (aget q 14) 3 ;;  (* 819 *)
  t208 <-- circular_left p (aget q 16) 7 ;;
  t209 <-- circular_left p (aget q 18) 13 ;;
  t210 <-- circular_left p (aget q 20) 16 ;;
  t211 <-- circular_left p (aget q 22) 19 ;;
  t212 <-- circular_left p (aget q 24) 23 ;;
  t213 <-- circular_left p (aget q 26) 27 ;;
  t214 <-- circular_left p (aget m 13) 14 ;;
  t215 <-- circular_left p (aget m 0) 1 ;;
  t216 <-- circular_left p (aget m 7) 8 ;;
  q <-- Ok (<[29%nat := (wadd 32 (wadd 32 (wadd 32 (wadd 32 (wadd 32 (wadd 32 (wadd 32 (wadd 32 (wadd 32 (wadd 32 (wadd 32 (wadd 32 (wadd 32 (wadd 32 (wadd 32 (wadd 32 (aget q 13) t207) (aget q 15)) t208) (aget q 17)) t209) (aget q 19)) t210) (aget q 21)) t211) (aget q 23)) t212) (aget q 25)) t213) (Z.lxor (wshr (aget q 27) 1) (aget q 27))) (Z.lxor (wshr (aget q 28) 2) (aget q 28))) (Z.lxor (wadd 32 (wsub 32 (wadd 32 t214 t215) t216) (29 * 0x5555555)) (aget h 4)))]> q) ;;
  t217 <-- circular_left p (aget q 15) 3 ;;  (* 842 *)
  t218 <-- circular_left p (aget q 17) 7 ;;
  t219 <-- circular_left p (aget q 19) 13 ;;
  t220 <-- circular_left p (aget q 21) 16 ;;
  t221 <-- circular_left p (aget q 23) 19 ;;
  t222 <-- circular_left p (aget q 25) 23 ;;
  t223 <-- circular_left p (aget q 27) 27 ;;
  t224 <-- circular_left p (aget m 14) 15 ;;
  t225 <-- circular_left p (aget m 1) 2 ;;
  t226 <-- circular_left p (aget m 8) 9 ;;
  q <-- Ok (<[30%nat := (wadd 32 (wadd 32 (wadd 32 (wadd 32 (wadd 32 (wadd 32 (wadd 32 (wadd 32 (wadd 32 (wadd 32 (wadd 32 (wadd 32 (wadd 32 (wadd 32 (wadd 32 (wadd 32 (aget q 14) t217) (aget q 16)) t218) (aget q 18)) t219) (aget q 20)) t220) (aget q 22)) t221) (aget q 24)) t222) (aget q 26)) t223) (Z.lxor (wshr (aget q 28) 1) (aget q 28))) (Z.lxor (wshr (aget q 29) 2) (aget q 29))) (Z.lxor (wadd 32 (wsub 32 (wadd 32 t224 t225) t226) (30 * 0x5555555)) (aget h 5)))]> q) ;;
  t227 <-- circular_left p (aget q 16) 3 ;;  (* 865 *)
  t228 <-- circular_left p (aget q 18) 7 ;;
  t229 <-- circular_left p (aget q 20) 13 ;;
  t230 <-- circular_left p (aget q 22) 16 ;;
  t231 <-- circular_left p (aget q 24) 19 ;;
  t232 <-- circular_left p (aget q 26) 23 ;;
  t233 <-- circular_left p (aget q 28) 27 ;;
  t234 <-- circular_left p (aget m 15) 16 ;;
  t235 <-- circular_left p (aget m 2) 3 ;;
  t236 <-- circular_left p (aget m 9) 10 ;;
  q <-- Ok (<[31%nat := (wadd 32 (wadd 32 (wadd 32 (wadd 32 (wadd 32 (wadd 32 (wadd 32 (wadd 32 (wadd 32 (wadd 32 (wadd 32 (wadd 32 (wadd 32 (wadd 32 (wadd 32 (wadd 32 (aget q 15) t227) (aget q 17)) t228) (aget q 19)) t229) (aget q 21)) t230) (aget q 23)) t231) (aget q 25)) t232) (aget q 27)) t233) (Z.lxor (wshr (aget q 29) 1) (aget q 29))) (Z.lxor (wshr (aget q 30) 2) (aget q 30))) (Z.lxor (wadd 32 (wsub 32 (wadd 32 t234 t235) t236) (31 * 0x5555555)) (aget h 6)))]> q) ;;
  xl <-- Ok (Z.lxor (Z.lxor (Z.lxor (Z.lxor (Z.lxor (Z.lxor (Z.lxor (aget q 16) (aget q 17)) (aget q 18)) (aget q 19)) (aget q 20)) (aget q 21)) (aget q 22)) (aget q 23)) ;;  (* 888 *)
  xh <-- Ok (Z.lxor (Z.lxor (Z.lxor (Z.lxor (Z.lxor (Z.lxor (Z.lxor (Z.lxor xl (aget q 24)) (aget q 25)) (aget q 26)) (aget q 27)) (aget q 28)) (aget q 29)) (aget q 30)) (aget q 31)) ;;  (* 889 *)
  h <-- Ok (<[0%nat := (wadd 32 (Z.lxor (Z.lxor (wshl 32 xh 5) (wshr (aget q 16) 5)) (aget m 0)) (Z.lxor (Z.lxor xl (aget q 24)) (aget q 0)))]> h) ;;  (* 890 *)
  h <-- Ok (<[1%nat := (wadd 32 (Z.lxor (Z.lxor (wshr xh 7) (wshl 32 (aget q 17) 8)) (aget m 1)) (Z.lxor (Z.lxor xl (aget q 25)) (aget q 1)))]> h) ;;  (* 891 *)
  h <-- Ok (<[2%nat := (wadd 32 (Z.lxor (Z.lxor (wshr xh 5) (wshl 32 (aget q 18) 5)) (aget m 2)) (Z.lxor (Z.lxor xl (aget q 26)) (aget q 2)))]> h) ;;  (* 892 *)
  h <-- Ok (<[3%nat := (wadd 32 (Z.lxor (Z.lxor (wshr xh 1) (wshl 32 (aget q 19) 5)) (aget m 3)) (Z.lxor (Z.lxor xl (aget q 27)) (aget q 3)))]> h) ;;  (* 893 *)
  h <-- Ok (<[4%nat := (wadd 32 (Z.lxor (Z.lxor (wshr xh 3) (aget q 20)) (aget m 4)) (Z.lxor (Z.lxor xl (aget q 28)) (aget q 4)))]> h) ;;  (* 894 *)
  h <-- Ok (<[5%nat := (wadd 32 (Z.lxor (Z.lxor (wshl 32 xh 6) (wshr (aget q 21) 6)) (aget m 5)) (Z.lxor (Z.lxor xl (aget q 29)) (aget q 5)))]> h) ;;  (* 895 *)
  h <-- Ok (<[6%nat := (wadd 32 (Z.lxor (Z.lxor (wshr xh 4) (wshl 32 (aget q 22) 6)) (aget m 6)) (Z.lxor (Z.lxor xl (aget q 30)) (aget q 6)))]> h) ;;  (* 896 *)
  h <-- Ok (<[7%nat := (wadd 32 (Z.lxor (Z.lxor (wshr xh 11) (wshl 32 (aget q 23) 2)) (aget m 7)) (Z.lxor (Z.lxor xl (aget q 31)) (aget q 7)))]> h) ;;  (* 897 *)
  t237 <-- circular_left p (aget h 4) 9 ;;  (* 898 *)
  h <-- Ok (<[8%nat := (wadd 32 (wadd 32 t237 (Z.lxor (Z.lxor xh (aget q 24)) (aget m 8))) (Z.lxor (Z.lxor (wshl 32 xl 8) (aget q 23)) (aget q 8)))]> h) ;;
  t238 <-- circular_left p (aget h 5) 10 ;;  (* 901 *)
  h <-- Ok (<[9%nat := (wadd 32 (wadd 32 t238 (Z.lxor (Z.lxor xh (aget q 25)) (aget m 9))) (Z.lxor (Z.lxor (wshr xl 6) (aget q 16)) (aget q 9)))]> h) ;;
  t239 <-- circular_left p (aget h 6) 11 ;;  (* 904 *)
  h <-- Ok (<[10%nat := (wadd 32 (wadd 32 t239 (Z.lxor (Z.lxor xh (aget q 26)) (aget m 10))) (Z.lxor (Z.lxor (wshl 32 xl 6) (aget q 17)) (aget q 10)))]> h) ;;
  t240 <-- circular_left p (aget h 7) 12 ;;  (* 907 *)
  h <-- Ok (<[11%nat := (wadd 32 (wadd 32 t240 (Z.lxor (Z.lxor xh (aget q 27)) (aget m 11))) (Z.lxor (Z.lxor (wshl 32 xl 4) (aget q 18)) (aget q 11)))]> h) ;;
  t241 <-- circular_left p (aget h 0) 13 ;;  (* 910 *)
  h <-- Ok (<[12%nat := (wadd 32 (wadd 32 t241 (Z.lxor (Z.lxor xh (aget q 28)) (aget m 12))) (Z.lxor (Z.lxor (wshr xl 3) (aget q 19)) (aget q 12)))]> h) ;;
  t242 <-- circular_left p (aget h 1) 14 ;;  (* 913 *)
  h <-- Ok (<[13%nat := (wadd 32 (wadd 32 t242 (Z.lxor (Z.lxor xh (aget q 29)) (aget m 13))) (Z.lxor (Z.lxor (wshr xl 4) (aget q 20)) (aget q 13)))]> h) ;;
  t243 <-- circular_left p (aget h 2) 15 ;;  (* 916 *)
  h <-- Ok (<[14%nat := (wadd 32 (wadd 32 t243 (Z.lxor (Z.lxor xh (aget q 30)) (aget m 14))) (Z.lxor (Z.lxor (wshr xl 7) (aget q 21)) (aget q 14)))]> h) ;;
  t244 <-- circular_left p (aget h 3) 16 ;;  (* 919 *)
  h <-- Ok (<[15%nat := (wadd 32 (wadd 32 t244 (Z.lxor (Z.lxor xh (aget q 31)) (aget m 15))) (Z.lxor (Z.lxor (wshr xl 2) (aget q 22)) (aget q 15)))]> h) ;;
  t245 <-- slice h 0 16 ;;  (* 922 *)
  b_h <-- slice_set b_h 16 t245 ;;
  t247 <-- slice q 0 32 ;;  (* 923 *)
  b_q <-- slice_set b_q 32 t247 ;;
  Ok (MkBmw b_m b_h b_h2 b_q).  (* 924 *)

(** bmw/mod.rs:932-938: body of the [for] loop over [_i]. *)
Definition sum_body1 (p : platform) (input : list Z) (_i : Z) (s : list Z) : outcome (list Z) :=
  let buf := s in
  buf <-- (if (_i <? (vlen input)) then  (* 933 *)
    t1 <-- vget input _i ;;  (* 934 *)
    buf <-- vec_extend p buf [t1] ;;
    Ok buf
  else
    buf <-- vec_extend p buf [0] ;;  (* 936 *)
    Ok buf) ;;
  Ok buf.

(** bmw/mod.rs:950-954: body of the [for] loop over [_i]. *)
Definition sum_body2 (p : platform) (buf : list Z) (_i : Z) (s : list Z) : outcome (list Z) :=
  let b_m := s in
  start <-- szmul p 4 _i ;;  (* 951 *)
  end_ <-- szadd p start 4 ;;  (* 952 *)
  t3 <-- slice buf start end_ ;;  (* 953 *)
  t4 <-- SrcUtils.read_u32_le p t3 ;;
  b_m <-- vset b_m _i t4 ;;
  Ok b_m.

(** bmw/mod.rs:929-972 [sum] *)
Definition sum (p : platform) (input : list Z) : outcome (list Z) :=
  '(MkBmw b_m b_h b_h2 b_q) <-- new p ;;  (* 930 *)
  buf <-- vec_with_capacity p 1 64 ;;  (* 931 *)
  buf <-- for_range 0 64 (sum_body1 p input) buf ;;  (* 932 *)
  buf <-- vset buf (vlen input) 128 ;;  (* 939 *)
  bit_len <-- Ok (to_le_bytes 8 (wshl 64 (vlen input) 3)) ;;  (* 940 *)
  buf <-- vset buf 56 (aget bit_len 0) ;;  (* 941 *)
  buf <-- vset buf 57 (aget bit_len 1) ;;  (* 942 *)
  buf <-- vset buf 58 (aget bit_len 2) ;;  (* 943 *)
  buf <-- vset buf 59 (aget bit_len 3) ;;  (* 944 *)
  buf <-- vset buf 60 (aget bit_len 4) ;;  (* 945 *)
  buf <-- vset buf 61 (aget bit_len 5) ;;  (* 946 *)
  buf <-- vset buf 62 (aget bit_len 6) ;;  (* 947 *)
  buf <-- vset buf 63 (aget bit_len 7) ;;  (* 948 *)
  _i <-- Ok 0 ;;  (* 949 *)
  b_m <-- for_range 0 16 (sum_body2 p buf) b_m ;;  (* 950 *)
  m <-- Ok b_m ;;  (* 955 *)
  '(MkBmw b_m b_h b_h2 b_q) <-- compress p (MkBmw b_m b_h b_h2 b_q) m ;;  (* 956 *)
  h <-- Ok b_h ;;  (* 957 *)
  t13 <-- slice h 0 16 ;;  (* 958 *)
  b_h2 <-- slice_set b_h2 16 t13 ;;
  t15 <-- slice FINAL 0 16 ;;  (* 959 *)
  b_h <-- slice_set b_h 16 t15 ;;
  h2 <-- Ok b_h2 ;;  (* 960 *)
  '(MkBmw b_m b_h b_h2 b_q) <-- compress p (MkBmw b_m b_h b_h2 b_q) h2 ;;  (* 961 *)
  out <-- Ok [] ;;  (* 962 *)
  out <-- vec_extend p out (to_le_bytes 4 (aget b_h 8)) ;;  (* 963 *)
  out <-- vec_extend p out (to_le_bytes 4 (aget b_h 9)) ;;  (* 964 *)
  out <-- vec_extend p out (to_le_bytes 4 (aget b_h 10)) ;;  (* 965 *)
  out <-- vec_extend p out (to_le_bytes 4 (aget b_h 11)) ;;  (* 966 *)
  out <-- vec_extend p out (to_le_bytes 4 (aget b_h 12)) ;;  (* 967 *)
  out <-- vec_extend p out (to_le_bytes 4 (aget b_h 13)) ;;  (* 968 *)
  out <-- vec_extend p out (to_le_bytes 4 (aget b_h 14)) ;;  (* 969 *)
  out <-- vec_extend p out (to_le_bytes 4 (aget b_h 15)) ;;  (* 970 *)
  Ok out.  (* 971 *)
