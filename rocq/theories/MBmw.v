(** * Model of /repo/src/bmw/mod.rs *)
From Verif Require Import Machine MUtils MBmwGen.

(** bmw/mod.rs:3-20 [INITVAL] *)
Definition INITVAL : list Z :=
  [0x40414243; 0x44454647; 0x48494A4B; 0x4C4D4E4F; 0x50515253; 0x54555657; 0x58595A5B;
   0x5C5D5E5F; 0x60616263; 0x64656667; 0x68696A6B; 0x6C6D6E6F; 0x70717273; 0x74757677;
   0x78797A7B; 0x7C7D7E7F].

(** bmw/mod.rs:22-39 [FINAL] *)
Definition FINAL : list Z :=
  [0xaaaaaaa0; 0xaaaaaaa1; 0xaaaaaaa2; 0xaaaaaaa3; 0xaaaaaaa4; 0xaaaaaaa5; 0xaaaaaaa6;
   0xaaaaaaa7; 0xaaaaaaa8; 0xaaaaaaa9; 0xaaaaaaaa; 0xaaaaaaab; 0xaaaaaaac; 0xaaaaaaad;
   0xaaaaaaae; 0xaaaaaaaf].

(** bmw/mod.rs:45-50 [struct Bmw] *)
Record Bmw := MkBmw { b_m : list Z; b_h : list Z; b_h2 : list Z; b_q : list Z }.

(** bmw/mod.rs:52-76 [new]: the sixteen statements [b.h[i] = INITVAL[i]]. *)
Definition bmw_new : Bmw :=
  let h := foldl (fun h i => <[i := aget INITVAL i]> h) (replicate 16 0)
             [0; 1; 2; 3; 4; 5; 6; 7; 8; 9; 10; 11; 12; 13; 14; 15]%nat in
  MkBmw (replicate 16 0) h (replicate 16 0) (replicate 32 0).

(** bmw/mod.rs:81-493: the assignments to [q[0]] .. [q[15]] (f0), in order. *)
Definition compress_f0 (m h q : list Z) : list Z :=
  foldl (fun q '(i, rhs) => <[i := rhs m h q]> q) q
    [(0%nat, bmw_q0); (1%nat, bmw_q1); (2%nat, bmw_q2); (3%nat, bmw_q3);
     (4%nat, bmw_q4); (5%nat, bmw_q5); (6%nat, bmw_q6); (7%nat, bmw_q7);
     (8%nat, bmw_q8); (9%nat, bmw_q9); (10%nat, bmw_q10); (11%nat, bmw_q11);
     (12%nat, bmw_q12); (13%nat, bmw_q13); (14%nat, bmw_q14); (15%nat, bmw_q15)].

(** bmw/mod.rs:494-887: the assignments to [q[16]] .. [q[31]] (f1), in order. *)
Definition compress_f1 (m h q : list Z) : list Z :=
  foldl (fun q '(i, rhs) => <[i := rhs m h q]> q) q
    [(16%nat, bmw_q16); (17%nat, bmw_q17); (18%nat, bmw_q18); (19%nat, bmw_q19);
     (20%nat, bmw_q20); (21%nat, bmw_q21); (22%nat, bmw_q22); (23%nat, bmw_q23);
     (24%nat, bmw_q24); (25%nat, bmw_q25); (26%nat, bmw_q26); (27%nat, bmw_q27);
     (28%nat, bmw_q28); (29%nat, bmw_q29); (30%nat, bmw_q30); (31%nat, bmw_q31)].

(** bmw/mod.rs:888-921: [xl], [xh] and the assignments to [h[0]] .. [h[15]] (f2), in order. *)
Definition compress_f2 (m h q : list Z) : list Z :=
  let xl := bmw_xl q in
  let xh := bmw_xh q xl in
  foldl (fun h '(i, rhs) => <[i := rhs m h q xl xh]> h) h
    [(0%nat, bmw_h0); (1%nat, bmw_h1); (2%nat, bmw_h2); (3%nat, bmw_h3);
     (4%nat, bmw_h4); (5%nat, bmw_h5); (6%nat, bmw_h6); (7%nat, bmw_h7);
     (8%nat, bmw_h8); (9%nat, bmw_h9); (10%nat, bmw_h10); (11%nat, bmw_h11);
     (12%nat, bmw_h12); (13%nat, bmw_h13); (14%nat, bmw_h14); (15%nat, bmw_h15)].

(** bmw/mod.rs:78-925 [compress] *)
Definition compress (b : Bmw) (m : list Z) : Bmw :=
  let h := b_h b in
  let q := b_q b in
  let q := compress_f0 m h q in
  let q := compress_f1 m h q in
  let h := compress_f2 m h q in
  MkBmw (b_m b) h (b_h2 b) q.

(** bmw/mod.rs:931-948: the 64-byte padded block.  [buf[input.len()]] panics for
    inputs of 64 bytes or more. *)
Definition bmw_buf (p : platform) (input : list Z) : outcome (list Z) :=
  buf <-- for_range 0 64 (fun i buf =>
            if i <? vlen input then
              x <-- vget input i ;; vec_extend p buf [x]
            else vec_extend p buf [0]) [] ;;
  buf <-- vset buf (vlen input) 0x80 ;;
  let bit_len := to_le_bytes 8 (wshl 64 (vlen input) 3) in
  foldM (fun buf '(i, j) => vset buf i (aget bit_len j))
    [(56, 0%nat); (57, 1%nat); (58, 2%nat); (59, 3%nat);
     (60, 4%nat); (61, 5%nat); (62, 6%nat); (63, 7%nat)] buf.

(** bmw/mod.rs:949-954: [b.m[i] = read_u32_le(&buf[4*i..4*i+4])]. *)
Definition bmw_words (buf m : list Z) : outcome (list Z) :=
  for_range 0 16 (fun i m =>
    bs <-- slice buf (4 * i) (4 * i + 4) ;;
    w <-- read_u32_le bs ;;
    vset m i w) m.

(** bmw/mod.rs:929-972 [sum] *)
Definition bmw_sum (p : platform) (input : list Z) : outcome (list Z) :=
  let b := bmw_new in
  buf <-- bmw_buf p input ;;
  m <-- bmw_words buf (b_m b) ;;
  let b := MkBmw m (b_h b) (b_h2 b) (b_q b) in
  let b := compress b m in
  let h := b_h b in
  let b := MkBmw (b_m b) FINAL h (b_q b) in
  let h2 := b_h2 b in
  let b := compress b h2 in
  foldM (fun out i => vec_extend p out (to_le_bytes 4 (aget (b_h b) i)))
    [8; 9; 10; 11; 12; 13; 14; 15]%nat [].
