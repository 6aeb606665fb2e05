(** * /repo/src/bmw/mod.rs, translated by tools/rust2coq.py, with a log of what is observable *)
From Verif Require Import Machine SrcOps Seen SrcBmw.
From Verif Require SrcUtils.

(** As [sum_body1], with the log of what is observable. bmw/mod.rs:932-938: body of the [for] loop over [_i]. *)
Definition sum_body1_seen (p : platform) (input : list Z) (_i : Z) (s : list Z) : seen (list Z) :=
  let buf := s in
  buf <=! sif (_i <? (vlen input)) (  (* 933 *)
    t1 <=! sget "input" input _i ;;  (* 934 *)
    buf <=! ssize (vlen [t1]) (vec_extend p buf [t1]) ;;
    sret (buf)
  ) (
    buf <=! ssize (vlen [0]) (vec_extend p buf [0]) ;;  (* 936 *)
    sret (buf)) ;;
  sret (buf).

(** As [sum_body2], with the log of what is observable. bmw/mod.rs:950-954: body of the [for] loop over [_i]. *)
Definition sum_body2_seen (p : platform) (buf : list Z) (_i : Z) (s : list Z) : seen (list Z) :=
  let b_m := s in
  start <=! squiet (szmul p 4 _i) ;;  (* 951 *)
  end_ <=! squiet (szadd p start 4) ;;  (* 952 *)
  t3 <=! sslice "buf" buf start end_ ;;  (* 953 *)
  t4 <=! squiet (SrcUtils.read_u32_le p t3) ;;
  b_m <=! sput "b_m" b_m _i t4 ;;
  sret (b_m).

(** As [sum], with the log of what is observable. bmw/mod.rs:929-972 [sum] *)
Definition sum_seen (p : platform) (input : list Z) : seen (list Z) :=
  '(MkBmw b_m b_h b_h2 b_q) <=! squiet (new p) ;;  (* 930 *)
  buf <=! ssize 64 (vec_with_capacity p 1 64) ;;  (* 931 *)
  buf <=! sfor 0 64 (sum_body1_seen p input) buf ;;  (* 932 *)
  buf <=! sput "buf" buf (vlen input) 128 ;;  (* 939 *)
  bit_len <=! sret ((to_le_bytes 8 (wshl 64 (vlen input) 3))) ;;  (* 940 *)
  buf <=! sput "buf" buf 56 (aget bit_len 0) ;;  (* 941 *)
  buf <=! sput "buf" buf 57 (aget bit_len 1) ;;  (* 942 *)
  buf <=! sput "buf" buf 58 (aget bit_len 2) ;;  (* 943 *)
  buf <=! sput "buf" buf 59 (aget bit_len 3) ;;  (* 944 *)
  buf <=! sput "buf" buf 60 (aget bit_len 4) ;;  (* 945 *)
  buf <=! sput "buf" buf 61 (aget bit_len 5) ;;  (* 946 *)
  buf <=! sput "buf" buf 62 (aget bit_len 6) ;;  (* 947 *)
  buf <=! sput "buf" buf 63 (aget bit_len 7) ;;  (* 948 *)
  _i <=! sret (0) ;;  (* 949 *)
  b_m <=! sfor 0 16 (sum_body2_seen p buf) b_m ;;  (* 950 *)
  m <=! sret (b_m) ;;  (* 955 *)
  '(MkBmw b_m b_h b_h2 b_q) <=! squiet (compress p (MkBmw b_m b_h b_h2 b_q) m) ;;  (* 956 *)
  h <=! sret (b_h) ;;  (* 957 *)
  t13 <=! sslice "h" h 0 16 ;;  (* 958 *)
  b_h2 <=! sslice_set "b_h2" b_h2 16 t13 ;;
  t15 <=! sslice "FINAL" FINAL 0 16 ;;  (* 959 *)
  b_h <=! sslice_set "b_h" b_h 16 t15 ;;
  h2 <=! sret (b_h2) ;;  (* 960 *)
  '(MkBmw b_m b_h b_h2 b_q) <=! squiet (compress p (MkBmw b_m b_h b_h2 b_q) h2) ;;  (* 961 *)
  out <=! sret ([]) ;;  (* 962 *)
  out <=! ssize (vlen (to_le_bytes 4 (aget b_h 8))) (vec_extend p out (to_le_bytes 4 (aget b_h 8))) ;;  (* 963 *)
  out <=! ssize (vlen (to_le_bytes 4 (aget b_h 9))) (vec_extend p out (to_le_bytes 4 (aget b_h 9))) ;;  (* 964 *)
  out <=! ssize (vlen (to_le_bytes 4 (aget b_h 10))) (vec_extend p out (to_le_bytes 4 (aget b_h 10))) ;;  (* 965 *)
  out <=! ssize (vlen (to_le_bytes 4 (aget b_h 11))) (vec_extend p out (to_le_bytes 4 (aget b_h 11))) ;;  (* 966 *)
  out <=! ssize (vlen (to_le_bytes 4 (aget b_h 12))) (vec_extend p out (to_le_bytes 4 (aget b_h 12))) ;;  (* 967 *)
  out <=! ssize (vlen (to_le_bytes 4 (aget b_h 13))) (vec_extend p out (to_le_bytes 4 (aget b_h 13))) ;;  (* 968 *)
  out <=! ssize (vlen (to_le_bytes 4 (aget b_h 14))) (vec_extend p out (to_le_bytes 4 (aget b_h 14))) ;;  (* 969 *)
  out <=! ssize (vlen (to_le_bytes 4 (aget b_h 15))) (vec_extend p out (to_le_bytes 4 (aget b_h 15))) ;;  (* 970 *)
  sret (out).  (* 971 *)
