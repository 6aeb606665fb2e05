(** * cubehash::sum and bmw::sum cut in two

    The statements are those of [cubehash_sum] (MCube.v) and [bmw_sum] (MBmw.v) in
    the same order; [cubehash_in_two_parts] (PDigestState.v) and [bmw_in_parts]
    (PBmwState.v) prove that the parts make the functions. *)
From Verif Require Import Machine MUtils MCubeGen MCube MBmwGen MBmw.

(** cubehash/mod.rs:324-340: the state after the final rounds. *)
Definition cubehash_state (p : platform) (data : list Z) : outcome CubeHash :=
  let c := new_cube_hash in
  buf <-- vec_zeroed p 1 32 ;;
  buf <-- vset buf 0 0x80 ;;
  c <-- input_block data c ;;
  let c := sixteen_rounds c in
  c <-- input_block buf c ;;
  let c := sixteen_rounds c in
  let c := xor_xv c 1 in
  Ok (Nat.iter 10 sixteen_rounds c).

(** cubehash/mod.rs:341-351: the eight words that are returned. *)
Definition cubehash_read (p : platform) (c : CubeHash) : outcome (list Z) :=
  foldM (fun out x => vec_extend p out (to_le_bytes 4 x))
    [c_x0 c; c_x1 c; c_x2 c; c_x3 c; c_x4 c; c_x5 c; c_x6 c; c_x7 c] [].

(** bmw/mod.rs:929-955 and, of the call of [compress] at 956, lines 81-493: the message
    words and the array [q] once its first half is computed. *)
Definition bmw_first_pipe (p : platform) (input : list Z) : outcome (list Z * list Z) :=
  let b := bmw_new in
  buf <-- bmw_buf p input ;;
  m <-- bmw_words buf (b_m b) ;;
  Ok (m, compress_f0 m (b_h b) (b_q b)).

(** bmw/mod.rs:494-921 in that call: the chain value [h] and the array [q] it leaves. *)
Definition bmw_fold_first (m q : list Z) : list Z * list Z :=
  let h := b_h bmw_new in
  let q := compress_f1 m h q in
  (compress_f2 m h q, q).

(** bmw/mod.rs:957-960 and lines 81-493 of the second call of [compress] (961): the array [q]
    once its first half is computed from the chain value. *)
Definition bmw_second_pipe (h q : list Z) : list Z := compress_f0 h FINAL q.

(** bmw/mod.rs:494-921 in the second call and 962-971: the eight words that are returned. *)
Definition bmw_read (p : platform) (h q : list Z) : outcome (list Z) :=
  let q := compress_f1 h FINAL q in
  let r := compress_f2 h FINAL q in
  foldM (fun out i => vec_extend p out (to_le_bytes 4 (aget r i)))
    [8; 9; 10; 11; 12; 13; 14; 15]%nat [].
