(** * Statements of /repo/src/bmw/mod.rs:78-925 [compress], transcribed one by one
    by tools/gen_models.py.  Each definition is the right-hand side of one
    assignment, as a function of the arrays [m], [h], [q] (and the words [xl],
    [xh]) at that point; [MBmw.compress] performs the assignments in order. *)
From Verif Require Import Machine.

Local Notation "a .[ i ]" := (aget a i) (at level 2, left associativity, format "a .[ i ]").
Local Notation "x ⊞ y" := (wadd 32 x y) (at level 50, left associativity).  (* x.wrapping_add(y) *)
Local Notation "x ⊟ y" := (wsub 32 x y) (at level 50, left associativity).  (* x.wrapping_sub(y) *)
Local Notation "x ⊕ y" := (Z.lxor x y) (at level 50, left associativity).   (* x ^ y *)
Local Notation "x <<< n" := (wshl 32 x n) (at level 45, left associativity).  (* x << n *)
Local Notation "x >>> n" := (wshr x n) (at level 45, left associativity).     (* x >> n *)

(** bmw/mod.rs:41-43 [circular_left]: [(x << n) | (x >> (32 - n))] *)
Definition circular_left (x n : Z) : Z := Z.lor (wshl 32 x n) (wshr x (32 - n)).

(** bmw/mod.rs:81-109 [q[0] = ...] *)
Definition bmw_q0 (m h q : list Z) : Z :=
    ((((((((((m.[5] ⊕ h.[5]) ⊟ (m.[7] ⊕ h.[7])) ⊞ (m.[10] ⊕ h.[10])) ⊞ (m.[13] ⊕ h.[13])) ⊞
    (m.[14] ⊕ h.[14])) >>> 1) ⊕ ((((((m.[5] ⊕ h.[5]) ⊟ (m.[7] ⊕ h.[7])) ⊞ (m.[10] ⊕ h.[10])) ⊞
    (m.[13] ⊕ h.[13])) ⊞ (m.[14] ⊕ h.[14])) <<< 3)) ⊕ (circular_left (((((m.[5] ⊕ h.[5]) ⊟
    (m.[7] ⊕ h.[7])) ⊞ (m.[10] ⊕ h.[10])) ⊞ (m.[13] ⊕ h.[13])) ⊞ (m.[14] ⊕ h.[14])) 4)) ⊕
    (circular_left (((((m.[5] ⊕ h.[5]) ⊟ (m.[7] ⊕ h.[7])) ⊞ (m.[10] ⊕ h.[10])) ⊞ (m.[13] ⊕
    h.[13])) ⊞ (m.[14] ⊕ h.[14])) 19)) ⊞ h.[1]).

(** bmw/mod.rs:110-138 [q[1] = ...] *)
Definition bmw_q1 (m h q : list Z) : Z :=
    ((((((((((m.[6] ⊕ h.[6]) ⊟ (m.[8] ⊕ h.[8])) ⊞ (m.[11] ⊕ h.[11])) ⊞ (m.[14] ⊕ h.[14])) ⊟
    (m.[15] ⊕ h.[15])) >>> 1) ⊕ ((((((m.[6] ⊕ h.[6]) ⊟ (m.[8] ⊕ h.[8])) ⊞ (m.[11] ⊕ h.[11])) ⊞
    (m.[14] ⊕ h.[14])) ⊟ (m.[15] ⊕ h.[15])) <<< 2)) ⊕ (circular_left (((((m.[6] ⊕ h.[6]) ⊟
    (m.[8] ⊕ h.[8])) ⊞ (m.[11] ⊕ h.[11])) ⊞ (m.[14] ⊕ h.[14])) ⊟ (m.[15] ⊕ h.[15])) 8)) ⊕
    (circular_left (((((m.[6] ⊕ h.[6]) ⊟ (m.[8] ⊕ h.[8])) ⊞ (m.[11] ⊕ h.[11])) ⊞ (m.[14] ⊕
    h.[14])) ⊟ (m.[15] ⊕ h.[15])) 23)) ⊞ h.[2]).

(** bmw/mod.rs:139-167 [q[2] = ...] *)
Definition bmw_q2 (m h q : list Z) : Z :=
    ((((((((((m.[0] ⊕ h.[0]) ⊞ (m.[7] ⊕ h.[7])) ⊞ (m.[9] ⊕ h.[9])) ⊟ (m.[12] ⊕ h.[12])) ⊞
    (m.[15] ⊕ h.[15])) >>> 2) ⊕ ((((((m.[0] ⊕ h.[0]) ⊞ (m.[7] ⊕ h.[7])) ⊞ (m.[9] ⊕ h.[9])) ⊟
    (m.[12] ⊕ h.[12])) ⊞ (m.[15] ⊕ h.[15])) <<< 1)) ⊕ (circular_left (((((m.[0] ⊕ h.[0]) ⊞
    (m.[7] ⊕ h.[7])) ⊞ (m.[9] ⊕ h.[9])) ⊟ (m.[12] ⊕ h.[12])) ⊞ (m.[15] ⊕ h.[15])) 12)) ⊕
    (circular_left (((((m.[0] ⊕ h.[0]) ⊞ (m.[7] ⊕ h.[7])) ⊞ (m.[9] ⊕ h.[9])) ⊟ (m.[12] ⊕
    h.[12])) ⊞ (m.[15] ⊕ h.[15])) 25)) ⊞ h.[3]).

(** bmw/mod.rs:168-196 [q[3] = ...] *)
Definition bmw_q3 (m h q : list Z) : Z :=
    ((((((((((m.[0] ⊕ h.[0]) ⊟ (m.[1] ⊕ h.[1])) ⊞ (m.[8] ⊕ h.[8])) ⊟ (m.[10] ⊕ h.[10])) ⊞
    (m.[13] ⊕ h.[13])) >>> 2) ⊕ ((((((m.[0] ⊕ h.[0]) ⊟ (m.[1] ⊕ h.[1])) ⊞ (m.[8] ⊕ h.[8])) ⊟
    (m.[10] ⊕ h.[10])) ⊞ (m.[13] ⊕ h.[13])) <<< 2)) ⊕ (circular_left (((((m.[0] ⊕ h.[0]) ⊟
    (m.[1] ⊕ h.[1])) ⊞ (m.[8] ⊕ h.[8])) ⊟ (m.[10] ⊕ h.[10])) ⊞ (m.[13] ⊕ h.[13])) 15)) ⊕
    (circular_left (((((m.[0] ⊕ h.[0]) ⊟ (m.[1] ⊕ h.[1])) ⊞ (m.[8] ⊕ h.[8])) ⊟ (m.[10] ⊕
    h.[10])) ⊞ (m.[13] ⊕ h.[13])) 29)) ⊞ h.[4]).

(** bmw/mod.rs:197-208 [q[4] = ...] *)
Definition bmw_q4 (m h q : list Z) : Z :=
    ((((((((m.[1] ⊕ h.[1]) ⊞ (m.[2] ⊕ h.[2])) ⊞ (m.[9] ⊕ h.[9])) ⊟ (m.[11] ⊕ h.[11])) ⊟ (m.[14]
    ⊕ h.[14])) >>> 1) ⊕ (((((m.[1] ⊕ h.[1]) ⊞ (m.[2] ⊕ h.[2])) ⊞ (m.[9] ⊕ h.[9])) ⊟ (m.[11] ⊕
    h.[11])) ⊟ (m.[14] ⊕ h.[14]))) ⊞ h.[5]).

(** bmw/mod.rs:209-237 [q[5] = ...] *)
Definition bmw_q5 (m h q : list Z) : Z :=
    ((((((((((m.[3] ⊕ h.[3]) ⊟ (m.[2] ⊕ h.[2])) ⊞ (m.[10] ⊕ h.[10])) ⊟ (m.[12] ⊕ h.[12])) ⊞
    (m.[15] ⊕ h.[15])) >>> 1) ⊕ ((((((m.[3] ⊕ h.[3]) ⊟ (m.[2] ⊕ h.[2])) ⊞ (m.[10] ⊕ h.[10])) ⊟
    (m.[12] ⊕ h.[12])) ⊞ (m.[15] ⊕ h.[15])) <<< 3)) ⊕ (circular_left (((((m.[3] ⊕ h.[3]) ⊟
    (m.[2] ⊕ h.[2])) ⊞ (m.[10] ⊕ h.[10])) ⊟ (m.[12] ⊕ h.[12])) ⊞ (m.[15] ⊕ h.[15])) 4)) ⊕
    (circular_left (((((m.[3] ⊕ h.[3]) ⊟ (m.[2] ⊕ h.[2])) ⊞ (m.[10] ⊕ h.[10])) ⊟ (m.[12] ⊕
    h.[12])) ⊞ (m.[15] ⊕ h.[15])) 19)) ⊞ h.[6]).

(** bmw/mod.rs:238-266 [q[6] = ...] *)
Definition bmw_q6 (m h q : list Z) : Z :=
    ((((((((((m.[4] ⊕ h.[4]) ⊟ (m.[0] ⊕ h.[0])) ⊟ (m.[3] ⊕ h.[3])) ⊟ (m.[11] ⊕ h.[11])) ⊞
    (m.[13] ⊕ h.[13])) >>> 1) ⊕ ((((((m.[4] ⊕ h.[4]) ⊟ (m.[0] ⊕ h.[0])) ⊟ (m.[3] ⊕ h.[3])) ⊟
    (m.[11] ⊕ h.[11])) ⊞ (m.[13] ⊕ h.[13])) <<< 2)) ⊕ (circular_left (((((m.[4] ⊕ h.[4]) ⊟
    (m.[0] ⊕ h.[0])) ⊟ (m.[3] ⊕ h.[3])) ⊟ (m.[11] ⊕ h.[11])) ⊞ (m.[13] ⊕ h.[13])) 8)) ⊕
    (circular_left (((((m.[4] ⊕ h.[4]) ⊟ (m.[0] ⊕ h.[0])) ⊟ (m.[3] ⊕ h.[3])) ⊟ (m.[11] ⊕
    h.[11])) ⊞ (m.[13] ⊕ h.[13])) 23)) ⊞ h.[7]).

(** bmw/mod.rs:267-295 [q[7] = ...] *)
Definition bmw_q7 (m h q : list Z) : Z :=
    ((((((((((m.[1] ⊕ h.[1]) ⊟ (m.[4] ⊕ h.[4])) ⊟ (m.[5] ⊕ h.[5])) ⊟ (m.[12] ⊕ h.[12])) ⊟
    (m.[14] ⊕ h.[14])) >>> 2) ⊕ ((((((m.[1] ⊕ h.[1]) ⊟ (m.[4] ⊕ h.[4])) ⊟ (m.[5] ⊕ h.[5])) ⊟
    (m.[12] ⊕ h.[12])) ⊟ (m.[14] ⊕ h.[14])) <<< 1)) ⊕ (circular_left (((((m.[1] ⊕ h.[1]) ⊟
    (m.[4] ⊕ h.[4])) ⊟ (m.[5] ⊕ h.[5])) ⊟ (m.[12] ⊕ h.[12])) ⊟ (m.[14] ⊕ h.[14])) 12)) ⊕
    (circular_left (((((m.[1] ⊕ h.[1]) ⊟ (m.[4] ⊕ h.[4])) ⊟ (m.[5] ⊕ h.[5])) ⊟ (m.[12] ⊕
    h.[12])) ⊟ (m.[14] ⊕ h.[14])) 25)) ⊞ h.[8]).

(** bmw/mod.rs:296-324 [q[8] = ...] *)
Definition bmw_q8 (m h q : list Z) : Z :=
    ((((((((((m.[2] ⊕ h.[2]) ⊟ (m.[5] ⊕ h.[5])) ⊟ (m.[6] ⊕ h.[6])) ⊞ (m.[13] ⊕ h.[13])) ⊟
    (m.[15] ⊕ h.[15])) >>> 2) ⊕ ((((((m.[2] ⊕ h.[2]) ⊟ (m.[5] ⊕ h.[5])) ⊟ (m.[6] ⊕ h.[6])) ⊞
    (m.[13] ⊕ h.[13])) ⊟ (m.[15] ⊕ h.[15])) <<< 2)) ⊕ (circular_left (((((m.[2] ⊕ h.[2]) ⊟
    (m.[5] ⊕ h.[5])) ⊟ (m.[6] ⊕ h.[6])) ⊞ (m.[13] ⊕ h.[13])) ⊟ (m.[15] ⊕ h.[15])) 15)) ⊕
    (circular_left (((((m.[2] ⊕ h.[2]) ⊟ (m.[5] ⊕ h.[5])) ⊟ (m.[6] ⊕ h.[6])) ⊞ (m.[13] ⊕
    h.[13])) ⊟ (m.[15] ⊕ h.[15])) 29)) ⊞ h.[9]).

(** bmw/mod.rs:325-336 [q[9] = ...] *)
Definition bmw_q9 (m h q : list Z) : Z :=
    ((((((((m.[0] ⊕ h.[0]) ⊟ (m.[3] ⊕ h.[3])) ⊞ (m.[6] ⊕ h.[6])) ⊟ (m.[7] ⊕ h.[7])) ⊞ (m.[14] ⊕
    h.[14])) >>> 1) ⊕ (((((m.[0] ⊕ h.[0]) ⊟ (m.[3] ⊕ h.[3])) ⊞ (m.[6] ⊕ h.[6])) ⊟ (m.[7] ⊕
    h.[7])) ⊞ (m.[14] ⊕ h.[14]))) ⊞ h.[10]).

(** bmw/mod.rs:337-365 [q[10] = ...] *)
Definition bmw_q10 (m h q : list Z) : Z :=
    ((((((((((m.[8] ⊕ h.[8]) ⊟ (m.[1] ⊕ h.[1])) ⊟ (m.[4] ⊕ h.[4])) ⊟ (m.[7] ⊕ h.[7])) ⊞ (m.[15]
    ⊕ h.[15])) >>> 1) ⊕ ((((((m.[8] ⊕ h.[8]) ⊟ (m.[1] ⊕ h.[1])) ⊟ (m.[4] ⊕ h.[4])) ⊟ (m.[7] ⊕
    h.[7])) ⊞ (m.[15] ⊕ h.[15])) <<< 3)) ⊕ (circular_left (((((m.[8] ⊕ h.[8]) ⊟ (m.[1] ⊕ h.[1]))
    ⊟ (m.[4] ⊕ h.[4])) ⊟ (m.[7] ⊕ h.[7])) ⊞ (m.[15] ⊕ h.[15])) 4)) ⊕ (circular_left (((((m.[8] ⊕
    h.[8]) ⊟ (m.[1] ⊕ h.[1])) ⊟ (m.[4] ⊕ h.[4])) ⊟ (m.[7] ⊕ h.[7])) ⊞ (m.[15] ⊕ h.[15])) 19)) ⊞
    h.[11]).

(** bmw/mod.rs:366-394 [q[11] = ...] *)
Definition bmw_q11 (m h q : list Z) : Z :=
    ((((((((((m.[8] ⊕ h.[8]) ⊟ (m.[0] ⊕ h.[0])) ⊟ (m.[2] ⊕ h.[2])) ⊟ (m.[5] ⊕ h.[5])) ⊞ (m.[9] ⊕
    h.[9])) >>> 1) ⊕ ((((((m.[8] ⊕ h.[8]) ⊟ (m.[0] ⊕ h.[0])) ⊟ (m.[2] ⊕ h.[2])) ⊟ (m.[5] ⊕
    h.[5])) ⊞ (m.[9] ⊕ h.[9])) <<< 2)) ⊕ (circular_left (((((m.[8] ⊕ h.[8]) ⊟ (m.[0] ⊕ h.[0])) ⊟
    (m.[2] ⊕ h.[2])) ⊟ (m.[5] ⊕ h.[5])) ⊞ (m.[9] ⊕ h.[9])) 8)) ⊕ (circular_left (((((m.[8] ⊕
    h.[8]) ⊟ (m.[0] ⊕ h.[0])) ⊟ (m.[2] ⊕ h.[2])) ⊟ (m.[5] ⊕ h.[5])) ⊞ (m.[9] ⊕ h.[9])) 23)) ⊞
    h.[12]).

(** bmw/mod.rs:395-423 [q[12] = ...] *)
Definition bmw_q12 (m h q : list Z) : Z :=
    ((((((((((m.[1] ⊕ h.[1]) ⊞ (m.[3] ⊕ h.[3])) ⊟ (m.[6] ⊕ h.[6])) ⊟ (m.[9] ⊕ h.[9])) ⊞ (m.[10]
    ⊕ h.[10])) >>> 2) ⊕ ((((((m.[1] ⊕ h.[1]) ⊞ (m.[3] ⊕ h.[3])) ⊟ (m.[6] ⊕ h.[6])) ⊟ (m.[9] ⊕
    h.[9])) ⊞ (m.[10] ⊕ h.[10])) <<< 1)) ⊕ (circular_left (((((m.[1] ⊕ h.[1]) ⊞ (m.[3] ⊕ h.[3]))
    ⊟ (m.[6] ⊕ h.[6])) ⊟ (m.[9] ⊕ h.[9])) ⊞ (m.[10] ⊕ h.[10])) 12)) ⊕ (circular_left (((((m.[1]
    ⊕ h.[1]) ⊞ (m.[3] ⊕ h.[3])) ⊟ (m.[6] ⊕ h.[6])) ⊟ (m.[9] ⊕ h.[9])) ⊞ (m.[10] ⊕ h.[10])) 25))
    ⊞ h.[13]).

(** bmw/mod.rs:424-452 [q[13] = ...] *)
Definition bmw_q13 (m h q : list Z) : Z :=
    ((((((((((m.[2] ⊕ h.[2]) ⊞ (m.[4] ⊕ h.[4])) ⊞ (m.[7] ⊕ h.[7])) ⊞ (m.[10] ⊕ h.[10])) ⊞
    (m.[11] ⊕ h.[11])) >>> 2) ⊕ ((((((m.[2] ⊕ h.[2]) ⊞ (m.[4] ⊕ h.[4])) ⊞ (m.[7] ⊕ h.[7])) ⊞
    (m.[10] ⊕ h.[10])) ⊞ (m.[11] ⊕ h.[11])) <<< 2)) ⊕ (circular_left (((((m.[2] ⊕ h.[2]) ⊞
    (m.[4] ⊕ h.[4])) ⊞ (m.[7] ⊕ h.[7])) ⊞ (m.[10] ⊕ h.[10])) ⊞ (m.[11] ⊕ h.[11])) 15)) ⊕
    (circular_left (((((m.[2] ⊕ h.[2]) ⊞ (m.[4] ⊕ h.[4])) ⊞ (m.[7] ⊕ h.[7])) ⊞ (m.[10] ⊕
    h.[10])) ⊞ (m.[11] ⊕ h.[11])) 29)) ⊞ h.[14]).

(** bmw/mod.rs:453-464 [q[14] = ...] *)
Definition bmw_q14 (m h q : list Z) : Z :=
    ((((((((m.[3] ⊕ h.[3]) ⊟ (m.[5] ⊕ h.[5])) ⊞ (m.[8] ⊕ h.[8])) ⊟ (m.[11] ⊕ h.[11])) ⊟ (m.[12]
    ⊕ h.[12])) >>> 1) ⊕ (((((m.[3] ⊕ h.[3]) ⊟ (m.[5] ⊕ h.[5])) ⊞ (m.[8] ⊕ h.[8])) ⊟ (m.[11] ⊕
    h.[11])) ⊟ (m.[12] ⊕ h.[12]))) ⊞ h.[15]).

(** bmw/mod.rs:465-493 [q[15] = ...] *)
Definition bmw_q15 (m h q : list Z) : Z :=
    ((((((((((m.[12] ⊕ h.[12]) ⊟ (m.[4] ⊕ h.[4])) ⊟ (m.[6] ⊕ h.[6])) ⊟ (m.[9] ⊕ h.[9])) ⊞
    (m.[13] ⊕ h.[13])) >>> 1) ⊕ ((((((m.[12] ⊕ h.[12]) ⊟ (m.[4] ⊕ h.[4])) ⊟ (m.[6] ⊕ h.[6])) ⊟
    (m.[9] ⊕ h.[9])) ⊞ (m.[13] ⊕ h.[13])) <<< 3)) ⊕ (circular_left (((((m.[12] ⊕ h.[12]) ⊟
    (m.[4] ⊕ h.[4])) ⊟ (m.[6] ⊕ h.[6])) ⊟ (m.[9] ⊕ h.[9])) ⊞ (m.[13] ⊕ h.[13])) 4)) ⊕
    (circular_left (((((m.[12] ⊕ h.[12]) ⊟ (m.[4] ⊕ h.[4])) ⊟ (m.[6] ⊕ h.[6])) ⊟ (m.[9] ⊕
    h.[9])) ⊞ (m.[13] ⊕ h.[13])) 19)) ⊞ h.[0]).

(** bmw/mod.rs:494-528 [q[16] = ...] *)
Definition bmw_q16 (m h q : list Z) : Z :=
    ((((((((((((((((((((q.[0] >>> 1) ⊕ (q.[0] <<< 2)) ⊕ (circular_left q.[0] 8)) ⊕
    (circular_left q.[0] 23)) ⊞ ((((q.[1] >>> 2) ⊕ (q.[1] <<< 1)) ⊕ (circular_left q.[1] 12)) ⊕
    (circular_left q.[1] 25))) ⊞ ((((q.[2] >>> 2) ⊕ (q.[2] <<< 2)) ⊕ (circular_left q.[2] 15)) ⊕
    (circular_left q.[2] 29))) ⊞ ((((q.[3] >>> 1) ⊕ (q.[3] <<< 3)) ⊕ (circular_left q.[3] 4)) ⊕
    (circular_left q.[3] 19))) ⊞ ((((q.[4] >>> 1) ⊕ (q.[4] <<< 2)) ⊕ (circular_left q.[4] 8)) ⊕
    (circular_left q.[4] 23))) ⊞ ((((q.[5] >>> 2) ⊕ (q.[5] <<< 1)) ⊕ (circular_left q.[5] 12)) ⊕
    (circular_left q.[5] 25))) ⊞ ((((q.[6] >>> 2) ⊕ (q.[6] <<< 2)) ⊕ (circular_left q.[6] 15)) ⊕
    (circular_left q.[6] 29))) ⊞ ((((q.[7] >>> 1) ⊕ (q.[7] <<< 3)) ⊕ (circular_left q.[7] 4)) ⊕
    (circular_left q.[7] 19))) ⊞ ((((q.[8] >>> 1) ⊕ (q.[8] <<< 2)) ⊕ (circular_left q.[8] 8)) ⊕
    (circular_left q.[8] 23))) ⊞ ((((q.[9] >>> 2) ⊕ (q.[9] <<< 1)) ⊕ (circular_left q.[9] 12)) ⊕
    (circular_left q.[9] 25))) ⊞ ((((q.[10] >>> 2) ⊕ (q.[10] <<< 2)) ⊕ (circular_left q.[10]
    15)) ⊕ (circular_left q.[10] 29))) ⊞ ((((q.[11] >>> 1) ⊕ (q.[11] <<< 3)) ⊕ (circular_left
    q.[11] 4)) ⊕ (circular_left q.[11] 19))) ⊞ ((((q.[12] >>> 1) ⊕ (q.[12] <<< 2)) ⊕
    (circular_left q.[12] 8)) ⊕ (circular_left q.[12] 23))) ⊞ ((((q.[13] >>> 2) ⊕ (q.[13] <<<
    1)) ⊕ (circular_left q.[13] 12)) ⊕ (circular_left q.[13] 25))) ⊞ ((((q.[14] >>> 2) ⊕ (q.[14]
    <<< 2)) ⊕ (circular_left q.[14] 15)) ⊕ (circular_left q.[14] 29))) ⊞ ((((q.[15] >>> 1) ⊕
    (q.[15] <<< 3)) ⊕ (circular_left q.[15] 4)) ⊕ (circular_left q.[15] 19))) ⊞
    (((((circular_left m.[0] 1) ⊞ (circular_left m.[3] 4)) ⊟ (circular_left m.[10] 11)) ⊞ (16 *
    0x05555555)) ⊕ h.[7])).

(** bmw/mod.rs:529-565 [q[17] = ...] *)
Definition bmw_q17 (m h q : list Z) : Z :=
    ((((((((((((((((((((q.[1] >>> 1) ⊕ (q.[1] <<< 2)) ⊕ (circular_left q.[1] 8)) ⊕
    (circular_left q.[1] 23)) ⊞ ((((q.[2] >>> 2) ⊕ (q.[2] <<< 1)) ⊕ (circular_left q.[2] 12)) ⊕
    (circular_left q.[2] 25))) ⊞ ((((q.[3] >>> 2) ⊕ (q.[3] <<< 2)) ⊕ (circular_left q.[3] 15)) ⊕
    (circular_left q.[3] 29))) ⊞ ((((q.[4] >>> 1) ⊕ (q.[4] <<< 3)) ⊕ (circular_left q.[4] 4)) ⊕
    (circular_left q.[4] 19))) ⊞ ((((q.[5] >>> 1) ⊕ (q.[5] <<< 2)) ⊕ (circular_left q.[5] 8)) ⊕
    (circular_left q.[5] 23))) ⊞ ((((q.[6] >>> 2) ⊕ (q.[6] <<< 1)) ⊕ (circular_left q.[6] 12)) ⊕
    (circular_left q.[6] 25))) ⊞ ((((q.[7] >>> 2) ⊕ (q.[7] <<< 2)) ⊕ (circular_left q.[7] 15)) ⊕
    (circular_left q.[7] 29))) ⊞ ((((q.[8] >>> 1) ⊕ (q.[8] <<< 3)) ⊕ (circular_left q.[8] 4)) ⊕
    (circular_left q.[8] 19))) ⊞ ((((q.[9] >>> 1) ⊕ (q.[9] <<< 2)) ⊕ (circular_left q.[9] 8)) ⊕
    (circular_left q.[9] 23))) ⊞ ((((q.[10] >>> 2) ⊕ (q.[10] <<< 1)) ⊕ (circular_left q.[10]
    12)) ⊕ (circular_left q.[10] 25))) ⊞ ((((q.[11] >>> 2) ⊕ (q.[11] <<< 2)) ⊕ (circular_left
    q.[11] 15)) ⊕ (circular_left q.[11] 29))) ⊞ ((((q.[12] >>> 1) ⊕ (q.[12] <<< 3)) ⊕
    (circular_left q.[12] 4)) ⊕ (circular_left q.[12] 19))) ⊞ ((((q.[13] >>> 1) ⊕ (q.[13] <<<
    2)) ⊕ (circular_left q.[13] 8)) ⊕ (circular_left q.[13] 23))) ⊞ ((((q.[14] >>> 2) ⊕ (q.[14]
    <<< 1)) ⊕ (circular_left q.[14] 12)) ⊕ (circular_left q.[14] 25))) ⊞ ((((q.[15] >>> 2) ⊕
    (q.[15] <<< 2)) ⊕ (circular_left q.[15] 15)) ⊕ (circular_left q.[15] 29))) ⊞ ((((q.[16] >>>
    1) ⊕ (q.[16] <<< 3)) ⊕ (circular_left q.[16] 4)) ⊕ (circular_left q.[16] 19))) ⊞
    (((((circular_left m.[1] 2) ⊞ (circular_left m.[4] 5)) ⊟ (circular_left m.[11] 12)) ⊞ (17 *
    0x05555555)) ⊕ h.[8])).

(** bmw/mod.rs:566-588 [q[18] = ...] *)
Definition bmw_q18 (m h q : list Z) : Z :=
    ((((((((((((((((q.[2] ⊞ (circular_left q.[3] 3)) ⊞ q.[4]) ⊞ (circular_left q.[5] 7)) ⊞
    q.[6]) ⊞ (circular_left q.[7] 13)) ⊞ q.[8]) ⊞ (circular_left q.[9] 16)) ⊞ q.[10]) ⊞
    (circular_left q.[11] 19)) ⊞ q.[12]) ⊞ (circular_left q.[13] 23)) ⊞ q.[14]) ⊞ (circular_left
    q.[15] 27)) ⊞ ((q.[16] >>> 1) ⊕ q.[16])) ⊞ ((q.[17] >>> 2) ⊕ q.[17])) ⊞ (((((circular_left
    m.[2] 3) ⊞ (circular_left m.[5] 6)) ⊟ (circular_left m.[12] 13)) ⊞ (18 * 0x05555555)) ⊕
    h.[9])).

(** bmw/mod.rs:589-611 [q[19] = ...] *)
Definition bmw_q19 (m h q : list Z) : Z :=
    ((((((((((((((((q.[3] ⊞ (circular_left q.[4] 3)) ⊞ q.[5]) ⊞ (circular_left q.[6] 7)) ⊞
    q.[7]) ⊞ (circular_left q.[8] 13)) ⊞ q.[9]) ⊞ (circular_left q.[10] 16)) ⊞ q.[11]) ⊞
    (circular_left q.[12] 19)) ⊞ q.[13]) ⊞ (circular_left q.[14] 23)) ⊞ q.[15]) ⊞ (circular_left
    q.[16] 27)) ⊞ ((q.[17] >>> 1) ⊕ q.[17])) ⊞ ((q.[18] >>> 2) ⊕ q.[18])) ⊞ (((((circular_left
    m.[3] 4) ⊞ (circular_left m.[6] 7)) ⊟ (circular_left m.[13] 14)) ⊞ (19 * 0x05555555)) ⊕
    h.[10])).

(** bmw/mod.rs:612-634 [q[20] = ...] *)
Definition bmw_q20 (m h q : list Z) : Z :=
    ((((((((((((((((q.[4] ⊞ (circular_left q.[5] 3)) ⊞ q.[6]) ⊞ (circular_left q.[7] 7)) ⊞
    q.[8]) ⊞ (circular_left q.[9] 13)) ⊞ q.[10]) ⊞ (circular_left q.[11] 16)) ⊞ q.[12]) ⊞
    (circular_left q.[13] 19)) ⊞ q.[14]) ⊞ (circular_left q.[15] 23)) ⊞ q.[16]) ⊞ (circular_left
    q.[17] 27)) ⊞ ((q.[18] >>> 1) ⊕ q.[18])) ⊞ ((q.[19] >>> 2) ⊕ q.[19])) ⊞ (((((circular_left
    m.[4] 5) ⊞ (circular_left m.[7] 8)) ⊟ (circular_left m.[14] 15)) ⊞ (20 * 0x05555555)) ⊕
    h.[11])).

(** bmw/mod.rs:635-657 [q[21] = ...] *)
Definition bmw_q21 (m h q : list Z) : Z :=
    ((((((((((((((((q.[5] ⊞ (circular_left q.[6] 3)) ⊞ q.[7]) ⊞ (circular_left q.[8] 7)) ⊞
    q.[9]) ⊞ (circular_left q.[10] 13)) ⊞ q.[11]) ⊞ (circular_left q.[12] 16)) ⊞ q.[13]) ⊞
    (circular_left q.[14] 19)) ⊞ q.[15]) ⊞ (circular_left q.[16] 23)) ⊞ q.[17]) ⊞ (circular_left
    q.[18] 27)) ⊞ ((q.[19] >>> 1) ⊕ q.[19])) ⊞ ((q.[20] >>> 2) ⊕ q.[20])) ⊞ (((((circular_left
    m.[5] 6) ⊞ (circular_left m.[8] 9)) ⊟ (circular_left m.[15] 16)) ⊞ (21 * 0x05555555)) ⊕
    h.[12])).

(** bmw/mod.rs:658-680 [q[22] = ...] *)
Definition bmw_q22 (m h q : list Z) : Z :=
    ((((((((((((((((q.[6] ⊞ (circular_left q.[7] 3)) ⊞ q.[8]) ⊞ (circular_left q.[9] 7)) ⊞
    q.[10]) ⊞ (circular_left q.[11] 13)) ⊞ q.[12]) ⊞ (circular_left q.[13] 16)) ⊞ q.[14]) ⊞
    (circular_left q.[15] 19)) ⊞ q.[16]) ⊞ (circular_left q.[17] 23)) ⊞ q.[18]) ⊞ (circular_left
    q.[19] 27)) ⊞ ((q.[20] >>> 1) ⊕ q.[20])) ⊞ ((q.[21] >>> 2) ⊕ q.[21])) ⊞ (((((circular_left
    m.[6] 7) ⊞ (circular_left m.[9] 10)) ⊟ (circular_left m.[0] 1)) ⊞ (22 * 0x05555555)) ⊕
    h.[13])).

(** bmw/mod.rs:681-703 [q[23] = ...] *)
Definition bmw_q23 (m h q : list Z) : Z :=
    ((((((((((((((((q.[7] ⊞ (circular_left q.[8] 3)) ⊞ q.[9]) ⊞ (circular_left q.[10] 7)) ⊞
    q.[11]) ⊞ (circular_left q.[12] 13)) ⊞ q.[13]) ⊞ (circular_left q.[14] 16)) ⊞ q.[15]) ⊞
    (circular_left q.[16] 19)) ⊞ q.[17]) ⊞ (circular_left q.[18] 23)) ⊞ q.[19]) ⊞ (circular_left
    q.[20] 27)) ⊞ ((q.[21] >>> 1) ⊕ q.[21])) ⊞ ((q.[22] >>> 2) ⊕ q.[22])) ⊞ (((((circular_left
    m.[7] 8) ⊞ (circular_left m.[10] 11)) ⊟ (circular_left m.[1] 2)) ⊞ (23 * 0x05555555)) ⊕
    h.[14])).

(** bmw/mod.rs:704-726 [q[24] = ...] *)
Definition bmw_q24 (m h q : list Z) : Z :=
    ((((((((((((((((q.[8] ⊞ (circular_left q.[9] 3)) ⊞ q.[10]) ⊞ (circular_left q.[11] 7)) ⊞
    q.[12]) ⊞ (circular_left q.[13] 13)) ⊞ q.[14]) ⊞ (circular_left q.[15] 16)) ⊞ q.[16]) ⊞
    (circular_left q.[17] 19)) ⊞ q.[18]) ⊞ (circular_left q.[19] 23)) ⊞ q.[20]) ⊞ (circular_left
    q.[21] 27)) ⊞ ((q.[22] >>> 1) ⊕ q.[22])) ⊞ ((q.[23] >>> 2) ⊕ q.[23])) ⊞ (((((circular_left
    m.[8] 9) ⊞ (circular_left m.[11] 12)) ⊟ (circular_left m.[2] 3)) ⊞ (24 * 0x05555555)) ⊕
    h.[15])).

(** bmw/mod.rs:727-749 [q[25] = ...] *)
Definition bmw_q25 (m h q : list Z) : Z :=
    ((((((((((((((((q.[9] ⊞ (circular_left q.[10] 3)) ⊞ q.[11]) ⊞ (circular_left q.[12] 7)) ⊞
    q.[13]) ⊞ (circular_left q.[14] 13)) ⊞ q.[15]) ⊞ (circular_left q.[16] 16)) ⊞ q.[17]) ⊞
    (circular_left q.[18] 19)) ⊞ q.[19]) ⊞ (circular_left q.[20] 23)) ⊞ q.[21]) ⊞ (circular_left
    q.[22] 27)) ⊞ ((q.[23] >>> 1) ⊕ q.[23])) ⊞ ((q.[24] >>> 2) ⊕ q.[24])) ⊞ (((((circular_left
    m.[9] 10) ⊞ (circular_left m.[12] 13)) ⊟ (circular_left m.[3] 4)) ⊞ (25 * 0x05555555)) ⊕
    h.[0])).

(** bmw/mod.rs:750-772 [q[26] = ...] *)
Definition bmw_q26 (m h q : list Z) : Z :=
    ((((((((((((((((q.[10] ⊞ (circular_left q.[11] 3)) ⊞ q.[12]) ⊞ (circular_left q.[13] 7)) ⊞
    q.[14]) ⊞ (circular_left q.[15] 13)) ⊞ q.[16]) ⊞ (circular_left q.[17] 16)) ⊞ q.[18]) ⊞
    (circular_left q.[19] 19)) ⊞ q.[20]) ⊞ (circular_left q.[21] 23)) ⊞ q.[22]) ⊞ (circular_left
    q.[23] 27)) ⊞ ((q.[24] >>> 1) ⊕ q.[24])) ⊞ ((q.[25] >>> 2) ⊕ q.[25])) ⊞ (((((circular_left
    m.[10] 11) ⊞ (circular_left m.[13] 14)) ⊟ (circular_left m.[4] 5)) ⊞ (26 * 0x05555555)) ⊕
    h.[1])).

(** bmw/mod.rs:773-795 [q[27] = ...] *)
Definition bmw_q27 (m h q : list Z) : Z :=
    ((((((((((((((((q.[11] ⊞ (circular_left q.[12] 3)) ⊞ q.[13]) ⊞ (circular_left q.[14] 7)) ⊞
    q.[15]) ⊞ (circular_left q.[16] 13)) ⊞ q.[17]) ⊞ (circular_left q.[18] 16)) ⊞ q.[19]) ⊞
    (circular_left q.[20] 19)) ⊞ q.[21]) ⊞ (circular_left q.[22] 23)) ⊞ q.[23]) ⊞ (circular_left
    q.[24] 27)) ⊞ ((q.[25] >>> 1) ⊕ q.[25])) ⊞ ((q.[26] >>> 2) ⊕ q.[26])) ⊞ (((((circular_left
    m.[11] 12) ⊞ (circular_left m.[14] 15)) ⊟ (circular_left m.[5] 6)) ⊞ (27 * 0x05555555)) ⊕
    h.[2])).

(** bmw/mod.rs:796-818 [q[28] = ...] *)
Definition bmw_q28 (m h q : list Z) : Z :=
    ((((((((((((((((q.[12] ⊞ (circular_left q.[13] 3)) ⊞ q.[14]) ⊞ (circular_left q.[15] 7)) ⊞
    q.[16]) ⊞ (circular_left q.[17] 13)) ⊞ q.[18]) ⊞ (circular_left q.[19] 16)) ⊞ q.[20]) ⊞
    (circular_left q.[21] 19)) ⊞ q.[22]) ⊞ (circular_left q.[23] 23)) ⊞ q.[24]) ⊞ (circular_left
    q.[25] 27)) ⊞ ((q.[26] >>> 1) ⊕ q.[26])) ⊞ ((q.[27] >>> 2) ⊕ q.[27])) ⊞ (((((circular_left
    m.[12] 13) ⊞ (circular_left m.[15] 16)) ⊟ (circular_left m.[6] 7)) ⊞ (28 * 0x05555555)) ⊕
    h.[3])).

(** bmw/mod.rs:819-841 [q[29] = ...] *)
Definition bmw_q29 (m h q : list Z) : Z :=
    ((((((((((((((((q.[13] ⊞ (circular_left q.[14] 3)) ⊞ q.[15]) ⊞ (circular_left q.[16] 7)) ⊞
    q.[17]) ⊞ (circular_left q.[18] 13)) ⊞ q.[19]) ⊞ (circular_left q.[20] 16)) ⊞ q.[21]) ⊞
    (circular_left q.[22] 19)) ⊞ q.[23]) ⊞ (circular_left q.[24] 23)) ⊞ q.[25]) ⊞ (circular_left
    q.[26] 27)) ⊞ ((q.[27] >>> 1) ⊕ q.[27])) ⊞ ((q.[28] >>> 2) ⊕ q.[28])) ⊞ (((((circular_left
    m.[13] 14) ⊞ (circular_left m.[0] 1)) ⊟ (circular_left m.[7] 8)) ⊞ (29 * 0x05555555)) ⊕
    h.[4])).

(** bmw/mod.rs:842-864 [q[30] = ...] *)
Definition bmw_q30 (m h q : list Z) : Z :=
    ((((((((((((((((q.[14] ⊞ (circular_left q.[15] 3)) ⊞ q.[16]) ⊞ (circular_left q.[17] 7)) ⊞
    q.[18]) ⊞ (circular_left q.[19] 13)) ⊞ q.[20]) ⊞ (circular_left q.[21] 16)) ⊞ q.[22]) ⊞
    (circular_left q.[23] 19)) ⊞ q.[24]) ⊞ (circular_left q.[25] 23)) ⊞ q.[26]) ⊞ (circular_left
    q.[27] 27)) ⊞ ((q.[28] >>> 1) ⊕ q.[28])) ⊞ ((q.[29] >>> 2) ⊕ q.[29])) ⊞ (((((circular_left
    m.[14] 15) ⊞ (circular_left m.[1] 2)) ⊟ (circular_left m.[8] 9)) ⊞ (30 * 0x05555555)) ⊕
    h.[5])).

(** bmw/mod.rs:865-887 [q[31] = ...] *)
Definition bmw_q31 (m h q : list Z) : Z :=
    ((((((((((((((((q.[15] ⊞ (circular_left q.[16] 3)) ⊞ q.[17]) ⊞ (circular_left q.[18] 7)) ⊞
    q.[19]) ⊞ (circular_left q.[20] 13)) ⊞ q.[21]) ⊞ (circular_left q.[22] 16)) ⊞ q.[23]) ⊞
    (circular_left q.[24] 19)) ⊞ q.[25]) ⊞ (circular_left q.[26] 23)) ⊞ q.[27]) ⊞ (circular_left
    q.[28] 27)) ⊞ ((q.[29] >>> 1) ⊕ q.[29])) ⊞ ((q.[30] >>> 2) ⊕ q.[30])) ⊞ (((((circular_left
    m.[15] 16) ⊞ (circular_left m.[2] 3)) ⊟ (circular_left m.[9] 10)) ⊞ (31 * 0x05555555)) ⊕
    h.[6])).

(** bmw/mod.rs:888 [xl = ...] *)
Definition bmw_xl (q : list Z) : Z :=
    (((((((q.[16] ⊕ q.[17]) ⊕ q.[18]) ⊕ q.[19]) ⊕ q.[20]) ⊕ q.[21]) ⊕ q.[22]) ⊕ q.[23]).

(** bmw/mod.rs:889 [xh = ...] *)
Definition bmw_xh (q : list Z) (xl : Z) : Z :=
    ((((((((xl ⊕ q.[24]) ⊕ q.[25]) ⊕ q.[26]) ⊕ q.[27]) ⊕ q.[28]) ⊕ q.[29]) ⊕ q.[30]) ⊕ q.[31]).

(** bmw/mod.rs:890 [h[0] = ...] *)
Definition bmw_h0 (m h q : list Z) (xl xh : Z) : Z :=
    ((((xh <<< 5) ⊕ (q.[16] >>> 5)) ⊕ m.[0]) ⊞ ((xl ⊕ q.[24]) ⊕ q.[0])).

(** bmw/mod.rs:891 [h[1] = ...] *)
Definition bmw_h1 (m h q : list Z) (xl xh : Z) : Z :=
    ((((xh >>> 7) ⊕ (q.[17] <<< 8)) ⊕ m.[1]) ⊞ ((xl ⊕ q.[25]) ⊕ q.[1])).

(** bmw/mod.rs:892 [h[2] = ...] *)
Definition bmw_h2 (m h q : list Z) (xl xh : Z) : Z :=
    ((((xh >>> 5) ⊕ (q.[18] <<< 5)) ⊕ m.[2]) ⊞ ((xl ⊕ q.[26]) ⊕ q.[2])).

(** bmw/mod.rs:893 [h[3] = ...] *)
Definition bmw_h3 (m h q : list Z) (xl xh : Z) : Z :=
    ((((xh >>> 1) ⊕ (q.[19] <<< 5)) ⊕ m.[3]) ⊞ ((xl ⊕ q.[27]) ⊕ q.[3])).

(** bmw/mod.rs:894 [h[4] = ...] *)
Definition bmw_h4 (m h q : list Z) (xl xh : Z) : Z :=
    ((((xh >>> 3) ⊕ q.[20]) ⊕ m.[4]) ⊞ ((xl ⊕ q.[28]) ⊕ q.[4])).

(** bmw/mod.rs:895 [h[5] = ...] *)
Definition bmw_h5 (m h q : list Z) (xl xh : Z) : Z :=
    ((((xh <<< 6) ⊕ (q.[21] >>> 6)) ⊕ m.[5]) ⊞ ((xl ⊕ q.[29]) ⊕ q.[5])).

(** bmw/mod.rs:896 [h[6] = ...] *)
Definition bmw_h6 (m h q : list Z) (xl xh : Z) : Z :=
    ((((xh >>> 4) ⊕ (q.[22] <<< 6)) ⊕ m.[6]) ⊞ ((xl ⊕ q.[30]) ⊕ q.[6])).

(** bmw/mod.rs:897 [h[7] = ...] *)
Definition bmw_h7 (m h q : list Z) (xl xh : Z) : Z :=
    ((((xh >>> 11) ⊕ (q.[23] <<< 2)) ⊕ m.[7]) ⊞ ((xl ⊕ q.[31]) ⊕ q.[7])).

(** bmw/mod.rs:898-900 [h[8] = ...] *)
Definition bmw_h8 (m h q : list Z) (xl xh : Z) : Z :=
    (((circular_left h.[4] 9) ⊞ ((xh ⊕ q.[24]) ⊕ m.[8])) ⊞ (((xl <<< 8) ⊕ q.[23]) ⊕ q.[8])).

(** bmw/mod.rs:901-903 [h[9] = ...] *)
Definition bmw_h9 (m h q : list Z) (xl xh : Z) : Z :=
    (((circular_left h.[5] 10) ⊞ ((xh ⊕ q.[25]) ⊕ m.[9])) ⊞ (((xl >>> 6) ⊕ q.[16]) ⊕ q.[9])).

(** bmw/mod.rs:904-906 [h[10] = ...] *)
Definition bmw_h10 (m h q : list Z) (xl xh : Z) : Z :=
    (((circular_left h.[6] 11) ⊞ ((xh ⊕ q.[26]) ⊕ m.[10])) ⊞ (((xl <<< 6) ⊕ q.[17]) ⊕ q.[10])).

(** bmw/mod.rs:907-909 [h[11] = ...] *)
Definition bmw_h11 (m h q : list Z) (xl xh : Z) : Z :=
    (((circular_left h.[7] 12) ⊞ ((xh ⊕ q.[27]) ⊕ m.[11])) ⊞ (((xl <<< 4) ⊕ q.[18]) ⊕ q.[11])).

(** bmw/mod.rs:910-912 [h[12] = ...] *)
Definition bmw_h12 (m h q : list Z) (xl xh : Z) : Z :=
    (((circular_left h.[0] 13) ⊞ ((xh ⊕ q.[28]) ⊕ m.[12])) ⊞ (((xl >>> 3) ⊕ q.[19]) ⊕ q.[12])).

(** bmw/mod.rs:913-915 [h[13] = ...] *)
Definition bmw_h13 (m h q : list Z) (xl xh : Z) : Z :=
    (((circular_left h.[1] 14) ⊞ ((xh ⊕ q.[29]) ⊕ m.[13])) ⊞ (((xl >>> 4) ⊕ q.[20]) ⊕ q.[13])).

(** bmw/mod.rs:916-918 [h[14] = ...] *)
Definition bmw_h14 (m h q : list Z) (xl xh : Z) : Z :=
    (((circular_left h.[2] 15) ⊞ ((xh ⊕ q.[30]) ⊕ m.[14])) ⊞ (((xl >>> 7) ⊕ q.[21]) ⊕ q.[14])).

(** bmw/mod.rs:919-921 [h[15] = ...] *)
Definition bmw_h15 (m h q : list Z) (xl xh : Z) : Z :=
    (((circular_left h.[3] 16) ⊞ ((xh ⊕ q.[31]) ⊕ m.[15])) ⊞ (((xl >>> 2) ⊕ q.[22]) ⊕ q.[15])).

