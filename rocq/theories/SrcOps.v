(** * Further Rust operations, used by the files tools/rust2coq.py generates

    As Machine.v, this fixes the meaning of Rust constructs and models no
    function of /repo. *)
From Verif Require Import Machine.

(** [+ - *] on the types Machine.v does not define them for. No u64 + in /repo; defined for completeness of the translation. *)
Definition uadd p a b := chk_u64 p (a + b).
(** No u64 * in /repo; as [uadd]. *)
Definition umul p a b := chk_u64 p (a * b).
(** No usize - in /repo; as [uadd]. *)
Definition szsub p a b := chk_usize p (a - b).
(** [u8] and [u32]: the exact result if it is in range. E.g. 64 - c in lyra2.rs:24, 16 * 0x05555555 in bmw/mod.rs:494-887. *)
Definition chk_w (p : platform) (w r : Z) : outcome Z :=
  if (0 <=? r) && (r <? 2 ^ w) then Ok r else if overflow_checks p then Panic else Ok (r mod 2 ^ w).
(** u8 +; as [uadd]. *)
Definition u8add p a b := chk_w p 8 (a + b).
(** u8 -: lyra2.rs:24. *)
Definition u8sub p a b := chk_w p 8 (a - b).
(** u8 *; as [uadd]. *)
Definition u8mul p a b := chk_w p 8 (a * b).
(** u32 +; as [uadd]. *)
Definition u32add p a b := chk_w p 32 (a + b).
(** u32 -: bmw/mod.rs:41-43 (32 - n). *)
Definition u32sub p a b := chk_w p 32 (a - b).
(** u32 *: bmw/mod.rs:494-887. *)
Definition u32mul p a b := chk_w p 32 (a * b).

(** [a << n], [a >> n] on a [w]-bit unsigned integer with [n] not a constant: an
    amount of [w] or more panics with overflow checks and is reduced modulo [w]
    without. lyra2.rs:24; bmw/mod.rs:41-43. *)
Definition shl_chk (p : platform) (w a n : Z) : outcome Z :=
  if n <? w then Ok (wshl w a n) else if overflow_checks p then Panic else Ok (wshl w a (n mod w)).
(** As [shl_chk]. *)
Definition shr_chk (p : platform) (w a n : Z) : outcome Z :=
  if n <? w then Ok (wshr a n) else if overflow_checks p then Panic else Ok (wshr a (n mod w)).

(** [Vec::with_capacity(n)] bmw/mod.rs:931. *)
Definition vec_with_capacity (p : platform) (esz n : Z) : outcome (list Z) :=
  if n * esz <=? isize_max p then Ok [] else Panic.
(** [v.resize(n, x)]: truncates, or appends copies of [x]. lyra2.rs:275. *)
Definition vec_resize (p : platform) (esz : Z) (v : list Z) (n x : Z) : outcome (list Z) :=
  if n <=? vlen v then Ok (take (Z.to_nat n) v)
  else if n * esz <=? isize_max p then Ok (v ++ replicate (Z.to_nat (n - vlen v)) x) else Panic.
(** [v[..n].clone_from_slice(&s)]: panics if [n] is out of bounds or [s] has
    another length. lyra2.rs:158; bmw/mod.rs:922-923, 958-959. *)
Definition slice_set (v : list Z) (n : Z) (s : list Z) : outcome (list Z) :=
  if (0 <=? n) && (n <=? vlen v) && (vlen s =? n) then Ok (s ++ drop (Z.to_nat n) v) else Panic.
