(** * /repo/src/cubehash/mod.rs, translated by tools/rust2coq.py, with a log of what is observable *)
From Verif Require Import Machine SrcOps Seen SrcCube.
From Verif Require SrcUtils.

(** As [sixteen_rounds], with the log of what is observable. cubehash/mod.rs:122-320 [sixteen_rounds] *)
Definition sixteen_rounds_seen (p : platform) (c : CubeHash) : seen CubeHash :=
  '(MkCubeHash c_x0 c_x1 c_x2 c_x3 c_x4 c_x5 c_x6 c_x7 c_x8 c_x9 c_xa c_xb c_xc c_xd c_xe c_xf c_xg c_xh c_xi c_xj c_xk c_xl c_xm c_xn c_xo c_xp c_xq c_xr c_xs c_xt c_xu c_xv) <=! sret (c) ;;
  _i <=! sret (0) ;;  (* 123 *)
  '(c_x0, c_x1, c_x2, c_x3, c_x4, c_x5, c_x6, c_x7, c_x8, c_x9, c_xa, c_xb, c_xc, c_xd, c_xe, c_xf, c_xg, c_xh, c_xi, c_xj, c_xk, c_xl, c_xm, c_xn, c_xo, c_xp, c_xq, c_xr, c_xs, c_xt, c_xu, c_xv) <=! sfor 0 8 (fun _i_ _s_ => squiet (sixteen_rounds_body1 p _i_ _s_)) (c_x0, c_x1, c_x2, c_x3, c_x4, c_x5, c_x6, c_x7, c_x8, c_x9, c_xa, c_xb, c_xc, c_xd, c_xe, c_xf, c_xg, c_xh, c_xi, c_xj, c_xk, c_xl, c_xm, c_xn, c_xo, c_xp, c_xq, c_xr, c_xs, c_xt, c_xu, c_xv) ;;  (* 124 *)
  sret ((MkCubeHash c_x0 c_x1 c_x2 c_x3 c_x4 c_x5 c_x6 c_x7 c_x8 c_x9 c_xa c_xb c_xc c_xd c_xe c_xf c_xg c_xh c_xi c_xj c_xk c_xl c_xm c_xn c_xo c_xp c_xq c_xr c_xs c_xt c_xu c_xv)).  (* 319 *)

(** As [sum_body1], with the log of what is observable. cubehash/mod.rs:338-340: body of the [for] loop over [_j]. *)
Definition sum_body1_seen (p : platform) (_j : Z) (s : Z * Z * Z * Z * Z * Z * Z * Z * Z * Z * Z * Z * Z * Z * Z * Z * Z * Z * Z * Z * Z * Z * Z * Z * Z * Z * Z * Z * Z * Z * Z * Z) : seen (Z * Z * Z * Z * Z * Z * Z * Z * Z * Z * Z * Z * Z * Z * Z * Z * Z * Z * Z * Z * Z * Z * Z * Z * Z * Z * Z * Z * Z * Z * Z * Z) :=
  let '(c_x0, c_x1, c_x2, c_x3, c_x4, c_x5, c_x6, c_x7, c_x8, c_x9, c_xa, c_xb, c_xc, c_xd, c_xe, c_xf, c_xg, c_xh, c_xi, c_xj, c_xk, c_xl, c_xm, c_xn, c_xo, c_xp, c_xq, c_xr, c_xs, c_xt, c_xu, c_xv) := s in
  '(MkCubeHash c_x0 c_x1 c_x2 c_x3 c_x4 c_x5 c_x6 c_x7 c_x8 c_x9 c_xa c_xb c_xc c_xd c_xe c_xf c_xg c_xh c_xi c_xj c_xk c_xl c_xm c_xn c_xo c_xp c_xq c_xr c_xs c_xt c_xu c_xv) <=! sixteen_rounds_seen p (MkCubeHash c_x0 c_x1 c_x2 c_x3 c_x4 c_x5 c_x6 c_x7 c_x8 c_x9 c_xa c_xb c_xc c_xd c_xe c_xf c_xg c_xh c_xi c_xj c_xk c_xl c_xm c_xn c_xo c_xp c_xq c_xr c_xs c_xt c_xu c_xv) ;;  (* 339 *)
  sret ((c_x0, c_x1, c_x2, c_x3, c_x4, c_x5, c_x6, c_x7, c_x8, c_x9, c_xa, c_xb, c_xc, c_xd, c_xe, c_xf, c_xg, c_xh, c_xi, c_xj, c_xk, c_xl, c_xm, c_xn, c_xo, c_xp, c_xq, c_xr, c_xs, c_xt, c_xu, c_xv)).

(** As [sum], with the log of what is observable. cubehash/mod.rs:324-351 [sum] *)
Definition sum_seen (p : platform) (data : list Z) : seen (list Z) :=
  '(MkCubeHash c_x0 c_x1 c_x2 c_x3 c_x4 c_x5 c_x6 c_x7 c_x8 c_x9 c_xa c_xb c_xc c_xd c_xe c_xf c_xg c_xh c_xi c_xj c_xk c_xl c_xm c_xn c_xo c_xp c_xq c_xr c_xs c_xt c_xu c_xv) <=! squiet (new_cube_hash p) ;;  (* 325 *)
  buf <=! ssize 32 (vec_zeroed p 1 32) ;;  (* 326 *)
  buf <=! sput "buf" buf 0 128 ;;  (* 327 *)
  '(MkCubeHash c_x0 c_x1 c_x2 c_x3 c_x4 c_x5 c_x6 c_x7 c_x8 c_x9 c_xa c_xb c_xc c_xd c_xe c_xf c_xg c_xh c_xi c_xj c_xk c_xl c_xm c_xn c_xo c_xp c_xq c_xr c_xs c_xt c_xu c_xv) <=! squiet (input_block p data (MkCubeHash c_x0 c_x1 c_x2 c_x3 c_x4 c_x5 c_x6 c_x7 c_x8 c_x9 c_xa c_xb c_xc c_xd c_xe c_xf c_xg c_xh c_xi c_xj c_xk c_xl c_xm c_xn c_xo c_xp c_xq c_xr c_xs c_xt c_xu c_xv)) ;;  (* 333 *)
  '(MkCubeHash c_x0 c_x1 c_x2 c_x3 c_x4 c_x5 c_x6 c_x7 c_x8 c_x9 c_xa c_xb c_xc c_xd c_xe c_xf c_xg c_xh c_xi c_xj c_xk c_xl c_xm c_xn c_xo c_xp c_xq c_xr c_xs c_xt c_xu c_xv) <=! sixteen_rounds_seen p (MkCubeHash c_x0 c_x1 c_x2 c_x3 c_x4 c_x5 c_x6 c_x7 c_x8 c_x9 c_xa c_xb c_xc c_xd c_xe c_xf c_xg c_xh c_xi c_xj c_xk c_xl c_xm c_xn c_xo c_xp c_xq c_xr c_xs c_xt c_xu c_xv) ;;  (* 334 *)
  '(MkCubeHash c_x0 c_x1 c_x2 c_x3 c_x4 c_x5 c_x6 c_x7 c_x8 c_x9 c_xa c_xb c_xc c_xd c_xe c_xf c_xg c_xh c_xi c_xj c_xk c_xl c_xm c_xn c_xo c_xp c_xq c_xr c_xs c_xt c_xu c_xv) <=! squiet (input_block p buf (MkCubeHash c_x0 c_x1 c_x2 c_x3 c_x4 c_x5 c_x6 c_x7 c_x8 c_x9 c_xa c_xb c_xc c_xd c_xe c_xf c_xg c_xh c_xi c_xj c_xk c_xl c_xm c_xn c_xo c_xp c_xq c_xr c_xs c_xt c_xu c_xv)) ;;  (* 335 *)
  '(MkCubeHash c_x0 c_x1 c_x2 c_x3 c_x4 c_x5 c_x6 c_x7 c_x8 c_x9 c_xa c_xb c_xc c_xd c_xe c_xf c_xg c_xh c_xi c_xj c_xk c_xl c_xm c_xn c_xo c_xp c_xq c_xr c_xs c_xt c_xu c_xv) <=! sixteen_rounds_seen p (MkCubeHash c_x0 c_x1 c_x2 c_x3 c_x4 c_x5 c_x6 c_x7 c_x8 c_x9 c_xa c_xb c_xc c_xd c_xe c_xf c_xg c_xh c_xi c_xj c_xk c_xl c_xm c_xn c_xo c_xp c_xq c_xr c_xs c_xt c_xu c_xv) ;;  (* 336 *)
  c_xv <=! sret ((Z.lxor c_xv 1)) ;;  (* 337 *)
  '(c_x0, c_x1, c_x2, c_x3, c_x4, c_x5, c_x6, c_x7, c_x8, c_x9, c_xa, c_xb, c_xc, c_xd, c_xe, c_xf, c_xg, c_xh, c_xi, c_xj, c_xk, c_xl, c_xm, c_xn, c_xo, c_xp, c_xq, c_xr, c_xs, c_xt, c_xu, c_xv) <=! sfor 0 10 (sum_body1_seen p) (c_x0, c_x1, c_x2, c_x3, c_x4, c_x5, c_x6, c_x7, c_x8, c_x9, c_xa, c_xb, c_xc, c_xd, c_xe, c_xf, c_xg, c_xh, c_xi, c_xj, c_xk, c_xl, c_xm, c_xn, c_xo, c_xp, c_xq, c_xr, c_xs, c_xt, c_xu, c_xv) ;;  (* 338 *)
  out <=! sret ([]) ;;  (* 341 *)
  out <=! ssize (vlen (to_le_bytes 4 c_x0)) (vec_extend p out (to_le_bytes 4 c_x0)) ;;  (* 342 *)
  out <=! ssize (vlen (to_le_bytes 4 c_x1)) (vec_extend p out (to_le_bytes 4 c_x1)) ;;  (* 343 *)
  out <=! ssize (vlen (to_le_bytes 4 c_x2)) (vec_extend p out (to_le_bytes 4 c_x2)) ;;  (* 344 *)
  out <=! ssize (vlen (to_le_bytes 4 c_x3)) (vec_extend p out (to_le_bytes 4 c_x3)) ;;  (* 345 *)
  out <=! ssize (vlen (to_le_bytes 4 c_x4)) (vec_extend p out (to_le_bytes 4 c_x4)) ;;  (* 346 *)
  out <=! ssize (vlen (to_le_bytes 4 c_x5)) (vec_extend p out (to_le_bytes 4 c_x5)) ;;  (* 347 *)
  out <=! ssize (vlen (to_le_bytes 4 c_x6)) (vec_extend p out (to_le_bytes 4 c_x6)) ;;  (* 348 *)
  out <=! ssize (vlen (to_le_bytes 4 c_x7)) (vec_extend p out (to_le_bytes 4 c_x7)) ;;  (* 349 *)
  sret (out).  (* 350 *)
