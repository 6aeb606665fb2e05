(** * /repo/src/cubehash/mod.rs, translated statement by statement by tools/rust2coq.py *)
From Verif Require Import Machine SrcOps.
From Verif Require SrcUtils.

(** cubehash/mod.rs:3-36 [IV] *)
Definition IV : list Z := [0xea2bd4b4; 0xccd6f29f; 0x63117e71; 0x35481eae; 0x22512d5b; 0xe5d94e63; 0x7e624131; 0xf4cc12be; 0xc2d0b696; 0x42af2070; 0xd0720c35; 0x3361da8c; 0x28cceca4; 0x8ef8ad83; 0x4680ac00; 0x40e5fbab; 0xd89041c3; 0x6107fbd5; 0x6c859d41; 0xf0b26679; 0x9392549; 0x5fa25603; 0x65c892fd; 0x93cb6285; 0x2af2b5ae; 0x9e4b4e60; 0x774abfdd; 0x85254725; 0x15815aeb; 0x4ab6aad6; 0x9cdaf8af; 0xd6032c0a].

(** cubehash/mod.rs:38-71 [struct CubeHash] *)
Record CubeHash := MkCubeHash { CubeHash_x0 : Z; CubeHash_x1 : Z; CubeHash_x2 : Z; CubeHash_x3 : Z; CubeHash_x4 : Z; CubeHash_x5 : Z; CubeHash_x6 : Z; CubeHash_x7 : Z; CubeHash_x8 : Z; CubeHash_x9 : Z; CubeHash_xa : Z; CubeHash_xb : Z; CubeHash_xc : Z; CubeHash_xd : Z; CubeHash_xe : Z; CubeHash_xf : Z; CubeHash_xg : Z; CubeHash_xh : Z; CubeHash_xi : Z; CubeHash_xj : Z; CubeHash_xk : Z; CubeHash_xl : Z; CubeHash_xm : Z; CubeHash_xn : Z; CubeHash_xo : Z; CubeHash_xp : Z; CubeHash_xq : Z; CubeHash_xr : Z; CubeHash_xs : Z; CubeHash_xt : Z; CubeHash_xu : Z; CubeHash_xv : Z }.

(** cubehash/mod.rs:73-108 [new_cube_hash] *)
Definition new_cube_hash (p : platform) : outcome CubeHash :=
  Ok (MkCubeHash (aget IV 0) (aget IV 1) (aget IV 2) (aget IV 3) (aget IV 4) (aget IV 5) (aget IV 6) (aget IV 7) (aget IV 8) (aget IV 9) (aget IV 10) (aget IV 11) (aget IV 12) (aget IV 13) (aget IV 14) (aget IV 15) (aget IV 16) (aget IV 17) (aget IV 18) (aget IV 19) (aget IV 20) (aget IV 21) (aget IV 22) (aget IV 23) (aget IV 24) (aget IV 25) (aget IV 26) (aget IV 27) (aget IV 28) (aget IV 29) (aget IV 30) (aget IV 31)).  (* 74 *)

(** cubehash/mod.rs:110-120 [input_block] *)
Definition input_block (p : platform) (data : list Z) (c : CubeHash) : outcome CubeHash :=
  '(MkCubeHash c_x0 c_x1 c_x2 c_x3 c_x4 c_x5 c_x6 c_x7 c_x8 c_x9 c_xa c_xb c_xc c_xd c_xe c_xf c_xg c_xh c_xi c_xj c_xk c_xl c_xm c_xn c_xo c_xp c_xq c_xr c_xs c_xt c_xu c_xv) <-- Ok c ;;
  t1 <-- slice data 0 4 ;;  (* 111 *)
  t2 <-- SrcUtils.read_u32_le p t1 ;;
  c_x0 <-- Ok (Z.lxor c_x0 t2) ;;
  t3 <-- slice data 4 8 ;;  (* 112 *)
  t4 <-- SrcUtils.read_u32_le p t3 ;;
  c_x1 <-- Ok (Z.lxor c_x1 t4) ;;
  t5 <-- slice data 8 12 ;;  (* 113 *)
  t6 <-- SrcUtils.read_u32_le p t5 ;;
  c_x2 <-- Ok (Z.lxor c_x2 t6) ;;
  t7 <-- slice data 12 16 ;;  (* 114 *)
  t8 <-- SrcUtils.read_u32_le p t7 ;;
  c_x3 <-- Ok (Z.lxor c_x3 t8) ;;
  t9 <-- slice data 16 20 ;;  (* 115 *)
  t10 <-- SrcUtils.read_u32_le p t9 ;;
  c_x4 <-- Ok (Z.lxor c_x4 t10) ;;
  t11 <-- slice data 20 24 ;;  (* 116 *)
  t12 <-- SrcUtils.read_u32_le p t11 ;;
  c_x5 <-- Ok (Z.lxor c_x5 t12) ;;
  t13 <-- slice data 24 28 ;;  (* 117 *)
  t14 <-- SrcUtils.read_u32_le p t13 ;;
  c_x6 <-- Ok (Z.lxor c_x6 t14) ;;
  t15 <-- slice data 28 32 ;;  (* 118 *)
  t16 <-- SrcUtils.read_u32_le p t15 ;;
  c_x7 <-- Ok (Z.lxor c_x7 t16) ;;
  Ok (MkCubeHash c_x0 c_x1 c_x2 c_x3 c_x4 c_x5 c_x6 c_x7 c_x8 c_x9 c_xa c_xb c_xc c_xd c_xe c_xf c_xg c_xh c_xi c_xj c_xk c_xl c_xm c_xn c_xo c_xp c_xq c_xr c_xs c_xt c_xu c_xv).  (* 119 *)

(** cubehash/mod.rs:124-318: body of the [for] loop over [_i]. *)
Definition sixteen_rounds_body1 (p : platform) (_i : Z) (s : Z * Z * Z * Z * Z * Z * Z * Z * Z * Z * Z * Z * Z * Z * Z * Z * Z * Z * Z * Z * Z * Z * Z * Z * Z * Z * Z * Z * Z * Z * Z * Z) : outcome (Z * Z * Z * Z * Z * Z * Z * Z * Z * Z * Z * Z * Z * Z * Z * Z * Z * Z * Z * Z * Z * Z * Z * Z * Z * Z * Z * Z * Z * Z * Z * Z) :=
  let '(c_x0, c_x1, c_x2, c_x3, c_x4, c_x5, c_x6, c_x7, c_x8, c_x9, c_xa, c_xb, c_xc, c_xd, c_xe, c_xf, c_xg, c_xh, c_xi, c_xj, c_xk, c_xl, c_xm, c_xn, c_xo, c_xp, c_xq, c_xr, c_xs, c_xt, c_xu, c_xv) := s in
  c_xg <-- Ok (wadd 32 c_x0 c_xg) ;;  (* 125 *)
  c_x0 <-- Ok (Z.lor (wshl 32 c_x0 7) (wshr c_x0 25)) ;;  (* 126 *)
  c_xh <-- Ok (wadd 32 c_x1 c_xh) ;;  (* 127 *)
  c_x1 <-- Ok (Z.lor (wshl 32 c_x1 7) (wshr c_x1 25)) ;;  (* 128 *)
  c_xi <-- Ok (wadd 32 c_x2 c_xi) ;;  (* 129 *)
  c_x2 <-- Ok (Z.lor (wshl 32 c_x2 7) (wshr c_x2 25)) ;;  (* 130 *)
  c_xj <-- Ok (wadd 32 c_x3 c_xj) ;;  (* 131 *)
  c_x3 <-- Ok (Z.lor (wshl 32 c_x3 7) (wshr c_x3 25)) ;;  (* 132 *)
  c_xk <-- Ok (wadd 32 c_x4 c_xk) ;;  (* 133 *)
  c_x4 <-- Ok (Z.lor (wshl 32 c_x4 7) (wshr c_x4 25)) ;;  (* 134 *)
  c_xl <-- Ok (wadd 32 c_x5 c_xl) ;;  (* 135 *)
  c_x5 <-- Ok (Z.lor (wshl 32 c_x5 7) (wshr c_x5 25)) ;;  (* 136 *)
  c_xm <-- Ok (wadd 32 c_x6 c_xm) ;;  (* 137 *)
  c_x6 <-- Ok (Z.lor (wshl 32 c_x6 7) (wshr c_x6 25)) ;;  (* 138 *)
  c_xn <-- Ok (wadd 32 c_x7 c_xn) ;;  (* 139 *)
  c_x7 <-- Ok (Z.lor (wshl 32 c_x7 7) (wshr c_x7 25)) ;;  (* 140 *)
  c_xo <-- Ok (wadd 32 c_x8 c_xo) ;;  (* 141 *)
  c_x8 <-- Ok (Z.lor (wshl 32 c_x8 7) (wshr c_x8 25)) ;;  (* 142 *)
  c_xp <-- Ok (wadd 32 c_x9 c_xp) ;;  (* 143 *)
  c_x9 <-- Ok (Z.lor (wshl 32 c_x9 7) (wshr c_x9 25)) ;;  (* 144 *)
  c_xq <-- Ok (wadd 32 c_xa c_xq) ;;  (* 145 *)
  c_xa <-- Ok (Z.lor (wshl 32 c_xa 7) (wshr c_xa 25)) ;;  (* 146 *)
  c_xr <-- Ok (wadd 32 c_xb c_xr) ;;  (* 147 *)
  c_xb <-- Ok (Z.lor (wshl 32 c_xb 7) (wshr c_xb 25)) ;;  (* 148 *)
  c_xs <-- Ok (wadd 32 c_xc c_xs) ;;  (* 149 *)
  c_xc <-- Ok (Z.lor (wshl 32 c_xc 7) (wshr c_xc 25)) ;;  (* 150 *)
  c_xt <-- Ok (wadd 32 c_xd c_xt) ;;  (* 151 *)
  c_xd <-- Ok (Z.lor (wshl 32 c_xd 7) (wshr c_xd 25)) ;;  (* 152 *)
  c_xu <-- Ok (wadd 32 c_xe c_xu) ;;  (* 153 *)
  c_xe <-- Ok (Z.lor (wshl 32 c_xe 7) (wshr c_xe 25)) ;;  (* 154 *)
  c_xv <-- Ok (wadd 32 c_xf c_xv) ;;  (* 155 *)
  c_xf <-- Ok (Z.lor (wshl 32 c_xf 7) (wshr c_xf 25)) ;;  (* 156 *)
  c_x8 <-- Ok (Z.lxor c_x8 c_xg) ;;  (* 157 *)
  c_x9 <-- Ok (Z.lxor c_x9 c_xh) ;;  (* 158 *)
  c_xa <-- Ok (Z.lxor c_xa c_xi) ;;  (* 159 *)
  c_xb <-- Ok (Z.lxor c_xb c_xj) ;;  (* 160 *)
  c_xc <-- Ok (Z.lxor c_xc c_xk) ;;  (* 161 *)
  c_xd <-- Ok (Z.lxor c_xd c_xl) ;;  (* 162 *)
  c_xe <-- Ok (Z.lxor c_xe c_xm) ;;  (* 163 *)
  c_xf <-- Ok (Z.lxor c_xf c_xn) ;;  (* 164 *)
  c_x0 <-- Ok (Z.lxor c_x0 c_xo) ;;  (* 165 *)
  c_x1 <-- Ok (Z.lxor c_x1 c_xp) ;;  (* 166 *)
  c_x2 <-- Ok (Z.lxor c_x2 c_xq) ;;  (* 167 *)
  c_x3 <-- Ok (Z.lxor c_x3 c_xr) ;;  (* 168 *)
  c_x4 <-- Ok (Z.lxor c_x4 c_xs) ;;  (* 169 *)
  c_x5 <-- Ok (Z.lxor c_x5 c_xt) ;;  (* 170 *)
  c_x6 <-- Ok (Z.lxor c_x6 c_xu) ;;  (* 171 *)
  c_x7 <-- Ok (Z.lxor c_x7 c_xv) ;;  (* 172 *)
  c_xi <-- Ok (wadd 32 c_x8 c_xi) ;;  (* 173 *)
  c_x8 <-- Ok (Z.lor (wshl 32 c_x8 11) (wshr c_x8 21)) ;;  (* 174 *)
  c_xj <-- Ok (wadd 32 c_x9 c_xj) ;;  (* 175 *)
  c_x9 <-- Ok (Z.lor (wshl 32 c_x9 11) (wshr c_x9 21)) ;;  (* 176 *)
  c_xg <-- Ok (wadd 32 c_xa c_xg) ;;  (* 177 *)
  c_xa <-- Ok (Z.lor (wshl 32 c_xa 11) (wshr c_xa 21)) ;;  (* 178 *)
  c_xh <-- Ok (wadd 32 c_xb c_xh) ;;  (* 179 *)
  c_xb <-- Ok (Z.lor (wshl 32 c_xb 11) (wshr c_xb 21)) ;;  (* 180 *)
  c_xm <-- Ok (wadd 32 c_xc c_xm) ;;  (* 181 *)
  c_xc <-- Ok (Z.lor (wshl 32 c_xc 11) (wshr c_xc 21)) ;;  (* 182 *)
  c_xn <-- Ok (wadd 32 c_xd c_xn) ;;  (* 183 *)
  c_xd <-- Ok (Z.lor (wshl 32 c_xd 11) (wshr c_xd 21)) ;;  (* 184 *)
  c_xk <-- Ok (wadd 32 c_xe c_xk) ;;  (* 185 *)
  c_xe <-- Ok (Z.lor (wshl 32 c_xe 11) (wshr c_xe 21)) ;;  (* 186 *)
  c_xl <-- Ok (wadd 32 c_xf c_xl) ;;  (* 187 *)
  c_xf <-- Ok (Z.lor (wshl 32 c_xf 11) (wshr c_xf 21)) ;;  (* 188 *)
  c_xq <-- Ok (wadd 32 c_x0 c_xq) ;;  (* 189 *)
  c_x0 <-- Ok (Z.lor (wshl 32 c_x0 11) (wshr c_x0 21)) ;;  (* 190 *)
  c_xr <-- Ok (wadd 32 c_x1 c_xr) ;;  (* 191 *)
  c_x1 <-- Ok (Z.lor (wshl 32 c_x1 11) (wshr c_x1 21)) ;;  (* 192 *)
  c_xo <-- Ok (wadd 32 c_x2 c_xo) ;;  (* 193 *)
  c_x2 <-- Ok (Z.lor (wshl 32 c_x2 11) (wshr c_x2 21)) ;;  (* 194 *)
  c_xp <-- Ok (wadd 32 c_x3 c_xp) ;;  (* 195 *)
  c_x3 <-- Ok (Z.lor (wshl 32 c_x3 11) (wshr c_x3 21)) ;;  (* 196 *)
  c_xu <-- Ok (wadd 32 c_x4 c_xu) ;;  (* 197 *)
  c_x4 <-- Ok (Z.lor (wshl 32 c_x4 11) (wshr c_x4 21)) ;;  (* 198 *)
  c_xv <-- Ok (wadd 32 c_x5 c_xv) ;;  (* 199 *)
  c_x5 <-- Ok (Z.lor (wshl 32 c_x5 11) (wshr c_x5 21)) ;;  (* 200 *)
  c_xs <-- Ok (wadd 32 c_x6 c_xs) ;;  (* 201 *)
  c_x6 <-- Ok (Z.lor (wshl 32 c_x6 11) (wshr c_x6 21)) ;;  (* 202 *)
  c_xt <-- Ok (wadd 32 c_x7 c_xt) ;;  (* 203 *)
  c_x7 <-- Ok (Z.lor (wshl 32 c_x7 11) (wshr c_x7 21)) ;;  (* 204 *)
  c_xc <-- Ok (Z.lxor c_xc c_xi) ;;  (* 205 *)
  c_xd <-- Ok (Z.lxor c_xd c_xj) ;;  (* 206 *)
  c_xe <-- Ok (Z.lxor c_xe c_xg) ;;  (* 207 *)
  c_xf <-- Ok (Z.lxor c_xf c_xh) ;;  (* 208 *)
  c_x8 <-- Ok (Z.lxor c_x8 c_xm) ;;  (* 209 *)
  c_x9 <-- Ok (Z.lxor c_x9 c_xn) ;;  (* 210 *)
  c_xa <-- Ok (Z.lxor c_xa c_xk) ;;  (* 211 *)
  c_xb <-- Ok (Z.lxor c_xb c_xl) ;;  (* 212 *)
  c_x4 <-- Ok (Z.lxor c_x4 c_xq) ;;  (* 213 *)
  c_x5 <-- Ok (Z.lxor c_x5 c_xr) ;;  (* 214 *)
  c_x6 <-- Ok (Z.lxor c_x6 c_xo) ;;  (* 215 *)
  c_x7 <-- Ok (Z.lxor c_x7 c_xp) ;;  (* 216 *)
  c_x0 <-- Ok (Z.lxor c_x0 c_xu) ;;  (* 217 *)
  c_x1 <-- Ok (Z.lxor c_x1 c_xv) ;;  (* 218 *)
  c_x2 <-- Ok (Z.lxor c_x2 c_xs) ;;  (* 219 *)
  c_x3 <-- Ok (Z.lxor c_x3 c_xt) ;;  (* 220 *)
  c_xj <-- Ok (wadd 32 c_xc c_xj) ;;  (* 222 *)
  c_xc <-- Ok (Z.lor (wshl 32 c_xc 7) (wshr c_xc 25)) ;;  (* 223 *)
  c_xi <-- Ok (wadd 32 c_xd c_xi) ;;  (* 224 *)
  c_xd <-- Ok (Z.lor (wshl 32 c_xd 7) (wshr c_xd 25)) ;;  (* 225 *)
  c_xh <-- Ok (wadd 32 c_xe c_xh) ;;  (* 226 *)
  c_xe <-- Ok (Z.lor (wshl 32 c_xe 7) (wshr c_xe 25)) ;;  (* 227 *)
  c_xg <-- Ok (wadd 32 c_xf c_xg) ;;  (* 228 *)
  c_xf <-- Ok (Z.lor (wshl 32 c_xf 7) (wshr c_xf 25)) ;;  (* 229 *)
  c_xn <-- Ok (wadd 32 c_x8 c_xn) ;;  (* 230 *)
  c_x8 <-- Ok (Z.lor (wshl 32 c_x8 7) (wshr c_x8 25)) ;;  (* 231 *)
  c_xm <-- Ok (wadd 32 c_x9 c_xm) ;;  (* 232 *)
  c_x9 <-- Ok (Z.lor (wshl 32 c_x9 7) (wshr c_x9 25)) ;;  (* 233 *)
  c_xl <-- Ok (wadd 32 c_xa c_xl) ;;  (* 234 *)
  c_xa <-- Ok (Z.lor (wshl 32 c_xa 7) (wshr c_xa 25)) ;;  (* 235 *)
  c_xk <-- Ok (wadd 32 c_xb c_xk) ;;  (* 236 *)
  c_xb <-- Ok (Z.lor (wshl 32 c_xb 7) (wshr c_xb 25)) ;;  (* 237 *)
  c_xr <-- Ok (wadd 32 c_x4 c_xr) ;;  (* 238 *)
  c_x4 <-- Ok (Z.lor (wshl 32 c_x4 7) (wshr c_x4 25)) ;;  (* 239 *)
  c_xq <-- Ok (wadd 32 c_x5 c_xq) ;;  (* 240 *)
  c_x5 <-- Ok (Z.lor (wshl 32 c_x5 7) (wshr c_x5 25)) ;;  (* 241 *)
  c_xp <-- Ok (wadd 32 c_x6 c_xp) ;;  (* 242 *)
  c_x6 <-- Ok (Z.lor (wshl 32 c_x6 7) (wshr c_x6 25)) ;;  (* 243 *)
  c_xo <-- Ok (wadd 32 c_x7 c_xo) ;;  (* 244 *)
  c_x7 <-- Ok (Z.lor (wshl 32 c_x7 7) (wshr c_x7 25)) ;;  (* 245 *)
  c_xv <-- Ok (wadd 32 c_x0 c_xv) ;;  (* 246 *)
  c_x0 <-- Ok (Z.lor (wshl 32 c_x0 7) (wshr c_x0 25)) ;;  (* 247 *)
  c_xu <-- Ok (wadd 32 c_x1 c_xu) ;;  (* 248 *)
  c_x1 <-- Ok (Z.lor (wshl 32 c_x1 7) (wshr c_x1 25)) ;;  (* 249 *)
  c_xt <-- Ok (wadd 32 c_x2 c_xt) ;;  (* 250 *)
  c_x2 <-- Ok (Z.lor (wshl 32 c_x2 7) (wshr c_x2 25)) ;;  (* 251 *)
  c_xs <-- Ok (wadd 32 c_x3 c_xs) ;;  (* 252 *)
  c_x3 <-- Ok (Z.lor (wshl 32 c_x3 7) (wshr c_x3 25)) ;;  (* 253 *)
  c_x4 <-- Ok (Z.lxor c_x4 c_xj) ;;  (* 254 *)
  c_x5 <-- Ok (Z.lxor c_x5 c_xi) ;;  (* 255 *)
  c_x6 <-- Ok (Z.lxor c_x6 c_xh) ;;  (* 256 *)
  c_x7 <-- Ok (Z.lxor c_x7 c_xg) ;;  (* 257 *)
  c_x0 <-- Ok (Z.lxor c_x0 c_xn) ;;  (* 258 *)
  c_x1 <-- Ok (Z.lxor c_x1 c_xm) ;;  (* 259 *)
  c_x2 <-- Ok (Z.lxor c_x2 c_xl) ;;  (* 260 *)
  c_x3 <-- Ok (Z.lxor c_x3 c_xk) ;;  (* 261 *)
  c_xc <-- Ok (Z.lxor c_xc c_xr) ;;  (* 262 *)
  c_xd <-- Ok (Z.lxor c_xd c_xq) ;;  (* 263 *)
  c_xe <-- Ok (Z.lxor c_xe c_xp) ;;  (* 264 *)
  c_xf <-- Ok (Z.lxor c_xf c_xo) ;;  (* 265 *)
  c_x8 <-- Ok (Z.lxor c_x8 c_xv) ;;  (* 266 *)
  c_x9 <-- Ok (Z.lxor c_x9 c_xu) ;;  (* 267 *)
  c_xa <-- Ok (Z.lxor c_xa c_xt) ;;  (* 268 *)
  c_xb <-- Ok (Z.lxor c_xb c_xs) ;;  (* 269 *)
  c_xh <-- Ok (wadd 32 c_x4 c_xh) ;;  (* 270 *)
  c_x4 <-- Ok (Z.lor (wshl 32 c_x4 11) (wshr c_x4 21)) ;;  (* 271 *)
  c_xg <-- Ok (wadd 32 c_x5 c_xg) ;;  (* 272 *)
  c_x5 <-- Ok (Z.lor (wshl 32 c_x5 11) (wshr c_x5 21)) ;;  (* 273 *)
  c_xj <-- Ok (wadd 32 c_x6 c_xj) ;;  (* 274 *)
  c_x6 <-- Ok (Z.lor (wshl 32 c_x6 11) (wshr c_x6 21)) ;;  (* 275 *)
  c_xi <-- Ok (wadd 32 c_x7 c_xi) ;;  (* 276 *)
  c_x7 <-- Ok (Z.lor (wshl 32 c_x7 11) (wshr c_x7 21)) ;;  (* 277 *)
  c_xl <-- Ok (wadd 32 c_x0 c_xl) ;;  (* 278 *)
  c_x0 <-- Ok (Z.lor (wshl 32 c_x0 11) (wshr c_x0 21)) ;;  (* 279 *)
  c_xk <-- Ok (wadd 32 c_x1 c_xk) ;;  (* 280 *)
  c_x1 <-- Ok (Z.lor (wshl 32 c_x1 11) (wshr c_x1 21)) ;;  (* 281 *)
  c_xn <-- Ok (wadd 32 c_x2 c_xn) ;;  (* 282 *)
  c_x2 <-- Ok (Z.lor (wshl 32 c_x2 11) (wshr c_x2 21)) ;;  (* 283 *)
  c_xm <-- Ok (wadd 32 c_x3 c_xm) ;;  (* 284 *)
  c_x3 <-- Ok (Z.lor (wshl 32 c_x3 11) (wshr c_x3 21)) ;;  (* 285 *)
  c_xp <-- Ok (wadd 32 c_xc c_xp) ;;  (* 286 *)
  c_xc <-- Ok (Z.lor (wshl 32 c_xc 11) (wshr c_xc 21)) ;;  (* 287 *)
  c_xo <-- Ok (wadd 32 c_xd c_xo) ;;  (* 288 *)
  c_xd <-- Ok (Z.lor (wshl 32 c_xd 11) (wshr c_xd 21)) ;;  (* 289 *)
  c_xr <-- Ok (wadd 32 c_xe c_xr) ;;  (* 290 *)
  c_xe <-- Ok (Z.lor (wshl 32 c_xe 11) (wshr c_xe 21)) ;;  (* 291 *)
  c_xq <-- Ok (wadd 32 c_xf c_xq) ;;  (* 292 *)
  c_xf <-- Ok (Z.lor (wshl 32 c_xf 11) (wshr c_xf 21)) ;;  (* 293 *)
  c_xt <-- Ok (wadd 32 c_x8 c_xt) ;;  (* 294 *)
  c_x8 <-- Ok (Z.lor (wshl 32 c_x8 11) (wshr c_x8 21)) ;;  (* 295 *)
  c_xs <-- Ok (wadd 32 c_x9 c_xs) ;;  (* 296 *)
  c_x9 <-- Ok (Z.lor (wshl 32 c_x9 11) (wshr c_x9 21)) ;;  (* 297 *)
  c_xv <-- Ok (wadd 32 c_xa c_xv) ;;  (* 298 *)
  c_xa <-- Ok (Z.lor (wshl 32 c_xa 11) (wshr c_xa 21)) ;;  (* 299 *)
  c_xu <-- Ok (wadd 32 c_xb c_xu) ;;  (* 300 *)
  c_xb <-- Ok (Z.lor (wshl 32 c_xb 11) (wshr c_xb 21)) ;;  (* 301 *)
  c_x0 <-- Ok (Z.lxor c_x0 c_xh) ;;  (* 302 *)
  c_x1 <-- Ok (Z.lxor c_x1 c_xg) ;;  (* 303 *)
  c_x2 <-- Ok (Z.lxor c_x2 c_xj) ;;  (* 304 *)
  c_x3 <-- Ok (Z.lxor c_x3 c_xi) ;;  (* 305 *)
  c_x4 <-- Ok (Z.lxor c_x4 c_xl) ;;  (* 306 *)
  c_x5 <-- Ok (Z.lxor c_x5 c_xk) ;;  (* 307 *)
  c_x6 <-- Ok (Z.lxor c_x6 c_xn) ;;  (* 308 *)
  c_x7 <-- Ok (Z.lxor c_x7 c_xm) ;;  (* 309 *)
  c_x8 <-- Ok (Z.lxor c_x8 c_xp) ;;  (* 310 *)
  c_x9 <-- Ok (Z.lxor c_x9 c_xo) ;;  (* 311 *)
  c_xa <-- Ok (Z.lxor c_xa c_xr) ;;  (* 312 *)
  c_xb <-- Ok (Z.lxor c_xb c_xq) ;;  (* 313 *)
  c_xc <-- Ok (Z.lxor c_xc c_xt) ;;  (* 314 *)
  c_xd <-- Ok (Z.lxor c_xd c_xs) ;;  (* 315 *)
  c_xe <-- Ok (Z.lxor c_xe c_xv) ;;  (* 316 *)
  c_xf <-- Ok (Z.lxor c_xf c_xu) ;;  (* 317 *)
  Ok (c_x0, c_x1, c_x2, c_x3, c_x4, c_x5, c_x6, c_x7, c_x8, c_x9, c_xa, c_xb, c_xc, c_xd, c_xe, c_xf, c_xg, c_xh, c_xi, c_xj, c_xk, c_xl, c_xm, c_xn, c_xo, c_xp, c_xq, c_xr, c_xs, c_xt, c_xu, c_xv).

(** cubehash/mod.rs:122-320 [sixteen_rounds] *)
Definition sixteen_rounds (p : platform) (c : CubeHash) : outcome CubeHash :=
  '(MkCubeHash c_x0 c_x1 c_x2 c_x3 c_x4 c_x5 c_x6 c_x7 c_x8 c_x9 c_xa c_xb c_xc c_xd c_xe c_xf c_xg c_xh c_xi c_xj c_xk c_xl c_xm c_xn c_xo c_xp c_xq c_xr c_xs c_xt c_xu c_xv) <-- Ok c ;;
  _i <-- Ok 0 ;;  (* 123 *)
  '(c_x0, c_x1, c_x2, c_x3, c_x4, c_x5, c_x6, c_x7, c_x8, c_x9, c_xa, c_xb, c_xc, c_xd, c_xe, c_xf, c_xg, c_xh, c_xi, c_xj, c_xk, c_xl, c_xm, c_xn, c_xo, c_xp, c_xq, c_xr, c_xs, c_xt, c_xu, c_xv) <-- for_range 0 8 (sixteen_rounds_body1 p) (c_x0, c_x1, c_x2, c_x3, c_x4, c_x5, c_x6, c_x7, c_x8, c_x9, c_xa, c_xb, c_xc, c_xd, c_xe, c_xf, c_xg, c_xh, c_xi, c_xj, c_xk, c_xl, c_xm, c_xn, c_xo, c_xp, c_xq, c_xr, c_xs, c_xt, c_xu, c_xv) ;;  (* 124 *)
  Ok (MkCubeHash c_x0 c_x1 c_x2 c_x3 c_x4 c_x5 c_x6 c_x7 c_x8 c_x9 c_xa c_xb c_xc c_xd c_xe c_xf c_xg c_xh c_xi c_xj c_xk c_xl c_xm c_xn c_xo c_xp c_xq c_xr c_xs c_xt c_xu c_xv).  (* 319 *)

(** cubehash/mod.rs:338-340: body of the [for] loop over [_j]. *)
Definition sum_body1 (p : platform) (_j : Z) (s : Z * Z * Z * Z * Z * Z * Z * Z * Z * Z * Z * Z * Z * Z * Z * Z * Z * Z * Z * Z * Z * Z * Z * Z * Z * Z * Z * Z * Z * Z * Z * Z) : outcome (Z * Z * Z * Z * Z * Z * Z * Z * Z * Z * Z * Z * Z * Z * Z * Z * Z * Z * Z * Z * Z * Z * Z * Z * Z * Z * Z * Z * Z * Z * Z * Z) :=
  let '(c_x0, c_x1, c_x2, c_x3, c_x4, c_x5, c_x6, c_x7, c_x8, c_x9, c_xa, c_xb, c_xc, c_xd, c_xe, c_xf, c_xg, c_xh, c_xi, c_xj, c_xk, c_xl, c_xm, c_xn, c_xo, c_xp, c_xq, c_xr, c_xs, c_xt, c_xu, c_xv) := s in
  '(MkCubeHash c_x0 c_x1 c_x2 c_x3 c_x4 c_x5 c_x6 c_x7 c_x8 c_x9 c_xa c_xb c_xc c_xd c_xe c_xf c_xg c_xh c_xi c_xj c_xk c_xl c_xm c_xn c_xo c_xp c_xq c_xr c_xs c_xt c_xu c_xv) <-- sixteen_rounds p (MkCubeHash c_x0 c_x1 c_x2 c_x3 c_x4 c_x5 c_x6 c_x7 c_x8 c_x9 c_xa c_xb c_xc c_xd c_xe c_xf c_xg c_xh c_xi c_xj c_xk c_xl c_xm c_xn c_xo c_xp c_xq c_xr c_xs c_xt c_xu c_xv) ;;  (* 339 *)
  Ok (c_x0, c_x1, c_x2, c_x3, c_x4, c_x5, c_x6, c_x7, c_x8, c_x9, c_xa, c_xb, c_xc, c_xd, c_xe, c_xf, c_xg, c_xh, c_xi, c_xj, c_xk, c_xl, c_xm, c_xn, c_xo, c_xp, c_xq, c_xr, c_xs, c_xt, c_xu, c_xv).

(** cubehash/mod.rs:324-351 [sum] *)
Definition sum (p : platform) (data : list Z) : outcome (list Z) :=
  '(MkCubeHash c_x0 c_x1 c_x2 c_x3 c_x4 c_x5 c_x6 c_x7 c_x8 c_x9 c_xa c_xb c_xc c_xd c_xe c_xf c_xg c_xh c_xi c_xj c_xk c_xl c_xm c_xn c_xo c_xp c_xq c_xr c_xs c_xt c_xu c_xv) <-- new_cube_hash p ;;  (* 325 *)
  buf <-- vec_zeroed p 1 32 ;;  (* 326 *)
  buf <-- vset buf 0 128 ;;  (* 327 *)
  '(MkCubeHash c_x0 c_x1 c_x2 c_x3 c_x4 c_x5 c_x6 c_x7 c_x8 c_x9 c_xa c_xb c_xc c_xd c_xe c_xf c_xg c_xh c_xi c_xj c_xk c_xl c_xm c_xn c_xo c_xp c_xq c_xr c_xs c_xt c_xu c_xv) <-- input_block p data (MkCubeHash c_x0 c_x1 c_x2 c_x3 c_x4 c_x5 c_x6 c_x7 c_x8 c_x9 c_xa c_xb c_xc c_xd c_xe c_xf c_xg c_xh c_xi c_xj c_xk c_xl c_xm c_xn c_xo c_xp c_xq c_xr c_xs c_xt c_xu c_xv) ;;  (* 333 *)
  '(MkCubeHash c_x0 c_x1 c_x2 c_x3 c_x4 c_x5 c_x6 c_x7 c_x8 c_x9 c_xa c_xb c_xc c_xd c_xe c_xf c_xg c_xh c_xi c_xj c_xk c_xl c_xm c_xn c_xo c_xp c_xq c_xr c_xs c_xt c_xu c_xv) <-- sixteen_rounds p (MkCubeHash c_x0 c_x1 c_x2 c_x3 c_x4 c_x5 c_x6 c_x7 c_x8 c_x9 c_xa c_xb c_xc c_xd c_xe c_xf c_xg c_xh c_xi c_xj c_xk c_xl c_xm c_xn c_xo c_xp c_xq c_xr c_xs c_xt c_xu c_xv) ;;  (* 334 *)
  '(MkCubeHash c_x0 c_x1 c_x2 c_x3 c_x4 c_x5 c_x6 c_x7 c_x8 c_x9 c_xa c_xb c_xc c_xd c_xe c_xf c_xg c_xh c_xi c_xj c_xk c_xl c_xm c_xn c_xo c_xp c_xq c_xr c_xs c_xt c_xu c_xv) <-- input_block p buf (MkCubeHash c_x0 c_x1 c_x2 c_x3 c_x4 c_x5 c_x6 c_x7 c_x8 c_x9 c_xa c_xb c_xc c_xd c_xe c_xf c_xg c_xh c_xi c_xj c_xk c_xl c_xm c_xn c_xo c_xp c_xq c_xr c_xs c_xt c_xu c_xv) ;;  (* 335 *)
  '(MkCubeHash c_x0 c_x1 c_x2 c_x3 c_x4 c_x5 c_x6 c_x7 c_x8 c_x9 c_xa c_xb c_xc c_xd c_xe c_xf c_xg c_xh c_xi c_xj c_xk c_xl c_xm c_xn c_xo c_xp c_xq c_xr c_xs c_xt c_xu c_xv) <-- sixteen_rounds p (MkCubeHash c_x0 c_x1 c_x2 c_x3 c_x4 c_x5 c_x6 c_x7 c_x8 c_x9 c_xa c_xb c_xc c_xd c_xe c_xf c_xg c_xh c_xi c_xj c_xk c_xl c_xm c_xn c_xo c_xp c_xq c_xr c_xs c_xt c_xu c_xv) ;;  (* 336 *)
  c_xv <-- Ok (Z.lxor c_xv 1) ;;  (* 337 *)
  '(c_x0, c_x1, c_x2, c_x3, c_x4, c_x5, c_x6, c_x7, c_x8, c_x9, c_xa, c_xb, c_xc, c_xd, c_xe, c_xf, c_xg, c_xh, c_xi, c_xj, c_xk, c_xl, c_xm, c_xn, c_xo, c_xp, c_xq, c_xr, c_xs, c_xt, c_xu, c_xv) <-- for_range 0 10 (sum_body1 p) (c_x0, c_x1, c_x2, c_x3, c_x4, c_x5, c_x6, c_x7, c_x8, c_x9, c_xa, c_xb, c_xc, c_xd, c_xe, c_xf, c_xg, c_xh, c_xi, c_xj, c_xk, c_xl, c_xm, c_xn, c_xo, c_xp, c_xq, c_xr, c_xs, c_xt, c_xu, c_xv) ;;  (* 338 *)
  out <-- Ok [] ;;  (* 341 *)
  out <-- vec_extend p out (to_le_bytes 4 c_x0) ;;  (* 342 *)
  out <-- vec_extend p out (to_le_bytes 4 c_x1) ;;  (* 343 *)
  out <-- vec_extend p out (to_le_bytes 4 c_x2) ;;  (* 344 *)
  out <-- vec_extend p out (to_le_bytes 4 c_x3) ;;  (* 345 *)
  out <-- vec_extend p out (to_le_bytes 4 c_x4) ;;  (* 346 *)
  out <-- vec_extend p out (to_le_bytes 4 c_x5) ;;  (* 347 *)
  out <-- vec_extend p out (to_le_bytes 4 c_x6) ;;  (* 348 *)
  out <-- vec_extend p out (to_le_bytes 4 c_x7) ;;  (* 349 *)
  Ok out.  (* 350 *)
