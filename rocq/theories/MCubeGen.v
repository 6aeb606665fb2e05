(** * /repo/src/cubehash/mod.rs:38-71 and 122-320, transcribed line by line by
    tools/gen_models.py. *)
From Verif Require Import Machine.

(** cubehash/mod.rs:38-71 [struct CubeHash] *)
Record CubeHash := Cube {
  c_x0 : Z; c_x1 : Z; c_x2 : Z; c_x3 : Z; c_x4 : Z; c_x5 : Z; c_x6 : Z; c_x7 : Z;
  c_x8 : Z; c_x9 : Z; c_xa : Z; c_xb : Z; c_xc : Z; c_xd : Z; c_xe : Z; c_xf : Z;
  c_xg : Z; c_xh : Z; c_xi : Z; c_xj : Z; c_xk : Z; c_xl : Z; c_xm : Z; c_xn : Z;
  c_xo : Z; c_xp : Z; c_xq : Z; c_xr : Z; c_xs : Z; c_xt : Z; c_xu : Z; c_xv : Z
}.

(** cubehash/mod.rs:125-317: the body of the loop in [sixteen_rounds] (two rounds).
    The fields are read into variables, assigned in source order, and stored back. *)
Definition two_rounds (c : CubeHash) : CubeHash :=
  let '(Cube x0 x1 x2 x3 x4 x5 x6 x7 x8 x9 xa xb xc xd xe xf xg xh xi xj xk xl xm xn xo xp xq xr xs xt xu xv) := c in
  let xg := wadd 32 x0 xg in (* 125 *)
  let x0 := Z.lor (wshl 32 x0 7) (wshr x0 25) in (* 126 *)
  let xh := wadd 32 x1 xh in (* 127 *)
  let x1 := Z.lor (wshl 32 x1 7) (wshr x1 25) in (* 128 *)
  let xi := wadd 32 x2 xi in (* 129 *)
  let x2 := Z.lor (wshl 32 x2 7) (wshr x2 25) in (* 130 *)
  let xj := wadd 32 x3 xj in (* 131 *)
  let x3 := Z.lor (wshl 32 x3 7) (wshr x3 25) in (* 132 *)
  let xk := wadd 32 x4 xk in (* 133 *)
  let x4 := Z.lor (wshl 32 x4 7) (wshr x4 25) in (* 134 *)
  let xl := wadd 32 x5 xl in (* 135 *)
  let x5 := Z.lor (wshl 32 x5 7) (wshr x5 25) in (* 136 *)
  let xm := wadd 32 x6 xm in (* 137 *)
  let x6 := Z.lor (wshl 32 x6 7) (wshr x6 25) in (* 138 *)
  let xn := wadd 32 x7 xn in (* 139 *)
  let x7 := Z.lor (wshl 32 x7 7) (wshr x7 25) in (* 140 *)
  let xo := wadd 32 x8 xo in (* 141 *)
  let x8 := Z.lor (wshl 32 x8 7) (wshr x8 25) in (* 142 *)
  let xp := wadd 32 x9 xp in (* 143 *)
  let x9 := Z.lor (wshl 32 x9 7) (wshr x9 25) in (* 144 *)
  let xq := wadd 32 xa xq in (* 145 *)
  let xa := Z.lor (wshl 32 xa 7) (wshr xa 25) in (* 146 *)
  let xr := wadd 32 xb xr in (* 147 *)
  let xb := Z.lor (wshl 32 xb 7) (wshr xb 25) in (* 148 *)
  let xs := wadd 32 xc xs in (* 149 *)
  let xc := Z.lor (wshl 32 xc 7) (wshr xc 25) in (* 150 *)
  let xt := wadd 32 xd xt in (* 151 *)
  let xd := Z.lor (wshl 32 xd 7) (wshr xd 25) in (* 152 *)
  let xu := wadd 32 xe xu in (* 153 *)
  let xe := Z.lor (wshl 32 xe 7) (wshr xe 25) in (* 154 *)
  let xv := wadd 32 xf xv in (* 155 *)
  let xf := Z.lor (wshl 32 xf 7) (wshr xf 25) in (* 156 *)
  let x8 := Z.lxor x8 xg in (* 157 *)
  let x9 := Z.lxor x9 xh in (* 158 *)
  let xa := Z.lxor xa xi in (* 159 *)
  let xb := Z.lxor xb xj in (* 160 *)
  let xc := Z.lxor xc xk in (* 161 *)
  let xd := Z.lxor xd xl in (* 162 *)
  let xe := Z.lxor xe xm in (* 163 *)
  let xf := Z.lxor xf xn in (* 164 *)
  let x0 := Z.lxor x0 xo in (* 165 *)
  let x1 := Z.lxor x1 xp in (* 166 *)
  let x2 := Z.lxor x2 xq in (* 167 *)
  let x3 := Z.lxor x3 xr in (* 168 *)
  let x4 := Z.lxor x4 xs in (* 169 *)
  let x5 := Z.lxor x5 xt in (* 170 *)
  let x6 := Z.lxor x6 xu in (* 171 *)
  let x7 := Z.lxor x7 xv in (* 172 *)
  let xi := wadd 32 x8 xi in (* 173 *)
  let x8 := Z.lor (wshl 32 x8 11) (wshr x8 21) in (* 174 *)
  let xj := wadd 32 x9 xj in (* 175 *)
  let x9 := Z.lor (wshl 32 x9 11) (wshr x9 21) in (* 176 *)
  let xg := wadd 32 xa xg in (* 177 *)
  let xa := Z.lor (wshl 32 xa 11) (wshr xa 21) in (* 178 *)
  let xh := wadd 32 xb xh in (* 179 *)
  let xb := Z.lor (wshl 32 xb 11) (wshr xb 21) in (* 180 *)
  let xm := wadd 32 xc xm in (* 181 *)
  let xc := Z.lor (wshl 32 xc 11) (wshr xc 21) in (* 182 *)
  let xn := wadd 32 xd xn in (* 183 *)
  let xd := Z.lor (wshl 32 xd 11) (wshr xd 21) in (* 184 *)
  let xk := wadd 32 xe xk in (* 185 *)
  let xe := Z.lor (wshl 32 xe 11) (wshr xe 21) in (* 186 *)
  let xl := wadd 32 xf xl in (* 187 *)
  let xf := Z.lor (wshl 32 xf 11) (wshr xf 21) in (* 188 *)
  let xq := wadd 32 x0 xq in (* 189 *)
  let x0 := Z.lor (wshl 32 x0 11) (wshr x0 21) in (* 190 *)
  let xr := wadd 32 x1 xr in (* 191 *)
  let x1 := Z.lor (wshl 32 x1 11) (wshr x1 21) in (* 192 *)
  let xo := wadd 32 x2 xo in (* 193 *)
  let x2 := Z.lor (wshl 32 x2 11) (wshr x2 21) in (* 194 *)
  let xp := wadd 32 x3 xp in (* 195 *)
  let x3 := Z.lor (wshl 32 x3 11) (wshr x3 21) in (* 196 *)
  let xu := wadd 32 x4 xu in (* 197 *)
  let x4 := Z.lor (wshl 32 x4 11) (wshr x4 21) in (* 198 *)
  let xv := wadd 32 x5 xv in (* 199 *)
  let x5 := Z.lor (wshl 32 x5 11) (wshr x5 21) in (* 200 *)
  let xs := wadd 32 x6 xs in (* 201 *)
  let x6 := Z.lor (wshl 32 x6 11) (wshr x6 21) in (* 202 *)
  let xt := wadd 32 x7 xt in (* 203 *)
  let x7 := Z.lor (wshl 32 x7 11) (wshr x7 21) in (* 204 *)
  let xc := Z.lxor xc xi in (* 205 *)
  let xd := Z.lxor xd xj in (* 206 *)
  let xe := Z.lxor xe xg in (* 207 *)
  let xf := Z.lxor xf xh in (* 208 *)
  let x8 := Z.lxor x8 xm in (* 209 *)
  let x9 := Z.lxor x9 xn in (* 210 *)
  let xa := Z.lxor xa xk in (* 211 *)
  let xb := Z.lxor xb xl in (* 212 *)
  let x4 := Z.lxor x4 xq in (* 213 *)
  let x5 := Z.lxor x5 xr in (* 214 *)
  let x6 := Z.lxor x6 xo in (* 215 *)
  let x7 := Z.lxor x7 xp in (* 216 *)
  let x0 := Z.lxor x0 xu in (* 217 *)
  let x1 := Z.lxor x1 xv in (* 218 *)
  let x2 := Z.lxor x2 xs in (* 219 *)
  let x3 := Z.lxor x3 xt in (* 220 *)
  let xj := wadd 32 xc xj in (* 222 *)
  let xc := Z.lor (wshl 32 xc 7) (wshr xc 25) in (* 223 *)
  let xi := wadd 32 xd xi in (* 224 *)
  let xd := Z.lor (wshl 32 xd 7) (wshr xd 25) in (* 225 *)
  let xh := wadd 32 xe xh in (* 226 *)
  let xe := Z.lor (wshl 32 xe 7) (wshr xe 25) in (* 227 *)
  let xg := wadd 32 xf xg in (* 228 *)
  let xf := Z.lor (wshl 32 xf 7) (wshr xf 25) in (* 229 *)
  let xn := wadd 32 x8 xn in (* 230 *)
  let x8 := Z.lor (wshl 32 x8 7) (wshr x8 25) in (* 231 *)
  let xm := wadd 32 x9 xm in (* 232 *)
  let x9 := Z.lor (wshl 32 x9 7) (wshr x9 25) in (* 233 *)
  let xl := wadd 32 xa xl in (* 234 *)
  let xa := Z.lor (wshl 32 xa 7) (wshr xa 25) in (* 235 *)
  let xk := wadd 32 xb xk in (* 236 *)
  let xb := Z.lor (wshl 32 xb 7) (wshr xb 25) in (* 237 *)
  let xr := wadd 32 x4 xr in (* 238 *)
  let x4 := Z.lor (wshl 32 x4 7) (wshr x4 25) in (* 239 *)
  let xq := wadd 32 x5 xq in (* 240 *)
  let x5 := Z.lor (wshl 32 x5 7) (wshr x5 25) in (* 241 *)
  let xp := wadd 32 x6 xp in (* 242 *)
  let x6 := Z.lor (wshl 32 x6 7) (wshr x6 25) in (* 243 *)
  let xo := wadd 32 x7 xo in (* 244 *)
  let x7 := Z.lor (wshl 32 x7 7) (wshr x7 25) in (* 245 *)
  let xv := wadd 32 x0 xv in (* 246 *)
  let x0 := Z.lor (wshl 32 x0 7) (wshr x0 25) in (* 247 *)
  let xu := wadd 32 x1 xu in (* 248 *)
  let x1 := Z.lor (wshl 32 x1 7) (wshr x1 25) in (* 249 *)
  let xt := wadd 32 x2 xt in (* 250 *)
  let x2 := Z.lor (wshl 32 x2 7) (wshr x2 25) in (* 251 *)
  let xs := wadd 32 x3 xs in (* 252 *)
  let x3 := Z.lor (wshl 32 x3 7) (wshr x3 25) in (* 253 *)
  let x4 := Z.lxor x4 xj in (* 254 *)
  let x5 := Z.lxor x5 xi in (* 255 *)
  let x6 := Z.lxor x6 xh in (* 256 *)
  let x7 := Z.lxor x7 xg in (* 257 *)
  let x0 := Z.lxor x0 xn in (* 258 *)
  let x1 := Z.lxor x1 xm in (* 259 *)
  let x2 := Z.lxor x2 xl in (* 260 *)
  let x3 := Z.lxor x3 xk in (* 261 *)
  let xc := Z.lxor xc xr in (* 262 *)
  let xd := Z.lxor xd xq in (* 263 *)
  let xe := Z.lxor xe xp in (* 264 *)
  let xf := Z.lxor xf xo in (* 265 *)
  let x8 := Z.lxor x8 xv in (* 266 *)
  let x9 := Z.lxor x9 xu in (* 267 *)
  let xa := Z.lxor xa xt in (* 268 *)
  let xb := Z.lxor xb xs in (* 269 *)
  let xh := wadd 32 x4 xh in (* 270 *)
  let x4 := Z.lor (wshl 32 x4 11) (wshr x4 21) in (* 271 *)
  let xg := wadd 32 x5 xg in (* 272 *)
  let x5 := Z.lor (wshl 32 x5 11) (wshr x5 21) in (* 273 *)
  let xj := wadd 32 x6 xj in (* 274 *)
  let x6 := Z.lor (wshl 32 x6 11) (wshr x6 21) in (* 275 *)
  let xi := wadd 32 x7 xi in (* 276 *)
  let x7 := Z.lor (wshl 32 x7 11) (wshr x7 21) in (* 277 *)
  let xl := wadd 32 x0 xl in (* 278 *)
  let x0 := Z.lor (wshl 32 x0 11) (wshr x0 21) in (* 279 *)
  let xk := wadd 32 x1 xk in (* 280 *)
  let x1 := Z.lor (wshl 32 x1 11) (wshr x1 21) in (* 281 *)
  let xn := wadd 32 x2 xn in (* 282 *)
  let x2 := Z.lor (wshl 32 x2 11) (wshr x2 21) in (* 283 *)
  let xm := wadd 32 x3 xm in (* 284 *)
  let x3 := Z.lor (wshl 32 x3 11) (wshr x3 21) in (* 285 *)
  let xp := wadd 32 xc xp in (* 286 *)
  let xc := Z.lor (wshl 32 xc 11) (wshr xc 21) in (* 287 *)
  let xo := wadd 32 xd xo in (* 288 *)
  let xd := Z.lor (wshl 32 xd 11) (wshr xd 21) in (* 289 *)
  let xr := wadd 32 xe xr in (* 290 *)
  let xe := Z.lor (wshl 32 xe 11) (wshr xe 21) in (* 291 *)
  let xq := wadd 32 xf xq in (* 292 *)
  let xf := Z.lor (wshl 32 xf 11) (wshr xf 21) in (* 293 *)
  let xt := wadd 32 x8 xt in (* 294 *)
  let x8 := Z.lor (wshl 32 x8 11) (wshr x8 21) in (* 295 *)
  let xs := wadd 32 x9 xs in (* 296 *)
  let x9 := Z.lor (wshl 32 x9 11) (wshr x9 21) in (* 297 *)
  let xv := wadd 32 xa xv in (* 298 *)
  let xa := Z.lor (wshl 32 xa 11) (wshr xa 21) in (* 299 *)
  let xu := wadd 32 xb xu in (* 300 *)
  let xb := Z.lor (wshl 32 xb 11) (wshr xb 21) in (* 301 *)
  let x0 := Z.lxor x0 xh in (* 302 *)
  let x1 := Z.lxor x1 xg in (* 303 *)
  let x2 := Z.lxor x2 xj in (* 304 *)
  let x3 := Z.lxor x3 xi in (* 305 *)
  let x4 := Z.lxor x4 xl in (* 306 *)
  let x5 := Z.lxor x5 xk in (* 307 *)
  let x6 := Z.lxor x6 xn in (* 308 *)
  let x7 := Z.lxor x7 xm in (* 309 *)
  let x8 := Z.lxor x8 xp in (* 310 *)
  let x9 := Z.lxor x9 xo in (* 311 *)
  let xa := Z.lxor xa xr in (* 312 *)
  let xb := Z.lxor xb xq in (* 313 *)
  let xc := Z.lxor xc xt in (* 314 *)
  let xd := Z.lxor xd xs in (* 315 *)
  let xe := Z.lxor xe xv in (* 316 *)
  let xf := Z.lxor xf xu in (* 317 *)
  Cube x0 x1 x2 x3 x4 x5 x6 x7 x8 x9 xa xb xc xd xe xf xg xh xi xj xk xl xm xn xo xp xq xr xs xt xu xv.
