#!/usr/bin/env python3
"""Translates the Rust sources of /repo, statement by statement, to Gallina
(theories/Src*.v).  Usage: rust2coq.py [REPO_SRC [OUT_DIR]]

The translator covers exactly the subset of Rust the crate uses and stops with
an error on anything else.  It knows nothing about the algorithms:

* every expression is translated by its type: + - * on i64/u64/usize/u8/u32
  become the checked-or-wrapping operators of Machine.v / SrcOps.v, `as` the
  conversions of Machine.v, indexing a Vec or slice, or an array with an index
  that is not a constant, a bounds-checked access;
* a constant index into an array of known length is checked here (rustc rejects
  the program otherwise) and becomes an unchecked access;
* `x = e` becomes `x <-- Ok e ;;` (x is rebound); the body of a loop becomes a definition of its own, from
  the variables it assigns and did not declare to their new values;
* a variable of struct type is split into its fields;
* `&`, `clone`, `to_vec` are the identity (values are immutable here).

lyra2.rs and lyra2mod/mod.rs are translated a second time with a log of the accesses to
the matrix (SrcLyra2Log.v, SrcLyra2modLog.v); see log_defs.  A third time with a log of
the heap buffers (SrcLyra2Heap.v, SrcLyra2modHeap.v); see heap_defs.  The chained hashes
are translated again to pass these logs on (SrcChainsLog.v, SrcChainsHeap.v).
"""
import re, sys

SRC = sys.argv[1] if len(sys.argv) > 1 else "/repo/src"
OUT = sys.argv[2] if len(sys.argv) > 2 else "/verif/rocq/theories"

# ---------------------------------------------------------------- lexer
TOK = re.compile(r"""(?P<ws>\s+)|(?P<com>//[^\n]*|/\*.*?\*/)|(?P<str>"[^"]*")|
 (?P<num>0x[0-9a-fA-F_]+|\d[\d_]*)|(?P<id>[A-Za-z_]\w*!?)|
 (?P<op>::|->|\.\.=|\.\.|<<=|>>=|<<|>>|<=|>=|==|!=|\+=|-=|\*=|/=|\^=|\|=|&=|&&|\|\||[-+*/%&|^!<>=(){}\[\],;:.\#'])""",
 re.X | re.S)

def lex(s):
    i, line, out = 0, 1, []
    while i < len(s):
        m = TOK.match(s, i)
        if not m: raise SyntaxError("line %d: %r" % (line, s[i:i + 30]))
        t = m.group()
        if m.lastgroup not in ("ws", "com"):
            out.append((m.lastgroup, t, line))
        line += t.count("\n")
        i = m.end()
    out.append(("eof", "", line))
    return out

# ---------------------------------------------------------------- types
class TV:                      # integer type still to be inferred
    def __init__(s): s.t = None
INTS = ("u8", "u32", "u64", "i64", "usize", "i32")
def R(t):
    while isinstance(t, TV) and t.t is not None: t = t.t
    return t
def unify(a, b, why=""):
    a, b = R(a), R(b)
    if a is b: return a
    if isinstance(a, TV): a.t = b; return b
    if isinstance(b, TV): b.t = a; return a
    if isinstance(a, tuple) and isinstance(b, tuple) and a[0] in ("vec", "slice", "arr") and b[0] in ("vec", "slice", "arr"):
        unify(a[1], b[1], why); return a
    if a != b: raise TypeError("%s: %s / %s" % (why, a, b))
    return a
BITS = {"u8": 8, "u32": 32, "u64": 64}

# ---------------------------------------------------------------- parser
class Node:
    def __init__(s, kind, line, **kw):
        s.kind, s.line = kind, line
        s.__dict__.update(kw)

PREC = {"||": 1, "&&": 2, "==": 3, "!=": 3, "<": 3, ">": 3, "<=": 3, ">=": 3, "|": 4, "^": 5, "&": 6,
        "<<": 7, ">>": 7, "+": 8, "-": 8, "*": 9, "/": 9, "%": 9}
ASSIGN = ("=", "+=", "-=", "*=", "/=", "^=", "|=", "&=")

class Parser:
    def __init__(s, toks): s.t, s.i = toks, 0
    def pk(s, n=0): return s.t[s.i + n][1]
    def line(s): return s.t[s.i][2]
    def nx(s): s.i += 1; return s.t[s.i - 1][1]
    def ex(s, x):
        y = s.nx()
        if y != x: raise SyntaxError("line %d: expected %r, got %r" % (s.t[s.i - 1][2], x, y))
    def opt(s, x):
        if s.pk() == x: s.i += 1; return True
        return False
    def attr(s):
        test = False
        while s.pk() == "#":
            s.nx(); s.opt("!"); s.ex("[")
            d = 1
            while d:
                x = s.nx()
                d += {"[": 1, "]": -1}.get(x, 0)
                if x == "test": test = True
        return test
    def typ(s):
        if s.opt("&"):
            t = s.typ(); assert t[0] != "vec"   # only slices are borrowed
            return t
        if s.opt("["):
            t = s.typ()
            if s.opt(";"):
                n = int(s.nx()); s.ex("]"); return ("arr", t, n)
            s.ex("]"); return ("slice", t)
        x = s.nx()
        if x == "Vec":
            s.ex("<"); t = s.typ(); s.ex(">"); return ("vec", t)
        if x in INTS: return x
        return ("struct", x)
    def items(s):
        out = []
        while s.pk() != "":
            test = s.attr()
            pub = s.opt("pub")
            l = s.line()
            x = s.nx()
            if x in ("use", "mod"):
                while s.nx() != ";": pass
            elif x == "const":
                n = s.nx(); s.ex(":"); t = s.typ(); s.ex("="); e = s.expr(); s.ex(";")
                out.append(Node("const", l, name=n, ty=t, e=e, last=s.t[s.i - 1][2]))
            elif x == "struct":
                n = s.nx(); s.ex("{"); fs = []
                while not s.opt("}"):
                    f = s.nx(); s.ex(":"); fs.append((f, s.typ())); s.opt(",")
                out.append(Node("struct", l, name=n, fields=fs, last=s.t[s.i - 1][2]))
            elif x == "fn":
                n = s.nx()
                if test:
                    while s.nx() != "{": pass
                    d = 1
                    while d: d += {"{": 1, "}": -1}.get(s.nx(), 0)
                    continue
                s.ex("("); ps = []
                while not s.opt(")"):
                    s.opt("mut"); a = s.nx(); s.ex(":"); ps.append((a, s.typ())); s.opt(",")
                s.ex("->"); r = s.typ(); b = s.block()
                out.append(Node("fn", l, name=n, params=ps, ret=r, body=b, pub=pub, last=s.t[s.i - 1][2]))
            else: raise SyntaxError("line %d: item %r" % (l, x))
        return out
    def block(s):
        s.ex("{"); st = []; tail = None
        while not s.opt("}"):
            l = s.line()
            if s.opt(";"): continue
            if s.opt("let"):
                if s.opt("("):
                    s.ex("_"); s.ex(","); s.opt("mut"); n = s.nx(); s.ex(")"); s.ex("="); e = s.expr(); s.ex(";")
                    st.append(Node("letpair", l, name=n, e=e)); continue
                s.opt("mut"); n = s.nx(); t = None
                if s.opt(":"): t = s.typ()
                s.ex("="); e = s.expr(); s.ex(";")
                st.append(Node("let", l, name=n, ty=t, e=e)); continue
            if s.opt("for"):
                n = s.nx(); s.ex("in"); lo = s.expr(True); inc = s.nx(); hi = s.expr(True); b = s.block()
                st.append(Node("for", l, var=n, lo=lo, hi=hi, inc=inc == "..=", body=b, last=s.t[s.i - 1][2])); continue
            if s.opt("loop"):
                b = s.block(); st.append(Node("loop", l, body=b, last=s.t[s.i - 1][2])); continue
            if s.opt("if"):
                c = s.expr(True); b = s.block(); e = s.block() if s.opt("else") else None
                st.append(Node("if", l, c=c, th=b, el=e)); continue
            if s.opt("break"):
                s.ex(";"); st.append(Node("break", l)); continue
            e = s.expr()
            if s.pk() in ASSIGN:
                op = s.nx(); r = s.expr(); s.ex(";")
                st.append(Node("assign", l, lv=e, op=op, e=r)); continue
            if s.opt(";") or (e.kind == "panic" and s.pk() == "}"):
                st.append(Node("expr", l, e=e)); continue
            s.ex("}"); tail = e; break
        return Node("block", 0, st=st, tail=tail)
    def expr(s, nostruct=False, p=0):
        l = s.unary(nostruct)
        while True:
            o = s.pk()
            if o == "as":
                s.nx(); l = Node("cast", l.line, e=l, to=s.typ()); continue
            if o in PREC and PREC[o] > p:
                s.nx(); r = s.expr(nostruct, PREC[o]); l = Node("bin", l.line, op=o, a=l, b=r); continue
            return l
    def unary(s, ns):
        l = s.line()
        if s.opt("-"): return Node("neg", l, e=s.unary_cast(ns))
        if s.opt("&"):
            e = s.unary(ns); e.ref = True; return e
        return s.postfix(ns)
    def unary_cast(s, ns): return s.unary(ns)
    def args(s, close=")"):
        a = []
        while not s.opt(close):
            a.append(s.expr())
            if not s.opt(","): s.ex(close); break
        return a
    def postfix(s, ns):
        e = s.atom(ns)
        while True:
            l = s.line()
            if s.opt("."):
                n = s.nx()
                if s.opt("("): e = Node("mcall", l, recv=e, name=n, args=s.args())
                else: e = Node("field", l, e=e, name=n)
            elif s.opt("["):
                if s.opt(".."):
                    h = s.expr(); s.ex("]"); e = Node("slice", l, e=e, lo=None, hi=h); continue
                i = s.expr()
                if s.opt(".."):
                    h = s.expr(); s.ex("]"); e = Node("slice", l, e=e, lo=i, hi=h)
                else:
                    s.ex("]"); e = Node("idx", l, e=e, i=i)
            else: return e
    def atom(s, ns):
        k, x, l = s.t[s.i]; s.i += 1
        if k == "num": return Node("lit", l, v=int(x.replace("_", ""), 0))
        if x == "(":
            e = s.expr(); s.ex(")"); return e
        if x == "[" or x == "vec!":
            if x == "vec!": s.ex("[")
            if s.opt("]"): return Node("array", l, es=[], vec=x == "vec!")
            e = s.expr()
            if s.opt(";"):
                n = s.expr(); s.ex("]"); return Node("repeat", l, e=e, n=n, vec=x == "vec!")
            es = [e]
            if s.opt(","): es += s.args("]")
            else: s.ex("]")
            return Node("array", l, es=es, vec=x == "vec!")
        if x == "panic!":
            s.ex("("); s.ex(")"); return Node("panic", l)
        if k == "id":
            path = [x]
            while s.opt("::"):
                if s.opt("<"):
                    path[-1] += "<" + s.nx() + ">"; s.ex(">")
                else: path.append(s.nx())
            if s.opt("("): return Node("call", l, path=path, args=s.args())
            if len(path) == 1 and not ns and s.pk() == "{" and x[0].isupper():
                s.nx(); fs = []
                while not s.opt("}"):
                    f = s.nx(); s.ex(":"); fs.append((f, s.expr())); s.opt(",")
                return Node("structlit", l, name=x, fields=fs)
            assert len(path) == 1, path
            return Node("var", l, name=x)
        raise SyntaxError("line %d: %r" % (l, x))

# ---------------------------------------------------------------- type inference
class Crate:
    fns, consts, structs = {}, {}, {}

class Infer:
    def __init__(s, mod): s.mod = mod
    def fn(s, f):
        env = dict(f.params)
        s.block(f.body, env)
        unify(s.ex(f.body.tail, f.body.env), f.ret, "return of " + f.name)
    def block(s, b, env):
        env = dict(env)
        for st in b.st: s.stmt(st, env)
        b.env = env
        if b.tail is not None: b.tailty = s.ex(b.tail, env)
    def stmt(s, st, env):
        k = st.kind
        if k == "let":
            t = s.ex(st.e, env)
            if st.ty: t = unify(st.ty, t, "line %d" % st.line)
            st.vty = t; env[st.name] = t
        elif k == "letpair":
            assert st.e.kind == "mcall" and st.e.name == "split_at"
            t = s.ex(st.e.recv, env); unify(s.ex(st.e.args[0], env), "usize")
            st.vty = ("slice", R(t)[1]); env[st.name] = st.vty
        elif k == "assign":
            a, b = s.ex(st.lv, env), s.ex(st.e, env)
            unify(a, b, "line %d" % st.line)
        elif k == "for":
            a, b = s.ex(st.lo, env), s.ex(st.hi, env)
            t = unify(a, b, "line %d" % st.line)
            e2 = dict(env); e2[st.var] = t; st.vty = t
            s.block(st.body, e2)
        elif k == "loop": s.block(st.body, env)
        elif k == "if":
            assert s.ex(st.c, env) == "bool"
            s.block(st.th, env)
            if st.el: s.block(st.el, env)
        elif k == "expr": s.ex(st.e, env)
        elif k == "break": pass
        else: raise SyntaxError(k)
    def ex(s, e, env):
        e.ty = s.ex0(e, env)
        return e.ty
    def ex0(s, e, env):
        k = e.kind
        if k == "lit": return TV()
        if k == "var":
            if e.name in env: return env[e.name]
            c = Crate.consts[s.mod][e.name]; e.const = True
            return c.ty
        if k == "panic": return "never"
        if k == "cast":
            s.ex(e.e, env); return e.to
        if k == "neg": return s.ex(e.e, env)
        if k == "bin":
            a, b = s.ex(e.a, env), s.ex(e.b, env)
            if e.op in ("<<", ">>"): return a
            t = unify(a, b, "line %d" % e.line)
            return "bool" if PREC[e.op] == 3 else t
        if k == "idx":
            t = R(s.ex(e.e, env)); unify(s.ex(e.i, env), "usize", "index line %d" % e.line)
            assert t[0] in ("vec", "arr", "slice"); return t[1]
        if k == "slice":
            t = R(s.ex(e.e, env))
            if e.lo is not None: unify(s.ex(e.lo, env), "usize")
            unify(s.ex(e.hi, env), "usize")
            return ("slice", t[1])
        if k == "field":
            t = R(s.ex(e.e, env)); return dict(Crate.structs[s.mod][t[1]].fields)[e.name]
        if k == "array":
            t = TV()
            for x in e.es: unify(t, s.ex(x, env))
            return ("vec", t) if e.vec else ("arr", t, len(e.es))
        if k == "repeat":
            t = s.ex(e.e, env); n = s.ex(e.n, env); unify(n, "usize")
            return ("vec", t) if e.vec else ("arr", t, e.n.v)
        if k == "structlit":
            d = dict(Crate.structs[s.mod][e.name].fields)
            for f, x in e.fields: unify(s.ex(x, env), d[f])
            assert [f for f, _ in e.fields] == [f for f, _ in Crate.structs[s.mod][e.name].fields]
            return ("struct", e.name)
        if k == "call":
            if e.path == ["Vec", "with_capacity"]:
                unify(s.ex(e.args[0], env), "usize"); return ("vec", TV())
            if e.path[-1] == "digest":
                s.ex(e.args[0], env); return ("vec", "u8")
            m, f = lookup(s.mod, e.path)
            e.target = (m, f.name)
            assert len(f.params) == len(e.args)
            for (n, t), x in zip(f.params, e.args): unify(t, s.ex(x, env), "line %d" % e.line)
            return f.ret
        if k == "mcall":
            t = R(s.ex(e.recv, env)); a = [s.ex(x, env) for x in e.args]; n = e.name
            if n == "len": return "usize"
            if n in ("wrapping_add", "wrapping_sub"): return unify(t, a[0], "line %d" % e.line)
            if n in ("clone",): return t
            if n == "to_vec": return ("vec", t[1])
            if n == "to_le_bytes": return ("arr", "u8", BITS[R(t)] // 8)
            if n == "extend_from_slice": unify(t[1], R(a[0])[1]); return "unit"
            if n == "push": unify(t[1], a[0]); return "unit"
            if n == "resize": unify(a[0], "usize"); unify(a[1], t[1]); return "unit"
            if n == "clone_from_slice": unify(t[1], R(a[0])[1]); return "unit"
        raise SyntaxError("line %d: %s %s" % (e.line, k, getattr(e, "name", "")))

USES = {}       # module -> {imported fn: module}
def lookup(mod, path):
    if len(path) == 1:
        if path[0] in Crate.fns[mod]: return mod, Crate.fns[mod][path[0]]
        m = USES[mod][path[0]]; return m, Crate.fns[m][path[0]]
    m = path[-2]; return m, Crate.fns[m][path[-1]]

# ---------------------------------------------------------------- emission
RES = {"end": "end_", "left": "left_", "right": "right_", "in": "in_", "at": "at_", "p": "p_"}
def cv(n): return RES.get(n, n)
MODFILE = {"utils": "SrcUtils", "lyra2": "SrcLyra2", "lyra2mod": "SrcLyra2mod", "cubehash": "SrcCube", "bmw": "SrcBmw",
           "lyra2re": "SrcChains", "lyra2rev2": "SrcChains", "lyra2rev3": "SrcChains", "lyra2z": "SrcChains"}
EXT = {"blake_hash::Blake256": "blake256", "sha3::Keccak256": "keccak256",
       "skein_hash::Skein512<U32>": "skein512_256", "groestl::Groestl256": "groestl256"}
def fname(cur, m, n):
    q = n if MODFILE[m] != "SrcChains" else m + "_" + n
    return q if MODFILE[cur] == MODFILE[m] and cur == m else MODFILE[m] + "." + q
def coqty(t):
    t = R(t)
    if isinstance(t, TV) or t in INTS: return "Z"
    if t[0] == "struct": return t[1]
    return "list Z"
def esz(t):
    t = R(t); return {"u8": 1, "u32": 4, "u64": 8}[t]

class Emit:
    def __init__(s, mod, path, heap=False):
        s.mod, s.path, s.defs, s.heap = mod, path, [], heap
    def fresh(s): s.n += 1; return "t%d" % s.n
    # expression -> atomic/pure Coq term; emits binders into s.out
    def bind(s, rhs, name=None):
        n = name or s.fresh(); s.out.append("%s <-- %s ;;" % (n, rhs)); return n
    def const_val(s, e):
        if e.kind == "lit": return e.v
        if e.kind == "var" and getattr(e, "const", False): return s.const_val(Crate.consts[s.mod][e.name].e)
        if e.kind == "bin":
            a, b = s.const_val(e.a), s.const_val(e.b)
            if a is None or b is None: return None
            return {"*": lambda: a * b, "-": lambda: a - b, "+": lambda: a + b}.get(e.op, lambda: None)()
        return None
    def ex(s, e):
        k = e.kind
        if k == "lit": return str(e.v) if e.v < 1000 else hex(e.v)
        if k == "var":
            t = R(e.ty)
            if isinstance(t, tuple) and t[0] == "struct": return s.struct_val(e.name, t[1])
            return cv(e.name)
        if k == "cast":
            a = s.ex(e.e); f, t = R(e.e.ty), e.to
            if isinstance(f, TV): return a
            if f == t: return a
            if t == "i64" and f in ("u64", "usize"): return "(as_i64 %s)" % a
            if t == "usize" and f in ("i64", "u64"): return "(as_usize p %s)" % a
            if t == "u64" and f in ("usize", "u8", "u32"): return a
            if t == "u32" and f == "u8": return a
            raise TypeError("cast %s -> %s" % (f, t))
        if k == "neg":
            a = s.ex(e.e); assert R(e.ty) == "i64"
            if e.e.kind == "lit": return "(-%s)" % a
            return s.bind("isub p 0 %s" % a)
        if k == "bin": return s.binop(e.op, s.ex(e.a), s.ex(e.b), R(e.a.ty), e.a, e.b)
        if k == "idx": return s.index(e)
        if k == "slice":
            a = s.ex(e.e); lo = s.ex(e.lo) if e.lo is not None else "0"; hi = s.ex(e.hi)
            return s.bind("slice %s %s %s" % (a, lo, hi))
        if k == "field":
            assert e.e.kind == "var"
            return "%s_%s" % (cv(e.e.name), e.name)
        if k == "array":
            assert not (e.vec and e.es)
            return "[" + "; ".join(s.ex(x) for x in e.es) + "]"
        if k == "repeat":
            a, n = s.ex(e.e), s.ex(e.n)
            if not e.vec: return "(replicate %s %s)" % (n, a)
            assert a == "0"
            return s.bind("vec_zeroed p %d %s" % (esz(e.ty[1]), n))
        if k == "structlit":
            return "(Mk%s %s)" % (e.name, " ".join(s.paren(s.ex(x)) for _, x in e.fields))
        if k == "call":
            if e.path == ["Vec", "with_capacity"]:
                return s.bind("vec_with_capacity p %d %s" % (esz(e.ty[1]), s.ex(e.args[0])))
            if e.path[-1] == "digest":
                return "(%s %s)" % (EXT["::".join(e.path[:-1])], s.ex(e.args[0]))
            a = [s.ex(x) for x in e.args]
            return s.bind(" ".join([fname(s.mod, *e.target), "p"] + a))
        if k == "mcall":
            a = s.ex(e.recv); t = R(e.recv.ty); n = e.name
            if n == "len": return "(vlen %s)" % a
            if n in ("wrapping_add", "wrapping_sub"):
                b = s.ex(e.args[0]); o = "+" if n == "wrapping_add" else "-"
                if t == "i64": return "(wrap_i64 (%s %s %s))" % (a, o, b)
                return "(%s %d %s %s)" % ("wadd" if o == "+" else "wsub", BITS[t], a, b)
            if s.heap and n in ("clone", "to_vec") and R(R(e.ty)[1]) == "u64": return s.bind("heap_copy %s" % a)
            if n in ("clone", "to_vec"): return a
            if n == "to_le_bytes": return "(to_le_bytes %d %s)" % (BITS[t] // 8, a)
        raise SyntaxError("line %d: %s %s" % (e.line, k, getattr(e, "name", "")))
    def paren(s, x): return x
    def struct_val(s, v, st):
        return "(Mk%s %s)" % (st, " ".join("%s_%s" % (cv(v), f) for f, _ in Crate.structs[s.mod][st].fields))
    def index(s, e):
        a = s.ex(e.e); t = R(e.e.ty); c = s.const_val(e.i)
        if t[0] == "arr" and c is not None:
            assert 0 <= c < t[2], "line %d: constant index out of bounds" % e.line
            return "(aget %s %d)" % (a, c)
        return s.bind("vget %s %s" % (a, s.ex(e.i)))
    def binop(s, op, a, b, t, ea=None, eb=None):
        if op in ("&", "|", "^"):
            return "(Z.%s %s %s)" % ({"&": "land", "|": "lor", "^": "lxor"}[op], a, b)
        if op in ("<<", ">>"):
            c = s.const_val(eb); w = BITS[t]
            if c is not None:
                assert 0 <= c < w, "shift"
                return "(wshl %d %s %d)" % (w, a, c) if op == "<<" else "(wshr %s %d)" % (a, c)
            return s.bind("%s p %d %s %s" % ("shl_chk" if op == "<<" else "shr_chk", w, a, b))
        if op in ("==", "<", ">", "<=", ">="):
            return {"==": "(%s =? %s)", "<": "(%s <? %s)", "<=": "(%s <=? %s)", ">": "(%s >? %s)", ">=": "(%s >=? %s)"}[op] % (a, b)
        if op in ("/", "%"):
            c = s.const_val(eb); assert c is not None and c > 0, "division by a non-constant"
            if op == "/": return "(Z.quot %s %s)" % (a, b) if t == "i64" else "(%s / %s)" % (a, b)
            assert t != "i64"; return "(%s mod %s)" % (a, b)
        ca, cb = ea is not None and s.const_val(ea), eb is not None and s.const_val(eb)
        if type(ca) is int and type(cb) is int and ea.kind == "lit" and eb.kind == "lit":
            r = {"+": ca + cb, "-": ca - cb, "*": ca * cb}[op]
            w = {"i64": 63, "usize": 31, "i32": 31}.get(t) or BITS.get(t, 31)
            assert 0 <= r < 2 ** w, "constant overflow"
            return "(%s %s %s)" % (a, op, b)
        pre = {"i64": "i", "u64": "u", "usize": "sz", "u8": "u8", "u32": "u32"}[t]
        return s.bind("%s%s p %s %s" % (pre, {"+": "add", "-": "sub", "*": "mul"}[op], a, b))
    # assigned / declared / used names of a block
    def assigned(s, b, loc=()):
        r, loc = [], set(loc)
        def add(n):
            if n not in loc and n not in r: r.append(n)
        def root(lv):
            while lv.kind in ("idx", "slice", "field"):
                if lv.kind == "field" and lv.e.kind == "var": return cv(lv.e.name) + "_" + lv.name
                lv = lv.e
            return lv
        def target(lv):
            x = root(lv)
            if isinstance(x, str): return [x]
            t = R(x.ty)
            if isinstance(t, tuple) and t[0] == "struct":
                return [cv(x.name) + "_" + f for f, _ in Crate.structs[s.mod][t[1]].fields]
            return [cv(x.name)]
        for st in b.st:
            k = st.kind
            if k in ("let", "letpair"): loc.add(cv(st.name))
            elif k == "assign":
                for n in target(st.lv): add(n)
            elif k == "expr" and st.e.kind == "mcall":
                for n in target(st.e.recv): add(n)
            elif k == "for":
                for n in s.assigned(st.body, [cv(st.var)]): add(n)
            elif k == "loop":
                for n in s.assigned(st.body): add(n)
            elif k == "if":
                for n in s.assigned(st.th): add(n)
                if st.el:
                    for n in s.assigned(st.el): add(n)
        return r
    def env_names(s, env):
        """name -> type, structs split; declaration order"""
        d = {}
        for n, t in env.items():
            t2 = R(t)
            if isinstance(t2, tuple) and t2[0] == "struct":
                for f, ft in Crate.structs[s.mod][t2[1]].fields: d[cv(n) + "_" + f] = ft
            else: d[cv(n)] = t
        return d
    def tup(s, names):
        return "tt" if not names else names[0] if len(names) == 1 else "(" + ", ".join(names) + ")"
    def pat(s, names):
        return "_" if not names else names[0] if len(names) == 1 else "'(" + ", ".join(names) + ")"
    def store(s, pat, rhs):
        """[pat = rhs]; a temporary that was just bound is bound to [pat] at once"""
        if s.out:
            m = re.match(r"(t\d+) <-- (.*) ;;$", s.out[-1])
            if m and m.group(1) == rhs:
                s.out[-1] = "%s <-- %s ;;" % (pat, m.group(2)); return
        s.out.append("%s <-- Ok %s ;;" % (pat, rhs if re.match(r"[\w]+$|[\[(]", rhs) and not rhs.startswith("(-") else "(%s)" % rhs))
    def lets(s, name, ty, rhs):
        ty = R(ty)
        if isinstance(ty, tuple) and ty[0] == "struct":
            s.store("'(Mk%s %s)" % (ty[1], " ".join("%s_%s" % (cv(name), f) for f, _ in Crate.structs[s.mod][ty[1]].fields)), rhs)
        else: s.store(cv(name), rhs)
    def assign(s, lv, rhs):
        if lv.kind == "var": s.lets(lv.name, lv.ty, rhs)
        elif lv.kind == "field":
            assert lv.e.kind == "var"; s.store("%s_%s" % (cv(lv.e.name), lv.name), rhs)
        elif lv.kind == "idx":
            a = s.ex(lv.e); t = R(lv.e.ty); c = s.const_val(lv.i)
            if t[0] == "arr" and c is not None:
                assert 0 <= c < t[2]; s.assign(lv.e, "(<[%d%%nat := %s]> %s)" % (c, rhs, a))
            else:
                i = s.ex(lv.i); n = s.bind("vset %s %s %s" % (a, i, rhs)); s.assign(lv.e, n)
        else: raise SyntaxError(lv.kind)
    def stmts(s, b, env, f):
        """returns the environment after the statements (names visible)"""
        env = dict(env)
        for st in b.st:
            k = st.kind
            s.out.append("(* %d *)" % st.line)
            if k == "let":
                r = s.ex(st.e); env[st.name] = st.vty; s.lets(st.name, st.vty, r)
            elif k == "letpair":
                r = s.bind("split_right %s %s" % (s.ex(st.e.recv), s.ex(st.e.args[0])), cv(st.name)); env[st.name] = st.vty
            elif k == "assign":
                r = s.ex(st.e)
                if st.op != "=":
                    a = s.ex(st.lv); r = s.binop(st.op[0], a, r, R(st.lv.ty), None, st.e)
                s.assign(st.lv, r)
            elif k == "expr":
                e = st.e
                if e.kind == "panic": s.out.append("_ <-- Panic (A := unit) ;;"); continue
                assert e.kind == "mcall"
                if e.name == "extend_from_slice":
                    assert R(R(e.recv.ty)[1]) == "u8"
                    n = s.bind("vec_extend p %s %s" % (s.ex(e.recv), s.ex(e.args[0]))); s.assign(e.recv, n)
                elif e.name == "push":
                    assert R(R(e.recv.ty)[1]) == "u8"
                    n = s.bind("vec_extend p %s [%s]" % (s.ex(e.recv), s.ex(e.args[0]))); s.assign(e.recv, n)
                elif e.name == "resize":
                    n = s.bind("vec_resize p %d %s %s %s" % (esz(R(e.recv.ty)[1]), s.ex(e.recv), s.ex(e.args[0]), s.ex(e.args[1])))
                    s.assign(e.recv, n)
                elif e.name == "clone_from_slice":
                    assert e.recv.kind == "slice" and e.recv.lo is None
                    v = s.ex(e.args[0]); n = s.bind("slice_set %s %s %s" % (s.ex(e.recv.e), s.ex(e.recv.hi), v)); s.assign(e.recv.e, n)
                else: raise SyntaxError(e.name)
            elif k == "for":
                lo, hi = s.ex(st.lo), s.ex(st.hi)
                if st.inc: hi = "(%s + 1)" % hi
                vs = s.carried(st.body, env, [cv(st.var)])
                d, fv = s.body_def(st, env, vs, f)
                s.out.append("%s <-- for_range %s %s (%s) %s ;;" % (s.pat(vs), lo, hi, " ".join([d, "p"] + fv), s.tup(vs)))
            elif k == "loop":
                vs = s.carried(st.body, env, [])
                d, fv = s.body_def(st, env, vs, f)
                s.out.append("%s <-- loop64 (%s) %s ;;" % (s.pat(vs), " ".join([d, "p"] + fv), s.tup(vs)))
            elif k == "if":
                c = s.ex(st.c)
                names = s.env_names(env)
                vs = [n for n in names if n in set(s.assigned(st.th) + (s.assigned(st.el) if st.el else []))]
                save = s.out
                s.out = []; s.stmts(st.th, env, f); s.out.append("Ok %s" % s.tup(vs)); th = s.out
                s.out = []
                if st.el: s.stmts(st.el, env, f)
                s.out.append("Ok %s" % s.tup(vs)); el = s.out
                s.out = save
                s.out += ["%s <-- (if %s then" % (s.pat(vs), c)] + ["  " + x for x in th] + ["else"] + ["  " + x for x in el]
                s.out[-1] += ") ;;"
            else: raise SyntaxError("line %d: %s" % (st.line, k))
        return env
    def carried(s, body, env, loc):
        a = set(s.assigned(body, loc)); names = s.env_names(env)
        assert a <= set(names), a - set(names)
        return [n for n in names if n in a]
    def body_def(s, st, env, vs, f):
        s.nloop += 1
        name = "%s_body%d" % (f.cname, s.nloop)
        save, savn = s.out, s.n
        s.out, s.n = [], 0
        b = st.body
        e2 = dict(env)
        if st.kind == "for": e2.pop(st.var, None); e2[st.var] = st.vty
        if st.kind == "loop":
            last = b.st[-1]
            assert last.kind == "if" and len(last.th.st) == 1 and last.th.st[0].kind == "break" and last.el is None
            b = Node("block", 0, st=b.st[:-1], tail=None)
        assert b.tail is None
        s.stmts(b, e2, f)
        if st.kind == "for": s.out.append("Ok %s" % s.tup(vs))
        else:
            s.out.append("(* %d *)" % last.line)
            c = s.ex(last.c)
            s.out.append("if %s then Ok (inr %s) else Ok (inl %s)" % (c, s.tup(vs), s.tup(vs)))
        body = s.out
        s.out, s.n = save, savn
        text = " ".join(x for x in body if not x.startswith("(*"))
        words = set(re.findall(r"[A-Za-z_]\w*", text))
        names = s.env_names(env)
        bound = set(vs) | ({cv(st.var)} if st.kind == "for" else set())
        fv = [n for n in names if n in words and n not in bound]
        # a name that the body declares before any use is not free
        fv = [n for n in fv if s.used_free(n, body)]
        ps = "(p : platform) " + " ".join("(%s : %s)" % (n, coqty(names[n])) for n in fv)
        sty = " * ".join(coqty(names[n]) for n in vs) or "unit"
        d = ["(** %s:%d-%d: body of the [%s] loop%s. *)" % (s.path, st.line, st.last, st.kind, " over [%s]" % st.var if st.kind == "for" else "")]
        if st.kind == "for":
            d.append("Definition %s %s (%s : Z) (s : %s) : outcome (%s) :=" % (name, ps.strip(), cv(st.var), sty, sty))
        else:
            d.append("Definition %s %s (s : %s) : outcome ((%s) + (%s)) :=" % (name, ps.strip(), sty, sty, sty))
        d.append("  let %s := s in" % s.pat(vs) if vs else "  let _ := s in")
        d += s.layout(body)
        d[-1] += "."
        s.defs.append("\n".join(d) + "\n")
        return name, fv
    def used_free(s, n, body):
        for l in body:
            if l.startswith("(*"): continue
            m = re.match(r"\s*(?:let )?('?\([^)]*\)|\w+) (?:<--|:=) (.*)$", l)
            rhs = m.group(2) if m else l
            if re.search(r"(?<![\w])%s(?![\w])" % re.escape(n), rhs): return True
            if m and re.search(r"(?<![\w])%s(?![\w])" % re.escape(n), m.group(1)): return False
        return False
    def layout(s, out):
        r, com = [], ""
        for x in out:
            if x.lstrip().startswith("(*"): com = x.strip(); continue
            r.append("  " + x + ("  " + com if com else "")); com = ""
        return r
    def func(s, f, prefix=""):
        f.cname = prefix + f.name
        s.n = s.nloop = 0; s.out = []
        env = dict(f.params)
        for n, t in f.params:
            if isinstance(R(t), tuple) and R(t)[0] == "struct": s.lets(n, t, cv(n))
        s.stmts(f.body, env, f)
        s.out.append("(* %d *)" % f.body.tail.line)
        r = s.ex(f.body.tail)
        if s.heap:
            for n, w in s.dropped(f): s.out.append("_ <-- heap_drop%s %s ;;" % ("" if w == "u64" else "_bytes", n))
        m = re.match(r"(\w+) <-- (.*) ;;$", s.out[-1]) if s.out else None
        if m and m.group(1) == r: s.out[-1] = m.group(2)
        else: s.out.append("Ok %s" % r)
        ps = " ".join("(%s : %s)" % (cv(n), coqty(t)) for n, t in f.params)
        d = ["(** %s:%d-%d [%s] *)" % (s.path, f.line, f.last, f.name),
             "Definition %s (p : platform) %s: outcome %s :=" % (f.cname, ps + " " if ps else "", coqty(f.ret) if " " not in coqty(f.ret) else "(%s)" % coqty(f.ret))]
        d += s.layout(s.out); d[-1] = re.sub(r"(  \(\* \d+ \*\))?$", lambda m: "." + (m.group(1) or ""), d[-1], 1)
        s.defs.append("\n".join(d) + "\n")
    def dropped(s, f):
        """The vectors [f] owns at its end and does not return, in the order they are dropped:
        variables in reverse order of declaration, then parameters likewise.  A vector given
        to a function by value belongs to that function."""
        own = [(n, R(R(t)[1])) for n, t in f.params if isinstance(R(t), tuple) and R(t)[0] == "vec"]
        gone = set()
        def walk(x, top):
            if isinstance(x, (list, tuple)):
                for y in x: walk(y, top)
            if not isinstance(x, Node): return
            if x.kind == "let" and isinstance(R(x.vty), tuple) and R(x.vty)[0] == "vec":
                assert top and x.name not in dict(own); own.append((x.name, R(R(x.vty)[1])))
            if x.kind == "call":
                for y in x.args:
                    if y.kind == "var" and isinstance(R(y.ty), tuple) and R(y.ty)[0] == "vec" and not getattr(y, "ref", False):
                        assert top; gone.add(y.name)
            if x.kind == "assign" and x.lv.kind == "var": assert not (isinstance(R(x.lv.ty), tuple) and R(x.lv.ty)[0] == "vec")
            for k, v in vars(x).items():
                if k not in ("ty", "vty", "env"): walk(v, top and x.kind not in ("for", "loop", "if"))
        walk(f.body.st, True); walk(f.body.tail, True)
        if f.body.tail.kind == "var": gone.add(f.body.tail.name)
        return [(cv(n), w) for n, w in reversed(own) if n not in gone]
    def const(s, c):
        s.out = []
        r = s.ex(c.e) if c.e.kind != "bin" else "%s %s %s" % (s.ex(c.e.a), c.e.op, s.ex(c.e.b))
        assert not s.out
        s.defs.append("(** %s:%d-%d [%s] *)\nDefinition %s : %s := %s.\n" % (s.path, c.line, c.last, c.name, c.name, coqty(c.ty), r))
    def struct(s, c):
        s.defs.append("(** %s:%d-%d [struct %s] *)\nRecord %s := Mk%s { %s }.\n" % (s.path, c.line, c.last, c.name, c.name, c.name,
            "; ".join("%s_%s : %s" % (c.name, f, coqty(t)) for f, t in c.fields)))

# ---------------------------------------------------------------- the log of accesses
# The same definitions once more, with a log (Kept.v) of every access to the vector
# [whole_matrix] and of every call of [round_lyra].  A statement that does neither becomes
# [kquiet].  [_right], a copy of the end of [whole_matrix], is logged as the part of the
# matrix it copies: its offset [_right_at] goes along with it, also as the argument [w].
MATRIX, COPY, ARG, STEP = "whole_matrix", "_right", "w", "round_lyra"
def log_defs(defs):
    loud, out = set(), []
    for d in defs:
        lines = d.rstrip("\n").split("\n")
        m = re.match(r"Definition (\w+) (.*) : outcome (.*) :=$", lines[1]) if len(lines) > 1 else None
        if not m: continue
        name = m.group(1)
        body = " ".join(lines[2:])
        if name == STEP: loud.add(name); continue
        if not (re.search(r"(vget|vset) (%s|%s) " % (MATRIX, ARG), body) or set(re.findall(r"\w+", body)) & loud): continue
        loud.add(name)
        ps = m.group(2).replace("(%s : list Z)" % ARG, "(%s_at : Z) (%s : list Z)" % (ARG, ARG))
        r = ["(** As [%s], with the log. %s" % (name, lines[0][4:]), "Definition %s_log %s : kept %s :=" % (name, ps, m.group(3))]
        depth = 0
        for l in lines[2:]:
            if depth:
                assert not set(re.findall(r"\w+", l)) & (loud | {"vget", "vset"})
                r.append(l)
                if l == "  else": depth = 2
                elif depth == 2 and l.endswith(") ;;"): depth = 0
                continue
            if re.match(r"  let ", l): r.append(l); continue
            x = re.match(r"  (\S.*?) <-- (.*?)( ;;)?(  \(\*.*)?$", l)
            if x:
                pat, e, end, com = x.group(1), x.group(2), x.group(3), x.group(4) or ""
                if end is None:
                    assert e.startswith("(if "); depth = 1
                    r.append("  %s <=~ kquiet %s%s" % (pat, e, com)); continue
                r.append("  %s <=~ %s ;;%s" % (pat, log_rhs(e, loud), com))
                if e.startswith("split_right %s " % MATRIX):
                    assert pat == COPY
                    r.append("  let %s_at := %s in" % (COPY, e.split(" ", 2)[2]))
                continue
            x = re.match(r"  (.*?)\.(  \(\*.*)?$", l)
            e, com = x.group(1), x.group(2) or ""
            if e.startswith("if "):
                e, com2 = re.match(r"(.*?)(  \(\*.*)?$", e).groups(); com = com2 or com
                e = re.sub(r"\bOk \(in", "kret (in", e)
            elif e.startswith("Ok "): e = "kret " + e[3:]
            else: e = log_rhs(e, loud)
            r.append("  %s.%s" % (e, com))
        out.append("\n".join(r) + "\n")
    return out
def log_rhs(e, loud):
    w = e.split(" ")
    if w[0] == "vget" and w[1] == MATRIX: return "krd " + e[5:]
    if w[0] == "vget" and w[1] == ARG: return "krd_right %s_at %s" % (ARG, e[5:])
    if w[0] == "vset" and w[1] == MATRIX: return "kwr " + e[5:]
    if w[0] == STEP: return "kran (%s)" % e
    if w[0] in ("for_range", "loop64"):
        b = re.search(r"\((\w+) p\b", e).group(1)
        if b in loud: return re.sub(r"\(%s p\b" % b, "(%s_log p" % b, {"for_range": "kfor", "loop64": "kloop"}[w[0]] + e[len(w[0]):])
    if w[0] in loud:
        if COPY in w: e = e.replace(" " + COPY, " %s_at %s" % (COPY, COPY))
        return w[0] + "_log" + e[len(w[0]):]
    assert not set(re.findall(r"\w+", e)) & loud and not re.search(r"(vget|vset) (%s|%s|%s)" % (MATRIX, COPY, ARG), e), e
    return "kquiet (%s)" % e

# ---------------------------------------------------------------- the log of heap buffers
# The definitions once more, with a log (Held.v) of the vectors of words that are allocated
# and dropped and of the vectors of bytes that are dropped.  [defs] are the definitions of an
# Emit with heap=True, which has heap_copy at [to_vec] and [clone] of words and heap_drop at
# the end of the owner of a vector; a definition without such events is left as it is.
def heap_defs(defs, plain):
    loud, out = set(), []
    EV = r"\b(heap_\w+|vec_zeroed p 8|vec_resize p 8)\b"
    def rhs(e):
        w = e.split(" ")
        if w[0] == "heap_copy": return "hcopy " + w[1]
        if w[0] in ("heap_drop", "heap_drop_bytes"): return w[0].replace("heap_", "h") + " " + w[1]
        if e.startswith("vec_zeroed p 8 "): return "hzeroed p " + e[15:]
        if e.startswith("vec_resize p 8 "): return "hresize p " + e[15:]
        if w[0] in ("for_range", "loop64"):
            b = re.search(r"\((\w+) p\b", e).group(1)
            if b in loud:
                assert w[0] == "for_range"
                return re.sub(r"\(%s p\b" % b, "(%s_held p" % b, "hfor" + e[len(w[0]):])
        if w[0] in loud: return w[0] + "_held" + e[len(w[0]):]
        assert not set(re.findall(r"\w+", e)) & loud and not re.search(EV, e), e
        return "hquiet (%s)" % e
    assert len(defs) == len(plain)
    for d, d0 in zip(defs, plain):
        lines = d.rstrip("\n").split("\n")
        m = re.match(r"Definition (\w+) (.*) : outcome (.*) :=$", lines[1]) if len(lines) > 1 else None
        body = " ".join(lines[2:]) if m else ""
        if not (re.search(EV, body) or set(re.findall(r"\w+", body)) & loud): assert d == d0; continue
        loud.add(m.group(1))
        r = ["(** As [%s], with the log. %s" % (m.group(1), lines[0][4:]), "Definition %s_held %s : held %s :=" % m.groups()]
        depth = 0
        for l in lines[2:]:
            if depth:
                assert not set(re.findall(r"\w+", l)) & loud and not re.search(EV, l)
                r.append(l)
                if l == "  else": depth = 2
                elif depth == 2 and l.endswith(") ;;"): depth = 0
                continue
            if re.match(r"  let ", l): r.append(l); continue
            x = re.match(r"  (\S.*?) <-- (.*?)( ;;)?(  \(\*.*)?$", l)
            if x:
                pat, e, end, com = x.group(1), x.group(2), x.group(3), x.group(4) or ""
                if end is None: assert e.startswith("(if "); depth = 1; e = "hquiet " + e
                else: e = rhs(e) + " ;;"
                r.append("  %s <=@ %s%s" % (pat, e, com)); continue
            e, com = re.match(r"  (.*?)\.(  \(\*.*)?$", l).groups()
            r.append("  %s.%s" % ("hret " + e[3:] if e.startswith("Ok ") else rhs(e), com or ""))
        out.append("\n".join(r) + "\n")
    return out

# The chained hashes with the log of the Lyra2 calls they make: of accesses, or of heap buffers.
def chain_log_defs(defs, file="Log", fun="_log", ty="kept", bind="<=~", quiet="kquiet"):
    out = []
    def rhs(e):
        if e.startswith("Ok "): return "%s (%s)" % (quiet, e)
        f = e.split(" ")[0]
        mod, fn = f.split(".")
        if mod in ("SrcLyra2", "SrcLyra2mod"): return "%s%s.%s%s%s" % (mod, file, fn, fun, e[len(f):])
        assert mod in ("SrcCube", "SrcBmw"), e
        return "%s (%s)" % (quiet, e)
    for d in defs:
        lines = d.rstrip("\n").split("\n")
        m = re.match(r"Definition (\w+) (.*) : outcome (.*) :=$", lines[1])
        r = ["(** As [%s], with the log. %s" % (m.group(1), lines[0][4:]), "Definition %s%s %s : %s %s :=" % (m.group(1), fun, m.group(2), ty, m.group(3))]
        for l in lines[2:-1]:
            pat, e, com = re.match(r"  (\w+) <-- (.*) ;;(  \(\*.*)$", l).groups()
            r.append("  %s %s %s ;;%s" % (pat, bind, rhs(e), com))
        e, com = re.match(r"  (.*)\.(  \(\*.*)$", lines[-1]).groups()
        r.append("  %s.%s" % (rhs(e), com))
        out.append("\n".join(r) + "\n")
    return out

# ---------------------------------------------------------------- the log of what is observable
# The same definitions once more, with a log (Seen.v) of everything but the data: indices,
# bounds of slices and of loops, branches, sizes of vectors and the values given to [rowa].
# A definition without loops, branches and computed indices ("plain") is left as it is; one
# that only adds accesses to the matrix is taken with the log of log_defs.
CHOICE = "rowa"
CONTROL = r"\b(for_range|loop64|split_right|vec_\w+|if)\b"
def words(e):
    out, d, w = [], 0, ""
    for c in e:
        d += (c in "([") - (c in ")]")
        if c == " " and d == 0: out.append(w); w = ""
        else: w += c
    return out + [w]
def seen_defs(defs, logged, others):
    kind, out = dict(others), []
    def literal(body, but):
        if re.search(CONTROL, body): return False
        for m in re.finditer(r"<-- (vget|vset|slice|slice_set) (.*?) ;;", body):
            w = words(m.group(2))
            if m.group(1).startswith("slice") or w[0] not in but:
                if not all(re.fullmatch(r"\d+", i) for i in (w[1:3] if m.group(1) == "slice" else w[1:2])): return False
        return True
    def plain(body):
        return literal(body, ()) and all(kind.get(x, "plain") == "plain" for x in re.findall(r"[\w.]+", body))
    def call(f, e):
        k = kind.get(f, "plain")
        if k == "log" and COPY in e.split(" "): e = e.replace(" " + COPY, " %s_at %s" % (COPY, COPY))
        return {"seen": "%s_seen%s", "log": "slift (%s_log%s)", "plain": "squiet (%s%s)"}[k] % (f, e)
    def loop(f, e, lo):
        w = words(e)
        b = words(w[-2][1:-1])
        k = kind.get(b[0], "plain")
        if k == "seen": b = "(%s)" % " ".join([b[0] + "_seen"] + b[1:])
        else:
            vs = "_i_ _s_" if f == "sfor" else "_s_"
            b = "(fun %s => %s)" % (vs, call(b[0], " %s %s" % (" ".join(b[1:]), vs)))
        return " ".join([f] + w[1:-2] + [b, w[-1]])
    def rhs(pat, e):
        w = words(e)
        if w[0] == "Ok":
            return ("spick (%s)" if pat == CHOICE else "sret (%s)") % e[3:]
        assert pat != CHOICE, e
        if w[0] in ("vget", "vset") and w[1] == MATRIX: return "slift (%s %s)" % ({"vget": "krd", "vset": "kwr"}[w[0]], " ".join(w[1:]))
        assert w[0] not in ("vget", "vset", "slice") or w[1] not in (ARG, COPY)
        if w[0] in ("vget", "vset", "slice", "slice_set", "split_right"):
            return 's%s "%s" %s' % ({"vget": "get", "vset": "put", "slice": "slice", "slice_set": "slice_set", "split_right": "split"}[w[0]], w[1], " ".join(w[1:]))
        if w[0] == "vec_extend": return "ssize (vlen %s) (%s)" % (w[3], e)
        if w[0] in ("vec_zeroed", "vec_with_capacity"): return "ssize %s (%s)" % (w[3], e)
        if w[0] == "vec_resize": return "ssize %s (%s)" % (w[4], e)
        assert not w[0].startswith("vec_"), e
        if w[0] == "for_range": return loop("sfor", e, 3)
        if w[0] == "loop64": return loop("sloop", e, 1)
        return call(w[0], e[len(w[0]):])
    for d in defs:
        lines = d.rstrip("\n").split("\n")
        m = re.match(r"Definition (\w+) (.*) : outcome (.*) :=$", lines[1]) if len(lines) > 1 else None
        if not m: continue
        name, body = m.group(1), " ".join(re.sub(r"  \(\*.*?\*\)", "", l) for l in lines[2:])
        if name in logged and literal(body, (MATRIX, ARG, COPY)) and all(kind.get(x) != "seen" for x in re.findall(r"[\w.]+", body)):
            kind[name] = "log"; continue
        if plain(body): kind[name] = "plain"; continue
        kind[name] = "seen"
        r = ["(** As [%s], with the log of what is observable. %s" % (name, lines[0][4:]),
             "Definition %s_seen %s : seen %s :=" % (name, m.group(2), m.group(3))]
        for l in lines[2:]:
            com = re.search(r"  \(\*.*?\*\)", l)
            com = com.group(0) if com else ""
            l = l.replace(com, "")
            ind, t = re.match(r"( *)(.*)$", l).groups()
            x = re.match(r"(\S.*?) <-- (.*) ;;$", t)
            if t.startswith("let "): t = t
            elif t == "else": t = ") ("
            elif x:
                t = "%s <=! %s ;;" % (x.group(1), rhs(x.group(1), x.group(2)))
                if x.group(2).startswith("split_right %s " % MATRIX):
                    assert x.group(1) == COPY
                    t += "\n%slet %s_at := %s in" % (ind, COPY, x.group(2).split(" ", 2)[2])
            elif re.match(r"(\S.*?) <-- \(if (.*) then$", t):
                t = "%s <=! sif %s (" % re.match(r"(\S.*?) <-- \(if (.*) then$", t).groups()
            elif re.match(r"if (.*) then Ok (.*) else Ok (.*)\.$", t):
                t = "sif %s (sret %s) (sret %s)." % re.match(r"if (.*) then Ok (.*) else Ok (.*)\.$", t).groups()
            else:
                e, end = re.match(r"(.*?)(\) ;;|\.|)$", t).groups()
                t = rhs("", e) + end
            r.append(ind + t + com)
        out.append("\n".join(r) + "\n")
    return out, kind

def chain_seen_defs(defs, seen):
    out, _ = seen_defs([re.sub(r" Ok (?=\w+256)", " Ok ", d) for d in defs], set(), dict(seen, **{"Ok": "seen"}))
    return [re.sub(r"\b(Src\w+)\.(\w+_seen)\b", r"\1Seen.\2", d) for d in out]

FILES = [("utils", "utils.rs"), ("lyra2", "lyra2.rs"), ("lyra2mod", "lyra2mod/mod.rs"), ("cubehash", "cubehash/mod.rs"),
         ("bmw", "bmw/mod.rs"), ("lyra2re", "lyra2re.rs"), ("lyra2rev2", "lyra2rev2.rs"), ("lyra2rev3", "lyra2rev3.rs"), ("lyra2z", "lyra2z.rs")]
def main():
    texts, chains, seen = {}, [], {}
    for mod, path in FILES:
        src = open(SRC + "/" + path, encoding="utf8").read()
        USES[mod] = {m.group(2): m.group(1) for m in re.finditer(r"use crate::(\w+)::(\w+);", src)}
        items = Parser(lex(src)).items()
        Crate.fns[mod] = {i.name: i for i in items if i.kind == "fn"}
        Crate.consts[mod] = {i.name: i for i in items if i.kind == "const"}
        Crate.structs[mod] = {i.name: i for i in items if i.kind == "struct"}
        inf = Infer(mod)
        for i in items:
            if i.kind == "const": unify(inf.ex(i.e, {}), i.ty)
            if i.kind == "fn": inf.fn(i)
        em = Emit(mod, path)
        for i in items:
            if i.kind == "const": em.const(i)
            elif i.kind == "struct": em.struct(i)
            else: em.func(i, mod + "_" if MODFILE[mod] == "SrcChains" else "")
        if mod in ("lyra2", "lyra2mod"):
            eh = Emit(mod, path, heap=True)
            for i in items:
                if i.kind == "const": eh.const(i)
                else: eh.func(i)
            texts[MODFILE[mod] + "Heap"] = ("(** * /repo/src/%s, translated by tools/rust2coq.py, with a log of its heap buffers *)\n"
                "From Verif Require Import Machine SrcOps Held %s.\nFrom Verif Require SrcUtils.\n\n%s"
                % (path, MODFILE[mod], "\n".join(heap_defs(eh.defs, em.defs))))
            texts[MODFILE[mod] + "Log"] = ("(** * /repo/src/%s, translated by tools/rust2coq.py, with a log of its accesses *)\n"
                "From Verif Require Import Machine SrcOps Kept %s.\nFrom Verif Require SrcUtils.\n\n%s"
                % (path, MODFILE[mod], "\n".join(log_defs(em.defs))))
        if mod in ("lyra2", "lyra2mod", "cubehash", "bmw"):
            logged = set(re.findall(r"Definition (\w+)_log", texts.get(MODFILE[mod] + "Log", "")))
            defs, kind = seen_defs(em.defs, logged, seen)
            seen.update({"%s.%s" % (MODFILE[mod], n): k for n, k in kind.items() if "." not in n})
            texts[MODFILE[mod] + "Seen"] = ("(** * /repo/src/%s, translated by tools/rust2coq.py, with a log of what is observable *)\n"
                "From Verif Require Import Machine SrcOps Seen %s.\nFrom Verif Require SrcUtils.\n\n%s"
                % (path, MODFILE[mod] + (" " + MODFILE[mod] + "Log" if logged else ""), "\n".join(defs)))
        if MODFILE[mod] == "SrcChains": chains += em.defs
        else:
            req = ["From Verif Require Import Machine SrcOps."]
            if mod != "utils": req.append("From Verif Require SrcUtils.")
            texts[MODFILE[mod]] = "(** * /repo/src/%s, translated statement by statement by tools/rust2coq.py *)\n%s\n\n%s" % (path, "\n".join(req), "\n".join(em.defs))
    texts["SrcChains"] = ("(** * /repo/src/lyra2re.rs, lyra2rev2.rs, lyra2rev3.rs, lyra2z.rs, translated by tools/rust2coq.py.\n"
        "    The digests of the external crates are parameters. *)\nFrom Verif Require Import Machine SrcOps.\n"
        "From Verif Require SrcLyra2 SrcLyra2mod SrcCube SrcBmw.\n\nSection chains.\n"
        "Context (blake256 keccak256 skein512_256 groestl256 : list Z -> list Z).\n\n" + "\n".join(chains) + "End chains.\n")
    texts["SrcChainsLog"] = ("(** * /repo/src/lyra2re.rs, lyra2rev2.rs, lyra2rev3.rs, lyra2z.rs, translated by tools/rust2coq.py,\n"
        "    with the log of the calls of Lyra2 *)\nFrom Verif Require Import Machine SrcOps Kept.\n"
        "From Verif Require SrcLyra2Log SrcLyra2modLog SrcCube SrcBmw.\n\nSection chains.\n"
        "Context (blake256 keccak256 skein512_256 groestl256 : list Z -> list Z).\n\n" + "\n".join(chain_log_defs(chains)) + "End chains.\n")
    texts["SrcChainsHeap"] = ("(** * /repo/src/lyra2re.rs, lyra2rev2.rs, lyra2rev3.rs, lyra2z.rs, translated by tools/rust2coq.py,\n"
        "    with the log of the heap buffers of the calls of Lyra2 *)\nFrom Verif Require Import Machine SrcOps Held.\n"
        "From Verif Require SrcLyra2Heap SrcLyra2modHeap SrcCube SrcBmw.\n\nSection chains.\n"
        "Context (blake256 keccak256 skein512_256 groestl256 : list Z -> list Z).\n\n"
        + "\n".join(chain_log_defs(chains, "Heap", "_held", "held", "<=@", "hquiet")) + "End chains.\n")
    texts["SrcChainsSeen"] = ("(** * /repo/src/lyra2re.rs, lyra2rev2.rs, lyra2rev3.rs, lyra2z.rs, translated by tools/rust2coq.py,\n"
        "    with the log of what is observable in the functions of this crate *)\nFrom Verif Require Import Machine SrcOps Seen.\n"
        "From Verif Require SrcLyra2Seen SrcLyra2modSeen SrcCubeSeen SrcBmwSeen.\n\nSection chains.\n"
        "Context (blake256 keccak256 skein512_256 groestl256 : list Z -> list Z).\n\n" + "\n".join(chain_seen_defs(chains, seen)) + "End chains.\n")
    for n, t in texts.items():
        open("%s/%s.v" % (OUT, n), "w").write(t)
main()
