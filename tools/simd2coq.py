#!/usr/bin/env python3
"""Transcribe the AVX2 functions of /repo/src/eltfp*_redradix.c (and the vector
parts of other files) into Coq lists of vector instructions (Simd.vinstr).

The translator is a small C preprocessor, a parser for the C subset used in
these files and an evaluator which unrolls loops with constant bounds, resolves
constants and pointer arithmetic and emits one instruction per intrinsic call,
in evaluation order.  It performs no optimisation."""
import re, sys
REPO = "/repo/"

# ---------------------------------------------------------------- lexer
TOK = re.compile(r"""
  (?P<ws>[ \t]+) | (?P<num>0[xX][0-9a-fA-F]+[uUlL]*|\d+[uUlL]*) | (?P<id>[A-Za-z_]\w*)
 | (?P<str>"(?:[^"\\]|\\.)*")
 | (?P<op>\#\#|<<=|>>=|\+\+|--|<<|>>|<=|>=|==|!=|&&|\|\||\+=|-=|&=|\|=|\^=|->|[-+*/%&|^~!<>=(){}\[\];,.?:\#])
""", re.X)

class Tok:
    __slots__ = ("k", "s", "ln")
    def __init__(s, k, t, ln): s.k, s.s, s.ln = k, t, ln
    def __repr__(s): return "%s@%d" % (s.s, s.ln)

def lex(line, ln):
    out, i = [], 0
    while i < len(line):
        m = TOK.match(line, i)
        if not m: raise SystemExit("lex %d: %r" % (ln, line[i:i+30]))
        if m.lastgroup != "ws": out.append(Tok(m.lastgroup, m.group(), ln))
        i = m.end()
    return out

def strip_comments(txt):
    def rep(m):
        s = m.group()
        return "\n" * s.count("\n") + " " if s.startswith("/") else s
    return re.sub(r'/\*.*?\*/|//[^\n]*|"(?:[^"\\]|\\.)*"', rep, txt, flags=re.S)

# ---------------------------------------------------------------- preprocessor
class CPP:
    def __init__(self, defs):
        self.m = {}
        for k, v in defs.items(): self.m[k] = (None, lex(str(v), 0))
        self.depth = 0
    def cond(self, toks):
        out = []
        i = 0
        while i < len(toks):
            t = toks[i]
            if t.s == "defined":
                if toks[i+1].s == "(": nm = toks[i+2].s; i += 4
                else: nm = toks[i+1].s; i += 2
                out.append("1" if nm in self.m else "0"); continue
            out.append(t); i += 1
        ts = []
        for t in out:
            if isinstance(t, str): ts.append(t)
            else:
                for x in self.expand([t]):
                    ts.append("0" if x.k == "id" else re.sub("[uUlL]+$", "", x.s))
        e = " ".join(ts).replace("&&", " and ").replace("||", " or ").replace("! ", " not ")
        return bool(eval(e))
    def process(self, path, includes=()):
        txt = strip_comments(open(REPO + path).read())
        lines = txt.split("\n")
        out, i = [], 0
        stack = []
        while i < len(lines):
            ln = i + 1
            line = lines[i]; i += 1
            while line.endswith("\\"):
                line = line[:-1] + " " + lines[i]; i += 1
            s = line.strip()
            if s.startswith("#"):
                d = s[1:].strip()
                m = re.match(r"(\w+)\s*(.*)", d)
                if not m: continue
                w, rest = m.groups()
                act = all(x[0] for x in stack)
                if w == "ifdef": v = act and rest.split()[0] in self.m; stack.append([v, v])
                elif w == "ifndef": v = act and rest.split()[0] not in self.m; stack.append([v, v])
                elif w == "if": v = act and self.cond(lex(rest, ln)); stack.append([v, v])
                elif w == "elif":
                    x = stack[-1]
                    if x[1]: x[0] = False
                    else: x[0] = x[1] = self.cond(lex(rest, ln))
                elif w == "else":
                    x = stack[-1]; x[0] = not x[1]; x[1] = True
                elif w == "endif": stack.pop()
                elif not act: pass
                elif w == "define":
                    m = re.match(r"(\w+)(\(([^)]*)\))?(.*)", rest, re.S)
                    nm, fp, ps, body = m.groups()
                    params = [p.strip() for p in ps.split(",")] if fp else None
                    self.m[nm] = (params, lex(body, ln))
                elif w == "undef": self.m.pop(rest.split()[0], None)
                elif w == "include": pass
                else: raise SystemExit("cpp: " + s)
                # flush happens token by token: macros must be expanded with the
                # definitions current at this line, so expand what we have
                continue
            if not all(x[0] for x in stack): continue
            out.append((lex(line, ln), ln))
            # expand eagerly at function granularity: see below
            self.pending = out
            # balance check: expand once parentheses are balanced
            flat = [t for l, _ in out for t in l]
            if flat and sum(1 if t.s == "(" else -1 if t.s == ")" else 0 for t in flat) == 0:
                yield from self.expand(flat)
                out = []
        flat = [t for l, _ in out for t in l]
        yield from self.expand(flat)
    def expand(self, toks, hide=frozenset(), ln=None):
        out, i = [], 0
        toks = list(toks)
        while i < len(toks):
            t = toks[i]
            if ln is not None and t.ln != ln: t = Tok(t.k, t.s, ln)
            if t.k == "id" and t.s in self.m and t.s not in hide:
                params, body = self.m[t.s]
                if params is None:
                    out += self.expand(body, hide | {t.s}, t.ln); i += 1; continue
                if i + 1 < len(toks) and toks[i+1].s == "(":
                    args, cur, d, j = [], [], 0, i + 2
                    while True:
                        x = toks[j]
                        if x.s == ")" and d == 0: break
                        if x.s == "," and d == 0: args.append(cur); cur = []
                        else:
                            if x.s in "([{": d += 1
                            if x.s in ")]}": d -= 1
                            cur.append(x)
                        j += 1
                    args.append(cur)
                    if params == [""]: args = []; ps = []
                    else: ps = params
                    assert len(args) == len(ps), (t, args)
                    env = dict(zip(ps, args))
                    # ## pasting uses unexpanded arguments
                    res, k = [], 0
                    b = body
                    while k < len(b):
                        if k + 1 < len(b) and b[k+1].s == "##":
                            acc = "".join(x.s for x in env.get(b[k].s, [b[k]]))
                            while k + 1 < len(b) and b[k+1].s == "##":
                                acc += "".join(x.s for x in env.get(b[k+2].s, [b[k+2]])); k += 2
                            res.append(Tok("id", acc, t.ln)); k += 1; continue
                        if b[k].k == "id" and b[k].s in env:
                            ex = self.expand(env[b[k].s], hide, t.ln)
                            res += [Tok(x.k, x.s, t.ln) for x in ex]
                        else: res.append(Tok(b[k].k, b[k].s, t.ln))
                        k += 1
                    out += self.expand(res, hide | {t.s}, t.ln)
                    i = j + 1; continue
            out.append(t); i += 1
        return out

# ---------------------------------------------------------------- parser
TYPES = {"void", "int", "unsigned", "char", "uint64_t", "int64_t", "uint8_t", "uint32_t", "int8_t", "int32_t",
         "__m256i", "__m128i", "long", "__int128_t", "size_t", "FILE", "argECDHX_Key", "__uint128_t"}
QUAL = {"const", "static", "inline", "ALIGN", "register", "volatile", "extern", "unsigned", "signed"}
ARR = {}   # typedef name -> (elem type, count or None for pointer)

class P:
    def __init__(self, toks): self.t = toks; self.i = 0
    def pk(self, k=0): return self.t[self.i+k].s if self.i + k < len(self.t) else None
    def nx(self): x = self.t[self.i]; self.i += 1; return x
    def eat(self, s):
        x = self.nx()
        if x.s != s: raise SystemExit("parse: expected %r got %r near %s" % (s, x, self.t[max(0,self.i-8):self.i+5]))
        return x
    def is_type(self, k=0):
        s = self.pk(k); return s in TYPES or s in QUAL or s in ARR or s in STRUCTS
    def decl_type(self):
        base = None
        while self.pk() in QUAL or self.pk() in TYPES or self.pk() in ARR or self.pk() in STRUCTS:
            s = self.pk()
            if s in QUAL and not (s == "unsigned"): self.nx(); continue
            if base is not None and s in ARR: break
            self.nx(); base = s if base in (None, "unsigned", "long") else base
        st = 0
        while self.pk() == "*" or self.pk() == "const":
            if self.nx().s == "*": st += 1
        return (base, st)
    # expressions -> tuples (kind, line, ...)
    def expr(self):
        e = self.assign()
        while self.pk() == ",":
            self.nx(); e = ("comma", e[1], e, self.assign())
        return e
    def assign(self):
        l = self.cond()
        if self.pk() in ("=", "+=", "-=", "&=", "|=", "^=", "<<=", ">>="):
            o = self.nx()
            r = self.assign()
            return ("assign", o.ln, o.s, l, r)
        return l
    def cond(self):
        c = self.binary(0)
        if self.pk() == "?":
            ln = self.nx().ln; a = self.expr(); self.eat(":"); b = self.cond()
            return ("cond", ln, c, a, b)
        return c
    LV = [["||"], ["&&"], ["|"], ["^"], ["&"], ["==", "!="], ["<", ">", "<=", ">="], ["<<", ">>"], ["+", "-"], ["*", "/", "%"]]
    def binary(self, lv):
        if lv == len(self.LV): return self.unary()
        a = self.binary(lv + 1)
        while self.pk() in self.LV[lv]:
            o = self.nx(); b = self.binary(lv + 1)
            a = ("bin", o.ln, o.s, a, b)
        return a
    def unary(self):
        t = self.t[self.i]
        if t.s in ("-", "+", "~", "!", "*", "&"):
            self.nx(); return ("un", t.ln, t.s, self.unary())
        if t.s in ("++", "--"):
            self.nx(); return ("preinc", t.ln, t.s, self.unary())
        if t.s == "sizeof":
            self.nx(); self.eat("("); ty = self.decl_type(); self.eat(")"); return ("sizeof", t.ln, ty)
        if t.s == "(" and self.is_type(1):
            self.nx(); ty = self.decl_type(); self.eat(")")
            return ("cast", t.ln, ty, self.unary())
        return self.postfix()
    def postfix(self):
        t = self.nx()
        if t.k == "num": e = ("num", t.ln, int(re.sub("[uUlL]+$", "", t.s), 0))
        elif t.k == "id": e = ("var", t.ln, t.s)
        elif t.s == "(": e = self.expr(); self.eat(")")
        else: raise SystemExit("parse expr %r near %s" % (t, self.t[max(0,self.i-10):self.i+5]))
        while True:
            s = self.pk()
            if s == "[":
                ln = self.nx().ln; i = self.expr(); self.eat("]"); e = ("idx", ln, e, i)
            elif s == "(":
                ln = self.nx().ln; args = []
                while self.pk() != ")":
                    args.append(self.assign())
                    if self.pk() == ",": self.nx()
                self.eat(")"); e = ("call", ln, e[2], args)
            elif s in ("++", "--"):
                ln = self.nx().ln; e = ("postinc", ln, s, e)
            elif s in (".", "->"):
                ln = self.nx().ln; e = ("field", ln, s, e, self.nx().s)
            else: return e
    # statements
    def init(self):
        if self.pk() == "{":
            ln = self.nx().ln; l = []
            while self.pk() != "}":
                l.append(self.init())
                if self.pk() == ",": self.nx()
            self.eat("}"); return ("list", ln, l)
        return self.assign()
    def declaration(self):
        ty = self.decl_type(); ds = []
        while True:
            st = ty[1]
            while self.pk() == "*": self.nx(); st += 1
            nm = self.nx(); dims = []
            while self.pk() == "[":
                self.nx()
                dims.append(None if self.pk() == "]" else self.expr()); self.eat("]")
            ini = None
            if self.pk() == "=": self.nx(); ini = self.init()
            ds.append((nm.ln, (ty[0], st), nm.s, dims, ini))
            if self.pk() == ",": self.nx(); continue
            self.eat(";"); break
        return ("decl", ds[0][0], ds)
    def block(self):
        self.eat("{"); l = []
        while self.pk() != "}": l.append(self.stmt())
        self.eat("}"); return ("block", 0, l)
    def stmt(self):
        s = self.pk(); ln = self.t[self.i].ln
        if s == "{": return self.block()
        if s == ";": self.nx(); return ("block", ln, [])
        if s == "for":
            self.nx(); self.eat("(")
            if self.pk() == ";": a = None; self.nx()
            elif self.is_type(): a = self.declaration()
            else: a = ("expr", ln, self.expr()); self.eat(";")
            c = self.expr(); self.eat(";"); u = self.expr(); self.eat(")")
            return ("for", ln, a, c, u, self.stmt())
        if s == "while":
            self.nx(); self.eat("("); c = self.expr(); self.eat(")"); return ("while", ln, c, self.stmt())
        if s == "do":
            self.nx(); b = self.stmt(); self.eat("while"); self.eat("("); c = self.expr(); self.eat(")"); self.eat(";")
            return ("do", ln, b, c)
        if s == "if":
            self.nx(); self.eat("("); c = self.expr(); self.eat(")"); a = self.stmt(); b = None
            if self.pk() == "else": self.nx(); b = self.stmt()
            return ("if", ln, c, a, b)
        if s == "return":
            self.nx(); e = None if self.pk() == ";" else self.expr(); self.eat(";"); return ("return", ln, e)
        if s in ("__asm__", "asm"):
            while self.pk() != "(": self.nx()
            d = 0
            while True:
                x = self.nx().s
                if x == "(": d += 1
                if x == ")":
                    d -= 1
                    if d == 0: break
            if self.pk() == ";": self.nx()
            return ("asm", ln)
        if self.is_type() and self.pk(1) != "(": return self.declaration()
        e = self.expr()
        if self.pk() == ";": self.nx()
        return ("expr", ln, e)

STRUCTS = set()

def parse_file(toks):
    """-> functions {name: (line, params, body)}, globals [decl]"""
    p = P(list(toks)); fns, gl = {}, []
    while p.i < len(p.t):
        start = p.i
        # find whether this is a function definition: scan to first of ; = {  at depth 0
        j, d = p.i, 0
        while j < len(p.t):
            s = p.t[j].s
            if s == "(": d += 1
            elif s == ")": d -= 1
            elif d == 0 and s in (";", "=", "{"): break
            j += 1
        if j >= len(p.t): break
        if p.t[j].s == "{" and p.t[j-1].s == ")":
            # function
            ln = p.t[p.i].ln
            k = p.i
            while p.t[k+1].s != "(": k += 1
            name = p.t[k].s; p.i = k + 2
            params = []
            while p.pk() != ")":
                if p.pk() == "void" and p.pk(1) == ")": p.nx(); break
                ty = p.decl_type()
                nm = p.nx().s; dims = []
                while p.pk() == "[":
                    p.nx(); 
                    dims.append(None if p.pk() == "]" else p.expr()); p.eat("]")
                params.append((ty, nm, dims))
                if p.pk() == ",": p.nx()
            p.eat(")")
            b0 = p.i
            try:
                body = p.block()
            except SystemExit as e:
                # skip unparsable functions (reported if requested)
                p.i = b0; d = 0
                while True:
                    x = p.nx().s
                    if x == "{": d += 1
                    if x == "}":
                        d -= 1
                        if d == 0: break
                fns[name] = (ln, params, ("bad", str(e))); continue
            fns[name] = (ln, params, body)
        elif p.t[j].s == "=":
            try: gl.append(p.declaration())
            except SystemExit: 
                p.i = j
                while p.nx().s != ";": pass
        else:
            p.i = j + 1
            if p.t[j].s == "{":
                d = 1
                while d:
                    x = p.nx().s
                    if x == "{": d += 1
                    if x == "}": d -= 1
    return fns, gl

# ---------------------------------------------------------------- evaluator
LANES = {"__m256i": 4, "__m128i": 2, "uint64_t": 1, "int64_t": 1}
M64 = (1 << 64) - 1

class Int:
    def __init__(s, v): s.v = v
class Vec:   # n 64-bit lanes at location l, or constant lanes
    def __init__(s, n, l=None, c=None): s.n, s.l, s.c = n, l, c
class Ptr:   # typed pointer into lane memory or into a constant array
    def __init__(s, ty, l=None, c=None, off=0): s.ty, s.l, s.c, s.off = ty, l, c, off
class PtrArr:
    def __init__(s, n): s.a = [None] * n

class Break(Exception): pass

class Fn:
    def __init__(self, fns, genv, nonlocal_base=8192, ext=None):
        self.fns, self.genv, self.next = fns, genv, nonlocal_base
        self.code, self.ext = [], ext or {}
    def alloc(self, lanes):
        l = self.next; self.next += (lanes + 3) // 4 * 4; return l
    def emit(self, ln, ins): self.code.append((ln, ins))

    def tlanes(self, ty):
        b, st = ty
        return LANES[b]
    def look(self, env, nm):
        for e in reversed(env):
            if nm in e: return e[nm]
        if nm in self.genv: return self.genv[nm]
        raise SystemExit("unbound %s" % nm)

    # operand syntax
    def opnd(self, v):
        if v.c is not None: return "(VC [%s])" % "; ".join(str(x & M64) for x in v.c)
        return "(VL %d)" % v.l

    # ---- lvalues
    def lval(self, e, env):
        k = e[0]
        if k == "var":
            for en in reversed(env):
                if e[2] in en: return ("var", en, e[2])
            raise SystemExit("unbound lvalue %s (line %d)" % (e[2], e[1]))
        if k == "idx":
            b = self.ev(e[2], env); i = self.ev(e[3], env).v
            if isinstance(b, PtrArr): return ("pa", b, i)
            return ("mem", b, i)
        if k == "un" and e[2] == "*":
            b = self.ev(e[3], env); return ("mem", b, 0)
        raise SystemExit("lvalue %s" % (e,))
    def load_lv(self, lv):
        if lv[0] == "var": return lv[1][lv[2]]
        if lv[0] == "pa": return lv[1].a[lv[2]]
        return self.deref(lv[1], lv[2])
    def deref(self, b, i):
        b0, st = b.ty
        if st == 0:
            n = LANES[b0]
            if b.c is not None:
                o = b.off + i * n
                return Vec(n, c=b.c[o:o+n]) if n > 1 else Int(b.c[o])
            return Vec(n, l=b.l + i * n)
        raise SystemExit("deref %s" % (b.ty,))
    def store_to(self, ln, lv, rhs_ast, env):
        """lvalue = expression, evaluating straight into the destination when it is a lane location."""
        if lv[0] == "var":
            old = lv[1][lv[2]]
            if isinstance(old, Vec) and old.l is not None and not getattr(old, "alias", False):
                v = self.ev(rhs_ast, env, dest=old.l, dn=old.n); self.move(ln, old, v); return old
            if isinstance(old, Vec):
                # a variable initialised with a constant gets a location on its first reassignment
                d = self.alloc(old.n)
                v = self.ev(rhs_ast, env, dest=d, dn=old.n); self.move(ln, Vec(old.n, l=d), v)
                lv[1][lv[2]] = Vec(old.n, l=d); return lv[1][lv[2]]
            v = self.ev(rhs_ast, env); lv[1][lv[2]] = v; return v
        if lv[0] == "pa":
            v = self.ev(rhs_ast, env); lv[1].a[lv[2]] = v; return v
        b, i = lv[1], lv[2]
        assert b.c is None, "store to constant"
        n = LANES[b.ty[0]]
        d = Vec(n, l=b.l + i * n)
        v = self.ev(rhs_ast, env, dest=d.l, dn=n)
        self.move(ln, d, v); return d
    def move(self, ln, d, v):
        if isinstance(v, Int): v = Vec(1, c=[v.v])
        if v.l == d.l and v.c is None: return
        assert v.n == d.n, (ln, v.n, d.n)
        self.emit(ln, "VMov %d %d %s" % (d.n, d.l, self.opnd(v)))
    # ---- expressions
    def ev(self, e, env, dest=None, dn=None):
        k, ln = e[0], e[1]
        if k == "num": return Int(e[2])
        if k == "var": return self.look(env, e[2])
        if k == "cast":
            v = self.ev(e[3], env); ty = e[2]
            if isinstance(v, Int):
                return Int(v.v & M64) if ty[0] == "uint64_t" else v
            if isinstance(v, Ptr):
                b, st = ty
                if b in ARR: b, st = ARR[b][0], 0
                else: st -= 1
                return Ptr((b, st), v.l, v.c, v.off)
            if isinstance(v, Vec): return v
            raise SystemExit("cast %s" % (e,))
        if k == "idx":
            return self.load_lv(self.lval(e, env))
        if k == "un":
            if e[2] == "*": return self.load_lv(self.lval(e, env))
            v = self.ev(e[3], env)
            if e[2] == "&": return v
            f = {"-": lambda x: -x, "~": lambda x: ~x, "!": lambda x: int(not x), "+": lambda x: x}[e[2]]
            return Int(f(v.v))
        if k == "bin":
            a, b = self.ev(e[3], env), self.ev(e[4], env); o = e[2]
            if isinstance(a, Int) and isinstance(b, Int):
                x, y = a.v, b.v
                return Int({"+": lambda: x+y, "-": lambda: x-y, "*": lambda: x*y, "/": lambda: x//y, "%": lambda: x%y,
                        "<<": lambda: x<<y, ">>": lambda: x>>y, "&": lambda: x&y, "|": lambda: x|y, "^": lambda: x^y,
                        "<": lambda: int(x<y), ">": lambda: int(x>y), "<=": lambda: int(x<=y), ">=": lambda: int(x>=y),
                        "==": lambda: int(x==y), "!=": lambda: int(x!=y), "&&": lambda: int(bool(x and y)),
                        "||": lambda: int(bool(x or y))}[o]())
            if isinstance(a, Ptr) and isinstance(b, Int):
                d = b.v * (1 if o == "+" else -1) * LANES[a.ty[0]]
                return Ptr(a.ty, None if a.l is None else a.l + d, a.c, a.off + d)
            if isinstance(a, Vec) and a.n == 1 or isinstance(b, Vec) and b.n == 1:
                if isinstance(b, Int) and o in ("<<", ">>"):
                    assert 0 <= b.v < 64
                    return self.out(ln, 1, dest, dn, lambda d: "%s 1 %d %d %s" % ("VShl" if o == "<<" else "VShr", b.v, d, self.opnd(a)), [a])
                if isinstance(a, Int): a = Vec(1, c=[a.v])
                if isinstance(b, Int): b = Vec(1, c=[b.v])
                op = {"+": "OAdd", "-": "OSub", "&": "OAnd", "|": "OOr", "^": "OXor"}[o]
                return self.bin(ln, op, 1, a, b, dest, dn)
            raise SystemExit("bin %s" % (e,))
        if k == "assign":
            lv = self.lval(e[3], env)
            rhs = e[4] if e[2] == "=" else ("bin", ln, e[2][:-1], e[3], e[4])
            return self.store_to(ln, lv, rhs, env)
        if k in ("postinc", "preinc"):
            lv = self.lval(e[3], env); v = self.load_lv(lv)
            lv[1][lv[2]] = Int(v.v + (1 if e[2] == "++" else -1))
            return v
        if k == "comma":
            self.ev(e[2], env); return self.ev(e[3], env)
        if k == "call": return self.call(e, env, dest, dn)
        raise SystemExit("expr %s" % (e,))
    def clean(self, d, n, s):
        return s.c is not None or s.l == d or s.l + n <= d or d + n <= s.l
    def out(self, ln, n, dest, dn, mk, srcs, perm=False):
        """Pick the destination: the assignment target, or a fresh temporary."""
        d = dest if dest is not None and dn == n else self.alloc(n)
        if perm:
            hz = any(s.c is None and not (s.l + s.n <= d or d + n <= s.l) for s in srcs)
        else: hz = not all(self.clean(d, n, s) for s in srcs)
        if hz:
            d = self.alloc(n)
        self.emit(ln, mk(d)); return Vec(n, l=d)
    def bin(self, ln, op, n, a, b, dest, dn):
        assert a.n == n and b.n == n, (ln, op, a.n, b.n)
        return self.out(ln, n, dest, dn, lambda d: "VBin %s %d %d %s %s" % (op, n, d, self.opnd(a), self.opnd(b)), [a, b])
    def call(self, e, env, dest, dn):
        _, ln, f, args = e
        # intrinsics
        W_ = 4 if f.startswith("_mm256") else 2
        g = f.replace("_mm256_", "").replace("_mm_", "")
        A = lambda i: self.ev(args[i], env)
        I = lambda i: self.ev(args[i], env).v
        if f.startswith("_mm"):
            if g.startswith("cast"):
                v = A(0)
                if g == "castsi256_si128": return Vec(2, l=v.l, c=None if v.c is None else v.c[:2])
                if g == "castsi128_si256":
                    # upper half unspecified by the intrinsic: lanes never written
                    d = self.alloc(4); self.emit(ln, "VMov 2 %d %s" % (d, self.opnd(v))); return Vec(4, l=d)
                return v
            if g in ("setzero_si256", "setzero_si128"): return Vec(W_, c=[0]*W_)
            if g in ("load_si256", "load_si128", "loadu_si256"):
                p = A(0); return self.deref(p, 0)
            if g in ("store_si256", "store_si128"):
                p = A(0)
                d = Vec(W_, l=p.l); assert p.c is None and LANES[p.ty[0]] == W_
                v = self.ev(args[1], env, dest=d.l, dn=W_); self.move(ln, d, v); return d
            B2 = {"add_epi64": "OAdd", "sub_epi64": "OSub", "mul_epu32": "OMul32", "and_si256": "OAnd", "and_si128": "OAnd",
                  "or_si256": "OOr", "xor_si256": "OXor", "andnot_si256": "OAndn"}
            if g in B2: 
                a = A(0); b = A(1)
                return self.bin(ln, B2[g], W_, a, b, dest, dn)
            if g in ("slli_epi64", "srli_epi64"):
                a = A(0); kk = I(1)
                return self.out(ln, W_, dest, dn, lambda d: "%s %d %d %d %s" % ("VShl" if g[1] == "l" else "VShr", W_, kk, d, self.opnd(a)), [a])
            if g in ("sllv_epi64", "srlv_epi64"):
                a = A(0); s = A(1); assert s.c is not None
                ks = "[%s]" % "; ".join(str(x & M64) for x in s.c)
                return self.out(ln, W_, dest, dn, lambda d: "%s %s %d %s" % ("VShlv" if g[1] == "l" else "VShrv", ks, d, self.opnd(a)), [a])
            if g == "srli_si256" or g == "srli_si128":
                a = A(0); kk = I(1)
                if kk == 8:
                    return self.out(ln, W_, dest, dn, lambda d: "VSrl8 %d %d %s" % (W_, d, self.opnd(a)), [a], True)
                # general byte shift of a 128-bit value: decomposed on its two lanes
                assert W_ == 2 and a.l is not None
                d = self.alloc(2)
                if kk < 8:
                    t1, t2 = self.alloc(1), self.alloc(1)
                    self.emit(ln, "VShr 1 %d %d (VL %d)" % (8*kk, t1, a.l))
                    self.emit(ln, "VShl 1 %d %d (VL %d)" % (64-8*kk, t2, a.l+1))
                    self.emit(ln, "VBin OOr 1 %d (VL %d) (VL %d)" % (d, t1, t2))
                    self.emit(ln, "VShr 1 %d %d (VL %d)" % (8*kk, d+1, a.l+1))
                else:
                    self.emit(ln, "VShr 1 %d %d (VL %d)" % (8*(kk-8), d, a.l+1))
                    self.emit(ln, "VMov 1 %d (VC [0])" % (d+1))
                return Vec(2, l=d)
            if g == "set1_epi64x": v = A(0); assert isinstance(v, Int); return Vec(4, c=[v.v & M64]*4)
            if g == "set_epi64x": return Vec(W_, c=[self.ev(a, env).v & M64 for a in reversed(args)])
            if g == "set_epi32":
                w = [self.ev(a, env).v & 0xffffffff for a in reversed(args)]
                return Vec(W_, c=[w[2*i] | w[2*i+1] << 32 for i in range(W_)])
            if g in ("shuffle_epi32",):
                a = A(0); kk = I(1)
                return self.out(ln, W_, dest, dn, lambda d: "VShuf32 %d %d %d %s" % (W_, kk, d, self.opnd(a)), [a], True)
            if g == "permute4x64_epi64":
                a = A(0); kk = I(1)
                return self.out(ln, W_, dest, dn, lambda d: "VPerm64 %d %d %s" % (kk, d, self.opnd(a)), [a], True)
            if g == "extracti128_si256":
                a = A(0); kk = I(1)
                return Vec(2, l=None if a.c is not None else a.l + 2*kk, c=None if a.c is None else a.c[2*kk:2*kk+2])
            T2 = {"permute2x128_si256": "VPerm128", "blend_epi32": "VBlend32", "shuffle_pd": "VShufpd"}
            if g in T2:
                a = A(0); b = A(1); kk = I(2)
                w = "" if g == "permute2x128_si256" else "%d " % W_
                return self.out(ln, W_, dest, dn, lambda d: "%s %s%d %d %s %s" % (T2[g], w, kk, d, self.opnd(a), self.opnd(b)), [a, b], True)
            if g in ("unpacklo_epi64", "unpackhi_epi64"):
                a = A(0); b = A(1)
                return self.out(ln, W_, dest, dn, lambda d: "%s %d %d %s %s" % ("VUnpkl" if "lo" in g else "VUnpkh", W_, d, self.opnd(a), self.opnd(b)), [a, b], True)
            if g == "inserti128_si256":
                a = A(0); b = A(1); kk = I(2)
                return self.out(ln, W_, dest, dn, lambda d: "VInsr %d %d %s %s" % (kk, d, self.opnd(a), self.opnd(b)), [a, b], True)
            raise SystemExit("intrinsic %s line %d" % (f, ln))
        vals = [self.ev(a, env) for a in args]
        return self.run(f, vals)
    def run(self, f, vals):
        if f not in self.fns: raise SystemExit("call of unknown function %s" % f)
        ln, params, body = self.fns[f]
        if body[0] == "bad": raise SystemExit("function %s not parsed: %s" % (f, body[1]))
        env = {}
        for (ty, nm, dims), v in zip(params, vals):
            if isinstance(v, Ptr):
                b, st = ty
                if b in ARR: b, st = ARR[b][0], 0
                elif dims: pass
                else: st -= 1
                v = Ptr((b, st), v.l, v.c, v.off)
            env[nm] = v
        self.ret = None
        try: self.st(body, [env])
        except Break: pass
        return self.ret
    def st(self, s, env):
        k = s[0]
        if k == "block":
            en = env + [{}]
            for x in s[2]: self.st(x, en)
        elif k == "decl":
            for ln, ty, nm, dims, ini in s[2]: env[-1][nm] = self.decl(ln, ty, nm, dims, ini, env)
        elif k == "expr": self.ev(s[2], env)
        elif k == "for":
            en = env + [{}]
            if s[2]: self.st(s[2], en)
            while self.ev(s[3], en).v:
                self.st(s[5], en); self.ev(s[4], en)
        elif k == "do":
            while True:
                self.st(s[2], env)
                if not self.ev(s[3], env).v: break
        elif k == "if":
            if self.ev(s[2], env).v: self.st(s[3], env)
            elif s[4]: self.st(s[4], env)
        elif k == "return":
            self.ret = self.ev(s[2], env) if s[2] else None
            raise Break
        else: raise SystemExit("stmt %s line %d" % (k, s[1]))
    def decl(self, ln, ty, nm, dims, ini, env):
        b, st = ty
        if b in ARR and ARR[b][1] is not None and st == 0:
            # typedef'd array
            el, cnt = ARR[b]
            n = LANES[el]
            if ini is not None:
                c = self.constlist(ini, n, env); return Ptr((el, 0), None, c, 0)
            if dims: raise SystemExit("array of arrays %s" % nm)
            return Ptr((el, 0), self.alloc(n * cnt))
        if b in ARR: el = ARR[b][0]; isptr = True
        else: el = b; isptr = st > 0
        if dims:
            if isptr: return PtrArr(self.ev(dims[0], env).v)
            n = LANES[el]
            if ini is not None: return Ptr((el, 0), None, self.constlist(ini, n, env), 0)
            return Ptr((el, 0), self.alloc(n * self.ev(dims[0], env).v))
        if isptr:
            v = self.ev(ini, env) if ini else None
            return v
        if el in ("__m256i", "__m128i"):
            n = LANES[el]
            if ini is None: return Vec(n, l=self.alloc(n))
            v = self.ev(ini, env)
            if v.c is not None: 
                # constant: kept symbolic unless reassigned (then it gets a location)
                return v if self.isconst(nm) else self.mat(ln, v)
            # loads and temporaries: copy when the source is an lvalue
            d = self.alloc(n)
            if self.code and self.code[-1][1].split()[0] != "VMov" and ini[0] == "call" and self.fresh_temp(v, ini):
                return v
            self.move(ln, Vec(n, l=d), v); return Vec(n, l=d)
        # integers
        if ini is None: return Int(0) if el != "uint64_t" else Vec(1, l=self.alloc(1))
        v = self.ev(ini, env)
        if isinstance(v, Vec) :
            d = self.alloc(1); self.move(ln, Vec(1, l=d), v); return Vec(1, l=d)
        return v
    def fresh_temp(self, v, ini):
        f = ini[2]
        return not (f.endswith("load_si256") or f.endswith("load_si128") or "cast" in f or "extract" in f)
    def isconst(self, nm): return True
    def mat(self, ln, v):
        d = self.alloc(v.n); self.move(ln, Vec(v.n, l=d), v); return Vec(v.n, l=d)
    def constlist(self, ini, n, env):
        c = []
        for x in ini[2]:
            v = self.ev(x, env)
            if isinstance(v, Int): c.append(v.v & M64)
            else: assert v.c is not None; c += [y & M64 for y in v.c]
        return c

def load(path, defs, arr):
    ARR.clear(); ARR.update(arr)
    cpp = CPP(defs)
    list(cpp.process("include/simd_avx2.h"))
    toks = list(cpp.process(path))
    return parse_file(toks)

DEFS255 = {"FP255": 1, "BASE0_FP25519": 26, "BASE1_FP25519": 25, "NUM_DIGITS_FP25519": 10, "NUM_DIGITS_FP25519_X64": 4,
           "SIZE_FP25519": 32, "ALIGN": "", "SCOPE": ""}
DEFS448 = {"FP448": 1, "BASE_FP448": 28, "NUM_DIGITS_FP448": 16, "NUM_DIGITS_FP448_X64": 7, "SIZE_FP448": 56,
           "ALIGN": "", "SCOPE": ""}
ARR255 = {"argElement_1w": ("uint64_t", None), "argElement_2w": ("__m256i", None), "argElement_4w": ("__m256i", None),
          "EltFp25519_1w_redradix": ("uint64_t", 12), "EltFp25519_1w_fullradix": ("uint64_t", 4),
          "EltFp25519_2w_redradix": ("__m256i", 5), "EltFp25519_4w_redradix": ("__m256i", 10)}
ARR448 = {"argElement_1w": ("uint64_t", None), "argElement_2w": ("__m256i", None), "argElement_4w": ("__m256i", None),
          "EltFp448_1w_redradix": ("uint64_t", 16), "EltFp448_1w_fullradix": ("uint64_t", 7),
          "EltFp448_2w_redradix": ("__m256i", 8), "EltFp448_4w_redradix": ("__m256i", 16)}

BASES = [1024, 2048, 3072, 4096, 5120]

def translate(fns, gl, suffix, name, args, skip=None):
    """args: list of ('p', type) or int"""
    genv = {}
    f = Fn(fns, genv)
    for g in gl:
        for ln, ty, nm, dims, ini in g[2]:
            try: genv[nm] = f.decl(ln, ty, nm, dims, ini, [{}])
            except (SystemExit, AssertionError, KeyError, AttributeError): pass
    vals, bi = [], 0
    for a in args:
        if isinstance(a, int): vals.append(Int(a))
        else: vals.append(Ptr((a, 0), BASES[bi])); bi += 1
    full = name + suffix
    if skip: fns = dict(fns); f.fns = fns; skip(fns)
    f.run(full, vals)
    return fns[full][0], f.code

def emit_def(out, coqname, src, ln, code, note=""):
    out.append("(** %s:%d%s *)" % (src, ln, (" — " + note) if note else ""))
    out.append("Definition %s : list vinstr := [" % coqname)
    last = None; lines = []
    for i, (l, s) in enumerate(code):
        c = "" if l == last else " (* %d *)" % l
        last = l
        lines.append("  %s%s%s" % (s, ";" if i + 1 < len(code) else "", c))
    out.append("\n".join(lines) + "].\n")

U, V, V2 = "uint64_t", "__m256i", "__m256i"

def gen(prime, target):
    out = ["(** Generated by tools/simd2coq.py from /repo/src: the vector code of the",
           "    reduced-radix field arithmetic.  One instruction per intrinsic call; the",
           "    number in a comment is the source line.  Arguments are placed at 1024,",
           "    2048, 3072, ... in the order of the C parameters. *)",
           "From Coq Require Import ZArith List.", "From Verif Require Import Simd.", "Import ListNotations.",
           "Open Scope Z_scope.", ""]
    D, A, tag = (DEFS255, ARR255, "25519") if prime == 255 else (DEFS448, ARR448, "448")
    jobs = JOBS255 if prime == 255 else JOBS448
    D = dict(D)
    for way in (1, 2, 4):
        src = "src/eltfp%s_%dw_redradix.c" % (tag, way)
        d = dict(D)
        cpp_pre = "NAME##_Fp##%d##_##OPER##w_##IMPL" % prime
        ARR.clear(); ARR.update(A)
        cpp = CPP(d)
        list(cpp.process("include/simd_avx2.h"))
        cpp.m["SUFFIX"] = (["NAME", "OPER", "IMPL"], lex(cpp_pre, 0))
        fns, gl = parse_file(cpp.process(src))
        suffix = "_Fp%d_%dw_redradix" % (prime, way)
        for job in jobs[way]:
            name, args = job[0], job[1]
            coq = "v%d_%dw_%s" % (prime, way, job[2] if len(job) > 2 and job[2] else name)
            skip = job[3] if len(job) > 3 else None
            ln, code = translate(fns, gl, suffix, name, args, skip)
            emit_def(out, coq, src, ln, code, job[4] if len(job) > 4 else "")
    txt = "\n".join(out)
    open(target, "w").write(txt)

def no_modp(fns):
    # unser: the full-radix copy and modp are modelled by the full-radix code;
    # the vector part starts from the reduced full-radix words
    ln, params, body = fns["unser_Fp255_1w_redradix"]
    l = [s for s in body[2] if not (s[0] == "expr" and s[2][0] == "call" and s[2][2] in
         ("copy_Fp255_1w_fullradix", "modp_Fp255_1w_fullradix"))]
    l = [s for s in l if not (s[0] == "decl" and s[2][0][2] == "pA")]
    fns["unser_Fp255_1w_redradix"] = (ln, [params[0], (("argElement_1w", 0), "pA", [])], ("block", 0, l))

JOBS255 = {
 1: [("compress", [U]), ("compressfast", [U]), ("sqrn", [U, 1], "sqrn1"),
     ("unser", [U, U], "unser_limbs", no_modp, "from the words left in pA by modp"),
     ("add", [U, U, U]), ("sub", [U, U, U]), ("addsub", [U, U]), ("neg", [U]), ("intmul_sb", [U, U, U]),
     ("copy", [U, U]), ("prime", [U]), ("zero", [U]), ("naddsub", [U, U, U, U])],
 2: [("copy", [V, V]), ("zero", [V]), ("inter", [V, U, U]), ("deinter", [U, U, V]), ("add", [V, V, V]), ("sub", [V, V, V]),
     ("subadd", [V, V, 0], "subadd0"), ("subadd", [V, V, 1], "subadd1"), ("ngz", [V, V]), ("addsub", [V, V]),
     ("intmul2", [V, V, V, V, V]), ("intmul", [V, V, V]), ("intsqr", [V]), ("compress", [V]), ("compress2", [V, V]),
     ("compressfast", [V]), ("neg", [V]), ("naddsub", [V, V, V, V])],
 4: [("copy", [V, V]), ("zero", [V]), ("zip", [V, U, U, U, U]), ("unzip", [U, U, U, U, V]), ("add", [V, V, V]),
     ("sub", [V, V, V]), ("neg", [V]), ("addsub", [V, V, V, V]), ("addsublar", [V, V]), ("ngz", [V, V]),
     ("intmul_sb", [V, V, V]), ("intsqr", [V]), ("compress", [V]), ("compress2", [V, V]), ("compressfast", [V]),
     ("new_compressfast2", [V, V])],
}
JOBS448 = {
 1: [("compress", [U]), ("compressfast", [U]), ("new_compressfast", [U]), ("sqrn", [U, 1], "sqrn1"), ("unser", [U, U]),
     ("add", [U, U, U]), ("sub", [U, U, U]), ("addsub", [U, U]), ("neg", [U]), ("intmul_sb", [U, U, U]), ("copy", [U, U]),
     ("prime", [U]), ("zero", [U]), ("naddsub", [U, U, U, U])],
 2: [("copy", [V, V]), ("zero", [V]), ("inter", [V, U, U]), ("deinter", [U, U, V]), ("add", [V, V, V]), ("sub", [V, V, V]),
     ("subadd", [V, V, 0], "subadd0"), ("subadd", [V, V, 1], "subadd1"), ("ngz", [V, V]), ("addsub", [V, V]),
     ("intmul_karat", [V, V, V]), ("intsqr_karat", [V]), ("compress", [V]), ("compress2", [V, V]), ("compressfast", [V]),
     ("naddsub", [V, V, V, V])],
 4: [("copy", [V, V]), ("zero", [V]), ("zip", [V, U, U, U, U]), ("unzip", [U, U, U, U, V]), ("add", [V, V, V]),
     ("sub", [V, V, V]), ("addsub", [V, V, V, V]), ("addsublar", [V, V]), ("ngz", [V, V]),
     ("intmul_karat", [V, V, V]), ("intsqr_karat", [V]), ("compress", [V]), ("compress2", [V, V]), ("compressfast", [V]),
     ("new_compressfast2", [V, V])],
}

if __name__ == "__main__":
    base = sys.argv[1] if len(sys.argv) > 1 else "/verif/rocq/theories"
    gen(255, base + "/Simd255.v")
    gen(448, base + "/Simd448.v")
