#!/usr/bin/env python3
"""Translate the country calendars of /repo/third-parties/calendar/src into
rocq/theories/Calendars.v.  The parser is strict: any construct it does not know
stops the translation."""
import re, sys, os

SRC = os.environ.get("CALSRC", "/repo/third-parties/calendar/src")
OUT = os.environ.get("CALOUT", "/verif/rocq/theories")
MODS = re.findall(r"^pub mod (\w+);", open(f"{SRC}/lib.rs").read(), re.M)
MODS = [m for m in MODS if m != "jointcalendar"]

TOK = re.compile(r"""(?P<ws>\s+|//[^\n]*)|(?P<num>\d+)|(?P<id>[A-Za-z_]\w*!?)
  |(?P<op>::|->|=>|\.\.=|\.\.|==|!=|<=|>=|&&|\|\||[{}()\[\],;:.&|!<>+\-%=\#])""", re.X)

def tokens(path):
    text = open(path).read()
    cut = text.find("#[cfg(test)]")
    if cut >= 0: text = text[:cut]
    out, i, line = [], 0, 1
    while i < len(text):
        mt = TOK.match(text, i)
        if not mt: raise SystemExit(f"{path}:{line}: bad char {text[i]!r}")
        s = mt.group(0)
        if mt.lastgroup != "ws":
            # "matches!" is one token, "!=" must not be swallowed by an identifier
            if mt.lastgroup == "id" and s.endswith("!") and s != "matches!":
                s = s[:-1]
            out.append((mt.lastgroup, s, line))
        line += s.count("\n"); i += len(s)
    return out

class P:
    def __init__(self, mod):
        self.mod, self.path = mod, f"{SRC}/{mod}.rs"
        self.t, self.i = tokens(self.path), 0
        self.enum, self.struct, self.fns = None, None, []
    def die(self, msg): raise SystemExit(f"{self.path}:{self.line()}: {msg} near {[x[1] for x in self.t[self.i:self.i+8]]}")
    def line(self): return self.t[min(self.i, len(self.t)-1)][2]
    def peek(self, k=0): return self.t[self.i+k][1] if self.i+k < len(self.t) else None
    def kind(self, k=0): return self.t[self.i+k][0] if self.i+k < len(self.t) else None
    def next(self): self.i += 1; return self.t[self.i-1][1]
    def eat(self, *ss):
        for s in ss:
            if self.peek() != s: self.die(f"expected {s}")
            self.i += 1
    def have(self, s):
        if self.peek() == s: self.i += 1; return True
        return False
    def ident(self):
        if self.kind() != "id": self.die("identifier expected")
        return self.next()
    # ---- items
    def attrs(self):
        while self.peek() == "#":
            self.eat("#", "[")
            while not self.have("]"): self.next()
    def file(self):
        while self.i < len(self.t):
            self.attrs()
            if self.have("use"):
                while not self.have(";"): self.next()
                continue
            self.have("pub")
            if self.have("enum"):
                start = self.line()
                name = self.ident(); self.eat("{"); vs = []
                while not self.have("}"):
                    self.attrs(); vs.append(self.ident()); self.have(",")
                if self.enum: self.die("second enum")
                self.enum = (name, vs, start, self.t[self.i-1][2])
            elif self.have("struct"):
                name = self.ident()
                self.struct = name; self.market = None
                if self.have(";"): continue
                self.eat("{")
                if self.have("}"): continue
                self.eat("pub", "market", ":", "Option", "<"); self.market = self.ident(); self.eat(">")
                self.have(","); self.eat("}")
            elif self.have("impl"):
                a = self.ident()
                if self.have("for"):
                    if a != "Calendar": self.die("impl of what")
                    a = self.ident()
                if a != self.struct: self.die("impl for what")
                self.eat("{")
                while not self.have("}"): self.fn()
            else: self.die("item")
        return self
    def fn(self):
        self.attrs(); start = self.line(); self.have("pub"); self.eat("fn"); name = self.ident()
        self.eat("(", "&", "self"); params = []
        while self.have(","):
            if self.peek() == ")": break
            q = self.ident(); self.eat(":"); params.append((q, self.ident()))
        self.eat(")", "->"); ret = self.ident()
        body = self.block()
        self.fns.append((name, params, ret, body, start, self.t[self.i-1][2]))
    # ---- blocks: list of statements, last may be an expression
    def block(self):
        self.eat("{"); out = []
        while not self.have("}"):
            if self.have("let"):
                if self.have("("):
                    names = []
                    while not self.have(")"): names.append(self.ident()); self.have(",")
                    self.eat("=", "self", ".", "naive_date_to_dkmy", "("); a = self.ident(); self.eat(")", ";")
                    if a != "date" or len(names) != 5: self.die("dkmy")
                    out.append(("dkmy", names))
                else:
                    n = self.ident(); self.eat("="); e = self.expr(); self.eat(";"); out.append(("let", n, e))
            elif self.have("return"):
                e = self.expr(); self.have(";"); out.append(("return", e))
            elif self.peek() == "if":
                e = self.if_()
                out.append(("if", e))
            else:
                e = self.expr(); out.append(("expr", e))
                if self.peek() == ";": self.die("expression statement")
        return out
    def if_(self):
        self.eat("if"); c = self.expr(); th = self.block(); el = None
        if self.have("else"):
            el = [("if", self.if_())] if self.peek() == "if" else self.block()
        return (c, th, el)
    # ---- expressions
    def expr(self): return self.or_()
    def or_(self):
        a = self.and_()
        while self.have("||"): a = ("or", a, self.and_())
        return a
    def and_(self):
        a = self.cmp()
        while self.have("&&"): a = ("and", a, self.cmp())
        return a
    def cmp(self):
        a = self.bor()
        if self.peek() in ("==", "!=", "<", "<=", ">", ">="):
            o = self.next(); return (o, a, self.bor())
        return a
    def bor(self):
        a = self.band()
        while self.have("|"): a = ("or", a, self.band())
        return a
    def band(self):
        a = self.add()
        while self.have("&"): a = ("and", a, self.add())
        return a
    def add(self):
        a = self.mul()
        while self.peek() in ("+", "-"): o = self.next(); a = (o, a, self.mul())
        return a
    def mul(self):
        a = self.un()
        while self.have("%"): a = ("%", a, self.un())
        return a
    def un(self):
        if self.have("!"): return ("not", self.un())
        return self.post()
    def post(self):
        if self.have("("):
            a = self.expr()
            if self.peek() in ("..=", ".."):
                o = self.next(); b = self.expr(); self.eat(")", ".", "contains", "(", "&"); x = self.ident(); self.eat(")")
                return ("range", o, a, b, ("var", x))
            if self.have(","):
                b = self.expr(); self.have(","); self.eat(")"); return ("pair", a, b)
            self.eat(")"); return a
        if self.kind() == "num": return ("num", self.next())
        if self.have("true"): return ("true",)
        if self.have("false"): return ("false",)
        if self.peek() == "match": return self.match_()
        if self.have("matches!"):
            self.eat("("); s = self.expr(); self.eat(","); p = self.pats(); self.have(","); self.eat(")")
            return ("matches", s, p)
        n = self.ident()
        if n == "self":
            self.eat("."); f = self.ident()
            if f == "market": return ("market",)
            self.eat("("); a = self.ident(); self.eat(")")
            return ("call", f, a)
        if n == "Weekday": self.eat("::"); return ("wd", self.ident())
        if n == "NaiveDate":
            self.eat("::", "from_ymd_opt", "("); y = self.next(); self.eat(","); m = self.next(); self.eat(","); d = self.next()
            self.eat(")", ".", "unwrap", "(", ")")
            return ("date", int(y), int(m), int(d))
        if self.peek() in ("(", "::", "."): self.die("postfix")
        return ("var", n)
    def match_(self):
        self.eat("match"); s = self.expr(); self.eat("{"); arms = []
        while not self.have("}"):
            p = self.pats(); self.eat("=>")
            if self.peek() == "{": b = self.block()
            else: b = [("expr", self.expr())]
            self.have(","); arms.append((p, b))
        return ("match", s, arms)
    def pats(self):
        ps = [self.pat()]
        while self.have("|"): ps.append(self.pat())
        return ps
    def pat(self):
        if self.have("_"): return ("any",)
        if self.have("None"): return ("None",)
        if self.have("Some"):
            self.eat("(")
            if self.have("_"): self.eat(")"); return ("Some_",)
            a = self.ident(); self.eat("::"); v = self.ident(); self.eat(")"); return ("Some", a, v)
        if self.have("("):
            a = self.pats(); self.eat(","); b = self.pats(); self.have(","); self.eat(")"); return ("tup", a, b)
        if self.kind() == "num":
            a = self.next()
            if self.have("..="): return ("rng", a, self.next())
            return ("n", a)
        if self.have("Weekday"): self.eat("::"); return ("wdp", self.ident())
        self.die("pattern")

class Gen:
    def __init__(self, p, out):
        self.p, self.out = p, out
        self.lets = {f[0]: f for f in p.fns}
        self.mon = {"easter_monday": True, "orthodox_easter_monday": True, "is_weekend": False}
        ch = True
        while ch:
            ch = False
            for f in p.fns:
                v = self.has_mon(f[3])
                if self.mon.get(f[0]) != v:
                    self.mon[f[0]] = v; ch = True
        self.usesm = {}
        ch = True
        while ch:
            ch = False
            for f in p.fns:
                v = self.uses_market(f[3])
                if self.usesm.get(f[0]) != v: self.usesm[f[0]] = v; ch = True
    core = False
    def run_core(self, out):
        self.core, self.out, self.enum_done = True, out, True
        self.run()
    def has_mon(self, x):
        if self.core: return False
        if isinstance(x, (list, tuple)):
            if len(x) == 3 and x[0] == "call": return self.mon.get(x[1], False)
            return any(self.has_mon(z) for z in x)
        return False
    def uses_market(self, x):
        if isinstance(x, (list, tuple)):
            if x == ("market",): return True
            if len(x) == 3 and x[0] == "call": return self.usesm.get(x[1], False)
            return any(self.uses_market(z) for z in x)
        return False
    def die(self, m): raise SystemExit(f"{self.p.path} {self.cur}: {m}")
    def run(self):
        p = self.p
        self.cur = "order"
        done, order = set(), []
        def visit(n):
            if n in done: return
            done.add(n)
            def calls(x):
                if isinstance(x, (list, tuple)):
                    if len(x) == 3 and x[0] == "call" and x[1] in self.lets: visit(x[1])
                    for z in x: calls(z)
            calls(self.lets[n][3]); order.append(n)
        for f in p.fns: visit(f[0])
        if p.enum and not self.core:
            n, vs, a, b = p.enum
            self.out.append(f"(* {p.mod}.rs:{a}-{b} enum {n} *)\nInductive {n} := {' | '.join(n + '_' + v for v in vs)}.\n")
        for n in order: self.fn(self.lets[n])
    def fn(self, f):
        name, params, ret, body, a, b = f
        self.cur = name
        self.params = params; self.types = {}
        mon = self.mon[name]
        for q, t in params:
            self.types[q] = {"NaiveDate": "date", "i32": "Z", "u32": "Z"}[t]
        rty = {"bool": "bool", "u32": "Z"}[ret]
        args = "".join(f" ({q} : {'NaiveDate' if t == 'NaiveDate' else 'Z'})" for q, t in params)
        if self.usesm[name]: args = f" (market : option {self.p.market})" + args
        if self.core:
            if [t for _, t in params] != ["NaiveDate"]: return
            args = args.replace("(date : NaiveDate)", "(d : Z) (w : Weekday) (m y dd em oem : Z)")
            mon = False
            self.types.update(d="Z", w="wd", m="Z", y="Z", dd="Z", em="Z", oem="Z")
        self.monadic = mon
        text = self.block(body, None)
        if self.core: name += "_core"
        self.out.append(f"(* {self.p.mod}.rs:{a}-{b} {self.p.struct}::{name} *)\n"
            f"Definition {self.p.mod}_{name}{args} : {'M ' + rty if mon else rty} :=\n  {text}.\n")
    # translate a block; rest = statements following it (already a list) or None
    def block(self, st, rest):
        st = list(st) + (list(rest) if rest else [])
        if not st: self.die("falls off the end")
        s, tl = st[0], st[1:]
        if s[0] == "dkmy":
            names = [n if not n.startswith("_") else "_" for n in s[1]]
            for n, c in zip(names, ["d", "w", "m", "y", "dd"]):
                if n not in ("_", c): self.die(f"dkmy name {n} for {c}")
                if n != "_": self.types[n] = "wd" if c == "w" else "Z"
            if self.core: return self.block(tl, None)
            return f"let '({', '.join(names)}) := naive_date_to_dkmy date in\n  " + self.block(tl, None)
        if s[0] == "let":
            n, e = s[1], s[2]
            if self.core and e[0] == "call" and "easter" in e[1]:
                if n not in ("em", "_em"): self.die("easter name")
                return ("" if e[1] == "easter_monday" else "let em := oem in\n  ") + self.block(tl, None)
            if e[0] == "call" and self.mon.get(e[1]):
                self.types[n] = "Z" if "easter" in e[1] else "bool"
                return f"{n if not n.startswith('_') else '_'} <- {self.call(e)} ;;\n  " + self.block(tl, None)
            v, ty = self.ex(e)
            self.types[n] = ty
            return f"let {n} := {v} in\n  " + self.block(tl, None)
        if s[0] == "return":
            return self.tail(s[1])
        if s[0] == "expr":
            if tl: self.die("expression before the end")
            return self.tail(s[1])
        if s[0] == "if":
            c, th, el = s[1]
            def falls(b):  # does the block produce no value and not return on every path
                if not b: return True
                l = b[-1]
                if l[0] in ("return", "expr"): return False
                if l[0] == "if": return l[1][2] is None or falls(l[1][1]) or falls(l[1][2])
                return True
            a = self.block(th, tl if falls(th) else None)
            if el is None: b = self.block(tl, None)
            else: b = self.block(el, tl if falls(el) else None)
            pre, cv = self.hoist(c)
            return pre + f"if {cv}\n  then {a}\n  else {b}"
        self.die(s[0])
    def hoist(self, e):
        """An expression whose only monadic call is the one evaluated first."""
        if not self.has_mon(e): 
            v, t = self.ex(e); assert t == "bool", (self.cur, e); return "", v
        def lm(x):
            if x[0] == "call": return x, ("var", "r0")
            if x[0] == "not": c, y = lm(x[1]); return c, ("not", y)
            if x[0] in ("or", "and"):
                if self.has_mon(x[2]): self.die("monadic operand on the right")
                c, y = lm(x[1]); return c, (x[0], y, x[2])
            self.die("cannot hoist")
        c, y = lm(e)
        self.types["r0"] = "bool"
        return f"r0 <- {self.call(c)} ;;\n  ", self.ex(y)[0]
    def tail(self, e):
        if e[0] == "match":
            s = e[1]
            if s == ("market",):
                arms = []
                for ps, b in e[2]:
                    pp = []
                    for q in ps:
                        if q[0] == "None": pp.append("None")
                        elif q[0] == "Some_": pp.append("Some _")
                        elif q[0] == "any": pp.append("_")
                        elif q[0] == "Some": pp.append(f"Some {q[1]}_{q[2]}")
                        else: self.die("market pattern")
                    arms.append(f"| {' | '.join(pp)} => {self.block(b, None)}")
                return "match market with\n  " + "\n  ".join(arms) + "\n  end"
            v, t = self.ex(s)
            out, closed = "", False
            for ps, b in e[2]:
                bt = self.block(b, None)
                if ps == [("any",)]: out += bt; closed = True; break
                out += f"if {self.pats(v, t, ps)} then {bt}\n  else "
            if not closed: self.die("match without default")
            return out
        if e[0] == "call" and not self.core and self.mon.get(e[1]): return self.call(e)
        if self.has_mon(e):
            pre, v = self.hoist(e); return pre + f"Ret ({v})"
        v, t = self.ex(e)
        return f"Ret ({v})" if self.monadic else v
    def call(self, e):
        _, f, a = e
        if f in ("easter_monday", "orthodox_easter_monday"):
            if self.types.get(a) != "Z": self.die("arg")
            return f"{f} {a}"
        if f == "is_weekend": return "core_weekend w" if self.core else f"is_weekend {a}"
        if f not in self.lets: self.die(f"unknown call {f}")
        m = "market " if self.usesm[f] else ""
        want = [self.lets[f][1][0][1]]
        if want != [{"date": "NaiveDate", "Z": "i32"}[self.types[a]]]: self.die("arg type")
        if self.core and a == "date": return f"{self.p.mod}_{f}_core {m}d w m y dd em oem"
        return f"{self.p.mod}_{f} {m}{a}"
    def pats(self, v, t, ps):
        return " || ".join(self.pat1(v, t, q) for q in ps)
    def pat1(self, v, t, q):
        if q[0] == "any": return "true"
        if q[0] == "n" and t == "Z": return f"({v} =? {q[1]})"
        if q[0] == "rng" and t == "Z": return f"(({q[1]} <=? {v}) && ({v} <=? {q[2]}))"
        if q[0] == "wdp" and t == "wd": return f"weekday_eqb {v} {q[1]}"
        if q[0] == "tup" and t == "pair":
            f = lambda x, pp: self.pats(x, "Z", pp) if len(pp) == 1 else "(" + self.pats(x, "Z", pp) + ")"
            return f"({f(v[0], q[1])} && {f(v[1], q[2])})"
        self.die(f"pattern {q} at {t}")
    def ex(self, e):
        k = e[0]
        if k == "num": return e[1], "Z"
        if k in ("true", "false"): return k, "bool"
        if k == "var" and self.core and e[1] == "date": return "date", "date"
        if k == "var":
            if e[1] not in self.types: self.die(f"unbound {e[1]}")
            return e[1], self.types[e[1]]
        if k == "wd": return e[1], "wd"
        if k == "date":
            y, m, d = e[1:]
            assert 1 <= m <= 12 and 1 <= d <= 28
            return f"(mkDate {y} {m} {d})", "date"
        if k in ("or", "and"):
            parts = []
            def fl(x):
                if x[0] == k: fl(x[1]); parts.append(x[2])
                else: parts.append(x)
            fl(e)
            vs = []
            for x in parts:
                v, t = self.ex(x)
                if t != "bool": self.die("bool operand")
                vs.append(v)
            if k == "or": return "(" + "\n   || ".join(vs) + ")", "bool"
            return "(" + " && ".join(vs) + ")", "bool"
        if k == "not":
            v, t = self.ex(e[1])
            if t != "bool": self.die("not")
            return f"negb {v}" if re.fullmatch(r"\w+|\(.*\)", v, re.S) else f"negb ({v})", "bool"
        if k in ("+", "-", "%"):
            a, ta = self.ex(e[1]); b, tb = self.ex(e[2])
            if (ta, tb) != ("Z", "Z"): self.die("arith")
            return (f"Z.rem {a} {b}" if k == "%" else f"{a} {k} {b}"), "Z"
        if k in ("==", "!=", "<", "<=", ">", ">="):
            a, ta = self.ex(e[1]); b, tb = self.ex(e[2])
            if ta != tb: self.die(f"compare {ta} {tb}")
            if ta == "Z":
                r = {"==": f"({a} =? {b})", "!=": f"(negb ({a} =? {b}))", "<": f"({a} <? {b})", "<=": f"({a} <=? {b})",
                     ">": f"({b} <? {a})", ">=": f"({b} <=? {a})"}[k]
            elif k in ("==", "!="):
                r = {"wd": "weekday_eqb", "date": "date_eqb"}[ta] + f" {a} {b}"
                if self.core and ta == "date": r = f"date_eqb (mkDate y m d) {b}"
                r = f"({r})" if k == "==" else f"(negb ({r}))"
            else: self.die("compare")
            return r, "bool"
        if k == "range":
            _, o, a, b, x = e
            va, vb, vx = self.ex(a)[0], self.ex(b)[0], self.ex(x)[0]
            return f"(({va} <=? {vx}) && ({vx} {'<=?' if o == '..=' else '<?'} {vb}))", "bool"
        if k == "call":
            if not self.core and self.mon.get(e[1]): self.die("monadic call in expression")
            t = "bool" if e[1] == "is_weekend" else {"bool": "bool", "u32": "Z"}[self.lets[e[1]][2]]
            return f"({self.call(e)})", t
        if k == "matches":
            if e[1][0] == "pair":
                a, ta = self.ex(e[1][1]); b, tb = self.ex(e[1][2])
                return "(" + self.pats((a, b), "pair", e[2]) + ")", "bool"
            v, t = self.ex(e[1]); return "(" + self.pats(v, t, e[2]) + ")", "bool"
        if k == "match":
            v, t = self.ex(e[1]); out = ""; ty = None
            for ps, b in e[2]:
                if len(b) != 1 or b[0][0] != "expr": self.die("match arm")
                x, ty = self.ex(b[0][1])
                if ps == [("any",)]: return "(" + out + x + ")", ty
                out += f"if {self.pats(v, t, ps)} then {x} else "
            self.die("match without default")
        self.die(f"expression {k}")

HEAD = """(* The country calendars of third-parties/calendar/src, translated function by function by
   tools/gen_calendars.py, which is run by hand and whose output is committed.  File names in the
   comments are relative to third-parties/calendar/src.
   - A function that looks up an Easter table can panic and is in M; all others are plain functions.
   - `self` appears only as the market selector.
   - u32/i32 arithmetic is in Z: the only arithmetic is em + k, em - k, d + k and y % 4 (as Z.rem)
     on table entries, days and years; entry_range in CalSpec shows em - k cannot underflow.
   - NaiveDate::from_ymd_opt(y, m, d).unwrap() with literal arguments is that date.
   - `a | b` and `a & b` on bool evaluate both operands, which are pure, and are || and &&. *)
From Coq Require Import ZArith Bool List.
From Verif Require Import Base Chrono CalLib.
Local Open Scope Z_scope.
Local Open Scope bool_scope.
"""
CORE = """(* Proof support generated by tools/gen_calendars.py next to Calendars.v: each function of
   Calendars.v again, as a pure function of day, weekday, month, year, day of the year and the two
   Easter days.  CalFacts proves the two versions equal; nothing is stated about these functions
   alone.  File names are relative to third-parties/calendar/src. *)
From Coq Require Import ZArith Bool List.
From Verif Require Import Base Chrono CalLib Calendars.
Local Open Scope Z_scope.
Local Open Scope bool_scope.

(* lib.rs:190-193 Calendar::is_weekend as a function of the weekday. *)
Definition core_weekend (w : Weekday) : bool := match w with Sat | Sun => true | _ => false end.
"""

def tables():
    text = open(f"{SRC}/lib.rs").read()
    out = ["""(* The Easter tables of third-parties/calendar/src/lib.rs, copied by tools/gen_calendars.py. *)
From Coq Require Import ZArith List.
Import ListNotations.
Local Open Scope Z_scope.
"""]
    for n in ("EASTER_MONDAY", "ORTHODOX_EASTER_MONDAY"):
        mt = re.search(r"^const %s: \[u32; (\d+)\] = \[(.*?)\];" % n, text, re.M | re.S)
        a = text[:mt.start()].count("\n") + 1; b = text[:mt.end()].count("\n") + 1
        nums = [int(x) for x in re.findall(r"\d+", re.sub(r"//[^\n]*", "", mt.group(2)))]
        assert len(nums) == int(mt.group(1))
        rows = [nums[:9]] + [nums[i:i+10] for i in range(9, len(nums), 10)]
        out.append(f"(* lib.rs:{a}-{b} {n} *)\nDefinition {n} : list Z := [\n  " +
            ";\n  ".join("; ".join(map(str, r)) for r in rows) + "].\n")
    open(f"{OUT}/EasterTables.v", "w").write("\n".join(out))

def main():
    tables()
    out = [HEAD]
    info = []
    for m in MODS:
        p = P(m).file(); g = Gen(p, out); g.run()
        info.append((m, p, g))
    out.append("""(* One name per calendar type of lib.rs:69-151 other than jointcalendar, with its market field. *)
Inductive Country :=""")
    for m, p, g in info:
        out[-1] += f"\n| {p.struct}" + (f" (market : option {p.market})" if p.market else "")
    out[-1] += ".\n"
    out.append("""(* impl Calendar for each of them: the is_business_day functions above (lib.rs:195). *)
Definition country_cal (c : Country) : cal :=
  match c with""")
    for m, p, g in info:
        mk = g.usesm["is_business_day"]
        t = f"{m}_is_business_day" + (" market" if mk else "")
        if not g.mon["is_business_day"]: t = f"pure_cal ({t})" if mk else f"pure_cal {t}"
        pat = p.struct + ((" market" if mk else " _") if p.market else "")
        out[-1] += f"\n  | {pat} => {t}"
    out[-1] += "\n  end.\n"
    open(f"{OUT}/Calendars.v", "w").write("\n".join(out))
    core = [CORE]
    for m, p, g in info: g.run_core(core)
    core.append("""(* The core of country_cal. *)
Definition country_core (c : Country) : Z -> Weekday -> Z -> Z -> Z -> Z -> Z -> bool :=
  match c with""")
    for m, p, g in info:
        mk = g.usesm["is_business_day"]
        pat = p.struct + ((" market" if mk else " _") if p.market else "")
        core[-1] += f"\n  | {pat} => {m}_is_business_day_core" + (" market" if mk else "")
    core[-1] += "\n  end.\n"
    names = ["country_cal", "country_core", "pure_cal", "core_weekend", "is_weekend", "naive_date_to_dkmy"]
    for x in out + core: names += re.findall(r"^Definition (\w+_\w+)", x, re.M)
    names = sorted(set(names))
    core.append("Ltac cal_unfold :=\n  cbv beta iota zeta delta [\n    " + "\n    ".join(names) + "].\n")
    open(f"{OUT}/CalCore.v", "w").write("\n".join(core))
    for m, p, g in info:
        print(m, p.market, "M" if g.mon["is_business_day"] else "pure", [ (f[0], "M" if g.mon[f[0]] else "") for f in p.fns if f[0] != "is_business_day"])
main()
