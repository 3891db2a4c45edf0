#!/usr/bin/env python3
"""Write rocq/theories/HolidayDates.v: for the calendars with holidays announced year by year, the
regular rules (given below) and the single dates on which the Rust text closes besides.  The dates
are found by reading the Rust conditions a second way, independently of gen_calendars.py: the body
is turned into a Python function and asked about every day from 1880 to 2220,
for every weekday and with Easter elsewhere: a day the text names is listed even in a year when it
falls on a weekend or another holiday."""
import re, os, datetime

SRC = os.environ.get("CALSRC", "/repo/third-parties/calendar/src")
OUT = os.environ.get("CALOUT", "/verif/rocq/theories")
W = ["Mon", "Tue", "Wed", "Thu", "Fri", "Sat", "Sun"]
D = datetime.date

def western(y):
    a, b, c = y % 19, y // 100, y % 100
    d, e = b // 4, b % 4
    g = (8 * b + 13) // 25
    h = (19 * a + b - d - g + 15) % 30
    i, k = c // 4, c % 4
    l = (32 + 2 * e + 2 * i - h - k) % 7
    m = (a + 11 * h + 19 * l) // 433
    n = (h + l - 7 * m + 90) // 25
    return D(y, n, (h + l - 7 * m + 33 * n + 19) % 32)

# ---- the Rust text as Python
def body(mod):
    t = open(f"{SRC}/{mod}.rs").read()
    t = t[:t.find("#[cfg(test)]")]
    t = re.sub(r"//[^\n]*", "", t)
    t = t[t.index("fn is_business_day"):]
    t = t[t.index("{"):]
    n = 0
    for i, ch in enumerate(t):
        n += (ch == "{") - (ch == "}")
        if n == 0: return t[1:i]

def expr(e):
    e = re.sub(r"\(\s*(\d+)\s*\.\.=\s*(\d+)\s*\)\s*\.contains\(&(\w)\)", r"(\1 <= \3 <= \2)", e)
    e = e.replace("self.is_weekend(date)", "(w in ('Sat', 'Sun'))")
    e = re.sub(r"Weekday::(\w+)", r"'\1'", e)
    e = e.replace("||", " or ").replace("&&", " and ").replace("&", " and ")
    e = re.sub(r"!(?!=)", " not ", e)
    return "(" + " ".join(e.split()) + ")"

def block(t, ind):
    out, i = [], 0
    while t[i:].strip():
        m = re.match(r"\s*let [^;]*;", t[i:])
        if m: i += m.end(); continue
        m = re.match(r"\s*return\s+(true|false)\s*;", t[i:])
        if m: out.append(ind + "return " + m[1].capitalize()); i += m.end(); continue
        m = re.match(r"\s*(true|false)\s*$", t[i:])
        if m: out.append(ind + "return " + m[1].capitalize()); i += m.end(); continue
        m = re.match(r"\s*(else\s+if|if|else)\b", t[i:])
        if not m: raise SystemExit("unknown text " + t[i:i+80])
        i += m.end(); j = t.index("{", i)
        kw = " ".join(m[1].split())
        out.append(ind + ("else:" if kw == "else" else ("elif " if kw != "if" else "if ") + expr(t[i:j]) + ":"))
        n, k = 1, j + 1
        while n: n += (t[k] == "{") - (t[k] == "}"); k += 1
        inner = block(t[j+1:k-1], ind + "  ")
        out += inner or [ind + "  pass"]
        i = k
    return out

def function(mod):
    src = "def f(d, w, m, y, dd, em):\n" + "\n".join(block(body(mod), "  "))
    env = {}
    exec(src, env)
    return env["f"]

# ---- rules
def kept(r, x, w):
    """Does the rule hold on day x, taking it to be a w?"""
    k = r[0]
    if k == "Fixed": return (x.month, x.day) == r[1:]
    if k == "Western": return x == western(x.year) + datetime.timedelta(r[1])
    if k == "Moved":
        v, n, m, d = r[1:]
        e = x - datetime.timedelta(n)
        return (e.month, e.day) == (m, d) and W[(W.index(v) + n) % 7] == w
    if k == "From": return x.year >= r[1] and kept(r[2], x, w)
    if k == "Until": return x.year <= r[1] and kept(r[2], x, w)
    if k == "NotIn": return x.year not in r[1] and kept(r[2], x, w)
    raise SystemExit(k)

def coq(r):
    def a(v):
        if isinstance(v, tuple): return "(" + coq(v) + ")"
        if isinstance(v, list): return "[" + "; ".join(map(str, v)) + "]"
        return f"({v})" if isinstance(v, int) and v < 0 else str(v)
    return " ".join([r[0]] + [a(v) for v in r[1:]])

F = lambda m, d: ("Fixed", m, d)
new_year, labour, christmas = F(1, 1), F(5, 1), F(12, 25)
def sunday(m, d): return [F(m, d), ("Moved", "Sun", 1, m, d)]
def weekend(m, d): return [F(m, d), ("Moved", "Sat", 2, m, d), ("Moved", "Sun", 1, m, d)]
def since(y, rs): return [("From", y, r) for r in rs]
good_friday, easter_mon = ("Western", -2), ("Western", 1)

RULES = {
  "china": [new_year, ("Until", 2008, F(4, 4))] + [("Until", 2007, F(5, k)) for k in range(1, 8)]
           + [("Until", 2008, F(6, 9)), ("Until", 2008, F(9, 15))] + [("Until", 2007, F(10, k)) for k in range(1, 8)],
  "hongkong": sunday(1, 1) + [good_friday, easter_mon] + sunday(5, 1) + sunday(7, 1) + sunday(10, 1) + [christmas, F(12, 26)],
  "india": [F(1, 26), good_friday, F(4, 14), labour, F(8, 15), F(10, 2), christmas],
  "indonesia": [new_year, good_friday, ("Western", 39), F(8, 17), christmas],
  "israel": [],
  "singapore": sunday(1, 1) + [good_friday, labour] + sunday(8, 9) + [christmas],
  "southkorea": [new_year, F(3, 1)] + since(2022, weekend(3, 1)[1:]) + [("Until", 2005, F(4, 5)), labour, F(5, 5)]
           + since(2014, weekend(5, 5)[1:]) + [F(6, 6), ("Until", 2007, F(7, 17)), F(8, 15)] + since(2021, weekend(8, 15)[1:])
           + [F(10, 3)] + since(2021, weekend(10, 3)[1:]) + since(2013, [F(10, 9)]) + since(2021, weekend(10, 9)[1:])
           + [christmas] + since(2023, weekend(12, 25)[1:]),
  "taiwan": [new_year, F(2, 28), ("NotIn", [2008, 2009, 2012, 2017], F(4, 5)), labour, F(10, 10)],
  "thailand": weekend(1, 1) + weekend(4, 6) + [F(4, 13), F(4, 14), F(4, 15), ("Moved", "Fri", 3, 4, 13), ("Moved", "Sat", 3, 4, 13)]
           + weekend(5, 1) + since(2017, weekend(7, 28)) + weekend(8, 12) + since(2017, weekend(10, 13)) + weekend(12, 5)
           + weekend(12, 10) + [F(12, 31), ("Moved", "Sat", 2, 12, 31), ("Moved", "Sun", 1, 12, 31)],
  "turkey": [new_year, F(4, 23), labour, F(5, 19), ("From", 2017, F(7, 15)), F(8, 30), F(10, 29)],
}

out = ["""(* Generated by tools/gen_holiday_dates.py.  For each calendar whose holidays are announced year by
   year: its regular rules, and the single dates on which it closes besides.  The dates are read off the Rust text by a second reader, not off Calendars.v. *)
From Coq Require Import ZArith Bool List.
From Verif Require Import Base Chrono HolidayRules.
Import ListNotations.
Local Open Scope Z_scope.

(** Single dates of a year, given by month and days. *)
Definition dates (y : Z) (l : list (Z * list Z)) : list rule :=
  flat_map (fun '(m, ds) => map (fun d => InYears [y] (Fixed m d)) ds) l.
"""]
for mod, rules in RULES.items():
    f = function(mod)
    rest = ("Fri", "Sat") if mod == "israel" else ("Sat", "Sun")
    found = {}
    x, end = D(1880, 1, 1), D(2220, 12, 31)
    while x <= end:
        named = False
        dd = x.timetuple().tm_yday
        em = (western(x.year) + datetime.timedelta(1)).timetuple().tm_yday
        for w, e in [(w, e) for w in W for e in (em, -1000)]:
            closed = not f(x.day, w, x.month, x.year, dd, e)
            rule = any(kept(r, x, w) for r in rules if e == em or r[0] != "Western")
            if w in rest: assert closed, (mod, x)
            elif closed and not rule: named = True
            elif rule and not closed: raise SystemExit(f"{mod}: rule holds but open on {x} {w}")
        if named: found.setdefault(x.year, {}).setdefault(x.month, []).append(x.day)
        x += datetime.timedelta(1)
    def wrap(items, first, cont, width=112):
        lines, cur = [], first
        for i, s in enumerate(items):
            s = s + (";" if i < len(items) - 1 else "")
            if len(cur) + len(s) + 1 > width: lines.append(cur.rstrip()); cur = cont
            cur += s + " "
        return lines + [cur.rstrip()]
    out.append(f"Definition {mod}_regular : list rule :=")
    out.append("\n".join(wrap([coq(r) for r in rules], "  [", "   ")) + "].")
    out.append(f"Definition {mod}_listed : list rule :=")
    for n, (y, ms) in enumerate(found.items()):
        items = [f"({m}, [{'; '.join(map(str, ds))}])" for m, ds in ms.items()]
        out.append("\n".join(wrap(items, f"  {'++ ' if n else ''}dates {y} [", "       ")) + "]")
    out[-1] += "."
    out.append(f"Definition {mod}_rules : list rule := {mod}_regular ++ {mod}_listed.\n")
    print(mod, min(found), max(found), sum(len(d) for ms in found.values() for d in ms.values()))
open(f"{OUT}/HolidayDates.v", "w").write("\n".join(out) + "\n")
