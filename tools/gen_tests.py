#!/usr/bin/env python3
"""Transcribe the year-long unit tests of third-parties/calendar into Coq (RepoCalendarTests.v)."""
import os, re
SRC = os.environ.get("CALSRC", "/repo/third-parties/calendar/src")
OUT = os.environ.get("CALOUT", "/verif/rocq/theories")
out = ['''(** The year-long unit tests of third-parties/calendar, transcribed by tools/gen_tests.py.  They are tests of the
    model, not theorems about it: the expected answers were written by the authors of the code. *)
From Coq Require Import ZArith Bool List String Ascii.
From Verif Require Import Base Chrono CalLib Calendars.
Import ListNotations.
Local Open Scope Z_scope.
Local Open Scope string_scope.

(** One test loop, e.g. argentina.rs:85-90: from [date] on, each answer of [is_business_day] is compared with the
    expected one ('o' for true, 'x' for false). *)
Fixpoint agrees (c : cal) (date : option NaiveDate) (expected : string) : bool :=
  match expected, date with
  | EmptyString, _ => true
  | String a rest, Some d =>
      match c d with
      | Ret b => Bool.eqb b (Ascii.eqb a "o"%char) && agrees c (succ_opt d) rest
      | _ => false
      end
  | _, None => false
  end.
''']
n = 0
for f in sorted(os.listdir(SRC)):
    src = open(f"{SRC}/{f}").read()
    for m in re.finditer(r"#\[test\]\s*fn (\w+)\(\) \{", src):
        end = src.find("#[test]", m.end())
        body = src[m.end(): end if end > 0 else len(src)]
        v = re.search(r"vec!\[([^\]]*)\]", body)
        if not v:
            continue
        answers = re.findall(r"true|false", v[1])
        y, mo, d = re.search(r"from_ymd_opt\((\d+), (\d+), (\d+)\)", body).groups()
        cnt = int(re.search(r"for n in 0i32\.\.(\d+)", body)[1])
        call = re.search(r"assert_eq!\(\s*(.*?)\s*\.is_business_day\(target_date\),\s*expected", body, re.S)[1]
        g = re.match(r"(\w+)::default\(\)$", call)
        h = re.match(r"(\w+) \{\s*market: (?:Some\((\w+)::(\w+)\)|None),?\s*\}$", call)
        if g:
            ty = g[1]
            cal = f"({ty} None)"
        elif h:
            ty = h[1]
            cal = f"({ty} (Some {h[2]}_{h[3]}))" if h[2] else f"({ty} None)"
        else:
            assert re.match(r"\w+$", call), call
            ty = call
            cal = call
        if not re.search(rf"\| {ty} \(market", open(f"{OUT}/Calendars.v").read()):
            cal = ty
        s = "".join("o" if a == "true" else "x" for a in answers)
        assert cnt <= len(s)
        s = s[:cnt]
        line = src[:m.start()].count("\n") + 1
        last = src[:m.end()].count("\n") + 1 + body.rstrip().count("\n")
        lines = " ++\n     ".join(f'"{s[i:i+91]}"' for i in range(0, len(s), 91))
        n += 1
        out.append(f'''(** {f}:{line}-{last} {m[1]}. *)
Example test_{f[:-3]}_{line} :
  agrees (country_cal {cal}) (from_ymd_opt {y} {mo} {d})
    ({lines}) = true.
Proof. vm_compute. reflexivity. Qed.
''')
open(f"{OUT}/RepoCalendarTests.v", "w").write("\n".join(out))
print(n, "tests")
