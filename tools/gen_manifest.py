#!/usr/bin/env python3
"""Writes MANIFEST.json: for each property the theorems named Cxx_* found in rocq/theories/Prop*.v.
A property is 'partial' iff one of its theorems has the suffix _partial."""
import json, re, glob, os
root = os.path.dirname(os.path.dirname(os.path.abspath(__file__)))
ids = [json.loads(l)["id"] for l in open(root + "/properties.jsonl")]
notes = json.load(open(root + "/tools/manifest_notes.json"))
thms, cases, where = {}, {}, {}
for f in sorted(glob.glob(root + "/rocq/theories/Prop*.v")):
    for m in re.finditer(r"^[ ]*Example (C\d\d)(_\w+)", open(f).read(), re.M):
        cases.setdefault(m.group(1), []).append(m.group(1) + m.group(2))
    for m in re.finditer(r"^[ ]*Theorem (C\d\d)(_\w+)", open(f).read(), re.M):
        thms.setdefault(m.group(1), []).append(m.group(1) + m.group(2))
        if os.path.basename(f) not in where.setdefault(m.group(1), []): where[m.group(1)].append(os.path.basename(f))
def note(i, t):
    r = ["In " + ", ".join(where[i]) + "."]
    if i in notes: r.append(notes[i])
    ref = [x for x in t if x.endswith("_refuted")]
    if ref: r.append("Proved counterexamples (findings): " + ", ".join(ref) + ".")
    if i in cases: r.append("Concrete cases that meet the hypotheses: " + ", ".join(cases[i]) + ".")
    return " ".join(r)
claims = []
for i in ids:
    t = thms.get(i, [])
    if not t:
        print("no theorems yet:", i); continue
    st = "partial" if any(x.endswith("_partial") for x in t) else "proved"
    claims.append({"property": i, "status": st, "theorems": t, "note": note(i, t)})
json.dump({"claims": claims}, open(root + "/MANIFEST.json", "w"), indent=1, ensure_ascii=False)
open(root + "/MANIFEST.json", "a").write("\n")
