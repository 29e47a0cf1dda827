#!/usr/bin/env python3
# Generates /verif/MANIFEST.json from the theorems C<nn>_* found in rocq/theories/Props_*.v.
# STATUS lists the properties that are not fully proved; NOTE their explanation.
import json, re, glob, os
root = os.path.dirname(os.path.dirname(os.path.abspath(__file__)))
thms = {}
for f in sorted(glob.glob(root + "/rocq/theories/Props_*.v")):
    for m in re.finditer(r"^\s*Theorem (C(\d\d)_\w+)", open(f).read(), re.M):
        thms.setdefault("C" + m.group(2), []).append((m.group(1), os.path.basename(f)))
exec(open(root + "/tools/notes.py").read())
claims = []
for l in open(root + "/properties.jsonl"):
    pid = json.loads(l)["id"]
    ts = thms.get(pid, [])
    names = [t for t, _ in ts]
    files = sorted(set(f for _, f in ts))
    if not ts: st = "partial"; note = "no theorem yet"
    else:
        st = STATUS.get(pid, "partial" if any("_partial" in n or "_refuted" in n for n in names) else "proved")
        note = NOTE.get(pid, "full statement proved")
    if files: note += " (" + ", ".join(files) + ")"
    claims.append({"property": pid, "status": st, "theorems": names, "note": note})
json.dump({"claims": claims}, open(root + "/MANIFEST.json", "w"), indent=1)
open(root + "/MANIFEST.json", "a").write("\n")
print({s: sum(c["status"] == s for c in claims) for s in ("proved", "partial")}, "no theorem:", [c["property"] for c in claims if not c["theorems"]])
