#!/usr/bin/env python3
# Rewrites the trailing list of Print Assumptions commands of every Props_*.v file.
import re, glob, os
root = os.path.dirname(os.path.dirname(os.path.abspath(__file__)))
for f in sorted(glob.glob(root + "/rocq/theories/Props_*.v")):
    s = open(f).read()
    body = re.sub(r"^Print Assumptions .*\n?", "", s, flags=re.M).rstrip() + "\n\n"
    names = re.findall(r"^\s*Theorem (\w+)", body, re.M)
    t = body + "".join("Print Assumptions %s.\n" % n for n in names)
    if t != s: open(f, "w").write(t)
