#!/usr/bin/env python3
"""Writes /verif/MANIFEST.json from the claims below and checks that every
theorem exists in a Properties_*.v file and every Cnn theorem is listed."""
import json, re, glob, os, sys
ROOT = os.path.dirname(os.path.dirname(os.path.abspath(__file__)))
names = []
for f in sorted(glob.glob(ROOT + "/rocq/theories/Properties_*.v")):
    names += re.findall(r"^Theorem\s+(C\d\d+_\w+)", open(f).read(), re.M)
notes = json.load(open(ROOT + "/tools/claims.json"))
claims = []
for pid in sorted(set(n.split("_")[0] for n in names) | set(notes), key=lambda x: int(x[1:])):
    ts = [n for n in names if n.split("_")[0] == pid]
    partial = any(n.endswith("_partial") or n.endswith("_refuted") for n in ts)
    st = "not_applicable" if not ts else ("partial" if partial else "proved")
    if pid not in notes:
        sys.exit("no note for " + pid)
    claims.append(dict(property=pid, status=st, theorems=ts, note=notes[pid]))
json.dump({"claims": claims}, open(ROOT + "/MANIFEST.json", "w"), indent=1)
print({s: sum(c["status"] == s for c in claims) for s in ("proved", "partial", "not_applicable")}, len(names), "theorems")
