#!/usr/bin/env python3
"""Writes MANIFEST.json from the table below."""
import json, os, re
here = os.path.dirname(os.path.abspath(__file__))
root = os.path.dirname(here)
claims = []
def c(prop, status, theorems, note=""):
    claims.append({"property": prop, "status": status, "theorems": theorems.split(), "note": note})

exec(open(os.path.join(here, "claims.py")).read())

names = set()
th = os.path.join(root, "rocq", "theories")
for f in os.listdir(th):
    if f.startswith("P_") and f.endswith(".v"):
        names |= set(re.findall(r"^Theorem\s+(\w+)", open(os.path.join(th, f)).read(), re.M))
used = set(t for x in claims for t in x["theorems"])
print("not in any P file:", sorted(used - names))
print("not in the manifest:", sorted(n for n in names - used))
json.dump({"claims": claims}, open(os.path.join(root, "MANIFEST.json"), "w"), indent=1)
