#!/usr/bin/env python3
"""Writes MANIFEST.json and checks that every named theorem exists in rocq/theories."""
import json, re, glob, os

ROOT = os.path.join(os.path.dirname(os.path.abspath(__file__)), "..")
C = {}

def claim(pid, status, theorems, note):
    C[pid] = {"property": pid, "status": status, "theorems": theorems.split(), "note": note}

exec(open(os.path.join(ROOT, "tools", "claims.py")).read())

names = set()
for f in glob.glob(os.path.join(ROOT, "rocq/theories/*.v")):
    names |= set(re.findall(r"^\s*(?:Theorem|Lemma|Corollary)\s+([\w']+)", open(f).read(), re.M))
ids = [json.loads(l)["id"] for l in open(os.path.join(ROOT, "properties.jsonl"))]
for pid, c in C.items():
    assert pid in ids, pid
    for t in c["theorems"]:
        assert t in names, (pid, t)
missing = [i for i in ids if i not in C]
json.dump({"claims": [C[i] for i in ids if i in C]},
          open(os.path.join(ROOT, "MANIFEST.json"), "w"), indent=1)
print("claims", len(C), "missing", missing)
