#!/usr/bin/env python3
"""Writes MANIFEST.json: theorem names are collected from rocq/theories/Props/*.v (Cnn_ prefix); statuses and notes are below."""
import json, re, glob, os
os.chdir(os.path.join(os.path.dirname(os.path.abspath(__file__)), ".."))
thms = {}
for f in sorted(glob.glob("rocq/theories/Props/*.v")):
    for m in re.finditer(r"^(?:Theorem|Lemma|Corollary)\s+(C\d{2,3})_(\w+)", open(f).read(), re.M):
        thms.setdefault(m.group(1), []).append(f"{m.group(1)}_{m.group(2)}")
NOTES = json.load(open("tools/notes.json"))
props = [json.loads(l) for l in open("properties.jsonl") if l.strip()]
claims = []
for p in props:
    i = p["id"]
    st, note = NOTES.get(i, ["partial", "not yet proved"])
    ts = thms.get(i, [])
    assert ts or st != "proved", i
    claims.append({"property": i, "status": st, "theorems": ts, "note": note})
json.dump({"claims": claims}, open("MANIFEST.json", "w"), indent=1)
print({s: sum(c["status"] == s for c in claims) for s in ("proved", "partial", "not_applicable")}, "missing:", [c["property"] for c in claims if not c["theorems"]])
