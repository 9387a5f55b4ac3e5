#!/usr/bin/env python3
"""Regenerate MANIFEST.json and rocq/_CoqProject's file list.

Theorem names are read from the *Props.v files; a theorem belongs to the property its name starts with.
tools/notes.json holds, per property, the status and the note.
"""
import json, os, re, glob
R = os.path.dirname(os.path.dirname(os.path.abspath(__file__)))
th = {}
for f in sorted(glob.glob(R + "/rocq/theories/*Props*.v")):
    for m in re.finditer(r"^Theorem\s+((C\d+)_\w+)", open(f).read(), re.M):
        th.setdefault(m.group(2), []).append(m.group(1))
notes = json.load(open(R + "/tools/notes.json"))
claims = []
for line in open(R + "/properties.jsonl"):
    pid = json.loads(line)["id"]
    names = th.get(pid, [])
    n = notes.get(pid)
    if n is None:
        st = "partial"
        note = "No theorem yet." if not names else ""
    else:
        st, note = n
    claims.append({"property": pid, "status": st, "theorems": names, "note": note})
json.dump({"claims": claims}, open(R + "/MANIFEST.json", "w"), indent=1)
files = sorted(os.path.basename(f) for f in glob.glob(R + "/rocq/theories/*.v"))
with open(R + "/rocq/_CoqProject", "w") as o:
    o.write("-Q theories Verif\n")
    for f in files:
        o.write("theories/%s\n" % f)
cov = [c for c in claims if c["theorems"]]
print(len(claims), "properties,", len(cov), "with theorems,", sum(len(c["theorems"]) for c in claims), "theorems,",
      sum(c["status"] == "proved" for c in claims), "proved")
for c in claims:
    if c["theorems"] and c["property"] not in notes: print("no note:", c["property"])
    if c["status"] == "proved" and (not c["theorems"] or any("refuted" in t for t in c["theorems"])): print("check status:", c["property"])
