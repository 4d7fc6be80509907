#!/usr/bin/env python3
"""Brings DESIGN.md in line with properties.jsonl, MANIFEST.json and the model comments.

Sections of properties keep their "Model and proof" line; those of new properties come from
tools/plans.json (property id to text).
"""
import glob, json, os, re

root = os.path.dirname(os.path.dirname(os.path.abspath(__file__)))
path = lambda *p: os.path.join(root, *p)

props = [json.loads(l) for l in open(path("properties.jsonl")) if l.strip()]
claims = {c["property"]: c for c in json.load(open(path("MANIFEST.json")))["claims"]}
plans = json.load(open(path("tools", "plans.json")))
text = open(path("DESIGN.md")).read()

head, _, tail = text.partition("## Properties\n")
old = {}
for section in re.split(r"(?m)^### ", tail)[1:]:
    m = re.search(r"(?m)^- Model and proof: (.*)$", section)
    if m:
        old[section.split()[0]] = m.group(1)

out = []
for p in props:
    i = p["id"]
    c = claims.get(i)
    lines = [f"### {i} {p['title']} — {c['status'] if c else 'planned'}", "", p["statement"], "",
             f"- Quantifier: {p['quantifier']}", f"- Code: {'; '.join(p['anchors'])}",
             f"- Model and proof: {plans.get(i) or old.get(i, '')}"]
    if c:
        lines.append("- Theorems: " + ", ".join(f"`{t}`" for t in c["theorems"]))
        if c["note"]:
            lines.append(f"- Note: {c['note']}")
    out.append("\n".join(lines) + "\n")

cited = {}
for f in sorted(glob.glob(path("rocq", "theories", "*.v"))):
    if not f.endswith("Model.v"):
        continue
    content = re.sub(r"\s+", " ", open(f).read())
    for name, ranges in re.findall(r"([\w/]+\.(?:py|yaml)):(\d+(?:-\d+)?(?:(?:, | and )\d+(?:-\d+)?)*)", content):
        for r in re.split(r", | and ", ranges):
            a, _, b = r.partition("-")
            cited.setdefault(name.split("/")[-1] if not name.startswith("scripts") else name, set()).add((int(a), int(b or a)))
lines = []
for name in sorted(cited):
    ranges = sorted(cited[name], key=lambda r: (r[0], -r[1]))
    keep = []
    for r in ranges:
        if keep and r[0] <= keep[-1][1] + 1:
            keep[-1] = (keep[-1][0], max(keep[-1][1], r[1]))
        else:
            keep.append(r)
    lines.append(f"- `{name}`: " + ", ".join(f"{a}-{b}" if a != b else f"{a}" for a, b in keep))
sources = sorted(os.path.basename(f) for f in glob.glob("/repo/dtformats/*.py"))
without = [s for s in sources if s not in cited and s != "__init__.py"]
block = ("## Modelled code\n\nLines of the sources (under dtformats/) that model definitions cite; the comments of the definitions say\n"
         "where they are simplified. Everything else is not modelled.\n\n" + "\n".join(lines) +
         "\n\nSource files without any modelled line: " + ", ".join(f"`{s}`" for s in without) +
         "; also everything under `scripts/` and `tests/`" + (" except the scripts listed above" if any(n.startswith("scripts") for n in cited) else "") + ".\n\n")
a = head.index("## Modelled code")
head = head[:a] + block
open(path("DESIGN.md"), "w").write(head + "## Properties\n\n" + "\n".join(out))
