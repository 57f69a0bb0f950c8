#!/usr/bin/env python3
"""writes DESIGN.md from design_body.md, claims.txt, properties.jsonl and design_findings.md"""
import os, json
r = os.path.dirname(os.path.dirname(os.path.abspath(__file__)))
t = {json.loads(l)["id"]: json.loads(l)["title"] for l in open(r + "/properties.jsonl")}
out = open(r + "/tools/design_body.md").read()
out += "## 5. Status\n\n| property | status | theorems | scope |\n|---|---|---|---|\n"
for l in open(r + "/tools/claims.txt"):
    if l.strip():
        p, s, th, n = l.rstrip("\n").split("|", 3)
        out += f"| {p} {t[p]} | {s} | {', '.join('`%s`' % x for x in th.split())} | {n.replace('|', '/')} |\n"
out += open(r + "/tools/design_findings.md").read()
open(r + "/DESIGN.md", "w").write(out)
