#!/usr/bin/env python3
"""addprop.py: reads a JSON object {prop, claim, design, files:{after:new}} from stdin and registers a new property."""
import json,sys
x=json.load(sys.stdin)
p='rocq/_CoqProject'; s=open(p).read().rstrip('\n')+"\n"
for a,b in x['files']:
    assert a+"\n" in s,a
    s=s.replace(a+"\n",a+"\n"+b+"\n")
open(p,'w').write(s)
open('properties.jsonl','a').write(json.dumps(x['prop'])+"\n")
open('tools/claims.txt','a').write(x['claim']+"\n")
p='tools/design_body.md'; s=open(p).read()
i=s.index(x['design_after']); j=s.index("\n",i)+1
s=s[:j]+x['design']+"\n"+s[j:]
open(p,'w').write(s)
