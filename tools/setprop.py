#!/usr/bin/env python3
"""setprop.py Cnn key=value ...: edit one property in properties.jsonl"""
import sys, json, os
p = os.path.join(os.path.dirname(os.path.dirname(os.path.abspath(__file__))), "properties.jsonl")
L = [json.loads(l) for l in open(p)]
for d in L:
    if d["id"] == sys.argv[1]:
        for kv in sys.argv[2:]:
            k, v = kv.split("=", 1); d[k] = v
open(p, "w").write("".join(json.dumps(d) + "\n" for d in L))
