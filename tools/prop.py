#!/usr/bin/env python3
"""Edit properties.jsonl: prop.py < json list of {id, ...fields}; updates or appends."""
import json, sys, os
root = os.path.dirname(os.path.dirname(os.path.abspath(__file__)))
p = os.path.join(root, "properties.jsonl")
rows = [json.loads(l) for l in open(p)]
for u in json.load(sys.stdin):
    for r in rows:
        if r["id"] == u["id"]:
            r.update(u); break
    else:
        assert set(u) >= {"id", "title", "statement", "quantifier", "why_tests_cant", "anchors"}, u
        rows.append(u)
open(p, "w").write("".join(json.dumps(r) + "\n" for r in rows))
