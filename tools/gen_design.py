#!/usr/bin/env python3
"""DESIGN.md = design_head.md + table of properties (methods: design_methods.json) + findings (comments before *_refuted theorems) + design_tail.md"""
import json,re,os
V='/verif/'; T=V+'rocq/theories/'
M=json.load(open(V+'tools/design_methods.json'))
where={}; doc={}
for f in sorted(os.listdir(T)):
    if not f.endswith('.v'): continue
    s=open(T+f).read()
    for m in re.finditer(r'^Theorem (C\d\d+_\w+)',s,re.M):
        where[m.group(1)]=f
        pre=s[:m.start()].rstrip()
        if pre.endswith('*)'):
            i=pre.rfind('(**'); d=pre[i+3:-2]
            doc[m.group(1)]=' '.join(d.split())
rows=[json.loads(l) for l in open(V+'properties.jsonl')]
man={c['property']:c for c in json.load(open(V+'MANIFEST.json'))['claims']}
out=[open(V+'tools/design_head.md').read().rstrip(),'','## 5. Properties: model, theorems, method of proof','',
 'Theorem names omit the prefix `CNN_`. Every theorem is for all inputs (no bound on sizes); `_refuted` marks a proof that a plausible stronger claim is false (section 6).','',
 '| id | property | model -> theorems | theorems | method |','|---|---|---|---|---|']
for r in rows:
    p=r['id']; ths=man[p]['theorems']; fs=[]
    for t in ths:
        if where[t] not in fs: fs.append(where[t])
    mod,meth=M.get(p,['?','?'])
    out.append(f"| {p} | {r['title']} | {mod} -> {', '.join(fs)} | {', '.join(t[len(p)+1:] for t in ths)} | {meth} |")
    if mod=='?': print('no method',p)
out+=['','## 6. Findings: claims that are false of the code','','Each is a theorem; the comment is the one at the theorem.','']
for r in rows:
    for t in man[r['id']]['theorems']:
        if 'refuted' in t:
            if t not in doc: print('no doc',t)
            out.append(f"* `{t}`: {doc.get(t,'')}")
out+=['',open(V+'tools/design_tail.md').read().rstrip(),'']
open(V+'DESIGN.md','w').write('\n'.join(out))
