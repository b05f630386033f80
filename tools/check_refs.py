#!/usr/bin/env python3
"""Check the source citations in rocq/theories/M_*.v.

A comment "file.c:a-b name" (or a comma separated list of line ranges) must
cite a range of /repo/src/uecho (or the headers or examples) that contains the text "name"."""
import re, glob, os, sys
ROOT = '/repo/src/uecho'
index = {}
for d, _, fs in os.walk(ROOT):
    for f in fs:
        index.setdefault(f, []).append(os.path.join(d, f))
for d, _, fs in list(os.walk('/repo/include')) + list(os.walk('/repo/examples')):
    for f in fs:
        index.setdefault(f, []).append(os.path.join(d, f))
bad = 0
cnt = 0
for v in sorted(glob.glob(os.path.join(os.path.dirname(__file__), '../rocq/theories/M_*.v'))):
    txt = open(v).read()
    for m in re.finditer(r'([\w/]+\.[ch]):(\d+)(?:-(\d+))?((?:,\d+(?:-\d+)?)*)\s+(uecho_\w+)', txt):
        f, a, b, more, name = m.groups()
        cands = [p for fs in index.values() for p in fs if p.endswith('/' + f)]
        if not cands:
            print(v, m.group(0), 'NO FILE'); bad += 1; continue
        ranges = [(int(a), int(b or a))]
        for r in filter(None, more.split(',')):
            x = r.split('-'); ranges.append((int(x[0]), int(x[-1])))
        ok = False
        where = []
        for p in cands:
            lines = open(p, errors='replace').read().split('\n')
            for i, l in enumerate(lines, 1):
                if re.search(r'\b%s\b' % name, l) and not l.strip().startswith('*') :
                    where.append(i)
                    if any(x <= i <= y for x, y in ranges):
                        ok = True
        cnt += 1
        if not ok:
            print(os.path.basename(v), m.group(0), 'found at', where[:4]); bad += 1
print(cnt, 'citations,', bad, 'bad')
sys.exit(bad != 0)
