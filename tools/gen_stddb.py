#!/usr/bin/env python3
"""Generate rocq/theories/StdDB_Data.v from /repo/src/uecho/std/objects_mra.c."""
import re, sys
src = '/repo/src/uecho/std/objects_mra.c'
lines = open(src).read().split('\n')
start = next(i for i, l in enumerate(lines) if 'void uecho_database_addstandardobjects' in l)
RULE = {'required': 'Rq', 'optional': 'Op', 'required_c': 'Rc', 'required_o': 'Ro', 'notApplicable': 'Na'}
objs = []
seen_rules = set()
other = []
for i, l in enumerate(lines[start + 1:], start + 2):
    s = l.strip()
    if not s or s.startswith('//') or s in ('{', '}', 'uEchoObject* obj;'):
        continue
    m = re.match(r'obj = uecho_standard_object_new\("(.*)", (0x[0-9A-Fa-f]+), (0x[0-9A-Fa-f]+)\);$', s)
    if m:
        cur = [i, m.group(1), int(m.group(2), 16), int(m.group(3), 16), [], False]
        objs.append(cur)
        continue
    m = re.match(r'uecho_object_addproperty\(obj, uecho_standard_object_property_new\((0x[0-9A-Fa-f]+), "(.*)", "(\w*)", (\d+), "(\w*)", "(\w*)", "(\w*)"\)\);$', s)
    if m:
        rules = m.groups()[4:]
        seen_rules.update(rules)
        cur[4].append((int(m.group(1), 16),) + tuple(RULE[r] for r in rules))
        continue
    if s == 'uecho_database_addobject(db, obj);':
        cur[5] = True
        continue
    other.append((i, s))
if other:
    print('unparsed lines:', other, file=sys.stderr); sys.exit(1)
assert all(o[5] for o in objs)
out = []
out.append('(* Generated by tools/gen_stddb.py from src/uecho/std/objects_mra.c:%d-%d' % (start + 1, len(lines)))
out.append('   (uecho_database_addstandardobjects).  One entry per uecho_standard_object_new, in file')
out.append('   order: group code, class code, and the arguments (epc, get, set, anno rule) of the')
out.append('   uecho_standard_object_property_new calls added to it, in file order.')
out.append('   Rules: %s.' % ', '.join('%s = "%s"' % (v, k) for k, v in RULE.items()))
out.append('   Names, data types and data sizes are dropped (the C code ignores type and size). *)')
out.append('From Coq Require Import ZArith List.')
out.append('Import ListNotations.')
out.append('Open Scope Z_scope.')
out.append('')
out.append('Inductive rule : Set := Rq | Op | Rc | Ro | Na.')
out.append('')
out.append('Definition std_rows : list (Z * Z * list (Z * rule * rule * rule)) := [')
ents = []
for (i, name, g, c, ps, _) in objs:
    e = '  (* line %d: %s (0x%02X%02X) *)\n  (%d, %d, [' % (i, name.replace('(*', '( *'), g, c, g, c)
    e += ';\n    '.join('; '.join('(%d, %s, %s, %s)' % p for p in ps[k:k + 5]) for k in range(0, len(ps), 5))
    e += '])'
    ents.append(e)
out.append(';\n'.join(ents))
out.append('].')
open('/verif/rocq/theories/StdDB_Data.v', 'w').write('\n'.join(out) + '\n')
print(len(objs), 'objects', sum(len(o[4]) for o in objs), 'properties', sorted(seen_rules))
