#!/usr/bin/env python3
"""Generate rocq/theories/StdNames_Data.v from objects_mra.c and manufacturers.c of /repo/src/uecho/std."""
import re
base = '/repo/src/uecho/std/'
lines = open(base + 'objects_mra.c').read().split('\n')
start = next(i for i, l in enumerate(lines) if 'void uecho_database_addstandardobjects' in l)
objs = []
for i, l in enumerate(lines[start + 1:], start + 2):
    s = l.strip()
    m = re.match(r'obj = uecho_standard_object_new\("([^"\\]*)", (0x[0-9A-Fa-f]+), (0x[0-9A-Fa-f]+)\);$', s)
    if m:
        cur = (i, m.group(1), int(m.group(2), 16), int(m.group(3), 16), [])
        objs.append(cur)
        continue
    m = re.match(r'uecho_object_addproperty\(obj, uecho_standard_object_property_new\((0x[0-9A-Fa-f]+), "([^"\\]*)",', s)
    if m:
        cur[4].append((int(m.group(1), 16), m.group(2)))
        continue
    assert not s or s.startswith('//') or s in ('{', '}', 'uEchoObject* obj;', 'uecho_database_addobject(db, obj);'), s
mlines = open(base + 'manufacturers.c').read().split('\n')
mstart = next(i for i, l in enumerate(mlines) if 'void uecho_database_addstandardmanufactures' in l)
mans = []
for l in mlines[mstart + 1:]:
    s = l.strip()
    if s in ('', '}'):
        continue
    m = re.match(r'uecho_database_addstandardmanufacture\(db, (0x[0-9A-Fa-f]+), "([^"\\]*)"\);$', s)
    assert m, s
    mans.append((int(m.group(1), 16), m.group(2)))
out = ['(* Generated by tools/gen_names.py.  [std_names]: src/uecho/std/objects_mra.c:%d-%d' % (start + 1, len(lines)),
       '   uecho_database_addstandardobjects, in file order: group code, class code, name, and the code and',
       '   name of each property.  [man_rows]: src/uecho/std/manufacturers.c:%d-%d' % (mstart + 1, len(mlines) - 1),
       '   uecho_database_addstandardmanufactures: code and name. *)',
       'From Coq Require Import String ZArith List.', 'Import ListNotations.', 'Open Scope Z_scope.', 'Local Open Scope string_scope.', '',
       'Definition std_names : list (Z * Z * string * list (Z * string)) := [']
out.append(';\n'.join('  (%d, %d, "%s", [\n    %s])' % (g, c, n, ';\n    '.join('(%d, "%s")' % p for p in ps)) for (_, n, g, c, ps) in objs))
out += ['].', '', 'Definition man_rows : list (Z * string) := [', ';\n'.join('  (%d, "%s")' % m for m in mans), '].']
open('/verif/rocq/theories/StdNames_Data.v', 'w').write('\n'.join(out) + '\n')
print(len(objs), sum(len(o[4]) for o in objs), len(mans))
