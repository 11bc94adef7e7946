#!/usr/bin/env python3
"""Generates rocq/theories/Tables.v from the Rust constant tables in /repo/src/database.
Usage: gen_tables.py [repo] > Tables.v     (output is committed; rerun to compare)"""
import re, sys
repo = sys.argv[1] if len(sys.argv) > 1 else '/repo'
def lit(s): return s.encode().decode('unicode_escape')
def strings(body): return [lit(m) for m in re.findall(r'"((?:[^"\\]|\\.)*)"', body)]
def const(src, name):
    m = re.search(r'const %s: *\[' % name, src)
    j = src.index('= [', m.start()); k = src.index('\n];', j)
    line = src.count('\n', 0, m.start()) + 1
    return line, src.count('\n', 0, k) + 2, strings(src[j:k])
t = open(repo + '/src/database/space_group_table.rs').read()
o = open(repo + '/src/database/sym_ops_order.rs').read()
d = open(repo + '/src/database/mod.rs').read()
def emit(coq, file, res):
    a, b, l = res
    print('(** %s:%d-%d, %d entries *)' % (file, a, b, len(l)))
    print('Definition %s : list string := [' % coq)
    print(';\n'.join('  "%s"' % s.replace('"', '""') for s in l))
    print(']%string.\n')
print('(** * Tables: the constant tables of the crate, transcribed by tools/gen_tables.py. *)')
print('From Verif Require Import Base.\n')
f = 'src/database/space_group_table.rs'
for coq, name in [('full_number', 'NUMBER_AND_CHOICE'), ('full_hm', 'HM_FULL'), ('full_hall', 'HALL_NAME'),
                  ('default_number', 'DEFAULT_NUMBER_AND_CHOICE'), ('default_hm', 'DEFAULT_HM_FULL'),
                  ('default_hall', 'DEFAULT_HALL_NAME')]:
    emit(coq, f, const(t, name))
f = 'src/database/sym_ops_order.rs'
for coq, name in [('order_48', 'ORDER_48'), ('order_24', 'ORDER_24'), ('order_12', 'ORDER_12')]:
    emit(coq, f, const(o, name))
i = d.index('enum SpaceGroupHallSymbol'); k = d.index('\n}', i)
names = re.findall(r'\n    (\w+),', d[i:k])
emit('variant_names', 'src/database/mod.rs', (d.count('\n', 0, i) + 1, d.count('\n', 0, k) + 2, names))
