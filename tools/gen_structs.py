#!/usr/bin/env python3
"""Write rocq/theories/A2lStructs.v from the struct declarations of package a2l.

usage: gen_structs.py REPO_A2L_DIR OUT_DIR

Every field declaration must be of the form "name type"; a type that is not
known stops the script.
"""
import glob, os, re, sys

src_dir, out_dir = sys.argv[1], sys.argv[2]
STRUCT, NAMED, RESULT = {}, {}, []
for path in sorted(glob.glob(os.path.join(src_dir, '*.go'))):
    if path.endswith('_test.go'):
        continue
    name = os.path.basename(path)
    lines = open(path).read().split('\n')
    i = 0
    while i < len(lines):
        l = lines[i]
        m = re.match(r'type (\w+) struct \{$', l)
        if m:
            first, fields, comment = i + 1, [], False
            i += 1
            while lines[i] != '}':
                s = lines[i].strip()
                i += 1
                if comment:
                    comment = '*/' not in s
                    continue
                if s.startswith('/*'):
                    comment = '*/' not in s
                    continue
                s = re.sub(r'\s*//.*$', '', s)
                if not s:
                    continue
                p = s.split()
                assert len(p) == 2 and re.match(r'\w+$', p[0]), (name, i, s)
                fields.append((p[0], p[1]))
            STRUCT[m.group(1)] = (name, first, i + 1, fields)
        m = re.match(r'type (\w+) (\w+)$', l)
        if m:
            NAMED[m.group(1)] = m.group(2)
        m = re.match(r'func (parse\w+)\(tok \*tokenGenerator\) \((\w+), error\) \{$', l)
        if m and m.group(1) != 'parseModuleMultithreaded':
            RESULT.append((m.group(1), m.group(2)))
        i += 1

STRUCT.pop('tokenGenerator')
BASE = {'bool': 'GBool', 'string': 'GStr', 'float64': 'GFloat', 'uint16': 'GUint 16', 'uint32': 'GUint 32',
        'int16': 'GSint 16', 'int32': 'GSint 32', 'interface{}': 'GAny', 'error': 'GError'}
ORDER = []

def arg(t):
    return t if ' ' not in t else '(' + t + ')'

def ty(t):
    m = re.match(r'\[\](.+)$', t)
    if m:
        return 'GSlice ' + arg(ty(m.group(1)))
    m = re.match(r'\[(\d+)\](.+)$', t)
    if m:
        return 'GArray %s %s' % (m.group(1), arg(ty(m.group(2))))
    m = re.match(r'map\[string\](.+)$', t)
    if m:
        return 'GMap ' + arg(ty(m.group(1)))
    m = re.match(r'map\[uint16\](.+)$', t)
    if m:
        return 'GNumbered ' + arg(ty(m.group(1)))
    if t in BASE:
        return BASE[t]
    if t in NAMED:
        return ty(NAMED[t])
    need(t)
    return 'type_' + t

def need(t):
    if t in [o[0] for o in ORDER]:
        return
    name, first, last, fields = STRUCT[t]
    body = ['(%s, %s)' % ('"' + f + '"', ty(x)) for f, x in fields]
    ORDER.append((t, name, first, last, body))

for t in sorted(STRUCT):
    need(t)
out = ['(** The struct declarations of package a2l.  Written by tools/gen_structs.py. *)',
       'From Coq Require Import String List NArith.', 'From Verif Require Import GoTypes.', 'Import ListNotations.', 'Local Open Scope string_scope.', 'Local Open Scope list_scope.', '']
for t, name, first, last, body in ORDER:
    out.append('(** a2l/%s %d-%d *)' % (name, first, last))
    out.append('Definition type_%s : gty := GStruct [' % t)
    out.append(';\n'.join('  ' + x for x in body) + '].')
out.append('')
out.append('(** What the parsers return. *)')
out.append('Definition results : list (string * gty) := [')
out.append(';\n'.join('  ("%s", %s)' % (f, ty(t)) for f, t in RESULT) + '].')
open(os.path.join(out_dir, 'A2lStructs.v'), 'w').write('\n'.join(out) + '\n')
