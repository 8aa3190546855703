#!/usr/bin/env python3
"""Prints RepoTests.v: the unit tests of /repo/a2l (*_test.go) as examples on the model.

usage: gen_tests.py /repo/a2l > ../rocq/theories/RepoTests.v
Stops at every test of a parser that it does not understand."""
import re, sys, os, glob

root = sys.argv[1]
const = {}
for line in open(os.path.join(root, 'tokens.go')):
    m = re.match(r'const (\w+)\s*=\s*"(.*)"', line)
    if m:
        const[m.group(1)] = m.group(2)

def token(s):
    s = s.strip()
    if s.startswith('"'):
        assert s.endswith('"') and '\\' not in s, s
        return s[1:-1]
    return const[s]

print('''(** The unit tests of the parsers in the test files of /repo/a2l, run on the model.  Printed by
    tools/gen_tests.py.  These are tests of the model, not theorems: each one says that the
    model gives an error exactly if the test asks for one. *)
From Coq Require Import String List.
From Verif Require Import GoBase A2lIR A2lTokens A2lParsers StrconvModel.
Import ListNotations.
Local Open Scope string_scope.

(** parseX(&tok) with tok.index = 0; whether there is an error *)
Definition fails (g : fn) (toks : list string) : option bool :=
  match call isKeyword (map b toks) ParseFloat 50 g 0 with Ret _ e _ => Some e | _ => None end.
''')
n = 0
for f in sorted(glob.glob(os.path.join(root, '*_test.go'))):
    text = open(f).read()
    first = True
    for m in re.finditer(r'^func (Test\w+)\(t \*testing\.T\) \{\n(.*?)^\}', text, re.S | re.M):
        name, body = m.groups()
        if 'ParseFromFile' in body:
            continue
        line = text[:m.start()].count('\n') + 1
        toks = re.findall(r'tokenList = \[\]string\{(.*?)\}\n', body, re.S)
        call = re.findall(r'_, err :?= (parse\w+)\(&tok\)', body)
        cond = re.findall(r'if err (==|!=) nil \{\s*t\.Fatalf', body)
        assert len(toks) == len(call) == len(cond) == 1, (f, name)
        items = [token(x) for x in re.findall(r'"[^"]*"|\w+', toks[0])]
        if first:
            print('(** %s *)' % os.path.basename(f))
            first = False
        err = 'true' if cond[0] == '==' else 'false'
        print('Example %s : fails %s [%s] = Some %s. Proof. vm_compute. reflexivity. Qed. (* line %d *)' %
              (name, call[0], '; '.join('"%s"' % t for t in items), err, line))
        n += 1
sys.stderr.write('%d tests\n' % n)
