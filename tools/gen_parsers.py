#!/usr/bin/env python3
"""Write rocq/theories/A2lTokens.v and A2lParsers.v from the Go sources of package a2l.

usage: gen_parsers.py REPO_A2L_DIR OUT_DIR

The sources use a small set of statement forms, one per line (gofmt); every
line must match one of them, anything else stops the script.  Log calls and
comments are left out.  Not translated: parseModuleMultithreaded and the
functions it starts (module.go 327 ff., modelled by hand).
"""
import glob, os, re, sys

src_dir, out_dir = sys.argv[1], sys.argv[2]
SKIP = {'parseModuleMultithreaded'}

# ---- tokens ------------------------------------------------------------
tokens_src = open(os.path.join(src_dir, 'tokens.go')).read()
TOK = {}
for m in re.finditer(r'^const (\w+) = "((?:[^"\\]|\\.)*)"$', tokens_src, re.M):
    TOK[m.group(1)] = m.group(2).replace('\\"', '"')
kw_start = tokens_src.index('var keywordMap')
kw_line = tokens_src[:kw_start].count('\n') + 1
KW = re.findall(r'^\t"([^"]+)":\s+0,$', tokens_src[kw_start:], re.M)

def q(s):
    return '"' + s.replace('"', '""') + '"'

# ---- functions -----------------------------------------------------------
FN = {}      # name -> (file, first, last, lines)
ENUM = {}
CONST = {}   # typed enum constants
for path in sorted(glob.glob(os.path.join(src_dir, '*.go'))):
    if path.endswith('_test.go'):
        continue
    lines = open(path).read().split('\n')
    i = 0
    while i < len(lines):
        m = re.match(r'func (parse\w+)\(tok \*tokenGenerator\) \((\w+), error\) \{$', lines[i])
        if m:
            j = i + 1
            while lines[j] != '}':
                j += 1
            name = m.group(1)
            (ENUM if name.endswith('Enum') else FN)[name] = (os.path.basename(path), i + 1, j + 1, lines[i+1:j])
            i = j
        i += 1
for m in re.finditer(r'^\t(\w+)\s+(?:\w+Enum )?\s*= (\w+Token|"\w+")$', open(os.path.join(src_dir, 'enums.go')).read(), re.M):
    v = m.group(2)
    CONST[m.group(1)] = TOK[v] if v in TOK else v.strip('"')
for s in SKIP:
    FN.pop(s, None)

class Unknown(Exception):
    pass

def clean(lines):
    out = []
    for l in lines:
        s = l.strip()
        s = re.sub(r'\s*//.*$', '', s) if '"' not in s else s
        if not s or s.startswith('log.'):
            continue
        out.append(s)
    return out

class P:
    """Recursive descent over lines."""
    def __init__(self, lines):
        self.l, self.i = lines, 0
    def peek(self):
        return self.l[self.i] if self.i < len(self.l) else None
    def take(self):
        self.i += 1
        return self.l[self.i - 1]

def tokname(t):
    return TOK[t]

def cond(c, x):
    parts = c.split(' || ')
    if len(parts) > 1:
        r = cond(parts[-1], x)
        for p in reversed(parts[:-1]):
            r = f'(Or {cond(p, x)} {r})'
        return r
    m = re.fullmatch(r'tok\.current\(\) == (\w+)', c)
    if m: return f'(CurIs {q(tokname(m.group(1)))})'
    if c == 'isKeyword(tok.current())': return 'CurKw'
    m = re.fullmatch(r'!(\w+)\.(\w+)', c)
    if m and m.group(1) == x: return f'(NotSet {q(m.group(2))})'
    m = re.fullmatch(r'len\((\w+)\.(\w+)\) == (\d+)', c)
    if m and m.group(1) == x: return f'(LenIs {q(m.group(2))} {m.group(3)})'
    m = re.fullmatch(r'uint16\(len\((\w+)\.(\w+)\)\) == (\w+)\.(\w+)', c)
    if m and m.group(1) == x and m.group(3) == x: return f'(Len16Is {q(m.group(2))} {q(m.group(4))})'
    if c == 'err != nil': return 'ErrSet'
    raise Unknown('condition ' + c)

def ifchain(p, head, x, ctx):
    c = re.fullmatch(r'if (.*) \{', head).group(1)
    m = re.fullmatch(r'tok\.next\(\) != (\w+)', c)
    a = stmts(p, x, ctx)
    end = p.take()
    if end == '}':
        o = []
    elif end == '} else {':
        o = stmts(p, x, ctx)
        if p.take() != '}': raise Unknown('else end')
    else:
        m2 = re.fullmatch(r'\} else (if .* \{)', end)
        if not m2: raise Unknown(end)
        o = [ifchain(p, m2.group(1), x, ctx)]
    if c == 'useMultithreading':
        return ('inline', o)
    if m:
        return ('switch', 'FromNext', [(tokname(m.group(1)), o)], a)
    return ('if', cond(c, x), a, o)

def stmts(p, x, ctx):
    out = []
    while True:
        s = p.peek()
        if s is None or s.startswith('}') or s.startswith('case ') or s == 'default:':
            return out
        p.take()
        def add(t): out.append(('s', t))
        if s == 'tok.next()': add('Next'); continue
        if s == 'tok.previous()': add('Prev'); continue
        if s == 'break forLoop': add('Break'); continue
        if re.fullmatch(r'err = errors\.New\(.*\)', s): add('Raise'); continue
        m = re.fullmatch(r'var (buf\w*) (\w+)', s)
        if m: ctx[m.group(1)] = m.group(2); continue
        m = re.fullmatch(r'(\w+)\.(\w+) = true', s)
        if m and m.group(1) == x: add(f'Set_ {q(m.group(2))} Tru'); continue
        m = re.fullmatch(r'(\w+)\.(\w+) = tok\.current\(\)', s)
        if m and m.group(1) == x: add(f'Set_ {q(m.group(2))} Cur'); continue
        m = re.fullmatch(r'(\w+)\.(\w+) = (u?int)(\d+)\((buf)\)', s)
        if m and m.group(1) == x:
            if ctx.get('num') != (m.group(3), m.group(4)): raise Unknown('size ' + s)
            add(f'Set_ {q(m.group(2))} (Var "buf")'); continue
        m = re.fullmatch(r'(\w+)\.(\w+) = (buf)', s)
        if m and m.group(1) == x: add(f'Set_ {q(m.group(2))} (Var "buf")'); continue
        m = re.fullmatch(r'(\w+)\.(\w+) = (\w+)', s)
        if m and m.group(1) == x and m.group(3) in CONST: add(f'Set_ {q(m.group(2))} (Lit {q(CONST[m.group(3)])})'); continue
        m = re.fullmatch(r'(\w+)\.(\w+) = (\w+)\.(\w+) \+ spaceToken \+ tok\.current\(\)', s)
        if m and m.group(1) == x == m.group(3) and m.group(2) == m.group(4): add(f'Set_ {q(m.group(2))} (CatCur {q(m.group(2))})'); continue
        m = re.fullmatch(r'(\w+)\.(\w+) = append\((\w+)\.(\w+), (.*)\)(?: //.*)?', s)
        if m and m.group(1) == x == m.group(3) and m.group(2) == m.group(4):
            e = m.group(5)
            if e == 'buf': add(f'App {q(m.group(2))} (Var "buf")'); continue
            if e == 'tok.current()': add(f'App {q(m.group(2))} Cur'); continue
            m2 = re.fullmatch(r'(u?int)(\d+)\(buf\)', e)
            if m2 and ctx.get('num') == (m2.group(1), m2.group(2)): add(f'App {q(m.group(2))} (Var "buf")'); continue
        m = re.fullmatch(r'(\w+)\.(\w+) = make\(map\[string\]\w+, \d+\)', s)
        if m and m.group(1) == x: add(f'Set_ {q(m.group(2))} EmptyMap'); continue
        m = re.fullmatch(r'(\w+)\.(\w+)\[(buf\w*)\.(\w+)\] = (buf\w*)', s)
        if m and m.group(1) == x and m.group(3) == m.group(5): add(f'Put {q(m.group(2))} {q(m.group(3))} {q(m.group(4))}'); continue
        m = re.fullmatch(r'buf, err = strconv\.Parse(Uint|Int)\(tok\.current\(\), 10, (\d+)\)', s)
        if m:
            ctx['num'] = ('uint' if m.group(1) == 'Uint' else 'int', m.group(2))
            add(f'Num "buf" (N{m.group(1)} {m.group(2)}) FromCur'); errcheck(p, ctx); continue
        m = re.fullmatch(r'buf, err = strconv\.ParseFloat\(tok\.(current|next)\(\), 64\)', s)
        if m: ctx['num'] = ('float', '64'); add('Num "buf" NFloat ' + ('FromCur' if m.group(1) == 'current' else 'FromNext')); errcheck(p, ctx); continue
        m = re.fullmatch(r'(\w+)\.(\w+), err = (parse\w+)\(tok\)', s)
        if m and m.group(1) == x: ctx['calls'].add(m.group(3)); add(f'CallF {q(m.group(2))} {m.group(3)}'); continue
        m = re.fullmatch(r'(buf\w*), err = (parse\w+)\(tok\)', s)
        if m:
            if m.group(2) not in SKIP: ctx['calls'].add(m.group(2))
            add(f'CallV {q(m.group(1))} {m.group(2)}'); continue
        m = re.fullmatch(r'for i := 0; i < (\d+); i\+\+ \{', s)
        if m:
            b = p.take(); e = p.take()
            m2 = re.fullmatch(r'(\w+)\.(\w+)\[i\] = tok\.current\(\)', b)
            if m2 and m2.group(1) == x and e == '}': add(f'Fill {q(m2.group(2))} {m.group(1)} Cur'); continue
        m = re.fullmatch(r'switch tok\.(next|current)\(\) \{', s)
        if m:
            cs, d = [], []
            while True:
                h = p.take()
                if h == '}': break
                if h == 'default:': d = stmts(p, x, ctx); continue
                m2 = re.fullmatch(r'case (\w+):', h)
                if not m2: raise Unknown(h)
                cs.append((tokname(m2.group(1)), stmts(p, x, ctx)))
            out.append(('switch', 'FromNext' if m.group(1) == 'next' else 'FromCur', cs, d)); continue
        if s.startswith('if '):
            r = ifchain(p, s, x, ctx)
            if r[0] == 'inline': out.extend(r[1])
            else: out.append(r)
            continue
        raise Unknown(s)

def errcheck(p, ctx):
    """a failed conversion is not used: the next statement tests err and leaves"""
    if p.peek() != 'if err != nil {' : raise Unknown('unchecked number: ' + str(p.peek()))

def short(b):
    """the block on one line, or None"""
    if not b: return 'Skip'
    ts = []
    for s in b:
        if s[0] == 's': ts.append(s[1])
        elif s[0] == 'if' and short(s[2]) and short(s[3]): ts.append(f'If {s[1]} {short(s[2])} {short(s[3])}')
        else: return None
    r = '{{ ' + '; '.join(ts) + ' }}'
    return r if len(r) <= 130 else None

def par(b, ind):
    r = short(b)
    if r: return r
    pad = '  ' * ind
    out = [fmt(s, ind) for s in b]
    return '{{ ' + (';\n' + pad + '   ').join(out) + ' }}'

def fmt(s, ind):
    pad = '  ' * (ind + 1)
    if s[0] == 's': return s[1]
    if s[0] == 'if':
        if short([s]): return short([s])[3:-3]
        # an else-if chain stays at its indentation
        return f'If {s[1]} {par(s[2], ind + 1)}\n{pad}{par(s[3], ind)}'
    if s[0] == 'switch':
        r = f'Switch {s[1]} (\n'
        n = 0
        for t, k in s[2]:
            r += f'{pad}Case {q(t)} {par(k, ind + 2)} (\n'
            n += 1
        r += f'{pad}Default' + ')' * n + f')\n{pad}{par(s[3], ind + 1)}'
        return r
    raise Unknown(s)

def translate(name):
    f, first, last, lines = FN[name]
    ls = [l for l in clean(lines) if l != 'var err error']
    m = re.fullmatch(r'(\w+) := \w+\{\}', ls[0])
    x = m.group(1)
    ret = ls[-1]
    if ret not in (f'return {x}, err', f'return {x}, nil'): raise Unknown(ret)
    if ret.endswith('nil'): raise Unknown('nil return')
    ls = ls[1:-1]
    ctx = {'calls': set()}
    if 'forLoop:' in ls:
        k = ls.index('forLoop:')
        pre = stmts(P(ls[:k]), x, ctx)
        if ls[k+1] != 'for {' or ls[-1] != '}': raise Unknown('loop')
        p = P(ls[k+2:-1])
        body = stmts(p, x, ctx)
        if p.peek() is not None: raise Unknown('rest ' + str(p.peek()))
        code = f'Loop\n  {par(pre, 1)}\n  {par(body, 1)}'
    else:
        p = P(ls)
        body = stmts(p, x, ctx)
        if p.peek() is not None: raise Unknown('rest ' + str(p.peek()))
        code = f'Straight\n  {par(body, 1)}'
    return code, ctx['calls']

def translate_enum(name):
    f, first, last, lines = ENUM[name]
    ls = clean(lines)
    sw = [l for l in ls if l.startswith('switch')]
    assert len(sw) == 1
    adv = {'switch tok.current() {': 'false', 'switch tok.next() {': 'true'}[sw[0]]
    k = ls.index(sw[0]); tab = []; i = k + 1
    v = re.fullmatch(r'(\w+) := undefined\w+', ls[0]).group(1)
    while ls[i] != 'default:':
        c = re.fullmatch(r'case (\w+|"\w+"):', ls[i]).group(1)
        a = re.fullmatch(r'(\w+) = (\w+)', ls[i+1]); assert a.group(1) == v
        tab.append((TOK[c] if c in TOK else c.strip('"'), CONST[a.group(2)])); i += 2
    assert ls[i+1].startswith('err = errors.New') and ls[i+2] == '}' and ls[i+3] == f'return {v}, err'
    return f'Enum {adv} [' + '; '.join(f'({q(c)}, {q(a)})' for c, a in tab) + ']'

codes, calls = {}, {}
for n in FN:
    try:
        codes[n], calls[n] = translate(n)
    except Exception as e:
        sys.exit(f'{n}: {e!r}')
order, seen = [], set()
def visit(n, stack=()):
    if n in stack: sys.exit('recursion ' + n)
    if n in seen or n in ENUM: return
    for c in sorted(calls[n]): visit(c, stack + (n,))
    seen.add(n); order.append(n)
for n in FN: visit(n)

with open(os.path.join(out_dir, 'A2lTokens.v'), 'w') as o:
    o.write('''(** The keywords (tokens.go %d ff.).  Written by tools/gen_parsers.py. *)
From Coq Require Import String List.
From Verif Require Import GoBase.
Import ListNotations.
Local Open Scope string_scope.

Definition keywords : list string := [
''' % kw_line)
    o.write(';\n'.join('  ' + q(k) for k in KW))
    o.write('].\n\n(** token_generator.go 325-330 *)\nDefinition isKeyword (s : bytes) : bool := existsb (fun k => beqb s (b k)) keywords.\n')

with open(os.path.join(out_dir, 'A2lParsers.v'), 'w') as o:
    o.write('''(** The parsers of package a2l, statement by statement in the language of
    A2lIR.v.  Written by tools/gen_parsers.py, which leaves out log calls and
    stops at every statement it does not know.  parseProject is the version for
    useMultithreading = false. *)
From Coq Require Import String List NArith.
From Verif Require Import GoBase A2lIR.
Import ListNotations.
Local Open Scope string_scope.

''')
    for n in sorted(ENUM, key=lambda n: ENUM[n][1]):
        f, a, z, _ = ENUM[n]
        o.write(f'(** {f} {a}-{z} *)\nDefinition {n} : fn :=\n  {translate_enum(n)}.\n\n')
    for n in order:
        f, a, z, _ = FN[n]
        o.write(f'(** {f} {a}-{z} *)\nDefinition {n} : fn := {codes[n]}.\n\n')
    o.write('(** All of them. *)\nDefinition allParsers : list (string * fn) := [\n')
    names = sorted(ENUM, key=lambda n: ENUM[n][1]) + order
    o.write(';\n'.join(f'  ("{n}", {n})' for n in names) + '].\n')
print(len(ENUM), 'enumerations,', len(order), 'objects')
