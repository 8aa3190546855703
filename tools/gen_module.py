#!/usr/bin/env python3
"""Prints the tables of A2lModModel.v from a2l/module.go (parseModuleMultithreaded,
collectChannelsMultithreaded, closeChannelsAfterParsing, parseModuleMainLoop).
What remains of the functions once the repeated pieces are taken out goes to stderr."""
import re, sys
src = open(sys.argv[1] if len(sys.argv) > 1 else '/repo/a2l/module.go').read()
tokens = dict(re.findall(r'(\w+)\s*(?:string)?\s*=\s*"([^"]*)"', open('/repo/a2l/tokens.go').read()))
fun = lambda name: re.search(r'\nfunc %s\(.*?\n}\n' % name, src, re.S).group(0)

main = fun('parseModuleMainLoop')
case = re.compile(r'''		case (\w+):
(?:			var \w+ \w+\n)?			(\w+), err = (\w+)\(&tg\)
			if err != nil \{
				log\.Err\(err\)\.Msg\("[^"]*"\)
				cError <- err
				break forLoop
			\}
			(\w+) <- (\w+)
			log\.Info\(\)\.Msg\("[^"]*"\)
''')
rows = case.findall(main)
for r in rows: assert r[1] == r[4], r
sys.stderr.write(case.sub('', main))
print('Definition rows : list row := [')
print(';\n'.join('  Row "%s" %s "%s"' % (tokens[t], g, c) for t, _, g, c, _ in rows) + ']%string.')

caps = dict(re.findall(r'	(c\w+) := make\(chan \w+, (\w+)\)\n', fun('parseModuleMultithreaded')))
coll = fun('collectChannelsMultithreaded')
put = re.compile(r'''	go func\(wg \*sync\.WaitGroup\) \{
		defer wg\.Done\(\)
		for elem := range (\w+) \{
			myModule\.(\w+)(?:\[elem\.(\w+)\])? = (elem|append\(myModule\.errors, elem\))
		\}
		log\.Info\(\)\.Msg\("[^"]*"\)
	\}\(wgCollectors\)
''')
acts = put.findall(coll)
sys.stderr.write(put.sub('', coll))
print('Definition channels : list (string * (nat * action)) := [')
out = []
for c, f, k, e in acts:
    if e != 'elem':
        assert f == 'errors' and c == 'cError' and caps[c] == 'numProc'; continue
    out.append('  ("%s", (%s, %s))' % (c, caps[c], 'Put_ "%s" "%s"' % (f, k) if k else 'Keep "%s"' % f))
print(';\n'.join(out) + ']%string.')
print(len(acts), file=sys.stderr)
closes = re.findall(r'	close\((\w+)\)\n', fun('closeChannelsAfterParsing'))
print('Definition closing : list string := [' + '; '.join('"%s"' % c for c in closes) + ']%string.')
assert sorted(closes) == sorted(caps) == sorted(a[0] for a in acts)
