#!/usr/bin/env python3
"""Prints the tables of A2lLayoutModel.v from a2l/record_layout.go.

Every if block of GetRecordLayoutRelativePositions and every case of
GetDatatypeByFieldName has the same shape; the names that occur in it are
printed separately, so that a block with mixed names is visible in the table."""
import re, sys
src = open(sys.argv[1] if len(sys.argv) > 1 else '/repo/a2l/record_layout.go').read()
body = src[src.index(') GetRecordLayoutRelativePositions()'):src.index('// GetDatatypeByFieldName')]
blk = re.compile(r'''	if rl\.(\w+)\.(\w+) \{
		field, exists := order\[rl\.(\w+)\.(\w+)\]
		if exists \{
			err = errors\.New\("position set twice in RecordLayout " \+ rl\.Name \+ " for " \+ field \+ " and \w+"\)
			log\.Err\(err\)\.Msg\("recordLayout relative positions could not be determined"\)
			return order, err
		\}
		order\[rl\.(\w+)\.(\w+)\] = "(\w+)"
	\}
''')
rows = blk.findall(body)
rest = blk.sub('', body)
print('(*', re.sub(r'\s+', ' ', rest).replace('(*', '( *').replace('"', "'"), '*)')
print('Definition blocks : list block := [')
print(';\n'.join('  Block ("%s", "%s") ("%s", "%s") ("%s", "%s") "%s"' % r for r in rows) + ']%string.')
body = src[src.index('func (rl *RecordLayout) GetDatatypeByFieldName'):]
cas = re.compile(r'''	case "(\w+)":
		if !rl\.(\w+)\.(\w+) \{
			err := errors\.New\("no datatype set for " \+ name \+ " in record layout " \+ rl\.Name\)
			log\.Err\(err\)\.Msg\("could not get datatype"\)
			return undefinedDatatype, err
		\}
		return rl\.(\w+)\.(\w+), nil
''')
rows = cas.findall(body)
rest = cas.sub('', body)
print('(*', re.sub(r'\s+', ' ', rest).replace('(*', '( *').replace('"', "'"), '*)')
print('Definition cases : list dcase := [')
print(';\n'.join('  DCase "%s" ("%s", "%s") ("%s", "%s")' % r for r in rows) + ']%string.')
