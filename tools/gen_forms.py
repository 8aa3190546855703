#!/usr/bin/env python3
"""Writes A2lForms.v: the syntax of the ASAP2 objects as forms of A2lGrammar.v.

usage: gen_forms.py <repo>/a2l <output directory>

The forms come from the struct declarations (not from the parsers): a field with
a companion field <name>Set is a parameter, in the order of declaration; other
fields of struct type are introduced by keywords.  The keyword is the name of
the file that declares the struct, with /begin and /end if the object has
brackets.  What the declarations do not say is in the tables below."""
import re, sys, os, glob

src, out = sys.argv[1], sys.argv[2]

# objects with /begin and /end
BRACKETS = """a2ml annotation annotation_text ar_component axis_descr axis_pts bit_operation blob
calibration_handle calibration_method characteristic compu_method compu_tab compu_vtab compu_vtab_range
def_characteristic dependent_characteristic fix_axis_par_list formula frame function function_list group header
if_data in_measurement instance loc_measurement map_list measurement memory_layout memory_segment mod_common mod_par
module out_measurement overwrite project record_layout ref_characteristic ref_group ref_measurement
structure_component sub_function sub_group transformer transformer_in_object transformer_out_object type_def_axis
type_def_blob type_def_characteristic type_def_measurement type_def_structure unit user_rights var_address
var_characteristic var_criterion var_forbidden_comb variant_coding virtual virtual_characteristic""".split()

# keywords that differ from the file name
NAMES = {'transformer_in_object': 'TRANSFORMER_IN_OBJECTS', 'transformer_out_object': 'TRANSFORMER_OUT_OBJECTS',
         'type_def_axis': 'TYPEDEF_AXIS', 'type_def_blob': 'TYPEDEF_BLOB', 'type_def_characteristic': 'TYPEDEF_CHARACTERISTIC',
         'type_def_measurement': 'TYPEDEF_MEASUREMENT', 'type_def_structure': 'TYPEDEF_STRUCTURE'}

# keywords of fields that are not structs
VALUES = {'calibrationAccess': 'CALIBRATION_ACCESS', 'addressType': 'ADDRESS_TYPE', 'encoding': 'ENCODING',
          'conversion': 'CONVERSION', 'inputQuantity': 'INPUT_QUANTITY'}

# fields of the program that ASAP2 does not have
NOT_ASAP2 = {('axis_pts_4', 'Values'), ('axis_pts_5', 'Values'), ('axis_pts_x', 'Values'), ('axis_pts_y', 'Values'),
             ('axis_pts_z', 'Values'), ('characteristic', 'AddressUint32'), ('module', 'errors'),
             ('record_layout', 'RelativePositions')}

# flags whose name is not that of the field
FLAGS = {('overwrite', 'axisNumer'): 'axisNumberSet'}

# not a parameter although there is a flag
KEYWORDS = {('blob', 'addressType'), ('variant_coding', 'varSeparator')}

# a parameter without a flag
PLAIN = {('symbol_type_link', 'symbolName')}

# counted repetitions: object -> count
COUNTS = {'compu_tab': 'NumberValuePairs', 'compu_vtab': 'NumberValuePairs', 'compu_vtab_range': 'NumberValueTriples'}
# five values
FIVE = {('memory_layout', 'offset'), ('memory_segment', 'offset')}
# texts of several words, and objects whose words may be anything
TEXTS = {('a2ml', 'formatSpecification'), ('annotation_text', 'annotationText')}
ANY = {'a2ml', 'if_data'}

SKIP = {'a2l', 'token_generator'}

def camel(f):
    p = f.split('_')
    return p[0] + ''.join(w.capitalize() for w in p[1:])

def clean(s):
    s = re.sub(r'/\*.*?\*/', '', s, flags=re.S)
    return re.sub(r'//[^\n]*', '', s)

tokens = dict(re.findall(r'^const (\w+) *= *"([^"]*)"', open(os.path.join(src, 'tokens.go')).read(), re.M))
enums = {}
for m in re.finditer(r'^\s*(\w+) +(\w+Enum) = ("[^"]*"|\w+)', clean(open(os.path.join(src, 'enums.go')).read()), re.M):
    t = m.group(3)
    t = t[1:-1] if t[0] == '"' else tokens[t]
    if t: enums.setdefault(m.group(2), []).append(t)

structs, byType, parser = {}, {}, {}
for path in sorted(glob.glob(os.path.join(src, '*.go'))):
    f = os.path.basename(path)[:-3]
    fs = re.findall(r'^func (parse\w+)\(', open(path).read(), re.M)
    same = [g for g in fs if g.lower() == 'parse' + f.replace('_', '')]
    if fs: parser[f] = (same or fs)[0]
    m = re.search(r'^type (\w+) struct \{\n(.*?)^\}', clean(open(path).read()), re.S | re.M)
    if not m or f in SKIP: continue
    structs[f] = [tuple(l.split(None, 1)) for l in m.group(2).split('\n') if l.strip()]
    structs[f] = [(n, ' '.join(t.split())) for n, t in structs[f]]
    byType[m.group(1)] = f

SCALAR = {'string': 'Text', 'uint16': 'Number (NUint 16)', 'uint32': 'Number (NUint 32)', 'int16': 'Number (NInt 16)',
          'int32': 'Number (NInt 32)', 'float64': 'Number NFloat'}

def ptype(f, t):
    if f in ANY: return 'Any'
    if t in SCALAR: return SCALAR[t]
    return 'Choice ' + t[0].lower() + t[1:-4] + 'Texts'

def keyword(f):
    k = NAMES.get(f, f.upper())
    return ('/begin ' if f in BRACKETS else '') + k

def keyField(f):
    for n, t in structs[f]:
        if t == 'string': return n

# What the parsers read instead, where they do not read the declared form.
# name: (reason, items left out, parameters)
NUM16 = 'Number (NUint 16)'
CONV = ['Param One "conversion" None Text'] * 5
READ = {
  'blob': ('no ADDRESS_TYPE', ['ADDRESS_TYPE'], None),
  'instance': ('no ADDRESS_TYPE', ['ADDRESS_TYPE'], None),
  'structure_component': ('no ADDRESS_TYPE', ['ADDRESS_TYPE'], None),
  'type_def_blob': ('no ADDRESS_TYPE', ['ADDRESS_TYPE'], None),
  'type_def_structure': ('no ADDRESS_TYPE', ['ADDRESS_TYPE'], None),
  'characteristic': ('no ENCODING', ['ENCODING'], None),
  'type_def_characteristic': ('no ENCODING', ['ENCODING'], None),
  'overwrite': ('no CONVERSION and INPUT_QUANTITY', ['CONVERSION', 'INPUT_QUANTITY'], None),
  'variant_coding': ('no VAR_SEPARATOR', ['VAR_SEPARATOR'], None),
  'frame': ('every parameter goes to name', [], lambda ps: ['Param One "name" None Text'] * 4),
  'measurement': ('the last five parameters go to conversion', [], lambda ps: ps[:3] + CONV),
  'type_def_measurement': ('the last five parameters go to conversion', [], lambda ps: ps[:3] + CONV),
  'unit': ('the last three parameters go to longIdentifier', [],
           lambda ps: ps[:1] + ['Param One "longIdentifier" (Some "nameSet") Text'] * 3),
  'memory_segment': ('the first offset is taken five times', [],
           lambda ps: ps[:7] + ['Param (Copies 5) "offset" (Some "offsetSet") Text'] + ['Param Nowhere "offset" None Text'] * 4),
  'record_layout': ('no NO_RESCALE_X', ['NO_RESCALE_X'], None),
  'no_rescale_x': ('one parameter', [], lambda ps: ps[:1]),
}
# fixed fields
DEFAULTS = {'blob': ['("addressType", CText "DIRECT")']}
# enumerations of which not all texts are read
CHOICES = {'addrTypeTexts': 'addrTypeRead', 'indexModeTexts': 'indexModeRead'}

def struct(t):
    t = re.sub(r'^(\[\]|map\[string\])', '', t)
    return byType.get(t)

differs = {}
def needsRead(f):
    if f not in differs:
        differs[f] = f in READ or f == 'matrix_dim' or any(
            ('addrTypeTexts' in ptype(f, t) or 'indexModeTexts' in ptype(f, t)) if t.endswith('Enum') and (f, n) not in KEYWORDS
            else struct(t) and keyword(struct(t)) not in READ.get(f, (0, []))[1] and needsRead(struct(t)) for n, t in structs[f])
    return differs[f]

done, order = {}, []
def name(f, read):
    return camel(f) + ('Read' if read and needsRead(f) else 'Form')

def form(f, read):
    if read and not needsRead(f): read = False
    if (f, read) in done: return
    done[f, read] = None
    fields = structs[f]
    names = [n for n, _ in fields]
    reason, drop, params = READ.get(f, ('', [], None)) if read else ('', [], None)
    ps, gs, its, ms, cs = [], [], [], [], []
    keywordOnly = fields == [('value', 'bool'), ('valueSet', 'bool')]
    def sub(g, n, place):
        form(g, read)
        if keyword(g) not in drop: its.append('Item "%s" "%s" %s %s' % (keyword(g), n, place, name(g, read)))
    for n, t in fields:
        if (f, n) in NOT_ASAP2 or n.endswith('Set') or keywordOnly: continue
        flag = FLAGS.get((f, n)) or next((g for g in names if g.endswith('Set') and g.lower() == n.lower() + 'set'), None)
        if (f, n) in KEYWORDS: flag = None
        if (f, n) in FIVE:
            e = t.split(']', 1)[1]
            for i in range(5):
                ps.append('Param Append "%s" %s (%s)' % (n, '(Some "%s")' % flag if i == 4 else 'None', ptype(f, e)))
        elif (f, n) in TEXTS:
            gs.append('Param Concat "%s" None %s' % (n, ptype(f, t))); cs.append(flag)
        elif flag and t.startswith('[]'):
            if f in COUNTS: gs.append('Param Append "%s" (Some "%s") (%s)' % (n, flag, ptype(f, t[2:])))
            else: gs.append('Param Append "%s" None (%s)' % (n, ptype(f, t[2:]))); cs.append(flag)
        elif flag: ps.append('P "%s" "%s" (%s)' % (n, flag, ptype(f, t)))
        elif (f, n) in PLAIN: ps.append('Param One "%s" None (%s)' % (n, ptype(f, t)))
        elif t.startswith('map[string]'):
            ms.append(n); sub(struct(t), n, '(Under "%s")' % keyField(struct(t)))
        elif t.startswith('[]'): sub(struct(t), n, 'Several')
        elif t in byType: sub(byType[t], n, 'Single')
        elif VALUES[n] not in drop: its.append('Item "%s" "%s" Single (Value (%s))' % (VALUES[n], n, ptype(f, t)))
    if params: ps = params(ps)
    L = lambda xs: '[' + '; '.join(xs) + ']'
    def LL(xs): return '[' + ';\n      '.join(xs) + ']'
    if keywordOnly: d = 'Fixed [] [("value", CTrue); ("valueSet", CTrue)]'
    elif f == 'frame_measurement': d = ''
    elif f not in BRACKETS:
        assert not its and not gs, f
        d = 'Fixed ' + LL(ps) + ' []'
    else:
        g = 'NoGroup' if not gs else '(Counted "%s" %s)' % (COUNTS[f], LL(gs)) if f in COUNTS else '(Free %s)' % LL(gs)
        d = 'Block %s\n    %s\n    %s\n    %s\n    "%s" %s' % (
            LL(['"%s"' % m for m in ms]), LL(ps), g, LL(its), keyword(f).replace('/begin', '/end'), L(['("%s", CTrue)' % c for c in cs] + (DEFAULTS.get(f, []) if read else [])))
    if read:
        for x, y in CHOICES.items(): d = d.replace(x, y)
    d = 'Definition %s : form :=\n  %s.' % (name(f, read), d)
    if read and f == 'matrix_dim':
        reason = 'the numbers after the first go to DimY without a flag; a keyword must follow'
        d = 'Definition matrixDimRead : form :=\n  Ahead [P "DimX" "DimXSet" (%s)] [Param One "DimY" None (%s)] [] [].' % (NUM16, NUM16)
    if f == 'frame_measurement':
        d = 'Definition frameMeasurementForm : form :=\n  Ahead [] [Param Append "identifier" None Text] [("identifierSet", CTrue)] ["/end FRAME"; "/begin IF_DATA"].'
    done[f, read] = '(** %s.go%s *)\n%s\n\n' % (f, (', as read: ' + reason if reason else ', as read') if read else '', d)
    order.append((f, read))

for read in (False, True):
    for f in sorted(structs): form(f, read)

w = open(os.path.join(out, 'A2lForms.v'), 'w')
w.write('''(** The syntax of the ASAP2 objects.  Written by tools/gen_forms.py from the
    struct declarations of package a2l. *)
From Coq Require Import String List NArith.
From Verif Require Import GoBase A2lIR A2lGrammar.
Import ListNotations.
Local Open Scope string_scope.

''')
for e, ts in sorted(enums.items()):
    w.write('(** enums.go, type %s *)\nDefinition %sTexts : list string :=\n  [%s].\n\n' % (e, e[0].lower() + e[1:-4], '; '.join('"%s"' % t for t in ts)))
w.write('(** those that parseAddrTypeEnum knows *)\nDefinition addrTypeRead : list string := ["PBYTE"; "PWORD"; "PLONG"; "DIRECT"].\n\n')
w.write('(** those that are not in the list of keywords (tokens.go) *)\nDefinition indexModeRead : list string := ["COLUMN_DIR"; "ROW_DIR"].\n\n')
for x in order: w.write(done[x])
w.write('(** parsers and the forms of their objects *)\nDefinition standardForms : list (string * form) := [\n  %s].\n\n' %
        ';\n  '.join('("%s", %s)' % (parser[f], name(f, False)) for f in sorted(structs)))
w.write('(** what they read *)\nDefinition readForms : list (string * form) := [\n  %s].\n\n' %
        ';\n  '.join('("%s", %s)' % (parser[f], name(f, True)) for f in sorted(structs)))
w.write('(** where the two differ *)\nDefinition misread : list string := [\n  %s].\n' %
        ';\n  '.join('"%s"' % parser[f] for f in sorted(structs) if needsRead(f)))
w.close()
print(sum(not r for _, r in order), 'forms,', sum(r for _, r in order), 'differ')
