#!/usr/bin/env python3
"""Prints the table [switch] of ValuesModel.v from calib_data.go and the
component readers (run in the directory of the repository)."""
import glob
import re

src = {}
for f in glob.glob("*.go"):
    for m in re.finditer(r"^func [^\n]*?\b(get\w+)\([^\n]*\{$(.*?)^}", open(f).read(), re.M | re.S):
        src[m.group(1)] = m.group(2)

body = src["getValuesFromHex"]
body = body[body.index("for _, field"):]
body = re.sub(r"/\*.*?\*/", "", body, flags=re.S)


def only(names):
    assert len(set(names)) == 1, names
    return names[0]


def component(text, member="Datatype"):
    return only(re.findall(r"rl\.(\w+)\." + member, text))


rows = []
for m in re.finditer(r'case "(\w+)":\n(.*?)(?=\n\t\tcase |\n\t\tdefault)', body, re.S):
    name, text = m.groups()
    call = re.search(r"(?:cv\.(\w+), )?err = c[dv]\.(get\w+)\(", text)
    if not call:
        rows.append(f'("{name}", ALog)')
        continue
    target, fn = call.groups()
    t = src[fn]
    if fn == "getFncValues":
        rows.append(f'("{name}", AFnc "{target}")')
    elif fn == "getReserved":
        rows.append(f'("{name}", AReserved "' + component(t, "DataSize") + '")')
    elif fn == "getIdentification":
        rows.append(f'("{name}", AIdent "{target}" "{component(t)}")')
    elif "getAxisPoints" in fn:
        fix = only(re.findall(r"rl\.(\w+)\.NumberOfAxisPoints", t))
        no = only(re.findall(r"cv\.(\w+)", t))
        rows.append(f'("{name}", AAxis "{target}" "{fix}" "{no}" "{component(t)}")')
    else:
        rows.append(f'("{name}", AInt "{target}" "{component(t)}")')
print("Definition switch : list (string * action) := [\n  " + ";\n  ".join(rows) + "]%string.")
