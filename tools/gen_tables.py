#!/usr/bin/env python3
"""Generate rocq/theories/Entities.v from the *text* of /repo (nothing is imported or run)."""
import ast, re, sys, html.entities
out = sys.argv[1]
src = open('/repo/commonmark/entitytrans.py', encoding='utf-8').read()
mod = ast.parse(src)
tabs = {}
for st in mod.body:
    if isinstance(st, ast.Assign) and isinstance(st.targets[0], ast.Name):
        n = st.targets[0].id
        if n in ('_html5', '_invalid_charrefs'):
            tabs[n] = (ast.literal_eval(st.value), st.lineno, st.end_lineno)
        if n == '_invalid_codepoints':
            tabs[n] = (ast.literal_eval(st.value.args[0]), st.lineno, st.end_lineno)
nsrc = open('/repo/commonmark/normalize_reference.py', encoding='utf-8').read()
for st in ast.parse(nsrc).body:
    if isinstance(st, ast.Assign) and isinstance(st.targets[0], ast.Name) and st.targets[0].id == 'XLAT':
        xlat = ast.literal_eval(st.value.args[0]); xl = (st.lineno, st.end_lineno)
def s(x): return '[' + '; '.join(str(ord(c)) for c in x) + ']'
def name(x):
    assert all(32 < ord(c) < 127 and c != '"' for c in x)
    return 'u "%s"' % x
o = open(out, 'w')
w = o.write
w('(** * Tables (generated by tools/gen_tables.py from the text of the source) *)\n')
w('From Verif Require Import Base.\nLocal Open Scope N_scope.\n\n')
t, a, b = tabs['_html5']
w('(** entitytrans.py %d-%d: [_html5] *)\nDefinition html5_table : list (str * str) := Eval vm_compute in [\n' % (a, b))
w(';\n'.join('  (%s, %s)' % (name(k), s(v)) for k, v in t.items()))
w('].\n\n')
t, a, b = tabs['_invalid_charrefs']
w('(** entitytrans.py %d-%d: [_invalid_charrefs] *)\nDefinition invalid_charrefs : list (N * str) := [\n' % (a, b))
w(';\n'.join('  (%d, %s)' % (k, s(v)) for k, v in t.items()))
w('].\n\n')
t, a, b = tabs['_invalid_codepoints']
w('(** entitytrans.py %d-%d: [_invalid_codepoints] *)\nDefinition invalid_codepoints : list N := [\n' % (a, b))
w(';\n'.join('  ' + '; '.join(str(x) for x in t[i:i+16]) for i in range(0, len(t), 16)))
w('].\n\n')
w('(** normalize_reference.py %d-%d: the argument of [_parse_table] *)\nDefinition xlat_text : str := Eval vm_compute in (\n' % xl)
w(' ++\n'.join('  u "%s"' % xlat[i:i+80] for i in range(0, len(xlat), 80)))
w(').\n')
o.close()
print(len(tabs['_html5'][0]), len(tabs['_invalid_charrefs'][0]), len(tabs['_invalid_codepoints'][0]), len(xlat))
print('same as CPython html5:', tabs['_html5'][0] == html.entities.html5)
