#!/usr/bin/env python3
"""Write theories/SpecTests.v: the examples of /repo/spec.txt and of the repository's own
tests, as tests of the model (each is run by the kernel)."""
import re, ast, sys
OUT = sys.argv[1]
t = open('/repo/spec.txt', encoding='utf-8').read().replace('\r\n', '\n')
t = re.sub(re.compile("^<!-- END TESTS -->(.|[\n])*", flags=re.M), '', t)
ms = re.findall(re.compile(
    r'^`{32} example\n([\s\S]*?)^\.\n([\s\S]*?)^`{32}$|^#{1,6} *(.*)$', re.M), t)
ex = [(m[0].replace('→', '\t'), m[1].replace('→', '\t')) for m in ms if m[2] == '']
# rst tests: src_markdown / expected_rst constants
rst = []
for fn in ast.walk(ast.parse(open('/repo/commonmark/tests/rst_tests.py').read())):
    if isinstance(fn, ast.FunctionDef) and fn.name.startswith('test_'):
        v = {a.targets[0].id: a.value.value for a in fn.body if isinstance(a, ast.Assign)}
        rst.append((v['src_markdown'], v['expected_rst']))

def lit(s):
    return 'w "' + s.replace('"', '""') + '"'

o = []
o.append('''(** * Tests of the model (generated by tools/gen_spectests.py)

    The %d examples of spec.txt, the %d examples of rst_tests.py and some of unit_tests.py,
    run on the model.  These are tests, not proofs: they check the model against the expected
    behaviour of the code. *)
From Verif Require Import Base Regex Common NormRef Node Inlines Blocks Html Rst Dump Main.

(** UTF-8 decoding of a literal *)
Fixpoint utf8 (l : str) : str :=
  match l with
  | [] => []
  | a :: l1 =>
      if N.ltb a 128 then a :: utf8 l1
      else match l1 with
           | [] => []
           | b :: l2 =>
               if N.ltb a 224 then ((a - 192) * 64 + (b - 128))%%N :: utf8 l2
               else match l2 with
                    | [] => []
                    | c :: l3 =>
                        if N.ltb a 240
                        then ((a - 224) * 4096 + (b - 128) * 64 + (c - 128))%%N :: utf8 l3
                        else match l3 with
                             | [] => []
                             | d :: l4 =>
                                 ((a - 240) * 262144 + (b - 128) * 4096 + (c - 128) * 64 + (d - 128))%%N
                                   :: utf8 l4
                             end
                    end
           end
  end.
Definition w (x : ulit) : str := utf8 (u x).
Arguments w x%%u.
Definition html_ok (e : str * str) : bool :=
  match md_to_html false default_opts (fst e) with Ok s => str_eqb s (snd e) | Err _ => false end.
Definition smart_ok (e : str * str) : bool :=
  match md_to_html true default_opts (fst e) with Ok s => str_eqb s (snd e) | Err _ => false end.
Definition rst_ok (e : str * str) : bool :=
  match (let* t := parse_doc false (fst e) in render_rst t) with Ok s => str_eqb s (snd e) | Err _ => false end.
''' % (len(ex), len(rst)))
B = 50
for i in range(0, len(ex), B):
    part = ex[i:i + B]
    o.append('Definition spec_%d : list (str * str) := [' % (i + 1))
    o.append(';\n'.join('(* %d *) (%s, %s)' % (i + k + 1, lit(a), lit(b)) for k, (a, b) in enumerate(part)))
    o.append('].\nExample spec_%d_ok : map html_ok spec_%d = repeat true %d.\nProof. vm_compute. reflexivity. Qed.\n' % (i + 1, i + 1, len(part)))
o.append('Definition rst_examples : list (str * str) := [')
o.append(';\n'.join('(%s, %s)' % (lit(a), lit(b)) for a, b in rst))
o.append('].\nExample rst_examples_ok : map rst_ok rst_examples = repeat true %d.\nProof. vm_compute. reflexivity. Qed.\n' % len(rst))
un = [('*hello!*', '<p><em>hello!</em></p>\n'), ('<div>†</div>\n', '<div>†</div>\n'),
      ('>     sometext\n>\n\n', '<blockquote>\n<pre><code>sometext\n</code></pre>\n</blockquote>\n'),
      ('[' + '\\' * 200 + '\n', '<p>[' + '\\' * 100 + '</p>\n'), ('[](' * 200 + '\n', '<p>' + '[](' * 200 + '</p>\n')]
o.append('Definition unit_examples : list (str * str) := [')
o.append(';\n'.join('(%s, %s)' % (lit(a), lit(b)) for a, b in un))
o.append('].\nExample unit_examples_ok : map html_ok unit_examples = repeat true %d.\nProof. vm_compute. reflexivity. Qed.\n' % len(un))
o.append('Example smart_example_ok : smart_ok (%s, %s) = true.\nProof. vm_compute. reflexivity. Qed.' % (
    lit('a - b -- c --- d ---- e ----- f'),
    lit('<p>a - b – c — d –– e —– f</p>\n')))
open(OUT, 'w', encoding='utf-8').write('\n'.join(o) + '\n')
