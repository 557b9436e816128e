#!/usr/bin/env python3
"""Generate rocq/theories/Tests.v: the expectations of ast/ast_test.go as
computed examples of the model (validation of the model, not proofs)."""
import re, json
src = open('/repo/ast/ast_test.go', encoding='utf-8').read()
# split in pieces starting at each "code := `"
parts = re.split(r'code := `', src)[1:]
out = []
def coq(s):
    assert '\\' not in s or True
    return 'B "' + s.replace('"', '""') + '"'
def goq(s):
    return json.loads('"' + s.replace('\\\'', "'") + '"')
n = 0
for p in parts:
    code, rest = p.split('`', 1)
    n += 1
    rest = re.sub(r'(?m)^\s*//.*\n', '', rest)
    ms = []
    m = re.search(r'assert\.EqualError\(t, err, "((?:[^"\\]|\\.)*)"\)', rest)
    if m: ms.append('err_is (%s)' % coq(goq(m.group(1))))
    elif 'assert.ErrorContains' in rest:
        m = re.search(r'assert\.ErrorContains\(t, err, "((?:[^"\\]|\\.)*)"\)', rest)
        ms.append('err_contains (%s)' % coq(goq(m.group(1))))
    elif re.search(r'^\s*assert\.Error\(t, err\)', rest, re.M): ms.append('err_some')
    elif 'assert.NoError' in rest: ms.append('no_err')
    m = re.search(r'PrintConf\{(OneLine: true|Margin: \d)\}\)\s*\n(?:\s*//.*\n)?\s*assert\.Equal\(t, "((?:[^"\\]|\\.)*)", (strings\.TrimSpace|deleteEmptyLine|normalize)\(p\)\)', rest)
    if m:
        conf = 'Conf 0 true' if m.group(1).startswith('One') else 'Conf %s false' % m.group(1)[-1]
        f = {'strings.TrimSpace': 'trim', 'deleteEmptyLine': 'delete_empty', 'normalize': 'normalize'}[m.group(3)]
        ms.append('prints (%s) %s (%s)' % (conf, f, coq(goq(m.group(2)))))
    if 'compareHashes(code, p)' in rest:
        ms.append('same_hash (Conf 4 false)')
    if 'assert.Equal(t, normalize(code), normalize(p))' in rest:
        ms.append('same_norm (Conf 0 true)')
    for k, x in enumerate(ms):
        out.append('Example t%d_%s : %s\n  (%s) = true.\nProof. vm_compute. reflexivity. Qed.' % (n, 'abc'[k], x, coq(code)))
hdr = '''(** Generated by tools/gen_tests.py from ast/ast_test.go: the expectations of the
    project's own tests, evaluated on the model.  This validates the model; it
    is not part of any proof. *)
From Verif Require Import Bytes Utf8 Float64 GoTime Ast Lexer Parser Printer TestLib.

'''
open('/verif/rocq/theories/Tests.v', 'w', encoding='utf-8').write(hdr + '\n'.join(out) + '\n')
print(n, len(out))
