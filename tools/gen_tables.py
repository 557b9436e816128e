#!/usr/bin/env python3
"""Generates rocq/theories/Tables.v from the arrays of /repo/ast/y.go."""
import re
src=open('/repo/ast/y.go',encoding='utf8').read()
lines=src.split('\n')
print('(** GENERATED by tools/gen_tables.py from ast/y.go: the parse tables, verbatim. *)')
print('From Verif Require Import Bytes.\n')
for n in 'yyExca yyAct yyPact yyPgo yyR1 yyR2 yyChk yyDef yyTok1 yyTok2 yyTok3'.split():
    m=re.search(r'var '+n+r' = \[\.\.\.\]\w+\{(.*?)\n\}',src,re.S)
    a=re.findall(r'-?\d+',m.group(1))
    ln=src[:m.start()].count('\n')+1
    print('(** y.go:%d *)'%ln)
    print('Definition %s : list Z := ['%n)
    print(';\n'.join('  '+'; '.join(a[i:i+16]) for i in range(0,len(a),16)))
    print('].\n')
print('(** y.go:183, 185, 157, 158, 429. *)')
print('Definition yyPrivate : Z := %s.'%re.search(r'const yyPrivate = (\d+)',src).group(1))
print('Definition yyLast : Z := %s.'%re.search(r'const yyLast = (\d+)',src).group(1))
print('Definition yyEofCode : Z := %s.'%re.search(r'const yyEofCode = (\d+)',src).group(1))
print('Definition yyErrCode : Z := %s.'%re.search(r'const yyErrCode = (\d+)',src).group(1))
print('Definition yyFlag : Z := %s.'%re.search(r'const yyFlag = (-?\d+)',src).group(1))
