#!/usr/bin/env python3
"""Generates rocq/theories/CertData.v: facts about the automaton of /repo/ast/y.go
that are awkward to compute in Coq.  Nothing here is trusted: Cert.v checks it."""
import re
src=open('/repo/ast/y.go',encoding='utf8').read()
def arr(n):
    m=re.search(r'var '+n+r' = \[\.\.\.\]\w+\{(.*?)\n\}',src,re.S)
    return [int(x) for x in re.findall(r'-?\d+',m.group(1))]
Act,Pact,Pgo,R1,R2,Chk,Def,Exca=[arr(k) for k in 'yyAct yyPact yyPgo yyR1 yyR2 yyChk yyDef yyExca'.split()]
LAST=int(re.search(r'const yyLast = (\d+)',src).group(1))
NS=len(Pact); NTOK=67
def shift(s,t):
    n=Pact[s]
    if n<=-1000: return None
    n+=t
    if n<0 or n>=LAST: return None
    n=Act[n]
    return n if Chk[n]==t else None
def goto(s,A):
    g=Pgo[A]; j=g+s+1
    if j>=LAST: return Act[g]
    q=Act[j]
    return q if Chk[q]==-A else Act[g]
def reds(s):
    if Def[s]!=-2: return set() if Def[s]==0 else {Def[s]}
    i=0
    while not(Exca[i]==-1 and Exca[i+1]==s): i+=2
    i+=2; r=set()
    while Exca[i]>=0:
        r.add(Exca[i+1]); i+=2
    r.add(Exca[i+1])
    return {x for x in r if x>0}
E=set();reach={0};work=True
def bases(s,r):
    cur={s}
    for _ in range(R2[r]): cur={p for (p,q) in E if q in cur}
    return cur
while work:
    work=False
    for s in list(reach):
        new={(s,shift(s,t)) for t in range(1,NTOK+1) if shift(s,t) is not None}
        for r in reds(s): new|={(b,goto(b,R1[r])) for b in bases(s,r)}
        for e in new-E: E.add(e); reach.add(e[1]); work=True
# potential: terminals weigh 2, nonterminals 0; h(s)-h(t) >= 1 - 2*(terminals popped)
h=[0]*NS
cons=set()
for s in range(NS):
    for r in reds(s):
        # popped symbols: labels of the states on the path
        cur={s}; sw=0
        for _ in range(R2[r]):
            lab={Chk[c] for c in cur}; assert len(lab)==1
            sw+=2 if lab.pop()>0 else 0
            cur={p for (p,q) in E if q in cur}
        for b in cur: cons.add((s,goto(b,R1[r]),1-sw))
ch=True
while ch:
    ch=False
    for s,t,c in cons:
        if h[s]<h[t]+c: h[s]=h[t]+c; ch=True
C=max(1+2+h[t]-h[s] for s in range(NS) for k in range(1,NTOK+1) for t in [shift(s,k)] if t is not None)
assert C==10,C
print('(** GENERATED by tools/gen_cert.py from ast/y.go.  Checked in Cert.v. *)')
print('From Verif Require Import Bytes.\n')
print('(** For every state of the automaton, the states that can lie below it on the stack. *)')
print('Definition preds : list (list Z) := [')
print(';\n'.join('  ['+'; '.join(map(str,sorted(p for (p,q) in E if q==s)))+']' for s in range(NS)))
print('].\n')
print('(** Potential of the states, for termination. *)')
print('Definition heights : list Z := [')
print(';\n'.join('  '+'; '.join(map(str,h[i:i+24])) for i in range(0,NS,24)))
print('].')
