#!/usr/bin/env python3
"""Generates rocq/theories/ViableData.v: how what has been read in each state of the
automaton of /repo/ast/y.go can be continued to a complete text.  Nothing here is
trusted: Viable.v checks it."""
import sys
sys.argv=sys.argv[:1]
sys.path.insert(0,'/verif/tools')
from gen_items import *
import re as _re
cd=open('/verif/rocq/theories/CertData.v').read()
body=cd.split('Definition preds')[1].split('].\n')[0]
preds=[[int(x) for x in _re.findall(r'\d+',l)] for l in _re.findall(r'\[([\d; ]*)\]',body.split(':= [')[1]+']')]
assert len(preds)==NS,len(preds)
E=[(p,q) for q in range(NS) for p in preds[q]]
# LR(0) item sets
I=[set() for _ in range(NS)]
def closure(k):
    k=set(k); w=list(k)
    while w:
        r,d=w.pop(); ss=prods[r][1]
        if d<len(ss) and ss[d]<0:
            for r2 in byl[-ss[d]]:
                if (r2,0) not in k: k.add((r2,0)); w.append((r2,0))
    return k
I[0]=closure({(r,0) for r in byl[34]})
ch=True
while ch:
    ch=False
    for p,q in E:
        n={(r,d+1) for (r,d) in I[p] if d<len(prods[r][1]) and prods[r][1][d]==Chk[q]}
        n=closure(n)
        if not n<=I[q]: I[q]|=n; ch=True
for p,q in E:
    for r,d in I[q]:
        if d>0: assert (r,d-1) in I[p] and prods[r][1][d-1]==Chk[q],(p,q,r,d)
# shortest words without signs
SIGN={tokno(43),tokno(45)}
best={}
ch=True
while ch:
    ch=False
    for r in range(1,NP+1):
        A,ss=prods[r]
        if any(x in SIGN for x in ss) or any(x<0 and -x not in best for x in ss): continue
        l=sum(1 if x>0 else best[-x][0] for x in ss)
        h=1+max([best[-x][2] for x in ss if x<0],default=0)
        if A not in best or (l,h)<(best[A][0],best[A][2]): best[A]=(l,r,h); ch=True
assert len(best)==42
def free(r,d): return not any(x in SIGN for x in prods[r][1][d:])
def cost(r,d): return sum(1 if x>0 else best[-x][0] for x in prods[r][1][d:])
# justification of closure nonterminals
just=[{} for _ in range(NS)]; order=[[] for _ in range(NS)]
for s in range(NS):
    done=[]
    if s==0: just[0][34]=(0,0); done.append(34)
    while True:
        c=[(d==0,cost(r,d+1),r,d) for (r,d) in I[s] if d<len(prods[r][1]) and prods[r][1][d]<0 and -prods[r][1][d] not in just[s]
           and free(r,d+1) and (d>0 or prods[r][0] in just[s])]
        if not c: break
        _,_,r,d=min(c); A=-prods[r][1][d]; just[s][A]=(r,d); done.append(A)
    order[s]=done[::-1]   # later entries justify earlier ones
pick=[None]*NS; mid=[set() for _ in range(NS)]; need=[set() for _ in range(NS)]
work=[]
def addm(s,r,d):
    if (r,d) not in mid[s]: mid[s].add((r,d)); work.append((s,r,d))
for s in range(NS):
    c=[(cost(r,d),r,d) for (r,d) in I[s] if (d>0 or s==0 and prods[r][0]==34) and free(r,d)]
    if s==1: pick[s]=(0,0); continue   # a complete module
    assert c,s
    _,r,d=min(c); pick[s]=(r,d); addm(s,r,d)
def addn(s,A):
    if A in need[s]: return
    need[s].add(A)
    assert A in just[s],(s,A)
    if just[s][A]!=(0,0): addm(s,*just[s][A])
while work:
    s,r,d=work.pop()
    if d==0: addn(s,prods[r][0])
    else:
        for p in preds[s]: addm(p,r,d-1)
if __name__=='__main__':
    print('(** GENERATED by tools/gen_viable.py from ast/y.go and Grammar.v.  Checked in Viable.v. *)')
    print('From Verif Require Import Bytes.\n')
    print('(** For every nonterminal a production that leads to a short word. *)')
    print('Definition shortest : list Z := ['+'; '.join(str(best[A][1]) for A in range(1,43))+'].\n')
    print('(** For every state an item (production, dot) in which it can be left. *)')
    print('Definition picks : list (Z * Z) := ['+'; '.join('(%d, %d)'%x for x in pick)+'].\n')
    print('(** For every state the items used. *)')
    print('Definition mids : list (list (Z * Z)) := [\n'+';\n'.join('  ['+'; '.join('(%d, %d)'%x for x in sorted(m))+']' for m in mid)+'].\n')
    print('(** For every state the nonterminals that can begin there, each with an item that\n    has it behind the dot; that item itself begins with a later one of the list. *)')
    print('Definition starts : list (list (Z * (Z * Z))) := [\n'+';\n'.join('  ['+'; '.join('(%d, (%d, %d))'%(A,*just[s][A]) for A in order[s] if A in need[s])+']' for s in range(NS))+'].')
