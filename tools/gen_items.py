#!/usr/bin/env python3
"""Generates rocq/theories/Items.v: LR(1) items of the automaton of /repo/ast/y.go,
annotated with the operator levels of ast/grammar.y:72-82.  Nothing here is trusted:
Complete.v checks it."""
import re,sys
src=open('/repo/ast/y.go',encoding='utf8').read()
def arr(n):
    m=re.search(r'var '+n+r' = \[\.\.\.\]\w+\{(.*?)\n\}',src,re.S)
    return [int(x) for x in re.findall(r'-?\d+',m.group(1))]
Act,Pact,Pgo,R1,R2,Chk,Def,Exca,Tok1,Tok2=[arr(k) for k in 'yyAct yyPact yyPgo yyR1 yyR2 yyChk yyDef yyExca yyTok1 yyTok2'.split()]
LAST=int(re.search(r'const yyLast = (\d+)',src).group(1))
PRIV=int(re.search(r'const yyPrivate = (\d+)',src).group(1))
NS=len(Pact); NTOK=67
def shift(s,t):
    n=Pact[s]
    if n<=-1000: return None
    n+=t
    if n<0 or n>=LAST: return None
    n=Act[n]
    return n if Chk[n]==t else None
def goto(s,A):
    g=Pgo[A]; j=g+s+1
    if j>=LAST: return Act[g]
    q=Act[j]
    return q if Chk[q]==-A else Act[g]
def default(s,t):
    if Def[s]!=-2: return Def[s]
    i=0
    while not(Exca[i]==-1 and Exca[i+1]==s): i+=2
    i+=2
    while Exca[i]>=0:
        if Exca[i]==t: return Exca[i+1]
        i+=2
    return Exca[i+1]
def action(s,t):
    q=shift(s,t)
    if q is not None: return ('s',q)
    d=default(s,t)
    return ('a',) if d<0 else ('f',) if d==0 else ('r',d)
# grammar
g=open('/verif/rocq/theories/Grammar.v',encoding='utf8').read()
nts=re.findall(r'\| (n_\w+)',g.split('Inductive nonterm')[1].split('.')[0])
prods=[None]
names={}
m=re.search(r'Definition productions.*?:= \[(.*?)\]\.\n',g,re.S)
lx=open('/verif/rocq/theories/Lexer.v',encoding='utf8').read()
for a,b in re.findall(r'Definition (t[A-Z]\w*) := (\d+)\.',lx): names[a]=int(b)
def tokno(c):
    k=0
    if c<=0: k=Tok1[0]
    elif c<len(Tok1): k=Tok1[c]
    elif PRIV<=c<PRIV+len(Tok2): k=Tok2[c-PRIV]
    return k or Tok2[1]
for r,lhs,rhs in re.findall(r'\(\* (\d+) \*\) \((n_\w+), \[(.*?)\]\)(?:;|\s*\]|\Z|\s*$)',m.group(1)+']',re.S):
    ss=[]
    for x in [y.strip() for y in rhs.split('; ')] if rhs.strip() else []:
        if x.startswith('N '): ss.append(-(nts.index(x[2:])+1))
        elif x.startswith('T '): ss.append(tokno(names[x[2:]]))
        else: ss.append(tokno(ord(x[3])))
    assert int(r)==len(prods),(r,len(prods))
    prods.append((nts.index(lhs)+1,ss))
NP=len(prods)-1
assert NP==112,NP
for r in range(1,NP+1): assert R1[r]==prods[r][0] and R2[r]==len(prods[r][1]),r
byl={}
for r in range(1,NP+1): byl.setdefault(prods[r][0],[]).append(r)
# nullable / first
nullable=set(); first={A:0 for A in range(1,43)}
ch=True
while ch:
    ch=False
    for r in range(1,NP+1):
        A,ss=prods[r]
        f=0
        for x in ss:
            if x>0: f|=1<<x; break
            f|=first[-x]
            if -x not in nullable: break
        else:
            if A not in nullable: nullable.add(A); ch=True
        if f&~first[A]: first[A]|=f; ch=True
def firstm(ss,mask):
    f=0
    for x in ss:
        if x>0: return f|1<<x
        f|=first[-x]
        if -x not in nullable: return f
    return f|mask
TK=lambda s: tokno(ord(s))
lev={}
for r,o in zip(range(66,79),[9,9,10,10,10,8,8,7,1,2,3,4,5]): lev[r]=o
ptok={}
for r in lev: ptok[prods[r][1][1]]=lev[r]
EQ=prods[73][1][1]
def lv(x): return 0 if x==12 else x
def child(r,d,x):
    if r in lev: return x if d==0 else lev[r] if d==2 else 0
    if r==79: return 6
    if r in(90,91): return 11
    if r==45: return 12
    return 0
def perm(r,x,k):
    if r in lev: return lv(x)<lev[r] and ptok.get(k,0)<=lev[r]
    if r==79: return ptok.get(k,0)<=6
    if r==83: return not(x==12 and k==EQ)
    return True
pm={}
def permmask(r,x):
    if (r,x) not in pm: pm[r,x]=sum(1<<k for k in range(1,NTOK+1) if perm(r,x,k))
    return pm[r,x]
items={}
work=[]
bad=set()
def add(s,r,d,x,m):
    if m==0: return
    o=items.get((s,r,d,x),0)
    if m&~o:
        items[s,r,d,x]=o|m; work.append((s,r,d,x))
for r in byl[34]: add(0,r,0,0,1<<1)
while work:
    s,r,d,x=work.pop(); m=items[s,r,d,x]
    A,ss=prods[r]
    if d==len(ss):
        for k in range(1,NTOK+1):
            if m>>k&1 and action(s,k)!=('r',r): bad.add((s,r,d,x,k,action(s,k)))
    elif ss[d]>0:
        q=action(s,ss[d])
        if q[0]!='s': bad.add((s,r,d,x,'shift',ss[d],q))
        else: add(q[1],r,d+1,x,m)
    else:
        add(goto(s,-ss[d]),r,d+1,x,m)
        y=child(r,d,x)
        la=firstm(ss[d+1:],m)
        for r2 in byl[-ss[d]]: add(s,r2,0,y,la&permmask(r2,y))
if __name__=='__main__':
    if len(sys.argv)>1:
        print(len(items),len(bad))
        for b in sorted(bad,key=str)[:60]: print(b,prods[b[1]])
        sys.exit()
    assert not bad
    print('(** GENERATED by tools/gen_items.py from ast/y.go and Grammar.v.  Checked in Complete.v. *)')
    print('From Verif Require Import Bytes.\n')
    print('(** First tokens of the nonterminals as bit masks over token numbers, and which are nullable. *)')
    print('Definition firsts : list N := ['+'; '.join(str(first[A]) for A in range(1,43))+']%N.')
    print('Definition nullables : list bool := ['+'; '.join('true' if A in nullable else 'false' for A in range(1,43))+'].\n')
    print('(** The items of every state: production, position, level, mask of following tokens. *)')
    print('Definition items : list (list (Z * Z * Z * N)) := [')
    print(';\n'.join('  ['+'; '.join('(%d, %d, %d, %d%%N)'%(r,d,x,m) for (q,r,d,x),m in sorted(items.items()) if q==s)+']' for s in range(NS)))
    print('].')
