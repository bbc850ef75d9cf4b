#!/usr/bin/env python3
"""LALR(1) tables of /repo/src/core/cmd.src/cmdpars.y, as bison builds them: shift is preferred to
reduce, the earlier rule to the later one.  Prints conflicts; gram() is used by genparse.py."""
import re,sys
SRC='/repo/src/core/cmd.src/cmdpars.y'
def grammar():
    t=open(SRC).read().split('%%')[1]
    # keep line numbers
    out=[];i=0;depth=0;line=open(SRC).read().split('%%')[0].count('\n')+1
    toks=[]
    while i<len(t):
        if t.startswith('/*',i):
            j=t.index('*/',i)+2; line+=t.count('\n',i,j); i=j; continue
        c=t[i]
        if c=='{':
            d=0;j=i;l0=line
            while True:
                if t.startswith('/*',j): j=t.index('*/',j)+2; continue
                if t.startswith('//',j): j=t.index('\n',j); continue
                if t[j]=='{': d+=1
                if t[j]=='}':
                    d-=1
                    if d==0: break
                j+=1
            toks.append(('ACT',t[i:j+1],line)); line+=t.count('\n',i,j+1); i=j+1; continue
        if c=='\n': line+=1; i+=1; continue
        if c.isspace(): i+=1; continue
        m=re.match(r'[A-Za-z_]+',t[i:])
        if m: toks.append(('ID',m.group(),line)); i+=m.end(); continue
        toks.append((c,c,line)); i+=1
    rules=[];k=0
    while k<len(toks):
        lhs=toks[k][1]; assert toks[k+1][0]==':',toks[k:k+3]; k+=2
        rhs=[];ln=toks[k][2]
        while True:
            x=toks[k]
            if x[0]=='ID': rhs.append(x[1])
            elif x[0]=='ACT': pass
            elif x[0]=='|': rules.append((lhs,tuple(rhs),ln)); rhs=[]; ln=toks[k+1][2]
            elif x[0]==';': rules.append((lhs,tuple(rhs),ln)); k+=1; break
            k+=1
    return rules
def tables():
    R=[('$accept',('ucsim_grammar','$end'),0)]+grammar()
    NT=[];
    for l,_,_ in R:
        if l not in NT: NT.append(l)
    T=[]
    for _,r,_ in R:
        for x in r:
            if x not in NT and x not in T: T.append(x)
    by={n:[i for i,r in enumerate(R) if r[0]==n] for n in NT}
    # FIRST (no empty rules)
    first={x:{x} for x in T}
    for n in NT: first[n]=set()
    ch=True
    while ch:
        ch=False
        for l,r,_ in R:
            if not first[r[0]]<=first[l]: first[l]|=first[r[0]]; ch=True
    def clo0(k):
        s=set(k);w=list(k)
        while w:
            r,d=w.pop()
            rhs=R[r][1]
            if d<len(rhs) and rhs[d] in by:
                for q in by[rhs[d]]:
                    if (q,0) not in s: s.add((q,0)); w.append((q,0))
        return s
    states=[frozenset([(0,0)])];ix={states[0]:0};goto={}
    i=0
    while i<len(states):
        c=clo0(states[i]);nx={}
        for r,d in sorted(c):
            rhs=R[r][1]
            if d<len(rhs): nx.setdefault(rhs[d],set()).add((r,d+1))
        for x in sorted(nx,key=lambda x:(x in by,(T+NT).index(x))):
            k=frozenset(nx[x])
            if k not in ix: ix[k]=len(states); states.append(k)
            goto[i,x]=ix[k]
        i+=1
    # LALR lookaheads by propagation
    def clo1(items):
        s=set(items);w=list(items)
        while w:
            r,d,a=w.pop();rhs=R[r][1]
            if d<len(rhs) and rhs[d] in by:
                la=first[rhs[d+1]] if d+1<len(rhs) else {a}
                for q in by[rhs[d]]:
                    for b in la:
                        if (q,0,b) not in s: s.add((q,0,b)); w.append((q,0,b))
        return s
    LA={};prop={}
    for i,k in enumerate(states):
        for it in k: LA[i,it]=set()
    LA[0,(0,0)].add('$end')
    for i,k in enumerate(states):
        for it in k:
            for r,d,a in clo1({(it[0],it[1],'#')}):
                rhs=R[r][1]
                if d<len(rhs):
                    tgt=(goto[i,rhs[d]],(r,d+1))
                    if a=='#': prop.setdefault((i,it),set()).add(tgt)
                    else: LA[tgt].add(a)
    ch=True
    while ch:
        ch=False
        for s,ts in prop.items():
            for t in ts:
                if not LA[s]<=LA[t]: LA[t]|=LA[s]; ch=True
    act={};conf=[]
    for i,k in enumerate(states):
        items=set((r,d,a) for (r,d) in k for a in LA[i,(r,d)])
        for r,d,a in sorted(clo1(items)):
            rhs=R[r][1]
            if d<len(rhs):
                if rhs[d] in T: 
                    act.setdefault((i,rhs[d]),set()).add(('s',goto[i,rhs[d]]))
            else: act.setdefault((i,a),set()).add(('r',r))
    fin={}
    for k,v in act.items():
        sh=[x for x in v if x[0]=='s']; rd=sorted(x[1] for x in v if x[0]=='r')
        if len(v)>1: conf.append((k,sorted(v)))
        fin[k]=sh[0] if sh else ('r',rd[0])
    return R,T,NT,states,goto,fin,conf
if __name__=='__main__':
    R,T,NT,S,G,A,C=tables()
    print(len(R),'rules',len(T),'tokens',len(NT),'nonterminals',len(S),'states',len(C),'conflicts',sum(1 for k,v in C if not any(x[0]=='s' for x in v)),'rr')
    for i,r in enumerate(R): print(i,r)
    for k,v in C: print(k,[ (x,R[x[1]] if x[0]=='r' else '') for x in v])
