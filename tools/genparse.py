#!/usr/bin/env python3
"""Writes rocq/theories/ExprTab.v: the tables bison builds from cmdpars.y (see lalr.py)."""
import os,sys
sys.path.insert(0,os.path.dirname(os.path.abspath(__file__)))
import lalr
R,T,NT,S,G,A,C=lalr.tables()
T=['$end']+[t for t in T if t!='$end']
tc={t:i for i,t in enumerate(T)}; nc={n:i for i,n in enumerate(NT)}
out=[]
o=out.append
o('(** Generated by tools/genparse.py from /repo/src/core/cmd.src/cmdpars.y: the LALR(1) tables')
o('    bison builds for its grammar (shift preferred to reduce; the most frequent reduction of')
o('    a state is its default).  Rules are cited with the lines of cmdpars.y. *)')
o('From Verif Require Import Base.\n')
o('(** ** Tokens: cmdpars.y:14-51 PTOK_PLUS *)')
for t in T: o('Definition %s : Z := %d.'%('PTOK_END' if t=='$end' else t,tc[t]))
o('\n(** ** Nonterminals *)')
for n in NT[1:]: o('Definition nt_%s : Z := %d.'%(n,nc[n]))
o('\n(** ** Rules: left side, length of the right side *)')
o('Definition rules : list (Z * Z) := [')
o(';\n'.join('  (%s, %d) (* %d: %s: %s%s *)'%('0' if i==0 else 'nt_'+l,len(r),i,l,' '.join(r),'' if i==0 else ', cmdpars.y:%d-%d %s'%(ln,ln,(r[0] if True else ''))) for i,(l,r,ln) in enumerate(R)))
o('].')
o('Definition nrules : Z := %d.'%len(R))
fin=None
rows=[];defs=[]
for s in range(len(S)):
    ent={t:A[s,t] for t in T if (s,t) in A}
    red={}
    for t,a in ent.items():
        if a[0]=='r': red[a[1]]=red.get(a[1],0)+1
    d=None
    if red:
        best=0
        for r in sorted(red):
            if red[r]>best: best=red[r]; d=r
        ent={t:a for t,a in ent.items() if a!=('r',d)}
    rows.append(ent);defs.append(d)
final=G[G[0,'ucsim_grammar'],'$end']
o('Definition nstates : Z := %d.'%len(S))
o('Definition final : Z := %d.'%final)
o('\n(** ** Actions of a state: per token a shift (0 + state) or reduction (1000 + rule) *)')
o('Definition act_rows : list (list (Z * Z)) := [')
o(';\n'.join('  [%s]'%'; '.join('(%d, %d)'%(tc[t],a[1] if a[0]=='s' else 1000+a[1]) for t,a in sorted(e.items(),key=lambda x:tc[x[0]])) for e in rows))
o('].')
o('(** the default reduction of a state, 0 for none *)')
o('Definition act_defs : list Z := [%s].'%'; '.join(str(d or 0) for d in defs))
o('(** where to go after a reduction *)')
o('Definition goto_rows : list (list (Z * Z)) := [')
o(';\n'.join('  [%s]'%'; '.join('(%d, %d)'%(nc[n],G[s,n]) for n in NT if (s,n) in G) for s in range(len(S))))
o('].')
# symbol by which a state is entered: tokens 0.., nonterminals 100+
acc={}
for (s,x),g in G.items(): acc[g]=tc[x] if x in tc else 100+nc[x]
o('(** the symbol a state is entered with: a token, or 100 + a nonterminal *)')
o('Definition access : list Z := [%s].'%'; '.join(str(acc.get(s,-1)) for s in range(len(S))))
o('(** the right sides, symbols coded the same way *)')
o('Definition rhs : list (list Z) := [')
o(';\n'.join('  [%s]'%'; '.join(str(tc[x] if x in tc else 100+nc[x]) for x in r) for l,r,ln in R))
o('].')
open('/verif/rocq/theories/ExprTab.v','w').write('\n'.join(out)+'\n')
