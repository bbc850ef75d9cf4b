#!/usr/bin/env python3
"""Check that every citation 'file.cc:N-M name' in the Coq sources points to
lines of /repo which contain that name.  With --fix, replace the lines by the
extent of the function definition called name (for .cc definitions)."""
import re,sys,os,glob
ROOT='/repo/src'
idx={}
for d,_,fs in os.walk(ROOT):
    for f in fs:
        if f.endswith(('.cc','.h','.y','.l')): idx.setdefault(f,[]).append(os.path.join(d,f))
def lines(p): return open(p,errors='replace').read().split('\n')
def extent(p,name):
    L=lines(p)
    pat=re.compile(r'(^|[^\w~])'+re.escape(name)+r'\s*(/\*.*?\*/)?\s*\(')
    for i,l in enumerate(L):
        if l[:1] in ' \t{}/#*' : continue
        if pat.search(l) and not l.rstrip().endswith(';'):
            s=i
            if s>0 and L[s-1].strip() and not L[s-1].startswith(('}','/','*','#',' ')) and not L[s-1].strip().endswith((';','*/')): s-=1
            depth=0;seen=False
            for j in range(i,len(L)):
                t=re.sub(r'"(\\.|[^"\\])*"|\'(\\.|[^\'\\])*\'','',L[j]); t=re.sub(r'//.*','',t)
                depth+=t.count('{')-t.count('}')
                if '{' in t: seen=True
                if seen and depth==0: return s+1,j+1
    return None
cit=re.compile(r'((?:[\w.]+/)*)([\w-]+\.(?:cc|h|y|l)):(\d+)(?:-(\d+))?(\s+)([A-Za-z_~][\w:]*)')
fix='--fix' in sys.argv
files=[a for a in sys.argv[1:] if not a.startswith('--')] or sorted(glob.glob('/verif/rocq/theories/*.v'))
bad=0;n=0
for f in files:
    s=open(f).read()
    def sub(m):
        global bad,n
        n+=1
        d,fn,a,b,sp,name0=m.groups(); b=b or a; name=name0.rstrip(':')
        cands=[p for p in idx.get(fn,[]) if d in p]
        if not cands: print(f,m.group(0),'NOFILE'); bad+=1; return m.group(0)
        if len(cands)>1: print(f,m.group(0),'AMBIGUOUS',cands); bad+=1; return m.group(0)
        L=lines(cands[0]); short=name.split('::')[-1]
        txt='\n'.join(L[int(a)-1:int(b)])
        e=extent(cands[0],name) or (extent(cands[0],short) if '::' not in name else None)
        ok=re.search(r'\b'+re.escape(short)+r'\b',txt) is not None
        if '::' in name and not re.search(re.escape(name)+r'\s*\(',txt) and e and not (e[0]<=int(a)+1 and int(b)-1<=e[1]): ok=False
        if e and e[0]<=int(a) and int(b)<=e[1]: ok=True
        if ok and not ('--force' in sys.argv and e and re.match(r'instruction_',short)): return m.group(0)
        if fix and e: return '%s%s:%d-%d%s%s'%(d,fn,e[0],e[1],sp,name0)
        bad+=1; print(f,m.group(0),'BAD',e); return m.group(0)
    t=cit.sub(sub,s)
    if fix and t!=s: open(f,'w').write(t)
print(n,'citations,',bad,'bad')
