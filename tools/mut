#!/usr/bin/env python3
"""mut SPECFILE : run seeded bugs. SPECFILE is a python file with a list M of
dicts(file,defn,old,new,claim[,n]). Each is applied to a scratch copy of theories,
dependents rebuilt (make -k), failing lemmas/theorems found and one line is
appended to seeded/LOG.jsonl (unless --dry)."""
import sys,os,subprocess,json,re,shutil
ns={}; exec(open(sys.argv[1]).read(),ns); dry='--dry' in sys.argv
S='/tmp/mut'
def sync():
    os.makedirs(S,exist_ok=True)
    subprocess.run(['rsync','-a','--delete','--exclude','.git','/verif/rocq/',S+'/'],check=True) if shutil.which('rsync') else subprocess.run('rm -rf %s && cp -a /verif/rocq %s'%(S,S),shell=True,check=True)
    subprocess.run('coq_makefile -f _CoqProject -o Makefile >/dev/null && make -j4 >/dev/null 2>&1',shell=True,cwd=S)
sync()
subprocess.run('rm -rf %s.base && cp -a %s %s.base'%(S,S,S),shell=True,check=True)
def enclosing(f,line):
    name='?'
    for i,l in enumerate(open(f).read().split('\n'),1):
        if i>line: break
        m=re.match(r'\s*(?:Theorem|Lemma|Example|Definition|Fixpoint|Corollary|Fact)\s+(\w+)',l)
        if m: name=m.group(1)
    return name
deps={}
for f in os.listdir(S+'/theories'):
    if f.endswith('.v'):
        deps[f[:-2]]=set(sum([x.split() for x in re.findall(r'From Verif Require (?:Import|Export) ([\w\s]+)\.',open(S+'/theories/'+f).read())],[]))
def rdeps(b):
    r=set([b]); ch=True
    while ch:
        ch=False
        for k,v in deps.items():
            if k not in r and v&r: r.add(k); ch=True
    return r
for m in ns['M']:
    p=S+'/theories/'+m['file']+'.v'; src=open(p).read()
    c=src.count(m['old'])
    if c!=m.get('n',1): print('!! count',c,m['defn'],m['old']); continue
    open(p,'w').write(src.replace(m['old'],m['new']))
    r=subprocess.run('timeout 1500 make -k -j4 2>&1',shell=True,cwd=S,capture_output=True,text=True).stdout
    failed=[]
    for f,l in re.findall(r'File "\./theories/(\w+)\.v", line (\d+), characters [\d-]+:\s*\n(?=Error)',r):
        failed.append(f+'.'+enclosing(S+'/theories/%s.v'%f,int(l)))
    # other props files that could not be built because of them
    ff=set(x.split('.')[0] for x in failed); blocked=set()
    for f0 in ff: blocked|=rdeps(f0)-ff
    blocked=sorted(d for d in blocked if d.endswith('Props'))
    survived = not failed
    print(('SURVIVED ' if survived else 'killed   ')+m['defn'],'|',m['new'][:60].replace('\n',' '),'|',failed,blocked,flush=True)
    if not dry:
        open('/verif/seeded/LOG.jsonl','a').write(json.dumps(dict(definition=m['file']+'.'+m['defn'],edit='%s  ->  %s'%(m['old'],m['new']),claim=m['claim'],failed=failed,not_built=blocked,tightened=m.get('tightened',[])))+'\n')
    # back to the built copy
    subprocess.run('rm -rf %s && cp -a %s.base %s'%(S,S,S),shell=True,check=True)
