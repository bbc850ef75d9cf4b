import json,glob,os,importlib.util
d=os.path.dirname(os.path.abspath(__file__)); out=[]
for f in sorted(glob.glob(d+'/props_*.py')):
    s=importlib.util.spec_from_file_location('m',f); m=importlib.util.module_from_spec(s); s.loader.exec_module(m); out+=m.P
exec(open(d+'/restate.py').read())
for x in out:
    if x['id'] in R: x['statement']=R[x['id']][0]
    if x['id'] in T: x['title']=T[x['id']]
out.sort(key=lambda x:int(x['id'][1:]))
assert len({x['id'] for x in out})==len(out)
open(d+'/../properties.jsonl','w').write(''.join(json.dumps(x)+'\n' for x in out)); print(len(out))
