#!/usr/bin/env python3
"""Seeded-bug runner: for each mutation of the model (JSON list: file, old, new, definition, edit, claim)
rebuild a scratch copy and log which theorems and lemmas stop proving."""
import json,sys,os,re,subprocess,shutil,concurrent.futures as cf
root=os.path.dirname(os.path.dirname(os.path.abspath(__file__)))
def enclosing(path,line):
    name='?'
    for i,l in enumerate(open(path),1):
        if i>line: break
        m=re.match(r'\s*(?:#\[\w+\] )?(Theorem|Lemma|Example|Definition|Instance|Fixpoint|Inductive|Record)\s+(\w+)',l)
        if m: name=m.group(2)
    return name
def one(k_m):
    k,m=k_m
    d='/tmp/w/seed/%d'%k
    shutil.rmtree(d,ignore_errors=True)
    subprocess.run(['cp','-a',root+'/rocq',d],check=True)
    p=d+'/theories/'+m['file']; s=open(p).read()
    if s.count(m['old'])!=1: return m,None,'old text occurs %d times'%s.count(m['old'])
    open(p,'w').write(s.replace(m['old'],m['new']))
    subprocess.run('coq_makefile -f _CoqProject -o Makefile',shell=True,cwd=d)
    r=subprocess.run('timeout 300 make -k -j1',shell=True,cwd=d,capture_output=True,text=True)
    out=r.stdout+r.stderr
    fails=[]
    for f,l in re.findall(r'^File "\./theories/(\w+\.v)", line (\d+), characters [^\n]*\n(?=Error)',out,re.M):
        fails.append((f,enclosing(d+'/theories/'+f,int(l))))
    vo=[f for f in os.listdir(d+'/theories') if f.endswith('.vo')]
    # files whose object is stale or missing
    src={l.strip().split('/')[-1] for l in open(d+'/_CoqProject') if l.startswith('theories/')}
    q=subprocess.run('make -k -n -j1',shell=True,cwd=d,capture_output=True,text=True).stdout
    blocked=sorted({x for x in src if re.search(r'theories/'+re.escape(x)+r'\b',q)}-{f for f,_ in fails})
    shutil.rmtree(d,ignore_errors=True)
    return m,(fails,blocked),None
ms=json.load(open(sys.argv[1])); dry='--dry' in sys.argv
os.makedirs('/tmp/w/seed',exist_ok=True)
with cf.ThreadPoolExecutor(2) as ex:
    for m,res,err in ex.map(one,list(enumerate(ms))):
        if err: print('BAD',m['definition'],err); continue
        fails,blocked=res
        th=[]
        for f,n in fails:
            if re.match(r'C\d\d+_',n): th.append(n)
        bl=[]
        for f in blocked:
            if 'Props' in f:
                bl+= re.findall(r'^Theorem (%s_\w+)'%m['claim'].split()[0].rstrip(':'),open(root+'/rocq/theories/'+f).read(),re.M)
        print(('KILLED ' if fails else 'TIMEOUT ' if blocked else 'SURVIVED ')+m['definition']+' | '+m['edit'],fails,'blocked:',blocked)
        rec={'definition':m['definition'],'edit':m['edit'],'claim_broken':m['claim'],'theorems_failed':th,
             'lemmas_failed':[f+':'+n for f,n in fails if n not in th],'theorems_blocked':bl,'theorems_tightened':m.get('tightened',[])}
        if not dry: open(root+'/seeded/LOG.jsonl','a').write(json.dumps(rec)+'\n')
