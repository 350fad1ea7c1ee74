#!/usr/bin/env python3
"""Seeded-bug harness: for each mutation, edit a scratch copy of the model, rebuild, record what fails.
usage: seed.py mutations.json  [out.jsonl]
mutation: {"file","def","old","new","claim"}"""
import json,os,re,subprocess,sys,shutil
SRC=os.environ.get('SEED_SRC','/verif/rocq'); W='/tmp/seed/rocq'
HEAD=re.compile(r'^\s*(?:Local |Global )?(?:Program )?(Theorem|Lemma|Corollary|Fact|Example|Definition|Fixpoint|Inductive|Record|Remark)\s+([A-Za-z_0-9\']+)',re.M)
def units(text):
    ms=list(HEAD.finditer(text)); res=[]
    for i,m in enumerate(ms):
        end=ms[i+1].start() if i+1<len(ms) else len(text)
        res.append((m.group(2),m.group(1),m.start(),text[m.start():end]))
    return res
def allunits():
    d={}
    for f in sorted(os.listdir(SRC+'/theories')):
        if f.endswith('.v'):
            d[f]=units(open(SRC+'/theories/'+f).read())
    return d
def closure(seed,au):
    words={}
    names=set()
    for f,us in au.items():
        for n,k,_,t in us:
            names.add(n); words.setdefault(n,set()).update(re.findall(r"[A-Za-z_][A-Za-z_0-9']*",t))
    hit=set(seed); ch=True
    while ch:
        ch=False
        for n in names-hit:
            if words[n]&hit: hit.add(n); ch=True
    return sorted(n for n in hit if re.match(r'C\d\d_',n))
def run(m,au):
    subprocess.run('rm -rf %s && mkdir -p /tmp/seed && cp -a %s %s'%(W,SRC,W),shell=True,check=True)
    p=W+'/theories/'+m['file']; s=open(p).read()
    if s.count(m['old'])!=1: return {'error':'old string occurs %d times'%s.count(m['old'])}
    open(p,'w').write(s.replace(m['old'],m['new']))
    subprocess.run('coq_makefile -f _CoqProject -o Makefile',shell=True,cwd=W,capture_output=True)
    r=subprocess.run('timeout 1500 make -k -j3',shell=True,cwd=W,capture_output=True,text=True)
    fails=[]
    for mm in re.finditer(r'File "\./theories/([A-Za-z0-9_]+\.v)", line (\d+), characters[^\n]*\n(Error[^\n]*)',r.stdout+r.stderr):
        f,l=mm.group(1),int(mm.group(2))
        text=open(W+'/theories/'+f).read(); off=sum(len(x)+1 for x in text.split('\n')[:l-1])+1
        nm='?'
        for n,k,st,t in units(text):
            if st<=off: nm=n
        fails.append((f,nm,mm.group(3)))
    if r.returncode!=0 and not fails: return {'error':'make failed without coq error: '+(r.stdout+r.stderr)[-300:]}
    return {'fails':fails,'rc':r.returncode}
muts=json.load(open(sys.argv[1])); out=sys.argv[2] if len(sys.argv)>2 else '/tmp/seed/out.jsonl'
au=allunits()
done=set()
if os.path.exists(out):
    done={json.loads(l)['key'] for l in open(out)}
for m in muts:
    key=m['file']+'|'+m['old']+'|'+m['new']
    if key in done: continue
    r=run(m,au)
    rec={'key':key,'definition':m['file'].replace('Model.v','Model')+'.'+m['def'],'edit':m['old'].strip()+'  ==>  '+m['new'].strip(),'claim':m['claim']}
    if 'error' in r: rec['error']=r['error']
    else:
        rec['first_failures']=[f+':'+n for f,n,_ in r['fails']]
        rec['theorems_failed']=closure([n for _,n,_ in r['fails']],au) if r['fails'] else []
        rec['survived']=not r['fails']
    open(out,'a').write(json.dumps(rec)+'\n')
    print(('SURVIVED ' if rec.get('survived') else ('ERR ' if 'error' in rec else 'killed ')),rec['definition'],rec['edit'][:80],rec.get('first_failures'),rec.get('error',''),flush=True)
