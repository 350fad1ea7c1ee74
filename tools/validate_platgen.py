import re,subprocess
src=open('/repo/platforms/src/platform/platforms.rs').read()
items=re.findall(r'((?:/// [^\n]*\n)?)pub\(crate\) const (\w+): Platform = Platform \{\n\s+target_triple: "([^"]*)",\n\s+target_arch: Arch::(\w+),\n\s+target_os: Os::(\w+),\n\s+target_env: Env::(\w+),\n\s+target_endian: Endian::(\w+),\n\s+target_pointer_width: PointerWidth::(\w+),\n\s+tier: Tier::(\w+),\n\};',src)
def table(f):
    t=open('/repo/platforms/src/target/%s.rs'%f).read()
    return {v:s for v,s in re.findall(r'Self::(\w+) => "([^"]*)",',t)}
T={k:table(f) for k,f in dict(target_arch='arch',target_os='os',target_env='env',target_endian='endian',target_pointer_width='pointer_width').items()}
tier={'One':1,'Two':2,'Three':3}
esc=lambda s:s.replace('"','""')
def cstr(s): 
    return '"%s"'%esc(s)
trip=[];infos=[];docs=[]
for com,cn,t,a,o,e,en,w,ti in items:
    trip.append(cstr(t))
    vals=[T['target_arch'][a],T['target_os'][o],T['target_env'][e],T['target_endian'][en],T['target_pointer_width'][w]]
    infos.append('[' + ';'.join('(%s,%s)'%(cstr(k),cstr(v)) for k,v in zip(T,vals))+']')
    n=com[4:].rstrip('\n') if com else ''
    docs.append('(%s,mkDoc %d %s)'%(cstr(t),tier[ti],cstr(n)))
print(len(items))
coms=re.findall(r'\("([^"]*)", "([^"]*)"\)',open('/repo/platforms-data-gen/src/data/enum_variant_comments.rs').read())
keys=dict(target_arch='arch',target_os='os',target_env='env',target_endian='endian',target_pointer_width='bits')
def tpl(k,w): return open('/repo/platforms-data-gen/templates/%s_%s.rs'%(keys[k],w)).read()
v='''From Coq Require Import List NArith String. From Verif Require Import Base PlatGenModel. Import ListNotations. Local Open Scope string_scope. Local Open Scope N_scope.
Definition trips := [%s]%%list.
Definition infos := [%s]%%list.
Definition docs := [%s]%%list.
Definition coms := [%s]%%list.
Set Printing Width 100000000.
Definition wr := Eval vm_compute in write_targets trips infos docs.
Redirect "/tmp/w/plat" Eval vm_compute in wr.
'''%(';'.join(trip),';'.join(infos),';'.join(docs),';'.join('(%s,%s)'%(cstr(a),cstr(b)) for a,b in coms))
for k in keys:
    v+='''Redirect "/tmp/w/%s" Eval vm_compute in write_enum_file (fun _ => Some %s) (fun _ => Some %s) (lookup_key coms) (fun _ => false) %s infos.\n'''%(k,cstr(tpl(k,'header')),cstr(tpl(k,'footer')),cstr(k))
open('/tmp/w/Val.v','w').write(v)
subprocess.run('cd /tmp/w && ulimit -s unlimited; coqc -Q /verif/rocq/theories Verif Val.v',shell=True,check=True)
norm=lambda s:re.sub(r'\s+','',s)
def got(f):
    t=open('/tmp/w/%s.out'%f).read()
    m=re.match(r'\s*= \("(.*)", Ok tt\)\s*:',t,re.S)
    if not m: print('BAD',f,t[:100],t[-200:]); return ''
    return m.group(1).replace('""','"')
def cmp(a,b,f):
    a=norm(a);b=norm(b)
    if a==b: print(f,'same'); return
    i=next((i for i,(x,y) in enumerate(zip(a,b)) if x!=y),min(len(a),len(b)))
    print(f,'DIFF at',i,len(a),len(b),a[i-60:i+60],'|||',b[i-60:i+60])
cmp(got('plat'),src,'plat')
for k,f in dict(target_arch='arch',target_os='os',target_env='env',target_endian='endian',target_pointer_width='pointer_width').items():
    cmp(got(k),open('/repo/platforms/src/target/%s.rs'%f).read(),k)
import difflib
def lines(s): return [norm(l) for l in s.split('\n') if l.strip()]
for k,f in dict(plat=None,target_arch='arch',target_os='os',target_env='env',target_endian='endian',target_pointer_width='pointer_width').items():
    b=src if f is None else open('/repo/platforms/src/target/%s.rs'%f).read()
    for l in difflib.unified_diff(lines(got(k)),lines(b),n=0,lineterm=''): print(k,l)
