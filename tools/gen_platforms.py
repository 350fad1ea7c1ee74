#!/usr/bin/env python3
"""Transcribes the tables of /repo/platforms/src (enums with as_str/from_str, Platform::ALL) to Coq."""
import re
R='/repo/platforms/src/'
out=[]
w=out.append
w('(** Generated by tools/gen_platforms.py from /repo/platforms/src (do not edit): the enums of target/*.rs and')
w('    platform/tier.rs with their [as_str] and [from_str] tables, and [Platform::ALL] of platform/platforms.rs. *)')
w('From Coq Require Import List String.')
w('From Verif Require Import Base.')
w('Import ListNotations.')
w('Local Open Scope string_scope.')
def enum(path, name, pre, coq, from_style):
    src=open(R+path).read(); lines=src.split('\n')
    i0=next(i for i,l in enumerate(lines) if l.startswith('pub enum '+name))
    variants=[]
    for i in range(i0+1,len(lines)):
        l=lines[i].strip()
        if l=='}': break
        m=re.fullmatch(r'(\w+),',l)
        if m: variants.append(m.group(1))
    w(f'\n(** {path}:{i0+1}-{i+1} [enum {name}]. *)')
    w(f'Inductive {coq} := '+' | '.join(pre+v for v in variants)+'.')
    ia=next(i for i,l in enumerate(lines) if 'fn as_str' in l)
    tab=[]
    for j in range(ia,len(lines)):
        m=re.search(r'Self::(\w+) => "([^"]*)",',lines[j])
        if m: tab.append(m.groups())
        if lines[j]=='    }': break
    assert sorted(v for v,_ in tab)==sorted(variants),(name)
    w(f'(** {path}:{ia+1}-{j+1} [as_str]. *)')
    w(f'Definition {coq}_str (x : {coq}) : string := match x with '+' | '.join(f'{pre}{v} => "{s}"' for v,s in tab)+' end.')
    ib=next(i for i,l in enumerate(lines) if re.search(r'fn from_str\(',l))
    tab=[]
    for j in range(ib,len(lines)):
        m=re.search(r'"([^"]*)" => (?:Ok\()?Self::(\w+)\)?,',lines[j])
        if m: tab.append(m.groups())
        if lines[j]=='    }': break
    w(f'(** {path}:{ib+1}-{j+1} [from_str]. *)')
    w(f'Definition {coq}_table : list (string * {coq}) := ['+'; '.join(f'("{s}", {pre}{v})' for s,v in tab)+'].')
    w(f'Definition {coq}_from_str (s : string) : outcome {coq} := match find (fun e => String.eqb s (fst e)) {coq}_table with Some e => Ok (snd e) | None => Err end.')
enum('target/arch.rs','Arch','Arch','arch',0)
enum('target/os.rs','Os','Os','os',0)
enum('target/env.rs','Env','Env','env',0)
enum('target/endian.rs','Endian','Endian','endian',0)
enum('target/pointer_width.rs','PointerWidth','Width','pointer_width',0)
enum('platform/tier.rs','Tier','Tier','tier',0)
src=open(R+'platform/platforms.rs').read()
lines=src.split('\n')
iall=next(i for i,l in enumerate(lines) if 'const ALL: &[Platform]' in l)
names=[]
for j in range(iall+1,len(lines)):
    if lines[j]=='];': break
    names.append(lines[j].strip().rstrip(','))
consts={}
for m in re.finditer(r'pub\(crate\) const (\w+): Platform = Platform \{(.*?)\};',src,re.S):
    f=dict(re.findall(r'(\w+): (?:"([^"]*)"|\w+::(\w+)),',m.group(2)) and [(a,b or c) for a,b,c in re.findall(r'(\w+): (?:"([^"]*)"|\w+::(\w+)),',m.group(2))])
    consts[m.group(1)]=(f,src[:m.start()].count('\n')+1)
w('\n(** platform/mod.rs:24-57 [struct Platform]. *)')
w('Record platform := mkPlatform { pf_triple : string; pf_arch : arch; pf_os : os; pf_env : env; pf_endian : endian; pf_width : pointer_width; pf_tier : tier }.')
w(f'(** platform/platforms.rs:{iall+1}-{j+1} [ALL], with the constants (line of each in the comment). *)')
w('Definition ALL : list platform := [')
rows=[]
for n in names:
    f,ln=consts[n]
    rows.append(f'  (* {ln} *) mkPlatform "{f["target_triple"]}" Arch{f["target_arch"]} Os{f["target_os"]} Env{f["target_env"]} Endian{f["target_endian"]} Width{f["target_pointer_width"]} Tier{f["tier"]}')
w(';\n'.join(rows)+'].')
open('/verif/rocq/theories/PlatData.v','w').write('\n'.join(out)+'\n')
print(len(names),len(consts))
