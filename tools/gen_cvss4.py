#!/usr/bin/env python3
"""Generate rocq/theories/Cvss4Data.v from /repo/cvss/src/v4/scoring/lookup.rs."""
import re
src=open('/repo/cvss/src/v4/scoring/lookup.rs').read().split('\n')
rows=[]
for n,l in enumerate(src,1):
    m=re.search(r'\(([\d, ]+)\) => Some\(([\d.]+)\)',l)
    if m:
        a,b=m.group(2).split('.')
        rows.append((n,[int(x) for x in m.group(1).split(',')],int(a)*10+int(b)))
out=['(** Generated by tools/gen_cvss4.py from cvss/src/v4/scoring/lookup.rs:%d-%d: the'%(rows[0][0],rows[-1][0]),
 '    score of each MacroVector (EQ1..EQ6), in tenths. This is also the table published',
 '    with CVSS v4.0 (cvss_lookup.js), which the specification uses. *)',
 'From Coq Require Import List ZArith.','Import ListNotations.','Local Open Scope Z_scope.',
 'Definition macro_scores : list (nat * nat * nat * nat * nat * nat * Z) :=','  [']
for i,(n,k,v) in enumerate(rows):
    out.append('   (%s, %d)%s'%(', '.join('%d%%nat'%x for x in k).replace('%nat','%nat'),v,';' if i+1<len(rows) else ''))
out.append('  ].')
open('/verif/rocq/theories/Cvss4Data.v','w').write('\n'.join(out)+'\n')
print(len(rows))
