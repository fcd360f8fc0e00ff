#!/usr/bin/env python3
"""Print the axioms every property theorem rests on (after a build): table for DESIGN.md section 5."""
import re, glob, os, subprocess, collections
T=os.path.join(os.path.dirname(__file__),'..','rocq','theories')
names=[]
for f in sorted(glob.glob(T+'/Prop*.v')):
    m=os.path.basename(f)[:-2]
    if m=='PropKey': continue
    for n in re.findall(r'^Theorem (C\d\d\w*)',open(f).read(),re.M): names.append((m,n))
mods=sorted({m for m,_ in names})
src='From Verif Require '+' '.join(mods)+'.\n'
for m,n in names: src+=f'Goal True. idtac "@@ {m}.{n}". Abort.\nPrint Assumptions {m}.{n}.\n'
open('/tmp/Ax.v','w').write(src)
out=subprocess.run(['coqc','-Q','.','Verif','/tmp/Ax.v'],cwd=T,capture_output=True,text=True).stdout
groups=collections.defaultdict(list)
for part in out.split('@@ ')[1:]:
    head,_,body=part.partition('\n')
    ax=tuple(sorted(set(re.findall(r'^([A-Za-z_][\w.]*)(?:\s*:|$)',body,re.M))-{'Axioms','Closed'}))
    groups[ax].append(head.strip().split('.')[1])
for ax,ns in sorted(groups.items()):
    print('* '+(', '.join('`%s`'%a for a in ax) if ax else 'no axioms (closed under the global context)')+': '+', '.join(sorted(ns))+'.')
    print()
