#!/usr/bin/env python3
# Generates rocq/theories/Initial.v from /repo/src/styles/initial.rs
import re
src=open('/repo/src/styles/initial.rs').read().split('\n')
arms=[]
for i,l in enumerate(src):
    m=re.match(r'\s*PropertyKey::(\w+) => (.*),$',l)
    if m: arms.append((m.group(1),m.group(2),i+1))
def tr(e):
    m=re.match(r'keyword\("([^"]*)"\)$',e)
    if m: return 'CKeyword "%s"'%m.group(1)
    m=re.match(r'(n|s|px)\((\d+)\)$',e)
    if m: return {'n':'CNumber (f32_of_Z %s)','s':'CTime (f32_of_Z %s)','px':'CDimension (mkDim (f32_of_Z %s) UPx)'}[m.group(1)]%m.group(2)
    if e=='zero()': return 'CZero'
    if e=='percent(0.0)': return 'CPercentage f0'
    if e=='color(0, 0, 0, 0)': return 'CColor (0, 0, 0, 0)%Z'
    raise Exception(e)
w=open('/verif/rocq/theories/Initial.v','w').write
s="(** * Initial values.  GENERATED by tools/gen_initial.py from src/styles/initial.rs:4-316. *)\nFrom Verif Require Import Str F32 PropKey Css.\n\n(** src/styles/initial.rs:4-316 *)\nDefinition initial (key : PropertyKey) : ComputedValue :=\n  match key with\n"
for k,e,_ in arms: s+="  | K%s => %s\n"%(k,tr(e))
s+="  | _ => CKeyword \"initial\"\n  end.\n"
w(s); print(len(arms))
