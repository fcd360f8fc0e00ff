#!/usr/bin/env python3
# Generates rocq/theories/SpecKeys.v: the standard CSS name of every property key (its Rust variant in kebab case).
import re
s=open('/repo/src/css/model.rs').read()
i=s.index('pub enum PropertyKey'); j=s.index('}',i)
vs=re.findall(r'\b([A-Z]\w+)\s*,',s[i:j])
k=s.index('fn parse',j)
d={v:n for n,v in re.findall(r'"([^"]+)"\s*=>\s*Self::(\w+)',s[k:])}
keb=lambda v: re.sub(r'(?<!^)(?=[A-Z])','-',v).lower()
out=[]
w=out.append
w("""(** * The CSS name of every property.  GENERATED by tools/gen_speckeys.py: the name of the variant of
    [PropertyKey] (src/css/model.rs:212-806) in CSS spelling, which is the name in the CSS standards. *)
From Verif Require Import Str PropKey.

Definition standard_name (k : PropertyKey) : string :=
  match k with
""")
for v in vs: w('  | K%s => "%s"\n'%(v,keb(v)))
w("""  end.

(** Properties the code knows under another name than the standard one. *)
Definition misspelt : list (PropertyKey * string) :=
  [ """+"\n  ; ".join('(K%s, "%s")'%(v,d[v]) for v in vs if v in d and d[v]!=keb(v))+""" ].

(** Properties the code knows under no name. *)
Definition nameless : list PropertyKey := ["""+"; ".join("K"+v for v in vs if v not in d)+"""].

(** The name a property is written with in a style sheet. *)
Definition written (k : PropertyKey) (name : string) : Prop :=
  In (k, name) misspelt \\/ (name = standard_name k /\\ ~ In k (map fst misspelt) /\\ ~ In k nameless).
""")
open('/verif/rocq/theories/SpecKeys.v','w').write("".join(out))
