#!/usr/bin/env python3
# Generates rocq/theories/PropKey.v from /repo/src/css/model.rs (enum at 212-806, parse table at 808-1405).
import re
src=open('/repo/src/css/model.rs').read().split('\n')
start=[i for i,l in enumerate(src) if l.startswith('pub enum PropertyKey')][0]
end=next(i for i in range(start,len(src)) if src[i].startswith('}'))
keys=[]
for i in range(start+1,end):
    m=re.match(r'\s*([A-Z]\w*),',src[i])
    if m: keys.append((m.group(1),i+1))
ps=[i for i,l in enumerate(src) if 'impl PropertyKey' in l][0]
tab=[]
for i in range(ps,len(src)):
    m=re.match(r'\s*"([^"]*)" => Self::(\w+),',src[i])
    if m: tab.append((m.group(1),m.group(2),i+1))
out=open('/verif/rocq/theories/PropKey.v','w')
w=out.write
w("(** * CSS property keys.  GENERATED by tools/gen_propkey.py from src/css/model.rs:%d-%d (enum) and %d-%d (parse). *)\n"%(start+1,end+1,ps+1,len(src)))
w("From Verif Require Import Str.\nFrom stdpp Require Import countable.\n\n")
w("(** src/css/model.rs:%d-%d, every variant in source order. *)\nInductive PropertyKey : Set :=\n"%(start+1,end+1))
for k,_ in keys: w("| K%s\n"%k)
w(".\n\n")
w("Definition prop_index (k : PropertyKey) : nat :=\n  match k with\n")
for i,(k,_) in enumerate(keys): w("  | K%s => %d\n"%(k,i))
w("  end.\n\n")
w("Definition all_keys : list PropertyKey :=\n  [")
w("; ".join("K"+k for k,_ in keys))
w("].\n\n")
w("""Lemma all_keys_lookup k : all_keys !! prop_index k = Some k.
Proof. destruct k; reflexivity. Qed.

Lemma prop_index_inj a b : prop_index a = prop_index b -> a = b.
Proof.
  intros H. pose proof (all_keys_lookup a) as Ha. rewrite H, all_keys_lookup in Ha. congruence.
Qed.

Lemma all_keys_complete k : In k all_keys.
Proof. apply elem_of_list_In, (elem_of_list_lookup_2 _ _ _ (all_keys_lookup k)). Qed.

(** Derived [PartialEq]/[Hash] of the enum. *)
Definition key_eqb (a b : PropertyKey) : bool := Nat.eqb (prop_index a) (prop_index b).

Lemma key_eqb_spec a b : key_eqb a b = true <-> a = b.
Proof.
  unfold key_eqb. rewrite Nat.eqb_eq. split; [apply prop_index_inj | now intros ->].
Qed.

#[global] Instance PropertyKey_eq_dec : EqDecision PropertyKey.
Proof.
  intros a b. destruct (Nat.eq_dec (prop_index a) (prop_index b)) as [H|H].
  - left. now apply prop_index_inj.
  - right. now intros ->.
Defined.

#[global] Instance PropertyKey_countable : Countable PropertyKey :=
  inj_countable prop_index (fun n => all_keys !! n) all_keys_lookup.

""")
w("(** src/css/model.rs:%d-%d: the arms of [PropertyKey::parse] in source order. *)\nDefinition parse_table : list (string * PropertyKey) :=\n  [ "%(tab[0][2],tab[-1][2]))
w("\n  ; ".join('("%s", K%s)'%(n,k) for n,k,_ in tab))
w(" ].\n\n")
w("""Fixpoint table_get (name : string) (t : list (string * PropertyKey)) : option PropertyKey :=
  match t with
  | [] => None
  | (n, k) :: t' => if String.eqb name n then Some k else table_get name t'
  end.

(** src/css/model.rs:%d: [PropertyKey::parse], a [match] on the name: the first arm that fits. *)
Definition parse_key (name : string) : option PropertyKey := table_get name parse_table.
"""%(ps+1))
print(len(keys),len(tab))
