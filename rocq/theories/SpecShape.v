(** * The data a template takes (C77).

    [SpecBind.shape] is a kind of data: scalars, lists of so many items, records.
    [SpecRender.pointers] lists every name a template uses. *)
From stdpp Require Import gmap.
From Verif Require Import Str Json SpecBind SpecSchema.

(** "a/0/b" is a place in data of this shape *)
Inductive within : shape -> list string -> Prop :=
| within_here sh : within sh []
| within_item n s i ts : i < n -> (N.of_nat i <= u64_max)%N -> within s ts -> within (SList n s) (fmt_nat i :: ts)
| within_field fs k s ts : In (k, s) fs -> indexes k = false -> within s ts -> within (SRecord fs) (k :: ts).
(** ... the place of a scalar *)
Inductive leaf_at : shape -> list string -> Prop :=
| leaf_here : leaf_at SLeaf []
| leaf_item n s i ts : i < n -> leaf_at s ts -> leaf_at (SList n s) (fmt_nat i :: ts)
| leaf_field fs k s ts : In (k, s) fs -> leaf_at s ts -> leaf_at (SRecord fs) (k :: ts).
(** The names are those of the shape: each is a place in it, and every scalar
    has a name. *)
Definition takes (ps : list string) (sh : shape) : Prop :=
  (forall p, p ∈ ps -> within sh (tokens p)) /\ (forall ts, leaf_at sh ts -> exists p, p ∈ ps /\ tokens p = ts).

(** no empty records and no empty lists inside *)
Fixpoint solid (sh : shape) : bool :=
  match sh with
  | SLeaf => true
  | SList n s => (1 <=? n)%nat && solid s
  | SRecord fs => match fs with [] => false | _ => forallb (fun e => solid (snd e)) fs end
  end.
Definition solid_fields (sh : shape) : bool := match sh with SRecord fs => forallb (fun e => solid (snd e)) fs | _ => false end.
