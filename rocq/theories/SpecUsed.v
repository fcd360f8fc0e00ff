(** * The part of the data that a template uses (C85).

    [SpecBind.shape] is the kind of data a template takes: the fields it names and no
    others. *)
From stdpp Require Import gmap.
From Verif Require Import Str Json SpecBind Element ViewModel Events Update View.

(** Two values that agree wherever the template looks: the same scalars, lists of the
    same length whose items agree, records whose named fields agree.  Other fields may be
    there or not and hold anything.  A list that is missing counts as an empty one. *)
Inductive agree : shape -> json -> json -> Prop :=
| agree_leaf x : agree SLeaf x x
| agree_list n s x y : Forall2 (agree s) (items x) (items y) -> agree (SList n s) x y
| agree_record fs x y : (x = JNull <-> y = JNull) ->
    (forall k s, In (k, s) fs -> agree s (field x k) (field y k)) -> agree (SRecord fs) x y.

(** Two sessions with the same inputs whose data agree. *)
Definition agreeing (sh : shape) : list (Input * json) -> list (Input * json) -> Prop :=
  Forall2 (fun a b => fst a = fst b /\ agree sh (snd a) (snd b)).

(** No list as a whole passes through a transformer: [*row="9 {rows}"], not
    [*row="9 {rows | sorted}"].  (A transformer is application code that is given the
    data as it is.) *)
Definition plain_lists (sh : shape) (v : View) : Prop := forall p n s bs b,
  shape_at sh p = Some (SList n s) -> obj_get (pointer_string p) (v_bindings v) = Some bs -> In b bs -> bd_pipe b = [].
