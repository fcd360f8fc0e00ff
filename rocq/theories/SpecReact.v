(** * Specification vocabulary for reactions (C03, C05). *)
From stdpp Require Import gmap.
From Verif Require Import Str F32 Res Json ViewModel SpecBind.

(** [piped tr pipe w w']: the named transformers applied in order to [w] give
    [w']; names without a transformer are skipped. *)
Inductive piped (tr : gmap string Transformer) : list string -> json -> json -> Prop :=
| piped_nil w : piped tr [] w w
| piped_unknown name pipe w w' : tr !! name = None -> piped tr pipe w w' -> piped tr (name :: pipe) w w'
| piped_known name f pipe w w1 w' :
    tr !! name = Some f -> f w = Ok w1 -> piped tr pipe w1 w' -> piped tr (name :: pipe) w w'.

(** What a binding asks the tree to do for a (transformed) value. *)
Definition expected (fmt : f64 -> string) (b : BindingParams) (w : json) : Reaction :=
  match b with
  | BText node span => RType node span (eval_string fmt w)
  | BAttribute node key span => RBind node key span (eval_string fmt w)
  | BTag node key => RTag node key (eval_boolean w)
  | BVisibility parent node visible => RReattach parent node (Bool.eqb visible (eval_boolean w))
  | BRepeat parent start size => RRepeat parent start (start + Nat.min size (List.length (items w))) (start + size)
  end.

(** [told .. p w rs]: every binding of position [p], in order, reacted once to [w]. *)
Definition told (fmt : f64 -> string) (bs : Bindings) (tr : gmap string Transformer)
    (p : position_) (w : json) (rs : list Reaction) : Prop :=
  Forall2 (fun b r => exists w', piped tr (bd_pipe b) w w' /\ r = expected fmt (bd_params b) w')
    (match obj_get (pointer_string p) bs with Some l => l | None => [] end) rs.
