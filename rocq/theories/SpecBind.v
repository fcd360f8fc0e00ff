(** * Specification vocabulary for data binding (C01-C06).

    Nothing here depends on the binding code: positions in a JSON value, the
    shape of the data a template uses, the data that fits it. *)
From stdpp Require Import gmap.
From Verif Require Import Str Json.

(** A position inside a value. *)
Inductive step := Key (k : string) | Index (i : nat).
Global Instance step_eq : EqDecision step.
Proof. solve_decision. Defined.
Definition position_ := list step.

Definition step_string (s : step) : string :=
  match s with Key k => k | Index i => fmt_nat i end.

(** the JSON pointer naming a position, e.g. "/items/3/name" *)
Fixpoint pointer_string (p : position_) : string :=
  match p with
  | [] => ""
  | s :: p => "/" +:+ step_string s +:+ pointer_string p
  end.

Definition step_at (v : json) (s : step) : option json :=
  match s, v with
  | Key k, JObj m => obj_get k m
  | Index i, JArr l => l !! i
  | _, _ => None
  end.
Fixpoint value_at (v : json) (p : position_) : option json :=
  match p with
  | [] => Some v
  | s :: p => match step_at v s with Some w => value_at w p | None => None end
  end.

(** What a template does with the data: shows a scalar, repeats a block over a
    list (with room for [n] items), or takes fields of a record. *)
Inductive shape :=
| SLeaf
| SList (n : nat) (s : shape)
| SRecord (fs : list (string * shape)).

Fixpoint shape_at (sh : shape) (p : position_) : option shape :=
  match p with
  | [] => Some sh
  | Index _ :: p => match sh with SList _ s => shape_at s p | _ => None end
  | Key k :: p =>
      match sh with
      | SRecord fs => match obj_get k fs with Some s => shape_at s p | None => None end
      | _ => None
      end
  end.

(** The model before the first update: null scalars, lists with all the items
    the template has room for. *)
Fixpoint initial_model (sh : shape) : json :=
  match sh with
  | SLeaf => JNull
  | SList n s => JArr (repeat (initial_model s) n)
  | SRecord fs => JObj (map (fun e => (fst e, initial_model (snd e))) fs)
  end.

Definition is_list (sh : shape) : bool := match sh with SList _ _ => true | _ => false end.
Fixpoint no_slash (s : string) : bool :=
  match s with "" => true | String a s => negb (Ascii.eqb a "/") && no_slash s end.

(** Shapes covered by the theorems: room for at least one item, no list whose
    items are themselves lists, distinct field names in sorted order. *)
Fixpoint wf_shape (sh : shape) : bool :=
  match sh with
  | SLeaf => true
  | SList n s => (1 <=? n)%nat && negb (is_list s) && wf_shape s
  | SRecord fs => obj_sorted fs && forallb (fun e => no_slash (fst e)) fs && forallb (fun e => wf_shape (snd e)) fs
  end.

Definition scalar (v : json) : bool :=
  match v with JArr _ | JObj _ => false | _ => true end.
(** a field of a value, null when it is missing or the value is no object *)
Definition field (v : json) (k : string) : json :=
  match v with
  | JObj m => match obj_get k m with Some w => w | None => JNull end
  | _ => JNull
  end.
Definition items (v : json) : list json := match v with JArr l => l | _ => [] end.

(** The application passes data that fits the shape; null fits everything and
    extra fields are allowed. *)
Fixpoint fits (sh : shape) (v : json) : bool :=
  match sh with
  | SLeaf => scalar v
  | SList _ s => match v with JNull => true | JArr l => forallb (fits s) l | _ => false end
  | SRecord fs =>
      match v with
      | JNull => true
      | JObj _ => forallb (fun e => fits (snd e) (field v (fst e))) fs
      | _ => false
      end
  end.

(** The part of the data the template uses. *)
Fixpoint project (sh : shape) (v : json) : json :=
  match sh with
  | SLeaf => v
  | SList _ s => JArr (map (project s) (items v))
  | SRecord fs => JObj (map (fun e => (fst e, project (snd e) (field v (fst e)))) fs)
  end.

(** A model of the right shape. *)
Fixpoint model_of (sh : shape) (m : json) : bool :=
  match sh with
  | SLeaf => scalar m
  | SList _ s => match m with JArr l => forallb (model_of s) l | _ => false end
  | SRecord fs =>
      match m with
      | JObj o =>
          (fix go (fs : list (string * shape)) (o : list (string * json)) : bool :=
             match fs, o with
             | [], [] => true
             | (k, s) :: fs, (l, w) :: o => String.eqb k l && model_of s w && go fs o
             | _, _ => false
             end) fs o
      | _ => false
      end
  end.

(** The stored value at a position before an update; an item that did not exist
    counts as the template's initial item. *)
Definition zeroed (p : position_) : position_ :=
  map (fun s => match s with Index _ => Index 0 | Key k => Key k end) p.
Definition old_value (sh : shape) (m : json) (p : position_) : json :=
  match value_at m p with
  | Some v => v
  | None => match value_at (initial_model sh) (zeroed p) with Some v => v | None => JNull end
  end.

(** The value the application passed at a position, null when it is missing. *)
Definition source (v : json) (p : position_) : json :=
  match value_at v p with Some x => x | None => JNull end.

(** Position [p] holds a scalar that this update changes to [w], or a list whose
    length changes (then [w] is the new list). *)
Definition value_change (sh : shape) (m v : json) (p : position_) (w : json) : Prop :=
  match shape_at sh p with
  | Some SLeaf => value_at (project sh v) p = Some w /\ json_eq (old_value sh m p) w = false
  | Some (SList _ _) =>
      exists l, value_at (project sh v) p = Some (JArr l) /\
                List.length (items (old_value sh m p)) <> List.length l /\
                w = JArr (items (source v p))
  | _ => False
  end.

(** All changes: also every record with a change below it, reported as [{}], or
    null when the application passed none. *)
Definition is_change (sh : shape) (m v : json) (p : position_) (w : json) : Prop :=
  match shape_at sh p with
  | Some (SRecord _) =>
      (exists q w', value_change sh m v (p ++ q) w') /\
      w = match source v p with JNull => JNull | _ => JObj [] end
  | _ => value_change sh m v p w
  end.

(** a position that is not inside a list *)
Definition key_only (p : position_) : Prop := Forall (fun s => match s with Key _ => True | Index _ => False end) p.
