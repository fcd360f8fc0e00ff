(** * Vocabulary for the effect of a change of the data (C68, C69). *)
From stdpp Require Import gmap.
From Verif Require Import Str F32 Json Element Tree ViewModel SpecTree SpecBind SpecLive.

(** Two values passed by the application agree at a position the template uses: the same scalar
    there, or lists of the same length; for a record, agreement at every position inside it that
    the new value has. *)
Definition agree_here (sh : shape) (y x : json) (p : position_) : Prop :=
  match shape_at sh p with
  | Some SLeaf => exists a b, value_at (project sh y) p = Some a /\ value_at (project sh x) p = Some b /\ json_eq a b = true
  | Some (SList _ _) => exists a b, value_at (project sh y) p = Some (JArr a) /\ value_at (project sh x) p = Some (JArr b) /\ List.length a = List.length b
  | _ => True
  end.
Definition agree_at (sh : shape) (y x : json) (p : position_) : Prop :=
  match shape_at sh p with
  | Some (SRecord _) => forall q, is_Some (value_at (project sh x) (p ++ q)) -> agree_here sh y x (p ++ q)
  | _ => agree_here sh y x p
  end.

(** Everything a place of the page is bound to is the same in both values. *)
Definition place_agrees (sh : shape) (bs : Bindings) (y x : json) (l : slot) : Prop :=
  forall p b, In (p, b) (flat bs) -> slot_of (bd_params b) = l ->
  exists pos, p = pointer_string pos /\ is_Some (shape_at sh pos) /\ agree_at sh y x pos.

(** The two zeros of floating point, which JSON comparison does not tell apart. *)
Definition is_zero (v : json) : Prop :=
  match v with JNum (NFloat f) => f64_eq f f64_0 = true | _ => False end.

(** The data decides what a place shows: it is written by at most one binding, for a scalar that
    is there and neither null nor a zero fraction, or for a list outside lists. *)
Definition decided (sh : shape) (bs : Bindings) (x : json) (l : slot) : Prop :=
  forall p b, In (p, b) (flat bs) -> slot_of (bd_params b) = l ->
  (forall p' b', In (p', b') (flat bs) -> slot_of (bd_params b') = l -> p' = p /\ b' = b) /\
  exists pos, p = pointer_string pos /\
    match l with
    | SRange _ _ z => key_only pos /\ bd_pipe b = [] /\ exists n s0, shape_at sh pos = Some (SList n s0) /\ z <= n
    | _ => shape_at sh pos = Some SLeaf /\ exists w, value_at (project sh x) pos = Some w /\ w <> JNull /\ ~ is_zero w
    end.
