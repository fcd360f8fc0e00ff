(** * Vocabulary for reading the page (C70): a client that draws it. *)
From stdpp Require Import gmap.
From Verif Require Import Str Res Element Tree View Fragment SpecLive.

(** What an application does to draw the page (the examples of /repo do this): take an element, then
    its children and theirs.  [Hang] when [fuel] runs out. *)
Fixpoint walk (fuel : nat) (t : Tree) (e : Element) : res (list Element) :=
  match fuel with
  | 0 => Hang
  | S fuel =>
      do! cs <- fragment_children t e;
      do! ls <- mapR (walk fuel t) cs;
      Ok (e :: List.concat ls)
  end.
Definition drawn (fuel : nat) (v : View) : res (list Element) :=
  do! b <- view_body v; walk fuel (v_tree v) b.

(** The nodes below (and with) [n] that are attached now. *)
Definition on_page (t : Tree) (n m : NodeId) : Prop := rtc (fun p c => c ∈ attached t p) n m.
