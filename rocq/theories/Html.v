(** * Template syntax tree: src/html/reader.rs:30-124 and [Binder] of src/view_model.rs:568-598. *)
From stdpp Require Import gmap.
From Verif Require Import Str.

(** src/view_model.rs:568-572 *)
Record Binder := mkBinder { b_path : list string; b_pipe : list string }.

(** src/view_model.rs:575-583 *)
Definition binder_to_string (b : Binder) : string :=
  let path := join "." (b_path b) in
  if (0 <? List.length (b_pipe b))%nat
  then "{ " +:+ path +:+ " | " +:+ join " | " (b_pipe b) +:+ " }"
  else "{ " +:+ path +:+ " }".

(** src/html/reader.rs:97-102 *)
Inductive CallbackArgument :=
| CAKeyword (k : string)
| CAEvent
| CABinder (b : Binder).

(** src/html/reader.rs:119-123 *)
Inductive TextSpan :=
| TSString (s : string)
| TSBinder (b : Binder).

(** src/html/reader.rs:104-107: [TextBinding] is its list of spans. *)
Definition TextBinding := list TextSpan.

(** src/html/reader.rs:86-95 *)
Inductive ElementBinding :=
| EBNone (key value : string)
| EBAlias (name : string) (b : Binder)
| EBTag (key : string) (b : Binder)
| EBAttribute (key : string) (text : TextBinding)
| EBRepeat (name : string) (count : nat) (b : Binder)
| EBCallback (event : string) (args : list CallbackArgument)
| EBVisibility (visible : bool) (b : Binder).

(** src/html/reader.rs:30-36 *)
Inductive Html := mkHtml {
  h_tag : string;
  h_bindings : list ElementBinding;
  h_text : option TextBinding;
  h_children : list Html
}.

(** src/html/reader.rs:39-46 *)
Definition html_empty : Html := mkHtml "" [] None [].

(** src/html/reader.rs:111-116 *)
Definition as_simple_text (t : TextBinding) : option string :=
  match t with
  | [TSString s] => Some s
  | _ => None
  end.

(** src/html/reader.rs:48-66: the loop keeps the last [href] and all bindings that are not [href]. *)
Fixpoint link_scan (bs : list ElementBinding) (id : option string) (acc : list ElementBinding)
  : option string * list ElementBinding :=
  match bs with
  | [] => (id, acc)
  | EBNone name value :: bs' =>
      if String.eqb name "href" then link_scan bs' (Some value) acc
      else link_scan bs' id (acc ++ [EBNone name value])
  | b :: bs' => link_scan bs' id (acc ++ [b])
  end.

Definition as_template_link (h : Html) : option (string * list ElementBinding) :=
  if String.eqb (h_tag h) "link" then
    match link_scan (h_bindings h) None [] with
    | (Some id, bindings) => Some (id, bindings)
    | (None, _) => None
    end
  else None.

(** src/html/reader.rs:68-75 *)
Fixpoint first_visibility (bs : list ElementBinding) : option (bool * Binder) :=
  match bs with
  | [] => None
  | EBVisibility v b :: _ => Some (v, b)
  | _ :: bs' => first_visibility bs'
  end.
Definition as_visibility (h : Html) : option (bool * Binder) := first_visibility (h_bindings h).

(** src/html/reader.rs:77-84 *)
Fixpoint first_repeat (bs : list ElementBinding) : option (string * nat * Binder) :=
  match bs with
  | [] => None
  | EBRepeat name count b :: _ => Some (name, count, b)
  | _ :: bs' => first_repeat bs'
  end.
Definition as_repeat (h : Html) : option (string * nat * Binder) := first_repeat (h_bindings h).

(** The aliases of an element, in order (the loop of src/rendering.rs:230-238). *)
Definition aliases (bs : list ElementBinding) : list (string * Binder) :=
  omap (fun b => match b with EBAlias n b => Some (n, b) | _ => None end) bs.

(** src/view_model.rs:587-597; [self.path[0]] panics on an empty path, which the
    grammar ([Getter] needs one key) never produces. *)
Definition to_json_pointer (locals : gmap string string) (b : Binder) : option string :=
  match b_path b with
  | [] => None
  | head :: tail =>
      let head := match locals !! head with Some p => p | None => "/" +:+ head end in
      Some (match tail with
            | [] => head
            | _ => head +:+ "/" +:+ join "/" tail
            end)
  end.
