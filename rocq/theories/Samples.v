(** * Concrete documents and views used to show that hypotheses can be met and
      to witness refutations. *)
From stdpp Require Import gmap.
From RecordUpdate Require Import RecordUpdate.
From Verif Require Import Str F32 Res Json PropKey Html Css Element Tree ViewModel Render Update Matching
  Cascade Initial Animation Apply Styling Events View.

(** a world without transformers, with a trivial layout *)
Definition world : Externals :=
  mkExternals (fun _ => "float") (fun s => s) (fun _ => None) (fun s => map_to_list s)
    (fun _ _ => layout_zero) ∅ false.
(** every node is a 100 x 100 box at the origin of its parent *)
Definition boxes : Externals :=
  mkExternals (fun _ => "float") (fun s => s) (fun _ => None) (fun s => map_to_list s)
    (fun _ _ => mkLayout vzero (f100, f100) (f100, f100)) ∅ false.

Definition css_empty : Css := mkCss [] ∅.
Definition frame (events : list InputEvent) : Input := mkInput f0 (f100, f100) events.

Definition get (path : list string) : Binder := mkBinder path [].
Definition text (l : list TextSpan) : Html := mkHtml "" [] (Some l) [].
Definition elem (tag : string) (bs : list ElementBinding) (cs : list Html) : Html := mkHtml tag bs None cs.
Definition document (cs : list Html) : Html := elem "" [] [elem "body" [] cs].

(** <div>{ title }</div> <ul><li *item="3 {items}">{ item.name }</li></ul> *)
Definition list_page : Html :=
  document [elem "div" [] [text [TSBinder (get ["title"])]];
            elem "ul" [] [elem "li" [EBRepeat "item" 3 (get ["items"])] [text [TSBinder (get ["item"; "name"])]]]].

Definition str (s : string) : json := JStr s.
Definition item (s : string) : json := JObj [("name", str s)].
Definition list_data (title : string) (names : list string) : json :=
  JObj [("items", JArr (map item names)); ("title", str title)].

(** the outcome of loading a document and running updates *)
Definition run (X : Externals) (doc : Html) (css : Css) (hist : list (Input * json)) : res (View * list Output) :=
  do! v <- from_document X 20 doc css; updates X 20 v hist.

Definition outcome_kind {A} (r : res A) : string :=
  match r with Ok _ => "ok" | Err _ => "err" | Panic => "panic" | Hang => "hang" end.

(** text of a node *)
Definition node_text (v : View) (n : NodeId) : option (list string) :=
  e ← get_ctx (v_tree v) n; e_text e.
Definition num_n (n : N) : json := JNum (NPos n).

(** a computation that succeeds with a result satisfying [P] *)
Definition succeeds {A} (r : res A) (P : A -> Prop) : Prop := exists a, r = Ok a /\ P a.
Lemma succeeds_intro {A} (r : res A) (P : A -> Prop) : match r with Ok a => P a | _ => False end -> succeeds r P.
Proof. destruct r; [|done..]. intros H. by exists a. Qed.
Ltac witness := apply succeeds_intro; vm_compute; repeat split.
