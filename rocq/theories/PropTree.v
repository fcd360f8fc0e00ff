(** * Properties C05, C08-C13, C47-C50: the page follows the data.

    Vocabulary: SpecLive.v (what is attached, defined and shown; slots and what
    reactions write to them), SpecLog.v (a history with its reactions),
    SpecBind.v and SpecReact.v (data, transformers).  [flat (v_bindings v0)]
    lists the bindings of the loaded view with their pointers; BText n k is
    piece [k] of text node [n], BAttribute n key k piece [k] of an attribute,
    BTag n key an on/off attribute, BVisibility p c vis a conditional child,
    BRepeat p s z a repeat whose copies are the children [s, s + z) of [p]. *)
From Coq Require Import Lia.
From stdpp Require Import gmap.
From RecordUpdate Require Import RecordUpdate.
From Verif Require Import Str F32 Res Json PropKey Html Css Element Tree ViewModel Render Update Matching
  Cascade Initial Animation Apply Styling Events View SpecBind SpecReact SpecTree SpecLive SpecLog
  LiveView LiveHistory LiveOrder LiveData Samples.

(** C08.  After any history a conditional child is attached exactly when the
    last reaction about it said visible (and not before any). *)
Theorem C08_shown_iff_last_visible : forall X fuel doc css v0 hist v log p b q c vis,
  from_document X fuel doc css = Ok v0 -> reacted X fuel v0 hist v log ->
  In (p, b) (flat (v_bindings v0)) -> bd_params b = BVisibility q c vis ->
  (c ∈ attached (v_tree v) q <-> last_written (SChild q c) log = Some (WFlag true)).
Proof. exact child_history. Qed.
Print Assumptions C08_shown_iff_last_visible.

(** C08.  In a parent without repeats (the document root apart, which only has
    the body) the attached children are always in template order. *)
Theorem C08_conditional_children_in_order : forall X fuel doc css v0 hist v log q,
  from_document X fuel doc css = Ok v0 -> reacted X fuel v0 hist v log ->
  q <> v_root v0 -> (forall p b s z, In (p, b) (flat (v_bindings v0)) -> bd_params b <> BRepeat q s z) ->
  in_order (attached (v_tree v) q) (defined (v_tree v) q).
Proof. exact conditional_order. Qed.
Print Assumptions C08_conditional_children_in_order.

(** C09.  One repeat reaction in any reached view attaches exactly the children
    [s, c), detaches [c, z), leaves the others, attaches no child twice and
    changes no other parent, text or attribute. *)
Theorem C09_one_repeat : forall X fuel doc css v0 hist v os p s c z t' ids',
  from_document X fuel doc css = Ok v0 -> updates X fuel v0 hist = Ok (v, os) ->
  reaction_ok (v_tree v) (RRepeat p s c z) -> update_tree (x_read_inline_css X) (v_tree v, v_ids v) (RRepeat p s c z) = Ok (t', ids') ->
  (forall d, d ∈ attached t' p <-> d ∈ block s c (defined (v_tree v) p) \/ (d ∈ attached (v_tree v) p /\ d ∉ block c z (defined (v_tree v) p))) /\
  NoDup (attached t' p) /\ (forall q, q <> p -> attached t' q = attached (v_tree v) q) /\
  (forall n i, text_span t' n i = text_span (v_tree v) n i) /\ (forall n k, attr t' n k = attr (v_tree v) n k).
Proof. exact repeat_step. Qed.
Print Assumptions C09_one_repeat.

(** C09.  After any history copy [j] of a repeat is attached exactly when [j] is
    below the count of the last reaction of that repeat (all copies are attached
    before the first). *)
Theorem C09_repeat_shows_first_items : forall X fuel doc css v0 hist v log p b q s z,
  from_document X fuel doc css = Ok v0 -> reacted X fuel v0 hist v log ->
  In (p, b) (flat (v_bindings v0)) -> bd_params b = BRepeat q s z ->
  forall j c, j < z -> defined (v_tree v) q !! (s + j) = Some c ->
  (c ∈ attached (v_tree v) q <-> forall k, last_written (SRange q s z) log = Some (WCount k) -> j < k).
Proof. exact range_history. Qed.
Print Assumptions C09_repeat_shows_first_items.

(** C09.  A child that is neither conditional nor a copy is always attached. *)
Theorem C09_other_children_stay : forall X fuel doc css v0 hist v log q c,
  from_document X fuel doc css = Ok v0 -> reacted X fuel v0 hist v log -> c ∈ defined (v_tree v) q ->
  (forall p b, In (p, b) (flat (v_bindings v0)) -> match bd_params b with
     | BVisibility q' c' _ => (q', c') <> (q, c)
     | BRepeat q' s z => q' = q -> c ∉ block s (s + z) (defined (v_tree v) q)
     | _ => True end) -> c ∈ attached (v_tree v) q.
Proof. exact plain_history. Qed.
Print Assumptions C09_other_children_stay.

(** C10 as stated is false: in [<ul><li *item="3 {items}"/> <p/></ul>] with 3,
    then 1, then 2 items, the second item comes after the [p]. *)
Definition tail_page : Html :=
  document [elem "ul" [] [elem "li" [EBRepeat "item" 3 (get ["items"])] [text [TSBinder (get ["item"; "name"])]]; elem "p" [] []]].
Definition some_items (names : list string) : json := JObj [("items", JArr (map item names))].
Theorem C10_repeat_order_refuted :
  match run world tail_page css_empty
    [(frame [], some_items ["a"; "b"; "c"]); (frame [], some_items ["a"]); (frame [], some_items ["a"; "b"])] with
  | Ok (v, _) => (defined (v_tree v) 2, attached (v_tree v) 2)
  | _ => ([], [])
  end = ([3; 5; 7; 9], [3; 9; 5]).
Proof. vm_compute. reflexivity. Qed.
Print Assumptions C10_repeat_order_refuted.

(** C10 for a parent in which nothing follows the copies of a repeat: the
    children are always in template order, whatever the lengths and the
    conditions of other children.  Missing: parents with children after a
    repeat, for which the claim is false. *)
Theorem C10_repeat_order_partial : forall X fuel doc css v0 hist v log q,
  from_document X fuel doc css = Ok v0 -> reacted X fuel v0 hist v log -> q <> v_root v0 ->
  (forall p b s z, In (p, b) (flat (v_bindings v0)) -> bd_params b = BRepeat q s z -> 0 < z -> s + z = List.length (defined (v_tree v0) q)) ->
  in_order (attached (v_tree v) q) (defined (v_tree v) q).
Proof. exact order_history. Qed.
Print Assumptions C10_repeat_order_partial.

(** C11.  A piece of a text or attribute always is what was last written to
    exactly that piece, or what it was when loaded. *)
Theorem C11_pieces_are_independent : forall X fuel doc css v0 hist v log l,
  from_document X fuel doc css = Ok v0 -> reacted X fuel v0 hist v log ->
  match l with SText _ _ | SAttr _ _ _ => True | _ => False end ->
  forall w, (last_written l log = Some w \/ (last_written l log = None /\ shows (v_tree v0) l w)) -> shows (v_tree v) l w.
Proof. exact piece_history. Qed.
Print Assumptions C11_pieces_are_independent.

(** C11.  An attribute made of pieces always has the pieces put together as its
    value, if it had when loaded and is not also an on/off attribute. *)
Theorem C11_attribute_is_its_pieces : forall X fuel doc css v0 hist v log n key,
  from_document X fuel doc css = Ok v0 -> reacted X fuel v0 hist v log ->
  (forall p b, In (p, b) (flat (v_bindings v0)) -> bd_params b <> BTag n key) ->
  joined (v_tree v0) n key -> joined (v_tree v) n key.
Proof. exact joined_history. Qed.
Print Assumptions C11_attribute_is_its_pieces.

(** C12.  In any reached view all reactions of any value refer to existing nodes
    of the right kind, and applying them succeeds. *)
Theorem C12_reactions_never_fail : forall X fuel doc css v0,
  from_document X fuel doc css = Ok v0 -> forall hist v os x m rs,
  updates X fuel v0 hist = Ok (v, os) -> view_bind X v x = Ok (m, rs) ->
  Forall (reaction_ok (v_tree v)) rs /\ is_ok (update_trees (x_read_inline_css X) (v_tree v, v_ids v) rs) = true.
Proof. exact reactions_succeed. Qed.
Print Assumptions C12_reactions_never_fail.

(** C12.  Neither does hiding the conditional elements when the view is loaded:
    loading succeeds whenever rendering and matching the style sheet do. *)
Theorem C12_loading_never_fails_late : forall X fuel doc css templates body r root b d t,
  scan_document (h_children doc) ∅ = (templates, body) ->
  render (x_translate X) (x_read_inline_css X) templates fuel body renderer_new = Ok (r, root, b) ->
  memorize_array_default "" (r_schema r) ∅ = Ok d ->
  calculate_elements_stylesheet (tree_depth (r_tree r)) (x_debug X) (css_styles css) b (r_tree r) = Ok t ->
  is_ok (from_document X fuel doc css) = true.
Proof. exact load_succeeds. Qed.
Print Assumptions C12_loading_never_fails_late.

(** C13 as stated is false: after the bound id changes from "a" to "b" the
    element is still found under "a". *)
Definition id_page : Html := document [elem "div" [EBAttribute "id" [TSBinder (get ["x"])]] []].
Definition field_x (w : json) : json := JObj [("x", w)].
Theorem C13_lookup_by_id_refuted :
  match run world id_page css_empty [(frame [], field_x (str "a")); (frame [], field_x (str "b"))] with
  | Ok (v, _) => match get_element_by_id v "a" with Some e => e_attrs e !! "id" | None => None end
  | _ => None
  end = Some "b".
Proof. vm_compute. reflexivity. Qed.
Print Assumptions C13_lookup_by_id_refuted.

(** C13 when no id attribute is bound to data: whatever is found in any reached
    view has the id it was looked up by, if that was so when loaded.  Missing:
    bound ids, for which the claim is false. *)
Theorem C13_lookup_by_id_partial : forall X fuel doc css v0 hist v os,
  from_document X fuel doc css = Ok v0 -> updates X fuel v0 hist = Ok (v, os) ->
  (forall p b n i, In (p, b) (flat (v_bindings v0)) -> bd_params b <> BAttribute n "id" i /\ bd_params b <> BTag n "id") ->
  (forall s e, get_element_by_id v0 s = Some e -> e_attrs e !! "id" = Some s) ->
  forall s e, get_element_by_id v s = Some e -> e_attrs e !! "id" = Some s.
Proof. exact id_lookup. Qed.
Print Assumptions C13_lookup_by_id_partial.

(** C05 as stated is false for null: a field that is null from the start keeps
    showing the placeholder, and an item that disappears and comes back as null
    shows its old text. *)
Definition text_page : Html := document [elem "p" [] [text [TSBinder (get ["x"])]]].
Theorem C05_null_shows_placeholder_refuted :
  match run world text_page css_empty [(frame [], field_x JNull)] with
  | Ok (v, _) => (node_text v 3, eval_string (x_fmt_f64 world) JNull)
  | _ => (None, "")
  end = (Some ["{ x }"], "").
Proof. vm_compute. reflexivity. Qed.
Print Assumptions C05_null_shows_placeholder_refuted.
Definition names (l : list json) : json := JObj [("items", JArr (map (fun w => JObj [("name", w)]) l))].
Theorem C05_null_item_shows_old_text_refuted :
  match run world tail_page css_empty [(frame [], names [str "a"; str "b"]); (frame [], names [str "a"]); (frame [], names [str "a"; JNull])] with
  | Ok (v, _) => (value_at (v_model v) [Key "items"; Index 1; Key "name"], node_text v 6)
  | _ => (None, None)
  end = (Some JNull, Some ["b"]).
Proof. vm_compute. reflexivity. Qed.
Print Assumptions C05_null_item_shows_old_text_refuted.

(** C05 for values other than null: after any history of fitting values ending
    with [x], a text piece bound to a field shows the string form of the field's
    value in [x], after the transformers.  ([w0] is [w] but for the sign of a
    zero, which the code ignores when comparing.)  Missing: null, for which the
    claim is false. *)
Theorem C05_text_shows_current_value_partial : forall X fuel doc css v0,
  from_document X fuel doc css = Ok v0 -> forall sh, v_model v0 = initial_model sh -> wf_shape sh = true ->
  forall hist i x v os, Forall (fun e => fits sh (snd e) = true) (hist ++ [(i, x)]) -> json_wf x = true ->
  updates X fuel v0 (hist ++ [(i, x)]) = Ok (v, os) ->
  forall pos b, In (pointer_string pos, b) (flat (v_bindings v0)) ->
  forall n k w, bd_params b = BText n k -> shape_at sh pos = Some SLeaf -> value_at (project sh x) pos = Some w -> w <> JNull ->
  exists w0 w', json_eq w0 w = true /\ piped (v_transformers v0) (bd_pipe b) w0 w' /\
    text_span (v_tree v) n k = Some (eval_string (x_fmt_f64 X) w').
Proof. exact text_current. Qed.
Print Assumptions C05_text_shows_current_value_partial.

(** C05 for null: once a field outside lists has had a value other than null (in
    update [x1]), its text shows the current value, null or not. *)
Theorem C05_null_after_a_value_partial : forall X fuel doc css v0 sh h1 i1 x1 h2 v os pos b n k,
  from_document X fuel doc css = Ok v0 -> v_model v0 = initial_model sh -> wf_shape sh = true ->
  Forall (fun e => fits sh (snd e) = true) (h1 ++ (i1, x1) :: h2) -> updates X fuel v0 (h1 ++ (i1, x1) :: h2) = Ok (v, os) ->
  In (pointer_string pos, b) (flat (v_bindings v0)) -> bd_params b = BText n k -> shape_at sh pos = Some SLeaf ->
  key_only pos -> source x1 pos <> JNull ->
  exists w w', value_at (v_model v) pos = Some w /\ piped (v_transformers v0) (bd_pipe b) w w' /\
    text_span (v_tree v) n k = Some (eval_string (x_fmt_f64 X) w').
Proof. exact settled_text. Qed.
Print Assumptions C05_null_after_a_value_partial.

(** C47.  The same for a piece of an attribute that only this binding writes. *)
Theorem C47_attribute_shows_current_value_partial : forall X fuel doc css v0,
  from_document X fuel doc css = Ok v0 -> forall sh, v_model v0 = initial_model sh -> wf_shape sh = true ->
  forall hist i x v os, Forall (fun e => fits sh (snd e) = true) (hist ++ [(i, x)]) -> json_wf x = true ->
  updates X fuel v0 (hist ++ [(i, x)]) = Ok (v, os) ->
  forall pos b, In (pointer_string pos, b) (flat (v_bindings v0)) ->
  forall n key k w, bd_params b = BAttribute n key k ->
  (forall p' b', In (p', b') (flat (v_bindings v0)) -> bd_params b' = BAttribute n key k -> p' = pointer_string pos /\ b' = b) ->
  shape_at sh pos = Some SLeaf -> value_at (project sh x) pos = Some w -> w <> JNull ->
  exists w0 w' spans, json_eq w0 w = true /\ piped (v_transformers v0) (bd_pipe b) w0 w' /\
    attr_spans (v_tree v) n key = Some spans /\ (k < List.length spans -> spans !! k = Some (eval_string (x_fmt_f64 X) w')).
Proof. exact attr_current. Qed.
Print Assumptions C47_attribute_shows_current_value_partial.

(** C48.  The same for an on/off attribute that only this binding writes. *)
Theorem C48_tag_shows_current_value_partial : forall X fuel doc css v0,
  from_document X fuel doc css = Ok v0 -> forall sh, v_model v0 = initial_model sh -> wf_shape sh = true ->
  forall hist i x v os, Forall (fun e => fits sh (snd e) = true) (hist ++ [(i, x)]) -> json_wf x = true ->
  updates X fuel v0 (hist ++ [(i, x)]) = Ok (v, os) ->
  forall pos b, In (pointer_string pos, b) (flat (v_bindings v0)) ->
  forall n key w, bd_params b = BTag n key ->
  (forall p' b', In (p', b') (flat (v_bindings v0)) -> bd_params b' = BTag n key -> p' = pointer_string pos /\ b' = b) ->
  (forall p' b' i, In (p', b') (flat (v_bindings v0)) -> bd_params b' <> BAttribute n key i) ->
  shape_at sh pos = Some SLeaf -> value_at (project sh x) pos = Some w -> w <> JNull ->
  exists w0 w', json_eq w0 w = true /\ piped (v_transformers v0) (bd_pipe b) w0 w' /\
    attr (v_tree v) n key = if eval_boolean w' then Some key else None.
Proof. exact tag_current. Qed.
Print Assumptions C48_tag_shows_current_value_partial.

(** C49 as stated is false for null: [<p !x>] is hidden when [x] is null from the
    start, though it is shown when [x] is false. *)
Definition not_page : Html := document [elem "p" [EBVisibility false (get ["x"])] []].
Theorem C49_visibility_null_refuted :
  match run world not_page css_empty [(frame [], field_x JNull)], run world not_page css_empty [(frame [], field_x (JBool false))] with
  | Ok (v, _), Ok (v', _) => (attached (v_tree v) 1, attached (v_tree v') 1, eval_boolean JNull)
  | _, _ => ([], [], true)
  end = ([], [2], false).
Proof. vm_compute. reflexivity. Qed.
Print Assumptions C49_visibility_null_refuted.

(** C49 for values other than null: a conditional child is attached exactly when
    the value's boolean reading is the one the condition asks for. *)
Theorem C49_visibility_follows_data_partial : forall X fuel doc css v0,
  from_document X fuel doc css = Ok v0 -> forall sh, v_model v0 = initial_model sh -> wf_shape sh = true ->
  forall hist i x v os, Forall (fun e => fits sh (snd e) = true) (hist ++ [(i, x)]) -> json_wf x = true ->
  updates X fuel v0 (hist ++ [(i, x)]) = Ok (v, os) ->
  forall pos b, In (pointer_string pos, b) (flat (v_bindings v0)) ->
  forall q c vis w, bd_params b = BVisibility q c vis -> shape_at sh pos = Some SLeaf -> value_at (project sh x) pos = Some w -> w <> JNull ->
  exists w0 w', json_eq w0 w = true /\ piped (v_transformers v0) (bd_pipe b) w0 w' /\
    (c ∈ attached (v_tree v) q <-> eval_boolean w' = vis).
Proof. exact child_current. Qed.
Print Assumptions C49_visibility_follows_data_partial.

Theorem C49_null_after_a_value_partial : forall X fuel doc css v0 sh h1 i1 x1 h2 v os pos b q c vis,
  from_document X fuel doc css = Ok v0 -> v_model v0 = initial_model sh -> wf_shape sh = true ->
  Forall (fun e => fits sh (snd e) = true) (h1 ++ (i1, x1) :: h2) -> updates X fuel v0 (h1 ++ (i1, x1) :: h2) = Ok (v, os) ->
  In (pointer_string pos, b) (flat (v_bindings v0)) -> bd_params b = BVisibility q c vis -> shape_at sh pos = Some SLeaf ->
  key_only pos -> source x1 pos <> JNull ->
  exists w w', value_at (v_model v) pos = Some w /\ piped (v_transformers v0) (bd_pipe b) w w' /\
    (c ∈ attached (v_tree v) q <-> eval_boolean w' = vis).
Proof. exact settled_child. Qed.
Print Assumptions C49_null_after_a_value_partial.

(** C50 as stated is false for a repeat inside a repeat: a row that disappears
    with one cell and comes back with two shows one. *)
Definition grid_page : Html :=
  document [elem "table" [] [elem "tr" [EBRepeat "row" 2 (get ["rows"])]
              [elem "td" [EBRepeat "cell" 2 (get ["row"; "cells"])] []]]].
Definition grid (rows : list nat) : json :=
  JObj [("rows", JArr (map (fun n => JObj [("cells", JArr (repeat (num_n 1) n))]) rows))].
Theorem C50_nested_repeat_refuted :
  match run world grid_page css_empty [(frame [], grid [2; 1]); (frame [], grid [2]); (frame [], grid [2; 2])] with
  | Ok (v, _) => (attached (v_tree v) 2, defined (v_tree v) 6, attached (v_tree v) 6)
  | _ => ([], [], [])
  end = ([3; 6], [7; 8], [7]).
Proof. vm_compute. reflexivity. Qed.
Print Assumptions C50_nested_repeat_refuted.

(** C50 for a list that is not inside a list and has no transformers: after any
    history of fitting values ending with [x], copy [j] is attached exactly when
    the list in [x] has an item [j].  ([z <= n]: the template's room for the
    list is at least the copies of this repeat, see C06.)  Missing: lists inside
    lists, for which the claim is false. *)
Theorem C50_repeat_follows_data_partial : forall X fuel doc css v0,
  from_document X fuel doc css = Ok v0 -> forall sh, v_model v0 = initial_model sh -> wf_shape sh = true ->
  forall hist i x v os, Forall (fun e => fits sh (snd e) = true) (hist ++ [(i, x)]) -> json_wf x = true ->
  updates X fuel v0 (hist ++ [(i, x)]) = Ok (v, os) ->
  forall pos b, In (pointer_string pos, b) (flat (v_bindings v0)) ->
  forall q s z n s0, bd_params b = BRepeat q s z -> bd_pipe b = [] -> key_only pos -> shape_at sh pos = Some (SList n s0) -> z <= n ->
  forall j c, j < z -> defined (v_tree v) q !! (s + j) = Some c ->
    (c ∈ attached (v_tree v) q <-> j < List.length (items (source x pos))).
Proof. exact list_current. Qed.
Print Assumptions C50_repeat_follows_data_partial.

(** The hypotheses are met: a page with a title, an attribute, a condition, a
    flag and a list, over three updates. *)
Definition full_page : Html :=
  document [elem "div" [EBAttribute "class" [TSString "c-"; TSBinder (get ["kind"])]; EBTag "disabled" (get ["off"]); EBNone "id" "top"]
              [text [TSString "Title: "; TSBinder (get ["title"])]];
            elem "p" [EBVisibility true (get ["shown"])] [];
            elem "ul" [] [elem "li" [EBRepeat "item" 3 (get ["items"])] [text [TSBinder (get ["item"; "name"])]]]].
Definition full_shape : shape :=
  SRecord [("items", SList 3 (SRecord [("name", SLeaf)])); ("kind", SLeaf); ("off", SLeaf); ("shown", SLeaf); ("title", SLeaf)].
Definition full_data (kind title : string) (off shown : bool) (l : list string) : json :=
  JObj [("items", JArr (map item l)); ("kind", str kind); ("off", JBool off); ("shown", JBool shown); ("title", str title)].
Definition full_history : list (Input * json) :=
  [(frame [], full_data "a" "one" false true ["x"; "y"; "z"; "t"]); (frame [], full_data "a" "two" true false []);
   (frame [], full_data "b" "two" true true ["p"; "q"])].
Example full_page_loads : succeeds (from_document world 20 full_page css_empty)
  (fun v0 => v_model v0 = initial_model full_shape /\ wf_shape full_shape = true /\ v_root v0 = 0 /\
     map (fun e => (fst e, slot_of (bd_params (snd e)))) (flat (v_bindings v0)) =
       [("/items", SRange 5 0 3); ("/items/0/name", SText 7 0); ("/items/1/name", SText 9 0); ("/items/2/name", SText 11 0);
        ("/kind", SAttr 2 "class" 1); ("/off", STag 2 "disabled"); ("/shown", SChild 1 4); ("/title", SText 3 1)] /\
     attr_spans (v_tree v0) 2 "class" = Some ["c-"; "{ kind }"] /\ attr (v_tree v0) 2 "class" = Some "c-{ kind }" /\
     v_ids v0 = {["top" := 2]} /\ attr (v_tree v0) 2 "id" = Some "top").
Proof. witness. Qed.
Example full_history_fits : Forall (fun e => fits full_shape (snd e) = true /\ json_wf (snd e) = true) full_history.
Proof. repeat constructor. Qed.
Example full_history_shows :
  match run world full_page css_empty full_history with
  | Ok (v, _) => (node_text v 3, attr (v_tree v) 2 "class", attr (v_tree v) 2 "disabled", attached (v_tree v) 1, attached (v_tree v) 5, node_text v 9)
  | _ => (None, None, None, [], [], None)
  end = (Some ["Title: "; "two"], Some "c-b", Some "disabled", [2; 4; 5], [6; 8], Some ["q"]).
Proof. vm_compute. reflexivity. Qed.
