(** * Properties C01-C04: binding data to a view.

    Vocabulary: SpecBind.v (shapes, positions, projections, changes),
    SpecReact.v (what a binding does with a value). *)
From stdpp Require Import gmap.
From RecordUpdate Require Import RecordUpdate.
From Verif Require Import Str F32 Res Json PropKey Html Css Element Tree ViewModel Render Update Matching
  Cascade Initial Animation Apply Styling Events View SpecBind SpecReact SpecView BindProps Samples.

(** C01.  After any successful update with a (well-formed) value, binding the
    same value again gives no reaction and the same model, and a second update
    with it, with any input, changes neither the model, nor the ids, nor any
    text, attribute, tag or child list of the tree ([same_content]). *)
Theorem C01_rebind_no_op : forall X fuel v i1 x v1 o1,
  json_wf x = true -> update X fuel v i1 x = Ok (v1, o1) ->
  view_bind X v1 x = Ok (v_model v1, []) /\
  forall i2 v2 o2, update X fuel v1 i2 x = Ok (v2, o2) ->
    v_model v2 = v_model v1 /\ v_ids v2 = v_ids v1 /\ same_content (v_tree v1) (v_tree v2).
Proof. exact update_again. Qed.
Print Assumptions C01_rebind_no_op.

(** C02.  After any sequence of updates with values that fit the template, the
    model is the template's part of the last value. *)
Theorem C02_model_is_last_value : forall X fuel doc css v0 sh hist i x v os,
  from_document X fuel doc css = Ok v0 -> v_model v0 = initial_model sh -> wf_shape sh = true ->
  Forall (fun e => fits sh (snd e) = true) (hist ++ [(i, x)]) -> json_wf x = true ->
  updates X fuel v0 (hist ++ [(i, x)]) = Ok (v, os) ->
  json_eq (v_model v) (project sh x) = true.
Proof. exact last_value_only. Qed.
Print Assumptions C02_model_is_last_value.

(** C03.  In a view reached by any history of fitting values, binding a fitting
    value produces the reactions of exactly the changed positions ([cs] lists
    every change, each pointer once), every binding of a changed position
    reacting once with the new value after its transformers. *)
Theorem C03_every_change_reported_once : forall X fuel doc css v0 sh hist v os x m rs,
  from_document X fuel doc css = Ok v0 -> v_model v0 = initial_model sh -> wf_shape sh = true ->
  Forall (fun e => fits sh (snd e) = true) hist -> updates X fuel v0 hist = Ok (v, os) ->
  fits sh x = true -> view_bind X v x = Ok (m, rs) ->
  exists cs rss,
    (forall p w, In (p, w) cs <-> is_change sh (v_model v) x p w) /\
    NoDup (map (fun c => pointer_string (fst c)) cs) /\
    Forall2 (fun c r => told (x_fmt_f64 X) (v_bindings v) (v_transformers v) (fst c) (snd c) r) cs rss /\
    rs = List.concat rss.
Proof. exact every_change_reported_history. Qed.
Print Assumptions C03_every_change_reported_once.

(** C04 as stated is false: a template with the text [{ a }], an update with
    [{"a": [1, 2]}] followed by one with [{"a": [1]}] panics. *)
Definition leaf_page : Html := document [elem "div" [] [text [TSBinder (get ["a"])]]].
Theorem C04_binding_never_panics_refuted :
  run world leaf_page css_empty
    [(frame [], JObj [("a", JArr [num_n 1; num_n 2])]); (frame [], JObj [("a", JArr [num_n 1])])] = Panic.
Proof. vm_compute. reflexivity. Qed.
Print Assumptions C04_binding_never_panics_refuted.

(** C04 for values that fit the template: if no transformer fails, binding
    always succeeds, after any history of fitting values.  Missing: values that
    do not fit, for which the claim is false. *)
Theorem C04_binding_never_panics_partial : forall X fuel doc css v0 sh hist v os x,
  from_document X fuel doc css = Ok v0 -> v_model v0 = initial_model sh -> wf_shape sh = true ->
  Forall (fun e => fits sh (snd e) = true) hist -> updates X fuel v0 hist = Ok (v, os) ->
  (forall name f y, v_transformers v !! name = Some f -> is_ok (f y) = true) ->
  fits sh x = true -> exists m rs, view_bind X v x = Ok (m, rs).
Proof. exact binding_total. Qed.
Print Assumptions C04_binding_never_panics_partial.

(** The hypotheses are met by a page with a title and a repeated list. *)
Definition list_shape : shape :=
  SRecord [("items", SList 3 (SRecord [("name", SLeaf)])); ("title", SLeaf)].
Definition list_history : list (Input * json) :=
  [(frame [], list_data "t1" ["a"; "b"; "c"; "d"]); (frame [], list_data "t2" ["a"]); (frame [], list_data "t2" ["x"; "y"])].

Example list_page_loads : succeeds (from_document world 20 list_page css_empty)
  (fun v0 => v_model v0 = initial_model list_shape /\ wf_shape list_shape = true).
Proof. witness. Qed.
Example list_history_fits : Forall (fun e => fits list_shape (snd e) = true /\ json_wf (snd e) = true) list_history.
Proof. repeat constructor. Qed.
Example list_history_runs :
  match run world list_page css_empty list_history with
  | Ok (v, _) => json_eq (v_model v) (list_data "t2" ["x"; "y"])
                 && match view_bind world v (list_data "t3" ["x"; "z"]) with Ok (_, rs) => (List.length rs =? 2)%nat | _ => false end
  | _ => false
  end = true.
Proof. vm_compute. reflexivity. Qed.
