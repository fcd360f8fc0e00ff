(** * Properties C14-C16, C46: rendering a template.

    Vocabulary: SpecRender.v ([meaning]: what a template stands for when names
    are scoped lexically), SpecTree.v ([stands]: a template's meaning found in
    the element tree; [tree_ok], [binding_ok]: well-formedness). *)
From stdpp Require Import gmap.
From RecordUpdate Require Import RecordUpdate.
From Verif Require Import Str F32 Res Json PropKey Html Css Element Tree ViewModel Render Update Matching
  Cascade Initial Animation Apply Styling Events View SpecRender SpecTree RenderMore Samples.

(** C14.  Rendering agrees with lexical scoping: every element of the rendered
    tree, every binding and every pointer is the one the name stands for where
    it is written; and rendering fails when a name or link has no meaning. *)
Theorem C14_names_are_lexical : forall read translate templates fuel body,
  clean templates body ->
  match meaning translate templates fuel ∅ body with
  | Some rn => exists r, render translate read templates fuel body renderer_new = Ok (r, 0, 1) /\
      stands read (r_tree r) (Some 0) 1 rn /\ flat (r_bindings r) ≡ₚ bindings_of 1 rn
  | None => is_ok (render translate read templates fuel body renderer_new) = false
  end.
Proof. exact render_lexical. Qed.
Print Assumptions C14_names_are_lexical.

(** C14.  After any element the local names are what they were before it. *)
Theorem C14_locals_restored : forall read translate templates fuel h r r' n,
  beyond (r_tree r) -> clean templates h ->
  render_node translate read templates fuel h r = Ok (r', n) -> r_locals r' = r_locals r.
Proof. exact render_node_locals. Qed.
Print Assumptions C14_locals_restored.

(** Distinct alias names are needed: here the second [x] hides the first, and
    the first is visible to the sibling after the element. *)
Definition leak_page : Html :=
  document [elem "div" [EBAlias "x" (get ["a"]); EBAlias "x" (get ["b"])] []; elem "p" [] [text [TSBinder (get ["x"])]]].
Theorem C14_duplicate_alias_leaks_refuted :
  match from_document world 20 leak_page css_empty with
  | Ok v => existsb (fun e => String.eqb (fst e) "/a") (flat (v_bindings v)) && negb (existsb (fun e => String.eqb (fst e) "/x") (flat (v_bindings v)))
  | _ => false
  end = true.
Proof. vm_compute. reflexivity. Qed.
Print Assumptions C14_duplicate_alias_leaks_refuted.

(** C15.  Whatever the template, the rendered tree is well formed and every
    binding refers to an existing node, span or children range. *)
Theorem C15_rendered_tree_well_formed : forall read translate templates fuel body r root b,
  render translate read templates fuel body renderer_new = Ok (r, root, b) ->
  tree_ok (r_tree r) root /\ beyond (r_tree r) /\
  (forall p bd, In (p, bd) (flat (r_bindings r)) -> binding_ok (r_tree r) bd).
Proof. exact render_well_formed. Qed.
Print Assumptions C15_rendered_tree_well_formed.

(** C16.  A repeated child [c] of [h] (a template link resolved) becomes
    [count] consecutive children; copy [i] is what [c] stands for with the loop
    name naming item [i] of the list, the list's pointer [p] is bound to that
    range of children, and every binding of every copy is registered. *)
Theorem C16_repeat_renders_count_copies : forall read translate templates fuel h before c0 after c name count b r r' n,
  beyond (r_tree r) -> obj_sorted (r_bindings r) = true -> clean templates h ->
  h_text h = None -> String.eqb (h_tag h) "img" = false -> existsb (String.eqb (h_tag h)) childless = false ->
  h_children h = before ++ c0 :: after -> linked templates c0 = Some c ->
  as_visibility c = None -> as_repeat c = Some (name, count, b) ->
  render_node translate read templates (S fuel) h r = Ok (r', n) ->
  exists binds kids1 copies kids2 marks E names p,
    stands read (r_tree r') None n (RElem (h_tag h) binds (kids1 ++ copies ++ kids2) marks) /\
    resolve_aliases (r_locals r) (aliases (h_bindings c)) = Some (E, names) /\ resolve E b = Some p /\
    List.length copies = count /\
    (forall i, i < count -> copies !! i = meaning translate templates fuel (<[name := p +:+ "/" +:+ fmt_nat i]> E) c) /\
    In (p, mkBinding (BRepeat n (List.length kids1) count) (b_pipe b)) (flat (r_bindings r')) /\
    (forall i j c', place (S n) (kids1 ++ copies ++ kids2) !! (List.length kids1 + i) = Some c' ->
       copies !! i = Some j -> forall e, In e (bindings_of c' j) -> In e (flat (r_bindings r'))).
Proof. exact render_repeat. Qed.
Print Assumptions C16_repeat_renders_count_copies.

(** The loop name must differ from the head of the list's path: in
    [<li *item="2 {item}">{ item }</li>] the second copy is bound to "/item/0/1". *)
Definition shadow_page : Html :=
  document [elem "ul" [] [elem "li" [EBRepeat "item" 2 (get ["item"])] [text [TSBinder (get ["item"])]]]].
Theorem C16_own_name_in_list_refuted :
  match from_document world 20 shadow_page css_empty with
  | Ok v => existsb (fun e => String.eqb (fst e) "/item/0/1") (flat (v_bindings v)) && negb (existsb (fun e => String.eqb (fst e) "/item/1") (flat (v_bindings v)))
  | _ => false
  end = true.
Proof. vm_compute. reflexivity. Qed.
Print Assumptions C16_own_name_in_list_refuted.

(** C46.  A template that links to itself is never rendered, however long one
    waits; a rendering that ends does not depend on the recursion bound. *)
Definition endless_page : Html :=
  elem "" [] [elem "template" [EBNone "id" "t"] [elem "div" [] [elem "link" [EBNone "href" "#t"] []]];
              elem "body" [] [elem "link" [EBNone "href" "#t"] []]].
Theorem C46_rendering_ends_refuted : forall fuel, from_document world fuel endless_page css_empty = Hang.
Proof.
  intros fuel. unfold from_document.
  destruct (scan_document (h_children endless_page) ∅) as [templates body] eqn:Es.
  assert (Hbody : body = elem "body" [] [elem "link" [EBNone "href" "#t"] []]) by (vm_compute in Es; by injection Es as _ <-).
  assert (Ht : templates !! "#t" = Some (elem "div" [] [elem "link" [EBNone "href" "#t"] []])).
  { assert (templates = fst (scan_document (h_children endless_page) ∅)) as -> by (by rewrite Es). vm_compute. reflexivity. }
  clear Es. subst body.
  assert (H : forall f r h, h_text h = None -> h_tag h = "div" \/ h_tag h = "body" -> h_bindings h = [] ->
    h_children h = [elem "link" [EBNone "href" "#t"] []] ->
    render_node (x_translate world) (x_read_inline_css world) templates f h r = Hang).
  { induction f as [|f IH]; intros r h Htx Htag Hb Hc; [done|]. cbn [render_node]. rewrite Htx, Hb, Hc. cbn [new_leaf foldR bindR].
    cbn [e_tag create_element set]. 
    assert (String.eqb (h_tag h) "img" = false) as -> by (by destruct Htag as [-> | ->]).
    assert (is_void (h_tag h) = false) as -> by (by destruct Htag as [-> | ->]).
    assert (expand_child templates (elem "link" [EBNone "href" "#t"] []) =
      Ok (elem "div" [] [elem "link" [EBNone "href" "#t"] []])) as -> by (unfold expand_child; cbn; by rewrite Ht).
    cbn [bindR aliases omap list_omap h_bindings elem foldR as_visibility as_repeat first_visibility first_repeat].
    rewrite IH; [done|..]; cbn; auto. }
  unfold render. cbn [new_leaf renderer_new r_tree tree_new].
  unfold set_ctx, get_node. cbn [t_nodes t_next]. rewrite lookup_insert. cbn [unwrap bindR].
  rewrite H; cbn; auto.
Qed.
Print Assumptions C46_rendering_ends_refuted.

Theorem C46_fuel_does_not_matter : forall translate read templates fuel fuel' body r,
  fuel <= fuel' -> render translate read templates fuel body r <> Hang ->
  render translate read templates fuel' body r = render translate read templates fuel body r.
Proof. exact render_fuel. Qed.
Print Assumptions C46_fuel_does_not_matter.

(** The hypotheses are met: a page with aliases, a template link, a condition
    and a loop inside a loop is clean and has a meaning. *)
Definition rich_page : Html :=
  elem "" [] [elem "template" [EBNone "id" "cell"] [elem "td" [] [text [TSBinder (get ["cell"; "name"]); TSBinder (get ["title"])]]];
              elem "body" []
                [elem "p" [EBVisibility true (get ["shown"]); EBNone "id" "p1"] [text [TSString "hello "; TSBinder (get ["title"])]];
                 elem "table" []
                   [elem "tr" [EBRepeat "row" 2 (get ["rows"]); EBAlias "title" (get ["caption"])]
                      [elem "link" [EBNone "href" "#cell"; EBRepeat "cell" 3 (get ["row"; "cells"])] []]];
                 elem "img" [EBNone "src" "a.png"] []]].
Definition rich_templates : gmap string Html := fst (scan_document (h_children rich_page) ∅).
Definition rich_body : Html := snd (scan_document (h_children rich_page) ∅).

(** decides [clean] for templates that expand within [fuel] levels *)
Fixpoint clean_upto (templates : gmap string Html) (fuel : nat) (h : Html) : bool :=
  match fuel with
  | O => false
  | S fuel => forallb (fun c => match linked templates c with
                                | Some c => bool_decide (NoDup (alias_names c)) && negb (own_name c) && clean_upto templates fuel c
                                | None => true end) (h_children h)
  end.
Lemma clean_upto_clean templates fuel : forall h, clean_upto templates fuel h = true -> clean templates h.
Proof.
  induction fuel as [|fuel IH]; intros h H; [done|]. cbn in H. rewrite forallb_forall in H.
  intros h' Hin. destruct Hin as [h c c' Hc Hl|h c c' d Hc Hl Hd]; specialize (H _ Hc); rewrite Hl in H;
    apply andb_true_iff in H as [H H3]; apply andb_true_iff in H as [H1 H2].
  - split; [by apply bool_decide_eq_true in H1|by apply negb_true_iff].
  - by apply (IH _ H3).
Qed.
Example rich_clean : clean rich_templates rich_body.
Proof. apply (clean_upto_clean _ 10). vm_compute. reflexivity. Qed.
Example rich_rendered :
  match meaning (fun s => s) rich_templates 10 ∅ rich_body, render (fun s => s) (fun _ => None) rich_templates 10 rich_body renderer_new with
  | Some rn, Ok (r, _, _) => (rsize rn =? t_next (r_tree r) - 1)%nat && (List.length (bindings_of 1 rn) =? 17)%nat
      && existsb (fun e => String.eqb (fst e) "/rows/1/cells/2/name") (flat (r_bindings r))
      && existsb (fun e => String.eqb (fst e) "/caption") (flat (r_bindings r))
      && existsb (fun e => String.eqb (fst e) "/title") (flat (r_bindings r))
  | _, _ => false
  end = true.
Proof. vm_compute. reflexivity. Qed.
