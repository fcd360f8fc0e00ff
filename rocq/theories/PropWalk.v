(** * Property C70: reading the page.

    Vocabulary: SpecWalk.v ([drawn]: an application that takes the body and goes
    through the children of every fragment; [on_page]), SpecLive.v ([attached]). *)
From stdpp Require Import gmap.
From Verif Require Import Str F32 Res Json PropKey Html Css Element Tree ViewModel Render Update Matching
  Cascade Initial Animation Apply Styling Events View Fragment SpecTree SpecLive SpecWalk WalkFacts Samples PropTree.

(** C70.  After any history an application that draws the page, from the body
    through the children of every fragment, meets no panic, comes to an end after at most as
    many levels as there are nodes, and has seen every element that is attached below the body
    exactly once, as it is. *)
Theorem C70_page_can_be_read : forall X fuel doc css v0 hist v os,
  from_document X fuel doc css = Ok v0 -> updates X fuel v0 hist = Ok (v, os) ->
  exists es, (forall steps, t_next (v_tree v) <= steps -> drawn steps v = Ok es) /\ NoDup (map e_node es) /\
    (forall n, n ∈ map e_node es <-> on_page (v_tree v) (v_body v) n) /\ Forall (fun e => get_ctx (v_tree v) (e_node e) = Some e) es.
Proof. exact page_drawn. Qed.
Print Assumptions C70_page_can_be_read.

(** The children of a fragment are the elements attached to it, in order. *)
Theorem C70_children_in_order : forall X fuel doc css v0 hist v os n e,
  from_document X fuel doc css = Ok v0 -> updates X fuel v0 hist = Ok (v, os) -> get_ctx (v_tree v) n = Some e ->
  exists es, fragment_children (v_tree v) e = Ok es /\ map e_node es = attached (v_tree v) n /\
    Forall (fun c => get_ctx (v_tree v) (e_node c) = Some c) es.
Proof. exact fragment_page. Qed.
Print Assumptions C70_children_in_order.

Example C70_ex :
  match run world full_page css_empty full_history with
  | Ok (v, _) => match drawn 20 v with Ok es => (map e_node es, map e_tag es, t_next (v_tree v)) | _ => ([], [], 0) end
  | _ => ([], [], 0)
  end = ([1; 2; 3; 4; 5; 6; 7; 8; 9], ["body"; "div"; ""; "p"; "ul"; "li"; ""; "li"; ""], 12).
Proof. vm_compute. reflexivity. Qed.
