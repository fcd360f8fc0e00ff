(** * Property C84: the box of the page and the viewport.  Vocabulary: SpecViewport.v. *)
From Coq Require Import ZArith.
From stdpp Require Import gmap.
From RecordUpdate Require Import RecordUpdate.
From Verif Require Import Str F32 Res ResFacts Json PropKey Html Css Element Tree ViewModel Render Update Matching
  Cascade Initial Animation Apply Styling Events View SpecViewport ViewportFacts Samples.

(** C84.  After any history the root has the size that its viewports give one
    after the other, whatever the data, the events and the style sheet are. *)
Theorem C84_root_box : forall X fuel doc css v0 hist v os, from_document X fuel doc css = Ok v0 -> updates X fuel v0 hist = Ok (v, os) ->
  exists b, box_after (map (fun e => in_viewport (fst e)) hist) b /\ root_has v b /\
    forall b', box_after (map (fun e => in_viewport (fst e)) hist) b' -> b' = b.
Proof. intros X fuel doc css v0 hist v os H0 H. destruct (root_history _ _ _ _ _ _ _ _ H0 H) as (b & Hb & Hr). exists b. split; [done|]. split; [done|]. intros b' Hb'. exact (box_unique _ _ _ Hb' Hb). Qed.
Print Assumptions C84_root_box.
(** C84.  The first update, and any update with a viewport of which both sides
    are new, gives the root the size of its viewport. *)
Theorem C84_new_viewport_partial : forall X fuel doc css v0 hist v os i x v' o b, from_document X fuel doc css = Ok v0 -> updates X fuel v0 hist = Ok (v, os) ->
  update X fuel v i x = Ok (v', o) -> root_has v b -> both_differ b (in_viewport i) -> root_has v' (Sized (in_viewport i)).
Proof. intros X fuel doc css v0 hist v os i x v' o b H0 H Hu Hb. exact (proj1 (root_step _ _ _ _ _ _ _ _ _ _ _ _ H0 H Hu b Hb)). Qed.
Print Assumptions C84_new_viewport_partial.
(** C84.  But a window of which one side keeps its length is not noticed: the
    root keeps the old size, whatever the other side is. *)
Theorem C84_follows_viewport_refuted : forall X fuel doc css v0 hist v os i x v' o s, from_document X fuel doc css = Ok v0 -> updates X fuel v0 hist = Ok (v, os) ->
  update X fuel v i x = Ok (v', o) -> root_has v (Sized s) ->
  feq (fst s) (fst (in_viewport i)) = true \/ feq (snd s) (snd (in_viewport i)) = true -> root_has v' (Sized s).
Proof.
  intros X fuel doc css v0 hist v os i x v' o s H0 H Hu Hb Hs. apply (proj2 (root_step _ _ _ _ _ _ _ _ _ _ _ _ H0 H Hu (Sized s) Hb)).
  intros [A B]. destruct Hs as [E|E]; [rewrite E in A|rewrite E in B]; discriminate.
Qed.
Print Assumptions C84_follows_viewport_refuted.

(** an 800 x 600 window made 300 high: the root is still 600 high; then 400 x 300: both sides follow *)
Definition window (w h : Z) : Input := mkInput (in_time (frame [])) (f32_of_Z w, f32_of_Z h) [].
Definition root_is (w h : Z) (v : View) : Prop :=
  match t_nodes (v_tree v) !! v_root v with
  | Some x => match ts_size (n_style x) with mkSize (DimLength a) (DimLength b) => feq a (f32_of_Z w) && feq b (f32_of_Z h) | _ => false end
  | None => false end = true.
Definition one_box : Html := document [elem "p" [] []].
Example C84_resizing :
  succeeds (run boxes one_box css_empty [(window 800 600, JNull)]) (fun '(v, _) => root_is 800 600 v) /\
  succeeds (run boxes one_box css_empty [(window 800 600, JNull); (window 800 300, JNull)]) (fun '(v, _) => root_is 800 600 v) /\
  succeeds (run boxes one_box css_empty [(window 800 600, JNull); (window 800 300, JNull); (window 400 300, JNull)]) (fun '(v, _) => root_is 400 300 v).
Proof. split; [|split]; witness. Qed.
