(** * Properties C68 and C69: what an update changes, and what it depends on.

    Vocabulary: SpecLocal.v ([agree_at], [place_agrees], [decided]), SpecLive.v
    (what is attached, defined and shown), SpecBind.v (data and shapes).  [flat
    (v_bindings v0)] lists the bindings of the loaded view with their pointers;
    a slot is a place of the page a binding writes: a piece of a text, a piece
    of an attribute, an on/off attribute, a conditional child, a range of
    repeated children. *)
From Coq Require Import Lia.
From stdpp Require Import gmap.
From RecordUpdate Require Import RecordUpdate.
From Verif Require Import Str F32 Res Json PropKey Html Css Element Tree ViewModel Render Update Matching
  Cascade Initial Animation Apply Styling Events View SpecBind SpecReact SpecTree SpecLive SpecLog SpecLocal
  LiveView LiveHistory LiveOrder LiveData LocalFacts Samples PropTree.

(** C68.  An update changes only what is bound to data that changed.  After any
    history of fitting values ending with [y], an update with [x] leaves alone
    every text piece, every attribute and every list of children whose bindings
    are all for data on which [y] and [x] agree. *)
Theorem C68_untouched_places_stay : forall X fuel doc css v0 sh hist i y v os j x v' o,
  from_document X fuel doc css = Ok v0 -> v_model v0 = initial_model sh -> wf_shape sh = true ->
  Forall (fun e => fits sh (snd e) = true) (hist ++ [(i, y)]) -> json_wf y = true -> updates X fuel v0 (hist ++ [(i, y)]) = Ok (v, os) ->
  fits sh x = true -> update X fuel v j x = Ok (v', o) ->
  (forall n k, place_agrees sh (v_bindings v0) y x (SText n k) -> text_span (v_tree v') n k = text_span (v_tree v) n k) /\
  (forall n key, (forall k, place_agrees sh (v_bindings v0) y x (SAttr n key k)) -> attr_spans (v_tree v') n key = attr_spans (v_tree v) n key) /\
  (forall n key, (forall k, place_agrees sh (v_bindings v0) y x (SAttr n key k)) -> place_agrees sh (v_bindings v0) y x (STag n key) ->
     attr (v_tree v') n key = attr (v_tree v) n key) /\
  (forall q, (forall c, place_agrees sh (v_bindings v0) y x (SChild q c)) -> (forall s z, place_agrees sh (v_bindings v0) y x (SRange q s z)) ->
     attached (v_tree v') q = attached (v_tree v) q).
Proof. exact untouched_places. Qed.
Print Assumptions C68_untouched_places_stay.

(** C69 as stated is false: what is shown for null depends on what was shown
    before (the placeholder or the empty string). *)
Theorem C69_page_depends_on_history_refuted :
  match run world text_page css_empty [(frame [], field_x JNull)], run world text_page css_empty [(frame [], field_x (str "a")); (frame [], field_x JNull)] with
  | Ok (v, _), Ok (v', _) => (node_text v 3, node_text v' 3)
  | _, _ => (None, None)
  end = (Some ["{ x }"], Some [""]).
Proof. vm_compute. reflexivity. Qed.
Print Assumptions C69_page_depends_on_history_refuted.

(** C69 for the places the data decides: two views of the same page whose
    histories of fitting values, whatever they are, both end with [x], show the
    same texts, attributes and children there, and the same children in the
    same order where repeats stand last (see C10).  Missing: null and the two
    zeros, for which the claim is false, lists inside lists (C50), places that
    several bindings write. *)
Theorem C69_page_is_function_of_data_partial : forall X fuel doc css v0 sh x h1 i1 v1 os1 h2 i2 v2 os2,
  from_document X fuel doc css = Ok v0 -> v_model v0 = initial_model sh -> wf_shape sh = true -> json_wf x = true ->
  Forall (fun e => fits sh (snd e) = true) (h1 ++ [(i1, x)]) -> updates X fuel v0 (h1 ++ [(i1, x)]) = Ok (v1, os1) ->
  Forall (fun e => fits sh (snd e) = true) (h2 ++ [(i2, x)]) -> updates X fuel v0 (h2 ++ [(i2, x)]) = Ok (v2, os2) ->
  (forall n k, decided sh (v_bindings v0) x (SText n k) -> text_span (v_tree v1) n k = text_span (v_tree v2) n k) /\
  (forall n key, (forall k, decided sh (v_bindings v0) x (SAttr n key k)) ->
     attr_spans (v_tree v1) n key = attr_spans (v_tree v2) n key) /\
  (forall n key, (forall k, decided sh (v_bindings v0) x (SAttr n key k)) ->
     (forall p b, In (p, b) (flat (v_bindings v0)) -> bd_params b <> BTag n key) -> joined (v_tree v0) n key ->
     attr (v_tree v1) n key = attr (v_tree v2) n key) /\
  (forall n key, decided sh (v_bindings v0) x (STag n key) ->
     (forall p b k, In (p, b) (flat (v_bindings v0)) -> bd_params b <> BAttribute n key k) ->
     attr (v_tree v1) n key = attr (v_tree v2) n key) /\
  (forall q, q <> v_root v0 ->
     (forall c, decided sh (v_bindings v0) x (SChild q c)) -> (forall s z, decided sh (v_bindings v0) x (SRange q s z)) ->
     (forall c, c ∈ attached (v_tree v1) q <-> c ∈ attached (v_tree v2) q) /\
     ((forall p b s z, In (p, b) (flat (v_bindings v0)) -> bd_params b = BRepeat q s z -> 0 < z -> s + z = List.length (defined (v_tree v0) q)) ->
        attached (v_tree v1) q = attached (v_tree v2) q)).
Proof.
  intros X fuel doc css v0 sh x h1 i1 v1 os1 h2 i2 v2 os2 H0 Hm Hw Hx Hf1 Hu1 Hf2 Hu2.
  assert (R1 : reaches X fuel v0 sh x v1) by (exists h1, i1, os1; split; [exact Hf1|exact Hu1]).
  assert (R2 : reaches X fuel v0 sh x v2) by (exists h2, i2, os2; split; [exact Hf2|exact Hu2]).
  split; [intros n k; exact (same_text _ _ _ _ _ _ H0 Hm Hw _ Hx v1 v2 n k R1 R2)|].
  split; [intros n key; exact (same_spans _ _ _ _ _ _ H0 Hm Hw _ Hx v1 v2 n key R1 R2)|].
  split; [intros n key; exact (same_attr _ _ _ _ _ _ H0 Hm Hw _ Hx v1 v2 n key R1 R2)|].
  split; [intros n key; exact (same_flag _ _ _ _ _ _ H0 Hm Hw _ Hx v1 v2 n key R1 R2)|].
  intros q Hq Hd Hr.
  assert (Hmem : forall c, c ∈ attached (v_tree v1) q <-> c ∈ attached (v_tree v2) q).
  { intros c. split; [exact (same_child _ _ _ _ _ _ H0 Hm Hw _ Hx v1 v2 q c R1 R2 Hq Hd Hr)|exact (same_child _ _ _ _ _ _ H0 Hm Hw _ Hx v2 v1 q c R2 R1 Hq Hd Hr)]. }
  split; [exact Hmem|]. intros Hlast.
  exact (same_children _ _ _ _ _ H0 _ _ v1 v2 q R1 R2 Hq Hlast Hmem).
Qed.
Print Assumptions C69_page_is_function_of_data_partial.

(** The hypotheses are met: on the page of PropTree.v an update that only changes
    the title agrees on every other place ... *)
Definition full_bindings : list (position_ * Binding) :=
  [([Key "items"], mkBinding (BRepeat 5 0 3) []); ([Key "items"; Index 0; Key "name"], mkBinding (BText 7 0) []);
   ([Key "items"; Index 1; Key "name"], mkBinding (BText 9 0) []); ([Key "items"; Index 2; Key "name"], mkBinding (BText 11 0) []);
   ([Key "kind"], mkBinding (BAttribute 2 "class" 1) []); ([Key "off"], mkBinding (BTag 2 "disabled") []);
   ([Key "shown"], mkBinding (BVisibility 1 4 true) []); ([Key "title"], mkBinding (BText 3 1) [])].
Example full_page_bindings : succeeds (from_document world 20 full_page css_empty)
  (fun v0 => flat (v_bindings v0) = map (fun e => (pointer_string (fst e), snd e)) full_bindings).
Proof. witness. Qed.
Definition before : json := full_data "a" "one" false true ["x"; "y"; "z"].
Definition after : json := full_data "a" "two" false true ["x"; "y"; "z"].
Example C68_hypotheses_met : forall bs l, flat bs = map (fun e => (pointer_string (fst e), snd e)) full_bindings ->
  l <> SText 3 1 -> place_agrees full_shape bs before after l.
Proof.
  intros bs l E Hl p b Hin Hs. rewrite E in Hin. clear E. apply in_map_iff in Hin as ([pos b'] & [= <- <-] & Hin). cbn [fst snd] in Hs.
  exists pos. split; [reflexivity|].
  repeat (destruct Hin as [[= <- <-]|Hin];
    [first [by destruct (Hl (eq_sym Hs))|split; [eexists; reflexivity|];
       eexists; eexists; split; [vm_compute; reflexivity|]; split; [vm_compute; reflexivity|]; vm_compute; reflexivity]|]).
  destruct Hin.
Qed.
(** ... and with three items everything is decided by the data. *)
Example C69_hypotheses_met : forall bs l, flat bs = map (fun e => (pointer_string (fst e), snd e)) full_bindings ->
  decided full_shape bs after l.
Proof.
  intros bs l E p b Hin Hs. unfold decided in *. rewrite E in *. clear E. apply in_map_iff in Hin as ([pos b'] & [= <- <-] & Hin). cbn [fst snd] in Hs. subst l. split.
  - intros p' b2 Hin' Hs'. apply in_map_iff in Hin' as ([pos' b3] & [= <- <-] & Hin'). cbn [fst snd] in Hs'.
    enough ((pos', b3) = (pos, b')) as [= -> ->] by done.
    repeat (destruct Hin as [[= <- <-]|Hin]; [repeat (destruct Hin' as [[= <- <-]|Hin']; [first [reflexivity|discriminate Hs']|]); destruct Hin'|]). destruct Hin.
  - exists pos. split; [reflexivity|].
    destruct Hin as [[= <- <-]|Hin]; [split; [repeat constructor|]; split; [reflexivity|]; do 2 eexists; split; [reflexivity|lia]|].
    repeat (destruct Hin as [[= <- <-]|Hin]; [split; [reflexivity|]; eexists; split; [vm_compute; reflexivity|]; split; [discriminate|exact (fun H => H)]|]).
    destruct Hin.
Qed.
(** Two different histories with the same end. *)
Example C69_histories :
  match run world full_page css_empty (full_history ++ [(frame [], after)]), run world full_page css_empty [(frame [], after)] with
  | Ok (v, _), Ok (v', _) => (attr (v_tree v) 2 "class", attached (v_tree v) 5, node_text v 3) = (attr (v_tree v') 2 "class", attached (v_tree v') 5, node_text v' 3)
      /\ node_text v 3 = Some ["Title: "; "two"] /\ attached (v_tree v) 5 = [6; 8; 10]
  | _, _ => False
  end.
Proof. vm_compute. repeat split. Qed.
