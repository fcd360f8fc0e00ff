(** * Property C71: images.

    Vocabulary: SpecImage.v ([is_image], [draws]: what an application finds when it
    draws the image), SpecLive.v ([attr]: the value of an attribute now; [attr_spans]: its pieces). *)
From stdpp Require Import gmap.
From Verif Require Import Str F32 Res Json PropKey Html Css Element Tree ViewModel Render Update Matching
  Cascade Initial Animation Apply Styling Events View SpecBind SpecReact SpecTree SpecLive SpecImage ImageFacts Samples PropSelect StyleSamples.

(** C71.  After any history and whatever the style sheet says, an image draws
    exactly one picture, the one its attribute [src] names now (no name without the attribute).
    Missing, because false (below): images whose [src] is an on/off attribute. *)
Theorem C71_image_draws_its_source_partial : forall X fuel doc css v0 hist v os n,
  from_document X fuel doc css = Ok v0 -> updates X fuel v0 hist = Ok (v, os) ->
  (forall p b, In (p, b) (flat (v_bindings v0)) -> bd_params b <> BTag n "src") ->
  is_image (v_tree v) n -> draws (v_tree v) n (default "" (attr (v_tree v) n "src")).
Proof. exact image_draws. Qed.
Print Assumptions C71_image_draws_its_source_partial.

(** An image whose source is one bound value draws what the data name: after any
    fitting history that ends with [x] it is the text of the value in [x] at that position, through the
    transformers of the binding. *)
Theorem C71_bound_image_follows_data_partial : forall X fuel doc css v0,
  from_document X fuel doc css = Ok v0 -> forall sh, v_model v0 = initial_model sh -> wf_shape sh = true ->
  forall hist i x v os, Forall (fun e => fits sh (snd e) = true) (hist ++ [(i, x)]) -> json_wf x = true ->
  updates X fuel v0 (hist ++ [(i, x)]) = Ok (v, os) ->
  forall pos b, In (pointer_string pos, b) (flat (v_bindings v0)) ->
  forall n w s0, bd_params b = BAttribute n "src" 0 ->
  (forall p' b', In (p', b') (flat (v_bindings v0)) -> bd_params b' = BAttribute n "src" 0 -> p' = pointer_string pos /\ b' = b) ->
  (forall p' b', In (p', b') (flat (v_bindings v0)) -> bd_params b' <> BTag n "src") ->
  is_image (v_tree v0) n -> attr_spans (v_tree v0) n "src" = Some [s0] -> attr (v_tree v0) n "src" = Some s0 ->
  shape_at sh pos = Some SLeaf -> value_at (project sh x) pos = Some w -> w <> JNull ->
  exists w0 w', json_eq w0 w = true /\ piped (v_transformers v0) (bd_pipe b) w0 w' /\ draws (v_tree v) n (eval_string (x_fmt_f64 X) w').
Proof. exact image_follows. Qed.
Print Assumptions C71_bound_image_follows_data_partial.

(** Two images, one fixed and one bound, under rules that give everything and images a background *)
Definition album : Html :=
  document [elem "img" [EBNone "src" "cover.png"] []; elem "p" [EBVisibility true (get ["more"])] [elem "img" [EBAttribute "src" [TSBinder (get ["photo"])]] []]].
Definition album_css : Css :=
  mkCss [rule [[SAll]] [give KBackgroundImage (CStr "paper.png")]; rule [[SType "img"]] [give KBackgroundColor (CColor red)]] ∅.
Definition album_data (more : bool) (photo : string) : Input * json := (frame [], JObj [("more", JBool more); ("photo", str photo)]).
Definition picture (v : View) (n : NodeId) : list (option string * bool) :=
  match attached (v_tree v) n with
  | [c] => match get_ctx (v_tree v) c with Some e => map (fun b => (bg_image b, bg_is_src b)) (e_backgrounds e) | None => [] end
  | _ => []
  end.
Example C71_ex :
  succeeds (run boxes album album_css [album_data true "cat.png"; album_data false "dog.png"; album_data true "dog.png"])
    (fun r => picture (fst r) 2 = [(Some "cover.png", true)] /\ picture (fst r) 5 = [(Some "dog.png", true)] /\
       attr (v_tree (fst r)) 5 "src" = Some "dog.png" /\ attached (v_tree (fst r)) 4 = [5]).
Proof. witness. Qed.
Example C71_bound_ex : succeeds (from_document boxes 20 album album_css)
  (fun v0 => v_model v0 = initial_model (SRecord [("more", SLeaf); ("photo", SLeaf)]) /\
     map (fun e => (fst e, slot_of (bd_params (snd e)))) (flat (v_bindings v0)) = [("/more", SChild 1 4); ("/photo", SAttr 5 "src" 0)] /\
     e_tag <$> get_ctx (v_tree v0) 5 = Some "img" /\
     attr_spans (v_tree v0) 5 "src" = Some ["{ photo }"] /\ attr (v_tree v0) 5 "src" = Some "{ photo }").
Proof. witness. Qed.

(** <img ?src={a}>: the attribute is there, the picture is not *)
Theorem C71_switched_source_refuted :
  succeeds (run boxes (document [elem "img" [EBTag "src" (get ["a"])] []]) css_empty [(frame [], JObj [("a", JBool true)])])
    (fun r => attr (v_tree (fst r)) 2 "src" = Some "src" /\ picture (fst r) 2 = [(Some "", true)]).
Proof. witness. Qed.
Print Assumptions C71_switched_source_refuted.

(** <img style="visibility: hidden">: the picture is drawn all the same, it is
    an element of its own that no style reaches *)
Theorem C71_hidden_image_refuted :
  succeeds (run inks (document [elem "img" [EBNone "src" "a.png"; EBNone "style" "visibility: hidden"] []]) css_empty [(frame [], JObj [])])
    (fun r => e_visible <$> get_ctx (v_tree (fst r)) 2 = Some false /\ picture (fst r) 2 = [(Some "a.png", true)] /\
       e_visible <$> get_ctx (v_tree (fst r)) 3 = Some true).
Proof. witness. Qed.
Print Assumptions C71_hidden_image_refuted.
