(** * Values of properties: C56 shorthands, C57 lengths, C58 inheritance, C59 colours.

    Vocabulary: SpecCss.v ([css_shorthand], [css_pixels], [channel]), SpecValues.v
    ([page], [plain_element], [in_effect], [close]), SpecStyle.v ([wins], [ungiven]),
    SpecShow.v ([meaning]), SpecPage.v ([shows_at]). *)
From Coq Require Import ZArith Reals Lia Lra.
From Flocq Require Import Core.Core IEEE754.BinarySingleNaN.
From stdpp Require Import gmap.
From RecordUpdate Require Import RecordUpdate.
From Verif Require Import Str F32 Res Json PropKey Html Css Element Tree ViewModel Render Update Matching
  Cascade Initial Animation Apply Styling Events View SpecLive SpecView SpecTree SpecSelect SpecStyle SpecShow SpecPage SpecCss SpecValues
  FloatFacts ValueFacts ValuePage Samples PropSelect StyleSamples ValueSamples.
Close Scope R_scope.

(** ** C56 *)
(** A shorthand declaration does exactly what its longhands would do in its
    place, whatever stands around it.  Missing, because false: [gap] with two
    values, [inset] with two or three. *)
Theorem C56_same_as_longhands_partial : forall fuel key sh vs longhands before after st,
  (forall vars s, compute_declaration_block fuel before st = Ok (vars, s) -> compute_shorthand fuel vars sh = Ok vs) ->
  css_shorthand key vs = Some longhands -> css_like key vs ->
  compute_declaration_block fuel (before ++ DeclProperty (mkProperty key [sh]) :: after) st =
  compute_declaration_block fuel (before ++ map (fun '(k, v) => DeclProperty (mkProperty k [[DExplicit v]])) longhands ++ after) st.
Proof. intros fuel key sh vs longhands before after st. exact (shorthand_block fuel key sh vs longhands before after st). Qed.
Print Assumptions C56_same_as_longhands_partial.
(** On a page: every longhand shows its value unless a later declaration gives
    another one. *)
Theorem C56_page_partial : forall X doc css input v t n vars pre key sh post vs longhands k w x,
  page X doc css input v t -> plain_element css v t n -> in_effect css v t n vars (pre ++ DeclProperty (mkProperty key [sh]) :: post) ->
  mean_all (variables_after vars pre) sh vs -> css_shorthand key vs = Some longhands -> css_like key vs -> In (k, w) longhands ->
  ungiven (variables_after vars pre) post k 0 -> SpecShow.meaning (sizes_at (in_viewport input) t (v_body v) n) k w = Some x ->
  shows_at t n k 0 = Some x.
Proof. exact shorthand_page. Qed.
Print Assumptions C56_page_partial.
(** [p { margin: 1px 2px 3px; margin-top: 4px }] *)
Definition px_at (t : Tree) (k : PropertyKey) (z : Z) : Prop :=
  match shows_at t 3 k 0 with
  | Some (VLPA (LPALength f)) | Some (VLP (LPLength f)) | Some (VDimension (DimLength f)) | Some (VNumber f) => feq f (f32_of_Z z)
  | _ => false
  end = true.
Definition margins : list Declaration := [decl KMargin [DExplicit (px 1); DExplicit (px 2); DExplicit (px 3)]; give KMarginTop (px 4)].
Ltac calm := split; tidy.
Example margins_meet : exists v t, page world two_page (two_css [] margins) (frame []) v t /\ plain_element (two_css [] margins) v t 3 /\
  in_effect (two_css [] margins) v t 3 ∅ ([] ++ decl KMargin [DExplicit (px 1); DExplicit (px 2); DExplicit (px 3)] :: [give KMarginTop (px 4)]) /\
  mean_all ∅ [DExplicit (px 1); DExplicit (px 2); DExplicit (px 3)] [px 1; px 2; px 3] /\
  css_shorthand KMargin [px 1; px 2; px 3] = Some [(KMarginTop, px 1); (KMarginRight, px 2); (KMarginBottom, px 3); (KMarginLeft, px 2)] /\
  ungiven ∅ [give KMarginTop (px 4)] KMarginLeft 0 /\
  px_at t KMarginTop 4 /\ px_at t KMarginRight 2 /\ px_at t KMarginBottom 3 /\ px_at t KMarginLeft 2.
Proof.
  destruct (two_meets [] margins (fun t => px_at t KMarginTop 4 /\ px_at t KMarginRight 2 /\ px_at t KMarginBottom 3 /\ px_at t KMarginLeft 2)) as (v & t & Hp & He & Hi & _ & _ & _ & HQ).
  1,2: calm. { witness. }
  exists v, t. split; [exact Hp|]. split; [exact He|]. split; [exact Hi|]. split; [|split; [reflexivity|split; [|exact HQ]]].
  - apply (mean_cons ∅ _ _ [px 1] [px 2; px 3]); [constructor|]. apply (mean_cons ∅ _ _ [px 2] [px 3]); [constructor|]. apply (mean_cons ∅ _ _ [px 3] []); constructor.
  - intros pre d post w E Hg. destruct pre as [|d' [|? ?]]; try discriminate E. injection E as <- <-. destruct Hg as (p & sh & vs & E & Hp' & Hm & Hl). injection E as <-.
    cbn in Hp'. injection Hp' as <-. cbn [p_key] in Hl. inversion Hm as [|? ? vs1 ws1 M1 M2]; subst. inversion M1; subst. inversion M2; subst. discriminate Hl.
Qed.
Definition shows_px (P : list Declaration) (k : PropertyKey) (z : Z) : Prop :=
  succeeds (begin world two_page (two_css [] P) (frame []) (JObj [])) (fun r => px_at (snd (fst (snd r))) k z).
(** C56 is false: [gap: 10px 20px] is a row gap of 20 and a column gap of 10 pixels... *)
Theorem C56_gap_refuted :
  css_shorthand KGap [px 10; px 20] = Some [(KRowGap, px 10); (KColumnGap, px 20)] /\
  shows_px [decl KGap [DExplicit (px 10); DExplicit (px 20)]] KRowGap 20 /\ shows_px [decl KGap [DExplicit (px 10); DExplicit (px 20)]] KColumnGap 10.
Proof. split; [reflexivity|split; witness]. Qed.
(** ...[inset: 1px 2px] and [inset: 1px 2px 3px] do nothing... *)
Theorem C56_inset_refuted :
  css_shorthand KInset [px 1; px 2] = Some [(KTop, px 1); (KRight, px 2); (KBottom, px 1); (KLeft, px 2)] /\
  shows_px [give KTop (px 9); decl KInset [DExplicit (px 1); DExplicit (px 2)]] KTop 9 /\
  shows_px [give KTop (px 9); decl KInset [DExplicit (px 1); DExplicit (px 2); DExplicit (px 3)]] KTop 9.
Proof. split; [reflexivity|split; witness]. Qed.
(** ...and so do [border] with two values and [background] with more than one,
    which CSS allows *)
Definition border_at (t : Tree) (z : Z) : Prop := match shows_at t 3 KBorderTopWidth 0 with Some (VBorder f _) => feq f (f32_of_Z z) | _ => false end = true.
Theorem C56_border_background_refuted :
  succeeds (begin world two_page (two_css [] [decl KBorder [DExplicit (px 1); DExplicit (CKeyword "solid"); DExplicit (CColor red)]; decl KBorder [DExplicit (px 2); DExplicit (CKeyword "solid")]]) (frame []) (JObj []))
    (fun r => border_at (snd (fst (snd r))) 1) /\
  succeeds (begin world two_page (two_css [] [give KBackground (CColor red); decl KBackground [DFunction "url" [DExplicit (CStr "a.png")]; DExplicit (CColor blue)]]) (frame []) (JObj []))
    (fun r => shows_at (snd (fst (snd r))) 3 KBackgroundColor 0 = Some (VColor red) /\ shows_at (snd (fst (snd r))) 3 KBackgroundImage 0 = Some (VImage None)).
Proof. split; witness. Qed.
(** ...[background-position] with one value means it for both sides, not "center"
    for the second... *)
Theorem C56_position_refuted :
  css_shorthand KBackgroundPosition [px 7] = Some [(KBackgroundPositionX, px 7); (KBackgroundPositionY, CKeyword "center")] /\
  shows_px [give KBackgroundPosition (px 7)] KBackgroundPositionY (-7).
Proof. split; [reflexivity|witness]. Qed.
(** ...[animation] knows only the orders of [css_like]: [animation: spin 2s]
    names no animation... *)
Definition spin : ComputedValue := CKeyword "spin".
Theorem C56_animation_order_refuted :
  css_shorthand KAnimation [spin; CTime (f32_of_Z 2)] = Some [(KAnimationName, spin); (KAnimationDuration, CTime (f32_of_Z 2))] /\
  succeeds (begin world two_page (two_css [] [decl KAnimation [DExplicit spin; DExplicit (CTime (f32_of_Z 2))]]) (frame []) (JObj []))
    (fun r => shows_at (snd (fst (snd r))) 3 KAnimationName 0 = Some (VText "")).
Proof. split; [reflexivity|witness]. Qed.
(** ...and a shorthand keeps the longhands it does not name, which CSS resets:
    the delay of [animation: 2s spin] is still 1s *)
Theorem C56_reset_refuted :
  succeeds (begin world two_page (two_css [] [give KAnimationDelay (CTime f1); decl KAnimation [DExplicit (CTime (f32_of_Z 2)); DExplicit spin]]) (frame []) (JObj []))
    (fun r => match shows_at (snd (fst (snd r))) 3 KAnimationDelay 0 with Some (VNumber f) => feq f f1 | _ => false end = true /\
              shows_at (snd (fst (snd r))) 3 KAnimationName 0 = Some (VText "spin")).
Proof. witness. Qed.
(** [animation: 2s linear infinite spin] *)
Example animation_longhands :
  let vs := [CTime (f32_of_Z 2); CKeyword "linear"; CKeyword "infinite"; spin] in
  css_shorthand KAnimation vs = Some [(KAnimationDuration, CTime (f32_of_Z 2)); (KAnimationTimingFunction, CKeyword "linear"); (KAnimationIterationCount, CKeyword "infinite"); (KAnimationName, spin)] /\
  css_like KAnimation vs.
Proof. split; [reflexivity|]. eexists. split; [reflexivity|]. cbn. tauto. Qed.
Example spinning_shows : succeeds (begin world two_page (two_css [] [decl KAnimation [DExplicit (CTime (f32_of_Z 2)); DExplicit (CKeyword "linear"); DExplicit (CKeyword "infinite"); DExplicit spin]]) (frame []) (JObj []))
  (fun r => shows_at (snd (fst (snd r))) 3 KAnimationName 0 = Some (VText "spin") /\ shows_at (snd (fst (snd r))) 3 KAnimationIterationCount 0 = Some (VIterations AIInfinite) /\
            shows_at (snd (fst (snd r))) 3 KAnimationTimingFunction 0 = Some (VTiming TFLinear)).
Proof. witness. Qed.

(** ** C57 *)
(** A length shows in pixels as CSS computes it, up to rounding: 16 pixels for a
    'rem', hundredths of the viewport for 'vw', 'vh', 'vmin', 'vmax', and the font
    size of the parent for an 'em'.  Missing, because false: for every property
    but the font size an 'em' is the font size of the element itself. *)
Theorem C57_lengths_partial : forall X doc css input v t n vars ds k d em p,
  page X doc css input v t -> plain_element css v t n -> in_effect css v t n vars ds -> n <> v_body v ->
  takes_length k = true -> wins vars ds k 0 (CDimension d) -> parent_of t n = Some p -> font_size t p em ->
  modest (d_value d) -> modest em -> modest (fst (in_viewport input)) -> modest (snd (in_viewport input)) ->
  exists x f, shows_at t n k 0 = Some x /\ shown_length x = Some f /\
    close f (css_pixels (B2R em) 16 (B2R (fst (in_viewport input))) (B2R (snd (in_viewport input))) d).
Proof. exact length_page. Qed.
Print Assumptions C57_lengths_partial.
(** [div { font-size: 20px } p { width: 2em; font-size: 30px }] *)
Definition em (n : Z) : ComputedValue := CDimension (mkDim (f32_of_Z n) UEm).
Definition ems : list Declaration := [give KWidth (em 2); give KFontSize (px 30)].
Lemma gives_explicit vars k v : longhand k = true -> gives vars (give k v) k 0 v.
Proof.
  intros Hk. eexists _, [DExplicit v], [v]. split; [reflexivity|]. split; [reflexivity|]. split; [apply (mean_cons _ _ _ [v] []); constructor|].
  cbn [p_key]. rewrite (expand_longhand k v Hk). cbn [last_given]. by rewrite decide_True.
Qed.
Lemma gives_other vars k v k' i w : longhand k = true -> k <> k' -> ~ gives vars (give k v) k' i w.
Proof.
  intros Hk Hne (p & sh & vs & E & Hp' & Hm & Hl). injection E as <-. cbn [p_values] in Hp'. destruct i as [|i]; [|by rewrite lookup_cons, lookup_nil in Hp']. injection Hp' as <-.
  inversion Hm as [|? ? vs1 ws1 M1 M2]; subst. inversion M1; subst. inversion M2; subst. cbn [p_key app] in Hl. rewrite (expand_longhand k v Hk) in Hl. cbn [last_given] in Hl.
  rewrite decide_False in Hl by exact Hne. discriminate Hl.
Qed.
Lemma ems_win vars : wins vars ems KWidth 0 (em 2).
Proof.
  exists [], (give KWidth (em 2)), [give KFontSize (px 30)]. split; [reflexivity|]. split; [by apply gives_explicit|].
  intros pre' d' post' v' E. destruct pre' as [|? [|? ?]]; try discriminate E. injection E as <- <-. by apply gives_other.
Qed.
Example ems_meet : exists v t, page world two_page (two_css [give KFontSize (px 20)] ems) (frame []) v t /\ plain_element (two_css [give KFontSize (px 20)] ems) v t 3 /\
  in_effect (two_css [give KFontSize (px 20)] ems) v t 3 ∅ ems /\ 3 <> v_body v /\ wins ∅ ems KWidth 0 (em 2) /\ parent_of t 3 = Some 2 /\
  (exists f, font_size t 2 f /\ feq f (f32_of_Z 20) = true) /\
  modest (f32_of_Z 2) /\ modest (fst (in_viewport (frame []))) /\ px_at t KWidth 40.
Proof.
  destruct (two_meets [give KFontSize (px 20)] ems (fun t => match get_ctx t 2 with Some e => feq (f_size (e_font e)) (f32_of_Z 20) | None => false end = true /\ px_at t KWidth 40)) as (v & t & Hp & He & Hi & Hb & _ & Ht & HQ).
  1,2: calm. { witness. }
  exists v, t. split; [exact Hp|]. split; [exact He|]. split; [exact Hi|]. split; [by rewrite Hb|]. split; [apply ems_win|]. split; [exact (proj1 Ht)|].
  split. { destruct HQ as [HQ _]. destruct (get_ctx t 2) as [e|] eqn:He2; [|discriminate HQ]. exists (f_size (e_font e)). split; [by exists e|exact HQ]. }
  split; [by apply modest_int|]. split; [by apply (modest_int 100)|exact (proj2 HQ)].
Qed.
(** C57 is false: this [width: 2em] is 40, not 60 pixels; *)
Theorem C57_em_refuted : succeeds (begin world two_page (two_css [give KFontSize (px 20)] [give KFontSize (px 30); give KWidth (em 2)]) (frame []) (JObj []))
  (fun r => px_at (snd (fst (snd r))) KFontSize 30 /\ px_at (snd (fst (snd r))) KWidth 40).
Proof. witness. Qed.
(** 'currentcolor' is the colour of the parent; *)
Theorem C57_currentcolor_refuted : succeeds (begin world two_page (two_css [give KColor (CColor blue)] [give KColor (CColor red); give KBackgroundColor (CKeyword "currentcolor")]) (frame []) (JObj []))
  (fun r => shows_at (snd (fst (snd r))) 3 KColor 0 = Some (VColor red) /\ shows_at (snd (fst (snd r))) 3 KBackgroundColor 0 = Some (VColor blue)).
Proof. witness. Qed.
(** ** C58 *)
(** What nothing is declared for: colour, font and pointer events show what the
    parent shows... Missing, because false: text-align, visibility, cursor. *)
Theorem C58_inherited_partial : forall X doc css input v t n vars ds k p,
  page X doc css input v t -> plain_element css v t n -> in_effect css v t n vars ds -> inherits k = true ->
  ungiven vars ds k 0 -> parent_of t n = Some p -> shows_at t n k 0 = shows_at t p k 0 /\ is_Some (shows_at t n k 0).
Proof. exact inherits_page. Qed.
Print Assumptions C58_inherited_partial.
(** ...opacity and backgrounds their initial values, whatever the parent shows... *)
Theorem C58_not_inherited : forall X doc css input v t n vars ds k i x,
  page X doc css input v t -> plain_element css v t n -> in_effect css v t n vars ds -> listed k = true \/ i = 0 -> starts_with k = Some x ->
  ungiven vars ds k i -> shows_at t n k i = Some x.
Proof. exact starts_page. Qed.
Print Assumptions C58_not_inherited.
(** ...and a text shows in the colour and font of the element it stands in, after
    any history, whatever runs on it. *)
Theorem C58_text_like_its_element : forall X fuel doc css v0 hist v os input value m t ids n e spans p k,
  from_document X fuel doc css = Ok v0 -> updates X fuel v0 hist = Ok (v, os) -> prepare X fuel v input value = Ok (m, t, ids) ->
  at_or_above t (v_body v) n -> get_ctx t n = Some e -> e_text e = Some spans -> parent_of t n = Some p ->
  (forall a, at_or_above t (v_body v) a -> above t a n -> ~ contentless t a) -> inherits k = true ->
  shows_at t n k 0 = shows_at t p k 0 /\ is_Some (shows_at t n k 0).
Proof. exact text_page. Qed.
Print Assumptions C58_text_like_its_element.
(** [div { color: blue; opacity: 0; background: red }] *)
Definition painted : list Declaration := [give KColor (CColor blue); give KOpacity CZero; give KBackgroundColor (CColor red)].
Example painted_meet : exists v t, page world two_page (two_css painted []) (frame []) v t /\ plain_element (two_css painted []) v t 3 /\
  in_effect (two_css painted []) v t 3 ∅ [] /\ parent_of t 3 = Some 2 /\ ungiven ∅ [] KColor 0 /\
  shows_at t 2 KColor 0 = Some (VColor blue) /\ shows_at t 3 KColor 0 = Some (VColor blue) /\
  px_at t KOpacity 1 /\ shows_at t 2 KBackgroundColor 0 = Some (VColor red) /\ shows_at t 3 KBackgroundColor 0 = Some (VColor (0, 0, 0, 0)%Z).
Proof.
  destruct (two_meets painted [] (fun t => shows_at t 2 KColor 0 = Some (VColor blue) /\ shows_at t 3 KColor 0 = Some (VColor blue) /\
  px_at t KOpacity 1 /\ shows_at t 2 KBackgroundColor 0 = Some (VColor red) /\ shows_at t 3 KBackgroundColor 0 = Some (VColor (0, 0, 0, 0)%Z))) as (v & t & Hp & He & Hi & Hb & _ & Ht & HQ).
  1,2: calm. { witness. }
  exists v, t. split; [exact Hp|]. split; [exact He|]. split; [exact Hi|]. split; [exact (proj1 Ht)|]. split; [|exact HQ].
  intros pre d post w E. by destruct pre.
Qed.
Example text_meets : succeeds (begin world (document [elem "p" [] [text [TSString "hello"]]]) (mkCss [rule [[SType "p"]] (paint red)] ∅) (frame []) (JObj []))
  (fun r => let t := snd (fst (snd r)) in e_text <$> get_ctx t 3 = Some (Some ["hello"]) /\ parent_of t 3 = Some 2 /\ parent_of t 2 = Some 1 /\
    shows_at t 2 KColor 0 = Some (VColor red) /\ shows_at t 3 KColor 0 = Some (VColor red)).
Proof. witness. Qed.
(** C58 is false: [div { visibility: hidden; text-align: center; cursor: pointer }]
    says nothing about the paragraph inside *)
Theorem C58_inheritance_refuted :
  succeeds (begin world two_page (two_css [give KVisibility (CKeyword "hidden"); give KTextAlign (CKeyword "center"); give KCursor (CKeyword "pointer")] []) (frame []) (JObj []))
    (fun r => let t := snd (fst (snd r)) in
      map (fun k => (shows_at t 2 k 0, shows_at t 3 k 0)) [KVisibility; KTextAlign; KCursor] =
      [(Some (VFlag false), Some (VFlag true)); (Some (VTextAlign TACenter), Some (VTextAlign TAStart)); (Some (VPointer PPointer), Some (VPointer PAuto))]) /\
  Forall (fun k => css_inherits k = true) [KVisibility; KTextAlign; KCursor].
Proof. split; [witness|repeat constructor]. Qed.
(** ...and [display: none] is not a value *)
Theorem C58_display_none_refuted : succeeds (begin world two_page (two_css [] [give KDisplay (CKeyword "none")]) (frame []) (JObj []))
  (fun r => shows_at (snd (fst (snd r))) 3 KDisplay 0 = Some (VDisplay DBlock)).
Proof. witness. Qed.

(** ** C59 *)
(** The channels of [rgb] are its arguments, cut to a byte; exactly the arguments
    if they are whole numbers from 0 to 255. *)
Theorem C59_rgb : forall r g b, is_finite r = true -> is_finite g = true -> is_finite b = true ->
  exists x y z, compute_function "rgb" [CNumber r; CNumber g; CNumber b] = CColor (x, y, z, 255%Z) /\
    channel (B2R r) x /\ channel (B2R g) y /\ channel (B2R b) z.
Proof. intros r g b Hr Hg Hb. eexists _, _, _. split; [reflexivity|]. split; [|split]; by apply as_u8_channel. Qed.
Print Assumptions C59_rgb.
Theorem C59_bytes : forall r g b, (0 <= r <= 255)%Z -> (0 <= g <= 255)%Z -> (0 <= b <= 255)%Z ->
  compute_function "rgb" [CNumber (f32_of_Z r); CNumber (f32_of_Z g); CNumber (f32_of_Z b)] = CColor (r, g, b, 255%Z).
Proof.
  intros r g b Hr Hg Hb. unfold compute_function. change (String.eqb "rgb" "rgb") with true. cbn match. cbn [map_c].
  by rewrite (as_u8_int r Hr), (as_u8_int g Hg), (as_u8_int b Hb).
Qed.
Print Assumptions C59_bytes.
(** The opacity of [rgba], from 0 to 1 or in percent, is a part of 255, cut to a
    byte.  Missing, because false: rounded to a byte. *)
Theorem C59_rgba_partial : forall r g b a, is_finite r = true -> is_finite g = true -> is_finite b = true -> is_finite a = true -> (0 <= B2R a <= 1)%R ->
  exists x y z w, compute_function "rgba" [CNumber r; CNumber g; CNumber b; CNumber a] = CColor (x, y, z, w) /\
    compute_function "rgba" [CNumber r; CNumber g; CNumber b; CPercentage a] = CColor (x, y, z, w) /\
    channel (B2R r) x /\ channel (B2R g) y /\ channel (B2R b) z /\ channel (rnd (B2R a * 255)) w.
Proof.
  intros r g b a Hr Hg Hb Ha H. eexists _, _, _, _. split; [reflexivity|]. split; [reflexivity|].
  split; [by apply as_u8_channel|]. split; [by apply as_u8_channel|]. split; [by apply as_u8_channel|]. by apply percent_channel.
Qed.
Print Assumptions C59_rgba_partial.
(** percentages of red, green and blue *)
Theorem C59_percent_partial : forall r g b, is_finite r = true -> is_finite g = true -> is_finite b = true ->
  (0 <= B2R r <= 1)%R -> (0 <= B2R g <= 1)%R -> (0 <= B2R b <= 1)%R ->
  exists x y z, compute_function "rgb" [CPercentage r; CPercentage g; CPercentage b] = CColor (x, y, z, 255%Z) /\
    channel (rnd (B2R r * 255)) x /\ channel (rnd (B2R g * 255)) y /\ channel (rnd (B2R b * 255)) z.
Proof. intros r g b Hr Hg Hb R G B. eexists _, _, _. split; [reflexivity|]. split; [|split]; by apply percent_channel. Qed.
Print Assumptions C59_percent_partial.
Example channels : channel 200.5 200 /\ channel (-3) 0 /\ channel 300 255.
Proof. unfold channel. split; [|split]; [right; right|left|right; left]; split; try reflexivity; lra. Qed.
Example half_finite : is_finite f_half = true /\ (0 <= B2R f_half <= 1)%R /\ B2R f_half = (/ 2)%R.
Proof.
  assert (E : B2R f_half = (/ 2)%R).
  { unfold f_half. pose proof (binary_normalize_correct 24 128 f32_prec f32_emax mode_NE 1 (-1) false) as Hb. cbv zeta in Hb. cbn [round_mode] in Hb.
    assert (Ef : F2R (Float radix2 1 (-1)) = (/ 2)%R) by (unfold F2R; cbn [Fnum Fexp]; change (bpow radix2 (-1)) with (/ 2)%R; lra). rewrite Ef in Hb.
    assert (Er : rnd (/ 2) = (/ 2)%R). { apply round_generic; [typeclasses eauto|]. change (/ 2)%R with (bpow radix2 (-1)). apply generic_format_bpow. cbv. discriminate. }
    rewrite Er, Rlt_bool_true in Hb; [exact (proj1 Hb)|]. rewrite Rabs_pos_eq by lra. apply Rlt_le_trans with (bpow radix2 0); [change (bpow radix2 0) with 1%R; lra|apply bpow_le; lia]. }
  split; [reflexivity|]. rewrite E. split; lra.
Qed.
(** On a page: a colour property shows the colour of the function... *)
Theorem C59_rgb_page : forall X doc css input v t n vars pre k r g b post,
  page X doc css input v t -> plain_element css v t n ->
  in_effect css v t n vars (pre ++ DeclProperty (mkProperty k [[DFunction "rgb" (map DExplicit [CNumber r; CNumber g; CNumber b])]]) :: post) ->
  colour_key k = true -> ungiven (variables_after vars pre) post k 0 -> is_finite r = true -> is_finite g = true -> is_finite b = true ->
  exists x y z, shows_at t n k 0 = Some (VColor (x, y, z, 255%Z)) /\ channel (B2R r) x /\ channel (B2R g) y /\ channel (B2R b) z.
Proof. exact rgb_page. Qed.
Print Assumptions C59_rgb_page.
Theorem C59_rgba_page_partial : forall X doc css input v t n vars pre k r g b a post,
  page X doc css input v t -> plain_element css v t n ->
  in_effect css v t n vars (pre ++ DeclProperty (mkProperty k [[DFunction "rgba" (map DExplicit [CNumber r; CNumber g; CNumber b; CNumber a])]]) :: post) ->
  colour_key k = true -> ungiven (variables_after vars pre) post k 0 ->
  is_finite r = true -> is_finite g = true -> is_finite b = true -> is_finite a = true -> (0 <= B2R a <= 1)%R ->
  exists x y z w, shows_at t n k 0 = Some (VColor (x, y, z, w)) /\ channel (B2R r) x /\ channel (B2R g) y /\ channel (B2R b) z /\ channel (rnd (B2R a * 255)) w.
Proof. exact rgba_page. Qed.
Print Assumptions C59_rgba_page_partial.
(** ...and [background-image: url("path")] shows that image. *)
Theorem C59_url : forall X doc css input v t n vars pre path post,
  page X doc css input v t -> plain_element css v t n ->
  in_effect css v t n vars (pre ++ DeclProperty (mkProperty KBackgroundImage [[DFunction "url" [DExplicit (CStr path)]]]) :: post) ->
  ungiven (variables_after vars pre) post KBackgroundImage 0 -> shows_at t n KBackgroundImage 0 = Some (VImage (Some path)).
Proof. exact url_page. Qed.
Print Assumptions C59_url.
Definition tinted : list Declaration :=
  [DeclProperty (mkProperty KColor [[DFunction "rgb" (map DExplicit [CNumber (f32_of_Z 7); CNumber (f32_of_Z 8); CNumber (f32_of_Z 9)])]]);
   DeclProperty (mkProperty KBackgroundImage [[DFunction "url" [DExplicit (CStr "a.png")]]])].
Example tinted_meets : exists v t, page world two_page (two_css [] tinted) (frame []) v t /\ plain_element (two_css [] tinted) v t 3 /\
  in_effect (two_css [] tinted) v t 3 ∅ tinted /\ shows_at t 3 KColor 0 = Some (VColor (7, 8, 9, 255)%Z) /\ shows_at t 3 KBackgroundImage 0 = Some (VImage (Some "a.png")).
Proof.
  destruct (two_meets [] tinted (fun t => shows_at t 3 KColor 0 = Some (VColor (7, 8, 9, 255)%Z) /\ shows_at t 3 KBackgroundImage 0 = Some (VImage (Some "a.png")))) as (v & t & Hp & He & Hi & _ & _ & _ & HQ).
  1,2: calm. { witness. }
  exists v, t. split; [exact Hp|]. split; [exact He|]. split; [exact Hi|]. exact HQ.
Qed.
(** C59 is false: half of 255 is 127, not the nearest byte to 127.5, in CSS 128;
    and 0.999 is 254, not 255 *)
Theorem C59_rounding_refuted :
  compute_function "rgba" [CZero; CZero; CZero; CNumber f_half] = CColor (0, 0, 0, 127)%Z /\
  compute_function "rgba" [CZero; CZero; CZero; CNumber (fdiv (f32_of_Z 999) (f32_of_Z 1000))] = CColor (0, 0, 0, 254)%Z.
Proof. split; vm_compute; reflexivity. Qed.
