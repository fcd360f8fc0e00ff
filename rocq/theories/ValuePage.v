(** * Values on a page: lemmas for C56-C59. *)
From Coq Require Import ZArith Reals Lia Lra.
From Flocq Require Import Core.Core IEEE754.BinarySingleNaN.
From stdpp Require Import gmap.
From RecordUpdate Require Import RecordUpdate.
From Verif Require Import Str F32 Res Json PropKey Html Css Element Tree Matching Cascade Apply ViewModel Render Update Styling Events View
  SpecLive SpecView SpecSelect SpecStyle SpecShow SpecPage SpecCss SpecValues ResFacts FrameFacts EventFrame LiveFacts LiveUpdate LiveView SelectLive CascadeFacts StyleTrace StyleMore StylePage FloatFacts ValueFacts.
Close Scope R_scope.

Lemma page_shows X doc css input v t n : page X doc css input v t -> plain_element css v t n ->
  shows_cascade css (in_viewport input) (v_root v) (v_body v) (v_tree v) t n.
Proof.
  intros (fuel & v0 & hist & os & value & m & ids & H0 & H & Hp & Hc & Hr & Ho) (H1 & H2 & H3 & H4). exact (cascade_page _ _ _ _ _ _ _ _ _ _ _ _ _ n H0 H Hp Hc Hr Ho H1 H2 H3 H4).
Qed.
Lemma scope_fun css t root body n vars vars' : scope css t root body n vars -> scope css t root body n vars' -> vars = vars'.
Proof.
  intros H. revert vars'. induction H as [|n p vars ds Hn Hp H IH Hd]; intros vars' H'.
  - inversion H'; subst; done.
  - inversion H' as [|n' p' vars2 ds' Hn' Hp' H2 Hd']; subst; [done|]. rewrite Hp in Hp'. injection Hp' as <-. rewrite (IH _ H2). by rewrite (declarations_fun _ _ _ _ _ _ Hd Hd').
Qed.
(** what an element shows, by the declarations in effect *)
Lemma page_value X doc css input v t n vars ds k i : page X doc css input v t -> plain_element css v t n -> in_effect css v t n vars ds -> listed k = true \/ i = 0 ->
  exists p parent pe, parent_of t n = Some p /\ t_nodes t !! p = Some parent /\ n_ctx parent = Some pe /\
    (forall w, wins vars ds k i w -> shows_at t n k i = match meaning (sizes_at (in_viewport input) t (v_body v) n) k w with Some x => Some x | None => rest_value k (n_style parent, pe) (shows_at (v_tree v) n k i) end) /\
    (ungiven vars ds k i -> shows_at t n k i = rest_value k (n_style parent, pe) (shows_at (v_tree v) n k i)).
Proof.
  intros Hp Hn [Hd Hs] Hk. destruct (page_shows _ _ _ _ _ _ _ Hp Hn) as (ds' & vars' & p & parent & D & S & P & N & pe & C & A).
  rewrite (declarations_fun _ _ _ _ _ _ Hd D), (scope_fun _ _ _ _ _ _ _ Hs S). exists p, parent, pe. split; [exact P|]. split; [exact N|]. split; [exact C|].
  destruct (A k i Hk) as (A1 & A2 & _). split; [exact A1|exact A2].
Qed.

(** ** C56 *)
Theorem shorthand_page X doc css input v t n vars pre key sh post vs l k w x :
  page X doc css input v t -> plain_element css v t n -> in_effect css v t n vars (pre ++ DeclProperty (mkProperty key [sh]) :: post) ->
  mean_all (variables_after vars pre) sh vs -> css_shorthand key vs = Some l -> css_like key vs -> In (k, w) l ->
  ungiven (variables_after vars pre) post k 0 -> meaning (sizes_at (in_viewport input) t (v_body v) n) k w = Some x ->
  shows_at t n k 0 = Some x.
Proof.
  intros Hp Hn He Hm Hl Hc Hin Hu Hx. destruct (page_value _ _ _ _ _ _ _ _ _ k 0 Hp Hn He (or_intror eq_refl)) as (p & parent & pe & _ & _ & _ & A & _).
  rewrite (A w), Hx; [done|]. exists pre, (DeclProperty (mkProperty key [sh])), post. split; [done|]. split; [by eapply shorthand_gives|].
  intros pre' d' post' v' -> H. eapply (Hu pre' d' post' v'); [done|]. rewrite variables_app in H. cbn in H. exact H.
Qed.
(** ** C57 *)
Lemma length_meaning s k d : takes_length k = true -> exists x, meaning s k (CDimension d) = Some x /\ shown_length x = Some (pixels s d).
Proof. intros H. destruct k; try discriminate H; (eexists; split; [reflexivity|reflexivity]). Qed.
Theorem length_page X doc css input v t n vars ds k d em p :
  page X doc css input v t -> plain_element css v t n -> in_effect css v t n vars ds -> n <> v_body v ->
  takes_length k = true -> wins vars ds k 0 (CDimension d) -> parent_of t n = Some p -> font_size t p em ->
  modest (d_value d) -> modest em -> modest (fst (in_viewport input)) -> modest (snd (in_viewport input)) ->
  exists x f, shows_at t n k 0 = Some x /\ shown_length x = Some f /\
    close f (css_pixels (B2R em) 16 (B2R (fst (in_viewport input))) (B2R (snd (in_viewport input))) d).
Proof.
  intros Hp Hn He Hb Hk Hw Hpn (e & Hge & <-) M1 M2 M3 M4. destruct (page_value _ _ _ _ _ _ _ _ _ k 0 Hp Hn He (or_intror eq_refl)) as (q & parent & pe & _ & _ & _ & A & _).
  rewrite (A _ Hw). clear A. unfold sizes_at. rewrite decide_False by done. rewrite Hpn, Hge. set (s := mkSizes _ _ _ _ _).
  destruct (length_meaning s k d Hk) as (x & -> & Hx). exists x, (pixels s d). split; [done|]. split; [exact Hx|].
  destruct (FloatFacts.f32_int 16 ltac:(lia)) as [F1 F2].
  assert (Ms : modest_sizes s). { unfold s. split; [|split; [|split]]; [|exact M2|exact M3|exact M4]. split; [exact F1|]. cbn [root_font_size]. change f16 with (f32_of_Z 16). rewrite F2. rewrite Rabs_pos_eq by lra. apply IZR_le. lia. }
  destruct (pixels_near s d Ms M1) as [P1 P2]. split; [exact P1|]. cbv zeta in P2. unfold s in P2. cbn [parent_font_size root_font_size viewport_width viewport_height] in P2.
  change f16 with (f32_of_Z 16) in P2 at 2 3. rewrite F2 in P2. exact P2.
Qed.
(** ** C58 *)
Theorem inherits_page X doc css input v t n vars ds k p :
  page X doc css input v t -> plain_element css v t n -> in_effect css v t n vars ds -> inherits k = true ->
  ungiven vars ds k 0 -> parent_of t n = Some p -> shows_at t n k 0 = shows_at t p k 0 /\ is_Some (shows_at t n k 0).
Proof.
  intros Hp Hn He Hk Hu Hpn. destruct (page_value _ _ _ _ _ _ _ _ _ k 0 Hp Hn He (or_intror eq_refl)) as (q & parent & pe & Hq & Hx & Hc & _ & A).
  rewrite Hpn in Hq. injection Hq as <-. rewrite (A Hu). assert (Hs : shows_at t p k 0 = look k 0 (n_style parent, pe)) by (unfold shows_at; rewrite Hx; cbn; by rewrite Hc).
  rewrite Hs. destruct k; try discriminate Hk; (split; [reflexivity|by eexists]).
Qed.
Theorem starts_page X doc css input v t n vars ds k i x :
  page X doc css input v t -> plain_element css v t n -> in_effect css v t n vars ds -> listed k = true \/ i = 0 -> starts_with k = Some x ->
  ungiven vars ds k i -> shows_at t n k i = Some x.
Proof.
  intros Hp Hn He Hki Hk Hu. destruct (page_value _ _ _ _ _ _ _ _ _ k i Hp Hn He Hki) as (q & parent & pe & Hq & Hx & Hc & _ & A).
  rewrite (A Hu). destruct k; try discriminate Hk; injection Hk as <-; reflexivity.
Qed.
Lemma styled_below fuel debug css order time t t' : live t 0 -> forall n sizes vars, styled fuel debug css order time t t' n sizes vars -> forall c, at_or_above t n c ->
  (forall m, at_or_above t n m -> above t m c -> ~ contentless t m) -> exists sizes vars, styled fuel debug css order time t t' c sizes vars.
Proof.
  intros Hl n sizes vars Hn c Hc. revert c Hc. apply (rtc_ind_r (fun c => (forall m, at_or_above t n m -> above t m c -> ~ contentless t m) -> exists sizes vars, styled fuel debug css order time t t' c sizes vars) n); [by eexists _, _|].
  intros p c Hp Hpc IH Hc. destruct IH as (s & vs & Hst). { intros m Hm Hmp. apply Hc; [done|]. eapply tc_r; [exact Hmp|exact Hpc]. }
  assert (Hcl : ~ contentless t p) by (apply Hc; [done|by apply tc_once]).
  inversion Hst as [? q pe e spans ? ? Hq Hpe He Ht He'|? q pe x e layout' e' vars' x' ? ? Hq Hpe Hx He Ht Hcs Hx' He' Hlay Hch]; subst.
  { exfalso. apply Hcl. exists e. rewrite Ht. eauto. }
  assert (Hg : get_ctx t p = Some e) by (unfold get_ctx; by rewrite Hx).
  assert (Hv : String.eqb (e_tag e) "img" || is_void (e_tag e) = false). { destruct (_ || _) eqn:E; [|done]. exfalso. apply Hcl. exists e. eauto. }
  eexists _, _. apply (Hch Hv c). by apply (live_parent _ _ Hl).
Qed.
Lemma inherit_look k l l' pe e : inherits k = true -> look k 0 (l, inherit pe e) = look k 0 (l', pe) /\ is_Some (look k 0 (l, inherit pe e)).
Proof. intros Hk. destruct k; try discriminate Hk; (split; [reflexivity|by eexists]). Qed.
Lemma shows_look t n e : get_ctx t n = Some e -> exists l, forall k i, shows_at t n k i = look k i (l, e).
Proof.
  intros H. destruct (ctx_node _ _ _ H) as [x Hx]. exists (n_style x). intros k i. unfold shows_at. unfold get_ctx in H. rewrite Hx in *. cbn in H |- *. by rewrite H.
Qed.
Lemma text_styled fuel debug css order time t t' n sizes vars e spans p k : styled fuel debug css order time t t' n sizes vars -> get_ctx t n = Some e -> e_text e = Some spans -> parent_of t n = Some p ->
  inherits k = true -> shows_at t' n k 0 = shows_at t' p k 0 /\ is_Some (shows_at t' n k 0).
Proof.
  intros Hst He Ht Hp Hk. inversion Hst as [? q pe e' spans' ? ? Hq Hpe He' Ht' Hi|? q pe x e' layout' e'' vars' x' ? ? Hq Hpe Hx' He' Ht' Hcs Hx'' He'' Hlay Hch]; subst.
  - assert (q = p) by congruence. subst q. destruct (shows_look _ _ _ Hpe) as [l Hl]. destruct (shows_look _ _ _ Hi) as [l' Hl']. rewrite Hl, Hl'. by apply inherit_look.
  - exfalso. assert (Hg : get_ctx t n = Some e') by (unfold get_ctx; rewrite Hx'; exact He'). congruence.
Qed.
(** a text shows in the colour and font of the element it stands in *)
Theorem text_page X fuel doc css v0 hist v os input value m t ids n e spans p k :
  from_document X fuel doc css = Ok v0 -> updates X fuel v0 hist = Ok (v, os) -> prepare X fuel v input value = Ok (m, t, ids) ->
  at_or_above t (v_body v) n -> get_ctx t n = Some e -> e_text e = Some spans -> parent_of t n = Some p ->
  (forall a, at_or_above t (v_body v) a -> above t a n -> ~ contentless t a) -> inherits k = true -> 
  shows_at t n k 0 = shows_at t p k 0 /\ is_Some (shows_at t n k 0).
Proof.
  intros H0 H Hpr Hn He Ht Hpn Hcl Hk. pose proof (reached_sound _ _ _ _ _ _ _ _ H0 H) as Hso. destruct (kept_history _ _ _ _ _ _ _ _ H0 H) as (rn & t0 & Hm & Hre & Hfl & Hkp & Hc & Hbody & Hbs & Hs).
  pose proof (so_live _ Hso) as Hl. unfold prepare in Hpr. apply bindR_Ok in Hpr as ([m0 rs] & Hb & Hpr). apply bindR_Ok in Hpr as ([ta ids0] & Hu & Hpr).
  apply bindR_Ok in Hpr as (t1 & H1 & Hpr). apply bindR_Ok in Hpr as (t2 & H2 & Hpr). apply bindR_Ok in Hpr as (t3 & H3 & Hpr). injection Hpr as <- <- <-. rewrite Hbody, (so_root _ Hso), Hc in *.
  assert (Hok : Forall (reaction_ok (v_tree v)) rs) by (by eapply view_bind_reactions_ok).
  assert (Hk1 : kept (x_debug X) (css_styles css) (v_bindings v) t0 ta) by (eapply kept_reactions; [exact Hkp|exact Hok|by eapply view_bind_from|exact Hu]).
  pose proof (set_viewport_same _ _ _ _ H1) as Hv. pose proof (kept_content _ _ _ _ _ _ Hk1 Hv) as Hk2. pose proof (k_live _ _ _ _ _ Hk2) as Hl1.
  destruct (styles_trace _ _ _ _ _ _ _ _ _ _ _ Hl1 H2) as (Htr & _ & Hal12).
  assert (Hal23 : alike t2 t3).
  { split; [eapply same_trans; [apply run_layout_same|by eapply final_positions_same]|eapply ss_trans; [apply run_layout_ss|by eapply final_positions_ss]]. }
  assert (Hal13 : alike t1 t3) by (by eapply alike_trans). pose proof (alike_sym _ _ Hal13) as Hal31.
  assert (Hlooks : same_looks t2 t3) by (eapply looks_trans; [apply layout_looks|by eapply positions_looks]).
  destruct (styled_below _ _ _ _ _ _ _ Hl1 _ _ _ Htr n) as (sz & vs & Hst).
  { by eapply above_alike. }
  { intros a Ha Han Hx. eapply Hcl; [by eapply above_alike|by eapply tc_alike|by eapply contentless_alike]. }
  pose proof (alike_ctx _ _ n Hal31) as Hx. rewrite He in Hx. destruct (get_ctx t1 n) as [e1|] eqn:He1; [|done]. destruct Hx as [Hx _].
  assert (Ht1 : e_text e1 = Some spans). { unfold content in Hx. injection Hx as G1 G2 G3 G4 G5 G6 G7 G8 G9 G10. by rewrite <- G4. }
  rewrite (alike_parent _ _ _ Hal13) in Hpn.
  rewrite !Hlooks. exact (text_styled _ _ _ _ _ _ _ _ _ _ _ _ _ _ Hst He1 Ht1 Hpn Hk).
Qed.

(** ** C59 *)
Theorem function_page X doc css input v t n vars pre k name args vs post x :
  page X doc css input v t -> plain_element css v t n -> in_effect css v t n vars (pre ++ DeclProperty (mkProperty k [[DFunction name args]]) :: post) ->
  longhand k = true -> mean_all (variables_after vars pre) args vs ->
  ungiven (variables_after vars pre) post k 0 -> meaning (sizes_at (in_viewport input) t (v_body v) n) k (compute_function name vs) = Some x ->
  shows_at t n k 0 = Some x.
Proof.
  intros Hp Hn He Hk Hm Hu Hx. destruct (page_value _ _ _ _ _ _ _ _ _ k 0 Hp Hn He (or_intror eq_refl)) as (p & parent & pe & _ & _ & _ & A & _).
  rewrite (A (compute_function name vs)), Hx; [done|]. exists pre, (DeclProperty (mkProperty k [[DFunction name args]])), post. split; [done|]. split.
  - eexists _, [DFunction name args], [compute_function name vs]. split; [reflexivity|]. split; [reflexivity|]. split.
    + apply (mean_cons _ _ _ [compute_function name vs] []); [by constructor|constructor].
    + cbn [p_key]. rewrite (expand_longhand k _ Hk). cbn [last_given]. by rewrite decide_True.
  - intros pre' d' post' v' -> H. eapply (Hu pre' d' post' v'); [done|]. rewrite variables_app in H. cbn in H. exact H.
Qed.
Lemma explicit_all vars vs : mean_all vars (map DExplicit vs) vs.
Proof. induction vs as [|v vs IH]; cbn [map]; [constructor|]. apply (mean_cons vars (DExplicit v) _ [v] vs); [constructor|exact IH]. Qed.
Definition colour_key (k : PropertyKey) : bool :=
  match k with KColor | KBackgroundColor | KBorderTopColor | KBorderRightColor | KBorderBottomColor | KBorderLeftColor => true | _ => false end.
Theorem rgba_page X doc css input v t n vars pre k r g b a post :
  page X doc css input v t -> plain_element css v t n ->
  in_effect css v t n vars (pre ++ DeclProperty (mkProperty k [[DFunction "rgba" (map DExplicit [CNumber r; CNumber g; CNumber b; CNumber a])]]) :: post) ->
  colour_key k = true -> ungiven (variables_after vars pre) post k 0 ->
  is_finite r = true -> is_finite g = true -> is_finite b = true -> is_finite a = true -> (0 <= B2R a <= 1)%R ->
  exists x y z w, shows_at t n k 0 = Some (VColor (x, y, z, w)) /\ channel (B2R r) x /\ channel (B2R g) y /\ channel (B2R b) z /\ channel (rnd (B2R a * 255)) w.
Proof.
  intros Hp Hn He Hk Hu Hr Hg Hb Ha H. exists (map_c (CNumber r)), (map_c (CNumber g)), (map_c (CNumber b)), (map_a (CNumber a)). split.
  - eapply function_page; [exact Hp|exact Hn|exact He|by destruct k|apply explicit_all|exact Hu|]. by destruct k.
  - split; [by apply as_u8_channel|]. split; [by apply as_u8_channel|]. split; [by apply as_u8_channel|]. by apply percent_channel.
Qed.
Theorem rgb_page X doc css input v t n vars pre k r g b post :
  page X doc css input v t -> plain_element css v t n ->
  in_effect css v t n vars (pre ++ DeclProperty (mkProperty k [[DFunction "rgb" (map DExplicit [CNumber r; CNumber g; CNumber b])]]) :: post) ->
  colour_key k = true -> ungiven (variables_after vars pre) post k 0 -> is_finite r = true -> is_finite g = true -> is_finite b = true ->
  exists x y z, shows_at t n k 0 = Some (VColor (x, y, z, 255%Z)) /\ channel (B2R r) x /\ channel (B2R g) y /\ channel (B2R b) z.
Proof.
  intros Hp Hn He Hk Hu Hr Hg Hb. exists (map_c (CNumber r)), (map_c (CNumber g)), (map_c (CNumber b)). split.
  - eapply function_page; [exact Hp|exact Hn|exact He|by destruct k|apply explicit_all|exact Hu|]. by destruct k.
  - split; [by apply as_u8_channel|]. split; by apply as_u8_channel.
Qed.
Theorem url_page X doc css input v t n vars pre path post :
  page X doc css input v t -> plain_element css v t n ->
  in_effect css v t n vars (pre ++ DeclProperty (mkProperty KBackgroundImage [[DFunction "url" [DExplicit (CStr path)]]]) :: post) ->
  ungiven (variables_after vars pre) post KBackgroundImage 0 -> shows_at t n KBackgroundImage 0 = Some (VImage (Some path)).
Proof. intros Hp Hn He Hu. eapply function_page; [exact Hp|exact Hn|exact He|done|apply (explicit_all _ [CStr path])|exact Hu|]. reflexivity. Qed.
