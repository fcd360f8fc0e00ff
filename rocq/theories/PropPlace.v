(** * Geometry, opacity, clipping and scrolling: C40, C41.

    Vocabulary: SpecPlace.v, SpecSelect.v ([above], [at_or_above]: ancestors). *)
From Coq Require Import ZArith Reals Lia Lra.
From stdpp Require Import gmap.
From RecordUpdate Require Import RecordUpdate.
From Flocq Require Import Core.Core IEEE754.BinarySingleNaN.
From Verif Require Import Str F32 Res ResFacts Json PropKey Html Css Element Tree ViewModel Render Styling Events View
  SpecLive SpecTree SpecSelect SpecPlace FloatFacts LiveView LiveHistory PlaceFacts ScrollFacts Samples PropSelect StyleSamples PropAnim.
Close Scope R_scope.

Lemma last_update X fuel doc css v0 hist v os i x v' o : from_document X fuel doc css = Ok v0 -> updates X fuel v0 hist = Ok (v, os) -> update X fuel v i x = Ok (v', o) ->
  sound v /\ sound v' /\ live (v_tree v') 0 /\ geometry (v_tree v') (v_body v').
Proof.
  intros H0 H Hu. pose proof (reached_sound _ _ _ _ _ _ _ _ H0 H) as Hs. pose proof (update_sound _ _ _ _ _ _ _ Hs Hu) as Hs'.
  split; [done|]. split; [done|]. split; [|exact (update_geometry _ _ _ _ _ _ _ Hs Hu)]. rewrite <- (so_root _ Hs'). exact (so_live _ Hs').
Qed.

(** ** C40 *)
(** After every update the body stands at its own offset, with its own opacity and
    unclipped; an element inside [p] stands at its own offset from where the
    content of [p] begins, has the opacity of [p] times its own, and is clipped by
    what the content of [p] is clipped by. *)
Theorem C40_geometry : forall X fuel doc css v0 hist v os i x v' o,
  from_document X fuel doc css = Ok v0 -> updates X fuel v0 hist = Ok (v, os) -> update X fuel v i x = Ok (v', o) ->
  placed (v_tree v') (v_body v') (f0, f0) f1 None /\
  forall p c ep, at_or_above (v_tree v') (v_body v') p -> parent_of (v_tree v') c = Some p -> get_ctx (v_tree v') p = Some ep ->
    placed (v_tree v') c (content_origin ep) (e_opacity ep) (content_clip ep).
Proof. intros X fuel doc css v0 hist v os i x v' o H0 H Hu. exact (proj2 (proj2 (proj2 (last_update _ _ _ _ _ _ _ _ _ _ _ _ H0 H Hu)))). Qed.
Print Assumptions C40_geometry.
(** In whole pixels the position is the sum of the offsets on the way from the
    body, minus what is scrolled. *)
Theorem C40_pixel_sums : forall X fuel doc css v0 hist v os i x v' o n px py e,
  from_document X fuel doc css = Ok v0 -> updates X fuel v0 hist = Ok (v, os) -> update X fuel v i x = Ok (v', o) ->
  pixels_at (v_tree v') (v_body v') n px py -> get_ctx (v_tree v') n = Some e ->
  B2R (fst (e_position e)) = IZR px /\ B2R (snd (e_position e)) = IZR py.
Proof.
  intros X fuel doc css v0 hist v os i x v' o n px py e H0 H Hu Hp He. destruct (last_update _ _ _ _ _ _ _ _ _ _ _ _ H0 H Hu) as (_ & _ & _ & G).
  destruct (pixels_position _ _ G n px py e Hp He) as [(_ & E1 & _) (_ & E2 & _)]. done.
Qed.
Print Assumptions C40_pixel_sums.
(** An element is clipped by the box of the nearest element around it whose
    content is bigger than its box, if there is one. *)
Theorem C40_nearest_clip : forall X fuel doc css v0 hist v os i x v' o n e,
  from_document X fuel doc css = Ok v0 -> updates X fuel v0 hist = Ok (v, os) -> update X fuel v i x = Ok (v', o) ->
  at_or_above (v_tree v') (v_body v') n -> get_ctx (v_tree v') n = Some e ->
  match e_clipping e with
  | Some b => exists m em, nearest_scrolling (v_tree v') (v_body v') m n /\ get_ctx (v_tree v') m = Some em /\ b = box_of em
  | None => forall m, at_or_above (v_tree v') (v_body v') m -> above (v_tree v') m n -> ~ scrolls (v_tree v') m
  end.
Proof.
  intros X fuel doc css v0 hist v os i x v' o n e H0 H Hu Hn He. destruct (last_update _ _ _ _ _ _ _ _ _ _ _ _ H0 H Hu) as (_ & _ & Hl & G). exact (clip_nearest _ _ _ _ Hl G Hn He).
Qed.
Print Assumptions C40_nearest_clip.
(** If all own opacities are between 0 and 1, so are the composed ones, and an
    element is not more opaque than any element around it. *)
Theorem C40_opacity_shrinks : forall X fuel doc css v0 hist v os i x v' o m n a b,
  from_document X fuel doc css = Ok v0 -> updates X fuel v0 hist = Ok (v, os) -> update X fuel v i x = Ok (v', o) ->
  (forall n a, at_or_above (v_tree v') (v_body v') n -> own_opacity (v_tree v') n = Some a -> share_of_one a) ->
  at_or_above (v_tree v') (v_body v') m -> at_or_above (v_tree v') m n -> opacity (v_tree v') m = Some a -> opacity (v_tree v') n = Some b ->
  share_of_one a /\ share_of_one b /\ (B2R b <= B2R a)%R.
Proof.
  intros X fuel doc css v0 hist v os i x v' o m n a b H0 H Hu Hown Hm Hmn Ha Hb. destruct (last_update _ _ _ _ _ _ _ _ _ _ _ _ H0 H Hu) as (_ & _ & Hl & G).
  split; [by eapply opacity_shares|]. split; [|by eapply (opacity_shrinks _ _ G Hown m n)]. eapply (opacity_shares _ _ G Hown n); [by etransitivity|exact Hb].
Qed.
Print Assumptions C40_opacity_shrinks.
(** Everything inside a fully transparent element is fully transparent. *)
Theorem C40_transparent_inside : forall X fuel doc css v0 hist v os i x v' o m n a b,
  from_document X fuel doc css = Ok v0 -> updates X fuel v0 hist = Ok (v, os) -> update X fuel v i x = Ok (v', o) ->
  (forall n a, at_or_above (v_tree v') (v_body v') n -> own_opacity (v_tree v') n = Some a -> is_finite a = true) ->
  at_or_above (v_tree v') (v_body v') m -> at_or_above (v_tree v') m n -> opacity (v_tree v') m = Some a -> is_finite a = true -> B2R a = 0%R ->
  opacity (v_tree v') n = Some b -> B2R b = 0%R.
Proof.
  intros X fuel doc css v0 hist v os i x v' o m n a b H0 H Hu. destruct (last_update _ _ _ _ _ _ _ _ _ _ _ _ H0 H Hu) as (_ & _ & _ & G). exact (transparent_below _ _ G m n a b) || (intros Hown; exact (transparent_below _ _ G Hown m n a b)).
Qed.
Print Assumptions C40_transparent_inside.

(** ** C41 *)
(** Over every history of layouts whose content fills the box and turns of the
    wheel the offsets stay between zero and the overflow; missing: content that is
    narrower or lower than the box. *)
Theorem C41_in_range_partial : forall steps s,
  Forall (fun step => match step with Laid l => full_content l | Turned w => is_nan (fst w) = false /\ is_nan (snd w) = false end) steps ->
  foldl (fun s step => match step with Laid l => scrolling_ensure l s | Turned w => scrolling_offset w <$> s end) None steps = Some s ->
  in_range (sc_x s) (sc_scroll_x s) /\ in_range (sc_y s) (sc_scroll_y s).
Proof.
  intros steps s Hs H. pose proof (scroll_ok steps Hs None I) as K.
  assert (E : foldl scroll_after None steps = Some s) by exact H. rewrite E in K. exact K.
Qed.
Print Assumptions C41_in_range_partial.
(** In whole pixels a turn of the wheel moves by 50 and stops at the ends. *)
Theorem C41_wheel_turns : forall (wx wy : f32) s x y lx ly, is_nan wx = false -> is_nan wy = false -> feq wx f0 = false -> feq wy f0 = false ->
  whole (sc_x s) x -> whole (sc_y s) y -> whole (sc_scroll_x s) lx -> whole (sc_scroll_y s) ly -> (Z.abs x <= 2 ^ 23)%Z -> (Z.abs y <= 2 ^ 23)%Z ->
  whole (sc_x (scrolling_offset (wx, wy) s)) (Z.max (Z.min (if Bsign wx then x - 50 else x + 50) lx) 0) /\
  whole (sc_y (scrolling_offset (wx, wy) s)) (Z.max (Z.min (if Bsign wy then y + 50 else y - 50) ly) 0).
Proof. exact wheel_turns. Qed.
Print Assumptions C41_wheel_turns.
(** ...but on a page it never does: an update with turns of the wheel is the same
    as one without. *)
Theorem C41_wheel_refuted : forall X fuel v time viewport evs x,
  update X fuel v (mkInput time viewport (List.filter (fun e => negb (is_wheel e)) evs)) x = update X fuel v (mkInput time viewport evs) x.
Proof. exact wheels_ignored. Qed.
Print Assumptions C41_wheel_refuted.
(** A box of 100 x 50 with content of 40 x 80, only too high, is scrolled 60 to the
    left, past the end. *)
Definition narrow : Layout := mkLayout vzero (f100, f50) (f32_of_Z 40, f32_of_Z 80).
Theorem C41_narrow_refuted : exists s, scrolling_ensure narrow None = Some s /\ B2R (sc_x s) = (-60)%R.
Proof.
  assert (H : match scrolling_ensure narrow None with Some s => B2SF (sc_x s) | None => SpecFloat.S754_nan end = B2SF (f32_of_Z (-60))) by (vm_compute; reflexivity).
  destruct (scrolling_ensure narrow None) as [s|]; [|discriminate H]. exists s. split; [done|]. apply B2SF_inj in H. rewrite H. by apply f32_int.
Qed.
Print Assumptions C41_narrow_refuted.
(** ...so that on a page what is in it stands 60 to the right of where it should *)
Definition narrow_world : Externals :=
  mkExternals (fun _ => "float") (fun s => s) (fun _ => None) (fun s => map_to_list s)
    (fun _ n => if Nat.eqb n 2 then narrow else mkLayout vzero (f100, f100) (f100, f100)) ∅ false.
Example narrow_page : match run narrow_world (document [elem "div" [] [elem "p" [] []]]) css_empty [(frame [], JObj [])] with
  | Ok (v, _) => match get_ctx (v_tree v) 3 with Some e => feq (fst (e_position e)) (f32_of_Z 60) && feq (snd (e_position e)) f0 | None => false end | _ => false end = true.
Proof. vm_compute. reflexivity. Qed.

(** ** Cases *)
(** two boxes, the outer one scrolls: <div><p/></div>, 100 x 50 with 100 x 80 in it,
    at (3, 4), and (5, 6) inside; the div is half transparent *)
Definition deep_world : Externals :=
  mkExternals (fun _ => "float") (fun s => s) (fun _ => None) (fun s => map_to_list s)
    (fun _ n => match n with 2 => mkLayout (f32_of_Z 3, f32_of_Z 4) (f100, f50) (f100, f32_of_Z 80) | 3 => mkLayout (f32_of_Z 5, f32_of_Z 6) (f100, f32_of_Z 80) (f100, f32_of_Z 80)
                | _ => mkLayout vzero (f100, f100) (f100, f100) end) ∅ false.
Definition deep_css : Css := mkCss [rule [[SType "div"]] [give KOpacity (CNumber f_half)]] ∅.
Definition deep_page : Html := document [elem "div" [] [elem "p" [] []]].
Lemma feq_whole (f : f32) z : (Z.abs z <= 2 ^ 24)%Z -> feq f (f32_of_Z z) = true -> whole f z.
Proof.
  intros Hz H. destruct (f32_int z Hz) as [F E]. unfold feq in H.
  assert (Ff : is_finite f = true). { destruct f as [| sf | |]; try done; destruct (f32_of_Z z); try discriminate F; destruct sf; discriminate H. }
  split; [exact Ff|]. split; [|exact Hz]. rewrite <- E. unfold Beqb in H. pose proof (Bcompare_correct 24 128 f (f32_of_Z z) Ff F) as C. unfold Bcompare in C.
  unfold SpecFloat.SFeqb in H. destruct (SpecFloat.SFcompare _ _) as [[]|] eqn:E'; try discriminate H. injection C as C. symmetry in C. by apply Rcompare_Eq_inv in C.
Qed.
Definition deep_layout (t : Tree) (n : NodeId) (x y : Z) : bool :=
  match laid_out t n with Some l => feq (fst (lo_location l)) (f32_of_Z x) && feq (snd (lo_location l)) (f32_of_Z y) | None => false end.
Definition deep_links (t : Tree) : bool :=
  match parent_of t 2, parent_of t 3 with Some 1, Some 2 => true | _, _ => false end && deep_layout t 1 0 0 && deep_layout t 2 3 4 && deep_layout t 3 5 6.
Definition deep_scroll (v : View) : bool :=
  match get_ctx (v_tree v) 1, get_ctx (v_tree v) 2, get_ctx (v_tree v) 3 with
  | Some a, Some b, Some c =>
      match e_scrolling a, e_scrolling b, e_scrolling c with
      | None, Some s, None => feq (sc_x s) f0 && feq (sc_y s) f0 && feq (e_opacity c) f_half && feq (fst (e_position c)) (f32_of_Z 8) && match e_clipping c with Some _ => true | None => false end
      | _, _, _ => false
      end
  | _, _, _ => false
  end.
Example deep_runs : exists v0 v os v' o, from_document deep_world 20 deep_page deep_css = Ok v0 /\ updates deep_world 20 v0 [(frame [], JObj [])] = Ok (v, os) /\
  update deep_world 20 v (frame []) (JObj []) = Ok (v', o) /\ v_body v' = 1 /\ pixels_at (v_tree v') 1 3 8 10 /\ deep_scroll v' = true.
Proof.
  assert (H : match (do! v <- from_document deep_world 20 deep_page deep_css; do! (v, os) <- updates deep_world 20 v [(frame [], JObj [])]; update deep_world 20 v (frame []) (JObj [])) with
    | Ok (v, _) => Nat.eqb (v_body v) 1 && deep_links (v_tree v) && deep_scroll v | _ => false end = true) by (vm_compute; reflexivity).
  destruct (from_document deep_world 20 deep_page deep_css) as [v0| | |] eqn:E0; try discriminate H. cbn [bindR] in H.
  destruct (updates deep_world 20 v0 [(frame [], JObj [])]) as [[v os]| | |] eqn:E1; try discriminate H. cbn [bindR] in H.
  destruct (update deep_world 20 v (frame []) (JObj [])) as [[v' o]| | |] eqn:E2; try discriminate H. clear E0.
  apply andb_prop in H as [H Hs]. apply andb_prop in H as [Hb Hk]. apply Nat.eqb_eq in Hb.
  exists v0, v, os, v', o. split; [reflexivity|]. split; [exact E1|]. split; [exact E2|]. split; [exact Hb|]. split; [|exact Hs].
  clear E1 E2. set (t := v_tree v') in *. unfold deep_links in Hk. apply andb_prop in Hk as [Hk L3]. apply andb_prop in Hk as [Hk L2]. apply andb_prop in Hk as [Hp L1].
  assert (P2 : parent_of t 2 = Some 1) by (destruct (parent_of t 2) as [[|[|]]|]; done).
  assert (P3 : parent_of t 3 = Some 2) by (rewrite P2 in Hp; destruct (parent_of t 3) as [[|[|[|]]]|]; done).
  assert (L : forall n x y, (Z.abs x <= 2 ^ 24)%Z -> (Z.abs y <= 2 ^ 24)%Z -> deep_layout t n x y = true -> exists l, laid_out t n = Some l /\ whole (fst (lo_location l)) x /\ whole (snd (lo_location l)) y).
  { intros n x y Hx Hy Hl. unfold deep_layout in Hl. destruct (laid_out t n) as [l|]; [|done]. apply andb_prop in Hl as [A B]. exists l. split; [done|]. split; by apply feq_whole. }
  destruct (L 1 0%Z 0%Z ltac:(lia) ltac:(lia) L1) as (l1 & A1 & B1 & C1). destruct (L 2 3%Z 4%Z ltac:(lia) ltac:(lia) L2) as (l2 & A2 & B2 & C2). destruct (L 3 5%Z 6%Z ltac:(lia) ltac:(lia) L3) as (l3 & A3 & B3 & C3).
  unfold deep_scroll in Hs. fold t in Hs. destruct (get_ctx t 1) as [a|] eqn:Ea; [|done]. destruct (get_ctx t 2) as [b|] eqn:Eb; [|done]. destruct (get_ctx t 3) as [c|]; [|done].
  destruct (e_scrolling a) eqn:Sa; [done|]. destruct (e_scrolling b) as [s|] eqn:Sb; [|done]. destruct (e_scrolling c); [done|].
  do 3 (apply andb_prop in Hs as [Hs _]). apply andb_prop in Hs as [S0 S1].
  assert (W0 : whole (sc_x s) 0) by (apply feq_whole; [lia|exact S0]). assert (W1 : whole (sc_y s) 0) by (apply feq_whole; [lia|exact S1]).
  assert (Q1 : pixels_at t 1 1 0 0) by (by eapply pixels_body).
  assert (Q2 : pixels_at t 1 2 3 4).
  { apply (pixels_child t 1 1 2 a l2 0 0 3 4 0 0); try done. by rewrite Sa. }
  apply (pixels_child t 1 2 3 b l3 3 4 5 6 0 0); try done. by rewrite Sb.
Qed.
Example deep_steps : full_content (mkLayout vzero (f100, f50) (f100, f32_of_Z 80)) /\
  exists s, scrolling_offset (f0, fneg f1) <$> scrolling_ensure (mkLayout vzero (f100, f50) (f100, f32_of_Z 80)) None = Some s /\ feq (sc_y s) (f32_of_Z 30) = true.
Proof.
  assert (W : whole f100 100 /\ whole f50 50) by (split; apply feq_whole; (lia || (vm_compute; reflexivity))). destruct W as [W1 W2].
  assert (W3 : whole (f32_of_Z 80) 80) by (apply feq_whole; [lia|vm_compute; reflexivity]).
  split.
  - unfold full_content, over_width, over_height. cbn [fst snd lo_content lo_size].
    destruct (whole_sub _ _ _ _ W1 W1 ltac:(lia)) as (A1 & A2 & _). destruct (whole_sub _ _ _ _ W3 W2 ltac:(lia)) as (B1 & B2 & _).
    split; [exact A1|]. split; [exact B1|]. rewrite A2, B2. split; apply IZR_le; lia.
  - assert (H : match scrolling_offset (f0, fneg f1) <$> scrolling_ensure (mkLayout vzero (f100, f50) (f100, f32_of_Z 80)) None with Some s => feq (sc_y s) (f32_of_Z 30) | None => false end = true) by (vm_compute; reflexivity).
    destruct (scrolling_offset (f0, fneg f1) <$> _) as [s|]; [|done]. by exists s.
Qed.
