(** * Updates that do not fail (C76). *)
From Coq Require Import ZArith Lia.
From stdpp Require Import gmap.
From RecordUpdate Require Import RecordUpdate.
From Verif Require Import Str StrFacts F32 Res ResFacts Json PropKey Html Css Element Tree ViewModel Render Update Matching
  Cascade Initial Animation Apply Styling Events View
  SpecBind SpecReact SpecLive SpecLog SpecView SpecRender SpecTree SpecEvents FrameFacts BindFacts ConformFacts BindProps EventFacts EventFrame EventPage EventHistory EventProps EventTotal
  RenderTree RenderNode RenderProps RenderAny RenderMore LiveFacts LiveUpdate LiveView LiveHistory LiveOrder
  SpecSelect SelectFacts SelectLive SelectFresh SpecStyle SpecShow SpecPage ApplyFacts ShowFacts CascadeFacts AnimationFacts StyleTrace StyleView StylePage StyleRest StyleMore
  SpecAnim SpecEnds EndsTimer EndsFacts EndsPage EndsMore SpecTotal LoadTotal.

Notation sane := never_fails.
Lemma sane_ok {A} (a : A) : sane (Ok a). Proof. exact I. Qed.
Lemma sane_bind {A B} (m : res A) (k : A -> res B) : sane m -> (forall a, m = Ok a -> sane (k a)) -> sane (bindR m k).
Proof. intros Hm Hk. destruct m; cbn [bindR]; try done. by apply Hk. Qed.
Lemma sane_fold {A St} (f : St -> A -> res St) l : (forall s a, a ∈ l -> sane (f s a)) -> forall s, sane (foldR f s l).
Proof.
  induction l as [|a l IH]; intros H s; cbn [foldR]; [exact I|]. apply sane_bind; [apply H, elem_of_list_here|]. intros s' _. apply IH. intros s2 b Hb. apply H. by apply elem_of_list_further.
Qed.
Lemma sane_map {A B} (f : A -> res B) l : (forall a, a ∈ l -> sane (f a)) -> sane (mapR f l).
Proof.
  induction l as [|a l IH]; intros H; cbn [mapR]; [exact I|]. apply sane_bind; [apply H, elem_of_list_here|]. intros b _.
  apply sane_bind; [apply IH; intros c Hc; apply H; by apply elem_of_list_further|]. intros; exact I.
Qed.
Lemma sane_ends {A} (f : nat -> res A) : (forall fuel, sane (f fuel)) -> ends f -> exists N y, forall fuel, N <= fuel -> f fuel = Ok y.
Proof.
  intros Hs (N & r & Hr & H). pose proof (Hs N) as Hn. rewrite (H N) in Hn by lia. destruct r as [y|e| |]; try done. by exists N, y.
Qed.

(** ** Declarations *)
Lemma definition_sane fuel : forall vars d, sane (compute_definition fuel vars d).
Proof.
  induction fuel as [|fuel IH]; intros vars d; cbn [compute_definition]; [exact I|].
  repeat match goal with
  | |- sane (Ok _) => exact I
  | |- sane (bindR _ _) => apply sane_bind; [|intros ? ?]
  | |- sane (mapR _ _) => apply sane_map; intros ? ?
  | |- sane (compute_definition _ _ _) => apply IH
  | |- sane (match ?x with _ => _ end) => destruct x
  end.
Qed.
Lemma shorthand_sane fuel vars sh : sane (compute_shorthand fuel vars sh).
Proof.
  unfold compute_shorthand. repeat match goal with
  | |- sane (Ok _) => exact I
  | |- sane (bindR _ _) => apply sane_bind; [|intros ? ?]
  | |- sane (mapR _ _) => apply sane_map; intros ? ?
  | |- sane (compute_definition _ _ _) => apply definition_sane
  end.
Qed.
Lemma values_sane fuel vars key vs : forall index s, sane (compute_values fuel vars key index vs s).
Proof.
  induction vs as [|sh vs IH]; intros index s; cbn [compute_values]; [exact I|]. apply sane_bind; [|intros; apply IH].
  unfold compute_style. apply sane_bind; [apply shorthand_sane|]. intros; exact I.
Qed.
Lemma block_sane fuel block st : sane (compute_declaration_block fuel block st).
Proof.
  unfold compute_declaration_block. apply sane_fold. intros [vars s] [v|p] _; cbn [compute_declaration]; [exact I|].
  apply sane_bind; [apply values_sane|]. intros; exact I.
Qed.

(** ** Animations: a track always has its first frame *)
Lemma zget_in {A} k (l : list (Z * A)) : k ∈ map fst l -> is_Some (z_get k l).
Proof.
  induction l as [|[k' v] l IH]; cbn [map fst z_get]; intros H; [by apply elem_of_nil in H|]. destruct (Z.eqb_spec k k') as [->|Hne]; [by eexists|].
  apply elem_of_cons in H as [?|H]; [done|by apply IH].
Qed.
Lemma neighbours_in t l : forall a b, let r := neighbours t l a b in (fst r = a \/ fst r ∈ l) /\ (snd r = b \/ snd r ∈ l).
Proof.
  induction l as [|s l IH]; intros a b; cbn [neighbours]; [cbn; auto|]. set (a' := if (s <=? t)%Z then s else a).
  assert (Ha : a' = a \/ a' ∈ s :: l) by (unfold a'; destruct (s <=? t)%Z; [right; apply elem_of_list_here|by left]).
  destruct (t <=? s)%Z; cbv zeta; cbn [fst snd].
  - split; [exact Ha|right; apply elem_of_list_here].
  - destruct (IH a' b) as [[H1|H1] [H2|H2]]; (split; [|]); rewrite ?H1, ?H2; auto; right; by apply elem_of_list_further.
Qed.
Lemma track_sane tr t s : is_Some (z_get 0%Z (tr_frames tr)) -> sane (play_track tr t s).
Proof.
  intros H0. unfold play_track. pose proof (neighbours_in t (map fst (tr_frames tr)) 0 0)%Z as Hn. destruct (neighbours _ _ _ _) as [a b]. cbn [fst snd] in Hn. cbv zeta in Hn.
  assert (Ha : is_Some (z_get a (tr_frames tr))) by (destruct Hn as [[->|H] _]; [exact H0|by apply zget_in]).
  assert (Hb : is_Some (z_get b (tr_frames tr))) by (destruct Hn as [_ [->|H]]; [exact H0|by apply zget_in]).
  destruct Ha as [va Ha], Hb as [vb Hb]. rewrite Ha, Hb. destruct (a <? b)%Z; exact I.
Qed.
Lemma zget_insert {A} k (v : A) l : z_get k (z_insert k v l) = Some v.
Proof.
  induction l as [|[k' v'] l IH]; cbn [z_insert z_get]; [by rewrite Z.eqb_refl|]. destruct (Z.ltb_spec k k'); cbn [z_get]; [by rewrite Z.eqb_refl|].
  destruct (Z.eqb_spec k k') as [->|Hne]; cbn [z_get]; [by rewrite Z.eqb_refl|]. destruct (Z.eqb_spec k k'); [done|exact IH].
Qed.
Lemma zget_insert_ne {A} k j (v : A) l : k <> j -> z_get k (z_insert j v l) = z_get k l.
Proof.
  intros Hne. induction l as [|[k' v'] l IH]; cbn [z_insert z_get]; [by destruct (Z.eqb_spec k j)|]. destruct (Z.ltb_spec j k'); cbn [z_get]; [by destruct (Z.eqb_spec k j)|].
  destruct (Z.eqb_spec j k') as [->|Hne']; cbn [z_get]; [by destruct (Z.eqb_spec k k')|]. destruct (Z.eqb_spec k k'); [done|exact IH].
Qed.
Lemma zget_omap {A B} (g : A -> option B) k l a : z_get k l = Some a -> is_Some (g a) ->
  is_Some (z_get k (omap (fun '(step, s) => match g s with Some v => Some (step, v) | None => None end) l)).
Proof.
  intros H Hg. induction l as [|[k' v'] l IH]; [done|]. cbn [z_get] in H. change (omap ?f ((k', v') :: l)) with (match f (k', v') with Some y => y :: omap f l | None => omap f l end). cbv beta iota.
  destruct (Z.eqb_spec k k') as [->|Hne].
  - injection H as ->. destruct Hg as [y ->]. cbn [z_get]. rewrite Z.eqb_refl. by eexists.
  - destruct (g v') as [y|]; [|by apply IH]. cbn [z_get]. destruct (Z.eqb_spec k k'); [done|by apply IH].
Qed.
Lemma filled (ds : list Descriptor) (style frame : ComputedStyle) (d : Descriptor) : d ∈ ds \/ is_Some (frame !! d) -> is_Some (fill_frame ds style frame !! d).
Proof.
  change (d ∈ ds \/ is_Some (frame !! d) -> is_Some (foldl (fill1 style) frame ds !! d)). revert frame. induction ds as [|x ds IH]; intros frame H; cbn [foldl]; [destruct H as [H|H]; [by apply elem_of_nil in H|exact H]|].
  apply IH. destruct H as [H|[w H]].
  - apply elem_of_cons in H as [->|H]; [|by left]. right. rewrite fill1_at, decide_True by done. destruct (frame !! x); by eexists.
  - right. rewrite fill1_at. rewrite H. by eexists.
Qed.
Lemma tracks_first ds style kfs tr : tr ∈ tracks_of ds style kfs -> is_Some (z_get 0%Z (tr_frames tr)).
Proof.
  unfold tracks_of. cbv zeta. intros H. apply elem_of_list_In, in_map_iff in H as (d & <- & Hd). cbn [tr_frames]. apply elem_of_list_In in Hd.
  assert (H0 : exists fr, z_get 0%Z (fill_step ds style 100 (fill_step ds style 0 kfs)) = Some fr /\ is_Some (fr !! d)).
  { unfold fill_step at 1. rewrite zget_insert_ne by done. unfold fill_step. rewrite zget_insert. eexists. split; [reflexivity|]. apply filled. by left. }
  destruct H0 as (fr & H0 & Hf). exact (zget_omap (fun s : ComputedStyle => s !! d) _ _ _ H0 Hf).
Qed.
Lemma wrap_sane fuel : forall d t, sane (wrap_time fuel d t).
Proof. induction fuel as [|fuel IH]; intros d t; cbn [wrap_time]; destruct (fgt t d); try exact I. apply IH. Qed.
Lemma animator_update_sane fuel time a : sane (animator_update fuel time a).
Proof. unfold animator_update. cbv zeta. destruct (flt _ _); [exact I|]. apply sane_bind; [apply wrap_sane|]. intros; exact I. Qed.
Lemma animator_play_sane fuel time trs a s : (forall tr, tr ∈ trs -> is_Some (z_get 0%Z (tr_frames tr))) -> sane (animator_play fuel time trs a s).
Proof.
  intros H. unfold animator_play. apply sane_bind; [apply animator_update_sane|]. intros [a' [x|]] _; [|exact I]. apply sane_bind; [|intros; exact I].
  apply sane_fold. intros s' tr Htr. apply track_sane. by apply H.
Qed.
Lemma tracks_sane fuel vars an style : sane (compute_animation_tracks fuel vars an style).
Proof.
  unfold compute_animation_tracks. apply sane_bind; [|intros [ds kfs] _; exact I]. apply sane_fold. intros [ds kfs] kf _. apply sane_bind; [|intros; exact I].
  unfold keyframe_style. apply sane_fold. intros s [v|p] _; [exact I|apply values_sane].
Qed.
Lemma animators_sane fuel css time vars st : sane (play_animators fuel css time vars st).
Proof.
  unfold play_animators. apply sane_fold. intros [l s] a _. destruct (css_animations css !! a_name a) as [an|]; [|exact I].
  apply sane_bind; [apply tracks_sane|]. intros trs Htr. apply sane_bind; [|intros [] _; exact I]. apply animator_play_sane.
  unfold compute_animation_tracks in Htr. apply bindR_Ok in Htr as ([ds kfs] & _ & [= <-]). intros tr. apply tracks_first.
Qed.
Lemma play_loop_sane fuel key time : forall index tn s, sane (play_loop fuel key time index tn s).
Proof.
  induction fuel as [|fuel IH]; intros index tn s; cbn [play_loop]; [exact I|]. destruct (s !! (key, index)); [|exact I]. destruct (t_range tn) as [[from to]|]; [|exact I]. apply IH.
Qed.
Lemma transitions_sane fuel time l s : sane (play_transitions fuel time l s).
Proof.
  unfold play_transitions. apply sane_fold. intros [done s'] tn _. apply sane_bind; [|intros [] _; exact I]. unfold transition_play. destruct (t_key tn); [|exact I].
  apply sane_bind; [apply animator_update_sane|]. intros [a [x|]] _; [|exact I]. apply play_loop_sane.
Qed.
Lemma init_after_sane s tn : sane (init_after_style_applied s tn).
Proof.
  unfold init_after_style_applied. destruct (t_range tn); [exact I|]. destruct (t_key tn) as [key|]; [|exact I]. generalize (S (size s)) 0 tn. clear tn.
  intros fuel. induction fuel as [|fuel IH]; intros index tn; cbn [init_loop]; [exact I|]. destruct (s !! (key, index)); [apply IH|exact I].
Qed.

(** ** The cascade *)
Definition free_rules (debug : bool) (e : Element) : Prop := debug = false \/ Forall (fun es => plus_free (rule_style es)) (e_styles e).
Lemma rules_sane fuel debug n t l st : live t 0 -> n < t_next t -> debug = false \/ Forall (fun es => plus_free (rule_style es)) l -> sane (cascade_rules fuel debug n t l st).
Proof.
  intros Hl Hn Hf. unfold cascade_rules. apply sane_fold. intros st' es Hes.
  assert (Hp : debug = false \/ plus_free (rule_style es)) by (destruct Hf as [Hf|Hf]; [by left|right; rewrite list.Forall_forall in Hf; by apply Hf]).
  destruct es as [s|s]; cbn [rule_style] in Hp; [apply block_sane|]. destruct (style_ok debug view_pseudo t 0 s n Hl Hp Hn) as [b Hb]. rewrite Hb. cbn [bindR]. destruct b; [apply block_sane|exact I].
Qed.
Lemma cascade_sane fuel debug css order time sizes vars n t pe layout e : live t 0 -> n < t_next t -> free_rules debug e ->
  sane (cascade_apply_styles fuel debug css order time sizes vars n t pe layout e).
Proof.
  intros Hl Hn Hf. unfold cascade_apply_styles. cbv zeta. set (e0 := inherit pe (reset_element_style e)).
  assert (E1 : e_styles e0 = e_styles e) by reflexivity. rewrite E1. clearbody e0. clear E1.
  apply sane_bind; [by apply rules_sane|]. intros [vars1 s1] _. apply sane_bind; [apply block_sane|]. intros [vars2 s2] _.
  apply sane_bind; [apply animators_sane|]. intros [an s3] _. apply sane_bind; [apply transitions_sane|]. intros [tn s4] _.
  destruct (apply_all _ _ _) as [l1 e1]. apply sane_bind; [apply sane_map; intros a _; apply init_after_sane|]. intros ts _. exact I.
Qed.
Definition free_tree (debug : bool) (t : Tree) : Prop := forall n e, n <> 0 -> get_ctx t n = Some e -> free_rules debug e.
Lemma free_content debug t t' : same_content t t' -> free_tree debug t -> free_tree debug t'.
Proof.
  intros H Hq n e' Hn He'. destruct (same_ctx _ _ _ _ (same_sym _ _ H) He') as (e & He & Hc). unfold content in Hc. injection Hc as H1 H2 H3 H4 H5 H6 H7 H8 H9 H10.
  destruct (Hq n e Hn He) as [Q|Q]; [by left|right]. congruence.
Qed.
Lemma kept_free debug sheet bs t0 t : debug = false \/ Forall plus_free sheet -> kept debug sheet bs t0 t -> free_tree debug t.
Proof.
  intros Hs Hk n e Hn He. destruct Hs as [Hs|Hs]; [by left|right]. rewrite (k_rules _ _ _ _ _ Hk n e Hn He). apply list.Forall_forall. intros es Hin.
  unfold sorted_out in Hin. apply elem_of_list_omap in Hin as (s & Hin & Hc). replace (rule_style es) with s; [rewrite list.Forall_forall in Hs; by apply Hs|]. unfold classify in Hc.
  repeat match type of Hc with context [if ?b then _ else _] => destruct b | context [match ?x with _ => _ end] => destruct x end; try done; by injection Hc as <-.
Qed.
Lemma node_there t root n : live t root -> n < t_next t -> exists x e, t_nodes t !! n = Some x /\ get_ctx t n = Some e.
Proof. intros Hl Hn. destruct (live_node _ _ Hl n Hn) as (e & He & _). destruct (ctx_is _ _ _ He) as [x Hx]. by exists x, e. Qed.
Lemma styles_sane fuel debug css order time : forall depth n p sizes vars t, live t 0 -> n ∈ attached t p -> free_tree debug t ->
  sane (apply_styles fuel debug css order time depth n sizes vars t).
Proof.
  induction depth as [|depth IH]; intros n p sizes vars t Hl Hin Hf; [exact I|]. cbn [apply_styles].
  destruct (live_newer _ _ Hl p n ltac:(by left)) as [Hpn Hnt]. destruct (node_there _ _ n Hl Hnt) as (x & e & Hx & He). destruct (node_there _ _ p Hl ltac:(lia)) as (px & pe & Hpx & Hpe).
  pose proof (proj1 (live_parent _ _ Hl p n) Hin) as Hpar. rewrite (parent_ok _ _ _ Hx). cbn [bindR]. rewrite Hpar. cbn [mbind option_bind]. rewrite Hpe. cbn [ok_or unwrap bindR].
  unfold style, get_node. rewrite Hx. cbn [ok_or unwrap bindR]. rewrite (proj2 (get_element_ctx _ _ _) He). cbn [bindR].
  destruct (e_text e); [exact I|]. apply sane_bind; [apply cascade_sane; [exact Hl|exact Hnt|apply (Hf n); [lia|exact He]]|].
  intros [[l' e'] vars'] Hcas.
  assert (Hs : exists t1, set_style n l' (put_element n e' t) = Ok t1 /\ same_content t t1).
  { assert (Hput : same_content t (put_element n e' t)) by (eapply put_element_same; [exact He|exact (cascade_apply_content _ _ _ _ _ _ _ _ _ _ _ _ _ Hcas)]).
    assert (Hset : exists t1, set_style n l' (put_element n e' t) = Ok t1).
    { unfold set_style, get_node. rewrite (put_nodes_eq _ _ _ _ Hx). cbn [ok_or unwrap bindR]. by eexists. }
    destruct Hset as [t1 Hset]. exists t1. split; [exact Hset|]. eapply same_trans; [exact Hput|by eapply set_style_same]. }
  destruct Hs as (t1 & -> & Hsame). cbn [bindR]. destruct (_ || _); [exact I|].
  assert (Hch : children t1 n = Ok (attached t n)).
  { destruct (node_there t1 0 n (shown_live _ _ _ (content_shown _ _ Hsame) Hl)) as (x1 & _ & Hx1 & _); [destruct Hsame as [N _]; lia|].
    pose proof (shown_attached _ _ n (content_shown _ _ Hsame)) as <-. unfold children, get_node, attached. rewrite Hx1. done. }
  rewrite Hch. cbn [bindR]. set (sizes' := sizes <| parent_font_size := f_size (e_font e') |> <| parent_color := e_color e' |>).
  assert (Hfold : forall cs a, cs ⊆ attached t n -> same_content t a -> sane (foldR (fun t c => apply_styles fuel debug css order time depth c sizes' vars' t) a cs)).
  { induction cs as [|c cs IHc]; intros a Hc Ha; cbn [foldR]; [exact I|]. apply sane_bind.
    - apply (IH c n); [exact (shown_live _ _ _ (content_shown _ _ Ha) Hl)|rewrite (shown_attached _ _ _ (content_shown _ _ Ha)); apply Hc, elem_of_list_here|by eapply free_content].
    - intros b Hb. apply IHc; [intros d Hd; apply Hc; by apply elem_of_list_further|]. eapply same_trans; [exact Ha|]. exact (apply_styles_same _ _ _ _ _ _ _ _ _ _ _ Hb). }
  apply Hfold; [done|exact Hsame].
Qed.

(** ** Positions and the viewport *)
Lemma positions_sane : forall depth n loc op clip t, live t 0 -> n < t_next t -> sane (compute_final_positions depth n loc op clip t).
Proof.
  induction depth as [|depth IH]; intros n loc op clip t Hl Hn; [exact I|]. cbn [compute_final_positions]. destruct (node_there _ _ n Hl Hn) as (x & e & Hx & He).
  unfold final_layout, get_node. rewrite Hx. cbn [ok_or unwrap bindR]. rewrite (proj2 (get_element_ctx _ _ _) He). cbn [bindR]. cbv zeta.
  match goal with |- context [match ?m with (_, _) => _ end] => destruct m as [clip' loc'] end.
  match goal with |- sane (bindR (children (put_element n ?e1 t) n) _) => assert (Hsame : same_content t (put_element n e1 t)) by (eapply put_element_same; [exact He|reflexivity]); revert Hsame; generalize (put_element n e1 t) end.
  intros t1 H1.
  assert (Hch : children t1 n = Ok (attached t n)).
  { destruct (node_there t1 0 n (shown_live _ _ _ (content_shown _ _ H1) Hl)) as (x1 & _ & Hx1 & _); [destruct H1 as [N _]; lia|].
    pose proof (shown_attached _ _ n (content_shown _ _ H1)) as <-. unfold children, get_node, attached. rewrite Hx1. done. }
  rewrite Hch. cbn [bindR].
  match goal with |- sane (foldR (fun t c => compute_final_positions depth c loc' ?o clip' t) _ _) => generalize o end. intros o.
  assert (Hf : forall cs a, cs ⊆ attached t n -> same_content t a -> sane (foldR (fun t c => compute_final_positions depth c loc' o clip' t) a cs)).
  { induction cs as [|c cs IHc]; intros a Hin Ha; cbn [foldR]; [exact I|].
    assert (Hca : c ∈ attached t n) by (apply Hin, elem_of_list_here). destruct (live_newer _ _ Hl n c ltac:(by left)) as [Hnew Hold].
    assert (Hnx : t_next a = t_next t) by (symmetry; exact (proj1 Ha)). apply sane_bind.
    - apply IH; [exact (shown_live _ _ _ (content_shown _ _ Ha) Hl)|lia].
    - intros b Hb. apply IHc; [intros d Hd'; apply Hin; by apply elem_of_list_further|]. eapply same_trans; [exact Ha|]. by eapply final_positions_same. }
  apply Hf; [done|exact H1].
Qed.
Lemma viewport_total vp t : live t 0 -> 1 < t_next t -> exists t', set_viewport 0 vp t = Ok t'.
Proof.
  intros Hl Hn. destruct (node_there _ _ 0 Hl ltac:(lia)) as (x & e & Hx & He). unfold set_viewport, style, get_node. rewrite Hx. cbn [ok_or unwrap bindR].
  destruct (_ && _); [|by eexists]. unfold set_style, get_node. rewrite Hx. by eexists.
Qed.

(** ** One update *)
Lemma total_is_ok tr : transformers_total tr -> forall name f y, tr !! name = Some f -> is_ok (f y) = true.
Proof. intros H name f y Hf. destruct (H name f y Hf) as [w ->]. done. Qed.
Lemma total_halting tr : transformers_total tr -> halting tr.
Proof. intros H name f y Hf. destruct (H name f y Hf) as [w ->]. done. Qed.
Lemma input_ready X fuel v i x m t ids : ready X v -> transformers_total (x_transformers X) -> prepare X fuel v i x = Ok (m, t, ids) ->
  exists v1 o, update X fuel v i x = Ok (v1, o).
Proof.
  intros Hr Ht Hp. unfold update. rewrite Hp. cbn [bindR].
  destruct (prepare_live _ _ _ _ _ _ _ _ (rd_sound _ _ Hr) Hp) as (Hl & Hd). pose proof (prepare_ss _ _ _ _ _ _ _ _ Hp) as Hss.
  rewrite (rd_tr _ _ Hr), (rd_body _ _ Hr). unfold handle_output.
  destruct (match last_move (in_events i) None with Some p => (v_session v <| ev_mouse := p |>, in_events i) | None => (v_session v, IMouseMove (ev_mouse (v_session v)) :: in_events i) end) as [s evs] eqn:E.
  assert (Hi : inv (s <| ev_output := output_new |>, t)).
  { eapply ss_inv; [exact (rd_inv _ _ Hr)|exact Hss|done|]. destruct (last_move (in_events i) None); injection E as <- _; done. }
  assert (Hn : 1 < t_next t). { destruct Hd as [Hd _]. rewrite <- Hd. exact (rd_next _ _ Hr). }
  assert (Hdep : t_next t <= tree_depth t) by (unfold tree_depth; lia).
  destruct (events_ok (x_fmt_f64 X) m (x_transformers X) Ht (tree_depth t) evs _ _ Hi Hn Hdep) as ([s1 t1] & Hh).
  unfold handle_elements_input. rewrite Hh. cbn [bindR]. by eexists _, _.
Qed.
Record able (X : Externals) (css : Css) (sh : SpecBind.shape) (t0 : Tree) (v : View) : Prop := {
  ab_page : page_inv X css t0 v;
  ab_ready : ready X v;
  ab_shaped : shaped sh v
}.
Lemma update_able X fuel css sh t0 v i x v' o : able X css sh t0 v -> fits sh x = true -> update X fuel v i x = Ok (v', o) -> able X css sh t0 v'.
Proof.
  intros [H1 H2 H3] Hf H. split.
  - by eapply update_inv.
  - destruct (update_side _ _ _ _ _ _ _ H2 H) as (m & t & now & Hs). exact (is_ready _ _ _ _ _ _ _ _ _ _ Hs).
  - exact (proj1 (update_shaped _ _ _ _ _ _ _ _ H3 Hf H)).
Qed.
Lemma update_sane X fuel css sh t0 v i x : able X css sh t0 v -> transformers_total (x_transformers X) -> x_debug X = false \/ no_plus_sheet css -> fits sh x = true ->
  sane (update X fuel v i x).
Proof.
  intros [Hp Hr Hsh] Ht Hpl Hf. pose proof Hp as [Hs Hk Hc Hb Hn Htx].
  assert (Hpr : sane (prepare X fuel v i x)).
  { unfold prepare. rewrite (view_bind_shaped _ _ _ _ Hsh Hf).
    destruct (notify_total (x_fmt_f64 X) (v_bindings v) (v_transformers v) "" (ConformFacts.changes sh (v_model v) x)) as (rs0 & Hno). { rewrite Htx. by apply total_is_ok. }
    pose proof (view_bind_shaped X _ _ _ Hsh Hf) as Hvb. rewrite Hno in Hvb |- *. cbn [bindR] in Hvb |- *.
    match type of Hvb with view_bind _ _ _ = Ok (?m, ?rs) => set (m1 := m) in *; set (rs1 := rs) in * end.
    pose proof (view_bind_reactions_ok _ _ _ _ _ Hs Hvb) as Hok. pose proof (so_live _ Hs) as Hl. rewrite (so_root _ Hs) in Hl |- *.
    destruct (update_trees_ok (x_read_inline_css X) rs1 (v_tree v) (v_ids v) 0 Hl Hok) as (ta & ids & Hup & Hla & Hda). rewrite Hup. cbn [bindR].
    assert (Hk1 : kept (x_debug X) (css_styles css) (v_bindings v) t0 ta) by (eapply kept_reactions; [exact Hk|exact Hok|by eapply view_bind_from|exact Hup]).
    assert (Hna : 1 < t_next ta) by (destruct Hda as [N _]; lia).
    destruct (viewport_total (in_viewport i) ta Hla Hna) as [t1 H1]. rewrite H1. cbn [bindR]. cbv zeta.
    pose proof (set_viewport_same _ _ _ _ H1) as Hsame.
    pose proof (shown_live _ _ _ (content_shown _ _ Hsame) Hla) as Hl1.
    assert (Hn1 : 1 < t_next t1) by (destruct Hsame as [N3 _]; lia).
    rewrite Hb. apply sane_bind.
    - apply (styles_sane _ _ _ _ _ _ 1 0).
      + exact Hl1.
      + rewrite (shown_attached _ _ _ (content_shown _ _ Hsame)), (k_root _ _ _ _ _ Hk1). apply elem_of_list_here.
      + eapply free_content; [exact Hsame|]. eapply kept_free; [|exact Hk1]. destruct Hpl as [Hpl|Hpl]; [by left|right].
        apply list.Forall_forall. intros s Hin sel Hsel. by apply (Hpl s).
    - intros t2 H2. pose proof (apply_styles_same _ _ _ _ _ _ _ _ _ _ _ H2) as Hs2.
      assert (Hs3 : same_content t1 (run_layout X t2)) by (eapply same_trans; [exact Hs2|apply run_layout_same]).
      apply sane_bind; [|intros; exact I]. apply positions_sane; [exact (shown_live _ _ _ (content_shown _ _ Hs3) Hl1)|]. destruct Hs3 as [N _]. rewrite <- N. exact Hn1. }
  destruct (prepare X fuel v i x) as [[[m t] ids]|e| |] eqn:E; try done.
  - destruct (input_ready _ _ _ _ _ _ _ _ Hr Ht E) as (v1 & o & Hu). rewrite Hu. exact I.
  - unfold update. rewrite E. exact I.
Qed.
Lemma updates_sane X fuel css sh t0 : transformers_total (x_transformers X) -> x_debug X = false \/ no_plus_sheet css ->
  forall hist v, able X css sh t0 v -> Forall (fun e => fits sh (snd e) = true) hist -> sane (updates X fuel v hist).
Proof.
  intros Ht Hp. induction hist as [|[i x] hist IH]; intros v Hab Hf; cbn [updates]; [exact I|].
  apply list.Forall_cons in Hf as [Hx Hf]. cbn [snd] in Hx. apply sane_bind; [by eapply update_sane|]. intros [v1 o] Hu. apply sane_bind; [|intros [v2 os] _; exact I].
  apply IH; [by eapply update_able|exact Hf].
Qed.
Lemma loaded_able X fuel doc css v sh : from_document X fuel doc css = Ok v -> v_model v = initial_model sh -> wf_shape sh = true -> exists t0, able X css sh t0 v.
Proof.
  intros H Hm Hw. destruct (loaded_inv _ _ _ _ _ H) as (t0 & Hp). exists t0. split; [exact Hp|exact (load_ready _ _ _ _ _ H)|by eapply from_document_shaped].
Qed.

Theorem history_sane X fuel fuel' doc css v0 sh hist : from_document X fuel doc css = Ok v0 -> v_model v0 = initial_model sh -> wf_shape sh = true ->
  transformers_total (x_transformers X) -> x_debug X = false \/ no_plus_sheet css -> Forall (fun e => fits sh (snd e) = true) hist ->
  never_fails (updates X fuel' v0 hist).
Proof. intros H0 Hm Hw Ht Hp Hf. destruct (loaded_able _ _ _ _ _ _ H0 Hm Hw) as (t0 & Hab). by eapply updates_sane. Qed.
