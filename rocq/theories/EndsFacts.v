(** * Computations that end (C39). *)
From Coq Require Import ZArith Lia.
From stdpp Require Import gmap.
From RecordUpdate Require Import RecordUpdate.
From Verif Require Import Str F32 Res ResFacts Json JsonFacts PropKey Html Css Element Tree ViewModel Render Update Matching
  Cascade Initial Animation Apply Styling Events View BindFacts SpecStyle SpecPage CascadeFacts StyleMore SpecAnim AnimProps SpecEnds EndsTimer FrameFacts.
Close Scope R_scope.

(** ** Outcomes that are not [Hang] *)
Definition halts {A} (r : res A) : Prop := r <> Hang.
Lemma halts_ok {A} (a : A) : halts (Ok a). Proof. discriminate. Qed.
Lemma halts_err {A} e : halts (@Err A e). Proof. discriminate. Qed.
Lemma halts_panic {A} : halts (@Panic A). Proof. discriminate. Qed.
Lemma halts_bind {A B} (m : res A) (k : A -> res B) : halts m -> (forall a, m = Ok a -> halts (k a)) -> halts (bindR m k).
Proof. unfold halts. intros Hm Hk. destruct m; cbn [bindR]; try done. by apply Hk. Qed.
Lemma halts_fold {A S} (f : S -> A -> res S) l : (forall s a, a ∈ l -> halts (f s a)) -> forall s, halts (foldR f s l).
Proof.
  induction l as [|a l IH]; intros H s; cbn [foldR]; [discriminate|]. apply halts_bind; [apply H, elem_of_list_here|]. intros s' _. apply IH. intros s2 b Hb. apply H. by apply elem_of_list_further.
Qed.
Lemma halts_map {A B} (f : A -> res B) l : (forall a, a ∈ l -> halts (f a)) -> halts (mapR f l).
Proof.
  induction l as [|a l IH]; intros H; cbn [mapR]; [discriminate|]. apply halts_bind; [apply H, elem_of_list_here|]. intros b _.
  apply halts_bind; [apply IH; intros c Hc; apply H; by apply elem_of_list_further|]. intros; discriminate.
Qed.
Lemma halts_unwrap {A} (o : option A) : halts (unwrap o). Proof. by destruct o. Qed.
Lemma halts_ok_or {A} (o : option A) e : halts (ok_or o e). Proof. by destruct o. Qed.
Ltac halting :=
  repeat match goal with
  | |- halts (Ok _) => apply halts_ok
  | |- halts (Err _) => apply halts_err
  | |- halts Panic => apply halts_panic
  | |- halts (bindR _ _) => apply halts_bind; [|intros ? ?]
  | |- halts (unwrap _) => apply halts_unwrap
  | |- halts (ok_or _ _) => apply halts_ok_or
  | |- halts (foldR _ _ _) => apply halts_fold; intros ? ? ?
  | |- halts (mapR _ _) => apply halts_map; intros ? ?
  | |- halts (get_node _ _) => unfold get_node
  | |- halts (get_element _ _) => unfold get_element
  | |- halts (children _ _) => unfold children
  | |- halts (parent _ _) => unfold parent
  | |- halts (style _ _) => unfold style
  | |- halts (set_style _ _ _) => unfold set_style
  | |- halts (set_parent _ _ _) => unfold set_parent
  | |- halts (put_children _ _ _) => unfold put_children
  | |- halts (final_layout _ _) => unfold final_layout
  | |- halts (mark_dirty _ _) => unfold mark_dirty
  | |- halts (let '(_, _) := ?x in _) => destruct x
  | |- halts (match ?x with _ => _ end) => destruct x
  | |- halts ((match ?x with _ => _ end) _) => destruct x
  | _ => assumption
  end.

(** ** Binding data *)
Section bind.
  Context (fmt : f64 -> string) (bs : Bindings) (tr : gmap string (json -> res json)) (df : gmap string json) (Htr : halting tr).
  Lemma pipe_halts pipe : forall v, halts (run_pipe tr pipe v).
  Proof.
    induction pipe as [|name pipe IH]; intros v; cbn [run_pipe]; [discriminate|]. destruct (tr !! name) as [f|] eqn:E; [|apply IH].
    apply halts_bind; [by eapply Htr|]. intros a _. apply IH.
  Qed.
  Lemma react_halts path v : halts (react fmt bs tr path v).
  Proof. unfold react. halting. apply pipe_halts. Qed.
  Lemma leaf_halts dst src path : halts (bind_leaf fmt bs tr dst src path).
  Proof. unfold bind_leaf. halting. apply react_halts. Qed.
  Lemma fields_halts src path apath m : Forall (fun e => forall p a, halts (bind_value fmt bs tr df (snd e) (src (fst e)) p a)) m -> halts (bind_fields fmt bs tr df src path apath m).
  Proof.
    induction 1 as [|[k d] m Hd _ IH]; cbn [bind_fields]; [discriminate|]. apply halts_bind; [apply Hd|]. intros [[d' ch] rs] _.
    apply halts_bind; [exact IH|]. intros [[m' ch'] rs'] _. discriminate.
  Qed.
  Lemma object_halts src own path apath m : Forall (fun e => forall p a, halts (bind_value fmt bs tr df (snd e) (src (fst e)) p a)) m -> halts (bind_object fmt bs tr df src own path apath m).
  Proof. intros H. unfold bind_object. apply halts_bind; [by apply fields_halts|]. intros [[o ch] rs] _. destruct ch; halting. apply react_halts. Qed.
  Lemma elems_halts path apath next : Forall (fun s => forall dst p a, halts (bind_value fmt bs tr df dst s p a)) next -> forall cur i, halts (bind_elems fmt bs tr df path apath cur next i).
  Proof.
    induction 1 as [|s next Hs _ IH]; intros [|d cur] i; cbn [bind_elems]; try discriminate. apply halts_bind; [apply Hs|]. intros [[d' ch] rs] _.
    apply halts_bind; [apply IH|]. intros [[l ch'] rs'] _. discriminate.
  Qed.
  Lemma null_halts dst : forall p a, halts (bind_value fmt bs tr df dst JNull p a).
  Proof.
    induction dst as [| b | n | s | l IH | m IH] using json_ind'; intros p a; rewrite bind_value_eq; try apply leaf_halts.
    - halting. apply react_halts.
    - apply object_halts. exact IH.
  Qed.
  Lemma bind_halts src : forall dst p a, halts (bind_value fmt bs tr df dst src p a).
  Proof.
    induction src as [| b | n | s | next IH | sm IH] using json_ind'; [apply null_halts|..]; intros dst p a; rewrite bind_value_eq.
    1-3: destruct dst; try apply leaf_halts; discriminate.
    - destruct dst as [| | | |cur|]; try apply leaf_halts. unfold bind_array, resize_array. apply halts_bind; [halting; apply react_halts|]. intros [[c ch] rs] _.
      apply halts_bind; [by apply elems_halts|]. intros [[l ch'] rs'] _. discriminate.
    - destruct dst as [| | | | |m]; try apply leaf_halts; try discriminate. apply object_halts.
      apply List.Forall_forall. intros [k d] Hin p' a'. cbn [fst snd]. unfold field_of. destruct (obj_get k sm) as [x|] eqn:E; [|apply null_halts].
      rewrite List.Forall_forall in IH. assert (Hx : exists k', In (k', x) sm).
      { clear IH. induction sm as [|[k' y] sm IHs]; [discriminate E|]. cbn [obj_get] in E. destruct (String.eqb k k'); [injection E as ->; exists k'; by left|].
        destruct (IHs E) as (k2 & H2). exists k2. by right. }
      destruct Hx as (k' & Hx). exact (IH _ Hx d p' a').
  Qed.
End bind.
Lemma view_bind_halts X v value : halting (v_transformers v) -> halts (view_bind X v value).
Proof. intros H. unfold view_bind. apply halts_bind; [by apply bind_halts|]. intros [[m ch] rs] _. discriminate. Qed.

(** ** The tree *)
Lemma insertion_halts d c di i : halts (insertion_index d c di i).
Proof. induction i as [|i IH]; cbn [insertion_index]; [discriminate|]. halting. Qed.
Lemma insert_halts p i n t : halts (insert_child_at_index p i n t). Proof. unfold insert_child_at_index. halting. Qed.
Lemma remove_at_halts p i t : halts (remove_child_at_index p i t). Proof. unfold remove_child_at_index. halting. Qed.
Lemma remove_halts p i t : halts (remove_child p i t). Proof. unfold remove_child. halting. apply remove_at_halts. Qed.
Lemma add_halts p i t : halts (add_child p i t). Proof. unfold add_child. halting. Qed.
Lemma slice_halts {A} a b (l : list A) : halts (slice a b l). Proof. unfold slice. halting. Qed.
Lemma reattach_halts p n b t : halts (reattach p n b t).
Proof. unfold reattach. halting; try apply insertion_halts; try apply insert_halts; apply remove_at_halts. Qed.
Lemma repeat_halts p a b c t : halts (repeat_children p a b c t).
Proof. unfold repeat_children. halting; try apply slice_halts; try apply add_halts; apply remove_halts. Qed.
Lemma update_tree_halts ric st r : halts (update_tree ric st r).
Proof.
  destruct st as [t ids], r; cbn [update_tree].
  all: try (halting; fail); try (apply halts_bind; [first [apply repeat_halts|apply reattach_halts]|]; intros; discriminate).
  - apply halts_bind; [apply halts_ok_or|]. intros e He. apply halts_bind; [apply halts_ok_or|]. intros sp Hsp. cbv zeta.
    destruct (_ && _); [|discriminate]. apply halts_bind; [|intros; discriminate]. unfold update_img_src, child_at_index. halting.
Qed.
Lemma update_trees_halts ric st rs : halts (update_trees ric st rs).
Proof. unfold update_trees. apply halts_fold. intros s r _. apply update_tree_halts. Qed.
Lemma viewport_halts root vp t : halts (set_viewport root vp t).
Proof. unfold set_viewport. halting. Qed.

(** ** Matching *)
Lemma components_halts debug m l : forall n e t, halts (match_components debug m l n e t).
Proof.
  induction l as [|c l IH]; intros n e t; cbn [match_components]; [discriminate|]. destruct (as_combinator c) as [comb|].
  - apply halts_bind; [unfold find_next_target; halting|]. intros [x|] _; [|discriminate]. apply halts_bind; [apply halts_unwrap|]. intros e' _. apply IH.
  - destruct (match_simple_selector m c e); [apply IH|discriminate].
Qed.
Lemma match_halts debug m s n t : halts (match_style debug m s n t).
Proof.
  unfold match_style. induction (s_selectors s) as [|sel sels IH]; cbn [match_any]; [discriminate|]. apply halts_bind.
  - unfold match_complex_selector. apply halts_bind; [apply halts_unwrap|]. intros e _. apply components_halts.
  - intros [|] _; [discriminate|exact IH].
Qed.

(** ** Ends *)
Lemma ends_const {A} (r : res A) : halts r -> ends (fun _ => r).
Proof. intros H. exists 0, r. done. Qed.
Lemma ends_bind {A B} (f : nat -> res A) (g : A -> nat -> res B) : ends f -> (forall a, (exists fuel, f fuel = Ok a) -> ends (g a)) -> ends (fun fuel => bindR (f fuel) (fun a => g a fuel)).
Proof.
  intros (n & r & Hr & Hf) Hg. destruct r as [a|e| |]; [|exists n, (Err e); split; [done|intros fuel Hn; by rewrite Hf]|exists n, Panic; split; [done|intros fuel Hn; by rewrite Hf]|done].
  destruct (Hg a) as (m & s & Hs & Hm); [exists n; by apply Hf|]. exists (Nat.max n m), s. split; [exact Hs|]. intros fuel Hn. rewrite Hf by lia. cbn [bindR]. apply Hm. lia.
Qed.
Lemma ends_ext {A} (f g : nat -> res A) : (forall fuel, f fuel = g fuel) -> ends f -> ends g.
Proof. intros E (n & r & Hr & Hf). exists n, r. split; [done|]. intros fuel Hn. rewrite <- E. by apply Hf. Qed.
Lemma ends_fold {A S} (P : S -> Prop) (f : nat -> S -> A -> res S) l :
  (forall s a, a ∈ l -> P s -> ends (fun fuel => f fuel s a)) -> (forall fuel s a s', a ∈ l -> P s -> f fuel s a = Ok s' -> P s') -> forall s, P s -> ends (fun fuel => foldR (f fuel) s l).
Proof.
  induction l as [|a l IH]; intros H1 H2 s Hs; cbn [foldR]; [by apply ends_const|]. apply (ends_bind (fun fuel => f fuel s a) (fun s' fuel => foldR (f fuel) s' l)).
  - apply H1; [apply elem_of_list_here|exact Hs].
  - intros s' (fuel & E). apply IH.
    + intros s2 b Hb. apply H1. by apply elem_of_list_further.
    + intros fuel' s2 b s3 Hb. apply H2. by apply elem_of_list_further.
    + eapply H2; [apply elem_of_list_here|exact Hs|exact E].
Qed.

(** ** The cascade *)
Definition ranked_vars (rank : string -> nat) (vars : Variables) : Prop :=
  forall name sh ref, vars !! name = Some sh -> In ref (flat_map refers sh) -> rank ref < rank name.
Lemma ranked_acyclic rank vars : ranked_vars rank vars -> acyclic vars. Proof. intros H. by exists rank. Qed.
Lemma ranked_empty rank : ranked_vars rank ∅.
Proof. intros name sh ref H. assert (Some sh = None) as [=]. etransitivity; [symmetry; exact H|]. exact (lookup_empty name). Qed.
Lemma shorthand_ends rank vars sh : ranked_vars rank vars -> ends (fun fuel => compute_shorthand fuel vars sh).
Proof. intros H. destruct (acyclic_computes vars sh (ranked_acyclic _ _ H)) as (n & vs & Hf). exists n, (Ok vs). split; [done|exact Hf]. Qed.
Lemma values_end rank vars key values : ranked_vars rank vars -> forall i s, ends (fun fuel => compute_values fuel vars key i values s).
Proof.
  intros H. induction values as [|sh values IH]; intros i s; cbn [compute_values]; [by apply ends_const|].
  apply (ends_bind (fun fuel => compute_style fuel vars key i sh s) (fun s fuel => compute_values fuel vars key (S i) values s)); [|intros s' _; apply IH].
  unfold compute_style. apply (ends_bind (fun fuel => compute_shorthand fuel vars sh) (fun vs fuel => Ok (overwrite_all i (expand key vs) s))); [by eapply shorthand_ends|]. intros vs _. by apply ends_const.
Qed.
Lemma declaration_ends rank d st : ranked_vars rank (fst st) -> ends (fun fuel => compute_declaration fuel st d).
Proof.
  destruct st as [vars s]. intros H. cbn [fst] in H. unfold compute_declaration. destruct d as [v|p]; [by apply ends_const|].
  apply (ends_bind (fun fuel => compute_values fuel vars (p_key p) 0 (p_values p) s) (fun s fuel => Ok (vars, s))); [by eapply values_end|]. intros s' _. by apply ends_const.
Qed.
Lemma declaration_ranked rank fuel d st st' : ranked_declaration rank d -> ranked_vars rank (fst st) -> compute_declaration fuel st d = Ok st' -> ranked_vars rank (fst st').
Proof.
  destruct st as [vars s]. intros Hd H E. unfold compute_declaration in E. cbn [fst] in *. destruct d as [v|p].
  - injection E as <-. cbn [fst]. intros name sh ref Hn Hr. destruct (decide (v_key v = name)) as [<-|Hne].
    + assert (E : Some sh = Some (v_shorthand v)) by (etransitivity; [symmetry; exact Hn|exact (lookup_insert vars (v_key v) _)]). injection E as ->. by apply Hd.
    + apply (H name sh ref); [|exact Hr]. etransitivity; [|exact Hn]. symmetry. exact (lookup_insert_ne vars _ _ _ Hne).
  - apply bindR_Ok in E as (s' & _ & [= <-]). exact H.
Qed.
Lemma block_ends rank ds st : Forall (ranked_declaration rank) ds -> ranked_vars rank (fst st) -> ends (fun fuel => compute_declaration_block fuel ds st).
Proof.
  intros Hd H. unfold compute_declaration_block. apply (ends_fold (fun st : Variables * ComputedStyle => ranked_vars rank (fst st)) compute_declaration ds).
  - intros s d _ Hs. by eapply declaration_ends.
  - intros fuel s d s' Hin Hs E. eapply declaration_ranked; [|exact Hs|exact E]. rewrite list.Forall_forall in Hd. by apply Hd.
  - exact H.
Qed.
Lemma block_ranked rank fuel ds : forall st st', Forall (ranked_declaration rank) ds -> ranked_vars rank (fst st) -> compute_declaration_block fuel ds st = Ok st' -> ranked_vars rank (fst st').
Proof.
  unfold compute_declaration_block. induction ds as [|d ds IH]; intros st st' Hd H E; cbn [foldR] in E; [by injection E as <-|]. apply list.Forall_cons in Hd as [H1 H2].
  apply bindR_Ok in E as (s1 & E1 & E). eapply IH; [exact H2|by eapply declaration_ranked|exact E].
Qed.
Definition rule_style (es : ElementStyle) : Style := match es with EStatic s | EDynamic s => s end.
Definition ranked_rule (rank : string -> nat) (es : ElementStyle) : Prop := Forall (ranked_declaration rank) (s_declaration (rule_style es)).
Definition rule_step (debug : bool) (n : NodeId) (t : Tree) (fuel : nat) (st : Variables * ComputedStyle) (es : ElementStyle) : res (Variables * ComputedStyle) :=
  match es with
  | EStatic s => compute_declaration_block fuel (s_declaration s) st
  | EDynamic s => do! b <- match_style debug view_pseudo s n t; if b : bool then compute_declaration_block fuel (s_declaration s) st else Ok st
  end.
Lemma rule_step_ranked rank debug n t fuel st es st' : ranked_rule rank es -> ranked_vars rank (fst st) -> rule_step debug n t fuel st es = Ok st' -> ranked_vars rank (fst st').
Proof.
  intros Hr H E. unfold ranked_rule in Hr. destruct es as [s|s]; cbn [rule_step rule_style] in *; [by eapply block_ranked|].
  apply bindR_Ok in E as (b & _ & E). destruct b; [by eapply block_ranked|by injection E as <-].
Qed.
Lemma rules_end rank debug n t l st : Forall (ranked_rule rank) l -> ranked_vars rank (fst st) -> ends (fun fuel => cascade_rules fuel debug n t l st).
Proof.
  intros Hl H. change (ends (fun fuel => foldR (rule_step debug n t fuel) st l)). rewrite list.Forall_forall in Hl.
  apply (ends_fold (fun st : Variables * ComputedStyle => ranked_vars rank (fst st)) (rule_step debug n t)); [| |exact H].
  - intros s es Hin Hs. specialize (Hl es Hin). unfold ranked_rule in Hl. destruct es as [r|r]; cbn [rule_step rule_style] in *; [by eapply block_ends|].
    apply (ends_bind (fun _ => match_style debug view_pseudo r n t) (fun b fuel => if b : bool then compute_declaration_block fuel (s_declaration r) s else Ok s)); [apply ends_const, match_halts|].
    intros [|] _; [by eapply block_ends|by apply ends_const].
  - intros fuel s es s' Hin Hs E. eapply rule_step_ranked; [by apply Hl|exact Hs|exact E].
Qed.
Lemma rules_ranked rank fuel debug n t l : forall st st', Forall (ranked_rule rank) l -> ranked_vars rank (fst st) -> cascade_rules fuel debug n t l st = Ok st' -> ranked_vars rank (fst st').
Proof.
  change (forall st st', Forall (ranked_rule rank) l -> ranked_vars rank (fst st) -> foldR (rule_step debug n t fuel) st l = Ok st' -> ranked_vars rank (fst st')).
  induction l as [|es l IH]; intros st st' Hl H E; cbn [foldR] in E; [by injection E as <-|]. apply list.Forall_cons in Hl as [H1 H2].
  apply bindR_Ok in E as (s1 & E1 & E). eapply IH; [exact H2|by eapply rule_step_ranked|exact E].
Qed.
Lemma keyframe_ends rank vars ds : ranked_vars rank vars -> ends (fun fuel => keyframe_style fuel vars ds).
Proof.
  intros H. unfold keyframe_style.
  apply (ends_fold (fun _ : ComputedStyle => True) (fun fuel s d => match d with DeclVariable _ => Ok s | DeclProperty p => compute_values fuel vars (p_key p) 0 (p_values p) s end)); [|done|done].
  intros s [v|p] _ _; [by apply ends_const|by eapply values_end].
Qed.
Lemma tracks_end rank vars an s : ranked_vars rank vars -> ends (fun fuel => compute_animation_tracks fuel vars an s).
Proof.
  intros H. unfold compute_animation_tracks.
  apply (ends_bind (fun fuel => foldR (fun '(animated, kfs) kf => do! s <- keyframe_style fuel vars (kf_declaration kf); Ok (animated ∪ dom s, z_insert (kf_step kf) s kfs)) ((∅ : gset Descriptor), ([] : list (Z * ComputedStyle))) (an_keyframes an))
    (fun p fuel => let '(animated, kfs) := p in Ok (tracks_of (elements animated) s kfs))).
  - apply (ends_fold (fun _ => True) (fun fuel (p : gset Descriptor * list (Z * ComputedStyle)) => let '(animated, kfs) := p in fun kf => do! s <- keyframe_style fuel vars (kf_declaration kf); Ok (animated ∪ dom s, z_insert (kf_step kf) s kfs))); [|done|done].
    intros [animated kfs] kf _ _. apply (ends_bind (fun fuel => keyframe_style fuel vars (kf_declaration kf)) (fun s fuel => Ok (animated ∪ dom s, z_insert (kf_step kf) s kfs))); [by eapply keyframe_ends|].
    intros s' _. by apply ends_const.
  - intros [animated kfs] _. by apply ends_const.
Qed.
Lemma play_track_halts tr x s : halts (play_track tr x s). Proof. unfold play_track. halting. Qed.
Lemma animator_play_ends time tracks a s : few_laps time a -> ends (fun fuel => animator_play fuel time tracks a s).
Proof.
  intros H. unfold animator_play. apply (ends_bind (fun fuel => animator_update fuel time a)
    (fun p fuel => let '(a, x) := p in match x with None => Ok (a, s) | Some x => do! s <- foldR (fun s track => play_track track (f32_as_u32 (fmul x f100)) s) s tracks; Ok (a, s) end)); [by apply few_end|].
  intros [a' [x|]] _; apply ends_const; [|done]. halting. apply play_track_halts.
Qed.
Lemma animators_end rank css time vars l s : ranked_vars rank vars -> Forall (few_laps time) l -> ends (fun fuel => play_animators fuel css time vars (l, s)).
Proof.
  intros Hv Hl. unfold play_animators. cbn [fst snd]. rewrite list.Forall_forall in Hl.
  apply (ends_fold (fun _ => True) (fun fuel p => let '(don, s) := p in fun a => match css_animations css !! a_name a with None => Ok (don ++ [a], s)
    | Some an => do! tracks <- compute_animation_tracks fuel vars an s; do! (a, s) <- animator_play fuel time tracks a s; Ok (don ++ [a], s) end)); [|done|done].
  intros [don s'] a Hin _. destruct (css_animations css !! a_name a) as [an|]; [|by apply ends_const].
  apply (ends_bind (fun fuel => compute_animation_tracks fuel vars an s') (fun tracks fuel => do! (a, s) <- animator_play fuel time tracks a s'; Ok (don ++ [a], s))); [by eapply tracks_end|].
  intros tracks _. apply (ends_bind (fun fuel => animator_play fuel time tracks a s') (fun p fuel => let '(a, s) := p in Ok (don ++ [a], s))); [apply animator_play_ends; by apply Hl|].
  intros [a' s2] _. by apply ends_const.
Qed.

(** the loops of a transition go over the entries of one property *)
Definition entries (key : PropertyKey) (n : nat) (s : ComputedStyle) : Prop := forall i, i < n -> is_Some (s !! ((key, i) : Descriptor)).
Lemma entries_size key n (s : ComputedStyle) : entries key n s -> n <= size s.
Proof.
  intros H. assert (Hd : (list_to_set (map (fun i => (key, i) : Descriptor) (seq 0 n)) : gset Descriptor) ⊆ dom s).
  { intros d Hin. apply elem_of_list_to_set in Hin. apply elem_of_list_fmap in Hin as (i & -> & Hi). apply elem_of_seq in Hi. apply elem_of_dom. apply H. lia. }
  apply subseteq_size in Hd. rewrite size_list_to_set in Hd.
  - rewrite map_length, seq_length in Hd. etransitivity; [exact Hd|]. change (size (dom (D := gset Descriptor) (s : gmap Descriptor ComputedValue)) <= size s). rewrite size_dom. done.
  - apply NoDup_fmap_2_strong; [intros x y _ _; congruence|apply NoDup_seq].
Qed.
Lemma init_halts key s : forall fuel i tn, entries key i s -> size s < fuel + i -> halts (init_loop fuel key i s tn).
Proof.
  induction fuel as [|fuel IH]; intros i tn He Hf; [apply entries_size in He; lia|]. cbn [init_loop]. match goal with |- halts (match ?x with _ => _ end) => destruct x as [v|] eqn:E; [|discriminate] end.
  apply IH; [|lia]. intros j Hj. destruct (decide (j = i)) as [->|]; [by exists v|apply He; lia].
Qed.
Lemma init_after_halts s tn : halts (init_after_style_applied s tn).
Proof.
  unfold init_after_style_applied. destruct (t_range tn); [discriminate|]. destruct (t_key tn) as [key|]; [|discriminate]. apply init_halts; [intros i Hi; lia|lia].
Qed.
Lemma play_halts key x : forall fuel i tn (s : ComputedStyle), is_Some (t_range tn) -> entries key i s -> size s < fuel + i -> halts (play_loop fuel key x i tn s).
Proof.
  induction fuel as [|fuel IH]; intros i tn s Ht He Hf; [apply entries_size in He; lia|]. cbn [play_loop]. match goal with |- halts (match ?x with _ => _ end) => destruct x as [v|] eqn:E; [|discriminate] end.
  destruct (t_range tn) as [[from to]|] eqn:Er; [|destruct Ht as [? Ht]; discriminate Ht]. cbv zeta. apply IH.
  - destruct (cv_eq to v); [by rewrite Er|by eexists].
  - intros j Hj. assert (Hs : is_Some (s !! ((key, j) : Descriptor))) by (destruct (decide (j = i)) as [->|]; [by exists v|apply He; lia]).
    destruct (cv_eq (animate from to x) v); [exact Hs|]. destruct (decide (j = i)) as [->|Hne]; [eexists; exact (lookup_insert s (key, i) _)|].
    destruct Hs as [w Hw]. exists w. etransitivity; [|exact Hw]. exact (lookup_insert_ne s (key, i) (key, j) _ ltac:(congruence)).
  - assert (Hsz : forall w, size (<[((key, i) : Descriptor) := w]> s : gmap Descriptor ComputedValue) = size (s : gmap Descriptor ComputedValue)).
    { intros w. apply map_size_insert_Some. by exists v. }
    destruct (cv_eq _ _); [change (size s < fuel + S i); lia|]. change (size (<[((key, i) : Descriptor) := animate from to x]> s : gmap Descriptor ComputedValue) < fuel + S i). rewrite Hsz. change (size (s : gmap Descriptor ComputedValue)) with (size s). lia.
Qed.
Lemma transition_ends time tn s : few_laps time (t_animator tn) -> has_range tn -> ends (fun fuel => transition_play fuel time tn s).
Proof.
  intros H Hr. unfold transition_play. destruct (t_key tn) as [key|] eqn:E; [|by apply ends_const]. destruct Hr as [Hr|Hr]; [congruence|].
  apply (ends_bind (fun fuel => animator_update fuel time (t_animator tn)) (fun p fuel => let '(a, x) := p in let tn := tn <| t_animator := a |> in match x with None => Ok (tn, s) | Some x => play_loop (S (size s)) key x 0 tn s end)); [by apply few_end|].
  intros [a [x|]] _; apply ends_const; [|done]. apply play_halts; [exact Hr|intros i Hi; lia|lia].
Qed.
Lemma transitions_end time l s : Forall (fun tn => few_laps time (t_animator tn) /\ has_range tn) l -> ends (fun fuel => play_transitions fuel time l s).
Proof.
  intros Hl. unfold play_transitions. rewrite list.Forall_forall in Hl.
  apply (ends_fold (fun _ => True) (fun fuel p => let '(don, s) := p in fun tn => do! (tn, s) <- transition_play fuel time tn s; Ok (don ++ [tn], s))); [|done|done].
  intros [don s'] tn Hin _. apply (ends_bind (fun fuel => transition_play fuel time tn s') (fun p fuel => let '(tn, s) := p in Ok (don ++ [tn], s))); [by apply transition_ends; apply Hl|].
  intros [tn' s2] _. by apply ends_const.
Qed.
