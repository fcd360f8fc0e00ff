(** * Inline styles and the order of application, on a page. *)
From Coq Require Import ZArith Lia.
From stdpp Require Import gmap.
From RecordUpdate Require Import RecordUpdate.
From Verif Require Import Str StrFacts F32 Res ResFacts Json PropKey Html Css Element Tree ViewModel Render Update Matching
  Cascade Initial Animation Apply Styling Events View
  SpecLive SpecLog SpecView SpecRender SpecTree SpecEvents FrameFacts EventFacts EventFrame
  RenderTree RenderNode RenderProps RenderAny RenderMore LiveFacts LiveUpdate LiveView LiveHistory LiveOrder
  SpecSelect SpecStyle SpecPage SelectFacts SelectLive SelectFresh SpecStyle SpecShow ApplyFacts ShowFacts CascadeFacts AnimationFacts StyleTrace.

(** ** Inline styles *)
Lemma put_inline n e0 e t : get_ctx t n = Some e0 -> forall m, inline (put_element n e t) m = if decide (n = m) then Some (e_style e) else inline t m.
Proof.
  intros H0 m. unfold inline. rewrite get_ctx_put. destruct (decide (n = m)) as [<-|]; [|done]. destruct (ctx_node _ _ _ H0) as [x Hx]. by rewrite Hx.
Qed.
Lemma put_inline_same n e0 e t : get_ctx t n = Some e0 -> e_style e = e_style e0 -> forall m, inline (put_element n e t) m = inline t m.
Proof. intros H0 He m. rewrite (put_inline _ _ _ _ H0). destruct (decide (n = m)) as [<-|]; [|done]. unfold inline. rewrite H0. cbn. by rewrite He. Qed.
Lemma style_step ric t ids r t' ids' : live t 0 -> reaction_ok t r -> update_tree ric (t, ids) r = Ok (t', ids') -> forall n,
  (inline t' n = inline t n /\ (forall i x, r <> RBind n "style" i x)) \/
  (exists i x s, r = RBind n "style" i x /\ attr t' n "style" = Some s /\
     inline t' n = match ric s with Some ds => Some ds | None => inline t n end).
Proof.
  intros Hl Hok H n. destruct r as [m i x|p c vis|p s c z|m key b|m key i x]; cbn [update_tree] in H; try (left; split; [|done]).
  - destruct Hok as (e & He & [spans Hsp]). rewrite He, Hsp in H. inv_ok. unfold mark_dirty in Hr. inv_ok. by apply (put_inline_same _ e).
  - destruct Hok as (e & He & Hin & Htag). destruct (reattach_ok _ _ _ _ _ vis Hl He Hin Htag) as (t1 & H1 & _ & _ & Hc & _).
    rewrite H1 in H. cbn [bindR] in H. injection H as <- <-. unfold inline. by rewrite Hc.
  - destruct Hok as (e & He & H1 & H2 & Htag). destruct (repeat_ok _ _ _ _ _ _ _ Hl He H1 H2 Htag) as (t1 & Ht & _ & _ & Hc & _).
    rewrite Ht in H. cbn [bindR] in H. injection H as <- <-. unfold inline. by rewrite Hc.
  - apply bindR_Ok in H as (e & He & H). apply get_element_ctx in He. injection H as <- <-. apply (put_inline_same _ e); [exact He|]. by destruct b.
  - apply bindR_Ok in H as (e & He & H). apply get_element_ctx in He. apply bindR_Ok in H as (spans & Hsp & H). cbv zeta in H.
    set (value := text_to_string (text_set i x spans)) in *.
    match type of H with (if _ then (do! t <- update_img_src _ _ (put_element _ ?e1 _); _) else _) = _ => set (e2 := e1) in * end.
    assert (He2 : e_style e2 = if String.eqb key "style" then default (e_style e) (ric value) else e_style e) by (subst e2; destruct (String.eqb key "style"); [destruct (ric value)|]; done).
    assert (Ha2 : e_attrs e2 !! key = Some value) by (subst e2; destruct (String.eqb key "style"); [destruct (ric value)|]; apply lookup_insert).
    clearbody e2.
    assert (Hrest : inline t' n = inline (put_element m e2 t) n /\ attr t' n "style" = attr (put_element m e2 t) n "style").
    { destruct (_ && _); [|by injection H as <- <-].
      apply bindR_Ok in H as (t1 & H1 & H). injection H as <- <-. unfold update_img_src in H1.
      apply bindR_Ok in H1 as (c & Hc & H1). apply bindR_Ok in H1 as (ec & Hec & H1). apply get_element_ctx in Hec. unfold mark_dirty in H1. inv_ok.
      split; [by apply (put_inline_same _ ec)|]. unfold attr. rewrite get_ctx_put. destruct (decide (c = n)) as [<-|]; [|done]. rewrite Hec.
      destruct (ctx_node _ _ _ Hec) as [xc Hxc]. by rewrite Hxc. }
    destruct Hrest as [-> Hat]. rewrite (put_inline _ _ _ _ He). destruct (String.eqb_spec key "style") as [->|Hne].
    + destruct (decide (m = n)) as [<-|Hmn]; [right|left; split; [done|congruence]]. exists i, x, value. split; [done|]. rewrite Hat. split.
      * unfold attr. rewrite get_ctx_put, decide_True by done. destruct (ctx_node _ _ _ He) as [xc ->]. exact Ha2.
      * rewrite He2. unfold inline. rewrite He. by destruct (ric value).
    + left. split; [|congruence]. destruct (decide (m = n)) as [<-|]; [|done]. unfold inline. rewrite He, He2. done.
Qed.

Definition keeps (ric : string -> option (list Declaration)) (I : Tree -> Prop) (r : Reaction) : Prop :=
  forall t ids t' ids', live t 0 -> reaction_ok t r -> update_tree ric (t, ids) r = Ok (t', ids') -> I t -> I t'.
Lemma trees_keep ric I rs : (forall r, In r rs -> keeps ric I r) -> forall t ids t' ids', live t 0 -> Forall (reaction_ok t) rs ->
  update_trees ric (t, ids) rs = Ok (t', ids') -> I t -> I t'.
Proof.
  induction rs as [|r rs IH]; intros Hk t ids t' ids' Hl Hrs H Hi; [by injection H as <- <-|].
  inversion Hrs as [|? ? Hr Hrs']; subst. unfold update_trees in H. cbn [foldR] in H. apply bindR_Ok in H as ([t1 ids1] & H1 & H).
  destruct (update_tree_ok ric t ids 0 r Hl Hr) as (t2 & H2 & Hl1 & Hs1 & He). rewrite H1 in H2. injection H2 as -> ->.
  eapply IH; [intros r' Hin; apply Hk; by right|exact Hl1| |exact H|].
  - eapply Forall_impl; [|exact Hrs']. intros r' Hr'. by eapply reaction_ok_def.
  - exact (Hk r ltac:(by left) _ _ _ _ Hl Hr H1 Hi).
Qed.
Lemma update_keep X fuel (I : Tree -> Prop) v i x v' o : sound v -> update X fuel v i x = Ok (v', o) -> (forall t t', same_content t t' -> I t -> I t') ->
  (forall r, from_bindings (v_bindings v) [r] -> keeps (x_read_inline_css X) I r) -> I (v_tree v) -> I (v_tree v').
Proof.
  intros Hs Hu Hc Hk Hi. pose proof Hu as Hu'. apply update_content in Hu' as (m' & rs' & t & ids & Hb' & Ht & _ & Hid & Hsc & _).
  pose proof (so_live _ Hs) as Hl. rewrite (so_root _ Hs) in Hl. apply (Hc _ _ Hsc).
  eapply trees_keep; [|exact Hl|by eapply view_bind_reactions_ok|exact Ht|exact Hi]. intros r Hr. apply Hk. intros r' [->|[]]. by apply (view_bind_from _ _ _ _ _ Hb').
Qed.
Lemma history_keep X fuel doc css v0 hist v os (I : Tree -> Prop) : from_document X fuel doc css = Ok v0 -> updates X fuel v0 hist = Ok (v, os) ->
  (forall t t', same_content t t' -> I t -> I t') -> (forall r, from_bindings (v_bindings v0) [r] -> keeps (x_read_inline_css X) I r) ->
  I (v_tree v0) -> I (v_tree v).
Proof.
  intros H0 H Hc Hk. apply from_document_sound in H0. revert v0 os H0 H Hk.
  induction hist as [|[i x] hist IH]; intros v0 os Hs H Hk Hi; cbn [updates] in H; [by injection H as <- <-|].
  apply bindR_Ok in H as ([v1 o] & Hu & H). apply bindR_Ok in H as ([v2 os'] & H' & [= <- <-]).
  destruct (update_keeps _ _ _ _ _ _ _ Hs Hu) as (K1 & _).
  eapply IH; [by eapply update_sound|exact H'|by rewrite K1|by eapply update_keep].
Qed.

(** every inline style was read from some text *)
Definition from_text (ric : string -> option (list Declaration)) (ds : list Declaration) : Prop := ds = [] \/ exists s, ric s = Some ds.
Definition all_read (ric : string -> option (list Declaration)) (t : Tree) : Prop := forall n ds, inline t n = Some ds -> from_text ric ds.
Lemma inline_content t t' n : same_content t t' -> inline t' n = inline t n.
Proof.
  intros H. unfold inline. destruct (get_ctx t n) as [e|] eqn:E.
  - destruct (same_ctx _ _ _ _ H E) as (e' & -> & Hc). unfold content in Hc. cbn. f_equal. by injection Hc.
  - destruct (get_ctx t' n) as [e'|] eqn:E'; [|done]. destruct (same_ctx _ _ _ _ (same_sym _ _ H) E') as (e & He & _). congruence.
Qed.
Lemma keeps_read ric r : keeps ric (all_read ric) r.
Proof.
  intros t ids t' ids' Hl Hok H Hi n ds Hd. destruct (style_step _ _ _ _ _ _ Hl Hok H n) as [[Hs _]|(i & x & s & _ & _ & Hs)].
  - rewrite Hs in Hd. by eapply Hi.
  - rewrite Hs in Hd. destruct (ric s) as [ds'|] eqn:E; [|by eapply Hi]. injection Hd as <-. right. by exists s.
Qed.
Lemma rbinds_read ric binds : forall e, from_text ric (e_style e) -> from_text ric (e_style (foldl (apply_rbind ric) e binds)).
Proof.
  induction binds as [|b binds IH]; intros e He; cbn [foldl]; [exact He|]. apply IH. destruct b as [k v|k v|k p q|k spans|ev args]; cbn [apply_rbind]; try exact He.
  destruct (String.eqb k "style"); [destruct (ric v) as [ds|] eqn:E|]; try exact He. right. by exists v.
Qed.
Lemma rules_inline debug t0 sheet n e : e_style (add_rules debug t0 sheet n e) = e_style e. Proof. reflexivity. Qed.
(** the page as it was rendered, with the rules of the sheet *)
Lemma loaded_inline X fuel doc css v0 : from_document X fuel doc css = Ok v0 -> exists rn t0 tL ids0,
  marks_ok rn /\ rendered (x_read_inline_css X) t0 rn /\ flat (v_bindings v0) ≡ₚ bindings_of 1 rn /\ same_shown t0 tL /\
  (forall n, inline tL n = inline t0 n) /\
  Forall (reaction_ok tL) (default_reactions (v_bindings v0)) /\ live tL 0 /\
  update_trees (x_read_inline_css X) (tL, ids0) (default_reactions (v_bindings v0)) = Ok (v_tree v0, v_ids v0).
Proof.
  intros H0. 
  unfold from_document in H0. destruct (scan_document _ _) as [templates body]. 
  apply bindR_Ok in H0 as ([[r root] b] & Hr & H). apply bindR_Ok in H as (d & Hd & H). apply bindR_Ok in H as (t & Ht & H).
  apply bindR_Ok in H as ([t' ids] & Ha & H). injection H as <-. cbn [v_bindings v_tree v_ids v_css v_body v_root].
  destruct (render_any _ _ _ _ _ _ _ _ Hr) as (rn & ps & Hm & -> & -> & Hre & Hsid & Hso & Hfl & Hsch).
  exists rn, (r_tree r), t, (r_static_id r). pose proof (stylesheet_shown _ _ _ _ _ _ Ht) as Hsh.
  destruct (rendered_live _ _ _ Hm Hre) as (Hl & Hat & H1). do 4 (split; [done|]).
  split; [|split; [|split; [by eapply shown_live|done]]].
  - intros n. assert (Hlt1 : 1 < t_next (r_tree r)) by (rewrite (re_next _ _ _ Hre); pose proof (rsize_pos rn); lia).
    destruct (calculate_spec _ _ _ _ _ Hl _ _ _ Hlt1 Ht (shown_refl _)) as (C1 & C2 & _). unfold inline.
    destruct (decide (n < t_next (r_tree r))) as [Hlt|Hge].
    + destruct (decide (n = 0)) as [->|Hn]; [rewrite C2; [done|]; intros Ha0; apply (above_le _ _ _ _ Hl) in Ha0; lia|].
      rewrite (C1 n) by (by eapply rendered_under). by destruct (get_ctx (r_tree r) n).
    + rewrite C2; [done|]. intros Hab. apply Hge. apply rtc_inv_r in Hab as [<-|(y & _ & Hy)]; [done|].
      apply (live_parent _ _ Hl) in Hy. by destruct (live_newer _ _ Hl y n ltac:(by left)).
  - apply default_reactions_ok. intros p b Hb. eapply binding_ok_def; [by apply shown_def|]. eapply stands_bindings_ok; [apply (re_stands _ _ _ Hre)|done|].
    apply elem_of_list_In. rewrite <- Hfl. by apply elem_of_list_In.
Qed.
Lemma rendered_elem read t rn n e : rendered read t rn -> n <> 0 -> get_ctx t n = Some e -> n < t_next t -> exists rk, e = elem_of read n rk.
Proof.
  intros Hre Hn He Hlt. destruct (stands_sub _ t rn (Some 0) 1 n (re_stands _ _ _ Hre)) as (par' & rk & Hk & _); [rewrite (re_next _ _ _ Hre) in Hlt; lia|].
  apply stands_root in Hk. unfold get_ctx in He. rewrite Hk in He. injection He as <-. by exists rk.
Qed.
Lemma elem_of_read read n rk : from_text read (e_style (elem_of read n rk)).
Proof. destruct rk as [spans|src|tag binds kids marks]; cbn [elem_of]; [by left..|]. cbn. apply rbinds_read. by left. Qed.
Lemma loaded_keep X fuel doc css v0 (I : Tree -> Prop) : from_document X fuel doc css = Ok v0 -> 
  (forall p c, keeps (x_read_inline_css X) I (RReattach p c false)) ->
  (forall rn t0 tL, rendered (x_read_inline_css X) t0 rn -> marks_ok rn -> flat (v_bindings v0) ≡ₚ bindings_of 1 rn -> same_shown t0 tL -> (forall n, inline tL n = inline t0 n) -> I tL) -> I (v_tree v0).
Proof.
  intros H0 Hk Hi. destruct (loaded_inline _ _ _ _ _ H0) as (rn & t0 & tL & ids0 & Hm & Hre & Hfl & Hsh & Hin & Hok & Hl & Hu).
  eapply trees_keep; [|exact Hl|exact Hok|exact Hu|by eapply Hi].
  intros r Hr. apply default_reactions_in in Hr as (p & b & q & c & v & Hin' & Hb' & ->). apply Hk.
Qed.
Lemma history_read X fuel doc css v0 hist v os : from_document X fuel doc css = Ok v0 -> updates X fuel v0 hist = Ok (v, os) ->
  all_read (x_read_inline_css X) (v_tree v).
Proof.
  intros H0 H. eapply (history_keep _ _ _ _ _ _ _ _ (all_read (x_read_inline_css X)) H0 H).
  - intros t t' Hc Hi n ds. rewrite (inline_content _ _ _ Hc). apply Hi.
  - intros r _. apply keeps_read.
  - eapply (loaded_keep _ _ _ _ _ (all_read (x_read_inline_css X)) H0); [intros; apply keeps_read|].
    intros rn t0 tL Hre Hm _ Hsh Hin n ds Hd. rewrite Hin in Hd. unfold inline in Hd. destruct (get_ctx t0 n) as [e|] eqn:E; [|done]. injection Hd as <-.
    destruct (rendered_live _ _ _ Hm Hre) as (Hl & _ & _). pose proof (live_lt _ _ _ _ Hl E) as Hlt.
    destruct (decide (n = 0)) as [->|Hn].
    + unfold get_ctx in E. rewrite (re_root _ _ _ Hre) in E. injection E as <-. by left.
    + destruct (rendered_elem _ _ _ _ _ Hre Hn E Hlt) as [rk ->]. apply elem_of_read.
Qed.

(** ** The inline style follows the attribute (C55) *)
Lemma keeps_follows ric n r : (forall b, r <> RTag n "style" b) -> keeps ric (follows ric n) r.
Proof.
  intros Hno t ids t' ids' Hl Hok H Hi s ds Hs Hds. destruct (style_step _ _ _ _ _ _ Hl Hok H n) as [[Hst Hn]|(i & x & s' & _ & Hs' & Hst)].
  - rewrite Hst. destruct (update_tree_ok ric t ids 0 r Hl Hok) as (t2 & H2 & Hl1 & Hs1 & He). rewrite H in H2. injection H2 as -> ->.
    rewrite (eff_attr _ _ _ He) in Hs. destruct r as [m j x|q c vis|q a c z|m k fl|m k j x]; cbn [attr_after] in Hs; try (by eapply Hi).
    + rewrite decide_False in Hs by (intros [<- <-]; by eapply Hno). by eapply Hi.
    + rewrite decide_False in Hs by (intros [<- <-]; by eapply Hn). by eapply Hi.
  - rewrite Hst. assert (s' = s) as -> by congruence. by rewrite Hds.
Qed.
Lemma follows_content ric n t t' : same_content t t' -> follows ric n t -> follows ric n t'.
Proof. intros H Hi s ds. rewrite (shown_attr _ _ _ _ (content_shown _ _ H)), (inline_content _ _ _ H). apply Hi. Qed.
Lemma no_flag_reaction bs n : (forall p b, In (p, b) (flat bs) -> bd_params b <> BTag n "style") -> forall r, from_bindings bs [r] -> forall b, r <> RTag n "style" b.
Proof.
  intros Hno r Hfb b ->. destruct (Hfb _ (or_introl eq_refl)) as (p & bd & Hin & Hw). apply (Hno _ _ Hin). destruct (bd_params bd); try done. cbn in Hw. congruence.
Qed.
Lemma follows_history X fuel doc css v0 hist v os n : from_document X fuel doc css = Ok v0 -> updates X fuel v0 hist = Ok (v, os) ->
  (forall p b, In (p, b) (flat (v_bindings v0)) -> bd_params b <> BTag n "style") ->
  follows (x_read_inline_css X) n (v_tree v0) -> follows (x_read_inline_css X) n (v_tree v).
Proof.
  intros H0 H Hno. apply (history_keep _ _ _ _ _ _ _ _ (follows (x_read_inline_css X) n) H0 H).
  - intros t t'. apply follows_content.
  - intros r Hr. apply keeps_follows. by eapply no_flag_reaction.
Qed.
(** once the attribute has been written *)
Lemma follows_written ric n rs : (forall r, In r rs -> forall b, r <> RTag n "style" b) -> forall t ids t' ids', live t 0 -> Forall (reaction_ok t) rs ->
  update_trees ric (t, ids) rs = Ok (t', ids') -> (exists i x, In (RBind n "style" i x) rs) -> follows ric n t'.
Proof.
  induction rs as [|r rs IH]; intros Hk t ids t' ids' Hl Hrs H (i & x & Hin); [done|].
  inversion Hrs as [|? ? Hr Hrs']; subst. unfold update_trees in H. cbn [foldR] in H. apply bindR_Ok in H as ([t1 ids1] & H1 & H).
  destruct (update_tree_ok ric t ids 0 r Hl Hr) as (t2 & H2 & Hl1 & Hs1 & He). rewrite H1 in H2. injection H2 as -> ->.
  assert (Hok : Forall (reaction_ok t2) rs) by (eapply Forall_impl; [|exact Hrs']; intros r' Hr'; by eapply reaction_ok_def).
  assert (Hno : forall r, In r rs -> forall b, r <> RTag n "style" b) by (intros r' Hr'; apply Hk; by right).
  destruct Hin as [->|Hin]; [|eapply IH; [exact Hno|exact Hl1|exact Hok|exact H|by exists i, x]].
  eapply (trees_keep ric (follows ric n)); [|exact Hl1|exact Hok|exact H|].
  - intros r Hin. apply keeps_follows. by apply Hno.
  - intros s ds Hs Hds. destruct (style_step _ _ _ _ _ _ Hl Hr H1 n) as [[_ Hn]|(i' & x' & s' & _ & Hs' & Hst)]; [by edestruct Hn|].
    rewrite Hst. assert (s' = s) as -> by congruence. by rewrite Hds.
Qed.
Lemma follows_reacted X fuel doc css v0 hist v log n : from_document X fuel doc css = Ok v0 -> reacted X fuel v0 hist v log ->
  (forall p b, In (p, b) (flat (v_bindings v0)) -> bd_params b <> BTag n "style") ->
  (exists i x, In (RBind n "style" i x) log) -> follows (x_read_inline_css X) n (v_tree v).
Proof.
  intros H0 Hr Hno. apply from_document_sound in H0.
  induction Hr as [|v i x hist m rs v1 o v' log Hb Hu Hr IH]; intros (j & w & Hin); [done|].
  destruct (update_keeps _ _ _ _ _ _ _ H0 Hu) as (K1 & _). pose proof (update_sound _ _ _ _ _ _ _ H0 Hu) as Hs1. rewrite K1 in IH.
  apply in_app_or in Hin as [Hin|Hin]; [|apply (IH Hs1 Hno); by exists j, w].
  assert (H1 : follows (x_read_inline_css X) n (v_tree v1)).
  { pose proof Hu as Hu'. apply update_content in Hu' as (m' & rs' & t & ids & Hb' & Ht & _ & Hid & Hsc & _). rewrite Hb in Hb'. injection Hb' as <- <-.
    pose proof (so_live _ H0) as Hl. rewrite (so_root _ H0) in Hl. apply (follows_content _ _ _ _ Hsc).
    eapply follows_written; [|exact Hl|by eapply view_bind_reactions_ok|exact Ht|by exists j, w].
    intros r Hr'. apply (no_flag_reaction _ _ Hno). intros r' [->|[]]. by apply (view_bind_from _ _ _ _ _ Hb). }
  clear IH Hin. rewrite <- K1 in Hno. clear -Hr Hno H1 Hs1. induction Hr as [|v i x hist m rs v1 o v' log Hb Hu Hr IH]; [done|].
  destruct (update_keeps _ _ _ _ _ _ _ Hs1 Hu) as (K1 & _). apply IH; [by rewrite K1|by eapply update_sound|].
  eapply (update_keep _ _ (follows (x_read_inline_css X) n)); [exact Hs1|exact Hu|intros t t'; apply follows_content| |exact H1].
  intros r Hr'. apply keeps_follows. by eapply no_flag_reaction.
Qed.
(** at load time, where the page gives the attribute the ordinary way *)
Lemma rbinds_follow ric binds : (forall b, In b binds -> match b with RPlain k _ | RAttr k _ => k <> "style" | _ => True end) ->
  forall e, (forall s ds, e_attrs e !! "style" = Some s -> ric s = Some ds -> e_style e = ds) ->
  forall s ds, e_attrs (foldl (apply_rbind ric) e binds) !! "style" = Some s -> ric s = Some ds -> e_style (foldl (apply_rbind ric) e binds) = ds.
Proof.
  induction binds as [|b binds IH]; intros Hb e He; cbn [foldl]; [exact He|]. apply IH; [intros b' Hin; apply Hb; by right|].
  specialize (Hb b ltac:(by left)). destruct b as [k v|k v|k p q|k spans|ev args]; cbn [apply_rbind]; try exact He.
  - intros s ds. destruct (String.eqb_spec k "style") as [->|Hne].
    + intros Hs Hds. assert (v = s) as ->.
      { destruct (ric v); cbn in Hs; rewrite lookup_insert in Hs; by injection Hs. }
      by rewrite Hds.
    + cbn. rewrite lookup_insert_ne by done. apply He.
  - intros s ds. cbn. rewrite lookup_insert_ne by done. apply He.
  - intros s ds. cbn. rewrite lookup_insert_ne by done. apply He.
Qed.

(** ** The order of application does not matter (C32) *)
Definition tidy_tree (t : Tree) : Prop := forall n e, n <> 0 -> get_ctx t n = Some e -> tidy_element e.
Lemma tidy_tree_content t t' : same_content t t' -> tidy_tree t -> tidy_tree t'.
Proof.
  intros H Ht n e Hn He. destruct (same_ctx _ _ _ _ (same_sym _ _ H) He) as (e0 & He0 & Hc). specialize (Ht n e0 Hn He0).
  unfold content in Hc. injection Hc as _ _ _ _ _ _ _ _ H1 H2. unfold tidy_element in *. by rewrite <- H1, <- H2.
Qed.
Lemma foldR_ext_inv {A St} (f g : St -> A -> res St) (P : St -> Prop) l : (forall s a, a ∈ l -> P s -> f s a = g s a) -> (forall s a s', a ∈ l -> P s -> g s a = Ok s' -> P s') ->
  forall s, P s -> foldR f s l = foldR g s l.
Proof.
  induction l as [|a l IH]; intros Hf Hp s Hs; cbn [foldR]; [done|]. rewrite (Hf s a ltac:(apply elem_of_list_here) Hs).
  destruct (g s a) as [s1| | |] eqn:E; cbn [bindR]; try done. apply IH.
  - intros s2 b Hb. apply Hf. by apply elem_of_list_further.
  - intros s2 b s3 Hb. apply Hp. by apply elem_of_list_further.
  - eapply Hp; [apply elem_of_list_here|exact Hs|exact E].
Qed.
Lemma apply_styles_order fuel debug css order order' time : tidy_css css ->
  (forall s, order s ≡ₚ map_to_list s) -> (forall s, order' s ≡ₚ map_to_list s) ->
  forall depth n sizes vars t, tidy_tree t -> live t 0 -> n <> 0 ->
  apply_styles fuel debug css order time depth n sizes vars t = apply_styles fuel debug css order' time depth n sizes vars t.
Proof.
  intros Hcss Ho Ho'. induction depth as [|depth IH]; intros n sizes vars t Ht Hl Hn; cbn [apply_styles]; [reflexivity|].
  destruct (parent t n) as [p| | |]; cbn [bindR]; [|reflexivity..]. destruct (ok_or _ _) as [pe| | |]; cbn [bindR]; [|reflexivity..].
  destruct (style t n) as [layout| | |]; cbn [bindR]; [|reflexivity..]. destruct (get_element t n) as [e| | |] eqn:He; cbn [bindR]; [|reflexivity..]. apply get_element_ctx in He.
  destruct (e_text e); [reflexivity|].
  rewrite (cascade_order fuel debug css order order' time sizes vars n t pe layout e Hcss (Ht n e Hn He) Ho Ho').
  destruct (cascade_apply_styles fuel debug css order' time sizes vars n t pe layout e) as [[[l' e'] vars']| | |] eqn:Hc; cbn [bindR]; [|reflexivity..].
  destruct (set_style n l' (put_element n e' t)) as [t1| | |] eqn:Hs; cbn [bindR]; [|reflexivity..].
  assert (Hc1 : same_content t t1).
  { eapply same_trans; [eapply put_element_same; [exact He|exact (cascade_apply_content _ _ _ _ _ _ _ _ _ _ _ _ _ Hc)]|by eapply set_style_same]. }
  destruct (_ || _); [reflexivity|]. destruct (children t1 n) as [cs| | |] eqn:Hcs; cbn [bindR]; [|reflexivity..]. apply children_spec in Hcs. subst cs.
  apply (foldR_ext_inv _ _ (fun a => same_content t a)).
  - intros s c Hin Hsc. apply IH.
    + by eapply tidy_tree_content.
    + exact (shown_live _ _ _ (content_shown _ _ Hsc) Hl).
    + rewrite (shown_attached _ _ _ (content_shown _ _ Hc1)) in Hin. destruct (live_newer _ _ Hl n c ltac:(by left)). lia.
  - intros s c s' Hin Hsc Hs'. eapply same_trans; [exact Hsc|]. by eapply apply_styles_same.
  - exact Hc1.
Qed.

(** pages with tidy style sheets and readers have tidy trees *)
Lemma sorted_tidy debug t0 sheet n e : (forall s, s ∈ sheet -> Forall tidy_declaration (s_declaration s)) -> Forall tidy_rule (sorted_out debug t0 sheet n e).
Proof.
  intros H. apply list.Forall_forall. intros es Hin. unfold sorted_out in Hin. apply elem_of_list_omap in Hin as (s & Hs & Hc).
  unfold tidy_rule. replace (style_of es) with s; [by apply H|]. unfold classify in Hc.
  repeat match type of Hc with context [if ?b then _ else _] => destruct b | context [match ?x with _ => _ end] => destruct x end; try done; by injection Hc as <-.
Qed.
Lemma kept_tidy debug sheet bs t0 t : (forall s, s ∈ sheet -> Forall tidy_declaration (s_declaration s)) -> tidy_inline t ->
  kept debug sheet bs t0 t -> tidy_tree t.
Proof.
  intros Hs Hric Hk n e Hn He. split.
  - apply (Hric n). unfold inline. by rewrite He.
  - rewrite (k_rules _ _ _ _ _ Hk n e Hn He). by apply sorted_tidy.
Qed.
Lemma trees_read ric rs t ids t' ids' : live t 0 -> Forall (reaction_ok t) rs -> update_trees ric (t, ids) rs = Ok (t', ids') -> all_read ric t -> all_read ric t'.
Proof. intros Hl Hok H. apply (trees_keep ric (all_read ric) rs (fun r _ => keeps_read ric r) t ids t' ids' Hl Hok H). Qed.

Lemma along_later P X fuel v i x v1 o after : update X fuel v i x = Ok (v1, o) -> inline_along P X v ((i, x) :: after) -> inline_along P X v1 after.
Proof. intros Hu H t Ht. apply H. by eapply way_later. Qed.

(** what holds of a page and is kept by the updates holds on the way *)
Lemma along_keep X (I : Tree -> Prop) v hist t : on_the_way X v hist t -> sound v -> (forall t t', same_content t t' -> I t -> I t') ->
  (forall r, from_bindings (v_bindings v) [r] -> keeps (x_read_inline_css X) I r) -> I (v_tree v) -> I t.
Proof.
  intros H. induction H as [v i x after m rs t ids Hvb Hu|fuel v i x v1 o after t Hu Hw IH]; intros Hs Hc Hk Hi.
  - pose proof (so_live _ Hs) as Hl. rewrite (so_root _ Hs) in Hl.
    refine (trees_keep (x_read_inline_css X) I rs _ _ _ _ _ Hl (view_bind_reactions_ok _ _ _ _ _ Hs Hvb) Hu Hi).
    intros r Hr. apply Hk. intros r' [->|[]]. by apply (view_bind_from _ _ _ _ _ Hvb).
  - destruct (update_keeps _ _ _ _ _ _ _ Hs Hu) as (K1 & _).
    apply IH; [exact (update_sound _ _ _ _ _ _ _ Hs Hu)|exact Hc|by rewrite K1|exact (update_keep _ _ I _ _ _ _ _ Hs Hu Hc Hk Hi)].
Qed.
Lemma read_content ric t t' : same_content t t' -> all_read ric t -> all_read ric t'.
Proof. intros Hc Hi n ds. rewrite (inline_content _ _ _ Hc). apply Hi. Qed.
Lemma read_all ric (P : Declaration -> Prop) t : (forall s ds, ric s = Some ds -> Forall P ds) -> all_read ric t -> inline_all P t.
Proof. intros Hp H n ds Hd. destruct (H n ds Hd) as [->|[s Hs]]; [constructor|by eapply Hp]. Qed.
Lemma along_read X fuel doc css v0 past v os hist (P : Declaration -> Prop) : from_document X fuel doc css = Ok v0 -> updates X fuel v0 past = Ok (v, os) ->
  (forall s ds, x_read_inline_css X s = Some ds -> Forall P ds) -> inline_along P X v hist.
Proof.
  intros H0 H Hp t Ht. apply (read_all (x_read_inline_css X)); [exact Hp|].
  apply (along_keep _ _ _ _ _ Ht).
  - exact (reached_sound _ _ _ _ _ _ _ _ H0 H).
  - intros t1 t2. apply read_content.
  - intros r _. apply keeps_read.
  - exact (history_read _ _ _ _ _ _ _ _ H0 H).
Qed.
Lemma prepared_way X fuel v i x m t ids : prepare X fuel v i x = Ok (m, t, ids) -> exists t1, on_the_way X v [(i, x)] t1 /\ same_content t1 t.
Proof.
  intros H. unfold prepare in H. apply bindR_Ok in H as ([m1 rs] & Hvb & H). apply bindR_Ok in H as ([ta ids1] & Hu & H). exists ta.
  split; [exact (way_here _ _ _ _ _ _ _ _ _ Hvb Hu)|].
  apply bindR_Ok in H as (t1 & H1 & H). cbv zeta in H. apply bindR_Ok in H as (t2 & H2 & H). apply bindR_Ok in H as (t3 & H3 & H). injection H as <- <- <-.
  eapply same_trans; [exact (set_viewport_same _ _ _ _ H1)|]. eapply same_trans; [exact (apply_styles_same _ _ _ _ _ _ _ _ _ _ _ H2)|].
  eapply same_trans; [exact (run_layout_same X _)|]. exact (final_positions_same _ _ _ _ _ _ _ H3).
Qed.
Lemma prepared_inline X fuel v i x m t ids P : prepare X fuel v i x = Ok (m, t, ids) -> inline_along P X v [(i, x)] -> inline_all P t.
Proof.
  intros H Ha. destruct (prepared_way _ _ _ _ _ _ _ _ H) as (t1 & Hw & Hc). intros n ds. rewrite (inline_content _ _ _ Hc). exact (Ha _ Hw n ds).
Qed.
(** a page none of whose style attributes is bound *)
Definition unbound_style (v : View) : Prop := forall p b n i, In (p, b) (flat (v_bindings v)) -> bd_params b <> BAttribute n "style" i.
Lemma keeps_unbound ric P v r : unbound_style v -> from_bindings (v_bindings v) [r] -> keeps ric (inline_all P) r.
Proof.
  intros Hu Hfb t ids t' ids' Hl Hok H Hi n ds Hd. destruct (style_step _ _ _ _ _ _ Hl Hok H n) as [[Hs _]|(i & x & s & -> & _ & _)].
  - rewrite Hs in Hd. by eapply Hi.
  - exfalso. destruct (Hfb _ (or_introl eq_refl)) as (p & bd & Hin & Hw). destruct (bd_params bd) eqn:E; try done. cbn in Hw.
    injection Hw as <- <- <-. by eapply Hu.
Qed.
Lemma along_static X fuel doc css v0 hist (P : Declaration -> Prop) : from_document X fuel doc css = Ok v0 -> unbound_style v0 -> inline_all P (v_tree v0) ->
  inline_along P X v0 hist.
Proof.
  intros H0 Hu Hp t Ht. apply (along_keep _ (inline_all P) _ _ _ Ht); [by eapply from_document_sound| | |exact Hp].
  - intros t1 t2 Hc Hi n ds. rewrite (inline_content _ _ _ Hc). apply Hi.
  - intros r Hr. by eapply keeps_unbound.
Qed.

Theorem order_free X order fuel doc css v0 hist : tidy_css css -> inline_along tidy_declaration X v0 hist ->
  (forall s, x_order X s ≡ₚ map_to_list s) -> (forall s, order s ≡ₚ map_to_list s) ->
  from_document X fuel doc css = Ok v0 ->
  from_document (with_order X order) fuel doc css = Ok v0 /\ updates (with_order X order) fuel v0 hist = updates X fuel v0 hist.
Proof.
  intros Hcss Hric Ho Ho' H0. split; [exact H0|].
  destruct (kept_loaded _ _ _ _ _ H0) as (rn & t0 & Hm & Hre & Hfl & Hk & Hc & Hb).
  pose proof (from_document_sound _ _ _ _ _ H0) as Hs. clear H0 Hfl.
  revert v0 Hk Hc Hb Hric Hs. induction hist as [|[i x] hist IH]; intros v0 Hk Hc Hb Hric Hs; [done|]. cbn [updates].
  assert (Hup : update (with_order X order) fuel v0 i x = update X fuel v0 i x).
  { assert (Hpr : prepare (with_order X order) fuel v0 i x = prepare X fuel v0 i x); [|unfold update; rewrite Hpr; reflexivity]. unfold prepare. change (view_bind (with_order X order) v0 x) with (view_bind X v0 x).
    destruct (view_bind X v0 x) as [[m rs]| | |] eqn:Hvb; cbn [bindR]; [|reflexivity..].
    change (x_read_inline_css (with_order X order)) with (x_read_inline_css X).
    destruct (update_trees (x_read_inline_css X) (v_tree v0, v_ids v0) rs) as [[t ids]| | |] eqn:Hu; cbn [bindR]; [|reflexivity..].
    pose proof (so_live _ Hs) as Hl. rewrite (so_root _ Hs) in Hl.
    assert (Hok : Forall (reaction_ok (v_tree v0)) rs) by (by eapply view_bind_reactions_ok).
    assert (Hk1 : kept (x_debug X) (css_styles css) (v_bindings v0) t0 t) by (eapply kept_reactions; [exact Hk|exact Hok|by eapply view_bind_from|exact Hu]).
    destruct (set_viewport (v_root v0) (in_viewport i) t) as [t1| | |] eqn:Hv; cbn [bindR]; [|reflexivity..]. apply set_viewport_same in Hv.
    pose proof (tidy_tree_content _ _ Hv (kept_tidy _ _ _ _ _ (proj1 Hcss) (Hric _ (way_here _ _ _ _ _ _ _ _ _ Hvb Hu)) Hk1)) as Htt.
    change (x_debug (with_order X order)) with (x_debug X). change (x_order (with_order X order)) with order.
    rewrite (apply_styles_order fuel (x_debug X) (v_css v0) order (x_order X) (in_time i)); [done|by rewrite Hc|done|done|done| |by rewrite Hb].
    exact (shown_live _ _ _ (content_shown _ _ Hv) (k_live _ _ _ _ _ Hk1)). }
  rewrite Hup. destruct (update X fuel v0 i x) as [[v1 o]| | |] eqn:Hu; cbn [bindR]; [|reflexivity..].
  rewrite IH; [done|..].
  - by eapply kept_update.
  - rewrite <- Hc. unfold update in Hu. apply bindR_Ok in Hu as ([[m t] ids] & _ & Hu); apply bindR_Ok in Hu as ([[s t'] o'] & _ & [= <- <-]); done.
  - destruct (update_keeps _ _ _ _ _ _ _ Hs Hu) as (_ & _ & _ & _ & K5). congruence.
  - exact (along_later _ _ _ _ _ _ _ _ _ Hu Hric).
  - by eapply update_sound.
Qed.
