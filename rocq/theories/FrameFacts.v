(** * What styling, layout, positioning and input handling leave alone. *)
From Coq Require Import ZArith Lia.
From stdpp Require Import gmap.
From RecordUpdate Require Import RecordUpdate.
From Verif Require Import Str F32 Res ResFacts Json PropKey Html Css Element Tree ViewModel Render Update Matching
  Cascade Initial Animation Apply Styling Events View SpecView.

Lemma same_refl t : same_content t t. Proof. by split. Qed.
Lemma same_sym t t' : same_content t t' -> same_content t' t.
Proof. intros [H1 H2]. split; [done|]. intros n. by rewrite H2. Qed.
Lemma same_trans t1 t2 t3 : same_content t1 t2 -> same_content t2 t3 -> same_content t1 t3.
Proof. intros [H1 H2] [H3 H4]. split; [congruence|]. intros n. by rewrite H2, H4. Qed.

Lemma same_node t t' n x : same_content t t' -> t_nodes t !! n = Some x ->
  exists x', t_nodes t' !! n = Some x' /\ n_parent x' = n_parent x /\ n_children x' = n_children x /\
    content <$> n_ctx x' = content <$> n_ctx x.
Proof.
  intros [_ H] Hx. specialize (H n). rewrite Hx in H. cbn in H.
  destruct (t_nodes t' !! n) as [x'|]; [|done]. exists x'. split; [done|]. unfold node_content in H. cbn in H.
  injection H as H1 H2 H3. by rewrite H1, H2, H3.
Qed.

Lemma same_ctx t t' n e : same_content t t' -> get_ctx t n = Some e -> exists e', get_ctx t' n = Some e' /\ content e' = content e.
Proof.
  intros H He. unfold get_ctx in He. destruct (t_nodes t !! n) as [x|] eqn:Ex; [|done]. cbn in He.
  destruct (same_node _ _ _ _ H Ex) as (x' & Hx' & _ & _ & Hc). unfold get_ctx. rewrite Hx'. cbn.
  rewrite He in Hc. destruct (n_ctx x') as [e'|]; [|done]. exists e'. split; [done|]. exact (inj Some _ _ Hc).
Qed.

Lemma put_element_same n e t e0 : get_ctx t n = Some e0 -> content e = content e0 -> same_content t (put_element n e t).
Proof.
  intros H0 Hc. split; [done|]. intros m. unfold put_element. cbn [t_nodes set].
  unfold get_ctx in H0. destruct (t_nodes t !! n) as [x|] eqn:Ex; [|done]. cbn in H0.
  destruct (decide (n = m)) as [<-|Hne].
  - cbn. rewrite lookup_alter, Ex. cbn. f_equal. unfold node_content. rewrite H0. cbn [n_parent n_children n_ctx set fmap option_fmap option_map]. by rewrite <- Hc.
  - cbn. by rewrite lookup_alter_ne.
Qed.

Lemma get_element_ctx t n e : get_element t n = Ok e <-> get_ctx t n = Some e.
Proof. unfold get_element. apply ok_or_Ok. Qed.

Lemma set_style_same n s t t' : set_style n s t = Ok t' -> same_content t t'.
Proof.
  unfold set_style, get_node. intros H. inv_ok. split; [done|]. intros m. unfold put_node. cbn.
  destruct (decide (n = m)) as [<-|Hne]; [rewrite lookup_insert, Hr; done|by rewrite lookup_insert_ne].
Qed.

(** ** Style application *)
Lemma apply_content sizes key i v st : content (snd (apply sizes key i v st)) = content (snd st).
Proof.
  destruct key; try reflexivity; cbn [apply]; unfold assign;
    repeat (case_match; try reflexivity).
Qed.

Lemma apply_all_content sizes l st : content (snd (apply_all sizes l st)) = content (snd st).
Proof.
  unfold apply_all. revert st; induction l as [|[[k i] v] l IH]; intros st; [done|].
  cbn [foldl]. by rewrite IH, apply_content.
Qed.

Lemma cascade_apply_content fuel debug css order time sizes vars node t p layout e r :
  cascade_apply_styles fuel debug css order time sizes vars node t p layout e = Ok r ->
  content (snd (fst r)) = content e.
Proof.
  unfold cascade_apply_styles. intros H.
  repeat (apply bindR_Ok in H as (? & ? & H); repeat match goal with x : (_ * _)%type |- _ => destruct x end).
  match type of H with context [apply_all ?a ?b ?c] => pose proof (apply_all_content a b c) as Hc; destruct (apply_all a b c) as [l' e'] end.
  apply bindR_Ok in H as (? & ? & H). injection H as _ <- _. cbn [fst snd] in *. transitivity (content e'); [reflexivity|]. rewrite Hc. reflexivity.
Qed.

Lemma foldR_same {A} (f : Tree -> A -> res Tree) l : (forall t a t', f t a = Ok t' -> same_content t t') ->
  forall t t', foldR f t l = Ok t' -> same_content t t'.
Proof.
  intros Hf. induction l as [|a l IH]; intros t t' H; cbn [foldR] in H; [injection H as <-; apply same_refl|].
  apply bindR_Ok in H as (t1 & H1 & H). eapply same_trans; [by eapply Hf|by eapply IH].
Qed.

Lemma apply_styles_same fuel debug css order time depth : forall node sizes vars t t',
  apply_styles fuel debug css order time depth node sizes vars t = Ok t' -> same_content t t'.
Proof.
  induction depth as [|depth IH]; intros node sizes vars t t' H; cbn [apply_styles] in H; [done|].
  apply bindR_Ok in H as (p & Hp & H). apply bindR_Ok in H as (pe & Hpe & H).
  apply bindR_Ok in H as (layout & Hl & H). apply bindR_Ok in H as (e & He & H).
  apply get_element_ctx in He.
  destruct (e_text e); [injection H as <-; by eapply put_element_same|].
  apply bindR_Ok in H as ([[layout' e'] vars'] & Hc & H). apply bindR_Ok in H as (t1 & Ht1 & H).
  apply cascade_apply_content in Hc. cbn in Hc.
  assert (H1 : same_content t t1).
  { eapply same_trans; [by eapply put_element_same|by eapply set_style_same]. }
  destruct (_ || _); [by injection H as <-|].
  apply bindR_Ok in H as (cs & Hcs & H). eapply same_trans; [exact H1|].
  eapply foldR_same; [|exact H]. intros t2 c t3 H3. eapply IH. exact H3.
Qed.

Lemma set_viewport_same root vp t t' : set_viewport root vp t = Ok t' -> same_content t t'.
Proof.
  unfold set_viewport. intros H. inv_ok. destruct (_ && _); inv_ok; [by eapply set_style_same|apply same_refl].
Qed.

Lemma run_layout_same X t : same_content t (run_layout X t).
Proof.
  split; [done|]. intros n. unfold run_layout. cbn. rewrite map_lookup_imap.
  by destruct (t_nodes t !! n).
Qed.

Lemma final_positions_same depth : forall node loc op cl t t',
  compute_final_positions depth node loc op cl t = Ok t' -> same_content t t'.
Proof.
  induction depth as [|depth IH]; intros node loc op cl t t' H; cbn [compute_final_positions] in H; [done|].
  apply bindR_Ok in H as (layout & Hl & H). apply bindR_Ok in H as (e & He & H). apply get_element_ctx in He.
  match type of H with (let '(_, _) := ?p in _) = _ => destruct p as [cl' loc'] end.
  apply bindR_Ok in H as (cs & Hcs & H).
  apply (foldR_same _ _ (fun t2 c t3 H3 => IH _ _ _ _ t2 t3 H3)) in H.
  eapply same_trans; [|exact H]. by eapply put_element_same.
Qed.

(** ** Input handling changes element states only *)
Definition no_state (e : Element) : Element := e <| e_state := state_default |>.
Definition node_no_state (x : Node) : Node := x <| n_ctx ::= fmap no_state |>.
Definition same_but_state (t t' : Tree) : Prop :=
  t_next t = t_next t' /\ forall n, node_no_state <$> t_nodes t !! n = node_no_state <$> t_nodes t' !! n.

Lemma sbs_refl t : same_but_state t t. Proof. by split. Qed.
Lemma sbs_trans t1 t2 t3 : same_but_state t1 t2 -> same_but_state t2 t3 -> same_but_state t1 t3.
Proof. intros [H1 H2] [H3 H4]. split; [congruence|]. intros n. by rewrite H2, H4. Qed.
Lemma sbs_sym t t' : same_but_state t t' -> same_but_state t' t.
Proof. intros [H1 H2]. split; [done|]. intros n. by rewrite H2. Qed.

Lemma sbs_node t t' n x : same_but_state t t' -> t_nodes t !! n = Some x ->
  exists x', t_nodes t' !! n = Some x' /\ n_parent x' = n_parent x /\ n_children x' = n_children x /\
     n_style x' = n_style x /\ n_layout x' = n_layout x /\
    no_state <$> n_ctx x' = no_state <$> n_ctx x.
Proof.
  intros [_ H] Hx. specialize (H n). rewrite Hx in H. cbn in H.
  destruct (t_nodes t' !! n) as [x'|]; [|done]. exists x'. split; [done|].
  destruct x, x'. unfold node_no_state in H. cbn in H. injection H as -> -> -> H ->. done.
Qed.

Lemma sbs_ctx t t' n e : same_but_state t t' -> get_ctx t n = Some e ->
  exists e', get_ctx t' n = Some e' /\ no_state e' = no_state e.
Proof.
  intros H He. unfold get_ctx in He. destruct (t_nodes t !! n) as [x|] eqn:Ex; [|done]. cbn in He.
  destruct (sbs_node _ _ _ _ H Ex) as (x' & Hx' & _ & _ & _ & _ & Hc). unfold get_ctx. rewrite Hx'. cbn.
  rewrite He in Hc. destruct (n_ctx x') as [e'|]; [|done]. exists e'. split; [done|]. exact (inj Some _ _ Hc).
Qed.

Lemma sbs_same t t' : same_but_state t t' -> same_content t t'.
Proof.
  intros [H1 H2]. split; [done|]. intros n. specialize (H2 n).
  destruct (t_nodes t !! n) as [x|], (t_nodes t' !! n) as [x'|]; cbn in *; try done.
  f_equal. destruct x as [? ? ? c ?], x' as [? ? ? c' ?]. unfold node_no_state in H2. cbn in H2.
  injection H2 as -> -> -> H2 ->. unfold node_content. cbn. f_equal.
  destruct c as [e|], c' as [e'|]; cbn in *; try done. f_equal.
  change (content (no_state e) = content (no_state e')). f_equal. exact (inj Some _ _ H2).
Qed.

Lemma put_state_sbs n e0 f t : get_ctx t n = Some e0 -> same_but_state t (put_element n (set_state f e0) t).
Proof.
  intros H0. split; [done|]. intros m. unfold put_element. cbn.
  unfold get_ctx in H0. destruct (t_nodes t !! n) as [x|] eqn:Ex; [|done]. cbn in H0.
  destruct (decide (n = m)) as [<-|Hne]; [|by rewrite lookup_alter_ne].
  rewrite lookup_alter, Ex. cbn. f_equal. unfold node_no_state. cbn. destruct x. cbn in *. by rewrite H0.
Qed.


Section events.
  Context (fmt : f64 -> string) (depth : nat) (model : json) (tr : Transformers) (body : NodeId).
  Notation handle_event := (handle_event fmt depth model tr body).

  Lemma foldR_sbs {A} (f : ST -> A -> res ST) l : (forall st a st', f st a = Ok st' -> same_but_state (snd st) (snd st')) ->
    forall st st', foldR f st l = Ok st' -> same_but_state (snd st) (snd st').
  Proof.
    intros Hf. induction l as [|a l IH]; intros st st' H; cbn [foldR] in H; [injection H as <-; apply sbs_refl|].
    apply bindR_Ok in H as (t1 & H1 & H). eapply sbs_trans; [by eapply Hf|by eapply IH].
  Qed.

  Lemma leave_sbs st n st' : leave_node fmt model tr st n = Ok st' -> same_but_state (snd st) (snd st').
  Proof.
    destruct st as [s t]. unfold leave_node. destruct (memb _ _); intros H; inv_ok; [apply sbs_refl|].
    cbn. apply put_state_sbs. by apply get_element_ctx.
  Qed.
  Lemma move_sbs prev st n st' : move_node fmt model tr prev st n = Ok st' -> same_but_state (snd st) (snd st').
  Proof.
    destruct st as [s t]. unfold move_node. intros H. apply bindR_Ok in H as ([s1 t1] & H1 & H).
    inv_ok. cbn. destruct (memb _ _); inv_ok; [apply sbs_refl|].
    apply put_state_sbs. by apply get_element_ctx.
  Qed.
  Lemma blur_sbs n st st' : blur fmt model tr n st = Ok st' -> same_but_state (snd st) (snd st').
  Proof.
    destruct st as [s t]. unfold blur. intros H. inv_ok. cbn. apply put_state_sbs. by apply get_element_ctx.
  Qed.
  Lemma press_sbs b st n st' : press_node fmt model tr b st n = Ok st' -> same_but_state (snd st) (snd st').
  Proof.
    destruct st as [s t]. unfold press_node. intros H. apply bindR_Ok in H as (e & He & H).
    apply get_element_ctx in He.
    apply bindR_Ok in H as ([s1 t1] & H1 & H). apply bindR_Ok in H as (e2 & He2 & H).
    apply bindR_Ok in H as (s2 & Hs2 & H).
    assert (Ht : snd st' = t1). { destruct (_ && _); inv_ok; done. }
    rewrite Ht. clear H Ht. cbn [snd].
    eapply sbs_trans; [by eapply put_state_sbs|].
    match type of H1 with match ?o with _ => _ end = _ => destruct o end; [|inv_ok; apply sbs_refl].
    apply bindR_Ok in H1 as ([s3 t3] & H3 & H1).
    eapply (sbs_trans _ t3).
    - destruct (ev_focus _); [|inv_ok; apply sbs_refl]. destruct (Nat.eqb _ _); [inv_ok; apply sbs_refl|].
      exact (blur_sbs _ _ _ H3).
    - destruct (ev_focus s3); [destruct (Nat.eqb _ _); inv_ok; apply sbs_refl|].
      inv_ok. apply put_state_sbs. by apply get_element_ctx.
  Qed.
  Lemma release_same b st n st' : release_node fmt model tr b st n = Ok st' -> snd st' = snd st.
  Proof.
    destruct st as [s t]. unfold release_node. intros H. apply bindR_Ok in H as (e & He & H).
    apply bindR_Ok in H as (s1 & Hs1 & H). destruct (ev_drag s1).
    - destruct (_ !! _); inv_ok; done.
    - inv_ok. done.
  Qed.
  Lemma on_key_same h ev st st' : on_key fmt model tr h ev st = Ok st' -> snd st' = snd st.
  Proof. destruct st as [s t]. unfold on_key. intros H. destruct (ev_focus s); inv_ok; done. Qed.

  Lemma on_move_sbs p st st' : on_move fmt depth model tr body p st = Ok st' -> same_but_state (snd st) (snd st').
  Proof.
    destruct st as [s t]. unfold on_move. intros H. apply bindR_Ok in H as (u & Hu & H).
    apply bindR_Ok in H as (st1 & H1 & H).
    eapply sbs_trans.
    - eapply (foldR_sbs _ _ leave_sbs) in H1. exact H1.
    - eapply (foldR_sbs _ _ (move_sbs _)) in H. exact H.
  Qed.
  Lemma on_down_sbs b st st' : on_down fmt model tr b st = Ok st' -> same_but_state (snd st) (snd st').
  Proof.
    destruct st as [s t]. unfold on_down. intros H. apply bindR_Ok in H as ([s1 t1] & H1 & H).
    eapply (sbs_trans _ t1).
    - destruct (ev_focus s); [|inv_ok; apply sbs_refl]. destruct (memb _ _); [inv_ok; apply sbs_refl|].
      exact (blur_sbs _ _ _ H1).
    - eapply (foldR_sbs _ _ (press_sbs _)) in H. exact H.
  Qed.
  Lemma on_up_sbs b st st' : on_up fmt model tr b st = Ok st' -> same_but_state (snd st) (snd st').
  Proof.
    unfold on_up. intros H. apply bindR_Ok in H as ([s1 t1] & H1 & H). apply bindR_Ok in H as (t2 & H2 & H).
    injection H as <-. cbn.
    assert (Ht1 : t1 = snd st).
    { clear H2. revert H1. generalize (rev (ev_under (fst st))). intros l. revert st.
      induction l as [|n l IH]; intros st H1; cbn [foldR] in H1; [by injection H1 as ->|].
      apply bindR_Ok in H1 as (st2 & H2 & H1). apply IH in H1. rewrite H1. by eapply release_same. }
    subst t1. clear H1. revert H2. generalize (ev_action s1) (snd st). intros l. clear.
    induction l as [|n l IH]; intros t H; cbn [foldR] in H; [injection H as <-; apply sbs_refl|].
    apply bindR_Ok in H as (t3 & H3 & H). eapply sbs_trans; [|by apply IH].
    unfold deactivate_node in H3. inv_ok. apply put_state_sbs. by apply get_element_ctx.
  Qed.

  Lemma handle_event_sbs st ev st' : handle_event st ev = Ok st' -> same_but_state (snd st) (snd st').
  Proof.
    destruct ev; cbn [Events.handle_event]; intros H.
    - inv_ok; apply sbs_refl.
    - by eapply on_move_sbs.
    - by eapply on_down_sbs.
    - by eapply on_up_sbs.
    - inv_ok; apply sbs_refl.
    - apply on_key_same in H as ->. apply sbs_refl.
    - apply on_key_same in H as ->. apply sbs_refl.
    - apply on_key_same in H as ->. apply sbs_refl.
  Qed.

  Lemma handle_output_sbs events st st' o :
    handle_output fmt depth model tr body events st = Ok (st', o) -> same_but_state (snd st) (snd st').
  Proof.
    destruct st as [s t]. unfold handle_output.
    destruct (match last_move events None with Some p => _ | None => _ end) as [s1 ev1].
    intros H. apply bindR_Ok in H as ([s2 t2] & H2 & H). injection H as <- _. cbn.
    unfold handle_elements_input in H2. by apply (foldR_sbs _ _ handle_event_sbs) in H2.
  Qed.
End events.

(** ** One update: the bound content is exactly what the reactions made of it *)
Theorem update_content X fuel v input value v' o : update X fuel v input value = Ok (v', o) ->
  exists m rs t ids,
    view_bind X v value = Ok (m, rs) /\
    update_trees (x_read_inline_css X) (v_tree v, v_ids v) rs = Ok (t, ids) /\
    v_model v' = m /\ v_ids v' = ids /\ same_content t (v_tree v') /\
    v_bindings v' = v_bindings v /\ v_defaults v' = v_defaults v /\ v_transformers v' = v_transformers v /\
    v_css v' = v_css v /\ v_root v' = v_root v /\ v_body v' = v_body v.
Proof.
  unfold update, prepare. intros H. apply bindR_Ok in H as ([[m0 t0] ids0] & Hp & H).
  apply bindR_Ok in H as ([[s t4] o'] & H4 & H). injection H as <- <-. rename Hp into H.
  apply bindR_Ok in H as ([m rs] & Hb & H). apply bindR_Ok in H as ([t ids] & Ht & H).
  apply bindR_Ok in H as (t1 & H1 & H). apply bindR_Ok in H as (t2 & H2 & H).
  apply bindR_Ok in H as (t3 & H3 & H).
  injection H as <- <- <-. exists m, rs, t, ids. repeat (split; [done|]). cbn. split; [|done].
  eapply same_trans; [by eapply set_viewport_same|].
  eapply same_trans; [by eapply apply_styles_same|].
  eapply same_trans; [apply run_layout_same|].
  eapply same_trans; [by eapply final_positions_same|].
  apply sbs_same. by apply handle_output_sbs in H4.
Qed.
