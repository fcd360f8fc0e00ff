(** * The exact effect of each kind of input event. *)
From Coq Require Import ZArith Lia.
From stdpp Require Import gmap.
From RecordUpdate Require Import RecordUpdate.
From Verif Require Import Str F32 Res ResFacts Json PropKey Html Css Element Tree ViewModel Render Update Matching
  Cascade Initial Animation Apply Styling Events View SpecReact SpecLive SpecView SpecEvents FrameFacts LiveFacts LiveUpdate LiveView EventFacts EventPage.

Lemma inv_others s t : inv (s, t) -> others (ev_action s) (ev_focus s) (ev_drag s) (ev_log s) t.
Proof. intros [? ? ? ? ?]. split; [done|]. split; [done|]. by split. Qed.
Lemma NoDup_rev_ (l : list nat) : NoDup l -> NoDup (rev l).
Proof. intros H. rewrite rev_alt, <- List.rev_alt. apply NoDup_ListNoDup. apply List.NoDup_rev. by apply NoDup_ListNoDup. Qed.
Lemma elem_of_rev_ (l : list nat) k : k ∈ rev l <-> k ∈ l.
Proof. by rewrite !elem_of_list_In, <- in_rev. Qed.
Lemma inv_intro s t : HI (ev_under s) (ev_log s) t -> others (ev_action s) (ev_focus s) (ev_drag s) (ev_log s) t -> inv (s, t).
Proof. intros H (? & ? & ? & ?). by split. Qed.

Definition has_input (t : Tree) (n : NodeId) : bool := match get_ctx t n with Some e => bool_decide (is_Some (e_listeners e !! "oninput")) | None => false end.
Definition has_drop (t : Tree) (n : NodeId) : bool := match get_ctx t n with Some e => bool_decide (is_Some (e_listeners e !! "ondrop")) | None => false end.
Definition can_drag (t : Tree) (n : NodeId) : bool := match get_ctx t n with Some e => draggable e | None => false end.
Definition is_active (t : Tree) (n : NodeId) : bool := match get_ctx t n with Some e => st_active (e_state e) | None => false end.

Lemma sbs_eq t t' n {A} (g : Element -> A) : (forall e, g (no_state e) = g e) -> same_but_state t t' -> g <$> get_ctx t' n = g <$> get_ctx t n.
Proof.
  intros Hg H. destruct (get_ctx t n) as [e|] eqn:He.
  - destruct (sbs_ctx _ _ _ _ H He) as (e' & -> & Hn). cbn. f_equal. by rewrite <- Hg, Hn, Hg.
  - destruct (get_ctx t' n) as [e'|] eqn:He'; [|done]. destruct (sbs_ctx _ _ _ _ (sbs_sym _ _ H) He') as (e & ? & _). congruence.
Qed.
Lemma sbs_listeners t t' n e e' : same_but_state t t' -> get_ctx t n = Some e -> get_ctx t' n = Some e' -> e_listeners e' = e_listeners e /\ e_attrs e' = e_attrs e /\ draggable e' = draggable e.
Proof.
  intros H He He'. pose proof (sbs_eq t t' n e_listeners (fun _ => eq_refl) H) as H1. pose proof (sbs_eq t t' n e_attrs (fun _ => eq_refl) H) as H2.
  rewrite He, He' in H1, H2. cbn in H1, H2. injection H1 as H1. injection H2 as H2. unfold draggable. by rewrite H1, H2.
Qed.
Lemma sbs_bool t t' n (g : Element -> bool) : (forall e, g (no_state e) = g e) -> same_but_state t t' ->
  match get_ctx t' n with Some e => g e | None => false end = match get_ctx t n with Some e => g e | None => false end.
Proof. intros Hg H. pose proof (sbs_eq t t' n g Hg H) as H1. destruct (get_ctx t n), (get_ctx t' n); try done. by injection H1. Qed.
Lemma sbs_input t t' n : same_but_state t t' -> has_input t' n = has_input t n.
Proof. unfold has_input. by apply (sbs_bool t t' n (fun e => bool_decide (is_Some (e_listeners e !! "oninput")))). Qed.
Lemma sbs_drag t t' n : same_but_state t t' -> can_drag t' n = can_drag t n.
Proof. unfold can_drag. by apply (sbs_bool t t' n draggable). Qed.

Section steps.
  Context (fmt : f64 -> string) (m : json) (tr : Transformers).

  (** ** Moves *)
  Lemma on_move_effect depth body p s t s' t' : inv (s, t) -> on_move fmt depth m tr body p (s, t) = Ok (s', t') ->
    exists all, let U := filter (touched t p) all in
      document_order t body all /\ ev_under s' = U /\
      (ev_mouse s', ev_action s', ev_drag s', ev_focus s') = (ev_mouse s, ev_action s, ev_drag s, ev_focus s) /\
      map call (ev_log s') = map call (ev_log s) ++ flat_map (leave_calls s U) (rev (ev_under s)) ++ flat_map (move_calls s (ev_under s)) (rev U) /\
      inv (s', t').
  Proof.
    intros Hi H. unfold on_move in H. apply bindR_Ok in H as (u & Hu & H). apply bindR_Ok in H as ([s1 t1] & H1 & H).
    destruct (hits_order _ _ _ _ _ Hu) as (all & Ho & ->). exists all. cbv zeta. set (U := filter (touched t p) all) in *.
    assert (HU : NoDup U). { apply list.NoDup_filter. eapply order_nodup; [exact (iv_live _ Hi)|done]. }
    pose proof (iv_hover _ Hi) as Hh. cbn [fst snd] in Hh. pose proof Hh as (HP0 & _).
    eapply (leave_fold _ _ _ _ _ _ _ _ (fun n => n ∈ ev_under s) (ev_action s) (ev_focus s)) in H1 as (Hq1 & Hl1 & HP1 & Ho1).
    2: by apply NoDup_rev_.
    2: by apply HI_HP.
    2: { intros n Hn. rewrite elem_of_rev_ in Hn. exact Hn. }
    2: exact (inv_others _ _ Hi).
    cbn [ev_under ev_log ev_drag set] in Hq1, Hl1, HP1, Ho1.
    pose proof Hq1 as (Q1 & Q2 & Q3 & Q4 & Q5). cbn in Q1, Q2, Q3, Q4, Q5.
    assert (Ho1' : others (ev_action s) (ev_focus s) (ev_drag s1) (ev_log s1) t1) by by rewrite Q4.
    eapply move_fold in H as (Hq2 & Hl2 & HP2 & Ho2); [|by apply NoDup_rev_|exact HP1| | |exact Ho1'].
    - pose proof Hq2 as (R1 & R2 & R3 & R4 & R5). split; [done|]. split; [by rewrite R2|]. split; [congruence|]. split.
      + rewrite Hl2. replace (flat_map (move_calls s1 (ev_under s)) (rev U)) with (flat_map (move_calls s (ev_under s)) (rev U)).
        2: { apply flat_map_ext. intros k. unfold move_calls, drag_call. by rewrite Q4. }
        change (map call (ev_log (s <| ev_under := U |>))) with (map call (ev_log s)) in Hl1.
        rewrite Hl1, <- app_assoc. do 2 f_equal.
      + apply inv_intro.
        * rewrite R2, Q2. apply HP_HI; [done|]. eapply HP_ext; [|exact HP2]. intros k. cbn.
          rewrite !elem_of_rev_. tauto.
        * rewrite R3, R4, R5, Q3, Q5. done.
    - intros n Hn HnP. by rewrite elem_of_rev_ in Hn.
    - intros n _ HnP [Hq _]. done.
  Qed.

  (** ** Presses *)
  Lemma put_flag_parts U A f d log t n e g :
    HI U log t -> others A f d log t -> get_ctx t n = Some e -> let t' := put_element n (set_state g e) t in
    ((forall x, st_hover (g x) = st_hover x) -> HI U log t') /\
    live t' 0 /\ DI d log t' /\
    ((forall x, st_active (g x) = st_active x) -> AI A t') /\
    ((forall x, st_focus (g x) = st_focus x) -> FI f log t').
  Proof.
    intros Hh (H1 & H2 & H3 & H4) He t'.
    assert (Hs : same_but_state t t') by by apply put_state_sbs.
    split; [|split; [by eapply sbs_live|split; [|split]]].
    - intros Hg. eapply HI_tree; [|exact Hh]. intros k. by apply flag_put_same.
    - eapply DI_tree; [|exact H4]. intros k. by apply sbs_some.
    - intros Hg. eapply AI_tree; [|exact H2]. intros k. by apply flag_put_same.
    - intros Hg. eapply FI_tree; [|exact H3]. intros k. by apply flag_put_same.
  Qed.

  Lemma blur_effect g s t s' t' : inv (s, t) -> ev_focus s = Some g -> blur fmt m tr g (s, t) = Ok (s', t') ->
    (ev_mouse s', ev_under s', ev_action s', ev_drag s', ev_focus s') = (ev_mouse s, ev_under s, ev_action s, ev_drag s, None) /\
    map call (ev_log s') = map call (ev_log s) ++ [(g, "onblur")] /\ inv (s', t').
  Proof.
    intros Hi Hf H. unfold blur in H. apply bindR_Ok in H as (e & He & H). apply get_element_ctx in He.
    apply bindR_Ok in H as (s1 & H1 & H). injection H as <- <-. apply emit_mouse_effect in H1 as ((Q1 & Q2 & Q3 & Q4 & Q5) & Hl).
    cbn in Q1, Q2, Q3, Q4, Q5, Hl. split; [congruence|]. split; [rewrite Hl, map_app; done|].
    pose proof (put_flag_parts _ _ _ _ _ _ _ _ (fun x => x <| st_focus := false |>) (iv_hover _ Hi) (inv_others _ _ Hi) He) as (P1 & P2 & P3 & P4 & P5).
    cbn [fst snd] in *. set (t' := put_element _ _ _) in *. apply inv_intro.
    - rewrite Q2, Hl. apply HI_log; [notin|]. by apply P1.
    - rewrite Q3, Q4, Q5, Hl. split; [done|]. split; [by apply P4|]. split; [|apply DI_log; [notin|done]].
      pose proof (iv_focus _ Hi) as [F1 F2]. cbn [fst snd] in F1, F2. rewrite Hf in F1, F2. split.
      + intros k. unfold t', focused. rewrite flag_put by done. destruct (decide (k = g)) as [->|Hne]; [done|].
        change (focused t k <-> None = Some k). rewrite F1. split; [congruence|done].
      + rewrite accept_snoc, F2. cbn [mbind option_bind]. unfold focus_rule. cbn [di_handler di_node].
        rewrite decide_False by done. rewrite decide_True by tauto. rewrite decide_True by done. done.
  Qed.

  Definition press_calls (t : Tree) (b : MouseButton) (f : option NodeId) (n : NodeId) : list (NodeId * string) :=
    (if has_input t n then if decide (f = Some n) then [] else match f with Some g => [(g, "onblur")] | None => [] end ++ [(n, "onfocus")] else []) ++
    (n, "onmousedown") :: if is_left b && can_drag t n then [(n, "ondragstart")] else [].
  Definition press_focus (t : Tree) (f : option NodeId) (n : NodeId) : option NodeId := if has_input t n then Some n else f.
  Definition press_drag (t : Tree) (b : MouseButton) (d : option NodeId) (n : NodeId) : option NodeId :=
    if is_left b && can_drag t n then Some n else d.

  Lemma press_effect b n s t s' t' : inv (s, t) -> press_node fmt m tr b (s, t) n = Ok (s', t') ->
    (ev_mouse s', ev_under s', ev_action s', ev_drag s', ev_focus s') =
      (ev_mouse s, ev_under s, ev_action s ++ [n], press_drag t b (ev_drag s) n, press_focus t (ev_focus s) n) /\
    map call (ev_log s') = map call (ev_log s) ++ press_calls t b (ev_focus s) n /\ inv (s', t').
  Proof.
    intros Hi H. unfold press_node in H. apply bindR_Ok in H as (e & He & H). apply get_element_ctx in He.
    apply bindR_Ok in H as ([s2 t2] & H2 & H).
    set (e1 := set_state _ e) in H2. set (t1 := put_element n e1 t) in H2. set (s1 := s <| ev_action ::= fun l => l ++ [n] |>) in H2.
    assert (Hs1 : same_but_state t t1) by by apply put_state_sbs.
    assert (He1 : get_ctx t1 n = Some e1) by by eapply get_put_same.
    assert (Hi1 : inv (s1, t1)).
    { pose proof (put_flag_parts _ _ _ _ _ _ _ _ (fun x => x <| st_active := true |>) (iv_hover _ Hi) (inv_others _ _ Hi) He) as (P1 & P2 & P3 & P4 & P5).
      cbn [fst snd] in *. fold e1 in P1, P2, P3, P5. fold t1 in P1, P2, P3, P5. apply inv_intro; cbn [s1 ev_under ev_log ev_action ev_focus ev_drag set].
      - by apply P1.
      - split; [done|]. split; [|split; [by apply P5|done]]. intros k. unfold active, t1, e1. rewrite flag_put by done.
        rewrite elem_of_app, elem_of_list_singleton. destruct (decide (k = n)) as [->|Hne]; [cbn; tauto|].
        change (active t k <-> k ∈ ev_action s \/ k = n). rewrite (iv_active _ Hi k). cbn. tauto. }
    assert (Hstep : (ev_mouse s2, ev_under s2, ev_action s2, ev_drag s2, ev_focus s2) = (ev_mouse s, ev_under s, ev_action s ++ [n], ev_drag s, press_focus t (ev_focus s) n) /\
      map call (ev_log s2) = map call (ev_log s) ++ (if has_input t n then if decide (ev_focus s = Some n) then [] else match ev_focus s with Some g => [(g, "onblur")] | None => [] end ++ [(n, "onfocus")] else []) /\
      inv (s2, t2) /\ same_but_state t1 t2).
    { unfold press_focus, has_input. rewrite He. change (e_listeners e1) with (e_listeners e) in H2. destruct (e_listeners e !! "oninput") as [args|] eqn:Ein.
      2: { rewrite bool_decide_eq_false_2 by (by intros [? ?]). injection H2 as <- <-. rewrite app_nil_r. split; [done|]. split; [done|]. split; [done|apply sbs_refl]. }
      rewrite bool_decide_eq_true_2 by done. apply bindR_Ok in H2 as ([s3 t3] & H3 & H2).
      change (ev_focus s1) with (ev_focus s) in H3. destruct (decide (ev_focus s = Some n)) as [Hfn|Hfn].
      - rewrite Hfn, Nat.eqb_refl in H3. injection H3 as <- <-. change (ev_focus s1) with (ev_focus s) in H2. rewrite Hfn, Nat.eqb_refl in H2.
        injection H2 as <- <-. rewrite app_nil_r. split; [cbn; congruence|]. split; [done|]. split; [done|apply sbs_refl].
      - assert (Hb : (ev_mouse s3, ev_under s3, ev_action s3, ev_drag s3, ev_focus s3) = (ev_mouse s, ev_under s, ev_action s ++ [n], ev_drag s, None) /\
          map call (ev_log s3) = map call (ev_log s) ++ match ev_focus s with Some g => [(g, "onblur")] | None => [] end /\ inv (s3, t3) /\ same_but_state t1 t3).
        { destruct (ev_focus s) as [g|] eqn:Ef.
          - destruct (Nat.eqb_spec g n) as [->|Hgn]; [done|]. pose proof (blur_sbs _ _ _ _ _ _ H3) as Hbs. apply blur_effect in H3 as (H5 & H6 & H7); [|done|done].
            split; [by rewrite H5|]. split; [done|]. split; [done|exact Hbs].
          - injection H3 as <- <-. rewrite app_nil_r. split; [by cbn; rewrite Ef|]. split; [done|]. split; [done|apply sbs_refl]. }
        clear H3. destruct Hb as (B1 & B2 & B3 & B4). injection B1 as B5 B6 B7 B8 B9. rewrite B9 in H2.
        apply bindR_Ok in H2 as (e3 & He3 & H2). apply get_element_ctx in He3. apply bindR_Ok in H2 as (s4 & H4 & H2). injection H2 as <- <-.
        apply emit_mouse_effect in H4 as ((Q1 & Q2 & Q3 & Q4 & Q5) & Hl). cbn in Q1, Q2, Q3, Q4, Q5, Hl.
        split; [congruence|]. split; [rewrite Hl, map_app, B2, <- app_assoc; done|].
        pose proof (put_flag_parts _ _ _ _ _ _ _ _ (fun x => x <| st_focus := true |>) (iv_hover _ B3) (inv_others _ _ B3) He3) as (P1 & P2 & P3 & P4 & P5).
        cbn [fst snd] in *. split; [|eapply sbs_trans; [exact B4|by apply put_state_sbs]]. set (tp := put_element _ _ _) in *. apply inv_intro.
        + rewrite Q2, Hl. apply HI_log; [notin|]. by apply P1.
        + rewrite Q3, Q4, Q5, Hl. split; [done|]. split; [by apply P4|]. split; [|apply DI_log; [notin|done]].
          pose proof (iv_focus _ B3) as [F1 F2]. cbn [fst snd] in F1, F2. rewrite B9 in F1, F2. split.
          * intros k. unfold tp, focused. rewrite flag_put by done. destruct (decide (k = n)) as [->|Hne]; [done|].
            change (focused t3 k <-> Some n = Some k). rewrite F1. split; [done|congruence].
          * rewrite accept_snoc, F2. done. }
    destruct Hstep as (S1 & S2 & S3 & S4). clear H2. injection S1 as S5 S6 S7 S8 S9.
    apply bindR_Ok in H as (e2 & He2 & H). apply get_element_ctx in He2. apply bindR_Ok in H as (s3 & H3 & H).
    apply emit_mouse_effect in H3 as ((Q1 & Q2 & Q3 & Q4 & Q5) & Hl). cbn in Q1, Q2, Q3, Q4, Q5, Hl.
    assert (Hd : draggable e2 = can_drag t n).
    { unfold can_drag. rewrite He. eapply sbs_listeners; [|exact He|exact He2]. by eapply sbs_trans. }
    assert (Hi3 : inv (s3, t2)).
    { destruct S3 as [L1 L2 L3 L4 L5]. cbn [fst snd] in *. apply inv_intro.
      - rewrite Q2, Hl. apply HI_log; [notin|done].
      - rewrite Q3, Q4, Q5, Hl. apply others_log; [notin|left; notin|]. done. }
    unfold press_calls, press_drag. rewrite <- Hd. destruct (is_left b && draggable e2).
    - apply bindR_Ok in H as (s4 & H4 & H). injection H as <- <-.
      apply emit_mouse_effect in H4 as ((R1 & R2 & R3 & R4 & R5) & Hl2). cbn in R1, R2, R3, R4, R5, Hl2.
      split; [cbn; congruence|]. split; [cbn; rewrite Hl2, Hl, !map_app, S2, <- !app_assoc; done|].
      destruct Hi3 as [L1 L2 L3 L4 L5]. cbn [fst snd] in *. apply inv_intro; cbn [ev_under ev_log ev_action ev_focus ev_drag set].
      + rewrite R2, Hl2. apply HI_log; [notin|done].
      + rewrite R3, R5, Hl2. split; [done|]. split; [done|]. split; [apply FI_log; [notin|done]|].
        destruct L5 as [D1 D2]. split; [intros k [= <-]; by eexists|]. unfold drag_now in *. rewrite accept_snoc, D2. by destruct (ev_drag s3).
    - injection H as <- <-. split; [congruence|]. split; [|done]. rewrite Hl, map_app, S2, <- !app_assoc. done.
  Qed.

  Fixpoint down_calls (t : Tree) (b : MouseButton) (f : option NodeId) (l : list NodeId) : list (NodeId * string) :=
    match l with [] => [] | n :: l => press_calls t b f n ++ down_calls t b (press_focus t f n) l end.
  Lemma press_pure t t' b f n d : same_but_state t t' -> press_calls t' b f n = press_calls t b f n /\ press_focus t' f n = press_focus t f n /\ press_drag t' b d n = press_drag t b d n.
  Proof. intros H. unfold press_calls, press_focus, press_drag. by rewrite (sbs_input _ _ _ H), (sbs_drag _ _ _ H). Qed.
  Lemma press_foldl t t' b l : same_but_state t t' -> forall f d, foldl (press_focus t') f l = foldl (press_focus t) f l /\ foldl (press_drag t' b) d l = foldl (press_drag t b) d l /\
    down_calls t' b f l = down_calls t b f l.
  Proof.
    intros H. induction l as [|n l IH]; intros f d; [done|]. cbn. destruct (press_pure t t' b f n d H) as (H1 & H2 & H3). rewrite H1, H2, H3.
    destruct (IH (press_focus t f n) (press_drag t b d n)) as (I1 & I2 & I3). by rewrite I1, I2, I3.
  Qed.

  Lemma press_fold b l : forall s t s' t', inv (s, t) -> foldR (press_node fmt m tr b) (s, t) l = Ok (s', t') ->
    (ev_mouse s', ev_under s', ev_action s', ev_drag s', ev_focus s') =
      (ev_mouse s, ev_under s, ev_action s ++ l, foldl (press_drag t b) (ev_drag s) l, foldl (press_focus t) (ev_focus s) l) /\
    map call (ev_log s') = map call (ev_log s) ++ down_calls t b (ev_focus s) l /\ inv (s', t').
  Proof.
    induction l as [|n l IH]; intros s t s' t' Hi H; cbn [foldR] in H.
    - injection H as <- <-. cbn. by rewrite !app_nil_r.
    - apply bindR_Ok in H as ([s1 t1] & H1 & H). pose proof (press_sbs _ _ _ _ _ _ _ H1) as Hs. cbn in Hs.
      apply press_effect in H1 as (H2 & H3 & H4); [|done]. apply IH in H as (H5 & H6 & H7); [|done].
      injection H2 as P1 P2 P3 P4 P5. destruct (press_foldl t t1 b l Hs (press_focus t (ev_focus s) n) (press_drag t b (ev_drag s) n)) as (I1 & I2 & I3).
      split; [|split; [|done]].
      + rewrite H5, P1, P2, P3, P4, P5. cbn. rewrite I1, I2, <- app_assoc. done.
      + rewrite H6, H3, P5, I3, <- app_assoc. done.
  Qed.

  Definition kept_focus (s : Session) : option NodeId :=
    match ev_focus s with Some f => if decide (f ∈ ev_under s) then Some f else None | None => None end.
  Definition drop_calls (s : Session) : list (NodeId * string) :=
    match ev_focus s with Some f => if decide (f ∈ ev_under s) then [] else [(f, "onblur")] | None => [] end.
  Lemma on_down_effect b s t s' t' : inv (s, t) -> on_down fmt m tr b (s, t) = Ok (s', t') ->
    (ev_mouse s', ev_under s', ev_action s', ev_drag s', ev_focus s') =
      (ev_mouse s, ev_under s, ev_action s ++ rev (ev_under s), foldl (press_drag t b) (ev_drag s) (rev (ev_under s)), foldl (press_focus t) (kept_focus s) (rev (ev_under s))) /\
    map call (ev_log s') = map call (ev_log s) ++ drop_calls s ++ down_calls t b (kept_focus s) (rev (ev_under s)) /\ inv (s', t').
  Proof.
    intros Hi H. unfold on_down in H. apply bindR_Ok in H as ([s1 t1] & H1 & H).
    assert (Hb : (ev_mouse s1, ev_under s1, ev_action s1, ev_drag s1, ev_focus s1) = (ev_mouse s, ev_under s, ev_action s, ev_drag s, kept_focus s) /\
       map call (ev_log s1) = map call (ev_log s) ++ drop_calls s /\ inv (s1, t1) /\ same_but_state t t1).
    { unfold kept_focus, drop_calls. destruct (ev_focus s) as [f|] eqn:Ef.
      - destruct (memb f (ev_under s)) eqn:Em.
        + apply memb_spec in Em. rewrite !decide_True by done. injection H1 as <- <-. rewrite app_nil_r. split; [by rewrite Ef|]. split; [done|]. split; [done|apply sbs_refl].
        + apply memb_false in Em. rewrite !decide_False by done. pose proof (blur_sbs _ _ _ _ _ _ H1) as Hbs. apply blur_effect in H1 as (H5 & H6 & H7); [|done|done].
          split; [done|]. split; [done|]. split; [done|exact Hbs].
      - injection H1 as <- <-. rewrite app_nil_r. split; [by rewrite Ef|]. split; [done|]. split; [done|apply sbs_refl]. }
    destruct Hb as (B1 & B2 & B3 & B4). injection B1 as P1 P2 P3 P4 P5.
    apply press_fold in H as (H5 & H6 & H7); [|done]. rewrite P2 in H5, H6.
    destruct (press_foldl t t1 b (rev (ev_under s)) B4 (kept_focus s) (ev_drag s)) as (I1 & I2 & I3).
    split; [|split; [|done]].
    - rewrite H5, P1, P3, P4, P5, I1, I2. done.
    - rewrite H6, B2, P5, I3, <- app_assoc. done.
  Qed.

  (** ** Releases *)
  Definition release_calls (t : Tree) (b : MouseButton) (d : option NodeId) (n : NodeId) : list (NodeId * string) :=
    (n, "onmouseup") ::
    match d with
    | Some source => if has_drop t n then [(n, "ondrop"); (source, "ondragend")] else []
    | None => (if is_left b && is_active t n then [(n, "onclick")] else []) ++ (if is_right b then [(n, "oncontextmenu")] else [])
    end.
  Definition release_drag (t : Tree) (d : option NodeId) (n : NodeId) : option NodeId := if has_drop t n then None else d.

  Lemma others_log_idle A f log t c : di_handler c ∉ focus_handlers -> di_handler c ∈ ["onclick"; "oncontextmenu"] ->
    others A f None log t -> others A f None (log ++ [c]) t.
  Proof.
    intros Hf Hc (H1 & H2 & H3 & H4). repeat (split; [done|]). split; [by apply FI_log|].
    destruct H4 as [H4 H5]. split; [done|]. unfold drag_now in *. rewrite accept_snoc, H5. cbn.
    rewrite !elem_of_cons, elem_of_nil in Hc. destruct Hc as [-> | [-> | []]]; done.
  Qed.

  Lemma release_effect b n s t s' t' : inv (s, t) -> release_node fmt m tr b (s, t) n = Ok (s', t') ->
    (ev_mouse s', ev_under s', ev_action s', ev_drag s', ev_focus s') =
      (ev_mouse s, ev_under s, ev_action s, release_drag t (ev_drag s) n, ev_focus s) /\ t' = t /\
    map call (ev_log s') = map call (ev_log s) ++ release_calls t b (ev_drag s) n /\ inv (s', t').
  Proof.
    intros Hi H. assert (Ht : t' = t) by exact (release_same _ _ _ _ _ _ _ H). subst t'.
    unfold release_node in H. apply bindR_Ok in H as (e & He & H). apply get_element_ctx in He. apply bindR_Ok in H as (s1 & H1 & H).
    apply emit_mouse_effect in H1 as ((Q1 & Q2 & Q3 & Q4 & Q5) & Hl).
    assert (Hi1 : inv (s1, t)).
    { destruct Hi as [L1 L2 L3 L4 L5]. cbn [fst snd] in *. apply inv_intro.
      - rewrite Q2, Hl. apply HI_log; [notin|done].
      - rewrite Q3, Q4, Q5, Hl. apply others_log; [notin|left; notin|]. done. }
    unfold release_drag, release_calls, has_drop, is_active. rewrite He. rewrite Q4 in H. destruct (ev_drag s) as [source|] eqn:Ed.
    - destruct (e_listeners e !! "ondrop") as [args|] eqn:Edr.
      2: { rewrite bool_decide_eq_false_2 by (by intros [? ?]). injection H as <-. rewrite Hl, map_app. split; [congruence|]. done. }
      rewrite bool_decide_eq_true_2 by done. apply bindR_Ok in H as (s2 & H2 & H). apply bindR_Ok in H as (e2 & He2 & H).
      apply bindR_Ok in H as (s3 & H3 & H). injection H as <-.
      apply emit_mouse_effect in H2 as ((R1 & R2 & R3 & R4 & R5) & Hl2). apply emit_mouse_effect in H3 as ((T1 & T2 & T3 & T4 & T5) & Hl3).
      cbn in T1, T2, T3, T4, T5, Hl3. split; [congruence|]. split; [done|]. split; [rewrite Hl3, Hl2, Hl, !map_app, <- !app_assoc; done|].
      destruct Hi1 as [L1 L2 L3 L4 L5]. cbn [fst snd] in *. apply inv_intro.
      + rewrite T2, R2, Hl3, Hl2. apply HI_log; [notin|]. apply HI_log; [notin|done].
      + rewrite T3, R3, T5, R5, T4, Hl3, Hl2. split; [done|]. split; [done|]. split; [apply FI_log; [notin|]; apply FI_log; [notin|done]|].
        destruct L5 as [D1 D2]. split; [done|]. unfold drag_now in *. rewrite !accept_snoc, D2, Q4. cbn [mbind option_bind drag_of drag_rule di_handler].
        rewrite decide_False by done. rewrite decide_True by done. cbn. rewrite decide_True by done. done.
    - apply bindR_Ok in H as (s2 & H2 & H). apply bindR_Ok in H as (s3 & H3 & H). injection H as <-.
      assert (Hi2 : (ev_mouse s2, ev_under s2, ev_action s2, ev_drag s2, ev_focus s2) = (ev_mouse s, ev_under s, ev_action s, None, ev_focus s) /\
        map call (ev_log s2) = map call (ev_log s1) ++ (if is_left b && st_active (e_state e) then [(n, "onclick")] else []) /\ inv (s2, t)).
      { destruct (is_left b && _); [|injection H2 as <-; rewrite app_nil_r; split; [congruence|done]].
        apply emit_mouse_effect in H2 as ((R1 & R2 & R3 & R4 & R5) & Hl2). split; [congruence|]. split; [by rewrite Hl2, map_app|].
        destruct Hi1 as [L1 L2 L3 L4 L5]. cbn [fst snd] in *. apply inv_intro.
        - rewrite R2, Hl2. apply HI_log; [notin|done].
        - rewrite R3, R5, R4, Q4, Hl2. rewrite Q4 in L5. apply others_log_idle; [notin|notin|done]. }
      clear H2. destruct Hi2 as (S1 & S2 & S3). injection S1 as S5 S6 S7 S8 S9.
      assert (Hi3 : (ev_mouse s3, ev_under s3, ev_action s3, ev_drag s3, ev_focus s3) = (ev_mouse s, ev_under s, ev_action s, None, ev_focus s) /\
        map call (ev_log s3) = map call (ev_log s2) ++ (if is_right b then [(n, "oncontextmenu")] else []) /\ inv (s3, t)).
      { destruct (is_right b); [|injection H3 as <-; rewrite app_nil_r; split; [congruence|done]].
        apply emit_mouse_effect in H3 as ((R1 & R2 & R3 & R4 & R5) & Hl2). split; [congruence|]. split; [by rewrite Hl2, map_app|].
        destruct S3 as [L1 L2 L3 L4 L5]. cbn [fst snd] in *. apply inv_intro.
        - rewrite R2, Hl2. apply HI_log; [notin|done].
        - rewrite R3, R5, R4, S8, Hl2. rewrite S8 in L5. apply others_log_idle; [notin|notin|done]. }
      destruct Hi3 as (T1 & T2 & T3). split; [|split; [done|split; [|done]]].
      + rewrite T1. by destruct (bool_decide _).
      + rewrite T2, S2, Hl, map_app, <- !app_assoc. done.
  Qed.

  Fixpoint up_calls (t : Tree) (b : MouseButton) (d : option NodeId) (l : list NodeId) : list (NodeId * string) :=
    match l with [] => [] | n :: l => release_calls t b d n ++ up_calls t b (release_drag t d n) l end.
  Lemma release_fold b l : forall s t s' t', inv (s, t) -> foldR (release_node fmt m tr b) (s, t) l = Ok (s', t') ->
    (ev_mouse s', ev_under s', ev_action s', ev_drag s', ev_focus s') =
      (ev_mouse s, ev_under s, ev_action s, foldl (release_drag t) (ev_drag s) l, ev_focus s) /\ t' = t /\
    map call (ev_log s') = map call (ev_log s) ++ up_calls t b (ev_drag s) l /\ inv (s', t').
  Proof.
    induction l as [|n l IH]; intros s t s' t' Hi H; cbn [foldR] in H.
    - injection H as <- <-. cbn. by rewrite !app_nil_r.
    - apply bindR_Ok in H as ([s1 t1] & H1 & H).
      apply release_effect in H1 as (H2 & -> & H3 & H4); [|done]. apply IH in H as (H5 & -> & H6 & H7); [|done].
      injection H2 as P1 P2 P3 P4 P5. split; [|split; [done|split; [|done]]].
      + rewrite H5, P1, P2, P3, P4, P5. done.
      + rewrite H6, H3, P4, <- app_assoc. done.
  Qed.

  Lemma deactivate_fold l : forall t t', foldR deactivate_node t l = Ok t' ->
    same_but_state t t' /\ (forall n, hovered t' n <-> hovered t n) /\ (forall n, focused t' n <-> focused t n) /\ forall n, active t' n <-> active t n /\ n ∉ l.
  Proof.
    induction l as [|n l IH]; intros t t' H; cbn [foldR] in H.
    - injection H as <-. split; [apply sbs_refl|]. split; [done|]. split; [done|]. intros k. rewrite elem_of_nil. tauto.
    - apply bindR_Ok in H as (t1 & H1 & H). unfold deactivate_node in H1. apply bindR_Ok in H1 as (e & He & H1). injection H1 as <-.
      apply get_element_ctx in He. apply IH in H as (I1 & I2 & I3 & I4). split; [eapply sbs_trans; [|exact I1]; by apply put_state_sbs|].
      split; [intros k; rewrite I2; by apply flag_put_same|]. split; [intros k; rewrite I3; by apply flag_put_same|].
      intros k. rewrite I4. unfold active at 1. rewrite flag_put by done. rewrite not_elem_of_cons.
      destruct (decide (k = n)) as [->|Hne]; [cbn; split; [by intros [? _]|tauto]|]. fold (active t k). tauto.
  Qed.

  Lemma on_up_effect b s t s' t' : inv (s, t) -> on_up fmt m tr b (s, t) = Ok (s', t') ->
    (ev_mouse s', ev_under s', ev_action s', ev_drag s', ev_focus s') =
      (ev_mouse s, ev_under s, [], foldl (release_drag t) (ev_drag s) (rev (ev_under s)), ev_focus s) /\
    map call (ev_log s') = map call (ev_log s) ++ up_calls t b (ev_drag s) (rev (ev_under s)) /\ inv (s', t').
  Proof.
    intros Hi H. unfold on_up in H. apply bindR_Ok in H as ([s1 t1] & H1 & H). apply bindR_Ok in H as (t2 & H2 & H). injection H as <- <-.
    apply release_fold in H1 as (R1 & -> & R2 & R3); [|done]. injection R1 as P1 P2 P3 P4 P5. cbn [fst] in *.
    apply deactivate_fold in H2 as (D1 & D2 & D3 & D4). split; [cbn; congruence|]. split; [done|].
    destruct R3 as [L1 L2 L3 L4 L5]. cbn [fst snd] in *. apply inv_intro; cbn [ev_under ev_log ev_action ev_focus ev_drag set].
    - by eapply HI_tree.
    - split; [by eapply sbs_live|]. split; [|split; [by eapply FI_tree|]].
      + intros k. rewrite D4, (L3 k), elem_of_nil. tauto.
      + eapply DI_tree; [|exact L5]. intros k. by apply sbs_some.
  Qed.

  (** ** Keys *)
  Lemma on_key_effect h ev s t s' t' : inv (s, t) -> h ∈ ["onkeydown"; "onkeyup"; "oninput"] -> on_key fmt m tr h ev (s, t) = Ok (s', t') ->
    quiet s s' /\ t' = t /\ map call (ev_log s') = map call (ev_log s) ++ match ev_focus s with Some n => [(n, h)] | None => [] end /\ inv (s', t').
  Proof.
    intros Hi Hh H. unfold on_key in H. destruct (ev_focus s) as [n|] eqn:Ef; [|injection H as <- <-; rewrite app_nil_r; by split].
    apply bindR_Ok in H as (e & He & H). apply bindR_Ok in H as (s1 & H1 & H). injection H as <- <-.
    apply emit_effect in H1 as (Hq & Hl). pose proof Hq as (Q1 & Q2 & Q3 & Q4 & Q5). split; [done|]. split; [done|]. split; [by rewrite Hl, map_app|].
    rewrite !elem_of_cons, elem_of_nil in Hh.
    destruct Hi as [L1 L2 L3 L4 L5]. cbn [fst snd] in *. apply inv_intro.
    - rewrite Q2, Hl. apply HI_log; [|done]. destruct Hh as [-> | [-> | [-> | []]]]; notin.
    - rewrite Q3, Q4, Q5, Hl. split; [done|]. split; [done|]. split; [|apply DI_log; [|done]; destruct Hh as [-> | [-> | [-> | []]]]; notin].
      destruct L4 as [F1 F2]. split; [done|]. rewrite accept_snoc, F2. cbn [mbind option_bind]. unfold focus_rule. cbn [di_handler di_node]. rewrite Ef.
      destruct Hh as [-> | [-> | [-> | []]]]; (rewrite decide_False by done; rewrite decide_True by tauto; rewrite decide_True by done; done).
  Qed.
End steps.
