(** * What input handling does to flags, handler calls and messages. *)
From Coq Require Import ZArith Lia.
From stdpp Require Import gmap.
From RecordUpdate Require Import RecordUpdate.
From Verif Require Import Str F32 Res ResFacts Json PropKey Html Css Element Tree ViewModel Render Update Matching
  Cascade Initial Animation Apply Styling Events View SpecReact SpecLive SpecView SpecEvents FrameFacts LiveFacts LiveUpdate LiveView.

Lemma memb_spec n l : memb n l = true <-> n ∈ l.
Proof.
  unfold memb. rewrite existsb_exists. setoid_rewrite Nat.eqb_eq. rewrite elem_of_list_In. split; [by intros (x & H & ->)|intros; by exists n].
Qed.
Lemma memb_false n l : memb n l = false <-> n ∉ l.
Proof. rewrite <- memb_spec. by destruct (memb n l). Qed.

(** ** Sessions *)
Definition quiet (s s' : Session) : Prop :=
  ev_mouse s' = ev_mouse s /\ ev_under s' = ev_under s /\ ev_action s' = ev_action s /\ ev_drag s' = ev_drag s /\ ev_focus s' = ev_focus s.

Section calls.
  Context (fmt : f64 -> string) (m : json) (tr : Transformers).

  Lemma emit_effect n e h ev s s' : emit fmt m tr n e h ev s = Ok s' ->
    quiet s s' /\ ev_log s' = ev_log s ++ [mkDispatch n h ev].
  Proof.
    unfold emit. intros H. destruct (e_listeners e !! h); inv_ok; done.
  Qed.
  Lemma emit_mouse_effect n e h s s' : emit_mouse fmt m tr n e h s = Ok s' ->
    quiet s s' /\ ev_log s' = ev_log s ++ [mkDispatch n h (mouse_event (ev_mouse s) e)].
  Proof. apply emit_effect. Qed.
End calls.

(** ** Flags *)
Definition st_of (t : Tree) (n : NodeId) : option ElementState := e_state <$> get_ctx t n.
Lemma flag_st f t n : flag f t n <-> exists x, st_of t n = Some x /\ f x = true.
Proof.
  unfold flag, st_of. destruct (get_ctx t n) as [e|]; cbn; split.
  - intros (? & [= <-] & ?). eauto.
  - intros (? & [= <-] & ?). eauto.
  - by intros (? & ? & _).
  - by intros (? & ? & _).
Qed.
Lemma st_of_put n e f t m : get_ctx t n = Some e -> st_of (put_element n (set_state f e) t) m = if decide (m = n) then Some (f (e_state e)) else st_of t m.
Proof.
  intros H. unfold st_of. destruct (decide (m = n)) as [->|Hne].
  - by erewrite get_put_same.
  - by rewrite get_put_ne.
Qed.
Lemma flag_put g n e f t m : get_ctx t n = Some e ->
  flag g (put_element n (set_state f e) t) m <-> if decide (m = n) then g (f (e_state e)) = true else flag g t m.
Proof.
  intros H. rewrite (flag_st g). rewrite st_of_put by done. destruct (decide (m = n)).
  - split; [by intros (? & [= <-] & ?)|eauto].
  - by rewrite flag_st.
Qed.
Lemma flag_put_same g n e f t m : get_ctx t n = Some e -> (forall x, g (f x) = g x) ->
  flag g (put_element n (set_state f e) t) m <-> flag g t m.
Proof.
  intros H Hg. rewrite flag_put by done. destruct (decide (m = n)) as [->|]; [|done]. rewrite Hg. split; [intros; by exists e|].
  intros (e' & He' & ?). congruence.
Qed.
Lemma flag_get g t n e : get_ctx t n = Some e -> flag g t n <-> g (e_state e) = true.
Proof. intros H. split; [intros (e' & ? & ?); congruence|intros; by exists e]. Qed.

(** ** Traces *)
Lemma accept_app {A} (delta : A -> Dispatch -> option A) o l1 l2 : accept delta o (l1 ++ l2) = accept delta (accept delta o l1) l2.
Proof. apply foldl_app. Qed.
Lemma accept_snoc {A} (delta : A -> Dispatch -> option A) o l d : accept delta o (l ++ [d]) = (a ← accept delta o l; delta a d).
Proof. by rewrite accept_app. Qed.

Definition HI (U : list NodeId) (log : list Dispatch) (t : Tree) : Prop :=
  NoDup U /\ (forall n, hovered t n <-> n ∈ U) /\ forall n, accept (hover_rule n) (Some false) log = Some (bool_decide (n ∈ U)).
Definition AI (A : list NodeId) (t : Tree) : Prop := forall n, active t n <-> n ∈ A.
Definition FI (f : option NodeId) (log : list Dispatch) (t : Tree) : Prop :=
  (forall n, focused t n <-> f = Some n) /\ accept focus_rule (Some None) log = Some f.
Definition drag_of (d : option NodeId) : drag_state := match d with None => Idle | Some n => Dragging n end.
Definition DI (d : option NodeId) (log : list Dispatch) (t : Tree) : Prop :=
  (forall n, d = Some n -> is_Some (get_ctx t n)) /\ drag_now log = Some (drag_of d).
Record inv (st : moment) : Prop := {
  iv_live : live (snd st) 0;
  iv_hover : HI (ev_under (fst st)) (ev_log (fst st)) (snd st);
  iv_active : AI (ev_action (fst st)) (snd st);
  iv_focus : FI (ev_focus (fst st)) (ev_log (fst st)) (snd st);
  iv_drag : DI (ev_drag (fst st)) (ev_log (fst st)) (snd st)
}.

Definition hover_handlers : list string := ["onmouseenter"; "onmouseleave"; "onmousemove"].
Definition focus_handlers : list string := ["onfocus"; "onblur"; "onkeydown"; "onkeyup"; "oninput"].
Definition drag_handlers : list string := ["ondragstart"; "ondragenter"; "ondragover"; "ondragleave"; "ondrop"; "ondragend"; "onclick"; "oncontextmenu"].

Lemma hover_rule_other n b d : di_handler d ∉ hover_handlers -> hover_rule n b d = Some b.
Proof.
  unfold hover_handlers, hover_rule. rewrite !not_elem_of_cons. intros (H1 & H2 & H3 & _).
  destruct (decide _); [|done]. by rewrite !decide_False by done.
Qed.
Lemma focus_rule_other f d : di_handler d ∉ focus_handlers -> focus_rule f d = Some f.
Proof.
  unfold focus_handlers, focus_rule. rewrite !not_elem_of_cons. intros (H1 & H2 & H3 & H4 & H5 & _).
  rewrite decide_False by done. rewrite decide_False by tauto. done.
Qed.
Lemma drag_rule_other d x : di_handler d ∉ drag_handlers -> drag_rule (drag_of x) d = Some (drag_of x).
Proof.
  unfold drag_handlers, drag_rule, drag_of. rewrite !not_elem_of_cons. intros (H1 & H2 & H3 & H4 & H5 & H6 & H7 & H8 & _).
  destruct x; rewrite decide_False by done; rewrite decide_False; try done.
  - rewrite decide_False by tauto. done.
  - rewrite !elem_of_cons, elem_of_nil. tauto.
Qed.

Lemma HI_log U log t d : di_handler d ∉ hover_handlers -> HI U log t -> HI U (log ++ [d]) t.
Proof. intros Hd (H1 & H2 & H3). repeat (split; [done|]). intros n. rewrite accept_snoc, H3. cbn. by apply hover_rule_other. Qed.
Lemma HI_tree U log t t' : (forall n, hovered t' n <-> hovered t n) -> HI U log t -> HI U log t'.
Proof. intros Ht (H1 & H2 & H3). repeat (split; [done|]). split; [|done]. intros n. by rewrite Ht. Qed.
Lemma AI_tree A t t' : (forall n, active t' n <-> active t n) -> AI A t -> AI A t'.
Proof. intros Ht H n. by rewrite Ht. Qed.
Lemma FI_log f log t d : di_handler d ∉ focus_handlers -> FI f log t -> FI f (log ++ [d]) t.
Proof. intros Hd (H1 & H2). split; [done|]. rewrite accept_snoc, H2. cbn. by apply focus_rule_other. Qed.
Lemma FI_tree f log t t' : (forall n, focused t' n <-> focused t n) -> FI f log t -> FI f log t'.
Proof. intros Ht (H1 & H2). split; [|done]. intros n. by rewrite Ht. Qed.
Lemma DI_log x log t d : di_handler d ∉ drag_handlers -> DI x log t -> DI x (log ++ [d]) t.
Proof. intros Hd (H1 & H2). split; [done|]. unfold drag_now in *. rewrite accept_snoc, H2. cbn. by apply drag_rule_other. Qed.
Lemma DI_tree x log t t' : (forall n, is_Some (get_ctx t n) -> is_Some (get_ctx t' n)) -> DI x log t -> DI x log t'.
Proof. intros Ht (H1 & H2). split; [|done]. intros n Hn. by apply Ht, H1. Qed.

Lemma sbs_live t t' : same_but_state t t' -> live t 0 -> live t' 0.
Proof. intros H. apply shown_live. by apply content_shown, sbs_same. Qed.
Lemma sbs_some t t' n : same_but_state t t' -> is_Some (get_ctx t n) -> is_Some (get_ctx t' n).
Proof. intros H [e He]. destruct (sbs_ctx _ _ _ _ H He) as (e' & H' & _). by exists e'. Qed.


(** ** Mouse moves *)
Definition HP (Q : NodeId -> Prop) (log : list Dispatch) (t : Tree) : Prop :=
  forall n, (hovered t n <-> Q n) /\ exists b : bool, accept (hover_rule n) (Some false) log = Some b /\ (b = true <-> Q n).
Lemma HI_HP U log t : HI U log t -> HP (fun n => n ∈ U) log t.
Proof. intros (_ & H1 & H2) n. split; [done|]. eexists. split; [done|]. apply bool_decide_eq_true. Qed.
Lemma HP_HI U log t : NoDup U -> HP (fun n => n ∈ U) log t -> HI U log t.
Proof.
  intros Hn H. split; [done|]. split; [intros; apply H|]. intros n. destruct (H n) as [_ (b & -> & Hb)]. f_equal.
  symmetry. destruct b; [apply bool_decide_eq_true; tauto|apply bool_decide_eq_false]. intros Hin. apply Hb in Hin. done.
Qed.
Lemma HP_ext (Q Q' : NodeId -> Prop) log t : (forall n, Q n <-> Q' n) -> HP Q log t -> HP Q' log t.
Proof. intros Hq H n. destruct (H n) as (H1 & b & H2 & H3). split; [by rewrite <- Hq|]. exists b. by rewrite <- Hq. Qed.
Lemma HP_log Q log t d : di_handler d ∉ hover_handlers -> HP Q log t -> HP Q (log ++ [d]) t.
Proof. intros Hd H n. destruct (H n) as (H1 & b & H2 & H3). split; [done|]. exists b. rewrite accept_snoc, H2. cbn. by rewrite hover_rule_other. Qed.

Definition others (A : list NodeId) (f d : option NodeId) (log : list Dispatch) (t : Tree) : Prop :=
  live t 0 /\ AI A t /\ FI f log t /\ DI d log t.

Lemma others_log A f d log t c : di_handler c ∉ focus_handlers ->
  (di_handler c ∉ drag_handlers \/ (d <> None /\ di_handler c ∈ ["ondragenter"; "ondragover"; "ondragleave"])) ->
  others A f d log t -> others A f d (log ++ [c]) t.
Proof.
  intros Hf Hd (H1 & H2 & H3 & H4). repeat (split; [done|]). split; [by apply FI_log|].
  destruct Hd as [Hd|[Hd Hc]]; [by apply DI_log|]. destruct H4 as [H4 H5]. split; [done|].
  unfold drag_now in *. rewrite accept_snoc, H5. destruct d as [source|]; [|done]. cbn.
  rewrite !elem_of_cons, elem_of_nil in Hc.
  destruct Hc as [-> | [-> | [-> | []]]]; done.
Qed.
Lemma others_hover A f d log t n e b : others A f d log t -> get_ctx t n = Some e ->
  others A f d log (put_element n (set_state (fun x => x <| st_hover := b |>) e) t).
Proof.
  intros (H1 & H2 & H3 & H4) He.
  assert (Hs : same_but_state t (put_element n (set_state (fun x => x <| st_hover := b |>) e) t)) by by apply put_state_sbs.
  split; [by eapply sbs_live|]. split; [|split].
  - eapply AI_tree; [|exact H2]. intros k. by apply flag_put_same.
  - eapply FI_tree; [|exact H3]. intros k. by apply flag_put_same.
  - eapply DI_tree; [|exact H4]. intros k. by apply sbs_some.
Qed.

Ltac notin := cbn [di_handler]; match goal with |- ?P => apply (@bool_decide_unpack P _) end; vm_compute; exact I.

Definition drag_call (s : Session) (n : NodeId) (h : string) : list (NodeId * string) :=
  match ev_drag s with Some _ => [(n, h)] | None => [] end.

Section moves.
  Context (fmt : f64 -> string) (m : json) (tr : Transformers).

  Lemma when_drag_effect n e h s s' A f t : when_drag s (emit_mouse fmt m tr n e h) = Ok s' ->
    h ∈ ["ondragenter"; "ondragover"; "ondragleave"] ->
    quiet s s' /\ map call (ev_log s') = map call (ev_log s) ++ drag_call s n h /\
    (forall Q, HP Q (ev_log s) t -> HP Q (ev_log s') t) /\
    (others A f (ev_drag s) (ev_log s) t -> others A f (ev_drag s) (ev_log s') t).
  Proof.
    unfold when_drag, drag_call. intros H Hh. destruct (ev_drag s) eqn:Ed.
    - apply emit_mouse_effect in H as (Hq & Hl). split; [done|]. rewrite Hl, map_app. split; [done|].
      rewrite !elem_of_cons, elem_of_nil in Hh. split.
      + intros Q. apply HP_log. destruct Hh as [-> | [-> | [-> | []]]]; notin.
      + apply others_log; [destruct Hh as [-> | [-> | [-> | []]]]; notin|]. right. split; [done|]. cbn. by rewrite !elem_of_cons, elem_of_nil.
    - injection H as <-. rewrite app_nil_r. repeat (split; [done|]). done.
  Qed.

  Definition leave_calls (s : Session) (U : list NodeId) (n : NodeId) : list (NodeId * string) :=
    if decide (n ∈ U) then [] else (n, "onmouseleave") :: drag_call s n "ondragleave".
  Definition move_calls (s : Session) (P : list NodeId) (n : NodeId) : list (NodeId * string) :=
    (if decide (n ∈ P) then [] else (n, "onmouseenter") :: drag_call s n "ondragenter") ++
    (n, "onmousemove") :: drag_call s n "ondragover".

  Lemma leave_effect s t n s' t' Q A f : leave_node fmt m tr (s, t) n = Ok (s', t') -> HP Q (ev_log s) t -> Q n ->
    others A f (ev_drag s) (ev_log s) t ->
    quiet s s' /\ map call (ev_log s') = map call (ev_log s) ++ leave_calls s (ev_under s) n /\
    HP (fun k => Q k /\ (k = n -> k ∈ ev_under s)) (ev_log s') t' /\ others A f (ev_drag s) (ev_log s') t'.
  Proof.
    intros H Hh Hn Ho. unfold leave_node in H. unfold leave_calls. destruct (memb n (ev_under s)) eqn:Em.
    - apply memb_spec in Em. injection H as <- <-. rewrite decide_True by done. rewrite app_nil_r.
      repeat (split; [done|]). split; [|done]. eapply HP_ext; [|exact Hh]. intros k. cbn. split; [|tauto]. intros Hk. split; [done|]. by intros ->.
    - apply memb_false in Em. apply bindR_Ok in H as (e & He & H). apply get_element_ctx in He.
      apply bindR_Ok in H as (s1 & H1 & H). apply bindR_Ok in H as (s2 & H2 & H). injection H as <- <-.
      apply emit_mouse_effect in H1 as (Hq1 & Hl1). rewrite decide_False by done.
      set (t' := put_element _ _ _). 
      assert (Hd1 : ev_drag s1 = ev_drag s) by apply Hq1.
      assert (HP1 : HP (fun k => Q k /\ (k = n -> k ∈ ev_under s)) (ev_log s1) t').
      { intros k. specialize (Hh k). destruct Hh as (Hf & b & Hb & Hbq). unfold t', hovered. rewrite flag_put by done. rewrite Hl1, accept_snoc, Hb. cbn [mbind option_bind].
        unfold hover_rule. cbn [di_node di_handler]. destruct (decide (k = n)) as [->|Hne].
        - rewrite (decide_True _ _ (eq_refl : n = n)). cbn. split; [split; [done|intros [_ H]; exfalso; by apply Em, H]|].
          destruct b; [|exfalso; assert (false = true) by tauto; done]. exists false. split; [done|]. split; [done|]. intros [_ H]. exfalso; by apply Em, H.
        - rewrite (decide_False (P := n = k)) by congruence. split; [unfold hovered in Hf; rewrite Hf; tauto|]. exists b. split; [done|]. rewrite Hbq. tauto. }
      assert (Ho1 : others A f (ev_drag s1) (ev_log s1) t').
      { rewrite Hd1, Hl1. apply others_log; [notin|left; notin|]. by apply others_hover. }
      eapply (when_drag_effect _ _ _ _ _ A f t') in H2 as (Hq2 & Hl2 & HP2 & Ho2); [|set_solver].
      split; [|split; [|split]].
      + unfold quiet in *. intuition congruence.
      + rewrite Hl2, Hl1, map_app, <- app_assoc. unfold drag_call. by rewrite Hd1.
      + by apply HP2.
      + rewrite <- Hd1. by apply Ho2.
  Qed.

  Lemma leave_fold l : forall s t s' t' Q A f, foldR (leave_node fmt m tr) (s, t) l = Ok (s', t') -> NoDup l ->
    HP Q (ev_log s) t -> (forall n, n ∈ l -> Q n) -> others A f (ev_drag s) (ev_log s) t ->
    quiet s s' /\ map call (ev_log s') = map call (ev_log s) ++ flat_map (leave_calls s (ev_under s)) l /\
    HP (fun k => Q k /\ (k ∈ l -> k ∈ ev_under s)) (ev_log s') t' /\ others A f (ev_drag s) (ev_log s') t'.
  Proof.
    induction l as [|n l IH]; intros s t s' t' Q A f H Hnd Hh Hl Ho; cbn [foldR] in H.
    - injection H as <- <-. cbn. rewrite app_nil_r. repeat (split; [done|]). split; [|done]. eapply HP_ext; [|exact Hh]. intros k. cbn.
      split; [|tauto]. intros. split; [done|]. by intros ?%elem_of_nil.
    - apply bindR_Ok in H as ([s1 t1] & H1 & H). apply list.NoDup_cons in Hnd as [Hn Hnd].
      apply (leave_effect _ _ _ _ _ Q A f) in H1 as (Hq1 & Hl1 & HP1 & Ho1); [|done|apply Hl; by left|done].
      pose proof Hq1 as (_ & Hu1 & _ & Hd1 & _). rewrite <- Hd1 in Ho1.
      eapply IH in H as (Hq2 & Hl2 & HP2 & Ho2); [|done|exact HP1| |exact Ho1].
      + split; [unfold quiet in *; intuition congruence|]. split; [|split].
        * rewrite Hl2, Hl1, Hu1, <- app_assoc. cbn. do 2 f_equal. apply flat_map_ext. intros k. unfold leave_calls, drag_call. by rewrite Hd1.
        * eapply HP_ext; [|exact HP2]. intros k. cbn. rewrite elem_of_cons, Hu1. tauto.
        * by rewrite <- Hd1.
      + intros k Hk. cbn. split; [apply Hl; by right|]. intros ->. done.
  Qed.

  Lemma move_effect P s t n s' t' Q A f : move_node fmt m tr P (s, t) n = Ok (s', t') -> HP Q (ev_log s) t ->
    (n ∈ P -> Q n) -> (n ∉ P -> ~ Q n) -> others A f (ev_drag s) (ev_log s) t ->
    quiet s s' /\ map call (ev_log s') = map call (ev_log s) ++ move_calls s P n /\
    HP (fun k => Q k \/ k = n) (ev_log s') t' /\ others A f (ev_drag s) (ev_log s') t'.
  Proof.
    intros H Hh Hn1 Hn2 Ho. unfold move_node in H. apply bindR_Ok in H as ([s1 t1] & H1 & H).
    assert (Hstep : quiet s s1 /\ map call (ev_log s1) = map call (ev_log s) ++ (if decide (n ∈ P) then [] else (n, "onmouseenter") :: drag_call s n "ondragenter") /\
      HP (fun k => Q k \/ k = n) (ev_log s1) t1 /\ others A f (ev_drag s) (ev_log s1) t1).
    { destruct (memb n P) eqn:Em.
      - apply memb_spec in Em. injection H1 as <- <-. rewrite decide_True by done. rewrite app_nil_r.
        repeat (split; [done|]). split; [|done]. eapply HP_ext; [|exact Hh]. intros k. cbn. split; [tauto|]. intros [?| ->]; [done|]. by apply Hn1.
      - apply memb_false in Em. apply bindR_Ok in H1 as (e & He & H1). apply get_element_ctx in He.
        apply bindR_Ok in H1 as (s2 & H2 & H1). apply bindR_Ok in H1 as (s3 & H3 & H1). injection H1 as <- <-.
        apply emit_mouse_effect in H2 as (Hq1 & Hl1). rewrite decide_False by done. specialize (Hn2 Em).
        set (tp := put_element _ _ _) in *.
        assert (Hd1 : ev_drag s2 = ev_drag s) by apply Hq1.
        assert (HP1 : HP (fun k => Q k \/ k = n) (ev_log s2) tp).
        { intros k. specialize (Hh k). destruct Hh as (Hf & b & Hb & Hbq). unfold tp, hovered. rewrite flag_put by done. rewrite Hl1, accept_snoc, Hb. cbn [mbind option_bind].
          unfold hover_rule. cbn [di_node di_handler]. destruct (decide (k = n)) as [->|Hne].
          - rewrite (decide_True _ _ (eq_refl : n = n)). cbn. split; [tauto|].
            destruct b; [exfalso; tauto|]. exists true. split; [done|]. tauto.
          - rewrite (decide_False (P := n = k)) by congruence. split; [unfold hovered in Hf; rewrite Hf; tauto|]. exists b. split; [done|]. rewrite Hbq. tauto. }
        assert (Ho1 : others A f (ev_drag s2) (ev_log s2) tp).
        { rewrite Hd1, Hl1. apply others_log; [notin|left; notin|]. by apply others_hover. }
        eapply (when_drag_effect _ _ _ _ _ A f tp) in H3 as (Hq2 & Hl2 & HP2 & Ho2); [|set_solver].
        split; [unfold quiet in *; intuition congruence|]. split; [|split].
        + rewrite Hl2, Hl1, map_app, <- app_assoc. unfold drag_call. by rewrite Hd1.
        + by apply HP2.
        + rewrite <- Hd1. by apply Ho2. }
    clear H1. destruct Hstep as (Hq1 & Hl1 & HP1 & Ho1). apply bindR_Ok in H as (e & He & H).
    apply bindR_Ok in H as (s2 & H2 & H). apply bindR_Ok in H as (s3 & H3 & H). injection H as <- <-.
    apply emit_mouse_effect in H2 as (Hq2 & Hl2).
    assert (Hd1 : ev_drag s2 = ev_drag s) by (unfold quiet in *; intuition congruence).
    assert (HP2 : HP (fun k => Q k \/ k = n) (ev_log s2) t1).
    { intros k. specialize (HP1 k). destruct HP1 as (Hf & b & Hb & Hbq). split; [done|]. rewrite Hl2, accept_snoc, Hb. cbn [mbind option_bind].
      unfold hover_rule. cbn [di_node di_handler]. destruct (decide (n = k)) as [->|Hne]; [|eauto]. cbn.
      destruct b; [|exfalso; assert (false = true) by tauto; done]. eauto. }
    assert (Ho2 : others A f (ev_drag s2) (ev_log s2) t1).
    { rewrite Hd1, Hl2. apply others_log; [notin|left; notin|]. done. }
    eapply (when_drag_effect _ _ _ _ _ A f t1) in H3 as (Hq3 & Hl3 & HP3 & Ho3); [|set_solver].
    split; [unfold quiet in *; intuition congruence|]. split; [|split].
    - rewrite Hl3, Hl2, map_app, Hl1. unfold move_calls, drag_call. rewrite <- !app_assoc, Hd1. done.
    - by apply HP3.
    - rewrite <- Hd1. by apply Ho3.
  Qed.

  Lemma move_fold P l : forall s t s' t' Q A f, foldR (move_node fmt m tr P) (s, t) l = Ok (s', t') -> NoDup l ->
    HP Q (ev_log s) t -> (forall n, n ∈ l -> n ∈ P -> Q n) -> (forall n, n ∈ l -> n ∉ P -> ~ Q n) -> others A f (ev_drag s) (ev_log s) t ->
    quiet s s' /\ map call (ev_log s') = map call (ev_log s) ++ flat_map (move_calls s P) l /\
    HP (fun k => Q k \/ k ∈ l) (ev_log s') t' /\ others A f (ev_drag s) (ev_log s') t'.
  Proof.
    induction l as [|n l IH]; intros s t s' t' Q A f H Hnd Hh Hl1 Hl2 Ho; cbn [foldR] in H.
    - injection H as <- <-. cbn. rewrite app_nil_r. repeat (split; [done|]). split; [|done]. eapply HP_ext; [|exact Hh]. intros k. cbn.
      rewrite elem_of_nil. tauto.
    - apply bindR_Ok in H as ([s1 t1] & H1 & H). apply list.NoDup_cons in Hnd as [Hn Hnd].
      apply (move_effect _ _ _ _ _ _ Q A f) in H1 as (Hq1 & Hc1 & HP1 & Ho1); [|done|apply Hl1; by left|apply Hl2; by left|done].
      pose proof Hq1 as (_ & Hu1 & _ & Hd1 & _). rewrite <- Hd1 in Ho1.
      eapply IH in H as (Hq2 & Hc2 & HP2 & Ho2); [|done|exact HP1| | |exact Ho1].
      + split; [unfold quiet in *; intuition congruence|]. split; [|split].
        * rewrite Hc2, Hc1, <- app_assoc. cbn. do 2 f_equal. apply flat_map_ext. intros k. unfold move_calls, drag_call. by rewrite Hd1.
        * eapply HP_ext; [|exact HP2]. intros k. cbn. rewrite elem_of_cons. tauto.
        * by rewrite <- Hd1.
      + intros k Hk HkP. left. apply Hl1; [by right|done].
      + intros k Hk HkP [Hq| ->]; [|done]. apply (Hl2 k); [by right|done|done].
  Qed.
End moves.
