(** * What events tell about the state of their element. *)
From Coq Require Import ZArith Reals Lia.
From stdpp Require Import gmap.
From RecordUpdate Require Import RecordUpdate.
From Verif Require Import Str F32 FloatFacts Res ResFacts Json PropKey Html Css Element Tree ViewModel Render Update Matching
  Cascade Initial Animation Apply Styling Events View SpecReact SpecLive SpecView SpecEvents SpecTold
  FrameFacts LiveFacts LiveUpdate LiveView EventFacts EventPage EventSteps EventFrame EventSay EventHistory EventProps EventMore EventOut EventBox.
From Flocq Require Import Core.Core IEEE754.BinarySingleNaN.
Close Scope R_scope.

(** ** Numbers *)
Lemma widen_exact (f : f32) : is_finite f = true -> is_finite (f64_of_f32 f) = true /\ B2R (f64_of_f32 f) = B2R f.
Proof.
  destruct f as [s|s| |s m e H]; cbn [is_finite]; intros Hf; try discriminate Hf; [by split|].
  set (f := B754_finite s m e H). unfold f64_of_f32, f.
  pose proof (binary_normalize_correct 53 1024 f64_prec f64_emax mode_NE (cond_Zopp s (Zpos m)) e s) as Hb.
  cbv zeta in Hb. cbn [round_mode] in Hb. 
  assert (E : F2R (Float radix2 (cond_Zopp s (Zpos m)) e) = B2R f) by reflexivity.
  rewrite E in Hb.
  assert (Hg : generic_format radix2 (SpecFloat.fexp 53 1024) (B2R f)).
  { pose proof (generic_format_B2R 24 128 f) as G. revert G. apply generic_inclusion_mag. intros _. unfold SpecFloat.fexp, SpecFloat.emin. lia. }
  rewrite round_generic in Hb; [|apply valid_rnd_N|exact Hg].
  rewrite Rlt_bool_true in Hb. { destruct Hb as (H1 & H2 & _). by split. }
  eapply Rlt_trans; [apply (abs_B2R_lt_emax 24 128)|]. apply bpow_lt. lia.
Qed.
Lemma number_json (f : f32) : number_told f (json_f32 f).
Proof.
  unfold json_f32. destruct (f32_finite f) eqn:E.
  - destruct (widen_exact f E). by constructor.
  - by constructor.
Qed.
Lemma pair_json v : exists a b, json_vec v = JArr [a; b] /\ number_told (fst v) a /\ number_told (snd v) b.
Proof. do 2 eexists. split; [done|]. split; apply number_json. Qed.

(** ** States *)
Definition near (ev : InputEvent) (a b : ElementState) : Prop :=
  st_checked b = st_checked a /\
  match ev with
  | IMouseMove _ => st_active b = st_active a /\ st_focus b = st_focus a
  | IMouseButtonDown _ => st_hover b = st_hover a
  | _ => b = a
  end.
Lemma near_refl ev a : near ev a a.
Proof. split; [done|]. by destruct ev. Qed.
Definition nearby (ev : InputEvent) (t0 t : Tree) : Prop :=
  forall n e, get_ctx t n = Some e -> exists e0, get_ctx t0 n = Some e0 /\ near ev (e_state e0) (e_state e).
Lemma nearby_refl ev t : nearby ev t t.
Proof. intros n e H. exists e. split; [done|]. apply near_refl. Qed.
Lemma nearby_put ev t0 t n e f : nearby ev t0 t -> get_ctx t n = Some e -> (forall a, near ev a (e_state e) -> near ev a (f (e_state e))) ->
  nearby ev t0 (put_element n (set_state f e) t).
Proof.
  intros Hn He Hf k e' H. destruct (decide (k = n)) as [->|Hne].
  - erewrite get_put_same in H by exact He. injection H as <-. destruct (Hn n e He) as (e0 & H0 & H1). exists e0. split; [done|]. by apply Hf.
  - rewrite get_put_ne in H by done. by apply Hn.
Qed.

Definition honest (ev : InputEvent) (t0 : Tree) (d : Dispatch) : Prop :=
  exists e now, get_ctx t0 (di_node d) = Some e /\ flags_told (di_event d) now /\ state_told ev (di_handler d) (e_state e) now.
Definition said (ev : InputEvent) (t0 : Tree) (s s' : Session) : Prop :=
  exists new, ev_log s' = ev_log s ++ new /\ Forall (honest ev t0) new.
Lemma said_same ev t0 s s' : ev_log s' = ev_log s -> said ev t0 s s'.
Proof. intros E. exists []. by rewrite app_nil_r. Qed.
Lemma said_trans ev t0 a b c : said ev t0 a b -> said ev t0 b c -> said ev t0 a c.
Proof. intros (n1 & E1 & H1) (n2 & E2 & H2). exists (n1 ++ n2). rewrite E2, E1, app_assoc. split; [done|]. by apply Forall_app. Qed.

Section told.
  Context (fmt : f64 -> string) (m : json) (tr : Transformers) (t0 : Tree).

  Lemma emit_said ev n e0 e h j s s' : get_ctx t0 n = Some e0 -> flags_told j (e_state e) -> state_told ev h (e_state e0) (e_state e) ->
    emit fmt m tr n e h j s = Ok s' -> said ev t0 s s'.
  Proof.
    intros H0 Hj Hs H. apply emit_says in H as (Hl & _). exists [mkDispatch n h j]. split; [done|]. constructor; [|constructor].
    exists e0, (e_state e). done.
  Qed.
  Lemma mouse_said ev n e0 e h s s' : get_ctx t0 n = Some e0 -> state_told ev h (e_state e0) (e_state e) -> emit_mouse fmt m tr n e h s = Ok s' -> said ev t0 s s'.
  Proof. intros H0 Hs H. eapply emit_said; [exact H0| |exact Hs|exact H]. by repeat split. Qed.
  Lemma drag_said ev n e0 e h s s' : get_ctx t0 n = Some e0 -> state_told ev h (e_state e0) (e_state e) -> when_drag s (emit_mouse fmt m tr n e h) = Ok s' -> said ev t0 s s'.
  Proof. unfold when_drag. intros H0 Hs H. destruct (ev_drag s); [by eapply mouse_said|]. injection H as <-. by apply said_same. Qed.

  (** *** Moves *)
  Section move.
    Context (p : vec2) (P U : list NodeId).
    Notation ev := (IMouseMove p).
    Definition over (t : Tree) : Prop := nearby ev t0 t /\ forall n, n ∈ P -> n ∈ U -> hovered t n.
    Lemma leave_said s t n s' t' : over t -> ev_under s = U -> leave_node fmt m tr (s, t) n = Ok (s', t') -> said ev t0 s s' /\ over t' /\ ev_under s' = U.
    Proof.
      intros (Hn & Ho) HU H. unfold leave_node in H. destruct (memb n (ev_under s)) eqn:Em; [injection H as <- <-; split; [by apply said_same|done]|].
      apply memb_false in Em. rewrite HU in Em.
      apply bindR_Ok in H as (e & He & H). apply get_element_ctx in He. apply bindR_Ok in H as (s1 & H1 & H). apply bindR_Ok in H as (s2 & H2 & H). injection H as <- <-.
      destruct (Hn n e He) as (e0 & H0 & Hc & Ha & Hf).
      assert (Hst : forall h, h = "onmouseleave" \/ h = "ondragleave" -> state_told ev h (e_state e0) (e_state (set_state (fun x => x <| st_hover := false |>) e))).
      { intros h Hh. split; [done|]. split; [done|]. split; [done|]. cbn. split; [done|]. destruct Hh as [-> | ->]; tauto. }
      split; [|split; [split|]].
      - eapply said_trans; [eapply mouse_said; [exact H0| |exact H1]|eapply drag_said; [exact H0| |exact H2]]; apply Hst; tauto.
      - apply nearby_put; [done|done|]. intros a Hx. exact Hx.
      - intros k HkP HkU. unfold hovered. rewrite flag_put by done. destruct (decide (k = n)) as [->|]; [done|]. by apply Ho.
      - apply emit_effect in H1 as ((_ & E1 & _) & _). unfold when_drag in H2. destruct (ev_drag s1); [apply emit_effect in H2 as ((_ & E2 & _) & _)|injection H2 as <-]; congruence.
    Qed.
    Lemma move_said s t n s' t' : over t -> ev_under s = U -> n ∈ U -> move_node fmt m tr P (s, t) n = Ok (s', t') -> said ev t0 s s' /\ over t' /\ ev_under s' = U.
    Proof.
      intros (Hn & Ho) HU HnU H. unfold move_node in H. apply bindR_Ok in H as ([s1 t1] & H1 & H).
      assert (Hs : said ev t0 s s1 /\ over t1 /\ ev_under s1 = U /\ hovered t1 n).
      { destruct (memb n P) eqn:Em.
        { injection H1 as <- <-. split; [by apply said_same|]. split; [done|]. split; [done|]. apply Ho; [by apply memb_spec|done]. }
        apply bindR_Ok in H1 as (e & He & H1). apply get_element_ctx in He. apply bindR_Ok in H1 as (s2 & H2 & H1). apply bindR_Ok in H1 as (s3 & H3 & H1). injection H1 as <- <-.
        destruct (Hn n e He) as (e0 & H0 & Hc & Ha & Hf).
        assert (Hst : forall h, h = "onmouseenter" \/ h = "ondragenter" -> state_told ev h (e_state e0) (e_state (set_state (fun x => x <| st_hover := true |>) e))).
        { intros h Hh. split; [done|]. split; [done|]. split; [done|]. cbn. split; [|done]. intros _. by destruct Hh as [-> | ->]. }
        split; [|split; [split|split]].
        - eapply said_trans; [eapply mouse_said; [exact H0| |exact H2]|eapply drag_said; [exact H0| |exact H3]]; apply Hst; tauto.
        - apply nearby_put; [done|done|]. intros a Hx. exact Hx.
        - intros k HkP HkU. unfold hovered. rewrite flag_put by done. destruct (decide (k = n)) as [->|]; [done|]. by apply Ho.
        - apply emit_effect in H2 as ((_ & E1 & _) & _). unfold when_drag in H3. destruct (ev_drag s2); [apply emit_effect in H3 as ((_ & E2 & _) & _)|injection H3 as <-]; congruence.
        - unfold hovered. rewrite flag_put by done. by rewrite decide_True. }
      destruct Hs as (Hs & Ho1 & HU1 & Hh). apply bindR_Ok in H as (e & He & H). apply get_element_ctx in He.
      apply bindR_Ok in H as (s2 & H2 & H). apply bindR_Ok in H as (s3 & H3 & H). injection H as <- <-.
      destruct (proj1 Ho1 n e He) as (e0 & H0 & Hc & Ha & Hf). apply (flag_get _ _ _ _ He) in Hh.
      assert (Hst : forall h, h = "onmousemove" \/ h = "ondragover" -> state_told ev h (e_state e0) (e_state e)).
      { intros h Hk. split; [done|]. split; [done|]. split; [done|]. split; [|done]. intros _. by destruct Hk as [-> | ->]. }
      split; [|split; [done|]].
      - eapply said_trans; [exact Hs|]. eapply said_trans; [eapply mouse_said; [exact H0| |exact H2]|eapply drag_said; [exact H0| |exact H3]]; apply Hst; tauto.
      - apply emit_effect in H2 as ((_ & E1 & _) & _). unfold when_drag in H3. destruct (ev_drag s2); [apply emit_effect in H3 as ((_ & E2 & _) & _)|injection H3 as <-]; congruence.
    Qed.
  End move.

  (** *** Presses *)
  Section press.
    Context (b : MouseButton).
    Notation ev := (IMouseButtonDown b).
    Lemma blur_said g s t s' t' : nearby ev t0 t -> blur fmt m tr g (s, t) = Ok (s', t') -> said ev t0 s s' /\ nearby ev t0 t'.
    Proof.
      intros Hn H. unfold blur in H. apply bindR_Ok in H as (e & He & H). apply get_element_ctx in He.
      apply bindR_Ok in H as (s1 & H1 & H). injection H as <- <-. destruct (Hn g e He) as (e0 & H0 & Hc & Hh). split.
      - eapply said_trans; [apply (said_same ev t0 s (s <| ev_focus := None |>)); done|]. eapply mouse_said; [exact H0| |exact H1].
        split; [done|]. split; [done|]. done.
      - apply nearby_put; [done|done|]. intros a Hx. exact Hx.
    Qed.
    Lemma blur_active g s t s' t' n : blur fmt m tr g (s, t) = Ok (s', t') -> active t n -> active t' n.
    Proof.
      intros H Ha. unfold blur in H. apply bindR_Ok in H as (e & He & H). apply get_element_ctx in He. apply bindR_Ok in H as (s1 & H1 & H). injection H as <- <-.
      unfold active. by apply (flag_put_same st_active g e (fun x => x <| st_focus := false |>) t n He).
    Qed.
    Lemma press_said s t n s' t' : nearby ev t0 t -> press_node fmt m tr b (s, t) n = Ok (s', t') -> said ev t0 s s' /\ nearby ev t0 t'.
    Proof.
      intros Hn H. unfold press_node in H. apply bindR_Ok in H as (e & He & H). apply get_element_ctx in He.
      apply bindR_Ok in H as ([s1 t1] & H1 & H).
      assert (Hn1 : nearby ev t0 (put_element n (set_state (fun x => x <| st_active := true |>) e) t)).
      { apply nearby_put; [done|done|]. intros a Hx. exact Hx. }
      assert (Ha1 : active (put_element n (set_state (fun x => x <| st_active := true |>) e) t) n).
      { unfold active. rewrite flag_put by done. by rewrite decide_True. }
      assert (Hs : said ev t0 s s1 /\ nearby ev t0 t1 /\ active t1 n).
      { match type of H1 with match ?o with _ => _ end = _ => destruct o end.
        2: { injection H1 as <- <-. split; [by apply said_same|done]. }
        apply bindR_Ok in H1 as ([s3 t3] & H3 & H1).
        assert (Hs3 : said ev t0 s s3 /\ nearby ev t0 t3 /\ active t3 n).
        { cbn [ev_focus set] in H3. destruct (ev_focus s).
          - destruct (Nat.eqb _ _).
            + injection H3 as <- <-. split; [by apply said_same|done].
            + pose proof (blur_active _ _ _ _ _ n H3 Ha1) as Ha3. apply blur_said in H3 as (E1 & E2); [|done]. split; [|done].
              eapply said_trans; [|exact E1]. by apply said_same.
          - injection H3 as <- <-. split; [by apply said_same|done]. }
        destruct Hs3 as (Hs3 & Hg3 & Ha3). destruct (ev_focus s3); [destruct (Nat.eqb _ _); by injection H1 as <- <-|].
        apply bindR_Ok in H1 as (e3 & He3 & H1). apply get_element_ctx in He3. destruct (Hg3 n e3 He3) as (e0 & H0 & Hc & Hh).
        apply bindR_Ok in H1 as (s4 & H4 & H1). injection H1 as <- <-. pose proof (proj1 (flag_get _ _ _ _ He3) Ha3) as Ha4. split; [|split].
        - eapply said_trans; [exact Hs3|]. eapply said_trans; [apply (said_same ev t0 s3 (s3 <| ev_focus := Some n |>)); done|].
          eapply mouse_said; [exact H0| |exact H4]. split; [done|]. split; [done|]. done.
        - apply nearby_put; [done|done|]. intros a Hx. exact Hx.
        - unfold active. by apply (flag_put_same st_active n e3 (fun x => x <| st_focus := true |>) t3 n He3). }
      destruct Hs as (Hs & Hgt1 & Ha). apply bindR_Ok in H as (e2 & He2 & H). apply get_element_ctx in He2. destruct (Hgt1 n e2 He2) as (e0 & H0 & Hc & Hh).
      apply (flag_get _ _ _ _ He2) in Ha. apply bindR_Ok in H as (s2 & H2 & H).
      assert (Hst : forall h, h = "onmousedown" \/ h = "ondragstart" -> state_told ev h (e_state e0) (e_state e2)).
      { intros h Hk. split; [done|]. split; [done|]. split; [|split; [|done]]; by destruct Hk as [-> | ->]. }
      assert (Hs2 : said ev t0 s s2) by (eapply said_trans; [exact Hs|eapply mouse_said; [exact H0| |exact H2]; apply Hst; tauto]).
      destruct (_ && _); [|by injection H as <- <-]. apply bindR_Ok in H as (s4 & H4 & H). injection H as <- <-. split; [|done].
      eapply said_trans; [exact Hs2|]. eapply said_trans; [eapply mouse_said; [exact H0| |exact H4]; apply Hst; tauto|]. by apply said_same.
    Qed.
  End press.

  (** *** Releases and keys *)
  Lemma release_said b s n s' t' : release_node fmt m tr b (s, t0) n = Ok (s', t') -> said (IMouseButtonUp b) t0 s s' /\ t' = t0.
  Proof.
    intros H. unfold release_node in H. apply bindR_Ok in H as (e & He & H). apply get_element_ctx in He. apply bindR_Ok in H as (s1 & H1 & H).
    assert (Hst : forall k e, (k = "onclick" -> st_active (e_state e) = true) -> state_told (IMouseButtonUp b) k (e_state e) (e_state e)) by (intros k e1 Hk; split; [done|]; by split).
    assert (Hs1 : said (IMouseButtonUp b) t0 s s1) by ((eapply mouse_said; [exact He| |exact H1]; by apply Hst)).
    destruct (ev_drag s1) as [source|].
    - destruct (_ !! _); [|injection H as <- <-; by split]. apply bindR_Ok in H as (s2 & H2 & H).
      apply bindR_Ok in H as (e2 & He2 & H). apply get_element_ctx in He2. apply bindR_Ok in H as (s4 & H4 & H). injection H as <- <-. split; [|done].
      eapply said_trans; [exact Hs1|]. eapply said_trans; [(eapply mouse_said; [exact He| |exact H2]; by apply Hst)|].
      eapply said_trans; [apply (said_same _ t0 s2 (s2 <| ev_drag := None |>)); done|]. (eapply mouse_said; [exact He2| |exact H4]; by apply Hst).
    - apply bindR_Ok in H as (s2 & H2 & H). apply bindR_Ok in H as (s3 & H3 & H). injection H as <- <-. split; [|done].
      eapply said_trans; [exact Hs1|]. eapply said_trans.
      + destruct (is_left b && st_active (e_state e)) eqn:Ea; [|injection H2 as <-; by apply said_same]. apply andb_true_iff in Ea as (_ & Ea).
        eapply mouse_said; [exact He| |exact H2]; apply Hst; by intros _.
      + destruct (is_right b); [|injection H3 as <-; by apply said_same]. (eapply mouse_said; [exact He| |exact H3]; by apply Hst).
  Qed.
End told.

Lemma event_said fmt depth m tr body st ev st' : inv st -> handle_event fmt depth m tr body st ev = Ok st' -> said ev (snd st) (fst st) (fst st').
Proof.
  destruct st as [s t0], st' as [s' t']. cbn [fst snd]. intros Hi H.
  assert (Hkey : forall h (j : Element -> json), (match ev with IKeyDown _ | IKeyUp _ | IChar _ => True | _ => False end) ->
    (forall e, flags_told (j e) (e_state e)) -> on_key fmt m tr h j (s, t0) = Ok (s', t') -> said ev t0 s s').
  { intros h j Hev Hj Hk. unfold on_key in Hk. destruct (ev_focus s) as [n|] eqn:Ef; [|injection Hk as <- <-; by apply said_same].
    apply bindR_Ok in Hk as (e & He & Hk). apply get_element_ctx in He. apply bindR_Ok in Hk as (s1 & H1 & Hk). injection Hk as <- <-.
    eapply emit_said; [exact He|apply Hj| |exact H1]. assert (Hf : st_focus (e_state e) = true).
    { apply (flag_get st_focus _ _ _ He). by apply (focus_in _ n Hi). }
    split; [done|]. destruct ev; try destruct Hev; by split. }
  destruct ev as [|p|b|b|w|k|k|c]; cbn [handle_event] in H.
  - injection H as <- <-. by apply said_same.
  - unfold on_move in H. apply bindR_Ok in H as (U & HU & H). apply bindR_Ok in H as ([s1 t1] & H1 & H).
    set (P := ev_under s) in *. set (sU := s <| ev_under := U |>) in *.
    assert (Hov : over t0 p P U t0).
    { split; [apply nearby_refl|]. intros n Hn _. by apply (hover_in _ n Hi). }
    assert (HsU : ev_under sU = U) by done. assert (HsP : said (IMouseMove p) t0 s sU) by by apply said_same.
    clearbody sU.
    assert (Hleave : forall l sa ta sb tb, over t0 p P U ta -> ev_under sa = U -> foldR (leave_node fmt m tr) (sa, ta) l = Ok (sb, tb) ->
      said (IMouseMove p) t0 sa sb /\ over t0 p P U tb /\ ev_under sb = U).
    { induction l as [|a l IH]; intros sa ta sb tb Ho Hu Hf; cbn [foldR] in Hf; [injection Hf as <- <-; split; [by apply said_same|done]|].
      apply bindR_Ok in Hf as ([sc tc] & H3 & Hf). destruct (leave_said _ _ _ _ _ _ _ _ _ _ _ _ Ho Hu H3) as (A1 & A2 & A3).
      destruct (IH _ _ _ _ A2 A3 Hf) as (B1 & B2 & B3). split; [by eapply said_trans|done]. }
    assert (Hmove : forall l, (forall a, a ∈ l -> a ∈ U) -> forall sa ta sb tb, over t0 p P U ta -> ev_under sa = U -> foldR (move_node fmt m tr P) (sa, ta) l = Ok (sb, tb) ->
      said (IMouseMove p) t0 sa sb /\ over t0 p P U tb /\ ev_under sb = U).
    { induction l as [|a l IH]; intros Hl sa ta sb tb Ho Hu Hf; cbn [foldR] in Hf; [injection Hf as <- <-; split; [by apply said_same|done]|].
      apply bindR_Ok in Hf as ([sc tc] & H3 & Hf). destruct (move_said _ _ _ _ _ _ _ _ _ _ _ _ Ho Hu (Hl a (elem_of_list_here _ _)) H3) as (A1 & A2 & A3).
      destruct (IH (fun k Hk => Hl k (elem_of_list_further _ _ _ Hk)) _ _ _ _ A2 A3 Hf) as (B1 & B2 & B3). split; [by eapply said_trans|done]. }
    destruct (Hleave _ _ _ _ _ Hov HsU H1) as (A1 & A2 & A3).
    assert (Hr : forall a, a ∈ rev U -> a ∈ U). { intros a Ha. apply elem_of_list_In, in_rev. by apply elem_of_list_In in Ha. }
    destruct (Hmove (rev U) Hr _ _ _ _ A2 A3 H) as (B1 & _ & _).
    eapply said_trans; [exact HsP|]. by eapply said_trans.
  - unfold on_down in H. apply bindR_Ok in H as ([s1 t1] & H1 & H).
    assert (Hs : said (IMouseButtonDown b) t0 s s1 /\ nearby (IMouseButtonDown b) t0 t1).
    { destruct (ev_focus s); [|injection H1 as <- <-; split; [by apply said_same|apply nearby_refl]].
      destruct (memb _ _); [injection H1 as <- <-; split; [by apply said_same|apply nearby_refl]|]. eapply blur_said; [apply nearby_refl|exact H1]. }
    destruct Hs as (Hs & Hn). eapply said_trans; [exact Hs|]. clear Hs H1. revert Hn H. generalize (rev (ev_under s1)). intros l. revert s1 t1.
    induction l as [|a l IH]; intros sa ta Hn Hf; cbn [foldR] in Hf; [injection Hf as <- <-; by apply said_same|].
    apply bindR_Ok in Hf as ([sc tc] & H3 & Hf). destruct (press_said _ _ _ _ _ _ _ _ _ _ Hn H3) as (A1 & A2). eapply said_trans; [exact A1|]. by apply IH with (t1 := tc).
  - unfold on_up in H. apply bindR_Ok in H as ([s1 t1] & H1 & H). apply bindR_Ok in H as (t2 & H2 & H). injection H as <- <-.
    eapply said_trans; [|by apply (said_same _ _ s1)]. clear H2. revert H1. cbn [fst]. generalize (rev (ev_under s)). intros l. clear Hi Hkey. revert s.
    induction l as [|a l IH]; intros sa Hf; cbn [foldR] in Hf; [injection Hf as <- <-; by apply said_same|].
    apply bindR_Ok in Hf as ([sc tc] & H3 & Hf). destruct (release_said _ _ _ _ _ _ _ _ _ H3) as (A1 & ->). eapply said_trans; [exact A1|].
    by apply IH.
  - injection H as <- <-. by apply said_same.
  - eapply Hkey; [done| |exact H]. by intros e.
  - eapply Hkey; [done| |exact H]. by intros e.
  - eapply Hkey; [done| |exact H]. by intros e.
Qed.

Lemma states_told X fuel doc css hist v steps sp d : session_of X fuel doc css hist v steps -> sp ∈ steps -> d ∈ sent sp ->
  exists e s, get_ctx (tree_of (sp_before sp)) (di_node d) = Some e /\ flags_told (di_event d) s /\ state_told (sp_event sp) (di_handler d) (e_state e) s.
Proof.
  intros H Hsp Hd. pose proof (in_session _ _ _ _ _ _ _ _ H Hsp) as Hok. pose proof (sent_log _ _ Hok) as Hl. destruct Hok as (Hi & _ & _ & depth & Hh).
  apply event_said in Hh as (new & E & Hn); [|exact Hi]. rewrite E in Hl. apply app_inv_head in Hl. subst new.
  exact (proj1 (list.Forall_forall _ _) Hn d Hd).
Qed.
Lemma numbers_told X fuel doc css hist v steps i x v1 o t now d : session_of X fuel doc css hist v steps -> update X fuel v i x = Ok (v1, o) ->
  input_steps X fuel v i x t now -> d ∈ trace now ->
  exists e, get_ctx t (di_node d) = Some e /\ pair_told (di_event d) "/target/position" (e_position e) /\ pair_told (di_event d) "/target/size" (e_size e) /\
    (di_handler d ∈ ["onkeydown"; "onkeyup"; "oninput"] \/ pair_told (di_event d) "/position" (mouse_history (hist ++ [(i, x)]))).
Proof.
  intros H H1 H2 Hd. pose proof (reports_are _ _ _ _ _ _ _ _ _ _ _ _ _ H H1 H2) as Hr. rewrite list.Forall_forall in Hr. destruct (Hr d Hd) as (e & He & P1 & P2 & P3).
  exists e. split; [done|]. unfold pair_told. rewrite P1, P2. split; [|split].
  - destruct (pair_json (e_position e)) as (a & b & E & ? & ?). exists a, b. by rewrite E.
  - destruct (pair_json (e_size e)) as (a & b & E & ? & ?). exists a, b. by rewrite E.
  - destruct P3 as [P3|P3]; [by left|right]. rewrite P3. destruct (pair_json (mouse_history (hist ++ [(i, x)]))) as (a & b & E & ? & ?). exists a, b. by rewrite E.
Qed.
