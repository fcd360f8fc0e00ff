(** * Pages with animations whose every session succeeds: C39, C75, C76 and C77, continued.

    Vocabulary: SpecBind.v ([shape], [fits]), SpecEvents.v ([transformers_total]), SpecEnds.v
    ([ranked]), SpecCounted.v ([careful_css], [counted_value], [slow_value], [short_frame]),
    SpecPage.v ([inline_along]). *)
From Coq Require Import ZArith Reals Lia Classical_Prop.
From stdpp Require Import gmap.
From Verif Require Import Str F32 Res Json PropKey Html Css Element Tree ViewModel Render Update Matching
  Cascade Initial Animation Apply Styling Events View ReadCss ReadHtml Load SpecBind SpecReact SpecView SpecEvents SpecPage SpecStyle SpecEnds SpecDocument SpecTotal SpecCounted SpecRender SpecSchema SpecShape
  StyleView StyleRest EndsPage EndsMore FrameFacts LiveUpdate EventPage EventProps ResFacts EndsFacts StylePage LoadTotal ReadNamed ShapeFacts RenderMore BoundFacts UpdateTotal CountedFacts MoveSamples Samples PropEnds PropBind PropRender PropTotal PropCounted PropMove PropShape.
Close Scope R_scope.

(** C76.  On a page without transitions whose animations all have a count, every
    session whose data fit the template succeeds, whatever the frame times and events. *)
Theorem C76_counted_pages_run : forall X fuel doc css v0 sh hist rank,
  from_document X fuel doc css = Ok v0 -> v_model v0 = initial_model sh -> wf_shape sh = true ->
  transformers_total (x_transformers X) -> x_debug X = false \/ no_plus_sheet css -> (forall s, x_order X s ≡ₚ map_to_list s) ->
  Forall (fun e => fits sh (snd e) = true) hist ->
  ranked rank css -> inline_along (ranked_declaration rank) X v0 hist ->
  careful_css counted_value css -> inline_along (careful_declaration counted_value) X v0 hist ->
  exists N v os, forall fuel, N <= fuel -> updates X fuel v0 hist = Ok (v, os).
Proof.
  intros X fuel doc css v0 sh hist rank H0 Hm Hw Ht Hp Ho Hf Hr Hri Hq Hqi.
  destruct (sane_ends (fun fuel => updates X fuel v0 hist)) as (N & [v os] & HN).
  - intros fuel'. by eapply history_sane.
  - eapply counted_ends; [exact H0|by apply total_halting|done..].
  - by exists N, v, os.
Qed.
Print Assumptions C76_counted_pages_run.
(** C76.  With endless animations of at least 2^m seconds and frames of at most 2^m
    seconds, every such session of up to 2^23 frames succeeds. *)
Theorem C76_endless_pages_run : forall X fuel doc css v0 sh hist rank m, (-149 <= m <= 100)%Z ->
  from_document X fuel doc css = Ok v0 -> v_model v0 = initial_model sh -> wf_shape sh = true ->
  transformers_total (x_transformers X) -> x_debug X = false \/ no_plus_sheet css -> (forall s, x_order X s ≡ₚ map_to_list s) ->
  Forall (fun e => fits sh (snd e) = true /\ short_frame m (in_time (fst e))) hist -> (Z.of_nat (List.length hist) <= 2 ^ 23)%Z ->
  ranked rank css -> inline_along (ranked_declaration rank) X v0 hist ->
  careful_css (slow_value m) css -> inline_along (careful_declaration (slow_value m)) X v0 hist ->
  exists N v os, forall fuel, N <= fuel -> updates X fuel v0 hist = Ok (v, os).
Proof.
  intros X fuel doc css v0 sh hist rank m Hm' H0 Hm Hw Ht Hp Ho Hf Hlen Hr Hri Hq Hqi. apply List.Forall_and_inv in Hf as [Hf Hs].
  destruct (sane_ends (fun fuel => updates X fuel v0 hist)) as (N & [v os] & HN).
  - intros fuel'. by eapply history_sane.
  - eapply slow_ends; [exact Hm'|exact H0|by apply total_halting|done..].
  - by exists N, v, os.
Qed.
Print Assumptions C76_endless_pages_run.

(** ** The bound *)
(** C39.  Loops and recursions that may not end are bounded in the model.  The
    bound does not matter: whatever is returned under some bound, a view, an error or a
    crash, is the only outcome there is ... *)
Theorem C39_one_outcome : forall X v hist m n,
  updates X m v hist <> Hang -> updates X n v hist <> Hang -> updates X m v hist = updates X n v hist.
Proof. intros X v hist. apply le_one. apply (le_all (fun fuel => updates X fuel v hist)). intros fuel. apply updates_le. Qed.
Print Assumptions C39_one_outcome.
Theorem C75_one_outcome : forall X doc css m n,
  from_document X m doc css <> Hang -> from_document X n doc css <> Hang -> from_document X m doc css = from_document X n doc css.
Proof. intros X doc css. apply le_one. intros fuel fuel'. apply document_le. Qed.
Print Assumptions C75_one_outcome.
(** ... so a history ends if it ends under some bound, and otherwise it never does. *)
Theorem C39_one_run_ends : forall X v hist fuel, updates X fuel v hist <> Hang -> ends (fun fuel => updates X fuel v hist).
Proof. intros X v hist. apply le_ends. apply (le_all (fun fuel => updates X fuel v hist)). intros fuel. apply updates_le. Qed.
Print Assumptions C39_one_run_ends.
Theorem C39_ends_or_never : forall X v hist,
  ends (fun fuel => updates X fuel v hist) \/ never_ends (fun fuel => updates X fuel v hist).
Proof.
  intros X v hist. destruct (Classical_Prop.classic (ends (fun fuel => updates X fuel v hist))) as [H|H]; [by left|right].
  apply le_never; [|exact H]. apply (le_all (fun fuel => updates X fuel v hist)). intros fuel. apply updates_le.
Qed.
Print Assumptions C39_ends_or_never.

(** C76.  So on every page a session whose data fit either succeeds or never ends:
    there is no third outcome. *)
Theorem C76_success_or_never : forall X fuel doc css v0 sh hist,
  from_document X fuel doc css = Ok v0 -> v_model v0 = initial_model sh -> wf_shape sh = true ->
  transformers_total (x_transformers X) -> x_debug X = false \/ no_plus_sheet css ->
  Forall (fun e => fits sh (snd e) = true) hist ->
  (exists N v os, forall fuel, N <= fuel -> updates X fuel v0 hist = Ok (v, os)) \/ (forall fuel, updates X fuel v0 hist = Hang).
Proof.
  intros X fuel doc css v0 sh hist H0 Hm Hw Ht Hp Hf. destruct (C39_ends_or_never X v0 hist) as [He|Hn]; [left|right; exact Hn].
  destruct (sane_ends (fun fuel => updates X fuel v0 hist)) as (N & [v os] & HN).
  - intros fuel'. by eapply history_sane.
  - exact He.
  - by exists N, v, os.
Qed.
Print Assumptions C76_success_or_never.

(** ** Any page *)
(** On the way through the history the view [v'] is reached, and [i'] comes next. *)
Inductive frame_of (X : Externals) : View -> list (Input * json) -> View -> Input -> Prop :=
| frame_here v i x after : frame_of X v ((i, x) :: after) v i
| frame_later fuel v i x v1 o after v' i' : update X fuel v i x = Ok (v1, o) -> frame_of X v1 after v' i' -> frame_of X v ((i, x) :: after) v' i'.
(** C39.  A history ends if at each of its frames the timers are tame: each has
    not gone round too often, and each transition knows where it starts. *)
Theorem C39_tame_histories_end_partial : forall X fuel doc css v0 hist rank,
  from_document X fuel doc css = Ok v0 -> halting (x_transformers X) ->
  ranked rank css -> inline_along (ranked_declaration rank) X v0 hist ->
  (forall v i, frame_of X v0 hist v i -> tame_timers (in_time i) (v_tree v)) ->
  ends (fun fuel => updates X fuel v0 hist).
Proof.
  intros X fuel doc css v0 hist rank H0 Htr Hra. destruct (loaded_inv _ _ _ _ _ H0) as (t0 & Hp). clear H0. revert v0 Hp.
  induction hist as [|[i x] hist IH]; intros v Hp Hri Hta; cbn [updates]; [apply ends_const, halts_ok|].
  match goal with |- ends (fun fuel => bindR (update _ fuel _ _ _) (fun y => @?g y fuel)) => apply (ends_bind (fun fuel => update X fuel v i x) g) end.
  - eapply update_ends; [exact Hp|exact Htr|exact Hra|by eapply along_here|apply Hta; constructor].
  - intros [v1 o] (f & Hu).
    match goal with |- ends (fun fuel => bindR (updates _ fuel _ _) (fun y => @?g y fuel)) => apply (ends_bind (fun fuel => updates X fuel v1 hist) g) end.
    + apply IH; [exact (update_inv _ _ _ _ _ _ _ _ _ Hp Hu)|exact (along_later _ _ _ _ _ _ _ _ _ Hu Hri)|]. intros v2 i2 H2. apply Hta. by eapply frame_later.
    + intros [v2 os] _. apply ends_const, halts_ok.
Qed.
Print Assumptions C39_tame_histories_end_partial.
(** C76.  And it succeeds, if the data fit. *)
Theorem C76_tame_sessions_run : forall X fuel doc css v0 sh hist rank,
  from_document X fuel doc css = Ok v0 -> v_model v0 = initial_model sh -> wf_shape sh = true ->
  transformers_total (x_transformers X) -> x_debug X = false \/ no_plus_sheet css ->
  Forall (fun e => fits sh (snd e) = true) hist ->
  ranked rank css -> inline_along (ranked_declaration rank) X v0 hist ->
  (forall v i, frame_of X v0 hist v i -> tame_timers (in_time i) (v_tree v)) ->
  exists N v os, forall fuel, N <= fuel -> updates X fuel v0 hist = Ok (v, os).
Proof.
  intros X fuel doc css v0 sh hist rank H0 Hm Hw Ht Hp Hf Hr Hri Hta.
  destruct (sane_ends (fun fuel => updates X fuel v0 hist)) as (N & [v os] & HN).
  - intros fuel'. by eapply history_sane.
  - eapply C39_tame_histories_end_partial; [exact H0|by apply total_halting|done..].
  - by exists N, v, os.
Qed.
Print Assumptions C76_tame_sessions_run.

(** C77.  Two texts make a page of which every session with data of the shape of its
    template succeeds or never ends ... *)
Theorem C77_texts_run_or_never : forall X html css doc sheet templates body n rn sh,
  read_html html = Ok doc -> read_css css = Ok sheet ->
  document_templates doc templates body -> finite_document templates body -> clean templates body ->
  SpecRender.meaning (x_translate X) templates n ∅ body = Some rn ->
  Forall (fun q => plain_pointer q = true) (pointers rn) -> wf_shape sh = true -> solid_fields sh = true -> takes (pointers rn) sh ->
  transformers_total (x_transformers X) -> x_debug X = false \/ no_plus_sheet sheet ->
  exists N v0, (forall fuel, N <= fuel -> from_html X fuel html css = Ok v0) /\
    forall hist, Forall (fun e => fits sh (snd e) = true) hist ->
      (exists M v os, forall fuel, M <= fuel -> updates (reading X) fuel v0 hist = Ok (v, os)) \/ (forall fuel, updates (reading X) fuel v0 hist = Hang).
Proof.
  intros X html css doc sheet templates body n rn sh Hh Hc Hd Hf Hcl Hm Hpl Hw Hs Ht Htr Hp.
  destruct (load_total (reading X) sheet doc templates body Hd (read_html_named _ _ Hh) Hf Hp) as (N & v & H).
  exists N, v. split; [intros fuel Hle; unfold from_html; rewrite Hh, Hc; exact (H fuel Hle)|].
  intros hist Hh'. apply (C76_success_or_never (reading X) N doc sheet v sh hist (H N (le_n N))); [|exact Hw|exact Htr|exact Hp|exact Hh'].
  exact (template_shape (reading X) N doc sheet v templates body n rn sh (H N (le_n N)) Hd Hcl Hm Hpl Hw Hs Ht).
Qed.
Print Assumptions C77_texts_run_or_never.
(** ... and without transitions, custom properties that refer to themselves and
    endless animations it succeeds. *)
Theorem C77_counted_pages_run : forall X doc css templates body n rn sh rank,
  document_templates doc templates body -> all_named doc -> finite_document templates body -> clean templates body ->
  SpecRender.meaning (x_translate X) templates n ∅ body = Some rn ->
  Forall (fun q => plain_pointer q = true) (pointers rn) -> wf_shape sh = true -> solid_fields sh = true -> takes (pointers rn) sh ->
  transformers_total (x_transformers X) -> x_debug X = false \/ no_plus_sheet css -> (forall s, x_order X s ≡ₚ map_to_list s) ->
  ranked rank css -> careful_css counted_value css ->
  exists N v0, (forall fuel, N <= fuel -> from_document X fuel doc css = Ok v0) /\
    forall hist, Forall (fun e => fits sh (snd e) = true) hist ->
      inline_along (ranked_declaration rank) X v0 hist -> inline_along (careful_declaration counted_value) X v0 hist ->
      exists M v os, forall fuel, M <= fuel -> updates X fuel v0 hist = Ok (v, os).
Proof.
  intros X doc css templates body n rn sh rank Hd Hn Hf Hcl Hm Hpl Hw Hs Ht Htr Hp Ho Hr Hq.
  destruct (load_total X css doc templates body Hd Hn Hf Hp) as (N & v & H). exists N, v. split; [exact H|]. intros hist Hh Hi1 Hi2.
  pose proof (H N (le_n N)) as H0. apply (C76_counted_pages_run X N doc css v sh hist rank H0); [|exact Hw|exact Htr|exact Hp|exact Ho|exact Hh|exact Hr|exact Hi1|exact Hq|exact Hi2].
  exact (template_shape X N doc css v templates body n rn sh H0 Hd Hcl Hm Hpl Hw Hs Ht).
Qed.
Print Assumptions C77_counted_pages_run.
(** The hypotheses are met: those of the first are those of [texts_never_fail]; for the
    second, the page of C75 with the three laps of [thrice_ends]. *)
Example nested_thrice_runs : exists N v0, (forall fuel, N <= fuel -> from_document world fuel nested_page thrice_css = Ok v0) /\
  forall hist, Forall (fun e => fits nested_shape (snd e) = true) hist -> exists M v os, forall fuel, M <= fuel -> updates world fuel v0 hist = Ok (v, os).
Proof.
  pose proof nested_taken as H. destruct (SpecRender.meaning (fun s => s) nested_templates 10 ∅ nested_body) as [rn|] eqn:Hm; [|discriminate H].
  apply andb_prop in H as [H H4]. apply andb_prop in H as [H H3]. apply andb_prop in H as [H1 H2].
  destruct thrice_ends as (w & rank & _ & _ & Ho & Hr & Hc & _).
  destruct (C77_counted_pages_run world nested_page thrice_css nested_templates nested_body 10 rn nested_shape rank
    nested_document nested_named nested_finite nested_clean Hm) as (N & v0 & H0 & H5).
  - apply List.Forall_forall. rewrite forallb_forall in H1. exact H1.
  - exact H2.
  - exact H3.
  - apply is_taken_ok. exact H4.
  - intros name f x Hf; assert (E : Some f = None) by (etransitivity; [symmetry; exact Hf|exact (lookup_empty name)]); discriminate E.
  - left. reflexivity.
  - exact Ho.
  - exact Hr.
  - exact Hc.
  - exists N, v0. split; [exact H0|]. intros hist Hh.
    apply (H5 hist Hh); apply (along_read world N _ _ v0 [] v0 [] _ _ (H0 N (le_n N)) eq_refl); intros s ds [=].
Qed.

(** The hypotheses are met: the endless animation of [animated_never_fails] over an
    hour of one-second frames, of which a paragraph shows the title. *)
Definition hour (s : string) : list (Input * json) := repeat (second, JObj [("title", JStr s)]) 3600.
Example animated_runs : exists v0, from_document world 20 animated_page (spin_css 2 0) = Ok v0 /\
  forall s, exists N v os, forall fuel, N <= fuel -> updates world fuel v0 (hour s) = Ok (v, os).
Proof.
  destruct animated_loads as (v0 & H0 & H1 & H2). exists v0. split; [exact H0|]. intros s.
  destruct spin_ends as (w & rank & _ & _ & Ho & Hr & Hc & Hs & _).
  assert (Hi : forall P hist, inline_along P world v0 hist).
  { intros P hist. exact (along_read world 20 _ _ v0 [] v0 [] _ _ H0 eq_refl (fun _ ds Hs => ltac:(discriminate Hs))). }
  apply (C76_endless_pages_run world 20 animated_page (spin_css 2 0) v0 animated_shape (hour s) rank 0 ltac:(lia) H0 H1 H2).
  - intros name f x Hf; assert (E : Some f = None) by (etransitivity; [symmetry; exact Hf|exact (lookup_empty name)]); discriminate E.
  - left. reflexivity.
  - exact Ho.
  - unfold hour. apply List.Forall_forall. intros e He. apply repeat_spec in He as ->. split; [reflexivity|exact Hs].
  - unfold hour. rewrite repeat_length. apply Z.leb_le. vm_compute. reflexivity.
  - exact Hr.
  - apply Hi.
  - exact Hc.
  - apply Hi.
Qed.
(** ... and the hypotheses of the theorems on any page: those of a counted page, as
    in [thrice_ends], imply them. *)
Lemma counted_tame X fuel doc css v0 hist : from_document X fuel doc css = Ok v0 -> (forall s, x_order X s ≡ₚ map_to_list s) ->
  careful_css counted_value css -> inline_along (careful_declaration counted_value) X v0 hist ->
  forall v i, frame_of X v0 hist v i -> tame_timers (in_time i) (v_tree v).
Proof.
  intros H0 Ho Hc Hi v' i' Hf. destruct (loaded_inv _ _ _ _ _ H0) as (t0 & Hp).
  assert (Hm : all_mild (fun _ => mild_timer) 0 (v_tree v0)) by (apply rest_mild; by eapply loaded_rest). clear H0.
  assert (HV : forall k v, moving k = false -> counted_value k v) by (intros k v Hk; unfold counted_value; by destruct k).
  revert Hp Hm Hi. induction Hf as [v i x after|f v i x v1 o after v' i' Hu _ IH]; intros Hp Hm Hi.
  - eapply (mild_timers (fun _ => mild_timer) (fun _ => True) 1); [|constructor|exact I|exact Hm]. intros j time a _ _. apply mild_few.
  - apply IH; [exact (update_inv _ _ _ _ _ _ _ _ _ Hp Hu)| |exact (along_later _ _ _ _ _ _ _ _ _ Hu Hi)].
    change (all_mild (fun _ => mild_timer) 1 (v_tree v1)).
    eapply (update_mild counted_value (fun _ => mild_timer) (fun _ => True) 1 HV (fun _ _ H => H)); [| |constructor|exact I|exact Hc|by eapply along_here|exact Ho|exact Hp|exact Hm|exact Hu].
    + intros j sizes k i0 w st. apply apply_counted.
    + intros j fuel0 css0 time a a' _ _. apply ticks_mild.
Qed.
Example thrice_tame : exists v0, from_document world 20 spin_page thrice_css = Ok v0 /\
  forall hist v i, frame_of world v0 hist v i -> tame_timers (in_time i) (v_tree v).
Proof.
  destruct thrice_ends as (v0 & rank & H0 & _ & Ho & _ & Hc & Hi). exists v0. split; [exact H0|]. intros hist.
  exact (counted_tame world 20 spin_page thrice_css v0 hist H0 Ho Hc (proj2 (Hi hist))).
Qed.
(** ... and those of a page on which a transition runs: the ink of C79_meets turns
    from red to blue, and back halfway. *)
Definition ranged (tn : Transition) : bool := match t_key tn, t_range tn with Some _, None => false | _, _ => true end.
Definition timers_check (time : f32) (t : Tree) : bool :=
  forallb (fun kn => match n_ctx (snd kn) with
                     | None => true
                     | Some e => forallb (calm_timer time) (e_animators e) && forallb (fun tn => calm_timer time (t_animator tn) && ranged tn) (e_transitions e)
                     end) (map_to_list (t_nodes t)).
Lemma calm_few time a : calm_timer time a = true -> few_laps time a.
Proof. intros H. unfold calm_timer in H. unfold few_laps. apply orb_prop in H as [H|H]; [by left|]. right. left. by apply negb_true_iff. Qed.
Lemma timers_checked time t : timers_check time t = true -> tame_timers time t.
Proof.
  intros H n e He. unfold timers_check in H. rewrite forallb_forall in H. unfold get_ctx in He. destruct (t_nodes t !! n) as [nd|] eqn:E; [|done]. cbn in He.
  specialize (H (n, nd)). cbn [snd] in H. rewrite He in H. apply andb_prop in H as [Ha Ht]; [|apply elem_of_list_In, elem_of_map_to_list; exact E].
  rewrite forallb_forall in Ha, Ht. split; apply list.Forall_forall; intros a Hin; apply elem_of_list_In in Hin; [by apply calm_few, Ha|].
  specialize (Ht a Hin). apply andb_prop in Ht as [H1 H2]. split; [by apply calm_few|]. unfold ranged in H2. unfold has_range. destruct (t_key a); [|by left]. right. destruct (t_range a); [by eexists|done].
Qed.
Fixpoint frames_check (X : Externals) (fuel : nat) (v : View) (hist : list (Input * json)) : bool :=
  match hist with
  | [] => true
  | (i, x) :: after => timers_check (in_time i) (v_tree v) && match update X fuel v i x with Ok (v1, _) => frames_check X fuel v1 after | _ => false end
  end.
Lemma frames_checked X fuel hist : forall v, frames_check X fuel v hist = true -> forall v' i', frame_of X v hist v' i' -> tame_timers (in_time i') (v_tree v').
Proof.
  induction hist as [|[i x] hist IH]; intros v H v' i' Hf; inversion Hf as [? ? ? ? E|f ? ? ? v1 o ? ? ? Hu Hf' E]; subst; cbn [frames_check] in H; apply andb_prop in H as [Ht H]; [by apply timers_checked|].
  destruct (update X fuel v i x) as [[v2 o2]| | |] eqn:E; try done.
  assert (Hs : update X f v i x = update X fuel v i x).
  { apply (le_one (fun n => update X n v i x)); [apply (le_all (fun n => update X n v i x)); intros n; apply update_le|by rewrite Hu|by rewrite E]. }
  rewrite Hu, E in Hs. injection Hs as -> _. by eapply IH.
Qed.
Definition inking : list (Input * json) := map (fun s => (MoveSamples.second [], ink s)) ["red"; "red"; "blue"; "red"; "red"; "blue"].
Lemma inking_checked : match from_document inks 20 ink_page ink_css with
  | Ok v0 => frames_check inks 20 v0 inking && match updates inks 20 v0 inking with Ok (v, _) => match the_mover v with Some _ => true | None => false end | _ => false end
  | _ => false end = true.
Proof. vm_compute. reflexivity. Qed.
Example inking_runs : exists v0 v os, from_document inks 20 ink_page ink_css = Ok v0 /\ updates inks 20 v0 inking = Ok (v, os) /\ is_Some (the_mover v) /\
  (forall v' i', frame_of inks v0 inking v' i' -> tame_timers (in_time i') (v_tree v')) /\ ends (fun fuel => updates inks fuel v0 inking).
Proof.
  pose proof inking_checked as H. destruct (from_document inks 20 ink_page ink_css) as [v0| | |]; try discriminate H. apply andb_prop in H as [H1 H2].
  destruct (updates inks 20 v0 inking) as [[v os]| | |] eqn:E; try discriminate H2. exists v0, v, os. split; [reflexivity|]. split; [exact E|].
  split; [destruct (the_mover v) as [tn|]; [exists tn; reflexivity|discriminate H2]|]. split; [apply (frames_checked inks 20); exact H1|].
  apply (C39_one_run_ends inks v0 inking 20). rewrite E. discriminate.
Qed.
