(** * C83: the counters of a view say what they count.

    Vocabulary: SpecMetrics.v; [styled_element], [declarations], [scope]: SpecPage.v;
    [wins]: SpecStyle.v; [fair]: SpecMove.v; [again]: SpecSame.v. *)
From Coq Require Import ZArith Lia.
From stdpp Require Import gmap.
From Verif Require Import Str F32 Res ResFacts Json PropKey Html Css Element Tree ViewModel Render Update Matching Cascade Initial Animation Apply Styling Events View Samples
  SpecLive SpecView SpecTree SpecSelect SpecStyle SpecShow SpecPage SpecMove SpecSame SelectLive MoveFacts MoveSamples StyleSamples ValueSamples PropSelect PropMove SameFacts PropSame
  Metrics SpecMetrics MetricsFacts MetricsPage StyleEqb.
Close Scope R_scope.

(** Counting changes nothing: the view and the output are those of [update]. *)
Theorem C83_same_view X fuel v i x c : snd (update_counted X fuel v i x c) = update X fuel v i x.
Proof. exact (update_erase X fuel v i x c). Qed.
Print Assumptions C83_same_view.
Theorem C83_same_run X fuel v l c : snd (updates_counted X fuel v l c) = updates X fuel v l.
Proof. exact (updates_erase X fuel l v c). Qed.
Print Assumptions C83_same_run.

(** Every call of [update] is counted once, the failed ones too, and no counter
    ever goes back. *)
Theorem C83_every_update X fuel v i x c :
  m_updates (fst (update_counted X fuel v i x c)) = S (m_updates c) /\ grows c (fst (update_counted X fuel v i x c)).
Proof. destruct (update_grows X fuel v i x c) as [G E]. exact (conj E G). Qed.
Print Assumptions C83_every_update.

(** After an update of a page: the elements shown are those at and below the body;
    the cascades are as many as elements that have a style of their own; a layout
    is counted for each of them whose layout style is another one than before the
    update; the rules matched are those that these elements keep; the gauge shows
    the number of rules in the sheet. *)
Theorem C83_counts X fuel doc css v0 hist v os i x c c' v' o :
  from_document X fuel doc css = Ok v0 -> updates X fuel v0 hist = Ok (v, os) -> update_counted X fuel v i x c = (c', Ok (v', o)) ->
  exists shown styled, lists (at_or_above (v_tree v') (v_body v')) shown /\ lists (styled_element (v_tree v') (v_body v')) styled /\
    m_updates c' = m_updates c + 1 /\
    m_elements_shown c' = m_elements_shown c + List.length shown /\
    m_cascades c' = m_cascades c + List.length styled /\
    m_layouts c' = m_layouts c + List.length (List.filter (restyled (v_tree v) (v_tree v')) styled) /\
    m_matches_static c' = m_matches_static c + total (kept_static (v_tree v')) styled /\
    m_matches_dynamic c' = m_matches_dynamic c + total (kept_dynamic (v_tree v')) styled /\
    (styled <> [] -> m_styles c' = List.length (css_styles css)).
Proof.
  intros H0 H Hu. destruct (update_counts _ _ _ _ _ _ _ _ _ _ _ _ _ _ H0 H Hu) as (shown & styled & st & L1 & L2 & -> & _).
  exists shown, styled. split; [exact L1|]. split; [exact L2|]. cbn [m_updates m_elements_shown m_cascades m_layouts m_styles m_matches_static m_matches_dynamic].
  split; [lia|]. repeat (split; [done|]). by destruct styled.
Qed.
Print Assumptions C83_counts.

(** A layout style is another one when some field of it is, down to each number;
    only minus zero counts as zero. *)
Theorem C83_restyled t t' n x x' : t_nodes t !! n = Some x -> t_nodes t' !! n = Some x' -> no_nan t n ->
  restyled t t' n = true <-> style_map unsigned_zero (n_style x') <> style_map unsigned_zero (n_style x).
Proof.
  intros Hx Hx' Hn. unfold restyled. rewrite Hx, Hx'. pose proof (style_zeros (n_style x) (n_style x') (fun f => Hn x f Hx)) as Z.
  destruct (tstyle_eqb (n_style x) (n_style x')); cbn [negb]; (split; [|]).
  - done.
  - intros Hd. destruct Hd. symmetry. by apply Z.
  - intros _ E. by assert (false = true) by (apply Z; by rewrite E).
  - done.
Qed.
Print Assumptions C83_restyled.

(** The values that could and could not be given to the elements: for an element at
    rest on a page that C31 speaks of, as many as there are properties (entries of
    lists) whose winning declaration has, or has not, a meaning. *)
Theorem C83_applied X fuel doc css v0 hist v os i x c c' v' o j t ids :
  from_document X fuel doc css = Ok v0 -> updates X fuel v0 hist = Ok (v, os) -> update_counted X fuel v i x c = (c', Ok (v', o)) -> prepare X fuel v i x = Ok (j, t, ids) ->
  (forall s, x_order X s ≡ₚ map_to_list s) ->
  exists styled ok error, lists (styled_element (v_tree v') (v_body v')) styled /\
    m_apply_ok c' = m_apply_ok c + total ok styled /\ m_apply_error c' = m_apply_error c + total error styled /\
    forall n, fair css v t n -> at_rest (v_tree v) n ->
      exists ds vars, declarations css t (v_root v) n ds /\ scope css t (v_root v) (v_body v) n vars /\
        there_are (ok n) (fun '(k, i) => exists w, wins vars ds k i w /\ has_meaning k w) /\
        there_are (error n) (fun '(k, i) => exists w, wins vars ds k i w /\ ~ has_meaning k w).
Proof.
  intros H0 H Hu Hp Ho. destruct (update_counts _ _ _ _ _ _ _ _ _ _ _ _ _ _ H0 H Hu) as (shown & styled & st & L1 & L2 & -> & A).
  exists styled, (fun k => s_ok (st k)), (fun k => s_error (st k)). split; [exact L2|]. split; [reflexivity|]. split; [reflexivity|].
  intros n (_ & F1 & F2 & F3) Hr. destruct (A j t ids n Hp Ho F1 Hr F2 F3) as (ds & vars & D & S1 & (l1 & [N1 T1] & E1) & (l2 & [N2 T2] & E2)). exists ds, vars. split; [exact D|]. split; [exact S1|].
  split; [exists l1|exists l2]; (split; [|assumption]); (split; [assumption|]); intros [k q]; [exact (T1 (k, q))|exact (T2 (k, q))].
Qed.
Print Assumptions C83_applied.

(** A page that is updated with the same data, viewport and states, and on which
    nothing is animated, asks for no layout after the first update; a NaN in a
    style would (it is not equal to itself). *)
Theorem C83_no_layouts X fuel doc css v0 hist v os i1 x m1 t1 ids1 v1 o1 w i w' o c c' :
  from_document X fuel doc css = Ok v0 -> updates X fuel v0 hist = Ok (v, os) -> json_wf x = true ->
  prepare X fuel v i1 x = Ok (m1, t1, ids1) -> update X fuel v i1 x = Ok (v1, o1) -> same_flags (v_tree v) (v_tree v1) -> again X fuel x (in_viewport i1) v1 w ->
  in_viewport i = in_viewport i1 -> update_counted X fuel w i x c = (c', Ok (w', o)) -> same_flags (v_tree w) (v_tree w') ->
  tidy_css css -> (forall s, x_order X s ≡ₚ map_to_list s) ->
  (forall n, styled_element (v_tree w') (v_body w') n -> fair css v t1 n /\ no_nan (v_tree w) n) ->
  (forall u a, again X fuel x (in_viewport i1) v u -> at_rest (v_tree u) a) ->
  m_layouts c' = m_layouts c.
Proof.
  intros H0 H Hw Hp1 Hu1 Hfl Hag Hvp Hcu Hfl2 Htc Ho Hn Hr.
  assert (Hu2 : update X fuel w i x = Ok (w', o)) by (rewrite <- (update_erase X fuel w i x c), Hcu; reflexivity).
  assert (Hag2 : again X fuel x (in_viewport i1) v1 w') by exact (again_more _ _ _ _ _ _ _ _ _ Hag Hvp Hu2 Hfl2).
  destruct (again_updates _ _ _ _ _ _ Hag) as (hist2 & os2 & Hh).
  assert (Hhw : exists hist' os', updates X fuel v0 hist' = Ok (w, os')).
  { assert (Happ : forall l v a os, updates X fuel v l = Ok (a, os) -> forall l2 b os2, updates X fuel a l2 = Ok (b, os2) -> exists os', updates X fuel v (l ++ l2) = Ok (b, os')).
    { clear. induction l as [|[i x] l IH]; intros v a os H l2 b os2 H2; cbn [updates app] in *; [injection H as <- <-; eauto|].
      apply bindR_Ok in H as ([v1 o] & H1 & H). apply bindR_Ok in H as ([v2 os1] & H3 & H). injection H as <- <-. destruct (IH _ _ _ H3 _ _ _ H2) as (os' & E). rewrite H1. cbn [bindR]. rewrite E. cbn [bindR]. eauto. }
    destruct (Happ _ _ _ _ H ((i1, x) :: hist2) w (o1 :: os2)) as (os' & E); [|by eexists _, os'].
    cbn [updates]. rewrite Hu1. cbn [bindR]. rewrite Hh. reflexivity. }
  destruct Hhw as (hist' & os' & Hh').
  destruct (C83_counts _ _ _ _ _ _ _ _ _ _ _ _ _ _ H0 Hh' Hcu) as (shown & styled & _ & [_ L2] & _ & _ & _ & E & _). rewrite E. clear E.
  assert (Hz : List.filter (restyled (v_tree w) (v_tree w')) styled = []); [|rewrite Hz; cbn; lia].
  assert (Hall : forall n, n ∈ styled -> restyled (v_tree w) (v_tree w') n = false).
  { intros n Hin. apply L2 in Hin. destruct (Hn n Hin) as [Hf Hnn]. apply restyled_same; [exact Hnn|].
    destruct (C80_layout_style_stays _ _ _ _ _ _ _ _ _ _ _ _ _ _ _ _ n H0 H Hw Hp1 Hu1 Hfl Hag Htc Ho Hf (fun u a Hu _ => Hr u a Hu)) as (s1 & A1 & A2).
    destruct (C80_layout_style_stays _ _ _ _ _ _ _ _ _ _ _ _ _ _ _ _ n H0 H Hw Hp1 Hu1 Hfl Hag2 Htc Ho Hf (fun u a Hu _ => Hr u a Hu)) as (s2 & B1 & B2). congruence. }
  clear - Hall. induction styled as [|a l IH]; [done|]. cbn [List.filter]. rewrite Hall by apply elem_of_list_here. apply IH. intros n Hin. apply Hall. by apply elem_of_list_further.
Qed.
Print Assumptions C83_no_layouts.

(** <p></p> with p {width: 10px; height: oops}: two updates show the body and the
    paragraph twice, apply the width twice, refuse the height twice, and ask for
    one layout. *)
Example C83_counted : match from_document world 20 (p_page []) still_css with
  | Ok v => fst (updates_counted world 20 v [(frame [], none); (frame [], none)] metrics_new)
  | _ => metrics_new
  end = mkMetrics 2 4 4 1 1 2 0 2 2.
Proof. vm_compute. reflexivity. Qed.
(** The hypotheses of the theorems are those of C31 and C80, see C80_meets; the
    numbers of the styles are no NaNs: *)
Example C83_meets : succeeds stilling (fun '(v0, (v1, _), (v2, _), (_, t, _)) =>
  forallb (fun n => match t_nodes (v_tree v1) !! n with Some x => forallb (fun f => feq f f) (style_numbers (n_style x)) | None => false end) [1; 2] = true).
Proof. witness. Qed.
(** ... and each of the updates of [C83_meets] is counted as it should be: the first
    gives the paragraph another layout style, the second none. *)
Example C83_restyled_meets : succeeds stilling (fun '(v0, (v1, _), (v2, _), (_, t, _)) =>
  map (restyled (v_tree v0) (v_tree v1)) [1; 2] = [false; true] /\ map (restyled (v_tree v1) (v_tree v2)) [1; 2] = [false; false]).
Proof. witness. Qed.
