(** * Property C86: rules for elements the page does not have.

    Vocabulary: SpecIdle.v ([asks_for], [without_element], [by_kind], [extended]). *)
From Coq Require Import Lia.
From stdpp Require Import gmap.
From RecordUpdate Require Import RecordUpdate.
From Verif Require Import Str F32 Res Json PropKey Html Css Element Tree ViewModel Render Update Matching
  Cascade Initial Animation Apply Styling Events View SelectLive SpecIdle IdleFacts Samples PropSelect StyleSamples.

(** C86.  Rules that ask only for kinds of elements that a page does not have (and for
    their states: hovered, active, focused) may stand anywhere in its style sheet: the
    page loads to the same view, and every session with it is the same, whatever the
    data and the events are. *)
Theorem C86_rules_without_elements : forall X fuel doc an rules rules' v0,
  from_document X fuel doc (mkCss rules an) = Ok v0 ->
  extended (fun r => by_kind r /\ without_element v0 r) rules rules' ->
  from_document X fuel doc (mkCss rules' an) = Ok (v0 <| v_css := mkCss rules' an |>) /\
  forall fuel' hist, updates X fuel' (v0 <| v_css := mkCss rules' an |>) hist =
    match updates X fuel' v0 hist with Ok (v, os) => Ok (v <| v_css := mkCss rules' an |>, os) | Err e => Err e | Panic => Panic | Hang => Hang end.
Proof.
  intros X fuel doc an rules rules' v0 H0 He. split; [exact (load_extended X fuel doc an rules rules' v0 He [] H0)|].
  intros fuel' hist. pose proof (loaded_rules _ _ _ _ _ H0) as (? & ? & ? & ? & _ & _ & _ & _ & _ & _ & Hc & _).
  rewrite (updates_css X fuel' rules rules' an hist v0 Hc). by destruct (updates X fuel' v0 hist) as [[v os]| | |].
Qed.
Print Assumptions C86_rules_without_elements.

(** The hypotheses are met: the page with a list, a rule for its items, and further
    rules for paragraphs: [p], [ul > p], [p:hover]. *)
Definition list_rules : list Style := [rule [[SType "li"]] [give KColor (CColor red)]].
Definition more_rules : list Style :=
  [rule [[SType "p"]; [SType "ul"; SCombinator ">"; SType "p"]] [give KColor (CColor blue)];
   rule [[SType "li"]] [give KColor (CColor red)];
   rule [[SType "p"; SPseudoClass "hover"]] [give KColor (CColor blue)]].
Lemma no_paragraphs v : forallb (fun n => match get_ctx (v_tree v) n with Some e => negb (String.eqb (e_tag e) "p") | None => true end) (seq 0 (t_next (v_tree v))) = true ->
  (forall n, t_next (v_tree v) <= n -> t_nodes (v_tree v) !! n = None) ->
  extended (fun r => by_kind r /\ without_element v r) list_rules more_rules.
Proof.
  intros H Hb. assert (Hp : forall n e, get_ctx (v_tree v) n = Some e -> e_tag e <> "p").
  { intros n e He Hp. rewrite forallb_forall in H. destruct (le_lt_dec (t_next (v_tree v)) n) as [Hle|Hlt].
    - unfold get_ctx in He. rewrite (Hb n Hle) in He. discriminate He.
    - specialize (H n ltac:(apply in_seq; lia)). rewrite He, Hp in H. discriminate H. }
  assert (Hw : forall c, asks_for "p" c -> exists tag, asks_for tag c /\ forall n e, get_ctx (v_tree v) n = Some e -> e_tag e <> tag) by (intros c Hc; exists "p"; split; [exact Hc|exact Hp]).
  apply extended_more; [|apply extended_keep; apply extended_more; [|apply extended_nil]].
  - split; [intros c s [<-|[<-|[]]] Hs; cbn in Hs; repeat destruct Hs as [<-|Hs]; try exact I; destruct Hs|].
    intros c [<-|[<-|[]]]; apply Hw; [exists [], []|exists [SType "ul"; SCombinator ">"], []]; (split; [reflexivity|intros s []]).
  - split; [intros c s [<-|[]] Hs; cbn in Hs; repeat destruct Hs as [<-|Hs]; try exact I; destruct Hs|].
    intros c [<-|[]]; apply Hw. exists [], [SPseudoClass "hover"]. split; [reflexivity|]. intros s [<-|[]]. reflexivity.
Qed.
Example C86_meets : exists v0, from_document world 20 list_page (mkCss list_rules ∅) = Ok v0 /\
  extended (fun r => by_kind r /\ without_element v0 r) list_rules more_rules.
Proof.
  assert (H : succeeds (from_document world 20 list_page (mkCss list_rules ∅))
    (fun v => forallb (fun n => match get_ctx (v_tree v) n with Some e => negb (String.eqb (e_tag e) "p") | None => true end) (seq 0 (t_next (v_tree v))) = true)) by witness.
  destruct H as (v0 & H0 & Hp). exists v0. split; [exact H0|]. apply no_paragraphs; [exact Hp|].
  exact (SpecLive.live_beyond _ _ (LiveView.so_live _ (LiveView.from_document_sound _ _ _ _ _ H0))).
Qed.
