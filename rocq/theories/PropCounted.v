(** * Pages whose animations end every history: C39, continued.

    Vocabulary: SpecEnds.v ([ends], [ranked], [halting]), SpecCounted.v ([careful_css],
    [counted_value], [slow_value], [short_frame]), SpecPage.v ([inline_along]). *)
From Coq Require Import ZArith Reals Lia Lra.
From stdpp Require Import gmap.
From RecordUpdate Require Import RecordUpdate.
From Flocq Require Import Core.Core IEEE754.BinarySingleNaN.
From Verif Require Import Str F32 Res ResFacts Json PropKey Html Css Element Tree ViewModel Render Update Matching
  Cascade Initial Animation Apply Styling Events View SpecLive SpecView SpecTree SpecSelect SpecStyle SpecShow SpecPage SpecAnim SpecEnds
  FloatFacts AnimFloat AnimProps StyleView StyleRest EndsTimer EndsFacts EndsPage EndsMore SpecCounted CountedFacts MoveSamples Samples PropSelect StyleSamples PropStyle PropAnim PropEnds.
Close Scope R_scope.

(** If no animation is endless and no transition is asked for, every history ends,
    whatever the frame times. *)
Theorem C39_counted_pages_end X fuel doc css v0 hist rank :
  from_document X fuel doc css = Ok v0 -> halting (x_transformers X) -> (forall s, x_order X s ≡ₚ map_to_list s) ->
  ranked rank css -> inline_along (ranked_declaration rank) X v0 hist ->
  careful_css counted_value css -> inline_along (careful_declaration counted_value) X v0 hist ->
  ends (fun fuel => updates X fuel v0 hist).
Proof. exact (counted_ends X fuel doc css v0 hist rank). Qed.
Print Assumptions C39_counted_pages_end.
(** With endless animations of at least 2^m seconds and without negative delays, a
    history of up to 2^23 frames of at most 2^m seconds each ends (at 60 frames a
    second, take m = -6: animations of 16 milliseconds and more, for 38 hours). *)
Theorem C39_endless_pages_end X fuel doc css v0 hist rank m : (-149 <= m <= 100)%Z ->
  from_document X fuel doc css = Ok v0 -> halting (x_transformers X) -> (forall s, x_order X s ≡ₚ map_to_list s) ->
  ranked rank css -> inline_along (ranked_declaration rank) X v0 hist ->
  careful_css (slow_value m) css -> inline_along (careful_declaration (slow_value m)) X v0 hist ->
  Forall (fun e => short_frame m (in_time (fst e))) hist -> (Z.of_nat (List.length hist) <= 2 ^ 23)%Z ->
  ends (fun fuel => updates X fuel v0 hist).
Proof. exact (slow_ends X fuel doc css v0 hist rank m). Qed.
Print Assumptions C39_endless_pages_end.

(** ** Cases *)
(** three laps of an animation, written as a shorthand *)
Definition thrice_css : Css :=
  mkCss [rule [[SType "p"]] [DeclProperty (mkProperty KAnimation [[DExplicit (seconds 2); DExplicit (CKeyword "linear"); DExplicit (CNumber (f32_of_Z 3)); DExplicit (CKeyword "grow")]])]] {["grow" := grow]}.
Lemma world_loads ds : match from_document world 20 spin_page (mkCss [rule [[SType "p"]] ds] {["grow" := grow]}) with Ok _ => true | _ => false end = true ->
  exists v0, from_document world 20 spin_page (mkCss [rule [[SType "p"]] ds] {["grow" := grow]}) = Ok v0.
Proof. destruct (from_document world 20 spin_page _) as [v0| | |]; intros H; try discriminate H. by exists v0. Qed.
Lemma world_halts : halting (x_transformers world).
Proof. intros name f w Hf. assert (E : Some f = None) by (etransitivity; [symmetry; exact Hf|exact (lookup_empty name)]). discriminate E. Qed.
Lemma grows_quietly name an kf : ({["grow" := grow]} : gmap string Animation) !! name = Some an -> kf ∈ an_keyframes an -> Forall quiet_declaration (kf_declaration kf).
Proof.
  intros H Hk. apply lookup_singleton_Some in H as [_ <-]. unfold grow in Hk. cbn [an_keyframes] in Hk.
  apply elem_of_cons in Hk as [->|Hk]; [|apply elem_of_list_singleton in Hk as ->]; cbn [kf_declaration]; (apply list.Forall_cons; split; [reflexivity|constructor]).
Qed.
Lemma modest_two : modest (f32_of_Z 2) /\ (bpow radix2 0 <= B2R (f32_of_Z 2))%R.
Proof.
  destruct (f32_int 2 ltac:(lia)) as [F E]. unfold modest. rewrite E. split; [split; [exact F|]|change (bpow radix2 0) with 1%R; lra]. split; [lra|].
  apply Rle_trans with (bpow radix2 1); [change (bpow radix2 1) with 2%R; lra|apply bpow_le; lia].
Qed.
Lemma world_inline P v hist fuel v0 : from_document world fuel spin_page v = Ok v0 -> inline_along P world v0 hist.
Proof. intros H. exact (along_read world fuel _ _ v0 [] v0 [] _ _ H eq_refl (fun _ ds Hs => ltac:(discriminate Hs))). Qed.
Example thrice_ends : exists v0 rank, from_document world 20 spin_page thrice_css = Ok v0 /\ halting (x_transformers world) /\ (forall s, x_order world s ≡ₚ map_to_list s) /\
  ranked rank thrice_css /\ careful_css counted_value thrice_css /\
  forall hist, inline_along (ranked_declaration rank) world v0 hist /\ inline_along (careful_declaration counted_value) world v0 hist.
Proof.
  unfold thrice_css. match goal with |- context [rule _ ?d] => destruct (world_loads d) as [v0 H0]; [vm_compute; reflexivity|] end.
  exists v0, (fun _ => 0). split; [exact H0|]. split; [exact world_halts|]. split; [intros s; reflexivity|]. split; [|split; [split; [|exact grows_quietly]|]].
  - intros s Hs. cbn [css_styles] in Hs. apply elem_of_list_singleton in Hs as ->. apply list.Forall_cons. split; [exact I|constructor].
  - intros s Hs. cbn [css_styles] in Hs. apply elem_of_list_singleton in Hs as ->. apply list.Forall_cons. split; [|constructor].
    right. cbn [p_key p_values]. split; [by left|]. intros sh [<-|[]]. eexists [_; _; _; _]. split; [reflexivity|]. cbn [expand]. intros k v Hin. unfold seconds in Hin.
    destruct Hin as [[= <- <-]|[[= <- <-]|[[= <- <-]|[[= <- <-]|[]]]]]; cbn [counted_value]; [apply modest_two| |exact I|exact I].
    change (few (f32_of_Z 3)). destruct (f32_int 3 ltac:(lia)) as [F E]. split; [exact F|]. rewrite E. change (bpow radix2 23) with 8388608%R. lra.
  - intros hist. split; by eapply world_inline.
Qed.
(** the endless animation of PropEnds.v, with frames of up to a second *)
Example spin_ends : exists v0 rank, from_document world 20 spin_page (spin_css 2 0) = Ok v0 /\ halting (x_transformers world) /\ (forall s, x_order world s ≡ₚ map_to_list s) /\
  ranked rank (spin_css 2 0) /\ careful_css (slow_value 0) (spin_css 2 0) /\ short_frame 0 (in_time second) /\
  forall hist, inline_along (ranked_declaration rank) world v0 hist /\ inline_along (careful_declaration (slow_value 0)) world v0 hist.
Proof.
  unfold spin_css. match goal with |- context [rule _ ?d] => destruct (world_loads d) as [v0 H0]; [vm_compute; reflexivity|] end.
  exists v0, (fun _ => 0). split; [exact H0|]. split; [exact world_halts|]. split; [intros s; reflexivity|]. split; [|split; [split; [|exact grows_quietly]|split]].
  - intros s Hs. cbn [css_styles] in Hs. apply elem_of_list_singleton in Hs as ->. repeat (apply list.Forall_cons; split; [exact I|]). constructor.
  - intros s Hs. cbn [css_styles] in Hs. apply elem_of_list_singleton in Hs as ->. cbn [s_declaration rule].
    assert (G : forall k w, place_of k = PlAnimators -> expand k [w] = [(k, w)] -> slow_value 0 k w -> careful_declaration (slow_value 0) (give k w)).
    { intros k w Hk He Hw. right. cbn [p_key p_values]. split; [by right|]. intros sh [<-|[]]. exists [w]. split; [reflexivity|]. intros k' v Hin. rewrite He in Hin. destruct Hin as [[= <- <-]|[]]. exact Hw. }
    repeat (apply list.Forall_cons; split); [by apply G| | |by apply G|constructor].
    + apply G; [reflexivity..|]. split; [exact (proj1 (proj1 modest_two))|]. split; [exact (proj2 modest_two)|apply modest_two].
    + apply G; [reflexivity..|]. destruct (f32_int 0 ltac:(lia)) as [F E]. split; [exact F|]. rewrite E. lra.
  - destruct (f32_int 1 ltac:(lia)) as [F E]. split; [exact F|]. change (in_time second) with (f32_of_Z 1). rewrite E. change (bpow radix2 0) with 1%R. lra.
  - intros hist. split; by eapply world_inline.
Qed.
