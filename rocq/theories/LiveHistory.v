(** * Any number of updates *)
From Coq Require Import ZArith Lia.
From stdpp Require Import gmap.
From RecordUpdate Require Import RecordUpdate.
From Verif Require Import Str StrFacts F32 Res ResFacts Json JsonFacts PropKey Html Css Element Tree ViewModel Render Update Matching
  Cascade Initial Animation Apply Styling Events View
  SpecBind SpecReact SpecLive SpecLog SpecView SpecRender SpecTree BindFacts ConformFacts ChangeFacts BindProps FrameFacts
  RenderTree RenderNode RenderProps RenderAny RenderMore LiveFacts LiveUpdate LiveView LiveSlots LiveValues LiveAlone.

Lemma updates_reacted X fuel : forall hist v v' os, updates X fuel v hist = Ok (v', os) -> exists log, reacted X fuel v hist v' log.
Proof.
  induction hist as [|[i x] hist IH]; intros v v' os H; cbn [updates] in H; [injection H as <- _; exists []; constructor|].
  apply bindR_Ok in H as ([v1 o1] & H1 & H). apply bindR_Ok in H as ([v2 os2] & H2 & H). injection H as <- <-.
  destruct (IH _ _ _ H2) as (log & Hl). pose proof H1 as H1'. apply update_content in H1' as (m & rs & _ & _ & Hb & _).
  exists (rs ++ log). by econstructor.
Qed.
Lemma reacted_updates X fuel v hist v' log : reacted X fuel v hist v' log -> exists os, updates X fuel v hist = Ok (v', os).
Proof.
  induction 1 as [|v i x hist m rs v1 o v' log Hb Hu _ (os & IH)]; [by exists []|]. exists (o :: os). cbn [updates]. rewrite Hu. cbn. by rewrite IH.
Qed.

Lemma update_keeps X fuel v i x v' o : sound v -> update X fuel v i x = Ok (v', o) ->
  v_bindings v' = v_bindings v /\ v_transformers v' = v_transformers v /\ same_definitions (v_tree v) (v_tree v') /\ v_root v' = v_root v /\ v_body v' = v_body v.
Proof.
  intros Hs H. apply update_content in H as (m & rs & t & ids & Hb & Ht & _ & _ & Hc & Hbs & _ & Htr & _ & Hr & Hbo).
  destruct (update_trees_ok (x_read_inline_css X) rs (v_tree v) (v_ids v) (v_root v) (so_live _ Hs) (view_bind_reactions_ok _ _ _ _ _ Hs Hb)) as (t2 & ids2 & H2 & _ & Hd).
  rewrite Ht in H2. injection H2 as <- <-. do 2 (split; [done|]). split; [|done]. eapply same_def_trans; [exact Hd|by apply shown_def, content_shown].
Qed.
Lemma reacted_keeps X fuel v hist v' log : reacted X fuel v hist v' log -> sound v ->
  v_bindings v' = v_bindings v /\ v_transformers v' = v_transformers v /\ same_definitions (v_tree v) (v_tree v') /\ v_root v' = v_root v /\ v_body v' = v_body v /\ sound v'.
Proof.
  induction 1 as [|v i x hist m rs v1 o v' log Hb Hu _ IH]; intros Hs; [done|].
  destruct (update_keeps _ _ _ _ _ _ _ Hs Hu) as (K1 & K2 & K3 & K4 & K5). destruct (IH (update_sound _ _ _ _ _ _ _ Hs Hu)) as (L1 & L2 & L3 & L4 & L5 & L6).
  split; [congruence|]. split; [congruence|]. split; [by eapply same_def_trans|]. split; [congruence|]. split; [congruence|]. done.
Qed.

(** ** Any slot *)
Lemma last_written_app l a b : last_written l (a ++ b) = match last_written l b with Some w => Some w | None => last_written l a end.
Proof. induction a as [|r a IH]; cbn; [by destruct (last_written l b)|]. rewrite IH. by destruct (last_written l b). Qed.

Definition undisturbed (t : Tree) (bs : Bindings) (l : slot) : Prop :=
  forall p b, In (p, b) (flat bs) -> ~ disturbs t l (slot_of (bd_params b)).

Lemma update_shows X fuel v i x v' o m rs l : sound v -> undisturbed (v_tree v) (v_bindings v) l ->
  view_bind X v x = Ok (m, rs) -> update X fuel v i x = Ok (v', o) ->
  forall w, (last_written l rs = Some w \/ (last_written l rs = None /\ shows (v_tree v) l w)) -> shows (v_tree v') l w.
Proof.
  intros Hs Hun Hb H w Hw. apply update_content in H as (m' & rs' & t & ids & Hb' & Ht & _ & _ & Hc & _).
  rewrite Hb in Hb'. injection Hb' as <- <-. eapply shown_shows; [by apply content_shown|].
  eapply update_trees_shows; [apply (so_live _ Hs)|by eapply view_bind_reactions_ok|by eapply view_bind_in_text| |exact Ht|exact Hw].
  unfold view_bind in Hb. apply bindR_Ok in Hb as ([[m' ch] rs'] & Hb & [= <- <-]).
  eapply bind_reacts; [|exact Hb]. intros q w' rs Hr. eapply Forall_impl; [|by eapply react_from]. cbv beta.
  intros r (b' & w2 & Hb' & ->). rewrite react_expected, writes_expected. by eapply Hun.
Qed.

Lemma reacted_shows X fuel v hist v' log : reacted X fuel v hist v' log -> forall l, sound v -> undisturbed (v_tree v) (v_bindings v) l ->
  forall w, (last_written l log = Some w \/ (last_written l log = None /\ shows (v_tree v) l w)) -> shows (v_tree v') l w.
Proof.
  induction 1 as [|v i x hist m rs v1 o v' log Hb Hu _ IH]; intros l Hs Hun w Hw.
  - destruct Hw as [Hw|[_ Hw]]; done.
  - destruct (update_keeps _ _ _ _ _ _ _ Hs Hu) as (K1 & K2 & K3 & K4 & _). apply (IH l (update_sound _ _ _ _ _ _ _ Hs Hu)).
    + rewrite K1. intros p b Hin Hd. eapply Hun; [exact Hin|]. by eapply disturbs_def.
    + rewrite last_written_app in Hw. destruct (last_written l log) as [w'|].
      * left. by destruct Hw as [Hw|[Hw _]].
      * right. split; [done|]. eapply update_shows; [exact Hs|exact Hun|exact Hb|exact Hu|exact Hw].
Qed.

(** ** The loaded view *)
Lemma loaded X fuel doc css v0 : from_document X fuel doc css = Ok v0 -> exists rn t ids0,
  marks_ok rn /\ flat (v_bindings v0) ≡ₚ bindings_of 1 rn /\ obj_sorted (v_bindings v0) = true /\ live t 0 /\ same_definitions t (v_tree v0) /\
  (forall n, n <> 0 -> attached t n = defined t n) /\ attached t 0 = [1] /\
  update_trees (x_read_inline_css X) (t, ids0) (default_reactions (v_bindings v0)) = Ok (v_tree v0, v_ids v0) /\
  ids0 = add_ids ∅ (ids_of 1 rn) /\
  Forall (reaction_ok t) (default_reactions (v_bindings v0)) /\
  (exists t0, rendered (x_read_inline_css X) t0 rn /\ same_shown t0 t) /\ v_root v0 = 0.
Proof.
  intros H. apply from_document_stages in H as (templates & body & r & root & b & t & rn & ps & _ & _ & Hm & Hre & Hfl & Hso & Hid & _ & _ & Hsh & Hb & Ha & Hr0 & _).
  destruct (rendered_live _ _ _ Hm Hre) as (Hl & Hat & H1). pose proof (shown_live _ _ _ Hsh Hl) as Hl'.
  exists rn, t, (r_static_id r). do 4 (split; [done|]). pose proof (default_reactions_ok _ _ Hb) as Hok.
  destruct (update_trees_ok (x_read_inline_css X) _ t (r_static_id r) 0 Hl' Hok) as (t' & ids' & H' & Hl2 & Hd).
  unfold apply_default_bindings_state in Ha. rewrite Ha in H'. injection H' as Heq _. subst t'. split; [done|].
  split. { intros n Hn. rewrite (shown_attached _ _ _ Hsh), (same_def_defined _ _ _ (shown_def _ _ Hsh)). by apply Hat. }
  split. { by rewrite (shown_attached _ _ _ Hsh). }
  split; [done|]. split; [done|]. split; [done|]. split; [|done]. by exists (r_tree r).
Qed.

Lemma loaded_alone X fuel doc css v0 p b : from_document X fuel doc css = Ok v0 -> In (p, b) (flat (v_bindings v0)) ->
  match bd_params b with BText _ _ | BVisibility _ _ _ => True | BRepeat _ _ z => 0 < z | _ => False end ->
  alone (v_tree v0) (v_bindings v0) p b.
Proof.
  intros H Hin Hk. apply loaded in H as (rn & t & ids0 & Hm & Hfl & _ & _ & Hd & _ & _ & _ & _ & _ & (t0 & Hre & Hsh) & _).
  eapply alone_def; [eapply same_def_trans; [apply shown_def, Hsh|exact Hd]|].
  destruct (bd_params b) eqn:E; try done; [by eapply text_alone|by eapply child_alone|by eapply range_alone].
Qed.

(** reactions at load time: hide everything conditional *)
Lemma default_reactions_in bs r : In r (default_reactions bs) <-> exists p b q c v, In (p, b) (flat bs) /\ bd_params b = BVisibility q c v /\ r = RReattach q c false.
Proof.
  unfold default_reactions. rewrite in_flat_map. split.
  - intros ([p l] & Hp & Hr). apply elem_of_list_In, elem_of_list_omap in Hr as (b & Hbl & Hr). cbn [snd] in Hbl. apply elem_of_list_In in Hbl.
    destruct (bd_params b) as [|q c v| | |] eqn:E; try done. injection Hr as <-. exists p, b, q, c, v. split; [|done]. apply in_flat. eauto.
  - intros (p & b & q & c & v & Hin & Hb & ->). apply in_flat in Hin as (l & Hp & Hl). exists (p, l). split; [done|].
    apply elem_of_list_In, elem_of_list_omap. exists b. cbn [snd]. split; [by apply elem_of_list_In|]. by rewrite Hb.
Qed.

Lemma loaded_shows X fuel doc css v0 l : from_document X fuel doc css = Ok v0 -> undisturbed (v_tree v0) (v_bindings v0) l ->
  exists t, same_definitions t (v_tree v0) /\ (forall n, n <> 0 -> attached t n = defined t n) /\ attached t 0 = [1] /\
  forall w, (last_written l (default_reactions (v_bindings v0)) = Some w \/ (last_written l (default_reactions (v_bindings v0)) = None /\ shows t l w)) ->
    shows (v_tree v0) l w.
Proof.
  intros H Hun. apply loaded in H as (rn & t & ids0 & Hm & Hfl & Hso & Hl & Hd & Hat & H1 & Hu & _ & Hok & _).
  exists t. split; [done|]. split; [done|]. split; [done|]. intros w Hw. eapply update_trees_shows; [exact Hl|exact Hok| | |exact Hu|exact Hw].
  - apply List.Forall_forall. intros r Hr n i x ->. apply default_reactions_in in Hr as (p & b & q & c & v & _ & _ & Hr). done.
  - apply List.Forall_forall. intros r Hr Hdi. apply default_reactions_in in Hr as (p & b & q & c & v & Hin & Hb & ->).
    eapply (Hun _ _ Hin). rewrite Hb. cbn. eapply disturbs_def; [apply same_def_sym; exact Hd|]. exact Hdi.
Qed.

(** ** Conditional children *)
Lemma child_history X fuel doc css v0 hist v log p b q c vis :
  from_document X fuel doc css = Ok v0 -> reacted X fuel v0 hist v log ->
  In (p, b) (flat (v_bindings v0)) -> bd_params b = BVisibility q c vis ->
  (c ∈ attached (v_tree v) q <-> last_written (SChild q c) log = Some (WFlag true)).
Proof.
  intros H0 Hr Hin Hb. pose proof (from_document_sound _ _ _ _ _ H0) as Hs.
  assert (Hun : undisturbed (v_tree v0) (v_bindings v0) (SChild q c)).
  { pose proof (loaded_alone _ _ _ _ _ _ _ H0 Hin) as Hal. rewrite Hb in Hal. specialize (Hal I).
    intros p' b' Hin'. destruct (Hal _ _ Hin') as [_ Hd]. by rewrite Hb in Hd. }
  destruct (loaded_shows _ _ _ _ _ _ H0 Hun) as (t & _ & _ & _ & Hld).
  assert (H1 : shows (v_tree v0) (SChild q c) (WFlag false)).
  { apply Hld. left. apply last_written_all.
    - intros r Hr' Hw. apply default_reactions_in in Hr' as (p' & b' & q' & c' & v' & _ & _ & ->). cbn in *. done.
    - exists (RReattach q c false). split; [|done]. apply default_reactions_in. exists p, b, q, c, vis. done. }
  assert (Hk : forall w, last_written (SChild q c) log = Some w -> exists f, w = WFlag f).
  { intros w Hw. apply last_written_in in Hw as (r & _ & Hw). destruct r; cbn in Hw; try done. injection Hw as _ _ <-. eauto. }
  pose proof (reacted_shows _ _ _ _ _ _ Hr (SChild q c) Hs Hun) as Hsh.
  destruct (last_written (SChild q c) log) as [w|] eqn:E.
  - destruct (Hk _ eq_refl) as [f ->]. specialize (Hsh (WFlag f) ltac:(by left)). cbn in Hsh. rewrite Hsh. split; [by intros ->|]. by intros [= ->].
  - specialize (Hsh (WFlag false) ltac:(by right)). cbn in Hsh. rewrite Hsh. done.
Qed.

(** ** Repeated children *)
Lemma range_history X fuel doc css v0 hist v log p b q s z :
  from_document X fuel doc css = Ok v0 -> reacted X fuel v0 hist v log ->
  In (p, b) (flat (v_bindings v0)) -> bd_params b = BRepeat q s z ->
  forall j c, j < z -> defined (v_tree v) q !! (s + j) = Some c ->
  (c ∈ attached (v_tree v) q <-> forall k, last_written (SRange q s z) log = Some (WCount k) -> j < k).
Proof.
  intros H0 Hr Hin Hb j c Hj Hc. pose proof (from_document_sound _ _ _ _ _ H0) as Hs.
  assert (Hun : undisturbed (v_tree v0) (v_bindings v0) (SRange q s z)).
  { pose proof (loaded_alone _ _ _ _ _ _ _ H0 Hin) as Hal. rewrite Hb in Hal. specialize (Hal ltac:(lia)).
    intros p' b' Hin'. destruct (Hal _ _ Hin') as [_ Hd]. by rewrite Hb in Hd. }
  assert (Hq : q <> 0).
  { intros ->. pose proof (live_root _ _ (so_live _ (proj2 (proj2 (proj2 (proj2 (proj2 (reacted_keeps _ _ _ _ _ _ Hr Hs)))))))) as [Hd _].
    destruct (reacted_keeps _ _ _ _ _ _ Hr Hs) as (_ & _ & _ & Hrt & _ & Hsv). rewrite (so_root _ Hsv) in Hd. rewrite Hd in Hc. done. }
  destruct (loaded_shows _ _ _ _ _ _ H0 Hun) as (t & Hd & Hat & _ & Hld).
  assert (H1 : shows (v_tree v0) (SRange q s z) (WCount z)).
  { apply Hld. right. split.
    - apply last_written_none. intros r Hr' Hw. apply default_reactions_in in Hr' as (p' & b' & q' & c' & v' & _ & _ & ->). cbn in *. done.
    - cbn. intros j' c' Hj' Hc'. rewrite Hat by done. split; [done|]. intros _. by eapply elem_of_list_lookup_2. }
  assert (Hk : forall w, last_written (SRange q s z) log = Some w -> exists f, w = WCount f).
  { intros w Hw. apply last_written_in in Hw as (r & _ & Hw). destruct r; cbn in Hw; try done. injection Hw as _ _ _ <-. eauto. }
  pose proof (reacted_shows _ _ _ _ _ _ Hr (SRange q s z) Hs Hun) as Hsh.
  destruct (last_written (SRange q s z) log) as [w|] eqn:E.
  - destruct (Hk _ eq_refl) as [f ->]. specialize (Hsh (WCount f) ltac:(by left)). rewrite (Hsh j c Hj Hc). split; [by intros ? ? [= <-]|]. intros H. by apply H.
  - specialize (Hsh (WCount z) ltac:(by right)). rewrite (Hsh j c Hj Hc). done.
Qed.

(** ** Children nothing is bound to *)
Lemma plain_history X fuel doc css v0 hist v log q c :
  from_document X fuel doc css = Ok v0 -> reacted X fuel v0 hist v log -> c ∈ defined (v_tree v) q ->
  (forall p b, In (p, b) (flat (v_bindings v0)) -> match bd_params b with
     | BVisibility q' c' _ => (q', c') <> (q, c)
     | BRepeat q' s z => q' = q -> c ∉ block s (s + z) (defined (v_tree v) q)
     | _ => True end) -> c ∈ attached (v_tree v) q.
Proof.
  intros H0 Hr Hc Hno. pose proof (from_document_sound _ _ _ _ _ H0) as Hs.
  destruct (reacted_keeps _ _ _ _ _ _ Hr Hs) as (_ & _ & Hd & Hrt & _ & Hsv).
  assert (Hun : undisturbed (v_tree v0) (v_bindings v0) (SChild q c)).
  { intros p' b' Hin'. specialize (Hno _ _ Hin'). destruct (bd_params b'); cbn; try tauto. intros [-> Hx]. rewrite (same_def_defined _ _ _ Hd) in Hno. by apply Hno. }
  assert (Hq : q <> 0).
  { intros ->. pose proof (live_root _ _ (so_live _ Hsv)) as [Hd0 _]. rewrite (so_root _ Hsv) in Hd0. rewrite Hd0 in Hc. by apply elem_of_nil in Hc. }
  destruct (loaded_shows _ _ _ _ _ _ H0 Hun) as (t & Hd0 & Hat & _ & Hld).
  assert (Hnw : forall rs, Forall (fun r => exists p b w, In (p, b) (flat (v_bindings v0)) /\ fst (writes r) = slot_of (bd_params b) /\ snd (writes r) = w) rs -> last_written (SChild q c) rs = None).
  { intros rs Hrs. apply last_written_none. intros r Hr' Hw. rewrite List.Forall_forall in Hrs. destruct (Hrs _ Hr') as (p & b & w & Hin & Hsl & _).
    specialize (Hno _ _ Hin). rewrite Hw in Hsl. destruct (bd_params b); cbn in Hsl; try done. injection Hsl as <- <-. done. }
  assert (H1 : shows (v_tree v0) (SChild q c) (WFlag true)).
  { apply Hld. right. split.
    - apply Hnw. apply List.Forall_forall. intros r Hr'. apply default_reactions_in in Hr' as (p & b & q' & c' & v' & Hin & Hb & ->). exists p, b. rewrite Hb. eauto.
    - cbn. rewrite Hat by done. split; [done|]. intros _. rewrite (same_def_defined _ _ _ Hd), (same_def_defined _ _ _ Hd0) in Hc. done. }
  assert (Hlog : last_written (SChild q c) log = None).
  { apply Hnw. clear - Hr Hs. induction Hr as [|v i x hist m rs v1 o v' log Hb Hu _ IH]; [constructor|].
    destruct (update_keeps _ _ _ _ _ _ _ Hs Hu) as (K1 & _). apply Forall_app. split; [|rewrite <- K1; apply IH; by eapply update_sound].
    unfold view_bind in Hb. apply bindR_Ok in Hb as ([[m' ch] rs'] & Hb & [= <- <-]).
    eapply bind_reacts; [|exact Hb]. intros q w' rs Hr. eapply Forall_impl; [|by eapply react_from]. cbv beta.
    intros r (b' & w2 & Hb' & ->). exists q, b'. rewrite react_expected, writes_expected. eauto. }
  apply (reacted_shows _ _ _ _ _ _ Hr (SChild q c) Hs Hun (WFlag true)); [by right|done].
Qed.

(** ** Scalars *)
Lemma scalar_history X fuel doc css v0 sh hist v log pos b :
  from_document X fuel doc css = Ok v0 -> v_model v0 = initial_model sh -> wf_shape sh = true ->
  Forall (fun e => fits sh (snd e) = true) hist -> reacted X fuel v0 hist v log ->
  In (pointer_string pos, b) (flat (v_bindings v0)) -> alone (v_tree v0) (v_bindings v0) (pointer_string pos) b -> shape_at sh pos = Some SLeaf ->
  current X v pos b.
Proof.
  intros H0 Hm Hw Hf Hr Hin Hal Hsh. pose proof (from_document_sound _ _ _ _ _ H0) as Hs. pose proof (from_document_shaped _ _ _ _ _ _ H0 Hm Hw) as Hsd.
  pose proof (loaded _ _ _ _ _ H0) as (_ & _ & _ & _ & _ & Hso & _).
  assert (Hc0 : current X v0 pos b).
  { intros w Hv Hn. rewrite Hm in Hv. by apply (initial_leaf _ _ _ Hsh) in Hv. }
  clear H0 Hm Hw. induction Hr as [|v i x hist m rs v1 o v' log Hb Hu _ IH]; [done|].
  inversion Hf as [|? ? Hx Hf']; subst. cbn in Hx. destruct (update_keeps _ _ _ _ _ _ _ Hs Hu) as (K1 & K2 & K3 & _).
  apply IH; try done.
  - by rewrite K1.
  - rewrite K1. by eapply alone_def.
  - by eapply update_sound.
  - by eapply update_shaped.
  - by rewrite K1.
  - by eapply update_current.
Qed.
