(** * Invariants of the page over any history: order of children, joined
      attributes, ids *)
From Coq Require Import ZArith Lia.
From stdpp Require Import gmap.
From RecordUpdate Require Import RecordUpdate.
From Verif Require Import Str StrFacts F32 Res ResFacts Json JsonFacts PropKey Html Css Element Tree ViewModel Render Update Matching
  Cascade Initial Animation Apply Styling Events View
  SpecBind SpecReact SpecLive SpecLog SpecView SpecRender SpecTree BindFacts ConformFacts ChangeFacts BindProps FrameFacts
  RenderTree RenderNode RenderProps RenderAny RenderMore LiveFacts LiveUpdate LiveView LiveSlots LiveValues LiveAlone LiveHistory.

(** ** Invariants *)
Definition step_keeps (I : Tree -> gmap string NodeId -> Prop) (r : Reaction) : Prop :=
  forall t t' ids, live t 0 -> reaction_ok t r -> same_definitions t t' -> effect t t' r -> I t ids -> I t' (ids_after r t' ids).

Lemma update_trees_inv ric I rs : forall t ids t' ids', live t 0 -> Forall (reaction_ok t) rs ->
  (forall r, In r rs -> step_keeps I r) -> update_trees ric (t, ids) rs = Ok (t', ids') -> I t ids -> I t' ids'.
Proof.
  induction rs as [|r rs IH]; intros t ids t' ids' Hl Hrs Hst H HI; [by injection H as <- <-|].
  inversion Hrs as [|? ? Hr Hrs']; subst. destruct (update_tree_ok ric t ids 0 r Hl Hr) as (t1 & H1 & Hl1 & Hs1 & He).
  unfold update_trees in H. cbn [foldR] in H. rewrite H1 in H. cbn [bindR] in H. eapply IH; [exact Hl1| | |exact H|].
  - eapply Forall_impl; [|exact Hrs']. intros r' Hr'. by eapply reaction_ok_def.
  - intros r' Hr'. apply Hst. by right.
  - apply (Hst r ltac:(by left) t t1 ids Hl Hr Hs1 He HI).
Qed.

Lemma history_inv X fuel doc css v0 hist v log (I : Tree -> gmap string NodeId -> Prop) :
  from_document X fuel doc css = Ok v0 -> reacted X fuel v0 hist v log ->
  (forall t t' ids, same_shown t t' -> I t ids -> I t' ids) ->
  (forall p b r, In (p, b) (flat (v_bindings v0)) -> fst (writes r) = slot_of (bd_params b) -> step_keeps I r) ->
  I (v_tree v0) (v_ids v0) -> I (v_tree v) (v_ids v).
Proof.
  intros H0 Hr Hsh Hst HI. pose proof (from_document_sound _ _ _ _ _ H0) as Hs. clear H0.
  induction Hr as [|v i x hist m rs v1 o v' log Hb Hu _ IH]; [done|].
  destruct (update_keeps _ _ _ _ _ _ _ Hs Hu) as (K1 & _). apply IH.
  - by rewrite K1.
  - pose proof Hu as Hu'. apply update_content in Hu' as (m' & rs' & t & ids & Hb' & Ht & _ & Hid & Hc & _).
    rewrite Hb in Hb'. injection Hb' as <- <-. rewrite Hid. eapply Hsh; [by apply content_shown|].
    pose proof (so_live _ Hs) as Hl. rewrite (so_root _ Hs) in Hl.
    eapply update_trees_inv; [exact Hl|by eapply view_bind_reactions_ok| |exact Ht|done].
    apply List.Forall_forall. unfold view_bind in Hb. apply bindR_Ok in Hb as ([[m' ch] rs'] & Hb & [= <- <-]).
    eapply bind_reacts; [|exact Hb]. intros q w' rs Hr'. eapply Forall_impl; [|by eapply react_from]. cbv beta.
    intros r (b' & w2 & Hb'' & ->). eapply Hst; [exact Hb''|]. by rewrite react_expected, writes_expected.
  - by eapply update_sound.
Qed.
Lemma load_inv X fuel doc css v0 (I : Tree -> gmap string NodeId -> Prop) :
  from_document X fuel doc css = Ok v0 ->
  (forall p b r, In (p, b) (flat (v_bindings v0)) -> fst (writes r) = slot_of (bd_params b) -> step_keeps I r) ->
  (forall t ids, live t 0 -> same_definitions t (v_tree v0) -> (forall n, n <> 0 -> attached t n = defined t n) -> I t ids) ->
  I (v_tree v0) (v_ids v0).
Proof.
  intros H0 Hst Hld. apply loaded in H0 as (rn & t & ids0 & Hm & Hfl & Hso & Hl & Hd & Hat & H1 & Hu & _ & Hok & _).
  eapply update_trees_inv; [exact Hl|exact Hok| |exact Hu|by apply Hld].
  intros r Hr. apply default_reactions_in in Hr as (p & b & q & c & v & Hin & Hb & ->). eapply Hst; [exact Hin|]. by rewrite Hb.
Qed.

(** ** Order *)
Lemma sublist_filter_self (l k : list nat) : sublist l k -> NoDup k -> l = filter (fun d => d ∈ l) k.
Proof.
  induction 1 as [|x l k Hs IH|x l k Hs IH]; intros Hnd; [done|..]; apply list.NoDup_cons in Hnd as [Hx Hnd].
  - rewrite filter_cons_True by set_solver. f_equal. rewrite (IH Hnd) at 1. apply filter_ext_in. intros d Hd. rewrite elem_of_cons.
    split; [by right|]. by intros [->|Hin].
  - rewrite filter_cons_False; [by apply IH|]. intros Hl. apply Hx. by eapply sublist_elem.
Qed.
Lemma sublist_filter (P : nat -> Prop) `{!forall x, Decision (P x)} (l : list nat) : sublist (filter P l) l.
Proof.
  induction l as [|x l IH]; [done|]. destruct (decide (P x)); [rewrite filter_cons_True by done|rewrite filter_cons_False by done]; by constructor.
Qed.
Lemma filter_nil_in (P : nat -> Prop) `{!forall x, Decision (P x)} (l : list nat) : (forall d, d ∈ l -> ~ P d) -> filter P l = [].
Proof.
  induction l as [|x l IH]; intros Hno; [done|]. rewrite filter_cons_False by (apply Hno; set_solver). apply IH. intros d Hd. apply Hno. set_solver.
Qed.
Lemma block_split a m b (l : list nat) : a <= m <= b -> block a b l = block a m l ++ block m b l.
Proof.
  intros H. unfold block. rewrite <- (take_drop (m - a) (take (b - a) (drop a l))). f_equal.
  - rewrite take_take. f_equal. lia.
  - rewrite skipn_firstn_comm, drop_drop. f_equal; [lia|]. f_equal. lia.
Qed.
Lemma block_drop m b (l : list nat) : sublist (block m b l) (drop m l).
Proof. unfold block. apply sublist_take. Qed.

Lemma repeat_in_order (D A : list nat) s c k : NoDup D -> sublist A D -> s <= c <= List.length D ->
  (forall j d, s + j < List.length D -> D !! (s + j) = Some d -> (d ∈ A <-> j < k)) ->
  sublist (filter (fun d => d ∉ block c (List.length D) D) A ++ filter (fun d => d ∉ A) (block s c D)) D.
Proof.
  intros Hnd Hs Hc Hk. set (m := s + Nat.min k (c - s)). 
  cut (sublist (filter (fun d => d ∉ block c (List.length D) D) A ++ filter (fun d => d ∉ A) (block s c D)) (take m D ++ drop m D)); [by rewrite take_drop|].
  apply sublist_app.
  - assert (Hself : filter (fun d => d ∉ block c (List.length D) D) A = filter (fun d => d ∉ block c (List.length D) D /\ d ∈ A) (take m D ++ drop m D)).
    { rewrite take_drop. rewrite (sublist_filter_self A D) at 1 by done. by rewrite list_filter_filter. }
    rewrite Hself, list.filter_app, (filter_nil_in _ (drop m D)); [rewrite app_nil_r; apply sublist_filter|].
    intros d Hd [Hd1 Hd2]. apply elem_of_list_lookup in Hd as [i Hi]. rewrite lookup_drop in Hi. pose proof (lookup_lt_Some _ _ _ Hi).
    rewrite (block_index _ _ _ _ _ Hnd Hi) in Hd1.
    specialize (Hk (m - s + i) d). replace (s + (m - s + i)) with (m + i) in Hk by lia. specialize (Hk ltac:(lia) Hi). apply Hk in Hd2. lia.
  - rewrite (block_split s m c) by lia. rewrite list.filter_app, filter_nil_in; [cbn; etransitivity; [apply sublist_filter|apply block_drop]|].
    intros d Hd Hno. apply block_lookup in Hd as (j & Hj & Hd). apply Hno. apply (Hk j); [by eapply lookup_lt_Some|done|lia].
Qed.

Definition ranged (v0 : View) (q : NodeId) : Prop :=
  forall p b s z, In (p, b) (flat (v_bindings v0)) -> bd_params b = BRepeat q s z -> 0 < z -> s + z = List.length (defined (v_tree v0) q).

Lemma order_history X fuel doc css v0 hist v log q : from_document X fuel doc css = Ok v0 -> reacted X fuel v0 hist v log ->
  q <> v_root v0 -> ranged v0 q -> in_order (attached (v_tree v) q) (defined (v_tree v) q).
Proof.
  intros H0 Hr Hq Hrg. pose proof (from_document_sound _ _ _ _ _ H0) as Hs. rewrite (so_root _ Hs) in Hq.
  set (I := fun (t : Tree) (ids : gmap string NodeId) => same_definitions t (v_tree v0) /\ in_order (attached t q) (defined t q) /\
    forall p b s z, In (p, b) (flat (v_bindings v0)) -> bd_params b = BRepeat q s z -> 0 < z -> exists k, shows t (SRange q s z) (WCount k)).
  assert (Hsame : forall t t' ids, same_shown t t' -> I t ids -> I t' ids).
  { intros t t' ids Hsh (I1 & I2 & I3). split; [eapply same_def_trans; [apply same_def_sym, shown_def, Hsh|done]|].
    rewrite (shown_attached _ _ _ Hsh), (same_def_defined _ _ _ (shown_def _ _ Hsh)). split; [done|]. intros p b s z Hin Hb Hz.
    destruct (I3 _ _ _ _ Hin Hb Hz) as [k Hk]. exists k. by eapply shown_shows. }
  assert (Hst : forall p b r, In (p, b) (flat (v_bindings v0)) -> fst (writes r) = slot_of (bd_params b) -> step_keeps I r).
  { intros p b r Hin Hw t t' ids Hl Hok Hd He (I1 & I2 & I3).
    split; [eapply same_def_trans; [by apply same_def_sym|done]|]. split.
    - rewrite (same_def_defined _ _ _ Hd). pose proof (eff_attached _ _ _ He) as Ha. destruct r as [n i x|p' c vis|p' s c z|n k f|n k i x]; cbn [attached_after] in Ha; try (by rewrite Ha).
      + destruct Ha as (_ & Hne & Ha). destruct (decide (q = p')) as [<-|Hne']; [|by rewrite Hne]. specialize (Ha I2). by rewrite (same_def_defined _ _ _ Hd) in Ha.
      + destruct Ha as (Ha & Hne). destruct (decide (q = p')) as [<-|Hne']; [|by rewrite Hne]. rewrite Ha.
        destruct Hok as (e & Hge & Hscz & Hlen & _). assert (Hde : defined t q = e_children e) by (unfold defined; by rewrite Hge).
        cbn in Hw. destruct (bd_params b) as [| | |?|p' s' z'] eqn:Eb; try done. cbn in Hw. injection Hw as <- <- Hz.
        destruct (decide (0 < z - s)) as [Hpos|Hpos].
        * assert (Heq : z = List.length (defined t q)).
          { rewrite <- (same_def_defined _ _ q I1). specialize (Hrg _ _ _ _ Hin Eb ltac:(lia)). lia. }
          destruct (I3 _ _ _ _ Hin Eb ltac:(lia)) as [k Hk]. cbn in Hk. subst z. apply (repeat_in_order _ _ s c k); [apply (live_once _ _ Hl)|done|lia|].
          intros j d Hj Hd'. apply Hk; [lia|done].
        * assert (z = s) as -> by lia. assert (c = s) as -> by lia. unfold block. rewrite Nat.sub_diag, take_0. cbn [filter list_filter].
          rewrite app_nil_r. etransitivity; [apply sublist_filter|done].
    - intros p1 b1 s z Hin1 Hb1 Hz. destruct (I3 _ _ _ _ Hin1 Hb1 Hz) as [k Hk].
      destruct (decide (fst (writes r) = SRange q s z)) as [Heq|Hne].
      + assert (Hit : forall n i x, r = RType n i x -> is_Some (text_span t n i)) by (intros n i x ->; done).
        pose proof (effect_writes _ _ _ _ Hl Hok Hd He Hit) as Hsw. rewrite Heq in Hsw. destruct r; cbn in Heq; try discriminate Heq. eexists. exact Hsw.
      + exists k. eapply effect_keeps; [exact Hl|exact Hok|exact Hd|exact He|exact Hne| |exact Hk].
        pose proof (loaded_alone _ _ _ _ _ _ _ H0 Hin1) as Hal. rewrite Hb1 in Hal. specialize (Hal Hz). destruct (Hal _ _ Hin) as [_ Hdis].
        rewrite Hw. intros Hx. apply Hdis. rewrite Hb1. eapply disturbs_def; [|exact Hx]. by apply same_def_sym. }
  assert (HI : I (v_tree v) (v_ids v)); [|apply HI].
  eapply history_inv; [exact H0|exact Hr|exact Hsame|exact Hst|]. eapply load_inv; [exact H0|exact Hst|].
  intros t ids Hl Hd Hat. split; [done|]. rewrite Hat by done. split; [done|]. intros p b s z _ _ _. exists z. cbn. intros j c Hj Hc. rewrite Hat by done.
  split; [done|]. intros _. by eapply elem_of_list_lookup_2.
Qed.

(** ** Attributes made of pieces *)
Lemma joined_history X fuel doc css v0 hist v log n key : from_document X fuel doc css = Ok v0 -> reacted X fuel v0 hist v log ->
  (forall p b, In (p, b) (flat (v_bindings v0)) -> bd_params b <> BTag n key) -> joined (v_tree v0) n key -> joined (v_tree v) n key.
Proof.
  intros H0 Hr Hno. apply (history_inv X fuel doc css v0 hist v log (fun t _ => joined t n key) H0 Hr).
  - intros t t' _ Hsh Hj spans. rewrite (shown_attr_spans _ _ _ _ Hsh), (shown_attr _ _ _ _ Hsh). apply Hj.
  - intros p b r Hin Hw t t' _ Hl Hok Hd He Hj spans Hsp. rewrite (eff_attr _ _ _ He), Hsp.
    pose proof (eff_attr_spans _ _ _ He n key) as Hs. rewrite Hsp in Hs. destruct r as [m i x|? ? ?|? ? ? ?|m k f|m k i x]; cbn [attr_after attr_spans_after] in *; try (by apply Hj).
    + rewrite decide_False; [by apply Hj|]. intros [<- <-]. cbn in Hw. destruct (bd_params b) eqn:Eb; try done. injection Hw as -> ->. by apply (Hno _ _ Hin).
    + destruct (decide (n = m /\ key = k)) as [[<- <-]|]; [done|]. by apply Hj.
Qed.

(** ** Pieces *)
Lemma piece_history X fuel doc css v0 hist v log l : from_document X fuel doc css = Ok v0 -> reacted X fuel v0 hist v log ->
  match l with SText _ _ | SAttr _ _ _ => True | _ => False end ->
  forall w, (last_written l log = Some w \/ (last_written l log = None /\ shows (v_tree v0) l w)) -> shows (v_tree v) l w.
Proof.
  intros H0 Hr Hl. eapply reacted_shows; [exact Hr|by eapply from_document_sound|]. intros p b _ Hx. destruct l; try done; by destruct (bd_params b).
Qed.
