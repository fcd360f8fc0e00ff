(** * The schema of a template is its shape (C77). *)
From Coq Require Import ZArith Lia.
From stdpp Require Import gmap.
From RecordUpdate Require Import RecordUpdate.
From Verif Require Import Str StrFacts F32 Res ResFacts Json JsonFacts PropKey Html Css Element Tree ViewModel Render Update Matching
  Cascade Initial Animation Apply Styling Events View BindFacts ConformFacts
  SpecBind SpecSchema SpecRender SpecTree RenderFacts RenderTree RenderNode RenderProps RenderAny LiveView SelectFacts SchemaFacts RenderMore SpecDocument DocumentFacts SpecShape.
Notation shape := SpecBind.shape.

(** ** Part of the data of a shape *)
Inductive part : shape -> json -> Prop :=
| part_null sh : part sh JNull
| part_list n s l : List.length l <= n -> (forall w, w ∈ l -> part s w) -> part (SList n s) (JArr l)
| part_record fs m : obj_sorted m = true -> (forall k w, obj_get k m = Some w -> exists s, obj_get k fs = Some s /\ part s w) -> part (SRecord fs) (JObj m).

Lemma plain_index a i : plain_token a = true -> parse_usize a = Some i -> a = fmt_nat i.
Proof. unfold plain_token. intros H E. rewrite E in H. apply andb_prop in H as [_ H]. by apply String.eqb_eq. Qed.
Lemma sorted_fields fs : wf_shape (SRecord fs) = true -> NoDup (map fst fs) /\ (forall e, In e fs -> wf_shape (snd e) = true).
Proof.
  cbn [wf_shape]. intros H. apply andb_prop in H as [H Hf]. apply andb_prop in H as [H _]. split; [by apply obj_sorted_NoDup|]. rewrite forallb_forall in Hf. exact Hf.
Qed.

Lemma define_part ts : forall sh v, wf_shape sh = true -> within sh ts -> part sh v -> part sh (define_tokens ts v).
Proof.
  induction ts as [|t ts IH]; intros sh v Hw H Hp; [exact Hp|]. cbn [define_tokens].
  inversion H as [|n s i ts' Hi Hu64 H'|fs k s ts' Hin Hk H']; subst.
  - rewrite (parse_usize_fmt i Hu64). cbn [wf_shape] in Hw. apply andb_prop in Hw as [Hw1 Hw]. apply andb_prop in Hw1 as [Hn _].
    set (l := match v with JArr l => l | _ => [] end). change (if (List.length l <=? i)%nat then resize (S i) JNull l else l) with (grown i l).
    assert (Hl : List.length l <= n /\ forall w, w ∈ l -> part s w).
    { inversion Hp; subst; subst l; [split; [cbn; lia|intros w Hw'; by apply elem_of_nil in Hw']|done]. }
    assert (Hg : List.length (grown i l) <= n /\ forall w, w ∈ grown i l -> part s w).
    { unfold grown. destruct (List.length l <=? i)%nat eqn:E; [|exact Hl]. rewrite resize_length. split; [lia|]. intros w Hw'. apply Nat.leb_le in E.
      unfold Res.resize in Hw'. apply elem_of_app in Hw' as [Hw'|Hw'].
      - rewrite take_ge in Hw' by lia. by apply Hl.
      - apply elem_of_list_In, repeat_spec in Hw' as ->. constructor. }
    destruct Hg as [Hg1 Hg2]. constructor; [by rewrite alter_length|]. intros w Hw'. apply elem_of_list_lookup in Hw' as (j & Hj).
    destruct (decide (i = j)) as [<-|Hne].
    + rewrite list_lookup_alter in Hj. destruct (grown i l !! i) as [w0|] eqn:E; [|done]. injection Hj as <-. apply IH; [exact Hw|exact H'|]. apply Hg2. by eapply elem_of_list_lookup_2.
    + rewrite list_lookup_alter_ne in Hj by done. apply Hg2. by eapply elem_of_list_lookup_2.
  - unfold indexes in Hk. destruct (parse_usize t); [done|]. destruct (sorted_fields _ Hw) as [Hnd Hwf].
    set (m := match v with JObj m => m | _ => [] end).
    assert (Hm : obj_sorted m = true /\ forall k w, obj_get k m = Some w -> exists s, obj_get k fs = Some s /\ part s w) by (inversion Hp; subst; subst m; [split; [done|intros k w [=]]|done]).
    destruct Hm as [Hs Hm]. pose proof (obj_get_NoDup _ _ _ Hnd Hin) as Hg.
    constructor; [by apply obj_insert_sorted|]. intros k w. destruct (decide (k = t)) as [->|Hne].
    + rewrite obj_get_insert. intros [= <-]. exists s. split; [exact Hg|]. apply IH; [exact (Hwf _ Hin)|exact H'|].
      destruct (obj_get t m) as [w|] eqn:E; [|constructor]. destruct (Hm t w E) as (s' & Hs' & Hp'). rewrite Hg in Hs'. by injection Hs' as <-.
    + rewrite obj_get_insert_ne by done. apply Hm.
Qed.

(** ** Complete data *)
Lemma solid_leaf sh : solid sh = true -> wf_shape sh = true -> exists ts, leaf_at sh ts.
Proof.
  induction sh as [|n s IH|fs IH] using shape_ind'; intros Hs Hw.
  - exists []. constructor.
  - cbn [solid wf_shape] in *. apply andb_prop in Hs as [Hn Hs]. apply andb_prop in Hw as [_ Hw]. destruct (IH Hs Hw) as (ts & Ht). apply Nat.leb_le in Hn. exists (fmt_nat 0 :: ts). constructor; [lia|exact Ht].
  - destruct fs as [|[k s] fs]; [done|]. cbn [solid forallb snd] in Hs. apply andb_prop in Hs as [Hs _]. destruct (sorted_fields _ Hw) as [_ Hwf].
    rewrite List.Forall_forall in IH. destruct (IH (k, s) (or_introl eq_refl) Hs (Hwf _ (or_introl eq_refl))) as (ts & Ht). exists (k :: ts). apply (leaf_field _ k s); [by left|exact Ht].
Qed.
Lemma assoc_ext {A} (m m' : list (string * A)) : obj_sorted m = true -> obj_sorted m' = true -> (forall k, obj_get k m = obj_get k m') -> m = m'.
Proof.
  revert m'. induction m as [|[k v] m IH]; intros [|[k' v'] m'] Hs Hs' H.
  - done.
  - specialize (H k'). cbn in H. by rewrite String.eqb_refl in H.
  - specialize (H k). cbn in H. by rewrite String.eqb_refl in H.
  - pose proof (obj_sorted_cons _ _ _ Hs) as [S1 F1]. pose proof (obj_sorted_cons _ _ _ Hs') as [S2 F2].
    assert (Hkk : k = k').
    { pose proof (H k) as Hk. pose proof (H k') as Hk'. cbn [obj_get] in Hk, Hk'. rewrite String.eqb_refl in Hk, Hk'.
      destruct (String.eqb_spec k k') as [->|Hne]; [done|]. destruct (String.eqb_spec k' k) as [->|_]; [done|].
      symmetry in Hk. apply obj_get_In in Hk, Hk'. rewrite List.Forall_forall in F1, F2. pose proof (F1 _ Hk') as L1. pose proof (F2 _ Hk) as L2. cbn [fst] in L1, L2.
      pose proof (str_lt_trans _ _ _ L1 L2) as L. by apply str_lt_neq in L. }
    subst k'. pose proof (H k) as Hk. cbn [obj_get] in Hk. rewrite String.eqb_refl in Hk. injection Hk as <-. f_equal. apply IH; [done|done|]. intros l.
    destruct (decide (l = k)) as [->|Hne].
    + assert (N : forall m0, Forall (fun e : string * A => str_lt k (fst e) = true) m0 -> obj_get k m0 = None).
      { intros m0 F. destruct (obj_get k m0) eqn:E; [|done]. apply obj_get_In in E. rewrite List.Forall_forall in F. apply F in E. by apply str_lt_neq in E. }
      by rewrite (N m F1), (N m' F2).
    + specialize (H l). cbn [obj_get] in H. destruct (String.eqb_spec l k); [done|exact H].
Qed.
Lemma map_sorted fs : obj_sorted fs = true -> obj_sorted (map (fun e : string * shape => (fst e, initial_model (snd e))) fs) = true.
Proof.
  induction fs as [|[k s] fs IH]; intros H; [done|]. destruct fs as [|[k' s'] fs]; [done|]. cbn [map obj_sorted fst snd] in *. apply andb_prop in H as [H1 H2]. rewrite H1. cbn [andb]. by apply IH.
Qed.
Lemma map_get fs k : obj_get k (map (fun e : string * shape => (fst e, initial_model (snd e))) fs) = initial_model <$> obj_get k fs.
Proof. induction fs as [|[k' s] fs IH]; [done|]. cbn [map obj_get fst snd]. destruct (String.eqb k k'); [done|exact IH]. Qed.

Lemma complete_is sh : solid sh = true -> wf_shape sh = true -> (forall ts, leaf_at sh ts -> within sh ts) ->
  forall v, part sh v -> (forall ts, leaf_at sh ts -> resolves v ts) -> v = initial_model sh.
Proof.
  induction sh as [|n s IH|fs IH] using shape_ind'; intros Hs Hw Hpl v Hp Hr.
  - by inversion Hp.
  - cbn [solid wf_shape] in Hs, Hw. apply andb_prop in Hs as [Hn Hs]. apply andb_prop in Hw as [_ Hw]. apply Nat.leb_le in Hn. destruct (solid_leaf s Hs Hw) as (ts0 & Ht0).
    assert (Hd : forall i ts, i < n -> leaf_at s ts -> exists l w, v = JArr l /\ l !! i = Some w /\ resolves w ts).
    { intros i ts Hi Hts. pose proof (leaf_item n s i ts Hi Hts) as Hlf. pose proof (Hr _ Hlf) as H. cbn [resolves] in H. pose proof (Hpl _ Hlf) as Hwi. inversion Hwi as [|n1 s1 i1 ts1 Hi1 Hu1 _ E1 E2|]; subst.
      match goal with E : fmt_nat _ = fmt_nat _ |- _ => apply fmt_nat_inj in E; subst i1 | _ => idtac end. rewrite (parse_usize_fmt i Hu1) in H. exact H. }
    destruct (Hd 0 ts0 ltac:(lia) Ht0) as (l & w0 & -> & _ & _). inversion Hp as [|n' s' l' Hlen Hall|]; subst. cbn [initial_model]. f_equal.
    assert (Hel : forall i, i < n -> l !! i = Some (initial_model s)).
    { intros i Hi. destruct (Hd i ts0 Hi Ht0) as (l1 & w & [= <-] & Hw1 & _). rewrite Hw1. f_equal. apply IH; [exact Hs|exact Hw| | |].
      - intros ts Hts. pose proof (Hpl _ (leaf_item n s i ts Hi Hts)) as P2. by inversion P2.
      - apply Hall. by eapply elem_of_list_lookup_2.
      - intros ts Hts. destruct (Hd i ts Hi Hts) as (l2 & w2 & [= <-] & Hw2 & Hres). rewrite Hw1 in Hw2. by injection Hw2 as ->. }
    apply list_eq. intros i. destruct (decide (i < n)) as [Hi|Hi].
    + rewrite (Hel i Hi). symmetry. change (repeat (initial_model s) n) with (replicate n (initial_model s)) || idtac. rewrite <- (lookup_replicate_2 n (initial_model s) i Hi). f_equal.
      clear. induction n as [|n IH]; [done|]. cbn. by rewrite IH.
    + rewrite !lookup_ge_None_2; [done|rewrite repeat_length; lia|lia].
  - destruct (sorted_fields _ Hw) as [Hnd Hwf]. rewrite List.Forall_forall in IH.
    assert (Hsf : forall e, In e fs -> solid (snd e) = true). { intros e He. destruct fs as [|e0 fs]; [done|]. cbn [solid] in Hs. rewrite forallb_forall in Hs. by apply Hs. }
    assert (Hd : forall k s ts, In (k, s) fs -> leaf_at s ts -> exists m w, v = JObj m /\ obj_get k m = Some w /\ resolves w ts).
    { intros k s ts Hin Hts. pose proof (leaf_field fs k s ts Hin Hts) as Hlf. pose proof (Hr _ Hlf) as H. cbn [resolves] in H. pose proof (Hpl _ Hlf) as Hwi.
      inversion Hwi as [| |fs' k' s' ts' _ Hk _]; subst. unfold indexes in Hk. destruct (parse_usize k); [done|exact H]. }
    assert (Hne : exists m, v = JObj m). { destruct fs as [|[k s] fs']; [done|]. destruct (solid_leaf s (Hsf (k, s) (or_introl eq_refl)) (Hwf (k, s) (or_introl eq_refl))) as (ts & Hts). destruct (Hd k s ts (or_introl eq_refl) Hts) as (m & w & Hm & _). by exists m. }
    destruct Hne as [m ->]. inversion Hp as [| |fs' m' Hso Hall]; subst. cbn [initial_model]. f_equal. apply assoc_ext; [exact Hso| |].
    { apply map_sorted. cbn [wf_shape] in Hw. apply andb_prop in Hw as [Hw _]. by apply andb_prop in Hw as [Hw _]. }
    intros k. rewrite map_get. destruct (obj_get k m) as [w|] eqn:E.
    + destruct (Hall k w E) as (s & Hg & Hps). rewrite Hg. cbn. f_equal. pose proof (obj_get_In _ _ _ Hg) as Hin. apply (IH (k, s) Hin (Hsf _ Hin) (Hwf _ Hin)); [|exact Hps|].
      * intros ts Hts. pose proof (Hpl _ (leaf_field fs k s ts Hin Hts)) as P2.
        inversion P2 as [| |fs' k' s' ts' Hin' _ Hwi]; subst. pose proof (obj_get_NoDup _ _ _ Hnd Hin') as Hg'. rewrite Hg in Hg'. by injection Hg' as <-.
      * intros ts Hts. destruct (Hd k s ts Hin Hts) as (m2 & w2 & [= <-] & Hw2 & Hres). rewrite E in Hw2. by injection Hw2 as ->.
    + destruct (obj_get k fs) as [s|] eqn:Hg; [|done]. exfalso. pose proof (obj_get_In _ _ _ Hg) as Hin. destruct (solid_leaf s (Hsf _ Hin) (Hwf _ Hin)) as (ts & Hts).
      destruct (Hd k s ts Hin Hts) as (m2 & w2 & [= <-] & Hw2 & _). by rewrite E in Hw2.
Qed.

(** ** Names that are places of a shape agree *)
Lemma within_agree p : forall sh q, wf_shape sh = true -> within sh p -> within sh q -> agree_on p q.
Proof.
  induction p as [|t p IH]; intros sh q Hw Hp Hq pre a b x y Ep Eq; [by destruct pre|].
  destruct q as [|t' q]; [by destruct pre|].
  destruct pre as [|c pre]; cbn in Ep, Eq.
  - injection Ep as <- <-. injection Eq as <- <-. inversion Hp as [|n s i ts Hi Hu H'|fs k s ts Hin Hk H']; subst; inversion Hq as [|n' s' i' ts' Hi' Hu' H''|fs' k' s' ts' Hin' Hk' H'']; subst.
    + unfold indexes. by rewrite (parse_usize_fmt _ Hu), (parse_usize_fmt _ Hu').
    + congruence.
  - injection Ep as -> ->. injection Eq as -> ->. inversion Hp as [|n s i ts Hi Hu H'|fs k s ts Hin Hk H']; subst; inversion Hq as [|n' s' i' ts' Hi' Hu' H''|fs' k' s' ts' Hin' Hk' H'']; subst.
    + cbn [wf_shape] in Hw. apply andb_prop in Hw as [_ Hw]. by apply (IH s (pre ++ b :: y) Hw H' H'' pre a b x y).
    + destruct (sorted_fields _ Hw) as [Hnd Hwf]. pose proof (obj_get_NoDup _ _ _ Hnd Hin) as G1. pose proof (obj_get_NoDup _ _ _ Hnd Hin') as G2. rewrite G1 in G2. injection G2 as <-.
      by apply (IH s (pre ++ b :: y) (Hwf _ Hin) H' H'' pre a b x y).
Qed.

(** ** The model of a page *)
Lemma tokens_some p : plain_pointer p = true -> tokens p <> [].
Proof.
  unfold plain_pointer, tokens. destruct p as [|c p]; [done|]. intros H. destruct c as [[] [] [] [] [] [] [] []]; try done. cbn [split_on]. change (Ascii.eqb _ _) with true. cbn iota. cbn [tail]. apply SelectFacts.split_on_nonempty.
Qed.
Lemma schema_part ps sh : wf_shape sh = true -> Forall (fun q => plain_pointer q = true) ps -> (forall p, p ∈ ps -> within sh (tokens p)) ->
  forall v, part sh v -> part sh (foldl define_value v ps).
Proof.
  intros Hw Hpl. induction ps as [|p ps IH]; intros Hin v Hv; [exact Hv|]. cbn [foldl]. inversion Hpl as [|? ? Hp Hps]; subst. apply IH; [done|intros q Hq; apply Hin; by right|].
  rewrite plain_define by done. apply define_part; [exact Hw|apply Hin; by left|exact Hv].
Qed.
Theorem schema_shape ps sh : wf_shape sh = true -> solid_fields sh = true -> Forall (fun q => plain_pointer q = true) ps -> takes ps sh ->
  foldl define_value schema_new ps = initial_model sh.
Proof.
  intros Hw Hs Hpl [Hin Hall]. destruct sh as [|n s|fs]; [done..|]. destruct fs as [|f fs].
  - destruct ps as [|p ps]; [done|]. exfalso. inversion Hpl as [|? ? Hp _]; subst. apply (tokens_some p Hp). pose proof (Hin p ltac:(by left)) as H. inversion H; subst; done.
  - apply complete_is.
    + exact Hs.
    + exact Hw.
    + intros ts Hts. destruct (Hall ts Hts) as (p & Hp & <-). by apply Hin.
    + apply schema_part; [exact Hw|exact Hpl|exact Hin|]. constructor; [done|]. intros k w [=].
    + intros ts Hts. destruct (Hall ts Hts) as (p & Hp & <-). apply all_defined; [exact Hpl| |exact Hp]. intros a b Ha Hb. eapply within_agree; [exact Hw|by apply Hin|by apply Hin].
Qed.
Theorem document_shape X fuel doc css v templates body rn sh :
  from_document X fuel doc css = Ok v -> scan_document (h_children doc) ∅ = (templates, body) -> clean templates body ->
  meaning (x_translate X) templates fuel ∅ body = Some rn ->
  Forall (fun q => plain_pointer q = true) (pointers rn) -> wf_shape sh = true -> solid_fields sh = true -> takes (pointers rn) sh ->
  v_model v = initial_model sh.
Proof.
  intros H Hsc Hcl Hmn Hpl Hw Hs [Ht1 Ht2]. apply from_document_stages in H as (templates' & body' & r & root & b & t & rn' & ps' & Hsc' & Hr & _ & _ & _ & _ & _ & _ & Hm & _).
  rewrite Hsc in Hsc'. injection Hsc' as <- <-. pose proof (render_agree (x_read_inline_css X) (x_translate X) templates fuel body Hcl) as Ha.
  rewrite Hr, Hmn in Ha. cbn in Ha. destruct Ha as (_ & _ & _ & _ & _ & _ & _ & ps & Hps & Hsch). rewrite Hm, Hsch. apply schema_shape; [exact Hw|exact Hs|by rewrite Hps|].
  split; [intros p Hp; apply Ht1; by rewrite <- Hps|]. intros ts Hts. destruct (Ht2 ts Hts) as (p & Hp & E). exists p. split; [by rewrite Hps|exact E].
Qed.

(** the shape, whatever bound the meaning has been computed with *)
Theorem template_shape X fuel doc css v templates body n rn sh :
  from_document X fuel doc css = Ok v -> document_templates doc templates body -> clean templates body ->
  meaning (x_translate X) templates n ∅ body = Some rn ->
  Forall (fun q => plain_pointer q = true) (pointers rn) -> wf_shape sh = true -> solid_fields sh = true -> takes (pointers rn) sh ->
  v_model v = initial_model sh.
Proof.
  intros H Hd Hcl Hmn Hpl Hw Hs Ht. pose proof H as H0. apply from_document_stages in H0 as (templates' & body' & r & root & b & t & rn' & ps' & Hsc & Hr & _).
  pose proof (document_scanned _ _ _ Hsc) as Hd'. destruct (document_fun _ _ _ _ _ Hd Hd') as [-> ->].
  pose proof (render_agree (x_read_inline_css X) (x_translate X) templates fuel body Hcl) as Ha. rewrite Hr in Ha.
  destruct (meaning (x_translate X) templates fuel ∅ body) as [rm|] eqn:Hm; [|by cbn in Ha].
  assert (Some rm = Some rn) as [= ->].
  { rewrite <- (meaning_mono_le (x_translate X) templates fuel (max fuel n) ∅ body rm ltac:(lia) Hm). by apply (meaning_mono_le (x_translate X) templates n (max fuel n)); [lia|]. }
  by eapply document_shape.
Qed.

(** ** Deciding [takes] for samples *)
Fixpoint is_within (sh : shape) (ts : list string) {struct ts} : bool :=
  match ts with
  | [] => true
  | t :: ts =>
      match sh with
      | SLeaf => false
      | SList n s => match parse_usize t with Some i => (i <? n)%nat && (N.of_nat i <=? u64_max)%N && String.eqb t (fmt_nat i) && is_within s ts | None => false end
      | SRecord fs => negb (indexes t) && match obj_get t fs with Some s => is_within s ts | None => false end
      end
  end.
Lemma is_within_ok ts : forall sh, is_within sh ts = true -> within sh ts.
Proof.
  induction ts as [|t ts IH]; intros sh H; [constructor|]. destruct sh as [|n s|fs]; cbn [is_within] in H; [done|..].
  - destruct (parse_usize t) as [i|]; [|done]. apply andb_prop in H as [H H4]. apply andb_prop in H as [H H3]. apply andb_prop in H as [H1 H2].
    apply String.eqb_eq in H3. subst t. apply within_item; [by apply Nat.ltb_lt|by apply N.leb_le|by apply IH].
  - apply andb_prop in H as [H1 H2]. destruct (obj_get t fs) as [s|] eqn:E; [|done]. apply (within_field fs t s); [by apply obj_get_In|by apply negb_true_iff|by apply IH].
Qed.
Fixpoint leaves (sh : shape) : list (list string) :=
  match sh with
  | SLeaf => [[]]
  | SList n s => flat_map (fun i => map (cons (fmt_nat i)) (leaves s)) (seq 0 n)
  | SRecord fs => flat_map (fun e => map (cons (fst e)) (leaves (snd e))) fs
  end.
Lemma leaves_ok sh ts : leaf_at sh ts -> In ts (leaves sh).
Proof.
  induction 1 as [|n s i ts Hi _ IH|fs k s ts Hin _ IH]; cbn [leaves]; [by left|..]; apply in_flat_map.
  - exists i. split; [apply in_seq; lia|]. by apply in_map.
  - exists (k, s). split; [done|]. by apply in_map.
Qed.
Definition is_taken (ps : list string) (sh : shape) : bool :=
  forallb (fun p => is_within sh (tokens p)) ps && forallb (fun ts => existsb (fun p => bool_decide (tokens p = ts)) ps) (leaves sh).
Lemma is_taken_ok ps sh : is_taken ps sh = true -> takes ps sh.
Proof.
  intros H. apply andb_prop in H as [H1 H2]. rewrite forallb_forall in H1. rewrite forallb_forall in H2. split.
  - intros p Hp. apply is_within_ok, H1. by apply elem_of_list_In.
  - intros ts Hts. apply leaves_ok in Hts. apply H2 in Hts. apply existsb_exists in Hts as (p & Hp & E). exists p. split; [by apply elem_of_list_In|by apply bool_decide_eq_true in E].
Qed.
