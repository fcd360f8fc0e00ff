(** * Every name in a template that has been read is a name (C75). *)
From Coq Require Import Lia ZArith.
From stdpp Require Import gmap.
From Verif Require Import Str StrFacts Res Css Html Peg CssGrammar HtmlGrammar ReadCss ReadHtml PegFacts PegTotal PegShape ResFacts ReadTotal SpecTotal.

Lemma each_in {A B} (f : A -> res B) (l : list A) : forall bs b, each f l = Ok bs -> b ∈ bs -> exists a, a ∈ l /\ f a = Ok b.
Proof.
  induction l as [|a l IH]; intros bs b H Hb; cbn [each] in H; [injection H as <-; by apply elem_of_nil in Hb|].
  apply bindR_Ok in H as (x & Hx & H). apply bindR_Ok in H as (xs & Hxs & [= <-]). apply elem_of_cons in Hb as [->|Hb].
  - exists a. split; [apply elem_of_list_here|done].
  - destruct (IH _ _ Hxs Hb) as (a' & Ha & Hf). exists a'. split; [by apply elem_of_list_further|done].
Qed.

Lemma getter_named p : hn MNormal HGetter p -> p_inner p <> [].
Proof.
  intros H. destruct p as [r t ps]. node_open H. cbn [p_text p_inner] in *.
  apply seq_inv in H as (? & ? & ? & ? & ? & _ & -> & Ha & H & _). calls. done.
Qed.
Lemma transformers_path l : Forall (hn MNormal HTransformer) l -> forall b0 b, foldR binder_part b0 l = Ok b -> b_path b0 <> [] -> b_path b <> [].
Proof.
  induction l as [|q l IH]; intros Hl b0 b Hb Hp; cbn [foldR] in Hb.
  - by injection Hb as <-.
  - apply list.Forall_cons in Hl as [Hq Hl]. unfold binder_part at 1 in Hb. rewrite (proj1 Hq) in Hb. cbn [bindR] in Hb. by apply (IH Hl) in Hb.
Qed.
Lemma binder_named m p b : hn m HBinder p -> parse_binder p = Ok b -> b_path b <> [].
Proof.
  intros H Hb. destruct p as [r t ps]. node_open H. cbn [p_text p_inner] in *. parts H.
  starred (hn MNormal HTransformer); [|intros t' ps' h'; parts h'; calls; cbn; by apply Forall_singleton].
  calls. unfold parse_binder in Hb. cbn [p_inner app] in Hb. rewrite app_nil_r in Hb.
  cbn [foldR] in Hb. unfold binder_part at 1 in Hb. rewrite (proj1 N) in Hb. cbn [bindR] in Hb.
  assert (Hp : map p_text (p_inner p) <> []) by (apply getter_named in N; by destruct (p_inner p)).
  eapply transformers_path; [|exact Hb|exact Hp]. done.
Qed.

Lemma span_named p b : hn MNormal HBinder p \/ hn MNormal HQuotedString p -> parse_span p = Ok (TSBinder b) -> b_path b <> [].
Proof.
  intros [H|H] Hb; unfold parse_span in Hb; rewrite (proj1 H) in Hb; [|done].
  apply bindR_Ok in Hb as (x & Hx & [= <-]). by eapply binder_named.
Qed.
Lemma argument_named p b : hn MNormal HEvent p \/ hn MNormal HBinder p \/ hn MNormal HKey p -> parse_argument p = Ok (CABinder b) -> b_path b <> [].
Proof.
  intros [H|[H|H]] Hb; unfold parse_argument in Hb; rewrite (proj1 H) in Hb; try done.
  apply bindR_Ok in Hb as (x & Hx & [= <-]). by eapply binder_named.
Qed.
Ltac one_named H :=
  unfold parse_element_binding, hfirst, hsecond, hthird in H; cbn [p_rule p_inner app head tail unwrap bindR] in H;
  apply bindR_Ok in H; let y := fresh "y" in let Hy := fresh "Hy" in destruct H as (y & Hy & H); injection H as <-;
  intros ? ->; match goal with N : hn _ HBinder _ |- _ => exact (binder_named _ _ _ N Hy) end.
Lemma binding_named p b : attribute_node p -> parse_element_binding p = Ok b -> forall x, asks b x -> b_path x <> [].
Proof.
  destruct p as [r t ps].
  intros [H|[H|[H|[H|[H|[H|[H|[H|H]]]]]]]] Hb; node_open H; cbn in Hr; subst r; cbn [p_text p_inner] in *.
  - parts H. calls. one_named Hb.
  - parts H. calls. one_named Hb.
  - parts H. calls. one_named Hb.
  - apply seq_inv in H as (? & ? & ? & ? & ? & _ & -> & Ha & H & _). parts Ha.
    apply seq_inv in H as (? & ? & ? & ? & ? & _ & -> & Ha & H & _). calls.
    apply seq_inv in H as (? & ? & ? & ? & ? & _ & -> & Ha & H & _). parts Ha.
    apply seq_inv in H as (? & ? & ? & ? & ? & _ & -> & Ha & H & _). parts Ha.
    apply seq_inv in H as (? & ? & ? & ? & ? & _ & -> & Ha & H & _). parts H.
    apply seq_inv in Ha as (? & ? & ? & ? & ? & _ & -> & Ha & H & _).
    apply (star_forall _ _ _ _ _ (fun q => hn MNormal HBinder q \/ hn MNormal HQuotedString q)) in H;
      [|intros t' ps' h'; parts h'; calls; apply Forall_singleton; tauto].
    unfold parse_element_binding, hfirst in Hb. cbn [p_rule p_inner app head tail unwrap bindR] in Hb.
    apply bindR_Ok in Hb as (spans & Hs & [= <-]). cbn [asks]. intros z Hx. destruct (each_in _ _ _ _ Hs Hx) as (q & Hq & Hpq).
    refine (span_named q z _ Hpq). rewrite app_nil_r in Hq. apply elem_of_app in Hq as [Hq|Hq].
    + parts Ha; calls; apply elem_of_list_singleton in Hq as ->; tauto.
    + rewrite list.Forall_forall in H. by apply H.
  - parts H. starred (fun q => hn MNormal HEvent q \/ hn MNormal HBinder q \/ hn MNormal HKey q);
      [|intros t' ps' h'; parts h'; calls; apply Forall_singleton; tauto].
    calls. unfold parse_element_binding, hfirst in Hb. cbn [p_rule p_inner app head tail unwrap bindR] in Hb.
    apply bindR_Ok in Hb as (args & Hs & [= <-]). cbn [asks]. intros z Hx. destruct (each_in _ _ _ _ Hs Hx) as (q & Hq & Hpq).
    refine (argument_named q z _ Hpq). rewrite app_nil_r in Hq.
    match goal with h : Forall _ _ |- _ => rewrite list.Forall_forall in h; by apply h end.
  - parts H. calls. one_named Hb.
  - parts H. calls. unfold parse_element_binding, hfirst, hsecond, hthird in Hb. cbn in Hb. injection Hb as <-. by intros ? [].
  - parts H. calls. unfold parse_element_binding, hfirst, hsecond, hthird in Hb. cbn in Hb. injection Hb as <-. by intros ? [].
  - calls. unfold parse_element_binding, hfirst, hsecond, hthird in Hb. cbn in Hb. injection Hb as <-. by intros ? [].
Qed.
Lemma bindings_named p bs : hn MNormal HAttributes p -> parse_element_bindings p = Ok bs -> forall b x, b ∈ bs -> asks b x -> b_path x <> [].
Proof.
  intros H Hb b x Hin. destruct p as [r t ps]. node_open H. cbn [p_text p_inner] in *. unfold parse_element_bindings in Hb. cbn [p_inner] in Hb.
  apply (star_forall _ _ _ _ _ attribute_node) in H.
  - destruct (each_in _ _ _ _ Hb Hin) as (q & Hq & Hpq). rewrite list.Forall_forall in H. apply (binding_named q b (H q Hq) Hpq).
  - intros t' ps' h'. apply call_silent in h'; [|reflexivity]. open h'. parts h'; calls; apply Forall_singleton; unfold attribute_node; tauto.
Qed.
Lemma keep_in {A} (l : list (option A)) a : a ∈ keep l -> Some a ∈ l.
Proof.
  induction l as [|[x|] l IH]; cbn [keep]; intros H; [by apply elem_of_nil in H| |apply elem_of_list_further; by apply IH].
  apply elem_of_cons in H as [->|H]; [apply elem_of_list_here|apply elem_of_list_further; by apply IH].
Qed.
Lemma text_named p b : hn MCompound HBinder p \/ hn MCompound HString p -> prefetch_span p = Ok (TSBinder b) -> b_path b <> [].
Proof.
  intros [H|H] Hb; unfold prefetch_span in Hb; rewrite (proj1 H) in Hb; [|done].
  apply bindR_Ok in Hb as (x & Hx & [= <-]). by eapply binder_named.
Qed.

Lemma all_named_leaf h : h_children h = [] -> named h -> all_named h.
Proof.
  intros Hc Hn. split; [done|]. intros d Hd. exfalso. destruct Hd as [h c Hin|h c d Hin _]; rewrite Hc in Hin; by apply elem_of_nil in Hin.
Qed.
Lemma all_named_kids h : named h -> (forall c, c ∈ h_children h -> all_named c) -> all_named h.
Proof. intros Hn Hk. split; [done|]. intros d Hd. destruct Hd as [h c Hc|h c d Hc Hd]; [by apply Hk|]. by apply (Hk c Hc). Qed.

Definition reads_named (p : hpair) : Prop := content_node p -> forall is_last h, parse_content p is_last = Ok h -> all_named h.
Lemma content_named_step r t ps : Forall reads_named ps -> Forall (fun p => Forall reads_named (p_inner p)) ps -> reads_named (Pair r t ps).
Proof.
  intros _ IH. intros [H|[H|[H|H]]] is_last h Hh.
  - destruct H as [Hr H]. cbn in Hr. subst r. cbn in Hh. injection Hh as <-. apply all_named_leaf; [done|]. split; [intros b x Hb; by apply elem_of_nil in Hb|done].
  - destruct H as [Hr H]. cbn in Hr. subst r. open H. cbn [p_inner p_text] in H.
    apply seq_inv in H as (? & ? & ? & ? & ? & _ & -> & Ha & H & _). parts Ha.
    apply seq_inv in H as (? & ? & ? & ? & ? & _ & -> & Ha & H & _). calls.
    apply seq_inv in H as (? & ? & ? & ? & ? & _ & -> & Ha & H & _). calls.
    cbn [parse_content app] in Hh. apply bindR_Ok in Hh as (bs & Hbs & [= <-]). apply all_named_leaf; [done|]. split; [|done].
    cbn [h_bindings]. match goal with N : hn _ HAttributes _ |- _ => exact (bindings_named _ _ N Hbs) end.
  - destruct H as [Hr H]. cbn in Hr. subst r. open H. cbn [p_inner p_text] in H. cbn [parse_content] in Hh.
    apply bindR_Ok in Hh as (spans & Hs & [= <-]). apply all_named_leaf; [done|]. split; [intros b x Hb; by apply elem_of_nil in Hb|].
    cbn [h_text]. intros text x [= <-] Hx. apply keep_in in Hx. apply elem_of_list_fmap in Hx as (sp & Hsp & Hin).
    assert (sp = TSBinder x) as ->.
    { destruct sp as [s|b]; cbn in Hsp; [|by injection Hsp as ->]. by destruct (String.eqb _ _). }
    destruct (each_in _ _ _ _ Hs Hin) as (q & Hq & Hpq). refine (text_named q x _ Hpq).
    apply seq_inv in H as (? & ? & ? & ? & ? & _ & -> & Ha & H & _).
    apply (star_forall _ _ _ _ _ (fun q => hn MCompound HBinder q \/ hn MCompound HString q)) in H;
      [|intros t' ps' h'; parts h'; calls; apply Forall_singleton; tauto].
    apply elem_of_app in Hq as [Hq|Hq].
    + parts Ha; calls; apply elem_of_list_singleton in Hq as ->; tauto.
    + rewrite list.Forall_forall in H. by apply H.
  - destruct H as [Hr H]. cbn in Hr. subst r. open H. cbn [p_inner p_text] in H.
    parts H. calls. cbn [parse_content app] in Hh.
    match goal with N : hn _ HChildren ?c |- _ => destruct c as [rc tc cs]; destruct N as [_ N]; open N; cbn [p_inner p_text] in N;
      apply (star_forall _ _ _ _ _ content_node) in N; [|intros t' ps' h'; apply content_nodes in h' as (q & -> & Hq); by apply Forall_singleton];
      rename N into HC end.
    apply bindR_Ok in Hh as (bs & Hbs & Hh). apply bindR_Ok in Hh as (kids & Hkids & [= <-]).
    cbn [app] in IH. apply list.Forall_cons in IH as [_ IH]. apply list.Forall_cons in IH as [_ IH]. apply list.Forall_cons in IH as [IH _].
    cbn [p_inner] in IH. apply all_named_kids; cbn [h_children].
    + split; [|done]. cbn [h_bindings]. match goal with N : hn _ HAttributes _ |- _ => exact (bindings_named _ _ N Hbs) end.
    + revert HC IH kids Hkids. clear. induction cs as [|c cs IHl]; intros HC IH kids Hkids.
      * injection Hkids as <-. intros d Hd. by apply elem_of_nil in Hd.
      * apply list.Forall_cons in HC as [C1 C2]. apply list.Forall_cons in IH as [I1 I2].
        apply bindR_Ok in Hkids as (h & Hh & Hkids). apply bindR_Ok in Hkids as (hs & Hhs & [= <-]).
        intros d [->|Hd]%elem_of_cons; [exact (I1 C1 _ _ Hh)|]. exact (IHl C2 I2 hs Hhs d Hd).
Qed.
Lemma content_named p : reads_named p.
Proof.
  enough (reads_named p /\ Forall reads_named (p_inner p)) by tauto.
  induction p as [r t ps IH] using pair_ind'.
  assert (H1 : Forall reads_named ps) by (eapply list.Forall_impl; [exact IH|]; cbn; tauto).
  assert (H2 : Forall (fun p => Forall reads_named (p_inner p)) ps) by (eapply list.Forall_impl; [exact IH|]; cbn; tauto).
  split; [|exact H1]. by apply content_named_step.
Qed.

Theorem read_html_named s h : read_html s = Ok h -> all_named h.
Proof.
  unfold read_html. destruct (parse_out html_grammar _ _ EHtml HDocument s html_well_founded ltac:(apply Nat.leb_le; reflexivity)) as [->|(ps & t & rest & -> & _ & H)]; [done|].
  apply call_silent in H; [|reflexivity]. open H.
  apply seq_inv in H as (? & ? & ? & ? & ? & _ & -> & Ha & H & _). parts Ha.
  apply seq_inv in H as (? & ? & ? & ? & ? & _ & -> & Ha & H & _).
  apply seq_inv in Ha as (? & ? & ? & ? & ? & _ & -> & Ha & _ & _).
  apply content_nodes in Ha as (q & -> & Hq). cbn [app bindR head ok_or]. by apply content_named.
Qed.
