(** * One reaction, several reactions *)
From Coq Require Import ZArith Lia.
From stdpp Require Import gmap.
From RecordUpdate Require Import RecordUpdate.
From Verif Require Import Str StrFacts F32 Res ResFacts Json JsonFacts PropKey Html Css Element Tree ViewModel Render Update
  SpecLive SpecView SpecTree LiveFacts.

Lemma same_ctx_shows t t' : (forall q, get_ctx t' q = get_ctx t q) ->
  (forall n i, text_span t' n i = text_span t n i) /\ (forall n k, attr_spans t' n k = attr_spans t n k) /\ (forall n k, attr t' n k = attr t n k).
Proof. intros H. unfold text_span, attr_spans, attr. repeat split; intros; by rewrite H. Qed.

Lemma same_ctx_def t t' : t_next t' = t_next t -> (forall q, get_ctx t' q = get_ctx t q) -> same_definitions t t'.
Proof. intros H1 H2. split; [done|]. intros n. by rewrite H2. Qed.

Lemma text_set_insert j x (spans : list string) : text_set j x spans = <[j := x]> spans.
Proof.
  unfold text_set. destruct (Nat.leb_spec (List.length spans) j); [|done]. by rewrite list_insert_ge.
Qed.

Lemma length_fmap_insert (m : gmap string (list string)) k l l' : m !! k = Some l -> List.length l' = List.length l ->
  List.length <$> <[k := l']> m = List.length <$> m.
Proof.
  intros H Hlen. rewrite fmap_insert, Hlen. apply insert_id. by rewrite lookup_fmap, H.
Qed.

(** writing an element whose definition is the same *)
Lemma mark_dirty_ok t n e : get_ctx t n = Some e -> mark_dirty n t = Ok t.
Proof. intros H. destruct (ctx_node _ _ _ H) as [x Hx]. unfold mark_dirty, get_node. by rewrite Hx. Qed.

Lemma get_put_same t n e0 e : get_ctx t n = Some e0 -> get_ctx (put_element n e t) n = Some e.
Proof. intros H. rewrite get_ctx_put, decide_True by done. destruct (ctx_node _ _ _ H) as [x Hx]. by rewrite Hx. Qed.
Lemma get_put_ne t n e m : n <> m -> get_ctx (put_element n e t) m = get_ctx t m.
Proof. intros H. by rewrite get_ctx_put, decide_False. Qed.

(** the picture of an image only has its background changed *)
Lemma img_src_ok t root img src e : live t root -> get_ctx t img = Some e -> e_tag e = "img" ->
  exists t', update_img_src img src t = Ok t' /\ live t' root /\ same_definitions t t' /\
    (forall n, attached t' n = attached t n) /\
    (forall n i, text_span t' n i = text_span t n i) /\ (forall n k, attr_spans t' n k = attr_spans t n k) /\ (forall n k, attr t' n k = attr t n k).
Proof.
  intros Hl He Htag. pose proof (live_lt _ _ _ _ Hl He) as Hlt. destruct (live_node _ _ Hl _ Hlt) as (e' & He' & _ & Himg).
  rewrite He in He'. injection He' as <-. destruct (Himg Htag) as [Ha Hlen].
  destruct (live_lookup _ _ _ Hl Hlt) as (x & _ & Hx & _ & Hax & _).
  destruct (defined t img) as [|c [|? ?]] eqn:Ed; try done. clear Hlen.
  assert (Hc : c < t_next t). { apply (live_newer _ _ Hl img c). left. rewrite Ha. by left. }
  destruct (live_lookup _ _ _ Hl Hc) as (y & ec & Hy & _ & _ & Hec & _).
  unfold update_img_src, child_at_index, children, get_node. rewrite Hx. cbn [unwrap bindR]. rewrite <- Hax, Ha. cbn [lookup list_lookup bindR].
  unfold get_element. rewrite Hec. cbn [ok_or bindR].
  match goal with |- context [put_element c ?e2 t] => set (e' := e2) end.
  assert (Hd : definition_of e' = definition_of ec) by done.
  destruct (live_put t root c ec e' Hl Hec Hd) as [Hl' Hs].
  rewrite (mark_dirty_ok _ _ _ (get_put_same _ _ _ _ Hec)).
  eexists. split; [reflexivity|]. split; [done|]. split; [done|]. split; [intros; apply attached_put|].
  unfold text_span, attr_spans, attr. repeat split; intros; (destruct (decide (c = n)) as [<-|Hne]; [rewrite (get_put_same _ _ _ _ Hec), Hec; done|by rewrite get_put_ne]).
Qed.

Section upd.
  Context (ric : string -> option (list Declaration)).

  Lemma update_tree_ok t ids root r : live t root -> reaction_ok t r ->
    exists t', update_tree ric (t, ids) r = Ok (t', ids_after r t' ids) /\ live t' root /\ same_definitions t t' /\ effect t t' r.
  Proof.
    intros Hl Hr. destruct r as [n s x|p c v|p s c z|n k b|n k s x]; cbn [reaction_ok] in Hr; cbn [update_tree].
    - destruct Hr as (e & He & [spans Hspans]). rewrite He, Hspans.
      set (e' := e <| e_text := Some (text_set s x spans) |>).
      assert (Hd : definition_of e' = definition_of e).
      { unfold definition_of, e'. cbn. rewrite Hspans, text_set_insert. cbn. by rewrite insert_length. }
      destruct (live_put t root n e e' Hl He Hd) as [Hl' Hs].
      rewrite (mark_dirty_ok _ _ _ (get_put_same _ _ _ _ He)). cbn [bindR].
      eexists. split; [reflexivity|]. split; [done|]. split; [done|]. split; cbn [text_after attr_spans_after attr_after attached_after].
      + intros m i. unfold text_span. destruct (decide (n = m)) as [<-|Hne].
        * rewrite (get_put_same _ _ _ _ He), He. unfold e'. cbn. rewrite Hspans. cbn. rewrite text_set_insert.
          destruct (decide (i = s)) as [->|Hi].
          -- rewrite decide_True by done. destruct (decide (s < List.length spans)) as [Hlt|Hge].
             ++ rewrite list_lookup_insert by done. destruct (lookup_lt_is_Some_2 _ _ Hlt) as [y ->]. done.
             ++ rewrite list_insert_ge by lia. rewrite lookup_ge_None_2 by lia. done.
          -- rewrite decide_False by (intros [_ ?]; done). by rewrite list_lookup_insert_ne.
        * rewrite get_put_ne by done. rewrite decide_False by (intros [? _]; done). done.
      + intros m k. unfold attr_spans. destruct (decide (n = m)) as [<-|Hne]; [by rewrite (get_put_same _ _ _ _ He), He|by rewrite get_put_ne].
      + intros m k. unfold attr. destruct (decide (n = m)) as [<-|Hne]; [by rewrite (get_put_same _ _ _ _ He), He|by rewrite get_put_ne].
      + intros q. apply attached_put.
    - destruct Hr as (e & He & Hin & Htag). destruct (reattach_ok t root p c e v Hl He Hin Htag) as (t' & -> & Hl' & Hn & Hc & Hm & Ho & Hord).
      cbn [bindR]. exists t'. split; [done|]. split; [done|]. pose proof (same_ctx_def _ _ Hn Hc) as Hs. split; [done|].
      destruct (same_ctx_shows _ _ Hc) as (S1 & S2 & S3). split; cbn [text_after attr_spans_after attr_after attached_after]; [done..|].
      split; [|split; [done|by rewrite (same_def_defined _ _ _ Hs)]].
      intros d. rewrite (Hm p d). destruct (decide (d = c)) as [->|Hd]; [by rewrite decide_True|].
      rewrite decide_False; [done|]. intros [_ ?]; done.
    - destruct Hr as (e & He & Hscz & Hz & Htag). destruct (repeat_ok t root p s c z e Hl He Hscz Hz Htag) as (t' & -> & Hl' & Hn & Hc & Ho & Ha).
      cbn [bindR]. exists t'. split; [done|]. split; [done|]. pose proof (same_ctx_def _ _ Hn Hc) as Hs. split; [done|].
      destruct (same_ctx_shows _ _ Hc) as (S1 & S2 & S3). split; cbn [text_after attr_spans_after attr_after attached_after]; [done..|].
      split; [|done]. unfold defined. by rewrite He.
    - destruct Hr as [e He]. unfold get_element. rewrite He. cbn [ok_or bindR].
      match goal with |- context [put_element n ?e2 t] => set (e' := e2) end.
      assert (Hd : definition_of e' = definition_of e) by (unfold e'; by destruct b).
      destruct (live_put t root n e e' Hl He Hd) as [Hl' Hs].
      eexists. split; [reflexivity|]. split; [done|]. split; [done|]. split; cbn [text_after attr_spans_after attr_after attached_after].
      + intros m i. unfold text_span. destruct (decide (n = m)) as [<-|Hne]; [|by rewrite get_put_ne]. rewrite (get_put_same _ _ _ _ He), He. unfold e'. by destruct b.
      + intros m i. unfold attr_spans. destruct (decide (n = m)) as [<-|Hne]; [|by rewrite get_put_ne]. rewrite (get_put_same _ _ _ _ He), He. unfold e'. by destruct b.
      + intros m i. unfold attr. destruct (decide (n = m)) as [<-|Hne]; [|rewrite get_put_ne by done; rewrite decide_False by (intros [? _]; done); done].
        rewrite (get_put_same _ _ _ _ He), He. unfold e'. cbn. destruct (decide (i = k)) as [->|Hk].
        * rewrite decide_True by done. destruct b; cbn; [by rewrite lookup_insert|by rewrite lookup_delete].
        * rewrite decide_False by (intros [_ ?]; done). destruct b; cbn; [by rewrite lookup_insert_ne|by rewrite lookup_delete_ne].
      + intros q. apply attached_put.
    - destruct Hr as (e & He & [spans Hspans]). unfold get_element. rewrite He. cbn [ok_or bindR]. rewrite Hspans. cbn [ok_or bindR].
      rewrite text_set_insert. set (sp := <[s := x]> spans).
      match goal with |- context [put_element n ?e2 t] => set (e' := e2) end.
      assert (He1 : definition_of e' = definition_of e /\ e_text e' = e_text e /\ e_attrs_bindings e' = <[k := sp]> (e_attrs_bindings e) /\
                    e_attrs e' = <[k := text_to_string sp]> (e_attrs e) /\ e_tag e' = e_tag e).
      { unfold e'. destruct (String.eqb k "style"); [destruct (ric _)|]; cbn; (split; [|done]); unfold definition_of; cbn;
          rewrite (length_fmap_insert _ _ spans); done || (unfold sp; by rewrite insert_length). }
      destruct He1 as (Hd & Etext & Ebind & Eattr & Etag).
      destruct (live_put t root n e e' Hl He Hd) as [Hl' Hs].
      assert (Heff : (forall m i, text_span (put_element n e' t) m i = text_span t m i) /\
        (forall m i, attr_spans (put_element n e' t) m i = attr_spans_after (RBind n k s x) m i (attr_spans t m i)) /\
        (forall m i, attr (put_element n e' t) m i = attr_after (RBind n k s x) m i (attr_spans (put_element n e' t) m i) (attr t m i)) /\
        attr (put_element n e' t) n k = Some (text_to_string sp)).
      { pose proof (get_put_same t n e e' He) as Hg. cbn [text_after attr_spans_after attr_after]. split; [|split; [|split]].
        - intros m i. unfold text_span. destruct (decide (n = m)) as [<-|Hne]; [|by rewrite get_put_ne]. rewrite Hg, He. cbn. by rewrite Etext.
        - intros m i. unfold attr_spans. destruct (decide (n = m)) as [<-|Hne]; [|rewrite get_put_ne by done; rewrite decide_False by (intros [? _]; done); done].
          rewrite Hg, He. cbn. rewrite Ebind. destruct (decide (i = k)) as [->|Hk].
          + rewrite decide_True by done. by rewrite lookup_insert, Hspans.
          + rewrite decide_False by (intros [_ ?]; done). by rewrite lookup_insert_ne.
        - intros m i. unfold attr, attr_spans. destruct (decide (n = m)) as [<-|Hne]; [|rewrite get_put_ne by done; rewrite decide_False by (intros [? _]; done); done].
          rewrite Hg, He. cbn. rewrite Eattr, Ebind. destruct (decide (i = k)) as [->|Hk].
          + rewrite decide_True by done. by rewrite !lookup_insert.
          + rewrite decide_False by (intros [_ ?]; done). by rewrite lookup_insert_ne.
        - unfold attr. rewrite Hg. cbn. by rewrite Eattr, lookup_insert. }
      destruct Heff as (F1 & F2 & F3 & F4).
      assert (Hids : forall t', attr t' n k = Some (text_to_string sp) -> (if String.eqb k "id" then <[text_to_string sp := n]> ids else ids) = ids_after (RBind n k s x) t' ids).
      { intros t' Ha. cbn [ids_after]. destruct (decide (k = "id")) as [->|Hk]; [by rewrite Ha|]. destruct (String.eqb_spec k "id"); done. }
      rewrite Etag. destruct (String.eqb_spec (e_tag e) "img") as [Htag|Htag]; cbn [andb].
      + destruct (String.eqb_spec k "src") as [Hk|Hk].
        * destruct (img_src_ok (put_element n e' t) root n (text_to_string sp) e' Hl') as (t' & Ht' & Hl2 & Hs2 & A2 & T2 & B2 & C2);
            [by eapply get_put_same|by rewrite Etag|].
          rewrite Ht'. cbn [bindR]. exists t'. rewrite (Hids t') by (by rewrite C2). split; [done|]. split; [done|].
          split; [by eapply same_def_trans|]. split.
          -- intros m i. by rewrite T2, F1.
          -- intros m i. by rewrite B2, F2.
          -- intros m i. by rewrite C2, F3, B2.
          -- intros q. rewrite A2. apply attached_put.
        * exists (put_element n e' t). rewrite (Hids _ F4). split; [done|]. split; [done|]. split; [done|]. split; [done..|]. intros q. apply attached_put.
      + exists (put_element n e' t). rewrite (Hids _ F4). split; [done|]. split; [done|]. split; [done|]. split; [done..|]. intros q. apply attached_put.
  Qed.

  (** reactions made for the template never fail *)
  Lemma update_trees_ok rs : forall t ids root, live t root -> Forall (reaction_ok t) rs ->
    exists t' ids', update_trees ric (t, ids) rs = Ok (t', ids') /\ live t' root /\ same_definitions t t'.
  Proof.
    induction rs as [|r rs IH]; intros t ids root Hl Hrs; [by exists t, ids|].
    inversion Hrs as [|? ? Hr Hrs']; subst. destruct (update_tree_ok t ids root r Hl Hr) as (t1 & H1 & Hl1 & Hs1 & _).
    destruct (IH t1 (ids_after r t1 ids) root Hl1) as (t' & ids' & H2 & Hl2 & Hs2).
    { eapply Forall_impl; [|exact Hrs']. intros r' Hr'. by eapply reaction_ok_def. }
    exists t', ids'. unfold update_trees. cbn [foldR]. rewrite H1. cbn [bindR]. split; [exact H2|]. split; [done|]. by eapply same_def_trans.
  Qed.
End upd.
