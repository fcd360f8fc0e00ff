(** * The schema a template builds (C06) *)
From Coq Require Import ZArith Lia.
From stdpp Require Import gmap.
From RecordUpdate Require Import RecordUpdate.
From Verif Require Import Str StrFacts F32 Res ResFacts Json JsonFacts PropKey Html Css Element Tree ViewModel Render Update Matching
  Cascade Initial Animation Apply Styling Events View
  SpecBind SpecSchema SpecRender SpecTree RenderFacts RenderTree RenderNode RenderProps RenderAny LiveView.

(** strict resolution: indexes through lists, names through records *)
Fixpoint resolves (v : json) (ts : list string) : Prop :=
  match ts with
  | [] => True
  | t :: ts =>
      match parse_usize t with
      | Some i => exists l w, v = JArr l /\ l !! i = Some w /\ resolves w ts
      | None => exists m w, v = JObj m /\ obj_get t m = Some w /\ resolves w ts
      end
  end.

Definition grown (i : nat) (l : list json) : list json := if (List.length l <=? i)%nat then resize (S i) JNull l else l.
Lemma grown_in i l : i < List.length (grown i l).
Proof. unfold grown. case_match eqn:E; [rewrite resize_length; lia|]. apply Nat.leb_gt in E. lia. Qed.
Lemma grown_lookup i l j w : l !! j = Some w -> grown i l !! j = Some w.
Proof.
  intros Hw. unfold grown. case_match eqn:E; [|done]. pose proof (lookup_lt_Some _ _ _ Hw). apply Nat.leb_le in E. rewrite resize_lookup_lt; [done|lia|done].
Qed.

Lemma define_self q : forall v, resolves (define_tokens q v) q.
Proof.
  induction q as [|t q IH]; intros v; [done|]. cbn [define_tokens resolves]. destruct (parse_usize t) as [i|].
  - set (l := match v with JArr l => l | _ => [] end). change (if (List.length l <=? i)%nat then resize (S i) JNull l else l) with (grown i l).
    destruct (lookup_lt_is_Some_2 (grown i l) i (grown_in i l)) as [w Hw]. eexists _, (define_tokens q w). split; [done|]. split; [|apply IH]. by rewrite list_lookup_alter, Hw.
  - eexists _, _. split; [done|]. rewrite obj_get_insert. split; [done|]. apply IH.
Qed.

Lemma agree_tail a p q : agree_on (a :: p) (a :: q) -> agree_on p q.
Proof. intros Ha pre x y z1 z2 -> ->. by apply (Ha (a :: pre) x y z1 z2). Qed.
Lemma plain_same a b i : plain_token a = true -> plain_token b = true -> parse_usize a = Some i -> parse_usize b = Some i -> a = b.
Proof.
  unfold plain_token. intros Ha Hb Ea Eb. rewrite Ea in Ha. rewrite Eb in Hb. apply andb_prop in Ha as [_ Ha]. apply andb_prop in Hb as [_ Hb].
  apply String.eqb_eq in Ha, Hb. congruence.
Qed.

Lemma define_keep q : forall p v, forallb plain_token p = true -> forallb plain_token q = true -> agree_on p q -> resolves v p -> resolves (define_tokens q v) p.
Proof.
  induction q as [|b q IH]; intros p v Hp Hq Ha Hr; [done|]. destruct p as [|a p]; [done|].
  pose proof (Ha [] a b p q eq_refl eq_refl) as Hk. unfold indexes in Hk. cbn [define_tokens resolves forallb] in *.
  apply andb_prop in Hp as [Hpa Hp]. apply andb_prop in Hq as [Hqb Hq].
  destruct (parse_usize a) as [i|] eqn:Ea, (parse_usize b) as [j|] eqn:Eb; try done.
  - destruct Hr as (l & w & -> & Hw & Hr). change (if (List.length l <=? j)%nat then resize (S j) JNull l else l) with (grown j l). apply (grown_lookup j) in Hw.
    destruct (decide (i = j)) as [<-|Hne].
    + assert (a = b) as -> by (by eapply plain_same). eexists _, (define_tokens q w). split; [done|]. rewrite list_lookup_alter, Hw. split; [done|].
      apply IH; try done. by eapply agree_tail.
    + eexists _, w. split; [done|]. by rewrite list_lookup_alter_ne.
  - destruct Hr as (m & w & -> & Hw & Hr). destruct (decide (a = b)) as [->|Hab].
    + rewrite Hw. eexists _, _. split; [done|]. rewrite obj_get_insert. split; [done|]. apply IH; try done. by eapply agree_tail.
    + eexists _, w. split; [done|]. by rewrite obj_get_insert_ne.
Qed.

(** serde_json's pointer lookup *)
Lemma replace_tilde_id d c s : no_tilde s = true -> replace_tilde d c s = s.
Proof.
  induction s as [|a s IH]; intros H; [done|]. cbn [no_tilde] in H. apply andb_prop in H as [Ha Hs]. cbn [replace_tilde].
  destruct s as [|b s]; [done|]. apply negb_true_iff in Ha. rewrite Ha. cbn [andb]. by rewrite IH.
Qed.
Lemma unescape_id t : no_tilde t = true -> unescape t = t.
Proof. intros H. unfold unescape. by rewrite !replace_tilde_id by (by rewrite ?replace_tilde_id). Qed.
Lemma parse_index_fmt i : parse_usize (fmt_nat i) = Some i -> parse_index (fmt_nat i) = Some i.
Proof.
  intros H. unfold parse_index. destruct (fmt_nat_first i) as [[-> ->]|(c & r & Hs & Hc0 & Hcp)]; [done|]. rewrite Hs in H |- *.
  destruct c as [[] [] [] [] [] [] [] []]; done.
Qed.
Lemma resolves_pointer ts : forall v, forallb plain_token ts = true -> resolves v ts -> is_Some (foldl pointer_step (Some v) (map unescape ts)).
Proof.
  induction ts as [|t ts IH]; intros v Hp Hr; [cbn; eauto|]. cbn [forallb resolves map foldl] in *. apply andb_prop in Hp as [Ht Hp].
  unfold plain_token in Ht. apply andb_prop in Ht as [Ht1 Ht2]. rewrite (unescape_id _ Ht1). destruct (parse_usize t) as [i|] eqn:E.
  - destruct Hr as (l & w & -> & Hw & Hr). apply String.eqb_eq in Ht2. cbn [pointer_step]. rewrite Ht2 in E |- *. rewrite (parse_index_fmt _ E), Hw. by apply IH.
  - destruct Hr as (m & w & -> & Hw & Hr). cbn [pointer_step]. rewrite Hw. by apply IH.
Qed.
Lemma resolves_plain v p : plain_pointer p = true -> resolves v (tokens p) -> is_Some (pointer v p).
Proof.
  unfold plain_pointer, pointer. intros Hp Hr. destruct p as [|c p]; [done|]. destruct c as [[] [] [] [] [] [] [] []]; try done.
  apply andb_prop in Hp as [Hp _]. by apply resolves_pointer.
Qed.

Lemma plain_define v p : plain_pointer p = true -> define_value v p = define_tokens (tokens p) v.
Proof.
  unfold plain_pointer, define_value. intros Hp. destruct p as [|c p]; [done|]. destruct c as [[] [] [] [] [] [] [] []]; try done.
  apply andb_prop in Hp as [_ Hp]. apply negb_true_iff in Hp. by rewrite Hp.
Qed.
Lemma plain_tokens p : plain_pointer p = true -> forallb plain_token (tokens p) = true.
Proof. unfold plain_pointer. destruct p as [|c p]; [done|]. destruct c as [[] [] [] [] [] [] [] []]; try done. by intros [H _]%andb_prop. Qed.

Lemma defined_kept ps : forall v p, Forall (fun q => plain_pointer q = true) ps -> plain_pointer p = true ->
  (forall q, q ∈ ps -> agree_on (tokens p) (tokens q)) -> resolves v (tokens p) -> resolves (foldl define_value v ps) (tokens p).
Proof.
  induction ps as [|q ps IH]; intros v p Hps Hp Ha Hr; [done|]. inversion Hps as [|? ? Hq Hps']; subst. cbn [foldl]. apply IH; try done.
  - intros q' Hq'. apply Ha. by right.
  - rewrite plain_define by done. apply define_keep; [by apply plain_tokens|by apply plain_tokens|apply Ha; by left|done].
Qed.
Lemma all_defined ps v p : Forall (fun q => plain_pointer q = true) ps -> consistent ps -> p ∈ ps -> resolves (foldl define_value v ps) (tokens p).
Proof.
  intros Hps Hc Hp. apply elem_of_list_split in Hp as (a & b & ->). rewrite foldl_app. cbn [foldl].
  apply Forall_app in Hps as [Ha Hb]. inversion Hb as [|? ? Hp Hb']; subst. apply defined_kept; try done.
  - intros q Hq. apply Hc; rewrite elem_of_app, elem_of_cons; tauto.
  - rewrite plain_define by done. apply define_self.
Qed.

(** any sequence of definitions *)
Lemma schema_resolves ps v p : Forall (fun q => plain_pointer q = true) ps -> consistent ps -> p ∈ ps -> is_Some (pointer (foldl define_value v ps) p).
Proof. intros Hps Hc Hp. apply resolves_plain; [|by apply all_defined]. rewrite List.Forall_forall in Hps. apply Hps. by apply elem_of_list_In. Qed.

(** the schema of a loaded view *)
Lemma document_resolves X fuel doc css v templates body rn p :
  from_document X fuel doc css = Ok v -> scan_document (h_children doc) ∅ = (templates, body) -> clean templates body ->
  meaning (x_translate X) templates fuel ∅ body = Some rn ->
  Forall (fun q => plain_pointer q = true) (pointers rn) -> consistent (pointers rn) ->
  p ∈ pointers rn -> is_Some (pointer (v_model v) p).
Proof.
  intros H Hsc Hcl Hmn Hpl Hco Hp. apply from_document_stages in H as (templates' & body' & r & root & b & t & rn' & ps' & Hsc' & Hr & _ & _ & _ & _ & _ & _ & Hm & _).
  rewrite Hsc in Hsc'. injection Hsc' as <- <-. pose proof (render_agree (x_read_inline_css X) (x_translate X) templates fuel body Hcl) as Ha.
  rewrite Hr, Hmn in Ha. cbn in Ha. destruct Ha as (_ & _ & _ & _ & _ & _ & _ & ps & Hps & Hs). rewrite Hm, Hs. apply schema_resolves.
  - by rewrite Hps.
  - intros a b' Ha Hb. apply Hco; by rewrite <- Hps.
  - by rewrite Hps.
Qed.
