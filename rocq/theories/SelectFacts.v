(** * Selector matching agrees with the specification of SpecSelect.v. *)
From Coq Require Import ZArith Lia.
From stdpp Require Import gmap.
From RecordUpdate Require Import RecordUpdate.
From Verif Require Import Str StrFacts F32 Res ResFacts PropKey Css Element Tree Matching ViewModel SpecTree SpecLive SpecSelect.

(** ** Strings *)
Lemma chars_app a b : chars (a +:+ b) = chars a ++ chars b.
Proof. induction a as [|x a IH]; [done|]. exact (f_equal (cons x) IH). Qed.
Lemma starts_with_spec p s : starts_with p s = true <-> exists r, s = p +:+ r.
Proof.
  revert s; induction p as [|a p IH]; intros s; cbn; [split; [by exists s|done]|].
  destruct s as [|b s]; [split; [done|by intros (r & ?)]|]. rewrite andb_true_iff, Ascii.eqb_eq, IH. split.
  - intros (-> & r & ->). by exists r.
  - intros (r & [= -> ->]). split; [done|]. by exists r.
Qed.
Lemma ends_with_spec p s : ends_with p s = true <-> exists a, s = a +:+ p.
Proof.
  induction s as [|b s IH]; cbn [ends_with].
  - rewrite orb_false_r, String.eqb_eq. split; [intros <-; by exists ""|]. intros ([|] & ?); [done|]. done.
  - rewrite orb_true_iff, String.eqb_eq, IH. split.
    + intros [<-|(a & ->)]; [by exists ""|by exists (String b a)].
    + intros ([|c a] & H); [by left|]. right. injection H as -> ->. by exists a.
Qed.
Lemma contains_spec p s : contains p s = true <-> exists a b, s = a +:+ p +:+ b.
Proof.
  induction s as [|c s IH]; cbn [contains]; rewrite orb_true_iff, starts_with_spec.
  - split; [intros [(r & ->)|?]; [by exists "", r|done]|]. intros ([|] & b & H); [left; by exists b|done].
  - rewrite IH. split.
    + intros [(r & ->)|(a & b & ->)]; [by exists "", r|by exists (String c a), b].
    + intros ([|d a] & b & H); [left; by exists b|]. right. injection H as -> ->. by exists a, b.
Qed.

(** pieces between separators *)
Lemma append_cons d (a b : string) : String d a +:+ b = String d (a +:+ b).
Proof. done. Qed.
Lemma split_on_nonempty c s : split_on c s <> [].
Proof. destruct s as [|d s]; cbn; [done|]. destruct (Ascii.eqb d c); [done|]. by destruct (split_on c s). Qed.
Lemma split_on_no c w : c ∉ chars w -> split_on c w = [w].
Proof.
  induction w as [|d w IH]; cbn; [done|]. rewrite not_elem_of_cons. intros [H1 H2].
  destruct (Ascii.eqb_spec d c) as [->|]; [done|]. by rewrite IH.
Qed.
Lemma split_on_sep c a b : split_on c (a +:+ String c b) = split_on c a ++ split_on c b.
Proof.
  induction a as [|d a IH]; [change ("" +:+ String c b) with (String c b); cbn [split_on]; by rewrite Ascii.eqb_refl|].
  rewrite append_cons. cbn [split_on]. destruct (Ascii.eqb d c); [by rewrite IH|].
  rewrite IH. pose proof (split_on_nonempty c a). destruct (split_on c a); [done|]. done.
Qed.
Lemma split_on_pieces c s w : In w (split_on c s) -> c ∉ chars w /\
  exists a b, s = a +:+ w +:+ b /\ (a = "" \/ exists a', a = a' +:+ String c "") /\ (b = "" \/ exists b', b = String c b').
Proof.
  revert w; induction s as [|d s IH]; intros w; cbn [split_on].
  - intros [<-|[]]. split; [apply not_elem_of_nil|]. exists "", "". split; [done|]. split; by left.
  - destruct (Ascii.eqb_spec d c) as [->|Hne].
    + intros [<-|Hin].
      * split; [apply not_elem_of_nil|]. exists "", (String c s). split; [done|]. split; [by left|]. right. by exists s.
      * destruct (IH w Hin) as (Hw & a & b & -> & Ha & Hb). split; [done|]. exists (String c a), b. split; [done|]. split; [|done]. right.
        destruct Ha as [->|(a' & ->)]; [by exists ""|]. by exists (String c a').
    + destruct (split_on c s) as [|p ps] eqn:E; [by destruct (split_on_nonempty c s)|]. intros [<-|Hin].
      * destruct (IH p ltac:(by left)) as (Hw & _). split; [cbn; rewrite not_elem_of_cons; by split|].
        (* the first piece starts the string *)
        assert (Hf : forall s p ps, split_on c s = p :: ps -> exists b, s = p +:+ b /\ (b = "" \/ exists b', b = String c b')).
        { clear. induction s as [|d s IH]; intros p ps; cbn [split_on].
          - intros [= <- _]. exists "". split; [done|by left].
          - destruct (Ascii.eqb_spec d c) as [->|]; [intros [= <- _]; exists (String c s); split; [done|right; by exists s]|].
            destruct (split_on c s) as [|q qs] eqn:E; [by destruct (split_on_nonempty c s)|]. intros [= <- _].
            destruct (IH _ _ eq_refl) as (b & -> & Hb). exists b. by split. }
        destruct (Hf _ _ _ E) as (b & -> & Hb). exists "", b. split; [done|]. split; [by left|done].
      * assert (Hin' : In w (split_on c s)) by (rewrite E; by right).
        destruct (IH w ltac:(by right)) as (Hw & a & b & Hs & Ha & Hb). split; [done|].
        destruct Ha as [->|(a' & ->)].
        { (* a later piece that is also a prefix: use the separator before it *)
          assert (Hlater : forall s p ps w, split_on c s = p :: ps -> In w ps -> exists a b, s = a +:+ String c "" +:+ w +:+ b /\ (b = "" \/ exists b', b = String c b')).
          { clear. induction s as [|d s IH]; intros p ps w; cbn [split_on]; [intros [= _ <-]; done|].
            destruct (Ascii.eqb_spec d c) as [->|].
            - intros [= _ <-] Hin. destruct (split_on c s) as [|q qs] eqn:E; [done|]. destruct Hin as [<-|Hin].
              + assert (Hf : forall s p ps, split_on c s = p :: ps -> exists b, s = p +:+ b /\ (b = "" \/ exists b', b = String c b')).
                { clear. induction s as [|d s IH]; intros p ps; cbn [split_on].
                  - intros [= <- _]. exists "". split; [done|by left].
                  - destruct (Ascii.eqb_spec d c) as [->|]; [intros [= <- _]; exists (String c s); split; [done|right; by exists s]|].
                    destruct (split_on c s) as [|q qs] eqn:E; [by destruct (split_on_nonempty c s)|]. intros [= <- _].
                    destruct (IH _ _ eq_refl) as (b & -> & Hb). exists b. by split. }
                destruct (Hf _ _ _ E) as (b & -> & Hb). exists "", b. by split.
              + destruct (IH _ _ _ eq_refl Hin) as (a & b & -> & Hb). exists (String c a), b. by split.
            - destruct (split_on c s) as [|q qs] eqn:E; [by destruct (split_on_nonempty c s)|]. intros [= _ <-] Hin.
              destruct (IH _ _ _ eq_refl Hin) as (a & b & -> & Hb). exists (String d a), b. by split. }
          destruct (Hlater _ _ _ _ E Hin) as (a & b2 & Hs2 & Hb2). exists (String d a +:+ String c ""), b2. rewrite Hs2. split; [cbn; by rewrite str_app_assoc|].
          split; [right; by exists (String d a)|done]. }
        exists (String d a' +:+ String c ""), b. rewrite Hs. split; [done|]. split; [right; by exists (String d a')|done].
Qed.

(** splitting at the space finds exactly the words when the string has no other
    white space *)
Lemma words_spec w s : one_word w -> plain_spaces s -> In w (split_on " " s) <-> word_of w s.
Proof.
  intros [Hw1 Hw2] Hs. split.
  - intros H. apply split_on_pieces in H as (Hw & a & b & -> & Ha & Hb). split; [done|]. split; [done|]. exists a, b. split; [done|]. split.
    + destruct Ha as [->|(a' & ->)]; [by left|]. right. exists a', " "%char. split; [by left|done].
    + destruct Hb as [->|(b' & ->)]; [by left|]. right. exists " "%char, b'. split; [by left|done].
  - intros (_ & _ & a & b & -> & Ha & Hb).
    assert (Hno : " "%char ∉ chars w) by (intros Hin; apply (Hw2 _ Hin); by left).
    assert (Hwb : In w (split_on " " (w +:+ b))).
    { destruct Hb as [->|(c & b' & Hc & ->)]; [rewrite str_app_nil, split_on_no by done; by left|].
      assert (c = " "%char) as ->.
      { apply Hs; [|done]. rewrite !chars_app. apply elem_of_app. right. apply elem_of_app. right. apply elem_of_list_here. }
      rewrite split_on_sep, split_on_no by done. by left. }
    destruct Ha as [->|(a' & c & Hc & ->)]; [done|]. 
    assert (c = " "%char) as ->.
    { apply Hs; [|done]. rewrite !chars_app. apply elem_of_app. left. apply elem_of_app. right. apply elem_of_list_here. }
    rewrite str_app_assoc. change (String " " "" +:+ w +:+ b) with (String " " (w +:+ b)). rewrite split_on_sep. apply in_or_app. by right.
Qed.
Lemma existsb_eqb x l : existsb (String.eqb x) l = true <-> In x l.
Proof.
  rewrite existsb_exists. split; [intros (y & Hy & He); apply String.eqb_eq in He; by subst|]. intros H. exists x. split; [done|apply String.eqb_refl].
Qed.

(** ** Simple selectors *)
Lemma view_pseudo_spec e name : view_pseudo e name = true <-> css_pseudo name e.
Proof.
  unfold view_pseudo, css_pseudo.
  destruct (String.eqb_spec name "hover") as [->|]; [split; [auto|intros [[_ ?]|[[? _]|[[? _]|[? _]]]]; done]|].
  destruct (String.eqb_spec name "active") as [->|]; [split; [auto|intros [[? _]|[[_ ?]|[[? _]|[? _]]]]; done]|].
  destruct (String.eqb_spec name "checked") as [->|]; [split; [auto|intros [[? _]|[[? _]|[[? _]|[_ ?]]]]; done]|].
  destruct (String.eqb_spec name "focus") as [->|]; [split; [auto|intros [[? _]|[[? _]|[[_ ?]|[? _]]]]; done]|].
  split; [done|]. intros [[? _]|[[? _]|[[? _]|[? _]]]]; done.
Qed.

Theorem simple_matches t root n e s : get_ctx t n = Some e -> simple_agrees t n s ->
  match_simple_selector view_pseudo s e = true <-> css_simple t root n s.
Proof.
  intros He Hag.
  assert (Hex : forall P : Element -> Prop, (exists e', get_ctx t n = Some e' /\ P e') <-> P e).
  { intros P. rewrite He. split; [by intros (? & [= <-] & ?)|]. intros HP. by exists e. }
  unfold css_simple. rewrite (Hex (fun e => _)). destruct s as [|id|c|name|name op value| |name|name|c]; cbn [match_simple_selector simple_agrees] in *.
  - done.
  - destruct (e_attrs e !! "id") as [v|]; [|done]. rewrite String.eqb_eq. split; congruence.
  - assert (Ha : attr t n "class" = e_attrs e !! "class") by (unfold attr; by rewrite He). rewrite Ha in Hag. destruct Hag as [Hw Hp].
    destruct (e_attrs e !! "class") as [v|]; [|split; [done|by intros (? & ? & _)]]. unfold match_class.
    rewrite existsb_eqb, words_spec; [|done|by apply Hp]. split; [by exists v|]. by intros (? & [= <-] & ?).
  - apply String.eqb_eq.
  - assert (Ha : attr t n name = e_attrs e !! name) by (unfold attr; by rewrite He). rewrite Ha in Hag.
    destruct (e_attrs e !! name) as [v|]; [|split; [done|by intros (? & ? & _)]].
    transitivity (css_attribute op value v); [|split; [by exists v|by intros (? & [= <-] & ?)]].
    destruct op; cbn [match_attr css_attribute].
    + done.
    + apply String.eqb_eq.
    + destruct Hag as [Hw Hp]. rewrite existsb_eqb. apply words_spec; [done|by apply Hp].
    + destruct (Hag v eq_refl) as [H1 H2]. rewrite orb_true_iff, !String.eqb_eq. split; [intros [?|?]; [by left|done]|]. intros [?|?]; [by left|done].
    + rewrite starts_with_spec. split; [done|by intros [_ ?]].
    + rewrite contains_spec. split; [done|by intros [_ ?]].
    + rewrite ends_with_spec. split; [done|by intros [_ ?]].
  - done.
  - apply view_pseudo_spec.
  - done.
  - done.
Qed.

(** ** Chains *)
Section chains.
  Context (P : NodeId -> Simple -> Prop) (R : ascii -> NodeId -> NodeId -> Prop).
  (** reading the chain from its end *)
  Fixpoint walk (l : list Simple) (n : NodeId) : Prop :=
    match l with
    | [] => True
    | s :: l => match as_combinator s with
                | None => P n s /\ walk l n
                | Some c => exists m, R c m n /\ walk l m
                end
    end.
  Lemma walk_compound l l' n : Forall is_simple l -> walk (l ++ l') n <-> Forall (P n) l /\ walk l' n.
  Proof.
    induction 1 as [|s l Hs _ IH]; cbn [walk app]; [by split; [|intros [_ ?]]|]. unfold is_simple in Hs. rewrite Hs, List.Forall_cons_iff. tauto.
  Qed.
  Lemma selects_walk sel n : selects P R sel n <-> walk (rev sel) n.
  Proof.
    split.
    - induction 1 as [compound n Hs Hp|left c compound m n _ IH Hr Hs Hp].
      + rewrite <- (app_nil_r (rev compound)), walk_compound; [|by apply Forall_rev]. split; [by apply Forall_rev|done].
      + rewrite rev_app_distr. cbn [rev]. rewrite <- app_assoc, walk_compound; [|by apply Forall_rev]. split; [by apply Forall_rev|].
        cbn. by exists m.
    - intros H. rewrite <- (rev_involutive sel). revert H. generalize (rev sel) as l. clear sel. intros l H.
      (* cut at the first combinator *)
      assert (Hcut : forall l, Forall is_simple l \/ exists a c b, l = a ++ SCombinator c :: b /\ Forall is_simple a /\ List.length b < List.length l).
      { clear. induction l as [|s l IH]; [by left|]. destruct (as_combinator s) as [c|] eqn:E.
        - right. destruct s; try done. injection E as ->. exists [], c, l. split; [done|]. split; [constructor|cbn; lia].
        - destruct IH as [IH|(a & c & b & -> & Ha & Hb)]; [left; by constructor|]. right. exists (s :: a), c, b. split; [done|]. split; [by constructor|cbn; lia]. }
      remember (List.length l) as k eqn:Hk. assert (Hle : List.length l <= k) by lia. clear Hk.
      revert l n H Hle. induction k as [|k IH]; intros l n H Hle.
      + destruct l; [|cbn in Hle; lia]. cbn [rev]. apply selects_compound; constructor.
      + destruct (Hcut l) as [Hs|(a & c & b & -> & Ha & Hb)].
        * rewrite <- (app_nil_r l), walk_compound in H by done. destruct H as [H _].
          apply selects_compound; by apply Forall_rev.
        * apply walk_compound in H as [Hp H]; [|done]. cbn in H. destruct H as (m & Hr & Hw).
          rewrite rev_app_distr. cbn [rev]. rewrite <- app_assoc. cbn [app].
          eapply selects_combined; [|exact Hr|by apply Forall_rev|by apply Forall_rev]. apply IH; [done|]. rewrite app_length in *. cbn in *. lia.
  Qed.
End chains.

Lemma walk_mono (P P' : NodeId -> Simple -> Prop) (R R' : ascii -> NodeId -> NodeId -> Prop) l : forall n, (forall m s, s ∈ l -> as_combinator s = None -> P m s -> P' m s) ->
  (forall c m k, SCombinator c ∈ l -> R c m k -> R' c m k) -> walk P R l n -> walk P' R' l n.
Proof.
  induction l as [|s l IH]; intros n HP HR; cbn [walk]; [done|]. destruct (as_combinator s) as [c|] eqn:E.
  - destruct s; try done. injection E as ->. intros (m & Hr & Hw). exists m. split; [apply HR; [apply elem_of_list_here|done]|].
    revert Hw. apply IH; intros; [apply HP; [by apply elem_of_list_further|done..]|apply HR; [by apply elem_of_list_further|done]].
  - intros [H1 H2]. split; [apply HP; [apply elem_of_list_here|done..]|].
    revert H2. apply IH; intros; [apply HP; [by apply elem_of_list_further|done..]|apply HR; [by apply elem_of_list_further|done]].
Qed.

(** ** What the code computes *)
Lemma parent_spec t n p : parent t n = Ok p -> p = parent_of t n.
Proof. unfold parent, get_node, parent_of. intros H. inv_ok. by rewrite Hr. Qed.
Lemma parent_ok t n x : t_nodes t !! n = Some x -> parent t n = Ok (parent_of t n).
Proof. unfold parent, get_node, parent_of. intros H. by rewrite H. Qed.
Lemma children_spec t n cs : children t n = Ok cs -> cs = attached t n.
Proof. unfold children, get_node, attached. intros H. inv_ok. by rewrite Hr. Qed.

Definition code_simple (m : PseudoMatcher) (t : Tree) (n : NodeId) (s : Simple) : Prop :=
  exists e, get_ctx t n = Some e /\ match_simple_selector m s e = true.
Definition code_related (debug : bool) (t : Tree) (c : ascii) (m n : NodeId) : Prop :=
  find_next_target debug c n t = Ok (Some m).

Lemma components_walk debug mt t l : forall n e b, get_ctx t n = Some e -> match_components debug mt l n e t = Ok b ->
  (b = true <-> walk (code_simple mt t) (code_related debug t) l n).
Proof.
  induction l as [|s l IH]; intros n e b He H; cbn [match_components walk] in *; [by injection H as <-|].
  destruct (as_combinator s) as [c|].
  - apply bindR_Ok in H as (next & Hn & H). destruct next as [m|].
    + apply bindR_Ok in H as (e' & He' & H). apply unwrap_Ok in He'. rewrite (IH _ _ _ He' H). unfold code_related. split; [intros Hw; by exists m|].
      intros (m' & Hm' & Hw). rewrite Hn in Hm'. by injection Hm' as <-.
    + injection H as <-. split; [done|]. intros (m' & Hm' & _). unfold code_related in Hm'. rewrite Hn in Hm'. done.
  - destruct (match_simple_selector mt s e) eqn:Em.
    + rewrite (IH _ _ _ He H). split; [|by intros [_ ?]]. intros Hw. split; [by exists e|done].
    + injection H as <-. split; [done|]. intros [(e' & He' & Hx) _]. rewrite He in He'. injection He' as <-. congruence.
Qed.
Lemma complex_selects debug mt t sel n b : match_complex_selector debug mt sel n t = Ok b ->
  (b = true <-> selects (code_simple mt t) (code_related debug t) sel n).
Proof.
  unfold match_complex_selector. intros H. apply bindR_Ok in H as (e & He & H). apply unwrap_Ok in He.
  rewrite selects_walk. by eapply components_walk.
Qed.
Lemma any_selects debug mt t n sels : forall b, match_any debug mt sels n t = Ok b ->
  (b = true -> exists sel, sel ∈ sels /\ match_complex_selector debug mt sel n t = Ok true) /\
  (b = false -> forall sel, sel ∈ sels -> match_complex_selector debug mt sel n t = Ok false).
Proof.
  induction sels as [|s sels IH]; intros b H; cbn [match_any] in H.
  - injection H as <-. split; [done|]. intros _ sel Hin. by apply elem_of_nil in Hin.
  - apply bindR_Ok in H as (b1 & H1 & H). destruct b1.
    + injection H as <-. split; [|done]. intros _. exists s. split; [apply elem_of_list_here|done].
    + destruct (IH _ H) as [I1 I2]. split.
      * intros Hb. destruct (I1 Hb) as (sel & Hin & Hm). exists sel. split; [by apply elem_of_list_further|done].
      * intros Hb sel Hin. apply elem_of_cons in Hin as [->|Hin]; [done|]. by apply I2.
Qed.
Lemma style_selects debug mt t s n b : match_style debug mt s n t = Ok b ->
  (b = true <-> exists sel, sel ∈ s_selectors s /\ selects (code_simple mt t) (code_related debug t) sel n).
Proof.
  unfold match_style. intros H. destruct (any_selects _ _ _ _ _ _ H) as [H1 H2]. split.
  - intros Hb. destruct (H1 Hb) as (sel & Hin & Hm). exists sel. split; [done|]. by apply (complex_selects _ _ _ _ _ _ Hm).
  - intros (sel & Hin & Hs). destruct b; [done|]. pose proof (H2 eq_refl _ Hin) as Hm. by apply (complex_selects _ _ _ _ _ _ Hm) in Hs.
Qed.

(** ** Child combinators *)
Lemma child_code debug t m n : is_Some (t_nodes t !! n) -> code_related debug t ">" m n <-> parent_of t n = Some m.
Proof.
  intros [x Hx]. unfold code_related, find_next_target. cbn [Ascii.eqb Bool.eqb]. rewrite (parent_ok _ _ _ Hx). split; [by intros [= ->]|by intros ->].
Qed.
Lemma ctx_is t n e : get_ctx t n = Some e -> is_Some (t_nodes t !! n).
Proof. unfold get_ctx. by destruct (t_nodes t !! n). Qed.
(** every node has an element and so has its parent *)
Definition well_linked (t : Tree) : Prop :=
  forall n x, t_nodes t !! n = Some x -> is_Some (n_ctx x) /\ forall p, n_parent x = Some p -> is_Some (t_nodes t !! p).
Lemma live_linked t root : live t root -> well_linked t.
Proof.
  intros Hl n x Hx. destruct (decide (n < t_next t)) as [Hlt|Hge]; [|rewrite (live_beyond _ _ Hl n) in Hx by lia; done].
  destruct (live_node _ _ Hl n Hlt) as (e & He & _). split; [unfold get_ctx in He; rewrite Hx in He; by exists e|].
  intros p Hp. assert (Hpo : parent_of t n = Some p) by (unfold parent_of; by rewrite Hx). apply (live_parent _ _ Hl) in Hpo.
  assert (p < t_next t). { destruct (live_newer _ _ Hl p n) as [? ?]; [by left|]. lia. }
  destruct (live_node _ _ Hl p ltac:(lia)) as (e' & He' & _). by eapply ctx_is.
Qed.

Lemma child_no_plus sel : child_only sel -> no_plus sel.
Proof. intros H c Hc. by rewrite (H c Hc). Qed.
Lemma components_total debug mt t l : well_linked t -> (forall c, SCombinator c ∈ l -> c <> "+"%char) ->
  forall n e, get_ctx t n = Some e -> exists b, match_components debug mt l n e t = Ok b.
Proof.
  intros Hl. induction l as [|s l IH]; intros Hc n e He; cbn [match_components]; [by exists true|].
  assert (Hc' : forall c, SCombinator c ∈ l -> c <> "+"%char) by (intros c Hin; apply Hc; by apply elem_of_list_further).
  destruct (as_combinator s) as [c|] eqn:E.
  - destruct s; try done. injection E as ->. pose proof (Hc c ltac:(apply elem_of_list_here)) as Hp.
    destruct (ctx_is _ _ _ He) as [x Hx]. unfold find_next_target. destruct (Ascii.eqb_spec c "+") as [|_]; [done|]. destruct (Ascii.eqb c ">"); [|by exists false]. rewrite (parent_ok _ _ _ Hx). cbn [bindR].
    destruct (parent_of t n) as [p|] eqn:Ep; [|by exists false]. unfold parent_of in Ep. rewrite Hx in Ep. cbn in Ep.
    destruct (proj2 (Hl _ _ Hx) _ Ep) as [y Hy]. destruct (proj1 (Hl _ _ Hy)) as [e' He'].
    assert (Hg : get_ctx t p = Some e') by (unfold get_ctx; by rewrite Hy). rewrite Hg. cbn [unwrap bindR]. by apply IH.
  - destruct (match_simple_selector mt s e); [by apply IH|by exists false].
Qed.
Lemma complex_total debug mt t sel n : well_linked t -> no_plus sel -> is_Some (get_ctx t n) ->
  exists b, match_complex_selector debug mt sel n t = Ok b.
Proof.
  intros Hl Hc [e He]. unfold match_complex_selector. rewrite He. cbn [unwrap bindR]. apply components_total; [done| |done].
  intros c Hin. apply Hc. by rewrite elem_of_list_In, <- in_rev, <- elem_of_list_In in Hin.
Qed.
Lemma style_total debug mt t s n : well_linked t -> (forall sel, sel ∈ s_selectors s -> no_plus sel) -> is_Some (get_ctx t n) ->
  exists b, match_style debug mt s n t = Ok b.
Proof.
  intros Hl Hc Hn. unfold match_style. revert Hc. generalize (s_selectors s) as sels.
  induction sels as [|sel sels IH]; intros Hc; cbn [match_any]; [by exists false|].
  destruct (complex_total debug mt t sel n Hl (Hc _ ltac:(apply elem_of_list_here)) Hn) as [b ->]. cbn [bindR].
  destruct b; [by exists true|]. apply IH. intros sel' Hin. apply Hc. by apply elem_of_list_further.
Qed.

(** walking up with child combinators stays on the node or above it *)
Lemma walk_above (t : Tree) (P Q : NodeId -> Simple -> Prop) (R : ascii -> NodeId -> NodeId -> Prop) l : forall n, (forall c, SCombinator c ∈ l -> c = ">"%char) ->
  (forall m k, R ">"%char m k -> parent_of t k = Some m) ->
  (forall m s, at_or_above t m n -> s ∈ l -> as_combinator s = None -> P m s -> Q m s) -> walk P R l n -> walk Q R l n.
Proof.
  induction l as [|s l IH]; intros n Hc HR HP; cbn [walk]; [done|].
  assert (Hc' : forall c, SCombinator c ∈ l -> c = ">"%char) by (intros c Hin; apply Hc; by apply elem_of_list_further).
  destruct (as_combinator s) as [c|] eqn:E.
  - destruct s; try done. injection E as ->. rewrite (Hc c) by apply elem_of_list_here. intros (m & Hr & Hw). exists m. split; [done|].
    revert Hw. apply IH; [done..|]. intros k s Hk Hin Hs. apply HP; [|by apply elem_of_list_further|done]. eapply rtc_r; [exact Hk|]. by apply HR.
  - intros [H1 H2]. split; [apply HP; [reflexivity|apply elem_of_list_here|done..]|]. revert H2. apply IH; [done..|].
    intros k s' Hk Hin. apply HP; [done|by apply elem_of_list_further].
Qed.

Theorem child_selectors debug t root sel n : well_linked t -> child_only sel -> is_Some (get_ctx t n) ->
  (forall m s, at_or_above t m n -> s ∈ sel -> as_combinator s = None -> simple_agrees t m s) ->
  exists b, match_complex_selector debug view_pseudo sel n t = Ok b /\ (b = true <-> css_selects t root sel n).
Proof.
  intros Hl Hc Hn Hag. destruct (complex_total debug view_pseudo t sel n Hl (child_no_plus _ Hc) Hn) as [b Hb]. exists b. split; [done|].
  rewrite (complex_selects _ _ _ _ _ _ Hb). unfold css_selects. rewrite !selects_walk.
  assert (Hrev : forall s, s ∈ rev sel <-> s ∈ sel) by (intros s; by rewrite !elem_of_list_In, <- in_rev).
  assert (Hcr : forall c, SCombinator c ∈ rev sel -> c = ">"%char) by (intros c Hin; apply Hc; by apply Hrev).
  assert (HR1 : forall m k, code_related debug t ">" m k -> parent_of t k = Some m).
  { intros m k Hr. unfold code_related, find_next_target in Hr. cbn [Ascii.eqb Bool.eqb] in Hr. by apply parent_spec in Hr. }
  assert (HR2 : forall m k, css_related t ">" m k <-> parent_of t k = Some m) by done.
  split; intros Hw.
  - apply (walk_above t _ (css_simple t root) (code_related debug t)) in Hw; [|exact Hcr|exact HR1|].
    + revert Hw. apply walk_mono; [done|]. intros c m k Hin. rewrite (Hcr c Hin). intros Hr. apply HR2. by apply HR1.
    + intros m s Hm Hin Hs (e & He & Hx). apply (simple_matches t root m e s He); [|done]. apply Hag; [done|by apply Hrev|done].
  - apply (walk_above t _ (code_simple view_pseudo t) (css_related t)) in Hw; [|exact Hcr|by intros m k ?; apply HR2|].
    + revert Hw. apply walk_mono; [done|]. intros c m k Hin. rewrite (Hcr c Hin). intros Hr%(proj1 (HR2 _ _)). apply child_code; [|done].
      unfold parent_of in Hr. destruct (t_nodes t !! k) as [x|]; [by exists x|discriminate Hr].
    + intros m s Hm Hin Hs Hx. assert (He : exists e, get_ctx t m = Some e) by (destruct Hx as (e & He & _); by exists e). destruct He as [e He].
      exists e. split; [done|]. apply (simple_matches t root m e s He); [|done]. apply Hag; [done|by apply Hrev|done].
Qed.

(** ** The other combinators *)
Lemma code_unsupported debug t c m n : c <> ">"%char -> c <> "+"%char -> ~ code_related debug t c m n.
Proof.
  intros H1 H2. unfold code_related, find_next_target. destruct (Ascii.eqb_spec c ">"); [done|]. destruct (Ascii.eqb_spec c "+"); [done|]. done.
Qed.
(** '+' finds the element two places before *)
Lemma code_plus t root m n : live t root -> code_related false t "+" m n <->
  exists p pre x post, attached t p = pre ++ m :: x :: n :: post.
Proof.
  intros Hl. unfold code_related, find_next_target. change (Ascii.eqb "+" ">") with false. change (Ascii.eqb "+" "+") with true. cbn iota. split.
  - intros H. apply bindR_Ok in H as (q & Hq & H). apply parent_spec in Hq. destruct q as [p|]; [|done].
    apply bindR_Ok in H as (cs & Hcs & H). apply children_spec in Hcs. destruct (position n (tail cs)) as [[|k]|] eqn:E; [done| |done].
    injection H as H. apply position_Some in E as [E _]. destruct cs as [|c0 cs]; [done|]. cbn [tail] in E.
    assert (E2 : (c0 :: cs) !! S (S k) = Some n) by exact E. exists p. rewrite <- Hcs.
    destruct (lookup_lt_is_Some_2 (c0 :: cs) (S k)) as [x Hx]; [apply lookup_lt_Some in E2; lia|].
    exists (take k (c0 :: cs)), x, (drop (S (S (S k))) (c0 :: cs)).
    rewrite <- (take_drop k (c0 :: cs)) at 1. f_equal. rewrite (drop_S _ _ _ H), (drop_S _ _ _ Hx), (drop_S _ _ _ E2). done.
  - intros (p & pre & x & post & Hat).
    assert (Hn : n ∈ attached t p) by (rewrite Hat; rewrite elem_of_app, !elem_of_cons; tauto).
    assert (Hp : parent_of t n = Some p) by (by apply (live_parent _ _ Hl)).
    assert (He : exists y, t_nodes t !! n = Some y) by (unfold parent_of in Hp; destruct (t_nodes t !! n) as [y|]; [by exists y|done]).
    destruct He as [y Hy]. rewrite (parent_ok _ _ _ Hy), Hp. cbn [bindR].
    assert (Hc : children t p = Ok (attached t p)).
    { unfold children, get_node, attached. unfold attached in Hn. destruct (t_nodes t !! p) as [z|]; [done|by apply elem_of_nil in Hn]. }
    rewrite Hc. cbn [bindR]. destruct (live_once _ _ Hl p) as [Hnd _]. rewrite Hat in *. clear Hc Hat Hn.
    assert (Hpos : position n (tail (pre ++ m :: x :: n :: post)) = Some (S (List.length pre))).
    { destruct (position n (tail (pre ++ m :: x :: n :: post))) as [i|] eqn:E.
      - apply position_Some in E as [E _].
        assert (E' : (pre ++ m :: x :: n :: post) !! S i = Some n) by (destruct pre; exact E).
        assert (E2 : (pre ++ m :: x :: n :: post) !! (S (S (List.length pre))) = Some n).
        { rewrite lookup_app_r by lia. replace (S (S (List.length pre)) - List.length pre) with 2 by lia. done. }
        f_equal. pose proof (NoDup_lookup _ _ _ _ Hnd E' E2). lia.
      - apply position_None in E. exfalso. apply E. destruct pre; cbn; rewrite ?elem_of_app, !elem_of_cons; tauto. }
    rewrite Hpos. f_equal. by rewrite lookup_app_r, Nat.sub_diag by lia.
Qed.
(** in a debug build '+' panics on a second child *)
Lemma plus_panics t root n p x post : live t root -> attached t p = x :: n :: post -> find_next_target true "+" n t = Panic.
Proof.
  intros Hl Hat. assert (Hn : n ∈ attached t p) by (rewrite Hat; rewrite !elem_of_cons; tauto).
  assert (Hp : parent_of t n = Some p) by (by apply (live_parent _ _ Hl)).
  assert (He : exists y, t_nodes t !! n = Some y) by (unfold parent_of in Hp; destruct (t_nodes t !! n) as [y|]; [by exists y|done]).
  destruct He as [y Hy]. unfold find_next_target. change (Ascii.eqb "+" ">") with false. change (Ascii.eqb "+" "+") with true. cbn iota.
  rewrite (parent_ok _ _ _ Hy), Hp. cbn [bindR].
  assert (Hc : children t p = Ok (attached t p)).
  { unfold children, get_node, attached. unfold attached in Hn. destruct (t_nodes t !! p) as [z|]; [done|by apply elem_of_nil in Hn]. }
  rewrite Hc, Hat. cbn [bindR tail position]. by rewrite Nat.eqb_refl.
Qed.

Lemma selects_mono (P P' : NodeId -> Simple -> Prop) (R R' : ascii -> NodeId -> NodeId -> Prop) sel n : (forall m s, s ∈ sel -> as_combinator s = None -> P m s -> P' m s) ->
  (forall c m k, SCombinator c ∈ sel -> R c m k -> R' c m k) -> selects P R sel n -> selects P' R' sel n.
Proof.
  intros HP HR H. revert HP HR. induction H as [compound n Hs Hc|left c compound m n Hl IH Hr Hs Hc]; intros HP HR.
  - apply selects_compound; [done|]. rewrite list.Forall_forall in *. intros s Hin. apply HP; [done|by apply Hs|by apply Hc].
  - rewrite list.Forall_forall in *. apply selects_combined with m; [apply IH| |by apply list.Forall_forall|].
    + intros k s Hin. apply HP. by apply elem_of_app; left.
    + intros c' a b Hin. apply HR. by apply elem_of_app; left.
    + apply HR; [rewrite elem_of_app, elem_of_cons; tauto|done].
    + apply list.Forall_forall. intros s Hin. apply HP; [rewrite elem_of_app, elem_of_cons; tauto|by apply Hs|by apply Hc].
Qed.
(** what every selector means in a release build *)
Theorem combinators_mean t root sel n b : live t root ->
  (forall m s, is_Some (get_ctx t m) -> s ∈ sel -> as_combinator s = None -> simple_agrees t m s) ->
  match_complex_selector false view_pseudo sel n t = Ok b ->
  (b = true <-> selects (css_simple t root) (bumaga_related t) sel n).
Proof.
  intros Hl Hag Hb. rewrite (complex_selects _ _ _ _ _ _ Hb).
  assert (HR : forall c m k, code_related false t c m k <-> bumaga_related t c m k).
  { intros c m k. unfold bumaga_related. destruct (Ascii.eqb_spec c ">") as [->|H1].
    - destruct (t_nodes t !! k) as [x|] eqn:E; [apply child_code; by exists x|].
      unfold code_related, find_next_target, parent, get_node, parent_of. change (Ascii.eqb ">" ">") with true. cbn iota. by rewrite E.
    - destruct (Ascii.eqb_spec c "+") as [->|H2]; [by eapply code_plus|]. split; [|done]. by apply code_unsupported. }
  split; apply selects_mono; try (intros c m k _; by apply HR).
  - intros m s Hin Hs (e & He & Hx). apply (simple_matches t root m e s He); [|done]. apply Hag; [by exists e|done|done].
  - intros m s Hin Hs Hx. assert (Hx' := Hx). destruct Hx' as (e & He & _). exists e. split; [done|].
    apply (simple_matches t root m e s He); [|done]. apply Hag; [by exists e|done|done].
Qed.
Theorem plus_selector_panics t root n p x post : live t root -> attached t p = x :: n :: post ->
  forall e s l, get_ctx t n = Some e -> match_simple_selector view_pseudo s e = true -> as_combinator s = None ->
  match_complex_selector true view_pseudo (l ++ [SCombinator "+"; s]) n t = Panic.
Proof.
  intros Hl Hat e s l He Hm Hs. unfold match_complex_selector. rewrite He. cbn [unwrap bindR]. rewrite rev_app_distr.
  cbn [rev app match_components]. rewrite Hs, Hm. cbn [as_combinator]. by rewrite (plus_panics _ _ _ _ _ _ Hl Hat).
Qed.
