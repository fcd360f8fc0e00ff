(** * Styled sample pages (C31-C34, C55-C58). *)
From Coq Require Import ZArith Lia.
From stdpp Require Import gmap.
From RecordUpdate Require Import RecordUpdate.
From Verif Require Import Str F32 Res Json PropKey Html Css Element Tree ViewModel Render Update Matching
  Cascade Initial Animation Apply Styling Events View SpecLive SpecView SpecTree SpecSelect SpecStyle SpecShow SpecPage
  SelectFacts SelectLive Samples PropSelect.

(** A page that meets the hypotheses: <div><p style="visibility: hidden"></p></div> with
    [div { --ink: red; color: blue }], [p { color: var(--ink); width: 10px; width: 20px }] *)
Definition blue : Rgba := (0, 0, 255, 255)%Z.
Definition px (n : Z) : ComputedValue := CDimension (mkDim (f32_of_Z n) UPx).
Definition decl (k : PropertyKey) (l : Shorthand) : Declaration := DeclProperty (mkProperty k [l]).
Definition give (k : PropertyKey) (v : ComputedValue) : Declaration := decl k [DExplicit v].
Definition inks : Externals :=
  mkExternals (fun _ => "float") (fun s => s) (fun s => if String.eqb s "visibility: hidden" then Some [give KVisibility (CKeyword "hidden")] else None)
    (fun s => map_to_list s) (fun _ _ => layout_zero) ∅ false.
Definition ink_rules : list Style :=
  [rule [[SType "div"]] [DeclVariable (mkVariable "--ink" [DExplicit (CColor red)]); give KColor (CColor blue)];
   rule [[SType "p"]] [decl KColor [DVar "--ink"]; give KWidth (px 10); give KWidth (px 20)]].
Definition ink_css : Css := mkCss ink_rules ∅.
Definition ink_page : Html := document [elem "div" [] [elem "p" [EBNone "style" "visibility: hidden"] []]].
Definition ink_declarations : list Declaration :=
  [decl KColor [DVar "--ink"]; give KWidth (px 10); give KWidth (px 20)] ++ [give KVisibility (CKeyword "hidden")].

(** what is computed about the page *)
Definition ink_tree (t : Tree) : Prop :=
  parent_of t 3 = Some 2 /\ parent_of t 2 = Some 1 /\ parent_of t 1 = Some 0 /\ parent_of t 0 = None /\
  e_tag <$> get_ctx t 3 = Some "p" /\ e_tag <$> get_ctx t 2 = Some "div" /\ e_tag <$> get_ctx t 1 = Some "body" /\
  e_text <$> get_ctx t 3 = Some None /\ e_text <$> get_ctx t 2 = Some None /\ e_text <$> get_ctx t 1 = Some None /\
  e_style <$> get_ctx t 3 = Some [give KVisibility (CKeyword "hidden")] /\ e_style <$> get_ctx t 2 = Some [] /\ e_style <$> get_ctx t 1 = Some [].
Lemma fmap_at {A B} (f : A -> B) (o : option A) b : f <$> o = Some b -> exists a, o = Some a /\ f a = b.
Proof. intros H. destruct o as [a|]; [|done]. exists a. split; [done|]. by injection H. Qed.
Lemma type_selects t root n name tag : e_tag <$> get_ctx t n = Some tag -> css_selects t root [SType name] n <-> tag = name.
Proof.
  intros H. apply fmap_at in H as (e & He & <-). split.
  - intros Hs. inversion Hs as [sel n' H1 H2|left c compound m n' H1 H2 H3 H4 E]; subst.
    + inversion H2 as [|s l Hd _]; subst. destruct Hd as (e' & He' & <-). by rewrite He in He'; injection He' as <-.
    + exfalso. destruct left as [|s [|? ?]]; cbn in E; try discriminate E; injection E; try done.
  - intros <-. apply selects_compound; [repeat constructor|]. constructor; [by exists e|constructor].
Qed.
Lemma type_applies t root n name tag ds : e_tag <$> get_ctx t n = Some tag -> css_applies t root (rule [[SType name]] ds) n <-> tag = name.
Proof.
  intros H. rewrite <- (type_selects t root n name tag H). split.
  - intros (sel & Hs & Hx). apply elem_of_list_singleton in Hs as ->. exact Hx.
  - intros Hx. exists [SType name]. split; [apply elem_of_list_here|exact Hx].
Qed.
Lemma type_plain css t n : (forall s, s ∈ css_styles css -> exists name, s_selectors s = [[SType name]]) -> plain_selectors css t n.
Proof.
  intros H s sel Hs Hsel. destruct (H s Hs) as [name E]. rewrite E in Hsel. apply elem_of_list_singleton in Hsel as ->. split.
  - intros c Hc. apply elem_of_list_singleton in Hc. discriminate Hc.
  - intros m c _ Hc _. apply elem_of_list_singleton in Hc as ->. exact I.
Qed.
Lemma type_settled bs t a s name : s_selectors s = [[SType name]] -> rule_settled bs t a s.
Proof.
  intros H. unfold rule_settled, rule_looks_at, has_combinator. rewrite H.  split; [|split].
  - intros sel Hsel. apply elem_of_list_singleton in Hsel as ->. intros c Hc. apply elem_of_list_singleton in Hc. discriminate Hc.
  - intros key _ (sel & c & Hsel & Hc & Hl). apply elem_of_list_singleton in Hsel as ->. apply elem_of_list_singleton in Hc as ->. destruct Hl.
  - intros (sel & c & Hsel & Hc). apply elem_of_list_singleton in Hsel as ->. apply elem_of_list_singleton in Hc. discriminate Hc.
Qed.
Lemma ink_types s : s ∈ css_styles ink_css -> exists name, s_selectors s = [[SType name]].
Proof. intros H. cbn in H. unfold ink_rules in H. rewrite !elem_of_cons in H. destruct H as [->|[->|H]]; [by eexists..|by apply elem_of_nil in H]. Qed.
Lemma above_lt t m n : live t 0 -> above t m n -> m < n.
Proof.
  intros Hl H. assert (exists b, at_or_above t m b /\ parent_of t n = Some b) as (b & H' & Hb) by (induction H as [a b Hab|a b c Hab _ (d & Hd & Hc)]; [exists a; split; [reflexivity|done]|exists d; split; [by eapply rtc_l|done]]). clear H. rename H' into H. apply (live_parent _ _ Hl) in Hb. destruct (live_newer _ _ Hl b n ltac:(by left)) as [Hlt _].
  apply (above_le t 0 m b Hl) in H. lia.
Qed.
Lemma not_contentless t m tag : e_tag <$> get_ctx t m = Some tag -> e_text <$> get_ctx t m = Some None -> String.eqb tag "img" || is_void tag = false -> ~ contentless t m.
Proof.
  intros H1 H2 Ht (e & He & Hc). rewrite He in H1, H2. injection H1 as H1. injection H2 as H2. rewrite H1, H2, Ht in Hc. destruct Hc as [[x Hc]|Hc]; discriminate Hc.
Qed.
Lemma ink_styled t : live t 0 -> ink_tree t -> styled_element t 1 3.
Proof.
  intros Hl (P3 & P2 & P1 & P0 & T3 & T2 & T1 & X3 & X2 & X1 & _). split; [|split].
  - eapply rtc_l; [exact P2|]. eapply rtc_l; [exact P3|]. reflexivity.
  - apply fmap_at in X3 as (e & He & Ex). by exists e.
  - intros m Hm Ha. apply (above_lt t m 3 Hl) in Ha. apply (above_le t 0 1 m Hl) in Hm. destruct (decide (m = 2)) as [->|].
    + eapply not_contentless; [exact T2|exact X2|reflexivity].
    + assert (m = 1) as -> by lia. eapply not_contentless; [exact T1|exact X1|reflexivity].
Qed.
Lemma ink_declared t : ink_tree t ->
  declarations ink_css t 0 3 ink_declarations /\
  declarations ink_css t 0 2 [DeclVariable (mkVariable "--ink" [DExplicit (CColor red)]); give KColor (CColor blue)] /\
  declarations ink_css t 0 1 [].
Proof.
  intros (P3 & P2 & P1 & P0 & T3 & T2 & T1 & X3 & X2 & X1 & S3 & S2 & S1). split; [|split].
  - apply fmap_at in S3 as (e & He & Es). eexists _, e. split.
    { apply declared_no; [by rewrite (type_applies _ _ _ _ _ _ T3)|]. apply declared_yes; [by rewrite (type_applies _ _ _ _ _ _ T3)|constructor]. }
    split; [exact He|by rewrite Es].
  - apply fmap_at in S2 as (e & He & Es). eexists _, e. split.
    { apply declared_yes; [by rewrite (type_applies _ _ _ _ _ _ T2)|]. apply declared_no; [by rewrite (type_applies _ _ _ _ _ _ T2)|constructor]. }
    split; [exact He|by rewrite Es].
  - apply fmap_at in S1 as (e & He & Es). eexists _, e. split.
    { apply declared_no; [by rewrite (type_applies _ _ _ _ _ _ T1)|]. apply declared_no; [by rewrite (type_applies _ _ _ _ _ _ T1)|constructor]. }
    split; [exact He|by rewrite Es].
Qed.
Ltac tidy := repeat (apply List.Forall_cons; [first [exact I | reflexivity | right; cbn; lia | left; reflexivity]|]); apply List.Forall_nil.
Lemma ink_tidy : tidy_css ink_css /\ (forall s ds, x_read_inline_css inks s = Some ds -> Forall tidy_declaration ds) /\
  quiet_css ink_css /\ (forall s ds, x_read_inline_css inks s = Some ds -> Forall quiet_declaration ds).
Proof.
  split; [|split; [|split]].
  - split.
    + intros s Hs. cbn in Hs. unfold ink_rules in Hs. rewrite !elem_of_cons in Hs. destruct Hs as [->|[->|Hs]]; [tidy..|by apply elem_of_nil in Hs].
    + intros name an kf H. exfalso. assert (E : Some an = None) by (etransitivity; [symmetry; exact H|exact (lookup_empty name)]). discriminate E.
  - intros s ds H. cbn in H. destruct (String.eqb _ _); [|done]. injection H as <-. tidy.
  - intros s Hs. cbn in Hs. unfold ink_rules in Hs. rewrite !elem_of_cons in Hs. destruct Hs as [->|[->|Hs]]; [tidy..|by apply elem_of_nil in Hs].
  - intros s ds H. cbn in H. destruct (String.eqb _ _); [|done]. injection H as <-. tidy.
Qed.
(** a document loaded and one update begun *)
Definition begin (X : Externals) (doc : Html) (css : Css) (input : Input) (value : json) : res (View * (json * Tree * gmap string NodeId)) :=
  do! v <- from_document X 20 doc css; do! r <- prepare X 20 v input value; Ok (v, r).
