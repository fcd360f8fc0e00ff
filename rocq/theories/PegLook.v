(** * What the first character of a text decides, and repetitions of a character class. *)
From Coq Require Import Lia.
From Verif Require Import Str StrFacts SpecText Peg CssGrammar PegFacts.

(** The verdict on an expression after the first character of the text. *)
Inductive verdict : Set := No | Nil | Maybe.

Definition next (s : string) : option ascii := match s with "" => None | String c _ => Some c end.

Section look.
  Context {R : Type} (g : grammar R).
  Fixpoint look (f : nat) (e : exp R) (c : option ascii) : verdict :=
    match f with
    | O => Maybe
    | S f =>
        match e with
        | Lit "" => Nil
        | Lit (String a _) => match c with Some b => if Ascii.eqb a b then Maybe else No | None => No end
        | ILit "" => Nil
        | ILit (String a _) => match c with Some b => if Ascii.eqb (lower a) (lower b) then Maybe else No | None => No end
        | Any => match c with Some _ => Maybe | None => No end
        | Cls p => match c with Some b => if p b then Maybe else No | None => No end
        | Eoi => match c with Some _ => No | None => Nil end
        | Seq a b => match look f a c with No => No | Nil => look f b c | Maybe => Maybe end
        | Alt a b => match look f a c with No => look f b c | v => v end
        | Opt a => match look f a c with No => Nil | v => v end
        | Star a => match look f a c with No => Nil | _ => Maybe end
        | Not a => match look f a c with No => Nil | Nil => No | Maybe => Maybe end
        | Call r => look f (snd (g_rule g r)) c
        end
    end.

  (** Nothing is skipped in front of the text, or in this mode. *)
  Definition unskipped (m : mode) (s : string) : Prop :=
    skips g MNormal s "" s \/ (m <> MNormal /\ forall r, fst (g_rule g r) <> NonAtomic).
  Lemma look_spec f : forall m e s, unskipped m s ->
    match look f e (next s) with
    | No => parses g m e s Fail
    | Nil => exists ps, parses g m e s (Match ps "" s)
    | Maybe => True
    end.
  Proof.
    induction f as [|f IH]; intros m e s Hs; [done|].
    assert (Hm : skips g m s "" s) by (destruct m; [by destruct Hs as [Hs|[Hs _]]|done|done]).
    destruct e as [p|p| |p| |a b|a b|a|a|a|r]; cbn [look].
    - destruct p as [|a p]; [exists []; exact (parses_lit g m "" s)|].
      destruct s as [|b s]; cbn [next]; [by apply parses_lit_no|].
      destruct (Ascii.eqb a b) eqn:E; [done|]. apply parses_lit_no. cbn. by rewrite E.
    - destruct p as [|a p]; [exists []; exact (parses_ilit g m "" "" s eq_refl)|].
      destruct s as [|b s]; cbn [next]; [by apply parses_ilit_no|].
      destruct (Ascii.eqb (lower a) (lower b)) eqn:E; [done|]. apply parses_ilit_no. cbn. by rewrite E.
    - destruct s; cbn [next]; [|done]. by exists 1%nat.
    - destruct s as [|b s]; cbn [next]; [by apply parses_cls_no|].
      destruct (p b) eqn:E; [done|]. by apply parses_cls_no.
    - destruct s; cbn [next]; [eexists; apply parses_eoi|]. by exists 1%nat.
    - pose proof (IH m a s Hs) as Ha. destruct (look f a _).
      + by apply parses_seq_no1.
      + destruct Ha as [pa Ha]. pose proof (IH m b s Hs) as Hb. destruct (look f b _).
        * eapply parses_seq_no2; eauto.
        * destruct Hb as [pb Hb]. exists (pa ++ pb). exact (parses_seq g m a b s pa "" s "" s pb "" s Ha Hm Hb).
        * done.
      + done.
    - pose proof (IH m a s Hs) as Ha. destruct (look f a _).
      + pose proof (IH m b s Hs) as Hb. destruct (look f b _); [by apply parses_alt2| |done].
        destruct Hb as [pb Hb]. exists pb. by apply parses_alt2.
      + destruct Ha as [pa Ha]. exists pa. by apply parses_alt1.
      + done.
    - pose proof (IH m a s Hs) as Ha. destruct (look f a _).
      + exists []. by apply parses_opt_no.
      + destruct Ha as [pa Ha]. exists pa. by apply parses_opt.
      + done.
    - pose proof (IH m a s Hs) as Ha. destruct (look f a _); [|done..]. exists []. by apply parses_star_no.
    - pose proof (IH m a s Hs) as Ha. destruct (look f a _).
      + exists []. by apply parses_not.
      + destruct Ha as [pa Ha]. by eapply parses_not_no.
      + done.
    - assert (Hs' : unskipped (body_mode (fst (g_rule g r)) m) s).
      { destruct Hs as [Hs|[Hs1 Hs2]]; [by left|]. right. split; [|done]. specialize (Hs2 r). by destruct (fst (g_rule g r)). }
      pose proof (IH (body_mode (fst (g_rule g r)) m) (snd (g_rule g r)) s Hs') as Hb. destruct (look f _ _).
      + by apply parses_call_no.
      + destruct Hb as [pb Hb]. destruct (g_rule g r) as [k b] eqn:E. cbn [fst snd body_mode] in Hb.
        assert (Hb' : exists ps, parses g m (Call r) s (Match ps "" s)); [|exact Hb'].
        destruct Hb as [n Hb]. destruct k; cbn in Hb.
        * eexists _, (S n). cbn. rewrite E. cbn. rewrite Hb. cbn. reflexivity.
        * eexists _, (S n). cbn. rewrite E. cbn. rewrite Hb. reflexivity.
        * eexists _, (S n). cbn. rewrite E. cbn. rewrite Hb. cbn. reflexivity.
        * eexists _, (S n). cbn. rewrite E. cbn. rewrite Hb. cbn. reflexivity.
        * eexists _, (S n). cbn. rewrite E. cbn. rewrite Hb. cbn. reflexivity.
      + done.
  Qed.
  Lemma look_no f m e s : unskipped m s -> look f e (next s) = No -> parses g m e s Fail.
  Proof. intros Hs H. pose proof (look_spec f m e s Hs) as L. by rewrite H in L. Qed.

  (** ** Repetitions. *)
  Lemma skips_atomic m s : m <> MNormal -> skips g m s "" s.
  Proof. by destruct m. Qed.
  Lemma repeats_star m a s ps t r : m <> MNormal -> repeats g m a s ps t r -> parses g m (Star a) s (Match ps t r).
  Proof.
    intros Hm H. destruct H as [s tw s1 Hs Ha|s tw s1 ps t s2 ps' t' s3 Hs Ha H].
    - destruct m; [done|..]; destruct Hs as [-> ->]; by apply parses_star_no.
    - destruct m; [done|..]; destruct Hs as [-> ->]; exact (parses_star g _ _ _ _ _ _ _ _ _ Ha H).
  Qed.
  Lemma repeats_more m a s ps t s2 ps' t' s3 : m <> MNormal ->
    parses g m a s (Match ps t s2) -> repeats g m a s2 ps' t' s3 -> repeats g m a s (ps ++ ps') (t +:+ t') s3.
  Proof. intros Hm Ha H. apply (rep_more g m a s "" s ps t s2 ps' t' s3); [by apply skips_atomic|done|done]. Qed.
  Lemma repeats_end m a s : m <> MNormal -> parses g m a s Fail -> repeats g m a s [] "" s.
  Proof. intros Hm Ha. eapply rep_end; [by apply skips_atomic|done]. Qed.

  Lemma repeats_cls m p t r : m <> MNormal -> all p t -> stops p r -> repeats g m (Cls p) (t +:+ r) [] t r.
  Proof.
    intros Hm. induction t as [|c t IH]; intros Ht Hr.
    - apply repeats_end; [done|]. by apply parses_cls_no.
    - destruct Ht as [Hc Ht]. exact (repeats_more m (Cls p) _ [] (String c "") _ [] t r Hm (parses_cls g m p c (t +:+ r) Hc) (IH Ht Hr)).
  Qed.
  Lemma parses_word m p t r : m <> MNormal -> all p t -> t <> "" -> stops p r -> parses g m (Plus (Cls p)) (t +:+ r) (Match [] t r).
  Proof.
    intros Hm Ht Hn Hr. destruct t as [|c t]; [done|]. destruct Ht as [Hc Ht].
    exact (parses_seq g m _ _ _ [] (String c "") (t +:+ r) "" (t +:+ r) [] t r (parses_cls g m p c (t +:+ r) Hc) (skips_atomic m _ Hm)
             (repeats_star m _ _ _ _ _ Hm (repeats_cls m p t r Hm Ht Hr))).
  Qed.
  (** In normal mode white space may follow the word (it is given back). *)
  Lemma repeats_cls_normal p t r b r' : (forall c, p c = true -> forall s, skips g MNormal (String c s) "" (String c s)) ->
    all p t -> skips g MNormal r b r' -> stops p r' -> repeats g MNormal (Cls p) (t +:+ r) [] t r.
  Proof.
    intros Hp. induction t as [|c t IH]; intros Ht Hr Hs.
    - eapply rep_end; [exact Hr|]. by apply parses_cls_no.
    - destruct Ht as [Hc Ht]. exact (rep_more g MNormal (Cls p) _ "" _ [] (String c "") (t +:+ r) [] t r (Hp c Hc (t +:+ r)) (parses_cls g _ p c (t +:+ r) Hc) (IH Ht Hr Hs)).
  Qed.
  (** A word of two characters or more: white space after it is given back. *)
  Lemma parses_word_normal p c t r b r' : (forall c, p c = true -> forall s, skips g MNormal (String c s) "" (String c s)) ->
    p c = true -> all p t -> t <> "" -> skips g MNormal r b r' -> stops p r' ->
    parses g MNormal (Plus (Cls p)) (String c (t +:+ r)) (Match [] (String c t) r).
  Proof.
    intros Hp Hc Ht Hn Hr Hs. destruct t as [|d t]; [done|]. destruct Ht as [Hd Ht].
    exact (parses_seq g MNormal _ _ _ [] (String c "") (String d t +:+ r) "" (String d t +:+ r) [] (String d t) r
             (parses_cls g MNormal p c (String d t +:+ r) Hc) (Hp d Hd (t +:+ r))
             (parses_star g MNormal (Cls p) _ [] (String d "") (t +:+ r) [] t r (parses_cls g MNormal p d (t +:+ r) Hd) (repeats_cls_normal p t r b r' Hp Ht Hr Hs))).
  Qed.
  (** A word directly followed by something else. *)
  Lemma parses_word_solid p t r : (forall c, p c = true -> forall s, skips g MNormal (String c s) "" (String c s)) ->
    all p t -> t <> "" -> skips g MNormal r "" r -> stops p r ->
    parses g MNormal (Plus (Cls p)) (t +:+ r) (Match [] t r).
  Proof.
    intros Hp Ht Hn Hr Hs. destruct t as [|c [|d t]]; [done| |].
    - destruct Ht as [Hc _]. exact (parses_seq g MNormal _ _ _ [] (String c "") r "" r [] "" r (parses_cls g MNormal p c r Hc) Hr
        (parses_star_no g MNormal _ _ (parses_cls_no g MNormal p r Hs))).
    - destruct Ht as [Hc Ht]. exact (parses_word_normal p c (String d t) r "" r Hp Hc Ht ltac:(discriminate) Hr Hs).
  Qed.
End look.

(** A text that does not begin with white space or a comment. *)
Definition solid (opening s : string) : Prop := stops white s /\ strip opening s = None.

Section skip.
  Context {R : Type} (g : grammar R) (opening closing : string).
  Context (Hopen : opening <> "") (Hclose : closing <> "").
  Context (Hw : stops white opening).
  Context (Hskip : g_skip g = skip_exp (comment_exp opening closing)).
  Notation skip_rest := (Star (Seq (comment_exp opening closing) (Star ws_exp))).

  Lemma parses_white m c r : white c = true -> parses g m ws_exp (String c r) (Match [] (String c "") r).
  Proof.
    intros H. unfold white in H. exists 6%nat. apply orb_prop in H as [H|H]; [apply orb_prop in H as [H|H]; [apply orb_prop in H as [H|H]|]|].
    all: apply Ascii.eqb_eq in H as ->; reflexivity.
  Qed.
  Lemma white_no m s : stops white s -> parses g m ws_exp s Fail.
  Proof.
    assert (Hl : forall x c r, Ascii.eqb c x = false -> parses g m (Lit (String x "")) (String c r) Fail).
    { intros x c r H. apply parses_lit_no. cbn [strip]. by rewrite Ascii.eqb_sym, H. }
    intros H. unfold ws_exp. cbn [alt]. destruct s as [|c s].
    - repeat (apply parses_alt2; [by apply parses_lit_no|]). by apply parses_lit_no.
    - cbn in H. unfold white in H. apply orb_false_iff in H as [H H4]. apply orb_false_iff in H as [H H3]. apply orb_false_iff in H as [H1 H2].
      repeat (apply parses_alt2; [by apply Hl|]). by apply Hl.
  Qed.
  Lemma strip_none_app p a r : strip p a = None -> (String.length p <= String.length a)%nat -> strip p (a +:+ r) = None.
  Proof.
    revert a. induction p as [|x p IH]; intros a H Hl; [done|]. destruct a as [|y a]; [cbn in Hl; lia|].
    rewrite sapp_cons. cbn in *. destruct (Ascii.eqb x y); [|done]. apply IH; [done|lia].
  Qed.

  (** Everything up to the closing mark. *)
  Lemma body_repeats body r : closed_by closing body ->
    repeats g MAtomic (Seq (Not (Lit closing)) Any) (body +:+ (closing +:+ r)) [] body (closing +:+ r).
  Proof.
    clear Hopen Hw Hskip. unfold closed_by. induction body as [|c body IH]; intros Hb.
    - apply repeats_end; [done|]. apply parses_seq_no1. eapply parses_not_no. apply parses_lit.
    - assert (Hc : strip closing (String c (body +:+ (closing +:+ r))) = None).
      { destruct (strip closing (String c (body +:+ (closing +:+ r)))) as [q|] eqn:E; [|done]. exfalso.
        assert (Hin : exists z, String c body +:+ closing = closing +:+ z /\ z <> "").
        { apply strip_spec in E. destruct (strip closing (String c (body +:+ closing))) as [z|] eqn:Ez.
          - apply strip_spec in Ez. exists z. split; [by rewrite sapp_cons|]. intros ->. apply (f_equal String.length) in Ez.
            rewrite sapp_nil in Ez. cbn in Ez. rewrite sapp_length in Ez. lia.
          - exfalso. apply (strip_none_app _ _ r) in Ez; [|cbn; rewrite sapp_length; lia].
            rewrite sapp_cons, sapp_assoc, E, strip_app in Ez. done. }
        destruct Hin as (z & Hz & Hne). apply Hne. by apply (Hb "" z). }
      exact (repeats_more g MAtomic _ _ [] (String c "") (body +:+ (closing +:+ r)) [] body (closing +:+ r) ltac:(done)
        (parses_seq g MAtomic _ _ _ [] "" _ "" _ [] (String c "") _ (parses_not g _ _ _ (parses_lit_no g MAtomic closing _ Hc)) (conj eq_refl eq_refl) (parses_any g MAtomic c _))
        (IH (fun x y E => Hb (String c x) y (f_equal (String c) E)))).
  Qed.
  (** A comment is one comment. *)
  Lemma parses_comment body r : closed_by closing body ->
    parses g MAtomic (comment_exp opening closing) (opening +:+ (body +:+ (closing +:+ r))) (Match [] (opening +:+ (body +:+ closing)) r).
  Proof.
    intros Hb. unfold comment_exp. cbn [seq].
    exact (parses_seq g MAtomic _ _ _ [] opening _ "" _ [] (body +:+ closing) r (parses_lit g MAtomic opening _) (conj eq_refl eq_refl)
      (parses_seq g MAtomic _ _ _ [] body _ "" _ [] closing r (repeats_star g MAtomic _ _ _ _ _ ltac:(done) (body_repeats body r Hb)) (conj eq_refl eq_refl) (parses_lit g MAtomic closing r))).
  Qed.

  (** Blank text is skipped up to the next solid text. *)
  Lemma blank_skips b r : blank opening closing b -> solid opening r -> skips g MNormal (b +:+ r) b r.
  Proof.
    intros Hb [Hr1 Hr2].
    assert (H : exists w c, b = w +:+ c /\ repeats g MAtomic ws_exp (b +:+ r) [] w (c +:+ r) /\
      repeats g MAtomic (Seq (comment_exp opening closing) (Star ws_exp)) (c +:+ r) [] c r).
    { induction Hb as [|a b Ha Hb (w & c & -> & IH1 & IH2)|body b Hbody Hb (w & c & -> & IH1 & IH2)].
      - exists "", "". split; [done|]. split.
        + apply repeats_end; [done|]. by apply white_no.
        + apply repeats_end; [done|]. apply parses_seq_no1. unfold comment_exp. cbn [seq]. apply parses_seq_no1. by apply parses_lit_no.
      - exists (String a w), c. split; [done|]. split; [|done].
        exact (repeats_more g MAtomic ws_exp _ [] (String a "") _ [] w (c +:+ r) ltac:(done) (parses_white MAtomic a _ Ha) IH1).
      - exists "", (opening +:+ (body +:+ (closing +:+ (w +:+ c)))). split; [done|]. split.
        + apply repeats_end; [done|]. apply white_no. change ("" +:+ ?x) with x. destruct opening as [|o op]; [done|]. cbn.
          exact Hw.
        + change ("" +:+ ?x) with x. rewrite !sapp_assoc.
          assert (Hc := parses_comment body (w +:+ (c +:+ r)) Hbody). rewrite sapp_assoc in IH1.
          assert (Hs := parses_seq g MAtomic (comment_exp opening closing) (Star ws_exp) _ [] _ _ "" _ [] w (c +:+ r) Hc (conj eq_refl eq_refl) (repeats_star g MAtomic _ _ _ _ _ ltac:(done) IH1)).
          pose proof (repeats_more g MAtomic _ _ _ _ _ _ _ _ ltac:(done) Hs IH2) as H. cbn [app] in H.
          change ("" +:+ w) with w in H. rewrite !sapp_assoc in H. exact H. }
    destruct H as (w & c & -> & H1 & H2). cbn. rewrite Hskip. exists []. unfold skip_exp.
    pose proof (parses_seq g MAtomic (Star ws_exp) skip_rest _ [] w _ "" _ [] c r (repeats_star g MAtomic _ _ _ _ _ ltac:(done) H1) (conj eq_refl eq_refl) (repeats_star g MAtomic _ _ _ _ _ ltac:(done) H2)) as H.
    exact H.
  Qed.
  Lemma solid_skips r : solid opening r -> skips g MNormal r "" r.
  Proof. intros H. exact (blank_skips "" r (blank_nil _ _) H). Qed.
End skip.
