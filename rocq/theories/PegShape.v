(** * What a successful match looks like: the texts and pairs an expression can produce. *)
From Coq Require Import Lia.
From Verif Require Import Str StrFacts Peg PegFacts.

Section shape.
  Context {R : Type} (g : grammar R).

  (** The pairs of a rule, given those of its body. *)
  Definition emitted (k : kind) (m : mode) (r : R) (t : string) (ps : list (pair R)) : list (pair R) :=
    match k with
    | Silent => ps
    | CompoundAtomic | NonAtomic => [Pair r t ps]
    | Normal | Atomic => match m with MAtomic => ps | _ => [Pair r t ps] end
    end.

  Inductive derives : mode -> exp R -> string -> list (pair R) -> Prop :=
  | d_lit m p : derives m (Lit p) p []
  | d_ilit m p t r : istrip p (t +:+ r) = Some (t, r) -> derives m (ILit p) t []
  | d_any m c : derives m Any (String c "") []
  | d_cls m p c : p c = true -> derives m (Cls p) (String c "") []
  | d_eoi m : derives m Eoi "" [Pair (g_end g) "" []]
  | d_seq m a b ta tw tb pa pb : derives m a ta pa -> derives m b tb pb -> (m <> MNormal -> tw = "") ->
      derives m (Seq a b) (ta +:+ (tw +:+ tb)) (pa ++ pb)
  | d_alt1 m a b t ps : derives m a t ps -> derives m (Alt a b) t ps
  | d_alt2 m a b t ps : derives m b t ps -> derives m (Alt a b) t ps
  | d_none m a : derives m (Opt a) "" []
  | d_some m a t ps : derives m a t ps -> derives m (Opt a) t ps
  | d_not m a : derives m (Not a) "" []
  | d_stop m a : derives m (Star a) "" []
  | d_more m a t tw t' ps ps' : derives m a t ps -> (m <> MNormal -> tw = "") -> derives m (Star a) t' ps' ->
      derives m (Star a) (t +:+ (tw +:+ t')) (ps ++ ps')
  | d_call m r t ps : derives (body_mode (fst (g_rule g r)) m) (snd (g_rule g r)) t ps ->
      derives m (Call r) t (emitted (fst (g_rule g r)) m r t ps).

  Lemma eval_derives f : forall m e s ps t r, eval g f m e s = Some (Match ps t r) -> derives m e t ps.
  Proof.
    induction f as [|f IH]; intros m e s ps t r H; [done|]. pose proof (eval_text g (S f) m e s ps t r H) as Hst. cbn [eval] in H.
    set (sk := skipping m (eval g f MAtomic (g_skip g))) in *.
    assert (Hsk : forall s ps t r, sk s = Some (Match ps t r) -> m <> MNormal -> t = "").
    { intros s' ps' t' r'. unfold sk, skipping. destruct m; [done|injection 1 as <- <- <-; done..]. }
    destruct e as [p|p| |p| |a b|a b|a|a|a|q].
    - destruct (strip p s); [|done]. injection H as <- <- <-. constructor.
    - destruct (istrip p s) as [[t' r']|] eqn:E; [|done]. injection H as <- <- <-. rewrite Hst in E. by eapply d_ilit.
    - destruct s; [done|]. injection H as <- <- <-. constructor.
    - destruct s; [done|]. destruct (p a) eqn:E; [|done]. injection H as <- <- <-. by constructor.
    - destruct s; [|done]. injection H as <- <- <-. constructor.
    - destruct (eval g f m a s) as [[|p1 t1 s1]|] eqn:E1; [done| |done].
      destruct (sk s1) as [[|p2 t2 s2]|] eqn:E2; [done| |done].
      destruct (eval g f m b s2) as [[|p3 t3 s3]|] eqn:E3; [done| |done]. injection H as <- <- <-.
      apply d_seq; [by eapply IH|by eapply IH|by eapply Hsk].
    - destruct (eval g f m a s) as [[|p1 t1 s1]|] eqn:E1; [|injection H as <- <- <-|done].
      + apply d_alt2. by eapply IH.
      + apply d_alt1. by eapply IH.
    - destruct (eval g f m a s) as [[|p1 t1 s1]|] eqn:E1; [injection H as <- <- <-; constructor| |done].
      injection H as <- <- <-. apply d_some. by eapply IH.
    - destruct (eval g f m a s) as [[|p1 t1 s1]|] eqn:E1; [injection H as <- <- <-; constructor| |done].
      assert (Hl : forall n s ps t r, loop n sk (eval g f m a) s = Some (Match ps t r) ->
        exists tw t', t = tw +:+ t' /\ (m <> MNormal -> tw = "") /\ derives m (Star a) t' ps).
      { induction n as [|n IHn]; intros s0 ps0 t0 r0; [done|]. cbn [loop].
        destruct (sk s0) as [[|q1 u1 z1]|] eqn:F1; [injection 1 as <- <- <-; exists "", ""; repeat split; constructor| |done].
        destruct (eval g f m a z1) as [[|q2 u2 z2]|] eqn:F2; [injection 1 as <- <- <-; exists "", ""; repeat split; constructor| |done].
        destruct (loop n sk (eval g f m a) z2) as [[|q3 u3 z3]|] eqn:F3; [done| |done]. injection 1 as <- <- <-.
        destruct (IHn _ _ _ _ F3) as (tw & t' & -> & Hw & Hd). exists u1, (u2 +:+ (tw +:+ t')). split; [done|]. split; [by eapply Hsk|].
        apply d_more; [by eapply IH|done|done]. }
      destruct (loop f sk (eval g f m a) s1) as [[|q u z]|] eqn:E2; [done| |done]. injection H as <- <- <-.
      destruct (Hl _ _ _ _ _ E2) as (tw & t' & -> & Hw & Hd). apply d_more; [by eapply IH|done|done].
    - destruct (eval g f m a s) as [[|p1 t1 s1]|] eqn:E1; [injection H as <- <- <-; constructor|done|done].
    - destruct (g_rule g q) as [k b] eqn:Hq. cbn [fst snd] in H.
      assert (Hc : forall ps, derives (body_mode k m) b t ps -> derives m (Call q) t (emitted k m q t ps)).
      { intros ps' Hd. pose proof (d_call m q t ps') as Hc. rewrite Hq in Hc. by apply Hc. }
      destruct k.
      + destruct (eval g f m b s) as [[|p1 t1 s1]|] eqn:E1; [done| |done]. cbn in H. injection H as <- <- <-. by eapply (Hc p1), IH.
      + apply Hc. by eapply IH.
      + destruct (eval g f MAtomic b s) as [[|p1 t1 s1]|] eqn:E1; [done| |done]. cbn in H. injection H as <- <- <-. by eapply (Hc p1), IH.
      + destruct (eval g f MCompound b s) as [[|p1 t1 s1]|] eqn:E1; [done| |done]. cbn in H. injection H as <- <- <-. by eapply (Hc p1), IH.
      + destruct (eval g f MNormal b s) as [[|p1 t1 s1]|] eqn:E1; [done| |done]. cbn in H. injection H as <- <- <-. by eapply (Hc p1), IH.
  Qed.

  Lemma lit_inv m p t ps : derives m (Lit p) t ps -> t = p /\ ps = [].
  Proof. by inversion 1. Qed.
  Lemma ilit_inv m p t ps : derives m (ILit p) t ps -> ps = [].
  Proof. by inversion 1. Qed.
  Lemma any_inv m t ps : derives m Any t ps -> ps = [].
  Proof. by inversion 1. Qed.
  Lemma cls_inv m p t ps : derives m (Cls p) t ps -> ps = [] /\ exists c, t = String c "" /\ p c = true.
  Proof. inversion 1; eauto. Qed.
  Lemma seq_inv m a b t ps : derives m (Seq a b) t ps ->
    exists ta tw tb pa pb, t = ta +:+ (tw +:+ tb) /\ ps = pa ++ pb /\ derives m a ta pa /\ derives m b tb pb /\ (m <> MNormal -> tw = "").
  Proof. inversion 1; subst. eauto 12. Qed.
  Lemma alt_inv m a b t ps : derives m (Alt a b) t ps -> derives m a t ps \/ derives m b t ps.
  Proof. inversion 1; subst; eauto. Qed.
  Lemma opt_inv m a t ps : derives m (Opt a) t ps -> (t = "" /\ ps = []) \/ derives m a t ps.
  Proof. inversion 1; subst; eauto. Qed.
  Lemma not_inv m a t ps : derives m (Not a) t ps -> t = "" /\ ps = [].
  Proof. by inversion 1. Qed.
  Lemma eoi_inv m t ps : derives m Eoi t ps -> t = "" /\ ps = [Pair (g_end g) "" []].
  Proof. by inversion 1. Qed.
  Lemma call_inv m r t ps : derives m (Call r) t ps ->
    exists inner, derives (body_mode (fst (g_rule g r)) m) (snd (g_rule g r)) t inner /\ ps = emitted (fst (g_rule g r)) m r t inner.
  Proof. inversion 1; subst. eauto. Qed.
  Lemma star_forall m a t ps (P : pair R -> Prop) : derives m (Star a) t ps ->
    (forall t ps, derives m a t ps -> Forall P ps) -> Forall P ps.
  Proof.
    intros H HP. remember (Star a) as e eqn:He. revert a He HP. induction H; intros x He HP; try discriminate He.
    - constructor.
    - injection He as ->. apply Forall_app. split; [by eapply HP|by eapply IHderives2].
  Qed.
End shape.
