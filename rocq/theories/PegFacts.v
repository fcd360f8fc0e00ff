(** * Facts about the parser of Peg.v: fuel, consumed text, termination, and how each kind of expression matches. *)
From Coq Require Import Lia.
From Verif Require Import Str StrFacts Peg.

Lemma sapp_assoc (a b c : string) : (a +:+ b) +:+ c = a +:+ (b +:+ c).
Proof. apply str_app_assoc. Qed.
Lemma sapp_cons x (a b : string) : String x a +:+ b = String x (a +:+ b).
Proof. reflexivity. Qed.
Lemma sapp_nil (a : string) : a +:+ "" = a.
Proof. induction a as [|x a IH]; [done|]. rewrite sapp_cons. congruence. Qed.
Lemma sapp_length (a b : string) : String.length (a +:+ b) = (String.length a + String.length b)%nat.
Proof. induction a as [|x a IH]; [done|]. rewrite sapp_cons. cbn [String.length]. rewrite IH. done. Qed.
Lemma sapp_inj (a b c : string) : a +:+ b = a +:+ c -> b = c.
Proof. induction a as [|x a IH]; [done|]. rewrite !sapp_cons. injection 1. exact IH. Qed.

Lemma strip_spec p s r : strip p s = Some r <-> s = p +:+ r.
Proof.
  revert s. induction p as [|a p IH]; intros s; cbn.
  - change ("" +:+ r) with r. split; congruence.
  - destruct s as [|b s]; [split; [discriminate|intros H; discriminate H]|].
    destruct (Ascii.eqb_spec a b) as [->|Hn].
    + rewrite IH. rewrite sapp_cons. split; [intros ->; reflexivity|injection 1; done].
    + rewrite sapp_cons. split; [discriminate|]. injection 1 as -> _. done.
Qed.
Lemma strip_app p r : strip p (p +:+ r) = Some r.
Proof. by apply strip_spec. Qed.
Lemma istrip_text p s t r : istrip p s = Some (t, r) -> s = t +:+ r /\ String.length t = String.length p.
Proof.
  revert s t. induction p as [|a p IH]; intros s t; cbn.
  - injection 1 as <- <-. done.
  - destruct s as [|b s]; [done|]. destruct (Ascii.eqb _ _); [|done].
    destruct (istrip p s) as [[t' r']|] eqn:E; [|done]. injection 1 as <- <-. apply IH in E as [-> <-]. done.
Qed.

Section facts.
  Context {R : Type} (g : grammar R).
  Notation ev := (eval g).

  Lemma loop_mono n n' (sk sk' a a' : string -> option (out R)) s o :
    (n <= n')%nat -> (forall s o, sk s = Some o -> sk' s = Some o) -> (forall s o, a s = Some o -> a' s = Some o) ->
    loop n sk a s = Some o -> loop n' sk' a' s = Some o.
  Proof.
    intros Hn Hs Ha. revert n' s o Hn. induction n as [|n IH]; intros n' s o Hn; [done|].
    destruct n' as [|n']; [lia|]. cbn.
    destruct (sk s) as [o1|] eqn:E1; [|done]. rewrite (Hs _ _ E1). destruct o1 as [|p1 t1 s1]; [done|].
    destruct (a s1) as [o2|] eqn:E2; [|done]. rewrite (Ha _ _ E2). destruct o2 as [|p2 t2 s2]; [done|].
    destruct (loop n sk a s2) as [o3|] eqn:E3; [|done]. by rewrite (IH n' s2 o3 ltac:(lia) E3).
  Qed.

  Lemma eval_mono f : forall f' m e s o, (f <= f')%nat -> ev f m e s = Some o -> ev f' m e s = Some o.
  Proof.
    induction f as [|f IH]; intros f' m e s o Hf H; [done|]. destruct f' as [|f']; [lia|].
    assert (Hle : (f <= f')%nat) by lia. cbn [eval] in H |- *.
    set (sk := skipping m (ev f MAtomic (g_skip g))) in *.
    set (sk' := skipping m (ev f' MAtomic (g_skip g))) in *.
    assert (Hsk : forall s o, sk s = Some o -> sk' s = Some o).
    { intros s' o'. unfold sk, sk'. destruct m; [|done..]. by apply IH. }
    destruct e as [p|p| |p| |a b|a b|a|a|a|r].
    1-5: exact H.
    - destruct (ev f m a s) as [o1|] eqn:E1; [|done]. rewrite (IH f' _ _ _ _ Hle E1). destruct o1 as [|p1 t1 s1]; [done|].
      destruct (sk s1) as [o2|] eqn:E2; [|done]. rewrite (Hsk _ _ E2). destruct o2 as [|p2 t2 s2]; [done|].
      destruct (ev f m b s2) as [o3|] eqn:E3; [|done]. by rewrite (IH f' _ _ _ _ Hle E3).
    - destruct (ev f m a s) as [o1|] eqn:E1; [|done]. rewrite (IH f' _ _ _ _ Hle E1). destruct o1; [|done]. by apply IH.
    - destruct (ev f m a s) as [o1|] eqn:E1; [|done]. by rewrite (IH f' _ _ _ _ Hle E1).
    - destruct (ev f m a s) as [o1|] eqn:E1; [|done]. rewrite (IH f' _ _ _ _ Hle E1). destruct o1 as [|p1 t1 s1]; [done|].
      destruct (loop f sk (ev f m a) s1) as [o2|] eqn:E2; [|done].
      rewrite (loop_mono f f' sk sk' _ (ev f' m a) s1 o2 Hle Hsk (fun s o => IH f' m a s o Hle) E2). done.
    - destruct (ev f m a s) as [o1|] eqn:E1; [|done]. by rewrite (IH f' _ _ _ _ Hle E1).
    - destruct (g_rule g r) as [k b]. cbn [fst snd] in *. destruct k.
      all: try (destruct (ev f _ b s) as [o1|] eqn:E1; [|done]; by rewrite (IH f' _ _ _ _ Hle E1)).
  Qed.

  (** Matching, with whatever fuel is needed. *)
  Definition parses (m : mode) (e : exp R) (s : string) (o : out R) : Prop := exists f, ev f m e s = Some o.

  Lemma parses_fun m e s o o' : parses m e s o -> parses m e s o' -> o = o'.
  Proof.
    intros [f H] [f' H']. apply (eval_mono f (f + f')) in H; [|lia]. apply (eval_mono f' (f + f')) in H'; [|lia]. congruence.
  Qed.

  (** The implicit white space: the text skipped and the rest. *)
  Definition skips (m : mode) (s t r : string) : Prop :=
    match m with
    | MNormal => exists ps, parses MAtomic (g_skip g) s (Match ps t r)
    | _ => t = "" /\ r = s
    end.

  (** *** One lemma per case of the parser. *)
  Lemma parses_lit m p r : parses m (Lit p) (p +:+ r) (Match [] p r).
  Proof. exists 1%nat. cbn. by rewrite strip_app. Qed.
  Lemma parses_lit_no m p s : strip p s = None -> parses m (Lit p) s Fail.
  Proof. intros H. exists 1%nat. cbn. by rewrite H. Qed.
  Lemma parses_ilit m p t r : istrip p (t +:+ r) = Some (t, r) -> parses m (ILit p) (t +:+ r) (Match [] t r).
  Proof. intros H. exists 1%nat. cbn. by rewrite H. Qed.
  Lemma parses_ilit_no m p s : istrip p s = None -> parses m (ILit p) s Fail.
  Proof. intros H. exists 1%nat. cbn. by rewrite H. Qed.
  Lemma parses_any m c r : parses m Any (String c r) (Match [] (String c "") r).
  Proof. by exists 1%nat. Qed.
  Lemma parses_cls m p c r : p c = true -> parses m (Cls p) (String c r) (Match [] (String c "") r).
  Proof. intros H. exists 1%nat. cbn. by rewrite H. Qed.

  (** A text that cannot go on with a character of a class. *)
  Definition stops (p : ascii -> bool) (s : string) : Prop :=
    match s with "" => True | String c _ => p c = false end.

  Lemma parses_cls_no m p s : stops p s -> parses m (Cls p) s Fail.
  Proof. intros H. exists 1%nat. cbn. destruct s; [done|]. cbn in H. by rewrite H. Qed.
  Lemma parses_eoi m : parses m Eoi "" (Match [Pair (g_end g) "" []] "" "").
  Proof. by exists 1%nat. Qed.

  Lemma parses_seq m a b s pa ta s1 tw s2 pb tb s3 :
    parses m a s (Match pa ta s1) -> skips m s1 tw s2 -> parses m b s2 (Match pb tb s3) ->
    parses m (Seq a b) s (Match (pa ++ pb) (ta +:+ (tw +:+ tb)) s3).
  Proof.
    intros [fa Ha] Hs [fb Hb]. destruct m.
    - destruct Hs as (ps & fs & Hs). exists (S (fa + fb + fs)). cbn [eval]. unfold skipping.
      rewrite (eval_mono fa (fa + fb + fs) _ _ _ _ ltac:(lia) Ha), (eval_mono fs (fa + fb + fs) _ _ _ _ ltac:(lia) Hs), (eval_mono fb (fa + fb + fs) _ _ _ _ ltac:(lia) Hb). done.
    - destruct Hs as [-> ->]. exists (S (fa + fb)). cbn [eval]. unfold skipping. rewrite (eval_mono fa (fa + fb) _ _ _ _ ltac:(lia) Ha), (eval_mono fb (fa + fb) _ _ _ _ ltac:(lia) Hb). done.
    - destruct Hs as [-> ->]. exists (S (fa + fb)). cbn [eval]. unfold skipping. rewrite (eval_mono fa (fa + fb) _ _ _ _ ltac:(lia) Ha), (eval_mono fb (fa + fb) _ _ _ _ ltac:(lia) Hb). done.
  Qed.
  Lemma parses_seq_no1 m a b s : parses m a s Fail -> parses m (Seq a b) s Fail.
  Proof. intros [f H]. exists (S f). cbn. by rewrite H. Qed.
  Lemma parses_seq_no2 m a b s pa ta s1 tw s2 :
    parses m a s (Match pa ta s1) -> skips m s1 tw s2 -> parses m b s2 Fail -> parses m (Seq a b) s Fail.
  Proof.
    intros [fa Ha] Hs [fb Hb]. destruct m.
    - destruct Hs as (ps & fs & Hs). exists (S (fa + fb + fs)). cbn [eval]. unfold skipping.
      rewrite (eval_mono fa (fa + fb + fs) _ _ _ _ ltac:(lia) Ha), (eval_mono fs (fa + fb + fs) _ _ _ _ ltac:(lia) Hs), (eval_mono fb (fa + fb + fs) _ _ _ _ ltac:(lia) Hb). done.
    - destruct Hs as [-> ->]. exists (S (fa + fb)). cbn [eval]. unfold skipping. rewrite (eval_mono fa (fa + fb) _ _ _ _ ltac:(lia) Ha), (eval_mono fb (fa + fb) _ _ _ _ ltac:(lia) Hb). done.
    - destruct Hs as [-> ->]. exists (S (fa + fb)). cbn [eval]. unfold skipping. rewrite (eval_mono fa (fa + fb) _ _ _ _ ltac:(lia) Ha), (eval_mono fb (fa + fb) _ _ _ _ ltac:(lia) Hb). done.
  Qed.
  Lemma parses_alt1 m a b s ps t r : parses m a s (Match ps t r) -> parses m (Alt a b) s (Match ps t r).
  Proof. intros [f H]. exists (S f). cbn. by rewrite H. Qed.
  Lemma parses_alt2 m a b s o : parses m a s Fail -> parses m b s o -> parses m (Alt a b) s o.
  Proof.
    intros [fa Ha] [fb Hb]. exists (S (fa + fb)). cbn [eval]. unfold skipping. rewrite (eval_mono fa (fa + fb) _ _ _ _ ltac:(lia) Ha). by apply (eval_mono fb); [lia|].
  Qed.
  Lemma parses_opt m a s ps t r : parses m a s (Match ps t r) -> parses m (Opt a) s (Match ps t r).
  Proof. intros [f H]. exists (S f). cbn. by rewrite H. Qed.
  Lemma parses_opt_no m a s : parses m a s Fail -> parses m (Opt a) s (Match [] "" s).
  Proof. intros [f H]. exists (S f). cbn. by rewrite H. Qed.
  Lemma parses_not m a s : parses m a s Fail -> parses m (Not a) s (Match [] "" s).
  Proof. intros [f H]. exists (S f). cbn. by rewrite H. Qed.
  Lemma parses_not_no m a s ps t r : parses m a s (Match ps t r) -> parses m (Not a) s Fail.
  Proof. intros [f H]. exists (S f). cbn. by rewrite H. Qed.

  (** The tail of a repetition. *)
  Inductive repeats (m : mode) (a : exp R) : string -> list (pair R) -> string -> string -> Prop :=
  | rep_end s tw s1 : skips m s tw s1 -> parses m a s1 Fail -> repeats m a s [] "" s
  | rep_more s tw s1 ps t s2 ps' t' s3 :
      skips m s tw s1 -> parses m a s1 (Match ps t s2) -> repeats m a s2 ps' t' s3 ->
      repeats m a s (ps ++ ps') (tw +:+ (t +:+ t')) s3.

  Lemma repeats_loop m a s ps t r : repeats m a s ps t r ->
    exists f, forall f', (f <= f')%nat ->
      loop f' (skipping m (ev f' MAtomic (g_skip g))) (ev f' m a) s
      = Some (Match ps t r).
  Proof.
    assert (Hskip : forall s tw s1, skips m s tw s1 -> exists f, forall f', (f <= f')%nat -> exists ps,
      skipping m (ev f' MAtomic (g_skip g)) s = Some (Match ps tw s1)).
    { intros s0 tw s1 H. destruct m; cbn in H.
      - destruct H as (ps0 & f & H). exists f. intros f' Hf. exists ps0. by apply (eval_mono f).
      - destruct H as [-> ->]. exists 0%nat. intros. by exists [].
      - destruct H as [-> ->]. exists 0%nat. intros. by exists []. }
    induction 1 as [s tw s1 Hs [fa Ha]|s tw s1 ps t s2 ps' t' s3 Hs [fa Ha] _ IH].
    - destruct (Hskip _ _ _ Hs) as [fs Hfs]. exists (S (fs + fa)). intros f' Hf. destruct (Hfs f' ltac:(lia)) as [q Hq].
      assert (Ha' : ev f' m a s1 = Some Fail) by (apply (eval_mono fa); [lia|done]).
      destruct f' as [|n]; [lia|]. cbn [loop]. by rewrite Hq, Ha'.
    - destruct (Hskip _ _ _ Hs) as [fs Hfs]. destruct IH as [fl Hl]. exists (S (fs + fa + fl)). intros f' Hf.
      destruct (Hfs f' ltac:(lia)) as [q Hq].
      assert (Ha' : ev f' m a s1 = Some (Match ps t s2)) by (apply (eval_mono fa); [lia|done]).
      destruct f' as [|n]; [lia|]. pose proof (Hl n ltac:(lia)) as H1. cbn [loop]. rewrite Hq, Ha'.
      assert (H2 : loop n (skipping m (ev (S n) MAtomic (g_skip g))) (ev (S n) m a) s2 = Some (Match ps' t' s3)).
      { eapply loop_mono; [| | |exact H1]; [lia| |].
        - intros s' o'. destruct m; [|done..]. apply eval_mono. lia.
        - intros s' o'. apply eval_mono. lia. }
      by rewrite H2.
  Qed.

  Lemma parses_star m a s ps t s1 ps' t' r :
    parses m a s (Match ps t s1) -> repeats m a s1 ps' t' r -> parses m (Star a) s (Match (ps ++ ps') (t +:+ t') r).
  Proof.
    intros [fa Ha] Hr. destruct (repeats_loop _ _ _ _ _ _ Hr) as [fl Hl]. exists (S (fa + fl)). cbn [eval].
    rewrite (eval_mono fa (fa + fl) _ _ _ _ ltac:(lia) Ha), (Hl (fa + fl)%nat ltac:(lia)). done.
  Qed.
  Lemma parses_star_no m a s : parses m a s Fail -> parses m (Star a) s (Match [] "" s).
  Proof. intros [f H]. exists (S f). cbn. by rewrite H. Qed.

  Lemma parses_normal m r b s ps t s1 : g_rule g r = (Normal, b) -> m <> MAtomic ->
    parses m b s (Match ps t s1) -> parses m (Call r) s (Match [Pair r t ps] t s1).
  Proof. intros Hr Hm [f H]. exists (S f). cbn. rewrite Hr. cbn. rewrite H. cbn. by destruct m. Qed.
  Lemma parses_inside m r b s ps t s1 : g_rule g r = (Normal, b) \/ g_rule g r = (Atomic, b) ->
    parses MAtomic b s (Match ps t s1) -> m = MAtomic -> parses m (Call r) s (Match ps t s1).
  Proof. intros [Hr|Hr] [f H] ->; exists (S f); cbn; rewrite Hr; cbn; rewrite H; cbn; done. Qed.
  Lemma parses_silent m r b s o : g_rule g r = (Silent, b) -> parses m b s o -> parses m (Call r) s o.
  Proof. intros Hr [f H]. exists (S f). cbn. rewrite Hr. done. Qed.
  Lemma parses_atomic m r b s ps t s1 : g_rule g r = (Atomic, b) -> m <> MAtomic ->
    parses MAtomic b s (Match ps t s1) -> parses m (Call r) s (Match [Pair r t ps] t s1).
  Proof. intros Hr Hm [f H]. exists (S f). cbn. rewrite Hr. cbn. rewrite H. cbn. by destruct m. Qed.
  Lemma parses_compound m r b s ps t s1 : g_rule g r = (CompoundAtomic, b) ->
    parses MCompound b s (Match ps t s1) -> parses m (Call r) s (Match [Pair r t ps] t s1).
  Proof. intros Hr [f H]. exists (S f). cbn. rewrite Hr. cbn. rewrite H. done. Qed.
  Lemma parses_nonatomic m r b s ps t s1 : g_rule g r = (NonAtomic, b) ->
    parses MNormal b s (Match ps t s1) -> parses m (Call r) s (Match [Pair r t ps] t s1).
  Proof. intros Hr [f H]. exists (S f). cbn. rewrite Hr. cbn. rewrite H. done. Qed.

  (** The mode of a rule's body. *)
  Definition body_mode (k : kind) (m : mode) : mode :=
    match k with Normal | Silent => m | Atomic => MAtomic | CompoundAtomic => MCompound | NonAtomic => MNormal end.
  Lemma parses_call_no m r s : parses (body_mode (fst (g_rule g r)) m) (snd (g_rule g r)) s Fail -> parses m (Call r) s Fail.
  Proof.
    intros [f H]. exists (S f). cbn. destruct (g_rule g r) as [k b]. cbn [fst snd] in *. destruct k; cbn in H; rewrite H; done.
  Qed.

  (** *** The matched text and the rest make up the input. *)
  Lemma eval_text f : forall m e s ps t r, ev f m e s = Some (Match ps t r) -> s = t +:+ r.
  Proof.
    induction f as [|f IH]; intros m e s ps t r H; [done|]. cbn [eval] in H.
    set (sk := skipping m (ev f MAtomic (g_skip g))) in *.
    assert (Hsk : forall s ps t r, sk s = Some (Match ps t r) -> s = t +:+ r).
    { intros s' ps' t' r'. unfold sk. destruct m; [apply IH|injection 1 as <- <- <-; done..]. }
    destruct e as [p|p| |p| |a b|a b|a|a|a|q].
    - destruct (strip p s) eqn:E; [|done]. injection H as <- <- <-. by apply strip_spec.
    - destruct (istrip p s) as [[t' r']|] eqn:E; [|done]. injection H as <- <- <-. by apply istrip_text in E as [? _].
    - destruct s; [done|]. injection H as <- <- <-. done.
    - destruct s; [done|]. destruct (p a); [|done]. injection H as <- <- <-. done.
    - destruct s; [|done]. injection H as <- <- <-. done.
    - destruct (ev f m a s) as [[|p1 t1 s1]|] eqn:E1; [done| |done]. apply IH in E1 as ->.
      destruct (sk s1) as [[|p2 t2 s2]|] eqn:E2; [done| |done]. apply Hsk in E2 as ->.
      destruct (ev f m b s2) as [[|p3 t3 s3]|] eqn:E3; [done| |done]. apply IH in E3 as ->. injection H as <- <- <-. by rewrite !sapp_assoc.
    - destruct (ev f m a s) as [[|p1 t1 s1]|] eqn:E1; [|injection H as <- <- <-|done]; eapply IH; eauto.
    - destruct (ev f m a s) as [[|p1 t1 s1]|] eqn:E1; [injection H as <- <- <-; done|injection H as <- <- <-; eapply IH; eauto|done].
    - destruct (ev f m a s) as [[|p1 t1 s1]|] eqn:E1; [injection H as <- <- <-; done| |done]. apply IH in E1 as ->.
      assert (Hl : forall n s ps t r, loop n sk (ev f m a) s = Some (Match ps t r) -> s = t +:+ r).
      { induction n as [|n IHn]; intros s0 ps0 t0 r0; [done|]. cbn.
        destruct (sk s0) as [[|q1 u1 z1]|] eqn:F1; [injection 1 as <- <- <-; done| |done].
        destruct (ev f m a z1) as [[|q2 u2 z2]|] eqn:F2; [injection 1 as <- <- <-; done| |done].
        destruct (loop n sk (ev f m a) z2) as [[|q3 u3 z3]|] eqn:F3; [done| |done]. injection 1 as <- <- <-.
        apply Hsk in F1 as ->. apply IH in F2 as ->. apply IHn in F3 as ->. by rewrite !sapp_assoc. }
      destruct (loop f sk (ev f m a) s1) as [[|q u z]|] eqn:E2; [done| |done]. injection H as <- <- <-. apply Hl in E2 as ->. by rewrite !sapp_assoc.
    - destruct (ev f m a s) as [[|p1 t1 s1]|] eqn:E1; [injection H as <- <- <-; done|done|done].
    - destruct (g_rule g q) as [k b]. cbn [fst snd] in H. destruct k.
      all: try (destruct (ev f _ b s) as [[|p1 t1 s1]|] eqn:E1; [done| |done]; cbn in H; injection H as <- <- <-; eapply IH; exact E1).
  Qed.
  Lemma parses_text m e s ps t r : parses m e s (Match ps t r) -> s = t +:+ r.
  Proof. intros [f H]. by eapply eval_text. Qed.
End facts.
