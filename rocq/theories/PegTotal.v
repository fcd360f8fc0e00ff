(** * The parser ends on every text, with an amount of fuel linear in its length. *)
From Coq Require Import Lia.
From Verif Require Import Str StrFacts Peg PegFacts.

Section total.
  Context {R : Type} (g : grammar R).
  Notation ev := (eval g).
  (** Rules that may match the empty text; the depth of the calls a rule makes before reading anything. *)
  Context (nu : R -> bool) (rho : R -> nat) (K : nat).

  (** Expressions that may match the empty text. *)
  Fixpoint nullable (e : exp R) : bool :=
    match e with
    | Lit p | ILit p => String.eqb p ""
    | Any | Cls _ => false
    | Eoi => true
    | Seq a b => nullable a && nullable b
    | Alt a b => nullable a || nullable b
    | Opt _ | Star _ | Not _ => true
    | Call r => nu r
    end.

  (** The depth of calls before anything is read; [rs] is that of the implicit white space. *)
  Fixpoint rank (rs : nat) (e : exp R) : nat :=
    match e with
    | Seq a b => S (Nat.max (rank rs a) (if nullable a then Nat.max rs (rank rs b) else 0))
    | Alt a b => S (Nat.max (rank rs a) (rank rs b))
    | Opt a | Star a | Not a => S (rank rs a)
    | Call r => S (rho r)
    | _ => 1
    end.
  Fixpoint heavy (rs : nat) (e : exp R) : nat :=
    Nat.max (rank rs e)
      (match e with
       | Seq a b | Alt a b => Nat.max (heavy rs a) (heavy rs b)
       | Opt a | Star a | Not a => heavy rs a
       | _ => 0
       end).
  (** No repetition of something that may be empty. *)
  Fixpoint guarded (e : exp R) : bool :=
    match e with
    | Seq a b | Alt a b => guarded a && guarded b
    | Opt a | Not a => guarded a
    | Star a => negb (nullable a) && guarded a
    | _ => true
    end.

  (** Expressions that call no rule. *)
  Fixpoint callfree (e : exp R) : bool :=
    match e with
    | Seq a b | Alt a b => callfree a && callfree b
    | Opt a | Star a | Not a => callfree a
    | Call _ => false
    | _ => true
    end.

  (** The rank of the implicit white space, which calls no rule. *)
  Definition skip_rank : nat := rank 0 (g_skip g).

  Record well_founded_grammar : Prop := {
    wg_null : forall r, nullable (snd (g_rule g r)) = true -> nu r = true;
    wg_rank : forall r, (rank skip_rank (snd (g_rule g r)) <= rho r)%nat;
    wg_heavy : forall r, (heavy skip_rank (snd (g_rule g r)) < K)%nat;
    wg_guarded : forall r, guarded (snd (g_rule g r)) = true;
    wg_skip : callfree (g_skip g) = true /\ (heavy 0 (g_skip g) < K)%nat /\ guarded (g_skip g) = true
  }.
  Context (W : well_founded_grammar).

  Lemma app_empty (a b : string) : a +:+ b = "" -> a = "" /\ b = "".
  Proof. destruct a; [done|]. rewrite sapp_cons. done. Qed.

  Lemma eval_nullable f : forall m e s ps r, ev f m e s = Some (Match ps "" r) -> nullable e = true.
  Proof.
    induction f as [|f IH]; intros m e s ps r H; [done|]. cbn [eval] in H.
    set (sk := skipping m (ev f MAtomic (g_skip g))) in *.
    destruct e as [p|p| |p| |a b|a b|a|a|a|q]; cbn [nullable]; [..|reflexivity|reflexivity|reflexivity|].
    - destruct (strip p s); [|done]. injection H as <- -> <-. done.
    - destruct (istrip p s) as [[t' r']|] eqn:E; [|done]. injection H as <- -> <-. apply istrip_text in E as [_ E].
      destruct p; [done|discriminate E].
    - destruct s; [done|]. discriminate H.
    - destruct s; [done|]. destruct (p a); discriminate H.
    - reflexivity.
    - destruct (ev f m a s) as [[|p1 t1 s1]|] eqn:E1; [done| |done].
      destruct (sk s1) as [[|p2 t2 s2]|] eqn:E2; [done| |done].
      destruct (ev f m b s2) as [[|p3 t3 s3]|] eqn:E3; [done| |done]. injection H as <- Ht <-.
      apply app_empty in Ht as [-> Ht]. apply app_empty in Ht as [-> ->]. apply IH in E1, E3. by rewrite E1, E3.
    - destruct (ev f m a s) as [[|p1 t1 s1]|] eqn:E1; [|injection H as <- -> <-|done].
      + apply IH in H. rewrite H. apply orb_true_r.
      + apply IH in E1. by rewrite E1.
    - apply (wg_null W). destruct (g_rule g q) as [k b]. cbn [fst snd] in H |- *. destruct k.
      all: try (destruct (ev f _ b s) as [[|p1 t1 s1]|] eqn:E1; [done| |done]; cbn in H; injection H as <- -> <-; eapply IH; exact E1).
  Qed.

  Lemma rank_heavy rs e : (rank rs e <= heavy rs e)%nat.
  Proof. destruct e; cbn [heavy]; lia. Qed.
  Lemma rank_pos rs e : (1 <= rank rs e)%nat.
  Proof. destruct e; cbn [rank]; lia. Qed.

  Notation len := String.length.
  Lemma len_app (a b : string) : len (a +:+ b) = (len a + len b)%nat.
  Proof. apply str_app_length. Qed.

  (** A part of the grammar closed under parts of expressions and calls. *)
  Record closed (rs : nat) (fine : mode -> exp R -> Prop) : Prop := {
    cl_seq : forall m a b, fine m (Seq a b) -> fine m a /\ fine m b;
    cl_alt : forall m a b, fine m (Alt a b) -> fine m a /\ fine m b;
    cl_opt : forall m a, fine m (Opt a) -> fine m a;
    cl_star : forall m a, fine m (Star a) -> fine m a;
    cl_not : forall m a, fine m (Not a) -> fine m a;
    cl_call : forall m r, fine m (Call r) -> fine (body_mode (fst (g_rule g r)) m) (snd (g_rule g r)) /\
      (rank rs (snd (g_rule g r)) <= rho r)%nat /\ (heavy rs (snd (g_rule g r)) < K)%nat;
    cl_skip : forall e, fine MNormal e -> forall f s, (len s * K + rs <= f)%nat -> exists o, ev f MAtomic (g_skip g) s = Some o
  }.

  Lemma total_part rs fine (C : closed rs fine) : (rs < K)%nat -> forall f m e s, fine m e -> (heavy rs e < K)%nat -> guarded e = true ->
    (len s * K + rank rs e <= f)%nat -> exists o, ev f m e s = Some o.
  Proof.
    intros Hrs.
    induction f as [|f IH]; intros m e s Hfine Hh Hg Hf.
    { pose proof (rank_pos rs e). lia. }
    assert (Hsame : forall m' e', fine m' e' -> (heavy rs e' < K)%nat -> guarded e' = true -> (rank rs e' < rank rs e)%nat -> exists o, ev f m' e' s = Some o).
    { intros m' e' H0 H1 H2 H3. apply IH; [done..|lia]. }
    assert (Hless : forall m' e' s', fine m' e' -> (heavy rs e' < K)%nat -> guarded e' = true -> (len s' < len s)%nat -> exists o, ev f m' e' s' = Some o).
    { intros m' e' s' H0 H1 H2 H3. apply IH; [done..|]. pose proof (rank_heavy rs e'). pose proof (rank_pos rs e).
      assert (len s' * K + K <= len s * K)%nat by nia. lia. }
    assert (Hskip : forall s', (len s' < len s)%nat -> exists ps t r, skipping m (ev f MAtomic (g_skip g)) s' = Some (Match ps t r) \/ skipping m (ev f MAtomic (g_skip g)) s' = Some Fail).
    { intros s' Hl. unfold skipping. destruct m; [|exists [], "", s'; by left..].
      assert (Hsk : (len s' * K + rs <= f)%nat). { pose proof (rank_pos rs e). assert (len s' * K + K <= len s * K)%nat by nia. lia. }
      destruct (cl_skip _ _ C e Hfine f s' Hsk) as [[|ps t r] Ho]; [exists [], "", ""; by right|exists ps, t, r; by left]. }
    cbn [eval]. set (sk := skipping m (ev f MAtomic (g_skip g))) in *.
    destruct e as [p|p| |p| |a b|a b|a|a|a|q]; cbn [guarded heavy rank] in *.
    1-5: eauto.
    - apply andb_prop in Hg as [Hga Hgb]. destruct (cl_seq _ _ C _ _ _ Hfine) as [Fa Fb]. destruct (Hsame m a Fa ltac:(lia) Hga ltac:(lia)) as [[|pa ta s1] Ea]; rewrite Ea; [eauto|].
      pose proof (eval_text _ _ _ _ _ _ _ _ Ea) as Hs. assert (Hlen : len s = (len ta + len s1)%nat) by (rewrite Hs; apply len_app).
      destruct ta as [|c ta].
      + apply eval_nullable in Ea. rewrite Ea in Hf, Hsame. cbn [String.length] in Hlen.
        assert (Hs1 : s1 = s). { rewrite Hs. done. } subst s1.
        assert (Hk : exists o, sk s = Some o). { unfold sk, skipping. destruct m; [|eauto..]. apply (cl_skip _ _ C _ Hfine). lia. }
        destruct Hk as [[|pw tw s2] Ek]; rewrite Ek; [eauto|].
        assert (Hl2 : (len s2 <= len s)%nat).
        { unfold sk, skipping in Ek. destruct m; [|injection Ek as <- <- <-; lia..]. apply eval_text in Ek. rewrite Ek, len_app. lia. }
        assert (Hb : exists o, ev f m b s2 = Some o).
        { destruct (decide (len s2 = len s)) as [He|He]; [|apply Hless; [done|lia|done|lia]]. apply IH; [done|lia|done|]. lia. }
        destruct Hb as [[|pb tb s3] Eb]; rewrite Eb; eauto.
      + cbn [String.length] in Hlen. destruct (Hskip s1 ltac:(lia)) as (pw & tw & s2 & [Ek|Ek]); rewrite Ek; [|eauto].
        assert (Hl2 : (len s2 <= len s1)%nat).
        { unfold sk, skipping in Ek. destruct m; [|injection Ek as <- <- <-; lia..]. apply eval_text in Ek. rewrite Ek, len_app. lia. }
        destruct (Hless m b s2 Fb ltac:(lia) Hgb ltac:(lia)) as [[|pb tb s3] Eb]; rewrite Eb; eauto.
    - apply andb_prop in Hg as [Hga Hgb]. destruct (cl_alt _ _ C _ _ _ Hfine) as [Fa Fb].
      destruct (Hsame m a Fa ltac:(lia) Hga ltac:(lia)) as [[|pa ta s1] Ea]; rewrite Ea; [|eauto].
      apply Hsame; [done|lia|done|lia].
    - destruct (Hsame m a (cl_opt _ _ C _ _ Hfine) ltac:(lia) Hg ltac:(lia)) as [[|pa ta s1] Ea]; rewrite Ea; eauto.
    - apply andb_prop in Hg as [Hn Hga]. apply negb_true_iff in Hn. pose proof (cl_star _ _ C _ _ Hfine) as Fa.
      destruct (Hsame m a Fa ltac:(lia) Hga ltac:(lia)) as [[|pa ta s1] Ea]; rewrite Ea; [eauto|].
      assert (Hl1 : (len s1 < len s)%nat).
      { pose proof (eval_text _ _ _ _ _ _ _ _ Ea) as Hs. rewrite Hs, len_app. destruct ta; [|cbn [String.length]; lia].
        apply eval_nullable in Ea. congruence. }
      assert (HK : (1 <= K)%nat) by lia. assert (Hfl : (len s <= f)%nat) by nia.
      assert (Hloop : forall n s', (len s' < n)%nat -> (len s' < len s)%nat -> exists ps t r, loop n sk (ev f m a) s' = Some (Match ps t r)).
      { induction n as [|n IHn]; intros s' Hn' Hs'; [lia|]. cbn [loop].
        destruct (Hskip s' Hs') as (pw & tw & s2 & [Ek|Ek]); rewrite Ek; [|eauto].
        assert (Hl2 : (len s2 <= len s')%nat).
        { unfold sk, skipping in Ek. destruct m; [|injection Ek as <- <- <-; lia..]. apply eval_text in Ek. rewrite Ek, len_app. lia. }
        destruct (Hless m a s2 Fa ltac:(lia) Hga ltac:(lia)) as [[|pb tb s3] Eb]; rewrite Eb; [eauto|].
        assert (Hl3 : (len s3 < len s2)%nat).
        { pose proof (eval_text _ _ _ _ _ _ _ _ Eb) as Hs. rewrite Hs, len_app. destruct tb; [|cbn [String.length]; lia].
          apply eval_nullable in Eb. congruence. }
        destruct (IHn s3 ltac:(lia) ltac:(lia)) as (p3 & t3 & r3 & ->). eauto. }
      destruct (Hloop f s1 ltac:(lia) Hl1) as (p3 & t3 & r3 & ->). eauto.
    - destruct (Hsame m a (cl_not _ _ C _ _ Hfine) ltac:(lia) Hg ltac:(lia)) as [[|pa ta s1] Ea]; rewrite Ea; eauto.
    - destruct (cl_call _ _ C _ _ Hfine) as (Fb & Hrk & Hhv). pose proof (wg_guarded W q) as Hgd.
      destruct (Hsame _ _ Fb Hhv Hgd ltac:(lia)) as [o Ho].
      destruct (fst (g_rule g q)); cbn in Ho |- *; rewrite Ho; cbn; eauto.
  Qed.

  Lemma eval_total f m e s : (heavy skip_rank e < K)%nat -> guarded e = true ->
    (len s * K + rank skip_rank e <= f)%nat -> exists o, ev f m e s = Some o.
  Proof.
    destruct (wg_skip W) as (Hsf & Hsh & Hsg). pose proof (rank_heavy 0 (g_skip g)) as Hsr. fold skip_rank in Hsr.
    intros Hh Hg Hf. refine (total_part skip_rank (fun _ _ => True) _ _ f m e s I Hh Hg Hf); [|lia].
    split; try done.
    - intros m' r _. split; [done|]. split; [apply (wg_rank W)|apply (wg_heavy W)].
    - intros e' _ f' s' Hf'. refine (total_part 0 (fun m e => m = MAtomic /\ callfree e = true) _ _ f' MAtomic (g_skip g) s' _ Hsh Hsg Hf'); [|lia|done].
      split; cbn [callfree]; try done.
      + intros m' a b [-> Hc]. by apply andb_prop in Hc as [? ?].
      + intros m' a b [-> Hc]. by apply andb_prop in Hc as [? ?].
      + by intros m' r [_ Hc].
      + by intros e2 [Hc _].
  Qed.
End total.
