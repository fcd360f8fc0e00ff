(** * What the page shows after a list of reactions *)
From Coq Require Import ZArith Lia.
From stdpp Require Import gmap.
From RecordUpdate Require Import RecordUpdate.
From Verif Require Import Str StrFacts F32 Res ResFacts Json JsonFacts PropKey Html Css Element Tree ViewModel Render Update
  SpecLive SpecView SpecTree SpecBind SpecReact LiveFacts LiveUpdate.

Lemma lookup_block a z (l : list nat) j c : j < z -> l !! (a + j) = Some c -> c ∈ block a (a + z) l.
Proof.
  intros Hj H. unfold block. apply elem_of_list_lookup. exists j. rewrite lookup_take by lia. by rewrite lookup_drop.
Qed.
Lemma block_lookup a b (l : list nat) c : c ∈ block a b l -> exists j, j < b - a /\ l !! (a + j) = Some c.
Proof.
  unfold block. intros H. apply elem_of_list_lookup in H as [j H]. exists j. apply lookup_take_Some in H as [H Hj]. by rewrite lookup_drop in H.
Qed.
Lemma block_index a b (l : list nat) i c : NoDup l -> l !! i = Some c -> (c ∈ block a b l <-> a <= i < b).
Proof.
  intros Hnd Hi. split.
  - intros H. apply block_lookup in H as (j & Hj & H). assert (i = a + j) by (by eapply NoDup_lookup). lia.
  - intros Hab. replace b with (a + (b - a)) by lia. apply (lookup_block a _ l (i - a)); [lia|]. by replace (a + (i - a)) with i by lia.
Qed.

(** a reaction of the right kind writes its slot *)
Lemma effect_writes t t' root r : live t root -> reaction_ok t r -> same_definitions t t' -> effect t t' r ->
  (forall n i x, r = RType n i x -> is_Some (text_span t n i)) -> shows t' (fst (writes r)) (snd (writes r)).
Proof.
  intros Hl Hr Hd [E1 E2 E3 E4] Ht. destruct r as [n i x|p c v|p s c z|n k b|n k i x]; cbn [writes fst snd shows].
  - rewrite E1. cbn. rewrite decide_True by done. destruct (Ht _ _ _ eq_refl) as [y ->]. done.
  - destruct E4 as (E4 & _). rewrite (E4 c), decide_True by done. done.
  - destruct Hr as (e & He & Hscz & Hz & Htag). destruct E4 as (E4 & _). intros j d Hj. rewrite (same_def_defined _ _ _ Hd). intros Hjd.
    assert (Hnd : NoDup (defined t p)) by apply (live_once _ _ Hl). rewrite E4, elem_of_app, !elem_of_list_filter.
    rewrite !(block_index _ _ _ _ _ Hnd Hjd). destruct (decide (d ∈ attached t p)); intuition lia.
  - rewrite E3. cbn. by rewrite decide_True.
  - destruct Hr as (e & He & [spans Hs]). exists (<[i := x]> spans). split.
    + rewrite E2. cbn. rewrite decide_True by done. unfold attr_spans. rewrite He. cbn. by rewrite Hs.
    + rewrite insert_length. intros Hi. by rewrite list_lookup_insert.
Qed.

(** other reactions leave a slot alone *)
Lemma effect_keeps t t' root r l w : live t root -> reaction_ok t r -> same_definitions t t' -> effect t t' r ->
  fst (writes r) <> l -> ~ disturbs t l (fst (writes r)) -> shows t l w -> shows t' l w.
Proof.
  intros Hl Hr Hd [E1 E2 E3 E4] Hne Hnd. destruct l as [n i|n k i|n k|p c|p s z]; cbn [shows].
  - destruct w; try done. rewrite E1. destruct r as [m j x|?|?|?|?]; cbn [text_after]; try done.
    rewrite decide_False; [done|]. intros [-> ->]. done.
  - destruct w; try done. intros (spans & Hs & Hi). rewrite E2. destruct r as [?|?|?|?|m k' j x]; cbn [attr_spans_after]; try (by exists spans).
    destruct (decide (n = m /\ k = k')) as [[-> ->]|]; [|by exists spans]. rewrite Hs. cbn. eexists. split; [done|].
    rewrite insert_length. intros Hlt. rewrite list_lookup_insert_ne; [by apply Hi|]. intros ->. done.
  - destruct w as [|b|]; try done. rewrite E3. destruct r as [?|?|?|m k' b'|m k' j x]; cbn [attr_after]; try done.
    + rewrite decide_False; [done|]. intros [-> ->]. done.
    + rewrite decide_False; [done|]. intros [-> ->]. by apply Hnd.
  - destruct w as [|b|]; try done. destruct r as [?|q d v|q s cu z|?|?]; cbn [attached_after] in E4; try (by rewrite E4).
    + destruct E4 as (E4 & E5 & _). destruct (decide (p = q)) as [->|Hp]; [|by rewrite E5]. rewrite E4.
      rewrite decide_False; [done|]. intros ->. done.
    + destruct E4 as (E4 & E5). destruct (decide (p = q)) as [->|Hp]; [|by rewrite E5].
      destruct Hr as (e & He & Hscz & Hz & Htag).
      assert (Hdn : NoDup (defined t q)) by apply (live_once _ _ Hl).
      assert (Hout : c ∉ block s cu (defined t q) /\ c ∉ block cu z (defined t q)).
      { cbn in Hnd. split; intros Hin; apply Hnd; (split; [done|]); apply block_lookup in Hin as (j & Hj & Hlk);
          rewrite (block_index _ _ _ _ _ Hdn Hlk); lia. }
      rewrite E4, elem_of_app, !elem_of_list_filter. destruct Hout. intuition.
  - destruct w as [| |k]; try done. intros Hsh j c Hj. rewrite (same_def_defined _ _ _ Hd). intros Hc. specialize (Hsh j c Hj Hc).
    assert (Hin : c ∈ block s (s + z) (defined t p)) by (by eapply lookup_block).
    destruct r as [?|q d v|q s' cu z'|?|?]; cbn [attached_after] in E4; try (by rewrite E4).
    + destruct E4 as (E4 & E5 & _). destruct (decide (p = q)) as [->|Hp]; [|by rewrite E5]. rewrite E4.
      rewrite decide_False; [done|]. intros ->. apply Hnd. done.
    + destruct E4 as (E4 & E5). destruct (decide (p = q)) as [->|Hp]; [|by rewrite E5].
      destruct Hr as (e & He & Hscz & Hz & Htag).
      assert (Hdn : NoDup (defined t q)) by apply (live_once _ _ Hl).
      assert (Hout : c ∉ block s' cu (defined t q) /\ c ∉ block cu z' (defined t q)).
      { cbn in Hnd, Hne. split; intros Hb; apply Hnd; (split; [done|]); (split; [intros [= -> ->]; done|]); exists c; (split; [done|]);
          apply block_lookup in Hb as (j' & Hj' & Hlk); rewrite (block_index _ _ _ _ _ Hdn Hlk); lia. }
      rewrite E4, elem_of_app, !elem_of_list_filter. destruct Hout. intuition.
Qed.

Lemma disturbs_def t t' l m : same_definitions t t' -> disturbs t' l m -> disturbs t l m.
Proof. intros Hd. destruct l, m; cbn; rewrite ?(same_def_defined _ _ _ Hd); done. Qed.

(** the pieces of a text node that exist *)
Definition in_text (t : Tree) (r : Reaction) : Prop := forall n i x, r = RType n i x -> is_Some (text_span t n i).
Lemma in_text_def t t' r : same_definitions t t' -> in_text t r -> in_text t' r.
Proof.
  intros Hd H n i x ->. destruct (H _ _ _ eq_refl) as [y Hy]. unfold text_span in *. apply bind_Some in Hy as (e & He & Hy). apply bind_Some in Hy as (sp & Hsp & Hy).
  destruct (same_def_ctx _ _ _ _ Hd He) as (e' & He' & Heq). rewrite He'. cbn. injection Heq as _ _ _ Heq _ _ _. rewrite Hsp in Heq.
  destruct (e_text e') as [sp'|]; [|done]. cbn in *. injection Heq as Heq. apply lookup_lt_is_Some. rewrite Heq. by eapply lookup_lt_Some.
Qed.

Section upd.
  Context (ric : string -> option (list Declaration)).

  Lemma update_trees_shows l rs : forall t ids root t' ids', live t root -> Forall (reaction_ok t) rs -> Forall (in_text t) rs ->
    Forall (fun r => ~ disturbs t l (fst (writes r))) rs ->
    update_trees ric (t, ids) rs = Ok (t', ids') ->
    forall w, (last_written l rs = Some w \/ (last_written l rs = None /\ shows t l w)) -> shows t' l w.
  Proof.
    induction rs as [|r rs IH]; intros t ids root t' ids' Hl Hrs Hin Hdi H w Hw.
    - injection H as <- <-. destruct Hw as [Hw|[_ Hw]]; done.
    - inversion Hrs as [|? ? Hr Hrs']; subst. inversion Hin as [|? ? Hi Hin']; subst. inversion Hdi as [|? ? Hn Hdi']; subst.
      destruct (update_tree_ok ric t ids root r Hl Hr) as (t1 & H1 & Hl1 & Hs1 & He). unfold update_trees in H. cbn [foldR] in H. rewrite H1 in H. cbn [bindR] in H.
      assert (Hrs1 : Forall (reaction_ok t1) rs) by (eapply Forall_impl; [|exact Hrs']; intros; by eapply reaction_ok_def).
      assert (Hin1 : Forall (in_text t1) rs) by (eapply Forall_impl; [|exact Hin']; intros; by eapply in_text_def).
      assert (Hdi1 : Forall (fun r => ~ disturbs t1 l (fst (writes r))) rs).
      { eapply Forall_impl; [|exact Hdi']. cbv beta. intros r' Hr' Hd'. apply Hr'. by eapply disturbs_def. }
      apply (IH _ _ _ _ _ Hl1 Hrs1 Hin1 Hdi1 H w). cbn [last_written] in Hw. destruct (last_written l rs) as [w'|]; [|right; split; [done|]].
      + left. destruct Hw as [Hw|[Hw _]]; [exact Hw|discriminate Hw].
      + destruct (decide (fst (writes r) = l)) as [Heq|Hne].
        * destruct Hw as [Hw|[Hw _]]; [|done]. injection Hw as <-. rewrite <- Heq. eapply effect_writes; [exact Hl|exact Hr|exact Hs1|exact He|exact Hi].
        * destruct Hw as [Hw|[_ Hw]]; [done|]. eapply effect_keeps; [exact Hl|exact Hr|exact Hs1|exact He|exact Hne|exact Hn|exact Hw].
  Qed.
End upd.

Lemma last_written_in l w rs : last_written l rs = Some w -> exists r, In r rs /\ writes r = (l, w).
Proof.
  revert w; induction rs as [|r rs IH]; intros w E; [done|]. cbn in E. destruct (last_written l rs) as [w2|].
  - destruct (IH _ E) as (r1 & H1 & H2). exists r1. split; [by right|done].
  - destruct (decide (fst (writes r) = l)) as [Hl|]; [|done]. exists r. split; [by left|]. injection E as <-. rewrite <- Hl. by destruct (writes r).
Qed.
Lemma last_written_all l w rs : (forall r, In r rs -> fst (writes r) = l -> snd (writes r) = w) ->
  (exists r, In r rs /\ fst (writes r) = l) -> last_written l rs = Some w.
Proof.
  intros Hall Hex. destruct (last_written l rs) as [w'|] eqn:E.
  - apply last_written_in in E as (r & Hr & Hw). f_equal. symmetry. rewrite <- (Hall r Hr); rewrite Hw; done.
  - exfalso. destruct Hex as (r0 & Hin & Hr0). induction rs as [|r rs IH]; [done|]. cbn in E. destruct (last_written l rs) as [w2|]; [done|].
    destruct (decide (fst (writes r) = l)) as [|Hne]; [done|]. destruct Hin as [<-|Hin]; [done|]. apply IH; [|done|done]. intros r1 H1. apply Hall. by right.
Qed.
Lemma last_written_none l rs : (forall r, In r rs -> fst (writes r) <> l) -> last_written l rs = None.
Proof.
  induction rs as [|r rs IH]; intros H; [done|]. cbn [last_written]. rewrite IH by (intros r' Hr'; apply H; by right).
  rewrite decide_False; [done|]. apply H. by left.
Qed.
