(** * What the readers deliver: lemmas for PropRead.v. *)
From Coq Require Import ZArith Reals Lia Lra.
From Flocq Require Import Core.Core IEEE754.BinarySingleNaN.
From stdpp Require Import gmap.
From Verif Require Import Str StrFacts F32 Res ResFacts PropKey Css Html Json JsonFacts SpecText SpecKeys SpecSheet SpecTemplate SpecRead
  Peg CssGrammar HtmlGrammar ReadCss ReadHtml PegFacts PegLook ReadTotal KeyFacts ReadSheet ReadMarkup ReadTexts ReadAttributes ReadTemplate.
Close Scope R_scope.

(** ** Numbers of JSON values. *)
Notation rnd64 := (round radix2 (FLT_exp (-1074) 53) ZnearestE).
Lemma f64_int z : (Z.abs z <= 2 ^ 64)%Z -> is_finite (f64_of_Z z) = true /\ B2R (f64_of_Z z) = rnd64 (IZR z).
Proof.
  intros H. pose proof (binary_normalize_correct 53 1024 f64_prec f64_emax mode_NE z 0 false) as Hb. unfold f64_of_Z. cbv zeta in Hb. cbn [round_mode] in Hb.
  assert (E : F2R (Float radix2 z 0) = IZR z) by (unfold F2R; cbn; ring). rewrite E in Hb.
  rewrite Rlt_bool_true in Hb; [destruct Hb as (H1 & H2 & _); split; assumption|].
  apply Rle_lt_trans with (bpow radix2 64); [|apply bpow_lt; lia].
  apply (abs_round_le_generic radix2 (FLT_exp (-1074) 53) ZnearestE).
  - apply generic_format_bpow. unfold FLT_exp. lia.
  - rewrite <- abs_IZR, <- (IZR_Zpower radix2 64) by lia. apply IZR_le. exact H.
Qed.
Lemma f64_small z : (Z.abs z <= 2 ^ 53)%Z -> rnd64 (IZR z) = IZR z.
Proof.
  intros H. apply round_generic; [typeclasses eauto|]. apply generic_format_FLT.
  assert (Hc : (Z.abs z < 2 ^ 53 \/ Z.abs z = 2 ^ 53)%Z) by lia. destruct Hc as [Hc|Hc].
  - apply FLT_spec with (Float radix2 z 0); [unfold F2R; cbn; ring|exact Hc|cbn; lia].
  - assert (Hz : (z = 2 ^ 53 \/ z = - 2 ^ 53)%Z) by lia. destruct Hz as [-> | ->].
    + apply FLT_spec with (Float radix2 1 53); [unfold F2R; cbn [Fnum Fexp]; rewrite <- (IZR_Zpower radix2 53) by lia; rewrite <- mult_IZR; f_equal|cbn; lia|cbn; lia].
    + apply FLT_spec with (Float radix2 (-1) 53); [unfold F2R; cbn [Fnum Fexp]; rewrite <- (IZR_Zpower radix2 53) by lia; rewrite <- mult_IZR; f_equal|cbn; lia|cbn; lia].
Qed.
Lemma rnd64_le x y : (x <= y)%R -> (rnd64 x <= rnd64 y)%R.
Proof. intros H. apply round_le; [apply FLT_exp_valid; reflexivity|typeclasses eauto|exact H]. Qed.
Lemma f64_zero (f : f64) : is_finite f = true -> f64_eq f f64_0 = true <-> B2R f = 0%R.
Proof.
  intros Hf. unfold f64_eq. rewrite (Beqb_correct 53 1024 f f64_0 Hf eq_refl). change (B2R f64_0) with 0%R. destruct (Req_bool_spec (B2R f) 0) as [E|E]; [done|]. split; [done|]. intros E'. done.
Qed.
Lemma int_zero z : (Z.abs z <= 2 ^ 64)%Z -> f64_eq (f64_of_Z z) f64_0 = true <-> z = 0%Z.
Proof.
  intros Hz. destruct (f64_int z Hz) as [H1 H2]. rewrite (f64_zero _ H1), H2. split; [|intros ->; apply round_0; typeclasses eauto].
  intros E. destruct (Z.lt_total z 0) as [K|[K|K]]; [exfalso|done|exfalso].
  - assert (rnd64 (IZR z) <= rnd64 (IZR (-1)))%R by (apply rnd64_le; apply IZR_le; lia). rewrite (f64_small (-1)) in H by lia. rewrite E in H. lra.
  - assert (rnd64 (IZR 1) <= rnd64 (IZR z))%R by (apply rnd64_le; apply IZR_le; lia). rewrite (f64_small 1) in H by lia. rewrite E in H. lra.
Qed.
Lemma num_zero n : num_wf n = true -> f64_eq (num_as_f64 n) f64_0 = true <-> number_is n 0%R.
Proof.
  destruct n as [n|z|f]; cbn [num_wf num_as_f64 number_is]; intros Hw.
  - apply N.leb_le in Hw. unfold u64_max in Hw. rewrite int_zero by lia. split; [by intros ->|]. intros E. apply eq_IZR in E. lia.
  - apply andb_prop in Hw as [H1 H2]. rewrite int_zero by lia. split; [intros ->; done|]. intros E. apply eq_IZR in E. lia.
  - rewrite (f64_zero f Hw). split; [intros E; split; [done|by symmetry]|]. by intros [_ ->].
Qed.
Lemma boolean_nothing v : json_wf v = true -> eval_boolean v = false <-> nothing v.
Proof.
  intros Hw. destruct v as [|b|n|s|l|m]; cbn [eval_boolean].
  - split; [constructor|done].
  - destruct b; split; try done; [intros K; inversion K|constructor].
  - rewrite negb_false_iff, (num_zero n Hw). split; [by constructor|]. intros K. by inversion K.
  - destruct s; split; try done; [constructor|intros K; inversion K].
  - destruct l; split; try done; [constructor|intros K; inversion K].
  - split; [done|]. intros K. inversion K.
Qed.
Lemma trunc64 (f : f64) : is_finite f = true -> f64_as_u64 f = Z.max 0 (Z.min (2 ^ 64 - 1) (Ztrunc (B2R f))).
Proof.
  intros Hf. assert (E : Btrunc f = Ztrunc (B2R f)).
  { apply eq_IZR. rewrite (Btrunc_correct 53 1024 f64_emax f). apply round_FIX_IZR. }
  rewrite <- E. destruct f; try done.
Qed.
Lemma number_counts n r : num_wf n = true -> number_is n r -> (Rabs r <= IZR (2 ^ 53))%R -> eval_u64 (JNum n) = Z.max 0 (Ztrunc r).
Proof.
  intros Hw Hn Hr. cbn [eval_u64].
  assert (K : is_finite (num_as_f64 n) = true /\ B2R (num_as_f64 n) = r).
  { destruct n as [n|z|f]; cbn [num_as_f64 number_is] in *; [| |destruct Hn as [H1 ->]; done].
    - subst r. rewrite <- abs_IZR in Hr. apply le_IZR in Hr. destruct (f64_int (Z.of_N n) ltac:(lia)) as [H1 H2]. split; [done|]. rewrite H2. by apply f64_small.
    - subst r. rewrite <- abs_IZR in Hr. apply le_IZR in Hr. destruct (f64_int z ltac:(lia)) as [H1 H2]. split; [done|]. rewrite H2. by apply f64_small. }
  destruct K as [K1 K2]. rewrite (trunc64 _ K1), K2.
  assert (Ztrunc r <= 2 ^ 53)%Z.
  { rewrite <- (Ztrunc_IZR (2 ^ 53)). apply Ztrunc_le. apply Rle_trans with (Rabs r); [apply Rle_abs|done]. }
  lia.
Qed.

(** ** Texts have no line breaks. *)
Lemma all_app p a b : all p (a +:+ b) <-> all p a /\ all p b.
Proof. induction a as [|c a IH]; [cbn; tauto|]. rewrite sapp_cons. cbn. rewrite IH. tauto. Qed.
Lemma lines_unbroken ls s : lines ls s -> Forall unbroken ls.
Proof. induction 1; by constructor. Qed.
Lemma unindented_unbroken l r : unindented l r -> unbroken l -> unbroken r.
Proof. induction 1 as [|w l r Hw _ IH]; [done|]. intros K. apply all_app in K as [_ K]. by apply IH. Qed.
Lemma says_unbroken last s s' : says last s s' -> unbroken s'.
Proof.
  intros [s0 l ls ls' Hl Hu]. apply lines_unbroken in Hl. inversion Hl as [|? ? Hl1 Hl2]; subst. apply all_app. split; [done|].
  clear Hl Hl1 l. induction Hu as [|x y ls ls' Hx _ IH]; [done|]. inversion Hl2 as [|? ? H1 H2]; subst. cbn [map fold_right]. apply all_app. split; [|by apply IH].
  unfold after_break. destruct (last && String.eqb y ""); [done|]. apply all_app. split; [done|]. by eapply unindented_unbroken.
Qed.
Lemma kept_unbroken last spans x : In (TSString x) (keep (map (tidy_span last) spans)) -> unbroken x /\ x <> "".
Proof.
  induction spans as [|s spans IH]; [done|]. cbn [map]. destruct s as [s|b]; cbn [tidy_span]; cbv zeta.
  - destruct (String.eqb_spec (join_lines last s) "") as [E|E]; cbn [keep]; [exact IH|]. intros [K|K]; [|by apply IH]. injection K as <-.
    split; [|done]. eapply says_unbroken. apply says_spec.
  - cbn [keep]. intros [K|K]; [done|by apply IH].
Qed.
Fixpoint pair_size (p : hpair) : nat := let '(Pair _ _ ps) := p in S (fold_right (fun p n => pair_size p + n)%nat 0%nat ps).
Lemma pair_size_in p ps : In p ps -> (pair_size p <= fold_right (fun p n => pair_size p + n)%nat 0%nat ps)%nat.
Proof. induction ps as [|q ps IH]; [done|]. intros [->|K]; cbn; [lia|]. specialize (IH K). lia. Qed.
Lemma contents_in ps hs h : contents ps = Ok hs -> In h hs -> exists p last, In p ps /\ parse_content p last = Ok h.
Proof.
  revert hs. induction ps as [|p ps IH]; intros hs; cbn [contents]; [by injection 1 as <-|].
  destruct (parse_content p _) as [x| | |] eqn:E; cbn [bindR]; try done. destruct (contents ps) as [ys| | |]; cbn [bindR]; try done. injection 1 as <-.
  intros [<-|K]; [eexists p, _; split; [by left|exact E]|]. destruct (IH ys eq_refl K) as (q & l & K1 & K2). exists q, l. split; [by right|done].
Qed.
Lemma content_unbroken p last h x : parse_content p last = Ok h -> shown_in h x -> unbroken x /\ x <> "".
Proof.
  remember (pair_size p) as n eqn:En. revert p last h En. induction (lt_wf n) as [n _ IH]. intros p last h En E Hx.
  assert (Hleaf : forall tag bs spans, h = mkHtml tag bs spans [] -> (forall l, spans = Some l -> exists ss, l = keep (map (tidy_span last) ss)) -> unbroken x /\ x <> "").
  { intros tag bs spans -> Hs. inversion Hx as [h0 l s H1 H2|h0 c s H1 H2]; subst; [|done]. destruct (Hs l H1) as [ss ->]. by eapply kept_unbroken. }
  destruct p as [r t inner]. destruct r; try discriminate E.
  - injection E as <-. eapply Hleaf; [reflexivity|done].
  - destruct inner as [|tag [|attrs [|[r2 t2 kids] rest]]]; try discriminate E.
    change (parse_content (Pair HElement t (tag :: attrs :: Pair r2 t2 kids :: rest)) last)
      with (do! bindings <- parse_element_bindings attrs; do! ks <- contents kids; Ok (mkHtml (p_text tag) bindings None ks)) in E.
    destruct (parse_element_bindings attrs) as [bs| | |]; cbn [bindR] in E; try discriminate E. destruct (contents kids) as [ks| | |] eqn:Ek; cbn [bindR] in E; try discriminate E.
    injection E as <-. inversion Hx as [h0 l s H1 H2|h0 c s H1 H2]; subst; [done|]. cbn [h_children] in H1. destruct (contents_in _ _ _ Ek H1) as (q & lq & Q1 & Q2).
    refine (IH (pair_size q) _ q lq c eq_refl Q2 H2). apply pair_size_in in Q1. cbn. lia.
  - destruct inner as [|tag [|attrs rest]]; try discriminate E. cbn in E. destruct (parse_element_bindings attrs); cbn [bindR] in E; try discriminate E. injection E as <-.
    eapply Hleaf; [reflexivity|done].
  - cbn in E. destruct (each prefetch_span inner) as [ss| | |]; cbn [bindR] in E; try discriminate E. injection E as <-. eapply Hleaf; [reflexivity|]. intros l [= <-]. by eexists.
Qed.
Lemma html_unbroken s h x : read_html s = Ok h -> shown_in h x -> unbroken x /\ x <> "".
Proof.
  unfold read_html. destruct (parse_with _ _ _ _) as [ps| | |]; cbn [bindR]; try done. destruct (head ps) as [p|]; cbn [ok_or bindR]; [|done]. apply content_unbroken.
Qed.

(** ** Colours. *)
Lemma hex_sign_spec x : (0 <= x < 16)%Z -> hex (hex_sign x) x.
Proof.
  intros Hx. assert (K : (x = 0 \/ x = 1 \/ x = 2 \/ x = 3 \/ x = 4 \/ x = 5 \/ x = 6 \/ x = 7 \/ x = 8 \/ x = 9 \/ x = 10 \/ x = 11 \/ x = 12 \/ x = 13 \/ x = 14 \/ x = 15)%Z) by lia.
  repeat (destruct K as [->|K]; [match goal with |- hex ?c _ => first [exact (SpecSheet.hex_digit c eq_refl)|exact (hex_small c eq_refl)] end|]). rewrite K. exact (hex_small (hex_sign 15) eq_refl).
Qed.
Lemma two_digits_channel x : is_channel x -> channel (two_digits x) x.
Proof.
  intros Hx. unfold is_channel in Hx. pose proof (Z.div_mod x 16 ltac:(lia)) as E. pose proof (Z.mod_pos_bound x 16 ltac:(lia)).
  unfold two_digits. rewrite E at 3. constructor; apply hex_sign_spec; [|lia]. split; [apply Z.div_pos; lia|apply Z.div_lt_upper_bound; lia].
Qed.
Lemma single_read p k d t : all letter_or_sign p -> (2 <= String.length p)%nat -> ~ custom p -> written k p -> value_text d t ->
  read_inline_css (p +:+ (":" +:+ (t +:+ ";"))) = Ok [DeclProperty (mkProperty k [[d]])].
Proof.
  intros H1 H2 H3 H4 H5.
  assert (K : declaration_text [DeclProperty (mkProperty k [[d]])] (p +:+ ("" +:+ (":" +:+ ("" +:+ (t +:+ ("" +:+ ";"))))))).
  { apply (declaration_written p [[d]]); try (by constructor); try done. apply values_last. by apply shorthand_last. }
  pose proof (next_declaration _ _ "" [] "" K (blank_nil _ _) no_declarations) as Q. apply inline_read in Q. cbn [app] in Q. rewrite <- Q. f_equal. by rewrite !sapp_nil.
Qed.
