(** * LocSound: what the parser makes of a text is a located AST. *)

From Verif Require Import PegFacts Lex.
From Verif Require Import ParserOk ParserOk2 ParserOk3 ParseFacts.
From Verif Require Import SynEval SynLex SynGram SynType SynGram2 SynBuild SynBuild2 SynCut.
From Verif Require Import Parser.
From Verif Require Import SynSpan.
From Verif Require Export Located.
From Verif Require Import Syntax.

Section Sound.
Variable inp : str.

(** ** Running an expression in its place *)
Definition P (e : pexp) (i m : str) (ps : list pair) : Prop :=
  blen i <= blen inp /\ exists t, eval skip e NonAtomic (pos inp i) i = ROk t m ps /\ i = t ++ m.
Lemma P_intro e i t m ps : blen i <= blen inp -> eval skip e NonAtomic (pos inp i) i = ROk t m ps -> P e i m ps.
Proof. intros H E0. split; [exact H|]. exists t. split; [exact E0|]. apply eval_der in E0 as [E0 _]; [exact E0|exact skip_app]. Qed.
Lemma P_E e i m ps : P e i m ps -> E e i m ps.
Proof. intros (_ & t & H & _). exists (pos inp i), t. exact H. Qed.
Lemma pos_app t m : blen (t ++ m) <= blen inp -> pos inp (t ++ m) + blen t = pos inp m.
Proof. unfold pos. rewrite blen_app. lia. Qed.
Lemma fin_len m : exists g, m = g ++ fin m /\ blen g = blen (fst (skipf NonAtomic m)).
Proof.
  destruct (skipf NonAtomic m) as [g r] eqn:Es. pose proof (skipf_fin _ _ _ Es) as ->. apply skipf_spec in Es as (Em & _ & _).
  exists g. split; [exact Em|reflexivity].
Qed.
Lemma P_seq e1 e2 i m ps : P (ESeq e1 e2) i m ps -> exists m1 ps1 ps2, P e1 i m1 ps1 /\ P e2 (fin m1) m ps2 /\ ps = ps1 ++ ps2.
Proof.
  intros (Hb & t & H & _). rewrite eval_seq in H. destruct (eval skip e1 NonAtomic (pos inp i) i) as [t1 m1 ps1| |] eqn:E1; try discriminate.
  pose proof (P_intro _ _ _ _ _ Hb E1) as HP1. pose proof HP1 as (_ & t1' & E1' & Hi). rewrite E1 in E1'. injection E1' as <-.
  destruct (skipf NonAtomic m1) as [g i2] eqn:Es. pose proof (skipf_fin _ _ _ Es) as Hi2. apply skipf_spec in Es as (Em & _ & _). subst i2.
  destruct (eval skip e2 NonAtomic (pos inp i + blen t1 + blen g) (fin m1)) as [t2 m2 ps2| |] eqn:E2; try discriminate.
  injection H as <- <- <-. exists m1, ps1, ps2. split; [exact HP1|]. split; [|reflexivity].
  assert (Hp : pos inp i + blen t1 + blen g = pos inp (fin m1)).
  { rewrite Hi in Hb |- *. rewrite pos_app by exact Hb. rewrite Em in Hb |- * at 1. apply pos_app. rewrite blen_app in Hb. lia. }
  rewrite Hp in E2. eapply P_intro; [|exact E2]. rewrite Hi, Em, !blen_app in Hb. lia.
Qed.
Lemma P_alt e1 e2 i m ps : P (EAlt e1 e2) i m ps -> P e1 i m ps \/ (P e2 i m ps /\ exists off, eval skip e1 NonAtomic off i = RFail).
Proof.
  intros (Hb & t & H & Hi). rewrite eval_alt in H. destruct (eval skip e1 NonAtomic (pos inp i) i) as [t1 m1 ps1| |] eqn:E1; try discriminate.
  - left. split; [exact Hb|]. exists t. rewrite E1. auto.
  - right. split; [split; [exact Hb|exists t; auto]|eauto].
Qed.
Lemma P_opt e i m ps : P (EOpt e) i m ps -> P e i m ps \/ (ps = [] /\ m = i).
Proof.
  intros (Hb & t & H & Hi). rewrite eval_opt in H. destruct (eval skip e NonAtomic (pos inp i) i) as [t1 m1 ps1| |] eqn:E1; try discriminate.
  - left. split; [exact Hb|]. exists t. rewrite E1. auto.
  - right. injection H as <- <- <-. auto.
Qed.
(** One pair, with its extent. *)
Definition spans (p : pair) (i m : str) : Prop := span_of p = span inp i m /\ i = as_str p ++ m.
Lemma P_emit rl ty b i m ps : P (ERule rl ty b) i m ps -> exists p, ps = [p] /\ p_rule p = rl /\ spans p i m.
Proof.
  intros (Hb & t & H & Hi). assert (exists l, ps = [Pair rl (pos inp i) (pos inp i + blen t) t l]) as (l & ->).
  { destruct ty; cbn [eval] in H; (destruct (eval skip b _ (pos inp i) i) as [t2 m2 ps2| |]; cbn [emit] in H; try discriminate);
      injection H as -> -> <-; eauto. }
  eexists. split; [reflexivity|]. split; [reflexivity|]. split; [|exact Hi]. unfold span_of, span. cbn [p_start p_end].
  f_equal. rewrite Hi in Hb |- *. apply pos_app. exact Hb.
Qed.
Lemma P_rule rl b i m ps : P (N_ rl b) i m ps -> exists p, ps = [p] /\ p_rule p = rl /\ spans p i m /\ P b i m (into_inner p).
Proof.
  intros H. pose proof (P_emit _ _ _ _ _ _ H) as (p & Hps & Hr & Hs). exists p. split; [exact Hps|]. split; [exact Hr|]. split; [exact Hs|].
  destruct H as (Hb & t & H & Hi). rewrite eval_normal in H. destruct (eval skip b NonAtomic (pos inp i) i) as [t1 m1 ps1| |] eqn:E1; try discriminate.
  rewrite emit_ok in H by discriminate. injection H as <- <- <-. injection Hps as <-. cbn [into_inner]. eapply P_intro; eassumption.
Qed.
Lemma P_str w i m ps : P (EStr w) i m ps -> i = w ++ m /\ ps = [].
Proof.
  intros (_ & t & H & _). rewrite eval_str in H. destruct (strip_prefix w i) as [m'|] eqn:Es; [|discriminate].
  injection H as <- <- <-. apply strip_prefix_spec in Es. auto.
Qed.
Lemma P_tok w e i m ps : P (ESeq (EStr w) e) i m ps -> exists m1, tok w i m1 /\ P e m1 m ps.
Proof.
  intros H. apply P_seq in H as (m1 & ps1 & ps2 & H1 & H2 & ->). apply P_str in H1 as (Ht & ->). exists (fin m1).
  split; [exists m1; split; [exact Ht|apply lay_of]|exact H2].
Qed.
Lemma P_word k e i m ps : P (ESeq (CI k) e) i m ps -> exists m1, kw k i m1 /\ P e m1 m ps.
Proof.
  intros H. apply P_seq in H as (m1 & ps1 & ps2 & H1 & H2 & ->). apply P_E, E_kw in H1 as (Ht & ->). exists (fin m1). auto.
Qed.
Lemma P_end w e i m ps : P (ESeq e (EStr w)) i m ps -> exists m1, P e i m1 ps /\ lay m1 (w ++ m).
Proof.
  intros H. apply P_seq in H as (m1 & ps1 & ps2 & H1 & H2 & ->). apply P_str in H2 as (Ht & ->). exists m1.
  rewrite app_nil_r. split; [exact H1|]. apply lay_fin. exact Ht.
Qed.
Lemma tok_fixed w i m : tok w i m -> fin m = m.
Proof. intros (x & _ & H). eapply lay_idem. exact H. Qed.
Lemma kw_fixed w i m : kw w i m -> fin m = m.
Proof. intros (x & y & _ & _ & H). eapply lay_idem. exact H. Qed.

(** ** Readers of pairs *)
Definition at_ (e : pexp) : reader pair := fun i m p => P e i m [p].
Definition single (e : pexp) : Prop := forall i m ps, P e i m ps -> exists p, ps = [p].
Lemma single_rule rl ty b : single (ERule rl ty b).
Proof. intros i m ps H. apply P_emit in H as (p & -> & _). eauto. Qed.
Lemma single_alt a b : single a -> single b -> single (EAlt a b).
Proof. intros Ha Hb i m ps H. apply P_alt in H as [H|[H _]]; eauto. Qed.

Lemma P_many e i m ps : single e -> fin i = i -> P (ERep e) i m ps -> many (next (at_ e)) i (fin m) ps.
Proof.
  intros Hs Hf (Hb & t & H & Hi).
  assert (HR : forall fuel i t m ps, blen i <= blen inp ->
     Peg.repeat (fun o i => bind_res (do_skip skip NonAtomic i) o (eval skip e NonAtomic)) fuel (pos inp i) i = ROk t m ps ->
     many (next (at_ e)) (fin i) (fin m) ps).
  { clear i t m ps Hf Hb H Hi. induction fuel as [|n IH]; intros i t m ps Hb H; cbn [Peg.repeat] in H; [discriminate|].
    rewrite bind_skip in H. destruct (fin_len i) as (g & Eg & Lg). rewrite <- Lg in H.
    assert (Hp : pos inp i + blen g = pos inp (fin i)) by (rewrite Eg in Hb |- * at 1; apply pos_app; exact Hb).
    assert (Hb1 : blen (fin i) <= blen inp) by (rewrite Eg, blen_app in Hb; lia).
    rewrite Hp in H.
    destruct (eval skip e NonAtomic (pos inp (fin i)) (fin i)) as [t1 m1 ps1| |] eqn:E1.
    - pose proof (P_intro _ _ _ _ _ Hb1 E1) as HP. destruct (Hs _ _ _ HP) as (p & ->).
      pose proof HP as (_ & t1' & E1' & Hi1). rewrite E1 in E1'. injection E1' as <-.
      assert (Hg : blen (fst (skipf NonAtomic i)) = blen g) by congruence.
      rewrite blen_app, Hg, N.add_assoc, Hp in H. rewrite Hi1 in H at 1. rewrite pos_app in H by (rewrite <- Hi1; exact Hb1).
      match type of H with context [Peg.repeat ?f n ?o m1] => destruct (Peg.repeat f n o m1) as [t2 m2 ps2| |] eqn:E2 end; try discriminate.
      injection H as _ <- <-. eapply many_cons; [exists m1; split; [exact HP|apply lay_of]|]. eapply IH; [|exact E2].
      rewrite Hi1, blen_app in Hb1. lia.
    - injection H as <- <- <-. constructor.
    - discriminate. }
  cbn [eval] in H. destruct (eval skip e NonAtomic (pos inp i) i) as [t1 m1 ps1| |] eqn:E1; try discriminate.
  - cbn [bind_res] in H. pose proof (P_intro _ _ _ _ _ Hb E1) as HP. destruct (Hs _ _ _ HP) as (p & ->).
    pose proof HP as (_ & t1' & E1' & Hi1). rewrite E1 in E1'. injection E1' as <-.
    rewrite Hi1 in H at 1. rewrite pos_app in H by (rewrite <- Hi1; exact Hb).
    match type of H with context [Peg.repeat ?f ?n ?o m1] => destruct (Peg.repeat f n o m1) as [t2 m2 ps2| |] eqn:E2 end; try discriminate.
    injection H as _ <- <-. eapply many_cons; [exists m1; split; [exact HP|apply lay_of]|]. eapply HR; [|exact E2].
    rewrite Hi1, blen_app in Hb. lia.
  - injection H as _ <- <-. rewrite Hf. constructor.
Qed.

Lemma many_impl {A B} (R : reader A) (R' : reader B) (f : A -> B -> Prop) i r l l' : many R i r l -> Forall2 f l l' ->
  (forall i r a b, R i r a -> f a b -> R' i r b) -> many R' i r l'.
Proof.
  intros H. revert l'. induction H as [i|i m r a l Ha Hm IH]; intros l' HF H.
  - inversion HF; subst. constructor.
  - inversion HF as [|? b ? l2 Hf HF']; subst. econstructor; [eapply H; eassumption|apply IH; assumption].
Qed.
Lemma F2_refl {A} (l : list A) : Forall2 eq l l.
Proof. induction l; constructor; auto. Qed.
Lemma commas_impl {A B} (R : reader A) (R' : reader B) (f : A -> B -> Prop) i r l l' : commas R i r l -> Forall2 f l l' ->
  (forall i r a b, R i r a -> f a b -> R' i r b) -> commas R' i r l'.
Proof.
  intros H. revert l'. induction H as [i r a Ha|i m m' r a l Ha Ht Hm IH]; intros l' HF H.
  - inversion HF as [|? b ? l2 Hf HF']; subst. inversion HF'; subst. constructor. eapply H; eassumption.
  - inversion HF as [|? b ? l2 Hf HF']; subst. econstructor; [eapply H; eassumption|exact Ht|apply IH; assumption].
Qed.
Lemma next_impl {A B} (R : reader A) (R' : reader B) (f : A -> B -> Prop) i r a b : next R i r a -> f a b ->
  (forall i r a b, R i r a -> f a b -> R' i r b) -> next R' i r b.
Proof. intros (m & Ha & Hl) Hf H. exists m. split; [eapply H; eassumption|exact Hl]. Qed.
Lemma list_impl op cl {A B} (R : reader A) (R' : reader B) (f : A -> B -> Prop) i m l l' : list_at op cl R i m l -> Forall2 f l l' ->
  (forall i r a b, R i r a -> f a b -> R' i r b) -> list_at op cl R' i m l'.
Proof.
  intros H HF Hf. destruct H as [i m Ht|i m1 m l Ht Hc].
  - inversion HF; subst. constructor. exact Ht.
  - eapply list_some; [exact Ht|]. eapply commas_impl; [exact Hc|exact HF|]. intros. eapply next_impl; eassumption.
Qed.
Lemma braces_impl {A B} (R : reader A) (R' : reader B) (f : A -> B -> Prop) i m l l' : braces_at R i m l -> Forall2 f l l' ->
  (forall i r a b, R i r a -> f a b -> R' i r b) -> braces_at R' i m l'.
Proof.
  intros (m1 & Ht & Hm) HF Hf. exists m1. split; [exact Ht|]. eapply many_impl; [exact Hm|exact HF|]. intros. eapply next_impl; eassumption.
Qed.

Lemma P_comma_list x i m ps : single x -> P (comma_list x) i m ps -> commas (next (at_ x)) i (fin m) ps.
Proof.
  intros Hs H. apply P_seq in H as (m1 & ps1 & ps2 & H1 & H2 & ->). destruct (Hs _ _ _ H1) as (p & ->). cbn [app].
  apply P_many in H2; [| |apply fin_fin].
  - apply commas_many. exists (fin m1), p, ps2. split; [reflexivity|]. split; [exists m1; split; [exact H1|apply lay_of]|].
    eapply many_impl; [exact H2|apply F2_refl|]. intros i0 r a b (m2 & Ha & Hl) <-. apply P_tok in Ha as (m3 & Ht & Ha).
    exists m3. split; [exact Ht|]. exists m2. auto.
  - intros i0 m0 ps H. apply P_tok in H as (m3 & _ & H). apply (Hs _ _ _ H).
Qed.
Lemma P_listed op cl x i i1 m2 m ps : single x -> tok (s op) i i1 -> P (EOpt (comma_list x)) i1 m2 ps -> lay m2 (s cl ++ m) ->
  list_at op cl (at_ x) i m ps.
Proof.
  intros Hs Ht H Hl. apply P_opt in H as [H|[-> ->]].
  - apply P_comma_list in H; [|exact Hs]. eapply list_some; [exact Ht|]. apply lay_fin in Hl. rewrite Hl in H. exact H.
  - constructor. apply lay_fin in Hl. rewrite (tok_fixed _ _ _ Ht) in Hl. subst i1. exact Ht.
Qed.
Lemma P_bracketed x i m ps : single x -> P (bracketed x) i m ps -> list_at "[" "]" (at_ x) i m ps.
Proof.
  intros Hs H. apply P_tok in H as (m1 & Ht & H). apply P_end in H as (m2 & H & Hl). eapply P_listed; eassumption.
Qed.
Lemma P_braced x i m ps : single x -> P (braced x) i m ps -> braces_at (at_ x) i m ps.
Proof.
  intros Hs H. apply P_tok in H as (m1 & Ht & H). apply P_end in H as (m2 & H & Hl). exists m1. split; [exact Ht|].
  apply P_many in H; [|exact Hs|eapply tok_fixed; exact Ht]. apply lay_fin in Hl. rewrite Hl in H. exact H.
Qed.
Definition opt_pairs (o : option pair) : list pair := match o with Some p => [p] | None => [] end.
Lemma P_maybe x i m ps : single x -> fin i = i -> P (EOpt x) i m ps -> exists o, ps = opt_pairs o /\ maybe (next (at_ x)) i (fin m) o.
Proof.
  intros Hs Hi H. apply P_opt in H as [H|[-> ->]].
  - destruct (Hs _ _ _ H) as (p & ->). exists (Some p). split; [reflexivity|]. constructor. exists m. split; [exact H|apply lay_of].
  - exists None. split; [reflexivity|]. rewrite Hi. constructor.
Qed.
Lemma P_tail e x i m ps : single e -> single x -> P (ESeq e (EOpt x)) i m ps ->
  exists p o, ps = p :: opt_pairs o /\ tail_at (at_ e) (at_ x) i m p o.
Proof.
  intros He Hx H. apply P_seq in H as (m1 & ps1 & ps2 & H1 & H2 & ->). destruct (He _ _ _ H1) as (p & ->). exists p.
  assert (Hn : next (at_ e) i (fin m1) p) by (exists m1; split; [exact H1|apply lay_of]).
  apply P_opt in H2 as [H2|[-> ->]].
  - destruct (Hx _ _ _ H2) as (q & ->). exists (Some q). split; [reflexivity|]. eapply tail_yes; [exact Hn|exact H2].
  - exists None. split; [reflexivity|]. constructor. exact Hn.
Qed.
Lemma maybe_impl {A B} (R : reader A) (R' : reader B) (f : A -> B -> Prop) i r o o' : maybe (next R) i r o -> 
  match o, o' with None, None => True | Some a, Some b => f a b | _, _ => False end ->
  (forall i r a b, R i r a -> f a b -> R' i r b) -> maybe (next R') i r o'.
Proof.
  intros H. destruct H as [i|i r a Ha]; destruct o' as [b|]; intros Hf HR; try contradiction; constructor. eapply next_impl; eassumption.
Qed.
Lemma tail_impl {A B C D} (R : reader A) (R' : reader B) (O : reader C) (O' : reader D) (f : A -> B -> Prop) (g : C -> D -> Prop) i m a b o o' :
  tail_at R O i m a o -> f a b -> match o, o' with None, None => True | Some c, Some d => g c d | _, _ => False end ->
  (forall i r a b, R i r a -> f a b -> R' i r b) -> (forall i r a b, O i r a -> g a b -> O' i r b) -> tail_at R' O' i m b o'.
Proof.
  intros H. destruct H as [i m a Ha|i m1 m a c Ha Hc]; destruct o' as [d|]; intros Hf Hg HR HO; try contradiction.
  - constructor. eapply next_impl; eassumption.
  - eapply tail_yes; [eapply next_impl; eassumption|]. eapply HO; eassumption.
Qed.

(** ** Folds *)
Lemma Ok_inj {A} (x y : A) : Ok x = Ok y -> x = y.
Proof. congruence. Qed.
Definition gets {A} (f : pair -> outcome A) (p : pair) (x : A) : Prop := f p = Ok x.
Lemma fold_gets {A S} (g : pair -> outcome A) (I : list A -> S -> Prop) (f : S -> pair -> outcome S) ps : forall l0 acc r,
  try_fold f ps acc = Ok r -> I l0 acc ->
  (forall l acc p acc', In p ps -> I l acc -> f acc p = Ok acc' -> exists a, g p = Ok a /\ I (l ++ [a]) acc') ->
  exists l, Forall2 (gets g) ps l /\ I (l0 ++ l) r.
Proof.
  induction ps as [|p ps IH]; intros l0 acc r H H0 Hs; cbn [try_fold] in H.
  - injection H as <-. exists []. rewrite app_nil_r. split; [constructor|exact H0].
  - apply bind_inv in H as (acc' & Hf & H). destruct (Hs l0 acc p acc') as (a & Ha & H1); [left; reflexivity|exact H0|exact Hf|].
    destruct (IH _ _ _ H H1) as (l & HF & Hl); [intros l acc1 q acc2 Hq; apply Hs; right; exact Hq|].
    exists (a :: l). split; [constructor; assumption|]. rewrite <- app_assoc in Hl. exact Hl.
Qed.
Lemma map_gets {A} (g f : pair -> outcome A) ps : forall r, try_map f ps = Ok r -> (forall p, In p ps -> f p = g p) -> Forall2 (gets g) ps r.
Proof.
  induction ps as [|p ps IH]; intros r H Hf; cbn [try_map] in H; [injection H as <-; constructor|].
  apply bind_inv in H as (b & Hb & H). apply bind_inv in H as (bs & Hbs & H). injection H as <-.
  constructor; [unfold gets; rewrite <- Hf; [exact Hb|left; reflexivity]|]. apply IH; [exact Hbs|]. intros q Hq. apply Hf. right. exact Hq.
Qed.
(** All pairs of a list come from one expression. *)
Lemma many_in {A} (R : reader A) i r l : many R i r l -> forall p, In p l -> exists i m, R i m p.
Proof. induction 1 as [i|i m r a l Ha Hm IH]; intros p Hp; [destruct Hp|]. destruct Hp as [<-|Hp]; eauto. Qed.
Lemma commas_in {A} (R : reader A) i r l : commas R i r l -> forall p, In p l -> exists i m, R i m p.
Proof. induction 1 as [i r a Ha|i m m' r a l Ha Ht Hm IH]; intros p [<-|Hp]; eauto. destruct Hp. Qed.
Lemma list_in op cl {A} (R : reader A) i r l : list_at op cl R i r l -> forall p, In p l -> exists i m, R i m p.
Proof.
  intros [i' m Ht|i' m1 m l' Ht Hc] p Hp; [destruct Hp|]. destruct (commas_in _ _ _ _ Hc p Hp) as (i0 & r0 & m0 & H & _). eauto.
Qed.
Lemma braces_in {A} (R : reader A) i r l : braces_at R i r l -> forall p, In p l -> exists i m, R i m p.
Proof. intros (m1 & Ht & Hm) p Hp. destruct (many_in _ _ _ _ Hm p Hp) as (i0 & r0 & m0 & H & _). eauto. Qed.
Lemma at_rule rl ty b i m p : at_ (ERule rl ty b) i m p -> p_rule p = rl.
Proof. intros H. apply P_emit in H as (q & [= <-] & Hr & _). exact Hr. Qed.
Lemma at_spans rl ty b i m p : at_ (ERule rl ty b) i m p -> spans p i m.
Proof. intros H. apply P_emit in H as (q & [= <-] & _ & Hs). exact Hs. Qed.
Lemma at_body rl b i m p : at_ (N_ rl b) i m p -> P b i m (into_inner p).
Proof. intros H. apply P_rule in H as (q & [= <-] & _ & _ & H). exact H. Qed.

(** ** Words and literals *)
Lemma at_word i m p : at_ var i m p -> plain_at i m (as_str p).
Proof.
  intros H. pose proof (at_spans _ _ _ _ _ _ H) as [_ Hi]. destruct H as (_ & t & H & _). apply eval_word_inv in H as (w & E0 & Hw & Hm & _).
  rewrite E0 in Hi at 1. apply app_inv_tail in Hi as <-. split; [exact E0|auto].
Qed.
Lemma at_phrase i m p : at_ spaced_var i m p -> phrase_at i m (as_str p).
Proof.
  intros H. pose proof (at_spans _ _ _ _ _ _ H) as [_ Hi]. destruct H as (_ & t & H & _). apply eval_phrase_inv in H as (w & E0 & Hw & Hm & _).
  rewrite E0 in Hi at 1. apply app_inv_tail in Hi as <-. split; [exact E0|auto].
Qed.
Lemma at_quoted rs rv q i m ps : quote_ok q -> P (quoted_rule rs rv q) i m ps -> exists p v, ps = [p] /\ d_quoted rs rv p v /\ quote_at q i m v /\ spans p i m.
Proof.
  intros [Hq Hs] H. pose proof (P_emit _ _ _ _ _ _ H) as (p & Eps & _ & Hsp). subst ps. destruct H as (_ & t & H & _). rewrite eval_quoted in H by (assumption || discriminate).
  destruct (strip_prefix q i) as [i'|] eqn:E1; [|discriminate]. apply strip_prefix_spec in E1.
  destruct (skipf NonAtomic i') as [g i2] eqn:Es. pose proof (skipf_fin _ _ _ Es) as Hi2.
  destruct (strip_prefix q (after (starts q) i2)) as [r|] eqn:E2; [|discriminate]. cbv zeta in H. apply strip_prefix_spec in E2.
  assert (Er : r = m) by congruence. subst r.
  match type of H with ROk _ _ ?l = ROk _ _ _ => assert (Eps : l = [p]) by congruence end. clear H.
  exists p, (before (starts q) i2). split; [reflexivity|]. split; [|split; [|exact Hsp]].
  - injection Eps as <-. split; [reflexivity|]. eexists. split; [reflexivity|]. split; reflexivity.
  - exists i'. split; [exact E1|]. rewrite <- E2, before_after. split; [apply lay_fin; auto|]. eapply closes_first_before; eassumption.
Qed.
Lemma gives_both {A B} (e : A -> B) Q o b x : gives e Q o b -> o = Ok x -> Q /\ e x = b.
Proof. intros [[HQ (y & -> & He)]|[_ (m & sp & ->)]] H; [injection H as <-; auto|discriminate]. Qed.

Lemma at_ident i m p x : at_ ident i m p -> parse_ident p = Ok x -> ident_at inp i m x.
Proof.
  intros H Hx. apply at_body in H. apply P_alt in H as [H|[H _]].
  - destruct (single_rule _ _ _ _ _ _ H) as (q & Eq). rewrite Eq in H. pose proof (at_spans _ _ _ _ _ _ H) as [Hs Hi]. pose proof (at_rule _ _ _ _ _ _ H) as Hr.
    apply at_word in H. unfold parse_ident in Hx. rewrite Eq, Hr in Hx. injection Hx as <-. split; [exact Hi|]. split; [exact Hs|]. left. exact H.
  - rewrite dqs_rule in H. apply at_quoted in H as (q & v & Eq & Hd & Hv & Hs & Hi); [|apply ok_dq].
    unfold parse_ident in Hx. rewrite Eq, (proj1 Hd) in Hx. injection Hx as <-. split; [exact Hi|]. split; [exact Hs|]. right. cbn [id_str].
    rewrite (quoted_text _ _ _ _ Hd). exact Hv.
Qed.
Lemma at_string i m ps : P string_value i m ps -> exists p (v : str), ps = [p] /\ d_string p v /\ text_at i m v /\ spans p i m /\ (string_at tq i m (VString v) \/ string_at sq i m (VString v)).
Proof.
  intros H. apply P_rule in H as (p & -> & Hr & Hsp & H). exists p. apply P_alt in H as [H|[H _]].
  - rewrite tqs_rule in H. apply at_quoted in H as (q & v & Eq & Hd & Hv & _); [|apply ok_tq]. exists v. split; [reflexivity|].
    split; [split; [exact Hr|]; exists q; auto|]. split; [left; exact Hv|]. split; [exact Hsp|]. left. exists v. auto.
  - rewrite sqs_rule in H. apply at_quoted in H as (q & v & Eq & Hd & Hv & _); [|apply ok_sq]. exists v. split; [reflexivity|].
    split; [split; [exact Hr|]; exists q; auto|]. split; [right; exact Hv|]. split; [exact Hsp|]. right. exists v. auto.
Qed.
Lemma leaf_str rl off w m t m' ps : emit NonAtomic rl off (ROk w m []) = ROk t m' ps -> exists q, ps = [q] /\ d_leaf rl q w.
Proof. intros H. apply E_leaf in H as [_ H]. exact H. Qed.
Lemma at_value_den i m ps : P value i m ps -> exists p v, ps = [p] /\ d_value p v /\ value_at i m v /\ spans p i m.
Proof.
  intros H. apply P_rule in H as (p & -> & Hr & Hsp & H). exists p.
  assert (Hex : exists v q, value_at i m v /\ into_inner p = [q] /\ d_lit q v).
  { apply P_alt in H as [H|[H _]]; [apply P_alt in H as [H|[H _]]; [apply P_alt in H as [H|[H _]]; [apply P_alt in H as [H|[H _]]|]|]|].
    - apply at_string in H as (q & v & Eq & Hd & Hv & _). exists (VString v), q. split; [constructor; exact Hv|]. split; [exact Eq|]. left. eauto.
    - rewrite bqs_rule in H. apply at_quoted in H as (q & v & Eq & Hd & Hv & _); [|apply ok_bq]. exists (VExpr v), q.
      split; [constructor; exact Hv|]. split; [exact Eq|]. right. left. eauto.
    - destruct H as (_ & t & H & _). apply eval_bool_inv in H as (w & v & -> & Hb & He). apply leaf_str in He as (q & Hq & Hd).
      exists v, q. split; [|split; [exact Hq|right; right; left; eauto]]. destruct Hb as [[-> ->]|[[-> ->]|[-> ->]]]; constructor.
    - apply P_rule in H as (q & Hq & Hrq & _ & H). apply P_alt in H as [H|[H (off & Hf)]].
      + destruct H as (_ & t & H & _). apply eval_dec_inv in H as (d1 & d2 & -> & H1 & H2 & Hm & He).
        apply leaf_str in He as (x & Hx & Hd). eexists _, q. split; [apply va_dec; try eassumption; apply DecOk.decimal_ok; [apply H1|exact H2]|].
        split; [exact Hq|]. right. right. right. left. split; [exact Hrq|]. exists x. split; [exact Hx|]. right. eauto.
      + destruct H as (_ & t & H & _). apply eval_int_inv in H as (d & -> & H1 & Hm & He).
        apply leaf_str in He as (x & Hx & Hd). eexists _, q. split; [apply va_int; try eassumption|].
        * eapply eval_dec_fail_inv; eassumption.
        * split; [exact Hq|]. right. right. right. left. split; [exact Hrq|]. exists x. split; [exact Hx|]. left. eauto.
    - destruct H as (_ & t & H & _). apply eval_hex_inv in H as (h & -> & Hh & Hen & He). apply leaf_str in He as (q & Hq & Hd).
      eexists _, q. split; [|split; [exact Hq|right; right; right; right; eauto]].
      destruct Hen as [Hlen|[Hlen Hn]]; [apply va_hex6|apply va_hex3]; assumption. }
  destruct Hex as (v & q & Hv & Hq & Hd). exists v. split; [reflexivity|]. split; [split; [exact Hr|eauto]|]. split; [exact Hv|exact Hsp].
Qed.
(** A literal node made of a pair. *)
Definition mk_lit (p : pair) (v : value_t) : literal := mkLiteral (span_of p) (as_str p) v.
Lemma lit_mk (R : reader value_t) i m p v : spans p i m -> R i m v -> fits_value v -> lit inp R i m (mk_lit p v).
Proof. intros [Hs Hi] HR Hf. split; [exact Hi|]. split; [exact Hs|]. auto. Qed.

(** The value of an attribute or a property. *)
Definition attr_lit (p : pair) : outcome literal :=
  match p_rule p with
  | R_spaced_var => Ok (mk_lit p (VEnum (as_str p)))
  | R_double_quoted_string => Ok (mk_lit p (VString (pairs_as_str (into_inner p))))
  | _ => let? v := parse_value p in Ok (mk_lit p v)
  end.
Lemma at_plain_value i m ps : P (EAlt value spaced_var) i m ps -> exists p, ps = [p] /\ (p_rule p = R_value \/ p_rule p = R_spaced_var) /\ forall l, attr_lit p = Ok l -> lit inp plain_value_at i m l.
Proof.
  intros H. apply P_alt in H as [H|[H (off & Hf)]].
  - apply at_value_den in H as (p & v & -> & Hd & Hv & Hs). exists p. split; [reflexivity|]. split; [left; apply Hd|]. intros l Hl.
    unfold attr_lit in Hl. rewrite (proj1 Hd) in Hl. apply bind_inv in Hl as (w & Hw & Hl). injection Hl as <-.
    destruct (gives_both _ _ _ _ _ (build_value _ _ Hd) Hw) as [Hfit <-]. apply lit_mk; [exact Hs|left; exact Hv|exact Hfit].
  - destruct (single_rule _ _ _ _ _ _ H) as (p & ->). exists p. split; [reflexivity|]. pose proof (at_rule _ _ _ _ _ _ H) as Hr. split; [right; exact Hr|].
    intros l Hl. unfold attr_lit in Hl. rewrite Hr in Hl. injection Hl as <-. pose proof (at_spans _ _ _ _ _ _ H) as Hs. apply at_phrase in H.
    apply lit_mk; [exact Hs| |exact Logic.I]. right. exists (as_str p). split; [exact H|]. split; [|reflexivity].
    eapply value_fail_bare; [exact Hf|apply H].
Qed.
Lemma lit_impl (R R' : reader value_t) i m l : (R i m (lit_value l) -> R' i m (lit_value l)) -> lit inp R i m l -> lit inp R' i m l.
Proof. intros H (H1 & H2 & H3 & H4). split; [exact H1|]. split; [exact H2|]. auto. Qed.
Lemma at_attr_value i m ps : P (EAlt (EAlt value spaced_var) double_quoted_string) i m ps ->
  exists p, ps = [p] /\ In (p_rule p) [R_value; R_spaced_var; R_double_quoted_string] /\ forall l, attr_lit p = Ok l -> lit inp attr_value_at i m l.
Proof.
  intros H. apply P_alt in H as [H|[H _]].
  - apply at_plain_value in H as (p & -> & Hr & H). exists p. split; [reflexivity|]. split; [destruct Hr as [->| ->]; cbn; auto|]. intros l Hl.
    eapply lit_impl; [|apply H; exact Hl]. intros Hv. left. exact Hv.
  - rewrite dqs_rule in H. apply at_quoted in H as (p & v & -> & Hd & Hv & Hs); [|apply ok_dq]. exists p. split; [reflexivity|].
    split; [rewrite (proj1 Hd); cbn; auto|]. intros l Hl. unfold attr_lit in Hl. rewrite (proj1 Hd) in Hl. injection Hl as <-.
    rewrite (quoted_text _ _ _ _ Hd). apply lit_mk; [exact Hs| |exact Logic.I]. right. exists v. auto.
Qed.
Definition mk_key (p : pair) : ident_t := mkIdent (span_of p) (as_str p) (as_str p).
Lemma at_key_ i m p : at_ spaced_var i m p -> key_at inp i m (mk_key p) /\ as_str p <> [].
Proof.
  intros H. pose proof (at_spans _ _ _ _ _ _ H) as [Hs Hi]. apply at_phrase in H. split; [split; [exact Hi|split; [exact Hs|exact H]]|].
  destruct H as (_ & (c & w & E0 & _) & _). rewrite E0. discriminate.
Qed.
Lemma parse_attr_val p k y x : into_inner p = [k; y] -> p_rule k = R_spaced_var -> as_str k <> [] ->
  In (p_rule y) [R_value; R_spaced_var; R_double_quoted_string] -> parse_attribute p = Ok x ->
  exists l, attr_lit y = Ok l /\ x = mkAttr (span_of p) (mk_key k) (Some l).
Proof.
  intros Hi Hk Hne Hy Hx. unfold parse_attribute in Hx. rewrite Hi in Hx. cbn [try_fold] in Hx. rewrite Hk in Hx.
  cbn [id_raw at_key ident0 bind at_span at_value] in Hx. unfold attr_lit. cbn [In] in Hy. destruct Hy as [Hy|[Hy|[Hy|[]]]]; rewrite <- Hy in *.
  - apply bind_inv in Hx as (a & Ha & Hx). injection Hx as <-. apply bind_inv in Ha as (v & Hv & Ha). injection Ha as <-. rewrite Hv. cbn [bind]. eexists. split; reflexivity.
  - destruct (as_str k) as [|c w] eqn:Ek; [congruence|]. cbn [bind] in Hx. injection Hx as <-. eexists. split; [reflexivity|]. unfold mk_key. rewrite Ek. reflexivity.
  - cbn [bind] in Hx. injection Hx as <-. eexists. split; reflexivity.
Qed.
Lemma at_attribute i m p x : at_ attribute i m p -> parse_attribute p = Ok x -> attribute_at inp i m x.
Proof.
  intros H Hx. pose proof (at_spans _ _ _ _ _ _ H) as [Hs _]. apply at_body in H. apply P_seq in H as (m1 & ps1 & ps2 & H1 & H2 & Ei).
  destruct (single_rule _ _ _ _ _ _ H1) as (k & ->). pose proof (at_rule _ _ _ _ _ _ H1) as Hk. apply at_key_ in H1 as [Hkey Hne].
  assert (Hn : next (key_at inp) i (fin m1) (mk_key k)) by (exists m1; split; [exact Hkey|apply lay_of]).
  apply P_opt in H2 as [H2|[-> ->]].
  - apply P_tok in H2 as (m2 & Ht & H2). apply at_attr_value in H2 as (y & -> & Hy & Hl). 
    destruct (parse_attr_val _ _ _ _ Ei Hk Hne Hy Hx) as (l & E0 & ->). rewrite Hs. eapply valued_at; [exact Hn|exact Ht|apply Hl; exact E0].
  - unfold parse_attribute in Hx. rewrite Ei in Hx. cbn [app try_fold] in Hx. rewrite Hk in Hx. cbn [id_raw at_key ident0 bind at_span at_value] in Hx.
    injection Hx as <-. rewrite Hs. constructor. exact Hn.
Qed.

(** ** Settings *)
Lemma at_attrs rl i m p l : at_ (N_ rl (bracketed attribute)) i m p -> Forall2 (gets parse_attribute) (into_inner p) l -> attributes_at inp i m l.
Proof.
  intros H HF. apply at_body, P_bracketed in H; [|apply single_rule]. eapply list_impl; [exact H|exact HF|]. intros i0 r a b Ha Hb. eapply at_attribute; eassumption.
Qed.
Lemma attrs_rule rl i m p : at_ (N_ rl (bracketed attribute)) i m p -> forall q, In q (into_inner p) -> p_rule q = R_attribute.
Proof.
  intros H q Hq. apply at_body, P_bracketed in H; [|apply single_rule]. destruct (list_in _ _ _ _ _ _ H q Hq) as (i0 & m0 & H0). apply (at_rule _ _ _ _ _ _ H0).
Qed.
Lemma attributes_gets rl i m p l : at_ (N_ rl (bracketed attribute)) i m p -> parse_attributes p = Ok l -> Forall2 (gets parse_attribute) (into_inner p) l.
Proof.
  intros H Hl. unfold parse_attributes in Hl. eapply map_gets; [exact Hl|]. intros q Hq. cbv beta. rewrite (attrs_rule _ _ _ _ H q Hq). reflexivity.
Qed.
Lemma at_table_settings i m p x : at_ block_settings i m p -> parse_table_settings p = Ok x -> table_settings_at inp i m x.
Proof.
  intros H Hx. apply bind_inv in Hx as (l & Hl & Hx). injection Hx as <-. split; [apply (at_spans _ _ _ _ _ _ H)|].
  eapply at_attrs; [exact H|]. eapply attributes_gets; eassumption.
Qed.
Lemma at_group_settings i m p x : at_ block_settings i m p -> parse_table_group_settings p = Ok x -> group_settings_at inp i m x.
Proof.
  intros H Hx. apply bind_inv in Hx as (l & Hl & Hx). injection Hx as <-. split; [apply (at_spans _ _ _ _ _ _ H)|].
  eapply at_attrs; [exact H|]. eapply attributes_gets; eassumption.
Qed.
Lemma at_enum_settings i m p x : at_ enum_settings i m p -> parse_enum_settings p = Ok x -> enum_settings_at inp i m x.
Proof.
  intros H Hx. pose proof (at_spans _ _ _ _ _ _ H) as [Hs _]. unfold parse_enum_settings in Hx.
  destruct (fold_gets parse_attribute (fun l x => evs_span x = span_of p /\ enum_settings_say l x) _ _ [] _ _ Hx) as (l & HF & Hsp & Hsay).
  - split; [reflexivity|]. split; [reflexivity|apply last_says_nil].
  - intros l acc q acc' Hq [H1 H2] Hf. cbv beta in Hf. rewrite (attrs_rule _ _ _ _ H q Hq) in Hf. apply bind_inv in Hf as (a & Ha & Hf). apply Ok_inj in Hf as <-.
    exists a. split; [exact Ha|]. split; [exact H1|]. destruct H2 as [E0 H2]. split; [cbn; rewrite E0; reflexivity|]. cbn [evs_note]. fold (key_of a).
    destruct (str_eqb_spec (key_of a) (s "note")) as [K|K]; says. reflexivity.
  - cbn [app] in Hsay. split; [rewrite Hsp; exact Hs|]. rewrite (proj1 Hsay). split; [eapply at_attrs; eassumption|]. exact Hsay.
Qed.
Lemma ref_action_reads a q v : parse_ref_action a q = Ok v -> reads_action a v.
Proof.
  unfold parse_ref_action, reads_action. destruct (at_value a) as [[sp raw w]|]; [|intros [= <-]; reflexivity].
  destruct w as [w|w|z|d|b|h|e|]; try (intros [= <-]; reflexivity). cbn [lit_value].
  pose proof (action_known w) as Hw. destruct (ref_action_from_str w) as [y|]; [|discriminate]. intros [= <-]. eauto.
Qed.
Lemma at_ref_settings i m p x : at_ rel_settings i m p -> parse_rel_settings p = Ok x -> ref_settings_at inp i m x.
Proof.
  intros H Hx. pose proof (at_spans _ _ _ _ _ _ H) as [Hs _]. unfold parse_rel_settings in Hx.
  destruct (fold_gets parse_attribute (fun l x => rs_span x = span_of p /\ ref_settings_say l x) _ _ [] _ _ Hx) as (l & HF & Hsp & Hsay).
  - split; [reflexivity|]. split; [reflexivity|]. split; [apply last_says_nil|]. split; [apply last_says_nil|constructor].
  - intros l acc q acc' Hq [H1 (E0 & B1 & B2 & B3)] Hf. cbv beta in Hf. rewrite (attrs_rule _ _ _ _ H q Hq) in Hf. apply bind_inv in Hf as (a & Ha & Hf).
    exists a. split; [exact Ha|]. fold (key_of a) in Hf. cbv zeta in Hf. rewrite E0 in Hf.
    destruct (str_eqb_spec (key_of a) (s "update")) as [K|K]; [|destruct (str_eqb_spec (key_of a) (s "delete")) as [K2|K2]].
    + apply bind_inv in Hf as (y & Hy & Hf). injection Hf as <-. apply ref_action_reads in Hy. split; [exact H1|]. split; [reflexivity|].
      cbn [rs_on_delete rs_on_update]. split; [says; exact Hy|]. split; [says|]. apply Forall_app. split; [exact B3|]. constructor; eauto.
    + apply bind_inv in Hf as (y & Hy & Hf). injection Hf as <-. apply ref_action_reads in Hy. split; [exact H1|]. split; [reflexivity|].
      cbn [rs_on_delete rs_on_update]. split; [says|]. split; [says; exact Hy|]. apply Forall_app. split; [exact B3|]. constructor; eauto.
    + injection Hf as <-. split; [exact H1|]. split; [reflexivity|]. cbn [rs_on_delete rs_on_update]. split; [says|]. split; [says|].
      apply Forall_app. split; [exact B3|]. constructor; [|constructor]. intros Hk. exfalso. revert Hk. unkeyed.
  - cbn [app] in Hsay. split; [rewrite Hsp; exact Hs|]. rewrite (proj1 Hsay). split; [eapply at_attrs; eassumption|]. exact Hsay.
Qed.
Lemma at_index_settings i m p x : at_ indexes_settings i m p -> parse_indexes_settings p = Ok x -> index_settings_at inp i m x.
Proof.
  intros H Hx. pose proof (at_spans _ _ _ _ _ _ H) as [Hs _]. unfold parse_indexes_settings in Hx.
  destruct (fold_gets parse_attribute (fun l x => is_span x = span_of p /\ index_settings_say l x) _ _ [] _ _ Hx) as (l & HF & Hsp & Hsay).
  - split; [reflexivity|]. apply index_settings_say_nil.
  - intros l acc q acc' Hq [H1 H2] Hf. cbv beta in Hf. rewrite (attrs_rule _ _ _ _ H q Hq) in Hf. apply bind_inv in Hf as (a & Ha & Hf).
    exists a. split; [exact Ha|]. destruct acc as [sp attrs ty un pk nt nm]. destruct H2 as (E0 & B1 & B2 & B3 & B4 & B5 & B6).
    cbn [is_span is_attributes is_is_pk is_is_unique is_type is_name is_note] in *. subst attrs. fold (key_of a) in Hf.
    assert (Hty : key_of a <> s "type" ->
        Forall (fun a => key_of a = s "type" -> exists v, reads_index_type a v) (l ++ [a])).
    { intros Hk. apply Forall_app. split; [exact B4|]. constructor; [|constructor]. intros E0; contradiction. }
    assert (Hno : forall v, reads_index_type a v -> Forall (fun a => key_of a = s "type" -> exists v, reads_index_type a v) (l ++ [a])).
    { intros v Hv. apply Forall_app. split; [exact B4|]. constructor; [|constructor]. eauto. }
    destruct (str_eqb_spec (key_of a) (s "unique")) as [K1|K1].
    2: destruct (str_eqb_spec (key_of a) (s "pk")) as [K2|K2].
    3: destruct (str_eqb_spec (key_of a) (s "type")) as [K3|K3].
    4: destruct (str_eqb_spec (key_of a) (s "name")) as [K4|K4].
    5: destruct (str_eqb_spec (key_of a) (s "note")) as [K5|K5].
    3: { assert (exists v, acc' = mkIndexesSettings sp (l ++ [a]) v un pk nt nm /\ reads_index_type a v) as (v & -> & Hv).
         { unfold attr_value_string in Hf. destruct (at_value a) as [y|] eqn:El; cbn [option_map] in Hf.
           - pose proof (index_type_known (value_to_string (lit_value y))) as Hk.
             destruct (indexes_type_from_str (value_to_string (lit_value y))) as [t|]; [|discriminate]. injection Hf as <-.
             exists (Some t). split; [reflexivity|]. unfold reads_index_type. rewrite El. eauto.
           - injection Hf as <-. exists None. split; [reflexivity|]. unfold reads_index_type. rewrite El. reflexivity. }
         split; [exact H1|]. unfold index_settings_say. cbn [is_attributes is_is_pk is_is_unique is_type is_name is_note]. rewrite !has_key_snoc.
         split; [reflexivity|]. split; [|split; [|split; [says; exact Hv|split; [|split; says]]]].
         * rewrite B1. split; [tauto|]. intros [H0|H0]; [exact H0|keyneq].
         * rewrite B2. split; [tauto|]. intros [H0|H0]; [exact H0|keyneq].
         * eapply Hno. exact Hv. }
    all: injection Hf as <-; (split; [exact H1|]);
        unfold index_settings_say; cbn [is_attributes is_is_pk is_is_unique is_type is_name is_note];
        rewrite !has_key_snoc; (split; [reflexivity|]);
        (split; [|split; [|split; [says|split; [|split; says; try reflexivity]]]]);
        try (apply Hty; intros E; keyneq);
        try rewrite B1; try rewrite B2;
        (split; [tauto|intros [H0|H0]; first [exact H0 | tauto | keyneq]]).
  - cbn [app] in Hsay. split; [rewrite Hsp; exact Hs|]. rewrite (proj1 Hsay). split; [eapply at_attrs; eassumption|]. exact Hsay.
Qed.

(** ** References *)
Lemma single_ident : single ident. Proof. apply single_rule. Qed.
Lemma at_decl i m p x : at_ decl_ident i m p -> parse_decl_ident p = Ok x -> decl_at inp i m x.
Proof.
  intros H Hx. apply at_body in H. unfold parse_decl_ident in Hx. apply P_seq in H as (m1 & ps1 & ps2 & H1 & H2 & Ei).
  destruct (single_ident _ _ _ H1) as (q & ->). pose proof (at_rule _ _ _ _ _ _ H1) as Hq.
  apply bind_inv in Hx as (toks & Ht & Hx). rewrite Ei in Ht. cbn [app try_map] in Ht. rewrite Hq in Ht.
  apply bind_inv in Ht as (a & Ha & Ht). apply bind_inv in Ht as (bs & Hbs & Ht). injection Ht as <-.
  assert (Hn : next (ident_at inp) i (fin m1) a) by (exists m1; split; [eapply at_ident; eassumption|apply lay_of]).
  apply P_opt in H2 as [H2|[-> ->]].
  - apply P_tok in H2 as (m2 & Htk & H2). destruct (single_ident _ _ _ H2) as (q2 & ->). pose proof (at_rule _ _ _ _ _ _ H2) as Hq2.
    cbn [try_map] in Hbs. rewrite Hq2 in Hbs. apply bind_inv in Hbs as (b & Hb & Hbs). cbn [bind] in Hbs. injection Hbs as <-. injection Hx as <-.
    eapply decl_schema; [exact Hn|exact Htk|]. eapply at_ident; eassumption.
  - cbn [try_map] in Hbs. injection Hbs as <-. injection Hx as <-. constructor. exact Hn.
Qed.
Lemma comp_gets ps : (forall q, In q ps -> p_rule q = R_ident) -> forall acc r, try_fold comp_step ps acc = Ok r ->
  exists l, Forall2 (gets parse_ident) ps l /\ r = acc ++ l.
Proof.
  intros Hr acc r H. destruct (fold_gets parse_ident (fun l r => r = acc ++ l) _ _ [] _ _ H) as (l & HF & Hl).
  - rewrite app_nil_r. reflexivity.
  - intros l a q a' Hq -> Hf. rewrite comp_step_ident in Hf by (apply Hr; exact Hq). apply bind_inv in Hf as (x & Hx & Hf). injection Hf as <-.
    exists x. split; [exact Hx|]. rewrite app_assoc. reflexivity.
  - exists l. auto.
Qed.
Lemma at_columns i m p r : at_ ref_composition i m p -> try_fold comp_step (into_inner p) [] = Ok r -> columns_at inp i m r.
Proof.
  intros H Hx. apply at_body in H. apply P_alt in H as [H|[H _]].
  - destruct (single_ident _ _ _ H) as (q & Eq). rewrite Eq in *. apply comp_gets in Hx as (l & HF & ->).
    + inversion HF as [|? x ? l2 Hx HF2]; subst. inversion HF2; subst. constructor. eapply at_ident; eassumption.
    + intros q' [<-|[]]. apply (at_rule _ _ _ _ _ _ H).
  - apply P_tok in H as (m1 & Ht & H). apply P_seq in H as (m2 & ps1 & ps2 & H1 & H2 & Ei). apply P_end in H2 as (m3 & H2 & Hl).
    assert (Hc : commas (next (at_ ident)) m1 (s ")" ++ m) (ps1 ++ ps2)).
    { destruct (single_ident _ _ _ H1) as (q & ->). cbn [app]. apply P_many in H2; [| |apply fin_fin].
      - apply lay_fin in Hl. rewrite Hl in H2. apply commas_many. exists (fin m2), q, ps2. split; [reflexivity|].
        split; [exists m2; split; [exact H1|apply lay_of]|]. eapply many_impl; [exact H2|apply F2_refl|].
        intros i0 r0 a b (m4 & Ha & Hla) <-. apply P_tok in Ha as (m5 & Htk & Ha). exists m5. split; [exact Htk|]. exists m4. auto.
      - intros i0 m0 ps H. apply P_tok in H as (m5 & _ & H). apply (single_ident _ _ _ H). }
    rewrite Ei in Hx. apply comp_gets in Hx as (l & HF & ->).
    + eapply columns_more; [exact Ht|]. eapply commas_impl; [exact Hc|exact HF|]. intros. eapply next_impl; [eassumption|eassumption|].
      intros. eapply at_ident; eassumption.
    + intros q Hq. destruct (commas_in _ _ _ _ Hc q Hq) as (i0 & r0 & m0 & H0 & _). apply (at_rule _ _ _ _ _ _ H0).
Qed.

Lemma at_endpoint i m p x : at_ ref_ident i m p -> parse_ref_ident p = Ok x -> endpoint_at inp i m x.
Proof.
  intros H Hx. pose proof (at_spans _ _ _ _ _ _ H) as [Hs _]. apply at_body in H. unfold parse_ref_ident in Hx.
  apply bind_inv in Hx as ([toks comps] & Hf & Hx). cbn [fst snd] in Hx. rewrite Hs in Hx.
  apply P_seq in H as (m1 & ps1 & ps2 & H1 & H2 & Ei). destruct (single_ident _ _ _ H1) as (q & ->). pose proof (at_rule _ _ _ _ _ _ H1) as Hq.
  apply P_tok in H2 as (m2 & Ht & H2). apply P_seq in H2 as (m3 & ps3 & ps4 & H3 & H4 & ->).
  destruct (single_rule _ _ _ _ _ _ H4) as (c & ->). pose proof (at_rule _ _ _ _ _ _ H4) as Hc.
  rewrite Ei in Hf. cbn [app try_fold] in Hf. rewrite Hq in Hf. apply bind_inv in Hf as (st & Hst & Hf).
  apply bind_inv in Hst as (a & Ha & Hst). injection Hst as <-. cbn [app] in Hf.
  assert (Hn : next (ident_at inp) i (fin m1) a) by (exists m1; split; [eapply at_ident; eassumption|apply lay_of]).
  assert (Hend : forall tk st, try_fold (fun (acc : list ident_t * list ident_t) p1 =>
      let '(toks, comps) := acc in
      match p_rule p1 with
      | R_ident => let? i := parse_ident p1 in Ok (toks ++ [i], comps)
      | R_ref_composition =>
          omap (fun c => (toks, c)) (try_fold (fun comps p2 =>
            match p_rule p2 with
            | R_ident => let? i := parse_ident p2 in Ok (comps ++ [i])
            | _ => throw_rules [R_ident] p2
            end) (into_inner p1) comps)
      | _ => throw_rules [R_ident; R_ref_composition] p1
      end) [c] (tk, []) = Ok st -> exists r, try_fold comp_step (into_inner c) [] = Ok r /\ st = (tk, r)).
  { intros tk st0 H0. cbn [try_fold] in H0. rewrite Hc in H0. apply bind_inv in H0 as (y & Hy & H0). injection H0 as <-.
    apply omap_inv in Hy as (z & Hz & ->). exists z. split; [exact Hz|reflexivity]. }
  apply P_opt in H3 as [H3|[-> ->]].
  - apply P_end in H3 as (m4 & H3 & Hl). destruct (single_ident _ _ _ H3) as (q2 & ->). pose proof (at_rule _ _ _ _ _ _ H3) as Hq2.
    cbn [app] in Hf. change (try_fold ?f (q2 :: [c]) ?acc) with (let? y := f acc q2 in try_fold f [c] y) in Hf.
    cbv beta iota in Hf. rewrite Hq2 in Hf. apply bind_inv in Hf as (st & Hst & Hf). apply bind_inv in Hst as (b & Hb & Hst). injection Hst as <-.
    cbn [app] in Hf. apply Hend in Hf as (r & Hr & [= -> ->]). injection Hx as <-.
    eapply endpoint_schema; [exact Hn|exact Ht|exists m4; split; [eapply at_ident; eassumption|exact Hl]| |eapply at_columns; eassumption].
    exists m3. split; [reflexivity|apply lay_of].
  - apply Hend in Hf as (r & Hr & [= -> ->]). injection Hx as <-. rewrite (tok_fixed _ _ _ Ht) in H4.
    eapply endpoint_table; [exact Hn|exact Ht|eapply at_columns; eassumption].
Qed.
Lemma at_rel i m p r : at_ relation i m p -> relation_from_str (as_str p) = Some r -> rel_at i m r.
Proof. intros H Hr. apply at_spans in H as [_ Hi]. exists (as_str p). split; [apply relation_words; exact Hr|exact Hi]. Qed.
Lemma at_inline i m p x : at_ ref_inline i m p -> parse_ref_inline p = Ok x -> inline_at inp i m x.
Proof.
  intros H Hx. pose proof (at_spans _ _ _ _ _ _ H) as [Hs _]. apply at_body in H. unfold parse_ref_inline in Hx.
  apply P_tok in H as (m1 & Ht1 & H). apply P_tok in H as (m2 & Ht2 & H). apply P_seq in H as (m3 & ps1 & ps2 & H1 & H2 & Ei).
  destruct (single_rule _ _ _ _ _ _ H1) as (q & ->). destruct (single_rule _ _ _ _ _ _ H2) as (c & ->).
  pose proof (at_rule _ _ _ _ _ _ H1) as Hq. pose proof (at_rule _ _ _ _ _ _ H2) as Hc.
  rewrite Ei in Hx. cbn [app try_fold] in Hx. rewrite Hq, Hc in Hx. apply bind_inv in Hx as (a & Ha & Hx).
  destruct (relation_from_str (as_str q)) as [r|] eqn:Er; [|discriminate]. injection Ha as <-.
  apply bind_inv in Hx as (b & Hb & Hx). apply bind_inv in Hb as (e & He & Hb). injection Hb as <-. injection Hx as <-.
  cbn [rin_span rin_rel]. rewrite Hs. eapply inline_intro; [exact Ht1|exact Ht2| |eapply at_endpoint; eassumption].
  exists m3. split; [eapply at_rel; eassumption|apply lay_of].
Qed.
Lemma from_str_not_undef w r : relation_from_str w = Some r -> relation_eqb r Undef = false.
Proof. intros H. apply relation_words in H. destruct r; [discriminate| | | |]; reflexivity. Qed.
Definition with_name (n : option ident_t) (o : ref_block_t) : ref_block_t :=
  mkRefBlock (rb_span o) n (rb_rel o) (rb_lhs o) (rb_rhs o) (rb_settings o).
Lemma at_stmt n i m p x : at_ ref_stmt i m p -> parse_ref_stmt p = Ok x -> stmt_at inp n i m (with_name n x).
Proof.
  intros H Hx. pose proof (at_spans _ _ _ _ _ _ H) as [Hs _]. apply at_body in H. unfold parse_ref_stmt in Hx.
  apply P_seq in H as (m1 & ps1 & ps2 & H1 & H & Ei). apply P_seq in H as (m2 & ps3 & ps4 & H2 & H & ->).
  apply P_tail in H as (b & o & -> & H3); [|apply single_rule|apply single_rule].
  destruct (single_rule _ _ _ _ _ _ H1) as (a & ->). destruct (single_rule _ _ _ _ _ _ H2) as (q & ->).
  pose proof (at_rule _ _ _ _ _ _ H1) as Ha. pose proof (at_rule _ _ _ _ _ _ H2) as Hq.
  assert (Hb : p_rule b = R_ref_ident).
  { destruct H3 as [? ? ? (m4 & H3 & _)|? ? ? ? ? (m4 & H3 & _)]; apply (at_rule _ _ _ _ _ _ H3). }
  rewrite Ei in Hx. cbn [app] in Hx. cbn [try_fold] in Hx. rewrite Ha in Hx.
  apply bind_inv in Hx as (x1 & Hx1 & Hx). apply bind_inv in Hx1 as (va & Hva & Hx1). cbn [relation_eqb] in Hx1. injection Hx1 as <-.
  rewrite Hq in Hx. apply bind_inv in Hx as (x2 & Hx2 & Hx). destruct (relation_from_str (as_str q)) as [r|] eqn:Er; [|discriminate]. injection Hx2 as <-.
  rewrite Hb in Hx. apply bind_inv in Hx as (x3 & Hx3 & Hx). apply bind_inv in Hx3 as (vb & Hvb & Hx3). rewrite (from_str_not_undef _ _ Er) in Hx3. injection Hx3 as <-.
  assert (exists o', x = mkRefBlock (span_of p) None r va vb o' /\ match o, o' with None, None => True | Some c, Some d => gets parse_rel_settings c d | _, _ => False end) as (o' & -> & Ho).
  { destruct o as [c|]; cbn [opt_pairs try_fold] in Hx.
    - assert (Hc : p_rule c = R_rel_settings) by (inversion H3 as [|? ? ? ? ? _ H4]; subst; apply (at_rule _ _ _ _ _ _ H4)).
      rewrite Hc in Hx. apply bind_inv in Hx as (x4 & Hx4 & Hx). apply bind_inv in Hx4 as (st & Hst & Hx4). injection Hx4 as <-. injection Hx as <-.
      exists (Some st). split; [reflexivity|exact Hst].
    - injection Hx as <-. exists None. split; [reflexivity|exact Logic.I]. }
  unfold with_name. cbn [rb_span rb_rel rb_lhs rb_rhs rb_settings]. rewrite Hs. eapply stmt_intro.
  - exists m1. split; [eapply at_endpoint; eassumption|apply lay_of].
  - exists m2. split; [eapply at_rel; eassumption|apply lay_of].
  - eapply (tail_impl _ _ _ _ (gets parse_ref_ident) (gets parse_rel_settings)); [exact H3|exact Hvb|exact Ho| |]; intros.
    + eapply at_endpoint; eassumption.
    + eapply at_ref_settings; eassumption.
Qed.
Lemma ref_inner o st x : p_rule st = R_ref_stmt -> (forall q, o = Some q -> p_rule q = R_ident) ->
  ref_decl_inner None (opt_pairs o ++ [st]) = Ok (Some x) ->
  exists n y, x = with_name n y /\ parse_ref_stmt st = Ok y /\ match o, n with None, None => True | Some c, Some d => gets parse_ident c d | _, _ => False end.
Proof.
  intros Hr Ho H. destruct o as [q|]; cbn [opt_pairs app ref_decl_inner] in H.
  - rewrite (Ho q eq_refl) in H. apply bind_inv in H as (n & Hn & H). rewrite Hr in H. apply omap_inv in H as (y & Hy & E0). injection E0 as ->.
    exists (Some n), y. split; [reflexivity|]. auto.
  - rewrite Hr in H. apply omap_inv in H as (y & Hy & E0). injection E0 as ->. exists None, y. split; [reflexivity|]. auto.
Qed.
Lemma ref_inner_some o st r : p_rule st = R_ref_stmt -> (forall q, o = Some q -> p_rule q = R_ident) ->
  ref_decl_inner None (opt_pairs o ++ [st]) = Ok r -> r <> None.
Proof.
  intros Hr Ho H. destruct o as [q|]; cbn [opt_pairs app ref_decl_inner] in H.
  - rewrite (Ho q eq_refl) in H. apply bind_inv in H as (n & Hn & H). rewrite Hr in H. apply omap_inv in H as (y & Hy & ->). discriminate.
  - rewrite Hr in H. apply omap_inv in H as (y & Hy & ->). discriminate.
Qed.
Lemma maybe_rule {A} (R : reader A) i m o : maybe (next R) i m o -> forall q, o = Some q -> exists i m, R i m q.
Proof. intros [i'|i' r a (m1 & Ha & _)] q [= <-]. eauto. Qed.
Lemma at_reference i m p x : at_ ref_decl i m p -> parse_ref_decl p = Ok x -> reference_at inp i m x.
Proof.
  intros H Hx. apply at_body in H. unfold parse_ref_decl in Hx.
  assert (Hone : forall p1, into_inner p = [p1] -> p_rule p1 = R_ref_block \/ p_rule p1 = R_ref_short ->
     exists r, ref_decl_inner None (into_inner p1) = Ok r /\ (r <> None -> r = Some x)).
  { intros p1 E0 Hr. rewrite E0 in Hx. destruct Hr as [Hr|Hr]; rewrite Hr in Hx; apply bind_inv in Hx as (r & Hr1 & Hx);
      exists r; (split; [exact Hr1|]); (destruct r as [b|]; [injection Hx as <-; auto|congruence]). }
  apply P_alt in H as [H|[H _]].
  - apply P_rule in H as (p1 & E1 & Hr & _ & H). destruct (Hone p1 E1 (or_introl Hr)) as (r & Hin & Hsome). clear Hx Hone.
    apply P_word in H as (m1 & Hk & H). apply P_seq in H as (m2 & ps1 & ps2 & H1 & H & Ei).
    apply P_maybe in H1 as (o & -> & Ho); [|apply single_ident|eapply kw_fixed; exact Hk].
    apply P_tok in H as (m3 & Ht & H). apply P_end in H as (m4 & H & Hl). destruct (single_rule _ _ _ _ _ _ H) as (st & ->).
    rewrite Ei in Hin. pose proof (at_rule _ _ _ _ _ _ H) as Hst.
    assert (Hor : forall q, o = Some q -> p_rule q = R_ident) by (intros q Hq; destruct (maybe_rule _ _ _ _ Ho q Hq) as (i0 & m0 & H0); apply (at_rule _ _ _ _ _ _ H0)).
    rewrite (Hsome (ref_inner_some _ _ _ Hst Hor Hin)) in Hin. apply ref_inner in Hin as (n & y & -> & Hy & Hn); [|exact Hst|exact Hor].
    eapply reference_braces; [exact Hk|eapply (maybe_impl _ _ (gets parse_ident)); [exact Ho|exact Hn|]|exact Ht|exists m4; split; [eapply at_stmt; eassumption|exact Hl]].
    intros. eapply at_ident; eassumption.
  - apply P_rule in H as (p1 & E1 & Hr & _ & H). destruct (Hone p1 E1 (or_intror Hr)) as (r & Hin & Hsome). clear Hx Hone.
    apply P_word in H as (m1 & Hk & H). apply P_seq in H as (m2 & ps1 & ps2 & H1 & H & Ei).
    apply P_maybe in H1 as (o & -> & Ho); [|apply single_ident|eapply kw_fixed; exact Hk].
    apply P_tok in H as (m3 & Ht & H). destruct (single_rule _ _ _ _ _ _ H) as (st & ->).
    rewrite Ei in Hin. pose proof (at_rule _ _ _ _ _ _ H) as Hst.
    assert (Hor : forall q, o = Some q -> p_rule q = R_ident) by (intros q Hq; destruct (maybe_rule _ _ _ _ Ho q Hq) as (i0 & m0 & H0); apply (at_rule _ _ _ _ _ _ H0)).
    rewrite (Hsome (ref_inner_some _ _ _ Hst Hor Hin)) in Hin. apply ref_inner in Hin as (n & y & -> & Hy & Hn); [|exact Hst|exact Hor].
    eapply reference_colon; [exact Hk|eapply (maybe_impl _ _ (gets parse_ident)); [exact Ho|exact Hn|]|exact Ht|eapply at_stmt; eassumption].
    intros. eapply at_ident; eassumption.
Qed.

(** ** Notes *)
Lemma at_note i m p x : at_ note_decl i m p -> parse_note_decl p = Ok x -> note_at inp i m x.
Proof.
  intros H Hx. apply at_body in H. unfold parse_note_decl in Hx.
  assert (Hone : forall p1 p2 v, into_inner p = [p1] -> p_rule p1 = R_note_short \/ p_rule p1 = R_note_block -> into_inner p1 = [p2] -> d_string p2 v ->
     x = mkNote (span_of p1) (mk_lit p2 (VString v))).
  { intros p1 p2 v E0 Hr E1 Hd. rewrite E0 in Hx. destruct Hr as [Hr|Hr]; rewrite Hr, E1, (proj1 Hd) in Hx; apply omap_inv in Hx as (w & Hw & ->);
      rewrite (build_string _ _ Hd) in Hw; injection Hw as <-; reflexivity. }
  apply P_alt in H as [H|[H _]]; apply P_rule in H as (p1 & E1 & Hr & [Hs _] & H); apply P_word in H as (m1 & Hk & H); apply P_tok in H as (m2 & Ht & H).
  - apply at_string in H as (p2 & v & E2 & Hd & _ & Hsp & Hv). rewrite (Hone p1 p2 v E1 (or_introl Hr) E2 Hd), Hs.
    eapply note_colon_at; [exact Hk|exact Ht|]. apply lit_mk; [exact Hsp|exact Hv|exact Logic.I].
  - apply P_end in H as (m3 & H & Hl). apply at_string in H as (p2 & v & E2 & Hd & _ & Hsp & Hv). rewrite (Hone p1 p2 v E1 (or_intror Hr) E2 Hd), Hs.
    eapply note_braces_at; [exact Hk|exact Ht|]. exists m3. split; [|exact Hl]. apply lit_mk; [exact Hsp|exact Hv|exact Logic.I].
Qed.

(** ** Types *)
Lemma type_keeps p x : parse_col_type p = Ok x -> ct_span x = span_of p /\ ct_raw x = as_str p.
Proof.
  intros H. unfold parse_col_type in H. apply omap_inv in H as ([sch out] & H & ->). cbn [snd].
  refine (fold_inv (fun st : option ident_t * col_type_t => ct_span (snd st) = span_of p /\ ct_raw (snd st) = as_str p) _ _ _ _ H _ _); [cbn; auto|].
  intros [sch1 o1] q [sch2 o2] _ HI Hf. cbn [snd] in *. cbv beta iota in Hf.
  assert (Hin : forall o, try_fold (body_step sch1) (into_inner q) o1 = Ok o -> ct_span o = span_of p /\ ct_raw o = as_str p).
  { intros o Ho. refine (fold_inv (fun o => ct_span o = span_of p /\ ct_raw o = as_str p) _ _ _ _ Ho HI _).
    intros a p2 a' _ Ha Hs. unfold body_step in Hs. destruct (p_rule p2); try discriminate;
      try (apply bind_inv in Hs as (v & _ & Hs)); injection Hs as <-; exact Ha. }
  destruct (p_rule q); try discriminate.
  all: try (apply omap_inv in Hf as (o & Ho & E0); injection E0 as <- <-; apply Hin; exact Ho).
  apply bind_inv in Hf as (n & _ & Hf). injection Hf as <- <-. exact HI.
Qed.
Lemma at_type i m p x : at_ col_type i m p -> parse_col_type p = Ok x -> type_at inp i m x.
Proof.
  intros H Hx. pose proof (at_spans _ _ _ _ _ _ H) as [Hs Hi]. destruct (type_keeps _ _ Hx) as [Es Er].
  destruct H as (_ & t & H & _). rewrite mode_col_type in H.
  destruct (EC_type i m [p]) as (raw & ty & E0 & Ht & Hmg & Hnd & q & [= <-] & Hd); [eexists _, t; exact H|].
  destruct (gives_both _ _ _ _ _ (build_type _ _ Hd) Hx) as [Hfit He]. rewrite E0 in Hi at 1. apply app_inv_tail in Hi. subst raw.
  unfold type_at. rewrite Es, Er, He. split; [exact E0|]. auto.
Qed.

(** ** Columns *)
Definition get_col_item (p : pair) : outcome col_item_t :=
  match into_inner p with
  | [q] => match p_rule q with
           | R_attribute => omap ColAttr (parse_attribute q)
           | R_ref_inline => omap ColRef (parse_ref_inline q)
           | _ => Panic
           end
  | _ => Panic
  end.
Lemma at_col_item i m p x : at_ col_attribute i m p -> get_col_item p = Ok x -> col_item_at inp i m x.
Proof.
  intros H Hx. apply at_body in H. unfold get_col_item in Hx. apply P_alt in H as [H|[H _]].
  - destruct (single_rule _ _ _ _ _ _ H) as (q & Eq). rewrite Eq in *. rewrite (at_rule _ _ _ _ _ _ H) in Hx.
    apply omap_inv in Hx as (y & Hy & ->). cbn [col_item_at]. eapply at_inline; eassumption.
  - destruct (single_rule _ _ _ _ _ _ H) as (q & Eq). rewrite Eq in *. rewrite (at_rule _ _ _ _ _ _ H) in Hx.
    apply omap_inv in Hx as (y & Hy & ->). cbn [col_item_at]. eapply at_attribute; eassumption.
Qed.
Lemma pick_snoc {A B} (f : A -> option B) l a : pick f (l ++ [a]) = pick f l ++ match f a with Some b => [b] | None => [] end.
Proof. unfold pick. rewrite flat_map_app. cbn [flat_map]. rewrite app_nil_r. reflexivity. Qed.
Lemma at_col_settings i m p x : at_ col_settings i m p -> parse_col_settings p = Ok x -> col_settings_at inp i m x.
Proof.
  intros H Hx. pose proof (at_spans _ _ _ _ _ _ H) as [Hs _]. apply at_body, P_bracketed in H; [|apply single_rule].
  unfold parse_col_settings in Hx.
  destruct (fold_gets get_col_item (fun l x => cs_span x = span_of p /\
      col_settings_say (pick (fun y => match y with ColAttr a => Some a | _ => None end) l) x /\
      cs_refs x = pick (fun y => match y with ColRef r => Some r | _ => None end) l) _ _ [] _ _ Hx) as (l & HF & Hsp & Hsay & Hrf).
  - split; [reflexivity|]. split; [apply col_settings_say_nil|reflexivity].
  - intros l acc q acc' Hq (H1 & H2 & H3) Hf. cbv beta in Hf. destruct (list_in _ _ _ _ _ _ H q Hq) as (i0 & m0 & H0).
    rewrite (at_rule _ _ _ _ _ _ H0) in Hf. unfold get_col_item. apply at_body in H0.
    apply P_alt in H0 as [H0|[H0 _]]; destruct (single_rule _ _ _ _ _ _ H0) as (q1 & Eq); rewrite Eq in *; pose proof (at_rule _ _ _ _ _ _ H0) as Hr; rewrite Hr;
      cbn [try_fold] in Hf; rewrite Hr in Hf; apply bind_inv in Hf as (z & Hz & Hf); injection Hf as <-; apply bind_inv in Hz as (y & Hy & Hz); apply Ok_inj in Hz as <-;
      rewrite Hy; cbn [omap].
    + exists (ColRef y). split; [reflexivity|]. rewrite !pick_snoc, app_nil_r. destruct acc as [z1 z2 z3 z4 z5 z6 z7 z8 z9]. cbn [col_settings_add_ref cs_span cs_refs] in *. split; [exact H1|].
      split; [exact H2|]. rewrite H3. reflexivity.
    + exists (ColAttr y). split; [reflexivity|]. rewrite !pick_snoc, app_nil_r. destruct (add_attr_fields acc y) as (F1 & _ & F3). rewrite F1, F3.
      split; [exact H1|]. split; [|exact H3]. apply col_settings_say_attr. exact H2.
  - cbn [app] in *. split; [rewrite Hsp; exact Hs|]. exists l. split; [|auto]. eapply list_impl; [exact H|exact HF|].
    intros i0 r0 a b Ha Hb. eapply at_col_item; eassumption.
Qed.
Lemma tail_rules e x i m p o : (forall i m p, at_ e i m p -> True) -> tail_at (at_ e) (at_ x) i m p o ->
  (exists i m, at_ e i m p) /\ (forall q, o = Some q -> exists i m, at_ x i m q).
Proof.
  intros _ [i' m' a (m1 & Ha & _)|i' m1 m' a b (m2 & Ha & _) Hb]; split; eauto; intros q [= <-]. eauto.
Qed.
Lemma at_column i m p x : at_ table_col i m p -> parse_table_col p = Ok x -> column_at inp i m x.
Proof.
  intros H Hx. pose proof (at_spans _ _ _ _ _ _ H) as [Hs _]. apply at_body in H. unfold parse_table_col in Hx.
  apply P_seq in H as (m1 & ps1 & ps2 & H1 & H & Ei). destruct (single_ident _ _ _ H1) as (n & ->).
  apply P_tail in H as (t & o & -> & H2); [|apply single_rule|apply single_rule].
  destruct (tail_rules _ _ _ _ _ _ (fun _ _ _ _ => Logic.I) H2) as [(i1 & r1 & Ht) Ho].
  rewrite Ei in Hx. cbn [app try_fold] in Hx. rewrite (at_rule _ _ _ _ _ _ H1), (at_rule _ _ _ _ _ _ Ht) in Hx.
  apply bind_inv in Hx as (a & Ha & Hx). apply bind_inv in Ha as (vn & Hn & Ha). apply Ok_inj in Ha as <-.
  apply bind_inv in Hx as (a & Ha & Hx). apply bind_inv in Ha as (vt & Hvt & Ha). apply Ok_inj in Ha as <-.
  cbn [tc_span tc_name tc_type tc_settings] in Hx.
  assert (exists o', x = mkTableCol (span_of p) vn vt o' /\ match o, o' with None, None => True | Some c, Some d => gets parse_col_settings c d | _, _ => False end) as (o' & -> & Ho').
  { destruct o as [c|]; cbn [opt_pairs try_fold] in Hx.
    - destruct (Ho c eq_refl) as (i2 & r2 & Hc). rewrite (at_rule _ _ _ _ _ _ Hc) in Hx. apply bind_inv in Hx as (a & Ha & Hx).
      apply bind_inv in Ha as (st & Hst & Ha). apply Ok_inj in Ha as <-. apply Ok_inj in Hx as <-. exists (Some st). split; [reflexivity|exact Hst].
    - apply Ok_inj in Hx as <-. exists None. split; [reflexivity|exact Logic.I]. }
  rewrite Hs. eapply column_intro; [exists m1; split; [eapply at_ident; eassumption|apply lay_of]|].
  eapply (tail_impl _ _ _ _ (gets parse_col_type) (gets parse_col_settings)); [exact H2|exact Hvt|exact Ho'| |]; intros.
  + eapply at_type; eassumption.
  + eapply at_col_settings; eassumption.
Qed.

(** ** Indexes *)
Lemma at_index_col i m p x : at_ indexes_ident i m p -> parse_indexes_ident p = Ok x -> index_col_at inp i m x.
Proof.
  intros H Hx. apply at_body in H. unfold parse_indexes_ident in Hx. apply P_alt in H as [H|[H _]].
  - destruct (single_ident _ _ _ H) as (q & Eq). rewrite Eq in *. rewrite (at_rule _ _ _ _ _ _ H) in Hx.
    apply omap_inv in Hx as (y & Hy & ->). constructor. eapply at_ident; eassumption.
  - rewrite bqs_rule in H. apply at_quoted in H as (q & v & Eq & Hd & Hv & Hs); [|apply ok_bq]. rewrite Eq in Hx.
    destruct Hd as [Hr (y & Ey & Hy & Et)]. rewrite Hr, Ey, Hy in Hx. apply Ok_inj in Hx as <-.
    constructor. rewrite Et. apply lit_mk; [exact Hs| |exact Logic.I]. exists v. auto.
Qed.
Definition index_step (acc : indexes_def) (p1 : pair) : outcome indexes_def :=
  match p_rule p1 with
  | R_indexes_ident =>
      let? c := parse_indexes_ident p1 in
      Ok (mkIndexesDef (idf_span acc) (idf_cols acc ++ [c]) (idf_settings acc))
  | R_indexes_settings =>
      let? x := parse_indexes_settings p1 in
      Ok (mkIndexesDef (idf_span acc) (idf_cols acc) (Some x))
  | _ => throw_rules [R_indexes_ident; R_indexes_settings] p1
  end.
Lemma index_steps p ps o x : parse_indexes_single_multi p = Ok x -> into_inner p = ps ++ opt_pairs o ->
  (forall q, In q ps -> p_rule q = R_indexes_ident) -> (forall q, o = Some q -> p_rule q = R_indexes_settings) ->
  exists l o', x = mkIndexesDef (span_of p) l o' /\ Forall2 (gets parse_indexes_ident) ps l /\
    match o, o' with None, None => True | Some c, Some d => gets parse_indexes_settings c d | _, _ => False end.
Proof.
  intros Hx Ei Hps Ho. change (try_fold index_step (into_inner p) (mkIndexesDef (span_of p) [] None) = Ok x) in Hx.
  rewrite Ei, ParserOk3.try_fold_app in Hx. apply bind_inv in Hx as (y & Hy & Hx).
  destruct (fold_gets parse_indexes_ident (fun l x => x = mkIndexesDef (span_of p) l None) _ _ [] _ _ Hy) as (l & HF & ->).
  - reflexivity.
  - intros l acc q acc' Hq -> Hf. unfold index_step in Hf. rewrite (Hps q Hq) in Hf. apply bind_inv in Hf as (c & Hc & Hf). apply Ok_inj in Hf as <-.
    exists c. split; [exact Hc|reflexivity].
  - cbn [app] in Hx. destruct o as [q|]; cbn [opt_pairs try_fold] in Hx.
    + unfold index_step in Hx. rewrite (Ho q eq_refl) in Hx. apply bind_inv in Hx as (a & Ha & Hx). apply bind_inv in Ha as (st & Hst & Ha).
      apply Ok_inj in Ha as <-. apply Ok_inj in Hx as <-. exists l, (Some st). split; [reflexivity|]. split; [exact HF|exact Hst].
    + apply Ok_inj in Hx as <-. exists l, None. split; [reflexivity|]. split; [exact HF|exact Logic.I].
Qed.
Lemma at_index i m p x : at_ (EAlt indexes_single indexes_multi) i m p -> parse_indexes_single_multi p = Ok x -> index_at inp i m x.
Proof.
  intros H Hx. apply P_alt in H as [H|[H _]].
  - pose proof (at_spans _ _ _ _ _ _ H) as [Hs _]. apply at_body in H.
    apply P_tail in H as (c & o & Ei & H); [|apply single_rule|apply single_rule].
    destruct (tail_rules _ _ _ _ _ _ (fun _ _ _ _ => Logic.I) H) as [(i1 & r1 & Hc) Ho].
    destruct (index_steps p [c] o x Hx Ei) as (l & o' & -> & HF & Ho').
    + intros q [<-|[]]. apply (at_rule _ _ _ _ _ _ Hc).
    + intros q Hq. destruct (Ho q Hq) as (i2 & r2 & Hq2). apply (at_rule _ _ _ _ _ _ Hq2).
    + inversion HF as [|? y ? l2 Hy HF2]; subst. inversion HF2; subst. rewrite Hs. apply index_single.
      eapply (tail_impl _ _ _ _ (gets parse_indexes_ident) (gets parse_indexes_settings)); [exact H|exact Hy|exact Ho'| |]; intros.
      * eapply at_index_col; eassumption.
      * eapply at_index_settings; eassumption.
  - pose proof (at_spans _ _ _ _ _ _ H) as [Hs _]. apply at_body in H.
    apply P_tok in H as (m1 & Ht & H). apply P_seq in H as (m2 & ps1 & ps2 & H1 & H & Ei). apply P_tok in H as (m3 & (y & Ey & Hl) & H).
    assert (HL : list_at "(" ")" (at_ indexes_ident) i y ps1).
    { eapply P_listed; [apply single_rule|exact Ht|exact H1|]. apply lay_fin. exact Ey. }
    assert (exists o, ps2 = opt_pairs o /\ match o with Some q => at_ indexes_settings m3 m q | None => m = m3 end) as (o & -> & Ho).
    { apply P_opt in H as [H|[-> ->]]; [|exists None; auto]. destruct (single_rule _ _ _ _ _ _ H) as (q & ->). exists (Some q). auto. }
    destruct (index_steps p ps1 o x Hx Ei) as (l & o' & -> & HF & Ho').
    + intros q Hq. destruct (list_in _ _ _ _ _ _ HL q Hq) as (i0 & m0 & H0). apply (at_rule _ _ _ _ _ _ H0).
    + intros q ->. apply (at_rule _ _ _ _ _ _ Ho).
    + rewrite Hs. apply index_multi.
      assert (Hn : next (list_at "(" ")" (index_col_at inp)) i m3 l).
      { exists y. split; [|exact Hl]. eapply list_impl; [exact HL|exact HF|]. intros. eapply at_index_col; eassumption. }
      destruct o as [q|], o' as [st|]; try contradiction.
      * eapply tail_yes; [exact Hn|]. eapply at_index_settings; eassumption.
      * rewrite Ho. constructor. exact Hn.
Qed.
Lemma single_index : single (EAlt indexes_single indexes_multi).
Proof. apply single_alt; apply single_rule. Qed.
Lemma at_indexes i m p x : at_ indexes_decl i m p -> parse_indexes_decl p = Ok x -> indexes_at inp i m x.
Proof.
  intros H Hx. apply at_body in H. unfold parse_indexes_decl in Hx. apply P_word in H as (m1 & Hk & H).
  destruct (single_rule _ _ _ _ _ _ H) as (b & Eb). rewrite Eb in *. rewrite (at_rule _ _ _ _ _ _ H) in Hx.
  pose proof (at_spans _ _ _ _ _ _ H) as [Hs _]. apply at_body, P_braced in H; [|apply single_index]. unfold parse_indexes_block in Hx.
  destruct (fold_gets parse_indexes_single_multi (fun l x => x = mkIndexesBlock (span_of b) l) _ _ [] _ _ Hx) as (l & HF & ->).
  - reflexivity.
  - intros l acc q acc' Hq -> Hf. destruct (braces_in _ _ _ _ H q Hq) as (i0 & m0 & H0).
    assert (Hr : p_rule q = R_indexes_single \/ p_rule q = R_indexes_multi).
    { apply P_alt in H0 as [H0|[H0 _]]; [left|right]; apply (at_rule _ _ _ _ _ _ H0). }
    cbv beta in Hf. destruct Hr as [Hr|Hr]; rewrite Hr in Hf; apply bind_inv in Hf as (c & Hc & Hf); apply Ok_inj in Hf as <-;
      exists c; (split; [exact Hc|reflexivity]).
  - rewrite Hs. econstructor; [exact Hk|]. eapply braces_impl; [exact H|exact HF|]. intros. eapply at_index; eassumption.
Qed.

(** ** Tables *)
Definition get_table_item (p : pair) : outcome table_item_t :=
  match p_rule p with
  | R_table_col => omap TabCol (parse_table_col p)
  | R_note_decl => omap TabNote (parse_note_decl p)
  | R_indexes_decl => omap TabIndexes (parse_indexes_decl p)
  | _ => Panic
  end.
Lemma single_table_item : single (EAlt (EAlt table_col note_decl) indexes_decl).
Proof. repeat apply single_alt; apply single_rule. Qed.
Lemma at_table_item i m p x : at_ (EAlt (EAlt table_col note_decl) indexes_decl) i m p -> get_table_item p = Ok x -> table_item_at inp i m x.
Proof.
  intros H Hx. unfold get_table_item in Hx. apply P_alt in H as [H|[H _]]; [apply P_alt in H as [H|[H _]]|]; rewrite (at_rule _ _ _ _ _ _ H) in Hx;
    apply omap_inv in Hx as (y & Hy & ->); cbn [table_item_at].
  - eapply at_column; eassumption.
  - eapply at_note; eassumption.
  - eapply at_indexes; eassumption.
Qed.
Lemma last_of_snoc {A} (l : list A) a : last_of (l ++ [a]) = Some a.
Proof. unfold last_of. rewrite rev_app_distr. reflexivity. Qed.
Lemma at_alias i m p q : at_ table_alias i m p -> into_inner p = [q] -> forall x, parse_ident q = Ok x -> alias_at inp i m x.
Proof.
  intros H Eq x Hx. apply at_body in H. apply P_word in H as (m1 & Hk & H). rewrite Eq in H. exists m1. split; [exact Hk|]. eapply at_ident; eassumption.
Qed.
Lemma alias_inner i m p : at_ table_alias i m p -> exists q, into_inner p = [q] /\ p_rule q = R_ident.
Proof.
  intros H. apply at_body in H. apply P_word in H as (m1 & Hk & H). destruct (single_ident _ _ _ H) as (q & Eq). exists q. split; [exact Eq|].
  rewrite Eq in H. apply (at_rule _ _ _ _ _ _ H).
Qed.
Definition get_alias (p : pair) : outcome ident_t := match into_inner p with q :: _ => parse_ident q | [] => Panic end.
Lemma at_table i m p x : at_ table_decl i m p -> parse_table_decl p = Ok x -> table_at inp i m x.
Proof.
  intros H Hx. pose proof (at_spans _ _ _ _ _ _ H) as [Hs _]. apply at_body in H. rewrite parse_table_decl_parts in Hx.
  apply P_word in H as (m1 & Hk & H). apply P_seq in H as (m2 & ps1 & ps2 & H1 & H & Ei). destruct (single_rule _ _ _ _ _ _ H1) as (d & ->).
  apply P_seq in H as (m3 & ps3 & ps4 & H2 & H & ->). apply P_maybe in H2 as (oa & -> & H2); [|apply single_rule|apply fin_fin].
  apply P_seq in H as (m4 & ps5 & ps6 & H3 & H & ->). apply P_maybe in H3 as (os & -> & H3); [|apply single_rule|apply fin_fin].
  destruct (single_rule _ _ _ _ _ _ H) as (b & ->). pose proof (at_rule _ _ _ _ _ _ H) as Hrb. apply at_body, P_braced in H; [|apply single_table_item].
  rewrite Ei in Hx. cbn [app try_fold] in Hx. apply bind_inv in Hx as (t1 & Ht1 & Hx). unfold table_parts, table0 in Ht1.
  rewrite (at_rule _ _ _ _ _ _ H1) in Ht1. apply bind_inv in Ht1 as (vd & Hvd & Ht1). apply Ok_inj in Ht1 as <-. cbn [ti_alias] in Hx.
  rewrite ParserOk3.try_fold_app in Hx. apply bind_inv in Hx as (t2 & Ht2 & Hx).
  rewrite ParserOk3.try_fold_app in Hx. apply bind_inv in Hx as (t3 & Ht3 & Hx).
  assert (exists va, t2 = mkTable (span_of p) [] (mkTableIdent (span_of d) (snd vd) (fst vd) va) None None None /\
     match oa, va with None, None => True | Some c, Some e => gets get_alias c e | _, _ => False end) as (va & -> & Hva).
  { destruct oa as [q|]; cbn [opt_pairs try_fold] in Ht2.
    - destruct (maybe_rule _ _ _ _ H2 q eq_refl) as (i0 & r0 & H0). destruct (alias_inner _ _ _ H0) as (q1 & Eq & Hq1).
      unfold table_parts in Ht2. rewrite (at_rule _ _ _ _ _ _ H0), Eq in Ht2. cbn [try_fold] in Ht2. rewrite Hq1 in Ht2.
      apply bind_inv in Ht2 as (a & Ha & Ht2). apply bind_inv in Ha as (a1 & Ha & Ha1). apply bind_inv in Ha as (v & Hv & Ha).
      apply Ok_inj in Ha as <-. apply Ok_inj in Ha1 as <-. apply Ok_inj in Ht2 as <-. exists (Some v). split; [reflexivity|].
      unfold gets, get_alias. rewrite Eq. exact Hv.
    - apply Ok_inj in Ht2 as <-. exists None. split; [reflexivity|exact Logic.I]. }
  assert (exists vs, t3 = mkTable (span_of p) [] (mkTableIdent (span_of d) (snd vd) (fst vd) va) None None vs /\
     match os, vs with None, None => True | Some c, Some e => gets parse_table_settings c e | _, _ => False end) as (vs & -> & Hvs).
  { destruct os as [q|]; cbn [opt_pairs try_fold] in Ht3.
    - destruct (maybe_rule _ _ _ _ H3 q eq_refl) as (i0 & r0 & H0). unfold table_parts in Ht3. rewrite (at_rule _ _ _ _ _ _ H0) in Ht3.
      apply bind_inv in Ht3 as (a & Ha & Ht3). apply bind_inv in Ha as (v & Hv & Ha).
      apply Ok_inj in Ha as <-. apply Ok_inj in Ht3 as <-. exists (Some v). split; [reflexivity|exact Hv].
    - apply Ok_inj in Ht3 as <-. exists None. split; [reflexivity|exact Logic.I]. }
  cbn [try_fold] in Hx. apply bind_inv in Hx as (t4 & Ht4 & Hx). apply Ok_inj in Hx as <-. unfold table_parts in Ht4. rewrite Hrb in Ht4.
  set (id := mkTableIdent (span_of d) (snd vd) (fst vd) va) in *.
  destruct (fold_gets get_table_item (fun l x => x = mkTable (span_of p)
      (pick (fun x => match x with TabCol c => Some c | _ => None end) l) id
      (last_of (pick (fun x => match x with TabNote n => Some n | _ => None end) l))
      (last_of (pick (fun x => match x with TabIndexes b => Some b | _ => None end) l)) vs) _ _ [] _ _ Ht4) as (l & HF & ->).
  - reflexivity.
  - intros l acc q acc' Hq -> Hf. destruct (braces_in _ _ _ _ H q Hq) as (i0 & m0 & H0). unfold table_items in Hf. unfold get_table_item.
    apply P_alt in H0 as [H0|[H0 _]]; [apply P_alt in H0 as [H0|[H0 _]]|]; rewrite (at_rule _ _ _ _ _ _ H0) in Hf |- *;
      apply bind_inv in Hf as (v & Hv & Hf); apply Ok_inj in Hf as <-; rewrite Hv; cbn [omap].
    + exists (TabCol v). split; [reflexivity|]. rewrite !pick_snoc, !app_nil_r. reflexivity.
    + exists (TabNote v). split; [reflexivity|]. rewrite !pick_snoc, !app_nil_r, last_of_snoc. reflexivity.
    + exists (TabIndexes v). split; [reflexivity|]. rewrite !pick_snoc, !app_nil_r, last_of_snoc. reflexivity.
  - cbn [app]. unfold id. pose proof (at_spans _ _ _ _ _ _ H1) as [Hsd _]. rewrite Hs, Hsd. eapply table_intro.
    + exact Hk.
    + eapply at_decl; eassumption.
    + apply lay_of.
    + eapply (maybe_impl _ _ (gets get_alias)); [exact H2|exact Hva|]. intros i0 r0 a e Ha He. destruct (alias_inner _ _ _ Ha) as (q1 & Eq & _).
      unfold gets, get_alias in He. rewrite Eq in He. eapply at_alias; eassumption.
    + eapply (maybe_impl _ _ (gets parse_table_settings)); [exact H3|exact Hvs|]. intros. eapply at_table_settings; eassumption.
    + eapply braces_impl; [exact H|exact HF|]. intros. eapply at_table_item; eassumption.
Qed.

(** ** Enums *)
Lemma at_enum_value i m p x : at_ Grammar.enum_value i m p -> parse_enum_value p = Ok x -> enum_value_at inp i m x.
Proof.
  intros H Hx. pose proof (at_spans _ _ _ _ _ _ H) as [Hs _]. apply at_body in H. unfold parse_enum_value in Hx.
  apply P_tail in H as (t & o & Ei & H2); [|apply single_rule|apply single_rule].
  destruct (tail_rules _ _ _ _ _ _ (fun _ _ _ _ => Logic.I) H2) as [(i1 & r1 & Ht) Ho].
  rewrite Ei in Hx. cbn [app try_fold] in Hx. rewrite (at_rule _ _ _ _ _ _ Ht) in Hx.
  apply bind_inv in Hx as (a & Ha & Hx). apply bind_inv in Ha as (vn & Hn & Ha). apply Ok_inj in Ha as <-. cbn [ev_span ev_value ev_settings] in Hx.
  assert (exists o', x = mkEnumValue (span_of p) vn o' /\ match o, o' with None, None => True | Some c, Some d => gets parse_enum_settings c d | _, _ => False end) as (o' & -> & Ho').
  { destruct o as [c|]; cbn [opt_pairs try_fold] in Hx.
    - destruct (Ho c eq_refl) as (i2 & r2 & Hc). rewrite (at_rule _ _ _ _ _ _ Hc) in Hx. apply bind_inv in Hx as (a & Ha & Hx).
      apply bind_inv in Ha as (st & Hst & Ha). apply Ok_inj in Ha as <-. apply Ok_inj in Hx as <-. exists (Some st). split; [reflexivity|exact Hst].
    - apply Ok_inj in Hx as <-. exists None. split; [reflexivity|exact Logic.I]. }
  rewrite Hs. constructor. eapply (tail_impl _ _ _ _ (gets parse_ident) (gets parse_enum_settings)); [exact H2|exact Hn|exact Ho'| |]; intros.
  + eapply at_ident; eassumption.
  + eapply at_enum_settings; eassumption.
Qed.
Lemma at_enum i m p x : at_ enum_decl i m p -> parse_enum_decl p = Ok x -> enum_at inp i m x.
Proof.
  intros H Hx. pose proof (at_spans _ _ _ _ _ _ H) as [Hs _]. apply at_body in H. unfold parse_enum_decl in Hx.
  apply P_word in H as (m1 & Hk & H). apply P_seq in H as (m2 & ps1 & ps2 & H1 & H & Ei). destruct (single_rule _ _ _ _ _ _ H1) as (d & ->).
  destruct (single_rule _ _ _ _ _ _ H) as (b & ->). rewrite Ei in Hx. cbn [app try_fold] in Hx. rewrite (at_rule _ _ _ _ _ _ H1), (at_rule _ _ _ _ _ _ H) in Hx.
  apply bind_inv in Hx as (a & Ha & Hx). apply bind_inv in Ha as (vd & Hd & Ha). apply Ok_inj in Ha as <-.
  apply bind_inv in Hx as (a & Ha & Hx). apply bind_inv in Ha as (l & Hl & Ha). apply Ok_inj in Ha as <-. apply Ok_inj in Hx as <-. cbn [en_span en_ident].
  apply at_body, P_braced in H; [|apply single_rule]. pose proof (at_spans _ _ _ _ _ _ H1) as [Hsd _]. rewrite Hs, Hsd.
  eapply enum_intro; [exact Hk|eapply at_decl; eassumption|apply lay_of|].
  eapply (braces_impl _ _ (gets parse_enum_value)); [exact H| |intros; eapply at_enum_value; eassumption].
  eapply map_gets; [exact Hl|]. intros q Hq. cbv beta. destruct (braces_in _ _ _ _ H q Hq) as (i0 & m0 & H0). rewrite (at_rule _ _ _ _ _ _ H0). reflexivity.
Qed.

(** ** Groups *)
Definition get_group_part (p : pair) : outcome group_part_t :=
  match p_rule p with
  | R_decl_ident => let? d := parse_decl_ident p in Ok (GroupItem (mkGroupItem (span_of p) (fst d) (snd d)))
  | R_note_decl => omap GroupNote (parse_note_decl p)
  | _ => Panic
  end.
Lemma at_group_part i m p x : at_ (EAlt note_decl decl_ident) i m p -> get_group_part p = Ok x -> group_part_at inp i m x.
Proof.
  intros H Hx. unfold get_group_part in Hx. apply P_alt in H as [H|[H _]]; rewrite (at_rule _ _ _ _ _ _ H) in Hx.
  - apply omap_inv in Hx as (y & Hy & ->). constructor. eapply at_note; eassumption.
  - apply bind_inv in Hx as (d & Hd & Hx). apply Ok_inj in Hx as <-. pose proof (at_spans _ _ _ _ _ _ H) as [Hs _]. rewrite Hs.
    constructor. eapply at_decl; eassumption.
Qed.
Lemma at_group i m p x : at_ table_group_decl i m p -> parse_table_group_decl p = Ok x -> group_at inp i m x.
Proof.
  intros H Hx. pose proof (at_spans _ _ _ _ _ _ H) as [Hs _]. apply at_body in H. rewrite parse_group_parts in Hx.
  apply P_word in H as (m1 & Hk & H). apply P_seq in H as (m2 & ps1 & ps2 & H1 & H & Ei). destruct (single_ident _ _ _ H1) as (d & ->).
  apply P_seq in H as (m4 & ps5 & ps6 & H3 & H & ->). apply P_maybe in H3 as (os & -> & H3); [|apply single_rule|apply fin_fin].
  destruct (single_rule _ _ _ _ _ _ H) as (b & ->). pose proof (at_rule _ _ _ _ _ _ H) as Hrb.
  apply at_body, P_braced in H; [|apply single_alt; apply single_rule].
  rewrite Ei in Hx. cbn [app try_fold] in Hx. apply bind_inv in Hx as (t1 & Ht1 & Hx). unfold group_parts in Ht1.
  rewrite (at_rule _ _ _ _ _ _ H1) in Ht1. apply bind_inv in Ht1 as (vd & Hvd & Ht1). apply Ok_inj in Ht1 as <-.
  rewrite ParserOk3.try_fold_app in Hx. apply bind_inv in Hx as (t3 & Ht3 & Hx).
  assert (exists vs, t3 = mkGroup (span_of p) vd None [] vs /\
     match os, vs with None, None => True | Some c, Some e => gets parse_table_group_settings c e | _, _ => False end) as (vs & -> & Hvs).
  { destruct os as [q|]; cbn [opt_pairs try_fold] in Ht3.
    - destruct (maybe_rule _ _ _ _ H3 q eq_refl) as (i0 & r0 & H0). unfold group_parts in Ht3. rewrite (at_rule _ _ _ _ _ _ H0) in Ht3.
      apply bind_inv in Ht3 as (a & Ha & Ht3). apply bind_inv in Ha as (v & Hv & Ha).
      apply Ok_inj in Ha as <-. apply Ok_inj in Ht3 as <-. exists (Some v). split; [reflexivity|exact Hv].
    - apply Ok_inj in Ht3 as <-. exists None. split; [reflexivity|exact Logic.I]. }
  cbn [try_fold] in Hx. apply bind_inv in Hx as (t4 & Ht4 & Hx). apply Ok_inj in Hx as <-. unfold group_parts in Ht4. rewrite Hrb in Ht4.
  destruct (fold_gets get_group_part (fun l x => x = mkGroup (span_of p) vd
      (last_of (pick (fun x => match x with GroupNote n => Some n | _ => None end) l))
      (pick (fun x => match x with GroupItem g => Some g | _ => None end) l) vs) _ _ [] _ _ Ht4) as (l & HF & ->).
  - reflexivity.
  - intros l acc q acc' Hq -> Hf. destruct (braces_in _ _ _ _ H q Hq) as (i0 & m0 & H0). unfold group_items in Hf. unfold get_group_part.
    apply P_alt in H0 as [H0|[H0 _]]; rewrite (at_rule _ _ _ _ _ _ H0) in Hf |- *;
      apply bind_inv in Hf as (v & Hv & Hf); apply Ok_inj in Hf as <-; rewrite Hv; cbn [omap bind].
    + exists (GroupNote v). split; [reflexivity|]. rewrite !pick_snoc, !app_nil_r, last_of_snoc. reflexivity.
    + eexists. split; [reflexivity|]. rewrite !pick_snoc, !app_nil_r. reflexivity.
  - cbn [app]. rewrite Hs. eapply group_intro.
    + exact Hk.
    + exists m2. split; [eapply at_ident; eassumption|apply lay_of].
    + eapply (maybe_impl _ _ (gets parse_table_group_settings)); [exact H3|exact Hvs|]. intros. eapply at_group_settings; eassumption.
    + eapply braces_impl; [exact H|exact HF|]. intros. eapply at_group_part; eassumption.
Qed.

(** ** Projects *)
Lemma text_laid i m w : text_at i m w -> text i (fin m) w.
Proof.
  intros [(i' & -> & Hl & Hc)|(i' & -> & Hl & Hc)]; [left|right]; exists i', m; (split; [reflexivity|]); (split; [exact Hl|]); (split; [exact Hc|apply lay_of]).
Qed.
Lemma note_fails k m0 m1 m2 m w off : any_case k (s "note") -> lay m0 m1 -> tok (s ":") m1 m2 -> text_at m2 m w ->
  eval skip note_decl NonAtomic off (k ++ m0) = RFail -> False.
Proof.
  intros Hn Hl Ht Hw Hf. apply text_laid in Hw.
  apply X_rule_inv in Hf. rewrite eval_alt in Hf. destruct (eval skip note_short NonAtomic off (k ++ m0)) as [| |] eqn:E1; try discriminate.
  apply X_rule_inv in E1. apply note_case in Hn.
  rewrite eval_seq, eval_ci in E1. rewrite (proj2 (strip_prefix_ci_spec (s "Note") (k ++ m0) k m0)) in E1 by (split; [reflexivity|apply any_case_ci; exact Hn]).
  destruct (skipf NonAtomic m0) as [g y] eqn:Es. apply skipf_fin in Es. apply lay_fin in Hl. rewrite Hl in Es. subst y.
  rewrite eval_seq in E1. unfold L in E1. rewrite eval_str in E1. destruct Ht as (m3 & -> & Hl3).
  rewrite (proj2 (strip_prefix_spec (s ":") (s ":" ++ m3) m3) eq_refl) in E1.
  destruct (skipf NonAtomic m3) as [g3 y3] eqn:Es3. apply skipf_fin in Es3. apply lay_fin in Hl3. rewrite Hl3 in Es3. subst y3.
  match type of E1 with context [eval skip string_value NonAtomic ?o m2] => destruct (eval skip string_value NonAtomic o m2) eqn:E2; try discriminate; eapply string_not_fail; [exact Hw|exact E2] end.
Qed.
Lemma at_property i m p x off : at_ property i m p -> eval skip note_decl NonAtomic off i = RFail -> parse_property p = Ok x -> property_at inp i m x.
Proof.
  intros H Hnf Hx. pose proof (at_spans _ _ _ _ _ _ H) as [Hs _]. apply at_body in H. apply P_seq in H as (m1 & ps1 & ps2 & H1 & H2 & Ei).
  destruct (single_rule _ _ _ _ _ _ H1) as (k & ->). pose proof (at_rule _ _ _ _ _ _ H1) as Hk. apply at_key_ in H1 as [Hkey Hne].
  apply P_tok in H2 as (m2 & Ht & H2). apply at_plain_value in H2 as (y & -> & Hy & Hl).
  unfold parse_property in Hx. apply bind_inv in Hx as (a & Ha & Hx).
  destruct (parse_attr_val p k y a Ei Hk Hne) as (l & E0 & ->); [destruct Hy as [->| ->]; cbn; auto|exact Ha|].
  cbn [at_span at_key at_value] in Hx. apply Ok_inj in Hx as <-. rewrite Hs.
  eapply property_intro; [exists m1; split; [exact Hkey|apply lay_of]|exact Ht|apply Hl; exact E0|].
  intros [Hn (w & Hw)]. specialize (Hl _ E0). destruct Hl as (_ & _ & Hv & _). rewrite Hw in Hv. destruct Hv as [Hv|(w' & _ & _ & E1)]; [|discriminate].
  destruct Hkey as (Hi & _). cbn [mk_key id_raw id_str] in *. rewrite Hi in Hnf. eapply note_fails; [exact Hn|apply lay_of|exact Ht| |exact Hnf].
  inversion Hv; subst. eassumption.
Qed.
Definition get_project_item (p : pair) : outcome project_item_t :=
  match p_rule p with
  | R_property => omap ProjProp (parse_property p)
  | R_note_decl => omap ProjNote (parse_note_decl p)
  | _ => Panic
  end.
Lemma at_project_item i m p x : at_ (EAlt note_decl property) i m p -> get_project_item p = Ok x -> project_item_at inp i m x.
Proof.
  intros H Hx. unfold get_project_item in Hx. apply P_alt in H as [H|[H (off & Hf)]]; rewrite (at_rule _ _ _ _ _ _ H) in Hx;
    apply omap_inv in Hx as (y & Hy & ->); cbn [project_item_at].
  - eapply at_note; eassumption.
  - eapply at_property; eassumption.
Qed.
Lemma at_project i m p x : at_ project_decl i m p -> parse_project_decl p = Ok x -> project_at inp i m x.
Proof.
  intros H Hx. pose proof (at_spans _ _ _ _ _ _ H) as [Hs _]. apply at_body in H. unfold parse_project_decl in Hx. fold project_items in Hx.
  apply P_word in H as (m1 & Hk & H). apply P_seq in H as (m2 & ps1 & ps2 & H1 & H & Ei). destruct (single_ident _ _ _ H1) as (d & ->).
  destruct (single_rule _ _ _ _ _ _ H) as (b & ->). rewrite Ei in Hx. cbn [app try_fold] in Hx. rewrite (at_rule _ _ _ _ _ _ H1), (at_rule _ _ _ _ _ _ H) in Hx.
  apply bind_inv in Hx as (a & Ha & Hx). apply bind_inv in Ha as (vd & Hd & Ha). apply Ok_inj in Ha as <-.
  apply bind_inv in Hx as (a & Ha & Hx). apply Ok_inj in Hx as <-. unfold project0 in Ha. cbn [pj_span pj_properties pj_database_type pj_note] in Ha.
  apply at_body, P_braced in H; [|apply single_alt; apply single_rule].
  destruct (fold_gets get_project_item (fun l x => exists db, database_type_says (pick (fun x => match x with ProjProp p => Some p | _ => None end) l) db /\
      x = mkProject (span_of p) (pick (fun x => match x with ProjProp p => Some p | _ => None end) l) vd db
      (last_of (pick (fun x => match x with ProjNote n => Some n | _ => None end) l))) _ _ [] _ _ Ha) as (l & HF & db & Hdb & ->).
  - exists None. split; [left; split; [constructor|reflexivity]|reflexivity].
  - intros l acc q acc' Hq (db & Hdb & ->) Hf. destruct (braces_in _ _ _ _ H q Hq) as (i0 & m0 & H0). unfold project_items in Hf. unfold get_project_item.
    apply P_alt in H0 as [H0|[H0 _]]; rewrite (at_rule _ _ _ _ _ _ H0) in Hf |- *;
      apply bind_inv in Hf as (v & Hv & Hf); apply Ok_inj in Hf as <-; rewrite Hv; cbn [omap bind pj_span pj_properties pj_ident pj_database_type pj_note].
    + exists (ProjNote v). split; [reflexivity|]. exists db. rewrite !pick_snoc, !app_nil_r, last_of_snoc. auto.
    + exists (ProjProp v). split; [reflexivity|]. eexists. rewrite !pick_snoc, !app_nil_r. split; [|reflexivity].
      destruct (str_eqb_spec (id_str (pr_key v)) (s "database_type")) as [E0|E0].
      * destruct (lit_value (pr_value v)) eqn:El;
          try (apply db_says_miss; [intros [_ (n & En)]; congruence|exact Hdb]). apply db_says_hit; assumption.
      * apply db_says_miss; [intros [E1 _]; contradiction|exact Hdb].
  - cbn [app] in *. rewrite Hs. eapply project_intro; [exact Hk|exists m2; split; [eapply at_ident; eassumption|apply lay_of]| |reflexivity|exact Hdb].
    eapply braces_impl; [exact H|exact HF|]. intros. eapply at_project_item; eassumption.
Qed.

(** ** Whole texts *)
Definition get_block (p : pair) : outcome block :=
  let? o := parse_block p in match o with Some b => Ok b | None => Panic end.
Lemma single_decls : single decls.
Proof. unfold decls. repeat apply single_alt; apply single_rule. Qed.
Lemma at_top i m p x : at_ decls i m p -> get_block p = Ok x -> top_at inp i m x.
Proof.
  intros H Hx. unfold get_block, parse_block in Hx. unfold decls in H.
  apply P_alt in H as [H|[H _]]; [apply P_alt in H as [H|[H _]]; [apply P_alt in H as [H|[H _]]; [apply P_alt in H as [H|[H _]]; [apply P_alt in H as [H|[H _]]|]|]|]|];
    rewrite (at_rule _ _ _ _ _ _ H) in Hx; apply bind_inv in Hx as (o & Ho & Hx); apply omap_inv in Ho as (y & Hy & ->); apply Ok_inj in Hx as <-; cbn [top_at].
  - eapply at_project; eassumption.
  - eapply at_table; eassumption.
  - eapply at_enum; eassumption.
  - eapply at_reference; eassumption.
  - eapply at_group; eassumption.
  - eapply at_note; eassumption.
Qed.
End Sound.

Theorem located_sound inp x : parse_dbml_unchecked inp = Some (Ok x) -> located inp x.
Proof.
  intros H. unfold parse_dbml_unchecked in H. destruct (run schema NonAtomic 0 inp) as [t m ps| |] eqn:E0; try discriminate.
  assert (HP : P inp schema inp m ps).
  { eapply P_intro; [lia|]. unfold pos. rewrite N.sub_diag. exact E0. }
  rewrite schema_rule in HP. apply P_rule in HP as (p & -> & Hr & [Hs Hi] & HP). rewrite Hr in H. injection H as H.
  apply P_seq in HP as (m1 & ps1 & ps2 & H1 & H2 & Ei).
  assert (ps1 = [] /\ m1 = inp) as [-> ->].
  { destruct H1 as (_ & t1 & H1 & _). unfold pos in H1. rewrite N.sub_diag, eval_soi in H1. injection H1 as <- <- <-. auto. }
  apply P_seq in H2 as (m2 & ps3 & ps4 & H2 & H3 & ->). apply P_many in H2; [|apply single_decls|apply fin_fin].
  apply P_rule in H3 as (e & -> & He & _ & H3).
  assert (fin m2 = [] /\ m = []) as [Em ->].
  { destruct H3 as (_ & t3 & H3 & _). cbn [eval] in H3. destruct (fin m2); [split; congruence|discriminate]. }
  rewrite Em in H2. unfold parse_schema in H. rewrite Ei in H. cbn [app] in H. rewrite ParserOk3.try_fold_app in H. apply bind_inv in H as (y & Hy & H).
  destruct (fold_gets get_block (fun l x => x = mkSchema (span_of p) inp l) _ _ [] _ _ Hy) as (l & HF & ->).
  - reflexivity.
  - intros l acc q acc' Hq -> Hf. cbv beta in Hf. apply bind_inv in Hf as (o & Ho & Hf). unfold get_block. rewrite Ho. cbn [bind].
    destruct o as [b|].
    + apply Ok_inj in Hf as <-. exists b. split; reflexivity.
    + exfalso. destruct (many_in _ _ _ _ H2 q Hq) as (i0 & r0 & m0 & H0 & _). unfold decls in H0. unfold parse_block in Ho.
      apply P_alt in H0 as [H0|[H0 _]]; [apply P_alt in H0 as [H0|[H0 _]]; [apply P_alt in H0 as [H0|[H0 _]]; [apply P_alt in H0 as [H0|[H0 _]]; [apply P_alt in H0 as [H0|[H0 _]]|]|]|]|];
        rewrite (at_rule _ _ _ _ _ _ _ H0) in Ho; apply omap_inv in Ho as (z & _ & Hz); discriminate.
  - cbn [try_fold] in H. unfold parse_block in H. rewrite He in H. cbn [bind app] in H. apply Ok_inj in H as <-.
    split; [reflexivity|]. split; [cbn [sb_span]; rewrite Hs; unfold span, pos; rewrite N.sub_diag; f_equal; cbn; lia|].
    exists (fin inp). split; [apply lay_of|]. cbn [sb_blocks]. eapply many_impl; [exact H2|exact HF|]. intros. eapply next_impl; [eassumption|eassumption|].
    intros. eapply at_top; eassumption.
Qed.
