(** * SynSpan: every pair's text reads as what the pair denotes; from pairs to AST
    nodes. *)

From Verif Require Import PegFacts Lex.
From Verif Require Import ParserOk ParserOk3 ParseFacts.
From Verif Require Import SynEval SynLex SynGram SynType SynGram2 SynBuild SynBuild2 SynCut.
From Verif Require Export Spans.
From Verif Require Import Parser.
From Verif Require Import Syntax.

(** ** The rules an expression calls directly *)
Fixpoint tops (e : pexp) : list pexp :=
  match e with
  | ESeq a b | EAlt a b => tops a ++ tops b
  | EOpt a | ERep a => tops a
  | ERule _ _ _ => [e]
  | _ => []
  end.
Definition rule_of (e : pexp) : option rule := match e with ERule r _ _ => Some r | _ => None end.

Definition found (e : pexp) (off : N) (x : str) (q : pair) : Prop :=
  exists e' pre t r, In e' (tops e) /\ x = pre ++ t ++ r /\ eval skip e' NonAtomic (off + blen pre) (t ++ r) = ROk t r [q] /\
    Some (p_rule q) = rule_of e' /\ as_str q = t /\ span_of q = (off + blen pre, off + blen pre + blen t).
Lemma found_pre e off g x q : found e (off + blen g) x q -> found e off (g ++ x) q.
Proof.
  intros (e' & pre & t & r & H1 & -> & H2 & H3 & H4 & H5). exists e', (g ++ pre), t, r. rewrite blen_app, N.add_assoc, <- app_assoc. auto 10.
Qed.
Lemma found_in e1 e2 off x q : (forall e', In e' (tops e1) -> In e' (tops e2)) -> found e1 off x q -> found e2 off x q.
Proof. intros H (e' & pre & t & r & H1 & H2). exists e', pre, t, r. split; [apply H; exact H1|exact H2]. Qed.
Lemma der_step : (forall e a off t r ps, der skip e a off t r ps -> a = NonAtomic -> forall q, In q ps -> found e off (t ++ r) q)
  /\ (forall e a off t r ps, dtail skip e a off t r ps -> a = NonAtomic -> forall q, In q ps -> found e off (t ++ r) q).
Proof.
  apply der_dtail_ind.
  1-6: intros; contradiction.
  - intros e1 e2 a off t1 g t2 r ps1 ps2 _ IH1 _ _ IH2 Ha q Hq. apply in_app_or in Hq as [Hq|Hq].
    + apply (found_in e1); [intros; cbn [tops]; apply in_or_app; auto|]. rewrite <- !app_assoc. apply IH1; assumption.
    + apply (found_in e2); [intros; cbn [tops]; apply in_or_app; auto|]. rewrite <- !app_assoc. apply found_pre, found_pre, IH2; assumption.
  - intros e1 e2 a off t r ps _ IH Ha q Hq. apply (found_in e1); [intros; cbn [tops]; apply in_or_app; auto|]. apply IH; assumption.
  - intros e1 e2 a off t r ps _ _ IH Ha q Hq. apply (found_in e2); [intros; cbn [tops]; apply in_or_app; auto|]. apply IH; assumption.
  - intros; contradiction.
  - intros e1 a off t r ps _ IH Ha q Hq. apply (found_in e1); [intros; cbn [tops]; auto|]. apply IH; assumption.
  - intros; contradiction.
  - intros e1 a off t1 t2 r ps1 ps2 _ IH1 _ IH2 Ha q Hq. apply (found_in e1); [intros; cbn [tops]; auto|]. rewrite <- app_assoc.
    apply in_app_or in Hq as [Hq|Hq]; [apply IH1; assumption|apply found_pre, IH2; assumption].
  - intros; contradiction.
  - intros rl ty body a off x rest ps _ _ He Ha q Hq. subst a. destruct (emits ty NonAtomic) eqn:Em; [|destruct Hq].
    destruct Hq as [<-|[]]. exists (ERule rl ty body), [], x, rest. cbn [tops In blen app]. rewrite N.add_0_r. split; [auto|]. split; [reflexivity|].
    split; [exact He|]. split; [reflexivity|]. split; [reflexivity|]. reflexivity.
  - intros; contradiction.
  - intros e1 a off g t1 t2 r ps1 ps2 _ _ IH1 _ IH2 Ha q Hq. rewrite <- !app_assoc. apply in_app_or in Hq as [Hq|Hq].
    + apply found_pre, IH1; assumption.
    + apply found_pre, found_pre, IH2; assumption.
Qed.

(** ** Pairs in their place *)
Definition at_ (inp : str) (e : pexp) (q : pair) : Prop :=
  exists pre t r, inp = pre ++ t ++ r /\ eval skip e NonAtomic (blen pre) (t ++ r) = ROk t r [q] /\
    Some (p_rule q) = rule_of e /\ as_str q = t /\ span_of q = (blen pre, blen pre + blen t).
Lemma at_step inp rl b p q : at_ inp (N_ rl b) p -> In q (into_inner p) -> exists e, In e (tops b) /\ at_ inp e q.
Proof.
  intros (pre & t & r & -> & H & _) Hq. rewrite eval_normal in H.
  destruct (eval skip b NonAtomic (blen pre) (t ++ r)) as [t1 m1 ps1| |] eqn:E1; try discriminate.
  rewrite emit_ok in H by discriminate. injection H as -> -> <-. cbn [into_inner] in Hq.
  apply eval_der in E1 as [_ Hd]; [|exact skip_app]. destruct (proj1 der_step _ _ _ _ _ _ Hd eq_refl q Hq) as (e & pre' & t' & r' & H1 & H2 & H3 & H4 & H5 & H6).
  exists e. split; [exact H1|]. exists (pre ++ pre'), t', r'. rewrite H2, blen_app, <- app_assoc. auto 10.
Qed.
Lemma at_rule inp e q : at_ inp e q -> Some (p_rule q) = rule_of e.
Proof. intros (pre & t & r & _ & _ & H & _). exact H. Qed.
Lemma at_written {A} inp e q (R : reader A) (den : pair -> A -> Prop) : local R ->
  (forall i m ps, E e i m ps -> exists a, R i (fin m) a /\ SynEval.one den a ps) ->
  at_ inp e q -> exists a, written inp (span_of q) R a /\ den q a.
Proof.
  intros HR HB (pre & t & r & -> & H & _ & _ & Hs). destruct (HB (t ++ r) r [q]) as (a & Ha & q' & Hq & Hd); [eexists _, _; exact H|].
  injection Hq as <-. exists a. split; [|exact Hd]. destruct (lay_of r) as (g & Eg & Hg). rewrite Eg in Ha at 1. change (fin r) with ([] ++ fin r) in Ha at 2.
  destruct (r_split _ _ _ _ _ HR Ha) as (i0 & E0 & Ha'). rewrite app_assoc in E0. apply app_inv_tail in E0. subst i0.
  exists pre, t, g, (fin r). rewrite <- Eg. split; [reflexivity|]. split; [exact Hs|]. split; [apply lay_of|exact Ha'].
Qed.
Lemma gives_meaning {A B} (e : A -> B) P o b x : gives e P o b -> o = Ok x -> e x = b.
Proof. intros [[_ (y & -> & He)]|[_ (m & sp & ->)]] H; [injection H as <-; exact He|discriminate]. Qed.

(** ** Folds *)
Lemma fold_inv {A S} (I : S -> Prop) (f : S -> A -> outcome S) l : forall acc r, try_fold f l acc = Ok r -> I acc ->
  (forall acc p acc', In p l -> I acc -> f acc p = Ok acc' -> I acc') -> I r.
Proof.
  induction l as [|p l IH]; intros acc r H H0 Hs; cbn [try_fold] in H; [injection H as <-; exact H0|].
  destruct (f acc p) as [acc'| |] eqn:Ef; cbn [bind] in H; try discriminate. apply (IH acc' r H).
  - apply (Hs acc p acc'); [left; reflexivity|exact H0|exact Ef].
  - intros a p' a' Hin. apply Hs. right. exact Hin.
Qed.
Lemma map_inv {A B} (f : A -> outcome B) l : forall r, try_map f l = Ok r -> Forall (fun b => exists a, In a l /\ f a = Ok b) r.
Proof.
  induction l as [|p l IH]; intros r H; cbn [try_map] in H; [injection H as <-; constructor|].
  destruct (f p) as [b| |] eqn:Ef; cbn [bind] in H; try discriminate. destruct (try_map f l) as [bs| |] eqn:El; cbn [bind] in H; try discriminate.
  injection H as <-. constructor; [exists p; split; [left; reflexivity|exact Ef]|]. eapply Forall_impl; [|apply IH; reflexivity].
  intros b' (a & H1 & H2). exists a. split; [right; exact H1|exact H2].
Qed.
Lemma bind_inv {A B} (o : outcome A) (k : A -> outcome B) y : bind o k = Ok y -> exists x, o = Ok x /\ k x = Ok y.
Proof. destruct o; cbn [bind]; try discriminate. eauto. Qed.
Lemma omap_inv {A B} (f : A -> B) o y : omap f o = Ok y -> exists x, o = Ok x /\ y = f x.
Proof. destruct o; cbn [omap]; try discriminate. intros [= <-]. eauto. Qed.

(** [src inp e f x]: [x] is what [f] makes of a pair of rule [e] in its place. *)
Definition src {A} (inp : str) (e : pexp) (f : pair -> outcome A) (x : A) : Prop := exists q, at_ inp e q /\ f q = Ok x.

Lemma at_child inp rl b p q child : at_ inp (N_ rl b) p -> In q (into_inner p) ->
  Forall (fun e => rule_of e = Some (p_rule q) -> e = child) (tops b) -> at_ inp child q.
Proof.
  intros Hp Hq HF. destruct (at_step _ _ _ _ _ Hp Hq) as (e & He & Ha). rewrite Forall_forall in HF.
  rewrite <- (HF e He (eq_sym (at_rule _ _ _ Ha))). exact Ha.
Qed.
Ltac child Hp Hq Hr := eapply at_child; [exact Hp|first [exact Hq|rewrite Hq; cbn [In app]; auto]|rewrite Hr; cbv -[s]; repeat constructor; intros; (discriminate || reflexivity)].
Lemma at_den {A} inp e q (R : reader A) (den : pair -> A -> Prop) :
  (forall i m ps, E e i m ps -> exists a, R i (fin m) a /\ SynEval.one den a ps) -> at_ inp e q -> exists a, den q a.
Proof.
  intros HB (pre & t & r & -> & H & _). destruct (HB (t ++ r) r [q]) as (a & _ & q' & Hq & Hd); [eexists _, _; exact H|]. injection Hq as <-. eauto.
Qed.
Lemma written_impl {A} inp sp (R S : reader A) a : (forall i, R i [] a -> S i [] a) -> written inp sp R a -> written inp sp S a.
Proof. intros H (pre & t & g & rest & H1 & H2 & H3 & H4). exists pre, t, g, rest. auto. Qed.
(** The text of a rule that is a choice between rules is the text of the chosen one. *)
Lemma at_wrap inp rl a b p q : (exists r1 y1 b1 r2 y2 b2, a = ERule r1 y1 b1 /\ b = ERule r2 y2 b2) ->
  at_ inp (N_ rl (EAlt a b)) p -> In q (into_inner p) -> span_of q = span_of p /\ as_str q = as_str p.
Proof.
  intros (r1 & y1 & b1 & r2 & y2 & b2 & -> & ->) (pre & t & r & _ & H & _ & Ht & Hs) Hq. rewrite eval_normal in H.
  destruct (eval skip (EAlt (ERule r1 y1 b1) (ERule r2 y2 b2)) NonAtomic (blen pre) (t ++ r)) as [t1 m1 ps1| |] eqn:E1; try discriminate.
  rewrite emit_ok in H by discriminate. injection H as -> -> <-. cbn [into_inner] in Hq. rewrite Ht, Hs.
  assert (Hr : forall rr ty bb, eval skip (ERule rr ty bb) NonAtomic (blen pre) (t ++ r) = ROk t r ps1 -> span_of q = (blen pre, blen pre + blen t) /\ as_str q = t).
  { intros rr ty bb. destruct ty; cbn [eval]; (destruct (eval skip bb _ (blen pre) (t ++ r)) as [t2 m2 ps2| |]; cbn [emit]; try discriminate);
    intros [= -> -> <-]; destruct Hq as [<-|[]]; cbn; auto. }
  rewrite eval_alt in E1. destruct (eval skip (ERule r1 y1 b1) NonAtomic (blen pre) (t ++ r)) as [t1 m1 ps2| |] eqn:E2; try discriminate.
  - apply (Hr r1 y1 b1). rewrite E2. exact E1.
  - apply (Hr r2 y2 b2). exact E1.
Qed.

(** ** Identifiers *)
Lemma ident_src inp i : src inp ident parse_ident i -> written inp (id_span i) name (id_str i).
Proof.
  intros (p & Hp & H). destruct (at_written inp ident p name d_ident name_local B_ident Hp) as (w & Hw & Hd).
  destruct (build_ident _ _ Hd) as (i' & Hi & Hs). rewrite H in Hi. injection Hi as <-. rewrite Hs.
  replace (id_span i) with (span_of p); [exact Hw|]. destruct Hd as (_ & q & Hq & Hd).
  assert (span_of q = span_of p) as <-.
  { eapply at_wrap; [|exact Hp|rewrite Hq; left; reflexivity]. repeat eexists. }
  unfold parse_ident in H. rewrite Hq in H. destruct Hd as [[Hr _]|[Hr _]]; rewrite Hr in H; injection H as <-; reflexivity.
Qed.

(** ** Values, attributes, properties *)
Lemma svar_written inp q : at_ inp spaced_var q -> written inp (span_of q) phrase (as_str q).
Proof.
  intros H. destruct (at_written inp spaced_var q phrase (d_leaf R_spaced_var) phrase_local B_svar H) as (w & Hw & _ & <-). exact Hw.
Qed.
Lemma dqs_written inp q : at_ inp double_quoted_string q -> written inp (span_of q) (quote dq) (pairs_as_str (into_inner q)).
Proof.
  intros H. destruct (at_written inp double_quoted_string q (quote dq) d_dqs (quote_local dq)) as (w & Hw & Hd); [|exact H|].
  - intros i m ps HE. rewrite dqs_rule in HE. apply (B_quoted _ _ dq _ _ _ ok_dq HE).
  - rewrite (quoted_text _ _ _ _ Hd). exact Hw.
Qed.
Lemma value_written inp q v : at_ inp value q -> parse_value q = Ok v -> written inp (span_of q) literal_r v.
Proof.
  intros H Hv. destruct (at_written inp value q literal_r d_value literal_local B_value H) as (w & Hw & Hd).
  pose proof (gives_meaning _ _ _ _ _ (build_value _ _ Hd) Hv) as <-. exact Hw.
Qed.
Definition attr_parts (inp : str) (k : ident_t) (o : option literal) : Prop :=
  written inp (id_span k) phrase (id_str k) /\ forall l, o = Some l -> written inp (lit_span l) value_text (lit_value l).
Lemma attr_parts_ok inp e rl b p a x : e = N_ rl b -> at_ inp e p ->
  Forall (fun e => (rule_of e = Some R_spaced_var -> e = spaced_var) /\ (rule_of e = Some R_value -> e = value) /\
            (rule_of e = Some R_double_quoted_string -> e = double_quoted_string)) (tops b) ->
  (exists k, d_leaf R_spaced_var k (fst a) /\ fst a <> [] /\
    match snd a with None => into_inner p = [k] | Some v => exists y, into_inner p = [k; y] /\ d_attr_val y v end) ->
  parse_attribute p = Ok x -> at_span x = span_of p /\ attr_parts inp (at_key x) (at_value x).
Proof.
  intros -> Hp HF (k & [Hr Hs] & Hne & Ho) H. unfold parse_attribute in H. rewrite Forall_forall in HF.
  assert (HC : forall q, In q (into_inner p) -> (p_rule q = R_spaced_var -> at_ inp spaced_var q) /\ (p_rule q = R_value -> at_ inp value q) /\
            (p_rule q = R_double_quoted_string -> at_ inp double_quoted_string q)).
  { intros q Hq. destruct (at_step _ _ _ _ _ Hp Hq) as (e & He & Ha). destruct (HF e He) as (F1 & F2 & F3). pose proof (at_rule _ _ _ Ha) as Hra.
    repeat split; intros Hrq; rewrite Hrq in Hra; symmetry in Hra; [apply F1 in Hra|apply F2 in Hra|apply F3 in Hra]; subst e; exact Ha. }
  assert (Hk : In k (into_inner p)) by (destruct (snd a); [destruct Ho as (y & -> & _)|rewrite Ho]; left; reflexivity).
  pose proof (svar_written inp k (proj1 (HC k Hk) Hr)) as Wk.
  destruct (snd a) as [v|].
  - destruct Ho as (y & Hi & Hy). assert (Hyin : In y (into_inner p)) by (rewrite Hi; right; left; reflexivity).
    destruct (HC y Hyin) as (C1 & C2 & C3). rewrite Hi in H. cbn [try_fold] in H. rewrite Hr in H. cbn [id_raw at_key ident0 bind at_span at_value] in H.
    rewrite Hs in *. destruct Hy as [Hy|[(w & [Hyr Hys] & ->)|(w & Hy & ->)]].
    + rewrite (proj1 Hy) in H. destruct (parse_value y) as [v'| |] eqn:Ev; try discriminate. cbn [bind] in H. injection H as <-.
      cbn [at_span at_key at_value id_span id_str]. split; [reflexivity|]. split; [exact Wk|]. intros l [= <-]. cbn [lit_span lit_value].
      eapply written_impl; [|exact (value_written inp y v' (C2 (proj1 Hy)) Ev)]. left. assumption.
    + rewrite Hyr in H. cbn [id_raw] in H. destruct (fst a) as [|c w']; [congruence|]. cbn [bind] in H. injection H as <-.
      cbn [at_span at_key at_value id_span id_str]. split; [reflexivity|]. split; [exact Wk|]. intros l [= <-]. cbn [lit_span lit_value].
      destruct (svar_written inp y (C1 Hyr)) as (pre & t & g & rest & W1 & W2 & W3 & W4). exists pre, t, g, rest. repeat split; try assumption. right. left. eauto.
    + rewrite (proj1 Hy) in H. cbn [bind] in H. injection H as <-.
      cbn [at_span at_key at_value id_span id_str]. split; [reflexivity|]. split; [exact Wk|]. intros l [= <-]. cbn [lit_span lit_value].
      destruct (dqs_written inp y (C3 (proj1 Hy))) as (pre & t & g & rest & W1 & W2 & W3 & W4). exists pre, t, g, rest. repeat split; try assumption. right. right. eauto.
  - rewrite Ho in H. cbn [try_fold] in H. rewrite Hr in H. cbn [id_raw at_key ident0 bind at_span at_value] in H. injection H as <-.
    cbn [at_span at_key at_value id_span id_str]. split; [reflexivity|]. split; [exact Wk|]. intros l [=].
Qed.
Lemma attribute_src inp a : src inp attribute parse_attribute a ->
  written inp (at_span a) attr (e_attr a) /\ attr_parts inp (at_key a) (at_value a).
Proof.
  intros (p & Hp & H). destruct (at_written inp attribute p attr d_attr attr_local B_attr Hp) as (x & Hx & Hd).
  pose proof (gives_meaning _ _ _ _ _ (build_attribute _ _ Hd) H) as He.
  destruct (attr_parts_ok inp attribute R_attribute _ p x a eq_refl Hp) as [Hs HP]; [|exact (proj2 Hd)|exact H|].
  - cbv -[s]. repeat constructor; intros; (discriminate || reflexivity).
  - rewrite Hs, He. auto.
Qed.
Lemma property_local' : local property_text.
Proof.
  apply local_of. intros i r z x (m & m' & H1 & H2 & H3).
  assert (L : local value_text).
  { apply local_of. intros i0 r0 z0 v [H|[(w & -> & H)|(w & -> & H)]];
      [apply (r_split _ _ _ _ _ literal_local) in H|apply (r_split _ _ _ _ _ phrase_local) in H|apply (r_split _ _ _ _ _ (quote_local dq)) in H];
      destruct H as (j & -> & H); (exists j; split; [reflexivity|]); unfold value_text; eauto. }
  apply (r_split _ _ _ _ _ L) in H3 as (j & -> & H3). apply (p_split _ _ _ _ (tok_local (s ":"))) in H2 as (k & -> & H2).
  apply (r_split _ _ _ _ _ phrase_local) in H1 as (l & -> & H1). exists l. split; [reflexivity|]. exists k, j. auto.
Qed.
Lemma property_src inp a : src inp property parse_property a ->
  written inp (pr_span a) property_text (e_prop a) /\ attr_parts inp (pr_key a) (Some (pr_value a)).
Proof.
  intros (p & Hp & H). destruct (at_written inp property p property_text d_prop property_local') as (x & Hx & Hd); [|exact Hp|].
  - intros i m ps HE. apply B_property in HE as (k & v & m1 & m2 & Hk & Ht & Hv & Hd). exists (k, v). split; [|exact Hd].
    exists m1, m2. split; [exact Hk|]. split; [exact Ht|]. destruct Hv as [Hv|(w & Hw & _ & Hv)]; [left; exact Hv|right; left; eauto].
  - pose proof (gives_meaning _ _ _ _ _ (build_property _ _ Hd) H) as He. rewrite He. unfold parse_property in H. apply bind_inv in H as (y & Hy & H).
    destruct (at_value y) as [v|] eqn:Ev; [|discriminate]. injection H as <-. destruct x as [kk vv]. destruct Hd as (_ & k & y' & Hk & Hne & Hi & Hyy).
    destruct (attr_parts_ok inp property R_property _ p (kk, Some vv) y eq_refl Hp) as [Hs HP]; [| |exact Hy|].
    + cbv -[s]. repeat constructor; intros; (discriminate || reflexivity).
    + exists k. split; [exact Hk|]. split; [exact Hne|]. cbn [snd fst] in *. exists y'. split; [exact Hi|]. unfold d_attr_val. tauto.
    + cbn [pr_span pr_key pr_value]. rewrite Hs. rewrite Ev in HP. auto.
Qed.
