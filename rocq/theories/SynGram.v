(** * SynGram: the rules of the grammar read what the readers of [Syntax] describe. *)

From Verif Require Export SynLex.

Definition cat (Q1 Q2 : list pair -> Prop) (ps : list pair) : Prop := exists p1 p2, ps = p1 ++ p2 /\ Q1 p1 /\ Q2 p2.
Definition none (ps : list pair) : Prop := ps = [].
Lemma F_cat e1 e2 i m r (Q1 Q2 : list pair -> Prop) : F e1 i m Q1 -> (fin m = m -> F e2 m r Q2) -> F (ESeq e1 e2) i r (cat Q1 Q2).
Proof. intros H1 H2. eapply F_seq; [exact H1|exact H2|]. intros p1 p2 h1 h2. exists p1, p2. auto. Qed.
Lemma F_tok x i m r e Q : tok (s x) i m -> (fin m = m -> F e m r Q) -> F (ESeq (L x) e) i r Q.
Proof. intros H1 H2. eapply F_seq; [apply F_str; exact H1|exact H2|]. intros p1 p2 -> h2. exact h2. Qed.
Lemma F_end x i m r e Q : F e i m Q -> tok (s x) m r -> F (ESeq e (L x)) i r Q.
Proof. intros H1 H2. eapply F_seq; [exact H1|intros _; apply F_str; exact H2|]. intros p1 p2 h ->. rewrite app_nil_r. exact h. Qed.
Lemma F_word k i m r e Q : kw k i m -> (fin m = m -> F e m r Q) -> F (ESeq (CI k) e) i r Q.
Proof. intros H1 H2. eapply F_seq; [apply F_kw; exact H1|exact H2|]. intros p1 p2 -> h2. exact h2. Qed.
Lemma F_node rl b i r Q {A} (den : pair -> A -> Prop) a : F b i r Q ->
  (forall p, p_rule p = rl -> Q (into_inner p) -> den p a) -> F (N_ rl b) i r (one den a).
Proof.
  intros HF H. eapply F_impl; [|apply F_rule; exact HF]. intros ps (p & -> & Hr & Hq). exists p. auto.
Qed.
Lemma E_tok x e i m ps : E (ESeq (L x) e) i m ps -> exists m1, tok (s x) i m1 /\ fin m1 = m1 /\ E e m1 m ps.
Proof.
  intros H. apply E_seq in H as (m1 & ps1 & ps2 & H1 & H2 & ->). apply E_str in H1 as (Ht & ->). exists (fin m1).
  split; [exact Ht|]. split; [apply fin_fin|exact H2].
Qed.
Lemma E_word k e i m ps : E (ESeq (CI k) e) i m ps -> exists m1, kw k i m1 /\ fin m1 = m1 /\ E e m1 m ps.
Proof.
  intros H. apply E_seq in H as (m1 & ps1 & ps2 & H1 & H2 & ->). apply E_kw in H1 as (Ht & ->). exists (fin m1).
  split; [exact Ht|]. split; [apply fin_fin|exact H2].
Qed.
Lemma E_end x e i m ps : E (ESeq e (L x)) i m ps -> exists m1, E e i m1 ps /\ tok (s x) (fin m1) (fin m).
Proof.
  intros H. apply E_seq in H as (m1 & ps1 & ps2 & H1 & H2 & ->). apply E_str in H2 as (Ht & ->). exists m1.
  rewrite app_nil_r. auto.
Qed.
Lemma X_tok x e i c y : s x = c :: y -> nh c i -> X (ESeq (L x) e) i.
Proof. intros Hx H. apply X_seq1, X_str. intros m ->. apply (H (y ++ m)). rewrite Hx. reflexivity. Qed.

(** ** Attributes *)
Definition d_bare (p : pair) (v : value_t) : Prop := exists w, d_leaf R_spaced_var p w /\ v = VEnum w.
Definition d_dqv (p : pair) (v : value_t) : Prop := exists w, d_dqs p w /\ v = VString w.
Definition d_attr_val (p : pair) (v : value_t) : Prop := d_value p v \/ d_bare p v \/ d_dqv p v.
Definition d_attr (p : pair) (a : a_attr) : Prop :=
  p_rule p = R_attribute /\ exists k, d_leaf R_spaced_var k (fst a) /\ fst a <> [] /\
    match snd a with None => into_inner p = [k] | Some v => exists y, into_inner p = [k; y] /\ d_attr_val y v end.
Definition d_prop (p : pair) (a : a_prop) : Prop :=
  p_rule p = R_property /\ exists k y, d_leaf R_spaced_var k (fst a) /\ fst a <> [] /\ into_inner p = [k; y] /\
    (d_value y (snd a) \/ d_bare y (snd a)).

Lemma phrase_ne i r w : phrase i r w -> w <> [].
Proof. intros (m & _ & (c & w' & -> & _) & _). discriminate. Qed.
Lemma letter_word c : letter c -> word_char c. Proof. unfold word_char. auto. Qed.
Lemma app_cut {A} (a b c d : list A) : a ++ b = c ++ d -> (exists x, a = c ++ x /\ d = x ++ b) \/ (exists x, c = a ++ x /\ b = x ++ d /\ x <> []).
Proof.
  revert c. induction a as [|h a IH]; intros c H.
  - destruct c as [|h c]; [left; exists []; auto|]. right. exists (h :: c). split; [reflexivity|]. split; [exact H|discriminate].
  - destruct c as [|h' c]; [left; exists (h :: a); auto|]. cbn in H. injection H as -> H. apply IH in H as [(x & -> & ->)|(x & -> & -> & Hx)].
    + left. exists x. auto.
    + right. exists x. auto.
Qed.
(** A word of letters at the start of a phrase is part of it. *)
Lemma phrase_prefix w m k x : spaced_word w -> no_phrase m -> Forall word_char k -> w ++ m = k ++ x -> exists y, w = k ++ y.
Proof.
  intros Hw [Hm _] Hk H. apply app_cut in H as [(y & -> & _)|(y & -> & -> & Hy)]; [eauto|].
  destruct y as [|c y]; [congruence|]. exfalso. apply (Hm c (y ++ x) eq_refl).
  apply Forall_app in Hk as [_ Hk]. apply Forall_cons_iff in Hk as [Hk _]. exact Hk.
Qed.
Lemma word_chars_kw k : In k [s "true"; s "false"; s "null"] -> Forall word_char k.
Proof.
  cbn [In]. intros [<-|[<-|[<-|[]]]]; cbn [s]; repeat constructor; unfold word_char, letter; cbn; lia.
Qed.
Lemma X_value_bare i r v : bare i r v -> X value i.
Proof.
  intros (w & (m & -> & Hw & Hm & Hl) & Hn & ->). pose proof Hw as (c & w' & Ew & Hc & _).
  assert (Hi : forall d x, w ++ m = d :: x -> letter d) by (subst w; intros d x [= <- _]; exact Hc).
  assert (HnL : forall d, letter d -> d <> 39 /\ d <> 96 /\ d <> 35 /\ ~ digit d) by (unfold letter, digit; lia).
  apply X_rule. repeat apply X_alt.
  - apply X_string. intros x E0. apply Hi in E0. apply HnL in E0. tauto.
  - apply X_bqs. intros x E0. apply Hi in E0. apply HnL in E0. tauto.
  - intros off. apply eval_bool_fail. intros k x Hk E0. apply Hn. exists k.
    eapply phrase_prefix in E0 as (y & ->); [eauto|exact Hw|exact Hm|]. apply word_chars_kw. exact Hk.
  - apply X_number. intros d x E0. apply Hi in E0. apply HnL in E0. tauto.
  - intros off. apply eval_hex_fail. intros x E0. apply Hi in E0. apply HnL in E0. tauto.
Qed.
Lemma value_fail_bare i m w off : eval skip value NonAtomic off i = RFail -> i = w ++ m -> ~ reserved_start w.
Proof.
  intros H -> (k & x & Hk & ->). apply X_rule_inv in H. rewrite !eval_alt in H.
  destruct (eval skip string_value NonAtomic off ((k ++ x) ++ m)); try discriminate.
  destruct (eval skip backquoted_quoted_string NonAtomic off ((k ++ x) ++ m)); try discriminate.
  destruct (eval skip boolean_value NonAtomic off ((k ++ x) ++ m)) eqn:E3; try discriminate.
  rewrite <- app_assoc in E3. eapply eval_bool_fail_inv; [exact E3|exact Hk|reflexivity].
Qed.
Lemma F_bare i r v : bare i r v -> F spaced_var i r (one d_bare v).
Proof.
  intros (w & Hw & _ & ->). eapply F_impl; [|apply F_svar; exact Hw]. intros ps (p & -> & Hd). exists p. split; [reflexivity|]. exists w. auto.
Qed.
Lemma F_value_or_bare i r v : nh 39 r -> literal_r i r v \/ bare i r v ->
  F (EAlt value spaced_var) i r (one (fun p v => d_value p v \/ d_bare p v) v).
Proof.
  intros Hr [H|H].
  - apply F_alt1. eapply F_impl; [|apply F_value; eassumption]. intros ps (p & -> & Hd). exists p. auto.
  - apply F_alt2; [eapply X_value_bare; exact H|]. eapply F_impl; [|apply F_bare; eassumption]. intros ps (p & -> & Hd). exists p. auto.
Qed.
Lemma B_value_or_bare i m ps : E (EAlt value spaced_var) i m ps ->
  exists v, (literal_r i (fin m) v \/ bare i (fin m) v) /\ one (fun p v => d_value p v \/ d_bare p v) v ps.
Proof.
  intros H. apply E_alt in H as [H|[H (off & Hf)]].
  - apply B_value in H as (v & Hv & p & -> & Hd). exists v. split; [auto|]. exists p. auto.
  - apply B_svar in H as (w & Hw & p & -> & Hd). exists (VEnum w). split.
    + right. exists w. split; [exact Hw|]. split; [|reflexivity]. destruct Hw as (m' & Hi & _).
      eapply value_fail_bare; eassumption.
    + exists p. split; [reflexivity|]. right. exists w. auto.
Qed.
Lemma nh_then c1 c2 d m : then_or c1 c2 m -> d <> c1 -> d <> c2 -> nh d m.
Proof. intros (c & x & -> & [-> | ->]) H1 H2 y E0; congruence. Qed.

Lemma F_attr i r a : attr i r a -> then_or 44 93 r -> F attribute i r (one d_attr a).
Proof.
  intros [i' r' k Hk|i' m m' r' k v Hk Ht Hv] Hr.
  - eapply F_node.
    + eapply F_cat; [apply F_svar; exact Hk|]. intros Hf. apply F_opt0; [|exact Hf].
      eapply X_tok; [reflexivity|]. eapply nh_then; [exact Hr| |]; discriminate.
    + intros p Hp (p1 & p2 & Hi & (q & -> & Hd) & ->). split; [exact Hp|]. exists q. split; [exact Hd|].
      split; [eapply phrase_ne; exact Hk|]. exact Hi.
  - eapply F_node.
    + eapply F_cat; [apply F_svar; exact Hk|]. intros Hf. apply F_opt1. eapply F_tok; [exact Ht|]. intros Hf'.
      instantiate (1 := one d_attr_val v). assert (Hn : nh 39 r') by (eapply nh_then; [exact Hr| |]; discriminate).
      destruct Hv as [Hv|[Hv|(w & Hw & ->)]].
      * apply F_alt1. eapply F_impl; [|apply F_value_or_bare; [exact Hn|left; exact Hv]].
        intros ps (p & -> & Hd). exists p. unfold d_attr_val. tauto.
      * apply F_alt1. eapply F_impl; [|apply F_value_or_bare; [exact Hn|right; exact Hv]].
        intros ps (p & -> & Hd). exists p. unfold d_attr_val. tauto.
      * apply F_alt2.
        -- destruct Hw as (i1 & m1 & -> & _). apply X_alt.
           ++ apply X_value. intros c x [= <- <-]. unfold value_start, digit. lia.
           ++ intros off. apply eval_svar_fail. intros c x [= <- <-]. apply letter_34.
        -- eapply F_impl; [|rewrite dqs_rule; apply F_quoted; [apply ok_dq|exact Hw]].
           intros ps (p & -> & Hd). exists p. split; [reflexivity|]. right. right. exists w. auto.
    + intros p Hp (p1 & p2 & Hi & (q & -> & Hd) & q2 & -> & Hd2). split; [exact Hp|]. exists q. split; [exact Hd|].
      split; [eapply phrase_ne; exact Hk|]. exists q2. auto.
Qed.
Lemma B_attr i m ps : E attribute i m ps -> exists a, attr i (fin m) a /\ one d_attr a ps.
Proof.
  intros H. apply E_rule in H as (p & -> & Hp & H). apply E_seq in H as (m1 & ps1 & ps2 & H1 & H2 & Hi).
  apply B_svar in H1 as (k & Hk & q & -> & Hd). pose proof (phrase_ne _ _ _ Hk) as Hne. apply E_opt in H2 as [H2|(-> & -> & _)].
  - apply E_tok in H2 as (m2 & Ht & Hf & H2). apply E_alt in H2 as [H2|[H2 _]].
    + apply B_value_or_bare in H2 as (v & Hv & q2 & -> & Hd2). exists (k, Some v). split.
      * eapply attr_value; [exact Hk|exact Ht|]. tauto.
      * exists p. split; [reflexivity|]. split; [exact Hp|]. exists q. split; [exact Hd|]. split; [exact Hne|].
        exists q2. split; [exact Hi|]. unfold d_attr_val. tauto.
    + rewrite dqs_rule in H2. apply B_quoted in H2 as (w & Hw & q2 & -> & Hd2); [|apply ok_dq]. exists (k, Some (VString w)). split.
      * eapply attr_value; [exact Hk|exact Ht|]. eauto.
      * exists p. split; [reflexivity|]. split; [exact Hp|]. exists q. split; [exact Hd|]. split; [exact Hne|].
        exists q2. split; [exact Hi|]. right. right. exists w. auto.
  - exists (k, None). rewrite fin_fin. split; [constructor; exact Hk|]. exists p. split; [reflexivity|]. split; [exact Hp|].
    exists q. auto.
Qed.
Lemma X_attr i : (forall c x, i = c :: x -> ~ letter c) -> X attribute i.
Proof. intros H. apply X_rule, X_seq1. intros off. apply eval_svar_fail. exact H. Qed.

Lemma F_property i r a : property_r i r a -> nh 39 r -> F property i r (one d_prop a).
Proof.
  destruct a as [k v]. intros (m & m' & Hk & Ht & Hv & _) Hr. cbn [fst snd] in *. eapply F_node.
  - eapply F_cat; [apply F_svar; exact Hk|]. intros _. eapply F_tok; [exact Ht|]. intros _. apply F_value_or_bare; eassumption.
  - intros p Hp (p1 & p2 & Hi & (q & -> & Hd) & q2 & -> & Hd2). split; [exact Hp|]. exists q, q2. cbn [fst snd].
    split; [exact Hd|]. split; [eapply phrase_ne; exact Hk|]. split; [exact Hi|exact Hd2].
Qed.
(** Backwards, without the clause that excludes notes. *)
Lemma B_property i m ps : E property i m ps -> exists k v m1 m2, phrase i m1 k /\ tok (s ":") m1 m2 /\
  (literal_r m2 (fin m) v \/ bare m2 (fin m) v) /\ one d_prop (k, v) ps.
Proof.
  intros H. apply E_rule in H as (p & -> & Hp & H). apply E_seq in H as (m1 & ps1 & ps2 & H1 & H2 & Hi).
  apply B_svar in H1 as (k & Hk & q & -> & Hd). apply E_tok in H2 as (m2 & Ht & _ & H2).
  apply B_value_or_bare in H2 as (v & Hv & q2 & -> & Hd2). exists k, v, (fin m1), m2. split; [exact Hk|]. split; [exact Ht|].
  split; [exact Hv|]. exists p. split; [reflexivity|]. split; [exact Hp|]. exists q, q2. cbn [fst snd].
  split; [exact Hd|]. split; [eapply phrase_ne; exact Hk|]. split; [exact Hi|exact Hd2].
Qed.

(** Settings lists *)
Definition d_settings (rl : rule) (p : pair) (l : list a_attr) : Prop := p_rule p = rl /\ Forall2 d_attr (into_inner p) l.
Lemma F_settings rl i r l : attrs i r l -> F (N_ rl (bracketed attribute)) i r (one (d_settings rl) l).
Proof.
  intros H. eapply F_node; [eapply (F_bracketed attr attribute d_attr)|].
  - reflexivity.
  - apply F_attr.
  - intros y. apply X_attr. intros c x [= <- <-]. unfold letter. lia.
  - exact H.
  - intros p Hp HF. split; assumption.
Qed.
Lemma B_settings rl i m ps : E (N_ rl (bracketed attribute)) i m ps -> exists l, attrs i (fin m) l /\ one (d_settings rl) l ps.
Proof.
  intros H. apply E_rule in H as (p & -> & Hp & H). eapply B_bracketed in H as (l & Hl & HF); [|apply B_attr].
  exists l. split; [exact Hl|]. exists p. split; [reflexivity|]. split; assumption.
Qed.
Lemma X_settings rl i : nh 91 i -> X (N_ rl (bracketed attribute)) i.
Proof. intros H. apply X_rule, X_bracketed. exact H. Qed.
Lemma attrs_first i r l : attrs i r l -> exists x, i = 91 :: x.
Proof. intros H. apply listed_bracket in H as (m & m' & (x & -> & _) & _). eexists. reflexivity. Qed.
Definition no_more : str -> Prop := fun _ => True.
Lemma F_maybe_settings rl i r o : fin i = i -> maybe attrs i r o -> nh 91 r ->
  F (EOpt (N_ rl (bracketed attribute))) i r (opt_den (d_settings rl) o).
Proof.
  intros Hi Hm Hr. eapply (F_maybe attrs _ (d_settings rl) (fun _ => True)); auto.
  - intros i0 m0 a0 H _. apply F_settings. exact H.
  - intros ->. inversion Hm; subst. apply X_settings. exact Hr.
Qed.
Lemma B_maybe_settings rl i m ps : fin i = i -> E (EOpt (N_ rl (bracketed attribute))) i m ps ->
  exists o, maybe attrs i (fin m) o /\ opt_den (d_settings rl) o ps.
Proof. apply B_maybe. apply B_settings. Qed.

(** ** Names with a schema *)
Definition d_decl (p : pair) (d : option str * str) : Prop :=
  p_rule p = R_decl_ident /\
  match fst d with
  | None => exists x, into_inner p = [x] /\ d_ident x (snd d)
  | Some sc => exists x y, into_inner p = [x; y] /\ d_ident x sc /\ d_ident y (snd d)
  end.
Lemma F_decl i r d : decl_name i r d -> nh 46 r -> F decl_ident i r (one d_decl d).
Proof.
  destruct d as [[sc|] n]; cbn [decl_name].
  - intros (m & m' & H1 & Ht & H2) Hr. eapply F_node.
    + eapply F_cat; [apply F_ident; exact H1|]. intros _. apply F_opt1. eapply F_tok; [exact Ht|]. intros _. apply F_ident. exact H2.
    + intros p Hp (p1 & p2 & Hi & (x & -> & Hx) & y & -> & Hy). split; [exact Hp|]. exists x, y. auto.
  - intros H Hr. eapply F_node.
    + eapply F_cat; [apply F_ident; exact H|]. intros Hf. apply F_opt0; [|exact Hf]. eapply X_tok; [reflexivity|exact Hr].
    + intros p Hp (p1 & p2 & Hi & (x & -> & Hx) & ->). split; [exact Hp|]. exists x. auto.
Qed.
Lemma B_decl i m ps : E decl_ident i m ps -> exists d, decl_name i (fin m) d /\ one d_decl d ps.
Proof.
  intros H. apply E_rule in H as (p & -> & Hp & H). apply E_seq in H as (m1 & ps1 & ps2 & H1 & H2 & Hi).
  apply B_ident in H1 as (n & Hn & x & -> & Hx). apply E_opt in H2 as [H2|(-> & -> & _)].
  - apply E_tok in H2 as (m2 & Ht & _ & H2). apply B_ident in H2 as (n2 & Hn2 & y & -> & Hy).
    exists (Some n, n2). split; [exists (fin m1), m2; auto|]. exists p. split; [reflexivity|]. split; [exact Hp|]. exists x, y. auto.
  - exists (None, n). rewrite fin_fin. split; [exact Hn|]. exists p. split; [reflexivity|]. split; [exact Hp|]. exists x. auto.
Qed.
Lemma decl_first i r d : decl_name i r d -> hd_in name_start i.
Proof. destruct d as [[sc|] n]; cbn [decl_name]; [intros (m & m' & H & _)|intros H]; eapply name_first; exact H. Qed.

(** ** References *)
Definition d_rel (p : pair) (x : relation_t) : Prop := exists t, d_leaf R_relation p t /\ symbol x = Some t.
Definition d_comp (p : pair) (l : list str) : Prop := p_rule p = R_ref_composition /\ Forall2 d_ident (into_inner p) l.
Definition d_end (p : pair) (e : a_end) : Prop :=
  p_rule p = R_ref_ident /\
  match e_schema e with
  | None => exists x y, into_inner p = [x; y] /\ d_ident x (e_table e) /\ d_comp y (e_cols e)
  | Some sc => exists x y z, into_inner p = [x; y; z] /\ d_ident x sc /\ d_ident y (e_table e) /\ d_comp z (e_cols e)
  end.
Definition d_inline (p : pair) (x : a_inline) : Prop :=
  p_rule p = R_ref_inline /\ exists a b, into_inner p = [a; b] /\ d_rel a (fst x) /\ d_end b (snd x).

Lemma eval_relation off i : eval skip relation NonAtomic off i =
  emit NonAtomic R_relation off
    match strip_prefix (s "<>") i with Some r => ROk (s "<>") r [] | None =>
    match strip_prefix (s "-") i with Some r => ROk (s "-") r [] | None =>
    match strip_prefix (s ">") i with Some r => ROk (s ">") r [] | None =>
    match strip_prefix (s "<") i with Some r => ROk (s "<") r [] | None => RFail end end end end.
Proof.
  unfold relation, L. rewrite eval_atomic, !eval_alt, !eval_str.
  destruct (strip_prefix (s "<>") i) as [r1|]; [reflexivity|]. destruct (strip_prefix (s "-") i) as [r1|]; [reflexivity|].
  destruct (strip_prefix (s ">") i) as [r1|]; reflexivity.
Qed.
Lemma name_not c d i : hd_in name_start i -> d <> 34 -> ~ letter d -> i = c -> nh d c.
Proof. intros (h & x & -> & Hh) H1 H2 <- y [= -> _]. destruct Hh; tauto. Qed.
Lemma hd_nh d i (P : char -> Prop) : hd_in P i -> ~ P d -> nh d i.
Proof. intros (h & x & -> & Hh) H2 y [= -> _]. tauto. Qed.
Lemma F_rel i r x : rel i r x -> nh 62 r -> F relation i r (one d_rel x).
Proof.
  intros (t & Hs & m & -> & Hl) Hr. 
  assert (Hm : nh 62 m).
  { intros y ->. apply lay_solid in Hl; [|apply solid_char; [not_ws|discriminate]]. subst r. apply (Hr y eq_refl). }
  eapply F_impl with (Q := one (d_leaf R_relation) t); [intros ps (p & -> & Hd); exists p; split; [reflexivity|]; exists t; auto|].
  eapply F_leaf; [|exact Hl]. intros off. rewrite eval_relation. f_equal.
  destruct x; cbn [symbol] in Hs; try discriminate; injection Hs as <-; try reflexivity.
  cbn [s app strip_prefix]. change (N_of_ascii "<") with 60. change (N_of_ascii ">") with 62. change (N_of_ascii "-") with 45. rewrite N.eqb_refl.
  destruct m as [|c m]; [reflexivity|]. destruct (N.eqb_spec 62 c) as [<-|]; [destruct (Hm m eq_refl)|reflexivity].
Qed.
Lemma B_rel i m ps : E relation i m ps -> exists x, rel i (fin m) x /\ one d_rel x ps.
Proof.
  intros (off & t & H). rewrite eval_relation in H.
  assert (Hx : exists w x, i = w ++ m /\ symbol x = Some w /\ emit NonAtomic R_relation off (ROk w m []) = ROk t m ps).
  { destruct (strip_prefix (s "<>") i) as [r|] eqn:E1; [|destruct (strip_prefix (s "-") i) as [r|] eqn:E2;
      [|destruct (strip_prefix (s ">") i) as [r|] eqn:E3; [|destruct (strip_prefix (s "<") i) as [r|] eqn:E4; [|discriminate]]]];
      (assert (Hm : r = m) by (cbn [emit] in H; congruence)); subst r.
    - apply strip_prefix_spec in E1. exists (s "<>"), Many2Many. auto.
    - apply strip_prefix_spec in E2. exists (s "-"), One2One. auto.
    - apply strip_prefix_spec in E3. exists (s ">"), Many2One. auto.
    - apply strip_prefix_spec in E4. exists (s "<"), One2Many. auto. }
  destruct Hx as (w & x & -> & Hs & He). apply E_leaf in He as (_ & p & -> & Hd). exists x. split.
  - exists w. split; [exact Hs|]. exists m. split; [reflexivity|apply lay_of].
  - exists p. split; [reflexivity|]. exists w. auto.
Qed.
Lemma rel_first i r x : rel i r x -> hd_in (fun c => c = 60 \/ c = 45 \/ c = 62) i.
Proof.
  intros (t & Hs & m & -> & _). destruct x; cbn [symbol] in Hs; try discriminate; injection Hs as <-; eexists _, _; (split; [reflexivity|]); auto.
Qed.
Lemma X_rel i : (forall c x, i = c :: x -> c <> 60 /\ c <> 45 /\ c <> 62) -> X relation i.
Proof.
  intros H off. rewrite eval_relation.
  rewrite !starts_none; [reflexivity|..]; intros m E0; edestruct H as (H1 & H2 & H3); try exact E0;
  (destruct (H1 eq_refl) || destruct (H2 eq_refl) || destruct (H3 eq_refl)).
Qed.

Lemma F_names i r l : commas name i r l -> then_or 41 41 r -> F (comma_list ident) i r (fun ps => Forall2 d_ident ps l).
Proof.
  intros H Hr. eapply (F_commas name ident d_ident 41); try eassumption; [discriminate|reflexivity|].
  intros i0 m0 a0 H0 _. apply F_ident. exact H0.
Qed.
Lemma E_assoc a b c i m ps : E (ESeq a (ESeq b c)) i m ps -> E (ESeq (ESeq a b) c) i m ps.
Proof.
  intros (off & t & H). exists off, t. rewrite eval_seq in H. rewrite eval_seq, eval_seq.
  destruct (eval skip a NonAtomic off i) as [t1 m1 p1| |]; try discriminate. destruct (skipf NonAtomic m1) as [g i2].
  rewrite eval_seq in H. destruct (eval skip b NonAtomic (off + blen t1 + blen g) i2) as [t2 m2 p2| |]; try discriminate.
  destruct (skipf NonAtomic m2) as [g2 i3].
  replace (off + blen (t1 ++ g ++ t2) + blen g2) with (off + blen t1 + blen g + blen t2 + blen g2) by (rewrite !blen_app; lia).
  destruct (eval skip c NonAtomic (off + blen t1 + blen g + blen t2 + blen g2) i3) as [t3 m3 p3| |]; try discriminate.
  rewrite <- !app_assoc. exact H.
Qed.
Lemma F_assoc a b c i r Q : F (ESeq (ESeq a b) c) i r Q -> F (ESeq a (ESeq b c)) i r Q.
Proof.
  intros HF off. destruct (HF off) as (t & m & ps & H & Hl & HQ). exists t, m, ps. split; [|auto]. rewrite <- H.
  rewrite !eval_seq.
  destruct (eval skip a NonAtomic off i) as [t1 m1 p1| |]; try reflexivity. destruct (skipf NonAtomic m1) as [g i2].
  rewrite eval_seq. destruct (eval skip b NonAtomic (off + blen t1 + blen g) i2) as [t2 m2 p2| |]; try reflexivity.
  destruct (skipf NonAtomic m2) as [g2 i3].
  replace (off + blen (t1 ++ g ++ t2) + blen g2) with (off + blen t1 + blen g + blen t2 + blen g2) by (rewrite !blen_app; lia).
  destruct (eval skip c NonAtomic (off + blen t1 + blen g + blen t2 + blen g2) i3) as [t3 m3 p3| |]; try reflexivity.
  rewrite <- !app_assoc. reflexivity.
Qed.
Lemma F_columns i r l : columns i r l -> F ref_composition i r (one d_comp l).
Proof.
  intros [i' r' c Hc|i' m m' r' l' Ht Hl Ht2].
  - eapply F_node; [apply F_alt1, F_ident; exact Hc|]. intros p Hp (q & Hq & Hd). split; [exact Hp|]. rewrite Hq. constructor; [exact Hd|constructor].
  - eapply F_node; [apply F_alt2|].
    + destruct Ht as (x & -> & _). apply X_ident. intros c y [= <- _]. unfold name_start, letter. cbn. lia.
    + eapply F_tok; [exact Ht|]. intros _. apply F_assoc. eapply F_end; [|exact Ht2]. apply F_names; [exact Hl|].
      destruct Ht2 as (x & -> & _). exists 41, x. auto.
    + intros p Hp HF. split; assumption.
Qed.
Lemma B_columns i m ps : E ref_composition i m ps -> exists l, columns i (fin m) l /\ one d_comp l ps.
Proof.
  intros H. apply E_rule in H as (p & -> & Hp & H). apply E_alt in H as [H|[H _]].
  - apply B_ident in H as (n & Hn & q & Hq & Hd). exists [n]. split; [constructor; exact Hn|]. exists p. split; [reflexivity|]. split; [exact Hp|].
    rewrite Hq. constructor; [exact Hd|constructor].
  - apply E_tok in H as (m1 & Ht & _ & H). apply E_assoc in H. apply E_end in H as (m2 & H & Ht2).
    eapply (B_commas name ident d_ident) in H as (l & Hl & HF); [|apply B_ident].
    exists l. split; [econstructor; eassumption|]. exists p. split; [reflexivity|]. split; assumption.
Qed.
Lemma columns_cases i r l : columns i r l -> (exists n, name i r n) \/ exists x, i = 40 :: x.
Proof. intros [i' r' c Hc|i' m m' r' l' (x & -> & _) Hl Ht2]; [eauto|right; eexists; reflexivity]. Qed.
Lemma F_endpoint i r e : endpoint i r e -> nh 46 r -> F ref_ident i r (one d_end e).
Proof.
  intros [i' m1 m2 r' t l H1 Ht Hl|i' m1 m2 m3 m4 r' sc t l H1 Ht H2 Ht2 Hl] Hr.
  - eapply F_node.
    + eapply F_cat; [apply F_ident; exact H1|]. intros _. eapply F_tok; [exact Ht|]. intros Hf.
      eapply F_cat with (m := m2); [|intros _; apply F_columns; exact Hl]. apply F_opt0; [|exact Hf].
      apply columns_cases in Hl as [(n & Hn)|(x & ->)].
      * eapply X_seq2; [apply F_ident; exact Hn|]. apply X_str. intros m E0. apply (Hr m). exact E0.
      * apply X_seq1, X_ident. intros c y [= <- _]. unfold name_start, letter. lia.
    + intros p Hp (p1 & p2 & Hi & (x & -> & Hx) & p3 & p4 & -> & -> & y & -> & Hy). split; [exact Hp|]. exists x, y. auto.
  - eapply F_node.
    + eapply F_cat; [apply F_ident; exact H1|]. intros _. eapply F_tok; [exact Ht|]. intros Hf.
      eapply F_cat with (m := m4); [|intros _; apply F_columns; exact Hl]. apply F_opt1.
      eapply F_end; [apply F_ident; exact H2|exact Ht2].
    + intros p Hp (p1 & p2 & Hi & (x & -> & Hx) & p3 & p4 & -> & (y & -> & Hy) & z & -> & Hz). split; [exact Hp|]. exists x, y, z. auto.
Qed.
Lemma B_endpoint i m ps : E ref_ident i m ps -> exists e, endpoint i (fin m) e /\ one d_end e ps.
Proof.
  intros H. apply E_rule in H as (p & -> & Hp & H). apply E_seq in H as (m1 & ps1 & ps2 & H1 & H2 & Hi).
  apply B_ident in H1 as (n & Hn & x & -> & Hx). apply E_tok in H2 as (m2 & Ht & Hf & H2).
  apply E_seq in H2 as (m3 & ps3 & ps4 & H2 & H3 & ->). apply B_columns in H3 as (l & Hl & z & -> & Hz).
  apply E_opt in H2 as [H2|(-> & -> & _)].
  - apply E_end in H2 as (m4 & H2 & Ht2). apply B_ident in H2 as (n2 & Hn2 & y & -> & Hy).
    exists (mkEnd (Some n) n2 l). split; [econstructor; eassumption|]. exists p. split; [reflexivity|]. split; [exact Hp|]. exists x, y, z. auto.
  - rewrite Hf in Hl. exists (mkEnd None n l). split; [econstructor; eassumption|]. exists p. split; [reflexivity|]. split; [exact Hp|]. exists x, z. auto.
Qed.
Lemma endpoint_first i r e : endpoint i r e -> hd_in name_start i.
Proof. intros [i' m1 m2 r' t l H1 Ht Hl|i' m1 m2 m3 m4 r' sc t l H1 Ht H2 Ht2 Hl]; eapply name_first; exact H1. Qed.

Lemma name_start_not c : c = 60 \/ c = 45 \/ c = 62 \/ c = 46 \/ c = 58 \/ c = 91 \/ c = 93 \/ c = 123 \/ c = 125 \/ c = 39 \/ c = 44 \/ c = 40 \/ c = 41 \/ c = 96 -> ~ name_start c.
Proof. unfold name_start, letter. lia. Qed.
Lemma F_inline i r x : inline i r x -> nh 46 r -> F ref_inline i r (one d_inline x).
Proof.
  intros [i' m1 m2 m3 r' y e H1 H2 H3 H4] Hr. eapply F_node.
  - eapply F_tok; [exact H1|]. intros _. eapply F_tok; [exact H2|]. intros _. eapply F_cat; [apply F_rel; [exact H3|]|].
    + eapply hd_nh; [eapply endpoint_first; exact H4|]. apply name_start_not. auto.
    + intros _. apply F_endpoint; eassumption.
  - intros p Hp (p1 & p2 & Hi & (a & -> & Ha) & b & -> & Hb). split; [exact Hp|]. exists a, b. auto.
Qed.
Lemma B_inline i m ps : E ref_inline i m ps -> exists x, inline i (fin m) x /\ one d_inline x ps.
Proof.
  intros H. apply E_rule in H as (p & -> & Hp & H). apply E_tok in H as (m1 & Ht1 & _ & H). apply E_tok in H as (m2 & Ht2 & _ & H).
  apply E_seq in H as (m3 & ps1 & ps2 & H1 & H2 & Hi). apply B_rel in H1 as (x & Hx & a & -> & Ha).
  apply B_endpoint in H2 as (e & He & b & -> & Hb). exists (x, e). split; [econstructor; eassumption|].
  exists p. split; [reflexivity|]. split; [exact Hp|]. exists a, b. auto.
Qed.

Definition d_stmt (p : pair) (f : a_ref) : Prop :=
  p_rule p = R_ref_stmt /\ exists a x b st, into_inner p = [a; x; b] ++ st /\ d_end a (f_lhs f) /\ d_rel x (f_rel f) /\ d_end b (f_rhs f) /\
    opt_den (d_settings R_rel_settings) (f_settings f) st.
Definition d_ref (p : pair) (f : a_ref) : Prop :=
  p_rule p = R_ref_decl /\ exists q nm st, into_inner p = [q] /\ (p_rule q = R_ref_block \/ p_rule q = R_ref_short) /\
    into_inner q = nm ++ [st] /\ opt_den d_ident (f_name f) nm /\ d_stmt st f.

Definition rel_follow (r : str) : Prop := nh 46 r /\ nh 91 r.
Lemma F_stmt n i r f : ref_body n i r f -> rel_follow r -> F ref_stmt i r (one d_stmt f) .
Proof.
  intros [i' m1 m2 m3 r' x a b st Ha Hx Hb Hst] [Hr1 Hr2].
  assert (Hm1 : nh 46 m1) by (eapply hd_nh; [eapply rel_first; exact Hx|]; cbn; lia).
  assert (Hm2 : nh 62 m2) by (eapply hd_nh; [eapply endpoint_first; exact Hb|]; apply name_start_not; auto).
  assert (Hm3 : nh 46 m3).
  { inversion Hst; subst; [exact Hr1|]. apply attrs_first in H as (y & ->). apply nh_cons. discriminate. }
  eapply F_node.
  - eapply F_cat; [apply F_endpoint; eassumption|]. intros _. eapply F_cat; [apply F_rel; eassumption|]. intros _.
    eapply F_cat; [apply F_endpoint; eassumption|]. intros Hf. eapply F_maybe_settings; eassumption.
  - intros p Hp (p1 & p2 & Hi & (a' & -> & Ha') & p3 & p4 & -> & (x' & -> & Hx') & p5 & p6 & -> & (b' & -> & Hb') & Hs).
    split; [exact Hp|]. exists a', x', b', p6. auto 6.
Qed.
Lemma B_stmt n i m ps : E ref_stmt i m ps -> exists f, f_name f = n /\ ref_body n i (fin m) f /\ one d_stmt f ps.
Proof.
  intros H. apply E_rule in H as (p & -> & Hp & H). apply E_seq in H as (m1 & ps1 & ps2 & H1 & H2 & Hi).
  apply B_endpoint in H1 as (a & Ha & a' & -> & Ha'). apply E_seq in H2 as (m2 & ps3 & ps4 & H2 & H3 & ->).
  apply B_rel in H2 as (x & Hx & x' & -> & Hx'). apply E_seq in H3 as (m3 & ps5 & ps6 & H3 & H4 & ->).
  apply B_endpoint in H3 as (b & Hb & b' & -> & Hb'). apply B_maybe_settings in H4 as (st & Hst & Hd); [|apply fin_fin].
  exists (mkARef n x a b st). split; [reflexivity|]. split; [econstructor; eassumption|].
  exists p. split; [reflexivity|]. split; [exact Hp|]. exists a', x', b', ps6. auto 6.
Qed.
Lemma d_stmt_name p f n : d_stmt p f -> d_stmt p (mkARef n (f_rel f) (f_lhs f) (f_rhs f) (f_settings f)).
Proof. intros H. exact H. Qed.
Lemma body_name n i r f : ref_body n i r f -> f_name f = n.
Proof. intros [i' m1 m2 m3 r' x a b st Ha Hx Hb Hst]. reflexivity. Qed.
Lemma body_first n i r f : ref_body n i r f -> hd_in name_start i.
Proof. intros [i' m1 m2 m3 r' x a b st Ha Hx Hb Hst]. eapply endpoint_first. exact Ha. Qed.
Lemma F_maybe_name i r n x c y : fin i = i -> maybe name i r n -> tok (s x) r c -> s x = y :: [] -> ~ name_start y ->
  F (EOpt ident) i r (opt_den d_ident n).
Proof.
  intros Hi Hm (m & -> & _) Hx Hy. rewrite Hx in Hm |- *. eapply (F_maybe name _ d_ident (fun _ => True)); auto.
  - intros i0 m0 a0 H _. apply F_ident. exact H.
  - intros ->. inversion Hm; subst. apply X_ident. intros c' z [= <- _]. exact Hy.
Qed.
Lemma F_ref i r f : reference i r f -> rel_follow r -> F ref_decl i r (one d_ref f).
Proof.
  intros [i' m1 m2 m3 r' n a Hk Hn Ht Hb|i' m1 m2 m3 m4 r' n a Hk Hn Ht Hb Ht2] Hr.
  - eapply F_node.
    + apply F_alt2.
      * apply X_rule. eapply X_seq2; [apply F_kw; exact Hk|].
        assert (Hf : fin m1 = m1) by (destruct Hk as (? & ? & _ & _ & Hl); eapply lay_idem; exact Hl).
        eapply X_seq2; [eapply (F_maybe_name m1 m2 n ":"); try eassumption; [reflexivity|apply name_start_not; auto 8]|].
        destruct Ht as (x & -> & _). eapply X_tok; [reflexivity|]. apply nh_cons. discriminate.
      * apply F_rule. eapply F_word; [exact Hk|]. intros Hf. eapply F_cat; [eapply (F_maybe_name m1 m2 n ":"); try eassumption; [reflexivity|apply name_start_not; auto 8]|].
        intros _. eapply F_tok; [exact Ht|]. intros _. eapply F_stmt; eassumption.
    + intros p Hp (q & Hi & Hq & p1 & p2 & Hi2 & H1 & st & -> & Hst). split; [exact Hp|]. exists q, p1, st.
      rewrite (body_name _ _ _ _ Hb). auto 6.
  - assert (Hr4 : rel_follow m4) by (destruct Ht2 as (x & -> & _); split; apply nh_cons; discriminate). eapply F_node.
    + apply F_alt1. apply F_rule. eapply F_word; [exact Hk|]. intros Hf.
      eapply F_cat; [eapply (F_maybe_name m1 m2 n "{"); try eassumption; [reflexivity|apply name_start_not; auto 12]|].
      intros _. eapply F_tok; [exact Ht|]. intros _. eapply F_end; [eapply F_stmt; eassumption|exact Ht2].
    + intros p Hp (q & Hi & Hq & p1 & p2 & Hi2 & H1 & st & -> & Hst). split; [exact Hp|]. exists q, p1, st.
      rewrite (body_name _ _ _ _ Hb). auto 6.
Qed.
Lemma B_ref i m ps : E ref_decl i m ps -> exists f, reference i (fin m) f /\ one d_ref f ps.
Proof.
  intros H. apply E_rule in H as (p & -> & Hp & H). apply E_alt in H as [H|[H _]]; apply E_rule in H as (q & Hi & Hq & H);
    apply E_word in H as (m1 & Hk & Hf & H); apply E_seq in H as (m2 & ps1 & ps2 & H1 & H2 & Hi2);
    (eapply (B_maybe name ident d_ident) in H1 as (n & Hn & Hdn); [|apply B_ident|exact Hf]); apply E_tok in H2 as (m3 & Ht & _ & H2).
  - apply E_end in H2 as (m4 & H2 & Ht2). eapply (B_stmt n) in H2 as (f & Hfn & Hb & st & -> & Hst). exists f.
    split; [eapply ref_braces; eassumption|]. exists p. split; [reflexivity|]. split; [exact Hp|]. exists q, ps1, st. rewrite Hfn. auto 6.
  - eapply (B_stmt n) in H2 as (f & Hfn & Hb & st & -> & Hst). exists f.
    split; [eapply ref_colon; eassumption|]. exists p. split; [reflexivity|]. split; [exact Hp|]. exists q, ps1, st. rewrite Hfn. auto 6.
Qed.

(** ** Notes *)
Definition d_note (p : pair) (v : value_t) : Prop :=
  p_rule p = R_note_decl /\ exists q x w, into_inner p = [q] /\ (p_rule q = R_note_short \/ p_rule q = R_note_block) /\
    into_inner q = [x] /\ d_string x w /\ v = VString w.
Lemma F_note i r v : note i r v -> nh 39 r -> F note_decl i r (one d_note v).
Proof.
  intros [i' m1 m2 r' w Hk Ht Hw|i' m1 m2 m3 r' w Hk Ht Hw Ht2] Hr.
  - eapply F_node.
    + apply F_alt1, F_rule. eapply F_word; [exact Hk|]. intros _. eapply F_tok; [exact Ht|]. intros _. apply F_string; eassumption.
    + intros p Hp (q & Hi & Hq & x & Hx & Hd). split; [exact Hp|]. exists q, x, w. auto 6.
  - eapply F_node.
    + apply F_alt2.
      * apply X_rule. eapply X_seq2; [apply F_kw; exact Hk|]. destruct Ht as (y & -> & _). eapply X_tok; [reflexivity|].
        apply nh_cons. discriminate.
      * apply F_rule. eapply F_word; [exact Hk|]. intros _. eapply F_tok; [exact Ht|]. intros _.
        eapply F_end; [apply F_string; [exact Hw|]|exact Ht2]. destruct Ht2 as (y & -> & _). apply nh_cons. discriminate.
    + intros p Hp (q & Hi & Hq & x & Hx & Hd). split; [exact Hp|]. exists q, x, w. auto 6.
Qed.
Lemma B_note i m ps : E note_decl i m ps -> exists v, note i (fin m) v /\ one d_note v ps.
Proof.
  intros H. apply E_rule in H as (p & -> & Hp & H). apply E_alt in H as [H|[H _]]; apply E_rule in H as (q & Hi & Hq & H);
    apply E_word in H as (m1 & Hk & Hf & H); apply E_tok in H as (m3 & Ht & _ & H).
  - apply B_string in H as (v & Hv & x & Hx & Hd). exists (VString v). split; [econstructor; eassumption|].
    exists p. split; [reflexivity|]. split; [exact Hp|]. exists q, x, v. auto 6.
  - apply E_end in H as (m4 & H2 & Ht2). apply B_string in H2 as (v & Hv & x & Hx & Hd). exists (VString v). split; [eapply note_braces; eassumption|].
    exists p. split; [reflexivity|]. split; [exact Hp|]. exists q, x, v. auto 6.
Qed.
