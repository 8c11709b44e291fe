(** * LinesMain: what follows for the parser. *)

From Verif Require CharsMain.
From Verif Require Import LinesOk Answer SynVerdict.
From Verif Require Import SynMain Syntax Lines.

Lemma e_value v w : v_lines v w -> same_lines (value_to_string v) (value_to_string w).
Proof. destruct v, w; cbn [v_lines]; intros H; try discriminate H; try exact H; try (injection H as <-); try apply e_refl. Qed.
Lemma fits_v v w : v_lines v w -> fits_value v -> fits_value w.
Proof. destruct v, w; cbn; intros H; try discriminate H; auto. injection H as <-. auto. Qed.
Lemma fits_at a b : attr_lines a b -> fits_attr a -> fits_attr b.
Proof.
  destruct a as [k o], b as [k' o']. intros [_ H] Hf v [= ->]. cbn [snd] in H. destruct o as [v0|]; [|contradiction]. apply (fits_v v0); [exact H|]. apply Hf. reflexivity.
Qed.
Lemma forall_rel {A} (P : A -> A -> Prop) (Q : A -> Prop) l l' : (forall a b, P a b -> Q a -> Q b) -> Forall2 P l l' -> Forall Q l -> Forall Q l'.
Proof. intros H HF. induction HF; intros HQ; [constructor|]. inversion HQ; subst. constructor; eauto. Qed.
Lemma fits_ats o o' : attrs_lines o o' -> fits_attrs o -> fits_attrs o'.
Proof.
  intros H Hf l ->. destruct o as [l0|]; [|contradiction]. eapply forall_rel; [|exact H|exact (Hf l0 eq_refl)]. exact fits_at.
Qed.
Lemma in_rel {A} (P : A -> A -> Prop) l l' b : Forall2 P l l' -> In b l' -> exists a, In a l /\ P a b.
Proof. induction 1 as [|x y l l' Hxy HF IH]; [intros []|]. intros [<-|Hi]; [exists x; split; [left; reflexivity|exact Hxy]|]. apply IH in Hi as (a & Ha & Hp). exists a. split; [right; exact Ha|exact Hp]. Qed.
Lemma fits_ix x y : index_lines x y -> fits_index x -> fits_index y.
Proof.
  intros [_ H] [H1 H2]. split; [eapply fits_ats; eassumption|]. intros l v Hl Hi. rewrite Hl in H. destruct (x_settings x) as [l0|] eqn:E0; [|contradiction].
  destruct (in_rel _ _ _ _ H Hi) as ([k o] & Ha & [Hk Hv]). cbn [fst snd] in *. subst k. destruct o as [v0|]; [|contradiction].
  destruct (H2 l0 v0 eq_refl Ha) as (t & Ht). exists t. cbn [o_lines] in Hv. apply e_value in Hv. rewrite <- Ht in Hv. symmetry. apply e_nonl in Hv; [exact Hv|]. destruct t; nnl.
Qed.
Lemma fits_rf f g : ref_lines f g -> fits_ref f -> fits_ref g.
Proof.
  intros (_ & _ & _ & _ & H) [H1 H2]. split; [eapply fits_ats; eassumption|]. intros l k w Hl Hk Hi. rewrite Hl in H. destruct (f_settings f) as [l0|] eqn:E0; [|contradiction].
  destruct (in_rel _ _ _ _ H Hi) as ([k' o] & Ha & [Hk' Hv]). cbn [fst snd] in *. subst k'. destruct o as [v0|]; [|contradiction]. cbn [o_lines] in Hv.
  destruct v0; cbn in Hv; try discriminate Hv. injection Hv as <-. exact (H2 l0 k _ eq_refl Hk Ha).
Qed.
Lemma fits_cl c d : col_lines c d -> fits_col c -> fits_col d.
Proof.
  intros (_ & (_ & Ha & Hd) & Hs) [[F1 F2] F3]. split; [split|].
  - eapply forall_rel; [|exact Ha|exact F1]. exact fits_v.
  - rewrite <- Hd. exact F2.
  - intros st Hst. rewrite Hst in Hs. destruct (c_settings c) as [st0|]; [|contradiction]. destruct Hs as [Hs _]. eapply forall_rel; [|exact Hs|exact (F3 st0 eq_refl)]. exact fits_at.
Qed.
Lemma fits_bl a b : block_lines a b -> fits_block a -> fits_block b.
Proof.
  destruct a, b; cbn [block_lines fits_block]; try contradiction.
  - intros (_ & H & _). apply forall_rel with (1 := fun x y (K : fst x = fst y /\ v_lines (snd x) (snd y)) => fits_v _ _ (proj2 K)). exact H.
  - intros (_ & _ & H1 & H2 & _ & H3) (F1 & F2 & F3). split; [eapply fits_ats; eassumption|]. split; [eapply forall_rel; [|exact H2|exact F2]; exact fits_cl|].
    eapply forall_rel; [|exact H3|exact F3]. intros x y Hxy. apply forall_rel with (2 := Hxy). exact fits_ix.
  - intros (_ & H & _). apply fits_ats. exact H.
  - auto.
  - apply fits_rf.
  - intros (_ & H). apply forall_rel with (2 := H). intros x y [_ K]. apply fits_ats. exact K.
Qed.
Lemma fits_lines a b : schema_lines a b -> fits a -> fits b.
Proof. intros H. apply forall_rel with (2 := H). exact fits_bl. Qed.

Lemma last_rel {A} (P : A -> A -> Prop) l l' : Forall2 P l l' -> Forall2 P (last_only l) (last_only l').
Proof.
  induction 1 as [|a b l l' Hab HF IH]; [constructor|]. destruct HF as [|a2 b2 l l' H2 HF]; [constructor; [exact Hab|constructor]|exact IH].
Qed.
Lemma settle_lines a b : schema_lines a b -> schema_lines (settle a) (settle b).
Proof.
  induction 1 as [|x y a b Hxy HF IH]; [constructor|]. cbn. constructor; [|exact IH]. destruct x, y; cbn in Hxy |- *; try contradiction; try exact Hxy.
  - destruct Hxy as (H1 & H2 & H3). split; [exact H1|]. split; [exact H2|apply last_rel; exact H3].
  - destruct Hxy as (H1 & H2 & H3 & H4 & H5 & H6). repeat (split; [assumption|]). split; apply last_rel; assumption.
  - destruct Hxy as (H1 & H2 & H3 & H4). repeat (split; [assumption|]). split; [apply last_rel|]; assumption.
Qed.
Theorem lines_read t1 t2 x : same_lines t1 t2 -> parse_dbml_unchecked t1 = Some (Ok x) ->
  exists y, parse_dbml_unchecked t2 = Some (Ok y) /\ schema_lines (meaning x) (meaning y).
Proof.
  intros H Hx. destruct (accepts_iff _ _ Hx) as (a & Ha & Hf & Ex). destruct (lines_text _ _ _ H Ha) as (b & Hb & Hab).
  destruct (written_is_read t2 b Hb (fits_lines _ _ Hab Hf)) as (y & Hy & Ey). exists y. split; [exact Hy|]. rewrite Ex, Ey. apply settle_lines. exact Hab.
Qed.
Theorem lines_grammar t1 t2 : same_lines t1 t2 ->
  (parse_dbml_unchecked t1 = Some (Err ErGrammar) <-> parse_dbml_unchecked t2 = Some (Err ErGrammar)).
Proof.
  assert (K : forall u v, same_lines u v -> parse_dbml_unchecked u = Some (Err ErGrammar) -> parse_dbml_unchecked v = Some (Err ErGrammar)).
  { intros u v H. rewrite !not_dbml. intros Hu b Hb. destruct (lines_text _ _ _ (e_sym _ _ H) Hb) as (a & Ha & _). exact (Hu a Ha). }
  intros H. split; apply K; [exact H|apply e_sym; exact H].
Qed.

Theorem lines_outcome t1 t2 : same_lines t1 t2 ->
  match parse_dbml_unchecked t1, parse_dbml_unchecked t2 with
  | Some (Ok x), Some (Ok y) => schema_lines (meaning x) (meaning y)
  | Some (Err ErGrammar), Some (Err ErGrammar) => True
  | Some (Err (ErMsg _ _)), Some (Err (ErMsg _ _)) => True
  | _, _ => False
  end.
Proof.
  intros H. destruct (CharsMain.three_ways t1) as [Hn|[(a & Ha & Hf)|(a & Ha & Hf)]].
  - assert (E1 := proj2 (not_dbml t1) Hn). assert (E2 := proj1 (lines_grammar _ _ H) E1). rewrite E1, E2. exact Logic.I.
  - destruct (written_is_read t1 a Ha Hf) as (x & Hx & _). destruct (lines_read t1 t2 x H Hx) as (y & Hy & Hxy). rewrite Hx, Hy. exact Hxy.
  - destruct (too_big_only _ _ Ha Hf) as (m & sp & E1). destruct (lines_text _ _ _ H Ha) as (b & Hb & Hab).
    assert (Hf' : ~ fits b). { intros K. destruct (written_is_read t2 b Hb K) as (y & Hy & _). destruct (lines_read t2 t1 y (e_sym _ _ H) Hy) as (x & Hx & _). rewrite E1 in Hx. discriminate. }
    destruct (too_big_only _ _ Hb Hf') as (m' & sp' & E2). rewrite E1, E2. exact Logic.I.
Qed.

(** ** No breaks: the same *)
Definition flat_in (l : list str) : Prop := forall x, In x l -> on_one_line x.
Lemma flat_app l1 l2 : flat_in (l1 ++ l2) <-> flat_in l1 /\ flat_in l2.
Proof. unfold flat_in. setoid_rewrite in_app_iff. split; [intros H; split; intros x Hx; apply H; auto|intros [H1 H2] x [Hx|Hx]; auto]. Qed.
Lemma flat_cons x l : flat_in (x :: l) <-> on_one_line x /\ flat_in l.
Proof. change (x :: l) with ([x] ++ l). rewrite flat_app. split; intros [H1 H2]; (split; [|exact H2]); [apply H1; left; reflexivity|intros y [<-|[]]; exact H1]. Qed.
Lemma flat_map_in {A} (f : A -> list str) l : flat_in (flat_map f l) <-> Forall (fun a => flat_in (f a)) l.
Proof.
  induction l as [|a l IH]; cbn [flat_map]; [split; [constructor|intros _ x []]|]. rewrite flat_app, IH. split; [intros []; constructor; assumption|intros H; inversion H; auto].
Qed.
Lemma flat_eq x y : on_one_line x -> same_lines x y -> y = x.
Proof. intros H. apply e_nonl. apply Forall_forall. exact H. Qed.
Lemma o_eq {A} (P : A -> A -> Prop) (f : A -> list str) o o' : (forall a b, flat_in (f a) -> P a b -> b = a) -> flat_in (o_flat f o) -> o_lines P o o' -> o' = o.
Proof. intros H Hf Ho. destruct o, o'; cbn in *; try contradiction; [f_equal; apply H; assumption|reflexivity]. Qed.
Lemma l_eq {A} (P : A -> A -> Prop) (f : A -> list str) l l' : (forall a b, flat_in (f a) -> P a b -> b = a) -> flat_in (flat_map f l) -> Forall2 P l l' -> l' = l.
Proof.
  intros H Hf HF. rewrite flat_map_in in Hf. induction HF as [|a b l l' Hab HF IH]; [reflexivity|]. inversion Hf; subst. f_equal; [apply H; assumption|apply IH; assumption].
Qed.
Lemma s_eq x y : flat_in [x] -> same_lines x y -> y = x.
Proof. intros H. apply flat_eq. apply H. left. reflexivity. Qed.
Lemma ss_eq l l' : flat_in l -> Forall2 same_lines l l' -> l' = l.
Proof. intros H HF. induction HF as [|a b l l' Hab HF IH]; [reflexivity|]. apply flat_cons in H as [H1 H2]. f_equal; [apply flat_eq; assumption|apply IH; exact H2]. Qed.
Lemma v_eq v w : flat_in (v_flat v) -> v_lines v w -> w = v.
Proof. destruct v, w; cbn; intros Hf H; try discriminate H; try (symmetry; exact H); f_equal; apply s_eq; assumption. Qed.
Lemma at_eq a b : flat_in (attr_flat a) -> attr_lines a b -> b = a.
Proof. destruct a as [k o], b as [k' o']. intros Hf [Hk Ho]. cbn in *. subst k'. f_equal. apply (o_eq v_lines v_flat); [exact v_eq|exact Hf|exact Ho]. Qed.
Lemma ats_eq o o' : flat_in (attrs_flat o) -> attrs_lines o o' -> o' = o.
Proof. apply o_eq. intros a b. apply l_eq. exact at_eq. Qed.
Lemma decl_eq d d' : flat_in (decl_flat d) -> decl_lines d d' -> d' = d.
Proof.
  destruct d as [o n], d' as [o' n']. unfold decl_flat, decl_lines. cbn [fst snd]. rewrite flat_app. intros [F1 F2] [H1 H2]. f_equal; [apply (o_eq same_lines whole); [exact s_eq|exact F1|exact H1]|apply s_eq; assumption].
Qed.
Lemma end_eq a b : flat_in (end_flat a) -> end_lines a b -> b = a.
Proof.
  destruct a as [o n l], b as [o' n' l']. unfold end_flat, end_lines. cbn [e_schema e_table e_cols]. rewrite flat_app. intros [F1 F2] [H1 H2].
  apply (decl_eq (o, n) (o', n') F1) in H1. injection H1 as -> ->. f_equal. apply ss_eq; assumption.
Qed.
Lemma type_eq a b : flat_in (type_flat a) -> type_lines a b -> b = a.
Proof.
  destruct a as [n l d], b as [n' l' d']. unfold type_flat, type_lines. cbn [y_name y_args y_dims]. rewrite flat_app. intros [F1 F2] (H1 & H2 & ->). f_equal; [|apply (l_eq v_lines v_flat); [exact v_eq|exact F2|exact H2]].
  destruct n; try (symmetry; exact H1). destruct n'; try discriminate H1. f_equal. apply s_eq; assumption.
Qed.
Lemma col_eq a b : flat_in (col_flat a) -> col_lines a b -> b = a.
Proof.
  destruct a as [n ty st], b as [n' ty' st']. unfold col_flat, col_lines. cbn [c_name c_type c_settings]. rewrite flat_cons, flat_app. intros (F1 & F2 & F3) (H1 & H2 & H3).
  f_equal; [apply flat_eq; assumption|apply type_eq; assumption|]. revert F3 H3. apply o_eq. intros [at0 rf] [at1 rf1]. unfold col_set_lines. cbn [s_attrs s_refs]. rewrite flat_app. intros [G1 G2] [K1 K2].
  f_equal; [apply (l_eq attr_lines attr_flat); [exact at_eq|exact G1|exact K1]|]. revert G2 K2. apply l_eq. intros [x e] [x' e'] G [K1' K2']. cbn [fst snd] in *. subst x'. f_equal. apply end_eq; assumption.
Qed.
Lemma index_eq a b : flat_in (index_flat a) -> index_lines a b -> b = a.
Proof.
  destruct a as [l o], b as [l' o']. unfold index_flat, index_lines. cbn [x_cols x_settings]. rewrite flat_app. intros [F1 F2] [H1 H2]. f_equal; [|apply ats_eq; assumption].
  revert F1 H1. apply l_eq. intros [w|v] [w'|v'] G K; cbn in *; try contradiction; f_equal; [apply s_eq; assumption|apply v_eq; assumption].
Qed.
Lemma block_eq a b : flat_in (block_flat a) -> block_lines a b -> b = a.
Proof.
  destruct a as [p|t|g|v|f|e], b as [p'|t'|g'|v'|f'|e']; cbn [block_lines]; intros F H; try contradiction; f_equal; cbn [block_flat] in F; rewrite ?flat_cons, ?flat_app in F.
  - destruct p as [n props notes], p' as [n' props' notes']. unfold project_lines in H. cbn [p_name p_props p_notes] in *. destruct F as (F1 & F2 & F3), H as (H1 & H2 & H3).
    f_equal; [apply flat_eq; assumption| |apply (l_eq v_lines v_flat); [exact v_eq|exact F3|exact H3]].
    revert F2 H2. apply l_eq. intros [k v] [k' v'] G [K1 K2]. cbn [fst snd] in *. subst k'. f_equal. apply v_eq; assumption.
  - destruct t as [o n al st cols notes ixs], t' as [o' n' al' st' cols' notes' ixs']. unfold table_lines in H. cbn [t_schema t_name t_alias t_settings t_cols t_notes t_indexes] in *.
    destruct F as (F1 & F2 & F3 & F4 & F5 & F6), H as (H1 & H2 & H3 & H4 & H5 & H6). apply (decl_eq (o, n) (o', n') F1) in H1. injection H1 as -> ->.
    f_equal; [apply (o_eq same_lines whole); [exact s_eq|exact F2|exact H2]|apply ats_eq; assumption|apply (l_eq col_lines col_flat); [exact col_eq|exact F4|exact H4]|
      apply (l_eq v_lines v_flat); [exact v_eq|exact F5|exact H5]|].
    revert F6 H6. apply l_eq. intros l l'. apply l_eq. exact index_eq.
  - destruct g as [n st notes items], g' as [n' st' notes' items']. unfold group_lines in H. cbn [g_name g_settings g_notes g_items] in *. destruct F as (F1 & F2 & F3 & F4), H as (H1 & H2 & H3 & H4).
    f_equal; [apply flat_eq; assumption|apply ats_eq; assumption|apply (l_eq v_lines v_flat); [exact v_eq|exact F3|exact H3]|apply (l_eq decl_lines decl_flat); [exact decl_eq|exact F4|exact H4]].
  - apply v_eq; assumption.
  - destruct f as [n x l r st], f' as [n' x' l' r' st']. unfold ref_lines in H. cbn [f_name f_rel f_lhs f_rhs f_settings] in *. destruct F as (F1 & F2 & F3 & F4), H as (H1 & H2 & H3 & H4 & H5).
    f_equal; [apply (o_eq same_lines whole); [exact s_eq|exact F1|exact H1]|symmetry; exact H2|apply end_eq; assumption|apply end_eq; assumption|apply ats_eq; assumption].
  - destruct e as [o n vs], e' as [o' n' vs']. unfold enum_lines in H. cbn [m_schema m_name m_values] in *. destruct F as (F1 & F2), H as (H1 & H2). apply (decl_eq (o, n) (o', n') F1) in H1. injection H1 as -> ->.
    f_equal. revert F2 H2. apply l_eq. intros [k v] [k' v'] G [K1 K2]. cbn [fst snd] in *. rewrite flat_cons in G. destruct G as [G1 G2]. f_equal; [apply flat_eq; assumption|apply ats_eq; assumption].
Qed.
Lemma schema_eq a b : no_breaks a -> schema_lines a b -> b = a.
Proof.
  intros Hn H. induction H as [|x y a b Hxy H IH]; [reflexivity|]. f_equal; [apply block_eq; [|exact Hxy]; intros z Hz; apply (Hn x z); [left; reflexivity|exact Hz]|].
  apply IH. intros c z Hc. apply Hn. right. exact Hc.
Qed.
Theorem lines_same t1 t2 a : same_lines t1 t2 -> dbml_text t1 a -> no_breaks a -> dbml_text t2 a.
Proof. intros H Ha Hn. destruct (lines_text _ _ _ H Ha) as (b & Hb & Hab). apply schema_eq in Hab as ->; assumption. Qed.
Theorem lines_answer t1 t2 a : same_lines t1 t2 -> dbml_text t1 a -> no_breaks a -> same_answer (parse_dbml t1) (parse_dbml t2).
Proof. intros H Ha Hn. apply (same_text _ _ a); [exact Ha|exact (lines_same _ _ _ H Ha Hn)]. Qed.
Theorem crlf_lines t : same_lines t (crlf t).
Proof.
  induction t as [|c t IH]; cbn [crlf]; [constructor|]. destruct (N.eqb_spec c 10) as [->|Hc]; [|constructor; exact IH].
  apply (sl_break [10] [13; 10]); [exists 10, []; repeat split; [left; reflexivity|constructor]|exists 13, [10]; repeat split; [right; reflexivity|constructor; [unfold is_ws; auto|constructor]]|exact IH].
Qed.
Lemma flush_lines t : same_lines t (flush_left false t) /\ exists w x, t = w ++ x /\ Forall is_ws w /\ same_lines x (flush_left true t).
Proof.
  induction t as [|c t [IH (w & x & Et & Hw & Hx)]]; [split; [constructor|exists [], []; repeat split; constructor]|]. cbn [flush_left andb].
  destruct ((c =? 10) || (c =? 13)) eqn:Ec.
  - assert (Hc : is_nl c) by (apply orb_true_iff in Ec as [Ec|Ec]; apply N.eqb_eq in Ec; unfold is_nl; auto). split.
    + rewrite Et at 1. apply (sl_break (c :: w) [10]); [exists c, w; auto| |exact Hx]. exists 10, []. repeat split; [left; reflexivity|constructor].
    + exists (c :: w), x. split; [rewrite Et; reflexivity|]. split; [constructor; [apply nl_ws; exact Hc|exact Hw]|exact Hx].
  - split; [constructor; exact IH|]. destruct ((c =? 32) || (c =? 9)) eqn:Es.
    + exists (c :: w), x. split; [rewrite Et; reflexivity|]. split; [|exact Hx]. constructor; [|exact Hw]. apply orb_true_iff in Es as [Es|Es]; apply N.eqb_eq in Es; unfold is_ws; auto.
    + exists [], (c :: t). repeat split; [constructor|]. constructor. exact IH.
Qed.
