(** * CharsMain: what follows for the parser. *)

From Verif Require Import CharsOk Answer SynVerdict OneMeaning ParseFacts.
From Verif Require Import SynMain Syntax Chars.

Section Rel.
Context {X : char -> char -> Prop} {G : good X}.
Notation v_chars := (v_chars X).
Notation attr_chars := (attr_chars X).
Notation attrs_chars := (attrs_chars X).
Notation decl_chars := (decl_chars X).
Notation end_chars := (end_chars X).
Notation inline_chars := (inline_chars X).
Notation type_chars := (type_chars X).
Notation col_set_chars := (col_set_chars X).
Notation col_chars := (col_chars X).
Notation index_col_chars := (index_col_chars X).
Notation index_chars := (index_chars X).
Notation table_chars := (table_chars X).
Notation enum_chars := (enum_chars X).
Notation ref_chars := (ref_chars X).
Notation group_chars := (group_chars X).
Notation project_chars := (project_chars X).
Notation block_chars := (block_chars X).
Notation schema_chars := (schema_chars X).

Lemma fits_v v w : v_chars v w -> fits_value v -> fits_value w.
Proof. destruct v, w; cbn; intros H; try discriminate H; auto. injection H as <-. auto. Qed.
Lemma fits_at a b : attr_chars a b -> fits_attr a -> fits_attr b.
Proof.
  destruct a as [k o], b as [k' o']. intros [_ H] Hf v [= ->]. cbn [snd] in H. destruct o as [v0|]; [|contradiction]. apply (fits_v v0); [exact H|]. apply Hf. reflexivity.
Qed.
Lemma forall_rel {A} (P : A -> A -> Prop) (Q : A -> Prop) l l' : (forall a b, P a b -> Q a -> Q b) -> Forall2 P l l' -> Forall Q l -> Forall Q l'.
Proof. intros H HF. induction HF; intros HQ; [constructor|]. inversion HQ; subst. constructor; eauto. Qed.
Lemma fits_ats o o' : attrs_chars o o' -> fits_attrs o -> fits_attrs o'.
Proof.
  intros H Hf l ->. destruct o as [l0|]; [|contradiction]. eapply forall_rel; [|exact H|exact (Hf l0 eq_refl)]. exact fits_at.
Qed.
Lemma in_rel {A} (P : A -> A -> Prop) l l' b : Forall2 P l l' -> In b l' -> exists a, In a l /\ P a b.
Proof. induction 1 as [|x y l l' Hxy HF IH]; [intros []|]. intros [<-|Hi]; [exists x; split; [left; reflexivity|exact Hxy]|]. apply IH in Hi as (a & Ha & Hp). exists a. split; [right; exact Ha|exact Hp]. Qed.
Lemma fits_ix x y : index_chars x y -> fits_index x -> fits_index y.
Proof.
  intros [_ H] [H1 H2]. split; [eapply fits_ats; eassumption|]. intros l v Hl Hi. rewrite Hl in H. destruct (x_settings x) as [l0|] eqn:E0; [|contradiction].
  destruct (in_rel _ _ _ _ H Hi) as ([k o] & Ha & [Hk Hv]). cbn [fst snd] in *. subst k. destruct o as [v0|]; [|contradiction].
  destruct (H2 l0 v0 eq_refl Ha) as (t & Ht). exists t. cbn [o_chars] in Hv. destruct v0, v; cbn in Hv, Ht; try discriminate Hv; try (injection Hv as <-); try exact Ht; rewrite <- Ht in Hv; cbn; symmetry; (apply e_nonl in Hv; [exact Hv|destruct t; nnl]).
Qed.
Lemma fits_rf f g : ref_chars f g -> fits_ref f -> fits_ref g.
Proof.
  intros (_ & _ & _ & _ & H) [H1 H2]. split; [eapply fits_ats; eassumption|]. intros l k w Hl Hk Hi. rewrite Hl in H. destruct (f_settings f) as [l0|] eqn:E0; [|contradiction].
  destruct (in_rel _ _ _ _ H Hi) as ([k' o] & Ha & [Hk' Hv]). cbn [fst snd] in *. subst k'. destruct o as [v0|]; [|contradiction]. cbn [o_chars] in Hv.
  destruct v0; cbn in Hv; try discriminate Hv. destruct (H2 l0 k _ eq_refl Hk Ha) as (y & Hy). exists y. rewrite Hy. symmetry. apply e_nonl in Hv; [exact Hv|]. rewrite <- Hy. destruct y; nnl.
Qed.
Lemma fits_cl c d : col_chars c d -> fits_col c -> fits_col d.
Proof.
  intros (_ & (_ & Ha & Hd) & Hs) [[F1 F2] F3]. split; [split|].
  - eapply forall_rel; [|exact Ha|exact F1]. exact fits_v.
  - rewrite <- Hd. exact F2.
  - intros st Hst. rewrite Hst in Hs. destruct (c_settings c) as [st0|]; [|contradiction]. destruct Hs as [Hs _]. eapply forall_rel; [|exact Hs|exact (F3 st0 eq_refl)]. exact fits_at.
Qed.
Lemma fits_bl a b : block_chars a b -> fits_block a -> fits_block b.
Proof.
  destruct a, b; cbn [block_chars fits_block]; try contradiction.
  - intros (_ & H & _). apply forall_rel with (1 := fun x y (K : fst x = fst y /\ v_chars (snd x) (snd y)) => fits_v _ _ (proj2 K)). exact H.
  - intros (_ & _ & H1 & H2 & _ & H3) (F1 & F2 & F3). split; [eapply fits_ats; eassumption|]. split; [eapply forall_rel; [|exact H2|exact F2]; exact fits_cl|].
    eapply forall_rel; [|exact H3|exact F3]. intros x y Hxy. apply forall_rel with (2 := Hxy). exact fits_ix.
  - intros (_ & H & _). apply fits_ats. exact H.
  - auto.
  - apply fits_rf.
  - intros (_ & H). apply forall_rel with (2 := H). intros x y [_ K]. apply fits_ats. exact K.
Qed.
Lemma fits_chars a b : schema_chars a b -> fits a -> fits b.
Proof. intros H. apply forall_rel with (2 := H). exact fits_bl. Qed.

Lemma last_rel {A} (P : A -> A -> Prop) l l' : Forall2 P l l' -> Forall2 P (last_only l) (last_only l').
Proof.
  induction 1 as [|a b l l' Hab HF IH]; [constructor|]. destruct HF as [|a2 b2 l l' H2 HF]; [constructor; [exact Hab|constructor]|exact IH].
Qed.
Lemma settle_chars a b : schema_chars a b -> schema_chars (settle a) (settle b).
Proof.
  induction 1 as [|x y a b Hxy HF IH]; [constructor|]. cbn. constructor; [|exact IH]. destruct x, y; cbn in Hxy |- *; try contradiction; try exact Hxy.
  - destruct Hxy as (H1 & H2 & H3). split; [exact H1|]. split; [exact H2|apply last_rel; exact H3].
  - destruct Hxy as (H1 & H2 & H3 & H4 & H5 & H6). repeat (split; [assumption|]). split; apply last_rel; assumption.
  - destruct Hxy as (H1 & H2 & H3 & H4). repeat (split; [assumption|]). split; [apply last_rel|]; assumption.
Qed.

Theorem chars_read t1 t2 x : same_str X t1 t2 -> parse_dbml_unchecked t1 = Some (Ok x) ->
  exists y, parse_dbml_unchecked t2 = Some (Ok y) /\ schema_chars (meaning x) (meaning y).
Proof.
  intros H Hx. destruct (accepts_iff _ _ Hx) as (a & Ha & Hf & Ex). destruct (chars_text _ _ _ H Ha) as (b & Hb & Hab).
  destruct (written_is_read t2 b Hb (fits_chars _ _ Hab Hf)) as (y & Hy & Ey). exists y. split; [exact Hy|]. rewrite Ex, Ey. apply settle_chars. exact Hab.
Qed.
End Rel.

#[export] Instance good_same_char : good same_char.
Proof. split; [auto|]. intros c _. left. reflexivity. Qed.
Lemma good_graph f : respells f -> good (fun c d => d = f c).
Proof.
  intros Hf. split; [intros c d ->; apply Hf|]. intros c Hc. destruct (Hf c) as [E0|[E0 _]]; [exact E0|contradiction].
Qed.
Lemma other_sym x y : other_chars x y -> other_chars y x.
Proof. induction 1 as [|c d x y H HF IH]; constructor; [|exact IH]. destruct H as [->|[]]; [left; reflexivity|right; auto]. Qed.
Theorem other_text t1 t2 a : other_chars t1 t2 -> dbml_text t1 a -> exists b, dbml_text t2 b /\ schema_chars same_char a b.
Proof. intros H. apply (chars_text (X := same_char)). exact H. Qed.
Lemma other_fits t1 t2 a b : other_chars t1 t2 -> dbml_text t1 a -> dbml_text t2 b -> fits a -> fits b.
Proof.
  intros H Ha Hb Hf. destruct (other_text _ _ _ H Ha) as (b' & Hb' & Hab). rewrite (OneMeaning.says_one _ _ _ Hb Hb').
  exact (fits_chars (X := same_char) _ _ Hab Hf).
Qed.
Lemma three_ways t : (forall a, ~ dbml_text t a) \/ (exists a, dbml_text t a /\ fits a) \/ (exists a, dbml_text t a /\ ~ fits a).
Proof.
  destruct (unchecked_total t) as (o & Ho & _). assert (D : o = Err ErGrammar \/ o <> Err ErGrammar) by (destruct o as [x|[]|]; auto; right; discriminate).
  destruct D as [->|D]; [left; apply not_dbml; exact Ho|right]. destruct (unchecked_read _ _ Ho D) as (a & Ha).
  destruct (unchecked_reads _ _ Ha) as [[Hf _]|[Hf _]]; eauto.
Qed.
Theorem other_outcome t1 t2 : other_chars t1 t2 ->
  match parse_dbml_unchecked t1, parse_dbml_unchecked t2 with
  | Some (Ok x), Some (Ok y) => schema_chars same_char (meaning x) (meaning y)
  | Some (Err ErGrammar), Some (Err ErGrammar) => True
  | Some (Err (ErMsg _ _)), Some (Err (ErMsg _ _)) => True
  | _, _ => False
  end.
Proof.
  intros H. destruct (three_ways t1) as [Hn|[(a & Ha & Hf)|(a & Ha & Hf)]].
  - assert (E1 := proj2 (not_dbml t1) Hn). assert (E2 : parse_dbml_unchecked t2 = Some (Err ErGrammar)).
    { apply not_dbml. intros b Hb. destruct (other_text _ _ _ (other_sym _ _ H) Hb) as (a & Ha & _). exact (Hn a Ha). }
    rewrite E1, E2. exact Logic.I.
  - destruct (written_is_read t1 a Ha Hf) as (x & Hx & _). destruct (chars_read (X := same_char) t1 t2 x H Hx) as (y & Hy & Hxy). rewrite Hx, Hy. exact Hxy.
  - destruct (too_big_only _ _ Ha Hf) as (m & sp & E1). destruct (other_text _ _ _ H Ha) as (b & Hb & _).
    assert (Hf' : ~ fits b) by (intros K; apply Hf; exact (other_fits _ _ _ _ (other_sym _ _ H) Hb Ha K)).
    destruct (too_big_only _ _ Hb Hf') as (m' & sp' & E2). rewrite E1, E2. exact Logic.I.
Qed.

(** ** A consistent replacement *)
Section Map.
  Variable f : char -> char.
  Notation gr := (fun c d => d = f c).
  Lemma f2_map {A} (P : A -> A -> Prop) (h : A -> A) l l' : (forall a b, P a b -> b = h a) -> Forall2 P l l' -> l' = map h l.
  Proof. intros H. induction 1 as [|a b l l' Hab HF IH]; [reflexivity|]. cbn. rewrite (H _ _ Hab), IH. reflexivity. Qed.
  Lemma o_map {A} (P : A -> A -> Prop) (h : A -> A) o o' : (forall a b, P a b -> b = h a) -> o_chars P o o' -> o' = option_map h o.
  Proof. intros H. destruct o, o'; cbn; try contradiction; [|reflexivity]. intros K. rewrite (H _ _ K). reflexivity. Qed.
  Lemma g_str x y : same_str gr x y -> y = map f x.
  Proof. apply f2_map. auto. Qed.
  Lemma g_value v w : v_chars gr v w -> w = r_value f v.
  Proof. destruct v, w; cbn; intros H; try discriminate H; try (symmetry; exact H); rewrite (g_str _ _ H); reflexivity. Qed.
  Lemma g_attr a b : attr_chars gr a b -> b = r_attr f a.
  Proof. destruct a as [k o], b as [k' o']. intros [E0 H]. cbn in *. subst k'. unfold r_attr. cbn. f_equal. exact (o_map _ _ _ _ g_value H). Qed.
  Lemma g_attrs o o' : attrs_chars gr o o' -> o' = r_attrs f o.
  Proof. apply o_map. intros a b. apply f2_map. exact g_attr. Qed.
  Lemma g_decl d d' : decl_chars gr d d' -> d' = r_decl f d.
  Proof. destruct d, d'. intros [H1 H2]. cbn in *. unfold r_decl. cbn. f_equal; [exact (o_map _ _ _ _ g_str H1)|exact (g_str _ _ H2)]. Qed.
  Lemma g_end e e' : end_chars gr e e' -> e' = r_end f e.
  Proof.
    destruct e as [a b c], e' as [a' b' c']. intros [H1 H2]. cbn in *. apply g_decl in H1. unfold r_decl in H1. cbn in H1. injection H1 as -> ->.
    unfold r_end. cbn. f_equal. exact (f2_map _ _ _ _ g_str H2).
  Qed.
  Lemma g_inline x y : inline_chars gr x y -> y = r_inline f x.
  Proof. destruct x, y. intros [H1 H2]. cbn in *. subst. unfold r_inline. cbn. f_equal. exact (g_end _ _ H2). Qed.
  Lemma g_type t t' : type_chars gr t t' -> t' = r_type f t.
  Proof.
    destruct t as [n l d], t' as [n' l' d']. intros (H1 & H2 & H3). cbn in *. subst d'. unfold r_type. cbn. f_equal; [|exact (f2_map _ _ _ _ g_value H2)].
    destruct n, n'; try discriminate H1; try (symmetry; exact H1). rewrite (g_str _ _ H1). reflexivity.
  Qed.
  Lemma g_col_set x y : col_set_chars gr x y -> y = r_col_set f x.
  Proof. destruct x, y. intros [H1 H2]. cbn in *. unfold r_col_set. cbn. f_equal; [exact (f2_map _ _ _ _ g_attr H1)|exact (f2_map _ _ _ _ g_inline H2)]. Qed.
  Lemma g_col c c' : col_chars gr c c' -> c' = r_col f c.
  Proof. destruct c, c'. intros (H1 & H2 & H3). cbn in *. unfold r_col. cbn. f_equal; [exact (g_str _ _ H1)|exact (g_type _ _ H2)|exact (o_map _ _ _ _ g_col_set H3)]. Qed.
  Lemma g_index_col x y : index_col_chars gr x y -> y = r_index_col f x.
  Proof. destruct x, y; cbn; try contradiction; intros H; f_equal; [exact (g_str _ _ H)|exact (g_value _ _ H)]. Qed.
  Lemma g_index d d' : index_chars gr d d' -> d' = r_index f d.
  Proof. destruct d, d'. intros [H1 H2]. cbn in *. unfold r_index. cbn. f_equal; [exact (f2_map _ _ _ _ g_index_col H1)|exact (g_attrs _ _ H2)]. Qed.
  Lemma g_table t t' : table_chars gr t t' -> t' = r_table f t.
  Proof.
    destruct t, t'. intros (H1 & H2 & H3 & H4 & H5 & H6). cbn in *. apply g_decl in H1. unfold r_decl in H1. cbn in H1. injection H1 as -> ->. unfold r_table. cbn.
    f_equal; [exact (o_map _ _ _ _ g_str H2)|exact (g_attrs _ _ H3)|exact (f2_map _ _ _ _ g_col H4)|exact (f2_map _ _ _ _ g_value H5)|].
    apply (f2_map _ (map (r_index f)) _ _) in H6; [exact H6|]. intros a b. apply f2_map. exact g_index.
  Qed.
  Lemma g_enum e e' : enum_chars gr e e' -> e' = r_enum f e.
  Proof.
    destruct e, e'. intros [H1 H2]. cbn in *. apply g_decl in H1. unfold r_decl in H1. cbn in H1. injection H1 as -> ->. unfold r_enum. cbn. f_equal.
    apply (f2_map _ (fun v => (map f (fst v), r_attrs f (snd v)))) in H2; [exact H2|]. intros [k o] [k' o'] [K1 K2]. cbn in *. f_equal; [exact (g_str _ _ K1)|exact (g_attrs _ _ K2)].
  Qed.
  Lemma g_ref r r' : ref_chars gr r r' -> r' = r_ref f r.
  Proof.
    destruct r, r'. intros (H1 & H2 & H3 & H4 & H5). cbn in *. subst. unfold r_ref. cbn.
    f_equal; [exact (o_map _ _ _ _ g_str H1)|exact (g_end _ _ H3)|exact (g_end _ _ H4)|exact (g_attrs _ _ H5)].
  Qed.
  Lemma g_group x y : group_chars gr x y -> y = r_group f x.
  Proof.
    destruct x, y. intros (H1 & H2 & H3 & H4). cbn in *. unfold r_group. cbn.
    f_equal; [exact (g_str _ _ H1)|exact (g_attrs _ _ H2)|exact (f2_map _ _ _ _ g_value H3)|exact (f2_map _ _ _ _ g_decl H4)].
  Qed.
  Lemma g_project x y : project_chars gr x y -> y = r_project f x.
  Proof.
    destruct x, y. intros (H1 & H2 & H3). cbn in *. unfold r_project. cbn. f_equal; [exact (g_str _ _ H1)| |exact (f2_map _ _ _ _ g_value H3)].
    apply (f2_map _ (fun x => (fst x, r_value f (snd x)))) in H2; [exact H2|]. intros [k v] [k' v'] [K1 K2]. cbn in *. subst. f_equal. exact (g_value _ _ K2).
  Qed.
  Lemma g_block x y : block_chars gr x y -> y = r_block f x.
  Proof.
    destruct x, y; cbn; try contradiction; intros H; f_equal; [exact (g_project _ _ H)|exact (g_table _ _ H)|exact (g_group _ _ H)|exact (g_value _ _ H)|exact (g_ref _ _ H)|exact (g_enum _ _ H)].
  Qed.
  Lemma g_schema a b : schema_chars gr a b -> b = respelled_schema f a.
  Proof. apply f2_map. exact g_block. Qed.
  Lemma graph_str x : same_str gr x (map f x).
  Proof. induction x; constructor; [reflexivity|exact IHx]. Qed.
  Hypothesis Hf : respells f.
  Theorem map_text t a : dbml_text t a -> dbml_text (map f t) (respelled_schema f a).
  Proof.
    intros Ha. destruct (chars_text (G := good_graph f Hf) _ _ _ (graph_str t) Ha) as (b & Hb & Hab). rewrite <- (g_schema _ _ Hab). exact Hb.
  Qed.
  Theorem map_fits a : fits a -> schema_chars gr a (respelled_schema f a) -> fits (respelled_schema f a).
  Proof. intros Hfa H. exact (fits_chars (G := good_graph f Hf) _ _ H Hfa). Qed.
  Theorem map_read t x : parse_dbml_unchecked t = Some (Ok x) ->
    exists y, parse_dbml_unchecked (map f t) = Some (Ok y) /\ meaning y = respelled_schema f (meaning x).
  Proof.
    intros H. destruct (chars_read (G := good_graph f Hf) _ _ _ (graph_str t) H) as (y & Hy & Hxy). exists y. split; [exact Hy|]. exact (g_schema _ _ Hxy).
  Qed.
  Lemma map_other t : other_chars t (map f t).
  Proof. induction t; constructor; [apply Hf|exact IHt]. Qed.
End Map.
