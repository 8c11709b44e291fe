(** * Zap: an AST without positions, and the analyzer on it.

    [z_schema x] is [x] with every span, raw spelling and the input dropped.  The
    analyzer gives the same verdict on both. *)

From Verif Require Import Rules RulesOk RulesOk2 RulesOk3 PegFacts ParserOk ParserOk3 SpansOk.
From Verif Require Import Err Analyzer.
From Verif Require Export Answer.

Definition zr : range := (0, 0).
Definition z_ident (i : ident_t) := mkIdent zr [] (id_str i).
Definition z_lit (l : literal) := mkLiteral zr [] (lit_value l).
Definition z_attr (a : attribute_t) := mkAttr zr (z_ident (at_key a)) (option_map z_lit (at_value a)).
Definition z_prop (p : property_t) := mkProp zr (z_ident (pr_key p)) (z_lit (pr_value p)).
Definition z_note (n : note_t) := mkNote zr (z_lit (nb_value n)).
Definition z_project (p : project_t) := mkProject zr (map z_prop (pj_properties p)) (z_ident (pj_ident p))
  (pj_database_type p) (option_map z_note (pj_note p)).
Definition z_rid (r : ref_ident_t) := mkRefIdent zr (option_map z_ident (ri_schema r)) (z_ident (ri_table r)) (map z_ident (ri_compositions r)).
Definition z_inline (r : ref_inline_t) := mkRefInline zr (rin_rel r) (z_rid (rin_rhs r)).
Definition z_rst (x : ref_settings_t) := mkRefSettings zr (map z_attr (rs_attributes x)) (rs_on_delete x) (rs_on_update x).
Definition z_ref (r : ref_block_t) := mkRefBlock zr (option_map z_ident (rb_name r)) (rb_rel r) (z_rid (rb_lhs r)) (z_rid (rb_rhs r))
  (option_map z_rst (rb_settings r)).
Definition z_evs (x : enum_value_settings_t) := mkEnumValueSettings zr (map z_attr (evs_attributes x)) (evs_note x).
Definition z_ev (v : enum_value_t) := mkEnumValue zr (z_ident (ev_value v)) (option_map z_evs (ev_settings v)).
Definition z_enum (e : enum_t) := mkEnum zr (mkEnumIdent zr (option_map z_ident (ei_schema (en_ident e))) (z_ident (ei_name (en_ident e))))
  (map z_ev (en_values e)).
Definition z_icol (c : indexes_col) := match c with ICString i => ICString (z_ident i) | ICExpr l => ICExpr (z_lit l) end.
Definition z_ist (x : indexes_settings_t) := mkIndexesSettings zr (map z_attr (is_attributes x)) (is_type x) (is_is_unique x) (is_is_pk x) (is_note x) (is_name x).
Definition z_idef (d : indexes_def) := mkIndexesDef zr (map z_icol (idf_cols d)) (option_map z_ist (idf_settings d)).
Definition z_ib (b : indexes_block_t) := mkIndexesBlock zr (map z_idef (ib_defs b)).
Definition z_type (t : col_type_t) := mkColType zr [] (ct_type_name t) (ct_args t) (ct_arrays t).
Definition z_cst (x : col_settings_t) := mkColSettings zr (map z_attr (cs_attributes x)) (cs_is_pk x) (cs_is_unique x)
  (cs_nullable x) (cs_is_incremental x) (cs_note x) (cs_default x) (map z_inline (cs_refs x)).
Definition z_col (c : table_col_t) := mkTableCol zr (z_ident (tc_name c)) (z_type (tc_type c)) (option_map z_cst (tc_settings c)).
Definition z_tid (i : table_ident_t) := mkTableIdent zr (z_ident (ti_name i)) (option_map z_ident (ti_schema i)) (option_map z_ident (ti_alias i)).
Definition z_tst (x : table_settings_t) := mkTableSettings zr (map z_attr (ts_attributes x)).
Definition z_table (t : table_t) := mkTable zr (map z_col (tb_cols t)) (z_tid (tb_ident t)) (option_map z_note (tb_note t))
  (option_map z_ib (tb_indexes t)) (option_map z_tst (tb_settings t)).
Definition z_item (i : group_item_t) := mkGroupItem zr (option_map z_ident (gi_schema i)) (z_ident (gi_ident_alias i)).
Definition z_gst (x : group_settings_t) := mkGroupSettings zr (map z_attr (gs_attributes x)).
Definition z_group (g : group_t) := mkGroup zr (z_ident (tg_ident g)) (option_map z_note (tg_note g)) (map z_item (tg_items g))
  (option_map z_gst (tg_settings g)).
Definition z_block (b : block) : block :=
  match b with
  | BProject p => BProject (z_project p) | BTable t => BTable (z_table t) | BTableGroup g => BTableGroup (z_group g)
  | BNote n => BNote (z_note n) | BRef r => BRef (z_ref r) | BEnum e => BEnum (z_enum e)
  end.
Definition z_schema (x : schema_t) : schema_t := mkSchema zr [] (map z_block (sb_blocks x)).
Definition z_iref (r : indexed_ref) := mkIndexedRef zr (ir_rel r) (z_rid (ir_lhs r)) (z_rid (ir_rhs r)) (option_map z_rst (ir_settings r)).

(** ** Same verdict *)
Definition sim {A B} (R : A -> B -> Prop) (o : outcome A) (p : outcome B) : Prop :=
  match o, p with
  | Ok a, Ok b => R a b
  | Err (ErSem e _), Err (ErSem e' _) => sem_kind e = sem_kind e'
  | Panic, Panic => True
  | _, _ => False
  end.
Lemma sim_throw {A B} (R : A -> B -> Prop) e e' sp inp : sem_kind e = sem_kind e' -> valid_span inp sp ->
  sim R (throw_err e sp inp) (throw_err e' zr []).
Proof. intros He Hv. apply valid_ok in Hv. unfold throw_err. rewrite Hv. cbn. exact He. Qed.
Lemma sim_bind {A B A' B'} (R : A -> A' -> Prop) (S : B -> B' -> Prop) o p f g :
  sim R o p -> (forall a b, R a b -> sim S (f a) (g b)) -> sim S (bind o f) (bind p g).
Proof.
  intros H K. destruct o as [a|[| | |e sp]|], p as [b|[| | |e' sp']|]; cbn in H |- *; try contradiction; auto.
Qed.
Lemma sim_fold {A A' B B'} (R : B -> B' -> Prop) (P : A -> Prop) (f : B -> A -> outcome B) (g : B' -> A' -> outcome B') (h : A -> A') l :
  Forall P l -> (forall a acc acc', P a -> R acc acc' -> sim R (f acc a) (g acc' (h a))) ->
  forall acc acc', R acc acc' -> sim R (try_fold f l acc) (try_fold g (map h l) acc').
Proof.
  intros HF K. induction HF as [|a l Ha _ IH]; intros acc acc' H; cbn [try_fold map]; [exact H|].
  eapply sim_bind; [apply K; assumption|]. intros b b' Hb. apply IH. exact Hb.
Qed.
Lemma sim_map {A A' B B'} (R : B -> B' -> Prop) (P : A -> Prop) (f : A -> outcome B) (g : A' -> outcome B') (h : A -> A') l :
  Forall P l -> (forall a, P a -> sim R (f a) (g (h a))) -> sim (Forall2 R) (try_map f l) (try_map g (map h l)).
Proof.
  intros HF K. induction HF as [|a l Ha _ IH]; cbn [try_map map]; [constructor|].
  eapply sim_bind; [apply K; exact Ha|]. intros b b' Hb. eapply sim_bind; [exact IH|]. intros bs bs' Hbs. cbn. constructor; assumption.
Qed.
Lemma sim_impl {A B} (R S : A -> B -> Prop) o p : (forall a b, R a b -> S a b) -> sim R o p -> sim S o p.
Proof. intros K. destruct o as [a|[| | |e sp]|], p as [b|[| | |e' sp']|]; cbn; auto. Qed.
Lemma sim_omap {A B A' B'} (R : A -> A' -> Prop) (S : B -> B' -> Prop) o p f g :
  sim R o p -> (forall a b, R a b -> S (f a) (g b)) -> sim S (omap f o) (omap g p).
Proof.
  intros H K. destruct o as [a|[| | |e sp]|], p as [b|[| | |e' sp']|]; cbn in H |- *; try contradiction; auto.
Qed.

(** ** Duplicate keys *)
Lemma z_first_dup {A B} (key : A -> str) (key' : B -> str) (h : A -> B) l : (forall a, key' (h a) = key a) ->
  forall seen, first_dup key' seen (map h l) = option_map h (first_dup key seen l).
Proof.
  intros K. induction l as [|a l IH]; intros seen; cbn [first_dup map]; [reflexivity|].
  rewrite K. destruct (mem_str (key a) seen); [reflexivity|]. apply IH.
Qed.
Lemma first_dup_in {A} (key : A -> str) l : forall seen a, first_dup key seen l = Some a -> In a l.
Proof.
  induction l as [|b l IH]; intros seen a H; cbn [first_dup] in H; [discriminate|].
  destruct (mem_str (key b) seen); [injection H as ->; left; reflexivity|right; eapply IH; exact H].
Qed.
Local Notation same := eq.
Lemma z_attr_keys inp l : Forall (attribute_ok inp) l ->
  sim same (check_attr_duplicate_keys l inp) (check_attr_duplicate_keys (map z_attr l) []).
Proof.
  intros HF. unfold check_attr_duplicate_keys. rewrite (z_first_dup attr_key attr_key z_attr) by reflexivity.
  destruct (first_dup attr_key [] l) as [a|] eqn:E; cbn [option_map]; [|reflexivity].
  apply sim_throw; [reflexivity|]. apply first_dup_in in E. apply (forall_in _ _ _ HF E).
Qed.
Lemma z_prop_keys inp l : Forall (property_ok inp) l ->
  sim same (check_prop_duplicate_keys l inp) (check_prop_duplicate_keys (map z_prop l) []).
Proof.
  intros HF. unfold check_prop_duplicate_keys. rewrite (z_first_dup prop_key prop_key z_prop) by reflexivity.
  destruct (first_dup prop_key [] l) as [a|] eqn:E; cbn [option_map]; [|reflexivity].
  apply sim_throw; [reflexivity|]. apply first_dup_in in E. apply (forall_in _ _ _ HF E).
Qed.
Lemma z_opt_attrs {S} (attrs : S -> list attribute_t) (h : S -> S) inp st : (forall x, attrs (h x) = map z_attr (attrs x)) ->
  opt_all (fun x => Forall (attribute_ok inp) (attrs x)) st ->
  sim same (check_opt_attrs attrs st inp) (check_opt_attrs attrs (option_map h st) []).
Proof. intros K H. destruct st as [x|]; cbn [check_opt_attrs option_map]; [rewrite K; apply z_attr_keys; exact H|reflexivity]. Qed.

Lemma z_schema_or o : schema_or_default (option_map z_ident o) = schema_or_default o.
Proof. destruct o; reflexivity. Qed.

(** ** Indexer *)
Lemma opt_impl {A} (P Q : A -> Prop) o : (forall a, P a -> Q a) -> opt_all P o -> opt_all Q o.
Proof. intros K. destruct o; cbn; auto. Qed.
Lemma z_index_cols inp l : Forall (table_col_ok inp) l -> sim same (index_cols l inp) (index_cols (map z_col l) []).
Proof.
  intros HF. unfold index_cols. eapply sim_fold; [exact HF| |reflexivity]. intros c seen ? Hc <-. destruct Hc as (H1 & _ & _ & H2 & _).
  eapply sim_bind; [apply z_opt_attrs; [reflexivity|]; eapply opt_impl; [|exact H2]; intros st Hst; apply Hst|].
  intros _ _ _. cbn [z_col tc_name z_ident id_str tc_span]. destruct (mem_str _ seen); [apply sim_throw; [reflexivity|exact H1]|reflexivity].
Qed.
Lemma z_index_table inp l ix : Forall (table_ok inp) l -> sim same (index_table l inp ix) (index_table (map z_table l) [] ix).
Proof.
  intros HF. unfold index_table. eapply sim_fold; [exact HF| |reflexivity]. clear. intros t ix ? Ht <-. unfold index_table1.
  destruct Ht as (_ & (H1 & _ & _ & H2 & _) & H3 & H4 & _).
  eapply sim_bind; [apply z_opt_attrs; [reflexivity|]; eapply opt_impl; [|exact H3]; intros st Hst; apply Hst|]. intros _ _ _.
  cbn [z_table tb_ident z_tid ti_schema ti_name z_ident id_str ti_alias ti_span tb_cols]. rewrite z_schema_or.
  eapply (sim_bind same); [destruct (contains_table ix _ _); [apply sim_throw; [reflexivity|exact H1]|reflexivity]|]. intros _ _ _.
  eapply sim_bind; [apply z_index_cols; exact H4|]. intros cols ? <-.
  destruct (ti_alias (tb_ident t)) as [a|]; cbn [option_map]; [|reflexivity]. cbn [z_ident id_str id_span].
  destruct (map_contains _ _); [apply sim_throw; [reflexivity|apply ident_valid; exact H2]|reflexivity].
Qed.
Lemma z_enum_values inp l : Forall (enum_value_ok inp) l -> sim same (index_enum_values l inp) (index_enum_values (map z_ev l) []).
Proof.
  intros HF. unfold index_enum_values. eapply sim_fold; [exact HF| |reflexivity]. intros c seen ? (H1 & _ & H2 & _) <-.
  eapply sim_bind; [apply z_opt_attrs; [reflexivity|]; eapply opt_impl; [|exact H2]; intros st Hst; apply Hst|].
  intros _ _ _. cbn [z_ev ev_value z_ident id_str ev_span]. destruct (mem_str _ seen); [apply sim_throw; [reflexivity|exact H1]|reflexivity].
Qed.
Lemma z_index_enums inp l ix : Forall (enum_ok inp) l -> sim same (index_enums l inp ix) (index_enums (map z_enum l) [] ix).
Proof.
  intros HF. unfold index_enums. eapply sim_fold; [exact HF| |reflexivity]. clear. intros e ix ? (_ & (H1 & _) & H2 & _) <-. unfold index_enum1.
  cbn [z_enum en_ident ei_schema ei_name z_ident id_str ei_span en_values]. rewrite z_schema_or.
  eapply (sim_bind same); [destruct (contains_enum ix _ _); [apply sim_throw; [reflexivity|exact H1]|reflexivity]|]. intros _ _ _.
  eapply sim_bind; [apply z_enum_values; exact H2|]. intros vals ? <-. reflexivity.
Qed.
Lemma z_index_groups inp l ix : Forall (group_ok inp) l -> sim same (index_table_groups l inp ix) (index_table_groups (map z_group l) [] ix).
Proof.
  intros HF. unfold index_table_groups. eapply sim_fold; [exact HF| |reflexivity]. clear. intros g ix ? (_ & H1 & _ & H2 & _) <-. unfold index_table_group1.
  cbn [z_group tg_ident z_ident id_str id_span tg_items].
  eapply (sim_bind same); [destruct (map_contains _ _); [apply sim_throw; [reflexivity|apply ident_valid; exact H1]|reflexivity]|]. intros _ _ _.
  eapply (sim_bind same); [|intros items ? <-; reflexivity]. eapply sim_fold; [exact H2| |reflexivity]. clear. intros it seen ? (H1 & _) <-.
  eapply (sim_bind same).
  - unfold resolve_group_item. cbn [z_item gi_ident_alias z_ident id_str gi_schema gi_span]. destruct (gi_schema it) as [sc|]; cbn [option_map]; [reflexivity|].
    destruct (resolve_alias ix _); [reflexivity|]. destruct (contains_table _ _ _); [reflexivity|]. apply sim_throw; [reflexivity|exact H1].
  - intros id ? <-. destruct (pair_mem id seen); [apply sim_throw; [reflexivity|exact H1]|reflexivity].
Qed.

(** ** Keys and indexes *)
Lemma z_keys l : map attr_key (map z_attr l) = map attr_key l.
Proof. rewrite map_map. reflexivity. Qed.
Lemma z_named l : filter_map idx_col_name (map z_icol l) = filter_map idx_col_name l.
Proof. induction l as [|[i|e] l IH]; cbn; [reflexivity| |]; unfold filter_map in IH; rewrite IH; reflexivity. Qed.
Lemma z_nil {A B} (f : A -> B) l : is_nil (map f l) = is_nil l.
Proof. destruct l; reflexivity. Qed.
Lemma z_check_cols inp cols ti : Forall (table_col_ok inp) cols ->
  sim same (try_fold (check_col_settings inp) cols ti) (try_fold (check_col_settings []) (map z_col cols) ti).
Proof.
  intros HF. eapply sim_fold; [exact HF| |reflexivity]. clear. intros c ti ? (H1 & _ & _ & H2 & _) <-. unfold check_col_settings.
  cbn [z_col tc_settings tc_name z_ident id_str tc_span tc_type z_type ct_arrays]. destruct (tc_settings c) as [st|]; cbn [option_map]; [|reflexivity].
  cbn [z_cst cs_is_pk cs_is_unique cs_nullable cs_attributes cs_span]. unfold conflict_nullable. rewrite z_keys. cbn [opt_all] in H2.
  eapply (sim_bind same).
  - destruct (cs_is_pk st); [|reflexivity]. destruct (negb (is_nil (pk_list ti))); [apply sim_throw; [reflexivity|exact H1]|].
    destruct (nullable_is_null _); [apply sim_throw; [reflexivity|exact H1]|].
    destruct (negb (is_nil (ct_arrays _))); [apply sim_throw; [reflexivity|exact H1]|reflexivity].
  - intros ti' ? <-. destruct (mem_str (s "not null") _ && _); [|reflexivity]. apply sim_throw; [reflexivity|apply H2].
Qed.
Lemma z_has_col t i : existsb (fun col => str_eqb (id_str (tc_name col)) i) (map z_col (tb_cols t)) =
  existsb (fun col => str_eqb (id_str (tc_name col)) i) (tb_cols t).
Proof. induction (tb_cols t) as [|c l IH]; cbn; [reflexivity|]. rewrite IH. reflexivity. Qed.
Lemma z_check_def inp t ib ti d : table_ok inp t -> indexes_block_ok inp ib -> indexes_def_ok inp d ->
  sim same (check_index_def t ib inp ti d) (check_index_def (z_table t) (z_ib ib) [] ti (z_idef d)).
Proof.
  intros _ (Hb & _) (H1 & H2 & H3 & _). unfold check_index_def. cbn [z_idef idf_cols idf_settings idf_span z_ib ib_span].
  rewrite z_nil, z_named. eapply (sim_bind same); [destruct (is_nil _); [apply sim_throw; [reflexivity|exact Hb]|reflexivity]|]. intros _ _ _.
  eapply (sim_bind same).
  { unfold check_index_cols. eapply sim_fold; [exact H2| |reflexivity]. intros [i|e] [] ? Hc _; cbn [z_icol]; [|reflexivity].
    cbn [z_table tb_cols z_ident id_str]. rewrite z_has_col. destruct (existsb _ _); [reflexivity|]. apply sim_throw; [reflexivity|]. apply ident_valid. exact Hc. }
  intros _ _ _. destruct (idf_settings d) as [st|]; cbn [option_map].
  - cbn [opt_all] in H3. destruct H3 as ((Hs & HA & _) & _). cbn [z_ist is_attributes is_is_pk is_is_unique is_type is_span].
    eapply (sim_bind same); [apply z_attr_keys; exact HA|]. intros _ _ _.
    eapply (sim_bind same); [destruct (Nat.ltb 1 _); [apply sim_throw; [reflexivity|exact Hs]|reflexivity]|]. intros _ _ _.
    eapply (sim_bind same).
    + destruct (is_is_pk st); [destruct (negb _); [apply sim_throw; [reflexivity|exact H1]|reflexivity]|].
      destruct (is_is_unique st); [|reflexivity]. destruct (existsb _ _); [apply sim_throw; [reflexivity|exact H1]|reflexivity].
    + intros ti' ? <-. destruct (is_some _); [|reflexivity]. destruct (existsb _ _); [apply sim_throw; [reflexivity|exact H1]|reflexivity].
  - destruct (existsb _ _); [apply sim_throw; [reflexivity|exact H1]|reflexivity].
Qed.
Definition zir (a b : indexed_ref) : Prop := b = z_iref a.
Lemma z_inlines t c : col_inline_refs (z_table t) (z_col c) = map z_iref (col_inline_refs t c).
Proof.
  unfold col_inline_refs, from_inline. cbn [z_col tc_settings z_table tb_ident tc_name]. destruct (tc_settings c) as [st|]; cbn [option_map]; [|reflexivity].
  cbn [z_cst cs_refs]. rewrite !map_map. reflexivity.
Qed.
Lemma z_check_table inp t : table_ok inp t ->
  sim (fun a b => b = map z_iref a) (check_table inp t) (check_table [] (z_table t)).
Proof.
  intros Ht. pose proof Ht as (_ & _ & _ & H1 & _ & H2 & _). unfold check_table. change (tb_cols (z_table t)) with (map z_col (tb_cols t)).
  eapply sim_bind; [apply z_check_cols; exact H1|]. intros ti ? <-. change (tb_indexes (z_table t)) with (option_map z_ib (tb_indexes t)). eapply (sim_bind same).
  - destruct (tb_indexes t) as [ib|]; cbn [option_map]; [|reflexivity]. cbn [opt_all] in H2. eapply (sim_omap same); [|reflexivity].
    cbn [z_ib ib_defs]. eapply sim_fold; [exact (proj1 (proj2 H2))| |reflexivity].
    intros d ti' ? Hd <-. apply z_check_def; assumption.
  - intros _ _ _. cbn [sim]. clear. induction (tb_cols t) as [|c l IH]; [reflexivity|].
    cbn [flat_map map]. rewrite IH, z_inlines, map_app. reflexivity.
Qed.

(** ** Types and defaults *)
Lemma z_default_span l : default_span (map z_attr l) = option_map (fun _ => zr) (default_span l).
Proof.
  unfold default_span. induction l as [|a l IH]; cbn [find map]; [reflexivity|]. change (attr_key (z_attr a)) with (attr_key a).
  destruct (str_eqb (attr_key a) _); [|exact IH]. cbn [z_attr at_value]. destruct (at_value a); reflexivity.
Qed.
Lemma default_span_valid inp l sp : Forall (attribute_ok inp) l -> default_span l = Some sp -> valid_span inp sp.
Proof.
  unfold default_span. intros HF E. destruct (find _ l) as [a|] eqn:Ef; [|discriminate]. apply find_some in Ef as [Hin _].
  apply (forall_in _ _ _ HF) in Hin as (_ & _ & Hv & _). destruct (at_value a) as [v|]; [|discriminate]. injection E as <-.
  eapply shows_valid. apply Hv.
Qed.
Lemma type_valid inp c : table_col_ok inp c -> valid_span inp (ct_span (tc_type c)).
Proof. intros (_ & _ & (H & _) & _). eapply shows_valid. exact H. Qed.
Lemma z_resolve inp ix c : table_col_ok inp c -> sim same (resolve_col_type ix c inp) (resolve_col_type ix (z_col c) []).
Proof.
  intros Hc. pose proof (type_valid _ _ Hc) as Hv. destruct Hc as (_ & _ & _ & Hs & _).
  unfold resolve_col_type. cbn [z_col tc_type z_type ct_type_name]. destruct (ct_type_name (tc_type c)) as [|raw|x | | | | | | | | | | | | | | | | | | | | | | | | | | | | | | | | | | | | | | | | | ] eqn:Et;
    try exact Logic.I.
  destruct (col_type_name_from_str raw) as [tn|].
  - eapply (sim_bind same); [|reflexivity]. unfold check_type_args. cbn [ct_args ct_span z_type]. destruct (is_nil _); [reflexivity|].
    eapply (sim_bind same).
    + destruct tn; try (apply sim_throw; [reflexivity|exact Hv]); (destruct (negb _); [apply sim_throw; [reflexivity|exact Hv]|reflexivity]).
    + intros _ _ _. destruct (negb _); [apply sim_throw; [reflexivity|exact Hv]|reflexivity].
  - unfold check_enum_type. cbn [z_col tc_type z_type ct_span tc_settings]. eapply (sim_bind same).
    { destruct (split_on 46 raw) as [|a [|b [|? ?]]]; first [reflexivity|apply sim_throw; [reflexivity|exact Hv]]. }
    intros [esch ename] ? <-. destruct (tc_settings c) as [st|]; cbn [option_map]; [|reflexivity]. cbn [z_cst cs_default cs_attributes].
    destruct (cs_default st) as [dv|]; [|reflexivity]. rewrite z_default_span. cbn [opt_all] in Hs.
    destruct (default_span (cs_attributes st)) as [dsp|] eqn:Ed; cbn [option_map]; [|exact Logic.I].
    destruct (lookup_enum_values _ _ _ _) as [[|] [[|] f]]; try (apply sim_throw; [reflexivity|exact Hv]).
    destruct (existsb negb f); [|reflexivity]. apply sim_throw; [reflexivity|]. eapply default_span_valid; [|exact Ed]. apply Hs.
Qed.
Definition zcol (a b : table_col_t) : Prop := b = z_col a.
Lemma z_col_types inp ix c : table_col_ok inp c -> sim zcol (check_col_type ix inp c) (check_col_type ix [] (z_col c)).
Proof.
  intros Hc. unfold check_col_type. eapply sim_bind; [apply z_resolve; exact Hc|]. intros tn ? <-. destruct Hc as (_ & _ & _ & Hs & _).
  eapply (sim_bind same); [|reflexivity]. cbn [z_col tc_settings]. destruct (tc_settings c) as [st|]; cbn [option_map]; [|reflexivity].
  cbn [z_cst cs_default cs_attributes]. destruct (cs_default st) as [dv|]; [|reflexivity]. rewrite z_default_span. cbn [opt_all] in Hs.
  destruct (default_span (cs_attributes st)) as [dsp|] eqn:Ed; cbn [option_map]; [|exact Logic.I].
  assert (Hv : valid_span inp dsp) by (eapply default_span_valid; [|exact Ed]; apply Hs). clear Ed.
  assert (T : forall e e', sem_kind e = sem_kind e' -> sim (@eq unit) (throw_err e dsp inp) (throw_err e' zr [])).
  { intros e e' He. apply sim_throw; [exact He|exact Hv]. }
  unfold check_default. cbn [z_col tc_type z_type ct_raw ct_args z_cst cs_nullable].
  destruct dv as [x|x|z|d|b|x|x|]; try reflexivity.
  - destruct tn; try reflexivity; (destruct (ct_args (tc_type c)) as [|[] ?]; try exact Logic.I; try reflexivity);
      first [destruct (negb _); [apply T; reflexivity|reflexivity]|destruct (_ <? _)%Z; [apply T; reflexivity|reflexivity]].
  - destruct tn; try reflexivity; (destruct (_ || _); [apply T; reflexivity|reflexivity]).
  - destruct tn; try reflexivity; apply T; reflexivity.
  - destruct (nullable_is_null _); [reflexivity|apply T; reflexivity].
Qed.
Definition ztab (a b : table_t) : Prop := b = z_table a.
Lemma forall2_map {A B} (h : A -> B) l l' : Forall2 (fun a b => b = h a) l l' -> l' = map h l.
Proof. intros H. induction H as [|a b l l' E _ IH]; [reflexivity|]. cbn. congruence. Qed.
Lemma z_table_types inp ix t : table_ok inp t -> sim ztab (check_table_types ix inp t) (check_table_types ix [] (z_table t)).
Proof.
  intros (_ & _ & _ & H & _). unfold check_table_types. eapply sim_bind; [eapply sim_map; [exact H|]; intros c Hc; apply z_col_types; exact Hc|].
  intros cols cols' E. apply forall2_map in E as ->. reflexivity.
Qed.

(** ** References *)
Definition rv (inp : str) (r : ref_ident_t) : Prop :=
  valid_span inp (ri_span r) /\ opt_all (fun i => valid_span inp (id_span i)) (ri_schema r) /\
  valid_span inp (id_span (ri_table r)) /\ Forall (fun i => valid_span inp (id_span i)) (ri_compositions r).
(** [r'] says what [r] says, at no place. *)
Definition rz (r r' : ref_ident_t) : Prop := z_rid r = z_rid r' /\ rv [] r'.
Lemma rz_z r : rz r (z_rid r).
Proof.
  split.
  - unfold z_rid. cbn. f_equal; [destruct (ri_schema r); reflexivity|]. rewrite map_map. reflexivity.
  - unfold rv. cbn. split; [apply valid_zero|]. split; [destruct (ri_schema r); [apply valid_zero|exact Logic.I]|]. split; [apply valid_zero|].
    apply Forall_map, Forall_forall. intros i _. apply valid_zero.
Qed.
Lemma rz_parts r r' : rz r r' -> option_map id_str (ri_schema r) = option_map id_str (ri_schema r') /\
  id_str (ri_table r) = id_str (ri_table r') /\ map id_str (ri_compositions r) = map id_str (ri_compositions r').
Proof.
  intros [E _]. unfold z_rid in E. injection E as E1 E2 E3. split; [|split; [exact E2|]].
  - destruct (ri_schema r), (ri_schema r'); unfold z_ident in E1; cbn in *; congruence.
  - apply (f_equal (map id_str)) in E3. rewrite !map_map in E3. exact E3.
Qed.
Lemma rv_resolve inp ix r : rv inp r -> rv inp (resolve_ref_alias ix r).
Proof.
  intros (H1 & H2 & H3 & H4). unfold resolve_ref_alias. destruct (resolve_alias ix _) as [[sch tbl]|]; [|unfold rv; auto].
  unfold rv. cbn. auto.
Qed.
Lemma rz_resolve ix r r' : rz r r' -> rz (resolve_ref_alias ix r) (resolve_ref_alias ix r').
Proof.
  intros H. pose proof (rz_parts _ _ H) as (_ & E & _). destruct H as [Hz Hv]. split; [|apply rv_resolve; exact Hv].
  unfold resolve_ref_alias. rewrite <- E. destruct (resolve_alias ix _) as [[sch tbl]|]; [|exact Hz].
  unfold z_rid in *. cbn. injection Hz as _ _ E3. rewrite E3. reflexivity.
Qed.
Lemma z_eq_ref a a' b b' : rz a a' -> rz b b' -> eq_ref_ident a b = eq_ref_ident a' b'.
Proof.
  intros Ha Hb. apply rz_parts in Ha as (A1 & A2 & A3). apply rz_parts in Hb as (B1 & B2 & B3). unfold eq_ref_ident.
  rewrite A1, A2, A3, B1, B2, B3. reflexivity.
Qed.
Lemma z_occupy ix a b : occupy_same_column (z_iref a) (z_iref b) ix = occupy_same_column a b ix.
Proof.
  assert (K : forall r q, eq_ref_ident (resolve_ref_alias ix (z_rid r)) (resolve_ref_alias ix (z_rid q)) =
                          eq_ref_ident (resolve_ref_alias ix r) (resolve_ref_alias ix q)).
  { intros r q. symmetry. apply z_eq_ref; apply rz_resolve, rz_z. }
  unfold occupy_same_column, occupied_ident. cbn [z_iref ir_rel ir_lhs ir_rhs forallb existsb]. rewrite !K.
  destruct (ir_rel a), (ir_rel b); cbn; rewrite ?K; reflexivity.
Qed.

Lemma find_map {A B} (h : A -> B) (p : A -> bool) (q : B -> bool) l : (forall a, q (h a) = p a) ->
  find q (map h l) = option_map h (find p l).
Proof. intros K. induction l as [|a l IH]; cbn; [reflexivity|]. rewrite K. destruct (p a); [reflexivity|exact IH]. Qed.
Lemma z_or_default o o' : option_map id_str o = option_map id_str o' -> schema_or_default o = schema_or_default o'.
Proof. destruct o, o'; cbn; congruence. Qed.
Lemma throw_nil {A B} (R : A -> B -> Prop) e e' sp sp' inp : sem_kind e = sem_kind e' -> valid_span inp sp -> valid_span [] sp' ->
  sim R (throw_err e sp inp) (throw_err e' sp' []).
Proof. intros He Hv Hv'. apply valid_ok in Hv, Hv'. unfold throw_err. rewrite Hv, Hv'. cbn. exact He. Qed.
Lemma z_lookup inp ix r r' : rv inp r -> rz r r' ->
  sim same (lookup_table_fields ix (ri_schema r) (ri_table r) (ri_compositions r) inp)
           (lookup_table_fields ix (ri_schema r') (ri_table r') (ri_compositions r') []).
Proof.
  intros (V1 & V2 & V3 & V4) H. pose proof (rz_parts _ _ H) as (E1 & E2 & E3). destruct H as [_ (W1 & W2 & W3 & W4)].
  unfold lookup_table_fields. rewrite <- (z_or_default _ _ E1), <- E2. destruct (map_get (schema_map ix) _) as [b|].
  - destruct (map_get (table_map b) _) as [cols|]; [|apply throw_nil; [reflexivity|assumption|assumption]].
    clear - V4 W4 E3. revert E3 W4. generalize (ri_compositions r'). induction V4 as [|i l Hi _ IH]; intros [|j l'] E W; cbn in E; try discriminate; [reflexivity|].
    injection E as E0 E. inversion W as [|? ? Hj Hl]; subst. cbn [find]. rewrite <- E0.
    destruct (negb _); [apply throw_nil; [reflexivity|exact Hi|exact Hj]|]. apply IH; assumption.
  - apply throw_nil; [reflexivity| |].
    + destruct (ri_schema r); [exact V2|apply valid_zero].
    + destruct (ri_schema r'); [exact W2|apply valid_zero].
Qed.
Lemma z_opt_str o : option_map id_str (option_map z_ident o) = option_map id_str o.
Proof. destruct o; reflexivity. Qed.
Lemma z_find_table inp ts r r' : rv inp r -> rz r r' ->
  sim ztab (find_ref_table ts r inp) (find_ref_table (map z_table ts) r' []).
Proof.
  intros (V1 & _) H. pose proof (rz_parts _ _ H) as (E1 & E2 & E3). destruct H as [_ (W1 & _)]. unfold find_ref_table.
  rewrite (find_map z_table (fun t => same_table (ti_schema (tb_ident t)) (ti_name (tb_ident t)) (ri_schema r) (ri_table r))).
  - destruct (find _ ts) as [t|]; cbn [option_map]; [reflexivity|]. apply throw_nil; [reflexivity|assumption|assumption].
  - intros t. unfold same_table. cbn [z_table tb_ident z_tid ti_schema ti_name z_ident id_str]. rewrite z_opt_str, E1, E2. reflexivity.
Qed.
Lemma z_find_col inp t c c' : valid_span inp (id_span c) -> valid_span [] (id_span c') -> id_str c = id_str c' ->
  sim zcol (find_ref_col c t inp) (find_ref_col c' (z_table t) []).
Proof.
  intros V W E. unfold find_ref_col. cbn [z_table tb_cols].
  rewrite (find_map z_col (fun col => str_eqb (id_str (tc_name col)) (id_str c))).
  - destruct (find _ (tb_cols t)) as [col|]; cbn [option_map]; [reflexivity|]. apply throw_nil; [reflexivity|assumption|assumption].
  - intros col. rewrite E. reflexivity.
Qed.
Lemma z_composite comps comps' ib : map id_str comps = map id_str comps' ->
  is_valid_composite comps' (option_map z_ib ib) = is_valid_composite comps ib.
Proof.
  intros E. unfold is_valid_composite. destruct ib as [b|]; cbn [option_map]; [|reflexivity]. cbn [z_ib ib_defs].
  assert (El : List.length comps = List.length comps') by (rewrite <- (map_length id_str comps), E, map_length; reflexivity).
  induction (ib_defs b) as [|d l IH]; cbn [existsb map]; [reflexivity|]. rewrite IH. f_equal. cbn [z_idef idf_cols idf_settings].
  rewrite map_length, z_named, E, El. destruct (idf_settings d); reflexivity.
Qed.
Definition irv (inp : str) (r : indexed_ref) : Prop :=
  valid_span inp (ir_span r) /\ rv inp (ir_lhs r) /\ rv inp (ir_rhs r) /\
  opt_all (fun x => Forall (attribute_ok inp) (rs_attributes x)) (ir_settings r).
Lemma z_throw_fk inp (x y : option (fk_err * range)) : option_map fst x = option_map fst y ->
  (forall e sp, x = Some (e, sp) -> valid_span inp sp) -> (forall e sp, y = Some (e, sp) -> sp = zr) ->
  sim same (throw_fk x inp) (throw_fk y []).
Proof.
  intros E V W. destruct x as [[e sp]|], y as [[e' sp']|]; cbn in E; try discriminate; [|reflexivity]. injection E as ->.
  cbn. rewrite (W _ _ eq_refl). apply sim_throw; [reflexivity|eapply V; reflexivity].
Qed.
Lemma forall2_combine {A B C D} (P : A -> C -> Prop) (Q : B -> D -> Prop) l l' k k' : Forall2 P l l' -> Forall2 Q k k' ->
  Forall2 (fun x y => P (fst x) (fst y) /\ Q (snd x) (snd y)) (combine l k) (combine l' k').
Proof.
  intros H. revert k k'. induction H as [|a b l l' Hab _ IH]; intros k k' HQ; cbn [combine]; [constructor|].
  inversion HQ as [|? ? ? ? Hcd Hk]; subst; cbn [combine]; [constructor|]. constructor; [auto|]. apply IH. exact Hk.
Qed.
Lemma sim_fold2 {A A' B B'} (R : B -> B' -> Prop) (P : A -> A' -> Prop) (f : B -> A -> outcome B) (g : B' -> A' -> outcome B') l l' :
  Forall2 P l l' -> (forall a a' acc acc', P a a' -> R acc acc' -> sim R (f acc a) (g acc' a')) ->
  forall acc acc', R acc acc' -> sim R (try_fold f l acc) (try_fold g l' acc').
Proof.
  intros HF K. induction HF as [|a a' l l' Ha _ IH]; intros acc acc' H; cbn [try_fold]; [exact H|].
  eapply sim_bind; [apply K; eassumption|]. intros b b' Hb. apply IH. exact Hb.
Qed.
Definition cz (inp : str) (i j : ident_t) : Prop := valid_span inp (id_span i) /\ valid_span [] (id_span j) /\ id_str i = id_str j.
Lemma rz_comps inp r r' : rv inp r -> rz r r' -> Forall2 (cz inp) (ri_compositions r) (ri_compositions r').
Proof.
  intros (_ & _ & _ & V) H. pose proof (rz_parts _ _ H) as (_ & _ & E). destruct H as [_ (_ & _ & _ & W)].
  revert E W. generalize (ri_compositions r'). induction V as [|i l Hi _ IH]; intros [|j l'] E W; cbn in E; try discriminate; constructor.
  - injection E as E0 _. inversion W; subst. split; [exact Hi|]. split; assumption.
  - injection E as _ E. inversion W; subst. apply IH; assumption.
Qed.
Lemma z_pair inp self lt rt n p p' : irv inp self -> cz inp (fst p) (fst p') /\ cz inp (snd p) (snd p') ->
  sim same (validate_field_pair self lt rt n inp tt p) (validate_field_pair (z_iref self) (z_table lt) (z_table rt) n [] tt p').
Proof.
  intros (V & Vl & Vr & _) [(A1 & A2 & A3) (B1 & B2 & B3)]. destruct p as [l r], p' as [l' r']. cbn [fst snd] in *. unfold validate_field_pair.
  eapply sim_bind; [apply (z_find_col _ lt); assumption|]. intros lc ? ->. eapply sim_bind; [apply (z_find_col _ rt); assumption|]. intros rc ? ->.
  eapply (sim_bind same).
  - unfold col_types_differ. cbn [z_col tc_type z_type ct_type_name ct_args ct_arrays].
    destruct (_ || _ || _); [|reflexivity]. apply sim_throw; [|exact V]. cbn [sem_kind]. rewrite A3, B3. reflexivity.
  - intros _ _ _. destruct (Nat.eqb n 1); [|reflexivity].
    assert (K : forall c, col_key (z_col c) = col_key c) by (intros c; unfold col_key; cbn [z_col tc_settings]; destruct (tc_settings c); reflexivity).
    rewrite !K. apply z_throw_fk.
    + unfold single_fk_err. cbn [z_iref ir_rel]. destruct (ir_rel self), (col_key lc), (col_key rc); reflexivity.
    + intros e sp. unfold single_fk_err. destruct (ir_rel self), (col_key lc), (col_key rc); intros E; try discriminate; injection E as _ <-;
        first [exact V|apply Vl|apply Vr].
    + intros e sp. unfold single_fk_err. cbn [z_iref ir_rel]. destruct (ir_rel self), (col_key lc), (col_key rc); intros E; try discriminate; injection E as _ <-; reflexivity.
Qed.
Lemma z_validate inp ix ts r : irv inp r -> sim same (validate_ref_type r ts ix inp) (validate_ref_type (z_iref r) (map z_table ts) ix []).
Proof.
  intros Hr. pose proof Hr as (V & Vl & Vr & _). unfold validate_ref_type. cbn [z_iref ir_lhs ir_rhs ir_span].
  pose proof (rz_resolve ix _ _ (rz_z (ir_lhs r))) as Zl. pose proof (rz_resolve ix _ _ (rz_z (ir_rhs r))) as Zr.
  pose proof (rv_resolve _ ix _ Vl) as Ul. pose proof (rv_resolve _ ix _ Vr) as Ur.
  set (lhs := resolve_ref_alias ix (ir_lhs r)) in *. set (rhs := resolve_ref_alias ix (ir_rhs r)) in *.
  set (lhs' := resolve_ref_alias ix (z_rid (ir_lhs r))) in *. set (rhs' := resolve_ref_alias ix (z_rid (ir_rhs r))) in *.
  assert (El : List.length (ri_compositions lhs') = List.length (ri_compositions lhs)).
  { destruct (rz_parts _ _ Zl) as (_ & _ & E). rewrite <- (map_length id_str (ri_compositions lhs)), E, map_length. reflexivity. }
  assert (Er : List.length (ri_compositions rhs') = List.length (ri_compositions rhs)).
  { destruct (rz_parts _ _ Zr) as (_ & _ & E). rewrite <- (map_length id_str (ri_compositions rhs)), E, map_length. reflexivity. }
  rewrite El, Er. eapply (sim_bind same); [destruct (negb _); [apply sim_throw; [reflexivity|exact V]|reflexivity]|]. intros _ _ _.
  eapply sim_bind; [apply z_lookup; assumption|]. intros _ _ _. eapply sim_bind; [apply z_lookup; assumption|]. intros _ _ _.
  eapply sim_bind; [apply z_find_table; assumption|]. intros lt ? ->. eapply sim_bind; [apply z_find_table; assumption|]. intros rt ? ->.
  eapply (sim_bind same).
  - eapply sim_fold2; [apply forall2_combine; apply rz_comps; eassumption| |reflexivity]. intros p p' [] [] Hp _. apply (z_pair _ r lt rt); assumption.
  - intros _ _ _. destruct (Nat.leb 2 _); [|reflexivity]. cbn [z_table tb_indexes z_rid ri_compositions].
    rewrite !(z_composite (ri_compositions (ir_lhs r)) (map z_ident (ri_compositions (ir_lhs r)))) by (rewrite map_map; reflexivity).
    rewrite !(z_composite (ri_compositions (ir_rhs r)) (map z_ident (ri_compositions (ir_rhs r)))) by (rewrite map_map; reflexivity).
    generalize (is_valid_composite (ri_compositions (ir_lhs r)) (tb_indexes lt)), (is_valid_composite (ri_compositions (ir_rhs r)) (tb_indexes rt)).
    intros a b. apply z_throw_fk.
    + unfold composite_fk_err. change (ir_rel (z_iref r)) with (ir_rel r). destruct (ir_rel r), a, b; reflexivity.
    + intros e sp. unfold composite_fk_err. destruct (ir_rel r), a, b; cbn; intros E; try discriminate; injection E as _ <-;
        first [exact V|apply Vl|apply Vr].
    + intros e sp. unfold composite_fk_err. change (ir_rel (z_iref r)) with (ir_rel r). destruct (ir_rel r), a, b; cbn; intros E; try discriminate; injection E as _ <-; reflexivity.
Qed.
Lemma z_count {A B} (h : A -> B) (p : A -> bool) (q : B -> bool) l : (forall a, q (h a) = p a) ->
  List.length (filter q (map h l)) = List.length (filter p l).
Proof. intros K. induction l as [|a l IH]; cbn; [reflexivity|]. rewrite K. destruct (p a); cbn; congruence. Qed.
Lemma z_check_ref inp irs ts ix r : irv inp r ->
  sim same (check_ref irs ts ix inp tt r) (check_ref (map z_iref irs) (map z_table ts) ix [] tt (z_iref r)).
Proof.
  intros Hr. pose proof Hr as (V & _ & _ & Va). unfold check_ref. cbn [z_iref ir_settings ir_span].
  eapply sim_bind; [apply (z_opt_attrs rs_attributes z_rst); [reflexivity|exact Va]|]. intros _ _ _.
  eapply sim_bind; [apply (z_validate _ ix ts r); exact Hr|]. intros _ _ _.
  change (mkIndexedRef _ _ _ _ _) with (z_iref r). rewrite (z_count z_iref (fun o => occupy_same_column r o ix)) by (intros a; apply z_occupy).
  destruct (negb _); [apply sim_throw; [reflexivity|exact V]|reflexivity].
Qed.

(** ** The whole check *)
Lemma z_filter {A} (f : block -> option A) (h : A -> A) l : (forall b, f (z_block b) = option_map h (f b)) ->
  filter_map f (map z_block l) = map h (filter_map f l).
Proof.
  intros K. unfold filter_map. induction l as [|b l IH]; cbn; [reflexivity|]. rewrite K, IH, map_app. destruct (f b); reflexivity.
Qed.
Lemma z_projects x : projects (z_schema x) = map z_project (projects x).
Proof. apply z_filter. intros []; reflexivity. Qed.
Lemma z_tables x : tables (z_schema x) = map z_table (tables x).
Proof. apply z_filter. intros []; reflexivity. Qed.
Lemma z_groups x : table_groups (z_schema x) = map z_group (table_groups x).
Proof. apply z_filter. intros []; reflexivity. Qed.
Lemma z_refs x : refs (z_schema x) = map z_ref (refs x).
Proof. apply z_filter. intros []; reflexivity. Qed.
Lemma z_enums x : enums (z_schema x) = map z_enum (enums x).
Proof. apply z_filter. intros []; reflexivity. Qed.

Lemma rid_rv inp r : ref_ident_ok inp r -> rv inp r.
Proof.
  intros (H1 & H2 & H3 & _ & H4 & _). split; [exact H1|]. split; [eapply opt_impl; [|exact H2]; apply ident_valid|].
  split; [apply ident_valid; exact H3|]. eapply Forall_impl; [|exact H4]. apply ident_valid.
Qed.
Lemma inlines_irv inp t : table_ok inp t -> Forall (irv inp) (flat_map (col_inline_refs t) (tb_cols t)).
Proof.
  intros (_ & (_ & H1 & H2 & _) & _ & H3 & _). apply Forall_forall. intros r Hr. apply in_flat_map in Hr as (c & Hc & Hr).
  apply (forall_in _ _ _ H3) in Hc as (_ & H4 & _ & H5 & _). unfold col_inline_refs, from_inline in Hr.
  apply in_map_iff in Hr as (i & <- & Hi). destruct (tc_settings c) as [st|]; [|destruct Hi]. destruct H5 as (_ & _ & H5 & _).
  apply (forall_in _ _ _ H5) in Hi as (H6 & H7 & _). split; [exact H6|]. split; [|split; [apply rid_rv; exact H7|exact Logic.I]].
  cbn [ir_lhs]. unfold rv. cbn [ri_span ri_schema ri_table ri_compositions]. split; [exact H6|].
  split; [eapply opt_impl; [|exact H1]; apply ident_valid|]. split; [apply ident_valid; exact H2|]. constructor; [apply ident_valid; exact H4|constructor].
Qed.
Lemma block_irv inp r : ref_block_ok inp r -> irv inp (indexed_ref_from_block r).
Proof.
  intros (H1 & _ & _ & H2 & H3 & H4 & _). split; [exact H1|]. split; [apply rid_rv; exact H2|]. split; [apply rid_rv; exact H3|].
  eapply opt_impl; [|exact H4]. intros st Hst. apply Hst.
Qed.

Theorem z_analyze inp x : schema_ok inp x ->
  sim (fun a b => indexed_refs b = map z_iref (indexed_refs a) /\ an_indexer b = an_indexer a) (analyze x) (analyze (z_schema x)).
Proof.
  intros K. pose proof (fun t => in_tables _ _ K t) as Kt. pose proof (fun t => in_enums _ _ K t) as Ke. pose proof (fun t => in_groups _ _ K t) as Kg.
  pose proof (fun t => in_projects _ _ K t) as Kp. pose proof (fun t => in_refs _ _ K t) as Kr.
  apply Forall_forall in Kt, Ke, Kg, Kp, Kr. assert (Hw : valid_span inp (sb_span x)) by (destruct K as (_ & -> & _); apply valid_whole).
  destruct K as (Ei & _). unfold analyze. rewrite Ei. change (sb_input (z_schema x)) with (@nil char). rewrite !z_tables, z_enums, z_groups, z_refs.
  eapply (sim_bind same).
  { unfold check_projects. rewrite !z_projects, Ei. change (sb_input (z_schema x)) with (@nil char). change (sb_span (z_schema x)) with zr. rewrite map_length.
    eapply (sim_bind same); [destruct (Nat.ltb 1 _); [apply sim_throw; [reflexivity|exact Hw]|reflexivity]|]. intros _ _ _.
    destruct (projects x) as [|p l]; cbn [map]; [apply sim_throw; [reflexivity|exact Hw]|]. cbn [z_project pj_properties]. apply z_prop_keys.
    inversion Kp as [|? ? Hp]; subst. apply Hp. }
  intros _ _ _. eapply sim_bind; [apply z_index_table; exact Kt|]. intros ix ? <-. eapply sim_bind; [apply z_index_enums; exact Ke|]. clear ix. intros ix ? <-.
  eapply sim_bind; [apply z_index_groups; exact Kg|]. clear ix. intros ix ? <-.
  eapply (sim_bind (fun a b => b = map (map z_iref) a /\ Forall (Forall (irv inp)) a)).
  { induction Kt as [|t l Ht _ IH]; cbn [map try_map]; [split; [reflexivity|constructor]|].
    eapply (sim_bind (fun a b => b = map z_iref a /\ Forall (irv inp) a)).
    - pose proof (z_check_table _ _ Ht) as H. pose proof (inlines_irv _ _ Ht) as H'. unfold check_table in *.
      destruct (try_fold (check_col_settings inp) (tb_cols t) table_indexer0) as [ti|[]|]; cbn [bind] in *; try exact H.
      destruct (match tb_indexes t with Some ib => _ | None => _ end) as [[]|[]|]; cbn [bind] in *; try exact H.
      destruct (let? _ := _ in _) as [|[]|]; cbn [sim] in H |- *; try exact H. auto.
    - intros a ? [-> Ha]. eapply sim_bind; [exact IH|]. intros aa ? [-> Haa]. cbn. auto. }
  intros inl ? [-> Hinl]. eapply sim_bind; [eapply sim_map; [exact Kt|]; intros t Ht; apply (z_table_types _ ix); exact Ht|].
  intros ts ts' E. apply forall2_map in E as ->.
  assert (Em : map indexed_ref_from_block (map z_ref (refs x)) ++ List.concat (map (map z_iref) inl) =
               map z_iref (map indexed_ref_from_block (refs x) ++ List.concat inl)).
  { rewrite map_app, !map_map, concat_map. reflexivity. }
  rewrite Em. assert (HF : Forall (irv inp) (map indexed_ref_from_block (refs x) ++ List.concat inl)).
  { apply Forall_app. split; [apply Forall_map; eapply Forall_impl; [|exact Kr]; apply block_irv|]. apply Forall_concat. exact Hinl. }
  eapply (sim_bind same); [|intros _ _ _; cbn; split; reflexivity].
  eapply sim_fold; [exact HF| |reflexivity]. intros r [] [] Hr _. apply z_check_ref. exact Hr.
Qed.
