(** * CharsAst: the same AST with every character replaced (specification only).

    [sp_schema f] and the others: the node with [f] applied to every character of every
    text in it, names, values, raw spellings and the input, and nothing else changed:
    the spans stay.  [answer_alike f r r']: the answer [r'] is so obtained from [r]. *)

From Verif Require Import Analyzer.
From Verif Require Export Chars.

Section Spelled.
Variable f : char -> char.

Definition sp_ident (x : ident_t) : ident_t := mkIdent (id_span x) (map f (id_raw x)) (map f (id_str x)).
Definition sp_lit (x : literal) : literal := mkLiteral (lit_span x) (map f (lit_raw x)) (r_value f (lit_value x)).
Definition sp_attr (x : attribute_t) : attribute_t := mkAttr (at_span x) (sp_ident (at_key x)) (option_map sp_lit (at_value x)).
Definition sp_prop (x : property_t) : property_t := mkProp (pr_span x) (sp_ident (pr_key x)) (sp_lit (pr_value x)).
Definition sp_note (x : note_t) : note_t := mkNote (nb_span x) (sp_lit (nb_value x)).
Definition sp_database (d : database_type) : database_type := match d with PostgreSQL => PostgreSQL | DbUnknown w => DbUnknown (map f w) end.
Definition sp_project (x : project_t) : project_t :=
  mkProject (pj_span x) (map sp_prop (pj_properties x)) (sp_ident (pj_ident x)) (option_map sp_database (pj_database_type x)) (option_map sp_note (pj_note x)).
Definition sp_end (x : ref_ident_t) : ref_ident_t :=
  mkRefIdent (ri_span x) (option_map sp_ident (ri_schema x)) (sp_ident (ri_table x)) (map sp_ident (ri_compositions x)).
Definition sp_inline (x : ref_inline_t) : ref_inline_t := mkRefInline (rin_span x) (rin_rel x) (sp_end (rin_rhs x)).
Definition sp_ref_settings (x : ref_settings_t) : ref_settings_t :=
  mkRefSettings (rs_span x) (map sp_attr (rs_attributes x)) (rs_on_delete x) (rs_on_update x).
Definition sp_ref (x : ref_block_t) : ref_block_t :=
  mkRefBlock (rb_span x) (option_map sp_ident (rb_name x)) (rb_rel x) (sp_end (rb_lhs x)) (sp_end (rb_rhs x))
    (option_map sp_ref_settings (rb_settings x)).
Definition sp_enum_settings (x : enum_value_settings_t) : enum_value_settings_t :=
  mkEnumValueSettings (evs_span x) (map sp_attr (evs_attributes x)) (option_map (map f) (evs_note x)).
Definition sp_enum_value (x : enum_value_t) : enum_value_t :=
  mkEnumValue (ev_span x) (sp_ident (ev_value x)) (option_map sp_enum_settings (ev_settings x)).
Definition sp_enum_ident (x : enum_ident_t) : enum_ident_t :=
  mkEnumIdent (ei_span x) (option_map sp_ident (ei_schema x)) (sp_ident (ei_name x)).
Definition sp_enum (x : enum_t) : enum_t := mkEnum (en_span x) (sp_enum_ident (en_ident x)) (map sp_enum_value (en_values x)).
Definition sp_index_col (x : indexes_col) : indexes_col :=
  match x with ICString i => ICString (sp_ident i) | ICExpr l => ICExpr (sp_lit l) end.
Definition sp_index_settings (x : indexes_settings_t) : indexes_settings_t :=
  mkIndexesSettings (is_span x) (map sp_attr (is_attributes x)) (is_type x) (is_is_unique x) (is_is_pk x) (option_map (map f) (is_note x)) (option_map (map f) (is_name x)).
Definition sp_index (x : indexes_def) : indexes_def :=
  mkIndexesDef (idf_span x) (map sp_index_col (idf_cols x)) (option_map sp_index_settings (idf_settings x)).
Definition sp_indexes (x : indexes_block_t) : indexes_block_t := mkIndexesBlock (ib_span x) (map sp_index (ib_defs x)).
Definition sp_tn (n : col_type_name) : col_type_name := match n with CT_Raw w => CT_Raw (map f w) | CT_Enum w => CT_Enum (map f w) | n => n end.
Definition sp_type (x : col_type_t) : col_type_t := mkColType (ct_span x) (map f (ct_raw x)) (sp_tn (ct_type_name x)) (map (r_value f) (ct_args x)) (ct_arrays x).
Definition sp_col_settings (x : col_settings_t) : col_settings_t :=
  mkColSettings (cs_span x) (map sp_attr (cs_attributes x)) (cs_is_pk x) (cs_is_unique x) (cs_nullable x) (cs_is_incremental x)
    (option_map (map f) (cs_note x)) (option_map (r_value f) (cs_default x)) (map sp_inline (cs_refs x)).
Definition sp_col (x : table_col_t) : table_col_t :=
  mkTableCol (tc_span x) (sp_ident (tc_name x)) (sp_type (tc_type x)) (option_map sp_col_settings (tc_settings x)).
Definition sp_table_ident (x : table_ident_t) : table_ident_t :=
  mkTableIdent (ti_span x) (sp_ident (ti_name x)) (option_map sp_ident (ti_schema x)) (option_map sp_ident (ti_alias x)).
Definition sp_table_settings (x : table_settings_t) : table_settings_t := mkTableSettings (ts_span x) (map sp_attr (ts_attributes x)).
Definition sp_table (x : table_t) : table_t :=
  mkTable (tb_span x) (map sp_col (tb_cols x)) (sp_table_ident (tb_ident x)) (option_map sp_note (tb_note x))
    (option_map sp_indexes (tb_indexes x)) (option_map sp_table_settings (tb_settings x)).
Definition sp_group_settings (x : group_settings_t) : group_settings_t := mkGroupSettings (gs_span x) (map sp_attr (gs_attributes x)).
Definition sp_group_item (x : group_item_t) : group_item_t :=
  mkGroupItem (gi_span x) (option_map sp_ident (gi_schema x)) (sp_ident (gi_ident_alias x)).
Definition sp_group (x : group_t) : group_t :=
  mkGroup (tg_span x) (sp_ident (tg_ident x)) (option_map sp_note (tg_note x)) (map sp_group_item (tg_items x))
    (option_map sp_group_settings (tg_settings x)).
Definition sp_block (b : block) : block :=
  match b with
  | BProject p => BProject (sp_project p) | BTable t => BTable (sp_table t) | BTableGroup g => BTableGroup (sp_group g)
  | BNote n => BNote (sp_note n) | BRef r => BRef (sp_ref r) | BEnum e => BEnum (sp_enum e)
  end.
Definition sp_schema (x : schema_t) : schema_t := mkSchema (sb_span x) (map f (sb_input x)) (map sp_block (sb_blocks x)).

(** ** Errors, and what the analyzer returns *)
Definition sp_sem (e : sem_err) : sem_err :=
  match e with
  | InvalidDataTypeArguments t n => InvalidDataTypeArguments (map f t) n
  | InvalidDefaultValue v t => InvalidDefaultValue (map f v) (map f t)
  | DataTypeExceeded t => DataTypeExceeded (map f t)
  | MismatchedForeignKeyType a b c d => MismatchedForeignKeyType (map f a) (map f b) (map f c) (map f d)
  | e => e
  end.
Definition sp_outcome {A} (g : A -> A) (o : outcome A) : outcome A :=
  match o with Ok a => Ok (g a) | Err (ErSem e sp) => Err (ErSem (sp_sem e) sp) | o => o end.
Definition sp_iref (r : indexed_ref) : indexed_ref :=
  mkIndexedRef (ir_span r) (ir_rel r) (sp_end (ir_lhs r)) (sp_end (ir_rhs r)) (option_map sp_ref_settings (ir_settings r)).
(** Maps: the keys, and [g] for the values. *)
Definition sp_map {V} (g : V -> V) (m : list (str * V)) : list (str * V) := map (fun p => (map f (fst p), g (snd p))) m.
Definition sp_names (p : str * str) : str * str := (map f (fst p), map f (snd p)).
Definition sp_ischema (b : indexed_schema) : indexed_schema :=
  mkIndexedSchema (sp_map (map (map f)) (table_map b)) (sp_map (map (map f)) (enum_map b)).
Definition sp_indexer (ix : indexer) : indexer :=
  mkIndexer (sp_map (map sp_names) (table_group_map ix)) (sp_map sp_ischema (schema_map ix)) (sp_map sp_names (table_alias_map ix)).
Definition sp_analyzed (a : analyzed_indexer) : analyzed_indexer := mkAnalyzed (map sp_iref (indexed_refs a)) (sp_indexer (an_indexer a)).
Definition sp_table_ref (r : table_ref) : table_ref :=
  mkTableRef (map sp_iref (tr_ref_to r)) (map sp_iref (tr_ref_by r)) (map sp_iref (tr_ref_self r)).

(** ** Answers *)
Definition not_supported (v : str) : str := s "'" ++ v ++ s "' type is not supported!".
(** The same error at the same place; what it quotes is respelled. *)
Definition error_alike (e e' : error) : Prop :=
  match e, e' with
  | ErGrammar, ErGrammar => True
  | ErMsg m sp, ErMsg m' sp' => sp' = sp /\
      (m' = m /\ (forall v, m <> not_supported v) \/ exists v, m = not_supported v /\ m' = not_supported (map f v))
  | ErSem k sp, ErSem k' sp' => sp' = sp /\ k' = sp_sem k
  | _, _ => False
  end.
Definition answer_alike (r r' : option (outcome schema_t)) : Prop :=
  match r, r' with
  | Some (Ok x), Some (Ok y) => y = sp_schema x
  | Some (Err e), Some (Err e') => error_alike e e'
  | Some Panic, Some Panic => True
  | _, _ => False
  end.
End Spelled.
