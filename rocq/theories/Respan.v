(** * Respan: the same AST at other places (specification only).

    [at_schema f] and the others: the node with [f] applied to every span in it, and
    nothing else changed. *)

From Verif Require Export Err.

Section Respan.
Variable f : range -> range.

Definition at_ident (x : ident_t) : ident_t := mkIdent (f (id_span x)) (id_raw x) (id_str x).
Definition at_lit (x : literal) : literal := mkLiteral (f (lit_span x)) (lit_raw x) (lit_value x).
Definition at_attr (x : attribute_t) : attribute_t := mkAttr (f (at_span x)) (at_ident (at_key x)) (option_map at_lit (at_value x)).
Definition at_prop (x : property_t) : property_t := mkProp (f (pr_span x)) (at_ident (pr_key x)) (at_lit (pr_value x)).
Definition at_note (x : note_t) : note_t := mkNote (f (nb_span x)) (at_lit (nb_value x)).
Definition at_project (x : project_t) : project_t :=
  mkProject (f (pj_span x)) (map at_prop (pj_properties x)) (at_ident (pj_ident x)) (pj_database_type x) (option_map at_note (pj_note x)).
Definition at_end (x : ref_ident_t) : ref_ident_t :=
  mkRefIdent (f (ri_span x)) (option_map at_ident (ri_schema x)) (at_ident (ri_table x)) (map at_ident (ri_compositions x)).
Definition at_inline (x : ref_inline_t) : ref_inline_t := mkRefInline (f (rin_span x)) (rin_rel x) (at_end (rin_rhs x)).
Definition at_ref_settings (x : ref_settings_t) : ref_settings_t :=
  mkRefSettings (f (rs_span x)) (map at_attr (rs_attributes x)) (rs_on_delete x) (rs_on_update x).
Definition at_ref (x : ref_block_t) : ref_block_t :=
  mkRefBlock (f (rb_span x)) (option_map at_ident (rb_name x)) (rb_rel x) (at_end (rb_lhs x)) (at_end (rb_rhs x))
    (option_map at_ref_settings (rb_settings x)).
Definition at_enum_settings (x : enum_value_settings_t) : enum_value_settings_t :=
  mkEnumValueSettings (f (evs_span x)) (map at_attr (evs_attributes x)) (evs_note x).
Definition at_enum_value (x : enum_value_t) : enum_value_t :=
  mkEnumValue (f (ev_span x)) (at_ident (ev_value x)) (option_map at_enum_settings (ev_settings x)).
Definition at_enum_ident (x : enum_ident_t) : enum_ident_t :=
  mkEnumIdent (f (ei_span x)) (option_map at_ident (ei_schema x)) (at_ident (ei_name x)).
Definition at_enum (x : enum_t) : enum_t := mkEnum (f (en_span x)) (at_enum_ident (en_ident x)) (map at_enum_value (en_values x)).
Definition at_index_col (x : indexes_col) : indexes_col :=
  match x with ICString i => ICString (at_ident i) | ICExpr l => ICExpr (at_lit l) end.
Definition at_index_settings (x : indexes_settings_t) : indexes_settings_t :=
  mkIndexesSettings (f (is_span x)) (map at_attr (is_attributes x)) (is_type x) (is_is_unique x) (is_is_pk x) (is_note x) (is_name x).
Definition at_index (x : indexes_def) : indexes_def :=
  mkIndexesDef (f (idf_span x)) (map at_index_col (idf_cols x)) (option_map at_index_settings (idf_settings x)).
Definition at_indexes (x : indexes_block_t) : indexes_block_t := mkIndexesBlock (f (ib_span x)) (map at_index (ib_defs x)).
Definition at_type (x : col_type_t) : col_type_t := mkColType (f (ct_span x)) (ct_raw x) (ct_type_name x) (ct_args x) (ct_arrays x).
Definition at_col_settings (x : col_settings_t) : col_settings_t :=
  mkColSettings (f (cs_span x)) (map at_attr (cs_attributes x)) (cs_is_pk x) (cs_is_unique x) (cs_nullable x) (cs_is_incremental x)
    (cs_note x) (cs_default x) (map at_inline (cs_refs x)).
Definition at_col (x : table_col_t) : table_col_t :=
  mkTableCol (f (tc_span x)) (at_ident (tc_name x)) (at_type (tc_type x)) (option_map at_col_settings (tc_settings x)).
Definition at_table_ident (x : table_ident_t) : table_ident_t :=
  mkTableIdent (f (ti_span x)) (at_ident (ti_name x)) (option_map at_ident (ti_schema x)) (option_map at_ident (ti_alias x)).
Definition at_table_settings (x : table_settings_t) : table_settings_t := mkTableSettings (f (ts_span x)) (map at_attr (ts_attributes x)).
Definition at_table (x : table_t) : table_t :=
  mkTable (f (tb_span x)) (map at_col (tb_cols x)) (at_table_ident (tb_ident x)) (option_map at_note (tb_note x))
    (option_map at_indexes (tb_indexes x)) (option_map at_table_settings (tb_settings x)).
Definition at_group_settings (x : group_settings_t) : group_settings_t := mkGroupSettings (f (gs_span x)) (map at_attr (gs_attributes x)).
Definition at_group_item (x : group_item_t) : group_item_t :=
  mkGroupItem (f (gi_span x)) (option_map at_ident (gi_schema x)) (at_ident (gi_ident_alias x)).
Definition at_group (x : group_t) : group_t :=
  mkGroup (f (tg_span x)) (at_ident (tg_ident x)) (option_map at_note (tg_note x)) (map at_group_item (tg_items x))
    (option_map at_group_settings (tg_settings x)).
Definition at_block (b : block) : block :=
  match b with
  | BProject p => BProject (at_project p) | BTable t => BTable (at_table t) | BTableGroup g => BTableGroup (at_group g)
  | BNote n => BNote (at_note n) | BRef r => BRef (at_ref r) | BEnum e => BEnum (at_enum e)
  end.
End Respan.

(** [d] bytes further on.  The range [(0, 0)] is no place (no node is empty; the one error
    without a place has it) and stays. *)
Definition further (d : N) (sp : range) : range := if snd sp =? 0 then sp else (fst sp + d, snd sp + d).
(** The AST of the text [t] with [g] put before it, and what becomes of an error.  The range
    of the whole input stays that. *)
Definition schema_after (g : str) (x : schema_t) : schema_t :=
  mkSchema (0, blen (g ++ sb_input x)) (g ++ sb_input x) (map (at_block (further (blen g))) (sb_blocks x)).
Definition error_after (g t : str) (e : error) : error :=
  match e with
  | ErGrammar => ErGrammar
  | ErRules rs sp => ErRules rs (further (blen g) sp)
  | ErMsg m sp => ErMsg m (further (blen g) sp)
  | ErSem DuplicateProjectSetting _ => ErSem DuplicateProjectSetting (0, blen (g ++ t))
  | ErSem ProjectSettingNotFound _ => ErSem ProjectSettingNotFound (0, blen (g ++ t))
  | ErSem e sp => ErSem e (further (blen g) sp)
  end.
Definition after (g t : str) (r : outcome schema_t) : outcome schema_t :=
  match r with
  | Ok x => Ok (schema_after g x)
  | Err e => Err (error_after g t e)
  | Panic => Panic
  end.

(** One text put after another, with a line end between.  A short reference without settings
    at the very end of the first text reaches as far as the layout after it, so it grows:
    [stretch n e]. *)
Definition stretch (n e : N) (b : block) : block :=
  match b with
  | BRef r =>
      match rb_settings r with
      | None => if snd (rb_span r) =? n then BRef (mkRefBlock (fst (rb_span r), e) (rb_name r) (rb_rel r) (rb_lhs r) (rb_rhs r) None) else b
      | Some _ => b
      end
  | _ => b
  end.
(** [joined e x y]: the nodes of [x], then those of [y] further on; [e] is where the layout
    after the first text ends. *)
Definition joined (e : N) (x y : schema_t) : schema_t :=
  mkSchema (0, blen (sb_input x ++ 10 :: sb_input y)) (sb_input x ++ 10 :: sb_input y)
    (map (stretch (blen (sb_input x)) e) (sb_blocks x) ++ map (at_block (further (blen (sb_input x) + 1))) (sb_blocks y)).
(** The answer to the joined texts, from the two answers. *)
Definition join (e : N) (t1 t2 : str) (r1 r2 : outcome schema_t) : outcome schema_t :=
  match r1, r2 with
  | Ok x, Ok y => Ok (joined e x y)
  | Ok x, Err er => Err (error_after (t1 ++ [10]) t2 er)
  | _, Panic => Panic
  | _, _ => r1
  end.
