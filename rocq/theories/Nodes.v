(** * Nodes: enumerating the parts of an AST (specification only). *)

From Verif Require Export AstSpec.

Definition opt_flat {A B} (f : A -> list B) (o : option A) : list B := match o with Some a => f a | None => [] end.

(** ** The settings lists, columns, references of a schema *)
Definition all_cols (x : schema_t) : list table_col_t := flat_map tb_cols (tables x).
Definition all_col_settings (x : schema_t) : list col_settings_t :=
  flat_map (fun c => opt_list (fun st => st) (tc_settings c)) (all_cols x).
Definition all_index_defs (x : schema_t) : list indexes_def :=
  flat_map (fun t => opt_flat ib_defs (tb_indexes t)) (tables x).
Definition all_index_settings (x : schema_t) : list indexes_settings_t :=
  flat_map (fun d => opt_list (fun st => st) (idf_settings d)) (all_index_defs x).
Definition all_enum_values (x : schema_t) : list enum_value_t := flat_map en_values (enums x).
Definition all_enum_settings (x : schema_t) : list enum_value_settings_t :=
  flat_map (fun v => opt_list (fun st => st) (ev_settings v)) (all_enum_values x).
Definition all_ref_settings (x : schema_t) : list ref_settings_t :=
  flat_map (fun r => opt_list (fun st => st) (rb_settings r)) (refs x).
Definition all_ref_inlines (x : schema_t) : list ref_inline_t := flat_map cs_refs (all_col_settings x).
Definition notes (x : schema_t) : list note_t :=
  flat_map (fun b => match b with BNote n => [n] | _ => [] end) (sb_blocks x).
(** Every note, at top level or in a block. *)
Definition all_notes (x : schema_t) : list note_t :=
  notes x ++ flat_map (fun p => opt_list (fun n => n) (pj_note p)) (projects x)
  ++ flat_map (fun t => opt_list (fun n => n) (tb_note t)) (tables x)
  ++ flat_map (fun g => opt_list (fun n => n) (tg_note g)) (table_groups x).
(** Every settings list: its span and its attributes. *)
Definition all_settings (x : schema_t) : list (range * list attribute_t) :=
  flat_map (fun t => opt_list (fun st => (ts_span st, ts_attributes st)) (tb_settings t)) (tables x)
  ++ flat_map (fun g => opt_list (fun st => (gs_span st, gs_attributes st)) (tg_settings g)) (table_groups x)
  ++ map (fun st => (cs_span st, cs_attributes st)) (all_col_settings x)
  ++ map (fun st => (is_span st, is_attributes st)) (all_index_settings x)
  ++ map (fun st => (evs_span st, evs_attributes st)) (all_enum_settings x)
  ++ map (fun st => (rs_span st, rs_attributes st)) (all_ref_settings x).
Definition all_attributes (x : schema_t) : list attribute_t := flat_map snd (all_settings x).
Definition all_properties (x : schema_t) : list property_t := flat_map pj_properties (projects x).
Definition all_endpoints (x : schema_t) : list ref_ident_t :=
  flat_map (fun r => [rb_lhs r; rb_rhs r]) (refs x) ++ map rin_rhs (all_ref_inlines x).

(** ** Identifiers, literals, types, spans *)
(** Names (keys of attributes and properties are apart). *)
Definition all_idents (x : schema_t) : list ident_t :=
  map pj_ident (projects x)
  ++ flat_map (fun t => opt_list (fun i => i) (ti_schema (tb_ident t)) ++ ti_name (tb_ident t)
                        :: opt_list (fun i => i) (ti_alias (tb_ident t))) (tables x)
  ++ map tc_name (all_cols x)
  ++ flat_map (fun d => flat_map (fun c => match c with ICString i => [i] | ICExpr _ => [] end) (idf_cols d)) (all_index_defs x)
  ++ flat_map (fun g => tg_ident g :: flat_map (fun i => opt_list (fun i => i) (gi_schema i) ++ [gi_ident_alias i]) (tg_items g))
       (table_groups x)
  ++ flat_map (fun e => opt_list (fun i => i) (ei_schema (en_ident e)) ++ [ei_name (en_ident e)]) (enums x)
  ++ map ev_value (all_enum_values x)
  ++ flat_map (fun r => opt_list (fun i => i) (rb_name r)) (refs x)
  ++ flat_map (fun r => opt_list (fun i => i) (ri_schema r) ++ ri_table r :: ri_compositions r) (all_endpoints x).
Definition all_keys (x : schema_t) : list ident_t := map at_key (all_attributes x) ++ map pr_key (all_properties x).
Definition all_literals (x : schema_t) : list literal :=
  flat_map (fun a => opt_list (fun l => l) (at_value a)) (all_attributes x)
  ++ map pr_value (all_properties x) ++ map nb_value (all_notes x).
(** Expressions of index definitions. *)
Definition all_index_exprs (x : schema_t) : list literal :=
  flat_map (fun d => flat_map (fun c => match c with ICString _ => [] | ICExpr l => [l] end) (idf_cols d)) (all_index_defs x).
Definition all_types (x : schema_t) : list col_type_t := map tc_type (all_cols x).
Definition all_spans (x : schema_t) : list range :=
  sb_span x :: map block_span (sb_blocks x)
  ++ map id_span (all_idents x) ++ map id_span (all_keys x) ++ map lit_span (all_literals x)
  ++ map lit_span (all_index_exprs x) ++ map ct_span (all_types x)
  ++ map fst (all_settings x) ++ map at_span (all_attributes x) ++ map pr_span (all_properties x)
  ++ map (fun t => ti_span (tb_ident t)) (tables x) ++ map (fun e => ei_span (en_ident e)) (enums x)
  ++ map tc_span (all_cols x) ++ map ev_span (all_enum_values x)
  ++ flat_map (fun t => opt_list ib_span (tb_indexes t)) (tables x) ++ map idf_span (all_index_defs x)
  ++ map gi_span (flat_map tg_items (table_groups x)) ++ map nb_span (all_notes x)
  ++ map ri_span (all_endpoints x) ++ map rin_span (all_ref_inlines x).

(** ** Which part is written inside which *)
Inductive part_of (x : schema_t) : range -> range -> Prop :=
| po_block b : In b (sb_blocks x) -> part_of x (block_span b) (sb_span x)
| po_project p sp : In p (projects x) ->
    In sp (id_span (pj_ident p) :: map pr_span (pj_properties p) ++ opt_list nb_span (pj_note p)) -> part_of x sp (pj_span p)
| po_table t sp : In t (tables x) ->
    In sp (ti_span (tb_ident t) :: opt_list id_span (ti_alias (tb_ident t)) ++ opt_list ts_span (tb_settings t)
           ++ map tc_span (tb_cols t) ++ opt_list nb_span (tb_note t) ++ opt_list ib_span (tb_indexes t)) ->
    part_of x sp (tb_span t)
| po_table_ident t sp : In t (tables x) ->
    In sp (opt_list id_span (ti_schema (tb_ident t)) ++ [id_span (ti_name (tb_ident t))]) -> part_of x sp (ti_span (tb_ident t))
| po_col c sp : In c (all_cols x) ->
    In sp (id_span (tc_name c) :: ct_span (tc_type c) :: opt_list cs_span (tc_settings c)) -> part_of x sp (tc_span c)
| po_inline st r : In st (all_col_settings x) -> In r (cs_refs st) -> part_of x (rin_span r) (cs_span st)
| po_inline_rhs r : In r (all_ref_inlines x) -> part_of x (ri_span (rin_rhs r)) (rin_span r)
| po_indexes t ib d : In t (tables x) -> tb_indexes t = Some ib -> In d (ib_defs ib) -> part_of x (idf_span d) (ib_span ib)
| po_index_def d sp : In d (all_index_defs x) ->
    In sp (map indexes_col_span (idf_cols d) ++ opt_list is_span (idf_settings d)) -> part_of x sp (idf_span d)
| po_group g sp : In g (table_groups x) ->
    In sp (id_span (tg_ident g) :: opt_list gs_span (tg_settings g) ++ map gi_span (tg_items g) ++ opt_list nb_span (tg_note g)) ->
    part_of x sp (tg_span g)
| po_group_item g i sp : In g (table_groups x) -> In i (tg_items g) ->
    In sp (opt_list id_span (gi_schema i) ++ [id_span (gi_ident_alias i)]) -> part_of x sp (gi_span i)
| po_enum e sp : In e (enums x) -> In sp (ei_span (en_ident e) :: map ev_span (en_values e)) -> part_of x sp (en_span e)
| po_enum_ident e sp : In e (enums x) ->
    In sp (opt_list id_span (ei_schema (en_ident e)) ++ [id_span (ei_name (en_ident e))]) -> part_of x sp (ei_span (en_ident e))
| po_enum_value v sp : In v (all_enum_values x) -> In sp (id_span (ev_value v) :: opt_list evs_span (ev_settings v)) ->
    part_of x sp (ev_span v)
| po_ref r sp : In r (refs x) -> In sp (ri_span (rb_lhs r) :: ri_span (rb_rhs r) :: opt_list rs_span (rb_settings r)) ->
    part_of x sp (rb_span r)
| po_endpoint r sp : In r (all_endpoints x) ->
    In sp (opt_list id_span (ri_schema r) ++ id_span (ri_table r) :: map id_span (ri_compositions r)) -> part_of x sp (ri_span r)
| po_note n : In n (all_notes x) -> part_of x (lit_span (nb_value n)) (nb_span n)
| po_settings sp l a : In (sp, l) (all_settings x) -> In a l -> part_of x (at_span a) sp
| po_attribute a sp : In a (all_attributes x) -> In sp (id_span (at_key a) :: opt_list lit_span (at_value a)) -> part_of x sp (at_span a)
| po_property p sp : In p (all_properties x) -> In sp [id_span (pr_key p); lit_span (pr_value p)] -> part_of x sp (pr_span p).

(** Parts written one after the other. *)
Inductive sequence (x : schema_t) : list range -> Prop :=
| sq_blocks : sequence x (map block_span (sb_blocks x))
| sq_properties p : In p (projects x) -> sequence x (id_span (pj_ident p) :: map pr_span (pj_properties p))
| sq_columns t : In t (tables x) ->
    sequence x (ti_span (tb_ident t) :: opt_list id_span (ti_alias (tb_ident t)) ++ opt_list ts_span (tb_settings t)
                ++ map tc_span (tb_cols t))
| sq_column c : In c (all_cols x) -> sequence x (id_span (tc_name c) :: ct_span (tc_type c) :: opt_list cs_span (tc_settings c))
| sq_inlines st : In st (all_col_settings x) -> sequence x (map rin_span (cs_refs st))
| sq_defs t ib : In t (tables x) -> tb_indexes t = Some ib -> sequence x (map idf_span (ib_defs ib))
| sq_def d : In d (all_index_defs x) -> sequence x (map indexes_col_span (idf_cols d) ++ opt_list is_span (idf_settings d))
| sq_items g : In g (table_groups x) ->
    sequence x (id_span (tg_ident g) :: opt_list gs_span (tg_settings g) ++ map gi_span (tg_items g))
| sq_values e : In e (enums x) -> sequence x (ei_span (en_ident e) :: map ev_span (en_values e))
| sq_value v : In v (all_enum_values x) -> sequence x (id_span (ev_value v) :: opt_list evs_span (ev_settings v))
| sq_ref r : In r (refs x) ->
    sequence x (opt_list id_span (rb_name r) ++ ri_span (rb_lhs r) :: ri_span (rb_rhs r) :: opt_list rs_span (rb_settings r))
| sq_endpoint r : In r (all_endpoints x) ->
    sequence x (opt_list id_span (ri_schema r) ++ id_span (ri_table r) :: map id_span (ri_compositions r))
| sq_settings sp l : In (sp, l) (all_settings x) -> sequence x (map at_span l)
| sq_attribute a : In a (all_attributes x) -> sequence x (id_span (at_key a) :: opt_list lit_span (at_value a))
| sq_property p : In p (all_properties x) -> sequence x [id_span (pr_key p); lit_span (pr_value p)].
Definition one_after_the_other (l : list range) : Prop := exists lo hi, in_order lo l hi.

(** ** Kinds of blocks *)
Definition is_project (b : block) := match b with BProject _ => true | _ => false end.
Definition is_table (b : block) := match b with BTable _ => true | _ => false end.
Definition is_group (b : block) := match b with BTableGroup _ => true | _ => false end.
Definition is_ref (b : block) := match b with BRef _ => true | _ => false end.
Definition is_enum (b : block) := match b with BEnum _ => true | _ => false end.
Definition is_note_b (b : block) := match b with BNote _ => true | _ => false end.
