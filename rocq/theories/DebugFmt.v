(** * DebugFmt: Rust's pretty [{:#?}] output of the AST (all AST types derive
    [Debug]).  Used only to compare the model with the repository's golden files
    tests/out/**/*.ron (tests/mod.rs:58-75); no theorem depends on it. *)

From Verif Require Export Api.

Inductive dbg : Type :=
| DAtom (x : str)
| DStruct (name : string) (fields : list (string * dbg))
| DTuple (name : string) (args : list dbg)
| DList (items : list dbg).

Definition nl : str := [10].
Definition indent (n : nat) : str := List.repeat (32 : N) (4 * n).

Fixpoint show (n : nat) (d : dbg) {struct d} : str :=
  match d with
  | DAtom x => x
  | DStruct name fs =>
      s name ++ s " {" ++ nl
      ++ (fix go (l : list (string * dbg)) : str :=
            match l with
            | [] => []
            | (k, v) :: l' => indent (S n) ++ s k ++ s ": " ++ show (S n) v ++ s "," ++ nl ++ go l'
            end) fs
      ++ indent n ++ s "}"
  | DTuple name args =>
      s name ++ s "(" ++ nl
      ++ (fix go (l : list dbg) : str :=
            match l with
            | [] => []
            | v :: l' => indent (S n) ++ show (S n) v ++ s "," ++ nl ++ go l'
            end) args
      ++ indent n ++ s ")"
  | DList items =>
      match items with
      | [] => s "[]"
      | _ =>
          s "[" ++ nl
          ++ (fix go (l : list dbg) : str :=
                match l with
                | [] => []
                | v :: l' => indent (S n) ++ show (S n) v ++ s "," ++ nl ++ go l'
                end) items
          ++ indent n ++ s "]"
      end
  end.

(** [Debug] escaping of a string (the cases that occur in the test files). *)
Definition esc_char (c : char) : str :=
  if c =? 34 then s "\" ++ [34] else if c =? 92 then s "\\" else if c =? 10 then s "\n"
  else if c =? 13 then s "\r" else if c =? 9 then s "\t"
  else if c =? 65039 then s "\u{fe0f}" else [c].
Definition d_str (x : str) : dbg := DAtom ([34] ++ flat_map esc_char x ++ [34]).
Definition d_sym (x : string) : dbg := DAtom (s x).
Definition d_opt {A} (f : A -> dbg) (o : option A) : dbg :=
  match o with Some a => DTuple "Some" [f a] | None => d_sym "None" end.
Definition d_list {A} (f : A -> dbg) (l : list A) : dbg := DList (map f l).
Definition d_range (r : range) : dbg := DAtom (dec_of_N (fst r) ++ s ".." ++ dec_of_N (snd r)).
Definition d_bool (b : bool) : dbg := d_sym (if b then "true" else "false").
Definition d_N (n : N) : dbg := DAtom (dec_of_N n).
Definition d_f64 (d : f64) : dbg :=
  let x := f64_to_string d in DAtom (if mem_str (s ".") (map (fun c => [c]) x) then x else x ++ s ".0").

Definition d_value (v : value_t) : dbg :=
  match v with
  | VEnum x => DTuple "Enum" [d_str x]
  | VString x => DTuple "String" [d_str x]
  | VInteger z => DTuple "Integer" [DAtom (dec_of_Z z)]
  | VDecimal d => DTuple "Decimal" [d_f64 d]
  | VBool b => DTuple "Bool" [d_bool b]
  | VHexColor x => DTuple "HexColor" [d_str x]
  | VExpr x => DTuple "Expr" [d_str x]
  | VNull => d_sym "Null"
  end.
Definition d_literal (l : literal) : dbg :=
  DStruct "Literal" [("span_range", d_range (lit_span l)); ("raw", d_str (lit_raw l)); ("value", d_value (lit_value l))]%string.
Definition d_ident (i : ident_t) : dbg :=
  DStruct "Ident" [("span_range", d_range (id_span i)); ("raw", d_str (id_raw i)); ("to_string", d_str (id_str i))]%string.
Definition d_attr (a : attribute_t) : dbg :=
  DStruct "Attribute" [("span_range", d_range (at_span a)); ("key", d_ident (at_key a)); ("value", d_opt d_literal (at_value a))]%string.
Definition d_prop (a : property_t) : dbg :=
  DStruct "Property" [("span_range", d_range (pr_span a)); ("key", d_ident (pr_key a)); ("value", d_literal (pr_value a))]%string.
Definition d_note (n : note_t) : dbg :=
  DStruct "NoteBlock" [("span_range", d_range (nb_span n)); ("value", d_literal (nb_value n))]%string.
Definition d_dbtype (d : database_type) : dbg :=
  match d with PostgreSQL => d_sym "PostgreSQL" | DbUnknown x => DTuple "Unknown" [d_str x] end.
Definition d_project (p : project_t) : dbg :=
  DStruct "ProjectBlock" [("span_range", d_range (pj_span p)); ("properties", d_list d_prop (pj_properties p));
    ("ident", d_ident (pj_ident p)); ("database_type", d_opt d_dbtype (pj_database_type p)); ("note", d_opt d_note (pj_note p))]%string.
Definition d_rel (r : relation_t) : dbg :=
  d_sym (match r with Undef => "Undef" | One2One => "One2One" | One2Many => "One2Many" | Many2One => "Many2One" | Many2Many => "Many2Many" end).
Definition d_refident (r : ref_ident_t) : dbg :=
  DStruct "RefIdent" [("span_range", d_range (ri_span r)); ("schema", d_opt d_ident (ri_schema r));
    ("table", d_ident (ri_table r)); ("compositions", d_list d_ident (ri_compositions r))]%string.
Definition d_refinline (r : ref_inline_t) : dbg :=
  DStruct "RefInline" [("span_range", d_range (rin_span r)); ("rel", d_rel (rin_rel r)); ("rhs", d_refident (rin_rhs r))]%string.
Definition d_action (a : ref_action) : dbg :=
  d_sym (match a with NoAction => "NoAction" | Cascade => "Cascade" | Restrict => "Restrict" | SetNull => "SetNull" | SetDefault => "SetDefault" end).
Definition d_refsettings (r : ref_settings_t) : dbg :=
  DStruct "RefSettings" [("span_range", d_range (rs_span r)); ("attributes", d_list d_attr (rs_attributes r));
    ("on_delete", d_opt d_action (rs_on_delete r)); ("on_update", d_opt d_action (rs_on_update r))]%string.
Definition d_refblock (r : ref_block_t) : dbg :=
  DStruct "RefBlock" [("span_range", d_range (rb_span r)); ("name", d_opt d_ident (rb_name r)); ("rel", d_rel (rb_rel r));
    ("lhs", d_refident (rb_lhs r)); ("rhs", d_refident (rb_rhs r)); ("settings", d_opt d_refsettings (rb_settings r))]%string.
Definition d_evs (e : enum_value_settings_t) : dbg :=
  DStruct "EnumValueSettings" [("span_range", d_range (evs_span e)); ("attributes", d_list d_attr (evs_attributes e));
    ("note", d_opt d_str (evs_note e))]%string.
Definition d_ev (e : enum_value_t) : dbg :=
  DStruct "EnumValue" [("span_range", d_range (ev_span e)); ("value", d_ident (ev_value e)); ("settings", d_opt d_evs (ev_settings e))]%string.
Definition d_enum (e : enum_t) : dbg :=
  DStruct "EnumBlock" [("span_range", d_range (en_span e));
    ("ident", DStruct "EnumIdent" [("span_range", d_range (ei_span (en_ident e))); ("schema", d_opt d_ident (ei_schema (en_ident e)));
       ("name", d_ident (ei_name (en_ident e)))]);
    ("values", d_list d_ev (en_values e))]%string.
Definition d_idxtype (t : indexes_type) : dbg :=
  d_sym (match t with BTree => "BTree" | Gin => "Gin" | Gist => "Gist" | Hash => "Hash" end).
Definition d_idxcol (c : indexes_col) : dbg :=
  match c with ICString i => DTuple "String" [d_ident i] | ICExpr l => DTuple "Expr" [d_literal l] end.
Definition d_idxsettings (x : indexes_settings_t) : dbg :=
  DStruct "IndexesSettings" [("span_range", d_range (is_span x)); ("attributes", d_list d_attr (is_attributes x));
    ("type", d_opt d_idxtype (is_type x)); ("is_unique", d_bool (is_is_unique x)); ("is_pk", d_bool (is_is_pk x));
    ("note", d_opt d_str (is_note x)); ("name", d_opt d_str (is_name x))]%string.
Definition d_idxdef (d : indexes_def) : dbg :=
  DStruct "IndexesDef" [("span_range", d_range (idf_span d)); ("cols", d_list d_idxcol (idf_cols d)); ("settings", d_opt d_idxsettings (idf_settings d))]%string.
Definition d_idxblock (b : indexes_block_t) : dbg :=
  DStruct "IndexesBlock" [("span_range", d_range (ib_span b)); ("defs", d_list d_idxdef (ib_defs b))]%string.
Definition d_ctname (t : col_type_name) : dbg :=
  match t with CT_Raw x => DTuple "Raw" [d_str x] | CT_Enum x => DTuple "Enum" [d_str x] | CT_Undef => d_sym "Undef" | _ => d_sym "?" end.
Definition d_coltype (t : col_type_t) : dbg :=
  DStruct "ColumnType" [("span_range", d_range (ct_span t)); ("raw", d_str (ct_raw t)); ("type_name", d_ctname (ct_type_name t));
    ("args", d_list d_value (ct_args t)); ("arrays", d_list (d_opt d_N) (ct_arrays t))]%string.
Definition d_nullable (n : nullable_t) : dbg := d_sym (match n with NotNull => "NotNull" | Null => "Null" end).
Definition d_colsettings (c : col_settings_t) : dbg :=
  DStruct "ColumnSettings" [("span_range", d_range (cs_span c)); ("attributes", d_list d_attr (cs_attributes c));
    ("is_pk", d_bool (cs_is_pk c)); ("is_unique", d_bool (cs_is_unique c)); ("nullable", d_opt d_nullable (cs_nullable c));
    ("is_incremental", d_bool (cs_is_incremental c)); ("note", d_opt d_str (cs_note c)); ("default", d_opt d_value (cs_default c));
    ("refs", d_list d_refinline (cs_refs c))]%string.
Definition d_col (c : table_col_t) : dbg :=
  DStruct "TableColumn" [("span_range", d_range (tc_span c)); ("name", d_ident (tc_name c)); ("type", d_coltype (tc_type c));
    ("settings", d_opt d_colsettings (tc_settings c))]%string.
Definition d_table (t : table_t) : dbg :=
  DStruct "TableBlock" [("span_range", d_range (tb_span t)); ("cols", d_list d_col (tb_cols t));
    ("ident", DStruct "TableIdent" [("span_range", d_range (ti_span (tb_ident t))); ("name", d_ident (ti_name (tb_ident t)));
       ("schema", d_opt d_ident (ti_schema (tb_ident t))); ("alias", d_opt d_ident (ti_alias (tb_ident t)))]);
    ("note", d_opt d_note (tb_note t)); ("indexes", d_opt d_idxblock (tb_indexes t));
    ("settings", d_opt (fun x => DStruct "TableSettings" [("span_range", d_range (ts_span x)); ("attributes", d_list d_attr (ts_attributes x))]) (tb_settings t))]%string.
Definition d_group (g : group_t) : dbg :=
  DStruct "TableGroupBlock" [("span_range", d_range (tg_span g)); ("ident", d_ident (tg_ident g)); ("note", d_opt d_note (tg_note g));
    ("items", d_list (fun i => DStruct "TableGroupItem" [("span_range", d_range (gi_span i)); ("schema", d_opt d_ident (gi_schema i)); ("ident_alias", d_ident (gi_ident_alias i))]) (tg_items g));
    ("settings", d_opt (fun x => DStruct "TableGroupSettings" [("span_range", d_range (gs_span x)); ("attributes", d_list d_attr (gs_attributes x))]) (tg_settings g))]%string.
Definition d_block (b : block) : dbg :=
  match b with
  | BProject p => DTuple "Project" [d_project p]
  | BTable t => DTuple "Table" [d_table t]
  | BTableGroup g => DTuple "TableGroup" [d_group g]
  | BNote n => DTuple "Note" [d_note n]
  | BRef r => DTuple "Ref" [d_refblock r]
  | BEnum e => DTuple "Enum" [d_enum e]
  end.
Definition d_schema (x : schema_t) : dbg :=
  DStruct "SchemaBlock" [("span_range", d_range (sb_span x)); ("input", d_str (sb_input x)); ("blocks", d_list d_block (sb_blocks x))]%string.

(** [format!("{:#?}", parse_dbml_unchecked(input).unwrap())] *)
Definition debug_unchecked (input : str) : option str :=
  match parse_dbml_unchecked input with
  | Some (Ok x) => Some (show 0 (d_schema x))
  | _ => None
  end.

(** What [parse_dbml] returned, as a tag: 0 ok, 1 error, 2 panic, 3 loop. *)
Definition checked_tag (input : str) : N :=
  match parse_dbml input with
  | Some (Ok _) => 0 | Some (Err _) => 1 | Some Panic => 2 | None => 3
  end.
