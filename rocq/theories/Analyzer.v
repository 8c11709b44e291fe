(** * Analyzer: src/analyzer/{mod,indexer,helper}.rs and src/utils/mod.rs. *)

From Verif Require Export Err.

(** [BTreeMap<String, V>] as an association list with unique keys; only [get],
    [contains_key], [insert] and [entry().or_insert_with()] are used, none of which
    exposes the key order.  [BTreeSet] likewise is a list used through membership. *)
Section Map.
  Context {V : Type}.
  Fixpoint map_get (m : list (str * V)) (k : str) : option V :=
    match m with
    | [] => None
    | (k', v) :: m' => if str_eqb k k' then Some v else map_get m' k
    end.
  Fixpoint map_insert (m : list (str * V)) (k : str) (v : V) : list (str * V) :=
    match m with
    | [] => [(k, v)]
    | (k', v') :: m' => if str_eqb k k' then (k, v) :: m' else (k', v') :: map_insert m' k v
    end.
  Definition map_contains (m : list (str * V)) (k : str) : bool :=
    match map_get m k with Some _ => true | None => false end.
End Map.

(** ** src/analyzer/helper.rs *)

(** helper.rs:7-11 / 23-27: the first element whose key was seen earlier. *)
Fixpoint first_dup {A} (key : A -> str) (seen : list str) (l : list A) : option A :=
  match l with
  | [] => None
  | a :: l' => if mem_str (key a) seen then Some a else first_dup key (key a :: seen) l'
  end.

Definition attr_key (a : attribute_t) : str := id_str (at_key a).
Definition prop_key (p : property_t) : str := id_str (pr_key p).

(** helper.rs:5-19 *)
Definition check_attr_duplicate_keys (attrs : list attribute_t) (input : str) : outcome unit :=
  match first_dup attr_key [] attrs with
  | Some a => throw_err DuplicateAttributeKey (at_span a) input
  | None => Ok tt
  end.

(** helper.rs:21-35 *)
Definition check_prop_duplicate_keys (props : list property_t) (input : str) : outcome unit :=
  match first_dup prop_key [] props with
  | Some p => throw_err DuplicatePropertyKey (pr_span p) input
  | None => Ok tt
  end.

(** helper.rs:37-39 *)
Definition eq_elements (l r : list str) : bool :=
  forallb (fun x => mem_str x r) l && forallb (fun x => mem_str x l) r.

(** ** src/analyzer/indexer.rs *)

(** lib.rs:30 *)
Definition DEFAULT_SCHEMA : str := s "public".

(** indexer.rs:12-19 *)
Record indexed_schema := mkIndexedSchema {
  table_map : list (str * list str); enum_map : list (str * list str) }.
Definition indexed_schema0 : indexed_schema := mkIndexedSchema [] [].

(** indexer.rs:21-31 *)
Record indexer := mkIndexer {
  table_group_map : list (str * list (str * str));
  schema_map : list (str * indexed_schema);
  table_alias_map : list (str * (str * str)) }.
Definition indexer0 : indexer := mkIndexer [] [] [].

(** indexer.rs:54-57, 109-112: schema name or the default *)
Definition schema_or_default (x : option ident_t) : str :=
  match x with Some i => id_str i | None => DEFAULT_SCHEMA end.

(** indexer.rs:190-197 *)
Definition contains_table (ix : indexer) (sch name : str) : bool :=
  match map_get (schema_map ix) sch with
  | Some b => map_contains (table_map b) name
  | None => false
  end.

(** indexer.rs:199-206 *)
Definition contains_enum (ix : indexer) (sch name : str) : bool :=
  match map_get (schema_map ix) sch with
  | Some b => map_contains (enum_map b) name
  | None => false
  end.

Definition schema_entry (ix : indexer) (sch : str) : indexed_schema :=
  match map_get (schema_map ix) sch with Some b => b | None => indexed_schema0 end.

(** [if let Some(settings) = .. { check_attr_duplicate_keys(..)? }] *)
Definition check_opt_attrs {S} (attrs : S -> list attribute_t) (st : option S) (input : str) : outcome unit :=
  match st with
  | Some x => check_attr_duplicate_keys (attrs x) input
  | None => Ok tt
  end.

(** indexer.rs:63-72: the column names of a table *)
Definition index_cols (cols : list table_col_t) (input : str) : outcome (list str) :=
  try_fold (fun seen c =>
    let? _ := check_opt_attrs cs_attributes (tc_settings c) input in
    let k := id_str (tc_name c) in
    if mem_str k seen then throw_err DuplicateColumnName (tc_span c) input
    else Ok (k :: seen)) cols [].

(** indexer.rs:41-92, one iteration *)
Definition index_table1 (input : str) (ix : indexer) (t : table_t) : outcome indexer :=
  let? _ := check_opt_attrs ts_attributes (tb_settings t) input in
  let id := tb_ident t in
  let sch := schema_or_default (ti_schema id) in
  let name := id_str (ti_name id) in
  let? _ := (if contains_table ix sch name
             then throw_err DuplicateTableName (ti_span id) input else Ok tt) in
  let? cols := index_cols (tb_cols t) input in
  let b := schema_entry ix sch in
  let sm := map_insert (schema_map ix) sch
              (mkIndexedSchema (map_insert (table_map b) name cols) (enum_map b)) in
  match ti_alias id with
  | Some a =>
      let am := map_insert (table_alias_map ix) (id_str a) (sch, name) in
      if map_contains (table_alias_map ix) (id_str a)
      then throw_err DuplicateAlias (id_span a) input
      else Ok (mkIndexer (table_group_map ix) sm am)
  | None => Ok (mkIndexer (table_group_map ix) sm (table_alias_map ix))
  end.
Definition index_table (ts : list table_t) (input : str) (ix : indexer) : outcome indexer :=
  try_fold (index_table1 input) ts ix.

(** indexer.rs:118-127: the values of an enum *)
Definition index_enum_values (vs : list enum_value_t) (input : str) : outcome (list str) :=
  try_fold (fun seen v =>
    let? _ := check_opt_attrs evs_attributes (ev_settings v) input in
    let k := id_str (ev_value v) in
    if mem_str k seen then throw_err DuplicateEnumValue (ev_span v) input
    else Ok (k :: seen)) vs [].

(** indexer.rs:100-138 *)
Definition index_enum1 (input : str) (ix : indexer) (e : enum_t) : outcome indexer :=
  let id := en_ident e in
  let sch := schema_or_default (ei_schema id) in
  let name := id_str (ei_name id) in
  let? _ := (if contains_enum ix sch name
             then throw_err DuplicateEnumName (ei_span id) input else Ok tt) in
  let? vals := index_enum_values (en_values e) input in
  let b := schema_entry ix sch in
  Ok (mkIndexer (table_group_map ix)
        (map_insert (schema_map ix) sch
           (mkIndexedSchema (table_map b) (map_insert (enum_map b) name vals)))
        (table_alias_map ix)).
Definition index_enums (es : list enum_t) (input : str) (ix : indexer) : outcome indexer :=
  try_fold (index_enum1 input) es ix.

(** indexer.rs:269-272 *)
Definition resolve_alias (ix : indexer) (a : str) : option (str * str) := map_get (table_alias_map ix) a.

Definition pair_mem (x : str * str) (l : list (str * str)) : bool :=
  existsb (fun y => str_eqb (fst x) (fst y) && str_eqb (snd x) (snd y)) l.

(** indexer.rs:155-175: what a group item denotes *)
Definition resolve_group_item (ix : indexer) (it : group_item_t) (input : str) : outcome (str * str) :=
  let name := id_str (gi_ident_alias it) in
  match gi_schema it with
  | Some sc => Ok (id_str sc, name)
  | None =>
      match resolve_alias ix name with
      | Some id => Ok id
      | None => if contains_table ix DEFAULT_SCHEMA name then Ok (DEFAULT_SCHEMA, name)
                else throw_err TableNotFound (gi_span it) input
      end
  end.

(** indexer.rs:147-188 *)
Definition index_table_group1 (input : str) (ix : indexer) (g : group_t) : outcome indexer :=
  let gname := id_str (tg_ident g) in
  let? _ := (if map_contains (table_group_map ix) gname
             then throw_err DuplicateTableGroupName (id_span (tg_ident g)) input else Ok tt) in
  let? items := try_fold (fun seen it =>
      let? id := resolve_group_item ix it input in
      if pair_mem id seen then throw_err DuplicateTableGroupItem (gi_span it) input
      else Ok (id :: seen)) (tg_items g) [] in
  Ok (mkIndexer (map_insert (table_group_map ix) gname items) (schema_map ix) (table_alias_map ix)).
Definition index_table_groups (gs : list group_t) (input : str) (ix : indexer) : outcome indexer :=
  try_fold (index_table_group1 input) gs ix.

(** indexer.rs:208-230 *)
Definition lookup_enum_values (ix : indexer) (sch : option str) (name : str) (vals : list str)
  : bool * (bool * list bool) :=
  let sch := match sch with Some x => x | None => DEFAULT_SCHEMA end in
  match map_get (schema_map ix) sch with
  | Some b =>
      match map_get (enum_map b) name with
      | Some set => (true, (true, map (fun v => mem_str v set) vals))
      | None => (true, (false, map (fun _ => false) vals))
      end
  | None => (false, (false, map (fun _ => false) vals))
  end.

(** indexer.rs:232-267 *)
Definition lookup_table_fields (ix : indexer) (sch : option ident_t) (table : ident_t)
  (fields : list ident_t) (input : str) : outcome unit :=
  let schema_span := match sch with Some i => id_span i | None => range0 end in
  match map_get (schema_map ix) (schema_or_default sch) with
  | Some b =>
      match map_get (table_map b) (id_str table) with
      | Some cols =>
          match find (fun f => negb (mem_str (id_str f) cols)) fields with
          | Some f => throw_err ColumnNotFound (id_span f) input
          | None => Ok tt
          end
      | None => throw_err TableNotFound (id_span table) input
      end
  | None => throw_err SchemaNotFound schema_span input
  end.

(** indexer.rs:274-295 *)
Definition resolve_ref_alias (ix : indexer) (r : ref_ident_t) : ref_ident_t :=
  match resolve_alias ix (id_str (ri_table r)) with
  | Some (sch, tbl) =>
      mkRefIdent (ri_span r) (Some (mkIdent (ri_span r) sch sch)) (mkIdent (ri_span r) tbl tbl)
        (ri_compositions r)
  | None => r
  end.

(** indexer.rs:298-307 *)
Record indexed_ref := mkIndexedRef {
  ir_span : range; ir_rel : relation_t; ir_lhs : ref_ident_t; ir_rhs : ref_ident_t;
  ir_settings : option ref_settings_t }.

(** indexer.rs:517-527 *)
Definition indexed_ref_from_block (r : ref_block_t) : indexed_ref :=
  mkIndexedRef (rb_span r) (rb_rel r) (rb_lhs r) (rb_rhs r) (rb_settings r).

(** indexer.rs:310-332 *)
Definition from_inline (rs : list ref_inline_t) (tid : table_ident_t) (col : ident_t) : list indexed_ref :=
  map (fun r => mkIndexedRef (rin_span r) (rin_rel r)
                  (mkRefIdent (rin_span r) (ti_schema tid) (ti_name tid) [col])
                  (rin_rhs r) None) rs.

Definition opt_str_eqb (a b : option str) : bool :=
  match a, b with
  | Some x, Some y => str_eqb x y
  | None, None => true
  | _, _ => false
  end.

(** The test [schema.map(to_string) == schema.map(to_string) && name == table]
    (indexer.rs:350-351 and src/utils/mod.rs:37-40). *)
Definition same_table (sch1 : option ident_t) (name1 : ident_t) (sch2 : option ident_t) (name2 : ident_t) : bool :=
  opt_str_eqb (option_map id_str sch1) (option_map id_str sch2)
  && str_eqb (id_str name1) (id_str name2).

(** indexer.rs:346-355 *)
Definition find_ref_table (ts : list table_t) (r : ref_ident_t) (input : str) : outcome table_t :=
  match find (fun t => same_table (ti_schema (tb_ident t)) (ti_name (tb_ident t))
                                  (ri_schema r) (ri_table r)) ts with
  | Some t => Ok t
  | None => throw_err TableNotFound (ri_span r) input
  end.

(** indexer.rs:356-363 *)
Definition find_ref_col (c : ident_t) (t : table_t) (input : str) : outcome table_col_t :=
  match find (fun col => str_eqb (id_str (tc_name col)) (id_str c)) (tb_cols t) with
  | Some col => Ok col
  | None => throw_err ColumnNotFound (id_span c) input
  end.

Definition idx_col_name (c : indexes_col) : option str :=
  match c with ICString i => Some (id_str i) | ICExpr _ => None end.

(** indexer.rs:364-383 *)
Definition is_valid_composite (comps : list ident_t) (ib : option indexes_block_t) : bool :=
  match ib with
  | Some b =>
      existsb (fun d =>
        Nat.eqb (List.length comps) (List.length (idf_cols d))
        && match idf_settings d with Some st => is_is_pk st || is_is_unique st | None => false end
        && eq_elements (map id_str comps) (filter_map idx_col_name (idf_cols d))) (ib_defs b)
  | None => false
  end.

Fixpoint list_eqb {A} (eqb : A -> A -> bool) (a b : list A) : bool :=
  match a, b with
  | [], [] => true
  | x :: a', y :: b' => eqb x y && list_eqb eqb a' b'
  | _, _ => false
  end.

Definition opt_N_eqb (a b : option N) : bool :=
  match a, b with Some x, Some y => x =? y | None, None => true | _, _ => false end.

(** indexer.rs:410-411 *)
Definition col_key (c : table_col_t) : bool :=
  match tc_settings c with Some st => cs_is_pk st || cs_is_unique st | None => false end.

(** indexer.rs:408-422 *)
Definition single_fk_err (r : indexed_ref) (lk rk : bool) : option (fk_err * range) :=
  match ir_rel r, lk, rk with
  | One2One, false, false => Some (FK_One2One, ir_span r)
  | Many2Many, false, false => Some (FK_Many2Many, ir_span r)
  | One2Many, false, _ => Some (FK_NeitherUniqueNorPrimary, ri_span (ir_lhs r))
  | Many2One, _, false => Some (FK_NeitherUniqueNorPrimary, ri_span (ir_rhs r))
  | _, _, _ => None
  end.

(** indexer.rs:435-455 *)
Definition composite_fk_err (r : indexed_ref) (lv rv : bool) : option (fk_err * range) :=
  match ir_rel r with
  | One2One => if negb lv && negb rv then Some (FK_One2OneComposite, ir_span r) else None
  | Many2Many => if negb lv || negb rv then Some (FK_Many2ManyComposite, ir_span r) else None
  | One2Many => if negb lv then Some (FK_NeitherUniqueNorPrimaryComposite, ri_span (ir_lhs r)) else None
  | Many2One => if negb rv then Some (FK_NeitherUniqueNorPrimaryComposite, ri_span (ir_rhs r)) else None
  | Undef => None
  end.

Definition throw_fk (x : option (fk_err * range)) (input : str) : outcome unit :=
  match x with
  | Some (e, sp) => throw_err (InvalidForeignKey e) sp input
  | None => Ok tt
  end.

(** indexer.rs:396 *)
Definition col_types_differ (l r : col_type_t) : bool :=
  negb (col_type_name_eqb (ct_type_name l) (ct_type_name r))
  || negb (list_eqb value_eqb (ct_args l) (ct_args r))
  || negb (list_eqb opt_N_eqb (ct_arrays l) (ct_arrays r)).

(** indexer.rs:390-428: one pair of columns *)
Definition validate_field_pair (self : indexed_ref) (lt rt : table_t) (complen : nat) (input : str)
  (_ : unit) (p : ident_t * ident_t) : outcome unit :=
  let '(l, r) := p in
  let? lc := find_ref_col l lt input in
  let? rc := find_ref_col r rt input in
  let ltype := tc_type lc in
  let rtype := tc_type rc in
  let? _ := (if col_types_differ ltype rtype
             then throw_err (MismatchedForeignKeyType (id_str r) (id_str l) (ct_raw rtype) (id_raw l))
                            (ir_span self) input
             else Ok tt) in
  if Nat.eqb complen 1 then throw_fk (single_fk_err self (col_key lc) (col_key rc)) input
  else Ok tt.

(** indexer.rs:334-465 *)
Definition validate_ref_type (self : indexed_ref) (ts : list table_t) (ix : indexer) (input : str) : outcome unit :=
  let lhs := resolve_ref_alias ix (ir_lhs self) in
  let rhs := resolve_ref_alias ix (ir_rhs self) in
  let ll := List.length (ri_compositions lhs) in
  let rl := List.length (ri_compositions rhs) in
  let complen := Nat.max ll rl in
  let? _ := (if negb (Nat.eqb ll rl) then throw_err MismatchedCompositeForeignKey (ir_span self) input
             else Ok tt) in
  let? _ := lookup_table_fields ix (ri_schema lhs) (ri_table lhs) (ri_compositions lhs) input in
  let? _ := lookup_table_fields ix (ri_schema rhs) (ri_table rhs) (ri_compositions rhs) input in
  let? lt := find_ref_table ts lhs input in
  let? rt := find_ref_table ts rhs input in
  let? _ := try_fold (validate_field_pair self lt rt complen input)
              (combine (ri_compositions lhs) (ri_compositions rhs)) tt in
  if Nat.leb 2 complen then
    throw_fk (composite_fk_err self (is_valid_composite (ri_compositions (ir_lhs self)) (tb_indexes lt))
                                    (is_valid_composite (ri_compositions (ir_rhs self)) (tb_indexes rt))) input
  else Ok tt.

(** indexer.rs:470-477 *)
Definition eq_ref_ident (l r : ref_ident_t) : bool :=
  opt_str_eqb (option_map id_str (ri_schema l)) (option_map id_str (ri_schema r))
  && str_eqb (id_str (ri_table l)) (id_str (ri_table r))
  && eq_elements (map id_str (ri_compositions l)) (map id_str (ri_compositions r)).

(** indexer.rs:492-501 *)
Definition occupied_ident (r : indexed_ref) : option ref_ident_t :=
  match ir_rel r with
  | Many2One => Some (ir_lhs r)
  | One2Many => Some (ir_rhs r)
  | _ => None
  end.

(** indexer.rs:467-514 *)
Definition occupy_same_column (self other : indexed_ref) (ix : indexer) : bool :=
  let both := forallb (fun a => existsb (fun b =>
                  eq_ref_ident (resolve_ref_alias ix a) (resolve_ref_alias ix b))
                [ir_lhs other; ir_rhs other]) [ir_lhs self; ir_rhs self] in
  match ir_rel self, ir_rel other with
  | Many2Many, Many2Many => both
  | One2One, One2One => both
  | _, _ =>
      match occupied_ident self, occupied_ident other with
      | Some a, Some b => eq_ref_ident (resolve_ref_alias ix a) (resolve_ref_alias ix b)
      | _, _ => false
      end
  end.

(** ** src/analyzer/mod.rs *)

(** indexer.rs:529-538 *)
Record table_indexer := mkTableIndexer {
  pk_list : list str; unique_list : list (list str);
  indexed_list : list (list str * option indexes_type) }.
Definition table_indexer0 : table_indexer := mkTableIndexer [] [] [].

Definition is_nil {A} (l : list A) : bool := match l with [] => true | _ => false end.
Definition is_some {A} (o : option A) : bool := match o with Some _ => true | None => false end.
Definition nullable_is_null (n : option nullable_t) : bool :=
  match n with Some Null => true | _ => false end.

(** mod.rs:124-133: both "null" and "not null" occur among the keys *)
Definition conflict_nullable (attrs : list attribute_t) : bool :=
  mem_str (s "not null") (map attr_key attrs) && mem_str (s "null") (map attr_key attrs).

(** mod.rs:104-134: the checks on one column's settings *)
Definition check_col_settings (input : str) (ti : table_indexer) (c : table_col_t) : outcome table_indexer :=
  match tc_settings c with
  | None => Ok ti
  | Some st =>
      let? ti := (if cs_is_pk st then
                    if negb (is_nil (pk_list ti)) then throw_err DuplicatePrimaryKey (tc_span c) input
                    else if nullable_is_null (cs_nullable st) then throw_err NullablePrimaryKey (tc_span c) input
                    else if negb (is_nil (ct_arrays (tc_type c))) then throw_err ArrayPrimaryKey (tc_span c) input
                    else Ok (mkTableIndexer (pk_list ti ++ [id_str (tc_name c)]) (unique_list ti) (indexed_list ti))
                  else Ok ti) in
      let ti := if cs_is_unique st
                then mkTableIndexer (pk_list ti) (unique_list ti ++ [[id_str (tc_name c)]]) (indexed_list ti)
                else ti in
      if conflict_nullable (cs_attributes st) then throw_err ConflictNullableSetting (cs_span st) input
      else Ok ti
  end.

(** mod.rs:136-143: inline references of one column *)
Definition col_inline_refs (t : table_t) (c : table_col_t) : list indexed_ref :=
  from_inline (match tc_settings c with Some st => cs_refs st | None => [] end) (tb_ident t) (tc_name c).

(** mod.rs:166-172 *)
Definition check_index_cols (t : table_t) (input : str) (cols : list indexes_col) : outcome unit :=
  try_fold (fun _ c =>
    match c with
    | ICString i =>
        if existsb (fun col => str_eqb (id_str (tc_name col)) (id_str i)) (tb_cols t) then Ok tt
        else throw_err ColumnNotFound (id_span i) input
    | ICExpr _ => Ok tt
    end) cols tt.

Definition count_true (l : list bool) : nat := List.length (filter (fun x => x) l).

Definition opt_idx_type_eqb (a b : option indexes_type) : bool :=
  match a, b with
  | Some x, Some y => indexes_type_eqb x y
  | None, None => true
  | _, _ => false
  end.

(** mod.rs:148-233: one index definition *)
Definition check_index_def (t : table_t) (ib : indexes_block_t) (input : str)
  (ti : table_indexer) (d : indexes_def) : outcome table_indexer :=
  let? _ := (if is_nil (idf_cols d) then throw_err EmptyIndexesBlock (ib_span ib) input else Ok tt) in
  let ids := filter_map idx_col_name (idf_cols d) in
  let? _ := check_index_cols t input (idf_cols d) in
  match idf_settings d with
  | Some st =>
      let? _ := check_attr_duplicate_keys (is_attributes st) input in
      let? _ := (if Nat.ltb 1 (count_true [is_is_pk st; is_is_unique st; is_some (is_type st)])
                 then throw_err InvalidIndexesSetting (is_span st) input else Ok tt) in
      let? ti := (if is_is_pk st then
                    if negb (is_nil (pk_list ti)) then throw_err DuplicatePrimaryKey (idf_span d) input
                    else Ok (mkTableIndexer (pk_list ti ++ ids) (unique_list ti) (indexed_list ti))
                  else if is_is_unique st then
                    if existsb (fun u => forallb (fun id => mem_str id u) ids) (unique_list ti)
                    then throw_err DuplicateUniqueKey (idf_span d) input
                    else Ok (mkTableIndexer (pk_list ti) (unique_list ti ++ [ids]) (indexed_list ti))
                  else Ok ti) in
      if is_some (is_type st) then
        if existsb (fun p => list_eqb str_eqb (fst p) ids && opt_idx_type_eqb (snd p) (is_type st)) (indexed_list ti)
        then throw_err DuplicateIndexKey (idf_span d) input
        else Ok (mkTableIndexer (pk_list ti) (unique_list ti) (indexed_list ti ++ [(ids, is_type st)]))
      else Ok ti
  | None =>
      if existsb (fun p => list_eqb str_eqb (fst p) ids) (indexed_list ti)
      then throw_err DuplicateIndexKey (idf_span d) input
      else Ok (mkTableIndexer (pk_list ti) (unique_list ti) (indexed_list ti ++ [(ids, None)]))
  end.

(** mod.rs:99-235: one table; returns the inline refs collected *)
Definition check_table (input : str) (t : table_t) : outcome (list indexed_ref) :=
  let? ti := try_fold (check_col_settings input) (tb_cols t) table_indexer0 in
  let? _ := match tb_indexes t with
            | Some ib => omap (fun _ => tt) (try_fold (check_index_def t ib input) (ib_defs ib) ti)
            | None => Ok tt
            end in
  Ok (flat_map (col_inline_refs t) (tb_cols t)).

(** mod.rs:297-302 and 323-328: span of the default value; [None] is the
    [unreachable!] *)
Definition default_span (attrs : list attribute_t) : option range :=
  match find (fun a => str_eqb (attr_key a) (s "default")) attrs with
  | Some a => option_map lit_span (at_value a)
  | None => None
  end.

Definition is_integer (v : value_t) : bool := match v with VInteger _ => true | _ => false end.

(** mod.rs:254-282: arguments of a built-in type *)
Definition check_type_args (tn : col_type_name) (raw : str) (ct : col_type_t) (input : str) : outcome unit :=
  let n := List.length (ct_args ct) in
  if is_nil (ct_args ct) then Ok tt
  else
    let? _ := match tn with
              | CT_VarChar | CT_Char | CT_Time | CT_Timestamp | CT_Timetz | CT_Timestamptz | CT_Bit | CT_Varbit =>
                  if negb (Nat.eqb n 1) then throw_err (InvalidDataTypeArguments raw 1) (ct_span ct) input else Ok tt
              | CT_Decimal =>
                  if negb (Nat.eqb n 2) then throw_err (InvalidDataTypeArguments raw 2) (ct_span ct) input else Ok tt
              | _ => throw_err (InvalidDataTypeArguments raw 0) (ct_span ct) input
              end in
    if negb (forallb is_integer (ct_args ct)) then throw_err InvalidArgumentValue (ct_span ct) input
    else Ok tt.

(** mod.rs:286-315: a type name that is not built in is an enum *)
Definition check_enum_type (ix : indexer) (c : table_col_t) (raw : str) (input : str) : outcome col_type_name :=
  let ct := tc_type c in
  let? q := match split_on 46 raw with
            | [_] => Ok (None, raw)
            | [a; b] => Ok (Some a, b)
            | _ => throw_err InvalidEnum (ct_span ct) input
            end in
  let '(esch, ename) := q in
  match tc_settings c with
  | Some st =>
      match cs_default st with
      | Some dv =>
          match default_span (cs_attributes st) with
          | None => Panic
          | Some dsp =>
              match lookup_enum_values ix esch ename [value_to_string dv] with
              | (false, _) => throw_err SchemaNotFound (ct_span ct) input
              | (true, (false, _)) => throw_err EnumNotFound (ct_span ct) input
              | (true, (true, f)) =>
                  if existsb negb f then throw_err EnumValueNotFound dsp input
                  else Ok (CT_Enum ename)
              end
          end
      | None => Ok (CT_Enum ename)
      end
  | None => Ok (CT_Enum ename)
  end.

(** mod.rs:245-319 *)
Definition resolve_col_type (ix : indexer) (c : table_col_t) (input : str) : outcome col_type_name :=
  match ct_type_name (tc_type c) with
  | CT_Raw raw =>
      match col_type_name_from_str raw with
      | Some tn => let? _ := check_type_args tn raw (tc_type c) input in Ok tn
      | None => check_enum_type ix c raw input
      end
  | _ => Panic
  end.

Definition i64_max : Z := 9223372036854775807.
Definition i64_min : Z := -9223372036854775808.

(** mod.rs:330-387 *)
Definition check_default (tn : col_type_name) (c : table_col_t) (st : col_settings_t) (dv : value_t)
  (sp : range) (input : str) : outcome unit :=
  let ct := tc_type c in
  match dv with
  | VEnum _ | VDecimal _ | VHexColor _ | VExpr _ => Ok tt
  | VString v =>
      let err := InvalidDefaultValue v (ct_raw ct) in
      match tn with
      | CT_Bit | CT_Char =>
          match ct_args ct with
          | [] => Panic (* args[0] out of bounds *)
          | VInteger len :: _ =>
              if negb (Z.eqb (Z.of_N (blen v)) len) then throw_err err sp input else Ok tt
          | _ => Ok tt
          end
      | CT_Varbit | CT_VarChar =>
          match ct_args ct with
          | [] => Panic (* args[0] out of bounds *)
          | VInteger cap :: _ => if (cap <? Z.of_N (blen v))%Z then throw_err err sp input else Ok tt
          | _ => Ok tt
          end
      | _ => Ok tt
      end
  | VInteger v =>
      let err := DataTypeExceeded (ct_raw ct) in
      match tn with
      | CT_SmallInt => if ((32767 <? v) || (v <? -32768))%Z then throw_err err sp input else Ok tt
      | CT_Integer => if ((2147483647 <? v) || (v <? -2147483648))%Z then throw_err err sp input else Ok tt
      | CT_BigInt => if (Z.eqb v i64_max || Z.eqb v i64_min) then throw_err err sp input else Ok tt
      | _ => Ok tt
      end
  | VBool b =>
      match tn with
      | CT_Bool => Ok tt
      | _ => throw_err (InvalidDefaultValue (value_to_string (VBool b)) (ct_raw ct)) sp input
      end
  | VNull => if nullable_is_null (cs_nullable st) then Ok tt
             else throw_err DefaultNullInNonNullable sp input
  end.

(** mod.rs:244-397: one column, with its type name resolved *)
Definition check_col_type (ix : indexer) (input : str) (c : table_col_t) : outcome table_col_t :=
  let? tn := resolve_col_type ix c input in
  let? _ := match tc_settings c with
            | Some st =>
                match cs_default st with
                | Some dv =>
                    match default_span (cs_attributes st) with
                    | None => Panic
                    | Some sp => check_default tn c st dv sp input
                    end
                | None => Ok tt
                end
            | None => Ok tt
            end in
  let ct := tc_type c in
  Ok (mkTableCol (tc_span c) (tc_name c)
        (mkColType (ct_span ct) (ct_raw ct) tn (ct_args ct) (ct_arrays ct)) (tc_settings c)).

(** mod.rs:240-401: one table *)
Definition check_table_types (ix : indexer) (input : str) (t : table_t) : outcome table_t :=
  let? cols := try_map (check_col_type ix input) (tb_cols t) in
  Ok (mkTable (tb_span t) cols (tb_ident t) (tb_note t) (tb_indexes t) (tb_settings t)).

(** mod.rs:405-420: one reference *)
Definition check_ref (irs : list indexed_ref) (ts : list table_t) (ix : indexer) (input : str)
  (_ : unit) (r : indexed_ref) : outcome unit :=
  let? _ := check_opt_attrs rs_attributes (ir_settings r) input in
  let? _ := validate_ref_type r ts ix input in
  if negb (Nat.eqb (List.length (filter (fun o => occupy_same_column r o ix) irs)) 1)
  then throw_err ConflictRelation (ir_span r) input
  else Ok tt.

(** mod.rs:17-22 *)
Record analyzed_indexer := mkAnalyzed { indexed_refs : list indexed_ref; an_indexer : indexer }.

(** mod.rs:78-87 *)
Definition check_projects (x : schema_t) : outcome unit :=
  let input := sb_input x in
  let? _ := (if Nat.ltb 1 (List.length (projects x))
             then throw_err DuplicateProjectSetting (sb_span x) input else Ok tt) in
  match projects x with
  | p :: _ => check_prop_duplicate_keys (pj_properties p) input
  | [] => throw_err ProjectSettingNotFound (sb_span x) input
  end.

(** mod.rs:70-423 *)
Definition analyze (x : schema_t) : outcome analyzed_indexer :=
  let input := sb_input x in
  let? _ := check_projects x in
  let? ix := index_table (tables x) input indexer0 in
  let? ix := index_enums (enums x) input ix in
  let? ix := index_table_groups (table_groups x) input ix in
  let? inlined := try_map (check_table input) (tables x) in
  let irs := map indexed_ref_from_block (refs x) ++ List.concat inlined in
  let? ts := try_map (check_table_types ix input) (tables x) in
  let? _ := try_fold (check_ref irs ts ix input) irs tt in
  Ok (mkAnalyzed irs ix).

(** ** src/utils/mod.rs *)

(** analyzer/mod.rs:24-33 *)
Record table_ref := mkTableRef {
  tr_ref_to : list indexed_ref; tr_ref_by : list indexed_ref; tr_ref_self : list indexed_ref }.

(** utils/mod.rs:32-60 *)
Definition get_table_refs (tid : table_ident_t) (an : analyzed_indexer) : table_ref :=
  let eq r := same_table (ti_schema tid) (ti_name tid) (ri_schema r) (ri_table r) in
  fold_left (fun acc r =>
    let lhs := resolve_ref_alias (an_indexer an) (ir_lhs r) in
    let rhs := resolve_ref_alias (an_indexer an) (ir_rhs r) in
    if eq lhs && eq rhs then mkTableRef (tr_ref_to acc) (tr_ref_by acc) (tr_ref_self acc ++ [r])
    else if eq lhs then mkTableRef (tr_ref_to acc ++ [r]) (tr_ref_by acc) (tr_ref_self acc)
    else if eq rhs then mkTableRef (tr_ref_to acc) (tr_ref_by acc ++ [r]) (tr_ref_self acc)
    else acc) (indexed_refs an) (mkTableRef [] [] []).
