(** * CheckWork: how much work the semantic checks are.

    [Analyzer.analyze] with a clock.  One unit is one comparison of two strings or values, one
    round of a loop, or one character looked at.  Calls into Rust's library are charged at their
    worst: a lookup or insertion in a [BTreeMap] or [BTreeSet] as one comparison with each of its
    keys, [find], [any], [all] and [filter] as a pass over the whole list, [BTreeSet::from_iter]
    as comparing everything with everything, and [throw_err] as a scan of the whole text (pest
    looks for the line and column).  The result of [analyze_c] is that of [analyze] (C77_same_verdict).

    Simplification: what one comparison costs in the machine (up to the length of the strings, which
    are no longer than the text, C76), cloning, formatting and allocation are not counted.  All the
    definitions below follow the definition of the same name (without [_c]) in [Analyzer]; the lines of /repo
    are cited there and repeated here. *)

From Verif Require Export Analyzer.
Local Open Scope nat_scope.

(** A result, and the clock when it is reached. *)
Definition clocked (A : Type) : Type := (A * nat)%type.
Definition now {A} (a : A) : clocked A := (a, 0).
Definition spend {A} (n : nat) (a : A) : clocked A := (a, n).
Definition after {A B} (x : clocked A) (f : A -> clocked B) : clocked B :=
  let y := f (fst x) in (fst y, snd x + snd y).
Definition bind_c {A B} (x : clocked (outcome A)) (f : A -> clocked (outcome B)) : clocked (outcome B) :=
  after x (fun o => match o with Ok a => f a | Err e => now (Err e) | Panic => now Panic end).
Notation "'let*' a := x 'in' b" := (after x (fun a => b))
  (at level 200, a pattern, x at level 100, b at level 200, right associativity).
Notation "'let?*' a := x 'in' b" := (bind_c x (fun a => b))
  (at level 200, a pattern, x at level 100, b at level 200, right associativity).

(** [Err.try_fold], [Err.try_map]: one unit per round. *)
Fixpoint fold_c {A B} (f : B -> A -> clocked (outcome B)) (l : list A) (acc : B) : clocked (outcome B) :=
  match l with
  | [] => now (Ok acc)
  | a :: l' => let* _ := spend 1 tt in let?* acc' := f acc a in fold_c f l' acc'
  end.
Fixpoint map_c {A B} (f : A -> clocked (outcome B)) (l : list A) : clocked (outcome (list B)) :=
  match l with
  | [] => now (Ok [])
  | a :: l' => let* _ := spend 1 tt in let?* b := f a in let?* bs := map_c f l' in now (Ok (b :: bs))
  end.
(** [any] and [all], whose closures have a clock of their own. *)
Fixpoint exists_c {A} (f : A -> clocked bool) (l : list A) : clocked bool :=
  match l with
  | [] => now false
  | a :: l' => let* _ := spend 1 tt in let* b := f a in if b then now true else exists_c f l'
  end.
Fixpoint forall_c {A} (f : A -> clocked bool) (l : list A) : clocked bool :=
  match l with
  | [] => now true
  | a :: l' => let* _ := spend 1 tt in let* b := f a in if b then forall_c f l' else now false
  end.
Fixpoint filter_c {A} (f : A -> clocked bool) (l : list A) : clocked (list A) :=
  match l with
  | [] => now []
  | a :: l' => let* _ := spend 1 tt in let* b := f a in let* r := filter_c f l' in now (if b then a :: r else r)
  end.

(** Library calls at their worst. *)
Definition mem_c (x : str) (l : list str) : clocked bool := spend (1 + List.length l) (mem_str x l).
Definition pair_mem_c (x : str * str) (l : list (str * str)) : clocked bool := spend (1 + List.length l) (pair_mem x l).
Definition get_c {V} (m : list (str * V)) (k : str) : clocked (option V) := spend (1 + List.length m) (map_get m k).
Definition contains_c {V} (m : list (str * V)) (k : str) : clocked bool := spend (1 + List.length m) (map_contains m k).
Definition insert_c {V} (m : list (str * V)) (k : str) (v : V) : clocked (list (str * V)) :=
  spend (1 + List.length m) (map_insert m k v).
Definition find_c {A} (f : A -> bool) (l : list A) : clocked (option A) := spend (1 + List.length l) (find f l).
Definition any_c {A} (f : A -> bool) (l : list A) : clocked bool := spend (1 + List.length l) (existsb f l).
Definition throw_c {A} (e : sem_err) (sp : range) (input : str) : clocked (outcome A) :=
  spend (1 + List.length input) (throw_err e sp input).
Definition dup_c {A} (key : A -> str) (l : list A) : clocked (option A) :=
  spend (1 + List.length l * (1 + List.length l)) (first_dup key [] l).

(** helper.rs:5-19 *)
Definition check_attr_duplicate_keys_c (attrs : list attribute_t) (input : str) : clocked (outcome unit) :=
  let* d := dup_c attr_key attrs in
  match d with
  | Some a => throw_c DuplicateAttributeKey (at_span a) input
  | None => now (Ok tt)
  end.
(** helper.rs:21-35 *)
Definition check_prop_duplicate_keys_c (props : list property_t) (input : str) : clocked (outcome unit) :=
  let* d := dup_c prop_key props in
  match d with
  | Some p => throw_c DuplicatePropertyKey (pr_span p) input
  | None => now (Ok tt)
  end.
(** helper.rs:37-39 *)
Definition eq_elements_c (l r : list str) : clocked bool :=
  spend (1 + (List.length l + List.length r) * (List.length l + List.length r)) (eq_elements l r).
(** indexer.rs:190-197 *)
Definition contains_table_c (ix : indexer) (sch name : str) : clocked bool :=
  let* b := get_c (schema_map ix) sch in
  match b with Some b => contains_c (table_map b) name | None => now false end.
(** indexer.rs:199-206 *)
Definition contains_enum_c (ix : indexer) (sch name : str) : clocked bool :=
  let* b := get_c (schema_map ix) sch in
  match b with Some b => contains_c (enum_map b) name | None => now false end.
(** [entry(..).or_insert_with(..)] *)
Definition schema_entry_c (ix : indexer) (sch : str) : clocked indexed_schema :=
  let* b := get_c (schema_map ix) sch in now (match b with Some b => b | None => indexed_schema0 end).
Definition check_opt_attrs_c {S} (attrs : S -> list attribute_t) (st : option S) (input : str) : clocked (outcome unit) :=
  match st with
  | Some x => check_attr_duplicate_keys_c (attrs x) input
  | None => now (Ok tt)
  end.
(** indexer.rs:63-72 *)
Definition index_col1_c (input : str) (seen : list str) (c : table_col_t) : clocked (outcome (list str)) :=
  let?* _ := check_opt_attrs_c cs_attributes (tc_settings c) input in
  let k := id_str (tc_name c) in
  let* m := mem_c k seen in
  if m then throw_c DuplicateColumnName (tc_span c) input else now (Ok (k :: seen)).
Definition index_cols_c (cols : list table_col_t) (input : str) : clocked (outcome (list str)) :=
  fold_c (index_col1_c input) cols [].
(** indexer.rs:41-92 *)
Definition index_table1_c (input : str) (ix : indexer) (t : table_t) : clocked (outcome indexer) :=
  let?* _ := check_opt_attrs_c ts_attributes (tb_settings t) input in
  let id := tb_ident t in
  let sch := schema_or_default (ti_schema id) in
  let name := id_str (ti_name id) in
  let* has := contains_table_c ix sch name in
  let?* _ := (if has then throw_c DuplicateTableName (ti_span id) input else now (Ok tt)) in
  let?* cols := index_cols_c (tb_cols t) input in
  let* b := schema_entry_c ix sch in
  let* tm := insert_c (table_map b) name cols in
  let* sm := insert_c (schema_map ix) sch (mkIndexedSchema tm (enum_map b)) in
  match ti_alias id with
  | Some a =>
      let* am := insert_c (table_alias_map ix) (id_str a) (sch, name) in
      let* has := contains_c (table_alias_map ix) (id_str a) in
      if has then throw_c DuplicateAlias (id_span a) input
      else now (Ok (mkIndexer (table_group_map ix) sm am))
  | None => now (Ok (mkIndexer (table_group_map ix) sm (table_alias_map ix)))
  end.
Definition index_table_c (ts : list table_t) (input : str) (ix : indexer) : clocked (outcome indexer) :=
  fold_c (index_table1_c input) ts ix.
(** indexer.rs:118-127 *)
Definition index_enum_value1_c (input : str) (seen : list str) (v : enum_value_t) : clocked (outcome (list str)) :=
  let?* _ := check_opt_attrs_c evs_attributes (ev_settings v) input in
  let k := id_str (ev_value v) in
  let* m := mem_c k seen in
  if m then throw_c DuplicateEnumValue (ev_span v) input else now (Ok (k :: seen)).
(** indexer.rs:100-138 *)
Definition index_enum1_c (input : str) (ix : indexer) (e : enum_t) : clocked (outcome indexer) :=
  let id := en_ident e in
  let sch := schema_or_default (ei_schema id) in
  let name := id_str (ei_name id) in
  let* has := contains_enum_c ix sch name in
  let?* _ := (if has then throw_c DuplicateEnumName (ei_span id) input else now (Ok tt)) in
  let?* vals := fold_c (index_enum_value1_c input) (en_values e) [] in
  let* b := schema_entry_c ix sch in
  let* em := insert_c (enum_map b) name vals in
  let* sm := insert_c (schema_map ix) sch (mkIndexedSchema (table_map b) em) in
  now (Ok (mkIndexer (table_group_map ix) sm (table_alias_map ix))).
Definition index_enums_c (es : list enum_t) (input : str) (ix : indexer) : clocked (outcome indexer) :=
  fold_c (index_enum1_c input) es ix.
(** indexer.rs:269-272 *)
Definition resolve_alias_c (ix : indexer) (a : str) : clocked (option (str * str)) := get_c (table_alias_map ix) a.
(** indexer.rs:155-175 *)
Definition resolve_group_item_c (ix : indexer) (it : group_item_t) (input : str) : clocked (outcome (str * str)) :=
  let name := id_str (gi_ident_alias it) in
  match gi_schema it with
  | Some sc => now (Ok (id_str sc, name))
  | None =>
      let* a := resolve_alias_c ix name in
      match a with
      | Some id => now (Ok id)
      | None =>
          let* has := contains_table_c ix DEFAULT_SCHEMA name in
          if has then now (Ok (DEFAULT_SCHEMA, name)) else throw_c TableNotFound (gi_span it) input
      end
  end.
Definition index_group_item1_c (ix : indexer) (input : str) (seen : list (str * str)) (it : group_item_t)
  : clocked (outcome (list (str * str))) :=
  let?* id := resolve_group_item_c ix it input in
  let* m := pair_mem_c id seen in
  if m then throw_c DuplicateTableGroupItem (gi_span it) input else now (Ok (id :: seen)).
(** indexer.rs:147-188 *)
Definition index_table_group1_c (input : str) (ix : indexer) (g : group_t) : clocked (outcome indexer) :=
  let gname := id_str (tg_ident g) in
  let* has := contains_c (table_group_map ix) gname in
  let?* _ := (if has then throw_c DuplicateTableGroupName (id_span (tg_ident g)) input else now (Ok tt)) in
  let?* items := fold_c (index_group_item1_c ix input) (tg_items g) [] in
  let* gm := insert_c (table_group_map ix) gname items in
  now (Ok (mkIndexer gm (schema_map ix) (table_alias_map ix))).
Definition index_table_groups_c (gs : list group_t) (input : str) (ix : indexer) : clocked (outcome indexer) :=
  fold_c (index_table_group1_c input) gs ix.

(** indexer.rs:208-230, as called at mod.rs:305 with one value *)
Definition lookup_enum_values_c (ix : indexer) (sch : option str) (name : str) (v : str)
  : clocked (bool * (bool * list bool)) :=
  let sch := match sch with Some x => x | None => DEFAULT_SCHEMA end in
  let* b := get_c (schema_map ix) sch in
  match b with
  | Some b =>
      let* set := get_c (enum_map b) name in
      match set with
      | Some set => let* m := mem_c v set in now (true, (true, [m]))
      | None => now (true, (false, [false]))
      end
  | None => now (false, (false, [false]))
  end.
(** indexer.rs:232-267 *)
Definition lookup_table_fields_c (ix : indexer) (sch : option ident_t) (table : ident_t)
  (fields : list ident_t) (input : str) : clocked (outcome unit) :=
  let schema_span := match sch with Some i => id_span i | None => range0 end in
  let* b := get_c (schema_map ix) (schema_or_default sch) in
  match b with
  | Some b =>
      let* cols := get_c (table_map b) (id_str table) in
      match cols with
      | Some cols =>
          let* bad := filter_c (fun f => let* m := mem_c (id_str f) cols in now (negb m)) fields in
          match bad with
          | f :: _ => throw_c ColumnNotFound (id_span f) input
          | [] => now (Ok tt)
          end
      | None => throw_c TableNotFound (id_span table) input
      end
  | None => throw_c SchemaNotFound schema_span input
  end.
(** indexer.rs:274-295 *)
Definition resolve_ref_alias_c (ix : indexer) (r : ref_ident_t) : clocked ref_ident_t :=
  let* a := resolve_alias_c ix (id_str (ri_table r)) in
  now (match a with
       | Some (sch, tbl) =>
           mkRefIdent (ri_span r) (Some (mkIdent (ri_span r) sch sch)) (mkIdent (ri_span r) tbl tbl)
             (ri_compositions r)
       | None => r
       end).
(** indexer.rs:346-355 *)
Definition find_ref_table_c (ts : list table_t) (r : ref_ident_t) (input : str) : clocked (outcome table_t) :=
  let* t := find_c (fun t => same_table (ti_schema (tb_ident t)) (ti_name (tb_ident t))
                                        (ri_schema r) (ri_table r)) ts in
  match t with
  | Some t => now (Ok t)
  | None => throw_c TableNotFound (ri_span r) input
  end.
(** indexer.rs:356-363 *)
Definition find_ref_col_c (c : ident_t) (t : table_t) (input : str) : clocked (outcome table_col_t) :=
  let* col := find_c (fun col => str_eqb (id_str (tc_name col)) (id_str c)) (tb_cols t) in
  match col with
  | Some col => now (Ok col)
  | None => throw_c ColumnNotFound (id_span c) input
  end.
(** indexer.rs:364-383 *)
Definition is_valid_composite_c (comps : list ident_t) (ib : option indexes_block_t) : clocked bool :=
  match ib with
  | Some b =>
      exists_c (fun d =>
        if Nat.eqb (List.length comps) (List.length (idf_cols d))
           && match idf_settings d with Some st => is_is_pk st || is_is_unique st | None => false end
        then eq_elements_c (map id_str comps) (filter_map idx_col_name (idf_cols d))
        else now false) (ib_defs b)
  | None => now false
  end.
Definition throw_fk_c (x : option (fk_err * range)) (input : str) : clocked (outcome unit) :=
  match x with
  | Some (e, sp) => throw_c (InvalidForeignKey e) sp input
  | None => now (Ok tt)
  end.
(** indexer.rs:396 *)
Definition col_types_differ_c (l r : col_type_t) : clocked bool :=
  spend (3 + List.length (ct_args l) + List.length (ct_arrays l)) (col_types_differ l r).
(** indexer.rs:390-428 *)
Definition validate_field_pair_c (self : indexed_ref) (lt rt : table_t) (complen : nat) (input : str)
  (_ : unit) (p : ident_t * ident_t) : clocked (outcome unit) :=
  let '(l, r) := p in
  let?* lc := find_ref_col_c l lt input in
  let?* rc := find_ref_col_c r rt input in
  let ltype := tc_type lc in
  let rtype := tc_type rc in
  let* differ := col_types_differ_c ltype rtype in
  let?* _ := (if differ
             then throw_c (MismatchedForeignKeyType (id_str r) (id_str l) (ct_raw rtype) (id_raw l))
                          (ir_span self) input
             else now (Ok tt)) in
  if Nat.eqb complen 1 then throw_fk_c (single_fk_err self (col_key lc) (col_key rc)) input
  else now (Ok tt).
(** indexer.rs:334-465 *)
Definition validate_ref_type_c (self : indexed_ref) (ts : list table_t) (ix : indexer) (input : str)
  : clocked (outcome unit) :=
  let* lhs := resolve_ref_alias_c ix (ir_lhs self) in
  let* rhs := resolve_ref_alias_c ix (ir_rhs self) in
  let ll := List.length (ri_compositions lhs) in
  let rl := List.length (ri_compositions rhs) in
  let complen := Nat.max ll rl in
  let?* _ := (if negb (Nat.eqb ll rl) then throw_c MismatchedCompositeForeignKey (ir_span self) input
             else now (Ok tt)) in
  let?* _ := lookup_table_fields_c ix (ri_schema lhs) (ri_table lhs) (ri_compositions lhs) input in
  let?* _ := lookup_table_fields_c ix (ri_schema rhs) (ri_table rhs) (ri_compositions rhs) input in
  let?* lt := find_ref_table_c ts lhs input in
  let?* rt := find_ref_table_c ts rhs input in
  let?* _ := fold_c (validate_field_pair_c self lt rt complen input)
              (combine (ri_compositions lhs) (ri_compositions rhs)) tt in
  if Nat.leb 2 complen then
    let* lv := is_valid_composite_c (ri_compositions (ir_lhs self)) (tb_indexes lt) in
    let* rv := is_valid_composite_c (ri_compositions (ir_rhs self)) (tb_indexes rt) in
    throw_fk_c (composite_fk_err self lv rv) input
  else now (Ok tt).
(** indexer.rs:470-477 *)
Definition eq_ref_ident_c (l r : ref_ident_t) : clocked bool :=
  let* e := spend 2 (opt_str_eqb (option_map id_str (ri_schema l)) (option_map id_str (ri_schema r))
                     && str_eqb (id_str (ri_table l)) (id_str (ri_table r))) in
  if e then eq_elements_c (map id_str (ri_compositions l)) (map id_str (ri_compositions r)) else now false.
Definition same_ident_c (ix : indexer) (a b : ref_ident_t) : clocked bool :=
  let* a := resolve_ref_alias_c ix a in
  let* b := resolve_ref_alias_c ix b in
  eq_ref_ident_c a b.
(** indexer.rs:467-514 *)
Definition occupy_same_column_c (self other : indexed_ref) (ix : indexer) : clocked bool :=
  let both := forall_c (fun a => exists_c (fun b => same_ident_c ix a b)
                [ir_lhs other; ir_rhs other]) [ir_lhs self; ir_rhs self] in
  match ir_rel self, ir_rel other with
  | Many2Many, Many2Many => both
  | One2One, One2One => both
  | _, _ =>
      match occupied_ident self, occupied_ident other with
      | Some a, Some b => same_ident_c ix a b
      | _, _ => now false
      end
  end.

(** mod.rs:104-134 *)
Definition check_col_settings_c (input : str) (ti : table_indexer) (c : table_col_t) : clocked (outcome table_indexer) :=
  match tc_settings c with
  | None => now (Ok ti)
  | Some st =>
      let?* ti := (if cs_is_pk st then
                    if negb (is_nil (pk_list ti)) then throw_c DuplicatePrimaryKey (tc_span c) input
                    else if nullable_is_null (cs_nullable st) then throw_c NullablePrimaryKey (tc_span c) input
                    else if negb (is_nil (ct_arrays (tc_type c))) then throw_c ArrayPrimaryKey (tc_span c) input
                    else now (Ok (mkTableIndexer (pk_list ti ++ [id_str (tc_name c)]) (unique_list ti) (indexed_list ti)))
                  else now (Ok ti)) in
      let ti := if cs_is_unique st
                then mkTableIndexer (pk_list ti) (unique_list ti ++ [[id_str (tc_name c)]]) (indexed_list ti)
                else ti in
      let* conflict := spend (2 + 2 * List.length (cs_attributes st)) (conflict_nullable (cs_attributes st)) in
      if conflict then throw_c ConflictNullableSetting (cs_span st) input
      else now (Ok ti)
  end.
(** mod.rs:166-172 *)
Definition check_index_col1_c (t : table_t) (input : str) (_ : unit) (c : indexes_col) : clocked (outcome unit) :=
  match c with
  | ICString i =>
      let* has := any_c (fun col => str_eqb (id_str (tc_name col)) (id_str i)) (tb_cols t) in
      if has then now (Ok tt) else throw_c ColumnNotFound (id_span i) input
  | ICExpr _ => now (Ok tt)
  end.
(** mod.rs:148-233 *)
Definition check_index_def_c (t : table_t) (ib : indexes_block_t) (input : str)
  (ti : table_indexer) (d : indexes_def) : clocked (outcome table_indexer) :=
  let?* _ := (if is_nil (idf_cols d) then throw_c EmptyIndexesBlock (ib_span ib) input else now (Ok tt)) in
  let ids := filter_map idx_col_name (idf_cols d) in
  let?* _ := fold_c (check_index_col1_c t input) (idf_cols d) tt in
  match idf_settings d with
  | Some st =>
      let?* _ := check_attr_duplicate_keys_c (is_attributes st) input in
      let?* _ := (if Nat.ltb 1 (count_true [is_is_pk st; is_is_unique st; is_some (is_type st)])
                 then throw_c InvalidIndexesSetting (is_span st) input else now (Ok tt)) in
      let?* ti := (if is_is_pk st then
                    if negb (is_nil (pk_list ti)) then throw_c DuplicatePrimaryKey (idf_span d) input
                    else now (Ok (mkTableIndexer (pk_list ti ++ ids) (unique_list ti) (indexed_list ti)))
                  else if is_is_unique st then
                    let* dup := exists_c (fun u => forall_c (fun id => mem_c id u) ids) (unique_list ti) in
                    if dup then throw_c DuplicateUniqueKey (idf_span d) input
                    else now (Ok (mkTableIndexer (pk_list ti) (unique_list ti ++ [ids]) (indexed_list ti)))
                  else now (Ok ti)) in
      if is_some (is_type st) then
        let* dup := exists_c (fun p => spend (2 + List.length ids)
                      (list_eqb str_eqb (fst p) ids && opt_idx_type_eqb (snd p) (is_type st))) (indexed_list ti) in
        if dup then throw_c DuplicateIndexKey (idf_span d) input
        else now (Ok (mkTableIndexer (pk_list ti) (unique_list ti) (indexed_list ti ++ [(ids, is_type st)])))
      else now (Ok ti)
  | None =>
      let* dup := exists_c (fun p => spend (2 + List.length ids) (list_eqb str_eqb (fst p) ids)) (indexed_list ti) in
      if dup then throw_c DuplicateIndexKey (idf_span d) input
      else now (Ok (mkTableIndexer (pk_list ti) (unique_list ti) (indexed_list ti ++ [(ids, None)])))
  end.
(** mod.rs:99-235 *)
Definition check_table_c (input : str) (t : table_t) : clocked (outcome (list indexed_ref)) :=
  let?* ti := fold_c (check_col_settings_c input) (tb_cols t) table_indexer0 in
  let?* _ := match tb_indexes t with
            | Some ib => let?* _ := fold_c (check_index_def_c t ib input) (ib_defs ib) ti in now (Ok tt)
            | None => now (Ok tt)
            end in
  let rs := flat_map (col_inline_refs t) (tb_cols t) in
  spend (1 + List.length rs) (Ok rs).

(** mod.rs:297-302 and 323-328 *)
Definition default_span_c (attrs : list attribute_t) : clocked (option range) :=
  spend (1 + List.length attrs) (default_span attrs).
(** mod.rs:254-282 *)
Definition check_type_args_c (tn : col_type_name) (raw : str) (ct : col_type_t) (input : str) : clocked (outcome unit) :=
  let n := List.length (ct_args ct) in
  if is_nil (ct_args ct) then now (Ok tt)
  else
    let?* _ := match tn with
              | CT_VarChar | CT_Char | CT_Time | CT_Timestamp | CT_Timetz | CT_Timestamptz | CT_Bit | CT_Varbit =>
                  if negb (Nat.eqb n 1) then throw_c (InvalidDataTypeArguments raw 1) (ct_span ct) input else now (Ok tt)
              | CT_Decimal =>
                  if negb (Nat.eqb n 2) then throw_c (InvalidDataTypeArguments raw 2) (ct_span ct) input else now (Ok tt)
              | _ => throw_c (InvalidDataTypeArguments raw 0) (ct_span ct) input
              end in
    let* ints := spend (1 + n) (forallb is_integer (ct_args ct)) in
    if negb ints then throw_c InvalidArgumentValue (ct_span ct) input
    else now (Ok tt).
(** mod.rs:286-315 *)
Definition check_enum_type_c (ix : indexer) (c : table_col_t) (raw : str) (input : str) : clocked (outcome col_type_name) :=
  let ct := tc_type c in
  let* parts := spend (1 + List.length raw) (split_on 46%N raw) in
  let?* q := match parts with
            | [_] => now (Ok (None, raw))
            | [a; b] => now (Ok (Some a, b))
            | _ => throw_c InvalidEnum (ct_span ct) input
            end in
  let '(esch, ename) := q in
  match tc_settings c with
  | Some st =>
      match cs_default st with
      | Some dv =>
          let* dsp := default_span_c (cs_attributes st) in
          match dsp with
          | None => now Panic
          | Some dsp =>
              let* found := lookup_enum_values_c ix esch ename (value_to_string dv) in
              match found with
              | (false, _) => throw_c SchemaNotFound (ct_span ct) input
              | (true, (false, _)) => throw_c EnumNotFound (ct_span ct) input
              | (true, (true, f)) =>
                  if existsb negb f then throw_c EnumValueNotFound dsp input
                  else now (Ok (CT_Enum ename))
              end
          end
      | None => now (Ok (CT_Enum ename))
      end
  | None => now (Ok (CT_Enum ename))
  end.
(** mod.rs:245-319 *)
Definition resolve_col_type_c (ix : indexer) (c : table_col_t) (input : str) : clocked (outcome col_type_name) :=
  match ct_type_name (tc_type c) with
  | CT_Raw raw =>
      let* known := spend (1 + List.length raw) (col_type_name_from_str raw) in
      match known with
      | Some tn => let?* _ := check_type_args_c tn raw (tc_type c) input in now (Ok tn)
      | None => check_enum_type_c ix c raw input
      end
  | _ => now Panic
  end.
(** mod.rs:330-387: a fixed number of comparisons, perhaps an error *)
Definition check_default_c (tn : col_type_name) (c : table_col_t) (st : col_settings_t) (dv : value_t)
  (sp : range) (input : str) : clocked (outcome unit) :=
  spend (4 + List.length input) (check_default tn c st dv sp input).
(** mod.rs:244-397 *)
Definition check_col_type_c (ix : indexer) (input : str) (c : table_col_t) : clocked (outcome table_col_t) :=
  let?* tn := resolve_col_type_c ix c input in
  let?* _ := match tc_settings c with
            | Some st =>
                match cs_default st with
                | Some dv =>
                    let* sp := default_span_c (cs_attributes st) in
                    match sp with
                    | None => now Panic
                    | Some sp => check_default_c tn c st dv sp input
                    end
                | None => now (Ok tt)
                end
            | None => now (Ok tt)
            end in
  let ct := tc_type c in
  now (Ok (mkTableCol (tc_span c) (tc_name c)
        (mkColType (ct_span ct) (ct_raw ct) tn (ct_args ct) (ct_arrays ct)) (tc_settings c))).
(** mod.rs:240-401 *)
Definition check_table_types_c (ix : indexer) (input : str) (t : table_t) : clocked (outcome table_t) :=
  let?* cols := map_c (check_col_type_c ix input) (tb_cols t) in
  now (Ok (mkTable (tb_span t) cols (tb_ident t) (tb_note t) (tb_indexes t) (tb_settings t))).
(** mod.rs:405-420 *)
Definition check_ref_c (irs : list indexed_ref) (ts : list table_t) (ix : indexer) (input : str)
  (_ : unit) (r : indexed_ref) : clocked (outcome unit) :=
  let?* _ := check_opt_attrs_c rs_attributes (ir_settings r) input in
  let?* _ := validate_ref_type_c r ts ix input in
  let* same := filter_c (fun o => occupy_same_column_c r o ix) irs in
  if negb (Nat.eqb (List.length same) 1)
  then throw_c ConflictRelation (ir_span r) input
  else now (Ok tt).
(** mod.rs:78-87 *)
Definition check_projects_c (x : schema_t) : clocked (outcome unit) :=
  let input := sb_input x in
  let* ps := spend (1 + List.length (sb_blocks x)) (projects x) in
  let?* _ := (if Nat.ltb 1 (List.length ps)
             then throw_c DuplicateProjectSetting (sb_span x) input else now (Ok tt)) in
  match ps with
  | p :: _ => check_prop_duplicate_keys_c (pj_properties p) input
  | [] => throw_c ProjectSettingNotFound (sb_span x) input
  end.
(** mod.rs:70-423; the accessors [tables], [enums], [table_groups], [refs] (ast/schema.rs) pass over the blocks *)
Definition analyze_c (x : schema_t) : clocked (outcome analyzed_indexer) :=
  let input := sb_input x in
  let?* _ := check_projects_c x in
  let* _ := spend (4 * (1 + List.length (sb_blocks x))) tt in
  let?* ix := index_table_c (tables x) input indexer0 in
  let?* ix := index_enums_c (enums x) input ix in
  let?* ix := index_table_groups_c (table_groups x) input ix in
  let?* inlined := map_c (check_table_c input) (tables x) in
  let* irs := spend (List.length (refs x) + List.length (List.concat inlined)) (map indexed_ref_from_block (refs x) ++ List.concat inlined) in
  let?* ts := map_c (check_table_types_c ix input) (tables x) in
  let?* _ := fold_c (check_ref_c irs ts ix input) irs tt in
  now (Ok (mkAnalyzed irs ix)).
(** The steps [analyze] takes on [x]. *)
Definition check_work (x : schema_t) : nat := snd (analyze_c x).
