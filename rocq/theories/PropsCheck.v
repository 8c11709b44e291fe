(** * PropsCheck: the properties of the semantic check.

    Nothing but statements, examples that meet their hypotheses, and assumption
    audits.  The vocabulary is in [Rules], [AstSpec] and [Nodes]; [analyze] is the
    semantic check [parse_dbml] runs on the AST. *)

From Verif Require Import Layout Nodes Rules Err Analyzer Api Samples CheckFacts Reindex ParseFacts CheckFacts2 RulesOk3 Refuted.

(** ** C02 *)
Theorem C02_never_panics_refuted : ~ (forall inp, exists o, parse_dbml inp = Some o /\ o <> Panic).
Proof. exact C02_never_panics_refuted_w. Qed.
Print Assumptions C02_never_panics_refuted.
Theorem C02_returns_partial : forall inp, exists o, parse_dbml inp = Some o.
Proof. exact checked_total. Qed.
Print Assumptions C02_returns_partial.
(** The only way to panic: a string default on a char, bit, varchar or varbit
    column written without a length. *)
Theorem C02_only_panic_partial : forall inp, parse_dbml inp = Some Panic ->
  exists x, parse_dbml_unchecked inp = Some (Ok x) /\ unsized_default x.
Proof. exact checked_panic. Qed.
Print Assumptions C02_only_panic_partial.
Theorem C02_unsized_never_accepted : forall inp x, parse_dbml_unchecked inp = Some (Ok x) -> unsized_default x ->
  forall y, parse_dbml inp <> Some (Ok y).
Proof. exact unsized_not_ok. Qed.
Print Assumptions C02_unsized_never_accepted.
Example C02_meets : parse_dbml (prj "Table t { a varchar [default: 'x'] }") = Some Panic.
Proof. vm_compute. reflexivity. Qed.

(** ** C18 *)
Theorem C18_one_project : forall inp x, parse_dbml inp = Some (Ok x) ->
  exists p, projects x = [p] /\ NoDup (map prop_name (pj_properties p)).
Proof. exact a_project. Qed.
Print Assumptions C18_one_project.
(** Every theorem below with an accepted text is met by [shop]. *)
Example C18_meets : parse_dbml shop = Some (Ok shop_ast) /\ List.length (projects shop_ast) = 1%nat.
Proof. split; [exact shop_ok|vm_compute; reflexivity]. Qed.
Example C18_none : parse_dbml (s "Table t { a int }") = Some (Err (ErSem ProjectSettingNotFound (0, 17))).
Proof. vm_compute. reflexivity. Qed.
Example C18_two : parse_dbml (prj "Project q { }") = Some (Err (ErSem DuplicateProjectSetting (0, 27))).
Proof. vm_compute. reflexivity. Qed.
Example C18_key_twice : parse_dbml (s "Project q { a: 'x' a: 'y' }") = Some (Err (ErSem DuplicatePropertyKey (19, 25))).
Proof. vm_compute. reflexivity. Qed.

(** ** C19 *)
Theorem C19_table_names : forall inp x, parse_dbml inp = Some (Ok x) -> NoDup (map table_name (tables x)).
Proof. exact a_tables. Qed.
Print Assumptions C19_table_names.
Example C19_meets : parse_dbml shop = Some (Ok shop_ast) /\
  map table_name (tables shop_ast) = [(s "core", s "users"); (s "public", s "posts"); (s "public", s "posts2")].
Proof. split; [exact shop_ok|vm_compute; reflexivity]. Qed.
Example C19_public : parse_dbml (prj "Table t { a int } Table public.t { a int }") = Some (Err (ErSem DuplicateTableName (38, 46))).
Proof. vm_compute. reflexivity. Qed.

(** ** C20 *)
Theorem C20_column_names : forall inp x, parse_dbml inp = Some (Ok x) -> forall t, In t (tables x) -> NoDup (map col_name (tb_cols t)).
Proof. exact a_columns. Qed.
Print Assumptions C20_column_names.
Example C20_meets : parse_dbml shop = Some (Ok shop_ast) /\ map (fun t => List.length (tb_cols t)) (tables shop_ast) = [6; 6; 3]%nat.
Proof. split; [exact shop_ok|vm_compute; reflexivity]. Qed.
Example C20_rejects : exists sp, parse_dbml (prj "Table t { a int a text }") = Some (Err (ErSem DuplicateColumnName sp)).
Proof. eexists. vm_compute. reflexivity. Qed.

(** ** C21 *)
Theorem C21_aliases : forall inp x, parse_dbml inp = Some (Ok x) -> NoDup (aliases (tables x)).
Proof. exact a_aliases. Qed.
Print Assumptions C21_aliases.
Example C21_meets : parse_dbml (prj "Table t as A { a int } Table u as B { a int }") <> None /\
  exists x, parse_dbml (prj "Table t as A { a int } Table u as B { a int }") = Some (Ok x) /\ aliases (tables x) = [s "A"; s "B"].
Proof. split; [vm_compute; discriminate|]. eexists. split; vm_compute; reflexivity. Qed.
Example C21_rejects : exists sp, parse_dbml (prj "Table t as A { a int } Table u as A { a int }") = Some (Err (ErSem DuplicateAlias sp)).
Proof. eexists. vm_compute. reflexivity. Qed.

(** ** C22 *)
Theorem C22_enums : forall inp x, parse_dbml inp = Some (Ok x) ->
  NoDup (map enum_name (enums x)) /\ forall e, In e (enums x) -> NoDup (map value_name (en_values e)).
Proof. exact a_enums. Qed.
Print Assumptions C22_enums.
Example C22_meets : parse_dbml shop = Some (Ok shop_ast) /\ map (fun e => map value_name (en_values e)) (enums shop_ast) = [[s "admin"; s "guest"]].
Proof. split; [exact shop_ok|vm_compute; reflexivity]. Qed.
Example C22_rejects : exists sp, parse_dbml (prj "Enum e { a b a }") = Some (Err (ErSem DuplicateEnumValue sp)).
Proof. eexists. vm_compute. reflexivity. Qed.

(** ** C23 *)
Theorem C23_items_exist_refuted :
  ~ (forall inp x g it, parse_dbml inp = Some (Ok x) -> In g (table_groups x) -> In it (tg_items g) ->
     exists t, In t (tables x) /\ (alias_of t = Some (id_str (gi_ident_alias it)) \/
                                   table_name t = (in_schema (gi_schema it), id_str (gi_ident_alias it)))).
Proof. exact C23_items_exist_refuted_w. Qed.
Print Assumptions C23_items_exist_refuted.
Theorem C23_groups_partial : forall inp x, parse_dbml inp = Some (Ok x) ->
  NoDup (map group_name (table_groups x)) /\
  forall g, In g (table_groups x) -> exists ids, Forall2 (item_denotes (tables x)) (tg_items g) ids /\ NoDup ids.
Proof. exact a_groups. Qed.
Print Assumptions C23_groups_partial.
Theorem C23_unqualified_items_exist_partial : forall inp x, parse_dbml inp = Some (Ok x) ->
  forall g it, In g (table_groups x) -> In it (tg_items g) -> gi_schema it = None ->
  exists t, In t (tables x) /\ (alias_of t = Some (id_str (gi_ident_alias it)) \/ table_name t = (public, id_str (gi_ident_alias it))).
Proof. exact a_items. Qed.
Print Assumptions C23_unqualified_items_exist_partial.
Example C23_meets : parse_dbml shop = Some (Ok shop_ast) /\
  map (fun g => map (fun i => (gi_schema i, id_str (gi_ident_alias i))) (tg_items g)) (table_groups shop_ast) = [[(None, s "U"); (None, s "posts")]].
Proof. split; [exact shop_ok|vm_compute; reflexivity]. Qed.
Example C23_rejects : exists sp, parse_dbml (prj "Table t as A { a int } TableGroup g { t A }") = Some (Err (ErSem DuplicateTableGroupItem sp)).
Proof. eexists. vm_compute. reflexivity. Qed.

(** ** C24 *)
Theorem C24_keys_distinct_refuted :
  ~ (forall inp x sp l, parse_dbml inp = Some (Ok x) -> In (sp, l) (all_settings x) -> distinct_keys l).
Proof. exact C24_keys_distinct_refuted_w. Qed.
Print Assumptions C24_keys_distinct_refuted.
(** Tables, columns, enum values, index definitions and references. *)
Theorem C24_keys_distinct_partial : forall inp x, parse_dbml inp = Some (Ok x) -> forall l, settings_of x l -> distinct_keys l.
Proof. exact a_keys. Qed.
Print Assumptions C24_keys_distinct_partial.
Example C24_meets : parse_dbml shop = Some (Ok shop_ast) /\
  (exists t st, In t (tables shop_ast) /\ tb_settings t = Some st) /\
  (exists r st, In r (refs shop_ast) /\ rb_settings r = Some st /\ settings_of shop_ast (rs_attributes st) /\ List.length (rs_attributes st) = 2%nat).
Proof.
  split; [exact shop_ok|]. split.
  - eexists. eexists. split; [left; reflexivity|vm_compute; reflexivity].
  - assert (H : In (List.hd (mkRefBlock (0,0) None Undef (mkRefIdent (0,0) None (mkIdent (0,0) [] []) []) (mkRefIdent (0,0) None (mkIdent (0,0) [] []) []) None)
                     (refs shop_ast)) (refs shop_ast)) by (vm_compute; auto).
    eexists. eexists. split; [exact H|]. split; [vm_compute; reflexivity|]. split; [|vm_compute; reflexivity].
    eapply so_ref; [exact H|vm_compute; reflexivity].
Qed.
Example C24_rejects : exists sp, parse_dbml (prj "Table t { a int [note: 'x', note: 'y'] }") = Some (Err (ErSem DuplicateAttributeKey sp)).
Proof. eexists. vm_compute. reflexivity. Qed.

(** ** C25 *)
Theorem C25_primary_keys : forall inp x, parse_dbml inp = Some (Ok x) -> forall t, In t (tables x) ->
  (forall c c', In c (tb_cols t) -> In c' (tb_cols t) -> pk_col c -> pk_col c' -> c = c') /\
  (forall ib d, tb_indexes t = Some ib -> In d (ib_defs ib) -> def_pk d -> forall c, In c (tb_cols t) -> ~ pk_col c) /\
  (forall ib l1 d l2 d', tb_indexes t = Some ib -> ib_defs ib = l1 ++ d :: l2 -> def_pk d -> In d' l1 -> def_pk d' -> named d' = []) /\
  (forall c, In c (tb_cols t) -> has_settings (fun st => cs_is_pk st = true) c ->
     ct_arrays (tc_type c) = [] /\ ~ has_settings (fun st => cs_nullable st = Some Null) c) /\
  (forall c, In c (tb_cols t) -> ~ has_settings (fun st => has_key "null" (cs_attributes st) /\ has_key "not null" (cs_attributes st)) c).
Proof. exact a_pk. Qed.
Print Assumptions C25_primary_keys.
Example C25_meets : parse_dbml shop = Some (Ok shop_ast) /\
  map (fun t => List.length (filter (fun c => match tc_settings c with Some st => cs_is_pk st | None => false end) (tb_cols t))) (tables shop_ast) = [1; 1; 0]%nat.
Proof. split; [exact shop_ok|vm_compute; reflexivity]. Qed.
Example C25_twice : exists sp, parse_dbml (prj "Table t { a int [pk] b int [primary key] }") = Some (Err (ErSem DuplicatePrimaryKey sp)).
Proof. eexists. vm_compute. reflexivity. Qed.
Example C25_null : exists sp, parse_dbml (prj "Table t { a int [pk, null] }") = Some (Err (ErSem NullablePrimaryKey sp)).
Proof. eexists. vm_compute. reflexivity. Qed.

(** ** C26 *)
Theorem C26_index_definitions : forall inp x, parse_dbml inp = Some (Ok x) ->
  forall t ib l1 d l2, In t (tables x) -> tb_indexes t = Some ib -> ib_defs ib = l1 ++ d :: l2 ->
  idf_cols d <> [] /\ incl (named d) (map col_name (tb_cols t)) /\
  ~ (def_pk d /\ def_unique d) /\ ~ (def_pk d /\ def_typed d) /\ ~ (def_unique d /\ def_typed d) /\
  ~ unique_again (tb_cols t) l1 d /\ ~ index_again l1 d.
Proof. exact a_index. Qed.
Print Assumptions C26_index_definitions.
Example C26_meets : parse_dbml shop = Some (Ok shop_ast) /\
  exists t ib l1 d, In t (tables shop_ast) /\ tb_indexes t = Some ib /\ ib_defs ib = l1 ++ [d] /\ List.length l1 = 2%nat /\ named d = [s "id"; s "age"].
Proof.
  split; [exact shop_ok|]. eexists. eexists. exists (firstn 2 (all_index_defs shop_ast)). eexists. split; [left; reflexivity|].
  split; [vm_compute; reflexivity|]. split; [vm_compute; reflexivity|]. split; vm_compute; reflexivity.
Qed.
Example C26_missing : exists sp, parse_dbml (prj "Table t { a int Indexes { b } }") = Some (Err (ErSem ColumnNotFound sp)).
Proof. eexists. vm_compute. reflexivity. Qed.
Example C26_empty : parse_dbml (prj "Table t { a int Indexes { () } }") = Some (Err (ErSem EmptyIndexesBlock (38, 44))).
Proof. vm_compute. reflexivity. Qed.

(** ** C27 *)
Theorem C27_type_arguments : forall inp x, parse_dbml inp = Some (Ok x) ->
  forall c raw tn, In c (all_cols x) -> ct_type_name (tc_type c) = CT_Raw raw -> builtin raw tn -> args_fit tn (ct_args (tc_type c)).
Proof. exact a_args. Qed.
Print Assumptions C27_type_arguments.
Example C27_meets : parse_dbml shop = Some (Ok shop_ast) /\
  exists c, In c (all_cols shop_ast) /\ ct_type_name (tc_type c) = CT_Raw (s "decimal") /\ builtin (s "decimal") CT_Decimal /\
    ct_args (tc_type c) = [VInteger 10; VInteger 2].
Proof.
  split; [exact shop_ok|]. eexists. split; [do 9 right; left; reflexivity|]. split; [vm_compute; reflexivity|]. split; [|vm_compute; reflexivity].
  exists "decimal"%string. split; [|reflexivity]. cbn. tauto.
Qed.
Example C27_rejects : exists sp, parse_dbml (prj "Table t { a decimal(1) }") = Some (Err (ErSem (InvalidDataTypeArguments (s "decimal") 2) sp)).
Proof. eexists. vm_compute. reflexivity. Qed.

(** ** C28 *)
Theorem C28_enum_defaults : forall inp x, parse_dbml inp = Some (Ok x) ->
  forall c raw st v, In c (all_cols x) -> ct_type_name (tc_type c) = CT_Raw raw -> not_builtin raw -> has_default c st v ->
  exists so n e, enum_type raw so n /\ In e (enums x) /\ enum_name e = (match so with Some a => a | None => public end, n) /\
    In (value_to_string v) (map value_name (en_values e)).
Proof. exact a_enum_default. Qed.
Print Assumptions C28_enum_defaults.
Example C28_meets : parse_dbml shop = Some (Ok shop_ast) /\
  exists c st, In c (all_cols shop_ast) /\ ct_type_name (tc_type c) = CT_Raw (s "job_role") /\ not_builtin (s "job_role") /\
    has_default c st (VEnum (s "admin")).
Proof.
  split; [exact shop_ok|]. eexists. eexists. split; [do 3 right; left; reflexivity|]. split; [vm_compute; reflexivity|].
  split; [apply RulesOk.from_str_none; vm_compute; reflexivity|]. split; vm_compute; reflexivity.
Qed.
Example C28_rejects : exists sp, parse_dbml (prj "Enum e { a b } Table t { a e [default: c] }") = Some (Err (ErSem EnumValueNotFound sp)).
Proof. eexists. vm_compute. reflexivity. Qed.

(** ** C29 *)
Theorem C29_integer_defaults : forall inp x, parse_dbml inp = Some (Ok x) ->
  forall c tn st z lo hi, In c (all_cols x) -> col_means c tn -> has_default c st (VInteger z) -> int_range tn = Some (lo, hi) ->
  (lo <= z <= hi)%Z.
Proof. exact a_int. Qed.
Print Assumptions C29_integer_defaults.
(** The converse fails: the largest bigint is refused... *)
Theorem C29_in_range_accepted_refuted :
  ~ (forall inp raw sp, parse_dbml inp = Some (Err (ErSem (DataTypeExceeded raw) sp)) ->
     exists x c tn st z lo hi, parse_dbml_unchecked inp = Some (Ok x) /\ In c (all_cols x) /\ col_means c tn /\
       has_default c st (VInteger z) /\ int_range tn = Some (lo, hi) /\ ~ (lo <= z <= hi)%Z).
Proof. exact C29_in_range_accepted_refuted_w. Qed.
Print Assumptions C29_in_range_accepted_refuted.
(** ...and it is the only one. *)
Theorem C29_in_range_accepted_partial : forall inp raw sp, parse_dbml inp = Some (Err (ErSem (DataTypeExceeded raw) sp)) ->
  exists x c tn st z, parse_dbml_unchecked inp = Some (Ok x) /\ In c (all_cols x) /\ col_means c tn /\ has_default c st (VInteger z) /\
    (exists lo hi, int_range tn = Some (lo, hi) /\ (~ (lo <= z <= hi)%Z \/ tn = CT_BigInt /\ z = hi)).
Proof. exact exceeded_truth. Qed.
Print Assumptions C29_in_range_accepted_partial.
Example C29_meets : parse_dbml shop = Some (Ok shop_ast) /\
  exists c st, In c (all_cols shop_ast) /\ ct_type_name (tc_type c) = CT_Raw (s "smallint") /\ has_default c st (VInteger 21).
Proof.
  split; [exact shop_ok|]. eexists. eexists. split; [do 2 right; left; reflexivity|]. split; [vm_compute; reflexivity|].
  split; vm_compute; reflexivity.
Qed.
Example C29_boundary : (exists x, parse_dbml (prj "Table t { a smallint [default: 32767] }") = Some (Ok x)) /\
  exists sp, parse_dbml (prj "Table t { a smallint [default: 32768] }") = Some (Err (ErSem (DataTypeExceeded (s "smallint")) sp)).
Proof. split; eexists; vm_compute; reflexivity. Qed.

(** ** C30 *)
Theorem C30_string_defaults : forall inp x, parse_dbml inp = Some (Ok x) ->
  forall c tn st v, In c (all_cols x) -> col_means c tn -> has_default c st (VString v) ->
  (tn = CT_Char \/ tn = CT_Bit -> ct_args (tc_type c) = [VInteger (Z.of_N (blen v))]) /\
  (tn = CT_VarChar \/ tn = CT_Varbit -> exists n, ct_args (tc_type c) = [VInteger n] /\ (Z.of_N (blen v) <= n)%Z).
Proof. exact a_string. Qed.
Print Assumptions C30_string_defaults.
Example C30_meets : parse_dbml shop = Some (Ok shop_ast) /\
  exists c st, In c (all_cols shop_ast) /\ ct_type_name (tc_type c) = CT_Raw (s "char") /\ has_default c st (VString (s "abc")).
Proof.
  split; [exact shop_ok|]. eexists. eexists. split; [do 13 right; left; reflexivity|]. split; [vm_compute; reflexivity|].
  split; vm_compute; reflexivity.
Qed.
Example C30_boundary : (exists x, parse_dbml (prj "Table t { a varchar(3) [default: 'abc'] }") = Some (Ok x)) /\
  exists sp, parse_dbml (prj "Table t { a varchar(2) [default: 'abc'] }") = Some (Err (ErSem (InvalidDefaultValue (s "abc") (s "varchar(2)")) sp)).
Proof. split; eexists; vm_compute; reflexivity. Qed.

(** ** C31 *)
Theorem C31_boolean_and_null_defaults : forall inp x, parse_dbml inp = Some (Ok x) ->
  forall c tn st, In c (all_cols x) -> col_means c tn ->
  (forall b, has_default c st (VBool b) -> tn = CT_Bool) /\ (has_default c st VNull -> cs_nullable st = Some Null).
Proof. exact a_bool_null. Qed.
Print Assumptions C31_boolean_and_null_defaults.
(** In an accepted schema every column type has a meaning. *)
Theorem C31_types_mean_something : forall inp x, parse_dbml inp = Some (Ok x) -> forall c, In c (all_cols x) -> exists tn, col_means c tn.
Proof. exact a_type_means. Qed.
Print Assumptions C31_types_mean_something.
Example C31_meets : parse_dbml shop = Some (Ok shop_ast) /\
  map cs_default (all_col_settings shop_ast) <> [] /\ In (Some (VBool true)) (map cs_default (all_col_settings shop_ast)) /\
  In (Some VNull) (map cs_default (all_col_settings shop_ast)).
Proof. split; [exact shop_ok|]. vm_compute. intuition discriminate. Qed.
Example C31_rejects : exists sp, parse_dbml (prj "Table t { a int [default: null] }") = Some (Err (ErSem DefaultNullInNonNullable sp)).
Proof. eexists. vm_compute. reflexivity. Qed.

(** ** C32 *)
Theorem C32_endpoints_exist : forall inp x, parse_dbml inp = Some (Ok x) ->
  forall r, In r (all_refs x) -> forall e, e = ir_lhs r \/ e = ir_rhs r ->
  exists t, target (tables x) e t /\ incl (endpoint_cols e) (map col_name (tb_cols t)).
Proof. exact a_ref_ends. Qed.
Print Assumptions C32_endpoints_exist.
Example C32_meets : parse_dbml shop = Some (Ok shop_ast) /\ List.length (all_refs shop_ast) = 3%nat.
Proof. split; [exact shop_ok|vm_compute; reflexivity]. Qed.
Example C32_rejects : exists sp, parse_dbml (prj "Table t { a int [ref: > u.b] }") = Some (Err (ErSem TableNotFound sp)).
Proof. eexists. vm_compute. reflexivity. Qed.

(** ** C33 *)
Theorem C33_same_types : forall inp x, parse_dbml inp = Some (Ok x) -> forall r, In r (all_refs x) ->
  exists lt rt lcs rcs, target (tables x) (ir_lhs r) lt /\ target (tables x) (ir_rhs r) rt /\
    Forall2 (names_col lt) (ri_compositions (ir_lhs r)) lcs /\ Forall2 (names_col rt) (ri_compositions (ir_rhs r)) rcs /\
    Forall2 same_type lcs rcs.
Proof. exact a_ref_types. Qed.
Print Assumptions C33_same_types.
Theorem C33_same_lengths : forall inp x, parse_dbml inp = Some (Ok x) -> forall r, In r (all_refs x) ->
  List.length (ri_compositions (ir_lhs r)) = List.length (ri_compositions (ir_rhs r)).
Proof. exact a_ref_lengths. Qed.
Print Assumptions C33_same_lengths.
Example C33_meets : parse_dbml shop = Some (Ok shop_ast) /\
  map (fun r => List.length (ri_compositions (ir_lhs r))) (all_refs shop_ast) = [1; 2; 1]%nat.
Proof. split; [exact shop_ok|vm_compute; reflexivity]. Qed.
Example C33_rejects : exists e sp, parse_dbml (prj "Table t { a int [pk] } Table u { b text [ref: > t.a] }")
  = Some (Err (ErSem (MismatchedForeignKeyType e (s "b") (s "int") (s "b")) sp)).
Proof. eexists. eexists. vm_compute. reflexivity. Qed.

(** ** C34 *)
(** What the error texts promise: both sides of a many-to-many relation are keys. *)
Theorem C34_many_to_many_refuted :
  ~ (forall inp x r lt rt l rr lc rc, parse_dbml inp = Some (Ok x) -> In r (all_refs x) -> ir_rel r = Many2Many ->
     target (tables x) (ir_lhs r) lt -> target (tables x) (ir_rhs r) rt ->
     ri_compositions (ir_lhs r) = [l] -> ri_compositions (ir_rhs r) = [rr] -> names_col lt l lc -> names_col rt rr rc ->
     key_col lc /\ key_col rc).
Proof. exact C34_many_to_many_refuted_w. Qed.
Print Assumptions C34_many_to_many_refuted.
(** One-to-many and many-to-one: the one side; one-to-one and single many-to-many: at
    least one side; composite many-to-many: both. *)
Theorem C34_keys_partial : forall inp x, parse_dbml inp = Some (Ok x) ->
  forall r lt rt, In r (all_refs x) -> target (tables x) (ir_lhs r) lt -> target (tables x) (ir_rhs r) rt ->
  (forall l rr lc rc, ri_compositions (ir_lhs r) = [l] -> ri_compositions (ir_rhs r) = [rr] -> names_col lt l lc -> names_col rt rr rc ->
     single_keys (ir_rel r) (key_col lc) (key_col rc)) /\
  ((2 <= List.length (ri_compositions (ir_lhs r)))%nat ->
     composite_keys (ir_rel r) (key_cols lt (endpoint_cols (ir_lhs r))) (key_cols rt (endpoint_cols (ir_rhs r)))).
Proof. exact a_ref_keys. Qed.
Print Assumptions C34_keys_partial.
Example C34_meets : parse_dbml shop = Some (Ok shop_ast) /\ map ir_rel (all_refs shop_ast) = [One2One; Many2One; Many2One].
Proof. split; [exact shop_ok|vm_compute; reflexivity]. Qed.
Example C34_rejects : exists sp, parse_dbml (prj "Table t { a int } Table u { b int } Ref: t.a > u.b")
  = Some (Err (ErSem (InvalidForeignKey FK_NeitherUniqueNorPrimary) sp)).
Proof. eexists. vm_compute. reflexivity. Qed.

(** ** C35 *)
Theorem C35_no_clash : forall inp x, parse_dbml inp = Some (Ok x) ->
  forall l1 r l2 o, all_refs x = l1 ++ r :: l2 -> In o (l1 ++ l2) -> ~ clashes (tables x) r o.
Proof. exact a_no_clash. Qed.
Print Assumptions C35_no_clash.
Example C35_meets : parse_dbml shop = Some (Ok shop_ast) /\ exists r l2, all_refs shop_ast = r :: l2 /\ List.length l2 = 2%nat.
Proof. split; [exact shop_ok|]. eexists. eexists. split; vm_compute; reflexivity. Qed.
Example C35_rejects : exists sp, parse_dbml (prj "Table t { a int [pk] } Table u { b int [ref: > t.a] } Ref: t.a < u.b")
  = Some (Err (ErSem ConflictRelation sp)).
Proof. eexists. vm_compute. reflexivity. Qed.

(** ** C36 *)
Theorem C36_acceptance : forall inp x, parse_dbml_unchecked inp = Some (Ok x) ->
  ((exists y, parse_dbml inp = Some (Ok y)) <-> wf x).
Proof. exact accept_iff. Qed.
Print Assumptions C36_acceptance.
Theorem C36_acceptance_ast : forall x, (exists an, analyze x = Ok an) <-> wf x.
Proof. exact analyze_accepts. Qed.
Print Assumptions C36_acceptance_ast.
Example C36_meets : wf shop_ast.
Proof. exact (proj2 (proj1 (checked_wf _ _) shop_ok)). Qed.

(** ** C37, C38 *)
Theorem C37_errors_truthful : forall inp e sp, parse_dbml inp = Some (Err (ErSem e sp)) ->
  exists x, parse_dbml_unchecked inp = Some (Ok x) /\ violates x e sp /\ valid_span inp sp.
Proof. exact sem_truth. Qed.
Print Assumptions C37_errors_truthful.
Theorem C38_errors_in_source : forall inp e sp, parse_dbml inp = Some (Err (ErSem e sp)) -> valid_span inp sp.
Proof. exact (fun inp e sp H => let (x, K) := sem_truth inp e sp H in proj2 (proj2 K)). Qed.
Print Assumptions C38_errors_in_source.
Example C37_meets : parse_dbml (prj "Table t { a int Indexes { a [pk, unique] } }") = Some (Err (ErSem InvalidIndexesSetting (42, 54))).
Proof. vm_compute. reflexivity. Qed.

(** ** C39 *)
Theorem C39_order_of_blocks : forall x y, Permutation (sb_blocks x) (sb_blocks y) ->
  ((exists an, analyze x = Ok an) <-> (exists an, analyze y = Ok an)).
Proof. exact perm_accept. Qed.
Print Assumptions C39_order_of_blocks.
Example C39_meets : exists y, Permutation (sb_blocks shop_ast) (sb_blocks y) /\ sb_blocks y <> sb_blocks shop_ast /\ exists an, analyze y = Ok an.
Proof.
  exists (mkSchema (sb_span shop_ast) (sb_input shop_ast) (rev (sb_blocks shop_ast))). split; [apply Permutation_rev|].
  split; [vm_compute; discriminate|]. eexists. vm_compute. reflexivity.
Qed.

(** ** C40 *)
Theorem C40_table_refs : forall x an tid, analyze x = Ok an ->
  let tr := get_table_refs tid an in
  selected (fun r => denotes_table x tid (ir_lhs r) /\ denotes_table x tid (ir_rhs r)) (all_refs x) (tr_ref_self tr) /\
  selected (fun r => denotes_table x tid (ir_lhs r) /\ ~ denotes_table x tid (ir_rhs r)) (all_refs x) (tr_ref_to tr) /\
  selected (fun r => ~ denotes_table x tid (ir_lhs r) /\ denotes_table x tid (ir_rhs r)) (all_refs x) (tr_ref_by tr).
Proof. exact get_table_refs_ok. Qed.
Print Assumptions C40_table_refs.
Example C40_meets : exists an, analyze shop_ast = Ok an /\
  map (fun t => let tr := get_table_refs (tb_ident t) an in
    (List.length (tr_ref_self tr), List.length (tr_ref_to tr), List.length (tr_ref_by tr))) (tables shop_ast)
  = [(0, 1, 2); (0, 2, 0); (0, 0, 1)]%nat.
Proof. eexists. split; vm_compute; reflexivity. Qed.

(** ** C41 *)
Theorem C41_transparent_refuted :
  ~ (forall inp x y, parse_dbml_unchecked inp = Some (Ok x) -> respelled (tables x) (sb_blocks x) (sb_blocks y) ->
     (exists an, analyze x = Ok an) -> exists an, analyze y = Ok an).
Proof. exact C41_transparent_refuted_w. Qed.
Print Assumptions C41_transparent_refuted.
(** An endpoint written with the alias of a table of the default schema, or with
    [public] spelled out where the declaration leaves it out (or the other way
    round), makes the schema unacceptable. *)
Theorem C41_alias_always_rejected : forall inp x t r, parse_dbml_unchecked inp = Some (Ok x) ->
  In t (tables x) -> ti_schema (tb_ident t) = None -> endpoint_of x r -> alias_of t = Some (id_str (ri_table r)) ->
  forall y, parse_dbml inp <> Some (Ok y).
Proof. exact alias_never. Qed.
Print Assumptions C41_alias_always_rejected.
Theorem C41_public_always_rejected : forall inp x t r, parse_dbml_unchecked inp = Some (Ok x) ->
  In t (tables x) -> endpoint_of x r -> ~ In (id_str (ri_table r)) (aliases (tables x)) ->
  in_schema (ri_schema r) = fst (table_name t) -> id_str (ri_table r) = snd (table_name t) ->
  option_map id_str (ri_schema r) <> option_map id_str (ti_schema (tb_ident t)) ->
  forall y, parse_dbml inp <> Some (Ok y).
Proof. exact public_never. Qed.
Print Assumptions C41_public_always_rejected.
Example C41_alias_meets : (exists x, parse_dbml (prj "Table t as T { a int [pk] } Table u { b int } Ref: u.b > t.a") = Some (Ok x)) /\
  (exists sp, parse_dbml (prj "Table t as T { a int [pk] } Table u { b int } Ref: u.b > T.a") = Some (Err (ErSem TableNotFound sp))).
Proof. split; eexists; vm_compute; reflexivity. Qed.
Example C41_public_meets : (exists sp, parse_dbml (prj "Table t { a int [pk] } Table u { b int } Ref: u.b > public.t.a") = Some (Err (ErSem TableNotFound sp))) /\
  (exists sp, parse_dbml (prj "Table public.t { a int [pk] } Table u { b int } Ref: u.b > t.a") = Some (Err (ErSem TableNotFound sp))).
Proof. split; eexists; vm_compute; reflexivity. Qed.
(** Endpoints that resolve alike are interchangeable (so an alias of a table with an
    explicit schema is transparent). *)
Theorem C41_same_meaning_partial : forall x y, same_blocks (tables x) (sb_blocks x) (sb_blocks y) ->
  ((exists an, analyze x = Ok an) <-> (exists an, analyze y = Ok an)).
Proof. exact same_accept. Qed.
Print Assumptions C41_same_meaning_partial.
Theorem C41_explicit_schema_partial : forall ts t a r, NoDup (aliases ts) -> In t ts ->
  alias_of t = Some (id_str (ri_table a)) -> ti_schema (tb_ident t) <> None ->
  ~ In (id_str (ri_table r)) (aliases ts) ->
  option_map id_str (ri_schema r) = option_map id_str (ti_schema (tb_ident t)) -> id_str (ri_table r) = id_str (ti_name (tb_ident t)) ->
  endpoint_cols a = endpoint_cols r -> same_place ts a r.
Proof. exact alias_same_place. Qed.
Print Assumptions C41_explicit_schema_partial.
Example C41_explicit_meets :
  (exists x, parse_dbml (prj "Table c.t as T { a int [pk] } Table u { b int } Ref: u.b > T.a") = Some (Ok x)) /\
  (exists x, parse_dbml (prj "Table c.t as T { a int [pk] } Table u { b int } Ref: u.b > c.t.a") = Some (Ok x)).
Proof. split; eexists; vm_compute; reflexivity. Qed.

(** ** C43 *)
Theorem C43_removal : forall x y, trimmed (sb_blocks y) (sb_blocks x) -> (exists an, analyze x = Ok an) -> exists an, analyze y = Ok an.
Proof. exact trim_accept. Qed.
Print Assumptions C43_removal.
Example C43_meets : exists y, trimmed (sb_blocks y) (sb_blocks shop_ast) /\ List.length (sb_blocks y) = 5%nat /\ List.length (sb_blocks shop_ast) = 9%nat.
Proof.
  exists (mkSchema (sb_span shop_ast) (sb_input shop_ast)
            (filter (fun b => match b with BNote _ | BRef _ | BTableGroup _ => false | _ => true end) (sb_blocks shop_ast))).
  split; [|split; vm_compute; reflexivity]. cbn [sb_blocks]. induction (sb_blocks shop_ast) as [|b l IH]; [constructor|].
  destruct b; cbn [filter]; constructor; first [exact IH|exact Logic.I].
Qed.

(** ** C44 *)
(** The index definitions of an accepted schema can be put in every order exactly when
    typed and untyped indexes over the same columns are not mixed, no unique key is a proper part
    of another, and no primary key of expressions only stands beside one that names a column. *)
Theorem C44_index_order : forall x, (exists an, analyze x = Ok an) ->
  ((forall y, reindexed_blocks (sb_blocks x) (sb_blocks y) -> exists an, analyze y = Ok an) <->
   (forall t ib, In t (tables x) -> tb_indexes t = Some ib -> order_free (ib_defs ib))).
Proof. exact reindex_exact. Qed.
Print Assumptions C44_index_order.
(** That is not always so. *)
Theorem C44_order_can_matter :
  ~ (forall x y, reindexed_blocks (sb_blocks x) (sb_blocks y) -> (exists an, analyze x = Ok an) -> exists an, analyze y = Ok an).
Proof. exact C44_index_order_refuted_w. Qed.
Print Assumptions C44_order_can_matter.
Example C44_meets : exists x y, reindexed_blocks (sb_blocks x) (sb_blocks y) /\ sb_blocks x <> sb_blocks y /\
  (forall t ib, In t (tables x) -> tb_indexes t = Some ib -> order_free (ib_defs ib)) /\ exists an, analyze x = Ok an.
Proof.
  pose (x := get schema0 (accepted (prj "Table t { a int b int Indexes { a (a, b) [unique] } }"))).
  exists x, (swap_defs x). split; [|split; [|split]].
  - vm_compute. constructor. apply rx_table; [|constructor]. eexists. eexists. split; [reflexivity|]. split; [reflexivity|].
    split; [|auto]. apply (Permutation_rev [_; _]).
  - vm_compute. discriminate.
  - intros t ib Ht Ei. vm_compute in Ht. destruct Ht as [<-|[]]. injection Ei as <-. cbn [ib_defs]. split; [|split].
    + intros d d' [<-|[<-|[]]] [<-|[<-|[]]] E K; try (left; exact K); try discriminate E.
    + intros d d' [<-|[<-|[]]] [<-|[<-|[]]] (st & E1 & U1) (st' & E2 & U2); try discriminate E1; try discriminate E2. auto.
    + intros d d' [<-|[<-|[]]] _ (st & E1 & U1); [discriminate E1|]. vm_compute in E1. injection E1 as <-. discriminate U1.
  - eexists. vm_compute. reflexivity.
Qed.
