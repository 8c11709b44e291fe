(** * Rules: what makes a schema well formed, and what each semantic error means.

    A specification, independent of the analyzer model: it uses the AST types and
    accessors, the error variants and the public type [indexed_ref] only.
    [wf x] is the conjunction of the rules a schema accepted by [parse_dbml] obeys;
    [violates x e sp] says that [x] breaks the rule error [e] reports, at [sp]. *)

From Coq Require Export Permutation.
From Verif Require Export AstSpec.
From Verif Require Import Err Analyzer.

(** ** Names *)
Definition public : str := s "public".
Definition in_schema (o : option ident_t) : str := match o with Some i => id_str i | None => public end.
Definition table_name (t : table_t) : str * str :=
  (in_schema (ti_schema (tb_ident t)), id_str (ti_name (tb_ident t))).
Definition enum_name (e : enum_t) : str * str :=
  (in_schema (ei_schema (en_ident e)), id_str (ei_name (en_ident e))).
Definition alias_of (t : table_t) : option str := option_map id_str (ti_alias (tb_ident t)).
Definition aliases (ts : list table_t) : list str := flat_map (fun t => opt_list (fun a => a) (alias_of t)) ts.
Definition col_name (c : table_col_t) : str := id_str (tc_name c).
Definition value_name (v : enum_value_t) : str := id_str (ev_value v).
Definition group_name (g : group_t) : str := id_str (tg_ident g).
Definition prop_name (p : property_t) : str := id_str (pr_key p).
Definition distinct_keys (l : list attribute_t) : Prop := NoDup (map key_of l).

(** [a] comes after an element with the same [f] in [l]. *)
Definition repeats {A B} (f : A -> B) (l : list A) (a : A) : Prop :=
  exists l1 l2 b, l = l1 ++ a :: l2 /\ In b l1 /\ f b = f a.

(** ** Table groups *)
Inductive item_denotes (ts : list table_t) (it : group_item_t) : str * str -> Prop :=
| den_qualified sc : gi_schema it = Some sc -> item_denotes ts it (id_str sc, id_str (gi_ident_alias it))
| den_alias t : gi_schema it = None -> In t ts -> alias_of t = Some (id_str (gi_ident_alias it)) ->
    item_denotes ts it (table_name t)
| den_table t : gi_schema it = None -> ~ In (id_str (gi_ident_alias it)) (aliases ts) ->
    In t ts -> table_name t = (public, id_str (gi_ident_alias it)) -> item_denotes ts it (table_name t).
Definition group_wf (ts : list table_t) (g : group_t) : Prop :=
  exists ids, Forall2 (item_denotes ts) (tg_items g) ids /\ NoDup ids.

(** ** Keys and indexes of a table *)
Definition has_settings (P : col_settings_t -> Prop) (c : table_col_t) : Prop :=
  exists st, tc_settings c = Some st /\ P st.
Definition pk_col : table_col_t -> Prop := has_settings (fun st => cs_is_pk st = true).
Definition unique_col : table_col_t -> Prop := has_settings (fun st => cs_is_unique st = true).
Definition def_has (P : indexes_settings_t -> Prop) (d : indexes_def) : Prop :=
  exists st, idf_settings d = Some st /\ P st.
Definition def_pk : indexes_def -> Prop := def_has (fun st => is_is_pk st = true).
Definition def_unique : indexes_def -> Prop := def_has (fun st => is_is_unique st = true).
Definition def_typed (d : indexes_def) : Prop := def_has (fun st => exists ty, is_type st = Some ty) d.
(** The columns a definition names (expressions left out). *)
Definition named (d : indexes_def) : list str :=
  flat_map (fun c => match c with ICString i => [id_str i] | ICExpr _ => [] end) (idf_cols d).
(** A definition without settings is an index without type; one with a [type]
    setting is an index of that type; any other is no index of its own. *)
Definition index_kind (d : indexes_def) (k : option indexes_type) : Prop :=
  match idf_settings d with
  | None => k = None
  | Some st => exists ty, is_type st = Some ty /\ k = Some ty
  end.

(** [d] is a primary key and one was declared before. *)
Definition pk_again (cols : list table_col_t) (before : list indexes_def) (d : indexes_def) : Prop :=
  def_pk d /\ ((exists c, In c cols /\ pk_col c) \/ (exists d', In d' before /\ def_pk d' /\ named d' <> [])).
(** [d] is unique although an earlier unique key covers it. *)
Definition unique_again (cols : list table_col_t) (before : list indexes_def) (d : indexes_def) : Prop :=
  def_unique d /\ ((exists c, In c cols /\ unique_col c /\ incl (named d) [col_name c]) \/
                   (exists d', In d' before /\ def_unique d' /\ incl (named d) (named d'))).
(** [d] is an index over the columns of an earlier index, of the same type or
    without type. *)
Definition index_again (before : list indexes_def) (d : indexes_def) : Prop :=
  exists d' k k', In d' before /\ index_kind d k /\ index_kind d' k' /\ named d' = named d /\ (k = None \/ k = k').

Definition index_def_wf (cols : list table_col_t) (before : list indexes_def) (d : indexes_def) : Prop :=
  idf_cols d <> [] /\
  incl (named d) (map col_name cols) /\
  opt_all (fun st => distinct_keys (is_attributes st)) (idf_settings d) /\
  ~ (def_pk d /\ def_unique d) /\ ~ (def_pk d /\ def_typed d) /\ ~ (def_unique d /\ def_typed d) /\
  ~ pk_again cols before d /\ ~ unique_again cols before d /\ ~ index_again before d.

Definition col_keys_wf (c : table_col_t) : Prop :=
  opt_all (fun st =>
    (cs_is_pk st = true -> cs_nullable st <> Some Null /\ ct_arrays (tc_type c) = []) /\
    ~ (has_key "null" (cs_attributes st) /\ has_key "not null" (cs_attributes st))) (tc_settings c).
Definition table_keys_wf (t : table_t) : Prop :=
  Forall col_keys_wf (tb_cols t) /\
  (forall l1 c l2, tb_cols t = l1 ++ c :: l2 -> pk_col c -> forall c', In c' l1 -> ~ pk_col c') /\
  opt_all (fun ib => forall l1 d l2, ib_defs ib = l1 ++ d :: l2 -> index_def_wf (tb_cols t) l1 d) (tb_indexes t).

(** ** Column types and defaults *)

(** The documented type names (PostgreSQL), with their aliases. *)
Definition type_words : list (string * col_type_name) :=
  [ ("bit", CT_Bit); ("varbit", CT_Varbit); ("bit varying", CT_Varbit); ("char", CT_Char);
    ("character", CT_Char); ("varchar", CT_VarChar); ("character varying", CT_VarChar);
    ("box", CT_Box); ("cidr", CT_Cidr); ("circle", CT_Circle); ("inet", CT_Inet); ("line", CT_Line);
    ("lseg", CT_LineSegment); ("macaddr", CT_MacAddr); ("macaddr8", CT_MacAddr8); ("money", CT_Money);
    ("path", CT_Path); ("pg_lsn", CT_PGLongSequenceNumber); ("pg_snapshot", CT_PGSnapshot);
    ("point", CT_Point); ("polygon", CT_Polygon); ("tsquery", CT_TSQuery); ("tsvector", CT_TSVector);
    ("smallserial", CT_SmallSerial); ("serial2", CT_SmallSerial); ("serial", CT_Serial); ("serial4", CT_Serial);
    ("bigserial", CT_BigSerial); ("serial8", CT_BigSerial); ("smallint", CT_SmallInt); ("int2", CT_SmallInt);
    ("integer", CT_Integer); ("int", CT_Integer); ("int4", CT_Integer); ("bigint", CT_BigInt); ("int8", CT_BigInt);
    ("real", CT_Real); ("float4", CT_Real); ("double precision", CT_DoublePrecision); ("float8", CT_DoublePrecision);
    ("bool", CT_Bool); ("boolean", CT_Bool); ("bytea", CT_ByteArray); ("date", CT_Date); ("text", CT_Text);
    ("time", CT_Time); ("time without time zone", CT_Time); ("timetz", CT_Timetz);
    ("time with time zone", CT_Timetz); ("timestamp", CT_Timestamp); ("timestamp without time zone", CT_Timestamp);
    ("timestamptz", CT_Timestamptz); ("timestamp with time zone", CT_Timestamptz); ("uuid", CT_Uuid);
    ("json", CT_Json); ("jsonb", CT_Jsonb); ("decimal", CT_Decimal); ("numeric", CT_Decimal); ("xml", CT_Xml) ]%string.
Definition builtin (raw : str) (tn : col_type_name) : Prop := exists w, In (w, tn) type_words /\ raw = s w.
Definition not_builtin (raw : str) : Prop := forall tn, ~ builtin raw tn.
(** A name that is not built in denotes an enum: [name] or [schema.name]. *)
Inductive enum_type (raw : str) : option str -> str -> Prop :=
| et_plain : ~ In 46 raw -> enum_type raw None raw
| et_qualified a b : raw = a ++ s "." ++ b -> ~ In 46 a -> ~ In 46 b -> enum_type raw (Some a) b.
Inductive type_means (raw : str) : col_type_name -> Prop :=
| tm_builtin tn : builtin raw tn -> type_means raw tn
| tm_enum so n : not_builtin raw -> enum_type raw so n -> type_means raw (CT_Enum n).
Definition col_means (c : table_col_t) (tn : col_type_name) : Prop :=
  exists raw, ct_type_name (tc_type c) = CT_Raw raw /\ type_means raw tn.

(** How many arguments a built-in type takes (when it is given any). *)
Definition arity (tn : col_type_name) : nat :=
  match tn with
  | CT_VarChar | CT_Char | CT_Bit | CT_Varbit | CT_Time | CT_Timetz | CT_Timestamp | CT_Timestamptz => 1
  | CT_Decimal => 2
  | _ => 0
  end.
Definition int_value (v : value_t) : Prop := exists z, v = VInteger z.
Definition args_fit (tn : col_type_name) (args : list value_t) : Prop :=
  args = [] \/ (List.length args = arity tn /\ Forall int_value args).

Definition fixed_len (tn : col_type_name) : Prop := tn = CT_Char \/ tn = CT_Bit.
Definition max_len (tn : col_type_name) : Prop := tn = CT_VarChar \/ tn = CT_Varbit.
(** A string default against the length argument (lengths in bytes). *)
Definition string_fits (tn : col_type_name) (args : list value_t) (v : str) : Prop :=
  (fixed_len tn -> args = [VInteger (Z.of_N (blen v))]) /\
  (max_len tn -> exists n, args = [VInteger n] /\ (Z.of_N (blen v) <= n)%Z).
(** An integer default against the type's range.  For [bigint] both extreme values
    are refused. *)
Definition int_fits (tn : col_type_name) (v : Z) : Prop :=
  (tn = CT_SmallInt -> -32768 <= v <= 32767)%Z /\
  (tn = CT_Integer -> -2147483648 <= v <= 2147483647)%Z /\
  (tn = CT_BigInt -> v <> 9223372036854775807 /\ v <> -9223372036854775808)%Z.
Definition default_fits (tn : col_type_name) (args : list value_t) (nullable : option nullable_t) (v : value_t) : Prop :=
  match v with
  | VString w => string_fits tn args w
  | VInteger z => int_fits tn z
  | VBool _ => tn = CT_Bool
  | VNull => nullable = Some Null
  | VEnum _ | VDecimal _ | VHexColor _ | VExpr _ => True
  end.
(** [w] is a value of the enum [so.n]. *)
Definition enum_value (es : list enum_t) (so : option str) (n w : str) : Prop :=
  exists e, In e es /\ enum_name e = (match so with Some a => a | None => public end, n) /\
    In w (map value_name (en_values e)).
(** The place of the default: the value of the first attribute [default]. *)
Definition default_at (st : col_settings_t) (sp : range) : Prop :=
  exists l1 a l2 l, cs_attributes st = l1 ++ a :: l2 /\ Forall (fun b => key_of b <> s "default") l1 /\
    key_of a = s "default" /\ at_value a = Some l /\ lit_span l = sp.

Definition has_default (c : table_col_t) (st : col_settings_t) (v : value_t) : Prop :=
  tc_settings c = Some st /\ cs_default st = Some v.
Definition col_type_wf (es : list enum_t) (c : table_col_t) : Prop :=
  exists raw tn, ct_type_name (tc_type c) = CT_Raw raw /\ type_means raw tn /\
    (builtin raw tn -> args_fit tn (ct_args (tc_type c))) /\
    (forall st v, has_default c st v ->
       (exists sp, default_at st sp) /\
       default_fits tn (ct_args (tc_type c)) (cs_nullable st) v /\
       (not_builtin raw -> forall so n, enum_type raw so n -> enum_value es so n (value_to_string v))).

(** ** References *)

(** All references: the [Ref] blocks, then the inline ones, column by column. *)
Definition inline_refs (t : table_t) : list indexed_ref :=
  flat_map (fun c => match tc_settings c with
    | None => []
    | Some st => map (fun r => mkIndexedRef (rin_span r) (rin_rel r)
                   (mkRefIdent (rin_span r) (ti_schema (tb_ident t)) (ti_name (tb_ident t)) [tc_name c])
                   (rin_rhs r) None) (cs_refs st)
    end) (tb_cols t).
Definition all_refs (x : schema_t) : list indexed_ref :=
  map (fun r => mkIndexedRef (rb_span r) (rb_rel r) (rb_lhs r) (rb_rhs r) (rb_settings r)) (refs x)
  ++ flat_map inline_refs (tables x).

Definition endpoint_cols (r : ref_ident_t) : list str := map id_str (ri_compositions r).
(** The schema and table an endpoint names: an alias stands for its table, with the
    table's schema (or [public]) spelled out, whatever schema is written before it. *)
Inductive points_to (ts : list table_t) (r : ref_ident_t) : option str -> str -> Prop :=
| pt_alias t : In t ts -> alias_of t = Some (id_str (ri_table r)) ->
    points_to ts r (Some (fst (table_name t))) (snd (table_name t))
| pt_name : ~ In (id_str (ri_table r)) (aliases ts) ->
    points_to ts r (option_map id_str (ri_schema r)) (id_str (ri_table r)).
(** The table an endpoint denotes: schema and name must be written alike; in
    particular an omitted schema is not the same as [public]. *)
Definition target (ts : list table_t) (r : ref_ident_t) (t : table_t) : Prop :=
  In t ts /\ points_to ts r (option_map id_str (ti_schema (tb_ident t))) (id_str (ti_name (tb_ident t))).
Definition names_col (t : table_t) (i : ident_t) (c : table_col_t) : Prop := In c (tb_cols t) /\ col_name c = id_str i.
Definition same_type (c c' : table_col_t) : Prop :=
  (exists tn, col_means c tn /\ col_means c' tn) /\
  ct_args (tc_type c) = ct_args (tc_type c') /\ ct_arrays (tc_type c) = ct_arrays (tc_type c').
Definition key_col (c : table_col_t) : Prop := pk_col c \/ unique_col c.
Definition same_set (l l' : list str) : Prop := forall k, In k l <-> In k l'.
(** Some pk or unique index of [t] consists of these columns. *)
Definition key_cols (t : table_t) (cols : list str) : Prop :=
  exists ib d, tb_indexes t = Some ib /\ In d (ib_defs ib) /\ (def_pk d \/ def_unique d) /\
    List.length (idf_cols d) = List.length cols /\ same_set (named d) cols.
(** Which sides must be keys, for a single column and for several. *)
Definition single_keys (rel : relation_t) (l r : Prop) : Prop :=
  match rel with
  | One2One | Many2Many => l \/ r
  | One2Many => l
  | Many2One => r
  | Undef => True
  end.
Definition composite_keys (rel : relation_t) (l r : Prop) : Prop :=
  match rel with
  | One2One => l \/ r
  | Many2Many => l /\ r
  | One2Many => l
  | Many2One => r
  | Undef => True
  end.

Definition ref_wf (ts : list table_t) (r : indexed_ref) : Prop :=
  opt_all (fun st => distinct_keys (rs_attributes st)) (ir_settings r) /\
  exists lt rt lcs rcs,
    target ts (ir_lhs r) lt /\ target ts (ir_rhs r) rt /\
    Forall2 (names_col lt) (ri_compositions (ir_lhs r)) lcs /\
    Forall2 (names_col rt) (ri_compositions (ir_rhs r)) rcs /\
    Forall2 same_type lcs rcs /\
    (forall lc rc, lcs = [lc] -> rcs = [rc] -> single_keys (ir_rel r) (key_col lc) (key_col rc)) /\
    ((2 <= List.length lcs)%nat -> composite_keys (ir_rel r) (key_cols lt (endpoint_cols (ir_lhs r)))
                                                      (key_cols rt (endpoint_cols (ir_rhs r)))).

(** ** Conflicts between references *)
Definition same_endpoint (ts : list table_t) (a b : ref_ident_t) : Prop :=
  (exists so n, points_to ts a so n /\ points_to ts b so n) /\ same_set (endpoint_cols a) (endpoint_cols b).
(** The side holding the foreign key. *)
Definition fk_side (r : indexed_ref) : option ref_ident_t :=
  match ir_rel r with Many2One => Some (ir_lhs r) | One2Many => Some (ir_rhs r) | _ => None end.
Definition symmetric_rel (r : relation_t) : Prop := r = One2One \/ r = Many2Many.
Definition clashes (ts : list table_t) (r o : indexed_ref) : Prop :=
  (symmetric_rel (ir_rel r) /\ ir_rel o = ir_rel r /\
   (same_endpoint ts (ir_lhs r) (ir_lhs o) \/ same_endpoint ts (ir_lhs r) (ir_rhs o)) /\
   (same_endpoint ts (ir_rhs r) (ir_lhs o) \/ same_endpoint ts (ir_rhs r) (ir_rhs o))) \/
  (exists a b, fk_side r = Some a /\ fk_side o = Some b /\ same_endpoint ts a b).
(** No reference clashes with another one (and each has a relation). *)
Definition no_clash (ts : list table_t) (l : list indexed_ref) : Prop :=
  forall l1 r l2, l = l1 ++ r :: l2 -> ir_rel r <> Undef /\ forall o, In o (l1 ++ l2) -> ~ clashes ts r o.

(** ** Well-formed schemas *)
Definition project_wf (x : schema_t) : Prop :=
  exists p, projects x = [p] /\ NoDup (map prop_name (pj_properties p)).
Definition table_names_wf (ts : list table_t) : Prop :=
  NoDup (map table_name ts) /\ NoDup (aliases ts) /\
  Forall (fun t => opt_all (fun st => distinct_keys (ts_attributes st)) (tb_settings t) /\
    Forall (fun c => opt_all (fun st => distinct_keys (cs_attributes st)) (tc_settings c)) (tb_cols t) /\
    NoDup (map col_name (tb_cols t))) ts.
Definition enums_wf (es : list enum_t) : Prop :=
  NoDup (map enum_name es) /\
  Forall (fun e => NoDup (map value_name (en_values e)) /\
    Forall (fun v => opt_all (fun st => distinct_keys (evs_attributes st)) (ev_settings v)) (en_values e)) es.
Definition groups_wf (ts : list table_t) (gs : list group_t) : Prop :=
  NoDup (map group_name gs) /\ Forall (group_wf ts) gs.
Definition wf (x : schema_t) : Prop :=
  project_wf x /\ table_names_wf (tables x) /\ enums_wf (enums x) /\ groups_wf (tables x) (table_groups x) /\
  Forall table_keys_wf (tables x) /\
  Forall (fun t => Forall (col_type_wf (enums x)) (tb_cols t)) (tables x) /\
  Forall (ref_wf (tables x)) (all_refs x) /\ no_clash (tables x) (all_refs x).

(** ** What each error reports *)

(** Every settings list the analyzer looks at. *)
Inductive settings_of (x : schema_t) : list attribute_t -> Prop :=
| so_table t st : In t (tables x) -> tb_settings t = Some st -> settings_of x (ts_attributes st)
| so_col t c st : In t (tables x) -> In c (tb_cols t) -> tc_settings c = Some st -> settings_of x (cs_attributes st)
| so_enum e v st : In e (enums x) -> In v (en_values e) -> ev_settings v = Some st -> settings_of x (evs_attributes st)
| so_index t ib d st : In t (tables x) -> tb_indexes t = Some ib -> In d (ib_defs ib) ->
    idf_settings d = Some st -> settings_of x (is_attributes st)
| so_ref r st : In r (refs x) -> rb_settings r = Some st -> settings_of x (rs_attributes st).
Inductive column_of (x : schema_t) : table_t -> table_col_t -> Prop :=
| co_intro t c : In t (tables x) -> In c (tb_cols t) -> column_of x t c.
(** Definition [d] of an indexes block of table [t], with those before it. *)
Inductive index_of (x : schema_t) : table_t -> indexes_block_t -> list indexes_def -> indexes_def -> Prop :=
| io_intro t ib l1 d l2 : In t (tables x) -> tb_indexes t = Some ib -> ib_defs ib = l1 ++ d :: l2 ->
    index_of x t ib l1 d.
(** [r] is an endpoint of some reference. *)
Definition endpoint_of (x : schema_t) (r : ref_ident_t) : Prop :=
  exists i, In i (all_refs x) /\ (r = ir_lhs i \/ r = ir_rhs i).
(** The columns at position [l], [r] of a reference. *)
Definition linked (x : schema_t) (i : indexed_ref) (l r : ident_t) (lt rt : table_t) (lc rc : table_col_t) : Prop :=
  In i (all_refs x) /\ In (l, r) (combine (ri_compositions (ir_lhs i)) (ri_compositions (ir_rhs i))) /\
  List.length (ri_compositions (ir_lhs i)) = List.length (ri_compositions (ir_rhs i)) /\
  target (tables x) (ir_lhs i) lt /\ target (tables x) (ir_rhs i) rt /\ names_col lt l lc /\ names_col rt r rc.
(** Nothing is declared in schema [a]. *)
Definition schema_missing (x : schema_t) (a : str) : Prop :=
  (forall t, In t (tables x) -> fst (table_name t) <> a) /\ (forall e, In e (enums x) -> fst (enum_name e) <> a).
(** Where an endpoint's error is reported: an alias is resolved to identifiers that
    carry the span of the whole endpoint. *)
Definition table_span (ts : list table_t) (r : ref_ident_t) (sp : range) : Prop :=
  (In (id_str (ri_table r)) (aliases ts) /\ sp = ri_span r) \/
  (~ In (id_str (ri_table r)) (aliases ts) /\ sp = id_span (ri_table r)).

Inductive violates (x : schema_t) : sem_err -> range -> Prop :=
| v_two_projects p1 p2 l : projects x = p1 :: p2 :: l -> violates x DuplicateProjectSetting (sb_span x)
| v_no_project : projects x = [] -> violates x ProjectSettingNotFound (sb_span x)
| v_property p pr : In p (projects x) -> repeats prop_name (pj_properties p) pr ->
    violates x DuplicatePropertyKey (pr_span pr)
| v_attribute l a : settings_of x l -> repeats key_of l a -> violates x DuplicateAttributeKey (at_span a)
| v_table t : repeats table_name (tables x) t -> violates x DuplicateTableName (ti_span (tb_ident t))
| v_column t c : In t (tables x) -> repeats col_name (tb_cols t) c -> violates x DuplicateColumnName (tc_span c)
| v_alias l1 t l2 t' a : tables x = l1 ++ t :: l2 -> ti_alias (tb_ident t) = Some a -> In t' l1 ->
    alias_of t' = Some (id_str a) -> violates x DuplicateAlias (id_span a)
| v_enum e : repeats enum_name (enums x) e -> violates x DuplicateEnumName (ei_span (en_ident e))
| v_enum_value e v : In e (enums x) -> repeats value_name (en_values e) v -> violates x DuplicateEnumValue (ev_span v)
| v_group g : repeats group_name (table_groups x) g -> violates x DuplicateTableGroupName (id_span (tg_ident g))
| v_group_item g l1 it l2 it' id : In g (table_groups x) -> tg_items g = l1 ++ it :: l2 -> In it' l1 ->
    item_denotes (tables x) it id -> item_denotes (tables x) it' id ->
    violates x DuplicateTableGroupItem (gi_span it)
| v_group_table g it : In g (table_groups x) -> In it (tg_items g) ->
    (forall id, ~ item_denotes (tables x) it id) -> violates x TableNotFound (gi_span it)
(* keys *)
| v_pk_twice t l1 c l2 c' : In t (tables x) -> tb_cols t = l1 ++ c :: l2 -> pk_col c -> In c' l1 -> pk_col c' ->
    violates x DuplicatePrimaryKey (tc_span c)
| v_pk_null t c : column_of x t c -> has_settings (fun st => cs_is_pk st = true /\ cs_nullable st = Some Null) c ->
    violates x NullablePrimaryKey (tc_span c)
| v_pk_array t c : column_of x t c -> pk_col c -> ct_arrays (tc_type c) <> [] -> violates x ArrayPrimaryKey (tc_span c)
| v_null_conflict t c st : column_of x t c -> tc_settings c = Some st -> has_key "null" (cs_attributes st) ->
    has_key "not null" (cs_attributes st) -> violates x ConflictNullableSetting (cs_span st)
(* indexes *)
| v_index_empty t ib l1 d : index_of x t ib l1 d -> idf_cols d = [] -> violates x EmptyIndexesBlock (ib_span ib)
| v_index_col t ib l1 d i : index_of x t ib l1 d -> In (ICString i) (idf_cols d) ->
    ~ In (id_str i) (map col_name (tb_cols t)) -> violates x ColumnNotFound (id_span i)
| v_index_kind t ib l1 d st : index_of x t ib l1 d -> idf_settings d = Some st ->
    ((def_pk d /\ def_unique d) \/ (def_pk d /\ def_typed d) \/ (def_unique d /\ def_typed d)) ->
    violates x InvalidIndexesSetting (is_span st)
| v_index_pk t ib l1 d : index_of x t ib l1 d -> pk_again (tb_cols t) l1 d -> violates x DuplicatePrimaryKey (idf_span d)
| v_index_unique t ib l1 d : index_of x t ib l1 d -> unique_again (tb_cols t) l1 d -> violates x DuplicateUniqueKey (idf_span d)
| v_index_again t ib l1 d : index_of x t ib l1 d -> index_again l1 d -> violates x DuplicateIndexKey (idf_span d)
(* types *)
| v_args_number t c raw tn : column_of x t c -> ct_type_name (tc_type c) = CT_Raw raw -> builtin raw tn ->
    ct_args (tc_type c) <> [] -> List.length (ct_args (tc_type c)) <> arity tn ->
    violates x (InvalidDataTypeArguments raw (N.of_nat (arity tn))) (ct_span (tc_type c))
| v_args_value t c raw tn v : column_of x t c -> ct_type_name (tc_type c) = CT_Raw raw -> builtin raw tn ->
    In v (ct_args (tc_type c)) -> ~ int_value v -> violates x InvalidArgumentValue (ct_span (tc_type c))
| v_enum_name t c raw : column_of x t c -> ct_type_name (tc_type c) = CT_Raw raw -> not_builtin raw ->
    (forall so n, ~ enum_type raw so n) -> violates x InvalidEnum (ct_span (tc_type c))
| v_enum_schema t c raw so n st v : column_of x t c -> ct_type_name (tc_type c) = CT_Raw raw -> not_builtin raw ->
    enum_type raw so n -> has_default c st v ->
    schema_missing x (match so with Some a => a | None => public end) ->
    violates x SchemaNotFound (ct_span (tc_type c))
| v_enum_missing t c raw so n st v : column_of x t c -> ct_type_name (tc_type c) = CT_Raw raw -> not_builtin raw ->
    enum_type raw so n -> has_default c st v -> ~ schema_missing x (match so with Some a => a | None => public end) ->
    ~ In (match so with Some a => a | None => public end, n) (map enum_name (enums x)) ->
    violates x EnumNotFound (ct_span (tc_type c))
| v_enum_value_missing t c raw so n st v sp : column_of x t c -> ct_type_name (tc_type c) = CT_Raw raw ->
    not_builtin raw -> enum_type raw so n -> has_default c st v -> default_at st sp ->
    In (match so with Some a => a | None => public end, n) (map enum_name (enums x)) ->
    ~ enum_value (enums x) so n (value_to_string v) -> violates x EnumValueNotFound sp
| v_default_string t c tn st v sp : column_of x t c -> col_means c tn -> has_default c st (VString v) -> default_at st sp ->
    ~ string_fits tn (ct_args (tc_type c)) v -> violates x (InvalidDefaultValue v (ct_raw (tc_type c))) sp
| v_default_int t c tn st v sp : column_of x t c -> col_means c tn -> has_default c st (VInteger v) -> default_at st sp ->
    ~ int_fits tn v -> violates x (DataTypeExceeded (ct_raw (tc_type c))) sp
| v_default_bool t c tn st b sp : column_of x t c -> col_means c tn -> has_default c st (VBool b) -> default_at st sp ->
    tn <> CT_Bool -> violates x (InvalidDefaultValue (s (if b then "true" else "false")) (ct_raw (tc_type c))) sp
| v_default_null t c st sp : column_of x t c -> has_default c st VNull -> default_at st sp ->
    cs_nullable st <> Some Null -> violates x DefaultNullInNonNullable sp
(* references *)
| v_ref_lengths i : In i (all_refs x) ->
    List.length (ri_compositions (ir_lhs i)) <> List.length (ri_compositions (ir_rhs i)) ->
    violates x MismatchedCompositeForeignKey (ir_span i)
| v_ref_schema r so n sp : endpoint_of x r -> points_to (tables x) r so n ->
    schema_missing x (match so with Some a => a | None => public end) ->
    sp = match ri_schema r with Some i => id_span i | None => (0, 0) end ->
    violates x SchemaNotFound sp
| v_ref_table r so n sp : endpoint_of x r -> points_to (tables x) r so n ->
    ~ schema_missing x (match so with Some a => a | None => public end) ->
    ~ In (match so with Some a => a | None => public end, n) (map table_name (tables x)) ->
    table_span (tables x) r sp -> violates x TableNotFound sp
| v_ref_unwritten r so n t : endpoint_of x r -> points_to (tables x) r so n -> In t (tables x) ->
    table_name t = (match so with Some a => a | None => public end, n) -> (forall t, ~ target (tables x) r t) ->
    violates x TableNotFound (ri_span r)
| v_ref_column r so n t i : endpoint_of x r -> points_to (tables x) r so n -> In t (tables x) ->
    table_name t = (match so with Some a => a | None => public end, n) -> In i (ri_compositions r) ->
    ~ In (id_str i) (map col_name (tb_cols t)) -> violates x ColumnNotFound (id_span i)
| v_ref_type i l r lt rt lc rc : linked x i l r lt rt lc rc -> ~ same_type lc rc ->
    violates x (MismatchedForeignKeyType (id_str r) (id_str l) (ct_raw (tc_type rc)) (id_raw l)) (ir_span i)
| v_ref_key i l r lt rt lc rc e sp : linked x i l r lt rt lc rc -> List.length (ri_compositions (ir_lhs i)) = 1%nat ->
    ~ single_keys (ir_rel i) (key_col lc) (key_col rc) ->
    (e, sp) = match ir_rel i with
              | One2One => (FK_One2One, ir_span i)
              | Many2Many => (FK_Many2Many, ir_span i)
              | One2Many => (FK_NeitherUniqueNorPrimary, ri_span (ir_lhs i))
              | _ => (FK_NeitherUniqueNorPrimary, ri_span (ir_rhs i))
              end -> violates x (InvalidForeignKey e) sp
| v_ref_keys i lt rt e sp : In i (all_refs x) -> target (tables x) (ir_lhs i) lt -> target (tables x) (ir_rhs i) rt ->
    (2 <= List.length (ri_compositions (ir_lhs i)))%nat ->
    ~ composite_keys (ir_rel i) (key_cols lt (endpoint_cols (ir_lhs i))) (key_cols rt (endpoint_cols (ir_rhs i))) ->
    (e, sp) = match ir_rel i with
              | One2One => (FK_One2OneComposite, ir_span i)
              | Many2Many => (FK_Many2ManyComposite, ir_span i)
              | One2Many => (FK_NeitherUniqueNorPrimaryComposite, ri_span (ir_lhs i))
              | _ => (FK_NeitherUniqueNorPrimaryComposite, ri_span (ir_rhs i))
              end -> violates x (InvalidForeignKey e) sp
| v_ref_clash l1 i l2 : all_refs x = l1 ++ i :: l2 ->
    (ir_rel i = Undef \/ exists o, In o (l1 ++ l2) /\ clashes (tables x) i o) ->
    violates x ConflictRelation (ir_span i).

(** Where the analysis panics instead of reporting an error. *)
Inductive panics (x : schema_t) : Prop :=
| p_no_length t c tn st v : column_of x t c -> col_means c tn -> (fixed_len tn \/ max_len tn) ->
    has_default c st (VString v) -> ct_args (tc_type c) = [] -> panics x
| p_not_raw t c : column_of x t c -> (forall raw, ct_type_name (tc_type c) <> CT_Raw raw) -> panics x
| p_no_default t c st v : column_of x t c -> has_default c st v -> distinct_keys (cs_attributes st) ->
    (forall sp, ~ default_at st sp) -> panics x.

(** ** Removing notes, references and table groups *)
Definition removable (b : block) : Prop :=
  match b with BNote _ | BRef _ | BTableGroup _ => True | _ => False end.
(** [l] is [l'] without some of its notes, references and table groups. *)
Inductive trimmed : list block -> list block -> Prop :=
| tr_nil : trimmed [] []
| tr_keep b l l' : trimmed l l' -> trimmed (b :: l) (b :: l')
| tr_drop b l l' : removable b -> trimmed l l' -> trimmed l (b :: l').

(** ** References that mean the same *)
Definition same_place (ts : list table_t) (a b : ref_ident_t) : Prop :=
  (exists so n, points_to ts a so n /\ points_to ts b so n) /\ endpoint_cols a = endpoint_cols b.
Definition same_ref_meaning (ts : list table_t) (r r' : ref_block_t) : Prop :=
  rb_rel r = rb_rel r' /\ rb_settings r = rb_settings r' /\
  same_place ts (rb_lhs r) (rb_lhs r') /\ same_place ts (rb_rhs r) (rb_rhs r').
Inductive same_blocks (ts : list table_t) : list block -> list block -> Prop :=
| sb_nil : same_blocks ts [] []
| sb_same b l l' : same_blocks ts l l' -> same_blocks ts (b :: l) (b :: l')
| sb_ref r r' l l' : same_ref_meaning ts r r' -> same_blocks ts l l' -> same_blocks ts (BRef r :: l) (BRef r' :: l').

(** ** Selections *)
(** [l'] are the elements of [l] with [P], in order. *)
Inductive selected {A} (P : A -> Prop) : list A -> list A -> Prop :=
| sel_nil : selected P [] []
| sel_keep a l l' : P a -> selected P l l' -> selected P (a :: l) (a :: l')
| sel_drop a l l' : ~ P a -> selected P l l' -> selected P (a :: l) l'.

Definition denotes_table (x : schema_t) (tid : table_ident_t) (r : ref_ident_t) : Prop :=
  points_to (tables x) r (option_map id_str (ti_schema tid)) (id_str (ti_name tid)).

(** The one way to panic. *)
Definition unsized_default (x : schema_t) : Prop :=
  exists t c tn st v, column_of x t c /\ col_means c tn /\ (fixed_len tn \/ max_len tn) /\
    has_default c st (VString v) /\ ct_args (tc_type c) = [].

(** ** Reordering index definitions *)
(** [t'] is [t] with its index definitions in another order. *)
Definition reindexed (t t' : table_t) : Prop :=
  exists ib ib', tb_indexes t = Some ib /\ tb_indexes t' = Some ib' /\ Permutation (ib_defs ib) (ib_defs ib') /\
    tb_ident t' = tb_ident t /\ tb_cols t' = tb_cols t /\ tb_settings t' = tb_settings t.
Inductive reindexed_blocks : list block -> list block -> Prop :=
| rx_nil : reindexed_blocks [] []
| rx_same b l l' : reindexed_blocks l l' -> reindexed_blocks (b :: l) (b :: l')
| rx_table t t' l l' : reindexed t t' -> reindexed_blocks l l' -> reindexed_blocks (BTable t :: l) (BTable t' :: l').
(** Definitions whose order cannot matter: typed and untyped indexes are not mixed
    over the same columns, no unique key is a proper part of another, and not one
    primary key consists of expressions only while another does not. *)
Definition order_free (l : list indexes_def) : Prop :=
  (forall d d', In d l -> In d' l -> named d = named d' -> index_kind d None -> index_kind d' None \/ forall k, ~ index_kind d' k) /\
  (forall d d', In d l -> In d' l -> def_unique d -> def_unique d' -> incl (named d) (named d') -> incl (named d') (named d)) /\
  (forall d d', In d l -> In d' l -> def_pk d -> def_pk d' -> named d = [] -> named d' = []).

(** ** Integer ranges (PostgreSQL) *)
Definition int_range (tn : col_type_name) : option (Z * Z) :=
  match tn with
  | CT_SmallInt => Some (-32768, 32767)%Z
  | CT_Integer => Some (-2147483648, 2147483647)%Z
  | CT_BigInt => Some (-9223372036854775808, 9223372036854775807)%Z
  | _ => None
  end.

(** ** Respelling references *)
(** What an endpoint ought to denote: the table whose alias it is, or else the table
    of that name, an omitted schema meaning the default one. *)
Definition ought_denote (ts : list table_t) (r : ref_ident_t) (t : table_t) : Prop :=
  (In t ts /\ alias_of t = Some (id_str (ri_table r))) \/
  (~ In (id_str (ri_table r)) (aliases ts) /\ In t ts /\ table_name t = (in_schema (ri_schema r), id_str (ri_table r))).
Definition same_intent (ts : list table_t) (a b : ref_ident_t) : Prop :=
  (exists t, ought_denote ts a t /\ ought_denote ts b t) /\ endpoint_cols a = endpoint_cols b.
Inductive respelled (ts : list table_t) : list block -> list block -> Prop :=
| rp_nil : respelled ts [] []
| rp_same b l l' : respelled ts l l' -> respelled ts (b :: l) (b :: l')
| rp_ref r r' l l' : rb_rel r = rb_rel r' /\ rb_settings r = rb_settings r' /\
    same_intent ts (rb_lhs r) (rb_lhs r') /\ same_intent ts (rb_rhs r) (rb_rhs r') ->
    respelled ts l l' -> respelled ts (BRef r :: l) (BRef r' :: l').
