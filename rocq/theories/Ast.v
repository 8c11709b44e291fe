(** * Ast: src/ast/*.rs — the public AST and its [FromStr]/[ToString] impls.
    Field names carry a type prefix; field order follows the Rust structs.
    [Vec] is [list], [Option] is [option], [String] is [str],
    [SpanRange = Range<usize>] (src/ast/mod.rs:3) is [range]. *)

From Verif Require Export Str F64.

(** [Range::default()] *)
Definition range0 : range := (0, 0).

(** ** src/ast/unit.rs *)

(** unit.rs:60-71 [Value] (i64 as [Z], f64 as [F64.f64]) *)
Inductive value_t : Set :=
| VEnum (x : str) | VString (x : str) | VInteger (z : Z) | VDecimal (d : f64)
| VBool (b : bool) | VHexColor (x : str) | VExpr (x : str) | VNull.

(** unit.rs:9-18 [Literal] *)
Record literal := mkLiteral { lit_span : range; lit_raw : str; lit_value : value_t }.

(** unit.rs:20-29 [Ident] *)
Record ident_t := mkIdent { id_span : range; id_raw : str; id_str : str }.
Definition ident0 : ident_t := mkIdent range0 [] [].

(** unit.rs:31-40 [Attribute] *)
Record attribute_t := mkAttr { at_span : range; at_key : ident_t; at_value : option literal }.

(** unit.rs:42-51 [Property] *)
Record property_t := mkProp { pr_span : range; pr_key : ident_t; pr_value : literal }.

(** unit.rs:53-58 [Nullable] *)
Inductive nullable_t : Set := NotNull | Null.

(** unit.rs:73-84 [Value::from_str] *)
Definition value_from_str (x : str) : option value_t :=
  if str_eqb x (s "true") then Some (VBool true)
  else if str_eqb x (s "false") then Some (VBool false)
  else if str_eqb x (s "null") then Some VNull
  else None.

(** unit.rs:86-99 [Value::to_string] *)
Definition value_to_string (v : value_t) : str :=
  match v with
  | VEnum x => x
  | VString x => x
  | VInteger z => dec_of_Z z
  | VDecimal d => f64_to_string d
  | VBool true => s "true"
  | VBool false => s "false"
  | VHexColor x => x
  | VExpr x => x
  | VNull => s "null"
  end.

(** derived [PartialEq] of [Value] (unit.rs:61) *)
Definition value_eqb (a b : value_t) : bool :=
  match a, b with
  | VEnum x, VEnum y => str_eqb x y
  | VString x, VString y => str_eqb x y
  | VInteger x, VInteger y => Z.eqb x y
  | VDecimal x, VDecimal y => f64_eqb x y
  | VBool x, VBool y => Bool.eqb x y
  | VHexColor x, VHexColor y => str_eqb x y
  | VExpr x, VExpr y => str_eqb x y
  | VNull, VNull => true
  | _, _ => false
  end.

(** unit.rs:101-108 [NoteBlock] *)
Record note_t := mkNote { nb_span : range; nb_value : literal }.

(** ** src/ast/project.rs *)

(** project.rs:7-12 [DatabaseType] *)
Inductive database_type : Set := PostgreSQL | DbUnknown (x : str).

(** project.rs:14-23 [DatabaseType::from_str] (never an [Err]) *)
Definition database_type_from_str (x : str) : database_type :=
  if str_eqb x (s "PostgreSQL") then PostgreSQL else DbUnknown x.

(** project.rs:25-38 [ProjectBlock] *)
Record project_t := mkProject {
  pj_span : range; pj_properties : list property_t; pj_ident : ident_t;
  pj_database_type : option database_type; pj_note : option note_t }.

(** ** src/ast/refs.rs *)

(** refs.rs:29-41 [Relation] *)
Inductive relation_t : Set := Undef | One2One | One2Many | Many2One | Many2Many.
Definition relation_eqb (a b : relation_t) : bool :=
  match a, b with
  | Undef, Undef | One2One, One2One | One2Many, One2Many
  | Many2One, Many2One | Many2Many, Many2Many => true
  | _, _ => false
  end.

(** refs.rs:43-55 [Relation::from_str] *)
Definition relation_from_str (x : str) : option relation_t :=
  if str_eqb x (s "<") then Some One2Many
  else if str_eqb x (s ">") then Some Many2One
  else if str_eqb x (s "-") then Some One2One
  else if str_eqb x (s "<>") then Some Many2Many
  else None.

(** refs.rs:57-64 [RefIdent] *)
Record ref_ident_t := mkRefIdent {
  ri_span : range; ri_schema : option ident_t; ri_table : ident_t; ri_compositions : list ident_t }.
Definition ref_ident0 : ref_ident_t := mkRefIdent range0 None ident0 [].

(** refs.rs:10-16 [RefInline] *)
Record ref_inline_t := mkRefInline { rin_span : range; rin_rel : relation_t; rin_rhs : ref_ident_t }.

(** refs.rs:66-73 [ReferentialAction] *)
Inductive ref_action : Set := NoAction | Cascade | Restrict | SetNull | SetDefault.

(** refs.rs:75-88 [ReferentialAction::from_str] *)
Definition ref_action_from_str (x : str) : option ref_action :=
  if str_eqb x (s "no action") then Some NoAction
  else if str_eqb x (s "cascade") then Some Cascade
  else if str_eqb x (s "restrict") then Some Restrict
  else if str_eqb x (s "set null") then Some SetNull
  else if str_eqb x (s "set default") then Some SetDefault
  else None.

(** refs.rs:90-102 [ReferentialAction::to_string] *)
Definition ref_action_to_string (a : ref_action) : str :=
  match a with
  | NoAction => s "no action" | Cascade => s "cascade" | Restrict => s "restrict"
  | SetNull => s "set null" | SetDefault => s "set default"
  end.

(** refs.rs:104-112 [RefSettings] *)
Record ref_settings_t := mkRefSettings {
  rs_span : range; rs_attributes : list attribute_t;
  rs_on_delete : option ref_action; rs_on_update : option ref_action }.

(** refs.rs:18-27 [RefBlock] *)
Record ref_block_t := mkRefBlock {
  rb_span : range; rb_name : option ident_t; rb_rel : relation_t;
  rb_lhs : ref_ident_t; rb_rhs : ref_ident_t; rb_settings : option ref_settings_t }.

(** ** src/ast/enums.rs *)

(** enums.rs:26-35 [EnumValueSettings] *)
Record enum_value_settings_t := mkEnumValueSettings {
  evs_span : range; evs_attributes : list attribute_t; evs_note : option str }.

(** enums.rs:17-24 [EnumValue] *)
Record enum_value_t := mkEnumValue {
  ev_span : range; ev_value : ident_t; ev_settings : option enum_value_settings_t }.

(** enums.rs:37-46 [EnumIdent] *)
Record enum_ident_t := mkEnumIdent { ei_span : range; ei_schema : option ident_t; ei_name : ident_t }.

(** enums.rs:6-15 [EnumBlock] *)
Record enum_t := mkEnum { en_span : range; en_ident : enum_ident_t; en_values : list enum_value_t }.

(** ** src/ast/indexes.rs *)

(** indexes.rs:56-67 [IndexesType] *)
Inductive indexes_type : Set := BTree | Gin | Gist | Hash.
Definition indexes_type_eqb (a b : indexes_type) : bool :=
  match a, b with
  | BTree, BTree | Gin, Gin | Gist, Gist | Hash, Hash => true
  | _, _ => false
  end.

(** indexes.rs:69-81 [IndexesType::from_str] *)
Definition indexes_type_from_str (x : str) : option indexes_type :=
  if str_eqb x (s "btree") then Some BTree
  else if str_eqb x (s "gin") then Some Gin
  else if str_eqb x (s "gist") then Some Gist
  else if str_eqb x (s "hash") then Some Hash
  else None.

(** indexes.rs:47-54 [IndexesColumnType] *)
Inductive indexes_col : Set := ICString (i : ident_t) | ICExpr (l : literal).

(** indexes.rs:28-45 [IndexesSettings] *)
Record indexes_settings_t := mkIndexesSettings {
  is_span : range; is_attributes : list attribute_t; is_type : option indexes_type;
  is_is_unique : bool; is_is_pk : bool; is_note : option str; is_name : option str }.

(** indexes.rs:17-26 [IndexesDef] *)
Record indexes_def := mkIndexesDef {
  idf_span : range; idf_cols : list indexes_col; idf_settings : option indexes_settings_t }.

(** indexes.rs:7-15 [IndexesBlock] *)
Record indexes_block_t := mkIndexesBlock { ib_span : range; ib_defs : list indexes_def }.

(** ** src/ast/table.rs *)

(** table.rs:61-112 [ColumnTypeName] *)
Inductive col_type_name : Set :=
| CT_Undef | CT_Raw (x : str) | CT_Enum (x : str)
| CT_Bit | CT_Varbit | CT_Char | CT_VarChar | CT_Box | CT_Cidr | CT_Circle | CT_Inet
| CT_Line | CT_LineSegment | CT_MacAddr | CT_MacAddr8 | CT_Money | CT_Path
| CT_PGLongSequenceNumber | CT_PGSnapshot | CT_Point | CT_Polygon | CT_TSQuery
| CT_TSVector | CT_SmallSerial | CT_Serial | CT_BigSerial | CT_SmallInt | CT_Integer
| CT_BigInt | CT_Real | CT_DoublePrecision | CT_Bool | CT_ByteArray | CT_Date | CT_Text
| CT_Time | CT_Timetz | CT_Timestamp | CT_Timestamptz | CT_Uuid | CT_Json | CT_Jsonb
| CT_Decimal | CT_Xml.

(** derived [PartialEq] of [ColumnTypeName] (table.rs:62) *)
Definition col_type_name_eq_dec (a b : col_type_name) : {a = b} + {a <> b}.
Proof. decide equality; apply str_eq_dec. Defined.
Definition col_type_name_eqb (a b : col_type_name) : bool :=
  if col_type_name_eq_dec a b then true else false.

(** table.rs:114-165 [ColumnTypeName::from_str], as the table of its match arms. *)
Definition col_type_table : list (string * col_type_name) :=
  [ ("bit", CT_Bit); ("varbit", CT_Varbit); ("bit varying", CT_Varbit);
    ("char", CT_Char); ("character", CT_Char);
    ("varchar", CT_VarChar); ("character varying", CT_VarChar);
    ("box", CT_Box); ("cidr", CT_Cidr); ("circle", CT_Circle); ("inet", CT_Inet);
    ("line", CT_Line); ("lseg", CT_LineSegment); ("macaddr", CT_MacAddr);
    ("macaddr8", CT_MacAddr8); ("money", CT_Money); ("path", CT_Path);
    ("pg_lsn", CT_PGLongSequenceNumber); ("pg_snapshot", CT_PGSnapshot);
    ("point", CT_Point); ("polygon", CT_Polygon); ("tsquery", CT_TSQuery);
    ("tsvector", CT_TSVector); ("smallserial", CT_SmallSerial); ("serial2", CT_SmallSerial);
    ("serial", CT_Serial); ("serial4", CT_Serial);
    ("bigserial", CT_BigSerial); ("serial8", CT_BigSerial);
    ("smallint", CT_SmallInt); ("int2", CT_SmallInt);
    ("integer", CT_Integer); ("int", CT_Integer); ("int4", CT_Integer);
    ("bigint", CT_BigInt); ("int8", CT_BigInt);
    ("real", CT_Real); ("float4", CT_Real);
    ("double precision", CT_DoublePrecision); ("float8", CT_DoublePrecision);
    ("bool", CT_Bool); ("boolean", CT_Bool); ("bytea", CT_ByteArray);
    ("date", CT_Date); ("text", CT_Text);
    ("time", CT_Time); ("time without time zone", CT_Time);
    ("timetz", CT_Timetz); ("time with time zone", CT_Timetz);
    ("timestamp", CT_Timestamp); ("timestamp without time zone", CT_Timestamp);
    ("timestamptz", CT_Timestamptz); ("timestamp with time zone", CT_Timestamptz);
    ("uuid", CT_Uuid); ("json", CT_Json); ("jsonb", CT_Jsonb);
    ("decimal", CT_Decimal); ("numeric", CT_Decimal); ("xml", CT_Xml) ]%string.
Definition col_type_name_from_str (x : str) : option col_type_name :=
  match find (fun p => str_eqb x (s (fst p))) col_type_table with
  | Some (_, t) => Some t
  | None => None
  end.

(** table.rs:46-59 [ColumnType] ([u32] as [N]) *)
Record col_type_t := mkColType {
  ct_span : range; ct_raw : str; ct_type_name : col_type_name;
  ct_args : list value_t; ct_arrays : list (option N) }.
Definition col_type0 : col_type_t := mkColType range0 [] CT_Undef [] [].

(** table.rs:167-188 [ColumnSettings] *)
Record col_settings_t := mkColSettings {
  cs_span : range; cs_attributes : list attribute_t; cs_is_pk : bool; cs_is_unique : bool;
  cs_nullable : option nullable_t; cs_is_incremental : bool; cs_note : option str;
  cs_default : option value_t; cs_refs : list ref_inline_t }.

(** table.rs:33-44 [TableColumn] *)
Record table_col_t := mkTableCol {
  tc_span : range; tc_name : ident_t; tc_type : col_type_t; tc_settings : option col_settings_t }.

(** table.rs:190-201 [TableIdent] *)
Record table_ident_t := mkTableIdent {
  ti_span : range; ti_name : ident_t; ti_schema : option ident_t; ti_alias : option ident_t }.

(** table.rs:24-31 [TableSettings] *)
Record table_settings_t := mkTableSettings { ts_span : range; ts_attributes : list attribute_t }.

(** table.rs:7-22 [TableBlock] *)
Record table_t := mkTable {
  tb_span : range; tb_cols : list table_col_t; tb_ident : table_ident_t;
  tb_note : option note_t; tb_indexes : option indexes_block_t; tb_settings : option table_settings_t }.

(** ** src/ast/table_group.rs *)

(** table_group.rs:21-28 [TableGroupSettings] *)
Record group_settings_t := mkGroupSettings { gs_span : range; gs_attributes : list attribute_t }.

(** table_group.rs:31-39 [TableGroupItem] *)
Record group_item_t := mkGroupItem { gi_span : range; gi_schema : option ident_t; gi_ident_alias : ident_t }.

(** table_group.rs:5-19 [TableGroupBlock] *)
Record group_t := mkGroup {
  tg_span : range; tg_ident : ident_t; tg_note : option note_t;
  tg_items : list group_item_t; tg_settings : option group_settings_t }.

(** ** src/ast/schema.rs *)

(** schema.rs:16-31 [TopLevelBlock] *)
Inductive block : Set :=
| BProject (p : project_t) | BTable (t : table_t) | BTableGroup (g : group_t)
| BNote (n : note_t) | BRef (r : ref_block_t) | BEnum (e : enum_t).

(** schema.rs:5-14 [SchemaBlock] *)
Record schema_t := mkSchema { sb_span : range; sb_input : str; sb_blocks : list block }.

Definition filter_map {A B} (f : A -> option B) (l : list A) : list B :=
  flat_map (fun a => match f a with Some b => [b] | None => [] end) l.

(** schema.rs:34-102 the accessors *)
Definition projects (x : schema_t) : list project_t :=
  filter_map (fun b => match b with BProject p => Some p | _ => None end) (sb_blocks x).
Definition tables (x : schema_t) : list table_t :=
  filter_map (fun b => match b with BTable t => Some t | _ => None end) (sb_blocks x).
Definition table_groups (x : schema_t) : list group_t :=
  filter_map (fun b => match b with BTableGroup g => Some g | _ => None end) (sb_blocks x).
Definition refs (x : schema_t) : list ref_block_t :=
  filter_map (fun b => match b with BRef r => Some r | _ => None end) (sb_blocks x).
Definition enums (x : schema_t) : list enum_t :=
  filter_map (fun b => match b with BEnum e => Some e | _ => None end) (sb_blocks x).
