(** * Syntax: DBML, text and meaning.

    A specification, independent of the parser model: what a DBML text says, as a
    grammar over texts.  It uses only [Layout], [TextSpec], the AST's value types
    and [type_text] of [AstSpec].

    A schema's meaning ([a_schema] below) is the AST without positions: no spans, no
    raw spellings, no fields that are derived from others (C12, C13 and C46 say what
    those are).

    [reader A]: [R i r a] says that the text [i] begins with a way of writing [a],
    with the layout (white space, comments) after it, and that [r] is what follows. *)

From Verif Require Export Layout AstSpec.

(** ** Meanings *)
Definition a_attr : Type := (str * option value_t)%type.
Definition a_prop : Type := (str * value_t)%type.
Record a_end := mkEnd { e_schema : option str; e_table : str; e_cols : list str }.
Definition a_inline : Type := (relation_t * a_end)%type.
Record a_type := mkType { y_name : col_type_name; y_args : list value_t; y_dims : list (option N) }.
Record a_col_settings := mkColSet { s_attrs : list a_attr; s_refs : list a_inline }.
Record a_col := mkCol { c_name : str; c_type : a_type; c_settings : option a_col_settings }.
Inductive a_index_col := IName (w : str) | IExpr (v : value_t).
Record a_index := mkIndex { x_cols : list a_index_col; x_settings : option (list a_attr) }.
Record a_table := mkATable {
  t_schema : option str; t_name : str; t_alias : option str; t_settings : option (list a_attr);
  t_cols : list a_col; t_notes : list value_t; t_indexes : list (list a_index) }.
Record a_enum := mkAEnum { m_schema : option str; m_name : str; m_values : list (str * option (list a_attr)) }.
Record a_ref := mkARef { f_name : option str; f_rel : relation_t; f_lhs : a_end; f_rhs : a_end; f_settings : option (list a_attr) }.
Record a_group := mkAGroup {
  g_name : str; g_settings : option (list a_attr); g_notes : list value_t; g_items : list (option str * str) }.
Record a_project := mkAProject { p_name : str; p_props : list a_prop; p_notes : list value_t }.
Inductive a_block :=
| AProject (p : a_project) | ATable (t : a_table) | AGroup (g : a_group)
| ANote (v : value_t) | ARef (r : a_ref) | AEnum (e : a_enum).
Definition a_schema : Type := list a_block.

(** ** Readers *)
Definition reader (A : Type) : Type := str -> str -> A -> Prop.

(** Layout, all of it: white space and comments up to [r], which starts with neither. *)
Definition lay (i r : str) : Prop :=
  exists g, i = g ++ r /\ (gap g \/ (r = [] /\ gap_eof g)) /\ no_layout_start r.
(** The symbol [w]. *)
Definition tok (w : str) (i r : str) : Prop := exists m, i = w ++ m /\ lay m r.
(** The keyword [k] in any letter case. *)
Definition same_letter (c d : char) : Prop :=
  c = d \/ (65 <= c /\ c <= 90 /\ d = c + 32) \/ (65 <= d /\ d <= 90 /\ c = d + 32).
Definition any_case (w k : str) : Prop := Forall2 same_letter w k.
Definition kw (k : string) (i r : str) : Prop := exists w m, i = w ++ m /\ any_case w (s k) /\ lay m r.

(** One after the other, repeated, optional, in brackets. *)
Inductive many {A} (R : reader A) : str -> str -> list A -> Prop :=
| many_nil i : many R i i []
| many_cons i m r a l : R i m a -> many R m r l -> many R i r (a :: l).
Inductive commas {A} (R : reader A) : str -> str -> list A -> Prop :=
| commas_one i r a : R i r a -> commas R i r [a]
| commas_more i m m' r a l : R i m a -> tok (s ",") m m' -> commas R m' r l -> commas R i r (a :: l).
Inductive maybe {A} (R : reader A) : str -> str -> option A -> Prop :=
| maybe_no i : maybe R i i None
| maybe_yes i r a : R i r a -> maybe R i r (Some a).
Inductive bracket (op cl : string) {A} (R : reader A) : str -> str -> list A -> Prop :=
| bracket_none i m r : tok (s op) i m -> tok (s cl) m r -> bracket op cl R i r []
| bracket_some i m m' r l : tok (s op) i m -> commas R m m' l -> tok (s cl) m' r -> bracket op cl R i r l.
Definition braces {A} (R : reader A) : reader (list A) :=
  fun i r l => exists m m', tok (s "{") i m /\ many R m m' l /\ tok (s "}") m' r.

(** ** Words and literals.  Words and numbers extend as far as possible. *)
Definition no_word (m : str) : Prop := forall c m', m = c :: m' -> ~ word_char c.
Definition no_phrase (m : str) : Prop := no_word m /\ forall c m', m = 32 :: c :: m' -> ~ word_char c.
Definition no_digit (m : str) : Prop := forall c m', m = c :: m' -> ~ digit c.
Definition plain : reader str := fun i r w => exists m, i = w ++ m /\ word w /\ no_word m /\ lay m r.
Definition phrase : reader str := fun i r w => exists m, i = w ++ m /\ spaced_word w /\ no_phrase m /\ lay m r.
(** Text in quotes; layout after the opening quote is dropped. *)
Definition quote (q : str) : reader str :=
  fun i r v => exists i' m, i = q ++ i' /\ lay i' (v ++ q ++ m) /\ closes_first q v /\ lay m r.
Definition name : reader str := fun i r w => plain i r w \/ quote dq i r w.
Definition text : reader str := fun i r v => quote tq i r v \/ quote sq i r v.

Inductive literal_r : reader value_t :=
| lr_text i r v : text i r v -> literal_r i r (VString v)
| lr_expr i r v : quote bq i r v -> literal_r i r (VExpr v)
| lr_true i r : tok (s "true") i r -> literal_r i r (VBool true)
| lr_false i r : tok (s "false") i r -> literal_r i r (VBool false)
| lr_null i r : tok (s "null") i r -> literal_r i r VNull
| lr_int d m r : digits d -> no_digit m -> (forall m', m <> s "." ++ m') -> lay m r ->
    literal_r (d ++ m) r (VInteger (Z.of_N (digits_value 0 d)))
| lr_dec d1 d2 m r f : digits d1 -> Forall digit d2 -> no_digit m -> lay m r -> nearest64 (decimal_value d1 d2) f ->
    literal_r (d1 ++ s "." ++ d2 ++ m) r (VDecimal f)
| lr_hex6 h m r : Forall hex_digit h -> List.length h = 6%nat -> lay m r ->
    literal_r (s "#" ++ h ++ m) r (VHexColor (s "#" ++ h))
| lr_hex3 h m r : Forall hex_digit h -> List.length h = 3%nat ->
    (forall h' m', m = h' ++ m' -> List.length h' = 3%nat -> ~ Forall hex_digit h') -> lay m r ->
    literal_r (s "#" ++ h ++ m) r (VHexColor (s "#" ++ h)).

(** A bare word as a value: not one that starts like a keyword value. *)
Definition reserved_start (w : str) : Prop :=
  exists k x, In k [s "true"; s "false"; s "null"] /\ w = k ++ x.
Definition bare : reader value_t := fun i r v => exists w, phrase i r w /\ ~ reserved_start w /\ v = VEnum w.

(** ** Settings *)
Inductive attr : reader a_attr :=
| attr_flag i r k : phrase i r k -> attr i r (k, None)
| attr_value i m m' r k v : phrase i m k -> tok (s ":") m m' ->
    literal_r m' r v \/ bare m' r v \/ (exists w, quote dq m' r w /\ v = VString w) -> attr i r (k, Some v).
Definition attrs : reader (list a_attr) := bracket "[" "]" attr.

(** ** References *)
Definition decl_name : reader (option str * str) := fun i r d =>
  match d with
  | (None, n) => name i r n
  | (Some sc, n) => exists m m', name i m sc /\ tok (s ".") m m' /\ name m' r n
  end.
Inductive columns : reader (list str) :=
| cols_one i r c : name i r c -> columns i r [c]
| cols_more i m m' r l : tok (s "(") i m -> commas name m m' l -> tok (s ")") m' r -> columns i r l.
Inductive endpoint : reader a_end :=
| end_table i m1 m2 r t l : name i m1 t -> tok (s ".") m1 m2 -> columns m2 r l -> endpoint i r (mkEnd None t l)
| end_schema i m1 m2 m3 m4 r sc t l : name i m1 sc -> tok (s ".") m1 m2 -> name m2 m3 t -> tok (s ".") m3 m4 ->
    columns m4 r l -> endpoint i r (mkEnd (Some sc) t l).
Definition rel : reader relation_t := fun i r x => exists t, symbol x = Some t /\ tok t i r.
Inductive inline : reader a_inline :=
| inline_ref i m1 m2 m3 r x e : tok (s "ref") i m1 -> tok (s ":") m1 m2 -> rel m2 m3 x -> endpoint m3 r e ->
    inline i r (x, e).
Inductive ref_body (n : option str) : reader a_ref :=
| ref_stmt_r i m1 m2 m3 r x a b st : endpoint i m1 a -> rel m1 m2 x -> endpoint m2 m3 b -> maybe attrs m3 r st ->
    ref_body n i r (mkARef n x a b st).
Inductive reference : reader a_ref :=
| ref_colon i m1 m2 m3 r n a : kw "Ref" i m1 -> maybe name m1 m2 n -> tok (s ":") m2 m3 -> ref_body n m3 r a ->
    reference i r a
| ref_braces i m1 m2 m3 m4 r n a : kw "Ref" i m1 -> maybe name m1 m2 n -> tok (s "{") m2 m3 -> ref_body n m3 m4 a ->
    tok (s "}") m4 r -> reference i r a.

(** ** Notes *)
Inductive note : reader value_t :=
| note_colon i m1 m2 r v : kw "Note" i m1 -> tok (s ":") m1 m2 -> text m2 r v -> note i r (VString v)
| note_braces i m1 m2 m3 r v : kw "Note" i m1 -> tok (s "{") m1 m2 -> text m2 m3 v -> tok (s "}") m3 r ->
    note i r (VString v).

Definition pick {A B} (f : A -> option B) (l : list A) : list B :=
  flat_map (fun a => match f a with Some b => [b] | None => [] end) l.

(** ** Tables *)

(** A column type has no layout inside and extends as far as possible: over a
    following [[]] or [[n]], and a bare word over letters, digits and underscores. *)
Definition no_dim (m : str) : Prop := forall d x, Forall digit d -> m <> s "[" ++ d ++ s "]" ++ x.
Definition no_merge (raw m : str) : Prop := forall x c, raw = x ++ [c] -> word_char c -> no_word m.
(** Numbers of any size (see [fits] below). *)
Inductive arg_text : str -> value_t -> Prop :=
| ag_single raw v : quoted_verbatim sq raw v -> arg_text raw (VString v)
| ag_triple raw v : quoted_verbatim tq raw v -> arg_text raw (VString v)
| ag_expr raw v : quoted_verbatim bq raw v -> arg_text raw (VExpr v)
| ag_int d : digits d -> arg_text d (VInteger (Z.of_N (digits_value 0 d)))
| ag_dec d1 d2 f : digits d1 -> Forall digit d2 -> nearest64 (decimal_value d1 d2) f -> arg_text (d1 ++ s "." ++ d2) (VDecimal f)
| ag_true : arg_text (s "true") (VBool true)
| ag_false : arg_text (s "false") (VBool false)
| ag_null : arg_text (s "null") VNull
| ag_hex h : Forall hex_digit h -> (List.length h = 3 \/ List.length h = 6)%nat -> arg_text (s "#" ++ h) (VHexColor (s "#" ++ h)).
Inductive args_r : str -> list value_t -> Prop :=
| args_absent : args_r [] []
| args_given raws l : Forall2 arg_text raws l -> args_r (s "(" ++ join (s ",") raws ++ s ")") l.
Inductive dim_r : str -> option N -> Prop :=
| dim_open : dim_r (s "[]") None
| dim_size d : digits d -> dim_r (s "[" ++ d ++ s "]") (Some (digits_value 0 d)).
Inductive dims_r : str -> list (option N) -> Prop :=
| dims_nil : dims_r [] []
| dims_cons t d ts ds : dim_r t d -> dims_r ts ds -> dims_r (t ++ ts) (d :: ds).
(** [schema.] or nothing. *)
Inductive prefix_r : str -> str -> Prop :=
| pre_none : prefix_r [] []
| pre_word w : word w -> prefix_r (w ++ s ".") (w ++ s ".")
| pre_quoted raw w : quoted_verbatim dq raw w -> prefix_r (raw ++ s ".") (w ++ s ".").
(** A quoted word directly before a dot is a schema. *)
Definition no_schema (raw : str) : Prop := forall w x, closes_first dq w -> raw <> dq ++ w ++ dq ++ s "." ++ x.
Inductive type_raw : str -> a_type -> Prop :=
| ty_bare p np b ta args td dims : prefix_r p np -> word b -> args_r ta args -> dims_r td dims ->
    type_raw (p ++ b ++ ta ++ td) (mkType (CT_Raw (np ++ b)) args dims)
| ty_quoted p np b ta args td1 d1 td2 d2 : prefix_r p np -> spaced_word b -> args_r ta args -> dims_r td1 d1 -> dims_r td2 d2 ->
    (p = [] -> no_schema (dq ++ b ++ ta ++ td1 ++ dq ++ td2)) ->
    type_raw (p ++ dq ++ b ++ ta ++ td1 ++ dq ++ td2) (mkType (CT_Raw (np ++ b)) args (d1 ++ d2)).
Definition type_r : reader a_type := fun i r ty =>
  exists raw m, i = raw ++ m /\ type_raw raw ty /\ no_merge raw m /\ no_dim m /\ lay m r.

Inductive a_col_item := CIAttr (a : a_attr) | CIRef (r : a_inline).
Definition col_item : reader a_col_item := fun i r x =>
  match x with CIAttr a => attr i r a | CIRef x => inline i r x end.
Definition col_settings_r : reader a_col_settings := fun i r x =>
  exists l, bracket "[" "]" col_item i r l /\
    s_attrs x = pick (fun y => match y with CIAttr a => Some a | _ => None end) l /\
    s_refs x = pick (fun y => match y with CIRef a => Some a | _ => None end) l.
Inductive column : reader a_col :=
| column_r i m1 m2 r n ty st : name i m1 n -> type_r m1 m2 ty -> maybe col_settings_r m2 r st -> column i r (mkCol n ty st).

Inductive index_col : reader a_index_col :=
| ic_name i r w : name i r w -> index_col i r (IName w)
| ic_expr i r v : quote bq i r v -> index_col i r (IExpr (VString v)).
Inductive index : reader a_index :=
| index_one i m r c st : index_col i m c -> maybe attrs m r st -> index i r (mkIndex [c] st)
| index_list i m r l st : bracket "(" ")" index_col i m l -> maybe attrs m r st -> index i r (mkIndex l st).
Inductive indexes : reader (list a_index) :=
| indexes_r i m r l : kw "Indexes" i m -> braces index m r l -> indexes i r l.

Inductive a_table_item := TICol (c : a_col) | TINote (v : value_t) | TIIndexes (l : list a_index).
Definition table_item : reader a_table_item := fun i r x =>
  match x with TICol c => column i r c | TINote v => note i r v | TIIndexes l => indexes i r l end.
Definition alias : reader str := fun i r w => exists m, kw "as " i m /\ name m r w.
Inductive table : reader a_table :=
| table_r i m1 m2 m3 m4 r d al st l : kw "Table " i m1 -> decl_name m1 m2 d -> maybe alias m2 m3 al -> maybe attrs m3 m4 st ->
    braces table_item m4 r l ->
    table i r (mkATable (fst d) (snd d) al st
      (pick (fun x => match x with TICol c => Some c | _ => None end) l)
      (pick (fun x => match x with TINote v => Some v | _ => None end) l)
      (pick (fun x => match x with TIIndexes v => Some v | _ => None end) l)).

(** ** Enums, groups, projects *)
Definition enum_value_r : reader (str * option (list a_attr)) := fun i r x =>
  exists m, name i m (fst x) /\ maybe attrs m r (snd x).
Inductive enum : reader a_enum :=
| enum_r i m1 m2 r d l : kw "Enum " i m1 -> decl_name m1 m2 d -> braces enum_value_r m2 r l ->
    enum i r (mkAEnum (fst d) (snd d) l).

Inductive a_group_item := GINote (v : value_t) | GIName (d : option str * str).
Definition group_item : reader a_group_item := fun i r x =>
  match x with GINote v => note i r v | GIName d => decl_name i r d end.
Inductive group : reader a_group :=
| group_r i m1 m2 m3 r n st l : kw "TableGroup " i m1 -> name m1 m2 n -> maybe attrs m2 m3 st -> braces group_item m3 r l ->
    group i r (mkAGroup n st
      (pick (fun x => match x with GINote v => Some v | _ => None end) l)
      (pick (fun x => match x with GIName d => Some d | _ => None end) l)).

(** [note: '...'] is a note, not a property. *)
Definition property_r : reader a_prop := fun i r x =>
  exists m m', phrase i m (fst x) /\ tok (s ":") m m' /\ (literal_r m' r (snd x) \/ bare m' r (snd x)) /\
    ~ (any_case (fst x) (s "note") /\ exists w, snd x = VString w).
Inductive a_project_item := PINote (v : value_t) | PIProp (p : a_prop).
Definition project_item : reader a_project_item := fun i r x =>
  match x with PINote v => note i r v | PIProp p => property_r i r p end.
Inductive project : reader a_project :=
| project_r i m1 m2 r n l : kw "Project " i m1 -> name m1 m2 n -> braces project_item m2 r l ->
    project i r (mkAProject n
      (pick (fun x => match x with PIProp p => Some p | _ => None end) l)
      (pick (fun x => match x with PINote v => Some v | _ => None end) l)).

(** ** Whole texts *)
Definition block_r : reader a_block := fun i r x =>
  match x with
  | AProject p => project i r p | ATable t => table i r t | AGroup g => group i r g
  | ANote v => note i r v | ARef f => reference i r f | AEnum e => enum i r e
  end.
Definition dbml_text (inp : str) (a : a_schema) : Prop := exists m, lay inp m /\ many block_r m [] a.

(** ** Limits: what the AST can hold.  Numbers fit their types; the values of an
    index's [type] and of a reference's [update] and [delete] are known words. *)
Definition fits_value (v : value_t) : Prop :=
  match v with VInteger z => (z <= 9223372036854775807)%Z | _ => True end.
Definition fits_attr (a : a_attr) : Prop := forall v, snd a = Some v -> fits_value v.
Definition fits_attrs (o : option (list a_attr)) : Prop := forall l, o = Some l -> Forall fits_attr l.
Definition fits_type (t : a_type) : Prop :=
  Forall fits_value (y_args t) /\ forall n, In (Some n) (y_dims t) -> n <= 4294967295.
Definition fits_col (c : a_col) : Prop :=
  fits_type (c_type c) /\ forall st, c_settings c = Some st -> Forall fits_attr (s_attrs st).
Definition fits_index (x : a_index) : Prop :=
  fits_attrs (x_settings x) /\
  forall l v, x_settings x = Some l -> In (s "type", Some v) l -> exists t, index_type_word t = value_to_string v.
Definition fits_ref (f : a_ref) : Prop :=
  fits_attrs (f_settings f) /\
  forall l k w, f_settings f = Some l -> In k ["update"; "delete"]%string -> In (s k, Some (VEnum w)) l ->
    exists x, action_word x = w.
Definition fits_block (b : a_block) : Prop :=
  match b with
  | AProject p => Forall (fun x => fits_value (snd x)) (p_props p)
  | ATable t => fits_attrs (t_settings t) /\ Forall fits_col (t_cols t) /\
                Forall (Forall fits_index) (t_indexes t)
  | AGroup g => fits_attrs (g_settings g)
  | ANote _ => True
  | ARef f => fits_ref f
  | AEnum e => Forall (fun x => fits_attrs (snd x)) (m_values e)
  end.
Definition fits (a : a_schema) : Prop := Forall fits_block a.

(** ** Several notes or index blocks: the AST holds one of each, the last. *)
Fixpoint last_only {A} (l : list A) : list A :=
  match l with
  | _ :: (_ :: _) as l' => last_only l'
  | _ => l
  end.
Definition settle_block (b : a_block) : a_block :=
  match b with
  | AProject p => AProject (mkAProject (p_name p) (p_props p) (last_only (p_notes p)))
  | ATable t => ATable (mkATable (t_schema t) (t_name t) (t_alias t) (t_settings t) (t_cols t)
                          (last_only (t_notes t)) (last_only (t_indexes t)))
  | AGroup g => AGroup (mkAGroup (g_name g) (g_settings g) (last_only (g_notes g)) (g_items g))
  | _ => b
  end.
Definition settle (a : a_schema) : a_schema := map settle_block a.

(** ** The meaning of an AST *)
Definition e_attr (a : attribute_t) : a_attr := (id_str (at_key a), option_map lit_value (at_value a)).
Definition e_prop (a : property_t) : a_prop := (id_str (pr_key a), lit_value (pr_value a)).
Definition e_note (n : note_t) : value_t := lit_value (nb_value n).
Definition e_ref_end (r : ref_ident_t) : a_end :=
  mkEnd (option_map id_str (ri_schema r)) (id_str (ri_table r)) (map id_str (ri_compositions r)).
Definition e_inline (r : ref_inline_t) : a_inline := (rin_rel r, e_ref_end (rin_rhs r)).
Definition e_type (t : col_type_t) : a_type := mkType (ct_type_name t) (ct_args t) (ct_arrays t).
Definition e_col_settings (x : col_settings_t) : a_col_settings :=
  mkColSet (map e_attr (cs_attributes x)) (map e_inline (cs_refs x)).
Definition e_col (c : table_col_t) : a_col :=
  mkCol (id_str (tc_name c)) (e_type (tc_type c)) (option_map e_col_settings (tc_settings c)).
Definition e_index_col (c : indexes_col) : a_index_col :=
  match c with ICString i => IName (id_str i) | ICExpr l => IExpr (lit_value l) end.
Definition e_index (d : indexes_def) : a_index :=
  mkIndex (map e_index_col (idf_cols d)) (option_map (fun x => map e_attr (is_attributes x)) (idf_settings d)).
Definition e_table_block (t : table_t) : a_table :=
  let i := tb_ident t in
  mkATable (option_map id_str (ti_schema i)) (id_str (ti_name i)) (option_map id_str (ti_alias i))
    (option_map (fun x => map e_attr (ts_attributes x)) (tb_settings t)) (map e_col (tb_cols t))
    (opt_list e_note (tb_note t)) (opt_list (fun b => map e_index (ib_defs b)) (tb_indexes t)).
Definition e_enum (x : enum_t) : a_enum :=
  mkAEnum (option_map id_str (ei_schema (en_ident x))) (id_str (ei_name (en_ident x)))
    (map (fun v => (id_str (ev_value v), option_map (fun st => map e_attr (evs_attributes st)) (ev_settings v))) (en_values x)).
Definition e_ref (r : ref_block_t) : a_ref :=
  mkARef (option_map id_str (rb_name r)) (rb_rel r) (e_ref_end (rb_lhs r)) (e_ref_end (rb_rhs r))
    (option_map (fun st => map e_attr (rs_attributes st)) (rb_settings r)).
Definition e_group (g : group_t) : a_group :=
  mkAGroup (id_str (tg_ident g)) (option_map (fun x => map e_attr (gs_attributes x)) (tg_settings g))
    (opt_list e_note (tg_note g)) (map (fun i => (option_map id_str (gi_schema i), id_str (gi_ident_alias i))) (tg_items g)).
Definition e_project (p : project_t) : a_project :=
  mkAProject (id_str (pj_ident p)) (map e_prop (pj_properties p)) (opt_list e_note (pj_note p)).
Definition e_block (b : block) : a_block :=
  match b with
  | BProject p => AProject (e_project p) | BTable t => ATable (e_table_block t) | BTableGroup g => AGroup (e_group g)
  | BNote n => ANote (e_note n) | BRef r => ARef (e_ref r) | BEnum e => AEnum (e_enum e)
  end.
Definition meaning (x : schema_t) : a_schema := map e_block (sb_blocks x).
