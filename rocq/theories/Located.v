(** * Located: DBML, text and AST.

    A specification, independent of the parser model: which AST, with every span, raw
    spelling and derived field, a DBML text stands for.  It repeats the grammar of
    [Syntax] over the AST itself.

    [R i m x] (a located reader): the text [i] begins with a way of writing node [x],
    and [m] is what follows it directly — layout after [x] is still in [m].  All the
    texts are ends of the whole input [inp], so that an end of [inp] is a position. *)

From Verif Require Export Syntax.

Section Located.
Variable inp : str.

(** The byte offset at which the end [r] of the input starts. *)
Definition pos (r : str) : N := blen inp - blen r.
Definition span (i m : str) : range := (pos i, pos m).

(** Then layout. *)
Definition next {A} (R : reader A) : reader A := fun i r x => exists m, R i m x /\ lay m r.
(** In brackets with commas; in braces. *)
Inductive list_at (op cl : string) {A} (R : reader A) : str -> str -> list A -> Prop :=
| list_none i m : tok (s op) i (s cl ++ m) -> list_at op cl R i m []
| list_some i m1 m l : tok (s op) i m1 -> commas (next R) m1 (s cl ++ m) l -> list_at op cl R i m l.
Definition braces_at {A} (R : reader A) : reader (list A) :=
  fun i m l => exists m1, tok (s "{") i m1 /\ many (next R) m1 (s "}" ++ m) l.
(** With an optional last part.  Where it is absent, the layout before it is part of the
    node's extent. *)
Inductive tail_at {A B} (R : reader A) (O : reader B) : str -> str -> A -> option B -> Prop :=
| tail_no i m a : next R i m a -> tail_at R O i m a None
| tail_yes i m1 m a b : next R i m1 a -> O m1 m b -> tail_at R O i m a (Some b).
Definition last_of {A} (l : list A) : option A := hd_error (rev l).

(** ** Words and literals *)
Definition plain_at : reader str := fun i m w => i = w ++ m /\ word w /\ no_word m.
Definition phrase_at : reader str := fun i m w => i = w ++ m /\ spaced_word w /\ no_phrase m.
Definition quote_at (q : str) : reader str := fun i m v => exists i', i = q ++ i' /\ lay i' (v ++ q ++ m) /\ closes_first q v.
Definition text_at : reader str := fun i m v => quote_at tq i m v \/ quote_at sq i m v.

Definition ident_at : reader ident_t := fun i m x =>
  i = id_raw x ++ m /\ id_span x = span i m /\ (plain_at i m (id_str x) \/ quote_at dq i m (id_str x)).
Definition key_at : reader ident_t := fun i m x =>
  i = id_raw x ++ m /\ id_span x = span i m /\ phrase_at i m (id_str x).

Inductive value_at : reader value_t :=
| va_text i m v : text_at i m v -> value_at i m (VString v)
| va_expr i m v : quote_at bq i m v -> value_at i m (VExpr v)
| va_true m : value_at (s "true" ++ m) m (VBool true)
| va_false m : value_at (s "false" ++ m) m (VBool false)
| va_null m : value_at (s "null" ++ m) m VNull
| va_int d m : digits d -> no_digit m -> (forall m', m <> s "." ++ m') ->
    value_at (d ++ m) m (VInteger (Z.of_N (digits_value 0 d)))
| va_dec d1 d2 m f : digits d1 -> Forall digit d2 -> no_digit m -> nearest64 (decimal_value d1 d2) f ->
    value_at (d1 ++ s "." ++ d2 ++ m) m (VDecimal f)
| va_hex6 h m : Forall hex_digit h -> List.length h = 6%nat -> value_at (s "#" ++ h ++ m) m (VHexColor (s "#" ++ h))
| va_hex3 h m : Forall hex_digit h -> List.length h = 3%nat ->
    (forall h' m', m = h' ++ m' -> List.length h' = 3%nat -> ~ Forall hex_digit h') ->
    value_at (s "#" ++ h ++ m) m (VHexColor (s "#" ++ h)).
Definition bare_at : reader value_t := fun i m v => exists w, phrase_at i m w /\ ~ reserved_start w /\ v = VEnum w.
(** A string between the quotes [q]. *)
Definition string_at (q : str) : reader value_t := fun i m v => exists w, quote_at q i m w /\ v = VString w.
Definition note_text_at : reader value_t := fun i m v => string_at tq i m v \/ string_at sq i m v.
Definition lit (R : reader value_t) : reader literal := fun i m x =>
  i = lit_raw x ++ m /\ lit_span x = span i m /\ R i m (lit_value x) /\ fits_value (lit_value x).

(** ** Settings *)
Definition plain_value_at : reader value_t := fun i m v => value_at i m v \/ bare_at i m v.
Definition attr_value_at : reader value_t := fun i m v => plain_value_at i m v \/ string_at dq i m v.
Inductive attribute_at : reader attribute_t :=
| flag_at i m k : next key_at i m k -> attribute_at i m (mkAttr (span i m) k None)
| valued_at i m1 m2 m k v : next key_at i m1 k -> tok (s ":") m1 m2 -> lit attr_value_at m2 m v ->
    attribute_at i m (mkAttr (span i m) k (Some v)).
Definition attributes_at : reader (list attribute_t) := list_at "[" "]" attribute_at.
Definition table_settings_at : reader table_settings_t := fun i m x =>
  ts_span x = span i m /\ attributes_at i m (ts_attributes x).
Definition group_settings_at : reader group_settings_t := fun i m x =>
  gs_span x = span i m /\ attributes_at i m (gs_attributes x).
Definition enum_settings_at : reader enum_value_settings_t := fun i m x =>
  evs_span x = span i m /\ attributes_at i m (evs_attributes x) /\ enum_settings_say (evs_attributes x) x.
Definition ref_settings_at : reader ref_settings_t := fun i m x =>
  rs_span x = span i m /\ attributes_at i m (rs_attributes x) /\ ref_settings_say (rs_attributes x) x.
Definition index_settings_at : reader indexes_settings_t := fun i m x =>
  is_span x = span i m /\ attributes_at i m (is_attributes x) /\ index_settings_say (is_attributes x) x.

(** ** References *)
Inductive decl_at : reader (option ident_t * ident_t) :=
| decl_plain i m n : next ident_at i m n -> decl_at i m (None, n)
| decl_schema i m1 m2 m sc n : next ident_at i m1 sc -> tok (s ".") m1 m2 -> ident_at m2 m n -> decl_at i m (Some sc, n).
Inductive columns_at : reader (list ident_t) :=
| columns_one i m c : ident_at i m c -> columns_at i m [c]
| columns_more i m1 m l : tok (s "(") i m1 -> commas (next ident_at) m1 (s ")" ++ m) l -> columns_at i m l.
Inductive endpoint_at : reader ref_ident_t :=
| endpoint_table i m1 m2 m t l : next ident_at i m1 t -> tok (s ".") m1 m2 -> columns_at m2 m l ->
    endpoint_at i m (mkRefIdent (span i m) None t l)
| endpoint_schema i m1 m2 m3 m4 m sc t l : next ident_at i m1 sc -> tok (s ".") m1 m2 -> next ident_at m2 m3 t ->
    tok (s ".") m3 m4 -> columns_at m4 m l -> endpoint_at i m (mkRefIdent (span i m) (Some sc) t l).
Definition rel_at : reader relation_t := fun i m x => exists t, symbol x = Some t /\ i = t ++ m.
Inductive inline_at : reader ref_inline_t :=
| inline_intro i m1 m2 m3 m x e : tok (s "ref") i m1 -> tok (s ":") m1 m2 -> next rel_at m2 m3 x -> endpoint_at m3 m e ->
    inline_at i m (mkRefInline (span i m) x e).
(** A [Ref] node's extent is that of its statement. *)
Inductive stmt_at (n : option ident_t) : reader ref_block_t :=
| stmt_intro i m1 m2 m x a b st : next endpoint_at i m1 a -> next rel_at m1 m2 x ->
    tail_at endpoint_at ref_settings_at m2 m b st -> stmt_at n i m (mkRefBlock (span i m) n x a b st).
Inductive reference_at : reader ref_block_t :=
| reference_colon i m1 m2 m3 m n f : kw "Ref" i m1 -> maybe (next ident_at) m1 m2 n -> tok (s ":") m2 m3 ->
    stmt_at n m3 m f -> reference_at i m f
| reference_braces i m1 m2 m3 m n f : kw "Ref" i m1 -> maybe (next ident_at) m1 m2 n -> tok (s "{") m2 m3 ->
    next (stmt_at n) m3 (s "}" ++ m) f -> reference_at i m f.

(** ** Notes *)
Inductive note_at : reader note_t :=
| note_colon_at i m1 m2 m v : kw "Note" i m1 -> tok (s ":") m1 m2 -> lit note_text_at m2 m v ->
    note_at i m (mkNote (span i m) v)
| note_braces_at i m1 m2 m v : kw "Note" i m1 -> tok (s "{") m1 m2 -> next (lit note_text_at) m2 (s "}" ++ m) v ->
    note_at i m (mkNote (span i m) v).

(** ** Tables *)
Definition type_at : reader col_type_t := fun i m x =>
  i = ct_raw x ++ m /\ ct_span x = span i m /\ type_raw (ct_raw x) (e_type x) /\ no_merge (ct_raw x) m /\ no_dim m /\
  fits_type (e_type x).
Inductive col_item_t := ColAttr (a : attribute_t) | ColRef (r : ref_inline_t).
Definition col_item_at : reader col_item_t := fun i m x =>
  match x with ColAttr a => attribute_at i m a | ColRef r => inline_at i m r end.
Definition col_settings_at : reader col_settings_t := fun i m x =>
  cs_span x = span i m /\ exists l, list_at "[" "]" col_item_at i m l /\
    col_settings_say (pick (fun y => match y with ColAttr a => Some a | _ => None end) l) x /\
    cs_refs x = pick (fun y => match y with ColRef r => Some r | _ => None end) l.
Inductive column_at : reader table_col_t :=
| column_intro i m1 m n ty st : next ident_at i m1 n -> tail_at type_at col_settings_at m1 m ty st ->
    column_at i m (mkTableCol (span i m) n ty st).
Inductive index_col_at : reader indexes_col :=
| index_name i m x : ident_at i m x -> index_col_at i m (ICString x)
| index_expr i m v : lit (string_at bq) i m v -> index_col_at i m (ICExpr v).
Inductive index_at : reader indexes_def :=
| index_single i m c st : tail_at index_col_at index_settings_at i m c st -> index_at i m (mkIndexesDef (span i m) [c] st)
| index_multi i m l st : tail_at (list_at "(" ")" index_col_at) index_settings_at i m l st ->
    index_at i m (mkIndexesDef (span i m) l st).
(** An [Indexes] node's extent is that of its braces. *)
Inductive indexes_at : reader indexes_block_t :=
| indexes_intro i m1 m l : kw "Indexes" i m1 -> braces_at index_at m1 m l -> indexes_at i m (mkIndexesBlock (span m1 m) l).
Inductive table_item_t := TabCol (c : table_col_t) | TabNote (n : note_t) | TabIndexes (b : indexes_block_t).
Definition table_item_at : reader table_item_t := fun i m x =>
  match x with TabCol c => column_at i m c | TabNote n => note_at i m n | TabIndexes b => indexes_at i m b end.
Definition alias_at : reader ident_t := fun i m x => exists m1, kw "as " i m1 /\ ident_at m1 m x.
Inductive table_at : reader table_t :=
| table_intro i m1 m2 m3 m4 m5 m d al st l : kw "Table " i m1 -> decl_at m1 m2 d -> lay m2 m3 ->
    maybe (next alias_at) m3 m4 al -> maybe (next table_settings_at) m4 m5 st -> braces_at table_item_at m5 m l ->
    table_at i m (mkTable (span i m)
      (pick (fun x => match x with TabCol c => Some c | _ => None end) l)
      (mkTableIdent (span m1 m2) (snd d) (fst d) al)
      (last_of (pick (fun x => match x with TabNote n => Some n | _ => None end) l))
      (last_of (pick (fun x => match x with TabIndexes b => Some b | _ => None end) l)) st).

(** ** Enums, groups, projects *)
Inductive enum_value_at : reader enum_value_t :=
| enum_value_intro i m v st : tail_at ident_at enum_settings_at i m v st -> enum_value_at i m (mkEnumValue (span i m) v st).
Inductive enum_at : reader enum_t :=
| enum_intro i m1 m2 m3 m d l : kw "Enum " i m1 -> decl_at m1 m2 d -> lay m2 m3 -> braces_at enum_value_at m3 m l ->
    enum_at i m (mkEnum (span i m) (mkEnumIdent (span m1 m2) (fst d) (snd d)) l).
Inductive group_part_t := GroupNote (n : note_t) | GroupItem (g : group_item_t).
Inductive group_part_at : reader group_part_t :=
| group_note i m n : note_at i m n -> group_part_at i m (GroupNote n)
| group_name i m d : decl_at i m d -> group_part_at i m (GroupItem (mkGroupItem (span i m) (fst d) (snd d))).
Inductive group_at : reader group_t :=
| group_intro i m1 m2 m3 m n st l : kw "TableGroup " i m1 -> next ident_at m1 m2 n -> maybe (next group_settings_at) m2 m3 st ->
    braces_at group_part_at m3 m l ->
    group_at i m (mkGroup (span i m) n
      (last_of (pick (fun x => match x with GroupNote n => Some n | _ => None end) l))
      (pick (fun x => match x with GroupItem g => Some g | _ => None end) l) st).
Inductive property_at : reader property_t :=
| property_intro i m1 m2 m k v : next key_at i m1 k -> tok (s ":") m1 m2 -> lit plain_value_at m2 m v ->
    ~ (any_case (id_str k) (s "note") /\ exists w, lit_value v = VString w) ->
    property_at i m (mkProp (span i m) k v).
Inductive project_item_t := ProjNote (n : note_t) | ProjProp (p : property_t).
Definition project_item_at : reader project_item_t := fun i m x =>
  match x with ProjNote n => note_at i m n | ProjProp p => property_at i m p end.
Inductive project_at : reader project_t :=
| project_intro i m1 m2 m n l props db : kw "Project " i m1 -> next ident_at m1 m2 n -> braces_at project_item_at m2 m l ->
    props = pick (fun x => match x with ProjProp p => Some p | _ => None end) l -> database_type_says props db ->
    project_at i m (mkProject (span i m) props n db
      (last_of (pick (fun x => match x with ProjNote n => Some n | _ => None end) l))).

(** ** Whole texts *)
Definition top_at : reader block := fun i m x =>
  match x with
  | BProject p => project_at i m p | BTable t => table_at i m t | BTableGroup g => group_at i m g
  | BNote n => note_at i m n | BRef r => reference_at i m r | BEnum e => enum_at i m e
  end.
End Located.

Definition located (inp : str) (x : schema_t) : Prop :=
  sb_input x = inp /\ sb_span x = (0, blen inp) /\
  exists m, lay inp m /\ many (next (top_at inp)) m [] (sb_blocks x).
