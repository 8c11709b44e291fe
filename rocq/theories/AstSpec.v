(** * AstSpec: what a user relies on in an AST returned for a source text.

    A specification, independent of the parser model: it uses the AST types,
    [slice] (Rust's [str::get]) and the text specification [TextSpec].  Each
    predicate [X_ok inp x] says that node [x] is faithful to the source [inp]. *)

From Verif Require Export TextSpec Ast.

(** ** Spans *)

(** [&inp[sp]] is the text [t]. *)
Definition shows (inp : str) (sp : range) (t : str) : Prop := slice inp (fst sp) (snd sp) = Some t.
(** [&inp[sp]] does not panic. *)
Definition valid_span (inp : str) (sp : range) : Prop :=
  fst sp <= snd sp /\ is_boundary inp (fst sp) = true /\ is_boundary inp (snd sp) = true.
Definition inside (a b : range) : Prop := fst b <= fst a /\ fst a <= snd a /\ snd a <= snd b.
(** The spans [l] follow each other without overlap between offsets [lo] and [hi]. *)
Fixpoint in_order (lo : N) (l : list range) (hi : N) : Prop :=
  match l with
  | [] => lo <= hi
  | sp :: l' => lo <= fst sp /\ fst sp <= snd sp /\ in_order (snd sp) l' hi
  end.
Definition within (sp : range) (l : list range) : Prop := in_order (fst sp) l (snd sp).
Definition opt_list {A B} (f : A -> B) (o : option A) : list B :=
  match o with Some a => [f a] | None => [] end.
Definition opt_all {A} (P : A -> Prop) (o : option A) : Prop :=
  match o with Some a => P a | None => True end.

(** ** Identifiers, literals, attributes *)
Definition ident_ok (inp : str) (i : ident_t) : Prop :=
  shows inp (id_span i) (id_raw i) /\ ident_text (id_raw i) (id_str i).
Definition key_ok (inp : str) (i : ident_t) : Prop :=
  shows inp (id_span i) (id_raw i) /\ spaced_word (id_raw i) /\ id_str i = id_raw i.
Definition literal_ok (inp : str) (l : literal) : Prop :=
  shows inp (lit_span l) (lit_raw l) /\ spells (lit_raw l) (lit_value l).
Definition attribute_ok (inp : str) (a : attribute_t) : Prop :=
  valid_span inp (at_span a) /\ key_ok inp (at_key a) /\ opt_all (literal_ok inp) (at_value a) /\
  within (at_span a) (id_span (at_key a) :: opt_list lit_span (at_value a)).
Definition property_ok (inp : str) (a : property_t) : Prop :=
  valid_span inp (pr_span a) /\ key_ok inp (pr_key a) /\ literal_ok inp (pr_value a) /\
  within (pr_span a) [id_span (pr_key a); lit_span (pr_value a)].
Definition attributes_ok (inp : str) (sp : range) (l : list attribute_t) : Prop :=
  valid_span inp sp /\ Forall (attribute_ok inp) l /\ within sp (map at_span l).
Definition note_ok (inp : str) (n : note_t) : Prop :=
  valid_span inp (nb_span n) /\ literal_ok inp (nb_value n) /\ inside (lit_span (nb_value n)) (nb_span n) /\
  exists v, lit_value (nb_value n) = VString v.

(** ** What a settings list says *)
Definition key_of (a : attribute_t) : str := id_str (at_key a).
Definition has_key (k : string) (l : list attribute_t) : Prop := exists a, In a l /\ key_of a = s k.
Definition keyed (ks : list string) (a : attribute_t) : Prop := exists k, In k ks /\ key_of a = s k.
(** [v] is what the last attribute with a key among [ks] says ([reads]), or [dflt]
    when there is none. *)
Definition last_says {A} (ks : list string) (reads : attribute_t -> A -> Prop) (dflt : A)
    (l : list attribute_t) (v : A) : Prop :=
  (Forall (fun a => ~ keyed ks a) l /\ v = dflt) \/
  (exists l1 a l2, l = l1 ++ a :: l2 /\ keyed ks a /\ Forall (fun b => ~ keyed ks b) l2 /\ reads a v).

(** An attribute's value, as text, as value. *)
Definition reads_text (a : attribute_t) (v : option str) : Prop :=
  v = option_map (fun l => value_to_string (lit_value l)) (at_value a).
Definition reads_value (a : attribute_t) (v : option value_t) : Prop := v = option_map lit_value (at_value a).
Definition reads_nullable (a : attribute_t) (v : option nullable_t) : Prop :=
  (key_of a = s "null" /\ v = Some Null) \/ (key_of a = s "not null" /\ v = Some NotNull).

Definition index_type_word (t : indexes_type) : str :=
  match t with BTree => s "btree" | Gin => s "gin" | Gist => s "gist" | Hash => s "hash" end.
Definition reads_index_type (a : attribute_t) (v : option indexes_type) : Prop :=
  match at_value a with
  | None => v = None
  | Some l => exists t, v = Some t /\ index_type_word t = value_to_string (lit_value l)
  end.
Definition action_word (a : ref_action) : str :=
  match a with
  | NoAction => s "no action" | Cascade => s "cascade" | Restrict => s "restrict"
  | SetNull => s "set null" | SetDefault => s "set default"
  end.
(** Only an unquoted word is read as an action; any other value is ignored. *)
Definition reads_action (a : attribute_t) (v : option ref_action) : Prop :=
  match at_value a with
  | Some (mkLiteral _ _ (VEnum w)) => exists x, v = Some x /\ action_word x = w
  | _ => v = None
  end.

Definition col_settings_say (l : list attribute_t) (x : col_settings_t) : Prop :=
  cs_attributes x = l /\
  (cs_is_pk x = true <-> has_key "pk" l \/ has_key "primary key" l) /\
  (cs_is_unique x = true <-> has_key "unique" l) /\
  (cs_is_incremental x = true <-> has_key "increment" l) /\
  last_says ["null"; "not null"]%string reads_nullable None l (cs_nullable x) /\
  last_says ["default"]%string reads_value None l (cs_default x) /\
  last_says ["note"]%string reads_text None l (cs_note x).
Definition index_settings_say (l : list attribute_t) (x : indexes_settings_t) : Prop :=
  is_attributes x = l /\
  (is_is_pk x = true <-> has_key "pk" l) /\
  (is_is_unique x = true <-> has_key "unique" l) /\
  last_says ["type"]%string reads_index_type None l (is_type x) /\
  Forall (fun a => key_of a = s "type" -> exists v, reads_index_type a v) l /\
  last_says ["name"]%string reads_text None l (is_name x) /\
  last_says ["note"]%string reads_text None l (is_note x).
Definition enum_settings_say (l : list attribute_t) (x : enum_value_settings_t) : Prop :=
  evs_attributes x = l /\ last_says ["note"]%string reads_text None l (evs_note x).
Definition ref_settings_say (l : list attribute_t) (x : ref_settings_t) : Prop :=
  rs_attributes x = l /\
  last_says ["update"]%string reads_action None l (rs_on_update x) /\
  last_says ["delete"]%string reads_action None l (rs_on_delete x) /\
  Forall (fun a => keyed ["update"; "delete"]%string a -> exists v, reads_action a v) l.

(** ** References *)
Definition symbol (r : relation_t) : option str :=
  match r with
  | Undef => None
  | One2One => Some (s "-") | One2Many => Some (s "<")
  | Many2One => Some (s ">") | Many2Many => Some (s "<>")
  end.
Definition ref_ident_ok (inp : str) (r : ref_ident_t) : Prop :=
  valid_span inp (ri_span r) /\ opt_all (ident_ok inp) (ri_schema r) /\ ident_ok inp (ri_table r) /\
  ri_compositions r <> [] /\ Forall (ident_ok inp) (ri_compositions r) /\
  within (ri_span r) (opt_list id_span (ri_schema r) ++ id_span (ri_table r) :: map id_span (ri_compositions r)).
Definition ref_inline_ok (inp : str) (r : ref_inline_t) : Prop :=
  valid_span inp (rin_span r) /\ ref_ident_ok inp (rin_rhs r) /\
  exists sp t, symbol (rin_rel r) = Some t /\ shows inp sp t /\ within (rin_span r) [sp; ri_span (rin_rhs r)].
Definition ref_settings_ok (inp : str) (x : ref_settings_t) : Prop :=
  attributes_ok inp (rs_span x) (rs_attributes x) /\ ref_settings_say (rs_attributes x) x.
Definition ref_block_ok (inp : str) (r : ref_block_t) : Prop :=
  valid_span inp (rb_span r) /\ opt_all (ident_ok inp) (rb_name r) /\
  opt_all (fun n => snd (id_span n) <= fst (rb_span r)) (rb_name r) /\
  ref_ident_ok inp (rb_lhs r) /\ ref_ident_ok inp (rb_rhs r) /\ opt_all (ref_settings_ok inp) (rb_settings r) /\
  exists sp t, symbol (rb_rel r) = Some t /\ shows inp sp t /\
    within (rb_span r) (ri_span (rb_lhs r) :: sp :: ri_span (rb_rhs r) :: opt_list rs_span (rb_settings r)).

(** ** Column types *)

(** Inside a column type nothing is skipped: quoted text is verbatim. *)
Inductive spells_arg : str -> value_t -> Prop :=
| sa_single raw v : quoted_verbatim sq raw v -> spells_arg raw (VString v)
| sa_triple raw v : quoted_verbatim tq raw v -> spells_arg raw (VString v)
| sa_expr raw v : quoted_verbatim bq raw v -> spells_arg raw (VExpr v)
| sa_other raw v : spells raw v -> (forall x, v <> VString x) -> (forall x, v <> VExpr x) ->
    (forall x, v <> VEnum x) -> spells_arg raw v.
Fixpoint join (sep : str) (l : list str) : str :=
  match l with
  | [] => []
  | [x] => x
  | x :: l' => x ++ sep ++ join sep l'
  end.
Definition args_text (t : str) (args : list value_t) : Prop :=
  (t = [] /\ args = []) \/
  exists raws, t = s "(" ++ join (s ",") raws ++ s ")" /\ Forall2 spells_arg raws args.
Definition dim_text (t : str) (d : option N) : Prop :=
  match d with
  | None => t = s "[]"
  | Some n => exists ds, t = s "[" ++ ds ++ s "]" /\ digits ds /\ digits_value 0 ds = n /\ n <= 4294967295
  end.
Definition dims_text (t : str) (ds : list (option N)) : Prop :=
  exists raws, t = List.concat raws /\ Forall2 dim_text raws ds.
(** [type_text raw name args arrays]: the type written [raw] is [name] (with its
    schema prefix), with these arguments and array dimensions. *)
Definition type_text (raw name : str) (args : list value_t) (arrays : list (option N)) : Prop :=
  exists pre name_pre body base,
    raw = pre ++ body /\ name = name_pre ++ base /\
    ((pre = [] /\ name_pre = []) \/
     exists sraw sname, pre = sraw ++ s "." /\ name_pre = sname ++ s "." /\
       ((word sraw /\ sname = sraw) \/ quoted_verbatim dq sraw sname)) /\
    ((exists ta td, word base /\ body = base ++ ta ++ td /\ args_text ta args /\ dims_text td arrays) \/
     (exists ta td1 td2 a1 a2, spaced_word base /\ body = dq ++ base ++ ta ++ td1 ++ dq ++ td2 /\
        args_text ta args /\ dims_text td1 a1 /\ dims_text td2 a2 /\ arrays = a1 ++ a2)).
Definition col_type_ok (inp : str) (t : col_type_t) : Prop :=
  shows inp (ct_span t) (ct_raw t) /\
  exists name, ct_type_name t = CT_Raw name /\ name <> [] /\ type_text (ct_raw t) name (ct_args t) (ct_arrays t).

(** ** Blocks *)
Definition col_settings_ok (inp : str) (x : col_settings_t) : Prop :=
  attributes_ok inp (cs_span x) (cs_attributes x) /\ col_settings_say (cs_attributes x) x /\
  Forall (ref_inline_ok inp) (cs_refs x) /\ within (cs_span x) (map rin_span (cs_refs x)).
Definition table_col_ok (inp : str) (c : table_col_t) : Prop :=
  valid_span inp (tc_span c) /\ ident_ok inp (tc_name c) /\ col_type_ok inp (tc_type c) /\
  opt_all (col_settings_ok inp) (tc_settings c) /\
  within (tc_span c) (id_span (tc_name c) :: ct_span (tc_type c) :: opt_list cs_span (tc_settings c)).

Definition indexes_col_ok (inp : str) (c : indexes_col) : Prop :=
  match c with
  | ICString i => ident_ok inp i
  | ICExpr l => shows inp (lit_span l) (lit_raw l) /\ exists v, lit_value l = VString v /\ quoted bq (lit_raw l) v
  end.
Definition indexes_col_span (c : indexes_col) : range :=
  match c with ICString i => id_span i | ICExpr l => lit_span l end.
Definition indexes_settings_ok (inp : str) (x : indexes_settings_t) : Prop :=
  attributes_ok inp (is_span x) (is_attributes x) /\ index_settings_say (is_attributes x) x.
Definition indexes_def_ok (inp : str) (d : indexes_def) : Prop :=
  valid_span inp (idf_span d) /\ Forall (indexes_col_ok inp) (idf_cols d) /\
  opt_all (indexes_settings_ok inp) (idf_settings d) /\
  within (idf_span d) (map indexes_col_span (idf_cols d) ++ opt_list is_span (idf_settings d)).
Definition indexes_block_ok (inp : str) (b : indexes_block_t) : Prop :=
  valid_span inp (ib_span b) /\ Forall (indexes_def_ok inp) (ib_defs b) /\ within (ib_span b) (map idf_span (ib_defs b)).

Definition table_ident_ok (inp : str) (i : table_ident_t) : Prop :=
  valid_span inp (ti_span i) /\ opt_all (ident_ok inp) (ti_schema i) /\ ident_ok inp (ti_name i) /\
  opt_all (ident_ok inp) (ti_alias i) /\
  within (ti_span i) (opt_list id_span (ti_schema i) ++ [id_span (ti_name i)]).
(** The header (name, alias, settings) comes first, then the columns in order;
    note and indexes lie somewhere after the header. *)
Definition table_ok (inp : str) (t : table_t) : Prop :=
  valid_span inp (tb_span t) /\ table_ident_ok inp (tb_ident t) /\
  opt_all (fun x => attributes_ok inp (ts_span x) (ts_attributes x)) (tb_settings t) /\
  Forall (table_col_ok inp) (tb_cols t) /\ opt_all (note_ok inp) (tb_note t) /\
  opt_all (indexes_block_ok inp) (tb_indexes t) /\
  exists m, in_order (fst (tb_span t)) (ti_span (tb_ident t) :: opt_list id_span (ti_alias (tb_ident t))
                                          ++ opt_list ts_span (tb_settings t)) m /\
    in_order m (map tc_span (tb_cols t)) (snd (tb_span t)) /\
    opt_all (fun n => inside (nb_span n) (m, snd (tb_span t))) (tb_note t) /\
    opt_all (fun n => inside (ib_span n) (m, snd (tb_span t))) (tb_indexes t).

Definition enum_value_ok (inp : str) (v : enum_value_t) : Prop :=
  valid_span inp (ev_span v) /\ ident_ok inp (ev_value v) /\
  opt_all (fun x => attributes_ok inp (evs_span x) (evs_attributes x) /\ enum_settings_say (evs_attributes x) x) (ev_settings v) /\
  within (ev_span v) (id_span (ev_value v) :: opt_list evs_span (ev_settings v)).
Definition enum_ident_ok (inp : str) (i : enum_ident_t) : Prop :=
  valid_span inp (ei_span i) /\ opt_all (ident_ok inp) (ei_schema i) /\ ident_ok inp (ei_name i) /\
  within (ei_span i) (opt_list id_span (ei_schema i) ++ [id_span (ei_name i)]).
Definition enum_ok (inp : str) (e : enum_t) : Prop :=
  valid_span inp (en_span e) /\ enum_ident_ok inp (en_ident e) /\ Forall (enum_value_ok inp) (en_values e) /\
  within (en_span e) (ei_span (en_ident e) :: map ev_span (en_values e)).

Definition group_item_ok (inp : str) (i : group_item_t) : Prop :=
  valid_span inp (gi_span i) /\ opt_all (ident_ok inp) (gi_schema i) /\ ident_ok inp (gi_ident_alias i) /\
  within (gi_span i) (opt_list id_span (gi_schema i) ++ [id_span (gi_ident_alias i)]).
Definition group_ok (inp : str) (g : group_t) : Prop :=
  valid_span inp (tg_span g) /\ ident_ok inp (tg_ident g) /\
  opt_all (fun x => attributes_ok inp (gs_span x) (gs_attributes x)) (tg_settings g) /\
  Forall (group_item_ok inp) (tg_items g) /\ opt_all (note_ok inp) (tg_note g) /\
  exists m, in_order (fst (tg_span g)) (id_span (tg_ident g) :: opt_list gs_span (tg_settings g)) m /\
    in_order m (map gi_span (tg_items g)) (snd (tg_span g)) /\
    opt_all (fun n => inside (nb_span n) (m, snd (tg_span g))) (tg_note g).

(** [database_type] is what the last string-valued [database_type] property says. *)
Definition database_type_says (l : list property_t) (v : option database_type) : Prop :=
  let says p := id_str (pr_key p) = s "database_type" /\ exists n, lit_value (pr_value p) = VString n in
  (Forall (fun p => ~ says p) l /\ v = None) \/
  (exists l1 p l2 n, l = l1 ++ p :: l2 /\ id_str (pr_key p) = s "database_type" /\ lit_value (pr_value p) = VString n /\
     Forall (fun p => ~ says p) l2 /\
     ((n = s "PostgreSQL" /\ v = Some PostgreSQL) \/ (n <> s "PostgreSQL" /\ v = Some (DbUnknown n)))).
Definition project_ok (inp : str) (p : project_t) : Prop :=
  valid_span inp (pj_span p) /\ ident_ok inp (pj_ident p) /\ Forall (property_ok inp) (pj_properties p) /\
  opt_all (note_ok inp) (pj_note p) /\ database_type_says (pj_properties p) (pj_database_type p) /\
  within (pj_span p) (id_span (pj_ident p) :: map pr_span (pj_properties p)) /\
  opt_all (fun n => inside (nb_span n) (snd (id_span (pj_ident p)), snd (pj_span p))) (pj_note p).

Definition block_ok (inp : str) (b : block) : Prop :=
  match b with
  | BProject p => project_ok inp p
  | BTable t => table_ok inp t
  | BTableGroup g => group_ok inp g
  | BNote n => note_ok inp n
  | BRef r => ref_block_ok inp r
  | BEnum e => enum_ok inp e
  end.
Definition block_span (b : block) : range :=
  match b with
  | BProject p => pj_span p | BTable t => tb_span t | BTableGroup g => tg_span g
  | BNote n => nb_span n | BRef r => rb_span r | BEnum e => en_span e
  end.
Definition schema_ok (inp : str) (x : schema_t) : Prop :=
  sb_input x = inp /\ sb_span x = (0, blen inp) /\
  Forall (block_ok inp) (sb_blocks x) /\ within (sb_span x) (map block_span (sb_blocks x)).

(** ** Truthful parse errors *)
Definition parse_error_true (inp : str) (m : str) (sp : range) : Prop :=
  (* an integer literal above i64::MAX, or an array dimension above u32::MAX *)
  (m = s "number too large to fit in target type" /\ exists d, shows inp sp d /\ digits d /\
     (9223372036854775807 < digits_value 0 d \/
      (4294967295 < digits_value 0 d /\ shows inp (fst sp - 1, snd sp + 1) (s "[" ++ d ++ s "]")))) \/
  (* an index setting [type: v] with an unknown [v] *)
  (exists a l, attribute_ok inp a /\ at_span a = sp /\ key_of a = s "type" /\ at_value a = Some l /\
     (forall t, index_type_word t <> value_to_string (lit_value l)) /\
     m = s "'" ++ value_to_string (lit_value l) ++ s "' type is not supported!") \/
  (* a ref setting [update: w] or [delete: w] with an unknown word [w] *)
  (exists a l w, attribute_ok inp a /\ at_span a = sp /\ keyed ["update"; "delete"]%string a /\
     at_value a = Some l /\ lit_value l = VEnum w /\ (forall x, action_word x <> w) /\
     m = s "invalid referential action").
