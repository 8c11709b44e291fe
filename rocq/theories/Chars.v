(** * Chars: characters DBML gives no meaning to.

    A specification, independent of the parser model.  Layout, words, numbers and the
    marks below are all the characters the syntax is made of; every other one (letters
    outside ASCII, [!], [@], [=], [;], the backslash, control characters, ...) only
    stands for itself in quotes and comments. *)

From Verif Require Export Syntax.

(** The marks: / * # . : , [ ] ( ) { } < > - ' ` and the double quote. *)
Definition marks : str := s "/*#.:,[](){}<>-'`" ++ dq.
Definition special (c : char) : Prop := is_ws c \/ word_char c \/ In c marks.
(** The same character, or two characters without a meaning. *)
Definition same_char (c d : char) : Prop := c = d \/ (~ special c /\ ~ special d).
(** Texts that differ only in such characters, position by position. *)
Definition other_chars (x y : str) : Prop := Forall2 same_char x y.
(** A consistent replacement of such characters. *)
Definition respells (f : char -> char) : Prop := forall c, same_char c (f c).

(** ** What texts say, up to a relation between characters *)
Section Alike.
  Variable R : char -> char -> Prop.
  Definition same_str : str -> str -> Prop := Forall2 R.
  Definition o_chars {A} (P : A -> A -> Prop) (a b : option A) : Prop :=
    match a, b with Some x, Some y => P x y | None, None => True | _, _ => False end.
  Definition v_chars (a b : value_t) : Prop :=
    match a, b with
    | VString x, VString y | VExpr x, VExpr y | VEnum x, VEnum y | VHexColor x, VHexColor y => same_str x y
    | _, _ => a = b
    end.
  Definition attr_chars (a b : a_attr) : Prop := fst a = fst b /\ o_chars v_chars (snd a) (snd b).
  Definition attrs_chars : option (list a_attr) -> option (list a_attr) -> Prop := o_chars (Forall2 attr_chars).
  Definition decl_chars (a b : option str * str) : Prop := o_chars same_str (fst a) (fst b) /\ same_str (snd a) (snd b).
  Definition end_chars (a b : a_end) : Prop :=
    decl_chars (e_schema a, e_table a) (e_schema b, e_table b) /\ Forall2 same_str (e_cols a) (e_cols b).
  Definition inline_chars (a b : a_inline) : Prop := fst a = fst b /\ end_chars (snd a) (snd b).
  Definition type_chars (a b : a_type) : Prop :=
    match y_name a, y_name b with CT_Raw x, CT_Raw y => same_str x y | x, y => x = y end /\
    Forall2 v_chars (y_args a) (y_args b) /\ y_dims a = y_dims b.
  Definition col_set_chars (a b : a_col_settings) : Prop :=
    Forall2 attr_chars (s_attrs a) (s_attrs b) /\ Forall2 inline_chars (s_refs a) (s_refs b).
  Definition col_chars (a b : a_col) : Prop :=
    same_str (c_name a) (c_name b) /\ type_chars (c_type a) (c_type b) /\ o_chars col_set_chars (c_settings a) (c_settings b).
  Definition index_col_chars (a b : a_index_col) : Prop :=
    match a, b with IName x, IName y => same_str x y | IExpr x, IExpr y => v_chars x y | _, _ => False end.
  Definition index_chars (a b : a_index) : Prop :=
    Forall2 index_col_chars (x_cols a) (x_cols b) /\ attrs_chars (x_settings a) (x_settings b).
  Definition table_chars (a b : a_table) : Prop :=
    decl_chars (t_schema a, t_name a) (t_schema b, t_name b) /\ o_chars same_str (t_alias a) (t_alias b) /\
    attrs_chars (t_settings a) (t_settings b) /\ Forall2 col_chars (t_cols a) (t_cols b) /\
    Forall2 v_chars (t_notes a) (t_notes b) /\ Forall2 (Forall2 index_chars) (t_indexes a) (t_indexes b).
  Definition enum_chars (a b : a_enum) : Prop :=
    decl_chars (m_schema a, m_name a) (m_schema b, m_name b) /\
    Forall2 (fun x y => same_str (fst x) (fst y) /\ attrs_chars (snd x) (snd y)) (m_values a) (m_values b).
  Definition ref_chars (a b : a_ref) : Prop :=
    o_chars same_str (f_name a) (f_name b) /\ f_rel a = f_rel b /\ end_chars (f_lhs a) (f_lhs b) /\
    end_chars (f_rhs a) (f_rhs b) /\ attrs_chars (f_settings a) (f_settings b).
  Definition group_chars (a b : a_group) : Prop :=
    same_str (g_name a) (g_name b) /\ attrs_chars (g_settings a) (g_settings b) /\
    Forall2 v_chars (g_notes a) (g_notes b) /\ Forall2 decl_chars (g_items a) (g_items b).
  Definition project_chars (a b : a_project) : Prop :=
    same_str (p_name a) (p_name b) /\
    Forall2 (fun x y => fst x = fst y /\ v_chars (snd x) (snd y)) (p_props a) (p_props b) /\
    Forall2 v_chars (p_notes a) (p_notes b).
  Definition block_chars (a b : a_block) : Prop :=
    match a, b with
    | AProject x, AProject y => project_chars x y | ATable x, ATable y => table_chars x y
    | AGroup x, AGroup y => group_chars x y | ANote x, ANote y => v_chars x y
    | ARef x, ARef y => ref_chars x y | AEnum x, AEnum y => enum_chars x y
    | _, _ => False
    end.
  Definition schema_chars : a_schema -> a_schema -> Prop := Forall2 block_chars.
End Alike.

(** ** What a text says, with every character replaced *)
Section Respell.
  Variable f : char -> char.
  Definition r_value (v : value_t) : value_t :=
    match v with
    | VString x => VString (map f x) | VExpr x => VExpr (map f x)
    | VEnum x => VEnum (map f x) | VHexColor x => VHexColor (map f x)
    | _ => v
    end.
  Definition r_attr (a : a_attr) : a_attr := (fst a, option_map r_value (snd a)).
  Definition r_attrs (o : option (list a_attr)) : option (list a_attr) := option_map (map r_attr) o.
  Definition r_decl (d : option str * str) : option str * str := (option_map (map f) (fst d), map f (snd d)).
  Definition r_end (e : a_end) : a_end := mkEnd (option_map (map f) (e_schema e)) (map f (e_table e)) (map (map f) (e_cols e)).
  Definition r_inline (x : a_inline) : a_inline := (fst x, r_end (snd x)).
  Definition r_type (t : a_type) : a_type :=
    mkType (match y_name t with CT_Raw x => CT_Raw (map f x) | x => x end) (map r_value (y_args t)) (y_dims t).
  Definition r_col_set (x : a_col_settings) : a_col_settings := mkColSet (map r_attr (s_attrs x)) (map r_inline (s_refs x)).
  Definition r_col (c : a_col) : a_col := mkCol (map f (c_name c)) (r_type (c_type c)) (option_map r_col_set (c_settings c)).
  Definition r_index_col (c : a_index_col) : a_index_col := match c with IName w => IName (map f w) | IExpr v => IExpr (r_value v) end.
  Definition r_index (d : a_index) : a_index := mkIndex (map r_index_col (x_cols d)) (r_attrs (x_settings d)).
  Definition r_table (t : a_table) : a_table :=
    mkATable (option_map (map f) (t_schema t)) (map f (t_name t)) (option_map (map f) (t_alias t)) (r_attrs (t_settings t))
      (map r_col (t_cols t)) (map r_value (t_notes t)) (map (map r_index) (t_indexes t)).
  Definition r_enum (e : a_enum) : a_enum :=
    mkAEnum (option_map (map f) (m_schema e)) (map f (m_name e)) (map (fun v => (map f (fst v), r_attrs (snd v))) (m_values e)).
  Definition r_ref (r : a_ref) : a_ref :=
    mkARef (option_map (map f) (f_name r)) (f_rel r) (r_end (f_lhs r)) (r_end (f_rhs r)) (r_attrs (f_settings r)).
  Definition r_group (g : a_group) : a_group :=
    mkAGroup (map f (g_name g)) (r_attrs (g_settings g)) (map r_value (g_notes g)) (map r_decl (g_items g)).
  Definition r_project (p : a_project) : a_project :=
    mkAProject (map f (p_name p)) (map (fun x => (fst x, r_value (snd x))) (p_props p)) (map r_value (p_notes p)).
  Definition r_block (b : a_block) : a_block :=
    match b with
    | AProject p => AProject (r_project p) | ATable t => ATable (r_table t) | AGroup g => AGroup (r_group g)
    | ANote v => ANote (r_value v) | ARef r => ARef (r_ref r) | AEnum e => AEnum (r_enum e)
    end.
  Definition respelled_schema (a : a_schema) : a_schema := map r_block a.
End Respell.
