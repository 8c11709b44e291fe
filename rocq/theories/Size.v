(** * Size: how much a schema holds.

    A specification, independent of the parser model: the characters of every name and
    value of a schema, at least 1 for each of them (1 for a number, [true], [false],
    [null]), and 1 for every array dimension, settings list, index definition without
    columns, index block, note, inline reference and top-level block. *)

From Verif Require Export Syntax.
Local Open Scope nat_scope.

Fixpoint total {A} (f : A -> nat) (l : list A) : nat := match l with [] => 0 | a :: l' => f a + total f l' end.
Definition given {A} (f : A -> nat) (o : option A) : nat := match o with Some a => f a | None => 0 end.
Definition name_size (w : str) : nat := Nat.max 1 (List.length w).
Definition value_size (v : value_t) : nat :=
  match v with VString x | VExpr x | VEnum x | VHexColor x => name_size x | _ => 1 end.
Definition attr_size (a : a_attr) : nat := name_size (fst a) + given value_size (snd a).
Definition attrs_size (o : option (list a_attr)) : nat := given (fun l => 1 + total attr_size l) o.
Definition decl_size (d : option str * str) : nat := given name_size (fst d) + name_size (snd d).
Definition end_size (e : a_end) : nat := decl_size (e_schema e, e_table e) + total name_size (e_cols e).
Definition inline_size (r : a_inline) : nat := 1 + end_size (snd r).
Definition type_size (t : a_type) : nat :=
  match y_name t with CT_Raw x => name_size x | _ => 1 end + total value_size (y_args t) + List.length (y_dims t).
Definition col_size (c : a_col) : nat :=
  name_size (c_name c) + type_size (c_type c) +
  given (fun st => 1 + total attr_size (s_attrs st) + total inline_size (s_refs st)) (c_settings c).
Definition index_size (x : a_index) : nat :=
  Nat.max 1 (total (fun c => match c with IName w => name_size w | IExpr v => value_size v end) (x_cols x)) + attrs_size (x_settings x).
Definition note_size (v : value_t) : nat := 1 + value_size v.
Definition block_size (b : a_block) : nat :=
  1 + match b with
  | AProject p => name_size (p_name p) + total (fun x => name_size (fst x) + value_size (snd x)) (p_props p) + total note_size (p_notes p)
  | ATable t => decl_size (t_schema t, t_name t) + given name_size (t_alias t) + attrs_size (t_settings t) +
      total col_size (t_cols t) + total note_size (t_notes t) + total (fun l => 1 + total index_size l) (t_indexes t)
  | AGroup g => name_size (g_name g) + attrs_size (g_settings g) + total note_size (g_notes g) + total decl_size (g_items g)
  | ANote v => value_size v
  | ARef f => given name_size (f_name f) + end_size (f_lhs f) + end_size (f_rhs f) + attrs_size (f_settings f)
  | AEnum e => decl_size (m_schema e, m_name e) + total (fun x => name_size (fst x) + attrs_size (snd x)) (m_values e)
  end.
Definition schema_size (a : a_schema) : nat := total block_size a.
