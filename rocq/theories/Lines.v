(** * Lines: texts that differ in their line ends and indentation.

    A specification, independent of the parser model.  A line end may be written as
    a line feed or a carriage return, or both, followed by any white space: blank
    lines and the indentation of the next line. *)

From Verif Require Export Syntax.

Definition breaks (n : str) : Prop := exists c w, n = c :: w /\ is_nl c /\ Forall is_ws w.
Inductive same_lines : str -> str -> Prop :=
| sl_nil : same_lines [] []
| sl_char c x y : same_lines x y -> same_lines (c :: x) (c :: y)
| sl_break n m x y : breaks n -> breaks m -> same_lines x y -> same_lines (n ++ x) (m ++ y).

(** Windows line ends. *)
Fixpoint crlf (t : str) : str :=
  match t with
  | [] => []
  | c :: t' => if c =? 10 then 13 :: 10 :: crlf t' else c :: crlf t'
  end.

(** No blank lines, no indentation ([true] at the start of a line). *)
Fixpoint flush_left (b : bool) (t : str) : str :=
  match t with
  | [] => []
  | c :: t' =>
      if (c =? 10) || (c =? 13) then (if b then flush_left true t' else 10 :: flush_left true t')
      else if b && ((c =? 32) || (c =? 9)) then flush_left true t' else c :: flush_left false t'
  end.

(** ** The same for what texts say: names and values may differ in line ends and indentation. *)
Definition o_lines {A} (P : A -> A -> Prop) (a b : option A) : Prop :=
  match a, b with Some x, Some y => P x y | None, None => True | _, _ => False end.
Definition v_lines (a b : value_t) : Prop :=
  match a, b with
  | VString x, VString y | VExpr x, VExpr y => same_lines x y
  | _, _ => a = b
  end.
Definition attr_lines (a b : a_attr) : Prop := fst a = fst b /\ o_lines v_lines (snd a) (snd b).
Definition attrs_lines : option (list a_attr) -> option (list a_attr) -> Prop := o_lines (Forall2 attr_lines).
Definition decl_lines (a b : option str * str) : Prop := o_lines same_lines (fst a) (fst b) /\ same_lines (snd a) (snd b).
Definition end_lines (a b : a_end) : Prop :=
  decl_lines (e_schema a, e_table a) (e_schema b, e_table b) /\ Forall2 same_lines (e_cols a) (e_cols b).
Definition inline_lines (a b : a_inline) : Prop := fst a = fst b /\ end_lines (snd a) (snd b).
Definition type_lines (a b : a_type) : Prop :=
  match y_name a, y_name b with CT_Raw x, CT_Raw y => same_lines x y | x, y => x = y end /\
  Forall2 v_lines (y_args a) (y_args b) /\ y_dims a = y_dims b.
Definition col_set_lines (a b : a_col_settings) : Prop :=
  Forall2 attr_lines (s_attrs a) (s_attrs b) /\ Forall2 inline_lines (s_refs a) (s_refs b).
Definition col_lines (a b : a_col) : Prop :=
  same_lines (c_name a) (c_name b) /\ type_lines (c_type a) (c_type b) /\ o_lines col_set_lines (c_settings a) (c_settings b).
Definition index_col_lines (a b : a_index_col) : Prop :=
  match a, b with IName x, IName y => same_lines x y | IExpr x, IExpr y => v_lines x y | _, _ => False end.
Definition index_lines (a b : a_index) : Prop :=
  Forall2 index_col_lines (x_cols a) (x_cols b) /\ attrs_lines (x_settings a) (x_settings b).
Definition table_lines (a b : a_table) : Prop :=
  decl_lines (t_schema a, t_name a) (t_schema b, t_name b) /\ o_lines same_lines (t_alias a) (t_alias b) /\
  attrs_lines (t_settings a) (t_settings b) /\ Forall2 col_lines (t_cols a) (t_cols b) /\
  Forall2 v_lines (t_notes a) (t_notes b) /\ Forall2 (Forall2 index_lines) (t_indexes a) (t_indexes b).
Definition enum_lines (a b : a_enum) : Prop :=
  decl_lines (m_schema a, m_name a) (m_schema b, m_name b) /\
  Forall2 (fun x y => same_lines (fst x) (fst y) /\ attrs_lines (snd x) (snd y)) (m_values a) (m_values b).
Definition ref_lines (a b : a_ref) : Prop :=
  o_lines same_lines (f_name a) (f_name b) /\ f_rel a = f_rel b /\ end_lines (f_lhs a) (f_lhs b) /\
  end_lines (f_rhs a) (f_rhs b) /\ attrs_lines (f_settings a) (f_settings b).
Definition group_lines (a b : a_group) : Prop :=
  same_lines (g_name a) (g_name b) /\ attrs_lines (g_settings a) (g_settings b) /\
  Forall2 v_lines (g_notes a) (g_notes b) /\ Forall2 decl_lines (g_items a) (g_items b).
Definition project_lines (a b : a_project) : Prop :=
  same_lines (p_name a) (p_name b) /\
  Forall2 (fun x y => fst x = fst y /\ v_lines (snd x) (snd y)) (p_props a) (p_props b) /\
  Forall2 v_lines (p_notes a) (p_notes b).
Definition block_lines (a b : a_block) : Prop :=
  match a, b with
  | AProject x, AProject y => project_lines x y | ATable x, ATable y => table_lines x y
  | AGroup x, AGroup y => group_lines x y | ANote x, ANote y => v_lines x y
  | ARef x, ARef y => ref_lines x y | AEnum x, AEnum y => enum_lines x y
  | _, _ => False
  end.
Definition schema_lines : a_schema -> a_schema -> Prop := Forall2 block_lines.

(** ** No name and no value of [a] spans lines. *)
Definition v_flat (v : value_t) : list str := match v with VString x | VExpr x => [x] | _ => [] end.
Definition o_flat {A} (f : A -> list str) (o : option A) : list str := match o with Some a => f a | None => [] end.
Definition whole (x : str) : list str := [x].
Definition attr_flat (a : a_attr) : list str := o_flat v_flat (snd a).
Definition attrs_flat : option (list a_attr) -> list str := o_flat (flat_map attr_flat).
Definition decl_flat (d : option str * str) : list str := o_flat whole (fst d) ++ [snd d].
Definition end_flat (e : a_end) : list str := decl_flat (e_schema e, e_table e) ++ e_cols e.
Definition type_flat (t : a_type) : list str := match y_name t with CT_Raw x => [x] | _ => [] end ++ flat_map v_flat (y_args t).
Definition col_flat (c : a_col) : list str :=
  c_name c :: type_flat (c_type c) ++
  o_flat (fun st => flat_map attr_flat (s_attrs st) ++ flat_map (fun r => end_flat (snd r)) (s_refs st)) (c_settings c).
Definition index_flat (x : a_index) : list str :=
  flat_map (fun c => match c with IName w => [w] | IExpr v => v_flat v end) (x_cols x) ++ attrs_flat (x_settings x).
(** The names and values of a block. *)
Definition block_flat (b : a_block) : list str :=
  match b with
  | AProject p => p_name p :: flat_map (fun x => v_flat (snd x)) (p_props p) ++ flat_map v_flat (p_notes p)
  | ATable t => decl_flat (t_schema t, t_name t) ++ o_flat whole (t_alias t) ++ attrs_flat (t_settings t) ++
      flat_map col_flat (t_cols t) ++ flat_map v_flat (t_notes t) ++ flat_map (flat_map index_flat) (t_indexes t)
  | AGroup g => g_name g :: attrs_flat (g_settings g) ++ flat_map v_flat (g_notes g) ++ flat_map decl_flat (g_items g)
  | ANote v => v_flat v
  | ARef f => o_flat whole (f_name f) ++ end_flat (f_lhs f) ++ end_flat (f_rhs f) ++ attrs_flat (f_settings f)
  | AEnum e => decl_flat (m_schema e, m_name e) ++ flat_map (fun x => fst x :: attrs_flat (snd x)) (m_values e)
  end.
Definition on_one_line (x : str) : Prop := forall c, In c x -> ~ is_nl c.
Definition no_breaks (a : a_schema) : Prop := forall b x, In b a -> In x (block_flat b) -> on_one_line x.
