(** * Writable: which meanings have a text.

    A specification, independent of the parser model: what a schema's names and values
    may be so that some DBML text ([Syntax]) says it. *)

From Verif Require Export Syntax.

(** A value between quotes must not contain them,
    and layout at its start would be dropped (C09): [F] says which values may stand
    between quotes.  [writable]: any that start neither with white space nor with a
    comment mark. *)
Definition firm (x : str) : Prop :=
  (forall c r, x = c :: r -> ~ is_ws c) /\ (forall r, x <> s "//" ++ r) /\ (forall r, x <> s "/*" ++ r).
Definition w_name (F : str -> Prop) (w : str) : Prop := word w \/ (F w /\ ~ In 34 w).
Definition w_text (F : str -> Prop) (v : str) : Prop := F v /\ (closes_first tq v \/ closes_first sq v).
Definition w_expr (F : str -> Prop) (v : str) : Prop := F v /\ ~ In 96 v.
Definition w_decimal (f : f64) : Prop := exists d1 d2, digits d1 /\ Forall digit d2 /\ nearest64 (decimal_value d1 d2) f.
Definition w_hex (x : str) : Prop :=
  exists h, x = s "#" ++ h /\ Forall hex_digit h /\ (List.length h = 3 \/ List.length h = 6)%nat.
Definition w_literal (F : str -> Prop) (v : value_t) : Prop :=
  match v with
  | VString x => w_text F x | VExpr x => w_expr F x | VInteger z => (0 <= z)%Z | VDecimal f => w_decimal f
  | VHexColor x => w_hex x | VEnum _ => False | VBool _ | VNull => True
  end.
Definition w_bare (v : value_t) : Prop := exists w, v = VEnum w /\ spaced_word w /\ ~ reserved_start w.
Definition w_attr (F : str -> Prop) (a : a_attr) : Prop :=
  spaced_word (fst a) /\
  forall v, snd a = Some v -> w_literal F v \/ w_bare v \/ (exists w, v = VString w /\ F w /\ ~ In 34 w).
Definition w_attrs (F : str -> Prop) (o : option (list a_attr)) : Prop := forall l, o = Some l -> Forall (w_attr F) l.
Definition w_decl (F : str -> Prop) (d : option str * str) : Prop := (forall sc, fst d = Some sc -> w_name F sc) /\ w_name F (snd d).
Definition w_end (F : str -> Prop) (e : a_end) : Prop :=
  w_decl F (e_schema e, e_table e) /\ e_cols e <> [] /\ Forall (w_name F) (e_cols e).
Definition w_rel (x : relation_t) : Prop := x <> Undef.
Definition w_inline (F : str -> Prop) (x : a_inline) : Prop := w_rel (fst x) /\ w_end F (snd x).
(** Type arguments are written without layout. *)
Definition w_arg (v : value_t) : Prop :=
  match v with
  | VString x => closes_first tq x \/ closes_first sq x | VExpr x => ~ In 96 x
  | VInteger z => (0 <= z)%Z | VDecimal f => w_decimal f
  | VHexColor x => w_hex x | VEnum _ => False | VBool _ | VNull => True
  end.
(** A type is a word, or words in double quotes, after an optional schema.  Words in
    double quotes without a schema: a dot directly after the first double quote within
    the arguments would make a schema of what stands before it. *)
Definition arg_words (v : value_t) : str := match v with VString x | VExpr x => x | _ => [] end.
Definition dotted_quote (t : str) : Prop := exists x y, t = x ++ s """." ++ y /\ ~ In 34 x.
Definition w_type (t : a_type) : Prop :=
  exists np b, y_name t = CT_Raw (np ++ b) /\ (np = [] \/ exists w, np = w ++ s "." /\ ~ In 34 w) /\
    (word b \/ (spaced_word b /\ (np = [] -> ~ dotted_quote (join (s ",") (map arg_words (y_args t)))))) /\
    Forall w_arg (y_args t).
Definition w_col (F : str -> Prop) (c : a_col) : Prop :=
  w_name F (c_name c) /\ w_type (c_type c) /\
  forall st, c_settings c = Some st -> Forall (w_attr F) (s_attrs st) /\ Forall (w_inline F) (s_refs st).
Definition w_index (F : str -> Prop) (x : a_index) : Prop :=
  Forall (fun c => match c with IName w => w_name F w | IExpr v => exists w, v = VString w /\ w_expr F w end) (x_cols x) /\
  w_attrs F (x_settings x).
Definition w_note (F : str -> Prop) (v : value_t) : Prop := exists w, v = VString w /\ w_text F w.
Definition w_table (F : str -> Prop) (t : a_table) : Prop :=
  w_decl F (t_schema t, t_name t) /\ (forall w, t_alias t = Some w -> w_name F w) /\ w_attrs F (t_settings t) /\
  Forall (w_col F) (t_cols t) /\ Forall (w_note F) (t_notes t) /\ Forall (Forall (w_index F)) (t_indexes t).
Definition w_block (F : str -> Prop) (b : a_block) : Prop :=
  match b with
  | AProject p => w_name F (p_name p) /\ Forall (w_note F) (p_notes p) /\
      Forall (fun x => spaced_word (fst x) /\ (w_literal F (snd x) \/ w_bare (snd x)) /\
                       ~ (any_case (fst x) (s "note") /\ exists w, snd x = VString w)) (p_props p)
  | ATable t => w_table F t
  | AGroup g => w_name F (g_name g) /\ w_attrs F (g_settings g) /\ Forall (w_note F) (g_notes g) /\ Forall (w_decl F) (g_items g)
  | ANote v => w_note F v
  | ARef f => (forall w, f_name f = Some w -> w_name F w) /\ w_rel (f_rel f) /\ w_end F (f_lhs f) /\ w_end F (f_rhs f) /\ w_attrs F (f_settings f)
  | AEnum e => w_decl F (m_schema e, m_name e) /\ Forall (fun x => w_name F (fst x) /\ w_attrs F (snd x)) (m_values e)
  end.
Definition writable_with (F : str -> Prop) (a : a_schema) : Prop := Forall (w_block F) a.
Definition writable : a_schema -> Prop := writable_with firm.
