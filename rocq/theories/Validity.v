(** * Validity: which texts [parse_dbml] accepts, in terms of what the text says.

    A specification over the meanings of [Syntax]: no positions, no spellings, no
    derived fields, no AST.  [valid a]: the schema [a] keeps all the rules.  The tables
    of type names, argument counts, value ranges and key requirements are those of
    [Rules] ([builtin], [enum_type], [args_fit], [string_fits], [int_fits],
    [single_keys], [composite_keys]). *)

From Coq Require Export Permutation.
From Verif Require Import Rules.
From Verif Require Export Syntax.

(** ** What a schema declares *)
Definition projects_of (a : a_schema) : list a_project := pick (fun b => match b with AProject p => Some p | _ => None end) a.
Definition tables_of (a : a_schema) : list a_table := pick (fun b => match b with ATable t => Some t | _ => None end) a.
Definition enums_of (a : a_schema) : list a_enum := pick (fun b => match b with AEnum e => Some e | _ => None end) a.
Definition groups_of (a : a_schema) : list a_group := pick (fun b => match b with AGroup g => Some g | _ => None end) a.
Definition refs_of (a : a_schema) : list a_ref := pick (fun b => match b with ARef r => Some r | _ => None end) a.

(** Full names: an omitted schema is [public]. *)
Definition in_public (o : option str) : str := match o with Some w => w | None => s "public" end.
Definition tname (t : a_table) : str * str := (in_public (t_schema t), t_name t).
Definition ename (e : a_enum) : str * str := (in_public (m_schema e), m_name e).
Definition taliases (ts : list a_table) : list str := pick t_alias ts.

(** ** Settings *)
Definition has (k : string) (l : list a_attr) : Prop := In (s k) (map fst l).
Definition once (l : list a_attr) : Prop := NoDup (map fst l).
Definition once_opt (o : option (list a_attr)) : Prop := forall l, o = Some l -> once l.
Definition col_attrs (c : a_col) : list a_attr := match c_settings c with Some st => s_attrs st | None => [] end.
Definition col_links (c : a_col) : list a_inline := match c_settings c with Some st => s_refs st | None => [] end.
Definition idx_attrs (d : a_index) : list a_attr := match x_settings d with Some l => l | None => [] end.

(** ** Keys and indexes *)
Definition is_pk (c : a_col) : Prop := has "pk" (col_attrs c) \/ has "primary key" (col_attrs c).
Definition is_unique (c : a_col) : Prop := has "unique" (col_attrs c).
Definition idx_pk (d : a_index) : Prop := has "pk" (idx_attrs d).
Definition idx_unique (d : a_index) : Prop := has "unique" (idx_attrs d).
Definition idx_typed (d : a_index) : Prop := exists v, In (s "type", Some v) (idx_attrs d).
Definition idx_names (d : a_index) : list str := pick (fun c => match c with IName w => Some w | IExpr _ => None end) (x_cols d).
(** An index without settings has no kind; one with a type has that kind; any other
    definition is no index of its own. *)
Definition idx_kind (d : a_index) (k : option str) : Prop :=
  match x_settings d with
  | None => k = None
  | Some l => exists v, In (s "type", Some v) l /\ k = Some (value_to_string v)
  end.
(** The last index block counts. *)
Definition defs_of (t : a_table) : list a_index := List.concat (last_only (t_indexes t)).

Definition valid_index (cols : list a_col) (before : list a_index) (d : a_index) : Prop :=
  x_cols d <> [] /\ incl (idx_names d) (map c_name cols) /\ once (idx_attrs d) /\
  ~ (idx_pk d /\ idx_unique d) /\ ~ (idx_pk d /\ idx_typed d) /\ ~ (idx_unique d /\ idx_typed d) /\
  (idx_pk d -> (forall c, In c cols -> ~ is_pk c) /\ (forall d', In d' before -> idx_pk d' -> idx_names d' = [])) /\
  (idx_unique d -> (forall c, In c cols -> is_unique c -> ~ incl (idx_names d) [c_name c]) /\
                   (forall d', In d' before -> idx_unique d' -> ~ incl (idx_names d) (idx_names d'))) /\
  (forall d' k k', In d' before -> idx_kind d k -> idx_kind d' k' -> idx_names d' = idx_names d -> k <> None /\ k <> k').
Definition valid_col_keys (c : a_col) : Prop :=
  (is_pk c -> ~ has "null" (col_attrs c) /\ y_dims (c_type c) = []) /\
  ~ (has "null" (col_attrs c) /\ has "not null" (col_attrs c)).
Definition valid_keys (t : a_table) : Prop :=
  Forall valid_col_keys (t_cols t) /\
  (forall l1 c l2 c', t_cols t = l1 ++ c :: l2 -> is_pk c -> In c' l1 -> ~ is_pk c') /\
  (forall l1 d l2, defs_of t = l1 ++ d :: l2 -> valid_index (t_cols t) l1 d).

(** ** Types and defaults *)
Definition valid_default (tn : col_type_name) (args : list value_t) (l : list a_attr) (v : value_t) : Prop :=
  match v with
  | VString w => string_fits tn args w
  | VInteger z => int_fits tn z
  | VBool _ => tn = CT_Bool
  | VNull => has "null" l
  | VEnum _ | VDecimal _ | VHexColor _ | VExpr _ => True
  end.
Definition valid_col_type (es : list a_enum) (c : a_col) : Prop :=
  exists raw tn, y_name (c_type c) = CT_Raw raw /\ type_means raw tn /\
    (builtin raw tn -> args_fit tn (y_args (c_type c))) /\
    (forall v, In (s "default", Some v) (col_attrs c) ->
       valid_default tn (y_args (c_type c)) (col_attrs c) v /\
       (not_builtin raw -> forall so n, enum_type raw so n ->
          exists e, In e es /\ ename e = (in_public so, n) /\ In (value_to_string v) (map fst (m_values e)))).
(** What a type is: a built-in one or an enum. *)
Definition type_is (c : a_col) (tn : col_type_name) : Prop := exists raw, y_name (c_type c) = CT_Raw raw /\ type_means raw tn.

(** ** References: the [Ref] blocks and the inline ones *)
Record link := mkLink { k_rel : relation_t; k_lhs : a_end; k_rhs : a_end }.
Definition block_links (a : a_schema) : list link := map (fun r => mkLink (f_rel r) (f_lhs r) (f_rhs r)) (refs_of a).
Definition table_links (t : a_table) : list link :=
  flat_map (fun c => map (fun r => mkLink (fst r) (mkEnd (t_schema t) (t_name t) [c_name c]) (snd r)) (col_links c)) (t_cols t).
Definition links (a : a_schema) : list link := block_links a ++ flat_map table_links (tables_of a).

(** The schema and name an endpoint leads to: an alias stands for its table, whose
    schema is then spelled out. *)
Inductive leads_to (ts : list a_table) (e : a_end) : option str -> str -> Prop :=
| lt_alias t : In t ts -> t_alias t = Some (e_table e) -> leads_to ts e (Some (fst (tname t))) (snd (tname t))
| lt_name : ~ In (e_table e) (taliases ts) -> leads_to ts e (e_schema e) (e_table e).
(** The table found: it is declared with the schema and name as written. *)
Definition found (ts : list a_table) (e : a_end) (t : a_table) : Prop := In t ts /\ leads_to ts e (t_schema t) (t_name t).
Definition col_named (t : a_table) (w : str) (c : a_col) : Prop := In c (t_cols t) /\ c_name c = w.
Definition types_agree (c c' : a_col) : Prop :=
  (exists tn, type_is c tn /\ type_is c' tn) /\
  y_args (c_type c) = y_args (c_type c') /\ y_dims (c_type c) = y_dims (c_type c').
Definition is_key (c : a_col) : Prop := is_pk c \/ is_unique c.
Definition are_key (t : a_table) (cols : list str) : Prop :=
  exists d, In d (defs_of t) /\ (idx_pk d \/ idx_unique d) /\
    List.length (x_cols d) = List.length cols /\ same_set (idx_names d) cols.
Definition valid_link (ts : list a_table) (k : link) : Prop :=
  exists lt rt lcs rcs,
    found ts (k_lhs k) lt /\ found ts (k_rhs k) rt /\
    Forall2 (col_named lt) (e_cols (k_lhs k)) lcs /\ Forall2 (col_named rt) (e_cols (k_rhs k)) rcs /\
    Forall2 types_agree lcs rcs /\
    (forall lc rc, lcs = [lc] -> rcs = [rc] -> single_keys (k_rel k) (is_key lc) (is_key rc)) /\
    ((2 <= List.length lcs)%nat -> composite_keys (k_rel k) (are_key lt (e_cols (k_lhs k))) (are_key rt (e_cols (k_rhs k)))).

(** Two references clash when they relate the same columns symmetrically, or put a
    foreign key on the same columns. *)
Definition same_columns (ts : list a_table) (a b : a_end) : Prop :=
  (exists so n, leads_to ts a so n /\ leads_to ts b so n) /\ same_set (e_cols a) (e_cols b).
Definition many_side (k : link) : option a_end :=
  match k_rel k with Many2One => Some (k_lhs k) | One2Many => Some (k_rhs k) | _ => None end.
Definition clash (ts : list a_table) (k o : link) : Prop :=
  ((k_rel k = One2One \/ k_rel k = Many2Many) /\ k_rel o = k_rel k /\
   (same_columns ts (k_lhs k) (k_lhs o) \/ same_columns ts (k_lhs k) (k_rhs o)) /\
   (same_columns ts (k_rhs k) (k_lhs o) \/ same_columns ts (k_rhs k) (k_rhs o))) \/
  (exists a b, many_side k = Some a /\ many_side o = Some b /\ same_columns ts a b).

(** ** Table groups *)
Inductive item_is (ts : list a_table) : option str * str -> str * str -> Prop :=
| ii_qualified sc n : item_is ts (Some sc, n) (sc, n)
| ii_alias t n : In t ts -> t_alias t = Some n -> item_is ts (None, n) (tname t)
| ii_table t n : ~ In n (taliases ts) -> In t ts -> tname t = (s "public", n) -> item_is ts (None, n) (tname t).

(** ** Valid schemas *)
Record valid (a : a_schema) : Prop := {
  ok_project : exists p, projects_of a = [p] /\ NoDup (map fst (p_props p));
  ok_tables : NoDup (map tname (tables_of a));
  ok_aliases : NoDup (taliases (tables_of a));
  ok_table : Forall (fun t => once_opt (t_settings t) /\ NoDup (map c_name (t_cols t)) /\
                             Forall (fun c => once (col_attrs c)) (t_cols t)) (tables_of a);
  ok_enums : NoDup (map ename (enums_of a));
  ok_values : Forall (fun e => NoDup (map fst (m_values e)) /\ Forall (fun v => once_opt (snd v)) (m_values e)) (enums_of a);
  ok_groups : NoDup (map g_name (groups_of a));
  ok_items : Forall (fun g => exists ids, Forall2 (item_is (tables_of a)) (g_items g) ids /\ NoDup ids) (groups_of a);
  ok_keys : Forall valid_keys (tables_of a);
  ok_types : Forall (fun t => Forall (valid_col_type (enums_of a)) (t_cols t)) (tables_of a);
  ok_ref_settings : Forall (fun r => once_opt (f_settings r)) (refs_of a);
  ok_links : Forall (valid_link (tables_of a)) (links a);
  ok_clashes : forall l1 k l2, links a = l1 ++ k :: l2 -> k_rel k <> Undef /\ forall o, In o (l1 ++ l2) -> ~ clash (tables_of a) k o }.
