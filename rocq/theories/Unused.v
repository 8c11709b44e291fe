(** * Unused: leaving out declarations that nothing depends on (specification only).

    Over the meanings of [Syntax], with the notions of [Validity]. *)

From Verif Require Import Rules.
From Verif Require Export Validity.
From Verif Require Export Syntax.

(** [l'] is [l] without some elements; the others are kept, in part ([R x y]: [y] is part of [x]). *)
Inductive fewer {A} (R : A -> A -> Prop) : list A -> list A -> Prop :=
| fw_nil : fewer R [] []
| fw_keep x y l l' : R x y -> fewer R l l' -> fewer R (x :: l) (y :: l')
| fw_drop x l l' : fewer R l l' -> fewer R (x :: l) l'.
Definition some_of {A} : list A -> list A -> Prop := fewer eq.
Definition some_attrs (o o' : option (list a_attr)) : Prop := forall l', o' = Some l' -> exists l, o = Some l /\ some_of l l'.

(** Settings that declare keys and nullability stay, references need not. *)
Definition less_col (c c' : a_col) : Prop :=
  c_name c' = c_name c /\ c_type c' = c_type c /\ some_of (col_attrs c) (col_attrs c') /\
  (forall k, In k ["pk"; "primary key"; "unique"; "null"]%string -> has k (col_attrs c) -> has k (col_attrs c')) /\
  some_of (col_links c) (col_links c').
(** Columns, index definitions, the alias. *)
Definition less_table (t t' : a_table) : Prop :=
  t_schema t' = t_schema t /\ t_name t' = t_name t /\ (t_alias t' = t_alias t \/ t_alias t' = None) /\
  some_attrs (t_settings t) (t_settings t') /\ fewer less_col (t_cols t) (t_cols t') /\
  fewer some_of (t_indexes t) (t_indexes t') /\ some_of (defs_of t) (defs_of t').
Definition less_enum (e e' : a_enum) : Prop :=
  m_schema e' = m_schema e /\ m_name e' = m_name e /\
  fewer (fun v v' => fst v' = fst v /\ some_attrs (snd v) (snd v')) (m_values e) (m_values e').
Definition less_group (g g' : a_group) : Prop :=
  g_name g' = g_name g /\ some_attrs (g_settings g) (g_settings g') /\ some_of (g_items g) (g_items g').
Definition less_ref (r r' : a_ref) : Prop :=
  f_rel r' = f_rel r /\ f_lhs r' = f_lhs r /\ f_rhs r' = f_rhs r /\ some_attrs (f_settings r) (f_settings r').
Inductive less_block : a_block -> a_block -> Prop :=
| less_p p p' : some_of (p_props p) (p_props p') -> less_block (AProject p) (AProject p')
| less_t t t' : less_table t t' -> less_block (ATable t) (ATable t')
| less_g g g' : less_group g g' -> less_block (AGroup g) (AGroup g')
| less_n v v' : less_block (ANote v) (ANote v')
| less_r r r' : less_ref r r' -> less_block (ARef r) (ARef r')
| less_e e e' : less_enum e e' -> less_block (AEnum e) (AEnum e').
(** [b] is what is left of [a]: some of its blocks, in part. *)
Definition left_of (a b : a_schema) : Prop := fewer less_block a b /\ projects_of b <> [].

(** An end of a reference that is left. *)
Definition an_end (b : a_schema) (e : a_end) : Prop := exists k, In k (links b) /\ (e = k_lhs k \/ e = k_rhs k).
(** What is left depends on nothing that is gone: the tables that the references lead to are
    there, with the alias and the columns used and the keys they need; so are the columns of the indexes,
    the enum values that are defaults, and the tables in groups. *)
Record depends_on_nothing_gone (a b : a_schema) : Prop := {
  dn_ends : forall e t, an_end b e -> found (tables_of a) e t -> exists t', In t' (tables_of b) /\ tname t' = tname t /\
    (t_alias t = Some (e_table e) -> t_alias t' = Some (e_table e)) /\ incl (e_cols e) (map c_name (t_cols t')) /\
    (forall d, In d (defs_of t) -> idx_pk d \/ idx_unique d -> same_set (idx_names d) (e_cols e) -> In d (defs_of t'));
  dn_indexes : forall t d, In t (tables_of b) -> In d (defs_of t) -> incl (idx_names d) (map c_name (t_cols t));
  dn_defaults : forall t c v raw so n, In t (tables_of b) -> In c (t_cols t) -> In (s "default", Some v) (col_attrs c) ->
    y_name (c_type c) = CT_Raw raw -> not_builtin raw -> enum_type raw so n ->
    exists e, In e (enums_of b) /\ ename e = (in_public so, n) /\ In (value_to_string v) (map fst (m_values e));
  dn_items : forall g n t, In g (groups_of b) -> In (None, n) (g_items g) -> In t (tables_of a) -> item_is (tables_of a) (None, n) (tname t) ->
    exists t', In t' (tables_of b) /\ tname t' = tname t /\ (t_alias t = Some n -> t_alias t' = Some n) }.
