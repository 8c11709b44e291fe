(** * Renaming: other names for enums, their values and table groups (specification only).

    Over the meanings of [Syntax]; [Variants] renames schemas, tables and columns. *)

From Verif Require Import Rules.
From Verif Require Export Validity.
From Verif Require Export Variants.
From Verif Require Export Syntax.

Section Names.
  (** Schemas, enums, enum values and table groups. *)
  Variables rs re rv rg : str -> str.
  (** Types: built-in ones stay; [name] and [schema.name] are enums. *)
  Inductive type_renamed (raw : str) : str -> Prop :=
  | ty_builtin tn : builtin raw tn -> type_renamed raw raw
  | ty_plain : not_builtin raw -> ~ In 46 raw -> type_renamed raw (re raw)
  | ty_qualified a b : raw = a ++ s "." ++ b -> ~ In 46 a -> ~ In 46 b -> type_renamed raw (rs a ++ s "." ++ re b)
  | ty_other : not_builtin raw -> (forall so n, ~ enum_type raw so n) -> type_renamed raw raw.
  (** Default values of enum columns: a value can be a word or a quoted one. *)
  Definition named (v : value_t) (w : str) : Prop := v = VEnum w \/ v = VString w.
  Inductive value_renamed : value_t -> value_t -> Prop :=
  | vr_name v v' w : named v w -> named v' (rv w) -> value_renamed v v'
  | vr_other v : rv (value_to_string v) = value_to_string v -> value_renamed v v.
  Inductive attr_renamed : a_attr -> a_attr -> Prop :=
  | ar_default v v' : value_renamed v v' -> attr_renamed (s "default", Some v) (s "default", Some v')
  | ar_other a : (forall v, a <> (s "default", Some v)) -> attr_renamed a a.
  Inductive set_renamed : option a_col_settings -> option a_col_settings -> Prop :=
  | se_none : set_renamed None None
  | se_some l l' refs : Forall2 attr_renamed l l' -> set_renamed (Some (mkColSet l refs)) (Some (mkColSet l' refs)).
  Inductive col_renamed : a_col -> a_col -> Prop :=
  | cr_builtin n raw tn args dims st : builtin raw tn -> col_renamed (mkCol n (mkType (CT_Raw raw) args dims) st) (mkCol n (mkType (CT_Raw raw) args dims) st)
  | cr_enum n raw raw' args dims st st' : not_builtin raw -> type_renamed raw raw' -> set_renamed st st' ->
      col_renamed (mkCol n (mkType (CT_Raw raw) args dims) st) (mkCol n (mkType (CT_Raw raw') args dims) st').
  Inductive block_renamed : a_block -> a_block -> Prop :=
  | br_table sc n al st cols cols' ns ixs : Forall2 col_renamed cols cols' ->
      block_renamed (ATable (mkATable sc n al st cols ns ixs)) (ATable (mkATable sc n al st cols' ns ixs))
  | br_enum sc n vs : block_renamed (AEnum (mkAEnum sc n vs)) (AEnum (mkAEnum (option_map rs sc) (re n) (map (fun v => (rv (fst v), snd v)) vs)))
  | br_group n st ns l : block_renamed (AGroup (mkAGroup n st ns l)) (AGroup (mkAGroup (rg n) st ns l))
  | br_project p : block_renamed (AProject p) (AProject p)
  | br_note v : block_renamed (ANote v) (ANote v)
  | br_ref r : block_renamed (ARef r) (ARef r).
  Definition names_renamed (a b : a_schema) : Prop := Forall2 block_renamed a b.
End Names.

(** [f] keeps what is said about a name. *)
Definition keeps (P : str -> Prop) (f : str -> str) : Prop := forall w, P w <-> P (f w).
(** New names of enums are not those of built-in types; a dot separates schema and enum. *)
Definition enum_names (rs re : str -> str) : Prop :=
  rs (s "public") = s "public" /\ keeps (In 46) rs /\ keeps (In 46) re /\ keeps not_builtin re.
