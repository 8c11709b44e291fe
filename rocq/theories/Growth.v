(** * Growth: a schema as a part of a larger one (specification only). *)

From Verif Require Export Err.
From Verif Require Export Validity.
From Verif Require Export Syntax.

(** The errors that say that something is not there. *)
Definition missing (e : sem_err) : Prop :=
  e = ProjectSettingNotFound \/ e = TableNotFound \/ e = SchemaNotFound \/ e = EnumNotFound.

(** An alias declared in [rest] takes over a table name that a reference or an unqualified
    group item of [a] uses. *)
Definition taken_over (a rest : a_schema) : Prop :=
  exists u w, In u (tables_of rest) /\ t_alias u = Some w /\
    ((exists k, In k (links a) /\ (e_table (k_lhs k) = w \/ e_table (k_rhs k) = w)) \/
     (exists g, In g (groups_of a) /\ In (None, w) (g_items g))).

(** [b] says all that [a] says, and maybe more. *)
Definition says_more (a b : a_schema) : Prop := exists rest, Permutation b (a ++ rest) /\ ~ taken_over a rest.
