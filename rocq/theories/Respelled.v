(** * Respelled: the same references and group items, spelled differently.

    Specification only: relations between what two texts say (see [Syntax]). *)

From Verif Require Export Variants Validity Syntax.

(** [e] names a table of [ts] by its alias, [e'] the same table by its schema and
    name, where the table is declared with that schema and nothing has its name as
    an alias.  (The schema in front of an alias is not looked at.) *)
Definition alias_and_name (ts : list a_table) (e e' : a_end) : Prop :=
  e_cols e = e_cols e' /\
  exists t sc, In t ts /\ t_schema t = Some sc /\ t_alias t = Some (e_table e) /\
    e_schema e' = Some sc /\ e_table e' = t_name t /\ ~ In (t_name t) (taliases ts).
Definition end_respelled (ts : list a_table) (e e' : a_end) : Prop :=
  e = e' \/ alias_and_name ts e e' \/ alias_and_name ts e' e.

(** One group item, or two that stand for one table. *)
Definition item_respelled (ts : list a_table) (i i' : option str * str) : Prop :=
  i = i' \/ exists p, item_is ts i p /\ item_is ts i' p.

Definition col_respelled (ts : list a_table) (c c' : a_col) : Prop :=
  c_name c = c_name c' /\ c_type c = c_type c' /\
  match c_settings c, c_settings c' with
  | Some x, Some y => s_attrs x = s_attrs y /\
      Forall2 (fun r r' => fst r = fst r' /\ end_respelled ts (snd r) (snd r')) (s_refs x) (s_refs y)
  | None, None => True
  | _, _ => False
  end.

Inductive block_respelled (ts : list a_table) : a_block -> a_block -> Prop :=
| br_same b : block_respelled ts b b
| br_ref n x l r l' r' st : end_respelled ts l l' -> end_respelled ts r r' ->
    block_respelled ts (ARef (mkARef n x l r st)) (ARef (mkARef n x l' r' st))
| br_table t cols : Forall2 (col_respelled ts) (t_cols t) cols -> block_respelled ts (ATable t) (ATable (with_cols t cols))
| br_group n st ns l l' : Forall2 (item_respelled ts) l l' ->
    block_respelled ts (AGroup (mkAGroup n st ns l)) (AGroup (mkAGroup n st ns l')).
Definition respelled_text (a b : a_schema) : Prop := Forall2 (block_respelled (tables_of a)) a b.
