(** * Limits: the numbers and words a schema writes (specification only). *)

From Verif Require Export Err.
From Verif Require Export Syntax.

(** The values of a list of settings. *)
Definition values_in (l : list a_attr) : list value_t := flat_map (fun a => match snd a with Some v => [v] | None => [] end) l.
Definition opt_values (o : option (list a_attr)) : list value_t := match o with Some l => values_in l | None => [] end.
Definition col_values (c : a_col) : list value_t :=
  y_args (c_type c) ++ match c_settings c with Some st => values_in (s_attrs st) | None => [] end.
(** Every value written in a block: setting values, type arguments, project properties. *)
Definition block_values (b : a_block) : list value_t :=
  match b with
  | AProject p => map snd (p_props p)
  | ATable t => opt_values (t_settings t) ++ flat_map col_values (t_cols t) ++
                flat_map (fun x => opt_values (x_settings x)) (List.concat (t_indexes t))
  | AGroup g => opt_values (g_settings g)
  | ANote _ => []
  | ARef f => opt_values (f_settings f)
  | AEnum e => flat_map (fun x => opt_values (snd x)) (m_values e)
  end.
Definition values_of (a : a_schema) : list value_t := flat_map block_values a.
(** Every array size written. *)
Definition block_sizes (b : a_block) : list N :=
  match b with
  | ATable t => flat_map (fun c => flat_map (fun o => match o with Some n => [n] | None => [] end) (y_dims (c_type c))) (t_cols t)
  | _ => []
  end.
Definition sizes_of (a : a_schema) : list N := flat_map block_sizes a.
(** Every setting of an index, and of a reference. *)
Definition index_settings_of (a : a_schema) : list a_attr :=
  flat_map (fun b => match b with
    | ATable t => flat_map (fun x => match x_settings x with Some l => l | None => [] end) (List.concat (t_indexes t))
    | _ => [] end) a.
Definition ref_settings_of (a : a_schema) : list a_attr :=
  flat_map (fun b => match b with ARef f => match f_settings f with Some l => l | None => [] end | _ => [] end) a.

(** The parse fails, with a message of the parser. *)
Definition fails (r : option (outcome schema_t)) : Prop := exists m sp, r = Some (Err (ErMsg m sp)).
