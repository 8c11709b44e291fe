(** * Faults: what a DBML text writes that the AST cannot hold, in order and in place.

    A specification, independent of the parser model.  It repeats the grammar of
    [Located] once more, and where [Located] says which node is written, it lists the
    misfits written there: integers above [i64::MAX] (in values and type arguments),
    array sizes above [u32::MAX], index types and referential actions that do not exist.
    Each comes with the message it deserves and its extent in bytes; the list is in the
    order of the text. *)

From Verif Require Export Located.

Definition fault : Type := (str * range)%type.
(** Readers of faults. *)
Definition faulty : Type := reader (list fault).

Section Faults.
Variable inp : str.

Definition too_large : str := s "number too large to fit in target type".
Definition value_faults (v : value_t) (sp : range) : list fault :=
  match v with VInteger z => if (z <=? 9223372036854775807)%Z then [] else [(too_large, sp)] | _ => [] end.
Definition size_faults (n : N) (sp : range) : list fault := if n <=? 4294967295 then [] else [(too_large, sp)].
(** Nothing that could be at fault. *)
Definition sound {A} (R : reader A) : faulty := fun i m l => (exists x, R i m x) /\ l = [].
Definition opt_faults (o : option (list fault)) : list fault := match o with Some l => l | None => [] end.

(** ** Settings.  [J k v w]: the value [v] of the setting [k] deserves the messages [w]. *)
Definition judge : Type := str -> value_t -> list str -> Prop.
Definition no_rule : judge := fun k v w => w = [].
Inductive index_rule : judge :=
| index_fine k v : (k = s "type" -> exists t, index_type_word t = value_to_string v) -> index_rule k v []
| index_bad v : (forall t, index_type_word t <> value_to_string v) ->
    index_rule (s "type") v [s "'" ++ value_to_string v ++ s "' type is not supported!"].
Inductive action_rule : judge :=
| action_fine k v : (forall w, In k [s "update"; s "delete"] -> v = VEnum w -> exists x, action_word x = w) -> action_rule k v []
| action_bad k w : In k [s "update"; s "delete"] -> (forall x, action_word x <> w) ->
    action_rule k (VEnum w) [s "invalid referential action"].

Inductive attribute_f (J : judge) : faulty :=
| flag_f i m k : next (key_at inp) i m k -> attribute_f J i m []
| valued_f i m1 m2 m k v ws : next (key_at inp) i m1 k -> tok (s ":") m1 m2 -> attr_value_at m2 m v -> J (id_str k) v ws ->
    attribute_f J i m (value_faults v (span inp m2 m) ++ map (fun w => (w, span inp i m)) ws).
Definition settings_f (J : judge) : faulty := fun i m l => exists ls, list_at "[" "]" (attribute_f J) i m ls /\ l = List.concat ls.

(** ** Column types *)
(** Arguments, after the opening parenthesis. *)
Inductive args_f : faulty :=
| args_last raw v m : arg_text raw v ->
    args_f (raw ++ s ")" ++ m) m (value_faults v (span inp (raw ++ s ")" ++ m) (s ")" ++ m)))
| args_next raw v i m l : arg_text raw v -> args_f i m l ->
    args_f (raw ++ s "," ++ i) m (value_faults v (span inp (raw ++ s "," ++ i) (s "," ++ i)) ++ l).
Inductive arguments_f : faulty :=
| no_arguments m : arguments_f m m []
| empty_arguments m : arguments_f (s "()" ++ m) m []
| some_arguments i m l : args_f i m l -> arguments_f (s "(" ++ i) m l.
Inductive dims_f : faulty :=
| no_dims m : dims_f m m []
| open_dim i m l : dims_f i m l -> dims_f (s "[]" ++ i) m l
| sized_dim d i m l : digits d -> dims_f i m l ->
    dims_f (s "[" ++ d ++ s "]" ++ i) m (size_faults (digits_value 0 d) (span inp (d ++ s "]" ++ i) (s "]" ++ i)) ++ l).
Inductive type_parts_f : faulty :=
| bare_parts p np b i m1 m l1 l2 : prefix_r p np -> word b -> arguments_f i m1 l1 -> dims_f m1 m l2 ->
    type_parts_f (p ++ b ++ i) m (l1 ++ l2)
| quoted_parts p np b i m1 m2 m l1 l2 l3 : prefix_r p np -> spaced_word b -> arguments_f i m1 l1 -> dims_f m1 (dq ++ m2) l2 ->
    dims_f m2 m l3 -> (p = [] -> no_schema (dq ++ b ++ i)) -> type_parts_f (p ++ dq ++ b ++ i) m (l1 ++ l2 ++ l3).
Definition type_f : faulty := fun i m l =>
  (exists raw ty, i = raw ++ m /\ type_raw raw ty /\ no_merge raw m /\ no_dim m) /\ type_parts_f i m l.

(** ** Tables *)
Definition col_item_f : faulty := fun i m l => attribute_f no_rule i m l \/ sound (inline_at inp) i m l.
Definition col_settings_f : faulty := fun i m l => exists ls, list_at "[" "]" col_item_f i m ls /\ l = List.concat ls.
Inductive column_f : faulty :=
| column_faults i m1 m n l o : next (ident_at inp) i m1 n -> tail_at type_f col_settings_f m1 m l o ->
    column_f i m (l ++ opt_faults o).
Inductive index_f : faulty :=
| index_single_f i m c o : tail_at (index_col_at inp) (settings_f index_rule) i m c o -> index_f i m (opt_faults o)
| index_multi_f i m l o : tail_at (list_at "(" ")" (index_col_at inp)) (settings_f index_rule) i m l o -> index_f i m (opt_faults o).
Inductive indexes_f : faulty :=
| indexes_faults i m1 m ls : kw "Indexes" i m1 -> braces_at index_f m1 m ls -> indexes_f i m (List.concat ls).
Definition table_item_f : faulty := fun i m l => column_f i m l \/ sound (note_at inp) i m l \/ indexes_f i m l.
Inductive table_f : faulty :=
| table_faults i m1 m2 m3 m4 m5 m d al o ls : kw "Table " i m1 -> decl_at inp m1 m2 d -> lay m2 m3 ->
    maybe (next (alias_at inp)) m3 m4 al -> maybe (next (settings_f no_rule)) m4 m5 o -> braces_at table_item_f m5 m ls ->
    table_f i m (opt_faults o ++ List.concat ls).

(** ** Enums, groups, projects, references *)
Inductive enum_value_f : faulty :=
| enum_value_faults i m v o : tail_at (ident_at inp) (settings_f no_rule) i m v o -> enum_value_f i m (opt_faults o).
Inductive enum_f : faulty :=
| enum_faults i m1 m2 m3 m d ls : kw "Enum " i m1 -> decl_at inp m1 m2 d -> lay m2 m3 -> braces_at enum_value_f m3 m ls ->
    enum_f i m (List.concat ls).
Inductive group_f : faulty :=
| group_faults i m1 m2 m3 m n o ls : kw "TableGroup " i m1 -> next (ident_at inp) m1 m2 n ->
    maybe (next (settings_f no_rule)) m2 m3 o -> braces_at (group_part_at inp) m3 m ls -> group_f i m (opt_faults o).
Inductive property_f : faulty :=
| property_faults i m1 m2 m k v : next (key_at inp) i m1 k -> tok (s ":") m1 m2 -> plain_value_at m2 m v ->
    ~ (any_case (id_str k) (s "note") /\ exists w, v = VString w) -> property_f i m (value_faults v (span inp m2 m)).
Definition project_item_f : faulty := fun i m l => sound (note_at inp) i m l \/ property_f i m l.
Inductive project_f : faulty :=
| project_faults i m1 m2 m n ls : kw "Project " i m1 -> next (ident_at inp) m1 m2 n -> braces_at project_item_f m2 m ls ->
    project_f i m (List.concat ls).
Inductive stmt_f : faulty :=
| stmt_faults i m1 m2 m x a b o : next (endpoint_at inp) i m1 a -> next rel_at m1 m2 x ->
    tail_at (endpoint_at inp) (settings_f action_rule) m2 m b o -> stmt_f i m (opt_faults o).
Inductive reference_f : faulty :=
| reference_colon_f i m1 m2 m3 m n l : kw "Ref" i m1 -> maybe (next (ident_at inp)) m1 m2 n -> tok (s ":") m2 m3 ->
    stmt_f m3 m l -> reference_f i m l
| reference_braces_f i m1 m2 m3 m n l : kw "Ref" i m1 -> maybe (next (ident_at inp)) m1 m2 n -> tok (s "{") m2 m3 ->
    next stmt_f m3 (s "}" ++ m) l -> reference_f i m l.

(** ** Whole texts *)
Definition top_f : faulty := fun i m l =>
  project_f i m l \/ table_f i m l \/ group_f i m l \/ sound (note_at inp) i m l \/ reference_f i m l \/ enum_f i m l.
End Faults.

(** [faults inp l]: [inp] is a DBML text and [l] is everything in it that does not fit. *)
Definition faults (inp : str) (l : list fault) : Prop :=
  exists m ls, lay inp m /\ many (next (top_f inp)) m [] ls /\ l = List.concat ls.
