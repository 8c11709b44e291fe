(** * Report: which error [parse_dbml] reports (specification only).

    A schema can break many rules at once; one fault is reported.  [reports x f] says
    which: the rules are tried in the order written here, the items of a list from
    first to last, and the first fault found is the one reported.  Only the
    vocabulary of [Rules] is used. *)

From Verif Require Export Rules.
From Verif Require Import Err Analyzer.

(** A fault: an error at a place, or a panic. *)
Inductive fault := Fault (e : sem_err) (sp : range) | Crash.
(** A rule finds faults. *)
Definition frule := fault -> Prop.
Definition clean (F : frule) : Prop := forall f, ~ F f.

Definition fault_if (P : Prop) (e : sem_err) (sp : range) : frule := fun f => P /\ f = Fault e sp.
Definition crash_if (P : Prop) : frule := fun f => P /\ f = Crash.
Definition no_fault : frule := fun _ => False.
(** First [F]; then, if that is clean, [G]. *)
Definition followed (F G : frule) : frule := fun f => F f \/ (clean F /\ G f).
Infix ";;" := followed (at level 90, right associativity).
(** The rule for the [a] with [P a] (there is at most one where this is used). *)
Definition such {A} (P : A -> Prop) (R : A -> frule) : frule := fun f => exists a, P a /\ R a f.
Definition on {A} (o : option A) (R : A -> frule) : frule := match o with Some a => R a | None => no_fault end.
(** One item after the other; a rule sees the items before and after its own. *)
Fixpoint each_from {A} (R : list A -> A -> list A -> frule) (before l : list A) : frule :=
  match l with
  | [] => no_fault
  | a :: l' => R before a l' ;; each_from R (before ++ [a]) l'
  end.
Definition each {A} (l : list A) (R : list A -> A -> list A -> frule) : frule := each_from R [] l.

(** An item whose key occurred before. *)
Definition repeated {A B} (key : A -> B) (before : list A) (a : A) : Prop := In (key a) (map key before).
Definition attr_faults (l : list attribute_t) : frule :=
  each l (fun before a _ => fault_if (repeated key_of before a) DuplicateAttributeKey (at_span a)).

(** ** The stages *)
Definition project_faults (x : schema_t) : frule :=
  fault_if (2 <= List.length (projects x))%nat DuplicateProjectSetting (sb_span x) ;;
  fault_if (projects x = []) ProjectSettingNotFound (sb_span x) ;;
  each (projects x) (fun _ p _ =>
    each (pj_properties p) (fun before pr _ => fault_if (repeated prop_name before pr) DuplicatePropertyKey (pr_span pr))).

Definition table_faults (before : list table_t) (t : table_t) : frule :=
  on (tb_settings t) (fun st => attr_faults (ts_attributes st)) ;;
  fault_if (repeated table_name before t) DuplicateTableName (ti_span (tb_ident t)) ;;
  each (tb_cols t) (fun before c _ =>
    on (tc_settings c) (fun st => attr_faults (cs_attributes st)) ;;
    fault_if (repeated col_name before c) DuplicateColumnName (tc_span c)) ;;
  on (ti_alias (tb_ident t)) (fun a => fault_if (In (id_str a) (aliases before)) DuplicateAlias (id_span a)).

Definition enum_faults (before : list enum_t) (e : enum_t) : frule :=
  fault_if (repeated enum_name before e) DuplicateEnumName (ei_span (en_ident e)) ;;
  each (en_values e) (fun before v _ =>
    on (ev_settings v) (fun st => attr_faults (evs_attributes st)) ;;
    fault_if (repeated value_name before v) DuplicateEnumValue (ev_span v)).

Definition group_faults (ts : list table_t) (before : list group_t) (g : group_t) : frule :=
  fault_if (repeated group_name before g) DuplicateTableGroupName (id_span (tg_ident g)) ;;
  each (tg_items g) (fun before it _ =>
    fault_if (forall id, ~ item_denotes ts it id) TableNotFound (gi_span it) ;;
    fault_if (exists it' id, In it' before /\ item_denotes ts it id /\ item_denotes ts it' id)
      DuplicateTableGroupItem (gi_span it)).

Definition col_key_faults (before : list table_col_t) (c : table_col_t) : frule :=
  on (tc_settings c) (fun st =>
    fault_if (cs_is_pk st = true /\ exists c', In c' before /\ pk_col c') DuplicatePrimaryKey (tc_span c) ;;
    fault_if (cs_is_pk st = true /\ cs_nullable st = Some Null) NullablePrimaryKey (tc_span c) ;;
    fault_if (cs_is_pk st = true /\ ct_arrays (tc_type c) <> []) ArrayPrimaryKey (tc_span c) ;;
    fault_if (has_key "null" (cs_attributes st) /\ has_key "not null" (cs_attributes st))
      ConflictNullableSetting (cs_span st)).

Definition index_faults (t : table_t) (ib : indexes_block_t) (before : list indexes_def) (d : indexes_def) : frule :=
  fault_if (idf_cols d = []) EmptyIndexesBlock (ib_span ib) ;;
  each (idf_cols d) (fun _ c _ =>
    match c with
    | ICString i => fault_if (~ In (id_str i) (map col_name (tb_cols t))) ColumnNotFound (id_span i)
    | ICExpr _ => no_fault
    end) ;;
  on (idf_settings d) (fun st =>
    attr_faults (is_attributes st) ;;
    fault_if ((def_pk d /\ def_unique d) \/ (def_pk d /\ def_typed d) \/ (def_unique d /\ def_typed d))
      InvalidIndexesSetting (is_span st)) ;;
  fault_if (pk_again (tb_cols t) before d) DuplicatePrimaryKey (idf_span d) ;;
  fault_if (unique_again (tb_cols t) before d) DuplicateUniqueKey (idf_span d) ;;
  fault_if (index_again before d) DuplicateIndexKey (idf_span d).

Definition key_faults (t : table_t) : frule :=
  each (tb_cols t) (fun before c _ => col_key_faults before c) ;;
  on (tb_indexes t) (fun ib => each (ib_defs ib) (fun before d _ => index_faults t ib before d)).

(** The schema an optional schema name stands for. *)
Definition default_schema (so : option str) : str := match so with Some a => a | None => public end.

(** A default [v], written at [sp], against the type [tn] of its column. *)
Definition default_faults (tn : col_type_name) (ct : col_type_t) (nullable : option nullable_t) (v : value_t) (sp : range) : frule :=
  match v with
  | VString w =>
      crash_if ((fixed_len tn \/ max_len tn) /\ ct_args ct = []) ;;
      fault_if (~ string_fits tn (ct_args ct) w) (InvalidDefaultValue w (ct_raw ct)) sp
  | VInteger z => fault_if (~ int_fits tn z) (DataTypeExceeded (ct_raw ct)) sp
  | VBool b => fault_if (tn <> CT_Bool) (InvalidDefaultValue (s (if b then "true" else "false")) (ct_raw ct)) sp
  | VNull => fault_if (nullable <> Some Null) DefaultNullInNonNullable sp
  | VEnum _ | VDecimal _ | VHexColor _ | VExpr _ => no_fault
  end.
(** The default of a column and where it is written. *)
Definition with_default (c : table_col_t) (R : col_settings_t -> value_t -> range -> frule) : frule :=
  such (fun p : col_settings_t * value_t * range => has_default c (fst (fst p)) (snd (fst p)) /\ default_at (fst (fst p)) (snd p))
    (fun p => R (fst (fst p)) (snd (fst p)) (snd p)).
Definition type_faults (x : schema_t) (c : table_col_t) : frule :=
  let ct := tc_type c in
  such (fun raw => ct_type_name ct = CT_Raw raw) (fun raw =>
    such (builtin raw) (fun tn =>
      fault_if (ct_args ct <> [] /\ List.length (ct_args ct) <> arity tn)
        (InvalidDataTypeArguments raw (N.of_nat (arity tn))) (ct_span ct) ;;
      fault_if (exists v, In v (ct_args ct) /\ ~ int_value v) InvalidArgumentValue (ct_span ct)) ;;
    fault_if (not_builtin raw /\ forall so n, ~ enum_type raw so n) InvalidEnum (ct_span ct) ;;
    such (fun p => not_builtin raw /\ enum_type raw (fst p) (snd p)) (fun p => with_default c (fun st v sp =>
      fault_if (schema_missing x (default_schema (fst p))) SchemaNotFound (ct_span ct) ;;
      fault_if (~ In (default_schema (fst p), snd p) (map enum_name (enums x))) EnumNotFound (ct_span ct) ;;
      fault_if (~ enum_value (enums x) (fst p) (snd p) (value_to_string v)) EnumValueNotFound sp)) ;;
    such (type_means raw) (fun tn => with_default c (fun st v sp => default_faults tn ct (cs_nullable st) v sp))).

(** One end of a reference: its schema, its table, its columns. *)
Definition endpoint_faults (x : schema_t) (r : ref_ident_t) : frule :=
  such (fun p => points_to (tables x) r (fst p) (snd p)) (fun p =>
    fault_if (schema_missing x (default_schema (fst p))) SchemaNotFound
      (match ri_schema r with Some i => id_span i | None => (0, 0) end) ;;
    such (table_span (tables x) r) (fun sp =>
      fault_if (~ In (default_schema (fst p), snd p) (map table_name (tables x))) TableNotFound sp) ;;
    such (fun t => In t (tables x) /\ table_name t = (default_schema (fst p), snd p)) (fun t =>
      each (ri_compositions r) (fun _ i _ =>
        fault_if (~ In (id_str i) (map col_name (tb_cols t))) ColumnNotFound (id_span i)))).

(** The error of a relation between columns that are not keys, and its place. *)
Definition single_fault (i : indexed_ref) : sem_err * range :=
  match ir_rel i with
  | One2One => (InvalidForeignKey FK_One2One, ir_span i)
  | Many2Many => (InvalidForeignKey FK_Many2Many, ir_span i)
  | One2Many => (InvalidForeignKey FK_NeitherUniqueNorPrimary, ri_span (ir_lhs i))
  | _ => (InvalidForeignKey FK_NeitherUniqueNorPrimary, ri_span (ir_rhs i))
  end.
Definition composite_fault (i : indexed_ref) : sem_err * range :=
  match ir_rel i with
  | One2One => (InvalidForeignKey FK_One2OneComposite, ir_span i)
  | Many2Many => (InvalidForeignKey FK_Many2ManyComposite, ir_span i)
  | One2Many => (InvalidForeignKey FK_NeitherUniqueNorPrimaryComposite, ri_span (ir_lhs i))
  | _ => (InvalidForeignKey FK_NeitherUniqueNorPrimaryComposite, ri_span (ir_rhs i))
  end.
Definition pair_faults (i : indexed_ref) (lt rt : table_t) (p : ident_t * ident_t) : frule :=
  such (fun q => names_col lt (fst p) (fst q) /\ names_col rt (snd p) (snd q)) (fun q =>
    fault_if (~ same_type (fst q) (snd q))
      (MismatchedForeignKeyType (id_str (snd p)) (id_str (fst p)) (ct_raw (tc_type (snd q))) (id_raw (fst p))) (ir_span i) ;;
    fault_if (List.length (ri_compositions (ir_lhs i)) = 1%nat /\ ~ single_keys (ir_rel i) (key_col (fst q)) (key_col (snd q)))
      (fst (single_fault i)) (snd (single_fault i))).
Definition ref_faults (x : schema_t) (before : list indexed_ref) (i : indexed_ref) (after : list indexed_ref) : frule :=
  on (ir_settings i) (fun st => attr_faults (rs_attributes st)) ;;
  fault_if (List.length (ri_compositions (ir_lhs i)) <> List.length (ri_compositions (ir_rhs i)))
    MismatchedCompositeForeignKey (ir_span i) ;;
  endpoint_faults x (ir_lhs i) ;;
  endpoint_faults x (ir_rhs i) ;;
  fault_if (forall t, ~ target (tables x) (ir_lhs i) t) TableNotFound (ri_span (ir_lhs i)) ;;
  fault_if (forall t, ~ target (tables x) (ir_rhs i) t) TableNotFound (ri_span (ir_rhs i)) ;;
  such (fun p => target (tables x) (ir_lhs i) (fst p) /\ target (tables x) (ir_rhs i) (snd p)) (fun p =>
    each (combine (ri_compositions (ir_lhs i)) (ri_compositions (ir_rhs i))) (fun _ q _ => pair_faults i (fst p) (snd p) q) ;;
    fault_if ((2 <= List.length (ri_compositions (ir_lhs i)))%nat /\
              ~ composite_keys (ir_rel i) (key_cols (fst p) (endpoint_cols (ir_lhs i))) (key_cols (snd p) (endpoint_cols (ir_rhs i))))
      (fst (composite_fault i)) (snd (composite_fault i))) ;;
  fault_if (ir_rel i = Undef \/ exists o, In o (before ++ after) /\ clashes (tables x) i o) ConflictRelation (ir_span i).

(** ** All of them *)
Definition reports (x : schema_t) : frule :=
  project_faults x ;;
  each (tables x) (fun before t _ => table_faults before t) ;;
  each (enums x) (fun before e _ => enum_faults before e) ;;
  each (table_groups x) (fun before g _ => group_faults (tables x) before g) ;;
  each (tables x) (fun _ t _ => key_faults t) ;;
  each (tables x) (fun _ t _ => each (tb_cols t) (fun _ c _ => type_faults x c)) ;;
  each (all_refs x) (ref_faults x).
