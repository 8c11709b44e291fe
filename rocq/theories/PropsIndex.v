(** * PropsIndex: the index built by the semantic check answers lookups exactly. *)

From Verif Require Import Rules IndexSpec IndexOk Samples.
From Verif Require Import Err Analyzer Api.

(** ** C67 *)
Theorem C67_references : forall x an, analyze x = Ok an -> indexed_refs an = all_refs x.
Proof. exact index_refs. Qed.
Print Assumptions C67_references.
Theorem C67_tables : forall x an, analyze x = Ok an -> forall sch n,
  contains_table (an_indexer an) sch n = true <-> exists t, In t (tables x) /\ table_name t = (sch, n).
Proof. exact index_contains_table. Qed.
Print Assumptions C67_tables.
Theorem C67_enums : forall x an, analyze x = Ok an -> forall sch n,
  contains_enum (an_indexer an) sch n = true <-> exists e, In e (enums x) /\ enum_name e = (sch, n).
Proof. exact index_contains_enum. Qed.
Print Assumptions C67_enums.
Theorem C67_aliases : forall x an, analyze x = Ok an -> forall a p,
  resolve_alias (an_indexer an) a = Some p <-> exists t, In t (tables x) /\ alias_of t = Some a /\ table_name t = p.
Proof. exact index_alias. Qed.
Print Assumptions C67_aliases.
Theorem C67_endpoints : forall x an, analyze x = Ok an -> forall r,
  points_to (tables x) r (option_map id_str (ri_schema (resolve_ref_alias (an_indexer an) r)))
    (id_str (ri_table (resolve_ref_alias (an_indexer an) r))) /\
  ri_span (resolve_ref_alias (an_indexer an) r) = ri_span r /\
  ri_compositions (resolve_ref_alias (an_indexer an) r) = ri_compositions r.
Proof. exact index_endpoint. Qed.
Print Assumptions C67_endpoints.
Theorem C67_enum_values : forall x an, analyze x = Ok an -> forall so n vals,
  let sch := match so with Some a => a | None => public end in
  exists h e l, lookup_enum_values (an_indexer an) so n vals = (h, (e, l)) /\
    (h = true <-> ~ schema_missing x sch) /\
    (e = true <-> exists d, In d (enums x) /\ enum_name d = (sch, n)) /\
    Forall2 (fun v b => b = true <-> Rules.enum_value (enums x) so n v) vals l.
Proof. exact index_lookup_values. Qed.
Print Assumptions C67_enum_values.
Theorem C67_fields : forall x an, analyze x = Ok an -> forall so tn fs inp,
  fields_answer x so tn fs inp (lookup_table_fields (an_indexer an) so tn fs inp).
Proof. exact index_fields. Qed.
Print Assumptions C67_fields.
Theorem C67_groups : forall x an, analyze x = Ok an -> forall k p,
  (exists ids, map_get (table_group_map (an_indexer an)) k = Some ids /\ In p ids) <->
  (exists g it, In g (table_groups x) /\ group_name g = k /\ In it (tg_items g) /\ item_denotes (tables x) it p).
Proof. exact index_groups. Qed.
Print Assumptions C67_groups.
Example C67_meets : exists an, analyze shop_ast = Ok an /\
  List.length (indexed_refs an) = 3%nat /\
  map (fun t => contains_table (an_indexer an) (fst (table_name t)) (snd (table_name t))) (tables shop_ast) = [true; true; true] /\
  contains_table (an_indexer an) (s "core") (s "posts") = false /\
  contains_enum (an_indexer an) (s "public") (s "job_role") = true /\
  resolve_alias (an_indexer an) (s "U") = Some (s "core", s "users") /\ resolve_alias (an_indexer an) (s "users") = None /\
  lookup_enum_values (an_indexer an) None (s "job_role") [s "guest"; s "boss"] = (true, (true, [true; false])) /\
  lookup_enum_values (an_indexer an) (Some (s "core")) (s "job_role") [s "guest"] = (true, (false, [false])) /\
  map_get (table_group_map (an_indexer an)) (s "g1") <> None.
Proof. eexists. split; [vm_compute; reflexivity|]. repeat split; vm_compute; try reflexivity. discriminate. Qed.
