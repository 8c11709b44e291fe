(** * PropsTableRefs: what [get_table_refs] says of all tables of a schema together.

    [all_refs x] are the references of a schema, [target ts e t] says that the endpoint [e]
    denotes the table [t] (both in [Rules]). *)

From Verif Require Import Rules IndexSpec TableRefs Samples.
From Verif Require Import Err Analyzer Api.

(** ** C80 *)
(** A reference from a table to itself is listed there, and only there; any other one at the
    table it is written from as outgoing, at the table it leads to as incoming, and nowhere else. *)
Theorem C80_each_reference : forall x an r, analyze x = Ok an -> In r (all_refs x) ->
  exists tl tr, target (tables x) (ir_lhs r) tl /\ target (tables x) (ir_rhs r) tr /\
  forall t, In t (tables x) ->
    (In r (tr_ref_self (get_table_refs (tb_ident t) an)) <-> t = tl /\ t = tr) /\
    (In r (tr_ref_to (get_table_refs (tb_ident t) an)) <-> t = tl /\ t <> tr) /\
    (In r (tr_ref_by (get_table_refs (tb_ident t) an)) <-> t <> tl /\ t = tr).
Proof. intros x an r H. exact (each_once x an H r). Qed.
Print Assumptions C80_each_reference.
(** As many outgoing (or own) entries as references, and as many incoming (or own) ones. *)
Theorem C80_outgoing : forall x an, analyze x = Ok an ->
  list_sum (map (fun t => List.length (tr_ref_self (get_table_refs (tb_ident t) an) ++ tr_ref_to (get_table_refs (tb_ident t) an))) (tables x))
  = List.length (all_refs x).
Proof. intros x an H. rewrite <- (count_lhs x an H). unfold total. rewrite map_map. reflexivity. Qed.
Print Assumptions C80_outgoing.
Theorem C80_incoming : forall x an, analyze x = Ok an ->
  list_sum (map (fun t => List.length (tr_ref_self (get_table_refs (tb_ident t) an) ++ tr_ref_by (get_table_refs (tb_ident t) an))) (tables x))
  = List.length (all_refs x).
Proof. intros x an H. rewrite <- (count_rhs x an H). unfold total. rewrite map_map. reflexivity. Qed.
Print Assumptions C80_incoming.
(** Nothing is listed for a name no table is declared by (an omitted schema is not [public] here). *)
Theorem C80_undeclared : forall x an tid, analyze x = Ok an ->
  (forall t, In t (tables x) -> (option_map id_str (ti_schema (tb_ident t)), id_str (ti_name (tb_ident t))) <>
    (option_map id_str (ti_schema tid), id_str (ti_name tid))) ->
  get_table_refs tid an = mkTableRef [] [] [].
Proof. intros x an tid H. exact (undeclared x an H tid). Qed.
Print Assumptions C80_undeclared.

Example C80_meets : exists an, analyze (ast_of family) = Ok an /\ List.length (all_refs (ast_of family)) = 3%nat /\
  map (fun t => let tr := get_table_refs (tb_ident t) an in
    (List.length (tr_ref_self tr), List.length (tr_ref_to tr), List.length (tr_ref_by tr))) (tables (ast_of family))
  = [(1, 1, 1); (0, 1, 1)]%nat.
Proof. eexists. split; [vm_compute; reflexivity|]. split; vm_compute; reflexivity. Qed.
(** The documentation's example asks for [public.users]: of a table declared as [users] nothing is found. *)
Example C80_public : exists an t, analyze (ast_of family) = Ok an /\ In t (tables (ast_of family)) /\
  tr_ref_to (get_table_refs (tb_ident t) an) <> [] /\
  get_table_refs (mkTableIdent (0, 0) (ti_name (tb_ident t)) (Some (mkIdent (0, 0) public public)) None) an = mkTableRef [] [] [].
Proof. eexists. eexists. split; [vm_compute; reflexivity|]. split; [vm_compute; left; reflexivity|]. split; [vm_compute; discriminate|vm_compute; reflexivity]. Qed.

(** ** C81 *)
(** As documented: what a table points to is what its fields are foreign keys for. *)
Theorem C81_ref_to_refuted :
  ~ (forall x an t r, analyze x = Ok an -> In t (tables x) -> In r (tr_ref_to (get_table_refs (tb_ident t) an)) -> target (tables x) (key_end r) t).
Proof. exact ref_to_refuted. Qed.
Print Assumptions C81_ref_to_refuted.
(** What holds: the foreign keys a table has to other tables are the [>] among its outgoing and the [<] among
    its incoming references, and the foreign keys to it are the [<] among the outgoing and the [>] among the incoming. *)
Theorem C81_foreign_keys_partial : forall x an t r, analyze x = Ok an -> In t (tables x) -> In r (all_refs x) ->
  ir_rel r = Many2One \/ ir_rel r = One2Many ->
  (target (tables x) (key_end r) t /\ ~ target (tables x) (far_end r) t <->
   In r (tr_ref_to (get_table_refs (tb_ident t) an)) /\ ir_rel r = Many2One \/
   In r (tr_ref_by (get_table_refs (tb_ident t) an)) /\ ir_rel r = One2Many) /\
  (target (tables x) (far_end r) t /\ ~ target (tables x) (key_end r) t <->
   In r (tr_ref_by (get_table_refs (tb_ident t) an)) /\ ir_rel r = Many2One \/
   In r (tr_ref_to (get_table_refs (tb_ident t) an)) /\ ir_rel r = One2Many).
Proof. exact foreign_keys. Qed.
Print Assumptions C81_foreign_keys_partial.
(** Turning all references round exchanges outgoing and incoming ones. *)
Theorem C81_turned_partial : forall x y an an' tid, analyze x = Ok an -> analyze y = Ok an' -> tables y = tables x -> all_refs y = map turn_ref (all_refs x) ->
  tr_ref_self (get_table_refs tid an') = map turn_ref (tr_ref_self (get_table_refs tid an)) /\
  tr_ref_to (get_table_refs tid an') = map turn_ref (tr_ref_by (get_table_refs tid an)) /\
  tr_ref_by (get_table_refs tid an') = map turn_ref (tr_ref_to (get_table_refs tid an)).
Proof. exact turned_refs. Qed.
Print Assumptions C81_turned_partial.
Definition forth : str := prj "Table t { a int [pk] } Table u { c int } Ref: t.a < u.c".
Definition back : str := prj "Table t { a int [pk] } Table u { c int } Ref: u.c > t.a".
Example C81_meets : exists an an' t, analyze (ast_of forth) = Ok an /\ analyze (ast_of back) = Ok an' /\
  In t (tables (ast_of forth)) /\ List.length (tr_ref_to (get_table_refs (tb_ident t) an)) = 1%nat /\
  List.length (tr_ref_to (get_table_refs (tb_ident t) an')) = 0%nat /\ List.length (tr_ref_by (get_table_refs (tb_ident t) an')) = 1%nat.
Proof. do 3 eexists. split; [vm_compute; reflexivity|]. split; [vm_compute; reflexivity|]. split; [vm_compute; left; reflexivity|]. split; [|split]; vm_compute; reflexivity. Qed.
