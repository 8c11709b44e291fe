(** * IndexSpec: what the lookups of the semantic index must answer. *)

From Verif Require Import Rules.
From Verif Require Import Err Analyzer.

(** What a lookup of the columns [fs] of the table [so.t] answers. *)
Inductive fields_answer (x : schema_t) (so : option ident_t) (tn : ident_t) (fs : list ident_t) (inp : str) : outcome unit -> Prop :=
| fa_schema : schema_missing x (in_schema so) ->
    fields_answer x so tn fs inp (throw_err SchemaNotFound (match so with Some i => id_span i | None => range0 end) inp)
| fa_table : ~ schema_missing x (in_schema so) -> (forall t, In t (tables x) -> table_name t <> (in_schema so, id_str tn)) ->
    fields_answer x so tn fs inp (throw_err TableNotFound (id_span tn) inp)
| fa_column t l1 f l2 : In t (tables x) -> table_name t = (in_schema so, id_str tn) -> fs = l1 ++ f :: l2 ->
    Forall (fun g => In (id_str g) (map col_name (tb_cols t))) l1 -> ~ In (id_str f) (map col_name (tb_cols t)) ->
    fields_answer x so tn fs inp (throw_err ColumnNotFound (id_span f) inp)
| fa_ok t : In t (tables x) -> table_name t = (in_schema so, id_str tn) ->
    Forall (fun g => In (id_str g) (map col_name (tb_cols t))) fs -> fields_answer x so tn fs inp (Ok tt).


(** ** Which end holds the foreign key *)
(** The end of a reference whose columns hold the foreign key, and the other one. *)
Definition key_end (r : indexed_ref) : ref_ident_t := match ir_rel r with One2Many => ir_rhs r | _ => ir_lhs r end.
Definition far_end (r : indexed_ref) : ref_ident_t := match ir_rel r with One2Many => ir_lhs r | _ => ir_rhs r end.
(** The same reference written from its other end. *)
Definition turn_ref (r : indexed_ref) : indexed_ref :=
  mkIndexedRef (ir_span r) (match ir_rel r with One2Many => Many2One | Many2One => One2Many | k => k end) (ir_rhs r) (ir_lhs r) (ir_settings r).
