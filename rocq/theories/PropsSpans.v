(** * PropsSpans: every span is the source of its node.

    [written inp sp R a] (Spans): the bytes [sp] of [inp] are a way of writing [a], by the
    rule [R] of the syntax (Syntax).  [e_col], [e_type], ... read off an AST node what it
    says (Syntax); [all_cols], [all_types], ... list the nodes of an AST (Nodes). *)

From Verif Require Import Samples SynSpan4 Spans.

Theorem C49_block_spans : forall inp x, parse_dbml_unchecked inp = Some (Ok x) ->
  (forall b, In b (sb_blocks x) -> is_ref b = false -> written inp (block_span b) block_text (e_block b)) /\
  (forall n, In n (all_notes x) -> written inp (nb_span n) note (e_note n)).
Proof. intros inp x H. split; [exact (shown_block inp x H)|]. intros n Hn. exact (proj1 (shown_note inp x H n Hn)). Qed.
Print Assumptions C49_block_spans.
Theorem C49_name_spans : forall inp x, parse_dbml_unchecked inp = Some (Ok x) ->
  (forall i, In i (all_idents x) -> written inp (id_span i) name (id_str i)) /\
  (forall i, In i (all_keys x) -> written inp (id_span i) phrase (id_str i)) /\
  (forall t, In t (tables x) ->
    written inp (ti_span (tb_ident t)) decl_name (qualified (ti_schema (tb_ident t)) (ti_name (tb_ident t)))) /\
  (forall e, In e (enums x) ->
    written inp (ei_span (en_ident e)) decl_name (qualified (ei_schema (en_ident e)) (ei_name (en_ident e)))) /\
  (forall g i, In g (table_groups x) -> In i (tg_items g) ->
    written inp (gi_span i) decl_name (qualified (gi_schema i) (gi_ident_alias i))).
Proof.
  intros inp x H.
  exact (conj (shown_ident inp x H) (conj (shown_key inp x H) (conj (shown_table_ident inp x H) (conj (shown_enum_ident inp x H) (shown_item inp x H))))).
Qed.
Print Assumptions C49_name_spans.
Theorem C49_value_spans : forall inp x, parse_dbml_unchecked inp = Some (Ok x) ->
  (forall l, In l (all_values x) -> written inp (lit_span l) value_text (lit_value l)) /\
  (forall n, In n (all_notes x) -> written inp (lit_span (nb_value n)) note_text (e_note n)) /\
  (forall l, In l (all_index_exprs x) -> written inp (lit_span l) index_expr_text (lit_value l)).
Proof.
  intros inp x H. split; [exact (shown_lit inp x H)|]. split; [|exact (shown_expr inp x H)]. intros n Hn. exact (proj2 (shown_note inp x H n Hn)).
Qed.
Print Assumptions C49_value_spans.
Theorem C49_settings_spans : forall inp x, parse_dbml_unchecked inp = Some (Ok x) ->
  (forall sp l, In (sp, l) (plain_settings x) -> written inp sp attrs (map e_attr l)) /\
  (forall st, In st (all_col_settings x) -> written inp (cs_span st) col_settings_r (e_col_settings st)) /\
  (forall a, In a (all_attributes x) -> written inp (at_span a) attr (e_attr a)) /\
  (forall p, In p (all_properties x) -> written inp (pr_span p) property_text (e_prop p)).
Proof.
  intros inp x H. exact (conj (shown_settings inp x H) (conj (shown_col_settings inp x H) (conj (shown_attr inp x H) (shown_prop inp x H)))).
Qed.
Print Assumptions C49_settings_spans.
Theorem C49_table_part_spans : forall inp x, parse_dbml_unchecked inp = Some (Ok x) ->
  (forall c, In c (all_cols x) -> written inp (tc_span c) column (e_col c)) /\
  (forall t, In t (all_types x) -> written inp (ct_span t) type_r (e_type t)) /\
  (forall t ib, In t (tables x) -> tb_indexes t = Some ib -> written inp (ib_span ib) (braces index) (map e_index (ib_defs ib))) /\
  (forall d, In d (all_index_defs x) -> written inp (idf_span d) index (e_index d)) /\
  (forall v, In v (all_enum_values x) ->
    written inp (ev_span v) enum_value_r (id_str (ev_value v), option_map (fun st => map e_attr (evs_attributes st)) (ev_settings v))).
Proof.
  intros inp x H. exact (conj (shown_col inp x H) (conj (shown_type inp x H) (conj (shown_indexes inp x H) (conj (shown_def inp x H) (shown_value inp x H))))).
Qed.
Print Assumptions C49_table_part_spans.
(** The span of a reference block leaves out [Ref] and its name. *)
Theorem C49_reference_spans : forall inp x, parse_dbml_unchecked inp = Some (Ok x) ->
  (forall r, In r (refs x) -> written inp (rb_span r) (ref_body (option_map id_str (rb_name r))) (e_ref r)) /\
  (forall r, In r (all_ref_inlines x) -> written inp (rin_span r) inline (e_inline r)) /\
  (forall r, In r (all_endpoints x) -> written inp (ri_span r) endpoint (e_ref_end r)).
Proof. intros inp x H. exact (conj (shown_ref inp x H) (conj (shown_inline inp x H) (shown_endpoint inp x H))). Qed.
Print Assumptions C49_reference_spans.

Example C49_meets : parse_dbml_unchecked shop = Some (Ok shop_ast) /\
  List.length (sb_blocks shop_ast) = 9%nat /\ List.length (all_idents shop_ast) = 46%nat /\ List.length (all_values shop_ast) = 15%nat /\
  List.length (all_attributes shop_ast) = 23%nat /\ List.length (all_index_defs shop_ast) = 3%nat /\ List.length (all_endpoints shop_ast) = 5%nat.
Proof. split; [exact shop_parsed|]. vm_compute. repeat split. Qed.
(** The last column with its settings, cut out of the text. *)
Example C49_shown : exists c, In c (all_cols shop_ast) /\ slice shop (fst (tc_span c)) (snd (tc_span c)) = Some (s "n bigint [default: 9]").
Proof.
  exists (last (all_cols shop_ast) (hd (mkTableCol (0, 0) (mkIdent (0, 0) [] []) (mkColType (0,0) [] CT_Undef [] []) None) (all_cols shop_ast))).
  split; [|vm_compute; reflexivity]. vm_compute. repeat (first [left; reflexivity|right]).
Qed.
