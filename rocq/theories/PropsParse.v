(** * PropsParse: the properties of parsing.

    Nothing but statements, examples that meet their hypotheses, and assumption
    audits.  [parse_dbml_unchecked] and [parse_dbml] are the two entry points
    (src/lib.rs); [None] would mean that the parser runs forever, [Some Panic] that
    it panics.  The vocabulary is in [Layout], [TextSpec], [AstSpec], [Nodes]. *)

From Verif Require Import F64Spec F64Ok DecOk.
From Verif Require Import Layout Nodes Err Api Samples ParseFacts ParseFacts2 NodesOk Refuted.

(** ** C01 *)
Theorem C01_parsing_returns : forall inp, exists o, parse_dbml_unchecked inp = Some o /\ o <> Panic.
Proof. exact unchecked_total. Qed.
Print Assumptions C01_parsing_returns.

(** ** C03 *)
Theorem C03_same_ast : forall inp x, parse_dbml inp = Some (Ok x) -> parse_dbml_unchecked inp = Some (Ok x).
Proof. exact checked_same. Qed.
Print Assumptions C03_same_ast.
Theorem C03_same_error : forall inp e, parse_dbml_unchecked inp = Some (Err e) -> parse_dbml inp = Some (Err e).
Proof. exact checked_err. Qed.
Print Assumptions C03_same_error.
Theorem C03_otherwise_semantic : forall inp x e,
  parse_dbml_unchecked inp = Some (Ok x) -> parse_dbml inp = Some (Err e) -> exists k sp, e = ErSem k sp.
Proof. exact checked_sem_err. Qed.
Print Assumptions C03_otherwise_semantic.
Example C03_accepts : parse_dbml shop = Some (Ok shop_ast).
Proof. exact shop_ok. Qed.
Example C03_grammar : parse_dbml_unchecked (s "Table {") = Some (Err ErGrammar).
Proof. vm_compute. reflexivity. Qed.
Example C03_semantic : exists x, parse_dbml_unchecked (s "Table t { a int }") = Some (Ok x) /\
  parse_dbml (s "Table t { a int }") = Some (Err (ErSem ProjectSettingNotFound (0, 17))).
Proof. eexists. split; vm_compute; reflexivity. Qed.

(** ** C04 *)
Theorem C04_spans_are_slices : forall inp x, parse_dbml_unchecked inp = Some (Ok x) ->
  forall sp, In sp (all_spans x) -> valid_span inp sp /\ exists t, slice inp (fst sp) (snd sp) = Some t.
Proof. exact p_spans. Qed.
Print Assumptions C04_spans_are_slices.
Example C04_meets : parse_dbml_unchecked shop = Some (Ok shop_ast) /\ List.length (all_spans shop_ast) = 190%nat.
Proof. split; [exact shop_parsed|vm_compute; reflexivity]. Qed.
(** Multi-byte text: offsets count bytes and still fall on characters. *)
Example C04_multibyte :
  let inp := s "Enum e { " ++ [34; 233; 28450; 128512; 34] ++ s " b }" in
  exists x, parse_dbml_unchecked inp = Some (Ok x) /\ In (9, 20) (all_spans x) /\
    slice inp 9 20 = Some [34; 233; 28450; 128512; 34] /\ slice inp 11 20 = None.
Proof. eexists. split; [vm_compute; reflexivity|]. split; [|split; vm_compute; reflexivity]. vm_compute. tauto. Qed.

(** ** C05 *)
Theorem C05_raw_is_source : forall inp x, parse_dbml_unchecked inp = Some (Ok x) ->
  (forall i, In i (all_idents x ++ all_keys x) -> slice inp (fst (id_span i)) (snd (id_span i)) = Some (id_raw i)) /\
  (forall l, In l (all_literals x ++ all_index_exprs x) -> slice inp (fst (lit_span l)) (snd (lit_span l)) = Some (lit_raw l)) /\
  (forall t, In t (all_types x) -> slice inp (fst (ct_span t)) (snd (ct_span t)) = Some (ct_raw t)).
Proof. exact p_raw. Qed.
Print Assumptions C05_raw_is_source.
Example C05_meets : parse_dbml_unchecked shop = Some (Ok shop_ast) /\
  List.length (all_idents shop_ast ++ all_keys shop_ast) = 70%nat /\
  List.length (all_literals shop_ast ++ all_index_exprs shop_ast) = 19%nat /\ List.length (all_types shop_ast) = 15%nat.
Proof. split; [exact shop_parsed|vm_compute; auto]. Qed.

(** ** C06 *)
Theorem C06_parts_lie_inside : forall inp x, parse_dbml_unchecked inp = Some (Ok x) ->
  forall a b, part_of x a b -> inside a b.
Proof. exact (fun inp x P => n_part inp x (unchecked_ok inp x P)). Qed.
Print Assumptions C06_parts_lie_inside.
Theorem C06_parts_are_in_order : forall inp x, parse_dbml_unchecked inp = Some (Ok x) ->
  forall l, sequence x l -> one_after_the_other l.
Proof. exact (fun inp x P => n_sequence inp x (unchecked_ok inp x P)). Qed.
Print Assumptions C06_parts_are_in_order.
Example C06_meets : parse_dbml_unchecked shop = Some (Ok shop_ast) /\
  List.length (map block_span (sb_blocks shop_ast)) = 9%nat /\ sequence shop_ast (map block_span (sb_blocks shop_ast)) /\
  forall c, In c (all_cols shop_ast) -> part_of shop_ast (ct_span (tc_type c)) (tc_span c).
Proof.
  split; [exact shop_parsed|]. split; [vm_compute; reflexivity|]. split; [constructor|]. intros c Hc. apply (po_col _ _ _ Hc). cbn. auto.
Qed.

(** ** C07 *)
Theorem C07_whole_input : forall inp x, parse_dbml_unchecked inp = Some (Ok x) ->
  sb_input x = inp /\ sb_span x = (0, blen inp).
Proof. exact (fun inp x P => let K := unchecked_ok inp x P in conj (proj1 K) (proj1 (proj2 K))). Qed.
Print Assumptions C07_whole_input.
Example C07_meets : parse_dbml_unchecked shop = Some (Ok shop_ast) /\ sb_span shop_ast = (0, 947).
Proof. split; [exact shop_parsed|vm_compute; reflexivity]. Qed.

(** ** C08 *)
Theorem C08_identifiers : forall inp x, parse_dbml_unchecked inp = Some (Ok x) ->
  forall i, In i (all_idents x) -> ident_text (id_raw i) (id_str i).
Proof. exact p_ident. Qed.
Print Assumptions C08_identifiers.
Theorem C08_attribute_keys : forall inp x, parse_dbml_unchecked inp = Some (Ok x) ->
  forall i, In i (all_keys x) -> spaced_word (id_raw i) /\ id_str i = id_raw i.
Proof. exact p_key. Qed.
Print Assumptions C08_attribute_keys.
Example C08_meets : parse_dbml_unchecked shop = Some (Ok shop_ast) /\
  (exists i, In i (all_idents shop_ast) /\ id_raw i = s """title text""" /\ id_str i = s "title text") /\
  (exists i, In i (all_keys shop_ast) /\ id_raw i = s "primary key").
Proof.
  split; [exact shop_parsed|].
  assert (E1 : find (fun i => str_eqb (id_raw i) (s """title text""")) (all_idents shop_ast)
               = Some (mkIdent (537, 549) (s """title text""") (s "title text"))) by (vm_compute; reflexivity).
  assert (E2 : find (fun i => str_eqb (id_raw i) (s "primary key")) (all_keys shop_ast)
               = Some (mkIdent (491, 502) (s "primary key") (s "primary key"))) by (vm_compute; reflexivity).
  split; [apply find_some in E1 as [H _]|apply find_some in E2 as [H _]]; eexists; (split; [exact H|vm_compute; auto]).
Qed.

(** ** C09 *)

(** The full property fails: leading white space and comments inside quotes are lost. *)
Theorem C09_strings_verbatim_refuted :
  ~ (forall inp x l v, parse_dbml_unchecked inp = Some (Ok x) -> In l (all_literals x) -> lit_value l = VString v ->
     exists q, In q [sq; tq; dq] /\ lit_raw l = q ++ v ++ q).
Proof. exact C09_strings_verbatim_refuted_w. Qed.
Print Assumptions C09_strings_verbatim_refuted.
Theorem C09_strings_partial : forall inp x, parse_dbml_unchecked inp = Some (Ok x) ->
  forall l v, In l (all_literals x) -> lit_value l = VString v -> exists q, In q [sq; tq; dq] /\ quoted q (lit_raw l) v.
Proof. exact p_string. Qed.
Print Assumptions C09_strings_partial.
Theorem C09_expressions_partial : forall inp x, parse_dbml_unchecked inp = Some (Ok x) ->
  (forall l v, In l (all_literals x) -> lit_value l = VExpr v -> quoted bq (lit_raw l) v) /\
  (forall l, In l (all_index_exprs x) -> exists v, lit_value l = VString v /\ quoted bq (lit_raw l) v).
Proof. exact (fun inp x P => conj (p_expr inp x P) (p_index_expr inp x P)). Qed.
Print Assumptions C09_expressions_partial.
(** Verbatim unless the quoted text begins with white space or a comment. *)
Theorem C09_verbatim_partial : forall inp x, parse_dbml_unchecked inp = Some (Ok x) ->
  forall l v, In l (all_literals x) -> lit_value l = VString v \/ lit_value l = VExpr v ->
  exists q body, In q [sq; tq; dq; bq] /\ lit_raw l = q ++ body ++ q /\ (no_layout_start body -> v = body).
Proof. exact p_verbatim. Qed.
Print Assumptions C09_verbatim_partial.
Example C09_meets : parse_dbml_unchecked shop = Some (Ok shop_ast) /\
  In (mkLiteral (213, 224) (s "'full name'") (VString (s "full name"))) (all_literals shop_ast).
Proof. split; [exact shop_parsed|]. vm_compute. tauto. Qed.

(** ** C10 *)
Theorem C10_integers_exact : forall inp x, parse_dbml_unchecked inp = Some (Ok x) ->
  forall l, In l (all_literals x) ->
  (forall z, lit_value l = VInteger z ->
     digits (lit_raw l) /\ z = Z.of_N (digits_value 0 (lit_raw l)) /\ (z <= 9223372036854775807)%Z) /\
  (digits (lit_raw l) -> lit_value l = VInteger (Z.of_N (digits_value 0 (lit_raw l)))).
Proof. exact (fun inp x P l H => conj (fun z => p_integer inp x P l z H) (p_digits inp x P l H)). Qed.
Print Assumptions C10_integers_exact.
Theorem C10_type_arguments_exact : forall inp x, parse_dbml_unchecked inp = Some (Ok x) ->
  forall t z, In t (all_types x) -> In (VInteger z) (ct_args t) ->
  exists a d b, ct_raw t = a ++ d ++ b /\ digits d /\ z = Z.of_N (digits_value 0 d) /\ (z <= 9223372036854775807)%Z.
Proof. exact p_arg. Qed.
Print Assumptions C10_type_arguments_exact.
Theorem C10_array_sizes_exact : forall inp x, parse_dbml_unchecked inp = Some (Ok x) ->
  forall t n, In t (all_types x) -> In (Some n) (ct_arrays t) ->
  exists a d b, ct_raw t = a ++ (s "[" ++ d ++ s "]") ++ b /\ digits d /\ n = digits_value 0 d /\ n <= 4294967295.
Proof. exact p_dim. Qed.
Print Assumptions C10_array_sizes_exact.
Example C10_meets : parse_dbml_unchecked shop = Some (Ok shop_ast) /\
  (exists l, In l (all_literals shop_ast) /\ lit_value l = VInteger 21 /\ lit_raw l = s "21") /\
  (exists t, In t (all_types shop_ast) /\ In (VInteger 10) (ct_args t)) /\
  (exists t, In t (all_types shop_ast) /\ In (Some 7) (ct_arrays t)).
Proof.
  split; [exact shop_parsed|]. split; [|split].
  - eexists. split; [vm_compute; do 3 right; left; reflexivity|]. split; reflexivity.
  - eexists. split; [do 9 right; left; reflexivity|vm_compute; auto].
  - eexists. split; [do 5 right; left; reflexivity|vm_compute; auto].
Qed.
Example C10_largest : exists x, parse_dbml_unchecked (s "Table t { a int [default: 9223372036854775807] }") = Some (Ok x).
Proof. eexists. vm_compute. reflexivity. Qed.
Example C10_too_large : parse_dbml_unchecked (s "Table t { a int [default: 9223372036854775808] }")
  = Some (Err (ErMsg (s "number too large to fit in target type") (26, 45))).
Proof. vm_compute. reflexivity. Qed.

(** ** C11 *)
Theorem C11_types_raw : forall inp x, parse_dbml_unchecked inp = Some (Ok x) ->
  forall t, In t (all_types x) -> exists name, ct_type_name t = CT_Raw name /\ name <> [] /\
    type_text (ct_raw t) name (ct_args t) (ct_arrays t).
Proof. exact p_type. Qed.
Print Assumptions C11_types_raw.
Theorem C11_types_raw_checked : forall inp x, parse_dbml inp = Some (Ok x) ->
  forall t, In t (all_types x) -> exists name, ct_type_name t = CT_Raw name /\ name <> [] /\
    type_text (ct_raw t) name (ct_args t) (ct_arrays t).
Proof. exact (fun inp x P => p_type inp x (checked_same inp x P)). Qed.
Print Assumptions C11_types_raw_checked.
Example C11_meets : parse_dbml shop = Some (Ok shop_ast) /\
  map ct_type_name (all_types shop_ast) = map (fun w => CT_Raw (s w))
    ["integer"; "varchar"; "smallint"; "job_role"; "bool"; "text"; "bigint"; "integer"; "varchar"; "decimal"; "integer";
     "smallint"; "integer"; "char"; "bigint"]%string.
Proof. split; [exact shop_ok|vm_compute; reflexivity]. Qed.

(** ** C12 *)
Theorem C12_column_settings : forall inp x, parse_dbml_unchecked inp = Some (Ok x) ->
  forall st, In st (all_col_settings x) -> col_settings_say (cs_attributes st) st.
Proof. exact p_col_settings. Qed.
Print Assumptions C12_column_settings.
Example C12_meets : parse_dbml_unchecked shop = Some (Ok shop_ast) /\
  map (fun st => (cs_is_pk st, cs_is_unique st, cs_is_incremental st, cs_nullable st, cs_default st, cs_note st)) (all_col_settings shop_ast) =
  [ (true, false, true, None, None, None);
    (false, true, false, Some NotNull, Some (VString (s "bob")), Some (s "full name"));
    (false, false, false, Some Null, Some (VInteger 21), None);
    (false, false, false, None, Some (VEnum (s "admin")), None);
    (false, false, false, None, Some (VBool true), None);
    (true, false, false, None, None, None); (false, false, false, None, None, None);
    (false, false, false, Some Null, Some VNull, None);
    (false, true, false, None, None, None);
    (false, false, false, None, Some (VString (s "abc")), None); (false, false, false, None, Some (VInteger 9), None) ].
Proof. split; [exact shop_parsed|vm_compute; reflexivity]. Qed.

(** ** C13 *)
Theorem C13_other_settings : forall inp x, parse_dbml_unchecked inp = Some (Ok x) ->
  (forall st, In st (all_index_settings x) -> index_settings_say (is_attributes st) st) /\
  (forall st, In st (all_enum_settings x) -> enum_settings_say (evs_attributes st) st) /\
  (forall st, In st (all_ref_settings x) -> ref_settings_say (rs_attributes st) st).
Proof. exact p_settings. Qed.
Print Assumptions C13_other_settings.
Example C13_meets : parse_dbml_unchecked shop = Some (Ok shop_ast) /\
  map (fun st => (is_is_unique st, is_type st, is_name st)) (all_index_settings shop_ast)
    = [(false, Some BTree, Some (s "by_name")); (true, None, None)] /\
  map evs_note (all_enum_settings shop_ast) = [Some (s "boss")] /\
  map (fun st => (rs_on_update st, rs_on_delete st)) (all_ref_settings shop_ast) = [(Some NoAction, Some Cascade)].
Proof. split; [exact shop_parsed|vm_compute; auto]. Qed.

(** ** C14 *)
Theorem C14_block_references : forall inp x, parse_dbml_unchecked inp = Some (Ok x) ->
  forall r, In r (refs x) -> exists sp t, symbol (rb_rel r) = Some t /\ slice inp (fst sp) (snd sp) = Some t /\
    snd (ri_span (rb_lhs r)) <= fst sp /\ snd sp <= fst (ri_span (rb_rhs r)).
Proof. exact p_ref. Qed.
Print Assumptions C14_block_references.
Theorem C14_inline_references : forall inp x, parse_dbml_unchecked inp = Some (Ok x) ->
  forall r, In r (all_ref_inlines x) -> exists sp t, symbol (rin_rel r) = Some t /\ slice inp (fst sp) (snd sp) = Some t /\
    fst (rin_span r) <= fst sp /\ snd sp <= fst (ri_span (rin_rhs r)).
Proof. exact p_inline. Qed.
Print Assumptions C14_inline_references.
Theorem C14_endpoints_have_columns : forall inp x, parse_dbml_unchecked inp = Some (Ok x) ->
  forall r, In r (all_endpoints x) -> ri_compositions r <> [].
Proof. exact p_endpoint. Qed.
Print Assumptions C14_endpoints_have_columns.
Example C14_meets : parse_dbml_unchecked shop = Some (Ok shop_ast) /\ map rb_rel (refs shop_ast) = [One2One; Many2One] /\
  map rin_rel (all_ref_inlines shop_ast) = [Many2One] /\
  map (fun r => map id_str (ri_compositions r)) (all_endpoints shop_ast) = map (map s) [["id"]; ["uid"]; ["a"; "b"]; ["id"; "age"]; ["id"]]%string.
Proof. split; [exact shop_parsed|vm_compute; auto]. Qed.

(** ** C17 *)
Theorem C17_accessors_partition : forall x,
  map BProject (projects x) = filter is_project (sb_blocks x) /\
  map BTable (tables x) = filter is_table (sb_blocks x) /\
  map BTableGroup (table_groups x) = filter is_group (sb_blocks x) /\
  map BRef (refs x) = filter is_ref (sb_blocks x) /\
  map BEnum (enums x) = filter is_enum (sb_blocks x) /\
  map BNote (notes x) = filter is_note_b (sb_blocks x) /\
  List.length (sb_blocks x) = (List.length (projects x) + List.length (tables x) + List.length (table_groups x)
    + List.length (refs x) + List.length (enums x) + List.length (notes x))%nat.
Proof. exact accessors_partition. Qed.
Print Assumptions C17_accessors_partition.
Example C17_meets : (List.length (projects shop_ast), List.length (tables shop_ast), List.length (table_groups shop_ast),
  List.length (refs shop_ast), List.length (enums shop_ast), List.length (notes shop_ast)) = (1, 3, 1, 2, 1, 1)%nat.
Proof. vm_compute. reflexivity. Qed.

(** ** C42 *)
Theorem C42_actions : forall w a, (ref_action_from_str w = Some a <-> w = action_word a) /\ ref_action_from_str (ref_action_to_string a) = Some a.
Proof. exact (fun w a => conj (action_words w a) (action_round a)). Qed.
Print Assumptions C42_actions.
Theorem C42_index_types : forall w t, indexes_type_from_str w = Some t <-> w = index_type_word t.
Proof. exact index_words. Qed.
Print Assumptions C42_index_types.
Theorem C42_relations : forall w r, relation_from_str w = Some r <-> symbol r = Some w.
Proof. exact relation_words. Qed.
Print Assumptions C42_relations.
Theorem C42_booleans : forall w v, value_from_str w = Some v <->
  (w = s "true" /\ v = VBool true) \/ (w = s "false" /\ v = VBool false) \/ (w = s "null" /\ v = VNull).
Proof. exact value_words. Qed.
Print Assumptions C42_booleans.
Theorem C42_boolean_texts : forall v, (exists b, v = VBool b) \/ v = VNull -> value_from_str (value_to_string v) = Some v.
Proof. exact value_word_round. Qed.
Print Assumptions C42_boolean_texts.
Theorem C42_databases : forall w d, database_type_from_str w = d <->
  (w = s "PostgreSQL" /\ d = PostgreSQL) \/ (w <> s "PostgreSQL" /\ d = DbUnknown w).
Proof. exact database_words. Qed.
Print Assumptions C42_databases.
Theorem C42_types : forall w tn, col_type_name_from_str w = Some tn <-> Rules.builtin w tn.
Proof. exact type_words_ok. Qed.
Print Assumptions C42_types.
Example C42_meets : ref_action_from_str (s "set null") = Some SetNull /\ ref_action_from_str (s "Cascade") = None /\
  col_type_name_from_str (s "timestamp with time zone") = Some CT_Timestamptz /\ col_type_name_from_str (s "INT") = None.
Proof. vm_compute. auto. Qed.

(** ** C45 *)
Theorem C45_parse_errors_truthful : forall inp e, parse_dbml_unchecked inp = Some (Err e) ->
  e = ErGrammar \/ exists m sp, e = ErMsg m sp /\ parse_error_true inp m sp.
Proof. exact p_error. Qed.
Print Assumptions C45_parse_errors_truthful.
Example C45_index_type : parse_dbml_unchecked (s "Table t { a int Indexes { a [type: brin] } }")
  = Some (Err (ErMsg (s "'brin' type is not supported!") (29, 39))).
Proof. vm_compute. reflexivity. Qed.
Example C45_action : parse_dbml_unchecked (s "Ref: a.b > c.d [delete: explode]") = Some (Err (ErMsg (s "invalid referential action") (16, 31))).
Proof. vm_compute. reflexivity. Qed.
Example C45_dimension : parse_dbml_unchecked (s "Table t { a int[4294967296] }")
  = Some (Err (ErMsg (s "number too large to fit in target type") (16, 26))).
Proof. vm_compute. reflexivity. Qed.

(** ** C46 *)
Theorem C46_database_type : forall inp x, parse_dbml_unchecked inp = Some (Ok x) ->
  forall p, In p (projects x) -> database_type_says (pj_properties p) (pj_database_type p).
Proof. exact p_database. Qed.
Print Assumptions C46_database_type.
Theorem C46_notes_are_strings : forall inp x, parse_dbml_unchecked inp = Some (Ok x) ->
  forall n, In n (all_notes x) -> exists v, lit_value (nb_value n) = VString v.
Proof. exact p_note. Qed.
Print Assumptions C46_notes_are_strings.
Example C46_meets : parse_dbml_unchecked shop = Some (Ok shop_ast) /\
  map pj_database_type (projects shop_ast) = [Some PostgreSQL] /\
  map (fun n => lit_value (nb_value n)) (all_notes shop_ast) = map (fun w => VString (s w)) ["free text"; "demo"; "people"]%string.
Proof. split; [exact shop_parsed|vm_compute; auto]. Qed.

(** ** C50 *)
Theorem C50_decimals_nearest : forall inp x, parse_dbml_unchecked inp = Some (Ok x) ->
  forall l, In l (all_literals x) ->
  (forall f, lit_value l = VDecimal f ->
     exists d1 d2, lit_raw l = d1 ++ s "." ++ d2 /\ digits d1 /\ Forall digit d2 /\ nearest64 (decimal_value d1 d2) f) /\
  (forall d1 d2, lit_raw l = d1 ++ s "." ++ d2 -> digits d1 -> Forall digit d2 ->
     exists f, lit_value l = VDecimal f /\ nearest64 (decimal_value d1 d2) f).
Proof. exact (fun inp x P l H => conj (fun f => p_decimal inp x P l f H) (fun d1 d2 => p_dec_raw inp x P l d1 d2 H)). Qed.
Print Assumptions C50_decimals_nearest.
Theorem C50_decimal_arguments_nearest : forall inp x, parse_dbml_unchecked inp = Some (Ok x) ->
  forall t f, In t (all_types x) -> In (VDecimal f) (ct_args t) ->
  exists a d1 d2 b, ct_raw t = a ++ (d1 ++ s "." ++ d2) ++ b /\ digits d1 /\ Forall digit d2 /\ nearest64 (decimal_value d1 d2) f.
Proof. exact p_arg_dec. Qed.
Print Assumptions C50_decimal_arguments_nearest.
Theorem C50_nearest_is_one : forall x v w, nearest64 x v -> nearest64 x w -> v = w.
Proof. exact nearest64_unique. Qed.
Print Assumptions C50_nearest_is_one.
Theorem C50_every_decimal_has_one : forall d1 d2, Forall digit d1 -> Forall digit d2 -> exists v, nearest64 (decimal_value d1 d2) v.
Proof. exact decimal_ex. Qed.
Print Assumptions C50_every_decimal_has_one.
(** 0.1 is m * 2^-56 with an odd quotient rounded up; 2^53 + 1 is a tie and goes to the even neighbour; 2e308 is infinite. *)
Example C50_meets : exists x l f, parse_dbml_unchecked (s "Table t { a decimal(3.5) [default: 0.1] }") = Some (Ok x) /\
  In l (all_literals x) /\ lit_raw l = s "0.1" /\ lit_value l = VDecimal f /\ f = FFin 7205759403792794 (-56) /\
  exists t, In t (all_types x) /\ In (VDecimal (FFin 7881299347898368 (-51))) (ct_args t).
Proof.
  eexists. eexists. eexists. split; [vm_compute; reflexivity|]. split; [vm_compute; left; reflexivity|]. split; [reflexivity|]. split; [reflexivity|].
  split; [reflexivity|]. eexists. split; [vm_compute; left; reflexivity|]. vm_compute. left. reflexivity.
Qed.
Example C50_tie : nearest64 (decimal_value (s "9007199254740993") (s "0")) (FFin 4503599627370496 1).
Proof. apply decimal_at; [apply digits_dec; reflexivity|apply digits_dec; reflexivity|vm_compute; reflexivity]. Qed.
