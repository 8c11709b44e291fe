(** * BuildWorkSame: the clock changes no AST and no answer. *)

From Verif Require Import CheckWorkSame WorkOk BuildWork.
Local Open Scope nat_scope.

Lemma fst_omap {A B} (f : A -> B) x : fst (omap_c f x) = omap f (fst x). Proof. reflexivity. Qed.
Lemma omap_same {A B} (f : A -> B) x y : x = y -> omap f x = omap f y. Proof. now intros ->. Qed.

Create HintDb bsame.
Ltac bstep := first
  [ reflexivity
  | solve [auto with bsame nocore]
  | rewrite fst_bind; apply bind_same; [|intros ?]
  | rewrite fst_after | rewrite fst_spend | rewrite fst_now
  | rewrite fst_omap; apply omap_same
  | apply fold_same; intros ? ? | apply map_same; intros ?
  | match goal with |- fst (let '(_, _) := ?x in _) = _ => destruct x end
  | match goal with |- fst (match ?x with _ => _ end) = _ => destruct x eqn:? end ].
Ltac bsame := cbv beta zeta; repeat (bstep; cbv beta zeta).

Lemma ident_same p : fst (parse_ident_c p) = parse_ident p. Proof. unfold parse_ident_c, parse_ident. bsame. Qed.
#[local] Hint Resolve ident_same : bsame.
Lemma decl_ident_same p : fst (parse_decl_ident_c p) = parse_decl_ident p. Proof. unfold parse_decl_ident_c, parse_decl_ident. bsame. Qed.
Lemma string_same p : fst (parse_string_value_c p) = parse_string_value p. Proof. unfold parse_string_value_c, parse_string_value. bsame. Qed.
#[local] Hint Resolve decl_ident_same string_same : bsame.
Lemma value_same p : fst (parse_value_c p) = parse_value p. Proof. unfold parse_value_c, parse_value. bsame. Qed.
#[local] Hint Resolve value_same : bsame.
Lemma attribute_same p : fst (parse_attribute_c p) = parse_attribute p. Proof. unfold parse_attribute_c, parse_attribute. bsame. Qed.
#[local] Hint Resolve attribute_same : bsame.
Lemma property_same p : fst (parse_property_c p) = parse_property p. Proof. unfold parse_property_c, parse_property. bsame. Qed.
Lemma attributes_same p : fst (parse_attributes_c p) = parse_attributes p. Proof. unfold parse_attributes_c, parse_attributes. bsame. Qed.
#[local] Hint Resolve property_same attributes_same : bsame.
Lemma tset_same p : fst (parse_table_settings_c p) = parse_table_settings p. Proof. unfold parse_table_settings_c, parse_table_settings. bsame. Qed.
Lemma gset_same p : fst (parse_table_group_settings_c p) = parse_table_group_settings p. Proof. unfold parse_table_group_settings_c, parse_table_group_settings. bsame. Qed.
Lemma note_same p : fst (parse_note_decl_c p) = parse_note_decl p.
Proof. unfold parse_note_decl_c, parse_note_decl. induction (into_inner p) as [|p1 l IH]; [reflexivity|]. cbn [note_decl_c]. bsame. Qed.
#[local] Hint Resolve tset_same gset_same note_same : bsame.
Lemma project_same p : fst (parse_project_decl_c p) = parse_project_decl p. Proof. unfold parse_project_decl_c, parse_project_decl. bsame. Qed.
Lemma arg_same p : fst (parse_col_type_arg_c p) = parse_col_type_arg p. Proof. unfold parse_col_type_arg_c, parse_col_type_arg. bsame. Qed.
Lemma array_same p : fst (parse_col_type_array_c p) = parse_col_type_array p. Proof. unfold parse_col_type_array_c, parse_col_type_array. bsame. Qed.
#[local] Hint Resolve project_same arg_same array_same : bsame.
Lemma type_same p : fst (parse_col_type_c p) = parse_col_type p.
Proof. unfold parse_col_type_c, parse_col_type. bsame. Qed.
Lemma ref_ident_same p : fst (parse_ref_ident_c p) = parse_ref_ident p. Proof. unfold parse_ref_ident_c, parse_ref_ident. bsame. Qed.
#[local] Hint Resolve type_same ref_ident_same : bsame.
Lemma ref_inline_same p : fst (parse_ref_inline_c p) = parse_ref_inline p. Proof. unfold parse_ref_inline_c, parse_ref_inline. bsame. Qed.
#[local] Hint Resolve ref_inline_same : bsame.
Lemma col_settings_same p : fst (parse_col_settings_c p) = parse_col_settings p. Proof. unfold parse_col_settings_c, parse_col_settings. bsame. Qed.
#[local] Hint Resolve col_settings_same : bsame.
Lemma col_same p : fst (parse_table_col_c p) = parse_table_col p. Proof. unfold parse_table_col_c, parse_table_col. bsame. Qed.
Lemma iident_same p : fst (parse_indexes_ident_c p) = parse_indexes_ident p. Proof. unfold parse_indexes_ident_c, parse_indexes_ident. bsame. Qed.
Lemma iset_same p : fst (parse_indexes_settings_c p) = parse_indexes_settings p.
Proof. unfold parse_indexes_settings_c, parse_indexes_settings, attr_value_string_c. bsame. Qed.
#[local] Hint Resolve col_same iident_same iset_same : bsame.
Lemma idef_same p : fst (parse_indexes_single_multi_c p) = parse_indexes_single_multi p. Proof. unfold parse_indexes_single_multi_c, parse_indexes_single_multi. bsame. Qed.
#[local] Hint Resolve idef_same : bsame.
Lemma iblock_same p : fst (parse_indexes_block_c p) = parse_indexes_block p. Proof. unfold parse_indexes_block_c, parse_indexes_block. bsame. Qed.
#[local] Hint Resolve iblock_same : bsame.
Lemma idecl_same p : fst (parse_indexes_decl_c p) = parse_indexes_decl p. Proof. unfold parse_indexes_decl_c, parse_indexes_decl. bsame. Qed.
#[local] Hint Resolve idecl_same : bsame.
Lemma table_same p : fst (parse_table_decl_c p) = parse_table_decl p. Proof. unfold parse_table_decl_c, parse_table_decl. bsame. Qed.
Lemma eset_same p : fst (parse_enum_settings_c p) = parse_enum_settings p. Proof. unfold parse_enum_settings_c, parse_enum_settings. bsame. Qed.
#[local] Hint Resolve table_same eset_same : bsame.
Lemma evalue_same p : fst (parse_enum_value_c p) = parse_enum_value p. Proof. unfold parse_enum_value_c, parse_enum_value. bsame. Qed.
#[local] Hint Resolve evalue_same : bsame.
Lemma eblock_same p : fst (parse_enum_block_c p) = parse_enum_block p. Proof. unfold parse_enum_block_c, parse_enum_block. bsame. Qed.
#[local] Hint Resolve eblock_same : bsame.
Lemma enum_same p : fst (parse_enum_decl_c p) = parse_enum_decl p. Proof. unfold parse_enum_decl_c, parse_enum_decl. bsame. Qed.
Lemma rset_same p : fst (parse_rel_settings_c p) = parse_rel_settings p. Proof. unfold parse_rel_settings_c, parse_rel_settings, parse_ref_action_c. bsame. Qed.
#[local] Hint Resolve enum_same rset_same : bsame.
Lemma rstmt_same p : fst (parse_ref_stmt_c p) = parse_ref_stmt p. Proof. unfold parse_ref_stmt_c, parse_ref_stmt. bsame. Qed.
#[local] Hint Resolve rstmt_same : bsame.
Lemma rinner_same l : forall n, fst (ref_decl_inner_c n l) = ref_decl_inner n l.
Proof. induction l as [|p l IH]; intros n; [reflexivity|]. cbn [ref_decl_inner_c ref_decl_inner]. bsame. Qed.
#[local] Hint Resolve rinner_same : bsame.
Lemma ref_same p : fst (parse_ref_decl_c p) = parse_ref_decl p.
Proof. unfold parse_ref_decl_c, parse_ref_decl. induction (into_inner p) as [|p1 l IH]; [reflexivity|]. cbn [ref_decl_c]. bsame. Qed.
Lemma group_same p : fst (parse_table_group_decl_c p) = parse_table_group_decl p. Proof. unfold parse_table_group_decl_c, parse_table_group_decl. bsame. Qed.
#[local] Hint Resolve ref_same group_same : bsame.
Lemma block_same p : fst (parse_block_c p) = parse_block p. Proof. unfold parse_block_c, parse_block. bsame. Qed.
#[local] Hint Resolve block_same : bsame.
Lemma schema_same p i : fst (parse_schema_c p i) = parse_schema p i. Proof. unfold parse_schema_c, parse_schema. bsame. Qed.

Lemma build_same i ps : fst (build_c i ps) = match ps with [] => Panic | p :: _ => match p_rule p with R_schema => parse_schema p i | _ => throw_rules [R_schema] p end end.
Proof. unfold build_c. destruct ps as [|p ps]; [reflexivity|]. rewrite fst_after. destruct (p_rule p); try reflexivity. apply schema_same. Qed.
Theorem parse_same i : fst (parse_dbml_c i) = parse_dbml i.
Proof.
  unfold parse_dbml_c, parse_dbml, parse_dbml_unchecked. rewrite <- run_w_same. destruct (run_w schema i) as [r n]. cbn [fst].
  destruct r as [t x ps| |]; try reflexivity. cbv zeta. cbn [fst]. rewrite fst_bind, build_same. destruct ps as [|p ps]; [reflexivity|]. f_equal.
  apply bind_same; [reflexivity|]. intros a. rewrite fst_omap, analyze_same. reflexivity.
Qed.
