(** * CheckWorkSame: the clock changes no verdict. *)

From Verif Require Import CheckWork.
Local Open Scope nat_scope.

Lemma fst_after {A B} (x : clocked A) (f : A -> clocked B) : fst (after x f) = fst (f (fst x)).
Proof. reflexivity. Qed.
Lemma fst_bind {A B} (x : clocked (outcome A)) (f : A -> clocked (outcome B)) : fst (bind_c x f) = bind (fst x) (fun a => fst (f a)).
Proof. unfold bind_c. rewrite fst_after. destruct (fst x); reflexivity. Qed.
Lemma fst_spend {A} n (a : A) : fst (spend n a) = a. Proof. reflexivity. Qed.
Lemma fst_now {A} (a : A) : fst (now a) = a. Proof. reflexivity. Qed.
Lemma fst_throw {A} e sp i : fst (@throw_c A e sp i) = throw_err e sp i. Proof. reflexivity. Qed.
Lemma bind_same {A B} (x y : outcome A) (f g : A -> outcome B) : x = y -> (forall a, f a = g a) -> bind x f = bind y g.
Proof. intros -> H. destruct y; cbn; auto. Qed.
Lemma fold_same {A B} (f : B -> A -> clocked (outcome B)) g l : (forall b a, fst (f b a) = g b a) -> forall b, fst (fold_c f l b) = try_fold g l b.
Proof. intros H. induction l as [|a l IH]; intros b; [reflexivity|]. cbn [fold_c try_fold]. rewrite fst_after, fst_bind. apply bind_same; auto. Qed.
Lemma map_same {A B} (f : A -> clocked (outcome B)) g l : (forall a, fst (f a) = g a) -> fst (map_c f l) = try_map g l.
Proof.
  intros H. induction l as [|a l IH]; [reflexivity|]. cbn [map_c try_map]. rewrite fst_after, fst_bind. apply bind_same; [auto|]. intros b.
  rewrite fst_bind. apply bind_same; auto.
Qed.
Lemma exists_same {A} (f : A -> clocked bool) g l : (forall a, fst (f a) = g a) -> fst (exists_c f l) = existsb g l.
Proof. intros H. induction l as [|a l IH]; [reflexivity|]. cbn [exists_c existsb]. rewrite !fst_after, H. destruct (g a); [reflexivity|exact IH]. Qed.
Lemma forall_same {A} (f : A -> clocked bool) g l : (forall a, fst (f a) = g a) -> fst (forall_c f l) = forallb g l.
Proof. intros H. induction l as [|a l IH]; [reflexivity|]. cbn [forall_c forallb]. rewrite !fst_after, H. destruct (g a); [exact IH|reflexivity]. Qed.
Lemma filter_same {A} (f : A -> clocked bool) g l : (forall a, fst (f a) = g a) -> fst (filter_c f l) = filter g l.
Proof. intros H. induction l as [|a l IH]; [reflexivity|]. cbn [filter_c filter]. rewrite !fst_after, H. rewrite IH. reflexivity. Qed.
Lemma find_filter {A} (f : A -> bool) l : find f l = match filter f l with a :: _ => Some a | [] => None end.
Proof. induction l as [|a l IH]; [reflexivity|]. cbn [find filter]. destruct (f a); [reflexivity|exact IH]. Qed.

Ltac same := repeat first
  [ reflexivity
  | rewrite fst_bind; apply bind_same; [|intros ?]
  | rewrite fst_after
  | rewrite fst_spend | rewrite fst_now | rewrite fst_throw
  | match goal with |- fst (match ?x with _ => _ end) = _ => destruct x eqn:? end
  | match goal with |- fst (if ?x then _ else _) = _ => destruct x eqn:? end ].

Lemma attrs_same l i : fst (check_attr_duplicate_keys_c l i) = check_attr_duplicate_keys l i.
Proof. unfold check_attr_duplicate_keys_c, check_attr_duplicate_keys. rewrite fst_after. cbn [dup_c fst spend]. destruct (first_dup _ _ _); reflexivity. Qed.
Lemma props_same l i : fst (check_prop_duplicate_keys_c l i) = check_prop_duplicate_keys l i.
Proof. unfold check_prop_duplicate_keys_c, check_prop_duplicate_keys. rewrite fst_after. cbn [dup_c fst spend]. destruct (first_dup _ _ _); reflexivity. Qed.
Lemma opt_attrs_same {T} (f : T -> _) st i : fst (check_opt_attrs_c f st i) = check_opt_attrs f st i.
Proof. destruct st; [apply attrs_same|reflexivity]. Qed.
Lemma contains_table_same ix a b : fst (contains_table_c ix a b) = contains_table ix a b.
Proof. unfold contains_table_c, contains_table. rewrite fst_after. cbn [get_c spend fst]. destruct (map_get _ _); reflexivity. Qed.
Lemma contains_enum_same ix a b : fst (contains_enum_c ix a b) = contains_enum ix a b.
Proof. unfold contains_enum_c, contains_enum. rewrite fst_after. cbn [get_c spend fst]. destruct (map_get _ _); reflexivity. Qed.
Lemma schema_entry_same ix a : fst (schema_entry_c ix a) = schema_entry ix a.
Proof. reflexivity. Qed.
Lemma index_cols_same l i : fst (index_cols_c l i) = index_cols l i.
Proof.
  apply fold_same. intros seen c. unfold index_col1_c. rewrite fst_bind. apply bind_same; [apply opt_attrs_same|]. intros _.
  rewrite fst_after. cbn [mem_c spend fst]. destruct (mem_str _ _); reflexivity.
Qed.
Lemma index_table_same ts i ix : fst (index_table_c ts i ix) = index_table ts i ix.
Proof.
  apply fold_same. clear. intros ix t. unfold index_table1_c, index_table1. rewrite fst_bind. apply bind_same; [apply opt_attrs_same|]. intros _.
  cbv zeta. rewrite fst_after, fst_bind, contains_table_same. apply bind_same; [destruct (contains_table _ _ _); reflexivity|]. intros _.
  rewrite fst_bind. apply bind_same; [apply index_cols_same|]. intros cols. rewrite !fst_after. cbn [insert_c spend fst]. rewrite schema_entry_same.
  destruct (ti_alias _) as [a|]; [|reflexivity]. rewrite !fst_after. cbn [insert_c contains_c spend fst]. destruct (map_contains _ _); reflexivity.
Qed.
Lemma index_enums_same es i ix : fst (index_enums_c es i ix) = index_enums es i ix.
Proof.
  apply fold_same. clear. intros ix e. unfold index_enum1_c, index_enum1. cbv zeta. rewrite fst_after, fst_bind, contains_enum_same.
  apply bind_same; [destruct (contains_enum _ _ _); reflexivity|]. intros _. rewrite fst_bind. apply bind_same; [|reflexivity].
  apply fold_same. intros seen v. unfold index_enum_value1_c. rewrite fst_bind. apply bind_same; [apply opt_attrs_same|]. intros _.
  rewrite fst_after. cbn [mem_c spend fst]. destruct (mem_str _ _); reflexivity.
Qed.
Lemma index_groups_same gs i ix : fst (index_table_groups_c gs i ix) = index_table_groups gs i ix.
Proof.
  apply fold_same. clear. intros ix g. unfold index_table_group1_c, index_table_group1. cbv zeta. rewrite fst_after, fst_bind.
  apply bind_same; [cbn [contains_c spend fst]; destruct (map_contains _ _); reflexivity|]. intros _. rewrite fst_bind. apply bind_same; [|reflexivity].
  apply fold_same. intros seen it. unfold index_group_item1_c. rewrite fst_bind. apply bind_same.
  - unfold resolve_group_item_c, resolve_group_item. destruct (gi_schema it); [reflexivity|]. rewrite fst_after. unfold resolve_alias_c, resolve_alias. cbn [get_c spend fst].
    destruct (map_get _ _); [reflexivity|]. rewrite fst_after, contains_table_same. destruct (contains_table _ _ _); reflexivity.
  - intros id. rewrite fst_after. cbn [pair_mem_c spend fst]. destruct (pair_mem _ _); reflexivity.
Qed.
Lemma alias_same ix r : fst (resolve_ref_alias_c ix r) = resolve_ref_alias ix r.
Proof. reflexivity. Qed.
Lemma fields_same ix sch t fs i : fst (lookup_table_fields_c ix sch t fs i) = lookup_table_fields ix sch t fs i.
Proof.
  unfold lookup_table_fields_c, lookup_table_fields. cbv zeta. rewrite fst_after. cbn [get_c spend fst]. destruct (map_get (schema_map ix) _) as [b|]; [|reflexivity].
  rewrite fst_after. cbn [get_c spend fst]. destruct (map_get (table_map b) _) as [cols|]; [|reflexivity].
  rewrite fst_after, find_filter. rewrite (filter_same _ (fun f => negb (mem_str (id_str f) cols))) by reflexivity. destruct (filter _ _); reflexivity.
Qed.
Lemma composite_same cs ib : fst (is_valid_composite_c cs ib) = is_valid_composite cs ib.
Proof.
  destruct ib as [b|]; [|reflexivity]. apply exists_same. intros d. destruct (_ && _); reflexivity.
Qed.
Lemma validate_same r ts ix i : fst (validate_ref_type_c r ts ix i) = validate_ref_type r ts ix i.
Proof.
  unfold validate_ref_type_c, validate_ref_type. rewrite !fst_after, !alias_same. cbv zeta. rewrite fst_bind. apply bind_same; [destruct (negb _); reflexivity|]. intros _.
  do 2 (rewrite fst_bind; apply bind_same; [apply fields_same|]; intros _).
  do 2 (rewrite fst_bind; apply bind_same; [unfold find_ref_table_c, find_ref_table; rewrite fst_after; cbn [find_c spend fst]; destruct (find _ _); reflexivity|]; intros ?).
  rewrite fst_bind. apply bind_same.
  - apply fold_same. intros [] [l r']. unfold validate_field_pair_c, validate_field_pair.
    do 2 (rewrite fst_bind; apply bind_same; [unfold find_ref_col_c, find_ref_col; rewrite fst_after; cbn [find_c spend fst]; destruct (find _ _); reflexivity|]; intros ?).
    cbv zeta. rewrite fst_after, fst_bind. cbn [col_types_differ_c spend fst]. apply bind_same; [destruct (col_types_differ _ _); reflexivity|]. intros _.
    destruct (Nat.eqb _ 1); [|reflexivity]. unfold throw_fk_c, throw_fk. destruct (single_fk_err _ _ _) as [[? ?]|]; reflexivity.
  - intros _. destruct (Nat.leb 2 _); [|reflexivity]. rewrite !fst_after, !composite_same. unfold throw_fk_c, throw_fk. destruct (composite_fk_err _ _ _) as [[? ?]|]; reflexivity.
Qed.
Lemma ident_same ix a b : fst (same_ident_c ix a b) = eq_ref_ident (resolve_ref_alias ix a) (resolve_ref_alias ix b).
Proof.
  unfold same_ident_c. rewrite !fst_after, !alias_same. unfold eq_ref_ident_c, eq_ref_ident. rewrite fst_after. cbn [spend fst]. destruct (_ && _); reflexivity.
Qed.
Lemma occupy_same r o ix : fst (occupy_same_column_c r o ix) = occupy_same_column r o ix.
Proof.
  unfold occupy_same_column_c, occupy_same_column. cbv zeta.
  assert (B : fst (forall_c (fun a => exists_c (fun b => same_ident_c ix a b) [ir_lhs o; ir_rhs o]) [ir_lhs r; ir_rhs r]) =
    forallb (fun a => existsb (fun b => eq_ref_ident (resolve_ref_alias ix a) (resolve_ref_alias ix b)) [ir_lhs o; ir_rhs o]) [ir_lhs r; ir_rhs r]).
  { apply forall_same. intros a. apply exists_same. intros b. apply ident_same. }
  destruct (ir_rel r), (ir_rel o); try exact B; destruct (occupied_ident r); try reflexivity; destruct (occupied_ident o); try reflexivity; apply ident_same.
Qed.
Lemma table_same i t : fst (check_table_c i t) = check_table i t.
Proof.
  unfold check_table_c, check_table. rewrite fst_bind. apply bind_same.
  { apply fold_same. intros ti c. unfold check_col_settings_c, check_col_settings. destruct (tc_settings c) as [st|]; [|reflexivity].
    rewrite fst_bind. apply bind_same.
    - destruct (cs_is_pk st); [|reflexivity]. destruct (negb _); [reflexivity|]. destruct (nullable_is_null _); [reflexivity|]. destruct (negb _); reflexivity.
    - intros ti'. cbv zeta. rewrite fst_after. cbn [spend fst]. destruct (conflict_nullable _); reflexivity. }
  intros ti. rewrite fst_bind. apply bind_same; [|reflexivity]. destruct (tb_indexes t) as [ib|]; [|reflexivity]. rewrite fst_bind.
  match goal with |- bind ?x ?f = omap ?g ?y => assert (E : x = y); [|rewrite E; destruct y; reflexivity] end.
  apply fold_same. clear. intros ti d. unfold check_index_def_c, check_index_def. rewrite fst_bind. apply bind_same; [destruct (is_nil _); reflexivity|]. intros _. cbv zeta.
  rewrite fst_bind. apply bind_same.
  { apply fold_same. intros [] [c|e]; [|reflexivity]. unfold check_index_col1_c. rewrite fst_after. cbn [any_c spend fst]. destruct (existsb _ _); reflexivity. }
  intros _. destruct (idf_settings d) as [st|].
  - rewrite fst_bind. apply bind_same; [apply attrs_same|]. intros _. rewrite fst_bind. apply bind_same; [destruct (Nat.ltb _ _); reflexivity|]. intros _.
    rewrite fst_bind. apply bind_same.
    + destruct (is_is_pk st); [destruct (negb _); reflexivity|]. destruct (is_is_unique st); [|reflexivity]. rewrite fst_after.
      rewrite (exists_same _ (fun u => forallb (fun id => mem_str id u) (filter_map idx_col_name (idf_cols d)))) by (intros u; apply forall_same; reflexivity).
      destruct (existsb _ _); reflexivity.
    + intros ti'. destruct (is_some _); [|reflexivity]. rewrite fst_after.
      rewrite (exists_same _ (fun p => list_eqb str_eqb (fst p) (filter_map idx_col_name (idf_cols d)) && opt_idx_type_eqb (snd p) (is_type st))) by reflexivity.
      destruct (existsb _ _); reflexivity.
  - rewrite fst_after. rewrite (exists_same _ (fun p => list_eqb str_eqb (fst p) (filter_map idx_col_name (idf_cols d)))) by reflexivity. destruct (existsb _ _); reflexivity.
Qed.
Lemma types_same ix i t : fst (check_table_types_c ix i t) = check_table_types ix i t.
Proof.
  unfold check_table_types_c, check_table_types. rewrite fst_bind. apply bind_same; [|reflexivity]. apply map_same. intros c.
  unfold check_col_type_c, check_col_type. rewrite fst_bind. apply bind_same.
  - unfold resolve_col_type_c, resolve_col_type. destruct (ct_type_name _) as [|raw|?| | | | | | | | | | | | | | | | | | | | | | | | | | | | | | | | | | | | | | | | |]; try reflexivity.
    rewrite fst_after. cbn [spend fst]. destruct (col_type_name_from_str raw) as [tn|].
    + rewrite fst_bind. apply bind_same; [|reflexivity]. unfold check_type_args_c, check_type_args. cbv zeta. destruct (is_nil _); [reflexivity|].
      rewrite fst_bind. apply bind_same.
      * destruct tn; try reflexivity; destruct (negb _); reflexivity.
      * intros _. rewrite fst_after. cbn [spend fst]. destruct (negb _); reflexivity.
    + unfold check_enum_type_c, check_enum_type. cbv zeta. rewrite fst_after, fst_bind. cbn [spend fst]. apply bind_same.
      * destruct (split_on 46%N raw) as [|a [|b [|d l]]]; reflexivity.
      * intros [esch ename]. destruct (tc_settings c) as [st|]; [|reflexivity]. destruct (cs_default st) as [dv|]; [|reflexivity].
        rewrite fst_after. cbn [default_span_c spend fst]. destruct (default_span _) as [dsp|]; [|reflexivity]. rewrite fst_after.
        replace (fst (lookup_enum_values_c ix esch ename (value_to_string dv))) with (lookup_enum_values ix esch ename [value_to_string dv]).
        -- destruct (lookup_enum_values _ _ _ _) as [[] [[] f]]; try reflexivity. destruct (existsb _ _); reflexivity.
        -- unfold lookup_enum_values_c, lookup_enum_values. cbv zeta. rewrite fst_after. cbn [get_c spend fst]. destruct (map_get _ _) as [b|]; [|reflexivity].
           rewrite fst_after. cbn [get_c spend fst]. destruct (map_get _ _); reflexivity.
  - intros tn. rewrite fst_bind. apply bind_same; [|reflexivity]. destruct (tc_settings c) as [st|]; [|reflexivity]. destruct (cs_default st) as [dv|]; [|reflexivity].
    rewrite fst_after. cbn [default_span_c spend fst]. destruct (default_span _); reflexivity.
Qed.
Theorem analyze_same x : fst (analyze_c x) = analyze x.
Proof.
  unfold analyze_c, analyze. cbv zeta. rewrite fst_bind. apply bind_same.
  { unfold check_projects_c, check_projects. cbv zeta. rewrite fst_after, fst_bind. cbn [spend fst]. apply bind_same; [destruct (Nat.ltb _ _); reflexivity|]. intros _.
    destruct (projects x); [reflexivity|]. apply props_same. }
  intros _. rewrite fst_after, fst_bind. apply bind_same; [apply index_table_same|]. intros ix1. rewrite fst_bind. apply bind_same; [apply index_enums_same|]. intros ix2.
  rewrite fst_bind. apply bind_same; [apply index_groups_same|]. intros ix. rewrite fst_bind. apply bind_same; [apply map_same; intros t; apply table_same|]. intros inl.
  rewrite fst_after, fst_bind. apply bind_same; [apply map_same; intros t; apply types_same|]. intros ts. rewrite fst_bind. apply bind_same; [|reflexivity].
  apply fold_same. intros [] r. unfold check_ref_c, check_ref. rewrite fst_bind. apply bind_same; [apply opt_attrs_same|]. intros _. rewrite fst_bind. apply bind_same; [apply validate_same|]. intros _.
  rewrite fst_after. rewrite (filter_same _ (fun o => occupy_same_column r o ix)) by (intros o; apply occupy_same). destruct (negb _); reflexivity.
Qed.
