(** * CheckWorkMain: the bound for whole schemas and texts. *)

From Verif Require Import SizeOk Size CheckWorkSame CheckWorkBound CheckWorkBound2.
From Verif Require Import Parser Api SynMain ParseFacts CheckFacts2.
From Verif Require Import CheckWork.
From Verif Require Import Syntax Size.
Local Open Scope nat_scope.

(** ** Weight and size *)
Lemma mapped_length {A B} (f : B -> nat) (g : A -> B) l : (forall a, 1 <= f (g a)) -> List.length l <= total f (map g l).
Proof. intros H. rewrite total_map. apply total_length. auto. Qed.
Lemma name_one w : 1 <= name_size w.
Proof. unfold name_size. lia. Qed.
Lemma name_len w : List.length w <= name_size w.
Proof. unfold name_size. lia. Qed.
Lemma attr_one a : 1 <= attr_size a.
Proof. unfold attr_size. pose proof (name_one (fst a)). lia. Qed.
Lemma value_one v : 1 <= value_size v.
Proof. destruct v; cbn [value_size]; try apply name_one; lia. Qed.
Lemma attrs_le l : List.length l <= total attr_size (map e_attr l).
Proof. rewrite total_map. apply total_length. intros. apply attr_one. Qed.
Lemma opt_attrs_le {T} (f : T -> list attribute_t) o : attrs_w f o <= attrs_size (option_map (fun x => map e_attr (f x)) o).
Proof. destruct o as [st|]; cbn [attrs_w given option_map attrs_size]; [pose proof (attrs_le (f st)); lia|lia]. Qed.
Lemma end_le r : 1 + end_w r <= end_size (e_ref_end r).
Proof.
  unfold end_size, end_w, decl_size, e_ref_end. cbn [e_schema e_table e_cols fst snd]. rewrite total_map.
  pose proof (name_one (id_str (ri_table r))). assert (List.length (ri_compositions r) <= total (fun a => name_size (id_str a)) (ri_compositions r)) by (apply total_length; intros; apply name_one). lia.
Qed.
Lemma inline_le r : inline_w r <= inline_size (e_inline r).
Proof. unfold inline_w, inline_size, e_inline. cbn [snd]. pose proof (end_le (rin_rhs r)). lia. Qed.
Lemma type_le t : type_w t <= type_size (e_type t).
Proof.
  unfold type_w, type_size, e_type. cbn [y_name y_args y_dims]. assert (List.length (ct_args t) <= total value_size (ct_args t)) by (apply total_length; intros; apply value_one).
  destruct (ct_type_name t) as [|x|?| | | | | | | | | | | | | | | | | | | | | | | | | | | | | | | | | | | | | | | | |]; try lia. pose proof (name_len x). lia.
Qed.
Lemma col_le c : col_w c <= col_size (e_col c).
Proof.
  unfold col_w, col_size, e_col. cbn [c_name c_type c_settings]. pose proof (name_one (id_str (tc_name c))). pose proof (type_le (tc_type c)).
  destruct (tc_settings c) as [st|]; cbn [attrs_w given option_map]; [|lia]. unfold e_col_settings. cbn [s_attrs s_refs]. pose proof (attrs_le (cs_attributes st)).
  rewrite (total_map inline_size). assert (total inline_w (cs_refs st) <= total (fun a => inline_size (e_inline a)) (cs_refs st)) by (apply total_le; intros; apply inline_le). lia.
Qed.
Lemma def_le d : def_w d <= index_size (e_index d).
Proof.
  unfold def_w, index_size, e_index. cbn [x_cols x_settings]. pose proof (opt_attrs_le is_attributes (idf_settings d)). rewrite total_map.
  match goal with |- context [total ?f (idf_cols d)] => assert (List.length (idf_cols d) <= total f (idf_cols d)) end.
  { apply total_length. intros [i|l] _; cbn [e_index_col]; [apply name_one|apply value_one]. }
  lia.
Qed.
Lemma block_le b : block_w b <= block_size (e_block b).
Proof.
  destruct b as [p|t|g|n|r|e]; cbn [block_w e_block]; unfold block_size.
  - unfold project_w, e_project. cbn [p_name p_props p_notes]. 
    match goal with |- context [total ?f (map e_prop (pj_properties p))] => assert (List.length (pj_properties p) <= total f (map e_prop (pj_properties p))) end.
    { apply mapped_length. intros x. pose proof (name_one (fst (e_prop x))). lia. }
    lia.
  - unfold table_w, e_table_block. cbn [t_schema t_name t_alias t_settings t_cols t_notes t_indexes]. pose proof (opt_attrs_le ts_attributes (tb_settings t)). rewrite (total_map col_size).
    assert (total col_w (tb_cols t) <= total (fun a => col_size (e_col a)) (tb_cols t)) by (apply total_le; intros; apply col_le).
    assert (defs_w (tb_indexes t) <= total (fun l => 1 + total index_size l) (opt_list (fun b => map e_index (ib_defs b)) (tb_indexes t))).
    { destruct (tb_indexes t) as [ib|]; cbn [defs_w given opt_list total]; [|lia]. rewrite total_map. assert (total def_w (ib_defs ib) <= total (fun a => index_size (e_index a)) (ib_defs ib)) by (apply total_le; intros; apply def_le). lia. }
    lia.
  - unfold group_w, e_group. cbn [g_name g_settings g_notes g_items]. rewrite (total_map decl_size).
    match goal with |- context [total ?f (tg_items g)] => assert (List.length (tg_items g) <= total f (tg_items g)) end.
    { apply total_length. intros x _. unfold decl_size. cbn [fst snd]. pose proof (name_one (id_str (gi_ident_alias x))). lia. }
    lia.
  - lia.
  - unfold rblock_w, e_ref. cbn [f_name f_lhs f_rhs f_settings]. pose proof (opt_attrs_le rs_attributes (rb_settings r)). pose proof (end_le (rb_lhs r)). pose proof (end_le (rb_rhs r)). lia.
  - unfold enum_w, e_enum. cbn [m_schema m_name m_values]. rewrite total_map.
    match goal with |- _ <= _ + (_ + total ?f (en_values e)) => assert (total evalue_w (en_values e) <= total f (en_values e)) end.
    { apply total_le. intros x _. unfold evalue_w. cbn [fst snd]. pose proof (name_one (id_str (ev_value x))). pose proof (opt_attrs_le evs_attributes (ev_settings x)). lia. }
    lia.
Qed.
Lemma weight_size x : weight x <= schema_size (meaning x).
Proof. unfold weight, schema_size, meaning. rewrite total_map. apply total_le. intros b _. apply block_le. Qed.

(** ** Parts of a schema *)
Lemma parts_w x : total table_w (tables x) + total enum_w (enums x) + total group_w (table_groups x) + total rblock_w (refs x) + total project_w (projects x) <= weight x.
Proof.
  unfold weight, tables, enums, table_groups, refs, projects, filter_map. induction (sb_blocks x) as [|b l IH]; [reflexivity|]. cbn [flat_map total]. rewrite !total_app.
  destruct b; cbn [block_w total]; lia.
Qed.
Lemma concat_total {A} (f : A -> nat) ls : total f (List.concat ls) = total (total f) ls.
Proof. induction ls as [|l ls IH]; [reflexivity|]. cbn [List.concat total]. rewrite total_app. lia. Qed.
Lemma f2_total {A B} (R : A -> B -> Prop) (f : A -> nat) (g : B -> nat) l m : Forall2 R l m -> (forall a b, R a b -> g b <= f a) -> total g m <= total f l.
Proof. intros H K. induction H as [|a b l m H _ IH]; [reflexivity|]. cbn [total]. pose proof (K _ _ H). lia. Qed.
Lemma f2_right {A B} (R : A -> B -> Prop) l m b : Forall2 R l m -> In b m -> exists a, In a l /\ R a b.
Proof. intros H. induction H as [|a c l m H _ IH]; intros []; [subst; exists a; split; [left; reflexivity|exact H]|]. destruct (IH H0) as (y & Hy & Ry). exists y. split; [right; exact Hy|exact Ry]. Qed.
Lemma f2_len {A B} (R : A -> B -> Prop) l m : Forall2 R l m -> List.length m = List.length l.
Proof. induction 1; cbn [List.length]; congruence. Qed.

Theorem analyze_cost x Q : 1 + List.length (sb_input x) <= Q -> weight x < Q -> check_work x <= 200 * (Q * Q * Q).
Proof.
  intros HI HW. unfold check_work. set (input := sb_input x) in *. pose proof (parts_w x) as HP.
  assert (Q2 : Q <= Q * Q) by (rewrite <- (Nat.mul_1_r Q) at 1; apply Nat.mul_le_mono_l; lia).
  assert (Q3 : Q * Q <= Q * Q * Q) by (rewrite <- (Nat.mul_1_r (Q * Q)) at 1; apply Nat.mul_le_mono_l; lia).
  assert (HB : List.length (sb_blocks x) <= weight x) by (apply total_length; intros [] _; cbn; unfold project_w, table_w, group_w, rblock_w, enum_w; lia).
  set (T := total table_w (tables x)) in *. set (E := total enum_w (enums x)) in *. set (G := total group_w (table_groups x)) in *. set (R := total rblock_w (refs x)) in *.
  assert (HTl : List.length (tables x) <= T) by (apply total_length; intros; unfold table_w; lia).
  assert (HRl : List.length (refs x) <= R) by (apply total_length; intros; unfold rblock_w; lia).
  assert (U : forall n c, n <= Q -> c * n * Q <= c * (Q * Q)) by (intros n c Hn; rewrite <- Nat.mul_assoc; apply Nat.mul_le_mono_l, mul_r; exact Hn).
  eapply Nat.le_trans; [apply (cost_bind _ _ (Q + (Q + (2 * Q + Q * Q))) (4 * Q + (12 * T * Q + (12 * E * Q + (7 * G * Q + (22 * T * Q + (2 * Q + (18 * T * Q + (100 * Q * (Q * Q) + 0)))))))))|].
  - unfold check_projects_c. cbv zeta. apply cost_after; [cbn [spend snd]; lia|]. apply cost_bind; [apply if_cost; [apply throw_cost; exact HI|apply now_cost]|]. intros _ _. cbn [spend fst].
    destruct (projects x) as [|p l] eqn:Ep; [apply (throw_le Q input HI); lia|].
    assert (Hp : 1 + List.length (pj_properties p) <= Q). { cbn [total] in HP. unfold project_w at 1 in HP. lia. }
    eapply Nat.le_trans; [apply props_cost; [exact HI|exact Hp]|]. assert (List.length (pj_properties p) * Q <= Q * Q) by (apply mul_r; lia). lia.
  - intros _ _. cbv zeta. apply cost_after; [cbn [spend snd]; lia|].
    assert (I1 : forall ix, fst (index_table_c (tables x) input indexer0) = Ok ix -> small Q T ix).
    { intros ix Ex. apply (fold_ok (index_table1_c input) table_w (small Q) T) with (m := 0) (b := indexer0); [|apply small0|unfold T; lia|exact Ex].
      intros m b a b' Hb Hm. apply index_table1_small; [exact HI|exact Hb|lia]. }
    assert (I2 : forall ix ix', small Q T ix -> fst (index_enums_c (enums x) input ix) = Ok ix' -> small Q (T + E) ix').
    { intros ix ix' Hx Ex. apply (fold_ok (index_enum1_c input) enum_w (small Q) (T + E)) with (m := T) (b := ix); [|exact Hx|unfold E; lia|exact Ex].
      intros m b a b' Hb Hm. apply index_enum1_small; [exact HI|exact Hb|lia]. }
    assert (I3 : forall ix ix', small Q (T + E) ix -> fst (index_table_groups_c (table_groups x) input ix) = Ok ix' -> small Q (T + E + G) ix').
    { intros ix ix' Hx Ex. apply (fold_ok (index_table_group1_c input) group_w (small Q) (T + E + G)) with (m := T + E) (b := ix); [|exact Hx|unfold G; lia|exact Ex].
      intros m b a b' Hb Hm. apply index_group1_small; [exact HI|exact Hb|lia]. }
    apply cost_bind.
    { unfold T. rewrite <- total_scale. apply (cost_fold (index_table1_c input) table_w (fun t => 12 * table_w t) (small Q) T) with (m := 0); [| |apply small0|unfold T; lia].
      - intros m b a Hb Hm. apply (index_table1_cost Q input HI m); [exact Hb|lia].
      - intros m b a b' Hb Hm. apply index_table1_small; [exact HI|exact Hb|lia]. }
    intros ix1 E1. apply I1 in E1. apply cost_bind.
    { unfold E. rewrite <- total_scale. apply (cost_fold (index_enum1_c input) enum_w (fun t => 12 * enum_w t) (small Q) (T + E)) with (m := T); [| |exact E1|unfold E; lia].
      - intros m b a Hb Hm. apply (index_enum1_cost Q input HI m); [exact Hb|lia].
      - intros m b a b' Hb Hm. apply index_enum1_small; [exact HI|exact Hb|lia]. }
    intros ix2 E2. apply (I2 _ _ E1) in E2. apply cost_bind.
    { unfold G. rewrite <- total_scale. apply (cost_fold (index_table_group1_c input) group_w (fun t => 7 * group_w t) (small Q) (T + E + G)) with (m := T + E); [| |exact E2|unfold G; lia].
      - intros m b a Hb Hm. apply (index_group1_cost Q input HI m); [exact Hb|lia].
      - intros m b a b' Hb Hm. apply index_group1_small; [exact HI|exact Hb|lia]. }
    intros ix E3. apply (I3 _ _ E2) in E3. apply cost_bind.
    { unfold T. rewrite <- total_scale. apply cost_map. intros t Ht. apply check_table_cost; [exact HI|]. pose proof (total_in table_w _ _ Ht). fold T in H. lia. }
    intros inl Einl.
    assert (Hinl : total iref_w (List.concat inl) <= T).
    { rewrite concat_total. eapply (f2_total (fun t rs => total iref_w rs <= table_w t)); [|auto]. eapply map_ok; [|exact Einl]. intros t rs _ Er.
      rewrite table_same in Er. unfold check_table in Er. apply bind_ok in Er as (ti & _ & Er). apply bind_ok in Er as (_ & _ & Er). injection Er as <-. apply table_refs_w. }
    assert (Hil : List.length (List.concat inl) <= T) by (eapply Nat.le_trans; [apply (total_length iref_w); intros; unfold iref_w; lia|exact Hinl]).
    apply cost_after; [cbn [spend snd]; lia|]. cbn [spend fst]. set (irs := map indexed_ref_from_block (refs x) ++ List.concat inl).
    assert (Hirs : total iref_w irs < Q).
    { unfold irs. rewrite total_app, total_map. change (total (fun a => iref_w (indexed_ref_from_block a)) (refs x)) with R. lia. }
    apply cost_bind.
    { unfold T. rewrite <- total_scale. apply cost_map. intros t Ht. apply (types_cost Q input HI (T + E + G)); [exact E3|lia|]. pose proof (total_in table_w _ _ Ht). fold T in H. lia. }
    intros ts Ets. assert (Fts : Forall2 (fun _ t' => slim Q t') (tables x) ts).
    { eapply map_ok; [|exact Ets]. intros t t' Ht. apply types_slim; [exact HI|]. pose proof (total_in table_w _ _ Ht). fold T in H. lia. }
    apply cost_bind; [|intros; apply now_cost]. eapply Nat.le_trans; [apply (cost_fold_in _ (fun r => 100 * iref_w r) (Q * Q))|].
    + intros [] r Hr. apply (check_ref_cost Q input HI (T + E + G)); [exact E3|lia| | |exact Hirs|exact Hr].
      * rewrite (f2_len _ _ _ Fts). lia.
      * intros t Ht. destruct (f2_right _ _ _ _ Fts Ht) as (_ & _ & S1). exact S1.
    + rewrite total_scale. apply mul_r. lia.
  - pose proof (U T 12 ltac:(lia)). pose proof (U E 12 ltac:(lia)). pose proof (U G 7 ltac:(lia)). pose proof (U T 22 ltac:(lia)). pose proof (U T 18 ltac:(lia)). lia.
Qed.
Theorem text_check_cost t x : parse_dbml_unchecked t = Some (Ok x) -> check_work x <= 200 * (List.length t + 1) ^ 3.
Proof.
  intros H. pose proof (schema_no_larger _ _ H) as Hs. pose proof (weight_size x) as Hw.
  assert (Ei : sb_input x = t) by apply (unchecked_ok _ _ H).
  eapply Nat.le_trans; [apply (analyze_cost x (List.length t + 1)); [rewrite Ei; lia|lia]|]. cbn [Nat.pow]. lia.
Qed.
