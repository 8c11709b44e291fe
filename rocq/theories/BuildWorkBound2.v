(** * BuildWorkBound2: the bound of every function of the builder. *)

From Verif Require Import PegFacts WorkOk CheckWorkSame BuildWork BuildWorkSame BuildWorkBound.
Local Open Scope nat_scope.

Create HintDb bb.
Ltac clock := repeat first [rewrite snd_bind | rewrite snd_after | rewrite snd_omap | rewrite snd_spend | rewrite snd_now].
(** Bounds of the calls in the goal. *)
Ltac calls := repeat match goal with
  | |- context [snd (?g ?p)] =>
      match type of p with pair => idtac end;
      let H := fresh "HC" in
      assert (H : snd (g p) + 50 <= 70 * weight p) by (auto with bb nocore);
      revert H; generalize (snd (g p)); intros ? H
  end.
Ltac open_inner := repeat match goal with
  | H : into_inner ?p = _ :: _ |- _ =>
      let W := fresh "W" in pose proof (weight_eq p) as W; rewrite H, weights_cons in W; clear H
  end.
Ltac strs := repeat match goal with
  | |- context [List.length (pairs_as_str ?l)] =>
      let H := fresh "HP" in pose proof (pairs_str_le l) as H; revert H; generalize (List.length (pairs_as_str l)); intros ? H
  | |- context [List.length (as_str ?p)] =>
      let W := fresh "W" in pose proof (weight_eq p) as W; revert W; generalize (List.length (as_str p)); intros ? W
  end.
Ltac leaf := unfold copying; clock; calls; open_inner; strs; repeat match goal with W : context [List.length (as_str ?p)] |- _ => revert W; generalize (List.length (as_str p)); intros ? W end; lia.
Ltac cases := repeat (clock; match goal with |- context [match ?x with _ => _ end] => destruct x eqn:? end).
Ltac bnd := cbv beta zeta; intros; repeat match goal with x := _ |- _ => subst x end;
  try match goal with |- context [snd (_ ?a)] => idtac end; cases; leaf.

Lemma ident_b p : snd (parse_ident_c p) + 50 <= 60 * weight p.
Proof.
  rewrite (weight_eq p). unfold parse_ident_c. destruct (into_inner p) as [|p1 l]; [cbn; lia|]. rewrite weights_cons, (weight_eq p1).
  pose proof (pairs_str_le (into_inner p1)). unfold copying. destruct (p_rule p1); clock; lia.
Qed.
Lemma string_b p : snd (parse_string_value_c p) + 50 <= 60 * weight p.
Proof.
  rewrite (weight_eq p). unfold parse_string_value_c.
  match goal with |- snd (fold_c ?f ?l ?b) + _ <= _ => assert (snd (fold_c f l b) <= 60 * weights l); [|lia] end.
  apply fold_bound. intros b a _. rewrite (weight_eq a).
  assert (G : forall f (b : str), (forall b q, In q (into_inner a) -> snd (f b q) + 1 <= 60 * weight q) -> snd (fold_c f (into_inner a) b) <= 60 * weights (into_inner a))
    by (intros f b0 H; now apply fold_bound).
  destruct (p_rule a); clock; try lia; match goal with |- snd (fold_c ?f _ ?b) + _ <= _ => specialize (G f b) end;
    (etransitivity; [apply Nat.add_le_mono_r, G; intros c q _; rewrite (weight_eq q); unfold copying; destruct (p_rule q); clock; lia|lia]).
Qed.
Lemma value_b p : snd (parse_value_c p) + 50 <= 60 * weight p.
Proof.
  rewrite (weight_eq p). unfold parse_value_c. destruct (into_inner p) as [|p1 l]; [cbn; lia|]. rewrite weights_cons.
  pose proof (string_b p1). pose proof (pairs_str_le (into_inner p1)). pose proof (weight_eq p1). unfold copying.
  destruct (p_rule p1); clock; try lia. destruct (into_inner p1) as [|p2 l2]; [cbn; lia|]. rewrite weights_cons in *. pose proof (weight_eq p2).
  destruct (p_rule p2); clock; lia.
Qed.
Lemma attribute_b p : snd (parse_attribute_c p) + 50 <= 62 * weight p.
Proof.
  rewrite (weight_eq p). unfold parse_attribute_c.
  match goal with |- snd (fold_c ?f ?l ?b) + _ <= _ => assert (snd (fold_c f l b) <= 62 * weights l); [|lia] end.
  apply fold_bound. intros b a _. pose proof (value_b a). pose proof (pairs_str_le (into_inner a)). pose proof (weight_eq a). unfold copying.
  destruct (p_rule a); clock; try lia. destruct (fst (parse_value_c a)); clock; lia.
Qed.

(** Reading and printing an attribute. *)
Lemma attribute_p p : snd (parse_attribute_c p) + match fst (parse_attribute_c p) with Ok a => 2 * attr_printing a + 20 | _ => 20 end <= 70 * weight p.
Proof.
  pose proof (attribute_b p). destruct (fst (parse_attribute_c p)) as [a|e|] eqn:E; try lia. apply attribute_printing in E. lia.
Qed.
Lemma up p n k : k <= 70 -> n + 50 <= k * weight p -> n + 50 <= 70 * weight p.
Proof. intros Hk H. etransitivity; [exact H|]. apply Nat.mul_le_mono_r. exact Hk. Qed.
Lemma ident_u p : snd (parse_ident_c p) + 50 <= 70 * weight p. Proof. eapply up; [|apply ident_b]; lia. Qed.
Lemma string_u p : snd (parse_string_value_c p) + 50 <= 70 * weight p. Proof. eapply up; [|apply string_b]; lia. Qed.
Lemma value_u p : snd (parse_value_c p) + 50 <= 70 * weight p. Proof. eapply up; [|apply value_b]; lia. Qed.
Lemma attribute_u p : snd (parse_attribute_c p) + 50 <= 70 * weight p. Proof. eapply up; [|apply attribute_b]; lia. Qed.
#[local] Hint Resolve ident_u string_u value_u attribute_u : bb.

(** A loop over the parts of [p]. *)
Lemma fold_u {B} (f : B -> pair -> clocked (outcome B)) p b :
  (forall b a, In a (into_inner p) -> snd (f b a) + 1 <= 70 * weight a) -> snd (fold_c f (into_inner p) b) + 50 <= 70 * weight p.
Proof. intros H. rewrite (weight_eq p). pose proof (fold_bound f 70 _ H b). lia. Qed.
Lemma map_u {B} (f : pair -> clocked (outcome B)) p :
  (forall a, In a (into_inner p) -> snd (f a) + 1 <= 70 * weight a) -> snd (map_c f (into_inner p)) + 50 <= 70 * weight p.
Proof. intros H. rewrite (weight_eq p). pose proof (map_bound f 70 _ H). lia. Qed.
Ltac pos := match goal with |- context [weight ?a] => pose proof (weight_eq a) end.
Ltac dead := clock; pos; lia.
(** One part: the calls, and what comes after them. *)
Ltac after_calls := repeat (clock; match goal with |- context [match ?x with _ => _ end] => destruct x eqn:? end); clock; lia.
Ltac part := match goal with |- context [p_rule ?a] => pose proof (weight_eq a); destruct (p_rule a) end; try (clock; lia).
Ltac one_call := clock; calls; after_calls.

Lemma decl_ident_u p : snd (parse_decl_ident_c p) + 50 <= 70 * weight p.
Proof.
  unfold parse_decl_ident_c. clock. match goal with |- context [map_c ?f ?l] => assert (H : snd (map_c f l) + 50 <= 70 * weight p) end.
  { apply map_u. intros a _. part. one_call. }
  destruct (fst _) as [l|e|]; try lia. destruct l as [|? [|? [|? ?]]]; clock; lia.
Qed.
Lemma property_p p : snd (parse_property_c p) + match fst (parse_property_c p) with Ok a => 2 * cloning (lit_value (pr_value a)) + 20 | _ => 20 end <= 70 * weight p.
Proof.
  unfold parse_property_c. pose proof (attribute_b p) as H. clock. rewrite fst_bind. destruct (fst (parse_attribute_c p)) as [a|e|] eqn:E; cbn [bind]; try lia.
  rewrite attribute_same in E. apply attribute_size in E. unfold attr_sized in E. destruct (at_value a); cbn [fst snd now pr_value throw_rules]; lia.
Qed.
Lemma attributes_u p : snd (parse_attributes_c p) + 50 <= 70 * weight p.
Proof. unfold parse_attributes_c. apply map_u. intros a _. part. one_call. Qed.
#[local] Hint Resolve decl_ident_u attributes_u : bb.
Lemma tset_u p : snd (parse_table_settings_c p) + 50 <= 70 * weight p.
Proof. unfold parse_table_settings_c. one_call. Qed.
Lemma gset_u p : snd (parse_table_group_settings_c p) + 50 <= 70 * weight p.
Proof. unfold parse_table_group_settings_c. one_call. Qed.
Lemma note_u p : snd (parse_note_decl_c p) + 50 <= 70 * weight p.
Proof.
  rewrite (weight_eq p). unfold parse_note_decl_c. enough (snd (note_decl_c (into_inner p)) <= 70 * weights (into_inner p)) by lia.
  induction (into_inner p) as [|p1 l IH]; [cbn; lia|]. cbn [note_decl_c]. rewrite weights_cons, (weight_eq p1). clock.
  destruct (p_rule p1); clock; try lia; (destruct (into_inner p1) as [|p2 l2]; [lia|]; rewrite weights_cons; pose proof (string_b p2); pose proof (weight_eq p2);
    unfold copying; destruct (p_rule p2); clock; lia).
Qed.
#[local] Hint Resolve tset_u gset_u note_u : bb.
(** A part that is a loop itself. *)
Ltac nest a := clock; match goal with |- context [fold_c ?f ?l ?c] => assert (snd (fold_c f l c) + 50 <= 70 * weight a) as ?; [|lia] end;
  apply fold_u; intros ? ? _.
Ltac rest := try solve [one_call].
Lemma project_u p : snd (parse_project_decl_c p) + 50 <= 70 * weight p.
Proof.
  unfold parse_project_decl_c. apply fold_u. intros b a _. part; rest. nest a. part; rest.
  pose proof (property_p a0). clock. destruct (fst (parse_property_c a0)); clock; lia.
Qed.
Lemma arg_u p : snd (parse_col_type_arg_c p) + 50 <= 70 * weight p.
Proof. unfold parse_col_type_arg_c. apply fold_u. intros b a _. part. one_call. Qed.
Lemma array_u p : snd (parse_col_type_array_c p) + 50 <= 70 * weight p.
Proof. unfold parse_col_type_array_c. apply fold_u. intros b a _. part. unfold copying. clock. lia. Qed.
Lemma ref_ident_u p : snd (parse_ref_ident_c p) + 50 <= 70 * weight p.
Proof.
  unfold parse_ref_ident_c. clock. match goal with |- context [fold_c ?f ?l ?c] => assert (H : snd (fold_c f l c) + 50 <= 70 * weight p) end.
  { apply fold_u. intros [toks comps] a _. part; rest. nest a. part; rest. }
  destruct (fst _) as [[l1 l2]|e|]; try lia. cbn [fst snd]. destruct l1 as [|? [|? [|? ?]]]; clock; lia.
Qed.
#[local] Hint Resolve project_u arg_u array_u ref_ident_u : bb.
Lemma ref_inline_u p : snd (parse_ref_inline_c p) + 50 <= 70 * weight p.
Proof. unfold parse_ref_inline_c. apply fold_u. intros b a _. part; rest. unfold copying. clock. lia. Qed.
#[local] Hint Resolve ref_inline_u : bb.
Ltac printed q := pose proof (attribute_p q); clock; destruct (fst (parse_attribute_c q)); clock; try lia.
Lemma col_settings_u p : snd (parse_col_settings_c p) + 50 <= 70 * weight p.
Proof. unfold parse_col_settings_c. apply fold_u. intros b a _. part. nest a. part; rest. printed a0. Qed.
Lemma iident_u p : snd (parse_indexes_ident_c p) + 50 <= 70 * weight p.
Proof.
  rewrite (weight_eq p). unfold parse_indexes_ident_c. destruct (into_inner p) as [|p1 l]; [cbn; lia|]. rewrite weights_cons.
  pose proof (ident_u p1). pose proof (weight_eq p1). unfold copying. destruct (p_rule p1); clock; try lia.
  destruct (into_inner p1) as [|p2 l2]; [cbn; lia|]. rewrite weights_cons in *. pose proof (weight_eq p2). destruct (p_rule p2); clock; lia.
Qed.
Lemma iset_u p : snd (parse_indexes_settings_c p) + 50 <= 70 * weight p.
Proof.
  unfold parse_indexes_settings_c. apply fold_u. intros b a _. part. printed a. destruct b as [sp attrs ty un pk nt nm].
  unfold attr_value_string_c.
  repeat (clock; match goal with |- context [if ?x then _ else _] => destruct x end); clock; try lia.
  destruct (fst _) as [v|]; clock; try lia. destruct (indexes_type_from_str v); clock; lia.
Qed.
#[local] Hint Resolve col_settings_u iident_u iset_u : bb.
Lemma idef_u p : snd (parse_indexes_single_multi_c p) + 50 <= 70 * weight p.
Proof. unfold parse_indexes_single_multi_c. apply fold_u. intros b a _. part; rest. Qed.
#[local] Hint Resolve idef_u : bb.
Lemma iblock_u p : snd (parse_indexes_block_c p) + 50 <= 70 * weight p.
Proof. unfold parse_indexes_block_c. apply fold_u. intros b a _. part; rest. Qed.
#[local] Hint Resolve iblock_u : bb.
Lemma idecl_u p : snd (parse_indexes_decl_c p) + 50 <= 70 * weight p.
Proof.
  rewrite (weight_eq p). unfold parse_indexes_decl_c. destruct (into_inner p) as [|p1 l]; [cbn; lia|]. rewrite weights_cons.
  pose proof (iblock_u p1). pose proof (weight_eq p1). destruct (p_rule p1); clock; lia.
Qed.
Lemma eset_u p : snd (parse_enum_settings_c p) + 50 <= 70 * weight p.
Proof. unfold parse_enum_settings_c. apply fold_u. intros b a _. part. printed a. Qed.
#[local] Hint Resolve idecl_u eset_u : bb.
Lemma evalue_u p : snd (parse_enum_value_c p) + 50 <= 70 * weight p.
Proof. unfold parse_enum_value_c. apply fold_u. intros b a _. part; rest. Qed.
#[local] Hint Resolve evalue_u : bb.
Lemma eblock_u p : snd (parse_enum_block_c p) + 50 <= 70 * weight p.
Proof. unfold parse_enum_block_c. apply map_u. intros a _. part; rest. Qed.
#[local] Hint Resolve eblock_u : bb.
Lemma enum_u p : snd (parse_enum_decl_c p) + 50 <= 70 * weight p.
Proof. unfold parse_enum_decl_c. apply fold_u. intros b a _. part; rest. Qed.
Lemma rset_u p : snd (parse_rel_settings_c p) + 50 <= 70 * weight p.
Proof.
  unfold parse_rel_settings_c, parse_ref_action_c. apply fold_u. intros b a _. part. printed a.
  repeat (clock; match goal with |- context [if ?x then _ else _] => destruct x end); clock; try lia; destruct (fst _); clock; lia.
Qed.
#[local] Hint Resolve enum_u rset_u : bb.
Lemma rstmt_u p : snd (parse_ref_stmt_c p) + 50 <= 70 * weight p.
Proof. unfold parse_ref_stmt_c. apply fold_u. intros [sp nm rel lhs rhs st] a _. part; rest. unfold copying. clock. lia. Qed.
#[local] Hint Resolve rstmt_u : bb.
Lemma rinner_u l : forall n, snd (ref_decl_inner_c n l) <= 70 * weights l.
Proof.
  induction l as [|p l IH]; intros n; [cbn; lia|]. cbn [ref_decl_inner_c]. rewrite weights_cons. clock. pose proof (rstmt_u p). pose proof (ident_u p). pose proof (weight_eq p).
  destruct (p_rule p); clock; try lia. destruct (fst (parse_ident_c p)) as [i|e|]; try lia. specialize (IH (Some i)). lia.
Qed.
Lemma ref_u p : snd (parse_ref_decl_c p) + 50 <= 70 * weight p.
Proof.
  rewrite (weight_eq p). unfold parse_ref_decl_c. enough (snd (ref_decl_c (into_inner p)) <= 70 * weights (into_inner p)) by lia.
  induction (into_inner p) as [|p1 l IH]; [cbn; lia|]. cbn [ref_decl_c]. rewrite weights_cons, (weight_eq p1). clock. pose proof (rinner_u (into_inner p1) None).
  destruct (p_rule p1); clock; try lia; (destruct (fst (ref_decl_inner_c None (into_inner p1))) as [[r|]|e|]; clock; lia).
Qed.
Lemma group_u p : snd (parse_table_group_decl_c p) + 50 <= 70 * weight p.
Proof.
  unfold parse_table_group_decl_c. apply fold_u. intros [sp id nt items st] a _. part; rest. nest a.
  match goal with |- context [match ?x with mkGroup _ _ _ _ _ => _ end] => destruct x end. part; rest.
Qed.
#[local] Hint Resolve ref_u group_u : bb.

