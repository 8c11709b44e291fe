(** * CheckWorkBound2: tables, types and references. *)

From Verif Require Import Size CheckWorkSame CheckWorkBound.
From Verif Require Import CheckWork.
Local Open Scope nat_scope.

Section Bound2.
  Variables (Q : nat) (input : str).
  Hypothesis HI : 1 + List.length input <= Q.
  Local Notation throw_cost := (throw_cost Q input HI).

  Lemma throw_le {A} e sp k : Q <= k -> snd (@throw_c A e sp input) <= k.
  Proof. intros H. eapply Nat.le_trans; [apply throw_cost|exact H]. Qed.

  (** *** Column settings and index definitions *)
  Definition light (m : nat) (ti : table_indexer) : Prop :=
    List.length (unique_list ti) + total (@List.length str) (unique_list ti) <= 2 * m /\ List.length (indexed_list ti) <= m.
  Lemma col_settings_cost ti c : 1 + snd (check_col_settings_c input ti c) <= 5 * col_w c * Q.
  Proof.
    unfold check_col_settings_c. assert (Hc : 1 + attrs_w cs_attributes (tc_settings c) <= col_w c) by (unfold col_w; lia).
    destruct (tc_settings c) as [st|]; [|cbn [now snd]; assert (1 * Q <= 5 * col_w c * Q) by (apply mul_r; lia); lia]. cbn [attrs_w given] in Hc.
    eapply Nat.le_trans; [apply (Nat.add_le_mono_l _ (Q + ((2 + 2 * List.length (cs_attributes st)) * Q + Q)))|].
    - apply cost_bind; [apply if_cost; [|apply now_cost]; apply if_cost; [apply throw_cost|]; apply if_cost; [apply throw_cost|]; apply if_cost; [apply throw_cost|apply now_cost]|]. intros ti' _. cbv zeta. apply cost_after; [cbn [spend snd]; set (u := List.length _); assert ((2 + 2 * u) * 1 <= (2 + 2 * u) * Q) by (apply Nat.mul_le_mono_l; lia); lia|].
      apply if_cost; [apply throw_cost|apply now_cost].
    - eapply Nat.le_trans; [|apply (mul_r (5 + 2 * List.length (cs_attributes st))); lia]. lia.
  Qed.
  Lemma col_settings_light m ti c ti' : light m ti -> fst (check_col_settings_c input ti c) = Ok ti' -> light (m + col_w c) ti'.
  Proof.
    intros [L1 L2] E. assert (Hc : 1 <= col_w c) by (unfold col_w; lia). unfold check_col_settings_c in E. destruct (tc_settings c) as [st|]; [|injection E as <-; split; lia].
    rewrite fst_bind in E. apply bind_ok in E as (ti1 & E1 & E). rewrite fst_after in E.
    assert (H1 : unique_list ti1 = unique_list ti /\ indexed_list ti1 = indexed_list ti).
    { destruct (cs_is_pk st); [|injection E1 as <-; auto]. destruct (negb _); [exfalso; eapply throw_not; exact E1|]. destruct (nullable_is_null _); [exfalso; eapply throw_not; exact E1|].
      destruct (negb _); [exfalso; eapply throw_not; exact E1|]. injection E1 as <-. auto. }
    destruct H1 as [U1 U2]. destruct (fst (spend _ _)); [exfalso; eapply throw_not; exact E|]. injection E as <-. unfold light.
    destruct (cs_is_unique st); cbn [unique_list indexed_list]; rewrite U1, U2; [rewrite app_length, total_app; cbn [List.length total]|]; lia.
  Qed.
  Lemma forall_mem_cost ids u : snd (forall_c (fun id => mem_c id u) ids) <= List.length ids * (2 + List.length u).
  Proof. eapply Nat.le_trans; [apply (cost_forall _ (fun _ => 2 + List.length u)); intros; cbn; lia|]. rewrite total_const. lia. Qed.
  Lemma def_cost t ib m ti d : light m ti -> m + def_w d < Q -> 1 + List.length (tb_cols t) <= Q ->
    1 + snd (check_index_def_c t ib input ti d) <= 20 * def_w d * Q.
  Proof.
    intros [L1 L2] Hm Ht. set (c := List.length (idf_cols d)). set (a := attrs_w is_attributes (idf_settings d)).
    assert (Hd : 1 + a <= def_w d /\ c + a <= def_w d) by (unfold def_w, a, c; lia).
    pose proof (pick_length idx_col_name (idf_cols d)) as Hids. fold c in Hids. set (ids := filter_map idx_col_name (idf_cols d)) in *.
    eapply Nat.le_trans; [apply (Nat.add_le_mono_l _ (Q + (total (fun _ => 3) (idf_cols d) * Q + ((2 + a) * Q + (Q + (((2 + 4 * c) * Q + Q) + ((3 + c) * Q + Q))))))) |].
    - unfold check_index_def_c. fold ids. apply cost_bind; [apply if_cost; [apply throw_cost|apply now_cost]|]. intros _ _. cbv zeta. apply cost_bind.
      { apply cost_fold_in. intros [] [i|e] _; [|cbn; lia]. eapply Nat.le_trans; [apply (Nat.add_le_mono_l _ (Q + Q))|lia]. unfold check_index_col1_c.
        apply cost_after; [cbn; lia|]. apply if_cost; [apply now_cost|apply throw_cost]. }
      intros _ _.
      assert (X : forall (f : list str * option indexes_type -> bool) l, List.length l <= m -> snd (exists_c (fun p => spend (2 + List.length ids) (f p)) l) <= (3 + c) * Q).
      { intros f l Hl. eapply Nat.le_trans; [apply (cost_exists _ (fun _ => 3 + List.length ids)); intros; cbn; lia|]. rewrite total_const. apply Nat.mul_le_mono; lia. }
      unfold a. destruct (idf_settings d) as [st|]; cbn [attrs_w given].
      + apply cost_bind; [apply attrs_cost; [exact HI|]; unfold a in Hd; cbn [attrs_w given] in Hd; lia|]. intros _ _. apply cost_bind; [apply if_cost; [apply throw_cost|apply now_cost]|]. intros _ _.
        apply cost_bind.
        * apply if_cost; [apply if_cost; [|apply now_cost]; apply throw_le; lia|]. apply if_cost; [|apply now_cost].
          apply cost_after; [|apply if_cost; [apply throw_cost|apply now_cost]].
          eapply Nat.le_trans; [apply (cost_exists _ (fun u => 1 + List.length ids * (2 + List.length u))); intros u _; pose proof (forall_mem_cost ids u); lia|].
          rewrite total_plus, total_const, total_scale, total_plus, total_const.
          assert (List.length ids * (2 * List.length (unique_list ti) + total (@List.length str) (unique_list ti)) <= c * (4 * Q)) by (apply Nat.mul_le_mono; lia). lia.
        * intros ti' E. assert (H2 : List.length (indexed_list ti') <= m).
          { destruct (is_is_pk st); [destruct (negb _); [exfalso; eapply throw_not; exact E|]; injection E as <-; exact L2|]. destruct (is_is_unique st); [|injection E as <-; exact L2].
            rewrite fst_after in E. destruct (fst (exists_c _ _)); [exfalso; eapply throw_not; exact E|]. injection E as <-. exact L2. }
          apply if_cost; [|apply now_cost]. apply cost_after; [apply X; exact H2|]. apply if_cost; [apply throw_cost|apply now_cost].
      + eapply Nat.le_trans; [apply (cost_after _ _ ((3 + c) * Q) Q); [apply X; exact L2|apply if_cost; [apply throw_cost|apply now_cost]]|]. lia.
    - rewrite total_const. fold c. eapply Nat.le_trans; [|apply (mul_r (12 + 8 * c + a)); lia]. lia.
  Qed.
  Lemma def_light t ib m ti d ti' : light m ti -> fst (check_index_def_c t ib input ti d) = Ok ti' -> light (m + def_w d) ti'.
  Proof.
    intros [L1 L2] E. assert (Hd : 1 <= def_w d /\ List.length (idf_cols d) <= def_w d) by (unfold def_w; lia).
    pose proof (pick_length idx_col_name (idf_cols d)) as Hids. unfold check_index_def_c in E. set (ids := filter_map idx_col_name (idf_cols d)) in *.
    rewrite fst_bind in E. apply bind_ok in E as (_ & _ & E). cbv zeta in E. rewrite fst_bind in E. apply bind_ok in E as (_ & _ & E).
    destruct (idf_settings d) as [st|].
    - rewrite fst_bind in E. apply bind_ok in E as (_ & _ & E). rewrite fst_bind in E. apply bind_ok in E as (_ & _ & E). rewrite fst_bind in E. apply bind_ok in E as (ti1 & E1 & E).
      assert (H1 : List.length (unique_list ti1) + total (@List.length str) (unique_list ti1) <= 2 * (m + def_w d) /\ indexed_list ti1 = indexed_list ti).
      { destruct (is_is_pk st); [destruct (negb _); [exfalso; eapply throw_not; exact E1|]; injection E1 as <-; cbn [unique_list indexed_list]; split; [lia|reflexivity]|].
        destruct (is_is_unique st); [|injection E1 as <-; split; [lia|reflexivity]]. rewrite fst_after in E1. destruct (fst (exists_c _ _)); [exfalso; eapply throw_not; exact E1|].
        injection E1 as <-. cbn [unique_list indexed_list]. rewrite app_length, total_app. cbn [List.length total]. split; [lia|reflexivity]. }
      destruct H1 as [H1 H2]. destruct (is_some _); [|injection E as <-; split; [exact H1|rewrite H2; lia]]. rewrite fst_after in E.
      destruct (fst (exists_c _ _)); [exfalso; eapply throw_not; exact E|]. injection E as <-. split; cbn [unique_list indexed_list]; [exact H1|]. rewrite app_length, H2. cbn [List.length]. lia.
    - rewrite fst_after in E. destruct (fst (exists_c _ _)); [exfalso; eapply throw_not; exact E|]. injection E as <-. split; cbn [unique_list indexed_list]; [lia|]. rewrite app_length. cbn [List.length]. lia.
  Qed.
  Lemma inline_refs_w t c : total iref_w (col_inline_refs t c) <= col_w c.
  Proof. clear HI.
    unfold col_inline_refs, from_inline. rewrite total_map. unfold col_w. destruct (tc_settings c) as [st|]; cbn [given]; [|cbn; lia].
    assert (H : total (fun a => iref_w (mkIndexedRef (rin_span a) (rin_rel a) (mkRefIdent (rin_span a) (ti_schema (tb_ident t)) (ti_name (tb_ident t)) [tc_name c]) (rin_rhs a) None)) (cs_refs st) <= total inline_w (cs_refs st)).
    { apply total_le. intros r _. unfold iref_w, inline_w, end_w. cbn. lia. }
    lia.
  Qed.
  Lemma table_refs_w t : total iref_w (flat_map (col_inline_refs t) (tb_cols t)) <= table_w t.
  Proof. clear HI. rewrite total_flat. unfold table_w. assert (total (fun a => total iref_w (col_inline_refs t a)) (tb_cols t) <= total col_w (tb_cols t)) by (apply total_le; intros; apply inline_refs_w). lia. Qed.
  Lemma cols_length t : List.length (tb_cols t) <= total col_w (tb_cols t).
  Proof. clear HI. apply total_length. intros. unfold col_w. lia. Qed.
  Lemma check_table_cost t : table_w t < Q -> 1 + snd (check_table_c input t) <= 22 * table_w t * Q.
  Proof.
    intros Ht. pose proof (cols_length t) as Hl. unfold table_w in Ht.
    eapply Nat.le_trans; [apply (Nat.add_le_mono_l _ (total (fun c => 5 * col_w c) (tb_cols t) * Q + (20 * defs_w (tb_indexes t) * Q + Q)))|].
    - unfold check_table_c. apply cost_bind; [apply cost_fold_in; intros b a _; apply col_settings_cost|]. intros ti Eti.
      assert (L : light (total col_w (tb_cols t)) ti).
      { apply (fold_ok (check_col_settings_c input) col_w light (total col_w (tb_cols t))) with (m := 0) (b := table_indexer0) (b' := ti); [|split; cbn; lia|lia|exact Eti].
        intros m b a b' Hb _ E. eapply col_settings_light; eassumption. }
      apply cost_bind.
      + destruct (tb_indexes t) as [ib|] eqn:Eib; [|apply now_cost]. rewrite <- (Nat.add_0_r (20 * _ * Q)). apply cost_bind; [|intros; apply now_cost]. cbn [defs_w given] in *. rewrite <- total_scale.
        apply (cost_fold (check_index_def_c t ib input) def_w (fun d => 20 * def_w d) light (total col_w (tb_cols t) + total def_w (ib_defs ib))) with (m := total col_w (tb_cols t)); [| |exact L|lia].
        * intros m b a Hb Hm. apply (def_cost t ib m); [exact Hb| |]; lia.
        * intros m b a b' Hb _ E. eapply def_light; eassumption.
      + intros _ _. cbv zeta. cbn [spend snd]. pose proof (table_refs_w t) as Hr. unfold table_w in Hr.
        assert (List.length (flat_map (col_inline_refs t) (tb_cols t)) <= total iref_w (flat_map (col_inline_refs t) (tb_cols t))) by (apply total_length; intros; unfold iref_w; lia). lia.
    - rewrite total_scale. eapply Nat.le_trans; [|apply (mul_r (5 * total col_w (tb_cols t) + 20 * defs_w (tb_indexes t) + 2)); unfold table_w; lia]. lia.
  Qed.

  (** *** Column types *)
  Lemma default_span_cost st : snd (default_span_c (cs_attributes st)) <= 1 + List.length (cs_attributes st).
  Proof. reflexivity. Qed.
  Lemma col_type_cost m ix c : small Q m ix -> m < Q -> col_w c < Q -> 1 + snd (check_col_type_c ix input c) <= 17 * Q.
  Proof.
    intros Sm Hm Hc. unfold col_w, type_w in Hc.
    assert (Ha : 1 + attrs_w cs_attributes (tc_settings c) <= Q) by lia.
    assert (D : forall st, tc_settings c = Some st -> snd (default_span_c (cs_attributes st)) <= Q) by (intros st E; rewrite E in Ha; cbn in *; lia).
    eapply Nat.le_trans; [apply (Nat.add_le_mono_l _ (10 * Q + ((Q + 4 * Q) + 0)))|lia].
    unfold check_col_type_c. apply cost_bind.
    - unfold resolve_col_type_c. destruct (ct_type_name (tc_type c)) as [|raw|?| | | | | | | | | | | | | | | | | | | | | | | | | | | | | | | | | | | | | | | | |]; try apply now_cost.
      eapply Nat.le_trans; [apply (cost_after _ _ Q (9 * Q)); [cbn [spend snd]; lia|]|lia]. cbn [spend fst]. destruct (col_type_name_from_str raw) as [tn|].
      + rewrite <- (Nat.add_0_r (9 * Q)). apply cost_bind; [|intros; apply now_cost]. unfold check_type_args_c. cbv zeta. apply if_cost; [apply now_cost|].
        eapply Nat.le_trans; [apply (cost_bind _ _ Q (Q + Q))|lia].
        * destruct tn; try apply throw_cost; (apply if_cost; [apply throw_cost|apply now_cost]).
        * intros _ _. apply cost_after; [cbn [spend snd]; lia|]. apply if_cost; [apply throw_cost|apply now_cost].
      + unfold check_enum_type_c. cbv zeta. eapply Nat.le_trans; [apply (cost_after _ _ Q (Q + (Q + (3 * Q + Q)))); [cbn [spend snd]; lia|]|lia].
        apply cost_bind; [destruct (fst _) as [|? [|? [|? ?]]]; first [apply throw_cost|apply now_cost]|].
        intros [esch ename] _. destruct (tc_settings c) as [st|]; [|apply now_cost]. destruct (cs_default st) as [dv|]; [|apply now_cost].
        apply cost_after; [apply (D st eq_refl)|]. destruct (fst _) as [dsp|]; [|apply now_cost]. apply cost_after.
        * unfold lookup_enum_values_c. cbv zeta. eapply Nat.le_trans; [apply (cost_after _ _ Q (Q + (Q + 0)))|lia]; [pose proof (sm_schemas _ _ _ Sm); cbn; lia|].
          cbn [get_c spend fst]. destruct (map_get _ _) as [b|] eqn:Eb; [|apply now_cost]. destruct (sm_tables _ _ _ Sm _ (get_in _ _ _ Eb)) as (_ & D2 & _ & D4).
          apply cost_after; [cbn; lia|]. cbn [get_c spend fst]. destruct (map_get (enum_map b) _) as [l|] eqn:El; [|apply now_cost]. apply cost_after; [|apply now_cost]. apply mem_cost. apply D4, (get_in _ _ _ El).
        * destruct (fst _) as [[] [[] f]]; try apply throw_cost. apply if_cost; [apply throw_cost|apply now_cost].
    - intros tn _. cbv zeta. apply cost_bind; [|intros; apply now_cost]. destruct (tc_settings c) as [st|]; [|apply now_cost]. destruct (cs_default st) as [dv|]; [|apply now_cost].
      apply cost_after; [apply (D st eq_refl)|]. destruct (fst _); [cbn; lia|apply now_cost].
  Qed.
  Lemma types_cost m ix t : small Q m ix -> m < Q -> table_w t < Q -> 1 + snd (check_table_types_c ix input t) <= 18 * table_w t * Q.
  Proof.
    intros Sm Hm Ht. unfold table_w in Ht. pose proof (cols_length t) as Hl.
    eapply Nat.le_trans; [apply (Nat.add_le_mono_l _ (total (fun _ => 17) (tb_cols t) * Q + 0))|].
    - unfold check_table_types_c. apply cost_bind; [|intros; apply now_cost]. apply cost_map. intros c Hc. eapply col_type_cost; [exact Sm|exact Hm|]. pose proof (total_in col_w _ _ Hc). lia.
    - rewrite total_const. eapply Nat.le_trans; [|apply (mul_r (17 * List.length (tb_cols t) + 1)); unfold table_w; lia]. lia.
  Qed.
  (** What the references need of a table. *)
  Record slim (t : table_t) : Prop := {
    sl_cols : 1 + List.length (tb_cols t) <= Q;
    sl_types : forall c, In c (tb_cols t) -> List.length (ct_args (tc_type c)) + List.length (ct_arrays (tc_type c)) <= Q;
    sl_defs : defs_w (tb_indexes t) <= Q }.
  Lemma types_slim ix t t' : table_w t < Q -> fst (check_table_types_c ix input t) = Ok t' -> slim t'.
  Proof.
    intros Ht E. unfold table_w in Ht. pose proof (cols_length t) as Hl. unfold check_table_types_c in E. rewrite fst_bind in E. apply bind_ok in E as (cols & Ec & E). cbn [now fst] in E. injection E as <-.
    assert (F : Forall2 (fun c c' => ct_args (tc_type c') = ct_args (tc_type c) /\ ct_arrays (tc_type c') = ct_arrays (tc_type c)) (tb_cols t) cols).
    { eapply map_ok; [|exact Ec]. intros c c' _ E. unfold check_col_type_c in E. rewrite fst_bind in E. apply bind_ok in E as (tn & _ & E). cbv zeta in E. rewrite fst_bind in E. apply bind_ok in E as (_ & _ & E).
      cbn [now fst] in E. injection E as <-. auto. }
    constructor; cbn [tb_cols tb_indexes].
    - assert (EL : List.length cols = List.length (tb_cols t)) by (clear -F; induction F; cbn [List.length]; congruence). lia.
    - intros c' Hc'. assert (X : exists c, In c (tb_cols t) /\ ct_args (tc_type c') = ct_args (tc_type c) /\ ct_arrays (tc_type c') = ct_arrays (tc_type c)).
      { clear -F Hc'. induction F as [|c d l l' H F IH]; [destruct Hc'|]. destruct Hc' as [<-|Hc']; [exists c; split; [left; reflexivity|exact H]|]. destruct (IH Hc') as (y & Hy & Ey). exists y. split; [right; exact Hy|exact Ey]. }
      destruct X as (c & Hc & -> & ->). pose proof (total_in col_w _ _ Hc) as X. unfold col_w at 1 in X. unfold type_w in X. lia.
    - lia.
  Qed.

  (** *** References *)
  Lemma alias_cost m ix r : small Q m ix -> m < Q -> snd (resolve_ref_alias_c ix r) <= Q.
  Proof. intros Sm Hm. pose proof (sm_aliases _ _ _ Sm). cbn. lia. Qed.
  Lemma alias_w ix r : end_w (resolve_ref_alias ix r) = end_w r.
  Proof. unfold resolve_ref_alias. destruct (resolve_alias _ _) as [[? ?]|]; reflexivity. Qed.
  Lemma fields_cost m ix sch t fs : small Q m ix -> m < Q -> snd (lookup_table_fields_c ix sch t fs input) <= (3 + 2 * List.length fs) * Q.
  Proof.
    intros Sm Hm. unfold lookup_table_fields_c. cbv zeta. eapply Nat.le_trans; [apply (cost_after _ _ Q (Q + (2 * List.length fs * Q + Q)))|lia]; [pose proof (sm_schemas _ _ _ Sm); cbn; lia|].
    cbn [get_c spend fst]. destruct (map_get _ _) as [b|] eqn:Eb; [|apply throw_le; lia].
    destruct (sm_tables _ _ _ Sm _ (get_in _ _ _ Eb)) as (D1 & _ & D3 & _). apply cost_after; [cbn; lia|]. cbn [get_c spend fst].
    destruct (map_get (table_map b) _) as [cols|] eqn:El; [|apply throw_le; lia]. apply cost_after.
    - eapply Nat.le_trans; [apply (cost_filter _ (fun _ => 2 * Q))|rewrite total_const; lia]. intros f _. pose proof (D3 _ (get_in _ _ _ El)). cbn. lia.
    - destruct (fst _); [apply now_cost|apply throw_cost].
  Qed.
  Lemma composite_cost cs ib : List.length cs <= Q -> defs_w ib <= Q -> snd (is_valid_composite_c cs ib) <= (3 + 3 * List.length cs + 3) * (Q * Q).
  Proof.
    intros Hc Hd. destruct ib as [b|]; [|apply now_cost]. cbn [defs_w given is_valid_composite_c] in *.
    eapply Nat.le_trans; [apply (cost_exists _ (fun d => (2 + 2 * List.length cs) * Q + 2 * List.length (idf_cols d) * Q))|].
    - intros d Hin. pose proof (total_in def_w _ _ Hin) as Hdw. assert (Hcd : List.length (idf_cols d) <= Q) by (unfold def_w at 1 in Hdw; lia).
      destruct (_ && _); [|cbn [now snd]; assert (1 * 1 <= (2 + 2 * List.length cs) * Q) by (apply Nat.mul_le_mono; lia); lia].
      cbn [eq_elements_c spend snd]. rewrite map_length. pose proof (pick_length idx_col_name (idf_cols d)) as Hp. set (u := List.length cs) in *. set (v := List.length (idf_cols d)) in *. set (w := List.length (filter_map _ _)) in *.
      assert ((u + w) * (u + w) <= (u + v) * (2 * Q)) by (apply Nat.mul_le_mono; lia). lia.
    - rewrite total_plus, total_const. assert (H1 : List.length (ib_defs b) <= Q).
      { eapply Nat.le_trans; [|exact Hd]. apply total_length. intros. unfold def_w. lia. }
      assert (H2 : total (fun d => 2 * List.length (idf_cols d) * Q) (ib_defs b) <= 2 * Q * Q).
      { eapply Nat.le_trans; [apply (total_le _ (fun d => (2 * Q) * def_w d))|]; [intros d _; unfold def_w; set (v := List.length _); assert (v * (2 * Q) <= (Nat.max 1 v + attrs_w is_attributes (idf_settings d)) * (2 * Q)) by (apply mul_r; lia); lia|].
        rewrite total_scale. rewrite <- (Nat.mul_assoc 2 Q Q). assert (Q * total def_w (ib_defs b) <= Q * Q) by (apply Nat.mul_le_mono_l; exact Hd). lia. }
      assert (H3 : (2 + 2 * List.length cs) * Q * List.length (ib_defs b) <= (2 + 2 * List.length cs) * Q * Q) by (apply Nat.mul_le_mono_l; exact H1). lia.
  Qed.
  Lemma find_col_cost c t : slim t -> snd (find_ref_col_c c t input) <= 2 * Q.
  Proof. intros [S1 _ _]. eapply Nat.le_trans; [apply (cost_after _ _ Q Q)|lia]; [cbn; lia|]. destruct (fst _); [apply now_cost|apply throw_cost]. Qed.
  Lemma find_table_cost ts r : 1 + List.length ts <= Q -> snd (find_ref_table_c ts r input) <= 2 * Q.
  Proof. intros S1. eapply Nat.le_trans; [apply (cost_after _ _ Q Q)|lia]; [cbn; lia|]. destruct (fst _); [apply now_cost|apply throw_cost]. Qed.
  Lemma find_table_in ts r t : fst (find_ref_table_c ts r input) = Ok t -> In t ts.
  Proof. unfold find_ref_table_c. rewrite fst_after. cbn [find_c spend fst]. destruct (find _ _) as [x|] eqn:E; [|intros H; exfalso; eapply throw_not; exact H]. intros [= <-]. apply find_some in E. apply E. Qed.
  Lemma find_col_in c t x : fst (find_ref_col_c c t input) = Ok x -> In x (tb_cols t).
  Proof. unfold find_ref_col_c. rewrite fst_after. cbn [find_c spend fst]. destruct (find _ _) as [y|] eqn:E; [|intros H; exfalso; eapply throw_not; exact H]. intros [= <-]. apply find_some in E. apply E. Qed.
  Lemma fk_cost x : snd (throw_fk_c x input) <= Q.
  Proof. destruct x as [[? ?]|]; [apply throw_cost|apply now_cost]. Qed.
  Lemma validate_cost m ix ts r : small Q m ix -> m < Q -> 1 + List.length ts <= Q -> (forall t, In t ts -> slim t) -> iref_w r < Q ->
    snd (validate_ref_type_c r ts ix input) <= 40 * iref_w r * (Q * Q).
  Proof.
    intros Sm Hm Hts Hsl Hr. set (a := end_w (ir_lhs r)). set (b := end_w (ir_rhs r)). assert (Hw : 1 + a + b <= iref_w r) by (unfold iref_w, a, b; lia). assert (HQ : Q <= Q * Q) by (rewrite <- (Nat.mul_1_r Q) at 1; apply Nat.mul_le_mono_l; lia).
    eapply Nat.le_trans; [apply (cost_after _ _ Q (Q + (Q + ((3 + 2 * a) * Q + ((3 + 2 * b) * Q + (2 * Q + (2 * Q + (12 * a * Q + ((6 + 3 * a) * (Q * Q) + ((6 + 3 * b) * (Q * Q) + Q))))))))))|].
    - eapply alias_cost; eassumption.
    - apply cost_after; [eapply alias_cost; eassumption|]. rewrite !alias_same. cbv zeta. fold (end_w (resolve_ref_alias ix (ir_lhs r))) (end_w (resolve_ref_alias ix (ir_rhs r))). rewrite !alias_w. fold a b.
      apply cost_bind; [apply if_cost; [apply throw_cost|apply now_cost]|]. intros _ _.
      apply cost_bind; [eapply Nat.le_trans; [eapply fields_cost; eassumption|]; fold (end_w (resolve_ref_alias ix (ir_lhs r))); rewrite alias_w; fold a; lia|]. intros _ _.
      apply cost_bind; [eapply Nat.le_trans; [eapply fields_cost; eassumption|]; fold (end_w (resolve_ref_alias ix (ir_rhs r))); rewrite alias_w; fold b; lia|]. intros _ _.
      apply cost_bind; [apply find_table_cost; exact Hts|]. intros lt El. apply cost_bind; [apply find_table_cost; exact Hts|]. intros rt Er.
      apply find_table_in in El, Er. pose proof (Hsl _ El) as Sl. pose proof (Hsl _ Er) as Sr. apply cost_bind.
      + eapply Nat.le_trans; [apply (cost_fold_in _ (fun _ => 12) Q)|].
        * intros [] [x y] _. eapply Nat.le_trans; [apply (Nat.add_le_mono_l _ (2 * Q + (2 * Q + (4 * Q + (Q + Q)))))|lia]. unfold validate_field_pair_c.
          apply cost_bind; [apply find_col_cost; exact Sl|]. intros lc Elc. apply cost_bind; [apply find_col_cost; exact Sr|]. intros rc Erc. cbv zeta.
          apply cost_after; [apply find_col_in in Elc; pose proof (sl_types _ Sl _ Elc); cbn [col_types_differ_c spend snd]; lia|].
          apply cost_bind; [apply if_cost; [apply throw_cost|apply now_cost]|]. intros _ _. apply if_cost; [apply fk_cost|apply now_cost].
        * rewrite total_const, combine_length. apply mul_r. fold (end_w (resolve_ref_alias ix (ir_lhs r))). rewrite alias_w. fold a. lia.
      + intros _ _. apply if_cost; [|apply now_cost]. unfold a, b. apply cost_after.
        * eapply Nat.le_trans; [apply composite_cost; [fold (end_w (ir_lhs r)); fold a; lia|apply (sl_defs _ Sl)]|]. unfold end_w. lia.
        * apply cost_after; [|apply fk_cost]. eapply Nat.le_trans; [apply composite_cost; [fold (end_w (ir_rhs r)); fold b; lia|apply (sl_defs _ Sr)]|]. unfold end_w. lia.
    - assert (H1 : (17 + 14 * a + 2 * b) * Q <= (17 + 14 * a + 2 * b) * (Q * Q)) by (apply Nat.mul_le_mono_l; exact HQ).
      eapply Nat.le_trans; [|apply (mul_r (29 + 17 * a + 5 * b)); lia]. lia.
  Qed.
  Lemma ident_cost m ix x y : small Q m ix -> m < Q -> end_w x <= Q -> end_w y <= Q -> snd (same_ident_c ix x y) <= (5 + 2 * (end_w x + end_w y)) * Q.
  Proof.
    intros Sm Hm Hx Hy. unfold same_ident_c. eapply Nat.le_trans; [apply (cost_after _ _ Q (Q + (2 * Q + (1 + 2 * (end_w x + end_w y)) * Q)))|lia]; [eapply alias_cost; eassumption|].
    apply cost_after; [eapply alias_cost; eassumption|]. rewrite !alias_same. unfold eq_ref_ident_c. apply cost_after; [cbn [spend snd]; lia|]. apply if_cost; [|apply now_cost].
    cbn [eq_elements_c spend snd]. rewrite !map_length. fold (end_w (resolve_ref_alias ix x)) (end_w (resolve_ref_alias ix y)). rewrite !alias_w. set (u := end_w x) in *. set (v := end_w y) in *.
    assert ((u + v) * (u + v) <= (u + v) * (2 * Q)) by (apply Nat.mul_le_mono_l; lia). lia.
  Qed.
  Lemma occupy_cost m ix r o : small Q m ix -> m < Q -> iref_w r < Q -> iref_w o < Q -> 1 + snd (occupy_same_column_c r o ix) <= (35 + 8 * (iref_w r + iref_w o)) * Q.
  Proof.
    intros Sm Hm Hr Ho. set (k := iref_w r + iref_w o).
    assert (C : forall x y, end_w x <= iref_w r -> end_w y <= iref_w o -> snd (same_ident_c ix x y) <= (5 + 2 * k) * Q).
    { intros x y Hx Hy. eapply Nat.le_trans; [eapply ident_cost; [exact Sm|exact Hm|lia|lia]|]. apply mul_r. unfold k. lia. }
    assert (E : forall x, end_w x <= iref_w r -> snd (exists_c (fun b => same_ident_c ix x b) [ir_lhs o; ir_rhs o]) <= 2 * ((6 + 2 * k) * Q)).
    { intros x Hx. eapply Nat.le_trans; [apply (cost_exists _ (fun _ => (6 + 2 * k) * Q))|cbn [total]; lia]. intros y Hy. assert (end_w y <= iref_w o) by (unfold iref_w; destruct Hy as [<-|[<-|[]]]; lia). pose proof (C x y Hx H). lia. }
    assert (B : snd (forall_c (fun a => exists_c (fun b => same_ident_c ix a b) [ir_lhs o; ir_rhs o]) [ir_lhs r; ir_rhs r]) <= 2 * (2 * ((6 + 2 * k) * Q) + Q)).
    { eapply Nat.le_trans; [apply (cost_forall _ (fun _ => 2 * ((6 + 2 * k) * Q) + Q))|cbn [total]; lia]. intros x Hx. assert (end_w x <= iref_w r) by (unfold iref_w; destruct Hx as [<-|[<-|[]]]; lia). pose proof (E x H). lia. }
    assert (O : forall x y, occupied_ident r = Some x -> occupied_ident o = Some y -> snd (same_ident_c ix x y) <= (5 + 2 * k) * Q).
    { intros x y Hx Hy. apply C.
      - unfold occupied_ident in Hx. unfold iref_w. destruct (ir_rel r); try discriminate; injection Hx as <-; lia.
      - unfold occupied_ident in Hy. unfold iref_w. destruct (ir_rel o); try discriminate; injection Hy as <-; lia. }
    assert (F : snd (occupy_same_column_c r o ix) <= (34 + 8 * k) * Q); [|lia].
    unfold occupy_same_column_c. cbv zeta.
    destruct (ir_rel r), (ir_rel o); try (eapply Nat.le_trans; [exact B|lia]);
      (destruct (occupied_ident r) as [x|] eqn:Ex; [|apply now_cost]; destruct (occupied_ident o) as [y|] eqn:Ey; [|apply now_cost]; eapply Nat.le_trans; [apply O; reflexivity|]; apply mul_r; lia).
  Qed.
  Lemma check_ref_cost m ix ts irs r : small Q m ix -> m < Q -> 1 + List.length ts <= Q -> (forall t, In t ts -> slim t) -> total iref_w irs < Q -> In r irs ->
    1 + snd (check_ref_c irs ts ix input tt r) <= 100 * iref_w r * (Q * Q).
  Proof.
    intros Sm Hm Hts Hsl Hirs Hin. assert (HQ : Q <= Q * Q) by (rewrite <- (Nat.mul_1_r Q) at 1; apply Nat.mul_le_mono_l; lia). assert (Hr : iref_w r < Q) by (pose proof (total_in iref_w _ _ Hin); lia).
    assert (Hl : List.length irs < Q) by (eapply Nat.le_lt_trans; [apply (total_length iref_w); intros; unfold iref_w; lia|exact Hirs]).
    set (a := attrs_w rs_attributes (ir_settings r)). assert (Hw : 1 + a <= iref_w r) by (unfold iref_w, a; lia).
    eapply Nat.le_trans; [apply (Nat.add_le_mono_l _ ((2 + a) * Q + (40 * iref_w r * (Q * Q) + ((43 + 8 * iref_w r) * (Q * Q) + Q))))|].
    - unfold check_ref_c. apply cost_bind; [apply opt_attrs_cost; [exact HI|]; fold a; lia|]. intros _ _. apply cost_bind; [eapply validate_cost; eassumption|]. intros _ _.
      apply cost_after; [|apply if_cost; [apply throw_cost|apply now_cost]].
      eapply Nat.le_trans; [apply (cost_filter _ (fun o => (35 + 8 * iref_w r) * Q + 8 * Q * iref_w o))|].
      + intros o Ho. pose proof (total_in iref_w _ _ Ho). eapply Nat.le_trans; [eapply occupy_cost; [exact Sm|exact Hm|exact Hr|lia]|]. lia.
      + rewrite total_plus, total_const, total_scale.
        assert (H1 : (35 + 8 * iref_w r) * Q * List.length irs <= (35 + 8 * iref_w r) * Q * Q) by (apply Nat.mul_le_mono_l; lia).
        assert (H2 : 8 * Q * total iref_w irs <= 8 * Q * Q) by (apply Nat.mul_le_mono_l; lia). lia.
    - assert (H1 : (4 + a) * Q <= (4 + a) * (Q * Q)) by (apply Nat.mul_le_mono_l; exact HQ).
      eapply Nat.le_trans; [|apply (mul_r (47 + a + 48 * iref_w r)); lia]. lia.
  Qed.
End Bound2.
