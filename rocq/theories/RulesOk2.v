(** * RulesOk2: references, and the analyzer as a whole. *)

From Verif Require Import Rules RulesOk.
From Verif Require Import Err Analyzer.

(** ** Boolean tests of the model *)
Lemma opt_str_eqb_eq a b : opt_str_eqb a b = true <-> a = b.
Proof.
  destruct a, b; cbn; try (split; congruence). rewrite str_eqb_eq. split; congruence.
Qed.
Lemma same_table_true s1 n1 s2 n2 : same_table s1 n1 s2 n2 = true <->
  option_map id_str s1 = option_map id_str s2 /\ id_str n1 = id_str n2.
Proof. unfold same_table. rewrite andb_true_iff, opt_str_eqb_eq, str_eqb_eq. reflexivity. Qed.
Lemma eq_elements_true l r : eq_elements l r = true <-> same_set l r.
Proof.
  unfold eq_elements, same_set. rewrite andb_true_iff, !forallb_forall. split.
  - intros [H1 H2] k. split; intros H; apply mem_str_In; auto.
  - intros H. split; intros k Hk; apply mem_str_In; apply H; exact Hk.
Qed.
Lemma f64_eqb_eq a b : f64_eqb a b = true <-> a = b.
Proof.
  destruct a as [m e|], b as [m' e'|]; cbn; try (split; congruence).
  rewrite andb_true_iff, N.eqb_eq, Z.eqb_eq. split; [intros [-> ->]; reflexivity|intros [= -> ->]; auto].
Qed.
Lemma value_eqb_eq a b : value_eqb a b = true <-> a = b.
Proof.
  destruct a, b; cbn [value_eqb]; try (split; congruence);
    rewrite ?str_eqb_eq, ?Z.eqb_eq, ?f64_eqb_eq, ?Bool.eqb_true_iff; split; congruence.
Qed.
Lemma list_eqb_eq {A} (eqb : A -> A -> bool) : (forall a b, eqb a b = true <-> a = b) ->
  forall l l', list_eqb eqb l l' = true <-> l = l'.
Proof.
  intros H. induction l as [|x a IH]; intros [|y b]; cbn [list_eqb]; try (split; congruence).
  rewrite andb_true_iff, H, IH. split; [intros [-> ->]; reflexivity|intros [= -> ->]; auto].
Qed.
Lemma opt_N_eqb_eq a b : opt_N_eqb a b = true <-> a = b.
Proof. destruct a, b; cbn; try (split; congruence). rewrite N.eqb_eq. split; congruence. Qed.
Lemma col_type_name_eqb_eq a b : col_type_name_eqb a b = true <-> a = b.
Proof. unfold col_type_name_eqb. destruct (col_type_name_eq_dec a b); split; congruence. Qed.
Lemma col_types_same l r : col_types_differ l r = false <->
  ct_type_name l = ct_type_name r /\ ct_args l = ct_args r /\ ct_arrays l = ct_arrays r.
Proof.
  unfold col_types_differ. rewrite !orb_false_iff, !negb_false_iff, col_type_name_eqb_eq.
  rewrite (list_eqb_eq _ value_eqb_eq), (list_eqb_eq _ opt_N_eqb_eq). tauto.
Qed.
Lemma col_key_true c : col_key c = true <-> key_col c.
Proof.
  unfold col_key, key_col, pk_col, unique_col, has_settings. destruct (tc_settings c) as [st|].
  - rewrite orb_true_iff. split.
    + intros [H|H]; [left|right]; eauto.
    + intros [(st' & [= <-] & H)|(st' & [= <-] & H)]; auto.
  - split; [discriminate|]. intros [(st' & H & _)|(st' & H & _)]; discriminate.
Qed.
Lemma is_valid_composite_true comps t : is_valid_composite comps (tb_indexes t) = true <-> key_cols t (map id_str comps).
Proof.
  unfold is_valid_composite, key_cols. destruct (tb_indexes t) as [ib|].
  - rewrite existsb_exists. split.
    + intros (d & Hin & H). apply andb_true_iff in H as [H H3]. apply andb_true_iff in H as [H1 H2].
      apply Nat.eqb_eq in H1. rewrite named_ids in H3. apply eq_elements_true in H3.
      exists ib, d. split; [reflexivity|]. split; [exact Hin|]. split.
      * unfold def_pk, def_unique, def_has. destruct (idf_settings d) as [st|]; [|discriminate].
        apply orb_true_iff in H2 as [H2|H2]; [left|right]; eauto.
      * rewrite map_length. split; [auto|]. intros k. specialize (H3 k). tauto.
    + intros (ib' & d & [= <-] & Hin & Hk & Hl & Hs). exists d. split; [exact Hin|].
      rewrite map_length in Hl. rewrite Hl, Nat.eqb_refl, named_ids. cbn [andb]. apply andb_true_iff. split.
      * destruct Hk as [(st & -> & ->)|(st & -> & ->)]; rewrite ?orb_true_r; reflexivity.
      * apply eq_elements_true. intros k. specialize (Hs k). tauto.
  - split; [discriminate|]. intros (ib & d & H & _). discriminate.
Qed.

(** ** Endpoints *)
Definition or_public (so : option str) : str := match so with Some a => a | None => public end.
Lemma in_schema_or o : in_schema o = or_public (option_map id_str o).
Proof. destruct o; reflexivity. Qed.

Lemma points_to_fun ts r so n so' n' : NoDup (aliases ts) -> points_to ts r so n -> points_to ts r so' n' -> so = so' /\ n = n'.
Proof.
  intros Hn H1 H2. destruct H1 as [t Ht Ha|Hna]; inversion H2 as [t' Ht' Ha' E1 E2|Hna' E1 E2].
  - assert (t = t') by (eapply alias_unique; eassumption). subst. auto.
  - exfalso. apply Hna'. apply in_aliases. eauto.
  - exfalso. apply Hna. apply in_aliases. eauto.
  - auto.
Qed.
Lemma points_to_ex ts r : exists so n, points_to ts r so n.
Proof.
  destruct (in_dec str_eq_dec (id_str (ri_table r)) (aliases ts)) as [H|H].
  - apply in_aliases in H as (t & Ht & Ha). eauto using pt_alias.
  - eauto using pt_name.
Qed.
Lemma target_name ts r t so n : NoDup (aliases ts) -> target ts r t -> points_to ts r so n -> table_name t = (or_public so, n).
Proof.
  intros Hn [Ht Hp] Hp'. destruct (points_to_fun _ _ _ _ _ _ Hn Hp Hp') as [<- <-]. unfold table_name.
  rewrite in_schema_or. reflexivity.
Qed.

Section Refs.
  Variables (x : schema_t) (ix : indexer) (ts' : list table_t).
  Let ts := tables x.
  Let input := sb_input x.
  Hypothesis D : describes ts (enums x) ix.
  Hypothesis Na : NoDup (aliases ts).
  Hypothesis Nt : NoDup (map table_name ts).
  Hypothesis Nc : Forall (fun t => NoDup (map col_name (tb_cols t))) ts.
  Hypothesis R : Forall2 resolved_table ts ts'.

  Let res := resolve_ref_alias ix.
  Lemma res_points r : points_to ts r (option_map id_str (ri_schema (res r))) (id_str (ri_table (res r))).
  Proof.
    unfold res, resolve_ref_alias, resolve_alias. destruct (map_get (table_alias_map ix) (id_str (ri_table r))) as [[a b]|] eqn:E.
    - apply (d_als1 _ _ _ D) in E as (t & Ht & Ha & Hn). cbn [ri_schema ri_table option_map id_str].
      replace a with (fst (table_name t)) by (rewrite Hn; reflexivity).
      replace b with (snd (table_name t)) by (rewrite Hn; reflexivity). apply pt_alias; assumption.
    - apply pt_name. apply (alias_map_none _ _ _ _ D). exact E.
  Qed.
  Lemma res_comps r : ri_compositions (res r) = ri_compositions r.
  Proof. unfold res, resolve_ref_alias. destruct (resolve_alias ix _) as [[a b]|]; reflexivity. Qed.
  Lemma res_span r : ri_span (res r) = ri_span r.
  Proof. unfold res, resolve_ref_alias. destruct (resolve_alias ix _) as [[a b]|]; reflexivity. Qed.
  Lemma res_table_span r : table_span ts r (id_span (ri_table (res r))).
  Proof.
    unfold res, resolve_ref_alias, resolve_alias, table_span. destruct (map_get (table_alias_map ix) (id_str (ri_table r))) as [[a b]|] eqn:E.
    - left. cbn [ri_table id_span]. split; [|reflexivity]. apply (d_als1 _ _ _ D) in E as (t & Ht & Ha & _). apply in_aliases. eauto.
    - right. split; [|reflexivity]. apply (alias_map_none _ _ _ _ D). exact E.
  Qed.

  Lemma lookup_ok r : endpoint_of x r ->
    ok_or x (fun _ => exists t, In t ts /\ table_name t = (in_schema (ri_schema (res r)), id_str (ri_table (res r))) /\
        incl (endpoint_cols r) (map col_name (tb_cols t)))
      (lookup_table_fields ix (ri_schema (res r)) (ri_table (res r)) (ri_compositions (res r)) input).
  Proof.
    intros He. pose proof (res_points r) as Hp. unfold lookup_table_fields. cbv zeta.
    change (schema_or_default (ri_schema (res r))) with (in_schema (ri_schema (res r))).
    destruct (map_get (schema_map ix) (in_schema (ri_schema (res r)))) as [b|] eqn:Eb.
    - destruct (map_get (table_map b) (id_str (ri_table (res r)))) as [cols|] eqn:Ec.
      + assert (Ht : tab ix (in_schema (ri_schema (res r)), id_str (ri_table (res r))) = Some cols).
        { unfold tab. cbn [fst snd]. rewrite Eb. exact Ec. }
        apply (d_tab1 _ _ _ D) in Ht as (t & Hin & Hn & Hs). rewrite res_comps.
        pose proof (find_split (fun f => negb (mem_str (id_str f) cols)) (ri_compositions r)) as Hf.
        destruct (find _ (ri_compositions r)) as [f|].
        * destruct Hf as (l1 & l2 & E & Hf & _). apply negb_true_iff, mem_str_false in Hf. apply ok_throw.
          eapply v_ref_column with (t := t); [exact He|exact Hp|exact Hin| |rewrite E; apply in_mid|].
          -- rewrite Hn. f_equal. apply in_schema_or.
          -- intros H. apply Hf. apply Hs. exact H.
        * cbn [ok_or]. exists t. split; [exact Hin|]. split; [exact Hn|]. intros k Hk. apply in_map_iff in Hk as (f & <- & Hk).
          rewrite Forall_forall in Hf. apply Hf in Hk. apply negb_false_iff, mem_str_In in Hk. apply Hs. exact Hk.
      + apply ok_throw. eapply v_ref_table; [exact He|exact Hp| | |apply res_table_span].
        { fold (or_public (option_map id_str (ri_schema (res r)))). rewrite <- in_schema_or. intros Hm. apply (d_sch _ _ _ D) in Hm. congruence. }
        intros H.
        apply in_map_iff in H as (t & Hn & Hin). apply (d_tab2 _ _ _ D) in Hin. rewrite Hn in Hin. unfold tab in Hin.
        cbn [fst snd] in Hin. fold (or_public (option_map id_str (ri_schema (res r)))) in Hin.
        rewrite <- in_schema_or, Eb in Hin. congruence.
    - apply (d_sch _ _ _ D) in Eb. apply ok_throw. eapply v_ref_schema; [exact He|exact Hp| |].
      + fold (or_public (option_map id_str (ri_schema (res r)))). rewrite <- in_schema_or. exact Eb.
      + revert Eb. unfold res, resolve_ref_alias, resolve_alias.
        destruct (map_get (table_alias_map ix) (id_str (ri_table r))) as [[a b]|] eqn:E; [|reflexivity].
        intros [Hb _]. exfalso. apply (d_als1 _ _ _ D) in E as (t & Ht & _ & Hn). apply (Hb t Ht). rewrite Hn. reflexivity.
  Qed.

  Lemma f2_length {A B} (Q : A -> B -> Prop) l l' : Forall2 Q l l' -> List.length l = List.length l'.
  Proof. induction 1; cbn [List.length]; congruence. Qed.
  Lemma f2_in_l {A B} (Q : A -> B -> Prop) l l' a : Forall2 Q l l' -> In a l -> exists b, In b l' /\ Q a b.
  Proof.
    induction 1 as [|u v l l' H HF IH]; [intros []|]; intros [<-|Hin]; [exists v; cbn; auto|]. destruct (IH Hin) as (b & H1 & H2). exists b. cbn. auto.
  Qed.
  Lemma f2_in_r {A B} (Q : A -> B -> Prop) l l' b : Forall2 Q l l' -> In b l' -> exists a, In a l /\ Q a b.
  Proof.
    induction 1 as [|u v l l' H HF IH]; [intros []|]; intros [<-|Hin]; [exists u; cbn; auto|]. destruct (IH Hin) as (a & H1 & H2). exists a. cbn. auto.
  Qed.
  Lemma find_ref_table_ok r : endpoint_of x r ->
    (exists t, In t ts /\ table_name t = (in_schema (ri_schema (res r)), id_str (ri_table (res r))) /\ incl (endpoint_cols r) (map col_name (tb_cols t))) ->
    ok_or x (fun t' => exists t, target ts r t /\ resolved_table t t') (find_ref_table ts' (res r) input).
  Proof.
    intros He (t0 & Ht0 & Hn0 & _). pose proof (res_points r) as Hp. unfold find_ref_table.
    pose proof (find_split (fun t => same_table (ti_schema (tb_ident t)) (ti_name (tb_ident t)) (ri_schema (res r)) (ri_table (res r))) ts') as Hf.
    destruct (find _ ts') as [t'|].
    - destruct Hf as (l1 & l2 & E & Hf & _). cbn [ok_or].
      destruct (f2_in_r _ _ _ t' R) as (t & Hin & Hr); [rewrite E; apply in_mid|]. exists t. split; [|exact Hr].
      split; [exact Hin|]. apply same_table_true in Hf as [H1 H2]. destruct Hr as (cols & _ & ->). cbn [tb_ident] in *.
      rewrite H1, H2. exact Hp.
    - rewrite res_span. apply ok_throw. eapply v_ref_unwritten; [exact He|exact Hp|exact Ht0|rewrite Hn0; f_equal; apply in_schema_or|]. intros t [Hin Ht].
      destruct (f2_in_l _ _ _ t R Hin) as (t' & Hin' & Hr). rewrite Forall_forall in Hf. apply Hf in Hin'.
      destruct (points_to_fun _ _ _ _ _ _ Na Hp Ht) as [H1 H2]. destruct Hr as (cols & _ & ->). cbn [tb_ident] in Hin'.
      assert (same_table (ti_schema (tb_ident t)) (ti_name (tb_ident t)) (ri_schema (res r)) (ri_table (res r)) = true); [|congruence].
      apply same_table_true. auto.
  Qed.

  Lemma find_ref_col_ok r t t' i : endpoint_of x r -> In i (ri_compositions r) -> target ts r t -> resolved_table t t' ->
    ok_or x (fun c' => exists c, names_col t i c /\ resolved c c') (find_ref_col i t' input).
  Proof.
    intros He Hi Ht Hr. unfold find_ref_col. pose proof (find_split (fun col => str_eqb (id_str (tc_name col)) (id_str i)) (tb_cols t')) as Hf.
    destruct Hr as (cols & Hc & ->). cbn [tb_cols] in *.
    destruct (find _ cols) as [c'|].
    - destruct Hf as (l1 & l2 & E & Hf & _). cbn [ok_or].
      destruct (f2_in_r _ _ _ c' Hc) as (c & Hin & Hr); [rewrite E; apply in_mid|]. exists c. split; [|exact Hr].
      split; [exact Hin|]. apply str_eqb_eq in Hf. destruct Hr as (tn & _ & ->). exact Hf.
    - pose proof (res_points r) as Hp. apply ok_throw.
      eapply v_ref_column with (t := t); [exact He|exact Hp|apply Ht| |exact Hi|].
      + eapply target_name; eassumption.
      + intros H. apply in_map_iff in H as (c & Hn & Hin). destruct (f2_in_l _ _ _ c Hc Hin) as (c' & Hin' & Hr).
        rewrite Forall_forall in Hf. apply Hf in Hin'. destruct Hr as (tn & _ & ->). cbn [tc_name] in Hin'.
        apply str_eqb_neq in Hin'. contradiction.
  Qed.

  Lemma resolved_same c c' d d' : resolved c c' -> resolved d d' ->
    (col_types_differ (tc_type c') (tc_type d') = false <-> same_type c d).
  Proof.
    intros (tn & H1 & ->) (tn' & H2 & ->). rewrite col_types_same. cbn [tc_type ct_type_name ct_args ct_arrays].
    unfold same_type. split.
    - intros (<- & H3 & H4). split; [eauto|auto].
    - intros ((tn0 & H3 & H4) & H5 & H6). split; [|auto].
      rewrite (col_means_fun _ _ _ H1 H3), (col_means_fun _ _ _ H2 H4). reflexivity.
  Qed.
  Lemma resolved_key c c' : resolved c c' -> (col_key c' = true <-> key_col c).
  Proof.
    intros (tn & _ & ->). rewrite col_key_true. unfold key_col, pk_col, unique_col, has_settings. cbn [tc_settings]. reflexivity.
  Qed.

  Lemma pair_ok i lt rt lt' rt' l r : In i (all_refs x) ->
    target ts (ir_lhs i) lt -> target ts (ir_rhs i) rt -> resolved_table lt lt' -> resolved_table rt rt' ->
    List.length (ri_compositions (ir_lhs i)) = List.length (ri_compositions (ir_rhs i)) ->
    In (l, r) (combine (ri_compositions (ir_lhs i)) (ri_compositions (ir_rhs i))) ->
    ok_or x (fun _ => exists lc rc, names_col lt l lc /\ names_col rt r rc /\ same_type lc rc /\
        (List.length (ri_compositions (ir_lhs i)) = 1%nat -> single_keys (ir_rel i) (key_col lc) (key_col rc)))
      (validate_field_pair i lt' rt' (List.length (ri_compositions (ir_lhs i))) input tt (l, r)).
  Proof.
    intros Hi Hlt Hrt Hl Hr Hlen Hin. unfold validate_field_pair.
    assert (Hel : endpoint_of x (ir_lhs i)) by (exists i; auto).
    assert (Her : endpoint_of x (ir_rhs i)) by (exists i; auto).
    eapply ok_bind; [eapply (find_ref_col_ok (ir_lhs i)); try eassumption; eapply in_combine_l; exact Hin|]. intros lc' (lc & Hlc & Hlr).
    eapply ok_bind; [eapply (find_ref_col_ok (ir_rhs i)); try eassumption; eapply in_combine_r; exact Hin|]. intros rc' (rc & Hrc & Hrr).
    assert (Hk : linked x i l r lt rt lc rc) by (repeat split; try assumption; try apply Hlt; try apply Hrt; try apply Hlc; try apply Hrc).
    cbv zeta. eapply ok_bind with (R := fun _ => same_type lc rc).
    { apply ok_if; intros E.
      - apply ok_throw. assert (Ew : ct_raw (tc_type rc') = ct_raw (tc_type rc)) by (destruct Hrr as (tn & _ & ->); reflexivity).
        rewrite Ew. eapply v_ref_type; [exact Hk|]. intros H. apply (resolved_same _ _ _ _ Hlr Hrr) in H. congruence.
      - cbn [ok_or]. apply (resolved_same _ _ _ _ Hlr Hrr). exact E. }
    intros [] Hst; cbv beta in Hst.
    assert (Hfin : (List.length (ri_compositions (ir_lhs i)) = 1%nat -> single_keys (ir_rel i) (key_col lc) (key_col rc)) ->
       exists lc rc, names_col lt l lc /\ names_col rt r rc /\ same_type lc rc /\
        (List.length (ri_compositions (ir_lhs i)) = 1%nat -> single_keys (ir_rel i) (key_col lc) (key_col rc))) by eauto 8.
    apply ok_if; intros E1.
    2:{ apply Nat.eqb_neq in E1. cbn [ok_or]. apply Hfin. contradiction. }
    apply Nat.eqb_eq in E1.
    pose proof (resolved_key _ _ Hlr) as Kl. pose proof (resolved_key _ _ Hrr) as Kr.
    assert (Hv : forall e sp, ~ single_keys (ir_rel i) (key_col lc) (key_col rc) ->
      (e, sp) = match ir_rel i with
              | One2One => (FK_One2One, ir_span i)
              | Many2Many => (FK_Many2Many, ir_span i)
              | One2Many => (FK_NeitherUniqueNorPrimary, ri_span (ir_lhs i))
              | _ => (FK_NeitherUniqueNorPrimary, ri_span (ir_rhs i))
              end -> violates x (InvalidForeignKey e) sp).
    { intros e sp H1 H2. eapply v_ref_key; eassumption. }
    unfold throw_fk, single_fk_err.
    destruct (ir_rel i) eqn:Erel; cbn [single_keys] in *;
      destruct (col_key lc') eqn:E2; destruct (col_key rc') eqn:E3;
      try (cbn [ok_or]; apply Hfin; intros _; tauto);
      try (apply ok_throw; apply Hv; [|reflexivity]; intros H; first [destruct H as [H|H]; apply Kl in H || apply Kr in H; congruence
              |apply Kl in H; congruence|apply Kr in H; congruence]);
      try (cbn [ok_or]; apply Hfin; intros _; first [apply Kl; reflexivity|apply Kr; reflexivity]).
  Qed.

  Lemma combine_cols {A B} (P : ident_t -> A -> Prop) (P' : ident_t -> B -> Prop) (Q : A -> B -> Prop) L : forall L',
    List.length L = List.length L' ->
    (forall l r, In (l, r) (combine L L') -> exists a b, P l a /\ P' r b /\ Q a b) ->
    exists la lb, Forall2 P L la /\ Forall2 P' L' lb /\ Forall2 Q la lb.
  Proof.
    induction L as [|l L IH]; intros [|r L'] Hlen H; cbn [List.length] in Hlen; try lia.
    - exists [], []. repeat split; constructor.
    - destruct (H l r) as (a & b & H1 & H2 & H3); [left; reflexivity|].
      destruct (IH L') as (la & lb & H4 & H5 & H6); [lia|intros l0 r0 Hin; apply H; right; exact Hin|].
      exists (a :: la), (b :: lb). repeat split; constructor; assumption.
  Qed.

  Lemma resolved_indexes t t' : resolved_table t t' -> tb_indexes t' = tb_indexes t.
  Proof. intros (cols & _ & ->). reflexivity. Qed.
  Lemma validate_ok i : In i (all_refs x) ->
    ok_or x (fun _ => exists lt rt lcs rcs,
        target ts (ir_lhs i) lt /\ target ts (ir_rhs i) rt /\
        Forall2 (names_col lt) (ri_compositions (ir_lhs i)) lcs /\
        Forall2 (names_col rt) (ri_compositions (ir_rhs i)) rcs /\
        Forall2 same_type lcs rcs /\
        (forall lc rc, lcs = [lc] -> rcs = [rc] -> single_keys (ir_rel i) (key_col lc) (key_col rc)) /\
        ((2 <= List.length lcs)%nat -> composite_keys (ir_rel i) (key_cols lt (endpoint_cols (ir_lhs i)))
                                                      (key_cols rt (endpoint_cols (ir_rhs i)))))
      (validate_ref_type i ts' ix input).
  Proof.
    intros Hi. unfold validate_ref_type. cbv zeta. fold res. 
    assert (Hel : endpoint_of x (ir_lhs i)) by (exists i; auto).
    assert (Her : endpoint_of x (ir_rhs i)) by (exists i; auto).
    eapply ok_bind with (R := fun _ => List.length (ri_compositions (ir_lhs i)) = List.length (ri_compositions (ir_rhs i))).
    { rewrite !res_comps. apply ok_if; intros E.
      - apply negb_true_iff, Nat.eqb_neq in E. apply ok_throw. apply v_ref_lengths; assumption.
      - apply negb_false_iff, Nat.eqb_eq in E. exact E. }
    intros [] Hlen; cbv beta in Hlen.
    eapply ok_bind; [apply lookup_ok; exact Hel|]. intros [] Hxl; cbv beta in Hxl.
    eapply ok_bind; [apply lookup_ok; exact Her|]. intros [] Hxr; cbv beta in Hxr.
    eapply ok_bind; [apply find_ref_table_ok; [exact Hel|exact Hxl]|]. intros lt' (lt & Hlt & Hlr).
    eapply ok_bind; [apply find_ref_table_ok; [exact Her|exact Hxr]|]. intros rt' (rt & Hrt & Hrr).
    rewrite !res_comps, <- Hlen, Nat.max_id.
    set (good := fun l r => exists lc rc, names_col lt l lc /\ names_col rt r rc /\ same_type lc rc /\
        (List.length (ri_compositions (ir_lhs i)) = 1%nat -> single_keys (ir_rel i) (key_col lc) (key_col rc))).
    eapply ok_bind; [apply (ok_fold x _ (fun l _ => Forall (fun p => good (fst p) (snd p)) l))|].
    - constructor.
    - intros l1 [l r] l2 [] E H. eapply ok_impl; [eapply pair_ok; try eassumption; rewrite E; apply in_mid|].
      intros [] Hg. apply Forall_app. split; [exact H|]. constructor; [exact Hg|constructor].
    - intros [] Hall; cbv beta in Hall. rewrite Forall_forall in Hall.
      destruct (combine_cols (names_col lt) (names_col rt) (fun lc rc => same_type lc rc /\
        (List.length (ri_compositions (ir_lhs i)) = 1%nat -> single_keys (ir_rel i) (key_col lc) (key_col rc)))
        (ri_compositions (ir_lhs i)) (ri_compositions (ir_rhs i)) Hlen) as (lcs & rcs & F1 & F2 & F3).
      { intros l r Hin. destruct (Hall _ Hin) as (lc & rc & H1 & H2 & H3). exists lc, rc. auto. }
      assert (Hll : List.length lcs = List.length (ri_compositions (ir_lhs i))) by (symmetry; eapply f2_length; exact F1).
      set (ck := composite_keys (ir_rel i) (key_cols lt (endpoint_cols (ir_lhs i))) (key_cols rt (endpoint_cols (ir_rhs i)))).
      assert (Hfin : ((2 <= List.length lcs)%nat -> ck) -> exists lt rt lcs rcs,
        target ts (ir_lhs i) lt /\ target ts (ir_rhs i) rt /\
        Forall2 (names_col lt) (ri_compositions (ir_lhs i)) lcs /\
        Forall2 (names_col rt) (ri_compositions (ir_rhs i)) rcs /\
        Forall2 same_type lcs rcs /\
        (forall lc rc, lcs = [lc] -> rcs = [rc] -> single_keys (ir_rel i) (key_col lc) (key_col rc)) /\
        ((2 <= List.length lcs)%nat -> composite_keys (ir_rel i) (key_cols lt (endpoint_cols (ir_lhs i)))
                                                      (key_cols rt (endpoint_cols (ir_rhs i))))).
      { intros Hck. exists lt, rt, lcs, rcs. split; [exact Hlt|]. split; [exact Hrt|]. split; [exact F1|]. split; [exact F2|].
        split; [eapply f2_impl; [|exact F3]; intros a b H; apply H|]. split; [|exact Hck].
        intros lc rc -> ->. cbn [List.length] in Hll. inversion F3 as [|? ? ? ? [_ H] _]; subst. apply H. auto. }
      apply ok_if; intros E2.
      2:{ apply Nat.leb_gt in E2. cbn [ok_or]. apply Hfin. lia. }
      apply Nat.leb_le in E2.
      pose proof (is_valid_composite_true (ri_compositions (ir_lhs i)) lt) as Vl.
      pose proof (is_valid_composite_true (ri_compositions (ir_rhs i)) rt) as Vr.
      rewrite (resolved_indexes _ _ Hlr), (resolved_indexes _ _ Hrr).
      assert (Hv : forall e sp, ~ ck ->
        (e, sp) = match ir_rel i with
              | One2One => (FK_One2OneComposite, ir_span i)
              | Many2Many => (FK_Many2ManyComposite, ir_span i)
              | One2Many => (FK_NeitherUniqueNorPrimaryComposite, ri_span (ir_lhs i))
              | _ => (FK_NeitherUniqueNorPrimaryComposite, ri_span (ir_rhs i))
              end -> violates x (InvalidForeignKey e) sp).
      { intros e sp H1 H2. eapply v_ref_keys; eassumption. }
      fold (endpoint_cols (ir_lhs i)) in Vl. fold (endpoint_cols (ir_rhs i)) in Vr.
      unfold throw_fk, composite_fk_err, ck in *.
      destruct (ir_rel i) eqn:Erel; cbn [composite_keys] in *;
        destruct (is_valid_composite (ri_compositions (ir_lhs i)) (tb_indexes lt));
        destruct (is_valid_composite (ri_compositions (ir_rhs i)) (tb_indexes rt)); cbn [negb andb orb];
        try (cbn [ok_or]; apply Hfin; intros _; intuition congruence);
        try (apply ok_throw; apply Hv; [|reflexivity]; intuition congruence).
  Qed.

  Lemma eq_ref_ident_true a b : eq_ref_ident (res a) (res b) = true <-> same_endpoint ts a b.
  Proof.
    unfold eq_ref_ident, same_endpoint. rewrite !andb_true_iff, opt_str_eqb_eq, str_eqb_eq, eq_elements_true, !res_comps.
    pose proof (res_points a) as Pa. pose proof (res_points b) as Pb. split.
    - intros [[H1 H2] H3]. split; [|exact H3]. rewrite H1, H2 in Pa. eauto.
    - intros [(so & n & H1 & H2) H3]. split; [|exact H3].
      destruct (points_to_fun _ _ _ _ _ _ Na Pa H1) as [-> ->]. destruct (points_to_fun _ _ _ _ _ _ Na Pb H2) as [-> ->]. auto.
  Qed.
  Lemma occupy_true r o : occupy_same_column r o ix = true <-> clashes ts r o.
  Proof.
    unfold occupy_same_column. cbv zeta. fold res.
    assert (Hb : forallb (fun a => existsb (fun b => eq_ref_ident (res a) (res b)) [ir_lhs o; ir_rhs o]) [ir_lhs r; ir_rhs r] = true <->
       (same_endpoint ts (ir_lhs r) (ir_lhs o) \/ same_endpoint ts (ir_lhs r) (ir_rhs o)) /\
       (same_endpoint ts (ir_rhs r) (ir_lhs o) \/ same_endpoint ts (ir_rhs r) (ir_rhs o))).
    { cbn [forallb existsb]. rewrite !andb_true_iff, !orb_true_iff, !eq_ref_ident_true. intuition discriminate. }
    assert (Ho : (match occupied_ident r, occupied_ident o with
        | Some a, Some b => eq_ref_ident (res a) (res b) | _, _ => false end) = true <->
        exists a b, fk_side r = Some a /\ fk_side o = Some b /\ same_endpoint ts a b).
    { change (occupied_ident r) with (fk_side r). change (occupied_ident o) with (fk_side o).
      destruct (fk_side r) as [a|], (fk_side o) as [b|]; try (split; [discriminate|intros (? & ? & ? & ? & _); congruence]).
      rewrite eq_ref_ident_true. split; [eauto|]. intros (? & ? & [= <-] & [= <-] & H). exact H. }
    unfold clashes, symmetric_rel.
    assert (Hsym : forall rel, rel = One2One \/ rel = Many2Many -> ir_rel r = rel -> ir_rel o = rel ->
      forallb (fun a => existsb (fun b => eq_ref_ident (res a) (res b)) [ir_lhs o; ir_rhs o]) [ir_lhs r; ir_rhs r] = true <-> clashes ts r o).
    { intros rel Hrel Er Eo. rewrite Hb. unfold clashes, symmetric_rel, fk_side. rewrite Er, Eo. split; [auto|].
      intros [H|(a & b & H & _)]; [tauto|]. destruct Hrel as [Hrel|Hrel]; rewrite Hrel in H; discriminate. }
    destruct (ir_rel r) eqn:Er; destruct (ir_rel o) eqn:Eo; cbv iota;
      try (rewrite Ho; split; [auto|]; intros [([H|H] & H' & _)|H]; [discriminate|discriminate|exact H]);
      try (rewrite Ho; split; [auto|]; intros [([H|H] & H' & _)|H]; [congruence|congruence|exact H]).
    - rewrite (Hsym One2One) by auto. unfold clashes, symmetric_rel. rewrite Er, Eo. reflexivity.
    - rewrite (Hsym Many2Many) by auto. unfold clashes, symmetric_rel. rewrite Er, Eo. reflexivity.
  Qed.
  Lemma same_endpoint_refl a : same_endpoint ts a a.
  Proof. split; [|intros k; reflexivity]. destruct (points_to_ex ts a) as (so & n & H). eauto. Qed.
  Lemma clashes_refl r : clashes ts r r <-> ir_rel r <> Undef.
  Proof.
    unfold clashes, symmetric_rel, fk_side. pose proof (same_endpoint_refl (ir_lhs r)). pose proof (same_endpoint_refl (ir_rhs r)).
    destruct (ir_rel r); split; intros H'; try congruence; eauto 10.
    destruct H' as [([H'|H'] & _)|(a & b & H' & _)]; discriminate.
  Qed.

  Lemma ref_settings_of i st : In i (all_refs x) -> ir_settings i = Some st -> settings_of x (rs_attributes st).
  Proof.
    intros Hi Hs. unfold all_refs in Hi. apply in_app_or in Hi as [Hi|Hi].
    - apply in_map_iff in Hi as (r & <- & Hr). eapply so_ref; [exact Hr|exact Hs].
    - exfalso. apply in_flat_map in Hi as (t & _ & Hi). unfold inline_refs in Hi. apply in_flat_map in Hi as (c & _ & Hi).
      destruct (tc_settings c) as [cs|]; [|destruct Hi]. apply in_map_iff in Hi as (r & <- & _). discriminate.
  Qed.

  Definition alone (l1 : list indexed_ref) (r : indexed_ref) (l2 : list indexed_ref) : Prop :=
    ir_rel r <> Undef /\ forall o, In o (l1 ++ l2) -> ~ clashes ts r o.
  Lemma count_alone l1 r l2 :
    (List.length (filter (fun o => occupy_same_column r o ix) (l1 ++ r :: l2)) = 1%nat <-> alone l1 r l2).
  Proof.
    rewrite filter_app, app_length. cbn [filter].
    assert (Hz : forall l, List.length (filter (fun o => occupy_same_column r o ix) l) = 0%nat <-> forall o, In o l -> ~ clashes ts r o).
    { induction l as [|o l IH]; cbn [filter In]; [split; [intros _ o []|reflexivity]|].
      destruct (occupy_same_column r o ix) eqn:E; cbn [List.length].
      - split; [lia|]. intros H. exfalso. apply (H o); [auto|]. apply occupy_true. exact E.
      - rewrite IH. split; [|intros H o' Ho'; apply H; auto]. intros H o' [<-|Ho']; [|apply H; exact Ho'].
        intros Hc. apply occupy_true in Hc. congruence. }
    pose proof (Hz l1) as Z1. pose proof (Hz l2) as Z2. pose proof (clashes_refl r) as Cr.
    unfold alone. destruct (occupy_same_column r r ix) eqn:E; cbn [List.length].
    - apply occupy_true in E. split.
      + intros H. split; [apply Cr; exact E|]. intros o Ho. apply in_app_or in Ho as [Ho|Ho].
        * apply Z1; [lia|exact Ho].
        * apply Z2; [lia|exact Ho].
      + intros [_ H].
        assert (List.length (filter (fun o => occupy_same_column r o ix) l1) = 0%nat) by (apply Z1; intros o Ho; apply H; apply in_or_app; auto).
        assert (List.length (filter (fun o => occupy_same_column r o ix) l2) = 0%nat) by (apply Z2; intros o Ho; apply H; apply in_or_app; auto).
        lia.
    - assert (Hn : ~ clashes ts r r) by (intros H; apply occupy_true in H; congruence).
      split; [|intros [H _]; exfalso; apply Hn; apply Cr; exact H].
      intros H. exfalso.
      assert (Hu : ir_rel r = Undef) by (destruct (ir_rel r); try reflexivity; exfalso; apply Hn; apply Cr; discriminate).
      assert (Hnc : forall o, ~ clashes ts r o).
      { intros o. unfold clashes, symmetric_rel, fk_side. rewrite Hu. intros [([H'|H'] & _)|(a & b & H' & _)]; discriminate. }
      assert (List.length (filter (fun o => occupy_same_column r o ix) l1) = 0%nat) by (apply Z1; auto).
      assert (List.length (filter (fun o => occupy_same_column r o ix) l2) = 0%nat) by (apply Z2; auto). lia.
  Qed.

  Lemma check_refs_ok : ok_or x (fun _ => Forall (ref_wf ts) (all_refs x) /\ no_clash ts (all_refs x))
    (try_fold (check_ref (all_refs x) ts' ix input) (all_refs x) tt).
  Proof.
    eapply ok_impl; [apply (ok_fold x _ (fun l _ => Forall (ref_wf ts) l /\
      forall l1 r l2, all_refs x = l1 ++ r :: l2 -> (List.length l1 < List.length l)%nat -> alone l1 r l2))|].
    - split; [constructor|]. cbn. lia.
    - intros l1 r l2 [] E (H1 & H2). unfold check_ref.
      assert (Hr : In r (all_refs x)) by (rewrite E; apply in_mid).
      eapply ok_bind; [apply (dup_opt_attrs x rs_attributes); intros st Hst; eapply ref_settings_of; eassumption|].
      intros [] Hd; cbv beta in Hd.
      eapply ok_bind; [apply validate_ok; exact Hr|]. intros [] Hv; cbv beta in Hv.
      apply ok_if; intros Ec.
      + apply negb_true_iff, Nat.eqb_neq in Ec. apply ok_throw. eapply v_ref_clash; [exact E|].
        destruct (ir_rel r) eqn:Er; [auto| | | |]; right;
          (assert (Hex : existsb (fun o => occupy_same_column r o ix) (l1 ++ l2) = true);
           [destruct (existsb _ (l1 ++ l2)) eqn:Ex; [reflexivity|]; exfalso; apply Ec; rewrite E at 1; apply count_alone; split; [congruence|];
            intros o Ho Hc; apply occupy_true in Hc;
            assert (existsb (fun o => occupy_same_column r o ix) (l1 ++ l2) = true) by (apply existsb_exists; eauto); congruence
           |apply existsb_exists in Hex as (o & Ho & Hc); exists o; split; [exact Ho|apply occupy_true; exact Hc]]).
      + apply negb_false_iff, Nat.eqb_eq in Ec. cbn [ok_or]. rewrite E in Ec at 1. apply count_alone in Ec. split.
        * apply Forall_app. split; [exact H1|]. constructor; [|constructor]. split; [exact Hd|exact Hv].
        * intros a q b Eq Hl. rewrite app_length in Hl. cbn [List.length] in Hl.
          destruct (Nat.eq_dec (List.length a) (List.length l1)) as [Hn|Hn].
          -- rewrite E in Eq. assert (l1 = a /\ r :: l2 = q :: b) as [-> [= -> ->]]; [|exact Ec].
             apply app_eq_app in Eq as (z & [(-> & Hz)|(-> & Hz)]); rewrite app_length in Hn;
               (destruct z; cbn [List.length] in Hn; [|lia]); rewrite app_nil_r; cbn [app] in Hz; auto.
          -- apply H2; [exact Eq|lia].
    - intros [] (H1 & H2). split; [exact H1|]. intros l1 r l2 E. apply (H2 l1 r l2 E). rewrite E, app_length. cbn. lia.
  Qed.
End Refs.
