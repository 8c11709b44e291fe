(** * IndexOk: the index built by the semantic check answers every lookup exactly. *)

From Verif Require Import Rules RulesOk RulesOk2 RulesOk3 ReportOk2 CheckFacts IndexSpec.
From Verif Require Import Err Analyzer.

Section Index.
  Variables (x : schema_t) (an : analyzed_indexer).
  Hypothesis A : analyze x = Ok an.
  Let ix := an_indexer an.
  Lemma an_facts : wf x /\ indexed_refs an = all_refs x /\ describes (tables x) (enums x) ix.
  Proof. pose proof (analyze_ok x) as H. rewrite A in H. exact H. Qed.
  Let W : wf x := proj1 an_facts.
  Let D : describes (tables x) (enums x) ix := proj2 (proj2 an_facts).

  Lemma index_refs : indexed_refs an = all_refs x.
  Proof. exact (proj1 (proj2 an_facts)). Qed.

  Lemma index_contains_table sch n : contains_table ix sch n = true <-> exists t, In t (tables x) /\ table_name t = (sch, n).
  Proof.
    rewrite contains_table_tab. split.
    - destruct (tab ix (sch, n)) as [cols|] eqn:E; [|congruence]. intros _. apply (d_tab1 _ _ _ D) in E as (t & H1 & H2 & _). eauto.
    - intros (t & Ht & <-). apply (d_tab2 _ _ _ D _ Ht).
  Qed.
  Lemma index_contains_enum sch n : contains_enum ix sch n = true <-> exists e, In e (enums x) /\ enum_name e = (sch, n).
  Proof.
    rewrite contains_enum_enm. split.
    - destruct (enm ix (sch, n)) as [cols|] eqn:E; [|congruence]. intros _. apply (d_enm1 _ _ _ D) in E as (t & H1 & H2 & _). eauto.
    - intros (t & Ht & <-). apply (d_enm2 _ _ _ D _ Ht).
  Qed.
  Lemma index_alias a p : resolve_alias ix a = Some p <-> exists t, In t (tables x) /\ alias_of t = Some a /\ table_name t = p.
  Proof.
    unfold resolve_alias. split.
    - apply (d_als1 _ _ _ D).
    - intros (t & Ht & Ha & <-). destruct (map_get (table_alias_map ix) a) as [q|] eqn:E.
      + apply (d_als1 _ _ _ D) in E as (u & Hu & Hb & <-). do 2 f_equal. apply (alias_unique _ _ _ _ (w_als _ W) Hu Ht Hb Ha).
      + exfalso. exact (d_als2 _ _ _ D _ _ Ht Ha E).
  Qed.
  Lemma index_endpoint r : points_to (tables x) r (option_map id_str (ri_schema (resolve_ref_alias ix r))) (id_str (ri_table (resolve_ref_alias ix r))) /\
    ri_span (resolve_ref_alias ix r) = ri_span r /\ ri_compositions (resolve_ref_alias ix r) = ri_compositions r.
  Proof. split; [exact (res_points x ix D r)|]. split; [apply res_span|apply res_comps]. Qed.

  Lemma index_lookup_values so n vals : let sch := match so with Some a => a | None => public end in
    exists h e l, lookup_enum_values ix so n vals = (h, (e, l)) /\
      (h = true <-> ~ schema_missing x sch) /\
      (e = true <-> exists d, In d (enums x) /\ enum_name d = (sch, n)) /\
      Forall2 (fun v b => b = true <-> enum_value (enums x) so n v) vals l.
  Proof.
    intros sch. unfold lookup_enum_values. fold sch. change DEFAULT_SCHEMA with public. fold sch.
    pose proof (d_sch _ _ _ D sch) as Hs. fold (schema_missing x sch) in Hs.
    assert (Hno : enm ix (sch, n) = None -> forall v, ~ enum_value (enums x) so n v).
    { intros E v (d & Hd & Hn & _). fold sch in Hn. apply (d_enm2 _ _ _ D) in Hd. congruence. }
    assert (Hno' : enm ix (sch, n) = None -> ~ exists d, In d (enums x) /\ enum_name d = (sch, n)).
    { intros E (d & Hd & Hn). apply (d_enm2 _ _ _ D) in Hd. congruence. }
    assert (Hf : enm ix (sch, n) = None -> Forall2 (fun v b => b = true <-> enum_value (enums x) so n v) vals (map (fun _ => false) vals)).
    { intros E. induction vals; cbn [map]; constructor; [|assumption]. split; [discriminate|]. intros H. exfalso. exact (Hno E _ H). }
    destruct (map_get (schema_map ix) sch) as [b|] eqn:Eb.
    - destruct (map_get (enum_map b) n) as [set|] eqn:Ee.
      + assert (E : enm ix (sch, n) = Some set) by (unfold enm; cbn [fst snd]; rewrite Eb; exact Ee).
        apply (d_enm1 _ _ _ D) in E as (d & Hd & Hn & Hset).
        exists true, true, (map (fun v => mem_str v set) vals). split; [reflexivity|]. split; [|split].
        * split; [|reflexivity]. intros _ Hm. apply Hs in Hm. congruence.
        * split; [|reflexivity]. eauto.
        * clear Hf. induction vals as [|v vs IH]; cbn [map]; constructor; [|exact IH].
          rewrite mem_str_In, (Hset v). split.
          -- intros H. exists d. fold sch. auto.
          -- intros (d' & Hd' & Hn' & Hv). fold sch in Hn'. rewrite <- Hn in Hn'.
             rewrite (NoDup_map_inj enum_name (enums x) d d'); auto. apply (proj1 (proj1 (proj2 (proj2 W)))).
      + assert (E : enm ix (sch, n) = None) by (unfold enm; cbn [fst snd]; rewrite Eb; exact Ee).
        exists true, false, (map (fun _ => false) vals). split; [reflexivity|]. split; [|split; [|exact (Hf E)]].
        * split; [|reflexivity]. intros _ Hm. apply Hs in Hm. congruence.
        * split; [discriminate|]. intros H. exfalso. exact (Hno' E H).
    - assert (E : enm ix (sch, n) = None) by (unfold enm; cbn [fst snd]; rewrite Eb; reflexivity).
      exists false, false, (map (fun _ => false) vals). split; [reflexivity|]. split; [|split; [|exact (Hf E)]].
      + split; [discriminate|]. intros H. exfalso. apply H. apply Hs. reflexivity.
      + split; [discriminate|]. intros H. exfalso. exact (Hno' E H).
  Qed.

  Lemma index_fields so tn fs inp : fields_answer x so tn fs inp (lookup_table_fields ix so tn fs inp).
  Proof.
    unfold lookup_table_fields. cbv zeta. change (schema_or_default so) with (in_schema so).
    pose proof (d_sch _ _ _ D (in_schema so)) as Hs. fold (schema_missing x (in_schema so)) in Hs.
    destruct (map_get (schema_map ix) (in_schema so)) as [b|] eqn:Eb; [|apply fa_schema; apply Hs; reflexivity].
    assert (Hm : ~ schema_missing x (in_schema so)) by (intros H; apply Hs in H; congruence).
    destruct (map_get (table_map b) (id_str tn)) as [cols|] eqn:Ec.
    - assert (E : tab ix (in_schema so, id_str tn) = Some cols) by (unfold tab; cbn [fst snd]; rewrite Eb; exact Ec).
      apply (d_tab1 _ _ _ D) in E as (t & Ht & Hn & Hset).
      pose proof (find_split (fun f => negb (mem_str (id_str f) cols)) fs) as Hf. destruct (find _ fs) as [f|].
      + destruct Hf as (l1 & l2 & E & Hf & Hl). apply negb_true_iff, mem_str_false in Hf.
        eapply fa_column; [exact Ht|exact Hn|exact E| |].
        * revert Hl. apply Forall_impl. intros g Hg. cbv beta in Hg. apply negb_false_iff, mem_str_In in Hg. apply Hset. exact Hg.
        * intros H. apply Hf. apply Hset. exact H.
      + eapply fa_ok; [exact Ht|exact Hn|]. revert Hf. apply Forall_impl. intros g Hg. cbv beta in Hg.
        apply negb_false_iff, mem_str_In in Hg. apply Hset. exact Hg.
    - assert (E : tab ix (in_schema so, id_str tn) = None) by (unfold tab; cbn [fst snd]; rewrite Eb; exact Ec).
      apply fa_table; [exact Hm|]. intros t Ht Hn. apply (d_tab2 _ _ _ D) in Ht. congruence.
  Qed.
End Index.

(** ** The tables of each group *)
Lemma groups_content inp ts es ix0 l : NoDup (aliases ts) -> describes ts es ix0 -> table_group_map ix0 = [] -> forall ix,
  index_table_groups l inp ix0 = Ok ix ->
  (forall k ids, map_get (table_group_map ix) k = Some ids ->
     exists g, In g l /\ group_name g = k /\ forall p, In p ids <-> exists it, In it (tg_items g) /\ item_denotes ts it p) /\
  (forall g, In g l -> map_get (table_group_map ix) (group_name g) <> None) /\
  NoDup (map group_name l).
Proof.
  intros Na D0 G. induction l as [|l g IH] using snoc_ind; intros ix H.
  - injection H as <-. rewrite G. split; [discriminate|]. split; [intros ? []|constructor].
  - unfold index_table_groups in H. apply try_fold_snoc in H as (ix1 & H1 & H2). specialize (IH ix1 H1) as (I1 & I2 & I3).
    destruct (groups_seen inp ix0 l ix1 G H1) as (S1 & S2 & S3). pose proof (describes_maps _ _ _ _ S2 S3 D0) as D.
    unfold index_table_group1 in H2. cbv zeta in H2.
    apply bind_ok in H2 as (u & Hu & H2). apply if_throw_ok in Hu as [Hu _].
    apply bind_ok in H2 as (items & Hi & H2). injection H2 as <-.
    cbn [table_group_map]. fold (group_name g) in *. split; [|split].
    + intros k ids Hk. rewrite map_get_insert in Hk. destruct (str_eqb_spec k (group_name g)) as [->|Hne].
      * injection Hk as <-. exists g. split; [apply in_or_app; right; left; reflexivity|]. split; [reflexivity|].
        apply (items_seen inp ts es ix1 (tg_items g) Na D items Hi).
      * destruct (I1 k ids Hk) as (g' & Ha & Hb & Hc). exists g'. split; [apply in_or_app; left; exact Ha|]. auto.
    + intros g' Hg'. rewrite map_get_insert. destruct (str_eqb (group_name g') (group_name g)) eqn:E; [congruence|].
      apply in_app_iff in Hg' as [Hg'|[<-|[]]]; [apply I2; exact Hg'|]. rewrite str_eqb_refl in E. discriminate.
    + rewrite map_app. cbn [map]. apply NoDup_snoc. split; [exact I3|]. intros Hin. apply S1 in Hin. congruence.
Qed.
Lemma index_groups x an : analyze x = Ok an -> forall k p,
  (exists ids, map_get (table_group_map (an_indexer an)) k = Some ids /\ In p ids) <->
  (exists g it, In g (table_groups x) /\ group_name g = k /\ In it (tg_items g) /\ item_denotes (tables x) it p).
Proof.
  intros A k p. pose proof (analyze_ok x) as HW. rewrite A in HW. destruct HW as (W & _ & _). pose proof (w_als _ W) as Na.
  unfold analyze in A. cbv zeta in A.
  apply bind_ok in A as (u & _ & A). apply bind_ok in A as (ix0 & E0 & A). apply bind_ok in A as (ix1 & E1 & A).
  apply bind_ok in A as (ix & E2 & A). apply bind_ok in A as (inl & _ & A). apply bind_ok in A as (ts' & _ & A).
  apply bind_ok in A as (u' & _ & A). injection A as <-. cbn [an_indexer].
  apply prefix_describes in E0 as (_ & D0 & G0). apply (prefix_enums _ _ _ _ _ D0 G0) in E1 as (_ & D1 & G1).
  destruct (groups_content _ _ _ _ _ Na D1 G1 _ E2) as (H1 & H2 & H3). split.
  - intros (ids & Hk & Hp). destruct (H1 _ _ Hk) as (g & Hg & Hn & Hi). destruct (proj1 (Hi p) Hp) as (it & Ha & Hb). exists g, it. auto.
  - intros (g & it & Hg & <- & Hi & Hd). destruct (map_get (table_group_map ix) (group_name g)) as [ids|] eqn:E.
    + exists ids. split; [reflexivity|]. destruct (H1 _ _ E) as (h & Hh & Hn & Hq).
      pose proof (NoDup_map_inj group_name _ _ _ H3 Hh Hg Hn) as Eg. rewrite Eg in Hq. apply Hq. exists it. auto.
    + exfalso. exact (H2 _ Hg E).
Qed.
