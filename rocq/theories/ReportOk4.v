(** * ReportOk4: the reported fault is a fault, and [parse_dbml] reports it. *)

From Verif Require Import Report RulesOk RulesOk2 RulesOk3 ReportOk ReportOk2 ReportOk3 NodesOk SpansOk ParseFacts ParseFacts2 CheckFacts2.
From Verif Require Import Err Parser Analyzer Api.

(** What a fault says about the schema. *)
Definition means (x : schema_t) (f : fault) : Prop :=
  match f with Fault e sp => violates x e sp | Crash => unsized_default x end.
Lemma means_if x (P : Prop) e sp f : fault_if P e sp f -> (P -> violates x e sp) -> means x f.
Proof. intros [H ->] K. exact (K H). Qed.
Lemma repeated_repeats {A B} (key : A -> B) l1 a l2 : repeated key l1 a -> repeats key (l1 ++ a :: l2) a.
Proof. unfold repeated. rewrite in_map_iff. intros (b & H1 & H2). exists l1, l2, b. auto. Qed.
Lemma means_attrs x l f : settings_of x l -> attr_faults l f -> means x f.
Proof.
  intros Hs H. apply each_in in H as (l1 & a & l2 & -> & H). eapply means_if; [exact H|]. intros Hr. eapply v_attribute; [exact Hs|].
  apply repeated_repeats. exact Hr.
Qed.
Lemma on_some {A} (o : option A) R f : on o R f -> exists a, o = Some a /\ R a f.
Proof. destruct o as [a|]; [eauto|intros []]. Qed.

Lemma clean_if (P : Prop) e (sp : range) : clean (fault_if P e sp) -> ~ P.
Proof. intros C H. apply (C (Fault e sp)). split; [exact H|reflexivity]. Qed.
Lemma name_dec (p q : str * str) : {p = q} + {p <> q}.
Proof. destruct p as [a b], q as [c d]. destruct (str_eq_dec a c) as [->|N]; [destruct (str_eq_dec b d) as [->|N]|]; [left; reflexivity|right; congruence..]. Qed.
Lemma clean_in e sp (p : str * str) l : clean (fault_if (~ In p l) e sp) -> In p l.
Proof. intros C. apply clean_if in C. destruct (in_dec name_dec p l) as [H|H]; [exact H|contradiction]. Qed.

Section Means.
  Variable x : schema_t.
  Lemma means_project f : project_faults x f -> means x f.
  Proof.
    intros [H|[_ [H|[_ H]]]].
    - eapply means_if; [exact H|]. intros Hl. destruct (projects x) as [|p1 [|p2 l]] eqn:E; cbn [List.length] in Hl; try lia. eapply v_two_projects. exact E.
    - eapply means_if; [exact H|]. apply v_no_project.
    - apply each_in in H as (l1 & p & l2 & E & H). apply each_in in H as (m1 & pr & m2 & E' & H). eapply means_if; [exact H|]. intros Hr.
      eapply (v_property x p pr); [rewrite E; apply in_mid|rewrite E'; apply repeated_repeats; exact Hr].
  Qed.
  Lemma means_table l1 t l2 f : tables x = l1 ++ t :: l2 -> table_faults l1 t f -> means x f.
  Proof.
    intros E. assert (Ht : In t (tables x)) by (rewrite E; apply in_mid). intros [H|[_ [H|[_ [H|[_ H]]]]]].
    - apply on_some in H as (st & Es & H). eapply means_attrs; [eapply so_table; eassumption|exact H].
    - eapply means_if; [exact H|]. intros Hr. apply v_table. rewrite E. apply repeated_repeats. exact Hr.
    - apply each_in in H as (m1 & c & m2 & E' & [H|[_ H]]).
      + apply on_some in H as (st & Es & H). eapply means_attrs; [eapply so_col; [exact Ht|rewrite E'; apply in_mid|exact Es]|exact H].
      + eapply means_if; [exact H|]. intros Hr. eapply v_column; [exact Ht|]. rewrite E'. apply repeated_repeats. exact Hr.
    - apply on_some in H as (a & Ea & H). eapply means_if; [exact H|]. intros Hin. apply in_aliases in Hin as (t' & H1 & H2).
      eapply v_alias; eassumption.
  Qed.
  Lemma means_enum l1 e l2 f : enums x = l1 ++ e :: l2 -> enum_faults l1 e f -> means x f.
  Proof.
    intros E. assert (He : In e (enums x)) by (rewrite E; apply in_mid). intros [H|[_ H]].
    - eapply means_if; [exact H|]. intros Hr. apply v_enum. rewrite E. apply repeated_repeats. exact Hr.
    - apply each_in in H as (m1 & v & m2 & E' & [H|[_ H]]).
      + apply on_some in H as (st & Es & H). eapply means_attrs; [eapply so_enum; [exact He|rewrite E'; apply in_mid|exact Es]|exact H].
      + eapply means_if; [exact H|]. intros Hr. eapply v_enum_value; [exact He|]. rewrite E'. apply repeated_repeats. exact Hr.
  Qed.
  Lemma means_group l1 g l2 f : table_groups x = l1 ++ g :: l2 -> group_faults (tables x) l1 g f -> means x f.
  Proof.
    intros E. assert (Hg : In g (table_groups x)) by (rewrite E; apply in_mid). intros [H|[_ H]].
    - eapply means_if; [exact H|]. intros Hr. apply v_group. rewrite E. apply repeated_repeats. exact Hr.
    - apply each_in in H as (m1 & it & m2 & E' & [H|[_ H]]); (eapply means_if; [exact H|]).
      + intros Hn. eapply v_group_table; [exact Hg|rewrite E'; apply in_mid|exact Hn].
      + intros (it' & id & H1 & H2 & H3). eapply v_group_item; eassumption.
  Qed.
  Lemma means_keys t f : In t (tables x) -> key_faults t f -> means x f.
  Proof.
    intros Ht [H|[_ H]].
    - apply each_in in H as (l1 & c & l2 & E & H). assert (Hc : column_of x t c) by (split; [exact Ht|rewrite E; apply in_mid]).
      apply on_some in H as (st & Es & [H|[_ [H|[_ [H|[_ H]]]]]]); (eapply means_if; [exact H|]).
      + intros (H1 & c' & H2 & H3). eapply v_pk_twice; [exact Ht|exact E|exists st; auto|exact H2|exact H3].
      + intros H1. eapply v_pk_null; [exact Hc|exists st; auto].
      + intros [H1 H2]. eapply v_pk_array; [exact Hc|exists st; auto|exact H2].
      + intros [H1 H2]. eapply v_null_conflict; eassumption.
    - apply on_some in H as (ib & Eb & H). apply each_in in H as (l1 & d & l2 & E & H).
      assert (Hd : index_of x t ib l1 d) by (econstructor; eassumption).
      destruct H as [H|[_ [H|[_ [H|[_ [H|[_ [H|[_ H]]]]]]]]]].
      + eapply means_if; [exact H|]. intros H1. eapply v_index_empty; eassumption.
      + apply each_in in H as (m1 & i & m2 & E' & H). destruct i as [i|e]; [|destruct H]. eapply means_if; [exact H|]. intros H1.
        eapply v_index_col; [exact Hd|rewrite E'; apply in_mid|exact H1].
      + apply on_some in H as (st & Es & [H|[_ H]]).
        * eapply means_attrs; [eapply so_index; [exact Ht|exact Eb|rewrite E; apply in_mid|exact Es]|exact H].
        * eapply means_if; [exact H|]. intros H1. eapply v_index_kind; eassumption.
      + eapply means_if; [exact H|]. intros H1. eapply v_index_pk; eassumption.
      + eapply means_if; [exact H|]. intros H1. eapply v_index_unique; eassumption.
      + eapply means_if; [exact H|]. intros H1. eapply v_index_again; eassumption.
  Qed.
  Lemma means_type t c f : column_of x t c -> type_faults x c f -> means x f.
  Proof.
    intros Hc (raw & Hr & [(tn & Hb & [H|[_ H]])|[_ [H|[_ [H|[_ H]]]]]]).
    - eapply means_if; [exact H|]. intros [H1 H2]. eapply v_args_number; eassumption.
    - eapply means_if; [exact H|]. intros (v & H1 & H2). eapply v_args_value; eassumption.
    - eapply means_if; [exact H|]. intros [H1 H2]. eapply v_enum_name; eassumption.
    - destruct H as ([so n] & [Hn He] & [[st v] sp] & [Hd Ha] & H). cbn [fst snd] in *.
      destruct H as [H|[C1 [H|[C2 H]]]]; (eapply means_if; [exact H|]); intros H1.
      + eapply v_enum_schema; eassumption.
      + apply clean_if in C1. eapply v_enum_missing; eassumption.
      + apply clean_in in C2. eapply v_enum_value_missing; eassumption.
    - destruct H as (tn & Hm & [[st v] sp] & [Hd Ha] & H). cbn [fst snd] in *. assert (Hcm : col_means c tn) by (exists raw; auto).
      destruct v as [w|w|z|d|b|w|w| ]; cbn [default_faults] in H; try (destruct H; fail).
      + destruct H as [[[H1 H2] ->]|[_ H]].
        * exists t, c, tn, st, w. auto.
        * eapply means_if; [exact H|]. intros H1. eapply v_default_string; eassumption.
      + eapply means_if; [exact H|]. intros H1. eapply v_default_int; eassumption.
      + eapply means_if; [exact H|]. intros H1. eapply v_default_bool; eassumption.
      + eapply means_if; [exact H|]. intros H1. eapply v_default_null; eassumption.
  Qed.
  Lemma means_endpoint r f : endpoint_of x r -> endpoint_faults x r f -> means x f.
  Proof.
    intros He ([so n] & Hp & [H|[C1 [H|[_ H]]]]); cbn [fst snd] in *.
    - eapply means_if; [exact H|]. intros H1. eapply v_ref_schema; [exact He|exact Hp|exact H1|reflexivity].
    - destruct H as (sp & Hsp & H). eapply means_if; [exact H|]. intros H1. apply clean_if in C1. eapply v_ref_table; eassumption.
    - destruct H as (t & [H1 H2] & H). apply each_in in H as (l1 & i & l2 & E & H). eapply means_if; [exact H|]. intros H3.
      eapply v_ref_column; [exact He|exact Hp|exact H1|exact H2|rewrite E; apply in_mid|exact H3].
  Qed.
  Lemma classic_schema so : schema_missing x (default_schema so) \/ ~ schema_missing x (default_schema so).
  Proof.
    destruct (in_dec str_eq_dec (default_schema so) (map (fun t => fst (table_name t)) (tables x))) as [H|H].
    { right. intros [M _]. apply in_map_iff in H as (t & H1 & H2). exact (M t H2 H1). }
    destruct (in_dec str_eq_dec (default_schema so) (map (fun t => fst (enum_name t)) (enums x))) as [H'|H'].
    { right. intros [_ M]. apply in_map_iff in H' as (t & H1 & H2). exact (M t H2 H1). }
    left. split; intros t Ht E; [apply H|apply H']; rewrite <- E; apply (in_map (fun t => fst (_ t))); exact Ht.
  Qed.
  Lemma clean_endpoint r : clean (endpoint_faults x r) -> exists so n t, points_to (tables x) r so n /\ In t (tables x) /\ table_name t = (default_schema so, n).
  Proof.
    intros C. assert (Hp : exists so n, points_to (tables x) r so n).
    { destruct (in_dec str_eq_dec (id_str (ri_table r)) (aliases (tables x))) as [H|H]; [|exists (option_map id_str (ri_schema r)), (id_str (ri_table r)); apply pt_name; exact H].
      apply in_aliases in H as (t & H1 & H2). exists (Some (fst (table_name t))), (snd (table_name t)). apply pt_alias; assumption. }
    destruct Hp as (so & n & Hp). exists so, n.
    assert (Hs : exists sp, table_span (tables x) r sp).
    { destruct (in_dec str_eq_dec (id_str (ri_table r)) (aliases (tables x))) as [H|H]; [exists (ri_span r); left; auto|exists (id_span (ri_table r)); right; auto]. }
    destruct Hs as (sp & Hs).
    destruct (in_dec name_dec (default_schema so, n) (map table_name (tables x))) as [H|H].
    - apply in_map_iff in H as (t & H1 & H2). exists t. auto.
    - exfalso. destruct (classic_schema so) as [Hm|Hm].
      + apply (C (Fault SchemaNotFound (match ri_schema r with Some i => id_span i | None => (0, 0) end))). exists (so, n). split; [exact Hp|]. left. split; [exact Hm|reflexivity].
      + apply (C (Fault TableNotFound sp)). exists (so, n). split; [exact Hp|]. right. split; [intros f [Hf _]; exact (Hm Hf)|]. left. exists sp. split; [exact Hs|]. split; [exact H|reflexivity].
  Qed.
  Lemma means_ref l1 i l2 f : all_refs x = l1 ++ i :: l2 -> ref_faults x l1 i l2 f -> means x f.
  Proof.
    intros E. assert (Hi : In i (all_refs x)) by (rewrite E; apply in_mid).
    assert (Hel : endpoint_of x (ir_lhs i)) by (exists i; auto). assert (Her : endpoint_of x (ir_rhs i)) by (exists i; auto).
    intros [H|[_ [H|[Hlen [H|[Cl [H|[Cr [H|[_ [H|[_ [H|[_ H]]]]]]]]]]]]]].
    - apply on_some in H as (st & Es & H). eapply means_attrs; [eapply ref_settings_of; eassumption|exact H].
    - eapply means_if; [exact H|]. intros H1. apply v_ref_lengths; assumption.
    - eapply means_endpoint; [exact Hel|exact H].
    - eapply means_endpoint; [exact Her|exact H].
    - eapply means_if; [exact H|]. intros H1. apply clean_endpoint in Cl as (so & n & t & H2 & H3 & H4). eapply v_ref_unwritten; eassumption.
    - eapply means_if; [exact H|]. intros H1. apply clean_endpoint in Cr as (so & n & t & H2 & H3 & H4). eapply v_ref_unwritten; eassumption.
    - destruct H as ([lt rt] & [Hlt Hrt] & [H|[_ H]]); cbn [fst snd] in *.
      + apply each_in in H as (m1 & [l r] & m2 & E' & ([lc rc] & [Hlc Hrc] & H)). cbn [fst snd] in *.
        assert (Hl : List.length (ri_compositions (ir_lhs i)) = List.length (ri_compositions (ir_rhs i))).
        { destruct (Nat.eq_dec (List.length (ri_compositions (ir_lhs i))) (List.length (ri_compositions (ir_rhs i)))) as [Eq|Ne]; [exact Eq|].
          exfalso. apply (Hlen (Fault MismatchedCompositeForeignKey (ir_span i))). split; [exact Ne|reflexivity]. }
        assert (Hk : linked x i l r lt rt lc rc).
        { split; [exact Hi|]. split; [rewrite E'; apply in_mid|]. auto. }
        destruct H as [H|[_ H]].
        * eapply means_if; [exact H|]. intros H1. eapply v_ref_type; eassumption.
        * unfold single_fault in H. destruct (ir_rel i) eqn:Er; cbn [fst snd] in H; (eapply means_if; [exact H|]); intros [H1 H2];
            (eapply v_ref_key; [exact Hk|exact H1|rewrite Er; exact H2|rewrite Er; reflexivity]).
      + unfold composite_fault in H. destruct (ir_rel i) eqn:Er; cbn [fst snd] in H; (eapply means_if; [exact H|]); intros [H1 H2];
            (eapply (v_ref_keys x i lt rt); [exact Hi|exact Hlt|exact Hrt|exact H1|rewrite Er; exact H2|rewrite Er; reflexivity]).
    - eapply means_if; [exact H|]. intros H1. eapply v_ref_clash; eassumption.
  Qed.
  Lemma reports_means f : reports x f -> means x f.
  Proof.
    intros [H|[_ [H|[_ [H|[_ [H|[_ [H|[_ [H|[_ H]]]]]]]]]]]].
    - apply means_project. exact H.
    - apply each_in in H as (l1 & t & l2 & E & H). eapply means_table; eassumption.
    - apply each_in in H as (l1 & t & l2 & E & H). eapply means_enum; eassumption.
    - apply each_in in H as (l1 & t & l2 & E & H). eapply means_group; eassumption.
    - apply each_in in H as (l1 & t & l2 & E & H). eapply (means_keys t); [rewrite E; apply in_mid|exact H].
    - apply each_in in H as (l1 & t & l2 & E & H). apply each_in in H as (m1 & c & m2 & E' & H).
      eapply (means_type t c); [split; [rewrite E; apply in_mid|rewrite E'; apply in_mid]|exact H].
    - apply each_in in H as (l1 & t & l2 & E & H). eapply means_ref; eassumption.
  Qed.
End Means.

(** ** The parsed text *)
Lemma reported inp x : parse_dbml_unchecked inp = Some (Ok x) ->
  match parse_dbml inp with
  | Some (Ok y) => y = x /\ clean (reports x)
  | Some (Err (ErSem e sp)) => only (reports x) (Fault e sp)
  | Some Panic => only (reports x) Crash
  | _ => False
  end.
Proof.
  intros P. pose proof (unchecked_ok _ _ P) as K.
  assert (H : checks (sb_input x) (reports x) (fun _ => True) (analyze x)).
  { apply ck_analyze. intros t c Hc. split.
    - apply (in_cols _ _ K) in Hc as (_ & _ & (_ & name & E & _) & _). eauto.
    - intros st v Hd Hk. eapply default_placed; eassumption. }
  unfold parse_dbml. rewrite P. cbn [bind]. destruct (analyze x) as [an|[| | |e sp]|]; cbn [omap checks] in *; try exact H.
  - split; [reflexivity|apply H].
  - destruct H as [H|(e & sp & H & Hb)]; [exact H|]. exfalso.
    assert (Hv : violates x e sp) by (apply (reports_means x (Fault e sp)), H; reflexivity).
    apply (violation_valid _ _ K), valid_ok in Hv. destruct K as (K0 & _). congruence.
Qed.
Lemma reported_first inp x : parse_dbml_unchecked inp = Some (Ok x) ->
  (forall e sp, parse_dbml inp = Some (Err (ErSem e sp)) <-> reports x (Fault e sp)) /\
  (parse_dbml inp = Some Panic <-> reports x Crash) /\
  (parse_dbml inp = Some (Ok x) <-> forall f, ~ reports x f).
Proof.
  intros P. pose proof (reported inp x P) as H. destruct (parse_dbml inp) as [[y|[| | |e sp]|]|]; try (destruct H; fail).
  - destruct H as [-> Hc]. split; [|split].
    + intros e sp. split; [discriminate|]. intros Hr. exfalso. exact (Hc _ Hr).
    + split; [discriminate|]. intros Hr. exfalso. exact (Hc _ Hr).
    + split; [intros _; exact Hc|reflexivity].
  - split; [|split].
    + intros e' sp'. rewrite (H (Fault e' sp')). split; congruence.
    + rewrite (H Crash). split; discriminate.
    + split; [discriminate|]. intros Hn. exfalso. apply (Hn (Fault e sp)), H. reflexivity.
  - split; [|split].
    + intros e' sp'. rewrite (H (Fault e' sp')). split; discriminate.
    + rewrite (H Crash). split; reflexivity.
    + split; [discriminate|]. intros Hn. exfalso. apply (Hn Crash), H. reflexivity.
Qed.
Lemma reports_one inp x f g : parse_dbml_unchecked inp = Some (Ok x) -> reports x f -> reports x g -> f = g.
Proof.
  intros P Hf Hg. pose proof (reported inp x P) as H. destruct (parse_dbml inp) as [[y|[| | |e sp]|]|]; try (destruct H; fail).
  - exfalso. exact (proj2 H f Hf).
  - apply H in Hf, Hg. congruence.
  - apply H in Hf, Hg. congruence.
Qed.
Lemma panics_exactly inp : parse_dbml inp = Some Panic <-> exists x, parse_dbml_unchecked inp = Some (Ok x) /\ reports x Crash.
Proof.
  split.
  - intros H. destruct (checked_panic inp H) as (x & P & _). exists x. split; [exact P|]. apply (reported_first inp x P). exact H.
  - intros (x & P & H). apply (reported_first inp x P). exact H.
Qed.
