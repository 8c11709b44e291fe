(** * ReportOk2: tables, enums, groups, keys and indexes report their first fault. *)

From Verif Require Import Report RulesOk RulesOk2 RulesOk3 ReportOk.
From Verif Require Import Err Analyzer.

Lemma snoc_ind {A} (P : list A -> Prop) : P [] -> (forall l a, P l -> P (l ++ [a])) -> forall l, P l.
Proof. intros H0 H1. apply rev_ind; [exact H0|]. intros a l H. apply H1. exact H. Qed.
Lemma try_fold_snoc {A B} (f : B -> A -> outcome B) l a acc b :
  try_fold f (l ++ [a]) acc = Ok b -> exists c, try_fold f l acc = Ok c /\ f c a = Ok b.
Proof.
  rewrite try_fold_app. destruct (try_fold f l acc) as [c|e|] eqn:E; cbn [bind]; [|discriminate|discriminate].
  cbn [try_fold]. destruct (f c a) as [d|e|] eqn:E'; cbn [bind]; [|discriminate|discriminate]. intros H. exists c. split; [reflexivity|].
  rewrite E'. exact H.
Qed.
Lemma throw_not_ok {A} e sp inp (a : A) : throw_err e sp inp <> Ok a.
Proof. unfold throw_err. destruct (span_ok inp sp); discriminate. Qed.
Lemma bind_ok {A B} (o : outcome A) (k : A -> outcome B) b : bind o k = Ok b -> exists a, o = Ok a /\ k a = Ok b.
Proof. destruct o as [a|e|]; cbn [bind]; [eauto|discriminate|discriminate]. Qed.
Lemma if_throw_ok {A} (b : bool) e sp inp (o : outcome A) a : (if b then throw_err e sp inp else o) = Ok a -> b = false /\ o = Ok a.
Proof. destruct b; [intros H; exfalso; exact (throw_not_ok _ _ _ _ H)|auto]. Qed.
Lemma ck_drop {A} inp F (Q : A -> Prop) o : checks inp F Q o -> checks inp F (fun _ => True) o.
Proof. intros H. eapply ck_impl; [exact H|]. intros; exact Logic.I. Qed.

(** ** Names with checks *)
Section Keys.
  Context {A : Type} (inp : str) (chk : A -> outcome unit) (key : A -> str) (e : sem_err) (sp : A -> range).
  Let f := fun (seen : list str) a => let? _ := chk a in if mem_str (key a) seen then throw_err e (sp a) inp else Ok (key a :: seen).
  Lemma keys_seen l : forall seen, try_fold f l [] = Ok seen -> same_set seen (map key l).
  Proof.
    induction l as [|l a IH] using snoc_ind; intros seen H.
    - injection H as <-. intros k. reflexivity.
    - apply try_fold_snoc in H as (m & H1 & H2). apply IH in H1. unfold f in H2. apply bind_ok in H2 as (u & _ & H2).
      apply if_throw_ok in H2 as [_ H2]. injection H2 as <-. intros k. rewrite map_app, in_app_iff. cbn [map In]. rewrite (H1 k). tauto.
  Qed.
  Lemma ck_keys (F : A -> frule) l : (forall a, In a l -> checks inp (F a) (fun _ => True) (chk a)) ->
    checks inp (each l (fun before a _ => F a ;; fault_if (repeated key before a) e (sp a))) (fun _ => True) (try_fold f l []).
  Proof.
    intros H. apply ck_fold. intros l1 a l2 acc -> Hf. unfold f. eapply ck_bind; [apply H, in_mid|]. intros u _ _.
    eapply ck_same; [|apply (ck_if inp (repeated key l1 a) no_fault (fun _ => True) (mem_str (key a) acc) e (sp a))].
    - intros g. split; [intros [Hg|[_ []]]; exact Hg|]. intros Hg. left. exact Hg.
    - rewrite mem_str_In. apply (keys_seen l1 acc Hf).
    - intros _. apply ck_pure; [apply no_clean|exact Logic.I].
  Qed.
End Keys.

(** ** Tables *)
Definition some_tables (inp : str) (l : list table_t) : schema_t := mkSchema (0, 0) inp (map BTable l).
Lemma some_tables_tables inp l : tables (some_tables inp l) = l.
Proof.
  unfold tables, some_tables, filter_map. cbn [sb_blocks]. induction l as [|t l IH]; [reflexivity|]. cbn [map flat_map app]. rewrite IH. reflexivity.
Qed.
Lemma prefix_describes inp l ix : index_table l inp indexer0 = Ok ix ->
  table_names_wf l /\ describes l [] ix /\ table_group_map ix = [].
Proof.
  intros H. pose proof (index_table_ok (some_tables inp l)) as Hi. rewrite some_tables_tables in Hi. cbn [sb_input some_tables] in Hi.
  rewrite H in Hi. exact Hi.
Qed.
Lemma ck_table1 inp l1 t ix : describes l1 [] ix -> checks inp (table_faults l1 t) (fun _ => True) (index_table1 inp ix t).
Proof.
  intros D. unfold index_table1, table_faults. cbv zeta.
  eapply ck_bind; [apply ck_opt_attrs|]. intros u _ _.
  eapply ck_bind; [apply ck_test|].
  { rewrite contains_table_tab. unfold repeated. rewrite in_map_iff. fold (in_schema (ti_schema (tb_ident t))). split.
    - intros H. destruct (tab ix (schema_or_default (ti_schema (tb_ident t)), id_str (ti_name (tb_ident t)))) as [cols|] eqn:E; [|congruence].
      apply (d_tab1 _ _ _ D) in E as (t' & H1 & H2 & _). exists t'. split; [exact H2|exact H1].
    - intros (t' & H1 & H2). apply (d_tab2 _ _ _ D) in H2. rewrite H1 in H2. exact H2. }
  intros u' _ _. eapply ck_bind.
  { unfold index_cols. apply (ck_keys inp (fun c => check_opt_attrs cs_attributes (tc_settings c) inp) col_name DuplicateColumnName tc_span).
    intros a _. apply ck_opt_attrs. }
  intros cols _ _. destruct (ti_alias (tb_ident t)) as [a|]; cbn [on]; [|apply ck_pure; [apply no_clean|exact Logic.I]].
  eapply ck_same; [|apply (ck_if inp (In (id_str a) (aliases l1)) no_fault (fun _ => True) (map_contains (table_alias_map ix) (id_str a)) DuplicateAlias (id_span a))].
  - intros g. split; [intros [Hg|[_ []]]; exact Hg|]. intros Hg. left. exact Hg.
  - rewrite map_contains_get, in_aliases. split.
    + intros H. destruct (map_get (table_alias_map ix) (id_str a)) as [p|] eqn:E; [|congruence].
      apply (d_als1 _ _ _ D) in E as (t' & H1 & H2 & _). eauto.
    + intros (t' & H1 & H2). exact (d_als2 _ _ _ D t' _ H1 H2).
  - intros _. apply ck_pure; [apply no_clean|exact Logic.I].
Qed.
Lemma ck_tables inp l : checks inp (each l (fun before t _ => table_faults before t)) (fun _ => True) (index_table l inp indexer0).
Proof. apply ck_fold. intros l1 t l2 ix _ Hf. apply ck_table1. apply (prefix_describes inp l1 ix Hf). Qed.

(** ** Enums *)
Definition some_enums (inp : str) (ts : list table_t) (l : list enum_t) : schema_t := mkSchema (0, 0) inp (map BTable ts ++ map BEnum l).
Lemma some_enums_tables inp ts l : tables (some_enums inp ts l) = ts.
Proof.
  unfold tables, some_enums, filter_map. cbn [sb_blocks]. rewrite flat_map_app. 
  replace (flat_map _ (map BEnum l)) with (@nil table_t) by (induction l as [|e l IH]; [reflexivity|exact IH]).
  rewrite app_nil_r. induction ts as [|t ts IH]; [reflexivity|]. cbn [map flat_map app]. rewrite IH. reflexivity.
Qed.
Lemma some_enums_enums inp ts l : enums (some_enums inp ts l) = l.
Proof.
  unfold enums, some_enums, filter_map. cbn [sb_blocks]. rewrite flat_map_app. 
  replace (flat_map _ (map BTable ts)) with (@nil enum_t) by (induction ts as [|e ts IH]; [reflexivity|exact IH]).
  cbn [app]. induction l as [|t l IH]; [reflexivity|]. cbn [map flat_map app]. rewrite IH. reflexivity.
Qed.
Lemma prefix_enums inp ts ix0 l ix : describes ts [] ix0 -> table_group_map ix0 = [] -> index_enums l inp ix0 = Ok ix ->
  enums_wf l /\ describes ts l ix /\ table_group_map ix = [].
Proof.
  intros D G H. pose proof (index_enums_ok (some_enums inp ts l) ix0) as Hi. rewrite some_enums_tables, some_enums_enums in Hi. cbn [sb_input some_enums] in Hi.
  rewrite H in Hi. exact (Hi D G).
Qed.
Lemma ck_enum1 inp ts l1 e ix : describes ts l1 ix -> checks inp (enum_faults l1 e) (fun _ => True) (index_enum1 inp ix e).
Proof.
  intros D. unfold index_enum1, enum_faults. cbv zeta.
  eapply ck_bind; [apply ck_test|].
  { rewrite contains_enum_enm. unfold repeated. rewrite in_map_iff. split.
    - intros H. destruct (enm ix (schema_or_default (ei_schema (en_ident e)), id_str (ei_name (en_ident e)))) as [cols|] eqn:E; [|congruence].
      apply (d_enm1 _ _ _ D) in E as (t' & H1 & H2 & _). exists t'. split; [exact H2|exact H1].
    - intros (t' & H1 & H2). apply (d_enm2 _ _ _ D) in H2. rewrite H1 in H2. exact H2. }
  intros u' _ _. eapply ck_same; [|eapply ck_bind with (G := no_fault)].
  - intros g. split; [intros [Hg|[_ []]]; exact Hg|]. intros Hg. left. exact Hg.
  - unfold index_enum_values. apply (ck_keys inp (fun c => check_opt_attrs evs_attributes (ev_settings c) inp) value_name DuplicateEnumValue ev_span (fun v => on (ev_settings v) (fun st => attr_faults (evs_attributes st)))).
    intros a _. apply ck_opt_attrs.
  - intros vals _ _. apply ck_pure; [apply no_clean|exact Logic.I].
Qed.
Lemma ck_enums inp ts ix0 l : describes ts [] ix0 -> table_group_map ix0 = [] ->
  checks inp (each l (fun before e _ => enum_faults before e)) (fun _ => True) (index_enums l inp ix0).
Proof. intros D G. apply ck_fold. intros l1 e l2 ix _ Hf. apply (ck_enum1 inp ts). apply (prefix_enums inp ts ix0 l1 ix D G Hf). Qed.

(** ** Groups *)
Definition items_step (inp : str) (ix : indexer) (seen : list (str * str)) (it : group_item_t) : outcome (list (str * str)) :=
  let? id := resolve_group_item ix it inp in
  if pair_mem id seen then throw_err DuplicateTableGroupItem (gi_span it) inp else Ok (id :: seen).
Lemma ck_item inp ts es ix it : describes ts es ix ->
  checks inp (fault_if (forall id, ~ item_denotes ts it id) TableNotFound (gi_span it)) (item_denotes ts it) (resolve_group_item ix it inp).
Proof.
  intros D. unfold resolve_group_item. cbv zeta. destruct (gi_schema it) as [sc|] eqn:E.
  - assert (Hd : item_denotes ts it (id_str sc, id_str (gi_ident_alias it))) by (apply den_qualified; exact E).
    apply ck_pure; [|exact Hd]. apply if_clean. intros H. exact (H _ Hd).
  - unfold resolve_alias. destruct (map_get (table_alias_map ix) (id_str (gi_ident_alias it))) as [p|] eqn:Ea.
    + apply (d_als1 _ _ _ D) in Ea as (t & H1 & H2 & <-).
      assert (Hd : item_denotes ts it (table_name t)) by (apply den_alias; assumption).
      apply ck_pure; [|exact Hd]. apply if_clean. intros H. exact (H _ Hd).
    + pose proof (proj1 (alias_map_none _ _ _ _ D) Ea) as Hna.
      destruct (contains_table ix DEFAULT_SCHEMA (id_str (gi_ident_alias it))) eqn:Ec.
      * apply contains_table_tab in Ec. destruct (tab ix (DEFAULT_SCHEMA, id_str (gi_ident_alias it))) as [cols|] eqn:Et; [|congruence].
        apply (d_tab1 _ _ _ D) in Et as (t & H1 & H2 & _).
        assert (Hd : item_denotes ts it (DEFAULT_SCHEMA, id_str (gi_ident_alias it))).
        { rewrite <- H2. apply den_table; assumption. }
        apply ck_pure; [|exact Hd]. apply if_clean. intros H. exact (H _ Hd).
      * apply ck_throw. apply if_only. intros id Hd. destruct Hd as [sc Hs|t Hs Ht Hal|t Hs Hn Ht Hnm]; [congruence| |].
        -- apply Hna. apply in_aliases. eauto.
        -- apply (d_tab2 _ _ _ D) in Ht. rewrite Hnm in Ht. apply contains_table_tab in Ht. unfold DEFAULT_SCHEMA, public in *. congruence.
Qed.
Lemma items_seen inp ts es ix l : NoDup (aliases ts) -> describes ts es ix -> forall seen, try_fold (items_step inp ix) l [] = Ok seen ->
  forall id, In id seen <-> exists it, In it l /\ item_denotes ts it id.
Proof.
  intros Na D. induction l as [|l it IH] using snoc_ind; intros seen H id.
  - injection H as <-. split; [intros []|intros (it & [] & _)].
  - apply try_fold_snoc in H as (m & H1 & H2). specialize (IH m H1). unfold items_step in H2. apply bind_ok in H2 as (p & Hp & H2).
    apply if_throw_ok in H2 as [_ H2]. injection H2 as <-. pose proof (ck_item inp ts es ix it D) as Hc. rewrite Hp in Hc. destruct Hc as [Hc _].
    cbn [In]. rewrite (IH id). split.
    + intros [<-|(it' & Ha & Hb)]; [exists it; split; [apply in_or_app; right; left; reflexivity|exact Hc]|].
      exists it'. split; [apply in_or_app; left; exact Ha|exact Hb].
    + intros (it' & Ha & Hb). apply in_app_iff in Ha as [Ha|[<-|[]]]; [right; eauto|]. left. exact (item_denotes_fun _ _ _ _ Na Hc Hb).
Qed.
Lemma groups_seen inp ix0 l : forall ix, table_group_map ix0 = [] -> index_table_groups l inp ix0 = Ok ix ->
  (forall k, map_contains (table_group_map ix) k = true <-> In k (map group_name l)) /\
  schema_map ix = schema_map ix0 /\ table_alias_map ix = table_alias_map ix0.
Proof.
  intros ix G. revert ix. unfold index_table_groups. induction l as [|l g IH] using snoc_ind; intros ix H.
  - injection H as <-. rewrite G. split; [|auto]. intros k. cbn. split; [discriminate|intros []].
  - apply try_fold_snoc in H as (ix1 & H1 & H2). specialize (IH ix1 H1) as (I1 & I2 & I3). unfold index_table_group1 in H2. cbv zeta in H2.
    apply bind_ok in H2 as (u & Hu & H2). apply bind_ok in H2 as (items & _ & H2). injection H2 as <-.
    cbn [table_group_map schema_map table_alias_map]. split; [|auto]. intros k. rewrite map_contains_get, map_get_insert.
    rewrite map_app, in_app_iff. cbn [map In]. rewrite <- (I1 k), map_contains_get. fold (group_name g). destruct (str_eqb k (group_name g)) eqn:E.
    + apply str_eqb_eq in E. subst k. split; [intros _; right; left; reflexivity|discriminate].
    + split; [auto|]. intros [H|[H|[]]]; [exact H|]. subst k. rewrite (proj2 (str_eqb_eq _ _) eq_refl) in E. discriminate.
Qed.
Lemma describes_maps ts es ix ix' : schema_map ix' = schema_map ix -> table_alias_map ix' = table_alias_map ix ->
  describes ts es ix -> describes ts es ix'.
Proof.
  intros H1 H2 [d1 d2 d3 d4 d5 d6 d7]. split; unfold tab, enm in *; rewrite ?H1, ?H2 in *; assumption.
Qed.
Lemma ck_group1 inp ts es l1 g ix : NoDup (aliases ts) -> describes ts es ix ->
  (forall k, map_contains (table_group_map ix) k = true <-> In k (map group_name l1)) ->
  checks inp (group_faults ts l1 g) (fun _ => True) (index_table_group1 inp ix g).
Proof.
  intros Na D Hk. unfold index_table_group1, group_faults. cbv zeta.
  eapply ck_bind; [apply ck_test; apply Hk|]. intros u _ _.
  eapply ck_same; [|eapply ck_bind with (G := no_fault)].
  - intros f. split; [intros [Hg|[_ []]]; exact Hg|]. intros Hg. left. exact Hg.
  - change (try_fold _ (tg_items g) []) with (try_fold (items_step inp ix) (tg_items g) []).
    apply ck_fold. intros m1 it m2 seen _ Hf. unfold items_step. eapply ck_bind; [apply (ck_item inp ts es ix it D)|].
    intros id _ Hid.
    eapply ck_same; [|apply (ck_if inp (exists it' id, In it' m1 /\ item_denotes ts it id /\ item_denotes ts it' id) no_fault (fun _ => True) (pair_mem id seen) DuplicateTableGroupItem (gi_span it))].
    + intros f. split; [intros [Hg|[_ []]]; exact Hg|]. intros Hg. left. exact Hg.
    + rewrite pair_mem_In, (items_seen inp ts es ix m1 Na D seen Hf id). split.
      * intros (it' & Ha & Hb). exists it', id. auto.
      * intros (it' & id' & Ha & Hb & Hc). exists it'. split; [exact Ha|]. rewrite (item_denotes_fun _ _ _ _ Na Hid Hb). exact Hc.
    + intros _. apply ck_pure; [apply no_clean|exact Logic.I].
  - intros items _ _. apply ck_pure; [apply no_clean|exact Logic.I].
Qed.
Lemma ck_groups inp ts es ix0 l : NoDup (aliases ts) -> describes ts es ix0 -> table_group_map ix0 = [] ->
  checks inp (each l (fun before g _ => group_faults ts before g)) (fun _ => True) (index_table_groups l inp ix0).
Proof.
  intros Na D G. apply ck_fold. intros l1 g l2 ix _ Hf. destruct (groups_seen inp ix0 l1 ix G Hf) as (H1 & H2 & H3).
  apply (ck_group1 inp ts es); [exact Na| |exact H1]. eapply describes_maps; eassumption.
Qed.

(** ** Keys and indexes *)
Lemma ck_omap {A B} inp F (Q : A -> Prop) (f : A -> B) o : checks inp F Q o -> checks inp F (fun _ => True) (omap f o).
Proof. destruct o as [a|[| | |e sp]|]; cbn [checks omap]; auto. intros [_ H]. auto. Qed.
Definition with_cols (t : table_t) (cols : list table_col_t) : table_t :=
  mkTable (tb_span t) cols (tb_ident t) (tb_note t) (tb_indexes t) (tb_settings t).
Lemma prefix_cols inp (t : table_t) l ti : try_fold (check_col_settings inp) l table_indexer0 = Ok ti -> cols_inv l ti.
Proof.
  intros H. pose proof (check_cols_ok (some_tables inp [with_cols t l]) (with_cols t l)) as Hi.
  rewrite some_tables_tables in Hi. cbn [sb_input some_tables with_cols tb_cols] in Hi. rewrite H in Hi.
  destruct Hi as [Hi _]; [left; reflexivity|exact Hi].
Qed.
Lemma ck_col1 inp l1 c ti : cols_inv l1 ti -> checks inp (col_key_faults l1 c) (fun _ => True) (check_col_settings inp ti c).
Proof.
  intros (Hp & Hu & Hi). unfold check_col_settings, col_key_faults. destruct (tc_settings c) as [st|] eqn:E; cbn [on];
    [|apply ck_pure; [apply no_clean|exact Logic.I]].
  set (F1 := fault_if _ DuplicatePrimaryKey _). set (F2 := fault_if _ NullablePrimaryKey _). set (F3 := fault_if _ ArrayPrimaryKey _).
  set (F4 := fault_if _ ConflictNullableSetting _).
  eapply ck_same with (F := (F1 ;; F2 ;; F3) ;; F4).
  { intros f. rewrite (followed_assoc F1 (F2 ;; F3) F4 f). apply followed_same; [intros g; reflexivity|]. intros _. apply followed_assoc. }
  eapply ck_bind with (Q := fun _ => True).
  - destruct (cs_is_pk st) eqn:Ep.
    + apply ck_if.
      { rewrite is_nil_false. rewrite Hp. split; [intros H; split; [reflexivity|exact H]|intros [_ H]; exact H]. }
      intros _. apply ck_if.
      { rewrite nullable_is_null_true. split; [intros H; split; [reflexivity|exact H]|intros [_ H]; exact H]. }
      intros _. eapply ck_same; [|apply ck_if with (G := no_fault)].
      * intros f. split; [intros [Hg|[_ []]]; exact Hg|]. intros Hg. left. exact Hg.
      * rewrite is_nil_false. split; [intros H; split; [reflexivity|exact H]|intros [_ H]; exact H].
      * intros _. apply ck_pure; [apply no_clean|exact Logic.I].
    + apply ck_none; [apply if_clean; intros [H _]; discriminate|]. apply ck_none; [apply if_clean; intros [H _]; discriminate|].
      apply ck_pure; [apply if_clean; intros [H _]; discriminate|exact Logic.I].
  - intros ti' _ _. eapply ck_same; [|apply ck_if with (G := no_fault)].
    + intros f. split; [intros [Hg|[_ []]]; exact Hg|]. intros Hg. left. exact Hg.
    + unfold conflict_nullable. rewrite andb_true_iff, !mem_str_In, <- !has_key_in. tauto.
    + intros _. apply ck_pure; [apply no_clean|exact Logic.I].
Qed.
Lemma prefix_defs inp t ib l1 l2 ti0 ti : tb_indexes t = Some ib -> ib_defs ib = l1 ++ l2 -> cols_inv (tb_cols t) ti0 ->
  try_fold (check_index_def t ib inp) l1 ti0 = Ok ti -> defs_inv (tb_cols t) l1 ti.
Proof.
  intros Et Ed (Hp & Hu & Hi) H. 
  pose proof (ok_fold (some_tables inp [t]) (check_index_def t ib inp) (defs_inv (tb_cols t)) l1 ti0) as Hf. rewrite H in Hf. apply Hf.
  - split; [|split].
    + rewrite Hp. split; [auto|]. intros [Hx|(d & [] & _)]; exact Hx.
    + intros u. rewrite (Hu u). split; [auto|]. intros [Hx|(d & [] & _)]; exact Hx.
    + intros p. rewrite Hi. split; [intros []|intros (d & [] & _)].
  - intros m1 d m2 acc E Hd. eapply ok_impl; [apply (check_index_def_ok (some_tables inp [t]) t ib m1 d acc)|].
    + apply (io_intro _ t ib m1 d (m2 ++ l2)); [rewrite some_tables_tables; left; reflexivity|exact Et|]. rewrite Ed, E, <- app_assoc. reflexivity.
    + exact Hd.
    + intros ti' [Hx _]. exact Hx.
Qed.
Lemma ck_index_cols inp t l : checks inp (each l (fun _ c _ =>
    match c with
    | ICString i => fault_if (~ In (id_str i) (map col_name (tb_cols t))) ColumnNotFound (id_span i)
    | ICExpr _ => no_fault
    end)) (fun _ => True) (check_index_cols t inp l).
Proof.
  unfold check_index_cols. apply ck_fold. intros l1 c l2 [] _ _. destruct c as [i|e]; [|apply ck_pure; [apply no_clean|exact Logic.I]].
  assert (Hm : existsb (fun col => str_eqb (id_str (tc_name col)) (id_str i)) (tb_cols t) = true <-> In (id_str i) (map col_name (tb_cols t))).
  { rewrite existsb_exists, in_map_iff. split; intros (c & H1 & H2); exists c.
    - apply str_eqb_eq in H2. auto.
    - split; [exact H2|]. apply str_eqb_eq. exact H1. }
  destruct (existsb _ (tb_cols t)).
  - apply ck_pure; [|exact Logic.I]. apply if_clean. intros H. apply H, Hm. reflexivity.
  - apply ck_throw, if_only. intros H. apply Hm in H. discriminate.
Qed.
Lemma def_has_some (P : indexes_settings_t -> Prop) d st : idf_settings d = Some st -> (def_has P d <-> P st).
Proof. intros E. unfold def_has. split; [intros (y & Hy & H); congruence|]. intros H. eauto. Qed.
Lemma def_has_none (P : indexes_settings_t -> Prop) d : idf_settings d = None -> ~ def_has P d.
Proof. intros E (y & Hy & _). congruence. Qed.
Lemma is_some_ex {A} (o : option A) : is_some o = true <-> exists a, o = Some a.
Proof. destruct o as [a|]; cbn; split; [eauto|reflexivity|discriminate|intros (a & Ha); discriminate]. Qed.
Lemma ck_def1 inp t ib l1 d ti : defs_inv (tb_cols t) l1 ti -> checks inp (index_faults t ib l1 d) (fun _ => True) (check_index_def t ib inp ti d).
Proof.
  intros (Hp & Hu & Hi). unfold check_index_def, index_faults. cbv zeta.
  eapply ck_bind; [apply ck_test; apply is_nil_true|]. intros u _ _.
  eapply ck_bind; [apply ck_index_cols|]. intros u' _ _.
  assert (Hpk : forall st, idf_settings d = Some st -> (def_pk d <-> is_is_pk st = true)) by (intros st E; exact (def_has_some (fun st => is_is_pk st = true) d st E)).
  assert (Hun : forall st, idf_settings d = Some st -> (def_unique d <-> is_is_unique st = true)) by (intros st E; exact (def_has_some (fun st => is_is_unique st = true) d st E)).
  assert (Hty : forall st, idf_settings d = Some st -> (def_typed d <-> exists ty, is_type st = Some ty)) by (intros st E; exact (def_has_some (fun st => exists ty, is_type st = Some ty) d st E)).
  rewrite named_ids. destruct (idf_settings d) as [st|] eqn:E; cbn [on].
  - specialize (Hpk st eq_refl). specialize (Hun st eq_refl). specialize (Hty st eq_refl). rewrite <- is_some_ex in Hty.
    set (F1 := attr_faults (is_attributes st)). set (F2 := fault_if _ InvalidIndexesSetting _).
    set (F3 := fault_if _ DuplicatePrimaryKey _). set (F4 := fault_if _ DuplicateUniqueKey _). set (F5 := fault_if _ DuplicateIndexKey _).
    eapply ck_same with (F := F1 ;; F2 ;; (F3 ;; F4) ;; F5).
    { intros f. rewrite (followed_assoc F1 F2 (F3 ;; F4 ;; F5) f). apply followed_same; [intros g; reflexivity|]. intros _.
      apply followed_same; [intros g; reflexivity|]. intros _. apply followed_assoc. }
    eapply ck_bind; [apply ck_attrs|]. intros u2 _ _.
    eapply ck_bind; [apply ck_test|].
    { rewrite Hpk, Hun, Hty. unfold count_true.
      destruct (is_is_pk st), (is_is_unique st), (is_some (is_type st)); cbn; split; intros H;
        try reflexivity; try discriminate; try tauto; exfalso; destruct H as [[? ?]|[[? ?]|[? ?]]]; discriminate. }
    intros u3 _ Hk; cbv beta in Hk.
    eapply ck_bind with (Q := fun ti' => indexed_list ti' = indexed_list ti).
    + destruct (is_is_pk st) eqn:Ep.
      * eapply ck_if.
        { rewrite is_nil_false, Hp. unfold pk_again. split; [intros H; split; [apply Hpk; reflexivity|exact H]|intros [_ H]; exact H]. }
        intros _. apply ck_pure; [|reflexivity]. apply if_clean. intros [H _]. apply Hk. left. split; [apply Hpk; reflexivity|exact H].
      * apply ck_none.
        { apply if_clean. intros [H _]. apply Hpk in H. discriminate. }
        destruct (is_is_unique st) eqn:Eu.
        -- eapply ck_same; [|apply ck_if with (G := no_fault)].
           ++ intros f. split; [intros [Hg|[_ []]]; exact Hg|]. intros Hg. left. exact Hg.
           ++ rewrite existsb_exists. unfold unique_again.
              assert (Hinc : forall v, forallb (fun id => mem_str id v) (named d) = true <-> incl (named d) v).
              { intros v. rewrite forallb_forall. unfold incl. split; intros H k Hin; [apply mem_str_In, H, Hin|apply mem_str_In; exact (H k Hin)]. }
              split.
              ** intros (v & Hv & Hc). apply Hinc in Hc. split; [apply Hun; reflexivity|]. apply Hu in Hv as [(c & H1 & H2 & ->)|(d' & H1 & H2 & ->)].
                 --- left. exists c. auto.
                 --- right. exists d'. auto.
              ** intros [_ [(c & H1 & H2 & H3)|(d' & H1 & H2 & H3)]].
                 --- exists [col_name c]. split; [apply Hu; left; exists c; auto|apply Hinc; exact H3].
                 --- exists (named d'). split; [apply Hu; right; exists d'; auto|apply Hinc; exact H3].
           ++ intros _. apply ck_pure; [apply no_clean|reflexivity].
        -- apply ck_pure; [|reflexivity]. apply if_clean. intros [H _]. apply Hun in H. discriminate.
    + intros ti' _ Hti. destruct (is_some (is_type st)) eqn:Et.
      * apply is_some_ex in Et as (ty & Et). eapply ck_same; [|apply ck_if with (G := no_fault)].
        -- intros f. split; [intros [Hg|[_ []]]; exact Hg|]. intros Hg. left. exact Hg.
        -- rewrite existsb_exists, Hti. unfold index_again. split.
           ++ intros (q & Hq & Hc). apply andb_true_iff in Hc as [Hc1 Hc2]. apply list_eqb_str in Hc1. apply opt_idx_type_eqb_eq in Hc2.
              apply Hi in Hq as (d' & H1 & H2 & H3). exists d', (Some ty), (snd q). split; [exact H1|]. split; [|split; [exact H2|split; [congruence|right; congruence]]].
              unfold index_kind. rewrite E. eauto.
           ++ intros (d' & k & k' & H1 & H2 & H3 & H4 & H5). unfold index_kind in H2. rewrite E in H2. destruct H2 as (ty' & H2 & ->).
              destruct H5 as [H5|H5]; [discriminate|]. exists (named d', k'). split; [apply Hi; exists d'; auto|]. apply andb_true_iff. split.
              ** apply list_eqb_str. exact H4.
              ** apply opt_idx_type_eqb_eq. cbn [snd]. congruence.
        -- intros _. apply ck_pure; [apply no_clean|exact Logic.I].
      * apply ck_pure; [|exact Logic.I]. apply if_clean. intros (d' & k & k' & H1 & H2 & _). unfold index_kind in H2. rewrite E in H2.
        destruct H2 as (ty & H2 & _). rewrite H2 in Et. discriminate.
  - apply ck_none; [apply no_clean|]. apply ck_none; [apply if_clean; intros [H _]; exact (def_has_none _ d E H)|].
    apply ck_none; [apply if_clean; intros [H _]; exact (def_has_none _ d E H)|].
    eapply ck_same; [|apply ck_if with (G := no_fault)].
    + intros f. split; [intros [Hg|[_ []]]; exact Hg|]. intros Hg. left. exact Hg.
    + rewrite existsb_exists. unfold index_again. split.
      * intros (q & Hq & Hc). apply list_eqb_str in Hc. apply Hi in Hq as (d' & H1 & H2 & H3). exists d', None, (snd q).
        split; [exact H1|]. split; [unfold index_kind; rewrite E; reflexivity|]. split; [exact H2|]. split; [congruence|left; reflexivity].
      * intros (d' & k & k' & H1 & H2 & H3 & H4 & H5). exists (named d', k'). split; [apply Hi; exists d'; auto|]. apply list_eqb_str. exact H4.
    + intros _. apply ck_pure; [apply no_clean|exact Logic.I].
Qed.
Lemma ck_table_keys inp t : checks inp (key_faults t) (fun _ => True) (check_table inp t).
Proof.
  unfold check_table, key_faults. eapply ck_bind.
  - apply ck_fold. intros l1 c l2 ti _ Hf. apply ck_col1. exact (prefix_cols inp t l1 ti Hf).
  - intros ti Hti _. apply (prefix_cols inp t) in Hti.
    eapply ck_same; [|eapply ck_bind with (G := no_fault) (Q := fun _ => True)].
    + intros f. split; [intros [Hg|[_ []]]; exact Hg|]. intros Hg. left. exact Hg.
    + destruct (tb_indexes t) as [ib|] eqn:E; cbn [on]; [|apply ck_pure; [apply no_clean|exact Logic.I]].
      eapply ck_omap. apply ck_fold. intros l1 d l2 ti' Ed Hf. apply ck_def1. eapply prefix_defs; [exact E| |exact Hti|exact Hf]. exact Ed.
    + intros u _ _. apply ck_pure; [apply no_clean|exact Logic.I].
Qed.
Lemma ck_all_keys inp ts : checks inp (each ts (fun _ t _ => key_faults t)) (fun _ => True) (try_map (check_table inp) ts).
Proof. apply ck_map. intros t _. apply ck_table_keys. Qed.
