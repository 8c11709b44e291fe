(** * RulesOk: the analyzer accepts exactly the well-formed schemas, and every
    error it reports is a violation of the rule named by the error. *)

From Verif Require Import Rules.
From Verif Require Import Err Analyzer.

(** ** Outcomes *)
Definition ok_or {A} (x : schema_t) (R : A -> Prop) (o : outcome A) : Prop :=
  match o with
  | Ok a => R a
  | Err (ErSem e sp) => violates x e sp
  | Err _ => False
  | Panic => panics x \/ exists e sp, violates x e sp /\ span_ok (sb_input x) sp = false
  end.
Lemma ok_throw {A} x (R : A -> Prop) e sp : violates x e sp -> ok_or x R (throw_err e sp (sb_input x)).
Proof. intros H. unfold throw_err. destruct (span_ok (sb_input x) sp) eqn:E; cbn [ok_or]; eauto. Qed.
Lemma ok_panic {A} x (R : A -> Prop) : panics x -> ok_or x R Panic.
Proof. intros H. left. exact H. Qed.
Lemma ok_bind {A B} x (R : A -> Prop) (Q : B -> Prop) o f :
  ok_or x R o -> (forall a, R a -> ok_or x Q (f a)) -> ok_or x Q (bind o f).
Proof. destruct o as [a|[| | |e sp]|]; cbn [ok_or bind]; auto. Qed.
Lemma ok_omap {A B} x (R : A -> Prop) (Q : B -> Prop) o (f : A -> B) :
  ok_or x R o -> (forall a, R a -> Q (f a)) -> ok_or x Q (omap f o).
Proof. destruct o as [a|[| | |e sp]|]; cbn [ok_or omap]; auto. Qed.
Lemma ok_impl {A} x (R Q : A -> Prop) o : ok_or x R o -> (forall a, R a -> Q a) -> ok_or x Q o.
Proof. destruct o as [a|[| | |e sp]|]; cbn [ok_or]; auto. Qed.
Lemma ok_fold {A B} x (f : B -> A -> outcome B) (I : list A -> B -> Prop) l acc0 :
  I [] acc0 ->
  (forall l1 a l2 acc, l = l1 ++ a :: l2 -> I l1 acc -> ok_or x (I (l1 ++ [a])) (f acc a)) ->
  ok_or x (I l) (try_fold f l acc0).
Proof.
  intros H0 Hs.
  cut (forall l2 l1 acc, l = l1 ++ l2 -> I l1 acc -> ok_or x (I l) (try_fold f l2 acc)).
  { intros H. apply (H l []); auto. }
  induction l2 as [|a l2 IH]; intros l1 acc E HI; cbn [try_fold].
  - rewrite app_nil_r in E. subst. exact HI.
  - eapply ok_bind; [eapply Hs; eassumption|]. intros acc' HI'. apply (IH (l1 ++ [a])); [|exact HI'].
    rewrite <- app_assoc. exact E.
Qed.
Lemma ok_map {A B} x (f : A -> outcome B) (R : A -> B -> Prop) l :
  (forall a, In a l -> ok_or x (R a) (f a)) -> ok_or x (fun bs => Forall2 R l bs) (try_map f l).
Proof.
  induction l as [|a l IH]; intros H; cbn [try_map].
  - constructor.
  - eapply ok_bind; [apply H; left; reflexivity|]. intros b Hb.
    eapply ok_bind; [apply IH; intros a' Ha'; apply H; right; exact Ha'|]. intros bs Hbs. constructor; assumption.
Qed.
Lemma ok_if {A} x (R : A -> Prop) (b : bool) o o' :
  (b = true -> ok_or x R o) -> (b = false -> ok_or x R o') -> ok_or x R (if b then o else o').
Proof. destruct b; auto. Qed.

(** ** Lists *)
Lemma mem_str_false k l : mem_str k l = false <-> ~ In k l.
Proof. rewrite <- mem_str_In. destruct (mem_str k l); split; congruence. Qed.
Lemma NoDup_snoc {A} (l : list A) a : NoDup (l ++ [a]) <-> NoDup l /\ ~ In a l.
Proof.
  pose proof (NoDup_Add (Add_app a l [])) as H. rewrite app_nil_r in H. exact H.
Qed.
Lemma NoDup_split {A} (l1 : list A) a l2 : NoDup (l1 ++ a :: l2) -> ~ In a l1 /\ ~ In a l2.
Proof.
  intros H. apply NoDup_remove_2 in H. rewrite in_app_iff in H. tauto.
Qed.
Lemma NoDup_map_inj {A B} (f : A -> B) l a b : NoDup (map f l) -> In a l -> In b l -> f a = f b -> a = b.
Proof.
  intros Hn Ha Hb E. apply in_split in Ha as (l1 & l2 & ->). rewrite map_app in Hn. cbn [map] in Hn.
  apply NoDup_split in Hn as [H1 H2]. apply in_app_or in Hb as [Hb|[Hb|Hb]]; [|exact Hb|].
  - exfalso. apply H1. rewrite E. apply in_map. exact Hb.
  - exfalso. apply H2. rewrite E. apply in_map. exact Hb.
Qed.
Lemma repeats_dup {A B} (f : A -> B) l a : repeats f l a -> ~ NoDup (map f l).
Proof.
  intros (l1 & l2 & b & -> & Hb & E) H. rewrite map_app in H. cbn [map] in H. apply NoDup_split in H as [H _].
  apply H. rewrite <- E. apply in_map. exact Hb.
Qed.
Lemma in_mid {A} (l1 : list A) a l2 : In a (l1 ++ a :: l2).
Proof. apply in_or_app. right. left. reflexivity. Qed.

Lemma f2_impl {A B} (R Q : A -> B -> Prop) l l' : (forall a b, R a b -> Q a b) -> Forall2 R l l' -> Forall2 Q l l'.
Proof. intros H. induction 1; constructor; auto. Qed.

(** ** Duplicate keys *)
Lemma first_dup_spec {A} (key : A -> str) l : forall seen,
  match first_dup key seen l with
  | Some a => exists l1 l2, l = l1 ++ a :: l2 /\ (In (key a) seen \/ In (key a) (map key l1))
  | None => NoDup (map key l) /\ forall a, In a l -> ~ In (key a) seen
  end.
Proof.
  induction l as [|a l IH]; intros seen; cbn [first_dup].
  - split; [constructor|]. intros a [].
  - destruct (mem_str (key a) seen) eqn:E.
    + apply mem_str_In in E. exists [], l. auto.
    + apply mem_str_false in E. specialize (IH (key a :: seen)). destruct (first_dup key (key a :: seen) l) as [b|].
      * destruct IH as (l1 & l2 & -> & H). exists (a :: l1), l2. split; [reflexivity|]. cbn [In map] in *. tauto.
      * destruct IH as [H1 H2]. split.
        -- cbn [map]. constructor; [|exact H1]. intros Hin. apply in_map_iff in Hin as (b & Hb & Hin).
           apply (H2 b Hin). left. auto.
        -- intros b [<-|Hb]; [exact E|]. intros Hs. apply (H2 b Hb). right. exact Hs.
Qed.
Lemma dup_attrs x l : settings_of x l -> ok_or x (fun _ => distinct_keys l) (check_attr_duplicate_keys l (sb_input x)).
Proof.
  intros Hs. unfold check_attr_duplicate_keys. pose proof (first_dup_spec attr_key l []) as H.
  destruct (first_dup attr_key [] l) as [a|].
  - apply ok_throw. destruct H as (l1 & l2 & -> & [[]|H]). apply in_map_iff in H as (b & Hb & Hin).
    eapply v_attribute; [exact Hs|]. exists l1, l2, b. auto.
  - apply H.
Qed.
Lemma dup_opt_attrs {S} x (attrs : S -> list attribute_t) st :
  (forall y, st = Some y -> settings_of x (attrs y)) ->
  ok_or x (fun _ => opt_all (fun y => distinct_keys (attrs y)) st) (check_opt_attrs attrs st (sb_input x)).
Proof.
  intros H. destruct st as [y|]; cbn [check_opt_attrs opt_all]; [|exact Logic.I]. apply dup_attrs. auto.
Qed.
Lemma check_projects_ok x : ok_or x (fun _ => project_wf x) (check_projects x).
Proof.
  unfold check_projects, project_wf.
  destruct (projects x) as [|p [|p' l]] eqn:E; cbn [List.length Nat.ltb Nat.leb bind].
  - apply ok_throw. apply v_no_project. exact E.
  - unfold check_prop_duplicate_keys. pose proof (first_dup_spec prop_key (pj_properties p) []) as H.
    destruct (first_dup prop_key [] (pj_properties p)) as [a|].
    + apply ok_throw. destruct H as (l1 & l2 & El & [[]|H]). apply in_map_iff in H as (b & Hb & Hin).
      eapply v_property; [rewrite E; left; reflexivity|]. exists l1, l2, b. auto.
    + exists p. split; [reflexivity|]. apply H.
  - eapply ok_bind with (R := fun _ => False); [apply ok_throw; eapply v_two_projects; exact E|intros ? []].
Qed.

(** ** The index of names *)
Lemma map_get_insert {V} (m : list (str * V)) k v k' :
  map_get (map_insert m k v) k' = if str_eqb k' k then Some v else map_get m k'.
Proof.
  induction m as [|[k0 v0] m IH]; cbn [map_insert map_get].
  - reflexivity.
  - destruct (str_eqb_spec k k0) as [->|Hk]; cbn [map_get].
    + destruct (str_eqb k' k0); reflexivity.
    + rewrite IH. destruct (str_eqb_spec k' k0) as [->|H0]; [|reflexivity].
      destruct (str_eqb_spec k0 k) as [->|_]; [congruence|reflexivity].
Qed.
Lemma map_contains_get {V} (m : list (str * V)) k : map_contains m k = true <-> map_get m k <> None.
Proof. unfold map_contains. destruct (map_get m k); split; congruence. Qed.

Definition tab (ix : indexer) (p : str * str) : option (list str) :=
  match map_get (schema_map ix) (fst p) with Some b => map_get (table_map b) (snd p) | None => None end.
Definition enm (ix : indexer) (p : str * str) : option (list str) :=
  match map_get (schema_map ix) (fst p) with Some b => map_get (enum_map b) (snd p) | None => None end.
Lemma contains_table_tab ix a b : contains_table ix a b = true <-> tab ix (a, b) <> None.
Proof.
  unfold contains_table, tab. cbn [fst snd]. destruct (map_get (schema_map ix) a) as [m|].
  - apply map_contains_get.
  - split; congruence.
Qed.
Lemma contains_enum_enm ix a b : contains_enum ix a b = true <-> enm ix (a, b) <> None.
Proof.
  unfold contains_enum, enm. cbn [fst snd]. destruct (map_get (schema_map ix) a) as [m|].
  - apply map_contains_get.
  - split; congruence.
Qed.

(** [ix] describes the tables [ts] and enums [es]. *)
Record describes (ts : list table_t) (es : list enum_t) (ix : indexer) : Prop := {
  d_tab1 : forall p cols, tab ix p = Some cols ->
    exists t, In t ts /\ table_name t = p /\ same_set cols (map col_name (tb_cols t));
  d_tab2 : forall t, In t ts -> tab ix (table_name t) <> None;
  d_enm1 : forall p vs, enm ix p = Some vs ->
    exists e, In e es /\ enum_name e = p /\ same_set vs (map value_name (en_values e));
  d_enm2 : forall e, In e es -> enm ix (enum_name e) <> None;
  d_als1 : forall a p, map_get (table_alias_map ix) a = Some p ->
    exists t, In t ts /\ alias_of t = Some a /\ table_name t = p;
  d_als2 : forall t a, In t ts -> alias_of t = Some a -> map_get (table_alias_map ix) a <> None;
  d_sch : forall a, map_get (schema_map ix) a = None <->
    (forall t, In t ts -> fst (table_name t) <> a) /\ (forall e, In e es -> fst (enum_name e) <> a) }.

Lemma index_cols_ok x t : In t (tables x) ->
  ok_or x (fun l => same_set l (map col_name (tb_cols t)) /\
      Forall (fun c => opt_all (fun st => distinct_keys (cs_attributes st)) (tc_settings c)) (tb_cols t) /\
      NoDup (map col_name (tb_cols t)))
    (index_cols (tb_cols t) (sb_input x)).
Proof.
  intros Ht. unfold index_cols.
  apply (ok_fold x _ (fun l seen => same_set seen (map col_name l) /\
      Forall (fun c => opt_all (fun st => distinct_keys (cs_attributes st)) (tc_settings c)) l /\
      NoDup (map col_name l))).
  - split; [intros k; reflexivity|]. split; constructor.
  - intros l1 c l2 seen E (H1 & H2 & H3).
    eapply ok_bind; [apply (dup_opt_attrs x cs_attributes)|].
    { intros st Hst. eapply so_col; [exact Ht| |exact Hst]. rewrite E. apply in_mid. }
    intros [] Hd; cbv beta in Hd. cbv zeta. fold (col_name c). apply ok_if; intros Em.
    + apply ok_throw. apply mem_str_In in Em. apply H1 in Em. apply in_map_iff in Em as (b & Hb & Hin).
      eapply v_column; [exact Ht|]. exists l1, l2, b. auto.
    + apply mem_str_false in Em. cbn [ok_or]. split; [|split].
      * intros k. rewrite map_app, in_app_iff. cbn [map In]. rewrite (H1 k). tauto.
      * apply Forall_app. split; [exact H2|]. constructor; [exact Hd|constructor].
      * rewrite map_app. cbn [map]. apply NoDup_snoc. split; [exact H3|]. intros Hin. apply Em. apply H1. exact Hin.
Qed.

Lemma index_table_ok x : ok_or x (fun ix => table_names_wf (tables x) /\ describes (tables x) [] ix /\ table_group_map ix = [])
  (index_table (tables x) (sb_input x) indexer0).
Proof.
  unfold index_table.
  apply (ok_fold x _ (fun ts ix => table_names_wf ts /\ describes ts [] ix /\ table_group_map ix = [])).
  - split; [split; [constructor|split; constructor]|]. split; [|reflexivity].
    constructor; cbn; try discriminate; try tauto; try (intros ? []). 
  - intros l1 t l2 ix E ((W1 & W2 & W3) & D & Hg). unfold index_table1.
    assert (Ht : In t (tables x)) by (rewrite E; apply in_mid).
    eapply ok_bind; [apply (dup_opt_attrs x ts_attributes); intros st Hst; eapply so_table; eassumption|].
    intros [] Hset; cbv beta in Hset. cbv zeta. fold (in_schema (ti_schema (tb_ident t))).
    change (schema_or_default (ti_schema (tb_ident t))) with (fst (table_name t)).
    change (id_str (ti_name (tb_ident t))) with (snd (table_name t)).
    eapply ok_bind with (R := fun _ => ~ In (table_name t) (map table_name l1)).
    { apply ok_if; intros Ec.
      - apply ok_throw. apply contains_table_tab in Ec. rewrite <- surjective_pairing in Ec.
        destruct (tab ix (table_name t)) as [cols|] eqn:Et; [|congruence].
        apply (d_tab1 _ _ _ D) in Et as (t' & Hin & Hn & _).
        apply v_table. exists l1, l2, t'. auto.
      - cbn [ok_or]. intros Hin. apply in_map_iff in Hin as (t' & Hn & Hin). apply (d_tab2 _ _ _ D) in Hin.
        rewrite Hn in Hin. rewrite (surjective_pairing (table_name t)) in Hin. apply contains_table_tab in Hin. congruence. }
    intros [] Hnew; cbv beta in Hnew. eapply ok_bind; [apply index_cols_ok; exact Ht|]. intros cols (Hcols & Hcs & Hcn).
    set (sm := map_insert _ _ _).
    set (am := match alias_of t with Some a => map_insert (table_alias_map ix) a (table_name t) | None => table_alias_map ix end).
    assert (Hsm : forall a, map_get sm a = if str_eqb a (fst (table_name t))
       then Some (mkIndexedSchema (map_insert (table_map (schema_entry ix (fst (table_name t)))) (snd (table_name t)) cols)
                                  (enum_map (schema_entry ix (fst (table_name t)))))
       else map_get (schema_map ix) a) by (intros a; apply map_get_insert).
    assert (Hal : ~ In (match alias_of t with Some a => a | None => [] end) (aliases l1) \/ alias_of t = None ->
       describes (l1 ++ [t]) [] (mkIndexer (table_group_map ix) sm am)).
    { intros Hal.
      assert (Htab : forall p, tab (mkIndexer (table_group_map ix) sm am) p =
         if str_eqb (fst p) (fst (table_name t)) && str_eqb (snd p) (snd (table_name t)) then Some cols else tab ix p).
      { intros [a b]. unfold tab. cbn [fst snd schema_map]. rewrite Hsm.
        destruct (str_eqb_spec a (fst (table_name t))) as [->|Ha]; cbn [andb]; [|reflexivity].
        cbn [table_map]. rewrite map_get_insert. destruct (str_eqb b (snd (table_name t))); [reflexivity|].
        unfold schema_entry. destruct (map_get (schema_map ix) (fst (table_name t))); reflexivity. }
      assert (Henm : forall p, enm (mkIndexer (table_group_map ix) sm am) p = enm ix p).
      { intros [a b]. unfold enm. cbn [fst snd schema_map]. rewrite Hsm.
        destruct (str_eqb_spec a (fst (table_name t))) as [->|Ha]; [|reflexivity].
        cbn [enum_map]. unfold schema_entry. destruct (map_get (schema_map ix) (fst (table_name t))); reflexivity. }
      constructor.
      - intros [a b] cs. rewrite Htab. cbn [fst snd].
        destruct (str_eqb_spec a (fst (table_name t))) as [Ea|Ea];
          [destruct (str_eqb_spec b (snd (table_name t))) as [Eb|Eb]|]; cbn [andb].
        + intros [= <-]. exists t. split; [apply in_or_app; right; left; reflexivity|]. split; [|exact Hcols].
          rewrite (surjective_pairing (table_name t)). congruence.
        + intros H. apply (d_tab1 _ _ _ D) in H as (t' & H1 & H2). exists t'. split; [apply in_or_app; auto|exact H2].
        + intros H. apply (d_tab1 _ _ _ D) in H as (t' & H1 & H2). exists t'. split; [apply in_or_app; auto|exact H2].
      - intros t' Hin. rewrite Htab. apply in_app_or in Hin as [Hin|[<-|[]]].
        + destruct (_ && _); [congruence|]. apply (d_tab2 _ _ _ D). exact Hin.
        + rewrite !str_eqb_refl. cbn [andb]. congruence.
      - intros p vs. rewrite Henm. apply (d_enm1 _ _ _ D).
      - intros e [].
      - intros a p. cbn [table_alias_map]. unfold am. destruct (alias_of t) as [a0|] eqn:Ea.
        + rewrite map_get_insert. destruct (str_eqb_spec a a0) as [->|Hn].
          * intros [= <-]. exists t. split; [apply in_or_app; right; left; reflexivity|]. auto.
          * intros H. apply (d_als1 _ _ _ D) in H as (t' & H1 & H2). exists t'. split; [apply in_or_app; auto|exact H2].
        + intros H. apply (d_als1 _ _ _ D) in H as (t' & H1 & H2). exists t'. split; [apply in_or_app; auto|exact H2].
      - intros t' a Hin Ha. cbn [table_alias_map]. unfold am. apply in_app_or in Hin as [Hin|[<-|[]]].
        + pose proof (d_als2 _ _ _ D _ _ Hin Ha). destruct (alias_of t) as [a0|]; [|assumption].
          rewrite map_get_insert. destruct (str_eqb a a0); [congruence|assumption].
        + rewrite Ha. rewrite map_get_insert, str_eqb_refl. congruence.
      - intros a. cbn [schema_map]. rewrite Hsm. destruct (str_eqb_spec a (fst (table_name t))) as [->|Hn].
        + split; [discriminate|]. intros [H _]. exfalso. apply (H t); [apply in_or_app; right; left; reflexivity|reflexivity].
        + rewrite (d_sch _ _ _ D a). split; intros [H1 H2]; (split; [|exact H2]).
          * intros t' Hin. apply in_app_or in Hin as [Hin|[<-|[]]]; [auto|congruence].
          * intros t' Hin. apply H1. apply in_or_app. auto. }
    assert (HW : NoDup (aliases (l1 ++ [t])) -> table_names_wf (l1 ++ [t])).
    { intros Hna. split; [|split; [exact Hna|]].
      - rewrite map_app. apply NoDup_snoc. auto.
      - apply Forall_app. split; [exact W3|]. constructor; [|constructor]. auto. }
    assert (Hall : aliases (l1 ++ [t]) = aliases l1 ++ opt_list (fun a => a) (alias_of t)).
    { unfold aliases. rewrite flat_map_app. cbn [flat_map]. rewrite app_nil_r. reflexivity. }
    unfold alias_of in *. destruct (ti_alias (tb_ident t)) as [a|] eqn:Ea; cbn [option_map] in *.
    + apply ok_if; intros Ec.
      * apply ok_throw. apply map_contains_get in Ec.
        destruct (map_get (table_alias_map ix) (id_str a)) as [p|] eqn:Ep; [|congruence].
        apply (d_als1 _ _ _ D) in Ep as (t' & Hin & Ha & _). eapply v_alias; eassumption.
      * assert (Hni : ~ In (id_str a) (aliases l1)).
        { intros Hin. apply in_flat_map in Hin as (t' & Hin & Ha). unfold alias_of in Ha.
          destruct (ti_alias (tb_ident t')) as [a'|] eqn:Ea'; cbn [option_map opt_list In] in Ha; [|tauto].
          destruct Ha as [Ha|[]].
          assert (alias_of t' = Some (id_str a)) by (unfold alias_of; rewrite Ea'; cbn; congruence).
          pose proof (d_als2 _ _ _ D _ _ Hin H) as Hc. apply map_contains_get in Hc. congruence. }
        cbn [ok_or]. split; [|split; [rewrite <- (surjective_pairing (table_name t)); apply Hal; auto|exact Hg]].
        apply HW. rewrite Hall. cbn [opt_list]. apply NoDup_snoc. auto.
    + cbn [ok_or]. split; [|split; [apply Hal; auto|exact Hg]].
      apply HW. rewrite Hall. cbn [opt_list]. rewrite app_nil_r. exact W2.
Qed.

Lemma index_enum_values_ok x e : In e (enums x) ->
  ok_or x (fun l => same_set l (map value_name (en_values e)) /\
      Forall (fun v => opt_all (fun st => distinct_keys (evs_attributes st)) (ev_settings v)) (en_values e) /\
      NoDup (map value_name (en_values e)))
    (index_enum_values (en_values e) (sb_input x)).
Proof.
  intros Ht. unfold index_enum_values.
  apply (ok_fold x _ (fun l seen => same_set seen (map value_name l) /\
      Forall (fun v => opt_all (fun st => distinct_keys (evs_attributes st)) (ev_settings v)) l /\
      NoDup (map value_name l))).
  - split; [intros k; reflexivity|]. split; constructor.
  - intros l1 c l2 seen E (H1 & H2 & H3).
    eapply ok_bind; [apply (dup_opt_attrs x evs_attributes)|].
    { intros st Hst. eapply so_enum; [exact Ht| |exact Hst]. rewrite E. apply in_mid. }
    intros [] Hd; cbv beta in Hd. cbv zeta. fold (value_name c). apply ok_if; intros Em.
    + apply ok_throw. apply mem_str_In in Em. apply H1 in Em. apply in_map_iff in Em as (b & Hb & Hin).
      eapply v_enum_value; [exact Ht|]. exists l1, l2, b. auto.
    + apply mem_str_false in Em. cbn [ok_or]. split; [|split].
      * intros k. rewrite map_app, in_app_iff. cbn [map In]. rewrite (H1 k). tauto.
      * apply Forall_app. split; [exact H2|]. constructor; [exact Hd|constructor].
      * rewrite map_app. cbn [map]. apply NoDup_snoc. split; [exact H3|]. intros Hin. apply Em. apply H1. exact Hin.
Qed.

Lemma index_enums_ok x ix0 : describes (tables x) [] ix0 -> table_group_map ix0 = [] ->
  ok_or x (fun ix => enums_wf (enums x) /\ describes (tables x) (enums x) ix /\ table_group_map ix = [])
    (index_enums (enums x) (sb_input x) ix0).
Proof.
  intros D0 Hg0. unfold index_enums.
  apply (ok_fold x _ (fun es ix => enums_wf es /\ describes (tables x) es ix /\ table_group_map ix = [])).
  - split; [split; constructor|]. auto.
  - intros l1 e l2 ix E ((W1 & W2) & D & Hg). unfold index_enum1.
    assert (He : In e (enums x)) by (rewrite E; apply in_mid).
    cbv zeta.
    change (schema_or_default (ei_schema (en_ident e))) with (fst (enum_name e)).
    change (id_str (ei_name (en_ident e))) with (snd (enum_name e)).
    eapply ok_bind with (R := fun _ => ~ In (enum_name e) (map enum_name l1)).
    { apply ok_if; intros Ec.
      - apply ok_throw. apply contains_enum_enm in Ec. rewrite <- surjective_pairing in Ec.
        destruct (enm ix (enum_name e)) as [vs|] eqn:Et; [|congruence].
        apply (d_enm1 _ _ _ D) in Et as (t' & Hin & Hn & _).
        apply v_enum. exists l1, l2, t'. auto.
      - cbn [ok_or]. intros Hin. apply in_map_iff in Hin as (t' & Hn & Hin). apply (d_enm2 _ _ _ D) in Hin.
        rewrite Hn in Hin. rewrite (surjective_pairing (enum_name e)) in Hin. apply contains_enum_enm in Hin. congruence. }
    intros [] Hnew; cbv beta in Hnew. eapply ok_bind; [apply index_enum_values_ok; exact He|]. intros vs (Hvs & Hvc & Hvn).
    set (sm := map_insert _ _ _).
    assert (Hsm : forall a, map_get sm a = if str_eqb a (fst (enum_name e))
       then Some (mkIndexedSchema (table_map (schema_entry ix (fst (enum_name e))))
                   (map_insert (enum_map (schema_entry ix (fst (enum_name e)))) (snd (enum_name e)) vs))
       else map_get (schema_map ix) a) by (intros a; apply map_get_insert).
    cbn [ok_or]. split; [|split; [|exact Hg]].
    + split.
      * rewrite map_app. apply NoDup_snoc. auto.
      * apply Forall_app. split; [exact W2|]. constructor; [|constructor]. auto.
    + assert (Henm : forall p, enm (mkIndexer (table_group_map ix) sm (table_alias_map ix)) p =
         if str_eqb (fst p) (fst (enum_name e)) && str_eqb (snd p) (snd (enum_name e)) then Some vs else enm ix p).
      { intros [a b]. unfold enm. cbn [fst snd schema_map]. rewrite Hsm.
        destruct (str_eqb_spec a (fst (enum_name e))) as [->|Ha]; cbn [andb]; [|reflexivity].
        cbn [enum_map]. rewrite map_get_insert. destruct (str_eqb b (snd (enum_name e))); [reflexivity|].
        unfold schema_entry. destruct (map_get (schema_map ix) (fst (enum_name e))); reflexivity. }
      assert (Htab : forall p, tab (mkIndexer (table_group_map ix) sm (table_alias_map ix)) p = tab ix p).
      { intros [a b]. unfold tab. cbn [fst snd schema_map]. rewrite Hsm.
        destruct (str_eqb_spec a (fst (enum_name e))) as [->|Ha]; [|reflexivity].
        cbn [table_map]. unfold schema_entry. destruct (map_get (schema_map ix) (fst (enum_name e))); reflexivity. }
      constructor.
      * intros p cs. rewrite Htab. apply (d_tab1 _ _ _ D).
      * intros t Ht. rewrite Htab. apply (d_tab2 _ _ _ D). exact Ht.
      * intros [a b] cs. rewrite Henm. cbn [fst snd].
        destruct (str_eqb_spec a (fst (enum_name e))) as [Ea|Ea];
          [destruct (str_eqb_spec b (snd (enum_name e))) as [Eb|Eb]|]; cbn [andb].
        -- intros [= <-]. exists e. split; [apply in_or_app; right; left; reflexivity|]. split; [|exact Hvs].
          rewrite (surjective_pairing (enum_name e)). congruence.
        -- intros H. apply (d_enm1 _ _ _ D) in H as (t' & H1 & H2). exists t'. split; [apply in_or_app; auto|exact H2].
        -- intros H. apply (d_enm1 _ _ _ D) in H as (t' & H1 & H2). exists t'. split; [apply in_or_app; auto|exact H2].
      * intros t' Hin. rewrite Henm. apply in_app_or in Hin as [Hin|[<-|[]]].
        -- destruct (_ && _); [congruence|]. apply (d_enm2 _ _ _ D). exact Hin.
        -- rewrite !str_eqb_refl. cbn [andb]. congruence.
      * apply (d_als1 _ _ _ D).
      * apply (d_als2 _ _ _ D).
      * intros a. cbn [schema_map]. rewrite Hsm. destruct (str_eqb_spec a (fst (enum_name e))) as [->|Hn].
        -- split; [discriminate|]. intros [_ H]. exfalso. apply (H e); [apply in_or_app; right; left; reflexivity|reflexivity].
        -- rewrite (d_sch _ _ _ D a). split; intros [H1 H2]; (split; [exact H1|]).
          ++ intros t' Hin. apply in_app_or in Hin as [Hin|[<-|[]]]; [auto|congruence].
          ++ intros t' Hin. apply H2. apply in_or_app. auto.
Qed.

(** ** Table groups *)
Lemma in_aliases ts a : In a (aliases ts) <-> exists t, In t ts /\ alias_of t = Some a.
Proof.
  unfold aliases. rewrite in_flat_map. split; intros (t & Ht & H); exists t; (split; [exact Ht|]).
  - destruct (alias_of t) as [b|]; cbn [opt_list In] in H; [|tauto]. destruct H as [->|[]]. reflexivity.
  - rewrite H. left. reflexivity.
Qed.
Lemma alias_unique ts t t' a : NoDup (aliases ts) -> In t ts -> In t' ts ->
  alias_of t = Some a -> alias_of t' = Some a -> t = t'.
Proof.
  induction ts as [|u ts IH]; cbn [In]; [tauto|]. intros Hn H1 H2 E1 E2.
  unfold aliases in Hn. cbn [flat_map] in Hn. fold (aliases ts) in Hn.
  destruct H1 as [<-|H1], H2 as [<-|H2].
  - reflexivity.
  - exfalso. rewrite E1 in Hn. cbn [opt_list app] in Hn. inversion Hn as [|? ? Hni]; subst. apply Hni.
    apply in_aliases. eauto.
  - exfalso. rewrite E2 in Hn. cbn [opt_list app] in Hn. inversion Hn as [|? ? Hni]; subst. apply Hni.
    apply in_aliases. eauto.
  - apply IH; auto. destruct (alias_of u); cbn [opt_list app] in Hn; [inversion Hn; assumption|exact Hn].
Qed.
Lemma alias_map_none ts es ix a : describes ts es ix -> (map_get (table_alias_map ix) a = None <-> ~ In a (aliases ts)).
Proof.
  intros D. rewrite in_aliases. split.
  - intros H (t & Ht & Ha). apply (d_als2 _ _ _ D _ _ Ht Ha). exact H.
  - intros H. destruct (map_get (table_alias_map ix) a) as [p|] eqn:E; [|reflexivity].
    exfalso. apply H. apply (d_als1 _ _ _ D) in E as (t & H1 & H2 & _). eauto.
Qed.
Lemma item_denotes_fun ts it p q : NoDup (aliases ts) -> item_denotes ts it p -> item_denotes ts it q -> p = q.
Proof.
  intros Hn H1 H2. destruct H1 as [sc E|t E Ht Ha|t E Hna Ht Hp]; inversion H2 as [sc' E'|t' E' Ht' Ha'|t' E' Hna' Ht' Hp']; try congruence.
  - f_equal. eapply alias_unique; eassumption.
  - exfalso. apply Hna'. apply in_aliases. eauto.
  - exfalso. apply Hna. apply in_aliases. eauto.
Qed.
Lemma pair_mem_In p l : pair_mem p l = true <-> In p l.
Proof.
  unfold pair_mem. rewrite existsb_exists. split.
  - intros ([a b] & Hin & H). apply andb_true_iff in H as [H1 H2]. apply str_eqb_eq in H1, H2. destruct p. cbn in *. congruence.
  - intros H. exists p. split; [exact H|]. rewrite !str_eqb_refl. reflexivity.
Qed.
Lemma resolve_group_item_ok x g it ix : describes (tables x) (enums x) ix -> In g (table_groups x) -> In it (tg_items g) ->
  ok_or x (item_denotes (tables x) it) (resolve_group_item ix it (sb_input x)).
Proof.
  intros D Hg Hit. unfold resolve_group_item. cbv zeta. destruct (gi_schema it) as [sc|] eqn:Es.
  - apply den_qualified. exact Es.
  - unfold resolve_alias. destruct (map_get (table_alias_map ix) (id_str (gi_ident_alias it))) as [p|] eqn:Ea.
    + apply (d_als1 _ _ _ D) in Ea as (t & H1 & H2 & <-). apply den_alias; assumption.
    + pose proof Ea as Ena. apply (alias_map_none _ _ _ _ D) in Ena. apply ok_if; intros Ec.
      * apply contains_table_tab in Ec. destruct (tab ix (DEFAULT_SCHEMA, id_str (gi_ident_alias it))) as [cols|] eqn:Et; [|congruence].
        apply (d_tab1 _ _ _ D) in Et as (t & H1 & H2 & _). cbn [ok_or]. rewrite <- H2. apply den_table; assumption.
      * apply ok_throw. eapply v_group_table; [exact Hg|exact Hit|]. intros p Hp.
        destruct Hp as [sc E|t E Ht Ha|t E Hna Ht Hp]; [congruence| |].
        -- apply Ena. apply in_aliases. eauto.
        -- apply (d_tab2 _ _ _ D) in Ht. rewrite Hp in Ht. apply contains_table_tab in Ht.
           change public with DEFAULT_SCHEMA in Ht. congruence.
Qed.
Lemma index_table_groups_ok x ix0 : NoDup (aliases (tables x)) -> describes (tables x) (enums x) ix0 -> table_group_map ix0 = [] ->
  ok_or x (fun ix => groups_wf (tables x) (table_groups x) /\ describes (tables x) (enums x) ix)
    (index_table_groups (table_groups x) (sb_input x) ix0).
Proof.
  intros Hna D0 Hg0. unfold index_table_groups.
  eapply ok_impl; [apply (ok_fold x _ (fun gs ix => groups_wf (tables x) gs /\ describes (tables x) (enums x) ix /\
     (forall k, map_get (table_group_map ix) k <> None <-> In k (map group_name gs))))|].
  - split; [split; constructor|]. split; [exact D0|]. intros k. rewrite Hg0. cbn. tauto.
  - intros l1 g l2 ix E ((W1 & W2) & D & Hm). unfold index_table_group1. cbv zeta. fold (group_name g).
    assert (Hg : In g (table_groups x)) by (rewrite E; apply in_mid).
    eapply ok_bind with (R := fun _ => ~ In (group_name g) (map group_name l1)).
    { apply ok_if; intros Ec.
      - apply ok_throw. apply map_contains_get in Ec. apply Hm in Ec. apply in_map_iff in Ec as (b & Hb & Hin).
        apply v_group. exists l1, l2, b. auto.
      - cbn [ok_or]. intros Hin. apply Hm in Hin. apply map_contains_get in Hin. congruence. }
    intros [] Hnew; cbv beta in Hnew.
    eapply ok_bind; [apply (ok_fold x _ (fun its seen => exists ids, Forall2 (item_denotes (tables x)) its ids /\ NoDup ids /\
        (forall p, In p seen <-> In p ids)))|].
    + exists []. split; [constructor|]. split; [constructor|reflexivity].
    + intros i1 it i2 seen Ei (ids & H1 & H2 & H3).
      eapply ok_bind; [eapply resolve_group_item_ok; [exact D|exact Hg|rewrite Ei; apply in_mid]|].
      intros p Hp. apply ok_if; intros Em.
      * apply ok_throw. apply pair_mem_In in Em. apply H3 in Em.
        assert (Hex : exists it', In it' i1 /\ item_denotes (tables x) it' p).
        { clear - H1 Em. induction H1 as [|a b l l' Hab HF IH]; cbn [In] in Em; [tauto|].
          destruct Em as [<-|Em]; [exists a; cbn; auto|]. destruct (IH Em) as (it' & Hi & Hd). exists it'. cbn. auto. }
        destruct Hex as (it' & Hi & Hd). eapply v_group_item; [exact Hg|exact Ei|exact Hi|exact Hp|exact Hd].
      * cbn [ok_or]. exists (ids ++ [p]). split; [apply Forall2_app; [exact H1|constructor; [exact Hp|constructor]]|].
        split.
        -- apply NoDup_snoc. split; [exact H2|]. intros Hin. apply H3 in Hin. apply pair_mem_In in Hin. congruence.
        -- intros q. cbn [In]. rewrite in_app_iff, (H3 q). cbn [In]. tauto.
    + intros its (ids & H1 & H2 & _). cbn [ok_or]. split; [|split].
      * split; [rewrite map_app; apply NoDup_snoc; auto|]. apply Forall_app. split; [exact W2|].
        constructor; [|constructor]. exists ids. auto.
      * destruct D. constructor; assumption.
      * intros k. cbn [table_group_map]. rewrite map_get_insert, map_app, in_app_iff. cbn [map In].
        destruct (str_eqb_spec k (group_name g)) as [->|Hk].
        -- split; [auto|congruence].
        -- rewrite Hm. split; [auto|]. intros [H|[H|[]]]; [exact H|congruence].
  - intros ix (H1 & H2 & _). auto.
Qed.

(** ** Keys and indexes *)
Lemma is_nil_true {A} (l : list A) : is_nil l = true <-> l = [].
Proof. destruct l; cbn; split; congruence. Qed.
Lemma is_nil_false {A} (l : list A) : negb (is_nil l) = true <-> l <> [].
Proof. destruct l; cbn; split; congruence. Qed.
Lemma nullable_is_null_true n : nullable_is_null n = true <-> n = Some Null.
Proof. destruct n as [[]|]; cbn; split; congruence. Qed.
Lemma named_ids d : filter_map idx_col_name (idf_cols d) = named d.
Proof.
  unfold named, filter_map. induction (idf_cols d) as [|c l IH]; [reflexivity|]. cbn [flat_map]. rewrite IH.
  destruct c; reflexivity.
Qed.
Lemma has_key_in k l : has_key k l <-> In (s k) (map attr_key l).
Proof.
  unfold has_key. rewrite in_map_iff. split; intros (a & H1 & H2); exists a; auto.
Qed.
Lemma list_eqb_str a b : list_eqb str_eqb a b = true <-> a = b.
Proof.
  revert b. induction a as [|x a IH]; intros [|y b]; cbn [list_eqb]; try (split; congruence).
  rewrite andb_true_iff, str_eqb_eq, IH. split; [intros [-> ->]; reflexivity|intros [= -> ->]; auto].
Qed.
Lemma opt_idx_type_eqb_eq a b : opt_idx_type_eqb a b = true <-> a = b.
Proof. destruct a as [[]|], b as [[]|]; cbn; split; congruence. Qed.

Definition cols_inv (l : list table_col_t) (ti : table_indexer) : Prop :=
  (pk_list ti <> [] <-> exists c, In c l /\ pk_col c) /\
  (forall u, In u (unique_list ti) <-> exists c, In c l /\ unique_col c /\ u = [col_name c]) /\
  indexed_list ti = [].
Definition one_pk (l : list table_col_t) : Prop :=
  forall l1 c l2, l = l1 ++ c :: l2 -> pk_col c -> forall c', In c' l1 -> ~ pk_col c'.

Lemma snoc_split {A} (l1 l2 l : list A) a b : l ++ [b] = l1 ++ a :: l2 ->
  (l2 = [] /\ l = l1 /\ a = b) \/ exists l2', l2 = l2' ++ [b] /\ l = l1 ++ a :: l2'.
Proof.
  destruct l2 as [|z l2 _] using rev_ind; intros E.
  - apply app_inj_tail in E as [-> ->]. auto.
  - right. rewrite app_comm_cons, app_assoc in E. apply app_inj_tail in E as [-> ->]. eauto.
Qed.

Lemma check_cols_ok x t : In t (tables x) ->
  ok_or x (fun ti => cols_inv (tb_cols t) ti /\ Forall col_keys_wf (tb_cols t) /\ one_pk (tb_cols t))
    (try_fold (check_col_settings (sb_input x)) (tb_cols t) table_indexer0).
Proof.
  intros Ht. apply (ok_fold x _ (fun l ti => cols_inv l ti /\ Forall col_keys_wf l /\ one_pk l)).
  - split; [|split; [constructor|]].
    + split; [|split; [|reflexivity]].
      * cbn. split; [congruence|intros (c & [] & _)].
      * intros u. cbn. split; [tauto|intros (c & [] & _)].
    + intros l1 c l2 E. apply app_cons_not_nil in E. tauto.
  - intros l1 c l2 ti E ((P & U & X) & W & O).
    assert (Hc : column_of x t c) by (constructor; [exact Ht|rewrite E; apply in_mid]).
    unfold check_col_settings. destruct (tc_settings c) as [st|] eqn:Es.
    2:{ assert (Hnp : forall Q, ~ has_settings Q c) by (intros Q (st & H & _); congruence).
        cbn [ok_or]. split; [|split].
        - split; [|split; [|exact X]].
          + rewrite P. split; intros (c' & Hin & Hp).
            * exists c'. split; [apply in_or_app; auto|exact Hp].
            * apply in_app_or in Hin as [Hin|[<-|[]]]; [eauto|]. exfalso. eapply Hnp; exact Hp.
          + intros u. rewrite (U u). split; intros (c' & Hin & Hp & Hu).
            * exists c'. split; [apply in_or_app; auto|auto].
            * apply in_app_or in Hin as [Hin|[<-|[]]]; [eauto|]. exfalso. eapply Hnp; exact Hp.
        - apply Forall_app. split; [exact W|]. constructor; [|constructor]. unfold col_keys_wf. rewrite Es. exact Logic.I.
        - intros a d b Ed Hp. apply snoc_split in Ed as [(_ & -> & ->)|(b' & -> & ->)].
          + exfalso. eapply Hnp; exact Hp.
          + eapply O; [reflexivity|exact Hp]. }
    assert (Hpk : pk_col c <-> cs_is_pk st = true).
    { split; [intros (st' & H & H'); congruence|]. intros H. exists st. auto. }
    assert (Huq : unique_col c <-> cs_is_unique st = true).
    { split; [intros (st' & H & H'); congruence|]. intros H. exists st. auto. }
    eapply ok_bind with (R := fun ti' =>
       pk_list ti' = pk_list ti ++ (if cs_is_pk st then [col_name c] else []) /\
       unique_list ti' = unique_list ti /\ indexed_list ti' = indexed_list ti /\
       (cs_is_pk st = true -> pk_list ti = [] /\ cs_nullable st <> Some Null /\ ct_arrays (tc_type c) = [])).
    { apply ok_if; intros Ep; rewrite Ep.
      - apply ok_if; intros E1.
        { apply ok_throw. apply is_nil_false in E1. apply P in E1 as (c' & Hin & Hp').
          eapply v_pk_twice; [exact Ht|exact E|apply Hpk; exact Ep|exact Hin|exact Hp']. }
        apply ok_if; intros E2.
        { apply ok_throw. apply nullable_is_null_true in E2. eapply v_pk_null; [exact Hc|]. exists st. auto. }
        apply ok_if; intros E3.
        { apply ok_throw. apply is_nil_false in E3. eapply v_pk_array; [exact Hc|apply Hpk; exact Ep|exact E3]. }
        cbn [ok_or pk_list unique_list indexed_list]. repeat (split; [reflexivity|]). intros _.
        apply negb_false_iff in E1, E3. apply is_nil_true in E1, E3.
        split; [exact E1|]. split; [|exact E3]. intros H. apply nullable_is_null_true in H. congruence.
      - cbn [ok_or]. rewrite app_nil_r. repeat (split; [reflexivity|]). discriminate. }
    intros ti' (T1 & T2 & T3 & T4). cbv zeta.
    set (ti2 := if cs_is_unique st then _ else _). apply ok_if; intros Ec.
    + apply ok_throw. unfold conflict_nullable in Ec. apply andb_true_iff in Ec as [E1 E2]. apply mem_str_In in E1, E2.
      eapply v_null_conflict; [exact Hc|exact Es| |]; apply has_key_in; assumption.
    + cbn [ok_or].
      assert (Hpl : pk_list ti2 = pk_list ti ++ (if cs_is_pk st then [col_name c] else [])).
      { unfold ti2. destruct (cs_is_unique st); exact T1. }
      assert (Hul : unique_list ti2 = unique_list ti ++ (if cs_is_unique st then [[col_name c]] else [])).
      { unfold ti2. destruct (cs_is_unique st); cbn [unique_list]; rewrite T2; [reflexivity|rewrite app_nil_r; reflexivity]. }
      assert (Hil : indexed_list ti2 = []).
      { unfold ti2. destruct (cs_is_unique st); cbn [indexed_list]; congruence. }
      split; [|split].
      * split; [|split; [|exact Hil]].
        -- rewrite Hpl. split.
           ++ intros H. destruct (cs_is_pk st) eqn:Ep.
              ** exists c. split; [apply in_or_app; right; left; reflexivity|]. apply Hpk. reflexivity.
              ** rewrite app_nil_r in H. apply P in H as (c' & Hin & Hp). exists c'. split; [apply in_or_app; auto|exact Hp].
           ++ intros (c' & Hin & Hp) H. apply app_eq_nil in H as [H1 H2]. apply in_app_or in Hin as [Hin|[<-|[]]].
              ** apply P in H1; [exact H1|eauto].
              ** apply Hpk in Hp. rewrite Hp in H2. discriminate.
        -- intros u. rewrite Hul, in_app_iff, (U u). split.
           ++ intros [(c' & Hin & Hp)|H]; [exists c'; split; [apply in_or_app; auto|exact Hp]|].
              destruct (cs_is_unique st) eqn:Eu; [|destruct H]. destruct H as [<-|[]]. exists c.
              split; [apply in_or_app; right; left; reflexivity|]. split; [apply Huq; reflexivity|reflexivity].
           ++ intros (c' & Hin & Hp & ->). apply in_app_or in Hin as [Hin|[<-|[]]]; [eauto|].
              right. apply Huq in Hp. rewrite Hp. left. reflexivity.
      * apply Forall_app. split; [exact W|]. constructor; [|constructor]. unfold col_keys_wf. rewrite Es. cbn [opt_all].
        split; [intros H; apply T4; exact H|]. intros [H1 H2]. apply has_key_in in H1, H2.
        unfold conflict_nullable in Ec. apply mem_str_In in H1, H2. rewrite H1, H2 in Ec. discriminate.
      * intros a d b Ed Hp. apply snoc_split in Ed as [(_ & <- & ->)|(b' & -> & ->)].
        -- intros c' Hin Hp'. apply Hpk in Hp. apply T4 in Hp as [Hp _]. apply P in Hp; [exact Hp|eauto].
        -- eapply O; [reflexivity|exact Hp].
Qed.

Definition defs_inv (cols : list table_col_t) (l : list indexes_def) (ti : table_indexer) : Prop :=
  (pk_list ti <> [] <-> (exists c, In c cols /\ pk_col c) \/ exists d, In d l /\ def_pk d /\ named d <> []) /\
  (forall u, In u (unique_list ti) <-> (exists c, In c cols /\ unique_col c /\ u = [col_name c]) \/
                                        exists d, In d l /\ def_unique d /\ u = named d) /\
  (forall p, In p (indexed_list ti) <-> exists d, In d l /\ index_kind d (snd p) /\ named d = fst p).

Lemma check_index_cols_ok x t ib l1 d : index_of x t ib l1 d ->
  ok_or x (fun _ => incl (named d) (map col_name (tb_cols t))) (check_index_cols t (sb_input x) (idf_cols d)).
Proof.
  intros Hd. unfold check_index_cols, named.
  apply (ok_fold x _ (fun l _ => incl (flat_map (fun c => match c with ICString i => [id_str i] | ICExpr _ => [] end) l)
                                     (map col_name (tb_cols t)))).
  - intros k [].
  - intros a c b u E H. destruct c as [i|l].
    + apply ok_if; intros Ex.
      * cbn [ok_or]. apply existsb_exists in Ex as (col & Hin & Ex). apply str_eqb_eq in Ex.
        rewrite flat_map_app. apply incl_app; [exact H|]. intros k [<-|[]]. rewrite <- Ex.
        change (id_str (tc_name col)) with (col_name col). apply in_map. exact Hin.
      * apply ok_throw. eapply v_index_col; [exact Hd|rewrite E; apply in_mid|]. intros Hin.
        apply in_map_iff in Hin as (col & Ec & Hin).
        assert (existsb (fun col => str_eqb (id_str (tc_name col)) (id_str i)) (tb_cols t) = true); [|congruence].
        apply existsb_exists. exists col. split; [exact Hin|]. apply str_eqb_eq. exact Ec.
    + cbn [ok_or]. rewrite flat_map_app. cbn [flat_map]. rewrite app_nil_r. exact H.
Qed.

Lemma check_index_def_ok x t ib l1 d ti : index_of x t ib l1 d -> defs_inv (tb_cols t) l1 ti ->
  ok_or x (fun ti' => defs_inv (tb_cols t) (l1 ++ [d]) ti' /\ index_def_wf (tb_cols t) l1 d)
    (check_index_def t ib (sb_input x) ti d).
Proof.
  intros Hd (P & U & X). unfold check_index_def.
  eapply ok_bind with (R := fun _ => idf_cols d <> []).
  { apply ok_if; intros E.
    - apply ok_throw. apply is_nil_true in E. eapply v_index_empty; eassumption.
    - cbn [ok_or]. intros H. apply is_nil_true in H. congruence. }
  intros [] Hne; cbv beta in Hne. cbv zeta. rewrite named_ids.
  eapply ok_bind; [eapply check_index_cols_ok; exact Hd|]. intros [] Hincl; cbv beta in Hincl.
  assert (Hkeep : forall ti', 
     (pk_list ti' = pk_list ti ++ (match idf_settings d with Some st => if is_is_pk st then named d else [] | None => [] end)) ->
     (unique_list ti' = unique_list ti ++ (match idf_settings d with Some st => if is_is_unique st then [named d] else [] | None => [] end)) ->
     (indexed_list ti' = indexed_list ti ++ (match idf_settings d with
         Some st => match is_type st with Some ty => [(named d, Some ty)] | None => [] end | None => [(named d, None)] end)) ->
     defs_inv (tb_cols t) (l1 ++ [d]) ti').
  { intros ti' H1 H2 H3. split; [|split].
    - rewrite H1. split.
      + intros H. destruct (pk_list ti) as [|z zs] eqn:Ez.
        * right. exists d. split; [apply in_or_app; right; left; reflexivity|].
          destruct (idf_settings d) as [st|] eqn:Es; [|cbn in H; congruence].
          destruct (is_is_pk st) eqn:Ep; [|cbn in H; congruence]. split; [exists st; auto|]. exact H.
        * destruct P as [P _]. destruct P as [P|(d' & Hin & Hp)]; [congruence|auto|].
          right. exists d'. split; [apply in_or_app; auto|exact Hp].
      + intros H E. apply app_eq_nil in E as [E1 E2]. destruct H as [H|(d' & Hin & Hp & Hn)].
        * apply P in E1; auto.
        * apply in_app_or in Hin as [Hin|[<-|[]]].
          -- apply P in E1; eauto.
          -- destruct Hp as (st & Hs & Hp). rewrite Hs, Hp in E2. congruence.
    - intros u. rewrite H2, in_app_iff, (U u). split.
      + intros [[H|(d' & Hin & H)]|H]; [auto| |].
        * right. exists d'. split; [apply in_or_app; auto|exact H].
        * destruct (idf_settings d) as [st|] eqn:Es; [|destruct H]. destruct (is_is_unique st) eqn:Eu; [|destruct H].
          destruct H as [<-|[]]. right. exists d. split; [apply in_or_app; right; left; reflexivity|].
          split; [exists st; auto|reflexivity].
      + intros [H|(d' & Hin & Hu & ->)]; [auto|]. apply in_app_or in Hin as [Hin|[<-|[]]]; [left; right; eauto|].
        right. destruct Hu as (st & Hs & Hu). rewrite Hs, Hu. left. reflexivity.
    - intros p. rewrite H3, in_app_iff, (X p). split.
      + intros [(d' & Hin & H)|H].
        * exists d'. split; [apply in_or_app; auto|exact H].
        * exists d. split; [apply in_or_app; right; left; reflexivity|]. unfold index_kind.
          destruct (idf_settings d) as [st|]; [destruct (is_type st) as [ty|]|]; cbn [In] in H; try tauto; destruct H as [<-|[]]; cbn [fst snd]; eauto.
      + intros (d' & Hin & Hk & Hn). apply in_app_or in Hin as [Hin|[<-|[]]]; [left; eauto|]. right.
        unfold index_kind in Hk. destruct p as [ids k]. cbn [fst snd] in *. subst ids.
        destruct (idf_settings d) as [st|]; [destruct Hk as (ty & -> & ->)|subst k]; left; reflexivity. }
  assert (Hag : forall k, index_kind d k -> index_again l1 d <->
     exists p, In p (indexed_list ti) /\ fst p = named d /\ (k = None \/ k = snd p)).
  { intros k Hk. split.
    - intros (d' & k1 & k' & Hin & Hk1 & Hk' & En & H).
      assert (k1 = k). { unfold index_kind in *. destruct (idf_settings d); [|congruence]. destruct Hk as (? & ? & ?), Hk1 as (? & ? & ?). congruence. }
      subst k1. exists (named d, k'). split; [|auto]. apply X. exists d'. auto.
    - intros ([ids k'] & Hin & E & H). cbn [fst snd] in *. subst ids. apply X in Hin as (d' & Hin & Hk' & En).
      exists d', k, k'. auto 8. }
  destruct (idf_settings d) as [st|] eqn:Es.
  - assert (Hpk : def_pk d <-> is_is_pk st = true).
    { split; [intros (st' & H & H'); congruence|]. intros H. exists st. auto. }
    assert (Huq : def_unique d <-> is_is_unique st = true).
    { split; [intros (st' & H & H'); congruence|]. intros H. exists st. auto. }
    assert (Hty : def_typed d <-> is_some (is_type st) = true).
    { split; [intros (st' & H & (ty & H'))|].
      - assert (st' = st) by congruence. subst. rewrite H'. reflexivity.
      - intros H. exists st. split; [exact Es|]. destruct (is_type st) as [ty|]; [eauto|discriminate]. }
    eapply ok_bind; [apply dup_attrs; destruct Hd; eapply so_index; [eassumption|eassumption| |exact Es]; rewrite H1; apply in_mid|].
    intros [] Hdk; cbv beta in Hdk.
    eapply ok_bind with (R := fun _ => ~ (def_pk d /\ def_unique d) /\ ~ (def_pk d /\ def_typed d) /\ ~ (def_unique d /\ def_typed d)).
    { apply ok_if; intros E.
      - apply ok_throw. eapply v_index_kind; [exact Hd|exact Es|]. rewrite Hpk, Huq, Hty.
        destruct (is_is_pk st), (is_is_unique st), (is_some (is_type st)); try discriminate; auto.
      - cbn [ok_or]. rewrite Hpk, Huq, Hty. destruct (is_is_pk st), (is_is_unique st), (is_some (is_type st)); try discriminate;
          repeat split; intros [? ?]; discriminate. }
    intros [] (K1 & K2 & K3); cbv beta in K1, K2, K3.
    assert (Hwf : ~ pk_again (tb_cols t) l1 d -> ~ unique_again (tb_cols t) l1 d -> ~ index_again l1 d ->
              index_def_wf (tb_cols t) l1 d).
    { intros. unfold index_def_wf. rewrite Es. cbn [opt_all]. auto 12. }
    assert (Hnk : is_type st = None -> ~ index_again l1 d).
    { intros H (d' & k & k' & _ & Hk & _). unfold index_kind in Hk. rewrite Es in Hk. destruct Hk as (ty & Hk & _). congruence. }
    eapply ok_bind with (R := fun ti' => ~ pk_again (tb_cols t) l1 d /\ ~ unique_again (tb_cols t) l1 d /\
       pk_list ti' = pk_list ti ++ (if is_is_pk st then named d else []) /\
       unique_list ti' = unique_list ti ++ (if is_is_unique st then [named d] else []) /\
       indexed_list ti' = indexed_list ti).
    { destruct (is_is_pk st) eqn:Ep.
      - assert (Eu : is_is_unique st = false).
        { destruct (is_is_unique st); [|reflexivity]. exfalso. apply K1. rewrite Hpk, Huq. auto. }
        apply ok_if; intros E.
        + apply ok_throw. apply is_nil_false in E. apply P in E. eapply v_index_pk; [exact Hd|]. split; [apply Hpk; reflexivity|exact E].
        + apply negb_false_iff, is_nil_true in E. rewrite Eu. cbn [ok_or pk_list unique_list indexed_list].
          split; [|split; [|rewrite app_nil_r; auto]].
          * intros [_ H]. apply P in E; assumption.
          * intros [H _]. apply Huq in H. congruence.
      - destruct (is_is_unique st) eqn:Eu.
        + apply ok_if; intros E.
          * apply ok_throw. apply existsb_exists in E as (u & Hin & E). rewrite forallb_forall in E.
            assert (Hi : incl (named d) u) by (intros k Hk; apply mem_str_In; apply E; exact Hk).
            eapply v_index_unique; [exact Hd|]. split; [apply Huq; reflexivity|].
            apply U in Hin as [(c & Hc & Hcu & ->)|(d' & Hd' & Hdu & ->)]; eauto.
          * cbn [ok_or pk_list unique_list indexed_list]. rewrite app_nil_r.
            split; [|split; [|auto]].
            -- intros [H _]. apply Hpk in H. congruence.
            -- intros [_ H].
               assert (existsb (fun u => forallb (fun id => mem_str id u) (named d)) (unique_list ti) = true); [|congruence].
               apply existsb_exists. destruct H as [(c & Hc & Hcu & Hi)|(d' & Hd' & Hdu & Hi)].
               ++ exists [col_name c]. split; [apply U; eauto|]. apply forallb_forall. intros k Hk. apply mem_str_In. auto.
               ++ exists (named d'). split; [apply U; eauto|]. apply forallb_forall. intros k Hk. apply mem_str_In. auto.
        + cbn [ok_or]. rewrite !app_nil_r.
          split; [|split; [|auto]].
          * intros [H _]. apply Hpk in H. congruence.
          * intros [H _]. apply Huq in H. congruence. }
    intros ti1 (A1 & A2 & B1 & B2 & B3).
    destruct (is_type st) as [ty|] eqn:Et; cbn [is_some].
    + assert (Hik : index_kind d (Some ty)) by (unfold index_kind; rewrite Es; eauto).
      apply ok_if; intros E.
      * apply ok_throw. apply existsb_exists in E as ([ids k] & Hin & E). cbn [fst snd] in E.
        apply andb_true_iff in E as [E1 E2]. apply list_eqb_str in E1. apply opt_idx_type_eqb_eq in E2. subst.
        eapply v_index_again; [exact Hd|]. apply (Hag (Some ty) Hik). rewrite B3 in Hin. exists (named d, Some ty). auto.
      * cbn [ok_or]. split; [apply Hkeep; cbn [pk_list unique_list indexed_list]; [exact B1|exact B2|rewrite B3; reflexivity]|].
        apply Hwf; [exact A1|exact A2|]. intros H. apply (Hag (Some ty) Hik) in H as ([ids k] & Hin & H1 & H2).
        cbn [fst snd] in *. destruct H2 as [H2|H2]; [discriminate|].
        assert (existsb (fun p => list_eqb str_eqb (fst p) (named d) && opt_idx_type_eqb (snd p) (Some ty)) (indexed_list ti1) = true); [|congruence].
        apply existsb_exists. exists (ids, k). rewrite B3. split; [exact Hin|]. cbn [fst snd]. apply andb_true_iff. split.
        -- apply list_eqb_str. exact H1.
        -- apply opt_idx_type_eqb_eq. auto.
    + cbn [ok_or]. split; [apply Hkeep; [exact B1|exact B2|rewrite app_nil_r, B3; reflexivity]|].
      apply Hwf; auto.
  - assert (Hns : forall Q, ~ def_has Q d) by (intros Q (st & H & _); congruence).
    assert (Hik : index_kind d None) by (unfold index_kind; rewrite Es; reflexivity).
    apply ok_if; intros E.
    + apply ok_throw. apply existsb_exists in E as ([ids k] & Hin & E). cbn [fst snd] in E.
      apply list_eqb_str in E. subst. eapply v_index_again; [exact Hd|]. apply (Hag None Hik). exists (named d, k). auto.
    + cbn [ok_or]. split; [apply Hkeep; cbn [pk_list unique_list indexed_list]; rewrite ?app_nil_r; reflexivity|].
      unfold index_def_wf. rewrite Es. cbn [opt_all]. split; [exact Hne|]. split; [exact Hincl|]. split; [exact Logic.I|].
      split; [intros [H _]; exact (Hns _ H)|]. split; [intros [H _]; exact (Hns _ H)|]. split; [intros [H _]; exact (Hns _ H)|].
      split; [intros [H _]; exact (Hns _ H)|]. split; [intros [H _]; exact (Hns _ H)|].
      intros H. apply (Hag None Hik) in H as ([ids k] & Hin & H1 & _). cbn [fst] in H1.
      assert (existsb (fun p => list_eqb str_eqb (fst p) (named d)) (indexed_list ti) = true); [|congruence].
      apply existsb_exists. exists (ids, k). split; [exact Hin|]. apply list_eqb_str. exact H1.
Qed.

Lemma inline_refs_model t : flat_map (col_inline_refs t) (tb_cols t) = inline_refs t.
Proof.
  unfold inline_refs. induction (tb_cols t) as [|c l IH]; [reflexivity|]. cbn [flat_map]. rewrite IH. f_equal.
  unfold col_inline_refs, from_inline. destruct (tc_settings c); reflexivity.
Qed.
Lemma check_table_ok x t : In t (tables x) ->
  ok_or x (fun r => r = inline_refs t /\ table_keys_wf t) (check_table (sb_input x) t).
Proof.
  intros Ht. unfold check_table. eapply ok_bind; [apply check_cols_ok; exact Ht|]. intros ti ((P & U & X) & W & O).
  eapply ok_bind with (R := fun _ => opt_all (fun ib => forall l1 d l2, ib_defs ib = l1 ++ d :: l2 -> index_def_wf (tb_cols t) l1 d) (tb_indexes t)).
  - destruct (tb_indexes t) as [ib|] eqn:Ei; cbn [opt_all]; [|exact Logic.I].
    eapply ok_omap; [apply (ok_fold x _ (fun l ti => defs_inv (tb_cols t) l ti /\
       forall l1 d l2, l = l1 ++ d :: l2 -> index_def_wf (tb_cols t) l1 d))|].
    + split.
      * split; [|split].
        -- rewrite P. split; [auto|]. intros [H|(d & [] & _)]. exact H.
        -- intros u. rewrite (U u). split; [auto|]. intros [H|(d & [] & _)]. exact H.
        -- intros p. rewrite X. split; [intros []|intros (d & [] & _)].
      * intros l1 d l2 E. apply app_cons_not_nil in E. tauto.
    + intros l1 d l2 ti' E (I1 & I2). eapply ok_impl; [apply check_index_def_ok; [econstructor; eassumption|exact I1]|].
      intros ti2 (J1 & J2). split; [exact J1|]. intros a e b Es. apply snoc_split in Es as [(_ & <- & ->)|(b' & -> & ->)].
      * exact J2.
      * eapply I2. reflexivity.
    + intros ti' (_ & H). exact H.
  - intros [] Hdefs; cbv beta in Hdefs. cbn [ok_or]. split; [apply inline_refs_model|]. split; [exact W|]. split; [exact O|exact Hdefs].
Qed.

(** ** Types and defaults *)
Lemma from_str_builtin raw tn : col_type_name_from_str raw = Some tn <-> builtin raw tn.
Proof.
  unfold col_type_name_from_str. change col_type_table with type_words. split.
  - destruct (find _ type_words) as [[w tn']|] eqn:E; [|discriminate]. intros [= ->].
    apply find_some in E as [H1 H2]. apply str_eqb_eq in H2. exists w. auto.
  - intros (w & Hin & ->).
    assert (H : Forall (fun p => match find (fun q => str_eqb (s (fst p)) (s (fst q))) type_words with
       | Some (_, t) => Some t | None => None end = Some (snd p)) type_words) by (repeat constructor).
    rewrite Forall_forall in H. exact (H _ Hin).
Qed.
Lemma builtin_fun raw tn tn' : builtin raw tn -> builtin raw tn' -> tn = tn'.
Proof. rewrite <- !from_str_builtin. congruence. Qed.
Lemma from_str_none raw : col_type_name_from_str raw = None <-> not_builtin raw.
Proof.
  split.
  - intros H tn Hb. apply from_str_builtin in Hb. congruence.
  - intros H. destruct (col_type_name_from_str raw) eqn:E; [|reflexivity]. apply from_str_builtin in E. exfalso. eapply H. exact E.
Qed.

Lemma split_on_none d x : ~ In d x -> split_on d x = [x].
Proof.
  induction x as [|c x IH]; intros H; [reflexivity|]. cbn [split_on]. destruct (N.eqb_spec c d) as [->|Hc].
  - exfalso. apply H. left. reflexivity.
  - rewrite IH; [reflexivity|]. intros Hx. apply H. right. exact Hx.
Qed.
Lemma split_on_first d a y : ~ In d a -> split_on d (a ++ d :: y) = a :: split_on d y.
Proof.
  induction a as [|c a IH]; intros H; cbn [app split_on].
  - rewrite N.eqb_refl. reflexivity.
  - destruct (N.eqb_spec c d) as [->|Hc]; [exfalso; apply H; left; reflexivity|]. rewrite IH; [reflexivity|].
    intros Hx. apply H. right. exact Hx.
Qed.
Lemma split_on_nonnil d x : split_on d x <> [].
Proof. destruct x as [|c x]; cbn [split_on]; [congruence|]. destruct (c =? d); [congruence|]. destruct (split_on d x); congruence. Qed.
Lemma first_occ (d : char) x : ~ In d x \/ exists a y, x = a ++ d :: y /\ ~ In d a.
Proof.
  induction x as [|c x IH]; [left; intros []|]. destruct (N.eq_dec c d) as [->|Hc].
  - right. exists [], x. auto.
  - destruct IH as [IH|(a & y & -> & Ha)].
    + left. intros [H|H]; auto.
    + right. exists (c :: a), y. split; [reflexivity|]. intros [H|H]; auto.
Qed.
Lemma split_on_spec (raw : str) :
  (exists so n, enum_type raw so n /\ split_on 46 raw = match so with None => [n] | Some a => [a; n] end) \/
  ((forall so n, ~ enum_type raw so n) /\ forall a b, split_on 46 raw <> [a] /\ split_on 46 raw <> [a; b]).
Proof.
  destruct (first_occ 46 raw) as [H|(a & y & -> & Ha)].
  - left. exists None, raw. split; [constructor; exact H|apply split_on_none; exact H].
  - rewrite (split_on_first _ _ _ Ha). destruct (first_occ 46 y) as [H|(b & z & -> & Hb)].
    + left. exists (Some a), y. split; [econstructor; [reflexivity|exact Ha|exact H]|]. rewrite (split_on_none _ _ H). reflexivity.
    + right. rewrite (split_on_first _ _ _ Hb). split.
      * intros so n He. inversion He as [Hn E1 E2|a' b' E Ha' Hb' E1 E2]; subst.
        -- apply Hn. apply in_or_app. right. left. reflexivity.
        -- apply (f_equal (split_on 46)) in E. cbn [s app] in E. change (N_of_ascii ".") with 46 in E.
           rewrite (split_on_first _ _ _ Ha), (split_on_first _ _ _ Ha'), (split_on_first _ _ _ Hb), (split_on_none _ _ Hb') in E.
           injection E as _ _ E. apply split_on_nonnil in E. exact E.
      * intros p q. split; [discriminate|]. intros E. injection E as _ _ E. apply split_on_nonnil in E. exact E.
Qed.
Lemma enum_type_split raw so n : enum_type raw so n -> split_on 46 raw = match so with None => [n] | Some a => [a; n] end.
Proof.
  intros [H|a b -> Ha Hb].
  - apply split_on_none. exact H.
  - cbn [s app]. change (N_of_ascii ".") with 46. rewrite (split_on_first _ _ _ Ha), (split_on_none _ _ Hb). reflexivity.
Qed.
Lemma enum_type_fun raw so n so' n' : enum_type raw so n -> enum_type raw so' n' -> so = so' /\ n = n'.
Proof.
  intros H1 H2. apply enum_type_split in H1, H2. rewrite H1 in H2. destruct so, so'; try discriminate; injection H2; intros; subst; auto.
Qed.
Lemma type_means_fun raw tn tn' : type_means raw tn -> type_means raw tn' -> tn = tn'.
Proof.
  intros [t Hb|so n Hn He] H2; inversion H2 as [t' Hb'|so' n' Hn' He']; subst.
  - eapply builtin_fun; eassumption.
  - exfalso. eapply Hn'. exact Hb.
  - exfalso. eapply Hn. exact Hb'.
  - f_equal. eapply enum_type_fun; eassumption.
Qed.
Lemma col_means_fun c tn tn' : col_means c tn -> col_means c tn' -> tn = tn'.
Proof. intros (r & H1 & H2) (r' & H3 & H4). eapply type_means_fun; [exact H2|]. replace r with r' by congruence. exact H4. Qed.

Lemma find_split {A} (f : A -> bool) l :
  match find f l with
  | Some a => exists l1 l2, l = l1 ++ a :: l2 /\ f a = true /\ Forall (fun b => f b = false) l1
  | None => Forall (fun b => f b = false) l
  end.
Proof.
  induction l as [|a l IH]; cbn [find]; [constructor|]. destruct (f a) eqn:E.
  - exists [], l. auto.
  - destruct (find f l) as [b|].
    + destruct IH as (l1 & l2 & -> & H1 & H2). exists (a :: l1), l2. auto.
    + constructor; assumption.
Qed.
Lemma first_split_unique {A} (P : A -> Prop) l1 a l2 m1 b m2 : l1 ++ a :: l2 = m1 ++ b :: m2 ->
  Forall (fun x => ~ P x) l1 -> Forall (fun x => ~ P x) m1 -> P a -> P b -> l1 = m1 /\ a = b.
Proof.
  revert m1. induction l1 as [|x l1 IH]; intros [|y m1] E H1 H2 Ha Hb; cbn [app] in E; injection E as E1 E2; subst.
  - auto.
  - inversion H2; subst. contradiction.
  - inversion H1; subst. contradiction.
  - inversion H1; inversion H2; subst. destruct (IH m1 E2); auto. subst. auto.
Qed.
Lemma default_span_at st sp : default_span (cs_attributes st) = Some sp <-> default_at st sp.
Proof.
  unfold default_span. pose proof (find_split (fun a => str_eqb (attr_key a) (s "default")) (cs_attributes st)) as H.
  split.
  - destruct (find _ _) as [a|]; [|discriminate]. destruct H as (l1 & l2 & E & Ha & Hl).
    destruct (at_value a) as [l|] eqn:Ev; [|discriminate]. cbn [option_map]. intros [= <-].
    exists l1, a, l2, l. split; [exact E|]. split; [|split; [apply str_eqb_eq; exact Ha|auto]].
    eapply Forall_impl; [|exact Hl]. intros b Hb. apply str_eqb_neq. exact Hb.
  - intros (m1 & b & m2 & l & E & Hm & Hb & Ev & <-). destruct (find _ _) as [a|].
    + destruct H as (l1 & l2 & E' & Ha & Hl). rewrite E in E'.
      destruct (first_split_unique (fun x => key_of x = s "default") _ _ _ _ _ _ E') as [-> ->]; auto.
      * eapply Forall_impl; [|exact Hl]. intros c Hc. apply str_eqb_neq in Hc. exact Hc.
      * apply str_eqb_eq. exact Ha.
      * rewrite Ev. reflexivity.
    + rewrite E in H. apply Forall_app in H as [_ H]. inversion H as [|? ? H1 H2]; subst. apply str_eqb_neq in H1.
      unfold attr_key, key_of in *. contradiction.
Qed.
Lemma default_span_none st : default_span (cs_attributes st) = None -> forall sp, ~ default_at st sp.
Proof. intros H sp Hd. apply default_span_at in Hd. congruence. Qed.

Lemma is_integer_true v : is_integer v = true <-> int_value v.
Proof. unfold int_value. destruct v; cbn; split; try discriminate; try (intros (z & Hz); discriminate); eauto. Qed.

Lemma check_type_args_ok x t c raw tn : column_of x t c -> ct_type_name (tc_type c) = CT_Raw raw -> builtin raw tn ->
  ok_or x (fun _ => args_fit tn (ct_args (tc_type c))) (check_type_args tn raw (tc_type c) (sb_input x)).
Proof.
  intros Hc Hr Hb. unfold check_type_args. cbv zeta. apply ok_if; intros En.
  { apply is_nil_true in En. left. exact En. }
  assert (Hne : ct_args (tc_type c) <> []) by (intros H; apply is_nil_true in H; congruence).
  eapply ok_bind with (R := fun _ => List.length (ct_args (tc_type c)) = arity tn).
  - assert (H : forall n, arity tn = n ->
       (List.length (ct_args (tc_type c)) <> n -> violates x (InvalidDataTypeArguments raw (N.of_nat n)) (ct_span (tc_type c)))).
    { intros n <- H. eapply v_args_number; eassumption. }
    assert (H0 : List.length (ct_args (tc_type c)) <> 0%nat) by (destruct (ct_args (tc_type c)); [congruence|discriminate]).
    destruct tn; try (apply ok_throw; apply (H 0%nat); [reflexivity|exact H0]);
      (apply ok_if; intros E;
       [apply negb_true_iff, Nat.eqb_neq in E; apply ok_throw; first [apply (H 1%nat); [reflexivity|exact E]|apply (H 2%nat); [reflexivity|exact E]]
       |apply negb_false_iff, Nat.eqb_eq in E; exact E]).
  - intros [] Hl; cbv beta in Hl. apply ok_if; intros E.
    + apply negb_true_iff in E.
      assert (Hex : exists v, In v (ct_args (tc_type c)) /\ ~ int_value v).
      { clear - E. induction (ct_args (tc_type c)) as [|v l IH]; cbn [forallb] in E; [discriminate|].
        apply andb_false_iff in E as [E|E].
        - exists v. split; [left; reflexivity|]. intros H. apply is_integer_true in H. congruence.
        - destruct (IH E) as (w & H1 & H2). exists w. split; [right; exact H1|exact H2]. }
      destruct Hex as (v & Hv & Hn). apply ok_throw. eapply v_args_value; eassumption.
    + apply negb_false_iff in E. cbn [ok_or]. right. split; [exact Hl|]. apply Forall_forall. intros v Hv.
      rewrite forallb_forall in E. apply is_integer_true. apply E. exact Hv.
Qed.

(** What the type stage establishes of one column. *)
Definition type_res (x : schema_t) (c : table_col_t) (tn : col_type_name) : Prop :=
  exists raw, ct_type_name (tc_type c) = CT_Raw raw /\ type_means raw tn /\
    (builtin raw tn -> args_fit tn (ct_args (tc_type c))) /\
    (forall st v, has_default c st v -> not_builtin raw -> forall so n, enum_type raw so n ->
       enum_value (enums x) so n (value_to_string v)).

Lemma col_keys_distinct x t c st : table_names_wf (tables x) -> column_of x t c -> tc_settings c = Some st ->
  distinct_keys (cs_attributes st).
Proof.
  intros (_ & _ & H) [t' c' Ht Hc] E. rewrite Forall_forall in H. apply H in Ht as (_ & Ht & _).
  rewrite Forall_forall in Ht. apply Ht in Hc. rewrite E in Hc. exact Hc.
Qed.
Lemma check_enum_type_ok x t c raw ix : NoDup (map enum_name (enums x)) -> table_names_wf (tables x) -> describes (tables x) (enums x) ix ->
  column_of x t c -> ct_type_name (tc_type c) = CT_Raw raw -> not_builtin raw ->
  ok_or x (type_res x c) (check_enum_type ix c raw (sb_input x)).
Proof.
  intros Hne Ht' D Hc Hr Hn. unfold check_enum_type.
  destruct (split_on_spec raw) as [(so & n & He & Es)|(He & Es)].
  2:{ assert (Hv : violates x InvalidEnum (ct_span (tc_type c))) by (eapply v_enum_name; eassumption).
      cbv zeta. destruct (split_on 46 raw) as [|a [|b [|]]].
      - eapply ok_bind with (R := fun _ => False); [apply ok_throw; exact Hv|intros ? []].
      - exfalso. apply (proj1 (Es a a)). reflexivity.
      - exfalso. apply (proj2 (Es a b)). reflexivity.
      - eapply ok_bind with (R := fun _ => False); [apply ok_throw; exact Hv|intros ? []]. }
  cbv zeta. rewrite Es. clear Es.
  assert (Eq : match (match so with None => [n] | Some a => [a; n] end) with
     | [_] => Ok (None, raw) | [a; b] => Ok (Some a, b) | _ => throw_err InvalidEnum (ct_span (tc_type c)) (sb_input x) end = Ok (so, n)).
  { destruct so; [reflexivity|]. inversion He; subst. reflexivity. }
  rewrite Eq. cbn [bind].
  assert (Hres : (forall st v, has_default c st v -> enum_value (enums x) so n (value_to_string v)) ->
     type_res x c (CT_Enum n)).
  { intros H. exists raw. split; [exact Hr|]. split; [econstructor; eassumption|]. split; [intros Hb; exfalso; eapply Hn; exact Hb|].
    intros st v Hd _ so' n' He'. destruct (enum_type_fun _ _ _ _ _ He He') as [<- <-]. eapply H. exact Hd. }
  destruct (tc_settings c) as [st|] eqn:Est; [|apply Hres; intros st v [H _]; congruence].
  destruct (cs_default st) as [dv|] eqn:Ed; [|apply Hres; intros st' v [H H']; congruence].
  assert (Hd : has_default c st dv) by (split; assumption).
  destruct (default_span (cs_attributes st)) as [dsp|] eqn:Esp.
  2:{ apply ok_panic. eapply p_no_default; [exact Hc|exact Hd|eapply col_keys_distinct; [exact Ht'|exact Hc|apply Hd]|]. apply default_span_none. exact Esp. }
  apply default_span_at in Esp. unfold lookup_enum_values.
  set (a := match so with Some a => a | None => public end).
  change (match so with Some x0 => x0 | None => DEFAULT_SCHEMA end) with a.
  destruct (map_get (schema_map ix) a) as [b|] eqn:Em.
  - destruct (map_get (enum_map b) n) as [set|] eqn:Ee.
    + assert (Hen : enm ix (a, n) = Some set) by (unfold enm; cbn [fst snd]; rewrite Em; exact Ee).
      apply (d_enm1 _ _ _ D) in Hen as (e & Hin & Hname & Hset). cbn [map existsb]. rewrite orb_false_r.
      apply ok_if; intros Ev.
      * apply negb_true_iff, mem_str_false in Ev. apply ok_throw. eapply v_enum_value_missing; try eassumption; [apply in_map_iff; exists e; split; [exact Hname|exact Hin]|].
        intros (e' & Hin' & Hname' & Hv). apply Ev. apply Hset.
        replace e with e'; [exact Hv|]. eapply NoDup_map_inj; [exact Hne|exact Hin'|exact Hin|]. fold a in Hname'. congruence.
      * apply negb_false_iff, mem_str_In in Ev. apply Hset in Ev. cbn [ok_or]. apply Hres.
        intros st' v [H1 H2]. assert (st' = st) by congruence. subst st'. assert (v = dv) by congruence. subst v.
        exists e. split; [exact Hin|]. split; [exact Hname|exact Ev].
    + apply ok_throw. eapply v_enum_missing; try eassumption; fold a; [intros Hmiss; apply (d_sch _ _ _ D) in Hmiss; congruence|]. intros Hin. apply in_map_iff in Hin as (e & He1 & He2).
      apply (d_enm2 _ _ _ D) in He2. rewrite He1 in He2. unfold enm in He2. cbn [fst snd] in He2. rewrite Em in He2. congruence.
  - apply ok_throw. eapply v_enum_schema; try eassumption. fold a. apply (d_sch _ _ _ D). exact Em.
Qed.

Lemma resolve_col_type_ok x t c ix : NoDup (map enum_name (enums x)) -> table_names_wf (tables x) -> describes (tables x) (enums x) ix ->
  column_of x t c -> ok_or x (type_res x c) (resolve_col_type ix c (sb_input x)).
Proof.
  intros Hne Ht' D Hc. unfold resolve_col_type.
  assert (Hraw : (exists raw, ct_type_name (tc_type c) = CT_Raw raw) \/ forall raw, ct_type_name (tc_type c) <> CT_Raw raw).
  { destruct (ct_type_name (tc_type c)); eauto; right; discriminate. }
  destruct Hraw as [(raw & Er)|Er].
  2:{ pose proof (p_not_raw x t c Hc Er) as Hp. destruct (ct_type_name (tc_type c)); try (apply ok_panic; exact Hp).
      exfalso. eapply Er. reflexivity. }
  rewrite Er.
  destruct (col_type_name_from_str raw) as [tn|] eqn:Ef.
  - apply from_str_builtin in Ef. eapply ok_bind; [eapply check_type_args_ok; eassumption|].
    intros [] Ha; cbv beta in Ha. cbn [ok_or]. exists raw. split; [exact Er|]. split; [constructor; exact Ef|].
    split; [auto|]. intros st v _ Hn. exfalso. eapply Hn. exact Ef.
  - apply from_str_none in Ef. eapply check_enum_type_ok; eassumption.
Qed.

Lemma string_fits_other tn args v : ~ fixed_len tn -> ~ max_len tn -> string_fits tn args v.
Proof. intros H1 H2. split; intros H; contradiction. Qed.

Lemma fixed_builtin c tn raw : type_means raw tn -> fixed_len tn \/ max_len tn -> 
  (builtin raw tn -> args_fit tn (ct_args (tc_type c))) ->
  ct_args (tc_type c) = [] \/ exists n, ct_args (tc_type c) = [VInteger n].
Proof.
  intros Hm Hf Ha. destruct Hm as [tn Hb|so n Hn He].
  - apply Ha in Hb as [H|[H1 H2]]; [auto|]. right.
    assert (arity tn = 1%nat) by (destruct Hf as [[->| ->]|[->| ->]]; reflexivity).
    destruct (ct_args (tc_type c)) as [|v [|w l]]; cbn [List.length] in H1; try lia.
    inversion H2 as [|? ? (z & ->) _]; subst. eauto.
  - exfalso. destruct Hf as [[H|H]|[H|H]]; discriminate.
Qed.

Lemma check_default_ok x t c tn st dv sp : column_of x t c -> type_res x c tn -> has_default c st dv -> default_at st sp ->
  ok_or x (fun _ => default_fits tn (ct_args (tc_type c)) (cs_nullable st) dv) (check_default tn c st dv sp (sb_input x)).
Proof.
  intros Hc (raw & Hr & Hm & Ha & _) Hd Hsp.
  assert (Hcm : col_means c tn) by (exists raw; auto).
  unfold check_default. cbv zeta. destruct dv as [w|w|z|d|b|w|w| ]; cbn [default_fits]; try exact Logic.I.
  - (* string *)
    assert (Hfx : fixed_len tn -> ok_or x (fun _ => string_fits tn (ct_args (tc_type c)) w)
        match ct_args (tc_type c) with
        | [] => Panic
        | VInteger len :: _ => if negb (Z.eqb (Z.of_N (blen w)) len) then throw_err (InvalidDefaultValue w (ct_raw (tc_type c))) sp (sb_input x) else Ok tt
        | _ => Ok tt end).
    { intros Hf. destruct (fixed_builtin c tn raw Hm (or_introl Hf) Ha) as [E|(n & E)]; rewrite E.
      - apply ok_panic. eapply p_no_length; try eassumption. auto.
      - apply ok_if; intros El.
        + apply negb_true_iff, Z.eqb_neq in El. apply ok_throw. eapply v_default_string; try eassumption.
          rewrite E. intros [H _]. apply H in Hf. congruence.
        + apply negb_false_iff, Z.eqb_eq in El. cbn [ok_or]. subst n. split; [auto|].
          intros [->| ->]; destruct Hf as [H|H]; discriminate. }
    assert (Hmx : max_len tn -> ok_or x (fun _ => string_fits tn (ct_args (tc_type c)) w)
        match ct_args (tc_type c) with
        | [] => Panic
        | VInteger cap :: _ => if (cap <? Z.of_N (blen w))%Z then throw_err (InvalidDefaultValue w (ct_raw (tc_type c))) sp (sb_input x) else Ok tt
        | _ => Ok tt end).
    { intros Hf. destruct (fixed_builtin c tn raw Hm (or_intror Hf) Ha) as [E|(n & E)]; rewrite E.
      - apply ok_panic. eapply p_no_length; try eassumption. auto.
      - apply ok_if; intros El.
        + apply Z.ltb_lt in El. apply ok_throw. eapply v_default_string; try eassumption.
          rewrite E. intros [_ H]. destruct (H Hf) as (m & Em & Hm1). assert (n = m) by congruence. subst. lia.
        + apply Z.ltb_ge in El. cbn [ok_or]. split; [|eauto].
          intros [->| ->]; destruct Hf as [H|H]; discriminate. }
    destruct tn; try (apply string_fits_other; intros [H|H]; discriminate);
      try (apply Hfx; unfold fixed_len; auto; fail); try (apply Hmx; unfold max_len; auto; fail).
  - (* integer *)
    assert (Hi : forall P : bool, (P = true -> ~ int_fits tn z) -> (P = false -> int_fits tn z) ->
       ok_or x (fun _ => int_fits tn z) (if P then throw_err (DataTypeExceeded (ct_raw (tc_type c))) sp (sb_input x) else Ok tt)).
    { intros P H1 H2. apply ok_if; intros E; [apply ok_throw; eapply v_default_int; eauto|cbn; auto]. }
    destruct tn; try (split; [|split]; discriminate).
    + apply Hi; intros E.
      * intros (H & _ & _). specialize (H eq_refl). apply orb_true_iff in E as [E|E]; apply Z.ltb_lt in E; lia.
      * apply orb_false_iff in E as [E1 E2]. apply Z.ltb_ge in E1, E2. split; [|split]; try discriminate. lia.
    + apply Hi; intros E.
      * intros (_ & H & _). specialize (H eq_refl). apply orb_true_iff in E as [E|E]; apply Z.ltb_lt in E; lia.
      * apply orb_false_iff in E as [E1 E2]. apply Z.ltb_ge in E1, E2. split; [|split]; try discriminate. lia.
    + apply Hi; intros E.
      * intros (_ & _ & H). specialize (H eq_refl). apply orb_true_iff in E as [E|E]; apply Z.eqb_eq in E;
          unfold i64_max, i64_min in E; lia.
      * apply orb_false_iff in E as [E1 E2]. apply Z.eqb_neq in E1, E2. split; [|split]; try discriminate.
        intros _. unfold i64_max, i64_min in *. lia.
  - (* bool *)
    assert (Hv : tn <> CT_Bool -> violates x (InvalidDefaultValue (value_to_string (VBool b)) (ct_raw (tc_type c))) sp).
    { intros H. replace (value_to_string (VBool b)) with (s (if b then "true" else "false")%string) by (destruct b; reflexivity).
      eapply v_default_bool; eassumption. }
    destruct tn; try (apply ok_throw; apply Hv; discriminate). reflexivity.
  - (* null *)
    apply ok_if; intros E.
    + apply nullable_is_null_true in E. exact E.
    + apply ok_throw. eapply v_default_null; try eassumption. intros H. apply nullable_is_null_true in H. congruence.
Qed.

(** [c'] is [c] with its type name resolved. *)
Definition resolved (c c' : table_col_t) : Prop :=
  exists tn, col_means c tn /\ c' = mkTableCol (tc_span c) (tc_name c)
    (mkColType (ct_span (tc_type c)) (ct_raw (tc_type c)) tn (ct_args (tc_type c)) (ct_arrays (tc_type c))) (tc_settings c).
Definition resolved_table (t t' : table_t) : Prop :=
  exists cols, Forall2 resolved (tb_cols t) cols /\
    t' = mkTable (tb_span t) cols (tb_ident t) (tb_note t) (tb_indexes t) (tb_settings t).

Lemma check_col_type_ok x t c ix : NoDup (map enum_name (enums x)) -> table_names_wf (tables x) -> describes (tables x) (enums x) ix ->
  column_of x t c -> ok_or x (fun c' => resolved c c' /\ col_type_wf (enums x) c) (check_col_type ix (sb_input x) c).
Proof.
  intros Hne Ht' D Hc. unfold check_col_type. eapply ok_bind; [eapply resolve_col_type_ok; eassumption|]. intros tn Hres.
  eapply ok_bind with (R := fun _ => forall st v, has_default c st v ->
     (exists sp, default_at st sp) /\ default_fits tn (ct_args (tc_type c)) (cs_nullable st) v).
  - destruct (tc_settings c) as [st|] eqn:Est; [|intros st v [H _]; congruence].
    destruct (cs_default st) as [dv|] eqn:Ed; [|intros st' v [H H']; congruence].
    assert (Hd : has_default c st dv) by (split; assumption).
    destruct (default_span (cs_attributes st)) as [sp|] eqn:Esp.
    + apply default_span_at in Esp. eapply ok_impl; [eapply check_default_ok; eassumption|].
      intros [] H st' v [H1 H2]. assert (st' = st) by congruence. subst st'. assert (v = dv) by congruence. subst v. eauto.
    + apply ok_panic. eapply p_no_default; [exact Hc|exact Hd|eapply col_keys_distinct; [exact Ht'|exact Hc|apply Hd]|]. apply default_span_none. exact Esp.
  - intros [] Hdef; cbv beta in Hdef. cbv zeta. cbn [ok_or]. destruct Hres as (raw & Hr & Hm & Ha & He). split.
    + exists tn. split; [exists raw; auto|reflexivity].
    + exists raw, tn. split; [exact Hr|]. split; [exact Hm|]. split; [exact Ha|].
      intros st v Hd. destruct (Hdef st v Hd) as [H1 H2]. split; [exact H1|]. split; [exact H2|]. eapply He. exact Hd.
Qed.
Lemma check_types_ok x ix : NoDup (map enum_name (enums x)) -> table_names_wf (tables x) -> describes (tables x) (enums x) ix ->
  ok_or x (fun ts => Forall2 resolved_table (tables x) ts /\
      Forall (fun t => Forall (col_type_wf (enums x)) (tb_cols t)) (tables x))
    (try_map (check_table_types ix (sb_input x)) (tables x)).
Proof.
  intros Hne Ht' D. eapply ok_impl; [apply (ok_map x _ (fun t t' => resolved_table t t' /\ Forall (col_type_wf (enums x)) (tb_cols t)))|].
  - intros t Ht. unfold check_table_types.
    eapply ok_bind; [apply (ok_map x _ (fun c c' => resolved c c' /\ col_type_wf (enums x) c)); intros c Hc;
      apply (check_col_type_ok x t); [exact Hne|exact Ht'|exact D|constructor; assumption]|].
    intros cols Hcols. cbn [ok_or]. split.
    + exists cols. split; [|reflexivity]. eapply f2_impl; [|exact Hcols]. intros c c' H. apply H.
    + clear - Hcols. induction Hcols as [|c c' l l' [_ H] _ IH]; constructor; assumption.
  - intros ts Hts. split.
    + eapply f2_impl; [|exact Hts]. intros t t' H. apply H.
    + clear - Hts. induction Hts as [|c c' l l' [_ H] _ IH]; constructor; assumption.
Qed.
