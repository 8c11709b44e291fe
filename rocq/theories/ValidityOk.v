(** * ValidityOk: a schema is well formed iff what it says is valid. *)

From Verif Require Import Rules RulesOk RulesOk3 CheckFacts ParseFacts SynVerdict SynMain.
From Verif Require Import Err Analyzer Api Answer.
From Verif Require Import Validity.

(** ** Lists *)
Lemma forall_iff_in {A} (P Q : A -> Prop) l : (forall a, In a l -> (P a <-> Q a)) -> (Forall P l <-> Forall Q l).
Proof. intros H. rewrite !Forall_forall. split; intros K a Ha; apply (H a Ha), K, Ha. Qed.
Lemma pick_map {A B C} (f : B -> option C) (g : A -> B) l : pick f (map g l) = pick (fun a => f (g a)) l.
Proof. unfold pick. rewrite !flat_map_concat_map, map_map. reflexivity. Qed.
Lemma in_pick {A B} (f : A -> option B) l b : In b (pick f l) <-> exists a, In a l /\ f a = Some b.
Proof.
  unfold pick. rewrite in_flat_map. split; intros (a & Ha & H); exists a; (split; [exact Ha|]).
  - destruct (f a); [destruct H as [<-|[]]; reflexivity|destruct H].
  - rewrite H. left. reflexivity.
Qed.
Lemma pick_ext {A B} (f g : A -> option B) l : (forall a, f a = g a) -> pick f l = pick g l.
Proof. intros H. unfold pick. rewrite !flat_map_concat_map. f_equal. apply map_ext. intros a. rewrite H. reflexivity. Qed.
Lemma map_split {A B} (f : A -> B) l l1 b l2 : map f l = l1 ++ b :: l2 ->
  exists m1 a m2, l = m1 ++ a :: m2 /\ l1 = map f m1 /\ b = f a /\ l2 = map f m2.
Proof.
  intros E. apply map_eq_app in E as (m1 & m & -> & <- & E). apply map_eq_cons in E as (a & m2 & -> & <- & <-). eauto 7.
Qed.
Lemma forall2_map_l {A B C} (R : B -> C -> Prop) (f : A -> B) l l' : Forall2 R (map f l) l' <-> Forall2 (fun a => R (f a)) l l'.
Proof.
  split.
  - revert l'. induction l as [|a l IH]; intros l' H; inversion H; subst; constructor; auto.
  - induction 1; constructor; assumption.
Qed.
Lemma forall2_map_r {A B C} (R : A -> C -> Prop) (f : B -> C) l l' : Forall2 R l (map f l') <-> Forall2 (fun a b => R a (f b)) l l'.
Proof.
  split.
  - revert l. induction l' as [|a l' IH]; intros l H; inversion H; subst; constructor; auto.
  - induction 1; constructor; assumption.
Qed.
Lemma f2_in {A B} (R Q : A -> B -> Prop) l l' : (forall a b, In a l -> In b l' -> R a b -> Q a b) -> Forall2 R l l' -> Forall2 Q l l'.
Proof.
  intros K H. induction H as [|a b l l' H _ IH]; constructor; [apply K; [left|left|]; auto|].
  apply IH. intros x y Hx Hy. apply K; right; assumption.
Qed.
Lemma f2_ex {A B C} (R : A -> C -> Prop) (g : B -> C) l l' : (forall a c, R a c -> exists b, g b = c) -> Forall2 R l l' -> exists k, map g k = l'.
Proof.
  intros K H. induction H as [|a c l l' H _ [k <-]]; [exists []; reflexivity|]. destruct (K _ _ H) as [b <-]. exists (b :: k). reflexivity.
Qed.

(** ** Names *)
Lemma schema_same o : in_public (option_map id_str o) = in_schema o.
Proof. destruct o; reflexivity. Qed.
Lemma tname_same t : tname (e_table_block t) = table_name t.
Proof. unfold tname, table_name, e_table_block. cbn [t_schema t_name]. rewrite schema_same. reflexivity. Qed.
Lemma ename_same e : ename (e_enum e) = enum_name e.
Proof. unfold ename, enum_name, e_enum. cbn [m_schema m_name]. rewrite schema_same. reflexivity. Qed.
Lemma alias_same t : t_alias (e_table_block t) = alias_of t.
Proof. reflexivity. Qed.
Lemma taliases_same ts : taliases (map e_table_block ts) = aliases ts.
Proof.
  unfold taliases, aliases. rewrite pick_map. unfold pick. rewrite !flat_map_concat_map. reflexivity.
Qed.
Lemma projects_same x : projects_of (meaning x) = map e_project (projects x).
Proof.
  unfold projects_of, meaning, projects. rewrite pick_map. generalize (sb_blocks x). intros l. unfold pick.
  induction l as [|b l IH]; [reflexivity|]. destruct b; cbn [flat_map filter_map map app e_block]; rewrite IH; reflexivity.
Qed.
Lemma tables_same x : tables_of (meaning x) = map e_table_block (tables x).
Proof.
  unfold tables_of, meaning, tables. rewrite pick_map. generalize (sb_blocks x). intros l. unfold pick.
  induction l as [|b l IH]; [reflexivity|]. destruct b; cbn [flat_map filter_map map app e_block]; rewrite IH; reflexivity.
Qed.
Lemma enums_same x : enums_of (meaning x) = map e_enum (enums x).
Proof.
  unfold enums_of, meaning, enums. rewrite pick_map. generalize (sb_blocks x). intros l. unfold pick.
  induction l as [|b l IH]; [reflexivity|]. destruct b; cbn [flat_map filter_map map app e_block]; rewrite IH; reflexivity.
Qed.
Lemma groups_same x : groups_of (meaning x) = map e_group (table_groups x).
Proof.
  unfold groups_of, meaning, table_groups. rewrite pick_map. generalize (sb_blocks x). intros l. unfold pick.
  induction l as [|b l IH]; [reflexivity|]. destruct b; cbn [flat_map filter_map map app e_block]; rewrite IH; reflexivity.
Qed.
Lemma refs_same x : refs_of (meaning x) = map e_ref (refs x).
Proof.
  unfold refs_of, meaning, refs. rewrite pick_map. generalize (sb_blocks x). intros l. unfold pick.
  induction l as [|b l IH]; [reflexivity|]. destruct b; cbn [flat_map filter_map map app e_block]; rewrite IH; reflexivity.
Qed.

(** ** Settings *)
Lemma keys_same l : map fst (map e_attr l) = map key_of l.
Proof. rewrite map_map. reflexivity. Qed.
Lemma has_same k l : has k (map e_attr l) <-> has_key k l.
Proof.
  unfold has, has_key. rewrite keys_same, in_map_iff. split; intros (a & H1 & H2); exists a; auto.
Qed.
Lemma once_same l : once (map e_attr l) <-> distinct_keys l.
Proof. unfold once, distinct_keys. rewrite keys_same. reflexivity. Qed.
Lemma once_opt_same {S} (f : S -> list attribute_t) o :
  once_opt (option_map (fun x => map e_attr (f x)) o) <-> opt_all (fun x => distinct_keys (f x)) o.
Proof.
  destruct o as [x|]; cbn [option_map opt_all]; unfold once_opt.
  - split; [intros H; apply once_same, H; reflexivity|intros H l E; injection E as <-; apply once_same; exact H].
  - split; [auto|intros _ l E; discriminate].
Qed.
Lemma once_fun l k v w : once l -> In (k, v) l -> In (k, w) l -> v = w.
Proof.
  unfold once. induction l as [|[k' u] l IH]; cbn [map fst]; intros Hn Hv Hw; [destruct Hv|]. inversion Hn as [|? ? Hk Hn']; subst.
  destruct Hv as [Ev|Hv], Hw as [Ew|Hw].
  - congruence.
  - injection Ev as -> ->. exfalso. apply Hk. apply (in_map fst) in Hw. exact Hw.
  - injection Ew as -> ->. exfalso. apply Hk. apply (in_map fst) in Hv. exact Hv.
  - apply IH; assumption.
Qed.
(** Under distinct keys the last one is the only one. *)
Lemma last_says_once {A} k (reads : attribute_t -> A -> Prop) d l v : distinct_keys l -> last_says [k] reads d l v ->
  (~ has_key k l /\ v = d) \/ exists a, In a l /\ key_of a = s k /\ reads a v /\ forall b, In b l -> key_of b = s k -> b = a.
Proof.
  intros Hd [[HF ->]|(l1 & a & l2 & -> & (k' & [<-|[]] & Hk) & HF & Hr)].
  - left. split; [|reflexivity]. intros (a & Ha & Hk). rewrite Forall_forall in HF. apply (HF a Ha). exists k. split; [left; reflexivity|exact Hk].
  - right. exists a. split; [apply in_mid|]. split; [exact Hk|]. split; [exact Hr|]. intros b Hb Hkb.
    apply in_app_or in Hb as [Hb|[<-|Hb]]; [|reflexivity|].
    + unfold distinct_keys in Hd. rewrite map_app in Hd. cbn [map] in Hd. apply NoDup_remove_2 in Hd. exfalso. apply Hd.
      rewrite Hk, <- Hkb. apply in_or_app. left. apply in_map. exact Hb.
    + rewrite Forall_forall in HF. exfalso. apply (HF b Hb). exists k. split; [left; reflexivity|exact Hkb].
Qed.
Lemma says_value k l v o : distinct_keys l -> last_says [k] reads_value None l o -> (o = Some v <-> In (s k, Some v) (map e_attr l)).
Proof.
  intros Hd H. apply (last_says_once k) in H; [|exact Hd]. destruct H as [[Hn ->]|(a & Ha & Hk & Hr & Hu)].
  - split; [discriminate|]. intros Hi. exfalso. apply Hn. apply has_same. apply (in_map fst) in Hi. exact Hi.
  - unfold reads_value in Hr. split.
    + intros E. apply in_map_iff. exists a. split; [|exact Ha]. unfold e_attr. fold (key_of a). rewrite Hk, <- Hr, E. reflexivity.
    + intros Hi. apply in_map_iff in Hi as (b & Eb & Hb). unfold e_attr in Eb. injection Eb as E1 E2.
      rewrite (Hu b Hb E1) in E2. congruence.
Qed.

(** ** Columns *)
Section Col.
  Variables (inp : str) (c : table_col_t).
  Hypothesis K : table_col_ok inp c.
  Lemma col_attrs_same : col_attrs (e_col c) = match tc_settings c with Some st => map e_attr (cs_attributes st) | None => [] end.
  Proof. unfold col_attrs, e_col. cbn [c_settings]. destruct (tc_settings c); reflexivity. Qed.
  Lemma settings_col st : tc_settings c = Some st -> col_settings_say (cs_attributes st) st.
  Proof. destruct K as (_ & _ & _ & H & _). intros E. rewrite E in H. apply H. Qed.
  Lemma once_col : once (col_attrs (e_col c)) <-> opt_all (fun st => distinct_keys (cs_attributes st)) (tc_settings c).
  Proof. rewrite col_attrs_same. destruct (tc_settings c) as [st|]; cbn [opt_all]; [apply once_same|]. split; [auto|intros _; constructor]. Qed.
  Lemma pk_same : is_pk (e_col c) <-> pk_col c.
  Proof.
    unfold is_pk, pk_col, has_settings. rewrite col_attrs_same. destruct (tc_settings c) as [st|] eqn:E.
    - destruct (settings_col _ E) as (_ & H & _). rewrite !has_same, <- H. split; [intros Hp; exists st; auto|intros (y & Ey & Hy); congruence].
    - split; [intros [[]|[]]|intros (y & Ey & _); discriminate].
  Qed.
  Lemma unique_same : is_unique (e_col c) <-> unique_col c.
  Proof.
    unfold is_unique, unique_col, has_settings. rewrite col_attrs_same. destruct (tc_settings c) as [st|] eqn:E.
    - destruct (settings_col _ E) as (_ & _ & H & _). rewrite !has_same, <- H. split; [intros Hp; exists st; auto|intros (y & Ey & Hy); congruence].
    - split; [intros []|intros (y & Ey & _); discriminate].
  Qed.
  Lemma key_same : is_key (e_col c) <-> key_col c.
  Proof. unfold is_key, key_col. rewrite pk_same, unique_same. reflexivity. Qed.
  Lemma null_same st : tc_settings c = Some st -> ~ (has_key "null" (cs_attributes st) /\ has_key "not null" (cs_attributes st)) ->
    (cs_nullable st = Some Null <-> has_key "null" (cs_attributes st)).
  Proof.
    intros E Hn. destruct (settings_col _ E) as (_ & _ & _ & _ & H & _). destruct H as [[HF ->]|(l1 & a & l2 & El & (k & Hk & Ek) & HF & Hr)].
    - split; [discriminate|]. intros (a & Ha & Hk). rewrite Forall_forall in HF. exfalso. apply (HF a Ha). exists "null"%string. split; [left; reflexivity|exact Hk].
    - assert (Ha : In a (cs_attributes st)) by (rewrite El; apply in_mid). destruct Hr as [[Hr ->]|[Hr ->]].
      + split; [intros _; exists a; auto|reflexivity].
      + split; [discriminate|]. intros Hnull. exfalso. apply Hn. split; [exact Hnull|]. exists a. auto.
  Qed.
  Lemma col_keys_same : valid_col_keys (e_col c) <-> col_keys_wf c.
  Proof.
    unfold valid_col_keys, col_keys_wf. rewrite pk_same, col_attrs_same. unfold pk_col, has_settings.
    change (y_dims (c_type (e_col c))) with (ct_arrays (tc_type c)). destruct (tc_settings c) as [st|] eqn:E; cbn [opt_all].
    - rewrite !has_same. pose proof (null_same st E) as Hn. split; intros [H1 H2]; (split; [|exact H2]).
      + intros Hp. destruct H1 as [H1 H3]; [exists st; auto|]. split; [rewrite Hn; assumption|exact H3].
      + intros (y & Ey & Hy). injection Ey as <-. destruct (H1 Hy) as [H3 H4]. split; [rewrite <- Hn; assumption|exact H4].
    - split; [auto|]. intros _. split; [intros (y & Ey & _); discriminate|]. intros [[] _].
  Qed.
  Lemma default_same v : once (col_attrs (e_col c)) -> ((exists st, has_default c st v) <-> In (s "default", Some v) (col_attrs (e_col c))).
  Proof.
    rewrite col_attrs_same. unfold has_default. destruct (tc_settings c) as [st|] eqn:E.
    - intros Ho. apply once_same in Ho. destruct (settings_col _ E) as (_ & _ & _ & _ & _ & H & _).
      rewrite <- (says_value "default" _ v _ Ho H). split; [intros (y & Ey & Hy); congruence|intros Hv; exists st; auto].
    - intros _. split; [intros (y & Ey & _); discriminate|intros []].
  Qed.
  Lemma default_there st v : has_default c st v -> distinct_keys (cs_attributes st) -> exists sp, default_at st sp.
  Proof.
    intros [E Hv] Hd. destruct (settings_col _ E) as (_ & _ & _ & _ & _ & H & _). apply (last_says_once "default") in H; [|exact Hd].
    destruct H as [[_ H]|(a & Ha & Hk & Hr & Hu)]; [congruence|]. unfold reads_value in Hr. rewrite Hv in Hr.
    destruct (at_value a) as [l|] eqn:Ea; [|discriminate]. exists (lit_span l). apply in_split in Ha as (l1 & l2 & El).
    exists l1, a, l2, l. split; [exact El|]. split; [|auto]. apply Forall_forall. intros b Hb Hkb.
    unfold distinct_keys in Hd. rewrite El, map_app in Hd. cbn [map] in Hd. apply NoDup_remove_2 in Hd. apply Hd. rewrite Hk, <- Hkb.
    apply in_or_app. left. apply in_map. exact Hb.
  Qed.
  Lemma type_is_same tn : type_is (e_col c) tn <-> col_means c tn.
  Proof. reflexivity. Qed.
  Lemma col_type_same es : once (col_attrs (e_col c)) -> col_keys_wf c -> (valid_col_type (map e_enum es) (e_col c) <-> col_type_wf es c).
  Proof.
    intros Ho Hk. unfold valid_col_type, col_type_wf.
    change (y_name (c_type (e_col c))) with (ct_type_name (tc_type c)). change (y_args (c_type (e_col c))) with (ct_args (tc_type c)).
    assert (D : forall tn st v, has_default c st v -> valid_default tn (ct_args (tc_type c)) (col_attrs (e_col c)) v <-> default_fits tn (ct_args (tc_type c)) (cs_nullable st) v).
    { intros tn st v [E _]. destruct v; cbn [valid_default default_fits]; try reflexivity. rewrite col_attrs_same, E, has_same.
      unfold col_keys_wf in Hk. rewrite E in Hk. cbn [opt_all] in Hk. symmetry. apply null_same; tauto. }
    assert (V : forall so n w, (exists e, In e (map e_enum es) /\ ename e = (in_public so, n) /\ In w (map fst (m_values e))) <-> Rules.enum_value es so n w).
    { intros so n w. unfold Rules.enum_value. assert (Ev : forall e, map fst (m_values (e_enum e)) = map value_name (en_values e)).
      { intros e. cbn [e_enum m_values]. rewrite map_map. reflexivity. }
      split.
      - intros (e & He & H1 & H2). apply in_map_iff in He as (u & <- & Hu). exists u. rewrite ename_same in H1. rewrite Ev in H2. auto.
      - intros (u & Hu & H1 & H2). exists (e_enum u). split; [apply in_map; exact Hu|]. rewrite ename_same, Ev. auto. }
    split; intros (raw & tn & H1 & H2 & H3 & H4); exists raw, tn; (split; [exact H1|]); (split; [exact H2|]); (split; [exact H3|]).
    - intros st v Hd. destruct (H4 v) as [H5 H6]; [apply (default_same v Ho); exists st; exact Hd|].
      split; [apply (default_there st v Hd)|split; [apply (D tn st v Hd); exact H5|]].
      + apply once_col in Ho. destruct Hd as [E _]. rewrite E in Ho. exact Ho.
      + intros Hb so n He. apply V. apply H6; assumption.
    - intros v Hi. apply (default_same v Ho) in Hi as (st & Hd). destruct (H4 st v Hd) as (_ & H5 & H6). split; [apply (D tn st v Hd); exact H5|].
      intros Hb so n He. apply V. apply H6; assumption.
  Qed.
End Col.

(** ** Indexes *)
Lemma word_inj t t' : index_type_word t = index_type_word t' -> t = t'.
Proof. destruct t, t'; intros E; try reflexivity; discriminate. Qed.
Section Idx.
  Variables (inp : str) (d : indexes_def).
  Hypothesis K : indexes_def_ok inp d.
  Lemma idx_attrs_same : idx_attrs (e_index d) = match idf_settings d with Some st => map e_attr (is_attributes st) | None => [] end.
  Proof. unfold idx_attrs, e_index. cbn [x_settings]. destruct (idf_settings d); reflexivity. Qed.
  Lemma settings_idx st : idf_settings d = Some st -> index_settings_say (is_attributes st) st.
  Proof. destruct K as (_ & _ & H & _). intros E. rewrite E in H. apply H. Qed.
  Lemma once_idx : once (idx_attrs (e_index d)) <-> opt_all (fun st => distinct_keys (is_attributes st)) (idf_settings d).
  Proof. rewrite idx_attrs_same. destruct (idf_settings d) as [st|]; cbn [opt_all]; [apply once_same|]. split; [auto|intros _; constructor]. Qed.
  Lemma idx_pk_same : idx_pk (e_index d) <-> def_pk d.
  Proof.
    unfold idx_pk, def_pk, def_has. rewrite idx_attrs_same. destruct (idf_settings d) as [st|] eqn:E.
    - destruct (settings_idx _ E) as (_ & H & _). rewrite !has_same, <- H. split; [intros Hp; exists st; auto|intros (y & Ey & Hy); congruence].
    - split; [intros []|intros (y & Ey & _); discriminate].
  Qed.
  Lemma idx_unique_same : idx_unique (e_index d) <-> def_unique d.
  Proof.
    unfold idx_unique, def_unique, def_has. rewrite idx_attrs_same. destruct (idf_settings d) as [st|] eqn:E.
    - destruct (settings_idx _ E) as (_ & _ & H & _). rewrite !has_same, <- H. split; [intros Hp; exists st; auto|intros (y & Ey & Hy); congruence].
    - split; [intros []|intros (y & Ey & _); discriminate].
  Qed.
  Lemma idx_names_same : idx_names (e_index d) = named d.
  Proof.
    unfold idx_names, named. cbn [e_index x_cols]. rewrite pick_map. unfold pick. rewrite !flat_map_concat_map. f_equal. apply map_ext. intros []; reflexivity.
  Qed.
  Lemma type_says st w : idf_settings d = Some st -> distinct_keys (is_attributes st) ->
    ((exists v, In (s "type", Some v) (map e_attr (is_attributes st)) /\ w = value_to_string v) <-> exists t, is_type st = Some t /\ w = index_type_word t).
  Proof.
    intros E Hd. destruct (settings_idx _ E) as (_ & _ & _ & H & _). apply (last_says_once "type") in H; [|exact Hd].
    destruct H as [[Hn ->]|(a & Ha & Hk & Hr & Hu)].
    - split; [|intros (t & Et & _); discriminate]. intros (v & Hi & _). exfalso. apply Hn. apply has_same. apply (in_map fst) in Hi. exact Hi.
    - unfold reads_index_type in Hr. split.
      + intros (v & Hi & ->). apply in_map_iff in Hi as (b & Eb & Hb). unfold e_attr in Eb. injection Eb as E1 E2. rewrite (Hu b Hb E1) in E2.
        destruct (at_value a) as [l|]; [|discriminate]. injection E2 as E2. destruct Hr as (t & -> & Ht). exists t. rewrite <- E2. auto.
      + intros (t & Et & ->). rewrite Et in Hr. destruct (at_value a) as [l|] eqn:El; [|discriminate]. destruct Hr as (t' & E' & Ht). injection E' as <-.
        exists (lit_value l). split; [|exact Ht]. apply in_map_iff. exists a. split; [|exact Ha]. unfold e_attr. fold (key_of a). rewrite Hk, El. reflexivity.
  Qed.
  Hypothesis Ho : once (idx_attrs (e_index d)).
  Lemma idx_typed_same : idx_typed (e_index d) <-> def_typed d.
  Proof.
    pose proof Ho as Ho'. apply once_idx in Ho'. unfold idx_typed, def_typed, def_has. rewrite idx_attrs_same. destruct (idf_settings d) as [st|] eqn:E; cbn [opt_all] in Ho'.
    - split.
      + intros (v & Hv). destruct (proj1 (type_says st (value_to_string v) E Ho')) as (t & Ht & _); [exists v; auto|]. exists st. split; [reflexivity|]. exists t. exact Ht.
      + intros (y & Ey & t & Ht). injection Ey as <-. destruct (proj2 (type_says st (index_type_word t) E Ho')) as (v & Hv & _); [exists t; auto|]. exists v. exact Hv.
    - split; [intros (v & [])|intros (y & Ey & _); discriminate].
  Qed.
  Lemma idx_kind_same k : idx_kind (e_index d) k <-> exists k', index_kind d k' /\ k = option_map index_type_word k'.
  Proof.
    pose proof Ho as Ho'. apply once_idx in Ho'. unfold idx_kind, index_kind. cbn [e_index x_settings]. destruct (idf_settings d) as [st|] eqn:E; cbn [opt_all option_map] in *.
    - split.
      + intros (v & Hv & ->). destruct (proj1 (type_says st (value_to_string v) E Ho')) as (t & Ht & Ew); [exists v; auto|]. exists (Some t). split; [exists t; auto|].
        cbn [option_map]. rewrite Ew. reflexivity.
      + intros (k' & (t & Ht & ->) & ->). destruct (proj2 (type_says st (index_type_word t) E Ho')) as (v & Hv & Ew); [exists t; auto|]. exists v. split; [exact Hv|].
        cbn [option_map]. rewrite Ew. reflexivity.
    - split; [intros ->; exists None; auto|intros (k' & -> & ->); reflexivity].
  Qed.
End Idx.

Lemma def_same inp cols before d : Forall (table_col_ok inp) cols -> Forall (indexes_def_ok inp) before -> indexes_def_ok inp d ->
  Forall (fun d => once (idx_attrs (e_index d))) before -> once (idx_attrs (e_index d)) ->
  (valid_index (map e_col cols) (map e_index before) (e_index d) <-> index_def_wf cols before d).
Proof.
  intros Kc Kb K Ob Od. rewrite Forall_forall in Kc, Kb, Ob. unfold valid_index, index_def_wf.
  assert (Ec : x_cols (e_index d) <> [] <-> idf_cols d <> []).
  { cbn [e_index x_cols]. destruct (idf_cols d); cbn; split; congruence. }
  assert (Em : map c_name (map e_col cols) = map col_name cols) by (rewrite map_map; reflexivity).
  assert (Epk : (idx_pk (e_index d) -> (forall c, In c (map e_col cols) -> ~ is_pk c) /\ (forall d', In d' (map e_index before) -> idx_pk d' -> idx_names d' = [])) <-> ~ pk_again cols before d).
  { rewrite (idx_pk_same inp d K). unfold pk_again. split.
    - intros H [Hp [(c & Hc & Hpc)|(d' & Hd' & Hp' & Hne)]]; destruct (H Hp) as [H1 H2].
      + apply (H1 (e_col c)); [apply in_map; exact Hc|]. apply (pk_same inp c (Kc c Hc)). exact Hpc.
      + apply Hne. rewrite <- idx_names_same. apply H2; [apply in_map; exact Hd'|]. apply (idx_pk_same inp d' (Kb d' Hd')). exact Hp'.
    - intros H Hp. split.
      + intros c Hc Hpc. apply in_map_iff in Hc as (u & <- & Hu). apply H. split; [exact Hp|]. left. exists u. split; [exact Hu|]. apply (pk_same inp u (Kc u Hu)). exact Hpc.
      + intros d' Hd' Hp'. apply in_map_iff in Hd' as (u & <- & Hu). rewrite idx_names_same. destruct (named u) as [|w l] eqn:Eu; [reflexivity|]. exfalso. apply H. split; [exact Hp|].
        right. exists u. split; [exact Hu|]. split; [apply (idx_pk_same inp u (Kb u Hu)); exact Hp'|]. rewrite Eu. discriminate. }
  assert (Eu : (idx_unique (e_index d) -> (forall c, In c (map e_col cols) -> is_unique c -> ~ incl (idx_names (e_index d)) [c_name c]) /\
                   (forall d', In d' (map e_index before) -> idx_unique d' -> ~ incl (idx_names (e_index d)) (idx_names d'))) <-> ~ unique_again cols before d).
  { rewrite (idx_unique_same inp d K), idx_names_same. unfold unique_again. split.
    - intros H [Hp [(c & Hc & Hpc & Hi)|(d' & Hd' & Hp' & Hi)]]; destruct (H Hp) as [H1 H2].
      + apply (H1 (e_col c)); [apply in_map; exact Hc| |exact Hi]. apply (unique_same inp c (Kc c Hc)). exact Hpc.
      + apply (H2 (e_index d')); [apply in_map; exact Hd'| |rewrite idx_names_same; exact Hi]. apply (idx_unique_same inp d' (Kb d' Hd')). exact Hp'.
    - intros H Hp. split.
      + intros c Hc Hpc Hi. apply in_map_iff in Hc as (u & <- & Hu). apply H. split; [exact Hp|]. left. exists u. split; [exact Hu|]. split; [|exact Hi]. apply (unique_same inp u (Kc u Hu)). exact Hpc.
      + intros d' Hd' Hp' Hi. apply in_map_iff in Hd' as (u & <- & Hu). rewrite idx_names_same in Hi. apply H. split; [exact Hp|]. right. exists u. split; [exact Hu|].
        split; [apply (idx_unique_same inp u (Kb u Hu)); exact Hp'|exact Hi]. }
  assert (Ei : (forall d' k k', In d' (map e_index before) -> idx_kind (e_index d) k -> idx_kind d' k' -> idx_names d' = idx_names (e_index d) -> k <> None /\ k <> k') <-> ~ index_again before d).
  { rewrite idx_names_same. unfold index_again. split.
    - intros H (d' & k & k' & Hd' & Hk & Hk' & En & Hor). destruct (H (e_index d') (option_map index_type_word k) (option_map index_type_word k')) as [H1 H2].
      + apply in_map. exact Hd'.
      + apply (idx_kind_same inp d K Od). eauto.
      + apply (idx_kind_same inp d' (Kb d' Hd') (Ob d' Hd')). eauto.
      + rewrite idx_names_same. exact En.
      + destruct Hor as [->| ->]; [apply H1; reflexivity|apply H2; reflexivity].
    - intros H d' k k' Hd' Hk Hk' En. apply in_map_iff in Hd' as (u & <- & Hu). rewrite idx_names_same in En.
      apply (idx_kind_same inp d K Od) in Hk as (j & Hj & ->). apply (idx_kind_same inp u (Kb u Hu) (Ob u Hu)) in Hk' as (j' & Hj' & ->).
      split; intros E; apply H; exists u, j, j'; (split; [exact Hu|]); (split; [exact Hj|]); (split; [exact Hj'|]); (split; [exact En|]).
      + left. destruct j; [discriminate|reflexivity].
      + right. destruct j, j'; cbn in E; try discriminate; [|reflexivity]. injection E as E. f_equal. apply word_inj. exact E. }
  rewrite Ec, Em, Epk, Eu, Ei, (idx_pk_same inp d K), (idx_unique_same inp d K), (idx_typed_same inp d K Od), idx_names_same, (once_idx d).
  reflexivity.
Qed.
Lemma defs_same inp cols defs : Forall (table_col_ok inp) cols -> Forall (indexes_def_ok inp) defs ->
  ((forall l1 d l2, map e_index defs = l1 ++ d :: l2 -> valid_index (map e_col cols) l1 d) <->
   (forall l1 d l2, defs = l1 ++ d :: l2 -> index_def_wf cols l1 d)).
Proof.
  intros Kc Kd.
  assert (Hyp : (forall l1 d l2, defs = l1 ++ d :: l2 -> once (idx_attrs (e_index d))) ->
    forall l1 d l2, defs = l1 ++ d :: l2 -> (valid_index (map e_col cols) (map e_index l1) (e_index d) <-> index_def_wf cols l1 d)).
  { intros Ho l1 d l2 E. pose proof Kd as Kd'. rewrite E in Kd'. apply Forall_app in Kd' as [K1 K2]. inversion K2 as [|? ? K3 _]; subst.
    apply (def_same inp); [exact Kc|exact K1|exact K3| |apply (Ho l1 d l2); reflexivity].
    apply Forall_forall. intros u Hu. apply in_split in Hu as (m1 & m2 & ->). apply (Ho m1 u (m2 ++ d :: l2)). rewrite <- app_assoc. reflexivity. }
  split; intros H.
  - intros l1 d l2 E. apply (Hyp) with (l2 := l2); [|exact E|].
    + intros m1 u m2 Em. apply (H (map e_index m1) (e_index u) (map e_index m2)). rewrite Em, map_app. reflexivity.
    + apply (H _ _ (map e_index l2)). rewrite E, map_app. reflexivity.
  - intros l1 d l2 E. apply map_split in E as (m1 & u & m2 & Em & -> & -> & ->). apply (Hyp) with (l2 := m2); [|exact Em|].
    + intros n1 w n2 En. apply once_idx. apply (H _ _ _ En).
    + apply (H _ _ _ Em).
Qed.
Lemma defs_of_same t : defs_of (e_table_block t) = match tb_indexes t with Some ib => map e_index (ib_defs ib) | None => [] end.
Proof. unfold defs_of. cbn [e_table_block t_indexes]. destruct (tb_indexes t); cbn; [apply app_nil_r|reflexivity]. Qed.
Lemma keys_wf_same inp t : table_ok inp t -> (valid_keys (e_table_block t) <-> table_keys_wf t).
Proof.
  intros (_ & _ & _ & Kc & _ & Ki & _). unfold valid_keys, table_keys_wf.
  assert (E1 : Forall valid_col_keys (t_cols (e_table_block t)) <-> Forall col_keys_wf (tb_cols t)).
  { cbn [e_table_block t_cols]. rewrite Forall_map. apply forall_iff_in. intros c Hc. rewrite Forall_forall in Kc. apply (col_keys_same inp). apply Kc, Hc. }
  assert (E2 : (forall l1 c l2 c', t_cols (e_table_block t) = l1 ++ c :: l2 -> is_pk c -> In c' l1 -> ~ is_pk c') <->
               (forall l1 c l2, tb_cols t = l1 ++ c :: l2 -> pk_col c -> forall c', In c' l1 -> ~ pk_col c')).
  { cbn [e_table_block t_cols]. rewrite Forall_forall in Kc. split.
    - intros H l1 c l2 E Hp c' Hc' Hp'. assert (Hc : In c (tb_cols t)) by (rewrite E; apply in_mid).
      assert (Hc2 : In c' (tb_cols t)) by (rewrite E; apply in_or_app; left; exact Hc').
      apply (H (map e_col l1) (e_col c) (map e_col l2) (e_col c')).
      + rewrite E, map_app. reflexivity.
      + apply (pk_same inp c (Kc c Hc)). exact Hp.
      + apply in_map. exact Hc'.
      + apply (pk_same inp c' (Kc c' Hc2)). exact Hp'.
    - intros H l1 c l2 c' E Hp Hc' Hp'. apply map_split in E as (m1 & u & m2 & Em & -> & -> & ->). apply in_map_iff in Hc' as (u' & <- & Hu').
      assert (Hu : In u (tb_cols t)) by (rewrite Em; apply in_mid).
      assert (Hu2 : In u' (tb_cols t)) by (rewrite Em; apply in_or_app; left; exact Hu').
      apply (H m1 u m2 Em (proj1 (pk_same inp u (Kc u Hu)) Hp) u' Hu'). apply (pk_same inp u' (Kc u' Hu2)). exact Hp'. }
  assert (E3 : (forall l1 d l2, defs_of (e_table_block t) = l1 ++ d :: l2 -> valid_index (t_cols (e_table_block t)) l1 d) <->
               opt_all (fun ib => forall l1 d l2, ib_defs ib = l1 ++ d :: l2 -> index_def_wf (tb_cols t) l1 d) (tb_indexes t)).
  { rewrite defs_of_same. cbn [e_table_block t_cols]. destruct (tb_indexes t) as [ib|]; cbn [opt_all].
    - apply (defs_same inp); [exact Kc|]. apply Ki.
    - split; [auto|]. intros _ [|] d l2 E; discriminate. }
  rewrite E1, E2, E3. reflexivity.
Qed.

(** ** References *)
Lemma leads_same ts r so n : leads_to (map e_table_block ts) (e_ref_end r) so n <-> points_to ts r so n.
Proof.
  split.
  - intros [t Ht Ha|Hn].
    + apply in_map_iff in Ht as (u & <- & Hu). rewrite tname_same. apply pt_alias; [exact Hu|exact Ha].
    + rewrite taliases_same in Hn. apply pt_name. exact Hn.
  - intros [t Ht Ha|Hn].
    + rewrite <- tname_same. apply lt_alias; [apply in_map; exact Ht|exact Ha].
    + apply (lt_name (map e_table_block ts) (e_ref_end r)). rewrite taliases_same. exact Hn.
Qed.
Lemma columns_same ts a b : same_columns (map e_table_block ts) (e_ref_end a) (e_ref_end b) <-> same_endpoint ts a b.
Proof.
  unfold same_columns, same_endpoint. cbn [e_ref_end e_cols]. fold (endpoint_cols a) (endpoint_cols b).
  split; intros [(so & n & H1 & H2) H3]; (split; [|exact H3]); exists so, n; (split; [apply leads_same; exact H1|apply leads_same; exact H2]).
Qed.
Definition e_link (r : indexed_ref) : link := mkLink (ir_rel r) (e_ref_end (ir_lhs r)) (e_ref_end (ir_rhs r)).
Lemma clash_same ts r o : clash (map e_table_block ts) (e_link r) (e_link o) <-> clashes ts r o.
Proof.
  unfold clash, clashes, symmetric_rel. cbn [e_link k_rel k_lhs k_rhs]. rewrite !columns_same.
  assert (M : forall r, many_side (e_link r) = option_map e_ref_end (fk_side r)).
  { intros q. unfold many_side, fk_side. cbn [e_link k_rel k_lhs k_rhs]. destruct (ir_rel q); reflexivity. }
  assert (E : (exists a b, many_side (e_link r) = Some a /\ many_side (e_link o) = Some b /\ same_columns (map e_table_block ts) a b) <->
              (exists a b, fk_side r = Some a /\ fk_side o = Some b /\ same_endpoint ts a b)).
  { rewrite !M. split.
    - intros (a & b & Ha & Hb & H). destruct (fk_side r) as [a'|]; [|discriminate]. destruct (fk_side o) as [b'|]; [|discriminate].
      injection Ha as <-. injection Hb as <-. exists a', b'. split; [reflexivity|]. split; [reflexivity|]. apply columns_same. exact H.
    - intros (a & b & -> & -> & H). exists (e_ref_end a), (e_ref_end b). split; [reflexivity|]. split; [reflexivity|]. apply columns_same. exact H. }
  rewrite E. reflexivity.
Qed.
Lemma types_same c c' : types_agree (e_col c) (e_col c') <-> same_type c c'.
Proof. reflexivity. Qed.
Lemma are_key_same inp t cols : table_ok inp t -> (are_key (e_table_block t) cols <-> key_cols t cols).
Proof.
  intros (_ & _ & _ & _ & _ & Ki & _). unfold are_key, key_cols. rewrite defs_of_same. destruct (tb_indexes t) as [ib|].
  - destruct Ki as (_ & Ki & _). rewrite Forall_forall in Ki. split.
    + intros (d & Hd & H1 & H2 & H3). apply in_map_iff in Hd as (u & <- & Hu). exists ib, u. split; [reflexivity|]. split; [exact Hu|].
      rewrite (idx_pk_same inp u (Ki u Hu)), (idx_unique_same inp u (Ki u Hu)) in H1. rewrite idx_names_same in H3. cbn [e_index x_cols] in H2. rewrite map_length in H2. auto.
    + intros (ib' & u & E & Hu & H1 & H2 & H3). injection E as <-. exists (e_index u). split; [apply in_map; exact Hu|].
      rewrite (idx_pk_same inp u (Ki u Hu)), (idx_unique_same inp u (Ki u Hu)), idx_names_same. cbn [e_index x_cols]. rewrite map_length. auto.
  - split; [intros (d & [] & _)|intros (ib & d & E & _); discriminate].
Qed.
Lemma single_iff r (P Q P' Q' : Prop) : (P <-> P') -> (Q <-> Q') -> (single_keys r P Q <-> single_keys r P' Q').
Proof. destruct r; cbn; tauto. Qed.
Lemma composite_iff r (P Q P' Q' : Prop) : (P <-> P') -> (Q <-> Q') -> (composite_keys r P Q <-> composite_keys r P' Q').
Proof. destruct r; cbn; tauto. Qed.
Lemma names_cols u k0 : forall l, Forall2 (col_named (e_table_block u)) (map id_str k0) l -> exists k, l = map e_col k /\ Forall2 (names_col u) k0 k.
Proof.
  induction k0 as [|i k0 IH]; intros l H; cbn [map] in H.
  - inversion H. exists []. split; [reflexivity|constructor].
  - inversion H as [|? c ? l' [Hi Hn] H' E1 E2]. subst. apply IH in H' as (k & -> & H'). cbn [e_table_block t_cols] in Hi. apply in_map_iff in Hi as (c' & <- & Hc').
    exists (c' :: k). split; [reflexivity|]. constructor; [|exact H']. split; [exact Hc'|exact Hn].
Qed.
Lemma named_cols u k0 k c : Forall2 (names_col u) k0 k -> In c k -> In c (tb_cols u).
Proof. intros H Hc. induction H as [|i c' l l' [Hi _] _ IH]; [destruct Hc|]. destruct Hc as [<-|Hc]; auto. Qed.
Lemma link_same inp ts r : Forall (table_ok inp) ts ->
  (valid_link (map e_table_block ts) (e_link r) <->
   exists lt rt lcs rcs,
    target ts (ir_lhs r) lt /\ target ts (ir_rhs r) rt /\
    Forall2 (names_col lt) (ri_compositions (ir_lhs r)) lcs /\
    Forall2 (names_col rt) (ri_compositions (ir_rhs r)) rcs /\
    Forall2 same_type lcs rcs /\
    (forall lc rc, lcs = [lc] -> rcs = [rc] -> single_keys (ir_rel r) (key_col lc) (key_col rc)) /\
    ((2 <= List.length lcs)%nat -> composite_keys (ir_rel r) (key_cols lt (endpoint_cols (ir_lhs r)))
                                                      (key_cols rt (endpoint_cols (ir_rhs r))))).
Proof.
  intros Kt. rewrite Forall_forall in Kt. unfold valid_link. cbn [e_link k_rel k_lhs k_rhs].
  assert (T : forall e u, found (map e_table_block ts) (e_ref_end e) (e_table_block u) /\ In u ts <-> target ts e u).
  { intros e u. unfold found, target. cbn [e_table_block t_schema t_name]. rewrite leads_same. split; [tauto|]. intros [H1 H2].
    split; [|exact H1]. split; [apply (in_map e_table_block); exact H1|exact H2]. }
  assert (N : forall u e l, Forall2 (col_named (e_table_block u)) (e_cols (e_ref_end e)) l -> exists k, l = map e_col k /\ Forall2 (names_col u) (ri_compositions e) k).
  { intros u e l H. apply names_cols. exact H. }
  assert (N' : forall u e k, Forall2 (names_col u) (ri_compositions e) k -> Forall2 (col_named (e_table_block u)) (e_cols (e_ref_end e)) (map e_col k)).
  { intros u e k H. cbn [e_ref_end e_cols]. apply (proj2 (forall2_map_l _ _ _ _)), (proj2 (forall2_map_r _ _ _ _)). eapply f2_impl; [|exact H]. intros i c [Hc Hn]. split; [apply (in_map e_col); exact Hc|exact Hn]. }
  assert (KC : forall u e k c, In u ts -> Forall2 (names_col u) (ri_compositions e) k -> In c k -> table_col_ok inp c).
  { intros u e k c Hu H Hc. pose proof (named_cols _ _ _ _ H Hc) as Hcu.
    destruct (Kt u Hu) as (_ & _ & _ & Kc & _). rewrite Forall_forall in Kc. apply Kc, Hcu. }
  split.
  - intros (lt & rt & lcs & rcs & Hl & Hr & Nl & Nr & Ht & Hs & Hc).
    destruct (proj1 (in_map_iff _ _ _) (proj1 Hl)) as (lu & <- & Hlu). destruct (proj1 (in_map_iff _ _ _) (proj1 Hr)) as (ru & <- & Hru).
    apply N in Nl as (lk & -> & Nl). apply N in Nr as (rk & -> & Nr). exists lu, ru, lk, rk.
    split; [apply T; auto|]. split; [apply T; auto|]. split; [exact Nl|]. split; [exact Nr|].
    split; [apply (proj1 (forall2_map_l _ _ _ _)) in Ht; apply (proj1 (forall2_map_r _ _ _ _)) in Ht; exact Ht|]. split.
    + intros lc rc -> ->. eapply single_iff; [| |apply (Hs (e_col lc) (e_col rc)); reflexivity]; symmetry; apply (key_same inp).
      * eapply KC; [exact Hlu|exact Nl|left; reflexivity].
      * eapply KC; [exact Hru|exact Nr|left; reflexivity].
    + intros H2. rewrite map_length in Hc. eapply composite_iff; [| |exact (Hc H2)]; symmetry; apply (are_key_same inp); auto.
  - intros (lu & ru & lk & rk & Hl & Hr & Nl & Nr & Ht & Hs & Hc). apply T in Hl as [Hl Hlu]. apply T in Hr as [Hr Hru].
    exists (e_table_block lu), (e_table_block ru), (map e_col lk), (map e_col rk).
    split; [exact Hl|]. split; [exact Hr|]. split; [apply N'; exact Nl|]. split; [apply N'; exact Nr|].
    split; [apply (proj2 (forall2_map_l _ _ _ _)); apply (proj2 (forall2_map_r _ _ _ _)); exact Ht|]. split.
    + intros lc rc El Er. destruct lk as [|lc' [|]]; try discriminate. destruct rk as [|rc' [|]]; try discriminate. injection El as <-. injection Er as <-.
      eapply single_iff; [| |apply (Hs lc' rc'); reflexivity]; apply (key_same inp).
      * eapply KC; [exact Hlu|exact Nl|left; reflexivity].
      * eapply KC; [exact Hru|exact Nr|left; reflexivity].
    + rewrite map_length. intros H2. eapply composite_iff; [| |exact (Hc H2)]; apply (are_key_same inp); auto.
Qed.
Lemma links_same x : links (meaning x) = map e_link (all_refs x).
Proof.
  unfold links, all_refs, block_links. rewrite map_app, refs_same, tables_same, !map_map. f_equal.
  rewrite !flat_map_concat_map, concat_map, !map_map. f_equal. apply map_ext. intros t. unfold table_links, inline_refs.
  rewrite !flat_map_concat_map, concat_map, map_map. cbn [e_table_block t_cols]. rewrite map_map. f_equal. apply map_ext. intros c.
  unfold col_links, e_col. cbn [c_settings]. destruct (tc_settings c) as [st|]; [|reflexivity]. cbn [option_map e_col_settings s_refs].
  rewrite !map_map. reflexivity.
Qed.

(** ** Groups *)
Lemma item_same ts it p : item_is (map e_table_block ts) (option_map id_str (gi_schema it), id_str (gi_ident_alias it)) p <-> item_denotes ts it p.
Proof.
  split.
  - destruct (gi_schema it) as [i|] eqn:Es; cbn [option_map]; intros H; inversion H as [sc n E1 E2|t n Ht Ha E1 E2|t n Hn Ht En E1 E2]; subst.
    + apply den_qualified. exact Es.
    + apply in_map_iff in Ht as (u & <- & Hu). rewrite tname_same. apply den_alias; assumption.
    + apply in_map_iff in Ht as (u & <- & Hu). rewrite taliases_same in Hn. rewrite tname_same in *. apply den_table; assumption.
  - intros [sc E|t E Ht Ha|t E Hn Ht En]; rewrite E; cbn [option_map].
    + apply ii_qualified.
    + rewrite <- tname_same. apply ii_alias; [apply in_map; exact Ht|exact Ha].
    + rewrite <- tname_same. apply ii_table; [rewrite taliases_same; exact Hn|apply in_map; exact Ht|rewrite tname_same; exact En].
Qed.
Lemma group_same ts g : (exists ids, Forall2 (item_is (map e_table_block ts)) (g_items (e_group g)) ids /\ NoDup ids) <-> group_wf ts g.
Proof.
  unfold group_wf. cbn [e_group g_items]. split; intros (ids & H & Hn); exists ids; (split; [|exact Hn]).
  - apply (proj1 (forall2_map_l _ _ _ _)) in H. eapply f2_impl; [|exact H]. intros it p. apply item_same.
  - apply (proj2 (forall2_map_l _ _ _ _)). eapply f2_impl; [|exact H]. intros it p. apply item_same.
Qed.

(** ** The whole *)
Lemma ok_tables inp x : schema_ok inp x -> Forall (table_ok inp) (tables x).
Proof.
  intros (_ & _ & K & _). apply Forall_forall. intros t Ht. unfold tables, filter_map in Ht. apply in_flat_map in Ht as (b & Hb & Ht).
  rewrite Forall_forall in K. specialize (K b Hb). destruct b; cbn in Ht; try tauto. destruct Ht as [<-|[]]. exact K.
Qed.
Lemma settings_refs x : Forall (fun r => opt_all (fun st => distinct_keys (rs_attributes st)) (rb_settings r)) (refs x) <->
  Forall (fun r => opt_all (fun st => distinct_keys (rs_attributes st)) (ir_settings r)) (all_refs x).
Proof.
  unfold all_refs. rewrite Forall_app, Forall_map. cbn [ir_settings]. split; [|tauto]. intros H. split; [exact H|].
  apply Forall_forall. intros r Hr. apply in_flat_map in Hr as (t & _ & Hr). unfold inline_refs in Hr. apply in_flat_map in Hr as (c & _ & Hr).
  destruct (tc_settings c) as [st|]; [|destruct Hr]. apply in_map_iff in Hr as (q & <- & _). exact Logic.I.
Qed.
Theorem wf_valid inp x : schema_ok inp x -> (wf x <-> valid (meaning x)).
Proof.
  intros K. pose proof (ok_tables _ _ K) as Kt.
  assert (P : project_wf x <-> exists p, projects_of (meaning x) = [p] /\ NoDup (map fst (p_props p))).
  { rewrite projects_same. unfold project_wf.
    assert (Ep : forall p, map fst (p_props (e_project p)) = map prop_name (pj_properties p)) by (intros p; cbn [e_project p_props]; rewrite map_map; reflexivity).
    split.
    - intros (p & -> & Hn). exists (e_project p). split; [reflexivity|]. rewrite Ep. exact Hn.
    - intros (p & E & Hn). destruct (projects x) as [|q [|]]; try discriminate. injection E as <-. exists q. split; [reflexivity|]. rewrite <- Ep. exact Hn. }
  assert (Tn : map tname (tables_of (meaning x)) = map table_name (tables x)).
  { rewrite tables_same, map_map. apply map_ext. apply tname_same. }
  assert (Ta : taliases (tables_of (meaning x)) = aliases (tables x)) by (rewrite tables_same; apply taliases_same).
  assert (Tt : Forall (fun t => once_opt (t_settings t) /\ NoDup (map c_name (t_cols t)) /\ Forall (fun c => once (col_attrs c)) (t_cols t)) (tables_of (meaning x)) <->
    Forall (fun t => opt_all (fun st => distinct_keys (ts_attributes st)) (tb_settings t) /\
      Forall (fun c => opt_all (fun st => distinct_keys (cs_attributes st)) (tc_settings c)) (tb_cols t) /\ NoDup (map col_name (tb_cols t))) (tables x)).
  { rewrite tables_same, Forall_map. apply forall_iff_in. intros t _. cbn [e_table_block t_settings t_cols].
    rewrite (once_opt_same ts_attributes), map_map, Forall_map. change (map (fun c => c_name (e_col c)) (tb_cols t)) with (map col_name (tb_cols t)).
    rewrite (forall_iff_in (fun c => once (col_attrs (e_col c))) (fun c => opt_all (fun st => distinct_keys (cs_attributes st)) (tc_settings c))); [tauto|].
    intros c _. apply once_col. }
  assert (En : map ename (enums_of (meaning x)) = map enum_name (enums x)).
  { rewrite enums_same, map_map. apply map_ext. apply ename_same. }
  assert (Ev : Forall (fun e => NoDup (map fst (m_values e)) /\ Forall (fun v => once_opt (snd v)) (m_values e)) (enums_of (meaning x)) <->
    Forall (fun e => NoDup (map value_name (en_values e)) /\
      Forall (fun v => opt_all (fun st => distinct_keys (evs_attributes st)) (ev_settings v)) (en_values e)) (enums x)).
  { rewrite enums_same, Forall_map. apply forall_iff_in. intros e _. cbn [e_enum m_values]. rewrite map_map, Forall_map. cbn [fst snd].
    rewrite (forall_iff_in (fun v => once_opt (option_map (fun st => map e_attr (evs_attributes st)) (ev_settings v))) (fun v => opt_all (fun st => distinct_keys (evs_attributes st)) (ev_settings v))); [reflexivity|].
    intros v _. apply (once_opt_same evs_attributes). }
  assert (Gn : map g_name (groups_of (meaning x)) = map group_name (table_groups x)) by (rewrite groups_same, map_map; reflexivity).
  assert (Gi : Forall (fun g => exists ids, Forall2 (item_is (tables_of (meaning x))) (g_items g) ids /\ NoDup ids) (groups_of (meaning x)) <->
    Forall (group_wf (tables x)) (table_groups x)).
  { rewrite groups_same, tables_same, Forall_map. apply forall_iff_in. intros g _. apply group_same. }
  assert (Tk : Forall valid_keys (tables_of (meaning x)) <-> Forall table_keys_wf (tables x)).
  { rewrite tables_same, Forall_map. apply forall_iff_in. intros t Ht. apply (keys_wf_same inp). rewrite Forall_forall in Kt. apply Kt, Ht. }
  assert (Ty : Forall (fun t => Forall (fun c => once (col_attrs c)) (t_cols t)) (tables_of (meaning x)) -> Forall table_keys_wf (tables x) ->
    (Forall (fun t => Forall (valid_col_type (enums_of (meaning x))) (t_cols t)) (tables_of (meaning x)) <-> Forall (fun t => Forall (col_type_wf (enums x)) (tb_cols t)) (tables x))).
  { rewrite enums_same, tables_same, !Forall_map. intros Ho Hk. apply forall_iff_in. intros t Ht. cbn [e_table_block t_cols]. rewrite Forall_map. apply forall_iff_in. intros c Hc.
    rewrite Forall_forall in Kt, Ho, Hk. destruct (Kt t Ht) as (_ & _ & _ & Kc & _). destruct (Hk t Ht) as [Hkc _]. specialize (Ho t Ht). cbn [e_table_block t_cols] in Ho.
    rewrite Forall_map in Ho. rewrite Forall_forall in Kc, Hkc, Ho. apply (col_type_same inp); auto. }
  assert (Rs : Forall (fun r => once_opt (f_settings r)) (refs_of (meaning x)) <-> Forall (fun r => opt_all (fun st => distinct_keys (rs_attributes st)) (ir_settings r)) (all_refs x)).
  { rewrite <- settings_refs, refs_same, Forall_map. apply forall_iff_in. intros r _. apply (once_opt_same rs_attributes). }
  assert (Rl : Forall (fun r => opt_all (fun st => distinct_keys (rs_attributes st)) (ir_settings r)) (all_refs x) ->
    (Forall (valid_link (tables_of (meaning x))) (links (meaning x)) <-> Forall (ref_wf (tables x)) (all_refs x))).
  { intros Hs. rewrite links_same, tables_same, Forall_map. apply forall_iff_in. intros r Hr. rewrite (link_same inp _ r Kt). unfold ref_wf.
    rewrite Forall_forall in Hs. specialize (Hs r Hr). tauto. }
  assert (Rc : (forall l1 k l2, links (meaning x) = l1 ++ k :: l2 -> k_rel k <> Undef /\ forall o, In o (l1 ++ l2) -> ~ clash (tables_of (meaning x)) k o) <-> no_clash (tables x) (all_refs x)).
  { rewrite links_same, tables_same. unfold no_clash. split.
    - intros H l1 r l2 E. destruct (H (map e_link l1) (e_link r) (map e_link l2)) as [H1 H2]; [rewrite E, map_app; reflexivity|]. split; [exact H1|].
      intros o Ho Hc. apply (H2 (e_link o)); [rewrite <- map_app; apply in_map; exact Ho|]. apply clash_same. exact Hc.
    - intros H l1 k l2 E. apply map_split in E as (m1 & r & m2 & Em & -> & -> & ->). destruct (H m1 r m2 Em) as [H1 H2]. split; [exact H1|].
      intros o Ho Hc. rewrite <- map_app in Ho. apply in_map_iff in Ho as (q & <- & Hq). apply (H2 q Hq). apply clash_same. exact Hc. }
  split.
  - intros (W1 & (W2 & W3 & W4) & (W5 & W6) & (W7 & W8) & W9 & W10 & W11 & W12).
    assert (Hs : Forall (fun r => opt_all (fun st => distinct_keys (rs_attributes st)) (ir_settings r)) (all_refs x)).
    { eapply Forall_impl; [|exact W11]. intros r H. apply H. }
    constructor.
    + apply P. exact W1.
    + rewrite Tn. exact W2.
    + rewrite Ta. exact W3.
    + apply Tt. exact W4.
    + rewrite En. exact W5.
    + apply Ev. exact W6.
    + rewrite Gn. exact W7.
    + apply Gi. exact W8.
    + apply Tk. exact W9.
    + apply Ty; [|exact W9|exact W10]. apply Tt in W4. eapply Forall_impl; [|exact W4]. intros t H. apply H.
    + apply Rs. exact Hs.
    + apply Rl; assumption.
    + apply Rc. exact W12.
  - intros [V1 V2 V3 V4 V5 V6 V7 V8 V9 V10 V11 V12 V13].
    rewrite Tn in V2. rewrite Ta in V3. rewrite En in V5. rewrite Gn in V7.
    split; [apply P; exact V1|]. split; [split; [exact V2|split; [exact V3|apply Tt; exact V4]]|].
    split; [split; [exact V5|apply Ev; exact V6]|]. split; [split; [exact V7|apply Gi; exact V8]|].
    split; [apply Tk; exact V9|]. split; [apply Ty; [|apply Tk; exact V9|exact V10]|].
    { eapply Forall_impl; [|exact V4]. intros t H. apply H. }
    split; [apply Rl; [apply Rs; exact V11|exact V12]|]. apply Rc. exact V13.
Qed.

(** ** Overridden blocks do not count *)
Lemma last_only_idem {A} (l : list A) : last_only (last_only l) = last_only l.
Proof. induction l as [|a [|b l] IH]; [reflexivity|reflexivity|]. exact IH. Qed.
Definition kept_table (t : a_table) : a_table :=
  mkATable (t_schema t) (t_name t) (t_alias t) (t_settings t) (t_cols t) (last_only (t_notes t)) (last_only (t_indexes t)).
Lemma pick_settle {B} (f : a_block -> option B) (g : B -> B) a : (forall b, f (settle_block b) = option_map g (f b)) -> pick f (settle a) = map g (pick f a).
Proof.
  intros H. unfold settle. rewrite pick_map. unfold pick. induction a as [|b a IH]; [reflexivity|]. cbn [flat_map]. rewrite IH, map_app, H.
  destruct (f b); reflexivity.
Qed.
Lemma settle_tables a : tables_of (settle a) = map kept_table (tables_of a).
Proof. unfold tables_of. apply pick_settle. intros []; reflexivity. Qed.
Lemma settle_enums a : enums_of (settle a) = enums_of a.
Proof. unfold enums_of. rewrite (pick_settle _ (fun e => e)); [apply map_id|]. intros []; reflexivity. Qed.
Lemma settle_refs a : refs_of (settle a) = refs_of a.
Proof. unfold refs_of. rewrite (pick_settle _ (fun e => e)); [apply map_id|]. intros []; reflexivity. Qed.
Lemma settle_groups a : groups_of (settle a) = map (fun g => mkAGroup (g_name g) (g_settings g) (last_only (g_notes g)) (g_items g)) (groups_of a).
Proof. unfold groups_of. apply pick_settle. intros []; reflexivity. Qed.
Lemma settle_projects a : projects_of (settle a) = map (fun p => mkAProject (p_name p) (p_props p) (last_only (p_notes p))) (projects_of a).
Proof. unfold projects_of. apply pick_settle. intros []; reflexivity. Qed.
