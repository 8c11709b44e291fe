(** * CharsAn: the analyzer on an AST with characters without a meaning replaced. *)

From Verif Require Import Analyzer CharsLoc.
From Verif Require Import Syntax CharsAst.

Section An.
Variable f : char -> char.
Variable inp : str.
Hypothesis Hf : respells f.
Hypothesis Hi : forall c d, f c = f d -> c = d.
Hypothesis Hu : forall c, ulen (f c) = ulen c.
Notation inp' := (map f inp).
Notation M := (map f).
Let m_id' := m_id f Hf.

(** What is returned may be of another kind than [sp_outcome] covers. *)
Definition mo {A B} (g : A -> B) (o : outcome A) : outcome B :=
  match o with Ok a => Ok (g a) | Err (ErSem e sp) => Err (ErSem (sp_sem f e) sp) | Err e => Err e | Panic => Panic end.

Lemma m_drop x : forall n, drop_bytes (M x) n = option_map M (drop_bytes x n).
Proof. induction x as [|c x IH]; intros n; cbn; destruct (n =? 0); try reflexivity. rewrite Hu. destruct (n <? ulen c); [reflexivity|apply IH]. Qed.
Lemma m_take x : forall n, take_bytes (M x) n = option_map M (take_bytes x n).
Proof. induction x as [|c x IH]; intros n; cbn; destruct (n =? 0); try reflexivity. rewrite Hu. destruct (n <? ulen c); [reflexivity|]. rewrite IH. destruct (take_bytes x (n - ulen c)); reflexivity. Qed.
Lemma fok sp : span_ok inp' sp = span_ok inp sp.
Proof.
  unfold span_ok, slice. destruct (_ <=? _); [|reflexivity]. rewrite m_drop. destruct (drop_bytes inp (fst sp)) as [y|]; [|reflexivity]. cbn. rewrite m_take.
  destruct (take_bytes y _); reflexivity.
Qed.
Lemma thr {A B} (g : A -> B) e e' sp sp' : e' = sp_sem f e -> sp' = sp -> @throw_err B e' sp' inp' = mo g (throw_err e sp inp).
Proof. intros -> ->. unfold throw_err. rewrite fok. destruct (span_ok inp sp); reflexivity. Qed.
Lemma bd {A A' B B'} (g : A -> A') (h : B -> B') (x : outcome A) x' (F : A -> outcome B) F' : x' = mo g x -> (forall a, F' (g a) = mo h (F a)) -> bind x' F' = mo h (bind x F).
Proof. intros -> H. destruct x as [a|[]|]; cbn; auto. Qed.
Lemma iff_b {A B} (g : A -> B) (b b' : bool) x y x' y' : b' = b -> x' = mo g x -> y' = mo g y -> (if b' then x' else y') = mo g (if b then x else y).
Proof. intros -> -> ->. destruct b; reflexivity. Qed.
Lemma tf {A A' B B'} (m : A -> A') (g : B -> B') (F : B -> A -> outcome B) F' l : (forall acc a, F' (g acc) (m a) = mo g (F acc a)) ->
  forall acc acc', acc' = g acc -> try_fold F' (map m l) acc' = mo g (try_fold F l acc).
Proof. intros H. induction l as [|a l IH]; intros acc acc' ->; [reflexivity|]. cbn [map try_fold]. apply (bd g); auto. Qed.
Lemma tm {A A' B B'} (m : A -> A') (h : B -> B') (F : A -> outcome B) F' l : (forall a, F' (m a) = mo h (F a)) -> try_map F' (map m l) = mo (map h) (try_map F l).
Proof. intros H. induction l as [|a l IH]; [reflexivity|]. cbn [map try_map]. apply (bd h); [apply H|]. intros b. apply (bd (map h)); [exact IH|]. reflexivity. Qed.
Lemma find_map {A A'} (m : A -> A') (p : A -> bool) p' l : (forall a, p' (m a) = p a) -> find p' (map m l) = option_map m (find p l).
Proof. intros H. induction l as [|a l IH]; [reflexivity|]. cbn [map find]. rewrite H. destruct (p a); auto. Qed.
Lemma existsb_map {A A'} (m : A -> A') (p : A -> bool) p' l : (forall a, p' (m a) = p a) -> existsb p' (map m l) = existsb p l.
Proof. intros H. induction l as [|a l IH]; [reflexivity|]. cbn [map existsb]. rewrite H, IH. reflexivity. Qed.
Lemma forallb_map {A A'} (m : A -> A') (p : A -> bool) p' l : (forall a, p' (m a) = p a) -> forallb p' (map m l) = forallb p l.
Proof. intros H. induction l as [|a l IH]; [reflexivity|]. cbn [map forallb]. rewrite H, IH. reflexivity. Qed.
Lemma flat_map_map' {A A' B B'} (m : A -> A') (h : B -> B') (p : A -> list B) p' l : (forall a, p' (m a) = map h (p a)) -> flat_map p' (map m l) = map h (flat_map p l).
Proof. intros H. induction l as [|a l IH]; [reflexivity|]. cbn [map flat_map]. rewrite map_app, H, IH. reflexivity. Qed.
Lemma filter_map_map {A A' B B'} (m : A -> A') (h : B -> B') (p : A -> option B) p' l : (forall a, p' (m a) = option_map h (p a)) -> filter_map p' (map m l) = map h (filter_map p l).
Proof. intros H. unfold filter_map. apply flat_map_map'. intros a. rewrite H. destruct (p a); reflexivity. Qed.
Lemma is_nil_map {A B} (g : A -> B) l : is_nil (map g l) = is_nil l.
Proof. destruct l; reflexivity. Qed.

(** ** Comparing *)
Lemma se a b : str_eqb (M a) (M b) = str_eqb a b.
Proof.
  revert b. induction a as [|c a IH]; intros [|d b]; try reflexivity. cbn [map str_eqb]. rewrite IH. f_equal.
  destruct (N.eqb_spec c d) as [->|E]; [apply N.eqb_refl|]. apply N.eqb_neq. intros K. apply Hi in K. contradiction.
Qed.
Lemma sew a w : Forall special w -> str_eqb (M a) w = str_eqb a w.
Proof. intros H. rewrite <- (m_id' w H) at 1. apply se. Qed.
Lemma wse a w : Forall special w -> str_eqb w (M a) = str_eqb w a.
Proof. intros H. rewrite <- (m_id' w H) at 1. apply se. Qed.
Lemma mem k l : mem_str (M k) (map M l) = mem_str k l.
Proof. unfold mem_str. apply existsb_map. intros a. apply se. Qed.
Lemma memw w l : Forall special w -> mem_str w (map M l) = mem_str w l.
Proof. intros H. rewrite <- (m_id' w H) at 1. apply mem. Qed.
Lemma eqe l r : eq_elements (map M l) (map M r) = eq_elements l r.
Proof. unfold eq_elements. f_equal; apply forallb_map; intros a; apply mem. Qed.
Lemma ose a b : opt_str_eqb (option_map M a) (option_map M b) = opt_str_eqb a b.
Proof. destruct a, b; try reflexivity. apply se. Qed.
Lemma leq l r : list_eqb str_eqb (map M l) (map M r) = list_eqb str_eqb l r.
Proof. revert r. induction l as [|a l IH]; intros [|b r]; try reflexivity. cbn [map list_eqb]. rewrite se, IH. reflexivity. Qed.
Lemma get_m {V} (g : V -> V) m k : map_get (sp_map f g m) (M k) = option_map g (map_get m k).
Proof.
  induction m as [|[k' v] m IH]; [reflexivity|]. change (sp_map f g ((k', v) :: m)) with ((M k', g v) :: sp_map f g m). cbn [map_get]. rewrite se, IH.
  destruct (str_eqb k k'); reflexivity.
Qed.
Lemma ins_m {V} (g : V -> V) m k v : map_insert (sp_map f g m) (M k) (g v) = sp_map f g (map_insert m k v).
Proof.
  induction m as [|[k' v'] m IH]; [reflexivity|]. change (sp_map f g ((k', v') :: m)) with ((M k', g v') :: sp_map f g m). cbn [map_insert]. rewrite se.
  destruct (str_eqb k k'); [reflexivity|]. rewrite IH. reflexivity.
Qed.
Lemma cont_m {V} (g : V -> V) m k : map_contains (sp_map f g m) (M k) = map_contains m k.
Proof. unfold map_contains. rewrite get_m. destruct (map_get m k); reflexivity. Qed.
Lemma pub : M DEFAULT_SCHEMA = DEFAULT_SCHEMA.
Proof. apply m_id'. nnl. Qed.
Lemma sod o : schema_or_default (option_map (sp_ident f) o) = M (schema_or_default o).
Proof. destruct o; [reflexivity|]. cbn. symmetry. apply pub. Qed.
Lemma map_id_str l : map id_str (map (sp_ident f) l) = map M (map id_str l).
Proof. rewrite !map_map. reflexivity. Qed.
Lemma om_id_str o : option_map id_str (option_map (sp_ident f) o) = option_map M (option_map id_str o).
Proof. destruct o; reflexivity. Qed.
Lemma dup_map {A} (m : A -> A) (key : A -> str) l : (forall a, key (m a) = M (key a)) -> forall seen, first_dup key (map M seen) (map m l) = option_map m (first_dup key seen l).
Proof.
  intros H. induction l as [|a l IH]; intros seen; [reflexivity|]. cbn [map first_dup]. rewrite H, mem. destruct (mem_str (key a) seen); [reflexivity|].
  exact (IH (key a :: seen)).
Qed.

Lemma dup_map0 {A} (m : A -> A) (key : A -> str) l : (forall a, key (m a) = M (key a)) -> first_dup key [] (map m l) = option_map m (first_dup key [] l).
Proof. intros H. exact (dup_map m key l H []). Qed.

(** ** Helpers *)
Notation id1 := (fun x : unit => x).
Lemma an_attrs l : check_attr_duplicate_keys (map (sp_attr f) l) inp' = mo id1 (check_attr_duplicate_keys l inp).
Proof. unfold check_attr_duplicate_keys. rewrite (dup_map0 (sp_attr f) attr_key l (fun _ => eq_refl)). destruct (first_dup attr_key [] l); [apply thr|]; reflexivity. Qed.
Lemma an_props l : check_prop_duplicate_keys (map (sp_prop f) l) inp' = mo id1 (check_prop_duplicate_keys l inp).
Proof. unfold check_prop_duplicate_keys. rewrite (dup_map0 (sp_prop f) prop_key l (fun _ => eq_refl)). destruct (first_dup prop_key [] l); [apply thr|]; reflexivity. Qed.
Lemma an_opt {S} (g : S -> S) (at_ : S -> list attribute_t) o : (forall x, at_ (g x) = map (sp_attr f) (at_ x)) ->
  check_opt_attrs at_ (option_map g o) inp' = mo id1 (check_opt_attrs at_ o inp).
Proof. intros H. destruct o as [x|]; [|reflexivity]. cbn [option_map check_opt_attrs]. rewrite H. apply an_attrs. Qed.

(** ** The index *)
Lemma an_cols l : index_cols (map (sp_col f) l) inp' = mo (map M) (index_cols l inp).
Proof.
  unfold index_cols. apply tf; [|reflexivity]. intros acc c. apply (bd id1); [apply an_opt; reflexivity|]. intros _. apply iff_b; [apply mem|apply thr; reflexivity|reflexivity].
Qed.
Lemma has_table ix sch n : contains_table (sp_indexer f ix) (M sch) (M n) = contains_table ix sch n.
Proof. unfold contains_table. cbn [sp_indexer schema_map]. rewrite get_m. destruct (map_get (schema_map ix) sch) as [b|]; [|reflexivity]. cbn. apply cont_m. Qed.
Lemma has_enum ix sch n : contains_enum (sp_indexer f ix) (M sch) (M n) = contains_enum ix sch n.
Proof. unfold contains_enum. cbn [sp_indexer schema_map]. rewrite get_m. destruct (map_get (schema_map ix) sch) as [b|]; [|reflexivity]. cbn. apply cont_m. Qed.
Lemma entry ix sch : schema_entry (sp_indexer f ix) (M sch) = sp_ischema f (schema_entry ix sch).
Proof. unfold schema_entry. cbn [sp_indexer schema_map]. rewrite get_m. destruct (map_get (schema_map ix) sch); reflexivity. Qed.
Lemma an_table1 ix t : index_table1 inp' (sp_indexer f ix) (sp_table f t) = mo (sp_indexer f) (index_table1 inp ix t).
Proof.
  unfold index_table1. apply (bd id1); [apply an_opt; reflexivity|]. intros _. cbn [tb_ident sp_table ti_schema sp_table_ident ti_name id_str sp_ident ti_span tb_cols ti_alias]. rewrite sod.
  apply (bd id1); [apply iff_b; [apply has_table|apply thr; reflexivity|reflexivity]|]. intros _.
  apply (bd (map M)); [apply an_cols|]. intros cols. rewrite entry.
  set (b := schema_entry ix _). set (sch := schema_or_default _). set (nm := id_str (ti_name _)).
  assert (E : map_insert (schema_map (sp_indexer f ix)) (M sch) (mkIndexedSchema (map_insert (table_map (sp_ischema f b)) (M nm) (map M cols)) (enum_map (sp_ischema f b)))
    = sp_map f (sp_ischema f) (map_insert (schema_map ix) sch (mkIndexedSchema (map_insert (table_map b) nm cols) (enum_map b)))).
  { cbn [sp_indexer schema_map sp_ischema table_map enum_map]. rewrite (ins_m (map M) (table_map b)). symmetry. rewrite <- ins_m. reflexivity. }
  rewrite E. destruct (ti_alias (tb_ident t)) as [a|]; [|reflexivity]. cbn [option_map sp_ident id_str id_span].
  change (table_alias_map (sp_indexer f ix)) with (sp_map f (sp_names f) (table_alias_map ix)). rewrite cont_m.
  apply iff_b; [reflexivity|apply thr; reflexivity|]. cbn [mo]. unfold sp_indexer at 2. cbn [table_group_map schema_map table_alias_map]. rewrite <- (ins_m (sp_names f)). reflexivity.
Qed.
Lemma an_enum_values l : index_enum_values (map (sp_enum_value f) l) inp' = mo (map M) (index_enum_values l inp).
Proof.
  unfold index_enum_values. apply tf; [|reflexivity]. intros acc c. apply (bd id1); [apply an_opt; reflexivity|]. intros _. apply iff_b; [apply mem|apply thr; reflexivity|reflexivity].
Qed.
Lemma an_enum1 ix e : index_enum1 inp' (sp_indexer f ix) (sp_enum f e) = mo (sp_indexer f) (index_enum1 inp ix e).
Proof.
  unfold index_enum1. cbn [en_ident sp_enum ei_schema sp_enum_ident ei_name id_str sp_ident ei_span en_values]. rewrite sod.
  apply (bd id1); [apply iff_b; [apply has_enum|apply thr; reflexivity|reflexivity]|]. intros _.
  apply (bd (map M)); [apply an_enum_values|]. intros vals. rewrite entry. cbn [mo sp_indexer schema_map table_group_map table_alias_map]. unfold sp_indexer. cbn [schema_map table_group_map table_alias_map]. do 2 f_equal.
  rewrite <- (ins_m (sp_ischema f)). f_equal. unfold sp_ischema. cbn [table_map enum_map]. rewrite (ins_m (map M)). reflexivity.
Qed.
Lemma alias_m ix a : resolve_alias (sp_indexer f ix) (M a) = option_map (sp_names f) (resolve_alias ix a).
Proof. unfold resolve_alias. cbn [sp_indexer table_alias_map]. apply get_m. Qed.
Lemma an_item ix it : resolve_group_item (sp_indexer f ix) (sp_group_item f it) inp' = mo (sp_names f) (resolve_group_item ix it inp).
Proof.
  unfold resolve_group_item. cbn [gi_ident_alias sp_group_item id_str sp_ident gi_schema gi_span].
  destruct (gi_schema it); [reflexivity|]. cbn [option_map]. rewrite alias_m. destruct (resolve_alias ix (id_str (gi_ident_alias it))); [reflexivity|]. cbn [option_map].
  apply iff_b; [rewrite <- pub at 1; apply has_table| |apply thr; reflexivity]. cbn [mo]. unfold sp_names. cbn [fst snd]. rewrite pub. reflexivity.
Qed.
Lemma pm x l : pair_mem (sp_names f x) (map (sp_names f) l) = pair_mem x l.
Proof. unfold pair_mem. apply existsb_map. intros a. cbn. rewrite !se. reflexivity. Qed.
Lemma an_group1 ix g : index_table_group1 inp' (sp_indexer f ix) (sp_group f g) = mo (sp_indexer f) (index_table_group1 inp ix g).
Proof.
  unfold index_table_group1. cbn [tg_ident sp_group id_str sp_ident id_span tg_items].
  apply (bd id1); [apply iff_b; [apply cont_m|apply thr; reflexivity|reflexivity]|]. intros _.
  apply (bd (map (sp_names f))); [|intros items; cbn [mo]; unfold sp_indexer; cbn; rewrite ins_m; reflexivity].
  apply tf; [|reflexivity]. intros acc it. apply (bd (sp_names f)); [apply an_item|]. intros id. apply iff_b; [apply pm|apply thr; reflexivity|reflexivity].
Qed.

(** ** Tables *)
Definition sp_ti (ti : table_indexer) : table_indexer :=
  mkTableIndexer (map M (pk_list ti)) (map (map M) (unique_list ti)) (map (fun p => (map M (fst p), snd p)) (indexed_list ti)).
Lemma an_col_settings ti c : check_col_settings inp' (sp_ti ti) (sp_col f c) = mo sp_ti (check_col_settings inp ti c).
Proof.
  unfold check_col_settings. cbn [tc_settings sp_col tc_span tc_name id_str sp_ident tc_type sp_type ct_arrays].
  destruct (tc_settings c) as [st|]; [|reflexivity]. cbn [option_map sp_col_settings cs_is_pk cs_is_unique cs_nullable cs_attributes cs_span].
  apply (bd sp_ti).
  - apply iff_b; [reflexivity| |reflexivity]. cbn [sp_ti pk_list]. rewrite is_nil_map. apply iff_b; [reflexivity|apply thr; reflexivity|]. apply iff_b; [reflexivity|apply thr; reflexivity|].
    apply iff_b; [reflexivity|apply thr; reflexivity|]. cbn [mo]. unfold sp_ti. cbn. rewrite map_app. reflexivity.
  - intros ti'. apply iff_b; [|apply thr; reflexivity|].
    + unfold conflict_nullable. rewrite map_map. change (fun x => attr_key (sp_attr f x)) with (fun x => M (attr_key x)). rewrite <- (map_map attr_key M).
      rewrite !memw by nnl. reflexivity.
    + cbn [mo]. destruct (cs_is_unique st); [|reflexivity]. unfold sp_ti. cbn. rewrite map_app. reflexivity.
Qed.
Lemma an_index_cols t l : check_index_cols (sp_table f t) inp' (map (sp_index_col f) l) = mo id1 (check_index_cols t inp l).
Proof.
  unfold check_index_cols. apply tf; [|reflexivity]. intros _ [i|v]; [|reflexivity]. cbn [sp_index_col tb_cols sp_table id_str sp_ident id_span].
  apply iff_b; [|reflexivity|apply thr; reflexivity]. apply existsb_map. intros a. apply se.
Qed.
Lemma an_idx_names l : filter_map idx_col_name (map (sp_index_col f) l) = map M (filter_map idx_col_name l).
Proof. apply filter_map_map. intros []; reflexivity. Qed.
Lemma an_index_def t ib ti d : check_index_def (sp_table f t) (sp_indexes f ib) inp' (sp_ti ti) (sp_index f d) = mo sp_ti (check_index_def t ib inp ti d).
Proof.
  unfold check_index_def. cbn [idf_cols sp_index idf_settings idf_span ib_span sp_indexes]. rewrite is_nil_map, an_idx_names.
  apply (bd id1); [apply iff_b; [reflexivity|apply thr; reflexivity|reflexivity]|]. intros _.
  apply (bd id1); [apply an_index_cols|]. intros _. destruct (idf_settings d) as [st|]; cbn [option_map].
  - cbn [sp_index_settings is_attributes is_is_pk is_is_unique is_type is_span].
    apply (bd id1); [apply an_attrs|]. intros _. apply (bd id1); [apply iff_b; [reflexivity|apply thr; reflexivity|reflexivity]|]. intros _.
    apply (bd sp_ti).
    + apply iff_b; [reflexivity| |].
      * cbn [sp_ti pk_list]. rewrite is_nil_map. apply iff_b; [reflexivity|apply thr; reflexivity|]. cbn [mo]. unfold sp_ti. cbn. rewrite map_app. reflexivity.
      * apply iff_b; [reflexivity| |reflexivity]. apply iff_b; [|apply thr; reflexivity|].
        -- cbn [sp_ti unique_list]. apply existsb_map. intros u. apply forallb_map. intros a. apply mem.
        -- cbn [mo]. unfold sp_ti. cbn. rewrite map_app. reflexivity.
    + intros ti'. apply iff_b; [reflexivity| |reflexivity]. apply iff_b; [|apply thr; reflexivity|].
      * cbn [sp_ti indexed_list]. apply existsb_map. intros u. cbn. rewrite leq. reflexivity.
      * cbn [mo]. unfold sp_ti. cbn. rewrite map_app. reflexivity.
  - apply iff_b; [|apply thr; reflexivity|].
    + cbn [sp_ti indexed_list]. apply existsb_map. intros u. cbn. apply leq.
    + cbn [mo]. unfold sp_ti. cbn. rewrite map_app. reflexivity.
Qed.
Lemma an_inlines t c : col_inline_refs (sp_table f t) (sp_col f c) = map (sp_iref f) (col_inline_refs t c).
Proof.
  unfold col_inline_refs, from_inline. cbn [tc_settings sp_col]. destruct (tc_settings c) as [st|]; [|reflexivity].
  cbn [option_map sp_col_settings cs_refs]. rewrite !map_map. apply map_ext. reflexivity.
Qed.
Lemma an_table t : check_table inp' (sp_table f t) = mo (map (sp_iref f)) (check_table inp t).
Proof.
  unfold check_table. apply (bd sp_ti).
  - cbn [tb_cols sp_table]. apply tf; [apply an_col_settings|reflexivity].
  - intros ti. apply (bd id1).
    + cbn [tb_indexes sp_table]. destruct (tb_indexes t) as [ib|]; [|reflexivity]. cbn [option_map].
      change (ib_defs (sp_indexes f ib)) with (map (sp_index f) (ib_defs ib)).
      rewrite (tf (sp_index f) sp_ti (check_index_def t ib inp) _ _ (fun acc d => an_index_def t ib acc d) ti) by reflexivity.
      destruct (try_fold (check_index_def t ib inp) (ib_defs ib) ti) as [a|[]|]; reflexivity.
    + intros _. cbn [tb_cols sp_table mo]. f_equal. apply flat_map_map'. apply an_inlines.
Qed.

(** ** Types and defaults *)
Notation sp_tn := (sp_tn f).
Lemma an_default_span l : default_span (map (sp_attr f) l) = default_span l.
Proof.
  unfold default_span. rewrite (find_map _ (fun a => str_eqb (attr_key a) (s "default"))) by (intros a; apply sew; nnl).
  destruct (find _ l) as [a|]; [|reflexivity]. cbn [option_map sp_attr at_value]. destruct (at_value a); reflexivity.
Qed.
Lemma an_type_args tn raw ct : check_type_args tn (M raw) (sp_type f ct) inp' = mo id1 (check_type_args tn raw ct inp).
Proof.
  unfold check_type_args. cbn [ct_args sp_type ct_span]. rewrite is_nil_map, map_length. destruct (is_nil (ct_args ct)); [reflexivity|].
  apply (bd id1); [|intros _; apply iff_b; [f_equal; apply forallb_map; intros []; reflexivity|apply thr; reflexivity|reflexivity]].
  destruct tn; try (apply thr; reflexivity); apply iff_b; try reflexivity; apply thr; reflexivity.
Qed.
Lemma split_m x : split_on 46 (M x) = map M (split_on 46 x).
Proof.
  induction x as [|c x IH]; [reflexivity|]. cbn [map split_on]. assert (E : (f c =? 46) = (c =? 46)).
  { pose proof (sew [c] [46] ltac:(nnl)) as K. cbn in K. rewrite !andb_true_r in K. exact K. }
  rewrite E, IH. destruct (c =? 46); [reflexivity|]. destruct (split_on 46 x); reflexivity.
Qed.
Lemma look_m ix (sch : option str) (n v : str) : lookup_enum_values (sp_indexer f ix) (option_map M sch) (M n) (@cons str (M v) (@nil str)) = lookup_enum_values ix sch n (@cons str v (@nil str)).
Proof.
  unfold lookup_enum_values. destruct sch as [sc|]; cbn [option_map]; [|rewrite <- pub at 1];
  cbn [sp_indexer schema_map]; rewrite get_m; (destruct (map_get (schema_map ix) _) as [b|]; [|reflexivity]); cbn [option_map sp_ischema enum_map]; rewrite get_m;
  (destruct (map_get (enum_map b) n) as [set|]; [|reflexivity]); cbn [option_map map]; rewrite mem; reflexivity.
Qed.
Lemma an_enum_type ix c raw : check_enum_type (sp_indexer f ix) (sp_col f c) (M raw) inp' = mo sp_tn (check_enum_type ix c raw inp).
Proof.
  unfold check_enum_type. apply (bd (fun q : option str * str => (option_map M (fst q) : option str, M (snd q) : str))).
  - cbn [sp_col tc_type sp_type ct_span]. rewrite split_m. destruct (split_on 46 raw) as [|a [|b [|? ?]]]; cbn [map]; try (apply thr; reflexivity); reflexivity.
  - intros [es en]. cbn [sp_col tc_settings tc_type sp_type ct_span fst snd]. destruct (tc_settings c) as [st|]; [|reflexivity]. cbn [option_map sp_col_settings cs_default cs_attributes].
    destruct (cs_default st) as [dv|]; [|reflexivity]. rewrite an_default_span. destruct (default_span (cs_attributes st)) as [sp|]; [|reflexivity].
    cbn [option_map]. rewrite (text_m f Hf), look_m. destruct (lookup_enum_values ix es en [value_to_string dv]) as [[|] [[|] l]]; try (apply thr; reflexivity).
    apply iff_b; [reflexivity|apply thr; reflexivity|reflexivity].
Qed.
Lemma builtin_m raw : col_type_name_from_str (M raw) = col_type_name_from_str raw.
Proof.
  unfold col_type_name_from_str. assert (H : Forall (fun p => Forall special (s (fst p))) col_type_table).
  { unfold col_type_table. repeat (constructor; [cbn [fst]; nnl|]). constructor. }
  assert (E : find (fun p => str_eqb (M raw) (s (fst p))) col_type_table = find (fun p => str_eqb raw (s (fst p))) col_type_table); [|rewrite E; reflexivity].
  induction H as [|p l Hp Hl IH]; [reflexivity|]. cbn [find]. rewrite (sew raw _ Hp), IH. reflexivity.
Qed.
Lemma builtin_plain raw tn : col_type_name_from_str raw = Some tn -> sp_tn tn = tn.
Proof.
  unfold col_type_name_from_str. destruct (find _ _) as [[w t]|] eqn:E; [|discriminate]. intros [= <-]. apply find_some in E as [E _].
  assert (H : Forall (fun p => sp_tn (snd p) = snd p) col_type_table) by (unfold col_type_table; repeat (constructor; [reflexivity|]); constructor).
  rewrite Forall_forall in H. exact (H _ E).
Qed.
Lemma an_resolve ix c : resolve_col_type (sp_indexer f ix) (sp_col f c) inp' = mo sp_tn (resolve_col_type ix c inp).
Proof.
  unfold resolve_col_type. change (ct_type_name (tc_type (sp_col f c))) with (sp_tn (ct_type_name (tc_type c))). destruct (ct_type_name (tc_type c)); try reflexivity.
  cbn [sp_tn]. rewrite builtin_m. destruct (col_type_name_from_str x) as [tn|] eqn:E; [|apply an_enum_type]. apply (bd id1); [apply an_type_args|].
  intros _. cbn [mo]. rewrite (builtin_plain _ _ E). reflexivity.
Qed.
Lemma an_default tn c st dv sp : check_default (sp_tn tn) (sp_col f c) (sp_col_settings f st) (r_value f dv) sp inp' = mo id1 (check_default tn c st dv sp inp).
Proof.
  unfold check_default. cbn [sp_col tc_type sp_type ct_raw ct_args sp_col_settings cs_nullable].
  destruct dv; cbn [r_value]; try reflexivity.
  - destruct tn; cbn [sp_tn]; try reflexivity; destruct (ct_args (tc_type c)) as [|[]]; cbn [map r_value]; try reflexivity; rewrite (blen_m f Hu); apply iff_b; try reflexivity; apply thr; reflexivity.
  - destruct tn; cbn [sp_tn]; try reflexivity; apply iff_b; try reflexivity; apply thr; reflexivity.
  - destruct tn; cbn [sp_tn]; try reflexivity; apply thr; try reflexivity; cbn [sp_sem]; f_equal; symmetry; apply m_id'; destruct b; nnl.
  - apply iff_b; try reflexivity. apply thr; reflexivity.
Qed.
Lemma an_col_type ix c : check_col_type (sp_indexer f ix) inp' (sp_col f c) = mo (sp_col f) (check_col_type ix inp c).
Proof.
  unfold check_col_type. apply (bd sp_tn); [apply an_resolve|]. intros tn. apply (bd id1); [|reflexivity].
  change (tc_settings (sp_col f c)) with (option_map (sp_col_settings f) (tc_settings c)). destruct (tc_settings c) as [st|]; [|reflexivity]. cbn [option_map].
  change (cs_default (sp_col_settings f st)) with (option_map (r_value f) (cs_default st)). destruct (cs_default st) as [dv|]; [|reflexivity]. cbn [option_map].
  change (cs_attributes (sp_col_settings f st)) with (map (sp_attr f) (cs_attributes st)). rewrite an_default_span.
  destruct (default_span (cs_attributes st)) as [sp|]; [|reflexivity]. apply an_default.
Qed.
Lemma an_table_types ix t : check_table_types (sp_indexer f ix) inp' (sp_table f t) = mo (sp_table f) (check_table_types ix inp t).
Proof.
  unfold check_table_types. apply (bd (map (sp_col f))); [cbn [tb_cols sp_table]; apply tm; apply an_col_type|]. reflexivity.
Qed.

(** ** References *)
Lemma an_alias ix r : resolve_ref_alias (sp_indexer f ix) (sp_end f r) = sp_end f (resolve_ref_alias ix r).
Proof.
  unfold resolve_ref_alias. cbn [ri_table sp_end id_str sp_ident]. rewrite alias_m. destruct (resolve_alias ix (id_str (ri_table r))) as [[a b]|]; reflexivity.
Qed.
Lemma an_fields ix sch t l : lookup_table_fields (sp_indexer f ix) (option_map (sp_ident f) sch) (sp_ident f t) (map (sp_ident f) l) inp' = mo id1 (lookup_table_fields ix sch t l inp).
Proof.
  unfold lookup_table_fields. rewrite sod. cbn [id_str sp_ident id_span sp_indexer schema_map]. rewrite get_m. destruct (map_get (schema_map ix) (schema_or_default sch)) as [b|]; cbn [option_map].
  - cbn [sp_ischema table_map]. rewrite get_m. destruct (map_get (table_map b) (id_str t)) as [cols|]; cbn [option_map]; [|apply thr; reflexivity].
    rewrite (find_map _ (fun f0 => negb (mem_str (id_str f0) cols))) by (intros a; f_equal; apply mem). destruct (find _ l) as [i|]; [|reflexivity]. apply thr; reflexivity.
  - apply thr; [reflexivity|]. destruct sch; reflexivity.
Qed.
Lemma same_m a b c d : same_table (option_map (sp_ident f) a) (sp_ident f b) (option_map (sp_ident f) c) (sp_ident f d) = same_table a b c d.
Proof. unfold same_table. cbn [sp_ident id_str]. rewrite !om_id_str, ose, se. reflexivity. Qed.
Lemma an_find_table ts r : find_ref_table (map (sp_table f) ts) (sp_end f r) inp' = mo (sp_table f) (find_ref_table ts r inp).
Proof.
  unfold find_ref_table. rewrite (find_map _ (fun t => same_table (ti_schema (tb_ident t)) (ti_name (tb_ident t)) (ri_schema r) (ri_table r))).
  - destruct (find _ ts) as [t|]; [reflexivity|]. apply thr; reflexivity.
  - intros t. apply same_m.
Qed.
Lemma an_find_col c t : find_ref_col (sp_ident f c) (sp_table f t) inp' = mo (sp_col f) (find_ref_col c t inp).
Proof.
  unfold find_ref_col. cbn [tb_cols sp_table]. rewrite (find_map _ (fun col => str_eqb (id_str (tc_name col)) (id_str c))) by (intros a; apply se).
  destruct (find _ (tb_cols t)) as [col|]; [reflexivity|]. apply thr; reflexivity.
Qed.
Lemma an_composite l o : is_valid_composite (map (sp_ident f) l) (option_map (sp_indexes f) o) = is_valid_composite l o.
Proof.
  destruct o as [b|]; [|reflexivity]. cbn [option_map is_valid_composite ib_defs sp_indexes]. apply existsb_map. intros d.
  cbn [sp_index idf_cols idf_settings]. rewrite !map_length, map_id_str, an_idx_names, eqe. destruct (idf_settings d); reflexivity.
Qed.
Lemma an_throw_fk o : throw_fk o inp' = mo id1 (throw_fk o inp).
Proof. destruct o as [[e sp]|]; [apply thr|]; reflexivity. Qed.
Lemma an_single r a b : single_fk_err (sp_iref f r) a b = single_fk_err r a b.
Proof. unfold single_fk_err. cbn [sp_iref ir_rel]. destruct (ir_rel r), a, b; reflexivity. Qed.
Lemma an_composite_err r a b : composite_fk_err (sp_iref f r) a b = composite_fk_err r a b.
Proof. unfold composite_fk_err. cbn [sp_iref ir_rel]. destruct (ir_rel r), a, b; reflexivity. Qed.
Lemma an_col_key c : col_key (sp_col f c) = col_key c.
Proof. unfold col_key. cbn [sp_col tc_settings]. destruct (tc_settings c); reflexivity. Qed.
Lemma M_inj a b : M a = M b -> a = b.
Proof. intros H. apply str_eqb_eq. rewrite <- se, H. apply str_eqb_refl. Qed.
Lemma tn_eq a b : col_type_name_eqb (sp_tn a) (sp_tn b) = col_type_name_eqb a b.
Proof.
  unfold col_type_name_eqb. destruct (col_type_name_eq_dec a b) as [->|N]; destruct (col_type_name_eq_dec _ _) as [E|K]; try reflexivity; [congruence|].
  exfalso. apply N. destruct a, b; cbn [sp_tn] in E; try discriminate E; try reflexivity; injection E as E; apply M_inj in E; congruence.
Qed.
Lemma val_eq a b : value_eqb (r_value f a) (r_value f b) = value_eqb a b.
Proof. destruct a, b; try reflexivity; apply se. Qed.
Lemma an_differ a b : col_types_differ (sp_type f a) (sp_type f b) = col_types_differ a b.
Proof.
  unfold col_types_differ. change (ct_type_name (sp_type f a)) with (sp_tn (ct_type_name a)). change (ct_type_name (sp_type f b)) with (sp_tn (ct_type_name b)).
  rewrite tn_eq. cbn [sp_type ct_args ct_arrays]. do 3 f_equal. generalize (ct_args a) (ct_args b). induction l as [|x l IH]; intros [|y r]; try reflexivity.
  cbn [map list_eqb]. rewrite val_eq, IH. reflexivity.
Qed.
Lemma an_pair r lt rt n p : validate_field_pair (sp_iref f r) (sp_table f lt) (sp_table f rt) n inp' tt (sp_ident f (fst p), sp_ident f (snd p))
  = mo id1 (validate_field_pair r lt rt n inp tt p).
Proof.
  destruct p as [l q]. unfold validate_field_pair. cbn [fst snd]. apply (bd (sp_col f)); [apply an_find_col|]. intros lc. apply (bd (sp_col f)); [apply an_find_col|]. intros rc.
  apply (bd id1); [apply iff_b; [apply an_differ|apply thr; reflexivity|reflexivity]|]. intros _. apply iff_b; [reflexivity| |reflexivity].
  rewrite an_single, !an_col_key. apply an_throw_fk.
Qed.
Lemma combine_map {A B C D} (g : A -> C) (h : B -> D) l l' : combine (map g l) (map h l') = map (fun p => (g (fst p), h (snd p))) (combine l l').
Proof. revert l'. induction l as [|a l IH]; intros [|b l']; try reflexivity. cbn [map combine fst snd]. rewrite IH. reflexivity. Qed.
Lemma an_ref_type r ts ix : validate_ref_type (sp_iref f r) (map (sp_table f) ts) (sp_indexer f ix) inp' = mo id1 (validate_ref_type r ts ix inp).
Proof.
  unfold validate_ref_type. cbn [sp_iref ir_lhs ir_rhs]. rewrite !an_alias. cbn [sp_end ri_schema ri_table ri_compositions]. rewrite !map_length.
  apply (bd id1); [apply iff_b; [reflexivity|apply thr; reflexivity|reflexivity]|]. intros _.
  apply (bd id1); [apply an_fields|]. intros _. apply (bd id1); [apply an_fields|]. intros _.
  apply (bd (sp_table f)); [apply an_find_table|]. intros lt. apply (bd (sp_table f)); [apply an_find_table|]. intros rt.
  apply (bd id1).
  - rewrite combine_map. apply tf; [|reflexivity]. intros [] p. apply an_pair.
  - intros _. apply iff_b; [reflexivity| |reflexivity]. cbn [sp_table tb_indexes]. rewrite !an_composite, an_composite_err. apply an_throw_fk.
Qed.
Lemma an_eq_ident a b : eq_ref_ident (sp_end f a) (sp_end f b) = eq_ref_ident a b.
Proof. unfold eq_ref_ident. cbn [sp_end ri_schema ri_table ri_compositions sp_ident id_str]. rewrite !om_id_str, !map_id_str, ose, se, eqe. reflexivity. Qed.
Lemma an_occupy a b ix : occupy_same_column (sp_iref f a) (sp_iref f b) (sp_indexer f ix) = occupy_same_column a b ix.
Proof.
  unfold occupy_same_column, occupied_ident. cbn [sp_iref ir_rel ir_lhs ir_rhs forallb existsb]. rewrite !an_alias.
  destruct (ir_rel a), (ir_rel b); rewrite ?an_eq_ident; try reflexivity; rewrite ?an_alias, ?an_eq_ident; reflexivity.
Qed.
Lemma filter_len {A A'} (m : A -> A') (p : A -> bool) p' l : (forall a, p' (m a) = p a) -> List.length (filter p' (map m l)) = List.length (filter p l).
Proof. intros H. induction l as [|a l IH]; [reflexivity|]. cbn [map filter]. rewrite H. destruct (p a); cbn [List.length]; congruence. Qed.
Lemma an_ref irs ts ix r : check_ref (map (sp_iref f) irs) (map (sp_table f) ts) (sp_indexer f ix) inp' tt (sp_iref f r) = mo id1 (check_ref irs ts ix inp tt r).
Proof.
  unfold check_ref. apply (bd id1); [cbn [sp_iref ir_settings]; apply an_opt; reflexivity|]. intros _. apply (bd id1); [apply an_ref_type|]. intros _.
  apply iff_b; [|apply thr; reflexivity|reflexivity]. do 2 f_equal. apply filter_len. intros o. apply an_occupy.
Qed.
Lemma blocks_of {A} (m : A -> A) (p : block -> option A) l : (forall b, p (sp_block f b) = option_map m (p b)) -> filter_map p (map (sp_block f) l) = map m (filter_map p l).
Proof. intros H. apply filter_map_map. exact H. Qed.
End An.

(** ** All *)
Section All.
Variable f : char -> char.
Hypothesis Hf : respells f.
Hypothesis Hi : forall c d, f c = f d -> c = d.
Hypothesis Hu : forall c, ulen (f c) = ulen c.
Lemma projects_m x : projects (sp_schema f x) = map (sp_project f) (projects x).
Proof. apply (filter_map_map (sp_block f)). intros []; reflexivity. Qed.
Lemma an_projects x : check_projects (sp_schema f x) = mo f (fun x => x) (check_projects x).
Proof.
  unfold check_projects. rewrite projects_m, map_length. cbn [sp_schema sb_span sb_input]. apply (bd f (fun x => x)); [apply iff_b; [reflexivity|apply thr; auto|reflexivity]|].
  intros _. destruct (projects x) as [|p l]; cbn [map]; [apply thr; auto|]. apply an_props; assumption.
Qed.
Lemma an_all x : analyze (sp_schema f x) = mo f (sp_analyzed f) (analyze x).
Proof.
  unfold analyze. apply (bd f (fun x => x)); [apply an_projects|]. intros _. unfold tables, enums, table_groups, refs. cbn [sp_schema sb_blocks sb_input].
  rewrite !(blocks_of f (sp_table f)), !(blocks_of f (sp_enum f)), !(blocks_of f (sp_group f)), !(blocks_of f (sp_ref f)) by (intros []; reflexivity).
  apply (bd f (sp_indexer f)); [apply tf; [intros; apply an_table1; assumption|reflexivity]|]. intros ix.
  apply (bd f (sp_indexer f)); [apply tf; [intros; apply an_enum1; assumption|reflexivity]|]. intros ix1.
  apply (bd f (sp_indexer f)); [apply tf; [intros; apply an_group1; assumption|reflexivity]|]. intros ix2.
  apply (bd f (map (map (sp_iref f)))); [apply tm; intros; apply an_table; assumption|]. intros inl.
  apply (bd f (map (sp_table f))); [apply tm; intros; apply an_table_types; assumption|]. intros ts.
  rewrite <- concat_map, !map_map. change (fun x0 => indexed_ref_from_block (sp_ref f x0)) with (fun x0 => sp_iref f (indexed_ref_from_block x0)).
  rewrite <- (map_map indexed_ref_from_block (sp_iref f)), <- map_app.
  apply (bd f (fun x => x)); [apply tf; [intros [] r; apply an_ref; assumption|reflexivity]|]. reflexivity.
Qed.
End All.
