(** * RespanAn: the analyzer on an AST at other places. *)

From Verif Require Import Analyzer.
From Verif Require Export Respan.

(** Errors at other places. *)
Definition moved (f : range -> range) {A} (o : outcome A) : outcome A :=
  match o with Err (ErSem e sp) => Err (ErSem e (f sp)) | _ => o end.

Section An.
Variable f : range -> range.
Variables inp inp' : str.
Hypothesis f0 : f range0 = range0.
Hypothesis fok : forall sp, span_ok inp' (f sp) = span_ok inp sp.
Notation mv := (moved f).

Lemma thr {A} e sp sp' : sp' = f sp -> @throw_err A e sp' inp' = mv (throw_err e sp inp).
Proof. intros ->. unfold throw_err. rewrite fok. destruct (span_ok inp sp); reflexivity. Qed.
Lemma bd {A B} (x x' : outcome A) (F F' : A -> outcome B) : x' = mv x -> (forall a, F' a = mv (F a)) -> bind x' F' = mv (bind x F).
Proof. intros -> H. destruct x as [a|[]|]; cbn; auto. Qed.
Lemma bdm {A A' B} (g : A -> A') (x : outcome A) x' (F : A -> outcome B) F' : x' = omap g (mv x) -> (forall a, F' (g a) = mv (F a)) -> bind x' F' = mv (bind x F).
Proof. intros -> H. destruct x as [a|[]|]; cbn; auto. Qed.
Lemma bdm2 {A A' B B'} (g : A -> A') (h : B -> B') (x : outcome A) x' (F : A -> outcome B) F' : x' = omap g (mv x) -> (forall a, F' (g a) = omap h (mv (F a))) -> bind x' F' = omap h (mv (bind x F)).
Proof. intros -> H. destruct x as [a|[]|]; cbn; auto. Qed.
Lemma bd2 {A B B'} (h : B -> B') (x x' : outcome A) (F : A -> outcome B) F' : x' = mv x -> (forall a, F' a = omap h (mv (F a))) -> bind x' F' = omap h (mv (bind x F)).
Proof. intros -> H. destruct x as [a|[]|]; cbn; auto. Qed.
Lemma iff_b {A} (b b' : bool) (x y x' y' : outcome A) : b' = b -> x' = mv x -> y' = mv y -> (if b' then x' else y') = mv (if b then x else y).
Proof. intros -> -> ->. destruct b; reflexivity. Qed.
Lemma tf {A B} (m : A -> A) (F F' : B -> A -> outcome B) l : (forall acc a, F' acc (m a) = mv (F acc a)) -> forall acc, try_fold F' (map m l) acc = mv (try_fold F l acc).
Proof. intros H. induction l as [|a l IH]; intros acc; [reflexivity|]. cbn [map try_fold]. apply bd; auto. Qed.
Lemma tm {A B} (m : A -> A) (h : B -> B) (F F' : A -> outcome B) l : (forall a, F' (m a) = omap h (mv (F a))) -> try_map F' (map m l) = omap (map h) (mv (try_map F l)).
Proof. intros H. induction l as [|a l IH]; [reflexivity|]. cbn [map try_map]. apply (bdm2 h); [apply H|]. intros b. apply (bdm2 (map h)); [exact IH|]. reflexivity. Qed.
Lemma find_map {A} (m : A -> A) (p p' : A -> bool) l : (forall a, p' (m a) = p a) -> find p' (map m l) = option_map m (find p l).
Proof. intros H. induction l as [|a l IH]; [reflexivity|]. cbn [map find]. rewrite H. destruct (p a); auto. Qed.
Lemma existsb_map {A} (m : A -> A) (p p' : A -> bool) l : (forall a, p' (m a) = p a) -> existsb p' (map m l) = existsb p l.
Proof. intros H. induction l as [|a l IH]; [reflexivity|]. cbn [map existsb]. rewrite H, IH. reflexivity. Qed.
Lemma filter_map_map {A B} (m : A -> A) (p p' : A -> option B) l : (forall a, p' (m a) = p a) -> filter_map p' (map m l) = filter_map p l.
Proof. intros H. unfold filter_map. induction l as [|a l IH]; [reflexivity|]. cbn [map flat_map]. rewrite H, IH. reflexivity. Qed.
Lemma map_id_str l : map id_str (map (at_ident f) l) = map id_str l.
Proof. rewrite map_map. reflexivity. Qed.
Lemma om_id_str o : option_map id_str (option_map (at_ident f) o) = option_map id_str o.
Proof. destruct o; reflexivity. Qed.
Lemma sod o : schema_or_default (option_map (at_ident f) o) = schema_or_default o.
Proof. destruct o; reflexivity. Qed.
Lemma is_nil_map {A B} (g : A -> B) l : is_nil (map g l) = is_nil l.
Proof. destruct l; reflexivity. Qed.
Lemma dup_map {A} (m : A -> A) (key : A -> str) l : (forall a, key (m a) = key a) -> forall seen, first_dup key seen (map m l) = option_map m (first_dup key seen l).
Proof. intros H. induction l as [|a l IH]; intros seen; [reflexivity|]. cbn [map first_dup]. rewrite H. destruct (mem_str (key a) seen); [reflexivity|apply IH]. Qed.

(** ** Helpers *)
Lemma an_attrs l : check_attr_duplicate_keys (map (at_attr f) l) inp' = mv (check_attr_duplicate_keys l inp).
Proof. unfold check_attr_duplicate_keys. rewrite dup_map by reflexivity. destruct (first_dup attr_key [] l); [apply thr|]; reflexivity. Qed.
Lemma an_props l : check_prop_duplicate_keys (map (at_prop f) l) inp' = mv (check_prop_duplicate_keys l inp).
Proof. unfold check_prop_duplicate_keys. rewrite dup_map by reflexivity. destruct (first_dup prop_key [] l); [apply thr|]; reflexivity. Qed.
Lemma an_opt {S} (g : S -> S) (at_ : S -> list attribute_t) o : (forall x, at_ (g x) = map (at_attr f) (at_ x)) ->
  check_opt_attrs at_ (option_map g o) inp' = mv (check_opt_attrs at_ o inp).
Proof. intros H. destruct o as [x|]; [|reflexivity]. cbn [option_map check_opt_attrs]. rewrite H. apply an_attrs. Qed.

(** ** The index *)
Lemma an_cols l : index_cols (map (at_col f) l) inp' = mv (index_cols l inp).
Proof.
  apply tf. intros acc c. apply bd; [apply an_opt; reflexivity|]. intros _. apply iff_b; [reflexivity|apply thr; reflexivity|reflexivity].
Qed.
Lemma an_table1 ix t : index_table1 inp' ix (at_table f t) = mv (index_table1 inp ix t).
Proof.
  unfold index_table1. apply bd; [apply an_opt; reflexivity|]. intros _. cbn [tb_ident at_table ti_schema at_table_ident ti_name id_str at_ident ti_span tb_cols ti_alias]. rewrite sod.
  apply bd; [apply iff_b; [reflexivity|apply thr; reflexivity|reflexivity]|]. intros _.
  apply bd; [apply an_cols|]. intros cols. destruct (ti_alias (tb_ident t)) as [a|]; [|reflexivity].
  cbn [option_map at_ident id_str]. apply iff_b; [reflexivity|apply thr; reflexivity|reflexivity].
Qed.
Lemma an_enum_values l : index_enum_values (map (at_enum_value f) l) inp' = mv (index_enum_values l inp).
Proof.
  apply tf. intros acc c. apply bd; [apply an_opt; reflexivity|]. intros _. apply iff_b; [reflexivity|apply thr; reflexivity|reflexivity].
Qed.
Lemma an_enum1 ix e : index_enum1 inp' ix (at_enum f e) = mv (index_enum1 inp ix e).
Proof.
  unfold index_enum1. cbn [en_ident at_enum ei_schema at_enum_ident ei_name id_str at_ident ei_span en_values]. rewrite sod.
  apply bd; [apply iff_b; [reflexivity|apply thr; reflexivity|reflexivity]|]. intros _.
  apply bd; [apply an_enum_values|]. reflexivity.
Qed.
Lemma an_item ix it : resolve_group_item ix (at_group_item f it) inp' = mv (resolve_group_item ix it inp).
Proof.
  unfold resolve_group_item. cbn [gi_ident_alias at_group_item id_str at_ident gi_schema gi_span].
  destruct (gi_schema it); [reflexivity|]. cbn [option_map]. destruct (resolve_alias ix (id_str (gi_ident_alias it))); [reflexivity|].
  apply iff_b; [reflexivity|reflexivity|apply thr; reflexivity].
Qed.
Lemma an_group1 ix g : index_table_group1 inp' ix (at_group f g) = mv (index_table_group1 inp ix g).
Proof.
  unfold index_table_group1. cbn [tg_ident at_group id_str at_ident id_span tg_items].
  apply bd; [apply iff_b; [reflexivity|apply thr; reflexivity|reflexivity]|]. intros _.
  apply bd; [|reflexivity]. apply tf. intros acc it. apply bd; [apply an_item|]. intros id. apply iff_b; [reflexivity|apply thr; reflexivity|reflexivity].
Qed.

(** ** Tables *)
Lemma an_col_settings ti c : check_col_settings inp' ti (at_col f c) = mv (check_col_settings inp ti c).
Proof.
  unfold check_col_settings. cbn [tc_settings at_col tc_span tc_name id_str at_ident tc_type at_type ct_arrays].
  destruct (tc_settings c) as [st|]; [|reflexivity]. cbn [option_map at_col_settings cs_is_pk cs_is_unique cs_nullable cs_attributes cs_span].
  apply bd.
  - apply iff_b; [reflexivity| |reflexivity]. apply iff_b; [reflexivity|apply thr; reflexivity|]. apply iff_b; [reflexivity|apply thr; reflexivity|].
    apply iff_b; [reflexivity|apply thr; reflexivity|reflexivity].
  - intros ti'. apply iff_b; [|apply thr; reflexivity|reflexivity]. unfold conflict_nullable. rewrite map_map. reflexivity.
Qed.
Lemma an_index_cols t l : check_index_cols (at_table f t) inp' (map (at_index_col f) l) = mv (check_index_cols t inp l).
Proof.
  apply tf. intros _ [i|v]; [|reflexivity]. cbn [at_index_col tb_cols at_table id_str at_ident id_span].
  apply iff_b; [|reflexivity|apply thr; reflexivity]. apply existsb_map. reflexivity.
Qed.
Lemma an_idx_names l : filter_map idx_col_name (map (at_index_col f) l) = filter_map idx_col_name l.
Proof. apply filter_map_map. intros []; reflexivity. Qed.
Lemma an_index_def t ib ti d : check_index_def (at_table f t) (at_indexes f ib) inp' ti (at_index f d) = mv (check_index_def t ib inp ti d).
Proof.
  unfold check_index_def. cbn [idf_cols at_index idf_settings idf_span ib_span at_indexes]. rewrite is_nil_map, an_idx_names.
  apply bd; [apply iff_b; [reflexivity|apply thr; reflexivity|reflexivity]|]. intros _.
  apply bd; [apply an_index_cols|]. intros _. destruct (idf_settings d) as [st|]; cbn [option_map].
  - cbn [at_index_settings is_attributes is_is_pk is_is_unique is_type is_span].
    apply bd; [apply an_attrs|]. intros _. apply bd; [apply iff_b; [reflexivity|apply thr; reflexivity|reflexivity]|]. intros _.
    apply bd.
    + apply iff_b; [reflexivity| |].
      * apply iff_b; [reflexivity|apply thr; reflexivity|reflexivity].
      * apply iff_b; [reflexivity| |reflexivity]. apply iff_b; [reflexivity|apply thr; reflexivity|reflexivity].
    + intros ti'. apply iff_b; [reflexivity| |reflexivity]. apply iff_b; [reflexivity|apply thr; reflexivity|reflexivity].
  - apply iff_b; [reflexivity|apply thr; reflexivity|reflexivity].
Qed.
Definition at_iref (r : indexed_ref) : indexed_ref :=
  mkIndexedRef (f (ir_span r)) (ir_rel r) (at_end f (ir_lhs r)) (at_end f (ir_rhs r)) (option_map (at_ref_settings f) (ir_settings r)).
Lemma an_inlines t c : col_inline_refs (at_table f t) (at_col f c) = map at_iref (col_inline_refs t c).
Proof.
  unfold col_inline_refs, from_inline. cbn [tc_settings at_col]. destruct (tc_settings c) as [st|]; [|reflexivity].
  cbn [option_map at_col_settings cs_refs]. rewrite !map_map. apply map_ext. reflexivity.
Qed.
Lemma flat_map_map' {A B} (m : A -> A) (h : B -> B) (p p' : A -> list B) l : (forall a, p' (m a) = map h (p a)) -> flat_map p' (map m l) = map h (flat_map p l).
Proof. intros H. induction l as [|a l IH]; [reflexivity|]. cbn [map flat_map]. rewrite map_app, H, IH. reflexivity. Qed.
Lemma omap_mv {A B} (g : A -> B) x : omap g (mv x) = mv (omap g x).
Proof. destruct x as [a|[]|]; reflexivity. Qed.
Lemma an_table t : check_table inp' (at_table f t) = omap (map at_iref) (mv (check_table inp t)).
Proof.
  unfold check_table. apply bd2.
  - cbn [tb_cols at_table]. apply tf. apply an_col_settings.
  - intros ti. apply bd2.
    + cbn [tb_indexes at_table]. destruct (tb_indexes t) as [ib|]; [|reflexivity]. cbn [option_map ib_defs at_indexes].
      change (ib_defs (at_indexes f ib)) with (map (at_index f) (ib_defs ib)).
      rewrite <- omap_mv. f_equal. apply tf. intros acc d. apply an_index_def.
    + intros _. cbn [tb_cols at_table moved omap]. f_equal. apply flat_map_map'. apply an_inlines.
Qed.

(** ** Types and defaults *)
Lemma an_default_span l : default_span (map (at_attr f) l) = option_map f (default_span l).
Proof.
  unfold default_span. rewrite (find_map _ (fun a => str_eqb (attr_key a) (s "default"))) by reflexivity.
  destruct (find _ l) as [a|]; [|reflexivity]. cbn [option_map at_attr at_value]. destruct (at_value a); reflexivity.
Qed.
Lemma an_type_args tn raw ct : check_type_args tn raw (at_type f ct) inp' = mv (check_type_args tn raw ct inp).
Proof.
  unfold check_type_args. cbn [ct_args at_type ct_span]. destruct (is_nil (ct_args ct)); [reflexivity|].
  apply bd; [|intros _; apply iff_b; [reflexivity|apply thr; reflexivity|reflexivity]].
  destruct tn; try (apply thr; reflexivity); apply iff_b; try reflexivity; apply thr; reflexivity.
Qed.
Lemma an_enum_type ix c raw : check_enum_type ix (at_col f c) raw inp' = mv (check_enum_type ix c raw inp).
Proof.
  unfold check_enum_type. apply bd.
  - cbn [at_col tc_type at_type ct_span]. destruct (split_on 46 raw) as [|a [|b [|? ?]]]; try (apply thr; reflexivity); reflexivity.
  - intros [es en]. cbn [at_col tc_settings tc_type at_type ct_span]. destruct (tc_settings c) as [st|]; [|reflexivity]. cbn [option_map at_col_settings cs_default cs_attributes].
    destruct (cs_default st) as [dv|]; [|reflexivity]. rewrite an_default_span. destruct (default_span (cs_attributes st)) as [sp|]; [|reflexivity].
    cbn [option_map]. destruct (lookup_enum_values ix es en [value_to_string dv]) as [[|] [[|] l]]; try (apply thr; reflexivity).
    apply iff_b; [reflexivity|apply thr; reflexivity|reflexivity].
Qed.
Lemma an_resolve ix c : resolve_col_type ix (at_col f c) inp' = mv (resolve_col_type ix c inp).
Proof.
  unfold resolve_col_type. change (ct_type_name (tc_type (at_col f c))) with (ct_type_name (tc_type c)). destruct (ct_type_name (tc_type c)); try reflexivity.
  destruct (col_type_name_from_str x) as [tn|]; [|apply an_enum_type]. apply bd; [apply an_type_args|reflexivity].
Qed.
Lemma an_default tn c st dv sp : check_default tn (at_col f c) (at_col_settings f st) dv (f sp) inp' = mv (check_default tn c st dv sp inp).
Proof.
  unfold check_default. cbn [at_col tc_type at_type ct_raw ct_args at_col_settings cs_nullable].
  destruct dv; try reflexivity.
  - destruct tn; try reflexivity; destruct (ct_args (tc_type c)) as [|[]]; try reflexivity; apply iff_b; try reflexivity; apply thr; reflexivity.
  - destruct tn; try reflexivity; apply iff_b; try reflexivity; apply thr; reflexivity.
  - destruct tn; try reflexivity; apply thr; reflexivity.
  - apply iff_b; try reflexivity. apply thr; reflexivity.
Qed.
Lemma an_col_type ix c : check_col_type ix inp' (at_col f c) = omap (at_col f) (mv (check_col_type ix inp c)).
Proof.
  unfold check_col_type. apply bd2; [apply an_resolve|]. intros tn. apply bd2; [|reflexivity].
  change (tc_settings (at_col f c)) with (option_map (at_col_settings f) (tc_settings c)). destruct (tc_settings c) as [st|]; [|reflexivity]. cbn [option_map].
  change (cs_default (at_col_settings f st)) with (cs_default st). destruct (cs_default st) as [dv|]; [|reflexivity].
  change (cs_attributes (at_col_settings f st)) with (map (at_attr f) (cs_attributes st)). rewrite an_default_span.
  destruct (default_span (cs_attributes st)) as [sp|]; [|reflexivity]. apply an_default.
Qed.
Lemma an_table_types ix t : check_table_types ix inp' (at_table f t) = omap (at_table f) (mv (check_table_types ix inp t)).
Proof.
  unfold check_table_types. apply (bdm2 (map (at_col f))); [cbn [tb_cols at_table]; apply tm; apply an_col_type|]. reflexivity.
Qed.

(** ** References *)
Lemma an_alias ix r : resolve_ref_alias ix (at_end f r) = at_end f (resolve_ref_alias ix r).
Proof.
  unfold resolve_ref_alias. cbn [ri_table at_end id_str at_ident]. destruct (resolve_alias ix (id_str (ri_table r))) as [[a b]|]; reflexivity.
Qed.
Lemma an_fields ix sch t l : lookup_table_fields ix (option_map (at_ident f) sch) (at_ident f t) (map (at_ident f) l) inp' = mv (lookup_table_fields ix sch t l inp).
Proof.
  unfold lookup_table_fields. rewrite sod. cbn [id_str at_ident id_span]. destruct (map_get (schema_map ix) (schema_or_default sch)) as [b|].
  - destruct (map_get (table_map b) (id_str t)) as [cols|]; [|apply thr; reflexivity].
    rewrite (find_map _ (fun f0 => negb (mem_str (id_str f0) cols))) by reflexivity. destruct (find _ l) as [i|]; [|reflexivity]. apply thr. reflexivity.
  - apply thr. destruct sch; [reflexivity|]. symmetry. exact f0.
Qed.
Lemma an_find_table ts r : find_ref_table (map (at_table f) ts) (at_end f r) inp' = omap (at_table f) (mv (find_ref_table ts r inp)).
Proof.
  unfold find_ref_table. rewrite (find_map _ (fun t => same_table (ti_schema (tb_ident t)) (ti_name (tb_ident t)) (ri_schema r) (ri_table r))).
  - destruct (find _ ts) as [t|]; [reflexivity|]. rewrite (thr (A := table_t) _ (ri_span r)) by reflexivity. unfold throw_err. destruct (span_ok inp (ri_span r)); reflexivity.
  - intros t. unfold same_table. cbn [at_table tb_ident at_table_ident ti_schema ti_name at_end ri_schema ri_table at_ident id_str]. rewrite !om_id_str. reflexivity.
Qed.
Lemma an_find_col c t : find_ref_col (at_ident f c) (at_table f t) inp' = omap (at_col f) (mv (find_ref_col c t inp)).
Proof.
  unfold find_ref_col. cbn [tb_cols at_table]. rewrite (find_map _ (fun col => str_eqb (id_str (tc_name col)) (id_str c))) by reflexivity.
  destruct (find _ (tb_cols t)) as [col|]; [reflexivity|]. rewrite (thr (A := table_col_t) _ (id_span c)) by reflexivity. unfold throw_err. destruct (span_ok inp (id_span c)); reflexivity.
Qed.
Lemma an_composite l o : is_valid_composite (map (at_ident f) l) (option_map (at_indexes f) o) = is_valid_composite l o.
Proof.
  destruct o as [b|]; [|reflexivity]. cbn [option_map is_valid_composite ib_defs at_indexes]. apply existsb_map. intros d.
  cbn [at_index idf_cols idf_settings]. rewrite !map_length, map_id_str, an_idx_names. destruct (idf_settings d); reflexivity.
Qed.
Lemma an_throw_fk o : throw_fk (option_map (fun p => (fst p, f (snd p))) o) inp' = mv (throw_fk o inp).
Proof. destruct o as [[e sp]|]; [apply thr|]; reflexivity. Qed.
Lemma an_single r a b : single_fk_err (at_iref r) a b = option_map (fun p => (fst p, f (snd p))) (single_fk_err r a b).
Proof. unfold single_fk_err. cbn [at_iref ir_rel]. destruct (ir_rel r), a, b; reflexivity. Qed.
Lemma an_composite_err r a b : composite_fk_err (at_iref r) a b = option_map (fun p => (fst p, f (snd p))) (composite_fk_err r a b).
Proof. unfold composite_fk_err. cbn [at_iref ir_rel]. destruct (ir_rel r), a, b; reflexivity. Qed.
Lemma an_col_key c : col_key (at_col f c) = col_key c.
Proof. unfold col_key. cbn [at_col tc_settings]. destruct (tc_settings c); reflexivity. Qed.
Lemma an_pair r lt rt n p : validate_field_pair (at_iref r) (at_table f lt) (at_table f rt) n inp' tt (at_ident f (fst p), at_ident f (snd p))
  = mv (validate_field_pair r lt rt n inp tt p).
Proof.
  destruct p as [l q]. unfold validate_field_pair. cbn [fst snd]. apply (bdm (at_col f)); [apply an_find_col|]. intros lc. apply (bdm (at_col f)); [apply an_find_col|]. intros rc.
  apply bd; [apply iff_b; [reflexivity|apply thr; reflexivity|reflexivity]|]. intros _. apply iff_b; [reflexivity| |reflexivity].
  rewrite an_single, !an_col_key. apply an_throw_fk.
Qed.
Lemma combine_map {A B C D} (g : A -> C) (h : B -> D) l l' : combine (map g l) (map h l') = map (fun p => (g (fst p), h (snd p))) (combine l l').
Proof. revert l'. induction l as [|a l IH]; intros [|b l']; try reflexivity. cbn [map combine fst snd]. rewrite IH. reflexivity. Qed.
Lemma an_ref_type r ts ix : validate_ref_type (at_iref r) (map (at_table f) ts) ix inp' = mv (validate_ref_type r ts ix inp).
Proof.
  unfold validate_ref_type. cbn [at_iref ir_lhs ir_rhs]. rewrite !an_alias. cbn [at_end ri_schema ri_table ri_compositions]. rewrite !map_length.
  apply bd; [apply iff_b; [reflexivity|apply thr; reflexivity|reflexivity]|]. intros _.
  apply bd; [apply an_fields|]. intros _. apply bd; [apply an_fields|]. intros _.
  apply (bdm (at_table f)); [apply an_find_table|]. intros lt. apply (bdm (at_table f)); [apply an_find_table|]. intros rt.
  apply bd.
  - rewrite combine_map. apply tf. intros [] p. apply an_pair.
  - intros _. apply iff_b; [reflexivity| |reflexivity]. cbn [at_table tb_indexes]. rewrite !an_composite, an_composite_err. apply an_throw_fk.
Qed.
Lemma an_eq_ident a b : eq_ref_ident (at_end f a) (at_end f b) = eq_ref_ident a b.
Proof. unfold eq_ref_ident. cbn [at_end ri_schema ri_table ri_compositions at_ident id_str]. rewrite !om_id_str, !map_id_str. reflexivity. Qed.
Lemma an_occupy a b ix : occupy_same_column (at_iref a) (at_iref b) ix = occupy_same_column a b ix.
Proof.
  unfold occupy_same_column, occupied_ident. cbn [at_iref ir_rel ir_lhs ir_rhs forallb existsb]. rewrite !an_alias.
  destruct (ir_rel a), (ir_rel b); rewrite ?an_eq_ident; try reflexivity; rewrite ?an_alias, ?an_eq_ident; reflexivity.
Qed.
Lemma filter_len {A} (m : A -> A) (p p' : A -> bool) l : (forall a, p' (m a) = p a) -> List.length (filter p' (map m l)) = List.length (filter p l).
Proof. intros H. induction l as [|a l IH]; [reflexivity|]. cbn [map filter]. rewrite H. destruct (p a); cbn [List.length]; congruence. Qed.
Lemma an_ref irs ts ix r : check_ref (map at_iref irs) (map (at_table f) ts) ix inp' tt (at_iref r) = mv (check_ref irs ts ix inp tt r).
Proof.
  unfold check_ref. apply bd; [cbn [at_iref ir_settings]; apply an_opt; reflexivity|]. intros _. apply bd; [apply an_ref_type|]. intros _.
  apply iff_b; [|apply thr; reflexivity|reflexivity]. do 2 f_equal. apply filter_len. intros o. apply an_occupy.
Qed.

(** ** All *)
Lemma blocks_of {A} (m : A -> A) (p : block -> option A) l : (forall b, p (at_block f b) = option_map m (p b)) -> filter_map p (map (at_block f) l) = map m (filter_map p l).
Proof. intros H. unfold filter_map. apply flat_map_map'. intros b. rewrite H. destruct (p b); reflexivity. Qed.

(** The first check is about the whole. *)
Definition an_rest (inp : str) (ps : list project_t) (x : schema_t) : outcome analyzed_indexer :=
  let? ix := index_table (tables x) inp indexer0 in
  let? ix := index_enums (enums x) inp ix in
  let? ix := index_table_groups (table_groups x) inp ix in
  let? inlined := try_map (check_table inp) (tables x) in
  let irs := map indexed_ref_from_block (refs x) ++ List.concat inlined in
  let? ts := try_map (check_table_types ix inp) (tables x) in
  let? _ := try_fold (check_ref irs ts ix inp) irs tt in
  Ok (mkAnalyzed irs ix).

Definition at_analyzed (a : analyzed_indexer) : analyzed_indexer := mkAnalyzed (map at_iref (indexed_refs a)) (an_indexer a).
Lemma an_all x x' : sb_blocks x' = map (at_block f) (sb_blocks x) -> an_rest inp' (projects x') x' = omap at_analyzed (mv (an_rest inp (projects x) x)).
Proof.
  intros E. unfold an_rest, tables, enums, table_groups, refs. rewrite E.
  rewrite !(blocks_of (at_table f)), !(blocks_of (at_enum f)), !(blocks_of (at_group f)), !(blocks_of (at_ref f)) by (intros []; reflexivity).
  apply bd2; [apply tf; apply an_table1|]. intros ix. apply bd2; [apply tf; apply an_enum1|]. intros ix1. apply bd2; [apply tf; apply an_group1|]. intros ix2.
  apply (bdm2 (map (map at_iref))); [apply tm; apply an_table|]. intros inl.
  apply (bdm2 (map (at_table f))); [apply tm; apply an_table_types|]. intros ts.
  rewrite <- concat_map, !map_map. change (fun x0 => indexed_ref_from_block (at_ref f x0)) with (fun x0 => at_iref (indexed_ref_from_block x0)).
  rewrite <- (map_map indexed_ref_from_block at_iref), <- map_app.
  apply bd2; [apply tf; intros [] r; apply an_ref|]. reflexivity.
Qed.
Lemma projects_at x x' : sb_blocks x' = map (at_block f) (sb_blocks x) -> projects x' = map (at_project f) (projects x).
Proof. intros E. unfold projects. rewrite E. apply blocks_of. intros []; reflexivity. Qed.
End An.
