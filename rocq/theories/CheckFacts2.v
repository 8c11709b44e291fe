(** * CheckFacts2: the properties of accepted schemas, as lemmas. *)

From Verif Require Import Layout Nodes NodesOk SpansOk RulesOk RulesOk2 RulesOk3 Rules CheckFacts Reindex ParseFacts ParseFacts2.
From Verif Require Import Err Parser Analyzer Api.

Lemma checked_total inp : exists o, parse_dbml inp = Some o.
Proof. unfold parse_dbml. destruct (unchecked_total inp) as (o & -> & _). eauto. Qed.
Lemma checked_panic inp : parse_dbml inp = Some Panic -> exists x, parse_dbml_unchecked inp = Some (Ok x) /\ unsized_default x.
Proof.
  intros H. destruct (unchecked_cases inp) as [E|[(m & sp & E & _)|(x & E & _)]].
  - apply checked_err in E. congruence.
  - apply checked_err in E. congruence.
  - pose proof (checked_sem _ _ E) as K. rewrite H in K. eauto.
Qed.
Lemma unsized_not_ok inp x : parse_dbml_unchecked inp = Some (Ok x) -> unsized_default x -> forall y, parse_dbml inp <> Some (Ok y).
Proof.
  intros P (t & c & tn & st & v & H1 & H2 & H3 & H4 & H5) y E. pose proof (checked_sem _ _ P) as K. rewrite E in K. destruct K as [-> W].
  apply (no_panic_wf _ W). eapply p_no_length; eassumption.
Qed.

Lemma default_int_nonneg inp x c st z : parse_dbml_unchecked inp = Some (Ok x) -> In c (all_cols x) -> has_default c st (VInteger z) -> (0 <= z <= 9223372036854775807)%Z.
Proof.
  intros P Hc [E Ed]. assert (Hs : In st (all_col_settings x)).
  { apply in_flat_map. exists c. split; [exact Hc|]. rewrite E. left. reflexivity. }
  pose proof (p_col_settings _ _ P _ Hs) as (_ & _ & _ & _ & _ & H & _). rewrite Ed in H.
  destruct H as [[_ H]|(l1 & a & l2 & El & _ & _ & Hr)]; [discriminate|]. unfold reads_value in Hr.
  destruct (at_value a) as [l|] eqn:Ea; [|discriminate]. cbn [option_map] in Hr. injection Hr as Hr.
  assert (Hl : In l (all_literals x)).
  { unfold all_literals. apply in_or_app. left. apply in_flat_map. exists a. split; [|rewrite Ea; left; reflexivity].
    unfold all_attributes. apply in_flat_map. exists (cs_span st, cs_attributes st). split; [|cbn [snd]; rewrite El; apply in_or_app; right; left; reflexivity].
    unfold all_settings. apply in_or_app. right. apply in_or_app. right. apply in_or_app. left. apply in_map_iff. eauto. }
  destruct (p_integer _ _ P _ _ Hl (eq_sym Hr)) as (_ & -> & H). split; [apply N2Z.is_nonneg|exact H].
Qed.

Section Accepted.
  Variables (inp : str) (x : schema_t).
  Hypothesis A : parse_dbml inp = Some (Ok x).
  Let P : parse_dbml_unchecked inp = Some (Ok x) := checked_same inp x A.
  Let K : schema_ok inp x := unchecked_ok inp x P.
  Lemma a_wf : wf x.
  Proof. exact (proj2 (proj1 (checked_wf inp x) A)). Qed.
  Lemma a_project : exists p, projects x = [p] /\ NoDup (map prop_name (pj_properties p)).
  Proof. apply a_wf. Qed.
  Lemma a_tables : NoDup (map table_name (tables x)).
  Proof. exact (w_tab _ a_wf). Qed.
  Lemma a_columns t : In t (tables x) -> NoDup (map col_name (tb_cols t)).
  Proof. exact (w_col _ a_wf t). Qed.
  Lemma a_aliases : NoDup (aliases (tables x)).
  Proof. exact (w_als _ a_wf). Qed.
  Lemma a_enums : NoDup (map enum_name (enums x)) /\ forall e, In e (enums x) -> NoDup (map value_name (en_values e)).
  Proof.
    destruct a_wf as (_ & _ & (H1 & H2) & _). split; [exact H1|]. intros e He. apply (forall_in _ _ _ H2) in He. apply He.
  Qed.
  Lemma a_groups : NoDup (map group_name (table_groups x)) /\
    forall g, In g (table_groups x) -> exists ids, Forall2 (item_denotes (tables x)) (tg_items g) ids /\ NoDup ids.
  Proof. destruct a_wf as (_ & _ & _ & (H1 & H2) & _). split; [exact H1|]. intros g Hg. exact (forall_in _ _ _ H2 Hg). Qed.
  Lemma a_items g it : In g (table_groups x) -> In it (tg_items g) -> gi_schema it = None ->
    exists t, In t (tables x) /\ (alias_of t = Some (id_str (gi_ident_alias it)) \/ table_name t = (public, id_str (gi_ident_alias it))).
  Proof.
    intros Hg Hi E. destruct a_groups as [_ H]. destruct (H _ Hg) as (ids & HF & _). destruct (f2_in_l _ _ _ _ HF Hi) as (id & _ & [sc Es|t _ Ht Ha|t _ Hn Ht Ha]).
    - congruence.
    - eauto.
    - eauto.
  Qed.
  Lemma a_keys l : settings_of x l -> distinct_keys l.
  Proof. exact (w_settings _ a_wf l). Qed.
  Lemma a_pk t : In t (tables x) ->
    (forall c c', In c (tb_cols t) -> In c' (tb_cols t) -> pk_col c -> pk_col c' -> c = c') /\
    (forall ib d, tb_indexes t = Some ib -> In d (ib_defs ib) -> def_pk d -> forall c, In c (tb_cols t) -> ~ pk_col c) /\
    (forall ib l1 d l2 d', tb_indexes t = Some ib -> ib_defs ib = l1 ++ d :: l2 -> def_pk d -> In d' l1 -> def_pk d' -> named d' = []) /\
    (forall c, In c (tb_cols t) -> has_settings (fun st => cs_is_pk st = true) c ->
       ct_arrays (tc_type c) = [] /\ ~ has_settings (fun st => cs_nullable st = Some Null) c) /\
    (forall c, In c (tb_cols t) -> ~ has_settings (fun st => has_key "null" (cs_attributes st) /\ has_key "not null" (cs_attributes st)) c).
  Proof.
    intros Ht. pose proof (w_keys _ a_wf _ Ht) as (H1 & H2 & H3). split; [|split; [|split; [|split]]].
    - intros c c' Hc Hc' Hp Hp'. apply in_split in Hc as (l1 & l2 & E). pose proof Hc' as Hi. rewrite E in Hi.
      apply in_app_or in Hi as [Hi|[Hi|Hi]]; [destruct (H2 _ _ _ E Hp _ Hi Hp')|exact Hi|].
      apply in_split in Hi as (m1 & m2 & ->). exfalso. eapply (H2 (l1 ++ c :: m1) c' m2); [rewrite E, <- app_assoc; reflexivity|exact Hp'| |exact Hp].
      apply in_or_app. right. left. reflexivity.
    - intros ib d Ei Hd Hp c Hc Hpc. rewrite Ei in H3. apply in_split in Hd as (l1 & l2 & E).
      destruct (H3 _ _ _ E) as (_ & _ & _ & _ & _ & _ & H & _). apply H. split; [exact Hp|]. left. eauto.
    - intros ib l1 d l2 d' Ei E Hp Hd' Hp'. rewrite Ei in H3. destruct (H3 _ _ _ E) as (_ & _ & _ & _ & _ & _ & H & _).
      destruct (named d') as [|k l] eqn:En; [reflexivity|]. exfalso. apply H. split; [exact Hp|]. right. exists d'. split; [exact Hd'|]. split; [exact Hp'|congruence].
    - intros c Hc (st & E & Hp). pose proof (forall_in _ _ _ H1 Hc) as H. unfold col_keys_wf in H. rewrite E in H. destruct H as [H _].
      destruct (H Hp) as [Hn Ha]. split; [exact Ha|]. intros (st' & E' & Hn'). rewrite E in E'. injection E' as <-. contradiction.
    - intros c Hc (st & E & Hk). pose proof (forall_in _ _ _ H1 Hc) as H. unfold col_keys_wf in H. rewrite E in H. destruct H as [_ H]. contradiction.
  Qed.
  Lemma a_index t ib l1 d l2 : In t (tables x) -> tb_indexes t = Some ib -> ib_defs ib = l1 ++ d :: l2 ->
    idf_cols d <> [] /\ incl (named d) (map col_name (tb_cols t)) /\
    ~ (def_pk d /\ def_unique d) /\ ~ (def_pk d /\ def_typed d) /\ ~ (def_unique d /\ def_typed d) /\
    ~ unique_again (tb_cols t) l1 d /\ ~ index_again l1 d.
  Proof.
    intros Ht Ei E. pose proof (w_index _ a_wf t ib l1 d (io_intro _ _ _ _ _ _ Ht Ei E)) as (W1 & W2 & W3 & W4 & W5 & W6 & W7 & W8 & W9). auto 8.
  Qed.
  Lemma a_args c raw tn : In c (all_cols x) -> ct_type_name (tc_type c) = CT_Raw raw -> builtin raw tn -> args_fit tn (ct_args (tc_type c)).
  Proof. intros Hc. apply in_flat_map in Hc as (t & Ht & Hc). eapply w_args; [exact a_wf|econstructor; eassumption]. Qed.
  Lemma a_enum_default c raw st v : In c (all_cols x) -> ct_type_name (tc_type c) = CT_Raw raw -> not_builtin raw -> has_default c st v ->
    exists so n e, enum_type raw so n /\ In e (enums x) /\ enum_name e = (match so with Some a => a | None => public end, n) /\
      In (value_to_string v) (map value_name (en_values e)).
  Proof.
    intros Hc Hr Hb Hd. apply in_flat_map in Hc as (t & Ht & Hc). assert (Hco : column_of x t c) by (constructor; assumption).
    pose proof (w_type _ a_wf _ _ Hco) as (raw' & tn & Hr' & Hm & _). rewrite Hr in Hr'. injection Hr' as <-.
    destruct Hm as [tn Hbu|so n _ He]; [destruct (Hb _ Hbu)|].
    destruct (w_enum _ a_wf _ _ _ _ _ _ _ Hco Hr Hb He Hd) as (e & H1 & H2 & H3). exists so, n, e. auto.
  Qed.
  Lemma a_fits c tn st v : In c (all_cols x) -> col_means c tn -> has_default c st v ->
    default_fits tn (ct_args (tc_type c)) (cs_nullable st) v.
  Proof. intros Hc. apply in_flat_map in Hc as (t & Ht & Hc). eapply w_default; [exact a_wf|econstructor; eassumption]. Qed.
  Lemma a_int c tn st z lo hi : In c (all_cols x) -> col_means c tn -> has_default c st (VInteger z) -> int_range tn = Some (lo, hi) -> (lo <= z <= hi)%Z.
  Proof.
    intros Hc Hm Hd Hr. pose proof (a_fits _ _ _ _ Hc Hm Hd) as (H1 & H2 & H3). pose proof (default_int_nonneg _ _ _ _ _ P Hc Hd).
    destruct tn; try discriminate Hr; injection Hr as <- <-; [apply H1|apply H2|]; try reflexivity. lia.
  Qed.
  Lemma a_string c tn st v : In c (all_cols x) -> col_means c tn -> has_default c st (VString v) ->
    (tn = CT_Char \/ tn = CT_Bit -> ct_args (tc_type c) = [VInteger (Z.of_N (blen v))]) /\
    (tn = CT_VarChar \/ tn = CT_Varbit -> exists n, ct_args (tc_type c) = [VInteger n] /\ (Z.of_N (blen v) <= n)%Z).
  Proof. intros Hc Hm Hd. exact (a_fits _ _ _ _ Hc Hm Hd). Qed.
  Lemma a_bool_null c tn st : In c (all_cols x) -> col_means c tn ->
    (forall b, has_default c st (VBool b) -> tn = CT_Bool) /\ (has_default c st VNull -> cs_nullable st = Some Null).
  Proof. intros Hc Hm. split; [intros b Hd|intros Hd]; exact (a_fits _ _ _ _ Hc Hm Hd). Qed.
  Lemma a_type_means c : In c (all_cols x) -> exists tn, col_means c tn.
  Proof.
    intros Hc. apply in_flat_map in Hc as (t & Ht & Hc). assert (Hco : column_of x t c) by (constructor; assumption).
    destruct (w_type _ a_wf _ _ Hco) as (raw & tn & Hr & Hm & _). exists tn, raw. auto.
  Qed.
  Lemma a_ref_ends r : In r (all_refs x) -> forall e, e = ir_lhs r \/ e = ir_rhs r ->
    exists t, target (tables x) e t /\ incl (endpoint_cols e) (map col_name (tb_cols t)).
  Proof. intros Hr e He. apply (w_target _ a_wf). exists r. auto. Qed.
  Lemma a_ref_types r : In r (all_refs x) -> exists lt rt lcs rcs,
    target (tables x) (ir_lhs r) lt /\ target (tables x) (ir_rhs r) rt /\
    Forall2 (names_col lt) (ri_compositions (ir_lhs r)) lcs /\ Forall2 (names_col rt) (ri_compositions (ir_rhs r)) rcs /\
    Forall2 same_type lcs rcs.
  Proof.
    intros Hr. destruct (w_ref _ a_wf _ Hr) as (_ & lt & rt & lcs & rcs & H1 & H2 & H3 & H4 & H5 & _). exists lt, rt, lcs, rcs. auto.
  Qed.
  Lemma a_ref_lengths r : In r (all_refs x) -> List.length (ri_compositions (ir_lhs r)) = List.length (ri_compositions (ir_rhs r)).
  Proof.
    intros Hr. destruct (a_ref_types _ Hr) as (lt & rt & lcs & rcs & _ & _ & H3 & H4 & H5).
    apply f2_length in H3, H4, H5. congruence.
  Qed.
  Lemma a_ref_keys r lt rt : In r (all_refs x) -> target (tables x) (ir_lhs r) lt -> target (tables x) (ir_rhs r) rt ->
    (forall l rr lc rc, ri_compositions (ir_lhs r) = [l] -> ri_compositions (ir_rhs r) = [rr] -> names_col lt l lc -> names_col rt rr rc ->
       single_keys (ir_rel r) (key_col lc) (key_col rc)) /\
    ((2 <= List.length (ri_compositions (ir_lhs r)))%nat ->
       composite_keys (ir_rel r) (key_cols lt (endpoint_cols (ir_lhs r))) (key_cols rt (endpoint_cols (ir_rhs r)))).
  Proof.
    intros Hr Hl Hrt. destruct (w_ref _ a_wf _ Hr) as (_ & lt' & rt' & lcs & rcs & H1 & H2 & H3 & H4 & H5 & H6 & H7).
    rewrite (target_unique _ a_wf _ _ _ Hl H1), (target_unique _ a_wf _ _ _ Hrt H2) in *. split.
    - intros l rr lc rc El Er Hlc Hrc. rewrite El in H3. rewrite Er in H4. inversion H3 as [|? lc' ? ? Hlc' F3]; subst. inversion F3; subst.
      inversion H4 as [|? rc' ? ? Hrc' F4]; subst. inversion F4; subst.
      rewrite (names_col_unique _ a_wf _ _ _ _ (proj1 H1) Hlc Hlc'), (names_col_unique _ a_wf _ _ _ _ (proj1 H2) Hrc Hrc'). apply H6; reflexivity.
    - intros Hlen. apply H7. rewrite <- (f2_length _ _ _ H3). exact Hlen.
  Qed.
  Lemma a_no_clash l1 r l2 o : all_refs x = l1 ++ r :: l2 -> In o (l1 ++ l2) -> ~ clashes (tables x) r o.
  Proof. intros E Ho. destruct a_wf as (_ & _ & _ & _ & _ & _ & _ & H). apply (H _ _ _ E). exact Ho. Qed.
End Accepted.

Lemma sem_truth inp e sp : parse_dbml inp = Some (Err (ErSem e sp)) ->
  exists x, parse_dbml_unchecked inp = Some (Ok x) /\ violates x e sp /\ valid_span inp sp.
Proof.
  intros H. destruct (unchecked_cases inp) as [E|[(m & q & E & _)|(x & E & _)]].
  - apply checked_err in E. congruence.
  - apply checked_err in E. congruence.
  - pose proof (checked_sem _ _ E) as K. rewrite H in K. eauto.
Qed.
Lemma accept_iff inp x : parse_dbml_unchecked inp = Some (Ok x) -> ((exists y, parse_dbml inp = Some (Ok y)) <-> wf x).
Proof.
  intros P. split.
  - intros (y & E). pose proof (checked_sem _ _ P) as K. rewrite E in K. apply K.
  - intros W. exists x. apply checked_wf. auto.
Qed.
Lemma exceeded_truth inp raw sp : parse_dbml inp = Some (Err (ErSem (DataTypeExceeded raw) sp)) ->
  exists x c tn st z, parse_dbml_unchecked inp = Some (Ok x) /\ In c (all_cols x) /\ col_means c tn /\ has_default c st (VInteger z) /\
    (exists lo hi, int_range tn = Some (lo, hi) /\ (~ (lo <= z <= hi)%Z \/ tn = CT_BigInt /\ z = hi)).
Proof.
  intros H. apply sem_truth in H as (x & P & V & _). remember (DataTypeExceeded raw) as e eqn:Ee.
  destruct V; try discriminate Ee; try (destruct (ir_rel i); discriminate Ee).
  match goal with Hc0 : column_of x ?t0 ?c0, Hm0 : col_means ?c0 ?tn0, Hd0 : has_default ?c0 ?st0 (VInteger ?z0), Hn0 : ~ int_fits _ _ |- _ =>
    rename Hc0 into Hc, Hm0 into Hm, Hd0 into Hd, Hn0 into Hn, t0 into t, c0 into c, tn0 into tn, st0 into st, z0 into z end.
  destruct Hc as [t c Ht Hc]. assert (Hin : In c (all_cols x)) by (apply in_flat_map; eauto).
  exists x, c, tn, st, z. split; [exact P|]. split; [exact Hin|]. split; [exact Hm|]. split; [exact Hd|].
  pose proof (default_int_nonneg _ _ _ _ _ P Hin Hd) as Hz. unfold int_fits in Hn.
  destruct (int_range tn) as [[lo hi]|] eqn:Er.
  - exists lo, hi. split; [reflexivity|]. destruct tn; try discriminate Er; injection Er as <- <-.
    + left. intros G. apply Hn. split; [auto|split; discriminate].
    + left. intros G. apply Hn. split; [discriminate|split; [auto|discriminate]].
    + right. split; [reflexivity|]. destruct (Z.eq_dec z 9223372036854775807) as [E|E]; [exact E|]. exfalso. apply Hn.
      split; [discriminate|]. split; [discriminate|]. intros _. lia.
  - exfalso. apply Hn. split; [|split]; intros ->; discriminate Er.
Qed.
Lemma perm_accept x y : Permutation (sb_blocks x) (sb_blocks y) -> ((exists an, analyze x = Ok an) <-> (exists an, analyze y = Ok an)).
Proof. intros H. rewrite !analyze_accepts. split; apply perm_wf; [exact H|apply Permutation_sym; exact H]. Qed.
Lemma alias_never inp x t r : parse_dbml_unchecked inp = Some (Ok x) ->
  In t (tables x) -> ti_schema (tb_ident t) = None -> endpoint_of x r -> alias_of t = Some (id_str (ri_table r)) ->
  forall y, parse_dbml inp <> Some (Ok y).
Proof.
  intros P Ht En He Ha y E. apply (alias_rejected x t r); auto. apply (accept_iff _ _ P). eauto.
Qed.
Lemma public_never inp x t r : parse_dbml_unchecked inp = Some (Ok x) ->
  In t (tables x) -> endpoint_of x r -> ~ In (id_str (ri_table r)) (aliases (tables x)) ->
  in_schema (ri_schema r) = fst (table_name t) -> id_str (ri_table r) = snd (table_name t) ->
  option_map id_str (ri_schema r) <> option_map id_str (ti_schema (tb_ident t)) ->
  forall y, parse_dbml inp <> Some (Ok y).
Proof.
  intros P Ht He Hn E1 E2 Hd y E. apply (public_rejected x t r); auto. apply (accept_iff _ _ P). eauto.
Qed.
Lemma same_accept x y : same_blocks (tables x) (sb_blocks x) (sb_blocks y) ->
  ((exists an, analyze x = Ok an) <-> (exists an, analyze y = Ok an)).
Proof.
  intros H. rewrite !analyze_accepts. split; apply same_blocks_wf; [exact H|].
  assert (Et : tables y = tables x) by (symmetry; eapply same_blocks_eq; [|exact H]; reflexivity). rewrite Et. apply same_blocks_sym. exact H.
Qed.
Lemma alias_same_place ts t a r : NoDup (aliases ts) -> In t ts ->
  alias_of t = Some (id_str (ri_table a)) -> ti_schema (tb_ident t) <> None ->
  ~ In (id_str (ri_table r)) (aliases ts) ->
  option_map id_str (ri_schema r) = option_map id_str (ti_schema (tb_ident t)) -> id_str (ri_table r) = id_str (ti_name (tb_ident t)) ->
  endpoint_cols a = endpoint_cols r -> same_place ts a r.
Proof.
  intros Hn Ht Ha Hs Hr E1 E2 Ec. split; [|exact Ec]. exists (Some (fst (table_name t))), (snd (table_name t)). split; [apply pt_alias; assumption|].
  pose proof (pt_name ts r Hr) as H. rewrite E1, E2 in H. unfold table_name. cbn [fst snd]. destruct (ti_schema (tb_ident t)) as [i|]; [exact H|congruence].
Qed.
Lemma trim_accept x y : trimmed (sb_blocks y) (sb_blocks x) -> (exists an, analyze x = Ok an) -> exists an, analyze y = Ok an.
Proof. intros H. rewrite !analyze_accepts. apply trim_wf. exact H. Qed.
Lemma reindex_accept x y : reindexed_blocks (sb_blocks x) (sb_blocks y) ->
  (forall t ib, In t (tables x) -> tb_indexes t = Some ib -> order_free (ib_defs ib)) ->
  (exists an, analyze x = Ok an) -> exists an, analyze y = Ok an.
Proof. intros H Ho. rewrite !analyze_accepts. apply reindexed_wf; assumption. Qed.
Lemma reindex_exact x : (exists an, analyze x = Ok an) ->
  ((forall y, reindexed_blocks (sb_blocks x) (sb_blocks y) -> exists an, analyze y = Ok an) <->
   (forall t ib, In t (tables x) -> tb_indexes t = Some ib -> order_free (ib_defs ib))).
Proof.
  intros A. split; [|intros Ho y R; exact (reindex_accept x y R Ho A)].
  intros H. apply reindexed_needed. intros y R. apply analyze_accepts. exact (H y R).
Qed.
