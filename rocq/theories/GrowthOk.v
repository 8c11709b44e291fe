(** * GrowthOk: the faults of a part are faults of the whole. *)

From Verif Require Import Rules RulesOk RulesOk2 RulesOk3 CheckFacts CheckFacts2 ParserOk3 SpansOk ParseFacts Zap SynMain SynVerdict.
From Verif Require Import Err Analyzer Api Answer ValidityOk.
From Verif Require Import Growth.
From Verif Require Import Syntax.

Lemma filter_map_app {A B} (f : A -> option B) l l' : filter_map f (l ++ l') = filter_map f l ++ filter_map f l'.
Proof. unfold filter_map. apply flat_map_app. Qed.
Lemma repeats_app {A B} (f : A -> B) l l' a : repeats f l a -> repeats f (l ++ l') a.
Proof. intros (l1 & l2 & b & -> & H). exists l1, (l2 ++ l'), b. rewrite <- app_assoc. auto. Qed.

Section Part.
  Variables x y : schema_t.
  Variable rest : list block.
  Hypothesis EB : sb_blocks y = sb_blocks x ++ rest.
  Let z : schema_t := mkSchema (0, 0) [] rest.
  Hypothesis Nr : forall r u, endpoint_of x r -> In u (tables z) -> alias_of u <> Some (id_str (ri_table r)).
  Hypothesis Ng : forall g it u, In g (table_groups x) -> In it (tg_items g) -> gi_schema it = None -> In u (tables z) ->
    alias_of u <> Some (id_str (gi_ident_alias it)).
  Hypothesis W : wf y.

  Lemma g_tables : tables y = tables x ++ tables z.
  Proof. unfold tables. rewrite EB. apply filter_map_app. Qed.
  Lemma g_enums : enums y = enums x ++ enums z.
  Proof. unfold enums. rewrite EB. apply filter_map_app. Qed.
  Lemma g_refs : refs y = refs x ++ refs z.
  Proof. unfold refs. rewrite EB. apply filter_map_app. Qed.
  Lemma g_groups : table_groups y = table_groups x ++ table_groups z.
  Proof. unfold table_groups. rewrite EB. apply filter_map_app. Qed.
  Lemma g_projects : projects y = projects x ++ projects z.
  Proof. unfold projects. rewrite EB. apply filter_map_app. Qed.
  Lemma i_table t : In t (tables x) -> In t (tables y).
  Proof. intros H. rewrite g_tables. apply in_or_app. left. exact H. Qed.
  Lemma i_enum t : In t (enums x) -> In t (enums y).
  Proof. intros H. rewrite g_enums. apply in_or_app. left. exact H. Qed.
  Lemma i_group t : In t (table_groups x) -> In t (table_groups y).
  Proof. intros H. rewrite g_groups. apply in_or_app. left. exact H. Qed.
  Lemma i_ref t : In t (refs x) -> In t (refs y).
  Proof. intros H. rewrite g_refs. apply in_or_app. left. exact H. Qed.
  Lemma i_project t : In t (projects x) -> In t (projects y).
  Proof. intros H. rewrite g_projects. apply in_or_app. left. exact H. Qed.
  Lemma i_column t c : column_of x t c -> column_of y t c.
  Proof. intros [t' c' H1 H2]. split; [apply i_table; exact H1|exact H2]. Qed.
  Lemma i_index t ib l1 d : index_of x t ib l1 d -> index_of y t ib l1 d.
  Proof. intros [t' ib' m1 d' m2 H1 H2 H3]. econstructor; [apply i_table; exact H1|exact H2|exact H3]. Qed.
  Lemma i_settings l : settings_of x l -> settings_of y l.
  Proof.
    intros [t st H1 H2|t c st H1 H2 H3|e v st H1 H2 H3|t ib d st H1 H2 H3 H4|r st H1 H2].
    - eapply so_table; [apply i_table; exact H1|exact H2].
    - eapply so_col; [apply i_table; exact H1|exact H2|exact H3].
    - eapply so_enum; [apply i_enum; exact H1|exact H2|exact H3].
    - eapply so_index; [apply i_table; exact H1|exact H2|exact H3|exact H4].
    - eapply so_ref; [apply i_ref; exact H1|exact H2].
  Qed.
  Lemma g_all_refs : exists extra, Permutation (all_refs y) (all_refs x ++ extra).
  Proof.
    exists (all_refs z). unfold all_refs. rewrite g_refs, g_tables, map_app, flat_map_app, <- !app_assoc. apply Permutation_app_head.
    rewrite !app_assoc. apply Permutation_app_tail. apply Permutation_app_comm.
  Qed.
  Lemma i_all_refs r : In r (all_refs x) -> In r (all_refs y).
  Proof. intros H. destruct g_all_refs as (l & P). eapply Permutation_in; [apply Permutation_sym, P|]. apply in_or_app. left. exact H. Qed.
  Lemma i_endpoint r : endpoint_of x r -> endpoint_of y r.
  Proof. intros (i & H1 & H2). exists i. split; [apply i_all_refs; exact H1|exact H2]. Qed.
  Lemma i_points r so n : endpoint_of x r -> points_to (tables x) r so n -> points_to (tables y) r so n.
  Proof.
    intros He [t H1 H2|H]; [apply pt_alias; [apply i_table; exact H1|exact H2]|]. apply pt_name. intros H1. apply in_aliases in H1 as (t & H1 & H2).
    rewrite g_tables in H1. apply in_app_or in H1 as [H1|H1]; [apply H, in_aliases; eauto|exact (Nr _ _ He H1 H2)].
  Qed.
  Lemma i_target r t : endpoint_of x r -> target (tables x) r t -> target (tables y) r t.
  Proof. intros He [H1 H2]. split; [apply i_table; exact H1|apply i_points; assumption]. Qed.
  Lemma i_same r r' : endpoint_of x r -> endpoint_of x r' -> same_endpoint (tables x) r r' -> same_endpoint (tables y) r r'.
  Proof. intros He He' [(so & n & H1 & H2) H3]. split; [exists so, n; split; apply i_points; assumption|exact H3]. Qed.
  Lemma i_clashes r o : In r (all_refs x) -> In o (all_refs x) -> clashes (tables x) r o -> clashes (tables y) r o.
  Proof.
    intros Hr Ho. assert (L : forall i, In i (all_refs x) -> endpoint_of x (ir_lhs i)) by (intros i H; exists i; auto).
    assert (R : forall i, In i (all_refs x) -> endpoint_of x (ir_rhs i)) by (intros i H; exists i; auto).
    intros [(H1 & H2 & H3 & H4)|(a & b & H1 & H2 & H3)].
    - left. split; [exact H1|]. split; [exact H2|]. split; [destruct H3 as [H|H]; [left|right]|destruct H4 as [H|H]; [left|right]]; apply i_same; auto.
    - right. exists a, b. split; [exact H1|]. split; [exact H2|]. apply i_same; [| |exact H3].
      + unfold fk_side in H1. destruct (ir_rel r); try discriminate; injection H1 as <-; auto.
      + unfold fk_side in H2. destruct (ir_rel o); try discriminate; injection H2 as <-; auto.
  Qed.
  Lemma i_denotes g it id : In g (table_groups x) -> In it (tg_items g) -> item_denotes (tables x) it id -> item_denotes (tables y) it id.
  Proof.
    intros Hg Hi [sc H|t H1 H2 H3|t H1 H2 H3 H4].
    - apply den_qualified. exact H.
    - apply den_alias; [exact H1|apply i_table; exact H2|exact H3].
    - apply den_table; [exact H1| |apply i_table; exact H3|exact H4]. intros H. apply in_aliases in H as (u & H5 & H6).
      rewrite g_tables in H5. apply in_app_or in H5 as [H5|H5]; [apply H2, in_aliases; eauto|exact (Ng _ _ _ Hg Hi H1 H5 H6)].
  Qed.
  Lemma i_linked i l r lt rt lc rc : linked x i l r lt rt lc rc -> linked y i l r lt rt lc rc.
  Proof.
    intros (H1 & H2 & H3 & H4 & H5 & H6). split; [apply i_all_refs; exact H1|]. split; [exact H2|]. split; [exact H3|].
    split; [apply i_target; [exists i; auto|exact H4]|]. split; [apply i_target; [exists i; auto|exact H5]|exact H6].
  Qed.

  Lemma grown e sp : violates x e sp -> missing e \/ exists sp', violates y e sp'.
  Proof.
    intros V.
    destruct V as [p1 p2 l E|E|p pr Hp Hr|l a Hs Hr|t Hr|t c Ht Hr|l1 t l2 t' a E Ea Hin Ha|e Hr|e v He Hr|g Hr
      |g l1 it l2 it' id Hg E Hin H1 H2|g it Hg Hi Hn
      |t l1 c l2 c' Ht E Hp Hin Hp'|t c Hc H|t c Hc H H2|t c st Hc E H1 H2
      |t ib l1 d Hi E|t ib l1 d i Hi Hc Hn|t ib l1 d st Hi E H|t ib l1 d Hi H|t ib l1 d Hi H|t ib l1 d Hi H
      |t c raw tn Hc Hr Hb H1 H2|t c raw tn v Hc Hr Hb H1 H2|t c raw Hc Hr Hb H|t c raw so n st v Hc Hr Hb He Hd H
      |t c raw so n st v Hc Hr Hb He Hd H0 H|t c raw so n st v sp Hc Hr Hb He Hd Hsp Hen H
      |t c tn st v sp Hc Hm Hd Hsp H|t c tn st v sp Hc Hm Hd Hsp H|t c tn st v sp Hc Hm Hd Hsp H|t c st sp Hc Hd Hsp H
      |i Hi H|r so n sp Hr Hp H Hsp|r so n sp Hr Hp H0 H Hsp|r so n t Hr Hp Ht Hn H|r so n t i Hr Hp Ht Hn Hi H|i l r lt rt lc rc Hk H
      |i l r lt rt lc rc e sp Hk H1 H Hsp|i lt rt e sp Hi Hl Hr Hlen H Hsp|l1 i l2 E H];
      try (left; unfold missing; tauto); right.
    - exists (sb_span y). eapply v_two_projects. rewrite g_projects, E. reflexivity.
    - eexists. eapply v_property; [apply i_project; exact Hp|exact Hr].
    - eexists. eapply v_attribute; [apply i_settings; exact Hs|exact Hr].
    - eexists. apply v_table. rewrite g_tables. apply repeats_app. exact Hr.
    - eexists. eapply v_column; [apply i_table; exact Ht|exact Hr].
    - eexists. eapply v_alias; [rewrite g_tables, E, <- app_assoc; reflexivity|exact Ea|exact Hin|exact Ha].
    - eexists. apply v_enum. rewrite g_enums. apply repeats_app. exact Hr.
    - eexists. eapply v_enum_value; [apply i_enum; exact He|exact Hr].
    - eexists. apply v_group. rewrite g_groups. apply repeats_app. exact Hr.
    - eexists. eapply v_group_item; [apply i_group; exact Hg|exact E|exact Hin| |]; (eapply i_denotes; [exact Hg| |eassumption]); rewrite E; [apply in_mid|apply in_or_app; left; exact Hin].
    - eexists. eapply v_pk_twice; [apply i_table; exact Ht|exact E|exact Hp|exact Hin|exact Hp'].
    - eexists. eapply v_pk_null; [apply i_column; exact Hc|exact H].
    - eexists. eapply v_pk_array; [apply i_column; exact Hc|exact H|exact H2].
    - eexists. eapply v_null_conflict; [apply i_column; exact Hc|exact E|exact H1|exact H2].
    - eexists. eapply v_index_empty; [apply i_index; exact Hi|exact E].
    - eexists. eapply v_index_col; [apply i_index; exact Hi|exact Hc|exact Hn].
    - eexists. eapply v_index_kind; [apply i_index; exact Hi|exact E|exact H].
    - eexists. eapply v_index_pk; [apply i_index; exact Hi|exact H].
    - eexists. eapply v_index_unique; [apply i_index; exact Hi|exact H].
    - eexists. eapply v_index_again; [apply i_index; exact Hi|exact H].
    - eexists. eapply v_args_number; [apply i_column; exact Hc|eassumption..].
    - eexists. eapply v_args_value; [apply i_column; exact Hc|eassumption..].
    - eexists. eapply v_enum_name; [apply i_column; exact Hc|eassumption..].
    - eexists. eapply v_enum_value_missing; [apply i_column; exact Hc|exact Hr|exact Hb|exact He|exact Hd|exact Hsp| |].
      + rewrite g_enums, map_app. apply in_or_app. left. exact Hen.
      + intros (e & H1 & H2 & H3). apply H. apply in_map_iff in Hen as (e' & H4 & H5). exists e'. split; [exact H5|]. split; [exact H4|].
        replace e' with e; [exact H3|]. destruct W as (_ & _ & (Hd' & _) & _). eapply (NoDup_map_inj enum_name); [exact Hd'|exact H1|apply i_enum; exact H5|congruence].
    - eexists. eapply v_default_string; [apply i_column; exact Hc|eassumption..].
    - eexists. eapply v_default_int; [apply i_column; exact Hc|eassumption..].
    - eexists. eapply v_default_bool; [apply i_column; exact Hc|eassumption..].
    - eexists. eapply v_default_null; [apply i_column; exact Hc|eassumption..].
    - eexists. eapply v_ref_lengths; [apply i_all_refs; exact Hi|exact H].
    - eexists. eapply v_ref_column; [apply i_endpoint; exact Hr|apply i_points; eassumption|apply i_table; exact Ht|exact Hn|exact Hi|exact H].
    - eexists. eapply v_ref_type; [apply i_linked; exact Hk|exact H].
    - eexists. eapply v_ref_key; [apply i_linked; exact Hk|exact H1|exact H|exact Hsp].
    - eexists. eapply v_ref_keys; [apply i_all_refs; exact Hi|apply i_target; [exists i; auto|exact Hl]|apply i_target; [exists i; auto|exact Hr]|exact Hlen|exact H|exact Hsp].
    - assert (Hi : In i (all_refs x)) by (rewrite E; apply in_mid). pose proof (i_all_refs _ Hi) as Hi'.
      apply in_split in Hi' as (m1 & m2 & E'). eexists. eapply v_ref_clash; [exact E'|]. destruct H as [H|(o & Ho & H)]; [left; exact H|right]. exists o.
      assert (Ho' : In o (all_refs x)) by (rewrite E; apply in_app_or in Ho as [Ho|Ho]; apply in_or_app; [left|right; right]; exact Ho).
      split; [|apply i_clashes; assumption]. destruct g_all_refs as (extra & P). rewrite E', E, <- app_assoc in P. cbn [app] in P.
      apply Permutation_app_inv in P. eapply Permutation_in; [apply Permutation_sym, P|]. rewrite app_assoc. apply in_or_app. left. exact Ho.
  Qed.
  Lemma part_err e sp : analyze x = Err (ErSem e sp) -> missing e.
  Proof.
    intros A. pose proof (analyze_ok x) as V. rewrite A in V. cbn [ok_or] in V. apply grown in V as [M|(sp' & V)]; [exact M|].
    exfalso. exact (nothing_violated _ W _ _ V).
  Qed.
  Lemma part_unsized : ~ unsized_default x.
  Proof.
    intros (t & c & tn & st & v & Hc & Hm & Hl & Hd & Ha). eapply (no_panic_wf _ W). eapply p_no_length; [apply i_column; exact Hc|exact Hm|exact Hl|exact Hd|exact Ha].
  Qed.
End Part.

(** ** From what a text says *)
Lemma z_unsized x : unsized_default x -> unsized_default (z_schema x).
Proof.
  intros (t & c & tn & st & v & Hc & (raw & Hr & Hm) & Hl & [Hs Hd] & Ha). exists (z_table t), (z_col c), tn, (z_cst st), v.
  split; [|split; [exists raw; split; [exact Hr|exact Hm]|split; [exact Hl|split; [split; [cbn [z_col tc_settings]; rewrite Hs; reflexivity|exact Hd]|exact Ha]]]].
  destruct Hc as [t c H1 H2]. split; [rewrite z_tables; apply in_map; exact H1|apply (in_map z_col); exact H2].
Qed.
Lemma zm {A B} (f : A -> B) (g : A -> A) l : (forall a, f (g a) = f a) -> map f (map g l) = map f l.
Proof. intros H. rewrite map_map. apply map_ext. exact H. Qed.
Lemma zo {A B} (f : A -> B) (g : A -> A) o : (forall a, f (g a) = f a) -> option_map f (option_map g o) = option_map f o.
Proof. intros H. destruct o; cbn; [rewrite H|]; reflexivity. Qed.
Lemma zl {A B} (f : A -> B) (g : A -> A) o : (forall a, f (g a) = f a) -> opt_list f (option_map g o) = opt_list f o.
Proof. intros H. destruct o; cbn; [rewrite H|]; reflexivity. Qed.
Lemma zs_attr a : e_attr (z_attr a) = e_attr a.
Proof. unfold e_attr, z_attr. cbn. rewrite (zo lit_value z_lit) by reflexivity. reflexivity. Qed.
Lemma zs_end r : e_ref_end (z_rid r) = e_ref_end r.
Proof. unfold e_ref_end, z_rid. cbn. rewrite (zo id_str z_ident), (zm id_str z_ident) by reflexivity. reflexivity. Qed.
Lemma zs_cst x : e_col_settings (z_cst x) = e_col_settings x.
Proof.
  unfold e_col_settings, z_cst. cbn. rewrite (zm e_attr z_attr _ zs_attr), (zm e_inline z_inline); [reflexivity|].
  intros a. unfold e_inline. cbn. rewrite zs_end. reflexivity.
Qed.
Lemma zs_col c : e_col (z_col c) = e_col c.
Proof. unfold e_col. cbn. rewrite (zo e_col_settings z_cst _ zs_cst). reflexivity. Qed.
Lemma zs_index d : e_index (z_idef d) = e_index d.
Proof.
  unfold e_index. cbn. rewrite (zm e_index_col z_icol) by (intros []; reflexivity). f_equal. apply zo. intros a. cbn. apply (zm e_attr z_attr _ zs_attr).
Qed.
Lemma z_says b : e_block (z_block b) = e_block b.
Proof.
  destruct b as [p|t|g|n|r|e]; cbn [z_block e_block]; f_equal.
  - unfold e_project. cbn. rewrite (zm e_prop z_prop), (zl e_note z_note) by reflexivity. reflexivity.
  - unfold e_table_block. cbn. rewrite !(zo id_str z_ident), (zl e_note z_note), (zm e_col z_col _ zs_col) by reflexivity. f_equal.
    + apply zo. intros a. cbn. apply (zm e_attr z_attr _ zs_attr).
    + apply zl. intros a. cbn. apply (zm e_index z_idef _ zs_index).
  - unfold e_group. cbn. rewrite (zl e_note z_note) by reflexivity. f_equal.
    + apply zo. intros a. cbn. apply (zm e_attr z_attr _ zs_attr).
    + apply (zm _ z_item). intros a. cbn. rewrite (zo id_str z_ident) by reflexivity. reflexivity.
  - unfold e_ref. cbn. rewrite (zo id_str z_ident), !zs_end by reflexivity. f_equal. apply zo. intros a. cbn. apply (zm e_attr z_attr _ zs_attr).
  - unfold e_enum. cbn. rewrite (zo id_str z_ident) by reflexivity. f_equal. apply (zm _ z_ev). intros a. cbn. f_equal. apply zo. intros st. cbn. apply (zm e_attr z_attr _ zs_attr).
Qed.
Lemma settle_links a : links (settle a) = links a.
Proof.
  unfold links, block_links. rewrite settle_refs, settle_tables. f_equal. induction (tables_of a) as [|t l IH]; [reflexivity|]. cbn [map flat_map]. rewrite IH. reflexivity.
Qed.
Lemma says_more_ok t1 t2 a b : dbml_text t1 a -> dbml_text t2 b -> says_more a b -> is_accepted t2 ->
  is_accepted t1 \/ exists e sp, parse_dbml t1 = Some (Err (ErSem e sp)) /\ missing e.
Proof.
  intros H1 H2 (rest & P & Nt) Ha. apply (accepted_reads _ _ H2) in Ha as (F2 & y & Hy & My & Ay).
  assert (F1 : fits a). { unfold fits in *. apply (Permutation_Forall P) in F2. apply Forall_app in F2. apply F2. }
  destruct (written_is_read _ _ H1 F1) as (x & Hx & Mx).
  pose proof (unchecked_ok _ _ Hx) as Kx. pose proof (unchecked_ok _ _ Hy) as Ky.
  assert (PB : Permutation (map e_block (sb_blocks y)) (map e_block (sb_blocks x) ++ settle rest)).
  { change (map e_block (sb_blocks y)) with (meaning y). change (map e_block (sb_blocks x)) with (meaning x). rewrite Mx, My. unfold settle. rewrite <- map_app. apply Permutation_map. exact P. }
  apply Permutation_sym, Permutation_map_inv in PB as (l & El & Pl).
  symmetry in El. apply map_eq_app in El as (l1 & l2 & -> & E1 & E2).
  pose proof (Permutation_Forall Pl (z_blocks _ _ Ky)) as Kl. apply Forall_app in Kl as [Kl1 Kl2].
  assert (Ez : map z_block l1 = map z_block (sb_blocks x)).
  { eapply (map_pointwise e_block e_block z_block z_block _ _ _ _ E1 Kl1 (z_blocks _ _ Kx)). intros u v. apply m_block. }
  pose (w := mkSchema (0, 0) [] (sb_blocks (z_schema x) ++ map z_block l2)).
  assert (Ww : wf w).
  { apply analyze_accepts. eapply perm_accept; [|exact Ay]. cbn [w z_schema sb_blocks]. rewrite <- Ez, <- map_app. apply Permutation_sym, Permutation_map. exact Pl. }
  assert (Mz : meaning (z_schema x) = settle a). { rewrite <- Mx. unfold meaning. cbn [z_schema sb_blocks]. rewrite map_map. apply map_ext. apply z_says. }
  assert (Mr : meaning (mkSchema (0, 0) [] (map z_block l2)) = settle rest). { unfold meaning. cbn [sb_blocks]. rewrite map_map, <- E2. apply map_ext. apply z_says. }
  assert (Al : forall u k, In u (tables (mkSchema (0, 0) [] (map z_block l2))) -> alias_of u = Some k -> exists u', In u' (tables_of rest) /\ t_alias u' = Some k).
  { intros u k Hu Hk. apply (in_map e_table_block) in Hu. rewrite <- tables_same, Mr, settle_tables in Hu. apply in_map_iff in Hu as (u' & Eu & Hu').
    exists u'. split; [exact Hu'|]. rewrite <- Hk, <- alias_same, <- Eu. reflexivity. }
  assert (Nr : forall r u, endpoint_of (z_schema x) r -> In u (tables (mkSchema (0, 0) [] (map z_block l2))) -> alias_of u <> Some (id_str (ri_table r))).
  { intros r u (i & Hi & Hr) Hu Hk. destruct (Al _ _ Hu Hk) as (u' & Hu' & Hk'). apply Nt. exists u', (id_str (ri_table r)). split; [exact Hu'|]. split; [exact Hk'|]. left.
    exists (e_link i). split; [rewrite <- settle_links, <- Mz, links_same; apply in_map; exact Hi|]. destruct Hr as [->| ->]; [left|right]; reflexivity. }
  assert (Ng : forall g it u, In g (table_groups (z_schema x)) -> In it (tg_items g) -> gi_schema it = None -> In u (tables (mkSchema (0, 0) [] (map z_block l2))) ->
    alias_of u <> Some (id_str (gi_ident_alias it))).
  { intros g it u Hg Hi Hs Hu Hk. destruct (Al _ _ Hu Hk) as (u' & Hu' & Hk'). apply Nt. exists u', (id_str (gi_ident_alias it)). split; [exact Hu'|]. split; [exact Hk'|]. right.
    apply (in_map e_group) in Hg. rewrite <- groups_same, Mz, settle_groups in Hg. apply in_map_iff in Hg as (g' & Eg & Hg'). exists g'. split; [exact Hg'|].
    apply (f_equal g_items) in Eg. cbn [g_items] in Eg. rewrite Eg. unfold e_group. cbn [g_items]. apply in_map_iff. exists it. split; [rewrite Hs; reflexivity|exact Hi]. }
  pose proof (part_err (z_schema x) w (map z_block l2) eq_refl Nr Ng Ww) as PE. pose proof (part_unsized (z_schema x) w (map z_block l2) eq_refl Ww) as PU.
  pose proof (z_analyze _ _ Kx) as Z. pose proof (analyze_parsed _ _ Kx) as A. unfold is_accepted, parse_dbml. rewrite Hx. cbn [bind].
  destruct (analyze x) as [an|[| | |e sp]|]; cbn [omap] in *; try contradiction.
  - left. eexists. reflexivity.
  - right. exists e, sp. split; [reflexivity|]. destruct (analyze (z_schema x)) as [|[| | |e' sp']|]; cbn [sim] in Z; try contradiction.
    specialize (PE _ _ eq_refl). unfold missing in *. destruct e, e'; cbn [sem_kind] in Z; try discriminate; intuition congruence.
  - exfalso. apply PU, z_unsized, A.
Qed.

Lemma faults_stay t1 t2 a b : dbml_text t1 a -> dbml_text t2 b -> says_more a b ->
  (forall x, parse_dbml t1 <> Some (Ok x)) -> (forall e sp, parse_dbml t1 = Some (Err (ErSem e sp)) -> ~ missing e) -> ~ is_accepted t2.
Proof.
  intros H1 H2 M N1 N2 Ha. destruct (says_more_ok _ _ _ _ H1 H2 M Ha) as [[x Hx]|(e & sp & He & Hm)]; [exact (N1 x Hx)|exact (N2 _ _ He Hm)].
Qed.
