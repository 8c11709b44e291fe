(** * CharsFaults: the misfits of a text with characters without a meaning replaced. *)

From Verif Require Import CharsOk CharsMain SynMain.
From Verif Require Import Syntax CharsAst Faults.
From Verif Require Import CharsLoc.

Definition unsup : str := s "' type is not supported!".
(** The message with [f] applied to what it quotes. *)
Definition respelled_message (f : char -> char) (m : str) : str :=
  match m with
  | c :: r =>
      let k := (List.length r - List.length unsup)%nat in
      if (c =? 39) && str_eqb (skipn k r) unsup then not_supported (map f (firstn k r)) else m
  | [] => m
  end.
Lemma respelled_quoted f v : respelled_message f (not_supported v) = not_supported (map f v).
Proof.
  unfold not_supported at 1. fold unsup. change (s "'" ++ v ++ unsup) with (39 :: v ++ unsup). unfold respelled_message.
  assert (K : (List.length (v ++ unsup) - List.length unsup = List.length v)%nat) by (rewrite app_length; lia).
  rewrite K, firstn_app, Nat.sub_diag, firstn_all, skipn_app, skipn_all, Nat.sub_diag. cbn [firstn skipn app N.eqb Pos.eqb andb]. rewrite str_eqb_refl, app_nil_r. reflexivity.
Qed.
Lemma respelled_cases f m :
  respelled_message f m = m /\ (forall v, m <> not_supported v) \/ exists v, m = not_supported v /\ respelled_message f m = not_supported (map f v).
Proof.
  destruct m as [|c r]; [left; split; [reflexivity|discriminate]|]. cbn [respelled_message].
  set (k := (List.length r - List.length unsup)%nat). destruct ((c =? 39) && str_eqb (skipn k r) unsup) eqn:E.
  - right. apply andb_true_iff in E as [E1 E2]. apply N.eqb_eq in E1. apply str_eqb_eq in E2. exists (firstn k r). split; [|reflexivity].
    unfold not_supported. fold unsup. rewrite <- E2, firstn_skipn, E1. reflexivity.
  - left. split; [reflexivity|]. intros v K. unfold not_supported in K. fold unsup in K. change (c :: r = 39 :: v ++ unsup) in K. injection K as -> ->. subst k. revert E.
    rewrite app_length, Nat.add_sub, skipn_app, skipn_all, Nat.sub_diag. cbn [skipn app]. rewrite str_eqb_refl. discriminate.
Qed.

Section Spell.
Variable f : char -> char.
Variable inp : str.
Hypothesis Hf : respells f.
Hypothesis Hu : forall c, ulen (f c) = ulen c.
Notation inp' := (map f inp).
Notation M := (map f).
Notation mvs := (mvs f).
Definition sf (p : fault) : fault := (respelled_message f (fst p), snd p).
Notation gr := (fun c d => d = f c).
Local Instance gg' : good gr := good_graph f Hf.
Let blen_m' := blen_m f Hu.
Let span_m' := span_m f inp Hu.
Let m_id' := m_id f Hf.
Ltac mt := repeat match goal with
  | H : tok ?w ?i ?m |- _ => is_var i; apply (m_tok f Hf w) in H; [|nnl]
  | H : kw ?w ?i ?m |- _ => is_var i; apply (m_kw f Hf w) in H; [|nnl]
  | H : lay ?i ?m |- _ => is_var i; apply (m_lay f Hf) in H
  end.
Ltac cl w := rewrite ?map_app, ?(m_id' (s w)) in * by nnl.

Lemma sf_too_large sp : sf (too_large, sp) = (too_large, sp).
Proof. reflexivity. Qed.
Lemma value_faults_m v sp : value_faults (r_value f v) sp = map sf (value_faults v sp).
Proof. destruct v; try reflexivity. cbn [value_faults r_value]. destruct (z <=? _)%Z; [reflexivity|]. cbn [map]. rewrite sf_too_large. reflexivity. Qed.
Lemma size_faults_m n sp : size_faults n sp = map sf (size_faults n sp).
Proof. unfold size_faults. destruct (n <=? _); [reflexivity|]. cbn [map]. rewrite sf_too_large. reflexivity. Qed.
Lemma sf_concat ls : map sf (List.concat ls) = List.concat (map (map sf) ls).
Proof. apply concat_map. Qed.
Lemma opt_m o : opt_faults (option_map (map sf) o) = map sf (opt_faults o).
Proof. destruct o; reflexivity. Qed.
Lemma mv_sound {A} (R R' : reader A) sh : mvs R R' sh -> mvs (sound R) (sound R') (map sf).
Proof. intros H i m l ((x & Hx) & ->). split; [exists (sh x); apply H; exact Hx|reflexivity]. Qed.

(** ** Settings *)
Definition moves (J : judge) : Prop := forall k v ws, Forall special k -> J k v ws -> J k (r_value f v) (map (respelled_message f) ws).
Lemma no_rule_m : moves no_rule.
Proof. intros k v ws _ ->. reflexivity. Qed.
Lemma index_word_nn t : Forall special (index_type_word t).
Proof. destruct t; nnl. Qed.
Lemma index_rule_m : moves index_rule.
Proof.
  intros k v ws Hk [k0 v0 H|v0 H].
  - constructor. intros E. destruct (H E) as (t & Et). exists t. rewrite text_m by exact Hf. rewrite <- Et. symmetry. apply m_id', index_word_nn.
  - cbn [map]. fold (not_supported (value_to_string v0)). rewrite respelled_quoted. rewrite <- text_m by exact Hf. apply index_bad. intros t E. rewrite text_m in E by exact Hf. symmetry in E. apply (m_back f Hf) in E; [|apply index_word_nn]. exact (H t (eq_sym E)).
Qed.
Lemma action_word_nn t : Forall special (action_word t).
Proof. destruct t; nnl. Qed.
Lemma action_rule_m : moves action_rule.
Proof.
  intros k v ws Hk [k0 v0 H|k0 w Hi H].
  - constructor. intros w Hi E. destruct v0; try discriminate E. cbn [r_value] in E. injection E as <-. destruct (H _ Hi eq_refl) as (y & <-). exists y. symmetry. apply m_id', action_word_nn.
  - cbn [map r_value]. replace (respelled_message f (s "invalid referential action")) with (s "invalid referential action").
    + apply action_bad; [exact Hi|]. intros x E. symmetry in E. apply (m_back f Hf) in E; [|apply action_word_nn]. exact (H x (eq_sym E)).
    + reflexivity.
Qed.
Lemma mv_attribute_f J : moves J -> mvs (attribute_f inp J) (attribute_f inp' J) (map sf).
Proof.
  intros HJ i m x [i0 m0 k Hk|i0 m1 m2 m0 k v ws Hk Ht Hv Hj].
  - econstructor. apply (mv_next f Hf _ _ _ (mv_key f inp Hf Hu)). exact Hk.
  - assert (Hs : Forall special (id_str k)) by (destruct Hk as (m' & (_ & _ & _ & Hs & _) & _); apply spaced_nn; exact Hs).
    apply HJ in Hj; [|exact Hs]. apply (mv_next f Hf _ _ _ (mv_key f inp Hf Hu)) in Hk. mt. apply (mv_attr_value f Hf) in Hv.
    rewrite map_app, <- value_faults_m, <- !span_m', map_map. unfold sf. cbn [fst snd]. rewrite <- map_map with (f := respelled_message f) (g := fun w => (w, span inp' (M i0) (M m0))).
    eapply valued_f; [exact Hk|exact Ht|exact Hv|]. cbn [sp_ident id_str]. rewrite (m_id' _ Hs). exact Hj.
Qed.
Lemma mv_settings_f J : moves J -> mvs (settings_f inp J) (settings_f inp' J) (map sf).
Proof.
  intros HJ i m x (ls & H & ->). apply (mv_list f Hf "[" "]" _ _ _ ltac:(nnl) ltac:(nnl) (mv_attribute_f J HJ)) in H.
  rewrite sf_concat. eexists. split; [exact H|reflexivity].
Qed.

(** ** Types *)
Lemma arg_m raw v : arg_text raw v -> arg_text (M raw) (r_value f v).
Proof. intros H. destruct (e_arg (G := gg') _ _ _ H (graph_str f raw)) as (v' & A1 & A2). apply g_value in A2. rewrite A2 in A1. exact A1. Qed.
Lemma prefix_m p np : prefix_r p np -> prefix_r (M p) (M np).
Proof. intros H. destruct (e_prefix (G := gg') _ _ _ H (graph_str f p)) as (np' & A1 & A2 & _). rewrite (g_str _ _ _ A2) in A1. exact A1. Qed.
Lemma mv_args : mvs (args_f inp) (args_f inp') (map sf).
Proof.
  intros i m x H. induction H as [raw v m Ha|raw v i m l Ha Hl IH].
  - rewrite <- value_faults_m, <- span_m'. cl ")"%string. constructor. apply arg_m. exact Ha.
  - rewrite (map_app sf), <- value_faults_m, <- span_m'. cl ","%string. constructor; [apply arg_m; exact Ha|exact IH].
Qed.
Lemma mv_arguments : mvs (arguments_f inp) (arguments_f inp') (map sf).
Proof.
  intros i m l H. destruct H as [m|m|i m l H].
  - constructor.
  - cl "()"%string. constructor.
  - cl "("%string. constructor. apply mv_args. exact H.
Qed.
Lemma mv_dims : mvs (dims_f inp) (dims_f inp') (map sf).
Proof.
  intros i m l H. induction H as [m|i m l H IH|d i m l Hd H IH].
  - constructor.
  - cl "[]"%string. constructor. exact IH.
  - rewrite (map_app sf), <- size_faults_m, <- span_m'. cl "["%string. cl "]"%string. rewrite (m_id' d) by (apply digit_nn, Hd). constructor; [exact Hd|exact IH].
Qed.
Lemma mv_type_parts : mvs (type_parts_f inp) (type_parts_f inp') (map sf).
Proof.
  intros i m l H. destruct H as [p np b i m1 m l1 l2 H1 H2 H3 H4|p np b i m1 m2 m l1 l2 l3 H1 H2 H3 H4 H5 H6].
  - rewrite !map_app, (m_id' b (word_nn _ H2)). econstructor; [apply prefix_m; exact H1|exact H2|apply mv_arguments; exact H3|apply mv_dims; exact H4].
  - assert (Hq : M dq = dq) by (apply m_id'; nnl). apply mv_dims in H4. rewrite map_app, Hq in H4. 
    rewrite !map_app, Hq, (m_id' b (spaced_nn _ H2)). eapply quoted_parts; [apply prefix_m; exact H1|exact H2|apply mv_arguments; exact H3|exact H4|apply mv_dims; exact H5|].
    intros Hp. assert (Ep : p = []) by (destruct p; [reflexivity|discriminate]). specialize (H6 Ep).
    rewrite <- Hq, <- (m_id' b (spaced_nn _ H2)), <- !map_app. eapply (e_no_schema (G := gg')); [apply graph_str|exact H6].
Qed.
Lemma mv_type_f : mvs (type_f inp) (type_f inp') (map sf).
Proof.
  intros i m l ((raw & ty & E & H1 & H2 & H3) & H). split; [|apply mv_type_parts; exact H]. exists (M raw).
  destruct (e_type_raw (G := gg') _ _ _ H1 (graph_str f _)) as (ty' & K1 & _). exists ty'. split; [rewrite E, map_app; reflexivity|]. split; [exact K1|]. split.
  - intros y d Ey Hy. apply (m_no_word f Hf). assert (B : exists y', raw = y' ++ [d]).
    { pose proof (graph_str f raw) as G0. rewrite Ey in G0. apply e_sym in G0. apply e_split in G0 as (y' & w & Ew & _ & K). 
      apply (e_nonl (R := back gr)) in K as ->; [|constructor; [apply wc_nn; exact Hy|constructor]]. eauto. }
    destruct B as (y' & Ey'). exact (H2 y' d Ey' Hy).
  - intros d y Hd Ey. pose proof (graph_str f m) as G0. rewrite Ey in G0. apply e_sym in G0. apply (e_word (R := back gr)) in G0 as (w & -> & G0); [|nnl].
    apply (e_word (R := back gr)) in G0 as (w2 & -> & G0); [|apply digit_nn, Hd]. apply (e_word (R := back gr)) in G0 as (w3 & -> & _); [|nnl]. exact (H3 d w3 Hd eq_refl).
Qed.

(** ** Tables *)
Lemma mv_col_item_f : mvs (col_item_f inp) (col_item_f inp') (map sf).
Proof. intros i m l [H|H]; [left; apply (mv_attribute_f _ no_rule_m)|right; apply (mv_sound _ _ _ (mv_inline f inp Hf Hu))]; exact H. Qed.
Lemma mv_col_settings_f : mvs (col_settings_f inp) (col_settings_f inp') (map sf).
Proof.
  intros i m x (ls & H & ->). apply (mv_list f Hf "[" "]" _ _ _ ltac:(nnl) ltac:(nnl) mv_col_item_f) in H.
  rewrite sf_concat. eexists. split; [exact H|reflexivity].
Qed.
Lemma mv_column_f : mvs (column_f inp) (column_f inp') (map sf).
Proof.
  intros i m x H. destruct H as [i m1 m n l o H1 H2]. apply (mv_next f Hf _ _ _ (mv_ident f inp Hf Hu)) in H1. apply (mv_tail f Hf _ _ _ _ _ _ _ _ _ _ mv_type_f mv_col_settings_f) in H2.
  rewrite map_app, <- opt_m. econstructor; eassumption.
Qed.
Lemma mv_index_f : mvs (index_f inp) (index_f inp') (map sf).
Proof.
  intros i m x H. destruct H as [i m c o H|i m c o H]; rewrite <- opt_m.
  - apply (mv_tail f Hf _ _ _ _ _ _ _ _ _ _ (mv_index_col f inp Hf Hu) (mv_settings_f _ index_rule_m)) in H. econstructor. exact H.
  - apply (mv_tail f Hf _ _ _ _ _ _ _ _ _ _ (mv_list f Hf "(" ")" _ _ _ ltac:(nnl) ltac:(nnl) (mv_index_col f inp Hf Hu)) (mv_settings_f _ index_rule_m)) in H. eapply index_multi_f. exact H.
Qed.
Lemma mv_indexes_f : mvs (indexes_f inp) (indexes_f inp') (map sf).
Proof.
  intros i m x H. destruct H as [i m1 m ls H1 H2]. mt. apply (mv_braces f Hf _ _ _ mv_index_f) in H2. rewrite sf_concat. econstructor; eassumption.
Qed.
Lemma mv_table_item_f : mvs (table_item_f inp) (table_item_f inp') (map sf).
Proof.
  intros i m l [H|[H|H]]; [left; apply mv_column_f|right; left; apply (mv_sound _ _ _ (mv_note f inp Hf Hu))|right; right; apply mv_indexes_f]; exact H.
Qed.
Lemma mv_table_f : mvs (table_f inp) (table_f inp') (map sf).
Proof.
  intros i m x H. destruct H as [i m1 m2 m3 m4 m5 m d al o ls H1 H2 H3 H4 H5 H6]. mt. apply (mv_decl f inp Hf Hu) in H2.
  apply (mv_maybe f _ _ _ (mv_next f Hf _ _ _ (mv_alias f inp Hf Hu))) in H4. apply (mv_maybe f _ _ _ (mv_next f Hf _ _ _ (mv_settings_f _ no_rule_m))) in H5.
  apply (mv_braces f Hf _ _ _ mv_table_item_f) in H6. rewrite map_app, <- opt_m, sf_concat. econstructor; eassumption.
Qed.

(** ** Enums, groups, projects, references *)
Lemma mv_enum_value_f : mvs (enum_value_f inp) (enum_value_f inp') (map sf).
Proof. intros i m x H. destruct H as [i m v o H]. apply (mv_tail f Hf _ _ _ _ _ _ _ _ _ _ (mv_ident f inp Hf Hu) (mv_settings_f _ no_rule_m)) in H. rewrite <- opt_m. econstructor. exact H. Qed.
Lemma mv_enum_f : mvs (enum_f inp) (enum_f inp') (map sf).
Proof.
  intros i m x H. destruct H as [i m1 m2 m3 m d ls H1 H2 H3 H4]. mt. apply (mv_decl f inp Hf Hu) in H2. apply (mv_braces f Hf _ _ _ mv_enum_value_f) in H4.
  rewrite sf_concat. econstructor; eassumption.
Qed.
Lemma mv_group_f : mvs (group_f inp) (group_f inp') (map sf).
Proof.
  intros i m x H. destruct H as [i m1 m2 m3 m n o ls H1 H2 H3 H4]. mt. apply (mv_next f Hf _ _ _ (mv_ident f inp Hf Hu)) in H2.
  apply (mv_maybe f _ _ _ (mv_next f Hf _ _ _ (mv_settings_f _ no_rule_m))) in H3. apply (mv_braces f Hf _ _ _ (mv_group_part f inp Hf Hu)) in H4.
  rewrite <- opt_m. econstructor; eassumption.
Qed.
Lemma mv_property_f : mvs (property_f inp) (property_f inp') (map sf).
Proof.
  intros i m x H. destruct H as [i m1 m2 m k v H1 H2 H3 H4]. mt.
  assert (Hs : Forall special (id_str k)) by (destruct H1 as (m' & (_ & _ & _ & Hs & _) & _); apply spaced_nn; exact Hs).
  apply (mv_next f Hf _ _ _ (mv_key f inp Hf Hu)) in H1. apply (mv_plain_value f Hf) in H3. rewrite <- value_faults_m, <- span_m'. econstructor; [exact H1|exact H2|exact H3|].
  cbn [sp_ident id_str]. rewrite (m_id' _ Hs). intros [K1 (w & K2)]. apply H4. split; [exact K1|]. destruct v; try discriminate K2. eauto.
Qed.
Lemma mv_project_item_f : mvs (project_item_f inp) (project_item_f inp') (map sf).
Proof. intros i m l [H|H]; [left; apply (mv_sound _ _ _ (mv_note f inp Hf Hu))|right; apply mv_property_f]; exact H. Qed.
Lemma mv_project_f : mvs (project_f inp) (project_f inp') (map sf).
Proof.
  intros i m x H. destruct H as [i m1 m2 m n ls H1 H2 H3]. mt. apply (mv_next f Hf _ _ _ (mv_ident f inp Hf Hu)) in H2. apply (mv_braces f Hf _ _ _ mv_project_item_f) in H3.
  rewrite sf_concat. econstructor; eassumption.
Qed.
Lemma mv_stmt_f : mvs (stmt_f inp) (stmt_f inp') (map sf).
Proof.
  intros i m x H. destruct H as [i m1 m2 m x a b o H1 H2 H3]. apply (mv_next f Hf _ _ _ (mv_endpoint f inp Hf Hu)) in H1. apply (mv_next f Hf _ _ _ (mv_rel f Hf)) in H2.
  apply (mv_tail f Hf _ _ _ _ _ _ _ _ _ _ (mv_endpoint f inp Hf Hu) (mv_settings_f _ action_rule_m)) in H3. rewrite <- opt_m. econstructor; eassumption.
Qed.
Lemma mv_reference_f : mvs (reference_f inp) (reference_f inp') (map sf).
Proof.
  intros i m x H. destruct H as [i m1 m2 m3 m n l H1 H2 H3 H4|i m1 m2 m3 m n l H1 H2 H3 H4]; mt; apply (mv_maybe f _ _ _ (mv_next f Hf _ _ _ (mv_ident f inp Hf Hu))) in H2.
  - apply mv_stmt_f in H4. econstructor; eassumption.
  - apply (mv_next f Hf _ _ _ mv_stmt_f) in H4. cl "}"%string. eapply reference_braces_f; eassumption.
Qed.
Lemma mv_top_f : mvs (top_f inp) (top_f inp') (map sf).
Proof.
  intros i m l [H|[H|[H|[H|[H|H]]]]].
  - left. apply mv_project_f. exact H.
  - right; left. apply mv_table_f. exact H.
  - do 2 right; left. apply mv_group_f. exact H.
  - do 3 right; left. apply (mv_sound _ _ _ (mv_note f inp Hf Hu)). exact H.
  - do 4 right; left. apply mv_reference_f. exact H.
  - do 5 right. apply mv_enum_f. exact H.
Qed.
End Spell.

Lemma faults_m f t l : respells f -> (forall c, ulen (f c) = ulen c) -> faults t l -> faults (map f t) (map (sf f) l).
Proof.
  intros Hf Hu (m & ls & Hl & Hm & ->). exists (map f m), (map (map (sf f)) ls). split; [apply (m_lay f Hf); assumption|]. split; [|apply concat_map].
  apply (mv_many f _ _ _ (mv_next f Hf _ _ _ (mv_top_f f t Hf Hu))) in Hm. exact Hm.
Qed.
