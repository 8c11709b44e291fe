(** * RespanGrowF: misfits read in a text with something after it. *)

From Verif Require Import SynLex SynEval SynCut Faults RespanFaults.
From Verif Require Import SynGrow.
From Verif Require Export RespanGrow.
From Verif Require Import Syntax.

Section After.
Variables inp t : str.
Notation z := (10 :: t).
Notation inp' := (inp ++ z).
Notation safe := (safe t).
Notation ext := (ext t).
Notation gA := (gA t).
Notation gB := (gB t).

Ltac ne := repeat first [assumption | apply close_ne; discriminate | eapply px_ne; eassumption | eapply sx_ne; [eassumption|]].
Ltac sf := repeat first [eassumption | eapply safe_px; [eassumption|] | eapply safe_sx; [eassumption|]].
Ltac ga L H := let P := fresh "P" in let Q := fresh "Q" in destruct (L _ _ _ H) as [P Q].
Ltac nx L H := ga (gB_next t _ _ (gAB t _ _ L)) H.
Ltac nb L H := ga (gB_next t _ _ L) H.
Ltac my L H := let P := fresh "P" in let Q := fresh "Q" in destruct (g_maybe t _ _ _ _ _ (gB_next t _ _ (gAB t _ _ L)) H) as [P Q].
Ltac tk H := let P := fresh "P" in let Q := fresh "Q" in match type of H with
  | tok ?w ?i ?m => destruct (g_tok t w i m ltac:(discriminate) H) as [P Q] | kw ?w ?i ?m => destruct (g_kw t w i m ltac:(discriminate) H) as [P Q]
  | lay ?i ?m => destruct (g_lay t i m H) as [P Q] end.
Ltac pxs := repeat first [eassumption | eapply px_trans; [eassumption|] | eapply sx_px_trans; [eassumption|] | eapply px_sx_trans; [eassumption|]].
Ltac qq := match goal with
  | Q : _ <> [] -> SynGrow.safe t _ -> _ |- _ => eapply Q; [solve [ne]|solve [sf]]
  | Q : SynGrow.safe t _ -> _ |- _ => eapply Q; solve [sf] end.
Ltac tl L O H := let P := fresh "P" in let Q := fresh "Q" in destruct (gB_tail t _ _ _ _ _ _ _ _ L O H) as [P Q].

Lemma gA_sound {A} (R R' : reader A) : gA R R' -> gA (sound R) (sound R').
Proof. intros H i m l ((x & Hx) & ->). destruct (H _ _ _ Hx) as [P Q]. split; [exact P|]. intros Hs. split; [eauto|reflexivity]. Qed.
Lemma gB_attribute_f J : gB (attribute_f inp J) (attribute_f inp' J).
Proof.
  intros i m x H. destruct H as [i m k Hk|i m1 m2 m k v ws Hk Ht Hv Hj].
  - nx (gA_key inp t) Hk. split; [exact P|]. intros Hm Hs. econstructor. qq.
  - nx (gA_key inp t) Hk. tk Ht. ga (gA_attr_value t) Hv. split; [pxs|]. intros Hm Hs. rewrite <- (span_grow inp t m2), <- (span_grow inp t i). eapply valued_f; [qq|qq|qq|exact Hj].
Qed.
Lemma gA_settings_f J : gA (settings_f inp J) (settings_f inp' J).
Proof.
  intros i m x (ls & H & ->). ga (gA_list t "[" "]" _ _ ltac:(discriminate) ltac:(discriminate) (gB_attribute_f J)) H. split; [exact P|]. intros Hs. eexists. split; [qq|reflexivity].
Qed.

(** ** Types *)
Lemma g_args i m l : args_f inp i m l -> px i m /\ args_f inp' (i ++ z) (m ++ z) l.
Proof.
  intros H. induction H as [raw v m Ha|raw v i m l Ha Hl [P Q]]; pose proof (arg_ne _ _ Ha) as Hn.
  - split; [eapply px_sx_trans; [apply px_app; exact Hn|apply sx_app]|]. rewrite <- (span_grow inp t), <- !app_assoc. constructor. exact Ha.
  - split; [eapply px_trans; [|exact P]; eapply px_sx_trans; [apply px_app; exact Hn|apply sx_app]|].
    rewrite <- (span_grow inp t), <- !app_assoc. constructor; assumption.
Qed.
Lemma g_arguments i m l : arguments_f inp i m l -> sx i m /\ arguments_f inp' (i ++ z) (m ++ z) l.
Proof.
  intros H. destruct H as [m|m|i m l H].
  - split; [apply sx_refl|constructor].
  - split; [apply sx_app|]. rewrite <- app_assoc. constructor.
  - destruct (g_args _ _ _ H) as [P Q]. split; [eapply sx_trans; [apply sx_app|apply px_sx; exact P]|]. rewrite <- app_assoc. constructor. exact Q.
Qed.
Lemma g_dims i m l : dims_f inp i m l -> sx i m /\ dims_f inp' (i ++ z) (m ++ z) l.
Proof.
  intros H. induction H as [m|i m l H [P Q]|d i m l Hd H [P Q]].
  - split; [apply sx_refl|constructor].
  - split; [eapply sx_trans; [apply sx_app|exact P]|]. rewrite <- app_assoc. constructor. exact Q.
  - split; [eapply sx_trans; [|exact P]; rewrite !app_assoc; apply sx_app|]. rewrite <- (span_grow inp t), <- !app_assoc. constructor; assumption.
Qed.
Lemma no_schema_grow x m : sx x (dq ++ m) -> no_schema (dq ++ x) -> no_schema (dq ++ x ++ z).
Proof.
  intros (v & ->) H w y Hc E. apply app_inv_head in E. rewrite <- !app_assoc in E.
  assert (K : exists y', v ++ dq ++ m = w ++ dq ++ s "." ++ y'); [|destruct K as (y' & K); apply (H w y' Hc); rewrite K; reflexivity].
  clear H. assert (Hw : exists k, v = w ++ k).
  { apply app_eq_app in E as (k & [[-> _]|[-> E]]); [exists k; reflexivity|]. destruct k as [|c k]; [exists []; rewrite !app_nil_r; reflexivity|]. exfalso.
    cbn in E. injection E as <- E. assert (E2 : v ++ 34 :: k ++ [34] = v ++ dq ++ (k ++ dq)) by reflexivity. specialize (Hc v (k ++ dq)). rewrite <- app_assoc in Hc. specialize (Hc E2).
    apply app_eq_nil in Hc as [_ Hc]. discriminate. }
  destruct Hw as (k & ->). rewrite <- !app_assoc in *. apply app_inv_head in E. destruct k as [|c k].
  - cbn in E. injection E as E. destruct m as [|c m]; [discriminate|]. cbn in E. injection E as -> E. exists m. reflexivity.
  - cbn in E. injection E as -> E. destruct k as [|c k]; cbn in E; [injection E as E _; discriminate|]. injection E as -> E. exists (k ++ dq ++ m). reflexivity.
Qed.
Lemma g_type_parts i m l : type_parts_f inp i m l -> type_parts_f inp' (i ++ z) (m ++ z) l.
Proof.
  intros H. destruct H as [p np b i m1 m l1 l2 H1 H2 H3 H4|p np b i m1 m2 m l1 l2 l3 H1 H2 H3 H4 H5 H6].
  - destruct (g_arguments _ _ _ H3) as [P Q], (g_dims _ _ _ H4) as [P1 Q1]. rewrite <- !app_assoc. econstructor; eassumption.
  - destruct (g_arguments _ _ _ H3) as [P Q], (g_dims _ _ _ H4) as [P1 Q1], (g_dims _ _ _ H5) as [P2 Q2]. rewrite <- app_assoc in Q1. rewrite <- !app_assoc.
    eapply quoted_parts; try eassumption. intros E. rewrite (app_assoc b). eapply (no_schema_grow _ m2); [|exact (H6 E)].
    eapply sx_trans; [apply sx_app|]. eapply sx_trans; eassumption.
Qed.
Lemma gA_type_f : gA (type_f inp) (type_f inp').
Proof.
  intros i m l ((raw & ty & E & H1 & H2 & H3) & H). split; [rewrite E; apply px_app; eapply type_raw_ne; exact H1|]. intros Hs.
  split; [|apply g_type_parts; exact H]. exists raw, ty. split; [rewrite E; symmetry; apply app_assoc|]. split; [exact H1|].
  split; [|apply no_dim_grow; exact H3]. intros y c Ey Hc. apply no_word_grow. eapply H2; eassumption.
Qed.

(** ** Tables *)
Lemma gB_col_item_f : gB (col_item_f inp) (col_item_f inp').
Proof.
  intros i m l [H|H]; [destruct (gB_attribute_f no_rule _ _ _ H) as [P Q]|destruct (gAB t _ _ (gA_sound _ _ (gA_inline inp t)) _ _ _ H) as [P Q]];
  (split; [exact P|]); intros Hm Hs; [left|right]; auto.
Qed.
Lemma gA_col_settings_f : gA (col_settings_f inp) (col_settings_f inp').
Proof.
  intros i m x (ls & H & ->). ga (gA_list t "[" "]" _ _ ltac:(discriminate) ltac:(discriminate) gB_col_item_f) H. split; [exact P|]. intros Hs. eexists. split; [qq|reflexivity].
Qed.
Lemma gB_column_f : gB (column_f inp) (column_f inp').
Proof.
  intros i m x H. destruct H as [i m1 m n l o H1 H2]. nx (gA_ident inp t) H1. tl (gAB t _ _ gA_type_f) (gAB t _ _ gA_col_settings_f) H2. split; [pxs|].
  intros Hm Hs. econstructor; qq.
Qed.
Lemma gB_index_f : gB (index_f inp) (index_f inp').
Proof.
  intros i m x H. destruct H as [i m c o H|i m c o H].
  - tl (gAB t _ _ (gA_index_col inp t)) (gAB t _ _ (gA_settings_f index_rule)) H. split; [exact P|]. intros Hm Hs. econstructor. qq.
  - tl (gAB t _ _ (gA_list t "(" ")" _ _ ltac:(discriminate) ltac:(discriminate) (gAB t _ _ (gA_index_col inp t)))) (gAB t _ _ (gA_settings_f index_rule)) H. split; [exact P|].
    intros Hm Hs. eapply index_multi_f. qq.
Qed.
Lemma gA_indexes_f : gA (indexes_f inp) (indexes_f inp').
Proof. intros i m x H. destruct H as [i m1 m ls H1 H2]. tk H1. ga (gA_braces t _ _ gB_index_f) H2. split; [pxs|]. intros Hs. econstructor; qq. Qed.
Lemma gB_table_item_f : gB (table_item_f inp) (table_item_f inp').
Proof.
  intros i m l [H|[H|H]]; [destruct (gB_column_f _ _ _ H) as [P Q]|destruct (gA_sound _ _ (gA_note inp t) _ _ _ H) as [P Q]|destruct (gA_indexes_f _ _ _ H) as [P Q]];
  (split; [exact P|]); intros Hm Hs; unfold table_item_f; auto.
Qed.
Lemma gA_table_f : gA (table_f inp) (table_f inp').
Proof.
  intros i m x H. destruct H as [i m1 m2 m3 m4 m5 m d al o ls H1 H2 H3 H4 H5 H6]. tk H1. ga (gB_decl inp t) H2. tk H3.
  my (gA_alias inp t) H4. my (gA_settings_f no_rule) H5. ga (gA_braces t _ _ gB_table_item_f) H6. split; [pxs|]. intros Hs. econstructor; qq.
Qed.

(** ** Enums, groups, projects, references *)
Lemma gB_enum_value_f : gB (enum_value_f inp) (enum_value_f inp').
Proof. intros i m x H. destruct H as [i m v o H]. tl (gAB t _ _ (gA_ident inp t)) (gAB t _ _ (gA_settings_f no_rule)) H. split; [exact P|]. intros Hm Hs. econstructor. qq. Qed.
Lemma gA_enum_f : gA (enum_f inp) (enum_f inp').
Proof.
  intros i m x H. destruct H as [i m1 m2 m3 m d ls H1 H2 H3 H4]. tk H1. ga (gB_decl inp t) H2. tk H3.
  ga (gA_braces t _ _ gB_enum_value_f) H4. split; [pxs|]. intros Hs. econstructor; qq.
Qed.
Lemma gA_group_f : gA (group_f inp) (group_f inp').
Proof.
  intros i m x H. destruct H as [i m1 m2 m3 m n o ls H1 H2 H3 H4]. tk H1. nx (gA_ident inp t) H2. my (gA_settings_f no_rule) H3.
  ga (gA_braces t _ _ (gB_group_part inp t)) H4. split; [pxs|]. intros Hs. econstructor; qq.
Qed.
Lemma gB_property_f : gB (property_f inp) (property_f inp').
Proof.
  intros i m x H. destruct H as [i m1 m2 m k v H1 H2 H3 H4]. nx (gA_key inp t) H1. tk H2. ga (gA_plain_value t) H3.
  split; [pxs|]. intros Hm Hs. rewrite <- (span_grow inp t). econstructor; [qq|qq|qq|exact H4].
Qed.
Lemma gB_project_item_f : gB (project_item_f inp) (project_item_f inp').
Proof.
  intros i m l [H|H]; [destruct (gA_sound _ _ (gA_note inp t) _ _ _ H) as [P Q]|destruct (gB_property_f _ _ _ H) as [P Q]];
  (split; [exact P|]); intros Hm Hs; unfold project_item_f; auto.
Qed.
Lemma gA_project_f : gA (project_f inp) (project_f inp').
Proof.
  intros i m x H. destruct H as [i m1 m2 m n ls H1 H2 H3]. tk H1. nx (gA_ident inp t) H2. ga (gA_braces t _ _ gB_project_item_f) H3. split; [pxs|]. intros Hs. econstructor; qq.
Qed.
Lemma g_stmt_f i m l : stmt_f inp i m l -> px i m /\ (safe i -> stmt_f inp' (i ++ z) (m ++ z) l \/ (m = [] /\ stmt_f inp' (i ++ z) (fin t) l)).
Proof.
  intros H. destruct H as [i m1 m2 m x a b o H1 H2 H3]. nx (gA_endpoint inp t) H1. nx (gA_rel t) H2.
  destruct H3 as [i0 m0 a0 Ha|i0 m3 m0 a0 b0 Ha Hb].
  - nx (gA_endpoint inp t) Ha. destruct (gA_next t _ _ _ _ _ (gA_endpoint inp t) Ha) as [_ Q2]. split; [pxs|]. intros Hs. destruct m0 as [|c m0].
    + right. split; [reflexivity|]. eapply (stmt_faults inp' (i ++ z) (m1 ++ z) (i0 ++ z) (fin t)); [qq|qq|]. constructor. apply Q2. sf.
    + left. assert (Hm : c :: m0 <> []) by discriminate. econstructor; [qq|qq|]. constructor. qq.
  - nx (gA_endpoint inp t) Ha. ga (gA_settings_f action_rule) Hb. split; [pxs|]. intros Hs. left. econstructor; [qq|qq|]. econstructor; qq.
Qed.
Lemma gB_stmt_f : gB (stmt_f inp) (stmt_f inp').
Proof. intros i m l H. destruct (g_stmt_f _ _ _ H) as (P & Q). split; [exact P|]. intros Hm Hs. destruct (Q Hs) as [Q1|[Q1 _]]; [exact Q1|contradiction]. Qed.
Lemma g_reference_f i m l : reference_f inp i m l -> px i m /\ (safe i -> reference_f inp' (i ++ z) (m ++ z) l \/ (m = [] /\ reference_f inp' (i ++ z) (fin t) l)).
Proof.
  intros H. destruct H as [i m1 m2 m3 m n l H1 H2 H3 H4|i m1 m2 m3 m n l H1 H2 H3 H4].
  - tk H1. my (gA_ident inp t) H2. tk H3. destruct (g_stmt_f _ _ _ H4) as (P3 & Q3). split; [pxs|]. intros Hs.
    assert (Hs3 : safe m3) by sf. destruct (Q3 Hs3) as [Q4|[-> Q4]]; clear Q3; [left|right; split; [reflexivity|]]; (eapply reference_colon_f; [qq|qq|qq|exact Q4]).
  - tk H1. my (gA_ident inp t) H2. tk H3. nb gB_stmt_f H4. split; [eapply px_sx_trans; [|exists (s "}"); reflexivity]; pxs|]. intros Hs. left.
    eapply reference_braces_f; [qq|qq|qq|]. rewrite app_assoc. qq.
Qed.
Lemma g_top_f i r l : safe i -> next (top_f inp) i r l -> px i r /\ next (top_f inp') (i ++ z) (ext r) l.
Proof.
  intros Hs (m & H & Hl). pose proof (lay_sx _ _ Hl) as K.
  assert (G : px i m /\ (top_f inp' (i ++ z) (m ++ z) l \/ (m = [] /\ top_f inp' (i ++ z) (fin t) l))).
  { unfold top_f in *. destruct H as [H|[H|[H|[H|[H|H]]]]].
    - ga gA_project_f H. auto 12.
    - ga gA_table_f H. auto 12.
    - ga gA_group_f H. auto 12.
    - ga (gA_sound _ _ (gA_note inp t)) H. auto 12.
    - destruct (g_reference_f _ _ _ H) as [P Q]. split; [exact P|]. destruct (Q Hs) as [Q1|[Q0 Q1]]; [left|right]; auto 10.
    - ga gA_enum_f H. auto 12. }
  destruct G as [P G]. split; [eapply px_sx_trans; eassumption|]. destruct G as [G|[-> G]].
  - exists (m ++ z). split; [exact G|]. apply lay_grow; [sf|exact Hl].
  - apply lay_fin in Hl. assert (r = []) as -> by (rewrite <- Hl; apply fin_solid; exact Logic.I). exists (fin t). split; [exact G|apply lay_self, fin_fin].
Qed.
Lemma g_tops_f i r ls : safe i -> many (next (top_f inp)) i r ls -> many (next (top_f inp')) (ext i) (ext r) ls.
Proof.
  intros Hs H. induction H as [i|i m r b l Hb _ IH]; [constructor|]. destruct (g_top_f _ _ _ Hs Hb) as [P Q].
  rewrite (ext_ne t i) by (eapply px_ne; exact P). econstructor; [exact Q|]. apply IH. eapply safe_px; eassumption.
Qed.
End After.

Lemma faults_join t1 t2 l l' : safe t2 t1 -> faults t1 l -> faults t2 l' -> faults (t1 ++ 10 :: t2) (l ++ map (sf (t1 ++ [10])) l').
Proof.
  intros Hs (m & ls & Hl & Hm & ->) (m' & ls' & Hl' & Hm' & ->). exists (ext t2 m), (ls ++ map (map (sf (t1 ++ [10]))) ls').
  split; [apply lay_grow; assumption|]. split; [|rewrite List.concat_app, sf_concat; reflexivity]. eapply many_app.
  - apply g_tops_f; [eapply safe_sx; [apply lay_sx; exact Hl|exact Hs]|exact Hm].
  - cbn [ext]. apply lay_fin in Hl' as E. rewrite E. destruct (mv_many t2 _ _ _ m' [] _ (mv_next _ _ _ _ (mv_top_f (t1 ++ [10]) t2)) (lay_sx _ _ Hl') Hm') as [_ Q].
    rewrite <- app_assoc in Q. exact Q.
Qed.
