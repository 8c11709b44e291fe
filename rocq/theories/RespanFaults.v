(** * RespanFaults: the misfits of a text with something before it. *)

From Verif Require Import Faults.
From Verif Require Export RespanLoc.

Section Shift.
Variables g inp : str.
Notation inp' := (g ++ inp).
Notation f := (further (blen g)).
Notation ends := (ends inp).
Notation mvs := (mvs inp).
Definition sf (p : fault) : fault := (fst p, f (snd p)).

Ltac pxs := repeat first [eassumption | eapply px_trans; [eassumption|] | eapply sx_px_trans; [eassumption|]].
Ltac en := repeat first [eassumption | eapply ends_px; [|eassumption] | eapply ends_sx; [|eassumption]].
Ltac rd L H := let a := fresh "P" in let b := fresh "Q" in let e := fresh "e" in
  match type of H with ?R ?i ?m ?x => assert (e : ends i) by en; destruct (L i m x e H) as [a b]; clear e end.
Ltac nx L H := rd (mv_next inp _ _ _ L) H.
Ltac tk H := match type of H with tok ?w ?i ?m => assert (px i m) by (apply (tok_px w); [discriminate|exact H]) end.
Ltac kk H := match type of H with kw ?w ?i ?m => assert (px i m) by (apply (kw_px w); [discriminate|exact H]) end.
Ltac my L H := let a := fresh "P" in let b := fresh "Q" in let e := fresh "e" in
  match type of H with ?R ?i ?m ?x => assert (e : ends i) by en; destruct (mv_maybe inp _ _ _ _ _ _ (mv_next inp _ _ _ L) e H) as [a b]; clear e end.
Ltac tl L O H := let a := fresh "P" in let b := fresh "Q" in let e := fresh "e" in
  match type of H with tail_at _ _ ?i _ _ _ => assert (e : ends i) by en; destruct (mv_tail inp _ _ _ _ _ _ _ _ _ _ L O e H) as [a b]; clear e end.

Lemma value_faults_after v sp : value_faults v (f sp) = map sf (value_faults v sp).
Proof. destruct v; try reflexivity. cbn [value_faults]. destruct (z <=? _)%Z; reflexivity. Qed.
Lemma size_faults_after n sp : size_faults n (f sp) = map sf (size_faults n sp).
Proof. unfold size_faults. destruct (n <=? _); reflexivity. Qed.
Lemma sf_concat ls : map sf (List.concat ls) = List.concat (map (map sf) ls).
Proof. apply concat_map. Qed.
Lemma opt_after o : opt_faults (option_map (map sf) o) = map sf (opt_faults o).
Proof. destruct o; reflexivity. Qed.
Lemma mv_sound {A} (R R' : reader A) sh : mvs R R' sh -> mvs (sound R) (sound R') (map sf).
Proof. intros H i m l He ((x & Hx) & ->). destruct (H _ _ _ He Hx) as [P Q]. split; [exact P|]. split; [eauto|reflexivity]. Qed.

Lemma mv_attribute_f J : mvs (attribute_f inp J) (attribute_f inp' J) (map sf).
Proof.
  intros i m x He H. destruct H as [i m k Hk|i m1 m2 m k v ws Hk Ht Hv Hj].
  - nx (mv_key g inp) Hk. split; [exact P|]. econstructor. exact Q.
  - nx (mv_key g inp) Hk. tk Ht. pose proof (attr_value_px _ _ _ Hv) as P1. assert (Hp : px i m) by pxs. split; [exact Hp|].
    rewrite map_app, map_map. unfold sf at 2. cbn [fst snd]. rewrite <- value_faults_after, <- !span_after; try assumption; [|en].
    eapply valued_f; eassumption.
Qed.
Lemma mv_settings_f J : mvs (settings_f inp J) (settings_f inp' J) (map sf).
Proof.
  intros i m x He (ls & H & ->). destruct (mv_list inp "[" "]" _ _ _ ltac:(discriminate) (mv_attribute_f J) _ _ _ He H) as [P Q]. split; [exact P|].
  rewrite sf_concat. eexists. split; [exact Q|reflexivity].
Qed.

(** ** Types *)
Lemma arg_ne raw v : arg_text raw v -> raw <> [].
Proof.
  assert (K : forall q raw v, q <> [] -> quoted_verbatim q raw v -> raw <> []).
  { intros q r0 v0 Hq (E & _) E0. rewrite E0 in E. destruct q; [congruence|discriminate]. }
  intros [r0 v0 H|r0 v0 H|r0 v0 H|d H|d1 d2 f0 H _ _| | | |h H1 H2]; try discriminate.
  - eapply K; [|exact H]; discriminate.
  - eapply K; [|exact H]; discriminate.
  - eapply K; [|exact H]; discriminate.
  - apply H.
  - intros E. apply app_eq_nil in E as [E _]. apply H. exact E.
Qed.
Lemma sx_app t m : sx (t ++ m) m.
Proof. exists t. reflexivity. Qed.
Lemma mv_args : mvs (args_f inp) (args_f inp') (map sf).
Proof.
  intros i m x He H. induction H as [raw v m Ha|raw v i m l Ha Hl IH]; pose proof (arg_ne _ _ Ha) as Hn.
  - split; [eapply px_sx_trans; [apply px_app; exact Hn|apply sx_app]|]. rewrite <- value_faults_after, <- span_after; [constructor; exact Ha|exact He|apply px_app; exact Hn].
  - assert (He2 : ends i). { eapply ends_sx; [exact He|]. rewrite app_assoc. apply sx_app. }
    destruct (IH He2) as [P Q]. split.
    + eapply px_trans; [|exact P]. eapply px_sx_trans; [apply px_app; exact Hn|apply sx_app].
    + rewrite map_app, <- value_faults_after, <- span_after; [constructor; assumption|exact He|apply px_app; exact Hn].
Qed.
Lemma mv_arguments i m l : ends i -> arguments_f inp i m l -> sx i m /\ arguments_f inp' i m (map sf l).
Proof.
  intros He H. destruct H as [m|m|i m l H].
  - split; [apply sx_refl|constructor].
  - split; [apply sx_app|constructor].
  - assert (He2 : ends i) by (eapply ends_sx; [exact He|apply sx_app]). destruct (mv_args _ _ _ He2 H) as [P Q]. split; [|constructor; exact Q].
    eapply sx_trans; [apply sx_app|apply px_sx; exact P].
Qed.
Lemma mv_dims i m l : ends i -> dims_f inp i m l -> sx i m /\ dims_f inp' i m (map sf l).
Proof.
  intros He H. induction H as [m|i m l H IH|d i m l Hd H IH].
  - split; [apply sx_refl|constructor].
  - destruct IH as [P Q]; [eapply ends_sx; [exact He|apply sx_app]|]. split; [eapply sx_trans; [apply sx_app|exact P]|constructor; exact Q].
  - destruct IH as [P Q]; [eapply ends_sx; [exact He|]; rewrite !app_assoc; apply sx_app|]. split.
    + eapply sx_trans; [|exact P]. rewrite !app_assoc. apply sx_app.
    + rewrite map_app, <- size_faults_after, <- span_after; [constructor; assumption|eapply ends_sx; [exact He|apply sx_app]|apply px_app; apply Hd].
Qed.
Lemma mv_type_parts i m l : ends i -> type_parts_f inp i m l -> sx i m /\ type_parts_f inp' i m (map sf l).
Proof.
  intros He H. destruct H as [p np b i m1 m l1 l2 H1 H2 H3 H4|p np b i m1 m2 m l1 l2 l3 H1 H2 H3 H4 H5 H6].
  - assert (He1 : ends i) by (eapply ends_sx; [exact He|]; rewrite app_assoc; apply sx_app). destruct (mv_arguments _ _ _ He1 H3) as [P Q].
    destruct (mv_dims _ _ _ (ends_sx _ _ _ He1 P) H4) as [P1 Q1]. split.
    + eapply sx_trans; [rewrite app_assoc; apply sx_app|]. eapply sx_trans; eassumption.
    + rewrite map_app. econstructor; eassumption.
  - assert (He1 : ends i) by (eapply ends_sx; [exact He|]; rewrite !app_assoc; apply sx_app). destruct (mv_arguments _ _ _ He1 H3) as [P Q].
    destruct (mv_dims _ _ _ (ends_sx _ _ _ He1 P) H4) as [P1 Q1].
    assert (He2 : ends m2) by (eapply ends_sx; [eapply ends_sx; [eapply ends_sx; [exact He1|exact P]|exact P1]|apply sx_app]).
    destruct (mv_dims _ _ _ He2 H5) as [P2 Q2]. split.
    + eapply sx_trans; [rewrite !app_assoc; apply sx_app|]. eapply sx_trans; [exact P|]. eapply sx_trans; [exact P1|]. eapply sx_trans; [apply sx_app|exact P2].
    + rewrite !map_app. eapply quoted_parts; eassumption.
Qed.
Lemma mv_type_f : mvs (type_f inp) (type_f inp') (map sf).
Proof.
  intros i m l He ((raw & ty & E & H1 & H2) & H). destruct (mv_type_parts _ _ _ He H) as [P Q]. split.
  - rewrite E. apply px_app. eapply type_raw_ne. exact H1.
  - split; [|exact Q]. exists raw, ty. auto.
Qed.

(** ** Tables *)
Lemma mv_col_item_f : mvs (col_item_f inp) (col_item_f inp') (map sf).
Proof.
  intros i m l He [H|H]; [destruct (mv_attribute_f no_rule _ _ _ He H) as [P Q]|destruct (mv_sound _ _ _ (mv_inline g inp) _ _ _ He H) as [P Q]];
  (split; [exact P|]); [left|right]; exact Q.
Qed.
Lemma mv_col_settings_f : mvs (col_settings_f inp) (col_settings_f inp') (map sf).
Proof.
  intros i m x He (ls & H & ->). destruct (mv_list inp "[" "]" _ _ _ ltac:(discriminate) mv_col_item_f _ _ _ He H) as [P Q]. split; [exact P|].
  rewrite sf_concat. eexists. split; [exact Q|reflexivity].
Qed.
Lemma mv_column_f : mvs (column_f inp) (column_f inp') (map sf).
Proof.
  intros i m x He H. destruct H as [i m1 m n l o H1 H2]. nx (mv_ident g inp) H1. tl mv_type_f mv_col_settings_f H2. split; [pxs|].
  rewrite map_app, <- opt_after. econstructor; eassumption.
Qed.
Lemma mv_index_f : mvs (index_f inp) (index_f inp') (map sf).
Proof.
  intros i m x He H. destruct H as [i m c o H|i m c o H].
  - tl (mv_index_col g inp) (mv_settings_f index_rule) H. split; [exact P|]. rewrite <- opt_after. econstructor. exact Q.
  - tl (mv_list inp "(" ")" _ _ _ ltac:(discriminate) (mv_index_col g inp)) (mv_settings_f index_rule) H. split; [exact P|]. rewrite <- opt_after. eapply index_multi_f. exact Q.
Qed.
Lemma mv_indexes_f : mvs (indexes_f inp) (indexes_f inp') (map sf).
Proof.
  intros i m x He H. destruct H as [i m1 m ls H1 H2]. kk H1. rd (mv_braces inp _ _ _ mv_index_f) H2. split; [pxs|].
  rewrite sf_concat. econstructor; eassumption.
Qed.
Lemma mv_table_item_f : mvs (table_item_f inp) (table_item_f inp') (map sf).
Proof.
  intros i m l He [H|[H|H]]; [destruct (mv_column_f _ _ _ He H) as [P Q]|destruct (mv_sound _ _ _ (mv_note g inp) _ _ _ He H) as [P Q]|destruct (mv_indexes_f _ _ _ He H) as [P Q]];
  (split; [exact P|]); unfold table_item_f; auto.
Qed.
Lemma mv_table_f : mvs (table_f inp) (table_f inp') (map sf).
Proof.
  intros i m x He H. destruct H as [i m1 m2 m3 m4 m5 m d al o ls H1 H2 H3 H4 H5 H6]. kk H1. rd (mv_decl g inp) H2. pose proof (lay_sx _ _ H3) as K3.
  my (mv_alias g inp) H4. my (mv_settings_f no_rule) H5. rd (mv_braces inp _ _ _ mv_table_item_f) H6. split; [pxs|].
  rewrite map_app, <- opt_after, sf_concat. econstructor; eassumption.
Qed.

(** ** Enums, groups, projects, references *)
Lemma mv_enum_value_f : mvs (enum_value_f inp) (enum_value_f inp') (map sf).
Proof. intros i m x He H. destruct H as [i m v o H]. tl (mv_ident g inp) (mv_settings_f no_rule) H. split; [exact P|]. rewrite <- opt_after. econstructor. exact Q. Qed.
Lemma mv_enum_f : mvs (enum_f inp) (enum_f inp') (map sf).
Proof.
  intros i m x He H. destruct H as [i m1 m2 m3 m d ls H1 H2 H3 H4]. kk H1. rd (mv_decl g inp) H2. pose proof (lay_sx _ _ H3) as K3.
  rd (mv_braces inp _ _ _ mv_enum_value_f) H4. split; [pxs|]. rewrite sf_concat. econstructor; eassumption.
Qed.
Lemma mv_group_f : mvs (group_f inp) (group_f inp') (map sf).
Proof.
  intros i m x He H. destruct H as [i m1 m2 m3 m n o ls H1 H2 H3 H4]. kk H1. nx (mv_ident g inp) H2. my (mv_settings_f no_rule) H3.
  rd (mv_braces inp _ _ _ (mv_group_part g inp)) H4. split; [pxs|]. rewrite <- opt_after. econstructor; eassumption.
Qed.
Lemma mv_property_f : mvs (property_f inp) (property_f inp') (map sf).
Proof.
  intros i m x He H. destruct H as [i m1 m2 m k v H1 H2 H3 H4]. nx (mv_key g inp) H1. tk H2. pose proof (plain_value_px _ _ _ H3) as P1.
  split; [pxs|]. rewrite <- value_faults_after, <- span_after; [econstructor; eassumption|en|exact P1].
Qed.
Lemma mv_project_item_f : mvs (project_item_f inp) (project_item_f inp') (map sf).
Proof.
  intros i m l He [H|H]; [destruct (mv_sound _ _ _ (mv_note g inp) _ _ _ He H) as [P Q]|destruct (mv_property_f _ _ _ He H) as [P Q]];
  (split; [exact P|]); unfold project_item_f; auto.
Qed.
Lemma mv_project_f : mvs (project_f inp) (project_f inp') (map sf).
Proof.
  intros i m x He H. destruct H as [i m1 m2 m n ls H1 H2 H3]. kk H1. nx (mv_ident g inp) H2. rd (mv_braces inp _ _ _ mv_project_item_f) H3. split; [pxs|].
  rewrite sf_concat. econstructor; eassumption.
Qed.
Lemma mv_stmt_f : mvs (stmt_f inp) (stmt_f inp') (map sf).
Proof.
  intros i m x He H. destruct H as [i m1 m2 m x a b o H1 H2 H3]. nx (mv_endpoint g inp) H1. nx (mv_rel inp) H2. tl (mv_endpoint g inp) (mv_settings_f action_rule) H3.
  split; [pxs|]. rewrite <- opt_after. econstructor; eassumption.
Qed.
Lemma mv_reference_f : mvs (reference_f inp) (reference_f inp') (map sf).
Proof.
  intros i m x He H. destruct H as [i m1 m2 m3 m n l H1 H2 H3 H4|i m1 m2 m3 m n l H1 H2 H3 H4].
  - kk H1. my (mv_ident g inp) H2. tk H3. rd mv_stmt_f H4. split; [pxs|]. econstructor; eassumption.
  - kk H1. my (mv_ident g inp) H2. tk H3. nx mv_stmt_f H4. split; [|eapply reference_braces_f; eassumption].
    eapply px_sx_trans; [|exists (s "}"); reflexivity]. pxs.
Qed.
Lemma mv_top_f : mvs (top_f inp) (top_f inp') (map sf).
Proof.
  intros i m l He [H|[H|[H|[H|[H|H]]]]].
  - rd mv_project_f H. split; [exact P|left; exact Q].
  - rd mv_table_f H. split; [exact P|right; left; exact Q].
  - rd mv_group_f H. split; [exact P|do 2 right; left; exact Q].
  - rd (mv_sound _ _ _ (mv_note g inp)) H. split; [exact P|do 3 right; left; exact Q].
  - rd mv_reference_f H. split; [exact P|do 4 right; left; exact Q].
  - rd mv_enum_f H. split; [exact P|do 5 right; exact Q].
Qed.
End Shift.

Lemma faults_after g t l : gap g -> faults t l -> faults (g ++ t) (map (sf g) l).
Proof.
  intros Hg (m & ls & Hl & Hm & ->). exists m, (map (map (sf g)) ls). split; [apply gap_lay; assumption|]. split; [|apply concat_map].
  eapply (mv_many t); [apply mv_next; apply mv_top_f| |exact Hm]. apply lay_sx. exact Hl.
Qed.
