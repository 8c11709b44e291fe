(** * LocCut: nodes stay what they are when what follows them is cut off. *)

From Verif Require Import SynLex SynEval SynCut.
From Verif Require Export Located.
From Verif Require Import Syntax SynMain LocErase.

Section Cut.
Variables inp z : str.
Notation inp' := (inp ++ z).

Lemma pos_cut i : pos inp' (i ++ z) = pos inp i.
Proof. unfold pos. rewrite !blen_app. lia. Qed.
Lemma span_cut i m : span inp' (i ++ z) (m ++ z) = span inp i m.
Proof. unfold span. rewrite !pos_cut. reflexivity. Qed.

Definition cut {A} (R R' : reader A) : Prop := forall i m x, R i (m ++ z) x -> exists i0, i = i0 ++ z /\ R' i0 m x.
Lemma c_lay i m : lay i (m ++ z) -> exists i0, i = i0 ++ z /\ lay i0 m.
Proof. apply lay_split. Qed.
Lemma c_tok w i m : tok w i (m ++ z) -> exists i0, i = i0 ++ z /\ tok w i0 m.
Proof. apply (p_split _ _ _ _ (tok_local w)). Qed.
Lemma c_kw k i m : kw k i (m ++ z) -> exists i0, i = i0 ++ z /\ kw k i0 m.
Proof. apply (p_split _ _ _ _ (kw_local k)). Qed.
(** Splits a hypothesis that ends in [z]. *)
Ltac ct L H := let x := fresh "j" in let H' := fresh H in
  match type of H with _ (?w ++ ?m ++ z) _ => replace (w ++ m ++ z) with ((w ++ m) ++ z) in H by (rewrite <- app_assoc; reflexivity)
  | _ (?w ++ ?m ++ z) => replace (w ++ m ++ z) with ((w ++ m) ++ z) in H by (rewrite <- app_assoc; reflexivity) | _ => idtac end;
  apply L in H; destruct H as (x & -> & H').
Ltac tk H := first [ct c_tok H | ct c_kw H | ct c_lay H].
Ltac ok := eexists; split; [reflexivity|].

Lemma c_next {A} (R R' : reader A) : cut R R' -> cut (next R) (next R').
Proof. intros H i r x (m & Hx & Hl). tk Hl. ct H Hx. ok. eexists. split; eassumption. Qed.
Lemma c_commas {A} (R R' : reader A) : cut R R' -> cut (commas R) (commas R').
Proof.
  intros H i r l H0. remember (r ++ z) as r' eqn:Er. induction H0 as [i r' a Ha|i m m' r' a l Ha Ht _ IH]; subst r'.
  - ct H Ha. ok. constructor. assumption.
  - destruct (IH eq_refl) as (m0 & -> & IH'). tk Ht. ct H Ha. ok. eapply commas_more; eassumption.
Qed.
Lemma c_many {A} (R R' : reader A) : cut R R' -> cut (many R) (many R').
Proof.
  intros H i r l H0. remember (r ++ z) as r' eqn:Er. induction H0 as [i|i m r' a l Ha _ IH]; subst.
  - ok. constructor.
  - destruct (IH eq_refl) as (m0 & -> & IH'). ct H Ha. ok. econstructor; eassumption.
Qed.
Lemma c_maybe {A} (R R' : reader A) : cut R R' -> cut (maybe R) (maybe R').
Proof. intros H i r o H0. remember (r ++ z) as r' eqn:Er. destruct H0 as [i|i r' a Ha]; subst; [ok; constructor|]. ct H Ha. ok. constructor. assumption. Qed.
Lemma c_list {A} op cl (R R' : reader A) : cut R R' -> cut (list_at op cl R) (list_at op cl R').
Proof.
  intros H i r l H0. remember (r ++ z) as r' eqn:Er. destruct H0 as [i m Ht|i m1 m l Ht Hl]; subst.
  - tk Ht. ok. constructor. assumption.
  - ct (c_commas _ _ (c_next _ _ H)) Hl. tk Ht. ok. eapply list_some; eassumption.
Qed.
Lemma c_braces {A} (R R' : reader A) : cut R R' -> cut (braces_at R) (braces_at R').
Proof. intros H i r l (m & Ht & Hl). ct (c_many _ _ (c_next _ _ H)) Hl. tk Ht. ok. eexists. split; eassumption. Qed.
Lemma c_tail {A B} (R R' : reader A) (O O' : reader B) i m a o : cut R R' -> cut O O' -> tail_at R O i (m ++ z) a o -> exists i0, i = i0 ++ z /\ tail_at R' O' i0 m a o.
Proof.
  intros HR HO H. remember (m ++ z) as r' eqn:Er. destruct H as [i m0 a Ha|i m1 m0 a b Ha Hb]; subst.
  - ct (c_next _ _ HR) Ha. ok. constructor. assumption.
  - ct HO Hb. ct (c_next _ _ HR) Ha. ok. econstructor; eassumption.
Qed.

(** ** Words and literals *)
Lemma c_plain : cut plain_at plain_at.
Proof. intros i m w (-> & H1 & H2). exists (w ++ m). split; [apply app_assoc|]. split; [reflexivity|]. split; [exact H1|eapply no_word_cut; exact H2]. Qed.
Lemma c_phrase : cut phrase_at phrase_at.
Proof. intros i m w (-> & H1 & H2). exists (w ++ m). split; [apply app_assoc|]. split; [reflexivity|]. split; [exact H1|eapply no_phrase_cut; exact H2]. Qed.
Lemma c_quote q : cut (quote_at q) (quote_at q).
Proof.
  intros i m v (i' & -> & Hl & Hc). replace (v ++ q ++ m ++ z) with ((v ++ q ++ m) ++ z) in Hl by (rewrite <- !app_assoc; reflexivity).
  apply lay_split in Hl as (i0 & -> & Hl). exists (q ++ i0). split; [apply app_assoc|]. exists i0. auto.
Qed.
Lemma c_or {A} (R S R' S' : reader A) : cut R R' -> cut S S' -> cut (fun i m v => R i m v \/ S i m v) (fun i m v => R' i m v \/ S' i m v).
Proof. intros HR HS i m v [H|H]; [ct HR H|ct HS H]; ok; auto. Qed.
Lemma c_text : cut text_at text_at.
Proof. apply c_or; apply c_quote. Qed.
Lemma c_string q : cut (string_at q) (string_at q).
Proof. intros i m v (w & H & ->). ct (c_quote q) H. ok. exists w. auto. Qed.
Lemma c_note_text : cut note_text_at note_text_at.
Proof. apply c_or; apply c_string. Qed.
Ltac app0 := repeat rewrite <- app_assoc; cbn [app]; reflexivity.
Lemma c_value : cut value_at value_at.
Proof.
  intros i r v H. remember (r ++ z) as r' eqn:Er.
  destruct H as [i m v H|i m v H|m|m|m|d m Hd Hn Hp|d1 d2 m f Hd Hd2 Hn Hf|h m Hh Hlen|h m Hh Hlen Hno]; subst.
  - ct c_text H. ok. constructor. assumption.
  - ct (c_quote bq) H. ok. constructor. assumption.
  - exists (s "true" ++ r). split; [app0|constructor].
  - exists (s "false" ++ r). split; [app0|constructor].
  - exists (s "null" ++ r). split; [app0|constructor].
  - exists (d ++ r). split; [app0|]. constructor; [exact Hd|eapply no_digit_cut; exact Hn|]. intros m' ->. apply (Hp (m' ++ z)). app0.
  - exists (d1 ++ s "." ++ d2 ++ r). split; [app0|]. constructor; [exact Hd|exact Hd2|eapply no_digit_cut; exact Hn|exact Hf].
  - exists (s "#" ++ h ++ r). split; [app0|]. constructor; assumption.
  - exists (s "#" ++ h ++ r). split; [app0|]. apply va_hex3; [exact Hh|exact Hlen|]. intros h' m' ->. apply (Hno h' (m' ++ z)). app0.
Qed.
Lemma c_bare : cut bare_at bare_at.
Proof. intros i m v (w & H & Hn & ->). ct c_phrase H. ok. exists w. auto. Qed.
Lemma c_plain_value : cut plain_value_at plain_value_at.
Proof. apply c_or; [apply c_value|apply c_bare]. Qed.
Lemma c_attr_value : cut attr_value_at attr_value_at.
Proof. apply c_or; [apply c_plain_value|apply c_string]. Qed.
Lemma raw_cut (i raw m : str) : i ++ z = raw ++ m ++ z -> i = raw ++ m.
Proof. rewrite app_assoc. apply app_inv_tail. Qed.
Lemma c_ident : cut (ident_at inp') (ident_at inp).
Proof.
  intros i m x (E1 & E2 & H). ct (c_or _ _ _ _ c_plain (c_quote dq)) H. ok. split; [apply raw_cut; exact E1|]. split; [rewrite <- span_cut; exact E2|assumption].
Qed.
Lemma c_key : cut (key_at inp') (key_at inp).
Proof. intros i m x (E1 & E2 & H). ct c_phrase H. ok. split; [apply raw_cut; exact E1|]. split; [rewrite <- span_cut; exact E2|assumption]. Qed.
Lemma c_lit R : cut R R -> cut (lit inp' R) (lit inp R).
Proof. intros HR i m x (E1 & E2 & H & Hf). ct HR H. ok. split; [apply raw_cut; exact E1|]. split; [rewrite <- span_cut; exact E2|auto]. Qed.

(** ** Settings *)
Ltac sp := rewrite ?span_cut.
Lemma c_attribute : cut (attribute_at inp') (attribute_at inp).
Proof.
  intros i r x H. remember (r ++ z) as r' eqn:Er. destruct H as [i m k Hk|i m1 m2 m k v Hk Ht Hv]; subst.
  - ct (c_next _ _ c_key) Hk. ok. sp. constructor. assumption.
  - ct (c_lit _ c_attr_value) Hv. tk Ht. ct (c_next _ _ c_key) Hk. ok. sp. econstructor; eassumption.
Qed.
Lemma c_attributes : cut (attributes_at inp') (attributes_at inp).
Proof. apply c_list, c_attribute. Qed.
Lemma c_table_settings : cut (table_settings_at inp') (table_settings_at inp).
Proof. intros i m x (E & H). ct c_attributes H. ok. split; [rewrite <- span_cut; exact E|assumption]. Qed.
Lemma c_group_settings : cut (group_settings_at inp') (group_settings_at inp).
Proof. intros i m x (E & H). ct c_attributes H. ok. split; [rewrite <- span_cut; exact E|assumption]. Qed.
Lemma c_enum_settings : cut (enum_settings_at inp') (enum_settings_at inp).
Proof. intros i m x (E & H & K). ct c_attributes H. ok. split; [rewrite <- span_cut; exact E|auto]. Qed.
Lemma c_ref_settings : cut (ref_settings_at inp') (ref_settings_at inp).
Proof. intros i m x (E & H & K). ct c_attributes H. ok. split; [rewrite <- span_cut; exact E|auto]. Qed.
Lemma c_index_settings : cut (index_settings_at inp') (index_settings_at inp).
Proof. intros i m x (E & H & K). ct c_attributes H. ok. split; [rewrite <- span_cut; exact E|auto]. Qed.

(** ** References *)
Lemma c_decl : cut (decl_at inp') (decl_at inp).
Proof.
  intros i r x H. remember (r ++ z) as r' eqn:Er. destruct H as [i m n Hn|i m1 m2 m sc n Hsc Ht Hn]; subst.
  - ct (c_next _ _ c_ident) Hn. ok. constructor. assumption.
  - ct c_ident Hn. tk Ht. ct (c_next _ _ c_ident) Hsc. ok. econstructor; eassumption.
Qed.
Lemma c_columns : cut (columns_at inp') (columns_at inp).
Proof.
  intros i r x H. remember (r ++ z) as r' eqn:Er. destruct H as [i m c Hc|i m1 m l Ht Hl]; subst.
  - ct c_ident Hc. ok. constructor. assumption.
  - ct (c_commas _ _ (c_next _ _ c_ident)) Hl. tk Ht. ok. eapply columns_more; eassumption.
Qed.
Lemma c_endpoint : cut (endpoint_at inp') (endpoint_at inp).
Proof.
  intros i r x H. remember (r ++ z) as r' eqn:Er. destruct H as [i m1 m2 m t0 l H1 H2 H3|i m1 m2 m3 m4 m sc t0 l H1 H2 H3 H4 H5]; subst.
  - ct c_columns H3. tk H2. ct (c_next _ _ c_ident) H1. ok. sp. econstructor; eassumption.
  - ct c_columns H5. tk H4. ct (c_next _ _ c_ident) H3. tk H2. ct (c_next _ _ c_ident) H1. ok. sp. eapply endpoint_schema; eassumption.
Qed.
Lemma c_rel : cut rel_at rel_at.
Proof. intros i m x (w & E & ->). exists (w ++ m). split; [apply app_assoc|]. exists w. auto. Qed.
Lemma c_inline : cut (inline_at inp') (inline_at inp).
Proof.
  intros i r x H. remember (r ++ z) as r' eqn:Er. destruct H as [i m1 m2 m3 m x e H1 H2 H3 H4]; subst.
  ct c_endpoint H4. ct (c_next _ _ c_rel) H3. tk H2. tk H1. ok. sp. econstructor; eassumption.
Qed.
Ltac tl L O H := let x := fresh "j" in let H' := fresh H in apply (c_tail _ _ _ _ _ _ _ _ L O) in H; destruct H as (x & -> & H').
Lemma c_stmt n : cut (stmt_at inp' n) (stmt_at inp n).
Proof.
  intros i r x H. remember (r ++ z) as r' eqn:Er. destruct H as [i m1 m2 m x a b st H1 H2 H3]; subst.
  tl c_endpoint c_ref_settings H3. ct (c_next _ _ c_rel) H2. ct (c_next _ _ c_endpoint) H1. ok. sp. econstructor; eassumption.
Qed.
Lemma c_reference : cut (reference_at inp') (reference_at inp).
Proof.
  intros i r x H. remember (r ++ z) as r' eqn:Er. destruct H as [i m1 m2 m3 m n f H1 H2 H3 H4|i m1 m2 m3 m n f H1 H2 H3 H4]; subst.
  - ct (c_stmt n) H4. tk H3. ct (c_maybe _ _ (c_next _ _ c_ident)) H2. tk H1. ok. econstructor; eassumption.
  - ct (c_next _ _ (c_stmt n)) H4. tk H3. ct (c_maybe _ _ (c_next _ _ c_ident)) H2. tk H1. ok. eapply reference_braces; eassumption.
Qed.
Lemma c_note : cut (note_at inp') (note_at inp).
Proof.
  intros i r x H. remember (r ++ z) as r' eqn:Er. destruct H as [i m1 m2 m v H1 H2 H3|i m1 m2 m v H1 H2 H3]; subst.
  - ct (c_lit _ c_note_text) H3. tk H2. tk H1. ok. sp. econstructor; eassumption.
  - ct (c_next _ _ (c_lit _ c_note_text)) H3. tk H2. tk H1. ok. sp. eapply note_braces_at; eassumption.
Qed.

(** ** Tables *)
Lemma c_type : cut (type_at inp') (type_at inp).
Proof.
  intros i m x (E1 & E2 & H1 & H2 & H3 & H4). exists (ct_raw x ++ m). split; [rewrite E1; apply app_assoc|]. split; [reflexivity|].
  split; [rewrite <- span_cut, <- app_assoc, <- E1; exact E2|]. split; [exact H1|]. split; [|split; [|exact H4]].
  - intros y c E Hc. eapply no_word_cut. eapply H2; eassumption.
  - intros d y Fd ->. apply (H3 d (y ++ z) Fd). app0.
Qed.
Lemma c_col_item : cut (col_item_at inp') (col_item_at inp).
Proof. intros i m [a|a] H; cbn [col_item_at] in *; [apply c_attribute|apply c_inline]; exact H. Qed.
Lemma c_col_settings : cut (col_settings_at inp') (col_settings_at inp).
Proof. intros i m x (E & l & H & K). ct (c_list "[" "]" _ _ c_col_item) H. ok. split; [rewrite <- span_cut; exact E|]. exists l. auto. Qed.
Lemma c_column : cut (column_at inp') (column_at inp).
Proof.
  intros i r x H. remember (r ++ z) as r' eqn:Er. destruct H as [i m1 m n ty st H1 H2]; subst. tl c_type c_col_settings H2. ct (c_next _ _ c_ident) H1. ok. sp. econstructor; eassumption.
Qed.
Lemma c_index_col : cut (index_col_at inp') (index_col_at inp).
Proof.
  intros i r x H. remember (r ++ z) as r' eqn:Er. destruct H as [i m x H|i m v H]; subst; [ct c_ident H|ct (c_lit _ (c_string bq)) H]; ok; constructor; assumption.
Qed.
Lemma c_index : cut (index_at inp') (index_at inp).
Proof.
  intros i r x H. remember (r ++ z) as r' eqn:Er. destruct H as [i m c st H|i m l st H]; subst.
  - tl c_index_col c_index_settings H. ok. sp. constructor. assumption.
  - tl (c_list "(" ")" _ _ c_index_col) c_index_settings H. ok. sp. apply index_multi. assumption.
Qed.
Lemma c_indexes : cut (indexes_at inp') (indexes_at inp).
Proof.
  intros i r x H. remember (r ++ z) as r' eqn:Er. destruct H as [i m1 m l H1 H2]; subst. ct (c_braces _ _ c_index) H2. tk H1. ok. sp. econstructor; eassumption.
Qed.
Lemma c_table_item : cut (table_item_at inp') (table_item_at inp).
Proof. intros i m [a|a|a] H; cbn [table_item_at] in *; [apply c_column|apply c_note|apply c_indexes]; exact H. Qed.
Lemma c_alias : cut (alias_at inp') (alias_at inp).
Proof. intros i m x (m1 & H1 & H2). ct c_ident H2. tk H1. ok. eexists. split; eassumption. Qed.
Lemma c_table : cut (table_at inp') (table_at inp).
Proof.
  intros i r x H. remember (r ++ z) as r' eqn:Er. destruct H as [i m1 m2 m3 m4 m5 m d al st l H1 H2 H3 H4 H5 H6]; subst.
  ct (c_braces _ _ c_table_item) H6. ct (c_maybe _ _ (c_next _ _ c_table_settings)) H5. ct (c_maybe _ _ (c_next _ _ c_alias)) H4. tk H3. ct c_decl H2. tk H1.
  ok. sp. econstructor; eassumption.
Qed.

(** ** Enums, groups, projects *)
Lemma c_enum_value : cut (enum_value_at inp') (enum_value_at inp).
Proof. intros i r x H. remember (r ++ z) as r' eqn:Er. destruct H as [i m v st H]; subst. tl c_ident c_enum_settings H. ok. sp. constructor. assumption. Qed.
Lemma c_enum : cut (enum_at inp') (enum_at inp).
Proof.
  intros i r x H. remember (r ++ z) as r' eqn:Er. destruct H as [i m1 m2 m3 m d l H1 H2 H3 H4]; subst.
  ct (c_braces _ _ c_enum_value) H4. tk H3. ct c_decl H2. tk H1. ok. sp. econstructor; eassumption.
Qed.
Lemma c_group_part : cut (group_part_at inp') (group_part_at inp).
Proof.
  intros i r x H. remember (r ++ z) as r' eqn:Er. destruct H as [i m n H|i m d H]; subst; [ct c_note H|ct c_decl H]; ok; sp; constructor; assumption.
Qed.
Lemma c_group : cut (group_at inp') (group_at inp).
Proof.
  intros i r x H. remember (r ++ z) as r' eqn:Er. destruct H as [i m1 m2 m3 m n st l H1 H2 H3 H4]; subst.
  ct (c_braces _ _ c_group_part) H4. ct (c_maybe _ _ (c_next _ _ c_group_settings)) H3. ct (c_next _ _ c_ident) H2. tk H1. ok. sp. econstructor; eassumption.
Qed.
Lemma c_property : cut (property_at inp') (property_at inp).
Proof.
  intros i r x H. remember (r ++ z) as r' eqn:Er. destruct H as [i m1 m2 m k v H1 H2 H3 H4]; subst.
  ct (c_lit _ c_plain_value) H3. tk H2. ct (c_next _ _ c_key) H1. ok. sp. econstructor; eassumption.
Qed.
Lemma c_project_item : cut (project_item_at inp') (project_item_at inp).
Proof. intros i m [a|a] H; cbn [project_item_at] in *; [apply c_note|apply c_property]; exact H. Qed.
Lemma c_project : cut (project_at inp') (project_at inp).
Proof.
  intros i r x H. remember (r ++ z) as r' eqn:Er. destruct H as [i m1 m2 m n l props db H1 H2 H3 H4 H5]; subst.
  ct (c_braces _ _ c_project_item) H3. ct (c_next _ _ c_ident) H2. tk H1. ok. sp. econstructor; try eassumption; reflexivity.
Qed.
Lemma c_top : cut (top_at inp') (top_at inp).
Proof.
  intros i m [x|x|x|x|x|x] H; cbn [top_at] in *; [apply c_project|apply c_table|apply c_group|apply c_note|apply c_reference|apply c_enum]; exact H.
Qed.
End Cut.
