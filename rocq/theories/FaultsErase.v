(** * FaultsErase: where faults are listed, a DBML text is written. *)

From Verif Require Import SynMain.
From Verif Require Export Faults LocErase.
From Verif Require Import Syntax.

(** [R'] is what [R] reads, whatever it says about it. *)
Definition reads {A B} (R : reader A) (R' : reader B) : Prop := forall i r x, next R i r x -> exists y, R' i r y.

Lemma ex_commas {A B} (R : reader A) (R' : reader B) i r l : reads R R' -> commas (next R) i r l -> exists l', commas R' i r l'.
Proof.
  intros H. induction 1 as [i r a Ha|i m m' r a l Ha Ht Hl (l' & IH)].
  - apply H in Ha as (y & Hy). eexists. constructor. exact Hy.
  - apply H in Ha as (y & Hy). eexists. econstructor; eassumption.
Qed.
Lemma ex_many {A B} (R : reader A) (R' : reader B) i r l : reads R R' -> many (next R) i r l -> exists l', many R' i r l'.
Proof.
  intros H. induction 1 as [i|i m r a l Ha Hl (l' & IH)].
  - eexists. constructor.
  - apply H in Ha as (y & Hy). eexists. econstructor; eassumption.
Qed.
Lemma ex_list {A B} (R : reader A) (R' : reader B) op cl : reads R R' -> reads (list_at op cl R) (bracket op cl R').
Proof.
  intros H i r l (m & Hl & Hr). destruct Hl as [i m Ht|i m1 m l Ht Hc].
  - eexists. eapply bracket_none; [exact Ht|apply tok_app; exact Hr].
  - eapply ex_commas in Hc as (l' & Hc); [|exact H]. eexists. eapply bracket_some; [exact Ht|exact Hc|apply tok_app; exact Hr].
Qed.
Lemma ex_braces {A B} (R : reader A) (R' : reader B) : reads R R' -> reads (braces_at R) (braces R').
Proof.
  intros H i r l (m & (m1 & Ht & Hm) & Hr). eapply ex_many in Hm as (l' & Hm); [|exact H]. eexists.
  exists m1, (s "}" ++ m). split; [exact Ht|]. split; [exact Hm|apply tok_app; exact Hr].
Qed.
Lemma ex_maybe {A B} (R : reader A) (R' : reader B) i r o : reads R R' -> maybe (next R) i r o -> exists o', maybe R' i r o'.
Proof.
  intros H [i'|i' r' a Ha].
  - eexists. constructor.
  - apply H in Ha as (y & Hy). eexists. constructor. exact Hy.
Qed.

Section Erase.
Variable inp : str.

Lemma fe_attribute J : reads (attribute_f inp J) attr.
Proof.
  intros i r l (m & H & Hr). destruct H as [i m k Hk|i m1 m2 m k v ws Hk Ht Hv _].
  - rewrite (lay_twice _ _ _ (next_lay _ _ _ _ Hk) Hr). eexists. constructor. apply er_key in Hk. exact Hk.
  - eexists. eapply attr_value; [apply er_key in Hk; exact Hk|exact Ht|]. destruct Hv as [Hv|(w & Hw & Ev)].
    + eapply er_plain_value in Hv; [|exact Hr]. destruct Hv as [Hv|Hv]; eauto.
    + right. right. exists w. split; [eapply er_quote; eassumption|exact Ev].
Qed.
Lemma fe_settings J : reads (settings_f inp J) attrs.
Proof. intros i r l (m & (ls & H & _) & Hr). eapply (ex_list _ attr); [apply (fe_attribute J)|exists m; eauto]. Qed.
Lemma fe_type : reads (type_f inp) type_r.
Proof. intros i r l (m & ((raw & ty & H1 & H2 & H3 & H4) & _) & Hr). exists ty, raw, m. auto 6. Qed.
Lemma fe_col_item : reads (col_item_f inp) col_item.
Proof.
  intros i r l (m & [H|((x & H) & _)] & Hr).
  - destruct (fe_attribute no_rule i r l) as (y & Hy); [exists m; auto|]. exists (CIAttr y). exact Hy.
  - exists (CIRef (e_inline x)). apply (er_inline inp). exists m. auto.
Qed.
Lemma fe_col_settings : reads (col_settings_f inp) col_settings_r.
Proof.
  intros i r l (m & (ls & H & _) & Hr). destruct (ex_list _ _ "[" "]" fe_col_item i r ls) as (l' & Hl); [exists m; auto|].
  eexists (mkColSet _ _). exists l'. split; [exact Hl|]. split; reflexivity.
Qed.
Lemma ex_tail {A A' B B'} (R : reader A) (R' : reader A') (O : reader B) (O' : reader B') i m r a o : reads R R' -> reads O O' ->
  tail_at R O i m a o -> lay m r -> exists m1 a' o', R' i m1 a' /\ maybe O' m1 r o'.
Proof.
  intros HR HO H Hr. eapply er_tail in H as (m1 & H1 & H2); [|exact Hr]. apply HR in H1 as (a' & H1). eapply ex_maybe in H2 as (o' & H2); [|exact HO]. eauto.
Qed.
Lemma fe_column : reads (column_f inp) column.
Proof.
  intros i r l (m & H & Hr). destruct H as [i m1 m n l o H1 H2]. destruct (ex_tail _ _ _ _ _ _ _ _ _ fe_type fe_col_settings H2 Hr) as (m2 & ty & st & H3 & H4).
  eexists. econstructor; [apply er_ident in H1; exact H1|exact H3|exact H4].
Qed.
Lemma fe_index_col : reads (index_col_at inp) index_col.
Proof. intros i r x H. apply er_index_col in H as [H _]. eauto. Qed.
Lemma fe_index : reads (index_f inp) index.
Proof.
  intros i r l (m & H & Hr). destruct H as [i m c o H|i m l o H].
  - destruct (ex_tail _ _ _ _ _ _ _ _ _ fe_index_col (fe_settings index_rule) H Hr) as (m1 & a & st & H1 & H2). eexists. eapply index_one; eassumption.
  - destruct (ex_tail _ _ _ _ _ _ _ _ _ (ex_list _ _ "(" ")" fe_index_col) (fe_settings index_rule) H Hr) as (m1 & a & st & H1 & H2). eexists. eapply index_list; eassumption.
Qed.
Lemma fe_indexes : reads (indexes_f inp) indexes.
Proof.
  intros i r l (m & H & Hr). destruct H as [i m1 m ls Hk Hb]. destruct (ex_braces _ _ fe_index m1 r ls) as (l' & Hl); [exists m; auto|].
  eexists. econstructor; eassumption.
Qed.
Lemma fe_note : reads (note_at inp) note.
Proof. intros i r x H. apply er_note in H. eauto. Qed.
Lemma fe_table_item : reads (table_item_f inp) table_item.
Proof.
  intros i r l (m & [H|[((x & H) & _)|H]] & Hr).
  - destruct (fe_column i r l) as (y & Hy); [exists m; auto|]. exists (TICol y). exact Hy.
  - destruct (fe_note i r x) as (y & Hy); [exists m; auto|]. exists (TINote y). exact Hy.
  - destruct (fe_indexes i r l) as (y & Hy); [exists m; auto|]. exists (TIIndexes y). exact Hy.
Qed.
Lemma fe_alias : reads (alias_at inp) alias.
Proof. intros i r x H. apply er_alias in H as [H _]. eauto. Qed.
Lemma fe_table : reads (table_f inp) table.
Proof.
  intros i r l (m & H & Hr). destruct H as [i m1 m2 m3 m4 m5 m d al o ls Hk Hd Hl Hal Hst Hb].
  destruct (ex_braces _ _ fe_table_item m5 r ls) as (l' & H1); [exists m; auto|].
  destruct (ex_maybe _ _ _ _ _ fe_alias Hal) as (al' & Hal'). destruct (ex_maybe _ _ _ _ _ (fe_settings no_rule) Hst) as (st & Hst').
  assert (Hd' : decl_name m1 m3 (e_decl d)) by (apply (er_decl inp); exists m2; auto).
  eexists. eapply table_r; eassumption.
Qed.
Lemma fe_ident : reads (ident_at inp) name.
Proof. intros i r x H. apply er_ident in H. eauto. Qed.
Lemma fe_enum_value : reads (enum_value_f inp) enum_value_r.
Proof.
  intros i r l (m & H & Hr). destruct H as [i m v o H].
  destruct (ex_tail _ _ _ _ _ _ _ _ _ fe_ident (fe_settings no_rule) H Hr) as (m1 & a & st & H1 & H2). exists (a, st), m1. auto.
Qed.
Lemma fe_enum : reads (enum_f inp) enum.
Proof.
  intros i r l (m & H & Hr). destruct H as [i m1 m2 m3 m d ls Hk Hd Hl Hb]. destruct (ex_braces _ _ fe_enum_value m3 r ls) as (l' & H1); [exists m; auto|].
  assert (Hd' : decl_name m1 m3 (e_decl d)) by (apply (er_decl inp); exists m2; auto).
  eexists. eapply enum_r; eassumption.
Qed.
Lemma fe_group_part : reads (group_part_at inp) group_item.
Proof. intros i r x H. apply er_group_part in H as [H _]. eauto. Qed.
Lemma fe_group : reads (group_f inp) group.
Proof.
  intros i r l (m & H & Hr). destruct H as [i m1 m2 m3 m n o ls Hk Hn Hst Hb]. destruct (ex_braces _ _ fe_group_part m3 r ls) as (l' & H1); [exists m; auto|].
  destruct (ex_maybe _ _ _ _ _ (fe_settings no_rule) Hst) as (st & Hst'). apply er_ident in Hn.
  eexists. eapply group_r; eassumption.
Qed.
Lemma fe_property i r l : next (property_f inp) i r l -> exists p, property_r i r p.
Proof.
  intros (m & H & Hr). destruct H as [i m1 m2 m k v Hk Ht Hv Hno]. exists (id_str k, v), m1, m2.
  split; [apply (er_key inp); exact Hk|]. split; [exact Ht|]. split; [eapply er_plain_value; eassumption|exact Hno].
Qed.
Lemma fe_project_item : reads (project_item_f inp) project_item.
Proof.
  intros i r l (m & [((x & H) & _)|H] & Hr).
  - destruct (fe_note i r x) as (y & Hy); [exists m; auto|]. exists (PINote y). exact Hy.
  - destruct (fe_property i r l) as (y & Hy); [exists m; auto|]. exists (PIProp y). exact Hy.
Qed.
Lemma fe_project : reads (project_f inp) project.
Proof.
  intros i r l (m & H & Hr). destruct H as [i m1 m2 m n ls Hk Hn Hb]. destruct (ex_braces _ _ fe_project_item m2 r ls) as (l' & H1); [exists m; auto|].
  apply er_ident in Hn. eexists. eapply project_r; eassumption.
Qed.
Lemma fe_endpoint : reads (endpoint_at inp) endpoint.
Proof. intros i r x H. apply er_endpoint in H. eauto. Qed.
Lemma fe_stmt n i r l : next (stmt_f inp) i r l -> exists f, ref_body n i r f.
Proof.
  intros (m & H & Hr). destruct H as [i m1 m2 m x a b o H1 H2 H3].
  destruct (ex_tail _ _ _ _ _ _ _ _ _ fe_endpoint (fe_settings action_rule) H3 Hr) as (m3 & b' & st & H4 & H5).
  apply er_endpoint in H1. apply er_rel in H2. eexists. econstructor; eassumption.
Qed.
Lemma fe_reference : reads (reference_f inp) reference.
Proof.
  intros i r l (m & H & Hr). destruct H as [i m1 m2 m3 m n l Hk Hn Ht Hb|i m1 m2 m3 m n l Hk Hn Ht Hb].
  - destruct (fe_stmt (option_map id_str n) m3 r l) as (f & Hf); [exists m; auto|]. apply er_name_opt in Hn. eexists. eapply ref_colon; eassumption.
  - destruct (fe_stmt (option_map id_str n) _ _ _ Hb) as (f & Hf). apply er_name_opt in Hn. eexists. eapply ref_braces; [eassumption..|apply tok_app; exact Hr].
Qed.
Lemma fe_top : reads (top_f inp) block_r.
Proof.
  intros i r l (m & H & Hr). destruct H as [H|[H|[H|[((x & H) & _)|[H|H]]]]].
  - destruct (fe_project i r l) as (y & Hy); [exists m; auto|]. exists (AProject y). exact Hy.
  - destruct (fe_table i r l) as (y & Hy); [exists m; auto|]. exists (ATable y). exact Hy.
  - destruct (fe_group i r l) as (y & Hy); [exists m; auto|]. exists (AGroup y). exact Hy.
  - destruct (fe_note i r x) as (y & Hy); [exists m; auto|]. exists (ANote y). exact Hy.
  - destruct (fe_reference i r l) as (y & Hy); [exists m; auto|]. exists (ARef y). exact Hy.
  - destruct (fe_enum i r l) as (y & Hy); [exists m; auto|]. exists (AEnum y). exact Hy.
Qed.
End Erase.

Lemma faults_text inp l : faults inp l -> exists a, dbml_text inp a.
Proof. intros (m & ls & Hl & Hm & _). destruct (ex_many _ _ _ _ _ (fe_top inp) Hm) as (a & Ha). exists a, m. auto. Qed.
