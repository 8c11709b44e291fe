(** * SynSpan4: what every span of an AST shows, node by node. *)

From Verif Require Import RulesOk RulesOk3 NodesOk.
From Verif Require Import Parser Api Spans.
From Verif Require Import SynSpan SynSpan2 SynSpan3.

Section Spans.
  Variables (inp : str) (x : schema_t).
  Hypothesis K : Forall (block_ok inp) (sb_blocks x).

  Lemma v_table t : In t (tables x) -> table_ok inp t.
  Proof. unfold tables. intros H. apply in_flat_map in H as (b & Hb & H). apply (forall_in _ _ _ K) in Hb. destruct b; inv_in. subst. exact Hb. Qed.
  Lemma v_enum t : In t (enums x) -> enum_ok inp t.
  Proof. unfold enums. intros H. apply in_flat_map in H as (b & Hb & H). apply (forall_in _ _ _ K) in Hb. destruct b; inv_in. subst. exact Hb. Qed.
  Lemma v_ref t : In t (refs x) -> ref_ok inp t.
  Proof. unfold refs. intros H. apply in_flat_map in H as (b & Hb & H). apply (forall_in _ _ _ K) in Hb. destruct b; inv_in. subst. exact Hb. Qed.
  Lemma v_group t : In t (table_groups x) -> group_ok inp t.
  Proof. unfold table_groups. intros H. apply in_flat_map in H as (b & Hb & H). apply (forall_in _ _ _ K) in Hb. destruct b; inv_in. subst. exact Hb. Qed.
  Lemma v_project t : In t (projects x) -> project_ok inp t.
  Proof. unfold projects. intros H. apply in_flat_map in H as (b & Hb & H). apply (forall_in _ _ _ K) in Hb. destruct b; inv_in. subst. exact Hb. Qed.
  Lemma v_col c : In c (all_cols x) -> col_ok inp c.
  Proof. intros H. apply in_flat_map in H as (t & Ht & Hc). apply v_table in Ht as (_ & _ & _ & _ & _ & _ & H & _). exact (forall_in _ _ _ H Hc). Qed.
  Lemma v_col_settings st : In st (all_col_settings x) -> col_set_ok inp st.
  Proof.
    intros H. apply in_flat_map in H as (c & Hc & H). apply opt_list_in in H as (st' & E & ->). apply v_col in Hc as (_ & _ & _ & H). auto.
  Qed.
  Lemma v_indexes t ib : In t (tables x) -> tb_indexes t = Some ib -> indexes_ok inp ib.
  Proof. intros Ht E. apply v_table in Ht as (_ & _ & _ & _ & _ & _ & _ & _ & H). auto. Qed.
  Lemma v_def d : In d (all_index_defs x) -> index_ok inp d.
  Proof.
    intros H. apply in_flat_map in H as (t & Ht & H). apply opt_flat_in in H as (ib & E & H).
    destruct (v_indexes _ _ Ht E) as (_ & HF). exact (forall_in _ _ _ HF H).
  Qed.
  Lemma v_value v : In v (all_enum_values x) -> enum_value_ok inp v.
  Proof. intros H. apply in_flat_map in H as (t & Ht & Hc). apply v_enum in Ht as (_ & _ & _ & _ & H). exact (forall_in _ _ _ H Hc). Qed.
  Lemma v_inline r : In r (all_ref_inlines x) -> inline_ok inp r.
  Proof.
    intros H. apply in_flat_map in H as (st & Hst & H). apply v_col_settings in Hst as (_ & _ & HF). exact (forall_in _ _ _ HF H).
  Qed.
  Lemma v_note n : In n (all_notes x) ->
    written inp (nb_span n) note (e_note n) /\ written inp (lit_span (nb_value n)) note_text (lit_value (nb_value n)).
  Proof.
    intros H. apply note_src. unfold all_notes in H. inv_in.
    - unfold notes in H. inv_in. destruct y as [| | |n'| |]; inv_in. subst n'. apply (forall_in _ _ _ K) in HI. exact HI.
    - subst. apply v_project in HI as (_ & _ & _ & G). apply G. assumption.
    - subst. apply v_table in HI as (_ & _ & _ & _ & _ & _ & _ & G & _). apply G. assumption.
    - subst. apply v_group in HI as (_ & _ & _ & _ & G). apply G. assumption.
  Qed.
  Lemma v_plain_settings sp l : In (sp, l) (plain_settings x) -> set_ok inp sp l.
  Proof.
    intros H. unfold plain_settings in H. inv_in.
    - apply v_table in HI as (_ & _ & _ & _ & _ & G & _). injection H as -> ->. auto.
    - apply v_group in HI as (_ & _ & G & _). injection H as -> ->. auto.
    - injection H0 as <- <-. unfold all_index_settings in H. inv_in. subst. apply v_def in HI as (_ & _ & G). auto.
    - injection H0 as <- <-. unfold all_enum_settings in H. inv_in. subst. apply v_value in HI as (_ & _ & G). auto.
    - injection H0 as <- <-. unfold all_ref_settings in H. inv_in. subst. apply v_ref in HI as (_ & _ & _ & _ & G). auto.
  Qed.
  Lemma v_attr a : In a (all_attributes x) -> written inp (at_span a) attr (e_attr a) /\ attr_parts inp (at_key a) (at_value a).
  Proof.
    intros H. apply attribute_src. apply in_flat_map in H as ([sp l] & Hs & H). cbn [snd] in H.
    assert (HD : In (sp, l) (plain_settings x) \/ In (sp, l) (map (fun st => (cs_span st, cs_attributes st)) (all_col_settings x))).
    { unfold all_settings, plain_settings in *. rewrite !in_app_iff in *. tauto. }
    destruct HD as [HD|HD].
    - apply v_plain_settings in HD as (_ & HF). exact (forall_in _ _ _ HF H).
    - apply in_map_iff in HD as (st & [= <- <-] & HD). apply v_col_settings in HD as (_ & HF & _). exact (forall_in _ _ _ HF H).
  Qed.
  Lemma v_prop a : In a (all_properties x) -> written inp (pr_span a) property_text (e_prop a) /\ attr_parts inp (pr_key a) (Some (pr_value a)).
  Proof. intros H. apply property_src. apply in_flat_map in H as (p & Hp & H). apply v_project in Hp as (_ & _ & HF & _). exact (forall_in _ _ _ HF H). Qed.
  Lemma v_endpoint r : In r (all_endpoints x) -> endpoint_ok inp r.
  Proof.
    intros H. unfold all_endpoints in H. inv_in.
    - subst. apply v_ref in HI as (_ & G & _). exact G.
    - subst. apply v_ref in HI as (_ & _ & G & _). exact G.
    - subst. apply v_inline in H as (_ & G). exact G.
  Qed.
  Lemma v_ident i : In i (all_idents x) -> written inp (id_span i) name (id_str i).
  Proof.
    intros H. apply ident_src. unfold all_idents in H. repeat apply in_app_or in H as [H|H].
    all: repeat match goal with H : In _ (_ ++ _) |- _ => apply in_app_or in H as [H|H] end.
    - inv_in. subst. apply v_project in H. apply H.
    - inv_in; subst.
      + apply v_table in HI as (_ & _ & _ & G & _). apply G. assumption.
      + apply v_table in HI as (_ & _ & G & _). exact G.
      + apply v_table in HI as (_ & _ & _ & _ & G & _). apply G. assumption.
    - inv_in. subst. apply v_col in H. apply H.
    - apply in_flat_map in H as (d & Hd & H). apply v_def in Hd as (_ & HF & _). apply in_flat_map in H as (c & Hc & H).
      apply (forall_in _ _ _ HF) in Hc. destruct c; [|destruct H]. destruct H as [<-|[]]. exact Hc.
    - apply in_flat_map in H as (g & Hg & H). apply v_group in Hg as (_ & G & _ & HF & _). destruct H as [<-|H]; [exact G|].
      apply in_flat_map in H as (it & Hi & H). apply (forall_in _ _ _ HF) in Hi as (_ & G1 & G2). inv_in; subst; [apply G2; assumption|exact G1].
    - inv_in; subst.
      + apply v_enum in HI as (_ & _ & _ & G & _). apply G. assumption.
      + apply v_enum in HI as (_ & _ & G & _). exact G.
    - inv_in. subst. apply v_value in H. apply H.
    - inv_in. subst. apply v_ref in HI as (_ & _ & _ & G & _). apply G. assumption.
    - apply in_flat_map in H as (r & Hr & H). apply v_endpoint in Hr as (_ & G1 & G2 & G3). inv_in; subst; [apply G2; assumption|exact G1|].
      exact (forall_in _ _ _ G3 H).
  Qed.
  Lemma v_key i : In i (all_keys x) -> written inp (id_span i) phrase (id_str i).
  Proof.
    intros H. unfold all_keys in H. apply in_app_or in H as [H|H]; apply in_map_iff in H as (a & <- & H).
    - apply v_attr in H. apply H.
    - apply v_prop in H. apply H.
  Qed.
  Lemma v_lit l : In l (all_values x) -> written inp (lit_span l) value_text (lit_value l).
  Proof.
    intros H. unfold all_values in H. apply in_app_or in H as [H|H].
    - apply in_flat_map in H as (a & Ha & H). apply v_attr in Ha as (_ & _ & G). apply opt_list_in in H as (l' & E & ->). auto.
    - apply in_map_iff in H as (a & <- & H). apply v_prop in H as (_ & _ & G). auto.
  Qed.
  Lemma v_expr l : In l (all_index_exprs x) -> written inp (lit_span l) index_expr_text (lit_value l).
  Proof.
    intros H. apply in_flat_map in H as (d & Hd & H). apply v_def in Hd as (_ & HF & _). apply in_flat_map in H as (c & Hc & H).
    apply (forall_in _ _ _ HF) in Hc. destruct c; [destruct H|]. destruct H as [<-|[]]. exact Hc.
  Qed.
  Lemma v_block b : In b (sb_blocks x) -> is_ref b = false -> written inp (block_span b) block_text (e_block b).
  Proof.
    intros H Hr. apply (forall_in _ _ _ K) in H. destruct b; cbn [block_ok block_span e_block] in *; try (apply H); [|discriminate].
    apply note_src in H as [H _]. destruct H as (pre & t & g & rest & W1 & W2 & W3 & W4). exists pre, t, g, rest.
    split; [exact W1|]. split; [exact W2|]. split; [exact W3|]. exists (ANote (e_note n)). split; [exact W4|reflexivity].
  Qed.
End Spans.

Section Main.
  Variables (inp : str) (x : schema_t).
  Hypothesis H : parse_dbml_unchecked inp = Some (Ok x).
  Let K := schema_src inp x H.

  Lemma shown_block b : In b (sb_blocks x) -> is_ref b = false -> written inp (block_span b) block_text (e_block b).
  Proof. apply v_block, K. Qed.
  Lemma shown_ref r : In r (refs x) -> written inp (rb_span r) (ref_body (option_map id_str (rb_name r))) (e_ref r).
  Proof. intros Hr. apply (v_ref _ _ K) in Hr. apply Hr. Qed.
  Lemma shown_inline r : In r (all_ref_inlines x) -> written inp (rin_span r) inline (e_inline r).
  Proof. intros Hr. apply (v_inline _ _ K) in Hr. apply Hr. Qed.
  Lemma shown_endpoint r : In r (all_endpoints x) -> written inp (ri_span r) endpoint (e_ref_end r).
  Proof. intros Hr. apply (v_endpoint _ _ K) in Hr. apply Hr. Qed.
  Lemma shown_table_ident t : In t (tables x) ->
    written inp (ti_span (tb_ident t)) decl_name (qualified (ti_schema (tb_ident t)) (ti_name (tb_ident t))).
  Proof. intros Hr. apply (v_table _ _ K) in Hr. apply Hr. Qed.
  Lemma shown_enum_ident t : In t (enums x) ->
    written inp (ei_span (en_ident t)) decl_name (qualified (ei_schema (en_ident t)) (ei_name (en_ident t))).
  Proof. intros Hr. apply (v_enum _ _ K) in Hr. apply Hr. Qed.
  Lemma shown_item g i : In g (table_groups x) -> In i (tg_items g) -> written inp (gi_span i) decl_name (qualified (gi_schema i) (gi_ident_alias i)).
  Proof. intros Hg Hi. apply (v_group _ _ K) in Hg as (_ & _ & _ & HF & _). apply (forall_in _ _ _ HF) in Hi. apply Hi. Qed.
  Lemma shown_col c : In c (all_cols x) -> written inp (tc_span c) column (e_col c).
  Proof. intros Hr. apply (v_col _ _ K) in Hr. apply Hr. Qed.
  Lemma shown_col_settings st : In st (all_col_settings x) -> written inp (cs_span st) col_settings_r (e_col_settings st).
  Proof. intros Hr. apply (v_col_settings _ _ K) in Hr. apply Hr. Qed.
  Lemma shown_type t : In t (all_types x) -> written inp (ct_span t) type_r (e_type t).
  Proof. intros Hr. apply in_map_iff in Hr as (c & <- & Hr). apply (v_col _ _ K) in Hr. apply Hr. Qed.
  Lemma shown_indexes t ib : In t (tables x) -> tb_indexes t = Some ib -> written inp (ib_span ib) (braces index) (map e_index (ib_defs ib)).
  Proof. intros Ht E. apply (v_indexes _ _ K _ _ Ht E). Qed.
  Lemma shown_def d : In d (all_index_defs x) -> written inp (idf_span d) index (e_index d).
  Proof. intros Hr. apply (v_def _ _ K) in Hr. apply Hr. Qed.
  Lemma shown_value v : In v (all_enum_values x) ->
    written inp (ev_span v) enum_value_r (id_str (ev_value v), option_map (fun st => map e_attr (evs_attributes st)) (ev_settings v)).
  Proof. intros Hr. apply (v_value _ _ K) in Hr. apply Hr. Qed.
  Lemma shown_note n : In n (all_notes x) -> written inp (nb_span n) note (e_note n) /\ written inp (lit_span (nb_value n)) note_text (e_note n).
  Proof. apply (v_note _ _ K). Qed.
  Lemma shown_settings sp l : In (sp, l) (plain_settings x) -> written inp sp attrs (map e_attr l).
  Proof. intros Hr. apply (v_plain_settings _ _ K) in Hr. apply Hr. Qed.
  Lemma shown_attr a : In a (all_attributes x) -> written inp (at_span a) attr (e_attr a).
  Proof. intros Hr. apply (v_attr _ _ K) in Hr. apply Hr. Qed.
  Lemma shown_prop a : In a (all_properties x) -> written inp (pr_span a) property_text (e_prop a).
  Proof. intros Hr. apply (v_prop _ _ K) in Hr. apply Hr. Qed.
  Lemma shown_ident i : In i (all_idents x) -> written inp (id_span i) name (id_str i).
  Proof. apply (v_ident _ _ K). Qed.
  Lemma shown_key i : In i (all_keys x) -> written inp (id_span i) phrase (id_str i).
  Proof. apply (v_key _ _ K). Qed.
  Lemma shown_lit l : In l (all_values x) -> written inp (lit_span l) value_text (lit_value l).
  Proof. apply (v_lit _ _ K). Qed.
  Lemma shown_expr l : In l (all_index_exprs x) -> written inp (lit_span l) index_expr_text (lit_value l).
  Proof. apply (v_expr _ _ K). Qed.
End Main.
