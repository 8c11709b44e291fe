(** * NodesOk: every part of a parsed AST is faithful to the source. *)

From Verif Require Import Nodes RulesOk RulesOk3 ParserOk SpansOk.

Lemma opt_list_in {A B} (f : A -> B) o b : In b (opt_list f o) <-> exists a, o = Some a /\ b = f a.
Proof.
  destruct o as [a|]; cbn [opt_list In].
  - split; [intros [<-|[]]; eauto|]. intros (a' & [= <-] & ->). auto.
  - split; [intros []|]. intros (a & H & _). discriminate.
Qed.
Lemma opt_flat_in {A B} (f : A -> list B) o b : In b (opt_flat f o) <-> exists a, o = Some a /\ In b (f a).
Proof.
  destruct o as [a|]; cbn [opt_flat].
  - split; [eauto|]. intros (a' & [= <-] & H). auto.
  - split; [intros []|]. intros (a & H & _). discriminate.
Qed.

Lemma in_order_each lo l hi sp : in_order lo l hi -> In sp l -> lo <= fst sp /\ fst sp <= snd sp /\ snd sp <= hi.
Proof.
  revert lo. induction l as [|a l IH]; intros lo; [intros _ []|]. cbn [in_order]. intros (H1 & H2 & H3) [<-|Hin].
  - apply in_order_le in H3. lia.
  - apply (IH _ H3) in Hin. lia.
Qed.
Lemma within_inside sp l a : within sp l -> In a l -> inside a sp.
Proof. intros H Hin. apply (in_order_each _ _ _ _ H Hin). Qed.
Lemma in_order_app' lo l1 m l2 hi : in_order lo l1 m -> in_order m l2 hi -> in_order lo (l1 ++ l2) hi.
Proof.
  revert lo. induction l1 as [|a l1 IH]; intros lo H1 H2; cbn [app in_order] in *.
  - revert H2. destruct l2 as [|b l2]; cbn [in_order]; [lia|]. intros (G1 & G2 & G3). split; [lia|auto].
  - destruct H1 as (G1 & G2 & G3). split; [exact G1|]. split; [exact G2|]. apply IH; assumption.
Qed.

Ltac inv_in := repeat match goal with
  | H : In _ (_ ++ _) |- _ => apply in_app_or in H as [H|H]
  | H : In _ (_ :: _) |- _ => destruct H as [H|H]
  | H : In _ [] |- _ => destruct H
  | H : In _ (map _ _) |- _ => apply in_map_iff in H as (? & ? & H)
  | H : In _ (flat_map _ _) |- _ => let y := fresh "y" in let H' := fresh "HI" in apply in_flat_map in H as (y & H' & H)
  | H : In _ (opt_list _ _) |- _ => let y := fresh "z" in let H' := fresh "HS" in apply opt_list_in in H as (y & H' & H)
  | H : In _ (opt_flat _ _) |- _ => let y := fresh "z" in let H' := fresh "HS" in apply opt_flat_in in H as (y & H' & H)
  end.

Section Nodes.
  Variables (inp : str) (x : schema_t).
  Hypothesis K : schema_ok inp x.

  Lemma n_col c : In c (all_cols x) -> table_col_ok inp c.
  Proof. intros H. apply in_flat_map in H as (t & Ht & Hc). apply (in_tables _ _ K) in Ht as (_ & _ & _ & H & _). exact (forall_in _ _ _ H Hc). Qed.
  Lemma n_col_settings st : In st (all_col_settings x) -> col_settings_ok inp st.
  Proof.
    intros H. apply in_flat_map in H as (c & Hc & H). apply opt_list_in in H as (st' & E & ->).
    apply n_col in Hc as (_ & _ & _ & H & _). rewrite E in H. exact H.
  Qed.
  Lemma n_indexes t ib : In t (tables x) -> tb_indexes t = Some ib -> indexes_block_ok inp ib.
  Proof. intros Ht E. apply (in_tables _ _ K) in Ht as (_ & _ & _ & _ & _ & H & _). rewrite E in H. exact H. Qed.
  Lemma n_def d : In d (all_index_defs x) -> indexes_def_ok inp d.
  Proof.
    intros H. apply in_flat_map in H as (t & Ht & H). apply opt_flat_in in H as (ib & E & H).
    destruct (n_indexes _ _ Ht E) as (_ & HF & _). exact (forall_in _ _ _ HF H).
  Qed.
  Lemma n_def_settings st : In st (all_index_settings x) -> indexes_settings_ok inp st.
  Proof.
    intros H. apply in_flat_map in H as (c & Hc & H). apply opt_list_in in H as (st' & E & ->).
    apply n_def in Hc as (_ & _ & H & _). rewrite E in H. exact H.
  Qed.
  Lemma n_value v : In v (all_enum_values x) -> enum_value_ok inp v.
  Proof. intros H. apply in_flat_map in H as (t & Ht & Hc). apply (in_enums _ _ K) in Ht as (_ & _ & H & _). exact (forall_in _ _ _ H Hc). Qed.
  Lemma n_value_settings st : In st (all_enum_settings x) ->
    attributes_ok inp (evs_span st) (evs_attributes st) /\ enum_settings_say (evs_attributes st) st.
  Proof.
    intros H. apply in_flat_map in H as (c & Hc & H). apply opt_list_in in H as (st' & E & ->).
    apply n_value in Hc as (_ & _ & H & _). rewrite E in H. exact H.
  Qed.
  Lemma n_ref_settings st : In st (all_ref_settings x) -> ref_settings_ok inp st.
  Proof.
    intros H. apply in_flat_map in H as (c & Hc & H). apply opt_list_in in H as (st' & E & ->).
    apply (in_refs _ _ K) in Hc as (_ & _ & _ & _ & _ & H & _). rewrite E in H. exact H.
  Qed.
  Lemma n_inline r : In r (all_ref_inlines x) -> ref_inline_ok inp r.
  Proof.
    intros H. apply in_flat_map in H as (st & Hst & H). apply n_col_settings in Hst as (_ & _ & HF & _). exact (forall_in _ _ _ HF H).
  Qed.
  Lemma n_note n : In n (all_notes x) -> note_ok inp n.
  Proof.
    intros H. unfold all_notes in H. inv_in.
    - unfold notes in H. inv_in. destruct y as [| | |n'| |]; inv_in. subst n'.
      destruct K as (_ & _ & HF & _). apply (forall_in _ _ _ HF) in HI. exact HI.
    - apply (in_projects _ _ K) in HI as (_ & _ & _ & G & _). rewrite HS in G. subst. exact G.
    - apply (in_tables _ _ K) in HI as (_ & _ & _ & _ & G & _). rewrite HS in G. subst. exact G.
    - apply (in_groups _ _ K) in HI as (_ & _ & _ & _ & G & _). rewrite HS in G. subst. exact G.
  Qed.
  Lemma n_settings sp l : In (sp, l) (all_settings x) -> attributes_ok inp sp l.
  Proof.
    intros H. unfold all_settings in H. inv_in.
    - apply (in_tables _ _ K) in HI as (_ & _ & G & _). rewrite HS in G. injection H as -> ->. exact G.
    - apply (in_groups _ _ K) in HI as (_ & _ & G & _). rewrite HS in G. injection H as -> ->. exact G.
    - injection H0 as <- <-. apply n_col_settings in H as (G & _). exact G.
    - injection H0 as <- <-. apply n_def_settings in H as (G & _). exact G.
    - injection H0 as <- <-. apply n_value_settings in H as (G & _). exact G.
    - injection H0 as <- <-. apply n_ref_settings in H as (G & _). exact G.
  Qed.
  Lemma n_attr a : In a (all_attributes x) -> attribute_ok inp a.
  Proof. intros H. apply in_flat_map in H as ([sp l] & Hs & H). apply n_settings in Hs as (_ & HF & _). exact (forall_in _ _ _ HF H). Qed.
  Lemma n_prop a : In a (all_properties x) -> property_ok inp a.
  Proof. intros H. apply in_flat_map in H as (p & Hp & H). apply (in_projects _ _ K) in Hp as (_ & _ & HF & _). exact (forall_in _ _ _ HF H). Qed.
  Lemma n_endpoint r : In r (all_endpoints x) -> ref_ident_ok inp r.
  Proof.
    intros H. unfold all_endpoints in H. inv_in.
    - subst. apply (in_refs _ _ K) in HI as (_ & _ & _ & G & _). exact G.
    - subst. apply (in_refs _ _ K) in HI as (_ & _ & _ & _ & G & _). exact G.
    - subst. apply n_inline in H as (_ & G & _). exact G.
  Qed.
  Lemma n_ident i : In i (all_idents x) -> ident_ok inp i.
  Proof.
    intros H. unfold all_idents in H. repeat apply in_app_or in H as [H|H].
    all: repeat match goal with H : In _ (_ ++ _) |- _ => apply in_app_or in H as [H|H] end.
    - inv_in. subst. apply (in_projects _ _ K) in H. apply H.
    - inv_in; subst.
      + apply (in_tables _ _ K) in HI as (_ & (_ & G & _) & _). rewrite HS in G. exact G.
      + apply (in_tables _ _ K) in HI as (_ & (_ & _ & G & _) & _). exact G.
      + apply (in_tables _ _ K) in HI as (_ & (_ & _ & _ & G & _) & _). rewrite HS in G. exact G.
    - inv_in. subst. apply n_col in H. apply H.
    - apply in_flat_map in H as (d & Hd & H). apply n_def in Hd as (_ & HF & _). apply in_flat_map in H as (c & Hc & H).
      apply (forall_in _ _ _ HF) in Hc. destruct c; [|destruct H]. destruct H as [<-|[]]. exact Hc.
    - apply in_flat_map in H as (g & Hg & H). apply (in_groups _ _ K) in Hg as (_ & G & _ & HF & _). destruct H as [<-|H]; [exact G|].
      apply in_flat_map in H as (it & Hi & H). apply (forall_in _ _ _ HF) in Hi as (_ & G1 & G2 & _). inv_in; subst.
      + rewrite HS in G1. exact G1.
      + exact G2.
    - inv_in; subst.
      + apply (in_enums _ _ K) in HI as (_ & (_ & G & _) & _). rewrite HS in G. exact G.
      + apply (in_enums _ _ K) in HI as (_ & (_ & _ & G & _) & _). exact G.
    - inv_in. subst. apply n_value in H. apply H.
    - inv_in. subst. apply (in_refs _ _ K) in HI as (_ & G & _). rewrite HS in G. exact G.
    - apply in_flat_map in H as (r & Hr & H). apply n_endpoint in Hr as (_ & G1 & G2 & _ & G3 & _). inv_in; subst.
      + rewrite HS in G1. exact G1.
      + exact G2.
      + exact (forall_in _ _ _ G3 H).
  Qed.
  Lemma n_key i : In i (all_keys x) -> key_ok inp i.
  Proof.
    intros H. unfold all_keys in H. apply in_app_or in H as [H|H]; apply in_map_iff in H as (a & <- & H).
    - apply n_attr in H. apply H.
    - apply n_prop in H. apply H.
  Qed.
  Lemma n_lit l : In l (all_literals x) -> literal_ok inp l.
  Proof.
    intros H. unfold all_literals in H. repeat apply in_app_or in H as [H|H].
    - apply in_flat_map in H as (a & Ha & H). apply n_attr in Ha as (_ & _ & G & _). apply opt_list_in in H as (l' & E & ->). rewrite E in G. exact G.
    - apply in_map_iff in H as (a & <- & H). apply n_prop in H. apply H.
    - apply in_map_iff in H as (a & <- & H). apply n_note in H. apply H.
  Qed.
  Lemma n_expr l : In l (all_index_exprs x) -> shows inp (lit_span l) (lit_raw l) /\ exists v, lit_value l = VString v /\ quoted bq (lit_raw l) v.
  Proof.
    intros H. apply in_flat_map in H as (d & Hd & H). apply n_def in Hd as (_ & HF & _). apply in_flat_map in H as (c & Hc & H).
    apply (forall_in _ _ _ HF) in Hc. destruct c; [destruct H|]. destruct H as [<-|[]]. exact Hc.
  Qed.
  Lemma n_type t : In t (all_types x) -> col_type_ok inp t.
  Proof. intros H. apply in_map_iff in H as (c & <- & H). apply n_col in H. apply H. Qed.
  Lemma n_block b : In b (sb_blocks x) -> block_ok inp b.
  Proof. intros H. destruct K as (_ & _ & HF & _). exact (forall_in _ _ _ HF H). Qed.

  Lemma n_span sp : In sp (all_spans x) -> valid_span inp sp.
  Proof.
    intros H. unfold all_spans in H. destruct H as [<-|H].
    { destruct K as (_ & -> & _). apply valid_whole. }
    repeat (apply in_app_or in H as [H|H]).
    all: repeat match goal with H : In _ (_ ++ _) |- _ => apply in_app_or in H as [H|H] end.
    - apply in_map_iff in H as (b & <- & H). apply n_block in H. destruct b; apply H.
    - apply in_map_iff in H as (b & <- & H). apply n_ident in H. eapply shows_valid. apply H.
    - apply in_map_iff in H as (b & <- & H). apply n_key in H. eapply shows_valid. apply H.
    - apply in_map_iff in H as (b & <- & H). apply n_lit in H. eapply shows_valid. apply H.
    - apply in_map_iff in H as (b & <- & H). apply n_expr in H. eapply shows_valid. apply H.
    - apply in_map_iff in H as (b & <- & H). apply n_type in H. eapply shows_valid. apply H.
    - apply in_map_iff in H as ([sp' l] & <- & H). apply n_settings in H. apply H.
    - apply in_map_iff in H as (b & <- & H). apply n_attr in H. apply H.
    - apply in_map_iff in H as (b & <- & H). apply n_prop in H. apply H.
    - apply in_map_iff in H as (b & <- & H). apply (in_tables _ _ K) in H as (_ & G & _). apply G.
    - apply in_map_iff in H as (b & <- & H). apply (in_enums _ _ K) in H as (_ & G & _). apply G.
    - apply in_map_iff in H as (b & <- & H). apply n_col in H. apply H.
    - apply in_map_iff in H as (b & <- & H). apply n_value in H. apply H.
    - apply in_flat_map in H as (t & Ht & H). apply opt_list_in in H as (ib & E & ->). apply (n_indexes _ _ Ht E).
    - apply in_map_iff in H as (b & <- & H). apply n_def in H. apply H.
    - apply in_map_iff in H as (b & <- & H). apply in_flat_map in H as (g & Hg & H).
      apply (in_groups _ _ K) in Hg as (_ & _ & _ & HF & _). apply (forall_in _ _ _ HF H).
    - apply in_map_iff in H as (b & <- & H). apply n_note in H. apply H.
    - apply in_map_iff in H as (b & <- & H). apply n_endpoint in H. apply H.
    - apply in_map_iff in H as (b & <- & H). apply n_inline in H. apply H.
  Qed.

  Lemma n_part a b : part_of x a b -> inside a b.
  Proof.
    intros H. destruct H.
    - destruct K as (_ & _ & _ & G). apply (within_inside _ _ _ G). apply in_map. assumption.
    - apply (in_projects _ _ K) in H as (_ & _ & _ & _ & _ & G & G2). inv_in; subst; try (apply (within_inside _ _ _ G); cbn [In]; auto using in_map; fail).
      rewrite HS in G2. cbn [opt_all] in G2. pose proof (within_inside _ _ (id_span (pj_ident p)) G) as G3.
      assert (G4 : inside (id_span (pj_ident p)) (pj_span p)) by (apply G3; cbn; auto). unfold inside in *. cbn [fst snd] in *. lia.
    - pose proof (in_tables _ _ K _ H) as (Hv & _ & _ & _ & _ & _ & m & G1 & G2 & G3 & G4).
      pose proof (in_order_le _ _ _ G1) as L1. pose proof (in_order_le _ _ _ G2) as L2.
      assert (A1 : forall sp, In sp (ti_span (tb_ident t) :: opt_list id_span (ti_alias (tb_ident t)) ++ opt_list ts_span (tb_settings t)) -> inside sp (tb_span t)).
      { intros sp' Hsp. apply (in_order_each _ _ _ _ G1) in Hsp. unfold inside. lia. }
      destruct H0 as [<-|H0]; [apply A1; left; reflexivity|].
      apply in_app_or in H0 as [H0|H0]; [apply A1; right; apply in_or_app; auto|].
      apply in_app_or in H0 as [H0|H0]; [apply A1; right; apply in_or_app; auto|].
      apply in_app_or in H0 as [H0|H0]; [apply (in_order_each _ _ _ _ G2) in H0; unfold inside; lia|].
      apply in_app_or in H0 as [H0|H0]; apply opt_list_in in H0 as (n & E & ->); rewrite E in *; cbn [opt_all] in *; unfold inside in *; cbn [fst snd] in *; lia.
    - apply (in_tables _ _ K) in H as (_ & (_ & _ & _ & _ & G) & _). exact (within_inside _ _ _ G H0).
    - apply n_col in H as (_ & _ & _ & _ & G). exact (within_inside _ _ _ G H0).
    - apply n_col_settings in H as (_ & _ & _ & G). apply (within_inside _ _ _ G). apply in_map. assumption.
    - apply n_inline in H as (_ & _ & sp & t & _ & _ & G). apply (within_inside _ _ _ G). cbn. auto.
    - destruct (n_indexes _ _ H H0) as (_ & _ & G). apply (within_inside _ _ _ G). apply in_map. assumption.
    - apply n_def in H as (_ & _ & _ & G). exact (within_inside _ _ _ G H0).
    - apply (in_groups _ _ K) in H as (Hv & _ & _ & _ & _ & m & G1 & G2 & G3).
      pose proof (in_order_le _ _ _ G1) as L1. pose proof (in_order_le _ _ _ G2) as L2.
      assert (A1 : forall sp, In sp (id_span (tg_ident g) :: opt_list gs_span (tg_settings g)) -> inside sp (tg_span g)).
      { intros sp' Hsp. apply (in_order_each _ _ _ _ G1) in Hsp. unfold inside. lia. }
      destruct H0 as [<-|H0]; [apply A1; left; reflexivity|].
      apply in_app_or in H0 as [H0|H0]; [apply A1; right; auto|].
      apply in_app_or in H0 as [H0|H0]; [apply (in_order_each _ _ _ _ G2) in H0; unfold inside; lia|].
      apply opt_list_in in H0 as (n & E & ->); rewrite E in *; cbn [opt_all] in *; unfold inside in *; cbn [fst snd] in *; lia.
    - apply (in_groups _ _ K) in H as (_ & _ & _ & HF & _). apply (forall_in _ _ _ HF) in H0 as (_ & _ & _ & G). exact (within_inside _ _ _ G H1).
    - apply (in_enums _ _ K) in H as (_ & _ & _ & G). exact (within_inside _ _ _ G H0).
    - apply (in_enums _ _ K) in H as (_ & (_ & _ & _ & G) & _). exact (within_inside _ _ _ G H0).
    - apply n_value in H as (_ & _ & _ & G). exact (within_inside _ _ _ G H0).
    - apply (in_refs _ _ K) in H as (_ & _ & _ & _ & _ & _ & sp' & t & _ & _ & G). apply (within_inside _ _ _ G).
      destruct H0 as [<-|[<-|H0]]; cbn; auto.
    - apply n_endpoint in H as (_ & _ & _ & _ & _ & G). exact (within_inside _ _ _ G H0).
    - apply n_note in H. apply H.
    - apply n_settings in H as (_ & _ & G). apply (within_inside _ _ _ G). apply in_map. assumption.
    - apply n_attr in H as (_ & _ & _ & G). exact (within_inside _ _ _ G H0).
    - apply n_prop in H as (_ & _ & _ & G). exact (within_inside _ _ _ G H0).
  Qed.

  Lemma n_sequence l : sequence x l -> one_after_the_other l.
  Proof.
    assert (W : forall sp l, within sp l -> one_after_the_other l) by (intros sp l' H; exists (fst sp), (snd sp); exact H).
    intros H. destruct H.
    - eapply W. apply K.
    - apply (in_projects _ _ K) in H as (_ & _ & _ & _ & _ & G & _). eapply W. exact G.
    - apply (in_tables _ _ K) in H as (_ & _ & _ & _ & _ & _ & m & G1 & G2 & _). exists (fst (tb_span t)), (snd (tb_span t)).
      pose proof (in_order_app' _ _ _ _ _ G1 G2) as G. cbn [app] in G. rewrite <- app_assoc in G. exact G.
    - apply n_col in H as (_ & _ & _ & _ & G). eapply W. exact G.
    - apply n_col_settings in H as (_ & _ & _ & G). eapply W. exact G.
    - destruct (n_indexes _ _ H H0) as (_ & _ & G). eapply W. exact G.
    - apply n_def in H as (_ & _ & _ & G). eapply W. exact G.
    - apply (in_groups _ _ K) in H as (_ & _ & _ & _ & _ & m & G1 & G2 & _). exists (fst (tg_span g)), (snd (tg_span g)).
      exact (in_order_app' _ _ _ _ _ G1 G2).
    - apply (in_enums _ _ K) in H as (_ & _ & _ & G). eapply W. exact G.
    - apply n_value in H as (_ & _ & _ & G). eapply W. exact G.
    - apply (in_refs _ _ K) in H as (_ & Gi & G1 & _ & _ & _ & sp & t & _ & _ & G).
      assert (G2 : in_order (fst (rb_span r)) (ri_span (rb_lhs r) :: ri_span (rb_rhs r) :: opt_list rs_span (rb_settings r)) (snd (rb_span r))).
      { unfold within in G. cbn [in_order] in *. destruct G as (A1 & A2 & A3 & A4 & A5 & A6 & A7). repeat split; try assumption. lia. }
      destruct (rb_name r) as [i|]; cbn [opt_list opt_all app] in *.
      + exists (fst (id_span i)), (snd (rb_span r)). cbn [in_order]. split; [lia|].
        destruct Gi as [Gi _]. apply shows_valid in Gi as [Gi _]. split; [exact Gi|].
        cbn [in_order] in G2. destruct G2 as (A1 & A2 & A3). split; [lia|]. auto.
      + exists (fst (rb_span r)), (snd (rb_span r)). exact G2.
    - apply n_endpoint in H as (_ & _ & _ & _ & _ & G). eapply W. exact G.
    - apply n_settings in H as (_ & _ & G). eapply W. exact G.
    - apply n_attr in H as (_ & _ & _ & G). eapply W. exact G.
    - apply n_prop in H as (_ & _ & _ & G). eapply W. exact G.
  Qed.
End Nodes.
