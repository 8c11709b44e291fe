(** * PropsReindex: which index definitions can be reordered, in terms of texts (C44). *)

From Verif Require Import Samples TextSamples CheckFacts CheckFacts2 RulesOk3 ParserOk3 ParseFacts SynMain SynPrint Zap Reindex RulesOk SynVerdict.
From Verif Require Import Api Answer Rules.
From Verif Require Import Syntax.

Lemma unz_order_free l : order_free (map z_idef l) -> order_free l.
Proof.
  intros (H1 & H2 & H3). split; [|split].
  - intros d d' Hd Hd' E K. specialize (H1 (z_idef d) (z_idef d') (in_map _ _ _ Hd) (in_map _ _ _ Hd')). rewrite !SynVerdict.z_named in H1.
    destruct (H1 E (proj2 (z_kind d None) K)) as [H|H]; [left; apply z_kind; exact H|right; intros k Hk; apply (H k), z_kind; exact Hk].
  - intros d d' Hd Hd'. specialize (H2 (z_idef d) (z_idef d') (in_map _ _ _ Hd) (in_map _ _ _ Hd')). rewrite !SynVerdict.z_named in H2.
    unfold def_unique in H2 |- *. rewrite !z_def_has in H2 by reflexivity. exact H2.
  - intros d d' Hd Hd'. specialize (H3 (z_idef d) (z_idef d') (in_map _ _ _ Hd) (in_map _ _ _ Hd')). rewrite !SynVerdict.z_named in H3.
    unfold def_pk in H3 |- *. rewrite !z_def_has in H3 by reflexivity. exact H3.
Qed.
Lemma last_only_one {A} (l : list A) a : last_only l = [a] -> exists pre, l = pre ++ [a].
Proof.
  induction l as [|b l IH]; [discriminate|]. destruct l as [|c l]; cbn [last_only].
  - intros [= ->]. exists []. reflexivity.
  - intros H. destruct (IH H) as [pre E]. exists (b :: pre). rewrite E. reflexivity.
Qed.
Lemma reindexed_text_refl a : reindexed_text a a.
Proof. induction a; constructor; assumption. Qed.
Lemma reindexed_text_in a1 sc n al st cols notes pre l l' a2 : Permutation l l' ->
  reindexed_text (a1 ++ ATable (mkATable sc n al st cols notes (pre ++ [l])) :: a2) (a1 ++ ATable (mkATable sc n al st cols notes (pre ++ [l'])) :: a2).
Proof. intros P. induction a1 as [|b a1 IH]; cbn [app]; [apply rt_table; [exact P|apply reindexed_text_refl]|constructor; exact IH]. Qed.

Lemma needed_in_text t1 a x : dbml_text t1 a -> writable a -> parse_dbml t1 = Some (Ok x) ->
  (forall t2 b, dbml_text t2 b -> reindexed_text a b -> is_accepted t2) ->
  forall t ib, In t (tables x) -> tb_indexes t = Some ib -> order_free (ib_defs ib).
Proof.
  intros H1 W Ha All t ib Ht Ei. assert (Ha' : is_accepted t1) by (exists x; exact Ha). apply (accepted_reads _ _ H1) in Ha' as (F & x' & Hx & Mx & Ax).
  assert (x' = x) as ->. { unfold parse_dbml in Ha. rewrite Hx in Ha. cbn [bind] in Ha. destruct (analyze x'); cbn in Ha; congruence. }
  pose proof (z_blocks _ _ (unchecked_ok _ _ Hx)) as Kx.
  assert (Hb : In (BTable t) (sb_blocks x)).
  { unfold tables, filter_map in Ht. apply in_flat_map in Ht as (b & Hb & Ht). destruct b; cbn in Ht; try contradiction. destruct Ht as [->|[]]. exact Hb. }
  apply unz_order_free. apply (order_free_needed (map z_col (tb_cols t))). intros l' P. apply Permutation_sym, Permutation_map_inv in P as (l2 & -> & P).
  apply in_split in Hb as (b1 & b2 & E). rewrite E in Kx. apply Forall_app in Kx as [_ Kx]. inversion Kx as [|? ? Kt _]; subst. clear Kx.
  assert (Mx' : map e_block b1 ++ ATable (e_table_block t) :: map e_block b2 = map settle_block a).
  { change (map settle_block a) with (settle a). rewrite <- Mx. unfold meaning. rewrite E, map_app. reflexivity. }
  symmetry in Mx'. apply map_eq_app in Mx' as (a1 & a2' & -> & M1 & M2). apply map_eq_cons in M2 as (B & a2 & -> & MB & M2).
  destruct B as [|T| | | |]; try discriminate. destruct T as [sc n al st cols notes ixs]. cbn [settle_block t_schema t_name t_alias t_settings t_cols t_notes t_indexes] in MB.
  injection MB as A1 A2 A3 A4 A5 A6 A7. rewrite Ei in A7. cbn [opt_list] in A7. apply last_only_one in A7 as [pre ->].
  pose (b := a1 ++ ATable (mkATable sc n al st cols notes (pre ++ [map e_index l2])) :: a2).
  assert (R : reindexed_text (a1 ++ ATable (mkATable sc n al st cols notes (pre ++ [map e_index (ib_defs ib)])) :: a2) b).
  { apply reindexed_text_in. apply Permutation_map. exact P. }
  assert (Wb : writable b).
  { unfold writable, writable_with, b in *. apply Forall_app in W as [W1 W2]. inversion W2 as [|? ? W3 W4]; subst. apply Forall_app. split; [exact W1|]. constructor; [|exact W4].
    cbn [w_block] in W3 |- *. unfold w_table in *. cbn [t_schema t_name t_alias t_settings t_cols t_notes t_indexes] in *.
    destruct W3 as (V1 & V2 & V3 & V4 & V5 & V6). repeat (split; [assumption|]). apply Forall_app in V6 as [V6 V7]. apply Forall_app. split; [exact V6|].
    inversion V7; subst. constructor; [|constructor]. eapply Permutation_Forall; [apply Permutation_map; exact P|assumption]. }
  destruct (has_text b Wb) as [t2 H2]. specialize (All _ _ H2 R). apply (accepted_reads _ _ H2) in All as (_ & y & Hy & My & Ay).
  pose proof (z_blocks _ _ (unchecked_ok _ _ Hy)) as Ky.
  unfold meaning, settle, b in My. rewrite map_app in My. cbn [map] in My. apply map_eq_app in My as (y1 & y2' & Ey & My1 & My2).
  apply map_eq_cons in My2 as (B & y2 & -> & MB & My2). rewrite Ey in Ky. apply Forall_app in Ky as [_ Ky]. inversion Ky as [|? ? Kt' _]; subst. clear Ky.
  destruct B as [|t'| | | |]; try discriminate. cbn [e_block settle_block t_schema t_name t_alias t_settings t_cols t_notes t_indexes] in MB.
  injection MB as B1 B2 B3 B4 B5 B6 B7. rewrite last_snoc in B7. cbn [block_ok] in Kt, Kt'.
  destruct Kt as (_ & _ & _ & C1 & _ & C2 & _), Kt' as (_ & _ & _ & D1 & _ & D2 & _). rewrite Ei in C2.
  destruct (tb_indexes t') as [ib'|] eqn:Ei'; [|discriminate]. cbn [opt_list] in B7. injection B7 as B7.
  destruct C2 as (_ & C2 & _), D2 as (_ & D2 & _).
  assert (Ed : map z_idef (ib_defs ib') = map z_idef l2).
  { eapply (map_pointwise e_index e_index z_idef z_idef); [exact B7|exact D2|exact (Permutation_Forall P C2)|intros u v; apply m_idef]. }
  assert (Ec : map z_col (tb_cols t') = map z_col (tb_cols t)).
  { eapply (map_pointwise e_col e_col z_col z_col); [|exact D1|exact C1|intros u v; apply m_col]. congruence. }
  rewrite <- Ed, <- Ec. apply analyze_accepts in Ay. destruct Ay as (_ & _ & _ & _ & Wy & _).
  assert (Hz : In (z_table t') (tables (z_schema y))).
  { rewrite z_tables. apply in_map. unfold tables, filter_map. rewrite Ey. apply in_flat_map. exists (BTable t'). split; [apply in_or_app; right; left; reflexivity|left; reflexivity]. }
  apply (forall_in _ _ _ Wy) in Hz as (_ & _ & K). cbn [z_table tb_indexes tb_cols] in K. rewrite Ei' in K. exact K.
Qed.
Lemma exactly_in_text t1 a x : dbml_text t1 a -> writable a -> parse_dbml t1 = Some (Ok x) ->
  ((forall t2 b, dbml_text t2 b -> reindexed_text a b -> is_accepted t2) <->
   (forall t ib, In t (tables x) -> tb_indexes t = Some ib -> order_free (ib_defs ib))).
Proof.
  intros H1 W Ha. split; [exact (needed_in_text _ _ _ H1 W Ha)|]. intros H t2 b H2 R. exact (reindex_text _ _ _ _ _ H1 H2 R Ha H).
Qed.

(** The index definitions of an accepted text can be reordered at will exactly when they
    are free of order: otherwise there is a text with the same definitions in another order
    that is rejected.  ([writable]: no quoted value starts with a comment mark, see C15.) *)
Theorem C44_exactly_in_text : forall t1 a x, dbml_text t1 a -> writable a -> parse_dbml t1 = Some (Ok x) ->
  ((forall t2 b, dbml_text t2 b -> reindexed_text a b -> is_accepted t2) <->
   (forall t ib, In t (tables x) -> tb_indexes t = Some ib -> order_free (ib_defs ib))).
Proof. exact exactly_in_text. Qed.
Print Assumptions C44_exactly_in_text.
Example C44_exactly_meets : exists t1 x, dbml_text t1 (ix_of [ix1; ix2]) /\ writable (ix_of [ix1; ix2]) /\ parse_dbml t1 = Some (Ok x).
Proof.
  destruct ix_texts as (t1 & _ & H & _ & [x Hx]). exists t1, x. split; [exact H|]. split; [|exact Hx].
  apply ix_writable. repeat (constructor; [first [exact ix1_writable|exact ix2_writable]|]). constructor.
Qed.
