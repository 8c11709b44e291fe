(** * Reindex: when the order of index definitions does not matter. *)

From Verif Require Import Nodes SpansOk RulesOk RulesOk2 RulesOk3 Rules CheckFacts.
From Verif Require Import Err Analyzer.

Lemma perm_before {A} (l : list A) a d' b d m : Permutation l ((a ++ d' :: b) ++ d :: m) ->
  (exists l1 l2, l = l1 ++ d :: l2 /\ In d' l1) \/ (exists l1 l2, l = l1 ++ d' :: l2 /\ In d l1).
Proof.
  intros P. assert (Hd : In d l) by (apply (Permutation_in _ (Permutation_sym P)); apply in_or_app; right; left; reflexivity).
  apply in_split in Hd as (l1 & l2 & ->). pose proof (Permutation_app_inv _ _ _ _ _ P) as Q.
  assert (Hd' : In d' (l1 ++ l2)) by (apply (Permutation_in _ (Permutation_sym Q)); apply in_or_app; left; apply in_or_app; right; left; reflexivity).
  apply in_app_or in Hd' as [H|H]; [left; eauto|]. right. apply in_split in H as (u & v & ->).
  exists (l1 ++ d :: u), v. split; [rewrite <- app_assoc; reflexivity|]. apply in_or_app. right. left. reflexivity.
Qed.
Lemma index_kind_fun d k k' : index_kind d k -> index_kind d k' -> k = k'.
Proof.
  unfold index_kind. destruct (idf_settings d); [|congruence]. intros (t & E & ->) (t' & E' & ->). congruence.
Qed.

Lemma reorder_defs cols l l' : order_free l -> Permutation l l' ->
  (forall l1 d l2, l = l1 ++ d :: l2 -> index_def_wf cols l1 d) ->
  forall l1 d l2, l' = l1 ++ d :: l2 -> index_def_wf cols l1 d.
Proof.
  intros (O1 & O2 & O3) P H m1 d m2 ->.
  assert (Hd : In d l) by (apply (Permutation_in _ (Permutation_sym P)); apply in_or_app; right; left; reflexivity).
  assert (Hs : forall d', In d' m1 -> In d' l /\ ((exists l1 l2, l = l1 ++ d :: l2 /\ In d' l1) \/ (exists l1 l2, l = l1 ++ d' :: l2 /\ In d l1))).
  { intros d' Hd'. split; [apply (Permutation_in _ (Permutation_sym P)); apply in_or_app; auto|].
    apply in_split in Hd' as (a & b & ->). eapply perm_before. exact P. }
  pose proof Hd as Hd0. apply in_split in Hd0 as (u & v & El). pose proof (H _ _ _ El) as (W1 & W2 & W3 & W4 & W5 & W6 & W7 & W8 & W9).
  unfold index_def_wf. split; [exact W1|]. split; [exact W2|]. split; [exact W3|]. split; [exact W4|]. split; [exact W5|]. split; [exact W6|].
  split; [|split].
  - intros [Hp [Hc|(d' & Hi & Hp' & Hn)]].
    + apply W7. split; [exact Hp|left; exact Hc].
    + destruct (Hs _ Hi) as [Hl [(l1 & l2 & E & Hb)|(l1 & l2 & E & Hb)]].
      * destruct (H _ _ _ E) as (_ & _ & _ & _ & _ & _ & G & _). apply G. split; [exact Hp|]. right. eauto.
      * destruct (H _ _ _ E) as (_ & _ & _ & _ & _ & _ & G & _). apply G. split; [exact Hp'|]. right. exists d. split; [exact Hb|]. split; [exact Hp|].
        intros Z. apply Hn. exact (O3 _ _ Hd Hl Hp Hp' Z).
  - intros [Hp [Hc|(d' & Hi & Hp' & Hn)]].
    + apply W8. split; [exact Hp|left; exact Hc].
    + destruct (Hs _ Hi) as [Hl [(l1 & l2 & E & Hb)|(l1 & l2 & E & Hb)]].
      * destruct (H _ _ _ E) as (_ & _ & _ & _ & _ & _ & _ & G & _). apply G. split; [exact Hp|]. right. eauto.
      * destruct (H _ _ _ E) as (_ & _ & _ & _ & _ & _ & _ & G & _). apply G. split; [exact Hp'|]. right. exists d. split; [exact Hb|]. split; [exact Hp|].
        eapply O2; eassumption.
  - intros (d' & k & k' & Hi & Hk & Hk' & Hn & Hc).
    destruct (Hs _ Hi) as [Hl [(l1 & l2 & E & Hb)|(l1 & l2 & E & Hb)]].
    + destruct (H _ _ _ E) as (_ & _ & _ & _ & _ & _ & _ & _ & G). apply G. exists d', k, k'. auto.
    + destruct (H _ _ _ E) as (_ & _ & _ & _ & _ & _ & _ & _ & G). apply G. exists d, k', k.
      split; [exact Hb|]. split; [exact Hk'|]. split; [exact Hk|]. split; [symmetry; exact Hn|].
      destruct Hc as [->| ->]; [|auto]. destruct (O1 d d' Hd Hl (eq_sym Hn) Hk) as [Hz|Hz]; [|destruct (Hz _ Hk')].
      left. eapply index_kind_fun; eassumption.
Qed.

(** Conversely, if every order is fine, then the definitions are such. *)
Lemma swap_front {A} (l : list A) d d' : In d l -> In d' l -> d <> d' -> exists r, Permutation l (d' :: d :: r).
Proof.
  intros Hd Hd' Hn. apply in_split in Hd as (l1 & l2 & ->). assert (H : In d' (l1 ++ l2)).
  { apply in_app_or in Hd'. apply in_or_app. destruct Hd' as [H|[H|H]]; [left; exact H|congruence|right; exact H]. }
  apply in_split in H as (u & v & E). exists (u ++ v).
  transitivity (d :: l1 ++ l2); [symmetry; apply Permutation_middle|]. rewrite E.
  transitivity (d :: d' :: u ++ v); [constructor; symmetry; apply Permutation_middle|apply perm_swap].
Qed.
Lemma order_free_needed cols l : (forall l', Permutation l l' -> forall l1 d l2, l' = l1 ++ d :: l2 -> index_def_wf cols l1 d) -> order_free l.
Proof.
  intros H. assert (W : forall d d', In d l -> In d' l -> d <> d' -> index_def_wf cols [d'] d).
  { intros d d' Hd Hd' Hn. destruct (swap_front l d d' Hd Hd' Hn) as (r & P). exact (H _ P [d'] d r eq_refl). }
  split; [|split].
  - intros d d' Hd Hd' En K. destruct (idf_settings d') as [st|] eqn:Es; [|left; unfold index_kind; rewrite Es; reflexivity].
    destruct (is_type st) as [ty|] eqn:Et; [|right; intros k; unfold index_kind; rewrite Es; intros (ty & E & _); congruence].
    exfalso. assert (Hn : d <> d') by (intros ->; unfold index_kind in K; rewrite Es in K; destruct K as (? & _ & K); discriminate).
    destruct (W d d' Hd Hd' Hn) as (_ & _ & _ & _ & _ & _ & _ & _ & G). apply G. exists d', None, (Some ty).
    split; [left; reflexivity|]. split; [exact K|]. split; [unfold index_kind; rewrite Es; eauto|]. auto.
  - intros d d' Hd Hd' U U' Hi. destruct (list_eq_dec (list_eq_dec N.eq_dec) (named d) (named d')) as [->|Hn]; [apply incl_refl|].
    exfalso. assert (Hd0 : d <> d') by congruence. destruct (W d d' Hd Hd' Hd0) as (_ & _ & _ & _ & _ & _ & _ & G & _).
    apply G. split; [exact U|]. right. exists d'. split; [left; reflexivity|]. auto.
  - intros d d' Hd Hd' U U' E. destruct (named d') as [|n ns] eqn:En; [reflexivity|]. exfalso. assert (Hd0 : d <> d') by congruence.
    destruct (W d d' Hd Hd' Hd0) as (_ & _ & _ & _ & _ & _ & G & _). apply G. split; [exact U|]. right. exists d'.
    split; [left; reflexivity|]. split; [exact U'|]. congruence.
Qed.

Definition same_or_reindexed (t t' : table_t) : Prop := t = t' \/ reindexed t t'.
Section Re.
  Variables ts ts' : list table_t.
  Hypothesis R : Forall2 same_or_reindexed ts ts'.
  Lemma re_parts t t' : same_or_reindexed t t' -> tb_ident t' = tb_ident t /\ tb_cols t' = tb_cols t /\ tb_settings t' = tb_settings t.
  Proof. intros [->|(ib & ib' & _ & _ & _ & H)]; auto. Qed.
  Lemma re_map {B} (f : table_t -> B) : (forall t t', tb_ident t' = tb_ident t -> tb_cols t' = tb_cols t -> tb_settings t' = tb_settings t -> f t' = f t) ->
    map f ts' = map f ts.
  Proof.
    intros Hf. induction R as [|t t' l l' H HR IH]; [reflexivity|]. cbn [map]. rewrite (IH HR). apply re_parts in H as (H1 & H2 & H3).
    rewrite (Hf _ _ H1 H2 H3). reflexivity.
  Qed.
  Lemma re_flat {B} (f : table_t -> list B) : (forall t t', tb_ident t' = tb_ident t -> tb_cols t' = tb_cols t -> tb_settings t' = tb_settings t -> f t' = f t) ->
    flat_map f ts' = flat_map f ts.
  Proof. intros Hf. rewrite !flat_map_concat_map, (re_map f Hf). reflexivity. Qed.
  Lemma re_forall (Q : table_t -> Prop) : (forall t t', tb_ident t' = tb_ident t -> tb_cols t' = tb_cols t -> tb_settings t' = tb_settings t -> Q t -> Q t') ->
    Forall Q ts -> Forall Q ts'.
  Proof.
    intros Hf. induction R as [|t t' l l' H HR IH]; intros HF; [constructor|]. inversion HF as [|? ? G1 G2]; subst.
    apply re_parts in H as (H1 & H2 & H3). constructor; [eapply Hf; eassumption|auto].
  Qed.
  Lemma re_names : map table_name ts' = map table_name ts.
  Proof. apply re_map. intros t t' H _ _. unfold table_name. rewrite H. reflexivity. Qed.
  Lemma re_aliases : aliases ts' = aliases ts.
  Proof. apply re_flat. intros t t' H _ _. unfold alias_of. rewrite H. reflexivity. Qed.
  Lemma re_in t : In t ts -> exists t', In t' ts' /\ same_or_reindexed t t'.
  Proof. intros H. exact (f2_in_l _ _ _ _ R H). Qed.
  Lemma re_points r so n : points_to ts r so n -> points_to ts' r so n.
  Proof.
    intros [t Hi Ha|Hn].
    - destruct (re_in _ Hi) as (t' & Hi' & H). apply re_parts in H as (H & _).
      assert (E : table_name t = table_name t') by (unfold table_name; rewrite H; reflexivity). rewrite E. apply pt_alias; [exact Hi'|].
      unfold alias_of in *. rewrite H. exact Ha.
    - apply pt_name. rewrite re_aliases. exact Hn.
  Qed.
  Lemma re_target r t : target ts r t -> exists t', target ts' r t' /\ same_or_reindexed t t'.
  Proof.
    intros [Hi Hp]. destruct (re_in _ Hi) as (t' & Hi' & H). exists t'. split; [|exact H]. split; [exact Hi'|].
    apply re_parts in H as (-> & _). apply re_points. exact Hp.
  Qed.
  Lemma re_keys t t' cols : same_or_reindexed t t' -> key_cols t cols -> key_cols t' cols.
  Proof.
    intros [->|(ib & ib' & E & E' & P & _)]; [auto|]. intros (ib0 & d & E0 & Hd & H). rewrite E in E0. injection E0 as <-.
    exists ib', d. split; [exact E'|]. split; [eapply Permutation_in; eassumption|exact H].
  Qed.
  Lemma re_ref_wf r : ref_wf ts r -> ref_wf ts' r.
  Proof.
    intros (H0 & lt & rt & lcs & rcs & H1 & H2 & H3 & H4 & H5 & H6 & H7). split; [exact H0|].
    destruct (re_target _ _ H1) as (lt' & L1 & L2). destruct (re_target _ _ H2) as (rt' & R1 & R2).
    assert (Hn : forall t t' l cs, same_or_reindexed t t' -> Forall2 (names_col t) l cs -> Forall2 (names_col t') l cs).
    { intros t t' l cs Ht HF. apply re_parts in Ht as (_ & Ht & _). induction HF as [|a b l l' [A B] _ IH]; constructor; [|exact IH].
      split; [rewrite Ht; exact A|exact B]. }
    exists lt', rt', lcs, rcs. split; [exact L1|]. split; [exact R1|]. split; [eapply Hn; eassumption|]. split; [eapply Hn; eassumption|].
    split; [exact H5|]. split; [exact H6|]. intros Hl. specialize (H7 Hl). destruct (ir_rel r); cbn [composite_keys] in *; try exact Logic.I.
    - destruct H7 as [H7|H7]; [left|right]; eapply re_keys; eassumption.
    - eapply re_keys; eassumption.
    - eapply re_keys; eassumption.
    - destruct H7. split; eapply re_keys; eassumption.
  Qed.
End Re.

Lemma re_sym ts ts' : Forall2 same_or_reindexed ts ts' -> Forall2 same_or_reindexed ts' ts.
Proof.
  induction 1 as [|t t' l l' H _ IH]; constructor; [|exact IH]. destruct H as [->|(ib & ib' & E & E' & P & H1 & H2 & H3)]; [left; reflexivity|].
  right. exists ib', ib. split; [exact E'|]. split; [exact E|]. split; [apply Permutation_sym; exact P|]. auto.
Qed.
Lemma re_blocks_eq {B} (f : block -> list B) l l' : (forall t, f (BTable t) = []) -> reindexed_blocks l l' -> flat_map f l = flat_map f l'.
Proof. intros Hf. induction 1; cbn [flat_map]; rewrite ?Hf; congruence. Qed.
Lemma re_blocks_tables l l' : reindexed_blocks l l' ->
  Forall2 same_or_reindexed (filter_map (fun b => match b with BTable r => Some r | _ => None end) l)
    (filter_map (fun b => match b with BTable r => Some r | _ => None end) l').
Proof.
  induction 1 as [|b l l' _ IH|t t' l l' H _ IH].
  - constructor.
  - destruct b; cbn [filter_map flat_map app]; try exact IH. constructor; [left; reflexivity|exact IH].
  - cbn [filter_map flat_map app]. constructor; [right; exact H|exact IH].
Qed.
Lemma reindexed_wf x y : reindexed_blocks (sb_blocks x) (sb_blocks y) ->
  (forall t ib, In t (tables x) -> tb_indexes t = Some ib -> order_free (ib_defs ib)) -> wf x -> wf y.
Proof.
  intros Hs Ho (W1 & W2 & W3 & W4 & W6 & W7 & W8 & W9).
  assert (Ee : enums y = enums x) by (symmetry; eapply re_blocks_eq; [|exact Hs]; reflexivity).
  assert (Ep : projects y = projects x) by (symmetry; eapply re_blocks_eq; [|exact Hs]; reflexivity).
  assert (Eg : table_groups y = table_groups x) by (symmetry; eapply re_blocks_eq; [|exact Hs]; reflexivity).
  assert (Er : refs y = refs x) by (symmetry; eapply re_blocks_eq; [|exact Hs]; reflexivity).
  pose proof (re_blocks_tables _ _ Hs) as R. change (Forall2 same_or_reindexed (tables x) (tables y)) in R.
  pose proof (re_sym _ _ R) as R'.
  assert (Ea : all_refs y = all_refs x).
  { unfold all_refs. rewrite Er. f_equal. apply (re_flat _ _ R). intros t t' E1 E2 _. unfold inline_refs. rewrite E1, E2. reflexivity. }
  unfold wf, project_wf. rewrite Ee, Ep, Eg, Ea.
  split; [exact W1|]. split; [|split; [exact W3|split; [|split; [|split; [|split]]]]].
  - destruct W2 as (A & B & C). split; [rewrite (re_names _ _ R); exact A|]. split; [rewrite (re_aliases _ _ R); exact B|].
    apply (re_forall _ _ R); [|exact C]. intros t t' E1 E2 E3 H. rewrite E2, E3. exact H.
  - destruct W4 as (A & B). split; [exact A|]. apply Forall_forall. intros g Hg. apply (forall_in _ _ _ B) in Hg as (ids & HF & Hn).
    exists ids. split; [|exact Hn]. eapply f2_impl; [|exact HF]. intros it id [sc E|t E Hi Ha|t E Hna Hi En].
    + apply den_qualified. exact E.
    + destruct (re_in _ _ R _ Hi) as (t' & Hi' & H). apply re_parts in H as (H & _).
      assert (Eq : table_name t = table_name t') by (unfold table_name; rewrite H; reflexivity). rewrite Eq. apply den_alias; [exact E|exact Hi'|].
      unfold alias_of in *. rewrite H. exact Ha.
    + destruct (re_in _ _ R _ Hi) as (t' & Hi' & H). apply re_parts in H as (H & _).
      assert (Eq : table_name t = table_name t') by (unfold table_name; rewrite H; reflexivity). rewrite Eq. apply den_table; [exact E| |exact Hi'|rewrite <- Eq; exact En].
      rewrite (re_aliases _ _ R). exact Hna.
  - apply Forall_forall. intros t' Ht'. destruct (f2_in_r _ _ _ _ R Ht') as (t & Ht & H). pose proof (forall_in _ _ _ W6 Ht) as (K1 & K2 & K3).
    destruct H as [<-|(ib & ib' & E & E' & P & E1 & E2 & E3)]; [split; [exact K1|split; [exact K2|exact K3]]|].
    unfold table_keys_wf. rewrite E2, E'. split; [exact K1|]. split; [exact K2|]. cbn [opt_all]. rewrite E in K3. cbn [opt_all] in K3.
    eapply reorder_defs; [|exact P|exact K3]. eapply Ho; eassumption.
  - apply (re_forall _ _ R); [|exact W7]. intros t t' _ E2 _ H. rewrite E2. exact H.
  - apply Forall_forall. intros r Hr. apply (re_ref_wf _ _ R). exact (forall_in _ _ _ W8 Hr).
  - intros l1 r l2 E. destruct (W9 l1 r l2 E) as [A B]. split; [exact A|]. intros o Hin Hc. apply (B o Hin).
    assert (Hse : forall a b, same_endpoint (tables y) a b -> same_endpoint (tables x) a b).
    { intros a b [(so & n & H1 & H2) H3]. split; [|exact H3]. exists so, n. split; apply (re_points _ _ R'); assumption. }
    destruct Hc as [(H1 & H2 & H3 & H4)|(a & b & H1 & H2 & H3)]; [left|right].
    + split; [exact H1|]. split; [exact H2|]. split; [destruct H3; auto|destruct H4; auto].
    + exists a, b. auto.
Qed.
(** The whole schema. *)
Lemma reindexed_refl l : reindexed_blocks l l.
Proof. induction l; constructor; assumption. Qed.
Lemma reindexed_needed x : (forall y, reindexed_blocks (sb_blocks x) (sb_blocks y) -> wf y) ->
  forall t ib, In t (tables x) -> tb_indexes t = Some ib -> order_free (ib_defs ib).
Proof.
  intros H t ib Ht Ei. apply (order_free_needed (tb_cols t)). intros l' P.
  assert (Hb : In (BTable t) (sb_blocks x)).
  { unfold tables, filter_map in Ht. apply in_flat_map in Ht as (b & Hb & Ht). destruct b; cbn in Ht; try contradiction. destruct Ht as [->|[]]. exact Hb. }
  apply in_split in Hb as (b1 & b2 & E).
  pose (t' := mkTable (tb_span t) (tb_cols t) (tb_ident t) (tb_note t) (Some (mkIndexesBlock (ib_span ib) l')) (tb_settings t)).
  pose (y := mkSchema (sb_span x) (sb_input x) (b1 ++ BTable t' :: b2)).
  assert (R : reindexed_blocks (sb_blocks x) (sb_blocks y)).
  { unfold y. cbn [sb_blocks]. rewrite E. clear E. induction b1 as [|b b1 IH]; cbn [app]; [|constructor; exact IH].
    apply rx_table; [|apply reindexed_refl]. eexists; eexists. split; [eassumption|]. cbn. split; [reflexivity|]. auto. }
  apply H in R as (_ & _ & _ & _ & W & _). assert (Hy : In t' (tables y)).
  { unfold tables, filter_map, y. cbn [sb_blocks]. apply in_flat_map. exists (BTable t'). split; [apply in_or_app; right; left; reflexivity|left; reflexivity]. }
  apply (forall_in _ _ _ W) in Hy as (_ & _ & K). exact K.
Qed.
