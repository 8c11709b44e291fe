(** * CheckFacts: consequences of well-formedness (order, removal, endpoints). *)

From Coq Require Import Permutation.
From Verif Require Import Rules RulesOk RulesOk2 RulesOk3 Nodes SpansOk NodesOk.
From Verif Require Import Err Analyzer.

(** ** Permutations *)
Lemma perm_nodup_map {A B} (f : A -> B) l l' : Permutation l l' -> NoDup (map f l) -> NoDup (map f l').
Proof. intros H. apply Permutation_NoDup. apply Permutation_map. exact H. Qed.
Lemma perm_flat_map {A B} (f : A -> list B) l l' : Permutation l l' -> Permutation (flat_map f l) (flat_map f l').
Proof.
  induction 1 as [|a l l' _ IH|a b l|l l' l'' _ IH1 _ IH2]; cbn [flat_map].
  - constructor.
  - apply Permutation_app_head. exact IH.
  - rewrite !app_assoc. apply Permutation_app_tail. apply Permutation_app_comm.
  - eapply perm_trans; eassumption.
Qed.
Lemma perm_forall {A} (P : A -> Prop) l l' : Permutation l l' -> Forall P l -> Forall P l'.
Proof. intros H HF. eapply Permutation_Forall; eassumption. Qed.
Lemma forall_iff {A} (P Q : A -> Prop) l : (forall a, P a -> Q a) -> Forall P l -> Forall Q l.
Proof. intros H. apply Forall_impl. exact H. Qed.

Section Same.
  (** Two table lists with the same elements. *)
  Variables ts ts' : list table_t.
  Hypothesis E : forall t, In t ts <-> In t ts'.
  Lemma same_aliases a : In a (aliases ts) <-> In a (aliases ts').
  Proof. rewrite !in_aliases. split; intros (t & H1 & H2); exists t; (split; [apply E; exact H1|exact H2]). Qed.
  Lemma same_points r so n : points_to ts r so n -> points_to ts' r so n.
  Proof.
    intros [t H1 H2|H1].
    - apply pt_alias; [apply E; exact H1|exact H2].
    - apply pt_name. rewrite <- same_aliases. exact H1.
  Qed.
  Lemma same_target r t : target ts r t -> target ts' r t.
  Proof. intros [H1 H2]. split; [apply E; exact H1|apply same_points; exact H2]. Qed.
  Lemma same_denotes it p : item_denotes ts it p -> item_denotes ts' it p.
  Proof.
    intros [sc H|t H1 H2 H3|t H1 H2 H3 H4].
    - apply den_qualified. exact H.
    - apply den_alias; [exact H1|apply E; exact H2|exact H3].
    - apply den_table; [exact H1|rewrite <- same_aliases; exact H2|apply E; exact H3|exact H4].
  Qed.
  Lemma same_group g : group_wf ts g -> group_wf ts' g.
  Proof. intros (ids & H1 & H2). exists ids. split; [|exact H2]. eapply f2_impl; [|exact H1]. intros a b. apply same_denotes. Qed.
  Lemma same_ref r : ref_wf ts r -> ref_wf ts' r.
  Proof.
    intros (H0 & lt & rt & lcs & rcs & H1 & H2 & H). split; [exact H0|]. exists lt, rt, lcs, rcs.
    split; [apply same_target; exact H1|]. split; [apply same_target; exact H2|]. exact H.
  Qed.
  Lemma same_endpoints a b : same_endpoint ts a b -> same_endpoint ts' a b.
  Proof. intros [(so & n & H1 & H2) H3]. split; [|exact H3]. exists so, n. split; apply same_points; assumption. Qed.
  Lemma same_clash r o : clashes ts r o -> clashes ts' r o.
  Proof.
    intros [(H1 & H2 & H3 & H4)|(a & b & H1 & H2 & H3)].
    - left. split; [exact H1|]. split; [exact H2|].
      split; [destruct H3 as [H3|H3]|destruct H4 as [H4|H4]]; auto using same_endpoints.
    - right. exists a, b. split; [exact H1|]. split; [exact H2|]. apply same_endpoints. exact H3.
  Qed.
End Same.

Lemma perm_no_clash ts ts' l l' : (forall t, In t ts <-> In t ts') -> Permutation l l' -> no_clash ts l -> no_clash ts' l'.
Proof.
  intros E Hp H l1 r l2 ->.
  assert (Hr : In r l) by (eapply Permutation_in; [symmetry; exact Hp|apply in_mid]).
  apply in_split in Hr as (m1 & m2 & ->). destruct (H m1 r m2 eq_refl) as [H1 H2]. split; [exact H1|].
  apply Permutation_app_inv in Hp. intros o Ho Hc. apply (H2 o).
  - eapply Permutation_in; [symmetry; exact Hp|exact Ho].
  - eapply same_clash; [|exact Hc]. intros t. symmetry. apply E.
Qed.

Lemma perm_wf x y : Permutation (sb_blocks x) (sb_blocks y) -> wf x -> wf y.
Proof.
  intros Hp. pose proof (perm_flat_map (fun b => match b with BProject p => [p] | _ => [] end) _ _ Hp) as Pp.
  assert (Pt : Permutation (tables x) (tables y)) by (apply perm_flat_map; exact Hp).
  assert (Pe : Permutation (enums x) (enums y)) by (apply perm_flat_map; exact Hp).
  assert (Pg : Permutation (table_groups x) (table_groups y)) by (apply perm_flat_map; exact Hp).
  assert (Pr : Permutation (refs x) (refs y)) by (apply perm_flat_map; exact Hp).
  assert (Pj : Permutation (projects x) (projects y)) by (apply perm_flat_map; exact Hp).
  assert (Et : forall t, In t (tables x) <-> In t (tables y)).
  { intros t. split; apply Permutation_in; [exact Pt|symmetry; exact Pt]. }
  assert (Ee : forall e, In e (enums x) <-> In e (enums y)).
  { intros t. split; apply Permutation_in; [exact Pe|symmetry; exact Pe]. }
  assert (Pa : Permutation (all_refs x) (all_refs y)).
  { unfold all_refs. apply Permutation_app; [apply Permutation_map; exact Pr|apply perm_flat_map; exact Pt]. }
  intros (W1 & (W2 & W3 & W4) & (W5 & W6) & (W7 & W8) & W9 & W10 & W11 & W12).
  split.
  { destruct W1 as (p & E & Hd). rewrite E in Pj. apply Permutation_length_1_inv in Pj. exists p. auto. }
  split; [split; [|split]|].
  { eapply perm_nodup_map; eassumption. }
  { eapply Permutation_NoDup; [|exact W3]. apply perm_flat_map. exact Pt. }
  { eapply perm_forall; eassumption. }
  split; [split|].
  { eapply perm_nodup_map; eassumption. }
  { eapply perm_forall; eassumption. }
  split; [split|].
  { eapply perm_nodup_map; eassumption. }
  { eapply perm_forall; [exact Pg|]. eapply forall_iff; [|exact W8]. intros g. apply same_group. exact Et. }
  split; [eapply perm_forall; eassumption|].
  split.
  { eapply perm_forall; [exact Pt|]. eapply forall_iff; [|exact W10]. intros t HF. eapply forall_iff; [|exact HF].
    intros c (raw & tn & H1 & H2 & H3 & H4). exists raw, tn. split; [exact H1|]. split; [exact H2|]. split; [exact H3|].
    intros st v Hd. destruct (H4 st v Hd) as (G1 & G2 & G3). split; [exact G1|]. split; [exact G2|].
    intros Hb so n He. destruct (G3 Hb so n He) as (e & Hin & H). exists e. split; [apply Ee; exact Hin|exact H]. }
  split.
  { eapply perm_forall; [exact Pa|]. eapply forall_iff; [|exact W11]. intros r. apply same_ref. exact Et. }
  eapply perm_no_clash; eassumption.
Qed.

(** ** Removing notes, references and table groups *)
Inductive sublist {A} : list A -> list A -> Prop :=
| sub_nil : sublist [] []
| sub_keep a l l' : sublist l l' -> sublist (a :: l) (a :: l')
| sub_drop a l l' : sublist l l' -> sublist l (a :: l').
Lemma sub_in {A} (l l' : list A) a : sublist l l' -> In a l -> In a l'.
Proof. induction 1 as [|b l l' _ IH|b l l' _ IH]; cbn [In]; tauto. Qed.
Lemma sub_refl {A} (l : list A) : sublist l l.
Proof. induction l; constructor; assumption. Qed.
Lemma sub_app {A} (a a' b b' : list A) : sublist a a' -> sublist b b' -> sublist (a ++ b) (a' ++ b').
Proof. intros H1 H2. induction H1; cbn [app]; [exact H2| |]; constructor; assumption. Qed.
Lemma sub_nil_l {A} (l : list A) : sublist [] l.
Proof. induction l; constructor; assumption. Qed.
Lemma sub_map {A B} (f : A -> B) l l' : sublist l l' -> sublist (map f l) (map f l').
Proof. induction 1; cbn [map]; constructor; assumption. Qed.
Lemma sub_flat_map {A B} (f : A -> list B) l l' : sublist l l' -> sublist (flat_map f l) (flat_map f l').
Proof.
  induction 1 as [|a l l' _ IH|a l l' _ IH]; cbn [flat_map].
  - constructor.
  - apply sub_app; [apply sub_refl|exact IH].
  - apply (sub_app [] (f a)); [apply sub_nil_l|exact IH].
Qed.
Lemma sub_forall {A} (P : A -> Prop) l l' : sublist l l' -> Forall P l' -> Forall P l.
Proof. intros H HF. rewrite Forall_forall in *. intros a Ha. apply HF. eapply sub_in; eassumption. Qed.
Lemma sub_nodup {A} (l l' : list A) : sublist l l' -> NoDup l' -> NoDup l.
Proof.
  induction 1 as [|a l l' H IH|a l l' H IH]; intros Hn; [constructor| |]; inversion Hn as [|? ? Hna Hn']; subst; [|auto].
  constructor; [|auto]. intros Hin. apply Hna. eapply sub_in; eassumption.
Qed.
Lemma sub_split {A} (l' : list A) : forall l1 r l2, sublist (l1 ++ r :: l2) l' ->
  exists m1 m2, l' = m1 ++ r :: m2 /\ sublist l1 m1 /\ sublist l2 m2.
Proof.
  induction l' as [|a l' IH]; intros l1 r l2 H.
  - inversion H as [E| |]. destruct l1; discriminate.
  - inversion H as [|? l ? Hs E1 E2|? ? ? Hs E1 E2]; subst.
    + destruct l1 as [|b l1]; cbn [app] in E1; injection E1 as -> ->.
      * exists [], l'. split; [reflexivity|]. split; [constructor|exact Hs].
      * destruct (IH _ _ _ Hs) as (m1 & m2 & -> & H1 & H2). exists (b :: m1), m2. split; [reflexivity|]. split; [constructor; exact H1|exact H2].
    + destruct (IH _ _ _ Hs) as (m1 & m2 & -> & H1 & H2). exists (a :: m1), m2. split; [reflexivity|]. split; [constructor; exact H1|exact H2].
Qed.
Lemma sub_no_clash ts l l' : sublist l l' -> no_clash ts l' -> no_clash ts l.
Proof.
  intros Hs H l1 r l2 ->. destruct (sub_split _ _ _ _ Hs) as (m1 & m2 & -> & H1 & H2). destruct (H m1 r m2 eq_refl) as [G1 G2].
  split; [exact G1|]. intros o Ho. apply G2. eapply sub_in; [|exact Ho]. apply sub_app; assumption.
Qed.

Lemma trim_eq {B} (f : block -> list B) l l' : (forall b, removable b -> f b = []) -> trimmed l l' -> flat_map f l = flat_map f l'.
Proof.
  intros Hf. induction 1 as [|b l l' _ IH|b l l' Hb _ IH]; cbn [flat_map]; [reflexivity|congruence|].
  rewrite (Hf b Hb). exact IH.
Qed.
Lemma trim_sub l l' : trimmed l l' -> sublist l l'.
Proof. induction 1; constructor; assumption. Qed.
Lemma trim_wf x y : trimmed (sb_blocks y) (sb_blocks x) -> wf x -> wf y.
Proof.
  intros Ht.
  assert (Et : tables y = tables x) by (eapply trim_eq; [|exact Ht]; intros b Hb; destruct b; reflexivity || destruct Hb).
  assert (Ee : enums y = enums x) by (eapply trim_eq; [|exact Ht]; intros b Hb; destruct b; reflexivity || destruct Hb).
  assert (Ep : projects y = projects x) by (eapply trim_eq; [|exact Ht]; intros b Hb; destruct b; reflexivity || destruct Hb).
  pose proof (trim_sub _ _ Ht) as Hs.
  assert (Sg : sublist (table_groups y) (table_groups x)) by (apply sub_flat_map; exact Hs).
  assert (Sr : sublist (refs y) (refs x)) by (apply sub_flat_map; exact Hs).
  assert (Sa : sublist (all_refs y) (all_refs x)).
  { unfold all_refs. rewrite Et. apply sub_app; [apply sub_map; exact Sr|apply sub_refl]. }
  intros (W1 & W2 & W3 & (W4 & W5) & W6 & W7 & W8 & W9). unfold wf, project_wf. rewrite Et, Ee, Ep.
  split; [exact W1|]. split; [exact W2|]. split; [exact W3|]. split.
  { split; [|eapply sub_forall; eassumption]. eapply sub_nodup; [apply sub_map; exact Sg|exact W4]. }
  split; [exact W6|]. split; [exact W7|]. split; [eapply sub_forall; eassumption|]. eapply sub_no_clash; eassumption.
Qed.

(** ** Only what an endpoint denotes matters *)
Definition same_iref (ts : list table_t) (r r' : indexed_ref) : Prop :=
  ir_rel r = ir_rel r' /\ ir_settings r = ir_settings r' /\ same_place ts (ir_lhs r) (ir_lhs r') /\ same_place ts (ir_rhs r) (ir_rhs r').

Section Place.
  Variable ts : list table_t.
  Hypothesis Na : NoDup (aliases ts).
  Lemma place_points a b so n : same_place ts a b -> points_to ts a so n -> points_to ts b so n.
  Proof. intros [(so' & n' & H1 & H2) _] H. destruct (points_to_fun _ _ _ _ _ _ Na H H1) as [-> ->]. exact H2. Qed.
  Lemma place_target a b t : same_place ts a b -> target ts a t -> target ts b t.
  Proof. intros H [H1 H2]. split; [exact H1|]. eapply place_points; eassumption. Qed.
  Lemma place_cols (t : table_t) (L L' : list ident_t) cs : map id_str L = map id_str L' -> Forall2 (names_col t) L cs -> Forall2 (names_col t) L' cs.
  Proof.
    intros E H. revert L' E. induction H as [|a c L cs [H1 H2] _ IH]; intros [|a' L'] E; cbn [map] in E; try discriminate; [constructor|].
    injection E as E1 E2. constructor; [|apply IH; exact E2]. split; [exact H1|congruence].
  Qed.
  Lemma place_sym a b : same_place ts a b -> same_place ts b a.
  Proof. intros [(so & n & H1 & H2) H3]. split; [eauto|auto]. Qed.
  Lemma place_refl a : same_place ts a a.
  Proof. destruct (points_to_ex ts a) as (so & n & H). split; [eauto|reflexivity]. Qed.
  Lemma iref_wf r r' : same_iref ts r r' -> ref_wf ts r -> ref_wf ts r'.
  Proof.
    intros (E1 & E2 & P1 & P2) (H0 & lt & rt & lcs & rcs & H1 & H2 & H3 & H4 & H5 & H6 & H7).
    split; [rewrite <- E2; exact H0|]. exists lt, rt, lcs, rcs. rewrite <- E1, <- (proj2 P1), <- (proj2 P2).
    split; [eapply place_target; eassumption|]. split; [eapply place_target; eassumption|].
    split; [eapply place_cols; [exact (proj2 P1)|exact H3]|]. split; [eapply place_cols; [exact (proj2 P2)|exact H4]|]. auto.
  Qed.
  Lemma place_endpoint a b a' b' : same_place ts a a' -> same_place ts b b' -> same_endpoint ts a b -> same_endpoint ts a' b'.
  Proof.
    intros P1 P2 [(so & n & H1 & H2) H3]. split.
    - exists so, n. split; eapply place_points; eassumption.
    - rewrite <- (proj2 P1), <- (proj2 P2). exact H3.
  Qed.
  Lemma iref_clash r o r' o' : same_iref ts r r' -> same_iref ts o o' -> clashes ts r o -> clashes ts r' o'.
  Proof.
    intros (E1 & _ & P1 & P2) (F1 & _ & Q1 & Q2) [(H1 & H2 & H3 & H4)|(a & b & H1 & H2 & H3)].
    - left. rewrite <- E1, <- F1. split; [exact H1|]. split; [exact H2|].
      split; [destruct H3 as [H3|H3]; [left|right]|destruct H4 as [H4|H4]; [left|right]]; eapply place_endpoint; eassumption.
    - right. unfold fk_side in *. rewrite <- E1, <- F1.
      destruct (ir_rel r); try discriminate; destruct (ir_rel o); try discriminate;
        (eexists; eexists; split; [reflexivity|]; split; [reflexivity|]; injection H1 as <-; injection H2 as <-; eapply place_endpoint; eassumption).
  Qed.
  Lemma iref_sym r r' : same_iref ts r r' -> same_iref ts r' r.
  Proof. intros (H1 & H2 & H3 & H4). repeat split; try (symmetry; assumption); try (apply place_sym; assumption); apply place_sym; assumption. Qed.
  Lemma iref_refl r : same_iref ts r r.
  Proof. split; [reflexivity|]. split; [reflexivity|]. split; apply place_refl. Qed.
  Lemma iref_no_clash l l' : Forall2 (same_iref ts) l l' -> no_clash ts l -> no_clash ts l'.
  Proof.
    intros HF H l1 r l2 ->. apply Forall2_app_inv_r in HF as (m1 & m2' & F1 & F2 & ->).
    inversion F2 as [|r0 ? m2 ? Hr F2']; subst. destruct (H m1 r0 m2 eq_refl) as [G1 G2].
    split; [destruct Hr as (<- & _); exact G1|]. intros o Ho Hc.
    assert (Ho' : exists o0, In o0 (m1 ++ m2) /\ same_iref ts o0 o).
    { apply in_app_or in Ho as [Ho|Ho]; [destruct (f2_in_r _ _ _ _ F1 Ho) as (o0 & Hi & Hs)|destruct (f2_in_r _ _ _ _ F2' Ho) as (o0 & Hi & Hs)];
        exists o0; (split; [apply in_or_app; auto|exact Hs]). }
    destruct Ho' as (o0 & Hi & Hs). apply (G2 o0 Hi). eapply iref_clash; [apply iref_sym; exact Hr|apply iref_sym; exact Hs|exact Hc].
  Qed.
  Lemma iref_forall l l' : Forall2 (same_iref ts) l l' -> Forall (ref_wf ts) l -> Forall (ref_wf ts) l'.
  Proof. induction 1 as [|a b l l' H _ IH]; intros HF; constructor; inversion HF; subst; [eapply iref_wf; eassumption|auto]. Qed.
End Place.

Lemma same_blocks_eq {B} ts (f : block -> list B) l l' : (forall r, f (BRef r) = []) -> same_blocks ts l l' -> flat_map f l = flat_map f l'.
Proof. intros Hf. induction 1; cbn [flat_map]; rewrite ?Hf; congruence. Qed.
Lemma same_blocks_refs ts l l' : same_blocks ts l l' ->
  Forall2 (same_iref ts) (map indexed_ref_from_block (filter_map (fun b => match b with BRef r => Some r | _ => None end) l))
    (map indexed_ref_from_block (filter_map (fun b => match b with BRef r => Some r | _ => None end) l')).
Proof.
  induction 1 as [|b l l' _ IH|r r' l l' H _ IH].
  - constructor.
  - destruct b; cbn [filter_map flat_map app map]; try exact IH. constructor; [apply iref_refl|exact IH].
  - cbn [filter_map flat_map app map]. constructor; [|exact IH]. destruct H as (H1 & H2 & H3 & H4).
    unfold same_iref. cbn [indexed_ref_from_block ir_rel ir_settings ir_lhs ir_rhs]. auto.
Qed.
Lemma f2_refl {A} (R : A -> A -> Prop) l : (forall a, R a a) -> Forall2 R l l.
Proof. intros H. induction l; constructor; auto. Qed.
Lemma same_blocks_wf x y : same_blocks (tables x) (sb_blocks x) (sb_blocks y) -> wf x -> wf y.
Proof.
  intros Hs (W1 & W2 & W3 & W4 & W6 & W7 & W8 & W9).
  assert (Et : tables y = tables x) by (symmetry; eapply same_blocks_eq; [|exact Hs]; reflexivity).
  assert (Ee : enums y = enums x) by (symmetry; eapply same_blocks_eq; [|exact Hs]; reflexivity).
  assert (Ep : projects y = projects x) by (symmetry; eapply same_blocks_eq; [|exact Hs]; reflexivity).
  assert (Eg : table_groups y = table_groups x) by (symmetry; eapply same_blocks_eq; [|exact Hs]; reflexivity).
  assert (Fr : Forall2 (same_iref (tables x)) (all_refs x) (all_refs y)).
  { unfold all_refs. rewrite Et. apply Forall2_app; [apply same_blocks_refs; exact Hs|]. apply f2_refl. intros r. apply iref_refl. }
  destruct W2 as (W2 & Na & W2').
  unfold wf, project_wf. rewrite Et, Ee, Ep, Eg.
  split; [exact W1|]. split; [split; [exact W2|split; [exact Na|exact W2']]|]. split; [exact W3|]. split; [exact W4|]. split; [exact W6|]. split; [exact W7|].
  split; [eapply iref_forall; eassumption|eapply iref_no_clash; eassumption].
Qed.
Lemma same_blocks_sym ts l l' : same_blocks ts l l' -> same_blocks ts l' l.
Proof.
  induction 1 as [|b l l' _ IH|r r' l l' (H1 & H2 & H3 & H4) _ IH]; constructor; auto.
  split; [auto|]. split; [auto|]. split; apply place_sym; assumption.
Qed.

(** ** References through an alias of a table without written schema *)
Lemma alias_rejected x t r : In t (tables x) -> ti_schema (tb_ident t) = None ->
  endpoint_of x r -> alias_of t = Some (id_str (ri_table r)) -> ~ wf x.
Proof.
  intros Ht En He Ha W. destruct (w_target _ W _ He) as (t' & Ht' & _).
  pose proof (pt_alias _ r _ Ht Ha) as Hp. pose proof (target_name _ _ _ _ _ (w_als _ W) Ht' Hp) as Hn.
  assert (t' = t).
  { eapply (NoDup_map_inj table_name); [exact (w_tab _ W)|apply Ht'|exact Ht|]. rewrite Hn. unfold or_public.
    destruct (table_name t); reflexivity. }
  subst t'. destruct Ht' as [_ Hp']. rewrite En in Hp'. destruct (points_to_fun _ _ _ _ _ _ (w_als _ W) Hp Hp') as [H _]. discriminate.
Qed.
(** [public.t] written for a table declared [t], or the other way round. *)
Lemma public_rejected x t r : In t (tables x) -> endpoint_of x r -> ~ In (id_str (ri_table r)) (aliases (tables x)) ->
  in_schema (ri_schema r) = fst (table_name t) -> id_str (ri_table r) = snd (table_name t) ->
  option_map id_str (ri_schema r) <> option_map id_str (ti_schema (tb_ident t)) -> ~ wf x.
Proof.
  intros Ht He Hna E1 E2 Hne W. destruct (w_target _ W _ He) as (t' & Ht' & _).
  pose proof (pt_name _ r Hna) as Hp. pose proof (target_name _ _ _ _ _ (w_als _ W) Ht' Hp) as Hn.
  rewrite <- in_schema_or in Hn.
  assert (t' = t).
  { eapply (NoDup_map_inj table_name); [exact (w_tab _ W)|apply Ht'|exact Ht|]. rewrite Hn, E1, E2. destruct (table_name t); reflexivity. }
  subst t'. destruct Ht' as [_ Hp']. destruct (points_to_fun _ _ _ _ _ _ (w_als _ W) Hp Hp') as [H _]. congruence.
Qed.

(** ** get_table_refs *)
Lemma selected_filter {A} (P : A -> Prop) (f : A -> bool) l : (forall a, f a = true <-> P a) -> selected P l (filter f l).
Proof.
  intros H. induction l as [|a l IH]; cbn [filter]; [constructor|]. destruct (f a) eqn:E.
  - constructor; [apply H; exact E|exact IH].
  - constructor; [|exact IH]. intros Ha. apply H in Ha. congruence.
Qed.
Lemma get_table_refs_filter tid an : let eq r := same_table (ti_schema tid) (ti_name tid) (ri_schema r) (ri_table r) in
  let L r := eq (resolve_ref_alias (an_indexer an) (ir_lhs r)) in
  let R r := eq (resolve_ref_alias (an_indexer an) (ir_rhs r)) in
  get_table_refs tid an = mkTableRef (filter (fun r => L r && negb (R r)) (indexed_refs an))
    (filter (fun r => negb (L r) && R r) (indexed_refs an)) (filter (fun r => L r && R r) (indexed_refs an)).
Proof.
  intros eq L R. unfold get_table_refs. fold eq.
  cut (forall l acc, fold_left (fun acc r =>
    let lhs := resolve_ref_alias (an_indexer an) (ir_lhs r) in
    let rhs := resolve_ref_alias (an_indexer an) (ir_rhs r) in
    if eq lhs && eq rhs then mkTableRef (tr_ref_to acc) (tr_ref_by acc) (tr_ref_self acc ++ [r])
    else if eq lhs then mkTableRef (tr_ref_to acc ++ [r]) (tr_ref_by acc) (tr_ref_self acc)
    else if eq rhs then mkTableRef (tr_ref_to acc) (tr_ref_by acc ++ [r]) (tr_ref_self acc)
    else acc) l acc = mkTableRef (tr_ref_to acc ++ filter (fun r => L r && negb (R r)) l)
    (tr_ref_by acc ++ filter (fun r => negb (L r) && R r) l) (tr_ref_self acc ++ filter (fun r => L r && R r) l)).
  { intros H. rewrite H. reflexivity. }
  induction l as [|r l IH]; intros acc; cbn [fold_left filter].
  - rewrite !app_nil_r. destruct acc; reflexivity.
  - rewrite IH. cbv zeta. fold (L r) (R r). destruct (L r), (R r); cbn [andb negb tr_ref_to tr_ref_by tr_ref_self]; rewrite <- ?app_assoc; reflexivity.
Qed.
Lemma get_table_refs_ok x an tid : analyze x = Ok an ->
  let tr := get_table_refs tid an in
  selected (fun r => denotes_table x tid (ir_lhs r) /\ denotes_table x tid (ir_rhs r)) (all_refs x) (tr_ref_self tr) /\
  selected (fun r => denotes_table x tid (ir_lhs r) /\ ~ denotes_table x tid (ir_rhs r)) (all_refs x) (tr_ref_to tr) /\
  selected (fun r => ~ denotes_table x tid (ir_lhs r) /\ denotes_table x tid (ir_rhs r)) (all_refs x) (tr_ref_by tr).
Proof.
  intros E. pose proof (analyze_ok x) as H. rewrite E in H. destruct H as (W & Er & D).
  cbv zeta. rewrite get_table_refs_filter. cbv zeta. cbn [tr_ref_to tr_ref_by tr_ref_self]. rewrite Er.
  assert (Heq : forall r, same_table (ti_schema tid) (ti_name tid) (ri_schema (resolve_ref_alias (an_indexer an) r)) (ri_table (resolve_ref_alias (an_indexer an) r)) = true
     <-> denotes_table x tid r).
  { intros r. rewrite same_table_true. pose proof (res_points x _ D r) as Hp. unfold denotes_table. split.
    - intros [H1 H2]. rewrite H1, H2. exact Hp.
    - intros H. destruct (points_to_fun _ _ _ _ _ _ (w_als _ W) H Hp). auto. }
  split; [|split]; apply selected_filter; intros r; rewrite andb_true_iff, ?negb_true_iff, ?Heq; try tauto;
    rewrite <- not_true_iff_false, Heq; reflexivity.
Qed.
