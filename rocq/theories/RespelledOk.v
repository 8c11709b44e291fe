(** * RespelledOk: respelled texts are equally accepted. *)

From Verif Require Import Rules RulesOk SynMain SynVerdict ValidityOk Like CheckFacts RulesOk3 ParseFacts CheckFacts2 VariantsOk.
From Verif Require Import Err Analyzer Api Answer.
From Verif Require Import Validity Variants.
From Verif Require Import Syntax Respelled.

(** ** The tables of a respelled schema have the same names *)
Definition head (t : a_table) : option str * str * option str := (t_schema t, t_name t, t_alias t).
Lemma head_in ts ts' t : map head ts = map head ts' -> In t ts -> exists t', In t' ts' /\ head t = head t'.
Proof. intros E Ht. apply (in_map head) in Ht. rewrite E in Ht. apply in_map_iff in Ht as (t' & E' & Ht'). eauto. Qed.
Lemma head_aliases ts ts' : map head ts = map head ts' -> taliases ts = taliases ts'.
Proof.
  revert ts'. induction ts as [|t ts IH]; intros [|t' ts'] E; try discriminate; [reflexivity|]. cbn [map] in E. injection E as _ _ E1 E2.
  unfold taliases in *. rewrite !pick_cons, (IH _ E2), E1. reflexivity.
Qed.
Lemma head_tname t t' : head t = head t' -> tname t = tname t'.
Proof. unfold head, tname. intros E. injection E as -> -> _. reflexivity. Qed.
Lemma head_alias ts ts' e e' : map head ts = map head ts' -> alias_and_name ts e e' -> alias_and_name ts' e e'.
Proof.
  intros E (Hc & t & sc & Ht & H1 & H2 & H3 & H4 & H5). split; [exact Hc|]. destruct (head_in _ _ _ E Ht) as (t' & Ht' & Eh). unfold head in Eh. injection Eh as Es En Ea.
  exists t', sc. rewrite <- Es, <- En, <- Ea, <- (head_aliases _ _ E). auto 10.
Qed.
Lemma head_end ts ts' e e' : map head ts = map head ts' -> end_respelled ts e e' -> end_respelled ts' e e'.
Proof. intros E [H|[H|H]]; [left; exact H|right; left|right; right]; eapply head_alias; eauto. Qed.
Lemma end_sym ts e e' : end_respelled ts e e' -> end_respelled ts e' e.
Proof. intros [H|[H|H]]; [left; auto|right; right; exact H|right; left; exact H]. Qed.
Lemma head_item ts ts' i p : map head ts = map head ts' -> item_is ts i p -> item_is ts' i p.
Proof.
  intros E [sc n|t n Ht Ha|t n Hn Ht En].
  - constructor.
  - destruct (head_in _ _ _ E Ht) as (t' & Ht' & Eh). rewrite (head_tname _ _ Eh). apply ii_alias; [exact Ht'|]. unfold head in Eh. injection Eh as _ _ <-. exact Ha.
  - destruct (head_in _ _ _ E Ht) as (t' & Ht' & Eh). rewrite (head_tname _ _ Eh) in *. apply ii_table; [|exact Ht'|exact En]. rewrite <- (head_aliases _ _ E). exact Hn.
Qed.

(** ** Endpoints *)
Lemma alias_leads ts e e' so n : NoDup (taliases ts) -> alias_and_name ts e e' -> (leads_to ts e so n <-> leads_to ts e' so n).
Proof.
  intros Hn (_ & t & sc & Ht & H1 & H2 & H3 & H4 & H5).
  assert (U : forall t0, In t0 ts -> t_alias t0 = Some (e_table e) -> t0 = t).
  { intros t0 H0 E0. clear -Hn H0 E0 Ht H2. unfold taliases, pick in Hn. induction ts as [|u l IH]; [destruct H0|]. cbn [flat_map] in Hn.
    assert (HN : forall w, In w l -> t_alias w = Some (e_table e) -> t_alias u = Some (e_table e) -> False).
    { intros w Hw Ew Eu. rewrite Eu in Hn. cbn [app] in Hn. inversion Hn as [|? ? X _]; subst. apply X. apply in_flat_map. exists w. rewrite Ew. split; [exact Hw|left; reflexivity]. }
    destruct H0 as [<-|H0], Ht as [<-|Ht]; [reflexivity|exfalso; eauto|exfalso; eauto|]. apply IH; [|assumption|assumption].
    destruct (t_alias u); [cbn [app] in Hn; inversion Hn; assumption|exact Hn]. }
  assert (T : tname t = (sc, t_name t)) by (unfold tname; rewrite H1; reflexivity).
  split; intros [t0 H0 E0|N].
  - rewrite (U _ H0 E0), T. cbn [fst snd]. rewrite <- H3, <- H4. apply lt_name. rewrite H4. exact H5.
  - exfalso. apply N. apply in_taliases. eauto.
  - exfalso. apply H5. rewrite <- H4. apply in_taliases. eauto.
  - rewrite H3, H4. assert (L : leads_to ts e (Some (fst (tname t))) (snd (tname t))) by (apply lt_alias; assumption). rewrite T in L. exact L.
Qed.
Lemma end_leads ts e e' so n : NoDup (taliases ts) -> end_respelled ts e e' -> (leads_to ts e so n <-> leads_to ts e' so n).
Proof. intros Hn [->|[H|H]]; [tauto|apply alias_leads; assumption|symmetry; apply alias_leads; assumption]. Qed.
Lemma end_cols ts e e' : end_respelled ts e e' -> e_cols e = e_cols e'.
Proof. intros [->|[[H _]|[H _]]]; auto. Qed.
Definition link_respelled (ts : list a_table) (k k' : link) : Prop :=
  k_rel k = k_rel k' /\ end_respelled ts (k_lhs k) (k_lhs k') /\ end_respelled ts (k_rhs k) (k_rhs k').
Lemma respelled_link ts k k' : NoDup (taliases ts) -> link_respelled ts k k' -> valid_link ts k -> valid_link ts k'.
Proof.
  intros Hn (E & L & R) (lt & rt & lcs & rcs & [H1 G1] & [H2 G2] & H3 & H4 & H5 & H6 & H7). exists lt, rt, lcs, rcs.
  rewrite <- E, <- (end_cols _ _ _ L), <- (end_cols _ _ _ R).
  split; [split; [exact H1|apply (end_leads _ _ _ _ _ Hn L); exact G1]|]. split; [split; [exact H2|apply (end_leads _ _ _ _ _ Hn R); exact G2]|]. auto 10.
Qed.
Lemma respelled_cols ts a b a' b' : NoDup (taliases ts) -> end_respelled ts a a' -> end_respelled ts b b' -> same_columns ts a' b' -> same_columns ts a b.
Proof.
  intros Hn A B [(so & n & H1 & H2) H3]. split; [exists so, n; split; [apply (end_leads _ _ _ _ _ Hn A); exact H1|apply (end_leads _ _ _ _ _ Hn B); exact H2]|].
  rewrite (end_cols _ _ _ A), (end_cols _ _ _ B). exact H3.
Qed.
Lemma respelled_clash ts k k' o o' : NoDup (taliases ts) -> link_respelled ts k k' -> link_respelled ts o o' -> clash ts k' o' -> clash ts k o.
Proof.
  intros Hn (E & L & R) (E' & L' & R') [(H1 & H2 & H3 & H4)|(a & b & Ha & Hb & H)].
  - left. rewrite E, E'. split; [exact H1|]. split; [exact H2|]. split; [destruct H3 as [H3|H3]|destruct H4 as [H4|H4]]; eauto using respelled_cols.
  - right. unfold many_side in *. rewrite <- E in Ha. rewrite <- E' in Hb. 
    destruct (k_rel k); try discriminate; injection Ha as <-; destruct (k_rel o); try discriminate; injection Hb as <-; (eexists; eexists; split; [reflexivity|]; split; [reflexivity|]); eapply respelled_cols; eassumption.
Qed.

(** ** The parts of a respelled schema *)
Definition table_respelled (ts : list a_table) (t t' : a_table) : Prop :=
  exists cols, t' = with_cols t cols /\ Forall2 (col_respelled ts) (t_cols t) cols.
Lemma col_same_refl ts c : col_respelled ts c c.
Proof. split; [reflexivity|]. split; [reflexivity|]. destruct (c_settings c); [|exact Logic.I]. split; [reflexivity|]. apply f2_refl. intros r. split; [reflexivity|left; reflexivity]. Qed.
Lemma with_cols_same t : with_cols t (t_cols t) = t.
Proof. destruct t; reflexivity. Qed.
Lemma table_same_refl ts t : table_respelled ts t t.
Proof. exists (t_cols t). split; [symmetry; apply with_cols_same|]. apply f2_refl. intros c. apply col_same_refl. Qed.
Definition ref_respelled (ts : list a_table) (r r' : a_ref) : Prop :=
  f_rel r = f_rel r' /\ f_settings r = f_settings r' /\ end_respelled ts (f_lhs r) (f_lhs r') /\ end_respelled ts (f_rhs r) (f_rhs r').
Lemma ref_same_refl ts r : ref_respelled ts r r.
Proof. repeat split; left; reflexivity. Qed.
Definition group_respelled (ts : list a_table) (g g' : a_group) : Prop :=
  g_name g = g_name g' /\ Forall2 (item_respelled ts) (g_items g) (g_items g').
Lemma group_same_refl ts g : group_respelled ts g g.
Proof. split; [reflexivity|]. apply f2_refl. intros i. left. reflexivity. Qed.
Lemma respelled_parts ts a b : Forall2 (block_respelled ts) a b ->
  projects_of b = projects_of a /\ enums_of b = enums_of a /\ Forall2 (table_respelled ts) (tables_of a) (tables_of b) /\
  Forall2 (ref_respelled ts) (refs_of a) (refs_of b) /\ Forall2 (group_respelled ts) (groups_of a) (groups_of b).
Proof.
  unfold projects_of, tables_of, enums_of, groups_of, refs_of.
  induction 1 as [|x y a b H _ (H1 & H2 & H3 & H4 & H5)]; [repeat split; constructor|]. rewrite !pick_cons, H1, H2.
  destruct H as [x|n x l r l' r' st Hl Hr|t cols Hc|n st ns l l' Hi].
  - split; [reflexivity|]. split; [reflexivity|]. split; [|split]; (apply f2_app; [|assumption]); apply f2_refl.
    + apply table_same_refl.
    + apply ref_same_refl.
    + apply group_same_refl.
  - cbn [app]. repeat split; auto. constructor; [|exact H4]. repeat split; assumption.
  - cbn [app]. repeat split; auto. constructor; [|exact H3]. exists cols. auto.
  - cbn [app]. repeat split; auto. constructor; [|exact H5]. split; [reflexivity|]. exact Hi.
Qed.
Lemma respelled_heads ts l l' : Forall2 (table_respelled ts) l l' -> map head l = map head l'.
Proof. induction 1 as [|t t' l l' (cols & -> & _) _ IH]; [reflexivity|]. cbn [map]. rewrite IH. reflexivity. Qed.
Lemma respelled_attrs ts c c' : col_respelled ts c c' -> col_attrs c = col_attrs c'.
Proof. intros (_ & _ & H). unfold col_attrs. destruct (c_settings c), (c_settings c'); try contradiction; [apply H|reflexivity]. Qed.
Lemma respelled_like ts t t' : table_respelled ts t t' -> table_i t t'.
Proof.
  intros (cols & -> & F). unfold table_like. cbn [with_cols t_schema t_name t_alias t_settings t_cols]. rewrite !opt_i. repeat split; auto; [|apply f2_refl, idx_refl].
  apply same_ex. eapply f2_impl; [|exact F]. intros c c' H. pose proof (respelled_attrs _ _ _ H) as E. destruct H as (E1 & E2 & _). unfold col_like, is_pk, is_unique. rewrite E, E1, E2. unfold i_. repeat split; auto.
Qed.
Lemma flat_map_f2 {A B C D} (R : A -> B -> Prop) (Q : C -> D -> Prop) f g l l' : Forall2 R l l' -> (forall a b, R a b -> Forall2 Q (f a) (g b)) -> Forall2 Q (flat_map f l) (flat_map g l').
Proof. intros H K. induction H as [|a b l l' H _ IH]; [constructor|]. cbn [flat_map]. apply f2_app; [apply K; exact H|exact IH]. Qed.
Lemma respelled_links ts a b : Forall2 (block_respelled ts) a b -> Forall2 (link_respelled ts) (links a) (links b).
Proof.
  intros H. destruct (respelled_parts _ _ _ H) as (_ & _ & Ht & Hr & _). unfold links. apply f2_app.
  - unfold block_links. apply (proj2 (forall2_map_l _ _ _ _)), (proj2 (forall2_map_r _ _ _ _)). eapply f2_impl; [|exact Hr]. intros r r' (E & _ & L & R). repeat split; assumption.
  - eapply flat_map_f2; [exact Ht|]. intros t t' (cols & -> & F). unfold table_links. cbn [with_cols t_cols t_schema t_name]. eapply flat_map_f2; [exact F|].
    intros c c' (E1 & _ & Es). apply (proj2 (forall2_map_l _ _ _ _)), (proj2 (forall2_map_r _ _ _ _)). unfold col_links.
    destruct (c_settings c), (c_settings c'); try contradiction; [|constructor]. destruct Es as [_ Es]. eapply f2_impl; [|exact Es]. intros r r' [Ef Er].
    unfold link_respelled. cbn [k_rel k_lhs k_rhs]. rewrite E1, Ef. split; [reflexivity|]. split; [left; reflexivity|exact Er].
Qed.

(** ** Validity *)
Lemma respelled_item ts i i' p : NoDup (taliases ts) -> NoDup (map tname ts) -> item_respelled ts i i' -> item_is ts i p -> item_is ts i' p.
Proof.
  intros Hn Ht [<-|(q & H1 & H2)] H; [exact H|]. replace p with q; [exact H2|]. clear H2.
  assert (U : forall t t0 w, In t ts -> In t0 ts -> t_alias t = Some w -> t_alias t0 = Some w -> t = t0).
  { clear -Hn. intros t t0 w Ht H0 E E0. unfold taliases, pick in Hn. induction ts as [|u l IH]; [destruct H0|]. cbn [flat_map] in Hn.
    assert (HN : forall x, In x l -> t_alias x = Some w -> t_alias u = Some w -> False).
    { intros x Hw Ew Eu. rewrite Eu in Hn. cbn [app] in Hn. inversion Hn as [|? ? X _]; subst. apply X. apply in_flat_map. exists x. rewrite Ew. split; [exact Hw|left; reflexivity]. }
    destruct H0 as [<-|H0], Ht as [<-|Ht]; [reflexivity|exfalso; eauto|exfalso; eauto|]. apply IH; [|assumption|assumption].
    destruct (t_alias u); [cbn [app] in Hn; inversion Hn; assumption|exact Hn]. }
  inversion H1; subst; inversion H; subst; try reflexivity; try congruence.
  - f_equal. eapply U; eassumption.
  - exfalso. match goal with X : ~ In _ _ |- _ => apply X end. apply in_taliases. eauto.
  - exfalso. match goal with X : ~ In _ _ |- _ => apply X end. apply in_taliases. eauto.
Qed.
Theorem respelled_valid a b : respelled_text a b -> valid a -> valid b.
Proof.
  intros H [V1 V2 V3 V4 V5 V6 V7 V8 V9 V10 V11 V12 V13]. unfold respelled_text in H. destruct (respelled_parts _ _ _ H) as (Ep & Ee & Ft & Fr & Fg).
  pose proof (respelled_links _ _ _ H) as Fl. set (ts := tables_of a) in *. set (ts' := tables_of b) in *.
  pose proof (respelled_heads _ _ _ Ft) as Eh. pose proof (head_aliases _ _ Eh) as Ea.
  assert (En : map tname ts = map tname ts').
  { eapply f2_map_eq; [exact Ft|]. intros t t' (cols & -> & _). reflexivity. }
  assert (Fi : Forall2 table_i ts ts') by (eapply f2_impl; [|exact Ft]; intros t t'; apply respelled_like).
  assert (T1 : forall t, In t ts -> exists t', In t' ts' /\ table_i t t') by (intros t Ht; apply (f2_in_l _ _ _ _ Fi Ht)).
  assert (T2 : forall t', In t' ts' -> exists t, In t ts /\ table_i t t') by (intros t Ht; apply (f2_in_r _ _ _ _ Fi Ht)).
  constructor; fold ts'.
  - rewrite Ep. exact V1.
  - rewrite <- En. exact V2.
  - rewrite <- Ea. exact V3.
  - eapply f2_forall; [exact Ft| |exact V4]. intros t t' (cols & -> & F) (H1 & H2 & H3). cbn [with_cols t_settings t_cols]. split; [exact H1|]. split.
    + rewrite <- (f2_map_eq c_name c_name _ _ _ F); [exact H2|]. intros c c' (E & _). exact E.
    + eapply f2_forall; [exact F| |exact H3]. intros c c' Hc. cbv beta. rewrite (respelled_attrs _ _ _ Hc). auto.
  - rewrite Ee. exact V5.
  - rewrite Ee. exact V6.
  - rewrite <- (f2_map_eq g_name g_name _ _ _ Fg); [exact V7|]. intros g g' (E & _). exact E.
  - eapply f2_forall; [exact Fg| |exact V8]. intros g g' [_ F] (ids & H2 & H3). exists ids. split; [|exact H3].
    clear H3. revert ids H2. induction F as [|i i' l l' Hi _ IH]; intros ids H2; inversion H2; subst; constructor; [|apply IH; assumption].
    apply (head_item ts ts' _ _ Eh). eapply respelled_item; eassumption.
  - eapply f2_forall; [exact Fi| |apply Forall_and; [exact V4|exact V9]]. intros t t' L [(_ & Hn & _) Hk]. eapply (like_keys i_ i_ i_ i_inj); eassumption.
  - rewrite Ee. eapply f2_forall; [exact Fi| |exact V10]. intros t t' L. eapply (like_types i_ i_ i_); [|exact L]. intros e He. exists e. split; [exact He|apply enum_refl].
  - eapply f2_forall; [exact Fr| |exact V11]. intros r r' (_ & E & _). cbv beta. rewrite E. auto.
  - eapply f2_forall; [exact Fl| |exact V12]. intros k k' Hk Hv. apply (like_link i_ i_ i_ i_inj i_inj i_inj eq_refl ts ts' k' k' T1 T2); [left; symmetry; apply link_i|].
    eapply respelled_link; eassumption.
  - intros l1 k' l2 E. rewrite E in Fl. apply f2_split_r in Fl as (m1 & k & m2 & E1 & F1 & Fk & F2). destruct (V13 _ _ _ E1) as [U1 U2]. split; [destruct Fk as [<- _]; exact U1|].
    intros o' Ho' Hc. assert (Ho : exists o, In o (m1 ++ m2) /\ link_respelled ts o o').
    { apply in_app_or in Ho' as [Ho'|Ho']; [destruct (f2_in_r _ _ _ _ F1 Ho') as (o & A & B)|destruct (f2_in_r _ _ _ _ F2 Ho') as (o & A & B)]; exists o; (split; [apply in_or_app; auto|exact B]). }
    destruct Ho as (o & Ho & Lo). apply (U2 o Ho). apply (respelled_clash ts k k' o o' V3 Fk Lo).
    apply (like_clash i_ i_ i_ i_inj i_inj i_inj eq_refl ts ts' T1 T2 k' o' k' o'); [left; symmetry; apply link_i|left; symmetry; apply link_i|exact Hc].
Qed.
Lemma f2_flip {A B} (R : A -> B -> Prop) (Q : B -> A -> Prop) l l' : (forall a b, R a b -> Q b a) -> Forall2 R l l' -> Forall2 Q l' l.
Proof. intros K. induction 1; constructor; auto. Qed.
Lemma respelled_sym a b : respelled_text a b -> respelled_text b a.
Proof.
  unfold respelled_text. intros H. destruct (respelled_parts _ _ _ H) as (_ & _ & Ft & _). pose proof (respelled_heads _ _ _ Ft) as Eh.
  eapply f2_flip; [|exact H]. intros x y [z|n x0 l r l' r' st Hl Hr|t cols Hc|n st ns l l' Hi].
  - constructor.
  - constructor; eapply head_end; try exact Eh; apply end_sym; assumption.
  - replace (ATable t) with (ATable (with_cols (with_cols t cols) (t_cols t))) by (destruct t; reflexivity). constructor. cbn [with_cols t_cols].
    eapply f2_flip; [|exact Hc]. intros c c' (E1 & E2 & E3). split; [auto|]. split; [auto|]. destruct (c_settings c), (c_settings c'); try contradiction; [|exact Logic.I].
    destruct E3 as [E3 E4]. split; [auto|]. eapply f2_flip; [|exact E4]. intros r r' [E5 E6]. split; [auto|]. eapply head_end; [exact Eh|]. apply end_sym. exact E6.
  - constructor. eapply f2_flip; [|exact Hi]. intros i i' [<-|(p & A & B)]; [left; reflexivity|]. right. exists p. split; eapply head_item; eauto.
Qed.
Lemma respelled_fits a b : respelled_text a b -> fits a -> fits b.
Proof.
  intros H F. eapply f2_forall; [exact H| |exact F]. intros x y [z|n x0 l r l' r' st Hl Hr|t cols Hc|n st ns l l' Hi]; cbn [fits_block]; auto.
  cbn [with_cols t_settings t_cols t_indexes]. intros (F1 & F2 & F3). split; [exact F1|]. split; [|exact F3]. eapply f2_forall; [exact Hc| |exact F2].
  intros c c' (_ & E2 & E3) [G1 G2]. split; [rewrite <- E2; exact G1|]. intros st Est. rewrite Est in E3. destruct (c_settings c) as [x1|]; [|contradiction]. destruct E3 as [<- _]. apply G2. reflexivity.
Qed.
Theorem respelled_accepted t1 t2 a b : dbml_text t1 a -> dbml_text t2 b -> respelled_text a b -> (is_accepted t1 <-> is_accepted t2).
Proof.
  intros H1 H2 T. split; [apply (by_valid _ _ _ _ H1 H2)|apply (by_valid _ _ _ _ H2 H1)].
  - apply respelled_fits. exact T.
  - apply respelled_valid. exact T.
  - apply respelled_fits, respelled_sym. exact T.
  - apply respelled_valid, respelled_sym. exact T.
Qed.
