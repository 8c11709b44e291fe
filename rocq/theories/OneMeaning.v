(** * OneMeaning: a text says one thing. *)

From Verif Require Import SynMain FaultsUniq.
From Verif Require Import Syntax.

Definition func {A B} (R : A -> B -> Prop) : Prop := forall p a b, R p a -> R p b -> a = b.
Lemma func_all {A B} (R : A -> B -> Prop) : func R -> func (Forall2 R).
Proof.
  intros HR l a b H. revert b. induction H as [|p x l xs Hx H IH]; intros b K; inversion K as [|p' y l' ys Hy K']; subst; [reflexivity|].
  rewrite (HR _ _ _ Hx Hy), (IH _ K'). reflexivity.
Qed.
Lemma func_opt {A} (R : pair -> A -> Prop) ps a b : func R -> opt_den R a ps -> opt_den R b ps -> a = b.
Proof.
  intros HR. destruct a as [a|], b as [b|]; cbn [opt_den].
  - intros (p & -> & H) (p' & [= <-] & K). rewrite (HR _ _ _ H K). reflexivity.
  - intros (p & -> & H) [=].
  - intros -> (p & [=] & _).
  - reflexivity.
Qed.
(** Pairs of one rule before pairs of others. *)
Lemma split_fun rl (a b a' b' : list pair) : Forall (fun p => p_rule p = rl) a -> Forall (fun p => p_rule p <> rl) b ->
  Forall (fun p => p_rule p = rl) a' -> Forall (fun p => p_rule p <> rl) b' -> a ++ b = a' ++ b' -> a = a' /\ b = b'.
Proof.
  intros Ha Hb Ha' Hb'. revert a' Ha'. induction Ha as [|p a Hp Ha IH]; intros a' Ha' E.
  - destruct Ha' as [|p' a' Hp' Ha']; [auto|]. exfalso. cbn in E. subst b. apply Forall_inv in Hb. congruence.
  - destruct Ha' as [|p' a' Hp' Ha']; cbn in E.
    + exfalso. subst b'. apply Forall_inv in Hb'. congruence.
    + injection E as -> E. destruct (IH _ Ha' E) as [-> ->]. auto.
Qed.
Lemma opt_rule {A} rl (R : pair -> A -> Prop) o ps : (forall p a, R p a -> p_rule p = rl) -> opt_den R o ps -> Forall (fun p => p_rule p = rl) ps.
Proof. intros H. destruct o; cbn [opt_den]; [intros (p & -> & K); constructor; eauto|intros ->; constructor]. Qed.
Lemma all_rule {A} rl (R : pair -> A -> Prop) ps l : (forall p a, R p a -> p_rule p = rl) -> Forall2 R ps l -> Forall (fun p => p_rule p = rl) ps.
Proof. intros H. induction 1; constructor; eauto. Qed.
Lemma other_rule rl rl' ps : rl <> rl' -> Forall (fun p => p_rule p = rl) ps -> Forall (fun p => p_rule p <> rl') ps.
Proof. intros Hn H. eapply Forall_impl; [|exact H]. intros p ->. exact Hn. Qed.

(** ** Names and settings *)
Lemma ident_f : func d_ident.
Proof.
  intros p a b (_ & q & E & H) (_ & q' & E' & K). rewrite E in E'. injection E' as <-.
  destruct H as [H|H], K as [K|K]; try (exfalso; destruct H as [H _], K as [K _]; congruence); [eapply d_leaf_fun|eapply d_quoted_fun]; eassumption.
Qed.
Lemma attr_val_f : func d_attr_val.
Proof.
  intros p a b [H|[(w & H & ->)|(w & H & ->)]] [K|[(w' & K & ->)|(w' & K & ->)]]; try (exfalso; destruct H as [H _], K as [K _]; congruence).
  - eapply d_value_eq; eassumption.
  - rewrite (d_leaf_fun _ _ _ _ H K). reflexivity.
  - rewrite (d_quoted_fun _ _ _ _ _ H K). reflexivity.
Qed.
Lemma attr_f : func d_attr.
Proof.
  intros p [k o] [k' o'] (_ & q & H & _ & Ho) (_ & q' & K & _ & Ko). cbn [fst snd] in *.
  destruct o as [v|], o' as [v'|].
  - destruct Ho as (y & E & Hy), Ko as (y' & E' & Ky). rewrite E in E'. injection E' as <- <-. rewrite (d_leaf_fun _ _ _ _ H K), (attr_val_f _ _ _ Hy Ky). reflexivity.
  - destruct Ho as (y & E & Hy). rewrite E in Ko. discriminate.
  - destruct Ko as (y & E & Hy). rewrite E in Ho. discriminate.
  - rewrite Ho in Ko. injection Ko as <-. rewrite (d_leaf_fun _ _ _ _ H K). reflexivity.
Qed.
Lemma prop_f : func d_prop.
Proof.
  intros p [k v] [k' v'] (_ & q & y & H & _ & E & Hv) (_ & q' & y' & K & _ & E' & Kv). cbn [fst snd] in *. rewrite E in E'. injection E' as <- <-.
  rewrite (d_leaf_fun _ _ _ _ H K). f_equal. eapply attr_val_f; unfold d_attr_val; [destruct Hv; eauto|destruct Kv; eauto].
Qed.
Lemma settings_f1 rl : func (d_settings rl).
Proof. intros p a b [_ H] [_ K]. eapply (func_all _ attr_f); eassumption. Qed.
Lemma decl_f : func d_decl.
Proof.
  intros p [o n] [o' n'] [_ H] [_ K]. cbn [fst snd] in *. destruct o as [sc|], o' as [sc'|].
  - destruct H as (x & y & E & H1 & H2), K as (x' & y' & E' & K1 & K2). rewrite E in E'. injection E' as <- <-. rewrite (ident_f _ _ _ H1 K1), (ident_f _ _ _ H2 K2). reflexivity.
  - destruct H as (x & y & E & _), K as (x' & E' & _). rewrite E in E'. discriminate.
  - destruct K as (x & y & E & _), H as (x' & E' & _). rewrite E in E'. discriminate.
  - destruct H as (x & E & H), K as (x' & E' & K). rewrite E in E'. injection E' as <-. rewrite (ident_f _ _ _ H K). reflexivity.
Qed.

(** ** References and notes *)
Lemma rel_f : func d_rel.
Proof. intros p a b (t & H & Ha) (t' & K & Kb). rewrite (d_leaf_fun _ _ _ _ H K) in Ha. destruct a, b; cbn in *; congruence. Qed.
Lemma comp_f : func d_comp.
Proof. intros p a b [_ H] [_ K]. eapply (func_all _ ident_f); eassumption. Qed.
Lemma end_f : func d_end.
Proof.
  intros p [o t l] [o' t' l'] [_ H] [_ K]. cbn in *. destruct o as [sc|], o' as [sc'|].
  - destruct H as (x & y & z & E & H1 & H2 & H3), K as (x' & y' & z' & E' & K1 & K2 & K3). rewrite E in E'. injection E' as <- <- <-.
    rewrite (ident_f _ _ _ H1 K1), (ident_f _ _ _ H2 K2), (comp_f _ _ _ H3 K3). reflexivity.
  - destruct H as (x & y & z & E & _), K as (x' & y' & E' & _). rewrite E in E'. discriminate.
  - destruct K as (x & y & z & E & _), H as (x' & y' & E' & _). rewrite E in E'. discriminate.
  - destruct H as (x & y & E & H1 & H2), K as (x' & y' & E' & K1 & K2). rewrite E in E'. injection E' as <- <-.
    rewrite (ident_f _ _ _ H1 K1), (comp_f _ _ _ H2 K2). reflexivity.
Qed.
Lemma inline_f : func d_inline.
Proof.
  intros p [x e] [x' e'] (_ & a & b & E & H1 & H2) (_ & a' & b' & E' & K1 & K2). cbn in *. rewrite E in E'. injection E' as <- <-.
  rewrite (rel_f _ _ _ H1 K1), (end_f _ _ _ H2 K2). reflexivity.
Qed.
Lemma ref_f : func d_ref.
Proof.
  intros p [n x a b o] [n' x' a' b' o'] (_ & q & nm & z & E & _ & Eq & Hn & _ & u & v & w & st & Ez & Ha & Hx & Hb & Ho)
    (_ & q' & nm' & z' & E' & _ & Eq' & Kn & _ & u' & v' & w' & st' & Ez' & Ka & Kx & Kb & Ko). cbn in *.
  rewrite E in E'. injection E' as <-. rewrite Eq in Eq'. apply app_inj_tail in Eq' as [<- <-]. rewrite Ez in Ez'. injection Ez' as <- <- <- <-.
  rewrite (func_opt _ _ _ _ ident_f Hn Kn), (end_f _ _ _ Ha Ka), (end_f _ _ _ Hb Kb), (rel_f _ _ _ Hx Kx), (func_opt _ _ _ _ (settings_f1 _) Ho Ko). reflexivity.
Qed.
Lemma note_f : func d_note.
Proof.
  intros p a b (_ & q & x & w & E & _ & Eq & H & ->) (_ & q' & x' & w' & E' & _ & Eq' & K & ->). rewrite E in E'. injection E' as <-.
  rewrite Eq in Eq'. injection Eq' as <-. rewrite (d_string_fun _ _ _ H K). reflexivity.
Qed.

(** ** Types and columns *)
Lemma dim_f : func d_dim.
Proof.
  intros p a b [_ H] [_ K]. destruct a as [n|], b as [n'|].
  - destruct H as (x & d & E & H & ->), K as (x' & d' & E' & K & ->). rewrite E in E'. injection E' as <-. rewrite (d_leaf_fun _ _ _ _ H K). reflexivity.
  - destruct H as (x & d & E & _). rewrite E in K. discriminate.
  - destruct K as (x & d & E & _). rewrite E in H. discriminate.
  - reflexivity.
Qed.
Lemma args_rule l ps : d_args_opt l ps -> Forall (fun p => p_rule p = R_col_type_arg) ps.
Proof. intros [[-> _]|(p & -> & H & _)]; repeat constructor. exact H. Qed.
Lemma args_opt_f ps l l' : d_args_opt l ps -> d_args_opt l' ps -> l = l'.
Proof.
  intros [[-> ->]|(p & -> & _ & H)] [[E ->]|(p' & E & _ & K)]; try discriminate; [reflexivity|]. injection E as <-.
  exact (func_all _ d_value_eq _ _ _ H K).
Qed.
Lemma type_fun : func d_type.
Proof.
  intros p [n al dl] [n' al' dl'] (_ & pre & np & q & v & b & args & dims & E & Hp & _ & Eq & Hb & Hn & Ha & Hd)
    (_ & pre' & np' & q' & v' & b' & args' & dims' & E' & Kp & _ & Eq' & Kb & Kn & Ka & Kd). cbn in *.
  rewrite E in E'. apply app_inj_tail in E' as [<- <-]. rewrite Eq in Eq'. injection Eq' as <- Es.
  assert (R1 : forall ps o, Forall2 d_dim ps o -> Forall (fun p => p_rule p <> R_col_type_arg) ps).
  { intros ps o H. eapply other_rule; [|eapply all_rule; [|exact H]; intros z c [Hz _]; exact Hz]. discriminate. }
  destruct (split_fun R_col_type_arg _ _ _ _ (args_rule _ _ Ha) (R1 _ _ Hd) (args_rule _ _ Ka) (R1 _ _ Kd) Es) as [<- <-].
  assert (np = np') as <-.
  { destruct Hp as [[-> ->]|(x & w & -> & Hw & ->)], Kp as [[E0 ->]|(x' & w' & E0 & Kw & ->)]; try discriminate; [reflexivity|]. injection E0 as <-.
    rewrite (ident_f _ _ _ Hw Kw). reflexivity. }
  assert (b = b') as <-. { destruct Hb as [[_ Hb]|[_ Hb]], Kb as [[_ Kb]|[_ Kb]]; congruence. }
  rewrite Hn, Kn, (args_opt_f _ _ _ Ha Ka), (func_all _ dim_f _ _ _ Hd Kd). reflexivity.
Qed.
Lemma col_item_f1 : func d_col_item.
Proof.
  intros p a b (_ & q & E & H) (_ & q' & E' & K). rewrite E in E'. injection E' as <-.
  destruct a, b; try (exfalso; destruct H as [H _], K as [K _]; congruence); f_equal; [eapply attr_f|eapply inline_f]; eassumption.
Qed.
Lemma col_settings_f1 : func d_col_settings.
Proof.
  intros p [a r] [a' r'] (_ & l & H & H1 & H2) (_ & l' & K & K1 & K2). cbn in *. rewrite (func_all _ col_item_f1 _ _ _ H K) in *. congruence.
Qed.
Lemma col_f : func d_col.
Proof.
  intros p [n t o] [n' t' o'] (_ & x & y & st & E & H1 & H2 & H3) (_ & x' & y' & st' & E' & K1 & K2 & K3). cbn in *. rewrite E in E'. injection E' as <- <- <-.
  rewrite (ident_f _ _ _ H1 K1), (type_fun _ _ _ H2 K2), (func_opt _ _ _ _ col_settings_f1 H3 K3). reflexivity.
Qed.

(** ** Tables *)
Lemma index_col_f : func d_index_col.
Proof.
  intros p a b (_ & q & E & H) (_ & q' & E' & K). rewrite E in E'. injection E' as <-. destruct a, b.
  - rewrite (ident_f _ _ _ H K). reflexivity.
  - exfalso. destruct H as [H _], K as (w' & [K _] & _). congruence.
  - exfalso. destruct K as [H0 _], H as (w' & [K _] & _). congruence.
  - destruct H as (w & H & ->), K as (w' & K & ->). rewrite (d_quoted_fun _ _ _ _ _ H K). reflexivity.
Qed.
Lemma index_fun : func d_index.
Proof.
  intros p [l o] [l' o'] (_ & cs & st & E & H1 & H2) (_ & cs' & st' & E' & K1 & K2). cbn in *. rewrite E in E'.
  assert (R1 : forall ps l, Forall2 d_index_col ps l -> Forall (fun p => p_rule p = R_indexes_ident) ps).
  { intros ps z H. eapply all_rule; [|exact H]. intros w c [Hw _]. exact Hw. }
  assert (R2 : forall ps o, opt_den (d_settings R_indexes_settings) o ps -> Forall (fun p => p_rule p <> R_indexes_ident) ps).
  { intros ps z H. eapply other_rule; [|eapply opt_rule; [|exact H]; intros w c [Hw _]; exact Hw]. discriminate. }
  destruct (split_fun R_indexes_ident _ _ _ _ (R1 _ _ H1) (R2 _ _ H2) (R1 _ _ K1) (R2 _ _ K2) E') as [<- <-].
  rewrite (func_all _ index_col_f _ _ _ H1 K1), (func_opt _ _ _ _ (settings_f1 _) H2 K2). reflexivity.
Qed.
Lemma indexes_fun : func d_indexes.
Proof.
  intros p a b (_ & q & E & _ & H) (_ & q' & E' & _ & K). rewrite E in E'. injection E' as <-. exact (func_all _ index_fun _ _ _ H K).
Qed.
Lemma table_item_fun : func d_table_item.
Proof.
  intros p a b H K. destruct a, b; cbn [d_table_item] in *; try (exfalso; destruct H as [H _], K as [K _]; congruence); f_equal;
    [eapply col_f|eapply note_f|eapply indexes_fun]; eassumption.
Qed.
Lemma alias_f : func d_alias.
Proof. intros p a b (_ & q & E & H) (_ & q' & E' & K). rewrite E in E'. injection E' as <-. eapply ident_f; eassumption. Qed.
Lemma table_fun : func d_table.
Proof.
  intros p [sc n a o cs ns ix] [sc' n' a' o' cs' ns' ix'] (_ & d & al & st & b & l & E & H1 & H2 & H3 & _ & H4 & H5 & H6 & H7)
    (_ & d' & al' & st' & b' & l' & E' & K1 & K2 & K3 & _ & K4 & K5 & K6 & K7). cbn in *. rewrite E in E'. injection E' as <- E'.
  rewrite !app_assoc in E'. apply app_inj_tail in E' as [E' <-].
  assert (R1 : forall ps l, opt_den d_alias l ps -> Forall (fun p => p_rule p = R_table_alias) ps).
  { intros ps z H. eapply opt_rule; [|exact H]. intros w c [Hw _]. exact Hw. }
  assert (R2 : forall ps o, opt_den (d_settings R_block_settings) o ps -> Forall (fun p => p_rule p <> R_table_alias) ps).
  { intros ps z H. eapply other_rule; [|eapply opt_rule; [|exact H]; intros w c [Hw _]; exact Hw]. discriminate. }
  destruct (split_fun R_table_alias _ _ _ _ (R1 _ _ H2) (R2 _ _ H3) (R1 _ _ K2) (R2 _ _ K3) E') as [<- <-].
  pose proof (decl_f _ _ _ H1 K1) as [= <- <-]. rewrite (func_opt _ _ _ _ alias_f H2 K2), (func_opt _ _ _ _ (settings_f1 _) H3 K3).
  rewrite (func_all _ table_item_fun _ _ _ H4 K4) in *. congruence.
Qed.

(** ** The rest *)
Lemma enum_value_f1 : func d_enum_value.
Proof.
  intros p [w o] [w' o'] (_ & q & st & E & H1 & H2) (_ & q' & st' & E' & K1 & K2). cbn in *. rewrite E in E'. injection E' as <- <-.
  rewrite (ident_f _ _ _ H1 K1), (func_opt _ _ _ _ (settings_f1 _) H2 K2). reflexivity.
Qed.
Lemma enum_fun : func d_enum.
Proof.
  intros p [sc n l] [sc' n' l'] (_ & d & b & E & H1 & _ & H2) (_ & d' & b' & E' & K1 & _ & K2). cbn in *. rewrite E in E'. injection E' as <- <-.
  pose proof (decl_f _ _ _ H1 K1) as [= <- <-]. rewrite (func_all _ enum_value_f1 _ _ _ H2 K2). reflexivity.
Qed.
Lemma group_item_fun : func d_group_item.
Proof.
  intros p a b H K. destruct a, b; cbn [d_group_item] in *; try (exfalso; destruct H as [H _], K as [K _]; congruence); f_equal;
    [eapply note_f|eapply decl_f]; eassumption.
Qed.
Lemma group_fun : func d_group.
Proof.
  intros p [n o ns is] [n' o' ns' is'] (_ & x & st & b & l & E & H1 & H2 & _ & H3 & H4 & H5) (_ & x' & st' & b' & l' & E' & K1 & K2 & _ & K3 & K4 & K5).
  cbn in *. rewrite E in E'. injection E' as <- E'. apply app_inj_tail in E' as [<- <-].
  rewrite (ident_f _ _ _ H1 K1), (func_opt _ _ _ _ (settings_f1 _) H2 K2). rewrite (func_all _ group_item_fun _ _ _ H3 K3) in *. congruence.
Qed.
Lemma project_item_fun : func d_project_item.
Proof.
  intros p a b H K. destruct a, b; cbn [d_project_item] in *; try (exfalso; destruct H as [H _], K as [K _]; congruence); f_equal;
    [eapply note_f|eapply prop_f]; eassumption.
Qed.
Lemma project_fun : func d_project.
Proof.
  intros p [n ps ns] [n' ps' ns'] (_ & x & b & l & E & H1 & _ & H3 & H4 & H5) (_ & x' & b' & l' & E' & K1 & _ & K3 & K4 & K5).
  cbn in *. rewrite E in E'. injection E' as <- <-. rewrite (ident_f _ _ _ H1 K1). rewrite (func_all _ project_item_fun _ _ _ H3 K3) in *. congruence.
Qed.
Lemma block_fun : func d_block.
Proof.
  intros p a b H K. destruct a, b; cbn [d_block] in *; try (exfalso; destruct H as [H _], K as [K _]; congruence); f_equal;
    [eapply project_fun|eapply table_fun|eapply group_fun|eapply note_f|eapply ref_f|eapply enum_fun]; eassumption.
Qed.
Theorem says_one inp a b : dbml_text inp a -> dbml_text inp b -> a = b.
Proof.
  intros H K. apply schema_reads in H as (t & p & E & _ & ps & e & Ep & H & _). apply schema_reads in K as (t' & p' & E' & _ & ps' & e' & Ep' & K & _).
  rewrite E in E'. injection E' as _ <-. rewrite Ep in Ep'. apply app_inj_tail in Ep' as [<- _]. exact (func_all _ block_fun _ _ _ H K).
Qed.
