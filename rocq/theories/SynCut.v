(** * SynCut: readers are local.  What follows the text read can be cut off. *)

From Verif Require Import SynLex.
From Verif Require Import Syntax.

Definition local {A} (R : reader A) : Prop :=
  (forall i r a, R i r a -> exists t, i = t ++ r) /\
  (forall i r z a, R (i ++ z) (r ++ z) a -> R i r a).
Definition localp (R : str -> str -> Prop) : Prop :=
  (forall i r, R i r -> exists t, i = t ++ r) /\ (forall i r z, R (i ++ z) (r ++ z) -> R i r).

Lemma nls_cut r z : no_layout_start (r ++ z) -> no_layout_start r.
Proof.
  intros (H1 & H2 & H3). split; [|split].
  - intros c x ->. apply (H1 c (x ++ z)). reflexivity.
  - intros x ->. apply (H2 (x ++ z)). rewrite <- app_assoc. reflexivity.
  - intros b x ->. apply (H3 b (x ++ z)). rewrite <- !app_assoc. reflexivity.
Qed.
Lemma lay_suffix i r : lay i r -> exists t, i = t ++ r.
Proof. intros (g & -> & _). eauto. Qed.
Lemma lay_cut m r z : lay (m ++ z) (r ++ z) -> lay m r.
Proof.
  intros (g & E & Hg & Hn). rewrite app_assoc in E. apply app_inv_tail in E as ->. exists g. split; [reflexivity|]. split; [|exact (nls_cut _ _ Hn)].
  destruct Hg as [Hg|[Hr Hg]]; [left; exact Hg|]. apply app_eq_nil in Hr as [-> ->]. right. auto.
Qed.
(** The text before a suffix. *)
Lemma lay_split m r z : lay m (r ++ z) -> exists m0, m = m0 ++ z /\ lay m0 r.
Proof. intros H. pose proof H as (g & -> & _). exists (g ++ r). rewrite app_assoc. split; [reflexivity|]. apply (lay_cut _ _ z). rewrite <- app_assoc. exact H. Qed.
Lemma tok_local w : localp (tok w).
Proof.
  split.
  - intros i r (m & -> & Hl). apply lay_suffix in Hl as (g & ->). exists (w ++ g). apply app_assoc.
  - intros i r z (m & E & Hl). apply lay_split in Hl as (m0 & -> & Hl). rewrite app_assoc in E. apply app_inv_tail in E as ->. exists m0. auto.
Qed.
Lemma kw_local k : localp (kw k).
Proof.
  split.
  - intros i r (w & m & -> & _ & Hl). apply lay_suffix in Hl as (g & ->). exists (w ++ g). apply app_assoc.
  - intros i r z (w & m & E & Hw & Hl). apply lay_split in Hl as (m0 & -> & Hl). rewrite app_assoc in E. apply app_inv_tail in E as ->. exists w, m0. auto.
Qed.
(** One after the other. *)
Lemma p_split (R : str -> str -> Prop) i m z : localp R -> R i (m ++ z) -> exists i0, i = i0 ++ z /\ R i0 m.
Proof. intros [H1 H2] H. pose proof (H1 _ _ H) as (t & ->). exists (t ++ m). rewrite app_assoc. split; [reflexivity|]. apply (H2 _ _ z). rewrite <- app_assoc. exact H. Qed.
Lemma r_split {A} (R : reader A) i m z a : local R -> R i (m ++ z) a -> exists i0, i = i0 ++ z /\ R i0 m a.
Proof. intros [H1 H2] H. pose proof (H1 _ _ _ H) as (t & ->). exists (t ++ m). rewrite app_assoc. split; [reflexivity|]. apply (H2 _ _ z). rewrite <- app_assoc. exact H. Qed.
(** The other way round: it is enough to split. *)
Lemma local_of {A} (R : reader A) : (forall i m z a, R i (m ++ z) a -> exists i0, i = i0 ++ z /\ R i0 m a) -> local R.
Proof.
  intros H. split.
  - intros i r a Hr. destruct (H i [] r a Hr) as (i0 & -> & _). eauto.
  - intros i r z a Hr. destruct (H (i ++ z) r z a Hr) as (i0 & E & H0). apply app_inv_tail in E as ->. exact H0.
Qed.
Lemma no_word_cut m z : no_word (m ++ z) -> no_word m.
Proof. intros H c x ->. apply (H c (x ++ z)). reflexivity. Qed.
Lemma no_phrase_cut m z : no_phrase (m ++ z) -> no_phrase m.
Proof. intros [H1 H2]. split; [eapply no_word_cut; exact H1|]. intros c x ->. apply (H2 c (x ++ z)). reflexivity. Qed.
Lemma no_digit_cut m z : no_digit (m ++ z) -> no_digit m.
Proof. intros H c x ->. apply (H c (x ++ z)). reflexivity. Qed.
Lemma plain_local : local plain.
Proof.
  apply local_of. intros i r z w (m & -> & Hw & Hn & Hl). apply lay_split in Hl as (m0 & -> & Hl). exists (w ++ m0). split; [apply app_assoc|].
  exists m0. split; [reflexivity|]. split; [exact Hw|]. split; [eapply no_word_cut; exact Hn|exact Hl].
Qed.
Lemma phrase_local : local phrase.
Proof.
  apply local_of. intros i r z w (m & -> & Hw & Hn & Hl). apply lay_split in Hl as (m0 & -> & Hl). exists (w ++ m0). split; [apply app_assoc|].
  exists m0. split; [reflexivity|]. split; [exact Hw|]. split; [eapply no_phrase_cut; exact Hn|exact Hl].
Qed.
Lemma quote_local q : local (quote q).
Proof.
  apply local_of. intros i r z v (i' & m & -> & Hi & Hc & Hl). apply lay_split in Hl as (m0 & -> & Hl).
  replace (v ++ q ++ m0 ++ z) with ((v ++ q ++ m0) ++ z) in Hi by (rewrite <- !app_assoc; reflexivity).
  apply lay_split in Hi as (i0 & -> & Hi). exists (q ++ i0). split; [apply app_assoc|]. exists i0, m0. auto.
Qed.
Lemma or_local {A} (R S : reader A) : local R -> local S -> local (fun i r a => R i r a \/ S i r a).
Proof.
  intros HR HS. apply local_of. intros i r z a [H|H]; [apply (r_split _ _ _ _ _ HR) in H|apply (r_split _ _ _ _ _ HS) in H]; destruct H as (i0 & -> & H); eauto.
Qed.
Lemma name_local : local name.
Proof. apply (or_local plain (quote dq)); [apply plain_local|apply quote_local]. Qed.
Lemma text_local : local text.
Proof. apply (or_local (quote tq) (quote sq)); apply quote_local. Qed.
Ltac app0 := repeat rewrite <- app_assoc; cbn [app]; reflexivity.
Lemma literal_local : local literal_r.
Proof.
  apply local_of. intros i r z a H. remember (r ++ z) as r' eqn:Er.
  destruct H as [i r' v H|i r' v H|i r' H|i r' H|i r' H|d m r' Hd Hn Hp Hl|d1 d2 m r' f Hd Hd2 Hn Hl Hf|h m r' Hh Hlen Hl|h m r' Hh Hlen Hno Hl]; subst r'.
  - apply (r_split _ _ _ _ _ text_local) in H as (i0 & -> & H). exists i0. split; [reflexivity|constructor; exact H].
  - apply (r_split _ _ _ _ _ (quote_local bq)) in H as (i0 & -> & H). exists i0. split; [reflexivity|constructor; exact H].
  - apply (p_split _ _ _ _ (tok_local _)) in H as (i0 & -> & H). exists i0. split; [reflexivity|constructor; exact H].
  - apply (p_split _ _ _ _ (tok_local _)) in H as (i0 & -> & H). exists i0. split; [reflexivity|constructor; exact H].
  - apply (p_split _ _ _ _ (tok_local _)) in H as (i0 & -> & H). exists i0. split; [reflexivity|constructor; exact H].
  - apply lay_split in Hl as (m0 & -> & Hl). exists (d ++ m0). split; [apply app_assoc|]. constructor; [exact Hd|eapply no_digit_cut; exact Hn| |exact Hl].
    intros m' ->. apply (Hp (m' ++ z)). app0.
  - apply lay_split in Hl as (m0 & -> & Hl). exists (d1 ++ s "." ++ d2 ++ m0). split; [app0|]. constructor; [exact Hd|exact Hd2|eapply no_digit_cut; exact Hn|exact Hl|exact Hf].
  - apply lay_split in Hl as (m0 & -> & Hl). exists (s "#" ++ h ++ m0). split; [app0|]. constructor; assumption.
  - apply lay_split in Hl as (m0 & -> & Hl). exists (s "#" ++ h ++ m0). split; [app0|]. apply lr_hex3; [exact Hh|exact Hlen| |exact Hl].
    intros h' m' ->. apply (Hno h' (m' ++ z)). app0.
Qed.
Lemma bare_local : local bare.
Proof.
  apply local_of. intros i r z a (w & H & Hn & ->). apply (r_split _ _ _ _ _ phrase_local) in H as (i0 & -> & H). exists i0. split; [reflexivity|]. exists w. auto.
Qed.
Lemma many_local {A} (R : reader A) : local R -> local (many R).
Proof.
  intros HR. apply local_of. intros i r z l H. remember (r ++ z) as r' eqn:Er. revert r z Er.
  induction H as [i|i m r' a l Ha Hl IH]; intros r z ->.
  - exists r. split; [reflexivity|constructor].
  - destruct (IH r z eq_refl) as (m0 & -> & H). apply (r_split _ _ _ _ _ HR) in Ha as (i0 & -> & Ha). exists i0. split; [reflexivity|]. econstructor; eassumption.
Qed.
Lemma commas_local {A} (R : reader A) : local R -> local (commas R).
Proof.
  intros HR. apply local_of. intros i r z l H. remember (r ++ z) as r' eqn:Er. revert r z Er.
  induction H as [i r' a Ha|i m m' r' a l Ha Ht Hl IH]; intros r z ->.
  - apply (r_split _ _ _ _ _ HR) in Ha as (i0 & -> & Ha). exists i0. split; [reflexivity|constructor; exact Ha].
  - destruct (IH r z eq_refl) as (m0 & -> & H). apply (p_split _ _ _ _ (tok_local _)) in Ht as (m1 & -> & Ht). apply (r_split _ _ _ _ _ HR) in Ha as (i0 & -> & Ha).
    exists i0. split; [reflexivity|]. eapply commas_more; eassumption.
Qed.
Lemma maybe_local {A} (R : reader A) : local R -> local (maybe R).
Proof.
  intros HR. apply local_of. intros i r z o H. remember (r ++ z) as r' eqn:Er. destruct H as [i|i r' a Ha]; subst.
  - exists r. split; [reflexivity|constructor].
  - apply (r_split _ _ _ _ _ HR) in Ha as (i0 & -> & Ha). exists i0. split; [reflexivity|constructor; exact Ha].
Qed.

(** Splits a hypothesis that ends in a suffix [z]. *)
Ltac cutp L H := apply (p_split _ _ _ _ L) in H; let x := fresh "i" in let H' := fresh H in destruct H as (x & -> & H').
Ltac cutr L H := apply (r_split _ _ _ _ _ L) in H; let x := fresh "i" in let H' := fresh H in destruct H as (x & -> & H').
Ltac fin_cut := eexists; split; [reflexivity|].
Lemma bracket_local op cl {A} (R : reader A) : local R -> local (bracket op cl R).
Proof.
  intros HR. apply local_of. intros i r z l H. remember (r ++ z) as r' eqn:Er. destruct H as [i m r' H1 H2|i m m' r' l H1 H2 H3]; subst.
  - cutp (tok_local (s cl)) H2. cutp (tok_local (s op)) H1. fin_cut. econstructor; eassumption.
  - cutp (tok_local (s cl)) H3. cutr (commas_local R HR) H2. cutp (tok_local (s op)) H1. fin_cut. eapply bracket_some; eassumption.
Qed.
Lemma braces_local {A} (R : reader A) : local R -> local (braces R).
Proof.
  intros HR. apply local_of. intros i r z l (m & m' & H1 & H2 & H3). cutp (tok_local (s "}")) H3. cutr (many_local R HR) H2. cutp (tok_local (s "{")) H1.
  fin_cut. eexists _, _. eauto.
Qed.
Lemma attr_local : local attr.
Proof.
  apply local_of. intros i r z a H. remember (r ++ z) as r' eqn:Er. destruct H as [i r' k H|i m m' r' k v H1 H2 H3]; subst.
  - cutr phrase_local H. fin_cut. constructor. assumption.
  - assert (H : exists i0, m' = i0 ++ z /\ (literal_r i0 r v \/ bare i0 r v \/ (exists w, quote dq i0 r w /\ v = VString w))).
    { destruct H3 as [H3|[H3|(w & H3 & ->)]].
      - cutr literal_local H3. eauto.
      - cutr bare_local H3. eauto.
      - cutr (quote_local dq) H3. eexists. split; [reflexivity|]. eauto. }
    destruct H as (i0 & -> & H). cutp (tok_local (s ":")) H2. cutr phrase_local H1. fin_cut. eapply attr_value; eassumption.
Qed.
Lemma attrs_local : local attrs. Proof. apply bracket_local, attr_local. Qed.
Lemma decl_local : local decl_name.
Proof.
  apply local_of. intros i r z [[sc|] n] H; cbn [decl_name] in *.
  - destruct H as (m & m' & H1 & H2 & H3). cutr name_local H3. cutp (tok_local (s ".")) H2. cutr name_local H1. fin_cut. eauto.
  - cutr name_local H. fin_cut. assumption.
Qed.
Lemma columns_local : local columns.
Proof.
  apply local_of. intros i r z l H. remember (r ++ z) as r' eqn:Er. destruct H as [i r' c H|i m m' r' l H1 H2 H3]; subst.
  - cutr name_local H. fin_cut. constructor. assumption.
  - cutp (tok_local (s ")")) H3. cutr (commas_local name name_local) H2. cutp (tok_local (s "(")) H1. fin_cut. eapply cols_more; eassumption.
Qed.
Lemma endpoint_local : local endpoint.
Proof.
  apply local_of. intros i r z l H. remember (r ++ z) as r' eqn:Er. destruct H as [i m1 m2 r' t l H1 H2 H3|i m1 m2 m3 m4 r' sc t l H1 H2 H3 H4 H5]; subst.
  - cutr columns_local H3. cutp (tok_local (s ".")) H2. cutr name_local H1. fin_cut. econstructor; eassumption.
  - cutr columns_local H5. cutp (tok_local (s ".")) H4. cutr name_local H3. cutp (tok_local (s ".")) H2. cutr name_local H1. fin_cut. eapply end_schema; eassumption.
Qed.
Lemma rel_local : local rel.
Proof. apply local_of. intros i r z x (t & Ht & H). cutp (tok_local t) H. fin_cut. exists t. auto. Qed.
Lemma inline_local : local inline.
Proof.
  apply local_of. intros i r z l H. remember (r ++ z) as r' eqn:Er. destruct H as [i m1 m2 m3 r' x e H1 H2 H3 H4]; subst.
  cutr endpoint_local H4. cutr rel_local H3. cutp (tok_local (s ":")) H2. cutp (tok_local (s "ref")) H1. fin_cut. econstructor; eassumption.
Qed.
Lemma ref_body_local n : local (ref_body n).
Proof.
  apply local_of. intros i r z l H. remember (r ++ z) as r' eqn:Er. destruct H as [i m1 m2 m3 r' x a b st H1 H2 H3 H4]; subst.
  cutr (maybe_local attrs attrs_local) H4. cutr endpoint_local H3. cutr rel_local H2. cutr endpoint_local H1. fin_cut. econstructor; eassumption.
Qed.
Lemma reference_local : local reference.
Proof.
  apply local_of. intros i r z l H. remember (r ++ z) as r' eqn:Er. destruct H as [i m1 m2 m3 r' n a H1 H2 H3 H4|i m1 m2 m3 m4 r' n a H1 H2 H3 H4 H5]; subst.
  - cutr (ref_body_local n) H4. cutp (tok_local (s ":")) H3. cutr (maybe_local name name_local) H2. cutp (kw_local "Ref") H1. fin_cut. econstructor; eassumption.
  - cutp (tok_local (s "}")) H5. cutr (ref_body_local n) H4. cutp (tok_local (s "{")) H3. cutr (maybe_local name name_local) H2. cutp (kw_local "Ref") H1. fin_cut. eapply ref_braces; eassumption.
Qed.
Lemma note_local : local note.
Proof.
  apply local_of. intros i r z l H. remember (r ++ z) as r' eqn:Er. destruct H as [i m1 m2 r' v H1 H2 H3|i m1 m2 m3 r' v H1 H2 H3 H4]; subst.
  - cutr text_local H3. cutp (tok_local (s ":")) H2. cutp (kw_local "Note") H1. fin_cut. econstructor; eassumption.
  - cutp (tok_local (s "}")) H4. cutr text_local H3. cutp (tok_local (s "{")) H2. cutp (kw_local "Note") H1. fin_cut. eapply note_braces; eassumption.
Qed.
Lemma type_local : local type_r.
Proof.
  apply local_of. intros i r z l (raw & m & -> & Ht & Hm & Hd & Hl). apply lay_split in Hl as (m0 & -> & Hl). exists (raw ++ m0). split; [apply app_assoc|].
  exists raw, m0. split; [reflexivity|]. split; [exact Ht|]. split; [|split; [|exact Hl]].
  - intros x c Hx Hc. eapply no_word_cut. eapply Hm; eassumption.
  - intros d x Hdd ->. apply (Hd d (x ++ z) Hdd). app0.
Qed.
Lemma col_item_local : local col_item.
Proof. apply local_of. intros i r z [a|x] H; cbn [col_item] in *; [cutr attr_local H|cutr inline_local H]; fin_cut; assumption. Qed.
Lemma col_settings_local : local col_settings_r.
Proof.
  apply local_of. intros i r z x (l & H & E1 & E2). cutr (bracket_local "[" "]" col_item col_item_local) H. fin_cut. exists l. auto.
Qed.
Lemma column_local : local column.
Proof.
  apply local_of. intros i r z l H. remember (r ++ z) as r' eqn:Er. destruct H as [i m1 m2 r' n ty st H1 H2 H3]; subst.
  cutr (maybe_local _ col_settings_local) H3. cutr type_local H2. cutr name_local H1. fin_cut. econstructor; eassumption.
Qed.
Lemma index_col_local : local index_col.
Proof.
  apply local_of. intros i r z l H. remember (r ++ z) as r' eqn:Er. destruct H as [i r' w H|i r' v H]; subst; [cutr name_local H|cutr (quote_local bq) H]; fin_cut; constructor; assumption.
Qed.
Lemma index_local : local index.
Proof.
  apply local_of. intros i r z l H. remember (r ++ z) as r' eqn:Er. destruct H as [i m r' c st H1 H2|i m r' c st H1 H2]; subst.
  - cutr (maybe_local attrs attrs_local) H2. cutr index_col_local H1. fin_cut. econstructor; eassumption.
  - cutr (maybe_local attrs attrs_local) H2. cutr (bracket_local "(" ")" index_col index_col_local) H1. fin_cut. eapply index_list; eassumption.
Qed.
Lemma indexes_local : local indexes.
Proof.
  apply local_of. intros i r z l H. remember (r ++ z) as r' eqn:Er. destruct H as [i m r' l H1 H2]; subst.
  cutr (braces_local index index_local) H2. cutp (kw_local "Indexes") H1. fin_cut. econstructor; eassumption.
Qed.
Lemma table_item_local : local table_item.
Proof. apply local_of. intros i r z [a|x|x] H; cbn [table_item] in *; [cutr column_local H|cutr note_local H|cutr indexes_local H]; fin_cut; assumption. Qed.
Lemma alias_local : local alias.
Proof. apply local_of. intros i r z w (m & H1 & H2). cutr name_local H2. cutp (kw_local "as ") H1. fin_cut. eexists. eauto. Qed.
Lemma table_local : local table.
Proof.
  apply local_of. intros i r z l H. remember (r ++ z) as r' eqn:Er. destruct H as [i m1 m2 m3 m4 r' d al st l H1 H2 H3 H4 H5]; subst.
  cutr (braces_local _ table_item_local) H5. cutr (maybe_local attrs attrs_local) H4. cutr (maybe_local _ alias_local) H3. cutr decl_local H2. cutp (kw_local "Table ") H1.
  fin_cut. econstructor; eassumption.
Qed.
Lemma enum_value_local : local enum_value_r.
Proof. apply local_of. intros i r z x (m & H1 & H2). cutr (maybe_local attrs attrs_local) H2. cutr name_local H1. fin_cut. eexists. eauto. Qed.
Lemma enum_local : local enum.
Proof.
  apply local_of. intros i r z l H. remember (r ++ z) as r' eqn:Er. destruct H as [i m1 m2 r' d l H1 H2 H3]; subst.
  cutr (braces_local _ enum_value_local) H3. cutr decl_local H2. cutp (kw_local "Enum ") H1. fin_cut. econstructor; eassumption.
Qed.
Lemma group_item_local : local group_item.
Proof. apply local_of. intros i r z [a|x] H; cbn [group_item] in *; [cutr note_local H|cutr decl_local H]; fin_cut; assumption. Qed.
Lemma group_local : local group.
Proof.
  apply local_of. intros i r z l H. remember (r ++ z) as r' eqn:Er. destruct H as [i m1 m2 m3 r' n st l H1 H2 H3 H4]; subst.
  cutr (braces_local _ group_item_local) H4. cutr (maybe_local attrs attrs_local) H3. cutr name_local H2. cutp (kw_local "TableGroup ") H1. fin_cut. econstructor; eassumption.
Qed.
Lemma property_local : local property_r.
Proof.
  apply local_of. intros i r z x (m & m' & H1 & H2 & H3 & H4).
  cutr (or_local _ _ literal_local bare_local) H3. cutp (tok_local (s ":")) H2. cutr phrase_local H1. fin_cut. eexists _, _. eauto.
Qed.
Lemma project_item_local : local project_item.
Proof. apply local_of. intros i r z [a|x] H; cbn [project_item] in *; [cutr note_local H|cutr property_local H]; fin_cut; assumption. Qed.
Lemma project_local : local project.
Proof.
  apply local_of. intros i r z l H. remember (r ++ z) as r' eqn:Er. destruct H as [i m1 m2 r' n l H1 H2 H3]; subst.
  cutr (braces_local _ project_item_local) H3. cutr name_local H2. cutp (kw_local "Project ") H1. fin_cut. econstructor; eassumption.
Qed.
Lemma block_local : local block_r.
Proof.
  apply local_of. intros i r z [x|x|x|x|x|x] H; cbn [block_r] in *;
    [cutr project_local H|cutr table_local H|cutr group_local H|cutr note_local H|cutr reference_local H|cutr enum_local H]; fin_cut; assumption.
Qed.
