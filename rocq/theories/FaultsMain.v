(** * FaultsMain: what is reported of a text that does not fit. *)

From Coq Require Import Sorted.
From Verif Require Import SynMain ParseFacts ShownOk FaultsOk.
From Verif Require Export FaultsUniq.
From Verif Require Import Api Syntax.

Lemma faults_of_parse inp o : parse_dbml_unchecked inp = Some o -> o <> Err ErGrammar -> exists l, faults inp l /\ says l o.
Proof. apply faults_sound. Qed.
Lemma faults_of_text inp a : dbml_text inp a -> exists l o, parse_dbml_unchecked inp = Some o /\ faults inp l /\ says l o.
Proof.
  intros H. destruct (unchecked_total inp) as (o & Ho & _). assert (Hg : o <> Err ErGrammar).
  { intros ->. eapply not_dbml; eassumption. }
  destruct (faults_sound inp o Ho Hg) as (l & H1 & H2). eauto.
Qed.
Theorem faults_say inp l : faults inp l -> exists o, parse_dbml_unchecked inp = Some o /\ says l o.
Proof.
  intros H. destruct (faults_text _ _ H) as (a & Ha). destruct (faults_of_text _ _ Ha) as (l' & o & H1 & H2 & H3).
  rewrite (faults_unique _ _ _ H H2). eauto.
Qed.
Theorem first_fault inp m sp : parse_dbml_unchecked inp = Some (Err (ErMsg m sp)) <-> exists l, faults inp ((m, sp) :: l).
Proof.
  split.
  - intros H. destruct (faults_sound _ _ H) as (l & H1 & H2); [discriminate|]. destruct l as [|[m' sp'] l].
    + destruct H2 as (x & [=]).
    + cbn in H2. injection H2 as <- <-. eauto.
  - intros (l & H). destruct (faults_say _ _ H) as (o & H1 & H2). cbn in H2. subst o. exact H1.
Qed.
Theorem no_fault inp : (exists x, parse_dbml_unchecked inp = Some (Ok x)) <-> faults inp [].
Proof.
  split.
  - intros (x & H). destruct (faults_sound _ _ H) as (l & H1 & H2); [discriminate|]. destruct l as [|f l]; [exact H1|discriminate H2].
  - intros H. destruct (faults_say _ _ H) as (o & H1 & x & ->). eauto.
Qed.
Theorem faults_defined inp : (exists l, faults inp l) <-> exists a, dbml_text inp a.
Proof.
  split.
  - intros (l & H). exact (faults_text _ _ H).
  - intros (a & H). destruct (faults_of_text _ _ H) as (l & o & _ & H1 & _). eauto.
Qed.
Theorem faults_fit inp a : dbml_text inp a -> (fits a <-> faults inp []).
Proof.
  intros Ha. split.
  - intros Hf. destruct (written_is_read _ _ Ha Hf) as (x & Hx & _). apply no_fault. eauto.
  - intros Hf. apply no_fault in Hf as (x & Hx). destruct (unchecked_reads _ _ Ha) as [[Hf _]|[_ (m & sp & He)]]; [exact Hf|]. rewrite Hx in He. discriminate.
Qed.

(** ** Their order *)
Definition ends_by (f g : fault) : Prop := snd (snd f) <= snd (snd g).
Definition lies (a b : N) (f : fault) : Prop := a <= fst (snd f) /\ fst (snd f) <= snd (snd f) /\ snd (snd f) <= b.
Definition inside (a : N) (l : list fault) (b : N) : Prop := Forall (lies a b) l /\ StronglySorted ends_by l.
Lemma inside_nil a b : inside a [] b.
Proof. split; constructor. Qed.
Lemma lies_wider a b a' b' f : a' <= a -> b <= b' -> lies a b f -> lies a' b' f.
Proof. unfold lies. lia. Qed.
Lemma inside_wider a b a' b' l : a' <= a -> b <= b' -> inside a l b -> inside a' l b'.
Proof. intros H1 H2 [H3 H4]. split; [|exact H4]. eapply Forall_impl; [|exact H3]. intros f. apply lies_wider; assumption. Qed.
Lemma inside_app a b c l l' : a <= b -> b <= c -> inside a l b -> inside b l' c -> inside a (l ++ l') c.
Proof.
  intros H1 H2 [H3 H4] [H5 H6]. split.
  - apply Forall_app. split; (eapply Forall_impl; [|eassumption]); intros f; apply lies_wider; lia.
  - clear H1 H2. induction H4 as [|f l Hl IH Hf]; [exact H6|]. apply Forall_cons_iff in H3 as [H3 H3']. cbn [app]. constructor; [auto|].
    apply Forall_app. split; [exact Hf|]. eapply Forall_impl; [|exact H5]. intros g Hg. unfold lies, ends_by in *. lia.
Qed.
Lemma inside_concat a b c l l' : a <= b -> b <= c -> inside a l b -> inside b (List.concat l') c -> inside a (List.concat (l :: l')) c.
Proof. apply inside_app. Qed.

(** [m] is no longer than [i]. *)
Definition shrinks {A} (R : reader A) : Prop := forall i m x, R i m x -> blen m <= blen i.
Lemma lay_shrinks i r : lay i r -> blen r <= blen i.
Proof. intros (g & -> & _). rewrite blen_app. lia. Qed.
Lemma tok_shrinks w i r : tok w i r -> blen r <= blen i.
Proof. intros (m & -> & H). apply lay_shrinks in H. rewrite blen_app. lia. Qed.
Lemma kw_shrinks w i r : kw w i r -> blen r <= blen i.
Proof. intros (k & m & -> & _ & H). apply lay_shrinks in H. rewrite blen_app. lia. Qed.
Lemma next_shrinks {A} (R : reader A) : shrinks R -> shrinks (next R).
Proof. intros H i r x (m & H1 & H2). apply H in H1. apply lay_shrinks in H2. lia. Qed.
Lemma maybe_shrinks {A} (R : reader A) i r o : shrinks R -> maybe R i r o -> blen r <= blen i.
Proof. intros H [j|j r' a Ha]; [lia|]. eapply H. exact Ha. Qed.
Lemma commas_shrinks {A} (R : reader A) i r l : shrinks R -> commas R i r l -> blen r <= blen i.
Proof. intros H. induction 1 as [i r a Ha|i m m' r a l Ha Ht Hl IH]; apply H in Ha; [exact Ha|]. apply tok_shrinks in Ht. lia. Qed.
Lemma many_shrinks {A} (R : reader A) i r l : shrinks R -> many R i r l -> blen r <= blen i.
Proof. intros H. induction 1 as [i|i m r a l Ha Hl IH]; [lia|]. apply H in Ha. lia. Qed.
Lemma list_shrinks {A} (R : reader A) op cl : shrinks R -> shrinks (list_at op cl R).
Proof.
  intros H i m l [j n Ht|j m1 n l' Ht Hc]; apply tok_shrinks in Ht.
  - rewrite blen_app in Ht. lia.
  - apply commas_shrinks in Hc; [|apply next_shrinks; exact H]. rewrite blen_app in Hc. lia.
Qed.
Lemma braces_shrinks {A} (R : reader A) : shrinks R -> shrinks (braces_at R).
Proof. intros H i m l (m1 & Ht & Hm). apply tok_shrinks in Ht. apply many_shrinks in Hm; [|apply next_shrinks; exact H]. rewrite blen_app in Hm. lia. Qed.
Lemma quote_shrinks q : shrinks (quote_at q).
Proof. intros i m v (i' & -> & H & _). apply lay_shrinks in H. rewrite !blen_app in *. lia. Qed.
Lemma value_shrinks : shrinks value_at.
Proof.
  intros i m v [i' m' w [H|H]|i' m' w H|m'|m'|m'|d m' H1 H2 H3|d1 d2 m' f H1 H2 H3 H4|h m' H1 H2|h m' H1 H2 H3]; try (apply quote_shrinks in H; exact H); rewrite ?blen_app; lia.
Qed.
Lemma plain_value_shrinks : shrinks plain_value_at.
Proof. intros i m v [H|(w & (-> & _) & _)]; [apply value_shrinks in H; exact H|]. rewrite blen_app. lia. Qed.
Lemma attr_value_shrinks : shrinks attr_value_at.
Proof. intros i m v [H|(w & H & _)]; [apply plain_value_shrinks in H; exact H|apply quote_shrinks in H; exact H]. Qed.

Section Order.
Variable inp : str.
Lemma ident_shrinks : shrinks (ident_at inp).
Proof. intros i m x (-> & _). rewrite blen_app. lia. Qed.
Lemma key_shrinks : shrinks (key_at inp).
Proof. intros i m x (-> & _). rewrite blen_app. lia. Qed.
Lemma lit_shrinks R : shrinks (lit inp R).
Proof. intros i m x (-> & _). rewrite blen_app. lia. Qed.
Lemma decl_shrinks : shrinks (decl_at inp).
Proof.
  intros i m d [j n x H|j m1 m2 n sc x H1 H2 H3].
  - eapply next_shrinks; [apply ident_shrinks|exact H].
  - apply (next_shrinks _ ident_shrinks) in H1. apply tok_shrinks in H2. apply ident_shrinks in H3. lia.
Qed.
Lemma columns_shrinks : shrinks (columns_at inp).
Proof.
  intros i m l [j n c H|j m1 n l' Ht H]; [apply ident_shrinks in H; exact H|]. apply tok_shrinks in Ht.
  apply commas_shrinks in H; [|apply next_shrinks, ident_shrinks]. rewrite blen_app in H. lia.
Qed.
Lemma endpoint_shrinks : shrinks (endpoint_at inp).
Proof.
  intros i m e [j m1 m2 n t l H1 H2 H3|j m1 m2 m3 m4 n sc t l H1 H2 H3 H4 H5].
  - apply (next_shrinks _ ident_shrinks) in H1. apply tok_shrinks in H2. apply columns_shrinks in H3. lia.
  - apply (next_shrinks _ ident_shrinks) in H1, H3. apply tok_shrinks in H2, H4. apply columns_shrinks in H5. lia.
Qed.
Lemma rel_shrinks : shrinks rel_at.
Proof. intros i m x (t & _ & ->). rewrite blen_app. lia. Qed.
Lemma inline_shrinks : shrinks (inline_at inp).
Proof. intros i m x [j m1 m2 m3 n y e H1 H2 H3 H4]. apply tok_shrinks in H1, H2. apply (next_shrinks _ rel_shrinks) in H3. apply endpoint_shrinks in H4. lia. Qed.
Lemma note_shrinks : shrinks (note_at inp).
Proof.
  intros i m x [j m1 m2 n v H1 H2 H3|j m1 m2 n v H1 H2 H3]; apply kw_shrinks in H1; apply tok_shrinks in H2.
  - apply lit_shrinks in H3. lia.
  - apply (next_shrinks _ (lit_shrinks _)) in H3. rewrite blen_app in H3. lia.
Qed.
Lemma alias_shrinks : shrinks (alias_at inp).
Proof. intros i m x (m1 & H1 & H2). apply kw_shrinks in H1. apply ident_shrinks in H2. lia. Qed.
Lemma index_col_shrinks : shrinks (index_col_at inp).
Proof. intros i m x [j n y H|j n v H]; [apply ident_shrinks in H; exact H|apply lit_shrinks in H; exact H]. Qed.
Lemma group_part_shrinks : shrinks (group_part_at inp).
Proof. intros i m x [j n y H|j n v H]; [apply note_shrinks in H; exact H|apply decl_shrinks in H; exact H]. Qed.

Lemma pos_le i m : blen m <= blen i -> pos inp i <= pos inp m.
Proof. unfold pos. lia. Qed.
(** A reader of faults goes forward and lists them in order, all within what it reads. *)
Definition ordered (R : faulty) : Prop := forall i m l, R i m l -> blen m <= blen i /\ inside (pos inp i) l (pos inp m).
Lemma step i j m l : blen j <= blen i -> blen m <= blen j /\ inside (pos inp j) l (pos inp m) -> blen m <= blen i /\ inside (pos inp i) l (pos inp m).
Proof. intros H [H1 H2]. split; [lia|]. eapply inside_wider; [apply pos_le; exact H|reflexivity|exact H2]. Qed.
Lemma step_end i j m l : blen m <= blen j -> blen j <= blen i /\ inside (pos inp i) l (pos inp j) -> blen m <= blen i /\ inside (pos inp i) l (pos inp m).
Proof. intros H [H1 H2]. split; [lia|]. eapply inside_wider; [reflexivity|apply pos_le; exact H|exact H2]. Qed.
Lemma join i j m l l' : blen j <= blen i /\ inside (pos inp i) l (pos inp j) -> blen m <= blen j /\ inside (pos inp j) l' (pos inp m) ->
  blen m <= blen i /\ inside (pos inp i) (l ++ l') (pos inp m).
Proof. intros [H1 H2] [H3 H4]. split; [lia|]. eapply inside_app; [apply pos_le; exact H1|apply pos_le; exact H3|exact H2|exact H4]. Qed.
Lemma none i m : blen m <= blen i -> blen m <= blen i /\ inside (pos inp i) [] (pos inp m).
Proof. intros H. split; [exact H|apply inside_nil]. Qed.
Lemma sound_ordered {A} (R : reader A) : shrinks R -> ordered (sound R).
Proof. intros H i m l ((x & Hx) & ->). apply none. eapply H. exact Hx. Qed.
Lemma next_ordered R : ordered R -> ordered (next R).
Proof. intros H i r l (m & H1 & H2). apply H in H1. eapply step_end; [apply lay_shrinks; exact H2|exact H1]. Qed.
Lemma commas_ordered R i r ls : ordered R -> commas R i r ls -> blen r <= blen i /\ inside (pos inp i) (List.concat ls) (pos inp r).
Proof.
  intros H. induction 1 as [i r a Ha|i m m' r a l Ha Ht Hl IH]; apply H in Ha; cbn [List.concat].
  - rewrite app_nil_r. exact Ha.
  - eapply join; [exact Ha|]. eapply step; [apply tok_shrinks in Ht; exact Ht|exact IH].
Qed.
Lemma many_ordered R i r ls : ordered R -> many R i r ls -> blen r <= blen i /\ inside (pos inp i) (List.concat ls) (pos inp r).
Proof.
  intros H. induction 1 as [i|i m r a l Ha Hl IH]; cbn [List.concat]; [apply none; lia|]. apply H in Ha. eapply join; eassumption.
Qed.
Lemma list_ordered R op cl i m ls : ordered R -> list_at op cl R i m ls -> blen m <= blen i /\ inside (pos inp i) (List.concat ls) (pos inp m).
Proof.
  intros H [j n Ht|j m1 n l' Ht Hc]; apply tok_shrinks in Ht.
  - apply none. rewrite blen_app in Ht. lia.
  - eapply step; [exact Ht|]. eapply step_end; [|apply (commas_ordered (next R)); [apply next_ordered; exact H|exact Hc]]. rewrite blen_app. lia.
Qed.
Lemma braces_ordered R i m ls : ordered R -> braces_at R i m ls -> blen m <= blen i /\ inside (pos inp i) (List.concat ls) (pos inp m).
Proof.
  intros H (m1 & Ht & Hm). apply tok_shrinks in Ht. eapply step; [exact Ht|].
  eapply step_end; [|apply (many_ordered (next R)); [apply next_ordered; exact H|exact Hm]]. rewrite blen_app. lia.
Qed.
Lemma maybe_ordered R i r o : ordered R -> maybe (next R) i r o -> blen r <= blen i /\ inside (pos inp i) (opt_faults o) (pos inp r).
Proof. intros H [j|j r' a Ha]; [apply none; lia|]. apply (next_ordered _ H). exact Ha. Qed.
Lemma tail_clean {A} (R : reader A) (O : faulty) i m x o : shrinks R -> ordered O -> tail_at R O i m x o -> blen m <= blen i /\ inside (pos inp i) (opt_faults o) (pos inp m).
Proof.
  intros HR HO [j n a Ha|j m1 n a b Ha Hb]; apply (next_shrinks _ HR) in Ha; [apply none; exact Ha|]. eapply step; [exact Ha|]. apply HO. exact Hb.
Qed.
Lemma tail_ordered (R O : faulty) i m l o : ordered R -> ordered O -> tail_at R O i m l o -> blen m <= blen i /\ inside (pos inp i) (l ++ opt_faults o) (pos inp m).
Proof.
  intros HR HO [j n a Ha|j m1 n a b Ha Hb]; apply (next_ordered _ HR) in Ha; cbn [opt_faults]; [rewrite app_nil_r; exact Ha|]. eapply join; [exact Ha|]. apply HO. exact Hb.
Qed.

Lemma one_inside m i w : blen m <= blen i -> inside (pos inp i) [(w, span inp i m)] (pos inp m).
Proof. intros H. apply pos_le in H. split; [repeat constructor; cbn; lia|repeat constructor]. Qed.
Lemma value_inside v i m : blen m <= blen i -> inside (pos inp i) (value_faults v (span inp i m)) (pos inp m).
Proof. intros H. unfold value_faults. destruct v as [| |z| | | | |]; try apply inside_nil. destruct (z <=? _)%Z; [apply inside_nil|apply one_inside; exact H]. Qed.
Lemma size_inside v i m : blen m <= blen i -> inside (pos inp i) (size_faults v (span inp i m)) (pos inp m).
Proof. intros H. unfold size_faults. destruct (v <=? _); [apply inside_nil|apply one_inside; exact H]. Qed.
Lemma words_inside ws i m : blen m <= blen i -> inside (pos inp i) (map (fun w => (w, span inp i m)) ws) (pos inp m).
Proof.
  intros H. apply pos_le in H. split.
  - apply Forall_map, Forall_forall. intros w _. unfold lies. cbn. lia.
  - induction ws as [|w ws IH]; [constructor|]. cbn [map]. constructor; [exact IH|]. apply Forall_map, Forall_forall. intros w' _. unfold ends_by. cbn. lia.
Qed.
Lemma attribute_ordered J : ordered (attribute_f inp J).
Proof.
  intros i m l [j n k Hk|j m1 m2 n k v ws Hk Ht Hv _]; apply (next_shrinks _ key_shrinks) in Hk; [apply none; exact Hk|].
  apply tok_shrinks in Ht. apply attr_value_shrinks in Hv. split; [lia|].
  assert (H1 : inside (pos inp j) (value_faults v (span inp m2 n)) (pos inp n)).
  { eapply inside_wider; [apply pos_le|reflexivity|apply value_inside; exact Hv]. lia. }
  assert (H2 : inside (pos inp j) (map (fun w => (w, span inp j n)) ws) (pos inp n)) by (apply words_inside; lia).
  destruct H1 as [A1 A2], H2 as [B1 B2]. split; [apply Forall_app; auto|].
  clear A1. unfold value_faults in *. destruct v as [| |z| | | | |]; try exact B2. destruct (z <=? _)%Z; [exact B2|]. cbn [app]. constructor; [exact B2|].
  apply Forall_map, Forall_forall. intros w _. unfold ends_by. cbn. lia.
Qed.
Lemma settings_ordered J : ordered (settings_f inp J).
Proof. intros i m l (ls & H & ->). eapply list_ordered; [apply attribute_ordered|exact H]. Qed.
Lemma args_ordered : ordered (args_f inp).
Proof.
  intros i m l. induction 1 as [raw v m Ha|raw v i m l Ha Hl IH].
  - eapply (step_end _ (s ")" ++ m)); [rewrite blen_app; lia|]. split; [rewrite !blen_app; lia|]. apply value_inside. rewrite !blen_app. lia.
  - eapply (join _ (s "," ++ i)); [split; [rewrite !blen_app; lia|apply value_inside; rewrite !blen_app; lia]|]. eapply (step _ i); [rewrite blen_app; lia|exact IH].
Qed.
Lemma arguments_ordered : ordered (arguments_f inp).
Proof.
  intros i m l [n|n|j n l' H]; [apply none; lia|apply none; rewrite blen_app; lia|]. eapply (step _ j); [rewrite blen_app; lia|apply args_ordered; exact H].
Qed.
Lemma dims_ordered : ordered (dims_f inp).
Proof.
  intros i m l. induction 1 as [m|i m l Hl IH|d i m l Hd Hl IH].
  - apply none. lia.
  - eapply (step _ i); [rewrite blen_app; lia|exact IH].
  - eapply (step _ (d ++ s "]" ++ i)); [rewrite !blen_app; lia|]. eapply (join _ (s "]" ++ i)); [split; [rewrite !blen_app; lia|apply size_inside; rewrite !blen_app; lia]|].
    eapply (step _ i); [rewrite blen_app; lia|exact IH].
Qed.
Lemma type_ordered : ordered (type_f inp).
Proof.
  intros i m l (_ & [p np b j m1 n l1 l2 Hp Hb Ha Hd|p np b j m1 m2 n l1 l2 l3 Hp Hb Ha Hd1 Hd2 _]).
  - eapply (step _ j); [rewrite !blen_app; lia|]. eapply join; [apply arguments_ordered; exact Ha|apply dims_ordered; exact Hd].
  - eapply (step _ j); [rewrite !blen_app; lia|]. eapply join; [apply arguments_ordered; exact Ha|]. eapply join; [apply dims_ordered; exact Hd1|].
    eapply (step _ m2); [rewrite !blen_app; lia|]. apply dims_ordered. exact Hd2.
Qed.
Lemma col_item_ordered : ordered (col_item_f inp).
Proof. intros i m l [H|H]; [eapply attribute_ordered; exact H|eapply sound_ordered; [apply inline_shrinks|exact H]]. Qed.
Lemma col_settings_ordered : ordered (col_settings_f inp).
Proof. intros i m l (ls & H & ->). eapply list_ordered; [apply col_item_ordered|exact H]. Qed.
Lemma column_ordered : ordered (column_f inp).
Proof.
  intros i m l [j m1 n x l' o H1 H2]. apply (next_shrinks _ ident_shrinks) in H1. eapply step; [exact H1|].
  eapply tail_ordered; [apply type_ordered|apply col_settings_ordered|exact H2].
Qed.
Lemma index_ordered : ordered (index_f inp).
Proof.
  intros i m l [j n c o H|j n c o H]; (eapply tail_clean; [|apply settings_ordered|exact H]); [apply index_col_shrinks|apply list_shrinks, index_col_shrinks].
Qed.
Lemma indexes_ordered : ordered (indexes_f inp).
Proof. intros i m l [j m1 n ls Hk Hb]. apply kw_shrinks in Hk. eapply step; [exact Hk|]. eapply braces_ordered; [apply index_ordered|exact Hb]. Qed.
Lemma table_item_ordered : ordered (table_item_f inp).
Proof. intros i m l [H|[H|H]]; [eapply column_ordered; exact H|eapply sound_ordered; [apply note_shrinks|exact H]|eapply indexes_ordered; exact H]. Qed.
Lemma table_ordered : ordered (table_f inp).
Proof.
  intros i m l [j m1 m2 m3 m4 m5 n d al o ls Hk Hd Hl Hal Hst Hb]. apply kw_shrinks in Hk. apply decl_shrinks in Hd. apply lay_shrinks in Hl.
  apply (maybe_shrinks _ _ _ _ (next_shrinks _ alias_shrinks)) in Hal. eapply (step _ m4); [lia|].
  eapply join; [eapply maybe_ordered; [apply settings_ordered|exact Hst]|]. eapply braces_ordered; [apply table_item_ordered|exact Hb].
Qed.
Lemma enum_value_ordered : ordered (enum_value_f inp).
Proof. intros i m l [j n v o H]. eapply tail_clean; [apply ident_shrinks|apply settings_ordered|exact H]. Qed.
Lemma enum_ordered : ordered (enum_f inp).
Proof.
  intros i m l [j m1 m2 m3 n d ls Hk Hd Hl Hb]. apply kw_shrinks in Hk. apply decl_shrinks in Hd. apply lay_shrinks in Hl. eapply (step _ m3); [lia|].
  eapply braces_ordered; [apply enum_value_ordered|exact Hb].
Qed.
Lemma group_ordered : ordered (group_f inp).
Proof.
  intros i m l [j m1 m2 m3 n x o ls Hk Hn Hst Hb]. apply kw_shrinks in Hk. apply (next_shrinks _ ident_shrinks) in Hn. eapply (step _ m2); [lia|].
  eapply (step_end _ m3); [eapply braces_shrinks; [apply group_part_shrinks|exact Hb]|]. eapply maybe_ordered; [apply settings_ordered|exact Hst].
Qed.
Lemma property_ordered : ordered (property_f inp).
Proof.
  intros i m l [j m1 m2 n k v Hk Ht Hv _]. apply (next_shrinks _ key_shrinks) in Hk. apply tok_shrinks in Ht. apply plain_value_shrinks in Hv.
  eapply (step _ m2); [lia|]. split; [exact Hv|apply value_inside; exact Hv].
Qed.
Lemma project_item_ordered : ordered (project_item_f inp).
Proof. intros i m l [H|H]; [eapply sound_ordered; [apply note_shrinks|exact H]|eapply property_ordered; exact H]. Qed.
Lemma project_ordered : ordered (project_f inp).
Proof.
  intros i m l [j m1 m2 n x ls Hk Hn Hb]. apply kw_shrinks in Hk. apply (next_shrinks _ ident_shrinks) in Hn. eapply (step _ m2); [lia|].
  eapply braces_ordered; [apply project_item_ordered|exact Hb].
Qed.
Lemma stmt_ordered : ordered (stmt_f inp).
Proof.
  intros i m l [j m1 m2 n x a b o H1 H2 H3]. apply (next_shrinks _ endpoint_shrinks) in H1. apply (next_shrinks _ rel_shrinks) in H2. eapply (step _ m2); [lia|].
  eapply tail_clean; [apply endpoint_shrinks|apply settings_ordered|exact H3].
Qed.
Lemma reference_ordered : ordered (reference_f inp).
Proof.
  intros i m l [j m1 m2 m3 n x l' Hk Hn Ht Hb|j m1 m2 m3 n x l' Hk Hn Ht Hb]; apply kw_shrinks in Hk; apply tok_shrinks in Ht;
    apply (maybe_shrinks _ _ _ _ (next_shrinks _ ident_shrinks)) in Hn; (eapply (step _ m3); [lia|]).
  - apply stmt_ordered. exact Hb.
  - eapply (step_end _ (s "}" ++ n)); [rewrite blen_app; lia|]. apply (next_ordered _ stmt_ordered). exact Hb.
Qed.
Lemma top_ordered : ordered (top_f inp).
Proof.
  intros i m l [H|[H|[H|[H|[H|H]]]]].
  - apply project_ordered; exact H.
  - apply table_ordered; exact H.
  - apply group_ordered; exact H.
  - eapply sound_ordered; [apply note_shrinks|exact H].
  - apply reference_ordered; exact H.
  - apply enum_ordered; exact H.
Qed.
End Order.

Theorem faults_ordered inp l : faults inp l -> Forall (lies 0 (blen inp)) l /\ StronglySorted ends_by l.
Proof.
  intros (m & ls & Hl & Hm & ->). destruct (many_ordered inp _ _ _ _ (next_ordered inp _ (top_ordered inp)) Hm) as [_ H].
  eapply inside_wider in H; [exact H|lia|]. unfold pos. lia.
Qed.

Theorem first_fault_checked inp m sp : parse_dbml inp = Some (Err (ErMsg m sp)) <-> exists l, faults inp ((m, sp) :: l).
Proof.
  rewrite <- first_fault. split; intros H; [|apply checked_err; exact H].
  destruct (unchecked_cases inp) as [K|[(m' & sp' & K & T)|(x & K & _)]].
  - apply checked_err in K. congruence.
  - pose proof (checked_err _ _ K). congruence.
  - pose proof (checked_sem _ _ K) as S. rewrite H in S. destruct S.
Qed.
