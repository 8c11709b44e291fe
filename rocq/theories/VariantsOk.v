(** * VariantsOk: variants of a text are equally accepted. *)

From Verif Require Import Rules RulesOk SynMain SynVerdict ValidityOk Like CheckFacts RulesOk3 ParseFacts CheckFacts2.
From Verif Require Import Err Analyzer Api Answer.
From Verif Require Import Validity Variants.
From Verif Require Import Syntax.

Definition i_ (x : str) : str := x.
Lemma i_inj x y : i_ x = i_ y -> x = y.
Proof. auto. Qed.
Lemma opt_i o : option_map i_ o = o.
Proof. destruct o; reflexivity. Qed.
Lemma map_i l : map i_ l = l.
Proof. apply map_id. Qed.
Lemma end_i e : ren_end i_ i_ i_ e = e.
Proof. destruct e as [x y z]. unfold ren_end. cbn [e_schema e_table e_cols]. rewrite opt_i, map_i. reflexivity. Qed.
Lemma link_i k : ren_link i_ i_ i_ k = k.
Proof. destruct k as [x y z]. unfold ren_link. cbn [k_rel k_lhs k_rhs]. rewrite !end_i. reflexivity. Qed.
Lemma item_i l : map (ren_item i_ i_) l = l.
Proof. rewrite <- (map_id l) at 2. apply map_ext. intros [o n]. unfold ren_item. cbn [fst snd]. rewrite opt_i. reflexivity. Qed.
Notation like_i := (like i_ i_ i_).
Notation table_i := (table_like i_ i_ i_).
Notation col_i := (col_like i_).
Notation idx_i := (idx_like i_).
Lemma like_i_valid a b : like_i a b -> valid a -> valid b.
Proof. apply like_valid; try exact i_inj; reflexivity. Qed.
Lemma f2_refl {A} (R : A -> A -> Prop) l : (forall a, R a a) -> Forall2 R l l.
Proof. intros H. induction l; constructor; auto. Qed.
Lemma f2_eq_map {A B} (R : A -> B -> Prop) (f : A -> B) l : (forall a, In a l -> R a (f a)) -> Forall2 R l (map f l).
Proof. induction l as [|a l IH]; intros H; constructor; [apply H; left; reflexivity|]. apply IH. intros b Hb. apply H. right. exact Hb. Qed.
Lemma col_refl c : col_i c c.
Proof. unfold col_like. repeat split; auto. Qed.
Lemma idx_refl d : idx_i d d.
Proof. unfold idx_like. rewrite map_i. repeat split; auto. Qed.
Lemma enum_refl e : enum_like e e.
Proof. unfold enum_like. repeat split; auto. Qed.
Lemma group_refl g : group_like i_ i_ g g.
Proof. unfold group_like. rewrite item_i. split; reflexivity. Qed.
Lemma table_refl t : table_i t t.
Proof.
  unfold table_like. rewrite !opt_i. repeat split; auto. 
  - exists (t_cols t). split; [reflexivity|]. apply f2_refl, col_refl.
  - apply f2_refl, idx_refl.
Qed.
Lemma links_refl l : Forall2 (link_like i_ i_ i_) l l.
Proof. apply f2_refl. intros k. left. symmetry. apply link_i. Qed.
Lemma perm_f2 {A} (R : A -> A -> Prop) l l' : (forall a, R a a) -> Permutation l l' -> exists m, Permutation l m /\ Forall2 R m l'.
Proof. intros H P. exists l'. split; [exact P|]. apply f2_refl, H. Qed.
Lemma same_ex {A} (R : A -> A -> Prop) l l' : Forall2 R l l' -> exists m, Permutation l m /\ Forall2 R m l'.
Proof. intros H. exists l. split; [reflexivity|exact H]. Qed.

(** ** Overridden notes and index blocks *)
Lemma table_kept t : table_i t (kept_table t) /\ table_i (kept_table t) t.
Proof.
  assert (E : defs_of (kept_table t) = defs_of t) by (unfold defs_of, kept_table; cbn [t_indexes]; rewrite last_only_idem; reflexivity).
  unfold table_like. rewrite E. cbn [kept_table t_schema t_name t_alias t_settings t_cols]. rewrite !opt_i. 
  split; (repeat split; auto; [exists (t_cols t); split; [reflexivity|apply f2_refl, col_refl]|apply f2_refl, idx_refl]).
Qed.
Lemma settle_links a : links (settle a) = links a.
Proof. unfold links, block_links. rewrite settle_refs, settle_tables. f_equal. rewrite !flat_map_concat_map, map_map. reflexivity. Qed.
Lemma settle_like a : like_i a (settle a) /\ like_i (settle a) a.
Proof.
  split; constructor.
  - rewrite settle_projects. intros (p & -> & H). eexists. split; [reflexivity|]. exact H.
  - apply same_ex. rewrite settle_tables. apply f2_eq_map. intros t _. apply table_kept.
  - apply same_ex. rewrite settle_enums. apply f2_refl, enum_refl.
  - apply same_ex. rewrite settle_groups. apply f2_eq_map. intros g _. unfold group_like. rewrite item_i. split; reflexivity.
  - rewrite settle_refs. auto.
  - rewrite settle_links. apply same_ex, links_refl.
  - rewrite settle_projects. intros (p & E & H). destruct (projects_of a) as [|q [|]]; try discriminate. injection E as <-. exists q. auto.
  - apply same_ex. rewrite settle_tables. apply (proj2 (forall2_map_l _ _ _ _)). apply f2_refl. intros t. apply table_kept.
  - apply same_ex. rewrite settle_enums. apply f2_refl, enum_refl.
  - apply same_ex. rewrite settle_groups. apply (proj2 (forall2_map_l _ _ _ _)). apply f2_refl. intros g. unfold group_like. rewrite item_i. split; reflexivity.
  - rewrite settle_refs. auto.
  - rewrite settle_links. apply same_ex, links_refl.
Qed.
Lemma settle_valid a : valid (settle a) <-> valid a.
Proof. split; apply like_i_valid; apply settle_like. Qed.

(** ** Acceptance *)
Theorem accepted_says t a : dbml_text t a -> (is_accepted t <-> fits a /\ valid a).
Proof.
  intros H. unfold is_accepted. destruct (unchecked_reads _ _ H) as [[F (x & Hx & Mx)]|[F (m & sp & Hx)]].
  - rewrite (accept_iff _ _ Hx), (wf_valid _ _ (unchecked_ok _ _ Hx)), Mx, settle_valid. tauto.
  - split; [|tauto]. intros [y Hy]. unfold parse_dbml in Hy. rewrite Hx in Hy. discriminate.
Qed.
Theorem accepted_valid t : is_accepted t <-> exists a, dbml_text t a /\ fits a /\ valid a.
Proof.
  split.
  - intros H. assert (Hx : exists x, parse_dbml_unchecked t = Some (Ok x)).
    { destruct H as [x Hx]. unfold parse_dbml in Hx. destruct (parse_dbml_unchecked t) as [[y|e|]|]; try discriminate. eauto. }
    destruct Hx as [x Hx]. destruct (accepts_iff _ _ Hx) as (a & Ha & _). exists a. split; [exact Ha|]. apply (accepted_says _ _ Ha). exact H.
  - intros (a & Ha & H). apply (accepted_says _ _ Ha). exact H.
Qed.
Lemma by_valid t1 t2 a b : dbml_text t1 a -> dbml_text t2 b -> (fits a -> fits b) -> (valid a -> valid b) -> is_accepted t1 -> is_accepted t2.
Proof. intros H1 H2 F V H. apply (accepted_says _ _ H1) in H as [Ha Hv]. apply (accepted_says _ _ H2). auto. Qed.

(** ** References from the other end *)
Lemma f2_app {A B} (R : A -> B -> Prop) a b c d : Forall2 R a b -> Forall2 R c d -> Forall2 R (a ++ c) (b ++ d).
Proof. apply Forall2_app. Qed.
Lemma pick_cons {A B} (f : A -> option B) a l : pick f (a :: l) = (match f a with Some b => [b] | None => [] end) ++ pick f l.
Proof. reflexivity. Qed.
Lemma pick_app {A B} (f : A -> option B) l l' : pick f (l ++ l') = pick f l ++ pick f l'.
Proof. apply flat_map_app. Qed.
Lemma turned_parts a b : turned_text a b ->
  projects_of b = projects_of a /\ tables_of b = tables_of a /\ enums_of b = enums_of a /\ groups_of b = groups_of a /\
  Forall2 (fun r r' => r' = r \/ r' = turned r) (refs_of a) (refs_of b).
Proof.
  unfold projects_of, tables_of, enums_of, groups_of, refs_of.
  induction 1 as [|x a b _ (H1 & H2 & H3 & H4 & H5)|r a b _ (H1 & H2 & H3 & H4 & H5)]; [repeat split; constructor| |]; rewrite !pick_cons, H1, H2, H3, H4; (repeat split; auto).
  - apply f2_app; [|exact H5]. destruct x; repeat constructor.
  - cbn [app]. constructor; [|exact H5]. right. reflexivity.
Qed.
Lemma turned_like a b : turned_text a b -> like_i a b.
Proof.
  intros H. destruct (turned_parts _ _ H) as (H1 & H2 & H3 & H4 & H5). constructor.
  - rewrite H1. auto.
  - rewrite H2. apply same_ex, f2_refl, table_refl.
  - rewrite H3. apply same_ex, f2_refl, enum_refl.
  - rewrite H4. apply same_ex, f2_refl, group_refl.
  - apply f2_forall with (1 := H5). intros r r' [->| ->]; auto.
  - apply same_ex. unfold links. rewrite H2. apply f2_app; [|apply links_refl]. unfold block_links. apply (proj2 (forall2_map_l _ _ _ _)), (proj2 (forall2_map_r _ _ _ _)).
    eapply f2_impl; [|exact H5]. intros r r' [->| ->]; [left|right]; rewrite link_i; reflexivity.
Qed.
Lemma turned_fits a b : turned_text a b -> fits a -> fits b.
Proof. unfold fits. induction 1 as [|x a b _ IH|r a b _ IH]; intros F; inversion F; subst; constructor; auto. Qed.
Lemma turned_sym a b : turned_text a b -> turned_text b a.
Proof.
  induction 1 as [|x a b _ IH|r a b _ IH]; [constructor|constructor; exact IH|].
  replace r with (turned (turned r)) at 2; [constructor; exact IH|]. destruct r as [n [] l r st]; reflexivity.
Qed.
Theorem turned_accepted t1 t2 a b : dbml_text t1 a -> dbml_text t2 b -> turned_text a b -> (is_accepted t1 <-> is_accepted t2).
Proof.
  intros H1 H2 T. split; [apply (by_valid _ _ _ _ H1 H2)|apply (by_valid _ _ _ _ H2 H1)].
  - apply turned_fits. exact T.
  - apply like_i_valid, turned_like. exact T.
  - apply turned_fits, turned_sym. exact T.
  - apply like_i_valid, turned_like, turned_sym. exact T.
Qed.

(** ** Inline references *)
Lemma col_same c st : col_attrs (mkCol (c_name c) (c_type c) st) = col_attrs c -> col_i c (mkCol (c_name c) (c_type c) st) /\ col_i (mkCol (c_name c) (c_type c) st) c.
Proof.
  intros E. unfold col_like, is_pk, is_unique. rewrite !E. cbn [c_name c_type]. unfold i_. split; repeat split; auto.
Qed.
Lemma perm_deep {A} (a b c d : list A) k : Permutation (a ++ (b ++ k :: c) ++ d) (k :: a ++ (b ++ c) ++ d).
Proof. rewrite <- !app_assoc. cbn [app]. rewrite !app_assoc. symmetry. rewrite <- !app_assoc. rewrite (app_assoc a b), (app_assoc a b). apply Permutation_middle. Qed.
Lemma moved_like a b : moved_out a b -> like_i a b /\ like_i b a.
Proof.
  intros [a1 a2 t l1 c l2 l r1 r r2 st n Et Ec Hst].
  set (c' := mkCol (c_name c) (c_type c) st). set (t' := with_cols t (l1 ++ c' :: l2)).
  assert (Ea : col_attrs c' = col_attrs c).
  { unfold col_attrs. rewrite Ec. cbn [c' c_settings]. destruct Hst as [->|(-> & -> & _)]; reflexivity. }
  assert (El : col_links c' = r1 ++ r2).
  { unfold col_links. cbn [c' c_settings]. destruct Hst as [->|(-> & _ & ->)]; reflexivity. }
  destruct (col_same c st Ea) as [C1 C2]. fold c' in C1, C2.
  assert (F1 : Forall2 col_i (t_cols t) (t_cols t')).
  { rewrite Et. cbn [t' with_cols t_cols]. apply f2_app; [apply f2_refl, col_refl|]. constructor; [exact C1|apply f2_refl, col_refl]. }
  assert (F2 : Forall2 col_i (t_cols t') (t_cols t)).
  { rewrite Et. cbn [t' with_cols t_cols]. apply f2_app; [apply f2_refl, col_refl|]. constructor; [exact C2|apply f2_refl, col_refl]. }
  assert (T1 : table_i t t').
  { unfold table_like. cbn [t' with_cols t_schema t_name t_alias t_settings]. rewrite !opt_i. repeat split; auto; [apply same_ex; exact F1|apply f2_refl, idx_refl]. }
  assert (T2 : table_i t' t).
  { unfold table_like. cbn [t' with_cols t_schema t_name t_alias t_settings]. rewrite !opt_i. repeat split; auto; [apply same_ex; exact F2|apply f2_refl, idx_refl]. }
  set (k := mkLink (fst r) (mkEnd (t_schema t) (t_name t) [c_name c]) (snd r)).
  assert (Lk : Permutation (table_links t) (k :: table_links t')).
  { unfold table_links. rewrite Et. cbn [t' with_cols t_cols t_schema t_name]. rewrite !flat_map_app. cbn [flat_map]. rewrite El. cbn [c' c_name].
    replace (col_links c) with (r1 ++ r :: r2) by (unfold col_links; rewrite Ec; reflexivity). rewrite !map_app. cbn [map]. fold k.
    apply perm_deep. }
  set (f := ARef (mkARef n (fst r) (mkEnd (t_schema t) (t_name t) [c_name c]) (snd r) None)).
  assert (P : Permutation (links (a1 ++ ATable t :: a2)) (links ((a1 ++ ATable t' :: a2) ++ [f]))).
  { unfold links, block_links, refs_of, tables_of. rewrite !pick_app, !pick_cons. cbn [app pick flat_map f]. rewrite !app_nil_r, !map_app. cbn [map f_rel f_lhs f_rhs]. fold k.
    rewrite !flat_map_app. cbn [flat_map]. rewrite Lk. rewrite <- !app_assoc. cbn [app]. do 2 apply Permutation_app_head. symmetry. apply Permutation_middle. }
  assert (Ep : projects_of ((a1 ++ ATable t' :: a2) ++ [f]) = projects_of (a1 ++ ATable t :: a2)).
  { unfold projects_of. rewrite !pick_app, !pick_cons. cbn [app pick flat_map f]. apply app_nil_r. }
  assert (Ee : enums_of ((a1 ++ ATable t' :: a2) ++ [f]) = enums_of (a1 ++ ATable t :: a2)).
  { unfold enums_of. rewrite !pick_app, !pick_cons. cbn [app pick flat_map f]. apply app_nil_r. }
  assert (Eg : groups_of ((a1 ++ ATable t' :: a2) ++ [f]) = groups_of (a1 ++ ATable t :: a2)).
  { unfold groups_of. rewrite !pick_app, !pick_cons. cbn [app pick flat_map f]. apply app_nil_r. }
  assert (Er : refs_of ((a1 ++ ATable t' :: a2) ++ [f]) = refs_of (a1 ++ ATable t :: a2) ++ [mkARef n (fst r) (mkEnd (t_schema t) (t_name t) [c_name c]) (snd r) None]).
  { unfold refs_of. rewrite !pick_app, !pick_cons. reflexivity. }
  assert (Eb : tables_of ((a1 ++ ATable t' :: a2) ++ [f]) = tables_of a1 ++ t' :: tables_of a2).
  { unfold tables_of. rewrite !pick_app, !pick_cons. cbn [app pick flat_map f]. apply app_nil_r. }
  assert (Et' : tables_of (a1 ++ ATable t :: a2) = tables_of a1 ++ t :: tables_of a2).
  { unfold tables_of. rewrite !pick_app, !pick_cons. reflexivity. }
  split; constructor.
  - rewrite Ep. auto.
  - apply same_ex. rewrite Et', Eb. apply f2_app; [apply f2_refl, table_refl|]. constructor; [exact T1|apply f2_refl, table_refl].
  - rewrite Ee. apply same_ex, f2_refl, enum_refl.
  - rewrite Eg. apply same_ex, f2_refl, group_refl.
  - rewrite Er. intros H. apply Forall_app. split; [exact H|]. constructor; [|constructor]. intros l0 E0. discriminate.
  - exists (links ((a1 ++ ATable t' :: a2) ++ [f])). split; [exact P|apply links_refl].
  - rewrite Ep. auto.
  - apply same_ex. rewrite Et', Eb. apply f2_app; [apply f2_refl, table_refl|]. constructor; [exact T2|apply f2_refl, table_refl].
  - rewrite Ee. apply same_ex, f2_refl, enum_refl.
  - rewrite Eg. apply same_ex, f2_refl, group_refl.
  - rewrite Er. intros H. apply Forall_app in H. apply H.
  - exists (links (a1 ++ ATable t :: a2)). split; [symmetry; exact P|apply links_refl].
Qed.
Lemma moved_fits a b : moved_out a b -> (fits a <-> fits b).
Proof.
  intros [a1 a2 t l1 c l2 l r1 r r2 st n Et Ec Hst]. unfold fits. rewrite !Forall_app, !Forall_cons_iff.
  assert (E : fits_block (ATable (with_cols t (l1 ++ mkCol (c_name c) (c_type c) st :: l2))) <-> fits_block (ATable t)).
  { cbn [fits_block with_cols t_settings t_cols t_indexes]. rewrite Et, !Forall_app, !Forall_cons_iff.
    assert (F : fits_col (mkCol (c_name c) (c_type c) st) <-> fits_col c).
    { unfold fits_col. cbn [c_type c_settings]. rewrite Ec. destruct Hst as [->|(-> & -> & _)].
      - split; intros [A B]; (split; [exact A|]); intros y Ey; injection Ey as <-; apply (B _ eq_refl).
      - split; intros [A B]; (split; [exact A|]); intros y Ey; [injection Ey as <-; constructor|discriminate]. }
    rewrite F. reflexivity. }
  rewrite E. assert (F : fits_block (ARef (mkARef n (fst r) (mkEnd (t_schema t) (t_name t) [c_name c]) (snd r) None))).
  { split; [intros y Ey; discriminate|]. intros y k w Ey. discriminate. }
  split; [|tauto]. intros (A & B & C). split; [split; [exact A|split; [exact B|exact C]]|]. split; [exact F|constructor].
Qed.
Theorem moved_accepted t1 t2 a b : dbml_text t1 a -> dbml_text t2 b -> moved_out a b -> (is_accepted t1 <-> is_accepted t2).
Proof.
  intros H1 H2 T. destruct (moved_like _ _ T) as [L1 L2]. pose proof (moved_fits _ _ T) as F.
  split; [apply (by_valid _ _ _ _ H1 H2)|apply (by_valid _ _ _ _ H2 H1)]; try (apply like_i_valid; assumption); tauto.
Qed.

(** ** Order *)
Lemma once_perm l l' : Permutation l l' -> once l -> once l'.
Proof. intros P. unfold once. apply Permutation_NoDup. apply Permutation_map. exact P. Qed.
Lemma once_opt_perm o o' : same_attrs o o' -> once_opt o -> once_opt o'.
Proof.
  destruct o as [l|], o' as [l'|]; cbn [same_attrs]; intros P H y E; try discriminate; [|destruct P].
  injection E as <-. eapply once_perm; [exact P|]. apply H. reflexivity.
Qed.
Lemma has_perm k l l' : Permutation l l' -> (has k l <-> has k l').
Proof. intros P. unfold has. split; apply Permutation_in; apply Permutation_map; [exact P|symmetry; exact P]. Qed.
Lemma shuffled_col_like c c' : shuffled_col c c' -> col_i c c' /\ Permutation (col_attrs c) (col_attrs c') /\ Permutation (col_links c) (col_links c').
Proof.
  intros (E1 & E2 & H). assert (P : Permutation (col_attrs c) (col_attrs c') /\ Permutation (col_links c) (col_links c')).
  { unfold col_attrs, col_links. destruct (c_settings c), (c_settings c'); try tauto. split; reflexivity. }
  split; [|exact P]. destruct P as [P _]. unfold col_like, is_pk, is_unique. rewrite !(has_perm _ _ _ P), E1, E2. unfold i_. repeat split; auto; try tauto.
  - apply once_perm. exact P.
  - intros v. apply Permutation_in. symmetry. exact P.
Qed.
Lemma shuffled_idx_like d d' : shuffled_index d d' -> idx_i d d'.
Proof.
  intros (E1 & H). assert (P : Permutation (idx_attrs d) (idx_attrs d')).
  { unfold idx_attrs. destruct (x_settings d), (x_settings d'); cbn [same_attrs] in H; try tauto. reflexivity. }
  unfold idx_like, idx_pk, idx_unique, idx_typed. rewrite !(has_perm _ _ _ P). unfold idx_names. rewrite E1, map_i. repeat split; auto; try tauto.
  - apply once_perm. exact P.
  - intros (v & Hv). exists v. eapply Permutation_in; [symmetry; exact P|exact Hv].
  - intros k. unfold idx_kind, idx_attrs in *. destruct (x_settings d), (x_settings d'); cbn [same_attrs] in H; try tauto.
    intros (v & Hv & ->). exists v. split; [|reflexivity]. eapply Permutation_in; [symmetry; exact P|exact Hv].
Qed.
Lemma f2_last {A B} (R : A -> B -> Prop) l l' : Forall2 R l l' -> Forall2 R (last_only l) (last_only l').
Proof.
  induction 1 as [|a b l l' H H' IH]; [constructor|]. cbn [last_only]. inversion H'; subst; [repeat constructor; assumption|]. exact IH.
Qed.
Lemma f2_concat {A B} (R : A -> B -> Prop) l l' : Forall2 (Forall2 R) l l' -> Forall2 R (List.concat l) (List.concat l').
Proof. induction 1; cbn [List.concat]; [constructor|]. apply f2_app; assumption. Qed.
Lemma shuffled_links (mk : a_col -> a_inline -> link) l l' : (forall c c' r, c_name c = c_name c' -> mk c r = mk c' r) -> Forall2 shuffled_col l l' ->
  Permutation (flat_map (fun c => map (mk c) (col_links c)) l) (flat_map (fun c => map (mk c) (col_links c)) l').
Proof.
  intros Hm. induction 1 as [|c c' l l' H _ IH]; [reflexivity|]. cbn [flat_map]. apply Permutation_app; [|exact IH].
  destruct (shuffled_col_like _ _ H) as (_ & _ & P). destruct H as (E & _). rewrite (map_ext (mk c) (mk c')); [|intros r; apply Hm; exact E].
  apply Permutation_map. exact P.
Qed.
Definition shuffled_t (t t' : a_table) : Prop := table_i t t' /\ Permutation (table_links t) (table_links t').
Lemma shuffled_table_like sc n al st st' cols cols1 cols' ns ixs ixs' : same_attrs st st' -> Permutation cols cols1 -> Forall2 shuffled_col cols1 cols' ->
    Forall2 (Forall2 shuffled_index) ixs ixs' -> shuffled_t (mkATable sc n al st cols ns ixs) (mkATable sc n al st' cols' ns ixs').
Proof.
  intros H1 H2 H3 H4. split.
  - unfold table_like, defs_of. cbn [t_schema t_name t_alias t_settings t_cols t_indexes]. rewrite !opt_i. repeat split; auto.
    + apply once_opt_perm. exact H1.
    + exists cols1. split; [exact H2|]. eapply f2_impl; [|exact H3]. intros c c' H. apply shuffled_col_like. exact H.
    + apply f2_concat, f2_last. eapply f2_impl; [|exact H4]. intros l l' H. eapply f2_impl; [|exact H]. apply shuffled_idx_like.
  - unfold table_links. cbn [t_schema t_name t_cols]. etransitivity; [apply perm_flat_map; exact H2|].
    apply (shuffled_links (fun c r => mkLink (fst r) (mkEnd sc n [c_name c]) (snd r))); [|exact H3]. intros c c' r ->. reflexivity.
Qed.
Lemma shuffled_enum_like sc n l l1 l' : Permutation l l1 -> Forall2 (fun v v' => fst v = fst v' /\ same_attrs (snd v) (snd v')) l1 l' ->
  enum_like (mkAEnum sc n l) (mkAEnum sc n l').
Proof.
  intros P F. unfold enum_like. cbn [m_values].
  assert (E : map fst l1 = map fst l') by (eapply f2_map_eq; [exact F|]; intros a b H; apply H).
  assert (Q : Permutation (map fst l) (map fst l')) by (rewrite <- E; apply Permutation_map; exact P).
  repeat split.
  - apply Permutation_in. exact Q.
  - apply Permutation_in. symmetry. exact Q.
  - apply Permutation_NoDup. exact Q.
  - intros H. eapply f2_forall; [exact F| |eapply Permutation_Forall; [exact P|exact H]]. intros a b [_ H1]. apply once_opt_perm. exact H1.
Qed.
Lemma shuffled_parts m b : Forall2 shuffled m b ->
  Forall2 (fun p p' => Permutation (p_props p) (p_props p')) (projects_of m) (projects_of b) /\
  Forall2 shuffled_t (tables_of m) (tables_of b) /\ Forall2 enum_like (enums_of m) (enums_of b) /\
  Forall2 (group_like i_ i_) (groups_of m) (groups_of b) /\
  Forall2 (fun r r' => (once_opt (f_settings r) -> once_opt (f_settings r')) /\ f_rel r = f_rel r' /\ f_lhs r = f_lhs r' /\ f_rhs r = f_rhs r') (refs_of m) (refs_of b).
Proof.
  unfold projects_of, tables_of, enums_of, groups_of, refs_of.
  induction 1 as [|x y m b H _ (H1 & H2 & H3 & H4 & H5)]; [repeat split; constructor|]. rewrite !pick_cons.
  destruct H; cbn [app]; (split; [|split; [|split; [|split]]]); try assumption; (constructor; [|assumption]).
  - exact H.
  - eapply shuffled_table_like; eassumption.
  - unfold group_like. cbn [g_name g_items]. rewrite item_i. auto.
  - cbn [f_settings f_rel f_lhs f_rhs]. repeat split; auto. apply once_opt_perm. exact H.
  - eapply shuffled_enum_like; eassumption.
Qed.
Lemma perm_pick {A B} (f : A -> option B) l l' : Permutation l l' -> Permutation (pick f l) (pick f l').
Proof. apply perm_flat_map. Qed.
Lemma f2_perm_flat {A B C} (R : A -> B -> Prop) (f : A -> list C) (g : B -> list C) l l' : Forall2 R l l' -> (forall a b, R a b -> Permutation (f a) (g b)) ->
  Permutation (flat_map f l) (flat_map g l').
Proof. intros H K. induction H; cbn [flat_map]; [reflexivity|]. apply Permutation_app; auto. Qed.
Lemma reordered_like a b : reordered a b -> like_i a b.
Proof.
  intros (m & P & F). destruct (shuffled_parts _ _ F) as (H1 & H2 & H3 & H4 & H5). constructor.
  - intros (p & Ep & Hn). assert (Em : projects_of m = [p]).
    { apply Permutation_length_1_inv. rewrite <- Ep. unfold projects_of. apply perm_pick. exact P. }
    rewrite Em in H1. inversion H1 as [|? p' ? l' Hp H1' E1 E2]. subst. inversion H1'. subst. exists p'. split; [reflexivity|].
    eapply Permutation_NoDup; [apply Permutation_map; exact Hp|exact Hn].
  - exists (tables_of m). split; [apply perm_pick; exact P|]. eapply f2_impl; [|exact H2]. intros t t' H. apply H.
  - exists (enums_of m). split; [apply perm_pick; exact P|exact H3].
  - exists (groups_of m). split; [apply perm_pick; exact P|exact H4].
  - intros H. eapply f2_forall; [exact H5| |eapply Permutation_Forall; [apply (perm_pick _ _ _ P)|exact H]]. intros r r' K. apply K.
  - exists (links b). split; [|apply links_refl]. unfold links. apply Permutation_app.
    + unfold block_links. etransitivity; [apply Permutation_map; apply (perm_pick _ _ _ P)|].
      fold (refs_of m). rewrite (f2_map_eq (fun r => mkLink (f_rel r) (f_lhs r) (f_rhs r)) (fun r => mkLink (f_rel r) (f_lhs r) (f_rhs r)) _ _ _ H5); [reflexivity|].
      intros r r' (_ & -> & -> & ->). reflexivity.
    + etransitivity; [apply perm_flat_map, (perm_pick _ _ _ P)|]. eapply f2_perm_flat; [exact H2|]. intros t t' H. apply H.
Qed.
Lemma fits_attrs_perm o o' : same_attrs o o' -> fits_attrs o -> fits_attrs o'.
Proof.
  destruct o as [l|], o' as [l'|]; cbn [same_attrs]; intros P H y E; try discriminate; [|destruct P].
  injection E as <-. eapply Permutation_Forall; [exact P|]. apply H. reflexivity.
Qed.
Lemma reordered_fits a b : reordered a b -> fits a -> fits b.
Proof.
  intros (m & P & F) H. unfold fits in *. eapply f2_forall; [exact F| |eapply Permutation_Forall; [exact P|exact H]].
  clear. intros x y [n ps ps' ns H|sc n al st st' cols cols1 cols' ns ixs ixs' H1 H2 H3 H4|n st st' ns l l' H1 H2|v|n rl e e' st st' H|sc n l l1 l' H1 H2]; cbn [fits_block p_props t_settings t_cols t_indexes g_settings m_values].
  - intros K. eapply Permutation_Forall; eassumption.
  - intros (K1 & K2 & K3). split; [eapply fits_attrs_perm; eassumption|]. split.
    + eapply f2_forall; [exact H3| |eapply Permutation_Forall; [exact H2|exact K2]]. intros c c' (_ & E & K) [A B]. split; [rewrite <- E; exact A|].
      intros st0 E0. rewrite E0 in K. destruct (c_settings c) as [z|]; [|tauto]. eapply Permutation_Forall; [apply K|]. apply B. reflexivity.
    + eapply f2_forall; [exact H4| |exact K3]. intros ix ix' H K. eapply f2_forall; [exact H| |exact K]. intros d d' [_ E] [A B]. split; [eapply fits_attrs_perm; eassumption|].
      intros l0 v E0 Hi. rewrite E0 in E. destruct (x_settings d) as [z|]; cbn [same_attrs] in E; [|tauto]. apply (B z v eq_refl). eapply Permutation_in; [symmetry; exact E|exact Hi].
  - apply fits_attrs_perm. exact H1.
  - auto.
  - intros [A B]. split; [eapply fits_attrs_perm; [exact H|exact A]|]. cbn [f_settings] in *. intros l0 k w E0 Hk Hi. rewrite E0 in H. destruct st as [z|]; cbn [same_attrs] in H; [|tauto].
    apply (B z k w eq_refl Hk). eapply Permutation_in; [symmetry; exact H|exact Hi].
  - intros K. eapply f2_forall; [exact H2| |eapply Permutation_Forall; [exact H1|exact K]]. intros v v' [_ E]. apply fits_attrs_perm. exact E.
Qed.
Theorem reordered_accepted t1 t2 a b : dbml_text t1 a -> dbml_text t2 b -> reordered a b -> is_accepted t1 -> is_accepted t2.
Proof. intros H1 H2 T. apply (by_valid _ _ _ _ H1 H2); [apply reordered_fits; exact T|apply like_i_valid, reordered_like; exact T]. Qed.

(** ** Annotations *)
Lemma edited_has ks l l' k : edited ks l l' -> In k ks -> (has k l <-> has k l').
Proof.
  intros [_ H] Hk. unfold has. rewrite !in_map_iff. split; intros ([k' v] & E & Hi); cbn [fst] in E; subst k'; exists (s k, v); (split; [reflexivity|]); apply (H k v Hk); exact Hi.
Qed.
Lemma col_edited_like c c' : col_edited c c' -> col_i c c'.
Proof.
  intros (E1 & E2 & _ & H). pose proof (fun k => edited_has _ _ _ k H) as K. unfold col_like, is_pk, is_unique. rewrite E1, E2. unfold i_.
  rewrite (K "pk"%string), (K "primary key"%string), (K "unique"%string), (K "null"%string), (K "not null"%string) by (cbn; tauto).
  destruct H as [Ho H]. repeat split; auto; try tauto. intros v Hv. apply (H "default"%string); [cbn; tauto|exact Hv].
Qed.
Lemma index_edited_like d d' : index_edited d d' -> idx_i d d'.
Proof.
  intros (E1 & E2 & H). pose proof (fun k => edited_has _ _ _ k H) as K. unfold idx_like, idx_pk, idx_unique, idx_names. rewrite E1, map_i.
  rewrite (K "pk"%string), (K "unique"%string) by (cbn; tauto).
  destruct H as [Ho H]. assert (T : forall v, In (s "type", Some v) (idx_attrs d') -> In (s "type", Some v) (idx_attrs d)) by (intros v Hv; apply (H "type"%string); [cbn; tauto|exact Hv]).
  repeat split; auto; try tauto.
  - intros (v & Hv). exists v. auto.
  - intros k. unfold idx_kind, idx_attrs in *. destruct (x_settings d) as [l|], (x_settings d') as [l'|].
    + intros (v & Hv & ->). exists v. auto.
    + pose proof (proj2 E2 eq_refl). discriminate.
    + pose proof (proj1 E2 eq_refl). discriminate.
    + auto.
Qed.
Lemma reannotated_like a b : reannotated a b -> like_i a b.
Proof.
  intros [R1 R2 R3 R4 R5]. constructor.
  - intros _. exact R1.
  - apply same_ex. eapply f2_impl; [|exact R2]. intros t t' (E1 & E2 & E3 & H1 & H2 & H3). unfold table_like. rewrite E1, E2, E3, !opt_i. unfold i_. repeat split; auto.
    + apply same_ex. eapply f2_impl; [|exact H2]. apply col_edited_like.
    + eapply f2_impl; [|exact H3]. apply index_edited_like.
  - apply same_ex. eapply f2_impl; [|exact R3]. intros e e' (E1 & E2 & E3 & H). unfold enum_like, ename. rewrite E1, E2, E3. repeat split; auto.
  - apply same_ex. eapply f2_impl; [|exact R4]. intros g g' (E1 & E2). unfold group_like. rewrite item_i, E1, E2. split; reflexivity.
  - intros _. clear -R5. induction R5 as [|r r' l l' H _ IH]; constructor; [apply H|exact IH].
  - apply same_ex. unfold links. apply f2_app.
    + unfold block_links. rewrite (f2_map_eq (fun r => mkLink (f_rel r) (f_lhs r) (f_rhs r)) (fun r => mkLink (f_rel r) (f_lhs r) (f_rhs r)) _ _ _ R5); [apply links_refl|].
      intros r r' (-> & -> & -> & _). reflexivity.
    + replace (flat_map table_links (tables_of b)) with (flat_map table_links (tables_of a)); [apply links_refl|].
      clear -R2. induction R2 as [|t t' l l' (E1 & E2 & _ & _ & H & _) _ IH]; [reflexivity|]. cbn [flat_map]. rewrite IH. f_equal. unfold table_links. rewrite E1, E2.
      clear -H. induction H as [|c c' l l' (E3 & _ & E4 & _) _ IH]; [reflexivity|]. cbn [flat_map]. rewrite IH, E3, E4. reflexivity.
Qed.
Theorem reannotated_accepted t1 t2 a b : dbml_text t1 a -> dbml_text t2 b -> reannotated a b -> fits b -> is_accepted t1 -> is_accepted t2.
Proof. intros H1 H2 T F. apply (by_valid _ _ _ _ H1 H2); [auto|apply like_i_valid, reannotated_like; exact T]. Qed.

(** ** Renaming *)
Lemma pick_rename {B} (f g : a_block -> option B) (h : B -> B) rs rt rc a :
  (forall x, g (rn_block rs rt rc x) = option_map h (f x)) -> pick g (rename rs rt rc a) = map h (pick f a).
Proof.
  intros H. unfold rename. induction a as [|x a IH]; [reflexivity|]. cbn [map]. rewrite !pick_cons, IH, map_app, H. destruct (f x); reflexivity.
Qed.
Definition rn_table rs rt rc (t : a_table) : a_table :=
  mkATable (option_map rs (t_schema t)) (rt (t_name t)) (option_map rt (t_alias t)) (t_settings t)
        (map (rn_col rs rt rc) (t_cols t)) (t_notes t) (map (map (rn_index rc)) (t_indexes t)).
Definition rn_group rs rt (g : a_group) : a_group := mkAGroup (g_name g) (g_settings g) (g_notes g) (map (fun d => (option_map rs (fst d), rt (snd d))) (g_items g)).
Definition rn_ref rs rt rc (r : a_ref) : a_ref := mkARef (f_name r) (f_rel r) (rn_end rs rt rc (f_lhs r)) (rn_end rs rt rc (f_rhs r)) (f_settings r).
Lemma rename_parts rs rt rc a :
  projects_of (rename rs rt rc a) = projects_of a /\ tables_of (rename rs rt rc a) = map (rn_table rs rt rc) (tables_of a) /\
  enums_of (rename rs rt rc a) = enums_of a /\ groups_of (rename rs rt rc a) = map (rn_group rs rt) (groups_of a) /\
  refs_of (rename rs rt rc a) = map (rn_ref rs rt rc) (refs_of a).
Proof.
  unfold projects_of, tables_of, enums_of, groups_of, refs_of. repeat split.
  - rewrite <- (map_id (pick _ a)). apply pick_rename. intros []; reflexivity.
  - apply pick_rename. intros []; reflexivity.
  - rewrite <- (map_id (pick _ a)). apply pick_rename. intros []; reflexivity.
  - apply pick_rename. intros []; reflexivity.
  - apply pick_rename. intros []; reflexivity.
Qed.
Lemma last_only_map {A B} (f : A -> B) l : last_only (map f l) = map f (last_only l).
Proof. induction l as [|a l IH]; [reflexivity|]. cbn [map last_only]. destruct l as [|b l]; [reflexivity|]. exact IH. Qed.
Lemma rn_table_like rs rt rc t : table_like rs rt rc t (rn_table rs rt rc t).
Proof.
  unfold table_like, rn_table. cbn [t_schema t_name t_alias t_settings t_cols]. repeat split; auto.
  - exists (t_cols t). split; [reflexivity|]. apply f2_eq_map. intros c _. unfold col_like, rn_col, is_pk, is_unique, col_attrs.
    cbn [c_name c_type c_settings]. destruct (c_settings c); cbn [option_map s_attrs]; repeat split; auto; tauto.
  - unfold defs_of. cbn [t_indexes]. rewrite last_only_map, <- concat_map. apply f2_eq_map. intros d _. unfold idx_like, idx_pk, idx_unique, idx_typed, idx_kind, idx_attrs, rn_index. cbn [x_cols x_settings].
    rewrite map_length. repeat split; auto.
    unfold idx_names. cbn [x_cols]. induction (x_cols d) as [|[w|v] l IH]; [reflexivity| |]; cbn [map]; rewrite !pick_cons; cbn [app map]; rewrite IH; reflexivity.
Qed.
Lemma rename_like rs rt rc a : like rs rt rc a (rename rs rt rc a).
Proof.
  destruct (rename_parts rs rt rc a) as (Ep & Et & Ee & Eg & Er). constructor.
  - rewrite Ep. auto.
  - rewrite Et. exists (tables_of a). split; [reflexivity|]. apply f2_eq_map. intros t _. apply rn_table_like.
  - rewrite Ee. apply same_ex, f2_refl, enum_refl.
  - rewrite Eg. exists (groups_of a). split; [reflexivity|]. apply f2_eq_map. intros g _. split; reflexivity.
  - rewrite Er. intros H. apply Forall_map. exact H.
  - exists (links a). split; [reflexivity|]. unfold links, block_links. rewrite Et, Er. apply f2_app.
    + rewrite map_map. clear. induction (refs_of a) as [|r l IH]; cbn [map]; constructor; [left; reflexivity|exact IH].
    + rewrite !flat_map_concat_map, map_map. apply f2_concat. clear. induction (tables_of a) as [|t l IH]; cbn [map]; constructor; [|exact IH].
      unfold table_links, rn_table. cbn [t_schema t_name t_cols]. rewrite !flat_map_concat_map, map_map. apply f2_concat.
      clear l IH. induction (t_cols t) as [|c l IH]; cbn [map]; constructor; [|exact IH]. unfold col_links, rn_col. cbn [c_name c_settings].
      destruct (c_settings c) as [st|]; cbn [option_map s_refs]; [|constructor]. rewrite map_map.
      induction (s_refs st) as [|r l0 IHr]; cbn [map]; constructor; [left; reflexivity|exact IHr].
Qed.
Lemma rename_fits rs rt rc a : fits (rename rs rt rc a) <-> fits a.
Proof.
  unfold fits, rename. rewrite Forall_map. apply forall_iff_in. intros x _. destruct x as [p|t|g|n|r|e]; cbn [rn_block fits_block g_settings]; try reflexivity.
  cbn [t_settings t_cols t_indexes]. rewrite !Forall_map.
  assert (A : Forall (fun x => fits_col (rn_col rs rt rc x)) (t_cols t) <-> Forall fits_col (t_cols t)).
  { apply forall_iff_in. intros c _. unfold fits_col, rn_col. cbn [c_type c_settings]. destruct (c_settings c) as [st|]; cbn [option_map].
    - split; intros [A B]; (split; [exact A|]); intros y E; injection E as <-; apply (B _ eq_refl).
    - split; intros [A B]; (split; [exact A|]); intros y E; discriminate. }
  rewrite A. match goal with |- _ /\ _ /\ ?X <-> _ /\ _ /\ ?Y => assert (B : X <-> Y) end.
  { apply forall_iff_in. intros l _. rewrite Forall_map. reflexivity. }
  rewrite B. reflexivity.
Qed.
Theorem renamed_accepted rs rt rc t1 t2 a : proper_renaming rs rt rc -> dbml_text t1 a -> dbml_text t2 (rename rs rt rc a) -> is_accepted t1 -> is_accepted t2.
Proof.
  intros (I1 & I2 & I3 & I4) H1 H2. apply (by_valid _ _ _ _ H1 H2); [apply rename_fits|]. apply (like_valid rs rt rc); auto. apply rename_like.
Qed.

Lemma rename_back rs rt rc rs' rt' rc' a : (forall x, rs' (rs x) = x) -> (forall x, rt' (rt x) = x) -> (forall x, rc' (rc x) = x) ->
  rename rs' rt' rc' (rename rs rt rc a) = a.
Proof.
  intros Es Et Ec. unfold rename. rewrite map_map. rewrite <- (map_id a) at 2. apply map_ext. 
  assert (Eo : forall o, option_map rs' (option_map rs o) = o) by (intros [x|]; cbn; [rewrite Es|]; reflexivity).
  assert (El : forall l, map rc' (map rc l) = l) by (intros l; rewrite map_map; rewrite <- (map_id l) at 2; apply map_ext; exact Ec).
  assert (Ee : forall e, rn_end rs' rt' rc' (rn_end rs rt rc e) = e) by (intros [x y z]; unfold rn_end; cbn [e_schema e_table e_cols]; rewrite Eo, Et, El; reflexivity).
  intros [p|[sc n al st cols ns ixs]|[n st ns l]|n|[n rl e e' st]|e]; cbn [rn_block]; try reflexivity.
  - cbn [t_schema t_name t_alias t_settings t_cols t_notes t_indexes]. rewrite Eo, Et, !map_map. f_equal. f_equal.
    + destruct al as [x|]; cbn [option_map]; [rewrite Et|]; reflexivity.
    + rewrite <- (map_id cols) at 2. apply map_ext. intros [w ty [[l rr]|]]; unfold rn_col; cbn [c_name c_type c_settings option_map s_attrs s_refs]; rewrite Ec; [|reflexivity].
      rewrite map_map. do 3 f_equal. rewrite <- (map_id rr) at 2. apply map_ext. intros [k e]. cbn [fst snd]. rewrite Ee. reflexivity.
    + rewrite <- (map_id ixs) at 2. apply map_ext. intros l. rewrite map_map. rewrite <- (map_id l) at 2. apply map_ext. intros [cs0 st0]. unfold rn_index. cbn [x_cols x_settings].
      rewrite map_map. f_equal. rewrite <- (map_id cs0) at 2. apply map_ext. intros [w|v]; [rewrite Ec|]; reflexivity.
  - cbn [g_name g_settings g_notes g_items]. rewrite map_map. do 2 f_equal. rewrite <- (map_id l) at 2. apply map_ext. intros [o w]. cbn [fst snd]. rewrite Eo, Et. reflexivity.
  - cbn [f_name f_rel f_lhs f_rhs f_settings]. rewrite !Ee. reflexivity.
Qed.
Theorem renamed_accepted_iff rs rt rc rs' rt' rc' t1 t2 a : undoes rs rs' -> undoes rt rt' -> undoes rc rc' -> rs (s "public") = s "public" ->
  dbml_text t1 a -> dbml_text t2 (rename rs rt rc a) -> (is_accepted t1 <-> is_accepted t2).
Proof.
  intros Es Et Ec Ip H1 H2.
  assert (IJ : forall f g, undoes f g -> injective f /\ injective g).
  { intros f g H. split; intros x y E; [rewrite <- (proj1 (H x)), <- (proj1 (H y))|rewrite <- (proj2 (H x)), <- (proj2 (H y))]; rewrite E; reflexivity. }
  split.
  - apply (renamed_accepted rs rt rc _ _ a); auto. repeat split; [apply (IJ _ _ Es)|apply (IJ _ _ Et)|apply (IJ _ _ Ec)|exact Ip].
  - apply (renamed_accepted rs' rt' rc' _ _ (rename rs rt rc a)); auto.
    + repeat split; [apply (IJ _ _ Es)|apply (IJ _ _ Et)|apply (IJ _ _ Ec)|]. rewrite <- Ip at 1. apply Es.
    + rewrite rename_back; auto; intros x; [apply Es|apply Et|apply Ec].
Qed.
