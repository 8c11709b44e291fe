(** * Like: schemas that differ only in what validity does not see are equally valid.

    One congruence for renaming, reordering, annotations and the notation of
    references; the statements built on it are in [Variants]. *)

From Verif Require Import Rules RulesOk ValidityOk.
From Verif Require Import Err Analyzer Api Answer.
From Verif Require Import Validity.

Lemma nodup_map_inj {A B} (f : A -> B) l : (forall x y, f x = f y -> x = y) -> NoDup l -> NoDup (map f l).
Proof.
  intros H. induction 1 as [|a l Ha _ IH]; cbn [map]; constructor; [|exact IH]. intros Hi. apply in_map_iff in Hi as (b & E & Hb). apply H in E. congruence.
Qed.
Lemma f2_map_eq {A B C} (f : A -> C) (g : B -> C) (R : A -> B -> Prop) l l' : Forall2 R l l' -> (forall a b, R a b -> f a = g b) -> map f l = map g l'.
Proof. intros H K. induction H as [|a b l l' H _ IH]; [reflexivity|]. cbn [map]. f_equal; [apply K; exact H|exact IH]. Qed.
Lemma f2_in_r {A B} (R : A -> B -> Prop) l l' b : Forall2 R l l' -> In b l' -> exists a, In a l /\ R a b.
Proof. intros H. induction H as [|a c l l' H _ IH]; intros Hb; [destruct Hb|]. destruct Hb as [<-|Hb]; [exists a; split; [left|]; auto|]. destruct (IH Hb) as (x & H1 & H2). exists x. split; [right|]; auto. Qed.
Lemma f2_in_l {A B} (R : A -> B -> Prop) l l' a : Forall2 R l l' -> In a l -> exists b, In b l' /\ R a b.
Proof. intros H. induction H as [|c b l l' H _ IH]; intros Hb; [destruct Hb|]. destruct Hb as [<-|Hb]; [exists b; split; [left|]; auto|]. destruct (IH Hb) as (x & H1 & H2). exists x. split; [right|]; auto. Qed.
Lemma f2_split_r {A B} (R : A -> B -> Prop) l l1 b l2 : Forall2 R l (l1 ++ b :: l2) ->
  exists m1 a m2, l = m1 ++ a :: m2 /\ Forall2 R m1 l1 /\ R a b /\ Forall2 R m2 l2.
Proof.
  intros H. apply Forall2_app_inv_r in H as (m1 & m & H1 & H2 & ->). inversion H2 as [|a ? m2 ? H3 H4]; subst. exists m1, a, m2. auto.
Qed.
Lemma f2_forall {A B} (R : A -> B -> Prop) (P : A -> Prop) (Q : B -> Prop) l l' : Forall2 R l l' -> (forall a b, R a b -> P a -> Q b) -> Forall P l -> Forall Q l'.
Proof. intros H K. induction H as [|a b l l' H _ IH]; intros HF; inversion HF; subst; constructor; eauto. Qed.

Lemma f2_len {A B} (R : A -> B -> Prop) l l' : Forall2 R l l' -> List.length l = List.length l'.
Proof. induction 1; cbn; congruence. Qed.

Section Like.
  (** Renamings of schemas, of tables (and aliases) and of columns. *)
  Variables rs rt rc : str -> str.
  Hypothesis Is : forall x y, rs x = rs y -> x = y.
  Hypothesis It : forall x y, rt x = rt y -> x = y.
  Hypothesis Ic : forall x y, rc x = rc y -> x = y.
  Hypothesis Ip : rs (s "public") = s "public".

  Definition col_like (c c' : a_col) : Prop :=
    c_name c' = rc (c_name c) /\ c_type c' = c_type c /\ (once (col_attrs c) -> once (col_attrs c')) /\
    (is_pk c <-> is_pk c') /\ (is_unique c <-> is_unique c') /\
    (has "null" (col_attrs c) <-> has "null" (col_attrs c')) /\ (has "not null" (col_attrs c) <-> has "not null" (col_attrs c')) /\
    (forall v, In (s "default", Some v) (col_attrs c') -> In (s "default", Some v) (col_attrs c)).
  Definition idx_like (d d' : a_index) : Prop :=
    List.length (x_cols d') = List.length (x_cols d) /\ idx_names d' = map rc (idx_names d) /\
    (once (idx_attrs d) -> once (idx_attrs d')) /\ (idx_pk d <-> idx_pk d') /\ (idx_unique d <-> idx_unique d') /\
    (idx_typed d' -> idx_typed d) /\ (forall k, idx_kind d' k -> idx_kind d k).
  Definition table_like (t t' : a_table) : Prop :=
    t_schema t' = option_map rs (t_schema t) /\ t_name t' = rt (t_name t) /\ t_alias t' = option_map rt (t_alias t) /\
    (once_opt (t_settings t) -> once_opt (t_settings t')) /\
    (exists l, Permutation (t_cols t) l /\ Forall2 col_like l (t_cols t')) /\
    Forall2 idx_like (defs_of t) (defs_of t').
  Definition ren_end (e : a_end) : a_end := mkEnd (option_map rs (e_schema e)) (rt (e_table e)) (map rc (e_cols e)).
  Definition ren_link (k : link) : link := mkLink (k_rel k) (ren_end (k_lhs k)) (ren_end (k_rhs k)).
  Definition flip (r : relation_t) : relation_t := match r with One2Many => Many2One | Many2One => One2Many | _ => r end.
  Definition mirror (k : link) : link := mkLink (flip (k_rel k)) (k_rhs k) (k_lhs k).
  Definition link_like (k k' : link) : Prop := k' = ren_link k \/ k' = mirror (ren_link k).
  Definition enum_like (e e' : a_enum) : Prop :=
    ename e' = ename e /\ (forall w, In w (map fst (m_values e)) <-> In w (map fst (m_values e'))) /\
    (NoDup (map fst (m_values e)) -> NoDup (map fst (m_values e'))) /\
    (Forall (fun v => once_opt (snd v)) (m_values e) -> Forall (fun v => once_opt (snd v)) (m_values e')).
  Definition ren_item (d : option str * str) : option str * str := (option_map rs (fst d), rt (snd d)).
  Definition group_like (g g' : a_group) : Prop := g_name g' = g_name g /\ Permutation (map ren_item (g_items g)) (g_items g').
  Record like (a b : a_schema) : Prop := {
    lk_project : (exists p, projects_of a = [p] /\ NoDup (map fst (p_props p))) -> exists p, projects_of b = [p] /\ NoDup (map fst (p_props p));
    lk_tables : exists l, Permutation (tables_of a) l /\ Forall2 table_like l (tables_of b);
    lk_enums : exists l, Permutation (enums_of a) l /\ Forall2 enum_like l (enums_of b);
    lk_groups : exists l, Permutation (groups_of a) l /\ Forall2 group_like l (groups_of b);
    lk_refs : Forall (fun r => once_opt (f_settings r)) (refs_of a) -> Forall (fun r => once_opt (f_settings r)) (refs_of b);
    lk_links : exists l, Permutation (links a) l /\ Forall2 link_like l (links b) }.

  Lemma ren_public o : in_public (option_map rs o) = rs (in_public o).
  Proof. destruct o; cbn [option_map in_public]; [reflexivity|symmetry; exact Ip]. Qed.
  Definition ren_pair (p : str * str) : str * str := (rs (fst p), rt (snd p)).
  Lemma ren_pair_inj x y : ren_pair x = ren_pair y -> x = y.
  Proof. destruct x, y. unfold ren_pair. cbn. intros E. injection E as E1 E2. apply Is in E1. apply It in E2. congruence. Qed.
  Lemma like_tname t t' : table_like t t' -> tname t' = ren_pair (tname t).
  Proof. intros (H1 & H2 & _). unfold tname, ren_pair. rewrite H1, H2, ren_public. reflexivity. Qed.
  Lemma option_rs_inj x y : option_map rs x = option_map rs y -> x = y.
  Proof. destruct x, y; cbn; intros E; try discriminate; [|reflexivity]. injection E as E. apply Is in E. congruence. Qed.

  Section Tables.
    Variables ts ts' : list a_table.
    Hypothesis T1 : forall t, In t ts -> exists t', In t' ts' /\ table_like t t'.
    Hypothesis T2 : forall t', In t' ts' -> exists t, In t ts /\ table_like t t'.
    Lemma in_taliases l w : In w (taliases l) <-> exists t, In t l /\ t_alias t = Some w.
    Proof. apply in_pick. Qed.
    Lemma like_aliases w : In (rt w) (taliases ts') <-> In w (taliases ts).
    Proof.
      rewrite !in_taliases. split.
      - intros (t' & Ht' & E). destruct (T2 t' Ht') as (t & Ht & (_ & _ & Ha & _)). exists t. split; [exact Ht|]. rewrite Ha in E.
        destruct (t_alias t); [|discriminate]. injection E as E. apply It in E. congruence.
      - intros (t & Ht & E). destruct (T1 t Ht) as (t' & Ht' & (_ & _ & Ha & _)). exists t'. split; [exact Ht'|]. rewrite Ha, E. reflexivity.
    Qed.
    Lemma like_leads e so n : leads_to ts e so n -> leads_to ts' (ren_end e) (option_map rs so) (rt n).
    Proof.
      intros [t Ht Ha|Hn].
      - destruct (T1 t Ht) as (t' & Ht' & L). pose proof (like_tname _ _ L) as En. destruct L as (_ & _ & Ha' & _).
        replace (option_map rs (Some (fst (tname t)))) with (Some (fst (tname t'))) by (rewrite En; reflexivity).
        replace (rt (snd (tname t))) with (snd (tname t')) by (rewrite En; reflexivity).
        apply lt_alias; [exact Ht'|]. rewrite Ha', Ha. reflexivity.
      - apply (lt_name ts' (ren_end e)). cbn [ren_end e_table]. rewrite like_aliases. exact Hn.
    Qed.
    Lemma like_leads_inv e so' n' : leads_to ts' (ren_end e) so' n' -> exists so n, so' = option_map rs so /\ n' = rt n /\ leads_to ts e so n.
    Proof.
      intros [t' Ht' Ha|Hn].
      - destruct (T2 t' Ht') as (t & Ht & L). pose proof (like_tname _ _ L) as En. destruct L as (_ & _ & Ha' & _).
        exists (Some (fst (tname t))), (snd (tname t)). rewrite En. split; [reflexivity|]. split; [reflexivity|]. apply lt_alias; [exact Ht|].
        cbn [ren_end e_table] in Ha. rewrite Ha' in Ha. destruct (t_alias t); [|discriminate]. injection Ha as Ha. apply It in Ha. congruence.
      - cbn [ren_end e_table] in Hn. rewrite like_aliases in Hn. exists (e_schema e), (e_table e). split; [reflexivity|]. split; [reflexivity|].
        apply lt_name. exact Hn.
    Qed.
    Lemma like_same_columns a b : same_columns ts' (ren_end a) (ren_end b) -> same_columns ts a b.
    Proof.
      intros [(so & n & H1 & H2) H3]. apply like_leads_inv in H1 as (so1 & n1 & E1 & F1 & H1). apply like_leads_inv in H2 as (so2 & n2 & E2 & F2 & H2).
      rewrite E1 in E2. apply option_rs_inj in E2. rewrite F1 in F2. apply It in F2. subst so2 n2. split; [exists so1, n1; auto|].
      cbn [ren_end e_cols] in H3. intros k. specialize (H3 (rc k)). rewrite !in_map_iff in H3. split; intros Hk.
      - destruct (proj1 H3) as (x & E & Hx); [exists k; auto|]. apply Ic in E. congruence.
      - destruct (proj2 H3) as (x & E & Hx); [exists k; auto|]. apply Ic in E. congruence.
    Qed.
    Lemma flip_sym r : flip r = One2One \/ flip r = Many2Many <-> r = One2One \/ r = Many2Many.
    Proof. destruct r; cbn; split; intros [E|E]; try discriminate; auto. Qed.
    Lemma many_mirror k : many_side (mirror k) = many_side k.
    Proof. destruct k as [[] l r]; reflexivity. Qed.
    Lemma clash_mirror_l k o : clash ts k o -> clash ts (mirror k) o.
    Proof.
      intros [(H1 & H2 & H3 & H4)|H]; [left|right; rewrite many_mirror; exact H].
      destruct k as [r l r']; cbn [mirror k_rel k_lhs k_rhs] in *. split; [apply flip_sym; exact H1|]. split; [|auto]. destruct H1 as [->| ->]; exact H2.
    Qed.
    Lemma clash_mirror_r k o : clash ts k o -> clash ts k (mirror o).
    Proof.
      intros [(H1 & H2 & H3 & H4)|H]; [left|right; rewrite many_mirror; exact H].
      destruct o as [r l r']; cbn [mirror k_rel k_lhs k_rhs] in *. split; [exact H1|]. split; [rewrite H2; destruct H1 as [->| ->]; reflexivity|]. tauto.
    Qed.
    Lemma mirror_twice k : mirror (mirror k) = k.
    Proof. destruct k as [[] l r]; reflexivity. Qed.
  End Tables.
  Lemma like_clash ts ts' : (forall t, In t ts -> exists t', In t' ts' /\ table_like t t') -> (forall t', In t' ts' -> exists t, In t ts /\ table_like t t') ->
    forall k o k' o', link_like k k' -> link_like o o' -> clash ts' k' o' -> clash ts k o.
  Proof.
    intros T1 T2.
    assert (R : forall k o, clash ts' (ren_link k) (ren_link o) -> clash ts k o).
    { intros k o [(H1 & H2 & H3 & H4)|(a & b & Ha & Hb & H)].
      - left. cbn [ren_link k_rel k_lhs k_rhs] in *. split; [exact H1|]. split; [exact H2|].
        split; [destruct H3 as [H3|H3]|destruct H4 as [H4|H4]]; eauto using like_same_columns.
      - right. assert (M : forall k, many_side (ren_link k) = option_map ren_end (many_side k)) by (intros [[] ? ?]; reflexivity).
        rewrite M in Ha, Hb. destruct (many_side k) as [a0|]; [|discriminate]. destruct (many_side o) as [b0|]; [|discriminate].
        injection Ha as <-. injection Hb as <-. exists a0, b0. split; [reflexivity|]. split; [reflexivity|]. eapply like_same_columns; eassumption. }
    intros k o k' o' [->| ->] [->| ->] H.
    - apply R. exact H.
    - apply clash_mirror_r in H. rewrite mirror_twice in H. apply R. exact H.
    - apply clash_mirror_l in H. rewrite mirror_twice in H. apply R. exact H.
    - apply clash_mirror_l in H. rewrite mirror_twice in H. apply clash_mirror_r in H. rewrite mirror_twice in H. apply R. exact H.
  Qed.

  Lemma like_col_in t t' c' : table_like t t' -> In c' (t_cols t') -> exists c, In c (t_cols t) /\ col_like c c'.
  Proof.
    intros (_ & _ & _ & _ & (l & P & F) & _) Hc. destruct (f2_in_r _ _ _ _ F Hc) as (c & H1 & H2). exists c. split; [|exact H2].
    eapply Permutation_in; [symmetry; exact P|exact H1].
  Qed.
  Lemma like_col_out t t' c : table_like t t' -> In c (t_cols t) -> exists c', In c' (t_cols t') /\ col_like c c'.
  Proof.
    intros (_ & _ & _ & _ & (l & P & F) & _) Hc. apply (f2_in_l _ _ _ _ F). eapply Permutation_in; [exact P|exact Hc].
  Qed.
  Lemma like_names t t' : table_like t t' -> Permutation (map rc (map c_name (t_cols t))) (map c_name (t_cols t')).
  Proof.
    intros (_ & _ & _ & _ & (l & P & F) & _). rewrite <- (f2_map_eq (fun c => rc (c_name c)) c_name _ _ _ F); [|intros a b H; symmetry; apply H].
    rewrite map_map. apply Permutation_map. exact P.
  Qed.
  (** Without two columns of one name, at most one primary key column means just that. *)
  Lemma one_pk (l : list a_col) : NoDup (map c_name l) ->
    ((forall l1 c l2 c', l = l1 ++ c :: l2 -> is_pk c -> In c' l1 -> ~ is_pk c') <-> (forall c c', In c l -> In c' l -> is_pk c -> is_pk c' -> c_name c = c_name c')).
  Proof.
    intros Hn. split.
    - intros H c c' Hc Hc' Hp Hp'. apply in_split in Hc as (l1 & l2 & ->). apply in_app_or in Hc' as [Hc'|[<-|Hc']]; [|reflexivity|].
      + exfalso. exact (H l1 c l2 c' eq_refl Hp Hc' Hp').
      + exfalso. apply in_split in Hc' as (m1 & m2 & ->). apply (H (l1 ++ c :: m1) c' m2 c); [rewrite <- app_assoc; reflexivity|exact Hp'|apply in_or_app; right; left; reflexivity|exact Hp].
    - intros H l1 c l2 c' -> Hp Hc' Hp'. rewrite map_app in Hn. cbn [map] in Hn. apply NoDup_remove_2 in Hn. apply Hn.
      rewrite (H c c'); [apply in_or_app; left; apply in_map; exact Hc'|apply in_mid|apply in_or_app; left; exact Hc'|exact Hp|exact Hp'].
  Qed.
  Lemma incl_map_inv (l l' : list str) : incl (map rc l) (map rc l') -> incl l l'.
  Proof. intros H k Hk. apply (in_map rc) in Hk. apply H in Hk. apply in_map_iff in Hk as (x & E & Hx). apply Ic in E. congruence. Qed.
  Lemma map_rc_inj (l : list str) : forall l', map rc l = map rc l' -> l = l'.
  Proof. induction l as [|a l IH]; intros [|b l'] E; try discriminate; [reflexivity|]. injection E as E1 E2. f_equal; [apply Ic; exact E1|apply IH; exact E2]. Qed.

  Lemma like_keys t t' : table_like t t' -> NoDup (map c_name (t_cols t)) -> valid_keys t -> valid_keys t'.
  Proof.
    intros L Hn (H1 & H2 & H3). split; [|split].
    - apply Forall_forall. intros c' Hc'. destruct (like_col_in _ _ _ L Hc') as (c & Hc & C). rewrite Forall_forall in H1. specialize (H1 c Hc).
      destruct C as (_ & Ct & _ & Cp & _ & Cn & Cnn & _). unfold valid_col_keys in *. rewrite Ct, <- Cp, <- Cn, <- Cnn. exact H1.
    - assert (Hn' : NoDup (map c_name (t_cols t'))).
      { eapply Permutation_NoDup; [apply (like_names _ _ L)|]. apply nodup_map_inj; assumption. }
      apply (proj2 (one_pk _ Hn')). intros c c' Hc Hc' Hp Hp'.
      destruct (like_col_in _ _ _ L Hc) as (u & Hu & (Eu & _ & _ & Pu & _)). destruct (like_col_in _ _ _ L Hc') as (w & Hw & (Ew & _ & _ & Pw & _)).
      rewrite Eu, Ew. f_equal. apply (proj1 (one_pk _ Hn) H2); [exact Hu|exact Hw|apply Pu; exact Hp|apply Pw; exact Hp'].
    - intros l1 d l2 E. pose proof L as (_ & _ & _ & _ & _ & D). rewrite E in D. apply f2_split_r in D as (m1 & u & m2 & Em & D1 & Du & _).
      destruct (H3 _ _ _ Em) as (V1 & V2 & V3 & V4 & V5 & V6 & V7 & V8 & V9). destruct Du as (Dl & Dn & Do & Dp & Dq & Dt & Dk).
      split; [|split; [|split; [|split; [|split; [|split; [|split; [|split]]]]]]].
      + intros E0. rewrite E0 in Dl. apply V1. destruct (x_cols u); [reflexivity|discriminate].
      + rewrite Dn. intros w Hw. apply in_map_iff in Hw as (x & <- & Hx). apply V2 in Hx. eapply Permutation_in; [apply (like_names _ _ L)|]. apply in_map. exact Hx.
      + auto.
      + rewrite <- Dp, <- Dq. exact V4.
      + intros [A B]. apply V5. split; [apply Dp; exact A|apply Dt; exact B].
      + intros [A B]. apply V6. split; [apply Dq; exact A|apply Dt; exact B].
      + intros Hp. apply Dp in Hp. destruct (V7 Hp) as [W1 W2]. split.
        * intros c Hc Hpc. destruct (like_col_in _ _ _ L Hc) as (w & Hw & (_ & _ & _ & Pw & _)). apply (W1 w Hw). apply Pw. exact Hpc.
        * intros d' Hd' Hpd. destruct (f2_in_r _ _ _ _ D1 Hd') as (w & Hw & (_ & Wn & _ & Wp & _)). rewrite Wn, (W2 w Hw); [reflexivity|]. apply Wp. exact Hpd.
      + intros Hq. apply Dq in Hq. destruct (V8 Hq) as [W1 W2]. split.
        * intros c Hc Hqc Hi. destruct (like_col_in _ _ _ L Hc) as (w & Hw & (Ew & _ & _ & _ & Qw & _)). apply (W1 w Hw); [apply Qw; exact Hqc|].
          rewrite Dn, Ew in Hi. apply (incl_map_inv _ [c_name w]). exact Hi.
        * intros d' Hd' Hqd Hi. destruct (f2_in_r _ _ _ _ D1 Hd') as (w & Hw & (_ & Wn & _ & _ & Wq & _)). apply (W2 w Hw); [apply Wq; exact Hqd|].
          rewrite Dn, Wn in Hi. apply incl_map_inv. exact Hi.
      + intros d' k k' Hd' Hk Hk' En. destruct (f2_in_r _ _ _ _ D1 Hd') as (w & Hw & (_ & Wn & _ & _ & _ & _ & Wk)).
        apply (V9 w k k' Hw (Dk k Hk) (Wk k' Hk')). rewrite Dn, Wn in En. apply map_rc_inj. exact En.
  Qed.
  Lemma like_types es es' t t' : (forall e, In e es -> exists e', In e' es' /\ enum_like e e') -> table_like t t' ->
    Forall (valid_col_type es) (t_cols t) -> Forall (valid_col_type es') (t_cols t').
  Proof.
    intros He L H. apply Forall_forall. intros c' Hc'. destruct (like_col_in _ _ _ L Hc') as (c & Hc & (_ & Ct & _ & _ & _ & Cn & _ & Cd)).
    rewrite Forall_forall in H. destruct (H c Hc) as (raw & tn & H1 & H2 & H3 & H4). exists raw, tn. rewrite Ct. split; [exact H1|]. split; [exact H2|]. split; [exact H3|].
    intros v Hv. destruct (H4 v (Cd v Hv)) as [H5 H6]. split.
    - destruct v; cbn [valid_default] in *; try exact H5. apply Cn. exact H5.
    - intros Hb so n En. destruct (H6 Hb so n En) as (e & Hi & E1 & E2). destruct (He e Hi) as (e' & Hi' & (F1 & F2 & _)). exists e'. split; [exact Hi'|]. rewrite F1. split; [exact E1|]. apply F2. exact E2.
  Qed.
  Lemma like_are_key t t' cols : table_like t t' -> (are_key t' (map rc cols) <-> are_key t cols).
  Proof.
    intros (_ & _ & _ & _ & _ & D). unfold are_key. split.
    - intros (d' & Hd & Hk & Hl & Hs). destruct (f2_in_r _ _ _ _ D Hd) as (d & Hi & (Dl & Dn & _ & Dp & Dq & _)). exists d. split; [exact Hi|].
      split; [tauto|]. rewrite map_length in Hl. split; [congruence|]. rewrite Dn in Hs. intros k. specialize (Hs (rc k)). rewrite !in_map_iff in Hs. split; intros Hk0.
      + destruct (proj1 Hs) as (x & E & Hx); [exists k; auto|]. apply Ic in E. congruence.
      + destruct (proj2 Hs) as (x & E & Hx); [exists k; auto|]. apply Ic in E. congruence.
    - intros (d & Hd & Hk & Hl & Hs). destruct (f2_in_l _ _ _ _ D Hd) as (d' & Hi & (Dl & Dn & _ & Dp & Dq & _)). exists d'. split; [exact Hi|].
      split; [tauto|]. rewrite map_length. split; [congruence|]. rewrite Dn. intros k. rewrite !in_map_iff. split; intros (x & E & Hx); exists x; (split; [exact E|]); apply Hs; exact Hx.
  Qed.
  Lemma types_sym c c' : types_agree c c' -> types_agree c' c.
  Proof. intros ((tn & A & B) & C & D). split; [exists tn; auto|]. split; congruence. Qed.
  Lemma f2_sym {A B} (R : A -> B -> Prop) (Q : B -> A -> Prop) l l' : (forall a b, R a b -> Q b a) -> Forall2 R l l' -> Forall2 Q l' l.
  Proof. intros K. induction 1; constructor; auto. Qed.
  Lemma valid_mirror ts k : valid_link ts k -> valid_link ts (mirror k).
  Proof.
    intros (lt & rt0 & lcs & rcs & H1 & H2 & H3 & H4 & H5 & H6 & H7). exists rt0, lt, rcs, lcs. destruct k as [r l r']; cbn [mirror k_rel k_lhs k_rhs] in *.
    split; [exact H2|]. split; [exact H1|]. split; [exact H4|]. split; [exact H3|]. split; [eapply f2_sym; [apply types_sym|exact H5]|]. split.
    - intros lc rc0 El Er. specialize (H6 rc0 lc Er El). destruct r; cbn in *; tauto.
    - intros Hl. rewrite <- (f2_len _ _ _ H5) in Hl. specialize (H7 Hl). destruct r; cbn in *; tauto.
  Qed.
  Lemma like_link ts ts' k k' : (forall t, In t ts -> exists t', In t' ts' /\ table_like t t') -> (forall t', In t' ts' -> exists t, In t ts /\ table_like t t') ->
    link_like k k' -> valid_link ts k -> valid_link ts' k'.
  Proof.
    intros T1 T2. enough (R : valid_link ts k -> valid_link ts' (ren_link k)).
    { intros [->| ->] H; [apply R; exact H|apply valid_mirror, R; exact H]. }
    intros (lt & rt0 & lcs & rcs & [H1 G1] & [H2 G2] & H3 & H4 & H5 & H6 & H7).
    destruct (T1 lt H1) as (lt' & I1 & L1). destruct (T1 rt0 H2) as (rt' & I2 & L2).
    assert (N : forall t t' cols l, table_like t t' -> Forall2 (col_named t) cols l -> exists l', Forall2 (col_named t') (map rc cols) l' /\ Forall2 col_like l l').
    { intros t t' cols l L H. induction H as [|w c cols l [Hc Ew] _ (l' & A & B)]; [exists []; split; constructor|].
      destruct (like_col_out _ _ _ L Hc) as (c' & Hc' & C). exists (c' :: l'). split; [|constructor; assumption]. cbn [map]. constructor; [|exact A].
      split; [exact Hc'|]. destruct C as (C & _). rewrite C. f_equal. exact Ew. }
    destruct (N _ _ _ _ L1 H3) as (lcs' & A1 & B1). destruct (N _ _ _ _ L2 H4) as (rcs' & A2 & B2).
    exists lt', rt', lcs', rcs'. cbn [ren_link k_rel k_lhs k_rhs ren_end e_cols].
    assert (FD : forall e t t', In t' ts' -> table_like t t' -> leads_to ts e (t_schema t) (t_name t) -> found ts' (ren_end e) t').
    { intros e t t' Hi L G. split; [exact Hi|]. destruct L as (E1 & E2 & _). rewrite E1, E2. eapply like_leads; eassumption. }
    split; [eapply FD; eassumption|]. split; [eapply FD; eassumption|]. split; [exact A1|]. split; [exact A2|].
    split; [|split].
    - clear -H5 B1 B2. revert lcs' rcs' B1 B2. induction H5 as [|c d l l' H _ IH]; intros lcs' rcs' B1 B2; inversion B1; inversion B2; subst; constructor; auto.
      match goal with A : col_like c _, B : col_like d _ |- _ => pose proof (proj1 (proj2 A)) as EA; pose proof (proj1 (proj2 B)) as EB end.
      unfold types_agree, type_is in *. rewrite EA, EB. exact H.
    - intros lc rc0 -> ->. inversion B1 as [|lc0 ? l0 ? C1 N1]; subst. inversion B2 as [|rc1 ? r0 ? C2 N2]; subst. inversion N1; subst. inversion N2; subst.
      specialize (H6 lc0 rc1 eq_refl eq_refl). destruct C1 as (_ & _ & _ & P1 & U1 & _), C2 as (_ & _ & _ & P2 & U2 & _).
      eapply single_iff; [| |exact H6]; unfold is_key; tauto.
    - intros Hl. rewrite <- (f2_len _ _ _ B1) in Hl. specialize (H7 Hl). eapply composite_iff; [| |exact H7]; apply like_are_key; assumption.
  Qed.
  Lemma ren_item_inj x y : ren_item x = ren_item y -> x = y.
  Proof. destruct x as [o n], y as [o' n']. unfold ren_item. cbn. intros E. injection E as E1 E2. apply option_rs_inj in E1. apply It in E2. congruence. Qed.
  Lemma like_item ts ts' d p : (forall t, In t ts -> exists t', In t' ts' /\ table_like t t') -> (forall t', In t' ts' -> exists t, In t ts /\ table_like t t') ->
    item_is ts d p -> item_is ts' (ren_item d) (ren_pair p).
  Proof.
    intros T1 T2 [sc n|t n Ht Ha|t n Hn Ht En]; unfold ren_item; cbn [fst snd option_map].
    - apply (ii_qualified ts' (rs sc) (rt n)).
    - destruct (T1 t Ht) as (t' & Ht' & L). rewrite <- (like_tname _ _ L). apply ii_alias; [exact Ht'|]. destruct L as (_ & _ & E & _). rewrite E, Ha. reflexivity.
    - destruct (T1 t Ht) as (t' & Ht' & L). rewrite <- (like_tname _ _ L). apply ii_table; [|exact Ht'|].
      + rewrite (like_aliases ts ts' T1 T2). exact Hn.
      + rewrite (like_tname _ _ L), En. unfold ren_pair. cbn [fst snd]. rewrite Ip. reflexivity.
  Qed.
  Lemma f2_perm {A B} (R : A -> B -> Prop) l l' : Permutation l l' -> forall m, Forall2 R l m -> exists m', Permutation m m' /\ Forall2 R l' m'.
  Proof.
    induction 1 as [|a l l' _ IH|a b l|l l' l'' _ IH1 _ IH2]; intros m H.
    - inversion H; subst. exists []. auto.
    - inversion H as [|? x ? m0 H1 H2]; subst. destruct (IH _ H2) as (m' & P & H3). exists (x :: m'). split; [constructor; exact P|constructor; assumption].
    - inversion H as [|? x ? m0 H1 H2]; subst. inversion H2 as [|? y ? m1 H3 H4]; subst. exists (y :: x :: m1). split; [constructor|]. repeat constructor; assumption.
    - destruct (IH1 _ H) as (m1 & P1 & H1). destruct (IH2 _ H1) as (m2 & P2 & H2). exists m2. split; [eapply perm_trans; eassumption|exact H2].
  Qed.

  Theorem like_valid a b : like a b -> valid a -> valid b.
  Proof.
    intros [Lp (lt & Pt & Ft) (le & Pe & Fe) (lg & Pg & Fg) Lr (ll & Pl & Fl)] [V1 V2 V3 V4 V5 V6 V7 V8 V9 V10 V11 V12 V13].
    assert (T1 : forall t, In t (tables_of a) -> exists t', In t' (tables_of b) /\ table_like t t').
    { intros t Ht. apply (f2_in_l _ _ _ _ Ft). eapply Permutation_in; eassumption. }
    assert (T2 : forall t', In t' (tables_of b) -> exists t, In t (tables_of a) /\ table_like t t').
    { intros t' Ht. destruct (f2_in_r _ _ _ _ Ft Ht) as (t & H1 & H2). exists t. split; [eapply Permutation_in; [symmetry; exact Pt|exact H1]|exact H2]. }
    assert (E1 : forall e, In e (enums_of a) -> exists e', In e' (enums_of b) /\ enum_like e e').
    { intros t Ht. apply (f2_in_l _ _ _ _ Fe). eapply Permutation_in; eassumption. }
    constructor.
    - apply Lp. exact V1.
    - rewrite <- (f2_map_eq (fun t => ren_pair (tname t)) tname _ _ _ Ft); [|intros t t' L; symmetry; apply like_tname; exact L].
      rewrite <- (map_map tname ren_pair). apply nodup_map_inj; [exact ren_pair_inj|]. eapply Permutation_NoDup; [apply Permutation_map; exact Pt|exact V2].
    - assert (E : taliases (tables_of b) = map rt (taliases lt)).
      { unfold taliases, pick. clear -Ft. induction Ft as [|t t' l l' (_ & _ & Ha & _) _ IH]; [reflexivity|]. cbn [flat_map]. rewrite map_app, IH, Ha. destruct (t_alias t); reflexivity. }
      rewrite E. apply nodup_map_inj; [exact It|]. eapply Permutation_NoDup; [|exact V3]. unfold taliases, pick. apply CheckFacts.perm_flat_map. exact Pt.
    - eapply f2_forall; [exact Ft| |eapply Permutation_Forall; [exact Pt|exact V4]]. intros t t' L (H1 & H2 & H3). pose proof L as (_ & _ & _ & Lo & _). split; [auto|]. split.
      + eapply Permutation_NoDup; [apply (like_names _ _ L)|]. apply nodup_map_inj; assumption.
      + apply Forall_forall. intros c' Hc'. destruct (like_col_in _ _ _ L Hc') as (c & Hc & (_ & _ & Co & _)). apply Co. rewrite Forall_forall in H3. auto.
    - rewrite <- (f2_map_eq ename ename _ _ _ Fe); [|intros t t' L; symmetry; apply L]. eapply Permutation_NoDup; [apply Permutation_map; exact Pe|exact V5].
    - eapply f2_forall; [exact Fe| |eapply Permutation_Forall; [exact Pe|exact V6]]. intros e e' (_ & _ & H1 & H2) [H3 H4]. auto.
    - rewrite <- (f2_map_eq g_name g_name _ _ _ Fg); [|intros t t' L; symmetry; apply L]. eapply Permutation_NoDup; [apply Permutation_map; exact Pg|exact V7].
    - eapply f2_forall; [exact Fg| |eapply Permutation_Forall; [exact Pg|exact V8]]. intros g g' [_ H1] (ids & H2 & H3).
      assert (H4 : Forall2 (item_is (tables_of b)) (map ren_item (g_items g)) (map ren_pair ids)).
      { apply (proj2 (forall2_map_l _ _ _ _)), (proj2 (forall2_map_r _ _ _ _)). eapply f2_impl; [|exact H2]. intros d p. apply like_item; assumption. }
      destruct (f2_perm _ _ _ H1 _ H4) as (ids' & P & H5). exists ids'. split; [exact H5|]. eapply Permutation_NoDup; [exact P|]. apply nodup_map_inj; [exact ren_pair_inj|exact H3].
    - eapply f2_forall; [exact Ft| |eapply Permutation_Forall; [exact Pt|]].
      2:{ apply Forall_and; [exact V4|exact V9]. }
      intros t t' L [(_ & Hn & _) Hk]. eapply like_keys; eassumption.
    - eapply f2_forall; [exact Ft| |eapply Permutation_Forall; [exact Pt|exact V10]]. intros t t' L. apply like_types; assumption.
    - apply Lr. exact V11.
    - eapply f2_forall; [exact Fl| |eapply Permutation_Forall; [exact Pl|exact V12]]. intros k k'. apply like_link; assumption.
    - intros l1 k' l2 E. rewrite E in Fl. apply f2_split_r in Fl as (m1 & k & m2 & -> & F1 & Fk & F2).
      assert (Hk : In k (links a)) by (eapply Permutation_in; [symmetry; exact Pl|apply in_mid]).
      apply in_split in Hk as (n1 & n2 & En). destruct (V13 _ _ _ En) as [U1 U2]. split.
      + destruct Fk as [->| ->]; [exact U1|]. destruct k as [[] ? ?]; cbn in *; congruence.
      + intros o' Ho' Hc. assert (Ho : exists o, In o (m1 ++ m2) /\ link_like o o').
        { apply in_app_or in Ho' as [Ho'|Ho']; [destruct (f2_in_r _ _ _ _ F1 Ho') as (o & A & B)|destruct (f2_in_r _ _ _ _ F2 Ho') as (o & A & B)]; exists o; (split; [apply in_or_app; auto|exact B]). }
        destruct Ho as (o & Ho & Lo). apply (U2 o).
        * rewrite En in Pl. apply Permutation_app_inv in Pl. eapply Permutation_in; [symmetry; exact Pl|exact Ho].
        * eapply like_clash; [exact T1|exact T2|exact Fk|exact Lo|exact Hc].
  Qed.
End Like.
